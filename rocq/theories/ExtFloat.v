(** Model of internal/strconv/extfloat.go. *)
From Coq Require Import ZArith String List Bool.
From Verif Require Import GoBase BigFloat.
Import ListNotations.
Open Scope Z_scope.

(** ftoa.go:22-26 *)
Record floatInfo := mkInfo { mantbits : Z; expbits : Z; bias : Z }.

(** ftoa.go:28-30 *)
Definition float16info : floatInfo := mkInfo 10 5 (-15).
(** ftoa.go:29 *)
Definition float32info : floatInfo := mkInfo 23 8 (-127).
(** ftoa.go:30 *)
Definition float64info : floatInfo := mkInfo 52 11 (-1023).

(** ftoa.go:337-341.  [sd] holds the first nd digits of the slice (values 0..9; Go keeps
    bytes); the bytes after them are not observable.  [scap] is the length of the slice:
    writing at or beyond it panics. *)
Record decimalSlice := mkSlice { sd : list Z; scap : Z; sdp : Z; sneg : bool }.
(** The field nd: ftoa.go:339. *)
Definition snd_ (s : decimalSlice) : Z := Z.of_nat (length (sd s)).

(** extfloat.go:15-19 *)
Record extFloat := mkExt { mant : Z; exp : Z; neg : bool }.

(** extfloat.go:23-26 *)
Definition firstPowerOfTen : Z := -348.
(** extfloat.go:25 *)
Definition stepPowerOfTen : Z := 8.

(** extfloat.go:28-37 *)
Definition smallPowersOfTen : list extFloat := [
  mkExt (Z.shiftl 1 63) (-63) false;
  mkExt (Z.shiftl 0xa 60) (-60) false;
  mkExt (Z.shiftl 0x64 57) (-57) false;
  mkExt (Z.shiftl 0x3e8 54) (-54) false;
  mkExt (Z.shiftl 0x2710 50) (-50) false;
  mkExt (Z.shiftl 0x186a0 47) (-47) false;
  mkExt (Z.shiftl 0xf4240 44) (-44) false;
  mkExt (Z.shiftl 0x989680 40) (-40) false].

(** extfloat.go:39-127 *)
Definition powersOfTen : list extFloat := [
  mkExt 0xfa8fd5a0081c0288 (-1220) false;
  mkExt 0xbaaee17fa23ebf76 (-1193) false;
  mkExt 0x8b16fb203055ac76 (-1166) false;
  mkExt 0xcf42894a5dce35ea (-1140) false;
  mkExt 0x9a6bb0aa55653b2d (-1113) false;
  mkExt 0xe61acf033d1a45df (-1087) false;
  mkExt 0xab70fe17c79ac6ca (-1060) false;
  mkExt 0xff77b1fcbebcdc4f (-1034) false;
  mkExt 0xbe5691ef416bd60c (-1007) false;
  mkExt 0x8dd01fad907ffc3c (-980) false;
  mkExt 0xd3515c2831559a83 (-954) false;
  mkExt 0x9d71ac8fada6c9b5 (-927) false;
  mkExt 0xea9c227723ee8bcb (-901) false;
  mkExt 0xaecc49914078536d (-874) false;
  mkExt 0x823c12795db6ce57 (-847) false;
  mkExt 0xc21094364dfb5637 (-821) false;
  mkExt 0x9096ea6f3848984f (-794) false;
  mkExt 0xd77485cb25823ac7 (-768) false;
  mkExt 0xa086cfcd97bf97f4 (-741) false;
  mkExt 0xef340a98172aace5 (-715) false;
  mkExt 0xb23867fb2a35b28e (-688) false;
  mkExt 0x84c8d4dfd2c63f3b (-661) false;
  mkExt 0xc5dd44271ad3cdba (-635) false;
  mkExt 0x936b9fcebb25c996 (-608) false;
  mkExt 0xdbac6c247d62a584 (-582) false;
  mkExt 0xa3ab66580d5fdaf6 (-555) false;
  mkExt 0xf3e2f893dec3f126 (-529) false;
  mkExt 0xb5b5ada8aaff80b8 (-502) false;
  mkExt 0x87625f056c7c4a8b (-475) false;
  mkExt 0xc9bcff6034c13053 (-449) false;
  mkExt 0x964e858c91ba2655 (-422) false;
  mkExt 0xdff9772470297ebd (-396) false;
  mkExt 0xa6dfbd9fb8e5b88f (-369) false;
  mkExt 0xf8a95fcf88747d94 (-343) false;
  mkExt 0xb94470938fa89bcf (-316) false;
  mkExt 0x8a08f0f8bf0f156b (-289) false;
  mkExt 0xcdb02555653131b6 (-263) false;
  mkExt 0x993fe2c6d07b7fac (-236) false;
  mkExt 0xe45c10c42a2b3b06 (-210) false;
  mkExt 0xaa242499697392d3 (-183) false;
  mkExt 0xfd87b5f28300ca0e (-157) false;
  mkExt 0xbce5086492111aeb (-130) false;
  mkExt 0x8cbccc096f5088cc (-103) false;
  mkExt 0xd1b71758e219652c (-77) false;
  mkExt 0x9c40000000000000 (-50) false;
  mkExt 0xe8d4a51000000000 (-24) false;
  mkExt 0xad78ebc5ac620000 3 false;
  mkExt 0x813f3978f8940984 30 false;
  mkExt 0xc097ce7bc90715b3 56 false;
  mkExt 0x8f7e32ce7bea5c70 83 false;
  mkExt 0xd5d238a4abe98068 109 false;
  mkExt 0x9f4f2726179a2245 136 false;
  mkExt 0xed63a231d4c4fb27 162 false;
  mkExt 0xb0de65388cc8ada8 189 false;
  mkExt 0x83c7088e1aab65db 216 false;
  mkExt 0xc45d1df942711d9a 242 false;
  mkExt 0x924d692ca61be758 269 false;
  mkExt 0xda01ee641a708dea 295 false;
  mkExt 0xa26da3999aef774a 322 false;
  mkExt 0xf209787bb47d6b85 348 false;
  mkExt 0xb454e4a179dd1877 375 false;
  mkExt 0x865b86925b9bc5c2 402 false;
  mkExt 0xc83553c5c8965d3d 428 false;
  mkExt 0x952ab45cfa97a0b3 455 false;
  mkExt 0xde469fbd99a05fe3 481 false;
  mkExt 0xa59bc234db398c25 508 false;
  mkExt 0xf6c69a72a3989f5c 534 false;
  mkExt 0xb7dcbf5354e9bece 561 false;
  mkExt 0x88fcf317f22241e2 588 false;
  mkExt 0xcc20ce9bd35c78a5 614 false;
  mkExt 0x98165af37b2153df 641 false;
  mkExt 0xe2a0b5dc971f303a 667 false;
  mkExt 0xa8d9d1535ce3b396 694 false;
  mkExt 0xfb9b7cd9a4a7443c 720 false;
  mkExt 0xbb764c4ca7a44410 747 false;
  mkExt 0x8bab8eefb6409c1a 774 false;
  mkExt 0xd01fef10a657842c 800 false;
  mkExt 0x9b10a4e5e9913129 827 false;
  mkExt 0xe7109bfba19c0c9d 853 false;
  mkExt 0xac2820d9623bf429 880 false;
  mkExt 0x80444b5e7aa7cf85 907 false;
  mkExt 0xbf21e44003acdd2d 933 false;
  mkExt 0x8e679c2f5e44ff8f 960 false;
  mkExt 0xd433179d9c8cb841 986 false;
  mkExt 0x9e19db92b4e31ba9 1013 false;
  mkExt 0xeb96bf6ebadf77d9 1039 false;
  mkExt 0xaf87023b9bf0ee6b 1066 false].

(** extfloat.go:234-237 *)
Definition uint64pow10 : list Z := [
  1; 10; 100; 1000; 10000; 100000; 1000000; 10000000; 100000000; 1000000000;
  10000000000; 100000000000; 1000000000000; 10000000000000; 100000000000000;
  1000000000000000; 10000000000000000; 100000000000000000; 1000000000000000000;
  10000000000000000000].

(** l[i] with Go's bounds check: extfloat.go:264-275,331,343-352,393,582. *)
Definition at_ {A : Type} (l : list A) (i : Z) : outcome A :=
  if i <? 0 then Panic
  else match nth_error l (Z.to_nat i) with Some x => Ret x | None => Panic end.

(** bits.LeadingZeros64(x), x not 0: extfloat.go:208. *)
Definition leadingZeros64 (x : Z) : Z := 64 - bitlen x.

(** extfloat.go:203-212: f and the shift. *)
Definition Normalize (f : extFloat) : extFloat * Z :=
  if mant f =? 0 then (f, 0)
  else
    let shift := leadingZeros64 (mant f) in
    (mkExt (u64 (Z.shiftl (mant f) shift)) (exp f - shift) (neg f), shift).

(** extfloat.go:216-232 *)
Definition Multiply (f g : extFloat) : extFloat :=
  let fhi := Z.shiftr (mant f) 32 in
  let flo := u32 (mant f) in
  let ghi := Z.shiftr (mant g) 32 in
  let glo := u32 (mant g) in
  let cross1 := u64 (fhi * glo) in
  let cross2 := u64 (flo * ghi) in
  let m := u64 (u64 (u64 (fhi * ghi) + Z.shiftr cross1 32) + Z.shiftr cross2 32) in
  let rem := u64 (u64 (u32 cross1 + u32 cross2) + Z.shiftr (u64 (flo * glo)) 32) in
  let rem := u64 (rem + 2 ^ 31) in
  mkExt (u64 (m + Z.shiftr rem 32)) (exp f + exp g + 64) (neg f).

(** extfloat.go:132-174: bits and overflow. *)
Definition floatBits (f : extFloat) (flt : floatInfo) : Z * bool :=
  let '(f, _) := Normalize f in
  let e := exp f + 63 in
  (* 138-142 *)
  let '(m, e) :=
    if e <? bias flt + 1 then
      let n := bias flt + 1 - e in
      (Z.shiftr (mant f) n, e + n)
    else (mant f, e) in
  (* 145-149 *)
  let mt := Z.shiftr m (63 - mantbits flt) in
  let mt := if negb (Z.land m (2 ^ (62 - mantbits flt)) =? 0) then u64 (mt + 1) else mt in
  (* 152-155 *)
  let '(mt, e) :=
    if mt =? 2 * 2 ^ mantbits flt then (Z.shiftr mt 1, e + 1) else (mt, e) in
  (* 158-166 *)
  let '(mt, e, overflow) :=
    if 2 ^ expbits flt - 1 <=? e - bias flt then (0, 2 ^ expbits flt - 1 + bias flt, true)
    else if Z.land mt (2 ^ mantbits flt) =? 0 then (mt, bias flt, false)
    else (mt, e, false) in
  (* 168-173 *)
  let bits := Z.land mt (2 ^ mantbits flt - 1) in
  let bits := Z.lor bits
    (u64 (Z.shiftl (u64 (Z.land (e - bias flt) (2 ^ expbits flt - 1))) (mantbits flt))) in
  let bits := if neg f then Z.lor bits (2 ^ (mantbits flt + expbits flt)) else bits in
  (bits, overflow).

(** extfloat.go:180-199: f, lower, upper. *)
Definition AssignComputeBounds (mt e : Z) (ng : bool) (flt : floatInfo)
  : extFloat * extFloat * extFloat :=
  let f := mkExt mt (e - mantbits flt) ng in
  if (exp f <=? 0) && (mt =? u64 (Z.shiftl (Z.shiftr mt (- exp f)) (- exp f))) then
    let f := mkExt (Z.shiftr (mant f) (- exp f)) 0 ng in
    (f, f, f)
  else
    let expBiased := e - bias flt in
    let upper := mkExt (u64 (u64 (2 * mant f) + 1)) (exp f - 1) ng in
    let lower :=
      if negb (mt =? 2 ^ mantbits flt) || (expBiased =? 1)
      then mkExt (u64 (u64 (2 * mant f) - 1)) (exp f - 1) ng
      else mkExt (u64 (u64 (4 * mant f) - 1)) (exp f - 2) ng in
    (f, lower, upper).

(** extfloat.go:243-311: f and ok.  [errors] is an int, 64 bits wide; int64() of a uint64 wraps. *)
Definition AssignDecimal (mantissa exp10 : Z) (ng tr : bool) (flt : floatInfo)
  : outcome (extFloat * bool) :=
  let uint64digits := 19 in
  let errorscale := 8 in
  let errors := if tr then 0 + errorscale / 2 else 0 in
  let f := mkExt mantissa 0 ng in
  let i := Z.quot (exp10 - firstPowerOfTen) stepPowerOfTen in
  if (exp10 <? firstPowerOfTen) || (Z.of_nat (length powersOfTen) <=? i) then Ret (f, false)
  else
    let adjExp := Z.rem (exp10 - firstPowerOfTen) stepPowerOfTen in
    (* 264-272 *)
    lim <- (if adjExp <? uint64digits then at_ uint64pow10 (uint64digits - adjExp) else Ret 0) ;;
    '(f, errors) <-
      (if (adjExp <? uint64digits) && (mantissa <? lim) then
         p <- at_ uint64pow10 adjExp ;;
         Ret (fst (Normalize (mkExt (u64 (mant f * p)) (exp f) (neg f))), errors)
       else
         p <- at_ smallPowersOfTen adjExp ;;
         Ret (Multiply (fst (Normalize f)) p, errors + errorscale / 2)) ;;
    (* 275-283 *)
    p <- at_ powersOfTen i ;;
    let f := Multiply f p in
    let errors := if 0 <? errors then errors + 1 else errors in
    let errors := errors + errorscale / 2 in
    let '(f, shift) := Normalize f in
    let errors := sint 64 (Z.shiftl errors shift) in
    (* 291-310 *)
    let denormalExp := bias flt - 63 in
    let extrabits :=
      if exp f <=? denormalExp then 63 - mantbits flt + 1 + (denormalExp - exp f)
      else 63 - mantbits flt in
    let halfway := u64 (Z.shiftl 1 (extrabits - 1)) in
    let mantExtra := Z.land (mant f) (u64 (u64 (Z.shiftl 1 extrabits) - 1)) in
    if (sint 64 (sint 64 halfway - errors) <? sint 64 mantExtra)
       && (sint 64 mantExtra <? sint 64 (sint 64 halfway + errors))
    then Ret (f, false)
    else Ret (f, true).

(** extfloat.go:323-324 *)
Definition expMin : Z := -60.
(** extfloat.go:324 *)
Definition expMax : Z := -32.

(** extfloat.go:329-340: the index search. *)
Fixpoint frexp10_loop (fuel : nat) (fexp i : Z) : outcome Z :=
  match fuel with
  | O => Panic
  | S fuel =>
      p <- at_ powersOfTen i ;;
      let e := fexp + exp p + 64 in
      if e <? expMin then frexp10_loop fuel fexp (i + 1)
      else if expMax <? e then frexp10_loop fuel fexp (i - 1)
      else Ret i
  end.

(** extfloat.go:317-346: f, exp10, index. *)
Definition frexp10 (f : extFloat) : outcome (extFloat * Z * Z) :=
  let approxExp10 := Z.quot ((Z.quot (expMin + expMax) 2 - exp f) * 28) 93 in
  let i := Z.quot (approxExp10 - firstPowerOfTen) stepPowerOfTen in
  i <- frexp10_loop 100 (exp f) i ;;
  p <- at_ powersOfTen i ;;
  Ret (Multiply f p, - (firstPowerOfTen + i * stepPowerOfTen), i).

(** extfloat.go:349-354: a, b, c, exp10. *)
Definition frexp10Many (a b c : extFloat) : outcome (extFloat * extFloat * extFloat * Z) :=
  '(c, exp10, i) <- frexp10 c ;;
  p <- at_ powersOfTen i ;;
  Ret (Multiply a p, Multiply b p, c, exp10).

(** extfloat.go:383-389 and 574-580: the number of decimal digits of integer. *)
Fixpoint count_digits (n : nat) (i pow integer : Z) : Z :=
  match n with
  | O => 0
  | S n => if integer <? pow then i else count_digits n (i + 1) (u64 (pow * 10)) integer
  end.
(** The same from the first power of ten on: extfloat.go:383-389 and 574-580. *)
Definition integerDigits_of (integer : Z) : Z := count_digits 20 0 1 integer.

(** extfloat.go:401-409 and 522-530: the digits of v, first digit first, in a scratch
    buffer of [fuel] bytes. *)
Fixpoint int_to_digits (fuel : nat) (v : Z) (out : list Z) : outcome (list Z) :=
  if v <=? 0 then Ret out
  else match fuel with
       | O => Panic
       | S fuel =>
           let v1 := v / 10 in
           int_to_digits fuel v1 (v - 10 * v1 :: out)
       end.

(** d.d[len] = digit, with the bounds check on the slice: extfloat.go:411,432,584,608. *)
Definition push (d : list Z) (cap dg : Z) : outcome (list Z) :=
  if Z.of_nat (length d) <? cap then Ret (d ++ [dg]) else Panic.

(** extfloat.go:424-436: digits of the fractional part.  [None]: "return false".
    Otherwise the digits, fraction and eps. *)
Fixpoint fixed_fraction (fuel : nat) (needed fraction eps shift : Z) (d : list Z) (cap : Z)
  : outcome (option (list Z * Z * Z)) :=
  if needed <=? 0 then Ret (Some (d, fraction, eps))
  else match fuel with
       | O => Panic
       | S fuel =>
           let fraction := u64 (fraction * 10) in
           let eps := u64 (eps * 10) in
           if u64 (Z.shiftl 1 shift) <? u64 (2 * eps) then Ret None
           else
             let digit := Z.shiftr fraction shift in
             d <- push d cap (digit) ;;
             fixed_fraction fuel (needed - 1) (u64 (fraction - u64 (Z.shiftl digit shift)))
               eps shift d cap
       end.

(** extfloat.go:489-503: increment a digit string, last digit first; [None]: all digits 9. *)
Fixpoint inc_rev (l : list Z) : option (list Z) :=
  match l with
  | [] => None
  | c :: t => if c =? 9 then inc_rev t else Some (c + 1 :: t)
  end.

(** extfloat.go:477-507 *)
Definition adjustLastDigitFixed (s : decimalSlice) (num den shift eps : Z)
  : outcome (decimalSlice * bool) :=
  let D := u64 (Z.shiftl den shift) in
  if D <? num then Panic
  else if D <? u64 (2 * eps) then Panic
  else if u64 (2 * u64 (num + eps)) <? D then Ret (s, true)
  else if D <? u64 (2 * u64 (num - eps)) then
    match inc_rev (rev (sd s)) with
    | Some l => Ret (mkSlice (rev l) (scap s) (sdp s) (sneg s), true)
    | None => Ret (mkSlice [1] (scap s) (sdp s + 1) (sneg s), true)
    end
  else Ret (s, false).

(** extfloat.go:460-465: drop trailing zeros, unless all digits are zero. *)
Fixpoint drop0 (l : list Z) : list Z :=
  match l with
  | [] => []
  | c :: t => if c =? 0 then drop0 t else l
  end.
(** The same for a list of digits: extfloat.go:460-465. *)
Definition trim_zeros_fixed (l : list Z) : list Z :=
  match drop0 (rev l) with
  | [] => l
  | r => rev r
  end.

(** extfloat.go:359-467.  The slice starts out empty with capacity [scap s] (ftoa.go:155-156). *)
Definition FixedDecimal (f : extFloat) (s : decimalSlice) (n : Z) : outcome (decimalSlice * bool) :=
  if mant f =? 0 then Ret (mkSlice [] (scap s) 0 (neg f), true)
  else if n =? 0 then Panic
  else
    let '(f, _) := Normalize f in
    '(f, exp10, _) <- frexp10 f ;;
    (* 374-382 *)
    let shift := u64 (- exp f) in
    let integer := u32 (Z.shiftr (mant f) shift) in
    let fraction := u64 (mant f - u64 (Z.shiftl integer shift)) in
    let eps := 1 in
    let needed := n in
    (* 383-398 *)
    let integerDigits := integerDigits_of integer in
    '(integer, rest, pow10) <-
      (if needed <? integerDigits then
         p <- at_ uint64pow10 (integerDigits - needed) ;;
         (if u32 p =? 0 then Panic
          else
            let q := integer / u32 p in
            Ret (q, u32 (integer - u32 (q * u32 p)), p))
       else Ret (integer, 0, 1)) ;;
    (* 401-416 *)
    buf <- int_to_digits 32 integer [] ;;
    let nd := Z.of_nat (length buf) in
    if scap s <? nd then Panic
    else
      let dp := integerDigits + exp10 in
      let needed := needed - nd in
      (* 418-438 *)
      r <-
        (if 0 <? needed then
           (if negb (rest =? 0) || negb (pow10 =? 1) then Panic
            else fixed_fraction (Z.to_nat (scap s + 1)) needed fraction eps shift buf (scap s))
         else Ret (Some (buf, fraction, eps))) ;;
      match r with
      | None => Ret (mkSlice buf (scap s) dp (sneg s), false)
      | Some (dd, fraction, eps) =>
          (* 455-466 *)
          '(s, ok) <- adjustLastDigitFixed (mkSlice dd (scap s) dp (sneg s))
                        (Z.lor (u64 (Z.shiftl rest shift)) fraction) pow10 shift eps ;;
          if (ok : bool) then
            Ret (mkSlice (trim_zeros_fixed (sd s)) (scap s) (sdp s) (sneg s), true)
          else Ret (s, false)
      end.

(** extfloat.go:631-634: the number of times the loop runs is not bounded by the digit, so
    it runs on fuel; [l] is the digit string with the last digit first.  All of it is
    uint64 arithmetic. *)
Fixpoint adjust_loop (fuel : nat) (l : list Z) (currentDiff targetDiff ulpDecimal ulpBinary : Z)
  : outcome (list Z * Z) :=
  if u64 (u64 (currentDiff + ulpDecimal / 2) + ulpBinary) <? targetDiff then
    match fuel, l with
    | S fuel, c :: t =>
        adjust_loop fuel (c - 1 :: t) (u64 (currentDiff + ulpDecimal)) targetDiff ulpDecimal ulpBinary
    | _, _ => Panic
    end
  else Ret (l, currentDiff).

(** extfloat.go:626-649 *)
Definition adjustLastDigit (s : decimalSlice) (currentDiff targetDiff maxDiff ulpDecimal ulpBinary : Z)
  : outcome (decimalSlice * bool) :=
  if ulpDecimal <? u64 (2 * ulpBinary) then Ret (s, false)
  else
    '(l, currentDiff) <- adjust_loop 300 (rev (sd s)) currentDiff targetDiff ulpDecimal ulpBinary ;;
    let s := mkSlice (rev l) (scap s) (sdp s) (sneg s) in
    if u64 (currentDiff + ulpDecimal) <=? u64 (u64 (targetDiff + ulpDecimal / 2) + ulpBinary)
    then Ret (s, false)
    else if (currentDiff <? ulpBinary) || (u64 (maxDiff - ulpBinary) <? currentDiff)
    then Ret (s, false)
    else
      match sd s with
      | [c] => if c =? 0 then Ret (mkSlice [] (scap s) 0 (sneg s), true) else Ret (s, true)
      | _ => Ret (s, true)
      end.

(** extfloat.go:581-595: [inl] when the loop returns, [inr] with the digits when it ends.
    [n] counts the remaining digits. *)
Fixpoint shortest_int (n : nat) (integer fraction shift allowance targetDiff : Z)
    (d : list Z) (cap dp : Z) (ng : bool)
  : outcome (decimalSlice * bool + list Z) :=
  match n with
  | O => Ret (inr d)
  | S n =>
      pow <- at_ uint64pow10 (Z.of_nat n) ;;
      let digit := integer / u32 pow in
      d <- push d cap digit ;;
      let integer := u32 (integer - u32 (digit * u32 pow)) in
      let currentDiff := u64 (u64 (Z.shiftl integer shift) + fraction) in
      if currentDiff <? allowance then
        r <- adjustLastDigit (mkSlice d cap dp ng) currentDiff targetDiff allowance
               (u64 (Z.shiftl pow shift)) 2 ;;
        Ret (inl r)
      else shortest_int n integer fraction shift allowance targetDiff d cap dp ng
  end.

(** extfloat.go:602-619 *)
Fixpoint shortest_frac (fuel : nat) (fraction multiplier shift allowance targetDiff : Z)
    (d : list Z) (cap dp : Z) (ng : bool) : outcome (decimalSlice * bool) :=
  match fuel with
  | O => Panic
  | S fuel =>
      let fraction := u64 (fraction * 10) in
      let multiplier := u64 (multiplier * 10) in
      let digit := Z.shiftr fraction shift in
      d <- push d cap digit ;;
      let fraction := u64 (fraction - u64 (Z.shiftl digit shift)) in
      if fraction <? u64 (allowance * multiplier) then
        adjustLastDigit (mkSlice d cap dp ng) fraction (u64 (targetDiff * multiplier))
          (u64 (allowance * multiplier)) (u64 (Z.shiftl 1 shift)) (u64 (multiplier * 2))
      else shortest_frac fuel fraction multiplier shift allowance targetDiff d cap dp ng
  end.

(** *lower == *f: extfloat.go:520. *)
Definition extFloat_eqb (a b : extFloat) : bool :=
  (mant a =? mant b) && (exp a =? exp b) && Bool.eqb (neg a) (neg b).

(** extfloat.go:547-554: bring g to the exponent of upper. *)
Definition uniformize (g upper : extFloat) : extFloat :=
  if exp upper <? exp g
  then mkExt (u64 (Z.shiftl (mant g) (exp g - exp upper))) (exp upper) (neg g)
  else g.

(** extfloat.go:513-620.  The slice starts out empty (ftoa.go:126-127). *)
Definition ShortestDecimal (f : extFloat) (s : decimalSlice) (lower upper : extFloat)
  : outcome (decimalSlice * bool) :=
  if mant f =? 0 then Ret (mkSlice [] (scap s) 0 (neg f), true)
  else if (exp f =? 0) && extFloat_eqb lower f && extFloat_eqb lower upper then
    (* 521-543 *)
    buf <- int_to_digits 24 (mant f) [] ;;
    if scap s <? Z.of_nat (length buf) then Panic
    else
      let l := rev (drop0 (rev buf)) in
      Ret (mkSlice l (scap s)
             (if Z.of_nat (length l) =? 0 then 0 else Z.of_nat (length buf)) (neg f), true)
  else
    let '(upper, _) := Normalize upper in
    let f := uniformize f upper in
    let lower := uniformize lower upper in
    '(lower, f, upper, exp10) <- frexp10Many lower f upper ;;
    (* 558-570 *)
    let upm := u64 (mant upper + 1) in
    let lom := u64 (mant lower - 1) in
    let shift := u64 (- exp upper) in
    let integer := u32 (Z.shiftr upm shift) in
    let fraction := u64 (upm - u64 (Z.shiftl integer shift)) in
    let allowance := u64 (upm - lom) in
    let targetDiff := u64 (upm - mant f) in
    (* 573-598 *)
    let integerDigits := integerDigits_of integer in
    let dp := integerDigits + exp10 in
    r <- shortest_int (Z.to_nat integerDigits) integer fraction shift allowance targetDiff
           [] (scap s) dp (neg f) ;;
    match r with
    | inl r => Ret r
    | inr d => shortest_frac 40 fraction 1 shift allowance targetDiff d (scap s) dp (neg f)
    end.
