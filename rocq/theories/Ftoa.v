(** Model of internal/strconv/ftoa.go.

    Bit patterns stand for float64 and float32 values; [w] is the width of Go's uint and
    int (it selects the code paths of decimal.go and itoa.go); [optimize] is the package
    variable of ftoa.go:19. *)
From Coq Require Import ZArith String List Bool.
From Verif Require Import GoBase BigFloat.
From Verif Require Binary16 Itoa Decimal ExtFloat.
Import ListNotations.
Open Scope Z_scope.

Import ExtFloat (floatInfo, mantbits, expbits, bias, float16info, float32info, float64info,
                 decimalSlice, mkSlice, sd, sdp, snd_, scap).

(** The letters of ftoa.go:37-43. *)
Definition ch_b : Z := 98.
(** ftoa.go:39 *)
Definition ch_e : Z := 101.
(** ftoa.go:40 *)
Definition ch_E : Z := 69.
(** ftoa.go:41 *)
Definition ch_f : Z := 102.
(** ftoa.go:42 *)
Definition ch_g : Z := 103.
(** ftoa.go:43 *)
Definition ch_G : Z := 71.
(** case 'e', 'E': ftoa.go:134, 145, 179, 189, 206. *)
Definition is_e (fmt : Z) : bool := (fmt =? ch_e) || (fmt =? ch_E).
(** case 'f': ftoa.go:136, 141, 181, 191, 208. *)
Definition is_f (fmt : Z) : bool := fmt =? ch_f.
(** case 'g', 'G': ftoa.go:138, 147, 183, 193, 210. *)
Definition is_g (fmt : Z) : bool := (fmt =? ch_g) || (fmt =? ch_G).

(** A digit as the byte Go stores: extfloat.go:407,432, decimal.go:141. *)
Definition byte_of (c : Z) : Z := u8 (c + 48).

(** d.d[i] for i < nd: ftoa.go:351-366,403-424. *)
Definition sdig (s : decimalSlice) (i : Z) : Z := byte_of (nth (Z.to_nat i) (sd s) 0).

(** ftoa.go:386-393; byte() truncates to 8 bits. *)
Definition exp_text (e : Z) : bytes :=
  if e <? 10 then [48; u8 (u8 e + 48)]
  else if e <? 100 then [u8 (u8 (e / 10) + 48); u8 (u8 (e mod 10) + 48)]
  else [u8 (u8 (e / 100) + 48); u8 (u8 (e / 10) mod 10 + 48); u8 (u8 (e mod 10) + 48)].

(** ftoa.go:344-396 *)
Definition fmtE (dst : bytes) (neg : bool) (s : decimalSlice) (prec fmt : Z) : bytes :=
  let dst := if neg then dst ++ [45] else dst in
  let dst := dst ++ [if snd_ s =? 0 then 48 else sdig s 0] in
  let dst :=
    if 0 <? prec then
      let m := Z.min (snd_ s) (prec + 1) in
      let dst := dst ++ [46] in
      let '(dst, i) :=
        if 1 <? m
        then (dst ++ map byte_of (firstn (Z.to_nat (m - 1)) (skipn 1 (sd s))), m)
        else (dst, 1) in
      dst ++ repeat 48 (Z.to_nat (prec + 1 - i))
    else dst in
  let dst := dst ++ [fmt] in
  let e := if snd_ s =? 0 then 0 else sdp s - 1 in
  let '(ch, e) := if e <? 0 then (45, - e) else (43, e) in
  let dst := dst ++ [ch] in
  dst ++ exp_text e.

(** ftoa.go:419-425: the digits i, i+1, ... of the fraction; [n] of them. *)
Fixpoint frac_digits (n : nat) (i : Z) (s : decimalSlice) : bytes :=
  match n with
  | O => []
  | S n =>
      let j := sdp s + i in
      (if (0 <=? j) && (j <? snd_ s) then sdig s j else 48) :: frac_digits n (i + 1) s
  end.

(** ftoa.go:399-429 *)
Definition fmtF (dst : bytes) (neg : bool) (s : decimalSlice) (prec : Z) : bytes :=
  let dst := if neg then dst ++ [45] else dst in
  let dst :=
    if 0 <? sdp s then
      let m := Z.min (snd_ s) (sdp s) in
      dst ++ map byte_of (firstn (Z.to_nat m) (sd s)) ++ repeat 48 (Z.to_nat (sdp s - m))
    else dst ++ [48] in
  if 0 <? prec then dst ++ [46] ++ frac_digits (Z.to_nat prec) 0 s else dst.

(** ftoa.go:432-452 *)
Definition fmtB (w : Z) (dst : bytes) (neg : bool) (mant exp : Z) (flt : floatInfo) : outcome bytes :=
  let dst := if neg then dst ++ [45] else dst in
  s <- Itoa.formatBits (w =? 32) mant 10 false ;;
  let dst := dst ++ s ++ [112] in
  let exp := exp - mantbits flt in
  let dst := if 0 <=? exp then dst ++ [43] else dst in
  s <- Itoa.formatBits (w =? 32) (u64 exp) 10 (exp <? 0) ;;
  Ret (dst ++ s).

(** ftoa.go:204-237 *)
Definition formatDigits (dst : bytes) (shortest neg : bool) (s : decimalSlice) (prec fmt : Z) : bytes :=
  if is_e fmt then fmtE dst neg s prec fmt
  else if is_f fmt then fmtF dst neg s prec
  else if is_g fmt then
    let eprec := if (snd_ s <? prec) && (sdp s <=? snd_ s) then snd_ s else prec in
    let eprec := if shortest then 6 else eprec in
    let exp := sdp s - 1 in
    if (exp <? -4) || (eprec <=? exp) then
      let prec := if snd_ s <? prec then snd_ s else prec in
      fmtE dst neg s (prec - 1) (u8 (fmt + 101 - 103))
    else
      let prec := if sdp s <? prec then snd_ s else prec in
      fmtF dst neg s (Z.max (prec - sdp s) 0)
  else dst ++ [37; fmt].

(** ftoa.go:301-334, from digit [i] on; [n] counts the remaining digits. *)
Fixpoint rs_loop (n : nat) (i : Z) (inclusive : bool) (d lower upper : Decimal.decimal) : Decimal.decimal :=
  match n with
  | O => d
  | S n =>
      let l := if i <? Decimal.nd lower then Decimal.dig lower i else 0 in
      let m := Decimal.dig d i in
      let u := if i <? Decimal.nd upper then Decimal.dig upper i else 0 in
      let okdown := negb (l =? m) || (inclusive && (i + 1 =? Decimal.nd lower)) in
      let okup := negb (m =? u) && (inclusive || (m + 1 <? u) || (i + 1 <? Decimal.nd upper)) in
      if okdown && okup then Decimal.Round d (i + 1)
      else if okdown then Decimal.RoundDown d (i + 1)
      else if okup then Decimal.RoundUp d (i + 1)
      else rs_loop n (i + 1) inclusive d lower upper
  end.

(** ftoa.go:241-335 *)
Definition roundShortest (w : Z) (d : Decimal.decimal) (mant exp : Z) (flt : floatInfo)
  : outcome Decimal.decimal :=
  if mant =? 0 then Ret (Decimal.mkDec [] (Decimal.dp d) (Decimal.trunc d))
  else
    let minexp := bias flt + 1 in
    if (minexp <? exp)
       && (100 * (exp - mantbits flt) <=? 332 * (Decimal.dp d - Decimal.nd d)) then Ret d
    else
      upper <- Decimal.Assign Decimal.new_decimal (u64 (u64 (mant * 2) + 1)) ;;
      upper <- Decimal.Shift w upper (exp - mantbits flt - 1) ;;
      let '(mantlo, explo) :=
        if (2 ^ mantbits flt <? mant) || (exp =? minexp) then (u64 (mant - 1), exp)
        else (u64 (u64 (mant * 2) - 1), exp - 1) in
      lower <- Decimal.Assign Decimal.new_decimal (u64 (u64 (mantlo * 2) + 1)) ;;
      lower <- Decimal.Shift w lower (explo - mantbits flt - 1) ;;
      let inclusive := mant mod 2 =? 0 in
      Ret (rs_loop (length (Decimal.d d)) 0 inclusive d lower upper).

(** ftoa.go:168-202 *)
Definition bigFtoa (w : Z) (dst : bytes) (prec fmt : Z) (neg : bool) (mant exp : Z) (flt : floatInfo)
  : outcome bytes :=
  d <- Decimal.Assign Decimal.new_decimal mant ;;
  d <- Decimal.Shift w d (exp - mantbits flt) ;;
  let shortest := prec <? 0 in
  let slice d := mkSlice (Decimal.d d) Decimal.maxDigits (Decimal.dp d) false in
  '(digs, prec) <-
    (if shortest then
       d <- roundShortest w d mant exp flt ;;
       let digs := slice d in
       Ret (digs,
            if is_e fmt then snd_ digs - 1
            else if is_f fmt then Z.max (snd_ digs - sdp digs) 0
            else if is_g fmt then snd_ digs
            else prec)
     else
       let '(d, prec) :=
         if is_e fmt then (Decimal.Round d (sint w (prec + 1)), prec)
         else if is_f fmt then (Decimal.Round d (sint w (Decimal.dp d + prec)), prec)
         else if is_g fmt then
           let prec := if prec =? 0 then 1 else prec in
           (Decimal.Round d prec, prec)
         else (d, prec) in
       Ret (slice d, prec)) ;;
  Ret (formatDigits dst shortest neg digs prec fmt).

(** ftoa.go:65-79: the bits and the format parameters.  [None] is the panic of line 78. *)
Definition select (val bitSize : Z) : outcome (Z * floatInfo) :=
  if bitSize =? 16 then
    '(f, _) <- Binary16.NewFromFloat64 val ;;
    Ret (Binary16.Bits f, float16info)
  else if bitSize =? 32 then Ret (f64_to_f32 val, float32info)
  else if bitSize =? 64 then Ret (val, float64info)
  else Panic.

(** ftoa.go:118-164: from the decoded mantissa and exponent. *)
Definition ftoa_digits (w : Z) (optimize : bool) (dst : bytes) (fmt prec : Z) (neg : bool)
    (mant exp : Z) (flt : floatInfo) : outcome bytes :=
  (* 114-116 *)
  if negb optimize then bigFtoa w dst prec fmt neg mant exp flt
  else
    let shortest := prec <? 0 in
    if shortest then
      (* 123-140 *)
      let '(f, lower, upper) := ExtFloat.AssignComputeBounds mant exp neg flt in
      '(digs, ok) <- ExtFloat.ShortestDecimal f (mkSlice [] 32 0 false) lower upper ;;
      if (ok : bool) then
        let prec :=
          if is_e fmt then Z.max (snd_ digs - 1) 0
          else if is_f fmt then Z.max (snd_ digs - sdp digs) 0
          else if is_g fmt then snd_ digs
          else prec in
        Ret (formatDigits dst shortest neg digs prec fmt)
      else bigFtoa w dst prec fmt neg mant exp flt
    else if negb (is_f fmt) then
      (* 141-160 *)
      let prec := if is_g fmt && (prec =? 0) then 1 else prec in
      let digits := if is_e fmt then sint w (prec + 1) else prec in
      if digits <=? 15 then
        '(digs, ok) <- ExtFloat.FixedDecimal (ExtFloat.mkExt mant (exp - mantbits flt) neg)
                         (mkSlice [] 24 0 false) digits ;;
        if (ok : bool) then Ret (formatDigits dst shortest neg digs prec fmt)
        else bigFtoa w dst prec fmt neg mant exp flt
      else bigFtoa w dst prec fmt neg mant exp flt
    else bigFtoa w dst prec fmt neg mant exp flt.

(** ftoa.go:62-165 *)
Definition genericFtoa (w : Z) (optimize : bool) (dst : bytes) (val fmt prec bitSize : Z) : outcome bytes :=
  '(bits, flt) <- select val bitSize ;;
  (* 81-83 *)
  let neg := negb (Z.shiftr bits (expbits flt + mantbits flt) =? 0) in
  let exp := Z.land (sint w (Z.shiftr bits (mantbits flt))) (2 ^ expbits flt - 1) in
  let mant := Z.land bits (2 ^ mantbits flt - 1) in
  (* 85-107 *)
  if exp =? 2 ^ expbits flt - 1 then
    Ret (dst ++ (if negb (mant =? 0) then B "NaN" else if neg then B "-Inf" else B "+Inf"))
  else
    let '(exp, mant) := if exp =? 0 then (exp + 1, mant) else (exp, Z.lor mant (2 ^ mantbits flt)) in
    let exp := exp + bias flt in
    (* 110-112 *)
    if fmt =? ch_b then fmtB w dst neg mant exp flt
    else ftoa_digits w optimize dst fmt prec neg mant exp flt.

(** ftoa.go:52-54, for a capacity that make accepts (see [FormatFloat_make]). *)
Definition FormatFloat (w : Z) (optimize : bool) (f fmt prec bitSize : Z) : outcome bytes :=
  genericFtoa w optimize [] f fmt prec bitSize.

(** ftoa.go:52-54 with line 53's make: it panics for a capacity above [alloc], the run time's
    largest allocation (2^48 bytes on amd64); prec+4 wraps. *)
Definition FormatFloat_make (alloc w : Z) (optimize : bool) (f fmt prec bitSize : Z) : outcome bytes :=
  if alloc <? Z.max (sint w (prec + 4)) 24 then Panic
  else FormatFloat w optimize f fmt prec bitSize.

(** ftoa.go:58-60 *)
Definition AppendFloat (w : Z) (optimize : bool) (dst : bytes) (f fmt prec bitSize : Z) : outcome bytes :=
  genericFtoa w optimize dst f fmt prec bitSize.
