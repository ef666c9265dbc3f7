(** A model of the parts of Go's math/big.Float that mewmew/float uses.

    math/big is not part of /repo: this file transcribes the documented behaviour and the
    structure of math/big/float.go and ftoa.go (Go 1.13), and is part of the trusted base.

    A finite number is [Finite m e] with [m > 0], meaning m * 2^e.  Go keeps the mantissa
    normalised to [0.5, 1) as a bit vector; the representation is not observable, so any
    [m] with the right value may stand for it.  Go's x.exp is [gexp m e].

    The lines cited are those of /repo that call the function modelled. *)
From Coq Require Import ZArith String List Bool.
From Verif Require Import GoBase.
Import ListNotations.
Open Scope Z_scope.

(** big.RoundingMode; ToNearestEven is used at binary16.go:80,209, binary128.go:81,233,
    float80x86.go:90,229, bfloat.go:36, float128ppc.go:104,108,111,116,157. *)
Inductive mode :=
| ToNearestEven | ToNearestAway | ToZero | AwayFromZero | ToNegativeInf | ToPositiveInf.

(** big.Accuracy: binary16.go:57-162, binary128.go:58-186, float80x86.go:61-183,
    float128ppc.go:54-127, float.go:16,28,40. *)
Inductive accuracy := Below | Exact | Above.

(** acc == big.Exact: binary16.go:59,156, binary128.go:60,180, float80x86.go:63,178, float.go:16. *)
Definition accuracy_eqb (a b : accuracy) : bool :=
  match a, b with
  | Below, Below | Exact, Exact | Above, Above => true
  | _, _ => false
  end.

(** big.Accuracy(c) for the result c of a comparison: Below = -1, Exact = 0, Above = +1
    (float128ppc.go:118). *)
Definition accuracy_of_int (c : Z) : accuracy :=
  if c <? 0 then Below else if c =? 0 then Exact else Above.

(** The form, mantissa and exponent of a big.Float (argument of binary16.go:87). *)
Inductive form :=
| Zero
| Finite (m e : Z)
| Inf.

(** big.Float: prec, mode, acc, neg, and form with mantissa and exponent (argument of
    binary16.go:87, binary128.go:88, float80x86.go:97, float128ppc.go:82). *)
Record bigfloat := mkBF {
  prec : Z;
  rmode : mode;
  acc : accuracy;
  neg : bool;
  frm : form
}.

(** Limits of math/big, reached through SetMantExp (binary16.go:128,148) and Add
    (float128ppc.go:117,163). *)
Definition MaxExp : Z := 2 ^ 31 - 1.
(** The least exponent of math/big: binary16.go:128,148, float128ppc.go:117,163. *)
Definition MinExp : Z := - 2 ^ 31.
(** The greatest precision of math/big: binary16.go:79, float128ppc.go:104. *)
Definition MaxPrec : Z := 2 ^ 32 - 1.

(** Number of bits of a positive number (used by SetPrec, binary16.go:79). *)
Definition bitlen (m : Z) : Z := Z.log2 m + 1.

(** Go's x.exp: the number is 0.mant * 2^exp (binary16.go:116). *)
Definition gexp (m e : Z) : Z := bitlen m + e.

(** makeAcc (used by SetPrec, binary16.go:79). *)
Definition makeAcc (above : bool) : accuracy := if above then Above else Below.

(** Assignments to fields of a big.Float, inside the methods called at binary16.go:79-80. *)
Definition set_acc (z : bigfloat) (a : accuracy) : bigfloat :=
  mkBF (prec z) (rmode z) a (neg z) (frm z).
(** The same for the form: binary16.go:79-80. *)
Definition set_frm (z : bigfloat) (f : form) : bigfloat :=
  mkBF (prec z) (rmode z) (acc z) (neg z) f.
(** The same for the sign: binary16.go:79-80. *)
Definition set_neg (z : bigfloat) (b : bool) : bigfloat :=
  mkBF (prec z) (rmode z) (acc z) b (frm z).

(** Float.round's decision to increment, for truncated mantissa [q] and non-zero
    remainder [r] of [sh] bits (used by SetPrec, binary16.go:79). *)
Definition round_inc (md : mode) (ng : bool) (q r sh : Z) : bool :=
  match md with
  | ToNegativeInf => ng
  | ToZero => false
  | ToNearestEven => (2 ^ (sh - 1) <? r) || ((r =? 2 ^ (sh - 1)) && Z.odd q)
  | ToNearestAway => 2 ^ (sh - 1) <=? r
  | AwayFromZero => true
  | ToPositiveInf => negb ng
  end.

(** Float.round(0): round the mantissa to prec bits (used by SetPrec, binary16.go:79). *)
Definition round (z : bigfloat) : bigfloat :=
  match frm z with
  | Finite m e =>
      if bitlen m <=? prec z then set_acc z Exact
      else
        let sh := bitlen m - prec z in
        let q := m / 2 ^ sh in
        let r := m mod 2 ^ sh in
        if r =? 0 then mkBF (prec z) (rmode z) Exact (neg z) (Finite q (e + sh))
        else
          let inc := round_inc (rmode z) (neg z) q r sh in
          let m' := if inc then q + 1 else q in
          let a := makeAcc (xorb inc (neg z)) in
          if MaxExp <? gexp m' (e + sh)
          then mkBF (prec z) (rmode z) a (neg z) Inf
          else mkBF (prec z) (rmode z) a (neg z) (Finite m' (e + sh))
  | _ => set_acc z Exact
  end.

(** Float.setExpAndRound(exp, 0), for the number [m] * 2^[e] (used by SetMantExp,
    binary16.go:128,148). *)
Definition setExpAndRound (z : bigfloat) (m e : Z) : bigfloat :=
  if gexp m e <? MinExp then mkBF (prec z) (rmode z) (makeAcc (neg z)) (neg z) Zero
  else if MaxExp <? gexp m e
       then mkBF (prec z) (rmode z) (makeAcc (negb (neg z))) (neg z) Inf
       else round (set_frm z (Finite m e)).

(** Float.Set(x) where z is not x: inside Float64, binary16.go:198, and Add, float128ppc.go:117. *)
Definition Set_ (z x : bigfloat) : bigfloat :=
  let z1 := mkBF (prec z) (rmode z) Exact (neg x) (frm x) in
  if prec z =? 0 then mkBF (prec x) (rmode z) Exact (neg x) (frm x)
  else if prec z <? prec x then round z1 else z1.

(** Float.SetPrec(p); the special case p = 0 is not used by mewmew/float.
    binary16.go:79,208, binary128.go:80,90,116,232, float80x86.go:89,228, bfloat.go:35,
    float128ppc.go:84-165. *)
Definition SetPrec (z : bigfloat) (p : Z) : bigfloat :=
  let p := Z.min p MaxPrec in
  let z1 := mkBF p (rmode z) Exact (neg z) (frm z) in
  if p <? prec z then round z1 else z1.

(** Float.SetMode(m): binary16.go:80,209, binary128.go:81,233, float80x86.go:90,229,
    bfloat.go:36, float128ppc.go:104,157. *)
Definition SetMode (z : bigfloat) (md : mode) : bigfloat :=
  mkBF (prec z) md Exact (neg z) (frm z).

(** Float.Signbit(), Float.IsInf(): binary16.go:91-110, binary128.go:92-111,
    float80x86.go:101-132, float128ppc.go:86-95. *)
Definition Signbit (x : bigfloat) : bool := neg x.
(** Float.IsInf(): binary16.go:91-110, binary128.go:92-111, float80x86.go:101-132, float128ppc.go:86-95. *)
Definition IsInf (x : bigfloat) : bool := match frm x with Inf => true | _ => false end.

(** Float.SetInf(signbit): binary16.go:226, binary128.go:244, float80x86.go:246, bfloat.go:52. *)
Definition SetInf (z : bigfloat) (sb : bool) : bigfloat :=
  mkBF (prec z) (rmode z) Exact sb Inf.

(** z.Neg(z): same as z.Set(z) followed by flipping the sign; Set is a no-op on itself.
    binary16.go:130,146,231,239, binary128.go:131,159,249,257, float80x86.go:154,170,252,260,
    bfloat.go:57,64, float128ppc.go:169. *)
Definition NegSelf (z : bigfloat) : bigfloat := set_neg z (negb (neg z)).

(** z.Neg(x) where z is not x (inside Sub, float128ppc.go:112). *)
Definition Neg (z x : bigfloat) : bigfloat := NegSelf (Set_ z x).

(** Float.MantExp(mant): the new *mant and the exponent.  Copy copies precision, mode and
    accuracy too, so the previous *mant does not matter.  binary16.go:116, binary128.go:117,
    float80x86.go:139. *)
Definition MantExp (x : bigfloat) : bigfloat * Z :=
  match frm x with
  | Finite m e => (set_frm x (Finite m (- bitlen m)), gexp m e)
  | _ => (x, 0)
  end.

(** z.SetMantExp(z, exp): binary16.go:128,148, binary128.go:129,161, float80x86.go:152,172. *)
Definition SetMantExpSelf (z : bigfloat) (exp : Z) : bigfloat :=
  match frm z with
  | Finite m e => setExpAndRound z m (e + exp)
  | _ => z
  end.

(** Number of trailing zero bits (inside MinPrec). *)
Fixpoint ctz_pos (p : positive) : Z :=
  match p with
  | xO q => 1 + ctz_pos q
  | _ => 0
  end.
(** The same for an integer (inside MinPrec). *)
Definition ctz (m : Z) : Z := match m with Zpos p => ctz_pos p | _ => 0 end.

(** Float.MinPrec() (inside IsInt and Uint64, binary16.go:149,152). *)
Definition MinPrec (x : bigfloat) : Z :=
  match frm x with
  | Finite m _ => bitlen m - ctz m
  | _ => 0
  end.

(** Float.IsInt(): binary16.go:149, binary128.go:162, float80x86.go:173. *)
Definition IsInt (x : bigfloat) : bool :=
  match frm x with
  | Zero => true
  | Inf => false
  | Finite m e =>
      if gexp m e <=? 0 then false
      else (prec x <=? gexp m e) || (MinPrec x <=? gexp m e)
  end.

(** The [w] most significant bits of the mantissa (msb64, msb32; inside Uint64, binary16.go:152,
    and Float64, binary16.go:198). *)
Definition msb (w m : Z) : Z :=
  if bitlen m <=? w then m * 2 ^ (w - bitlen m) else m / 2 ^ (bitlen m - w).

(** Float.Uint64().  (The comparison of MinPrec with 64 rather than with exp is Go's.)
    binary16.go:132,152, float80x86.go:156,177. *)
Definition Uint64 (x : bigfloat) : Z * accuracy :=
  match frm x with
  | Finite m e =>
      if neg x then (0, Above)
      else if gexp m e <=? 0 then (0, Below)
      else if gexp m e <=? 64
           then (msb 64 m / 2 ^ (64 - gexp m e), if MinPrec x <=? 64 then Exact else Below)
           else (2 ^ 64 - 1, Below)
  | Zero => (0, Exact)
  | Inf => if neg x then (0, Above) else (2 ^ 64 - 1, Below)
  end.

(** Float.Int(nil): the integer obtained by truncating towards zero.  Go returns a nil
    pointer for an infinity (used as such it would panic); here [None].
    binary128.go:133,165. *)
Definition Int (x : bigfloat) : option Z :=
  match frm x with
  | Finite m e =>
      if gexp m e <=? 0 then Some 0
      else
        let t := if 0 <=? e then m * 2 ^ e else m / 2 ^ (- e) in
        Some (if neg x then - t else t)
  | Zero => Some 0
  | Inf => None
  end.

(** |x| compared with |y| (Float.ucmp) for finite x, y (inside Cmp, float128ppc.go:118). *)
Definition ucmp (m1 e1 m2 e2 : Z) : Z :=
  let e := Z.min e1 e2 in
  match Z.compare (m1 * 2 ^ (e1 - e)) (m2 * 2 ^ (e2 - e)) with
  | Lt => -1
  | Eq => 0
  | Gt => 1
  end.

(** Float.ord() (inside Cmp, binary16.go:99). *)
Definition ord (x : bigfloat) : Z :=
  let v := match frm x with Zero => 0 | Finite _ _ => 1 | Inf => 2 end in
  if neg x then - v else v.

(** Float.Cmp(y): binary16.go:99, binary128.go:100, float80x86.go:115, float128ppc.go:94,118,166. *)
Definition Cmp (x y : bigfloat) : Z :=
  if ord x <? ord y then -1
  else if ord y <? ord x then 1
  else match frm x, frm y with
       | Finite m1 e1, Finite m2 e2 =>
           if ord x <? 0 then ucmp m2 e2 m1 e1 else ucmp m1 e1 m2 e2
       | _, _ => 0
       end.

(** |x| + |y| rounded into z (Float.uadd, inside Add, float128ppc.go:117,163). *)
Definition uadd (z : bigfloat) (m1 e1 m2 e2 : Z) : bigfloat :=
  let e := Z.min e1 e2 in
  setExpAndRound z (m1 * 2 ^ (e1 - e) + m2 * 2 ^ (e2 - e)) e.

(** |x| - |y| rounded into z for |x| >= |y| (Float.usub, inside Sub, float128ppc.go:112). *)
Definition usub (z : bigfloat) (m1 e1 m2 e2 : Z) : bigfloat :=
  let e := Z.min e1 e2 in
  let m := m1 * 2 ^ (e1 - e) - m2 * 2 ^ (e2 - e) in
  if m =? 0 then mkBF (prec z) (rmode z) Exact false Zero
  else setExpAndRound z m e.

(** An exact zero sum is -0 in mode ToNegativeInf (last step of Float.Add and Float.Sub,
    float128ppc.go:112,117,163). *)
Definition fix_zero_sign (z : bigfloat) : bigfloat :=
  match frm z, rmode z, acc z with
  | Zero, ToNegativeInf, Exact => set_neg z true
  | _, _, _ => z
  end.

(** z.Add(x, y) where z is neither x nor y and z.prec is not 0: float128ppc.go:117,163. *)
Definition Add (z x y : bigfloat) : outcome bigfloat :=
  match frm x, frm y with
  | Finite m1 e1, Finite m2 e2 =>
      let z := set_neg z (neg x) in
      Ret (fix_zero_sign
        (if Bool.eqb (neg x) (neg y) then uadd z m1 e1 m2 e2
         else if 0 <? ucmp m1 e1 m2 e2 then usub z m1 e1 m2 e2
         else usub (set_neg z (negb (neg z))) m2 e2 m1 e1))
  | Inf, Inf =>
      if Bool.eqb (neg x) (neg y) then Ret (Set_ z x) else Panic
  | Zero, Zero =>
      Ret (mkBF (prec z) (rmode z) Exact (neg x && neg y) Zero)
  | Inf, _ | _, Zero => Ret (Set_ z x)
  | _, _ => Ret (Set_ z y)
  end.

(** z.Sub(x, y) where z is neither x nor y and z.prec is not 0: float128ppc.go:112. *)
Definition Sub (z x y : bigfloat) : outcome bigfloat :=
  match frm x, frm y with
  | Finite m1 e1, Finite m2 e2 =>
      let z := set_neg z (neg x) in
      Ret (fix_zero_sign
        (if negb (Bool.eqb (neg x) (neg y)) then uadd z m1 e1 m2 e2
         else if 0 <? ucmp m1 e1 m2 e2 then usub z m1 e1 m2 e2
         else usub (set_neg z (negb (neg z))) m2 e2 m1 e1))
  | Inf, Inf =>
      if Bool.eqb (neg x) (neg y) then Panic else Ret (Set_ z x)
  | Zero, Zero =>
      Ret (mkBF (prec z) (rmode z) Exact (neg x && negb (neg y)) Zero)
  | Inf, _ | _, Zero => Ret (Set_ z x)
  | _, _ => Ret (Neg z y)
  end.

(** ** float64 and float32 as bit patterns

    [mb] is the number of fraction bits and [eb] the number of exponent bits:
    (52, 11) for float64 and (23, 8) for float32. *)
(** The fields of math.Float64bits(x), math.Float32bits(x): math.Signbit at binary16.go:71,
    ftoa.go:72,75. *)
Definition f_sign (mb eb b : Z) : bool := negb (b / 2 ^ (mb + eb) =? 0).
(** The exponent bits: ftoa.go:72,75. *)
Definition f_exp (mb eb b : Z) : Z := (b / 2 ^ mb) mod 2 ^ eb.
(** The fraction bits: ftoa.go:72,75. *)
Definition f_frac (mb b : Z) : Z := b mod 2 ^ mb.

(** math.IsNaN, math.IsInf: binary16.go:70, binary128.go:71, float80x86.go:74,
    float128ppc.go:67,179. *)
Definition f_isnan (mb eb b : Z) : bool :=
  (f_exp mb eb b =? 2 ^ eb - 1) && negb (f_frac mb b =? 0).
(** math.IsInf: float128ppc.go:67,179. *)
Definition f_isinf (mb eb b : Z) : bool :=
  (f_exp mb eb b =? 2 ^ eb - 1) && (f_frac mb b =? 0).

(** new(big.Float).SetFloat64(x): precision 53, mode ToNearestEven; panics on NaN.
    (With mb = 23 and eb = 8 it stands for the same call on float64(x), x a float32.)
    Inside big.NewFloat, binary16.go:78. *)
Definition SetFloat (mb eb : Z) (b : Z) : outcome bigfloat :=
  let bias := 2 ^ (eb - 1) - 1 in
  let s := f_sign mb eb b in
  let ex := f_exp mb eb b in
  let fr := f_frac mb b in
  if ex =? 2 ^ eb - 1 then
    (if fr =? 0 then Ret (mkBF 53 ToNearestEven Exact s Inf) else Panic)
  else if ex =? 0 then
    (if fr =? 0 then Ret (mkBF 53 ToNearestEven Exact s Zero)
     else Ret (mkBF 53 ToNearestEven Exact s (Finite fr (1 - bias - mb))))
  else Ret (mkBF 53 ToNearestEven Exact s (Finite (2 ^ mb + fr) (ex - bias - mb))).

(** big.NewFloat(x), x a float64: binary16.go:78, binary128.go:79, float80x86.go:88,
    float128ppc.go:108-162. *)
Definition NewFloat (b : Z) : outcome bigfloat := SetFloat 52 11 b.

(** big.NewFloat(0): binary16.go:89,207, binary128.go:90,231, float80x86.go:99,227,
    bfloat.go:34, float128ppc.go:84,155. *)
Definition NewFloat0 : bigfloat := mkBF 53 ToNearestEven Exact false Zero.

(** The bit pattern with sign [s] and magnitude bits [mag] (inside Float64, binary16.go:198). *)
Definition with_sign (mb eb : Z) (s : bool) (mag : Z) : Z :=
  Z.lor (if s then 2 ^ (mb + eb) else 0) mag.

(** Float.Float64() with (mb, eb) = (52, 11), Float.Float32() with (23, 8): binary16.go:182,198,
    binary128.go:206,222, float80x86.go:203,219, float128ppc.go:107,113,137,149,
    float.go:15,27,39. *)
Definition ToFloat (mb eb : Z) (x : bigfloat) : Z * accuracy :=
  let fbits := mb + eb + 1 in
  let bias := 2 ^ (eb - 1) - 1 in
  let emin := 1 - bias in
  let emax := bias in
  let s := neg x in
  let inf := with_sign mb eb s ((2 ^ eb - 1) * 2 ^ mb) in
  match frm x with
  | Zero => (with_sign mb eb s 0, Exact)
  | Inf => (inf, Exact)
  | Finite m e =>
      let ex := gexp m e - 1 in
      let p := if ex <? emin then mb + 1 - emin + ex else mb + 1 in
      if (p <? 0) || ((p =? 0) && (m =? 2 ^ (bitlen m - 1))) then
        (with_sign mb eb s 0, makeAcc s)
      else if p =? 0 then (with_sign mb eb s 1, makeAcc (negb s))
      else
        let r := Set_ (mkBF p ToNearestEven Exact false Zero) x in
        match frm r with
        | Finite rm re =>
            let ex := gexp rm re - 1 in
            if emax <? ex then (inf, makeAcc (negb s))
            else if ex <? emin then
              let p := mb + 1 - emin + ex in
              (with_sign mb eb s (msb fbits rm / 2 ^ (fbits - p)), acc r)
            else
              (with_sign mb eb s
                 (Z.lor ((ex + bias) * 2 ^ mb) (Z.land (msb fbits rm / 2 ^ eb) (2 ^ mb - 1))),
               acc r)
        | _ => (inf, makeAcc (negb s))
        end
  end.

(** As above. binary16.go:198; binary16.go:182. *)
Definition Float64 (x : bigfloat) : Z * accuracy := ToFloat 52 11 x.
(** x.Float32(): binary16.go:182. *)
Definition Float32 (x : bigfloat) : Z * accuracy := ToFloat 23 8 x.

(** Go's conversion float64(x) of a float32: exact; a NaN keeps its sign (and, quieted,
    its payload).  binary16.go:58, binary128.go:59, float80x86.go:62, float128ppc.go:55. *)
Definition f32_to_f64 (b : Z) : Z :=
  if f_isnan 23 8 b then
    with_sign 52 11 (f_sign 23 8 b)
      (Z.lor (2047 * 2 ^ 52) (Z.lor (2 ^ 51) (f_frac 23 b * 2 ^ 29)))
  else match SetFloat 23 8 b with
       | Ret x => fst (ToFloat 52 11 x)
       | Panic => 0
       end.

(** Go's conversion float32(x) of a float64: round to nearest even; a NaN keeps its sign
    (and, quieted and truncated, its payload).  binary16.go:178,180, binary128.go:202,204,
    float80x86.go:199,201, float128ppc.go:133,135, ftoa.go:72. *)
Definition f64_to_f32 (b : Z) : Z :=
  if f_isnan 52 11 b then
    with_sign 23 8 (f_sign 52 11 b)
      (Z.lor (255 * 2 ^ 23) (Z.lor (2 ^ 22) (f_frac 52 b / 2 ^ 29)))
  else match SetFloat 52 11 b with
       | Ret x => fst (ToFloat 23 8 x)
       | Panic => 0
       end.

(** math.NaN() and -math.NaN(): binary16.go:178-196, binary128.go:202-220,
    float80x86.go:199-217, float128ppc.go:21,23,133-147. *)
Definition math_NaN : Z := 0x7FF8000000000001.
(** -math.NaN(): binary16.go:178-196, float128ppc.go:23. *)
Definition math_NegNaN : Z := 0xFFF8000000000001.
