(** Model of binary128/binary128.go. *)
From Coq Require Import ZArith String List Bool.
From Verif Require Import GoBase BigFloat GoFmt.
Import ListNotations.
Open Scope Z_scope.

(** binary128.go:15-21 *)
Definition precision : Z := 113.
(** binary128.go:19-20 *)
Definition bias : Z := 16383.

(** binary128.go:40-48 *)
Record Float := mkFloat { fa : Z; fb : Z }.

(** binary128.go:24-37 *)
Definition NaN : Float := mkFloat 0x7FFF800000000000 0.
(** binary128.go:27-28 *)
Definition NegNaN : Float := mkFloat 0xFFFF800000000000 0.
(** binary128.go:29-30 *)
Definition Inf : Float := mkFloat 0x7FFF000000000000 0.
(** binary128.go:31-32 *)
Definition NegInf : Float := mkFloat 0xFFFF000000000000 0.
(** binary128.go:33-34 *)
Definition Zero : Float := mkFloat 0x0000000000000000 0.
(** binary128.go:35-36 *)
Definition NegZero : Float := mkFloat 0x8000000000000000 0.

(** binary128.go:52-54 *)
Definition NewFromBits (a b : Z) : Float := mkFloat a b.

(** binary128.go:189-191 *)
Definition Bits (f : Float) : Z * Z := (fa f, fb f).

(** binary128.go:283-286 *)
Definition Signbit (f : Float) : bool := negb (Z.land (fa f) 0x8000000000000000 =? 0).

(** binary128.go:289-292, on a host whose int has [w] bits: the conversion to int is
    applied before the shift. *)
Definition Exp_host (w : Z) (f : Float) : Z :=
  Z.shiftr (sint w (Z.land (fa f) 0x7FFF000000000000)) 48.

(** The 64-bit host (binary128.go:289-292). *)
Definition Exp (f : Float) : Z := Exp_host 64 f.

(** binary128.go:295-300 *)
Definition Frac (f : Float) : Z * Z := (Z.land (fa f) 0x0000FFFFFFFFFFFF, fb f).

(** binary128.go:134-141 and 169-176: the loops setting bits lo..hi-1 of a big.Int. *)
Fixpoint set_bits (n : nat) (i : Z) (acc : Z) : Z :=
  match n with
  | O => acc
  | S n => set_bits n (i + 1) (Z.setbit acc i)
  end.
(** binary128.go:134-137 *)
Definition maskA : Z := set_bits 48 64 0.
(** binary128.go:138-141 *)
Definition maskB : Z := set_bits 64 0 0.

(** binary128.go:88-186.  [Panic]: big.Float.Int returns a nil pointer for an infinity.
    [int] is the conversion of a result to int, for the addition of the bias, the only
    operation that can leave the range of a 32-bit int. *)
Definition NewFromBig_int (int : Z -> Z) (x : bigfloat) : outcome (Float * accuracy) :=
  (* 89-107 *)
  if BigFloat.IsInf x then
    (if BigFloat.Signbit x then Ret (NegInf, Exact) else Ret (Inf, Exact))
  else if BigFloat.Cmp x (SetPrec NewFloat0 precision) =? 0 then
    (if BigFloat.Signbit x then Ret (NegZero, Exact) else Ret (Zero, Exact))
  else
    (* 110-113 *)
    let a := if BigFloat.Signbit x then Z.lor 0 0x8000000000000000 else 0 in
    (* 116-119: MantExp overwrites the precision of mant *)
    let '(mant, exponent) := MantExp x in
    let exp := int (exponent - 1 + bias) in
    if exp <=? 0 then
      (* 123-149 *)
      let '(exp, acc) :=
        if exp <=? - (precision - 1) then (precision - 1, Below) else (exp, Exact) in
      let mant := SetMantExpSelf mant (exp + precision - 1) in
      let mant := if BigFloat.Signbit mant then NegSelf mant else mant in
      match Int mant with
      | None => Panic
      | Some mantissa =>
          let bigA := Z.shiftr (Z.land mantissa maskA) 64 in
          let bigB := Z.land mantissa maskB in
          Ret (mkFloat (Z.lor a (Z.land (u64 bigA) 0x0000FFFFFFFFFFFF)) (u64 bigB), acc)
      end
    else
      (* 152-156 *)
      let acc := if negb (andnot exp 0x7FFF =? 0) then Above else Exact in
      let a := Z.lor a (u64 (Z.shiftl (Z.land exp 0x7FFF) 48)) in
      (* 158-166 *)
      let mant := if BigFloat.Signbit mant then NegSelf mant else mant in
      let mant := SetMantExpSelf mant precision in
      let acc := if negb (IsInt mant) then Below else acc in
      match Int mant with
      | None => Panic
      | Some mantissa =>
          let mantissa := Z.clearbit mantissa 112 in
          (* 169-185 *)
          let bigA := Z.shiftr (Z.land mantissa maskA) 64 in
          let bigB := Z.land mantissa maskB in
          let acc := if accuracy_eqb acc Exact
                        && negb (andnot (u64 bigA) 0x0000FFFFFFFFFFFF =? 0)
                     then Below else acc in
          Ret (mkFloat (Z.lor a (Z.land (u64 bigA) 0x0000FFFFFFFFFFFF)) (u64 bigB), acc)
      end.

(** binary128.go:88-186 with an int wide enough for the sum of the exponent, an int32, and the bias: a
    64-bit host.  Used by everything below. *)
Definition NewFromBig (x : bigfloat) : outcome (Float * accuracy) := NewFromBig_int (fun n => n) x.

(** binary128.go:88-186 on a host whose int has [w] bits. *)
Definition NewFromBig_host (w : Z) (x : bigfloat) : outcome (Float * accuracy) := NewFromBig_int (sint w) x.

(** binary128.go:68-84 *)
Definition NewFromFloat64 (x : Z) : outcome (Float * accuracy) :=
  if f_isnan 52 11 x then
    (if f_sign 52 11 x then Ret (NegNaN, Exact) else Ret (NaN, Exact))
  else
    y <- NewFloat x ;;
    let y := SetPrec y precision in
    let y := SetMode y ToNearestEven in
    NewFromBig y.

(** binary128.go:227-280, on a host whose int has [w] bits.  [Panic] is line 277. *)
Definition Big_host (w : Z) (f : Float) : outcome (bigfloat * bool) :=
  let signbit := Signbit f in
  let exp := Exp_host w f in
  let '(frac1, frac2) := Frac f in
  let x := SetMode (SetPrec NewFloat0 precision) ToNearestEven in
  let text lead exponent :=
    let sign := if signbit then B "-" else B "+" in
    let fracStr := fmt_b 48 frac1 ++ fmt_b 64 frac2 in
    let s := sign ++ B "0b" ++ fmt_d lead ++ B "." ++ fracStr ++ B "p" ++ fmt_d exponent in
    match Parse x s with
    | Some x => Ret (x, false)
    | None => Panic
    end in
  if exp =? 0x7FFF then
    (if (frac1 =? 0) && (frac2 =? 0) then Ret (SetInf x signbit, false)
     else Ret (if signbit then NegSelf x else x, true))
  else if exp =? 0x0000 then
    (if (frac1 =? 0) && (frac2 =? 0) then Ret (if signbit then NegSelf x else x, false)
     else text 0 (-16382))
  else text 1 (exp - bias).

(** The 64-bit host (binary128.go:227-280). *)
Definition Big (f : Float) : outcome (bigfloat * bool) := Big_host 64 f.

(** binary128.go:214-223, on a host whose int has [w] bits *)
Definition Float64_host (w : Z) (f : Float) : outcome (Z * accuracy) :=
  '(x, nan) <- Big_host w f ;;
  if (nan : bool) then
    (if BigFloat.Signbit x then Ret (math_NegNaN, Exact) else Ret (math_NaN, Exact))
  else Ret (BigFloat.Float64 x).
(** The 64-bit host (binary128.go:214-223). *)
Definition Float64 (f : Float) : outcome (Z * accuracy) := Float64_host 64 f.

(** binary128.go:198-207, on a host whose int has [w] bits *)
Definition Float32_host (w : Z) (f : Float) : outcome (Z * accuracy) :=
  '(x, nan) <- Big_host w f ;;
  if (nan : bool) then
    (if BigFloat.Signbit x then Ret (f64_to_f32 math_NegNaN, Exact)
     else Ret (f64_to_f32 math_NaN, Exact))
  else Ret (BigFloat.Float32 x).
(** The 64-bit host (binary128.go:198-207). *)
Definition Float32 (f : Float) : outcome (Z * accuracy) := Float32_host 64 f.

(** binary128.go:58-64, on a host whose int has [w] bits *)
Definition NewFromFloat32_host (w x : Z) : outcome (Float * accuracy) :=
  '(f, acc) <- NewFromFloat64 (f32_to_f64 x) ;;
  if accuracy_eqb acc Exact then
    '(_, acc) <- Float32_host w f ;;
    Ret (f, acc)
  else Ret (f, acc).

(** The 64-bit host (binary128.go:58-64). *)
Definition NewFromFloat32 (x : Z) : outcome (Float * accuracy) := NewFromFloat32_host 64 x.
