(** Model of float80x86/float80x86.go. *)
From Coq Require Import ZArith String List Bool.
From Verif Require Import GoBase BigFloat GoFmt.
Import ListNotations.
Open Scope Z_scope.

(** float80x86.go:15-21 *)
Definition precision : Z := 64.
(** float80x86.go:19-20 *)
Definition bias : Z := 16383.

(** float80x86.go:40-51 *)
Record Float := mkFloat { se : Z; m : Z }.

(** float80x86.go:24-37 *)
Definition NaN : Float := mkFloat 0x7FFF 0xBFFFFFFFFFFFFFFF.
(** float80x86.go:27-28 *)
Definition NegNaN : Float := mkFloat 0xFFFF 0xBFFFFFFFFFFFFFFF.
(** float80x86.go:29-30 *)
Definition Inf : Float := mkFloat 0x7FFF 0x8000000000000000.
(** float80x86.go:31-32 *)
Definition NegInf : Float := mkFloat 0xFFFF 0x8000000000000000.
(** float80x86.go:33-34 *)
Definition Zero : Float := mkFloat 0x0000 0x0000000000000000.
(** float80x86.go:35-36 *)
Definition NegZero : Float := mkFloat 0x8000 0x0000000000000000.

(** float80x86.go:55-57 *)
Definition NewFromBits (se m : Z) : Float := mkFloat se m.

(** float80x86.go:186-188 *)
Definition Bits (f : Float) : Z * Z := (se f, m f).

(** float80x86.go:285-288 *)
Definition Signbit (f : Float) : bool := negb (Z.land (se f) 0x8000 =? 0).

(** float80x86.go:291-294 *)
Definition Exp (f : Float) : Z := Z.land (se f) 0x7FFF.

(** float80x86.go:297-299 *)
Definition Lead (f : Float) : Z := Z.shiftr (m f) 63.

(** float80x86.go:302-304 *)
Definition Frac (f : Float) : Z := Z.land (m f) 0x7FFFFFFFFFFFFFFF.

(** float80x86.go:97-183
    [int] is the conversion of a result to int, for the addition of the bias, the only
    operation that can leave the range of a 32-bit int. *)
Definition NewFromBig_int (int : Z -> Z) (x : bigfloat) : Float * accuracy :=
  (* 98-128 *)
  if BigFloat.IsInf x then
    (if BigFloat.Signbit x then (NegInf, Exact) else (Inf, Exact))
  else if BigFloat.Cmp x NewFloat0 =? 0 then
    (if BigFloat.Signbit x then (NegZero, Exact) else (Zero, Exact))
  else
    (* 131-134 *)
    let se := if BigFloat.Signbit x then Z.lor 0 0x8000 else 0 in
    (* 137-142 *)
    let m := 0 in
    let '(mant, exponent) := MantExp x in
    let exp := int (exponent - 1 + bias) in
    if exp <=? 0 then
      (* 146-160 *)
      let '(exp, acc) :=
        if exp <=? - (precision - 1) then (precision - 1, Below) else (exp, Exact) in
      let mant := SetMantExpSelf mant (exp + precision - 1) in
      let mant := if BigFloat.Signbit mant then NegSelf mant else mant in
      let '(v, _) := Uint64 mant in
      let m := Z.lor m (Z.land v 0x7FFFFFFFFFFFFFFF) in
      (mkFloat se m, acc)
    else
      (* 163-167 *)
      let acc := if negb (andnot exp 0x7FFF =? 0) then Above else Exact in
      let se := Z.lor se (u16 (Z.land exp 0x7FFF)) in
      (* 169-182 *)
      let mant := if BigFloat.Signbit mant then NegSelf mant else mant in
      let mant := SetMantExpSelf mant precision in
      let acc := if negb (IsInt mant) then Below else acc in
      let '(mantissa, acc2) := Uint64 mant in
      let acc := if accuracy_eqb acc Exact then acc2 else acc in
      let m := Z.lor m mantissa in
      (mkFloat se m, acc).

(** float80x86.go:97-183 with an int wide enough for the sum of the exponent, an int32, and the bias: a
    64-bit host.  Used by everything below. *)
Definition NewFromBig (x : bigfloat) : Float * accuracy := NewFromBig_int (fun n => n) x.

(** float80x86.go:97-183 on a host whose int has [w] bits. *)
Definition NewFromBig_host (w : Z) (x : bigfloat) : Float * accuracy := NewFromBig_int (sint w) x.

(** float80x86.go:71-93 *)
Definition NewFromFloat64 (x : Z) : outcome (Float * accuracy) :=
  if f_isnan 52 11 x then
    (if f_sign 52 11 x then Ret (NegNaN, Exact) else Ret (NaN, Exact))
  else
    y <- NewFloat x ;;
    let y := SetPrec y precision in
    let y := SetMode y ToNearestEven in
    Ret (NewFromBig y).

(** float80x86.go:224-282.  [Panic] is line 279. *)
Definition Big (f : Float) : outcome (bigfloat * bool) :=
  let signbit := Signbit f in
  let exp := Exp f in
  let x := SetMode (SetPrec NewFloat0 precision) ToNearestEven in
  (* 270-281 *)
  let text exponent :=
    let sign := if signbit then B "-" else B "+" in
    let lead := Lead f in
    let frac := Frac f in
    let s := sign ++ B "0b" ++ fmt_d lead ++ B "." ++ fmt_b 63 frac ++ B "p" ++ fmt_d exponent in
    match Parse x s with
    | Some x => Ret (x, false)
    | None => Panic
    end in
  (* 237-268 *)
  if exp =? 0x7FFF then
    (if m f =? 0x8000000000000000 then Ret (SetInf x signbit, false)
     else Ret (if signbit then NegSelf x else x, true))
  else if exp =? 0x0000 then
    (if m f =? 0 then Ret (if signbit then NegSelf x else x, false)
     else text (-16382))
  else text (exp - bias).

(** float80x86.go:211-220 *)
Definition Float64 (f : Float) : outcome (Z * accuracy) :=
  '(x, nan) <- Big f ;;
  if (nan : bool) then
    (if BigFloat.Signbit x then Ret (math_NegNaN, Exact) else Ret (math_NaN, Exact))
  else Ret (BigFloat.Float64 x).

(** float80x86.go:195-204 *)
Definition Float32 (f : Float) : outcome (Z * accuracy) :=
  '(x, nan) <- Big f ;;
  if (nan : bool) then
    (if BigFloat.Signbit x then Ret (f64_to_f32 math_NegNaN, Exact)
     else Ret (f64_to_f32 math_NaN, Exact))
  else Ret (BigFloat.Float32 x).

(** float80x86.go:61-67 *)
Definition NewFromFloat32 (x : Z) : outcome (Float * accuracy) :=
  '(f, acc) <- NewFromFloat64 (f32_to_f64 x) ;;
  if accuracy_eqb acc Exact then
    '(_, acc) <- Float32 f ;;
    Ret (f, acc)
  else Ret (f, acc).
