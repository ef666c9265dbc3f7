(** Model of binary16/binary16.go. *)
From Coq Require Import ZArith String List Bool.
From Verif Require Import GoBase BigFloat GoFmt.
Import ListNotations.
Open Scope Z_scope.

(** binary16.go:15-21 *)
Definition precision : Z := 11.
(** binary16.go:19-20 *)
Definition bias : Z := 15.

(** binary16.go:39-47: struct { bits uint16 }; the value is the field. *)
Definition Float := Z.

(** binary16.go:24-37 *)
Definition NaN : Float := 0x7E00.
(** binary16.go:27-28 *)
Definition NegNaN : Float := 0xFE00.
(** binary16.go:29-30 *)
Definition Inf : Float := 0x7C00.
(** binary16.go:31-32 *)
Definition NegInf : Float := 0xFC00.
(** binary16.go:33-34 *)
Definition Zero : Float := 0x0000.
(** binary16.go:35-36 *)
Definition NegZero : Float := 0x8000.

(** binary16.go:51-53 *)
Definition NewFromBits (bits : Z) : Float := bits.

(** binary16.go:165-167 *)
Definition Bits (f : Float) : Z := f.

(** binary16.go:263-266 *)
Definition Signbit (f : Float) : bool := negb (Z.land f 0x8000 =? 0).

(** binary16.go:269-272.  In Go [&] and [>>] have the same precedence and associate to the left. *)
Definition Exp (f : Float) : Z := Z.shiftr (Z.land f 0x7C00) 10.

(** binary16.go:275-278 *)
Definition Frac (f : Float) : Z := Z.land f 0x03FF.

(** binary16.go:87-162
    [int] is the conversion of a result to int, for the addition of the bias, the only
    operation that can leave the range of a 32-bit int. *)
Definition NewFromBig_int (int : Z -> Z) (x : bigfloat) : Float * accuracy :=
  (* 88-106: infinities and zeros *)
  if BigFloat.IsInf x then
    (if BigFloat.Signbit x then (NegInf, Exact) else (Inf, Exact))
  else if BigFloat.Cmp x NewFloat0 =? 0 then
    (if BigFloat.Signbit x then (NegZero, Exact) else (Zero, Exact))
  else
    (* 109-112 *)
    let bits := if BigFloat.Signbit x then Z.lor 0 0x8000 else 0 in
    (* 115-118 *)
    let '(mant, exponent) := MantExp x in
    let exp := int (exponent - 1 + bias) in
    if exp <=? 0 then
      (* 122-136: denormalized values *)
      let '(exp, acc) :=
        if exp <=? - (precision - 1) then (precision - 1, Below) else (exp, Exact) in
      let mant := SetMantExpSelf mant (exp + precision - 1) in
      let mant := if BigFloat.Signbit mant then NegSelf mant else mant in
      let '(mantissa, _) := Uint64 mant in
      (Z.lor bits (u16 (Z.land mantissa 0x7FF)), acc)
    else
      (* 139-143 *)
      let acc := if negb (andnot exp 0x1F =? 0) then Above else Exact in
      let bits := Z.lor bits (u16 (Z.shiftl (u16 (Z.land exp 0x1F)) 10)) in
      (* 145-153 *)
      let mant := if BigFloat.Signbit mant then NegSelf mant else mant in
      let mant := SetMantExpSelf mant precision in
      let acc := if negb (IsInt mant) then Below else acc in
      let '(mantissa, _) := Uint64 mant in
      let mantissa := andnot mantissa 0x400 in
      (* 156-161 *)
      let acc := if accuracy_eqb acc Exact && negb (andnot mantissa 0x7FF =? 0)
                 then Below else acc in
      let mantissa := Z.land mantissa 0x7FF in
      (Z.lor bits (u16 mantissa), acc).

(** binary16.go:87-162 with an int wide enough for the sum of the exponent, an int32, and the bias: a
    64-bit host.  Used by everything below. *)
Definition NewFromBig (x : bigfloat) : Float * accuracy := NewFromBig_int (fun n => n) x.

(** binary16.go:87-162 on a host whose int has [w] bits. *)
Definition NewFromBig_host (w : Z) (x : bigfloat) : Float * accuracy := NewFromBig_int (sint w) x.

(** binary16.go:67-83.  [Panic] is big.NewFloat's panic on a NaN. *)
Definition NewFromFloat64 (x : Z) : outcome (Float * accuracy) :=
  if f_isnan 52 11 x then
    (if f_sign 52 11 x then Ret (NegNaN, Exact) else Ret (NaN, Exact))
  else
    y <- NewFloat x ;;
    let y := SetPrec y precision in
    let y := SetMode y ToNearestEven in
    Ret (NewFromBig y).

(** binary16.go:203-260.  [Panic] is line 257. *)
Definition Big (f : Float) : outcome (bigfloat * bool) :=
  let signbit := Signbit f in
  let exp := Exp f in
  let frac := Frac f in
  (* 207-209 *)
  let x := SetMode (SetPrec NewFloat0 precision) ToNearestEven in
  (* 217-260 *)
  let text lead exponent :=
    let sign := if signbit then B "-" else B "+" in
    let s := sign ++ B "0b" ++ fmt_d lead ++ B "." ++ fmt_b 10 frac ++ B "p" ++ fmt_d exponent in
    match Parse x s with
    | Some x => Ret (x, false)
    | None => Panic
    end in
  if exp =? 0x1F then
    (if frac =? 0 then Ret (SetInf x signbit, false)
     else Ret (if signbit then NegSelf x else x, true))
  else if exp =? 0x00 then
    (if frac =? 0 then Ret (if signbit then NegSelf x else x, false)
     else text 0 (-14))
  else text 1 (exp - bias).

(** binary16.go:190-199 *)
Definition Float64 (f : Float) : outcome (Z * accuracy) :=
  '(x, nan) <- Big f ;;
  if (nan : bool) then
    (if BigFloat.Signbit x then Ret (math_NegNaN, Exact) else Ret (math_NaN, Exact))
  else Ret (BigFloat.Float64 x).

(** binary16.go:174-183 *)
Definition Float32 (f : Float) : outcome (Z * accuracy) :=
  '(x, nan) <- Big f ;;
  if (nan : bool) then
    (if BigFloat.Signbit x then Ret (f64_to_f32 math_NegNaN, Exact)
     else Ret (f64_to_f32 math_NaN, Exact))
  else Ret (BigFloat.Float32 x).

(** binary16.go:57-63 *)
Definition NewFromFloat32 (x : Z) : outcome (Float * accuracy) :=
  '(f, acc) <- NewFromFloat64 (f32_to_f64 x) ;;
  if accuracy_eqb acc Exact then
    '(_, acc) <- Float32 f ;;
    Ret (f, acc)
  else Ret (f, acc).
