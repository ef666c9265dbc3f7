(** Model of float128ppc/float128ppc.go. *)
From Coq Require Import ZArith String List Bool.
From Verif Require Import GoBase BigFloat.
Import ListNotations.
Open Scope Z_scope.

(** float128ppc.go:12-16 *)
Definition precision : Z := 106.

(** float128ppc.go:35-39; a float64 is its bit pattern. *)
Record Float := mkFloat { high : Z; low : Z }.

(** Go's unary minus on a float64 flips the sign bit: float128ppc.go:23,27. *)
Definition f64_neg (b : Z) : Z := Z.lxor b (2 ^ 63).

(** math.Inf(sign): +Inf for sign >= 0, -Inf otherwise; math.Copysign(0, -1):
    float128ppc.go:25,27,31. *)
Definition math_Inf (sign : Z) : Z :=
  if 0 <=? sign then 0x7FF0000000000000 else 0xFFF0000000000000.
(** math.Copysign(0, -1): float128ppc.go:31. *)
Definition math_NegZero : Z := 0x8000000000000000.

(** float128ppc.go:19-32 *)
Definition NaN : Float := mkFloat math_NaN 0.
(** float128ppc.go:22-23 *)
Definition NegNaN : Float := mkFloat (f64_neg math_NaN) 0.
(** float128ppc.go:24-25 *)
Definition Inf : Float := mkFloat (math_Inf 1) 0.
(** float128ppc.go:26-27 *)
Definition NegInf : Float := mkFloat (f64_neg (math_Inf (-1))) 0.
(** float128ppc.go:28-29 *)
Definition Zero : Float := mkFloat 0 0.
(** float128ppc.go:30-31 *)
Definition NegZero : Float := mkFloat math_NegZero 0.

(** float128ppc.go:43-50; math.Float64frombits is the identity on bit patterns. *)
Definition NewFromBits (a b : Z) : Float := mkFloat a b.

(** float128ppc.go:124-126 *)
Definition Bits (f : Float) : Z * Z := (high f, low f).

(** float128ppc.go:177-180 *)
Definition IsNaN (f : Float) : bool := f_isnan 52 11 (high f) || f_isnan 52 11 (low f).

(** float128ppc.go:154-174.  [Panic]: big.Float.Add of infinities of opposite sign. *)
Definition Big (f : Float) : outcome (bigfloat * bool) :=
  let x := SetMode (SetPrec NewFloat0 precision) ToNearestEven in
  if IsNaN f then Ret (x, true)
  else
    h <- NewFloat (high f) ;;
    let h := SetPrec h precision in
    l <- NewFloat (low f) ;;
    let l := SetPrec l precision in
    x <- Add x h l ;;
    let zero := SetPrec NewFloat0 precision in
    let x :=
      if (Cmp x zero =? 0) && f_sign 52 11 (high f) then
        (if negb (Signbit x) then NegSelf x else x)
      else x in
    Ret (x, false).

(** float128ppc.go:64-78 *)
Definition NewFromFloat64 (x : Z) : outcome (Float * accuracy) :=
  if f_isnan 52 11 x then
    (if f_sign 52 11 x then Ret (NegNaN, Exact) else Ret (NaN, Exact))
  else
    let r := mkFloat x 0 in
    '(br, _) <- Big r ;;
    Ret (r, acc br).

(** float128ppc.go:82-121.  The second component of the result is *x after the call:
    line 104 changes it.  [Panic]: big.Float.Sub or Add of infinities. *)
Definition NewFromBig (x : bigfloat) : outcome (Float * accuracy * bigfloat) :=
  (* 84-101 *)
  if IsInf x then
    (if Signbit x then Ret (NegInf, Exact, x) else Ret (Inf, Exact, x))
  else if Cmp x (SetPrec NewFloat0 precision) =? 0 then
    (if Signbit x then Ret (NegZero, Exact, x) else Ret (Zero, Exact, x))
  else
    (* 104 *)
    let x := SetMode (SetPrec x precision) ToNearestEven in
    (* 107-108 *)
    let '(high, _) := BigFloat.Float64 x in
    h <- NewFloat high ;;
    let h := SetMode (SetPrec h precision) ToNearestEven in
    (* 111-113 *)
    let l := SetMode (SetPrec NewFloat0 precision) ToNearestEven in
    l <- Sub l x h ;;
    let '(low, _) := BigFloat.Float64 l in
    (* 116-118 *)
    let result := SetMode (SetPrec NewFloat0 precision) ToNearestEven in
    result <- Add result h l ;;
    let acc := accuracy_of_int (Cmp x result) in
    Ret (mkFloat high low, acc, x).

(** float128ppc.go:141-150 *)
Definition Float64 (f : Float) : outcome (Z * accuracy) :=
  '(x, nan) <- Big f ;;
  if (nan : bool) then
    (if Signbit x then Ret (math_NegNaN, Exact) else Ret (math_NaN, Exact))
  else Ret (BigFloat.Float64 x).

(** float128ppc.go:129-138 *)
Definition Float32 (f : Float) : outcome (Z * accuracy) :=
  '(x, nan) <- Big f ;;
  if (nan : bool) then
    (if Signbit x then Ret (f64_to_f32 math_NegNaN, Exact)
     else Ret (f64_to_f32 math_NaN, Exact))
  else Ret (BigFloat.Float32 x).

(** float128ppc.go:54-60 *)
Definition NewFromFloat32 (x : Z) : outcome (Float * accuracy) :=
  '(f, acc) <- NewFromFloat64 (f32_to_f64 x) ;;
  if accuracy_eqb acc Exact then
    '(_, acc) <- Float32 f ;;
    Ret (f, acc)
  else Ret (f, acc).
