(** Model of bfloat/bfloat.go. *)
From Coq Require Import ZArith String List Bool.
From Verif Require Import GoBase BigFloat GoFmt.
Import ListNotations.
Open Scope Z_scope.

(** bfloat.go:8-14 *)
Definition precision : Z := 8.
(** bfloat.go:12-13 *)
Definition bias : Z := 127.

(** bfloat.go:17-24 *)
Definition Float := Z.

(** bfloat.go:26-28 *)
Definition NewFromBits (bits : Z) : Float := bits.

(** bfloat.go:88-91 *)
Definition Signbit (f : Float) : bool := negb (Z.land f 0x8000 =? 0).

(** bfloat.go:94-97 *)
Definition Exp (f : Float) : Z := Z.shiftr (Z.land f 0x7F80) 7.

(** bfloat.go:100-103 *)
Definition Frac (f : Float) : Z := Z.land f 0x7F.

(** bfloat.go:30-85.  [Panic] is line 82. *)
Definition Big (f : Float) : outcome (bigfloat * bool) :=
  let signbit := Signbit f in
  let exp := Exp f in
  let frac := Frac f in
  let x := SetMode (SetPrec NewFloat0 precision) ToNearestEven in
  let text lead exponent :=
    let sign := if signbit then B "-" else B "+" in
    let s := sign ++ B "0b" ++ fmt_d lead ++ B "." ++ fmt_b 7 frac ++ B "p" ++ fmt_d exponent in
    match Parse x s with
    | Some x => Ret (x, false)
    | None => Panic
    end in
  if exp =? 0xFF then
    (if frac =? 0 then Ret (SetInf x signbit, false)
     else Ret (if signbit then NegSelf x else x, true))
  else if exp =? 0x00 then
    (if frac =? 0 then Ret (if signbit then NegSelf x else x, false)
     else text 0 (-126))
  else text 1 (exp - bias).
