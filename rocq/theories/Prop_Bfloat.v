(** Properties of package bfloat (C22, C58) and of conversions to wider formats (C58, C59).
    Every theorem is closed by a lemma of ClaimsBf.v. *)
From Coq Require Import ZArith Reals Lia.
From Flocq Require Import Core.
From Verif Require Import GoBase.
From Verif Require BigFloat Bfloat Binary16 Binary128 Float80x86.
From Verif Require Import Spec ClaimsBf.
Import BigFloat (prec, rmode, acc, neg, frm, Finite).
Open Scope Z_scope.

Theorem C22_bfloat_fields : forall b, 0 <= b < 2 ^ 16 ->
  let f := Bfloat.NewFromBits b in
  0 <= Bfloat.Exp f < 2 ^ 8 /\ 0 <= Bfloat.Frac f < 2 ^ 7 /\
  Z.b2z (Bfloat.Signbit f) * 2 ^ 15 + Bfloat.Exp f * 2 ^ 7 + Bfloat.Frac f = b.
Proof. exact c22_fields. Qed.
Print Assumptions C22_bfloat_fields.

Example C22_fields_example : 0 <= 0xC049 < 2 ^ 16 /\
  Bfloat.Signbit 0xC049 = true /\ Bfloat.Exp 0xC049 = 128 /\ Bfloat.Frac 0xC049 = 0x49.
Proof. split; [lia|]. vm_compute. auto. Qed.

(** A bfloat is the upper half of a float32 (and so a format with 7 fraction and 8 exponent bits). *)
Theorem C22_bfloat_Big : forall b, 0 <= b < 2 ^ 16 ->
  exists x nan, Bfloat.Big (Bfloat.NewFromBits b) = Ret (x, nan) /\
    wf x /\ prec x = 8 /\ rmode x = BigFloat.ToNearestEven /\ acc x = BigFloat.Exact /\
    ieee 7 8 b = ieee 23 8 (b * 2 ^ 16) /\
    match ieee 23 8 (b * 2 ^ 16) with
    | VNaN s => nan = true /\ bval x = VNum s 0
    | v => nan = false /\ bval x = v
    end.
Proof. exact c22. Qed.
Print Assumptions C22_bfloat_Big.

Example C22_example : 0 <= 0x4049 < 2 ^ 16 /\ ieee 23 8 (0x4049 * 2 ^ 16) = VNum false (IZR 0xC90000 * p2 (-22)).
Proof. split; [lia|reflexivity]. Qed.

Theorem C58_bfloat_widening : forall b, 0 <= b < 2 ^ 16 -> (forall s, ieee 7 8 b <> VNaN s) ->
  exists x d q e, Bfloat.Big (Bfloat.NewFromBits b) = Ret (x, false) /\
    BigFloat.Float32 x = (b * 2 ^ 16, BigFloat.Exact) /\
    BigFloat.Float64 x = (d, BigFloat.Exact) /\ ieee 52 11 d = ieee 7 8 b /\
    Binary128.NewFromBig x = Ret (q, BigFloat.Exact) /\ quad (Binary128.fa q) (Binary128.fb q) = ieee 7 8 b /\
    Float80x86.NewFromBig x = (e, BigFloat.Exact) /\ x87 (Float80x86.se e) (Float80x86.m e) = ieee 7 8 b.
Proof. exact c58. Qed.
Print Assumptions C58_bfloat_widening.

Example C58_example : 0 <= 0x8001 < 2 ^ 16 /\ (forall s, ieee 7 8 0x8001 <> VNaN s).
Proof. split; [lia|]. intros s. discriminate. Qed.

Theorem C59_binary16_widening : forall f, 0 <= f < 2 ^ 16 -> (forall s, ieee 10 5 f <> VNaN s) ->
  exists x d g q e,
    Binary16.Big f = Ret (x, false) /\
    Binary16.Float64 f = Ret (d, BigFloat.Exact) /\ Binary16.Float32 f = Ret (g, BigFloat.Exact) /\
    Binary128.NewFromBig x = Ret (q, BigFloat.Exact) /\
    Binary128.NewFromFloat64 d = Ret (q, BigFloat.Exact) /\
    Binary128.NewFromFloat32 g = Ret (q, BigFloat.Exact) /\
    quad (Binary128.fa q) (Binary128.fb q) = ieee 10 5 f /\
    Float80x86.NewFromBig x = (e, BigFloat.Exact) /\
    Float80x86.NewFromFloat64 d = Ret (e, BigFloat.Exact) /\
    Float80x86.NewFromFloat32 g = Ret (e, BigFloat.Exact) /\
    x87 (Float80x86.se e) (Float80x86.m e) = ieee 10 5 f.
Proof. exact c59. Qed.
Print Assumptions C59_binary16_widening.

(** a subnormal half precision number *)
Example C59_example : 0 <= 0x0001 < 2 ^ 16 /\ (forall s, ieee 10 5 0x0001 <> VNaN s).
Proof. split; [lia|]. intros s. discriminate. Qed.

(** Beyond the list: binary128 holds every float80x86 number, and gives it back. *)
Theorem C59_float80x86_binary128 : forall a b, 0 <= a < 2 ^ 16 -> 0 <= b < 2 ^ 64 -> (forall s, x87 a b <> VNaN s) ->
  exists x q y e,
    Float80x86.Big (Float80x86.NewFromBits a b) = Ret (x, false) /\
    Binary128.NewFromBig x = Ret (q, BigFloat.Exact) /\
    quad (Binary128.fa q) (Binary128.fb q) = x87 a b /\
    Binary128.Big q = Ret (y, false) /\ Float80x86.NewFromBig y = (e, BigFloat.Exact) /\
    x87 (Float80x86.se e) (Float80x86.m e) = x87 a b.
Proof. exact c59_80. Qed.
Print Assumptions C59_float80x86_binary128.

Example C59_float80x86_example : forall s, x87 0x4000 0xC90FDAA22168C235 <> VNaN s.
Proof. intros s. discriminate. Qed.
