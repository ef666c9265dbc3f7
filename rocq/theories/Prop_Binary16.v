(** Properties of package binary16 (C01 to C07, and its share of C08 and C09).
    Every theorem is closed by a lemma of Claims16.v or Facts16.v. *)
From Coq Require Import ZArith Reals Lia.
From Flocq Require Import Core.
From Verif Require Import GoBase.
From Verif Require BigFloat Binary16.
From Verif Require Import Spec IeeeFacts BigFacts2 Facts16 Claims16.
Import BigFloat (prec, rmode, acc, neg, frm, Finite).
Open Scope Z_scope.

Theorem C01_binary16_fields : forall b, 0 <= b < 2 ^ 16 ->
  let f := Binary16.NewFromBits b in
  Binary16.Bits f = b /\
  0 <= Binary16.Exp f < 2 ^ 5 /\ 0 <= Binary16.Frac f < 2 ^ 10 /\
  Z.b2z (Binary16.Signbit f) * 2 ^ 15 + Binary16.Exp f * 2 ^ 10 + Binary16.Frac f = b.
Proof. exact c01. Qed.
Print Assumptions C01_binary16_fields.

Example C01_example : 0 <= 0xBC01 < 2 ^ 16 /\
  Binary16.Signbit 0xBC01 = true /\ Binary16.Exp 0xBC01 = 15 /\ Binary16.Frac 0xBC01 = 1.
Proof. repeat split; lia || reflexivity. Qed.

Theorem C02_binary16_Big : forall b, 0 <= b < 2 ^ 16 ->
  exists x nan, Binary16.Big (Binary16.NewFromBits b) = Ret (x, nan) /\
    wf x /\ prec x = 11 /\ rmode x = BigFloat.ToNearestEven /\ acc x = BigFloat.Exact /\
    match ieee 10 5 b with
    | VNaN s => nan = true /\ bval x = VNum s 0
    | v => nan = false /\ bval x = v
    end.
Proof. exact c02. Qed.
Print Assumptions C02_binary16_Big.

(** 1 + 2^-10, the number after 1 *)
Example C02_example : 0 <= 0x3C01 < 2 ^ 16 /\ ieee 10 5 0x3C01 = VNum false (IZR 1025 * p2 (-10)).
Proof. split; [lia|reflexivity]. Qed.

Theorem C03_binary16_roundtrip : forall b, 0 <= b < 2 ^ 16 -> (forall s, ieee 10 5 b <> VNaN s) ->
  exists x, Binary16.Big (Binary16.NewFromBits b) = Ret (x, false) /\
    Binary16.NewFromBig x = (Binary16.NewFromBits b, BigFloat.Exact).
Proof. exact c03. Qed.
Print Assumptions C03_binary16_roundtrip.

(** a negative subnormal number *)
Example C03_example : 0 <= 0x8155 < 2 ^ 16 /\ (forall s, ieee 10 5 0x8155 <> VNaN s).
Proof. split; [lia|]. intros s. discriminate. Qed.

Theorem C04_binary16_floats : forall f, 0 <= f < 2 ^ 16 ->
  exists d g, Binary16.Float64 f = Ret (d, BigFloat.Exact) /\ 0 <= d < 2 ^ 64 /\ ieee 52 11 d = ieee 10 5 f /\
    Binary16.Float32 f = Ret (g, BigFloat.Exact) /\ 0 <= g < 2 ^ 32 /\ ieee 23 8 g = ieee 10 5 f /\
    let f' := match ieee 10 5 f with
              | VNaN s => if s then Binary16.NegNaN else Binary16.NaN
              | _ => f
              end in
    Binary16.NewFromFloat64 d = Ret (f', BigFloat.Exact) /\
    Binary16.NewFromFloat32 g = Ret (f', BigFloat.Exact).
Proof. exact c04. Qed.
Print Assumptions C04_binary16_floats.

Example C04_example : 0 <= 0x0001 < 2 ^ 16 /\
  Binary16.Float64 0x0001 = Ret (0x3E70000000000000, BigFloat.Exact) /\
  Binary16.Float32 0xFC01 = Ret (0xFFC00000, BigFloat.Exact).
Proof. split; [lia|]. split; vm_compute; reflexivity. Qed.

(** The full claim C05: for every finite float64 [x] of sign [s] and value [v],
    NewFromFloat64 returns a [b] with [ieee 10 5 b = ieee_round 10 5 s v].  It is false. *)
Theorem C05_binary16_nearest_refuted :
  exists x s v b a, 0 <= x < 2 ^ 64 /\ ieee 52 11 x = VNum s v /\
    Binary16.NewFromFloat64 x = Ret (b, a) /\ ieee 10 5 b <> ieee_round 10 5 s v.
Proof. exact c05_refuted. Qed.
Print Assumptions C05_binary16_nearest_refuted.

(** It is false below the normal range as well as above it. *)
Theorem C05_binary16_nearest_subnormal_refuted :
  exists x s v b a, 0 <= x < 2 ^ 64 /\ ieee 52 11 x = VNum s v /\ (Rabs v < p2 (-14))%R /\
    Binary16.NewFromFloat64 x = Ret (b, a) /\ ieee 10 5 b <> ieee_round 10 5 s v.
Proof. exact c05_refuted_subnormal. Qed.
Print Assumptions C05_binary16_nearest_subnormal_refuted.

(** What holds of C05: correct rounding for zeros, for 2^-14 <= |x| < 2^16 and for numbers
    that are half precision numbers themselves.  Missing: inexact |x| < 2^-14, and
    |x| >= 2^16, where the claim is false. *)
Theorem C05_binary16_nearest_partial : forall x s v, 0 <= x < 2 ^ 64 -> ieee 52 11 x = VNum s v ->
  v = 0%R \/ (p2 (-14) <= Rabs v < p2 16)%R \/ fits 10 5 v ->
  exists b a, Binary16.NewFromFloat64 x = Ret (b, a) /\ 0 <= b < 2 ^ 16 /\
    ieee 10 5 b = ieee_round 10 5 s v.
Proof. exact c05_partial. Qed.
Print Assumptions C05_binary16_nearest_partial.

(** What NewFromFloat64 does instead, down to 2^-24 and up to overflow: it rounds to 11
    bits, then truncates, and always says Exact. *)
Theorem C05_binary16_double_rounding_partial : forall x s v, 0 <= x < 2 ^ 64 -> ieee 52 11 x = VNum s v ->
  (p2 (-24) <= Rabs v)%R -> (Rabs (rnd_prec BigFloat.ToNearestEven 11 v) < p2 16)%R ->
  exists b, Binary16.NewFromFloat64 x = Ret (b, BigFloat.Exact) /\ 0 <= b < 2 ^ 16 /\
    ieee 10 5 b = VNum s (rz 10 5 (rnd_prec BigFloat.ToNearestEven 11 v)).
Proof. exact nff64_general. Qed.
Print Assumptions C05_binary16_double_rounding_partial.

(** NewFromFloat32 gives number and accuracy of NewFromFloat64 of the same number, so all
    that is said of the one (here, in C06 and in C08) holds of the other. *)
Theorem C05_binary16_NewFromFloat32 : forall x, 0 <= x < 2 ^ 32 -> exists y, 0 <= y < 2 ^ 64 /\ ieee 52 11 y = ieee 23 8 x /\
  Binary16.NewFromFloat32 x = Binary16.NewFromFloat64 y.
Proof. exact c05_32. Qed.
Print Assumptions C05_binary16_NewFromFloat32.

Example C05_NewFromFloat32_example : ieee 52 11 0x3FF3333340000000 = ieee 23 8 0x3F99999A /\
  Binary16.NewFromFloat32 0x3F99999A = Ret (0x3CCD, BigFloat.Exact) /\
  Binary16.NewFromFloat64 0x3FF3333340000000 = Ret (0x3CCD, BigFloat.Exact).
Proof. split; [|vm_compute; auto]. destruct (f32_to_f64_correct 0x3F99999A ltac:(lia)) as [_ H]. rewrite <- H. reflexivity. Qed.

(** 1 + 2^-11, a tie; the result is 1 *)
Example C05_example : 0 <= 0x3FF0020000000000 < 2 ^ 64 /\
  ieee 52 11 0x3FF0020000000000 = VNum false (IZR (2 ^ 52 + 2 ^ 41) * p2 (-52)) /\
  Binary16.NewFromFloat64 0x3FF0020000000000 = Ret (0x3C00, BigFloat.Exact).
Proof. split; [lia|]. split; [reflexivity|vm_compute; reflexivity]. Qed.

Theorem C06_binary16_accuracy_refuted :
  exists x s v b a, 0 <= x < 2 ^ 64 /\ ieee 52 11 x = VNum s v /\
    Binary16.NewFromFloat64 x = Ret (b, a) /\ ~ acc_ok a (ieee 10 5 b) v.
Proof. exact c06_refuted. Qed.
Print Assumptions C06_binary16_accuracy_refuted.

(** What holds of C06: the accuracy is right when x is a half precision number.  Missing:
    every inexact conversion; see [C05_binary16_double_rounding_partial], which shows that
    the accuracy is Exact whatever is lost. *)
Theorem C06_binary16_accuracy_partial : forall x s v, 0 <= x < 2 ^ 64 -> ieee 52 11 x = VNum s v -> fits 10 5 v ->
  exists b a, Binary16.NewFromFloat64 x = Ret (b, a) /\ acc_ok a (ieee 10 5 b) v.
Proof. exact c06_partial. Qed.
Print Assumptions C06_binary16_accuracy_partial.

(** 1.5, and what happens to 1 + 2^-52 *)
Example C06_example : 0 <= 0x3FF8000000000000 < 2 ^ 64 /\
  ieee 52 11 0x3FF8000000000000 = VNum false (IZR (3 * 2 ^ 51) * p2 (-52)) /\
  fits 10 5 (IZR (3 * 2 ^ 51) * p2 (-52)) /\
  Binary16.NewFromFloat64 0x3FF8000000000000 = Ret (0x3E00, BigFloat.Exact) /\
  Binary16.NewFromFloat64 0x3FF0000000000001 = Ret (0x3C00, BigFloat.Exact).
Proof. exact c06_example. Qed.

(** The full claim C07: for every well-formed finite [x] of value [v] the result is
    [ieee_round 10 5 (neg x) v] with a truthful accuracy.  It is false. *)
Theorem C07_binary16_NewFromBig_refuted :
  exists x m e, wf x /\ frm x = Finite m e /\
    let v := sgnR (neg x) (IZR m * p2 e) in
    ieee 10 5 (fst (Binary16.NewFromBig x)) <> ieee_round 10 5 (neg x) v.
Proof. exact c07_refuted. Qed.
Print Assumptions C07_binary16_NewFromBig_refuted.

(** What holds of C07, for 2^-24 <= |x| < 2^16: the result is x truncated (not rounded to
    nearest); it is x itself, and Exact, for half precision numbers; the accuracy is
    truthful for x >= 2^-14.  Missing: nearest rounding, other magnitudes, and the
    accuracy of negative and of subnormal results. *)
Theorem C07_binary16_NewFromBig_partial : forall x m e, wf x -> frm x = Finite m e ->
  let v := sgnR (neg x) (IZR m * p2 e) in
  (p2 (-24) <= Rabs v < p2 16)%R ->
  ieee 10 5 (fst (Binary16.NewFromBig x)) = VNum (neg x) (rz 10 5 v) /\
  (fits 10 5 v -> Binary16.NewFromBig x = (fst (Binary16.NewFromBig x), BigFloat.Exact) /\
                  ieee 10 5 (fst (Binary16.NewFromBig x)) = ieee_round 10 5 (neg x) v) /\
  ((p2 (-14) <= v)%R -> acc_ok (snd (Binary16.NewFromBig x)) (ieee 10 5 (fst (Binary16.NewFromBig x))) v).
Proof. exact c07_partial. Qed.
Print Assumptions C07_binary16_NewFromBig_partial.

(** 1 + 2^-11 + 2^-12 at precision 53 *)
Example C07_example :
  let x := BigFloat.mkBF 53 BigFloat.ToNearestEven BigFloat.Exact false (Finite (2 ^ 12 + 3) (-12)) in
  wf x /\ (p2 (-24) <= Rabs (sgnR (neg x) (IZR (2 ^ 12 + 3) * p2 (-12))) < p2 16)%R /\
  Binary16.NewFromBig x = (0x3C00, BigFloat.Below).
Proof. exact c07_example. Qed.

Theorem C08_binary16_special : forall s,
  (forall x, 0 <= x < 2 ^ 64 -> ieee 52 11 x = VNaN s ->
     Binary16.NewFromFloat64 x = Ret ((if s then Binary16.NegNaN else Binary16.NaN), BigFloat.Exact)) /\
  (forall x, 0 <= x < 2 ^ 64 -> ieee 52 11 x = VInf s ->
     Binary16.NewFromFloat64 x = Ret ((if s then Binary16.NegInf else Binary16.Inf), BigFloat.Exact)) /\
  (forall x, 0 <= x < 2 ^ 64 -> ieee 52 11 x = VNum s 0 ->
     Binary16.NewFromFloat64 x = Ret ((if s then Binary16.NegZero else Binary16.Zero), BigFloat.Exact)) /\
  (forall x, 0 <= x < 2 ^ 32 -> ieee 23 8 x = VNaN s ->
     Binary16.NewFromFloat32 x = Ret ((if s then Binary16.NegNaN else Binary16.NaN), BigFloat.Exact)) /\
  (forall x, 0 <= x < 2 ^ 32 -> ieee 23 8 x = VInf s ->
     Binary16.NewFromFloat32 x = Ret ((if s then Binary16.NegInf else Binary16.Inf), BigFloat.Exact)) /\
  (forall x, 0 <= x < 2 ^ 32 -> ieee 23 8 x = VNum s 0 ->
     Binary16.NewFromFloat32 x = Ret ((if s then Binary16.NegZero else Binary16.Zero), BigFloat.Exact)) /\
  (forall x, wf x -> bval x = VInf s ->
     Binary16.NewFromBig x = ((if s then Binary16.NegInf else Binary16.Inf), BigFloat.Exact)) /\
  (forall x, wf x -> bval x = VNum s 0 ->
     Binary16.NewFromBig x = ((if s then Binary16.NegZero else Binary16.Zero), BigFloat.Exact)) /\
  ieee 10 5 (if s then Binary16.NegNaN else Binary16.NaN) = VNaN s /\
  ieee 10 5 (if s then Binary16.NegInf else Binary16.Inf) = VInf s /\
  ieee 10 5 (if s then Binary16.NegZero else Binary16.Zero) = VNum s 0.
Proof. exact c08_16. Qed.
Print Assumptions C08_binary16_special.

Example C08_binary16_example : ieee 52 11 0xFFF0000000000001 = VNaN true /\ ieee 23 8 0xFF800000 = VInf true /\
  bval (BigFloat.mkBF 7 BigFloat.ToZero BigFloat.Above true BigFloat.Zero) = VNum true 0.
Proof. repeat split. Qed.

(** [BigFloat.NegSelf x] is x.Neg(x). *)
Theorem C09_binary16_sign : forall x, wf x ->
  Binary16.NewFromBig (BigFloat.NegSelf x) =
  (Z.lxor (fst (Binary16.NewFromBig x)) (2 ^ 15), snd (Binary16.NewFromBig x)).
Proof. exact c09. Qed.
Print Assumptions C09_binary16_sign.

Example C09_binary16_example :
  let x := BigFloat.mkBF 53 BigFloat.ToNearestEven BigFloat.Exact false (Finite (2 ^ 12 + 3) (-12)) in
  wf x /\ Binary16.NewFromBig (BigFloat.NegSelf x) = (0xBC00, BigFloat.Below).
Proof. split; [apply c07_example|vm_compute; reflexivity]. Qed.
