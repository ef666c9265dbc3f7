(** NewFromBig of binary16, binary128 and float80x86 and NewFromFloat64 of binary16,
    described on every non-zero finite argument.  Together with the theorems on special
    values (C08) this says what the functions do on every argument.

    In each theorem k is the exponent of the number: 2^k <= |v| < 2^(k+1). *)
From Coq Require Import ZArith Reals Bool.
From Flocq Require Import Core.
From Verif Require Import GoBase Spec.
From Verif Require BigFloat Binary16 Binary128 Float80x86.
From Verif Require Import AllBig.
From Coq Require Import Lia Lra.
Import BigFloat (Finite).
Open Scope Z_scope.

(** All of binary16.NewFromBig.  From 2^-14 on the number is truncated to 11 bits and the
    exponent is taken modulo 32; below, it is truncated to a multiple of 2^-24; below 2^-24
    the result is made of bits 9 to 19 of the mantissa, whatever the exponent. *)
Theorem C07_binary16_NewFromBig_all : forall x s v k, wf x -> bval x = VNum s v -> (p2 k <= Rabs v < p2 (k + 1))%R ->
  let F n := Zfloor (Rabs v * p2 n) in
  let S := if s then 2 ^ 15 else 0 in
  let '(b, a) := Binary16.NewFromBig x in
  (-14 <= k -> b = S + (k + 15) mod 2 ^ 5 * 2 ^ 10 + (F (10 - k) - 2 ^ 10) /\
     (IZR (F (10 - k)) = (Rabs v * p2 (10 - k))%R -> a = if k <? 17 then BigFloat.Exact else BigFloat.Above) /\
     (IZR (F (10 - k)) <> (Rabs v * p2 (10 - k))%R -> a = BigFloat.Below)) /\
  (-24 <= k < -14 -> b = S + F 24 /\ a = BigFloat.Exact) /\
  (k < -24 -> b = S + F (19 - k) mod 2 ^ 11 /\ a = BigFloat.Below).
Proof. exact c07_all. Qed.
Print Assumptions C07_binary16_NewFromBig_all.

(** -3 * 2^-16: k = -15 *)
Example C07_all_example :
  let x := BigFloat.mkBF 53 BigFloat.ToNearestEven BigFloat.Exact true (Finite 3 (-16)) in
  wf x /\ bval x = VNum true (- (IZR 3 * p2 (-16))) /\ (p2 (-15) <= Rabs (- (IZR 3 * p2 (-16))) < p2 (-15 + 1))%R /\
  Binary16.NewFromBig x = (0x8000 + 3 * 2 ^ 8, BigFloat.Exact).
Proof. exact c07_all_example. Qed.

(** All of binary16.NewFromFloat64: the same after rounding to 11 bits. *)
Theorem C05_binary16_NewFromFloat64_all : forall x s v k, 0 <= x < 2 ^ 64 -> ieee 52 11 x = VNum s v ->
  let r := rnd_prec BigFloat.ToNearestEven 11 v in
  (p2 k <= Rabs r < p2 (k + 1))%R ->
  let F n := Zfloor (Rabs r * p2 n) in
  let S := if s then 2 ^ 15 else 0 in
  exists b a, Binary16.NewFromFloat64 x = Ret (b, a) /\
  (-14 <= k -> b = S + (k + 15) mod 2 ^ 5 * 2 ^ 10 + (F (10 - k) - 2 ^ 10) /\
               a = if k <? 17 then BigFloat.Exact else BigFloat.Above) /\
  (-24 <= k < -14 -> b = S + F 24 /\ a = BigFloat.Exact) /\
  (k < -24 -> b = S + F (19 - k) mod 2 ^ 11 /\ a = BigFloat.Below).
Proof. exact c05_all. Qed.
Print Assumptions C05_binary16_NewFromFloat64_all.

(** 1 + 2^-12, rounded to 1: k = 0 *)
Example C05_all_example :
  let v := (IZR (2 ^ 52 + 2 ^ 40) * p2 (-52))%R in
  ieee 52 11 0x3FF0010000000000 = VNum false v /\ (p2 0 <= Rabs (rnd_prec BigFloat.ToNearestEven 11 v) < p2 (0 + 1))%R /\
  Binary16.NewFromFloat64 0x3FF0010000000000 = Ret (0x3C00, BigFloat.Exact).
Proof. exact c05_all_example. Qed.

(** A finite number can become Not-a-Number: 98304 = 1.5 * 2^16 does. *)
Theorem C05_binary16_NaN_refuted : exists x s v b a, 0 <= x < 2 ^ 64 /\ ieee 52 11 x = VNum s v /\
  Binary16.NewFromFloat64 x = Ret (b, a) /\ ieee 10 5 b = VNaN false.
Proof. exact c05_nan. Qed.
Print Assumptions C05_binary16_NaN_refuted.

(** A number below 2^-29 can become 2^-15: (1 + 2^-10) * 2^-30 does. *)
Theorem C05_binary16_tiny_refuted : exists x v b, 0 <= x < 2 ^ 64 /\ ieee 52 11 x = VNum false v /\ (0 < v < p2 (-29))%R /\
  Binary16.NewFromFloat64 x = Ret (b, BigFloat.Below) /\ ieee 10 5 b = VNum false (IZR 512 * p2 (-24)).
Proof. exact c05_tiny. Qed.
Print Assumptions C05_binary16_tiny_refuted.

(** All of binary128.NewFromBig; n is the pattern of 128 bits. *)
Theorem C15_binary128_NewFromBig_all : forall x s v k, wf x -> bval x = VNum s v -> (p2 k <= Rabs v < p2 (k + 1))%R ->
  let F n := Zfloor (Rabs v * p2 n) in
  let S := if s then 2 ^ 127 else 0 in
  exists n a, Binary128.NewFromBig x = Ret (Binary128.mkFloat (n / 2 ^ 64) (n mod 2 ^ 64), a) /\
  (-16382 <= k -> n = S + (k + 16383) mod 2 ^ 15 * 2 ^ 112 + (F (112 - k) - 2 ^ 112) /\
     (IZR (F (112 - k)) = (Rabs v * p2 (112 - k))%R -> a = if k <? 16385 then BigFloat.Exact else BigFloat.Above) /\
     (IZR (F (112 - k)) <> (Rabs v * p2 (112 - k))%R -> a = BigFloat.Below)) /\
  (-16494 <= k < -16382 -> n = S + F 16494 /\ a = BigFloat.Exact) /\
  (k < -16494 -> n = S + F (223 - k) mod 2 ^ 112 /\ a = BigFloat.Below).
Proof. exact c15_all. Qed.
Print Assumptions C15_binary128_NewFromBig_all.

Example C15_all_example :
  let x := BigFloat.mkBF 2 BigFloat.ToNearestEven BigFloat.Exact false (Finite 3 16383) in
  wf x /\ bval x = VNum false (IZR 3 * p2 16383) /\ (p2 16384 <= Rabs (IZR 3 * p2 16383) < p2 (16384 + 1))%R /\
  Binary128.NewFromBig x = Ret (Binary128.mkFloat 0x7FFF800000000000 0, BigFloat.Exact).
Proof. exact c15_all_example. Qed.

(** A finite number can become Not-a-Number: 1.5 * 2^16384 does, with accuracy Exact. *)
Theorem C15_binary128_NaN_refuted : exists x v f, wf x /\ bval x = VNum false v /\
  Binary128.NewFromBig x = Ret (f, BigFloat.Exact) /\ quad (Binary128.fa f) (Binary128.fb f) = VNaN false.
Proof. exact c15_nan. Qed.
Print Assumptions C15_binary128_NaN_refuted.

(** All of float80x86.NewFromBig.  Below 2^-16445 the result is the largest subnormal
    number. *)
Theorem C21_float80x86_NewFromBig_all : forall x s v k, wf x -> bval x = VNum s v -> (p2 k <= Rabs v < p2 (k + 1))%R ->
  let F n := Zfloor (Rabs v * p2 n) in
  let S := if s then 2 ^ 15 else 0 in
  exists se m a, Float80x86.NewFromBig x = (Float80x86.mkFloat se m, a) /\
  (-16382 <= k -> se = S + (k + 16383) mod 2 ^ 15 /\ m = F (63 - k) /\
     (IZR (F (63 - k)) = (Rabs v * p2 (63 - k))%R -> a = if k <? 16385 then BigFloat.Exact else BigFloat.Above) /\
     (IZR (F (63 - k)) <> (Rabs v * p2 (63 - k))%R -> a = BigFloat.Below)) /\
  (-16445 <= k < -16382 -> se = S /\ m = F 16445 /\ a = BigFloat.Exact) /\
  (k < -16445 -> se = S /\ m = 2 ^ 63 - 1 /\ a = BigFloat.Below).
Proof. exact c21_all. Qed.
Print Assumptions C21_float80x86_NewFromBig_all.

Example C21_all_example :
  let x := BigFloat.mkBF 2 BigFloat.ToNearestEven BigFloat.Exact false (Finite 3 (-20000)) in
  wf x /\ bval x = VNum false (IZR 3 * p2 (-20000)) /\ (p2 (-19999) <= Rabs (IZR 3 * p2 (-20000)) < p2 (-19999 + 1))%R /\
  Float80x86.NewFromBig x = (Float80x86.mkFloat 0 (2 ^ 63 - 1), BigFloat.Below).
Proof. exact c21_all_example. Qed.

(** A finite number can become Not-a-Number: 1.5 * 2^16384 does, with accuracy Exact. *)
Theorem C21_float80x86_NaN_refuted : exists x v f, wf x /\ bval x = VNum false v /\
  Float80x86.NewFromBig x = (f, BigFloat.Exact) /\ x87 (Float80x86.se f) (Float80x86.m f) = VNaN false.
Proof. exact c21_nan. Qed.
Print Assumptions C21_float80x86_NaN_refuted.

(** Numbers however small become the largest subnormal number, about 2^-16382. *)
Theorem C21_float80x86_tiny_refuted : exists x k, k < -1000000 /\ wf x /\ bval x = VNum false (p2 k) /\
  Float80x86.NewFromBig x = (Float80x86.mkFloat 0 (2 ^ 63 - 1), BigFloat.Below).
Proof. exact c21_tiny. Qed.
Print Assumptions C21_float80x86_tiny_refuted.
