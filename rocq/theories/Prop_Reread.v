(** Text('g', p) and SetString of math/big as gen.go and extra_test.tmpl use them (C93, C94).

    [sig_round p v] is v rounded to p decimal digits, to nearest even; [fits 112 15 v] says that v is a
    number of the format binary128; [quad a b] is the value of a pattern (Spec.v). *)
From Coq Require Import ZArith Reals String List.
From Verif Require Import GoBase Spec SpecText SpecDec SpecFtoa GenText GenTests ClaimsReread.
From Verif Require BigFloat.
Import ListNotations.
Open Scope Z_scope.

(** With 36 digits or more every binary128 comes back. *)
Theorem C93_36_digits : forall x s v p, wf x -> bval x = VNum s (sgnR s v) -> (0 <= v)%R -> fits 112 15 v -> 36 <= p <= 3000 ->
  exists z, SetString 113 (Text_g x p) = Some z /\ wf z /\ bval z = bval x.
Proof. exact c93. Qed.
Print Assumptions C93_36_digits.

(** With fewer digits it depends on how far the decimal is from v: half a unit of the last of 113 bits
    (a quarter below a power of two), up to 2^-50 of this. *)
Theorem C93_few_digits_partial : forall x s v p J, wf x -> bval x = VNum s (sgnR s v) -> fits 112 15 v -> 1 <= p <= 3000 ->
  (p2 J <= v < p2 (J + 1))%R ->
  let d := Rabs (sig_round p v - v) in
  ((d <= p2 (J - 113) * (1 - p2 (-50)))%R -> (v = p2 J -> (d <= p2 (J - 114) * (1 - p2 (-50)))%R) ->
    exists z, SetString 113 (Text_g x p) = Some z /\ wf z /\ bval z = bval x) /\
  ((p2 (J - 113) * (1 + p2 (-50)) <= d)%R ->
    exists z u, SetString 113 (Text_g x p) = Some z /\ wf z /\ bval z = VNum s (sgnR s u) /\ u <> v).
Proof. exact c93_close. Qed.
Print Assumptions C93_few_digits_partial.

(** So 35 digits are enough where the power of ten below v is at most 1.92 times the power of two below v. *)
Theorem C93_35_digits_partial : forall x s v K J, wf x -> bval x = VNum s (sgnR s v) -> fits 112 15 v ->
  (p10 K <= v < p10 (K + 1))%R -> (p2 J <= v < p2 (J + 1))%R -> v <> p2 J -> (25 * p10 K <= 48 * p2 J)%R ->
  exists z, SetString 113 (Text_g x 35) = Some z /\ wf z /\ bval z = bval x.
Proof. exact c93_35. Qed.
Print Assumptions C93_35_digits_partial.

Example C93_example : let x := BigFloat.mkBF 113 BigFloat.ToNearestEven BigFloat.Exact true (BigFloat.Finite (2 ^ 112 + 1) (-112)) in
  Text_g x 36 = B "-1.00000000000000000000000000000000019"%string /\ Text_g x 35 = B "-1.0000000000000000000000000000000002"%string /\
  option_map (fun z => BigFloat.Cmp z x) (SetString 113 (Text_g x 36)) = Some 0 /\ option_map (fun z => BigFloat.Cmp z x) (SetString 113 (Text_g x 35)) = Some 0.
Proof. repeat split; vm_compute; reflexivity. Qed.

(** 1.5 meets the hypotheses of the theorems on 35 digits, C94_tests included. *)
Example C93_hypotheses : let v := (3 / 2)%R in fits 112 15 v /\ (p10 0 <= v < p10 (0 + 1))%R /\ (p2 0 <= v < p2 (0 + 1))%R /\ v <> p2 0 /\ (25 * p10 0 <= 48 * p2 0)%R /\ reads35 v.
Proof. exact c93_hyps. Qed.

(** 35 digits are not enough for 1000+14*2^-43+2^-103. *)
Theorem C93_35_digits_refuted : exists x z, wf x /\ bval x = VNum false (IZR (0x1f40000000000e000000000000001) * p2 (-103)) /\
  fits 112 15 (IZR (0x1f40000000000e000000000000001) * p2 (-103)) /\
  SetString 113 (Text_g x 35) = Some z /\ BigFloat.Cmp z x = -1.
Proof. exact c93_refuted. Qed.
Print Assumptions C93_35_digits_refuted.

(** All tests of binary128/extra_test.tmpl succeed on all tables that gen.go prints with p digits, if p is at least 36;
    with 35, on all numbers that the text is close enough to. *)
Theorem C94_tests : forall p exps mants, 35 <= p <= 3000 -> Forall (fun e => 1 <= e <= 0x7FFE) exps -> Forall (fun m => 0 <= fst m < 2 ^ 48 /\ 0 <= snd m < 2 ^ 64) mants ->
  exists ns ds, getNormalized128 (fun x => Text_g x p) exps mants = Ret ns /\ getDenormalized128 (fun x => Text_g x p) mants = Ret ds /\
  Forall (fun g => test128_bits (fun x => Text_g x p) g = Ret true /\ test128_float32 g = Ret true /\ test128_float64 g = Ret true /\
    (36 <= p \/
     (forall s v, quad (ga g) (gb g) = VNum s v -> v = 0%R \/ exists J, (p2 J <= Rabs v < p2 (J + 1))%R /\
        let d := Rabs (sig_round 35 (Rabs v) - Rabs v) in
        (d <= p2 (J - 113) * (1 - p2 (-50)))%R /\ (Rabs v = p2 J -> (d <= p2 (J - 114) * (1 - p2 (-50)))%R)) ->
     test128_acc reread g = Ret true)) (ns ++ ds).
Proof. exact c94. Qed.
Print Assumptions C94_tests.

(** The entry on which the test fails with 35 digits (C71_refuted) passes with 36. *)
Example C94_example : exists g, getNormalized128 (fun x => Text_g x 36) [16392] [(0xf40000000000, 0xe000000000000001)] = Ret g /\
  map (test128_acc reread) g = [Ret true; Ret true].
Proof. eexists. split; [vm_compute; reflexivity|vm_compute; reflexivity]. Qed.
