(** Concrete cases that meet the hypotheses of the theorems of Prop_More.v. *)
From Coq Require Import ZArith Reals Lia Lra Bool.
From Flocq Require Import Core.
From Verif Require Import GoBase Spec SpecOrder BitFacts RoundFacts IeeeFacts AllBig.
From Verif Require BigFloat Binary16 Binary128 Float80x86 Float128ppc Claims16.
Import BigFloat (Finite).
Open Scope Z_scope.

Definition three (e : Z) : BigFloat.bigfloat := BigFloat.mkBF 2 BigFloat.ToNearestEven BigFloat.Exact false (Finite 3 e).

Lemma three_ok e : -100 <= e <= 100 -> wf (three e) /\ bval (three e) = VNum false (IZR 3 * p2 e) /\
  (p2 (e + 1) <= Rabs (IZR 3 * p2 e) < p2 (e + 2))%R.
Proof.
  intros H. destruct (three_big e ltac:(unfold BigFloat.MinExp, BigFloat.MaxExp; lia)) as [W B].
  split; [exact W|]. split; [exact B|]. apply (three_mag e).
Qed.

Lemma three_lt e : (IZR 3 * p2 e <= IZR 3 * p2 (e + 1))%R.
Proof. pose proof (p2_le e (e + 1) ltac:(lia)). lra. Qed.

(** 3 * 2^-16 and 3 * 2^-15 are in the range of C07, C15, C21 and C68. *)
Lemma ex_three :
  wf (three (-16)) /\ bval (three (-16)) = VNum false (IZR 3 * p2 (-16)) /\
  wf (three (-15)) /\ bval (three (-15)) = VNum false (IZR 3 * p2 (-15)) /\ (IZR 3 * p2 (-16) <= IZR 3 * p2 (-15))%R /\
  (p2 (-24) <= Rabs (IZR 3 * p2 (-16)) < p2 16)%R /\ (p2 (-24) <= Rabs (IZR 3 * p2 (-15)) < p2 16)%R.
Proof.
  destruct (three_ok (-16) ltac:(lia)) as (W & B & L & U). destruct (three_ok (-15) ltac:(lia)) as (W' & B' & L' & U').
  pose proof (p2_le (-24) (-16 + 1) ltac:(lia)). pose proof (p2_le (-24) (-15 + 1) ltac:(lia)).
  pose proof (p2_le (-16 + 2) 16 ltac:(lia)). pose proof (p2_le (-15 + 2) 16 ltac:(lia)).
  split; [exact W|]. split; [exact B|]. split; [exact W'|]. split; [exact B'|]. split; [exact (three_lt (-16))|]. split; lra.
Qed.

Lemma ex_half : let v := (IZR (2 ^ 52 + 2 ^ 40) * p2 (-52))%R in
  ieee 52 11 0x3FF0010000000000 = VNum false v /\ (p2 (-24) <= Rabs v)%R /\ (Rabs (rnd_prec BigFloat.ToNearestEven 11 v) < p2 17)%R.
Proof.
  intros v. destruct c05_all_example as (E & [_ U] & _). split; [exact E|].
  split; [|pose proof (p2_le (0 + 1) 17 ltac:(lia)); unfold v in *; lra].
  unfold v. rewrite Rabs_pos_eq by (apply Rmult_le_pos; [apply IZR_le; lia|apply Rlt_le, p2_pos]).
  apply Rle_trans with (IZR (2 ^ 52) * p2 (-52))%R.
  - rewrite (IZR_pow2 52) by lia. rewrite <- p2_plus. apply p2_le. lia.
  - apply Rmult_le_compat_r; [apply Rlt_le, p2_pos|]. apply IZR_le. lia.
Qed.

(** The quadruple precision numbers 1 and 1 + 2^-112 *)
Lemma ex_quad : vle (quad 0x3FFF000000000000 0) (quad 0x3FFF000000000000 1).
Proof.
  unfold quad. change (0x3FFF000000000000 * 2 ^ 64 + 0) with (enc 112 15 false 16383 0).
  change (0x3FFF000000000000 * 2 ^ 64 + 1) with (enc 112 15 false 16383 1).
  rewrite !ieee_enc by lia. unfold ieee_parts. change (16383 =? 2 ^ 15 - 1) with false. change (16383 =? 0) with false. cbv iota.
  cbn [vle sgnR]. apply Rmult_le_compat_r; [apply Rlt_le, p2_pos|]. apply IZR_le. lia.
Qed.

(** 1 + 2^-60 as a pair *)
Lemma ex_pair : ieee 52 11 0x3FF0000000000000 = VNum false (IZR (2 ^ 52) * p2 (-52)) /\
  ieee 52 11 0x3C30000000000000 = VNum false (IZR (2 ^ 52) * p2 (-112)) /\
  exists K c, (IZR (2 ^ 52) * p2 (-52) + IZR (2 ^ 52) * p2 (-112) = IZR K * p2 c)%R /\ Z.abs K < 2 ^ 106.
Proof.
  split; [reflexivity|]. split; [reflexivity|]. exists (2 ^ 60 + 1), (-60). split; [|reflexivity].
  rewrite plus_IZR, (IZR_pow2 52), (IZR_pow2 60) by lia. rewrite <- !p2_plus, Rmult_plus_distr_r, <- p2_plus, Rmult_1_l. reflexivity.
Qed.
