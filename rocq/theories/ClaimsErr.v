(** The lemmas behind C95 (how large the errors are), C96 (truncation through a wider format) and
    C97 (rounding twice). *)
From Coq Require Import ZArith Reals Lia Lra Bool List.
From Flocq Require Import Core Relative.
From Verif Require Import GoBase.
From Verif Require BigFloat Binary16 Binary128 Float80x86 Float128ppc.
From Verif Require Import Spec BitFacts RoundFacts IeeeFacts BigFacts BigFacts2 BigFacts3 PkgFacts FactsPpc ClaimsPpc ClaimsPpc2.
From Verif Require Facts16 Facts128 Facts80 AllBig Claims16 Claims128 Claims80 ClaimsTrip ClaimsRep PkgExact.
Import BigFloat (bitlen, gexp, prec, rmode, acc, neg, frm, Finite, MaxExp, MinExp, MaxPrec).
Import Float128ppc (Float, mkFloat, high, low).
Open Scope Z_scope.

Lemma rz_err mb eb v : 0 < mb + 1 ->
  (Rabs (rz mb eb v) <= Rabs v)%R /\
  ((p2 (2 - 2 ^ (eb - 1)) <= Rabs v)%R -> (Rabs (rz mb eb v - v) < p2 (- mb) * Rabs v)%R) /\
  ((Rabs v < p2 (2 - 2 ^ (eb - 1)))%R -> (Rabs (rz mb eb v - v) < p2 (2 - 2 ^ (eb - 1) - mb))%R).
Proof.
  intros Hm. unfold rz. assert (Pm : Prec_gt_0 (mb + 1)) by exact Hm.
  split; [|split].
  - rewrite <- round_ZR_abs by (apply FLT_exp_valid; exact Pm). rewrite round_ZR_DN by apply Rabs_pos.
    apply round_DN_pt. apply FLT_exp_valid; exact Pm.
  - intros H. pose proof (relative_error_FLT radix2 (3 - 2 ^ (eb - 1) - (mb + 1)) (mb + 1) Hm Ztrunc v) as E.
    replace (- (mb + 1) + 1) with (- mb) in E by lia. apply E.
    replace (3 - 2 ^ (eb - 1) - (mb + 1) + (mb + 1) - 1) with (2 - 2 ^ (eb - 1)) by lia. exact H.
  - intros H. destruct (Req_dec v 0) as [->|N].
    + rewrite round_0 by apply valid_rnd_ZR. rewrite Rminus_0_r, Rabs_R0. apply bpow_gt_0.
    + pose proof (error_lt_ulp radix2 (FLT_exp (3 - 2 ^ (eb - 1) - (mb + 1)) (mb + 1)) Ztrunc v N) as E.
      rewrite ulp_FLT_small in E; [|exact Pm|].
      * replace (2 - 2 ^ (eb - 1) - mb) with (3 - 2 ^ (eb - 1) - (mb + 1)) by lia. exact E.
      * replace (3 - 2 ^ (eb - 1) - (mb + 1) + (mb + 1)) with (3 - 2 ^ (eb - 1)) by lia.
        eapply Rlt_le_trans; [exact H|]. apply bpow_le. lia.
Qed.

Lemma rn_err mb eb v : 0 < mb + 1 ->
  ((p2 (2 - 2 ^ (eb - 1)) <= Rabs v)%R -> (Rabs (rn mb eb v - v) <= p2 (- mb - 1) * Rabs v)%R) /\
  ((Rabs v < p2 (2 - 2 ^ (eb - 1)))%R -> (Rabs (rn mb eb v - v) <= p2 (1 - 2 ^ (eb - 1) - mb))%R).
Proof.
  intros Hm. unfold rn. assert (Pm : Prec_gt_0 (mb + 1)) by exact Hm.
  split.
  - intros H. pose proof (relative_error_N_FLT radix2 (3 - 2 ^ (eb - 1) - (mb + 1)) (mb + 1) Hm (fun x => negb (Z.even x)) v) as E.
    replace (- (mb + 1) + 1) with (- mb - 1 + 1) in E by lia. rewrite bpow_plus in E. change (bpow radix2 1) with 2%R in E.
    replace (3 - 2 ^ (eb - 1) - (mb + 1) + (mb + 1) - 1) with (2 - 2 ^ (eb - 1)) in E by lia.
    specialize (E H). unfold p2. lra.
  - intros H. pose proof (error_le_half_ulp radix2 (FLT_exp (3 - 2 ^ (eb - 1) - (mb + 1)) (mb + 1)) (fun x => negb (Z.even x)) v) as E.
    rewrite ulp_FLT_small in E; [|exact Pm|].
    + replace (3 - 2 ^ (eb - 1) - (mb + 1)) with (1 - 2 ^ (eb - 1) - mb + 1) in E at 2 by lia.
      rewrite bpow_plus in E. change (bpow radix2 1) with 2%R in E. unfold p2. lra.
    + replace (3 - 2 ^ (eb - 1) - (mb + 1) + (mb + 1)) with (3 - 2 ^ (eb - 1)) by lia.
      eapply Rlt_le_trans; [exact H|]. apply bpow_le. lia.
Qed.

Lemma fin_parts x s v k : wf x -> bval x = VNum s v -> (p2 k <= Rabs v)%R ->
  exists m e, frm x = Finite m e /\ neg x = s /\ v = sgnR (neg x) (IZR m * p2 e).
Proof.
  intros W B H. assert (N : v <> 0%R).
  { intros ->. rewrite Rabs_R0 in H. pose proof (bpow_gt_0 radix2 k). unfold p2 in H. lra. }
  unfold bval in B. destruct (frm x) as [|m e|]; try discriminate.
  - injection B as _ B. congruence.
  - injection B as B1 B2. subst s. exists m, e. auto.
Qed.

Lemma c95_16 : forall x s v, wf x -> bval x = VNum s v -> (p2 (-24) <= Rabs v < p2 16)%R ->
  exists r, ieee 10 5 (fst (Binary16.NewFromBig x)) = VNum s r /\ (Rabs r <= Rabs v)%R /\
    ((p2 (-14) <= Rabs v)%R -> (Rabs (r - v) < p2 (-10) * Rabs v)%R) /\ (Rabs v < p2 (-14) -> Rabs (r - v) < p2 (-24))%R.
Proof.
  intros x s v W B H. destruct (fin_parts x s v (-24) W B) as (m & e & E & <- & V); [lra|].
  destruct (Claims16.c07_partial x m e W E) as (Q & _); [rewrite <- V; exact H|]. rewrite <- V in Q.
  exists (rz 10 5 v). split; [exact Q|]. exact (rz_err 10 5 v ltac:(lia)).
Qed.

Lemma c95_128 : forall x s v, wf x -> bval x = VNum s v -> (p2 (-16494) <= Rabs v < p2 16384)%R ->
  exists f a r, Binary128.NewFromBig x = Ret (f, a) /\ quad (Binary128.fa f) (Binary128.fb f) = VNum s r /\ (Rabs r <= Rabs v)%R /\
    ((p2 (-16382) <= Rabs v)%R -> (Rabs (r - v) < p2 (-112) * Rabs v)%R) /\ (Rabs v < p2 (-16382) -> Rabs (r - v) < p2 (-16494))%R.
Proof.
  intros x s v W B H. destruct (fin_parts x s v (-16494) W B) as (m & e & E & <- & V); [lra|].
  destruct (Claims128.c15_partial x m e W E) as (f & a & Q & V' & _); [rewrite <- V; exact H|]. rewrite <- V in V'.
  exists f, a, (rz 112 15 v). split; [exact Q|]. split; [exact V'|]. exact (rz_err 112 15 v ltac:(lia)).
Qed.

Lemma c95_80 : forall x s v, wf x -> bval x = VNum s v -> (p2 (-16445) <= Rabs v < p2 16384)%R ->
  exists f a r, Float80x86.NewFromBig x = (f, a) /\ x87 (Float80x86.se f) (Float80x86.m f) = VNum s r /\ (Rabs r <= Rabs v)%R /\
    ((p2 (-16382) <= Rabs v)%R -> (Rabs (r - v) < p2 (-63) * Rabs v)%R) /\ (Rabs v < p2 (-16382) -> Rabs (r - v) < p2 (-16445))%R.
Proof.
  intros x s v W B H. destruct (fin_parts x s v (-16445) W B) as (m & e & E & <- & V); [lra|].
  pose proof (Claims80.c21_partial x m e W E) as Q. cbv zeta in Q. rewrite <- V in Q. specialize (Q H).
  destruct (Float80x86.NewFromBig x) as (f, a). destruct Q as (Q & _).
  exists f, a, (rz 63 15 v). split; [reflexivity|]. split; [exact Q|]. exact (rz_err 63 15 v ltac:(lia)).
Qed.


(** Half a unit below the first power of two beyond the format nothing overflows. *)
Lemma rn_lt mb eb v : 0 <= mb -> 2 <= eb -> (Rabs v < p2 (2 ^ (eb - 1)) - p2 (2 ^ (eb - 1) - mb - 2))%R ->
  (Rabs (rn mb eb v) < p2 (2 ^ (eb - 1)))%R.
Proof.
  intros Hm He H. unfold rn. assert (Pm : Prec_gt_0 (mb + 1)) by (unfold Prec_gt_0; lia).
  assert (HE : 2 <= 2 ^ (eb - 1)) by (change 2 with (2 ^ 1) at 1; apply Z.pow_le_mono_r; lia).
  assert (X : FLT_exp (3 - 2 ^ (eb - 1) - (mb + 1)) (mb + 1) (2 ^ (eb - 1)) = 2 ^ (eb - 1) - mb - 2 + 1) by (unfold FLT_exp; lia).
  assert (X' : FLT_exp (3 - 2 ^ (eb - 1) - (mb + 1)) (mb + 1) (2 ^ (eb - 1) + 1) = 2 ^ (eb - 1) - mb - 2 + 2) by (unfold FLT_exp; lia).
  assert (Fb : generic_format radix2 (FLT_exp (3 - 2 ^ (eb - 1) - (mb + 1)) (mb + 1)) (bpow radix2 (2 ^ (eb - 1)))).
  { apply generic_format_bpow. rewrite X'. lia. }
  assert (Hp : pred radix2 (FLT_exp (3 - 2 ^ (eb - 1) - (mb + 1)) (mb + 1)) (bpow radix2 (2 ^ (eb - 1))) =
    (bpow radix2 (2 ^ (eb - 1)) - bpow radix2 (2 ^ (eb - 1) - mb - 2 + 1))%R) by (rewrite pred_bpow, X; reflexivity).
  rewrite <- round_NE_abs by (apply FLT_exp_valid; exact Pm).
  apply Rle_lt_trans with (pred radix2 (FLT_exp (3 - 2 ^ (eb - 1) - (mb + 1)) (mb + 1)) (bpow radix2 (2 ^ (eb - 1)))).
  - apply round_N_le_midp; [apply FLT_exp_valid; exact Pm|apply generic_format_pred; [apply FLT_exp_valid; exact Pm|exact Fb]|].
    rewrite succ_pred by (try exact Fb; apply FLT_exp_valid; exact Pm). rewrite Hp. rewrite bpow_plus. change (bpow radix2 1) with 2%R.
    unfold p2 in H. lra.
  - rewrite Hp. pose proof (bpow_gt_0 radix2 (2 ^ (eb - 1) - mb - 2 + 1)). unfold p2. lra.
Qed.

Lemma ieee_round_num mb eb s v : 0 <= mb -> 2 <= eb -> (Rabs v < p2 (2 ^ (eb - 1)) - p2 (2 ^ (eb - 1) - mb - 2))%R ->
  ieee_round mb eb s v = VNum s (rn mb eb v).
Proof. intros Hm He H. unfold ieee_round. rewrite Rle_bool_false; [reflexivity|]. apply rn_lt; assumption. Qed.

Lemma c95_16_float : forall x s v, 0 <= x < 2 ^ 64 -> ieee 52 11 x = VNum s v -> (p2 (-14) <= Rabs v < 65520)%R ->
  exists b a r, Binary16.NewFromFloat64 x = Ret (b, a) /\ ieee 10 5 b = VNum s r /\ (Rabs (r - v) <= p2 (-11) * Rabs v)%R.
Proof.
  intros x s v R I [H1 H2].
  assert (P16 : (p2 16 = 65536)%R) by (unfold p2; cbn; lra).
  destruct (Claims16.c05_partial x s v R I) as (b & a & Q & _ & V); [right; left; lra|].
  exists b, a, (rn 10 5 v). split; [exact Q|].
  destruct (rn_err 10 5 v ltac:(lia)) as (E & _).
  split; [|exact (E H1)].
  rewrite V. apply ieee_round_num; [lia|lia|]. change (2 ^ (5 - 1)) with 16. change (16 - 10 - 2) with 4.
  rewrite P16. unfold p2. change (bpow radix2 4) with 16%R. lra.
Qed.

Definition dest_err (mb eb : Z) (s : bool) (v : R) (d : fval) : Prop :=
  (Rabs v < p2 (2 ^ (eb - 1)) - p2 (2 ^ (eb - 1) - mb - 2))%R ->
  exists r, d = VNum s r /\ ((p2 (2 - 2 ^ (eb - 1)) <= Rabs v)%R -> (Rabs (r - v) <= p2 (- mb - 1) * Rabs v)%R) /\
    ((Rabs v < p2 (2 - 2 ^ (eb - 1)))%R -> (Rabs (r - v) <= p2 (1 - 2 ^ (eb - 1) - mb))%R).

Lemma dest mb eb s v : 0 <= mb -> 2 <= eb -> dest_err mb eb s v (ieee_round mb eb s v).
Proof.
  intros Hm He H. rewrite ieee_round_num by assumption. exists (rn mb eb v). split; [reflexivity|].
  apply rn_err. lia.
Qed.

Lemma c95_128_to : forall f s v, 0 <= Binary128.fa f < 2 ^ 64 -> 0 <= Binary128.fb f < 2 ^ 64 ->
  quad (Binary128.fa f) (Binary128.fb f) = VNum s v ->
  exists d a g a', Binary128.Float64 f = Ret (d, a) /\ Binary128.Float32 f = Ret (g, a') /\
    ((Rabs v < p2 1024 - p2 970)%R -> exists r, ieee 52 11 d = VNum s r /\
       ((p2 (-1022) <= Rabs v)%R -> (Rabs (r - v) <= p2 (-53) * Rabs v)%R) /\ ((Rabs v < p2 (-1022))%R -> (Rabs (r - v) <= p2 (-1075))%R)) /\
    ((Rabs v < p2 128 - p2 103)%R -> exists r, ieee 23 8 g = VNum s r /\
       ((p2 (-126) <= Rabs v)%R -> (Rabs (r - v) <= p2 (-24) * Rabs v)%R) /\ ((Rabs v < p2 (-126))%R -> (Rabs (r - v) <= p2 (-150))%R)).
Proof.
  intros f s v Ha Hb Q. destruct (Claims128.c14 f Ha Hb) as (d & a & g & a' & E & _ & E' & _ & V). rewrite Q in V.
  destruct V as (V & _ & V' & _). exists d, a, g, a'. split; [exact E|]. split; [exact E'|]. rewrite V, V'. split.
  - exact (dest 52 11 s v ltac:(lia) ltac:(lia)).
  - exact (dest 23 8 s v ltac:(lia) ltac:(lia)).
Qed.

Lemma c95_80_to : forall f s v, 0 <= Float80x86.se f < 2 ^ 16 -> 0 <= Float80x86.m f < 2 ^ 64 ->
  x87 (Float80x86.se f) (Float80x86.m f) = VNum s v ->
  exists d a g a', Float80x86.Float64 f = Ret (d, a) /\ Float80x86.Float32 f = Ret (g, a') /\
    ((Rabs v < p2 1024 - p2 970)%R -> exists r, ieee 52 11 d = VNum s r /\
       ((p2 (-1022) <= Rabs v)%R -> (Rabs (r - v) <= p2 (-53) * Rabs v)%R) /\ ((Rabs v < p2 (-1022))%R -> (Rabs (r - v) <= p2 (-1075))%R)) /\
    ((Rabs v < p2 128 - p2 103)%R -> exists r, ieee 23 8 g = VNum s r /\
       ((p2 (-126) <= Rabs v)%R -> (Rabs (r - v) <= p2 (-24) * Rabs v)%R) /\ ((Rabs v < p2 (-126))%R -> (Rabs (r - v) <= p2 (-150))%R)).
Proof.
  intros f s v Ha Hb Q. destruct (Claims80.c20 f Ha Hb) as (d & a & g & a' & E & _ & E' & _ & V). rewrite Q in V.
  destruct V as (V & _ & V' & _). exists d, a, g, a'. split; [exact E|]. split; [exact E'|]. rewrite V, V'. split.
  - exact (dest 52 11 s v ltac:(lia) ltac:(lia)).
  - exact (dest 23 8 s v ltac:(lia) ltac:(lia)).
Qed.

Lemma c95_ppc : forall x s v, wf x -> bval x = VNum s v -> (p2 (-969) <= Rabs v <= p2 1023)%R ->
  exists h l x' s1 v1 s2 v2, Float128ppc.NewFromBig x = Ret (mkFloat h l, BigFloat.Exact, x') /\
    ieee 52 11 h = VNum s1 v1 /\ ieee 52 11 l = VNum s2 v2 /\
    (Rabs (v1 + v2 - v) < p2 (-105) * Rabs v)%R /\
    (rmode x = BigFloat.ToNearestEven \/ rmode x = BigFloat.ToNearestAway -> Rabs (v1 + v2 - v) <= p2 (-106) * Rabs v)%R.
Proof.
  intros x s v W B [H1 H2].
  assert (N : v <> 0%R).
  { intros ->. rewrite Rabs_R0 in H1. pose proof (bpow_gt_0 radix2 (-969)). unfold p2 in H1. lra. }
  assert (E : (Rabs (rnd_prec (rmode x) 106 v - v) < p2 (-105) * Rabs v)%R).
  { apply (relative_error_FLX radix2 106); [lia| |exact N]. destruct (rmode x); cbn [mode_rnd]; typeclasses eauto. }
  assert (Y : (Rabs (rnd_prec (rmode x) 106 v) < p2 1023 * 3 / 2)%R).
  { replace (rnd_prec (rmode x) 106 v) with (rnd_prec (rmode x) 106 v - v + v)%R by lra.
    eapply Rle_lt_trans; [apply Rabs_triang|].
    assert (p2 (-105) <= / 2 * / 2)%R.
    { change (/ 2 * / 2)%R with (/ 2 * / 2)%R. replace (/ 2 * / 2)%R with (p2 (-2)) by (unfold p2; cbn; lra). apply bpow_le. lia. }
    pose proof (Rabs_pos v). pose proof (bpow_gt_0 radix2 1023) as P. fold (p2 1023) in P. nra. }
  destruct (ClaimsTrip.c78_ppc x s v W B) as (h & l & x' & s1 & v1 & s2 & v2 & z & z' & Q & _ & _ & V1 & V2 & _ & S & _).
  - cbv zeta. change (p2 1024) with (p2 (2 ^ (11 - 1))). apply rn_lt; [lia|lia|]. change (2 ^ (11 - 1)) with 1024.
    eapply Rlt_le_trans; [exact Y|].
    assert (p2 1024 = 2 * p2 1023)%R by (unfold p2; change 1024 with (1 + 1023); rewrite bpow_plus; change (bpow radix2 1) with 2%R; reflexivity).
    assert (p2 (1024 - 52 - 2) <= p2 1023 * / 2)%R.
    { replace (p2 1023 * / 2)%R with (p2 1022); [apply bpow_le; lia|].
      unfold p2. change 1023 with (1022 + 1). rewrite bpow_plus. change (bpow radix2 1) with 2%R. lra. }
    lra.
  - left. exact H1.
  - exists h, l, x', s1, v1, s2, v2. split; [exact Q|]. split; [exact V1|]. split; [exact V2|]. rewrite S. split; [exact E|].
    intros M. unfold rnd_prec.
    assert (G : forall c, (Rabs (round radix2 (FLX_exp 106) (Znearest c) v - v) <= p2 (-106) * Rabs v)%R).
    { intros c. pose proof (relative_error_N_FLX radix2 106 ltac:(lia) c v) as G. replace (- (106) + 1) with (-105) in G by reflexivity.
      assert (bpow radix2 (-105) = 2 * p2 (-106))%R.
      { unfold p2. change (-105) with (1 + -106). rewrite bpow_plus. change (bpow radix2 1) with 2%R. reflexivity. }
      rewrite H in G. lra. }
    destruct M as [-> | ->]; cbn [mode_rnd]; apply G.
Qed.

Lemma c95_example :
  let x := BigFloat.mkBF 53 BigFloat.ToNearestEven BigFloat.Exact false (Finite (2 ^ 12 + 3) (-12)) in
  Binary16.NewFromBig x = (0x3C00, BigFloat.Below) /\
  (p2 (-24) <= Rabs (1 + p2 (-150)) < p2 16)%R /\ (p2 (-969) <= Rabs (1 + p2 (-150)) <= p2 1023)%R.
Proof.
  split; [vm_compute; reflexivity|].
  assert (A : (0 < p2 (-150) <= 1)%R) by (split; [apply bpow_gt_0|change 1%R with (bpow radix2 0); apply bpow_le; lia]).
  rewrite Rabs_pos_eq by lra.
  assert (B : (p2 (-24) <= 1)%R) by (change 1%R with (bpow radix2 0); apply bpow_le; lia).
  assert (C : (p2 (-969) <= 1)%R) by (change 1%R with (bpow radix2 0); apply bpow_le; lia).
  assert (D : (4 <= p2 16)%R) by (change 4%R with (bpow radix2 2); apply bpow_le; lia).
  assert (E : (4 <= p2 1023)%R) by (change 4%R with (bpow radix2 2); apply bpow_le; lia).
  split; split; lra.
Qed.
