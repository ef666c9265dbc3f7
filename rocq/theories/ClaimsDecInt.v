(** C42 for every decimal: what RoundedInteger returns from 2^64 on. *)
From Coq Require Import ZArith Reals List Bool Lia Lra.
From Flocq Require Import Core.
From Verif Require Import GoBase Spec SpecText SpecDec BitFacts RoundFacts ItoaFacts DecFacts DecFacts2.
From Verif Require DecimalArr ArrOps.
From Verif Require Import SpecArr.
From Verif Require Import Decimal.
Import ListNotations.
Open Scope Z_scope.

Local Notation len l := (Z.of_nat (List.length l)).

Lemma int_digits_mod l : forall n, 0 <= n < 2 ^ 64 -> int_digits l n = (n * 10 ^ len l + dread l) mod 2 ^ 64.
Proof.
  induction l as [|c l IH]; intros n Hn; cbn [int_digits].
  - cbn [List.length]. change (10 ^ Z.of_nat 0) with 1. change (dread []) with 0. rewrite Z.mod_small by lia. lia.
  - unfold u64. rewrite IH by (apply Z.mod_pos_bound; lia). rewrite dread_cons. cbn [List.length]. rewrite Nat2Z.inj_succ, Z.pow_succ_r by lia. rewrite Z.add_mod_idemp_l by lia.
    rewrite <- Z.add_mod_idemp_l, Z.mul_mod_idemp_l, Z.add_mod_idemp_l by lia. f_equal. ring.
Qed.

Lemma int_zeros_mod k : forall n, 0 <= n < 2 ^ 64 -> int_zeros k n = (n * 10 ^ Z.of_nat k) mod 2 ^ 64.
Proof.
  induction k as [|k IH]; intros n Hn; cbn [int_zeros]; [change (10 ^ Z.of_nat 0) with 1; rewrite Z.mod_small; lia|].
  unfold u64. rewrite IH by (apply Z.mod_pos_bound; lia). rewrite Nat2Z.inj_succ, Z.pow_succ_r, Z.mul_mod_idemp_l by lia. f_equal. ring.
Qed.

Lemma RoundedInteger_mod a V : dnorm a -> cut_to a V -> dp a <= 20 -> RoundedInteger a = ZnearestE V mod 2 ^ 64.
Proof.
  intros Ha HV D20. pose proof Ha as (Hd & _ & _ & HL & H0). destruct (Z_lt_ge_dec (ZnearestE V) (2 ^ 64)) as [S|S].
  { assert (0 <= ZnearestE V).
    { rewrite <- (Zrnd_IZR ZnearestE 0). apply (Zrnd_le ZnearestE). assert (V0 : (dval a <= V)%R) by (unfold cut_to in HV; destruct (trunc a); lra).
      assert (0 <= dval a)%R; [|lra]. unfold dval, lval. apply Rmult_le_pos; [apply IZR_le, (dread_range _ Hd)|apply Rlt_le, p10_pos]. }
    rewrite Z.mod_small by lia. apply RoundedInteger_ok; assumption. }
  unfold RoundedInteger. destruct (Z.ltb_spec 20 (dp a)); [lia|].
  assert (E0 : (V * p10 (- 0) = V)%R) by (change (p10 (- 0)) with 1%R; ring).
  assert (N : 0 <= dp a).
  { destruct (Z_lt_ge_dec (dp a) 0) as [N|N]; [exfalso|lia]. rewrite <- (RoundedInteger_ok a V Ha HV) in S; [|].
    - revert S. unfold RoundedInteger. destruct (Z.ltb_spec 20 (dp a)); [lia|]. replace (Z.to_nat (dp a)) with O by lia. replace (Z.to_nat (dp a - nd a)) with O by (unfold nd; lia). cbn [firstn int_digits int_zeros]. destruct (shouldRoundUp _ _); cbn; lia.
    - apply Z.le_lt_trans with 1; [|lia]. rewrite <- (Zrnd_IZR ZnearestE 1). apply (Zrnd_le ZnearestE). assert (Nd : d a <> []) by (intros E; specialize (H0 E); lia). pose proof (dval_pos a Ha Nd) as [_ P2].
      pose proof (p10_le (dp a) (-1) ltac:(lia)) as L. change (p10 (-1)) with (/ 10)%R in L. pose proof (p10_le (dp a - 800) (-2) ltac:(lia)) as L2. change (p10 (-2)) with (/ 100)%R in L2. unfold cut_to in HV. destruct (trunc a); lra. }
  destruct (Z_lt_ge_dec (dp a) (nd a)) as [L|L].
  - destruct (shouldRoundUp_ok a (dp a) V Ha ltac:(lia) (cut_stands a V Ha HV)) as (E & _ & _). replace (dp a - dp a) with 0 in E by lia. rewrite E0 in E. rewrite E.
    replace (Z.to_nat (dp a - nd a)) with O by lia. cbn [int_zeros]. rewrite int_digits_mod by lia. rewrite Z.mul_0_l, Z.add_0_l. destruct (shouldRoundUp a (dp a)); [|f_equal; lia]. unfold u64. rewrite Z.add_mod_idemp_l by lia. reflexivity.
  - destruct (cut_integer a V 0 Ha HV ltac:(lia)) as (z & E1 & E2 & _); [destruct (trunc a); [right; lia|left; reflexivity]|].
    rewrite E0 in E2. rewrite E2. unfold nd in L. rewrite firstn_all2 by lia.
    assert (Ez : z = dread (d a) * 10 ^ (dp a - nd a)).
    { apply eq_IZR. rewrite mult_IZR, IZR_p10 by (unfold nd; lia). rewrite <- (Rmult_1_r (IZR z)), <- p10_0, <- E1. reflexivity. }
    rewrite int_digits_mod by lia. rewrite int_zeros_mod by (apply Z.mod_pos_bound; lia). rewrite Z.mul_0_l, Z.add_0_l, Z.mul_mod_idemp_l, Z2Nat.id by (unfold nd; lia).
    unfold shouldRoundUp. destruct (Z.leb_spec (nd a) (dp a)); [|unfold nd in *; lia]. rewrite orb_true_r. rewrite Ez. reflexivity.
Qed.

Lemma cut_range a V : dnorm a -> cut_to a V -> (dp a <= 20 <-> (V < p10 20)%R).
Proof.
  intros Ha HV. pose proof Ha as (Hd & _ & _ & HL & H0). split.
  - intros D. pose proof (dread_range _ Hd) as R. assert (U : (dval a + p10 (dp a - len (d a)) <= p10 (dp a))%R).
    { unfold dval, lval. replace (p10 (dp a)) with (IZR (10 ^ len (d a)) * p10 (dp a - len (d a)))%R by (rewrite IZR_p10, <- p10_plus by lia; f_equal; lia).
      pose proof (p10_pos (dp a - len (d a))). assert (IZR (dread (d a)) + 1 <= IZR (10 ^ len (d a)))%R by (rewrite <- plus_IZR; apply IZR_le; lia). nra. }
    pose proof (p10_le (dp a) 20 D). pose proof (p10_le (dp a - 800) (dp a - len (d a)) ltac:(lia)). pose proof (p10_pos (dp a - len (d a))). unfold cut_to in HV. destruct (trunc a); lra.
  - intros L. destruct (Z_le_gt_dec (dp a) 20) as [|G]; [assumption|exfalso]. assert (N : d a <> []) by (intros E; specialize (H0 E); lia).
    pose proof (dval_pos a Ha N) as [P _]. pose proof (p10_le 20 (dp a - 1) ltac:(lia)) as P2. unfold cut_to in HV. destruct (trunc a); lra.
Qed.

Lemma c42_all : forall a V, dnorm a -> cut_to a V ->
  ((V < p10 20)%R -> RoundedInteger a = ZnearestE V mod 2 ^ 64) /\ ((p10 20 <= V)%R -> RoundedInteger a = 2 ^ 64 - 1).
Proof.
  intros a V Ha HV. pose proof (cut_range a V Ha HV) as C. split; intros H.
  - apply RoundedInteger_mod; [assumption|assumption|]. apply C. exact H.
  - unfold RoundedInteger. destruct (Z.ltb_spec 20 (dp a)) as [L|L]; [reflexivity|]. apply C in L. lra.
Qed.

Lemma c42_exactly : forall a V, dnorm a -> cut_to a V -> (RoundedInteger a = ZnearestE V <-> ZnearestE V < 2 ^ 64).
Proof.
  intros a V Ha HV. split; [|apply RoundedInteger_ok; assumption]. intros E. rewrite <- E. destruct (c42_all a V Ha HV) as [H1 H2]. destruct (Rlt_or_le V (p10 20)) as [L|L]; [rewrite (H1 L); apply Z.mod_pos_bound; lia|rewrite (H2 L); lia].
Qed.

Lemma c42_all_example : dnorm (mkDec [2] 20 false) /\ cut_to (mkDec [2] 20 false) (dval (mkDec [2] 20 false)).
Proof.
  split; [|reflexivity]. unfold dnorm, digits_ok, no_lead0, no_trail0. cbn [Decimal.d Decimal.dp hd last List.length]. repeat split; try lia; [|discriminate]. repeat constructor; lia.
Qed.

Lemma c74i_all : forall a V, array_ok a -> dnorm (held a) -> cut_to (held a) V ->
  ((V < p10 20)%R -> DecimalArr.RoundedInteger a = Ret (ZnearestE V mod 2 ^ 64)) /\ ((p10 20 <= V)%R -> DecimalArr.RoundedInteger a = Ret (2 ^ 64 - 1)).
Proof. intros a V Ha Hn HV. rewrite (ArrOps.RoundedInteger_arr a Ha). destruct (c42_all (held a) V Hn HV) as [H1 H2]. split; intros H; f_equal; auto. Qed.
