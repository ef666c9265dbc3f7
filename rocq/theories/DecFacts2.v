(** Facts about decimal.go: repeated shifts, rounding, printing. *)
From Coq Require Import ZArith Reals List Bool Lia Lra.
From Flocq Require Import Core.
From Verif Require Import GoBase.
From Verif Require Decimal.
From Verif Require Import Spec SpecText BitFacts RoundFacts SpecDec DecFacts.
Import ListNotations.
Import Decimal (decimal, mkDec, d, dp, trunc, nd).
Open Scope Z_scope.

(** * The number of significant digits while shifting *)
Lemma val5 M : 0 < M -> exists s M', 0 <= s /\ M = 5 ^ s * M' /\ 0 < M' /\ ~ (5 | M').
Proof.
  intros HM. assert (H0 : 0 <= M) by lia. revert HM. pattern M. apply Z_lt_induction; [|exact H0]. clear M H0.
  intros M IH HM. destruct (Znumtheory.Zdivide_dec 5 M) as [[q E]|N].
  - destruct (IH q ltac:(lia) ltac:(lia)) as (s & M' & H1 & H2 & H3 & H4).
    exists (s + 1), M'. split; [lia|]. split; [|auto]. rewrite Z.pow_add_r, E, H2 by lia. change (5 ^ 1) with 5. ring.
  - exists 0, M. change (5 ^ 0) with 1. split; [lia|]. split; [lia|]. auto.
Qed.

Lemma scale2 m e j : 0 <= j -> (IZR (m * 2 ^ j) * p10 e = IZR m * p10 e * p2 j)%R.
Proof. intros. rewrite mult_IZR, IZR_pow2 by lia. ring. Qed.

Lemma pow10_split j : 0 <= j -> 10 ^ j = 5 ^ j * 2 ^ j.
Proof. intros. rewrite <- Z.pow_mul_l. reflexivity. Qed.

Lemma not5_pow2 M' j : 0 <= j -> ~ (5 | M') -> ~ (5 | M' * 2 ^ j).
Proof.
  intros Hj N. revert N. pattern j. apply natlike_ind; [| |exact Hj].
  - change (2 ^ 0) with 1. rewrite Z.mul_1_r. auto.
  - intros x Hx IH N [q E]. apply (IH N). rewrite Z.pow_succ_r in E by lia.
    exists (3 * q - M' * 2 ^ x). set (A := M' * 2 ^ x) in *.
    assert (2 * A = q * 5) by (rewrite <- E; unfold A; ring). lia.
Qed.

Lemma sig_between n v j k : 0 <= n -> (0 < v)%R -> 0 <= j <= k ->
  sig_digits n v -> sig_digits n (v * p2 k) -> sig_digits n (v * p2 j).
Proof.
  intros Hn Hv Hj (M & e & E & HM) (N & f & F & HN).
  assert (M0 : 0 < M).
  { apply lt_IZR. apply Rmult_lt_reg_r with (p10 e); [apply p10_pos|]. rewrite Rmult_0_l, <- E. exact Hv. }
  assert (N0 : 0 < N).
  { apply lt_IZR. apply Rmult_lt_reg_r with (p10 f); [apply p10_pos|]. rewrite Rmult_0_l, <- F.
    apply Rmult_lt_0_compat; [exact Hv|apply p2_pos]. }
  destruct (val5 M M0) as (s & M' & H1 & H2 & H3 & H4).
  destruct (Z_le_gt_dec j s) as [C|C].
  - exists (5 ^ (s - j) * M'), (e + j). split.
    + rewrite <- scale10 by lia. rewrite E, <- scale2 by lia. do 2 f_equal. rewrite H2, pow10_split by lia.
      replace s with (s - j + j) at 1 by lia. rewrite Z.pow_add_r by lia. ring.
    + assert (0 < 5 ^ (s - j)) by (apply Z.pow_pos_nonneg; lia). assert (1 <= 5 ^ j) by (pose proof (Z.pow_pos_nonneg 5 j); lia).
      rewrite Z.abs_eq in * by nia. apply Z.le_lt_trans with (2 := HM). rewrite H2. replace s with (s - j + j) at 2 by lia.
      rewrite Z.pow_add_r by lia. nia.
  - assert (EK : forall i, s <= i -> (v * p2 i = IZR (M' * 2 ^ (i - s)) * p10 (e + s))%R).
    { intros i Hi. rewrite E, <- scale2, <- scale10 by lia. do 2 f_equal. rewrite H2, pow10_split by lia.
      replace i with (i - s + s) at 1 by lia. rewrite Z.pow_add_r by lia. ring. }
    rewrite (EK k) in F by lia.
    assert (Hf : f <= e + s).
    { destruct (Z_le_gt_dec f (e + s)); [assumption|exfalso].
      replace f with (e + s + (f - (e + s))) in F by lia. rewrite <- (scale10 N (e + s)) in F by lia.
      apply Rmult_eq_reg_r in F; [|apply Rgt_not_eq, p10_pos]. apply eq_IZR in F.
      apply (not5_pow2 M' (k - s)); [lia|exact H4|]. exists (N * 10 ^ (f - (e + s) - 1) * 2). rewrite F.
      replace (f - (e + s)) with (1 + (f - (e + s) - 1)) at 1 by lia. rewrite Z.pow_add_r by lia. change (10 ^ 1) with 10. ring. }
    exists (M' * 2 ^ (j - s)), (e + s). split; [apply EK; lia|].
    replace (e + s) with (f + (e + s - f)) in F by lia. rewrite <- (scale10 _ f) in F by lia.
    apply Rmult_eq_reg_r in F; [|apply Rgt_not_eq, p10_pos]. apply eq_IZR in F.
    assert (0 < 2 ^ (j - s)) by (apply Z.pow_pos_nonneg; lia). assert (2 ^ (j - s) <= 2 ^ (k - s)) by (apply Z.pow_le_mono_r; lia).
    assert (1 <= 10 ^ (e + s - f)) by (pose proof (pow10_pos (e + s - f)); lia).
    rewrite Z.abs_eq in * by nia. apply Z.le_lt_trans with (2 := HN). rewrite <- F.
    apply Z.le_trans with (M' * 2 ^ (k - s)); [nia|]. set (X := M' * 2 ^ (k - s)). assert (0 < X) by nia. nia.
Qed.

Lemma dnorm_sig a : dnorm a -> sig_digits 800 (dval a).
Proof.
  intros (H & _ & _ & L & _). exists (dread (d a)), (dp a - len (d a)). split; [reflexivity|].
  pose proof (dread_range _ H). rewrite Z.abs_eq by lia. apply Z.lt_le_trans with (10 ^ len (d a)); [lia|]. apply Z.pow_le_mono_r; lia.
Qed.

(** * Shift *)
Definition keep_ratio : R := (1 - p10 (-799))%R.
Lemma keep_ratio_range : (0 < keep_ratio < 1)%R.
Proof. unfold keep_ratio. pose proof (p10_pos (-799)). pose proof (p10_lt (-799) 0 ltac:(lia)). rewrite p10_0 in *. lra. Qed.

Definition shift_post (N : nat) (a b : decimal) (k : Z) : Prop :=
  dnorm b /\ d b <> [] /\ (dval a * p2 k * keep_ratio ^ N <= dval b <= dval a * p2 k)%R /\
  (trunc b = true <-> trunc a = true \/ (dval b < dval a * p2 k)%R) /\
  (trunc a = false -> sig_digits 800 (dval a * p2 k) -> trunc b = false).

Lemma capped_shift a b full p k : b = capped full p (trunc a) -> digits_ok full -> no_lead0 full -> full <> [] ->
  lval full p = (dval a * p2 k)%R -> shift_post 1 a b k.
Proof.
  intros -> H1 H2 H3 E. destruct (capped_spec full p (trunc a) H1 H2 H3) as (C1 & C2 & _ & C4 & C5).
  set (b := capped full p (trunc a)) in *. pose proof (lval_range full p H1 H2 H3) as R. rewrite E in *. split; [exact C1|]. split.
  - intros N. rewrite (dval_nil b N) in C2. 
    pose proof (p10_le (p - 800) (p - 1) ltac:(lia)). lra.
  - split.
    { split; [|lra]. rewrite pow_1. unfold keep_ratio. replace (p - 800) with (p - 1 + -799) in C2 by lia. rewrite p10_plus in C2.
      pose proof (p10_pos (-799)). set (X := (dval a * p2 k)%R) in *. set (Y := p10 (-799)) in *.
      assert (p10 (p - 1) * Y <= X * Y)%R by (apply Rmult_le_compat_r; lra). lra. }
    split; [exact C4|].
    intros T S. destruct (C5 S) as [-> _]. exact T.
Qed.

Lemma leftShift_post w a k : 0 <= k <= w - 4 -> k <= 60 -> dnorm a -> d a <> [] ->
  exists b, Decimal.leftShift w a k = Ret b /\ shift_post 1 a b k.
Proof.
  intros H1 H2 H3 H4. destruct (leftShift_ok w a k H1 H2 H3 H4) as (full & p & E & F1 & F2 & F3 & F4).
  eexists. split; [exact E|]. apply (capped_shift a _ full p k eq_refl F1 F2 F3 F4).
Qed.
Lemma rightShift_post w a k : 0 <= k <= w - 4 -> k <= 60 -> dnorm a -> d a <> [] ->
  exists b, Decimal.rightShift w a k = Ret b /\ shift_post 1 a b (- k).
Proof.
  intros H1 H2 H3 H4. destruct (rightShift_ok w a k H1 H2 H3 H4) as (full & p & E & F1 & F2 & F3 & F4).
  eexists. split; [exact E|]. apply (capped_shift a _ full p (- k) eq_refl F1 F2 F3 F4).
Qed.

Lemma dval_gt0 a : dnorm a -> d a <> [] -> (0 < dval a)%R.
Proof. intros H N. pose proof (dval_pos a H N). pose proof (p10_pos (dp a - 1)). lra. Qed.

Lemma shift_post_exact N a b k : shift_post N a b k -> trunc b = false -> trunc a = false /\ dval b = (dval a * p2 k)%R.
Proof.
  intros (_ & _ & H3 & H4 & _) T. destruct (trunc a); [exfalso; assert (trunc b = true) by (apply H4; auto); congruence|]. split; [reflexivity|].
  destruct (Rle_lt_or_eq_dec _ _ (proj2 H3)) as [L|L]; [|exact L]. exfalso; assert (trunc b = true) by (apply H4; auto); congruence.
Qed.

Lemma shift_post_trans N M a b c i j : dnorm a -> d a <> [] -> (0 <= i /\ 0 <= j \/ i <= 0 /\ j <= 0) ->
  shift_post N a b i -> shift_post M b c j -> shift_post (N + M) a c (i + j).
Proof.
  intros Ha Na Hij HA HB. pose proof (shift_post_exact N a b i HA) as EA. pose proof (shift_post_exact M b c j HB) as EB.
  destruct HA as (A1 & A2 & A3 & A4 & A5). destruct HB as (B1 & B2 & B3 & B4 & B5).
  split; [exact B1|]. split; [exact B2|].
  rewrite p2_plus, <- Rmult_assoc. pose proof (p2_pos j) as Pj. pose proof (p2_pos i) as Pi. split.
  { pose proof keep_ratio_range as KR. assert (0 < keep_ratio ^ M)%R by (apply pow_lt; lra). split.
    - apply Rle_trans with (2 := proj1 B3). rewrite pow_add.
      replace (dval a * p2 i * p2 j * (keep_ratio ^ N * keep_ratio ^ M))%R with ((dval a * p2 i * keep_ratio ^ N) * p2 j * keep_ratio ^ M)%R by ring.
      apply Rmult_le_compat_r; [lra|]. apply Rmult_le_compat_r; [lra|]. apply A3.
    - apply Rle_trans with (1 := proj2 B3). apply Rmult_le_compat_r; [lra|apply A3]. }
  split.
  - split.
    + intros T. apply B4 in T. destruct T as [T|T].
      * apply A4 in T. destruct T as [T|T]; [left; exact T|right]. apply Rle_lt_trans with (1 := proj2 B3). apply Rmult_lt_compat_r; assumption.
      * right. apply Rlt_le_trans with (1 := T). apply Rmult_le_compat_r; [lra|apply A3].
    + intros T. destruct (trunc c) eqn:Tc; [reflexivity|]. destruct (EB eq_refl) as [T1 E1]. destruct (EA T1) as [T2 E2]. rewrite E1, E2 in T.
      destruct T as [T|T]; [congruence|lra].
  - intros T S. pose proof (dval_gt0 a Ha Na) as V.
    assert (S1 : sig_digits 800 (dval a * p2 i)).
    { destruct Hij as [Hij|Hij].
      - apply sig_between with (i + j); [lia|exact V|lia|apply dnorm_sig, Ha|]. rewrite p2_plus, <- Rmult_assoc. exact S.
      - set (u := (dval a * p2 i * p2 j)%R) in *.
        assert (Eu : forall x, (u * p2 (x - i - j) = dval a * p2 x)%R).
        { intros x. unfold u. replace (x - i - j) with (x + (- i + - j)) by lia. rewrite !p2_plus, <- !p2_inv. field. split; lra. }
        replace (dval a * p2 i)%R with (u * p2 (i - i - j))%R by apply Eu.
        apply sig_between with (0 - i - j); [lia| |lia|exact S|].
        + unfold u. apply Rmult_lt_0_compat; [apply Rmult_lt_0_compat; assumption|assumption].
        + rewrite Eu. change (p2 0) with 1%R. rewrite Rmult_1_r. apply dnorm_sig, Ha. }
    pose proof (A5 T S1) as T1. destruct (EA T1) as [_ E1]. apply (B5 T1). rewrite E1. exact S.
Qed.

Lemma shift_post_le N M a b k : dnorm a -> (N <= M)%nat -> shift_post N a b k -> shift_post M a b k.
Proof.
  intros Ha L (A1 & A2 & A3 & A4 & A5). repeat (split; [assumption|]). split; [|auto]. split; [|apply A3].
  apply Rle_trans with (2 := proj1 A3). apply Rmult_le_compat_l; [apply Rmult_le_pos; [apply dval_nonneg, Ha|apply Rlt_le, p2_pos]|].
  pose proof keep_ratio_range as KR. replace M with (N + (M - N))%nat by lia. rewrite pow_add. rewrite <- (Rmult_1_r (keep_ratio ^ N)) at 2.
  apply Rmult_le_compat_l; [apply pow_le; lra|]. rewrite <- (pow1 (M - N)). apply pow_incr. lra.
Qed.

Lemma shl_loop_ok w fuel : w = 32 \/ w = 64 -> forall a k, dnorm a -> d a <> [] -> 0 <= k <= (w - 4) * (Z.of_nat fuel + 1) ->
  exists b, Decimal.shl_loop fuel w a k = Ret b /\ shift_post (S fuel) a b k.
Proof.
  intros Hw. induction fuel as [|fuel IH]; intros a k Ha Na Hk; cbn [Decimal.shl_loop]; unfold Decimal.maxShift; destruct (Z.ltb_spec (w - 4) k).
  - exfalso. lia.
  - apply leftShift_post; auto; lia.
  - destruct (leftShift_post w a (w - 4) ltac:(lia) ltac:(lia) Ha Na) as (b & -> & B). cbn [bind].
    destruct (IH b (k - (w - 4)) (proj1 B) (proj1 (proj2 B)) ltac:(lia)) as (c & E & C).
    exists c. split; [exact E|]. replace k with (w - 4 + (k - (w - 4))) by lia. change (S (S fuel)) with (1 + S fuel)%nat. apply (shift_post_trans 1 (S fuel) a b c); auto. lia.
  - destruct (leftShift_post w a k) as (b & E & B); auto; try lia. exists b. split; [exact E|]. apply (shift_post_le 1); [exact Ha|lia|exact B].
Qed.
Lemma shr_loop_ok w fuel : w = 32 \/ w = 64 -> forall a k, dnorm a -> d a <> [] -> 0 <= k <= (w - 4) * (Z.of_nat fuel + 1) ->
  exists b, Decimal.shr_loop fuel w a k = Ret b /\ shift_post (S fuel) a b (- k).
Proof.
  intros Hw. induction fuel as [|fuel IH]; intros a k Ha Na Hk; cbn [Decimal.shr_loop]; unfold Decimal.maxShift; destruct (Z.ltb_spec (w - 4) k).
  - exfalso. lia.
  - apply rightShift_post; auto; lia.
  - destruct (rightShift_post w a (w - 4) ltac:(lia) ltac:(lia) Ha Na) as (b & -> & B). cbn [bind].
    destruct (IH b (k - (w - 4)) (proj1 B) (proj1 (proj2 B)) ltac:(lia)) as (c & E & C).
    exists c. split; [exact E|]. replace (- k) with (- (w - 4) + - (k - (w - 4))) by lia. change (S (S fuel)) with (1 + S fuel)%nat. apply (shift_post_trans 1 (S fuel) a b c); auto. lia.
  - destruct (rightShift_post w a k) as (b & E & B); auto; try lia. exists b. split; [exact E|]. apply (shift_post_le 1); [exact Ha|lia|exact B].
Qed.

Lemma Shift_ok w a k : w = 32 \/ w = 64 -> dnorm a -> d a <> [] ->
  exists b, Decimal.Shift w a k = Ret b /\ shift_post (Z.to_nat (Z.abs k / (w - 4) + 2)) a b k.
Proof.
  intros Hw Ha Na. unfold Decimal.Shift, nd. destruct (Z.eqb_spec (len (d a)) 0) as [E|_].
  { destruct (d a); [contradiction|cbn in E; lia]. }
  assert (Q : 0 <= Z.abs k / (w - 4)) by (apply Z.div_pos; lia).
  replace (Z.to_nat (Z.abs k / (w - 4) + 2)) with (S (Z.to_nat (Z.abs k / Decimal.maxShift w + 1))) by (unfold Decimal.maxShift; lia).
  set (fuel := Z.to_nat (Z.abs k / Decimal.maxShift w + 1)).
  assert (F : Z.abs k <= (w - 4) * (Z.of_nat fuel + 1)).
  { unfold fuel, Decimal.maxShift. rewrite Z2Nat.id by lia.
    pose proof (Z.div_mod (Z.abs k) (w - 4) ltac:(lia)). pose proof (Z.mod_pos_bound (Z.abs k) (w - 4) ltac:(lia)). lia. }
  destruct (Z.ltb_spec 0 k); [|destruct (Z.ltb_spec k 0)].
  - apply shl_loop_ok; auto. lia.
  - destruct (shr_loop_ok w fuel Hw a (- k) Ha Na) as (b & E & B); [lia|]. exists b; split; [exact E|rewrite Z.opp_involutive in B; exact B].
  - assert (k = 0) by lia. subst k. exists a. split; [reflexivity|]. apply (shift_post_le 0); [exact Ha|lia|]. split; [exact Ha|]. split; [exact Na|].
    change (p2 0) with 1%R. cbn [pow]. rewrite !Rmult_1_r. split; [lra|]. split; [|auto]. split; [auto|]. intros [?|?]; [assumption|lra].
Qed.

(** A shift by at most maxShift is one exact shift followed by one truncation. *)
Lemma Shift_one w a k : w = 32 \/ w = 64 -> dnorm a -> d a <> [] -> Z.abs k <= w - 4 ->
  exists b, Decimal.Shift w a k = Ret b /\ exists p, (p10 (p - 1) <= dval a * p2 k < p10 p)%R /\ dval b = floor10 (p - 800) (dval a * p2 k).
Proof.
  intros Hw Ha Na Hk. unfold Decimal.Shift, nd. destruct (Z.eqb_spec (len (d a)) 0) as [E|_].
  { destruct (d a); [contradiction|cbn in E; lia]. }
  set (fuel := Z.to_nat (Z.abs k / Decimal.maxShift w + 1)).
  destruct (Z.ltb_spec 0 k); [|destruct (Z.ltb_spec k 0)].
  - destruct (leftShift_ok w a k ltac:(lia) ltac:(lia) Ha Na) as (full & p & E & F1 & F2 & F3 & F4).
    exists (capped full p (trunc a)). split; [destruct fuel; cbn [Decimal.shl_loop]; unfold Decimal.maxShift; (destruct (Z.ltb_spec (w - 4) k); [lia|exact E])|].
    exists p. rewrite <- F4. split; [apply lval_range; assumption|]. apply capped_spec; assumption.
  - destruct (rightShift_ok w a (- k) ltac:(lia) ltac:(lia) Ha Na) as (full & p & E & F1 & F2 & F3 & F4). rewrite Z.opp_involutive in F4.
    exists (capped full p (trunc a)). split; [destruct fuel; cbn [Decimal.shr_loop]; unfold Decimal.maxShift; (destruct (Z.ltb_spec (w - 4) (- k)); [lia|exact E])|].
    exists p. rewrite <- F4. split; [apply lval_range; assumption|]. apply capped_spec; assumption.
  - assert (k = 0) by lia. subst k. exists a. split; [reflexivity|]. exists (dp a). change (p2 0) with 1%R. rewrite Rmult_1_r.
    split; [apply dval_pos; assumption|]. pose proof Ha as (_ & _ & _ & HL & _).
    assert (Ex : exists z, dval a = (IZR z * p10 (dp a - 800))%R).
    { exists (dread (d a) * 10 ^ (800 - len (d a))). rewrite scale10 by lia. unfold dval, lval. do 2 f_equal. lia. }
    destruct Ex as [z Ez]. rewrite Ez. unfold floor10. rewrite Rmult_assoc, p10_opp, Rmult_1_r, Zfloor_IZR. reflexivity.
Qed.

(** * Rounding *)
Lemma firstn_skipn_facts a n : dnorm a -> 0 <= n < len (d a) ->
  let q := dread (firstn (Z.to_nat n) (d a)) in
  let r := dread (skipn (Z.to_nat n) (d a)) in
  let m := len (d a) - n in
  0 < r < 10 ^ m /\ (dval a * p10 (- (dp a - n)) = IZR q + IZR r * p10 (- m))%R.
Proof.
  intros Ha Hn q r m. pose proof Ha as (Hd & _ & Ht & _).
  set (s := firstn (Z.to_nat n) (d a)) in *. set (t := skipn (Z.to_nat n) (d a)) in *.
  assert (E : d a = s ++ t) by (symmetry; apply firstn_skipn).
  assert (Ls : len s = n) by (unfold s; rewrite firstn_length; lia).
  assert (Lt : len t = m) by (unfold t; rewrite skipn_length; lia).
  assert (Hst : digits_ok s /\ digits_ok t) by (apply digits_ok_app; rewrite <- E; exact Hd). destruct Hst as [Hs Htt].
  assert (Nt : t <> []) by (intros Et; rewrite Et in Lt; cbn in Lt; lia).
  assert (Tt : no_trail0 t).
  { unfold no_trail0 in *. rewrite E in Ht. destruct (exists_last Nt) as (u & c & Eu). rewrite Eu in *. rewrite app_assoc in Ht. rewrite last_last in *. exact Ht. }
  pose proof (dread_range t Htt) as R. rewrite Lt in R. fold r in R. split.
  - split; [|lia]. pose proof (no_trail0_mod t Htt Tt Nt) as M. fold r in M. assert (r <> 0); [|lia]. intros E0. rewrite E0 in M. apply M. reflexivity.
  - unfold dval, lval. rewrite Rmult_assoc, <- p10_plus. replace (dp a - len (d a) + - (dp a - n)) with (- m) by (unfold m; lia).
    rewrite E at 1. rewrite dread_app, Lt. fold q r. rewrite plus_IZR, mult_IZR, IZR_p10 by (unfold m; lia).
    rewrite Rmult_plus_distr_r, Rmult_assoc, p10_opp. ring.
Qed.

Lemma frac10 r m : 0 < r < 10 ^ m -> 0 <= m -> (0 < IZR r * p10 (- m) < 1)%R.
Proof.
  intros Hr Hm. pose proof (p10_pos (- m)). split; [apply Rmult_lt_0_compat; [apply IZR_lt; lia|lra]|].
  rewrite <- (p10_opp m). apply Rmult_lt_compat_r; [lra|]. rewrite <- IZR_p10 by lia. apply IZR_lt. lia.
Qed.

(** Value of the digits kept. *)
Lemma RoundDown_ok a n : dnorm a -> 0 <= n < nd a ->
  dnorm (Decimal.RoundDown a n) /\ dval (Decimal.RoundDown a n) = floor10 (dp a - n) (dval a) /\ trunc (Decimal.RoundDown a n) = trunc a.
Proof.
  intros Ha Hn. unfold nd in Hn. unfold Decimal.RoundDown, nd.
  destruct (Z.ltb_spec n 0); [lia|]. destruct (Z.leb_spec (len (d a)) n); [lia|]. cbn [orb].
  destruct (firstn_skipn_facts a n Ha Hn) as [Hr E]. pose proof Ha as (Hd & Hl & _ & HL & _).
  set (s := firstn (Z.to_nat n) (d a)) in *. assert (Ls : len s = n) by (unfold s; rewrite firstn_length; lia).
  destruct (trim_spec (mkDec s (dp a) (trunc a))) as (T1 & T2 & T3); cbn [d].
  - apply digits_ok_firstn, Hd.
  - destruct s as [|c t] eqn:Es; [unfold no_lead0; cbn; lia|]. apply (no_lead0_app_l (c :: t) (skipn (Z.to_nat n) (d a))); [discriminate|].
    rewrite <- Es. unfold s. rewrite firstn_skipn. exact Hl.
  - lia.
  - split; [exact T1|]. split; [|exact T3]. rewrite T2. unfold floor10. rewrite E, Zfloor_frac by (pose proof (frac10 _ _ Hr ltac:(lia)); lra).
    unfold dval, lval. cbn [d dp]. rewrite Ls. reflexivity.
Qed.

Lemma round_up_rev_ok l : digits_ok l ->
  match Decimal.round_up_rev l with
  | Some u => digits_ok u /\ hd 1 u <> 0 /\ u <> [] /\ exists j, len l = len u + j /\ 0 <= j /\ dread (rev l) + 1 = dread (rev u) * 10 ^ j /\
                (u <> [] -> last l 1 <> 0 -> last u 1 <> 0)
  | None => dread (rev l) + 1 = 10 ^ len l
  end.
Proof.
  induction 1 as [|c l Hc Hl IH]; [reflexivity|]. cbn [Decimal.round_up_rev]. destruct (Z.ltb_spec c 9) as [L|L].
  - split; [constructor; [lia|exact Hl]|]. cbn [hd]. split; [lia|]. split; [discriminate|]. exists 0. cbn [length rev].
    split; [lia|]. split; [lia|]. rewrite !dread_snoc. change (10 ^ 0) with 1. split; [lia|]. intros _. destruct l as [|x l]; [cbn [last]; lia|]. intros HH. exact HH.
  - assert (c = 9) by lia. subst c. cbn [rev]. rewrite dread_snoc. destruct (Decimal.round_up_rev l) as [u|].
    + destruct IH as (I1 & I2 & I3 & j & I4 & I5 & I6 & I7). split; [exact I1|]. split; [exact I2|]. split; [exact I3|]. exists (j + 1). cbn [length].
      split; [lia|]. split; [lia|]. rewrite Z.pow_add_r by lia. change (10 ^ 1) with 10. split; [lia|].
      intros _. destruct l as [|x l]; [destruct u; [contradiction|cbn [length] in I4; lia]|]. intros HH. apply I7; [exact I3|exact HH].
    + cbn [length]. rewrite Nat2Z.inj_succ, Z.pow_succ_r by lia. lia.
Qed.

Lemma RoundUp_ok a n : dnorm a -> 0 <= n < nd a ->
  dnorm (Decimal.RoundUp a n) /\ dval (Decimal.RoundUp a n) = ceil10 (dp a - n) (dval a) /\ trunc (Decimal.RoundUp a n) = trunc a.
Proof.
  intros Ha Hn. unfold nd in Hn. unfold Decimal.RoundUp, nd.
  destruct (Z.ltb_spec n 0); [lia|]. destruct (Z.leb_spec (len (d a)) n); [lia|]. cbn [orb].
  destruct (firstn_skipn_facts a n Ha Hn) as [Hr E]. pose proof Ha as (Hd & Hl & _ & HL & _).
  set (s := firstn (Z.to_nat n) (d a)) in *. assert (Ls : len s = n) by (unfold s; rewrite firstn_length; lia).
  unfold ceil10. rewrite E, Zceil_frac by (apply frac10; lia). clear E.
  pose proof (round_up_rev_ok (rev s) (digits_ok_rev _ (digits_ok_firstn _ _ Hd))) as H1. rewrite rev_involutive, rev_length in H1.
  assert (Hls : no_lead0 s).
  { destruct s as [|c t] eqn:Es; [unfold no_lead0; cbn; lia|]. apply (no_lead0_app_l (c :: t) (skipn (Z.to_nat n) (d a))); [discriminate|].
    rewrite <- Es. unfold s. rewrite firstn_skipn. exact Hl. }
  destruct (Decimal.round_up_rev (rev s)) as [u|].
  - destruct H1 as (I1 & I2 & I3 & j & I4 & I5 & I6 & I7). split; [|split; [|reflexivity]].
    + unfold dnorm. cbn [d dp]. split; [apply digits_ok_rev, I1|]. split.
      { unfold no_lead0. rewrite <- (rev_involutive (rev u)), <- last_rev_hd, rev_involutive, rev_involutive in *.
        apply I7; [exact I3|]. rewrite last_rev_hd. exact Hls. }
      split. { unfold no_trail0. rewrite last_rev_hd. exact I2. }
      split; [rewrite rev_length; lia|]. intros E0. apply (f_equal (@rev Z)) in E0. rewrite rev_involutive in E0. contradiction.
    + unfold dval, lval. cbn [d dp]. rewrite I6, rev_length, scale10 by lia. do 2 f_equal. lia.
  - split; [|split; [|reflexivity]].
    + unfold dnorm, no_lead0, no_trail0. cbn [d dp hd last length]. repeat split; try lia; [|discriminate]. repeat constructor; lia.
    + unfold dval, lval. cbn [d dp length]. rewrite H1, Ls. change (dread [1]) with 1. rewrite IZR_p10, <- p10_plus, Rmult_1_l by lia. f_equal. lia.
Qed.

Lemma firstn_S_nth (l : list Z) n : (n < length l)%nat -> skipn n l = nth n l 0 :: skipn (S n) l.
Proof.
  revert n. induction l as [|c l IH]; intros n Hn; [cbn in Hn; lia|]. destruct n as [|n]; [reflexivity|].
  cbn [skipn nth]. apply IH. cbn in Hn. lia.
Qed.

Lemma last_firstn_nth (l : list Z) n : (0 < n <= length l)%nat -> exists u, firstn n l = u ++ [nth (n - 1) l 0].
Proof.
  intros Hn. exists (firstn (n - 1) l). revert n Hn. induction l as [|c l IH]; intros n Hn; [cbn in Hn; lia|].
  destruct n as [|n]; [lia|]. cbn [firstn]. replace (S n - 1)%nat with n by lia. destruct n as [|n]; [reflexivity|].
  cbn [length] in Hn. rewrite IH by lia. replace (S n - 1)%nat with n by lia. reflexivity.
Qed.

Lemma dread_even s c : Z.even (dread (s ++ [c])) = Z.even c.
Proof. rewrite dread_snoc, Z.even_add, Z.even_mul. cbn [Z.even]. rewrite orb_true_r. destruct (Z.even c); reflexivity. Qed.

(** V: a number that was cut to the digits of [a]. *)
Definition stands_for (a : decimal) (V : R) : Prop :=
  if trunc a then (dval a < V < dval a + p10 (dp a - nd a))%R else V = dval a.

(** Where a decimal lies between two neighbours with n digits. *)
Lemma shouldRoundUp_ok a n V : dnorm a -> 0 <= n < nd a -> stands_for a V ->
  let q := dread (firstn (Z.to_nat n) (d a)) in
  ZnearestE (V * p10 (- (dp a - n))) = (if Decimal.shouldRoundUp a n then q + 1 else q) /\
  Zfloor (V * p10 (- (dp a - n))) = q /\ Zceil (V * p10 (- (dp a - n))) = q + 1.
Proof.
  intros Ha Hn HV q. unfold nd in Hn. destruct (firstn_skipn_facts a n Ha Hn) as [Hr E].
  pose proof Ha as (Hd & _ & Ht & _).
  set (r := dread (skipn (Z.to_nat n) (d a))) in *. set (m := len (d a) - n) in *.
  fold q in E.
  assert (Hx : exists f, (V * p10 (- (dp a - n)) = IZR q + f)%R /\ (0 < f < 1)%R /\ (IZR r * p10 (- m) <= f)%R /\
     if trunc a then (IZR r * p10 (- m) < f < IZR (r + 1) * p10 (- m))%R else (f = IZR r * p10 (- m))%R).
  { exists (V * p10 (- (dp a - n)) - IZR q)%R. split; [ring|]. unfold stands_for in HV. pose proof (frac10 r m Hr ltac:(lia)) as F.
    destruct (trunc a).
    - pose proof (p10_pos (- (dp a - n))) as P. destruct HV as [V1 V2].
      apply Rmult_lt_compat_r with (1 := P) in V1. apply Rmult_lt_compat_r with (1 := P) in V2.
      rewrite Rmult_plus_distr_r, <- p10_plus in V2. unfold nd in V2. replace (dp a - len (d a) + - (dp a - n)) with (- m) in V2 by (unfold m; lia).
      rewrite E in V1, V2. assert (F2 : (IZR (r + 1) * p10 (- m) <= 1)%R).
      { rewrite <- (p10_opp m). apply Rmult_le_compat_r; [apply Rlt_le, p10_pos|]. rewrite <- IZR_p10 by (unfold m; lia). apply IZR_le. lia. }
      rewrite plus_IZR in *. lra.
    - subst V. rewrite E. replace (IZR q + IZR r * p10 (- m) - IZR q)%R with (IZR r * p10 (- m))%R by ring. lra. }
  destruct Hx as (f & Ef & F1 & F2 & F3). rewrite Ef.
  split; [|split; [apply Zfloor_frac; lra|apply Zceil_frac; lra]].
  rewrite Znearest_frac by exact F1.
  (* the first digit dropped *)
  set (c := Decimal.dig a n). set (t := skipn (S (Z.to_nat n)) (d a)).
  assert (Et : skipn (Z.to_nat n) (d a) = c :: t) by (apply firstn_S_nth; lia).
  assert (Lt : len t = m - 1) by (unfold t; rewrite skipn_length; lia).
  assert (Htd : digits_ok (c :: t)) by (rewrite <- Et; apply digits_ok_skipn, Hd). inversion Htd as [|? ? Hc Htt]; subst.
  assert (Er : r = c * 10 ^ (m - 1) + dread t) by (unfold r; rewrite Et, dread_cons, Lt; reflexivity).
  pose proof (dread_range t Htt) as Rt. rewrite Lt in Rt.
  assert (Half : (1 / 2 = IZR (5 * 10 ^ (m - 1)) * p10 (- m))%R).
  { rewrite mult_IZR, IZR_p10, Rmult_assoc, <- p10_plus by (unfold m; lia). replace (m - 1 + - m) with (-1) by lia.
    change (p10 (-1)) with (/ 10)%R. lra. }
  pose proof (pow10_pos (m - 1) ltac:(unfold m; lia)) as Pm. pose proof (p10_pos (- m)) as Pp.
  unfold Decimal.shouldRoundUp, nd. destruct (Z.ltb_spec n 0); [lia|]. destruct (Z.leb_spec (len (d a)) n); [lia|]. cbn [orb]. fold c.
  destruct (Z.eqb_spec c 5) as [C5|C5]; [destruct (Z.eqb_spec (n + 1) (len (d a))) as [N1|N1]|]; cbn [andb].
  - (* exactly half *)
    assert (m = 1) by (unfold m; lia).
    assert (R5 : r = 5) by (rewrite Er; replace (m - 1) with 0 in * by lia; change (10 ^ 0) with 1 in *; lia).
    assert (H5 : (IZR r * p10 (- m) = 1 / 2)%R) by (rewrite Half, R5; replace (m - 1) with 0 by lia; reflexivity).
    destruct (trunc a).
    + rewrite Rcompare_Gt by lra. reflexivity.
    + rewrite Rcompare_Eq by lra.
      destruct (Z.ltb_spec 0 n) as [N0|N0]; cbn [andb].
      * destruct (last_firstn_nth (d a) (Z.to_nat n) ltac:(lia)) as [u Eu]. unfold q. rewrite Eu, dread_even.
        unfold Decimal.dig. replace (Z.to_nat (n - 1)) with (Z.to_nat n - 1)%nat by lia.
        rewrite Zmod_even. destruct (Z.even _); reflexivity.
      * assert (n = 0) by lia. subst n. reflexivity.
  - destruct (Z.leb_spec 5 c); [|lia]. 
    assert (5 * 10 ^ (m - 1) < r).
    { rewrite Er, C5. assert (0 < dread t); [|lia]. assert (Nt : t <> []) by (intros E0; rewrite E0 in Lt; cbn [length] in Lt; unfold m in Lt; lia).
      assert (Tt : no_trail0 t).
      { unfold no_trail0 in *. rewrite <- (firstn_skipn (Z.to_nat n) (d a)), Et in Ht. destruct (exists_last Nt) as (u & z & Eu). rewrite Eu in *.
        change (c :: u ++ [z]) with ((c :: u) ++ [z]) in Ht. rewrite app_assoc in Ht. rewrite last_last in *. exact Ht. }
      pose proof (no_trail0_mod t Htt Tt Nt) as M. assert (dread t <> 0); [|lia]. intros E0. rewrite E0 in M. apply M. reflexivity. }
    assert (1 / 2 < IZR r * p10 (- m))%R by (rewrite Half; apply Rmult_lt_compat_r; [exact Pp|apply IZR_lt; lia]).
    rewrite Rcompare_Gt by lra. reflexivity.
  - destruct (Z.leb_spec 5 c).
    + assert (5 * 10 ^ (m - 1) < r) by nia.
      assert (1 / 2 < IZR r * p10 (- m))%R by (rewrite Half; apply Rmult_lt_compat_r; [exact Pp|apply IZR_lt; lia]).
      rewrite Rcompare_Gt by lra. reflexivity.
    + assert (r + 1 <= 5 * 10 ^ (m - 1)) by nia.
      assert (IZR (r + 1) * p10 (- m) <= 1 / 2)%R by (rewrite Half; apply Rmult_le_compat_r; [lra|apply IZR_le; lia]).
      assert (f < 1 / 2)%R. { rewrite plus_IZR in *. destruct (trunc a); lra. }
      rewrite Rcompare_Lt by lra. reflexivity.
Qed.

Lemma stands_for_self a : trunc a = false -> stands_for a (dval a).
Proof. intros T. unfold stands_for. rewrite T. reflexivity. Qed.

Lemma floor_val a n : dnorm a -> 0 <= n < nd a ->
  floor10 (dp a - n) (dval a) = (IZR (dread (firstn (Z.to_nat n) (d a))) * p10 (dp a - n))%R /\
  ceil10 (dp a - n) (dval a) = (IZR (dread (firstn (Z.to_nat n) (d a)) + 1) * p10 (dp a - n))%R.
Proof.
  intros Ha Hn. destruct (firstn_skipn_facts a n Ha Hn) as [Hr E]. unfold nd in Hn.
  pose proof (frac10 _ _ Hr ltac:(lia)). unfold floor10, ceil10. rewrite E, Zfloor_frac, Zceil_frac by lra. split; reflexivity.
Qed.

Lemma Round_ok a n V : dnorm a -> 0 <= n < nd a -> stands_for a V ->
  dnorm (Decimal.Round a n) /\ dval (Decimal.Round a n) = round10 (dp a - n) V /\ trunc (Decimal.Round a n) = trunc a.
Proof.
  intros Ha Hn HV. destruct (shouldRoundUp_ok a n V Ha Hn HV) as (E & _ & _). destruct (floor_val a n Ha Hn) as [E1 E2].
  unfold Decimal.Round, round10. rewrite E. destruct (Z.ltb_spec n 0); [lia|]. destruct (Z.leb_spec (nd a) n); [lia|]. cbn [orb].
  destruct (Decimal.shouldRoundUp a n).
  - destruct (RoundUp_ok a n Ha Hn) as (U1 & U2 & U3). rewrite U2, E2. auto.
  - destruct (RoundDown_ok a n Ha Hn) as (U1 & U2 & U3). rewrite U2, E1. auto.
Qed.

(** Digits beyond the last one: nothing to round. *)
Lemma round_id a k : dp a - nd a >= k -> exists z, dval a = (IZR z * p10 k)%R.
Proof.
  intros H. exists (dread (d a) * 10 ^ (dp a - nd a - k)). rewrite scale10 by lia. unfold dval, lval, nd. do 2 f_equal. lia.
Qed.
Lemma round10_id k z : round10 k (IZR z * p10 k) = (IZR z * p10 k)%R.
Proof. unfold round10. rewrite Rmult_assoc, p10_opp, Rmult_1_r, (Zrnd_IZR ZnearestE). reflexivity. Qed.
Lemma floor10_id k z : floor10 k (IZR z * p10 k) = (IZR z * p10 k)%R.
Proof. unfold floor10. rewrite Rmult_assoc, p10_opp, Rmult_1_r, Zfloor_IZR. reflexivity. Qed.
Lemma ceil10_id k z : ceil10 k (IZR z * p10 k) = (IZR z * p10 k)%R.
Proof. unfold ceil10. rewrite Rmult_assoc, p10_opp, Rmult_1_r, Zceil_IZR. reflexivity. Qed.

(** * RoundedInteger *)
Lemma int_digits_ok l : forall n, digits_ok l -> 0 <= n -> (n * 10 ^ len l + dread l) < 2 ^ 64 -> Decimal.int_digits l n = n * 10 ^ len l + dread l.
Proof.
  induction l as [|c l IH]; intros n Hl Hn H; cbn [Decimal.int_digits].
  - cbn [length]. change (10 ^ Z.of_nat 0) with 1. change (dread []) with 0. lia.
  - inversion Hl as [|? ? Hc Hl']; subst. rewrite dread_cons in *. cbn [length] in *. rewrite Nat2Z.inj_succ, Z.pow_succ_r in * by lia.
    pose proof (dread_range l Hl'). pose proof (pow10_pos (len l) ltac:(lia)).
    assert (n * 10 + c < 2 ^ 64) by nia.
    unfold u64. rewrite (Z.mod_small (n * 10)) by lia. rewrite Z.mod_small by lia. rewrite IH; [ring|assumption|lia|].
    replace ((n * 10 + c) * 10 ^ len l + dread l) with (n * (10 * 10 ^ len l) + (c * 10 ^ len l + dread l)) by ring. exact H.
Qed.
Lemma int_zeros_ok k : forall n, 0 <= n -> n * 10 ^ Z.of_nat k < 2 ^ 64 -> Decimal.int_zeros k n = n * 10 ^ Z.of_nat k.
Proof.
  induction k as [|k IH]; intros n Hn H; cbn [Decimal.int_zeros]; [change (10 ^ Z.of_nat 0) with 1; lia|].
  rewrite Nat2Z.inj_succ, Z.pow_succ_r in * by lia. pose proof (pow10_pos (Z.of_nat k) ltac:(lia)).
  unfold u64. rewrite Z.mod_small by nia. rewrite IH; [ring|lia|]. replace (n * 10 * 10 ^ Z.of_nat k) with (n * (10 * 10 ^ Z.of_nat k)) by ring. exact H.
Qed.

Lemma cut_stands a V : dnorm a -> cut_to a V -> stands_for a V.
Proof.
  intros (_ & _ & _ & H & _). unfold cut_to, stands_for. destruct (trunc a); [|auto]. pose proof (p10_le (dp a - 800) (dp a - nd a) ltac:(unfold nd; lia)). lra.
Qed.

Lemma cut_integer a V k : dnorm a -> cut_to a V -> dp a - nd a >= k -> trunc a = false \/ dp a - 800 < k ->
  exists z, dval a = (IZR z * p10 k)%R /\ ZnearestE (V * p10 (- k)) = z /\ Zfloor (V * p10 (- k)) = z.
Proof.
  intros Ha HV Hk Ht. destruct (round_id a k Hk) as [z Ez]. exists z. split; [exact Ez|].
  assert (Ex : (dval a * p10 (- k) = IZR z)%R) by (rewrite Ez, Rmult_assoc, p10_opp; ring).
  unfold cut_to in HV. destruct (trunc a).
  - destruct Ht as [?|Ht]; [discriminate|].
    assert (F : (0 < V * p10 (- k) - IZR z < / 2)%R).
    { pose proof (p10_pos (- k)) as P. destruct HV as [V1 V2].
      apply Rmult_lt_compat_r with (1 := P) in V1. apply Rmult_lt_compat_r with (1 := P) in V2.
      rewrite Rmult_plus_distr_r, <- p10_plus, Ex in V2. rewrite Ex in V1.
      pose proof (p10_le (dp a - 800 + - k) (-1) ltac:(lia)) as L. change (p10 (-1)) with (/ 10)%R in L. lra. }
    set (f := (V * p10 (- k) - IZR z)%R) in *. replace (V * p10 (- k))%R with (IZR z + f)%R by (unfold f; ring).
    rewrite Znearest_frac, Zfloor_frac, Rcompare_Lt by lra. auto.
  - subst V. rewrite Ex, (Zrnd_IZR ZnearestE), Zfloor_IZR. auto.
Qed.

Lemma Round_all a n V : dnorm a -> cut_to a V -> 0 <= n -> trunc a = false \/ n < 800 ->
  dnorm (Decimal.Round a n) /\ dval (Decimal.Round a n) = round10 (dp a - n) V /\ trunc (Decimal.Round a n) = trunc a.
Proof.
  intros Ha HV Hn Ht. destruct (Z_lt_ge_dec n (nd a)) as [L|L].
  - apply Round_ok; [exact Ha|lia|apply cut_stands; assumption].
  - unfold Decimal.Round. destruct (Z.leb_spec (nd a) n); [|lia]. rewrite orb_true_r. split; [exact Ha|]. split; [|reflexivity].
    destruct (cut_integer a V (dp a - n) Ha HV ltac:(lia)) as (z & E1 & E2 & _); [destruct Ht; [left; assumption|right; lia]|].
    unfold round10. rewrite E2. exact E1.
Qed.
Lemma RoundDown_all a n V : dnorm a -> cut_to a V -> 0 <= n -> trunc a = false \/ n < 800 ->
  dnorm (Decimal.RoundDown a n) /\ dval (Decimal.RoundDown a n) = floor10 (dp a - n) V /\ trunc (Decimal.RoundDown a n) = trunc a.
Proof.
  intros Ha HV Hn Ht. destruct (Z_lt_ge_dec n (nd a)) as [L|L].
  - destruct (RoundDown_ok a n Ha ltac:(lia)) as (U1 & U2 & U3). rewrite U2.
    destruct (shouldRoundUp_ok a n V Ha ltac:(lia) (cut_stands a V Ha HV)) as (_ & E & _). destruct (floor_val a n Ha ltac:(lia)) as [E1 _].
    split; [exact U1|]. split; [|exact U3]. rewrite E1. unfold floor10. rewrite E. reflexivity.
  - unfold Decimal.RoundDown. destruct (Z.leb_spec (nd a) n); [|lia]. rewrite orb_true_r. split; [exact Ha|]. split; [|reflexivity].
    destruct (cut_integer a V (dp a - n) Ha HV ltac:(lia)) as (z & E1 & _ & E2); [destruct Ht; [left; assumption|right; lia]|].
    unfold floor10. rewrite E2. exact E1.
Qed.
Lemma RoundUp_all a n V : dnorm a -> cut_to a V -> 0 <= n -> trunc a = false \/ n < nd a ->
  dnorm (Decimal.RoundUp a n) /\ dval (Decimal.RoundUp a n) = ceil10 (dp a - n) V /\ trunc (Decimal.RoundUp a n) = trunc a.
Proof.
  intros Ha HV Hn Ht. destruct (Z_lt_ge_dec n (nd a)) as [L|L].
  - destruct (RoundUp_ok a n Ha ltac:(lia)) as (U1 & U2 & U3). rewrite U2.
    destruct (shouldRoundUp_ok a n V Ha ltac:(lia) (cut_stands a V Ha HV)) as (_ & _ & E). destruct (floor_val a n Ha ltac:(lia)) as [_ E1].
    split; [exact U1|]. split; [|exact U3]. rewrite E1. unfold ceil10. rewrite E. reflexivity.
  - destruct Ht as [T|?]; [|lia]. unfold Decimal.RoundUp. destruct (Z.leb_spec (nd a) n); [|lia]. rewrite orb_true_r. split; [exact Ha|]. split; [|reflexivity].
    unfold cut_to in HV. rewrite T in HV. subst V. destruct (round_id a (dp a - n) ltac:(lia)) as [z E]. rewrite E. symmetry. apply ceil10_id.
Qed.

Lemma RoundedInteger_ok a V : dnorm a -> cut_to a V -> ZnearestE V < 2 ^ 64 -> Decimal.RoundedInteger a = ZnearestE V.
Proof.
  intros Ha HV Hlt. pose proof Ha as (Hd & _ & _ & HL & H0).
  assert (V0 : (dval a <= V)%R) by (unfold cut_to in HV; destruct (trunc a); lra).
  assert (D20 : dp a <= 20).
  { destruct (Z_le_gt_dec (dp a) 20) as [|G]; [assumption|exfalso].
    assert (N : d a <> []) by (intros E; specialize (H0 E); lia).
    pose proof (dval_pos a Ha N) as [P _]. pose proof (p10_le 20 (dp a - 1) ltac:(lia)) as P2.
    assert (10 ^ 20 <= ZnearestE V); [|lia]. rewrite <- (Zrnd_IZR ZnearestE (10 ^ 20)). apply (Zrnd_le ZnearestE).
    rewrite IZR_p10 by lia. lra. }
  unfold Decimal.RoundedInteger. destruct (Z.ltb_spec 20 (dp a)); [lia|].
  assert (E0 : (V * p10 (- 0) = V)%R) by (change (p10 (- 0)) with 1%R; ring).
  destruct (Z_lt_ge_dec (dp a) 0) as [N|N].
  - (* below 1/10 *)
    replace (Z.to_nat (dp a)) with O by lia. replace (Z.to_nat (dp a - nd a)) with O by (unfold nd; lia). cbn [firstn Decimal.int_digits Decimal.int_zeros].
    unfold Decimal.shouldRoundUp. destruct (Z.ltb_spec (dp a) 0); [|lia]. cbn [orb]. symmetry. apply Znearest_imp. rewrite Rminus_0_r.
    assert (Nd : d a <> []) by (intros E; specialize (H0 E); lia).
    pose proof (dval_pos a Ha Nd) as [P1 P2]. pose proof (p10_pos (dp a - 1)). pose proof (p10_le (dp a) (-1) ltac:(lia)) as L. change (p10 (-1)) with (/ 10)%R in L.
    pose proof (p10_le (dp a - 800) (-2) ltac:(lia)) as L2. change (p10 (-2)) with (/ 100)%R in L2.
    rewrite Rabs_pos_eq by lra. unfold cut_to in HV. destruct (trunc a); lra.
  - destruct (Z_lt_ge_dec (dp a) (nd a)) as [L|L].
    + destruct (shouldRoundUp_ok a (dp a) V Ha ltac:(lia) (cut_stands a V Ha HV)) as (E & _ & _).
      replace (dp a - dp a) with 0 in E by lia. rewrite E0 in E. rewrite E in Hlt |- *.
      replace (Z.to_nat (dp a - nd a)) with O by lia. cbn [Decimal.int_zeros].
      pose proof (dread_range _ (digits_ok_firstn (Z.to_nat (dp a)) _ Hd)).
      set (q := dread (firstn (Z.to_nat (dp a)) (d a))) in *.
      assert (q < 2 ^ 64) by (destruct (Decimal.shouldRoundUp a (dp a)); lia).
      rewrite int_digits_ok; [|apply digits_ok_firstn, Hd|lia|fold q; lia]. fold q. rewrite Z.mul_0_l, Z.add_0_l.
      destruct (Decimal.shouldRoundUp a (dp a)); [|reflexivity]. unfold u64. apply Z.mod_small. lia.
    + destruct (cut_integer a V 0 Ha HV ltac:(lia)) as (z & E1 & E2 & _); [destruct (trunc a); [right; lia|left; reflexivity]|].
      rewrite E0 in E2. rewrite E2 in Hlt |- *. unfold nd in L.
      rewrite firstn_all2 by lia.
      assert (Ez : z = dread (d a) * 10 ^ (dp a - nd a)).
      { apply eq_IZR. rewrite mult_IZR, IZR_p10 by (unfold nd; lia). rewrite <- (Rmult_1_r (IZR z)), <- p10_0, <- E1. reflexivity. }
      pose proof (dread_range _ Hd). assert (1 <= 10 ^ (dp a - nd a)) by (pose proof (pow10_pos (dp a - nd a)); unfold nd in *; lia).
      rewrite int_digits_ok; [|exact Hd|lia|rewrite Z.mul_0_l, Z.add_0_l; nia]. rewrite Z.mul_0_l, Z.add_0_l.
      rewrite int_zeros_ok; [|lia|rewrite Z2Nat.id by (unfold nd; lia); lia]. rewrite Z2Nat.id by (unfold nd; lia).
      unfold Decimal.shouldRoundUp. destruct (Z.leb_spec (nd a) (dp a)); [|unfold nd in *; lia]. rewrite orb_true_r. lia.
Qed.

(** * String *)
Lemma char_val c : 0 <= c <= 9 -> digit_val (u8 (c + 48)) = c.
Proof. intros H. unfold u8. rewrite Z.mod_small by lia. unfold digit_val. destruct (Z.leb_spec 48 (c + 48)); [|lia]. destruct (Z.leb_spec (c + 48) 57); [|lia]. cbn [andb]. lia. Qed.
Lemma chars_fold l : forall a, digits_ok l -> fold_left (fun a c => a * 10 + digit_val c) (Decimal.chars l) a = fold_left (fun a c => a * 10 + c) l a.
Proof. induction l as [|c l IH]; intros a H; [reflexivity|]. inversion H; subst. cbn [Decimal.chars map fold_left]. rewrite char_val by assumption. apply IH. assumption. Qed.
Lemma chars_read l : digits_ok l -> read 10 (Decimal.chars l) = dread l.
Proof. intros H. apply chars_fold, H. Qed.
Lemma chars_digits l : digits_ok l -> all_digits 10 (Decimal.chars l).
Proof. induction 1; constructor; [rewrite char_val by assumption; lia|assumption]. Qed.
Lemma zeros_chars n : Decimal.zeros n = Decimal.chars (repeat 0 (Z.to_nat n)).
Proof. unfold Decimal.zeros, Decimal.chars. induction (Z.to_nat n) as [|m IH]; [reflexivity|]. cbn [repeat map]. f_equal. exact IH. Qed.
Lemma chars_app s t : Decimal.chars (s ++ t) = Decimal.chars s ++ Decimal.chars t.
Proof. apply map_app. Qed.
Lemma chars_length l : length (Decimal.chars l) = length l.
Proof. apply map_length. Qed.

(** ip.fp written with digits. *)
Lemma plain_ok ip fp v : digits_ok ip -> digits_ok fp -> ip <> [] -> v = (IZR (dread (ip ++ fp)) * p10 (- len fp))%R ->
  denotes_plain (Decimal.chars ip ++ match fp with [] => [] | _ => 46 :: Decimal.chars fp end) v.
Proof.
  intros Hi Hf Ni E. exists (Decimal.chars ip), (Decimal.chars fp). split; [destruct fp; reflexivity|].
  split; [destruct ip; [contradiction|discriminate]|]. split; [apply chars_digits, Hi|]. split; [apply chars_digits, Hf|].
  rewrite <- chars_app, chars_read, chars_length by (apply digits_ok_app; auto). exact E.
Qed.

Lemma String_ok a : dnorm a -> denotes_plain (Decimal.String_ a) (dval a).
Proof.
  intros Ha. pose proof Ha as (Hd & _ & _ & HL & _). unfold Decimal.String_, nd. destruct (Z.eqb_spec (len (d a)) 0) as [E|E].
  - assert (N : d a = []) by (destruct (d a); [reflexivity|cbn in E; lia]). rewrite (dval_nil a N).
    apply (plain_ok [0] [] 0%R); [repeat constructor; lia|constructor|discriminate|cbn; ring].
  - destruct (Z.leb_spec (dp a) 0) as [L|L]; [|destruct (Z.ltb_spec (dp a) (len (d a))) as [L2|L2]].
    + rewrite zeros_chars, <- chars_app.
      assert (HF : digits_ok (repeat 0 (Z.to_nat (- dp a)) ++ d a)) by (apply digits_ok_app; split; [apply digits_ok_zeros|exact Hd]).
      pose proof (plain_ok [0] (repeat 0 (Z.to_nat (- dp a)) ++ d a) (dval a)) as P.
      destruct (repeat 0 (Z.to_nat (- dp a)) ++ d a) as [|c t] eqn:Er.
      { apply app_eq_nil in Er. destruct Er as [_ Er]. rewrite Er in E. cbn in E. lia. }
      rewrite <- Er in P |- *. apply P; [repeat constructor; lia|rewrite Er; exact HF|discriminate|].
      unfold dval, lval. cbn [app]. rewrite dread_cons, Z.mul_0_l, Z.add_0_l, dread_app, dread_zeros, Z.mul_0_l, Z.add_0_l.
      do 2 f_equal. rewrite app_length, repeat_length. lia.
    + pose proof (plain_ok (firstn (Z.to_nat (dp a)) (d a)) (skipn (Z.to_nat (dp a)) (d a)) (dval a)) as P.
      assert (LS : len (skipn (Z.to_nat (dp a)) (d a)) = len (d a) - dp a) by (rewrite skipn_length; lia).
      rewrite firstn_skipn in P. destruct (skipn (Z.to_nat (dp a)) (d a)) as [|c t] eqn:Es; [cbn [length] in LS; lia|].
      apply P; [apply digits_ok_firstn, Hd|rewrite <- Es; apply digits_ok_skipn, Hd| |].
      * intros F. apply (f_equal (@length Z)) in F. rewrite firstn_length in F. cbn in F. lia.
      * unfold dval, lval. rewrite LS. do 2 f_equal. lia.
    + rewrite zeros_chars, <- chars_app. pose proof (plain_ok (d a ++ repeat 0 (Z.to_nat (dp a - len (d a)))) [] (dval a)) as P. cbn beta iota in P.
      rewrite !app_nil_r in P. apply P; [apply digits_ok_app; split; [exact Hd|apply digits_ok_zeros]|constructor| |].
      * intros F. apply app_eq_nil in F. destruct F as [F _]. rewrite F in E. cbn in E. lia.
      * cbn [length]. rewrite dread_app, dread_zeros, repeat_length, Z.add_0_r, Z2Nat.id by lia.
        rewrite scale10 by lia. unfold dval, lval. replace (- Z.of_nat 0 + (dp a - len (d a))) with (dp a - len (d a)) by lia. reflexivity.
Qed.
