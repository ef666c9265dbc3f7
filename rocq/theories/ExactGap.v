(** A float64 that agrees to 100 digits with a decimal of at most 17 digits is that decimal. *)
From Coq Require Import ZArith Reals List Bool Lia Lra.
From Flocq Require Import Core.
From Verif Require Import Spec SpecText SpecDec SpecFtoa BitFacts RoundFacts IeeeFacts DecFacts GapTable.
Import ListNotations.
Open Scope Z_scope.

(** * Fractions close to a / b *)
Definition separates (a b : Z) (c : Z * Z * Z * Z) : bool :=
  let '(p0, q0, p1, q1) := c in
  (p1 * q0 - p0 * q1 =? 1) && (10 ^ 17 <=? q0 + q1) && (0 <? q0) && (0 <? q1) &&
  (let x := a * q0 in x <? Z.shiftl (x - p0 * b) 328) && (let x := a * q1 in x <? Z.shiftl (p1 * b - x) 328).

Lemma separates_ok a b c m n : 0 < a -> 0 < b -> separates a b c = true -> 0 < n < 10 ^ 17 -> n * a < Z.abs (m * b - n * a) * 2 ^ 328.
Proof.
  intros Ha Hb H Hn. destruct c as [[[p0 q0] p1] q1]. unfold separates in H. repeat rewrite andb_true_iff in H.
  destruct H as (((((H1 & H2) & H3) & H4) & H5) & H6). rewrite Z.shiftl_mul_pow2 in H5, H6 by lia.
  apply Z.eqb_eq in H1. apply Z.leb_le in H2. apply Z.ltb_lt in H3, H4, H5, H6. set (E := 2 ^ 328) in *. assert (E0 : 0 < E) by reflexivity.
  destruct (Z_le_gt_dec (m * q0) (p0 * n)) as [L|L].
  - assert (K : n * (a * q0 - p0 * b) <= q0 * (n * a - m * b)) by nia.
    assert (n * (a * q0) < n * (a * q0 - p0 * b) * E) by nia.
    assert (K2 : q0 * (n * a) < q0 * ((n * a - m * b) * E)) by nia. apply Z.mul_lt_mono_pos_l in K2; [|lia].
    assert (n * a - m * b <= Z.abs (m * b - n * a)) by lia. nia.
  - destruct (Z_le_gt_dec (p1 * n) (m * q1)) as [L1|L1].
    + assert (K : n * (p1 * b - a * q1) <= q1 * (m * b - n * a)) by nia.
      assert (n * (a * q1) < n * (p1 * b - a * q1) * E) by nia.
      assert (K2 : q1 * (n * a) < q1 * ((m * b - n * a) * E)) by nia. apply Z.mul_lt_mono_pos_l in K2; [|lia].
      assert (m * b - n * a <= Z.abs (m * b - n * a)) by lia. nia.
    + exfalso. assert (K : n = q0 * (p1 * n - m * q1) + q1 * (m * q0 - p0 * n)).
      { transitivity (n * (p1 * q0 - p0 * q1)); [rewrite H1|]; ring. }
      assert (1 <= p1 * n - m * q1) by lia. assert (1 <= m * q0 - p0 * n) by lia. nia.
Qed.

(** * The tables *)
Definition up_exp (k : Z) : Z := k * 332 / 100 - 54.
Definition down_exp (k : Z) : Z := 54 + k * 3322 / 1000.

Fixpoint check_up (l : list (Z * Z * Z * Z)) (k P : Z) : bool :=
  match l with
  | [] => true
  | c :: t => let e := up_exp k in (k <=? e) && (Z.shiftl 1 (e + 54 - k) <=? P) && separates P (Z.shiftl 1 (e - k)) c && check_up t (k + 1) (5 * P)
  end.
Fixpoint check_down (l : list (Z * Z * Z * Z)) (k P : Z) : bool :=
  match l with
  | [] => true
  | c :: t => let e := down_exp k in (k <=? e) && (54 <=? e + 1 - k) && (P <? Z.shiftl 1 (e + 1 - k - 54)) && separates (Z.shiftl 1 (e - k)) P c && check_down t (k + 1) (5 * P)
  end.

Lemma up_table : check_up fracs_up 118 (5 ^ 118) = true.
Proof. vm_compute. reflexivity. Qed.
Lemma down_table : check_down fracs_down 120 (5 ^ 120) = true.
Proof. vm_compute. reflexivity. Qed.

Lemma check_up_nth l : forall k P i, check_up l k P = true -> 0 <= k -> P = 5 ^ k -> 0 <= i < Z.of_nat (length l) ->
  exists c, let k' := k + i in k' <= up_exp k' /\ 2 ^ (up_exp k' + 54 - k') <= 5 ^ k' /\ separates (5 ^ k') (2 ^ (up_exp k' - k')) c = true.
Proof.
  induction l as [|c t IH]; intros k P i H Hk EP Hi; [cbn in Hi; lia|]. cbn [check_up] in H. cbv zeta in H. repeat rewrite andb_true_iff in H.
  destruct H as (((H1 & H2) & H3) & H4). apply Z.leb_le in H1, H2. rewrite !Z.shiftl_1_l in *.
  destruct (Z.eq_dec i 0) as [->|Ni].
  - exists c. cbv zeta. rewrite Z.add_0_r, <- EP. auto.
  - cbn [length] in Hi. destruct (IH (k + 1) (5 * P) (i - 1) H4 ltac:(lia)) as (c' & IH').
    + rewrite EP. rewrite Z.pow_add_r by lia. ring.
    + lia.
    + replace (k + 1 + (i - 1)) with (k + i) in IH' by lia. exists c'. exact IH'.
Qed.

Lemma check_down_nth l : forall k P i, check_down l k P = true -> 0 <= k -> P = 5 ^ k -> 0 <= i < Z.of_nat (length l) ->
  exists c, let k' := k + i in k' <= down_exp k' /\ 54 <= down_exp k' + 1 - k' /\ 5 ^ k' < 2 ^ (down_exp k' + 1 - k' - 54) /\ separates (2 ^ (down_exp k' - k')) (5 ^ k') c = true.
Proof.
  induction l as [|c t IH]; intros k P i H Hk EP Hi; [cbn in Hi; lia|]. cbn [check_down] in H. cbv zeta in H. repeat rewrite andb_true_iff in H.
  destruct H as ((((H1 & H0) & H2) & H3) & H4). apply Z.leb_le in H1, H0. apply Z.ltb_lt in H2. rewrite !Z.shiftl_1_l in *.
  destruct (Z.eq_dec i 0) as [->|Ni].
  - exists c. cbv zeta. rewrite Z.add_0_r, <- EP. auto.
  - cbn [length] in Hi. destruct (IH (k + 1) (5 * P) (i - 1) H4 ltac:(lia)) as (c' & IH').
    + rewrite EP. rewrite Z.pow_add_r by lia. ring.
    + lia.
    + replace (k + 1 + (i - 1)) with (k + i) in IH' by lia. exists c'. exact IH'.
Qed.

(** * Integers *)
Lemma ten_pow k : 0 <= k -> 10 ^ k = 5 ^ k * 2 ^ k.
Proof. intros H. rewrite <- Z.pow_mul_l. reflexivity. Qed.
Lemma big_gap : 2 ^ 328 < 10 ^ 100. Proof. reflexivity. Qed.

(** 2^(c - k) m and 5^k n, for k >= 0 and c >= k. *)
Lemma gap_up m c n k : 0 < m < 2 ^ 53 -> c <= 971 -> 0 < n < 10 ^ 17 -> 0 <= k <= c ->
  Z.abs (m * 2 ^ (c - k) - n * 5 ^ k) * 10 ^ 100 <= n * 5 ^ k -> m * 2 ^ (c - k) = n * 5 ^ k.
Proof.
  intros Hm Hc Hn Hk H. set (D := m * 2 ^ (c - k) - n * 5 ^ k) in *. set (T := 10 ^ 100) in *.
  assert (P5 : 0 < 5 ^ k) by (apply Z.pow_pos_nonneg; lia).
  destruct (Z.eq_dec D 0) as [E|E]; [unfold D in E; lia|exfalso].
  destruct (Z_lt_ge_dec k 118) as [L|L].
  - assert (5 ^ k <= 5 ^ 117) by (apply Z.pow_le_mono_r; lia). assert (n * 5 ^ k < 10 ^ 17 * 5 ^ 117) by nia.
    assert (10 ^ 17 * 5 ^ 117 < T) by reflexivity. assert (1 <= Z.abs D) by lia. nia.
  - assert (Hk2 : k <= 308).
    { destruct (Z_le_gt_dec k 308) as [|G]; [assumption|exfalso].
      assert (5 ^ 309 * 2 ^ (k - 309) <= 5 ^ k).
      { replace k with (309 + (k - 309)) at 2 by lia. rewrite Z.pow_add_r by lia. apply Z.mul_le_mono_nonneg_l; [apply Z.pow_nonneg; lia|]. apply Z.pow_le_mono_l. lia. }
      assert (m * 2 ^ (c - k) <= 2 ^ 53 * 2 ^ (971 - k)).
      { destruct (Z_le_gt_dec k 971); [|lia]. assert (2 ^ (c - k) <= 2 ^ (971 - k)) by (apply Z.pow_le_mono_r; lia). assert (0 < 2 ^ (c - k)) by (apply Z.pow_pos_nonneg; lia). nia. }
      assert (2 ^ (971 - k) <= 2 ^ (971 - 309)) by (apply Z.pow_le_mono_r; lia). assert (0 < 2 ^ (k - 309)) by (apply Z.pow_pos_nonneg; lia).
      assert (2 ^ 53 * 2 ^ (971 - 309) * 2 < 5 ^ 309) by reflexivity.
      assert (2 < T) by reflexivity. assert (2 * (m * 2 ^ (c - k)) < n * 5 ^ k) by nia. assert (Z.abs D = n * 5 ^ k - m * 2 ^ (c - k)) by (unfold D; lia). nia. }
    destruct (check_up_nth fracs_up 118 (5 ^ 118) (k - 118) up_table ltac:(lia) eq_refl) as (cf & Hf).
    { change (Z.of_nat (length fracs_up)) with 191. lia. }
    cbv zeta in Hf. replace (118 + (k - 118)) with k in Hf by lia. destruct Hf as (F1 & F2 & F3). set (e := up_exp k) in *.
    assert (He : e <= c).
    { destruct (Z_le_gt_dec e c) as [|G]; [assumption|exfalso].
      assert (2 ^ (c - k) * 2 ^ 54 * 2 <= 2 ^ (e + 54 - k)).
      { rewrite <- Z.pow_add_r by lia. rewrite Z.mul_comm, <- Z.pow_succ_r by lia. apply Z.pow_le_mono_r; lia. }
      assert (0 < 2 ^ (c - k)) by (apply Z.pow_pos_nonneg; lia). change (2 ^ 54) with (2 * 2 ^ 53) in *. assert (2 * (m * 2 ^ (c - k)) < n * 5 ^ k) by nia.
      assert (2 < T) by reflexivity. assert (Z.abs D = n * 5 ^ k - m * 2 ^ (c - k)) by (unfold D; lia). nia. }
    pose proof (separates_ok (5 ^ k) (2 ^ (e - k)) cf (m * 2 ^ (c - e)) n P5 ltac:(apply Z.pow_pos_nonneg; lia) F3 Hn) as K.
    replace (m * 2 ^ (c - e) * 2 ^ (e - k)) with (m * 2 ^ (c - k)) in K by (rewrite <- Z.mul_assoc, <- Z.pow_add_r by lia; do 2 f_equal; lia).
    fold D in K. pose proof big_gap as BG. fold T in BG. set (E2 := 2 ^ 328) in *. assert (0 < Z.abs D) by lia. nia.
Qed.

(** 5^k m and 2^(c - k) n, for the powers -k and -c. *)
Lemma gap_down m c n k : 0 < m < 2 ^ 53 -> c <= 1074 -> 0 < n < 10 ^ 17 -> 0 <= k <= c ->
  Z.abs (m * 5 ^ k - n * 2 ^ (c - k)) * 10 ^ 100 <= n * 2 ^ (c - k) -> m * 5 ^ k = n * 2 ^ (c - k).
Proof.
  intros Hm Hc Hn Hk H. set (D := m * 5 ^ k - n * 2 ^ (c - k)) in *. set (T := 10 ^ 100) in *.
  assert (P5 : 0 < 5 ^ k) by (apply Z.pow_pos_nonneg; lia). assert (P2 : 0 < 2 ^ (c - k)) by (apply Z.pow_pos_nonneg; lia).
  destruct (Z.eq_dec D 0) as [E|E]; [unfold D in E; lia|exfalso]. assert (T2 : 2 < T) by reflexivity.
  assert (H2 : Z.abs D * (T - 1) <= m * 5 ^ k) by (assert (n * 2 ^ (c - k) <= m * 5 ^ k + Z.abs D) by (unfold D; lia); nia).
  destruct (Z_lt_ge_dec k 120) as [L|L].
  - assert (5 ^ k <= 5 ^ 119) by (apply Z.pow_le_mono_r; lia). assert (m * 5 ^ k < 2 ^ 53 * 5 ^ 119) by nia.
    assert (2 ^ 53 * 5 ^ 119 < T - 1) by reflexivity. assert (1 <= Z.abs D) by lia. nia.
  - assert (Hk2 : k <= 341).
    { destruct (Z_le_gt_dec k 341) as [|G]; [assumption|exfalso].
      assert (5 ^ 342 * 2 ^ (k - 342) <= 5 ^ k).
      { replace k with (342 + (k - 342)) at 2 by lia. rewrite Z.pow_add_r by lia. apply Z.mul_le_mono_nonneg_l; [apply Z.pow_nonneg; lia|]. apply Z.pow_le_mono_l. lia. }
      assert (2 ^ (c - k) <= 2 ^ (1074 - 342)) by (apply Z.pow_le_mono_r; lia). assert (0 < 2 ^ (k - 342)) by (apply Z.pow_pos_nonneg; lia).
      assert (10 ^ 17 * 2 ^ (1074 - 342) * 2 < 5 ^ 342) by reflexivity.
      assert (2 * (n * 2 ^ (c - k)) < m * 5 ^ k) by nia. assert (Z.abs D = m * 5 ^ k - n * 2 ^ (c - k)) by (unfold D; lia). nia. }
    destruct (check_down_nth fracs_down 120 (5 ^ 120) (k - 120) down_table ltac:(lia) eq_refl) as (cf & Hf).
    { change (Z.of_nat (length fracs_down)) with 222. lia. }
    cbv zeta in Hf. replace (120 + (k - 120)) with k in Hf by lia. destruct Hf as (F1 & F0 & F2 & F3). set (e := down_exp k) in *.
    assert (He : c <= e).
    { destruct (Z_le_gt_dec c e) as [|G]; [assumption|exfalso].
      assert (2 ^ (e + 1 - k - 54) * 2 ^ 54 <= 2 ^ (c - k)) by (rewrite <- Z.pow_add_r by lia; apply Z.pow_le_mono_r; lia).
      change (2 ^ 54) with (2 * 2 ^ 53) in *. assert (2 * (m * 5 ^ k) < n * 2 ^ (c - k)) by nia.
      assert (Z.abs D = n * 2 ^ (c - k) - m * 5 ^ k) by (unfold D; lia). nia. }
    pose proof (separates_ok (2 ^ (e - k)) (5 ^ k) cf (m * 2 ^ (e - c)) n ltac:(apply Z.pow_pos_nonneg; lia) P5 F3 Hn) as K.
    assert (Q : 0 < 2 ^ (e - c)) by (apply Z.pow_pos_nonneg; lia).
    replace (2 ^ (e - k)) with (2 ^ (e - c) * 2 ^ (c - k)) in K by (rewrite <- Z.pow_add_r by lia; f_equal; lia).
    replace (m * 2 ^ (e - c) * 5 ^ k - n * (2 ^ (e - c) * 2 ^ (c - k))) with (2 ^ (e - c) * D) in K by (unfold D; ring).
    rewrite Z.abs_mul, (Z.abs_eq (2 ^ (e - c))) in K by lia.
    assert (K2 : 2 ^ (e - c) * (n * 2 ^ (c - k)) < 2 ^ (e - c) * (Z.abs D * 2 ^ 328)) by lia. apply Z.mul_lt_mono_pos_l in K2; [|exact Q].
    pose proof big_gap as BG. fold T in BG. set (E2 := 2 ^ 328) in *. assert (0 < Z.abs D) by lia. nia.
Qed.

(** * Real numbers *)
Lemma p10_split k : p10 k = (if 0 <=? k then IZR (5 ^ k) * p2 k else / IZR (5 ^ (- k)) * p2 k)%R.
Proof.
  destruct (Z.leb_spec 0 k).
  - rewrite <- IZR_p10, ten_pow, mult_IZR, IZR_pow2 by lia. reflexivity.
  - replace k with (- - k) at 1 by lia. unfold p10. rewrite bpow_opp. fold (p10 (- k)). rewrite <- IZR_p10, ten_pow, mult_IZR, IZR_pow2 by lia.
    rewrite Rinv_mult. f_equal. unfold p2. rewrite <- bpow_opp. f_equal. lia.
Qed.

Lemma gap_real m c n k : 0 < m < 2 ^ 53 -> -1074 <= c <= 971 -> 0 < n < 10 ^ 17 ->
  (Rabs (IZR m * p2 c - IZR n * p10 k) * IZR (10 ^ 100) <= IZR n * p10 k)%R -> (IZR m * p2 c = IZR n * p10 k)%R.
Proof.
  intros Hm Hc Hn H.
  (* with the common factor f, the integers a and b *)
  assert (R : forall f a b, (0 < f)%R -> (IZR m * p2 c = IZR a * f)%R -> (IZR n * p10 k = IZR b * f)%R ->
     (Z.abs (a - b) * 10 ^ 100 <= b -> a = b) -> (IZR m * p2 c = IZR n * p10 k)%R).
  { intros f a b Hf Ea Eb I. rewrite Ea, Eb in *. replace (IZR a * f - IZR b * f)%R with (IZR (a - b) * f)%R in H by (rewrite minus_IZR; ring).
    rewrite Rabs_mult, (Rabs_pos_eq f), <- abs_IZR in H by lra. rewrite (I); [reflexivity|]. apply le_IZR. rewrite mult_IZR.
    apply Rmult_le_reg_r with f; [exact Hf|]. eapply Rle_trans; [|exact H]. right. ring. }
  set (T := 10 ^ 100) in *. assert (T2 : 2 < T) by reflexivity.
  assert (P : forall x y, 0 <= y -> (IZR (x * 2 ^ y) = IZR x * p2 y)%R) by (intros; rewrite mult_IZR, IZR_pow2 by lia; reflexivity).
  rewrite p10_split in *. destruct (Z.leb_spec 0 k) as [Lk|Lk].
  - destruct (Z_le_gt_dec k c) as [L|L].
    + apply (R (p2 k) (m * 2 ^ (c - k)) (n * 5 ^ k)); [apply p2_pos| | |apply gap_up; lia].
      * rewrite P, Rmult_assoc, <- p2_plus by lia. do 2 f_equal. lia.
      * rewrite mult_IZR. ring.
    + apply (R (p2 c) m (n * 5 ^ k * 2 ^ (k - c))); [apply p2_pos|reflexivity| |].
      * rewrite P, mult_IZR, Rmult_assoc, <- p2_plus by lia. rewrite <- Rmult_assoc. do 2 f_equal. lia.
      * intros I. set (b := n * 5 ^ k * 2 ^ (k - c)) in *. assert (2 ^ 53 < T - 1) by reflexivity.
        destruct (Z.eq_dec m b) as [|N]; [assumption|exfalso]. assert (b <= m + Z.abs (m - b)) by lia. assert (1 <= Z.abs (m - b)) by lia. nia.
  - assert (P5 : 0 < 5 ^ (- k)) by (apply Z.pow_pos_nonneg; lia). assert (P5R : (IZR (5 ^ (- k)) <> 0)%R) by (apply IZR_neq; lia).
    assert (IP : (0 < / IZR (5 ^ (- k)))%R) by (apply Rinv_0_lt_compat, IZR_lt; lia).
    destruct (Z_le_gt_dec k c) as [L|L].
    + apply (R (/ IZR (5 ^ (- k)) * p2 k)%R (m * 5 ^ (- k) * 2 ^ (c - k)) n); [apply Rmult_lt_0_compat; [exact IP|apply p2_pos]| |reflexivity|].
      * rewrite P, mult_IZR by lia. replace (p2 c) with (p2 (c - k) * p2 k)%R by (rewrite <- p2_plus; f_equal; lia). field. exact P5R.
      * intros I. set (a := m * 5 ^ (- k) * 2 ^ (c - k)) in *. assert (10 ^ 17 < T) by reflexivity.
        destruct (Z.eq_dec a n) as [|N]; [assumption|exfalso]. assert (1 <= Z.abs (a - n)) by lia. nia.
    + apply (R (/ IZR (5 ^ (- k)) * p2 c)%R (m * 5 ^ (- k)) (n * 2 ^ (- c - - k))); [apply Rmult_lt_0_compat; [exact IP|apply p2_pos]| | |apply gap_down; lia].
      * rewrite mult_IZR. field. exact P5R.
      * rewrite P by lia. replace (p2 k) with (p2 (- c - - k) * p2 c)%R by (rewrite <- p2_plus; f_equal; lia). ring.
Qed.

(** A float64 whose first 101 digits end in zeros after the 17th has no more digits. *)
Lemma sig101 v : (0 <= v)%R -> fits 52 11 v -> sig_digits 17 (sig_round 101 v) -> sig_round 101 v = v.
Proof.
  intros V F S. destruct (Req_dec v 0) as [->|Nv]; [apply round_0, valid_rnd_N|].
  assert (Q : exists m c, 0 < m < 2 ^ 53 /\ -1074 <= c <= 971 /\ v = (IZR m * p2 c)%R).
  { destruct F as [(M & c & EM & HM & Hc) Hv]. rewrite Rabs_pos_eq in Hv by exact V. change (2 ^ (52 + 1)) with (2 ^ 53) in HM. change (2 - 2 ^ (11 - 1) - 52) with (-1074) in Hc. change (2 ^ (11 - 1)) with 1024 in Hv.
    pose proof (p2_pos c) as Pc. assert (M0 : 0 < M) by (apply lt_IZR; apply Rmult_lt_reg_r with (p2 c); [exact Pc|]; lra).
    destruct (Z_le_gt_dec c 971) as [L|L]; [exists M, c; split; [lia|]; split; [lia|exact EM]|].
    exists (M * 2 ^ (c - 971)), 971. assert (E : v = (IZR (M * 2 ^ (c - 971)) * p2 971)%R).
    { rewrite mult_IZR, IZR_pow2, Rmult_assoc, <- p2_plus by lia. rewrite EM. do 2 f_equal. lia. }
    split; [split; [apply Z.mul_pos_pos; [exact M0|apply Z.pow_pos_nonneg; lia]|]|split; [lia|exact E]].
    apply lt_IZR. apply Rmult_lt_reg_r with (p2 971); [apply p2_pos|]. rewrite <- E, (IZR_pow2 53), <- p2_plus by lia. exact Hv. }
  destruct Q as (m & c & Hm & Hc & Ev). destruct S as (n & k & En & Hn).
  assert (PG : Prec_gt_0 101) by reflexivity. assert (VE : Valid_exp (FLX_exp 101)) by (apply FLX_exp_valid; exact PG).
  assert (D : (Rabs (sig_round 101 v - v) <= / 2 * (v * p10 (-100)))%R).
  { apply Rle_trans with (/ 2 * ulp radix10 (FLX_exp 101) v)%R; [apply error_le_half_ulp; exact VE|]. apply Rmult_le_compat_l; [lra|].
    pose proof (ulp_FLX_le radix10 101 v) as U. rewrite Rabs_pos_eq in U by exact V. exact U. }
  rewrite En in *. set (y := (IZR n * p10 k)%R) in *. assert (PT : (p10 (-100) = / IZR (10 ^ 100))%R) by (rewrite IZR_p10 by lia; unfold p10; rewrite <- bpow_opp; reflexivity).
  assert (PT2 : (2 < IZR (10 ^ 100))%R) by (apply IZR_lt; reflexivity). rewrite PT in D. set (T := IZR (10 ^ 100)) in *.
  assert (IT : (0 < / T < / 2)%R) by (split; [apply Rinv_0_lt_compat; lra|apply Rinv_lt_contravar; lra]).
  assert (D2 : (Rabs (v - y) * T <= / 2 * v)%R).
  { rewrite Rabs_minus_sym. apply Rle_trans with (/ 2 * (v * / T) * T)%R; [apply Rmult_le_compat_r; lra|]. right. field. lra. }
  assert (D3 : (Rabs (v - y) <= / 4 * v)%R).
  { rewrite Rabs_minus_sym. apply Rle_trans with (1 := D). replace (/ 4 * v)%R with (/ 2 * (v * / 2))%R by field. apply Rmult_le_compat_l; [lra|]. apply Rmult_le_compat_l; lra. }
  apply Rabs_le_inv in D3. assert (Y : (0 < y)%R) by lra.
  assert (N0 : 0 < n) by (apply lt_IZR; apply Rmult_lt_reg_r with (p10 k); [apply p10_pos|]; fold y; lra).
  assert (D4 : (Rabs (v - y) * T <= y)%R) by lra. rewrite Ev in D4 |- *. symmetry. apply gap_real; [exact Hm|exact Hc|lia|exact D4].
Qed.
