(** IsExact16, IsExact32 and IsExact64. *)
From Coq Require Import ZArith Znumtheory Zpow_facts Reals String List Bool Lia Lra.
From Flocq Require Import Core.
From Verif Require Import GoBase Spec SpecText SpecDec SpecFtoa BitFacts RoundFacts IeeeFacts BigFacts BigFacts2 ItoaFacts DecFacts DecFacts2 ExtFixed ExtShort FtoaFixed FtoaShort FloatMid FtoaAll ClaimsFtoa.
From Verif Require BigFloat Ftoa.
From Verif Require Import FloatPkg PkgText.
From Verif Require Import SpecFmt.
Import ListNotations.
Open Scope Z_scope.

Local Notation len l := (Z.of_nat (length l)).

(** * Decimals and binary floats close to each other *)
Lemma sig_format n v : 0 < n -> sig_digits n v -> generic_format radix10 (FLX_exp n) v.
Proof.
  intros Hn (M & e & E & H). apply generic_format_FLX. exists (Float radix10 M e); [exact E|]. cbn [Fnum]. change (Z.pow_pos) with Z.pow_pos. exact H.
Qed.

Lemma format_sig n v : 0 < n -> generic_format radix10 (FLX_exp n) v -> sig_digits n v.
Proof.
  intros Hn H. apply FLX_format_generic in H; [|exact Hn]. destruct H as [[M e] E H]. exists M, e. split; [exact E|exact H].
Qed.

Lemma sig_round_id n v : 0 < n -> sig_digits n v -> sig_round n v = v.
Proof. intros Hn H. apply round_generic; [apply valid_rnd_N|apply sig_format; assumption]. Qed.

Lemma sig_round_sig n v : 0 < n -> sig_digits n (sig_round n v).
Proof.
  intros Hn. apply format_sig; [exact Hn|]. assert (Valid_exp (FLX_exp n)) by (apply FLX_exp_valid; exact Hn). apply generic_format_round; [assumption|apply valid_rnd_N].
Qed.

Lemma sig_apart n v y : 0 < n -> sig_digits n v -> sig_digits n y -> (0 < v)%R -> y <> v -> (v * p10 (- n) <= Rabs (y - v))%R.
Proof.
  intros Hn Hv Hy V N. apply sig_format in Hv; [|exact Hn]. apply sig_format in Hy; [|exact Hn].
  assert (P : Prec_gt_0 n) by exact Hn. assert (VE : Valid_exp (FLX_exp n)) by (apply FLX_exp_valid; exact P).
  assert (Hk : (bpow radix10 (mag radix10 v - 1) <= v < bpow radix10 (mag radix10 v))%R).
  { pose proof (bpow_mag_le radix10 v ltac:(lra)) as K1. pose proof (bpow_mag_gt radix10 v) as K2. rewrite Rabs_pos_eq in K1, K2 by lra. split; assumption. }
  assert (Mk : exists k, mag radix10 v = k :> Z) by (eexists; reflexivity). destruct Mk as [k Mk]. rewrite Mk in Hk.
  destruct (Rdichotomy _ _ N) as [L|L].
  - pose proof (pred_ge_gt radix10 (FLX_exp n) y v Hy Hv L) as G. rewrite pred_eq_pos in G by lra. unfold pred_pos in G. rewrite Mk in G.
    rewrite Rabs_left by lra. destruct (Req_bool_spec v (bpow radix10 (k - 1))) as [E|E].
    + unfold FLX_exp in G. rewrite E at 1. unfold p10. rewrite <- bpow_plus. replace (k - 1 + - n) with (k - 1 - n) by lia. lra.
    + rewrite ulp_neq_0 in G by lra. unfold cexp in G. rewrite Mk in G. unfold FLX_exp in G.
      apply Rle_trans with (bpow radix10 (k - n)); [|lra]. replace (k - n) with (k + - n) by lia. rewrite bpow_plus. apply Rmult_le_compat_r; [apply bpow_ge_0|lra].
  - pose proof (succ_le_lt radix10 (FLX_exp n) v y Hv Hy L) as G. rewrite succ_eq_pos in G by lra.
    rewrite ulp_neq_0 in G by lra. unfold cexp in G. rewrite Mk in G. unfold FLX_exp in G. rewrite Rabs_pos_eq by lra.
    apply Rle_trans with (bpow radix10 (k - n)); [|lra]. replace (k - n) with (k + - n) by lia. rewrite bpow_plus. apply Rmult_le_compat_r; [apply bpow_ge_0|lra].
Qed.

Lemma rn_close mb eb v y : 1 <= mb -> rn mb eb y = v -> (Rabs (y - v) <= / 2 * ulp radix2 (fx mb eb) v)%R.
Proof.
  intros Hm H. assert (P : Prec_gt_0 (mb + 1)) by (unfold Prec_gt_0; lia).
  assert (VE : Valid_exp (fx mb eb)) by (apply FLT_exp_valid; exact P). assert (ME : Monotone_exp (fx mb eb)) by (apply FLT_exp_monotone).
  rewrite Rabs_minus_sym. rewrite <- H. apply (error_le_half_ulp_round radix2 (fx mb eb)).
Qed.

Lemma rn_close_rel mb eb v y : 1 <= mb -> (p2 (2 - 2 ^ (eb - 1)) <= v)%R -> rn mb eb y = v -> (Rabs (y - v) <= v * p2 (- (mb + 1)))%R.
Proof.
  intros Hm Hv H. assert (P : Prec_gt_0 (mb + 1)) by (unfold Prec_gt_0; lia). pose proof (p2_pos (2 - 2 ^ (eb - 1))).
  apply Rle_trans with (1 := rn_close mb eb v y Hm H). unfold fx.
  pose proof (ulp_FLT_le radix2 (3 - 2 ^ (eb - 1) - (mb + 1)) (mb + 1) v) as U. rewrite Rabs_pos_eq in U by lra.
  specialize (U ltac:(replace (3 - 2 ^ (eb - 1) - (mb + 1) + (mb + 1) - 1) with (2 - 2 ^ (eb - 1)) by lia; exact Hv)).
  replace (- (mb + 1)) with (1 - (mb + 1) - 1) by lia. rewrite p2_half. unfold Rdiv. change (p2 (1 - (mb + 1))) with (bpow radix2 (1 - (mb + 1))). lra.
Qed.

Lemma gauss5 a M N k : 0 <= a -> 0 <= k -> M * 2 ^ k = N * 5 ^ a -> (5 ^ a | M).
Proof.
  intros Ha Hk H. apply Gauss with (2 ^ k).
  - exists N. rewrite Z.mul_comm. exact H.
  - apply rel_prime_Zpower; try lia. apply rel_prime_sym, prime_rel_prime; [apply prime_2|]. intros [q Hq]. lia.
Qed.

(** A float with n decimal digits is an integer or a binary fraction with few bits. *)
Lemma sig_dyadic mb eb n v : (0 < v)%R -> fits mb eb v -> sig_digits n v ->
  (exists N, 0 < N /\ v = IZR N) \/ exists K a, 0 < a /\ 0 < K /\ v = (IZR K * p2 (- a))%R /\ K * 5 ^ a < 10 ^ n.
Proof.
  intros V [(N & c & EN & _) _] (M & q & EM & HM).
  assert (M0 : 0 < M). { apply lt_IZR. apply Rmult_lt_reg_r with (p10 q); [apply p10_pos|]. rewrite Rmult_0_l, <- EM. exact V. }
  destruct (Z_le_gt_dec 0 q) as [Q|Q].
  - left. exists (M * 10 ^ q). split; [pose proof (pow10_pos q Q); nia|]. rewrite mult_IZR, IZR_p10 by lia. exact EM.
  - right. set (a := - q). assert (Pa : 0 < a) by (unfold a; lia).
    assert (D : (5 ^ a | M)).
    { set (k := Z.max 0 (- c)). apply (gauss5 a M (N * 2 ^ (a + c + k)) k); [lia|unfold k; lia|].
      assert (Kc : 0 <= c + k) by (unfold k; lia). assert (Kk : 0 <= k) by (unfold k; lia).
      apply eq_IZR. rewrite !mult_IZR, !IZR_pow2 by lia.
      assert (T : (IZR M = IZR N * p2 (c + a) * IZR (5 ^ a))%R).
      { rewrite EN in EM. apply Rmult_eq_reg_r with (p10 q); [|apply Rgt_not_eq, p10_pos]. rewrite <- EM. rewrite p2_plus.
        assert (O : (p2 a * IZR (5 ^ a) * p10 q = 1)%R).
        { rewrite <- (IZR_pow2 a), <- mult_IZR, <- Z.pow_mul_l by lia. change (2 * 5) with 10. rewrite (IZR_p10 a), <- p10_plus by lia. replace (a + q) with 0 by (unfold a; lia). apply p10_0. }
        replace (IZR N * (p2 c * p2 a) * IZR (5 ^ a) * p10 q)%R with (IZR N * p2 c * (p2 a * IZR (5 ^ a) * p10 q))%R by ring. rewrite O. ring. }
      rewrite T. replace (a + c + k) with (c + a + k) by lia. rewrite (p2_plus (c + a)). ring. }
    destruct D as [K HK]. assert (P5 : 0 < 5 ^ a) by (apply Z.pow_pos_nonneg; lia). exists K, a. split; [exact Pa|].
    split; [destruct (Z_le_gt_dec K 0); [exfalso|lia]; assert (K * 5 ^ a <= 0) by (apply Z.mul_nonpos_nonneg; lia); lia|]. split; [|lia].
    rewrite EM, HK, mult_IZR, Rmult_assoc. f_equal. replace q with (- a) by (unfold a; lia).
    apply Rmult_eq_reg_r with (p10 a); [|apply Rgt_not_eq, p10_pos]. rewrite Rmult_assoc, <- p10_plus. replace (- a + a) with 0 by lia. rewrite p10_0, Rmult_1_r.
    rewrite <- (IZR_p10 a) by lia. change 10 with (2 * 5). rewrite Z.pow_mul_l, mult_IZR, IZR_pow2, <- Rmult_assoc, <- p2_plus by lia. replace (- a + a) with 0 by lia. change (p2 0) with 1%R. ring.
Qed.

(** A float with few decimal digits is not subnormal. *)
Lemma sig_normal mb eb n v : 2 <= eb -> 10 ^ n <= 5 ^ (2 ^ (eb - 1) - 1) -> (0 < v)%R -> fits mb eb v -> sig_digits n v ->
  (p2 (2 - 2 ^ (eb - 1)) <= v)%R.
Proof.
  intros Heb H5 V F S. assert (P2 : 2 <= 2 ^ (eb - 1)) by (change 2 with (2 ^ 1) at 1; apply Z.pow_le_mono_r; lia).
  destruct (sig_dyadic mb eb n v V F S) as [(N & N0 & ->)|(K & a & Pa & K0 & E & HK)].
  - apply Rle_trans with 1%R; [change 1%R with (p2 0); apply p2_le; lia|]. apply IZR_le. lia.
  - assert (P5 : 0 < 5 ^ a) by (apply Z.pow_pos_nonneg; lia).
    assert (La : a <= 2 ^ (eb - 1) - 2).
    { destruct (Z_le_gt_dec a (2 ^ (eb - 1) - 2)) as [|G]; [assumption|]. exfalso. assert (5 ^ (2 ^ (eb - 1) - 1) <= 5 ^ a) by (apply Z.pow_le_mono_r; lia).
      assert (1 * 5 ^ a <= K * 5 ^ a) by (apply Z.mul_le_mono_nonneg_r; lia). lia. }
    apply Rle_trans with (p2 (- a)); [apply p2_le; lia|]. rewrite E. rewrite <- (Rmult_1_l (p2 (- a))) at 1. apply Rmult_le_compat_r; [apply Rlt_le, p2_pos|]. apply IZR_le. lia.
Qed.

Lemma fewest_zero mb eb y : fewest_digits mb eb 0 y -> y = 0%R.
Proof.
  intros H. destruct (H 0%R 0 (rn_0 mb eb)) as (M & e & E & HM); [exists 0, 0; split; [lra|lia]|].
  assert (M = 0) by (change (10 ^ 0) with 1 in HM; lia). subst M. rewrite E. ring.
Qed.

Lemma short_exact mb eb n v y : 1 <= mb -> 2 <= eb -> 0 < n -> 10 ^ n < 2 ^ (mb + 1) -> 10 ^ n <= 5 ^ (2 ^ (eb - 1) - 1) -> (0 <= v)%R ->
  fits mb eb v -> sig_digits n v -> rn mb eb y = v -> fewest_digits mb eb v y -> y = v.
Proof.
  intros Hmb Heb Hn H2 H5 V F S R W. destruct (Req_dec v 0) as [->|Nv]; [apply (fewest_zero mb eb), W|].
  destruct (Req_dec y v) as [|Ny]; [assumption|exfalso].
  assert (Sy : sig_digits n y) by (apply (W v n); [apply fits_rn; [lia|exact F]|exact S]).
  assert (PV : (0 < v)%R) by lra.
  pose proof (sig_apart n v y Hn S Sy PV Ny) as A. pose proof (rn_close_rel mb eb v y Hmb (sig_normal mb eb n v Heb H5 PV F S) R) as C.
  assert (K : (p10 (- n) <= p2 (- (mb + 1)))%R) by (apply Rmult_le_reg_l with v; [exact PV|]; lra).
  apply (Rlt_not_le _ _ (IZR_lt _ _ H2)). rewrite IZR_p10, IZR_pow2 by lia.
  assert (E1 : (p10 n * p10 (- n) = 1)%R) by (rewrite <- p10_plus; replace (n + - n) with 0 by lia; apply p10_0).
  assert (E2 : (p2 (mb + 1) * p2 (- (mb + 1)) = 1)%R) by (rewrite <- p2_plus; replace (mb + 1 + - (mb + 1)) with 0 by lia; reflexivity).
  pose proof (p10_pos n). pose proof (p2_pos (mb + 1)). pose proof (p10_pos (- n)). pose proof (p2_pos (- (mb + 1))).
  apply Rmult_le_reg_r with (p10 (- n)); [assumption|]. rewrite E1, <- E2. apply Rmult_le_compat_l; lra.
Qed.

Lemma fits_int mb eb N : 1 <= mb -> mb + 1 <= 2 ^ (eb - 1) -> Z.abs N < 2 ^ (mb + 1) -> fits mb eb (IZR N).
Proof.
  intros Hmb He H. split.
  - exists N, 0. split; [change (p2 0) with 1%R; ring|]. lia.
  - rewrite <- abs_IZR. apply Rlt_le_trans with (IZR (2 ^ (mb + 1))); [apply IZR_lt; exact H|]. rewrite IZR_pow2 by lia. apply p2_le. exact He.
Qed.

Lemma ulp_int mb eb v : 1 <= mb -> mb + 1 <= 2 ^ (eb - 1) -> (1 <= v < p2 (mb + 1))%R -> (ulp radix2 (fx mb eb) v <= 1)%R.
Proof.
  intros Hmb He H. rewrite ulp_neq_0 by lra. unfold cexp. change 1%R with (bpow radix2 0). apply bpow_le. unfold fx, FLT_exp.
  assert (mag radix2 v <= mb + 1) by (apply mag_le_bpow; [lra|rewrite Rabs_pos_eq by lra; apply H]). lia.
Qed.

Lemma short_int mb eb N y : 4 <= mb -> 2 <= eb -> mb + 1 <= 2 ^ (eb - 1) -> 0 <= N < 2 ^ (mb + 1) ->
  rn mb eb y = IZR N -> (0 <= y)%R -> fewest_digits mb eb (IZR N) y -> y = IZR N.
Proof.
  intros Hmb Heb He HN R Y W. assert (F : fits mb eb (IZR N)) by (apply fits_int; lia).
  destruct (Z.eq_dec N 0) as [->|N0]; [apply (fewest_zero mb eb), W|].
  destruct (ndigits_range N ltac:(lia)) as (K1 & K2). set (n := GoFmt.ndigits N) in *.
  assert (T : forall n, 0 <= n -> 10 ^ n <= N -> 10 ^ n < 2 ^ (mb + 1)) by (intros; lia).
  destruct (Z.eq_dec N (10 ^ (n - 1))) as [E|E].
  - apply (short_exact mb eb 1); try lia; auto.
    + apply Z.lt_le_trans with (2 ^ 5); [reflexivity|]. apply Z.pow_le_mono_r; lia.
    + apply Z.le_trans with (5 ^ 2); [cbn; lia|]. apply Z.pow_le_mono_r; lia.
    + apply IZR_le. lia.
    + exists 1, (n - 1). split; [|cbn; lia]. rewrite <- IZR_p10, <- E by lia. ring.
  - assert (Sy : sig_digits n y).
    { apply (W (IZR N) n); [apply fits_rn; [lia|exact F]|]. exists N, 0. split; [rewrite p10_0; ring|]. lia. }
    pose proof (rn_close mb eb (IZR N) y ltac:(lia) R) as C.
    assert (U : (ulp radix2 (fx mb eb) (IZR N) <= 1)%R).
    { apply ulp_int; [lia|exact He|]. split; [apply IZR_le; lia|]. rewrite <- IZR_pow2 by lia. apply IZR_lt. lia. }
    assert (C2 : (Rabs (y - IZR N) <= / 2)%R) by lra. apply Rabs_le_inv in C2.
    assert (L : (p10 (0 + n - 1) <= y)%R).
    { replace (0 + n - 1) with (n - 1) by lia. rewrite <- IZR_p10 by lia. assert (10 ^ (n - 1) <= N - 1) as L by lia. apply IZR_le in L. rewrite minus_IZR in L. lra. }
    destruct (sig_multiple n y 0 ltac:(lia) Sy L) as [q Hq]. rewrite p10_0, Rmult_1_r in Hq. rewrite Hq in *. f_equal.
    assert (q < N + 1) by (apply lt_IZR; rewrite plus_IZR; lra). assert (N - 1 < q) by (apply lt_IZR; rewrite minus_IZR; lra). lia.
Qed.

(** n digits are enough for every float. *)
Lemma digits_enough mb eb n mt e : 1 <= mb -> 2 <= eb -> 0 < n -> 2 ^ (mb + 1) < 10 ^ (n - 1) -> float_parts mb eb mt e ->
  let v := (IZR mt * p2 (e - mb))%R in rn mb eb (sig_round n v) = v.
Proof.
  intros Hmb Heb Hn H Hp v. destruct (Z.eq_dec mt 0) as [M0|M0].
  { unfold v. rewrite M0, Rmult_0_l, sig_round_0. apply rn_0. }
  assert (Hmt : 0 < mt) by (destruct Hp as [[? ?]|[? ?]]; pose proof (pow2_pos mb ltac:(lia)); lia).
  pose proof (parts_weaken _ _ _ _ Hp) as Hp0. pose proof (parts_pos mb mt e Hmt) as V0.
  fold v in V0.
  assert (D : (Rabs (sig_round n v - v) < v * p2 (- (mb + 1)) / 2)%R).
  { assert (P : Prec_gt_0 n) by exact Hn. assert (VE : Valid_exp (FLX_exp n)) by (apply FLX_exp_valid; exact P).
    apply Rle_lt_trans with (/ 2 * ulp radix10 (FLX_exp n) v)%R; [apply error_le_half_ulp; exact VE|].
    pose proof (ulp_FLX_le radix10 n v) as U. rewrite Rabs_pos_eq in U by lra.
    assert (K : (bpow radix10 (1 - n) < p2 (- (mb + 1)))%R).
    { replace (1 - n) with (- (n - 1)) by lia. rewrite bpow_opp. unfold p2. rewrite bpow_opp. apply Rinv_lt_contravar; [apply Rmult_lt_0_compat; apply bpow_gt_0|].
      change (p2 (mb + 1) < p10 (n - 1))%R. rewrite <- IZR_pow2, <- IZR_p10 by lia. apply IZR_lt. exact H. }
    apply Rlt_le_trans with (/ 2 * (v * p2 (- (mb + 1))))%R; [|lra]. apply Rmult_lt_compat_l; [lra|]. apply Rle_lt_trans with (1 := U). apply Rmult_lt_compat_l; assumption. }
  apply Rabs_lt_inv in D.
  assert (X1 : (v * p2 (- (mb + 1)) < p2 (e - mb))%R).
  { unfold v. rewrite Rmult_assoc, (Rmult_comm (p2 (e - mb))), <- Rmult_assoc. rewrite <- (Rmult_1_l (p2 (e - mb))) at 2. apply Rmult_lt_compat_r; [apply p2_pos|].
    apply Rmult_lt_reg_r with (p2 (mb + 1)); [apply p2_pos|]. rewrite Rmult_assoc, <- p2_plus. replace (- (mb + 1) + (mb + 1)) with 0 by lia. change (p2 0) with 1%R. rewrite Rmult_1_r, Rmult_1_l, <- IZR_pow2 by lia. apply IZR_lt.
    destruct Hp as [[? ?]|[? ?]]; [lia|]. rewrite Z.pow_add_r by lia. pose proof (pow2_pos mb ltac:(lia)). lia. }
  assert (S : (mid_lo mb eb v < sig_round n v < mid_hi mb eb v)%R).
  { unfold v in *. rewrite (mid_hi_val mb eb Hmb Heb mt e Hp0 Hmt), (mid_lo_val mb eb Hmb Heb mt e Hp0 Hmt).
    pose proof (p2_half (e - mb)) as E1. assert (E2 : (p2 (e - mb - 2) = p2 (e - mb) / 4)%R) by (replace (e - mb - 2) with (e - mb - 1 - 1) by lia; rewrite !p2_half; lra).
    destruct (Z.eqb_spec mt (2 ^ mb)) as [Em|Em]; cbn [andb]; [|rewrite E1; lra]. destruct (negb (e =? 2 - 2 ^ (eb - 1))); [|rewrite E1; lra]. rewrite E1, E2.
    assert (X2 : (IZR mt * p2 (e - mb) * p2 (- (mb + 1)) = p2 (e - mb) / 2)%R).
    { rewrite Em, IZR_pow2 by lia. rewrite <- !p2_plus, <- E1. f_equal. lia. }
    rewrite X2 in D. lra. }
  unfold v in *. apply (reads_back mb eb Hmb Heb mt e Hp0 Hmt); [lra|left; exact S].
Qed.

(** * The comparison of texts *)
Lemma text_trim x v : wf x -> bval x = VNum (BigFloat.neg x) (sgnR (BigFloat.neg x) v) -> (0 <= v)%R ->
  exists fp t, trimZeros (GoFmt.Text_e x 100) = Ret t /\ no_zero_end fp /\ prints_e 101 (BigFloat.neg x) fp (sig_round 101 v) t.
Proof.
  intros Hw Hb Hv. destruct (Text_e_ok x 100 v Hw ltac:(lia) Hb Hv) as (fp & L & P). change (100 + 1) with 101 in P.
  destruct (trimZeros_ok _ fp _ _ P) as (fp' & k & _ & N & t & E & P'); [left; intros ->; discriminate|]. exists fp', t. auto.
Qed.

Lemma bytes_eqb_true a b : bytes_eqb a b = true <-> a = b.
Proof. unfold bytes_eqb. destruct (list_eq_dec Z.eq_dec a b); split; intros; congruence. Qed.

Lemma texts_equal s fp fp' y y' t t' : prints_e 101 s fp y t -> prints_e 101 s fp' y' t' -> no_zero_end fp -> no_zero_end fp' -> (bytes_eqb t t' = true <-> y = y').
Proof.
  intros P P' N N'. rewrite bytes_eqb_true. split; intros E.
  - subst t'. apply (prints_e_inj 101 s s fp fp' y y' t); auto.
  - subst y'. apply (prints_e_unique 101 s fp fp' y); assumption.
Qed.

Lemma bval_neg x s u : wf x -> bval x = VNum s u -> s = BigFloat.neg x /\ u = sgnR s (Rabs u).
Proof.
  intros [_ W]. unfold bval. destruct (BigFloat.frm x) as [|m e|]; intros H; [| |discriminate]; injection H as <- <-; (split; [reflexivity|]).
  - rewrite Rabs_R0. destruct (BigFloat.neg x); cbn [sgnR]; lra.
  - assert (0 <= IZR m * p2 e)%R by (apply Rmult_le_pos; [apply IZR_le; lia|apply Rlt_le, p2_pos]).
    destruct (BigFloat.neg x); cbn [sgnR]; [rewrite Rabs_Ropp|]; rewrite Rabs_pos_eq by assumption; reflexivity.
Qed.

(** Digits that are always enough. *)
Definition enough (mb : Z) : Z := if mb =? 52 then 17 else if mb =? 23 then 9 else 5.

Lemma enough_as bitSize val mb eb b s v : as_float bitSize val mb eb b s -> ieee mb eb b = VNum s (sgnR s v) ->
  rn mb eb (sig_round (enough mb) v) = v.
Proof.
  intros Ha Hx. destruct (decode_as 64 true [] val 101 (-1) bitSize b mb eb s v ltac:(auto) Ha Hx) as (flt & mt & e & Hf & Hp & -> & _).
  destruct Hf as [(_ & -> & ->)|[(_ & -> & ->)|(_ & -> & ->)]]; apply digits_enough; auto; try lia; reflexivity.
Qed.

(** What the code compares: the shortest text of the float and 101 digits of the number. *)
Lemma compared w opt bitSize val mb eb b s v x u : w = 32 \/ w = 64 -> as_float bitSize val mb eb b s -> ieee mb eb b = VNum s (sgnR s v) ->
  wf x -> bval x = VNum s u ->
  exists y c, (s1 <- Ftoa.FormatFloat w opt val Ftoa.ch_e (-1) bitSize ;; s2 <- trimZeros (GoFmt.Text_e x 100) ;; Ret (bytes_eqb s1 s2)) = Ret c /\
    (c = true <-> y = sig_round 101 (Rabs u)) /\ (0 <= y)%R /\ rn mb eb y = v /\ fewest_digits mb eb v y /\ sig_digits (enough mb) y /\ last_digit_ok v y /\ chosen_digits mb eb v y.
Proof.
  intros Hw Ha Hx Wx Bx. destruct (bval_neg x s u Wx Bx) as [-> Eu]. rewrite Eu in Bx.
  destruct (text_trim x (Rabs u) Wx Bx (Rabs_pos u)) as (fp & t & E2 & N2 & P2).
  destruct (short_big w opt val 101 (-1) bitSize b mb eb _ v Hw ltac:(unfold letter; auto) ltac:(lia) Ha Hx) as (t1 & fp1 & y & E1 & N1 & P1 & Y & R & W & LD & CH).
  assert (P1' : prints_e 101 (BigFloat.neg x) fp1 y t1) by (destruct P1 as [[_ P]|[[K _]|[[K|K] _]]]; [exact P|lia..]).
  exists y, (bytes_eqb t1 t). change Ftoa.ch_e with 101. rewrite E1. cbn [bind]. rewrite E2. cbn [bind]. split; [reflexivity|].
  split; [apply (texts_equal (BigFloat.neg x) fp1 fp); assumption|]. split; [exact Y|]. split; [exact R|]. split; [exact W|]. split; [|split; [exact LD|exact CH]].
  apply (W (sig_round (enough mb) v)); [apply (enough_as bitSize val mb eb b (BigFloat.neg x)); assumption|].
  apply sig_round_sig. unfold enough. destruct (mb =? 52); [lia|]. destruct (mb =? 23); lia.
Qed.

Lemma exact_fits mb eb b a s u : 1 <= mb -> 2 <= eb -> 0 <= b < 2 ^ (mb + eb + 1) -> ieee mb eb b = ieee_round mb eb s u -> acc_ok a (ieee mb eb b) u ->
  (BigFloat.accuracy_eqb a BigFloat.Exact = true <-> fits mb eb u) /\ (fits mb eb u -> ieee mb eb b = VNum s u).
Proof.
  intros Hm He Hb Hi Ha.
  assert (F : fits mb eb u -> ieee mb eb b = VNum s u) by (intros F; rewrite Hi; apply fits_round; [lia|exact F]).
  split; [|exact F]. split; intros H.
  - destruct a; try discriminate. cbn in Ha. destruct (ieee mb eb b) as [?|?|s' y] eqn:E; try contradiction. subst y.
    apply (fits_ieee mb eb b s' u); auto; lia.
  - rewrite (F H) in Ha. destruct a; cbn in Ha; [exfalso; lra|reflexivity|exfalso; lra].
Qed.

Lemma sgn_abs s u : u = sgnR s (Rabs u) -> VNum s u = VNum s (sgnR s (Rabs u)).
Proof. intros <-. reflexivity. Qed.

Lemma fits_abs mb eb s u : u = sgnR s (Rabs u) -> fits mb eb u -> fits mb eb (Rabs u).
Proof.
  intros E [(M & c & EM & HM & Hc) H]. split; [|rewrite Rabs_Rabsolu; exact H].
  exists (Z.abs M), c. split; [|split; [lia|exact Hc]]. rewrite EM, Rabs_mult, abs_IZR. f_equal. apply Rabs_pos_eq, Rlt_le, p2_pos.
Qed.

Lemma exact64 w opt x s u : w = 32 \/ w = 64 -> wf x -> bval x = VNum s u ->
  (fits 52 11 u -> exists y c, IsExact64 w opt x = Ret c /\ (c = true <-> y = sig_round 101 (Rabs u)) /\ (0 <= y)%R /\
     rn 52 11 y = Rabs u /\ fewest_digits 52 11 (Rabs u) y /\ sig_digits 17 y /\ last_digit_ok (Rabs u) y /\ chosen_digits 52 11 (Rabs u) y) /\
  (~ fits 52 11 u -> IsExact64 w opt x = Ret false).
Proof.
  intros Hw Wx Bx. destruct (bval_neg x s u Wx Bx) as [_ Eu]. unfold IsExact64, BigFloat.Float64.
  pose proof (ToFloat_val 52 11 x ltac:(lia) ltac:(lia) ltac:(vm_compute; discriminate) Wx) as T. destruct (BigFloat.ToFloat 52 11 x) as [b a]. destruct T as [Rb T]. rewrite Bx in T. destruct T as [Ti Ta].
  destruct (exact_fits 52 11 b a s u ltac:(lia) ltac:(lia) Rb Ti Ta) as [A F]. split; intros H.
  - rewrite (proj2 A H). cbn [negb]. pose proof (F H) as Hx.
    assert (Ab : as_float 64 b 52 11 b s) by (split; [exact Rb|]; split; [exact Rb|]; exists u; split; [exact Hx|]; split; [exact Ti|]; auto).
    rewrite (sgn_abs s u Eu) in Hx. exact (compared w opt 64 b 52 11 b s (Rabs u) x u Hw Ab Hx Wx Bx).
  - destruct (BigFloat.accuracy_eqb a BigFloat.Exact); [exfalso; apply H, A; reflexivity|reflexivity].
Qed.

Lemma exact32 w opt x s u : w = 32 \/ w = 64 -> wf x -> bval x = VNum s u ->
  (fits 23 8 u -> exists y c, IsExact32 w opt x = Ret c /\ (c = true <-> y = sig_round 101 (Rabs u)) /\ (0 <= y)%R /\
     rn 23 8 y = Rabs u /\ fewest_digits 23 8 (Rabs u) y /\ sig_digits 9 y /\ last_digit_ok (Rabs u) y /\ chosen_digits 23 8 (Rabs u) y) /\
  (~ fits 23 8 u -> IsExact32 w opt x = Ret false).
Proof.
  intros Hw Wx Bx. destruct (bval_neg x s u Wx Bx) as [_ Eu]. unfold IsExact32, BigFloat.Float32.
  pose proof (ToFloat_val 23 8 x ltac:(lia) ltac:(lia) ltac:(vm_compute; discriminate) Wx) as T. destruct (BigFloat.ToFloat 23 8 x) as [b a]. destruct T as [Rb T]. rewrite Bx in T. destruct T as [Ti Ta].
  destruct (exact_fits 23 8 b a s u ltac:(lia) ltac:(lia) Rb Ti Ta) as [A F]. split; intros H.
  - rewrite (proj2 A H). cbn [negb]. pose proof (F H) as Hx. destruct (f32_to_f64_correct b Rb) as [Rf Ef].
    assert (Ab : as_float 32 (BigFloat.f32_to_f64 b) 23 8 b s).
    { split; [exact Rf|]. split; [exact Rb|]. exists u. rewrite Ef. split; [exact Hx|]. split; [exact Ti|]. auto. }
    rewrite (sgn_abs s u Eu) in Hx. exact (compared w opt 32 _ 23 8 b s (Rabs u) x u Hw Ab Hx Wx Bx).
  - destruct (BigFloat.accuracy_eqb a BigFloat.Exact); [exfalso; apply H, A; reflexivity|reflexivity].
Qed.

(** Half precision: where the conversion to it rounds correctly. *)
Lemma exact16 w opt x s u : w = 32 \/ w = 64 -> wf x -> bval x = VNum s u ->
  (fits 52 11 u -> u = 0%R \/ (p2 (-14) <= Rabs u < p2 16)%R \/ fits 10 5 u ->
     (Rabs (rn 10 5 u) < p2 16)%R -> exists y c, IsExact16 w opt x = Ret c /\ (c = true <-> y = sig_round 101 (Rabs u)) /\ (0 <= y)%R /\
       rn 10 5 y = rn 10 5 (Rabs u) /\ fewest_digits 10 5 (rn 10 5 (Rabs u)) y /\ sig_digits 5 y /\ last_digit_ok (rn 10 5 (Rabs u)) y /\ chosen_digits 10 5 (rn 10 5 (Rabs u)) y) /\
  (~ fits 52 11 u -> IsExact16 w opt x = Ret false).
Proof.
  intros Hw Wx Bx. destruct (bval_neg x s u Wx Bx) as [_ Eu]. unfold IsExact16, BigFloat.Float64.
  pose proof (ToFloat_val 52 11 x ltac:(lia) ltac:(lia) ltac:(vm_compute; discriminate) Wx) as T. destruct (BigFloat.ToFloat 52 11 x) as [val a]. destruct T as [Rb T]. rewrite Bx in T. destruct T as [Ti Ta].
  destruct (exact_fits 52 11 val a s u ltac:(lia) ltac:(lia) Rb Ti Ta) as [A F]. split; [intros H Hr Ho|intros H].
  - rewrite (proj2 A H). cbn [negb]. pose proof (F H) as Hx.
    destruct (Claims16.c05_partial val s u Rb Hx Hr) as (b & a' & _ & Rh & Eh).
    assert (Ab : as_float 16 val 10 5 b s).
    { split; [exact Rb|]. split; [exact Rh|]. exists u. split; [exact Hx|]. split; [exact Eh|]. right; right. auto. }
    assert (Hh : ieee 10 5 b = VNum s (sgnR s (rn 10 5 (Rabs u)))).
    { rewrite Eh. unfold ieee_round. change (2 ^ (5 - 1)) with 16. rewrite Rle_bool_false by exact Ho. f_equal. rewrite Eu at 1.
      destruct s; cbn [sgnR]; [unfold rn; rewrite round_NE_opp|]; reflexivity. }
    exact (compared w opt 16 val 10 5 b s _ x u Hw Ab Hh Wx Bx).
  - destruct (BigFloat.accuracy_eqb a BigFloat.Exact); [exfalso; apply H, A; reflexivity|reflexivity].
Qed.

(** Half precision, in general: the conversion gives some half precision number. *)
Lemma not_special s fp y t : prints_e 101 s fp y t -> t <> B "NaN" /\ t <> B "-Inf" /\ t <> B "+Inf".
Proof.
  intros (a & X & xs & -> & _ & A & _). assert (Aa : dig10 a) by (apply all_dig10 in A; inversion A; assumption). unfold dig10 in Aa.
  split; [|split]; destruct s; cbn [sign_text app]; intros E; injection E; intros; lia.
Qed.

Lemma exact16_any w opt x s u : w = 32 \/ w = 64 -> wf x -> bval x = VNum s u -> IsExact16 w opt x = Ret true ->
  fits 52 11 u /\ exists v, let y := sig_round 101 (Rabs u) in (0 <= v)%R /\ fits 10 5 v /\ rn 10 5 y = v /\ fewest_digits 10 5 v y /\ sig_digits 5 y.
Proof.
  intros Hw Wx Bx HE. destruct (exact16 w opt x s u Hw Wx Bx) as [_ Nf].
  destruct (bval_neg x s u Wx Bx) as [Es Eu]. pose proof Bx as Bx'. rewrite Eu, Es in Bx'. destruct (text_trim x (Rabs u) Wx Bx' (Rabs_pos u)) as (fp & t & E2 & N2 & P2).
  unfold IsExact16, BigFloat.Float64 in HE.
  pose proof (ToFloat_val 52 11 x ltac:(lia) ltac:(lia) ltac:(vm_compute; discriminate) Wx) as T. destruct (BigFloat.ToFloat 52 11 x) as [val a] eqn:ET. destruct T as [Rb T]. rewrite Bx in T. destruct T as [Ti Ta].
  destruct (exact_fits 52 11 val a s u ltac:(lia) ltac:(lia) Rb Ti Ta) as [A _]. destruct (BigFloat.accuracy_eqb a BigFloat.Exact) eqn:Ea; cbn [negb] in HE; [|discriminate].
  assert (F : fits 52 11 u) by (apply A; reflexivity). split; [exact F|].
  destruct (select_total val 16 Rb ltac:(auto)) as (b & flt & mb & eb & Hs & Hf & Hb).
  assert (Efl : mb = 10 /\ eb = 5).
  { unfold Ftoa.select in Hs. cbn [Z.eqb Pos.eqb] in Hs. destruct (Facts16.nff64_total val Rb) as (b' & a' & Eb & _). rewrite Eb in Hs. cbn [bind] in Hs. injection Hs as _ <-.
    destruct Hf as [(_ & ? & ?)|[(K & _)|(K & _)]]; [auto|discriminate|discriminate]. }
  destruct Efl as [-> ->]. pose proof (decode w val 16 b flt 10 5 Hw Hf Hb Hs) as D.
  destruct (not_special _ _ _ _ P2) as (K1 & K2 & K3). unfold Ftoa.FormatFloat in HE. change Ftoa.ch_e with 101 in HE.
  destruct (ieee 10 5 b) as [sn|si|s' z] eqn:Ez.
  - rewrite D in HE. cbn [bind app] in HE. rewrite E2 in HE. cbn [bind] in HE. injection HE as HE. apply bytes_eqb_true in HE. exfalso. apply K1. symmetry. exact HE.
  - rewrite D in HE. cbn [bind app] in HE. rewrite E2 in HE. cbn [bind] in HE. injection HE as HE. apply bytes_eqb_true in HE. exfalso. destruct si; [apply K2|apply K3]; symmetry; exact HE.
  - destruct D as (mt & e & Hp & Hz & D). rewrite D in HE. change (101 =? Ftoa.ch_b) with false in HE. cbv iota in HE.
    destruct (short_text w opt 101 (-1) s' flt 10 5 mt e Hw Hf Hp ltac:(lia) ltac:(unfold letter; auto)) as (t1 & fp1 & y & E1 & N1 & P1 & Y & R & W & _).
    set (v := (IZR mt * p2 (e - 10))%R) in *.
    assert (P1' : prints_e 101 s' fp1 y t1) by (destruct P1 as [[_ P]|[[K _]|[[K|K] _]]]; [exact P|lia..]).
    rewrite E1 in HE. cbn [bind] in HE. rewrite E2 in HE. cbn [bind] in HE. injection HE as HE. apply bytes_eqb_true in HE. subst t1.
    destruct (prints_e_inj 101 s' _ fp1 fp y (sig_round 101 (Rabs u)) t ltac:(auto) P1' P2) as (_ & <- & _).
    assert (V0 : (0 <= v)%R) by (apply Rmult_le_pos; [apply IZR_le; destruct Hp as [[? _]|[? _]]; lia|apply Rlt_le, p2_pos]).
    exists v. cbv zeta. split; [exact V0|]. split; [|split; [exact R|]; split; [exact W|]].
    + destruct (fits_ieee 10 5 b s' z ltac:(lia) ltac:(lia) Hb Ez) as [Fz _]. rewrite Hz in Fz. destruct s'; cbn [sgnR] in Fz; [|exact Fz].
      apply (fits_abs 10 5 true) in Fz; [|cbn [sgnR]; rewrite Rabs_Ropp, Rabs_pos_eq by exact V0; reflexivity]. rewrite Rabs_Ropp, Rabs_pos_eq in Fz by exact V0. exact Fz.
    + apply (W (sig_round 5 v)); [|apply sig_round_sig; lia]. apply digits_enough; auto; lia.
Qed.

Lemma sig_round_pos_bounds n v : 0 < n -> (0 < v)%R -> exists q, (p10 (q - 1) <= v < p10 q)%R /\ (p10 (q - 1) <= sig_round n v <= p10 q)%R.
Proof.
  intros Hn V. exists (mag radix10 v). pose proof (bpow_mag_le radix10 v ltac:(lra)) as K1. pose proof (bpow_mag_gt radix10 v) as K2. rewrite Rabs_pos_eq in K1, K2 by lra.
  split; [split; assumption|]. apply sig_round_bounds; [lia|]. split; assumption.
Qed.

Lemma rn_mono mb eb x y : 1 <= mb -> (x <= y)%R -> (rn mb eb x <= rn mb eb y)%R.
Proof.
  intros Hm H. assert (P : Prec_gt_0 (mb + 1)) by (unfold Prec_gt_0; lia). apply round_le; [apply FLT_exp_valid; exact P|apply valid_rnd_N|exact H].
Qed.

Lemma rn16_multiple k v : -14 <= k -> (p2 k <= v)%R -> exists q, rn 10 5 v = (IZR q * p2 (k - 10))%R.
Proof.
  intros Hk H. pose proof (p2_pos k).
  assert (M : k + 1 <= mag radix2 v) by (apply mag_ge_bpow; rewrite Rabs_pos_eq by lra; replace (k + 1 - 1) with k by lia; exact H).
  unfold rn, Generic_fmt.round, F2R. cbn [Fnum Fexp]. set (c := cexp _ _ _).
  assert (Hc : k - 10 <= c) by (unfold c, cexp, FLT_exp; lia).
  exists (ZnearestE (scaled_mantissa radix2 (FLT_exp (3 - 2 ^ (5 - 1) - (10 + 1)) (10 + 1)) v) * 2 ^ (c - (k - 10))).
  rewrite mult_IZR, IZR_pow2, Rmult_assoc, <- p2_plus by lia. do 2 f_equal. unfold p2. f_equal. lia.
Qed.

(** The 101 digits show the whole number. *)
Lemma digits101 v : (0 < v)%R -> fits 52 11 v -> (p2 (-27) <= v)%R -> (v < p2 17)%R -> sig_digits 101 v.
Proof.
  intros V [(M & c & E & HM & _) _] L H. change (2 ^ (52 + 1)) with (2 ^ 53) in HM.
  assert (M0 : 0 < M). { apply lt_IZR. apply Rmult_lt_reg_r with (p2 c); [apply p2_pos|]. rewrite Rmult_0_l, <- E. exact V. }
  assert (Hc : -80 < c). 
  { assert (K : (p2 (-27) < p2 (53 + c))%R). { apply Rle_lt_trans with (1 := L). rewrite E, p2_plus. apply Rmult_lt_compat_r; [apply p2_pos|]. rewrite <- IZR_pow2 by lia. apply IZR_lt. lia. }
    apply lt_bpow in K. lia. }
  destruct (Z_le_gt_dec 0 c) as [C|C].
  - exists (M * 2 ^ c), 0. rewrite mult_IZR, IZR_pow2, p10_0 by lia. split; [lra|].
    assert (IZR (M * 2 ^ c) < IZR (2 ^ 17))%R as K by (rewrite mult_IZR, !IZR_pow2, <- E by lia; exact H). apply lt_IZR in K.
    assert (0 <= M * 2 ^ c) by (apply Z.mul_nonneg_nonneg; [lia|apply Z.pow_nonneg; lia]). rewrite Z.abs_eq by assumption. apply Z.lt_trans with (1 := K). reflexivity.
  - exists (M * 5 ^ (- c)), c. split.
    + rewrite E, mult_IZR, Rmult_assoc. f_equal. apply Rmult_eq_reg_r with (p10 (- c)); [|apply Rgt_not_eq, p10_pos].
      rewrite Rmult_assoc, <- p10_plus. replace (c + - c) with 0 by lia. rewrite p10_0, Rmult_1_r. rewrite <- (IZR_p10 (- c)) by lia. change 10 with (2 * 5).
      rewrite Z.pow_mul_l, mult_IZR, IZR_pow2, <- Rmult_assoc, <- p2_plus by lia. replace (c + - c) with 0 by lia. change (p2 0) with 1%R. ring.
    + assert (0 < 5 ^ (- c) <= 5 ^ 80) by (split; [apply Z.pow_pos_nonneg; lia|apply Z.pow_le_mono_r; lia]).
      rewrite Z.abs_eq by (apply Z.mul_nonneg_nonneg; lia). apply Z.le_lt_trans with (2 ^ 53 * 5 ^ 80); [apply Z.mul_le_mono_nonneg; lia|reflexivity].
Qed.

Lemma true16 w opt x s u : w = 32 \/ w = 64 -> wf x -> bval x = VNum s u -> IsExact16 w opt x = Ret true ->
  fits 52 11 u /\ (rn 10 5 (Rabs u) < p2 16)%R /\ fewest_digits 10 5 (rn 10 5 (Rabs u)) (Rabs u) /\ sig_digits 5 (Rabs u).
Proof.
  intros Hw Wx Bx HE. destruct (exact16_any w opt x s u Hw Wx Bx HE) as (F & v & V0 & Fv & R & W & S). split; [exact F|].
  assert (Ey : sig_round 101 (Rabs u) = Rabs u).
  { destruct (Req_dec (Rabs u) 0) as [E|N]; [rewrite E; apply sig_round_0|]. pose proof (Rabs_pos u). assert (PU : (0 < Rabs u)%R) by lra.
    destruct (sig_round_pos_bounds 101 (Rabs u) ltac:(lia) PU) as (q & B1 & B2). set (y := sig_round 101 (Rabs u)) in *.
    assert (PY : (0 < y)%R) by (pose proof (p10_pos (q - 1)); lra).
    assert (NV : v <> 0%R) by (intros ->; apply fewest_zero in W; lra).
    assert (Hv : (v < p2 16)%R) by (destruct Fv as [_ Fv]; rewrite Rabs_pos_eq in Fv by exact V0; exact Fv).
    assert (Lv : (p2 (-24) <= v)%R).
    { destruct Fv as [(M & c & E & _ & Hc) _]. assert (M0 : 0 < M). { apply lt_IZR. apply Rmult_lt_reg_r with (p2 c); [apply p2_pos|]. rewrite Rmult_0_l, <- E. lra. }
      rewrite E. apply Rle_trans with (p2 c); [apply p2_le; cbn in Hc; lia|]. rewrite <- (Rmult_1_l (p2 c)) at 1. apply Rmult_le_compat_r; [apply Rlt_le, p2_pos|apply IZR_le; lia]. }
    assert (Ly : (p2 (-25) <= y)%R).
    { apply Rnot_lt_le. intros L. assert (Z0 : rn 10 5 y = 0%R \/ False).
      { left. rewrite (round_parts 10 5 (-24) 0 y); [ring| | |].
        - unfold cexp, fx, FLT_exp. assert (mag radix2 y <= -25) by (apply mag_le_bpow; [lra|rewrite Rabs_pos_eq by lra; exact L]). lia.
        - rewrite Rmult_0_l, Rminus_0_r, Rabs_pos_eq by lra. change (-24 - 1) with (-25). lra.
        - right. reflexivity. }
      destruct Z0 as [Z0|[]]. lra. }
    assert (Hy : (y < p2 16)%R).
    { apply Rnot_le_lt. intros L. apply (rn_mono 10 5) in L; [|lia]. rewrite R in L. replace (rn 10 5 (p2 16)) with (p2 16) in L; [lra|].
      symmetry. apply round_generic; [apply valid_rnd_N|]. apply generic_format_bpow. unfold FLT_exp. lia. }
    assert (C1 : (p10 (-8) < p2 (-25))%R) by (change (p10 (-8)) with (/ IZR 100000000)%R; change (p2 (-25)) with (/ IZR 33554432)%R; lra).
    assert (C2 : (p2 16 < p10 5)%R) by (change (p10 5) with 100000%R; change (p2 16) with 65536%R; lra).
    assert (Q1 : -8 < q) by (apply p10_lt_inv; lra). assert (Q2 : q - 1 < 5) by (apply p10_lt_inv; lra).
    apply sig_round_id; [lia|]. apply digits101; [exact PU|apply (fits_abs 52 11 s); [apply (bval_neg x s u Wx Bx)|exact F]| |].
    - apply Rle_trans with (p10 (q - 1)); [|lra]. apply Rle_trans with (p10 (-8)); [change (p10 (-8)) with (/ IZR 100000000)%R; change (p2 (-27)) with (/ IZR 134217728)%R; lra|apply bpow_le; lia].
    - apply Rlt_le_trans with (p10 q); [lra|]. apply Rle_trans with (p10 5); [apply bpow_le; lia|change (p10 5) with 100000%R; change (p2 17) with 131072%R; lra]. }
  rewrite Ey in *. rewrite R. split; [destruct Fv as [_ Fv]; rewrite Rabs_pos_eq in Fv by exact V0; exact Fv|]. auto.
Qed.

(** * Panics *)
Lemma text_inf x : BigFloat.frm x = BigFloat.Inf -> trimZeros (GoFmt.Text_e x 100) = Panic.
Proof. intros H. unfold GoFmt.Text_e. rewrite H. destruct (BigFloat.neg x); reflexivity. Qed.

(** * Half precision is sound up to 2048 *)
Lemma rn_65520 : rn 10 5 65520 = 65536%R.
Proof.
  rewrite (round_parts 10 5 5 2048).
  - change (p2 5) with 32%R. lra.
  - unfold cexp, fx, FLT_exp. rewrite (mag_unique radix2 65520 16); [reflexivity|]. rewrite Rabs_pos_eq by lra. change (bpow radix2 (16 - 1)) with 32768%R. change (bpow radix2 16) with 65536%R. lra.
  - change (p2 5) with 32%R. change (p2 (5 - 1)) with 16%R. rewrite Rabs_left; lra.
  - right. reflexivity.
Qed.

Lemma fits16_frac K a : 0 <= a <= 24 -> 0 <= K < 2048 -> fits 10 5 (IZR K * p2 (- a)).
Proof.
  intros Ha HK. split; [exists K, (- a); split; [reflexivity|]; change (2 ^ (10 + 1)) with 2048; change (2 ^ (5 - 1)) with 16; lia|].
  rewrite Rabs_pos_eq by (apply Rmult_le_pos; [apply IZR_le; lia|apply Rlt_le, p2_pos]).
  apply Rlt_le_trans with (p2 11); [|apply p2_le; cbn; lia]. apply Rle_lt_trans with (IZR K * 1)%R.
  - apply Rmult_le_compat_l; [apply IZR_le; lia|]. change 1%R with (p2 0). apply p2_le. lia.
  - rewrite Rmult_1_r. change (p2 11) with (IZR 2048). apply IZR_lt. lia.
Qed.

Lemma sound16 v : (0 <= v)%R -> fits 52 11 v -> (rn 10 5 v < p2 16)%R -> fewest_digits 10 5 (rn 10 5 v) v -> sig_digits 5 v ->
  fits 10 5 v \/ exists N, v = IZR N /\ 2048 < N < 65520.
Proof.
  intros V F R W S. destruct (Req_dec v 0) as [->|Nv]; [left; apply (fits_int 10 5 0); cbn; lia|]. assert (PV : (0 < v)%R) by lra.
  assert (Hv : (v < 65520)%R).
  { apply Rnot_le_lt. intros L. apply (rn_mono 10 5) in L; [|lia]. rewrite rn_65520 in L. change (p2 16) with 65536%R in R. lra. }
  destruct (sig_dyadic 52 11 5 v PV F S) as [(N & N0 & ->)|(K & a & Pa & K0 & E & HK)].
  - apply lt_IZR in Hv. destruct (Z_le_gt_dec N 2048) as [L|L]; [left|right; exists N; split; [reflexivity|lia]].
    destruct (Z.eq_dec N 2048) as [->|]; [|apply fits_int; cbn; lia]. 
    split; [exists 1, 11; split; [change (p2 11) with 2048%R; lra|cbn; lia]|]. rewrite Rabs_pos_eq by lra. change (p2 (2 ^ (5 - 1))) with 65536%R. lra.
  - change (10 ^ 5) with 100000 in HK.
    assert (A7 : a <= 7).
    { destruct (Z_le_gt_dec a 7) as [|G]; [assumption|exfalso]. assert (5 ^ 8 <= 5 ^ a) by (apply Z.pow_le_mono_r; lia). change (5 ^ 8) with 390625 in *.
      assert (1 * 5 ^ a <= K * 5 ^ a) by (apply Z.mul_le_mono_nonneg_r; lia). lia. }
    (* an odd numerator too large for the half precision format needs one digit more than its half precision neighbour *)
    assert (One : forall K, 0 < K -> K * 5 < 100000 -> v = (IZR K * p2 (-1))%R -> fits 10 5 v \/ exists N, v = IZR N /\ 2048 < N < 65520).
    { clear K a Pa K0 E HK A7. intros K K0 HK E. destruct (Z_lt_ge_dec K 2048) as [L|L]; [left; rewrite E; apply (fits16_frac K 1); lia|].
      assert (P1 : p2 (-1) = (/ 2)%R) by reflexivity.
      destruct (Z.even K) eqn:Ev.
      - apply Z.even_spec in Ev. destruct Ev as [j ->]. assert (Ej : v = IZR j) by (rewrite E, mult_IZR, P1; field). rewrite Ej in Hv. apply lt_IZR in Hv.
        destruct (Z_le_gt_dec j 2048) as [L2|L2]; [left|right; exists j; split; [exact Ej|lia]].
        destruct (Z.eq_dec j 2048) as [->|]; [|rewrite Ej; apply fits_int; cbn; lia].
        rewrite Ej. split; [exists 1, 11; split; [change (p2 11) with 2048%R; lra|cbn; lia]|]. rewrite Rabs_pos_eq by lra. change (p2 (2 ^ (5 - 1))) with 65536%R. lra.
      - exfalso. assert (L2 : (1024 <= v)%R) by (rewrite E, P1; apply IZR_ge in L; lra).
        destruct (rn16_multiple 10 v ltac:(lia)) as [q Hq]; [exact L2|]. change (p2 (10 - 10)) with 1%R in Hq. rewrite Rmult_1_r in Hq.
        assert (U : (v <= 10000)%R) by (rewrite E, P1; assert (K <= 20000) as B by lia; apply IZR_le in B; lra).
        assert (Q : 0 <= q <= 10000).
        { split; apply le_IZR; rewrite <- Hq.
          - rewrite <- (rn_0 10 5). apply rn_mono; [lia|lra].
          - replace 10000%R with (rn 10 5 10000); [apply rn_mono; [lia|exact U]|]. apply fits_rn; [lia|]. split; [exists 1250, 3; split; [change (p2 3) with 8%R; lra|cbn; lia]|]. rewrite Rabs_pos_eq by lra. change (p2 (2 ^ (5 - 1))) with 65536%R. lra. }
        assert (S4 : sig_digits 4 (rn 10 5 v)).
        { rewrite Hq. destruct (Z.eq_dec q 10000) as [->|]; [exists 1, 4; split; [change (p10 4) with 10000%R; lra|cbn; lia]|]. exists q, 0. rewrite p10_0. split; [ring|]. change (10 ^ 4) with 10000. lia. }
        assert (S4v : sig_digits 4 v).
        { apply (W (rn 10 5 v) 4); [|exact S4]. unfold rn. apply round_generic; [apply valid_rnd_N|]. apply generic_format_round; [apply FLT_exp_valid; reflexivity|apply valid_rnd_N]. }
        destruct (sig_multiple 4 v 0 ltac:(lia) S4v) as [j Hj]; [change (p10 (0 + 4 - 1)) with 1000%R; lra|]. rewrite p10_0, Rmult_1_r in Hj.
        assert (K = 2 * j) by (apply eq_IZR; rewrite mult_IZR, <- Hj, E, P1; field). subst K. rewrite Z.even_mul in Ev. discriminate. }
    destruct (Z.eq_dec a 1) as [->|N1]; [apply (One K); [exact K0|exact HK|exact E]|].
    destruct (Z.eq_dec a 2) as [->|N2].
    + change (5 ^ 2) with 25 in HK. destruct (Z_lt_ge_dec K 2048) as [L|L]; [left; rewrite E; apply (fits16_frac K 2); lia|].
      assert (P1 : p2 (-2) = (/ 4)%R) by reflexivity. change (- (2)) with (-2) in E.
      destruct (Z.even K) eqn:Ev.
      * apply Z.even_spec in Ev. destruct Ev as [j ->]. apply (One j); [lia|lia|]. rewrite E, mult_IZR, P1. change (p2 (-1)) with (/ 2)%R. field.
      * exfalso. assert (L2 : (512 <= v)%R) by (rewrite E, P1; apply IZR_ge in L; lra).
        destruct (rn16_multiple 9 v ltac:(lia)) as [q Hq]; [exact L2|]. change (p2 (9 - 10)) with (/ 2)%R in Hq.
        assert (U : (v <= 1000)%R) by (rewrite E, P1; assert (K <= 4000) as B by lia; apply IZR_le in B; lra).
        assert (Q : 0 <= q <= 2000).
        { split; apply le_IZR.
          - assert (0 <= rn 10 5 v)%R; [|lra]. rewrite <- (rn_0 10 5) at 1. apply rn_mono; [lia|lra].
          - assert (rn 10 5 v <= 1000)%R; [|lra]. replace 1000%R with (rn 10 5 1000); [apply rn_mono; [lia|exact U]|]. apply fits_rn; [lia|]. apply (fits_int 10 5 1000); cbn; lia. }
        assert (S4 : sig_digits 4 (rn 10 5 v)).
        { rewrite Hq. destruct (Z.eq_dec q 2000) as [->|]; [exists 1, 3; split; [change (p10 3) with 1000%R; lra|cbn; lia]|]. exists (5 * q), (-1). change (p10 (-1)) with (/ 10)%R. rewrite mult_IZR. split; [field|]. change (10 ^ 4) with 10000. lia. }
        assert (S4v : sig_digits 4 v).
        { apply (W (rn 10 5 v) 4); [|exact S4]. unfold rn. apply round_generic; [apply valid_rnd_N|]. apply generic_format_round; [apply FLT_exp_valid; reflexivity|apply valid_rnd_N]. }
        destruct (sig_multiple 4 v (-1) ltac:(lia) S4v) as [j Hj]; [change (p10 (-1 + 4 - 1)) with 100%R; lra|]. change (p10 (-1)) with (/ 10)%R in Hj.
        assert (5 * K = 2 * j) as D by (apply eq_IZR; rewrite !mult_IZR; rewrite E, P1 in Hj; lra).
        rewrite <- Z.negb_odd in Ev. apply negb_false_iff in Ev. apply Z.odd_spec in Ev. destruct Ev as [i ->]. lia.
    + left. rewrite E. apply fits16_frac; [lia|]. assert (5 ^ 3 <= 5 ^ a) by (apply Z.pow_le_mono_r; lia). change (5 ^ 3) with 125 in *.
      assert (K * 125 <= K * 5 ^ a) by (apply Z.mul_le_mono_nonneg_l; lia). lia.
Qed.
