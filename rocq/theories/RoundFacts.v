(** big.Float.round is Flocq's rounding to prec significant bits. *)
From Coq Require Import ZArith Reals Lia Lra Bool.
From Flocq Require Import Core.
From Verif Require Import GoBase.
From Verif Require BigFloat.
From Verif Require Import Spec BitFacts.
Import BigFloat (bitlen, gexp, round_inc).
Open Scope Z_scope.

Definition sgnZ (s : bool) (z : Z) : Z := if s then - z else z.

Lemma sgnR_IZR s z : sgnR s (IZR z) = IZR (sgnZ s z).
Proof. destruct s; simpl; [rewrite opp_IZR|]; reflexivity. Qed.

Lemma sgnR_mult s a b : sgnR s (a * b) = (sgnR s a * b)%R.
Proof. destruct s; simpl; ring. Qed.

Lemma sgnR_0 s : sgnR s 0 = 0%R.
Proof. destruct s; simpl; ring. Qed.

Lemma abs_sgnR s x : Rabs (sgnR s x) = Rabs x.
Proof. destruct s; simpl; [apply Rabs_Ropp|reflexivity]. Qed.

Lemma Zfloor_frac q f : (0 <= f < 1)%R -> Zfloor (IZR q + f) = q.
Proof. intros H. apply Zfloor_imp. rewrite plus_IZR. lra. Qed.

Lemma Zceil_frac q f : (0 < f < 1)%R -> Zceil (IZR q + f) = q + 1.
Proof.
  intros H. apply Zceil_imp.
  replace (q + 1 - 1) with q by lia. rewrite plus_IZR. lra.
Qed.

Lemma Znearest_frac c q f : (0 < f < 1)%R ->
  Znearest c (IZR q + f) =
  match Rcompare f (/ 2) with
  | Lt => q
  | Gt => q + 1
  | Eq => if c q then q + 1 else q
  end.
Proof.
  intros H. unfold Znearest.
  rewrite Zfloor_frac by lra. rewrite Zceil_frac by lra.
  replace (IZR q + f - IZR q)%R with f by ring. reflexivity.
Qed.

(** The fraction r / 2^sh of the dropped bits. *)
Lemma frac_range r sh : 0 < sh -> 0 < r < 2 ^ sh -> (0 < IZR r * p2 (- sh) < 1)%R.
Proof.
  intros Hs [H1 H2]. apply IZR_lt in H1, H2. rewrite IZR_pow2 in H2 by lia.
  pose proof (p2_pos (- sh)). split.
  - apply Rmult_lt_0_compat; lra.
  - apply Rmult_lt_compat_r with (r := p2 (- sh)) in H2; [|assumption].
    rewrite <- p2_plus in H2. replace (sh + - sh) with 0 in H2 by lia. exact H2.
Qed.

Lemma frac_compare r sh : 0 < sh ->
  Rcompare (IZR r * p2 (- sh)) (/ 2) = Z.compare r (2 ^ (sh - 1)).
Proof.
  intros Hs.
  replace (/ 2)%R with (IZR (2 ^ (sh - 1)) * p2 (- sh))%R.
  - rewrite Rcompare_mult_r by apply p2_pos. apply Rcompare_IZR.
  - rewrite IZR_pow2 by lia. rewrite <- p2_plus.
    replace (sh - 1 + - sh) with (- 1) by lia. reflexivity.
Qed.

Lemma mode_rnd_frac md s q r sh :
  0 <= q -> 0 < sh -> 0 < r < 2 ^ sh ->
  mode_rnd md (sgnR s (IZR q + IZR r * p2 (- sh))) =
  sgnZ s (if round_inc md s q r sh then q + 1 else q).
Proof.
  intros Hq Hs Hr.
  pose proof (frac_range r sh Hs Hr) as Hf.
  pose proof (frac_compare r sh Hs) as Hc.
  set (f := (IZR r * p2 (- sh))%R) in *.
  assert (Hq' : (0 <= IZR q)%R) by (apply IZR_le; lia).
  assert (Hfl : Zfloor (- (IZR q + f)) = - (q + 1)).
  { apply Zfloor_imp. replace (- (q + 1) + 1) with (- q) by lia.
    rewrite !opp_IZR, plus_IZR. lra. }
  assert (Hce : Zceil (- (IZR q + f)) = - q).
  { apply Zceil_imp. replace (- q - 1) with (- (q + 1)) by lia.
    rewrite !opp_IZR, plus_IZR. lra. }
  destruct md; simpl mode_rnd; simpl round_inc.
  - (* nearest even *)
    destruct s; simpl sgnR; simpl sgnZ.
    + rewrite Znearest_opp, Znearest_frac by lra. rewrite Hc.
      destruct (Z.compare_spec r (2 ^ (sh - 1))) as [E|E|E].
      * rewrite E, Z.ltb_irrefl, Z.eqb_refl. simpl.
        replace (- (q + 1)) with (-q - 1) by lia.
        assert (Ho : Z.even (- q - 1) = Z.odd q).
        { replace (-q - 1) with (Z.pred (-q)) by lia.
          rewrite Z.even_pred, Z.odd_opp. reflexivity. }
        rewrite Ho, negb_involutive. destruct (Z.odd q); lia.
      * replace (2 ^ (sh - 1) <? r) with false by (symmetry; apply Z.ltb_ge; lia).
        replace (r =? 2 ^ (sh - 1)) with false by (symmetry; apply Z.eqb_neq; lia).
        reflexivity.
      * replace (2 ^ (sh - 1) <? r) with true by (symmetry; apply Z.ltb_lt; lia).
        reflexivity.
    + rewrite Znearest_frac by lra. rewrite Hc.
      destruct (Z.compare_spec r (2 ^ (sh - 1))) as [E|E|E].
      * rewrite E, Z.ltb_irrefl, Z.eqb_refl. simpl.
        rewrite Z.negb_even. reflexivity.
      * replace (2 ^ (sh - 1) <? r) with false by (symmetry; apply Z.ltb_ge; lia).
        replace (r =? 2 ^ (sh - 1)) with false by (symmetry; apply Z.eqb_neq; lia).
        reflexivity.
      * replace (2 ^ (sh - 1) <? r) with true by (symmetry; apply Z.ltb_lt; lia).
        reflexivity.
  - (* nearest away *)
    destruct s; simpl sgnR; simpl sgnZ.
    + rewrite Znearest_opp, Znearest_frac by lra. rewrite Hc.
      destruct (Z.compare_spec r (2 ^ (sh - 1))) as [E|E|E].
      * rewrite E, Z.leb_refl.
        replace (0 <=? - (q + 1)) with false by (symmetry; apply Z.leb_gt; lia).
        reflexivity.
      * replace (2 ^ (sh - 1) <=? r) with false by (symmetry; apply Z.leb_gt; lia).
        reflexivity.
      * replace (2 ^ (sh - 1) <=? r) with true by (symmetry; apply Z.leb_le; lia).
        reflexivity.
    + rewrite Znearest_frac by lra. rewrite Hc.
      destruct (Z.compare_spec r (2 ^ (sh - 1))) as [E|E|E].
      * rewrite E, Z.leb_refl.
        replace (0 <=? q) with true by (symmetry; apply Z.leb_le; lia).
        reflexivity.
      * replace (2 ^ (sh - 1) <=? r) with false by (symmetry; apply Z.leb_gt; lia).
        reflexivity.
      * replace (2 ^ (sh - 1) <=? r) with true by (symmetry; apply Z.leb_le; lia).
        reflexivity.
  - (* to zero *)
    destruct s; simpl sgnR; simpl sgnZ.
    + rewrite Ztrunc_ceil by lra. exact Hce.
    + rewrite Ztrunc_floor by lra. apply Zfloor_frac; lra.
  - (* away *)
    destruct s; simpl sgnR; simpl sgnZ.
    + rewrite Zaway_floor by lra. exact Hfl.
    + rewrite Zaway_ceil by lra. apply Zceil_frac; lra.
  - destruct s; simpl sgnR; simpl sgnZ; [exact Hfl|apply Zfloor_frac; lra].
  - destruct s; simpl sgnR; simpl sgnZ; [exact Hce|apply Zceil_frac; lra].
Qed.

Lemma valid_mode_rnd md : Valid_rnd (mode_rnd md).
Proof. destruct md; simpl; typeclasses eauto. Qed.

(** The integer result of rounding m*2^e at the exponent c (c = cexp). *)
Definition round_mant (md : BigFloat.mode) (s : bool) (m sh : Z) : Z :=
  if sh <=? 0 then m * 2 ^ (- sh)
  else
    let q := m / 2 ^ sh in
    let r := m mod 2 ^ sh in
    if r =? 0 then q else if round_inc md s q r sh then q + 1 else q.

Lemma round_at fexp md s m e :
  0 < m ->
  Generic_fmt.round radix2 fexp (mode_rnd md) (sgnR s (IZR m * p2 e)) =
  sgnR s (IZR (round_mant md s m (fexp (gexp m e) - e)) * p2 (fexp (gexp m e))).
Proof.
  intros Hm.
  unfold Generic_fmt.round, F2R, scaled_mantissa, cexp; simpl Fnum; simpl Fexp.
  assert (Hmag : mag radix2 (sgnR s (IZR m * p2 e)) = gexp m e :> Z).
  { destruct s; simpl; [rewrite mag_opp|]; apply mag_val; exact Hm. }
  rewrite Hmag. set (c := fexp (gexp m e)).
  rewrite sgnR_mult, sgnR_IZR. 
  change (bpow radix2) with p2.
  rewrite Rmult_assoc, <- p2_plus.
  replace (e + - c) with (- (c - e)) by lia. set (sh := c - e).
  unfold round_mant. destruct (Z.leb_spec sh 0) as [Hs|Hs].
  - rewrite sgnR_mult, sgnR_IZR. f_equal. 
    rewrite <- IZR_pow2 by lia. rewrite <- mult_IZR.
    destruct (valid_mode_rnd md) as [_ Hz]. rewrite Hz. f_equal.
    destruct s; simpl; ring.
  - pose proof (pow2_pos sh ltac:(lia)) as Hp.
    pose proof (Z.div_mod m (2 ^ sh) ltac:(lia)) as Hdm.
    pose proof (Z.mod_pos_bound m (2 ^ sh) ltac:(lia)) as Hr.
    assert (Hq : 0 <= m / 2 ^ sh) by (apply Z.div_pos; lia).
    rewrite sgnR_mult, sgnR_IZR. f_equal. f_equal.
    assert (Hval : (IZR (sgnZ s m) * p2 (- sh) =
             sgnR s (IZR (m / 2 ^ sh) + IZR (m mod 2 ^ sh) * p2 (- sh)))%R).
    { rewrite <- sgnR_IZR, <- sgnR_mult. f_equal.
      rewrite Hdm at 1. rewrite plus_IZR, mult_IZR, IZR_pow2 by lia.
      rewrite Rmult_plus_distr_r. f_equal.
      rewrite (Rmult_comm (p2 sh)), Rmult_assoc, <- p2_plus.
      replace (sh + - sh) with 0 by lia. change (p2 0) with 1%R. ring. }
    rewrite Hval.
    destruct (Z.eqb_spec (m mod 2 ^ sh) 0) as [E|E].
    + rewrite E, Rmult_0_l, Rplus_0_r, sgnR_IZR.
      destruct (valid_mode_rnd md) as [_ Hz]. apply Hz.
    + apply mode_rnd_frac; lia.
Qed.

(** Where rounding up or not leaves the value relative to the original. *)
Lemma round_mant_cmp md s m sh :
  0 < m -> 0 < sh -> m mod 2 ^ sh <> 0 ->
  if round_inc md s (m / 2 ^ sh) (m mod 2 ^ sh) sh
  then m < round_mant md s m sh * 2 ^ sh
  else round_mant md s m sh * 2 ^ sh < m.
Proof.
  intros Hm Hs Hr. unfold round_mant.
  replace (sh <=? 0) with false by (symmetry; apply Z.leb_gt; lia).
  rewrite (proj2 (Z.eqb_neq _ _) Hr).
  pose proof (pow2_pos sh ltac:(lia)) as Hp.
  pose proof (Z.div_mod m (2 ^ sh) ltac:(lia)) as Hdm.
  pose proof (Z.mod_pos_bound m (2 ^ sh) ltac:(lia)) as Hb.
  destruct (round_inc _ _ _ _ _); nia.
Qed.

(** ** wf and minimal precision *)
Lemma ctz_pos_spec p : 0 <= BigFloat.ctz_pos p /\ exists k, Zpos p = (2 * k + 1) * 2 ^ BigFloat.ctz_pos p.
Proof.
  induction p as [p IH|p IH|]; cbn [BigFloat.ctz_pos].
  - split; [lia|]. exists (Zpos p). rewrite Z.pow_0_r. lia.
  - destruct IH as [IH0 [k Hk]]. split; [lia|]. exists k.
    rewrite Z.pow_add_r by lia. change (2 ^ 1) with 2. lia.
  - split; [lia|]. exists 0. reflexivity.
Qed.

Lemma ctz_spec m : 0 < m -> 0 <= BigFloat.ctz m /\ exists k, 0 <= k /\ m = (2 * k + 1) * 2 ^ BigFloat.ctz m.
Proof.
  intros H. destruct m as [|p|p]; try lia. simpl.
  destruct (ctz_pos_spec p) as [H0 [k Hk]]. split; [exact H0|]. exists k. split; [|exact Hk].
  pose proof (pow2_pos _ H0). nia.
Qed.

(** The trailing zeros are all the factors of two. *)
Lemma ctz_max m k j : 0 < m -> 0 <= j -> m = k * 2 ^ j -> j <= BigFloat.ctz m.
Proof.
  intros Hm Hj E. destruct (ctz_spec m Hm) as [H0 [t [Ht Hc]]].
  destruct (Z_le_gt_dec j (BigFloat.ctz m)) as [|C]; [assumption|exfalso].
  replace j with (BigFloat.ctz m + 1 + (j - BigFloat.ctz m - 1)) in E by lia.
  rewrite !Z.pow_add_r in E by lia. rewrite Hc in E at 1.
  pose proof (pow2_pos _ H0). change (2 ^ 1) with 2 in E.
  assert (2 * t + 1 = 2 * (k * 2 ^ (j - BigFloat.ctz m - 1))) by nia. lia.
Qed.

Lemma bitlen_ctz m : 0 < m -> bitlen m - BigFloat.ctz m = bitlen (m / 2 ^ BigFloat.ctz m).
Proof.
  intros Hm. destruct (ctz_spec m Hm) as [H0 [t [Ht Hc]]].
  pose proof (pow2_pos _ H0).
  rewrite Hc at 3. rewrite Z.div_mul by lia.
  rewrite Hc at 1. rewrite bitlen_mul_pow2 by lia. lia.
Qed.

(** MinPrec <= n is: m = m' * 2^j with m' of at most n bits. *)
Lemma minprec_le m n : 0 < m -> 0 <= n ->
  (bitlen m - BigFloat.ctz m <= n <-> exists m' j, m = m' * 2 ^ j /\ 0 <= j /\ m' < 2 ^ n).
Proof.
  intros Hm Hn. destruct (ctz_spec m Hm) as [H0 [t [Ht Hc]]].
  pose proof (pow2_pos _ H0).
  assert (Hq : m / 2 ^ BigFloat.ctz m = 2 * t + 1) by (rewrite Hc at 1; apply Z.div_mul; lia).
  rewrite bitlen_ctz, Hq by exact Hm. split.
  - intros H1. exists (2 * t + 1), (BigFloat.ctz m). repeat split; try assumption.
    apply bitlen_le_lt; lia.
  - intros (m' & j & E & Hj & Hlt).
    pose proof (ctz_max m m' j Hm Hj E) as Hle.
    apply bitlen_le_lt; try lia.
    assert (m' = (2 * t + 1) * 2 ^ (BigFloat.ctz m - j)).
    { pose proof (pow2_pos j Hj). remember (BigFloat.ctz m) as c eqn:Ec.
      apply Z.mul_reg_r with (2 ^ j); [lia|].
      rewrite <- Z.mul_assoc, <- Z.pow_add_r by lia.
      replace (c - j + j) with c by lia. lia. }
    pose proof (pow2_pos (BigFloat.ctz m - j) ltac:(lia)). nia.
Qed.
