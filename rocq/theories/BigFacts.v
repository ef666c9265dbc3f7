(** Facts about the model of big.Float: rounding, SetPrec, conversion to and from
    float64 and float32. *)
From Coq Require Import ZArith Reals Lia Lra Bool.
From Flocq Require Import Core.
From Verif Require Import GoBase.
From Verif Require BigFloat.
From Verif Require Import Spec BitFacts RoundFacts IeeeFacts.
Import BigFloat (bitlen, gexp, round_inc, prec, rmode, acc, neg, frm, Finite, MaxExp, MinExp, MaxPrec).
Open Scope Z_scope.

(** m has at most n significant bits. *)
Definition sigbits (m n : Z) : Prop := exists m' j, m = m' * 2 ^ j /\ 0 <= j /\ m' < 2 ^ n.

Lemma sigbits_lt m n : m < 2 ^ n -> sigbits m n.
Proof. intros H. exists m, 0. rewrite Z.pow_0_r. lia. Qed.

Lemma sigbits_mono m a b : a <= b -> sigbits m a -> sigbits m b.
Proof.
  intros H (m' & j & E & Hj & Hm). exists m', j. repeat split; try assumption.
  apply Z.lt_le_trans with (1 := Hm).
  destruct (Z_le_gt_dec 0 a); [apply Z.pow_le_mono_r; lia|].
  rewrite Z.pow_neg_r by lia. destruct (Z_le_gt_dec 0 b).
  - pose proof (pow2_pos b); lia.
  - rewrite Z.pow_neg_r by lia. lia.
Qed.

Lemma sigbits_mul m n k : 0 <= k -> sigbits m n -> sigbits (m * 2 ^ k) n.
Proof.
  intros Hk (m' & j & E & Hj & Hm). exists m', (j + k). repeat split; try lia.
  rewrite Z.pow_add_r by lia. subst m. ring.
Qed.

(** A mantissa that fits leaves no remainder. *)
Lemma sigbits_mod m n : 0 < m -> 0 <= n -> sigbits m n -> n < bitlen m ->
  m mod 2 ^ (bitlen m - n) = 0.
Proof.
  intros Hm Hn Hs Hlt. pose proof Hs as Hs'. apply minprec_le in Hs; try assumption.
  destruct (ctz_spec m Hm) as [H0 [t [Ht Hc]]].
  apply Z.mod_divide; [apply Z.pow_nonzero; lia|].
  exists ((2 * t + 1) * 2 ^ (BigFloat.ctz m - (bitlen m - n))).
  rewrite <- Z.mul_assoc, <- Z.pow_add_r by lia.
  replace (BigFloat.ctz m - (bitlen m - n) + (bitlen m - n)) with (BigFloat.ctz m) by lia.
  exact Hc.
Qed.

Lemma bitlen_div m k : 0 < m -> 0 <= k < bitlen m -> 0 < m / 2 ^ k /\ bitlen (m / 2 ^ k) = bitlen m - k.
Proof.
  intros Hm Hk. pose proof (bitlen_spec m Hm) as [H1 H2].
  pose proof (pow2_pos k ltac:(lia)) as Hp.
  assert (L : 2 ^ (bitlen m - k - 1) <= m / 2 ^ k).
  { apply Z.div_le_lower_bound; [lia|]. rewrite <- Z.pow_add_r by lia.
    replace (k + (bitlen m - k - 1)) with (bitlen m - 1) by lia. exact H1. }
  assert (U : m / 2 ^ k < 2 ^ (bitlen m - k)).
  { apply Z.div_lt_upper_bound; [lia|]. rewrite <- Z.pow_add_r by lia.
    replace (k + (bitlen m - k)) with (bitlen m) by lia. exact H2. }
  pose proof (pow2_pos (bitlen m - k - 1) ltac:(lia)).
  split; [lia|]. apply bitlen_unique; lia.
Qed.

Lemma scale_R m k e : 0 <= k -> (IZR (m * 2 ^ k) * p2 e = IZR m * p2 (e + k))%R.
Proof. intros Hk. rewrite mult_IZR, IZR_pow2, Z.add_comm, p2_plus by exact Hk. ring. Qed.

Lemma sgnR_lt (s : bool) (x y : R) :
  if s return Prop then (sgnR s y < sgnR s x <-> x < y)%R else (sgnR s x < sgnR s y <-> x < y)%R.
Proof. destruct s; simpl; lra. Qed.

(** ** Float.round *)
Lemma round_correct z m e :
  frm z = Finite m e -> 0 < m -> 0 < prec z -> gexp m e <= MaxExp ->
  let r := BigFloat.round z in
  let x := sgnR (neg z) (IZR m * p2 e) in
  let y := rnd_prec (rmode z) (prec z) x in
  prec r = prec z /\ rmode r = rmode z /\ neg r = neg z /\
  acc_ok (acc r) (bval r) x /\
  ((exists m' e', frm r = Finite m' e' /\ 0 < m' /\ sigbits m' (prec z) /\
      gexp m e <= gexp m' e' <= MaxExp /\ y = sgnR (neg z) (IZR m' * p2 e'))
   \/ (frm r = BigFloat.Inf /\ (p2 MaxExp <= Rabs y)%R)).
Proof.
  intros Hf Hm Hp Hmax. unfold BigFloat.round. rewrite Hf.
  unfold rnd_prec. rewrite round_at by exact Hm.
  unfold FLX_exp at 1 2.
  assert (Esh : gexp m e - prec z - e = bitlen m - prec z) by (unfold gexp; lia).
  unfold FLX_exp. rewrite Esh. unfold round_mant.
  destruct (Z.leb_spec (bitlen m) (prec z)) as [Hle|Hgt].
  - (* fits *)
    cbn [BigFloat.set_acc prec rmode acc neg frm].
    repeat split; try reflexivity.
    + unfold bval; cbn [frm neg BigFloat.set_acc]. rewrite Hf. reflexivity.
    + left. exists m, e. rewrite Hf. repeat split; try lia.
      * apply sigbits_lt. apply bitlen_le_lt; lia.
      * replace (bitlen m - prec z <=? 0) with true by (symmetry; apply Z.leb_le; lia).
        f_equal. rewrite scale_R by lia. f_equal. f_equal. unfold gexp. lia.
  - replace (bitlen m - prec z <=? 0) with false by (symmetry; apply Z.leb_gt; lia).
    set (sh := bitlen m - prec z) in *.
    replace (gexp m e - prec z) with (e + sh) by (unfold gexp, sh; lia).
    destruct (bitlen_div m sh Hm ltac:(lia)) as [Hq Hql].
    pose proof (pow2_pos sh ltac:(lia)) as Hps.
    pose proof (Z.div_mod m (2 ^ sh) ltac:(lia)) as Hdm.
    destruct (Z.eqb_spec (m mod 2 ^ sh) 0) as [E|E].
    + cbn [prec rmode acc neg frm].
      repeat split; try reflexivity.
      * unfold bval; cbn [frm neg]. unfold acc_ok. f_equal.
        rewrite <- scale_R by lia. f_equal. f_equal. lia.
      * left. exists (m / 2 ^ sh), (e + sh). repeat split; try lia.
        -- apply sigbits_lt. apply bitlen_le_lt; lia.
        -- unfold gexp in *; lia.
        -- unfold gexp in *; lia.
    + pose proof (round_mant_cmp (rmode z) (neg z) m sh Hm ltac:(lia) E) as Hcmp.
      unfold round_mant in Hcmp.
      replace (sh <=? 0) with false in Hcmp by (symmetry; apply Z.leb_gt; lia).
      rewrite (proj2 (Z.eqb_neq _ _) E) in Hcmp.
      set (inc := round_inc (rmode z) (neg z) (m / 2 ^ sh) (m mod 2 ^ sh) sh) in *.
      set (m' := if inc then m / 2 ^ sh + 1 else m / 2 ^ sh) in *.
      assert (Hm' : 0 < m' /\ m / 2 ^ sh <= m' <= m / 2 ^ sh + 1) by (unfold m'; destruct inc; lia).
      assert (Hg : gexp m e <= gexp m' (e + sh)).
      { unfold gexp. pose proof (bitlen_mono (m / 2 ^ sh) m' Hq ltac:(lia)). lia. }
      assert (Hsg : sigbits m' (prec z)).
      { assert (Hb : m / 2 ^ sh < 2 ^ prec z) by (apply bitlen_le_lt; lia).
        destruct (Z.eq_dec m' (2 ^ prec z)) as [Em|Nm].
        - exists 1, (prec z). repeat split; lia.
        - apply sigbits_lt. lia. }
      assert (Hord : if inc then (IZR m * p2 e < IZR m' * p2 (e + sh))%R
                     else (IZR m' * p2 (e + sh) < IZR m * p2 e)%R).
      { rewrite <- scale_R by lia. pose proof (p2_pos e).
        destruct inc; apply Rmult_lt_compat_r; try assumption; apply IZR_lt; exact Hcmp. }
      destruct (Z.ltb_spec MaxExp (gexp m' (e + sh))) as [Ho|Ho].
      * cbn [prec rmode acc neg frm]. repeat split; try reflexivity.
        -- assert (inc = true).
           { destruct inc eqn:Ei; [reflexivity|exfalso].
             assert (m' = m / 2 ^ sh) by (unfold m'; reflexivity).
             unfold gexp in *. rewrite H in Ho. lia. }
           rewrite H. unfold bval; cbn [frm neg]. destruct (neg z); reflexivity.
        -- right. split; [reflexivity|]. rewrite abs_sgnR.
           pose proof (gexp_spec m' (e + sh) ltac:(lia)) as [G1 G2].
           rewrite Rabs_pos_eq.
           ++ apply Rle_trans with (2 := G1). apply p2_le. lia.
           ++ pose proof (p2_pos (gexp m' (e + sh) - 1)). lra.
      * cbn [prec rmode acc neg frm]. repeat split; try reflexivity.
        -- unfold bval; cbn [frm neg].
           pose proof (sgnR_lt (neg z) (IZR m * p2 e) (IZR m' * p2 (e + sh))) as S1.
           pose proof (sgnR_lt (neg z) (IZR m' * p2 (e + sh)) (IZR m * p2 e)) as S2.
           destruct inc, (neg z); cbn [xorb BigFloat.makeAcc acc_ok];
             first [apply S1; exact Hord | apply S2; exact Hord].
        -- left. exists m', (e + sh). repeat split; try assumption; try lia.
Qed.

(** Rounding a number that fits changes nothing. *)
Lemma rnd_prec_fits md p s m e : 0 < m -> 0 < p -> sigbits m p ->
  rnd_prec md p (sgnR s (IZR m * p2 e)) = sgnR s (IZR m * p2 e).
Proof.
  intros Hm Hp Hs. unfold rnd_prec. rewrite round_at by exact Hm.
  unfold FLX_exp. f_equal. unfold gexp, round_mant.
  replace (bitlen m + e - p - e) with (bitlen m - p) by lia.
  destruct (Z.leb_spec (bitlen m - p) 0) as [L|L].
  - rewrite scale_R by lia. f_equal. f_equal. lia.
  - pose proof (sigbits_mod m p Hm ltac:(lia) Hs ltac:(lia)) as E. rewrite E, Z.eqb_refl.
    replace (bitlen m + e - p) with (e + (bitlen m - p)) by lia.
    rewrite <- scale_R by lia. f_equal. f_equal.
    pose proof (Z.div_mod m (2 ^ (bitlen m - p)) ltac:(apply Z.pow_nonzero; lia)). lia.
Qed.

Lemma round_fits z m e :
  frm z = Finite m e -> 0 < m -> 0 < prec z -> sigbits m (prec z) ->
  let r := BigFloat.round z in
  prec r = prec z /\ rmode r = rmode z /\ neg r = neg z /\ acc r = BigFloat.Exact /\
  exists m' e', frm r = Finite m' e' /\ 0 < m' /\ sigbits m' (prec z) /\
    gexp m' e' = gexp m e /\ (IZR m' * p2 e' = IZR m * p2 e)%R.
Proof.
  intros Hf Hm Hp Hs. unfold BigFloat.round. rewrite Hf.
  destruct (Z.leb_spec (bitlen m) (prec z)) as [L|L].
  - cbn [BigFloat.set_acc prec rmode acc neg frm]. repeat split; try reflexivity.
    exists m, e. rewrite Hf. repeat split; assumption.
  - pose proof (sigbits_mod m (prec z) Hm ltac:(lia) Hs ltac:(lia)) as E. rewrite E, Z.eqb_refl.
    cbn [prec rmode acc neg frm]. repeat split; try reflexivity.
    set (sh := bitlen m - prec z) in *.
    destruct (bitlen_div m sh Hm ltac:(unfold sh; lia)) as [Hq Hql].
    exists (m / 2 ^ sh), (e + sh). repeat split; try assumption.
    + apply sigbits_lt. apply bitlen_le_lt; unfold sh in *; lia.
    + unfold gexp. lia.
    + rewrite <- scale_R by (unfold sh; lia). f_equal. f_equal.
      pose proof (Z.div_mod m (2 ^ sh) ltac:(apply Z.pow_nonzero; unfold sh; lia)). lia.
Qed.

(** ** Values of big.Floats as fval, and equal-valued representations *)
Lemma gexp_unique m1 e1 m2 e2 : 0 < m1 -> 0 < m2 ->
  (IZR m1 * p2 e1 = IZR m2 * p2 e2)%R -> gexp m1 e1 = gexp m2 e2.
Proof. intros H1 H2 E. rewrite <- !mag_val by assumption. rewrite E. reflexivity. Qed.

Lemma val_pos m e : 0 < m -> (0 < IZR m * p2 e)%R.
Proof. intros H. apply Rmult_lt_0_compat; [apply IZR_lt; exact H|apply p2_pos]. Qed.

(** ** Float.Set of a new Float with precision p and mode ToNearestEven *)
Lemma Set_correct p x m e :
  frm x = Finite m e -> wf x -> 0 < p ->
  let r := BigFloat.Set_ (BigFloat.mkBF p BigFloat.ToNearestEven BigFloat.Exact false BigFloat.Zero) x in
  let v := sgnR (neg x) (IZR m * p2 e) in
  let y := rnd_prec BigFloat.ToNearestEven p v in
  neg r = neg x /\
  acc_ok (acc r) (bval r) v /\
  ((exists m' e', frm r = Finite m' e' /\ 0 < m' /\ sigbits m' p /\
      gexp m e <= gexp m' e' <= MaxExp /\ y = sgnR (neg x) (IZR m' * p2 e'))
   \/ (frm r = BigFloat.Inf /\ (p2 MaxExp <= Rabs y)%R)).
Proof.
  intros Hf [Hpr Hw] Hp. rewrite Hf in Hw. destruct Hw as (Hm & Hs & Hg).
  unfold BigFloat.Set_. cbn [prec rmode].
  replace (p =? 0) with false by (symmetry; apply Z.eqb_neq; lia).
  destruct (Z.ltb_spec p (prec x)) as [L|L].
  - destruct (round_correct (BigFloat.mkBF p BigFloat.ToNearestEven BigFloat.Exact (neg x) (frm x)) m e)
      as (_ & _ & H1 & H2 & H3); try assumption; try lia.
    cbn [neg rmode prec] in *. auto.
  - cbn [neg acc frm prec]. repeat split.
    + unfold bval. cbn [frm neg]. rewrite Hf. reflexivity.
    + left. exists m, e. rewrite Hf. repeat split; try lia.
      * apply sigbits_mono with (prec x); [lia|exact Hs].
      * apply rnd_prec_fits; try assumption; try lia.
        apply sigbits_mono with (prec x); [lia|exact Hs].
Qed.

(** ** Float.Float64 and Float.Float32 *)

(** The k most significant bits of m, as an integer (padded if m is shorter). *)
Definition top (k m : Z) : Z :=
  if bitlen m <=? k then m * 2 ^ (k - bitlen m) else m / 2 ^ (bitlen m - k).

Lemma msb_top w k m : 0 < m -> 0 <= k <= w -> BigFloat.msb w m / 2 ^ (w - k) = top k m.
Proof.
  intros Hm Hk. unfold BigFloat.msb, top. pose proof (bitlen_pos m Hm).
  destruct (Z.leb_spec (bitlen m) w) as [L|L], (Z.leb_spec (bitlen m) k) as [L2|L2]; try lia.
  - replace (w - bitlen m) with ((k - bitlen m) + (w - k)) by lia.
    rewrite Z.pow_add_r, Z.mul_assoc by lia. apply Z.div_mul. apply Z.pow_nonzero; lia.
  - replace (w - k) with ((bitlen m - k) + (w - bitlen m)) by lia.
    rewrite Z.pow_add_r by lia. apply Z.div_mul_cancel_r; apply Z.pow_nonzero; lia.
  - rewrite Z.div_div by (try apply Z.pow_nonzero; try apply Z.pow_pos_nonneg; lia).
    rewrite <- Z.pow_add_r by lia. f_equal. f_equal. lia.
Qed.

Lemma top_exact m e M c : 0 < m -> (IZR m * p2 e = IZR M * p2 c)%R -> 0 <= gexp m e - c ->
  top (gexp m e - c) m = M.
Proof.
  intros Hm E Hk. unfold top. unfold gexp in *.
  destruct (Z.leb_spec (bitlen m) (bitlen m + e - c)) as [L|L].
  - replace (bitlen m + e - c - bitlen m) with (e - c) by lia.
    replace e with ((e - c) + c) in E by lia. rewrite p2_plus, <- Rmult_assoc in E.
    apply Rmult_eq_reg_r in E; [|apply Rgt_not_eq, p2_pos].
    rewrite <- IZR_pow2, <- mult_IZR in E by lia. apply eq_IZR in E. exact E.
  - replace (bitlen m - (bitlen m + e - c)) with (c - e) by lia.
    replace c with ((c - e) + e) in E by lia. rewrite p2_plus, <- Rmult_assoc in E.
    apply Rmult_eq_reg_r in E; [|apply Rgt_not_eq, p2_pos].
    rewrite <- IZR_pow2, <- mult_IZR in E by lia. apply eq_IZR in E.
    rewrite E. apply Z.div_mul. apply Z.pow_nonzero; lia.
Qed.

Lemma rn_as_prec mb eb s m e :
  0 < m -> 0 <= mb -> 1 <= eb ->
  let emin := 2 - 2 ^ (eb - 1) in
  let ex := gexp m e - 1 in
  let p := if ex <? emin then mb + 1 - emin + ex else mb + 1 in
  rn mb eb (sgnR s (IZR m * p2 e)) =
  rnd_prec BigFloat.ToNearestEven p (sgnR s (IZR m * p2 e)).
Proof.
  intros Hm Hmb Heb emin ex p. unfold rn, rnd_prec.
  change ZnearestE with (mode_rnd BigFloat.ToNearestEven).
  rewrite !round_at by exact Hm.
  assert (E : FLT_exp (3 - 2 ^ (eb - 1) - (mb + 1)) (mb + 1) (gexp m e) = FLX_exp p (gexp m e)).
  { unfold FLT_exp, FLX_exp, p, ex, emin.
    destruct (Z.ltb_spec (gexp m e - 1) (2 - 2 ^ (eb - 1))); lia. }
  rewrite E. reflexivity.
Qed.

Global Instance valid_FLT mb eb : 0 <= mb -> Valid_exp (FLT_exp (3 - 2 ^ (eb - 1) - (mb + 1)) (mb + 1)).
Proof. intros H. apply FLT_exp_valid. unfold Prec_gt_0. lia. Qed.

Lemma rn_format mb eb x : 0 <= mb ->
  exists M, rn mb eb x = (IZR M * p2 (FLT_exp (3 - 2 ^ (eb - 1) - (mb + 1)) (mb + 1) (mag radix2 (rn mb eb x))))%R.
Proof.
  intros Hmb. pose proof (valid_FLT mb eb Hmb) as V.
  assert (G : generic_format radix2 (FLT_exp (3 - 2 ^ (eb - 1) - (mb + 1)) (mb + 1)) (rn mb eb x)).
  { apply generic_format_round; [exact V|apply valid_rnd_N]. }
  eexists. exact G.
Qed.

Lemma rn_small mb eb s m e : 0 < m -> 0 <= mb -> 1 <= eb ->
  let k := mb + 1 - (2 - 2 ^ (eb - 1)) + (gexp m e - 1) in
  (k < 0 \/ (k = 0 /\ m = 2 ^ (bitlen m - 1))) ->
  rn mb eb (sgnR s (IZR m * p2 e)) = 0%R.
Proof.
  intros Hm Hmb Heb k Hk. unfold rn.
  change ZnearestE with (mode_rnd BigFloat.ToNearestEven).
  rewrite round_at by exact Hm.
  set (c := FLT_exp (3 - 2 ^ (eb - 1) - (mb + 1)) (mb + 1) (gexp m e)).
  assert (Hc : c = 2 - 2 ^ (eb - 1) - mb) by (unfold c, FLT_exp; unfold k in Hk; lia).
  assert (Hc2 : c - e = bitlen m - k) by (unfold k, gexp; lia).
  rewrite Hc2.
  pose proof (bitlen_pos m Hm). pose proof (bitlen_spec m Hm) as [B1 B2].
  assert (E0 : round_mant BigFloat.ToNearestEven s m (bitlen m - k) = 0).
  { unfold round_mant.
    replace (bitlen m - k <=? 0) with false by (symmetry; apply Z.leb_gt; lia).
    assert (Hlt : m < 2 ^ (bitlen m - k)).
    { apply Z.lt_le_trans with (1 := B2). apply Z.pow_le_mono_r; lia. }
    rewrite Z.div_small, Z.mod_small by lia.
    replace (m =? 0) with false by (symmetry; apply Z.eqb_neq; lia).
    unfold round_inc.
    assert (Hle : m <= 2 ^ (bitlen m - k - 1)).
    { destruct Hk as [Hk|[Hk Hm2]].
      - assert (2 ^ bitlen m <= 2 ^ (bitlen m - k - 1)) by (apply Z.pow_le_mono_r; lia). lia.
      - rewrite Hk. replace (bitlen m - 0 - 1) with (bitlen m - 1) by lia. lia. }
    replace (2 ^ (bitlen m - k - 1) <? m) with false by (symmetry; apply Z.ltb_ge; lia).
    simpl Z.odd. rewrite andb_false_r. reflexivity. }
  rewrite E0. rewrite Rmult_0_l. apply sgnR_0.
Qed.

Lemma rn_half mb eb s m e : 0 < m -> 0 <= mb -> 1 <= eb ->
  mb + 1 - (2 - 2 ^ (eb - 1)) + (gexp m e - 1) = 0 -> m <> 2 ^ (bitlen m - 1) ->
  rn mb eb (sgnR s (IZR m * p2 e)) = sgnR s (p2 (2 - 2 ^ (eb - 1) - mb)) /\
  (IZR m * p2 e < p2 (2 - 2 ^ (eb - 1) - mb))%R.
Proof.
  intros Hm Hmb Heb Hk Hne.
  assert (Hlt : (IZR m * p2 e < p2 (2 - 2 ^ (eb - 1) - mb))%R).
  { pose proof (gexp_spec m e Hm) as [_ G]. replace (2 - 2 ^ (eb - 1) - mb) with (gexp m e) by lia. exact G. }
  split; [|exact Hlt].
  unfold rn. change ZnearestE with (mode_rnd BigFloat.ToNearestEven).
  rewrite round_at by exact Hm.
  set (c := FLT_exp (3 - 2 ^ (eb - 1) - (mb + 1)) (mb + 1) (gexp m e)).
  assert (Hc : c = 2 - 2 ^ (eb - 1) - mb) by (unfold c, FLT_exp; lia).
  assert (Hc2 : c - e = bitlen m) by (unfold gexp in *; lia).
  rewrite Hc2.
  pose proof (bitlen_pos m Hm). pose proof (bitlen_spec m Hm) as [B1 B2].
  assert (E0 : round_mant BigFloat.ToNearestEven s m (bitlen m) = 1).
  { unfold round_mant.
    replace (bitlen m <=? 0) with false by (symmetry; apply Z.leb_gt; lia).
    rewrite Z.div_small, Z.mod_small by lia.
    replace (m =? 0) with false by (symmetry; apply Z.eqb_neq; lia).
    unfold round_inc.
    replace (2 ^ (bitlen m - 1) <? m) with true by (symmetry; apply Z.ltb_lt; lia).
    reflexivity. }
  rewrite E0, Hc. f_equal. ring.
Qed.

Lemma ieee_round_num mb eb s x : (Rabs (rn mb eb x) < p2 (2 ^ (eb - 1)))%R ->
  ieee_round mb eb s x = VNum s (rn mb eb x).
Proof. intros H. unfold ieee_round. rewrite Rle_bool_false by exact H. reflexivity. Qed.

Lemma ieee_round_inf mb eb s x : (p2 (2 ^ (eb - 1)) <= Rabs (rn mb eb x))%R ->
  ieee_round mb eb s x = VInf s.
Proof. intros H. unfold ieee_round. rewrite Rle_bool_true by exact H. reflexivity. Qed.

(** ieee of an encoded magnitude M * 2^(max exponent), the general reading. *)
Lemma ieee_enc_sub mb eb s F : 0 <= mb -> 1 <= eb -> 0 <= F < 2 ^ mb ->
  ieee mb eb (enc mb eb s 0 F) = VNum s (sgnR s (IZR F * p2 (2 - 2 ^ (eb - 1) - mb))).
Proof.
  intros Hm He HF. pose proof (pow2_pos eb ltac:(lia)).
  rewrite ieee_enc by lia. unfold ieee_parts.
  assert (2 ^ 1 <= 2 ^ eb) by (apply Z.pow_le_mono_r; lia). change (2 ^ 1) with 2 in *.
  replace (0 =? 2 ^ eb - 1) with false by (symmetry; apply Z.eqb_neq; lia).
  rewrite Z.eqb_refl. f_equal. f_equal. f_equal. f_equal. lia.
Qed.

Lemma ieee_enc_norm mb eb s E F : 0 <= mb -> 1 <= eb -> 0 < E < 2 ^ eb - 1 -> 0 <= F < 2 ^ mb ->
  ieee mb eb (enc mb eb s E F) = VNum s (sgnR s (IZR (2 ^ mb + F) * p2 (E + 1 - 2 ^ (eb - 1) - mb))).
Proof.
  intros Hm He HE HF. rewrite ieee_enc by lia. unfold ieee_parts.
  replace (E =? 2 ^ eb - 1) with false by (symmetry; apply Z.eqb_neq; lia).
  replace (E =? 0) with false by (symmetry; apply Z.eqb_neq; lia).
  f_equal. f_equal. f_equal. f_equal. lia.
Qed.

Lemma ieee_enc_inf mb eb s : 0 <= mb -> 1 <= eb ->
  ieee mb eb (enc mb eb s (2 ^ eb - 1) 0) = VInf s.
Proof.
  intros Hm He. pose proof (pow2_pos eb ltac:(lia)). pose proof (pow2_pos mb ltac:(lia)).
  rewrite ieee_enc by lia. unfold ieee_parts. rewrite !Z.eqb_refl. reflexivity.
Qed.

Lemma abs_val s m e : 0 < m -> Rabs (sgnR s (IZR m * p2 e)) = (IZR m * p2 e)%R.
Proof. intros H. rewrite abs_sgnR. apply Rabs_pos_eq. pose proof (val_pos m e H). lra. Qed.

Lemma mag_sgn s m e : 0 < m -> mag radix2 (sgnR s (IZR m * p2 e)) = gexp m e :> Z.
Proof. intros H. destruct s; simpl; [rewrite mag_opp|]; apply mag_val; exact H. Qed.

Theorem ToFloat_correct mb eb x m e :
  0 <= mb -> 2 <= eb -> 2 ^ (eb - 1) <= MaxExp ->
  frm x = Finite m e -> wf x ->
  let v := sgnR (neg x) (IZR m * p2 e) in
  let '(b, a) := BigFloat.ToFloat mb eb x in
  0 <= b < 2 ^ (mb + eb + 1) /\
  ieee mb eb b = ieee_round mb eb (neg x) v /\
  acc_ok a (ieee mb eb b) v.
Proof.
  intros Hmb Heb Hbig Hf Hw v. pose proof Hw as Hw'.
  destruct Hw' as [Hpr Hw']. rewrite Hf in Hw'. destruct Hw' as (Hm & Hs & Hg).
  unfold BigFloat.ToFloat. rewrite Hf.
  pose proof (pow2_pos eb ltac:(lia)) as Hpe. pose proof (pow2_pos mb Hmb) as Hpm.
  assert (Hpe1 : 2 ^ eb = 2 * 2 ^ (eb - 1)).
  { replace eb with (eb - 1 + 1) at 1 by lia. rewrite Z.pow_add_r by lia. change (2 ^ 1) with 2. lia. }
  assert (Hpe2 : 2 <= 2 ^ (eb - 1)) by (change 2 with (2 ^ 1) at 1; apply Z.pow_le_mono_r; lia).
  replace (1 - (2 ^ (eb - 1) - 1)) with (2 - 2 ^ (eb - 1)) by lia.
  set (emin := 2 - 2 ^ (eb - 1)).
  set (ex := gexp m e - 1).
  pose proof (val_pos m e Hm) as Hvp.
  pose proof (rn_as_prec mb eb (neg x) m e Hm Hmb ltac:(lia)) as Hrp.
  cbv zeta in Hrp. fold emin in Hrp. fold ex in Hrp.
  set (p := if ex <? emin then mb + 1 - emin + ex else mb + 1) in *.
  fold v in Hrp.
  assert (Hinf : BigFloat.with_sign mb eb (neg x) ((2 ^ eb - 1) * 2 ^ mb) = enc mb eb (neg x) (2 ^ eb - 1) 0).
  { rewrite <- with_sign_enc by lia. f_equal. lia. }
  rewrite Hinf.
  destruct ((p <? 0) || ((p =? 0) && (m =? 2 ^ (bitlen m - 1)))) eqn:Etiny.
  { (* rounds to zero *)
    apply orb_true_iff in Etiny.
    assert (Hk : mb + 1 - emin + ex < 0 \/ (mb + 1 - emin + ex = 0 /\ m = 2 ^ (bitlen m - 1))).
    { assert (ex < emin).
      { destruct (Z.ltb_spec ex emin); [assumption|exfalso].
        unfold p in Etiny. 
        rewrite Z.ltb_lt, andb_true_iff, Z.eqb_eq in Etiny. lia. }
      unfold p in Etiny. rewrite (proj2 (Z.ltb_lt ex emin)) in Etiny by assumption.
      rewrite Z.ltb_lt, andb_true_iff, !Z.eqb_eq in Etiny. exact Etiny. }
    assert (Hz : rn mb eb v = 0%R) by (apply rn_small; try lia; exact Hk).
    rewrite with_sign_enc0 by lia. split; [apply enc_range; lia|].
    rewrite ieee_enc_sub by lia. rewrite Rmult_0_l, sgnR_0.
    split.
    - rewrite ieee_round_num; [rewrite Hz; reflexivity|].
      rewrite Hz, Rabs_R0. apply p2_pos.
    - unfold v. destruct (neg x); simpl; lra. }
  apply orb_false_iff in Etiny. destruct Etiny as [Hp0 Hp1].
  apply Z.ltb_ge in Hp0.
  destruct (Z.eqb_spec p 0) as [Ep|Ep].
  { simpl in Hp1. apply Z.eqb_neq in Hp1.
    assert (Hlt : ex < emin) by (unfold p in Ep; destruct (Z.ltb_spec ex emin); lia).
    unfold p in Ep. rewrite (proj2 (Z.ltb_lt ex emin)) in Ep by assumption.
    assert (Hn2 : (1 < 2 ^ mb \/ mb = 0)).
    { destruct (Z.eq_dec mb 0); [right; assumption|left].
      change 1 with (2 ^ 0). apply Z.pow_lt_mono_r; lia. }
    destruct (rn_half mb eb (neg x) m e Hm Hmb ltac:(lia) Ep Hp1) as [R1 R2].
    assert (Henc : BigFloat.with_sign mb eb (neg x) 1 =
                   if mb =? 0 then enc mb eb (neg x) 1 0 else enc mb eb (neg x) 0 1).
    { destruct (Z.eqb_spec mb 0) as [->|N].
      - rewrite <- with_sign_enc by lia. reflexivity.
      - rewrite with_sign_enc0 by lia. reflexivity. }
    assert (Hval : ieee mb eb (BigFloat.with_sign mb eb (neg x) 1) = VNum (neg x) (sgnR (neg x) (p2 (emin - mb)))).
    { rewrite Henc. destruct (Z.eqb_spec mb 0) as [E0|N].
      - rewrite ieee_enc_norm by lia. f_equal. f_equal.
        rewrite E0. change (2 ^ 0 + 0) with 1. rewrite Rmult_1_l. reflexivity.
      - rewrite ieee_enc_sub by lia. rewrite Rmult_1_l. reflexivity. }
    rewrite Hval. split.
    - rewrite Henc. destruct (Z.eqb_spec mb 0) as [E0|N]; apply enc_range; lia.
    - fold v in R1. fold emin in R1, R2. split.
      + rewrite ieee_round_num; [rewrite R1; reflexivity|].
        rewrite R1, abs_sgnR, Rabs_pos_eq by (left; apply p2_pos).
        apply p2_lt. unfold emin. lia.
      + unfold v. destruct (neg x); simpl; lra. }
  assert (Hpp : 0 < p) by lia.
  destruct (Set_correct p x m e Hf Hw Hpp) as (Hneg & Hacc & Hres).
  set (r := BigFloat.Set_ _ x) in *. fold v in Hacc, Hres. rewrite <- Hrp in Hres.
  destruct Hres as [(rm & re & Hfr & Hrm & Hrs & Hrg & Hy)|[Hfr Hy]]; rewrite Hfr.
  2:{ assert (Hy2 : (p2 (2 ^ (eb - 1)) <= Rabs (rn mb eb v))%R).
      { apply Rle_trans with (2 := Hy). apply p2_le. lia. }
      split; [apply enc_range; lia|]. rewrite ieee_enc_inf by lia.
      rewrite ieee_round_inf by exact Hy2. split; [reflexivity|].
      destruct (neg x); reflexivity. }
  set (ex2 := gexp rm re - 1).
  pose proof (abs_val (neg x) rm re Hrm) as Habs.
  pose proof (gexp_spec rm re Hrm) as [G1 G2].
  destruct (Z.ltb_spec (2 ^ (eb - 1) - 1) ex2) as [Ho|Ho].
  { assert (Hy2 : (p2 (2 ^ (eb - 1)) <= Rabs (rn mb eb v))%R).
    { rewrite Hy, Habs. apply Rle_trans with (2 := G1). apply p2_le. unfold ex2 in Ho. lia. }
    split; [apply enc_range; lia|]. rewrite ieee_enc_inf by lia.
    rewrite ieee_round_inf by exact Hy2. split; [reflexivity|].
    destruct (neg x); reflexivity. }
  assert (Hnum : ieee_round mb eb (neg x) v = VNum (neg x) (rn mb eb v)).
  { apply ieee_round_num. rewrite Hy, Habs. apply Rlt_le_trans with (1 := G2).
    apply p2_le. unfold ex2 in Ho. lia. }
  assert (Hacc2 : acc_ok (acc r) (VNum (neg x) (rn mb eb v)) v).
  { unfold bval in Hacc. rewrite Hfr, Hneg in Hacc. rewrite Hy. exact Hacc. }
  destruct (rn_format mb eb v Hmb) as [M HM].
  assert (HM2 : exists M', (IZR rm * p2 re = IZR M' * p2 (Z.max (ex2 - mb) (emin - mb)))%R).
  { rewrite Hy in HM. rewrite mag_sgn in HM by exact Hrm.
    replace (FLT_exp (3 - 2 ^ (eb - 1) - (mb + 1)) (mb + 1) (gexp rm re))
      with (Z.max (ex2 - mb) (emin - mb)) in HM by (unfold FLT_exp, ex2, emin; lia).
    destruct (neg x); simpl in HM.
    - exists (- M). rewrite opp_IZR. lra.
    - exists M. exact HM. }
  clear HM M. destruct HM2 as [M HM].
  assert (Hrx : ex <= ex2) by (unfold ex, ex2; lia).
  destruct (Z.ltb_spec ex2 emin) as [Hsub|Hnrm].
  - (* subnormal *)
    assert (Hp2 : p = mb + 1 - emin + ex).
    { unfold p. rewrite (proj2 (Z.ltb_lt ex emin)) by lia. reflexivity. }
    rewrite msb_top by lia.
    rewrite Z.max_r in HM by lia.
    replace (mb + 1 - emin + ex2) with (gexp rm re - (emin - mb)) by (unfold ex2; lia).
    rewrite (top_exact rm re M (emin - mb) Hrm HM) by (unfold ex2 in *; lia).
    assert (HMr : 0 <= M < 2 ^ mb).
    { split.
      - apply le_IZR. apply Rmult_le_reg_r with (p2 (emin - mb)); [apply p2_pos|].
        rewrite <- HM. rewrite Rmult_0_l. left. apply val_pos; exact Hrm.
      - apply lt_IZR. apply Rmult_lt_reg_r with (p2 (emin - mb)); [apply p2_pos|].
        rewrite <- HM. rewrite IZR_pow2, <- p2_plus by lia.
        apply Rlt_le_trans with (1 := G2). apply p2_le. unfold ex2 in *; lia. }
    rewrite with_sign_enc0 by lia.
    split; [apply enc_range; lia|].
    rewrite ieee_enc_sub by lia. fold emin. rewrite <- HM, <- Hy.
    rewrite Hnum. split; [reflexivity|exact Hacc2].
  - (* normal *)
    rewrite Z.max_l in HM by lia.
    replace (mb + eb + 1) with (mb + eb + 1) by lia.
    assert (Ht : BigFloat.msb (mb + eb + 1) rm / 2 ^ eb = M).
    { replace eb with (mb + eb + 1 - (mb + 1)) at 2 by lia.
      rewrite msb_top by lia.
      replace (mb + 1) with (gexp rm re - (ex2 - mb)) by (unfold ex2; lia).
      apply top_exact; try assumption. unfold ex2; lia. }
    rewrite Ht, land_ones_mod by lia.
    assert (HMr : 2 ^ mb <= M < 2 * 2 ^ mb).
    { split.
      - apply le_IZR. apply Rmult_le_reg_r with (p2 (ex2 - mb)); [apply p2_pos|].
        rewrite <- HM. rewrite IZR_pow2, <- p2_plus by lia.
        replace (mb + (ex2 - mb)) with (gexp rm re - 1) by (unfold ex2; lia). exact G1.
      - apply lt_IZR. apply Rmult_lt_reg_r with (p2 (ex2 - mb)); [apply p2_pos|].
        rewrite <- HM. replace (2 * 2 ^ mb) with (2 ^ (mb + 1)) by (rewrite Z.pow_add_r by lia; change (2 ^ 1) with 2; lia).
        rewrite IZR_pow2, <- p2_plus by lia.
        replace (mb + 1 + (ex2 - mb)) with (gexp rm re) by (unfold ex2; lia). exact G2. }
    assert (HMm : M mod 2 ^ mb = M - 2 ^ mb).
    { symmetry. apply Z.mod_unique with 1; lia. }
    rewrite HMm, lor_add by lia.
    rewrite with_sign_enc by (unfold emin in *; lia).
    split; [apply enc_range; unfold emin in *; lia|].
    rewrite ieee_enc_norm by (unfold emin in *; lia).
    replace (2 ^ mb + (M - 2 ^ mb)) with M by lia.
    replace (ex2 + (2 ^ (eb - 1) - 1) + 1 - 2 ^ (eb - 1) - mb) with (ex2 - mb) by lia.
    rewrite <- HM, <- Hy, Hnum. split; [reflexivity|exact Hacc2].
Qed.
