(** More facts about the model of big.Float: SetFloat64, exactness, SetPrec, MantExp,
    SetMantExp, Uint64, Int and IsInt. *)
From Coq Require Import ZArith Reals Lia Lra Bool.
From Flocq Require Import Core.
From Verif Require Import GoBase.
From Verif Require BigFloat.
From Verif Require Import Spec BitFacts RoundFacts IeeeFacts BigFacts.
Import BigFloat (bitlen, gexp, round_inc, prec, rmode, acc, neg, frm, Finite, MaxExp, MinExp, MaxPrec).
Open Scope Z_scope.

Lemma VNum_inj s x t y : VNum s x = VNum t y -> s = t /\ x = y.
Proof. intros H. inversion H. split; reflexivity. Qed.

Lemma fits_rn mb eb v : 0 <= mb -> fits mb eb v -> rn mb eb v = v.
Proof.
  intros Hm [(M & c & E & HM & Hc) _]. unfold rn. apply round_generic; [apply valid_rnd_N|].
  apply generic_format_FLT. exists (Float radix2 M c).
  - rewrite F2R_p2. exact E.
  - exact HM.
  - cbn [Fexp]. lia.
Qed.

Lemma fits_round mb eb s v : 0 <= mb -> fits mb eb v -> ieee_round mb eb s v = VNum s v.
Proof.
  intros Hm Hf. pose proof (fits_rn mb eb v Hm Hf) as E.
  rewrite ieee_round_num; rewrite E; [reflexivity|]. apply Hf.
Qed.

Lemma fits_mono mb eb mb' eb' v : mb <= mb' -> 1 <= eb <= eb' -> fits mb eb v -> fits mb' eb' v.
Proof.
  intros Hm He [(M & c & E & HM & Hc) Hb].
  assert (2 ^ (eb - 1) <= 2 ^ (eb' - 1)) by (apply Z.pow_le_mono_r; lia).
  split.
  - exists M, c. repeat split; try assumption; try lia.
    apply Z.lt_le_trans with (1 := HM).
    destruct (Z_le_gt_dec 0 (mb + 1)); [apply Z.pow_le_mono_r; lia|].
    rewrite Z.pow_neg_r in HM by lia. lia.
  - apply Rlt_le_trans with (1 := Hb). apply p2_le. assumption.
Qed.

Lemma fits_opp mb eb v : fits mb eb v -> fits mb eb (- v).
Proof.
  intros [(M & c & E & HM & Hc) Hb]. split.
  - exists (- M), c. rewrite opp_IZR, E. repeat split; try lia. ring.
  - rewrite Rabs_Ropp. exact Hb.
Qed.

Lemma fits_sgn mb eb s v : fits mb eb v -> fits mb eb (sgnR s v).
Proof. destruct s; [apply fits_opp|trivial]. Qed.

Lemma fits_0 mb eb : 0 <= mb -> fits mb eb 0.
Proof.
  intros H. split.
  - exists 0, (2 - 2 ^ (eb - 1) - mb). rewrite Rmult_0_l. repeat split; try lia.
  - rewrite Rabs_R0. apply p2_pos.
Qed.

Lemma fits_ieee mb eb b s v : 0 <= mb -> 2 <= eb -> 0 <= b < 2 ^ (mb + eb + 1) ->
  ieee mb eb b = VNum s v -> fits mb eb v /\ (v = 0%R \/ v = sgnR s (Rabs v)).
Proof.
  intros Hm He Hb H.
  destruct (enc_surj mb eb b Hm ltac:(lia) Hb) as (t & E & F & HE & HF & ->).
  pose proof (pow2_pos mb Hm) as Hpm.
  assert (Hpe1 : 2 ^ eb = 2 * 2 ^ (eb - 1)).
  { replace eb with (eb - 1 + 1) at 1 by lia. rewrite Z.pow_add_r by lia. change (2 ^ 1) with 2. lia. }
  assert (Hpe2 : 2 <= 2 ^ (eb - 1)) by (change 2 with (2 ^ 1) at 1; apply Z.pow_le_mono_r; lia).
  assert (Hpm1 : 2 ^ (mb + 1) = 2 * 2 ^ mb) by (rewrite Z.pow_add_r by lia; change (2 ^ 1) with 2; lia).
  assert (Hb1 : forall M c, 0 <= M < 2 * 2 ^ mb -> c + mb + 1 <= 2 ^ (eb - 1) ->
     (Rabs (IZR M * p2 c) < p2 (2 ^ (eb - 1)))%R).
  { intros M c HM Hc. rewrite Rabs_pos_eq.
    - apply Rlt_le_trans with (p2 (mb + 1 + c)); [|apply p2_le; lia].
      rewrite p2_plus. apply Rmult_lt_compat_r; [apply p2_pos|].
      rewrite <- IZR_pow2 by lia. apply IZR_lt. lia.
    - apply Rmult_le_pos; [apply IZR_le; lia|left; apply p2_pos]. }
  assert (Hsg : forall M c, 0 <= M -> sgnR t (IZR M * p2 c) = sgnR t (Rabs (sgnR t (IZR M * p2 c)))).
  { intros M c HM. rewrite abs_sgnR, Rabs_pos_eq; [reflexivity|].
    apply Rmult_le_pos; [apply IZR_le; lia|left; apply p2_pos]. }
  rewrite ieee_enc in H by lia. unfold ieee_parts in H.
  destruct (Z.eqb_spec E (2 ^ eb - 1)) as [e1|e1].
  { destruct (F =? 0); discriminate. }
  destruct (Z.eqb_spec E 0) as [e0|e0]; apply VNum_inj in H; destruct H as [<- <-].
  - split; [|right; apply Hsg; lia]. apply fits_sgn. split; [|apply Hb1; lia].
    exists F, (1 - (2 ^ (eb - 1) - 1) - mb). repeat split; lia.
  - split; [|right; apply Hsg; lia]. apply fits_sgn. split; [|apply Hb1; lia].
    exists (2 ^ mb + F), (E - (2 ^ (eb - 1) - 1) - mb). repeat split; lia.
Qed.

(** ** SetFloat64 *)
Lemma SetFloat_correct mb eb b :
  0 <= mb <= 52 -> 2 <= eb <= 15 -> 0 <= b < 2 ^ (mb + eb + 1) ->
  match ieee mb eb b with
  | VNaN _ => BigFloat.SetFloat mb eb b = Panic
  | v => exists x, BigFloat.SetFloat mb eb b = Ret x /\ bval x = v /\ wf x /\
         prec x = 53 /\ rmode x = BigFloat.ToNearestEven /\ acc x = BigFloat.Exact
  end.
Proof.
  intros Hm He Hb.
  destruct (enc_surj mb eb b ltac:(lia) ltac:(lia) Hb) as (s & E & F & HE & HF & ->).
  unfold BigFloat.SetFloat.
  rewrite ieee_enc, f_sign_enc, f_exp_enc, f_frac_enc by lia. unfold ieee_parts.
  assert (Hpm : 2 ^ mb <= 2 ^ 52) by (apply Z.pow_le_mono_r; lia).
  pose proof (pow2_pos mb ltac:(lia)) as Hpm0.
  assert (Hpe : 2 ^ eb <= 2 ^ 15) by (apply Z.pow_le_mono_r; lia).
  assert (Hpe1 : 2 ^ eb = 2 * 2 ^ (eb - 1)).
  { replace eb with (eb - 1 + 1) at 1 by lia. rewrite Z.pow_add_r by lia. change (2 ^ 1) with 2. lia. }
  assert (Hpe2 : 2 <= 2 ^ (eb - 1)) by (change 2 with (2 ^ 1) at 1; apply Z.pow_le_mono_r; lia).
  assert (Hwf : forall m e, 0 < m < 2 * 2 ^ mb -> - 2 ^ 15 - 52 <= e <= 2 ^ 15 ->
    wf (BigFloat.mkBF 53 BigFloat.ToNearestEven BigFloat.Exact s (Finite m e))).
  { intros m e Hm1 He1. unfold wf. cbn [prec frm]. split; [unfold MaxPrec; lia|].
    split; [lia|]. 
    assert (m < 2 ^ 53) by (change (2 ^ 53) with (2 * 2 ^ 52); lia).
    split; [apply sigbits_lt; assumption|].
    assert (bitlen m <= 53) by (apply bitlen_le_lt; lia).
    pose proof (bitlen_pos m ltac:(lia)). unfold gexp, MinExp, MaxExp. lia. }
  destruct (Z.eqb_spec E (2 ^ eb - 1)) as [e1|e1].
  - destruct (Z.eqb_spec F 0) as [f0|f0]; [|reflexivity].
    eexists. split; [reflexivity|]. repeat split; unfold MaxPrec; cbn; lia.
  - destruct (Z.eqb_spec E 0) as [e0|e0].
    + destruct (Z.eqb_spec F 0) as [f0|f0].
      * eexists. split; [reflexivity|]. split.
        -- unfold bval; cbn. rewrite f0, Rmult_0_l, sgnR_0. reflexivity.
        -- repeat split; unfold MaxPrec; cbn; lia.
      * eexists. split; [reflexivity|]. split; [reflexivity|].
        split; [apply Hwf; lia|]. repeat split.
    + eexists. split; [reflexivity|]. split; [reflexivity|].
      split; [apply Hwf; lia|]. repeat split.
Qed.

(** ** Float64 and Float32 of any well-formed big.Float *)
Lemma rn_0 mb eb : rn mb eb 0 = 0%R.
Proof. unfold rn. apply round_0. apply valid_rnd_N. Qed.

Lemma ToFloat_val mb eb x :
  0 <= mb -> 2 <= eb -> 2 ^ (eb - 1) <= MaxExp -> wf x ->
  let '(b, a) := BigFloat.ToFloat mb eb x in
  0 <= b < 2 ^ (mb + eb + 1) /\
  match bval x with
  | VInf s => ieee mb eb b = VInf s /\ a = BigFloat.Exact
  | VNum s v => ieee mb eb b = ieee_round mb eb s v /\ acc_ok a (ieee mb eb b) v
  | VNaN _ => False
  end.
Proof.
  intros Hm He Hmax Hw.
  pose proof (pow2_pos mb ltac:(lia)) as Hpm. pose proof (pow2_pos eb ltac:(lia)) as Hpe.
  destruct (frm x) as [|m e|] eqn:Hf.
  - unfold BigFloat.ToFloat, bval. rewrite Hf.
    rewrite with_sign_enc0 by lia. split; [apply enc_range; lia|].
    rewrite ieee_enc_sub by lia. rewrite Rmult_0_l, sgnR_0.
    split; [|reflexivity]. rewrite ieee_round_num; rewrite rn_0; [reflexivity|].
    rewrite Rabs_R0. apply p2_pos.
  - pose proof (ToFloat_correct mb eb x m e Hm He Hmax Hf Hw) as H.
    unfold bval. rewrite Hf. exact H.
  - unfold BigFloat.ToFloat, bval. rewrite Hf.
    replace ((2 ^ eb - 1) * 2 ^ mb) with ((2 ^ eb - 1) * 2 ^ mb + 0) by lia.
    rewrite with_sign_enc by lia. split; [apply enc_range; lia|].
    rewrite ieee_enc_inf by lia. split; reflexivity.
Qed.

Lemma acc_ok_exact a s v : acc_ok a (VNum s v) v -> a = BigFloat.Exact.
Proof. destruct a; simpl; intros H; [lra|reflexivity|lra]. Qed.

(** A number of the format is converted without change. *)
Lemma ToFloat_exact mb eb x s v :
  0 <= mb -> 2 <= eb -> 2 ^ (eb - 1) <= MaxExp -> wf x ->
  bval x = VNum s v -> fits mb eb v ->
  let '(b, a) := BigFloat.ToFloat mb eb x in
  0 <= b < 2 ^ (mb + eb + 1) /\ ieee mb eb b = VNum s v /\ a = BigFloat.Exact.
Proof.
  intros Hm He Hmax Hw Hv Hfit.
  pose proof (ToFloat_val mb eb x Hm He Hmax Hw) as H.
  destruct (BigFloat.ToFloat mb eb x) as [b a]. rewrite Hv in H.
  destruct H as (H1 & H2 & H3).
  rewrite (fits_round mb eb s v Hm Hfit) in H2. rewrite H2 in H3.
  apply acc_ok_exact in H3. auto.
Qed.

Lemma ToFloat_of_ieee mb eb x b :
  0 <= mb -> 2 <= eb -> 2 ^ (eb - 1) <= MaxExp -> wf x -> 0 <= b < 2 ^ (mb + eb + 1) ->
  bval x = ieee mb eb b ->
  BigFloat.ToFloat mb eb x = (b, BigFloat.Exact).
Proof.
  intros Hm He Hmax Hw Hb Hv.
  assert (Hn : forall s, ieee mb eb b <> VNaN s).
  { intros s. rewrite <- Hv. unfold bval. destruct (frm x); discriminate. }
  pose proof (ToFloat_val mb eb x Hm He Hmax Hw) as H.
  destruct (BigFloat.ToFloat mb eb x) as [b' a] eqn:Et.
  destruct (ieee mb eb b) as [s|s|s v] eqn:Ei.
  - exfalso. eapply Hn. reflexivity.
  - rewrite Hv in H. destruct H as (H1 & H2 & ->). f_equal.
    apply (ieee_inj mb eb); try lia; try congruence. 
  - pose proof (fits_ieee mb eb b s v Hm He Hb Ei) as [Hfit _].
    pose proof (ToFloat_exact mb eb x s v Hm He Hmax Hw Hv Hfit) as H0.
    rewrite Et in H0. destruct H0 as (H1 & H2 & ->). f_equal.
    apply (ieee_inj mb eb); try lia; try congruence.
Qed.

(** ** float32 to float64 *)
Lemma lor_lt a b n : 0 <= n -> 0 <= a < 2 ^ n -> 0 <= b < 2 ^ n -> 0 <= Z.lor a b < 2 ^ n.
Proof.
  intros Hn Ha Hb. split; [apply Z.lor_nonneg; lia|].
  destruct (Z.eq_dec (Z.lor a b) 0) as [->|N]; [apply pow2_pos; exact Hn|].
  assert (0 <= Z.lor a b) by (apply Z.lor_nonneg; lia).
  apply Z.log2_lt_pow2; [lia|]. rewrite Z.log2_lor by lia.
  assert (forall c, 0 <= c < 2 ^ n -> Z.log2 c < n \/ c = 0).
  { intros c Hc. destruct (Z.eq_dec c 0); [right; assumption|left]. apply Z.log2_lt_pow2; lia. }
  pose proof (Z.log2_nonneg a). pose proof (Z.log2_nonneg b).
  destruct (H0 a Ha) as [A|A], (H0 b Hb) as [B|B]; try lia.
  - subst b. change (Z.log2 0) with 0 in *. lia.
  - subst a. change (Z.log2 0) with 0 in *. lia.
  - exfalso. apply N. subst. reflexivity.
Qed.

Lemma f32_to_f64_correct b : 0 <= b < 2 ^ 32 ->
  0 <= BigFloat.f32_to_f64 b < 2 ^ 64 /\ ieee 52 11 (BigFloat.f32_to_f64 b) = ieee 23 8 b.
Proof.
  intros Hb. unfold BigFloat.f32_to_f64.
  rewrite isnan_ieee by (simpl; lia).
  pose proof (SetFloat_correct 23 8 b ltac:(lia) ltac:(lia) Hb) as HS.
  destruct (ieee 23 8 b) as [s|s|s v] eqn:Ei.
  - destruct (enc_surj 23 8 b ltac:(lia) ltac:(lia) Hb) as (t & E & F & HE & HF & ->).
    rewrite f_sign_enc, f_frac_enc by lia.
    rewrite ieee_enc in Ei by lia. unfold ieee_parts in Ei.
    destruct (E =? 2 ^ 8 - 1); [|destruct (E =? 0); discriminate].
    destruct (F =? 0); [discriminate|]. injection Ei as <-.
    pose proof (lor_lt (2 ^ 51) (F * 2 ^ 29) 52 ltac:(lia) ltac:(lia) ltac:(lia)) as L1.
    assert (L2 : Z.lor (2 ^ 51) (F * 2 ^ 29) <> 0) by (rewrite Z.lor_eq_0_iff; lia).
    set (P := Z.lor (2 ^ 51) (F * 2 ^ 29)) in *.
    rewrite (lor_add 2047) by lia.
    rewrite with_sign_enc by lia.
    split; [apply enc_range; lia|]. rewrite ieee_enc by lia. unfold ieee_parts.
    replace (2047 =? 2 ^ 11 - 1) with true by reflexivity.
    replace (P =? 0) with false by (symmetry; apply Z.eqb_neq; lia).
    reflexivity.
  - destruct HS as (x & -> & Hv & Hw & _).
    pose proof (ToFloat_val 52 11 x ltac:(lia) ltac:(lia) ltac:(unfold MaxExp; lia) Hw) as H.
    destruct (BigFloat.ToFloat 52 11 x) as [b' a]. rewrite Hv in H.
    destruct H as (H1 & H2 & H3). auto.
  - destruct HS as (x & -> & Hv & Hw & _).
    pose proof (fits_ieee 23 8 b s v ltac:(lia) ltac:(lia) Hb Ei) as [Hfit _].
    pose proof (ToFloat_exact 52 11 x s v ltac:(lia) ltac:(lia) ltac:(unfold MaxExp; lia) Hw Hv
      (fits_mono 23 8 52 11 v ltac:(lia) ltac:(lia) Hfit)) as H0.
    destruct (BigFloat.ToFloat 52 11 x) as [b' a].
    destruct H0 as (H1 & H2 & _). auto.
Qed.

(** ** SetPrec *)
Lemma SetPrec_correct x p m e :
  frm x = Finite m e -> wf x -> 0 < p <= MaxPrec ->
  let r := BigFloat.SetPrec x p in
  let v := sgnR (neg x) (IZR m * p2 e) in
  let y := rnd_prec (rmode x) p v in
  prec r = p /\ rmode r = rmode x /\ neg r = neg x /\
  acc_ok (acc r) (bval r) v /\
  ((exists m' e', frm r = Finite m' e' /\ 0 < m' /\ sigbits m' p /\
      gexp m e <= gexp m' e' <= MaxExp /\ y = sgnR (neg x) (IZR m' * p2 e'))
   \/ (frm r = BigFloat.Inf /\ (p2 MaxExp <= Rabs y)%R)).
Proof.
  intros Hf [Hpr Hw] Hp. rewrite Hf in Hw. destruct Hw as (Hm & Hs & Hg).
  unfold BigFloat.SetPrec. rewrite Z.min_l by lia.
  destruct (Z.ltb_spec p (prec x)) as [L|L].
  - destruct (round_correct (BigFloat.mkBF p (rmode x) BigFloat.Exact (neg x) (frm x)) m e)
      as (H0 & H00 & H1 & H2 & H3); try assumption; try (apply Hg); try (cbn [prec]; lia).
    cbn [neg rmode prec] in *. auto.
  - cbn [neg acc frm prec rmode]. repeat split.
    + unfold bval. cbn [frm neg]. rewrite Hf. reflexivity.
    + left. exists m, e. rewrite Hf. repeat split; try lia.
      * apply sigbits_mono with (prec x); [lia|exact Hs].
      * apply rnd_prec_fits; try assumption; try lia.
        apply sigbits_mono with (prec x); [lia|exact Hs].
Qed.

(** Raising the precision keeps the number. *)
Lemma SetPrec_up x p : wf x -> prec x <= p <= MaxPrec ->
  let r := BigFloat.SetPrec x p in
  wf r /\ bval r = bval x /\ prec r = p /\ rmode r = rmode x /\ acc r = BigFloat.Exact /\
  neg r = neg x /\ frm r = frm x.
Proof.
  intros [Hp Hw] Hle. unfold BigFloat.SetPrec. rewrite Z.min_l by lia.
  rewrite (proj2 (Z.ltb_ge p (prec x))) by lia. cbn [prec rmode acc neg frm].
  repeat split; try reflexivity; try (cbn [prec]; lia).
  cbn [prec frm]. destruct (frm x) as [|m e|]; try exact I.
  destruct Hw as (H1 & H2 & H3). repeat split; try lia.
  apply sigbits_mono with (prec x); [lia|exact H2].
Qed.

(** ** MantExp followed by SetMantExp *)
Lemma top_floor k m : 0 < m -> top k m = Zfloor (IZR m * p2 (k - bitlen m)).
Proof.
  intros Hm. unfold top. destruct (Z.leb_spec (bitlen m) k) as [L|L].
  - rewrite <- IZR_pow2, <- mult_IZR by lia. rewrite Zfloor_IZR. reflexivity.
  - symmetry. replace (k - bitlen m) with (- (bitlen m - k)) by lia.
    rewrite <- p2_inv, <- IZR_pow2 by lia. apply Zfloor_div. apply Z.pow_nonzero; lia.
Qed.

Lemma top_range k m : 0 < m -> 0 < k -> 2 ^ (k - 1) <= top k m < 2 ^ k.
Proof.
  intros Hm Hk. unfold top. pose proof (bitlen_pos m Hm). pose proof (bitlen_spec m Hm) as [B1 B2].
  destruct (Z.leb_spec (bitlen m) k) as [L|L].
  - assert (0 < m * 2 ^ (k - bitlen m)) by (pose proof (pow2_pos (k - bitlen m)); nia).
    pose proof (bitlen_mul_pow2 m (k - bitlen m) Hm ltac:(lia)) as E.
    replace (bitlen m + (k - bitlen m)) with k in E by lia.
    rewrite <- E at 1 4. apply bitlen_spec. assumption.
  - destruct (bitlen_div m (bitlen m - k) Hm ltac:(lia)) as [H1 H2].
    replace (bitlen m - (bitlen m - k)) with k in H2 by lia.
    rewrite <- H2 at 1 4. apply bitlen_spec. assumption.
Qed.

Lemma top_nonpos k m : 0 < m -> k <= 0 -> top k m = 0.
Proof.
  intros Hm Hk. unfold top. pose proof (bitlen_pos m Hm). pose proof (bitlen_spec m Hm) as [B1 B2].
  rewrite (proj2 (Z.leb_gt (bitlen m) k)) by lia.
  apply Z.div_small. split; [lia|]. apply Z.lt_le_trans with (1 := B2). apply Z.pow_le_mono_r; lia.
Qed.

(** A positive mantissa needs a positive precision. *)
Lemma prec_pos m p : 0 < m -> 0 <= p -> sigbits m p -> 0 < p.
Proof.
  intros Hm Hp (m' & j & E & Hj & L). assert (p <> 0) by (intros ->; change (2 ^ 0) with 1 in L;
    pose proof (Z.pow_pos_nonneg 2 j ltac:(lia) Hj); nia). lia.
Qed.

Lemma mant_scaled x m e k :
  frm x = Finite m e -> wf x -> MinExp <= k <= MaxExp ->
  let r := BigFloat.SetMantExpSelf (fst (BigFloat.MantExp x)) k in
  prec r = prec x /\ neg r = neg x /\ 
  exists m' e', frm r = Finite m' e' /\ 0 < m' /\ sigbits m' (prec x) /\ gexp m' e' = k /\
    (IZR m' * p2 e' = IZR m * p2 (k - bitlen m))%R.
Proof.
  intros Hf [Hp Hw] Hk. rewrite Hf in Hw. destruct Hw as (Hm & Hs & Hg).
  assert (Hp0 := prec_pos m (prec x) Hm ltac:(lia) Hs).
  unfold BigFloat.MantExp. rewrite Hf. cbn [fst].
  unfold BigFloat.SetMantExpSelf. cbn [BigFloat.set_frm frm].
  unfold BigFloat.setExpAndRound.
  assert (G : gexp m (- bitlen m + k) = k) by (unfold gexp; lia). rewrite G.
  rewrite (proj2 (Z.ltb_ge k MinExp)) by lia. rewrite (proj2 (Z.ltb_ge MaxExp k)) by lia.
  set (z := BigFloat.set_frm (BigFloat.set_frm x (Finite m (- bitlen m))) (Finite m (- bitlen m + k))).
  destruct (round_fits z m (- bitlen m + k)) as (H1 & H2 & H3 & H4 & m' & e' & H5 & H6 & H7 & H8 & H9);
    try reflexivity; try assumption.
  cbv zeta in *. split; [exact H1|]. split; [exact H3|].
  exists m', e'. repeat split; try assumption; try lia.
  rewrite H9. f_equal. f_equal. lia.
Qed.

Lemma top_eq k m m' e' : 0 < m -> 0 < m' -> gexp m' e' = k ->
  (IZR m' * p2 e' = IZR m * p2 (k - bitlen m))%R -> top k m' = top k m.
Proof.
  intros Hm Hm' G E. rewrite !top_floor by assumption. rewrite <- E.
  do 3 f_equal. unfold gexp in G. lia.
Qed.

Lemma Uint64_top x m e k : frm x = Finite m e -> 0 < m -> neg x = false -> gexp m e = k -> k <= 64 ->
  fst (BigFloat.Uint64 x) = top k m /\
  snd (BigFloat.Uint64 x) =
    if (0 <? k) && (BigFloat.MinPrec x <=? 64) then BigFloat.Exact else BigFloat.Below.
Proof.
  intros Hf Hm Hn Hk Hle. unfold BigFloat.Uint64. rewrite Hf, Hn, Hk.
  destruct (Z.leb_spec k 0) as [L|L].
  - rewrite (proj2 (Z.ltb_ge 0 k)) by lia. cbn [fst snd andb]. split; [|reflexivity].
    symmetry. apply top_nonpos; assumption.
  - rewrite (proj2 (Z.leb_le k 64)) by lia. rewrite (proj2 (Z.ltb_lt 0 k)) by lia.
    cbn [fst snd andb]. split; [|reflexivity]. apply msb_top; [assumption|lia].
Qed.

Lemma Int_top x m e k : frm x = Finite m e -> 0 < m -> neg x = false -> gexp m e = k ->
  BigFloat.Int x = Some (top k m).
Proof.
  intros Hf Hm Hn Hk. unfold BigFloat.Int. rewrite Hf, Hn, Hk.
  destruct (Z.leb_spec k 0) as [L|L]; [rewrite top_nonpos by assumption; reflexivity|].
  f_equal. unfold top. unfold gexp in Hk.
  destruct (Z.leb_spec 0 e), (Z.leb_spec (bitlen m) k); try lia.
  - do 2 f_equal. lia.
  - do 2 f_equal. lia.
Qed.

Lemma IsInt_iff x m e k : frm x = Finite m e -> 0 < m -> gexp m e = k -> 0 < k -> sigbits m (prec x) ->
  BigFloat.IsInt x = true <-> sigbits m k.
Proof.
  intros Hf Hm Hk Hpos Hs. unfold BigFloat.IsInt, BigFloat.MinPrec. rewrite Hf, Hk.
  rewrite (proj2 (Z.leb_gt k 0)) by lia.
  rewrite orb_true_iff, !Z.leb_le. split.
  - intros [H|H].
    + apply sigbits_mono with (prec x); assumption.
    + apply minprec_le; try lia. 
  - intros H. right. apply minprec_le; try lia. exact H.
Qed.

(** m has at most k significant bits iff the top k bits hold all of it. *)
Lemma sigbits_top k m : 0 < m -> 0 < k ->
  sigbits m k <-> (IZR (top k m) * p2 (bitlen m - k) = IZR m)%R.
Proof.
  intros Hm Hk. unfold top. pose proof (bitlen_spec m Hm) as [B1 B2].
  destruct (Z.leb_spec (bitlen m) k) as [L|L].
  - split; intros _.
    + rewrite scale_R by lia. replace (bitlen m - k + (k - bitlen m)) with 0 by lia.
      change (p2 0) with 1%R. ring.
    + apply sigbits_lt. apply bitlen_le_lt; lia.
  - pose proof (pow2_pos (bitlen m - k) ltac:(lia)) as Hp.
    rewrite <- IZR_pow2, <- mult_IZR by lia. split.
    + intros Hs. f_equal. pose proof (sigbits_mod m k Hm ltac:(lia) Hs L).
      pose proof (Z.div_mod m (2 ^ (bitlen m - k)) ltac:(lia)). lia.
    + intros E. apply eq_IZR in E. exists (m / 2 ^ (bitlen m - k)), (bitlen m - k).
      repeat split; try lia.
      destruct (bitlen_div m (bitlen m - k) Hm ltac:(lia)) as [H1 H2].
      apply bitlen_le_lt; lia.
Qed.

(** sigbits depends on the value only. *)
Lemma sigbits_val m1 e1 m2 e2 k : 0 < m1 -> 0 < m2 -> 0 < k ->
  (IZR m1 * p2 e1 = IZR m2 * p2 e2)%R -> sigbits m1 k -> sigbits m2 k.
Proof.
  intros H1 H2 Hk E Hs. pose proof (gexp_unique m1 e1 m2 e2 H1 H2 E) as G.
  apply sigbits_top; try assumption. apply sigbits_top in Hs; try assumption.
  assert (T : top k m2 = top k m1).
  { rewrite !top_floor by assumption. f_equal. unfold gexp in G.
    replace (k - bitlen m2) with (e2 + (k - gexp m2 e2)) by (unfold gexp; lia).
    replace (k - bitlen m1) with (e1 + (k - gexp m1 e1)) by (unfold gexp; lia).
    rewrite !p2_plus, <- !Rmult_assoc, E. do 2 f_equal. unfold gexp. lia. }
  rewrite T. apply Rmult_eq_reg_r with (p2 e2); [|apply Rgt_not_eq, p2_pos].
  rewrite <- E, <- Hs, !Rmult_assoc, <- !p2_plus. do 2 f_equal. unfold gexp in G. lia.
Qed.
