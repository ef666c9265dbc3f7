(** What the four IEEE-like packages share: bit fields, the decoding in Big, the encoding
    in NewFromBig. *)
From Coq Require Import ZArith Reals Lia Lra Bool.
From Flocq Require Import Core.
From Verif Require Import GoBase.
From Verif Require BigFloat.
From Verif Require Import Spec BitFacts RoundFacts IeeeFacts BigFacts BigFacts2.
Import BigFloat (bitlen, gexp, prec, rmode, acc, neg, frm, Finite, MaxExp, MinExp, MaxPrec).
Open Scope Z_scope.

(** ** Masks and shifts *)
Lemma land_bit b n : 0 <= n -> (Z.land b (2 ^ n) =? 0) = negb (Z.odd (b / 2 ^ n)).
Proof.
  intros Hn.
  assert (Ho : Z.odd (b / 2 ^ n) = Z.testbit b n).
  { rewrite <- Z.shiftr_div_pow2 by lia. rewrite <- Z.bit0_odd, Z.shiftr_spec by lia. f_equal. }
  rewrite Ho. destruct (Z.testbit b n) eqn:E.
  - apply Z.eqb_neq. intros C.
    assert (H : Z.testbit (Z.land b (2 ^ n)) n = false) by (rewrite C; apply Z.bits_0).
    rewrite Z.land_spec, E, Z.pow2_bits_true in H by lia. discriminate.
  - apply Z.eqb_eq. apply Z.bits_inj'. intros k Hk. rewrite Z.land_spec, Z.bits_0.
    destruct (Z.eq_dec k n) as [->|N]; [rewrite E; reflexivity|].
    rewrite Z.pow2_bits_false by lia. apply andb_false_r.
Qed.

Lemma land_field b k n : 0 <= k -> 0 <= n ->
  Z.shiftr (Z.land b ((2 ^ k - 1) * 2 ^ n)) n = (b / 2 ^ n) mod 2 ^ k.
Proof.
  intros Hk Hn. rewrite Z.shiftr_land, !Z.shiftr_div_pow2 by lia.
  rewrite Z.div_mul by (apply Z.pow_nonzero; lia). apply land_ones_mod; exact Hk.
Qed.

Lemma land_mask_shift b k n : 0 <= k -> 0 <= n ->
  Z.land b ((2 ^ k - 1) * 2 ^ n) = ((b / 2 ^ n) mod 2 ^ k) * 2 ^ n.
Proof.
  intros Hk Hn. rewrite <- land_ones_mod by exact Hk.
  rewrite <- !Z.shiftl_mul_pow2, <- Z.shiftr_div_pow2 by lia.
  apply Z.bits_inj'. intros i Hi.
  destruct (Z_lt_ge_dec i n) as [L|L].
  - rewrite Z.land_spec, !Z.shiftl_spec_low by lia. apply andb_false_r.
  - rewrite Z.land_spec, !Z.shiftl_spec by lia.
    rewrite Z.land_spec, Z.shiftr_spec by lia. do 2 f_equal. lia.
Qed.

Lemma andnot_pow2_sub a n : 0 <= n -> 2 ^ n <= a < 2 * 2 ^ n -> andnot a (2 ^ n) = a - 2 ^ n.
Proof.
  intros Hn Ha. unfold andnot.
  assert (E : a = 1 * 2 ^ n + (a - 2 ^ n)) by lia.
  rewrite E at 1. rewrite <- lor_add by lia.
  apply Z.bits_inj'. intros i Hi.
  rewrite Z.land_spec, Z.lor_spec, Z.lnot_spec, Z.mul_1_l by lia.
  destruct (Z.eq_dec i n) as [->|N].
  - rewrite Z.pow2_bits_true by lia. cbn [orb negb andb].
    symmetry. destruct (Z.eq_dec (a - 2 ^ n) 0) as [->|]; [apply Z.bits_0|].
    apply Z.bits_above_log2; [lia|]. apply Z.log2_lt_pow2; lia.
  - rewrite Z.pow2_bits_false by lia. simpl. apply andb_true_r.
Qed.

Lemma clearbit_sub a n : 0 <= n -> 2 ^ n <= a < 2 * 2 ^ n -> Z.clearbit a n = a - 2 ^ n.
Proof.
  intros Hn Ha. rewrite <- andnot_pow2_sub by assumption.
  unfold andnot. rewrite Z.clearbit_spec', Z.ldiff_land. reflexivity.
Qed.

Lemma andnot_ones a n : 0 <= n -> andnot a (2 ^ n - 1) = (a / 2 ^ n) * 2 ^ n.
Proof.
  intros Hn. unfold andnot. rewrite <- Z.ldiff_land, <- Z.sub_1_r || rewrite <- Z.ldiff_land.
  replace (2 ^ n - 1) with (Z.ones n) by (rewrite Z.ones_equiv; lia).
  rewrite Z.ldiff_ones_r by exact Hn.
  rewrite Z.shiftl_mul_pow2, Z.shiftr_div_pow2 by exact Hn. reflexivity.
Qed.

Lemma andnot_ones_zero a n : 0 <= n -> 0 <= a -> (andnot a (2 ^ n - 1) =? 0) = (a <? 2 ^ n).
Proof.
  intros Hn Ha. rewrite andnot_ones by exact Hn. pose proof (pow2_pos n Hn) as Hp.
  destruct (Z.ltb_spec a (2 ^ n)) as [L|L].
  - rewrite Z.div_small by lia. reflexivity.
  - apply Z.eqb_neq. assert (1 <= a / 2 ^ n) by (apply Z.div_le_lower_bound; lia). nia.
Qed.

(** ** Comparing with zero *)
Lemma Cmp_zero x z : frm z = BigFloat.Zero ->
  (BigFloat.Cmp x z =? 0) = match frm x with BigFloat.Zero => true | _ => false end.
Proof.
  intros Hz. unfold BigFloat.Cmp, BigFloat.ord. rewrite Hz.
  destruct (neg x), (neg z), (frm x); reflexivity.
Qed.

(** ** Truncation and the two encodings *)
Lemma round_mant_zero s m sh : 0 < m -> round_mant BigFloat.ToZero s m sh = top (bitlen m - sh) m.
Proof.
  intros Hm. unfold round_mant, top. cbn [BigFloat.round_inc].
  destruct (Z.leb_spec sh 0) as [L|L], (Z.leb_spec (bitlen m) (bitlen m - sh)) as [L2|L2]; try lia.
  - do 2 f_equal. lia.
  - replace (bitlen m - (bitlen m - sh)) with sh by lia. destruct (_ =? 0); reflexivity.
Qed.

Lemma rz_top mb eb s m e : 0 < m ->
  let c := Z.max (gexp m e - (mb + 1)) (2 - 2 ^ (eb - 1) - mb) in
  rz mb eb (sgnR s (IZR m * p2 e)) = sgnR s (IZR (top (gexp m e - c) m) * p2 c).
Proof.
  intros Hm c. unfold rz. change Ztrunc with (mode_rnd BigFloat.ToZero).
  rewrite round_at by exact Hm.
  assert (Ec : FLT_exp (3 - 2 ^ (eb - 1) - (mb + 1)) (mb + 1) (gexp m e) = c) by (unfold FLT_exp, c; lia).
  rewrite Ec, round_mant_zero by exact Hm. do 4 f_equal. unfold gexp. lia.
Qed.

Lemma rz_norm mb eb s m e : 0 < m -> 0 <= mb -> 2 <= eb ->
  let E := gexp m e - 1 + (2 ^ (eb - 1) - 1) in
  1 <= E <= 2 ^ eb - 2 ->
  ieee mb eb (enc mb eb s E (top (mb + 1) m - 2 ^ mb)) = VNum s (rz mb eb (sgnR s (IZR m * p2 e))).
Proof.
  intros Hm Hmb Heb E HE.
  pose proof (top_range (mb + 1) m Hm ltac:(lia)) as Ht.
  replace (mb + 1 - 1) with mb in Ht by lia.
  assert (2 ^ (mb + 1) = 2 * 2 ^ mb) by (rewrite Z.pow_add_r by lia; change (2 ^ 1) with 2; lia).
  rewrite ieee_enc_norm by lia. rewrite rz_top by exact Hm. cbv zeta.
  rewrite Z.max_l by (unfold E in HE; lia).
  replace (gexp m e - (gexp m e - (mb + 1))) with (mb + 1) by lia.
  replace (2 ^ mb + (top (mb + 1) m - 2 ^ mb)) with (top (mb + 1) m) by lia.
  do 4 f_equal. unfold E. lia.
Qed.

Lemma rz_sub mb eb s m e : 0 < m -> 0 <= mb -> 2 <= eb ->
  let E := gexp m e - 1 + (2 ^ (eb - 1) - 1) in
  E <= 0 ->
  0 <= top (E + mb) m < 2 ^ mb /\
  ieee mb eb (enc mb eb s 0 (top (E + mb) m)) = VNum s (rz mb eb (sgnR s (IZR m * p2 e))).
Proof.
  intros Hm Hmb Heb E HE.
  assert (Ht : 0 <= top (E + mb) m < 2 ^ mb).
  { destruct (Z_le_gt_dec (E + mb) 0) as [L|L].
    - rewrite top_nonpos by assumption. pose proof (pow2_pos mb Hmb). lia.
    - pose proof (top_range (E + mb) m Hm ltac:(lia)) as Ht.
      pose proof (pow2_pos (E + mb - 1) ltac:(lia)).
      assert (2 ^ (E + mb) <= 2 ^ mb) by (apply Z.pow_le_mono_r; lia). lia. }
  split; [exact Ht|].
  rewrite ieee_enc_sub by lia. rewrite rz_top by exact Hm. cbv zeta.
  rewrite Z.max_r by (unfold E in HE; lia).
  replace (gexp m e - (2 - 2 ^ (eb - 1) - mb)) with (E + mb) by (unfold E; lia). reflexivity.
Qed.

(** A number of the format is its own truncation. *)
Lemma fits_rz mb eb v : 0 <= mb -> fits mb eb v -> rz mb eb v = v.
Proof.
  intros Hm [(M & c & E & HM & Hc) _]. unfold rz. apply round_generic; [apply valid_rnd_ZR|].
  apply generic_format_FLT. exists (Float radix2 M c).
  - rewrite F2R_p2. exact E.
  - exact HM.
  - cbn [Fexp]. lia.
Qed.

(** Conversely. *)
Lemma rz_fits mb eb v : 0 <= mb -> (Rabs v < p2 (2 ^ (eb - 1)))%R -> rz mb eb v = v -> fits mb eb v.
Proof.
  intros Hm Hb H. split; [|exact Hb].
  pose proof (valid_FLT mb eb Hm) as V.
  assert (G : generic_format radix2 (FLT_exp (3 - 2 ^ (eb - 1) - (mb + 1)) (mb + 1)) v).
  { rewrite <- H. apply generic_format_round; [exact V|apply valid_rnd_ZR]. }
  apply FLT_format_generic in G; [|unfold Prec_gt_0; lia].
  destruct G as [f F1 F2 F3]. exists (Fnum f), (Fexp f).
  split; [rewrite F1; reflexivity|]. split; [exact F2|lia].
Qed.

(** Range of a non-zero number of the format. *)
Lemma fits_range mb eb s m e : 0 <= mb -> 2 <= eb -> 0 < m -> fits mb eb (sgnR s (IZR m * p2 e)) ->
  2 - (2 ^ (eb - 1)) - mb < gexp m e <= 2 ^ (eb - 1).
Proof.
  intros Hmb Heb Hm [(M & c & E & HM & Hc) Hb].
  rewrite abs_val in Hb by exact Hm. pose proof (gexp_spec m e Hm) as [G1 G2].
  split.
  - assert (HM0 : (1 <= Rabs (IZR M))%R).
    { rewrite <- abs_IZR. apply IZR_le. assert (M <> 0); [|lia]. intros ->.
      rewrite Rmult_0_l in E. pose proof (val_pos m e Hm). destruct s; simpl in E; lra. }
    assert (Hge : (p2 c <= IZR m * p2 e)%R).
    { rewrite <- (abs_val s m e Hm), E, Rabs_mult.
      rewrite (Rabs_pos_eq (p2 c)) by (left; apply p2_pos).
      rewrite <- (Rmult_1_l (p2 c)) at 1. apply Rmult_le_compat_r; [left; apply p2_pos|exact HM0]. }
    assert (p2 c < p2 (gexp m e))%R by lra.
    apply p2_lt_inv in H. lia.
  - assert (p2 (gexp m e - 1) < p2 (2 ^ (eb - 1)))%R by lra.
    apply p2_lt_inv in H. lia.
Qed.

(** How truncation compares. *)
Lemma sigbits_rz mb eb s m e : 0 <= mb -> 0 < m -> 3 - 2 ^ (eb - 1) <= gexp m e ->
  sigbits m (mb + 1) <-> rz mb eb (sgnR s (IZR m * p2 e)) = sgnR s (IZR m * p2 e).
Proof.
  intros Hmb Hm Hg. rewrite rz_top by exact Hm. cbv zeta. rewrite Z.max_l by lia.
  replace (gexp m e - (gexp m e - (mb + 1))) with (mb + 1) by lia.
  rewrite sigbits_top by lia.
  replace (gexp m e - (mb + 1)) with (bitlen m - (mb + 1) + e) by (unfold gexp; lia).
  rewrite p2_plus, <- Rmult_assoc. split.
  - intros ->. reflexivity.
  - intros E. apply sgnR_inj in E. apply Rmult_eq_reg_r in E; [exact E|apply Rgt_not_eq, p2_pos].
Qed.

Lemma rz_lt mb eb m e : 0 <= mb -> 0 < m ->
  (rz mb eb (IZR m * p2 e) <= IZR m * p2 e)%R.
Proof.
  intros Hmb Hm. unfold rz. pose proof (valid_FLT mb eb Hmb) as V.
  pose proof (val_pos m e Hm).
  rewrite round_ZR_DN by lra. apply round_DN_pt; exact V.
Qed.

(** ** The mantissa as NewFromBig prepares it *)
Definition absb (x : BigFloat.bigfloat) : BigFloat.bigfloat :=
  if neg x then BigFloat.NegSelf x else x.

Lemma absb_facts x : neg (absb x) = false /\ prec (absb x) = prec x /\ frm (absb x) = frm x /\
  rmode (absb x) = rmode x.
Proof. unfold absb. destruct (neg x) eqn:E; cbn; rewrite ?E; repeat split; reflexivity. Qed.

Lemma absb_wf x : wf x -> wf (absb x).
Proof. unfold wf. destruct (absb_facts x) as (_ & -> & -> & _). trivial. Qed.

Lemma absb_MantExp x : absb (fst (BigFloat.MantExp x)) = fst (BigFloat.MantExp (absb x)).
Proof.
  unfold absb, BigFloat.MantExp. destruct (frm x) eqn:Ef, (neg x) eqn:En; cbn; rewrite ?Ef, ?En; cbn;
    rewrite ?Ef, ?En; reflexivity.
Qed.

Lemma MantExp_finite x m e : frm x = Finite m e ->
  BigFloat.MantExp x = (fst (BigFloat.MantExp x), gexp m e).
Proof. intros H. unfold BigFloat.MantExp. rewrite H. reflexivity. Qed.

(** Scaled so that k bits are left of the point, the integer part is the top k bits. *)
Lemma scaled_mant x m e k : frm x = Finite m e -> wf x -> MinExp <= k <= MaxExp ->
  let r := BigFloat.SetMantExpSelf (absb (fst (BigFloat.MantExp x))) k in
  (k <= 64 -> fst (BigFloat.Uint64 r) = top k m) /\
  (0 < k <= 64 -> snd (BigFloat.Uint64 r) = BigFloat.Exact <-> sigbits m 64) /\
  (snd (BigFloat.Uint64 r) = BigFloat.Exact \/ snd (BigFloat.Uint64 r) = BigFloat.Below) /\
  BigFloat.Int r = Some (top k m) /\
  (0 < k -> BigFloat.IsInt r = true <-> sigbits m k) /\
  absb (BigFloat.SetMantExpSelf (fst (BigFloat.MantExp x)) k) = r.
Proof.
  intros Hf Hw Hk r.
  assert (Hm : 0 < m) by (destruct Hw as [_ Hw]; rewrite Hf in Hw; apply Hw).
  destruct (absb_facts x) as (A1 & A2 & A3 & A4).
  assert (Hf' : frm (absb x) = Finite m e) by (rewrite A3; exact Hf).
  destruct (mant_scaled (absb x) m e k Hf' (absb_wf x Hw) Hk)
    as (P1 & P2 & m' & e' & P3 & P4 & P5 & P6 & P7).
  rewrite <- absb_MantExp in P1, P2, P3. fold r in P1, P2, P3.
  rewrite A1 in P2. rewrite A2 in P1, P5.
  pose proof (top_eq k m m' e' Hm P4 P6 P7) as Ht.
  assert (Hsame : forall n, 0 < n -> sigbits m' n <-> sigbits m n).
  { intros n Hn. split; intros H.
    - exact (sigbits_val m' e' m (k - bitlen m) n P4 Hm Hn P7 H).
    - exact (sigbits_val m (k - bitlen m) m' e' n Hm P4 Hn (eq_sym P7) H). }
  split; [|split; [|split; [|split; [|split]]]].
  - intros Hle. rewrite <- Ht. apply (Uint64_top r m' e' k P3 P4 P2 P6 Hle).
  - intros [Hk0 Hle]. destruct (Uint64_top r m' e' k P3 P4 P2 P6 Hle) as [_ ->].
    rewrite (proj2 (Z.ltb_lt 0 k)) by lia. cbn [andb].
    unfold BigFloat.MinPrec. rewrite P3.
    rewrite <- Hsame by lia. destruct (Z.leb_spec (bitlen m' - BigFloat.ctz m') 64) as [L|L].
    + split; [intros _|reflexivity]. apply minprec_le; try lia; assumption.
    + split; [discriminate|]. intros H. apply minprec_le in H; try lia; assumption.
  - unfold BigFloat.Uint64. rewrite P3, P2.
    repeat match goal with |- context [if ?b then _ else _] => destruct b end; cbn; auto.
  - rewrite <- Ht. apply (Int_top r m' e' k); assumption.
  - intros Hk0. rewrite <- Hsame by lia. apply (IsInt_iff r m' e' k); try assumption.
    rewrite P1. exact P5.
  - unfold r, absb.
    destruct (mant_scaled x m e k Hf Hw Hk) as (Q1 & Q2 & m2 & e2 & Q3 & _).
    assert (Hn : neg (fst (BigFloat.MantExp x)) = neg x) by (unfold BigFloat.MantExp; rewrite Hf; reflexivity).
    rewrite Q2, Hn. destruct (neg x) eqn:En; [|reflexivity].
    unfold BigFloat.MantExp. rewrite Hf. cbn [fst].
    unfold BigFloat.SetMantExpSelf. cbn [BigFloat.set_frm frm BigFloat.NegSelf BigFloat.set_neg].
    unfold BigFloat.setExpAndRound.
    assert (G : gexp m (- bitlen m + k) = k) by (unfold gexp; lia). rewrite G.
    rewrite (proj2 (Z.ltb_ge k MinExp)) by lia. rewrite (proj2 (Z.ltb_ge MaxExp k)) by lia.
    unfold BigFloat.round. cbn [frm BigFloat.set_frm prec BigFloat.NegSelf BigFloat.set_neg neg rmode].
    destruct (bitlen m <=? prec x) eqn:Eb; [reflexivity|].
    apply Z.leb_gt in Eb. destruct Hw as [Hp Hw]. rewrite Hf in Hw. destruct Hw as (_ & Hs & _).
    rewrite (sigbits_mod m (prec x) Hm ltac:(lia) Hs Eb), Z.eqb_refl. reflexivity.
Qed.

(** ** SetPrec(p).SetMode(ToNearestEven) on a number of moderate size *)
Lemma rnd_prec_le md p v k : 0 < p -> (Rabs v <= p2 k)%R -> (Rabs (rnd_prec md p v) <= p2 k)%R.
Proof.
  intros Hp Hv. unfold rnd_prec. pose proof (valid_mode_rnd md).
  assert (Prec_gt_0 p) by exact Hp.
  apply abs_round_le_generic; try typeclasses eauto; [|exact Hv].
  apply generic_format_bpow. unfold FLX_exp. lia.
Qed.

Lemma rnd_prec_0 md p : rnd_prec md p 0 = 0%R.
Proof. unfold rnd_prec. pose proof (valid_mode_rnd md). apply round_0. assumption. Qed.

Lemma SetPrec_round x s v p :
  wf x -> bval x = VNum s v -> 0 < p <= MaxPrec -> (Rabs v <= p2 20000)%R ->
  let r := BigFloat.SetMode (BigFloat.SetPrec x p) BigFloat.ToNearestEven in
  wf r /\ bval r = VNum s (rnd_prec (rmode x) p v) /\ prec r = p /\
  rmode r = BigFloat.ToNearestEven /\ acc r = BigFloat.Exact.
Proof.
  intros Hw Hv Hp Hb r. unfold bval in Hv. destruct (frm x) as [|m e|] eqn:Ef; [| |discriminate].
  - apply VNum_inj in Hv. destruct Hv as [<- <-]. unfold r, BigFloat.SetPrec.
    rewrite Z.min_l by lia. rewrite rnd_prec_0.
    destruct (p <? prec x); cbn [BigFloat.SetMode]; unfold BigFloat.round, wf, bval; cbn; rewrite Ef; cbn;
      rewrite ?Ef; unfold MaxPrec in *; repeat split; try reflexivity; lia.
  - apply VNum_inj in Hv. destruct Hv as [<- <-].
    destruct (SetPrec_correct x p m e Ef Hw Hp) as (P1 & P2 & P3 & P4 & P5).
    set (r0 := BigFloat.SetPrec x p) in *.
    destruct P5 as [(m' & e' & Q1 & Q2 & Q3 & Q4 & Q5)|[Q1 Q2]].
    + destruct Hw as [_ Hw]. rewrite Ef in Hw. destruct Hw as (_ & _ & Hg).
      unfold r, wf, bval, BigFloat.SetMode. cbn [prec frm neg rmode acc].
      rewrite P1, Q1, P3, Q5. repeat split; try assumption; try lia.
    + exfalso. pose proof (rnd_prec_le (rmode x) p _ 20000 ltac:(lia) Hb) as Hc.
      pose proof (p2_le_inv _ _ (Rle_trans _ _ _ Q2 Hc)) as Hx. unfold MaxExp in Hx. lia.
Qed.

Lemma SetPrec_inf x s p : wf x -> bval x = VInf s -> 0 < p <= MaxPrec ->
  let r := BigFloat.SetMode (BigFloat.SetPrec x p) BigFloat.ToNearestEven in
  wf r /\ bval r = VInf s /\ prec r = p /\ rmode r = BigFloat.ToNearestEven /\ acc r = BigFloat.Exact.
Proof.
  intros Hw Hv Hp r. unfold bval in Hv. destruct (frm x) as [|m e|] eqn:Ef; try discriminate.
  injection Hv as <-. unfold r, BigFloat.SetPrec. rewrite Z.min_l by lia.
  destruct (p <? prec x); cbn [BigFloat.SetMode]; unfold BigFloat.round, wf, bval; cbn; rewrite Ef; cbn;
    rewrite ?Ef; unfold MaxPrec in *; repeat split; try reflexivity; lia.
Qed.

(** The numbers of a smaller format, seen from float64. *)
Lemma ieee_abs_le mb eb b s v : 0 <= mb -> 2 <= eb <= 15 -> 0 <= b < 2 ^ (mb + eb + 1) ->
  ieee mb eb b = VNum s v -> (Rabs v <= p2 20000)%R.
Proof.
  intros Hm He Hb H. destruct (fits_ieee mb eb b s v Hm ltac:(lia) Hb H) as [[_ F] _].
  apply Rle_trans with (p2 (2 ^ (eb - 1))); [lra|]. apply p2_le.
  apply Z.le_trans with (2 ^ 14); [apply Z.pow_le_mono_r; lia|lia].
Qed.

(** Rounding at p bits of a number that fits p bits. *)
Lemma fits_rnd_prec md mb eb p v : 0 <= mb -> mb + 1 <= p -> fits mb eb v -> rnd_prec md p v = v.
Proof.
  intros Hm Hp [(M & c & E & HM & Hc) _]. unfold rnd_prec. pose proof (valid_mode_rnd md).
  apply round_generic; [assumption|].
  assert (Prec_gt_0 p) by (unfold Prec_gt_0; lia).
  apply generic_format_FLX. exists (Float radix2 M c).
  - rewrite F2R_p2. exact E.
  - exact (Z.lt_le_trans _ _ _ HM (Z.pow_le_mono_r 2 (mb + 1) p ltac:(lia) ltac:(lia))).
Qed.

Lemma bval_finite y s r : wf y -> bval y = VNum s r -> r <> 0%R ->
  exists m e, frm y = Finite m e /\ 0 < m /\ neg y = s /\ r = sgnR s (IZR m * p2 e).
Proof.
  intros [_ Hw] Hv Hr. unfold bval in Hv. destruct (frm y) as [|m e|] eqn:Ef; [| |discriminate].
  - apply VNum_inj in Hv. destruct Hv as [_ <-]. congruence.
  - apply VNum_inj in Hv. destruct Hv as [<- <-]. exists m, e. repeat split. apply Hw.
Qed.

Lemma bval_inf y s : bval y = VInf s -> frm y = BigFloat.Inf /\ neg y = s.
Proof. unfold bval. destruct (frm y); intros H; try discriminate. injection H as <-. auto. Qed.

(** Bounds on the exponent from bounds on the number. *)
Lemma gexp_lower s m e k : 0 < m -> (p2 k <= Rabs (sgnR s (IZR m * p2 e)))%R -> k < gexp m e.
Proof.
  intros Hm H. rewrite abs_val in H by exact Hm. pose proof (gexp_spec m e Hm) as [_ G].
  apply p2_lt_inv. apply Rle_lt_trans with (1 := H). exact G.
Qed.

Lemma gexp_upper s m e k : 0 < m -> (Rabs (sgnR s (IZR m * p2 e)) < p2 k)%R -> gexp m e <= k.
Proof.
  intros Hm H. rewrite abs_val in H by exact Hm. pose proof (gexp_spec m e Hm) as [G _].
  assert (gexp m e - 1 < k); [|lia]. apply p2_lt_inv. apply Rle_lt_trans with (1 := G). exact H.
Qed.

Lemma rn_range mb eb v : 0 <= mb -> 2 <= eb ->
  (forall k, 2 - 2 ^ (eb - 1) - mb <= k -> (Rabs v <= p2 k)%R -> (Rabs (rn mb eb v) <= p2 k)%R) /\
  (forall k, 2 - 2 ^ (eb - 1) - mb <= k -> (p2 k <= Rabs v)%R -> (p2 k <= Rabs (rn mb eb v))%R).
Proof.
  intros Hm He. pose proof (valid_FLT mb eb Hm) as V.
  assert (G : forall k, 2 - 2 ^ (eb - 1) - mb <= k ->
    generic_format radix2 (FLT_exp (3 - 2 ^ (eb - 1) - (mb + 1)) (mb + 1)) (p2 k)).
  { intros k Hk. apply generic_format_bpow. unfold FLT_exp. lia. }
  split; intros k Hk H; unfold rn.
  - apply abs_round_le_generic; [exact V|apply valid_rnd_N|apply G; exact Hk|exact H].
  - apply abs_round_ge_generic; [exact V|apply valid_rnd_N|apply G; exact Hk|exact H].
Qed.

Lemma rn_prec_eq mb eb v : 0 <= mb -> 2 <= eb -> (p2 (2 - 2 ^ (eb - 1)) <= Rabs v)%R ->
  rn mb eb v = rnd_prec BigFloat.ToNearestEven (mb + 1) v.
Proof.
  intros Hm He Hv. unfold rn, rnd_prec. cbn [mode_rnd]. apply round_FLT_FLX.
  apply Rle_trans with (2 := Hv).
  change (bpow radix2) with p2. apply p2_le. lia.
Qed.

(** Rounding within range gives a number of the format. *)
Lemma fits_of_rn mb eb v : 0 <= mb -> (Rabs (rn mb eb v) < p2 (2 ^ (eb - 1)))%R -> fits mb eb (rn mb eb v).
Proof.
  intros Hm Hb. apply rz_fits; [exact Hm|exact Hb|]. unfold rz.
  pose proof (valid_FLT mb eb Hm) as V.
  apply round_generic; [apply valid_rnd_ZR|]. unfold rn.
  apply generic_format_round; [exact V|apply valid_rnd_N].
Qed.

Lemma sgn_ieee mb eb b s v : 0 <= mb -> 2 <= eb -> 0 <= b < 2 ^ (mb + eb + 1) ->
  ieee mb eb b = VNum s v -> v = 0%R \/ v = sgnR s (Rabs v).
Proof. intros. eapply fits_ieee; eassumption. Qed.

(** ** Changing the sign *)
Lemma absb_set_neg x s : absb (BigFloat.set_neg x s) = BigFloat.set_neg x false.
Proof. destruct s; reflexivity. Qed.

Lemma wf_set_neg x s : wf x -> wf (BigFloat.set_neg x s).
Proof. trivial. Qed.

Lemma set_neg_self x : BigFloat.set_neg x (neg x) = x.
Proof. destruct x; reflexivity. Qed.

Lemma NegSelf_set_neg x : BigFloat.NegSelf x = BigFloat.set_neg x (negb (neg x)).
Proof. reflexivity. Qed.
