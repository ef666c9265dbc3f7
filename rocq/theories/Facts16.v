(** binary16. *)
From Coq Require Import ZArith Reals Lia Lra Bool List String.
From Flocq Require Import Core.
From Verif Require Import GoBase.
From Verif Require BigFloat Binary16.
From Verif Require Import GoFmt.
From Verif Require Import Spec BitFacts RoundFacts IeeeFacts BigFacts BigFacts2 FmtFacts PkgFacts.
Import BigFloat (bitlen, gexp, prec, rmode, acc, neg, frm, Finite, MaxExp, MinExp, MaxPrec).
Open Scope Z_scope.

Lemma fields b : 0 <= b < 2 ^ 16 -> exists s E F, 0 <= E < 2 ^ 5 /\ 0 <= F < 2 ^ 10 /\
  b = enc 10 5 s E F /\ Binary16.Signbit b = s /\ Binary16.Exp b = E /\ Binary16.Frac b = F.
Proof.
  intros Hb. destruct (enc_surj 10 5 b ltac:(lia) ltac:(lia) Hb) as (s & E & F & HE & HF & ->).
  exists s, E, F. repeat split; try lia.
  - unfold Binary16.Signbit. change 0x8000 with (2 ^ 15). rewrite land_bit by lia.
    change (2 ^ 15) with (2 ^ (10 + 5)). rewrite enc_sign by lia. destruct s; reflexivity.
  - unfold Binary16.Exp. change 0x7C00 with ((2 ^ 5 - 1) * 2 ^ 10).
    rewrite land_field by lia. apply enc_exp; lia.
  - unfold Binary16.Frac. change 0x03FF with (2 ^ 10 - 1). rewrite land_ones_mod by lia.
    apply (enc_low 10 5); lia.
Qed.

Definition decoded (x : BigFloat.bigfloat) (p : Z) : Prop :=
  wf x /\ prec x = p /\ rmode x = BigFloat.ToNearestEven /\ acc x = BigFloat.Exact.

Lemma Big_correct f : 0 <= f < 2 ^ 16 ->
  exists x nan, Binary16.Big f = Ret (x, nan) /\ decoded x 11 /\
  match ieee 10 5 f with
  | VNaN s => nan = true /\ bval x = VNum s 0
  | v => nan = false /\ bval x = v
  end.
Proof.
  intros Hf. destruct (fields f Hf) as (s & E & F & HE & HF & Ef & Es & Ee & Eff).
  unfold Binary16.Big. rewrite Es, Ee, Eff.
  assert (Hi : ieee 10 5 f = ieee_parts 10 5 s E F) by (rewrite Ef; apply ieee_enc; lia).
  rewrite Hi. unfold ieee_parts.
  assert (Hz : forall b : bool, decoded (if b then
      BigFloat.NegSelf (BigFloat.SetMode (BigFloat.SetPrec BigFloat.NewFloat0 Binary16.precision) BigFloat.ToNearestEven)
      else BigFloat.SetMode (BigFloat.SetPrec BigFloat.NewFloat0 Binary16.precision) BigFloat.ToNearestEven) 11).
  { intros []; repeat split; try reflexivity; cbn; unfold MaxPrec, Binary16.precision; lia. }
  change (2 ^ 5 - 1) with 31.
  destruct (Z.eqb_spec E 31) as [e1|e1].
  - destruct (Z.eqb_spec F 0) as [f0|f0].
    + eexists _, _. split; [reflexivity|]. split; [repeat split; try reflexivity; cbn; unfold MaxPrec, Binary16.precision; lia|].
      split; reflexivity.
    + eexists _, _. split; [reflexivity|]. split; [apply Hz|]. split; [reflexivity|].
      destruct s; reflexivity.
  - destruct (Z.eqb_spec E 0) as [e0|e0].
    + destruct (Z.eqb_spec F 0) as [f0|f0].
      * eexists _, _. split; [reflexivity|]. split; [apply Hz|]. split; [reflexivity|].
        rewrite f0, Rmult_0_l, sgnR_0. destruct s; reflexivity.
      * destruct (Parse_correct (BigFloat.SetMode (BigFloat.SetPrec BigFloat.NewFloat0 Binary16.precision) BigFloat.ToNearestEven)
          s 0 (fmt_b 10 F) 10 F (-14)) as (r & Hr & Hv & Hw & Hp & Hm & Ha & Hn);
          try lia; try (apply fmt_b_text; lia); try (cbn; unfold MaxPrec, Binary16.precision; lia).
        unfold sign_text in Hr. rewrite Hr. eexists _, _. split; [reflexivity|].
        split; [repeat split; try apply Hw; assumption|]. split; [reflexivity|].
        rewrite Hv. reflexivity.
    + destruct (Parse_correct (BigFloat.SetMode (BigFloat.SetPrec BigFloat.NewFloat0 Binary16.precision) BigFloat.ToNearestEven)
          s 1 (fmt_b 10 F) 10 F (E - Binary16.bias)) as (r & Hr & Hv & Hw & Hp & Hm & Ha & Hn);
          try lia; try (apply fmt_b_text; lia); try (cbn; unfold MaxPrec, Binary16.bias, Binary16.precision; lia).
      unfold sign_text in Hr. rewrite Hr. eexists _, _. split; [reflexivity|].
      split; [repeat split; try apply Hw; assumption|]. split; [reflexivity|].
      rewrite Hv. unfold Binary16.bias. do 3 f_equal.
Qed.

Lemma sign_or (s : bool) r : 0 <= r < 2 ^ 15 -> Z.lor (if s then Z.lor 0 0x8000 else 0) r = Z.b2z s * 2 ^ 15 + r.
Proof.
  intros H. replace (if s then Z.lor 0 0x8000 else 0) with (Z.b2z s * 2 ^ 15) by (destruct s; reflexivity).
  apply lor_add; lia.
Qed.

Lemma NewFromBig_sub x m e : frm x = Finite m e -> wf x -> -10 < gexp m e - 1 + 15 <= 0 ->
  Binary16.NewFromBig x = (enc 10 5 (neg x) 0 (top (gexp m e - 1 + 15 + 10) m), BigFloat.Exact).
Proof.
  intros Hf Hw Hk. unfold Binary16.NewFromBig, Binary16.NewFromBig_int.
  assert (Hm : 0 < m) by (destruct Hw as [_ Hw]; rewrite Hf in Hw; apply Hw).
  unfold BigFloat.IsInf. rewrite Hf, Cmp_zero, Hf by reflexivity.
  rewrite (MantExp_finite x m e Hf). unfold Binary16.bias, Binary16.precision, BigFloat.Signbit.
  set (E := gexp m e - 1 + 15) in *.
  rewrite (proj2 (Z.leb_le E 0)) by lia. rewrite (proj2 (Z.leb_gt E (- (11 - 1)))) by lia.
  replace (E + 11 - 1) with (E + 10) by lia.
  destruct (scaled_mant x m e (E + 10) Hf Hw ltac:(unfold MinExp, MaxExp; lia)) as (U & _ & _ & _ & _ & C).
  cbv zeta in *. unfold absb in C. rewrite C.
  specialize (U ltac:(lia)).
  destruct (BigFloat.Uint64 _) as [mant a]. cbn [fst] in U. rewrite U. f_equal.
  destruct (rz_sub 10 5 (neg x) m e Hm ltac:(lia) ltac:(lia)) as [Ht _]; [unfold E in *; lia|].
  replace (gexp m e - 1 + (2 ^ (5 - 1) - 1) + 10) with (E + 10) in Ht by (unfold E; lia).
  change 0x7FF with (2 ^ 11 - 1). rewrite land_ones_mod, Z.mod_small by lia.
  unfold u16. rewrite Z.mod_small by lia. rewrite sign_or by lia.
  unfold enc. lia.
Qed.

Lemma NewFromBig_norm x m e : frm x = Finite m e -> wf x -> 1 <= gexp m e - 1 + 15 <= 31 ->
  exists a, Binary16.NewFromBig x = (enc 10 5 (neg x) (gexp m e - 1 + 15) (top 11 m - 2 ^ 10), a) /\
  (a = BigFloat.Exact <-> sigbits m 11) /\ (a = BigFloat.Exact \/ a = BigFloat.Below).
Proof.
  intros Hf Hw Hk. unfold Binary16.NewFromBig, Binary16.NewFromBig_int.
  assert (Hm : 0 < m) by (destruct Hw as [_ Hw]; rewrite Hf in Hw; apply Hw).
  unfold BigFloat.IsInf. rewrite Hf, Cmp_zero, Hf by reflexivity.
  rewrite (MantExp_finite x m e Hf). unfold Binary16.bias, Binary16.precision, BigFloat.Signbit.
  set (E := gexp m e - 1 + 15) in *.
  rewrite (proj2 (Z.leb_gt E 0)) by lia.
  change 0x1F with (2 ^ 5 - 1). rewrite andnot_ones_zero by lia.
  rewrite (proj2 (Z.ltb_lt E (2 ^ 5))) by lia. cbn [negb].
  destruct (scaled_mant x m e 11 Hf Hw ltac:(unfold MinExp, MaxExp; lia)) as (U & _ & _ & _ & I & _).
  cbv zeta in *. unfold absb in U, I. specialize (U ltac:(lia)). specialize (I ltac:(lia)).
  set (r := BigFloat.SetMantExpSelf _ 11) in *.
  destruct (BigFloat.Uint64 r) as [mant a]. cbn [fst] in U. rewrite U.
  pose proof (top_range 11 m Hm ltac:(lia)) as Ht.
  change 0x400 with (2 ^ 10). rewrite andnot_pow2_sub by lia.
  change 0x7FF with (2 ^ 11 - 1). rewrite andnot_ones_zero by lia.
  rewrite (proj2 (Z.ltb_lt (top 11 m - 2 ^ 10) (2 ^ 11))) by lia.
  cbn [negb]. rewrite andb_false_r.
  eexists. split; [|split].
  - f_equal. rewrite !land_ones_mod by lia. rewrite (Z.mod_small E) by lia.
    rewrite (Z.mod_small (top 11 m - 2 ^ 10)) by lia.
    unfold u16. rewrite Z.shiftl_mul_pow2 by lia.
    rewrite (Z.mod_small E), (Z.mod_small (E * 2 ^ 10)), (Z.mod_small (top 11 m - 2 ^ 10)) by lia.
    rewrite sign_or by lia.
    replace (Z.b2z (neg x) * 2 ^ 15 + E * 2 ^ 10) with ((Z.b2z (neg x) * 2 ^ 5 + E) * 2 ^ 10) by ring.
    rewrite lor_add by lia. unfold enc. change (10 + 5) with (5 + 10). rewrite Z.pow_add_r by lia. ring.
  - rewrite <- I. destruct (BigFloat.IsInt r); cbn [negb]; split; congruence.
  - destruct (BigFloat.IsInt r); cbn [negb]; auto.
Qed.

(** On 2^-24 <= |x| < 2^16, NewFromBig truncates. *)
Lemma NewFromBig_trunc x m e : frm x = Finite m e -> wf x -> -24 < gexp m e <= 16 ->
  let '(b, a) := Binary16.NewFromBig x in
  0 <= b < 2 ^ 16 /\
  ieee 10 5 b = VNum (neg x) (rz 10 5 (sgnR (neg x) (IZR m * p2 e))) /\
  (a = BigFloat.Exact \/ a = BigFloat.Below) /\
  (-14 < gexp m e -> a = BigFloat.Exact <-> rz 10 5 (sgnR (neg x) (IZR m * p2 e)) = sgnR (neg x) (IZR m * p2 e)) /\
  (gexp m e <= -14 -> a = BigFloat.Exact).
Proof.
  intros Hf Hw Hk.
  assert (Hm : 0 < m) by (destruct Hw as [_ Hw]; rewrite Hf in Hw; apply Hw).
  destruct (Z_le_gt_dec (gexp m e - 1 + 15) 0) as [L|L].
  - rewrite (NewFromBig_sub x m e Hf Hw) by lia.
    destruct (rz_sub 10 5 (neg x) m e Hm ltac:(lia) ltac:(lia)) as [Ht Hv]; [lia|].
    change (2 ^ (5 - 1) - 1) with 15 in *.
    split; [apply (enc_range 10 5); lia|]. split; [exact Hv|].
    split; [auto|]. split; [lia|auto].
  - destruct (NewFromBig_norm x m e Hf Hw) as (a & -> & Ha & Hor); [lia|].
    pose proof (rz_norm 10 5 (neg x) m e Hm ltac:(lia) ltac:(lia)) as Hv. cbv zeta in Hv.
    change (2 ^ (5 - 1) - 1) with 15 in *.
    pose proof (top_range 11 m Hm ltac:(lia)) as Ht.
    split; [apply (enc_range 10 5); lia|].
    split; [apply Hv; change (2 ^ 5 - 2) with 30; lia|]. split; [exact Hor|].
    split; [|lia]. intros _. rewrite Ha. apply (sigbits_rz 10 5); lia.
Qed.

Lemma NewFromBig_special x :
  match bval x with
  | VInf s => Binary16.NewFromBig x = ((if s then Binary16.NegInf else Binary16.Inf), BigFloat.Exact)
  | VNum s v => v = 0%R -> wf x ->
      Binary16.NewFromBig x = ((if s then Binary16.NegZero else Binary16.Zero), BigFloat.Exact)
  | VNaN _ => False
  end.
Proof.
  unfold bval, Binary16.NewFromBig, Binary16.NewFromBig_int, BigFloat.IsInf, BigFloat.Signbit.
  destruct (frm x) as [|m e|] eqn:Ef.
  - intros _ _. rewrite Cmp_zero, Ef by reflexivity. destruct (neg x); reflexivity.
  - intros E [_ W]. exfalso. rewrite Ef in W.
    pose proof (val_pos m e (proj1 W)). destruct (neg x); simpl in E; lra.
  - destruct (neg x); reflexivity.
Qed.

(** Numbers of the format, of any provenance, are encoded exactly. *)
Lemma NewFromBig_fits x s v : wf x -> bval x = VNum s v -> fits 10 5 v ->
  exists b, Binary16.NewFromBig x = (b, BigFloat.Exact) /\ 0 <= b < 2 ^ 16 /\ ieee 10 5 b = VNum s v.
Proof.
  intros Hw Hv Hfit. pose proof (NewFromBig_special x) as Hs. rewrite Hv in Hs.
  unfold bval in Hv. destruct (frm x) as [|m e|] eqn:Ef; [| |discriminate].
  - apply VNum_inj in Hv. destruct Hv as [<- <-]. rewrite Hs by auto.
    eexists. split; [reflexivity|]. destruct (neg x).
    + split; [unfold Binary16.NegZero; lia|]. change Binary16.NegZero with (enc 10 5 true 0 0).
      rewrite ieee_enc_sub by lia. rewrite Rmult_0_l, sgnR_0. reflexivity.
    + split; [unfold Binary16.Zero; lia|]. change Binary16.Zero with (enc 10 5 false 0 0).
      rewrite ieee_enc_sub by lia. rewrite Rmult_0_l, sgnR_0. reflexivity.
  - apply VNum_inj in Hv. destruct Hv as [<- <-].
    assert (Hm : 0 < m) by (destruct Hw as [_ W]; rewrite Ef in W; apply W).
    pose proof (fits_range 10 5 (neg x) m e ltac:(lia) ltac:(lia) Hm Hfit) as Hr.
    change (2 ^ (5 - 1)) with 16 in Hr.
    pose proof (NewFromBig_trunc x m e Ef Hw ltac:(lia)) as H.
    destruct (Binary16.NewFromBig x) as [b a]. destruct H as (H1 & H2 & H3 & H4 & H5).
    rewrite (fits_rz 10 5 _ ltac:(lia) Hfit) in *.
    exists b. split; [|auto]. f_equal.
    destruct (Z_le_gt_dec (gexp m e) (-14)); [auto|]. apply H4; [lia|reflexivity].
Qed.

Lemma zero_pattern (s : bool) : ieee 10 5 (if s then Binary16.NegZero else Binary16.Zero) = VNum s 0.
Proof.
  transitivity (ieee 10 5 (enc 10 5 s 0 0)); [destruct s; reflexivity|].
  rewrite ieee_enc_sub by lia. rewrite Rmult_0_l, sgnR_0. reflexivity.
Qed.

Lemma inf_pattern (s : bool) : ieee 10 5 (if s then Binary16.NegInf else Binary16.Inf) = VInf s.
Proof.
  transitivity (ieee 10 5 (enc 10 5 s (2 ^ 5 - 1) 0)); [destruct s; reflexivity|].
  apply ieee_enc_inf; lia.
Qed.

Lemma nan_pattern (s : bool) : ieee 10 5 (if s then Binary16.NegNaN else Binary16.NaN) = VNaN s.
Proof. destruct s; reflexivity. Qed.

(** A big.Float with the value of a half precision pattern gives that pattern. *)
Lemma NewFromBig_of x f : wf x -> 0 <= f < 2 ^ 16 -> bval x = ieee 10 5 f ->
  Binary16.NewFromBig x = (f, BigFloat.Exact).
Proof.
  intros Hw Hf Hv. destruct (ieee 10 5 f) as [s|s|s v] eqn:Ei.
  - unfold bval in Hv. destruct (frm x); discriminate.
  - pose proof (NewFromBig_special x) as Hs. rewrite Hv in Hs. rewrite Hs. f_equal.
    apply (ieee_inj 10 5); try lia; try (destruct s; unfold Binary16.NegInf, Binary16.Inf; lia).
    + rewrite inf_pattern. symmetry. exact Ei.
    + intros t. rewrite inf_pattern. discriminate.
  - pose proof (fits_ieee 10 5 f s v ltac:(lia) ltac:(lia) Hf Ei) as [Hfit _].
    destruct (NewFromBig_fits x s v Hw Hv Hfit) as (b & E & Hb & Hbv). rewrite E. f_equal.
    apply (ieee_inj 10 5); try lia; congruence.
Qed.

Lemma roundtrip f : 0 <= f < 2 ^ 16 -> (forall s, ieee 10 5 f <> VNaN s) ->
  exists x, Binary16.Big f = Ret (x, false) /\ Binary16.NewFromBig x = (f, BigFloat.Exact).
Proof.
  intros Hf Hn. destruct (Big_correct f Hf) as (x & nan & HB & (Hw & _) & Hv).
  exists x. destruct (ieee 10 5 f) as [s|s|s v] eqn:Ei.
  - exfalso. eapply Hn. reflexivity.
  - destruct Hv as [-> Hv]. split; [exact HB|]. apply NewFromBig_of; congruence.
  - destruct Hv as [-> Hv]. split; [exact HB|]. apply NewFromBig_of; congruence.
Qed.

(** ** float64 and float32 *)
Lemma NewFromBig_range x : 0 <= fst (Binary16.NewFromBig x) < 2 ^ 16.
Proof.
  unfold Binary16.NewFromBig, Binary16.NewFromBig_int, BigFloat.Signbit.
  assert (Hu : forall a, 0 <= u16 a < 2 ^ 16) by (intros; apply Z.mod_pos_bound; lia).
  assert (Hs : 0 <= (if neg x then Z.lor 0 0x8000 else 0) < 2 ^ 16) by (destruct (neg x); simpl; lia).
  destruct (BigFloat.IsInf x); [destruct (neg x); cbn; unfold Binary16.NegInf, Binary16.Inf; lia|].
  destruct (BigFloat.Cmp x BigFloat.NewFloat0 =? 0);
    [destruct (neg x); cbn; unfold Binary16.NegZero, Binary16.Zero; lia|].
  destruct (BigFloat.MantExp x) as [mant ex].
  destruct (ex - 1 + Binary16.bias <=? 0).
  - destruct (if ex - 1 + Binary16.bias <=? - (Binary16.precision - 1) then _ else _) as [ex' a].
    destruct (BigFloat.Uint64 _) as [mm aa]. cbn [fst]. apply lor_lt; [lia|exact Hs|apply Hu].
  - destruct (BigFloat.Uint64 _) as [mm aa]. cbn [fst].
    apply lor_lt; [lia| |apply Hu]. apply lor_lt; [lia|exact Hs|apply Hu].
Qed.

Lemma nff64_nan x s : 0 <= x < 2 ^ 64 -> ieee 52 11 x = VNaN s ->
  Binary16.NewFromFloat64 x = Ret ((if s then Binary16.NegNaN else Binary16.NaN), BigFloat.Exact).
Proof.
  intros Hx H. unfold Binary16.NewFromFloat64.
  rewrite isnan_ieee, sign_ieee by (simpl; lia). rewrite H. cbn. destruct s; reflexivity.
Qed.

Lemma nff64_inf x s : 0 <= x < 2 ^ 64 -> ieee 52 11 x = VInf s ->
  Binary16.NewFromFloat64 x = Ret ((if s then Binary16.NegInf else Binary16.Inf), BigFloat.Exact).
Proof.
  intros Hx H. unfold Binary16.NewFromFloat64.
  rewrite isnan_ieee by (simpl; lia). rewrite H.
  pose proof (SetFloat_correct 52 11 x ltac:(lia) ltac:(lia) Hx) as HS. rewrite H in HS.
  destruct HS as (y & Hy & Hv & Hw & _). unfold BigFloat.NewFloat. rewrite Hy. cbn [bind].
  destruct (SetPrec_inf y s 11 Hw Hv ltac:(unfold MaxPrec; lia)) as (W & V & _).
  pose proof (NewFromBig_special (BigFloat.SetMode (BigFloat.SetPrec y 11) BigFloat.ToNearestEven)) as S.
  rewrite V in S. unfold Binary16.precision. rewrite S. reflexivity.
Qed.

Lemma nff64_num x s v : 0 <= x < 2 ^ 64 -> ieee 52 11 x = VNum s v ->
  exists y, Binary16.NewFromFloat64 x = Ret (Binary16.NewFromBig y) /\ wf y /\
    bval y = VNum s (rnd_prec BigFloat.ToNearestEven 11 v) /\ prec y = 11.
Proof.
  intros Hx H. unfold Binary16.NewFromFloat64.
  rewrite isnan_ieee by (simpl; lia). rewrite H.
  pose proof (SetFloat_correct 52 11 x ltac:(lia) ltac:(lia) Hx) as HS. rewrite H in HS.
  destruct HS as (y & Hy & Hv & Hw & Hp & Hm & Ha). unfold BigFloat.NewFloat. rewrite Hy. cbn [bind].
  destruct (SetPrec_round y s v 11 Hw Hv ltac:(unfold MaxPrec; lia)
    (ieee_abs_le 52 11 x s v ltac:(lia) ltac:(lia) Hx H)) as (W & V & P & _).
  eexists. split; [reflexivity|]. rewrite Hm in V. auto.
Qed.

(** The numbers of the format are converted without loss. *)
Lemma nff64_fits x s v : 0 <= x < 2 ^ 64 -> ieee 52 11 x = VNum s v -> fits 10 5 v ->
  exists b, Binary16.NewFromFloat64 x = Ret (b, BigFloat.Exact) /\ 0 <= b < 2 ^ 16 /\ ieee 10 5 b = VNum s v.
Proof.
  intros Hx H Hf. destruct (nff64_num x s v Hx H) as (y & E & W & V & _).
  rewrite (fits_rnd_prec _ 10 5 11 v ltac:(lia) ltac:(lia) Hf) in V.
  destruct (NewFromBig_fits y s v W V Hf) as (b & Eb & Hb & Hv).
  exists b. rewrite E, Eb. auto.
Qed.

(** Nearest-even for 2^-14 <= |x| < 2^16. *)
Lemma nff64_normal x s v : 0 <= x < 2 ^ 64 -> ieee 52 11 x = VNum s v ->
  (p2 (-14) <= Rabs v < p2 16)%R ->
  exists b a, Binary16.NewFromFloat64 x = Ret (b, a) /\ 0 <= b < 2 ^ 16 /\
    ieee 10 5 b = ieee_round 10 5 s v /\ a = BigFloat.Exact.
Proof.
  intros Hx H [Hlo Hhi]. destruct (nff64_num x s v Hx H) as (y & E & W & V & P).
  pose proof (rn_prec_eq 10 5 v ltac:(lia) ltac:(lia) Hlo) as Er.
  change (10 + 1) with 11 in Er. rewrite <- Er in V.
  destruct (rn_range 10 5 v ltac:(lia) ltac:(lia)) as [Ru Rl].
  specialize (Ru 16 ltac:(simpl; lia) (Rlt_le _ _ Hhi)). specialize (Rl (-14) ltac:(simpl; lia) Hlo).
  assert (Hnz : rn 10 5 v <> 0%R).
  { intros C. rewrite C, Rabs_R0 in Rl. pose proof (p2_pos (-14)).
    exact (Rlt_irrefl _ (Rlt_le_trans _ _ _ H0 Rl)). }
  destruct (bval_finite y s _ W V Hnz) as (m & e & Hf & Hm & Hn & Hr).
  rewrite E. destruct (Binary16.NewFromBig y) as [b a] eqn:Eb. exists b, a.
  split; [reflexivity|].
  split; [pose proof (NewFromBig_range y) as Hrg; rewrite Eb in Hrg; exact Hrg|].
  rewrite Hr in Rl, Ru.
  pose proof (gexp_lower s m e (-14) Hm Rl) as G1.
  destruct (Rlt_le_dec (Rabs (rn 10 5 v)) (p2 16)) as [L|L].
  - pose proof L as L'. rewrite Hr in L'. pose proof (gexp_upper s m e 16 Hm L') as G2.
    pose proof (NewFromBig_trunc y m e Hf W ltac:(lia)) as T. rewrite Eb in T.
    destruct T as (T1 & T2 & T3 & T4 & T5). rewrite Hn, <- Hr in T2, T4.
    rewrite (fits_rz 10 5 _ ltac:(lia) (fits_of_rn 10 5 v ltac:(lia) L)) in T2, T4.
    rewrite T2. split; [rewrite ieee_round_num by exact L; reflexivity|].
    apply T4; [lia|reflexivity].
  - rewrite ieee_round_inf by exact L.
    assert (Hv16 : (IZR m * p2 e = IZR 1 * p2 16)%R).
    { rewrite Rmult_1_l. apply Rle_antisym.
      - rewrite <- (abs_val s m e Hm). exact Ru.
      - rewrite <- (abs_val s m e Hm), <- Hr. exact L. }
    assert (G : gexp m e = 17).
    { rewrite (gexp_unique m e 1 16 Hm ltac:(lia) Hv16). reflexivity. }
    destruct (NewFromBig_norm y m e Hf W) as (a' & En & Ha & Hor); [lia|].
    rewrite Eb in En. injection En as -> ->.
    assert (Ht : top 11 m = 2 ^ 10).
    { replace 11 with (gexp m e - 6) by lia. apply (top_exact m e (2 ^ 10) 6 Hm); [|lia].
      rewrite Hv16, IZR_pow2 by lia. rewrite Rmult_1_l, <- p2_plus. reflexivity. }
    rewrite Ht, G, Hn. change (17 - 1 + 15) with (2 ^ 5 - 1). rewrite Z.sub_diag.
    split; [apply ieee_enc_inf; lia|].
    apply Ha. apply (sigbits_val 1 16 m e 11 ltac:(lia) Hm ltac:(lia) (eq_sym Hv16)).
    apply sigbits_lt. simpl. lia.
Qed.

(** For 2^-24 <= |x| < 2^16 in general: rounded to 11 bits, then truncated. *)
Lemma nff64_general x s v : 0 <= x < 2 ^ 64 -> ieee 52 11 x = VNum s v ->
  (p2 (-24) <= Rabs v)%R -> (Rabs (rnd_prec BigFloat.ToNearestEven 11 v) < p2 16)%R ->
  exists b, Binary16.NewFromFloat64 x = Ret (b, BigFloat.Exact) /\ 0 <= b < 2 ^ 16 /\
    ieee 10 5 b = VNum s (rz 10 5 (rnd_prec BigFloat.ToNearestEven 11 v)).
Proof.
  intros Hx H Hlo Hhi. destruct (nff64_num x s v Hx H) as (y & E & W & V & P).
  assert (Rl : (p2 (-24) <= Rabs (rnd_prec BigFloat.ToNearestEven 11 v))%R).
  { unfold rnd_prec. assert (Prec_gt_0 11) by (unfold Prec_gt_0; lia).
    pose proof (valid_mode_rnd BigFloat.ToNearestEven).
    apply abs_round_ge_generic; try typeclasses eauto; [|exact Hlo].
    apply generic_format_bpow. unfold FLX_exp. lia. }
  set (r := rnd_prec BigFloat.ToNearestEven 11 v) in *.
  assert (Hnz : r <> 0%R).
  { intros C. rewrite C, Rabs_R0 in Rl. pose proof (p2_pos (-24)).
    exact (Rlt_irrefl _ (Rlt_le_trans _ _ _ H0 Rl)). }
  destruct (bval_finite y s _ W V Hnz) as (m & e & Hf & Hm & Hn & Hr).
  rewrite Hr in Rl, Hhi.
  pose proof (gexp_lower s m e (-24) Hm Rl) as G1. pose proof (gexp_upper s m e 16 Hm Hhi) as G2.
  pose proof (NewFromBig_trunc y m e Hf W ltac:(lia)) as T.
  rewrite E. destruct (Binary16.NewFromBig y) as [b a] eqn:Eb.
  destruct T as (T1 & T2 & T3 & T4 & T5). rewrite Hn in *. rewrite <- Hr in T2.
  exists b. split; [|auto]. do 2 f_equal.
  destruct (Z_le_gt_dec (gexp m e) (-14)) as [L|L]; [auto|].
  apply T4; [lia|]. apply (sigbits_rz 10 5); try lia.
  destruct W as [_ W]. rewrite Hf, P in W. apply W.
Qed.

Lemma Float64_correct f : 0 <= f < 2 ^ 16 ->
  exists b, Binary16.Float64 f = Ret (b, BigFloat.Exact) /\ 0 <= b < 2 ^ 64 /\ ieee 52 11 b = ieee 10 5 f.
Proof.
  intros Hf. destruct (Big_correct f Hf) as (x & nan & HB & (Hw & _) & Hv).
  unfold Binary16.Float64. rewrite HB. cbn [bind].
  destruct (ieee 10 5 f) as [s|s|s v] eqn:Ei; destruct Hv as [-> Hv].
  - assert (Hn : BigFloat.Signbit x = s).
    { unfold bval in Hv. unfold BigFloat.Signbit. destruct (frm x); inversion Hv; reflexivity. }
    rewrite Hn. exists (if s then BigFloat.math_NegNaN else BigFloat.math_NaN).
    destruct s; (split; [reflexivity|]); (split; [unfold BigFloat.math_NegNaN, BigFloat.math_NaN; lia|reflexivity]).
  - pose proof (ToFloat_val 52 11 x ltac:(lia) ltac:(lia) ltac:(unfold MaxExp; lia) Hw) as H.
    unfold BigFloat.Float64. destruct (BigFloat.ToFloat 52 11 x) as [b a]. rewrite Hv in H.
    destruct H as (H1 & H2 & ->). exists b. auto.
  - pose proof (fits_ieee 10 5 f s v ltac:(lia) ltac:(lia) Hf Ei) as [Hfit _].
    pose proof (ToFloat_exact 52 11 x s v ltac:(lia) ltac:(lia) ltac:(unfold MaxExp; lia) Hw Hv
      (fits_mono 10 5 52 11 v ltac:(lia) ltac:(lia) Hfit)) as H.
    unfold BigFloat.Float64. destruct (BigFloat.ToFloat 52 11 x) as [b a].
    destruct H as (H1 & H2 & ->). exists b. auto.
Qed.

Lemma Float32_correct f : 0 <= f < 2 ^ 16 ->
  exists b, Binary16.Float32 f = Ret (b, BigFloat.Exact) /\ 0 <= b < 2 ^ 32 /\ ieee 23 8 b = ieee 10 5 f.
Proof.
  intros Hf. destruct (Big_correct f Hf) as (x & nan & HB & (Hw & _) & Hv).
  unfold Binary16.Float32. rewrite HB. cbn [bind].
  destruct (ieee 10 5 f) as [s|s|s v] eqn:Ei; destruct Hv as [-> Hv].
  - assert (Hn : BigFloat.Signbit x = s).
    { unfold bval in Hv. unfold BigFloat.Signbit. destruct (frm x); inversion Hv; reflexivity. }
    rewrite Hn. exists (BigFloat.f64_to_f32 (if s then BigFloat.math_NegNaN else BigFloat.math_NaN)).
    destruct s; (split; [reflexivity|]); (split; [vm_compute; split; congruence|reflexivity]).
  - pose proof (ToFloat_val 23 8 x ltac:(lia) ltac:(lia) ltac:(unfold MaxExp; lia) Hw) as H.
    unfold BigFloat.Float32. destruct (BigFloat.ToFloat 23 8 x) as [b a]. rewrite Hv in H.
    destruct H as (H1 & H2 & ->). exists b. auto.
  - pose proof (fits_ieee 10 5 f s v ltac:(lia) ltac:(lia) Hf Ei) as [Hfit _].
    pose proof (ToFloat_exact 23 8 x s v ltac:(lia) ltac:(lia) ltac:(unfold MaxExp; lia) Hw Hv
      (fits_mono 10 5 23 8 v ltac:(lia) ltac:(lia) Hfit)) as H.
    unfold BigFloat.Float32. destruct (BigFloat.ToFloat 23 8 x) as [b a].
    destruct H as (H1 & H2 & ->). exists b. auto.
Qed.

(** NewFromFloat64 always returns a 16-bit pattern. *)
Lemma nff64_total x : 0 <= x < 2 ^ 64 ->
  exists b a, Binary16.NewFromFloat64 x = Ret (b, a) /\ 0 <= b < 2 ^ 16.
Proof.
  intros Hx. destruct (ieee 52 11 x) as [s|s|s v] eqn:Ei.
  - rewrite (nff64_nan x s Hx Ei). eexists _, _. split; [reflexivity|].
    destruct s; unfold Binary16.NegNaN, Binary16.NaN; lia.
  - rewrite (nff64_inf x s Hx Ei). eexists _, _. split; [reflexivity|].
    destruct s; unfold Binary16.NegInf, Binary16.Inf; lia.
  - destruct (nff64_num x s v Hx Ei) as (y & -> & _).
    pose proof (NewFromBig_range y). destruct (Binary16.NewFromBig y) as [b a].
    exists b, a. auto.
Qed.

(** NewFromFloat32 is NewFromFloat64 of the exactly converted argument. *)
Lemma nff32_eq x : 0 <= x < 2 ^ 32 ->
  Binary16.NewFromFloat32 x = Binary16.NewFromFloat64 (BigFloat.f32_to_f64 x).
Proof.
  intros Hx. unfold Binary16.NewFromFloat32.
  destruct (f32_to_f64_correct x Hx) as [Hr _].
  destruct (nff64_total _ Hr) as (b & a & -> & Hb). cbn [bind].
  destruct (BigFloat.accuracy_eqb a BigFloat.Exact) eqn:Ea; [|reflexivity].
  destruct (Float32_correct b Hb) as (c & -> & _). cbn [bind].
  destruct a; try discriminate. reflexivity.
Qed.

(** Converting back. *)
Lemma back64 f b : 0 <= f < 2 ^ 16 -> 0 <= b < 2 ^ 64 -> ieee 52 11 b = ieee 10 5 f ->
  Binary16.NewFromFloat64 b =
  Ret (match ieee 10 5 f with VNaN s => if s then Binary16.NegNaN else Binary16.NaN | _ => f end, BigFloat.Exact).
Proof.
  intros Hf Hb Hv. destruct (ieee 10 5 f) as [s|s|s v] eqn:Ei.
  - apply nff64_nan; assumption.
  - rewrite (nff64_inf b s Hb Hv). do 2 f_equal. apply (ieee_inj 10 5); try lia.
    + destruct s; unfold Binary16.NegInf, Binary16.Inf; lia.
    + rewrite inf_pattern. congruence.
    + intros t. rewrite inf_pattern. discriminate.
  - pose proof (fits_ieee 10 5 f s v ltac:(lia) ltac:(lia) Hf Ei) as [Hfit _].
    destruct (nff64_fits b s v Hb Hv Hfit) as (g & -> & Hg & Hgv). do 2 f_equal.
    apply (ieee_inj 10 5); try lia; congruence.
Qed.

(** ** The sign only reaches the sign bit *)
Lemma NewFromBig_core x m e : frm x = Finite m e -> wf x ->
  exists r a, 0 <= r < 2 ^ 15 /\
  forall s, Binary16.NewFromBig (BigFloat.set_neg x s) = (Z.b2z s * 2 ^ 15 + r, a).
Proof.
  intros Hf Hw.
  set (E := gexp m e - 1 + 15).
  set (mn := fst (BigFloat.MantExp (BigFloat.set_neg x false))).
  assert (Hmn : forall s, absb (fst (BigFloat.MantExp (BigFloat.set_neg x s))) = mn).
  { intros s. rewrite absb_MantExp, absb_set_neg. reflexivity. }
  assert (Hfs : forall s, frm (BigFloat.set_neg x s) = Finite m e) by (intros; exact Hf).
  assert (Hme : forall s, BigFloat.MantExp (BigFloat.set_neg x s) =
                   (fst (BigFloat.MantExp (BigFloat.set_neg x s)), gexp m e)).
  { intros s. apply MantExp_finite. apply Hfs. }
  assert (Hl : forall a, 0 <= Z.land a 0x7FF < 2 ^ 11).
  { intros a. change 0x7FF with (2 ^ 11 - 1). rewrite land_ones_mod by lia. apply Z.mod_pos_bound. lia. }
  destruct (Z.leb_spec E 0) as [L|L].
  - set (E' := if E <=? -10 then 10 else E).
    assert (HE' : -10 < E' <= 10) by (unfold E'; destruct (Z.leb_spec E (-10)); lia).
    set (r := BigFloat.SetMantExpSelf mn (E' + 11 - 1)).
    exists (u16 (Z.land (fst (BigFloat.Uint64 r)) 0x7FF)), (if E <=? -10 then BigFloat.Below else BigFloat.Exact).
    assert (Hu : u16 (Z.land (fst (BigFloat.Uint64 r)) 0x7FF) = Z.land (fst (BigFloat.Uint64 r)) 0x7FF).
    { unfold u16. apply Z.mod_small. pose proof (Hl (fst (BigFloat.Uint64 r))). lia. }
    split; [rewrite Hu; pose proof (Hl (fst (BigFloat.Uint64 r))); lia|].
    intros s. unfold Binary16.NewFromBig, Binary16.NewFromBig_int.
    unfold BigFloat.IsInf. rewrite Hfs, Cmp_zero, Hfs by reflexivity.
    rewrite Hme. unfold Binary16.bias, Binary16.precision, BigFloat.Signbit. fold E.
    rewrite (proj2 (Z.leb_le E 0)) by lia. change (- (11 - 1)) with (-10). change (11 - 1) with 10.
    replace (if E <=? -10 then (10, BigFloat.Below) else (E, BigFloat.Exact))
      with (E', if E <=? -10 then BigFloat.Below else BigFloat.Exact) by (unfold E'; destruct (E <=? -10); reflexivity).
    destruct (scaled_mant (BigFloat.set_neg x s) m e (E' + 11 - 1) (Hfs s) Hw ltac:(unfold MinExp, MaxExp; lia))
      as (_ & _ & _ & _ & _ & C).
    cbv zeta in C. unfold absb at 1 in C. rewrite C, Hmn. fold r.
    destruct (BigFloat.Uint64 r) as [mm aa]. cbn [fst] in *. f_equal.
    change (neg (BigFloat.set_neg x s)) with s. rewrite Hu. apply sign_or.
    pose proof (Hl mm). lia.
  - set (r := BigFloat.SetMantExpSelf mn 11).
    destruct (BigFloat.Uint64 r) as [mm aa] eqn:Eu.
    set (M := Z.land (andnot mm 0x400) 0x7FF).
    assert (HM : 0 <= M < 2 ^ 11) by apply Hl.
    assert (Hue : forall a, 0 <= u16 (Z.land a 0x1F) < 2 ^ 5).
    { intros a. unfold u16. change 0x1F with (2 ^ 5 - 1). rewrite land_ones_mod by lia.
      pose proof (Z.mod_pos_bound a (2 ^ 5) ltac:(lia)). rewrite Z.mod_small by lia. lia. }
    assert (Hue2 : 0 <= u16 (Z.shiftl (u16 (Z.land E 0x1F)) 10) < 2 ^ 15).
    { rewrite Z.shiftl_mul_pow2 by lia. pose proof (Hue E). unfold u16 at 1 3. rewrite Z.mod_small by lia. lia. }
    assert (HuM : u16 M = M) by (unfold u16; apply Z.mod_small; lia).
    exists (Z.lor (u16 (Z.shiftl (u16 (Z.land E 0x1F)) 10)) M).
    eexists. split; [apply lor_lt; lia|].
    intros s. unfold Binary16.NewFromBig, Binary16.NewFromBig_int.
    unfold BigFloat.IsInf. rewrite Hfs, Cmp_zero, Hfs by reflexivity.
    rewrite Hme. unfold Binary16.bias, Binary16.precision, BigFloat.Signbit. fold E.
    rewrite (proj2 (Z.leb_gt E 0)) by lia.
    pose proof (Hmn s) as C. unfold absb in C. rewrite C. fold r.
    rewrite Eu. fold M. rewrite HuM. rewrite <- Z.lor_assoc. change (neg (BigFloat.set_neg x s)) with s.
    rewrite sign_or by (apply lor_lt; lia).
    reflexivity.
Qed.

Lemma NewFromBig_neg x : wf x ->
  Binary16.NewFromBig (BigFloat.NegSelf x) =
  (Z.lxor (fst (Binary16.NewFromBig x)) (2 ^ 15), snd (Binary16.NewFromBig x)).
Proof.
  intros Hw. assert (Hx : forall s r, 0 <= r < 2 ^ 15 ->
    Z.lxor (Z.b2z s * 2 ^ 15 + r) (2 ^ 15) = Z.b2z (negb s) * 2 ^ 15 + r).
  { intros s r Hr. rewrite <- !lor_add by lia.
    rewrite <- !Z.lxor_lor by (apply land_disjoint; lia).
    rewrite Z.lxor_assoc, (Z.lxor_comm r), <- Z.lxor_assoc. f_equal. destruct s; reflexivity. }
  destruct (frm x) as [|m e|] eqn:Ef.
  - unfold Binary16.NewFromBig, Binary16.NewFromBig_int, BigFloat.IsInf, BigFloat.Signbit.
    rewrite !Cmp_zero by reflexivity. cbn [BigFloat.NegSelf BigFloat.set_neg frm neg]. rewrite Ef.
    destruct (neg x); reflexivity.
  - destruct (NewFromBig_core x m e Ef Hw) as (r & a & Hr & H).
    rewrite NegSelf_set_neg, H. rewrite <- (set_neg_self x) at 2 3. rewrite H. cbn [fst snd].
    rewrite Hx by exact Hr. reflexivity.
  - unfold Binary16.NewFromBig, Binary16.NewFromBig_int, BigFloat.IsInf, BigFloat.Signbit.
    cbn [BigFloat.NegSelf BigFloat.set_neg frm neg]. rewrite Ef.
    destruct (neg x); reflexivity.
Qed.
