(** The lemmas behind the float128ppc theorems. *)
From Coq Require Import ZArith Reals Lia Lra Bool List.
From Flocq Require Import Core.
From Verif Require Import GoBase.
From Verif Require BigFloat Float128ppc.
From Verif Require Import Spec BitFacts RoundFacts IeeeFacts BigFacts BigFacts2 BigFacts3 PkgFacts FactsPpc.
From Verif Require Claims16.
Import BigFloat (bitlen, gexp, prec, rmode, acc, neg, frm, Finite, MaxExp, MinExp, MaxPrec).
Import Float128ppc (Float, mkFloat, high, low).
Open Scope Z_scope.

Lemma VInf_inj s t : VInf s = VInf t -> s = t.
Proof. congruence. Qed.

Lemma zero64 : ieee 52 11 0 = VNum false 0.
Proof.
  change 0 with (enc 52 11 false 0 0) at 1. rewrite ieee_enc_sub by lia. rewrite Rmult_0_l, sgnR_0. reflexivity.
Qed.

Lemma negzero64 : ieee 52 11 Float128ppc.math_NegZero = VNum true 0.
Proof.
  change Float128ppc.math_NegZero with (enc 52 11 true 0 0). rewrite ieee_enc_sub by lia. rewrite Rmult_0_l, sgnR_0. reflexivity.
Qed.

(** A float64 on its own. *)
Lemma Big_single x : 0 <= x < 2 ^ 64 -> (forall s, ieee 52 11 x <> VNaN s) ->
  exists b, Float128ppc.Big (mkFloat x 0) = Ret (b, false) /\ wf b /\ bval b = ieee 52 11 x /\ acc b = BigFloat.Exact.
Proof.
  intros Hx Hn. assert (Hok : ok (mkFloat x 0)) by (split; cbn [high low]; lia).
  destruct (ieee 52 11 x) as [s|s|s v] eqn:Ei; [exfalso; eapply Hn; reflexivity| |].
  - pose proof (Big_inf (mkFloat x 0) Hok) as H. cbn [high low] in H. rewrite Ei, zero64 in H.
    destruct H as (b & H1 & H2 & _ & _ & H5 & H6); [intros; congruence..|]. exists b. auto.
  - destruct (Big_num (mkFloat x 0) s v false 0 Hok Ei zero64) as (b & t & H1 & H2 & _ & _ & H5 & H6 & H7).
    rewrite Rplus_0_r in *.
    pose proof (fits_ieee 52 11 x s v ltac:(lia) ltac:(lia) Hx Ei) as [Hf Hs].
    rewrite (fits_rnd_prec _ 52 11 106 v) in H5 by (lia || assumption).
    assert (t = s).
    { destruct H6 as (S1 & S2 & S3). destruct (Req_dec v 0) as [E|E]; [auto|].
      destruct Hs as [Hs|Hs]; [contradiction|].
      assert (0 < Rabs v)%R by (apply Rabs_pos_lt; exact E).
      destruct s; cbn [sgnR] in Hs; [apply S1|apply S2]; lra. }
    subst t. exists b. rewrite H5 in H7. apply acc_ok_exact in H7. auto.
Qed.

Lemma nff64 x : 0 <= x < 2 ^ 64 -> (forall s, ieee 52 11 x <> VNaN s) ->
  Float128ppc.NewFromFloat64 x = Ret (mkFloat x 0, BigFloat.Exact).
Proof.
  intros Hx Hn. unfold Float128ppc.NewFromFloat64. rewrite isnan_ieee by (simpl; lia).
  destruct (Big_single x Hx Hn) as (b & -> & _ & _ & A). cbn [bind]. rewrite A.
  destruct (ieee 52 11 x) eqn:E; [exfalso; eapply Hn; reflexivity|reflexivity..].
Qed.

Lemma to64 x : 0 <= x < 2 ^ 64 -> (forall s, ieee 52 11 x <> VNaN s) ->
  Float128ppc.Float64 (mkFloat x 0) = Ret (x, BigFloat.Exact).
Proof.
  intros Hx Hn. unfold Float128ppc.Float64. destruct (Big_single x Hx Hn) as (b & -> & W & V & _). cbn [bind].
  f_equal. unfold BigFloat.Float64. apply ToFloat_of_ieee; try (unfold MaxExp; lia); assumption.
Qed.

Lemma to32 x y : 0 <= x < 2 ^ 64 -> 0 <= y < 2 ^ 32 -> ieee 52 11 x = ieee 23 8 y -> (forall s, ieee 52 11 x <> VNaN s) ->
  Float128ppc.Float32 (mkFloat x 0) = Ret (y, BigFloat.Exact).
Proof.
  intros Hx Hy E Hn. unfold Float128ppc.Float32. destruct (Big_single x Hx Hn) as (b & -> & W & V & _). cbn [bind].
  f_equal. unfold BigFloat.Float32. apply ToFloat_of_ieee; try (unfold MaxExp; lia); congruence.
Qed.

Lemma nff64_nan x s : 0 <= x < 2 ^ 64 -> ieee 52 11 x = VNaN s ->
  Float128ppc.NewFromFloat64 x = Ret ((if s then Float128ppc.NegNaN else Float128ppc.NaN), BigFloat.Exact).
Proof.
  intros Hx H. unfold Float128ppc.NewFromFloat64.
  rewrite isnan_ieee, sign_ieee by (simpl; lia). rewrite H. cbn. destruct s; reflexivity.
Qed.

Lemma nff32 x : 0 <= x < 2 ^ 32 ->
  match ieee 23 8 x with
  | VNaN s => Float128ppc.NewFromFloat32 x = Ret ((if s then Float128ppc.NegNaN else Float128ppc.NaN), BigFloat.Exact)
  | _ => exists y, 0 <= y < 2 ^ 64 /\ ieee 52 11 y = ieee 23 8 x /\
           Float128ppc.NewFromFloat32 x = Ret (mkFloat y 0, BigFloat.Exact)
  end.
Proof.
  intros Hx. destruct (f32_to_f64_correct x Hx) as [Hr Hw]. set (y := BigFloat.f32_to_f64 x) in *.
  unfold Float128ppc.NewFromFloat32. fold y.
  assert (K : (forall s, ieee 23 8 x <> VNaN s) -> exists y, 0 <= y < 2 ^ 64 /\ ieee 52 11 y = ieee 23 8 x /\
     Float128ppc.NewFromFloat32 x = Ret (mkFloat y 0, BigFloat.Exact)).
  { intros Hn. exists y. split; [exact Hr|]. split; [exact Hw|]. unfold Float128ppc.NewFromFloat32. fold y.
    rewrite nff64 by (intros; congruence || assumption). cbn [bind BigFloat.accuracy_eqb].
    rewrite (to32 y x) by (intros; congruence || assumption). reflexivity. }
  destruct (ieee 23 8 x) as [s|s|s v] eqn:E.
  - rewrite (nff64_nan y s Hr Hw). destruct s; reflexivity.
  - apply K. discriminate.
  - apply K. discriminate.
Qed.

Lemma zero_of x s : wf x -> bval x = VNum s 0 ->
  Float128ppc.NewFromBig x = Ret (mkFloat (if s then Float128ppc.math_NegZero else 0) 0, BigFloat.Exact, x).
Proof.
  intros W B. unfold bval in B. unfold Float128ppc.NewFromBig, BigFloat.IsInf.
  destruct (frm x) as [|m e|] eqn:Ef; [| |discriminate].
  - apply VNum_inj in B. destruct B as [<- _]. rewrite Cmp_zero, Ef by reflexivity. unfold BigFloat.Signbit.
    destruct (neg x); reflexivity.
  - exfalso. apply VNum_inj in B. destruct B as [_ B]. destruct W as [_ W]. rewrite Ef in W.
    pose proof (val_pos m e (proj1 W)). destruct (neg x); cbn [sgnR] in B; lra.
Qed.

(** The float64 of a rounded number has the right sign. *)
Lemma sign_fits b s v : 0 <= b < 2 ^ 64 -> ieee 52 11 b = VNum s v -> ((v < 0 -> s = true) /\ (0 < v -> s = false))%R.
Proof.
  intros Hb H. pose proof (fits_ieee 52 11 b s v ltac:(lia) ltac:(lia) Hb H) as [_ Hs].
  destruct Hs as [->|Hs]; [split; intros; lra|]. pose proof (Rabs_pos v). destruct s; cbn [sgnR] in Hs; split; intros; try reflexivity; lra.
Qed.

Lemma rn_sign v : ((0 <= v -> 0 <= rn 52 11 v) /\ (v <= 0 -> rn 52 11 v <= 0))%R.
Proof.
  assert (Prec_gt_0 53) by (unfold Prec_gt_0; lia).
  split; intros Hv.
  - rewrite <- (rn_0 52 11). unfold rn. apply round_le; try typeclasses eauto. exact Hv.
  - rewrite <- (rn_0 52 11). unfold rn. apply round_le; try typeclasses eauto. exact Hv.
Qed.

Lemma half_ulp d u k : u = p2 k -> -1074 <= k -> (Rabs d <= / 2 * u)%R -> (Rabs (rn 52 11 d) <= / 2 * u)%R.
Proof.
  intros Hu Hk Hd. assert (E : (/ 2 * u = p2 (k - 1))%R).
  { rewrite Hu. replace (/ 2)%R with (p2 (-1)) by reflexivity. rewrite <- p2_plus. f_equal. lia. }
  rewrite E in *. destruct (Z.eq_dec k (-1074)) as [->|N].
  - assert (Hz : rn 52 11 (p2 (-1075)) = 0%R).
    { replace (p2 (-1075)) with (sgnR false (IZR 1 * p2 (-1075))) by (cbn [sgnR]; ring).
      apply rn_small; try lia. right. split; reflexivity. }
    assert (Prec_gt_0 53) by (unfold Prec_gt_0; lia).
    assert (Habs : Rabs (rn 52 11 d) = rn 52 11 (Rabs d)).
    { unfold rn. symmetry. apply round_NE_abs. typeclasses eauto. }
    rewrite Habs. apply Rle_trans with (rn 52 11 (p2 (-1075))).
    + unfold rn. apply round_le; try typeclasses eauto. exact Hd.
    + rewrite Hz. left. apply p2_pos.
  - apply (rn_range 52 11 d); try lia. exact Hd.
Qed.

Lemma c23 : forall a b, 0 <= a < 2 ^ 64 -> 0 <= b < 2 ^ 64 ->
  let f := Float128ppc.NewFromBits a b in
  match ieee 52 11 a, ieee 52 11 b with
  | VNaN _, _ | _, VNaN _ => exists x, Float128ppc.Big f = Ret (x, true)
  | VNum s v, VNum _ w =>
      exists x t, Float128ppc.Big f = Ret (x, false) /\ wf x /\ prec x = 106 /\
        rmode x = BigFloat.ToNearestEven /\
        bval x = VNum t (rnd_prec BigFloat.ToNearestEven 106 (v + w)) /\
        acc_ok (acc x) (bval x) (v + w) /\
        ((v + w < 0)%R -> t = true) /\ ((0 < v + w)%R -> t = false) /\ ((v + w = 0)%R -> t = s)
  | VInf s, VInf t =>
      s = t -> exists x, Float128ppc.Big f = Ret (x, false) /\ wf x /\ prec x = 106 /\ bval x = VInf s /\ acc x = BigFloat.Exact
  | VInf s, VNum _ _ | VNum _ _, VInf s =>
      exists x, Float128ppc.Big f = Ret (x, false) /\ wf x /\ prec x = 106 /\ bval x = VInf s /\ acc x = BigFloat.Exact
  end.
Proof.
  intros a b Ha Hb f. assert (Hok : ok f) by (split; assumption).
  pose proof (Big_inf f Hok) as HI. cbn [high low f Float128ppc.NewFromBits] in HI.
  destruct (ieee 52 11 a) as [s|s|s v] eqn:Ea; destruct (ieee 52 11 b) as [t|t|t w] eqn:Eb;
    try (eexists; apply Big_nan; [exact Hok|]; cbn [high low f Float128ppc.NewFromBits]; eauto; fail).
  - specialize (HI ltac:(discriminate) ltac:(discriminate)). intros <-. rewrite eqb_reflx in HI.
    destruct HI as (x & H1 & H2 & H3 & _ & H4 & H5). exists x. auto.
  - specialize (HI ltac:(discriminate) ltac:(discriminate)).
    destruct HI as (x & H1 & H2 & H3 & _ & H4 & H5). exists x. auto.
  - specialize (HI ltac:(discriminate) ltac:(discriminate)).
    destruct HI as (x & H1 & H2 & H3 & _ & H4 & H5). exists x. auto.
  - destruct (Big_num f s v t w Hok Ea Eb) as (x & u & H1 & H2 & H3 & H4 & H5 & H6 & H7).
    exists x, u. destruct H6 as (S1 & S2 & S3). auto 12.
Qed.

Lemma c24_refuted : 
  (exists a b, 0 <= a < 2 ^ 64 /\ 0 <= b < 2 ^ 64 /\
     Float128ppc.Big (Float128ppc.NewFromBits a b) = Panic /\
     Float128ppc.Float64 (Float128ppc.NewFromBits a b) = Panic /\
     Float128ppc.Float32 (Float128ppc.NewFromBits a b) = Panic) /\
  (exists x, wf x /\ bval x = VNum false (p2 1024) /\ Float128ppc.NewFromBig x = Panic).
Proof.
  split.
  - exists 0x7FF0000000000000, 0xFFF0000000000000. split; [lia|]. split; [lia|]. vm_compute. auto.
  - exists (BigFloat.mkBF 53 BigFloat.ToNearestEven BigFloat.Exact false (Finite 1 1024)).
    split; [apply Claims16.fin_wf; unfold MaxPrec, MinExp, MaxExp; vm_compute; intuition congruence|].
    split; [unfold bval; cbn [frm neg sgnR]; rewrite Rmult_1_l; reflexivity|vm_compute; reflexivity].
Qed.

Lemma c24_partial : 
  (forall a b, 0 <= a < 2 ^ 64 -> 0 <= b < 2 ^ 64 ->
     let f := Float128ppc.NewFromBits a b in
     let opposite := exists s, ieee 52 11 a = VInf s /\ ieee 52 11 b = VInf (negb s) in
     (Float128ppc.Big f = Panic <-> opposite) /\
     (Float128ppc.Float64 f = Panic <-> opposite) /\ (Float128ppc.Float32 f = Panic <-> opposite)) /\
  (forall x, 0 <= x < 2 ^ 64 -> Float128ppc.NewFromFloat64 x <> Panic) /\
  (forall x, 0 <= x < 2 ^ 32 -> Float128ppc.NewFromFloat32 x <> Panic) /\
  (forall x, wf x -> Float128ppc.NewFromBig x = Panic <->
     exists s v, bval x = VNum s v /\ (p2 1024 <= Rabs (rn 52 11 (rnd_prec (rmode x) 106 v)))%R).
Proof.
  split; [|split; [|split]].
  - intros a b Ha Hb f opposite. assert (Hok : ok f) by (split; assumption).
    assert (K : Float128ppc.Big f = Panic <-> opposite).
    { pose proof (c23 a b Ha Hb) as H. cbv zeta in H. fold f in H. unfold opposite.
      pose proof (Big_inf f Hok) as HI. cbn [high low f Float128ppc.NewFromBits] in HI.
      destruct (ieee 52 11 a) as [s|s|s v]; destruct (ieee 52 11 b) as [t|t|t w];
        try (destruct H as (x & H); split; [rewrite H; discriminate|intros (s' & E1 & E2); discriminate]);
        try (destruct H as (x & H & _); split; [rewrite H; discriminate|intros (s' & E1 & E2); discriminate]).
      - specialize (HI ltac:(discriminate) ltac:(discriminate)).
        destruct (Bool.eqb s t) eqn:Est.
        + destruct HI as (x & H1 & _). split; [rewrite H1; discriminate|].
          intros (s' & E1 & E2). apply VInf_inj in E1. apply VInf_inj in E2. apply eqb_prop in Est. destruct s'; cbn in *; congruence.
        + split; [|auto]. intros _. exists s. split; [reflexivity|]. f_equal. destruct s, t; try reflexivity; discriminate.
      - destruct H as (x & t' & H & _). split; [rewrite H; discriminate|intros (s' & E1 & E2); discriminate]. }
    split; [exact K|]. unfold Float128ppc.Float64, Float128ppc.Float32.
    destruct (Float128ppc.Big f) as [[x nan]|] eqn:EB.
    + assert (~ opposite) by (intros Ho; apply K in Ho; discriminate).
      cbn [bind]. split; split; intros Hx; try contradiction;
        destruct nan; try discriminate; destruct (BigFloat.Signbit x); discriminate.
    + cbn [bind]. assert opposite by (apply K; reflexivity). tauto.
  - intros x Hx. destruct (ieee 52 11 x) as [s|s|s v] eqn:E.
    + rewrite (nff64_nan x s Hx E). discriminate.
    + rewrite nff64 by (intros; congruence || assumption). discriminate.
    + rewrite nff64 by (intros; congruence || assumption). discriminate.
  - intros x Hx. pose proof (nff32 x Hx) as H. destruct (ieee 23 8 x) as [s|s|s v].
    + rewrite H. discriminate.
    + destruct H as (y & _ & _ & ->). discriminate.
    + destruct H as (y & _ & _ & ->). discriminate.
  - intros x Hw. destruct (bval x) as [s|s|s v] eqn:B.
    + unfold bval in B. destruct (frm x); discriminate.
    + split; [|intros (t & v & E & _); discriminate].
      unfold Float128ppc.NewFromBig, BigFloat.IsInf. destruct (frm_inf _ _ B) as [-> _].
      destruct (BigFloat.Signbit x); discriminate.
    + split.
      * intros HP. exists s, v. split; [reflexivity|].
        destruct (Rle_or_lt (p2 1024) (Rabs (rn 52 11 (rnd_prec (rmode x) 106 v)))) as [|L]; [assumption|]. exfalso.
        destruct (Req_dec v 0) as [->|Hv].
        -- rewrite (zero_of x s Hw B) in HP. discriminate.
        -- destruct (NewFromBig_num x s v Hw B Hv L) as (h & l & t & E & _). congruence.
      * intros (t & w & E & Ho). apply VNum_inj in E. destruct E as [<- <-]. exact (NewFromBig_overflow x s v Hw B Ho).
Qed.

Lemma c25 : forall x s v, wf x -> bval x = VNum s v -> v <> 0%R ->
  let y := rnd_prec (rmode x) 106 v in
  (Rabs (rn 52 11 y) < p2 1024)%R ->
  exists h l a x' t, Float128ppc.NewFromBig x = Ret (mkFloat h l, a, x') /\
    0 <= h < 2 ^ 64 /\ 0 <= l < 2 ^ 64 /\
    ieee 52 11 h = ieee_round 52 11 s y /\ ieee 52 11 h = VNum s (rn 52 11 y) /\
    ieee 52 11 l = ieee_round 52 11 t (y - rn 52 11 y) /\ ieee 52 11 l = VNum t (rn 52 11 (y - rn 52 11 y)) /\
    (fits 52 11 (y - rn 52 11 y) -> (rn 52 11 y + rn 52 11 (y - rn 52 11 y) = y)%R) /\
    (Rabs (rn 52 11 (y - rn 52 11 y)) <= / 2 * ulp radix2 (FLT_exp (-1074) 53) (rn 52 11 y))%R.
Proof.
  intros x s v Hw B Hv y Hr.
  destruct (NewFromBig_num x s v Hw B Hv Hr) as (h & l & t & E & Hh & Hl & Vh & Vl & _). fold y in E, Vh, Vl.
  exists h, l, BigFloat.Exact, (x106 x), t. split; [exact E|]. split; [exact Hh|]. split; [exact Hl|].
  assert (Hy0 : y <> 0%R) by (apply rnd_prec_nz; [lia|exact Hv]).
  set (d := (y - rn 52 11 y)%R) in *.
  assert (Hds : (Rabs (rn 52 11 d) < p2 1024)%R).
  { apply Rle_lt_trans with (p2 971); [|apply p2_lt; lia].
    apply (rn_range 52 11 d); try lia. apply remainder_small; assumption. }
  rewrite (ieee_round_num 52 11 s y Hr), (ieee_round_num 52 11 t d Hds).
  split; [exact Vh|]. split; [exact Vh|]. split; [exact Vl|]. split; [exact Vl|]. split.
  - intros Hf. rewrite (fits_rn 52 11 d ltac:(lia) Hf). unfold d. ring.
  - pose proof (remainder_exact 106 y ltac:(lia) (rnd_prec_bits _ 106 v ltac:(lia)) Hy0) as (_ & _ & _ & R4).
    fold d in R4. set (u := ulp _ _ _) in *.
    assert (Hu : exists k, u = p2 k /\ -1074 <= k).
    { assert (Prec_gt_0 53) by (unfold Prec_gt_0; lia).
      unfold u. destruct (Req_dec (rn 52 11 y) 0) as [Z0|Z0].
      - rewrite Z0. exists (-1074). split; [|lia]. apply (ulp_FLT_0 radix2 (-1074) 53).
      - rewrite ulp_neq_0 by exact Z0. exists (cexp radix2 (FLT_exp (-1074) 53) (rn 52 11 y)). split; [reflexivity|].
        unfold cexp, FLT_exp. lia. }
    destruct Hu as (k & Hk & Hk'). apply (half_ulp d u k Hk Hk' R4).
Qed.

Lemma c25_short : forall md K c, Z.abs K < 2 ^ 106 ->
  rnd_prec md 106 (IZR K * p2 c) = (IZR K * p2 c)%R.
Proof.
  intros md K c HK. apply rnd_prec_exact; [lia|exact HK].
Qed.

Lemma c26_refuted : exists a b s1 v1 s2 v2 x a' b' acc' x', 0 <= a < 2 ^ 64 /\ 0 <= b < 2 ^ 64 /\
  ieee 52 11 a = VNum s1 v1 /\ ieee 52 11 b = VNum s2 v2 /\ rn 52 11 (v1 + v2) = v1 /\ (0 < v2)%R /\
  Float128ppc.Big (Float128ppc.NewFromBits a b) = Ret (x, false) /\
  Float128ppc.NewFromBig x = Ret (mkFloat a' b', acc', x') /\ b' <> b.
Proof.
  exists 0x3FF0000000000000, 1, false, (IZR (2 ^ 1074) * p2 (-1074))%R, false, (IZR 1 * p2 (-1074))%R.
  eexists _, 0x3FF0000000000000, 0, BigFloat.Exact, _.
  split; [lia|]. split; [lia|].
  assert (E1 : ieee 52 11 0x3FF0000000000000 = VNum false (IZR (2 ^ 1074) * p2 (-1074))).
  { change 0x3FF0000000000000 with (enc 52 11 false 1023 0). rewrite ieee_enc_norm by lia. f_equal. cbn [sgnR].
    change (2 ^ 1074) with (2 ^ 52 * 2 ^ 1022). rewrite scale_R by lia. do 2 f_equal. }
  split; [exact E1|]. split.
  { change 1 with (enc 52 11 false 0 1) at 1. rewrite ieee_enc_sub by lia. reflexivity. }
  split.
  - rewrite <- Rmult_plus_distr_r, <- plus_IZR.
    pose proof (ToFloat_val 52 11 (BigFloat.mkBF 2000 BigFloat.ToNearestEven BigFloat.Exact false (Finite (2 ^ 1074 + 1) (-1074)))
      ltac:(lia) ltac:(lia) ltac:(unfold MaxExp; lia)) as H.
    match type of H with _ -> let '(b, a) := ?t in _ => assert (T : fst t = 0x3FF0000000000000) by (vm_compute; reflexivity) end.
    destruct (BigFloat.ToFloat 52 11 _) as [b a]. cbn [fst] in T. subst b.
    destruct H as (_ & H & _); [apply Claims16.fin_wf; unfold MaxPrec, MinExp, MaxExp; vm_compute; intuition congruence|].
    cbn [frm neg] in H. unfold ieee_round in H.
    rewrite E1 in H. cbn [sgnR] in H. destruct (Rle_bool _ _); [discriminate|]. apply VNum_inj in H. symmetry. apply H.
  - split; [apply val_pos; lia|]. split; [vm_compute; reflexivity|]. split; [vm_compute; reflexivity|]. lia.
Qed.

Lemma c26_refuted_nz : exists a b x a' b' acc' x', 0 <= a < 2 ^ 64 /\ 0 <= b < 2 ^ 64 /\
  ieee 52 11 a = VNum false (IZR (2 ^ 52) * p2 (-52)) /\ b = Float128ppc.math_NegZero /\
  Float128ppc.Big (Float128ppc.NewFromBits a b) = Ret (x, false) /\
  Float128ppc.NewFromBig x = Ret (mkFloat a' b', acc', x') /\ b' <> b.
Proof.
  exists 0x3FF0000000000000, Float128ppc.math_NegZero. eexists _, _, 0, _, _.
  split; [lia|]. split; [unfold Float128ppc.math_NegZero; lia|].
  split; [reflexivity|]. split; [reflexivity|].
  split; [vm_compute; reflexivity|]. split; [vm_compute; reflexivity|]. discriminate.
Qed.

Lemma c26_partial : forall a b s1 v1 s2 v2, 0 <= a < 2 ^ 64 -> 0 <= b < 2 ^ 64 ->
  ieee 52 11 a = VNum s1 v1 -> ieee 52 11 b = VNum s2 v2 -> rn 52 11 (v1 + v2) = v1 ->
  (exists K c, (v1 + v2 = IZR K * p2 c)%R /\ Z.abs K < 2 ^ 106) -> b <> Float128ppc.math_NegZero ->
  exists x x', Float128ppc.Big (Float128ppc.NewFromBits a b) = Ret (x, false) /\
    Float128ppc.NewFromBig x = Ret (Float128ppc.NewFromBits a b, BigFloat.Exact, x').
Proof.
  intros a b s1 v1 s2 v2 Ha Hb Ea Eb Hrn Hbits Hnz.
  assert (Hok : ok (Float128ppc.NewFromBits a b)) by (split; assumption).
  destruct (Big_num (Float128ppc.NewFromBits a b) s1 v1 s2 v2 Hok Ea Eb) as (x & s & HB & W & P & M & V & S & A).
  exists x. rewrite HB. set (v := (v1 + v2)%R) in *.
  rewrite (bits_le_rnd _ 106 v ltac:(lia) Hbits) in V.
  pose proof (fits_ieee 52 11 a s1 v1 ltac:(lia) ltac:(lia) Ha Ea) as [Fa _].
  pose proof (fits_ieee 52 11 b s2 v2 ltac:(lia) ltac:(lia) Hb Eb) as [Fb _].
  destruct (sign_fits a s1 v1 Ha Ea) as [SA1 SA2]. destruct (sign_fits b s2 v2 Hb Eb) as [SB1 SB2].
  assert (Hb0 : v2 = 0%R -> b = 0).
  { intros ->. destruct s2.
    - exfalso. apply Hnz. apply (ieee_inj 52 11); try lia; try (unfold Float128ppc.math_NegZero; lia).
      + rewrite Eb, negzero64. reflexivity.
      + intros; congruence.
    - apply (ieee_inj 52 11); try lia.
      + rewrite Eb, zero64. reflexivity.
      + intros; congruence. }
  destruct (Req_dec v 0) as [V0|V0].
  - assert (v1 = 0%R) by (rewrite <- Hrn, V0; apply rn_0). assert (v2 = 0%R) by (unfold v in V0; lra).
    rewrite V0 in V. exists x. split; [reflexivity|]. rewrite (zero_of x s W V). unfold Float128ppc.NewFromBits.
    destruct S as (_ & _ & S). rewrite (S V0). apply (f_equal (fun p => Ret (p, BigFloat.Exact, x))). f_equal; [|symmetry; auto].
    destruct s1; apply (ieee_inj 52 11); try lia; try (unfold Float128ppc.math_NegZero; lia).
    + rewrite Ea, negzero64. congruence.
    + intros; rewrite negzero64; congruence.
    + rewrite Ea, zero64. congruence.
    + intros; rewrite zero64; congruence.
  - assert (HP : rnd_prec (rmode x) 106 v = v) by (apply bits_le_rnd; [lia|exact Hbits]).
    pose proof (NewFromBig_num x s v W V V0) as H. cbv zeta in H. rewrite HP, Hrn in H.
    destruct H as (h & l & t & HN & Hh & Hl & Vh & Vl & St & _); [apply Fa|].
    assert (Ed : (v - v1 = v2)%R) by (unfold v; ring). rewrite Ed in *.
    rewrite (fits_rn 52 11 v2 ltac:(lia) Fb) in Vl.
    exists (x106 x). split; [reflexivity|]. rewrite HN. unfold Float128ppc.NewFromBits.
    apply (f_equal (fun p => Ret (p, BigFloat.Exact, x106 x))). f_equal.
    + assert (Hs : s = s1).
      { destruct S as (S1 & S2 & _). destruct (rn_sign v) as [Q1 Q2]. rewrite Hrn in Q1, Q2.
        destruct (Req_dec v1 0) as [Z1|Z1].
        - exfalso. apply V0. unfold v in *. rewrite Z1, Rplus_0_l in *. rewrite (fits_rn 52 11 v2 ltac:(lia) Fb) in Hrn. exact Hrn.
        - destruct (Rtotal_order v 0) as [L|[L|L]]; [|contradiction|].
          + rewrite S1 by exact L. symmetry. apply SA1. specialize (Q2 ltac:(lra)). lra.
          + rewrite S2 by lra. symmetry. apply SA2. specialize (Q1 ltac:(lra)). lra. }
      apply (ieee_inj 52 11); try lia; [congruence|intros; congruence].
    + destruct St as (T1 & T2 & T3). destruct (Req_dec v2 0) as [Z2|Z2].
      * rewrite (Hb0 Z2). rewrite (T3 Z2), Z2 in Vl.
        apply (ieee_inj 52 11); try lia; [rewrite zero64; exact Vl|intros; congruence].
      * assert (Ht : t = s2).
        { destruct (Rtotal_order v2 0) as [L|[L|L]]; [|contradiction|].
          - rewrite T1, SB1; auto.
          - rewrite T2, SB2; auto; lra. }
        apply (ieee_inj 52 11); try lia; [congruence|intros; congruence].
Qed.

Lemma c27_refuted : exists x s v h l a x' s1 v1 s2 v2, wf x /\ bval x = VNum s v /\
  Float128ppc.NewFromBig x = Ret (mkFloat h l, a, x') /\
  ieee 52 11 h = VNum s1 v1 /\ ieee 52 11 l = VNum s2 v2 /\
  ~ acc_ok a (VNum s (v1 + v2)) v.
Proof.
  exists (BigFloat.mkBF 106 BigFloat.ToNearestEven BigFloat.Exact false (Finite (2 ^ 100 + 1) (-1100))), false,
    (IZR (2 ^ 100 + 1) * p2 (-1100))%R, 0x0170000000000000, 0, BigFloat.Exact.
  eexists. exists false, (IZR (2 ^ 100) * p2 (-1100))%R, false, 0%R.
  split; [apply Claims16.fin_wf; unfold MaxPrec, MinExp, MaxExp; vm_compute; intuition congruence|].
  split; [reflexivity|]. split; [vm_compute; reflexivity|]. split.
  { change 0x0170000000000000 with (enc 52 11 false 23 0). rewrite ieee_enc_norm by lia. f_equal. cbn [sgnR].
    change (2 ^ 100) with (2 ^ 52 * 2 ^ 48). rewrite scale_R by lia. do 2 f_equal. }
  split; [exact zero64|]. cbn [acc_ok]. intros E. rewrite Rplus_0_r in E.
  apply Rmult_eq_reg_r in E; [|apply Rgt_not_eq, p2_pos]. apply eq_IZR in E. lia.
Qed.

Lemma c27_partial : forall x s v, wf x -> bval x = VNum s v ->
  (Rabs (rn 52 11 (rnd_prec (rmode x) 106 v)) < p2 1024)%R ->
  exists h l x' s1 v1 s2 v2, Float128ppc.NewFromBig x = Ret (mkFloat h l, BigFloat.Exact, x') /\
    ieee 52 11 h = VNum s1 v1 /\ ieee 52 11 l = VNum s2 v2 /\
    ((v1 + v2 = v)%R <-> acc_ok BigFloat.Exact (VNum s (v1 + v2)) v) /\
    ((exists K c, v = (IZR K * p2 c)%R /\ Z.abs K < 2 ^ 106) -> fits 52 11 (v - v1) -> (v1 + v2 = v)%R).
Proof.
  intros x s v Hw B Hr. destruct (Req_dec v 0) as [V0|V0].
  - rewrite V0 in *. rewrite (zero_of x s Hw B). eexists _, _, _, s, 0%R, false, 0%R.
    split; [reflexivity|]. split; [destruct s; [exact negzero64|exact zero64]|]. split; [exact zero64|].
    cbn [acc_ok]. split; [reflexivity|]. intros _ _. ring.
  - destruct (NewFromBig_num x s v Hw B V0 Hr) as (h & l & t & E & Hh & Hl & Vh & Vl & _).
    eexists _, _, _, _, _, _, _. split; [exact E|]. split; [exact Vh|]. split; [exact Vl|].
    cbn [acc_ok]. split; [reflexivity|].
    intros Hbits Hf. rewrite (bits_le_rnd (rmode x) 106 v ltac:(lia) Hbits) in *.
    rewrite (fits_rn 52 11 _ ltac:(lia) Hf). ring.
Qed.

Lemma c28 : 
  (forall x, 0 <= x < 2 ^ 64 -> (forall s, ieee 52 11 x <> VNaN s) ->
     exists f, Float128ppc.NewFromFloat64 x = Ret (f, BigFloat.Exact) /\ Float128ppc.Bits f = (x, 0) /\
       Float128ppc.Float64 f = Ret (x, BigFloat.Exact)) /\
  (forall x, 0 <= x < 2 ^ 32 -> (forall s, ieee 23 8 x <> VNaN s) ->
     exists f y, Float128ppc.NewFromFloat32 x = Ret (f, BigFloat.Exact) /\ Float128ppc.Bits f = (y, 0) /\
       0 <= y < 2 ^ 64 /\ ieee 52 11 y = ieee 23 8 x /\ Float128ppc.Float32 f = Ret (x, BigFloat.Exact)) /\
  (forall x s, 0 <= x < 2 ^ 64 -> ieee 52 11 x = VNaN s ->
     exists f, Float128ppc.NewFromFloat64 x = Ret (f, BigFloat.Exact) /\ ieee 52 11 (high f) = VNaN s) /\
  (forall x s, 0 <= x < 2 ^ 32 -> ieee 23 8 x = VNaN s ->
     exists f, Float128ppc.NewFromFloat32 x = Ret (f, BigFloat.Exact) /\ ieee 52 11 (high f) = VNaN s).
Proof.
  assert (HN : forall s : bool, ieee 52 11 (high (if s then Float128ppc.NegNaN else Float128ppc.NaN)) = VNaN s)
    by (intros []; reflexivity).
  split; [|split; [|split]].
  - intros x Hx Hn. exists (mkFloat x 0). split; [apply nff64; assumption|]. split; [reflexivity|]. apply to64; assumption.
  - intros x Hx Hn. pose proof (nff32 x Hx) as H.
    assert (K : exists y, 0 <= y < 2 ^ 64 /\ ieee 52 11 y = ieee 23 8 x /\
           Float128ppc.NewFromFloat32 x = Ret (mkFloat y 0, BigFloat.Exact)).
    { destruct (ieee 23 8 x); [exfalso; eapply Hn; reflexivity|exact H..]. }
    destruct K as (y & Hy & Ey & EN). exists (mkFloat y 0), y. split; [exact EN|]. split; [reflexivity|].
    split; [exact Hy|]. split; [exact Ey|]. apply to32; try assumption. intros; rewrite Ey; apply Hn.
  - intros x s Hx E. rewrite (nff64_nan x s Hx E). eexists. split; [reflexivity|apply HN].
  - intros x s Hx E. pose proof (nff32 x Hx) as H. rewrite E in H. rewrite H. eexists. split; [reflexivity|apply HN].
Qed.

Lemma c28_refuted : exists x f y, 0 <= x < 2 ^ 64 /\ ieee 52 11 x = VNaN true /\
  Float128ppc.NewFromFloat64 x = Ret (f, BigFloat.Exact) /\
  Float128ppc.Float64 f = Ret (y, BigFloat.Exact) /\ ieee 52 11 y = VNaN false.
Proof.
  exists 0xFFF8000000000001. eexists _, _. split; [lia|]. split; [reflexivity|].
  split; [vm_compute; reflexivity|]. split; [vm_compute; reflexivity|]. reflexivity.
Qed.

Lemma c08_refuted : 
  ieee 52 11 (high Float128ppc.NegInf) = VInf false /\
  (forall x, bval x = VInf true -> exists f x', Float128ppc.NewFromBig x = Ret (f, BigFloat.Exact, x') /\
     ieee 52 11 (high f) = VInf false).
Proof.
  split; [reflexivity|]. intros x B. destruct (frm_inf _ _ B) as [F N].
  exists Float128ppc.NegInf, x. split; [|reflexivity].
  unfold Float128ppc.NewFromBig, BigFloat.IsInf, BigFloat.Signbit. rewrite F, N. reflexivity.
Qed.

Lemma c08_partial : 
  (forall x, bval x = VInf false -> Float128ppc.NewFromBig x = Ret (Float128ppc.Inf, BigFloat.Exact, x)) /\
  (forall x s, wf x -> bval x = VNum s 0 ->
     Float128ppc.NewFromBig x = Ret ((if s then Float128ppc.NegZero else Float128ppc.Zero), BigFloat.Exact, x)) /\
  (forall x s, 0 <= x < 2 ^ 64 -> ieee 52 11 x = VNaN s ->
     Float128ppc.NewFromFloat64 x = Ret ((if s then Float128ppc.NegNaN else Float128ppc.NaN), BigFloat.Exact)) /\
  (forall x s, 0 <= x < 2 ^ 32 -> ieee 23 8 x = VNaN s ->
     Float128ppc.NewFromFloat32 x = Ret ((if s then Float128ppc.NegNaN else Float128ppc.NaN), BigFloat.Exact)) /\
  (forall x, 0 <= x < 2 ^ 64 -> (forall s, ieee 52 11 x <> VNaN s) ->
     Float128ppc.NewFromFloat64 x = Ret (mkFloat x 0, BigFloat.Exact) /\
     exists b, Float128ppc.Big (mkFloat x 0) = Ret (b, false) /\ bval b = ieee 52 11 x).
Proof.
  split; [|split; [|split; [|split]]].
  - intros x B. destruct (frm_inf _ _ B) as [F N].
    unfold Float128ppc.NewFromBig, BigFloat.IsInf, BigFloat.Signbit. rewrite F, N. reflexivity.
  - intros x s W B. rewrite (zero_of x s W B). destruct s; reflexivity.
  - exact nff64_nan.
  - intros x s Hx E. pose proof (nff32 x Hx) as H. rewrite E in H. exact H.
  - intros x Hx Hn. split; [apply nff64; assumption|].
    destruct (Big_single x Hx Hn) as (b & H1 & _ & H3 & _). exists b. auto.
Qed.

Lemma c29_refuted : exists x f a x', wf x /\ Float128ppc.NewFromBig x = Ret (f, a, x') /\
  prec x' <> prec x /\ bval x' <> bval x.
Proof.
  exists (BigFloat.mkBF 200 BigFloat.ToNearestEven BigFloat.Exact false (Finite (2 ^ 107 + 1) 0)).
  eexists _, _, (BigFloat.mkBF 106 BigFloat.ToNearestEven BigFloat.Exact false (Finite (2 ^ 105) 2)).
  split; [apply Claims16.fin_wf; unfold MaxPrec, MinExp, MaxExp; vm_compute; intuition congruence|].
  split; [vm_compute; reflexivity|]. split; [cbn [prec]; lia|]. unfold bval. cbn [frm neg sgnR].
  intros E. apply VNum_inj in E. destruct E as [_ E].
  replace (IZR (2 ^ 105) * p2 2)%R with (IZR (2 ^ 105 * 2 ^ 2) * p2 0)%R in E by (rewrite scale_R by lia; reflexivity).
  apply Rmult_eq_reg_r in E; [|apply Rgt_not_eq, p2_pos]. apply eq_IZR in E. lia.
Qed.

Lemma c29_partial : forall x f a x', wf x -> Float128ppc.NewFromBig x = Ret (f, a, x') ->
  match bval x with
  | VNum s v => v <> 0%R -> prec x' = 106 /\ rmode x' = BigFloat.ToNearestEven /\ acc x' = BigFloat.Exact /\
                  bval x' = VNum s (rnd_prec (rmode x) 106 v)
  | _ => x' = x
  end /\
  (bval x = VNum (neg x) 0 -> x' = x).
Proof.
  intros x f a x' W E. destruct (bval x) as [s|s|s v] eqn:B.
  - unfold bval in B. destruct (frm x); discriminate.
  - split; [|discriminate]. unfold Float128ppc.NewFromBig, BigFloat.IsInf in E. destruct (frm_inf _ _ B) as [F N].
    rewrite F in E. destruct (BigFloat.Signbit x); congruence.
  - split.
    + intros V0. destruct (Rlt_or_le (Rabs (rn 52 11 (rnd_prec (rmode x) 106 v))) (p2 1024)) as [L|L].
      * destruct (NewFromBig_num x s v W B V0 L) as (h & l & t & E' & _ & _ & _ & _ & _ & _ & Q1 & Q2).
        rewrite E' in E. injection E as _ _ <-. auto.
      * rewrite (NewFromBig_overflow x s v W B L) in E. discriminate.
    + intros E0. apply VNum_inj in E0. destruct E0 as [_ ->]. rewrite (zero_of x s W B) in E. congruence.
Qed.

