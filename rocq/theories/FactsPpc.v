(** float128ppc. *)
From Coq Require Import ZArith Reals Lia Lra Bool List.
From Flocq Require Import Core.
From Verif Require Import GoBase.
From Verif Require BigFloat Float128ppc.
From Verif Require Import Spec BitFacts RoundFacts IeeeFacts BigFacts BigFacts2 BigFacts3 PkgFacts.
Import BigFloat (bitlen, gexp, prec, rmode, acc, neg, frm, Finite, MaxExp, MinExp, MaxPrec).
Import Float128ppc (Float, mkFloat, high, low).
Open Scope Z_scope.

Definition ok (f : Float) : Prop := 0 <= high f < 2 ^ 64 /\ 0 <= low f < 2 ^ 64.

(** The big.Floats every function starts from. *)
Definition z106 : BigFloat.bigfloat :=
  BigFloat.SetMode (BigFloat.SetPrec BigFloat.NewFloat0 Float128ppc.precision) BigFloat.ToNearestEven.

Lemma z106_mode : rmode z106 = BigFloat.ToNearestEven. Proof. reflexivity. Qed.
Lemma z106_prec : prec z106 = 106. Proof. reflexivity. Qed.
Lemma z106_ok : 0 < prec z106 <= MaxPrec. Proof. rewrite z106_prec. unfold MaxPrec. lia. Qed.

(** A float64 as a big.Float of 106 bits. *)
Lemma float_106 b : 0 <= b < 2 ^ 64 -> (forall s, ieee 52 11 b <> VNaN s) ->
  exists y, BigFloat.NewFloat b = Ret y /\
  (let r := BigFloat.SetPrec y Float128ppc.precision in
   wf r /\ bval r = ieee 52 11 b /\ prec r = 106 /\ rmode r = BigFloat.ToNearestEven).
Proof.
  intros Hb Hn. pose proof (SetFloat_correct 52 11 b ltac:(lia) ltac:(lia) Hb) as H.
  assert (K : exists x, BigFloat.SetFloat 52 11 b = Ret x /\ bval x = ieee 52 11 b /\ wf x /\ prec x = 53 /\ rmode x = BigFloat.ToNearestEven).
  { destruct (ieee 52 11 b) as [s|s|s v] eqn:E; [exfalso; eapply Hn; reflexivity| |];
      destruct H as (x & H1 & H2 & H3 & H4 & H5 & _); exists x; auto. }
  destruct K as (x & H1 & H2 & H3 & H4 & H5). exists x. split; [exact H1|].
  destruct (SetPrec_up x 106 H3) as (W & B & P & M & _).
  { rewrite H4. unfold MaxPrec. lia. }
  cbv zeta. unfold Float128ppc.precision. split; [exact W|]. split; [congruence|]. split; [exact P|]. congruence.
Qed.

Lemma setmode_wf x md : wf x -> wf (BigFloat.SetMode x md). Proof. intros H. exact H. Qed.
Lemma setmode_bval x md : bval (BigFloat.SetMode x md) = bval x. Proof. reflexivity. Qed.

Lemma fits_multiple mb eb v : fits mb eb v -> exists K, v = (IZR K * p2 (2 - 2 ^ (eb - 1) - mb))%R.
Proof.
  intros [(M & c & E & _ & Hc) _]. exists (M * 2 ^ (c - (2 - 2 ^ (eb - 1) - mb))).
  rewrite scale_R by lia. rewrite E. do 2 f_equal. lia.
Qed.

Lemma multiple_lower K c : (IZR K * p2 c <> 0)%R -> (p2 c <= Rabs (IZR K * p2 c))%R.
Proof.
  intros H. rewrite Rabs_mult. pose proof (p2_pos c) as Hp. rewrite (Rabs_pos_eq (p2 c)) by lra.
  rewrite <- abs_IZR. assert (1 <= Z.abs K).
  { destruct (Z.eq_dec K 0) as [->|]; [|lia]. exfalso. apply H. ring. }
  apply IZR_le in H0. rewrite <- (Rmult_1_l (p2 c)) at 1. apply Rmult_le_compat_r; lra.
Qed.

Lemma f64_sum_bounds b1 b2 s1 v1 s2 v2 : 0 <= b1 < 2 ^ 64 -> 0 <= b2 < 2 ^ 64 ->
  ieee 52 11 b1 = VNum s1 v1 -> ieee 52 11 b2 = VNum s2 v2 ->
  (Rabs (v1 + v2) <= p2 20000)%R /\ (v1 + v2 <> 0 -> p2 (MinExp - 1) <= Rabs (v1 + v2))%R /\
  (v1 + v2 <> 0 -> p2 (-1074) <= Rabs (v1 + v2))%R.
Proof.
  intros H1 H2 E1 E2.
  pose proof (fits_ieee 52 11 b1 s1 v1 ltac:(lia) ltac:(lia) H1 E1) as [F1 _].
  pose proof (fits_ieee 52 11 b2 s2 v2 ltac:(lia) ltac:(lia) H2 E2) as [F2 _].
  assert (L : (v1 + v2 <> 0 -> p2 (-1074) <= Rabs (v1 + v2))%R).
  { intros Hn. destruct (fits_multiple _ _ _ F1) as [K1 K1E]. destruct (fits_multiple _ _ _ F2) as [K2 K2E].
    change (2 - 2 ^ (11 - 1) - 52) with (-1074) in K1E, K2E.
    assert (E : (v1 + v2 = IZR (K1 + K2) * p2 (-1074))%R) by (rewrite plus_IZR, K1E, K2E; ring).
    rewrite E in *. apply multiple_lower. exact Hn. }
  split; [|split; [|exact L]].
  - destruct F1 as [_ F1], F2 as [_ F2]. change (2 ^ (11 - 1)) with 1024 in *.
    apply Rle_trans with (p2 1025); [|apply p2_le; lia].
    replace 1025 with (1024 + 1) by lia. rewrite p2_plus. change (p2 1) with 2%R.
    apply Rle_trans with (1 := Rabs_triang _ _). lra.
  - intros Hn. apply Rle_trans with (2 := L Hn). apply p2_le. unfold MinExp. lia.
Qed.

Definition sumsign (s1 : bool) (v : R) (s : bool) : Prop :=
  ((v < 0)%R -> s = true) /\ ((0 < v)%R -> s = false) /\ (v = 0%R -> s = s1).

Lemma rnd_prec_nz md p v : 0 < p -> v <> 0%R -> rnd_prec md p v <> 0%R.
Proof.
  intros Hp Hv. unfold rnd_prec. pose proof (valid_mode_rnd md). assert (Prec_gt_0 p) by exact Hp.
  apply round_neq_0_negligible_exp; try assumption.
  - typeclasses eauto.
  - apply negligible_exp_FLX. exact Hp.
Qed.

Lemma sign_num b s v : 0 <= b < 2 ^ 64 -> ieee 52 11 b = VNum s v -> BigFloat.f_sign 52 11 b = s.
Proof. intros Hb H. rewrite sign_ieee by (simpl; lia). rewrite H. reflexivity. Qed.

Lemma isnan_false f : ok f -> (forall s, ieee 52 11 (high f) <> VNaN s) -> (forall s, ieee 52 11 (low f) <> VNaN s) ->
  Float128ppc.IsNaN f = false.
Proof.
  intros [H1 H2] N1 N2. unfold Float128ppc.IsNaN. rewrite !isnan_ieee by (simpl; lia).
  destruct (ieee 52 11 (high f)) eqn:E1; [exfalso; eapply N1; reflexivity| |];
  destruct (ieee 52 11 (low f)) eqn:E2; try (exfalso; eapply N2; reflexivity); reflexivity.
Qed.

Lemma Big_num f s1 v1 s2 v2 : ok f -> ieee 52 11 (high f) = VNum s1 v1 -> ieee 52 11 (low f) = VNum s2 v2 ->
  let v := (v1 + v2)%R in
  exists x s, Float128ppc.Big f = Ret (x, false) /\ wf x /\ prec x = 106 /\ rmode x = BigFloat.ToNearestEven /\
    bval x = VNum s (rnd_prec BigFloat.ToNearestEven 106 v) /\ sumsign s1 v s /\ acc_ok (acc x) (bval x) v.
Proof.
  intros [H1 H2] E1 E2 v. unfold Float128ppc.Big.
  rewrite isnan_false; [|split; assumption|intros s; congruence..].
  destruct (float_106 (high f) H1 ltac:(congruence)) as (yh & -> & Wh & Bh & Ph & Mh).
  destruct (float_106 (low f) H2 ltac:(congruence)) as (yl & -> & Wl & Bl & Pl & Ml). cbn [bind].
  fold z106. rewrite E1 in Bh. rewrite E2 in Bl.
  destruct (f64_sum_bounds _ _ _ _ _ _ H1 H2 E1 E2) as (U & L & _).
  destruct (Add_num z106 _ _ s1 v1 s2 v2 z106_mode z106_ok Wh Wl Bh Bl U L) as (r & s & -> & W & P & M & B & S & A).
  cbn [bind]. rewrite z106_prec in P, B. fold v in B, S, A.
  rewrite Cmp_zero by reflexivity.
  rewrite (sign_num (high f) s1 v1 H1 E1).
  destruct (frm r) as [|m e|] eqn:Er.
  - (* a zero *)
    assert (V0 : v = 0%R).
    { destruct (Req_dec v 0) as [|N]; [assumption|]. exfalso. apply (rnd_prec_nz BigFloat.ToNearestEven 106 v ltac:(lia) N).
      unfold bval in B. rewrite Er in B. apply VNum_inj in B. symmetry. apply B. }
    rewrite V0 in *. destruct S as (_ & _ & S). specialize (S eq_refl).
    assert (Hs : neg r = s) by (unfold bval in B; rewrite Er in B; apply VNum_inj in B; apply B).
    unfold BigFloat.Signbit. rewrite Hs. cbn [andb].
    assert (Hr0 : bval r = VNum s 0) by (rewrite B, rnd_prec_0; reflexivity).
    rewrite rnd_prec_0 in *. rewrite Hr0 in A.
    destruct s1 eqn:Es1.
    + destruct s; cbn [negb].
      * exists r, true. rewrite Hr0. repeat (split; try assumption; try reflexivity); lra.
      * exists (BigFloat.NegSelf r), true. rewrite NegSelf_bval, Hr0. cbn [negb]. rewrite Ropp_0.
        split; [reflexivity|]. split; [apply NegSelf_wf; exact W|]. split; [exact P|]. split; [exact M|].
        split; [reflexivity|]. split; [split; [lra|split; [lra|reflexivity]]|].
        cbn [acc BigFloat.NegSelf BigFloat.set_neg]. exact A.
    + exists r, s. rewrite Hr0. split; [reflexivity|]. split; [assumption|]. split; [assumption|]. split; [assumption|].
      split; [reflexivity|]. split; [|exact A]. split; [lra|]. split; [lra|]. intros _.
      rewrite S. destruct (Req_EM_T v1 0); reflexivity.
  - cbn [andb]. assert (V0 : v <> 0%R).
    { intros V0. rewrite V0, rnd_prec_0 in B. unfold bval in B. rewrite Er in B. apply VNum_inj in B. destruct B as [_ B].
      destruct W as [_ W]. rewrite Er in W. pose proof (val_pos m e (proj1 W)). destruct (neg r); cbn [sgnR] in B; lra. }
    exists r, s. split; [reflexivity|]. split; [assumption|]. split; [assumption|]. split; [assumption|].
    split; [assumption|]. split; [|assumption]. destruct S as (S1 & S2 & _).
    split; [assumption|]. split; [assumption|]. intros; contradiction.
  - unfold bval in B. rewrite Er in B. discriminate.
Qed.

Lemma Set_inf z x s : 0 < prec z -> bval x = VInf s ->
  let r := BigFloat.Set_ z x in bval r = VInf s /\ prec r = prec z /\ rmode r = rmode z /\ acc r = BigFloat.Exact /\ frm r = BigFloat.Inf.
Proof.
  intros Hp H r. unfold r, BigFloat.Set_. rewrite (proj2 (Z.eqb_neq _ _)) by lia.
  unfold bval in H. destruct (frm x) eqn:Ex; try discriminate. injection H as H.
  destruct (prec z <? prec x); unfold BigFloat.round, BigFloat.set_acc, bval; cbn [frm neg prec rmode acc]; rewrite H; auto.
Qed.

Lemma frm_inf x s : bval x = VInf s -> frm x = BigFloat.Inf /\ neg x = s.
Proof. unfold bval. destruct (frm x); try discriminate. intros H. injection H as <-. auto. Qed.

Lemma frm_num x s v : bval x = VNum s v -> frm x = BigFloat.Zero \/ exists m e, frm x = Finite m e.
Proof. unfold bval. destruct (frm x); intros; try discriminate; eauto. Qed.

(** An infinite half. *)
Lemma Big_inf f : ok f -> (forall s, ieee 52 11 (high f) <> VNaN s) -> (forall s, ieee 52 11 (low f) <> VNaN s) ->
  match ieee 52 11 (high f), ieee 52 11 (low f) with
  | VInf s, VInf t => if Bool.eqb s t
      then exists x, Float128ppc.Big f = Ret (x, false) /\ wf x /\ prec x = 106 /\ rmode x = BigFloat.ToNearestEven /\ bval x = VInf s /\ acc x = BigFloat.Exact
      else Float128ppc.Big f = Panic
  | VInf s, _ | _, VInf s =>
      exists x, Float128ppc.Big f = Ret (x, false) /\ wf x /\ prec x = 106 /\ rmode x = BigFloat.ToNearestEven /\ bval x = VInf s /\ acc x = BigFloat.Exact
  | _, _ => True
  end.
Proof.
  intros Hok N1 N2. pose proof Hok as [H1 H2]. unfold Float128ppc.Big. rewrite isnan_false by assumption.
  destruct (float_106 (high f) H1 N1) as (yh & -> & Wh & Bh & Ph & Mh).
  destruct (float_106 (low f) H2 N2) as (yl & -> & Wl & Bl & Pl & Ml). cbn [bind].
  fold z106. set (h := BigFloat.SetPrec yh _) in *. set (l := BigFloat.SetPrec yl _) in *.
  assert (K : forall x s, bval x = VInf s -> BigFloat.Add z106 h l = Ret (BigFloat.Set_ z106 x) ->
    exists x0, (x1 <- BigFloat.Add z106 h l;;
      Ret (if (BigFloat.Cmp x1 (BigFloat.SetPrec BigFloat.NewFloat0 Float128ppc.precision) =? 0) && BigFloat.f_sign 52 11 (high f)
           then if negb (BigFloat.Signbit x1) then BigFloat.NegSelf x1 else x1 else x1, false)) = Ret (x0, false) /\
      wf x0 /\ prec x0 = 106 /\ rmode x0 = BigFloat.ToNearestEven /\ bval x0 = VInf s /\ acc x0 = BigFloat.Exact).
  { intros x s Hx ->. cbn [bind]. destruct (Set_inf z106 x s ltac:(rewrite z106_prec; lia) Hx) as (B & P & M & A & F).
    rewrite Cmp_zero, F by reflexivity. cbn [andb]. eexists. split; [reflexivity|].
    split; [|auto]. split; [rewrite P; pose proof z106_ok; lia|]. rewrite F. exact I. }
  destruct (ieee 52 11 (high f)) as [s|s|s v] eqn:E1; [exfalso; eapply N1; reflexivity| |];
  destruct (ieee 52 11 (low f)) as [t|t|t w] eqn:E2; try (exfalso; eapply N2; reflexivity); try exact I.
  - destruct (frm_inf _ _ Bh) as [Fh Nh]. destruct (frm_inf _ _ Bl) as [Fl Nl].
    assert (Ea : BigFloat.Add z106 h l = if Bool.eqb s t then Ret (BigFloat.Set_ z106 h) else Panic).
    { unfold BigFloat.Add. rewrite Fh, Fl, Nh, Nl. reflexivity. }
    destruct (Bool.eqb s t) eqn:Est.
    + apply (K h); assumption.
    + rewrite Ea. reflexivity.
  - destruct (frm_inf _ _ Bh) as [Fh Nh]. apply (K h); [assumption|]. unfold BigFloat.Add. rewrite Fh.
    destruct (frm_num _ _ _ Bl) as [->|(m & e & ->)]; reflexivity.
  - destruct (frm_inf _ _ Bl) as [Fl Nl]. apply (K l); [assumption|]. unfold BigFloat.Add. rewrite Fl.
    destruct (frm_num _ _ _ Bh) as [->|(m & e & ->)]; reflexivity.
Qed.

Lemma Big_nan f : ok f -> (exists s, ieee 52 11 (high f) = VNaN s) \/ (exists s, ieee 52 11 (low f) = VNaN s) ->
  Float128ppc.Big f = Ret (z106, true).
Proof.
  intros [H1 H2] H. unfold Float128ppc.Big.
  replace (Float128ppc.IsNaN f) with true; [reflexivity|]. symmetry.
  unfold Float128ppc.IsNaN. rewrite !isnan_ieee by (simpl; lia).
  destruct H as [[s ->]|[s ->]]; [reflexivity|]. apply orb_true_r.
Qed.

(** ** Splitting *)
Lemma rnd_prec_ge md p v k : 0 < p -> (p2 k <= Rabs v)%R -> (p2 k <= Rabs (rnd_prec md p v))%R.
Proof.
  intros Hp Hv. unfold rnd_prec. pose proof (valid_mode_rnd md).
  assert (Prec_gt_0 p) by exact Hp.
  apply abs_round_ge_generic; try typeclasses eauto; [|exact Hv].
  apply generic_format_bpow. unfold FLX_exp. lia.
Qed.

(** A multiple of 2^c of less than p bits is kept by rounding at p bits. *)
Lemma rnd_prec_exact md p K c : 0 < p -> Z.abs K < 2 ^ p -> rnd_prec md p (IZR K * p2 c) = (IZR K * p2 c)%R.
Proof.
  intros Hp HK. unfold rnd_prec. pose proof (valid_mode_rnd md). apply round_generic; [assumption|].
  assert (Prec_gt_0 p) by exact Hp. apply generic_format_FLX. exists (Defs.Float radix2 K c).
  - rewrite F2R_p2. reflexivity.
  - exact HK.
Qed.

(** [y] has at most p bits. *)
Definition bits_le (p : Z) (y : R) : Prop := exists K c, y = (IZR K * p2 c)%R /\ Z.abs K < 2 ^ p.

Lemma rnd_prec_bits md p v : 0 < p -> bits_le p (rnd_prec md p v).
Proof.
  intros Hp. unfold rnd_prec. pose proof (valid_mode_rnd md). assert (Prec_gt_0 p) by exact Hp.
  assert (G : generic_format radix2 (FLX_exp p) (round radix2 (FLX_exp p) (mode_rnd md) v)) by (apply generic_format_round; typeclasses eauto).
  apply FLX_format_generic in G; [|exact Hp]. destruct G as [[K c] E HK]. exists K, c.
  split; [rewrite E, F2R_p2; reflexivity|exact HK].
Qed.

Lemma bits_le_rnd md p y : 0 < p -> bits_le p y -> rnd_prec md p y = y.
Proof. intros Hp (K & c & -> & HK). apply rnd_prec_exact; assumption. Qed.

(** The remainder after rounding to float64 has no more bits than the number. *)
Lemma remainder_exact p y : 53 <= p -> bits_le p y -> y <> 0%R ->
  let d := (y - rn 52 11 y)%R in
  bits_le p d /\ (Rabs d <= Rabs y)%R /\ (d <> 0 -> rn 52 11 y <> 0 -> p2 (-1074 - p) <= Rabs d)%R /\
  (Rabs d <= / 2 * ulp radix2 (FLT_exp (-1074) 53) (rn 52 11 y))%R.
Proof.
  intros Hp Hy Hnz d.
  assert (Prec_gt_0 p) by (unfold Prec_gt_0; lia).
  assert (Prec_gt_0 53) by (unfold Prec_gt_0; lia).
  assert (Er : rn 52 11 y = round radix2 (FLT_exp (-1074) 53) ZnearestE y) by reflexivity.
  assert (Hle : (Rabs d <= Rabs y)%R).
  { unfold d. rewrite Er.
    pose proof (round_N_pt radix2 (FLT_exp (-1074) 53) (fun x => negb (Z.even x)) y) as [_ HN].
    specialize (HN 0%R (generic_format_0 _ _)). rewrite Rminus_0_l, Rabs_Ropp in HN.
    rewrite Rabs_minus_sym. exact HN. }
  assert (Hc : exists K, d = (IZR K * p2 (mag radix2 y - p))%R).
  { assert (G : generic_format radix2 (FLX_exp p) y).
    { destruct Hy as (K & c & E & HK). apply generic_format_FLX. exists (Defs.Float radix2 K c); [rewrite F2R_p2; exact E|exact HK]. }
    unfold generic_format in G. rewrite F2R_p2 in G. unfold cexp, FLX_exp in G.
    unfold d. rewrite Er. unfold round. rewrite F2R_p2. unfold cexp.
    set (M := Ztrunc _) in G. set (N := ZnearestE _).
    assert (Hge : mag radix2 y - p <= FLT_exp (-1074) 53 (mag radix2 y)) by (unfold FLT_exp; lia).
    exists (M - N * 2 ^ (FLT_exp (-1074) 53 (mag radix2 y) - (mag radix2 y - p))).
    rewrite minus_IZR, Rmult_minus_distr_r, scale_R by lia.
    rewrite G at 1. do 3 f_equal. lia. }
  split; [|split; [exact Hle|split]].
  - destruct Hc as [K HK]. exists K, (mag radix2 y - p). split; [exact HK|].
    assert (Hb : (Rabs d < p2 (mag radix2 y))%R).
    { apply Rle_lt_trans with (1 := Hle). apply bpow_mag_gt. }
    rewrite HK, Rabs_mult, (Rabs_pos_eq (p2 _)) in Hb by (apply Rlt_le, p2_pos).
    replace (mag radix2 y : Z) with (p + (mag radix2 y - p)) in Hb at 2 by lia.
    rewrite p2_plus in Hb. apply Rmult_lt_reg_r in Hb; [|apply p2_pos].
    rewrite <- abs_IZR in Hb. unfold p2 in Hb. rewrite <- IZR_Zpower in Hb by lia.
    apply lt_IZR in Hb. exact Hb.
  - intros Hd Hr. destruct Hc as [K HK].
    assert (Hm : -1074 <= mag radix2 y).
    { apply Z.lt_pred_le. apply Z.nle_gt. intros Hm. apply Hr. rewrite Er.
      apply (round_N_small radix2 (FLT_exp (-1074) 53) _ y (mag radix2 y)).
      - destruct (mag radix2 y) as [ey Hey]; cbn [mag_val]. apply Hey. exact Hnz.
      - unfold FLT_exp. lia. }
    rewrite HK in *. apply Rle_trans with (p2 (mag radix2 y - p)); [apply p2_le; lia|].
    apply multiple_lower. exact Hd.
  - unfold d. rewrite Er, Rabs_minus_sym. apply error_le_half_ulp_round; typeclasses eauto.
Qed.

Lemma rn_overflow_low y : (Rabs (rn 52 11 y) < p2 1024)%R -> (Rabs y < p2 1024)%R.
Proof.
  intros H. destruct (Rlt_or_le (Rabs y) (p2 1024)) as [|L]; [assumption|]. exfalso.
  pose proof (proj2 (rn_range 52 11 y ltac:(lia) ltac:(lia)) 1024 ltac:(lia) L). lra.
Qed.

Lemma remainder_small y : y <> 0%R -> (Rabs (rn 52 11 y) < p2 1024)%R ->
  (Rabs (y - rn 52 11 y) <= p2 971)%R.
Proof.
  intros Hnz Hr. assert (Prec_gt_0 53) by (unfold Prec_gt_0; lia).
  pose proof (error_le_half_ulp radix2 (FLT_exp (-1074) 53) (fun x => negb (Z.even x)) y) as H0.
  change (round radix2 (FLT_exp (-1074) 53) (Znearest (fun x => negb (Z.even x))) y) with (rn 52 11 y) in H0.
  rewrite Rabs_minus_sym in H0. apply Rle_trans with (1 := H0).
  rewrite ulp_neq_0 by exact Hnz. unfold cexp.
  assert (Hm : mag radix2 y <= 1024).
  { apply mag_le_bpow; [exact Hnz|]. apply rn_overflow_low. exact Hr. }
  replace (/ 2)%R with (p2 (-1)) by reflexivity. fold (p2 (FLT_exp (-1074) 53 (mag radix2 y))).
  rewrite <- p2_plus. apply p2_le. unfold FLT_exp. lia.
Qed.

Definition x106 (x : BigFloat.bigfloat) : BigFloat.bigfloat :=
  BigFloat.SetMode (BigFloat.SetPrec x Float128ppc.precision) BigFloat.ToNearestEven.

Lemma float_106' b : 0 <= b < 2 ^ 64 -> (forall s, ieee 52 11 b <> VNaN s) ->
  exists y, BigFloat.NewFloat b = Ret y /\ wf (x106 y) /\ bval (x106 y) = ieee 52 11 b /\ prec (x106 y) = 106 /\
    rmode (x106 y) = BigFloat.ToNearestEven.
Proof.
  intros Hb Hn. destruct (float_106 b Hb Hn) as (y & H1 & H2 & H3 & H4 & H5). exists y.
  split; [exact H1|]. split; [exact H2|]. split; [exact H3|]. split; [exact H4|]. reflexivity.
Qed.

Lemma NewFromBig_num x s v : wf x -> bval x = VNum s v -> v <> 0%R ->
  let y := rnd_prec (rmode x) 106 v in
  (Rabs (rn 52 11 y) < p2 1024)%R ->
  exists h l t, Float128ppc.NewFromBig x = Ret (mkFloat h l, BigFloat.Exact, x106 x) /\
    0 <= h < 2 ^ 64 /\ 0 <= l < 2 ^ 64 /\
    ieee 52 11 h = VNum s (rn 52 11 y) /\
    ieee 52 11 l = VNum t (rn 52 11 (y - rn 52 11 y)) /\ sumsign false (y - rn 52 11 y) t /\
    wf (x106 x) /\ bval (x106 x) = VNum s y /\ prec (x106 x) = 106.
Proof.
  intros Hw Hv Hnz y Hr.
  assert (Hy0 : y <> 0%R) by (apply rnd_prec_nz; [lia|exact Hnz]).
  pose proof (rn_overflow_low y Hr) as Hyb.
  assert (Hvb : (Rabs v <= p2 20000)%R).
  { destruct (Rle_or_lt (Rabs v) (p2 20000)) as [|L]; [assumption|]. exfalso.
    pose proof (rnd_prec_ge (rmode x) 106 v 20000 ltac:(lia) ltac:(lra)) as H. fold y in H.
    pose proof (p2_lt 1024 20000 ltac:(lia)). lra. }
  destruct (SetPrec_round x s v 106 Hw Hv ltac:(unfold MaxPrec; lia) Hvb) as (W & B & P & M & A).
  change (BigFloat.SetMode (BigFloat.SetPrec x 106) BigFloat.ToNearestEven) with (x106 x) in *.
  fold y in B. unfold Float128ppc.NewFromBig.
  destruct (bval_finite x s v Hw Hv Hnz) as (m & e & Ef & Hm & _ & _).
  unfold BigFloat.IsInf at 1. rewrite Cmp_zero, Ef by reflexivity.
  fold (x106 x). set (X := x106 x) in *.
  pose proof (ToFloat_val 52 11 X ltac:(lia) ltac:(lia) ltac:(unfold MaxExp; lia) W) as HT.
  unfold BigFloat.Float64 at 1. destruct (BigFloat.ToFloat 52 11 X) as [h ah]. rewrite B in HT.
  destruct HT as (Hh & Vh & _). rewrite ieee_round_num in Vh by exact Hr.
  destruct (float_106' h Hh ltac:(intros; congruence)) as (yh & -> & Wh & Bh & Ph & Mh).
  rewrite Vh in Bh. cbn [bind]. fold (x106 yh). set (H' := x106 yh) in *.
  assert (Hbits : bits_le 106 y) by (apply rnd_prec_bits; lia).
  pose proof (remainder_exact 106 y ltac:(lia) Hbits Hy0) as (R1 & R2 & R3 & R4).
  set (d := (y - rn 52 11 y)%R) in *.
  assert (Hdb : (Rabs d <= p2 20000)%R).
  { apply Rle_trans with (1 := R2). apply Rlt_le, Rlt_trans with (1 := Hyb). apply p2_lt. lia. }
  assert (Hdl : (d <> 0 -> p2 (MinExp - 1) <= Rabs d)%R).
  { intros Hd. destruct (Req_dec (rn 52 11 y) 0) as [E|E].
    - unfold d in *. rewrite E, Rminus_0_r in *.
      destruct (bval_finite X s y W B Hy0) as (m' & e' & Ef' & Hm' & _ & E').
      destruct W as [_ W]. rewrite Ef' in W. destruct W as (_ & _ & G1 & _).
      rewrite E', abs_val by exact Hm'. pose proof (gexp_spec m' e' Hm') as [G _].
      apply Rle_trans with (2 := G). apply p2_le. lia.
    - apply Rle_trans with (2 := R3 Hd E). apply p2_le. unfold MinExp. lia. }
  fold z106.
  rewrite Sub_Add by (rewrite ?Ph, z106_prec; lia).
  assert (BN : bval (BigFloat.NegSelf H') = VNum (negb s) (- rn 52 11 y)) by (rewrite NegSelf_bval, Bh; reflexivity).
  destruct (Add_num z106 X (BigFloat.NegSelf H') s y (negb s) (- rn 52 11 y) z106_mode z106_ok W
    (NegSelf_wf _ Wh) B BN Hdb Hdl) as (L & t & -> & WL & PL & ML & BL & SL & AL).
  cbn [bind]. change (y + - rn 52 11 y)%R with d in *. rewrite z106_prec in PL, BL.
  rewrite (bits_le_rnd _ 106 d ltac:(lia) R1) in BL.
  pose proof (ToFloat_val 52 11 L ltac:(lia) ltac:(lia) ltac:(unfold MaxExp; lia) WL) as HT.
  unfold BigFloat.Float64. destruct (BigFloat.ToFloat 52 11 L) as [l al]. rewrite BL in HT.
  destruct HT as (Hl & Vl & _).
  assert (Hds : (Rabs (rn 52 11 d) < p2 1024)%R).
  { apply Rle_lt_trans with (p2 971); [|apply p2_lt; lia].
    apply (rn_range 52 11 d); try lia. apply remainder_small; assumption. }
  rewrite ieee_round_num in Vl by exact Hds.
  assert (Hsum : (rn 52 11 y + d = y)%R) by (unfold d; ring).
  destruct (Add_num z106 H' L s (rn 52 11 y) t d z106_mode z106_ok Wh WL Bh BL) as (S & u & -> & WS & PS & MS & BS & SS & AS).
  { rewrite Hsum. apply Rlt_le, Rlt_trans with (1 := Hyb). apply p2_lt. lia. }
  { rewrite Hsum. intros _. destruct (bval_finite X s y W B Hy0) as (m' & e' & Ef' & Hm' & _ & E').
    destruct W as [_ W]. rewrite Ef' in W. destruct W as (_ & _ & G1 & _).
    rewrite E', abs_val by exact Hm'. pose proof (gexp_spec m' e' Hm') as [G _].
    apply Rle_trans with (2 := G). apply p2_le. lia. }
  cbn [bind]. rewrite Hsum, z106_prec in BS. rewrite (bits_le_rnd _ 106 y ltac:(lia) Hbits) in BS.
  destruct (Cmp_num X S s y u y W WS B BS) as (_ & HC & _).
  rewrite (proj2 HC) by reflexivity.
  exists h, l, t. split; [reflexivity|]. split; [exact Hh|]. split; [exact Hl|]. split; [exact Vh|].
  split; [exact Vl|]. split; [|auto]. destruct SL as (S1 & S2 & S3).
  split; [exact S1|]. split; [exact S2|]. intros Hd. rewrite S3 by exact Hd.
  destruct (Req_EM_T y 0); [contradiction|reflexivity].
Qed.

(** Numbers that overflow float64 after rounding to 106 bits make it panic. *)
Lemma NewFromBig_overflow x s v : wf x -> bval x = VNum s v ->
  (p2 1024 <= Rabs (rn 52 11 (rnd_prec (rmode x) 106 v)))%R ->
  Float128ppc.NewFromBig x = Panic.
Proof.
  intros Hw Hv Ho.
  assert (Hnz : v <> 0%R).
  { intros ->. rewrite rnd_prec_0, rn_0, Rabs_R0 in Ho. pose proof (p2_pos 1024). lra. }
  destruct (bval_finite x s v Hw Hv Hnz) as (m & e & Ef & Hm & Hs & Ev).
  unfold Float128ppc.NewFromBig. unfold BigFloat.IsInf at 1. rewrite Cmp_zero, Ef by reflexivity.
  destruct (SetPrec_correct x 106 m e Ef Hw ltac:(unfold MaxPrec; lia)) as (P1 & P2 & P3 & _ & P5).
  rewrite Hs, <- Ev in P5. set (y := rnd_prec (rmode x) 106 v) in *.
  fold (x106 x). set (X := x106 x).
  assert (Hinf : exists h, fst (BigFloat.Float64 X) = h /\ 0 <= h < 2 ^ 64 /\ ieee 52 11 h = VInf s /\
    (frm X = BigFloat.Inf \/ exists m e, frm X = Finite m e) /\ neg X = s).
  { assert (Hn : neg X = s) by (unfold X, x106, BigFloat.SetMode; cbn [neg]; change Float128ppc.precision with 106; congruence).
    assert (Hp : prec X = 106) by exact P1.
    destruct P5 as [(m' & e' & Q1 & Q2 & Q3 & Q4 & Q5)|[Q1 Q2]].
    - assert (W : wf X).
      { split; [rewrite Hp; unfold MaxPrec; lia|]. change (frm X) with (frm (BigFloat.SetPrec x 106)). rewrite Q1.
        split; [exact Q2|]. split; [rewrite Hp; exact Q3|].
        destruct Hw as [_ Hw]. rewrite Ef in Hw. lia. }
      assert (B : bval X = VNum s y).
      { unfold bval. change (frm X) with (frm (BigFloat.SetPrec x 106)). rewrite Q1, Hn, Q5. reflexivity. }
      pose proof (ToFloat_val 52 11 X ltac:(lia) ltac:(lia) ltac:(unfold MaxExp; lia) W) as HT.
      unfold BigFloat.Float64. destruct (BigFloat.ToFloat 52 11 X) as [h ah]. rewrite B in HT.
      destruct HT as (Hh & Vh & _). exists h. split; [reflexivity|]. split; [exact Hh|].
      split; [|split; [right; exists m', e'; exact Q1|exact Hn]].
      rewrite Vh. unfold ieee_round. rewrite Rle_bool_true by exact Ho. reflexivity.
    - assert (W : wf X).
      { split; [rewrite Hp; unfold MaxPrec; lia|]. change (frm X) with (frm (BigFloat.SetPrec x 106)). rewrite Q1. exact I. }
      assert (B : bval X = VInf s).
      { unfold bval. change (frm X) with (frm (BigFloat.SetPrec x 106)). rewrite Q1, Hn. reflexivity. }
      pose proof (ToFloat_val 52 11 X ltac:(lia) ltac:(lia) ltac:(unfold MaxExp; lia) W) as HT.
      unfold BigFloat.Float64. destruct (BigFloat.ToFloat 52 11 X) as [h ah]. rewrite B in HT.
      destruct HT as (Hh & Vh & _). exists h. split; [reflexivity|]. split; [exact Hh|].
      split; [exact Vh|split; [left; exact Q1|exact Hn]]. }
  destruct Hinf as (h & E & Hh & Vh & HX & Hn).
  destruct (BigFloat.Float64 X) as [h0 ah]. cbn [fst] in E. subst h0.
  destruct (float_106' h Hh ltac:(intros; congruence)) as (yh & -> & Wh & Bh & Ph & Mh).
  rewrite Vh in Bh. cbn [bind]. fold (x106 yh). set (H' := x106 yh) in *.
  destruct (frm_inf _ _ Bh) as [FH NH]. fold z106.
  rewrite Sub_Add by (rewrite ?Ph, z106_prec; lia).
  unfold BigFloat.Add at 1. cbn [BigFloat.NegSelf BigFloat.set_neg frm neg]. rewrite FH, NH, Hn.
  destruct HX as [->|(m' & e' & ->)].
  { destruct s; reflexivity. }
  cbn [bind]. set (L := BigFloat.Set_ z106 _).
  assert (BL : bval L = VInf (negb s) /\ frm L = BigFloat.Inf).
  { destruct (Set_inf z106 (BigFloat.NegSelf H') (negb s)) as (B1 & _ & _ & _ & B2);
      [rewrite z106_prec; lia|rewrite NegSelf_bval, Bh; reflexivity|]. split; assumption. }
  destruct BL as [BL FL]. destruct (frm_inf _ _ BL) as [_ NL].
  destruct (BigFloat.Float64 L) as [lo al].
  unfold BigFloat.Add. rewrite FH, FL, NH, NL. destruct s; reflexivity.
Qed.
