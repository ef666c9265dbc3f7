(** Further lemmas: which float128ppc pairs survive a round trip (C26), when the accuracies of
    binary16 are right (C06). *)
From Coq Require Import ZArith Reals Lia Lra Bool List.
From Flocq Require Import Core.
From Verif Require Import GoBase.
From Verif Require BigFloat Float128ppc Binary16 Binary128 Float80x86 Ftoa.
From Verif Require Import Spec BitFacts RoundFacts IeeeFacts BigFacts BigFacts2 BigFacts3 PkgFacts FactsPpc ClaimsPpc.
From Verif Require Facts16 Claims16 Claims128 Claims80 AllBig.
Import BigFloat (bitlen, gexp, prec, rmode, acc, neg, frm, Finite, MaxExp, MinExp, MaxPrec).
Import Float128ppc (Float, mkFloat, high, low).
Open Scope Z_scope.

(** ** float128ppc round trips *)
Lemma remainder_fits y : bits_le 106 y -> y <> 0%R -> (Rabs (rn 52 11 y) < p2 1024)%R ->
  -968 <= mag radix2 y -> fits 52 11 (y - rn 52 11 y).
Proof.
  intros Hb Hnz Hr Hm. set (d := (y - rn 52 11 y)%R).
  assert (Prec_gt_0 53) by (unfold Prec_gt_0; lia). assert (Prec_gt_0 106) by (unfold Prec_gt_0; lia).
  assert (Er : rn 52 11 y = round radix2 (FLT_exp (-1074) 53) ZnearestE y) by reflexivity.
  assert (Hc : exists K, d = (IZR K * p2 (mag radix2 y - 106))%R).
  { assert (G : generic_format radix2 (FLX_exp 106) y).
    { destruct Hb as (K & c & E & HK). apply generic_format_FLX. exists (Defs.Float radix2 K c); [rewrite F2R_p2; exact E|exact HK]. }
    unfold generic_format in G. rewrite F2R_p2 in G. unfold cexp, FLX_exp in G.
    unfold d. rewrite Er. unfold round. rewrite F2R_p2. unfold cexp.
    set (M := Ztrunc _) in G. set (N := ZnearestE _).
    assert (Hge : mag radix2 y - 106 <= FLT_exp (-1074) 53 (mag radix2 y)) by (unfold FLT_exp; lia).
    exists (M - N * 2 ^ (FLT_exp (-1074) 53 (mag radix2 y) - (mag radix2 y - 106))).
    rewrite minus_IZR, Rmult_minus_distr_r, scale_R by lia.
    rewrite G at 1. do 3 f_equal. lia. }
  assert (Hd : (Rabs d <= p2 (mag radix2 y - 54))%R).
  { pose proof (error_le_half_ulp radix2 (FLT_exp (-1074) 53) (fun x => negb (Z.even x)) y) as H1.
    change (round radix2 (FLT_exp (-1074) 53) (Znearest (fun x => negb (Z.even x))) y) with (rn 52 11 y) in H1.
    rewrite Rabs_minus_sym in H1. apply Rle_trans with (1 := H1).
    rewrite ulp_neq_0 by exact Hnz. unfold cexp.
    replace (/ 2)%R with (p2 (-1)) by reflexivity. fold (p2 (FLT_exp (-1074) 53 (mag radix2 y))).
    rewrite <- p2_plus. apply p2_le. unfold FLT_exp. lia. }
  split.
  - destruct Hc as [K HK]. exists K, (mag radix2 y - 106). split; [exact HK|]. split; [|change (2 ^ (11 - 1)) with 1024; lia].
    rewrite HK, Rabs_mult, (Rabs_pos_eq (p2 _)) in Hd by (apply Rlt_le, p2_pos).
    replace (mag radix2 y - 54) with (52 + (mag radix2 y - 106)) in Hd by lia.
    rewrite p2_plus in Hd. apply Rmult_le_reg_r in Hd; [|apply p2_pos].
    rewrite <- abs_IZR in Hd. unfold p2 in Hd. rewrite <- IZR_Zpower in Hd by lia. apply le_IZR in Hd.
    change (radix2 ^ 52) with (2 ^ 52) in Hd. change (2 ^ (52 + 1)) with (2 * 2 ^ 52). lia.
  - apply Rle_lt_trans with (1 := remainder_small y Hnz Hr). apply p2_lt. reflexivity.
Qed.

Lemma NewFromBig_ret x s v f a x' : wf x -> bval x = VNum s v -> Float128ppc.NewFromBig x = Ret (f, a, x') ->
  (Rabs (rn 52 11 (rnd_prec (rmode x) 106 v)) < p2 1024)%R.
Proof.
  intros W V H. destruct (Rlt_or_le (Rabs (rn 52 11 (rnd_prec (rmode x) 106 v))) (p2 1024)) as [|L]; [assumption|].
  rewrite (NewFromBig_overflow x s v W V L) in H. discriminate.
Qed.

Lemma c26_iff : forall a b s1 v1 s2 v2, 0 <= a < 2 ^ 64 -> 0 <= b < 2 ^ 64 ->
  ieee 52 11 a = VNum s1 v1 -> ieee 52 11 b = VNum s2 v2 ->
  (exists x acc x', Float128ppc.Big (Float128ppc.NewFromBits a b) = Ret (x, false) /\
    Float128ppc.NewFromBig x = Ret (Float128ppc.NewFromBits a b, acc, x')) <->
  rn 52 11 (v1 + v2) = v1 /\ (exists K c, (v1 + v2 = IZR K * p2 c)%R /\ Z.abs K < 2 ^ 106) /\ b <> Float128ppc.math_NegZero.
Proof.
  intros a b s1 v1 s2 v2 Ha Hb Ea Eb. split.
  2:{ intros (H1 & H2 & H3). destruct (c26_partial a b s1 v1 s2 v2 Ha Hb Ea Eb H1 H2 H3) as (x & x' & H).
      exists x, BigFloat.Exact, x'. exact H. }
  intros (x & ac & x' & HB & HN).
  assert (Hok : ok (Float128ppc.NewFromBits a b)) by (split; assumption).
  destruct (Big_num (Float128ppc.NewFromBits a b) s1 v1 s2 v2 Hok Ea Eb) as (x0 & s & HB' & W & P & M & V & S & A).
  rewrite HB' in HB. injection HB as ->.
  pose proof (fits_ieee 52 11 a s1 v1 ltac:(lia) ltac:(lia) Ha Ea) as [Fa _].
  pose proof (fits_ieee 52 11 b s2 v2 ltac:(lia) ltac:(lia) Hb Eb) as [Fb _].
  set (v := (v1 + v2)%R) in *. set (y := rnd_prec BigFloat.ToNearestEven 106 v) in *.
  destruct (Req_dec v 0) as [V0|V0].
  - (* zero *)
    assert (Y0 : y = 0%R) by (unfold y; rewrite V0; unfold rnd_prec; apply round_0; apply valid_mode_rnd).
    rewrite Y0 in V. rewrite (zero_of x s W V) in HN. unfold Float128ppc.NewFromBits in HN.
    assert (Hb0 : b = 0) by (injection HN; congruence). subst b.
    assert (v2 = 0%R) by (rewrite zero64 in Eb; apply VNum_inj in Eb; symmetry; apply Eb).
    assert (v1 = 0%R) by (unfold v in V0; lra).
    split; [rewrite V0, rn_0; congruence|]. split; [exists 0, 0; rewrite V0; split; [ring|reflexivity]|].
    unfold Float128ppc.math_NegZero; lia.
  - assert (Y0 : y <> 0%R) by (apply rnd_prec_nz; [lia|exact V0]).
    assert (BY : bits_le 106 y) by (apply rnd_prec_bits; lia).
    assert (EY : rnd_prec (rmode x) 106 y = y) by (apply bits_le_rnd; [lia|exact BY]).
    pose proof (NewFromBig_ret x s y _ _ _ W V HN) as Hr.
    pose proof (NewFromBig_num x s y W V Y0) as H. cbv zeta in H. rewrite EY in H, Hr.
    destruct (H Hr) as (h & l & t & HN' & Hh & Hl & Vh & Vl & St & _). clear H.
    rewrite HN' in HN. unfold Float128ppc.NewFromBits in HN.
    assert (h = a) by congruence. assert (l = b) by congruence. subst h l.
    rewrite Ea in Vh. apply VNum_inj in Vh. destruct Vh as [Es Ev1].
    rewrite Eb in Vl. apply VNum_inj in Vl. destruct Vl as [Et Ev2].
    assert (Ebits : bits_le 106 v).
    { destruct (Z_le_gt_dec (-968) (mag radix2 y)) as [L|L].
      - pose proof (remainder_fits y BY Y0 Hr L) as F. rewrite (fits_rn 52 11 _ ltac:(lia) F) in Ev2.
        replace v with y; [exact BY|]. unfold v. rewrite Ev1, Ev2. ring.
      - destruct (fits_multiple 52 11 v1 Fa) as [K1 E1]. destruct (fits_multiple 52 11 v2 Fb) as [K2 E2].
        change (2 - 2 ^ (11 - 1) - 52) with (-1074) in E1, E2.
        exists (K1 + K2), (-1074). unfold v. split; [rewrite E1, E2, plus_IZR; ring|].
        assert (Hv : (Rabs v < p2 (-968))%R).
        { destruct (Rlt_or_le (Rabs v) (p2 (-968))) as [|L']; [assumption|]. exfalso.
          pose proof (rnd_prec_ge BigFloat.ToNearestEven 106 v (-968) ltac:(lia) L') as G. fold y in G.
          pose proof (bpow_mag_gt radix2 y) as G2. fold (p2 (mag radix2 y)) in G2.
          pose proof (p2_le (mag radix2 y) (-968) ltac:(lia)). lra. }
        unfold v in Hv. rewrite E1, E2, <- Rmult_plus_distr_r, <- plus_IZR, Rabs_mult, (Rabs_pos_eq (p2 _)) in Hv by (apply Rlt_le, p2_pos).
        change (-968) with (106 + -1074) in Hv.
        rewrite p2_plus in Hv. apply Rmult_lt_reg_r in Hv; [|apply p2_pos].
        rewrite <- abs_IZR in Hv. unfold p2 in Hv. rewrite <- IZR_Zpower in Hv by lia. apply lt_IZR in Hv. exact Hv. }
    assert (Evy : y = v) by (apply bits_le_rnd; [lia|exact Ebits]).
    split; [rewrite <- Evy; symmetry; exact Ev1|]. split; [exact Ebits|].
    intros Hnz. rewrite Hnz, negzero64 in Eb. apply VNum_inj in Eb. destruct Eb as [Es2 Ez2].
    destruct St as (_ & _ & T3). rewrite <- Et, <- Es2 in T3.
    assert (D0 : (y - rn 52 11 y)%R = 0%R) by (rewrite <- Ev1, Evy; unfold v; rewrite <- Ez2; ring).
    specialize (T3 D0). discriminate.
Qed.

(** ** When the accuracy of the truncating functions is right *)
Lemma rz_abs_le mb eb v : 0 <= mb -> (Rabs (rz mb eb v) <= Rabs v)%R.
Proof.
  intros Hm. unfold rz. assert (Prec_gt_0 (mb + 1)) by (unfold Prec_gt_0; lia).
  destruct (Rle_or_lt 0 v) as [L|L].
  - rewrite round_ZR_DN by exact L.
    assert (0 <= round radix2 (FLT_exp (3 - 2 ^ (eb - 1) - (mb + 1)) (mb + 1)) Zfloor v)%R
      by (apply round_ge_generic; [typeclasses eauto|typeclasses eauto|apply generic_format_0|exact L]).
    rewrite !Rabs_pos_eq by assumption. apply round_DN_pt. typeclasses eauto.
  - rewrite round_ZR_UP by lra.
    assert (round radix2 (FLT_exp (3 - 2 ^ (eb - 1) - (mb + 1)) (mb + 1)) Zceil v <= 0)%R
      by (apply round_le_generic; [typeclasses eauto|typeclasses eauto|apply generic_format_0|lra]).
    rewrite !Rabs_left1 by lra. apply Ropp_le_contravar. apply round_UP_pt. typeclasses eauto.
Qed.

Lemma rz_mono mb eb u v : 0 <= mb -> (u <= v)%R -> (rz mb eb u <= rz mb eb v)%R.
Proof.
  intros Hm H. unfold rz. assert (Prec_gt_0 (mb + 1)) by (unfold Prec_gt_0; lia). apply round_le; try typeclasses eauto. exact H.
Qed.

Lemma rz_0 mb eb : rz mb eb 0 = 0%R.
Proof. apply round_0. typeclasses eauto. Qed.

Lemma acc_iff mb eb lo s v k a : 0 <= mb -> (p2 k <= Rabs v < p2 (k + 1))%R -> (Rabs v < p2 (2 ^ (eb - 1)))%R ->
  a <> BigFloat.Above -> (a = BigFloat.Below -> lo <= k) -> (fits mb eb v -> a = BigFloat.Exact) ->
  ((p2 lo <= v)%R -> acc_ok a (VNum s (rz mb eb v)) v) ->
  acc_ok a (VNum s (rz mb eb v)) v <-> fits mb eb v \/ (p2 lo <= v)%R.
Proof.
  intros Hm Hk Hv HA HB HF HT. split.
  - destruct a; cbn [acc_ok]; [| |congruence].
    + intros H. right. pose proof (rz_abs_le mb eb v Hm) as H1.
      assert (0 < v)%R.
      { destruct (Rle_or_lt v 0) as [L|L]; [|exact L]. rewrite (Rabs_left1 v) in H1 by exact L.
        pose proof (Rle_abs (- rz mb eb v)). rewrite Rabs_Ropp in *. lra. }
      rewrite Rabs_pos_eq in Hk by lra. pose proof (p2_le lo k (HB eq_refl)). lra.
    + intros H. left. apply rz_fits; auto.
  - intros [H|H]; [|auto]. rewrite (HF H). cbn [acc_ok]. apply fits_rz; auto.
Qed.

(** The magnitude of a nonzero real. *)
Lemma mag_ex v : v <> 0%R -> exists k, (p2 k <= Rabs v < p2 (k + 1))%R.
Proof.
  intros Hv. destruct (mag radix2 v) as [e He]. exists (e - 1).
  replace (e - 1 + 1) with e by lia. exact (He Hv).
Qed.

Lemma p2_lt_inv a b : (p2 a < p2 b)%R -> a < b.
Proof. intros H. apply (lt_bpow radix2). exact H. Qed.

Lemma c07_iff : forall x s v, wf x -> bval x = VNum s v -> (p2 (-24) <= Rabs v < p2 16)%R ->
  let '(b, a) := Binary16.NewFromBig x in
  acc_ok a (ieee 10 5 b) v <-> fits 10 5 v \/ (p2 (-14) <= v)%R.
Proof.
  intros x s v W B H.
  assert (Hnz : v <> 0%R) by (intros ->; rewrite Rabs_R0 in H; pose proof (p2_pos (-24)); lra).
  destruct (mag_ex v Hnz) as [k Hk].
  assert (K : -24 <= k < 16).
  { split; [|apply p2_lt_inv; lra]. assert (-24 < k + 1) by (apply p2_lt_inv; lra). lia. }
  destruct (bval_finite x s v W B Hnz) as (m & e & Hf & Hm & Hn & Hr).
  pose proof (Claims16.c07_partial x m e W Hf) as P. cbv zeta in P. rewrite Hn, <- Hr in P. specialize (P H).
  pose proof (AllBig.c07_all x s v k W B Hk) as A. cbv zeta in A.
  destruct (Binary16.NewFromBig x) as [b a]. cbn [fst snd] in P. destruct P as (P1 & P2 & P3). rewrite P1.
  destruct A as (A1 & A2 & _).
  rewrite P1 in P3.
  apply (acc_iff 10 5 (-14) s v k a); try lia; try assumption; try apply H.
  - intros ->. destruct (Z_le_gt_dec (-14) k) as [L|L]; [|specialize (A2 ltac:(lia)); destruct A2; discriminate].
    destruct (A1 L) as (_ & A3 & A4). destruct (Req_dec (IZR (Zfloor (Rabs v * p2 (10 - k)))) (Rabs v * p2 (10 - k))) as [Q|Q].
    + specialize (A3 Q). destruct (Z.ltb_spec k 17); [discriminate|lia].
    + specialize (A4 Q). discriminate.
  - intros ->. destruct (Z_le_gt_dec (-14) k) as [L|L]; [exact L|]. specialize (A2 ltac:(lia)). destruct A2; discriminate.
  - intros F. destruct (P2 F) as [Q _]. congruence.
Qed.

Lemma c15_iff : forall x s v, wf x -> bval x = VNum s v -> (p2 (-16494) <= Rabs v < p2 16384)%R ->
  exists f a, Binary128.NewFromBig x = Ret (f, a) /\
  (acc_ok a (quad (Binary128.fa f) (Binary128.fb f)) v <-> fits 112 15 v \/ (p2 (-16382) <= v)%R).
Proof.
  intros x s v W B H.
  assert (Hnz : v <> 0%R) by (intros ->; rewrite Rabs_R0 in H; pose proof (p2_pos (-16494)); lra).
  destruct (mag_ex v Hnz) as [k Hk].
  assert (K : -16494 <= k < 16384).
  { split; [|apply p2_lt_inv; lra]. assert (-16494 < k + 1) by (apply p2_lt_inv; lra). lia. }
  destruct (bval_finite x s v W B Hnz) as (m & e & Hf & Hm & Hn & Hr).
  pose proof (Claims128.c15_partial x m e W Hf) as P. cbv zeta in P. rewrite Hn, <- Hr in P. specialize (P H).
  pose proof (AllBig.c15_all x s v k W B Hk) as A. cbv zeta in A.
  destruct P as (f & a & E & P1 & P2 & P3). exists f, a. split; [exact E|].
  destruct A as (n & a' & E' & A1 & A2 & _). rewrite E in E'. assert (a' = a) by congruence. subst a'. clear E'.
  rewrite P1 in *.
  apply (acc_iff 112 15 (-16382) s v k a); try lia; try assumption; try apply H.
  - intros ->. destruct (Z_le_gt_dec (-16382) k) as [L|L]; [|specialize (A2 ltac:(lia)); destruct A2; discriminate].
    destruct (A1 L) as (_ & A3 & A4). destruct (Req_dec (IZR (Zfloor (Rabs v * p2 (112 - k)))) (Rabs v * p2 (112 - k))) as [Q|Q].
    + specialize (A3 Q). destruct (Z.ltb_spec k 16385); [discriminate|lia].
    + specialize (A4 Q). discriminate.
  - intros ->. destruct (Z_le_gt_dec (-16382) k) as [L|L]; [exact L|]. specialize (A2 ltac:(lia)). destruct A2; discriminate.
  - intros F. apply (P2 F).
Qed.

Lemma c21_iff : forall x s v, wf x -> bval x = VNum s v -> (p2 (-16445) <= Rabs v < p2 16384)%R ->
  let '(f, a) := Float80x86.NewFromBig x in
  acc_ok a (x87 (Float80x86.se f) (Float80x86.m f)) v <-> fits 63 15 v \/ (p2 (-16382) <= v)%R.
Proof.
  intros x s v W B H.
  assert (Hnz : v <> 0%R) by (intros ->; rewrite Rabs_R0 in H; pose proof (p2_pos (-16445)); lra).
  destruct (mag_ex v Hnz) as [k Hk].
  assert (K : -16445 <= k < 16384).
  { split; [|apply p2_lt_inv; lra]. assert (-16445 < k + 1) by (apply p2_lt_inv; lra). lia. }
  destruct (bval_finite x s v W B Hnz) as (m & e & Hf & Hm & Hn & Hr).
  pose proof (Claims80.c21_partial x m e W Hf) as P. cbv zeta in P. rewrite Hn, <- Hr in P. specialize (P H).
  pose proof (AllBig.c21_all x s v k W B Hk) as A. cbv zeta in A.
  destruct (Float80x86.NewFromBig x) as [f a]. destruct P as (P1 & P2 & P3).
  destruct A as (n & m' & a' & E' & A1 & A2 & _). assert (a' = a) by congruence. subst a'. clear E'.
  rewrite P1 in *.
  apply (acc_iff 63 15 (-16382) s v k a); try lia; try assumption; try apply H.
  - intros ->. destruct (Z_le_gt_dec (-16382) k) as [L|L]; [|specialize (A2 ltac:(lia)); destruct A2 as (_ & _ & ?); discriminate].
    destruct (A1 L) as (_ & _ & A3 & A4). destruct (Req_dec (IZR (Zfloor (Rabs v * p2 (63 - k)))) (Rabs v * p2 (63 - k))) as [Q|Q].
    + specialize (A3 Q). destruct (Z.ltb_spec k 16385); [discriminate|lia].
    + specialize (A4 Q). discriminate.
  - intros ->. destruct (Z_le_gt_dec (-16382) k) as [L|L]; [exact L|]. specialize (A2 ltac:(lia)). destruct A2 as (_ & _ & ?). discriminate.
  - intros F. apply (P2 F).
Qed.

(** binary16.NewFromFloat64 always says Exact between 2^-24 and 2^17. *)
Lemma c06_iff : forall x s v, 0 <= x < 2 ^ 64 -> ieee 52 11 x = VNum s v ->
  (p2 (-24) <= Rabs v)%R -> (Rabs (rnd_prec BigFloat.ToNearestEven 11 v) < p2 17)%R ->
  exists b a, Binary16.NewFromFloat64 x = Ret (b, a) /\ (acc_ok a (ieee 10 5 b) v <-> fits 10 5 v).
Proof.
  intros x s v Hx Hi H1 H2.
  assert (Hnz : v <> 0%R) by (intros ->; rewrite Rabs_R0 in H1; pose proof (p2_pos (-24)); lra).
  set (r := rnd_prec BigFloat.ToNearestEven 11 v) in *.
  assert (Rnz : r <> 0%R) by (apply rnd_prec_nz; [lia|exact Hnz]).
  destruct (mag_ex r Rnz) as [k Hk].
  pose proof (rnd_prec_ge BigFloat.ToNearestEven 11 v (-24) ltac:(lia) H1) as H3. fold r in H3.
  assert (K : -24 <= k < 17).
  { split; [|apply p2_lt_inv; lra]. assert (-24 < k + 1) by (apply p2_lt_inv; lra). lia. }
  pose proof (AllBig.c05_all x s v k Hx Hi) as A. cbv zeta in A. fold r in A. specialize (A Hk).
  destruct A as (b & a & E & A1 & A2 & _). exists b, a. split; [exact E|].
  assert (Ea : a = BigFloat.Exact).
  { destruct (Z_le_gt_dec (-14) k) as [L|L]; [|apply A2; lia]. destruct (A1 L) as [_ ->]. rewrite (proj2 (Z.ltb_lt k 17)) by lia. reflexivity. }
  subst a. cbn [acc_ok]. split.
  - intros H. destruct (ieee 10 5 b) as [t|t|t w] eqn:Eb; try contradiction. subst w.
    destruct (Facts16.nff64_total x Hx) as (b' & a' & E' & Rb). assert (b' = b) by congruence. subst b'.
    apply (fits_ieee 10 5 b t v); try lia; assumption.
  - intros F. destruct (Claims16.c06_partial x s v Hx Hi F) as (b' & a' & E' & Q).
    rewrite E in E'. injection E' as <- <-. exact Q.
Qed.
