(** The lemmas behind C78 (what NewFromBig returned comes back) and C79 (double-doubles and
    quadruple precision). *)
From Coq Require Import ZArith Reals Lia Lra Bool List.
From Flocq Require Import Core.
From Verif Require Import GoBase.
From Verif Require BigFloat Binary16 Binary128 Float80x86 Float128ppc.
From Verif Require Import Spec BitFacts RoundFacts IeeeFacts BigFacts BigFacts2 BigFacts3 PkgFacts FactsPpc ClaimsPpc ClaimsPpc2.
From Verif Require Facts16 Facts128 Facts80 AllBig ClaimsBf.
Import BigFloat (bitlen, gexp, prec, rmode, acc, neg, frm, Finite, MaxExp, MinExp, MaxPrec).
Import Float128ppc (Float, mkFloat, high, low).
Open Scope Z_scope.

Lemma c78_16 : forall x, wf x ->
  let f := fst (Binary16.NewFromBig x) in
  (forall s, ieee 10 5 f <> VNaN s) ->
  exists y, Binary16.Big f = Ret (y, false) /\ Binary16.NewFromBig y = (f, BigFloat.Exact).
Proof. intros x W f Hn. apply Facts16.roundtrip; [apply Facts16.NewFromBig_range|exact Hn]. Qed.

Lemma c78_128 : forall x, wf x -> exists f a, Binary128.NewFromBig x = Ret (f, a) /\
  ((forall s, quad (Binary128.fa f) (Binary128.fb f) <> VNaN s) ->
   exists y, Binary128.Big f = Ret (y, false) /\ Binary128.NewFromBig y = Ret (f, BigFloat.Exact)).
Proof.
  intros x W. destruct (Facts128.NewFromBig_total x W) as (f & a & E & O). exists f, a. split; [exact E|].
  intros Hn. apply Facts128.roundtrip; assumption.
Qed.

Lemma mag_k v : v <> 0%R -> (p2 (mag radix2 v - 1) <= Rabs v < p2 (mag radix2 v - 1 + 1))%R.
Proof.
  intros H. replace (mag radix2 v - 1 + 1) with (mag radix2 v : Z) by lia.
  destruct (mag radix2 v) as [e He]; cbn [mag_val]. unfold p2. apply He, H.
Qed.

Lemma floor_range v k n : (p2 k <= Rabs v < p2 (k + 1))%R -> 0 <= k + n -> 
  2 ^ (k + n) <= Zfloor (Rabs v * p2 n) < 2 ^ (k + 1 + n).
Proof.
  intros [H1 H2] Hn. pose proof (p2_pos n). split.
  - apply Zfloor_lub. change 2 with (radix_val radix2). rewrite IZR_Zpower by exact Hn. fold (p2 (k + n)). rewrite p2_plus. nra.
  - apply lt_IZR. change 2 with (radix_val radix2). rewrite IZR_Zpower by lia. fold (p2 (k + 1 + n)). rewrite p2_plus.
    apply Rle_lt_trans with (1 := Zfloor_lb _). nra.
Qed.

(** Where the exponent fits, the result is canonical. *)
Lemma canon80 x : wf x -> match bval x with VNum _ v => (Rabs v < p2 16384)%R | _ => True end ->
  exists f a, Float80x86.NewFromBig x = (f, a) /\ Facts80.ok f /\ Facts80.canon f /\ (forall s, Facts80.value f <> VNaN s).
Proof.
  intros W H. pose proof (Facts80.NewFromBig_special x) as Hs.
  destruct (bval x) as [s|s|s v] eqn:B; [contradiction| |].
  - rewrite Hs. destruct (Facts80.inf_pattern s) as (V & O & C). eexists _, _. split; [reflexivity|].
    split; [exact O|]. split; [exact C|]. intros t. rewrite V. discriminate.
  - destruct (Req_dec v 0) as [V0|V0].
    + rewrite (Hs V0 W). destruct (Facts80.zero_pattern s) as (V & O & C). eexists _, _. split; [reflexivity|].
      split; [exact O|]. split; [exact C|]. intros t. rewrite V. discriminate.
    + pose proof (mag_k v V0) as K. set (k := mag radix2 v - 1) in *.
      destruct (AllBig.c21_all x s v k W B K) as (se & m & a & E & N1 & N2 & N3).
      assert (Hk : k < 16384).
      { apply (lt_bpow radix2). fold (p2 k). fold (p2 16384). lra. }
      assert (X : exists s' E', se = Z.b2z s' * 2 ^ 15 + E' /\ 0 <= E' < 2 ^ 15 /\ 0 <= m < 2 ^ 64 /\
        ((E' = 0 /\ m < 2 ^ 63) \/ (1 <= E' <= 32766 /\ 2 ^ 63 <= m))).
      { exists s. assert (ES : (if s then 2 ^ 15 else 0) = Z.b2z s * 2 ^ 15) by (destruct s; reflexivity).
        destruct (Z_le_gt_dec (-16382) k) as [L|L]; [|destruct (Z_le_gt_dec (-16445) k) as [L2|L2]].
        - destruct (N1 L) as (-> & -> & _). exists (k + 16383). rewrite Z.mod_small by lia.
          pose proof (floor_range v k (63 - k) K ltac:(lia)) as R.
          replace (k + (63 - k)) with 63 in R by lia. replace (k + 1 + (63 - k)) with 64 in R by lia. lia.
        - destruct (N2 ltac:(lia)) as (-> & -> & _). exists 0.
          pose proof (floor_range v k 16445 K ltac:(lia)) as R.
          assert (2 ^ (k + 1 + 16445) <= 2 ^ 63) by (apply Z.pow_le_mono_r; lia).
          pose proof (Z.pow_nonneg 2 (k + 16445) ltac:(lia)). lia.
        - destruct (N3 ltac:(lia)) as (-> & -> & _). exists 0. lia. }
      destruct X as (s' & E' & -> & HE & Hm & HC).
      assert (O : Facts80.ok (Facts80.mk s' E' m)) by (apply Facts80.mk_ok; assumption).
      assert (C : Facts80.canon (Facts80.mk s' E' m)).
      { unfold Facts80.canon, Facts80.mk. cbn [Float80x86.se Float80x86.m].
        rewrite Z.add_comm, Z.mod_add, Z.mod_small by lia. intuition lia. }
      exists (Facts80.mk s' E' m), a. split; [exact E|]. split; [exact O|]. split; [exact C|].
      intros t Hv. rewrite Facts80.value_mk in Hv by exact HE.
      revert Hv. destruct (Z.eqb_spec E' 32767) as [Q|Q]; [lia|]. discriminate.
Qed.

Lemma c78_80 : forall x, wf x -> match bval x with VNum _ v => (Rabs v < p2 16384)%R | _ => True end ->
  exists f a y, Float80x86.NewFromBig x = (f, a) /\ Float80x86.Big f = Ret (y, false) /\
    Float80x86.NewFromBig y = (f, BigFloat.Exact).
Proof.
  intros x W H. destruct (canon80 x W H) as (f & a & E & O & C & N).
  destruct (Facts80.roundtrip f O N) as (y & g & B & G & _ & _ & _ & I). rewrite (I C) in G.
  exists f, a, y. auto.
Qed.

Lemma c78_80_refuted : exists x f y g, wf x /\ Float80x86.NewFromBig x = (f, BigFloat.Above) /\
  Float80x86.Big f = Ret (y, false) /\ Float80x86.NewFromBig y = (g, BigFloat.Exact) /\ g <> f.
Proof.
  exists (BigFloat.mkBF 53 BigFloat.ToNearestEven BigFloat.Exact false (Finite 1 16385)).
  eexists _, _, _. split; [|split; [vm_compute; reflexivity|split; [vm_compute; reflexivity|split; [vm_compute; reflexivity|]]]].
  - unfold wf. cbn [prec frm]. split; [vm_compute; intuition congruence|]. split; [lia|].
    split; [exists 1, 0; repeat split; try lia; reflexivity|vm_compute; intuition congruence].
  - vm_compute. discriminate.
Qed.

Lemma c78_ppc : forall x s v, wf x -> bval x = VNum s v ->
  let y := rnd_prec (rmode x) 106 v in
  (Rabs (rn 52 11 y) < p2 1024)%R ->
  (p2 (-969) <= Rabs v)%R \/ (exists K, v = (IZR K * p2 (-1074))%R) ->
  exists h l x' s1 v1 s2 v2 z z', Float128ppc.NewFromBig x = Ret (mkFloat h l, BigFloat.Exact, x') /\
    0 <= h < 2 ^ 64 /\ 0 <= l < 2 ^ 64 /\
    ieee 52 11 h = VNum s1 v1 /\ ieee 52 11 l = VNum s2 v2 /\ rn 52 11 (v1 + v2) = v1 /\ (v1 + v2 = y)%R /\
    Float128ppc.Big (mkFloat h l) = Ret (z, false) /\ bval z = VNum s y /\
    Float128ppc.NewFromBig z = Ret (mkFloat h l, BigFloat.Exact, z').
Proof.
  intros x s v W B y Hr Hg.
  destruct (Req_dec v 0) as [V0|V0].
  - subst v. assert (Y0 : y = 0%R) by (unfold y; apply rnd_prec_0).
    set (h := if s then Float128ppc.math_NegZero else 0).
    assert (Hh : 0 <= h < 2 ^ 64) by (unfold h, Float128ppc.math_NegZero; destruct s; lia).
    assert (Vh : ieee 52 11 h = VNum s 0) by (unfold h; destruct s; [exact negzero64|exact zero64]).
    assert (H00 : (0 + 0 = 0)%R) by ring. assert (R0 : 0 <= 0 < 2 ^ 64) by lia.
    destruct (c26_partial h 0 s 0 false 0 Hh ltac:(lia) Vh zero64) as (z & z' & Z1 & Z2).
    { rewrite H00. apply rn_0. }
    { exists 0, 0. split; [ring|lia]. }
    { discriminate. }
    destruct (Big_num (mkFloat h 0) s 0 false 0 (conj Hh R0) Vh zero64) as (z0 & t & B1 & _ & _ & _ & B5 & B6 & _).
    unfold Float128ppc.NewFromBits in Z1, Z2. rewrite Z1 in B1. assert (z0 = z) by congruence. subst z0.
    rewrite H00, rnd_prec_0 in B5. destruct B6 as (_ & _ & B6). rewrite (B6 H00) in B5.
    exists h, 0, x, s, 0%R, false, 0%R, z, z'. rewrite Y0, H00, rn_0. split; [exact (zero_of x s W B)|].
    auto 12 using zero64 with zarith.
  - assert (Hy : y <> 0%R) by (apply rnd_prec_nz; [lia|exact V0]).
    assert (Hbits : bits_le 106 y) by (apply rnd_prec_bits; lia).
    assert (G : grid (-1074) y).
    { destruct Hg as [Hv|Hv]; [|apply rnd_grid; [lia|exact Hv]].
      apply (grid_le (mag radix2 y - 106)); [|apply bits_grid; [lia|exact Hbits]].
      assert (-969 < mag radix2 y); [|lia].
      apply (mag_gt_bpow radix2). apply (rnd_prec_ge (rmode x) 106 v (-969)); [lia|exact Hv]. }
    destruct (NewFromBig_num x s v W B V0 Hr) as (h & l & t & HN & Hh & Hl & Vh & Vl & St & _).
    fold y in Vh, Vl, St. rewrite (fits_rn 52 11 _ ltac:(lia) (rem_fits y Hbits G Hr)) in Vl.
    assert (Es : (rn 52 11 y + (y - rn 52 11 y) = y)%R) by ring.
    destruct (c26_partial h l s (rn 52 11 y) t (y - rn 52 11 y)%R Hh Hl Vh Vl) as (z & z' & Z1 & Z2).
    { rewrite Es. reflexivity. }
    { rewrite Es. exact Hbits. }
    { intros ->. rewrite negzero64 in Vl. apply VNum_inj in Vl. destruct Vl as [T E]. destruct St as (_ & _ & St).
      rewrite St in T by congruence. discriminate. }
    unfold Float128ppc.NewFromBits in Z1, Z2.
    destruct (Big_num (mkFloat h l) _ _ _ _ (conj Hh Hl) Vh Vl) as (z0 & t' & B1 & _ & _ & _ & B5 & B6 & _).
    rewrite Z1 in B1. assert (z0 = z) by congruence. subst z0. rewrite Es in B5, B6.
    rewrite (bits_le_rnd _ 106 y ltac:(lia) Hbits) in B5.
    assert (t' = s).
    { destruct B6 as (S1 & S2 & _). destruct (bval_finite x s v W B V0) as (m & e & _ & Hm & _ & Ev).
      assert (Sv : ((v < 0 -> s = true) /\ (0 < v -> s = false))%R).
      { pose proof (val_pos m e Hm) as Hp. rewrite Ev. destruct s; cbn [sgnR]; split; intros; try reflexivity; lra. }
      assert (Sy : ((0 < v -> 0 < y) /\ (v < 0 -> y < 0))%R).
      { pose proof (valid_mode_rnd (rmode x)). assert (Prec_gt_0 106) by (unfold Prec_gt_0; lia).
        split; intros Hv.
        - assert (0 <= y)%R; [|lra]. unfold y. rewrite <- (rnd_prec_0 (rmode x) 106). unfold rnd_prec.
          apply round_le; try typeclasses eauto. lra.
        - assert (y <= 0)%R; [|lra]. unfold y. rewrite <- (rnd_prec_0 (rmode x) 106). unfold rnd_prec.
          apply round_le; try typeclasses eauto. lra. }
      destruct Sv as [Sv1 Sv2]. destruct Sy as [Sy1 Sy2].
      destruct (Rtotal_order v 0) as [L|[L|L]]; [|contradiction|].
      - rewrite S1, Sv1; auto.
      - rewrite S2, Sv2; auto. }
    subst t'. exists h, l, (x106 x), s, (rn 52 11 y), t, (y - rn 52 11 y)%R, z, z'. rewrite Es. auto 12.
Qed.

(** (2^52 + 1) * 2^-1073 + 3 * 2^-1076: the low half is rounded up to half a unit of the high
    half, whose last bit is odd. *)
Lemma c78_ppc_refuted : exists x h l a x' s1 v1 s2 v2 z h' l' a' z', wf x /\
  Float128ppc.NewFromBig x = Ret (mkFloat h l, a, x') /\
  ieee 52 11 h = VNum s1 v1 /\ ieee 52 11 l = VNum s2 v2 /\ rn 52 11 (v1 + v2) <> v1 /\
  Float128ppc.Big (mkFloat h l) = Ret (z, false) /\
  Float128ppc.NewFromBig z = Ret (mkFloat h' l', a', z') /\ h' <> h.
Proof.
  pose (x := BigFloat.mkBF 106 BigFloat.ToNearestEven BigFloat.Exact false (Finite ((2 ^ 52 + 1) * 8 + 3) (-1076))).
  assert (W : wf x).
  { unfold wf, x. cbn [prec frm]. split; [vm_compute; intuition congruence|]. split; [lia|].
    split; [exists ((2 ^ 52 + 1) * 8 + 3), 0; repeat split; try lia; reflexivity|vm_compute; intuition congruence]. }
  pose (h := 0x0020000000000001). pose (l := 1).
  assert (Vh : exists s1 v1, ieee 52 11 h = VNum s1 v1) by (eexists _, _; reflexivity).
  assert (Vl : exists s2 v2, ieee 52 11 l = VNum s2 v2) by (eexists _, _; reflexivity).
  destruct Vh as (s1 & v1 & Vh). destruct Vl as (s2 & v2 & Vl).
  assert (E1 : exists a x', Float128ppc.NewFromBig x = Ret (mkFloat h l, a, x')) by (eexists _, _; vm_compute; reflexivity).
  destruct E1 as (a & x' & E1).
  assert (E2 : exists z a' z', Float128ppc.Big (mkFloat h l) = Ret (z, false) /\
    Float128ppc.NewFromBig z = Ret (mkFloat 0x0020000000000002 0x8000000000000001, a', z')).
  { eexists _, _, _. split; [vm_compute; reflexivity|vm_compute; reflexivity]. }
  destruct E2 as (z & a' & z' & E2 & E3).
  exists x, h, l, a, x', s1, v1, s2, v2, z, 0x0020000000000002, 0x8000000000000001, a', z'.
  split; [exact W|]. split; [exact E1|]. split; [exact Vh|]. split; [exact Vl|]. split; [|split; [exact E2|split; [exact E3|discriminate]]].
  intros Hr.
  destruct (c26_partial h l s1 v1 s2 v2 ltac:(unfold h; lia) ltac:(unfold l; lia) Vh Vl Hr) as (z0 & z1 & Z1 & Z2).
  - exists ((2 ^ 52 + 1) * 2 + 1), (-1074).
    pose proof Vh as Vh'. pose proof Vl as Vl'.
    change h with (enc 52 11 false 2 1) in Vh'. rewrite ieee_enc_norm in Vh' by lia.
    change l with (enc 52 11 false 0 1) in Vl'. rewrite ieee_enc_sub in Vl' by lia.
    apply VNum_inj in Vh', Vl'. destruct Vh' as [_ <-]. destruct Vl' as [_ <-]. cbn [sgnR].
    split; [|lia].
    replace (2 - 2 ^ (11 - 1) + 1 - 52) with (-1073) by reflexivity.
    match goal with |- (IZR ?A * p2 ?c + IZR ?B * p2 ?d = _)%R => replace c with (-1074 + 1) by reflexivity; replace d with (-1074) by reflexivity end.
    rewrite p2_plus. change (p2 1) with 2%R. rewrite !plus_IZR, !mult_IZR, !plus_IZR. ring.
  - discriminate.
  - unfold Float128ppc.NewFromBits in Z1, Z2. rewrite E2 in Z1. assert (z0 = z) by congruence. subst z0.
    rewrite E3 in Z2. apply Ret3_inj in Z2. unfold h in Z2. discriminate.
Qed.

(** 2^-1000 - 2^-1100 gives (2^-1000, -0), which comes back as (2^-1000, +0). *)
Lemma c78_ppc_zero_refuted : exists x h l a x' z h' l' a' z', wf x /\
  Float128ppc.NewFromBig x = Ret (mkFloat h l, a, x') /\ l = Float128ppc.math_NegZero /\
  Float128ppc.Big (mkFloat h l) = Ret (z, false) /\
  Float128ppc.NewFromBig z = Ret (mkFloat h' l', a', z') /\ l' <> l.
Proof.
  exists (BigFloat.mkBF 106 BigFloat.ToNearestEven BigFloat.Exact false (Finite (2 ^ 100 - 1) (-1100))).
  eexists _, _, _, _, _, _, _, _, _.
  split; [|split; [vm_compute; reflexivity|split; [vm_compute; reflexivity|split; [vm_compute; reflexivity|split; [vm_compute; reflexivity|vm_compute; discriminate]]]]].
  unfold wf. cbn [prec frm]. split; [vm_compute; intuition congruence|]. split; [lia|].
  split; [exists (2 ^ 100 - 1), 0; repeat split; try lia; reflexivity|vm_compute; intuition congruence].
Qed.

(** ** Double-doubles in quadruple precision *)
Lemma c79 : forall a b, 0 <= a < 2 ^ 64 -> 0 <= b < 2 ^ 64 ->
  (forall s, ieee 52 11 a <> VNaN s) -> (forall s, ieee 52 11 b <> VNaN s) ->
  (forall s, ieee 52 11 a = VInf s -> ieee 52 11 b = VInf (negb s) -> False) ->
  exists x q y, Float128ppc.Big (Float128ppc.NewFromBits a b) = Ret (x, false) /\
    Binary128.NewFromBig x = Ret (q, BigFloat.Exact) /\ quad (Binary128.fa q) (Binary128.fb q) = bval x /\
    Binary128.Big q = Ret (y, false) /\ bval y = bval x.
Proof.
  intros a b Ha Hb Na Nb Hop.
  assert (X : exists x, Float128ppc.Big (Float128ppc.NewFromBits a b) = Ret (x, false) /\ wf x /\
    ((exists s, bval x = VInf s) \/ (exists s v, bval x = VNum s v /\ fits 112 15 v))).
  { pose proof (Big_inf (Float128ppc.NewFromBits a b) (conj Ha Hb)) as HI. cbn [high low Float128ppc.NewFromBits] in HI.
    specialize (HI Na Nb).
    destruct (ieee 52 11 a) as [s|s|s v] eqn:Ea; [exfalso; eapply Na; reflexivity| |];
    (destruct (ieee 52 11 b) as [t|t|t u] eqn:Eb; [exfalso; eapply Nb; reflexivity| |]).
    - assert (s = t) by (destruct s, t; try reflexivity; exfalso; eapply Hop; reflexivity).
      subst t. rewrite eqb_reflx in HI. destruct HI as (x & H1 & H2 & _ & _ & H5 & _). exists x. eauto.
    - destruct HI as (x & H1 & H2 & _ & _ & H5 & _). exists x. eauto.
    - destruct HI as (x & H1 & H2 & _ & _ & H5 & _). exists x. eauto.
    - clear HI. destruct (Big_num (Float128ppc.NewFromBits a b) s v t u (conj Ha Hb) Ea Eb) as (x & r & H1 & H2 & _ & _ & H5 & _).
      exists x. split; [exact H1|]. split; [exact H2|]. right. exists r, (rnd_prec BigFloat.ToNearestEven 106 (v + u)). split; [exact H5|].
      set (y := rnd_prec BigFloat.ToNearestEven 106 (v + u)).
      destruct (sum_grid a b s v t u Ha Hb Ea Eb) as [K0 HK0].
      assert (G : grid (-1074) y) by (apply rnd_grid; [lia|exists K0; exact HK0]).
      assert (Hbits : bits_le 106 y) by (apply rnd_prec_bits; lia).
      assert (Hub : (Rabs y <= p2 1025)%R).
      { pose proof (fits_ieee 52 11 a s v ltac:(lia) ltac:(lia) Ha Ea) as [[_ Fa] _].
        pose proof (fits_ieee 52 11 b t u ltac:(lia) ltac:(lia) Hb Eb) as [[_ Fb] _].
        change (2 ^ (11 - 1)) with 1024 in Fa, Fb. unfold y, rnd_prec.
        assert (Prec_gt_0 106) by (unfold Prec_gt_0; lia).
        pose proof (valid_mode_rnd BigFloat.ToNearestEven).
        apply abs_round_le_generic; try typeclasses eauto; [apply generic_format_bpow; unfold FLX_exp; lia|].
        pose proof (Rabs_triang v u). replace 1025 with (1024 + 1) by reflexivity. rewrite p2_plus. change (p2 1) with 2%R. lra. }
      split; [|apply Rle_lt_trans with (1 := Hub); apply p2_lt; cbn; lia].
      destruct (Req_dec y 0) as [Y0|Y0]; [exists 0, 0; rewrite Y0, Rmult_0_l; repeat split; try reflexivity; cbn; lia|].
      set (m := mag radix2 y : Z). set (e := Z.max (m - 106) (-1074)).
      assert (Ge : grid e y).
      { unfold e. destruct (Z.max_spec (m - 106) (-1074)) as [[_ ->]|[_ ->]]; [exact G|]. apply bits_grid; [lia|exact Hbits]. }
      destruct Ge as [K HK]. exists K, e. split; [exact HK|]. split; [|unfold e; cbn; lia].
      assert (Hm : (Rabs y < p2 m)%R) by apply bpow_mag_gt.
      assert (Hm2 : (IZR (Z.abs K) < p2 (m - e))%R).
      { apply Rmult_lt_reg_r with (p2 e); [apply p2_pos|]. rewrite <- p2_plus, abs_IZR. replace (m - e + e) with m by lia.
        rewrite HK, Rabs_mult, (Rabs_pos_eq (p2 e)) in Hm by (apply Rlt_le, p2_pos). exact Hm. }
      assert (Hm3 : (IZR (Z.abs K) < p2 106)%R) by (apply Rlt_le_trans with (1 := Hm2); apply p2_le; unfold e; lia).
      unfold p2 in Hm3. rewrite <- IZR_Zpower in Hm3 by lia. apply lt_IZR in Hm3.
      change (radix2 ^ 106) with (2 ^ 106) in Hm3. change (2 ^ (112 + 1)) with (2 ^ 106 * 2 ^ 7). lia. }
  destruct X as (x & HB & W & X).
  assert (Q : exists q, Binary128.NewFromBig x = Ret (q, BigFloat.Exact) /\ Facts128.ok q /\ Facts128.value q = bval x).
  { destruct X as [[s V]|(s & v & V & F)].
    - pose proof (Facts128.NewFromBig_special x) as H1. rewrite V in H1.
      destruct (Facts128.inf_pattern s) as [A1 A2]. rewrite V. eexists. eauto.
    - rewrite V. apply Facts128.NewFromBig_fits; assumption. }
  destruct Q as (q & Q1 & Q2 & Q3).
  destruct (Facts128.Big_correct q Q2) as (y & nan & HY & _ & Hv). rewrite Q3 in Hv.
  assert (V' : nan = false /\ bval y = bval x).
  { destruct X as [[s V]|(s & v & V & F)]; rewrite V in *; exact Hv. }
  destruct V' as [-> V']. exists x, q, y. auto.
Qed.
