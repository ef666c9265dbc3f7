(** The exact sets behind C78: which results of NewFromBig come back through Big. *)
From Coq Require Import ZArith Reals Lia Lra Bool List.
From Flocq Require Import Core.
From Verif Require Import GoBase.
From Verif Require BigFloat Float80x86 Float128ppc.
From Verif Require Import Spec BitFacts RoundFacts IeeeFacts BigFacts BigFacts2 BigFacts3 PkgFacts FactsPpc ClaimsPpc ClaimsPpc2 ClaimsTrip.
From Verif Require Facts80 AllBig.
Import BigFloat (prec, rmode, acc, neg, frm, Finite, MaxExp, MinExp, MaxPrec).
Import Float128ppc (Float, mkFloat, high, low).
Open Scope Z_scope.

Lemma c78_80_exactly : forall x s v k, wf x -> bval x = VNum s v -> (p2 k <= Rabs v < p2 (k + 1))%R ->
  exists f a, Float80x86.NewFromBig x = (f, a) /\
  ((exists y c, Float80x86.Big f = Ret (y, false) /\ Float80x86.NewFromBig y = (f, c)) <->
   k < 16384 \/ ((k + 16383) mod 2 ^ 15 <> 0 /\
     ((k + 16383) mod 2 ^ 15 = 2 ^ 15 - 1 -> (Rabs v < p2 k + p2 (k - 63))%R))).
Proof.
  intros x s v k W B K.
  destruct (Z_lt_le_dec k 16384) as [Hk|Hk].
  - destruct (c78_80 x W) as (f & a & y & E & HB & HN).
    { rewrite B. apply Rlt_le_trans with (1 := proj2 K). apply p2_le. lia. }
    exists f, a. split; [exact E|]. split; [intros _; left; exact Hk|]. intros _. exists y, BigFloat.Exact. auto.
  - destruct (AllBig.c21_all x s v k W B K) as (se & m & a & E & N1 & _ & _).
    destruct (N1 ltac:(lia)) as (Ese & Em & _). clear N1.
    pose proof (floor_range v k (63 - k) K ltac:(lia)) as R.
    replace (k + (63 - k)) with 63 in R by lia. replace (k + 1 + (63 - k)) with 64 in R by lia. rewrite <- Em in R.
    set (E' := (k + 16383) mod 2 ^ 15) in *. assert (HE : 0 <= E' < 2 ^ 15) by (apply Z.mod_pos_bound; lia).
    assert (ES : (if s then 2 ^ 15 else 0) = Z.b2z s * 2 ^ 15) by (destruct s; reflexivity).
    rewrite ES in Ese. exists (Facts80.mk s E' m), a.
    split; [rewrite E, Ese; reflexivity|].
    assert (O : Facts80.ok (Facts80.mk s E' m)) by (apply Facts80.mk_ok; lia).
    assert (SE : Float80x86.se (Facts80.mk s E' m) mod 2 ^ 15 = E') by (apply (Facts80.mk_parts s E' m HE)).
    assert (Hm : (Rabs v < p2 k + p2 (k - 63))%R <-> m = 2 ^ 63).
    { assert (Q : forall n, (IZR n <= Rabs v * p2 (63 - k))%R <-> n <= m).
      { intros n. rewrite Em. split; [intros H; apply Zfloor_lub; exact H|]. intros H.
        apply Rle_trans with (2 := Zfloor_lb _). apply IZR_le. exact H. }
      specialize (Q (2 ^ 63 + 1)).
      assert (X : (IZR (2 ^ 63 + 1) * p2 (k - 63) = p2 k + p2 (k - 63))%R).
      { rewrite plus_IZR, (IZR_pow2 63) by lia. rewrite Rmult_plus_distr_r, <- p2_plus. replace (63 + (k - 63)) with k by lia. ring. }
      assert (Y : (p2 (63 - k) * p2 (k - 63) = 1)%R) by (rewrite <- p2_plus; replace (63 - k + (k - 63)) with 0 by lia; reflexivity).
      pose proof (p2_pos (k - 63)). pose proof (p2_pos (63 - k)).
      assert (Z1 : (IZR (2 ^ 63 + 1) <= Rabs v * p2 (63 - k))%R <-> (p2 k + p2 (k - 63) <= Rabs v)%R).
      { rewrite <- X. split; intros Hx.
        - apply Rmult_le_compat_r with (r := p2 (k - 63)) in Hx; [|lra]. rewrite Rmult_assoc, Y in Hx. lra.
        - apply Rmult_le_reg_r with (p2 (k - 63)); [assumption|]. rewrite (Rmult_assoc _ _ (p2 (k - 63))), Y. lra. }
      rewrite Z1 in Q. split; intros Hx.
      - destruct (Z_le_gt_dec (2 ^ 63 + 1) m) as [L|L]; [|lia]. apply Q in L. lra.
      - apply Rnot_le_lt. intros L. apply Q in L. lia. }
    rewrite Hm. clear Hm.
    split.
    + intros (y & c & HB & HN). right.
      assert (Nn : forall t, Facts80.value (Facts80.mk s E' m) <> VNaN t).
      { intros t V. destruct (Facts80.Big_correct _ O) as (y' & nan & HB' & _ & Hv). rewrite V in Hv.
        rewrite HB in HB'. assert (nan = false) by congruence. subst nan. destruct Hv as [Hv _]. discriminate Hv. }
      destruct (Facts80.roundtrip _ O Nn) as (y' & g & HB' & HN' & _ & C & _ & _).
      rewrite HB in HB'. assert (y' = y) by congruence. subst y'. rewrite HN in HN'.
      assert (g = Facts80.mk s E' m) by congruence. subst g. unfold Facts80.canon in C. rewrite SE in C.
      unfold Facts80.mk in C. cbn [Float80x86.m] in C. lia.
    + intros [Hk'|[H1 H2]]; [lia|].
      assert (C : Facts80.canon (Facts80.mk s E' m)).
      { unfold Facts80.canon. rewrite SE. unfold Facts80.mk; cbn [Float80x86.m]. lia. }
      assert (Nn : forall t, Facts80.value (Facts80.mk s E' m) <> VNaN t).
      { intros t. rewrite Facts80.value_mk by exact HE. destruct (Z.eqb_spec E' 32767) as [Q|Q]; [|discriminate].
        rewrite (H2 Q), Z.eqb_refl. discriminate. }
      destruct (Facts80.roundtrip _ O Nn) as (y' & g & HB' & HN' & _ & _ & _ & I).
      rewrite (I C) in HN'. exists y', BigFloat.Exact. auto.
Qed.

(** A sum of two float64s below 2^-968 has at most 106 bits. *)
Lemma small_bits z : grid (-1074) z -> (Rabs z < p2 (-968))%R -> bits_le 106 z.
Proof.
  intros [K HK] Hz. exists K, (-1074). split; [exact HK|].
  assert (H : (IZR (Z.abs K) < p2 106)%R).
  { rewrite HK, Rabs_mult, (Rabs_pos_eq (p2 _)), <- abs_IZR in Hz by (apply Rlt_le, p2_pos).
    apply Rmult_lt_reg_r with (p2 (-1074)); [apply p2_pos|]. rewrite <- p2_plus. exact Hz. }
  unfold p2 in H. rewrite <- IZR_Zpower in H by lia. apply lt_IZR in H. exact H.
Qed.

(** Exactly the numbers up to half the least float64 round to 0. *)
Lemma rn_zero_iff d : rn 52 11 d = 0%R <-> (Rabs d <= p2 (-1075))%R.
Proof.
  assert (P : Prec_gt_0 53) by (unfold Prec_gt_0; lia).
  assert (Habs : Rabs (rn 52 11 d) = rn 52 11 (Rabs d)) by (unfold rn; symmetry; apply round_NE_abs; typeclasses eauto).
  assert (Z0 : rn 52 11 (p2 (-1075)) = 0%R).
  { replace (p2 (-1075)) with (sgnR false (IZR 1 * p2 (-1075))) by (cbn [sgnR]; ring).
    apply rn_small; try lia. right. split; reflexivity. }
  split; intros H.
  - rewrite H, Rabs_R0 in Habs. symmetry in Habs.
    apply Rnot_lt_le. intros L. pose proof (p2_pos (-1075)) as U. set (a := Rabs d) in *.
    assert (F : generic_format radix2 (FLT_exp (-1074) 53) (p2 (-1074))).
    { apply generic_format_bpow. unfold FLT_exp. lia. }
    pose proof (round_N_pt radix2 (FLT_exp (-1074) 53) (fun x => negb (Z.even x)) a) as [_ N].
    specialize (N _ F). change (round radix2 (FLT_exp (-1074) 53) (Znearest (fun x => negb (Z.even x))) a) with (rn 52 11 a) in N.
    rewrite Habs in N. replace (-1074) with (-1075 + 1) in N by reflexivity. rewrite p2_plus in N. change (p2 1) with 2%R in N.
    rewrite Rminus_0_l, Rabs_Ropp, (Rabs_pos_eq a) in N by lra. revert N. unfold Rabs. destruct Rcase_abs; lra.
  - apply Rabs_eq_R0. rewrite Habs. apply Rle_antisym.
    + rewrite <- Z0. apply round_le; try typeclasses eauto. exact H.
    + rewrite <- (rn_0 52 11). apply round_le; try typeclasses eauto. apply Rabs_pos.
Qed.

Lemma c78_ppc_exactly : forall x s v, wf x -> bval x = VNum s v -> v <> 0%R ->
  let y := rnd_prec (rmode x) 106 v in
  let h := rn 52 11 y in
  (Rabs h < p2 1024)%R ->
  exists f x', Float128ppc.NewFromBig x = Ret (f, BigFloat.Exact, x') /\
  ((exists z c z', Float128ppc.Big f = Ret (z, false) /\ Float128ppc.NewFromBig z = Ret (f, c, z')) <->
   rn 52 11 (h + rn 52 11 (y - h)) = h /\ ~ (- p2 (-1075) <= y - h < 0)%R).
Proof.
  intros x s v W B V0 y h Hr.
  destruct (NewFromBig_num x s v W B V0 Hr) as (a & l & t & HN & Ha & Hl & Vh & Vl & St & _).
  fold y h in Vh, Vl, St. exists (mkFloat a l), (x106 x). split; [exact HN|].
  pose proof (c26_exactly a l s h t _ Ha Hl Vh Vl) as X. unfold Float128ppc.NewFromBits in X. rewrite X. clear X.
  assert (Hb : exists K c, (h + rn 52 11 (y - h) = IZR K * p2 c)%R /\ Z.abs K < 2 ^ 106).
  { change (bits_le 106 (h + rn 52 11 (y - h))%R).
    assert (Hbits : bits_le 106 y) by (apply rnd_prec_bits; lia).
    destruct (Rle_or_lt (p2 (-969)) (Rabs v)) as [Hv|Hv].
    - assert (G : grid (-1074) y).
      { apply (grid_le (mag radix2 y - 106)); [|apply bits_grid; [lia|exact Hbits]].
        assert (-969 < mag radix2 y); [|lia].
        apply (mag_gt_bpow radix2). apply (rnd_prec_ge (rmode x) 106 v (-969)); [lia|exact Hv]. }
      rewrite (fits_rn 52 11 (y - h) ltac:(lia) (rem_fits y Hbits G Hr)). replace (h + (y - h))%R with y by ring. exact Hbits.
    - destruct (sum_grid a l s h t _ Ha Hl Vh Vl) as [K HK]. apply small_bits; [exists K; exact HK|].
      assert (P : Prec_gt_0 53) by (unfold Prec_gt_0; lia).
      assert (P6 : Prec_gt_0 106) by (unfold Prec_gt_0; lia).
      assert (Hy : (Rabs y <= p2 (-969))%R).
      { pose proof (valid_mode_rnd (rmode x)). unfold y, rnd_prec.
        apply abs_round_le_generic; try typeclasses eauto; [apply generic_format_bpow; unfold FLX_exp; lia|lra]. }
      assert (Hy0 : y <> 0%R) by (apply rnd_prec_nz; [lia|exact V0]).
      assert (Hd : (Rabs (y - h) <= p2 (-1022))%R).
      { pose proof (error_le_half_ulp radix2 (FLT_exp (-1074) 53) (fun x => negb (Z.even x)) y) as H0.
        change (round radix2 (FLT_exp (-1074) 53) (Znearest (fun x => negb (Z.even x))) y) with h in H0.
        rewrite Rabs_minus_sym in H0. apply Rle_trans with (1 := H0).
        rewrite ulp_neq_0 by exact Hy0. unfold cexp.
        assert (Hm : mag radix2 y <= -968).
        { apply mag_le_bpow; [exact Hy0|]. apply Rle_lt_trans with (1 := Hy). apply (p2_lt (-969) (-968)). lia. }
        replace (/ 2)%R with (p2 (-1)) by reflexivity. fold (p2 (FLT_exp (-1074) 53 (mag radix2 y))).
        rewrite <- p2_plus. apply p2_le. unfold FLT_exp. lia. }
      assert (Hh : (Rabs h <= p2 (-969))%R).
      { unfold h, rn. apply abs_round_le_generic; try typeclasses eauto; [apply generic_format_bpow; unfold FLT_exp; lia|exact Hy]. }
      assert (Hl' : (Rabs (rn 52 11 (y - h)) <= p2 (-1022))%R).
      { unfold rn. apply abs_round_le_generic; try typeclasses eauto; [apply generic_format_bpow; unfold FLT_exp; lia|exact Hd]. }
      pose proof (Rabs_triang h (rn 52 11 (y - h))). pose proof (p2_lt (-1022) (-969) ltac:(lia)).
      replace (p2 (-968)) with (2 * p2 (-969))%R by (replace (-968) with (-969 + 1) by reflexivity; rewrite p2_plus; change (p2 1) with 2%R; ring).
      lra. }
  assert (Hz : l <> Float128ppc.math_NegZero <-> ~ (- p2 (-1075) <= y - h < 0)%R).
  { split.
    - intros Nl [D1 D2]. apply Nl.
      assert (R0 : rn 52 11 (y - h) = 0%R) by (apply rn_zero_iff; rewrite Rabs_left1; lra).
      rewrite R0 in Vl. destruct St as (St & _). rewrite (St D2) in Vl.
      apply (ieee_inj 52 11); try lia; [unfold Float128ppc.math_NegZero; lia|rewrite Vl, negzero64; reflexivity|].
      intros u. rewrite Vl. discriminate.
    - intros D ->. apply D. rewrite negzero64 in Vl. apply VNum_inj in Vl. destruct Vl as [Et R0].
      symmetry in R0. apply rn_zero_iff in R0. destruct St as (_ & S2 & S3).
      assert (D2 : (y - h < 0)%R).
      { destruct (Rtotal_order (y - h) 0) as [|[E|E]]; [assumption|rewrite S3 in Et by exact E; discriminate|rewrite S2 in Et by exact E; discriminate]. }
      rewrite Rabs_left1 in R0 by lra. lra. }
  rewrite Hz. tauto.
Qed.
