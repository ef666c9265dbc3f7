(** The lemmas behind the theorems about extfloat.go. *)
From Coq Require Import ZArith Reals List Bool Lia Lra.
From Flocq Require Import Core.
From Verif Require Import GoBase Spec SpecText BitFacts RoundFacts SpecDec SpecFtoa.
From Verif Require Import BigFloat ExtFloat.
From Verif Require Import DecFacts DecFacts2 ExtFacts ExtFixed ExtShort FloatMid ExtBounds ExtAssign.
Import ListNotations.
Open Scope Z_scope.

Lemma format_ok flt mb eb : format_of flt mb eb -> flt_ok flt /\ mb = mantbits flt /\ eb = expbits flt.
Proof. unfold flt_ok. intros [(-> & -> & ->)|[(-> & -> & ->)|(-> & -> & ->)]]; cbn; auto. Qed.

Lemma half_ulp_tie : (IZR 298023223876953125 * p10 (-25) = p2 (-25))%R.
Proof.
  apply Rmult_eq_reg_r with (p10 25 * p2 25)%R; [|apply Rgt_not_eq, Rmult_lt_0_compat; [apply p10_pos|apply p2_pos]].
  replace (IZR 298023223876953125 * p10 (-25) * (p10 25 * p2 25))%R with (IZR 298023223876953125 * p2 25 * (p10 (-25) * p10 25))%R by ring.
  replace (p2 (-25) * (p10 25 * p2 25))%R with (p10 25 * (p2 (-25) * p2 25))%R by ring.
  rewrite <- p10_plus, <- p2_plus. change (p10 (-25 + 25)) with 1%R. change (p2 (-25 + 25)) with 1%R.
  rewrite <- (IZR_p10 25), <- (IZR_pow2 25), <- mult_IZR, !Rmult_1_r by lia. f_equal.
Qed.

Lemma c44 : length powersOfTen = 87%nat /\ length smallPowersOfTen = 8%nat /\ length uint64pow10 = 20%nat /\
  (forall i p, nth_error powersOfTen i = Some p ->
     2 ^ 63 <= mant p < 2 ^ 64 /\
     (Rabs (ext_val p - p10 (-348 + 8 * Z.of_nat i)) <= p2 (exp p) / 2)%R) /\
  (forall i p, nth_error smallPowersOfTen i = Some p ->
     2 ^ 63 <= mant p < 2 ^ 64 /\ ext_val p = p10 (Z.of_nat i)) /\
  (forall i p, nth_error uint64pow10 i = Some p -> p = 10 ^ Z.of_nat i).
Proof.
  split; [reflexivity|]. split; [reflexivity|]. split; [reflexivity|]. split; [|split].
  - intros i p H. rewrite <- p2_half. apply powersOfTen_ok, H.
  - exact smallPowersOfTen_ok.
  - exact uint64pow10_nth.
Qed.

Lemma c45m : forall f g, 0 <= mant f < 2 ^ 64 -> 0 <= mant g < 2 ^ 64 ->
  (Rabs (IZR (mant (Multiply f g)) - IZR (mant f * mant g) * p2 (-64)) <= / 2)%R /\
  0 <= mant (Multiply f g) < 2 ^ 64 /\
  exp (Multiply f g) = exp f + exp g + 64 /\ neg (Multiply f g) = neg f.
Proof.
  intros f g Hf Hg. destruct (Multiply_mant f g Hf Hg) as (Em & Ee & En). pose proof (Multiply_range f g Hf Hg) as R.
  split; [|split; [lia|split; assumption]].
  pose proof (Z.div_mod (mant f * mant g + 2 ^ 63) (2 ^ 64) ltac:(lia)) as E1. pose proof (Z.mod_pos_bound (mant f * mant g + 2 ^ 63) (2 ^ 64) ltac:(lia)) as R1.
  rewrite <- Em in E1. set (r := (mant f * mant g + 2 ^ 63) mod 2 ^ 64) in *.
  replace (mant f * mant g) with (mant (Multiply f g) * 2 ^ 64 - (2 ^ 63 - r)) by lia.
  rewrite minus_IZR, mult_IZR, IZR_pow2 by lia. rewrite Rmult_minus_distr_r, Rmult_assoc, <- p2_plus. change (p2 (64 + -64)) with 1%R.
  replace (IZR (mant (Multiply f g)) - (IZR (mant (Multiply f g)) * 1 - IZR (2 ^ 63 - r) * p2 (-64)))%R with (IZR (2 ^ 63 - r) * p2 (-64))%R by ring.
  rewrite Rabs_mult, (Rabs_pos_eq (p2 (-64))) by (apply Rlt_le, p2_pos).
  apply Rle_trans with (IZR (2 ^ 63) * p2 (-64))%R.
  - apply Rmult_le_compat_r; [apply Rlt_le, p2_pos|]. rewrite <- abs_IZR. apply IZR_le. lia.
  - rewrite IZR_pow2, <- p2_plus by lia. change (p2 (63 + -64)) with (/ 2)%R. lra.
Qed.

Lemma c45n : forall f g s, 0 < mant f < 2 ^ 64 -> Normalize f = (g, s) ->
  ext_val g = ext_val f /\ 2 ^ 63 <= mant g < 2 ^ 64 /\ neg g = neg f /\
  exp g = exp f - s /\ mant g = mant f * 2 ^ s /\ 0 <= s <= 63.
Proof.
  intros f g s Hf HN. destruct (Normalize_ok f Hf) as (N1 & N2 & N3 & N4 & N5 & N6 & N7). rewrite HN in *. cbn [fst snd] in *.
  rewrite N5. split; [exact N2|]. split; [exact N1|]. split; [exact N3|]. split; [exact N4|]. split; [exact N6|]. lia.
Qed.

Lemma c46 : forall flt mb eb mt e ng, format_of flt mb eb -> float_parts mb eb mt e -> 0 < mt ->
  let v := (IZR mt * p2 (e - mb))%R in
  (forall n, v = IZR n -> 2 ^ (mb + 1) <= n) ->
  exists f lower upper, AssignComputeBounds mt e ng flt = (f, lower, upper) /\
    ext_val f = v /\ ext_val lower = mid_lo mb eb v /\ ext_val upper = mid_hi mb eb v /\ neg f = ng.
Proof.
  intros flt mb eb mt e ng HF Hp Hmt v Hn. destruct (format_ok _ _ _ HF) as (Hf & -> & ->).
  destruct (bounds_ok flt mt e ng Hf Hp Hmt) as [(n & H1 & H2 & H3 & H4)|(lower & H1 & H2 & H3 & H4 & H5)].
  - exfalso. specialize (Hn n H3). destruct (flt_facts flt Hf) as (F1 & F2 & _).
    pose proof (parts_lt (mantbits flt) (expbits flt) ltac:(lia) ltac:(lia) mt e (parts_weaken _ _ _ _ Hp) Hmt) as L.
    assert (n <= mt); [|lia]. apply le_IZR. rewrite <- H3. rewrite <- (Rmult_1_r (IZR mt)) at 2. apply Rmult_le_compat_l; [apply IZR_le; lia|].
    change 1%R with (p2 0). apply p2_le. lia.
  - eexists _, lower, _. split; [exact H2|]. split; [reflexivity|]. split; [exact H4|]. split; [exact H5|reflexivity].
Qed.

Lemma c46i : forall flt mb eb mt e ng n, format_of flt mb eb -> float_parts mb eb mt e -> 0 < mt ->
  (IZR mt * p2 (e - mb))%R = IZR n -> n < 2 ^ (mb + 1) ->
  AssignComputeBounds mt e ng flt = (mkExt n 0 ng, mkExt n 0 ng, mkExt n 0 ng).
Proof.
  intros flt mb eb mt e ng n HF Hp Hmt Hv Hn. destruct (format_ok _ _ _ HF) as (Hf & -> & ->). destruct (flt_facts flt Hf) as (F1 & F2 & F3 & F4).
  pose proof (mt_53 flt mt e Hf Hp) as M53.
  pose proof (pow2_pos (mantbits flt) ltac:(lia)) as Pmb.
  assert (HX : e - mantbits flt <= 0).
  { destruct (Z_le_gt_dec (e - mantbits flt) 0) as [|G]; [assumption|]. exfalso.
    assert (2 ^ (mantbits flt + 1) <= n); [|lia]. apply le_IZR. rewrite <- Hv, IZR_pow2 by lia. rewrite p2_plus.
    destruct Hp as [[P1 P2]|[P1 P2]]; [|lia]. apply Rmult_le_compat; try (apply Rlt_le, p2_pos); [rewrite <- IZR_pow2 by lia; apply IZR_le; lia|apply p2_le; lia]. }
  assert (E : mt = n * 2 ^ (- (e - mantbits flt))).
  { apply eq_IZR. rewrite mult_IZR, <- Hv, IZR_pow2 by lia. rewrite Rmult_assoc, <- p2_plus. replace (e - mantbits flt + - (e - mantbits flt)) with 0 by lia. change (p2 0) with 1%R. ring. }
  unfold AssignComputeBounds. cbn [exp mant]. destruct (Z.leb_spec (e - mantbits flt) 0) as [_|]; [|lia]. cbn [andb].
  pose proof (pow2_pos (- (e - mantbits flt)) ltac:(lia)) as PP.
  assert (ES : Z.shiftr mt (- (e - mantbits flt)) = n) by (rewrite Z.shiftr_div_pow2 by lia; rewrite E at 1; apply Z.div_mul; lia).
  rewrite ES, Z.shiftl_mul_pow2 by lia. rewrite <- E. unfold u64. rewrite Z.mod_small, Z.eqb_refl by lia. reflexivity.
Qed.

Lemma c47 : forall f, 2 ^ 63 <= mant f < 2 ^ 64 -> -1140 <= exp f <= 965 ->
  exists i p, nth_error powersOfTen (Z.to_nat i) = Some p /\ 0 <= i < 87 /\
    frexp10 f = Ret (Multiply f p, 348 - 8 * i, i) /\ -60 <= exp (Multiply f p) <= -32 /\
    (Rabs (IZR (mant (Multiply f p)) - ext_val f * p10 (-348 + 8 * i) * p2 (- exp (Multiply f p))) < 1)%R.
Proof.
  intros f Hm He. destruct (frexp10_ok f Hm He) as (i & p & H1 & H2 & H3 & H4 & H5). exists i, p.
  split; [exact H3|]. split; [exact H1|]. split; [exact H4|]. split; [exact H5|].
  destruct (powersOfTen_ok _ _ H3) as [P1 P2]. rewrite Z2Nat.id in P2 by lia. apply scale_error; [lia|exact P1|exact P2].
Qed.

Lemma c47r : forall flt mb eb mt e ng, format_of flt mb eb -> float_parts mb eb mt e -> 0 < mt ->
  forall g, g = mkExt mt (e - mb) ng \/ g = mkExt (2 * mt + 1) (e - mb - 1) ng ->
  -1140 <= exp (fst (Normalize g)) <= 965 /\ 2 ^ 63 <= mant (fst (Normalize g)) < 2 ^ 64.
Proof.
  intros flt mb eb mt e ng HF Hp Hmt g Hg. destruct (format_ok _ _ _ HF) as (Hf & -> & ->). destruct (flt_facts flt Hf) as (F1 & F2 & F3 & F4).
  pose proof (mt_53 flt mt e Hf Hp) as M53.
  pose proof (parts_lt (mantbits flt) (expbits flt) ltac:(lia) ltac:(lia) mt e (parts_weaken _ _ _ _ Hp) Hmt) as L.
  assert (He : 2 - 2 ^ (expbits flt - 1) <= e <= 2 ^ (expbits flt - 1) - 1) by (destruct Hp as [[_ ?]|[_ ?]]; lia).
  assert (P2 : 2 ^ (mantbits flt + 2) = 2 * 2 ^ (mantbits flt + 1)) by (rewrite <- Z.pow_succ_r by lia; f_equal; lia).
  assert (HM : 0 < mant g < 2 ^ 64 /\ mant g < 2 ^ (mantbits flt + 2) /\ (exp g = e - mantbits flt /\ mant g < 2 ^ (mantbits flt + 1) \/ exp g = e - mantbits flt - 1)).
  { destruct Hg as [->| ->]; cbn [mant exp]; lia. }
  destruct HM as (G1 & G2 & G3). destruct (Normalize_ok g G1) as (N1 & _ & _ & N4 & _ & _ & N7). split; [|exact N1]. rewrite N4.
  assert (B : bitlen (mant g) <= mantbits flt + 2) by (apply bitlen_le_lt; lia).
  destruct G3 as [[G3 G4]|G3]; rewrite G3; [|lia].
  assert (B1 : bitlen (mant g) <= mantbits flt + 1) by (apply bitlen_le_lt; lia). lia.
Qed.

Lemma c48 : forall flt mb eb mt e ng n s, format_of flt mb eb -> float_parts mb eb mt e -> 0 < mt ->
  1 <= n <= 15 -> 15 <= scap s ->
  exists s' ok, FixedDecimal (mkExt mt (e - mb) ng) s n = Ret (s', ok) /\
    (ok = true -> digs_norm (sd s') /\ Z.of_nat (length (sd s')) <= n /\
       lval (sd s') (sdp s') = sig_round n (IZR mt * p2 (e - mb))).
Proof.
  intros flt mb eb mt e ng n s HF Hp Hmt Hn Hs. destruct (format_ok _ _ _ HF) as (Hf & -> & ->). destruct (flt_facts flt Hf) as (F1 & F2 & F3 & F4).
  pose proof (mt_53 flt mt e Hf Hp) as M53.
  pose proof (parts_lt (mantbits flt) (expbits flt) ltac:(lia) ltac:(lia) mt e (parts_weaken _ _ _ _ Hp) Hmt) as L.
  assert (He : 2 - 2 ^ (expbits flt - 1) <= e <= 2 ^ (expbits flt - 1) - 1) by (destruct Hp as [[_ ?]|[_ ?]]; lia).
  assert (B : bitlen mt <= mantbits flt + 1) by (apply bitlen_le_lt; lia). pose proof (bitlen_pos mt Hmt).
  destruct (FixedDecimal_ok (mkExt mt (e - mantbits flt) ng) s n) as (s' & ok & H1 & _ & _ & H2); [cbn [mant]; lia|cbn [mant exp]; lia|exact Hn|exact Hs|].
  exists s', ok. split; [exact H1|exact H2].
Qed.

Lemma c49 : forall flt mb eb mt e ng s, format_of flt mb eb -> float_parts mb eb mt e -> 0 < mt -> 32 <= scap s ->
  let v := (IZR mt * p2 (e - mb))%R in
  exists f lower upper s' ok, AssignComputeBounds mt e ng flt = (f, lower, upper) /\
    ShortestDecimal f s lower upper = Ret (s', ok) /\
    (ok = true -> shortest_between (mid_lo mb eb v) (mid_hi mb eb v) (sd s') (sdp s') /\
       rn mb eb (lval (sd s') (sdp s')) = v /\
       (Rabs (lval (sd s') (sdp s') - v) < / 2 * p10 (sdp s' - Z.of_nat (length (sd s'))))%R).
Proof.
  intros flt mb eb mt e ng s HF Hp Hmt Hs v. destruct (format_ok _ _ _ HF) as (Hf & -> & ->). destruct (flt_facts flt Hf) as (F1 & F2 & F3 & F4).
  destruct (ShortestDecimal_all flt mt e ng Hf Hp Hmt s Hs) as (s' & ok & H1 & H2).
  destruct (AssignComputeBounds mt e ng flt) as [[f lower] upper]. exists f, lower, upper, s', ok. split; [reflexivity|]. split; [exact H1|].
  intros Hok. destruct (H2 Hok) as [H3 H4]. split; [exact H3|]. split; [|exact H4]. clear H2 H4. destruct H3 as (_ & H2 & _).
  apply (reads_back (mantbits flt) (expbits flt) ltac:(lia) ltac:(lia) mt e (parts_weaken _ _ _ _ Hp) Hmt); [|left; exact H2]. fold v in H2 |- *. lra.
Qed.

Lemma c50r : exists flt mb eb m e10 f, format_of flt mb eb /\ 0 < m < 2 ^ 64 /\
  AssignDecimal m e10 false false flt = Ret (f, true) /\
  ieee mb eb (fst (floatBits f flt)) <> ieee_round mb eb false (IZR m * p10 e10).
Proof.
  exists float32info, 23, 8, 7006492321624085354, (-64). eexists. split; [right; left; auto|]. split; [lia|].
  split; [vm_compute; reflexivity|].
  replace (ieee_round 23 8 false (IZR 7006492321624085354 * p10 (-64))) with (VNum false 0).
  - match goal with |- ieee _ _ ?b <> _ => replace b with 1 by (vm_compute; reflexivity) end.
    unfold ieee. cbn -[IZR p2]. intros E. injection E as E. rewrite Rmult_1_l in E. change (p2 (-149)) with (p2 (-149)) in E.
    pose proof (p2_pos (1 - 127 - 23)). lra.
  - unfold ieee_round. rewrite rn_small; [|lia|lia|].
    + rewrite Rabs_R0, Rle_bool_false by apply p2_pos. reflexivity.
    + split; [apply Rmult_lt_0_compat; [apply IZR_lt; lia|apply p10_pos]|].
      change (1 - 2 ^ (8 - 1) - 23) with (-150).
      apply Rmult_lt_reg_r with (p10 64 * p2 150)%R; [apply Rmult_lt_0_compat; [apply p10_pos|apply p2_pos]|].
      replace (IZR 7006492321624085354 * p10 (-64) * (p10 64 * p2 150))%R with (IZR 7006492321624085354 * p2 150 * (p10 (-64) * p10 64))%R by ring.
      replace (p2 (-150) * (p10 64 * p2 150))%R with (p10 64 * (p2 (-150) * p2 150))%R by ring.
      rewrite <- p10_plus, <- p2_plus. change (p10 (-64 + 64)) with 1%R. change (p2 (-150 + 150)) with 1%R.
      rewrite <- (IZR_p10 64), <- (IZR_pow2 150), <- mult_IZR, !Rmult_1_r by lia. apply IZR_lt. vm_compute. reflexivity.
Qed.

Lemma c50t : exists m e10 f, 0 < m < 2 ^ 64 /\
  AssignDecimal m e10 false false float16info = Ret (f, true) /\
  ieee 10 5 (fst (floatBits f float16info)) <> ieee_round 10 5 false (IZR m * p10 e10).
Proof.
  exists 298023223876953125, (-25). eexists. split; [lia|]. split; [vm_compute; reflexivity|].
  replace (ieee_round 10 5 false (IZR 298023223876953125 * p10 (-25))) with (VNum false 0).
  - match goal with |- ieee _ _ ?b <> _ => replace b with 1 by (vm_compute; reflexivity) end.
    unfold ieee. cbn -[IZR p2]. intros E. injection E as E. rewrite Rmult_1_l in E.
    pose proof (p2_pos (1 - 15 - 10)). lra.
  - unfold ieee_round. rewrite half_ulp_tie. pose proof (p2_pos (-25)). 
    replace (rn 10 5 (p2 (-25))) with 0%R; [rewrite Rabs_R0, Rle_bool_false by apply p2_pos; reflexivity|].
    replace 0%R with (IZR 0 * p2 (-24))%R by ring. symmetry. apply round_parts.
    + unfold cexp, fx, FLT_exp. change (p2 (-25)) with (bpow radix2 (-25)). rewrite mag_bpow. reflexivity.
    + rewrite Rmult_0_l, Rminus_0_r, Rabs_pos_eq by lra. change (-24 - 1) with (-25). lra.
    + right. reflexivity.
Qed.

Lemma c50z : exists e10 f, AssignDecimal 0 e10 false false float64info = Ret (f, true) /\
  ieee 52 11 (fst (floatBits f float64info)) = VInf false.
Proof.
  exists 340. eexists. split; [vm_compute; reflexivity|]. match goal with |- ieee _ _ ?b = _ => replace b with 9218868437227405312 by (vm_compute; reflexivity) end.
  reflexivity.
Qed.

(** Whatever AssignDecimal accepts is right, or just at or below half the least float and becomes
    the least float. *)
Lemma c50_all : forall flt mb eb m e10 ng tr f, format_of flt mb eb -> 0 < m < 2 ^ 64 ->
  AssignDecimal m e10 ng tr flt = Ret (f, true) ->
  ieee mb eb (fst (floatBits f flt)) = ieee_round mb eb ng (sgnR ng (IZR m * p10 e10)) \/
  let half_least := p2 (1 - 2 ^ (eb - 1) - mb) in
  (half_least * (1 - p2 (-56)) < IZR m * p10 e10 <= half_least)%R /\
  ieee mb eb (fst (floatBits f flt)) = VNum ng (sgnR ng (2 * half_least)).
Proof.
  intros flt mb eb m e10 ng tr f HF Hm HA. destruct (format_ok _ _ _ HF) as (Hf & -> & ->).
  apply (AssignDecimal_round m e10 ng tr flt f (IZR m)); try assumption. left. reflexivity.
Qed.

Lemma c50p : forall flt mb eb m e10 ng tr f, format_of flt mb eb -> 0 < m < 2 ^ 64 ->
  let half_least := p2 (1 - 2 ^ (eb - 1) - mb) in
  (IZR m * p10 e10 <= half_least * (1 - p2 (-56)) \/ half_least < IZR m * p10 e10)%R ->
  AssignDecimal m e10 ng tr flt = Ret (f, true) ->
  ieee mb eb (fst (floatBits f flt)) = ieee_round mb eb ng (sgnR ng (IZR m * p10 e10)).
Proof.
  intros flt mb eb m e10 ng tr f HF Hm hl Hfar HA.
  destruct (c50_all flt mb eb m e10 ng tr f HF Hm HA) as [R|[R _]]; [exact R|]. fold hl in R. lra.
Qed.

(** The number 0: refused, zero or an infinity, by the exponent alone. *)
Definition zero_ok (flt : floatInfo) (lo hi e10 : Z) (ng tr : bool) : bool :=
  match AssignDecimal 0 e10 ng tr flt with
  | Ret (f, ok) =>
      Bool.eqb ok (lo <=? e10) &&
      (negb ok || (fst (floatBits f flt) =? (if ng then 2 ^ (mantbits flt + expbits flt) else 0) +
         (if hi <=? e10 then (2 ^ expbits flt - 1) * 2 ^ mantbits flt else 0)))
  | Panic => false
  end.

Definition zero_range (flt : floatInfo) (lo hi : Z) : Prop :=
  (flt = float16info /\ lo = -20 /\ hi = -12) \/ (flt = float32info /\ lo = -60 /\ hi = 20) \/ (flt = float64info /\ lo = -340 /\ hi = 292).

(** Only the large power of ten matters. *)
Lemma zero_step flt lo hi e10 ng tr : -348 <= e10 < 348 -> (lo mod 8 = 4 /\ hi mod 8 = 4) ->
  zero_ok flt lo hi ((e10 + 348) / 8 * 8 - 348) ng tr = true -> zero_ok flt lo hi e10 ng tr = true.
Proof.
  intros He [Hlo Hhi].
  pose proof (Z.div_mod (e10 + 348) 8 ltac:(lia)) as DM. pose proof (Z.mod_pos_bound (e10 + 348) 8 ltac:(lia)) as MB.
  pose proof (Z.div_mod lo 8 ltac:(lia)) as DL. pose proof (Z.div_mod hi 8 ltac:(lia)) as DH. rewrite Hlo in DL. rewrite Hhi in DH.
  set (i := (e10 + 348) / 8) in *. set (a := (e10 + 348) mod 8) in *.
  assert (E1 : (lo <=? i * 8 - 348) = (lo <=? e10)) by (destruct (Z.leb_spec lo (i * 8 - 348)), (Z.leb_spec lo e10); try reflexivity; lia).
  assert (E2 : (hi <=? i * 8 - 348) = (hi <=? e10)) by (destruct (Z.leb_spec hi (i * 8 - 348)), (Z.leb_spec hi e10); try reflexivity; lia).
  unfold zero_ok. rewrite E1, E2.
  replace (AssignDecimal 0 (i * 8 - 348) ng tr flt) with (AssignDecimal 0 e10 ng tr flt); [intros K; exact K|].
  unfold AssignDecimal, firstPowerOfTen, stepPowerOfTen.
  replace (i * 8 - 348 - -348) with (i * 8) by lia. replace (e10 - -348) with (e10 + 348) by lia.
  rewrite (Z.quot_div_nonneg (i * 8)), (Z.rem_mod_nonneg (i * 8)), (Z.quot_div_nonneg (e10 + 348)), (Z.rem_mod_nonneg (e10 + 348)) by lia.
  fold i a. rewrite Z.div_mul, Z.mod_mul by lia.
  destruct (Z.ltb_spec e10 (-348)); [lia|]. destruct (Z.ltb_spec (i * 8 - 348) (-348)); [lia|]. cbn [orb].
  destruct (Z.of_nat (length powersOfTen) <=? i); [reflexivity|].
  assert (C : a = 0 \/ a = 1 \/ a = 2 \/ a = 3 \/ a = 4 \/ a = 5 \/ a = 6 \/ a = 7) by lia.
  destruct C as [->|[->|[->|[->|[->|[->|[->| ->]]]]]]]; reflexivity.
Qed.

Lemma zero_all flt lo hi e10 ng tr : zero_range flt lo hi -> -348 <= e10 < 348 -> zero_ok flt lo hi e10 ng tr = true.
Proof.
  intros HZ He. apply zero_step; [exact He|destruct HZ as [(-> & -> & ->)|[(-> & -> & ->)|(-> & -> & ->)]]; split; reflexivity|].
  set (i := (e10 + 348) / 8). assert (Hi : 0 <= i < 87) by (unfold i; split; [apply Z.div_pos; lia|apply Z.div_lt_upper_bound; lia]). clearbody i.
  assert (A : forall flt lo hi ng tr, forallb (fun n => zero_ok flt lo hi (Z.of_nat n * 8 - 348) ng tr) (seq 0 87) = true -> zero_ok flt lo hi (i * 8 - 348) ng tr = true).
  { intros flt' lo' hi' ng' tr' H. rewrite forallb_forall in H. specialize (H (Z.to_nat i)).
    rewrite Z2Nat.id in H by lia. apply H. apply in_seq. lia. }
  destruct HZ as [(-> & -> & ->)|[(-> & -> & ->)|(-> & -> & ->)]]; destruct ng, tr; apply A; vm_compute; reflexivity.
Qed.

Lemma c50_zero : forall flt lo hi ng tr e10,
  (flt = float16info /\ lo = -20 /\ hi = -12) \/ (flt = float32info /\ lo = -60 /\ hi = 20) \/ (flt = float64info /\ lo = -340 /\ hi = 292) ->
  exists f, AssignDecimal 0 e10 ng tr flt = Ret (f, (lo <=? e10) && (e10 <? 348)) /\
    (lo <= e10 < hi -> ieee (mantbits flt) (expbits flt) (fst (floatBits f flt)) = VNum ng 0) /\
    (hi <= e10 < 348 -> ieee (mantbits flt) (expbits flt) (fst (floatBits f flt)) = VInf ng).
Proof.
  intros flt lo hi ng tr e10 HZ.
  assert (HL : -348 <= lo /\ lo <= hi <= 348) by (destruct HZ as [(_ & -> & ->)|[(_ & -> & ->)|(_ & -> & ->)]]; lia).
  destruct (Z_lt_le_dec e10 (-348)) as [L|L].
  { exists (mkExt 0 0 ng). split; [|split; intros; lia]. unfold AssignDecimal, firstPowerOfTen. destruct (Z.ltb_spec e10 (-348)); [|lia]. cbn [orb].
    destruct (Z.leb_spec lo e10); [lia|]. reflexivity. }
  destruct (Z_lt_le_dec e10 348) as [L2|L2].
  - pose proof (zero_all flt lo hi e10 ng tr HZ (conj L L2)) as Z0. unfold zero_ok in Z0.
    destruct (AssignDecimal 0 e10 ng tr flt) as [[f ok]|] eqn:EA; [|discriminate]. apply andb_prop in Z0. destruct Z0 as [Z1 Z2]. apply eqb_prop in Z1.
    exists f. split; [destruct (Z.ltb_spec e10 348); [|lia]; rewrite andb_true_r, <- Z1; reflexivity|].
    destruct (Z.leb_spec lo e10) as [L3|L3]; [|split; intros; lia]. subst ok. cbn [negb orb] in Z2. apply Z.eqb_eq in Z2. rewrite Z2.
    split; intros [K1 K2]; (destruct (Z.leb_spec hi e10); [try lia|try lia]);
    destruct HZ as [(-> & _ & _)|[(-> & _ & _)|(-> & _ & _)]]; destruct ng; cbn [mantbits expbits float16info float32info float64info]; unfold ieee; cbn -[IZR p2]; try reflexivity; f_equal; ring.
  - exists (mkExt 0 0 ng). split; [|split; intros; lia]. unfold AssignDecimal, firstPowerOfTen, stepPowerOfTen. change (Z.of_nat (length powersOfTen)) with 87.
    rewrite Z.quot_div_nonneg by lia. destruct (Z.leb_spec 87 ((e10 - -348) / 8)) as [_|L3].
    + rewrite orb_true_r. destruct (Z.ltb_spec e10 348); [lia|]. rewrite andb_false_r. reflexivity.
    + exfalso. assert (87 <= (e10 - -348) / 8) by (apply Z.div_le_lower_bound; lia). lia.
Qed.

Lemma c60r : exists flt mb eb m e10 V f, format_of flt mb eb /\ 2 ^ 60 - 37 <= m < 2 ^ 60 /\
  (IZR m * p10 e10 <= V < IZR (m + 1) * p10 e10)%R /\
  AssignDecimal m e10 false true flt = Ret (f, true) /\
  ieee mb eb (fst (floatBits f flt)) <> ieee_round mb eb false V.
Proof.
  exists float64info, 52, 11, (2 ^ 60 - 37), 36, (IZR 1152921504606846939999999000000000000000000000000000000). eexists.
  split; [right; right; auto|]. split; [lia|]. split; [rewrite <- (IZR_p10 36), <- !mult_IZR by lia; split; [apply IZR_le|apply IZR_lt]; lia|].
  split; [vm_compute; reflexivity|].
  match goal with |- ieee _ _ ?b <> _ => let b' := eval vm_compute in b in replace b with b' by (vm_compute; reflexivity) end.
  replace (ieee_round 52 11 false (IZR 1152921504606846939999999000000000000000000000000000000)) with (VNum false (IZR 6776263578034403 * p2 127)).
  - unfold ieee. cbn -[IZR p2]. intros E. injection E as E. apply Rmult_eq_reg_r in E; [|change (IZR (Z.pow_pos 2 127)) with (p2 127); apply Rgt_not_eq, p2_pos]. apply eq_IZR in E. discriminate E.
  - unfold ieee_round. replace (rn 52 11 (IZR 1152921504606846939999999000000000000000000000000000000)) with (IZR 6776263578034403 * p2 127)%R.
    + rewrite Rle_bool_false; [reflexivity|]. rewrite Rabs_pos_eq by (apply Rmult_le_pos; [apply IZR_le; lia|apply Rlt_le, p2_pos]).
      apply Rlt_le_trans with (p2 53 * p2 127)%R; [apply Rmult_lt_compat_r; [apply p2_pos|rewrite <- IZR_pow2 by lia; apply IZR_lt; lia]|].
      rewrite <- p2_plus. apply p2_le. lia.
    + symmetry. apply round_parts.
      * unfold cexp, fx, FLT_exp. replace (mag radix2 (IZR 1152921504606846939999999000000000000000000000000000000) : Z) with 180; [reflexivity|]. symmetry. apply mag_unique.
        rewrite Rabs_pos_eq by (apply IZR_le; lia). change (bpow radix2 (180 - 1)) with (p2 179). change (bpow radix2 180) with (p2 180).
        rewrite <- !IZR_pow2 by lia. split; [apply IZR_le|apply IZR_lt]; lia.
      * rewrite <- !IZR_pow2, <- mult_IZR, <- minus_IZR, <- abs_IZR by lia. apply IZR_le. vm_compute. discriminate.
      * left. rewrite <- !IZR_pow2, <- mult_IZR, <- minus_IZR, <- abs_IZR by lia. apply IZR_lt. vm_compute. reflexivity.
Qed.

Lemma c60p : forall flt mb eb m e10 ng f V, format_of flt mb eb -> 0 < m < 2 ^ 64 ->
  (2 ^ 60 <= m /\ (IZR m * p10 e10 <= V <= (IZR m + 1) * p10 e10)%R) \/
  (10 ^ 18 <= m /\ (IZR m * p10 e10 <= V <= (IZR m + / 2) * p10 e10)%R) \/
  (IZR m * p10 e10 <= V <= IZR m * (1 + p2 (-61)) * p10 e10)%R ->
  let half_least := p2 (1 - 2 ^ (eb - 1) - mb) in
  (V <= half_least * (1 - p2 (-56)) \/ half_least < V)%R ->
  AssignDecimal m e10 ng true flt = Ret (f, true) ->
  ieee mb eb (fst (floatBits f flt)) = ieee_round mb eb ng (sgnR ng V).
Proof.
  intros flt mb eb m e10 ng f V HF Hm HV hl Hfar HA. destruct (format_ok _ _ _ HF) as (Hf & -> & ->).
  assert (EE : (p10 (- e10) * p10 e10 = 1)%R) by (rewrite <- p10_plus; replace (- e10 + e10) with 0 by lia; reflexivity).
  pose proof (p10_pos e10) as P. pose proof (p10_pos (- e10)) as P'.
  assert (EV : V = (V * p10 (- e10) * p10 e10)%R) by (rewrite Rmult_assoc, EE; ring). rewrite EV.
  destruct (AssignDecimal_round m e10 ng true flt f (V * p10 (- e10))) as [R|[R _]]; try assumption.
  - right. split; [reflexivity|].
    assert (G : forall c, (IZR m * p10 e10 <= V <= c * p10 e10)%R -> (IZR m <= V * p10 (- e10) <= c)%R).
    { intros c [G1 G2]. split; apply Rmult_le_reg_r with (p10 e10); try exact P; rewrite <- EV; assumption. }
    destruct HV as [[L HV]|[[L HV]|HV]]; apply G in HV; (split; [lra|]).
    + right. split; [lia|]. assert (B : 61 <= bitlen m) by (destruct (Z_lt_le_dec 60 (bitlen m)) as [|B]; [lia|apply bitlen_le_lt in B; lia]).
      pose proof (p2_le (64 - bitlen m) 3 ltac:(lia)) as Q. change (p2 3) with 8%R in Q. pose proof (p2_pos (64 - bitlen m)). nra.
    + right. split; [lia|]. assert (B : 60 <= bitlen m) by (destruct (Z_lt_le_dec 59 (bitlen m)) as [|B]; [lia|apply bitlen_le_lt in B; lia]).
      pose proof (p2_le (64 - bitlen m) 4 ltac:(lia)) as Q. change (p2 4) with 16%R in Q. pose proof (p2_pos (64 - bitlen m)). nra.
    + left. lra.
  - rewrite <- EV in R. unfold hl in Hfar. lra.
Qed.
