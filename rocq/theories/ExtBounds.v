(** Facts about extfloat.go: AssignComputeBounds, and ShortestDecimal on every float. *)
From Coq Require Import ZArith Reals List Bool Lia Lra.
From Flocq Require Import Core.
From Verif Require Import GoBase BigFloat ExtFloat.
From Verif Require Import Spec BitFacts RoundFacts SpecDec SpecFtoa DecFacts DecFacts2 ExtFacts ExtFixed ExtShort FloatMid.
Import ListNotations.
Open Scope Z_scope.

Local Notation len l := (Z.of_nat (length l)).

Definition flt_ok (flt : floatInfo) : Prop := flt = float16info \/ flt = float32info \/ flt = float64info.

Lemma flt_facts flt : flt_ok flt -> 1 <= mantbits flt <= 52 /\ 5 <= expbits flt <= 11 /\ bias flt = 1 - 2 ^ (expbits flt - 1) /\
  16 <= 2 ^ (expbits flt - 1) <= 1024.
Proof. intros [->|[->| ->]]; cbn; lia. Qed.

Section Bounds.
Variables (flt : floatInfo) (mt e : Z) (ng : bool).
Hypothesis Hf : flt_ok flt.
Let mb := mantbits flt.
Let eb := expbits flt.
Hypothesis Hp : float_parts mb eb mt e.
Hypothesis Hmt : 0 < mt.
Let X := e - mb.
Let v := (IZR mt * p2 X)%R.

Let FF : 1 <= mb <= 52 /\ 5 <= eb <= 11 /\ bias flt = 1 - 2 ^ (eb - 1) /\ 16 <= 2 ^ (eb - 1) <= 1024.
Proof. exact (flt_facts flt Hf). Qed.

Lemma mt_53 : mt < 2 ^ 53.
Proof.
  destruct FF as [F1 _]. apply Z.lt_le_trans with (2 ^ (mb + 1)); [destruct Hp; [lia|]|apply Z.pow_le_mono_r; lia].
  rewrite Z.pow_add_r by lia. pose proof (pow2_pos mb). lia.
Qed.

Definition bounds_int (n : Z) : Prop :=
  X <= 0 /\ 0 < n < 2 ^ 53 /\ v = IZR n /\ AssignComputeBounds mt e ng flt = (mkExt n 0 ng, mkExt n 0 ng, mkExt n 0 ng).

Definition bounds_mid (lower : extFloat) : Prop :=
  X <> 0 /\ AssignComputeBounds mt e ng flt = (mkExt mt X ng, lower, mkExt (2 * mt + 1) (X - 1) ng) /\
  (lower = mkExt (2 * mt - 1) (X - 1) ng \/ lower = mkExt (4 * mt - 1) (X - 2) ng) /\
  eval lower = mid_lo mb eb v /\ eval (mkExt (2 * mt + 1) (X - 1) ng) = mid_hi mb eb v.

Lemma bounds_ok : (exists n, bounds_int n) \/ (exists lower, bounds_mid lower).
Proof.
  pose proof mt_53 as M53. destruct FF as (F1 & F2 & F3 & F4). unfold bounds_int, bounds_mid, AssignComputeBounds. cbn [exp mant]. fold mb X.
  destruct ((X <=? 0) && (mt =? u64 (Z.shiftl (Z.shiftr mt (- X)) (- X)))) eqn:C.
  - left. apply andb_prop in C. destruct C as [C1 C2]. apply Z.leb_le in C1. apply Z.eqb_eq in C2.
    rewrite Z.shiftr_div_pow2, Z.shiftl_mul_pow2 in C2 by lia. pose proof (pow2_pos (- X) ltac:(lia)) as PX.
    set (q := mt / 2 ^ (- X)) in *. assert (Hq : 0 <= q * 2 ^ (- X) <= mt).
    { pose proof (Z.div_pos mt (2 ^ - X) ltac:(lia) PX). pose proof (Z.mul_div_le mt (2 ^ - X) PX). fold q in H, H0. nia. }
    unfold u64 in C2. rewrite Z.mod_small in C2 by lia.
    exists q. split; [exact C1|]. split; [nia|]. split.
    + unfold v. rewrite C2 at 1. rewrite mult_IZR, IZR_pow2 by lia. rewrite Rmult_assoc, <- p2_plus. replace (- X + X) with 0 by lia. change (p2 0) with 1%R. ring.
    + rewrite Z.shiftr_div_pow2 by lia. reflexivity.
  - right. assert (NX : X <> 0).
    { intros E. rewrite E in C. change (- 0) with 0 in C. rewrite Z.shiftr_0_r, Z.shiftl_0_r in C. unfold u64 in C. rewrite Z.mod_small, Z.eqb_refl in C by lia. discriminate. }
    replace (u64 (2 * mt)) with (2 * mt) by (unfold u64; rewrite Z.mod_small; lia).
    replace (u64 (4 * mt)) with (4 * mt) by (unfold u64; rewrite Z.mod_small; lia).
    replace (u64 (2 * mt + 1)) with (2 * mt + 1) by (unfold u64; rewrite Z.mod_small; lia).
    replace (u64 (2 * mt - 1)) with (2 * mt - 1) by (unfold u64; rewrite Z.mod_small; lia).
    replace (u64 (4 * mt - 1)) with (4 * mt - 1) by (unfold u64; rewrite Z.mod_small; lia).
    eexists. split; [exact NX|]. split; [reflexivity|]. split; [destruct (negb (mt =? 2 ^ mb) || (e - bias flt =? 1)); [left|right]; reflexivity|].
    pose proof (mid_lo_val mb eb ltac:(lia) ltac:(lia) mt e (parts_weaken _ _ _ _ Hp) Hmt) as ML. pose proof (mid_hi_val mb eb ltac:(lia) ltac:(lia) mt e (parts_weaken _ _ _ _ Hp) Hmt) as MH.
    cbn zeta in ML, MH. fold X v in ML, MH. rewrite ML, MH.
    pose proof (p2_half X) as E1. assert (E2 : (p2 (X - 2) = p2 X / 4)%R).
    { replace (X - 2) with (X + -2) by lia. rewrite p2_plus. change (p2 (-2)) with (/ 4)%R. reflexivity. }
    split.
    + replace (e - bias flt =? 1) with (e =? 2 - 2 ^ (eb - 1)) by (rewrite F3; destruct (Z.eqb_spec e (2 - 2 ^ (eb - 1))), (Z.eqb_spec (e - (1 - 2 ^ (eb - 1))) 1); (reflexivity || lia)).
      destruct (mt =? 2 ^ mb), (e =? 2 - 2 ^ (eb - 1)); cbn [negb orb andb]; unfold eval; cbn [mant exp]; rewrite ?E1, ?E2, minus_IZR, mult_IZR; unfold v; lra.
    + unfold eval. cbn [mant exp]. rewrite plus_IZR, mult_IZR, E1. unfold v. lra.
Qed.

Lemma mids_ok : (v - p2 (X - 1) <= mid_lo mb eb v < v)%R /\ mid_hi mb eb v = (v + p2 (X - 1))%R /\ (0 < mid_lo mb eb v)%R.
Proof.
  destruct FF as (F1 & F2 & F3 & F4).
  pose proof (mid_lo_val mb eb ltac:(lia) ltac:(lia) mt e (parts_weaken _ _ _ _ Hp) Hmt) as ML. pose proof (mid_hi_val mb eb ltac:(lia) ltac:(lia) mt e (parts_weaken _ _ _ _ Hp) Hmt) as MH.
  cbn zeta in ML, MH. fold X v in ML, MH. rewrite ML, MH.
  pose proof (p2_half X) as E1. assert (E2 : (p2 (X - 2) = p2 X / 4)%R).
  { replace (X - 2) with (X + -2) by lia. rewrite p2_plus. change (p2 (-2)) with (/ 4)%R. reflexivity. }
  pose proof (p2_pos X) as PX. assert (VX : (p2 X <= v)%R).
  { unfold v. rewrite <- (Rmult_1_l (p2 X)) at 1. apply Rmult_le_compat_r; [lra|]. apply IZR_le. lia. }
  destruct ((mt =? 2 ^ mb) && negb (e =? 2 - 2 ^ (eb - 1))); rewrite ?E1, ?E2; lra.
Qed.

Lemma ShortestDecimal_all s : 32 <= scap s ->
  exists s' ok, (let '(f, lower, upper) := AssignComputeBounds mt e ng flt in ShortestDecimal f s lower upper) = Ret (s', ok) /\
    (ok = true -> short_ok (mid_lo mb eb v) (mid_hi mb eb v) v s').
Proof.
  intros Hcap. pose proof mt_53 as M53. destruct FF as (F1 & F2 & F3 & F4). destruct bounds_ok as [(n & H1 & H2 & H3 & ->)|(lower & H1 & -> & H3 & H4 & H5)].
  - unfold ShortestDecimal. cbn [mant exp]. destruct (Z.eqb_spec n 0) as [|_]; [lia|]. unfold extFloat_eqb. cbn [mant exp neg]. rewrite !Z.eqb_refl, eqb_reflx. cbn [andb].
    destruct (int_to_digits_ok 24 n []) as (l & E & D1 & D2 & D3); [change (10 ^ Z.of_nat 24) with 1000000000000000000000000; lia|].
    rewrite E, app_nil_r. cbn [bind]. assert (Nl : l <> []) by (intros ->; cbn in D2; lia).
    assert (Ll : len l <= 16).
    { pose proof (dread_lead l D1 D3 Nl) as L. destruct (Z_le_gt_dec (len l) 16); [assumption|]. exfalso.
      assert (10 ^ 16 <= 10 ^ (len l - 1)) by (apply Z.pow_le_mono_r; lia). lia. }
    destruct (Z.ltb_spec (scap s) (len l)) as [|_]; [lia|].
    eexists _, true. split; [reflexivity|]. intros _.
    destruct (trim_fixed_ok l (len l) D1 D3 Nl) as ((T1 & T2 & T3 & T4) & T5 & T6).
    replace (trim_zeros_fixed l) with (rev (drop0 (rev l))) in *.
    2:{ unfold trim_zeros_fixed in *. destruct (drop0 (rev l)) as [|c r] eqn:Ed; [|reflexivity]. exfalso.
        rewrite drop0_eq in Ed. destruct (strip_spec l) as [k Ek]. unfold Decimal.strip in Ek. rewrite Ed in Ek. cbn [rev app] in Ek.
        rewrite Ek, dread_zeros in D2. lia. }
    set (t := rev (drop0 (rev l))) in *.
    assert (Lt : 1 <= len t) by (destruct t; [contradiction|cbn [length]; lia]).
    assert (Hv : lval t (len l) = v).
    { rewrite T5, H3. unfold lval. rewrite D2. replace (len l - len l) with 0 by lia. change (p10 0) with 1%R. ring. }
    destruct mids_ok as (Q1 & Q2 & Q3).
    assert (HX : (p2 (X - 1) <= / 2)%R) by (change (/ 2)%R with (p2 (-1)); apply p2_le; lia).
    unfold short_ok, shortest_between. cbn [sd sdp]. destruct (Z.eqb_spec (len t) 0) as [|_]; [lia|]. rewrite Hv.
    split; [|unfold Rminus; rewrite Rplus_opp_r, Rabs_R0; pose proof (p10_pos (len l - len t)); lra].
    split; [split; [exact T1|split; [exact T2|split; assumption]]|].
    split; [pose proof (p2_pos (X - 1)); lra|].
    intros z Hz HS. assert (VN : (IZR n <= v)%R) by lra.
    assert (Zz : (IZR n - / 2 <= z <= IZR n + / 2)%R) by lra.
    assert (Hr : dread t * 10 ^ (len l - len t) = n).
    { apply eq_IZR. rewrite <- H3, <- Hv. rewrite mult_IZR, IZR_p10 by lia. reflexivity. }
    pose proof (dread_lead t T1 T2 T4) as Lead. pose proof (no_trail0_mod t T1 T3 T4) as Md.
    destruct (Z.eq_dec (len t) 1) as [E1|E1].
    + rewrite E1 in HS. change (1 - 1) with 0 in HS. destruct HS as (M & x & Ez & HM). change (10 ^ 0) with 1 in HM. replace M with 0 in Ez by lia.
      rewrite Ez in Zz. assert (1 <= IZR n)%R by (apply IZR_le; lia). lra.
    + assert (K : (p10 (len l - (len t - 1) + (len t - 1) - 1) <= z)%R).
      { replace (len l - (len t - 1) + (len t - 1) - 1) with (len l - 1) by lia. rewrite <- IZR_p10 by lia.
        assert (10 ^ (len l - 1) + 1 <= n).
        { pose proof (dread_lead l D1 D3 Nl) as L. rewrite D2 in L. assert (n <> 10 ^ (len l - 1)); [|lia]. intros En.
          (* then the trimmed digits are a single one *)
          assert (Er : dread t = 10 ^ (len t - 1)).
          { apply (Z.mul_reg_r _ _ (10 ^ (len l - len t))); [pose proof (pow10_pos (len l - len t) ltac:(lia)); lia|].
            rewrite Hr, En, <- Z.pow_add_r by lia. f_equal. lia. }
          apply Md. rewrite Er. replace (len t - 1) with (len t - 2 + 1) by lia. rewrite Z.pow_add_r by lia. change (10 ^ 1) with 10. apply Z.mod_mul. lia. }
        apply IZR_le in H. rewrite plus_IZR in H. lra. }
      destruct (sig_multiple (len t - 1) z (len l - (len t - 1)) ltac:(lia) HS K) as [q Eq].
      rewrite <- IZR_p10, <- mult_IZR in Eq by lia.
      assert (En : q * 10 ^ (len l - (len t - 1)) = n).
      { rewrite Eq in Zz. assert (A1 : (IZR n - 1 < IZR (q * 10 ^ (len l - (len t - 1))))%R) by lra.
        assert (A2 : (IZR (q * 10 ^ (len l - (len t - 1))) < IZR n + 1)%R) by lra.
        rewrite <- minus_IZR in A1. rewrite <- plus_IZR in A2. apply lt_IZR in A1. apply lt_IZR in A2. lia. }
      apply Md. rewrite <- Hr in En. replace (len l - (len t - 1)) with (len l - len t + 1) in En by lia.
      rewrite Z.pow_add_r in En by lia. change (10 ^ 1) with 10 in En.
      pose proof (pow10_pos (len l - len t) ltac:(lia)) as PP.
      assert (En2 : q * 10 = dread t) by (clear - En PP; nia). rewrite <- En2. apply Z.mod_mul. lia.
  - assert (BL : 1 <= bitlen (2 * mt + 1) <= 54) by (split; [apply bitlen_pos; lia|apply bitlen_le_lt; lia]).
    assert (HE : -1140 <= X - 1 - (64 - bitlen (2 * mt + 1)) <= 965).
    { unfold X. assert (e <= 1023 /\ -1022 <= e) by (destruct Hp as [[_ ?]|[_ ?]]; lia). 
      assert (bitlen (2 * mt + 1) <= mb + 2); [|lia]. apply bitlen_le_lt; [lia|lia|].
      pose proof (parts_lt mb eb ltac:(lia) ltac:(lia) mt e (parts_weaken _ _ _ _ Hp) Hmt) as PL. replace (mb + 2) with (mb + 1 + 1) by lia. rewrite Z.pow_add_r by lia. change (2 ^ 1) with 2. lia. }
    rewrite <- H4, <- H5. apply (ShortestDecimal_ok mt X ng lower s); try assumption; lia.
Qed.
End Bounds.
