(** Facts about the neighbours of a float and the numbers that round to it. *)
From Coq Require Import ZArith Reals List Bool Lia Lra.
From Flocq Require Import Core.
From Verif Require Import BigFloat.
From Verif Require Import Spec BitFacts RoundFacts SpecDec SpecFtoa.
Open Scope Z_scope.

Lemma p2_half c : (p2 (c - 1) = p2 c / 2)%R.
Proof. replace (c - 1) with (c + -1) by lia. rewrite p2_plus. change (p2 (-1)) with (/ 2)%R. unfold Rdiv. ring. Qed.

Lemma nearest_even_tie x m : (Rabs (x - IZR m) <= / 2)%R -> ((Rabs (x - IZR m) < / 2)%R \/ Z.even m = true) -> ZnearestE x = m.
Proof.
  intros H [L|Ev]; [apply Znearest_imp; exact L|]. destruct (Rle_lt_or_eq_dec _ _ H) as [L|E]; [apply Znearest_imp; exact L|].
  unfold Rabs in E. destruct (Rcase_abs (x - IZR m)) as [C|C].
  - assert (Ex : x = (IZR (m - 1) + / 2)%R) by (rewrite minus_IZR; lra). rewrite Ex, Znearest_frac by lra. rewrite Rcompare_Eq by reflexivity.
    rewrite Z.even_sub, Ev. cbn. lia.
  - assert (Ex : x = (IZR m + / 2)%R) by lra. rewrite Ex, Znearest_frac by lra. rewrite Rcompare_Eq by reflexivity. rewrite Ev. reflexivity.
Qed.

Lemma round_parts mb eb c m x : cexp radix2 (fx mb eb) x = c -> (Rabs (x - IZR m * p2 c) <= p2 (c - 1))%R ->
  ((Rabs (x - IZR m * p2 c) < p2 (c - 1))%R \/ Z.even m = true) -> rn mb eb x = (IZR m * p2 c)%R.
Proof.
  intros Hc H1 H2. unfold rn. change (Generic_fmt.round radix2 (fx mb eb) ZnearestE x = (IZR m * p2 c)%R).
  unfold Generic_fmt.round, scaled_mantissa, F2R. cbn [Fnum Fexp]. rewrite Hc. change (bpow radix2 c) with (p2 c). change (bpow radix2 (- c)) with (p2 (- c)).
  pose proof (p2_pos c) as Pc.
  assert (Ec : (p2 c * p2 (- c) = 1)%R) by (rewrite <- p2_plus; replace (c + - c) with 0 by lia; reflexivity).
  pose proof (p2_pos (- c)) as Pc'.
  assert (Ex : (Rabs (x * p2 (- c) - IZR m) = Rabs (x - IZR m * p2 c) * p2 (- c))%R).
  { rewrite <- (Rabs_pos_eq (p2 (- c))) at 2 by lra. rewrite <- Rabs_mult. f_equal. rewrite Rmult_minus_distr_r, Rmult_assoc, Ec. ring. }
  assert (E2 : (/ 2 = p2 (c - 1) * p2 (- c))%R).
  { rewrite p2_half. unfold Rdiv. rewrite Rmult_assoc, (Rmult_comm (/ 2)), <- Rmult_assoc, Ec. ring. }
  rewrite (nearest_even_tie _ m); [reflexivity| |].
  - rewrite Ex, E2. apply Rmult_le_compat_r; lra.
  - destruct H2 as [H2|H2]; [left|right; exact H2]. rewrite Ex, E2. apply Rmult_lt_compat_r; lra.
Qed.

(** Without the upper limit on the exponent. *)
Definition parts0 (mb eb mt e : Z) : Prop :=
  2 ^ mb <= mt < 2 ^ (mb + 1) /\ 2 - 2 ^ (eb - 1) <= e \/ 0 <= mt < 2 ^ mb /\ e = 2 - 2 ^ (eb - 1).
Lemma parts_weaken mb eb mt e : float_parts mb eb mt e -> parts0 mb eb mt e.
Proof. unfold float_parts, parts0. lia. Qed.

Section Mid.
Variables (mb eb : Z).
Hypothesis Hmb : 1 <= mb.
Hypothesis Heb : 2 <= eb.

Local Instance prec_gt : Prec_gt_0 (mb + 1).
Proof. unfold Prec_gt_0. lia. Qed.
Local Instance fx_valid : Valid_exp (fx mb eb).
Proof. unfold fx. apply FLT_exp_valid. apply prec_gt. Qed.

Variables (mt e : Z).
Hypothesis Hp : parts0 mb eb mt e.
Hypothesis Hmt : 0 < mt.
Let X := e - mb.
Let v := (IZR mt * p2 X)%R.

Let Pmb : 0 < 2 ^ mb.
Proof. apply pow2_pos. lia. Qed.
Let Pmb1 : 2 ^ (mb + 1) = 2 * 2 ^ mb.
Proof. rewrite Z.pow_add_r by lia. change (2 ^ 1) with 2. ring. Qed.

Lemma parts_lt : mt < 2 ^ (mb + 1).
Proof. destruct Hp; lia. Qed.
Lemma parts_pos : (0 < v)%R.
Proof. apply Rmult_lt_0_compat; [apply IZR_lt; lia|apply p2_pos]. Qed.
Lemma parts_e : 2 - 2 ^ (eb - 1) <= e.
Proof. destruct Hp; lia. Qed.

(** The exponent of any number in the binade (or of any subnormal). *)
Lemma fx_at x : (0 < x)%R -> (x < p2 (e + 1))%R -> e = 2 - 2 ^ (eb - 1) \/ (p2 e <= x)%R -> cexp radix2 (fx mb eb) x = X.
Proof.
  intros H0 H1 H2. unfold cexp, fx, FLT_exp, X.
  assert (M1 : mag radix2 x <= e + 1) by (apply mag_le_bpow; [lra|rewrite Rabs_pos_eq by lra; exact H1]).
  destruct H2 as [->|H2]; [lia|].
  assert (M2 : e + 1 <= mag radix2 x) by (apply mag_ge_bpow; rewrite Rabs_pos_eq by lra; replace (e + 1 - 1) with e by lia; exact H2).
  pose proof parts_e. lia.
Qed.

Lemma parts_hi : (v < p2 (e + 1))%R.
Proof.
  unfold v, X. replace (e + 1) with (mb + 1 + (e - mb)) by lia. rewrite (p2_plus (mb + 1)). apply Rmult_lt_compat_r; [apply p2_pos|].
  rewrite <- IZR_pow2 by lia. apply IZR_lt. apply parts_lt.
Qed.
Lemma parts_lo : e = 2 - 2 ^ (eb - 1) \/ (p2 e <= v)%R.
Proof.
  destruct Hp as [[H1 H2]|[H1 H2]]; [right|left; exact H2]. unfold v, X. replace e with (mb + (e - mb)) at 1 by lia. rewrite p2_plus.
  apply Rmult_le_compat_r; [apply Rlt_le, p2_pos|]. rewrite <- IZR_pow2 by lia. apply IZR_le. lia.
Qed.
Lemma parts_cexp : cexp radix2 (fx mb eb) v = X.
Proof. apply fx_at; [apply parts_pos|apply parts_hi|apply parts_lo]. Qed.

Lemma parts_format : generic_format radix2 (fx mb eb) v.
Proof.
  apply generic_format_F2R' with (Float radix2 mt X).
  - unfold v. unfold F2R. reflexivity.
  - intros _. rewrite parts_cexp. cbn [Fexp]. lia.
Qed.

Lemma parts_ulp : ulp radix2 (fx mb eb) v = p2 X.
Proof. rewrite ulp_neq_0 by (pose proof parts_pos; lra). rewrite parts_cexp. reflexivity. Qed.

Lemma mid_hi_val : mid_hi mb eb v = (v + p2 (X - 1))%R.
Proof.
  unfold mid_hi. rewrite succ_eq_pos by (apply Rlt_le, parts_pos). rewrite parts_ulp, p2_half. lra.
Qed.

(** The lower neighbour is closer when v is the least of its binade. *)
Lemma mid_lo_val : mid_lo mb eb v = (v - (if (mt =? 2 ^ mb) && negb (e =? 2 - 2 ^ (eb - 1)) then p2 (X - 2) else p2 (X - 1)))%R.
Proof.
  unfold mid_lo. rewrite pred_eq_pos by (apply Rlt_le, parts_pos). unfold pred_pos.
  assert (Mg : mag radix2 v = gexp mt X :> Z) by (apply mag_val; exact Hmt).
  replace (p2 (X - 2)) with (p2 X / 4)%R.
  2:{ replace (X - 2) with (X + -2) by lia. rewrite p2_plus. change (p2 (-2)) with (/ 4)%R. reflexivity. }
  rewrite (p2_half X).
  destruct (Z.eqb_spec mt (2 ^ mb)) as [E|E].
  - assert (Ev : v = bpow radix2 e).
    { unfold v, X. rewrite E, IZR_pow2, <- p2_plus by lia. change (bpow radix2 e) with (p2 e). f_equal. lia. }
    assert (Mv : mag radix2 v = e + 1 :> Z) by (rewrite Ev; apply mag_bpow).
    rewrite Mv. replace (e + 1 - 1) with e by lia. rewrite Req_bool_true by exact Ev. unfold fx, FLT_exp. cbn [andb].
    destruct (Z.eqb_spec e (2 - 2 ^ (eb - 1))) as [E2|E2]; cbn [negb].
    + replace (Z.max (e - (mb + 1)) (3 - 2 ^ (eb - 1) - (mb + 1))) with X by (unfold X; lia). change (bpow radix2 X) with (p2 X). lra.
    + pose proof parts_e. replace (Z.max (e - (mb + 1)) (3 - 2 ^ (eb - 1) - (mb + 1))) with (X - 1) by (unfold X; lia).
      change (bpow radix2 (X - 1)) with (p2 (X - 1)). rewrite (p2_half X). lra.
  - cbn [andb]. rewrite parts_ulp. destruct (Req_bool_spec v (bpow radix2 (mag radix2 v - 1))) as [Ev|_]; [|lra].
    (* a subnormal power of two *)
    rewrite Mg. rewrite Mg in Ev. change (bpow radix2 (gexp mt X - 1)) with (p2 (gexp mt X - 1)) in Ev.
    replace (fx mb eb (gexp mt X - 1)) with X; [change (bpow radix2 X) with (p2 X); lra|].
    assert (G1 : gexp mt X - 1 < e).
    { destruct Hp as [[H1 H2]|[H1 H2]].
      - exfalso. apply E.
        assert (B : bitlen mt = mb + 1) by (apply bitlen_unique; [lia|replace (mb + 1 - 1) with mb by lia; lia]).
        unfold gexp in Ev. rewrite B in Ev. unfold v in Ev. replace (mb + 1 + X - 1) with (mb + X) in Ev by lia. rewrite p2_plus in Ev.
        apply Rmult_eq_reg_r in Ev; [|pose proof (p2_pos X); lra]. rewrite <- IZR_pow2 in Ev by lia. apply eq_IZR in Ev. exact Ev.
      - apply p2_lt_inv. rewrite <- Ev. unfold v, X. replace e with (mb + (e - mb)) at 2 by lia. rewrite (p2_plus mb), <- (IZR_pow2 mb) by lia.
        apply Rmult_lt_compat_r; [apply p2_pos|]. apply IZR_lt. lia. }
    assert (Em : e = 2 - 2 ^ (eb - 1)).
    { destruct parts_lo as [|L]; [assumption|]. exfalso. rewrite Ev in L. apply p2_le_inv in L. lia. }
    clear - G1 Em. revert G1. generalize (gexp mt X). intros g G1. unfold fx, FLT_exp, X. lia.
Qed.

Lemma reads_back x : (mid_lo mb eb v <= x <= mid_hi mb eb v)%R -> ((mid_lo mb eb v < x < mid_hi mb eb v)%R \/ Z.even mt = true) -> rn mb eb x = v.
Proof.
  rewrite mid_hi_val, mid_lo_val. intros H1 H2.
  pose proof parts_pos as PV. pose proof (p2_pos X) as PX. pose proof (p2_half X) as E1.
  assert (E2 : (p2 (X - 2) = p2 X / 4)%R).
  { replace (X - 2) with (X + -2) by lia. rewrite p2_plus. change (p2 (-2)) with (/ 4)%R. reflexivity. }
  set (b := (mt =? 2 ^ mb) && negb (e =? 2 - 2 ^ (eb - 1))) in *.
  assert (VX : (p2 X <= v)%R).
  { unfold v. rewrite <- (Rmult_1_l (p2 X)) at 1. apply Rmult_le_compat_r; [lra|]. apply IZR_le. lia. }
  assert (PX0 : (0 < x)%R) by (destruct b; rewrite ?E1, ?E2 in *; lra).
  assert (Hi : (x < p2 (e + 1))%R).
  { apply Rlt_le_trans with (v + p2 X)%R; [lra|]. unfold v. replace (IZR mt * p2 X + p2 X)%R with (IZR (mt + 1) * p2 X)%R by (rewrite plus_IZR; ring).
    unfold X. replace (e + 1) with (mb + 1 + (e - mb)) by lia. rewrite (p2_plus (mb + 1)). apply Rmult_le_compat_r; [apply Rlt_le, p2_pos|].
    rewrite <- IZR_pow2 by lia. apply IZR_le. pose proof parts_lt. lia. }
  destruct (Rlt_or_le x v) as [Lt|Ge].
  - destruct b eqn:Eb.
    + (* just below a power of two *)
      unfold b in Eb. apply andb_prop in Eb. destruct Eb as [B1 B2]. apply Z.eqb_eq in B1. apply negb_true_iff, Z.eqb_neq in B2.
      assert (Ev : v = p2 e) by (unfold v, X; rewrite B1, IZR_pow2, <- p2_plus by lia; f_equal; lia).
      pose proof parts_e as He.
      replace v with (IZR (2 * mt) * p2 (X - 1))%R by (rewrite mult_IZR, E1; unfold v; lra).
      apply round_parts.
      * unfold cexp, fx, FLT_exp. replace (mag radix2 x : Z) with e; [unfold X; lia|]. symmetry. apply mag_unique. rewrite Rabs_pos_eq by lra.
        change (bpow radix2 (e - 1)) with (p2 (e - 1)). change (bpow radix2 e) with (p2 e). rewrite <- Ev. split; [|exact Lt].
        rewrite p2_half, <- Ev. lra.
      * replace (IZR (2 * mt) * p2 (X - 1))%R with v by (rewrite mult_IZR, E1; unfold v; lra).
        rewrite (p2_half (X - 1)), E1. rewrite Rabs_left1 by lra. lra.
      * right. rewrite Z.even_mul. reflexivity.
    + apply round_parts.
      * apply fx_at; [exact PX0|exact Hi|]. destruct parts_lo as [L|L]; [left; exact L|].
        destruct (Z.eq_dec e (2 - 2 ^ (eb - 1))) as [|Ne]; [left; assumption|right].
        assert (mt <> 2 ^ mb).
        { intros E. unfold b in Eb. apply andb_false_iff in Eb. destruct Eb as [B|B]; [apply Z.eqb_neq in B; contradiction|]. apply negb_false_iff, Z.eqb_eq in B. contradiction. }
        destruct Hp as [[H3 H4]|[H3 H4]]; [|contradiction].
        apply Rle_trans with (v - p2 X)%R; [|lra]. unfold v. replace (IZR mt * p2 X - p2 X)%R with (IZR (mt - 1) * p2 X)%R by (rewrite minus_IZR; ring).
        unfold X. replace e with (mb + (e - mb)) at 1 by lia. rewrite (p2_plus mb). apply Rmult_le_compat_r; [apply Rlt_le, p2_pos|]. rewrite <- IZR_pow2 by lia. apply IZR_le. lia.
      * fold v. rewrite Rabs_left1 by lra. lra.
      * fold v. destruct H2 as [H2|H2]; [left|right; exact H2]. rewrite Rabs_left1 by lra. lra.
  - apply round_parts.
    + apply fx_at; [exact PX0|exact Hi|]. destruct parts_lo as [L|L]; [left; exact L|right; lra].
    + fold v. rewrite Rabs_pos_eq by lra. lra.
    + fold v. destruct H2 as [H2|H2]; [left|right; exact H2]. rewrite Rabs_pos_eq by lra. lra.
Qed.

End Mid.

Lemma parts_no_overflow mb eb mt e : 1 <= mb -> 2 <= eb -> float_parts mb eb mt e -> 0 < mt -> (IZR mt * p2 (e - mb) < p2 (2 ^ (eb - 1)))%R.
Proof.
  intros Hmb Heb Hp Hmt. apply Rlt_le_trans with (1 := parts_hi mb eb Hmb Heb mt e (parts_weaken _ _ _ _ Hp) Hmt). apply p2_le. destruct Hp as [|[_ ->]]; [lia|].
  assert (2 <= 2 ^ (eb - 1)) by (change 2 with (2 ^ 1) at 1; apply Z.pow_le_mono_r; lia). lia.
Qed.
