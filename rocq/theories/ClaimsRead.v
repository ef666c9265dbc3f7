(** The lemmas behind C81: decimals that round to a float are read back as that float. *)
From Coq Require Import ZArith Reals List Bool Lia Lra.
From Flocq Require Import Core.
From Verif Require Import GoBase Spec SpecText SpecDec SpecFtoa SpecFmt BitFacts RoundFacts IeeeFacts BigFacts BigFacts2 PkgFacts FactsPpc DecFacts DecFacts2 ClaimsExt PkgExact.
From Verif Require BigFloat.
From Verif Require Import ExtFloat.
Open Scope Z_scope.

Lemma floatBits_range f flt mb eb : format_of flt mb eb -> 0 <= fst (floatBits f flt) < 2 ^ (mb + eb + 1).
Proof.
  intros Hf. assert (P : mantbits flt = mb /\ expbits flt = eb /\ 1 <= mb /\ 2 <= eb /\ mb + eb <= 63)
    by (destruct Hf as [(-> & -> & ->)|[(-> & -> & ->)|(-> & -> & ->)]]; cbn [mantbits expbits float16info float32info float64info]; lia).
  destruct P as (<- & <- & Pm & Pe & Pt).
  unfold floatBits. destruct (Normalize f) as [g sh].
  repeat match goal with |- context [let (_, _) := ?t in _] => destruct t end. cbn [fst].
  set (A := Z.land _ _). set (C := Z.land _ (2 ^ expbits flt - 1)).
  assert (HA : 0 <= A < 2 ^ mantbits flt) by (unfold A; rewrite land_ones_mod by lia; apply Z.mod_pos_bound, pow2_pos; lia).
  assert (HC : 0 <= C < 2 ^ expbits flt) by (unfold C; rewrite land_ones_mod by lia; apply Z.mod_pos_bound, pow2_pos; lia).
  clearbody A C.
  assert (L1 : 2 ^ expbits flt <= 2 ^ 64) by (apply Z.pow_le_mono_r; lia).
  assert (L2 : 2 ^ (mantbits flt + expbits flt) <= 2 ^ 64) by (apply Z.pow_le_mono_r; lia).
  assert (L3 : 2 ^ mantbits flt <= 2 ^ (mantbits flt + expbits flt)) by (apply Z.pow_le_mono_r; lia).
  assert (L4 : 2 ^ (mantbits flt + expbits flt + 1) = 2 * 2 ^ (mantbits flt + expbits flt)) by (rewrite Z.pow_add_r by lia; change (2 ^ 1) with 2; ring).
  assert (HD : 0 <= C * 2 ^ mantbits flt < 2 ^ (mantbits flt + expbits flt)).
  { rewrite Z.pow_add_r by lia. pose proof (pow2_pos (mantbits flt) ltac:(lia)). nia. }
  unfold u64. rewrite (Z.mod_small C) by lia. rewrite Z.shiftl_mul_pow2 by lia. rewrite (Z.mod_small (C * _)) by lia.
  destruct (neg g); repeat apply lor_lt; lia.
Qed.

(** Half the least float rounds to 0. *)
Lemma rn_half_least mb eb : 1 <= mb -> 2 <= eb -> rn mb eb (p2 (1 - 2 ^ (eb - 1) - mb)) = 0%R.
Proof.
  intros Hm He. rewrite <- (Rmult_1_l (p2 _)). change 1%R with (IZR 1). change (IZR 1 * ?x)%R with (sgnR false (IZR 1 * x)).
  apply (BigFacts.rn_small mb eb false 1 (1 - 2 ^ (eb - 1) - mb)); try lia. right.
  unfold BigFloat.gexp. change (BigFloat.bitlen 1) with 1. split; [lia|reflexivity].
Qed.

Lemma c81 : forall flt mb eb b s v m e10 tr f, format_of flt mb eb -> 0 <= b < 2 ^ (mb + eb + 1) ->
  ieee mb eb b = VNum s (sgnR s v) -> (0 < v)%R -> 0 < m < 2 ^ 64 -> rn mb eb (IZR m * p10 e10) = v ->
  AssignDecimal m e10 s tr flt = Ret (f, true) -> fst (floatBits f flt) = b.
Proof.
  intros flt mb eb b s v m e10 tr f Hf Hb Hv Hpos Hm Hrn HA.
  assert (P : 1 <= mb /\ 2 <= eb) by (destruct Hf as [(_ & -> & ->)|[(_ & -> & ->)|(_ & -> & ->)]]; lia).
  destruct P as [Pm Pe].
  assert (Far : (p2 (1 - 2 ^ (eb - 1) - mb) < IZR m * p10 e10)%R).
  { apply Rnot_le_lt. intros L. apply (rn_mono mb eb) in L; [|exact Pm]. rewrite rn_half_least in L by assumption. lra. }
  pose proof (c50p flt mb eb m e10 s tr f Hf Hm (or_intror Far) HA) as R.
  pose proof (fits_ieee mb eb b s _ ltac:(lia) Pe Hb Hv) as [[_ Ff] _].
  assert (Ers : rn mb eb (sgnR s (IZR m * p10 e10)) = sgnR s v).
  { destruct s; cbn [sgnR]; [|exact Hrn]. rewrite <- Hrn. apply round_NE_opp. }
  unfold ieee_round in R. rewrite Ers in R. rewrite Rle_bool_false in R by exact Ff.
  apply (ieee_inj mb eb); try lia.
  - apply floatBits_range. exact Hf.
  - congruence.
  - intros t. rewrite R. discriminate.
Qed.

Lemma c81_shortest : forall flt mb eb b s v x m e10 tr f, format_of flt mb eb -> 0 <= b < 2 ^ (mb + eb + 1) ->
  ieee mb eb b = VNum s (sgnR s v) -> (0 < v)%R -> shortest_digits mb eb v x ->
  0 < m < 2 ^ 64 -> x = (IZR m * p10 e10)%R ->
  AssignDecimal m e10 s tr flt = Ret (f, true) -> fst (floatBits f flt) = b.
Proof.
  intros flt mb eb b s v x m e10 tr f Hf Hb Hv Hpos (_ & Hrn & _) Hm ->. exact (c81 flt mb eb b s v m e10 tr f Hf Hb Hv Hpos Hm Hrn).
Qed.
