(** C107 below the normal range, where floats have fewer bits. *)
From Coq Require Import ZArith Reals Lia Lra Bool List String.
From Flocq Require Import Core.
From Verif Require Import GoBase Spec SpecText SpecDec SpecFtoa BitFacts RoundFacts BigFacts BigFacts2 BigFacts3 IeeeFacts DecFacts PkgFacts ClaimsMore ClaimsKeep.
From Verif Require PkgExact ExtShort ClaimsLen ClaimsLenF ClaimsSame ClaimsFtoa ClaimsFtoa2 ClaimsTwice.
From Verif Require Import Ftoa SpecFmt.
Import ListNotations.
Open Scope Z_scope.

(** How far the nearest float is at most, for numbers up to M where floats have m bits after the first. *)
Lemma rn_error_low mb eb m y M : 1 <= mb -> 2 <= eb -> 0 <= m <= mb -> (0 <= y <= M)%R -> (p2 (2 - 2 ^ (eb - 1) - mb + m) <= M)%R ->
  (Rabs (rn mb eb y - y) * IZR (2 ^ (m + 1)) <= M)%R.
Proof.
  intros Hm He Hl Hy L. destruct (Rle_or_lt (p2 (2 - 2 ^ (eb - 1))) M) as [N|N].
  - apply Rle_trans with (2 := rn_error mb eb y M Hm He Hy N). apply Rmult_le_compat_l; [apply Rabs_pos|]. apply IZR_le. apply Z.pow_le_mono_r; lia.
  - pose proof (valid_FLT mb eb ltac:(lia)) as V. assert (Pg : Prec_gt_0 (mb + 1)) by (unfold Prec_gt_0; lia).
    pose proof (error_le_half_ulp radix2 (FLT_exp (3 - 2 ^ (eb - 1) - (mb + 1)) (mb + 1)) (fun x => negb (Z.even x)) y) as E.
    rewrite (ulp_FLT_small radix2 (3 - 2 ^ (eb - 1) - (mb + 1)) (mb + 1) y) in E.
    2:{ rewrite Rabs_pos_eq by lra. replace (3 - 2 ^ (eb - 1) - (mb + 1) + (mb + 1)) with (1 + (2 - 2 ^ (eb - 1))) by lia. fold (p2 (1 + (2 - 2 ^ (eb - 1)))). rewrite p2_plus. change (p2 1) with 2%R. pose proof (p2_pos (2 - 2 ^ (eb - 1))). lra. }
    fold (p2 (3 - 2 ^ (eb - 1) - (mb + 1))) in E. replace (3 - 2 ^ (eb - 1) - (mb + 1)) with (2 - 2 ^ (eb - 1) - mb) in E by lia.
    apply Rle_trans with (2 := L). unfold rn. replace (3 - 2 ^ (eb - 1) - (mb + 1)) with (2 - 2 ^ (eb - 1) - mb) by lia.
    rewrite (p2_plus (2 - 2 ^ (eb - 1) - mb) m). replace (m + 1) with (1 + m) by lia. rewrite Z.pow_add_r, mult_IZR, (IZR_pow2 m) by lia. change (IZR (2 ^ 1)) with 2%R.
    set (d := p2 (2 - 2 ^ (eb - 1) - mb)) in *. pose proof (p2_pos m) as P. match goal with |- (?a * _ <= _)%R => assert (a <= / 2 * d)%R by exact E; nra end.
Qed.

Lemma sig_back_low n mb eb m x : 1 <= n -> 1 <= mb -> 2 <= eb -> 1 <= m <= mb -> 10 ^ n <= 2 ^ m -> sig_digits n x -> (p2 (2 - 2 ^ (eb - 1) - mb + m) <= x)%R -> sig_round n (rn mb eb x) = x.
Proof.
  intros Hn Hmb He Hm H S L. pose proof (p2_pos (2 - 2 ^ (eb - 1) - mb + m)) as P. set (v := rn mb eb x).
  pose proof (rn_error_low mb eb m x x Hmb He ltac:(lia) ltac:(lra) L) as E. fold v in E.
  assert (E2 : (Rabs (sig_round n v - v) <= Rabs (x - v))%R) by (apply ClaimsSame.sig_round_nearest; [lia|exact S]). rewrite (Rabs_minus_sym x v) in E2.
  assert (P2 : (IZR (2 ^ (m + 1)) = 2 * IZR (2 ^ m))%R) by (rewrite <- mult_IZR; f_equal; rewrite Z.pow_add_r by lia; lia). rewrite P2 in E.
  assert (P4 : (4 <= 2 * IZR (2 ^ m))%R) by (rewrite <- mult_IZR; apply IZR_le; pose proof (Z.pow_le_mono_r 2 1 m ltac:(lia) ltac:(lia)); lia).
  assert (T : (Rabs (sig_round n v - x) <= 2 * Rabs (v - x))%R).
  { replace (sig_round n v - x)%R with (sig_round n v - v + (v - x))%R by ring. apply Rle_trans with (1 := Rabs_triang _ _). lra. }
  assert (D : (Rabs (sig_round n v - x) * IZR (2 ^ m) <= x)%R) by (apply (Rmult_le_compat_r (IZR (2 ^ m))) in T; [lra|lra]).
  assert (Y : (0 < sig_round n v)%R).
  { assert (C : (Rabs (sig_round n v - x) * 2 <= x)%R) by (apply Rle_trans with (2 := D); apply Rmult_le_compat_l; [apply Rabs_pos|lra]). pose proof (Rle_abs (- (sig_round n v - x))) as A. rewrite Rabs_Ropp in A. lra. }
  apply (digits_same n m x _ Hn ltac:(lia) H S (ClaimsLen.sig_digits_round n v Hn)); [lra|exact Y|]. apply Rle_trans with (1 := D). apply Rmax_l.
Qed.

Lemma only_digits_low n mb eb m x y : 1 <= n -> 1 <= mb -> 2 <= eb -> 1 <= m <= mb -> 10 ^ n <= 2 ^ m -> sig_digits n x -> sig_digits n y -> (p2 (2 - 2 ^ (eb - 1) - mb + m) <= x)%R -> (0 < y)%R ->
  rn mb eb y = rn mb eb x -> y = x.
Proof.
  intros Hn Hmb He Hm H Sx Sy L Y E. pose proof (p2_pos (2 - 2 ^ (eb - 1) - mb + m)) as P. apply (digits_same n m x y Hn ltac:(lia) H Sx Sy); [lra|exact Y|].
  pose proof (Rmax_l x y) as M1. pose proof (Rmax_r x y) as M2. set (M := Rmax x y) in *.
  pose proof (rn_error_low mb eb m x M Hmb He ltac:(lia) ltac:(lra) ltac:(lra)) as E1. pose proof (rn_error_low mb eb m y M Hmb He ltac:(lia) ltac:(lra) ltac:(lra)) as E2. rewrite E in E2. set (v := rn mb eb x) in *.
  assert (P2 : (IZR (2 ^ (m + 1)) = 2 * IZR (2 ^ m))%R) by (rewrite <- mult_IZR; f_equal; rewrite Z.pow_add_r by lia; lia). rewrite P2 in E1, E2.
  assert (P4 : (0 <= IZR (2 ^ m))%R) by (apply IZR_le; apply Z.pow_nonneg; lia).
  assert (T : (Rabs (y - x) <= Rabs (v - y) + Rabs (v - x))%R). { replace (y - x)%R with (- (v - y) + (v - x))%R by ring. apply Rle_trans with (1 := Rabs_triang _ _). rewrite Rabs_Ropp. lra. }
  apply (Rmult_le_compat_r (IZR (2 ^ m))) in T; [|exact P4]. lra.
Qed.

Lemma c107e_low : forall w opt val fmt prec bitSize mb eb b s m x, w = 32 \/ w = 64 ->
  as_float bitSize val mb eb b s -> ieee mb eb b = VNum s (sgnR s (rn mb eb x)) -> fmt = 101 \/ fmt = 69 -> 0 <= prec -> m <= mb -> 10 ^ (prec + 1) <= 2 ^ m ->
  sig_digits (prec + 1) x -> (p2 (2 - 2 ^ (eb - 1) - mb + m) <= x)%R ->
  exists t fp, FormatFloat w opt val fmt prec bitSize = Ret t /\ Z.of_nat (List.length fp) = prec /\ prints_e fmt s fp x t.
Proof.
  intros w opt val fmt prec bitSize mb eb b s m x Hw A Ev F Hp Hm H S L. destruct (float_sizes _ _ _ _ _ _ A) as [Hmb He].
  assert (M1 : 1 <= m). { assert (10 ^ 1 <= 10 ^ (prec + 1)) by (apply Z.pow_le_mono_r; lia). destruct (Z_lt_le_dec m 1) as [C|C]; [|exact C]. exfalso. assert (2 ^ m <= 1); [|lia]. destruct (Z_lt_le_dec m 0); [rewrite Z.pow_neg_r by assumption; lia|replace m with 0 by lia; reflexivity]. }
  assert (Pb : prec < 2 ^ (w - 1) - 1).
  { assert (prec < 60); [|destruct Hw as [-> | ->]; lia]. apply Z.nle_gt. intros C. assert (10 ^ 60 <= 10 ^ (prec + 1)) by (apply Z.pow_le_mono_r; lia). assert (mb <= 52) by (destruct A as (_ & _ & v & _ & _ & [(_ & -> & _)|[(_ & -> & _)|(_ & -> & _)]]); lia). assert (2 ^ m <= 2 ^ 52) by (apply Z.pow_le_mono_r; lia). lia. }
  destruct (ClaimsFtoa.c51e w opt val fmt prec bitSize mb eb b s _ Hw A Ev F (conj Hp Pb)) as (t & fp & E & Lf & P). rewrite (sig_back_low (prec + 1) mb eb m x) in P by (try assumption; lia). exists t, fp. auto.
Qed.

Lemma c107g_low : forall w opt val fmt prec bitSize mb eb b s m x, w = 32 \/ w = 64 ->
  as_float bitSize val mb eb b s -> ieee mb eb b = VNum s (sgnR s (rn mb eb x)) -> fmt = 103 \/ fmt = 71 -> 1 <= prec -> 1 <= m <= mb -> 10 ^ prec <= 2 ^ m ->
  sig_digits prec x -> (p2 (2 - 2 ^ (eb - 1) - mb + m) <= x)%R ->
  exists t fp, FormatFloat w opt val fmt prec bitSize = Ret t /\ no_zero_end fp /\ prints_g (fmt - 2) prec s fp x t.
Proof.
  intros w opt val fmt prec bitSize mb eb b s m x Hw A Ev F Hp Hm H S L. destruct (float_sizes _ _ _ _ _ _ A) as [Hmb He].
  destruct (ClaimsFtoa.c51g w opt val fmt prec bitSize mb eb b s _ Hw A Ev F ltac:(lia)) as (t & fp & E & Lf & P). rewrite Z.max_l in P by lia. rewrite (sig_back_low prec mb eb m x) in P by (try assumption; lia). exists t, fp. auto.
Qed.

(** With a number of places: anywhere if a unit of the last place is more than twice the distance of the floats. *)
Lemma places_back_low p mb eb N : 1 <= mb -> 2 <= eb -> 0 <= N < 2 ^ mb -> (p2 (2 - 2 ^ (eb - 1) - mb) < p10 (- p))%R -> round10 (- p) (rn mb eb (IZR N * p10 (- p))) = (IZR N * p10 (- p))%R.
Proof.
  intros Hm He HN U. pose proof (p10_pos (- p)) as Q. pose proof (p10_pos (- - p)) as Q2. assert (QQ : (p10 (- p) * p10 (- - p) = 1)%R) by (rewrite <- p10_plus; replace (- p + - - p) with 0 by lia; reflexivity).
  assert (N0 : (0 <= IZR N)%R) by (apply IZR_le; lia).
  destruct (Rle_or_lt (p2 (2 - 2 ^ (eb - 1))) (IZR N * p10 (- p))) as [L|L]; [apply places_back; assumption|].
  set (x := (IZR N * p10 (- p))%R) in *. assert (X0 : (0 <= x)%R) by (apply Rmult_le_pos; lra).
  assert (E : (Rabs (rn mb eb x - x) <= / 2 * p2 (2 - 2 ^ (eb - 1) - mb))%R).
  { pose proof (rn_error_low mb eb mb x (p2 (2 - 2 ^ (eb - 1))) Hm He ltac:(lia) ltac:(lra)) as E. replace (2 - 2 ^ (eb - 1) - mb + mb) with (2 - 2 ^ (eb - 1)) in E by lia. specialize (E (Rle_refl _)).
    replace (mb + 1) with (1 + mb) in E by lia. rewrite Z.pow_add_r, mult_IZR, (IZR_pow2 mb) in E by lia. change (IZR (2 ^ 1)) with 2%R in E. assert (Z0 : p2 (2 - 2 ^ (eb - 1)) = (p2 (2 - 2 ^ (eb - 1) - mb) * p2 mb)%R) by (rewrite <- p2_plus; f_equal; lia). rewrite Z0 in E. pose proof (p2_pos mb). apply (Rmult_le_reg_r (2 * p2 mb)); lra. }
  set (v := rn mb eb x) in *. unfold round10. replace (ZnearestE (v * p10 (- - p))) with N; [reflexivity|]. symmetry. apply Znearest_imp.
  replace (v * p10 (- - p) - IZR N)%R with ((v - x) * p10 (- - p))%R by (unfold x; rewrite Rmult_minus_distr_r, Rmult_assoc, QQ; ring).
  rewrite Rabs_mult, (Rabs_pos_eq (p10 (- - p))) by lra. apply Rlt_le_trans with (/ 2 * p10 (- p) * p10 (- - p))%R; [apply Rmult_lt_compat_r; lra|]. rewrite Rmult_assoc, QQ. lra.
Qed.

Lemma c107f_low : forall w opt val prec bitSize mb eb b s N, w = 32 \/ w = 64 -> let x := (IZR N * p10 (- prec))%R in
  as_float bitSize val mb eb b s -> ieee mb eb b = VNum s (sgnR s (rn mb eb x)) -> 0 <= prec < 2 ^ (w - 1) -> 0 <= N < 2 ^ mb -> (p2 (2 - 2 ^ (eb - 1) - mb) < p10 (- prec))%R ->
  exists t fp, FormatFloat w opt val 102 prec bitSize = Ret t /\ Z.of_nat (List.length fp) = prec /\ prints_f s fp x t.
Proof.
  intros w opt val prec bitSize mb eb b s N Hw x A Ev Hp H L. destruct (float_sizes _ _ _ _ _ _ A) as [Hm He].
  destruct (ClaimsFtoa.c51f w opt val prec bitSize mb eb b s _ Hw A Ev Hp) as (t & fp & E & Lf & P). unfold x in P. rewrite (places_back_low prec mb eb N) in P by assumption. exists t, fp. auto.
Qed.

Lemma c107s_low : forall w opt val fmt prec bitSize mb eb b s m n x, w = 32 \/ w = 64 ->
  as_float bitSize val mb eb b s -> ieee mb eb b = VNum s (sgnR s (rn mb eb x)) ->
  fmt = 101 \/ fmt = 69 \/ fmt = 102 \/ fmt = 103 \/ fmt = 71 -> prec < 0 -> 1 <= m <= mb -> 10 ^ n <= 2 ^ m ->
  sig_digits n x -> (p2 (2 - 2 ^ (eb - 1) - mb + m) <= x)%R ->
  exists t fp, FormatFloat w opt val fmt prec bitSize = Ret t /\ no_zero_end fp /\ prints_short fmt s fp x t.
Proof.
  intros w opt val fmt prec bitSize mb eb b s m n x Hw A Ev F Hp Hm H S L. destruct (float_sizes _ _ _ _ _ _ A) as [Hmb He]. pose proof (p2_pos (2 - 2 ^ (eb - 1) - mb + m)) as P0.
  destruct (ClaimsFtoa2.c77 w opt val fmt prec bitSize mb eb b s _ Hw A Ev F Hp) as (y & Sh & _ & fp & t & E & NZ & P).
  pose proof (ClaimsLenF.sig_pos n x ltac:(lra) S) as Hn. destruct Sh as (Y & Ry & Few & _). pose proof (Few x n eq_refl S) as Sy.
  assert (Y0 : (0 < y)%R).
  { destruct Y as [Y|Y]; [exact Y|]. exfalso. rewrite <- Y in Ry. rewrite rn_0 in Ry. pose proof (PkgExact.rn_mono mb eb (p2 (2 - 2 ^ (eb - 1) - mb + m)) x Hmb L) as M. rewrite <- Ry in M. rewrite (fits_rn mb eb (p2 (2 - 2 ^ (eb - 1) - mb + m))) in M; [lra|lia|].
    assert (2 <= 2 ^ (eb - 1)) by (apply (Z.pow_le_mono_r 2 1 (eb - 1)); lia). split; [exists 1, (2 - 2 ^ (eb - 1) - mb + m); split; [ring|]; split; [|lia]; change (Z.abs 1) with 1; apply (Z.pow_gt_1 2 (mb + 1)); lia|]. rewrite Rabs_pos_eq by lra. apply bpow_lt. lia. }
  rewrite (only_digits_low n mb eb m x y Hn Hmb He Hm H S Sy L Y0 Ry) in P. exists t, fp. auto.
Qed.

Lemma rn_low_int mb eb M k n : 1 <= mb -> 2 <= eb -> 0 <= k -> let j := 2 ^ (eb - 1) + mb - 1 in 0 < n < 2 ^ (mb + 1) ->
  (2 * n - 1) * 10 ^ k < M * 2 ^ j < (2 * n + 1) * 10 ^ k -> rn mb eb (IZR M * p10 (- k)) = (IZR n * p2 (1 - j))%R.
Proof.
  intros Hm He Hk j Hn H. assert (2 <= 2 ^ (eb - 1)) by (apply (Z.pow_le_mono_r 2 1 (eb - 1)); lia). pose proof (p2_pos (- j)) as P. pose proof (p10_pos (- k)) as Q. assert (N0 : (0 < IZR n)%R) by (apply (IZR_lt 0); lia).
  assert (J : p2 (1 - j) = (2 * p2 (- j))%R) by (replace (1 - j) with (1 + - j) by lia; rewrite p2_plus; reflexivity).
  apply ClaimsLenF.rn_least; [exact Hm|exact He|rewrite J; nra| |].
  - split; [exists n, (1 - j); split; [reflexivity|]; split; [lia|unfold j; lia]|]. rewrite Rabs_pos_eq by (rewrite J; nra).
    apply Rlt_le_trans with (p2 (mb + 1) * p2 (1 - j))%R; [apply Rmult_lt_compat_r; [apply p2_pos|]; rewrite <- IZR_pow2 by lia; apply IZR_lt; lia|]. rewrite <- p2_plus. apply p2_le. unfold j. lia.
  - replace (1 - 2 ^ (eb - 1) - mb) with (- j) by (unfold j; lia). destruct H as [H1 H2]. apply IZR_lt in H1, H2. rewrite !mult_IZR in *. rewrite minus_IZR, mult_IZR in H1. rewrite plus_IZR, mult_IZR in H2. rewrite (IZR_pow2 j) in H1, H2 by (unfold j; lia).
    replace (IZR (10 ^ k)) with (p10 k) in H1, H2 by (symmetry; apply (IZR_Zpower radix10); exact Hk).
    assert (Q1 : (p10 k * p10 (- k) = 1)%R) by (rewrite <- p10_plus; replace (k + - k) with 0 by lia; reflexivity). assert (P1 : (p2 j * p2 (- j) = 1)%R) by (rewrite <- p2_plus; replace (j + - j) with 0 by lia; reflexivity).
    assert (C : (0 < p10 (- k) * p2 (- j))%R) by nra.
    assert (R1 : ((2 * IZR n - 1) * p2 (- j) < IZR M * p10 (- k))%R).
    { apply (Rmult_lt_compat_r _ _ _ C) in H1. replace ((2 * IZR n - 1) * p10 k * (p10 (- k) * p2 (- j)))%R with ((2 * IZR n - 1) * p2 (- j) * (p10 k * p10 (- k)))%R in H1 by ring. replace (IZR M * p2 j * (p10 (- k) * p2 (- j)))%R with (IZR M * p10 (- k) * (p2 j * p2 (- j)))%R in H1 by ring. rewrite Q1, P1 in H1. lra. }
    assert (R2 : (IZR M * p10 (- k) < (2 * IZR n + 1) * p2 (- j))%R).
    { apply (Rmult_lt_compat_r _ _ _ C) in H2. replace ((2 * IZR n + 1) * p10 k * (p10 (- k) * p2 (- j)))%R with ((2 * IZR n + 1) * p2 (- j) * (p10 k * p10 (- k)))%R in H2 by ring. replace (IZR M * p2 j * (p10 (- k) * p2 (- j)))%R with (IZR M * p10 (- k) * (p2 j * p2 (- j)))%R in H2 by ring. rewrite Q1, P1 in H2. lra. }
    rewrite J. apply Rabs_def1; lra.
Qed.

(** 123e-322 *)
Lemma c107_low_example : let x := (IZR 123 * p10 (- (322)))%R in
  as_float 64 2490 52 11 2490 false /\ ieee 52 11 2490 = VNum false (sgnR false (rn 52 11 x)) /\ 10 ^ (2 + 1) <= 2 ^ 10 /\
  sig_digits (2 + 1) x /\ (p2 (2 - 2 ^ (11 - 1) - 52 + 10) <= x)%R.
Proof.
  intros x. assert (V : ieee 52 11 2490 = VNum false (IZR 2490 * p2 (-1074))) by reflexivity.
  assert (R : rn 52 11 x = (IZR 2490 * p2 (-1074))%R) by (apply (rn_low_int 52 11 123 322 2490); [lia|lia|lia|lia|split; vm_compute; reflexivity]).
  split; [apply (ClaimsFtoa2.as_float_64 _ false (IZR 2490 * p2 (-1074))); [lia|exact V]|]. split; [rewrite V; cbn [sgnR]; rewrite R; reflexivity|].
  split; [lia|]. split; [exists 123, (- (322)); split; [reflexivity|lia]|].
  change (2 - 2 ^ (11 - 1) - 52 + 10) with (-1064). unfold x. pose proof (p2_pos (-1064)) as P. pose proof (p10_pos (- (322))) as Q.
  assert (H : (IZR (10 ^ 322) <= IZR (123 * 2 ^ 1064))%R) by (apply IZR_le, Z.leb_le; vm_compute; reflexivity). rewrite mult_IZR, (IZR_pow2 1064) in H by lia.
  replace (IZR (10 ^ 322)) with (p10 322) in H by (symmetry; apply (IZR_Zpower radix10); lia).
  assert (Q1 : (p10 322 * p10 (- (322)) = 1)%R) by (rewrite <- p10_plus; reflexivity). assert (P1 : (p2 1064 * p2 (-1064) = 1)%R) by (rewrite <- p2_plus; reflexivity).
  apply (Rmult_le_compat_r (p10 (- (322)) * p2 (-1064))) in H; [|nra].
  replace (p10 322 * (p10 (- (322)) * p2 (-1064)))%R with (p10 322 * p10 (- (322)) * p2 (-1064))%R in H by ring. replace (123 * p2 1064 * (p10 (- (322)) * p2 (-1064)))%R with (123 * p10 (- (322)) * (p2 1064 * p2 (-1064)))%R in H by ring. rewrite Q1, P1 in H. lra.
Qed.
