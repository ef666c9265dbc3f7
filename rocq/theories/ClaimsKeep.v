(** C107: texts of few digits survive being read and printed. *)
From Coq Require Import ZArith Reals Lia Lra Bool List String.
From Flocq Require Import Core.
From Verif Require Import GoBase Spec SpecText SpecDec SpecFtoa BitFacts RoundFacts BigFacts BigFacts2 BigFacts3 IeeeFacts DecFacts PkgFacts ClaimsMore.
From Verif Require PkgExact ExtShort ClaimsLen ClaimsLenF ClaimsSame ClaimsFtoa ClaimsFtoa2 ClaimsTwice ExtFloat ClaimsExt ClaimsRead.
From Verif Require Import Ftoa SpecFmt.
Import ListNotations.
Open Scope Z_scope.

(** Two numbers of n digits are further apart than the 10^n-th part of the lesser. *)
Lemma digits_apart n x y : 1 <= n -> sig_digits n x -> sig_digits n y -> (0 < x < y)%R -> (x < (y - x) * IZR (10 ^ n))%R.
Proof.
  intros Hn Sx Sy H. destruct (mag radix10 x) as [e He]. specialize (He ltac:(lra)). rewrite Rabs_pos_eq in He by lra. fold (p10 (e - 1)) (p10 e) in He.
  destruct (ExtShort.sig_multiple n x (e - n) ltac:(lia) Sx) as (q & Ex); [replace (e - n + n - 1) with (e - 1) by lia; apply He|].
  destruct (ExtShort.sig_multiple n y (e - n) ltac:(lia) Sy) as (r & Ey); [replace (e - n + n - 1) with (e - 1) by lia; lra|].
  pose proof (p10_pos (e - n)) as P. assert (L : q < r). { apply lt_IZR. apply (Rmult_lt_reg_r (p10 (e - n))); [exact P|]. lra. }
  apply Rlt_le_trans with (1 := proj2 He). replace e with (e - n + n) at 1 by lia. rewrite p10_plus. replace (p10 n) with (IZR (10 ^ n)) by (apply (IZR_Zpower radix10); lia).
  apply Rmult_le_compat_r; [apply IZR_le; apply Z.pow_nonneg; lia|]. rewrite Ex, Ey. assert (1 <= IZR r - IZR q)%R by (rewrite <- minus_IZR; apply IZR_le; lia). nra.
Qed.

(** How far the nearest float is at most, for numbers up to M in the normal range. *)
Lemma rn_error mb eb y M : 1 <= mb -> 2 <= eb -> (0 <= y <= M)%R -> (p2 (2 - 2 ^ (eb - 1)) <= M)%R ->
  (Rabs (rn mb eb y - y) * IZR (2 ^ (mb + 1)) <= M)%R.
Proof.
  intros Hm He [Hy HM] L. pose proof (valid_FLT mb eb ltac:(lia)) as V. assert (Pg : Prec_gt_0 (mb + 1)) by (unfold Prec_gt_0; lia).
  assert (M0 : (0 < M)%R) by (pose proof (p2_pos (2 - 2 ^ (eb - 1))); lra).
  pose proof (error_le_half_ulp radix2 (FLT_exp (3 - 2 ^ (eb - 1) - (mb + 1)) (mb + 1)) (fun x => negb (Z.even x)) y) as E.
  pose proof (ulp_le_pos radix2 (FLT_exp (3 - 2 ^ (eb - 1) - (mb + 1)) (mb + 1)) y M Hy HM) as U.
  pose proof (ulp_FLT_le radix2 (3 - 2 ^ (eb - 1) - (mb + 1)) (mb + 1) M) as W. rewrite (Rabs_pos_eq M) in W by lra.
  replace (3 - 2 ^ (eb - 1) - (mb + 1) + (mb + 1) - 1) with (2 - 2 ^ (eb - 1)) in W by lia. specialize (W L).
  replace (1 - (mb + 1)) with (- mb) in W by lia. fold (p2 (- mb)) in W.
  assert (X : (p2 (- mb) * IZR (2 ^ (mb + 1)) = 2)%R) by (rewrite IZR_pow2, <- p2_plus by lia; replace (- mb + (mb + 1)) with 1 by lia; reflexivity).
  assert (B : (Rabs (rn mb eb y - y) <= / 2 * (M * p2 (- mb)))%R) by (unfold rn; lra).
  apply (Rmult_le_compat_r (IZR (2 ^ (mb + 1)))) in B; [|apply IZR_le; apply Z.pow_nonneg; lia]. replace (/ 2 * (M * p2 (- mb)) * IZR (2 ^ (mb + 1)))%R with (/ 2 * M * (p2 (- mb) * IZR (2 ^ (mb + 1))))%R in B by ring. rewrite X in B. lra.
Qed.

(** 10^n is not a power of two. *)
Lemma ten_two n mb : 1 <= n -> 1 <= mb -> 10 ^ n <= 2 ^ mb -> 10 ^ n < 2 ^ mb.
Proof.
  intros Hn Hm H. apply Z.le_neq. split; [exact H|]. intros E. assert (D : (5 | 2 ^ mb)) by (rewrite <- E; replace n with (1 + (n - 1)) by lia; rewrite Z.pow_add_r by lia; exists (2 * 10 ^ (n - 1)); change (10 ^ 1) with 10; ring).
  assert (Zn : forall k : nat, ~ (5 | 2 ^ Z.of_nat k)).
  { intros k. induction k as [|k IH]; [intros [z Z]; change (2 ^ Z.of_nat 0) with 1 in Z; lia|]. rewrite Nat2Z.inj_succ, Z.pow_succ_r by lia. intros [z Z]. apply IH. exists (3 * z - 2 ^ Z.of_nat k). lia. }
  apply (Zn (Z.to_nat mb)). rewrite Z2Nat.id by lia. exact D.
Qed.

(** So two numbers of n digits whose distance is at most the 2^mb-th part of the greater are the same. *)
Lemma digits_same n mb x y : 1 <= n -> 1 <= mb -> 10 ^ n <= 2 ^ mb -> sig_digits n x -> sig_digits n y -> (0 < x)%R -> (0 < y)%R ->
  (Rabs (y - x) * IZR (2 ^ mb) <= Rmax x y)%R -> y = x.
Proof.
  intros Hn Hm H Sx Sy X Y D. apply ten_two in H; try assumption.
  assert (K : forall a c, sig_digits n a -> sig_digits n c -> (0 < a < c)%R -> ((c - a) * IZR (2 ^ mb) <= c)%R -> False).
  { intros a c Sa Sc L Dc. pose proof (digits_apart n a c Hn Sa Sc L) as A. assert (T : (IZR (10 ^ n) <= IZR (2 ^ mb) - 1)%R) by (rewrite <- minus_IZR; apply IZR_le; lia).
    assert ((c - a) * IZR (10 ^ n) <= (c - a) * (IZR (2 ^ mb) - 1))%R by (apply Rmult_le_compat_l; lra). lra. }
  destruct (Rtotal_order x y) as [L|[L|L]]; [|symmetry; exact L|]; exfalso.
  - apply (K x y Sx Sy ltac:(lra)). rewrite Rabs_pos_eq in D by lra. rewrite Rmax_right in D by lra. exact D.
  - apply (K y x Sy Sx ltac:(lra)). rewrite Rabs_left in D by lra. rewrite Rmax_left in D by lra. lra.
Qed.

(** Reading a number of n digits and rounding to n digits. *)
Lemma sig_back n mb eb x : 1 <= n -> 1 <= mb -> 2 <= eb -> 10 ^ n <= 2 ^ mb -> sig_digits n x -> (p2 (2 - 2 ^ (eb - 1)) <= x)%R -> sig_round n (rn mb eb x) = x.
Proof.
  intros Hn Hm He H S L. pose proof (p2_pos (2 - 2 ^ (eb - 1))) as P. set (v := rn mb eb x).
  pose proof (rn_error mb eb x x Hm He ltac:(lra) L) as E. fold v in E.
  assert (E2 : (Rabs (sig_round n v - v) <= Rabs (x - v))%R) by (apply ClaimsSame.sig_round_nearest; [lia|exact S]). rewrite (Rabs_minus_sym x v) in E2.
  assert (P2 : (IZR (2 ^ (mb + 1)) = 2 * IZR (2 ^ mb))%R) by (rewrite <- mult_IZR; f_equal; rewrite Z.pow_add_r by lia; lia). rewrite P2 in E.
  assert (P4 : (4 <= 2 * IZR (2 ^ mb))%R) by (rewrite <- mult_IZR; apply IZR_le; pose proof (Z.pow_le_mono_r 2 1 mb ltac:(lia) Hm); lia).
  assert (T : (Rabs (sig_round n v - x) <= 2 * Rabs (v - x))%R).
  { replace (sig_round n v - x)%R with (sig_round n v - v + (v - x))%R by ring. apply Rle_trans with (1 := Rabs_triang _ _). lra. }
  assert (D : (Rabs (sig_round n v - x) * IZR (2 ^ mb) <= x)%R) by (apply (Rmult_le_compat_r (IZR (2 ^ mb))) in T; [lra|lra]).
  assert (Y : (0 < sig_round n v)%R).
  { assert (C : (Rabs (sig_round n v - x) * 2 <= x)%R) by (apply Rle_trans with (2 := D); apply Rmult_le_compat_l; [apply Rabs_pos|lra]). apply Rabs_le_inv in C || idtac. pose proof (Rle_abs (- (sig_round n v - x))) as A. rewrite Rabs_Ropp in A. lra. }
  apply (digits_same n mb x _ Hn Hm H S (ClaimsLen.sig_digits_round n v Hn)); [lra|exact Y|]. apply Rle_trans with (1 := D). apply Rmax_l.
Qed.

(** The only number of n digits that is read as v. *)
Lemma only_digits n mb eb x y : 1 <= n -> 1 <= mb -> 2 <= eb -> 10 ^ n <= 2 ^ mb -> sig_digits n x -> sig_digits n y -> (p2 (2 - 2 ^ (eb - 1)) <= x)%R -> (0 < y)%R ->
  rn mb eb y = rn mb eb x -> y = x.
Proof.
  intros Hn Hm He H Sx Sy L Y E. pose proof (p2_pos (2 - 2 ^ (eb - 1))) as P. apply (digits_same n mb x y Hn Hm H Sx Sy); [lra|exact Y|].
  pose proof (Rmax_l x y) as M1. pose proof (Rmax_r x y) as M2. set (M := Rmax x y) in *.
  pose proof (rn_error mb eb x M Hm He ltac:(lra) ltac:(lra)) as E1. pose proof (rn_error mb eb y M Hm He ltac:(lra) ltac:(lra)) as E2. rewrite E in E2. set (v := rn mb eb x) in *.
  assert (P2 : (IZR (2 ^ (mb + 1)) = 2 * IZR (2 ^ mb))%R) by (rewrite <- mult_IZR; f_equal; rewrite Z.pow_add_r by lia; lia). rewrite P2 in E1, E2.
  assert (P4 : (0 <= IZR (2 ^ mb))%R) by (apply IZR_le; apply Z.pow_nonneg; lia).
  assert (T : (Rabs (y - x) <= Rabs (v - y) + Rabs (v - x))%R). { replace (y - x)%R with (- (v - y) + (v - x))%R by ring. apply Rle_trans with (1 := Rabs_triang _ _). rewrite Rabs_Ropp. lra. }
  apply (Rmult_le_compat_r (IZR (2 ^ mb))) in T; [|exact P4]. lra.
Qed.

(** With a number of places. *)
Lemma places_back p mb eb N : 1 <= mb -> 2 <= eb -> 0 <= N < 2 ^ mb -> (p2 (2 - 2 ^ (eb - 1)) <= IZR N * p10 (- p))%R -> round10 (- p) (rn mb eb (IZR N * p10 (- p))) = (IZR N * p10 (- p))%R.
Proof.
  intros Hm He HN L. set (x := (IZR N * p10 (- p))%R) in *. pose proof (p2_pos (2 - 2 ^ (eb - 1))) as P. pose proof (rn_error mb eb x x Hm He ltac:(lra) L) as E. set (v := rn mb eb x) in *.
  unfold round10. replace (ZnearestE (v * p10 (- - p))) with N; [reflexivity|]. symmetry. apply Znearest_imp.
  assert (P2 : (IZR (2 ^ (mb + 1)) = 2 * IZR (2 ^ mb))%R) by (rewrite <- mult_IZR; f_equal; rewrite Z.pow_add_r by lia; lia). rewrite P2 in E.
  assert (NL : (IZR N < IZR (2 ^ mb))%R) by (apply IZR_lt; lia). pose proof (p10_pos (- p)) as Q. pose proof (p10_pos (- - p)) as Q2. assert (QQ : (p10 (- p) * p10 (- - p) = 1)%R) by (rewrite <- p10_plus; replace (- p + - - p) with 0 by lia; reflexivity).
  replace (v * p10 (- - p) - IZR N)%R with ((v - x) * p10 (- - p))%R by (unfold x; rewrite Rmult_minus_distr_r, Rmult_assoc, QQ; ring).
  rewrite Rabs_mult, (Rabs_pos_eq (p10 (- - p))) by lra. assert (NP : (0 < IZR (2 ^ mb))%R) by (apply (IZR_lt 0); lia).
  apply (Rmult_lt_reg_r (2 * IZR (2 ^ mb))); [lra|]. replace (Rabs (v - x) * p10 (- - p) * (2 * IZR (2 ^ mb)))%R with (Rabs (v - x) * (2 * IZR (2 ^ mb)) * p10 (- - p))%R by ring.
  apply Rle_lt_trans with (x * p10 (- - p))%R; [apply Rmult_le_compat_r; lra|]. unfold x. rewrite Rmult_assoc, QQ. lra.
Qed.

Lemma float_sizes bitSize val mb eb b s : as_float bitSize val mb eb b s -> 1 <= mb /\ 2 <= eb.
Proof. intros (_ & _ & v & _ & _ & [(_ & -> & ->)|[(_ & -> & ->)|(_ & -> & -> & _)]]); lia. Qed.

Lemma c107e : forall w opt val fmt prec bitSize mb eb b s x, w = 32 \/ w = 64 ->
  as_float bitSize val mb eb b s -> ieee mb eb b = VNum s (sgnR s (rn mb eb x)) -> fmt = 101 \/ fmt = 69 -> 0 <= prec -> 10 ^ (prec + 1) <= 2 ^ mb ->
  sig_digits (prec + 1) x -> (p2 (2 - 2 ^ (eb - 1)) <= x)%R ->
  exists t fp, FormatFloat w opt val fmt prec bitSize = Ret t /\ Z.of_nat (List.length fp) = prec /\ prints_e fmt s fp x t.
Proof.
  intros w opt val fmt prec bitSize mb eb b s x Hw A Ev F Hp H S L. destruct (float_sizes _ _ _ _ _ _ A) as [Hm He].
  assert (Pb : prec < 2 ^ (w - 1) - 1).
  { assert (prec < 60); [|destruct Hw as [-> | ->]; lia]. apply Z.nle_gt. intros C. assert (10 ^ 60 <= 10 ^ (prec + 1)) by (apply Z.pow_le_mono_r; lia). assert (mb <= 52) by (destruct A as (_ & _ & v & _ & _ & [(_ & -> & _)|[(_ & -> & _)|(_ & -> & _)]]); lia). assert (2 ^ mb <= 2 ^ 52) by (apply Z.pow_le_mono_r; lia). lia. }
  destruct (ClaimsFtoa.c51e w opt val fmt prec bitSize mb eb b s _ Hw A Ev F (conj Hp Pb)) as (t & fp & E & Lf & P). rewrite (sig_back (prec + 1) mb eb x) in P by (try assumption; lia). exists t, fp. auto.
Qed.

Lemma c107g : forall w opt val fmt prec bitSize mb eb b s x, w = 32 \/ w = 64 ->
  as_float bitSize val mb eb b s -> ieee mb eb b = VNum s (sgnR s (rn mb eb x)) -> fmt = 103 \/ fmt = 71 -> 1 <= prec -> 10 ^ prec <= 2 ^ mb ->
  sig_digits prec x -> (p2 (2 - 2 ^ (eb - 1)) <= x)%R ->
  exists t fp, FormatFloat w opt val fmt prec bitSize = Ret t /\ no_zero_end fp /\ prints_g (fmt - 2) prec s fp x t.
Proof.
  intros w opt val fmt prec bitSize mb eb b s x Hw A Ev F Hp H S L. destruct (float_sizes _ _ _ _ _ _ A) as [Hm He].
  destruct (ClaimsFtoa.c51g w opt val fmt prec bitSize mb eb b s _ Hw A Ev F ltac:(lia)) as (t & fp & E & Lf & P). rewrite Z.max_l in P by lia. rewrite (sig_back prec mb eb x) in P by (try assumption; lia). exists t, fp. auto.
Qed.

Lemma c107f : forall w opt val prec bitSize mb eb b s N, w = 32 \/ w = 64 -> let x := (IZR N * p10 (- prec))%R in
  as_float bitSize val mb eb b s -> ieee mb eb b = VNum s (sgnR s (rn mb eb x)) -> 0 <= prec < 2 ^ (w - 1) -> 0 <= N < 2 ^ mb -> (p2 (2 - 2 ^ (eb - 1)) <= x)%R ->
  exists t fp, FormatFloat w opt val 102 prec bitSize = Ret t /\ Z.of_nat (List.length fp) = prec /\ prints_f s fp x t.
Proof.
  intros w opt val prec bitSize mb eb b s N Hw x A Ev Hp H L. destruct (float_sizes _ _ _ _ _ _ A) as [Hm He].
  destruct (ClaimsFtoa.c51f w opt val prec bitSize mb eb b s _ Hw A Ev Hp) as (t & fp & E & Lf & P). unfold x in P. rewrite (places_back prec mb eb N) in P by assumption. exists t, fp. auto.
Qed.

Lemma c107s : forall w opt val fmt prec bitSize mb eb b s n x, w = 32 \/ w = 64 ->
  as_float bitSize val mb eb b s -> ieee mb eb b = VNum s (sgnR s (rn mb eb x)) ->
  fmt = 101 \/ fmt = 69 \/ fmt = 102 \/ fmt = 103 \/ fmt = 71 -> prec < 0 -> 10 ^ n <= 2 ^ mb ->
  sig_digits n x -> (p2 (2 - 2 ^ (eb - 1)) <= x)%R ->
  exists t fp, FormatFloat w opt val fmt prec bitSize = Ret t /\ no_zero_end fp /\ prints_short fmt s fp x t.
Proof.
  intros w opt val fmt prec bitSize mb eb b s n x Hw A Ev F Hp H S L. destruct (float_sizes _ _ _ _ _ _ A) as [Hm He]. pose proof (p2_pos (2 - 2 ^ (eb - 1))) as P0.
  destruct (ClaimsFtoa2.c77 w opt val fmt prec bitSize mb eb b s _ Hw A Ev F Hp) as (y & Sh & _ & fp & t & E & NZ & P).
  pose proof (ClaimsLenF.sig_pos n x ltac:(lra) S) as Hn. destruct Sh as (Y & Ry & Few & _). pose proof (Few x n eq_refl S) as Sy.
  assert (Y0 : (0 < y)%R).
  { destruct Y as [Y|Y]; [exact Y|]. exfalso. rewrite <- Y in Ry. rewrite rn_0 in Ry. pose proof (PkgExact.rn_mono mb eb (p2 (2 - 2 ^ (eb - 1))) x Hm L) as M. rewrite <- Ry in M. rewrite (fits_rn mb eb (p2 (2 - 2 ^ (eb - 1)))) in M; [lra|lia|].
    assert (2 <= 2 ^ (eb - 1)) by (apply (Z.pow_le_mono_r 2 1 (eb - 1)); lia). split; [exists 1, (2 - 2 ^ (eb - 1)); split; [ring|]; split; [|lia]; change (Z.abs 1) with 1; apply (Z.pow_gt_1 2 (mb + 1)); lia|]. rewrite Rabs_pos_eq by lra. apply bpow_lt. lia. }
  rewrite (only_digits n mb eb x y Hn Hm He H S Sy L Y0 Ry) in P. exists t, fp. auto.
Qed.

(** * One digit more, and subnormal numbers *)
Lemma rn_int_near mb eb Y K c : 1 <= mb -> 2 <= eb -> 0 <= c -> 2 ^ (mb + c) <= Y < 2 ^ (mb + c + 1) -> 2 * Z.abs (Y - K * 2 ^ c) < 2 ^ c -> rn mb eb (IZR Y) = IZR (K * 2 ^ c).
Proof.
  intros Hm He Hc HY HK. pose proof (pow2_pos (mb + c) ltac:(lia)) as Y0. assert (2 <= 2 ^ (eb - 1)) by (apply (Z.pow_le_mono_r 2 1 (eb - 1)); lia).
  unfold rn, round, scaled_mantissa, cexp, F2R. cbn [Fnum Fexp]. rewrite (mag_unique radix2 (IZR Y) (mb + c + 1)).
  2:{ rewrite Rabs_pos_eq by (apply IZR_le; lia). replace (mb + c + 1 - 1) with (mb + c) by lia. fold (p2 (mb + c)) (p2 (mb + c + 1)). rewrite <- !IZR_pow2 by lia. split; [apply IZR_le; lia|apply IZR_lt; lia]. }
  unfold FLT_exp. replace (Z.max (mb + c + 1 - (mb + 1)) (3 - 2 ^ (eb - 1) - (mb + 1))) with c by lia. fold (p2 (- c)) (p2 c).
  assert (Q : (p2 c * p2 (- c) = 1)%R) by (rewrite <- p2_plus; replace (c + - c) with 0 by lia; reflexivity). pose proof (p2_pos (- c)) as P. pose proof (p2_pos c) as P'.
  replace (ZnearestE (IZR Y * p2 (- c))) with K; [rewrite mult_IZR, IZR_pow2 by lia; reflexivity|]. symmetry. apply Znearest_imp.
  replace (IZR Y * p2 (- c) - IZR K)%R with (IZR (Y - K * 2 ^ c) * p2 (- c))%R by (rewrite minus_IZR, mult_IZR, IZR_pow2 by lia; rewrite Rmult_minus_distr_r, Rmult_assoc, Q; ring).
  rewrite Rabs_mult, <- abs_IZR, (Rabs_pos_eq (p2 (- c))) by lra. apply (Rmult_lt_reg_r (2 * p2 c)); [lra|]. replace (IZR (Z.abs (Y - K * 2 ^ c)) * p2 (- c) * (2 * p2 c))%R with (2 * IZR (Z.abs (Y - K * 2 ^ c)) * (p2 c * p2 (- c)))%R by ring. rewrite Q, Rmult_1_r.
  replace (/ 2 * (2 * p2 c))%R with (p2 c) by lra. rewrite <- (IZR_pow2 c) by lia. rewrite <- mult_IZR. apply IZR_lt. exact HK.
Qed.

Lemma int_digits n M k Y : Y = M * 10 ^ k -> 0 <= k -> Z.abs M < 10 ^ n -> sig_digits n (IZR Y).
Proof. intros -> Hk H. exists M, k. split; [|exact H]. rewrite mult_IZR. f_equal. apply (IZR_Zpower radix10). exact Hk. Qed.

Lemma int_normal eb Y : 2 <= eb -> 1 <= Y -> (p2 (2 - 2 ^ (eb - 1)) <= IZR Y)%R.
Proof. intros He H. assert (2 <= 2 ^ (eb - 1)) by (apply (Z.pow_le_mono_r 2 1 (eb - 1)); lia). apply Rle_trans with (p2 0); [apply p2_le; lia|]. apply (IZR_le 1). exact H. Qed.

Lemma c107_sharp : forall mb eb n, (mb = 52 /\ eb = 11 /\ n = 16) \/ (mb = 23 /\ eb = 8 /\ n = 7) \/ (mb = 10 /\ eb = 5 /\ n = 4) ->
  exists x y, sig_digits n x /\ sig_digits n y /\ (p2 (2 - 2 ^ (eb - 1)) <= x < y)%R /\ rn mb eb x = rn mb eb y.
Proof.
  intros mb eb n [(-> & -> & ->)|[(-> & -> & ->)|(-> & -> & ->)]].
  - exists (IZR 9223372036854777000), (IZR 9223372036854778000). split; [apply (int_digits 16 9223372036854777 3); lia|]. split; [apply (int_digits 16 9223372036854778 3); lia|].
    split; [split; [apply int_normal; lia|apply IZR_lt; lia]|]. rewrite (rn_int_near 52 11 _ (2 ^ 52 + 1) 11), (rn_int_near 52 11 _ (2 ^ 52 + 1) 11) by (try lia; vm_compute; reflexivity || (split; [discriminate|reflexivity])). reflexivity.
  - exists (IZR 8589973000), (IZR 8589974000). split; [apply (int_digits 7 8589973 3); lia|]. split; [apply (int_digits 7 8589974 3); lia|].
    split; [split; [apply int_normal; lia|apply IZR_lt; lia]|]. rewrite (rn_int_near 23 8 _ 8388646 10), (rn_int_near 23 8 _ 8388646 10) by lia. reflexivity.
  - exists (IZR 4096), (IZR 4097). split; [apply (int_digits 4 4096 0); lia|]. split; [apply (int_digits 4 4097 0); lia|].
    split; [split; [apply int_normal; lia|apply IZR_lt; lia]|]. rewrite (rn_int_near 10 5 _ 1024 2), (rn_int_near 10 5 _ 1024 2) by lia. reflexivity.
Qed.

Lemma rn_tiny_near mb eb M k : 1 <= mb -> 2 <= eb -> 0 <= k -> let j := 2 ^ (eb - 1) + mb - 1 in
  10 ^ k < M * 2 ^ j < 3 * 10 ^ k -> rn mb eb (IZR M * p10 (- k)) = p2 (1 - j).
Proof.
  intros Hm He Hk j H. assert (2 <= 2 ^ (eb - 1)) by (apply (Z.pow_le_mono_r 2 1 (eb - 1)); lia). pose proof (p2_pos (- j)) as P. pose proof (p10_pos (- k)) as Q.
  assert (J : p2 (1 - j) = (2 * p2 (- j))%R) by (replace (1 - j) with (1 + - j) by lia; rewrite p2_plus; reflexivity).
  apply ClaimsLenF.rn_least; [exact Hm|exact He|apply p2_pos| |].
  - split; [exists 1, (1 - j); split; [ring|]; split; [|unfold j; lia]; change (Z.abs 1) with 1; apply (Z.pow_gt_1 2 (mb + 1)); lia|]. rewrite Rabs_pos_eq by (apply Rlt_le, p2_pos). apply bpow_lt. unfold j. lia.
  - replace (1 - 2 ^ (eb - 1) - mb) with (- j) by (unfold j; lia). destruct H as [H1 H2]. apply IZR_lt in H1, H2. rewrite !mult_IZR in *. rewrite (IZR_pow2 j) in H1, H2 by (unfold j; lia).
    replace (IZR (10 ^ k)) with (p10 k) in H1, H2 by (symmetry; apply (IZR_Zpower radix10); exact Hk).
    assert (Q1 : (p10 k * p10 (- k) = 1)%R) by (rewrite <- p10_plus; replace (k + - k) with 0 by lia; reflexivity). assert (P1 : (p2 j * p2 (- j) = 1)%R) by (rewrite <- p2_plus; replace (j + - j) with 0 by lia; reflexivity).
    assert (R1 : (p2 (- j) < IZR M * p10 (- k))%R).
    { apply (Rmult_lt_compat_r (p10 (- k) * p2 (- j))) in H1; [|nra]. replace (p10 k * (p10 (- k) * p2 (- j)))%R with (p10 k * p10 (- k) * p2 (- j))%R in H1 by ring. replace (IZR M * p2 j * (p10 (- k) * p2 (- j)))%R with (IZR M * p10 (- k) * (p2 j * p2 (- j)))%R in H1 by ring. rewrite Q1, P1 in H1. lra. }
    assert (R2 : (IZR M * p10 (- k) < 3 * p2 (- j))%R).
    { apply (Rmult_lt_compat_r (p10 (- k) * p2 (- j))) in H2; [|nra]. replace (3 * p10 k * (p10 (- k) * p2 (- j)))%R with (3 * (p10 k * p10 (- k)) * p2 (- j))%R in H2 by ring. replace (IZR M * p2 j * (p10 (- k) * p2 (- j)))%R with (IZR M * p10 (- k) * (p2 j * p2 (- j)))%R in H2 by ring. rewrite Q1, P1 in H2. lra. }
    rewrite J. apply Rabs_def1; lra.
Qed.

Lemma one_digit M e : Z.abs M < 10 -> sig_digits 1 (IZR M * p10 e).
Proof. intros H. exists M, e. split; [reflexivity|exact H]. Qed.

Lemma c107_subnormal : forall mb eb, (mb = 52 /\ eb = 11) \/ (mb = 23 /\ eb = 8) \/ (mb = 10 /\ eb = 5) ->
  exists x y, sig_digits 1 x /\ sig_digits 1 y /\ (0 < x < y)%R /\ rn mb eb x = rn mb eb y /\ rn mb eb x <> 0%R.
Proof.
  assert (K : forall mb eb k M, 1 <= mb -> 2 <= eb -> 0 <= k -> 1 <= M <= 8 -> let j := 2 ^ (eb - 1) + mb - 1 in 10 ^ k < M * 2 ^ j -> (M + 1) * 2 ^ j < 3 * 10 ^ k ->
    exists x y, sig_digits 1 x /\ sig_digits 1 y /\ (0 < x < y)%R /\ rn mb eb x = rn mb eb y /\ rn mb eb x <> 0%R).
  { intros mb eb k M Hm He Hk HM j H1 H2. pose proof (p10_pos (- k)) as Q. assert (0 < 2 ^ j) by (apply pow2_pos; unfold j; pose proof (Z.pow_nonneg 2 (eb - 1) ltac:(lia)); lia). exists (IZR M * p10 (- k))%R, (IZR (M + 1) * p10 (- k))%R. split; [apply one_digit; lia|]. split; [apply one_digit; lia|].
    split; [split; [apply Rmult_lt_0_compat; [apply (IZR_lt 0); lia|exact Q]|apply Rmult_lt_compat_r; [exact Q|apply IZR_lt; lia]]|].
    rewrite (rn_tiny_near mb eb M k Hm He Hk) by (fold j; nia). rewrite (rn_tiny_near mb eb (M + 1) k Hm He Hk) by (fold j; nia). split; [reflexivity|]. apply Rgt_not_eq, p2_pos. }
  intros mb eb [(-> & ->)|[(-> & ->)|(-> & ->)]].
  - apply (K 52 11 324 3); try lia; vm_compute; reflexivity.
  - apply (K 23 8 45 1); try lia; vm_compute; reflexivity.
  - apply (K 10 5 8 5); try lia; vm_compute; reflexivity.
Qed.

Lemma c107_example : let x := IZR 1234567890123450000000 in
  as_float 64 0x4450BB448EC2F5EE 52 11 0x4450BB448EC2F5EE false /\ ieee 52 11 0x4450BB448EC2F5EE = VNum false (sgnR false (rn 52 11 x)) /\
  rn 52 11 x = IZR (1234567890123450000000 - 41600) /\ sig_digits 15 x /\ (p2 (2 - 2 ^ (11 - 1)) <= x)%R.
Proof.
  intros x. assert (V : ieee 52 11 0x4450BB448EC2F5EE = VNum false (IZR 4709502754682350 * p2 18)) by reflexivity.
  assert (R : rn 52 11 x = IZR (4709502754682350 * 2 ^ 18)) by (apply rn_int_near; lia).
  split; [apply (ClaimsFtoa2.as_float_64 _ false (IZR 4709502754682350 * p2 18)); [lia|exact V]|]. split; [rewrite V; cbn [sgnR]; rewrite R, mult_IZR; do 2 f_equal; symmetry; apply IZR_pow2; lia|].
  split; [rewrite R; f_equal|]. split; [apply (int_digits 15 123456789012345 7); lia|]. apply int_normal; lia.
Qed.

Lemma c107_read : forall w opt m e10 s tr f fmt prec, w = 32 \/ w = 64 -> let x := (IZR m * p10 e10)%R in
  0 < m < 10 ^ 15 -> (p2 (-1022) <= x)%R -> (rn 52 11 x < p2 1024)%R -> ExtFloat.AssignDecimal m e10 s tr ExtFloat.float64info = Ret (f, true) ->
  fmt = 101 \/ fmt = 69 \/ fmt = 102 \/ fmt = 103 \/ fmt = 71 -> prec < 0 ->
  exists t fp, FormatFloat w opt (fst (ExtFloat.floatBits f ExtFloat.float64info)) fmt prec 64 = Ret t /\ no_zero_end fp /\ prints_short fmt s fp x t.
Proof.
  intros w opt m e10 s tr f fmt prec Hw x Hm L U A F Hp. assert (FO : format_of ExtFloat.float64info 52 11) by (right; right; auto).
  assert (Far : (p2 (1 - 2 ^ (11 - 1) - 52) < x)%R) by (apply Rlt_le_trans with (2 := L); apply bpow_lt; lia).
  pose proof (ClaimsExt.c50p ExtFloat.float64info 52 11 m e10 s tr f FO ltac:(lia) (or_intror Far) A) as R. fold x in R.
  pose proof (ClaimsRead.floatBits_range f ExtFloat.float64info 52 11 FO) as B. change (52 + 11 + 1) with 64 in B. set (b := fst (ExtFloat.floatBits f ExtFloat.float64info)) in *.
  assert (X0 : (0 <= x)%R) by (pose proof (p2_pos (-1022)); lra).
  assert (R0 : (0 <= rn 52 11 x)%R) by (pose proof (PkgExact.rn_mono 52 11 0 x ltac:(lia) X0) as M; rewrite rn_0 in M; exact M).
  assert (V : ieee 52 11 b = VNum s (sgnR s (rn 52 11 x))).
  { rewrite R. rewrite BigFacts.ieee_round_num by (rewrite ClaimsFtoa2.rn_sgn; destruct s; cbn [sgnR]; rewrite ?Rabs_Ropp, Rabs_pos_eq by exact R0; exact U). f_equal. apply ClaimsFtoa2.rn_sgn. }
  apply (c107s w opt b fmt prec 64 52 11 b s 15 x Hw); try assumption.
  - apply (ClaimsFtoa2.as_float_64 b s _ B V).
  - lia.
  - exists m, e10. split; [reflexivity|lia].
Qed.
