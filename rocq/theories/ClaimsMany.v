(** C108: enough digits are the number itself, and more digits are never further away. *)
From Coq Require Import ZArith Reals Lia Lra Bool List String.
From Flocq Require Import Core.
From Verif Require Import GoBase Spec SpecText SpecDec SpecFtoa BitFacts RoundFacts BigFacts BigFacts2 BigFacts3 IeeeFacts DecFacts PkgFacts ClaimsMore ClaimsKeep.
From Verif Require PkgExact ExtShort FtoaShort ClaimsLen ClaimsLenF ClaimsSame ClaimsFtoa ClaimsFtoa2 ClaimsTwice FtoaAll.
From Verif Require Import Ftoa SpecFmt.
Import ListNotations.
Open Scope Z_scope.

Lemma p10_int k : 0 <= k -> p10 k = IZR (10 ^ k).
Proof. intros H. symmetry. apply (IZR_Zpower radix10). exact H. Qed.

(** M * 2^-k as a decimal *)
Lemma two_ten M k : 0 <= k -> (IZR M * p2 (- k) = IZR (M * 5 ^ k) * p10 (- k))%R.
Proof.
  intros Hk. rewrite mult_IZR, Rmult_assoc. f_equal. pose proof (p2_pos (- k)) as P. assert (P1 : (p2 k * p2 (- k) = 1)%R) by (rewrite <- p2_plus; replace (k + - k) with 0 by lia; reflexivity).
  assert (Q1 : (p10 k * p10 (- k) = 1)%R) by (rewrite <- p10_plus; replace (k + - k) with 0 by lia; reflexivity).
  assert (T : (p10 k = p2 k * IZR (5 ^ k))%R) by (rewrite p10_int, <- IZR_pow2 by lia; rewrite <- mult_IZR; f_equal; rewrite <- Z.pow_mul_l; reflexivity).
  rewrite T in Q1. apply (Rmult_eq_reg_l (p2 k)); [|pose proof (p2_pos k); lra]. rewrite P1, <- Rmult_assoc. lra.
Qed.

Lemma round10_fix k v : round10 k v = round radix10 (FIX_exp k) ZnearestE v.
Proof. reflexivity. Qed.

Lemma round10_nearest k v N : (Rabs (round10 k v - v) <= Rabs (IZR N * p10 k - v))%R.
Proof.
  rewrite round10_fix. destruct (round_N_pt radix10 (FIX_exp k) (fun x => negb (Z.even x)) v) as [_ H]. apply H. apply generic_format_FIX. exists (Defs.Float radix10 N k); [reflexivity|reflexivity].
Qed.

Lemma round10_multiple k v N : v = (IZR N * p10 k)%R -> round10 k v = v.
Proof. intros ->. unfold round10. rewrite Rmult_assoc, <- p10_plus. replace (k + - k) with 0 by lia. change (p10 0) with 1%R. rewrite Rmult_1_r. rewrite Zrnd_IZR by (apply valid_rnd_N). reflexivity. Qed.

Lemma sig_round_digits n v : 0 < n -> sig_digits n v -> sig_round n v = v.
Proof. intros Hn H. unfold sig_round. apply round_generic; [apply valid_rnd_N|]. apply PkgExact.sig_format; assumption. Qed.

(** How many digits and places the floats have. *)
Lemma float_digits mb eb n v : (mb = 52 /\ eb = 11 /\ n = 767) \/ (mb = 23 /\ eb = 8 /\ n = 112) \/ (mb = 10 /\ eb = 5 /\ n = 21) -> fits mb eb v -> sig_digits n v.
Proof.
  intros C [(M & c & E & HM & Hc) B].
  assert (X : 2 ^ (mb + 1) * 5 ^ (2 ^ (eb - 1) + mb - 2) < 10 ^ n /\ 2 ^ (2 ^ (eb - 1)) < 10 ^ n /\ 0 <= 2 ^ (eb - 1) + mb - 2 /\ 0 <= mb).
  { destruct C as [(-> & -> & ->)|[(-> & -> & ->)|(-> & -> & ->)]]; (split; [vm_compute; reflexivity|]; split; [vm_compute; reflexivity|]; lia). }
  destruct X as (X1 & X2 & X3 & X4). destruct (Z_lt_le_dec c 0) as [N|N].
  - exists (M * 5 ^ (- c)), c. split; [rewrite E; replace c with (- - c) at 1 3 by lia; apply two_ten; lia|]. rewrite Z.abs_mul, (Z.abs_eq (5 ^ (- c))) by (apply Z.pow_nonneg; lia).
    apply Z.le_lt_trans with (2 := X1). apply Z.mul_le_mono_nonneg; [lia|lia|apply Z.pow_nonneg; lia|apply Z.pow_le_mono_r; lia].
  - exists (M * 2 ^ c), 0. split; [rewrite E, mult_IZR, IZR_pow2 by lia; change (p10 0) with 1%R; ring|]. apply Z.lt_trans with (2 := X2). apply lt_IZR. rewrite abs_IZR, mult_IZR, IZR_pow2, <- E by lia. rewrite IZR_pow2 by (apply Z.pow_nonneg; lia). exact B.
Qed.

Lemma float_places mb eb p v : 1 <= mb -> 2 <= eb -> 2 ^ (eb - 1) + mb - 2 <= p -> fits mb eb v -> exists N, v = (IZR N * p10 (- p))%R.
Proof.
  intros Hm He Hp [(M & c & E & HM & Hc) _]. assert (2 <= 2 ^ (eb - 1)) by (apply (Z.pow_le_mono_r 2 1 (eb - 1)); lia). exists (M * 2 ^ (c + p) * 5 ^ p). rewrite <- two_ten by lia. rewrite E, mult_IZR, IZR_pow2, Rmult_assoc, <- p2_plus by lia. do 2 f_equal. lia.
Qed.

Lemma value_fits bitSize val mb eb b s v : as_float bitSize val mb eb b s -> ieee mb eb b = VNum s (sgnR s v) -> fits mb eb v.
Proof.
  intros A E. destruct (float_sizes _ _ _ _ _ _ A) as [Hm He]. destruct (fits_ieee mb eb b s _ ltac:(lia) He (proj1 (proj2 A)) E) as [F _]. destruct s; cbn [sgnR] in F; [|exact F].
  destruct F as [(M & c & E' & HM & Hc) B]. rewrite Rabs_Ropp in B. split; [|exact B]. exists (- M), c. rewrite opp_IZR, Z.abs_opp. split; [lra|auto].
Qed.

Lemma enough_cases bitSize val mb eb b s n : as_float bitSize val mb eb b s -> (mb = 52 -> 767 <= n) -> (mb = 23 -> 112 <= n) -> (mb = 10 -> 21 <= n) ->
  exists n', n' <= n /\ 1 <= n' /\ ((mb = 52 /\ eb = 11 /\ n' = 767) \/ (mb = 23 /\ eb = 8 /\ n' = 112) \/ (mb = 10 /\ eb = 5 /\ n' = 21)).
Proof. intros (_ & _ & u & _ & _ & [(_ & -> & ->)|[(_ & -> & ->)|(_ & -> & -> & _)]]) H1 H2 H3; [exists 767|exists 112|exists 21]; repeat split; auto; lia. Qed.

Lemma c108e : forall w opt val fmt prec bitSize mb eb b s v, w = 32 \/ w = 64 ->
  as_float bitSize val mb eb b s -> ieee mb eb b = VNum s (sgnR s v) -> fmt = 101 \/ fmt = 69 -> prec < 2 ^ (w - 1) - 1 ->
  (mb = 52 -> 766 <= prec) -> (mb = 23 -> 111 <= prec) -> (mb = 10 -> 20 <= prec) ->
  exists t fp, FormatFloat w opt val fmt prec bitSize = Ret t /\ Z.of_nat (List.length fp) = prec /\ prints_e fmt s fp v t.
Proof.
  intros w opt val fmt prec bitSize mb eb b s v Hw A E F Hp H1 H2 H3. pose proof (value_fits _ _ _ _ _ _ _ A E) as Fv.
  destruct (enough_cases _ _ _ _ _ _ (prec + 1) A ltac:(lia) ltac:(lia) ltac:(lia)) as (n & L & Ln & C). pose proof (FtoaShort.sig_mono n (prec + 1) v L (float_digits mb eb n v C Fv)) as S.
  destruct (ClaimsFtoa.c51e w opt val fmt prec bitSize mb eb b s v Hw A E F ltac:(lia)) as (t & fp & R & Lf & P). rewrite (sig_round_digits (prec + 1) v ltac:(lia) S) in P. exists t, fp. auto.
Qed.

Lemma c108g : forall w opt val fmt prec bitSize mb eb b s v, w = 32 \/ w = 64 ->
  as_float bitSize val mb eb b s -> ieee mb eb b = VNum s (sgnR s v) -> fmt = 103 \/ fmt = 71 ->
  (mb = 52 -> 767 <= prec) -> (mb = 23 -> 112 <= prec) -> (mb = 10 -> 21 <= prec) ->
  exists t fp, FormatFloat w opt val fmt prec bitSize = Ret t /\ no_zero_end fp /\ prints_g (fmt - 2) prec s fp v t.
Proof.
  intros w opt val fmt prec bitSize mb eb b s v Hw A E F H1 H2 H3. pose proof (value_fits _ _ _ _ _ _ _ A E) as Fv.
  destruct (enough_cases _ _ _ _ _ _ prec A H1 H2 H3) as (n & L & Ln & C). pose proof (FtoaShort.sig_mono n prec v L (float_digits mb eb n v C Fv)) as S.
  destruct (ClaimsFtoa.c51g w opt val fmt prec bitSize mb eb b s v Hw A E F ltac:(lia)) as (t & fp & R & Lf & P). rewrite Z.max_l in P by lia. rewrite (sig_round_digits prec v ltac:(lia) S) in P. exists t, fp. auto.
Qed.

Lemma c108f : forall w opt val prec bitSize mb eb b s v, w = 32 \/ w = 64 ->
  as_float bitSize val mb eb b s -> ieee mb eb b = VNum s (sgnR s v) -> prec < 2 ^ (w - 1) ->
  (mb = 52 -> 1074 <= prec) -> (mb = 23 -> 149 <= prec) -> (mb = 10 -> 24 <= prec) ->
  exists t fp, FormatFloat w opt val 102 prec bitSize = Ret t /\ Z.of_nat (List.length fp) = prec /\ prints_f s fp v t.
Proof.
  intros w opt val prec bitSize mb eb b s v Hw A E Hp H1 H2 H3. pose proof (value_fits _ _ _ _ _ _ _ A E) as Fv. destruct (float_sizes _ _ _ _ _ _ A) as [Hm He].
  assert (L : 2 ^ (eb - 1) + mb - 2 <= prec /\ 0 <= prec).
  { destruct A as (_ & _ & u & _ & _ & [(_ & M & ->)|[(_ & M & ->)|(_ & M & -> & _)]]); rewrite M in *; [change (2 ^ (11 - 1)) with 1024; specialize (H1 eq_refl)|change (2 ^ (8 - 1)) with 128; specialize (H2 eq_refl)|change (2 ^ (5 - 1)) with 16; specialize (H3 eq_refl)]; lia. }
  destruct (float_places mb eb prec v Hm He (proj1 L) Fv) as (N & EN).
  destruct (ClaimsFtoa.c51f w opt val prec bitSize mb eb b s v Hw A E ltac:(lia)) as (t & fp & R & Lf & P). rewrite (round10_multiple (- prec) v N EN) in P. exists t, fp. auto.
Qed.

(** One digit fewer is not enough for the greatest number with the least exponent. *)
Lemma odd_digits M k n : 0 <= k -> 0 < M -> 0 <= n -> (M * 5 ^ k) mod 10 <> 0 -> 10 ^ n <= M * 5 ^ k -> ~ sig_digits n (IZR M * p2 (- k)).
Proof.
  intros Hk HM Hn H L S. rewrite two_ten in S by exact Hk. assert (0 < 5 ^ k) by (apply Z.pow_pos_nonneg; lia). pose proof (ClaimsLen.sig_cut (M * 5 ^ k) (- k) n _ eq_refl ltac:(nia) H Hn S). lia.
Qed.

Lemma odd_places M k N p : 0 <= k -> (M * 5 ^ k) mod 10 <> 0 -> p < k -> (IZR M * p2 (- k) <> IZR N * p10 (- p))%R.
Proof.
  intros Hk H Hp E. rewrite two_ten in E by exact Hk. apply H. replace (M * 5 ^ k) with (N * 10 ^ (k - 1 - p) * 10); [apply Z.mod_mul; lia|]. apply eq_IZR.
  apply (Rmult_eq_reg_r (p10 (- k))); [|pose proof (p10_pos (- k)); lra]. rewrite E, !mult_IZR, <- p10_int, Rmult_assoc, Rmult_assoc by lia. f_equal. change (IZR 10) with (p10 1). rewrite <- !p10_plus. f_equal. lia.
Qed.

Lemma least_fits mb eb : 1 <= mb -> 3 <= eb -> fits mb eb (IZR (2 ^ (mb + 1) - 1) * p2 (- (2 ^ (eb - 1) + mb - 2))).
Proof.
  intros Hm He. assert (4 <= 2 ^ (eb - 1)) by (apply (Z.pow_le_mono_r 2 2 (eb - 1)); lia). pose proof (pow2_pos (mb + 1) ltac:(lia)). split; [exists (2 ^ (mb + 1) - 1), (- (2 ^ (eb - 1) + mb - 2)); split; [reflexivity|]; lia|].
  pose proof (p2_pos (- (2 ^ (eb - 1) + mb - 2))). assert (0 <= IZR (2 ^ (mb + 1) - 1))%R by (apply IZR_le; lia). rewrite Rabs_pos_eq by nra. apply Rlt_le_trans with (p2 (mb + 1) * p2 (- (2 ^ (eb - 1) + mb - 2)))%R.
  - apply Rmult_lt_compat_r; [assumption|]. rewrite <- IZR_pow2 by lia. apply IZR_lt. lia.
  - rewrite <- p2_plus. apply p2_le. lia.
Qed.

Lemma sharp_as bitSize val mb eb b u : (bitSize = 64 /\ mb = 52 /\ eb = 11 \/ bitSize = 32 /\ mb = 23 /\ eb = 8 \/ bitSize = 16 /\ mb = 10 /\ eb = 5) -> 0 <= val < 2 ^ 64 -> 0 <= b < 2 ^ (mb + eb + 1) ->
  ieee 52 11 val = VNum false u -> ieee mb eb b = VNum false u -> as_float bitSize val mb eb b false.
Proof.
  intros C Hv Hb E1 E2. assert (S : 1 <= mb /\ 2 <= eb) by (destruct C as [(_ & -> & ->)|[(_ & -> & ->)|(_ & -> & ->)]]; lia). destruct (fits_ieee mb eb b false u ltac:(lia) ltac:(lia) Hb E2) as [F _].
  split; [exact Hv|]. split; [exact Hb|]. exists u. split; [exact E1|]. split; [rewrite E2; symmetry; apply fits_round; [lia|exact F]|].
  destruct C as [C|[C|(-> & -> & ->)]]; [left; exact C|right; left; exact C|right; right; repeat (split; [reflexivity|]); right; right; exact F].
Qed.

Lemma c108_sharp : forall bitSize mb eb n p val, bitSize = 64 /\ mb = 52 /\ eb = 11 /\ n = 767 /\ p = 1074 /\ val = 0x001FFFFFFFFFFFFF \/ bitSize = 32 /\ mb = 23 /\ eb = 8 /\ n = 112 /\ p = 149 /\ val = 0x381FFFFFE0000000 \/
    bitSize = 16 /\ mb = 10 /\ eb = 5 /\ n = 21 /\ p = 24 /\ val = 0x3F1FFC0000000000 ->
  let v := (IZR (2 ^ (mb + 1) - 1) * p2 (- p))%R in
  as_float bitSize val mb eb (2 ^ (mb + 1) - 1) false /\ ieee mb eb (2 ^ (mb + 1) - 1) = VNum false v /\
  forall w opt, w = 32 \/ w = 64 ->
  (forall prec t fp x, 0 <= prec < n - 1 -> FormatFloat w opt val 101 prec bitSize = Ret t -> prints_e 101 false fp x t -> x <> v) /\
  (forall prec t fp x, 0 <= prec < p -> FormatFloat w opt val 102 prec bitSize = Ret t -> prints_f false fp x t -> x <> v).
Proof.
  intros bitSize mb eb n p val C v.
  assert (K : as_float bitSize val mb eb (2 ^ (mb + 1) - 1) false /\ ieee mb eb (2 ^ (mb + 1) - 1) = VNum false v /\ 0 <= p < 2000 /\ 0 <= n < 2000 /\ 0 <= mb /\ ((2 ^ (mb + 1) - 1) * 5 ^ p) mod 10 <> 0 /\ 10 ^ (n - 1) <= (2 ^ (mb + 1) - 1) * 5 ^ p).
  { assert (U : ieee mb eb (2 ^ (mb + 1) - 1) = VNum false v).
    { unfold v. destruct C as [(_ & -> & -> & _ & -> & _)|[(_ & -> & -> & _ & -> & _)|(_ & -> & -> & _ & -> & _)]]; reflexivity. }
    split; [|split; [exact U|]].
    - destruct C as [(-> & -> & -> & _ & -> & ->)|[(-> & -> & -> & _ & -> & ->)|(-> & -> & -> & _ & -> & ->)]].
      + apply (sharp_as 64 _ 52 11 _ v); [auto|lia|lia|exact U|exact U].
      + apply (sharp_as 32 _ 23 8 _ v); [auto|lia|lia| |exact U].
        change (ieee 52 11 0x381FFFFFE0000000) with (VNum false (IZR (2 ^ 52 + 0xFFFFFE0000000) * p2 (-178))). f_equal. unfold v. replace (2 ^ 52 + 0xFFFFFE0000000) with ((2 ^ 24 - 1) * 2 ^ 29) by lia. rewrite mult_IZR, (IZR_pow2 29), Rmult_assoc, <- p2_plus by lia. reflexivity.
      + apply (sharp_as 16 _ 10 5 _ v); [auto|lia|lia| |exact U].
        change (ieee 52 11 0x3F1FFC0000000000) with (VNum false (IZR (2 ^ 52 + 0xFFC0000000000) * p2 (-66))). f_equal. unfold v. replace (2 ^ 52 + 0xFFC0000000000) with ((2 ^ 11 - 1) * 2 ^ 42) by lia. rewrite mult_IZR, (IZR_pow2 42), Rmult_assoc, <- p2_plus by lia. reflexivity.
    - destruct C as [(_ & -> & _ & -> & -> & _)|[(_ & -> & _ & -> & -> & _)|(_ & -> & _ & -> & -> & _)]]; (split; [lia|]; split; [lia|]; split; [lia|]; split; [vm_compute; discriminate|apply Z.leb_le; vm_compute; reflexivity]). }
  destruct K as (A & U & Hp & Hn & Hm & O & G). split; [exact A|]. split; [exact U|]. intros w opt Hw. assert (M0 : 0 < 2 ^ (mb + 1) - 1) by (pose proof (Z.pow_gt_1 2 (mb + 1) ltac:(lia)); lia).
  assert (W : 2000 < 2 ^ (w - 1) - 1) by (destruct Hw as [-> | ->]; lia).
  split; intros prec t fp x Hprec E P X.
  - destruct (ClaimsFtoa.c51e w opt val 101 prec bitSize mb eb _ false v Hw A U ltac:(auto) ltac:(lia)) as (t' & fp' & E' & Lf & P'). rewrite E in E'. assert (T : t = t') by congruence. subst t'.
    destruct (FtoaAll.prints_e_inj 101 _ _ _ _ _ _ _ ltac:(auto) P P') as (_ & Q & _). pose proof (ClaimsLen.sig_digits_round (prec + 1) v ltac:(lia)) as S. rewrite <- Q, X in S.
    apply (odd_digits (2 ^ (mb + 1) - 1) p (n - 1)); [lia|exact M0|lia|exact O|exact G|]. apply (FtoaShort.sig_mono (prec + 1)); [lia|exact S].
  - destruct (ClaimsFtoa.c51f w opt val prec bitSize mb eb _ false v Hw A U ltac:(lia)) as (t' & fp' & E' & Lf & P'). rewrite E in E'. assert (T : t = t') by congruence. subst t'.
    destruct (FtoaAll.prints_f_inj _ _ _ _ _ _ _ P P') as (_ & Q & _). rewrite X in Q. unfold round10 in Q. revert Q. apply odd_places; [lia|exact O|lia].
Qed.

(** More digits are never further away. *)
Lemma c108_closer_e : forall w opt opt' val fmt fmt' prec prec' bitSize mb eb b s v, w = 32 \/ w = 64 ->
  as_float bitSize val mb eb b s -> ieee mb eb b = VNum s (sgnR s v) -> fmt = 101 \/ fmt = 69 -> fmt' = 101 \/ fmt' = 69 -> 0 <= prec <= prec' -> prec' < 2 ^ (w - 1) - 1 ->
  exists t t' fp fp' x x', FormatFloat w opt val fmt prec bitSize = Ret t /\ prints_e fmt s fp x t /\ FormatFloat w opt' val fmt' prec' bitSize = Ret t' /\ prints_e fmt' s fp' x' t' /\
    (Rabs (x' - v) <= Rabs (x - v))%R.
Proof.
  intros w opt opt' val fmt fmt' prec prec' bitSize mb eb b s v Hw A E F F' Hp Hp'.
  destruct (ClaimsFtoa.c51e w opt val fmt prec bitSize mb eb b s v Hw A E F ltac:(lia)) as (t & fp & R & _ & P). destruct (ClaimsFtoa.c51e w opt' val fmt' prec' bitSize mb eb b s v Hw A E F' ltac:(lia)) as (t' & fp' & R' & _ & P').
  exists t, t', fp, fp', (sig_round (prec + 1) v), (sig_round (prec' + 1) v). repeat (split; [assumption|]). apply ClaimsSame.sig_round_nearest; [lia|]. apply (FtoaShort.sig_mono (prec + 1)); [lia|]. apply ClaimsLen.sig_digits_round. lia.
Qed.

Lemma c108_closer_g : forall w opt opt' val fmt fmt' prec prec' bitSize mb eb b s v, w = 32 \/ w = 64 ->
  as_float bitSize val mb eb b s -> ieee mb eb b = VNum s (sgnR s v) -> fmt = 103 \/ fmt = 71 -> fmt' = 103 \/ fmt' = 71 -> 0 <= prec <= prec' ->
  exists t t' fp fp' x x', FormatFloat w opt val fmt prec bitSize = Ret t /\ prints_g (fmt - 2) (Z.max prec 1) s fp x t /\ FormatFloat w opt' val fmt' prec' bitSize = Ret t' /\ prints_g (fmt' - 2) (Z.max prec' 1) s fp' x' t' /\
    (Rabs (x' - v) <= Rabs (x - v))%R.
Proof.
  intros w opt opt' val fmt fmt' prec prec' bitSize mb eb b s v Hw A E F F' Hp.
  destruct (ClaimsFtoa.c51g w opt val fmt prec bitSize mb eb b s v Hw A E F ltac:(lia)) as (t & fp & R & _ & P). destruct (ClaimsFtoa.c51g w opt' val fmt' prec' bitSize mb eb b s v Hw A E F' ltac:(lia)) as (t' & fp' & R' & _ & P').
  exists t, t', fp, fp', (sig_round (Z.max prec 1) v), (sig_round (Z.max prec' 1) v). repeat (split; [assumption|]). apply ClaimsSame.sig_round_nearest; [lia|]. apply (FtoaShort.sig_mono (Z.max prec 1)); [lia|]. apply ClaimsLen.sig_digits_round. lia.
Qed.

Lemma c108_closer_f : forall w opt opt' val prec prec' bitSize mb eb b s v, w = 32 \/ w = 64 ->
  as_float bitSize val mb eb b s -> ieee mb eb b = VNum s (sgnR s v) -> 0 <= prec <= prec' -> prec' < 2 ^ (w - 1) ->
  exists t t' fp fp' x x', FormatFloat w opt val 102 prec bitSize = Ret t /\ prints_f s fp x t /\ FormatFloat w opt' val 102 prec' bitSize = Ret t' /\ prints_f s fp' x' t' /\
    (Rabs (x' - v) <= Rabs (x - v))%R.
Proof.
  intros w opt opt' val prec prec' bitSize mb eb b s v Hw A E Hp Hp'.
  destruct (ClaimsFtoa.c51f w opt val prec bitSize mb eb b s v Hw A E ltac:(lia)) as (t & fp & R & _ & P). destruct (ClaimsFtoa.c51f w opt' val prec' bitSize mb eb b s v Hw A E ltac:(lia)) as (t' & fp' & R' & _ & P').
  exists t, t', fp, fp', (round10 (- prec) v), (round10 (- prec') v). repeat (split; [assumption|]). unfold round10 at 2. set (N := ZnearestE (v * p10 (- - prec))).
  replace (IZR N * p10 (- prec))%R with (IZR (N * 10 ^ (prec' - prec)) * p10 (- prec'))%R by (rewrite mult_IZR, <- p10_int, Rmult_assoc, <- p10_plus by lia; do 2 f_equal; lia). apply round10_nearest.
Qed.

Lemma c108_example : as_float 16 0x3E70000000000000 10 5 1 false /\ ieee 10 5 1 = VNum false (sgnR false (IZR 1 * p2 (-24))).
Proof.
  assert (U : ieee 10 5 1 = VNum false (IZR 1 * p2 (-24))) by reflexivity. split; [|exact U].
  apply (sharp_as 16 _ 10 5 _ (IZR 1 * p2 (-24))); [auto|lia|lia| |exact U].
  change (ieee 52 11 0x3E70000000000000) with (VNum false (IZR (2 ^ 52 + 0) * p2 (-76))). f_equal. rewrite Z.add_0_r, (IZR_pow2 52), <- p2_plus by lia. change (52 + -76) with (-24). ring.
Qed.
