(** C112: rounding a text again. *)
From Coq Require Import ZArith Reals Lia Lra Bool List String.
From Flocq Require Import Core.
From Verif Require Import GoBase Spec SpecText SpecDec SpecFtoa SpecHalf BitFacts RoundFacts ItoaFacts FmtFacts DecFacts DecFacts2 BigFacts BigFacts2 BigFacts3 IeeeFacts PkgFacts ClaimsMore ClaimsKeep.
From Verif Require Import FtoaAll PkgText.
From Verif Require BigFloat PkgExact ExtShort FtoaShort ClaimsLen ClaimsSame ClaimsSameF ClaimsFtoa ClaimsFtoa2 ClaimsMany ClaimsEqual ClaimsLetters ClaimsLenG.
From Verif Require Import Ftoa SpecFmt.
Import ListNotations.
Open Scope Z_scope.

Local Notation len l := (Z.of_nat (List.length l)).

Lemma near_is (r : R) n : (IZR n - / 2 < r < IZR n + / 2)%R -> ZnearestE r = n.
Proof. intros H. apply Znearest_imp. apply Rabs_def1; lra. Qed.

Lemma near_twice (a : R) (z T : Z) : 2 <= T -> T mod 2 = 0 -> (Rabs (a - IZR z) < 1)%R ->
  let m := (IZR z / IZR T)%R in
  ZnearestE m = ZnearestE (a / IZR T) <-> ~ ((exists n, m = (IZR n + / 2)%R) /\ ((a - IZR z) * (IZR (ZnearestE m) - m) < 0)%R).
Proof.
  intros H2 He Ha m. apply Rabs_def2 in Ha. destruct Ha as [Hu Hl].
  set (n := z / T). set (h := T / 2). assert (ET : T = 2 * h) by (unfold h; pose proof (Z.div_mod T 2 ltac:(lia)); lia).
  pose proof (Z.div_mod z T ltac:(lia)) as Dz. pose proof (Z.mod_pos_bound z T ltac:(lia)) as Bz. fold n in Dz. set (r := z mod T) in *.
  assert (TR : (2 <= IZR T)%R) by (apply IZR_le in H2; exact H2). set (t := IZR T) in *.
  assert (hR : t = (2 * IZR h)%R) by (unfold t; rewrite ET, mult_IZR; reflexivity).
  assert (Ez : (IZR z = t * IZR n + IZR r)%R) by (rewrite Dz, plus_IZR, mult_IZR; reflexivity).
  assert (I : (t * / t = 1)%R) by (apply Rinv_r; lra). assert (It : (0 < / t)%R) by (apply Rinv_0_lt_compat; lra).
  assert (Em : m = (IZR n + IZR r * / t)%R) by (unfold m, Rdiv; rewrite Ez, Rmult_plus_distr_r; replace (t * IZR n * / t)%R with (IZR n * (t * / t))%R by ring; rewrite I; ring).
  assert (Ea : (a / t = m + (a - IZR z) * / t)%R) by (unfold m, Rdiv; ring).
  assert (Ih : (IZR h * / t = / 2)%R) by (apply Rmult_eq_reg_r with (2 * t)%R; [|lra]; replace (IZR h * / t * (2 * t))%R with (2 * IZR h * (t * / t))%R by ring; rewrite I; lra).
  assert (r0 : (0 <= IZR r)%R) by (apply IZR_le; lia).
  destruct (Z.lt_trichotomy r h) as [C|[C|C]].
  - assert (rR : (IZR r <= IZR h - 1)%R) by (rewrite <- minus_IZR; apply IZR_le; lia).
    assert (i1 : (0 <= IZR r * / t)%R) by (apply Rmult_le_pos; lra). assert (i2 : (IZR r * / t <= / 2 - / t)%R) by nra.
    assert (i3 : (- / t < (a - IZR z) * / t < / t)%R) by (split; nra). assert (i4 : (/ t <= / 2)%R) by (apply Rinv_le; lra).
    rewrite (near_is m n) by (rewrite Em; lra). rewrite (near_is (a / t) n) by (rewrite Ea, Em; lra).
    split; [|reflexivity]. intros _ [[n' E] _]. rewrite Em in E. assert (L : (IZR n' < IZR n)%R) by lra. assert (G : (IZR (n - 1) < IZR n')%R) by (rewrite minus_IZR; lra).
    apply lt_IZR in L. apply lt_IZR in G. lia.
  - assert (Er : (IZR r * / t = / 2)%R) by (rewrite C; exact Ih). rewrite Er in Em. assert (i4 : (/ t <= / 2)%R) by (apply Rinv_le; lra).
    pose proof (Znearest_half (fun y => negb (Z.even y)) m) as N. apply Rabs_le_inv in N. set (u := ZnearestE m) in *.
    assert (U : u = n \/ u = n + 1). { assert (IZR u < IZR (n + 2))%R by (rewrite plus_IZR; lra). assert (IZR (n - 1) < IZR u)%R by (rewrite minus_IZR; lra). apply lt_IZR in H, H0. lia. }
    destruct (Rtotal_order (a - IZR z) 0) as [S|[S|S]].
    + assert (W : ZnearestE (a / t) = n) by (apply near_is; rewrite Ea, Em; split; nra). rewrite W. split.
      * intros E [_ K]. rewrite E, Em in K. nra.
      * intros K. destruct U as [U|U]; [exact U|exfalso]. apply K. split; [exists n; exact Em|]. rewrite U, Em, plus_IZR. nra.
    + replace (a / t)%R with m by (rewrite Ea, S; ring). split; [|reflexivity]. intros _ [_ K]. rewrite S in K. lra.
    + assert (W : ZnearestE (a / t) = n + 1) by (apply near_is; rewrite Ea, Em, plus_IZR; split; nra). rewrite W. split.
      * intros E [_ K]. rewrite E, Em, plus_IZR in K. nra.
      * intros K. destruct U as [U|U]; [exfalso|exact U]. apply K. split; [exists n; exact Em|]. rewrite U, Em. nra.
  - assert (rR : (IZR h + 1 <= IZR r)%R) by (rewrite <- plus_IZR; apply IZR_le; lia). assert (rT : (IZR r <= t - 1)%R) by (unfold t; rewrite <- minus_IZR; apply IZR_le; lia).
    assert (i1 : (/ 2 + / t <= IZR r * / t)%R) by nra. assert (i2 : (IZR r * / t <= 1 - / t)%R) by nra.
    assert (i3 : (- / t < (a - IZR z) * / t < / t)%R) by (split; nra). assert (i4 : (/ t <= / 2)%R) by (apply Rinv_le; lra).
    rewrite (near_is m (n + 1)) by (rewrite Em, plus_IZR; lra). rewrite (near_is (a / t) (n + 1)) by (rewrite Ea, Em, plus_IZR; lra).
    split; [|reflexivity]. intros _ [[n' E] _]. rewrite Em in E. assert (L : (IZR n < IZR n')%R) by lra. assert (G : (IZR n' < IZR (n + 1))%R) by (rewrite plus_IZR; lra).
    apply lt_IZR in L. apply lt_IZR in G. lia.
Qed.

Lemma round10_twice c k v x z : c < k -> x = (IZR z * p10 c)%R -> (Rabs (v - x) < p10 c)%R ->
  round10 k x = round10 k v <-> ~ (half_places k x /\ ((v - x) * (round10 k x - x) < 0)%R).
Proof.
  intros L E D. pose proof (p10_pos c) as Pc. pose proof (p10_pos k) as Pk. pose proof (p10_pos (- c)) as Pc'. pose proof (p10_pos (- k)) as Pk'.
  assert (Ic : (p10 c * p10 (- c) = 1)%R) by (rewrite <- p10_plus; replace (c + - c) with 0 by lia; reflexivity).
  assert (Ik : (p10 k * p10 (- k) = 1)%R) by (rewrite <- p10_plus; replace (k + - k) with 0 by lia; reflexivity).
  set (T := 10 ^ (k - c)). assert (ET : IZR T = (p10 k * p10 (- c))%R) by (unfold T; rewrite IZR_p10 by lia; rewrite <- p10_plus; f_equal; lia).
  assert (T2 : 2 <= T /\ T mod 2 = 0). { unfold T. replace (k - c) with (k - c - 1 + 1) by lia. rewrite Z.pow_add_r by lia. pose proof (Z.pow_pos_nonneg 10 (k - c - 1) ltac:(lia) ltac:(lia)). split; [lia|]. replace (10 ^ (k - c - 1) * 10 ^ 1) with (10 ^ (k - c - 1) * 5 * 2) by lia. apply Z.mod_mul. lia. }
  set (a := (v * p10 (- c))%R). assert (Da : (a - IZR z = (v - x) * p10 (- c))%R) by (unfold a; rewrite E, Rmult_minus_distr_r, Rmult_assoc, Ic; ring).
  assert (Aa : (Rabs (a - IZR z) < 1)%R) by (rewrite Da, Rabs_mult, (Rabs_pos_eq (p10 (- c))) by lra; rewrite <- Ic; apply Rmult_lt_compat_r; lra).
  pose proof (near_twice a z T (proj1 T2) (proj2 T2) Aa) as N. cbv zeta in N.
  assert (IT : (/ IZR T = p10 c * p10 (- k))%R). { rewrite ET. apply Rmult_eq_reg_l with (p10 k * p10 (- c))%R; [|apply Rmult_integral_contrapositive_currified; lra]. rewrite Rinv_r by (apply Rmult_integral_contrapositive_currified; lra). replace (p10 k * p10 (- c) * (p10 c * p10 (- k)))%R with ((p10 c * p10 (- c)) * (p10 k * p10 (- k)))%R by ring. rewrite Ic, Ik. ring. }
  assert (Em : (IZR z / IZR T = x * p10 (- k))%R) by (unfold Rdiv; rewrite IT, E; ring).
  assert (Ea : (a / IZR T = v * p10 (- k))%R) by (unfold Rdiv, a; rewrite IT; replace (v * p10 (- c) * (p10 c * p10 (- k)))%R with (v * p10 (- k) * (p10 c * p10 (- c)))%R by ring; rewrite Ic; ring).
  rewrite Em, Ea in N. unfold round10. set (X := ZnearestE (x * p10 (- k))) in *. set (V := ZnearestE (v * p10 (- k))) in *.
  assert (Q : (IZR X * p10 k = IZR V * p10 k)%R <-> X = V). { split; [|intros ->; reflexivity]. intros K. apply eq_IZR. apply Rmult_eq_reg_r with (p10 k); lra. }
  rewrite Q, N.
  assert (H : half_places k x <-> exists n, (x * p10 (- k) = IZR n + / 2)%R).
  { split; intros [n K]; exists n; [rewrite K, Rmult_assoc, Ik; ring|]. apply Rmult_eq_reg_r with (p10 (- k)); [|lra]. rewrite K, Rmult_assoc, Ik. ring. }
  rewrite H. assert (S : ((a - IZR z) * (IZR X - x * p10 (- k)) < 0 <-> (v - x) * (IZR X * p10 k - x) < 0)%R).
  { rewrite Da. assert (G : ((v - x) * p10 (- c) * (IZR X - x * p10 (- k)) = (v - x) * (IZR X * p10 k - x) * (p10 (- c) * p10 (- k)))%R).
    { replace (IZR X - x * p10 (- k))%R with ((IZR X * p10 k - x) * p10 (- k))%R by (rewrite Rmult_minus_distr_r, Rmult_assoc, Ik; ring). ring. }
    rewrite G. assert (0 < p10 (- c) * p10 (- k))%R by (apply Rmult_lt_0_compat; lra). set (g := ((v - x) * (IZR X * p10 k - x))%R). clearbody g. split; intros; nra. }
  rewrite S. reflexivity.
Qed.

Lemma half_digits_places q k x : 1 <= q -> (p10 (k + q - 1) <= x < p10 (k + q))%R -> half_digits q x <-> half_places k x.
Proof.
  intros Hq R. pose proof (Z.pow_pos_nonneg 10 (q - 1) ltac:(lia) ltac:(lia)) as P. split.
  - intros (n & k' & [N1 N2] & E). exists n. rewrite E. do 2 f_equal.
    assert (A : (p10 (q - 1 + k') <= x < p10 (q + k'))%R).
    { rewrite E, !p10_plus, <- (IZR_p10 (q - 1)), <- (IZR_p10 q) by lia. pose proof (p10_pos k'). apply IZR_le in N1. assert (N3 : (IZR n + 1 <= IZR (10 ^ q))%R) by (rewrite <- plus_IZR; apply IZR_le; lia). split; [apply Rmult_le_compat_r; lra|apply Rmult_lt_compat_r; lra]. }
    assert (k + q - 1 < q + k') by (apply p10_lt_inv; lra). assert (q - 1 + k' < k + q) by (apply p10_lt_inv; lra). lia.
  - intros [n E]. exists n, k. split; [|exact E]. replace (k + q - 1) with (q - 1 + k) in R by lia. replace (k + q) with (q + k) in R by lia. rewrite E, !p10_plus, <- (IZR_p10 (q - 1)), <- (IZR_p10 q) in R by lia. pose proof (p10_pos k) as Pk. destruct R as [R1 R2].
    apply Rmult_le_reg_r in R1; [|exact Pk]. apply Rmult_lt_reg_r in R2; [|exact Pk]. split.
    + apply Z.lt_succ_r. apply lt_IZR. rewrite succ_IZR. lra.
    + apply lt_IZR. lra.
Qed.

Lemma mag_pos10 v : (0 < v)%R -> (p10 (mag radix10 v - 1) <= v < p10 (mag radix10 v))%R.
Proof.
  intros H. pose proof (bpow_mag_le radix10 v ltac:(lra)) as A. pose proof (bpow_mag_gt radix10 v) as B. rewrite Rabs_pos_eq in A, B by lra. split; assumption.
Qed.

Lemma sig_twice v x c q z : (0 < v)%R -> 1 <= q -> x = (IZR z * p10 c)%R -> (Rabs (v - x) < p10 c)%R ->
  (p10 (mag radix10 v - 1) <= x <= p10 (mag radix10 v))%R -> c < mag radix10 v - q ->
  sig_round q x = sig_round q v <-> ~ (half_digits q x /\ ((v - x) * (sig_round q x - x) < 0)%R).
Proof.
  intros Hv Hq E D R L. rewrite (ClaimsLetters.sig_round_mag q v). set (M := (mag radix10 v : Z)) in *. pose proof (round10_twice c (M - q) v x z L E D) as T. destruct (Rle_lt_or_eq_dec x (p10 M) (proj2 R)) as [X|X].
  - assert (Mx : (mag radix10 x : Z) = M). { apply mag_unique. pose proof (p10_pos (M - 1)). rewrite Rabs_pos_eq by lra. split; [apply R|exact X]. }
    rewrite ClaimsLetters.sig_round_mag, Mx, T. rewrite (half_digits_places q (M - q) x Hq) by (replace (M - q + q) with M by lia; lra). reflexivity.
  - assert (I : sig_round q x = x). { unfold sig_round. rewrite X. apply round_generic; [apply valid_rnd_N|]. apply generic_format_bpow. unfold FLX_exp. lia. }
    assert (E2 : (x * p10 (- (M - q)) = IZR (10 ^ q))%R) by (rewrite X, <- p10_plus, IZR_p10 by lia; f_equal; lia).
    assert (J : round10 (M - q) x = x) by (unfold round10; rewrite E2, (Zrnd_IZR ZnearestE), X, IZR_p10, <- p10_plus by lia; f_equal; lia).
    rewrite I. assert (NH : ~ half_places (M - q) x).
    { intros [n K]. apply (f_equal (fun y => (y * p10 (- (M - q)))%R)) in K. rewrite E2, Rmult_assoc, <- p10_plus in K. replace (M - q + - (M - q)) with 0 in K by lia. change (p10 0) with 1%R in K.
      assert (K1 : (IZR n < IZR (10 ^ q))%R) by lra. assert (K2 : (IZR (10 ^ q) < IZR (n + 1))%R) by (rewrite plus_IZR; lra). apply lt_IZR in K1, K2. lia. }
    split.
    + intros _ [_ K]. replace (x - x)%R with 0%R in K by ring. lra.
    + intros _. rewrite <- J at 1. apply T. intros [K _]. contradiction.
Qed.

Lemma round10_close k v : (Rabs (v - round10 k v) < p10 k)%R.
Proof.
  unfold round10. pose proof (p10_pos k) as P. pose proof (Znearest_half (fun y => negb (Z.even y)) (v * p10 (- k))) as N.
  assert (I : (p10 k * p10 (- k) = 1)%R) by (rewrite <- p10_plus; replace (k + - k) with 0 by lia; reflexivity).
  replace (v - IZR (ZnearestE (v * p10 (- k))) * p10 k)%R with ((v * p10 (- k) - IZR (ZnearestE (v * p10 (- k)))) * p10 k)%R by (rewrite Rmult_minus_distr_r, Rmult_assoc, (Rmult_comm (p10 (- k))), I; ring).
  rewrite Rabs_mult, (Rabs_pos_eq (p10 k)) by lra. nra.
Qed.

Lemma sig_round_high n v : 0 < n -> (0 < v)%R -> (sig_round n v <= p10 (mag radix10 v))%R.
Proof.
  intros Hn Hv. assert (HP : Prec_gt_0 n) by exact Hn. assert (E : sig_round n (p10 (mag radix10 v)) = p10 (mag radix10 v)).
  { unfold sig_round. apply round_generic; [apply valid_rnd_N|]. apply generic_format_bpow. unfold FLX_exp. lia. }
  rewrite <- E. unfold sig_round at 1 2. apply round_le; [apply FLX_exp_valid; exact HP|apply valid_rnd_N|]. left. apply mag_pos10. exact Hv.
Qed.

Lemma sig_again p q v : 1 <= q < p -> (0 <= v)%R -> let x := sig_round p v in
  sig_round q x = sig_round q v <-> ~ (half_digits q x /\ ((v - x) * (sig_round q x - x) < 0)%R).
Proof.
  intros H V x. destruct (Rle_lt_or_eq_dec 0 v V) as [P|Z].
  - apply (sig_twice v x (mag radix10 v - p) q (ZnearestE (v * p10 (- (mag radix10 v - p))))); [exact P|lia|reflexivity| |split|lia].
    + unfold x. rewrite ClaimsLetters.sig_round_mag. apply round10_close.
    + apply ClaimsLetters.sig_round_low; [lia|exact P].
    + apply sig_round_high; [lia|exact P].
  - unfold x. rewrite <- Z, !ClaimsLetters.sig_round_z. split; [|reflexivity]. intros _ [_ K]. lra.
Qed.

Lemma short_again v x q : 1 <= q -> last_digit_ok v x -> (exists N k, 0 <= N /\ x = (IZR N * p10 k)%R) -> ~ sig_digits q x ->
  sig_round q x = sig_round q v <-> ~ (half_digits q x /\ ((v - x) * (sig_round q x - x) < 0)%R).
Proof.
  intros Hq Lo (N0 & k0 & N0p & E0) Ns.
  assert (Np : 0 < N0). { destruct (Z.eq_dec N0 0) as [->|]; [|lia]. exfalso. apply Ns. exists 0, 0. split; [rewrite E0; ring|]. cbn. apply Z.pow_pos_nonneg; lia. }
  destruct (ClaimsLenG.strip N0 Np) as (N & j & Hj & EN & Nm & NP). set (k := k0 + j) in *. assert (E : x = (IZR N * p10 k)%R) by (rewrite E0, EN; apply scale10; exact Hj).
  specialize (Lo N k E Nm). rewrite Rabs_minus_sym in Lo.
  assert (Ng : 10 ^ q <= N). { destruct (Z_le_gt_dec (10 ^ q) N) as [|G]; [assumption|]. exfalso. apply Ns. exists N, k. split; [exact E|]. rewrite Z.abs_eq by lia. lia. }
  assert (Ng' : 10 ^ q + 1 <= N). { assert (N <> 10 ^ q); [|lia]. intros K. apply Nm. rewrite K. replace q with (q - 1 + 1) by lia. rewrite Z.pow_add_r by lia. apply Z.mod_mul. lia. }
  pose proof (p10_pos k) as Pk. pose proof (Rabs_def2 _ _ Lo) as [Lu Ll].
  assert (A : (p10 (q + k) < v)%R). { rewrite p10_plus, <- IZR_p10 by lia. apply IZR_le in Ng'. rewrite plus_IZR in Ng'. rewrite E in Ll. nra. }
  assert (Pv : (0 < v)%R) by (pose proof (p10_pos (q + k)); lra). destruct (mag_pos10 v Pv) as [M1 M2]. set (M := (mag radix10 v : Z)) in *.
  assert (KM : q + k < M) by (apply p10_lt_inv; lra).
  assert (SM : forall e, k <= e -> p10 e = (IZR (10 ^ (e - k)) * p10 k)%R) by (intros e He; rewrite IZR_p10, <- p10_plus by lia; f_equal; lia).
  apply (sig_twice v x k q N Pv Hq E Lo); [|fold M; lia]. fold M. rewrite (SM (M - 1)) in * by lia. rewrite (SM M) in * by lia. rewrite E in *. split; apply Rmult_le_compat_r; try lra; apply IZR_le; apply Z.lt_succ_r; apply lt_IZR; rewrite succ_IZR; apply Rmult_lt_reg_r with (p10 k); try exact Pk; lra.
Qed.

Lemma text_decimal s x t : text_of s x t -> exists N k, 0 <= N /\ x = (IZR N * p10 k)%R.
Proof.
  intros (fp & [(ip & _ & Ni & Af & E)|[(a & X & xs & _ & _ & A & E & _)|(a & X & xs & _ & _ & A & E & _)]]).
  - eexists. eexists. split; [|exact E]. apply read_range; [lia|]. unfold all_digits in *. apply Forall_app. split; [apply Ni|exact Af].
  - eexists. eexists. split; [|exact E]. apply read_range; [lia|exact A].
  - eexists. eexists. split; [|exact E]. apply read_range; [lia|exact A].
Qed.

Lemma c112_e : forall w opt opt' val p q bitSize mb eb b s v up, w = 32 \/ w = 64 -> up = 0 \/ up = 32 ->
  as_float bitSize val mb eb b s -> ieee mb eb b = VNum s (sgnR s v) -> 0 <= q < p -> p < 2 ^ (w - 1) - 1 ->
  exists t fp x t' fp', FormatFloat w opt val (101 - up) p bitSize = Ret t /\ Z.of_nat (List.length fp) = p /\ prints_e (101 - up) s fp x t /\
    FormatFloat w opt' val (101 - up) q bitSize = Ret t' /\ Z.of_nat (List.length fp') = q /\
    (prints_e (101 - up) s fp' (sig_round (q + 1) x) t' <-> ~ (half_digits (q + 1) x /\ ((v - x) * (sig_round (q + 1) x - x) < 0)%R)).
Proof.
  intros w opt opt' val p q bitSize mb eb b s v up Hw Hup A E Hq Hp. pose proof (ClaimsEqual.value_nonneg _ _ _ _ _ _ _ A E) as V0.
  destruct (ClaimsFtoa.c51e w opt val (101 - up) p bitSize mb eb b s v Hw A E ltac:(lia) ltac:(lia)) as (t & fp & R & L & P).
  destruct (ClaimsFtoa.c51e w opt' val (101 - up) q bitSize mb eb b s v Hw A E ltac:(lia) ltac:(lia)) as (t' & fp' & R' & L' & P').
  exists t, fp, (sig_round (p + 1) v), t', fp'. do 5 (split; [assumption|]). rewrite <- (sig_again (p + 1) (q + 1) v ltac:(lia) V0). split.
  - intros Q. destruct (prints_e_inj (101 - up) s s fp' fp' _ _ t' ltac:(lia) Q P') as (_ & K & _). exact K.
  - intros K. rewrite K. exact P'.
Qed.

Lemma c112_f : forall w opt opt' val p q bitSize mb eb b s v, w = 32 \/ w = 64 ->
  as_float bitSize val mb eb b s -> ieee mb eb b = VNum s (sgnR s v) -> 0 <= q < p -> p < 2 ^ (w - 1) ->
  exists t fp x t' fp', FormatFloat w opt val 102 p bitSize = Ret t /\ Z.of_nat (List.length fp) = p /\ prints_f s fp x t /\
    FormatFloat w opt' val 102 q bitSize = Ret t' /\ Z.of_nat (List.length fp') = q /\
    (prints_f s fp' (round10 (- q) x) t' <-> ~ (half_places (- q) x /\ ((v - x) * (round10 (- q) x - x) < 0)%R)).
Proof.
  intros w opt opt' val p q bitSize mb eb b s v Hw A E Hq Hp.
  destruct (ClaimsFtoa.c51f w opt val p bitSize mb eb b s v Hw A E ltac:(lia)) as (t & fp & R & L & P).
  destruct (ClaimsFtoa.c51f w opt' val q bitSize mb eb b s v Hw A E ltac:(lia)) as (t' & fp' & R' & L' & P').
  exists t, fp, (round10 (- p) v), t', fp'. do 5 (split; [assumption|]).
  rewrite <- (round10_twice (- p) (- q) v (round10 (- p) v) (ZnearestE (v * p10 (- - p))) ltac:(lia) eq_refl (round10_close (- p) v)). split.
  - intros Q. destruct (prints_f_inj s s fp' fp' _ _ t' Q P') as (_ & K & _). exact K.
  - intros K. rewrite K. exact P'.
Qed.

Lemma sig_round_nn q v : 1 <= q -> (0 <= v)%R -> (0 <= sig_round q v)%R.
Proof.
  intros Hq [P|Z]; [|rewrite <- Z, ClaimsLetters.sig_round_z; lra]. pose proof (ClaimsLetters.sig_round_low q v ltac:(lia) P). pose proof (p10_pos (mag radix10 v - 1)). lra.
Qed.

Lemma c112_g : forall w opt opt' val p q bitSize mb eb b s v up, w = 32 \/ w = 64 -> up = 0 \/ up = 32 ->
  as_float bitSize val mb eb b s -> ieee mb eb b = VNum s (sgnR s v) -> 1 <= q < p ->
  exists t fp x t' fp', FormatFloat w opt val (103 - up) p bitSize = Ret t /\ no_zero_end fp /\ prints_g (101 - up) p s fp x t /\
    FormatFloat w opt' val (103 - up) q bitSize = Ret t' /\ no_zero_end fp' /\
    (prints_g (101 - up) q s fp' (sig_round q x) t' <-> ~ (half_digits q x /\ ((v - x) * (sig_round q x - x) < 0)%R)).
Proof.
  intros w opt opt' val p q bitSize mb eb b s v up Hw Hup A E Hq. pose proof (ClaimsEqual.value_nonneg _ _ _ _ _ _ _ A E) as V0.
  destruct (ClaimsFtoa.c51g w opt val (103 - up) p bitSize mb eb b s v Hw A E ltac:(lia) ltac:(lia)) as (t & fp & R & L & P).
  destruct (ClaimsFtoa.c51g w opt' val (103 - up) q bitSize mb eb b s v Hw A E ltac:(lia) ltac:(lia)) as (t' & fp' & R' & L' & P').
  replace (103 - up - 2) with (101 - up) in P, P' by lia. replace (Z.max p 1) with p in P by lia. replace (Z.max q 1) with q in P' by lia.
  exists t, fp, (sig_round p v), t', fp'. do 5 (split; [assumption|]). rewrite <- (sig_again p q v Hq V0). split.
  - intros Q. destruct (ClaimsEqual.prints_g_inj (101 - up) q q s s fp' fp' _ _ t' ltac:(lia) (sig_round_nn q _ ltac:(lia) (sig_round_nn p v ltac:(lia) V0)) (sig_round_nn q v ltac:(lia) V0) Q P') as (_ & K & _). exact K.
  - intros K. rewrite K. exact P'.
Qed.

Lemma c112_short : forall w opt opt' val fmt prec q bitSize mb eb b s v t x up, w = 32 \/ w = 64 -> up = 0 \/ up = 32 ->
  as_float bitSize val mb eb b s -> ieee mb eb b = VNum s (sgnR s v) ->
  fmt = 101 \/ fmt = 69 \/ fmt = 102 \/ fmt = 103 \/ fmt = 71 -> prec < 0 ->
  FormatFloat w opt val fmt prec bitSize = Ret t -> text_of s x t ->
  0 <= q < 2 ^ (w - 1) - 1 -> ~ sig_digits (q + 1) x ->
  exists t' fp', FormatFloat w opt' val (101 - up) q bitSize = Ret t' /\ Z.of_nat (List.length fp') = q /\
    (prints_e (101 - up) s fp' (sig_round (q + 1) x) t' <-> ~ (half_digits (q + 1) x /\ ((v - x) * (sig_round (q + 1) x - x) < 0)%R)).
Proof.
  intros w opt opt' val fmt prec q bitSize mb eb b s v t x up Hw Hup A E Hf Hp R T Hq Ns.
  pose proof (ClaimsFtoa2.c64p w opt val fmt prec bitSize mb eb b s v t x Hw A E Hf Hp R T) as Lo.
  destruct (ClaimsFtoa.c51e w opt' val (101 - up) q bitSize mb eb b s v Hw A E ltac:(lia) ltac:(lia)) as (t' & fp' & R' & L' & P').
  exists t', fp'. do 2 (split; [assumption|]). rewrite <- (short_again v x (q + 1) ltac:(lia) Lo (text_decimal s x t T) Ns). split.
  - intros Q. destruct (prints_e_inj (101 - up) s s fp' fp' _ _ t' ltac:(lia) Q P') as (_ & K & _). exact K.
  - intros K. rewrite K. exact P'.
Qed.

(** 0.45, the float64 of which is greater *)
Lemma sig_45 : sig_round 1 (IZR 45 * p10 (-2)) = (IZR 4 * p10 (-1))%R.
Proof.
  rewrite ClaimsLetters.sig_round_mag. assert (M : (mag radix10 (IZR 45 * p10 (-2)) : Z) = 0).
  { apply mag_unique_pos. change (p10 (0 - 1) <= 45 * p10 (-2) < p10 0)%R. change (p10 (0 - 1)) with (/ 10)%R. change (p10 0) with 1%R. change (p10 (-2)) with (/ 100)%R. lra. }
  rewrite M. unfold round10. change (- (0 - 1)) with 1. change (0 - 1) with (-1). do 2 f_equal. change (p10 (-2)) with (/ 100)%R. change (p10 1) with 10%R.
  assert (F : Zfloor (45 * / 100 * 10) = 4) by (apply Zfloor_imp; cbn; lra). unfold Znearest. rewrite F. rewrite Rcompare_Eq by lra. reflexivity.
Qed.

Lemma c112_refuted : exists val v t x t', as_float 64 val 52 11 val false /\ ieee 52 11 val = VNum false v /\
  (forall opt, FormatFloat 64 opt val 101 1 64 = Ret t /\ FormatFloat 64 opt val 101 (-1) 64 = Ret t /\ FormatFloat 64 opt val 101 0 64 = Ret t') /\
  prints_e 101 false [53] x t /\ forall fp', ~ prints_e 101 false fp' (sig_round 1 x) t'.
Proof.
  set (val := 0x3FDCCCCCCCCCCCCD). destruct (ieee 52 11 val) as [s|s|s v] eqn:E; [vm_compute in E; discriminate|vm_compute in E; discriminate|].
  assert (S : s = false). { change (ieee 52 11 val) with (VNum false (IZR 0x1CCCCCCCCCCCCD * p2 (-54))) in E. injection E as -> _. reflexivity. } subst s.
  exists val, v, (B "4.5e-01"), (IZR 45 * p10 (-2))%R, (B "5e-01").
  split; [apply (ClaimsFtoa2.as_float_64 val false v); [unfold val; lia|exact E]|]. split; [exact E|]. split.
  { intros []; (split; [vm_compute; reflexivity|split; vm_compute; reflexivity]). }
  assert (P4 : forall d f n, all_digits 10 (d :: f) -> d <> 48 -> read 10 (d :: f) = n -> prints_e 101 false f (IZR n * p10 (-1 - Z.of_nat (List.length f))) (sign_text false ++ d :: point f ++ 101 :: [45; 48; 49])).
  { intros d f n Ad Nd En. exists d, (-1), [45; 48; 49]. split; [reflexivity|]. split.
    - exists [48; 49]. split; [reflexivity|]. split; [repeat constructor; cbn; lia|]. split; [reflexivity|left; reflexivity].
    - split; [exact Ad|]. rewrite En. split; [reflexivity|]. intros; contradiction. }
  split.
  - apply (P4 52 [53] 45); [repeat constructor; cbn; lia|lia|reflexivity].
  - intros fp' Q. rewrite sig_45 in Q.
    pose proof (P4 53 [] 5 ltac:(repeat constructor; cbn; lia) ltac:(lia) eq_refl) as Q5.
    destruct (prints_e_inj 101 false false fp' [] _ _ (B "5e-01") ltac:(lia) Q Q5) as (_ & K & _).
    change (-1 - Z.of_nat (List.length (@nil Z))) with (-1) in K. pose proof (p10_pos (-1)). nra.
Qed.

Lemma c112_example : exists v, as_float 64 0x3FDCCCCCCCCCCCCD 52 11 0x3FDCCCCCCCCCCCCD false /\ ieee 52 11 0x3FDCCCCCCCCCCCCD = VNum false (sgnR false v) /\
  FormatFloat 64 true 0x3FDCCCCCCCCCCCCD 101 (-1) 64 = Ret (B "4.5e-01") /\ text_of false (IZR 45 * p10 (-2)) (B "4.5e-01") /\ ~ sig_digits (0 + 1) (IZR 45 * p10 (-2)).
Proof.
  exists (IZR 0x1CCCCCCCCCCCCD * p2 (-54))%R. assert (E : ieee 52 11 0x3FDCCCCCCCCCCCCD = VNum false (IZR 0x1CCCCCCCCCCCCD * p2 (-54))) by reflexivity.
  split; [apply (ClaimsFtoa2.as_float_64 0x3FDCCCCCCCCCCCCD false _ ltac:(lia) E)|]. split; [exact E|]. split; [vm_compute; reflexivity|]. split.
  - exists [53]. right. left. exists 52, (-1), [45; 48; 49]. split; [reflexivity|]. split.
    + exists [48; 49]. split; [reflexivity|]. split; [repeat constructor; cbn; lia|]. split; [reflexivity|left; reflexivity].
    + split; [repeat constructor; cbn; lia|]. split; [reflexivity|]. intros; discriminate.
  - intros S. pose proof (ClaimsLen.sig_cut 45 (-2) 1 _ eq_refl ltac:(lia) ltac:(discriminate) ltac:(lia) S) as L. discriminate L.
Qed.
