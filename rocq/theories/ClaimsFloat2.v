(** When IsExact64, IsExact32 and IsExact16 answer true. *)
From Coq Require Import ZArith Reals String List Bool Lia Lra.
From Flocq Require Import Core.
From Verif Require Import GoBase Spec SpecText SpecDec SpecFtoa BitFacts RoundFacts IeeeFacts BigFacts BigFacts2 DecFacts ExtShort FtoaShort FtoaAll ClaimsFtoa.
From Verif Require BigFloat Ftoa ClaimsFtoa2.
From Verif Require Import FloatPkg PkgText PkgExact ExactGap ClaimsFloat.
From Verif Require Import SpecFmt.
Import BigFloat (mkBF, frm, neg).
Import ListNotations.
Open Scope Z_scope.

Lemma sig_nonzero n y : (0 < y)%R -> sig_digits n y -> exists N k j, 0 < N /\ N mod 10 <> 0 /\ 1 <= j <= n /\ 10 ^ (j - 1) <= N < 10 ^ j /\ y = (IZR N * p10 k)%R.
Proof.
  intros Y (M & q & E & HM). pose proof (p10_pos q) as Pq. assert (M0 : 0 < M) by (apply lt_IZR; apply Rmult_lt_reg_r with (p10 q); [exact Pq|]; lra).
  rewrite Z.abs_eq in HM by lia. clear Pq.
  assert (G : forall a M q, (Z.to_nat M < a)%nat -> 0 < M < 10 ^ n -> y = (IZR M * p10 q)%R -> exists N k, 0 < N < 10 ^ n /\ N mod 10 <> 0 /\ y = (IZR N * p10 k)%R).
  { induction a as [|a IH]; intros M1 q1 Ha H1 E1; [lia|]. destruct (Z.eq_dec (M1 mod 10) 0) as [D|D]; [|exists M1, q1; auto].
    assert (E2 : M1 = 10 * (M1 / 10)) by (apply Z_div_exact_2; lia). apply (IH (M1 / 10) (q1 + 1)); [lia|lia|].
    rewrite E1, E2 at 1. rewrite mult_IZR, p10_plus. change (p10 1) with 10%R. ring. }
  destruct (G (S (Z.to_nat M)) M q ltac:(lia) ltac:(lia) E) as (N & k & HN & DN & EN). exists N, k.
  destruct (ndigits_range N ltac:(lia)) as (K1 & K2). exists (GoFmt.ndigits N). split; [lia|]. split; [exact DN|]. split; [|split; [exact K2|exact EN]].
  split; [exact K1|]. destruct (Z_le_gt_dec (GoFmt.ndigits N) n) as [|L]; [assumption|exfalso]. assert (10 ^ n <= 10 ^ (GoFmt.ndigits N - 1)) by (apply Z.pow_le_mono_r; lia). lia.
Qed.

(** If the float itself has the fewest digits, it is the only such decimal close to itself. *)
Lemma self_shortest mb eb n0 n v y : 1 <= mb -> 2 <= eb -> 1 < n0 -> 10 ^ n0 < 2 ^ (mb + 1) -> 10 ^ n0 <= 5 ^ (2 ^ (eb - 1) - 1) -> (0 <= v)%R -> (0 <= y)%R ->
  fits mb eb v -> fewest_digits mb eb v v -> rn mb eb y = v -> fewest_digits mb eb v y -> sig_digits n y -> last_digit_ok v y -> y = v.
Proof.
  intros Hm He Hn H2 H5 V Y F Wv R W S LD. destruct (Req_dec v 0) as [->|Nv]; [apply (fewest_zero mb eb), W|].
  assert (Y0 : (0 < y)%R) by (destruct (Req_dec y 0) as [K|K]; [rewrite K, rn_0 in R; lra|lra]).
  destruct (sig_nonzero n y Y0 S) as (N & k & j & N0 & DN & Hj & HN & EN).
  assert (Sy : sig_digits j y) by (exists N, k; split; [exact EN|lia]). assert (Sv : sig_digits j v) by (apply (Wv y j R Sy)).
  destruct (Z_le_gt_dec j n0) as [L|L].
  { apply (short_exact mb eb n0); auto; try lia. apply (sig_mono j); assumption. }
  specialize (LD N k EN DN). pose proof (p10_pos k) as Pk.
  assert (T : (p10 (k + j - 1) <= y)%R).
  { rewrite EN. replace (k + j - 1) with (j - 1 + k) by lia. rewrite p10_plus. apply Rmult_le_compat_r; [lra|]. rewrite <- IZR_p10 by lia. apply IZR_le. lia. }
  destruct (Rle_or_lt (p10 (k + j - 1)) v) as [Lv|Lv].
  - destruct (sig_multiple j v k ltac:(lia) Sv Lv) as [q Hq]. rewrite EN, Hq in LD |- *.
    replace (IZR N * p10 k - IZR q * p10 k)%R with (IZR (N - q) * p10 k)%R in LD by (rewrite minus_IZR; ring).
    rewrite Rabs_mult, (Rabs_pos_eq (p10 k)), <- abs_IZR in LD by lra.
    assert (Z.abs (N - q) < 1) by (apply lt_IZR; apply Rmult_lt_reg_r with (p10 k); lra). do 2 f_equal. lia.
  - exfalso. assert (Rt : rn mb eb (p10 (k + j - 1)) = v).
    { apply Rle_antisym; [rewrite <- R; apply rn_mono; [lia|exact T]|]. rewrite <- (fits_rn mb eb v ltac:(lia) F) at 1. apply rn_mono; [lia|lra]. }
    assert (S1 : sig_digits 1 (p10 (k + j - 1))) by (exists 1, (k + j - 1); split; [ring|reflexivity]).
    assert (S2 : sig_digits n0 y) by (apply (sig_mono 1); [lia|apply (W _ 1 Rt S1)]).
    apply ExtShort.sig_multiple with (k := k + 1) in S2.
    + destruct S2 as [q Hq]. rewrite EN, p10_plus in Hq. change (p10 1) with 10%R in Hq. apply DN.
      assert (E : IZR N = IZR (q * 10)) by (rewrite mult_IZR; apply Rmult_eq_reg_r with (p10 k); lra). apply eq_IZR in E. rewrite E. apply Z.mod_mul. lia.
    + lia.
    + apply Rle_trans with (2 := T). unfold p10. apply bpow_le. lia.
Qed.

Lemma iff_core mb eb n0 v y : 1 <= mb -> 2 <= eb -> 1 < n0 -> 10 ^ n0 < 2 ^ (mb + 1) -> 10 ^ n0 <= 5 ^ (2 ^ (eb - 1) - 1) -> (0 <= v)%R -> (0 <= y)%R ->
  fits mb eb v -> fits 52 11 v -> rn mb eb y = v -> fewest_digits mb eb v y -> sig_digits 17 y -> last_digit_ok v y ->
  (y = sig_round 101 v <-> fewest_digits mb eb v v).
Proof.
  intros Hm He Hn H2 H5 V Y F F64 R W S LD. split; intros H.
  - assert (E : y = v) by (rewrite H in S |- *; apply sig101; assumption). rewrite <- E at 2. exact W.
  - assert (E : y = v) by (apply (self_shortest mb eb n0 17); assumption). rewrite E in S |- *. symmetry. apply sig_round_id; [lia|]. apply (sig_mono 17); [lia|exact S].
Qed.

Lemma c65_64 : forall w opt x, w = 32 \/ w = 64 -> wf x ->
  (IsExact64 w opt x = Ret true <-> exists s u, bval x = VNum s u /\ fits 52 11 u /\ fewest_digits 52 11 (Rabs u) (Rabs u)).
Proof.
  intros w opt x Hw Wx. destruct (bval x) as [s|s|s u] eqn:Bx.
  - unfold bval in Bx. destruct (frm x); discriminate.
  - destruct (inf_panics w opt x s Hw Wx Bx) as (P & _). split; [rewrite P; discriminate|]. intros (? & ? & K & _). discriminate.
  - destruct (exact64 w opt x s u Hw Wx Bx) as [P N]. destruct (bval_neg x s u Wx Bx) as [_ Eu].
    assert (G : fits 52 11 u -> (IsExact64 w opt x = Ret true <-> fewest_digits 52 11 (Rabs u) (Rabs u))).
    { intros F. destruct (P F) as (y & c & E & C & Y & R & W & S & LD & _).
      rewrite <- (iff_core 52 11 15 (Rabs u) y) by (first [assumption|apply Rabs_pos|apply (fits_abs 52 11 s); assumption|reflexivity|lia|vm_compute; discriminate]).
      rewrite E, <- C. split; intros K; [injection K; auto|rewrite K; reflexivity]. }
    split.
    + intros K. destruct (ToFloat_fits 52 11 x s u ltac:(lia) ltac:(lia) ltac:(vm_compute; discriminate) Wx Bx) as [F|F]; [|rewrite (N F) in K; discriminate].
      exists s, u. split; [reflexivity|]. split; [exact F|]. apply G; assumption.
    + intros (s' & u' & K & F & W). injection K as <- <-. apply G; assumption.
Qed.

Lemma fits_23_52 u : fits 23 8 u -> fits 52 11 u.
Proof.
  intros [(M & c & EM & HM & Hc) Hu]. change (2 ^ (23 + 1)) with 16777216 in HM. change (2 - 2 ^ (8 - 1) - 23) with (-149) in Hc.
  split; [exists M, c; split; [exact EM|]; split; [change (2 ^ (52 + 1)) with 9007199254740992; lia|cbn; lia]|]. apply Rlt_le_trans with (1 := Hu). apply p2_le. cbn. lia.
Qed.
Lemma fits_10_52 u : fits 10 5 u -> fits 52 11 u.
Proof.
  intros [(M & c & EM & HM & Hc) Hu]. change (2 ^ (10 + 1)) with 2048 in HM. change (2 - 2 ^ (5 - 1) - 10) with (-24) in Hc.
  split; [exists M, c; split; [exact EM|]; split; [change (2 ^ (52 + 1)) with 9007199254740992; lia|cbn; lia]|]. apply Rlt_le_trans with (1 := Hu). apply p2_le. cbn. lia.
Qed.

Lemma c65_32 : forall w opt x, w = 32 \/ w = 64 -> wf x ->
  (IsExact32 w opt x = Ret true <-> exists s u, bval x = VNum s u /\ fits 23 8 u /\ fewest_digits 23 8 (Rabs u) (Rabs u)).
Proof.
  intros w opt x Hw Wx. destruct (bval x) as [s|s|s u] eqn:Bx.
  - unfold bval in Bx. destruct (frm x); discriminate.
  - destruct (inf_panics w opt x s Hw Wx Bx) as (_ & P & _). split; [rewrite P; discriminate|]. intros (? & ? & K & _). discriminate.
  - destruct (exact32 w opt x s u Hw Wx Bx) as [P N]. destruct (bval_neg x s u Wx Bx) as [_ Eu].
    assert (G : fits 23 8 u -> (IsExact32 w opt x = Ret true <-> fewest_digits 23 8 (Rabs u) (Rabs u))).
    { intros F. destruct (P F) as (y & c & E & C & Y & R & W & S & LD & _). pose proof (fits_abs 23 8 s u Eu F) as Fa. pose proof (sig_mono 9 17 y ltac:(lia) S) as S'.
      rewrite <- (iff_core 23 8 7 (Rabs u) y) by (first [assumption|apply Rabs_pos|apply fits_23_52; assumption|reflexivity|lia|vm_compute; discriminate]).
      rewrite E, <- C. split; intros K; [injection K; auto|rewrite K; reflexivity]. }
    split.
    + intros K. destruct (ToFloat_fits 23 8 x s u ltac:(lia) ltac:(lia) ltac:(vm_compute; discriminate) Wx Bx) as [F|F]; [|rewrite (N F) in K; discriminate].
      exists s, u. split; [reflexivity|]. split; [exact F|]. apply G; assumption.
    + intros (s' & u' & K & F & W). injection K as <- <-. apply G; assumption.
Qed.

Lemma c65_16 : forall w opt x s u, w = 32 \/ w = 64 -> wf x -> bval x = VNum s u -> fits 10 5 u ->
  (IsExact16 w opt x = Ret true <-> fewest_digits 10 5 (Rabs u) (Rabs u)).
Proof.
  intros w opt x s u Hw Wx Bx F. destruct (bval_neg x s u Wx Bx) as [_ Eu]. pose proof (fits_abs 10 5 s u Eu F) as Fa.
  assert (Rr : rn 10 5 (Rabs u) = Rabs u) by (apply fits_rn; [lia|exact Fa]).
  assert (Ru : (Rabs (rn 10 5 u) < p2 16)%R) by (rewrite (fits_rn 10 5 u ltac:(lia) F); apply F).
  destruct (proj1 (exact16 w opt x s u Hw Wx Bx) (fits_10_52 u F) (or_intror (or_intror F)) Ru) as (y & c & E & C & Y & R & W & S & LD & _). rewrite Rr in R, W, LD. pose proof (sig_mono 5 17 y ltac:(lia) S) as S'.
  rewrite <- (iff_core 10 5 3 (Rabs u) y) by (first [assumption|apply Rabs_pos|apply fits_10_52; assumption|reflexivity|lia|vm_compute; discriminate]).
  rewrite E, <- C. split; intros K; [injection K; auto|rewrite K; reflexivity].
Qed.

(** * All numbers *)
Lemma fits_parts mb eb v : 1 <= mb -> 2 <= eb -> (0 <= v)%R -> fits mb eb v -> exists mt e, float_parts mb eb mt e /\ v = (IZR mt * p2 (e - mb))%R.
Proof.
  intros Hm He V [(M & c & E & HM & Hc) H]. set (lo := 2 - 2 ^ (eb - 1)) in *. unfold float_parts. fold lo.
  destruct (Req_dec v 0) as [Z0|N0].
  { exists 0, lo. split; [right; split; [pose proof (pow2_pos mb ltac:(lia)); lia|reflexivity]|]. rewrite Z0. ring. }
  assert (M0 : 0 < M) by (apply lt_IZR; apply Rmult_lt_reg_r with (p2 c); [apply p2_pos|]; rewrite Rmult_0_l, <- E; lra).
  rewrite Z.abs_eq in HM by lia. destruct (Z.log2_spec M M0) as [L1 L2]. set (k := Z.log2 M) in *. pose proof (Z.log2_nonneg M) as L3. fold k in L3.
  assert (Kk : k < mb + 1) by (apply (Z.pow_lt_mono_r_iff 2); lia).
  assert (Ev : forall j, 0 <= j -> v = (IZR (M * 2 ^ j) * p2 (c - j))%R).
  { intros j Hj. rewrite E, mult_IZR, IZR_pow2, Rmult_assoc, <- p2_plus by lia. do 2 f_equal. lia. }
  destruct (Z_le_gt_dec (mb - k) (c - (lo - mb))) as [J|J].
  - exists (M * 2 ^ (mb - k)), (c - (mb - k) + mb). replace (c - (mb - k) + mb - mb) with (c - (mb - k)) by lia. split; [left|apply Ev; lia].
    assert (B1 : 2 ^ mb <= M * 2 ^ (mb - k)) by (replace mb with (k + (mb - k)) at 1 by lia; rewrite Z.pow_add_r by lia; apply Z.mul_le_mono_nonneg_r; [apply Z.pow_nonneg|]; lia).
    split; [split; [exact B1|]|split; [lia|]].
    + replace (mb + 1) with (Z.succ k + (mb - k)) by lia. rewrite Z.pow_add_r by lia. apply Z.mul_lt_mono_pos_r; [apply pow2_pos; lia|exact L2].
    + assert (K : (p2 (c - (mb - k) + mb) < p2 (2 ^ (eb - 1)))%R).
      { apply Rle_lt_trans with (2 := H). rewrite Rabs_pos_eq by exact V. rewrite (Ev (mb - k)) by lia. replace (c - (mb - k) + mb) with (mb + (c - (mb - k))) by lia. rewrite (p2_plus mb).
        apply Rmult_le_compat_r; [apply Rlt_le, p2_pos|]. rewrite <- IZR_pow2 by lia. apply IZR_le. exact B1. }
      apply lt_bpow in K. lia.
  - assert (0 <= c - (lo - mb)) by lia. exists (M * 2 ^ (c - (lo - mb))), lo. split; [right; split; [|reflexivity]|rewrite (Ev (c - (lo - mb))) by lia; do 2 f_equal; lia].
    split; [apply Z.mul_nonneg_nonneg; [lia|apply Z.pow_nonneg; lia]|]. apply Z.lt_le_trans with (2 ^ Z.succ k * 2 ^ (c - (lo - mb))).
    + apply Z.mul_lt_mono_pos_r; [apply pow2_pos; lia|exact L2].
    + rewrite <- Z.pow_add_r by lia. apply Z.pow_le_mono_r; lia.
Qed.

Lemma rn16_fits y : (0 <= y)%R -> (rn 10 5 y < p2 16)%R -> fits 10 5 (rn 10 5 y).
Proof.
  intros Y H. assert (P : Prec_gt_0 11) by reflexivity. assert (VE : Valid_exp (FLT_exp (3 - 2 ^ (5 - 1) - (10 + 1)) (10 + 1))) by (apply FLT_exp_valid; exact P).
  assert (R0 : (0 <= rn 10 5 y)%R) by (rewrite <- (rn_0 10 5); apply rn_mono; [lia|exact Y]).
  assert (G : generic_format radix2 (FLT_exp (3 - 2 ^ (5 - 1) - (10 + 1)) (10 + 1)) (rn 10 5 y)) by (apply generic_format_round; [exact VE|apply valid_rnd_N]).
  apply FLT_format_generic in G; [|exact P]. destruct G as [[M c] G1 G2 G3]. cbn [Fnum Fexp] in *. split; [|rewrite Rabs_pos_eq by exact R0; exact H].
  exists M, c. split; [exact G1|]. split; [exact G2|]. lia.
Qed.

Lemma c65_16_all : forall w opt x s u, w = 32 \/ w = 64 -> wf x -> bval x = VNum s u ->
  (IsExact16 w opt x = Ret true <->
   fits 52 11 u /\ (rn 10 5 (Rabs u) < p2 16)%R /\ shortest_digits 10 5 (rn 10 5 (Rabs u)) (Rabs u)).
Proof.
  intros w opt x s u Hw Wx Bx. destruct (bval_neg x s u Wx Bx) as [_ Eu].
  assert (G : fits 52 11 u -> (rn 10 5 (Rabs u) < p2 16)%R -> fewest_digits 10 5 (rn 10 5 (Rabs u)) (Rabs u) -> sig_digits 5 (Rabs u) ->
    exists y c, IsExact16 w opt x = Ret c /\ (c = true <-> y = Rabs u) /\ shortest_digits 10 5 (rn 10 5 (Rabs u)) y).
  { intros F R W S.
    assert (Ra : Rabs (rn 10 5 u) = rn 10 5 (Rabs u)).
    { assert (0 <= rn 10 5 (Rabs u))%R by (rewrite <- (rn_0 10 5); apply rn_mono; [lia|apply Rabs_pos]). rewrite Eu at 1. destruct s; cbn [sgnR].
      - replace (rn 10 5 (- Rabs u)) with (- rn 10 5 (Rabs u))%R by (unfold rn; rewrite round_NE_opp; reflexivity). rewrite Rabs_Ropp. apply Rabs_pos_eq. assumption.
      - apply Rabs_pos_eq. assumption. }
    destruct (proj1 (exact16 w opt x s u Hw Wx Bx) F) as (y & c & E & C & Y & Ry & Wy & Sy & _ & Ch); [|rewrite Ra; exact R|].
    - destruct (sound16 (Rabs u) (Rabs_pos u) (fits_abs 52 11 s u Eu F) R W S) as [K|(N & K1 & K2)].
      + right; right. destruct K as [(M & c & EM & HM & Hc) K]. split; [|rewrite Rabs_Rabsolu in K; exact K].
        exists (if s then - M else M), c. split; [|split; [destruct s; lia|exact Hc]]. rewrite Eu, EM. destruct s; cbn [sgnR]; [rewrite opp_IZR|]; ring.
      + right; left. rewrite K1. destruct K2 as [K2 K3]. apply IZR_lt in K2, K3. split; [apply Rle_trans with 1%R; [change 1%R with (p2 0); apply p2_le; lia|lra]|change (p2 16) with 65536%R; lra].
    - exists y, c. split; [exact E|]. split; [|split; [exact Y|split; [exact Ry|split; [exact Wy|exact Ch]]]].
      rewrite C, sig_round_id; [reflexivity|lia|]. apply (sig_mono 5); [lia|exact S]. }
  split.
  - intros H. destruct (true16 w opt x s u Hw Wx Bx H) as (F & R & W & S). split; [exact F|]. split; [exact R|].
    destruct (G F R W S) as (y & c & E & C & K). rewrite H in E. injection E as <-. rewrite <- (proj1 C eq_refl) at 2. exact K.
  - intros (F & R & K). pose proof K as (_ & _ & W & _).
    assert (S : sig_digits 5 (Rabs u)).
    { destruct (fits_parts 10 5 (rn 10 5 (Rabs u))) as (mt & e & Hp & Ep); [lia|lia|rewrite <- (rn_0 10 5); apply rn_mono; [lia|apply Rabs_pos]|apply rn16_fits; [apply Rabs_pos|exact R]|].
      apply (W (sig_round 5 (rn 10 5 (Rabs u)))); [|apply sig_round_sig; lia]. rewrite Ep. apply (digits_enough 10 5 5 mt e); [lia|lia|lia|reflexivity|exact Hp]. }
    destruct (G F R W S) as (y & c & E & C & K'). rewrite E. f_equal. apply C. apply (ClaimsFtoa2.shortest_unique 10 5 (rn 10 5 (Rabs u))); assumption.
Qed.
