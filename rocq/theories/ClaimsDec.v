(** The lemmas behind the theorems about decimal.go. *)
From Coq Require Import ZArith Reals List Bool Lia Lra.
From Flocq Require Import Core.
From Verif Require Import GoBase Spec SpecText BitFacts RoundFacts SpecDec DecFacts DecFacts2.
From Verif Require Decimal.
Import ListNotations.
Open Scope Z_scope.

Lemma Shift_nil w a k : Decimal.d a = [] -> Decimal.Shift w a k = Ret a.
Proof. intros E. unfold Decimal.Shift, Decimal.nd. rewrite E. reflexivity. Qed.

(** Integers times powers of two with few digits. *)
Lemma sig_binary m e : 0 <= m < 2 ^ 64 -> -1100 <= e <= 2000 -> sig_digits 800 (IZR m * p2 e).
Proof.
  intros Hm He. destruct (Z_le_gt_dec 0 e) as [P|P].
  - exists (m * 2 ^ e), 0. split; [rewrite mult_IZR, IZR_pow2, p10_0 by lia; ring|].
    assert (0 < 2 ^ e) by (apply Z.pow_pos_nonneg; lia). rewrite Z.abs_eq by nia.
    apply Z.lt_le_trans with (2 ^ 64 * 2 ^ 2000); [|vm_compute; discriminate].
    assert (2 ^ e <= 2 ^ 2000) by (apply Z.pow_le_mono_r; lia).
    apply Z.lt_le_trans with (2 ^ 64 * 2 ^ e); [apply Z.mul_lt_mono_pos_r; lia|apply Z.mul_le_mono_nonneg_l; lia].
  - exists (m * 5 ^ (- e)), e. split.
    + apply Rmult_eq_reg_r with (p2 (- e)); [|apply Rgt_not_eq, p2_pos].
      rewrite Rmult_assoc, <- p2_plus. replace (e + - e) with 0 by lia. change (p2 0) with 1%R.
      rewrite <- scale2 by lia. replace (m * 5 ^ (- e) * 2 ^ (- e)) with (m * 10 ^ (- e)) by (rewrite pow10_split by lia; ring).
      rewrite scale10 by lia. replace (e + - e) with 0 by lia. rewrite p10_0. reflexivity.
    + assert (0 < 5 ^ (- e)) by (apply Z.pow_pos_nonneg; lia). rewrite Z.abs_eq by nia.
      apply Z.lt_le_trans with (2 ^ 64 * 5 ^ 1100); [|vm_compute; discriminate].
      assert (5 ^ (- e) <= 5 ^ 1100) by (apply Z.pow_le_mono_r; lia).
      apply Z.lt_le_trans with (2 ^ 64 * 5 ^ (- e)); [apply Z.mul_lt_mono_pos_r; lia|apply Z.mul_le_mono_nonneg_l; lia].
Qed.

Lemma dnorm_cases a : dnorm a -> Decimal.d a = [] /\ dval a = 0%R \/ Decimal.d a <> [].
Proof. intros H. destruct (Decimal.d a) eqn:E; [left; split; [reflexivity|apply dval_nil, E]|right; discriminate]. Qed.

Lemma Shift_exact_ok w a k : w = 32 \/ w = 64 -> dnorm a -> Decimal.trunc a = false -> sig_digits 800 (dval a * p2 k) ->
  exists b, Decimal.Shift w a k = Ret b /\ dnorm b /\ Decimal.trunc b = false /\ dval b = (dval a * p2 k)%R.
Proof.
  intros Hw Ha T S. destruct (dnorm_cases a Ha) as [[E V]|N].
  - exists a. rewrite Shift_nil by exact E. rewrite V, Rmult_0_l. auto.
  - destruct (Shift_ok w a k Hw Ha N) as (b & E & B). exists b. split; [exact E|]. split; [apply B|].
    assert (Tb : Decimal.trunc b = false) by (apply B; assumption). split; [exact Tb|]. apply (shift_post_exact _ _ _ _ B Tb).
Qed.

Lemma c39 : forall a v, 0 <= v < 2 ^ 64 ->
  exists b, Decimal.Assign a v = Ret b /\ dnorm b /\ dval b = IZR v /\ Decimal.trunc b = Decimal.trunc a.
Proof.
  exact Assign_ok.
Qed.

Lemma c39_unique : forall a b, dnorm a -> dnorm b -> dval a = dval b ->
  Decimal.d a = Decimal.d b /\ Decimal.dp a = Decimal.dp b.
Proof.
  exact dnorm_unique.
Qed.

Lemma c40_exact : forall w a k, w = 32 \/ w = 64 -> dnorm a -> Decimal.trunc a = false -> sig_digits 800 (dval a * p2 k) ->
  exists b, Decimal.Shift w a k = Ret b /\ dnorm b /\ Decimal.trunc b = false /\ dval b = (dval a * p2 k)%R.
Proof.
  exact Shift_exact_ok.
Qed.

Lemma c40_fmt : forall w m e, w = 32 \/ w = 64 -> 0 <= m < 2 ^ 64 -> -1100 <= e <= 2000 ->
  exists a b, Decimal.Assign Decimal.new_decimal m = Ret a /\ Decimal.Shift w a e = Ret b /\
    dnorm b /\ Decimal.trunc b = false /\ dval b = (IZR m * p2 e)%R.
Proof.
  intros w m e Hw Hm He. destruct (Assign_ok Decimal.new_decimal m Hm) as (a & E & A1 & A2 & A3).
  destruct (Shift_exact_ok w a e Hw A1 A3) as (b & F & B1 & B2 & B3); [rewrite A2; apply sig_binary; assumption|].
  exists a, b. rewrite <- A2. auto.
Qed.

Lemma c40_trunc : forall w a k, w = 32 \/ w = 64 -> dnorm a ->
  exists b, Decimal.Shift w a k = Ret b /\ dnorm b /\
    (Decimal.trunc b = true <-> Decimal.trunc a = true \/ (dval b < dval a * p2 k)%R) /\
    (dval a * p2 k * (1 - p10 (-799)) ^ Z.to_nat (Z.abs k / (w - 4) + 2) <= dval b <= dval a * p2 k)%R.
Proof.
  intros w a k Hw Ha. destruct (dnorm_cases a Ha) as [[E V]|N].
  - exists a. rewrite Shift_nil by exact E. rewrite V, !Rmult_0_l. split; [reflexivity|]. split; [exact Ha|]. split; [|lra].
    split; [auto|]. intros [?|?]; [assumption|lra].
  - destruct (Shift_ok w a k Hw Ha N) as (b & E & B1 & B2 & B3 & B4 & _). exists b. auto.
Qed.

Lemma c40_one : forall w a k, w = 32 \/ w = 64 -> dnorm a -> Decimal.d a <> [] -> Z.abs k <= w - 4 ->
  exists b, Decimal.Shift w a k = Ret b /\
    exists p, (p10 (p - 1) <= dval a * p2 k < p10 p)%R /\ dval b = floor10 (p - 800) (dval a * p2 k).
Proof.
  exact Shift_one.
Qed.

Lemma c41_round : forall a n V, dnorm a -> cut_to a V -> 0 <= n -> Decimal.trunc a = false \/ n < 800 ->
  dnorm (Decimal.Round a n) /\ dval (Decimal.Round a n) = round10 (Decimal.dp a - n) V.
Proof.
  intros a n V H1 H2 H3 H4. destruct (Round_all a n V H1 H2 H3 H4) as (A & B & _). auto.
Qed.

Lemma c41_dirs : forall a n V, dnorm a -> cut_to a V -> 0 <= n ->
  (Decimal.trunc a = false \/ n < 800 ->
     dnorm (Decimal.RoundDown a n) /\ dval (Decimal.RoundDown a n) = floor10 (Decimal.dp a - n) V) /\
  (Decimal.trunc a = false \/ n < Decimal.nd a ->
     dnorm (Decimal.RoundUp a n) /\ dval (Decimal.RoundUp a n) = ceil10 (Decimal.dp a - n) V).
Proof.
  intros a n V H1 H2 H3. split; intros H4.
  - destruct (RoundDown_all a n V H1 H2 H3 H4) as (A & B & _). auto.
  - destruct (RoundUp_all a n V H1 H2 H3 H4) as (A & B & _). auto.
Qed.

Lemma c41_id : forall a n, n < 0 \/ Decimal.nd a <= n ->
  Decimal.Round a n = a /\ Decimal.RoundDown a n = a /\ Decimal.RoundUp a n = a.
Proof.
  intros a n H. unfold Decimal.Round, Decimal.RoundDown, Decimal.RoundUp.
  destruct (Z.ltb_spec n 0); [auto|]. destruct (Z.leb_spec (Decimal.nd a) n); [auto|lia].
Qed.

Lemma c42 : forall a V, dnorm a -> cut_to a V -> ZnearestE V < 2 ^ 64 ->
  Decimal.RoundedInteger a = ZnearestE V.
Proof.
  exact RoundedInteger_ok.
Qed.

Lemma c42_refuted : exists a, dnorm a /\ Decimal.trunc a = false /\ (dval a < IZR (2 ^ 64))%R /\
  Decimal.RoundedInteger a = 0 /\ ZnearestE (dval a) = 2 ^ 64.
Proof.
  exists (Decimal.mkDec [1; 8; 4; 4; 6; 7; 4; 4; 0; 7; 3; 7; 0; 9; 5; 5; 1; 6; 1; 5; 5] 20 false).
  assert (E : dval (Decimal.mkDec [1; 8; 4; 4; 6; 7; 4; 4; 0; 7; 3; 7; 0; 9; 5; 5; 1; 6; 1; 5; 5] 20 false) = (IZR 18446744073709551615 + / 2)%R).
  { unfold dval, lval. cbn [Decimal.d Decimal.dp length]. change (20 - Z.of_nat 21) with (-1). change (p10 (-1)) with (/ 10)%R.
    change (dread _) with 184467440737095516155. lra. }
  rewrite E. split; [|split; [reflexivity|split; [|split]]].
  - unfold dnorm, digits_ok, no_lead0, no_trail0. cbn [Decimal.d Decimal.dp hd last length]. repeat split; try lia; [|discriminate]. repeat constructor; lia.
  - change (2 ^ 64) with (18446744073709551615 + 1). rewrite plus_IZR. lra.
  - vm_compute. reflexivity.
  - rewrite Znearest_frac by lra. rewrite Rcompare_Eq by reflexivity. reflexivity.
Qed.

Lemma c43 : forall a, dnorm a -> denotes_plain (Decimal.String_ a) (dval a).
Proof.
  exact String_ok.
Qed.

