(** Facts about extfloat.go: tables, multiplication, normalisation, scaling. *)
From Coq Require Import ZArith Reals List Bool Lia Lra.
From Flocq Require Import Core.
From Verif Require Import GoBase BigFloat ExtFloat.
From Verif Require Import Spec BitFacts RoundFacts SpecDec DecFacts.
Import ListNotations.
Open Scope Z_scope.

Definition eval (f : extFloat) : R := (IZR (mant f) * p2 (exp f))%R.

(** * Tables *)
(** |m 2^e - 10^k| <= 2^(e-1), in integers. *)
Definition pow_ok (m e k : Z) : bool :=
  let E := Z.max 0 (- e) in let K := Z.max 0 (- k) in
  (2 ^ 63 <=? m) && (m <? 2 ^ 64) &&
  (2 * Z.abs (m * (2 ^ (e + E) * 10 ^ K) - 10 ^ (k + K) * 2 ^ E) <=? 2 ^ (e + E) * 10 ^ K).

Lemma pow_ok_spec m e k : pow_ok m e k = true ->
  2 ^ 63 <= m < 2 ^ 64 /\ (Rabs (IZR m * p2 e - p10 k) <= p2 (e - 1))%R.
Proof.
  unfold pow_ok. set (E := Z.max 0 (- e)). set (K := Z.max 0 (- k)). intros H.
  apply andb_prop in H. destruct H as [H H3]. apply andb_prop in H. destruct H as [H1 H2].
  apply Z.leb_le in H1, H3. apply Z.ltb_lt in H2. split; [lia|].
  apply IZR_le in H3. rewrite mult_IZR, abs_IZR, minus_IZR, !mult_IZR, !IZR_pow2, !IZR_p10 in H3 by lia.
  rewrite !p2_plus, !p10_plus in H3.
  pose proof (p2_pos E) as PE. pose proof (p10_pos K) as PK.
  replace (IZR m * (p2 e * p2 E * p10 K) - p10 k * p10 K * p2 E)%R with ((IZR m * p2 e - p10 k) * (p2 E * p10 K))%R in H3 by ring.
  rewrite Rabs_mult, (Rabs_pos_eq (p2 E * p10 K)) in H3 by (apply Rmult_le_pos; lra).
  replace (p2 (e - 1)) with (p2 e * / 2)%R by (unfold Z.sub; rewrite p2_plus; reflexivity).
  apply Rmult_le_reg_r with (p2 E * p10 K)%R; [apply Rmult_lt_0_compat; lra|]. lra.
Qed.

Fixpoint pows_ok (k : Z) (l : list extFloat) : bool :=
  match l with
  | [] => true
  | p :: l => pow_ok (mant p) (exp p) k && negb (neg p) && pows_ok (k + 8) l
  end.
Lemma pows_nth l : forall k i p, pows_ok k l = true -> nth_error l i = Some p ->
  pow_ok (mant p) (exp p) (k + 8 * Z.of_nat i) = true.
Proof.
  induction l as [|x l IH]; intros k i p H E; [destruct i; discriminate|]. cbn [pows_ok] in H. apply andb_prop in H. destruct H as [H1 H2].
  destruct i as [|i]; cbn [nth_error] in E.
  - injection E as <-. replace (k + 8 * Z.of_nat 0) with k by lia. apply andb_prop in H1. apply H1.
  - replace (k + 8 * Z.of_nat (S i)) with (k + 8 + 8 * Z.of_nat i) by lia. apply (IH (k + 8) i p H2 E).
Qed.
Lemma powersOfTen_ok i p : nth_error powersOfTen i = Some p ->
  2 ^ 63 <= mant p < 2 ^ 64 /\ (Rabs (eval p - p10 (-348 + 8 * Z.of_nat i)) <= p2 (exp p - 1))%R.
Proof.
  intros E. apply pow_ok_spec. apply (pows_nth powersOfTen (-348)); [vm_compute; reflexivity|exact E].
Qed.

Definition small_ok (k : Z) (p : extFloat) : bool :=
  (mant p =? 10 ^ k * 2 ^ (- exp p)) && (exp p <=? 0) && (2 ^ 63 <=? mant p) && (mant p <? 2 ^ 64) && negb (neg p).
Fixpoint smalls_ok (k : Z) (l : list extFloat) : bool :=
  match l with [] => true | p :: l => small_ok k p && smalls_ok (k + 1) l end.
Lemma smalls_nth l : forall k i p, smalls_ok k l = true -> nth_error l i = Some p -> small_ok (k + Z.of_nat i) p = true.
Proof.
  induction l as [|x l IH]; intros k i p H E; [destruct i; discriminate|]. cbn [smalls_ok] in H. apply andb_prop in H. destruct H as [H1 H2].
  destruct i as [|i]; cbn [nth_error] in E.
  - injection E as <-. replace (k + Z.of_nat 0) with k by lia. exact H1.
  - replace (k + Z.of_nat (S i)) with (k + 1 + Z.of_nat i) by lia. apply (IH (k + 1) i p H2 E).
Qed.
Lemma smallPowersOfTen_ok i p : nth_error smallPowersOfTen i = Some p -> 2 ^ 63 <= mant p < 2 ^ 64 /\ eval p = p10 (Z.of_nat i).
Proof.
  intros E. assert (H : small_ok (0 + Z.of_nat i) p = true) by (apply (smalls_nth smallPowersOfTen 0); [vm_compute; reflexivity|exact E]).
  rewrite Z.add_0_l in H. unfold small_ok in H. repeat (apply andb_prop in H; destruct H as [H ?]).
  apply Z.eqb_eq in H. split; [lia|]. unfold eval. rewrite H, mult_IZR, IZR_p10, IZR_pow2 by lia.
  rewrite Rmult_assoc, <- p2_plus. replace (- exp p + exp p) with 0 by lia. change (p2 0) with 1%R. ring.
Qed.

Fixpoint upows_ok (k : Z) (l : list Z) : bool :=
  match l with [] => true | p :: l => (p =? 10 ^ k) && upows_ok (k + 1) l end.
Lemma upows_nth l : forall k i p, upows_ok k l = true -> nth_error l i = Some p -> p = 10 ^ (k + Z.of_nat i).
Proof.
  induction l as [|x l IH]; intros k i p H E; [destruct i; discriminate|]. cbn [upows_ok] in H. apply andb_prop in H. destruct H as [H1 H2].
  destruct i as [|i]; cbn [nth_error] in E.
  - injection E as <-. replace (k + Z.of_nat 0) with k by lia. apply Z.eqb_eq, H1.
  - replace (k + Z.of_nat (S i)) with (k + 1 + Z.of_nat i) by lia. apply (IH (k + 1) i p H2 E).
Qed.
Lemma uint64pow10_nth i p : nth_error uint64pow10 i = Some p -> p = 10 ^ Z.of_nat i.
Proof. intros E. apply (upows_nth uint64pow10 0); [vm_compute; reflexivity|exact E]. Qed.
Lemma at_pow10 k : 0 <= k <= 19 -> at_ uint64pow10 k = Ret (10 ^ k).
Proof.
  intros H. unfold at_. destruct (Z.ltb_spec k 0); [lia|]. destruct (nth_error uint64pow10 (Z.to_nat k)) as [p|] eqn:E.
  - apply uint64pow10_nth in E. rewrite Z2Nat.id in E by lia. congruence.
  - apply nth_error_None in E. change (length uint64pow10) with 20%nat in E. lia.
Qed.

(** * Multiply *)
Lemma Multiply_mant f g : 0 <= mant f < 2 ^ 64 -> 0 <= mant g < 2 ^ 64 ->
  mant (Multiply f g) = (mant f * mant g + 2 ^ 63) / 2 ^ 64 /\ exp (Multiply f g) = exp f + exp g + 64 /\ neg (Multiply f g) = neg f.
Proof.
  intros Hf Hg. unfold Multiply. cbn [mant exp neg]. split; [|auto].
  set (a := mant f) in *. set (b := mant g) in *. clearbody a b.
  rewrite !Z.shiftr_div_pow2 by lia. unfold u32.
  pose proof (Z.div_mod a (2 ^ 32) ltac:(lia)) as Ea. pose proof (Z.mod_pos_bound a (2 ^ 32) ltac:(lia)) as Ra.
  pose proof (Z.div_mod b (2 ^ 32) ltac:(lia)) as Eb. pose proof (Z.mod_pos_bound b (2 ^ 32) ltac:(lia)) as Rb.
  assert (Ha : 0 <= a / 2 ^ 32 < 2 ^ 32) by (split; [apply Z.div_pos; lia|apply Z.div_lt_upper_bound; lia]).
  assert (Hb : 0 <= b / 2 ^ 32 < 2 ^ 32) by (split; [apply Z.div_pos; lia|apply Z.div_lt_upper_bound; lia]).
  set (ah := a / 2 ^ 32) in *. set (al := a mod 2 ^ 32) in *. set (bh := b / 2 ^ 32) in *. set (bl := b mod 2 ^ 32) in *.
  assert (S1 : forall x y, 0 <= x < 2 ^ 32 -> 0 <= y < 2 ^ 32 -> 0 <= x * y <= (2 ^ 32 - 1) * (2 ^ 32 - 1)).
  { intros x y Hx Hy. split; [nia|]. apply Z.mul_le_mono_nonneg; lia. }
  pose proof (S1 ah bl Ha Rb) as B1. pose proof (S1 al bh Ra Hb) as B2. pose proof (S1 ah bh Ha Hb) as B3. pose proof (S1 al bl Ra Rb) as B4.
  unfold u64. rewrite (Z.mod_small (ah * bl)), (Z.mod_small (al * bh)), (Z.mod_small (ah * bh)), (Z.mod_small (al * bl)) by lia.
  set (c1 := ah * bl) in *. set (c2 := al * bh) in *. set (c3 := ah * bh) in *. set (c4 := al * bl) in *.
  pose proof (Z.div_mod c1 (2 ^ 32) ltac:(lia)) as E1. pose proof (Z.mod_pos_bound c1 (2 ^ 32) ltac:(lia)) as R1.
  pose proof (Z.div_mod c2 (2 ^ 32) ltac:(lia)) as E2. pose proof (Z.mod_pos_bound c2 (2 ^ 32) ltac:(lia)) as R2.
  pose proof (Z.div_mod c4 (2 ^ 32) ltac:(lia)) as E4. pose proof (Z.mod_pos_bound c4 (2 ^ 32) ltac:(lia)) as R4.
  assert (Q : forall c, 0 <= c <= (2 ^ 32 - 1) * (2 ^ 32 - 1) -> 0 <= c / 2 ^ 32 <= 2 ^ 32 - 2).
  { intros c Hc. split; [apply Z.div_pos; lia|]. apply Z.lt_succ_r. apply Z.div_lt_upper_bound; lia. }
  pose proof (Q c1 B1). pose proof (Q c2 B2). pose proof (Q c4 B4).
  set (q1 := c1 / 2 ^ 32) in *. set (q2 := c2 / 2 ^ 32) in *. set (q4 := c4 / 2 ^ 32) in *.
  set (r1 := c1 mod 2 ^ 32) in *. set (r2 := c2 mod 2 ^ 32) in *. set (r4 := c4 mod 2 ^ 32) in *.
  assert (Total : a * b = c3 * 2 ^ 64 + (c1 + c2) * 2 ^ 32 + c4).
  { rewrite Ea, Eb. unfold c1, c2, c3, c4. change (2 ^ 64) with (2 ^ 32 * 2 ^ 32). ring. }
  assert (Ub : a * b <= (2 ^ 64 - 1) * (2 ^ 64 - 1)) by (apply Z.mul_le_mono_nonneg; lia).
  rewrite (Z.mod_small (c3 + q1)) by lia. rewrite (Z.mod_small (r1 + r2)) by lia. rewrite (Z.mod_small (r1 + r2 + q4)) by lia.
  rewrite (Z.mod_small (r1 + r2 + q4 + 2 ^ 31)) by lia.
  set (rem := r1 + r2 + q4 + 2 ^ 31). pose proof (Z.div_mod rem (2 ^ 32) ltac:(lia)) as Er. pose proof (Z.mod_pos_bound rem (2 ^ 32) ltac:(lia)) as Rr.
  set (qr := rem / 2 ^ 32) in *. set (rr := rem mod 2 ^ 32) in *.
  assert (Fin : a * b + 2 ^ 63 = (c3 + q1 + q2 + qr) * 2 ^ 64 + (rr * 2 ^ 32 + r4)).
  { rewrite Total. unfold rem in Er. lia. }
  rewrite (Z.mod_small (c3 + q1 + q2)) by lia. rewrite Z.mod_small by lia.
  apply Z.div_unique with (rr * 2 ^ 32 + r4); [left; lia|]. rewrite Fin. ring.
Qed.

Lemma Multiply_range f g : 0 <= mant f < 2 ^ 64 -> 0 <= mant g < 2 ^ 64 -> 0 <= mant (Multiply f g) <= 2 ^ 64 - 2.
Proof.
  intros Hf Hg. destruct (Multiply_mant f g Hf Hg) as (-> & _). split; [apply Z.div_pos; nia|].
  assert (mant f * mant g <= (2 ^ 64 - 1) * (2 ^ 64 - 1)) by (apply Z.mul_le_mono_nonneg; lia).
  apply Z.lt_succ_r. apply Z.div_lt_upper_bound; lia.
Qed.
Lemma Multiply_lower f g : 2 ^ 63 <= mant f < 2 ^ 64 -> 2 ^ 63 <= mant g < 2 ^ 64 -> 2 ^ 62 <= mant (Multiply f g).
Proof.
  intros Hf Hg. destruct (Multiply_mant f g ltac:(lia) ltac:(lia)) as (-> & _). apply Z.div_le_lower_bound; [lia|].
  assert (2 ^ 63 * 2 ^ 63 <= mant f * mant g) by (apply Z.mul_le_mono_nonneg; lia). lia.
Qed.

(** * Normalize *)
Lemma Normalize_ok f : 0 < mant f < 2 ^ 64 ->
  2 ^ 63 <= mant (fst (Normalize f)) < 2 ^ 64 /\ eval (fst (Normalize f)) = eval f /\ neg (fst (Normalize f)) = neg f /\
  exp (fst (Normalize f)) = exp f - (64 - bitlen (mant f)) /\ snd (Normalize f) = 64 - bitlen (mant f) /\
  mant (fst (Normalize f)) = mant f * 2 ^ (64 - bitlen (mant f)) /\ 1 <= bitlen (mant f) <= 64.
Proof.
  intros H. unfold Normalize. destruct (Z.eqb_spec (mant f) 0) as [|Nz]; [lia|]. cbn [fst snd mant exp neg]. unfold leadingZeros64.
  pose proof (bitlen_spec (mant f) ltac:(lia)) as B. pose proof (bitlen_pos (mant f) ltac:(lia)) as BP.
  assert (BL : bitlen (mant f) <= 64) by (apply bitlen_le_lt; lia).
  set (n := bitlen (mant f)) in *. rewrite Z.shiftl_mul_pow2 by lia.
  assert (P : 0 < 2 ^ (64 - n)) by (apply Z.pow_pos_nonneg; lia).
  assert (R1 : 2 ^ 63 <= mant f * 2 ^ (64 - n)).
  { replace (2 ^ 63) with (2 ^ (n - 1) * 2 ^ (64 - n)) by (rewrite <- Z.pow_add_r by lia; f_equal; lia). nia. }
  assert (R2 : mant f * 2 ^ (64 - n) < 2 ^ 64).
  { replace (2 ^ 64) with (2 ^ n * 2 ^ (64 - n)) by (rewrite <- Z.pow_add_r by lia; f_equal; lia). nia. }
  unfold u64. rewrite Z.mod_small by lia. split; [lia|]. split; [|repeat split; lia].
  unfold eval. cbn [mant exp]. rewrite mult_IZR, IZR_pow2 by lia. rewrite Rmult_assoc, <- p2_plus. do 2 f_equal. lia.
Qed.

(** * Scaling *)
Definition frexp_ok (e : Z) : bool :=
  let approxExp10 := Z.quot ((Z.quot (expMin + expMax) 2 - e) * 28) 93 in
  let i := Z.quot (approxExp10 - firstPowerOfTen) stepPowerOfTen in
  match frexp10_loop 100 e i with
  | Ret i => match at_ powersOfTen i with
             | Ret p => (0 <=? i) && (i <? 87) && (-60 <=? e + exp p + 64) && (e + exp p + 64 <=? -32)
             | Panic => false
             end
  | Panic => false
  end.
Fixpoint all_from (n : nat) (e : Z) (p : Z -> bool) : bool :=
  match n with O => true | S n => p e && all_from n (e + 1) p end.
Lemma all_from_ok n : forall e p x, all_from n e p = true -> e <= x < e + Z.of_nat n -> p x = true.
Proof.
  induction n as [|n IH]; intros e p x H Hx; [lia|]. cbn [all_from] in H. apply andb_prop in H. destruct H as [H1 H2].
  destruct (Z.eq_dec x e) as [->|]; [exact H1|]. apply (IH (e + 1) p x H2). lia.
Qed.
Lemma frexp_all e : -1140 <= e <= 965 -> frexp_ok e = true.
Proof. intros H. apply (all_from_ok 2106 (-1140)); [vm_compute; reflexivity|lia]. Qed.

(** The scaled value and its error: |mant - x 10^k 2^-exp| < 1. *)
Lemma scale_error f p k : 0 <= mant f < 2 ^ 64 -> 2 ^ 63 <= mant p < 2 ^ 64 ->
  (Rabs (eval p - p10 k) <= p2 (exp p - 1))%R ->
  (Rabs (IZR (mant (Multiply f p)) - eval f * p10 k * p2 (- exp (Multiply f p))) < 1)%R.
Proof.
  intros Hf Hp E. destruct (Multiply_mant f p Hf ltac:(lia)) as (Em & Ee & _). rewrite Ee.
  set (M := mant (Multiply f p)) in *. set (a := mant f) in *. set (b := mant p) in *.
  assert (D : (Rabs (IZR M - IZR a * IZR b * p2 (-64)) <= / 2)%R).
  { pose proof (Z.div_mod (a * b + 2 ^ 63) (2 ^ 64) ltac:(lia)) as E1. pose proof (Z.mod_pos_bound (a * b + 2 ^ 63) (2 ^ 64) ltac:(lia)) as R1.
    rewrite <- Em in E1. set (r := (a * b + 2 ^ 63) mod 2 ^ 64) in *.
    assert (E2 : IZR M = ((IZR a * IZR b + IZR (2 ^ 63) - IZR r) * p2 (-64))%R).
    { rewrite <- mult_IZR, <- plus_IZR, <- minus_IZR. replace (a * b + 2 ^ 63 - r) with (M * 2 ^ 64) by lia.
      rewrite mult_IZR, IZR_pow2, Rmult_assoc, <- p2_plus by lia. change (p2 (64 + -64)) with 1%R. ring. }
    rewrite E2. replace ((IZR a * IZR b + IZR (2 ^ 63) - IZR r) * p2 (-64) - IZR a * IZR b * p2 (-64))%R with ((IZR (2 ^ 63) - IZR r) * p2 (-64))%R by ring.
    pose proof (p2_pos (-64)) as P. rewrite Rabs_mult, (Rabs_pos_eq (p2 (-64))) by lra.
    apply Rle_trans with (IZR (2 ^ 63) * p2 (-64))%R.
    - apply Rmult_le_compat_r; [lra|]. assert (0 <= IZR r <= IZR (2 ^ 64))%R by (split; apply IZR_le; lia).
      change (2 ^ 64) with (2 * 2 ^ 63) in *. rewrite mult_IZR in *. apply Rabs_le. lra.
    - rewrite IZR_pow2, <- p2_plus by lia. change (63 + -64) with (-1). change (p2 (-1)) with (/ 2)%R. lra. }
  (* 10^k 2^-exp p is within 1/2 of b *)
  assert (D2 : (Rabs (IZR b - p10 k * p2 (- exp p)) <= / 2)%R).
  { replace (IZR b - p10 k * p2 (- exp p))%R with ((eval p - p10 k) * p2 (- exp p))%R.
    - rewrite Rabs_mult, (Rabs_pos_eq (p2 (- exp p))) by (apply Rlt_le, p2_pos).
      apply Rle_trans with (p2 (exp p - 1) * p2 (- exp p))%R; [apply Rmult_le_compat_r; [apply Rlt_le, p2_pos|exact E]|].
      rewrite <- p2_plus. replace (exp p - 1 + - exp p) with (-1) by lia. change (p2 (-1)) with (/ 2)%R. lra.
    - unfold eval. fold b. rewrite Rmult_minus_distr_r, Rmult_assoc, <- p2_plus. replace (exp p + - exp p) with 0 by lia. change (p2 0) with 1%R. ring. }
  assert (X : (eval f * p10 k * p2 (- (exp f + exp p + 64)) = IZR a * p2 (-64) * (p10 k * p2 (- exp p)))%R).
  { unfold eval. fold a. replace (- (exp f + exp p + 64)) with (- exp f + - exp p + -64) by lia. rewrite !p2_plus.
    replace (IZR a * p2 (exp f) * p10 k * (p2 (- exp f) * p2 (- exp p) * p2 (-64)))%R
      with (IZR a * (p2 (exp f) * p2 (- exp f)) * p10 k * (p2 (- exp p) * p2 (-64)))%R by ring.
    rewrite <- (p2_plus (exp f)). replace (exp f + - exp f) with 0 by lia. change (p2 0) with 1%R. ring. }
  rewrite X. set (y := (p10 k * p2 (- exp p))%R) in *.
  assert (A : (0 <= IZR a * p2 (-64) < 1)%R).
  { split; [apply Rmult_le_pos; [apply IZR_le; lia|apply Rlt_le, p2_pos]|].
    apply Rlt_le_trans with (IZR (2 ^ 64) * p2 (-64))%R; [apply Rmult_lt_compat_r; [apply p2_pos|apply IZR_lt; lia]|].
    rewrite IZR_pow2, <- p2_plus by lia. change (p2 (64 + -64)) with 1%R. lra. }
  set (c := (IZR a * p2 (-64))%R) in *. replace (IZR a * IZR b * p2 (-64))%R with (c * IZR b)%R in D by (unfold c; ring).
  replace (IZR M - c * y)%R with ((IZR M - c * IZR b) + c * (IZR b - y))%R by ring.
  apply Rle_lt_trans with (1 := Rabs_triang _ _). rewrite (Rabs_mult c), (Rabs_pos_eq c) by lra.
  assert (c * Rabs (IZR b - y) <= c * / 2)%R by (apply Rmult_le_compat_l; lra). lra.
Qed.

Definition frexp_start (e : Z) : Z :=
  Z.quot (Z.quot ((Z.quot (expMin + expMax) 2 - e) * 28) 93 - firstPowerOfTen) stepPowerOfTen.
Lemma frexp_ok_inv e : frexp_ok e = true -> exists i p, frexp10_loop 100 e (frexp_start e) = Ret i /\ at_ powersOfTen i = Ret p /\
  0 <= i < 87 /\ -60 <= e + exp p + 64 <= -32.
Proof.
  unfold frexp_ok. fold (frexp_start e). generalize (frexp10_loop 100 e (frexp_start e)). intros [i|]; [|discriminate].
  destruct (at_ powersOfTen i) as [p|] eqn:Ea; [|discriminate]. intros H.
  repeat (apply andb_prop in H; destruct H as [H ?]). exists i, p. split; [reflexivity|]. split; [exact Ea|]. lia.
Qed.
Lemma at_nth {A} (l : list A) i x : at_ l i = Ret x -> 0 <= i /\ nth_error l (Z.to_nat i) = Some x.
Proof.
  unfold at_. destruct (Z.ltb_spec i 0); [discriminate|]. destruct (nth_error l (Z.to_nat i)); [|discriminate].
  intros E. injection E as ->. auto.
Qed.
Lemma frexp10_ok f : 2 ^ 63 <= mant f < 2 ^ 64 -> -1140 <= exp f <= 965 ->
  exists i p, 0 <= i < 87 /\ at_ powersOfTen i = Ret p /\ nth_error powersOfTen (Z.to_nat i) = Some p /\
    frexp10 f = Ret (Multiply f p, 348 - 8 * i, i) /\ -60 <= exp (Multiply f p) <= -32.
Proof.
  intros Hm He. destruct (frexp_ok_inv _ (frexp_all (exp f) He)) as (i & p & E1 & E2 & H1 & H2).
  destruct (at_nth _ _ _ E2) as [_ E3]. exists i, p. split; [exact H1|]. split; [exact E2|]. split; [exact E3|].
  pose proof (proj1 (powersOfTen_ok _ _ E3)) as HP.
  destruct (Multiply_mant f p ltac:(lia) ltac:(lia)) as (_ & Ee & _). split; [|lia].
  unfold frexp10. fold (frexp_start (exp f)). rewrite E1. cbn [bind]. rewrite E2. cbn [bind].
  replace (- (firstPowerOfTen + i * stepPowerOfTen)) with (348 - 8 * i) by (unfold firstPowerOfTen, stepPowerOfTen; lia). reflexivity.
Qed.
