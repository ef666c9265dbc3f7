(** Arithmetic of bit lengths, masks and shifts. *)
From Coq Require Import ZArith Reals Lia Lra Bool.
From Flocq Require Import Core.
From Verif Require Import GoBase BigFloat Spec.
Open Scope Z_scope.

Lemma pow2_pos n : 0 <= n -> 0 < 2 ^ n.
Proof. intros; apply Z.pow_pos_nonneg; lia. Qed.

Lemma bitlen_pos m : 0 < m -> 1 <= bitlen m.
Proof. intros H; unfold bitlen. pose proof (Z.log2_nonneg m); lia. Qed.

Lemma bitlen_spec m : 0 < m -> 2 ^ (bitlen m - 1) <= m < 2 ^ bitlen m.
Proof.
  intros H; unfold bitlen.
  replace (Z.log2 m + 1 - 1) with (Z.log2 m) by lia.
  apply Z.log2_spec; exact H.
Qed.

Lemma bitlen_unique m n : 0 < n -> 2 ^ (n - 1) <= m < 2 ^ n -> bitlen m = n.
Proof.
  intros Hn H; unfold bitlen.
  rewrite (Z.log2_unique m (n - 1)); try lia.
  replace (Z.succ (n - 1)) with n by lia; exact H.
Qed.

Lemma bitlen_mul_pow2 m k : 0 < m -> 0 <= k -> bitlen (m * 2 ^ k) = bitlen m + k.
Proof. intros Hm Hk; unfold bitlen. rewrite Z.log2_mul_pow2; lia. Qed.

Lemma bitlen_le_lt m n : 0 < m -> 0 <= n -> bitlen m <= n <-> m < 2 ^ n.
Proof.
  intros Hm Hn; pose proof (bitlen_spec m Hm) as [H1 H2]; split; intros H.
  - apply Z.lt_le_trans with (1 := H2). apply Z.pow_le_mono_r; lia.
  - destruct (Z_le_gt_dec (bitlen m) n) as [|C]; [assumption|exfalso].
    assert (2 ^ n <= 2 ^ (bitlen m - 1)) by (apply Z.pow_le_mono_r; lia). lia.
Qed.

Lemma bitlen_mono a b : 0 < a -> a <= b -> bitlen a <= bitlen b.
Proof. intros; unfold bitlen. pose proof (Z.log2_le_mono a b). lia. Qed.

Lemma IZR_pow2 k : 0 <= k -> IZR (2 ^ k) = p2 k.
Proof. intros Hk. unfold p2. rewrite <- IZR_Zpower; [reflexivity|exact Hk]. Qed.

Lemma p2_pos e : (0 < p2 e)%R.
Proof. apply bpow_gt_0. Qed.

Lemma p2_plus a b : p2 (a + b) = (p2 a * p2 b)%R.
Proof. apply bpow_plus. Qed.

Lemma p2_lt a b : a < b -> (p2 a < p2 b)%R.
Proof. apply bpow_lt. Qed.

Lemma p2_le a b : a <= b -> (p2 a <= p2 b)%R.
Proof. apply bpow_le. Qed.

Lemma p2_lt_inv a b : (p2 a < p2 b)%R -> a < b.
Proof. apply lt_bpow. Qed.

Lemma p2_le_inv a b : (p2 a <= p2 b)%R -> a <= b.
Proof. apply le_bpow. Qed.

Lemma p2_inv a : (/ p2 a = p2 (- a))%R.
Proof. unfold p2. rewrite bpow_opp. reflexivity. Qed.

Lemma F2R_p2 m e : F2R (Float radix2 m e) = (IZR m * p2 e)%R.
Proof. reflexivity. Qed.

Lemma bitlen_digits m : 0 < m -> bitlen m = Digits.Zdigits radix2 m.
Proof.
  intros H. symmetry. apply Digits.Zdigits_unique.
  rewrite Z.abs_eq by lia. simpl Zpower. 
  change (Zpower radix2 (bitlen m - 1)) with (2 ^ (bitlen m - 1)).
  change (Zpower radix2 (bitlen m)) with (2 ^ bitlen m).
  apply bitlen_spec; exact H.
Qed.

Lemma mag_val m e : 0 < m -> mag radix2 (IZR m * p2 e) = gexp m e :> Z.
Proof.
  intros H. rewrite <- F2R_p2, mag_F2R_Zdigits by lia.
  unfold gexp. rewrite bitlen_digits by exact H. reflexivity.
Qed.

(** |x| = m*2^e lies in its binade. *)
Lemma gexp_spec m e : 0 < m -> (p2 (gexp m e - 1) <= IZR m * p2 e < p2 (gexp m e))%R.
Proof.
  intros H. unfold gexp.
  pose proof (bitlen_spec m H) as [H1 H2].
  pose proof (bitlen_pos m H).
  apply IZR_le in H1. apply IZR_lt in H2.
  rewrite IZR_pow2 in H1, H2 by lia.
  replace (bitlen m + e - 1) with (bitlen m - 1 + e) by lia.
  rewrite !p2_plus. pose proof (p2_pos e).
  split; [apply Rmult_le_compat_r; lra | apply Rmult_lt_compat_r; lra].
Qed.

(** Disjoint ors are sums. *)
Lemma land_disjoint a b n : 0 <= n -> 0 <= b < 2 ^ n -> Z.land (a * 2 ^ n) b = 0.
Proof.
  intros Hn Hb. apply Z.bits_inj'. intros k Hk.
  rewrite Z.land_spec, Z.bits_0.
  destruct (Z_lt_ge_dec k n).
  - rewrite <- Z.shiftl_mul_pow2, Z.shiftl_spec_low by lia. reflexivity.
  - replace (Z.testbit b k) with false; [apply andb_false_r|].
    symmetry. destruct (Z.eq_dec b 0) as [->|]; [apply Z.bits_0|].
    apply Z.bits_above_log2; [lia|].
    apply Z.log2_lt_pow2; [lia|].
    apply Z.lt_le_trans with (2 ^ n); [lia|]. apply Z.pow_le_mono_r; lia.
Qed.

Lemma lor_add a b n : 0 <= n -> 0 <= b < 2 ^ n -> Z.lor (a * 2 ^ n) b = a * 2 ^ n + b.
Proof.
  intros Hn Hb. pose proof (land_disjoint a b n Hn Hb) as H.
  rewrite <- Z.lxor_lor by exact H. symmetry. apply Z.add_nocarry_lxor. exact H.
Qed.

Lemma land_ones_mod a n : 0 <= n -> Z.land a (2 ^ n - 1) = a mod 2 ^ n.
Proof.
  intros Hn. rewrite <- Z.land_ones by exact Hn.
  rewrite Z.ones_equiv, Z.sub_1_r. reflexivity.
Qed.

(** Value of a rounding to an integer of q + f, 0 <= f < 1. *)
Lemma odd_div_range a b : 0 < b -> 0 <= a < 2 * b -> (a / b =? 0) = negb (Z.odd (a / b)) /\ 0 <= a / b <= 1.
Proof.
  intros Hb Ha.
  assert (0 <= a / b) by (apply Z.div_pos; lia).
  assert (a / b < 2) by (apply Z.div_lt_upper_bound; lia).
  assert (C : a / b = 0 \/ a / b = 1) by lia.
  destruct C as [C|C]; rewrite C; simpl; split; try reflexivity; lia.
Qed.
