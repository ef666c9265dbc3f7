(** Lemmas for C92 in format 'g': the texts of one number at two sizes. *)
From Coq Require Import ZArith Lia Bool List Reals Lra.
From Flocq Require Import Core.
From Verif Require Import GoBase Spec SpecText SpecDec SpecFtoa BitFacts RoundFacts BigFacts2 ItoaFacts DecFacts DecFacts2 FloatMid PkgExact ClaimsFloat2 ClaimsRead ClaimsFtoa2 ClaimsChain.
From Verif Require Import Ftoa SpecFmt.
Import ListNotations.
Open Scope Z_scope.

Local Notation len l := (Z.of_nat (length l)).

From Verif Require Import ClaimsLen ClaimsFtoa ClaimsFtoa2 FtoaAll ClaimsAlloc ClaimsLenF.
Import SpecFmt.

(** * The digits of a decimal: N without trailing zero, m digits, times 10^k *)
Definition digs (x : R) (N k m : Z) : Prop :=
  x = (IZR N * p10 k)%R /\ N mod 10 <> 0 /\ 1 <= m /\ 10 ^ (m - 1) <= N < 10 ^ m.

Lemma strip M : 0 < M -> exists N j, 0 <= j /\ M = N * 10 ^ j /\ N mod 10 <> 0 /\ 0 < N.
Proof.
  intros H. assert (G : forall n M, 0 < M < Z.of_nat n -> exists N j, 0 <= j /\ M = N * 10 ^ j /\ N mod 10 <> 0 /\ 0 < N).
  { induction n as [|n IH]; intros M' HM; [lia|]. destruct (Z.eq_dec (M' mod 10) 0) as [E|E].
    - pose proof (Z.div_mod M' 10 ltac:(lia)) as D. rewrite E in D.
      destruct (IH (M' / 10)) as (N & j & Hj & EN & Hm & Hp); [lia|]. exists N, (j + 1). rewrite Z.pow_add_r by lia. change (10 ^ 1) with 10.
      split; [lia|]. split; [nia|]. split; assumption.
    - exists M', 0. rewrite Z.pow_0_r. repeat split; try lia. }
  apply (G (Z.to_nat (M + 1))). lia.
Qed.

Lemma num_digits N : 0 < N -> exists m, 1 <= m /\ 10 ^ (m - 1) <= N < 10 ^ m.
Proof.
  intros H. assert (G : forall n N, 0 < N < Z.of_nat n -> exists m, 1 <= m /\ 10 ^ (m - 1) <= N < 10 ^ m).
  { induction n as [|n IH]; intros N' HN; [lia|]. destruct (Z_lt_ge_dec N' 10) as [L|L].
    - exists 1. change (10 ^ (1 - 1)) with 1. change (10 ^ 1) with 10. lia.
    - pose proof (Z.div_mod N' 10 ltac:(lia)) as D. pose proof (Z.mod_pos_bound N' 10 ltac:(lia)).
      destruct (IH (N' / 10)) as (m & Hm & H1 & H2); [lia|]. exists (m + 1).
      replace (m + 1 - 1) with (m - 1 + 1) by lia. rewrite !Z.pow_add_r by lia. change (10 ^ 1) with 10. lia. }
  apply (G (Z.to_nat (N + 1))). lia.
Qed.

Lemma digs_of M e x : x = (IZR M * p10 e)%R -> 0 < M -> exists N k m, digs x N k m.
Proof.
  intros E H. destruct (strip M H) as (N & j & Hj & EN & Hm & Hp). destruct (num_digits N Hp) as (m & H1 & H2).
  exists N, (j + e), m. split; [|tauto]. rewrite E, EN, mult_IZR, p10_plus, (p10_pow j) by lia. ring.
Qed.

Lemma digs_range x N k m : digs x N k m -> (p10 (m + k - 1) <= x < p10 (m + k))%R.
Proof.
  intros (-> & _ & Hm & H1 & H2). replace (m + k - 1) with (m - 1 + k) by lia. rewrite !p10_plus.
  split; [apply Rmult_le_compat_r|apply Rmult_lt_compat_r]; try apply p10_pos; [apply Rlt_le, p10_pos| |]; rewrite p10_pow by lia; [apply IZR_le, H1|apply IZR_lt, H2].
Qed.

Lemma digs_unique x N k m N' k' : digs x N k m -> x = (IZR N' * p10 k')%R -> N' mod 10 <> 0 -> N' = N /\ k' = k.
Proof.
  intros (E & Hm & H1 & H2) E' Hm'. rewrite E in E'.
  assert (G : forall A B a b, a < b -> (IZR A * p10 a = IZR B * p10 b)%R -> A mod 10 <> 0 -> False).
  { intros A B a b L Q HA. apply HA. assert (A = B * 10 ^ (b - a)).
    { apply eq_IZR. rewrite mult_IZR, <- p10_pow by lia. apply Rmult_eq_reg_r with (p10 a); [|apply Rgt_not_eq, p10_pos].
      rewrite Rmult_assoc, <- p10_plus. replace (b - a + a) with b by lia. exact Q. }
    rewrite H. replace (b - a) with (b - a - 1 + 1) by lia. rewrite Z.pow_add_r by lia. rewrite Z.mul_assoc. apply Z.mod_mul. lia. }
  destruct (Z.lt_trichotomy k k') as [L|[L|L]].
  - exfalso. exact (G _ _ _ _ L E' Hm).
  - subst k'. split; [|reflexivity]. apply Rmult_eq_reg_r in E'; [|apply Rgt_not_eq, p10_pos]. apply eq_IZR in E'. lia.
  - exfalso. symmetry in E'. exact (G _ _ _ _ L E' Hm').
Qed.

Lemma digs_sig x N k m : digs x N k m -> sig_digits m x.
Proof. intros (E & _ & Hm & H). exists N, k. split; [exact E|]. pose proof (pow10_pos (m - 1) ltac:(lia)). lia. Qed.

Lemma digs_le x N k m n : digs x N k m -> 0 <= n -> sig_digits n x -> m <= n.
Proof.
  intros (E & Hm & H1 & H2) Hn S. pose proof (pow10_pos (m - 1) ltac:(lia)).
  pose proof (sig_cut N k n x E ltac:(lia) Hm Hn S). destruct (Z_le_gt_dec m n) as [|G]; [assumption|]. exfalso.
  pose proof (Z.pow_le_mono_r 10 n (m - 1) ltac:(lia) ltac:(lia)). lia.
Qed.

(** * The lengths of the texts *)
Lemma plain_len ng fp x s N k m : prints_f ng fp x s -> no_zero_end fp -> digs x N k m ->
  len s = len (sign_text ng) + Z.max (m + k) 1 + (if k <? 0 then 1 - k else 0).
Proof.
  intros (ip & -> & Ni & Af & Ex) Hend D. pose proof Ni as (N1 & N2 & N3). pose proof (digs_range _ _ _ _ D) as Rg.
  assert (A : all_digits 10 (ip ++ fp)) by (apply Forall_app; split; assumption).
  pose proof (read_range 10 ip ltac:(lia) N2) as Ri. pose proof (read_range 10 fp ltac:(lia) Af) as Rf.
  assert (Li : 1 <= len ip) by (destruct ip; [contradiction|cbn [length]; lia]).
  (* the digits before the point *)
  assert (Fl : (IZR (read 10 ip) <= x < IZR (read 10 ip + 1))%R).
  { rewrite Ex, read_app. assert (I : (p10 (len fp) * p10 (- len fp) = 1)%R) by (rewrite <- p10_plus; replace (len fp + - len fp) with 0 by lia; apply p10_0).
    rewrite (p10_pow (len fp)) in I by lia. set (P := IZR (10 ^ len fp)) in *. set (Q := p10 (- len fp)) in *.
    assert (QP : (0 < Q)%R) by apply p10_pos. destruct Rf as [F1 F2]. apply IZR_le in F1. apply IZR_lt in F2. fold P in F2.
    rewrite !plus_IZR, mult_IZR. fold P. replace ((IZR (read 10 ip) * P + IZR (read 10 fp)) * Q)%R with (IZR (read 10 ip) + IZR (read 10 fp) * Q)%R by (rewrite Rmult_plus_distr_r, Rmult_assoc, I; ring).
    split; nra. }
  assert (Lip : len ip = Z.max (m + k) 1).
  { destruct (Z.eq_dec (hd 48 ip) 48) as [E|E].
    - assert (ip = [48]) by (destruct ip as [|c t]; [contradiction|]; cbn [hd] in E; apply N3; exact E). subst ip. cbn [length].
      change (read 10 [48]) with 0 in Fl. assert (m + k < 1); [|lia]. destruct (Z_le_gt_dec 1 (m + k)) as [G|]; [|lia]. exfalso.
      assert (p10 0 <= p10 (m + k - 1))%R by (apply p10_le; lia). rewrite p10_0 in *. cbn in Fl. lra.
    - pose proof (digits_at_least ip N2 E N1) as G.
      assert (G1 : (p10 (len ip - 1) <= x)%R) by (rewrite p10_pow by lia; apply Rle_trans with (2 := proj1 Fl); apply IZR_le, G).
      assert (G2 : (x < p10 (len ip))%R) by (rewrite p10_pow by lia; apply Rlt_le_trans with (1 := proj2 Fl); apply IZR_le; lia).
      assert (m + k - 1 < len ip) by (apply p10_cmp; lra). assert (len ip - 1 < m + k) by (apply p10_cmp; lra). lia. }
  assert (Lfp : len (point fp) = if k <? 0 then 1 - k else 0).
  { destruct fp as [|f0 f] eqn:Ef.
    - cbn [point length]. destruct (Z.ltb_spec k 0) as [L|]; [|reflexivity]. exfalso.
      rewrite app_nil_r in Ex. cbn [length Z.of_nat Z.opp] in Ex.
      assert (P0 : 0 < read 10 ip).
      { apply lt_IZR. apply Rnot_le_lt. intros L'. rewrite p10_0, Rmult_1_r in Ex. pose proof (p10_pos (m + k - 1)). lra. }
      destruct (strip _ P0) as (N' & j & Hj & EN & Hm & Hp).
      destruct (digs_unique x N k m N' j D) as [_ E]; [|exact Hm|lia].
      rewrite Ex, EN, mult_IZR, p10_0, (p10_pow j) by lia. ring.
    - rewrite <- Ef in *. assert (Nf : fp <> []) by (rewrite Ef; discriminate).
      assert (Hm : read 10 (ip ++ fp) mod 10 <> 0).
      { apply last_digit; [intros E; apply app_eq_nil in E; tauto|exact A|]. unfold no_zero_end in Hend.
        destruct (exists_last Nf) as (l' & z & El). rewrite El in *. rewrite app_assoc, last_last. rewrite last_last in Hend. exact Hend. }
      destruct (digs_unique x N k m _ _ D Ex Hm) as [_ E]. rewrite point_len. rewrite Ef in *. cbn [length] in *. destruct (Z.ltb_spec k 0); lia. }
  rewrite !app_length. lia.
Qed.

(** In scientific notation, with an exponent of two digits. *)
Lemma sci_len c ng fp x s N k m : prints_e c ng fp x s -> no_zero_end fp -> digs x N k m -> (p10 (-99) <= x < p10 100)%R ->
  len s = len (sign_text ng) + 5 + (if m =? 1 then 0 else m).
Proof.
  intros P Hend D Hr. destruct (prints_e_size c ng fp x s 2 P ltac:(lia)) as (j & Hj & E); [right; exact Hr|].
  assert (L1 : len fp <= m - 1) by (apply (prints_e_fp c ng fp x s m P Hend); [apply D|exact (digs_sig _ _ _ _ D)]).
  assert (L2 : m <= len fp + 1) by (apply (digs_le x N k m _ D); [lia|exact (prints_e_sig _ _ _ _ _ P)]).
  rewrite E, point_len. destruct fp; cbn [length] in *; destruct (Z.eqb_spec m 1); lia.
Qed.

Lemma g_len c t ng fp x s N k m : prints_g c t ng fp x s -> no_zero_end fp -> digs x N k m -> (p10 (-99) <= x < p10 100)%R -> -3 <= t ->
  len s = len (sign_text ng) + (if (m + k <? -3) || (t <? m + k) then 5 + (if m =? 1 then 0 else m) else Z.max (m + k) 1 + (if k <? 0 then 1 - k else 0)).
Proof.
  intros [G1 G2] Hend D Hr Ht. pose proof (digs_range _ _ _ _ D) as Rg. pose proof (p10_pos (m + k - 1)) as Pp.
  destruct (Z.ltb_spec (m + k) (-3)) as [L|L]; cbn [orb].
  - assert (p10 (m + k) <= p10 (-4))%R by (apply p10_le; lia).
    rewrite (sci_len c ng fp x s N k m); try assumption; [lia|]. apply G2. left. lra.
  - assert (p10 (-4) <= p10 (m + k - 1))%R by (apply p10_le; lia).
    destruct (Z.ltb_spec t (m + k)) as [L2|L2].
    + assert (p10 t <= p10 (m + k - 1))%R by (apply p10_le; lia).
      rewrite (sci_len c ng fp x s N k m); try assumption; [lia|]. apply G2. right. lra.
    + assert (p10 (m + k) <= p10 t)%R by (apply p10_le; lia).
      rewrite (plain_len ng fp x s N k m); try assumption; [lia|]. apply G1. right. lra.
Qed.

Lemma fits_p10 mb eb j : mb = 10 /\ eb = 5 /\ 0 <= j <= 4 \/ mb = 23 /\ eb = 8 /\ 0 <= j <= 10 -> fits mb eb (p10 j).
Proof.
  intros H. assert (E : p10 j = (IZR (5 ^ j) * p2 j)%R).
  { rewrite <- IZR_pow2, p10_pow, <- mult_IZR by lia. f_equal. rewrite <- Z.pow_mul_l. reflexivity. }
  split.
  - exists (5 ^ j), j. split; [exact E|]. pose proof (Z.pow_pos_nonneg 5 j ltac:(lia) ltac:(lia)).
    destruct H as [(-> & -> & Hj)|(-> & -> & Hj)].
    + pose proof (Z.pow_le_mono_r 5 j 4 ltac:(lia) ltac:(lia)). change (5 ^ 4) with 625 in *. change (2 ^ (10 + 1)) with 2048. change (2 ^ (5 - 1)) with 16. lia.
    + pose proof (Z.pow_le_mono_r 5 j 10 ltac:(lia) ltac:(lia)). change (5 ^ 10) with 9765625 in *. change (2 ^ (23 + 1)) with 16777216. change (2 ^ (8 - 1)) with 128. lia.
  - rewrite Rabs_pos_eq by (apply Rlt_le, p10_pos). destruct H as [(-> & -> & Hj)|(-> & -> & Hj)].
    + apply Rle_lt_trans with (p10 4); [apply p10_le; lia|]. rewrite p10_pow, <- IZR_pow2 by (cbn; lia). apply IZR_lt. reflexivity.
    + apply Rle_lt_trans with (p10 10); [apply p10_le; lia|]. rewrite p10_pow, <- IZR_pow2 by (cbn; lia). apply IZR_lt. reflexivity.
Qed.

(** The shorter text is not in a lower decade than the longer one. *)
Lemma no_crossing mb eb mb' eb' v x y N k m N' k' m' : mb = 10 /\ eb = 5 \/ mb = 23 /\ eb = 8 -> mb + 2 <= mb' -> eb < eb' ->
  (0 < v)%R -> fits mb eb v -> shortest_digits mb eb v x -> shortest_digits mb' eb' v y ->
  digs x N k m -> digs y N' k' m' -> rn mb eb y = v -> m + k < m' + k' -> False.
Proof.
  intros Sz Hm' He' V0 Fv Sx Sy Dx Dy Ry Lt.
  assert (Hm : 1 <= mb) by lia. assert (He : 2 <= eb) by lia.
  assert (Rx : rn mb eb x = v) by apply Sx. assert (Ry' : rn mb' eb' y = v) by apply Sy.
  pose proof (digs_range _ _ _ _ Dx) as Gx. pose proof (digs_range _ _ _ _ Dy) as Gy.
  assert (M1 : 1 <= m) by apply Dx. assert (M2 : 1 <= m') by apply Dy.
  set (j := m' + k' - 1) in *. pose proof (p10_pos j) as Pj.
  assert (Q : (p10 (m + k) <= p10 j)%R) by (apply p10_le; unfold j; lia).
  assert (Xp : (0 < x)%R) by (pose proof (p10_pos (m + k - 1)); lra).
  assert (Rj : rn mb eb (p10 j) = v) by (apply (rn_between mb eb v x _ y); try assumption; lra).
  assert (Sj : forall n, 1 <= n -> sig_digits n (p10 j)) by (intros n Hn; rewrite <- (Rmult_1_l (p10 j)); apply (sig_one n 1); lia).
  assert (Em : m = 1).
  { assert (m <= 1); [|lia]. apply (digs_le x N k m 1 Dx); [lia|]. destruct Sx as (_ & _ & F & _). apply (F (p10 j)); [exact Rj|apply Sj; lia]. }
  subst m. assert (X9 : (10 * x <= 9 * p10 j)%R).
  { destruct Dx as (Ex & _ & _ & _ & U). change (10 ^ 1) with 10 in U. assert (IZR N <= 9)%R by (apply IZR_le; lia). pose proof (p10_pos k).
    rewrite p10_plus in Q. change (p10 1) with 10%R in Q. rewrite Ex. nra. }
  (* x is the closest of one digit *)
  assert (Pos : forall n z, sig_digits n z -> (0 < z)%R -> 1 <= n).
  { intros n z (M & e & E & HM) Hz. destruct (Z_le_gt_dec 1 n) as [|G]; [assumption|exfalso].
    assert (H1 : 10 ^ n <= 1) by (destruct (Z.eq_dec n 0) as [->|]; [cbn; lia|rewrite Z.pow_neg_r by lia; lia]). assert (M = 0) by lia. subst M. rewrite E in Hz. lra. }
  assert (Cl : (Rabs (x - v) <= Rabs (p10 j - v))%R).
  { destruct Sx as (_ & _ & _ & C & _). apply C; [|exact Rj|intros n Hn; apply Sj, (Pos n x Hn Xp)].
    intros n _ Hn. destruct Dx as (Ex & _ & _ & U0 & U). change (10 ^ (1 - 1)) with 1 in U0. change (10 ^ 1) with 10 in U. rewrite Ex. apply sig_one; [|lia].
    apply (Pos n (mid_hi mb eb v) Hn). pose proof (succ_gt_id radix2 (fx mb eb) v ltac:(lra)). unfold mid_hi. lra. }
  (* v is not much below p10 j *)
  assert (Nor : (p2 (2 - 2 ^ (eb' - 1)) <= v)%R).
  { destruct (reads_range mb eb v v Hm He V0 Fv) as [R1 _]; [apply fits_rn; [lia|exact Fv]|].
    apply Rle_trans with (2 := Rlt_le _ _ R1). apply p2_le. pose proof (Z.pow_le_mono_r 2 eb (eb' - 1) ltac:(lia) ltac:(lia)).
    destruct Sz as [(-> & ->)|(-> & ->)]; [change (2 ^ 5) with 32 in *; change (2 ^ (5 - 1)) with 16|change (2 ^ 8) with 256 in *; change (2 ^ (8 - 1)) with 128]; lia. }
  assert (Cy : (Rabs (y - v) <= / 100 * v)%R).
  { pose proof (rn_close_rel mb' eb' v y ltac:(lia) Nor Ry') as C.
    assert (p2 (- (mb' + 1)) <= p2 (Z.opp 7))%R by (apply p2_le; lia).
    assert (P7 : (p2 (Z.opp 7) = / 128)%R) by (unfold p2; rewrite bpow_opp; f_equal; change (bpow radix2 7) with (p2 7); rewrite <- IZR_pow2 by lia; reflexivity).
    rewrite P7 in H. nra. }
  destruct (Rle_lt_dec (p10 j) v) as [L|L].
  { rewrite (Rabs_left1 (p10 j - v)), (Rabs_left1 (x - v)) in Cl by lra. lra. }
  rewrite (Rabs_pos_eq (y - v)) in Cy by lra. rewrite (Rabs_pos_eq (p10 j - v)) in Cl by lra.
  destruct (Rle_lt_dec v x) as [G|G]; [lra|]. rewrite (Rabs_left1 (x - v)) in Cl by lra. lra.
Qed.

Lemma two_sizes mb eb mb' eb' v x y N k m N' k' m' : mb = 10 /\ eb = 5 \/ mb = 23 /\ eb = 8 -> mb + 2 <= mb' -> eb < eb' ->
  (0 < v)%R -> fits mb eb v -> shortest_digits mb eb v x -> shortest_digits mb' eb' v y ->
  digs x N k m -> digs y N' k' m' ->
  m <= m' /\ (m + k = m' + k' \/ m' + k' < m + k < -3 \/
    N = 1 /\ m = 1 /\ m' + k' = k /\ 3 <= m' /\ rn mb eb (p10 k) = v /\ (k < 0 \/ 11 <= k)).
Proof.
  intros Sz Hm' He' V0 Fv Sx Sy Dx Dy.
  assert (Hm : 1 <= mb) by lia. assert (He : 2 <= eb) by lia.
  assert (Rx : rn mb eb x = v) by apply Sx.
  assert (Ry : rn mb eb y = v) by (apply (rn_nested mb eb mb' eb'); try assumption; [lra|apply Sy]).
  pose proof (digs_range _ _ _ _ Dx) as Gx. pose proof (digs_range _ _ _ _ Dy) as Gy.
  assert (M1 : 1 <= m) by apply Dx. assert (M2 : 1 <= m') by apply Dy.
  assert (Few : forall z n, rn mb eb z = v -> sig_digits n z -> sig_digits n x) by apply Sx.
  assert (MM : m <= m') by (apply (digs_le x N k m m' Dx); [lia|]; apply (Few y); [exact Ry|exact (digs_sig _ _ _ _ Dy)]).
  split; [exact MM|].
  destruct (Z.eq_dec (m + k) (m' + k')) as [E|NE]; [left; exact E|right].
  assert (B14 : (p2 (2 - 2 ^ (eb - 1)) < p10 (-4))%R).
  { apply Rle_lt_trans with (p2 (-14)); [apply p2_le; destruct Sz as [(-> & ->)|(-> & ->)]; cbn; lia|].
    change (-14) with (Z.opp 14). change (-4) with (Z.opp 4). unfold p2, p10. rewrite !bpow_opp. apply Rinv_lt_contravar; [apply Rmult_lt_0_compat; apply bpow_gt_0|].
    change (p10 4 < p2 14)%R. rewrite p10_pow, <- IZR_pow2 by lia. apply IZR_lt. reflexivity. }
  destruct (Rlt_le_dec v (p2 (2 - 2 ^ (eb - 1)))) as [Sub|Nor].
  { (* subnormal: both below 10^-4 *)
    assert (Rp : rn mb eb (p2 (2 - 2 ^ (eb - 1))) = p2 (2 - 2 ^ (eb - 1))).
    { apply fits_rn; [lia|]. pose proof (pow2_pos (eb - 1) ltac:(lia)). split.
      - exists 1, (2 - 2 ^ (eb - 1)). split; [ring|]. split; [|lia]. change (Z.abs 1) with 1. pose proof (pow2_pos mb ltac:(lia)). rewrite Z.pow_add_r by lia. change (2 ^ 1) with 2. lia.
      - rewrite Rabs_pos_eq by (apply Rlt_le, p2_pos). apply bpow_lt. destruct Sz as [(-> & ->)|(-> & ->)]; cbn; lia. }
    assert (L : forall z, rn mb eb z = v -> (z < p2 (2 - 2 ^ (eb - 1)))%R).
    { intros z Rz. apply Rnot_le_lt. intros L. apply (rn_mono mb eb) in L; [|exact Hm]. lra. }
    pose proof (L x Rx). pose proof (L y Ry).
    assert (m + k - 1 < -4) by (apply p10_cmp; lra). assert (m' + k' - 1 < -4) by (apply p10_cmp; lra).
    left. split; [|lia]. destruct (Z_lt_ge_dec (m + k) (m' + k')) as [Lt|Ge]; [exfalso|lia].
    exact (no_crossing mb eb mb' eb' v x y N k m N' k' m' Sz Hm' He' V0 Fv Sx Sy Dx Dy Ry Lt). }
  right.
  (* normal: x and y are close to v *)
  assert (Cl : forall z, rn mb eb z = v -> (2047 / 2048 * v <= z <= 2049 / 2048 * v)%R).
  { intros z Rz. pose proof (rn_close_rel mb eb v z Hm Nor Rz) as C.
    assert (p2 (- (mb + 1)) <= p2 (Z.opp 11))%R by (apply p2_le; lia).
    assert (P11 : (p2 (Z.opp 11) = / 2048)%R) by (unfold p2; rewrite bpow_opp; f_equal; change (bpow radix2 11) with (p2 11); rewrite <- IZR_pow2 by lia; reflexivity).
    rewrite P11 in H. apply Rabs_le_inv in C. nra. }
  pose proof (Cl x Rx) as Cx. pose proof (Cl y Ry) as Cy.
  assert (Ten : forall j, p10 (j + 1) = (10 * p10 j)%R) by (intros j; rewrite Z.add_comm, p10_plus; change (p10 1) with 10%R; reflexivity).
  assert (One : forall j, (x <= p10 j <= y)%R \/ (y <= p10 j <= x)%R -> rn mb eb (p10 j) = v /\ m = 1).
  { intros j Hj. assert (Rj : rn mb eb (p10 j) = v) by (destruct Hj; [apply (rn_between mb eb v x _ y)|apply (rn_between mb eb v y _ x)]; assumption).
    split; [exact Rj|]. assert (m <= 1); [|lia]. apply (digs_le x N k m 1 Dx); [lia|]. apply (Few (p10 j)); [exact Rj|].
    rewrite <- (Rmult_1_l (p10 j)). apply (sig_one 1 1); lia. }
  destruct (Z_lt_ge_dec (m + k) (m' + k')) as [Lt|Ge].
  { exfalso. assert (Q : (p10 (m + k) <= p10 (m' + k' - 1))%R) by (apply p10_le; lia).
    destruct (One (m' + k' - 1)) as [_ Em]; [left; lra|]. subst m.
    destruct Dx as (Ex & _ & _ & _ & N10). change (10 ^ 1) with 10 in N10.
    assert (N9 : (IZR N <= 9)%R) by (apply IZR_le; lia). pose proof (p10_pos k).
    rewrite (Z.add_comm 1 k), Ten in Q. assert (x <= 9 * p10 k)%R by (rewrite Ex; apply Rmult_le_compat_r; lra). lra. }
  assert (Q : (p10 (m' + k') <= p10 (m + k - 1))%R) by (apply p10_le; lia).
  destruct (One (m + k - 1)) as [Rk Em]; [right; lra|]. subst m. replace (1 + k - 1) with k in * by lia.
  pose proof (p10_pos k) as Pk.
  assert (Kd : m' + k' = k).
  { assert (k - 1 < m' + k'); [|lia]. apply p10_cmp. pose proof (Ten (k - 1)) as T. replace (k - 1 + 1) with k in T by lia. lra. }
  assert (K3 : k' <= k - 3).
  { destruct (Z_le_gt_dec k' (k - 3)) as [|G]; [assumption|exfalso]. destruct Dy as (Ey & _ & _ & _ & U).
    assert (m' <= 2) by lia. pose proof (Z.pow_le_mono_r 10 m' 2 ltac:(lia) ltac:(lia)).
    pose proof (Ten k') as T1. pose proof (Ten (k' + 1)) as T2. replace (k' + 1 + 1) with (k' + 2) in T2 by lia. pose proof (p10_pos k').
    assert (C : m' = 1 \/ m' = 2) by lia. destruct C as [-> | ->].
    - change (10 ^ 1) with 10 in *. assert (IZR N' <= 9)%R by (apply IZR_le; lia). replace k with (k' + 1) in * by lia. assert (y <= 9 * p10 k')%R by (rewrite Ey; apply Rmult_le_compat_r; lra). lra.
    - change (10 ^ 2) with 100 in *. assert (IZR N' <= 99)%R by (apply IZR_le; lia). replace k with (k' + 2) in * by lia. assert (y <= 99 * p10 k')%R by (rewrite Ey; apply Rmult_le_compat_r; lra). lra. }
  assert (Exact : fits mb eb (p10 k) -> False).
  { intros Fk. rewrite fits_rn in Rk by (try exact Fk; lia).
    assert (S1 : sig_digits 1 y).
    { destruct Sy as (_ & _ & Fy & _). apply (Fy v 1).
      - apply (fits_rn mb' eb' v); [lia|]. apply (fits_mono mb eb); [lia|lia|exact Fv].
      - rewrite <- Rk, <- (Rmult_1_l (p10 k)). apply (sig_one 1 1); lia. }
    pose proof (digs_le y N' k' m' 1 Dy ltac:(lia) S1). lia. }
  assert (Kr : k < 0 \/ 11 <= k).
  { destruct (Z_lt_ge_dec k 0) as [|K0]; [left; assumption|right]. destruct (Z_le_gt_dec 11 k) as [|K7]; [assumption|exfalso].
    destruct Sz as [(-> & ->)|(-> & ->)]; [|apply Exact, fits_p10; right; lia].
    destruct (Z_le_gt_dec k 4) as [|K4]; [apply Exact, fits_p10; left; lia|].
    destruct (reads_range 10 5 v x ltac:(lia) ltac:(lia) V0 Fv Rx) as [_ R2]. change (2 ^ (5 - 1)) with 16 in R2.
    assert (p10 5 <= p10 k)%R by (apply p10_le; lia). rewrite (p10_pow 5) in H by lia. rewrite <- IZR_pow2 in R2 by lia.
    assert (IZR (2 ^ 16) < IZR (10 ^ 5))%R by (apply IZR_lt; reflexivity). lra. }
  assert (N1 : N = 1).
  { destruct Dx as (Ex & _ & _ & G1 & G2). change (10 ^ (1 - 1)) with 1 in G1. destruct (Z.eq_dec N 1) as [|N2]; [assumption|exfalso].
    assert (2 <= IZR N)%R by (apply IZR_le; lia). assert (2 * p10 k <= x)%R by (rewrite Ex; apply Rmult_le_compat_r; lra). lra. }
  split; [exact N1|]. split; [reflexivity|]. split; [exact Kd|]. split; [lia|]. split; [exact Rk|exact Kr].
Qed.

(** The number of bytes of 'g' and 'f' without the sign. *)
Definition f_size (k m : Z) : Z := Z.max (m + k) 1 + (if k <? 0 then 1 - k else 0).
Definition g_size (k m : Z) : Z := if (m + k <? -3) || (6 <? m + k) then 5 + (if m =? 1 then 0 else m) else f_size k m.

Lemma zero_len ng fp s : prints_f ng fp 0 s -> no_zero_end fp -> len s = len (sign_text ng) + 1.
Proof.
  intros (ip & -> & Ni & Af & Ex) Hend. pose proof Ni as (N1 & N2 & N3).
  assert (A : all_digits 10 (ip ++ fp)) by (apply Forall_app; split; assumption).
  assert (R0 : read 10 (ip ++ fp) = 0).
  { symmetry in Ex. apply Rmult_integral in Ex. pose proof (p10_pos (- len fp)). destruct Ex as [Ex|Ex]; [apply eq_IZR, Ex|lra]. }
  assert (fp = []).
  { destruct fp as [|f0 f] eqn:Ef; [reflexivity|exfalso]. rewrite <- Ef in *. assert (Nf : fp <> []) by (rewrite Ef; discriminate).
    assert (Hm : read 10 (ip ++ fp) mod 10 <> 0).
    { apply last_digit; [intros E; apply app_eq_nil in E; tauto|exact A|]. unfold no_zero_end in Hend.
      destruct (exists_last Nf) as (l' & z & El). rewrite El in *. rewrite app_assoc, last_last. rewrite last_last in Hend. exact Hend. }
    rewrite R0 in Hm. apply Hm. reflexivity. }
  subst fp. rewrite app_nil_r in R0. cbn [point]. rewrite !app_length. cbn [length].
  destruct (Z.eq_dec (hd 48 ip) 48) as [E|E].
  - assert (ip = [48]) by (destruct ip as [|c t]; [contradiction|]; cbn [hd] in E; apply N3; exact E). subst ip. cbn [length]. lia.
  - exfalso. pose proof (digits_at_least ip N2 E N1). assert (1 <= len ip) by (destruct ip; [contradiction|cbn [length]; lia]).
    pose proof (pow10_pos (len ip - 1) ltac:(lia)). lia.
Qed.

Lemma text_digs c t ng fp x s : (0 < x)%R -> prints_g c t ng fp x s -> exists N k m, digs x N k m.
Proof.
  intros Hx P. destruct (prints_g_cases c t ng fp x s (Rlt_le _ _ Hx) P) as [(ip & _ & _ & _ & E)|(a & X & xs & _ & _ & _ & E & _)].
  - apply (digs_of _ _ x E). apply lt_IZR. apply Rnot_le_lt. intros L. pose proof (p10_pos (- len fp)). assert (IZR (read 10 (ip ++ fp)) * p10 (- len fp) <= 0)%R by nra. lra.
  - apply (digs_of _ _ x E). apply lt_IZR. apply Rnot_le_lt. intros L. pose proof (p10_pos (X - len fp)). assert (IZR (read 10 (a :: fp)) * p10 (X - len fp) <= 0)%R by nra. lra.
Qed.

Lemma c92_g : forall w opt val fmt prec z z' mb eb mb' eb' b b' s v, w = 32 \/ w = 64 -> z < z' ->
  as_float z val mb eb b s -> as_float z' val mb' eb' b' s ->
  ieee mb eb b = VNum s (sgnR s v) -> ieee mb' eb' b' = VNum s (sgnR s v) -> (0 <= v)%R ->
  fmt = 101 \/ fmt = 69 \/ fmt = 102 \/ fmt = 103 \/ fmt = 71 -> prec < 0 ->
  exists x y fp fp' t t', FormatFloat w opt val fmt prec z = Ret t /\ FormatFloat w opt val fmt prec z' = Ret t' /\
    prints_short fmt s fp x t /\ prints_short fmt s fp' y t' /\
    rn mb eb y = v /\ (forall n, sig_digits n y -> sig_digits n x) /\
    (fmt <> 102 -> len t <= len t') /\
    (fmt = 102 -> len t <= len t' + 1 /\ (len t' < len t <-> exists j, 11 <= j /\ x = p10 j /\ (y < x)%R)).
Proof.
  intros w opt val fmt prec z z' mb eb mb' eb' b b' s v Hw Hz Ha Ha' Hx Hx' V0 Hc Hp.
  destruct (c92 w opt val fmt prec z z' mb eb mb' eb' b b' s v Hw Hz Ha Ha' Hx Hx' V0 Hc Hp) as (x0 & y0 & fp0 & fp0' & t & t' & H1 & H2 & _ & _ & _ & _ & H7).
  destruct (c77 w opt val fmt prec z mb eb b s v Hw Ha Hx Hc Hp) as (x & Sx & _ & fp & u & Et & Nz & H3).
  destruct (c77 w opt val fmt prec z' mb' eb' b' s v Hw Ha' Hx' Hc Hp) as (y & Sy & _ & fp' & u' & Et' & Nz' & H4).
  assert (u = t) by congruence. assert (u' = t') by congruence. subst u u'. clear x0 y0 fp0 fp0'.
  assert (H5 : rn mb eb y = v).
  { pose proof (as_float_size _ _ _ _ _ _ Ha) as S1. pose proof (as_float_size _ _ _ _ _ _ Ha') as S2. assert (Hb : 0 <= b < 2 ^ (mb + eb + 1)) by apply Ha.
    apply (rn_nested mb eb mb' eb'); try lia; [exact V0| |apply Sy].
    destruct (fits_ieee mb eb b s _ ltac:(lia) ltac:(lia) Hb Hx) as [[(M & c & E & HM & Hcc) F] _].
    assert (Ev : v = sgnR s (sgnR s v)) by (destruct s; cbn [sgnR]; ring). assert (Ra : Rabs v = Rabs (sgnR s v)) by (destruct s; cbn [sgnR]; [rewrite Rabs_Ropp|]; reflexivity).
    split; [|rewrite Ra; exact F]. exists (if s then - M else M), c. split; [|split; [destruct s; rewrite ?Z.abs_opp; exact HM|exact Hcc]].
    rewrite Ev, E. destruct s; cbn [sgnR]; [rewrite opp_IZR|]; ring. }
  assert (H6 : forall n, sig_digits n y -> sig_digits n x) by (intros n Sn; destruct Sx as (_ & _ & F & _); apply (F y n H5 Sn)).
  exists x, y, fp, fp', t, t'. repeat (split; [assumption|]).
  pose proof (as_float_size _ _ _ _ _ _ Ha) as S1. pose proof (as_float_size _ _ _ _ _ _ Ha') as S2.
  assert (Sz : mb = 10 /\ eb = 5 \/ mb = 23 /\ eb = 8) by lia. assert (Nest : mb + 2 <= mb' /\ eb < eb') by lia. destruct Nest as [Nm Ne].
  assert (Hb : 0 <= b < 2 ^ (mb + eb + 1)) by apply Ha.
  assert (Fv : fits mb eb v).
  { destruct (fits_ieee mb eb b s _ ltac:(lia) ltac:(lia) Hb Hx) as [[(M & c & E & HM & Hcc) F] _].
    assert (Ev : v = sgnR s (sgnR s v)) by (destruct s; cbn [sgnR]; ring). assert (Ra : Rabs v = Rabs (sgnR s v)) by (destruct s; cbn [sgnR]; [rewrite Rabs_Ropp|]; reflexivity).
    split; [|rewrite Ra; exact F]. exists (if s then - M else M), c. split; [|split; [destruct s; rewrite ?Z.abs_opp; exact HM|exact Hcc]].
    rewrite Ev, E. destruct s; cbn [sgnR]; [rewrite opp_IZR|]; ring. }
  assert (Y3 : 2 ^ (2 ^ (eb - 1) + mb - 1) <= 10 ^ (10 ^ 2 - 1)) by (destruct Sz as [(-> & ->)|(-> & ->)]; vm_compute; congruence).
  assert (Rg : (0 < v)%R -> forall q, rn mb eb q = v -> (0 < q)%R /\ (p10 (-99) <= q < p10 100)%R).
  { intros Vp q Rq. destruct (reads_range mb eb v q ltac:(lia) ltac:(lia) Vp Fv Rq) as [Q1 _]. pose proof (p2_pos (1 - 2 ^ (eb - 1) - mb)).
    split; [lra|]. destruct (range_e mb eb v q 2 ltac:(lia) ltac:(lia) V0 Fv Rq ltac:(intros; lra) ltac:(lia) Y3) as [Q|Q]; [lra|exact Q]. }
  split; intros Hf.
  - assert (Cf : (fmt = 101 \/ fmt = 69) \/ (fmt = 103 \/ fmt = 71)) by lia. destruct Cf as [Cf|Cf]; [exact (H7 Cf)|]. clear H7.
    assert (Pg : prints_g (fmt - 2) 6 s fp x t) by (destruct H3 as [(? & _)|[(? & _)|(_ & P)]]; [lia|lia|exact P]).
    assert (Pg' : prints_g (fmt - 2) 6 s fp' y t') by (destruct H4 as [(? & _)|[(? & _)|(_ & P)]]; [lia|lia|exact P]).
    destruct (Req_dec v 0) as [E|E].
    { rewrite E in Sx, Sy. pose proof (shortest_zero _ _ _ Sx). pose proof (shortest_zero _ _ _ Sy). subst x y.
      rewrite (zero_len s fp t), (zero_len s fp' t'); try assumption; [lia|apply Pg'; left; reflexivity|apply Pg; left; reflexivity]. }
    assert (Vp : (0 < v)%R) by lra. destruct (Rg Vp x ltac:(apply Sx)) as [Xp Rx]. destruct (Rg Vp y H5) as [Yp Ry'].
    destruct (text_digs _ _ _ _ _ _ Xp Pg) as (N & k & m & Dx). destruct (text_digs _ _ _ _ _ _ Yp Pg') as (N' & k' & m' & Dy).
    rewrite (g_len _ _ _ _ _ _ N k m Pg Nz Dx Rx ltac:(lia)), (g_len _ _ _ _ _ _ N' k' m' Pg' Nz' Dy Ry' ltac:(lia)).
    destruct (two_sizes mb eb mb' eb' v x y N k m N' k' m' Sz Nm Ne Vp Fv Sx Sy Dx Dy) as [MM C].
    assert (M1 : 1 <= m) by apply Dx. clear - MM C M1. destruct C as [C|[(C2 & C1)|(_ & -> & C1 & C2 & _ & C3)]].
    + rewrite <- C. destruct (_ || _).
      * destruct (Z.eqb_spec m 1), (Z.eqb_spec m' 1); lia.
      * destruct (Z.ltb_spec k 0), (Z.ltb_spec k' 0); lia.
    + destruct (Z.ltb_spec (m + k) (-3)); [|lia]. destruct (Z.ltb_spec (m' + k') (-3)); [|lia]. cbn [orb].
      destruct (Z.eqb_spec m 1), (Z.eqb_spec m' 1); lia.
    + rewrite C1. change (1 =? 1) with true. cbn iota. destruct (Z.eqb_spec m' 1); [lia|].
      destruct (Z.ltb_spec (1 + k) (-3)), (Z.ltb_spec 6 (1 + k)), (Z.ltb_spec k (-3)), (Z.ltb_spec 6 k); cbn [orb]; try lia;
        destruct (Z.ltb_spec k 0); try lia; destruct (Z.ltb_spec k' 0); try lia.
  - clear H7.
    assert (Pf : prints_f s fp x t) by (destruct H3 as [(? & _)|[(_ & P)|(? & _)]]; [lia|exact P|lia]).
    assert (Pf' : prints_f s fp' y t') by (destruct H4 as [(? & _)|[(_ & P)|(? & _)]]; [lia|exact P|lia]).
    destruct (Req_dec v 0) as [E|E].
    { rewrite E in Sx, Sy. pose proof (shortest_zero _ _ _ Sx). pose proof (shortest_zero _ _ _ Sy). subst x y.
      rewrite (zero_len s fp t), (zero_len s fp' t') by assumption. split; [lia|]. split; [lia|]. intros (j & _ & Q & Q'). lra. }
    assert (Vp : (0 < v)%R) by lra. destruct (Rg Vp x ltac:(apply Sx)) as [Xp Rx]. destruct (Rg Vp y H5) as [Yp Ry'].
    assert (Dg : forall q u p, (0 < q)%R -> prints_f s p q u -> exists N k m, digs q N k m).
    { intros q u p Hq (ip & _ & _ & _ & Eq). apply (digs_of _ _ q Eq). apply lt_IZR. apply Rnot_le_lt. intros L. pose proof (p10_pos (- len p)). assert (IZR (read 10 (ip ++ p)) * p10 (- len p) <= 0)%R by nra. lra. }
    destruct (Dg _ _ _ Xp Pf) as (N & k & m & Dx). destruct (Dg _ _ _ Yp Pf') as (N' & k' & m' & Dy).
    rewrite (plain_len _ _ _ _ N k m Pf Nz Dx), (plain_len _ _ _ _ N' k' m' Pf' Nz' Dy).
    destruct (two_sizes mb eb mb' eb' v x y N k m N' k' m' Sz Nm Ne Vp Fv Sx Sy Dx Dy) as [MM C].
    assert (M1 : 1 <= m) by apply Dx.
    assert (Fwd : N = 1 /\ m = 1 /\ m' + k' = k /\ 11 <= k -> exists j, 11 <= j /\ x = p10 j /\ (y < x)%R).
    { intros (C0 & -> & C1 & C2). exists k. split; [exact C2|]. assert (Ex : x = p10 k) by (destruct Dx as (-> & _); rewrite C0; ring).
      split; [exact Ex|]. rewrite Ex. pose proof (digs_range _ _ _ _ Dy). rewrite C1 in *. lra. }
    assert (Bwd : (exists j, 11 <= j /\ x = p10 j /\ (y < x)%R) -> m = 1 /\ m' + k' = k /\ 11 <= k /\ 0 <= k').
    { intros (j & Hj & Ex & L). destruct (digs_unique x N k m 1 j Dx) as [E1 E2]; [rewrite Ex; ring|discriminate|]. subst N j.
      assert (Em : m = 1).
      { destruct Dx as (_ & _ & _ & G & _). destruct (Z.eq_dec m 1) as [|M']; [assumption|]. pose proof (Z.pow_le_mono_r 10 1 (m - 1) ltac:(lia) ltac:(lia)). lia. }
      subst m. pose proof (digs_range _ _ _ _ Dy) as Gy. assert (m' + k' - 1 < k) by (apply p10_cmp; lra).
      destruct C as [C|[(C2 & C1)|(_ & _ & C1 & C2 & Rk & C3)]]; [lia|lia|]. split; [reflexivity|]. split; [exact C1|]. split; [exact Hj|].
      (* v is an integer below 10^k *)
      assert (Lv : (v < p10 k)%R).
      { apply Rnot_le_lt. intros G. assert (S1y : sig_digits 1 y); [|pose proof (digs_le y N' k' m' 1 Dy ltac:(lia) S1y); lia].
        destruct Sy as (_ & Ry & Fy & _). apply (Fy (p10 k) 1); [|rewrite <- (Rmult_1_l (p10 k)); apply (sig_one 1 1); lia].
        apply (rn_between mb' eb' v y _ v); [lia|exact Ry| |rewrite Ex in L; lra].
        apply fits_rn; [lia|]. apply (fits_mono mb eb); [lia|lia|exact Fv]. }
      assert (Iv : exists M, v = IZR M).
      { pose proof Fv as Fv0. destruct Fv as [(M & c & Ev & HM & _) _]. assert (c0 : 0 <= c).
        { destruct (Z_le_gt_dec 0 c) as [|G]; [assumption|exfalso]. assert (X11 : (p10 11 <= x)%R) by (rewrite Ex; apply p10_le, Hj).
          destruct Sx as (_ & Rx' & _). destruct Sz as [(-> & ->)|(-> & ->)].
          { destruct (reads_range 10 5 v x ltac:(lia) ltac:(lia) Vp Fv0 Rx') as [_ R2]. change (2 ^ (5 - 1)) with 16 in R2. rewrite <- IZR_pow2 in R2 by lia.
            rewrite p10_pow in X11 by lia. assert (IZR (2 ^ 16) < IZR (10 ^ 11))%R by (apply IZR_lt; reflexivity). lra. }
          assert (L1 : (v < p2 24)%R).
          { rewrite Ev. apply Rle_lt_trans with (IZR (Z.abs M) * p2 c)%R; [apply Rmult_le_compat_r; [apply Rlt_le, p2_pos|apply IZR_le; lia]|].
            assert (p2 c <= 1)%R by (change 1%R with (p2 0); apply p2_le; lia). change (23 + 1) with 24 in HM.
            apply IZR_lt in HM. rewrite IZR_pow2 in HM by lia. pose proof (p2_pos c). pose proof (IZR_le 0 (Z.abs M) ltac:(lia)). nra. }
          assert (F24 : fits 23 8 (p2 24)).
          { split; [exists 1, 24; split; [ring|]; change (Z.abs 1 < 16777216 /\ 3 - 128 - 24 <= 24); lia|]. rewrite Rabs_pos_eq by apply Rlt_le, p2_pos. apply bpow_lt. reflexivity. }
          assert (L2 : (p2 24 <= x)%R).
          { apply Rle_trans with (2 := X11). rewrite p10_pow, <- IZR_pow2 by lia. apply IZR_le. discriminate. }
          apply (rn_mono 23 8) in L2; [|lia]. rewrite (fits_rn 23 8 (p2 24)), Rx' in L2 by (try exact F24; lia). lra. }
        exists (M * 2 ^ c). rewrite Ev, mult_IZR, IZR_pow2 by lia. reflexivity. }
      destruct Iv as (Mv & Ev). assert (Sv : sig_digits k v).
      { exists Mv, 0. split; [rewrite p10_0; lra|]. rewrite Ev in *. assert (0 <= Mv) by (apply le_IZR; lra). rewrite p10_pow in Lv by lia. apply lt_IZR in Lv. lia. }
      assert (Sk : sig_digits k y).
      { destruct Sy as (_ & _ & Fy & _). apply (Fy v k); [|exact Sv]. apply fits_rn; [lia|]. apply (fits_mono mb eb); [lia|lia|exact Fv]. }
      pose proof (digs_le y N' k' m' k Dy ltac:(lia) Sk). lia. }
    destruct C as [C|[(C2 & C1)|(C0 & Em & C1 & C2 & _ & C3)]].
    + rewrite <- C. assert (A : forall a, a + Z.max (m + k) 1 + (if k <? 0 then 1 - k else 0) <= a + Z.max (m + k) 1 + (if k' <? 0 then 1 - k' else 0)) by (clear - C MM M1; intros a; destruct (Z.ltb_spec k 0), (Z.ltb_spec k' 0); lia).
      specialize (A (len (sign_text s))). split; [lia|]. split; [lia|]. intros G. apply Bwd in G. lia.
    + assert (A : forall a, a + Z.max (m + k) 1 + (if k <? 0 then 1 - k else 0) <= a + Z.max (m' + k') 1 + (if k' <? 0 then 1 - k' else 0)) by (clear - C1 C2 MM M1; intros a; destruct (Z.ltb_spec k 0), (Z.ltb_spec k' 0); lia).
      specialize (A (len (sign_text s))). split; [lia|]. split; [lia|]. intros G. apply Bwd in G. lia.
    + subst m. rewrite C1. generalize (len (sign_text s)). intros a.
      split; [clear - C1 C2 C3; destruct (Z.ltb_spec k 0), (Z.ltb_spec k' 0); lia|]. split.
      * intros Q. apply Fwd. split; [exact C0|]. split; [reflexivity|]. split; [exact C1|]. clear - C1 C2 C3 Q. destruct (Z.ltb_spec k 0), (Z.ltb_spec k' 0); lia.
      * intros G. apply Bwd in G. destruct G as (_ & _ & G1 & G2). clear - G1 G2. destruct (Z.ltb_spec k 0), (Z.ltb_spec k' 0); lia.
Qed.
