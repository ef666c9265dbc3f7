(** Facts about extfloat.go: FixedDecimal. *)
From Coq Require Import ZArith Reals List Bool Lia Lra.
From Flocq Require Import Core.
From Verif Require Import GoBase BigFloat ExtFloat.
From Verif Require Import Spec BitFacts RoundFacts SpecDec SpecFtoa DecFacts DecFacts2 ExtFacts.
Import ListNotations.
Open Scope Z_scope.

Local Notation len l := (Z.of_nat (length l)).

(** * Rounding to n digits *)
Lemma sig_round_at n v c : 1 <= n -> (p10 (c + n - 1) <= v < p10 (c + n))%R -> sig_round n v = round10 c v.
Proof.
  intros Hn H. unfold sig_round, round10, Generic_fmt.round, scaled_mantissa, F2R, cexp. cbn [Fnum Fexp].
  assert (V : (0 < v)%R) by (pose proof (p10_pos (c + n - 1)); lra).
  rewrite (mag_unique radix10 v (c + n)) by (rewrite Rabs_pos_eq by lra; exact H).
  unfold FLX_exp. replace (c + n - n) with c by lia. reflexivity.
Qed.

Lemma round10_near k v N : (Rabs (v * p10 (- k) - IZR N) < / 2)%R -> round10 k v = (IZR N * p10 k)%R.
Proof. intros H. unfold round10. rewrite (Znearest_imp _ _ N H). reflexivity. Qed.

Lemma sig_core_gen n k v N (z := (v * p10 (- k))%R) : 1 <= n -> 10 ^ (n - 1) <= N <= 10 ^ n ->
  (Rabs (z - IZR N) < / 2)%R ->
  ((z < IZR (10 ^ (n - 1)))%R -> N = 10 ^ (n - 1) /\ (IZR N - / 20 < z)%R) ->
  ((IZR (10 ^ n) <= z)%R -> N = 10 ^ n) ->
  sig_round n v = (IZR N * p10 k)%R.
Proof.
  intros Hn HN Hz HB HC.
  assert (Ev : v = (z * p10 k)%R) by (unfold z; rewrite Rmult_assoc, (Rmult_comm (p10 (- k))), p10_opp; ring).
  pose proof (p10_pos k) as Pk. rewrite !IZR_p10 in * by lia.
  destruct (Rlt_or_le z (p10 (n - 1))) as [L|L]; [|destruct (Rlt_or_le z (p10 n)) as [L2|L2]].
  - destruct (HB L) as [EN Hz2]. rewrite EN, IZR_p10 in Hz2 by lia.
    assert (P1 : (1 <= p10 (n - 1))%R) by (rewrite <- p10_0; apply p10_le; lia).
    assert (E1 : (p10 (n - 1) = 10 * p10 (n - 2))%R).
    { replace (n - 1) with (1 + (n - 2)) by lia. rewrite p10_plus. reflexivity. }
    rewrite (sig_round_at n v (k - 1)); [|lia|]; [|
      replace (k - 1 + n - 1) with (n - 2 + k) by lia; replace (k - 1 + n) with (n - 1 + k) by lia; rewrite Ev, !p10_plus; split;
       [apply Rmult_le_compat_r; lra|apply Rmult_lt_compat_r; lra]].
    rewrite (round10_near (k - 1) v (10 ^ n)).
    + rewrite EN, !IZR_p10 by lia. rewrite <- !p10_plus. f_equal. lia.
    + replace (- (k - 1)) with (- k + 1) by lia. rewrite p10_plus, <- Rmult_assoc. fold z. change (p10 1) with 10%R.
      rewrite IZR_p10 by lia. replace n with (1 + (n - 1)) by lia. rewrite p10_plus. change (p10 1) with 10%R.
      replace (1 + (n - 1) - 1) with (n - 1) by lia. apply Rabs_def1; lra.
  - rewrite (sig_round_at n v k); [apply round10_near; exact Hz|lia|].
    replace (k + n - 1) with (n - 1 + k) by lia. replace (k + n) with (n + k) by lia. rewrite Ev, !p10_plus. split;
       [apply Rmult_le_compat_r; lra|apply Rmult_lt_compat_r; lra].
  - pose proof (HC L2) as EN. rewrite EN, IZR_p10 in Hz by lia. apply Rabs_def2 in Hz.
    assert (P1 : (1 <= p10 (n - 1))%R) by (rewrite <- p10_0; apply p10_le; lia).
    assert (E1 : (p10 n = 10 * p10 (n - 1))%R).
    { replace n with (1 + (n - 1)) at 1 by lia. rewrite p10_plus. reflexivity. }
    assert (E2 : (p10 (n + 1) = 10 * p10 n)%R) by (rewrite p10_plus, Rmult_comm; reflexivity).
    rewrite (sig_round_at n v (k + 1)); [|lia|]; [|
      replace (k + 1 + n - 1) with (n + k) by lia; replace (k + 1 + n) with (n + 1 + k) by lia; rewrite Ev, !p10_plus; split;
       [apply Rmult_le_compat_r; lra|apply Rmult_lt_compat_r; [lra|]; rewrite <- p10_plus, E2; lra]].
    rewrite (round10_near (k + 1) v (10 ^ (n - 1))).
    + rewrite EN, !IZR_p10 by lia. rewrite <- !p10_plus. f_equal. lia.
    + replace (- (k + 1)) with (- k + -1) by lia. rewrite p10_plus, <- Rmult_assoc. fold z. change (p10 (-1)) with (/ 10)%R.
      rewrite IZR_p10 by lia. apply Rabs_def1; lra.
Qed.

Lemma sig_core n k v Q num U eps : 1 <= n -> 10 ^ (n - 1) <= Q < 10 ^ n -> 0 <= num < U -> 0 < eps -> 1000 * eps <= U ->
  (Rabs (v * p10 (- k) * IZR U - IZR (Q * U + num)) < IZR eps)%R ->
  (2 * (num + eps) < U -> sig_round n v = (IZR Q * p10 k)%R) /\
  (U < 2 * (num - eps) -> sig_round n v = (IZR (Q + 1) * p10 k)%R).
Proof.
  intros Hn HQ Hnum He HU H. set (z := (v * p10 (- k))%R) in *.
  assert (PU : (0 < IZR U)%R) by (apply IZR_lt; lia).
  assert (E5 : (1000 * IZR eps <= IZR U)%R) by (rewrite <- mult_IZR; apply IZR_le; lia).
  apply Rabs_def2 in H. rewrite plus_IZR, mult_IZR in H. destruct H as [H1 H2].
  assert (N0 : (0 <= IZR num)%R) by (apply IZR_le; lia). assert (N1 : (IZR num + 1 <= IZR U)%R) by (rewrite <- plus_IZR; apply IZR_le; lia).
  assert (Zlo : (IZR Q - / 1000 < z)%R) by (apply Rmult_lt_reg_r with (IZR U); lra).
  assert (Zhi : (z < IZR Q + 1 + / 1000)%R) by (apply Rmult_lt_reg_r with (IZR U); lra).
  split; intros C; apply IZR_lt in C; rewrite mult_IZR in C.
  - rewrite plus_IZR in C. assert (Z2 : (z < IZR Q + / 2)%R) by (apply Rmult_lt_reg_r with (IZR U); lra).
    apply sig_core_gen; [lia|lia|apply Rabs_def1; fold z; lra| |]; fold z.
    + intros L. assert (Q = 10 ^ (n - 1)). { assert (IZR Q < IZR (10 ^ (n - 1) + 1))%R by (rewrite plus_IZR; lra). apply lt_IZR in H. lia. }
      split; [assumption|lra].
    + intros L. exfalso. assert (IZR Q + 1 <= IZR (10 ^ n))%R by (rewrite <- plus_IZR; apply IZR_le; lia). lra.
  - rewrite minus_IZR in C. assert (Z2 : (IZR Q + / 2 < z)%R) by (apply Rmult_lt_reg_r with (IZR U); lra).
    apply sig_core_gen; [lia|lia|rewrite plus_IZR; apply Rabs_def1; fold z; lra| |]; fold z.
    + intros L. exfalso. assert (IZR (10 ^ (n - 1)) <= IZR Q)%R by (apply IZR_le; lia). lra.
    + intros L. assert (10 ^ n < Q + 2). { apply lt_IZR. rewrite plus_IZR. lra. } lia.
Qed.

(** * Digits *)
Lemma count_digits_ok m : forall n i, 0 <= i -> i + Z.of_nat n = 20 -> 0 <= m < 10 ^ 19 -> (i = 0 \/ 10 ^ (i - 1) <= m) ->
  let D := count_digits n i (10 ^ i) m in i <= D <= 19 /\ m < 10 ^ D /\ (D = 0 \/ 10 ^ (D - 1) <= m).
Proof.
  induction n as [|n IH]; intros i Hi Hn Hm Hl; cbn [count_digits].
  - exfalso. assert (i = 20) by lia. subst i. destruct Hl as [|Hl]; [lia|]. change (20 - 1) with 19 in Hl. lia.
  - destruct (Z.ltb_spec m (10 ^ i)) as [L|L].
    + split; [|auto]. split; [lia|]. destruct (Z_le_gt_dec i 19); [assumption|]. exfalso. destruct Hl as [|Hl]; [lia|].
      assert (10 ^ 19 <= 10 ^ (i - 1)) by (apply Z.pow_le_mono_r; lia). lia.
    + assert (i < 19). { destruct (Z_lt_ge_dec i 19); [assumption|]. assert (10 ^ 19 <= 10 ^ i) by (apply Z.pow_le_mono_r; lia). lia. }
      replace (u64 (10 ^ i * 10)) with (10 ^ (i + 1)).
      * destruct (IH (i + 1) ltac:(lia) ltac:(lia) Hm ltac:(right; replace (i + 1 - 1) with i by lia; lia)) as (A & B & C). split; [lia|]. auto.
      * rewrite Z.pow_add_r by lia. change (10 ^ 1) with 10. unfold u64. rewrite Z.mod_small; [reflexivity|].
        assert (10 ^ i <= 10 ^ 18) by (apply Z.pow_le_mono_r; lia). pose proof (pow10_pos i ltac:(lia)). lia.
Qed.
Lemma integerDigits_ok m : 0 <= m < 10 ^ 19 ->
  let D := integerDigits_of m in 0 <= D <= 19 /\ m < 10 ^ D /\ (D = 0 \/ 10 ^ (D - 1) <= m).
Proof. intros H. apply (count_digits_ok m 20 0); try lia. Qed.

Lemma no_lead0_snoc l c : l <> [] -> no_lead0 l -> no_lead0 (l ++ [c]).
Proof. destruct l; [contradiction|]. intros _ H. exact H. Qed.

Lemma int_to_digits_ok fuel : forall v out, 0 <= v < 10 ^ Z.of_nat fuel ->
  exists l, int_to_digits fuel v out = Ret (l ++ out) /\ digits_ok l /\ dread l = v /\ no_lead0 l.
Proof.
  induction fuel as [|fuel IH]; intros v out Hv.
  - cbn [int_to_digits]. change (10 ^ Z.of_nat 0) with 1 in Hv. destruct (Z.leb_spec v 0); [|lia].
    exists []. split; [reflexivity|]. split; [constructor|]. split; [cbn; lia|unfold no_lead0; cbn; lia].
  - cbn [int_to_digits]. destruct (Z.leb_spec v 0).
    + exists []. split; [reflexivity|]. split; [constructor|]. split; [cbn; lia|unfold no_lead0; cbn; lia].
    + rewrite Nat2Z.inj_succ, Z.pow_succ_r in Hv by lia. pose proof (div10_rem v ltac:(lia)) as Hr.
      destruct (IH (v / 10) (v - 10 * (v / 10) :: out)) as (l & E & H1 & H2 & H3).
      { split; [apply Z.div_pos; lia|apply Z.div_lt_upper_bound; lia]. }
      exists (l ++ [v - 10 * (v / 10)]). rewrite E, <- app_assoc. split; [reflexivity|].
      split; [apply digits_ok_app; split; [exact H1|repeat constructor; lia]|].
      split; [rewrite dread_snoc; lia|]. destruct l as [|c l].
      * cbn in H2. unfold no_lead0. cbn [app hd]. lia.
      * apply no_lead0_snoc; [discriminate|exact H3].
Qed.

Lemma len_unique l a : digits_ok l -> no_lead0 l -> 1 <= a -> 10 ^ (a - 1) <= dread l < 10 ^ a -> len l = a.
Proof.
  intros H1 H2 Ha H. assert (N : l <> []).
  { intros ->. change (dread []) with 0 in H. pose proof (pow10_pos (a - 1) ltac:(lia)). lia. }
  pose proof (dread_range l H1). pose proof (dread_lead l H1 H2 N).
  assert (A : 10 ^ (a - 1) < 10 ^ len l) by lia. apply Z.pow_lt_mono_r_iff in A; [|lia|lia].
  assert (B : 10 ^ (len l - 1) < 10 ^ a) by lia. apply Z.pow_lt_mono_r_iff in B; [|lia|lia]. lia.
Qed.

(** * The last digit *)
Lemma inc_rev_ok l : digits_ok l ->
  match inc_rev l with
  | Some u => digits_ok u /\ hd 1 u <> 0 /\ u <> [] /\ exists j, len l = len u + j /\ 0 <= j /\ dread (rev l) + 1 = dread (rev u) * 10 ^ j /\
                (last l 1 <> 0 -> last u 1 <> 0)
  | None => dread (rev l) + 1 = 10 ^ len l
  end.
Proof.
  induction 1 as [|c l Hc Hl IH]; [reflexivity|]. cbn [inc_rev]. destruct (Z.eqb_spec c 9) as [L|L].
  - subst c. destruct (inc_rev l) as [u|].
    + destruct IH as (H1 & H2 & H3 & j & H4 & H5 & H6 & H7). split; [exact H1|]. split; [exact H2|]. split; [exact H3|].
      exists (j + 1). cbn [length rev]. rewrite dread_snoc. split; [lia|]. split; [lia|].
      split; [rewrite Z.pow_add_r by lia; change (10 ^ 1) with 10; replace (dread (rev l)) with (dread (rev u) * 10 ^ j - 1) by lia; ring|].
      intros HH. apply H7. destruct l as [|x l]; [cbn [last]; lia|]. exact HH.
    + cbn [length rev]. rewrite dread_snoc, Nat2Z.inj_succ, Z.pow_succ_r by lia. lia.
  - split; [constructor; [lia|exact Hl]|]. cbn [hd]. split; [lia|]. split; [discriminate|]. exists 0. cbn [length rev].
    split; [lia|]. split; [lia|]. rewrite !dread_snoc. change (10 ^ 0) with 1. split; [lia|].
    destruct l as [|x l]; [cbn [last]; lia|]. intros HH. exact HH.
Qed.

Lemma drop0_eq l : drop0 l = Decimal.drop_zeros l.
Proof. induction l as [|c l IH]; [reflexivity|]. cbn [drop0 Decimal.drop_zeros]. rewrite IH. reflexivity. Qed.

Lemma trim_fixed_ok l p : digits_ok l -> no_lead0 l -> l <> [] ->
  digs_norm (trim_zeros_fixed l) /\ lval (trim_zeros_fixed l) p = lval l p /\ len (trim_zeros_fixed l) <= len l.
Proof.
  intros H1 H2 H3. unfold trim_zeros_fixed. rewrite drop0_eq. destruct (strip_spec l) as [n E]. pose proof (strip_last l) as T.
  unfold Decimal.strip in E, T. destruct (Decimal.drop_zeros (rev l)) as [|c r] eqn:Ed.
  - exfalso. cbn [rev app] in E. pose proof (dread_lead l H1 H2 H3). rewrite E, dread_zeros in H.
    pose proof (pow10_pos (len (repeat 0 n) - 1)). destruct n; [rewrite E in H3; contradiction|]. rewrite repeat_length in *. lia.
  - set (s := rev (c :: r)) in *. assert (Ns : s <> []) by (unfold s; cbn [rev]; destruct (rev r); discriminate).
    rewrite E in H1, H2. apply digits_ok_app in H1. split; [|split].
    + split; [apply H1|]. split; [apply (no_lead0_app_l s (repeat 0 n)); assumption|]. split; assumption.
    + rewrite E. symmetry. apply lval_zeros.
    + rewrite E, app_length. lia.
Qed.

(** adjustLastDigitFixed on the digits of Q. *)
Lemma adjust_fixed_ok l cap p sn num den s eps k n :
  let U := den * 2 ^ s in
  digits_ok l -> no_lead0 l -> len l = n -> 1 <= n -> k = p - n -> 0 <= s -> U < 2 ^ 64 -> 0 <= num < U -> 0 < eps -> 1000 * eps <= U -> 2 * (num + eps) < 2 ^ 64 ->
  exists s' ok, adjustLastDigitFixed (mkSlice l cap p sn) num den s eps = Ret (s', ok) /\ scap s' = cap /\ sneg s' = sn /\
    (ok = true -> digits_ok (sd s') /\ no_lead0 (sd s') /\ sd s' <> [] /\ len (sd s') <= n /\
      exists N, lval (sd s') (sdp s') = (IZR N * p10 k)%R /\
       (N = dread l /\ 2 * (num + eps) < U \/ N = dread l + 1 /\ U < 2 * (num - eps))).
Proof.
  intros U H1 H2 Hl Hn Hk Hs HU Hnum He HeU H64. unfold adjustLastDigitFixed. rewrite Z.shiftl_mul_pow2 by lia. fold U.
  unfold u64. rewrite (Z.mod_small U) by lia. destruct (Z.ltb_spec U num); [lia|].
  rewrite (Z.mod_small (2 * eps)) by lia. destruct (Z.ltb_spec U (2 * eps)); [lia|].
  rewrite (Z.mod_small (num + eps)) by lia. rewrite (Z.mod_small (2 * (num + eps))) by lia.
  assert (Nl : l <> []) by (intros ->; cbn in Hl; lia).
  destruct (Z.ltb_spec (2 * (num + eps)) U) as [L|L].
  - eexists _, true. split; [reflexivity|]. cbn [sd sdp scap sneg]. split; [reflexivity|]. split; [reflexivity|]. intros _.
    split; [exact H1|]. split; [exact H2|]. split; [exact Nl|]. split; [lia|]. exists (dread l). split; [|left; lia]. unfold lval. rewrite Hl, Hk. reflexivity.
  - rewrite (Z.mod_small (num - eps)) by lia. rewrite (Z.mod_small (2 * (num - eps))) by lia.
    destruct (Z.ltb_spec U (2 * (num - eps))) as [G|G].
    + pose proof (inc_rev_ok (rev l) (digits_ok_rev _ H1)) as I. rewrite rev_involutive, rev_length in I. cbn [sd].
      destruct (inc_rev (rev l)) as [u|].
      * destruct I as (I1 & I2 & I3 & j & I4 & I5 & I6 & I7). eexists _, true. split; [reflexivity|]. cbn [sd sdp scap sneg].
        split; [reflexivity|]. split; [reflexivity|]. intros _. split; [apply digits_ok_rev, I1|].
        assert (Nu : rev u <> []) by (intros E; apply I3; rewrite <- (rev_involutive u), E; reflexivity).
        split; [|split; [exact Nu|]].
        { unfold no_lead0. rewrite <- last_rev_hd, rev_involutive. apply I7. rewrite last_rev_hd. exact H2. }
        rewrite rev_length. split; [lia|]. exists (dread l + 1). split; [|right; lia].
        unfold lval. rewrite I6, rev_length, scale10 by lia. do 2 f_equal. lia.
      * eexists _, true. split; [reflexivity|]. cbn [sd sdp scap sneg].
        split; [reflexivity|]. split; [reflexivity|]. intros _. split; [repeat constructor; lia|]. split; [unfold no_lead0; cbn [hd]; lia|].
        split; [discriminate|]. split; [cbn [length]; lia|]. exists (dread l + 1). split; [|right; lia].
        rewrite I, IZR_p10 by lia. unfold lval. cbn [length]. change (dread [1]) with 1. rewrite <- p10_plus, Rmult_1_l. f_equal. lia.
    + eexists _, false. split; [reflexivity|]. split; [reflexivity|]. split; [reflexivity|]. discriminate.
Qed.

(** The digits of the fraction. *)
Lemma fixed_fraction_ok cap s T0 M : 32 <= s <= 60 -> forall fuel needed fraction eps d, 0 <= needed < Z.of_nat fuel ->
  len d + needed <= cap -> 0 <= fraction < 2 ^ s -> 0 < eps -> eps * 10 ^ needed <= 10 ^ 15 -> digits_ok d -> no_lead0 d -> d <> [] ->
  M * T0 = dread d * 2 ^ s + fraction ->
  fixed_fraction fuel needed fraction eps s d cap = Ret None \/
  exists dd fr, fixed_fraction fuel needed fraction eps s d cap = Ret (Some (dd, fr, eps * 10 ^ needed)) /\
    digits_ok dd /\ no_lead0 dd /\ dd <> [] /\ len dd = len d + needed /\ 0 <= fr < 2 ^ s /\
    M * (T0 * 10 ^ needed) = dread dd * 2 ^ s + fr.
Proof.
  intros Hs. induction fuel as [|fuel IH] in T0 |- *; intros needed fraction eps d Hn Hc Hf He He2 D1 D2 D3 E; [lia|].
  cbn [fixed_fraction]. destruct (Z.leb_spec needed 0) as [L|L].
  - assert (needed = 0) by lia. subst needed. change (10 ^ 0) with 1. rewrite Z.mul_1_r. right. exists d, fraction.
    split; [reflexivity|]. split; [exact D1|]. split; [exact D2|]. split; [exact D3|]. split; [lia|]. split; [exact Hf|]. rewrite Z.mul_1_r. exact E.
  - assert (P60 : 2 ^ s <= 2 ^ 60) by (apply Z.pow_le_mono_r; lia).
    assert (P0 : 0 < 2 ^ s) by (apply Z.pow_pos_nonneg; lia).
    replace needed with (1 + (needed - 1)) in He2 |- * by lia. rewrite Z.pow_add_r in He2 |- * by lia. change (10 ^ 1) with 10 in *.
    pose proof (pow10_pos (needed - 1) ltac:(lia)) as P10.
    assert (He3 : eps * 10 <= 10 ^ 15) by nia.
    unfold u64. rewrite (Z.mod_small (fraction * 10)) by lia. rewrite (Z.mod_small (eps * 10)) by lia.
    rewrite (Z.mod_small (2 * (eps * 10))) by lia.
    destruct (_ <? 2 * (eps * 10)); [left; reflexivity|].
    rewrite Z.shiftr_div_pow2 by lia. unfold push. destruct (Z.ltb_spec (len d) cap); [|lia]. cbn [bind].
    pose proof (Z.div_mod (fraction * 10) (2 ^ s) ltac:(lia)) as DM. pose proof (Z.mod_pos_bound (fraction * 10) (2 ^ s) ltac:(lia)) as R.
    assert (Q : 0 <= fraction * 10 / 2 ^ s <= 9) by (split; [apply Z.div_pos; lia|apply Z.lt_succ_r, Z.div_lt_upper_bound; lia]).
    set (q := fraction * 10 / 2 ^ s) in *. rewrite Z.shiftl_mul_pow2 by lia.
    rewrite (Z.mod_small (q * 2 ^ s)) by lia. rewrite (Z.mod_small (fraction * 10 - q * 2 ^ s)) by lia.
    replace (1 + (needed - 1) - 1) with (needed - 1) by lia.
    destruct (IH (T0 * 10) (needed - 1) (fraction * 10 - q * 2 ^ s) (eps * 10) (d ++ [q])) as [F|(dd & fr & F1 & F2 & F3 & F4 & F5 & F6 & F7)].
    + lia.
    + rewrite app_length. cbn [length]. lia.
    + lia.
    + lia.
    + lia.
    + apply digits_ok_app. split; [exact D1|repeat constructor; lia].
    + apply no_lead0_snoc; assumption.
    + destruct d; discriminate.
    + rewrite dread_snoc. lia.
    + left. exact F.
    + right. exists dd, fr. rewrite F1. split; [rewrite (Z.mul_assoc eps 10); reflexivity|]. split; [exact F2|]. split; [exact F3|]. split; [exact F4|].
      split; [rewrite app_length in F5; cbn [length] in F5; lia|]. split; [exact F6|].
      rewrite <- F7. ring.
Qed.

(** * FixedDecimal *)
Lemma shift_small s : 32 <= s <= 60 -> u64 (- - s) = s.
Proof. intros H. unfold u64. rewrite Z.mod_small; lia. Qed.
Lemma split_mant M s : 32 <= s <= 60 -> 0 <= M < 2 ^ 64 ->
  u32 (Z.shiftr M s) = M / 2 ^ s /\ u64 (M - u64 (Z.shiftl (M / 2 ^ s) s)) = M mod 2 ^ s /\ 0 <= M / 2 ^ s < 2 ^ 32 /\ 0 <= M mod 2 ^ s < 2 ^ s /\
  M = M / 2 ^ s * 2 ^ s + M mod 2 ^ s.
Proof.
  intros Hs HM. assert (P32 : 2 ^ 32 <= 2 ^ s) by (apply Z.pow_le_mono_r; lia).
  pose proof (Z.div_mod M (2 ^ s) ltac:(lia)) as DM. pose proof (Z.mod_pos_bound M (2 ^ s) ltac:(lia)) as R.
  assert (Q : 0 <= M / 2 ^ s < 2 ^ 32).
  { split; [apply Z.div_pos; lia|]. apply Z.div_lt_upper_bound; [lia|]. change (2 ^ 64) with (2 ^ 32 * 2 ^ 32) in HM. nia. }
  rewrite Z.shiftr_div_pow2, Z.shiftl_mul_pow2 by lia. unfold u32, u64. rewrite (Z.mod_small (M / 2 ^ s)) by lia.
  set (q := M / 2 ^ s) in *. rewrite (Z.mod_small (q * 2 ^ s)) by lia. rewrite (Z.mod_small (M - q * 2 ^ s)) by lia.
  repeat split; lia.
Qed.

Lemma FixedDecimal_ok f s n : 0 < mant f < 2 ^ 64 -> -1140 <= exp f - (64 - bitlen (mant f)) <= 965 -> 1 <= n <= 15 -> 15 <= scap s ->
  exists s' ok, FixedDecimal f s n = Ret (s', ok) /\ scap s' = scap s /\ sneg s' = sneg s /\
    (ok = true -> digs_norm (sd s') /\ len (sd s') <= n /\ lval (sd s') (sdp s') = sig_round n (eval f)).
Proof.
  intros Hm He Hn Hcap. unfold FixedDecimal. destruct (Z.eqb_spec (mant f) 0) as [|_]; [lia|]. destruct (Z.eqb_spec n 0) as [|_]; [lia|].
  destruct (Normalize_ok f Hm) as (N1 & N2 & N3 & N4 & _). destruct (Normalize f) as [f1 sh]. cbn [fst] in *. rewrite <- N4 in He. rewrite <- N2.
  clear N2 N3 N4 Hm f. rename f1 into f.
  destruct (frexp10_ok f N1 He) as (i & p & Hi & _ & Hp & -> & Hexp). cbn [bind].
  pose proof (powersOfTen_ok _ _ Hp) as [Hpm Hpe]. rewrite Z2Nat.id in Hpe by lia.
  pose proof (scale_error f p (-348 + 8 * i) ltac:(lia) Hpm Hpe) as Err.
  pose proof (Multiply_range f p ltac:(lia) ltac:(lia)) as RM. pose proof (Multiply_lower f p N1 Hpm) as LM.
  set (g := Multiply f p) in *. set (M := mant g) in *. clearbody M. set (eg := exp g) in *. clearbody eg. clear g.
  replace eg with (- - eg) in * by lia. set (sft := - eg) in *. clearbody sft. clear eg.
  assert (Hs : 32 <= sft <= 60) by lia. rewrite shift_small by lia.
  destruct (split_mant M sft Hs ltac:(lia)) as (-> & -> & HI & HF & EM).
  set (I := M / 2 ^ sft) in *. set (F := M mod 2 ^ sft) in *. clearbody I F.
  assert (P32 : 2 ^ 32 <= 2 ^ sft) by (apply Z.pow_le_mono_r; lia). assert (P60 : 2 ^ sft <= 2 ^ 60) by (apply Z.pow_le_mono_r; lia).
  assert (I4 : 4 <= I) by nia.
  destruct (integerDigits_ok I ltac:(lia)) as (HD & HD2 & HD3). set (D := integerDigits_of I) in *. clearbody D.
  assert (D1 : 1 <= D) by (destruct (Z.eq_dec D 0) as [->|]; [change (10 ^ 0) with 1 in HD2; lia|lia]).
  destruct HD3 as [?|HD3]; [lia|].
  assert (D10 : D <= 10).
  { destruct (Z_le_gt_dec D 10); [assumption|]. assert (10 ^ 10 <= 10 ^ (D - 1)) by (apply Z.pow_le_mono_r; lia). lia. }
  (* what is left: the digits of Q in base 10, and the place of the value *)
  set (v := eval f) in *. clearbody v.
  assert (Fin : forall l T U num, digits_ok l -> no_lead0 l -> len l = n ->
     10 ^ (n - 1) <= dread l -> M * T = dread l * U + num -> 0 <= num < U -> 0 < T -> 1000 * T <= U -> U < 2 ^ 64 ->
     (p10 (- (D + (348 - 8 * i) - n)) * IZR U = p10 (-348 + 8 * i) * p2 sft * IZR T)%R ->
     (2 * (num + T) < U -> sig_round n v = (IZR (dread l) * p10 (D + (348 - 8 * i) - n))%R) /\
     (U < 2 * (num - T) -> sig_round n v = (IZR (dread l + 1) * p10 (D + (348 - 8 * i) - n))%R)).
  { intros l T U num Hl1 Hl2 Hl3 Hq HT Hnum HT0 HT1 HU Hsc. apply (sig_core n _ v (dread l) num U T); try lia.
    - split; [exact Hq|]. rewrite <- Hl3. apply (dread_range l Hl1).
    - rewrite <- HT. rewrite Rmult_assoc, Hsc, mult_IZR.
      replace (v * (p10 (-348 + 8 * i) * p2 sft * IZR T) - IZR M * IZR T)%R with (- (IZR M - v * p10 (-348 + 8 * i) * p2 sft) * IZR T)%R by ring.
      rewrite Rabs_mult, Rabs_Ropp. rewrite (Rabs_pos_eq (IZR T)) by (apply IZR_le; lia).
      replace (- - sft) with sft in Err by lia.
      rewrite <- (Rmult_1_l (IZR T)) at 2. apply Rmult_lt_compat_r; [apply IZR_lt; lia|exact Err]. }
  destruct (Z.ltb_spec n D) as [L|L].
  - rewrite at_pow10 by lia. cbn [bind].
    assert (PP : 0 < 10 ^ (D - n) <= 10 ^ 9) by (split; [apply pow10_pos; lia|apply Z.pow_le_mono_r; lia]).
    assert (PS : 10 ^ (D - 1) = 10 ^ (n - 1) * 10 ^ (D - n)) by (rewrite <- Z.pow_add_r by lia; f_equal; lia).
    assert (PS2 : 10 ^ D = 10 ^ n * 10 ^ (D - n)) by (rewrite <- Z.pow_add_r by lia; f_equal; lia).
    assert (P10 : 10 <= 10 ^ (D - n)) by (change 10 with (10 ^ 1) at 1; apply Z.pow_le_mono_r; lia).
    set (P := 10 ^ (D - n)) in *. replace (u32 P) with P by (unfold u32; rewrite Z.mod_small; lia).
    destruct (Z.eqb_spec P 0); [lia|].
    pose proof (Z.div_mod I P ltac:(lia)) as DM. pose proof (Z.mod_pos_bound I P ltac:(lia)) as R.
    set (q := I / P) in *. pose proof (pow10_pos (n - 1) ltac:(lia)).
    assert (Q1 : 10 ^ (n - 1) <= q < 10 ^ n) by nia.
    assert (I2 : 0 <= q * P <= I) by nia. cbn [bind].
    replace (u32 (I - u32 (q * P))) with (I mod P) by (unfold u32; rewrite (Z.mod_small (q * P)) by lia; rewrite (Z.mod_small (I - q * P)) by lia; lia).
    set (r := I mod P) in *.
    destruct (int_to_digits_ok 32 q [] ltac:(assert (10 ^ n <= 10 ^ Z.of_nat 32) by (apply Z.pow_le_mono_r; lia); lia)) as (l & -> & L1 & L2 & L3).
    cbn [bind]. rewrite app_nil_r.
    assert (Ll : len l = n) by (apply len_unique; [exact L1|exact L3|lia|rewrite L2; lia]). rewrite Ll.
    destruct (Z.ltb_spec (scap s) n); [lia|]. destruct (Z.ltb_spec 0 (n - n)); [lia|]. cbn [bind].
    assert (RS : r * 2 ^ sft <= I * 2 ^ sft) by nia.
    replace (u64 (Z.shiftl r sft)) with (r * 2 ^ sft) by (rewrite Z.shiftl_mul_pow2 by lia; unfold u64; rewrite Z.mod_small; nia).
    rewrite lor_add by lia.
    assert (NU : 0 <= r * 2 ^ sft + F < P * 2 ^ sft) by nia.
    assert (Sum : M = dread l * (P * 2 ^ sft) + (r * 2 ^ sft + F)) by (rewrite L2, EM, DM; ring).
    assert (UM : P * 2 ^ sft <= dread l * (P * 2 ^ sft)).
    { assert (HL : 1 <= dread l) by lia. assert (HU : 0 <= P * 2 ^ sft) by lia. revert HL HU. generalize (P * 2 ^ sft) (dread l). clear. intros. nia. }
    assert (N2 : 2 * (r * 2 ^ sft + F + 1) < 2 ^ 64) by lia.
    assert (U3 : P * 2 ^ sft < 2 ^ 64) by lia. assert (U4 : 1000 * 1 <= P * 2 ^ sft) by (clear - P10 P32; nia).
    destruct (adjust_fixed_ok l (scap s) (D + (348 - 8 * i)) (sneg s) (r * 2 ^ sft + F) P sft 1 (D + (348 - 8 * i) - n) n
                L1 L3 Ll ltac:(lia) eq_refl ltac:(lia) U3 NU ltac:(lia) U4 N2) as (s' & ok & -> & S1 & S2 & S3).
    cbn [bind]. destruct ok.
    + destruct (S3 eq_refl) as (A1 & A2 & A3 & A4 & N & A5 & A6). eexists _, true. split; [reflexivity|]. cbn [sd sdp scap sneg].
      split; [exact S1|]. split; [exact S2|]. intros _. destruct (trim_fixed_ok (sd s') (sdp s') A1 A2 A3) as (T1 & T2 & T3).
      split; [exact T1|]. split; [lia|]. rewrite T2, A5.
      destruct (Fin l 1 (P * 2 ^ sft) (r * 2 ^ sft + F)) as [F1 F2]; try assumption; try lia.
      { rewrite mult_IZR, IZR_pow2, Rmult_1_r by lia. rewrite <- Rmult_assoc. f_equal. unfold P. rewrite IZR_p10, <- p10_plus by lia. f_equal. lia. }
      destruct A6 as [[-> C]|[-> C]]; symmetry; auto.
    + eexists _, false. split; [reflexivity|]. split; [exact S1|]. split; [exact S2|]. discriminate.
  - cbn [bind].
    destruct (int_to_digits_ok 32 I [] ltac:(assert (10 ^ D <= 10 ^ Z.of_nat 32) by (apply Z.pow_le_mono_r; lia); lia)) as (l & -> & L1 & L2 & L3).
    cbn [bind]. rewrite app_nil_r.
    assert (Ll : len l = D) by (apply len_unique; [exact L1|exact L3|lia|rewrite L2; lia]). rewrite Ll.
    assert (Nl : l <> []) by (intros ->; cbn [length] in Ll; lia).
    destruct (Z.ltb_spec (scap s) D); [lia|].
    assert (HT : 10 ^ (n - D) * 10 ^ D <= 10 ^ 15) by (rewrite <- Z.pow_add_r by lia; apply Z.pow_le_mono_r; lia).
    pose proof (pow10_pos (n - D) ltac:(lia)) as PT.
    assert (U1 : 1000 * 10 ^ (n - D) <= 2 ^ sft).
    { assert (2 ^ 62 < 10 ^ D * 2 ^ sft) by nia. pose proof (pow10_pos D ltac:(lia)). nia. }
    assert (G : (if 0 <? n - D then if negb (0 =? 0) || negb (1 =? 1) then Panic
                 else fixed_fraction (Z.to_nat (scap s + 1)) (n - D) F 1 sft l (scap s) else Ret (Some (l, F, 1))) = Ret None \/
       exists dd fr, (if 0 <? n - D then if negb (0 =? 0) || negb (1 =? 1) then Panic
                 else fixed_fraction (Z.to_nat (scap s + 1)) (n - D) F 1 sft l (scap s) else Ret (Some (l, F, 1))) = Ret (Some (dd, fr, 1 * 10 ^ (n - D))) /\
         digits_ok dd /\ no_lead0 dd /\ dd <> [] /\ len dd = len l + (n - D) /\ 0 <= fr < 2 ^ sft /\ M * (1 * 10 ^ (n - D)) = dread dd * 2 ^ sft + fr).
    { destruct (Z.ltb_spec 0 (n - D)) as [G|G].
      - change (negb (0 =? 0) || negb (1 =? 1)) with false. cbv iota.
        apply (fixed_fraction_ok (scap s) sft 1 M Hs); try assumption; try lia.
      - right. exists l, F. replace (n - D) with 0 by lia. change (1 * 10 ^ 0) with 1.
        split; [reflexivity|]. split; [exact L1|]. split; [exact L3|]. split; [exact Nl|]. split; [lia|]. split; [exact HF|]. lia. }
    destruct G as [-> | (dd & fr & -> & G1 & G2 & G3 & G4 & G5 & G6)]; cbn [bind].
    { eexists _, false. split; [reflexivity|]. split; [reflexivity|]. split; [reflexivity|]. discriminate. }
    rewrite Z.mul_1_l in *. set (T := 10 ^ (n - D)) in *.
    replace (u64 (Z.shiftl 0 sft)) with 0 by (rewrite Z.shiftl_0_l; reflexivity). rewrite Z.lor_0_l.
    assert (Ld : len dd = n) by lia.
    destruct (adjust_fixed_ok dd (scap s) (D + (348 - 8 * i)) (sneg s) fr 1 sft T (D + (348 - 8 * i) - n) n
                G1 G2 Ld ltac:(lia) eq_refl ltac:(lia) ltac:(lia) ltac:(lia) ltac:(lia) ltac:(lia) ltac:(lia)) as (s' & ok & -> & S1 & S2 & S3).
    cbn [bind]. destruct ok.
    + destruct (S3 eq_refl) as (A1 & A2 & A3 & A4 & N & A5 & A6). eexists _, true. split; [reflexivity|]. cbn [sd sdp scap sneg].
      split; [exact S1|]. split; [exact S2|]. intros _. destruct (trim_fixed_ok (sd s') (sdp s') A1 A2 A3) as (T1 & T2 & T3).
      split; [exact T1|]. split; [lia|]. rewrite T2, A5. rewrite Z.mul_1_l in A6.
      destruct (Fin dd T (2 ^ sft) fr) as [F1 F2]; try assumption; try lia.
      { rewrite <- Ld. apply dread_lead; assumption. }
      { rewrite IZR_pow2 by lia. unfold T. rewrite IZR_p10 by lia.
        replace (- (D + (348 - 8 * i) - n)) with (-348 + 8 * i + (n - D)) by lia. rewrite p10_plus. ring. }
      destruct A6 as [[-> C]|[-> C]]; symmetry; auto.
    + eexists _, false. split; [reflexivity|]. split; [exact S1|]. split; [exact S2|]. discriminate.
Qed.
