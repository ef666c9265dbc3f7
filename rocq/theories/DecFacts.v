(** Facts about digit lists and package decimal.go. *)
From Coq Require Import ZArith Reals List Bool Lia Lra.
From Flocq Require Import Core.
From Verif Require Import GoBase.
From Verif Require Decimal.
From Verif Require Import Spec SpecText BitFacts RoundFacts SpecDec.
Import ListNotations.
Import Decimal (decimal, mkDec, d, dp, trunc, nd).
Open Scope Z_scope.

Notation len l := (Z.of_nat (length l)).

Lemma p10_pos e : (0 < p10 e)%R.
Proof. apply bpow_gt_0. Qed.
Lemma p10_plus a b : p10 (a + b) = (p10 a * p10 b)%R.
Proof. apply bpow_plus. Qed.
Lemma IZR_p10 k : 0 <= k -> IZR (10 ^ k) = p10 k.
Proof. intros H. apply (IZR_Zpower radix10). exact H. Qed.
Lemma p10_0 : p10 0 = 1%R.
Proof. reflexivity. Qed.
Lemma p10_le a b : a <= b -> (p10 a <= p10 b)%R.
Proof. apply bpow_le. Qed.
Lemma p10_lt a b : a < b -> (p10 a < p10 b)%R.
Proof. apply bpow_lt. Qed.
Lemma p10_lt_inv a b : (p10 a < p10 b)%R -> a < b.
Proof. apply lt_bpow. Qed.
Lemma p10_opp e : (p10 e * p10 (- e) = 1)%R.
Proof. rewrite <- p10_plus. replace (e + - e) with 0 by lia. reflexivity. Qed.
Lemma pow10_pos k : 0 <= k -> 0 < 10 ^ k.
Proof. intros. apply Z.pow_pos_nonneg; lia. Qed.

(** Two integers with powers of ten. *)
Lemma scale10 m e j : 0 <= j -> (IZR (m * 10 ^ j) * p10 e = IZR m * p10 (e + j))%R.
Proof. intros. rewrite mult_IZR, IZR_p10, p10_plus by lia. ring. Qed.

Lemma dread_app s t : dread (s ++ t) = dread s * 10 ^ len t + dread t.
Proof.
  unfold dread. rewrite fold_left_app. set (a := fold_left _ s 0). clearbody a.
  revert a. induction t as [|c t IH]; intros a; cbn [fold_left length].
  - rewrite Z.pow_0_r. lia.
  - rewrite IH. rewrite (IH (0 * 10 + c)). rewrite Nat2Z.inj_succ, Z.pow_succ_r by lia. ring.
Qed.
Lemma dread_cons c t : dread (c :: t) = c * 10 ^ len t + dread t.
Proof. change (c :: t) with ([c] ++ t). rewrite dread_app. unfold dread at 1. cbn [fold_left]. f_equal. Qed.
Lemma dread_snoc s c : dread (s ++ [c]) = dread s * 10 + c.
Proof. rewrite dread_app. cbn [length]. change (10 ^ Z.of_nat 1) with 10. reflexivity. Qed.
Lemma dread_nil : dread [] = 0.
Proof. reflexivity. Qed.
Lemma dread_range l : digits_ok l -> 0 <= dread l < 10 ^ len l.
Proof.
  induction 1 as [|c t Hc Ht IH]; [cbn; lia|].
  rewrite dread_cons. cbn [length]. rewrite Nat2Z.inj_succ, Z.pow_succ_r by lia.
  pose proof (pow10_pos (len t) ltac:(lia)). nia.
Qed.
Lemma dread_zeros n : dread (repeat 0 n) = 0.
Proof. induction n as [|n IH]; [reflexivity|]. cbn [repeat]. rewrite dread_cons, IH. lia. Qed.
Lemma dread_lead l : digits_ok l -> no_lead0 l -> l <> [] -> 10 ^ (len l - 1) <= dread l.
Proof.
  intros H L N. destruct l as [|c t]; [contradiction|]. inversion H; subst. unfold no_lead0 in L. cbn [hd] in L.
  rewrite dread_cons. cbn [length]. replace (Z.of_nat (S (length t)) - 1) with (len t) by lia.
  pose proof (dread_range t ltac:(assumption)). pose proof (pow10_pos (len t) ltac:(lia)). nia.
Qed.
Lemma dread_inj s : forall t, digits_ok s -> digits_ok t -> length s = length t -> dread s = dread t -> s = t.
Proof.
  induction s as [|c s IH]; intros [|x t] Hs Ht Hl E; try discriminate; [reflexivity|].
  inversion Hs; subst. inversion Ht; subst. cbn [length] in Hl. injection Hl as Hl.
  rewrite !dread_cons, Hl in E.
  pose proof (dread_range s ltac:(assumption)). pose proof (dread_range t ltac:(assumption)). rewrite Hl in *.
  set (P := 10 ^ len t) in *. assert (c = x) by nia. subst x. f_equal. apply IH; auto. nia.
Qed.

Lemma digits_ok_app s t : digits_ok (s ++ t) <-> digits_ok s /\ digits_ok t.
Proof. apply Forall_app. Qed.
Lemma digits_ok_firstn n l : digits_ok l -> digits_ok (firstn n l).
Proof. intros H. rewrite <- (firstn_skipn n l) in H. apply digits_ok_app in H. apply H. Qed.
Lemma digits_ok_skipn n l : digits_ok l -> digits_ok (skipn n l).
Proof. intros H. rewrite <- (firstn_skipn n l) in H. apply digits_ok_app in H. apply H. Qed.
Lemma digits_ok_rev l : digits_ok l -> digits_ok (rev l).
Proof. apply Forall_rev. Qed.
Lemma digits_ok_zeros n : digits_ok (repeat 0 n).
Proof. induction n; cbn; constructor; auto. lia. Qed.

(** lval *)
Lemma lval_app s t p : lval (s ++ t) p = (lval s p + IZR (dread t) * p10 (p - len s - len t))%R.
Proof.
  unfold lval. rewrite dread_app, plus_IZR, Rmult_plus_distr_r, app_length, Nat2Z.inj_add.
  rewrite scale10 by lia. do 2 f_equal; f_equal; lia.
Qed.
Lemma lval_zeros s n p : lval (s ++ repeat 0 n) p = lval s p.
Proof. rewrite lval_app, dread_zeros. ring. Qed.
Lemma lval_nonneg l p : digits_ok l -> (0 <= lval l p)%R.
Proof.
  intros H. apply Rmult_le_pos; [apply IZR_le; apply dread_range, H|apply Rlt_le, p10_pos].
Qed.
Lemma lval_range l p : digits_ok l -> no_lead0 l -> l <> [] -> (p10 (p - 1) <= lval l p < p10 p)%R.
Proof.
  intros H L N. pose proof (dread_lead l H L N). pose proof (dread_range l H).
  assert (0 < length l)%nat by (destruct l; [contradiction|cbn; lia]). unfold lval. split.
  - replace (p - 1) with (len l - 1 + (p - len l)) by lia. rewrite p10_plus, <- IZR_p10 by lia.
    apply Rmult_le_compat_r; [apply Rlt_le, p10_pos|]. apply IZR_le. lia.
  - apply Rlt_le_trans with (p10 (len l + (p - len l))); [|apply p10_le; lia]. rewrite (p10_plus (len _)), <- (IZR_p10 (len _)) by lia.
    apply Rmult_lt_compat_r; [apply p10_pos|]. apply IZR_lt. lia.
Qed.
Lemma lval_nil p : lval [] p = 0%R.
Proof. unfold lval. rewrite dread_nil. ring. Qed.

(** strip and trim *)
Lemma drop_zeros_spec l : exists n, l = repeat 0 n ++ Decimal.drop_zeros l.
Proof.
  induction l as [|c t (n & IH)]; [exists O; reflexivity|]. cbn [Decimal.drop_zeros].
  destruct (Z.eqb_spec c 0) as [->|]; [exists (S n); cbn; congruence|exists O; reflexivity].
Qed.
Lemma drop_zeros_hd l : no_lead0 (Decimal.drop_zeros l).
Proof.
  unfold no_lead0. induction l as [|c t IH]; [cbn; lia|]. cbn [Decimal.drop_zeros].
  destruct (Z.eqb_spec c 0); [exact IH|]. cbn [hd]. lia.
Qed.
Lemma rev_repeat {A} (x : A) n : rev (repeat x n) = repeat x n.
Proof.
  induction n as [|n IH]; [reflexivity|]. cbn [repeat rev]. rewrite IH. clear IH.
  induction n as [|n IH]; [reflexivity|]. cbn [repeat app]. f_equal. exact IH.
Qed.
Lemma last_rev_hd (l : list Z) x : last (rev l) x = hd x l.
Proof. destruct l as [|c t]; [reflexivity|]. cbn [rev hd]. apply last_last. Qed.
Lemma strip_spec l : exists n, l = Decimal.strip l ++ repeat 0 n.
Proof.
  unfold Decimal.strip. destruct (drop_zeros_spec (rev l)) as [n E]. exists n.
  rewrite <- (rev_involutive l) at 1. rewrite E at 1. rewrite rev_app_distr, rev_repeat. reflexivity.
Qed.
Lemma strip_last l : no_trail0 (Decimal.strip l).
Proof. unfold no_trail0, Decimal.strip. rewrite last_rev_hd. apply drop_zeros_hd. Qed.

Lemma no_lead0_app_l s t : s <> [] -> no_lead0 (s ++ t) -> no_lead0 s.
Proof. destruct s; [contradiction|]. auto. Qed.

Lemma trim_spec a : digits_ok (d a) -> no_lead0 (d a) -> len (d a) <= 800 ->
  dnorm (Decimal.trim a) /\ dval (Decimal.trim a) = dval a /\ trunc (Decimal.trim a) = trunc a.
Proof.
  intros H1 H2 H3. unfold Decimal.trim, dnorm, dval. cbn [d dp trunc].
  destruct (strip_spec (d a)) as [n E]. pose proof (strip_last (d a)) as HL. set (s := Decimal.strip (d a)) in *.
  rewrite E in H1, H2, H3. apply digits_ok_app in H1. rewrite app_length in H3.
  split; [|split; [|reflexivity]].
  - repeat split; auto; try tauto.
    + destruct s as [|c t] eqn:Es; [unfold no_lead0; cbn; lia|]. apply (no_lead0_app_l (c :: t) (repeat 0 n)); [discriminate|exact H2].
    + lia.
    + intros ->. reflexivity.
  - rewrite E, lval_zeros. destruct s as [|c t]; [rewrite !lval_nil; reflexivity|]. reflexivity.
Qed.

(** The normal form is unique. *)
Lemma no_trail0_mod l : digits_ok l -> no_trail0 l -> l <> [] -> dread l mod 10 <> 0.
Proof.
  intros H T N. destruct (exists_last N) as (s & c & ->). unfold no_trail0 in T. rewrite last_last in T.
  rewrite dread_snoc, Z.add_comm, Z.mod_add by lia. apply digits_ok_app in H. destruct H as [_ H]. inversion H; subst.
  rewrite Z.mod_small by lia. exact T.
Qed.

Lemma dval_pos a : dnorm a -> d a <> [] -> (p10 (dp a - 1) <= dval a < p10 (dp a))%R.
Proof. intros (H1 & H2 & _) N. apply lval_range; assumption. Qed.

Lemma dval_0 a : dnorm a -> (dval a = 0)%R -> d a = [].
Proof.
  intros H E. destruct (d a) as [|c t] eqn:Ed; [reflexivity|exfalso].
  pose proof (dval_pos a H ltac:(congruence)). pose proof (p10_pos (dp a - 1)). lra.
Qed.

Lemma dval_nil a : d a = [] -> dval a = 0%R.
Proof. intros E. unfold dval. rewrite E. apply lval_nil. Qed.

Lemma dval_nonneg a : dnorm a -> (0 <= dval a)%R.
Proof. intros H. apply lval_nonneg, H. Qed.

Lemma lval_unique s p t q : digits_ok s -> no_lead0 s -> no_trail0 s -> digits_ok t -> no_lead0 t -> no_trail0 t ->
  s <> [] -> lval s p = lval t q -> s = t /\ p = q.
Proof.
  intros Hs Ls Ts Ht Lt Tt N E.
  pose proof (lval_range s p Hs Ls N) as Rs.
  assert (Nt : t <> []).
  { intros ->. rewrite lval_nil in E. pose proof (p10_pos (p - 1)). lra. }
  pose proof (lval_range t q Ht Lt Nt) as Rt. rewrite E in Rs.
  assert (p - 1 < q) by (apply p10_lt_inv; lra). assert (q - 1 < p) by (apply p10_lt_inv; lra).
  assert (p = q) by lia. subst q. split; [|reflexivity].
  assert (K : forall u v, digits_ok u -> digits_ok v -> no_trail0 v -> v <> [] -> lval u p = lval v p -> len v <= len u).
  { intros u v Hu Hv Tv Nv Ev. destruct (Z_le_gt_dec (len v) (len u)) as [|G]; [assumption|exfalso].
    unfold lval in Ev. replace (p - len u) with (p - len v + (len v - len u)) in Ev by lia.
    rewrite <- scale10 in Ev by lia. apply Rmult_eq_reg_r in Ev; [|apply Rgt_not_eq, p10_pos]. apply eq_IZR in Ev.
    apply (no_trail0_mod v Hv Tv Nv). rewrite <- Ev.
    replace (len v - len u) with (1 + (len v - len u - 1)) by lia. rewrite Z.pow_add_r by lia. change (10 ^ 1) with 10.
    rewrite Z.mul_assoc, (Z.mul_comm (dread u)), <- Z.mul_assoc, Z.mul_comm. apply Z.mod_mul. lia. }
  pose proof (K s t Hs Ht Tt Nt E). pose proof (K t s Ht Hs Ts N (eq_sym E)).
  apply dread_inj; auto; [lia|].
  unfold lval in E. replace (len t) with (len s) in E by lia.
  apply Rmult_eq_reg_r in E; [|apply Rgt_not_eq, p10_pos]. apply eq_IZR, E.
Qed.

Lemma dnorm_unique a b : dnorm a -> dnorm b -> dval a = dval b -> d a = d b /\ dp a = dp b.
Proof.
  intros Ha Hb E. destruct (d a) as [|c t] eqn:Ed.
  - rewrite (dval_nil a Ed) in E. symmetry in E. apply dval_0 in E; [|exact Hb]. rewrite E. split; [reflexivity|].
    destruct Ha as (_ & _ & _ & _ & Ha). destruct Hb as (_ & _ & _ & _ & Hb). rewrite Ha, Hb; auto.
  - rewrite <- Ed. unfold dval in E. apply (lval_unique (d a) (dp a) (d b) (dp b)); try apply Ha; try apply Hb; [congruence|exact E].
Qed.

(** * Assign *)
Lemma assign_loop_ok fuel : forall v, 0 <= v < 10 ^ Z.of_nat fuel -> v < 2 ^ 64 ->
  exists l, Decimal.assign_loop fuel v = Ret l /\ digits_ok l /\ dread (rev l) = v /\ no_lead0 (rev l) /\ (length l <= fuel)%nat.
Proof.
  induction fuel as [|fuel IH]; intros v Hv Hv2.
  - cbn [Decimal.assign_loop]. change (10 ^ Z.of_nat 0) with 1 in Hv. destruct (Z.leb_spec v 0); [|lia].
    exists []. repeat split; [constructor|cbn; lia|unfold no_lead0; cbn; lia|cbn; lia].
  - cbn [Decimal.assign_loop]. destruct (Z.leb_spec v 0).
    + exists []. repeat split; [constructor|cbn; lia|unfold no_lead0; cbn; lia|cbn; lia].
    + rewrite Nat2Z.inj_succ, Z.pow_succ_r in Hv by lia.
      destruct (IH (v / 10)) as (l & -> & H1 & H2 & H3 & H4).
      { split; [apply Z.div_pos; lia|apply Z.div_lt_upper_bound; lia]. }
      { apply Z.div_lt_upper_bound; lia. }
      cbn [bind]. pose proof (Z.div_mod v 10 ltac:(lia)). pose proof (Z.mod_pos_bound v 10 ltac:(lia)).
      assert (E : u64 (v - u64 (10 * (v / 10))) = v mod 10).
      { unfold u64. rewrite (Z.mod_small (10 * (v / 10))) by lia. rewrite Z.mod_small by lia. lia. }
      rewrite E. exists (v mod 10 :: l). split; [reflexivity|]. split; [constructor; [lia|exact H1]|].
      cbn [rev]. rewrite dread_snoc, H2. split; [lia|]. split; [|cbn [length]; lia].
      destruct (rev l) as [|c t] eqn:El; [|exact H3]. unfold no_lead0. cbn [app hd]. change (dread []) with 0 in H2. lia.
Qed.

Lemma Assign_ok a v : 0 <= v < 2 ^ 64 ->
  exists b, Decimal.Assign a v = Ret b /\ dnorm b /\ dval b = IZR v /\ trunc b = trunc a.
Proof.
  intros Hv. unfold Decimal.Assign.
  destruct (assign_loop_ok 24 v ltac:(cbn [Z.of_nat]; lia) ltac:(lia)) as (l & -> & H1 & H2 & H3 & H4). cbn [bind].
  eexists. split; [reflexivity|].
  destruct (trim_spec (mkDec (rev l) (len (rev l)) (trunc a))) as (T1 & T2 & T3); cbn [d dp trunc].
  - apply digits_ok_rev, H1.
  - exact H3.
  - rewrite rev_length. lia.
  - split; [exact T1|]. split; [|exact T3]. rewrite T2. unfold dval, lval. cbn [d dp]. rewrite H2.
    replace (_ - _) with 0 by lia. rewrite p10_0. ring.
Qed.

(** * Digits kept and digits dropped *)
Definition pos_digit (c : Z) : bool := 0 <? c.
Definition capped (full : list Z) (p : Z) (tr : bool) : decimal :=
  Decimal.trim (mkDec (firstn 800 full) p (tr || existsb pos_digit (skipn 800 full))).

Lemma existsb_dread l : digits_ok l -> existsb pos_digit l = false <-> dread l = 0.
Proof.
  intros H. split.
  - induction H as [|c t Hc Ht IH]; [reflexivity|]. cbn [existsb]. intros E. apply orb_false_elim in E. destruct E as [E1 E2].
    unfold pos_digit in E1. rewrite dread_cons, IH by exact E2. lia.
  - induction H as [|c t Hc Ht IH]; [reflexivity|]. intros E. cbn [existsb].
    rewrite dread_cons in E. pose proof (dread_range t Ht). pose proof (pow10_pos (len t) ltac:(lia)).
    assert (c = 0) by nia. subst c. rewrite IH by nia. reflexivity.
Qed.

Lemma sig_digits_rest full p : digits_ok full -> no_lead0 full -> full <> [] -> sig_digits 800 (lval full p) ->
  dread (skipn 800 full) = 0.
Proof.
  intros H L N (M & e & E & HM).
  destruct (le_gt_dec (length full) 800) as [G|G]; [rewrite skipn_all2 by lia; reflexivity|].
  pose proof (lval_range full p H L N) as R.
  assert (P : (0 < lval full p)%R) by (pose proof (p10_pos (p - 1)); lra).
  assert (M0 : 0 < M).
  { apply lt_IZR. apply Rmult_lt_reg_r with (p10 e); [apply p10_pos|]. rewrite Rmult_0_l, <- E. exact P. }
  (* e >= p - 800 *)
  assert (He : p - 800 <= e).
  { apply Z.lt_pred_le. unfold Z.pred. assert (p - 1 < 800 + e); [|lia]. apply p10_lt_inv.
    apply Rle_lt_trans with (1 := proj1 R). rewrite E, (p10_plus 800), <- (IZR_p10 800) by lia.
    apply Rmult_lt_compat_r; [apply p10_pos|]. apply IZR_lt. lia. }
  set (s := firstn 800 full). set (t := skipn 800 full).
  assert (Ef : full = s ++ t) by (symmetry; apply firstn_skipn).
  assert (Ls : len s = 800) by (unfold s; rewrite firstn_length; lia).
  assert (Hst : digits_ok s /\ digits_ok t) by (apply digits_ok_app; rewrite <- Ef; exact H). destruct Hst as [Hs Ht].
  rewrite Ef in E. unfold lval in E. rewrite app_length, Nat2Z.inj_add, Ls in E.
  replace e with (p - (800 + len t) + (e - (p - 800) + len t)) in E by lia.
  rewrite <- scale10 in E by lia. apply Rmult_eq_reg_r in E; [|apply Rgt_not_eq, p10_pos]. apply eq_IZR in E.
  rewrite dread_app in E. rewrite Z.pow_add_r in E by lia.
  pose proof (dread_range t Ht). set (T := 10 ^ len t) in *.
  set (X := 10 ^ (e - (p - 800))) in *.
  assert (E2 : dread t = (M * X - dread s) * T) by (rewrite Z.mul_sub_distr_r, <- Z.mul_assoc, <- E; ring).
  set (K := M * X - dread s) in *. clearbody K. assert (K = 0) by nia. subst K. lia.
Qed.

Lemma capped_spec full p tr : digits_ok full -> no_lead0 full -> full <> [] ->
  let b := capped full p tr in
  dnorm b /\ (dval b <= lval full p < dval b + p10 (p - 800))%R /\
  dval b = floor10 (p - 800) (lval full p) /\
  (trunc b = true <-> tr = true \/ (dval b < lval full p)%R) /\
  (sig_digits 800 (lval full p) -> trunc b = tr /\ dval b = lval full p).
Proof.
  intros H L N b. set (s := firstn 800 full). set (t := skipn 800 full).
  assert (Ef : full = s ++ t) by (symmetry; apply firstn_skipn).
  assert (Ls : len s <= 800) by (unfold s; rewrite firstn_length; lia).
  assert (Hst : digits_ok s /\ digits_ok t) by (apply digits_ok_app; rewrite <- Ef; exact H). destruct Hst as [Hs Ht].
  assert (Ns : s <> []) by (unfold s; destruct full; [contradiction|discriminate]).
  assert (LLs : no_lead0 s) by (apply (no_lead0_app_l s t Ns); rewrite <- Ef; exact L).
  destruct (trim_spec (mkDec s p (tr || existsb pos_digit t)) Hs LLs Ls) as (T1 & T2 & T3).
  fold s t in b. change (capped full p tr) with (Decimal.trim (mkDec s p (tr || existsb pos_digit t))) in b.
  fold b in T1, T2, T3. cbn [trunc] in T3. change (dval (mkDec _ _ _)) with (lval s p) in T2.
  pose proof (dread_range t Ht) as Rt.
  assert (EV : lval full p = (lval s p + IZR (dread t) * p10 (p - len s - len t))%R) by (rewrite Ef at 1; apply lval_app).
  assert (Et : t <> [] -> len s = 800).
  { intros Nt. unfold s. rewrite firstn_length. assert (800 <= length full)%nat; [|lia].
    destruct (le_gt_dec 800 (length full)); [assumption|]. exfalso. apply Nt. apply skipn_all2. lia. }
  assert (Frac : (0 <= IZR (dread t) * p10 (p - len s - len t) < p10 (p - 800))%R).
  { destruct t as [|c t'] eqn:E0.
    - change (dread []) with 0. rewrite Rmult_0_l. split; [lra|apply p10_pos].
    - rewrite (Et ltac:(discriminate)). rewrite <- E0 in *. split.
      + apply Rmult_le_pos; [apply IZR_le; lia|apply Rlt_le, p10_pos].
      + apply Rlt_le_trans with (p10 (len t + (p - 800 - len t))); [|apply p10_le; lia]. rewrite (p10_plus (len _)), <- (IZR_p10 (len _)) by lia.
        apply Rmult_lt_compat_r; [apply p10_pos|]. apply IZR_lt. lia. }
  assert (Hfl : lval s p = floor10 (p - 800) (lval full p)).
  { unfold floor10. set (f := (IZR (dread t) * p10 (p - len s - len t))%R) in *.
    assert (EI : exists q, lval s p = (IZR q * p10 (p - 800))%R).
    { exists (dread s * 10 ^ (800 - len s)). rewrite scale10 by lia. unfold lval. do 2 f_equal. lia. }
    destruct EI as [q Eq].
    replace (Zfloor _) with q; [exact Eq|]. symmetry.
    rewrite EV, Eq. rewrite Rmult_plus_distr_r, Rmult_assoc, p10_opp, Rmult_1_r.
    apply Zfloor_frac. destruct Frac as [F1 F2].
    pose proof (p10_pos (- (p - 800))). split; [apply Rmult_le_pos; lra|].
    rewrite <- (p10_opp (p - 800)). apply Rmult_lt_compat_r; assumption. }
  split; [exact T1|]. split; [rewrite T2, EV; lra|]. split; [rewrite T2; exact Hfl|]. split.
  - rewrite T3, T2, EV. destruct (existsb pos_digit t) eqn:Ex.
    + rewrite orb_true_r. split; [|reflexivity]. intros _. right.
      assert (0 < dread t).
      { assert (dread t <> 0); [|lia]. intros E0. apply (existsb_dread t Ht) in E0. congruence. }
      assert (0 < IZR (dread t) * p10 (p - len s - len t))%R by (apply Rmult_lt_0_compat; [apply IZR_lt; lia|apply p10_pos]). lra.
    + rewrite orb_false_r. apply (existsb_dread t Ht) in Ex. rewrite Ex, Rmult_0_l. split; [auto|intros [?|?]; [assumption|lra]].
  - intros S. assert (Z0 : dread t = 0) by (apply (sig_digits_rest full p); assumption).
    rewrite T3, T2, EV, Z0, Rmult_0_l. rewrite (proj2 (existsb_dread t Ht) Z0), orb_false_r. split; [reflexivity|ring].
Qed.

(** * Right shift *)
Fixpoint extra (j : nat) (k n : Z) : list Z :=
  match j with
  | O => []
  | S j => n / 2 ^ k :: extra j k (n mod 2 ^ k * 10)
  end.

Lemma extra_digits j k n : 0 <= k -> 0 <= n < 10 * 2 ^ k -> digits_ok (extra j k n).
Proof.
  intros Hk. revert n. induction j as [|j IH]; intros n Hn; cbn [extra]; [constructor|].
  assert (0 < 2 ^ k) by (apply Z.pow_pos_nonneg; lia). pose proof (Z.mod_pos_bound n (2 ^ k) ltac:(lia)).
  constructor; [|apply IH; lia]. split; [apply Z.div_pos; lia|]. apply Z.lt_succ_r. apply Z.div_lt_upper_bound; lia.
Qed.
Lemma extra_length j k n : length (extra j k n) = j.
Proof. revert n. induction j; intros n; cbn; auto. Qed.

Lemma step_small w k n c : 0 <= k <= w - 4 -> 0 <= n < 2 ^ k -> 0 <= c <= 9 -> (n * 10 + c) mod 2 ^ w = n * 10 + c /\ n * 10 + c < 10 * 2 ^ k.
Proof.
  intros Hk Hn Hc. split; [|nia]. apply Z.mod_small. split; [lia|].
  assert (2 ^ w = 2 ^ (w - 4) * 16) by (replace w with (w - 4 + 4) at 1 by lia; rewrite Z.pow_add_r by lia; reflexivity).
  assert (2 ^ k <= 2 ^ (w - 4)) by (apply Z.pow_le_mono_r; lia). nia.
Qed.

(** What is left after j digits. *)
Fixpoint extra_rest (j : nat) (k n : Z) : Z :=
  match j with
  | O => n
  | S j => extra_rest j k (n mod 2 ^ k * 10)
  end.
Lemma extra_value j k : forall n, 0 <= k -> n * 10 ^ Z.of_nat j = 10 * 2 ^ k * dread (extra j k n) + extra_rest j k n.
Proof.
  induction j as [|j IH]; intros n Hk; cbn [extra extra_rest].
  - change (10 ^ Z.of_nat 0) with 1. change (dread []) with 0. lia.
  - rewrite dread_cons, extra_length, Nat2Z.inj_succ, Z.pow_succ_r by lia.
    specialize (IH (n mod 2 ^ k * 10) Hk).
    assert (0 < 2 ^ k) by (apply Z.pow_pos_nonneg; lia). pose proof (Z.div_mod n (2 ^ k) ltac:(lia)).
    set (P := 10 ^ Z.of_nat j) in *. set (q := n / 2 ^ k) in *. set (r := n mod 2 ^ k) in *.
    transitivity (10 * 2 ^ k * (q * P) + r * 10 * P); [nia|]. rewrite IH. ring.
Qed.

Lemma rs_extra_ok w k : 0 <= k <= w - 4 -> forall fuel n wp tr s, 0 <= n < 10 * 2 ^ k -> 0 <= wp <= 800 ->
  (n = 0 \/ (0 <= s <= k /\ (2 ^ s | n) /\ k - s < Z.of_nat fuel)) ->
  exists j, Decimal.rs_extra fuel w k (2 ^ k - 1) n wp tr =
      Ret (firstn (Z.to_nat (800 - wp)) (extra j k n), tr || existsb pos_digit (skipn (Z.to_nat (800 - wp)) (extra j k n))) /\
    extra_rest j k n = 0.
Proof.
  intros Hk. assert (P2 : 0 < 2 ^ k) by (apply Z.pow_pos_nonneg; lia).
  induction fuel as [|fuel IH]; intros n wp tr s Hn Hwp Hs.
  - assert (n = 0) by lia. subst n. exists O. cbn [Decimal.rs_extra]. destruct (Z.leb_spec 0 0); [|lia].
    cbn [extra extra_rest]. rewrite firstn_nil, skipn_nil. cbn [existsb]. rewrite orb_false_r. auto.
  - cbn [Decimal.rs_extra]. destruct (Z.leb_spec n 0).
    + assert (n = 0) by lia. subst n. exists O. cbn [extra extra_rest]. rewrite firstn_nil, skipn_nil. cbn [existsb]. rewrite orb_false_r. auto.
    + rewrite Z.shiftr_div_pow2, land_ones_mod by lia. pose proof (Z.mod_pos_bound n (2 ^ k) P2).
      destruct (step_small w k (n mod 2 ^ k) 0 Hk ltac:(lia) ltac:(lia)) as [E1 E2]. rewrite Z.add_0_r in E1, E2. rewrite E1.
      set (n' := n mod 2 ^ k * 10) in *.
      assert (Hs' : n' = 0 \/ (0 <= s + 1 <= k /\ (2 ^ (s + 1) | n') /\ k - (s + 1) < Z.of_nat fuel)).
      { destruct Hs as [->|(S1 & S2 & S3)]; [lia|]. destruct (Z.eq_dec s k) as [->|].
        - left. unfold n'. rewrite (proj2 (Z.mod_divide n (2 ^ k) ltac:(lia)) S2). reflexivity.
        - right. split; [lia|]. split; [|lia]. rewrite Z.pow_add_r by lia. unfold n'.
          assert (D : (2 ^ s | n mod 2 ^ k)).
          { rewrite Z.mod_eq by lia. apply Z.divide_sub_r; [exact S2|]. apply Z.divide_mul_l.
            exists (2 ^ (k - s)). rewrite <- Z.pow_add_r by lia. f_equal. lia. }
          destruct D as [u D]. rewrite D. exists (u * 5). change (2 ^ 1) with 2. ring. }
      destruct (Z.ltb_spec wp Decimal.maxDigits) as [L|L]; unfold Decimal.maxDigits in L.
      * destruct (IH n' (wp + 1) tr (s + 1) ltac:(lia) ltac:(lia) Hs') as (j & -> & Hj). cbn [bind].
        exists (S j). cbn [extra extra_rest]. fold n'. split; [|exact Hj].
        replace (Z.to_nat (800 - wp)) with (S (Z.to_nat (800 - (wp + 1)))) by lia. reflexivity.
      * assert (wp = 800) by lia. subst wp.
        destruct (IH n' 800 (tr || (0 <? n / 2 ^ k)) (s + 1) ltac:(lia) ltac:(lia) Hs') as (j & -> & Hj).
        exists (S j). cbn [extra extra_rest]. fold n'. split; [|exact Hj].
        change (Z.to_nat (800 - 800)) with O. cbn [firstn skipn existsb]. unfold pos_digit at 2. rewrite orb_assoc. reflexivity.
Qed.

Lemma rs_mid_ok w k : 0 <= k <= w - 4 -> forall l n, 0 <= n < 10 * 2 ^ k -> digits_ok l ->
  let '(n', out) := Decimal.rs_mid w k (2 ^ k - 1) l n in
  0 <= n' < 10 * 2 ^ k /\ digits_ok out /\ length out = length l /\
  n * 10 ^ len l + dread l = 10 * 2 ^ k * dread out + n' /\
  (l <> [] -> hd 1 out = n / 2 ^ k) /\ (l = [] -> n' = n).
Proof.
  intros Hk. assert (P2 : 0 < 2 ^ k) by (apply Z.pow_pos_nonneg; lia).
  induction l as [|c l IH]; intros n Hn Hl; cbn [Decimal.rs_mid].
  - split; [lia|]. split; [constructor|]. split; [reflexivity|]. split; [cbn [length]; change (dread []) with 0; change (10 ^ Z.of_nat 0) with 1; lia|].
    split; [intros H; contradiction|reflexivity].
  - inversion Hl as [|? ? Hc Hl']; subst. rewrite Z.shiftr_div_pow2, land_ones_mod by lia.
    pose proof (Z.mod_pos_bound n (2 ^ k) P2).
    destruct (step_small w k (n mod 2 ^ k) c Hk ltac:(lia) ltac:(lia)) as [E1 E2]. rewrite E1.
    specialize (IH (n mod 2 ^ k * 10 + c) ltac:(lia) Hl').
    destruct (Decimal.rs_mid w k (2 ^ k - 1) l _) as [n' out]. destruct IH as (I1 & I2 & I3 & I4 & I5 & _).
    split; [exact I1|]. split.
    { constructor; [|exact I2]. split; [apply Z.div_pos; lia|]. apply Z.lt_succ_r. apply Z.div_lt_upper_bound; lia. }
    split; [cbn; congruence|]. split; [|split; [reflexivity|discriminate]].
    rewrite !dread_cons, I3. cbn [length]. rewrite Nat2Z.inj_succ, Z.pow_succ_r by lia.
    pose proof (Z.div_mod n (2 ^ k) ltac:(lia)).
    set (P := 10 ^ len l) in *. set (q := n / 2 ^ k) in *. set (r := n mod 2 ^ k) in *.
    transitivity (10 * 2 ^ k * (q * P) + ((r * 10 + c) * P + dread l)); [nia|]. rewrite I4. ring.
Qed.

Lemma rs_pad_ok w k : 0 <= k <= w - 4 -> forall fuel n r, 0 < n < 10 * 2 ^ k -> 2 ^ k <= n * 10 ^ Z.of_nat fuel ->
  exists n' t, Decimal.rs_pad fuel w k n r = Ret (n', r + t) /\ 0 <= t /\ n' = n * 10 ^ t /\ 2 ^ k <= n' < 10 * 2 ^ k.
Proof.
  intros Hk. assert (P2 : 0 < 2 ^ k) by (apply Z.pow_pos_nonneg; lia).
  induction fuel as [|fuel IH]; intros n r Hn Hf; cbn [Decimal.rs_pad]; rewrite Z.shiftr_div_pow2 by lia.
  - change (10 ^ Z.of_nat 0) with 1 in Hf. assert (1 <= n / 2 ^ k) by (apply Z.div_le_lower_bound; lia).
    destruct (Z.eqb_spec (n / 2 ^ k) 0); [lia|]. exists n, 0. rewrite Z.add_0_r. change (10 ^ 0) with 1. repeat split; lia.
  - destruct (Z.eqb_spec (n / 2 ^ k) 0) as [E|E].
    + assert (n < 2 ^ k). { apply Z.div_small_iff in E; lia. }
      destruct (step_small w k n 0 Hk ltac:(lia) ltac:(lia)) as [E1 E2]. rewrite Z.add_0_r in E1, E2. rewrite E1.
      rewrite Nat2Z.inj_succ, Z.pow_succ_r in Hf by lia.
      destruct (IH (n * 10) (r + 1) ltac:(lia) ltac:(lia)) as (n' & t & -> & Ht & -> & Hn').
      exists (n * 10 * 10 ^ t), (t + 1). split; [replace (r + (t + 1)) with (r + 1 + t) by lia; reflexivity|]. split; [lia|]. split; [|exact Hn'].
      rewrite Z.pow_add_r by lia. change (10 ^ 1) with 10. ring.
    + exists n, 0. rewrite Z.add_0_r. change (10 ^ 0) with 1. repeat split; try lia.
      destruct (Z_le_gt_dec (2 ^ k) n); [assumption|]. exfalso. apply E. apply Z.div_small. lia.
Qed.

Lemma rs_pick_ok w k : 0 <= k <= w - 4 -> k <= 60 -> forall l n r, 0 <= n < 10 * 2 ^ k -> digits_ok l ->
  (0 < n \/ (n = 0 /\ no_lead0 l /\ l <> [])) ->
  exists n' r' rest, Decimal.rs_pick w k l n r = Ret (Some (n', r', rest)) /\
    2 ^ k <= n' < 10 * 2 ^ k /\ digits_ok rest /\ r <= r' /\ (len rest <= len l) /\
    n' * 10 ^ len rest + dread rest = (n * 10 ^ len l + dread l) * 10 ^ (r' - r + len rest - len l) /\
    0 <= r' - r + len rest - len l.
Proof.
  intros Hk Hk60. assert (P2 : 0 < 2 ^ k) by (apply Z.pow_pos_nonneg; lia).
  assert (Stop : forall l n r, 0 <= n < 10 * 2 ^ k -> digits_ok l -> n / 2 ^ k <> 0 ->
    exists n' r' rest, Ret (Some (n, r, l)) = Ret (Some (n', r', rest)) /\
    2 ^ k <= n' < 10 * 2 ^ k /\ digits_ok rest /\ r <= r' /\ (len rest <= len l) /\
    n' * 10 ^ len rest + dread rest = (n * 10 ^ len l + dread l) * 10 ^ (r' - r + len rest - len l) /\
    0 <= r' - r + len rest - len l).
  { intros l n r Hn Hl E. exists n, r, l. split; [reflexivity|]. split.
    - split; [|lia]. destruct (Z_le_gt_dec (2 ^ k) n); [assumption|]. exfalso. apply E. apply Z.div_small. lia.
    - split; [exact Hl|]. split; [lia|]. split; [lia|]. split; [|lia]. replace (r - r + len l - len l) with 0 by lia. change (10 ^ 0) with 1. lia. }
  induction l as [|c l IH]; intros n r Hn Hl Hp; cbn [Decimal.rs_pick]; rewrite Z.shiftr_div_pow2 by lia.
  - destruct (Z.eqb_spec (n / 2 ^ k) 0) as [E|E]; [|apply Stop; assumption].
    destruct Hp as [Hp|(_ & _ & Hp)]; [|contradiction].
    destruct (Z.eqb_spec n 0); [lia|].
    destruct (rs_pad_ok w k Hk 64 n r ltac:(lia)) as (n' & t & -> & Ht & -> & Hn').
    { apply Z.le_trans with (1 * 10 ^ Z.of_nat 64); [|apply Z.mul_le_mono_nonneg_r; [apply Z.pow_nonneg|]; lia].
      apply Z.le_trans with (2 ^ 64); [apply Z.pow_le_mono_r; lia|vm_compute; discriminate]. }
    cbn [bind]. exists (n * 10 ^ t), (r + t), []. split; [reflexivity|]. split; [exact Hn'|]. split; [constructor|].
    split; [lia|]. split; [cbn; lia|]. cbn [length]. change (Z.of_nat 0) with 0. change (dread []) with 0. change (10 ^ 0) with 1.
    replace (r + t - r + 0 - 0) with t by lia. split; lia.
  - destruct (Z.eqb_spec (n / 2 ^ k) 0) as [E|E]; [|apply Stop; assumption].
    inversion Hl as [|? ? Hc Hl']; subst.
    assert (n < 2 ^ k). { apply Z.div_small_iff in E; lia. }
    destruct (step_small w k n c Hk ltac:(lia) ltac:(lia)) as [E1 E2]. rewrite E1.
    destruct (IH (n * 10 + c) (r + 1) ltac:(lia) Hl') as (n' & r' & rest & -> & I1 & I2 & I3 & I4 & I5 & I6).
    { left. destruct Hp as [Hp|(-> & Hp & _)]; [lia|]. unfold no_lead0 in Hp. cbn [hd] in Hp. lia. }
    exists n', r', rest. split; [reflexivity|]. split; [exact I1|]. split; [exact I2|]. split; [lia|].
    cbn [length]. rewrite Nat2Z.inj_succ. split; [lia|]. split; [|lia].
    rewrite I5, dread_cons. rewrite Z.pow_succ_r by lia.
    replace (r' - r + len rest - Z.succ (len l)) with (r' - (r + 1) + len rest - len l) by lia. f_equal. ring.
Qed.

Lemma rightShift_ok w a k : 0 <= k <= w - 4 -> k <= 60 -> dnorm a -> d a <> [] ->
  exists full p, Decimal.rightShift w a k = Ret (capped full p (trunc a)) /\
    digits_ok full /\ no_lead0 full /\ full <> [] /\ lval full p = (dval a * p2 (- k))%R.
Proof.
  intros Hk Hk60 Ha Nd. assert (P2 : 0 < 2 ^ k) by (apply Z.pow_pos_nonneg; lia).
  pose proof Ha as (Hd & Hl & Ht & Hlen & _). unfold Decimal.rightShift.
  destruct (rs_pick_ok w k Hk Hk60 (d a) 0 0 ltac:(lia) Hd ltac:(right; auto)) as (n & r & rest & -> & I1 & I2 & I3 & I4 & I5 & I6).
  cbn [bind].
  assert (EM : (2 ^ k - 1) mod 2 ^ w = 2 ^ k - 1).
  { apply Z.mod_small. assert (2 ^ k <= 2 ^ w) by (apply Z.pow_le_mono_r; lia). lia. }
  rewrite EM. pose proof (rs_mid_ok w k Hk rest n ltac:(lia) I2) as HM.
  destruct (Decimal.rs_mid w k (2 ^ k - 1) rest n) as [n' out]. destruct HM as (M1 & M2 & M3 & M4 & M5 & M6).
  destruct (rs_extra_ok w k Hk 66 n' (len out) (trunc a) 0 M1 ltac:(lia)) as (j & -> & Hj).
  { right. split; [lia|]. split; [exists n'; change (2 ^ 0) with 1; lia|]. lia. }
  cbn [bind].
  assert (Div1 : 1 <= n / 2 ^ k) by (apply Z.div_le_lower_bound; lia).
  exists (out ++ extra j k n'), (dp a - (r - 1)).
  assert (Hfull : no_lead0 (out ++ extra j k n') /\ out ++ extra j k n' <> []).
  { destruct rest as [|c rest'].
    - destruct out; [|discriminate]. specialize (M6 eq_refl). subst n'.
      destruct j as [|j]; [cbn [extra_rest] in Hj; lia|]. cbn [extra app]. split; [unfold no_lead0; cbn [hd]; lia|discriminate].
    - specialize (M5 ltac:(discriminate)). destruct out as [|o out']; [discriminate|]. cbn [hd] in M5.
      cbn [app]. split; [unfold no_lead0; cbn [hd]; lia|discriminate]. }
  split.
  { unfold capped. rewrite firstn_app, skipn_app.
    assert (length out <= 800)%nat by lia.
    rewrite (firstn_all2 (n := 800) out), (skipn_all2 (n := 800) out) by lia. cbn [app].
    replace (800 - length out)%nat with (Z.to_nat (800 - len out)) by lia. reflexivity. }
  split; [apply digits_ok_app; split; [exact M2|apply extra_digits; lia]|]. split; [apply Hfull|]. split; [apply Hfull|].
  (* value *)
  pose proof (extra_value j k n' ltac:(lia)) as EV. rewrite Hj, Z.add_0_r in EV.
  set (o := out ++ extra j k n').
  assert (Eo : 10 * 2 ^ k * dread o = dread (d a) * 10 ^ (r + len rest - len (d a) + Z.of_nat j)).
  { unfold o. rewrite dread_app, extra_length. rewrite Z.mul_add_distr_l, <- EV.
    rewrite (Z.pow_add_r 10 (r + len rest - len (d a))) by lia. rewrite (Z.mul_assoc (dread (d a))).
    rewrite Z.mul_0_l, Z.add_0_l, Z.sub_0_r in I5. rewrite <- I5, M4. ring. }
  unfold dval, lval. assert (Lo : len o = len rest + Z.of_nat j) by (unfold o; rewrite app_length, extra_length, M3; lia).
  rewrite Lo. apply Rmult_eq_reg_r with (IZR (10 * 2 ^ k)); [|apply IZR_neq; lia].
  transitivity (IZR (10 * 2 ^ k * dread o) * p10 (dp a - (r - 1) - (len rest + Z.of_nat j)))%R; [rewrite (mult_IZR (10 * 2 ^ k) (dread o)); ring|].
  rewrite Eo, scale10 by lia.
  replace (dp a - (r - 1) - (len rest + Z.of_nat j) + (r + len rest - len (d a) + Z.of_nat j)) with (1 + (dp a - len (d a))) by lia.
  rewrite p10_plus. rewrite mult_IZR, IZR_pow2 by lia. change (p10 1) with 10%R.
  replace (IZR (dread (d a)) * p10 (dp a - len (d a)) * p2 (- k) * (10 * p2 k))%R
    with (IZR (dread (d a)) * (10 * p10 (dp a - len (d a))) * (p2 (- k) * p2 k))%R by ring.
  rewrite <- p2_plus. replace (- k + k) with 0 by lia. change (p2 0) with 1%R. ring.
Qed.

(** * Left shift *)
Definition cheat_ok (k : Z) (e : Z * list Z) : bool :=
  let '(delta, cut) := e in
  forallb (fun c => (0 <=? c) && (c <=? 9)) cut && negb (last cut 1 =? 0) &&
  (if k =? 0 then (delta =? 0) && (Z.of_nat (length cut) =? 0)
   else (dread cut =? 5 ^ k) && negb (hd 1 cut =? 0) && (delta =? k - Z.of_nat (length cut) + 1) && (1 <=? delta) && (delta <=? 20)).

Fixpoint cheats_ok (k : Z) (l : list (Z * list Z)) : bool :=
  match l with
  | [] => true
  | e :: l => cheat_ok k e && cheats_ok (k + 1) l
  end.

Lemma cheats_nth l : forall k i e, cheats_ok k l = true -> nth_error l i = Some e -> cheat_ok (k + Z.of_nat i) e = true.
Proof.
  induction l as [|x l IH]; intros k i e H E; [destruct i; discriminate|]. cbn [cheats_ok] in H. apply andb_prop in H. destruct H as [H1 H2].
  destruct i as [|i]; cbn [nth_error] in E.
  - injection E as <-. replace (k + Z.of_nat 0) with k by lia. exact H1.
  - replace (k + Z.of_nat (S i)) with (k + 1 + Z.of_nat i) by lia. apply (IH (k + 1) i e H2 E).
Qed.

Lemma leftcheats_ok k : 0 <= k <= 60 -> exists delta cut, nth_error Decimal.leftcheats (Z.to_nat k) = Some (delta, cut) /\
  digits_ok cut /\ no_trail0 cut /\
  ((k = 0 /\ delta = 0 /\ cut = []) \/
   (0 < k /\ dread cut = 5 ^ k /\ no_lead0 cut /\ cut <> [] /\ delta = k - len cut + 1 /\ 1 <= delta <= 20)).
Proof.
  intros Hk. destruct (nth_error Decimal.leftcheats (Z.to_nat k)) as [[delta cut]|] eqn:E.
  2:{ apply nth_error_None in E. change (length Decimal.leftcheats) with 61%nat in E. lia. }
  exists delta, cut. split; [reflexivity|].
  assert (H : cheats_ok 0 Decimal.leftcheats = true) by (vm_compute; reflexivity).
  pose proof (cheats_nth _ _ _ _ H E) as C. rewrite Z2Nat.id in C by lia. rewrite Z.add_0_l in C. clear H E.
  unfold cheat_ok in C. apply andb_prop in C. destruct C as [C C3]. apply andb_prop in C. destruct C as [C1 C2].
  split. { apply Forall_forall. intros c Hc. rewrite forallb_forall in C1. specialize (C1 c Hc). lia. }
  split. { unfold no_trail0. destruct (Z.eqb_spec (last cut 1) 0); [discriminate|assumption]. }
  destruct (Z.eqb_spec k 0) as [->|Hk0].
  - left. split; [reflexivity|]. destruct cut; [|cbn in C3; lia]. split; [lia|reflexivity].
  - right. repeat (apply andb_prop in C3; destruct C3 as [C3 ?]).
    split; [lia|]. split; [lia|]. split; [unfold no_lead0; destruct (Z.eqb_spec (hd 1 cut) 0); [discriminate|assumption]|].
    split; [|lia]. intros ->. apply Z.eqb_eq in C3. change (dread []) with 0 in C3.
    assert (0 < 5 ^ k) by (apply Z.pow_pos_nonneg; lia). lia.
Qed.

Lemma prefix_spec s : forall b, digits_ok s -> digits_ok b -> no_trail0 s -> s <> [] ->
  (Decimal.prefixIsLessThan b s = true <-> dread b * 10 ^ len s < dread s * 10 ^ len b).
Proof.
  induction s as [|s0 s IH]; intros b Hs Hb Ts N; [contradiction|].
  inversion Hs as [|? ? Hs0 Hs']; subst.
  assert (Pos : 0 < dread (s0 :: s)).
  { pose proof (dread_range _ Hs). pose proof (no_trail0_mod _ Hs Ts N) as M. assert (dread (s0 :: s) <> 0); [|lia].
    intros E. rewrite E in M. apply M. reflexivity. }
  destruct b as [|b0 b].
  - cbn [Decimal.prefixIsLessThan]. change (dread []) with 0. cbn [length]. change (10 ^ Z.of_nat 0) with 1. split; [lia|reflexivity].
  - inversion Hb as [|? ? Hb0 Hb']; subst. rewrite !dread_cons in *. cbn [length]. rewrite !Nat2Z.inj_succ, !Z.pow_succ_r by lia.
    pose proof (dread_range s Hs'). pose proof (dread_range b Hb').
    pose proof (pow10_pos (len s) ltac:(lia)) as Ps. pose proof (pow10_pos (len b) ltac:(lia)) as Pb.
    cbn [Decimal.prefixIsLessThan]. destruct (Z.eqb_spec b0 s0) as [->|Ne].
    + destruct s as [|s1 s'].
      * replace (Decimal.prefixIsLessThan b []) with false by (destruct b; reflexivity). change (dread []) with 0. cbn [length]. change (10 ^ Z.of_nat 0) with 1.
        split; [intros; discriminate|]. intros. exfalso. nia.
      * rewrite (IH b Hs' Hb' Ts ltac:(discriminate)). set (S_ := 10 ^ len (s1 :: s')) in *. set (B_ := 10 ^ len b) in *. nia.
    + set (S_ := 10 ^ len s) in *. set (B_ := 10 ^ len b) in *. split.
      * intros L. apply Z.ltb_lt in L.
        assert (b0 * B_ + dread b < (b0 + 1) * B_) by nia.
        assert ((b0 + 1) * B_ * (10 * S_) <= s0 * B_ * (10 * S_)) by nia.
        assert ((b0 * B_ + dread b) * (10 * S_) < (b0 + 1) * B_ * (10 * S_)) by nia. nia.
      * intros L. apply Z.ltb_lt. assert (~ s0 < b0); [|lia]. intros G.
        assert (s0 * S_ + dread s < (s0 + 1) * S_) by nia.
        assert ((s0 + 1) * S_ * (10 * B_) <= b0 * S_ * (10 * B_)) by nia.
        assert ((s0 * S_ + dread s) * (10 * B_) < (s0 + 1) * S_ * (10 * B_)) by nia. nia.
Qed.

(** The number of digits of l * 2^k. *)
Lemma ls_count l k delta cut : 0 <= k -> digits_ok l -> no_lead0 l -> l <> [] -> digits_ok cut -> no_trail0 cut ->
  ((k = 0 /\ delta = 0 /\ cut = []) \/
   (0 < k /\ dread cut = 5 ^ k /\ no_lead0 cut /\ cut <> [] /\ delta = k - len cut + 1 /\ 1 <= delta <= 20)) ->
  let delta' := if Decimal.prefixIsLessThan l cut then delta - 1 else delta in
  0 <= delta' <= 20 /\ 10 ^ (len l + delta' - 1) <= dread l * 2 ^ k < 10 ^ (len l + delta').
Proof.
  intros Hk Hl Ll Nl Hc Tc Hd delta'.
  pose proof (dread_lead l Hl Ll Nl) as D1. pose proof (dread_range l Hl) as D2.
  assert (Ln : 0 < len l) by (destruct l; [contradiction|cbn; lia]).
  destruct Hd as [(-> & -> & ->)|(Hk0 & E5 & Lc & Nc & Ed & Hd)].
  { unfold delta'. replace (Decimal.prefixIsLessThan l []) with false by (destruct l; reflexivity). rewrite !Z.add_0_r. change (2 ^ 0) with 1. lia. }
  pose proof (prefix_spec cut l Hc Hl Tc Nc) as PS.
  pose proof (dread_lead cut Hc Lc Nc) as C1. pose proof (dread_range cut Hc) as C2. rewrite E5 in *.
  assert (Lcn : 0 < len cut) by (destruct cut; [contradiction|cbn; lia]).
  assert (P5 : 0 < 5 ^ k) by (apply Z.pow_pos_nonneg; lia). assert (P2 : 0 < 2 ^ k) by (apply Z.pow_pos_nonneg; lia).
  assert (E10 : 10 ^ k = 5 ^ k * 2 ^ k) by (rewrite <- Z.pow_mul_l; reflexivity).
  (* multiply everything by 5^k *)
  assert (Up : dread l * 10 ^ k < 10 ^ (len l + delta) * 5 ^ k).
  { apply Z.lt_le_trans with (10 ^ len l * 10 ^ k).
    - apply Z.mul_lt_mono_pos_r; [apply pow10_pos; lia|lia].
    - rewrite <- Z.pow_add_r by lia. replace (len l + k) with (len l + delta + (len cut - 1)) by lia. rewrite Z.pow_add_r by lia.
      apply Z.mul_le_mono_nonneg_l; [apply Z.lt_le_incl, pow10_pos; lia|]. lia. }
  destruct (Decimal.prefixIsLessThan l cut) eqn:EP.
  - assert (L : dread l * 10 ^ len cut < 5 ^ k * 10 ^ len l) by (apply PS; reflexivity).
    unfold delta'. split; [lia|]. split.
    + (* 10^(L+delta-2) <= D 2^k *)
      apply Z.mul_le_mono_pos_r with (5 ^ k); [lia|]. replace (dread l * 2 ^ k * 5 ^ k) with (dread l * 10 ^ k) by (rewrite E10; ring).
      apply Z.le_trans with (10 ^ (len l - 1) * 10 ^ k); [|apply Z.mul_le_mono_nonneg_r; [apply Z.lt_le_incl, pow10_pos; lia|lia]].
      apply Z.le_trans with (10 ^ (len l + (delta - 1) - 1) * 10 ^ len cut); [apply Z.mul_le_mono_nonneg_l; [apply Z.pow_nonneg; lia|lia]|].
      rewrite <- !Z.pow_add_r by lia. apply Z.pow_le_mono_r; lia.
    + apply Z.mul_lt_mono_pos_r with (5 ^ k); [lia|]. replace (dread l * 2 ^ k * 5 ^ k) with (dread l * 10 ^ k) by (rewrite E10; ring).
      apply Z.mul_lt_mono_pos_r with (10 ^ len cut); [apply pow10_pos; lia|].
      replace (dread l * 10 ^ k * 10 ^ len cut) with (dread l * 10 ^ len cut * 10 ^ k) by ring.
      apply Z.lt_le_trans with (5 ^ k * 10 ^ len l * 10 ^ k); [apply Z.mul_lt_mono_pos_r; [apply pow10_pos; lia|exact L]|].
      replace (10 ^ (len l + (delta - 1)) * 5 ^ k * 10 ^ len cut) with (5 ^ k * (10 ^ (len l + (delta - 1)) * 10 ^ len cut)) by ring.
      rewrite <- Z.pow_add_r, <- Z.mul_assoc, <- Z.pow_add_r by lia. replace (len l + (delta - 1) + len cut) with (len l + k) by lia. lia.
  - assert (L : 5 ^ k * 10 ^ len l <= dread l * 10 ^ len cut).
    { destruct (Z_lt_ge_dec (dread l * 10 ^ len cut) (5 ^ k * 10 ^ len l)) as [G|G]; [|lia]. apply PS in G. discriminate. }
    unfold delta'. split; [lia|]. split.
    + apply Z.mul_le_mono_pos_r with (5 ^ k); [lia|]. replace (dread l * 2 ^ k * 5 ^ k) with (dread l * 10 ^ k) by (rewrite E10; ring).
      apply Z.mul_le_mono_pos_r with (10 ^ len cut); [apply pow10_pos; lia|].
      replace (dread l * 10 ^ k * 10 ^ len cut) with (dread l * 10 ^ len cut * 10 ^ k) by ring.
      apply Z.le_trans with (5 ^ k * 10 ^ len l * 10 ^ k); [|apply Z.mul_le_mono_nonneg_r; [apply Z.pow_nonneg; lia|exact L]].
      replace (10 ^ (len l + delta - 1) * 5 ^ k * 10 ^ len cut) with (5 ^ k * (10 ^ (len l + delta - 1) * 10 ^ len cut)) by ring.
      rewrite <- Z.pow_add_r, <- Z.mul_assoc, <- Z.pow_add_r by lia. replace (len l + delta - 1 + len cut) with (len l + k) by lia. lia.
    + apply Z.mul_lt_mono_pos_r with (5 ^ k); [lia|]. replace (dread l * 2 ^ k * 5 ^ k) with (dread l * 10 ^ k) by (rewrite E10; ring). exact Up.
Qed.

(** The state of the array when the digits [P] have been put down to the right of [wi]. *)
Definition kept (wi : Z) (P : list Z) : list Z := firstn (Z.to_nat (800 - wi)) P.
Definition lost (wi : Z) (P : list Z) (tr : bool) : bool := tr || existsb pos_digit (skipn (Z.to_nat (800 - wi)) P).

Lemma ls_put_ok wi rem P tr : 1 <= wi -> 0 <= rem <= 9 ->
  Decimal.ls_put wi rem (kept wi P) (lost wi P tr) = Ret (wi - 1, kept (wi - 1) (rem :: P), lost (wi - 1) (rem :: P) tr).
Proof.
  intros Hw Hr. unfold Decimal.ls_put, Decimal.maxDigits, kept, lost. destruct (Z.ltb_spec (wi - 1) 800) as [L|L].
  - destruct (Z.ltb_spec (wi - 1) 0); [lia|].
    replace (Z.to_nat (800 - (wi - 1))) with (S (Z.to_nat (800 - wi))) by lia. reflexivity.
  - replace (Z.to_nat (800 - wi)) with O by lia. replace (Z.to_nat (800 - (wi - 1))) with O by lia. cbn [firstn skipn existsb].
    f_equal. f_equal. unfold pos_digit at 2.
    replace (negb (rem =? 0)) with (0 <? rem). { rewrite <- orb_assoc. f_equal. apply orb_comm. }
    destruct (Z.eqb_spec rem 0); destruct (Z.ltb_spec 0 rem); cbn; lia.
Qed.

Lemma div10_rem n : 0 <= n -> 0 <= n - 10 * (n / 10) <= 9.
Proof. intros. pose proof (Z.div_mod n 10 ltac:(lia)). pose proof (Z.mod_pos_bound n 10 ltac:(lia)). lia. Qed.

Lemma ls_digits_ok w k : 0 <= k <= w - 4 -> forall l n wi P tr, 0 <= n < 2 ^ k -> digits_ok l -> len l <= wi ->
  exists n' Q, Decimal.ls_digits w k l n wi (kept wi P) (lost wi P tr) =
      Ret (n', wi - len l, kept (wi - len l) (Q ++ P), lost (wi - len l) (Q ++ P) tr) /\
    0 <= n' < 2 ^ k /\ digits_ok Q /\ length Q = length l /\ n' * 10 ^ len l + dread Q = n + dread (rev l) * 2 ^ k.
Proof.
  intros Hk. assert (P2 : 0 < 2 ^ k) by (apply Z.pow_pos_nonneg; lia).
  assert (Pw : 16 * 2 ^ k <= 2 ^ w).
  { change 16 with (2 ^ 4). rewrite <- Z.pow_add_r by lia. apply Z.pow_le_mono_r; lia. }
  induction l as [|c l IH]; intros n wi P tr Hn Hl Hw; cbn [Decimal.ls_digits].
  - exists n, []. cbn [length rev app]. rewrite Z.sub_0_r. change (dread []) with 0. change (10 ^ Z.of_nat 0) with 1.
    split; [reflexivity|]. split; [lia|]. split; [constructor|]. split; [reflexivity|lia].
  - inversion Hl as [|? ? Hc Hl']; subst. cbn [length] in Hw. rewrite Nat2Z.inj_succ in Hw.
    rewrite Z.shiftl_mul_pow2 by lia. rewrite Z.mod_small by nia. set (n1 := n + c * 2 ^ k).
    assert (H1 : 0 <= n1 < 10 * 2 ^ k) by (unfold n1; nia).
    rewrite ls_put_ok by (try lia; apply div10_rem; lia). cbn [bind].
    destruct (IH (n1 / 10) (wi - 1) (n1 - 10 * (n1 / 10) :: P) tr) as (n' & Q & E & I1 & I2 & I3 & I4).
    { split; [apply Z.div_pos; lia|apply Z.div_lt_upper_bound; lia]. } { exact Hl'. } { lia. }
    exists n', (Q ++ [n1 - 10 * (n1 / 10)]). cbn [length rev]. rewrite Nat2Z.inj_succ.
    split. { rewrite E. rewrite <- app_assoc. cbn [app]. replace (wi - 1 - len l) with (wi - Z.succ (len l)) by lia. reflexivity. }
    split; [exact I1|]. split. { apply digits_ok_app. split; [exact I2|]. constructor; [apply div10_rem; lia|constructor]. }
    split. { rewrite app_length. cbn. lia. }
    rewrite !dread_snoc, Z.pow_succ_r by lia.
    transitivity (10 * (n' * 10 ^ len l + dread Q) + (n1 - 10 * (n1 / 10))); [ring|]. rewrite I4. unfold n1. ring.
Qed.

Lemma ls_extra_ok fuel : forall n wi P tr, 0 <= wi <= Z.of_nat fuel -> (n = 0 /\ wi = 0 \/ 1 <= wi /\ 10 ^ (wi - 1) <= n < 10 ^ wi) ->
  exists Q, Decimal.ls_extra fuel n wi (kept wi P) (lost wi P tr) = Ret (0, kept 0 (Q ++ P), lost 0 (Q ++ P) tr) /\
    digits_ok Q /\ len Q = wi /\ dread Q = n.
Proof.
  induction fuel as [|fuel IH]; intros n wi P tr Hw Hn.
  - assert (n = 0 /\ wi = 0) as [-> ->] by lia. exists []. cbn. repeat split; constructor.
  - cbn [Decimal.ls_extra]. destruct (Z.leb_spec n 0) as [L|L].
    + assert (n = 0 /\ wi = 0) as [-> ->]. { destruct Hn as [?|(? & ? & ?)]; [assumption|]. pose proof (pow10_pos (wi - 1) ltac:(lia)). lia. }
      exists []. cbn. repeat split; constructor.
    + destruct Hn as [?|(W & Hn)]; [lia|]. rewrite ls_put_ok by (try lia; apply div10_rem; lia). cbn [bind].
      destruct (IH (n / 10) (wi - 1) (n - 10 * (n / 10) :: P) tr) as (Q & E & I1 & I2 & I3).
      { lia. }
      { destruct (Z.eq_dec wi 1) as [->|].
        - left. split; [|lia]. apply Z.div_small. change (10 ^ 1) with 10 in Hn. lia.
        - right. split; [lia|]. split.
          + apply Z.div_le_lower_bound; [lia|]. rewrite <- Z.pow_succ_r by lia. replace (Z.succ (wi - 1 - 1)) with (wi - 1) by lia. lia.
          + apply Z.div_lt_upper_bound; [lia|]. rewrite <- Z.pow_succ_r by lia. replace (Z.succ (wi - 1)) with wi by lia. lia. }
      exists (Q ++ [n - 10 * (n / 10)]). split; [rewrite E, <- app_assoc; reflexivity|].
      split. { apply digits_ok_app. split; [exact I1|]. constructor; [apply div10_rem; lia|constructor]. }
      split. { rewrite app_length. cbn [length]. lia. } rewrite dread_snoc, I3. lia.
Qed.

Lemma leftShift_ok w a k : 0 <= k <= w - 4 -> k <= 60 -> dnorm a -> d a <> [] ->
  exists full p, Decimal.leftShift w a k = Ret (capped full p (trunc a)) /\
    digits_ok full /\ no_lead0 full /\ full <> [] /\ lval full p = (dval a * p2 k)%R.
Proof.
  intros Hk Hk60 Ha Nd. assert (P2 : 0 < 2 ^ k) by (apply Z.pow_pos_nonneg; lia).
  pose proof Ha as (Hd & Hl & Ht & Hlen & _). unfold Decimal.leftShift.
  destruct (leftcheats_ok k ltac:(lia)) as (delta & cut & -> & C1 & C2 & C3).
  destruct (ls_count (d a) k delta cut ltac:(lia) Hd Hl Nd C1 C2 C3) as [N1 N2].
  set (delta' := if Decimal.prefixIsLessThan (d a) cut then delta - 1 else delta) in *. clearbody delta'.
  unfold nd. set (L := len (d a)) in *. assert (L1 : 0 < L) by (unfold L; destruct (d a); [contradiction|cbn; lia]).
  destruct (ls_digits_ok w k Hk (rev (d a)) 0 (L + delta') [] (trunc a) ltac:(lia) (digits_ok_rev _ Hd)) as (n' & Q & E & I1 & I2 & I3 & I4).
  { rewrite rev_length. fold L. lia. }
  rewrite rev_length in I3, I4, E. rewrite rev_involutive in I4. fold L in I4, E.
  replace (kept (L + delta') []) with (@nil Z) in E by (unfold kept; rewrite firstn_nil; reflexivity).
  replace (lost (L + delta') [] (trunc a)) with (trunc a) in E by (unfold lost; rewrite skipn_nil; cbn; rewrite orb_false_r; reflexivity).
  rewrite E. clear E. cbn [bind]. replace (L + delta' - L) with delta' by lia.
  assert (LQ : len Q = L) by (unfold L; lia).
  rewrite Z.add_0_l in I4. pose proof (dread_range Q I2) as RQ. rewrite LQ in RQ.
  destruct (ls_extra_ok 64 n' delta' (Q ++ []) (trunc a) ltac:(lia)) as (Q2 & -> & J1 & J2 & J3).
  { pose proof (pow10_pos L ltac:(lia)). destruct (Z.eq_dec delta' 0) as [->|].
    - left. split; [|reflexivity]. rewrite Z.add_0_r in N2. rewrite <- I4 in N2. nia.
    - right. split; [lia|]. rewrite <- I4 in N2. rewrite (Z.pow_add_r 10 L) in N2 by lia.
      replace (L + delta' - 1) with (L + (delta' - 1)) in N2 by lia. rewrite Z.pow_add_r in N2 by lia.
      set (X := 10 ^ L) in *. split.
      + apply Z.lt_succ_r. unfold Z.succ. apply Z.mul_lt_mono_pos_l with X; [lia|]. nia.
      + apply Z.mul_lt_mono_pos_l with X; [lia|]. nia. }
  cbn [bind]. rewrite app_nil_r. change (Z.to_nat 0) with O. cbn [firstn app].
  set (full := Q2 ++ Q). assert (Lf : len full = L + delta') by (unfold full; rewrite app_length; lia).
  assert (Df : dread full = dread (d a) * 2 ^ k) by (unfold full; rewrite dread_app, LQ, J3; exact I4).
  assert (Hf : digits_ok full) by (apply digits_ok_app; auto).
  exists full, (dp a + delta'). split.
  { unfold capped, kept, lost. change (Z.to_nat (800 - 0)) with 800%nat. do 2 f_equal.
    rewrite firstn_firstn. rewrite <- Lf. unfold Decimal.maxDigits.
    destruct (Z_le_gt_dec (len full) 800).
    - rewrite Z.min_l by lia. rewrite Nat2Z.id. rewrite Nat.min_l by lia. rewrite firstn_all. symmetry. rewrite firstn_all2 by lia. reflexivity.
    - rewrite Z.min_r by lia. reflexivity. }
  split; [exact Hf|].
  assert (Nf : full <> []) by (intros E; rewrite E in Lf; cbn in Lf; lia).
  split; [|split; [exact Nf|]].
  - unfold no_lead0. destruct full as [|c t]; [contradiction|]. cbn [hd]. intros ->.
    apply Forall_inv_tail in Hf. rename Hf into Ht'. pose proof (dread_range t Ht'). rewrite dread_cons in Df. cbn [length] in Lf.
    replace (L + delta' - 1) with (len t) in N2 by lia. lia.
  - unfold dval, lval. rewrite Lf, Df, mult_IZR, IZR_pow2 by lia. fold L. replace (dp a + delta' - (L + delta')) with (dp a - L) by lia. ring.
Qed.
