(** ftoa.go, roundShortest: the shortest decimal that reads back. *)
From Coq Require Import ZArith Reals String List Bool Lia Lra.
From Flocq Require Import Core.
From Verif Require Import GoBase Spec SpecText SpecDec SpecFtoa SpecFmt BitFacts RoundFacts DecFacts DecFacts2 ClaimsDec.
From Verif Require Import ExtFacts ExtFixed FloatMid ExtBounds ClaimsExt FtoaText FtoaFixed.
From Verif Require Import ExtFloat Ftoa.
From Verif Require Decimal.
Import ListNotations.
Import Decimal (d, dp, trunc, nd, mkDec).
Open Scope Z_scope.

(** * The first digits of a decimal *)
Fixpoint pre (n : nat) (l : list Z) : Z := match n with O => 0 | S n => 10 * pre n l + nth n l 0 end.

Lemma firstn_snoc n (l : list Z) x : (n < length l)%nat -> firstn (S n) l = firstn n l ++ [nth n l x].
Proof.
  revert l. induction n as [|n IH]; intros [|c t] H; cbn [length] in H; try lia; [reflexivity|].
  cbn [nth]. change (firstn (S (S n)) (c :: t)) with (c :: firstn (S n) t). rewrite IH by lia. reflexivity.
Qed.

Lemma pre_firstn n l : (n <= length l)%nat -> pre n l = dread (firstn n l).
Proof.
  induction n as [|n IH]; intros H; cbn [pre]; [reflexivity|]. rewrite IH by lia.
  rewrite (firstn_snoc n l 0) by lia. rewrite dread_snoc. lia.
Qed.

Lemma pre_ge n l : (length l <= n)%nat -> pre n l = dread l * 10 ^ (Z.of_nat n - len l).
Proof.
  induction n as [|n IH]; intros H; cbn [pre].
  - destruct l; [reflexivity|cbn in H; lia].
  - destruct (Nat.eq_dec (length l) (S n)) as [E|N].
    + rewrite E, Z.sub_diag, Z.mul_1_r. change (10 * pre n l + nth n l 0) with (pre (S n) l). rewrite pre_firstn by lia. rewrite <- E, firstn_all. reflexivity.
    + rewrite IH by lia. rewrite nth_overflow by lia. replace (Z.of_nat (S n) - len l) with (Z.of_nat n - len l + 1) by lia. rewrite Z.pow_add_r by lia. lia.
Qed.

Lemma pre_val n l p : digits_ok l -> no_trail0 l ->
  (IZR (pre n l) * p10 (p - Z.of_nat n) <= lval l p < IZR (pre n l + 1) * p10 (p - Z.of_nat n))%R /\
  ((length l <= n)%nat -> lval l p = (IZR (pre n l) * p10 (p - Z.of_nat n))%R) /\
  ((n < length l)%nat -> (IZR (pre n l) * p10 (p - Z.of_nat n) < lval l p)%R).
Proof.
  intros Hd Ht. destruct (le_lt_dec (length l) n) as [L|L].
  - assert (E : lval l p = (IZR (pre n l) * p10 (p - Z.of_nat n))%R).
    { rewrite pre_ge by exact L. rewrite scale10 by lia. unfold lval. do 2 f_equal. lia. }
    rewrite plus_IZR. pose proof (p10_pos (p - Z.of_nat n)). split; [split; lra|]. split; [auto|lia].
  - rewrite pre_firstn by lia. set (s := firstn n l). set (t := skipn n l).
    assert (El : l = s ++ t) by (symmetry; apply firstn_skipn).
    assert (Ls : length s = n) by (apply firstn_length_le; lia).
    assert (Lt : length t = (length l - n)%nat) by apply skipn_length.
    assert (Ot : digits_ok t) by (apply digits_ok_skipn; exact Hd).
    assert (Pt : 0 < dread t).
    { destruct (dread_range t Ot) as [R _]. destruct (Z.eq_dec (dread t) 0) as [Z0|]; [exfalso|lia].
      destruct t as [|c t'] eqn:Et; [cbn in Lt; lia|]. rewrite <- Et in *.
      assert (t = repeat 0 (length t)) by (apply dread_inj; [exact Ot|apply digits_ok_zeros|rewrite repeat_length; reflexivity|rewrite dread_zeros; exact Z0]).
      apply Ht. rewrite El, H. destruct (length t) as [|k] eqn:Ek; [lia|]. cbn [repeat]. rewrite repeat_cons, app_assoc. apply last_last. }
    destruct (dread_range t Ot) as [_ R]. rewrite El, lval_app, Ls.
    assert (V : lval s p = (IZR (dread s) * p10 (p - Z.of_nat n))%R) by (unfold lval; rewrite Ls; reflexivity). rewrite V.
    assert (B : (0 < IZR (dread t) * p10 (p - Z.of_nat n - len t) < p10 (p - Z.of_nat n))%R).
    { split; [apply Rmult_lt_0_compat; [apply IZR_lt; lia|apply p10_pos]|].
      replace (p10 (p - Z.of_nat n)) with (p10 (len t) * p10 (p - Z.of_nat n - len t))%R by (rewrite <- p10_plus; f_equal; lia).
      apply Rmult_lt_compat_r; [apply p10_pos|]. rewrite <- IZR_p10 by lia. apply IZR_lt. exact R. }
    rewrite plus_IZR. split; [split; lra|]. split; [rewrite app_length; lia|intros _; lra].
Qed.

Lemma pre_ext n l l' : (forall j, (j < n)%nat -> nth j l 0 = nth j l' 0) -> pre n l = pre n l'.
Proof. induction n as [|n IH]; intros H; cbn [pre]; [reflexivity|]. rewrite IH by (intros; apply H; lia). rewrite H by lia. reflexivity. Qed.

(** * Digits *)
Lemma nth_digit a i : dnorm a -> 0 <= nth i (d a) 0 <= 9.
Proof.
  intros (H & _). destruct (le_lt_dec (length (d a)) i); [rewrite nth_overflow by assumption; lia|].
  unfold digits_ok in H. rewrite Forall_forall in H. apply H, nth_In. assumption.
Qed.
Lemma nth_lead a : dnorm a -> d a <> [] -> 1 <= nth 0 (d a) 0.
Proof.
  intros H N. pose proof (nth_digit a 0 H). destruct H as (_ & H & _). unfold no_lead0 in H. destruct (d a) as [|c t]; [contradiction|]. cbn in *. lia.
Qed.
Lemma val_pre a n : dnorm a ->
  (IZR (pre n (d a)) * p10 (dp a - Z.of_nat n) <= dval a < IZR (pre n (d a) + 1) * p10 (dp a - Z.of_nat n))%R /\
  ((length (d a) <= n)%nat -> dval a = (IZR (pre n (d a)) * p10 (dp a - Z.of_nat n))%R) /\
  ((n < length (d a))%nat -> (IZR (pre n (d a)) * p10 (dp a - Z.of_nat n) < dval a)%R).
Proof. intros (H1 & _ & H2 & _). apply pre_val; assumption. Qed.
Lemma pre_S i l : pre (S i) l = 10 * pre i l + nth i l 0.
Proof. reflexivity. Qed.
Lemma RoundDown_len a n : 0 <= n -> len (d (Decimal.RoundDown a n)) <= n.
Proof.
  intros H. unfold Decimal.RoundDown, Decimal.nd. destruct (Z.ltb_spec n 0); [lia|]. destruct (Z.leb_spec (len (d a)) n) as [|_]; cbn [orb]; [lia|].
  unfold Decimal.trim. cbn [d]. pose proof (strip_length (firstn (Z.to_nat n) (d a))) as S. rewrite firstn_length in S. lia.
Qed.
Lemma RoundUp_len a n : 1 <= n -> len (d (Decimal.RoundUp a n)) <= n.
Proof.
  intros H. unfold Decimal.RoundUp, Decimal.nd. destruct (Z.ltb_spec n 0); [lia|]. destruct (Z.leb_spec (len (d a)) n) as [|_]; cbn [orb]; [lia|].
  destruct (Decimal.round_up_rev (rev (firstn (Z.to_nat n) (d a)))) as [r|] eqn:E; cbn [d length]; [|lia].
  apply round_up_rev_length in E. rewrite rev_length in E |- *. rewrite firstn_length in E. lia.
Qed.
Lemma Round_either a n : Decimal.Round a n = Decimal.RoundDown a n \/ Decimal.Round a n = Decimal.RoundUp a n.
Proof.
  unfold Decimal.Round. destruct ((n <? 0) || (nd a <=? n)) eqn:C.
  - left. unfold Decimal.RoundDown. rewrite C. reflexivity.
  - destruct (Decimal.shouldRoundUp a n); auto.
Qed.
Lemma dig_at a i : (if Z.of_nat i <? nd a then Decimal.dig a (Z.of_nat i) else 0) = nth i (d a) 0.
Proof. unfold Decimal.dig, nd. rewrite Nat2Z.id. destruct (Z.ltb_spec (Z.of_nat i) (len (d a))); [reflexivity|]. symmetry. apply nth_overflow. lia. Qed.
Lemma sig_mono n n' z : n <= n' -> sig_digits n z -> sig_digits n' z.
Proof. intros H (M & e & E & HM). exists M, e. split; [exact E|]. apply Z.lt_le_trans with (1 := HM). apply Z.pow_le_mono_r; lia. Qed.

(** * The position of the last digit *)
Lemma unit_ge l p N k : digits_ok l -> no_trail0 l -> l <> [] -> lval l p = (IZR N * p10 k)%R -> k <= p - len l.
Proof.
  intros H1 H2 H3 E. destruct (Z_le_gt_dec k (p - len l)) as [|G]; [assumption|exfalso].
  apply (no_trail0_mod l H1 H2 H3). unfold lval in E. replace k with (k - (p - len l) + (p - len l)) in E by lia.
  rewrite p10_plus, <- Rmult_assoc in E. apply Rmult_eq_reg_r in E; [|pose proof (p10_pos (p - len l)); lra].
  rewrite <- IZR_p10, <- mult_IZR in E by lia. apply eq_IZR in E. rewrite E.
  replace (k - (p - len l)) with (k - (p - len l) - 1 + 1) by lia. rewrite Z.pow_add_r by lia. rewrite Z.mul_assoc. apply Z.mod_mul. lia.
Qed.

Lemma unit_le N k M j : N mod 10 <> 0 -> (IZR N * p10 k = IZR M * p10 j)%R -> j <= k.
Proof.
  intros H E. destruct (Z_le_gt_dec j k) as [|G]; [assumption|exfalso]. apply H.
  replace j with (j - k + k) in E by lia. rewrite p10_plus, <- Rmult_assoc in E. apply Rmult_eq_reg_r in E; [|pose proof (p10_pos k); lra].
  rewrite <- IZR_p10, <- mult_IZR in E by lia. apply eq_IZR in E. rewrite E.
  replace (j - k) with (j - k - 1 + 1) by lia. rewrite Z.pow_add_r by lia. rewrite Z.mul_assoc. apply Z.mod_mul. lia.
Qed.

(** Less than a unit of the last digit away. *)
Definition near (v : R) (l : list Z) (p : Z) : Prop := (Rabs (lval l p - v) < p10 (p - len l))%R.

Lemma near_last v l p : near v l p -> last_digit_ok v (lval l p).
Proof.
  intros H N k E M. apply Rlt_le_trans with (1 := H). apply p10_le. apply (unit_le N k (dread l)); [exact M|]. rewrite <- E. reflexivity.
Qed.

Lemma near_floor v l p k : digits_ok l -> no_trail0 l -> l <> [] -> lval l p = floor10 k v -> near v l p.
Proof.
  intros H1 H2 H3 E. unfold near. apply Rlt_le_trans with (p10 k); [|apply p10_le; apply (unit_ge l p (Zfloor (v * p10 (- k)))); assumption].
  rewrite E. unfold floor10. pose proof (p10_pos k) as Pk. pose proof (p10_opp k) as O.
  pose proof (Zfloor_lb (v * p10 (- k))) as L. pose proof (Zfloor_ub (v * p10 (- k))) as U. set (z := IZR (Zfloor (v * p10 (- k)))) in *.
  assert (Ev : v = (v * p10 (- k) * p10 k)%R) by (rewrite Rmult_assoc, (Rmult_comm (p10 (- k))), O; ring).
  set (y := (v * p10 (- k))%R) in *. rewrite Ev. apply Rabs_def1; nra.
Qed.

Lemma near_ceil v l p k : digits_ok l -> no_trail0 l -> l <> [] -> lval l p = ceil10 k v -> near v l p.
Proof.
  intros H1 H2 H3 E. unfold near. apply Rlt_le_trans with (p10 k); [|apply p10_le; apply (unit_ge l p (Zceil (v * p10 (- k)))); assumption].
  rewrite E. unfold ceil10. pose proof (p10_pos k) as Pk. pose proof (p10_opp k) as O.
  pose proof (Zceil_ub (v * p10 (- k))) as L. pose proof (Zceil_lb (v * p10 (- k))) as U. set (z := IZR (Zceil (v * p10 (- k)))) in *.
  assert (Ev : v = (v * p10 (- k) * p10 k)%R) by (rewrite Rmult_assoc, (Rmult_comm (p10 (- k))), O; ring).
  set (y := (v * p10 (- k))%R) in *. rewrite Ev. apply Rabs_def1; nra.
Qed.

(** * The loop *)
Section Loop.
Variables (D L U : Decimal.decimal) (inc : bool) (lo v hi : R).
Hypothesis HD : dnorm D.
Hypothesis HL : dnorm L.
Hypothesis HU : dnorm U.
Hypothesis TD : trunc D = false.
Hypothesis VD : dval D = v.
Hypothesis VL : dval L = lo.
Hypothesis VU : dval U = hi.
Hypothesis Hlo : (v / 2 <= lo < v)%R.
Hypothesis Hhi : (v < hi <= 3 / 2 * v)%R.
Hypothesis Hsym : inc = false -> (hi - v = v - lo)%R.

(** Inside the interval. *)
Definition inside (x : R) : Prop := (lo <= x <= hi)%R /\ ((lo < x < hi)%R \/ inc = true).

Lemma inside_v : inside v.
Proof. split; [lra|left; lra]. Qed.

Lemma inside_between x y z : inside x -> inside z -> (x <= y <= z)%R -> inside y.
Proof. intros [A1 A2] [B1 B2] H. split; [lra|]. destruct A2 as [A2|]; [|auto]. destruct B2 as [B2|]; [|auto]. left; lra. Qed.

Let P := dp D.

Lemma v_pos : (0 < v)%R.
Proof. lra. Qed.
Lemma D_ne : d D <> [].
Proof. intros E. pose proof v_pos. rewrite <- VD, (dval_nil D E) in H. lra. Qed.
Lemma L_ne : d L <> [].
Proof. intros E. pose proof v_pos. assert (lo = 0)%R by (rewrite <- VL; apply dval_nil, E). lra. Qed.
Lemma U_ne : d U <> [].
Proof. intros E. pose proof v_pos. assert (hi = 0)%R by (rewrite <- VU; apply dval_nil, E). lra. Qed.

Lemma D_range : (p10 (P - 1) <= v < p10 P)%R.
Proof. rewrite <- VD. apply dval_pos; [exact HD|exact D_ne]. Qed.
Lemma L_range : (p10 (dp L - 1) <= lo < p10 (dp L))%R.
Proof. rewrite <- VL. apply dval_pos; [exact HL|exact L_ne]. Qed.
Lemma U_range : (p10 (dp U - 1) <= hi < p10 (dp U))%R.
Proof. rewrite <- VU. apply dval_pos; [exact HU|exact U_ne]. Qed.

Lemma dpL : dp L <= P.
Proof. pose proof D_range. pose proof L_range. assert (dp L - 1 < P) by (apply p10_lt_inv; lra). lia. Qed.
Lemma dpU : P <= dp U.
Proof. pose proof D_range. pose proof U_range. assert (P - 1 < dp U) by (apply p10_lt_inv; lra). lia. Qed.

Definition m_ (i : nat) : Z := nth i (d D) 0.
Definition l_ (i : nat) : Z := nth i (d L) 0.
Definition u_ (i : nat) : Z := nth i (d U) 0.



(** Rounding down and up at digit [n]. *)
Definition down (n : nat) : R := (IZR (pre n (d D)) * p10 (P - Z.of_nat n))%R.
Definition up (n : nat) : R := (IZR (pre n (d D) + 1) * p10 (P - Z.of_nat n))%R.

Lemma down_up n : (down n <= v < up n)%R.
Proof. rewrite <- VD. apply (val_pre D n HD). Qed.

(** What is known before digit [i]. *)
Definition inv (i : nat) : Prop :=
  (forall j, (j < i)%nat -> l_ j = m_ j) /\ ((0 < i)%nat -> dp L = P) /\
  (inc = true -> (0 < i)%nat -> (i < length (d L))%nat) /\
  (dp U = P /\ (forall j, (j < i)%nat -> u_ j = m_ j) \/
   P < dp U /\ i = 0%nat \/
   inc = false /\ (length (d U) <= i)%nat /\ exists k, hi = (IZR k * p10 (P - Z.of_nat i))%R).

Lemma inv_0 : inv 0.
Proof.
  split; [intros; lia|]. split; [intros; lia|]. split; [intros; lia|]. pose proof dpU. destruct (Z.eq_dec (dp U) P); [left; split; [assumption|intros; lia]|right; left; lia].
Qed.

(** Neither neighbour at the digits seen is inside. *)
Lemma inv_none i : (0 < i)%nat -> inv i -> ~ inside (down i) /\ ~ inside (up i).
Proof.
  intros Hi (I1 & I2 & I3 & I4). specialize (I2 Hi).
  assert (EL : pre i (d L) = pre i (d D)) by (apply pre_ext; exact I1).
  pose proof (val_pre L i HL) as (L1 & _ & L3). rewrite EL, I2, VL in L1, L3. fold (down i) in L1, L3. fold (up i) in L1.
  pose proof (down_up i) as DU. split.
  - intros [[A _] [B|B]]; [lra|]. specialize (I3 B Hi). specialize (L3 I3). lra.
  - destruct I4 as [[U1 U2]|[[_ U2]|(U1 & _ & k & U3)]]; [|lia|].
    + assert (EU : pre i (d U) = pre i (d D)) by (apply pre_ext; exact U2).
      pose proof (val_pre U i HU) as (U3 & _). rewrite EU, U1, VU in U3. fold (up i) in U3. intros [[_ A] _]. lra.
    + intros [_ [A|A]]; [|congruence]. specialize (Hsym U1).
      assert (K : (pre i (d D) + 2 <= k)).
      { pose proof (p10_pos (P - Z.of_nat i)) as Pp. destruct A as [_ A]. unfold up in A. rewrite U3 in A. apply Rmult_lt_reg_r in A; [|exact Pp]. apply lt_IZR in A. lia. }
      apply IZR_le in K. apply Rmult_le_compat_r with (r := p10 (P - Z.of_nat i)) in K; [|apply Rlt_le, p10_pos]. rewrite <- U3 in K.
      unfold up, down in *. rewrite plus_IZR in *. lra.
Qed.


Lemma shift10 z i : (IZR z * p10 (P - Z.of_nat i) = IZR (10 * z) * p10 (P - Z.of_nat (S i)))%R.
Proof.
  replace (P - Z.of_nat i) with (P - Z.of_nat (S i) + 1) by lia. rewrite p10_plus, mult_IZR. change (p10 1) with 10%R. ring.
Qed.

(** Rounding down is right when the loop says so. *)
Lemma okdown_ok i : inv i -> l_ i <> m_ i \/ inc = true /\ (S i = length (d L))%nat -> inside (down (S i)).
Proof.
  intros (I1 & I2 & I3 & _) H. pose proof (down_up (S i)) as DU.
  assert (down (S i) <= v)%R by lra. pose proof dpL as HPL.
  destruct (Z_lt_ge_dec (dp L) P) as [LP|LP].
  - assert (lo < down (S i))%R; [|split; [|left]; lra].
    apply Rlt_le_trans with (p10 (P - 1)); [apply Rlt_le_trans with (p10 (dp L)); [apply L_range|apply p10_le; lia]|].
    unfold down. replace (p10 (P - 1)) with (IZR (10 ^ Z.of_nat i) * p10 (P - Z.of_nat (S i)))%R by (rewrite IZR_p10, <- p10_plus by lia; f_equal; lia).
    apply Rmult_le_compat_r; [apply Rlt_le, p10_pos|]. apply IZR_le. pose proof (nth_lead D HD D_ne) as M0. clear -HD M0.
    induction i as [|i IH]; [cbn [pre]; change (10 ^ Z.of_nat 0) with 1; lia|].
    rewrite pre_S. pose proof (nth_digit D (S i) HD). replace (Z.of_nat (S i)) with (Z.of_nat i + 1) by lia. rewrite Z.pow_add_r by lia. lia.
  - assert (EP : dp L = P) by lia.
    assert (EL : pre i (d L) = pre i (d D)) by (apply pre_ext; exact I1).
    pose proof (val_pre L (S i) HL) as (L1 & L2 & _). rewrite VL, EP, pre_S, EL in L1, L2. fold (l_ i) in L1, L2.
    pose proof (p10_pos (P - Z.of_nat (S i))) as Pp.
    assert (ML : l_ i <= m_ i).
    { pose proof (proj2 DU) as Q. unfold up in Q. rewrite pre_S in Q. fold (m_ i) in Q. assert (Q' : (IZR (10 * pre i (d D) + l_ i) * p10 (P - Z.of_nat (S i)) < IZR (10 * pre i (d D) + m_ i + 1) * p10 (P - Z.of_nat (S i)))%R) by lra.
      apply Rmult_lt_reg_r in Q'; [|exact Pp]. apply lt_IZR in Q'. lia. }
    destruct (Z.eq_dec (l_ i) (m_ i)) as [E|N].
    + destruct H as [H|[H1 H2]]; [contradiction|]. rewrite E in L2. specialize (L2 ltac:(lia)). fold (down (S i)) in L2.
      assert (lo = down (S i)) by (unfold down; rewrite pre_S; exact L2). split; [lra|right; exact H1].
    + assert (IZR (10 * pre i (d D) + l_ i + 1) * p10 (P - Z.of_nat (S i)) <= down (S i))%R.
      { unfold down. apply Rmult_le_compat_r; [lra|]. apply IZR_le. rewrite pre_S. fold (m_ i). lia. }
      split; [|left]; lra.
Qed.

(** Otherwise the digits agree. *)
Lemma okdown_no i : inv i -> (i < length (d D))%nat -> l_ i = m_ i -> ~ (inc = true /\ (S i = length (d L))%nat) ->
  dp L = P /\ (forall j, (j < S i)%nat -> l_ j = m_ j) /\ (inc = true -> (S i < length (d L))%nat).
Proof.
  intros (I1 & I2 & I3 & _) Hi E H. pose proof dpL as HPL.
  assert (EP : dp L = P).
  { destruct i as [|i]; [|apply I2; lia]. destruct (Z.eq_dec (dp L) P) as [|NP]; [assumption|exfalso].
    pose proof (val_pre L 1 HL) as ((_ & L1) & _). pose proof (down_up 1) as [D1 _]. unfold down in D1. rewrite VL in L1. cbn [pre] in L1, D1. fold (l_ 0) in L1. fold (m_ 0) in D1.
    change (10 * 0) with 0 in *. rewrite Z.add_0_l in *. rewrite E in L1. pose proof (nth_lead D HD D_ne) as M0. fold (m_ 0) in M0.
    assert (p10 (dp L - 1) <= p10 (P - 2))%R by (apply p10_le; lia).
    change (Z.of_nat 1) with 1 in *. replace (P - 1) with (P - 2 + 1) in D1 by lia. rewrite p10_plus in D1. change (p10 1) with 10%R in D1.
    pose proof (p10_pos (P - 2)). pose proof (p10_pos (dp L - 1)). rewrite plus_IZR in L1. apply IZR_le in M0. nra. }
  split; [exact EP|]. split.
  - intros j Hj. destruct (Nat.eq_dec j i) as [->|]; [exact E|apply I1; lia].
  - intros Hinc. assert (S i <> length (d L)) by (intros X; apply H; auto).
    destruct i as [|i]; [|specialize (I3 Hinc ltac:(lia)); lia]. pose proof L_ne. destruct (d L); [contradiction|cbn [length] in *; lia].
Qed.

(** Rounding up is right when the loop says so. *)
Lemma okup_ok i : inv i -> m_ i <> u_ i -> inc = true \/ m_ i + 1 < u_ i \/ (S i < length (d U))%nat -> inside (up (S i)).
Proof.
  intros (_ & _ & _ & I4) N H. pose proof (down_up (S i)) as DU. pose proof (p10_pos (P - Z.of_nat (S i))) as Pp.
  destruct I4 as [[U1 U2]|[[U1 U2]|(U1 & U2 & k & U3)]].
  - assert (EU : pre i (d U) = pre i (d D)) by (apply pre_ext; exact U2).
    pose proof (val_pre U (S i) HU) as (V1 & _ & V3). rewrite VU, U1, pre_S, EU in V1, V3. fold (u_ i) in V1, V3.
    assert (UM : m_ i < u_ i).
    { assert (Q : (down (S i) < IZR (10 * pre i (d D) + u_ i + 1) * p10 (P - Z.of_nat (S i)))%R) by lra. unfold down in Q. rewrite pre_S in Q. fold (m_ i) in Q.
      apply Rmult_lt_reg_r in Q; [|exact Pp]. apply lt_IZR in Q. lia. }
    assert (Up : (up (S i) <= IZR (10 * pre i (d D) + u_ i) * p10 (P - Z.of_nat (S i)))%R).
    { unfold up. apply Rmult_le_compat_r; [lra|]. apply IZR_le. rewrite pre_S. fold (m_ i). lia. }
    split; [lra|]. destruct H as [H|[H|H]]; [right; exact H|left; split; [lra|]|left; specialize (V3 H); lra].
    apply Rlt_le_trans with (IZR (10 * pre i (d D) + u_ i) * p10 (P - Z.of_nat (S i)))%R; [|lra].
    unfold up. apply Rmult_lt_compat_r; [exact Pp|]. apply IZR_lt. rewrite pre_S. fold (m_ i). lia.
  - subst i. change (Z.of_nat 1) with 1 in *. unfold up in *. rewrite pre_S in *. fold (m_ 0) in *. change (pre 0 (d D)) with 0 in *. change (Z.of_nat 1) with 1 in *.
    pose proof (nth_digit D 0 HD) as M9. fold (m_ 0) in M9.
    assert (Up : (IZR (10 * 0 + m_ 0 + 1) * p10 (P - 1) <= p10 P)%R).
    { replace P with (P - 1 + 1) at 2 by lia. rewrite p10_plus. change (p10 1) with 10%R. rewrite Rmult_comm. apply Rmult_le_compat_l; [lra|]. apply IZR_le. lia. }
    assert (HU1 : (p10 P <= p10 (dp U - 1))%R) by (apply p10_le; lia). pose proof U_range as [R1 _].
    split; [lra|]. destruct H as [H|[H|H]]; [right; exact H| |].
    + pose proof (val_pre U 1 HU) as ((V1 & _) & _). rewrite VU, pre_S in V1. fold (u_ 0) in V1. change (pre 0 (d U)) with 0 in V1. change (Z.of_nat 1) with 1 in V1.
      pose proof (nth_lead D HD D_ne) as M0. fold (m_ 0) in M0. assert (Q : 2 <= 10 * 0 + u_ 0) by lia. apply IZR_le in Q. pose proof (p10_pos (dp U - 1)). left. split; [lra|]. nra.
    + pose proof (val_pre U 1 HU) as (_ & _ & V3). rewrite VU, pre_S in V3. fold (u_ 0) in V3. change (pre 0 (d U)) with 0 in V3. change (Z.of_nat 1) with 1 in V3.
      specialize (V3 ltac:(lia)). pose proof (nth_lead U HU U_ne) as M0. fold (u_ 0) in M0. assert (Q : 1 <= 10 * 0 + u_ 0) by lia. apply IZR_le in Q. pose proof (p10_pos (dp U - 1)). left. split; [lra|]. nra.
  - exfalso. assert (Z0 : u_ i = 0) by (apply nth_overflow; exact U2). pose proof (nth_digit D i HD) as M9. fold (m_ i) in M9. destruct H as [H|[H|H]]; [congruence|lia|lia].
Qed.

Lemma okup_no i : inv i -> ~ (m_ i <> u_ i /\ (inc = true \/ m_ i + 1 < u_ i \/ (S i < length (d U))%nat)) ->
  dp U = P /\ (forall j, (j < S i)%nat -> u_ j = m_ j) \/
  inc = false /\ (length (d U) <= S i)%nat /\ exists k, hi = (IZR k * p10 (P - Z.of_nat (S i)))%R.
Proof.
  intros (_ & _ & _ & I4) H. pose proof (down_up (S i)) as DU. pose proof (p10_pos (P - Z.of_nat (S i))) as Pp.
  assert (C : m_ i = u_ i \/ m_ i <> u_ i /\ inc = false /\ u_ i <= m_ i + 1 /\ (length (d U) <= S i)%nat).
  { destruct (Z.eq_dec (m_ i) (u_ i)) as [|N]; [left; assumption|right]. split; [exact N|].
    destruct inc; [exfalso; apply H; auto|]. split; [reflexivity|].
    destruct (Z_lt_ge_dec (m_ i + 1) (u_ i)); [exfalso; apply H; auto|]. split; [lia|].
    destruct (le_lt_dec (length (d U)) (S i)); [assumption|exfalso; apply H; auto]. }
  destruct I4 as [[U1 U2]|[[U1 U2]|(U1 & U2 & k & U3)]].
  - destruct C as [C|(C1 & C2 & C3 & C4)].
    + left. split; [exact U1|]. intros j Hj. destruct (Nat.eq_dec j i) as [->|]; [auto|apply U2; lia].
    + right. split; [exact C2|]. split; [exact C4|]. exists (pre (S i) (d U)). pose proof (val_pre U (S i) HU) as (_ & V2 & _). rewrite <- VU, <- U1. apply V2. exact C4.
  - subst i. destruct C as [C|(C1 & C2 & C3 & C4)].
    + exfalso. pose proof (val_pre U 1 HU) as ((V1 & _) & _). rewrite VU, pre_S in V1. fold (u_ 0) in V1. change (pre 0 (d U)) with 0 in V1.
      unfold up in DU. rewrite pre_S in DU. fold (m_ 0) in DU. change (pre 0 (d D)) with 0 in DU. change (Z.of_nat 1) with 1 in *. rewrite C in DU.
      change (10 * 0) with 0 in *. rewrite Z.add_0_l in *. pose proof (nth_lead U HU U_ne) as M0. fold (u_ 0) in M0.
      assert (Q : (p10 P <= p10 (dp U - 1))%R) by (apply p10_le; lia). replace P with (P - 1 + 1) in Q by lia. rewrite p10_plus in Q. change (p10 1) with 10%R in Q.
      pose proof (p10_pos (P - 1)). rewrite plus_IZR in DU. apply IZR_le in M0. nra.
    + right. split; [exact C2|]. split; [exact C4|]. exists (pre 1 (d U) * 10 ^ (dp U - P)). pose proof (val_pre U 1 HU) as (_ & V2 & _).
      rewrite <- VU, (V2 C4), scale10 by lia. do 2 f_equal. lia.
  - right. split; [exact U1|]. split; [lia|]. exists (10 * k). rewrite U3. apply shift10.
Qed.

(** Any number of at most [i] digits inside would make a neighbour be inside. *)
Lemma none_shorter i z : (0 < i)%nat -> inv i -> inside z -> ~ sig_digits (Z.of_nat i) z.
Proof.
  intros Hi I Hz (M & e & Ez & HM). destruct (inv_none i Hi I) as [ND NU]. pose proof (down_up i) as DU. pose proof D_range as RD.
  assert (Mul : exists y k, inside y /\ y = (IZR k * p10 (P - Z.of_nat i))%R).
  { destruct (Rle_or_lt (p10 (P - 1)) z) as [A|A].
    - exists z. assert (HM0 : 0 < M).
      { pose proof (p10_pos (P - 1)). pose proof (p10_pos e). apply lt_IZR. apply Rmult_lt_reg_r with (p10 e); [assumption|]. rewrite Rmult_0_l, <- Ez. lra. }
      assert (He : P - 1 < e + Z.of_nat i).
      { apply p10_lt_inv. apply Rle_lt_trans with (1 := A). rewrite Ez, p10_plus, Rmult_comm. apply Rmult_lt_compat_l; [apply p10_pos|]. rewrite <- IZR_p10 by lia. apply IZR_lt. lia. }
      exists (M * 10 ^ (e - (P - Z.of_nat i))). split; [exact Hz|]. rewrite scale10 by lia. rewrite Ez. do 2 f_equal. lia.
    - exists (p10 (P - 1)), (10 ^ (Z.of_nat i - 1)). split; [apply (inside_between z _ v); [exact Hz|exact inside_v|lra]|].
      rewrite IZR_p10, <- p10_plus by lia. f_equal. lia. }
  destruct Mul as (y & k & Hy & Ey). pose proof (p10_pos (P - Z.of_nat i)) as Pp.
  destruct (Z_le_gt_dec k (pre i (d D))) as [K|K].
  - apply ND. apply (inside_between y _ v); [exact Hy|exact inside_v|]. split; [|lra]. rewrite Ey. unfold down. apply Rmult_le_compat_r; [lra|]. apply IZR_le. exact K.
  - apply NU. apply (inside_between v _ y); [exact inside_v|exact Hy|]. split; [lra|]. rewrite Ey. unfold up. apply Rmult_le_compat_r; [lra|]. apply IZR_le. lia.
Qed.

(** Rounding at digit [S i], when that is fine. *)
Definition short_result (r : Decimal.decimal) : Prop :=
  dnorm r /\ d r <> [] /\ inside (dval r) /\ (forall z, inside z -> ~ sig_digits (len (d r) - 1) z) /\ near v (d r) (dp r).

Lemma sig_0 z : inside z -> ~ sig_digits 0 z.
Proof.
  intros Hz (M & e & Ez & HM). change (10 ^ 0) with 1 in HM. replace M with 0 in Ez by lia. rewrite Rmult_0_l in Ez.
  destruct Hz as [[H _] _]. pose proof v_pos. lra.
Qed.


Lemma done i r : inv i -> dnorm r -> inside (dval r) -> len (d r) <= Z.of_nat (S i) ->
  (d r <> [] -> near v (d r) (dp r)) -> short_result r.
Proof.
  intros I R1 R2 R3 R4. split; [exact R1|].
  assert (d r <> []).
  { intros E. destruct R2 as [[A _] _]. rewrite (dval_nil r E) in A. pose proof v_pos. lra. }
  split; [assumption|]. split; [exact R2|]. split; [|auto]. intros z Hz S. destruct i as [|i].
  - apply (sig_0 z Hz). apply sig_mono with (2 := S). lia.
  - apply (none_shorter (Datatypes.S i) z ltac:(lia) I Hz). apply sig_mono with (2 := S). lia.
Qed.

Lemma D_cut : cut_to D v.
Proof. unfold cut_to. rewrite TD. auto. Qed.


Lemma down_result i : inv i -> (i < length (d D))%nat -> inside (down (S i)) -> short_result (Decimal.RoundDown D (Z.of_nat i + 1)).
Proof.
  intros I Hi H. destruct (RoundDown_all D (Z.of_nat i + 1) v HD D_cut ltac:(lia) ltac:(auto)) as (R1 & R2 & _).
  apply (done i); [exact I|exact R1| |pose proof (RoundDown_len D (Z.of_nat i + 1) ltac:(lia)); lia|intros N; destruct R1 as (N1 & _ & N2 & _); exact (near_floor v _ _ _ N1 N2 N R2)].
  rewrite R2. replace (floor10 (dp D - (Z.of_nat i + 1)) v) with (down (S i)); [exact H|]. unfold floor10, down.
  replace (P - Z.of_nat (S i)) with (P - (Z.of_nat i + 1)) by lia. fold P. do 2 f_equal. symmetry. apply Zfloor_imp.
  pose proof (down_up (S i)) as DU. unfold down, up in DU. replace (P - Z.of_nat (S i)) with (P - (Z.of_nat i + 1)) in DU by lia. set (k := P - (Z.of_nat i + 1)) in *.
  pose proof (p10_pos k). pose proof (p10_opp k) as O.
  split; [apply Rmult_le_reg_r with (p10 k)|apply Rmult_lt_reg_r with (p10 k)]; try assumption; rewrite (Rmult_assoc v), (Rmult_comm (p10 (- k))), O, Rmult_1_r; lra.
Qed.

Lemma up_result i : inv i -> (i < length (d D))%nat -> inside (up (S i)) -> short_result (Decimal.RoundUp D (Z.of_nat i + 1)).
Proof.
  intros I Hi H. destruct (RoundUp_all D (Z.of_nat i + 1) v HD D_cut ltac:(lia) ltac:(auto)) as (R1 & R2 & _).
  apply (done i); [exact I|exact R1| |pose proof (RoundUp_len D (Z.of_nat i + 1) ltac:(lia)); lia|intros N; destruct R1 as (N1 & _ & N2 & _); exact (near_ceil v _ _ _ N1 N2 N R2)].
  rewrite R2. apply (inside_between v _ (up (S i))); [exact inside_v|exact H|]. unfold ceil10. fold P.
  replace (up (S i)) with (IZR (pre (S i) (d D) + 1) * p10 (P - (Z.of_nat i + 1)))%R by (unfold up; do 2 f_equal; lia).
  pose proof (down_up (S i)) as DU. unfold down, up in DU. replace (P - Z.of_nat (S i)) with (P - (Z.of_nat i + 1)) in DU by lia. set (k := P - (Z.of_nat i + 1)) in *.
  pose proof (p10_pos k). pose proof (p10_opp k) as O. split.
  - apply Rmult_le_reg_r with (p10 (- k)); [apply p10_pos|]. rewrite Rmult_assoc, O, Rmult_1_r. apply Zceil_ub.
  - apply Rmult_le_compat_r; [lra|]. apply IZR_le. apply Zceil_glb. apply Rmult_le_reg_r with (p10 k); [assumption|].
    rewrite (Rmult_assoc v), (Rmult_comm (p10 (- k))), O, Rmult_1_r. lra.
Qed.



Lemma rs_loop_ok n : forall i, (n + i = length (d D))%nat -> inv i -> short_result (rs_loop n (Z.of_nat i) inc D L U).
Proof.
  induction n as [|n IH]; intros i Hn I; cbn [rs_loop].
  - (* the loop never gets here *)
    exfalso. assert (Hi : (0 < i)%nat) by (pose proof D_ne; destruct (d D); [contradiction|cbn [length] in *; lia]).
    destruct (inv_none i Hi I) as [N _]. apply N. replace (down i) with v; [exact inside_v|].
    pose proof (val_pre D i HD) as (_ & V2 & _). rewrite <- VD. apply V2. lia.
  - rewrite !dig_at. replace (Decimal.dig D (Z.of_nat i)) with (m_ i) by (unfold Decimal.dig; rewrite Nat2Z.id; reflexivity). fold (l_ i). fold (u_ i).
    set (okd := negb (l_ i =? m_ i) || inc && (Z.of_nat i + 1 =? nd L)).
    set (oku := negb (m_ i =? u_ i) && (inc || (m_ i + 1 <? u_ i) || (Z.of_nat i + 1 <? nd U))).
    assert (Hd : okd = true -> inside (down (S i))).
    { intros E. apply okdown_ok; [exact I|]. unfold okd in E. apply orb_prop in E. destruct E as [E|E].
      - left. apply negb_true_iff in E. apply Z.eqb_neq in E. exact E.
      - right. apply andb_prop in E. destruct E as [E1 E2]. apply Z.eqb_eq in E2. unfold nd in E2. split; [exact E1|lia]. }
    assert (Hu : oku = true -> inside (up (S i))).
    { intros E. unfold oku in E. apply andb_prop in E. destruct E as [E1 E2]. apply negb_true_iff in E1. apply Z.eqb_neq in E1.
      apply okup_ok; [exact I|exact E1|]. apply orb_prop in E2. destruct E2 as [E2|E2]; [apply orb_prop in E2; destruct E2 as [E2|E2]|].
      - left; exact E2.
      - apply Z.ltb_lt in E2. auto.
      - apply Z.ltb_lt in E2. unfold nd in E2. right; right; lia. }
    destruct okd eqn:Ed; destruct oku eqn:Eu; cbn [andb].
    + destruct (Round_either D (Z.of_nat i + 1)) as [->| ->]; [apply down_result|apply up_result]; auto; lia.
    + apply down_result; auto; lia.
    + apply up_result; auto; lia.
    + replace (Z.of_nat i + 1) with (Z.of_nat (S i)) by lia. apply IH; [lia|].
      unfold okd in Ed. apply orb_false_elim in Ed. destruct Ed as [Ed1 Ed2]. apply negb_false_iff in Ed1. apply Z.eqb_eq in Ed1.
      destruct (okdown_no i I ltac:(lia) Ed1) as (A1 & A2 & A3).
      { intros [-> X]. cbn [andb] in Ed2. apply Z.eqb_neq in Ed2. unfold nd in Ed2. lia. }
      split; [exact A2|]. split; [auto|]. split; [auto|].
      destruct (okup_no i I) as [B|B]; [|left; exact B|right; right; exact B].
      intros [X Y]. unfold oku in Eu. apply andb_false_iff in Eu. destruct Eu as [Eu|Eu].
      * apply negb_false_iff in Eu. apply Z.eqb_eq in Eu. contradiction.
      * apply orb_false_elim in Eu. destruct Eu as [Eu E3]. apply orb_false_elim in Eu. destruct Eu as [E1 E2].
        apply Z.ltb_ge in E2, E3. unfold nd in E3. destruct Y as [Y|[Y|Y]]; [congruence|lia|lia].
Qed.

(** * Which of the decimals with fewest digits *)

(** [q] units of digit [n] are inside, no number from [lo] to [hi] has fewer digits, and it is the
    nearest such number. *)
Definition best (n : nat) (q : Z) : Prop :=
  (1 <= n)%nat /\ (lo < IZR q * p10 (P - Z.of_nat n) < hi)%R /\ sig_digits (Z.of_nat n) (IZR q * p10 (P - Z.of_nat n)) /\
  (forall z, (lo <= z <= hi)%R -> ~ sig_digits (Z.of_nat n - 1) z) /\
  (Rabs (IZR q * p10 (P - Z.of_nat n) - v) < / 2 * p10 (P - Z.of_nat n))%R.

Lemma best_q n q : best n q -> q = pre n (d D) \/ q = pre n (d D) + 1.
Proof.
  intros (_ & _ & _ & _ & B). pose proof (down_up n) as DU. unfold down, up in DU. set (u := p10 (P - Z.of_nat n)) in *.
  pose proof (p10_pos (P - Z.of_nat n)) as Pp. fold u in Pp. apply Rabs_def2 in B. rewrite plus_IZR in DU.
  assert (A1 : (IZR q < IZR (pre n (d D) + 2))%R) by (rewrite plus_IZR; apply Rmult_lt_reg_r with u; [exact Pp|]; lra).
  assert (A2 : (IZR (pre n (d D) - 1) < IZR q)%R) by (rewrite minus_IZR; apply Rmult_lt_reg_r with u; [exact Pp|]; lra).
  apply lt_IZR in A1, A2. lia.
Qed.

Lemma pre_lt n : 0 <= pre n (d D) < 10 ^ Z.of_nat n.
Proof.
  induction n as [|n IH]; [cbn [pre]; change (10 ^ Z.of_nat 0) with 1; lia|].
  rewrite pre_S. pose proof (nth_digit D n HD). replace (Z.of_nat (S n)) with (Z.of_nat n + 1) by lia. rewrite Z.pow_add_r by lia. lia.
Qed.

Lemma sig_down n : sig_digits (Z.of_nat n) (down n).
Proof. exists (pre n (d D)), (P - Z.of_nat n). split; [reflexivity|]. pose proof (pre_lt n). lia. Qed.

Lemma sig_p10 n k : 1 <= n -> sig_digits n (p10 k).
Proof. intros H. exists 1, k. split; [ring|]. change (Z.abs 1) with (10 ^ 0). apply Z.pow_lt_mono_r; lia. Qed.

Lemma sig_up n : (1 <= n)%nat -> sig_digits (Z.of_nat n) (up n).
Proof.
  intros Hn. pose proof (pre_lt n). destruct (Z.eq_dec (pre n (d D) + 1) (10 ^ Z.of_nat n)) as [E|].
  - unfold up. rewrite E, IZR_p10, <- p10_plus by lia. apply sig_p10. lia.
  - exists (pre n (d D) + 1), (P - Z.of_nat n). split; [reflexivity|]. lia.
Qed.

Lemma best_inside n q : best n q -> inside (IZR q * p10 (P - Z.of_nat n)).
Proof. intros (_ & B & _). split; [lra|left; exact B]. Qed.

Lemma best_after n q i : best n q -> inv i -> (i < n)%nat.
Proof.
  intros B I. pose proof (best_inside n q B) as In. destruct B as (B1 & _ & B2 & _). destruct (le_lt_dec n i) as [Lt|]; [|assumption]. exfalso.
  apply (none_shorter i _ ltac:(lia) I In). apply sig_mono with (2 := B2). lia.
Qed.

Lemma best_here n q i : best n q -> inv i -> inside (down (S i)) \/ inside (up (S i)) -> n = S i.
Proof.
  intros B I H. pose proof (best_after n q i B I) as Lt. destruct (Nat.eq_dec n (S i)) as [|Ne]; [assumption|exfalso].
  destruct B as (_ & _ & _ & B & _). destruct H as [H|H].
  - apply (B _ (proj1 H)). apply sig_mono with (2 := sig_down (S i)). lia.
  - apply (B _ (proj1 H)). apply sig_mono with (2 := sig_up (S i) ltac:(lia)). lia.
Qed.

Lemma unscale x k : (x * p10 (- k) * p10 k = x)%R.
Proof. rewrite Rmult_assoc, (Rmult_comm (p10 (- k))), p10_opp. ring. Qed.

Lemma best_round n q : best n q -> round10 (P - Z.of_nat n) v = (IZR q * p10 (P - Z.of_nat n))%R.
Proof.
  intros (_ & _ & _ & _ & B). unfold round10. do 2 f_equal. apply Znearest_imp. set (k := P - Z.of_nat n) in *. pose proof (p10_pos k) as Pk. pose proof (unscale v k) as Us.
  apply Rabs_def2 in B. apply Rabs_def1; (apply Rmult_lt_reg_r with (p10 k); [exact Pk|]); lra.
Qed.

Lemma best_floor n q : best n q -> q = pre n (d D) -> floor10 (P - Z.of_nat n) v = (IZR q * p10 (P - Z.of_nat n))%R.
Proof.
  intros _ ->. unfold floor10. do 2 f_equal. apply Zfloor_imp. pose proof (down_up n) as DU. unfold down, up in DU. set (k := P - Z.of_nat n) in *.
  pose proof (p10_pos k) as Pk. pose proof (unscale v k) as Us. rewrite plus_IZR in *.
  split; [apply Rmult_le_reg_r with (p10 k)|apply Rmult_lt_reg_r with (p10 k)]; try exact Pk; lra.
Qed.

Lemma best_ceil n q : best n q -> q = pre n (d D) + 1 -> ceil10 (P - Z.of_nat n) v = (IZR q * p10 (P - Z.of_nat n))%R.
Proof.
  intros (_ & _ & _ & _ & B) ->. unfold ceil10. do 2 f_equal. apply Zceil_imp. pose proof (down_up n) as DU. unfold down, up in DU. set (k := P - Z.of_nat n) in *.
  pose proof (p10_pos k) as Pk. pose proof (unscale v k) as Us. rewrite minus_IZR, !plus_IZR in *. apply Rabs_def2 in B.
  split; [apply Rmult_lt_reg_r with (p10 k)|apply Rmult_le_reg_r with (p10 k)]; try exact Pk; lra.
Qed.

(** No power of ten lies far above [v] and not above [hi]. *)
Hypothesis Hgap : ~ ((v <= 19 / 20 * p10 P)%R /\ (p10 P <= hi)%R).

(** When rounding up is inside but refused, the upper end has fewer digits. *)
Lemma okup_missed i : inv i -> inside (up (S i)) -> m_ i <> u_ i /\ (inc = true \/ m_ i + 1 < u_ i \/ (S i < length (d U))%nat) \/
  (0 < i)%nat /\ inc = false /\ sig_digits (Z.of_nat i) hi.
Proof.
  intros I In. pose proof I as (_ & _ & _ & I4). pose proof (down_up (S i)) as DU. pose proof (p10_pos (P - Z.of_nat (S i))) as Pp.
  assert (C : m_ i = u_ i \/ m_ i <> u_ i /\ inc = false /\ u_ i <= m_ i + 1 /\ (length (d U) <= S i)%nat \/
    m_ i <> u_ i /\ (inc = true \/ m_ i + 1 < u_ i \/ (S i < length (d U))%nat)).
  { destruct (Z.eq_dec (m_ i) (u_ i)) as [|Ne]; [left; assumption|right].
    destruct inc; [right; auto|]. destruct (Z_lt_ge_dec (m_ i + 1) (u_ i)); [right; auto|].
    destruct (le_lt_dec (length (d U)) (S i)); [left; repeat split; auto; lia|right; auto]. }
  destruct I4 as [[U1 U2]|[[U1 U2]|(U1 & U2 & k & U3)]].
  - left. destruct C as [C|[(C1 & C2 & C3 & C4)|C]]; [| |exact C]; exfalso.
    + assert (EU : pre (S i) (d U) = pre (S i) (d D)).
      { apply pre_ext. intros j Hj. destruct (Nat.eq_dec j i) as [->|]; [symmetry; exact C|apply U2; lia]. }
      pose proof (val_pre U (S i) HU) as ((_ & V) & _). rewrite EU, U1, VU in V. fold (up (S i)) in V. destruct In as [[_ In] _]. lra.
    + assert (EU : pre i (d U) = pre i (d D)) by (apply pre_ext; exact U2).
      pose proof (val_pre U (S i) HU) as (_ & V & _). specialize (V C4). rewrite VU, U1, pre_S, EU in V. fold (u_ i) in V.
      assert (hi <= up (S i))%R; [|destruct In as [_ [In|In]]; [lra|congruence]]. rewrite V. unfold up. rewrite pre_S. fold (m_ i). apply Rmult_le_compat_r; [lra|]. apply IZR_le. lia.
  - subst i. left. destruct C as [C|[(C1 & C2 & C3 & C4)|C]]; [| |exact C]; exfalso.
    + destruct (okup_no 0 I) as [[X _]|(_ & X & _)]; [tauto|lia|].
      pose proof (val_pre U 1 HU) as ((V1 & _) & _). rewrite VU, pre_S in V1. fold (u_ 0) in V1. change (pre 0 (d U)) with 0 in V1.
      unfold up in DU. rewrite pre_S in DU. fold (m_ 0) in DU. change (pre 0 (d D)) with 0 in DU. change (Z.of_nat 1) with 1 in *. rewrite C in DU.
      change (10 * 0) with 0 in *. rewrite Z.add_0_l in *. pose proof (nth_lead U HU U_ne) as M0. fold (u_ 0) in M0.
      assert (Q : (p10 P <= p10 (dp U - 1))%R) by (apply p10_le; lia). replace P with (P - 1 + 1) in Q by lia. rewrite p10_plus in Q. change (p10 1) with 10%R in Q.
      pose proof (p10_pos (P - 1)). rewrite plus_IZR in DU. apply IZR_le in M0. nra.
    + assert (QP : (p10 P <= p10 (dp U - 1))%R) by (apply p10_le; lia). pose proof U_range as [R1 R2]. pose proof D_range as [R3 R4].
      assert (Hu1 : u_ 0 = 1 /\ dp U = P + 1).
      { pose proof (val_pre U 1 HU) as ((V1 & _) & _). rewrite VU, pre_S in V1. fold (u_ 0) in V1. change (pre 0 (d U)) with 0 in V1. change (Z.of_nat 1) with 1 in V1.
        change (10 * 0) with 0 in V1. rewrite Z.add_0_l in V1. pose proof (nth_lead U HU U_ne) as M0. fold (u_ 0) in M0.
        assert (hi < 2 * p10 (dp U - 1))%R by lra.
        assert (u_ 0 < 2).
        { apply lt_IZR. apply Rmult_lt_reg_r with (p10 (dp U - 1)); [apply p10_pos|]. lra. }
        split; [lia|]. assert (dp U - 1 < P + 1); [|lia]. apply p10_lt_inv. rewrite (p10_plus P 1). change (p10 1) with 10%R. lra. }
      destruct Hu1 as [Hu1 Hu2].
      pose proof (val_pre U 1 HU) as (_ & V & _). specialize (V C4). rewrite VU, pre_S in V. fold (u_ 0) in V. change (pre 0 (d U)) with 0 in V. rewrite Hu1, Hu2 in V.
      change (10 * 0 + 1) with 1 in V. change (Z.of_nat 1) with 1 in V. replace (P + 1 - 1) with P in V by lia. rewrite Rmult_1_l in V.
      assert (B1 : (up 1 < hi)%R) by (destruct In as [_ [In|In]]; [lra|congruence]).
      apply Hgap. split; [|lra]. unfold up in *. rewrite pre_S in *. fold (m_ 0) in *. change (pre 0 (d D)) with 0 in *. change (Z.of_nat 1) with 1 in *. change (10 * 0) with 0 in *. rewrite !Z.add_0_l in *.
      replace P with (P - 1 + 1) in V |- * by lia. rewrite p10_plus in V |- *. change (p10 1) with 10%R in *. replace (P - 1 + 1) with P in * by lia.
      assert (M9 : m_ 0 + 1 < 10) by (apply lt_IZR; apply Rmult_lt_reg_r with (p10 (P - 1)); [exact Pp|lra]).
      assert (M8 : (IZR (m_ 0 + 1) <= 9)%R) by (apply IZR_le; lia). nra.
  - right. assert (Hi : (0 < i)%nat).
    { destruct i; [|lia]. exfalso. pose proof U_ne. destruct (d U); [contradiction|cbn [length] in *; lia]. }
    split; [exact Hi|]. split; [exact U1|].
    pose proof D_range as [R3 R4]. destruct (Rlt_or_le hi (p10 P)) as [Lt|Lt].
    + exists k, (P - Z.of_nat i). split; [exact U3|]. pose proof (p10_pos (P - Z.of_nat i)) as Pi.
      assert (K1 : 0 < k) by (apply lt_IZR; apply Rmult_lt_reg_r with (p10 (P - Z.of_nat i)); [exact Pi|]; rewrite Rmult_0_l, <- U3; lra).
      rewrite Z.abs_eq by lia. apply lt_IZR. apply Rmult_lt_reg_r with (p10 (P - Z.of_nat i)); [exact Pi|]. rewrite <- U3, IZR_p10, <- p10_plus by lia.
      replace (Z.of_nat i + (P - Z.of_nat i)) with P by lia. exact Lt.
    + destruct Lt as [Lt|Lt]; [|rewrite <- Lt; apply sig_p10; lia]. exfalso.
      apply (none_shorter i (p10 P) Hi I); [split; [lra|left; lra]|]. apply sig_p10. lia.
Qed.

Lemma okdown_missed i : inv i -> (i < length (d D))%nat -> inside (down (S i)) ->
  l_ i <> m_ i \/ inc = true /\ (S i = length (d L))%nat.
Proof.
  intros I Hi In. destruct (Z.eq_dec (l_ i) (m_ i)) as [E|]; [|left; assumption].
  destruct inc eqn:Hinc; [destruct (Nat.eq_dec (S i) (length (d L))) as [|Ne]; [right; auto|]|]; exfalso;
    (destruct (okdown_no i I Hi E) as (A1 & A2 & A3); [rewrite ?Hinc; intros [? ?]; congruence|]);
    (assert (EL : pre (S i) (d L) = pre (S i) (d D)) by (apply pre_ext; exact A2));
    pose proof (val_pre L (S i) HL) as ((V & _) & _ & V3); rewrite EL, A1, VL in V, V3; fold (down (S i)) in V, V3.
  - specialize (V3 (A3 Hinc)). destruct In as [In _]. lra.
  - destruct In as [_ [In|In]]; [lra|congruence].
Qed.

Lemma okup_not n q i : best n q -> inv i -> n = S i -> q = pre n (d D) + 1 ->
  m_ i <> u_ i /\ (inc = true \/ m_ i + 1 < u_ i \/ (S i < length (d U))%nat).
Proof.
  intros B I -> Eq. pose proof (best_inside _ _ B) as In. rewrite Eq in In. destruct (okup_missed i I In) as [X|(X1 & X2 & X3)]; [exact X|exfalso].
  destruct B as (_ & _ & _ & B & _). apply (B hi); [lra|]. replace (Z.of_nat (S i) - 1) with (Z.of_nat i) by lia. exact X3.
Qed.

Lemma okdown_not n q i : best n q -> inv i -> n = S i -> (i < length (d D))%nat -> q = pre n (d D) ->
  l_ i <> m_ i \/ inc = true /\ (S i = length (d L))%nat.
Proof.
  intros B I -> Hi Eq. pose proof (best_inside _ _ B) as In. rewrite Eq in In. apply (okdown_missed i I Hi In).
Qed.

Lemma rs_loop_best n0 q k : best n0 q -> forall i, (k + i = length (d D))%nat -> inv i ->
  dval (rs_loop k (Z.of_nat i) inc D L U) = (IZR q * p10 (P - Z.of_nat n0))%R.
Proof.
  intros B. induction k as [|k IH]; intros i Hn I; cbn [rs_loop].
  - exfalso. assert (Hi : (0 < i)%nat) by (pose proof D_ne; destruct (d D); [contradiction|cbn [length] in *; lia]).
    destruct (inv_none i Hi I) as [N _]. apply N. replace (down i) with v; [exact inside_v|].
    pose proof (val_pre D i HD) as (_ & V2 & _). rewrite <- VD. apply V2. lia.
  - rewrite !dig_at. replace (Decimal.dig D (Z.of_nat i)) with (m_ i) by (unfold Decimal.dig; rewrite Nat2Z.id; reflexivity). fold (l_ i). fold (u_ i).
    set (okd := negb (l_ i =? m_ i) || inc && (Z.of_nat i + 1 =? nd L)).
    set (oku := negb (m_ i =? u_ i) && (inc || (m_ i + 1 <? u_ i) || (Z.of_nat i + 1 <? nd U))).
    assert (Hd : okd = true <-> l_ i <> m_ i \/ inc = true /\ (S i = length (d L))%nat).
    { unfold okd. rewrite orb_true_iff, negb_true_iff, Z.eqb_neq, andb_true_iff, Z.eqb_eq. unfold nd. split; (intros [X|[X Y]]; [left; exact X|right; split; [exact X|lia]]). }
    assert (Hu : oku = true <-> m_ i <> u_ i /\ (inc = true \/ m_ i + 1 < u_ i \/ (S i < length (d U))%nat)).
    { unfold oku. rewrite andb_true_iff, !orb_true_iff, negb_true_iff, Z.eqb_neq, !Z.ltb_lt. unfold nd. split; intros [X Y]; (split; [exact X|]).
      - destruct Y as [[Y|Y]|Y]; auto. right; right; lia.
      - destruct Y as [Y|[Y|Y]]; auto. right; lia. }
    assert (Here : okd = true \/ oku = true -> n0 = S i).
    { intros H. apply (best_here n0 q i B I). destruct H as [H|H].
      - left. apply okdown_ok; [exact I|]. apply Hd, H.
      - right. apply Hu in H. apply okup_ok; [exact I|apply H|apply H]. }
    replace (Z.of_nat i + 1) with (Z.of_nat (S i)) in * by lia.
    destruct okd eqn:Ed; destruct oku eqn:Eu; cbn [andb].
    + rewrite (Here ltac:(auto)) in *. destruct (Round_all D (Z.of_nat (S i)) v HD D_cut ltac:(lia) ltac:(auto)) as (_ & -> & _). fold P. apply best_round, B.
    + rewrite (Here ltac:(auto)) in *. destruct (RoundDown_all D (Z.of_nat (S i)) v HD D_cut ltac:(lia) ltac:(auto)) as (_ & -> & _). fold P.
      destruct (best_q _ _ B) as [E|E]; [apply best_floor; assumption|].
      apply (okup_not _ _ i B I eq_refl), Hu in E. discriminate.
    + rewrite (Here ltac:(auto)) in *. destruct (RoundUp_all D (Z.of_nat (S i)) v HD D_cut ltac:(lia) ltac:(auto)) as (_ & -> & _). fold P.
      destruct (best_q _ _ B) as [E|E]; [|apply best_ceil; assumption].
      apply (okdown_not _ _ i B I eq_refl ltac:(lia)), Hd in E. discriminate.
    + apply IH; [lia|].
      destruct (okdown_no i I ltac:(lia)) as (A1 & A2 & A3).
      { destruct (Z.eq_dec (l_ i) (m_ i)); [assumption|]. exfalso. assert (false = true) by (apply Hd; auto). discriminate. }
      { intros X. assert (false = true) by (apply Hd; auto). discriminate. }
      split; [exact A2|]. split; [auto|]. split; [auto|].
      destruct (okup_no i I) as [X|X]; [|left; exact X|right; right; exact X].
      intros X. assert (false = true) by (apply Hu; exact X). discriminate.
Qed.
(** * The closest of the decimals with fewest digits *)
Lemma down_ge i : (p10 (P - 1) <= down (S i))%R.
Proof.
  unfold down. replace (p10 (P - 1)) with (IZR (10 ^ Z.of_nat i) * p10 (P - Z.of_nat (S i)))%R by (rewrite IZR_p10, <- p10_plus by lia; f_equal; lia).
  apply Rmult_le_compat_r; [apply Rlt_le, p10_pos|]. apply IZR_le. pose proof (nth_lead D HD D_ne) as M0. clear -HD M0.
  induction i as [|i IH]; [cbn [pre]; change (10 ^ Z.of_nat 0) with 1; lia|].
  rewrite pre_S. pose proof (nth_digit D (S i) HD). replace (Z.of_nat (S i)) with (Z.of_nat i + 1) by lia. rewrite Z.pow_add_r by lia. lia.
Qed.

Lemma beyond i z : sig_digits (Z.of_nat (S i)) z -> (z <= down (S i))%R \/ (up (S i) <= z)%R.
Proof.
  intros Sz. destruct (Rle_or_lt (p10 (P - 1)) z) as [A|A].
  - destruct Sz as (M & x & Ez & HM). pose proof (p10_pos (P - Z.of_nat (S i))) as Pp.
    assert (He : P - 1 < x + Z.of_nat (S i)).
    { apply p10_lt_inv. apply Rle_lt_trans with (1 := A). rewrite Ez, p10_plus, Rmult_comm. apply Rmult_lt_compat_l; [apply p10_pos|]. rewrite <- IZR_p10 by lia. apply IZR_lt. lia. }
    assert (Ek : z = (IZR (M * 10 ^ (x - (P - Z.of_nat (S i)))) * p10 (P - Z.of_nat (S i)))%R).
    { rewrite scale10 by lia. rewrite Ez. do 2 f_equal. lia. }
    set (k := M * 10 ^ (x - (P - Z.of_nat (S i)))) in *. rewrite Ek. unfold down, up. destruct (Z_le_gt_dec k (pre (S i) (d D))) as [K|K]; [left|right]; (apply Rmult_le_compat_r; [lra|]); apply IZR_le; lia.
  - left. pose proof (down_ge i). lra.
Qed.

Lemma round_closest i z : sig_digits (Z.of_nat (S i)) z -> (Rabs (round10 (P - Z.of_nat (S i)) v - v) <= Rabs (z - v))%R.
Proof.
  intros Sz. unfold round10. set (k := P - Z.of_nat (S i)). pose proof (p10_pos k) as Pk. pose proof (unscale v k) as Us.
  assert (G : forall m, (Rabs (IZR (ZnearestE (v * p10 (- k))) * p10 k - v) <= Rabs (IZR m * p10 k - v))%R).
  { intros m. rewrite <- Us at 2 3. rewrite <- !Rmult_minus_distr_r, !Rabs_mult. apply Rmult_le_compat_r; [apply Rabs_pos|].
    rewrite (Rabs_minus_sym _ (v * p10 (- k))), (Rabs_minus_sym (IZR m)).
    destruct (Rle_or_lt (/ 2) (Rabs (v * p10 (- k) - IZR m))) as [A|A].
    - apply Rle_trans with (2 := A). apply Znearest_half.
    - replace (ZnearestE (v * p10 (- k))) with m; [apply Rle_refl|]. symmetry. apply Znearest_imp. exact A. }
  pose proof (down_up (S i)) as DU. destruct (beyond i z Sz) as [B|B].
  - apply Rle_trans with (1 := G (pre (S i) (d D))). fold k. change (IZR (pre (S i) (d D)) * p10 k)%R with (down (S i)).
    rewrite !Rabs_left1 by lra. lra.
  - apply Rle_trans with (1 := G (pre (S i) (d D) + 1)). change (IZR (pre (S i) (d D) + 1) * p10 k)%R with (up (S i)).
    rewrite !Rabs_pos_eq by lra. lra.
Qed.

Lemma floor_down n : floor10 (P - Z.of_nat n) v = down n.
Proof.
  unfold floor10, down. do 2 f_equal. apply Zfloor_imp. pose proof (down_up n) as DU. unfold down, up in DU. set (k := P - Z.of_nat n) in *.
  pose proof (p10_pos k) as Pk. pose proof (unscale v k) as Us.
  split; [apply Rmult_le_reg_r with (p10 k)|apply Rmult_lt_reg_r with (p10 k)]; try exact Pk; lra.
Qed.

Lemma ceil_up n : (v <= ceil10 (P - Z.of_nat n) v <= up n)%R.
Proof.
  unfold ceil10, up. pose proof (down_up n) as DU. unfold down, up in DU. set (k := P - Z.of_nat n) in *.
  pose proof (p10_pos k) as Pk. pose proof (unscale v k) as Us. split.
  - rewrite <- Us at 1. apply Rmult_le_compat_r; [lra|]. apply Zceil_ub.
  - apply Rmult_le_compat_r; [lra|]. apply IZR_le. apply Zceil_glb. apply Rmult_le_reg_r with (p10 k); [exact Pk|]. lra.
Qed.

Definition closest (x : R) : Prop :=
  ((inc = false -> forall n, sig_digits n hi -> sig_digits n x) ->
   forall z, inside z -> (forall n, sig_digits n x -> sig_digits n z) ->
     (Rabs (x - v) <= Rabs (z - v))%R /\
     (Rabs (x - v) = Rabs (z - v) -> z <> x -> exists N k, x = IZR (2 * N) * p10 k /\ Rabs (x - z) = p10 k)%R) /\
  (inc = false -> (exists n, sig_digits n hi /\ ~ sig_digits n x) ->
   (x <= v)%R /\ forall z, inside z -> (forall n, sig_digits n x -> sig_digits n z) -> (z <= v)%R -> (z <= x)%R).

(** Of two numbers equally close rounding takes the even one. *)
Lemma round_tie i z : sig_digits (Z.of_nat (S i)) z -> let x := round10 (P - Z.of_nat (S i)) v in
  Rabs (x - v) = Rabs (z - v) -> z <> x -> exists N k, (x = IZR (2 * N) * p10 k /\ Rabs (x - z) = p10 k)%R.
Proof.
  intros Sz x Ed Ne. set (k := P - Z.of_nat (S i)) in *. pose proof (p10_pos k) as Pk. pose proof (unscale v k) as Us.
  pose proof (down_up (S i)) as DU. pose proof (floor_down (S i)) as FD. fold k in FD. unfold floor10 in FD.
  assert (UP : up (S i) = (down (S i) + p10 k)%R) by (unfold up, down; fold k; rewrite plus_IZR; ring).
  unfold x, round10 in *. set (a := (v * p10 (- k))%R) in *.
  pose proof (Zfloor_lb a) as F1. pose proof (Zfloor_ub a) as F2. set (f := Zfloor a) in *.
  assert (V : v = (a * p10 k)%R) by (symmetry; exact Us).
  assert (Q : ZnearestE a = f /\ (a - IZR f < / 2)%R \/ ZnearestE a = f + 1 /\ (/ 2 < a - IZR f)%R \/ (a - IZR f = / 2)%R /\ ZnearestE a = if Z.even f then f else f + 1).
  { unfold Znearest. fold f. destruct (Rcompare_spec (a - IZR f) (/ 2)) as [C|C|C]; [left; auto| |right; left].
    - right; right. split; [exact C|]. rewrite Zceil_floor_neq by (fold f; lra). fold f. destruct (Z.even f); reflexivity.
    - split; [|exact C]. rewrite Zceil_floor_neq by (fold f; lra). reflexivity. }
  assert (B : (z <= IZR f * p10 k \/ (IZR f + 1) * p10 k <= z)%R).
  { destruct (beyond i z Sz) as [B|B]; [left; rewrite FD; exact B|right; rewrite Rmult_plus_distr_r, FD, Rmult_1_l, <- UP; exact B]. }
  clear DU FD UP.
  destruct Q as [[Q1 Q2]|[[Q1 Q2]|[Q2 Q1]]]; rewrite Q1 in Ed, Ne |- *.
  - exfalso. rewrite V in Ed. rewrite (Rabs_left1 (_ - _)) in Ed by nra. destruct B as [B|B].
    + rewrite Rabs_left1 in Ed by nra. apply Ne. lra.
    + rewrite Rabs_pos_eq in Ed by nra. nra.
  - exfalso. rewrite plus_IZR in Ed, Ne. rewrite V in Ed. rewrite (Rabs_pos_eq (_ - _)) in Ed by nra. destruct B as [B|B].
    + rewrite Rabs_left1 in Ed by nra. nra.
    + rewrite Rabs_pos_eq in Ed by nra. apply Ne. lra.
  - destruct (Z.even f) eqn:Ev.
    + apply Z.even_spec in Ev. destruct Ev as [N Ev]. exists N, k. rewrite <- Ev. split; [reflexivity|].
      rewrite V in Ed. rewrite (Rabs_left1 (_ - _)) in Ed by nra. destruct B as [B|B].
      * exfalso. rewrite Rabs_left1 in Ed by nra. apply Ne. lra.
      * rewrite Rabs_pos_eq in Ed by nra. rewrite Rabs_left1 by nra. replace a with (IZR f + / 2)%R in Ed by lra. lra.
    + assert (Ev' : Z.even (f + 1) = true) by (rewrite Z.even_add, Ev; reflexivity). apply Z.even_spec in Ev'. destruct Ev' as [N Ev']. exists N, k. rewrite <- Ev'. split; [reflexivity|].
      rewrite plus_IZR in *. rewrite V in Ed. rewrite (Rabs_pos_eq (_ - _)) in Ed by nra. destruct B as [B|B].
      * rewrite Rabs_left1 in Ed by nra. rewrite Rabs_pos_eq by nra. replace a with (IZR f + / 2)%R in Ed by lra. lra.
      * exfalso. rewrite Rabs_pos_eq in Ed by nra. apply Ne. lra.
Qed.

(** The loop does not round up once the upper end is passed. *)
Lemma okup_short i n x : inv i -> inc = false -> sig_digits n hi -> ~ sig_digits n x -> sig_digits (Z.of_nat (S i)) x ->
  ~ (m_ i <> u_ i /\ (inc = true \/ m_ i + 1 < u_ i \/ (S i < length (d U))%nat)).
Proof.
  intros I Hinc Sh Nx Sx [_ C]. pose proof I as (_ & _ & _ & I4).
  assert (Hn : n <= Z.of_nat i).
  { destruct (Z_le_gt_dec n (Z.of_nat i)) as [|G]; [assumption|exfalso]. apply Nx. apply sig_mono with (2 := Sx). lia. }
  apply (sig_mono n (Z.of_nat i)) in Sh; [|exact Hn]. clear Hn Nx Sx.
  destruct I4 as [[U1 U2]|[[U1 U2]|(U1 & U2 & k & U3)]].
  - destruct i as [|i].
    { destruct Sh as (M & q & E & HM). change (10 ^ Z.of_nat 0) with 1 in HM. assert (M = 0) by lia. subst M. rewrite Rmult_0_l in E. pose proof v_pos. lra. }
    assert (EU : pre (S i) (d U) = pre (S i) (d D)) by (apply pre_ext; exact U2).
    pose proof (val_pre U (S i) HU) as (V & _). rewrite EU, U1, VU in V. fold (down (S i)) (up (S i)) in V. pose proof (down_up (S i)).
    destruct (beyond i hi Sh); lra.
  - subst i. destruct Sh as (M & q & E & HM). change (10 ^ Z.of_nat 0) with 1 in HM. assert (M = 0) by lia. subst M. rewrite Rmult_0_l in E. pose proof v_pos. lra.
  - destruct C as [C|[C|C]]; [congruence| |lia]. unfold u_ in C. rewrite nth_overflow in C by lia. pose proof (nth_digit D i HD). unfold m_ in C. lia.
Qed.

Lemma rs_loop_closest k : forall i, (k + i = length (d D))%nat -> inv i -> closest (dval (rs_loop k (Z.of_nat i) inc D L U)).
Proof.
  induction k as [|k IH]; intros i Hn I; cbn [rs_loop].
  - exfalso. assert (Hi : (0 < i)%nat) by (pose proof D_ne; destruct (d D); [contradiction|cbn [length] in *; lia]).
    destruct (inv_none i Hi I) as [N _]. apply N. replace (down i) with v; [exact inside_v|].
    pose proof (val_pre D i HD) as (_ & V2 & _). rewrite <- VD. apply V2. lia.
  - rewrite !dig_at. replace (Decimal.dig D (Z.of_nat i)) with (m_ i) by (unfold Decimal.dig; rewrite Nat2Z.id; reflexivity). fold (l_ i). fold (u_ i).
    set (okd := negb (l_ i =? m_ i) || inc && (Z.of_nat i + 1 =? nd L)).
    set (oku := negb (m_ i =? u_ i) && (inc || (m_ i + 1 <? u_ i) || (Z.of_nat i + 1 <? nd U))).
    assert (Hd : okd = true <-> l_ i <> m_ i \/ inc = true /\ (S i = length (d L))%nat).
    { unfold okd. rewrite orb_true_iff, negb_true_iff, Z.eqb_neq, andb_true_iff, Z.eqb_eq. unfold nd. split; (intros [X|[X Y]]; [left; exact X|right; split; [exact X|lia]]). }
    assert (Hu : oku = true <-> m_ i <> u_ i /\ (inc = true \/ m_ i + 1 < u_ i \/ (S i < length (d U))%nat)).
    { unfold oku. rewrite andb_true_iff, !orb_true_iff, negb_true_iff, Z.eqb_neq, !Z.ltb_lt. unfold nd. split; intros [X Y]; (split; [exact X|]).
      - destruct Y as [[Y|Y]|Y]; auto. right; right; lia.
      - destruct Y as [Y|[Y|Y]]; auto. right; lia. }
    replace (Z.of_nat i + 1) with (Z.of_nat (S i)) in * by lia. pose proof (down_up (S i)) as DU.
    assert (Sr : forall r : Decimal.decimal, digits_ok (d r) -> len (d r) <= Z.of_nat (S i) -> sig_digits (Z.of_nat (S i)) (dval r)).
    { intros r H1 H2. apply sig_mono with (1 := H2). exists (dread (d r)), (dp r - len (d r)). split; [reflexivity|]. pose proof (dread_range (d r) H1). lia. }
    destruct okd eqn:Ed; destruct oku eqn:Eu; cbn [andb].
    + destruct (Round_all D (Z.of_nat (S i)) v HD D_cut ltac:(lia) ltac:(auto)) as ((N1 & _) & E & _). fold P in E.
      assert (Sv : sig_digits (Z.of_nat (S i)) (dval (Decimal.Round D (Z.of_nat (S i))))).
      { apply Sr; [exact N1|]. destruct (Round_either D (Z.of_nat (S i))) as [-> | ->]; [apply RoundDown_len; lia|apply RoundUp_len; lia]. }
      split.
      * intros _ z _ Hz. specialize (Hz _ Sv). rewrite E. split; [apply round_closest; exact Hz|]. apply (round_tie i z Hz).
      * intros Hinc (n & S1 & S2). exfalso. apply (okup_short i n _ I Hinc S1 S2 Sv), Hu. reflexivity.
    + destruct (RoundDown_all D (Z.of_nat (S i)) v HD D_cut ltac:(lia) ltac:(auto)) as ((N1 & _) & E & _). fold P in E. rewrite floor_down in E.
      assert (Sv : sig_digits (Z.of_nat (S i)) (dval (Decimal.RoundDown D (Z.of_nat (S i))))) by (apply Sr; [exact N1|apply RoundDown_len; lia]).
      split; [|intros _ _; rewrite E in *; split; [lra|]; intros z _ Hz Zv; specialize (Hz _ Sv); destruct (beyond i z Hz); lra].
      intros Ex z Iz Hz. specialize (Hz _ Sv). rewrite E in *. destruct (beyond i z Hz) as [B|B]; [rewrite !Rabs_left1 by lra; split; [lra|intros Q1 Q2; exfalso; apply Q2; lra]|exfalso].
      assert (In : inside (up (S i))) by (apply (inside_between v _ z); [exact inside_v|exact Iz|lra]).
      destruct (okup_missed i I In) as [X|(X1 & X2 & X3)]; [apply Hu in X; discriminate|].
      apply (none_shorter i (down (S i)) X1 I); [|apply Ex; assumption]. apply okdown_ok; [exact I|]. apply Hd. reflexivity.
    + destruct (RoundUp_all D (Z.of_nat (S i)) v HD D_cut ltac:(lia) ltac:(auto)) as ((N1 & _) & E & _). fold P in E. pose proof (ceil_up (S i)) as CU. rewrite <- E in CU.
      assert (Sv : sig_digits (Z.of_nat (S i)) (dval (Decimal.RoundUp D (Z.of_nat (S i))))) by (apply Sr; [exact N1|apply RoundUp_len; lia]).
      split; [|intros Hinc (n & S1 & S2); exfalso; apply (okup_short i n _ I Hinc S1 S2 Sv), Hu; reflexivity].
      intros Ex z Iz Hz. specialize (Hz _ Sv). destruct (beyond i z Hz) as [B|B]; [exfalso|rewrite !Rabs_pos_eq by lra; split; [lra|intros Q1 Q2; exfalso; apply Q2; lra]].
      assert (In : inside (down (S i))) by (apply (inside_between z _ v); [exact Iz|exact inside_v|lra]).
      apply (okdown_missed i I ltac:(lia)), Hd in In. discriminate.
    + apply IH; [lia|].
      destruct (okdown_no i I ltac:(lia)) as (A1 & A2 & A3).
      { destruct (Z.eq_dec (l_ i) (m_ i)); [assumption|]. exfalso. assert (false = true) by (apply Hd; auto). discriminate. }
      { intros X. assert (false = true) by (apply Hd; auto). discriminate. }
      split; [exact A2|]. split; [auto|]. split; [auto|].
      destruct (okup_no i I) as [X|X]; [|left; exact X|right; right; exact X].
      intros X. assert (false = true) by (apply Hu; exact X). discriminate.
Qed.
End Loop.

(** * Comparing powers of 10 and 2 *)
Lemma pow_step a b : (p10 a <= p2 b)%R -> forall n : nat, (p10 (a * Z.of_nat n) <= p2 (b * Z.of_nat n))%R.
Proof.
  intros H. induction n as [|n IH]; [rewrite !Z.mul_0_r; apply Rle_refl|].
  replace (a * Z.of_nat (S n)) with (a * Z.of_nat n + a) by lia. replace (b * Z.of_nat (S n)) with (b * Z.of_nat n + b) by lia.
  rewrite p10_plus, p2_plus. apply Rmult_le_compat; auto; apply Rlt_le, p10_pos.
Qed.
Lemma pow_step' a b : (p2 b <= p10 a)%R -> forall n : nat, (p2 (b * Z.of_nat n) <= p10 (a * Z.of_nat n))%R.
Proof.
  intros H. induction n as [|n IH]; [rewrite !Z.mul_0_r; apply Rle_refl|].
  replace (a * Z.of_nat (S n)) with (a * Z.of_nat n + a) by lia. replace (b * Z.of_nat (S n)) with (b * Z.of_nat n + b) by lia.
  rewrite p10_plus, p2_plus. apply Rmult_le_compat; auto; apply Rlt_le, p2_pos.
Qed.

Lemma p10_2_lo : (p2 332 <= p10 100)%R.
Proof. rewrite <- IZR_pow2, <- IZR_p10 by lia. apply IZR_le. vm_compute. discriminate. Qed.
Lemma p10_2_hi : (p10 500 <= p2 1661)%R.
Proof. rewrite <- IZR_pow2, <- IZR_p10 by lia. apply IZR_le. vm_compute. discriminate. Qed.

(** The test of ftoa.go:263: 3.32 < log2 10 < 3.322. *)
Lemma pow_cmp k X : -400 <= k -> 100 * X <= 332 * k -> (p2 (X - 1) < p10 k)%R.
Proof.
  intros Hk H. apply Rnot_le_lt. intros A. destruct (Z_le_gt_dec 0 k) as [K|K].
  - pose proof (pow_step k (X - 1) A 100) as B. change (Z.of_nat 100) with 100 in B.
    pose proof (pow_step' 100 332 p10_2_lo (Z.to_nat k)) as C. rewrite Z2Nat.id in C by lia.
    replace (100 * k) with (k * 100) in C by lia.
    assert (332 * k <= (X - 1) * 100) by (apply p2_le_inv; lra). lia.
  - pose proof (pow_step k (X - 1) A 500) as B. change (Z.of_nat 500) with 500 in B.
    pose proof (pow_step 500 1661 p10_2_hi (Z.to_nat (- k))) as C. rewrite Z2Nat.id in C by lia.
    assert (D : (p10 (k * 500) * p10 (500 * - k) <= p2 ((X - 1) * 500) * p2 (1661 * - k))%R) by (apply Rmult_le_compat; auto; apply Rlt_le, p10_pos).
    rewrite <- p10_plus, <- p2_plus in D. replace (k * 500 + 500 * - k) with 0 in D by lia. change (p10 0) with (p2 0) in D.
    apply p2_le_inv in D. lia.
Qed.

(** * roundShortest *)
Lemma inside_sym inc lo hi v x h : (v - h <= lo)%R -> (hi = v + h)%R -> inside inc lo hi x -> (Rabs (x - v) <= h)%R.
Proof. intros H1 H2 [H _]. apply Rabs_le. lra. Qed.

Lemma early_ok D inc lo v hi X : dnorm D -> dval D = v -> (0 < v)%R -> (v / 2 <= lo < v)%R -> (v - p2 (X - 1) <= lo)%R -> hi = (v + p2 (X - 1))%R ->
  -1074 <= X -> 100 * X <= 332 * (dp D - nd D) -> short_result inc lo v hi D.
Proof.
  intros HD VD Pv Hlo HL HH HX HT. pose proof (p2_pos (X - 1)) as PX.
  assert (N : d D <> []) by (intros E; rewrite <- VD, (dval_nil D E) in Pv; lra).
  assert (Iv : inside inc lo hi v) by (split; [lra|left; lra]).
  split; [exact HD|]. split; [exact N|]. split; [rewrite VD; exact Iv|].
  split; [|unfold near; change (lval (d D) (dp D)) with (dval D); rewrite VD; unfold Rminus; rewrite Rplus_opp_r, Rabs_R0; apply p10_pos].
  intros z Hz Sz. unfold nd in HT.
  set (k := dp D - len (d D)) in *. set (P := dp D) in *.
  assert (Pk : (p2 (X - 1) < p10 k)%R) by (apply pow_cmp; lia).
  pose proof (dval_pos D HD N) as RD. rewrite VD in RD. fold P in RD. destruct (Nat.eq_dec (length (d D)) 1) as [L1|L1].
  - rewrite L1 in Sz. destruct Sz as (M & e & Ez & HM). change (10 ^ (Z.of_nat 1 - 1)) with 1 in HM. replace M with 0 in Ez by lia. rewrite Rmult_0_l in Ez.
    destruct Hz as [[Hz _] _]. lra.
  - assert (L2 : 2 <= len (d D)) by (destruct (d D) as [|? [|? ?]]; cbn [length] in *; try lia; contradiction).
    assert (Mul : exists y j, inside inc lo hi y /\ y = (IZR j * p10 (k + 1))%R).
    { destruct Sz as (M & e & Ez & HM). destruct (Rle_or_lt (p10 (P - 1)) z) as [A|A].
      - assert (HM0 : 0 < M).
        { pose proof (p10_pos (P - 1)). pose proof (p10_pos e). apply lt_IZR. apply Rmult_lt_reg_r with (p10 e); [assumption|]. rewrite Rmult_0_l, <- Ez. lra. }
        assert (He : P - 1 < e + (len (d D) - 1)).
        { apply p10_lt_inv. apply Rle_lt_trans with (1 := A). rewrite Ez, p10_plus, Rmult_comm. apply Rmult_lt_compat_l; [apply p10_pos|]. rewrite <- IZR_p10 by lia. apply IZR_lt. lia. }
        exists z, (M * 10 ^ (e - (k + 1))). split; [exact Hz|]. rewrite scale10 by lia. rewrite Ez. do 2 f_equal. lia.
      - exists (p10 (P - 1)), (10 ^ (len (d D) - 2)). split; [apply (inside_between inc lo hi z _ v); [exact Hz|exact Iv|lra]|].
        rewrite IZR_p10, <- p10_plus by lia. f_equal. lia. }
    destruct Mul as (y & j & Hy & Ey). pose proof (inside_sym _ _ _ v y (p2 (X - 1)) HL HH Hy) as B.
    assert (Ev : v = (IZR (dread (d D)) * p10 k)%R) by (rewrite <- VD; reflexivity).
    assert (Nz : dread (d D) mod 10 <> 0).
    { destruct HD as (H1 & _ & H2 & _). destruct (exists_last N) as (l' & c & El). rewrite El, dread_snoc.
      unfold no_trail0 in H2. rewrite El, last_last in H2. rewrite El in H1. apply digits_ok_app in H1. destruct H1 as [_ H1]. inversion H1; subst.
      rewrite Z.add_comm, Z_mod_plus_full, Z.mod_small by lia. exact H2. }
    assert (E : (y - v = IZR (10 * j - dread (d D)) * p10 k)%R).
    { rewrite Ey, Ev, minus_IZR, mult_IZR, p10_plus. change (p10 1) with 10%R. ring. }
    assert (J : 1 <= Z.abs (10 * j - dread (d D))).
    { destruct (Z.eq_dec (10 * j - dread (d D)) 0) as [Z0|]; [|lia]. exfalso. apply Nz. replace (dread (d D)) with (0 + j * 10) by lia. rewrite Z_mod_plus_full. reflexivity. }
    rewrite E, Rabs_mult, (Rabs_pos_eq (p10 k)) in B by (apply Rlt_le, p10_pos). rewrite <- abs_IZR in B. apply IZR_le in J. pose proof (p10_pos k). nra.
Qed.

(** When all the digits are given, they are the nearest ones. *)
Lemma early_best D inc lo v hi n q : dnorm D -> dval D = v -> short_result inc lo v hi D -> best D lo v hi n q -> dval D = (IZR q * p10 (dp D - Z.of_nat n))%R.
Proof.
  intros HD VD (_ & N & I & R & _) (_ & B1 & B2 & B3 & B4). pose proof HD as (H1 & _ & H2 & _).
  assert (Sv : sig_digits (len (d D)) v).
  { exists (dread (d D)), (dp D - len (d D)). split; [rewrite <- VD; reflexivity|]. pose proof (dread_range (d D) H1). lia. }
  assert (E : len (d D) = Z.of_nat n).
  { destruct (Z_lt_ge_dec (len (d D)) (Z.of_nat n)) as [A|A].
    - exfalso. rewrite VD in I. apply (B3 v (proj1 I)). apply sig_mono with (2 := Sv). lia.
    - destruct (Z.eq_dec (len (d D)) (Z.of_nat n)) as [|A']; [assumption|exfalso].
      apply (R (IZR q * p10 (dp D - Z.of_nat n))%R); [split; [lra|left; exact B1]|]. apply sig_mono with (2 := B2). lia. }
  unfold dval in VD |- *. unfold lval in *. rewrite E in *. rewrite <- VD in B4. do 2 f_equal. pose proof (p10_pos (dp D - Z.of_nat n)) as Pk.
  rewrite <- Rmult_minus_distr_r, Rabs_mult, (Rabs_pos_eq (p10 _)) in B4 by lra. apply Rmult_lt_reg_r in B4; [|exact Pk].
  rewrite <- minus_IZR, <- abs_IZR in B4. assert (Z.abs (q - dread (d D)) < 1) by (apply lt_IZR; lra). lia.
Qed.

(** A power of ten in the upper half of the interval is close: it would take a mantissa below 10,
    and those are checked one by one. *)
Definition gap_ok (X mt T : Z) : bool :=
  (T + 1 <=? 0) && (X <=? 0) && ((2 * mt + 1) * 10 ^ (- T - 1) <? 2 ^ (1 - X)) && (19 * 2 ^ (- X) <? 20 * mt * 10 ^ (- T)).

Lemma gap_at X mt T k : gap_ok X mt T = true ->
  ~ ((IZR mt * p2 X <= 19 / 20 * p10 k)%R /\ (p10 k <= IZR mt * p2 X + p2 (X - 1))%R).
Proof.
  unfold gap_ok. rewrite !andb_true_iff, !Z.leb_le, !Z.ltb_lt. intros (((T0 & X0) & G1) & G2) [H1 H2].
  apply IZR_lt in G1, G2. rewrite !mult_IZR, plus_IZR, mult_IZR, IZR_p10, IZR_pow2 in G1 by lia. rewrite !mult_IZR, IZR_p10, IZR_pow2 in G2 by lia.
  pose proof (p2_half X) as HX. pose proof (p2_pos X) as PX. destruct (Z_le_gt_dec k T) as [L|L].
  - pose proof (p10_le k T L) as Q. pose proof (p10_opp T) as O. pose proof (p10_pos (- T)) as PT.
    assert (PO : (p2 X * p2 (- X) = 1)%R) by (rewrite <- p2_plus; replace (X + - X) with 0 by lia; reflexivity).
    assert (A : (IZR mt * p2 X * p10 (- T) <= 19 / 20)%R).
    { apply Rle_trans with (19 / 20 * p10 T * p10 (- T))%R; [apply Rmult_le_compat_r; lra|]. rewrite Rmult_assoc, O. lra. }
    apply Rmult_lt_compat_l with (r := p2 X) in G2; [|exact PX]. lra.
  - pose proof (p10_le (T + 1) k ltac:(lia)) as Q. pose proof (p10_opp (T + 1)) as O. pose proof (p10_pos (- (T + 1))) as PT. replace (- T - 1) with (- (T + 1)) in G1 by lia.
    assert (PO : (p2 X * p2 (1 - X) = 2)%R) by (rewrite <- p2_plus; replace (X + (1 - X)) with 1 by lia; reflexivity).
    assert (A : (1 <= (IZR mt * p2 X + p2 (X - 1)) * p10 (- (T + 1)))%R).
    { rewrite <- O. apply Rmult_le_compat_r; lra. }
    apply Rmult_lt_compat_l with (r := p2 X) in G1; [|exact PX]. rewrite HX in A. lra.
Qed.

Section Parts.
Variables (flt : floatInfo) (mb eb mt e w : Z).
Hypothesis Hf : format_of flt mb eb.
Hypothesis Hp : float_parts mb eb mt e.
Hypothesis Hmt : 0 < mt.
Hypothesis Hw : w = 32 \/ w = 64.
Let X := e - mb.
Let v := (IZR mt * p2 X)%R.
Let lo := mid_lo mb eb v.
Let hi := mid_hi mb eb v.
Let inc := Z.even mt.

Lemma flt_of : flt_ok flt /\ mb = mantbits flt /\ eb = expbits flt.
Proof. apply format_ok. exact Hf. Qed.

Lemma X2 : p2 (X - 2) = (p2 (X - 1) / 2)%R.
Proof. replace (X - 2) with (X - 1 - 1) by lia. apply p2_half. Qed.

Lemma v_ge : (p2 X <= v)%R.
Proof. unfold v. pose proof (p2_pos X). assert (1 <= IZR mt)%R by (apply IZR_le; lia). nra. Qed.

Lemma bounds_facts : (v / 2 <= lo < v)%R /\ (v < hi <= 3 / 2 * v)%R /\ (v - p2 (X - 1) <= lo)%R /\ hi = (v + p2 (X - 1))%R /\
  (inc = false -> (hi - v = v - lo)%R) /\
  lo = (v - (if (2 ^ mb <? mt) || (e =? 2 - 2 ^ (eb - 1)) then p2 (X - 1) else p2 (X - 2)))%R.
Proof.
  destruct (parts_range flt mb eb mt e Hf Hp) as (M & E & M1 & M2 & Em & Ee & Eb).
  assert (M10 : 10 <= mb) by (destruct Hf as [(_ & -> & _)|[(_ & -> & _)|(_ & -> & _)]]; lia).
  pose proof (mid_lo_val mb eb ltac:(lia) ltac:(lia) mt e (parts_weaken _ _ _ _ Hp) Hmt) as ML.
  pose proof (mid_hi_val mb eb ltac:(lia) ltac:(lia) mt e (parts_weaken _ _ _ _ Hp) Hmt) as MH.
  cbn zeta in ML, MH. fold X v in ML, MH. fold lo in ML. fold hi in MH. pose proof v_ge as VG. pose proof (p2_half X) as H1. pose proof X2 as H2. pose proof (p2_pos X) as P2.
  assert (C : ((mt =? 2 ^ mb) && negb (e =? 2 - 2 ^ (eb - 1))) = negb ((2 ^ mb <? mt) || (e =? 2 - 2 ^ (eb - 1)))).
  { destruct (Z.eqb_spec e (2 - 2 ^ (eb - 1))); [rewrite orb_true_r, andb_false_r; reflexivity|]. rewrite orb_false_r, andb_true_r.
    destruct Hp as [Hq|Hq]; [|lia]. destruct (Z.eqb_spec mt (2 ^ mb)); destruct (Z.ltb_spec (2 ^ mb) mt); try reflexivity; lia. }
  rewrite C in ML. clear C.
  assert (Odd : inc = false -> mt <> 2 ^ mb).
  { intros O E2. unfold inc in O. rewrite E2, Z.even_pow in O by lia. discriminate. }
  destruct ((2 ^ mb <? mt) || (e =? 2 - 2 ^ (eb - 1))) eqn:C; cbn [negb] in ML.
  - repeat split; lra.
  - repeat split; try lra. intros O. exfalso. apply orb_false_elim in C. destruct C as [C1 C2]. apply Z.ltb_ge in C1. apply Z.eqb_neq in C2. specialize (Odd O).
    destruct Hp as [Hq|Hq]; lia.
Qed.

Lemma gap k : ~ ((v <= 19 / 20 * p10 k)%R /\ (p10 k <= hi)%R).
Proof.
  destruct bounds_facts as (_ & _ & _ & F4 & _). rewrite F4. intros H. assert (M : mt <= 9).
  { destruct H as [H1 H2]. pose proof (p2_half X) as HX. pose proof (p2_pos X) as PX. unfold v in *.
    assert (A : (IZR mt * p2 X < 10 * p2 X)%R) by lra. apply Rmult_lt_reg_r in A; [|exact PX]. apply lt_IZR in A. lia. }
  assert (E : e = 2 - 2 ^ (eb - 1)).
  { destruct Hp as [[Q _]|[_ Q]]; [|exact Q]. exfalso. assert (M10 : 10 <= mb) by (destruct Hf as [(_ & -> & _)|[(_ & -> & _)|(_ & -> & _)]]; lia).
    assert (2 ^ 10 <= 2 ^ mb) by (apply Z.pow_le_mono_r; lia). lia. }
  revert H. unfold v. assert (D : mt = 1 \/ mt = 2 \/ mt = 3 \/ mt = 4 \/ mt = 5 \/ mt = 6 \/ mt = 7 \/ mt = 8 \/ mt = 9) by lia.
  destruct Hf as [(_ & Emb & Eeb)|[(_ & Emb & Eeb)|(_ & Emb & Eeb)]].
  - replace X with (-24) by (unfold X; rewrite E, Emb, Eeb; reflexivity).
    destruct D as [->|[->|[->|[->|[->|[->|[->|[->| ->]]]]]]]]; first [apply (gap_at _ _ (-8)); vm_compute; reflexivity|apply (gap_at _ _ (-7)); vm_compute; reflexivity].
  - replace X with (-149) by (unfold X; rewrite E, Emb, Eeb; reflexivity).
    destruct D as [->|[->|[->|[->|[->|[->|[->|[->| ->]]]]]]]]; first [apply (gap_at _ _ (-45)); vm_compute; reflexivity|apply (gap_at _ _ (-44)); vm_compute; reflexivity].
  - replace X with (-1074) by (unfold X; rewrite E, Emb, Eeb; reflexivity).
    destruct D as [->|[->|[->|[->|[->|[->|[->|[->| ->]]]]]]]]; first [apply (gap_at _ _ (-324)); vm_compute; reflexivity|apply (gap_at _ _ (-323)); vm_compute; reflexivity].
Qed.

Lemma roundShortest_full : exists a b r, Decimal.Assign Decimal.new_decimal mt = Ret a /\ Decimal.Shift w a (e - mantbits flt) = Ret b /\
  roundShortest w b mt e flt = Ret r /\ short_result inc lo v hi r /\
  (forall n q, best b lo v hi n q -> dval r = (IZR q * p10 (dp b - Z.of_nat n))%R) /\ dnorm b /\ dval b = v /\ closest inc lo v hi (dval r).
Proof.
  destruct (parts_range flt mb eb mt e Hf Hp) as (M & E & M1 & M2 & Em & Ee & Eb).
  destruct (exact_dec flt mb eb mt e w Hf Hp Hw) as (a & b & E1 & E2 & B1 & B2 & B3 & B4). fold X v in B3.
  destruct bounds_facts as (F1 & F2 & F3 & F4 & F5 & F6).
  assert (Vp : (0 < v)%R) by (pose proof v_ge; pose proof (p2_pos X); lra).
  exists a, b. enough (Hr : exists r, roundShortest w b mt e flt = Ret r /\ short_result inc lo v hi r /\ (forall n q, best b lo v hi n q -> dval r = (IZR q * p10 (dp b - Z.of_nat n))%R) /\ closest inc lo v hi (dval r)) by (destruct Hr as (r & R1 & R2 & R3 & R4); exists r; auto 12).
  unfold roundShortest. destruct (Z.eqb_spec mt 0); [lia|]. rewrite Eb, Em. replace (1 - 2 ^ (eb - 1) + 1) with (2 - 2 ^ (eb - 1)) by lia.
  destruct ((2 - 2 ^ (eb - 1) <? e) && (100 * (e - mb) <=? 332 * (dp b - nd b))) eqn:C.
  - exists b. split; [reflexivity|]. apply andb_prop in C. destruct C as [_ C]. apply Z.leb_le in C.
    assert (Y : short_result inc lo v hi b) by (apply (early_ok b inc lo v hi X); auto; lia). split; [exact Y|].
    split; [intros n1 q1; apply (early_best b inc lo v hi n1 q1 B1 B3 Y)|]. rewrite B3. split; [|intros _ _; split; [lra|auto]].
    intros _ z _ _. unfold Rminus. rewrite Rplus_opp_r, Rabs_R0. split; [apply Rabs_pos|]. intros Q Ne. exfalso. symmetry in Q. apply Rabs_eq_R0 in Q. apply Ne. lra.
  - assert (U1 : u64 (u64 (mt * 2) + 1) = 2 * mt + 1) by (unfold u64; rewrite (Z.mod_small (mt * 2)) by lia; rewrite Z.mod_small by lia; lia). rewrite U1.
    destruct (c40_fmt w (2 * mt + 1) (e - mb - 1) Hw ltac:(lia) ltac:(lia)) as (ua & ub & U2 & U3 & U4 & U5 & U6). rewrite U2. cbn [bind]. rewrite U3. cbn [bind].
    assert (UV : dval ub = hi).
    { rewrite U6, F4. fold X. unfold v. rewrite (p2_half X), plus_IZR, mult_IZR. lra. }
    set (lw := if (2 ^ mb <? mt) || (e =? 2 - 2 ^ (eb - 1)) then (u64 (mt - 1), e) else (u64 (u64 (mt * 2) - 1), e - 1)).
    assert (LW : exists ml el la lb, lw = (ml, el) /\ Decimal.Assign Decimal.new_decimal (u64 (u64 (ml * 2) + 1)) = Ret la /\
      Decimal.Shift w la (el - mb - 1) = Ret lb /\ dnorm lb /\ dval lb = lo).
    { unfold lw. destruct ((2 ^ mb <? mt) || (e =? 2 - 2 ^ (eb - 1))).
      - destruct (c40_fmt w (2 * mt - 1) (e - mb - 1) Hw ltac:(lia) ltac:(lia)) as (la & lb & L2 & L3 & L4 & L5 & L6).
        exists (mt - 1), e, la, lb. split; [unfold u64; rewrite Z.mod_small by lia; reflexivity|].
        split; [unfold u64; rewrite (Z.mod_small ((mt - 1) * 2)) by lia; rewrite Z.mod_small by lia; replace ((mt - 1) * 2 + 1) with (2 * mt - 1) by lia; exact L2|].
        split; [exact L3|]. split; [exact L4|]. rewrite L6, F6. fold X. unfold v. rewrite (p2_half X), minus_IZR, mult_IZR. lra.
      - destruct (c40_fmt w (4 * mt - 1) (e - 1 - mb - 1) Hw ltac:(lia) ltac:(lia)) as (la & lb & L2 & L3 & L4 & L5 & L6).
        exists (2 * mt - 1), (e - 1), la, lb. split; [unfold u64; rewrite (Z.mod_small (mt * 2)) by lia; rewrite Z.mod_small by lia; f_equal; lia|].
        split; [unfold u64; rewrite (Z.mod_small ((2 * mt - 1) * 2)) by lia; rewrite Z.mod_small by lia; replace ((2 * mt - 1) * 2 + 1) with (4 * mt - 1) by lia; exact L2|].
        split; [exact L3|]. split; [exact L4|]. rewrite L6, F6. replace (e - 1 - mb - 1) with (X - 2) by (unfold X; lia). unfold v. rewrite X2, (p2_half X), minus_IZR, mult_IZR. lra. }
    destruct LW as (ml & el & la & lb & -> & L2 & L3 & L4 & L5). rewrite L2. cbn [bind]. rewrite L3. cbn [bind].
    eexists. split; [reflexivity|].
    replace (mt mod 2 =? 0) with inc.
    2:{ unfold inc. pose proof (Zmod_even mt) as ME. destruct (Z.even mt); rewrite ME; reflexivity. }
    assert (I0 : inv b lb ub inc hi 0) by (apply (inv_0 b lb ub inc lo v hi); auto).
    change 0 with (Z.of_nat 0). split; [apply (rs_loop_ok b lb ub inc lo v hi); auto; lia|].
    split; [intros n1 q1 Bq; apply (rs_loop_best b lb ub inc lo v hi); auto; try lia; apply gap|apply (rs_loop_closest b lb ub inc lo v hi); auto; try lia; apply gap].
Qed.

Lemma roundShortest_ok : exists a b r, Decimal.Assign Decimal.new_decimal mt = Ret a /\ Decimal.Shift w a (e - mantbits flt) = Ret b /\
  roundShortest w b mt e flt = Ret r /\ short_result inc lo v hi r.
Proof. destruct roundShortest_full as (a & b & r & R1 & R2 & R3 & R4 & _). exists a, b, r. auto. Qed.

(** * Both paths give the same digits *)
Lemma fast_best b l p : dnorm b -> dval b = v -> shortest_between lo hi l p -> (Rabs (lval l p - v) < / 2 * p10 (p - len l))%R ->
  exists n q, best b lo v hi n q /\ lval l p = (IZR q * p10 (dp b - Z.of_nat n))%R.
Proof.
  intros HB VB ((D1 & D2 & D3 & D4) & S1 & S2) S3. destruct bounds_facts as (F1 & F2 & _). pose proof v_ge as VG. pose proof (p2_pos X) as PX.
  assert (Nb : d b <> []) by (intros E; rewrite <- VB, (dval_nil b E) in VG; lra).
  pose proof (dval_pos b HB Nb) as RB. rewrite VB in RB. pose proof (lval_range l p D1 D2 D4) as RL.
  assert (L1 : (1 <= length l)%nat) by (destruct l; [contradiction|cbn [length]; lia]).
  assert (SG : sig_digits (len l) (lval l p)).
  { exists (dread l), (p - len l). split; [reflexivity|]. pose proof (dread_range l D1). lia. }
  assert (One : forall k, (lo <= p10 k <= hi)%R -> length l = 1%nat).
  { intros k Hk. destruct (Nat.eq_dec (length l) 1) as [|Ne]; [assumption|exfalso]. apply (S2 _ Hk). exists 1, k. split; [ring|]. change (Z.abs 1) with (10 ^ 0). apply Z.pow_lt_mono_r; lia. }
  exists (length l). destruct (Z.lt_trichotomy p (dp b)) as [C|[C|C]].
  - (* below the power of ten under v: too far away *)
    exfalso. assert (K1 : (p10 p <= p10 (dp b - 1))%R) by (apply p10_le; lia).
    assert (O1 : length l = 1%nat) by (apply (One (dp b - 1)); lra). rewrite O1 in S3. change (Z.of_nat 1) with 1 in S3.
    destruct l as [|c [|? ?]]; try discriminate. unfold lval in *. change (len [c]) with 1 in *. inversion D1; subst. change (dread [c]) with c in *.
    replace p with (p - 1 + 1) in K1 by lia. rewrite p10_plus in K1. change (p10 1) with 10%R in K1. pose proof (p10_pos (p - 1)). apply Rabs_def2 in S3.
    assert (IZR c <= 9)%R by (apply IZR_le; lia). nra.
  - exists (dread l). subst p. split; [|reflexivity]. split; [exact L1|]. split; [exact S1|]. split; [exact SG|]. split; [exact S2|]. exact S3.
  - assert (K1 : (p10 (dp b) <= p10 (p - 1))%R) by (apply p10_le; lia).
    assert (O1 : length l = 1%nat) by (apply (One (dp b)); lra).
    destruct l as [|c [|? ?]]; try discriminate. unfold lval in *. change (len [c]) with 1 in *. inversion D1; subst. change (dread [c]) with c in *.
    pose proof (p10_pos (p - 1)) as P1. apply Rabs_def2 in S3.
    assert (c = 1).
    { unfold no_lead0 in D2. cbn [hd] in D2. assert (c < 2); [|lia]. apply lt_IZR. apply Rmult_lt_reg_r with (p10 (p - 1)); [exact P1|]. lra. }
    subst c. assert (Ep : p = dp b + 1).
    { assert (p - 1 < dp b + 1); [|lia]. apply p10_lt_inv. rewrite (p10_plus (dp b) 1). change (p10 1) with 10%R. lra. }
    subst p. replace (dp b + 1 - 1) with (dp b) in * by lia. rewrite Rmult_1_l in *.
    assert (G : (19 / 20 * p10 (dp b) < v)%R) by (apply Rnot_le_lt; intros Q; apply (gap (dp b)); split; lra).
    assert (E10 : (p10 (dp b) = 10 * p10 (dp b - 1))%R) by (replace (dp b) with (dp b - 1 + 1) at 1 by lia; rewrite p10_plus; change (p10 1) with 10%R; ring).
    exists 10. unfold best. change (Z.of_nat (length [1])) with 1 in *. rewrite <- E10. split; [|reflexivity]. split; [exact L1|]. split; [exact S1|]. split; [exact SG|]. split; [exact S2|].
    apply Rabs_def1; lra.
Qed.

Lemma short_same fmt prec ng : prec < 0 -> ftoa_digits w true [] fmt prec ng mt e flt = ftoa_digits w false [] fmt prec ng mt e flt.
Proof.
  intros Hprec. unfold ftoa_digits. cbn [negb]. destruct (Z.ltb_spec prec 0); [|lia].
  destruct (c49 flt mb eb mt e ng (mkSlice [] 32 0 false) Hf Hp Hmt ltac:(cbn; lia)) as (f & lower & upper & s & ok & E1 & E2 & H1).
  rewrite E1, E2. cbn [bind]. destruct ok; [|reflexivity]. destruct (H1 eq_refl) as (S1 & _ & S3). fold X v in S1, S3. fold lo hi in S1.
  destruct roundShortest_full as (a & b & r & R1 & R2 & R3 & (N1 & N2 & _) & RB & B1 & B2 & _).
  destruct (fast_best b (sd s) (sdp s) B1 B2 S1 S3) as (n & q & Bq & Eq). specialize (RB n q Bq). rewrite <- Eq in RB. destruct S1 as ((D1 & D2 & D3 & D4) & _).
  destruct (lval_unique (sd s) (sdp s) (d r) (dp r)) as [Ed Edp]; try assumption; try apply N1; [symmetry; exact RB|].
  unfold bigFtoa. rewrite R1. cbn [bind]. rewrite R2. cbn [bind]. destruct (Z.ltb_spec prec 0); [|lia]. rewrite R3. cbn [bind]. f_equal.
  unfold snd_, nd. rewrite <- Ed, <- Edp. destruct s as [sl sc sp sn]. cbn [sd sdp].
  replace (Z.max (len sl - 1) 0) with (len sl - 1) by (destruct sl; [contradiction|cbn [length]; lia]). apply formatDigits_slice.
Qed.

(** * Both paths *)
Definition short_digits (l : list Z) (p : Z) : Prop :=
  dg l p /\ l <> [] /\ inside inc lo hi (lval l p) /\ (forall z, inside inc lo hi z -> ~ sig_digits (len l - 1) z) /\ -340 < p <= 340 /\ near v l p /\ closest inc lo v hi (lval l p).

Lemma inside_range l p : dg l p -> l <> [] -> inside inc lo hi (lval l p) -> -340 < p <= 340.
Proof.
  intros D N [I _]. pose proof (dg_range l p D N) as R. destruct bounds_facts as (F1 & F2 & _).
  destruct (exact_dec flt mb eb mt e w Hf Hp Hw) as (a & b & E1 & E2 & B1 & B2 & B3 & B4). fold X v in B3.
  assert (Vp : (0 < v)%R) by (pose proof v_ge; pose proof (p2_pos X); lra).
  assert (Nb : d b <> []) by (intros En; rewrite <- B3, (dval_nil b En) in Vp; lra).
  pose proof (dval_pos b B1 Nb) as Rb. rewrite B3 in Rb.
  assert (p - 1 < dp b + 1) by (apply p10_lt_inv; rewrite (p10_plus (dp b) 1); change (p10 1) with 10%R; lra).
  assert (dp b - 2 < p).
  { apply p10_lt_inv. replace (dp b - 1) with (dp b - 2 + 1) in Rb by lia. rewrite (p10_plus (dp b - 2) 1) in Rb. change (p10 1) with 10%R in Rb. pose proof (p10_pos (dp b - 2)). lra. }
  lia.
Qed.

Definition short_prec (fmt : Z) (l : list Z) (p prec : Z) : Z :=
  if is_e fmt then len l - 1 else if is_f fmt then Z.max (len l - p) 0 else if is_g fmt then len l else prec.

Lemma slow_short fmt prec ng : prec < 0 -> exists l p, short_digits l p /\ forall cap sg,
  bigFtoa w [] prec fmt ng mt e flt = Ret (formatDigits [] true ng (mkSlice l cap p sg) (short_prec fmt l p prec) fmt).
Proof.
  intros Hprec. destruct roundShortest_full as (a & b & r & E1 & E2 & E3 & (R1 & R2 & R3 & R4 & R5) & _ & _ & _ & R6).
  exists (d r), (dp r). split.
  - apply dnorm_dg in R1. split; [exact R1|]. split; [exact R2|]. split; [exact R3|]. split; [exact R4|]. split; [apply (inside_range (d r)); assumption|split; [exact R5|exact R6]].
  - intros cap sg. unfold bigFtoa. rewrite E1. cbn [bind]. rewrite E2. cbn [bind]. destruct (Z.ltb_spec prec 0); [|lia]. rewrite E3. cbn [bind]. f_equal. apply formatDigits_slice.
Qed.

Lemma both_short opt fmt prec ng : prec < 0 -> exists l p, short_digits l p /\ forall cap sg,
  ftoa_digits w opt [] fmt prec ng mt e flt = Ret (formatDigits [] true ng (mkSlice l cap p sg) (short_prec fmt l p prec) fmt).
Proof. intros Hprec. destruct opt; [rewrite (short_same fmt prec ng Hprec)|]; apply slow_short; exact Hprec. Qed.

(** * Reading back *)
Lemma inside_reads x : inside inc lo hi x -> rn mb eb x = v.
Proof.
  intros [I1 I2]. assert (M10 : 10 <= mb /\ 2 <= eb) by (destruct Hf as [(_ & -> & ->)|[(_ & -> & ->)|(_ & -> & ->)]]; lia).
  apply (reads_back mb eb ltac:(lia) ltac:(lia) mt e (parts_weaken _ _ _ _ Hp) Hmt); [exact I1|]. exact I2.
Qed.

Lemma reads_inside x : rn mb eb x = v -> inside inc lo hi x.
Proof.
  intros H. assert (M10 : 10 <= mb /\ 2 <= eb) by (destruct Hf as [(_ & -> & ->)|[(_ & -> & ->)|(_ & -> & ->)]]; lia).
  assert (Pg : Prec_gt_0 (mb + 1)) by (unfold Prec_gt_0; lia).
  assert (VE : Valid_exp (fx mb eb)) by (unfold fx; apply FLT_exp_valid; exact Pg).
  pose proof (parts_format mb eb ltac:(lia) ltac:(lia) mt e (parts_weaken _ _ _ _ Hp) Hmt) as GF. fold X v in GF.
  assert (HR : Generic_fmt.round radix2 (fx mb eb) ZnearestE x = v) by exact H.
  assert (I : (lo <= x <= hi)%R).
  { split.
    - pose proof (round_N_ge_ge_midp radix2 (fx mb eb) (fun n => negb (Z.even n)) v x GF) as Q. unfold lo, mid_lo. rewrite (Rplus_comm (pred _ _ _)).
      apply Q. change (Znearest (fun n => negb (Z.even n))) with ZnearestE. lra.
    - pose proof (round_N_le_le_midp radix2 (fx mb eb) (fun n => negb (Z.even n)) v x GF) as Q. unfold hi, mid_hi.
      apply Q. change (Znearest (fun n => negb (Z.even n))) with ZnearestE. lra. }
  split; [exact I|]. destruct inc eqn:Hinc; [right; reflexivity|left].
  destruct bounds_facts as (F1 & F2 & F3 & F4 & F5 & _). specialize (F5 Hinc).
  pose proof (parts_hi mb eb ltac:(lia) ltac:(lia) mt e (parts_weaken _ _ _ _ Hp) Hmt) as Ph. fold X v in Ph.
  pose proof (parts_lo mb eb ltac:(lia) mt e (parts_weaken _ _ _ _ Hp)) as Pl. fold X v in Pl.
  pose proof (p2_half X) as H2. pose proof (p2_pos X) as PX. pose proof v_ge as VG.
  assert (O : Z.even (mt - 1) = true) by (rewrite Z.even_sub; unfold inc in Hinc; rewrite Hinc; reflexivity).
  (* a tie rounds away from the odd mantissa *)
  assert (T : forall z m, (0 < z)%R -> (z < p2 (e + 1))%R -> e = 2 - 2 ^ (eb - 1) \/ (p2 e <= z)%R -> Z.even m = true ->
    (Rabs (z - IZR m * p2 X) <= p2 (X - 1))%R -> m <> mt -> rn mb eb z <> v).
  { intros z m Z1 Z2 Z3 Z4 Z5 Z6 Z7. rewrite (round_parts mb eb X m z) in Z7.
    - unfold v in Z7. apply Rmult_eq_reg_r in Z7; [|lra]. apply eq_IZR in Z7. lia.
    - apply (fx_at mb eb ltac:(lia) ltac:(lia) mt e (parts_weaken _ _ _ _ Hp) z Z1 Z2 Z3).
    - exact Z5.
    - right. exact Z4. }
  assert (Hb : (hi < p2 (e + 1))%R).
  { rewrite F4. pose proof (parts_lt mb eb ltac:(lia) ltac:(lia) mt e (parts_weaken _ _ _ _ Hp) Hmt) as LT.
    assert (Q : (IZR (mt + 1) * p2 X <= p2 (e + 1))%R).
    { replace (e + 1) with (mb + 1 + X) by (unfold X; lia). rewrite p2_plus. apply Rmult_le_compat_r; [lra|]. rewrite <- IZR_pow2 by lia. apply IZR_le. lia. }
    rewrite plus_IZR in Q. unfold v. lra. }
  split.
  - apply Rnot_le_lt. intros A. apply (T x (mt - 1)); [lra|lra| |exact O| |lia|exact H].
    + destruct Hp as [[Q1 Q2]|[Q1 Q2]]; [|left; exact Q2]. right.
      assert (mt <> 2 ^ mb) by (intros E2; unfold inc in Hinc; rewrite E2, Z.even_pow in Hinc by lia; discriminate).
      assert (Q : (p2 e <= IZR (mt - 1) * p2 X)%R).
      { replace e with (mb + X) at 1 by (unfold X; lia). rewrite p2_plus. apply Rmult_le_compat_r; [lra|]. rewrite <- IZR_pow2 by lia. apply IZR_le. lia. }
      rewrite minus_IZR in Q. assert (x = lo) by lra. assert (lo = v - p2 (X - 1))%R by lra. unfold v in *. lra.
    + assert (x = v - p2 (X - 1))%R by lra. rewrite minus_IZR. unfold v in *. rewrite H0. apply Rabs_le. lra.
  - apply Rnot_le_lt. intros A. apply (T x (mt + 1)); [lra|lra| | | |lia|exact H].
    + destruct Pl as [Pl|Pl]; [left; exact Pl|right; lra].
    + rewrite Z.even_add. unfold inc in Hinc. rewrite Hinc. reflexivity.
    + assert (x = v + p2 (X - 1))%R by lra. rewrite plus_IZR. unfold v in *. rewrite H0. apply Rabs_le. lra.
Qed.

Lemma closest_reads x : closest inc lo v hi x -> chosen_digits mb eb v x.
Proof.
  intros [C1 C2]. unfold chosen_digits. fold hi. assert (Rh : rn mb eb hi <> v <-> inc = false).
  { split; intros H.
    - destruct inc eqn:Hinc; [exfalso|reflexivity]. apply H, inside_reads. destruct bounds_facts as (F1 & F2 & _). split; [lra|right; exact Hinc].
    - intros R. apply reads_inside in R. destruct R as [_ [R|R]]; [lra|congruence]. }
  split.
  - intros H z Hz Sz. apply C1; [|apply reads_inside, Hz|exact Sz]. intros Hinc n Hn. apply H; [apply Rh; exact Hinc|exact Hn].
  - intros (n & H1 & H2 & H3). destruct (C2 (proj1 Rh H1) (ex_intro _ n (conj H2 H3))) as [C3 C4]. split; [exact C3|]. intros z Hz Sz. apply C4; [apply reads_inside, Hz|exact Sz].
Qed.

End Parts.
