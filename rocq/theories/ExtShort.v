(** Facts about extfloat.go: ShortestDecimal. *)
From Coq Require Import ZArith Reals List Bool Lia Lra.
From Flocq Require Import Core.
From Verif Require Import GoBase BigFloat ExtFloat.
From Verif Require Import Spec BitFacts RoundFacts SpecDec SpecFtoa DecFacts DecFacts2 ExtFacts ExtFixed.
Import ListNotations.
Open Scope Z_scope.

Local Notation len l := (Z.of_nat (length l)).

(** * adjustLastDigit *)
Lemma adjust_loop_ok W unit ub : 0 < unit -> 0 < ub -> 2 * ub <= unit -> forall fuel c t cd,
  0 <= cd -> W - cd <= Z.of_nat fuel * unit ->
  (forall k, 0 <= k -> (k = 0 \/ cd + (k - 1) * unit + unit / 2 + ub < W) -> cd + k * unit + unit < 2 ^ 64) ->
  exists k, 0 <= k /\ adjust_loop fuel (c :: t) cd W unit ub = Ret (c - k :: t, cd + k * unit) /\
    W <= cd + k * unit + unit / 2 + ub /\ (k = 0 \/ cd + (k - 1) * unit + unit / 2 + ub < W).
Proof.
  intros Hu Hb Hub. pose proof (Z.div_mod unit 2 ltac:(lia)) as DM. pose proof (Z.mod_pos_bound unit 2 ltac:(lia)) as R.
  induction fuel as [|fuel IH]; intros c t cd Hcd HW HO.
  - assert (H0 : cd + 0 * unit + unit < 2 ^ 64) by (apply HO; lia).
    exists 0. split; [lia|]. cbn [adjust_loop]. unfold u64. rewrite (Z.mod_small (cd + unit / 2)) by lia. rewrite (Z.mod_small (cd + unit / 2 + ub)) by lia.
    destruct (Z.ltb_spec (cd + unit / 2 + ub) W); [lia|]. split; [|lia]. replace (c - 0) with c by lia. replace (cd + 0 * unit) with cd by lia. reflexivity.
  - assert (H0 : cd + 0 * unit + unit < 2 ^ 64) by (apply HO; lia).
    cbn [adjust_loop]. unfold u64. rewrite (Z.mod_small (cd + unit / 2)) by lia. rewrite (Z.mod_small (cd + unit / 2 + ub)) by lia.
    destruct (Z.ltb_spec (cd + unit / 2 + ub) W) as [L|L].
    + rewrite (Z.mod_small (cd + unit)) by lia.
      destruct (IH (c - 1) t (cd + unit)) as (k & K1 & K2 & K3 & K4).
      * lia.
      * rewrite Nat2Z.inj_succ in HW. lia.
      * intros k Hk HH. replace (cd + unit + k * unit + unit) with (cd + (k + 1) * unit + unit) by ring. apply HO; [lia|]. right.
        destruct HH as [->|HH]; lia.
      * exists (k + 1). split; [lia|]. rewrite K2. split; [|lia]. replace (c - 1 - k) with (c - (k + 1)) by lia.
        replace (cd + unit + k * unit) with (cd + (k + 1) * unit) by ring. reflexivity.
    + exists 0. split; [lia|]. split; [|lia]. replace (c - 0) with c by lia. replace (cd + 0 * unit) with cd by lia. reflexivity.
Qed.

Lemma adjustLastDigit_ok r c cap dp ng cd W A unit ub : 0 < unit -> 0 < ub -> 0 <= cd -> W - cd <= 300 * unit -> 0 < W ->
  2 * ub < 2 ^ 64 -> W + unit / 2 + ub < 2 ^ 64 -> 2 * ub <= A < 2 ^ 64 ->
  (forall k, 0 <= k -> (k = 0 \/ cd + (k - 1) * unit + unit / 2 + ub < W) -> cd + k * unit + unit < 2 ^ 64) ->
  exists s' ok, adjustLastDigit (mkSlice (r ++ [c]) cap dp ng) cd W A unit ub = Ret (s', ok) /\
    (ok = true -> exists k, 0 <= k /\ ub <= cd + k * unit <= A - ub /\ W + unit / 2 + ub < cd + k * unit + unit /\
       (k = 0 \/ cd + (k - 1) * unit + unit / 2 + ub < W) /\
       (c - k <> 0 -> s' = mkSlice (r ++ [c - k]) cap dp ng)).
Proof.
  intros Hu Hb Hcd HW HW0 H2b HWu HA HO. unfold adjustLastDigit. unfold u64 at 1. rewrite (Z.mod_small (2 * ub)) by lia.
  destruct (Z.ltb_spec unit (2 * ub)) as [L|L].
  - eexists _, false. split; [reflexivity|discriminate].
  - cbn [sd scap sdp sneg]. rewrite rev_app_distr. cbn [rev app].
    destruct (adjust_loop_ok W unit ub Hu Hb L 300 c (rev r) cd Hcd ltac:(lia) HO) as (k & K1 & -> & K3 & K4). cbn [bind rev]. rewrite rev_involutive.
    pose proof (Z.div_mod unit 2 ltac:(lia)) as DM. pose proof (Z.mod_pos_bound unit 2 ltac:(lia)) as R.
    assert (HO' : cd + k * unit + unit < 2 ^ 64) by (apply HO; assumption).
    assert (0 <= k * unit) by nia.
    unfold u64. rewrite (Z.mod_small (cd + k * unit + unit)) by lia. rewrite (Z.mod_small (W + unit / 2)) by lia.
    rewrite (Z.mod_small (W + unit / 2 + ub)) by lia.
    destruct (Z.leb_spec (cd + k * unit + unit) (W + unit / 2 + ub)) as [L2|L2].
    { eexists _, false. split; [reflexivity|discriminate]. }
    rewrite (Z.mod_small (A - ub)) by lia.
    destruct (Z.ltb_spec (cd + k * unit) ub) as [L3|L3]; [eexists _, false; split; [reflexivity|discriminate]|].
    destruct (Z.ltb_spec (A - ub) (cd + k * unit)) as [L4|L4]; [eexists _, false; split; [reflexivity|discriminate]|]. cbn [orb].
    destruct (r ++ [c - k]) as [|x [|y t]] eqn:E.
    + destruct r; discriminate.
    + destruct r as [|z r]; [|destruct r; discriminate]. injection E as <-. destruct (Z.eqb_spec (c - k) 0) as [L5|L5].
      * eexists _, true. split; [reflexivity|]. intros _. exists k. split; [lia|]. split; [lia|]. split; [lia|]. split; [lia|]. intros HH. contradiction.
      * eexists _, true. split; [reflexivity|]. intros _. exists k. split; [lia|]. split; [lia|]. split; [lia|]. split; [lia|]. try rewrite E; reflexivity.
    + eexists _, true. split; [reflexivity|]. intros _. exists k. split; [lia|]. split; [lia|]. split; [lia|]. split; [lia|]. try rewrite E; reflexivity.
Qed.

(** * The result *)
Definition short_ok (l u v : R) (s : decimalSlice) : Prop :=
  shortest_between l u (sd s) (sdp s) /\
  (Rabs (lval (sd s) (sdp s) - v) < / 2 * p10 (sdp s - len (sd s)))%R.

Lemma sig_multiple n z k : 0 <= n -> sig_digits n z -> (p10 (k + n - 1) <= z)%R -> exists q, z = (IZR q * p10 k)%R.
Proof.
  intros Hn (M & x & E & HM) H. destruct (Z_le_gt_dec k x) as [L|L].
  - exists (M * 10 ^ (x - k)). rewrite scale10 by lia. rewrite E. do 2 f_equal. lia.
  - exfalso. assert (z < p10 (k + n - 1))%R; [|lra]. rewrite E.
    apply Rlt_le_trans with (IZR (10 ^ n) * p10 x)%R.
    + apply Rmult_lt_compat_r; [apply p10_pos|]. apply IZR_lt. lia.
    + rewrite IZR_p10, <- p10_plus by lia. apply p10_le. lia.
Qed.

Section Core.
Variables (l u v kap : R) (lom upm fm : Z).
Hypothesis Hk : (0 < kap)%R.
Hypothesis Hl : (0 < l)%R.
Hypothesis HV : (IZR fm - 1 < v * kap < IZR fm + 1)%R.
Hypothesis Hsym : (v - l <= u - v)%R.
Hypothesis HL : (IZR lom < l * kap < IZR lom + 2)%R.
Hypothesis HU : (IZR upm - 2 < u * kap < IZR upm)%R.

(** Inside the interval. *)
Lemma short_in N T unit k10 : 0 < T -> (p10 k10 * kap * IZR T = IZR unit)%R ->
  (lom + 2) * T <= N * unit <= (upm - 2) * T -> (l < IZR N * p10 k10 < u)%R.
Proof.
  intros HT E [H1 H2]. apply IZR_le in H1, H2. rewrite !mult_IZR, plus_IZR in H1. rewrite !mult_IZR, minus_IZR in H2. rewrite <- E in H1, H2.
  assert (PT : (0 < IZR T)%R) by (apply IZR_lt; lia).
  replace (IZR N * (p10 k10 * kap * IZR T))%R with ((IZR N * p10 k10 * kap) * IZR T)%R in * by ring.
  apply Rmult_le_reg_r in H1; [|exact PT]. apply Rmult_le_reg_r in H2; [|exact PT].
  split; (apply Rmult_lt_reg_r with kap; [exact Hk|]); lra.
Qed.

(** No shorter decimal: Q' is the truncation of upm to n' digits, and lies below the interval. *)
Lemma short_none n' Q' T unit k10 : 1 <= n' -> 0 < T -> (p10 k10 * kap * IZR T = IZR unit)%R ->
  10 ^ (n' - 1) <= Q' -> Q' * unit <= lom * T -> upm * T < (Q' + 1) * unit -> forall z, (l <= z <= u)%R -> ~ sig_digits n' z.
Proof.
  intros Hn HT E HQ H1 H2 z Hz S. assert (PT : (0 < IZR T)%R) by (apply IZR_lt; lia).
  assert (Pu : (0 < IZR unit)%R) by (rewrite <- E; repeat apply Rmult_lt_0_compat; try assumption; apply p10_pos).
  apply IZR_le in H1. apply IZR_lt in H2. rewrite !mult_IZR in H1, H2. rewrite plus_IZR in H2.
  assert (Z1 : (IZR Q' * p10 k10 < z)%R).
  { apply Rmult_lt_reg_r with (kap * IZR T)%R; [apply Rmult_lt_0_compat; assumption|].
    replace (IZR Q' * p10 k10 * (kap * IZR T))%R with (IZR Q' * (p10 k10 * kap * IZR T))%R by ring. rewrite E.
    apply Rle_lt_trans with (1 := H1). rewrite <- Rmult_assoc. apply Rmult_lt_compat_r; [exact PT|].
    apply Rlt_le_trans with (1 := proj1 HL). apply Rmult_le_compat_r; lra. }
  assert (Z2 : (z < IZR (Q' + 1) * p10 k10)%R).
  { apply Rmult_lt_reg_r with (kap * IZR T)%R; [apply Rmult_lt_0_compat; assumption|].
    replace (IZR (Q' + 1) * p10 k10 * (kap * IZR T))%R with (IZR (Q' + 1) * (p10 k10 * kap * IZR T))%R by ring. rewrite E, plus_IZR.
    apply Rle_lt_trans with (2 := H2). rewrite <- Rmult_assoc. apply Rmult_le_compat_r; [lra|].
    apply Rle_trans with (u * kap)%R; [apply Rmult_le_compat_r; lra|lra]. }
  destruct (sig_multiple n' z k10 ltac:(lia) S) as [q Eq].
  { apply Rle_trans with (2 := Rlt_le _ _ Z1). replace (k10 + n' - 1) with (n' - 1 + k10) by lia. rewrite p10_plus.
    apply Rmult_le_compat_r; [apply Rlt_le, p10_pos|]. rewrite <- IZR_p10 by lia. apply IZR_le. lia. }
  rewrite Eq in Z1, Z2. apply Rmult_lt_reg_r in Z1; [|apply p10_pos]. apply Rmult_lt_reg_r in Z2; [|apply p10_pos].
  apply lt_IZR in Z1, Z2. lia.
Qed.

(** Within half a unit of the last digit. *)
Lemma short_half N T unit k10 cd k : 0 < T -> 0 < unit -> (p10 k10 * kap * IZR T = IZR unit)%R ->
  N * unit = upm * T - (cd + k * unit) -> 0 <= cd < unit -> (lom + 2) * T <= N * unit <= (upm - 2) * T ->
  (upm - fm) * T + unit / 2 + 2 * T < cd + k * unit + unit ->
  (k = 0 \/ cd + (k - 1) * unit + unit / 2 + 2 * T < (upm - fm) * T) ->
  (Rabs (IZR N * p10 k10 - v) < / 2 * p10 k10)%R.
Proof.
  intros HT Hu E HN Hcd Hin H1 H2. assert (PT : (0 < IZR T)%R) by (apply IZR_lt; lia).
  assert (PP : (0 < kap * IZR T)%R) by (apply Rmult_lt_0_compat; assumption).
  pose proof (Z.div_mod unit 2 ltac:(lia)) as DM. pose proof (Z.mod_pos_bound unit 2 ltac:(lia)) as R.
  assert (E2 : (IZR N * p10 k10 * (kap * IZR T) = IZR N * IZR unit)%R) by (rewrite <- E; ring).
  assert (E3 : (/ 2 * p10 k10 * (kap * IZR T) = IZR unit / 2)%R) by (rewrite <- E; field).
  apply Rabs_def1; (apply Rmult_lt_reg_r with (kap * IZR T)%R; [exact PP|]).
  - rewrite E3, Rmult_minus_distr_r, E2.
    assert (V : ((IZR fm - 1) * IZR T <= v * (kap * IZR T))%R) by (rewrite <- Rmult_assoc; apply Rmult_le_compat_r; lra).
    assert (B : (IZR (2 * (N * unit)) < IZR ((fm - 1) * T * 2 + unit))%R).
    { apply IZR_lt. rewrite HN. replace ((fm - 1) * T * 2) with (2 * (fm * T) - 2 * T) by ring.
      replace ((upm - fm) * T) with (upm * T - fm * T) in H1 by ring. lia. }
    rewrite plus_IZR, !mult_IZR, minus_IZR in B. lra.
  - rewrite Ropp_mult_distr_l_reverse, E3, Rmult_minus_distr_r, E2.
    destruct H2 as [->|H2].
    + pose proof (short_in N T unit k10 HT E Hin) as [I1 I2].
      assert (UP : (u < (IZR N + 1) * p10 k10)%R).
      { apply Rmult_lt_reg_r with (kap * IZR T)%R; [exact PP|].
        replace ((IZR N + 1) * p10 k10 * (kap * IZR T))%R with ((IZR N + 1) * IZR unit)%R by (rewrite <- E; ring).
        apply Rlt_le_trans with (IZR upm * IZR T)%R; [rewrite <- Rmult_assoc; apply Rmult_lt_compat_r; [exact PT|apply HU]|].
        rewrite <- plus_IZR, <- !mult_IZR. apply IZR_le. lia. }
      assert (Hlt : (- (/ 2 * p10 k10) < IZR N * p10 k10 - v)%R) by lra.
      rewrite <- E2, <- E3, <- Ropp_mult_distr_l_reverse, <- Rmult_minus_distr_r. apply Rmult_lt_compat_r; assumption.
    + assert (V : (v * (kap * IZR T) <= (IZR fm + 1) * IZR T)%R) by (rewrite <- Rmult_assoc; apply Rmult_le_compat_r; lra).
      assert (B : (IZR ((fm + 1) * T * 2) < IZR (2 * (N * unit) + unit))%R).
      { apply IZR_lt. rewrite HN. replace ((k - 1) * unit) with (k * unit - unit) in H2 by ring.
        replace ((fm + 1) * T * 2) with (2 * (fm * T) + 2 * T) by ring. replace ((upm - fm) * T) with (upm * T - fm * T) in H2 by ring. lia. }
      rewrite plus_IZR, !mult_IZR, plus_IZR in B. lra.
Qed.

(** The digits r ++ [c], the last one lowered by k. *)
Lemma short_final r c k T unit cd dp cap ng : 0 < T -> 0 < unit -> digits_ok (r ++ [c]) -> no_lead0 (r ++ [c]) ->
  (p10 (dp - len (r ++ [c])) * kap * IZR T = IZR unit)%R ->
  upm * T = dread (r ++ [c]) * unit + cd -> 0 <= cd < unit -> 0 <= k ->
  (r = [] \/ dread r * (10 * unit) <= lom * T) ->
  2 * T <= cd + k * unit <= (upm - lom) * T - 2 * T -> 0 <= lom ->
  (upm - fm) * T + unit / 2 + 2 * T < cd + k * unit + unit ->
  (k = 0 \/ cd + (k - 1) * unit + unit / 2 + 2 * T < (upm - fm) * T) ->
  0 < c - k /\ short_ok l u v (mkSlice (r ++ [c - k]) cap dp ng).
Proof.
  intros HT Hu Hd Hlead E HQ Hcd Hkk Hprev Hin Hlom Hw1 Hw2.
  assert (B : (lom + 2) * T <= (dread (r ++ [c]) - k) * unit <= (upm - 2) * T).
  { replace ((dread (r ++ [c]) - k) * unit) with (upm * T - (cd + k * unit)) by lia. lia. }
  rewrite dread_snoc in *. pose proof Hd as Hd0. apply digits_ok_app in Hd. destruct Hd as [Hr Hc].
  assert (Hc' : 0 <= c <= 9) by (inversion Hc; assumption).
  assert (C : 0 < c - k).
  { destruct Hprev as [->|Hprev].
    - change (dread []) with 0 in *. assert (0 < (0 * 10 + c - k) * unit) by lia. nia.
    - assert (0 < (c - k) * unit); [|nia]. replace ((dread r * 10 + c - k) * unit) with (dread r * (10 * unit) + (c - k) * unit) in B by ring. lia. }
  split; [exact C|]. unfold short_ok, shortest_between. cbn [sd sdp].
  assert (Hd' : digits_ok (r ++ [c - k])) by (apply digits_ok_app; split; [exact Hr|repeat constructor; lia]).
  assert (Ln : len (r ++ [c - k]) = len (r ++ [c])) by (rewrite !app_length; reflexivity).
  split; [split; [|split]|].
  - split; [exact Hd'|]. split; [|split].
    + destruct r as [|x r]; [unfold no_lead0; cbn [app hd]; lia|exact Hlead].
    + unfold no_trail0. rewrite last_last. lia.
    + destruct r; discriminate.
  - unfold lval. rewrite Ln, dread_snoc. apply (short_in (dread r * 10 + (c - k)) T unit); [exact HT|exact E|].
    replace (dread r * 10 + (c - k)) with (dread r * 10 + c - k) by lia. exact B.
  - intros z Hz S. rewrite Ln in S. replace (len (r ++ [c]) - 1) with (len r) in S by (rewrite app_length; cbn [length]; lia).
    destruct r as [|x r'].
    + destruct S as (M & x & Ez & HM). cbn [length] in HM. change (10 ^ Z.of_nat 0) with 1 in HM. assert (M = 0) by lia. subst M. lra.
    + destruct Hprev as [?|Hprev]; [discriminate|]. set (r := x :: r') in *.
      apply (short_none (len r) (dread r) T (10 * unit) (dp - len r)) with (z := z); try assumption.
      * unfold r. cbn [length]. lia.
      * rewrite mult_IZR, <- E. replace (dp - len r) with (dp - len (r ++ [c]) + 1) by (rewrite app_length; cbn [length]; lia).
        rewrite p10_plus. change (p10 1) with 10%R. ring.
      * apply dread_lead; [exact Hr|exact Hlead|discriminate].
      * rewrite HQ. replace ((dread r + 1) * (10 * unit)) with ((dread r * 10 + c) * unit + (10 - c) * unit) by ring. nia.
  - unfold lval. rewrite Ln, dread_snoc. apply (short_half (dread r * 10 + (c - k)) T unit (dp - len (r ++ [c])) cd k); try assumption.
    + rewrite HQ. ring.
    + replace (dread r * 10 + (c - k)) with (dread r * 10 + c - k) by lia. exact B.
Qed.
End Core.

(** * The two loops *)
Section Loops.
Variables (l u v kap : R) (lom upm fm sft I F D exp10 cap : Z) (ng : bool).
Hypothesis Hk : (0 < kap)%R.
Hypothesis Hkap : (kap = p10 (- exp10) * p2 sft)%R.
Hypothesis Hl : (0 < l)%R.
Hypothesis HV : (IZR fm - 1 < v * kap < IZR fm + 1)%R.
Hypothesis Hsym : (v - l <= u - v)%R.
Hypothesis HL : (IZR lom < l * kap < IZR lom + 2)%R.
Hypothesis HU : (IZR upm - 2 < u * kap < IZR upm)%R.
Hypothesis Hs : 32 <= sft <= 60.
Hypothesis HI : 4 <= I < 2 ^ 32.
Hypothesis HF : 0 <= F < 2 ^ sft.
Hypothesis Hupm : upm = I * 2 ^ sft + F.
Hypothesis Hupm64 : upm < 2 ^ 64.
Hypothesis HD : 1 <= D <= 10.
Hypothesis HDI : 10 ^ (D - 1) <= I < 10 ^ D.
Hypothesis Hlom : 0 <= lom.
Hypothesis HA : 4 <= upm - lom.
Hypothesis HW : 0 < upm - fm <= upm - lom.
Hypothesis HW3 : 3 * (upm - fm) <= upm + 7.
Hypothesis Hcap : 32 <= cap.

Let P32 : 2 ^ 32 <= 2 ^ sft.
Proof. apply Z.pow_le_mono_r; lia. Qed.
Let P60 : 2 ^ sft <= 2 ^ 60.
Proof. apply Z.pow_le_mono_r; lia. Qed.

Lemma kap_int n m : 0 <= n -> (p10 (D + exp10 - m) * kap * IZR 1 = IZR (10 ^ n * 2 ^ sft))%R <-> m = D - n.
Proof.
  intros Hn. rewrite Hkap, mult_IZR, IZR_p10, IZR_pow2, Rmult_1_r by lia. rewrite <- Rmult_assoc, <- p10_plus.
  split; [|intros ->; do 2 f_equal; lia].
  intros E. apply Rmult_eq_reg_r in E; [|pose proof (p2_pos sft); lra]. apply bpow_inj in E. lia.
Qed.

Lemma shortest_int_ok n : forall integer d,
  Z.of_nat n + len d = D -> I = dread d * 10 ^ Z.of_nat n + integer -> 0 <= integer < 10 ^ Z.of_nat n ->
  digits_ok d -> no_lead0 d -> (d = [] \/ dread d * (10 ^ Z.of_nat n * 2 ^ sft) <= lom) ->
  (exists s' ok, shortest_int n integer F sft (upm - lom) (upm - fm) d cap (D + exp10) ng = Ret (inl (s', ok)) /\ (ok = true -> short_ok l u v s')) \/
  (exists d', shortest_int n integer F sft (upm - lom) (upm - fm) d cap (D + exp10) ng = Ret (inr d') /\
     digits_ok d' /\ no_lead0 d' /\ d' <> [] /\ len d' = D /\ dread d' = I /\ dread d' * 2 ^ sft <= lom).
Proof.
  induction n as [|n IH]; intros integer d Hn HId Hint Hd Hlead Hprev.
  - right. exists d. cbn [shortest_int]. split; [reflexivity|]. split; [exact Hd|]. split; [exact Hlead|].
    assert (Nd : d <> []) by (intros ->; cbn [length] in Hn; lia).
    split; [exact Nd|]. split; [lia|]. change (10 ^ Z.of_nat 0) with 1 in *. split; [lia|]. destruct Hprev as [?|Hprev]; [contradiction|]. lia.
  - cbn [shortest_int]. rewrite at_pow10 by lia. cbn [bind]. rewrite Nat2Z.inj_succ, Z.pow_succ_r in * by lia.
    assert (PP : 0 < 10 ^ Z.of_nat n <= 10 ^ 9) by (split; [apply pow10_pos; lia|apply Z.pow_le_mono_r; lia]).
    assert (PD : 10 ^ Z.of_nat n <= 10 ^ (D - 1)) by (apply Z.pow_le_mono_r; lia).
    set (P := 10 ^ Z.of_nat n) in *. replace (u32 P) with P by (unfold u32; rewrite Z.mod_small; lia).
    unfold push. destruct (Z.ltb_spec (len d) cap); [|lia]. cbn [bind].
    pose proof (Z.div_mod integer P ltac:(lia)) as DM. pose proof (Z.mod_pos_bound integer P ltac:(lia)) as R.
    assert (Q : 0 <= integer / P <= 9) by (split; [apply Z.div_pos; lia|apply Z.lt_succ_r, Z.div_lt_upper_bound; lia]).
    set (q := integer / P) in *.
    assert (D0 : 0 <= dread d) by (apply dread_range; exact Hd).
    assert (Ile : integer <= I) by nia.
    assert (QP : 0 <= q * P <= integer) by nia.
    replace (u32 (integer - u32 (q * P))) with (integer mod P) by (unfold u32; rewrite (Z.mod_small (q * P)) by lia; rewrite (Z.mod_small (integer - q * P)) by lia; lia).
    set (r := integer mod P) in *.
    assert (EQ : upm = dread (d ++ [q]) * (P * 2 ^ sft) + (r * 2 ^ sft + F)).
    { rewrite dread_snoc, Hupm, HId, DM. ring. }
    assert (Pos : 0 < 2 ^ sft) by lia.
    assert (CD : 0 <= r * 2 ^ sft + F < P * 2 ^ sft) by nia.
    assert (Lead : no_lead0 (d ++ [q])).
    { destruct d as [|x d]; [|exact Hlead]. unfold no_lead0. cbn [app hd]. change (dread []) with 0 in HId. cbn [length] in Hn.
      replace (D - 1) with (Z.of_nat n) in HDI by lia. fold P in HDI. nia. }
    assert (Dq : digits_ok (d ++ [q])) by (apply digits_ok_app; split; [exact Hd|repeat constructor; lia]).
    assert (Q1 : 1 <= dread (d ++ [q])).
    { pose proof (dread_lead _ Dq Lead ltac:(destruct d; discriminate)) as HH. pose proof (pow10_pos (len (d ++ [q]) - 1)).
      rewrite app_length in *. cbn [length] in *. lia. }
    set (unit := P * 2 ^ sft) in *. set (cd := r * 2 ^ sft + F) in *.
    assert (U32 : 2 ^ 32 <= unit) by (unfold unit; clear - PP P32; nia).
    assert (Uu : unit + cd <= upm) by (rewrite EQ; clear - Q1 U32; nia).
    replace (u64 (Z.shiftl r sft)) with (r * 2 ^ sft).
    2:{ rewrite Z.shiftl_mul_pow2 by lia. unfold u64. rewrite Z.mod_small; [reflexivity|]. clear - CD Uu Hupm64 HF R Pos. nia. }
    fold cd. replace (u64 cd) with cd by (unfold u64; rewrite Z.mod_small; lia).
    replace (u64 (Z.shiftl P sft)) with unit.
    2:{ rewrite Z.shiftl_mul_pow2 by lia. fold unit. unfold u64. rewrite Z.mod_small; lia. }
    assert (Hprev' : d = [] \/ dread d * (10 * unit) <= lom * 1).
    { destruct Hprev as [?|Hprev]; [left; assumption|right]. unfold unit. rewrite Z.mul_1_r, (Z.mul_assoc 10 P). exact Hprev. }
    destruct (Z.ltb_spec cd (upm - lom)) as [L|L].
    + left.
      assert (W10 : upm - fm < 10 * unit + cd).
      { rewrite dread_snoc in EQ. destruct Hprev' as [E|Hp].
        - rewrite E in EQ. change (dread []) with 0 in EQ. assert (q * unit <= 9 * unit) by (clear - Q U32; nia). replace ((0 * 10 + q) * unit) with (q * unit) in EQ by ring.
          assert (0 <= fm) by lia. lia.
        - assert (q * unit <= 9 * unit) by (clear - Q U32; nia). replace ((dread d * 10 + q) * unit) with (dread d * (10 * unit) + q * unit) in EQ by ring. lia. }
      destruct (adjustLastDigit_ok d q cap (D + exp10) ng cd (upm - fm) (upm - lom) unit 2) as (s' & ok & -> & S).
      * lia.
      * lia.
      * lia.
      * lia.
      * lia.
      * lia.
      * pose proof (Z.div_mod unit 2 ltac:(lia)). pose proof (Z.mod_pos_bound unit 2 ltac:(lia)). lia.
      * lia.
      * intros k K0 K1. pose proof (Z.div_mod unit 2 ltac:(lia)). pose proof (Z.mod_pos_bound unit 2 ltac:(lia)).
        destruct K1 as [->|K1]; [lia|].
        assert (K2 : k + 1 <= dread (d ++ [q])).
        { destruct (Z_le_gt_dec (k + 1) (dread (d ++ [q]))) as [|G]; [assumption|exfalso].
          assert (dread (d ++ [q]) * unit <= k * unit) by (clear - G U32; nia).
          replace ((k - 1) * unit) with (k * unit - unit) in K1 by ring. lia. }
        assert (k * unit + unit <= dread (d ++ [q]) * unit) by (clear - K2 U32; nia). lia.
      * cbn [bind]. exists s', ok. split; [reflexivity|]. intros T. destruct (S T) as (k & K0 & K1 & K2 & K3 & K4).
        destruct (short_final l u v kap lom upm fm Hk Hl HV Hsym HL HU d q k 1 unit cd (D + exp10) cap ng) as [C1 C2]; try assumption; try lia.
        -- apply kap_int; [lia|]. rewrite app_length. cbn [length]. lia.
        -- rewrite K4 by lia. exact C2.
    + destruct (IH r (d ++ [q])) as [G|G].
      * rewrite app_length. cbn [length]. lia.
      * rewrite dread_snoc, HId, DM. ring.
      * lia.
      * exact Dq.
      * exact Lead.
      * right. fold unit. lia.
      * left. exact G.
      * right. exact G.
Qed.

Lemma shortest_frac_ok fuel : forall fraction j d, 0 <= j -> Z.of_nat fuel + j = 40 -> len d = D + j ->
  upm * 10 ^ j = dread d * 2 ^ sft + fraction -> 0 <= fraction < 2 ^ sft -> digits_ok d -> no_lead0 d -> d <> [] ->
  (upm - lom) * 10 ^ j <= fraction ->
  exists s' ok, shortest_frac fuel fraction (10 ^ j) sft (upm - lom) (upm - fm) d cap (D + exp10) ng = Ret (s', ok) /\ (ok = true -> short_ok l u v s').
Proof.
  induction fuel as [|fuel IH]; intros fraction j d Hj Hfuel Hlen EQ Hfr Hd Hlead Nd Hprev.
  - exfalso. assert (j = 40) by (cbn [Z.of_nat] in Hfuel; lia). subst j. lia.
  - assert (P10 : 0 < 10 ^ j) by (apply pow10_pos; lia).
    assert (J18 : j < 18).
    { assert (4 * 10 ^ j <= (upm - lom) * 10 ^ j) by (clear - HA P10; nia). assert (Hlt : 10 ^ j < 10 ^ 18) by lia.
      apply Z.pow_lt_mono_r_iff in Hlt; lia. }
    assert (PT : 10 ^ j <= 10 ^ 17) by (apply Z.pow_le_mono_r; lia).
    cbn [shortest_frac]. replace (u64 (fraction * 10)) with (fraction * 10) by (unfold u64; rewrite Z.mod_small; lia).
    replace (u64 (10 ^ j * 10)) with (10 ^ (j + 1)) by (rewrite Z.pow_add_r by lia; unfold u64; rewrite Z.mod_small; lia).
    assert (ET : 10 ^ (j + 1) = 10 * 10 ^ j) by (rewrite Z.pow_add_r by lia; change (10 ^ 1) with 10; ring).
    rewrite Z.shiftr_div_pow2 by lia. unfold push. destruct (Z.ltb_spec (len d) cap); [|lia]. cbn [bind].
    pose proof (Z.div_mod (fraction * 10) (2 ^ sft) ltac:(lia)) as DM. pose proof (Z.mod_pos_bound (fraction * 10) (2 ^ sft) ltac:(lia)) as R.
    assert (Q : 0 <= fraction * 10 / 2 ^ sft <= 9) by (split; [apply Z.div_pos; lia|apply Z.lt_succ_r, Z.div_lt_upper_bound; lia]).
    set (q := fraction * 10 / 2 ^ sft) in *. rewrite Z.shiftl_mul_pow2 by lia.
    replace (u64 (q * 2 ^ sft)) with (q * 2 ^ sft) by (unfold u64; rewrite Z.mod_small; lia).
    replace (u64 (fraction * 10 - q * 2 ^ sft)) with (fraction * 10 - q * 2 ^ sft) by (unfold u64; rewrite Z.mod_small; lia).
    set (cd := fraction * 10 - q * 2 ^ sft) in *.
    assert (CD : 0 <= cd < 2 ^ sft) by (unfold cd; lia).
    assert (EQ' : upm * 10 ^ (j + 1) = dread (d ++ [q]) * 2 ^ sft + cd).
    { rewrite ET, dread_snoc. unfold cd. replace (upm * (10 * 10 ^ j)) with (10 * (upm * 10 ^ j)) by ring. rewrite EQ. ring. }
    assert (Dq : digits_ok (d ++ [q])) by (apply digits_ok_app; split; [exact Hd|repeat constructor; lia]).
    assert (Lead : no_lead0 (d ++ [q])) by (apply no_lead0_snoc; assumption).
    assert (AT : (upm - lom) * 10 ^ (j + 1) = 10 * ((upm - lom) * 10 ^ j)) by (rewrite ET; ring).
    assert (A10 : 4 * 10 ^ (j + 1) <= (upm - lom) * 10 ^ (j + 1)) by (clear - HA P10 ET; nia).
    assert (WT : 0 < (upm - fm) * 10 ^ (j + 1) <= (upm - lom) * 10 ^ (j + 1)) by (clear - HW P10 ET; nia).
    replace (u64 ((upm - lom) * 10 ^ (j + 1))) with ((upm - lom) * 10 ^ (j + 1)) by (unfold u64; rewrite Z.mod_small; lia).
    replace (u64 ((upm - fm) * 10 ^ (j + 1))) with ((upm - fm) * 10 ^ (j + 1)) by (unfold u64; rewrite Z.mod_small; lia).
    replace (u64 (10 ^ (j + 1) * 2)) with (2 * 10 ^ (j + 1)) by (unfold u64; rewrite Z.mod_small; lia).
    replace (u64 (Z.shiftl 1 sft)) with (2 ^ sft) by (rewrite Z.shiftl_1_l; unfold u64; rewrite Z.mod_small; lia).
    set (unit := 2 ^ sft) in *. set (T := 10 ^ (j + 1)) in *.
    pose proof (Z.div_mod unit 2 ltac:(lia)) as UD. pose proof (Z.mod_pos_bound unit 2 ltac:(lia)) as UR.
    destruct (Z.ltb_spec cd ((upm - lom) * T)) as [L|L].
    + destruct (adjustLastDigit_ok d q cap (D + exp10) ng cd ((upm - fm) * T) ((upm - lom) * T) unit (2 * T)) as (s' & ok & -> & S).
      * lia.
      * lia.
      * lia.
      * lia.
      * lia.
      * lia.
      * lia.
      * lia.
      * intros k K0 K1. destruct K1 as [->|K1]; [lia|].
        replace ((k - 1) * unit) with (k * unit - unit) in K1 by ring. lia.
      * exists s', ok. split; [reflexivity|]. intros TT. destruct (S TT) as (k & K0 & K1 & K2 & K3 & K4).
        destruct (short_final l u v kap lom upm fm Hk Hl HV Hsym HL HU d q k T unit cd (D + exp10) cap ng) as [C1 C2]; try assumption; try lia.
        -- rewrite Hkap, app_length. cbn [length]. unfold T, unit. rewrite IZR_p10, IZR_pow2 by lia.
           replace (p10 (D + exp10 - Z.of_nat (length d + 1)) * (p10 (- exp10) * p2 sft) * p10 (j + 1))%R
             with (p10 (D + exp10 - Z.of_nat (length d + 1)) * p10 (- exp10) * p10 (j + 1) * p2 sft)%R by ring.
           rewrite <- !p10_plus. replace (D + exp10 - Z.of_nat (length d + 1) + - exp10 + (j + 1)) with 0 by lia. rewrite p10_0. ring.
        -- rewrite K4 by lia. exact C2.
    + apply (IH cd (j + 1) (d ++ [q])); try assumption; try lia.
      * rewrite app_length. cbn [length]. lia.
      * destruct d; discriminate.
Qed.
End Loops.

(** * ShortestDecimal *)
Lemma Multiply_gap a b p : 0 <= mant a < 2 ^ 64 -> 0 <= mant b < 2 ^ 64 -> 2 ^ 63 <= mant p < 2 ^ 64 -> mant a <= mant b ->
  mant (Multiply a p) + (mant b - mant a) / 2 <= mant (Multiply b p).
Proof.
  intros Ha Hb Hp H. destruct (Multiply_mant a p Ha ltac:(lia)) as (-> & _). destruct (Multiply_mant b p Hb ltac:(lia)) as (-> & _).
  set (x := mant a) in *. set (y := mant b) in *. set (q := mant p) in *.
  apply Z.div_le_lower_bound; [lia|].
  pose proof (Z.mul_div_le (x * q + 2 ^ 63) (2 ^ 64) ltac:(lia)). pose proof (Z.mul_div_le (y - x) 2 ltac:(lia)).
  assert (0 <= (y - x) / 2) by (apply Z.div_pos; lia).
  assert (2 ^ 64 * ((y - x) / 2) <= (y - x) * q).
  { apply Z.le_trans with ((y - x) * 2 ^ 63); [lia|]. apply Z.mul_le_mono_nonneg_l; lia. }
  lia.
Qed.

Lemma uniformize_ok g up : exp up < exp g -> 0 <= mant g * 2 ^ (exp g - exp up) < 2 ^ 64 ->
  mant (uniformize g up) = mant g * 2 ^ (exp g - exp up) /\ exp (uniformize g up) = exp up /\ neg (uniformize g up) = neg g /\ eval (uniformize g up) = eval g.
Proof.
  intros H R. unfold uniformize. destruct (Z.ltb_spec (exp up) (exp g)); [|lia]. cbn [mant exp neg]. rewrite Z.shiftl_mul_pow2 by lia.
  unfold u64. rewrite Z.mod_small by lia. repeat split. unfold eval. cbn [mant exp]. rewrite mult_IZR, IZR_pow2, Rmult_assoc, <- p2_plus by lia. do 2 f_equal. lia.
Qed.

Lemma ShortestDecimal_ok mt X ng low s : 0 < mt < 2 ^ 53 -> X <> 0 ->
  low = mkExt (2 * mt - 1) (X - 1) ng \/ low = mkExt (4 * mt - 1) (X - 2) ng ->
  -1140 <= X - 1 - (64 - bitlen (2 * mt + 1)) <= 965 -> 32 <= scap s ->
  exists s' ok, ShortestDecimal (mkExt mt X ng) s low (mkExt (2 * mt + 1) (X - 1) ng) = Ret (s', ok) /\
    (ok = true -> short_ok (eval low) (eval (mkExt (2 * mt + 1) (X - 1) ng)) (eval (mkExt mt X ng)) s').
Proof.
  intros Hmt HX Hlow He Hcap. unfold ShortestDecimal. cbn [mant exp]. destruct (Z.eqb_spec mt 0) as [|_]; [lia|].
  destruct (Z.eqb_spec X 0) as [|_]; [contradiction|]. cbn [andb].
  set (f := mkExt mt X ng). set (up := mkExt (2 * mt + 1) (X - 1) ng).
  destruct (Normalize_ok up ltac:(cbn [up mant]; lia)) as (N1 & N2 & N3 & N4 & _ & N5 & N6).
  destruct (Normalize up) as [up1 sh]. cbn [fst] in *. rewrite <- N2. cbn [up mant exp] in N4, N5, N6.
  assert (BL : bitlen (2 * mt + 1) <= 54) by (apply bitlen_le_lt; lia).
  set (bl := bitlen (2 * mt + 1)) in *. clearbody bl. rewrite <- N4 in He.
  assert (P10 : 2 ^ 10 <= 2 ^ (64 - bl)) by (apply Z.pow_le_mono_r; lia).
  assert (E63 : 2 * 2 ^ (63 - bl) = 2 ^ (64 - bl)) by (replace (64 - bl) with (1 + (63 - bl)) by lia; rewrite Z.pow_add_r by lia; reflexivity).
  assert (E65 : 2 ^ (65 - bl) = 2 * 2 ^ (64 - bl)) by (replace (65 - bl) with (1 + (64 - bl)) by lia; rewrite Z.pow_add_r by lia; reflexivity).
  set (S := 2 ^ (64 - bl)) in *.
  assert (MF : mant f * 2 ^ (exp f - exp up1) = 2 * mt * S).
  { cbn [f mant exp]. replace (X - exp up1) with (65 - bl) by lia. rewrite E65. ring. }
  destruct (uniformize_ok f up1) as (F1 & F2 & F3 & F4); [cbn [f exp]; lia|rewrite MF; nia|]. rewrite MF in F1.
  set (f1 := uniformize f up1) in *. clearbody f1.
  assert (ML : exists m, mant low * 2 ^ (exp low - exp up1) = m /\ 0 < m /\ (4 * mt - 2) * S <= 2 * m <= (4 * mt - 1) * S).
  { destruct Hlow as [-> | ->]; cbn [mant exp].
    - replace (X - 1 - exp up1) with (64 - bl) by lia. fold S. eexists. split; [reflexivity|]. split; nia.
    - replace (X - 2 - exp up1) with (63 - bl) by lia. eexists. split; [reflexivity|]. split; nia. }
  destruct ML as (ml & ML & ml0 & ml1).
  destruct (uniformize_ok low up1) as (L1 & L2 & L3 & L4); [destruct Hlow as [-> | ->]; cbn [exp]; lia|rewrite ML; nia|]. rewrite ML in L1.
  rewrite <- L4, <- F4. assert (LP : (0 < eval low)%R).
  { unfold eval. apply Rmult_lt_0_compat; [|apply p2_pos]. destruct Hlow as [-> | ->]; cbn [mant]; apply IZR_lt; lia. }
  rewrite <- L4 in LP. set (l1 := uniformize low up1) in *. clearbody l1.
  unfold frexp10Many. destruct (frexp10_ok up1 N1 He) as (i & p & Hi & Hat & Hp & -> & Hexp). cbn [bind]. rewrite Hat. cbn [bind].
  pose proof (powersOfTen_ok _ _ Hp) as [Hpm Hpe]. rewrite Z2Nat.id in Hpe by lia.
  assert (Rf : 0 <= mant f1 < 2 ^ 64) by nia. assert (Rl : 0 <= mant l1 < 2 ^ 64) by nia.
  pose proof (scale_error up1 p (-348 + 8 * i) ltac:(lia) Hpm Hpe) as ErrU.
  pose proof (scale_error f1 p (-348 + 8 * i) Rf Hpm Hpe) as ErrF.
  pose proof (scale_error l1 p (-348 + 8 * i) Rl Hpm Hpe) as ErrL.
  destruct (Multiply_mant up1 p ltac:(lia) ltac:(lia)) as (_ & XU & _).
  destruct (Multiply_mant f1 p Rf ltac:(lia)) as (_ & XF & _). destruct (Multiply_mant l1 p Rl ltac:(lia)) as (_ & XL & _).
  rewrite F2, <- XU in XF. rewrite L2, <- XU in XL. rewrite XF in ErrF. rewrite XL in ErrL.
  pose proof (Multiply_range up1 p ltac:(lia) ltac:(lia)) as RM. pose proof (Multiply_lower up1 p N1 Hpm) as LM.
  pose proof (Multiply_gap f1 up1 p Rf ltac:(lia) Hpm ltac:(nia)) as G1.
  pose proof (Multiply_gap l1 f1 p Rl Rf Hpm ltac:(nia)) as G2.
  pose proof (Multiply_range l1 p Rl ltac:(lia)) as RL.
  assert (G1' : 256 <= (mant up1 - mant f1) / 2) by (apply Z.div_le_lower_bound; nia).
  assert (G2' : 128 <= (mant f1 - mant l1) / 2) by (apply Z.div_le_lower_bound; nia).
  (* ratios *)
  assert (V1 : (3 * eval f1 >= 2 * eval up1)%R).
  { rewrite N2, F4. unfold eval, f, up. cbn [mant exp]. replace (X - 1) with (X + -1) by lia. rewrite p2_plus. change (p2 (-1)) with (/ 2)%R.
    rewrite plus_IZR, mult_IZR. pose proof (p2_pos X). assert (1 <= IZR mt)%R by (apply IZR_le; lia). nra. }
  assert (V2 : (3 * eval l1 >= eval up1)%R).
  { rewrite N2, L4. unfold eval, up. destruct Hlow as [-> | ->]; cbn [mant exp]; replace (X - 1) with (X + -1) by lia; replace (X - 2) with (X + -2) by lia; rewrite !p2_plus; change (p2 (-1)) with (/ 2)%R; change (p2 (-2)) with (/ 4)%R;
    rewrite plus_IZR, minus_IZR, !mult_IZR; pose proof (p2_pos X); (assert (1 <= IZR mt)%R by (apply IZR_le; lia)); nra. }
  assert (V3 : (eval f1 - eval l1 <= eval up1 - eval f1)%R).
  { rewrite N2, L4, F4. unfold eval, f, up. destruct Hlow as [-> | ->]; cbn [mant exp]; replace (X - 1) with (X + -1) by lia; replace (X - 2) with (X + -2) by lia; rewrite !p2_plus; change (p2 (-1)) with (/ 2)%R; change (p2 (-2)) with (/ 4)%R;
    rewrite plus_IZR, minus_IZR, !mult_IZR; pose proof (p2_pos X); (assert (1 <= IZR mt)%R by (apply IZR_le; lia)); nra. }
  set (gU := Multiply up1 p) in *. set (gF := Multiply f1 p) in *. set (gL := Multiply l1 p) in *.
  set (kap := (p10 (-348 + 8 * i) * p2 (- exp gU))%R).
  replace (eval up1 * p10 (-348 + 8 * i) * p2 (- exp gU))%R with (eval up1 * kap)%R in ErrU by (unfold kap; ring).
  replace (eval f1 * p10 (-348 + 8 * i) * p2 (- exp gU))%R with (eval f1 * kap)%R in ErrF by (unfold kap; ring).
  replace (eval l1 * p10 (-348 + 8 * i) * p2 (- exp gU))%R with (eval l1 * kap)%R in ErrL by (unfold kap; ring).
  assert (Kp : (0 < kap)%R) by (apply Rmult_lt_0_compat; [apply p10_pos|apply p2_pos]).
  apply Rabs_def2 in ErrU. apply Rabs_def2 in ErrF. apply Rabs_def2 in ErrL.
  set (uu := eval up1) in *. set (vv := eval f1) in *. set (ll := eval l1) in *. clearbody uu vv ll.
  assert (V1' : (2 * (uu * kap) <= 3 * (vv * kap))%R) by nra. assert (V2' : (uu * kap <= 3 * (ll * kap))%R) by nra.
  assert (UM : (IZR (2 ^ 62) <= IZR (mant gU))%R) by (apply IZR_le; lia).
  assert (LmPos : 1 <= mant gL).
  { apply le_IZR. assert (IZR (2 ^ 62) >= 100)%R by (apply Rle_ge, IZR_le; lia). lra. }
  assert (W3 : 3 * (mant gU + 1 - mant gF) <= mant gU + 1 + 7).
  { apply le_IZR. rewrite mult_IZR, !plus_IZR, minus_IZR, plus_IZR. lra. }
  replace (u64 (mant gU + 1)) with (mant gU + 1) by (unfold u64; rewrite Z.mod_small; lia).
  replace (u64 (mant gL - 1)) with (mant gL - 1) by (unfold u64; rewrite Z.mod_small; lia).
  set (upm := mant gU + 1) in *. set (lom := mant gL - 1) in *. set (fm := mant gF) in *.
  assert (Hupm : 2 ^ 62 < upm < 2 ^ 64) by (unfold upm; lia).
  replace (u64 (- exp gU)) with (- exp gU) by (unfold u64; rewrite Z.mod_small; lia).
  unfold kap in *. set (sft := - exp gU) in *. fold kap in Kp.
  assert (Hs : 32 <= sft <= 60) by lia.
  destruct (split_mant upm sft Hs ltac:(lia)) as (-> & -> & HI & HF & EM).
  set (I := upm / 2 ^ sft) in *. set (F := upm mod 2 ^ sft) in *.
  assert (P32 : 2 ^ 32 <= 2 ^ sft) by (apply Z.pow_le_mono_r; lia). assert (P60 : 2 ^ sft <= 2 ^ 60) by (apply Z.pow_le_mono_r; lia).
  assert (I4 : 4 <= I) by (clear - EM HF P60 Hupm; nia).
  destruct (integerDigits_ok I ltac:(lia)) as (HD & HD2 & HD3). set (D := integerDigits_of I) in *. clearbody D.
  assert (D1 : 1 <= D) by (destruct (Z.eq_dec D 0) as [->|]; [change (10 ^ 0) with 1 in HD2; lia|lia]).
  destruct HD3 as [?|HD3]; [lia|].
  assert (D10 : D <= 10).
  { destruct (Z_le_gt_dec D 10); [assumption|]. assert (10 ^ 10 <= 10 ^ (D - 1)) by (apply Z.pow_le_mono_r; lia). lia. }
  replace (u64 (upm - lom)) with (upm - lom) by (unfold u64, upm, lom; rewrite Z.mod_small; lia).
  replace (u64 (upm - fm)) with (upm - fm) by (unfold u64, upm, fm; rewrite Z.mod_small; lia).
  assert (HkE : kap = (p10 (- (348 - 8 * i)) * p2 sft)%R).
  { unfold kap. do 2 f_equal. lia. }
  assert (HLk : (IZR lom < ll * kap < IZR lom + 2)%R) by (unfold lom; rewrite minus_IZR; unfold kap; lra).
  assert (HVk : (IZR fm - 1 < vv * kap < IZR fm + 1)%R) by (unfold kap; lra).
  assert (HUk : (IZR upm - 2 < uu * kap < IZR upm)%R) by (unfold upm; rewrite plus_IZR; unfold kap; lra).
  assert (A4 : 4 <= upm - lom) by (unfold upm, lom; lia).
  assert (WA : 0 < upm - fm <= upm - lom) by (unfold upm, lom, fm; lia).
  destruct (shortest_int_ok ll uu vv kap lom upm fm sft I F D (348 - 8 * i) (scap s) (neg gF) Kp HkE LP HVk V3 HLk HUk Hs ltac:(lia) HF EM ltac:(lia) ltac:(lia) ltac:(lia) ltac:(unfold lom; lia) A4 WA W3 Hcap (Z.to_nat D) I [])
    as [(s' & ok & -> & OK)|(d & -> & Q1 & Q2 & Q3 & Q4 & Q5 & Q6)].
  - rewrite Z2Nat.id by lia. cbn [length]. lia.
  - change (dread []) with 0. lia.
  - rewrite Z2Nat.id by lia. lia.
  - constructor.
  - unfold no_lead0. cbn [hd]. lia.
  - left. reflexivity.
  - cbn [bind]. exists s', ok. auto.
  - cbn [bind].
    eapply (shortest_frac_ok) with (kap := kap) (j := 0); try eassumption; try lia.
Qed.
