(** Left shift of the model with the array. *)
From Coq Require Import ZArith String List Bool Lia.
From Verif Require Import GoBase SpecDec SpecArr BitFacts DecFacts.
From Verif Require Decimal.
From Verif Require Import DecimalArr ArrFacts ArrShift.
Import ListNotations.
Open Scope Z_scope.

Lemma prefix_arr : forall s b, prefixIsLessThan b (map (fun c => c + 48) s) = Decimal.prefixIsLessThan (ch b) s.
Proof.
  induction s as [|s0 s IH]; intros b; [destruct b; reflexivity|]. destruct b as [|b0 b]; [reflexivity|].
  cbn [map prefixIsLessThan Decimal.prefixIsLessThan]. rewrite IH.
  destruct (Z.eqb_spec b0 (s0 + 48)), (Z.eqb_spec (b0 - 48) s0); try lia; cbn [negb]; [reflexivity|].
  destruct (Z.ltb_spec b0 (s0 + 48)), (Z.ltb_spec (b0 - 48) s0); try lia; reflexivity.
Qed.

Lemma put_sub m i v j : (i < j)%nat -> (j <= length m)%nat -> sub (put m i v) i j = v :: sub m (S i) j.
Proof.
  intros H L. unfold sub. rewrite put_skipn_at by lia. replace (j - i)%nat with (S (j - S i)) by lia. reflexivity.
Qed.

Lemma rem10 n : 0 <= n -> 0 <= n - 10 * (n / 10) <= 9.
Proof. intros. pose proof (Z.div_mod n 10 ltac:(lia)). pose proof (Z.mod_pos_bound n 10 ltac:(lia)). lia. Qed.

Section Left.
Variables w : Z.
Hypothesis Hw : 32 <= w.
Variable En : nat.
Hypothesis HE : (En <= 800)%nat.

(** The digits put down so far. *)
Definition down (m : list Z) (wi : nat) (acc : list Z) : Prop :=
  length m = 800%nat /\ ((wi <= En)%nat \/ (800 <= En)%nat) /\ acc = ch (sub m wi En) /\ asc (sub m wi En).

Lemma byte_rem g : 0 <= g <= 9 -> u8 ((g + 48) mod 2 ^ w) = g + 48.
Proof. intros H. assert (2 ^ 32 <= 2 ^ w) by (apply Z.pow_le_mono_r; lia). unfold u8. rewrite (Z.mod_small (g + 48) (2 ^ w)) by lia. apply Z.mod_small. lia. Qed.

Lemma put_arr m wi rem acc tr : down m (S wi) acc -> 0 <= rem <= 9 ->
  exists m' acc' tr', Decimal.ls_put (Z.of_nat (S wi)) rem acc tr = Ret (Z.of_nat wi, acc', tr') /\
    put_down w m (Z.of_nat wi) rem tr = Ret (m', tr') /\ down m' wi acc' /\ firstn wi m' = firstn wi m.
Proof.
  intros (Hm & Hc & -> & Ha) Hr. unfold Decimal.ls_put, put_down, Decimal.maxDigits. rewrite Hm. change (Z.of_nat 800) with 800.
  replace (Z.of_nat (S wi) - 1) with (Z.of_nat wi) by lia. destruct (Z.ltb_spec (Z.of_nat wi) 800) as [L|L].
  - destruct (Z.ltb_spec (Z.of_nat wi) 0); [lia|]. rewrite upd_ok by lia. cbn [bind]. rewrite Nat2Z.id, byte_rem by assumption.
    eexists _, _, _. split; [reflexivity|]. split; [reflexivity|]. split.
    + split; [rewrite put_length; lia|]. split; [lia|]. rewrite put_sub by lia. split; [cbn [map]; f_equal; lia|]. constructor; [lia|exact Ha].
    + apply put_firstn_le; lia.
  - eexists _, _, _. split; [reflexivity|]. split. { do 2 f_equal. destruct tr, (negb (rem =? 0)); reflexivity. } split; [|reflexivity].
    split; [exact Hm|]. split; [lia|]. rewrite !sub_nil in * by lia. split; [reflexivity|constructor].
Qed.

Lemma left_arr k : 0 <= k <= w - 4 -> forall r fuel m n delta acc tr n' wi' acc' tr', (r < fuel)%nat -> down m (r + delta) acc -> (r <= 800)%nat ->
  asc (firstn r m) -> 0 <= n < 2 ^ k ->
  Decimal.ls_digits w k (rev (ch (firstn r m))) n (Z.of_nat (r + delta)) acc tr = Ret (n', wi', acc', tr') ->
  exists m', left_digits fuel w k m (Z.of_nat r - 1) n (Z.of_nat (r + delta)) tr = Ret (m', n', wi', tr') /\
    wi' = Z.of_nat delta /\ down m' delta acc' /\ firstn delta m' = firstn delta m.
Proof.
  intros Hk. assert (P2 : 0 < 2 ^ k) by (apply Z.pow_pos_nonneg; lia).
  assert (Pw : 16 * 2 ^ k <= 2 ^ w).
  { change 16 with (2 ^ 4). rewrite <- Z.pow_add_r by lia. apply Z.pow_le_mono_r; lia. }
  assert (P32 : 2 ^ 32 <= 2 ^ w) by (apply Z.pow_le_mono_r; lia).
  induction r as [|r IH]; intros fuel m n delta acc tr n' wi' acc' tr' Hf HD Hr Ha Hn E.
  - cbn [firstn map rev Decimal.ls_digits] in E. apply Ret_inj in E. exists m. cbn [Nat.add] in *. 
    assert (n = n' /\ Z.of_nat delta = wi' /\ acc = acc' /\ tr = tr') as (-> & <- & -> & ->) by (repeat split; congruence).
    split; [destruct fuel; reflexivity|]. auto.
  - pose proof HD as (Hm & _ & _ & _). rewrite firstn_S, map_app, rev_app_distr in E by lia. cbn [map rev app Decimal.ls_digits] in E.
    rewrite firstn_S in Ha by lia. apply Forall_app in Ha. destruct Ha as [Ha Hc]. inversion Hc as [|? ? Hc' _]; subst. clear Hc.
    destruct fuel as [|fuel]; [lia|]. cbn [left_digits]. destruct (Z.leb_spec 0 (Z.of_nat (S r) - 1)); [|lia].
    replace (Z.of_nat (S r) - 1) with (Z.of_nat r) by lia. rewrite get_ok by lia. cbn [bind]. rewrite Nat2Z.id.
    rewrite (Z.mod_small (nth r m 0 - 48) (2 ^ w)) by lia. rewrite Z.shiftl_mul_pow2 in * by lia.
    rewrite Z.mod_small in * by nia. set (n1 := n + (nth r m 0 - 48) * 2 ^ k) in *.
    assert (H1 : 0 <= n1 < 10 * 2 ^ k) by (unfold n1; nia).
    replace (S r + delta)%nat with (S (r + delta)) in * by lia.
    destruct (put_arr m (r + delta) (n1 - 10 * (n1 / 10)) acc tr HD (rem10 n1 ltac:(lia))) as (m1 & acc1 & tr1 & Q1 & Q2 & Q3 & Q4).
    rewrite Q1 in E. cbn [bind] in E. replace (Z.of_nat (S (r + delta)) - 1) with (Z.of_nat (r + delta)) by lia. rewrite Q2. cbn [bind].
    assert (F : firstn r m1 = firstn r m).
    { replace (firstn r m1) with (firstn r (firstn (r + delta) m1)) by (rewrite firstn_firstn; f_equal; lia). rewrite Q4, firstn_firstn. f_equal. lia. }
    rewrite <- F in E, Ha.
    destruct (IH fuel m1 (n1 / 10) delta acc1 tr1 n' wi' acc' tr') as (m' & A1 & A2 & A3 & A4); try lia; try assumption.
    { split; [apply Z.div_pos; lia|apply Z.div_lt_upper_bound; lia]. }
    exists m'. split; [exact A1|]. split; [exact A2|]. split; [exact A3|]. rewrite A4.
    replace (firstn delta m1) with (firstn delta (firstn (r + delta) m1)) by (rewrite firstn_firstn; f_equal; lia). rewrite Q4, firstn_firstn. f_equal. lia.
Qed.

Lemma left_extra_arr : forall fuel m n wi acc tr acc' tr', down m wi acc -> 0 <= n ->
  Decimal.ls_extra fuel n (Z.of_nat wi) acc tr = Ret (0, acc', tr') ->
  exists m', left_extra fuel w m n (Z.of_nat wi) tr = Ret (m', tr') /\ down m' 0 acc'.
Proof.
  induction fuel as [|fuel IH]; intros m n wi acc tr acc' tr' HD Hn E; cbn [Decimal.ls_extra left_extra] in *.
  - destruct (Z.leb_spec n 0) as [L|L]; [|discriminate]. rewrite (proj2 (Z.ltb_ge 0 n) L). apply Ret_inj in E.
    assert (Z.of_nat wi = 0 /\ acc = acc' /\ tr = tr') as (W & -> & ->) by (repeat split; congruence).
    assert (wi = O) by lia. subst wi. exists m. auto.
  - destruct (Z.leb_spec n 0) as [L|L].
    { rewrite (proj2 (Z.ltb_ge 0 n) L). apply Ret_inj in E.
      assert (Z.of_nat wi = 0 /\ acc = acc' /\ tr = tr') as (W & -> & ->) by (repeat split; congruence).
      assert (wi = O) by lia. subst wi. exists m. auto. }
    rewrite (proj2 (Z.ltb_lt 0 n) L).
    destruct wi as [|wi]. { unfold Decimal.ls_put in E. cbn in E. discriminate. }
    destruct (put_arr m wi (n - 10 * (n / 10)) acc tr HD (rem10 n Hn)) as (m1 & acc1 & tr1 & Q1 & Q2 & Q3 & Q4).
    rewrite Q1 in E. cbn [bind] in E. replace (Z.of_nat (S wi) - 1) with (Z.of_nat wi) by lia. rewrite Q2. cbn [bind].
    apply (IH _ _ _ acc1); [exact Q3|apply Z.div_pos; lia|exact E].
Qed.
End Left.

(** The write index of the list model ends at 0. *)
Lemma leftShift_wi w a k delta cut : 0 <= k <= w - 4 -> k <= 60 -> dnorm a -> Decimal.d a <> [] ->
  nth_error Decimal.leftcheats (Z.to_nat k) = Some (delta, cut) ->
  let delta' := if Decimal.prefixIsLessThan (Decimal.d a) cut then delta - 1 else delta in
  0 <= delta' <= 20 /\
  exists n wi acc tr acc2 tr2, Decimal.ls_digits w k (rev (Decimal.d a)) 0 (Decimal.nd a + delta') [] (Decimal.trunc a) = Ret (n, wi, acc, tr) /\
    0 <= n /\ Decimal.ls_extra 64 n wi acc tr = Ret (0, acc2, tr2).
Proof.
  intros Hk Hk60 Ha Nd Hc. assert (P2 : 0 < 2 ^ k) by (apply Z.pow_pos_nonneg; lia).
  pose proof Ha as (Hd & Hl & Ht & Hlen & _).
  destruct (leftcheats_ok k ltac:(lia)) as (delta0 & cut0 & Ec & C1 & C2 & C3). rewrite Ec in Hc. injection Hc as -> ->.
  destruct (ls_count (Decimal.d a) k delta cut ltac:(lia) Hd Hl Nd C1 C2 C3) as [N1 N2].
  set (delta' := if Decimal.prefixIsLessThan (Decimal.d a) cut then delta - 1 else delta) in *. clearbody delta'. split; [exact N1|].
  unfold Decimal.nd. set (L := len (Decimal.d a)) in *. assert (L1 : 0 < L) by (unfold L; destruct (Decimal.d a); [contradiction|cbn; lia]).
  destruct (ls_digits_ok w k Hk (rev (Decimal.d a)) 0 (L + delta') [] (Decimal.trunc a) ltac:(lia) (digits_ok_rev _ Hd)) as (n' & Q & E & I1 & I2 & I3 & I4).
  { rewrite rev_length. fold L. lia. }
  rewrite rev_length in I3, I4, E. rewrite rev_involutive in I4. fold L in I4, E.
  replace (kept (L + delta') []) with (@nil Z) in E by (unfold kept; rewrite firstn_nil; reflexivity).
  replace (lost (L + delta') [] (Decimal.trunc a)) with (Decimal.trunc a) in E by (unfold lost; rewrite skipn_nil; cbn; rewrite orb_false_r; reflexivity).
  replace (L + delta' - L) with delta' in E by lia.
  assert (LQ : len Q = L) by (unfold L; lia).
  rewrite Z.add_0_l in I4. pose proof (dread_range Q I2) as RQ. rewrite LQ in RQ.
  destruct (ls_extra_ok 64 n' delta' (Q ++ []) (Decimal.trunc a) ltac:(lia)) as (Q2 & E2 & J1 & J2 & J3).
  { pose proof (pow10_pos L ltac:(lia)). destruct (Z.eq_dec delta' 0) as [->|].
    - left. split; [|reflexivity]. rewrite Z.add_0_r in N2. rewrite <- I4 in N2. nia.
    - right. split; [lia|]. rewrite <- I4 in N2. rewrite (Z.pow_add_r 10 L) in N2 by lia.
      replace (L + delta' - 1) with (L + (delta' - 1)) in N2 by lia. rewrite Z.pow_add_r in N2 by lia.
      set (X := 10 ^ L) in *. split.
      + apply Z.lt_succ_r. unfold Z.succ. apply Z.mul_lt_mono_pos_l with X; [lia|]. nia.
      + apply Z.mul_lt_mono_pos_l with X; [lia|]. nia. }
  eexists _, _, _, _, _, _. split; [exact E|]. split; [lia|exact E2].
Qed.

Lemma slice_ok m j : length m = 800%nat -> 0 <= j <= 800 -> slice m 0 j = Ret (firstn (Z.to_nat j) m).
Proof.
  intros H1 H2. unfold slice. rewrite H1. change (0 <? 0) with false. destruct (Z.ltb_spec j 0); [lia|]. destruct (Z.ltb_spec (Z.of_nat 800) j); [lia|].
  cbn [orb Z.to_nat skipn]. rewrite Z.sub_0_r. reflexivity.
Qed.

Lemma leftShift_arr w a k b : 32 <= w -> 0 <= k <= w - 4 -> k <= 60 -> array_ok a -> dnorm (held a) -> Decimal.d (held a) <> [] ->
  Decimal.leftShift w (held a) k = Ret b ->
  exists a', leftShift w a k = Ret a' /\ array_ok a' /\ held a' = b.
Proof.
  intros Hw Hk Hk60 (Hl & Hn & Ha) Hd Nd E. unfold Decimal.leftShift, leftShift in *.
  destruct (nth_error Decimal.leftcheats (Z.to_nat k)) as [[delta cut]|] eqn:Ec; [|discriminate].
  destruct (leftShift_wi w (held a) k delta cut Hk Hk60 Hd Nd Ec) as (D & n & wi & acc & tr & acc2 & tr2 & E1 & Hn0 & E2).
  rewrite slice_ok by assumption. cbn [bind]. rewrite prefix_arr.
  change (ch (firstn (Z.to_nat (and_ a)) (mem a))) with (Decimal.d (held a)).
  set (delta' := if Decimal.prefixIsLessThan (Decimal.d (held a)) cut then delta - 1 else delta) in *. clearbody delta'.
  rewrite E1 in E. cbn [bind] in E. rewrite E2 in E. cbn [bind] in E. apply Ret_inj in E. subst b.
  assert (EN : Decimal.nd (held a) = and_ a).
  { unfold Decimal.nd, held. cbn [Decimal.d]. rewrite map_length, firstn_length, Hl. lia. }
  rewrite EN in *.
  set (r := Z.to_nat (and_ a)) in *. set (dl := Z.to_nat delta').
  set (En := Nat.min (r + dl) 800).
  assert (ER : and_ a + delta' = Z.of_nat (r + dl)) by (unfold r, dl; lia). rewrite ER in *.
  destruct (left_arr w Hw En ltac:(unfold En; lia) k Hk r 801 (mem a) 0 dl [] (atr a) n wi acc tr) as (m1 & A1 & A2 & A3 & A4).
  { lia. }
  { split; [exact Hl|]. split; [unfold En; lia|]. rewrite sub_nil by (unfold En; lia). split; [reflexivity|constructor]. }
  { lia. } { exact Ha. }
  { split; [lia|apply Z.pow_pos_nonneg; lia]. }
  { exact E1. }
  replace (and_ a - 1) with (Z.of_nat r - 1) by (unfold r; lia). rewrite A1. cbn [bind]. subst wi.
  destruct (left_extra_arr w Hw En ltac:(unfold En; lia) 64 m1 n dl acc tr acc2 tr2 A3 Hn0 E2) as (m2 & -> & B1 & B2 & B3 & B4). cbn [bind].
  rewrite B1. rewrite sub_0 in B3, B4.
  replace (if Z.of_nat 800 <=? Z.of_nat (r + dl) then Z.of_nat 800 else Z.of_nat (r + dl)) with (Z.of_nat En)
    by (unfold En; destruct (Z.leb_spec (Z.of_nat 800) (Z.of_nat (r + dl))); lia).
  destruct (trim_arr (mkA m2 (Z.of_nat En) (adp a + delta') tr2)) as (c & C1 & C2 & C3).
  { split; [exact B1|]. cbn [and_ mem]. split; [unfold En; lia|]. rewrite Nat2Z.id. exact B4. }
  exists c. split; [exact C1|]. split; [exact C2|]. rewrite C3. f_equal. unfold held. cbn [and_ mem adp atr Decimal.dp]. rewrite Nat2Z.id.
  change (Z.to_nat 0) with O. cbn [firstn app]. f_equal. rewrite B3. symmetry. apply firstn_all2. rewrite map_length, firstn_length.
  unfold En, Decimal.maxDigits. lia.
Qed.
