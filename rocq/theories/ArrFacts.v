(** The model with the array does the same as the model with lists. *)
From Coq Require Import ZArith String List Bool Lia.
From Verif Require Import GoBase SpecDec SpecArr.
From Verif Require Decimal.
From Verif Require Import DecimalArr.
Import ListNotations.
Open Scope Z_scope.

Notation ch := (map (fun c => c - 48)).
Notation asc := (Forall (fun c => 48 <= c <= 57)).
Definition sub (m : list Z) (i j : nat) : list Z := firstn (j - i) (skipn i m).

Lemma put_length m i v : (i < length m)%nat -> length (put m i v) = length m.
Proof. intros H. unfold put. rewrite app_length, firstn_length. cbn [length]. rewrite skipn_length. lia. Qed.

Lemma put_firstn_le m i v n : (n <= i)%nat -> (i < length m)%nat -> firstn n (put m i v) = firstn n m.
Proof.
  intros H L. unfold put. rewrite firstn_app, firstn_firstn, firstn_length. replace (n - _)%nat with O by lia.
  rewrite app_nil_r. f_equal. lia.
Qed.

Lemma put_firstn_S m i v : (i < length m)%nat -> firstn (S i) (put m i v) = firstn i m ++ [v].
Proof.
  intros L. unfold put. rewrite firstn_app, firstn_firstn, firstn_length. replace (S i - _)%nat with 1%nat by lia.
  replace (Nat.min (S i) i) with i by lia. reflexivity.
Qed.

Lemma skipn_skipn' (m : list Z) a b : skipn a (skipn b m) = skipn (b + a) m.
Proof.
  revert m. induction b as [|b IH]; intros m; [reflexivity|]. destruct m; [rewrite !skipn_nil; reflexivity|]. cbn [skipn Nat.add]. apply IH.
Qed.

Lemma put_skipn m i v n : (i < n)%nat -> (i < length m)%nat -> skipn n (put m i v) = skipn n m.
Proof.
  intros H L. unfold put. rewrite skipn_app, firstn_length. rewrite skipn_all2 by (rewrite firstn_length; lia).
  replace (n - _)%nat with (S (n - S i)) by lia. change (skipn (n - S i) (skipn (S i) m) = skipn n m). rewrite skipn_skipn'. f_equal. lia.
Qed.

Lemma put_skipn_at m i v : (i < length m)%nat -> skipn i (put m i v) = v :: skipn (S i) m.
Proof.
  intros L. unfold put. rewrite skipn_app, firstn_length. rewrite skipn_all2 by (rewrite firstn_length; lia).
  replace (i - _)%nat with O by lia. reflexivity.
Qed.

Lemma skipn_cons (m : list Z) i : (i < length m)%nat -> skipn i m = nth i m 0 :: skipn (S i) m.
Proof.
  revert i. induction m as [|c m IH]; intros i H; [cbn in H; lia|]. destruct i; [reflexivity|]. cbn [length] in H.
  cbn [skipn nth]. apply IH. lia.
Qed.

Lemma sub_cons m i j : (i < j)%nat -> (j <= length m)%nat -> sub m i j = nth i m 0 :: sub m (S i) j.
Proof.
  intros H L. unfold sub. rewrite skipn_cons by lia. replace (j - i)%nat with (S (j - S i)) by lia. reflexivity.
Qed.

Lemma sub_nil m i j : (j <= i)%nat -> sub m i j = [].
Proof. intros H. unfold sub. replace (j - i)%nat with O by lia. reflexivity. Qed.

Lemma sub_0 m j : sub m 0 j = firstn j m.
Proof. unfold sub. rewrite Nat.sub_0_r. reflexivity. Qed.

Lemma sub_put m i v a b : (i < a)%nat -> (i < length m)%nat -> sub (put m i v) a b = sub m a b.
Proof. intros. unfold sub. rewrite put_skipn by assumption. reflexivity. Qed.

Lemma firstn_skipn_comm' (m : list Z) a b : firstn b m = firstn a m ++ sub m a b \/ (b < a)%nat.
Proof.
  destruct (le_gt_dec a b); [left|right; assumption]. unfold sub.
  rewrite <- (firstn_skipn a (firstn b m)). rewrite firstn_firstn. replace (Nat.min a b) with a by lia. f_equal. apply skipn_firstn_comm.
Qed.

Lemma get_ok m i : 0 <= i < Z.of_nat (length m) -> get m i = Ret (nth (Z.to_nat i) m 0).
Proof.
  intros H. unfold get. destruct (Z.ltb_spec i 0); [lia|].
  rewrite (nth_error_nth' m 0) by lia. reflexivity.
Qed.

Lemma upd_ok m i v : 0 <= i < Z.of_nat (length m) -> upd m i v = Ret (put m (Z.to_nat i) v).
Proof. intros H. unfold upd. destruct (Z.ltb_spec i 0); [lia|]. destruct (Z.leb_spec (Z.of_nat (length m)) i); [lia|]. reflexivity. Qed.

Lemma asc_nth m n i : asc (firstn n m) -> (i < n)%nat -> (n <= length m)%nat -> 48 <= nth i m 0 <= 57.
Proof.
  intros H L1 L2. rewrite Forall_forall in H. apply H. rewrite <- (firstn_skipn n m) at 1.
  rewrite app_nth1 by (rewrite firstn_length; lia). apply nth_In. rewrite firstn_length. lia.
Qed.

Lemma firstn_S (m : list Z) n : (n < length m)%nat -> firstn (S n) m = firstn n m ++ [nth n m 0].
Proof.
  intros H. destruct (firstn_skipn_comm' m n (S n)) as [E|E]; [|lia]. rewrite E, sub_cons, sub_nil by lia. reflexivity.
Qed.

(** trim *)
Lemma strip_snoc l c : Decimal.strip (l ++ [c]) = if c =? 0 then Decimal.strip l else l ++ [c].
Proof.
  unfold Decimal.strip. rewrite rev_app_distr. cbn [rev app Decimal.drop_zeros]. destruct (c =? 0); [reflexivity|].
  cbn [rev]. rewrite rev_involutive. reflexivity.
Qed.

Lemma trim_loop_ok m : length m = 800%nat -> forall n fuel, (n <= 800)%nat -> (n <= fuel)%nat -> asc (firstn n m) ->
  exists n', trim_loop fuel m (Z.of_nat n) = Ret (Z.of_nat n') /\ (n' <= n)%nat /\ ch (firstn n' m) = Decimal.strip (ch (firstn n m)).
Proof.
  intros Hm. induction n as [|n IH]; intros fuel Hn Hf Ha.
  - exists O. destruct fuel; cbn; auto.
  - assert (E : exists fuel', fuel = S fuel') by (destruct fuel; [lia|eauto]). destruct E as [fuel' ->].
    cbn [trim_loop]. destruct (Z.ltb_spec 0 (Z.of_nat (S n))); [|lia].
    replace (Z.of_nat (S n) - 1) with (Z.of_nat n) by lia. rewrite get_ok by lia. cbn [bind]. rewrite Nat2Z.id.
    rewrite firstn_S in Ha by lia. apply Forall_app in Ha. destruct Ha as [Ha Hc].
    rewrite firstn_S, map_app by lia. cbn [map]. rewrite strip_snoc.
    destruct (Z.eqb_spec (nth n m 0) 48) as [e|e].
    + rewrite e. change (48 - 48 =? 0) with true. cbn iota.
      destruct (IH fuel' ltac:(lia) ltac:(lia) Ha) as (n' & E1 & E2 & E3). exists n'. split; [exact E1|]. split; [lia|exact E3].
    + destruct (Z.eqb_spec (nth n m 0 - 48) 0); [lia|]. exists (S n). split; [reflexivity|]. split; [lia|]. rewrite firstn_S, map_app by lia. reflexivity.
Qed.

Lemma asc_firstn m n n' : asc (firstn n m) -> (n' <= n)%nat -> asc (firstn n' m).
Proof. intros H L. replace (firstn n' m) with (firstn n' (firstn n m)) by (rewrite firstn_firstn; f_equal; lia). rewrite <- (firstn_skipn n' (firstn n m)) in H. apply Forall_app in H. apply H. Qed.

Lemma trim_arr a : array_ok a -> exists b, trim a = Ret b /\ array_ok b /\ held b = Decimal.trim (held a).
Proof.
  intros (Hl & Hn & Ha). unfold trim. destruct (trim_loop_ok (mem a) Hl (Z.to_nat (and_ a)) 801 ltac:(lia) ltac:(lia) Ha) as (n' & E & L & S).
  rewrite Z2Nat.id in E by lia. rewrite E. cbn [bind]. eexists. split; [reflexivity|]. split.
  - split; [exact Hl|]. cbn [and_ mem]. rewrite Nat2Z.id. split; [lia|]. apply (asc_firstn _ _ _ Ha L).
  - unfold held, Decimal.trim. cbn [and_ mem adp atr Decimal.d Decimal.dp Decimal.trunc]. rewrite Nat2Z.id, S. f_equal.
    rewrite <- S, map_length, firstn_length, Hl. replace (Nat.min n' 800) with n' by lia. reflexivity.
Qed.

Lemma Ret_inj {A} (x y : A) : Ret x = Ret y -> x = y.
Proof. congruence. Qed.

(** Assign *)
Lemma assign_arr : forall fuel' fuel v buf n, (fuel' + Z.to_nat n <= 24)%nat -> (fuel' <= fuel)%nat -> length buf = 24%nat -> 0 <= n ->
  0 <= v < 2 ^ 64 -> forall l, Decimal.assign_loop fuel' v = Ret l ->
  exists buf', assign_loop fuel v buf n = Ret (buf', n + Z.of_nat (length l)) /\ length buf' = 24%nat /\
    firstn (Z.to_nat n + length l) buf' = firstn (Z.to_nat n) buf ++ map (fun c => c + 48) l /\ (Z.to_nat n + length l <= 24)%nat /\
    Forall (fun c => 0 <= c <= 9) l.
Proof.
  induction fuel' as [|fuel' IH]; intros fuel v buf n Hf1 Hf2 Hb Hn Hv l E; cbn [Decimal.assign_loop] in E.
  - destruct (Z.leb_spec v 0) as [L|L]; [|discriminate]. injection E as <-. exists buf.
    split. { destruct fuel; cbn [assign_loop]; rewrite (proj2 (Z.leb_le v 0) L); f_equal; f_equal; cbn; lia. }
    split; [exact Hb|]. cbn [length map]. rewrite Nat.add_0_r, app_nil_r. split; [reflexivity|]. split; [lia|constructor].
  - destruct (Z.leb_spec v 0) as [L|L].
    { injection E as <-. exists buf.
      split. { destruct fuel; cbn [assign_loop]; rewrite (proj2 (Z.leb_le v 0) L); f_equal; f_equal; cbn; lia. }
      split; [exact Hb|]. cbn [length map]. rewrite Nat.add_0_r, app_nil_r. split; [reflexivity|]. split; [lia|constructor]. }
    destruct fuel as [|fuel]; [lia|]. cbn [assign_loop]. rewrite (proj2 (Z.leb_gt v 0) L).
    destruct (Decimal.assign_loop fuel' (v / 10)) as [l'|] eqn:El; cbn [bind] in E; [|discriminate]. apply Ret_inj in E. subst l.
    pose proof (Z.div_mod v 10 ltac:(lia)) as DM. pose proof (Z.mod_pos_bound v 10 ltac:(lia)) as MB.
    assert (ER : u64 (v - u64 (10 * (v / 10))) = v mod 10).
    { unfold u64. rewrite (Z.mod_small (10 * _)) by lia. rewrite Z.mod_small by lia. lia. }
    rewrite ER. rewrite upd_ok by lia. cbn [bind].
    assert (EU : u8 (u64 (v mod 10 + 48)) = v mod 10 + 48) by (clear - MB; set (r := v mod 10) in *; clearbody r; unfold u8, u64; rewrite (Z.mod_small (r + 48) (2 ^ 64)) by lia; apply Z.mod_small; lia). rewrite EU.
    destruct (IH fuel (v / 10) (put buf (Z.to_nat n) (v mod 10 + 48)) (n + 1)) with (l := l') as (buf' & A1 & A2 & A3 & A4 & A5); try lia; try assumption.
    { rewrite put_length; lia. }
    exists buf'. cbn [length map]. split. { rewrite A1. f_equal. f_equal. lia. }
    split; [exact A2|]. replace (Z.to_nat (n + 1)) with (S (Z.to_nat n)) in * by lia.
    rewrite put_firstn_S, <- app_assoc in A3 by lia. cbn [app] in A3. split. { rewrite <- A3. f_equal. lia. }
    split; [lia|]. constructor; [lia|exact A5].
Qed.

Lemma reverse_arr buf : forall n fuel m nd, (n <= length buf)%nat -> (n <= fuel)%nat -> 0 <= nd -> nd + Z.of_nat n <= Z.of_nat (length m) ->
  exists m', reverse_loop fuel buf (Z.of_nat n - 1) m nd = Ret (m', nd + Z.of_nat n) /\ length m' = length m /\
    firstn (Z.to_nat nd + n) m' = firstn (Z.to_nat nd) m ++ rev (firstn n buf).
Proof.
  induction n as [|n IH]; intros fuel m nd Hn Hf Hd Hm.
  - exists m. split; [destruct fuel; cbn; f_equal; f_equal; lia|]. split; [reflexivity|]. rewrite Nat.add_0_r. cbn [firstn rev]. rewrite app_nil_r. reflexivity.
  - destruct fuel as [|fuel]; [lia|]. cbn [reverse_loop]. destruct (Z.leb_spec 0 (Z.of_nat (S n) - 1)); [|lia].
    replace (Z.of_nat (S n) - 1) with (Z.of_nat n) by lia. rewrite get_ok by lia. cbn [bind]. rewrite Nat2Z.id, upd_ok by lia. cbn [bind].
    destruct (IH fuel (put m (Z.to_nat nd) (nth n buf 0)) (nd + 1) ltac:(lia) ltac:(lia) ltac:(lia)) as (m' & A1 & A2 & A3).
    { rewrite put_length; lia. }
    exists m'. split; [rewrite A1; f_equal; f_equal; lia|]. split; [rewrite A2, put_length; lia|].
    replace (Z.to_nat (nd + 1)) with (S (Z.to_nat nd)) in A3 by lia. rewrite put_firstn_S, <- app_assoc in A3 by lia. cbn [app] in A3.
    rewrite firstn_S, rev_app_distr by lia. cbn [rev app]. rewrite <- A3. f_equal. lia.
Qed.

Lemma asc_map l : Forall (fun c => 0 <= c <= 9) l -> asc (map (fun c => c + 48) l).
Proof. induction 1; cbn; constructor; auto; lia. Qed.
Lemma ch_map l : ch (map (fun c => c + 48) l) = l.
Proof. rewrite map_map. rewrite <- (map_id l) at 2. apply map_ext. intros; lia. Qed.

Lemma Assign_arr a v b : length (mem a) = 800%nat -> 0 <= v < 2 ^ 64 -> Decimal.Assign (held a) v = Ret b ->
  exists a', Assign a v = Ret a' /\ array_ok a' /\ held a' = b.
Proof.
  intros Hl Hv E. unfold Decimal.Assign in E. destruct (Decimal.assign_loop 24 v) as [l|] eqn:El; cbn [bind] in E; [|discriminate].
  apply Ret_inj in E. subst b. unfold Assign.
  destruct (assign_arr 24 64 v (repeat 0 24) 0 ltac:(cbn; lia) ltac:(lia) ltac:(apply repeat_length) ltac:(lia) Hv l El) as (buf' & A1 & A2 & A3 & A4 & A5).
  rewrite A1. cbn [bind]. rewrite Z.add_0_l in *. cbn [Z.to_nat Nat.add firstn app] in *.
  destruct (reverse_arr buf' (length l) 64 (mem a) 0 ltac:(lia) ltac:(lia) ltac:(lia) ltac:(lia)) as (m' & B1 & B2 & B3).
  rewrite B1. cbn [bind]. rewrite Z.add_0_l. cbn [Z.to_nat Nat.add firstn app] in B3. rewrite A3 in B3.
  destruct (trim_arr (mkA m' (Z.of_nat (length l)) (Z.of_nat (length l)) (atr a))) as (c & C1 & C2 & C3).
  { split; [cbn [mem]; lia|]. cbn [and_ mem]. split; [lia|]. rewrite Nat2Z.id, B3. apply Forall_rev, asc_map, A5. }
  exists c. split; [exact C1|]. split; [exact C2|]. rewrite C3. f_equal. unfold held. cbn [and_ mem adp atr Decimal.trunc].
  rewrite Nat2Z.id, B3. rewrite map_rev, ch_map, rev_length. reflexivity.
Qed.
