(** Shift, rounding and printing of the model with the array. *)
From Coq Require Import ZArith String List Bool Lia.
From Verif Require Import GoBase SpecDec SpecArr BitFacts DecFacts DecFacts2.
From Verif Require Decimal.
From Verif Require Import DecimalArr ArrFacts ArrShift ArrLeft.
Import ListNotations.
Open Scope Z_scope.

Lemma held_nd a : array_ok a -> Decimal.nd (held a) = and_ a.
Proof. intros (Hl & Hn & _). unfold Decimal.nd, held. cbn [Decimal.d]. rewrite map_length, firstn_length, Hl. lia. Qed.

Lemma held_dig a i : array_ok a -> 0 <= i < and_ a -> Decimal.dig (held a) i = nth (Z.to_nat i) (mem a) 0 - 48.
Proof.
  intros (Hl & Hn & _) Hi. unfold Decimal.dig, held. cbn [Decimal.d].
  rewrite nth_indep with (d' := 0 - 48) by (rewrite map_length, firstn_length, Hl; lia). rewrite (map_nth (fun c => c - 48)).
  rewrite <- (firstn_skipn (Z.to_nat (and_ a)) (mem a)) at 2. rewrite app_nth1 by (rewrite firstn_length, Hl; lia). reflexivity.
Qed.

Lemma get_dig a i : array_ok a -> 0 <= i < and_ a -> exists c, get (mem a) i = Ret c /\ Decimal.dig (held a) i = c - 48 /\ 48 <= c <= 57.
Proof.
  intros H Hi. pose proof H as (Hl & Hn & Ha). eexists. split; [apply get_ok; lia|]. split; [apply held_dig; assumption|].
  apply (asc_nth _ (Z.to_nat (and_ a))); [exact Ha|lia|lia].
Qed.

Lemma shouldRoundUp_arr a n : array_ok a -> shouldRoundUp a n = Ret (Decimal.shouldRoundUp (held a) n).
Proof.
  intros H. unfold shouldRoundUp, Decimal.shouldRoundUp. rewrite held_nd by exact H.
  destruct (Z.ltb_spec n 0) as [L|L]; [reflexivity|]. destruct (Z.leb_spec (and_ a) n) as [G|G]; [reflexivity|]. cbn [orb].
  destruct (get_dig a n H ltac:(lia)) as (c & -> & -> & Hc). cbn [bind].
  replace (c - 48 =? 5) with (c =? 53) by (destruct (Z.eqb_spec c 53), (Z.eqb_spec (c - 48) 5); lia || reflexivity).
  replace (5 <=? c - 48) with (53 <=? c) by (destruct (Z.leb_spec 53 c), (Z.leb_spec 5 (c - 48)); lia || reflexivity).
  destruct (_ && _); [|reflexivity]. change (Decimal.trunc (held a)) with (atr a). destruct (atr a); [reflexivity|].
  destruct (Z.ltb_spec 0 n) as [P|P]; [|reflexivity]. destruct (get_dig a (n - 1) H ltac:(lia)) as (c' & -> & -> & Hc'). cbn [bind].
  unfold u8. rewrite (Z.mod_small (c' - 48) (2 ^ 8)) by lia. reflexivity.
Qed.

Lemma RoundDown_arr a n : array_ok a -> exists b, RoundDown a n = Ret b /\ array_ok b /\ held b = Decimal.RoundDown (held a) n.
Proof.
  intros H. pose proof H as (Hl & Hn & Ha). unfold RoundDown, Decimal.RoundDown. rewrite held_nd by exact H.
  destruct (Z.ltb_spec n 0) as [L|L]; [eexists; repeat split; try reflexivity; auto; apply Hn|]. 
  destruct (Z.leb_spec (and_ a) n) as [G|G]; [eexists; repeat split; try reflexivity; auto; apply Hn|]. cbn [orb].
  destruct (trim_arr (mkA (mem a) n (adp a) (atr a))) as (c & C1 & C2 & C3).
  { split; [exact Hl|]. cbn [and_ mem]. split; [lia|]. apply (asc_firstn _ _ _ Ha). lia. }
  exists c. split; [exact C1|]. split; [exact C2|]. rewrite C3. f_equal. unfold held. cbn [and_ mem adp atr Decimal.d Decimal.dp Decimal.trunc]. f_equal.
  rewrite firstn_map. rewrite firstn_firstn. f_equal. f_equal. lia.
Qed.

Lemma up_loop_arr m : length m = 800%nat -> forall i fuel, (i < fuel)%nat -> (i <= 800)%nat -> asc (firstn i m) ->
  match Decimal.round_up_rev (rev (ch (firstn i m))) with
  | Some l => exists m' n', up_loop fuel m (Z.of_nat i - 1) = Ret (Some (m', Z.of_nat n')) /\ length m' = 800%nat /\ (n' <= i)%nat /\
      asc (firstn n' m') /\ ch (firstn n' m') = rev l
  | None => up_loop fuel m (Z.of_nat i - 1) = Ret None
  end.
Proof.
  intros Hm. induction i as [|i IH]; intros fuel Hf Hi Ha.
  - cbn. destruct fuel; reflexivity.
  - rewrite firstn_S in * by lia. apply Forall_app in Ha. destruct Ha as [Ha Hc]. inversion Hc as [|? ? Hc' _]; subst.
    rewrite map_app, rev_app_distr. cbn [map rev app Decimal.round_up_rev]. destruct fuel as [|fuel]; [lia|]. cbn [up_loop].
    destruct (Z.leb_spec 0 (Z.of_nat (S i) - 1)); [|lia]. replace (Z.of_nat (S i) - 1) with (Z.of_nat i) by lia. rewrite get_ok by lia. cbn [bind]. rewrite Nat2Z.id.
    replace (nth i m 0 - 48 <? 9) with (nth i m 0 <? 57) by (destruct (Z.ltb_spec (nth i m 0) 57), (Z.ltb_spec (nth i m 0 - 48) 9); lia || reflexivity).
    destruct (Z.ltb_spec (nth i m 0) 57) as [L|L].
    + rewrite upd_ok by lia. cbn [bind]. rewrite Nat2Z.id. exists (put m i (u8 (nth i m 0 + 1))), (S i).
      assert (EU : u8 (nth i m 0 + 1) = nth i m 0 + 1) by (apply Z.mod_small; lia). rewrite EU.
      split; [do 3 f_equal; lia|]. split; [rewrite put_length; lia|]. split; [lia|]. rewrite put_firstn_S by lia.
      split; [apply Forall_app; split; [exact Ha|constructor; [lia|constructor]]|].
      cbn [rev]. rewrite rev_involutive, map_app. cbn [map]. do 2 f_equal. lia.
    + specialize (IH fuel ltac:(lia) ltac:(lia) Ha). destruct (Decimal.round_up_rev _); [|exact IH].
      destruct IH as (m' & n' & I1 & I2 & I3 & I4 & I5). exists m', n'. repeat split; try assumption. lia.
Qed.

Lemma RoundUp_arr a n : array_ok a -> exists b, RoundUp a n = Ret b /\ array_ok b /\ held b = Decimal.RoundUp (held a) n.
Proof.
  intros H. pose proof H as (Hl & Hn & Ha). unfold RoundUp, Decimal.RoundUp. rewrite held_nd by exact H.
  destruct (Z.ltb_spec n 0) as [L|L]; [eexists; repeat split; try reflexivity; auto; apply Hn|]. 
  destruct (Z.leb_spec (and_ a) n) as [G|G]; [eexists; repeat split; try reflexivity; auto; apply Hn|]. cbn [orb].
  assert (EF : firstn (Z.to_nat n) (Decimal.d (held a)) = ch (firstn (Z.to_nat n) (mem a))).
  { unfold held. cbn [Decimal.d]. rewrite firstn_map, firstn_firstn. do 2 f_equal. lia. }
  rewrite EF. pose proof (up_loop_arr (mem a) Hl (Z.to_nat n) 801 ltac:(lia) ltac:(lia) ltac:(apply (asc_firstn _ _ _ Ha); lia)) as U.
  rewrite Z2Nat.id in U by lia. destruct (Decimal.round_up_rev _) as [l|].
  - destruct U as (m' & n' & -> & U2 & U3 & U4 & U5). cbn [bind]. eexists. split; [reflexivity|]. split.
    + split; [exact U2|]. cbn [and_ mem]. rewrite Nat2Z.id. split; [lia|exact U4].
    + unfold held. cbn [and_ mem adp atr]. rewrite Nat2Z.id, U5. reflexivity.
  - rewrite U. cbn [bind]. rewrite upd_ok by lia. cbn [bind]. eexists. split; [reflexivity|]. change (Z.to_nat 0) with O.
    assert (EP : firstn 1 (put (mem a) 0 49) = [49]) by (rewrite put_firstn_S by lia; reflexivity).
    split.
    + split; [cbn [mem]; rewrite put_length; lia|]. cbn [and_ mem]. split; [lia|]. change (Z.to_nat 1) with 1%nat. rewrite EP. constructor; [lia|constructor].
    + unfold held. cbn [and_ mem adp atr]. change (Z.to_nat 1) with 1%nat. rewrite EP. reflexivity.
Qed.

Lemma Round_arr a n : array_ok a -> exists b, Round a n = Ret b /\ array_ok b /\ held b = Decimal.Round (held a) n.
Proof.
  intros H. unfold Round, Decimal.Round. rewrite held_nd by exact H. destruct (_ || _) eqn:E.
  - exists a. auto.
  - rewrite shouldRoundUp_arr by exact H. cbn [bind]. destruct (Decimal.shouldRoundUp (held a) n); [apply RoundUp_arr, H|apply RoundDown_arr, H].
Qed.

(** RoundedInteger *)
Lemma int_digits_arr a : array_ok a -> adp a <= 20 -> forall j i fuel n, Z.of_nat j = Z.min (adp a) (and_ a) - i -> (j <= fuel)%nat -> 0 <= i ->
  int_digits fuel a i n = Ret (Decimal.int_digits (ch (sub (mem a) (Z.to_nat i) (Z.to_nat (Z.min (adp a) (and_ a))))) n, Z.min (adp a) (and_ a)).
Proof.
  intros H Hd. pose proof H as (Hl & Hn & Ha). induction j as [|j IH]; intros i fuel n Hj Hf Hi.
  - rewrite sub_nil by lia. destruct fuel; cbn [int_digits map Decimal.int_digits]; destruct (Z.ltb_spec i (adp a)), (Z.ltb_spec i (and_ a)); cbn [andb]; do 2 f_equal; lia.
  - destruct fuel as [|fuel]; [lia|]. cbn [int_digits]. destruct (Z.ltb_spec i (adp a)), (Z.ltb_spec i (and_ a)); try lia. cbn [andb].
    rewrite get_ok by lia. cbn [bind]. rewrite sub_cons by lia. cbn [map Decimal.int_digits].
    rewrite (IH (i + 1)) by lia. replace (Z.to_nat (i + 1)) with (S (Z.to_nat i)) by lia. 
    pose proof (asc_nth (mem a) (Z.to_nat (and_ a)) (Z.to_nat i) Ha ltac:(lia) ltac:(lia)). unfold u8. rewrite (Z.mod_small (_ - 48) (2 ^ 8)) by lia. reflexivity.
Qed.

Lemma int_zeros_arr a : forall j i fuel n, Z.of_nat j = adp a - i -> (j <= fuel)%nat -> int_zeros fuel a i n = Ret (Decimal.int_zeros j n).
Proof.
  induction j as [|j IH]; intros i fuel n Hj Hf.
  - destruct fuel; cbn [int_zeros Decimal.int_zeros]; destruct (Z.ltb_spec i (adp a)); lia || reflexivity.
  - destruct fuel as [|fuel]; [lia|]. cbn [int_zeros Decimal.int_zeros]. destruct (Z.ltb_spec i (adp a)); [|lia]. apply IH; lia.
Qed.

Lemma RoundedInteger_arr a : array_ok a -> RoundedInteger a = Ret (Decimal.RoundedInteger (held a)).
Proof.
  intros H. pose proof H as (Hl & Hn & Ha). unfold RoundedInteger, Decimal.RoundedInteger. change (Decimal.dp (held a)) with (adp a).
  destruct (Z.ltb_spec 20 (adp a)) as [L|L]; [reflexivity|]. rewrite held_nd, shouldRoundUp_arr by exact H.
  assert (EF : firstn (Z.to_nat (adp a)) (Decimal.d (held a)) = ch (firstn (Z.to_nat (Z.min (adp a) (and_ a))) (mem a))).
  { unfold held. cbn [Decimal.d]. rewrite firstn_map, firstn_firstn. do 2 f_equal. lia. }
  rewrite EF. destruct (Z_le_gt_dec (adp a) 0) as [N|N].
  - assert (E1 : int_digits 21 a 0 0 = Ret (0, 0)).
    { cbn [int_digits]. destruct (Z.ltb_spec 0 (adp a)); [lia|]. reflexivity. }
    rewrite E1. cbn [bind].
    assert (E2 : int_zeros 21 a 0 0 = Ret 0). { cbn [int_zeros]. destruct (Z.ltb_spec 0 (adp a)); [lia|]. reflexivity. }
    rewrite E2. cbn [bind]. replace (Z.to_nat (Z.min (adp a) (and_ a))) with O by lia. replace (Z.to_nat (adp a - and_ a)) with O by lia. reflexivity.
  - rewrite (int_digits_arr a H L (Z.to_nat (Z.min (adp a) (and_ a))) 0) by lia. cbn [bind]. change (Z.to_nat 0) with O. rewrite sub_0.
    rewrite (int_zeros_arr a (Z.to_nat (adp a - and_ a))) by lia. reflexivity.
Qed.

(** Shift *)
Lemma shl_arr w fuel : w = 32 \/ w = 64 -> forall a k, array_ok a -> dnorm (held a) -> Decimal.d (held a) <> [] -> 0 <= k <= (w - 4) * (Z.of_nat fuel + 1) ->
  exists b, shl_loop fuel w a k = Ret b /\ array_ok b /\ Decimal.shl_loop fuel w (held a) k = Ret (held b).
Proof.
  intros Hw. induction fuel as [|fuel IH]; intros a k H Ha Na Hk; cbn [Decimal.shl_loop shl_loop]; unfold Decimal.maxShift; destruct (Z.ltb_spec (w - 4) k).
  - exfalso. lia.
  - destruct (leftShift_post w (held a) k ltac:(lia) ltac:(lia) Ha Na) as (b & E & B).
    destruct (leftShift_arr w a k b ltac:(lia) ltac:(lia) ltac:(lia) H Ha Na E) as (a' & A1 & A2 & A3). exists a'. rewrite A3. auto.
  - destruct (leftShift_post w (held a) (w - 4) ltac:(lia) ltac:(lia) Ha Na) as (b & E & B). rewrite E. cbn [bind].
    destruct (leftShift_arr w a (w - 4) b ltac:(lia) ltac:(lia) ltac:(lia) H Ha Na E) as (a' & A1 & A2 & A3). rewrite A1. cbn [bind]. subst b.
    apply (IH a' (k - (w - 4)) A2 (proj1 B) (proj1 (proj2 B))). lia.
  - destruct (leftShift_post w (held a) k ltac:(lia) ltac:(lia) Ha Na) as (b & E & B).
    destruct (leftShift_arr w a k b ltac:(lia) ltac:(lia) ltac:(lia) H Ha Na E) as (a' & A1 & A2 & A3). exists a'. rewrite A3. auto.
Qed.

Lemma shr_arr w fuel : w = 32 \/ w = 64 -> forall a k, array_ok a -> dnorm (held a) -> Decimal.d (held a) <> [] -> 0 <= k <= (w - 4) * (Z.of_nat fuel + 1) ->
  exists b, shr_loop fuel w a (- k) = Ret b /\ array_ok b /\ Decimal.shr_loop fuel w (held a) k = Ret (held b).
Proof.
  intros Hw. induction fuel as [|fuel IH]; intros a k H Ha Na Hk; cbn [Decimal.shr_loop shr_loop]; unfold Decimal.maxShift;
    (replace (- k <? - (w - 4)) with (w - 4 <? k) by (destruct (Z.ltb_spec (w - 4) k), (Z.ltb_spec (- k) (- (w - 4))); lia || reflexivity));
    destruct (Z.ltb_spec (w - 4) k); rewrite ?Z.opp_involutive.
  - exfalso. lia.
  - destruct (rightShift_post w (held a) k ltac:(lia) ltac:(lia) Ha Na) as (b & E & B).
    destruct (rightShift_arr w k ltac:(lia) ltac:(lia) a b H E) as (a' & A1 & A2 & A3). exists a'. rewrite A3. auto.
  - destruct (rightShift_post w (held a) (w - 4) ltac:(lia) ltac:(lia) Ha Na) as (b & E & B). rewrite E. cbn [bind].
    destruct (rightShift_arr w (w - 4) ltac:(lia) ltac:(lia) a b H E) as (a' & A1 & A2 & A3). rewrite A1. cbn [bind]. subst b.
    replace (- k + (w - 4)) with (- (k - (w - 4))) by lia.
    apply (IH a' (k - (w - 4)) A2 (proj1 B) (proj1 (proj2 B))). lia.
  - destruct (rightShift_post w (held a) k ltac:(lia) ltac:(lia) Ha Na) as (b & E & B).
    destruct (rightShift_arr w k ltac:(lia) ltac:(lia) a b H E) as (a' & A1 & A2 & A3). exists a'. rewrite A3. auto.
Qed.

Lemma Shift_arr w a k : w = 32 \/ w = 64 -> array_ok a -> dnorm (held a) ->
  exists b, Shift w a k = Ret b /\ array_ok b /\ Decimal.Shift w (held a) k = Ret (held b).
Proof.
  intros Hw H Ha. unfold Shift, Decimal.Shift. rewrite held_nd by exact H. destruct (Z.eqb_spec (and_ a) 0) as [E|E]; [exists a; auto|].
  assert (Na : Decimal.d (held a) <> []).
  { intros N. pose proof (held_nd a H) as EN. unfold Decimal.nd in EN. rewrite N in EN. cbn in EN. lia. }
  assert (Q : 0 <= Z.abs k / (w - 4)) by (apply Z.div_pos; lia).
  set (fuel := Z.to_nat (Z.abs k / Decimal.maxShift w + 1)).
  assert (F : Z.abs k <= (w - 4) * (Z.of_nat fuel + 1)).
  { unfold fuel, Decimal.maxShift. rewrite Z2Nat.id by lia.
    pose proof (Z.div_mod (Z.abs k) (w - 4) ltac:(lia)). pose proof (Z.mod_pos_bound (Z.abs k) (w - 4) ltac:(lia)). lia. }
  destruct (Z.ltb_spec 0 k); [|destruct (Z.ltb_spec k 0)].
  - apply shl_arr; auto. lia.
  - destruct (shr_arr w fuel Hw a (- k) H Ha Na) as (b & B1 & B2 & B3); [lia|]. rewrite Z.opp_involutive in B1. exists b. auto.
  - exists a. auto.
Qed.

(** String *)
Lemma slice_gen l i j : 0 <= i <= j -> j <= Z.of_nat (length l) -> slice l i j = Ret (sub l (Z.to_nat i) (Z.to_nat j)).
Proof.
  intros H1 H2. unfold slice. destruct (Z.ltb_spec i 0); [lia|]. destruct (Z.ltb_spec j i); [lia|]. destruct (Z.ltb_spec (Z.of_nat (length l)) j); [lia|].
  cbn [orb]. unfold sub. do 2 f_equal. lia.
Qed.

Lemma copy_arr buf w src : 0 <= w -> w + Z.of_nat (length src) <= Z.of_nat (length buf) ->
  exists buf', copy buf w src = Ret (buf', Z.of_nat (length src)) /\ length buf' = length buf /\
    firstn (Z.to_nat w + length src) buf' = firstn (Z.to_nat w) buf ++ src.
Proof.
  intros Hw H. unfold copy. rewrite slice_gen by lia. cbn [bind]. unfold sub. rewrite Nat2Z.id, firstn_length, skipn_length.
  replace (Nat.min _ (length src)) with (length src) by lia. eexists. split; [reflexivity|]. rewrite firstn_all. split.
  - rewrite !app_length, skipn_length, !firstn_length, skipn_length. lia.
  - rewrite app_assoc. rewrite firstn_app. rewrite firstn_all2 by (rewrite app_length, firstn_length; lia).
    replace (_ - _)%nat with O by (rewrite app_length, firstn_length; lia). cbn [firstn]. apply app_nil_r.
Qed.

Lemma digitZero_arr buf i j : 0 <= i <= j -> j <= Z.of_nat (length buf) ->
  exists buf', digitZero buf i j = Ret (buf', j - i) /\ length buf' = length buf /\
    firstn (Z.to_nat j) buf' = firstn (Z.to_nat i) buf ++ repeat 48 (Z.to_nat (j - i)).
Proof.
  intros H1 H2. unfold digitZero. rewrite slice_gen by lia. cbn [bind].
  assert (EL : length (sub buf (Z.to_nat i) (Z.to_nat j)) = Z.to_nat (j - i)) by (unfold sub; rewrite firstn_length, skipn_length; lia).
  rewrite EL. eexists. split; [rewrite Z2Nat.id by lia; reflexivity|]. split.
  - rewrite !app_length, skipn_length, firstn_length, repeat_length. lia.
  - rewrite app_assoc, firstn_app. rewrite firstn_all2 by (rewrite app_length, firstn_length, repeat_length; lia).
    replace (_ - _)%nat with O by (rewrite app_length, firstn_length, repeat_length; lia). cbn [firstn]. apply app_nil_r.
Qed.

Lemma chars_ch l : asc l -> Decimal.chars (ch l) = l.
Proof.
  induction 1 as [|c l Hc _ IH]; [reflexivity|]. unfold Decimal.chars in *. cbn [map]. rewrite IH. f_equal. unfold u8. rewrite Z.mod_small by lia. lia.
Qed.

Lemma slice_0 l j : 0 <= j <= Z.of_nat (length l) -> slice l 0 j = Ret (firstn (Z.to_nat j) l).
Proof. intros H. rewrite slice_gen by lia. change (Z.to_nat 0) with O. rewrite sub_0. reflexivity. Qed.

Lemma String_arr a : array_ok a -> String_ a = Ret (Decimal.String_ (held a)).
Proof.
  intros H. pose proof H as (Hl & Hn & Ha). unfold String_, Decimal.String_. rewrite held_nd by exact H. change (Decimal.dp (held a)) with (adp a).
  set (n := if adp a <? 0 then (if 0 <? adp a then 10 + and_ a + adp a else 10 + and_ a) + - adp a else (if 0 <? adp a then 10 + and_ a + adp a else 10 + and_ a)).
  assert (En : n = 10 + and_ a + Z.abs (adp a)) by (unfold n; destruct (Z.ltb_spec (adp a) 0), (Z.ltb_spec 0 (adp a)); lia). clearbody n.
  set (buf := repeat 0 (Z.to_nat n)). assert (Hb : Z.of_nat (length buf) = n) by (unfold buf; rewrite repeat_length; lia). clearbody buf.
  assert (Hd : Decimal.d (held a) = ch (firstn (Z.to_nat (and_ a)) (mem a))) by reflexivity.
  destruct (Z.eqb_spec (and_ a) 0) as [E0|E0]; [reflexivity|]. destruct (Z.leb_spec (adp a) 0) as [L|L]; [|destruct (Z.ltb_spec (adp a) (and_ a)) as [M|M]].
  - rewrite upd_ok by lia. cbn [bind]. rewrite upd_ok by (rewrite put_length; lia). cbn [bind]. change (Z.to_nat 0) with O. change (Z.to_nat 1) with 1%nat.
    set (buf1 := put (put buf 0 48) 1 46). assert (L1 : length buf1 = length buf) by (unfold buf1; rewrite !put_length; rewrite ?put_length; lia).
    assert (F1 : firstn 2 buf1 = [48; 46]) by (unfold buf1; rewrite put_firstn_S by (rewrite put_length; lia); rewrite put_firstn_S by lia; reflexivity).
    destruct (digitZero_arr buf1 2 (2 + - adp a) ltac:(lia) ltac:(lia)) as (buf2 & -> & L2 & F2). cbn [bind].
    rewrite slice_0 by lia. cbn [bind].
    assert (LS : length (firstn (Z.to_nat (and_ a)) (mem a)) = Z.to_nat (and_ a)) by (rewrite firstn_length; lia).
    destruct (copy_arr buf2 (2 + (2 + - adp a - 2)) (firstn (Z.to_nat (and_ a)) (mem a)) ltac:(lia)) as (buf3 & -> & L3 & F3). { rewrite LS. lia. }
    cbn [bind]. rewrite slice_0 by (rewrite LS; lia). f_equal. rewrite LS in *.
    replace (Z.to_nat (2 + (2 + - adp a - 2) + Z.of_nat (Z.to_nat (and_ a)))) with (Z.to_nat (2 + (2 + - adp a - 2)) + Z.to_nat (and_ a))%nat by lia.
    rewrite F3. replace (2 + (2 + - adp a - 2)) with (2 + - adp a) by lia. rewrite F2. change (Z.to_nat 2) with 2%nat. rewrite F1.
    replace (2 + - adp a - 2) with (- adp a) by lia. rewrite Hd, chars_ch by exact Ha. rewrite <- app_assoc. reflexivity.
  - rewrite slice_0 by lia. cbn [bind]. assert (LS : length (firstn (Z.to_nat (adp a)) (mem a)) = Z.to_nat (adp a)) by (rewrite firstn_length; lia).
    destruct (copy_arr buf 0 (firstn (Z.to_nat (adp a)) (mem a)) ltac:(lia)) as (buf1 & -> & L1 & F1). { rewrite LS. lia. }
    cbn [bind]. rewrite LS in *. rewrite Z2Nat.id by lia. rewrite upd_ok by lia. cbn [bind]. rewrite slice_gen by lia. cbn [bind].
    set (t := sub (mem a) (Z.to_nat (adp a)) (Z.to_nat (and_ a))).
    assert (LT : length t = (Z.to_nat (and_ a) - Z.to_nat (adp a))%nat) by (unfold t, sub; rewrite firstn_length, skipn_length; lia).
    destruct (copy_arr (put buf1 (Z.to_nat (adp a)) 46) (adp a + 1) t ltac:(lia)) as (buf2 & -> & L2 & F2). { rewrite put_length; lia. }
    cbn [bind]. rewrite slice_0 by (rewrite L2, put_length; lia). f_equal.
    replace (Z.to_nat (adp a + 1 + Z.of_nat (length t))) with (Z.to_nat (adp a + 1) + length t)%nat by lia. rewrite F2.
    replace (Z.to_nat (adp a + 1)) with (S (Z.to_nat (adp a))) by lia. rewrite put_firstn_S by lia.
    change (Z.to_nat 0) with O in F1. cbn [Nat.add firstn app] in F1. rewrite F1.
    destruct (firstn_skipn_comm' (mem a) (Z.to_nat (adp a)) (Z.to_nat (and_ a))) as [EF|EF]; [|lia]. fold t in EF.
    rewrite Hd. rewrite EF in Ha |- *. apply Forall_app in Ha.
    set (X := firstn (Z.to_nat (adp a)) (mem a)) in *. rewrite map_app.
    replace (Z.to_nat (adp a)) with (length (ch X)) by (rewrite map_length; exact LS).
    rewrite firstn_app, skipn_app, firstn_all, skipn_all, Nat.sub_diag. cbn [firstn skipn app]. rewrite app_nil_r.
    rewrite (chars_ch X) by apply Ha. rewrite (chars_ch t) by apply Ha. rewrite <- app_assoc. reflexivity.
  - rewrite slice_0 by lia. cbn [bind]. assert (LS : length (firstn (Z.to_nat (and_ a)) (mem a)) = Z.to_nat (and_ a)) by (rewrite firstn_length; lia).
    destruct (copy_arr buf 0 (firstn (Z.to_nat (and_ a)) (mem a)) ltac:(lia)) as (buf1 & -> & L1 & F1). { rewrite LS. lia. }
    cbn [bind]. rewrite LS in *. rewrite Z2Nat.id by lia.
    destruct (digitZero_arr buf1 (and_ a) (and_ a + adp a - and_ a) ltac:(lia) ltac:(lia)) as (buf2 & -> & L2 & F2). cbn [bind].
    rewrite slice_0 by lia. f_equal. replace (and_ a + (and_ a + adp a - and_ a - and_ a)) with (and_ a + adp a - and_ a) by lia. rewrite F2.
    change (Z.to_nat 0) with O in F1. cbn [Nat.add firstn app] in F1. rewrite F1. rewrite Hd, chars_ch by exact Ha. unfold Decimal.zeros. do 3 f_equal. lia.
Qed.
