(** Right and left shift of the model with the array. *)
From Coq Require Import ZArith String List Bool Lia.
From Verif Require Import GoBase SpecDec SpecArr BitFacts DecFacts.
From Verif Require Decimal.
From Verif Require Import DecimalArr ArrFacts.
Import ListNotations.
Open Scope Z_scope.

Section Right.
Variables w k : Z.
Hypothesis Hk : 0 <= k <= w - 4.
Hypothesis Hw : 32 <= w.

Lemma pow_k : 0 < 2 ^ k /\ 16 * 2 ^ k <= 2 ^ w.
Proof.
  split; [apply Z.pow_pos_nonneg; lia|]. change 16 with (2 ^ 4). rewrite <- Z.pow_add_r by lia. apply Z.pow_le_mono_r; lia.
Qed.

Lemma shr_zero n : 0 <= n -> (Z.shiftr n k =? 0) = (n <? 2 ^ k).
Proof.
  intros H. pose proof pow_k as [P _]. rewrite Z.shiftr_div_pow2 by lia. destruct (Z.ltb_spec n (2 ^ k)).
  - rewrite Z.div_small by lia. reflexivity.
  - assert (1 <= n / 2 ^ k) by (apply Z.div_le_lower_bound; lia). destruct (Z.eqb_spec (n / 2 ^ k) 0); [lia|reflexivity].
Qed.

Lemma shr_dig n : 0 <= n < 10 * 2 ^ k -> 0 <= Z.shiftr n k <= 9.
Proof.
  intros H. pose proof pow_k as [P _]. rewrite Z.shiftr_div_pow2 by lia. split; [apply Z.div_pos; lia|].
  assert (n / 2 ^ k < 10) by (apply Z.div_lt_upper_bound; lia). lia.
Qed.

Lemma mask_lt n : 0 <= n -> 0 <= Z.land n (2 ^ k - 1) < 2 ^ k.
Proof. intros H. pose proof pow_k as [P _]. rewrite land_ones_mod by lia. apply Z.mod_pos_bound. lia. Qed.

Lemma byte_dig g : 0 <= g <= 9 -> u8 ((g + 48) mod 2 ^ w) = g + 48.
Proof. intros H. assert (2 ^ 32 <= 2 ^ w) by (apply Z.pow_le_mono_r; lia). unfold u8. rewrite (Z.mod_small (g + 48) (2 ^ w)) by lia. apply Z.mod_small. lia. Qed.

Lemma pad_eq fuel : forall n r, pad fuel w k n r = Decimal.rs_pad fuel w k n r.
Proof. induction fuel as [|fuel IH]; intros n r; cbn; [reflexivity|]. rewrite IH. reflexivity. Qed.

Lemma pad_bound fuel : forall n r n' r', 0 <= n < 10 * 2 ^ k -> Decimal.rs_pad fuel w k n r = Ret (n', r') -> 0 <= n' < 10 * 2 ^ k /\ r <= r'.
Proof.
  pose proof pow_k as [P1 P2]. induction fuel as [|fuel IH]; intros n r n' r' Hn E; cbn [Decimal.rs_pad] in E; rewrite shr_zero in E by lia;
    destruct (Z.ltb_spec n (2 ^ k)); try discriminate; try (apply Ret_inj in E; split; [congruence|]; injection E; lia).
  rewrite Z.mod_small in E by lia. apply IH in E; lia.
Qed.

Lemma pick_arr m nd : length m = 800%nat -> (nd <= 800)%nat -> asc (firstn nd m) -> forall j r fuel n, (r + j = nd)%nat -> (j < fuel)%nat -> 0 <= n < 10 * 2 ^ k ->
  match Decimal.rs_pick w k (ch (sub m r nd)) n (Z.of_nat r) with
  | Ret None => pick fuel w k m (Z.of_nat nd) n (Z.of_nat r) = Ret None
  | Ret (Some (n', r', rest)) => pick fuel w k m (Z.of_nat nd) n (Z.of_nat r) = Ret (Some (n', r')) /\
      0 <= n' < 10 * 2 ^ k /\ 0 <= r' /\ rest = ch (sub m (Z.to_nat r') nd)
  | Panic => True
  end.
Proof.
  pose proof pow_k as [P1 P2]. intros Hm Hnd Ha. induction j as [|j IH]; intros r fuel n Hj Hf Hn.
  - rewrite sub_nil by lia. cbn [map]. destruct fuel as [|fuel]; [lia|]. cbn [Decimal.rs_pick pick]. rewrite shr_zero by lia.
    destruct (Z.ltb_spec n (2 ^ k)) as [L|L].
    + destruct (Z.leb_spec (Z.of_nat nd) (Z.of_nat r)); [|lia]. destruct (n =? 0); [reflexivity|]. change (pad 64 w k n (Z.of_nat r)) with (Decimal.rs_pad 64 w k n (Z.of_nat r)).
      destruct (Decimal.rs_pad 64 w k n (Z.of_nat r)) as [[n' r']|] eqn:E; cbn [bind]; [|exact I].
      apply pad_bound in E; [|lia]. split; [reflexivity|]. split; [lia|]. split; [lia|]. rewrite sub_nil by lia. reflexivity.
    + split; [reflexivity|]. split; [lia|]. split; [lia|]. rewrite Nat2Z.id, sub_nil by lia. reflexivity.
  - destruct fuel as [|fuel]; [lia|]. rewrite sub_cons by lia. cbn [map Decimal.rs_pick pick]. rewrite shr_zero by lia.
    destruct (Z.ltb_spec n (2 ^ k)) as [L|L].
    + destruct (Z.leb_spec (Z.of_nat nd) (Z.of_nat r)); [lia|]. rewrite get_ok by lia. cbn [bind]. rewrite Nat2Z.id.
      pose proof (asc_nth m nd r Ha ltac:(lia) ltac:(lia)) as Hc.
      replace (n * 10 + nth r m 0 - 48) with (n * 10 + (nth r m 0 - 48)) by lia.
      specialize (IH (S r) fuel ((n * 10 + (nth r m 0 - 48)) mod 2 ^ w) ltac:(lia) ltac:(lia)).
      replace (Z.of_nat (S r)) with (Z.of_nat r + 1) in IH by lia. apply IH. rewrite Z.mod_small by lia. lia.
    + split; [reflexivity|]. split; [lia|]. split; [lia|]. rewrite Nat2Z.id, (sub_cons m r) by lia. reflexivity.
Qed.

Lemma mid_arr nd : (nd <= 800)%nat -> forall j r fuel m n wp n' out, length m = 800%nat -> asc (sub m r nd) ->
  (r + j = nd)%nat -> (j < fuel)%nat -> (wp <= r)%nat -> 0 <= n < 10 * 2 ^ k ->
  Decimal.rs_mid w k (2 ^ k - 1) (ch (sub m r nd)) n = (n', out) ->
  exists m', mid fuel w k (2 ^ k - 1) m (Z.of_nat nd) n (Z.of_nat r) (Z.of_nat wp) = Ret (m', n', Z.of_nat (wp + length out)) /\
    length m' = 800%nat /\ firstn (wp + length out) m' = firstn wp m ++ map (fun c => c + 48) out /\
    Forall (fun c => 0 <= c <= 9) out /\ length out = j /\ 0 <= n' < 10 * 2 ^ k.
Proof.
  pose proof pow_k as [P1 P2]. intros Hnd. induction j as [|j IH]; intros r fuel m n wp n' out Hm Ha Hj Hf Hwr Hn E.
  - rewrite sub_nil in E by lia. cbn [map Decimal.rs_mid] in E. injection E as <- <-. exists m.
    split. { destruct fuel as [|fuel]; [lia|]. cbn [mid]. destruct (Z.ltb_spec (Z.of_nat r) (Z.of_nat nd)); [lia|]. cbn [length]. rewrite Nat.add_0_r. reflexivity. }
    cbn [length map]. rewrite Nat.add_0_r, app_nil_r. repeat split; try lia; auto.
  - rewrite sub_cons in E, Ha by lia. inversion Ha as [|? ? Hc Ha']; subst. cbn [map Decimal.rs_mid] in E.
    destruct (Decimal.rs_mid w k (2 ^ k - 1) (ch (sub m (S r) (r + S j))) _) as [n1 out1] eqn:E1. injection E as <- <-.
    destruct fuel as [|fuel]; [lia|]. cbn [mid]. destruct (Z.ltb_spec (Z.of_nat r) (Z.of_nat (r + S j))); [|lia].
    rewrite get_ok by lia. cbn [bind]. rewrite upd_ok by lia. cbn [bind]. rewrite !Nat2Z.id.
    rewrite byte_dig by (apply shr_dig; lia).
    pose proof (mask_lt n ltac:(lia)) as ML.
    replace (Z.land n (2 ^ k - 1) * 10 + nth r m 0 - 48) with (Z.land n (2 ^ k - 1) * 10 + (nth r m 0 - 48)) by lia.
    destruct (IH (S r) fuel (put m wp (Z.shiftr n k + 48)) ((Z.land n (2 ^ k - 1) * 10 + (nth r m 0 - 48)) mod 2 ^ w) (S wp) n1 out1) as (m' & A1 & A2 & A3 & A4 & A5 & A6).
    + rewrite put_length; lia.
    + rewrite sub_put by lia. exact Ha'.
    + lia.
    + lia.
    + lia.
    + rewrite Z.mod_small by lia. lia.
    + rewrite sub_put by lia. exact E1.
    + exists m'. cbn [length map]. split. { replace (Z.of_nat r + 1) with (Z.of_nat (S r)) by lia. replace (Z.of_nat wp + 1) with (Z.of_nat (S wp)) by lia. rewrite A1. do 2 f_equal. lia. }
      split; [exact A2|]. rewrite put_firstn_S, <- app_assoc in A3 by lia. cbn [app] in A3.
      split; [rewrite <- A3; f_equal; lia|]. split; [constructor; [apply shr_dig; lia|exact A4]|]. split; [lia|exact A6].
Qed.

Lemma mid_end fuel mask m nd n r wp : nd <= r -> mid fuel w k mask m nd n r wp = Ret (m, n, wp).
Proof. intros H. destruct fuel; cbn [mid]; rewrite (proj2 (Z.ltb_ge r nd) H); reflexivity. Qed.

Lemma extra_arr : forall fuel m n wp tr out tr', length m = 800%nat -> (wp <= 800)%nat -> 0 <= n < 10 * 2 ^ k ->
  Decimal.rs_extra fuel w k (2 ^ k - 1) n (Z.of_nat wp) tr = Ret (out, tr') ->
  exists m', extra fuel w k (2 ^ k - 1) m n (Z.of_nat wp) tr = Ret (m', Z.of_nat (wp + length out), tr') /\
    length m' = 800%nat /\ firstn (wp + length out) m' = firstn wp m ++ map (fun c => c + 48) out /\
    Forall (fun c => 0 <= c <= 9) out /\ (wp + length out <= 800)%nat.
Proof.
  pose proof pow_k as [P1 P2]. induction fuel as [|fuel IH]; intros m n wp tr out tr' Hm Hwr Hn E; cbn [Decimal.rs_extra extra] in *.
  - destruct (n <=? 0); [|discriminate]. injection E as <- <-. exists m. cbn [length map]. rewrite Nat.add_0_r, app_nil_r. auto.
  - destruct (n <=? 0). { injection E as <- <-. exists m. cbn [length map]. rewrite Nat.add_0_r, app_nil_r. auto. }
    rewrite Hm. change (Z.of_nat 800) with 800. unfold Decimal.maxDigits in E. pose proof (mask_lt n ltac:(lia)) as ML.
    destruct (Z.ltb_spec (Z.of_nat wp) 800) as [L|L].
    + destruct (Decimal.rs_extra fuel w k (2 ^ k - 1) _ (Z.of_nat wp + 1) tr) as [[out1 tr1]|] eqn:E1; cbn [bind] in E; [|discriminate].
      injection E as <- <-. rewrite upd_ok by lia. cbn [bind]. rewrite Nat2Z.id, byte_dig by (apply shr_dig; lia).
      replace (Z.of_nat wp + 1) with (Z.of_nat (S wp)) in * by lia.
      destruct (IH (put m wp (Z.shiftr n k + 48)) ((Z.land n (2 ^ k - 1) * 10) mod 2 ^ w) (S wp) tr out1 tr1 ltac:(rewrite put_length; lia) ltac:(lia) ltac:(rewrite Z.mod_small; lia) E1) as (m' & A1 & A2 & A3 & A4 & A5).
      exists m'. cbn [length map]. split; [rewrite A1; do 3 f_equal; lia|]. split; [exact A2|].
      rewrite put_firstn_S, <- app_assoc in A3 by lia. cbn [app] in A3. split; [rewrite <- A3; f_equal; lia|].
      split; [constructor; [apply shr_dig; lia|exact A4]|lia].
    + replace (if 0 <? Z.shiftr n k then true else tr) with (tr || (0 <? Z.shiftr n k)) by (destruct tr, (0 <? Z.shiftr n k); reflexivity).
      apply IH; try lia; [|exact E]. rewrite Z.mod_small by lia. lia.
Qed.

Lemma rightShift_arr a b : array_ok a -> Decimal.rightShift w (held a) k = Ret b ->
  exists a', rightShift w a k = Ret a' /\ array_ok a' /\ held a' = b.
Proof.
  pose proof pow_k as [P1 P2]. intros (Hl & Hn & Ha) E. unfold Decimal.rightShift, rightShift in *. cbn [held Decimal.d Decimal.dp Decimal.trunc] in E.
  pose proof (pick_arr (mem a) (Z.to_nat (and_ a)) Hl ltac:(lia) Ha (Z.to_nat (and_ a)) 0 801 0 ltac:(lia) ltac:(lia) ltac:(lia)) as HP.
  rewrite sub_0, Z2Nat.id in HP by lia. change (Z.of_nat 0) with 0 in HP.
  destruct (Decimal.rs_pick w k _ 0 0) as [[[[n r] rest]|]|] eqn:EP; cbn [bind] in E; [| |discriminate].
  - destruct HP as (HP & Hn' & Hr & ->). rewrite HP. cbn [bind].
    assert (EM : (2 ^ k - 1) mod 2 ^ w = 2 ^ k - 1) by (apply Z.mod_small; lia). rewrite EM in *.
    destruct (Decimal.rs_mid w k (2 ^ k - 1) _ n) as [n1 out] eqn:EMid.
    destruct (Decimal.rs_extra 66 w k (2 ^ k - 1) n1 (Z.of_nat (length out)) (atr a)) as [[out2 tr]|] eqn:EE; cbn [bind] in E; [|discriminate].
    apply Ret_inj in E. subst b.
    assert (HM : exists m', mid 801 w k (2 ^ k - 1) (mem a) (and_ a) n r 0 = Ret (m', n1, Z.of_nat (length out)) /\
      length m' = 800%nat /\ firstn (length out) m' = map (fun c => c + 48) out /\ Forall (fun c => 0 <= c <= 9) out /\ (length out <= 800)%nat /\ 0 <= n1 < 10 * 2 ^ k).
    { destruct (Z_lt_ge_dec r (and_ a)) as [L|L].
      - destruct (mid_arr (Z.to_nat (and_ a)) ltac:(lia) (Z.to_nat (and_ a) - Z.to_nat r) (Z.to_nat r) 801 (mem a) n 0 n1 out Hl) as (m' & A1 & A2 & A3 & A4 & A5 & A6); try lia; try assumption.
        + destruct (firstn_skipn_comm' (mem a) (Z.to_nat r) (Z.to_nat (and_ a))) as [EF|EF]; [|lia]. rewrite EF in Ha. apply Forall_app in Ha. apply Ha.
        + rewrite !Z2Nat.id in A1 by lia. change (Z.of_nat 0) with 0 in A1. cbn [Nat.add firstn app] in *. exists m'. repeat split; try assumption; lia.
      - rewrite sub_nil in EMid by lia. cbn [map Decimal.rs_mid] in EMid. injection EMid as <- <-. exists (mem a).
        split. { apply (mid_end 801). lia. }
        cbn [length]. repeat split; try assumption; try lia; try constructor. }
    destruct HM as (m1 & -> & M2 & M3 & M4 & M5 & M6). cbn [bind].
    destruct (extra_arr 66 m1 n1 (length out) (atr a) out2 tr M2 M5 M6 EE) as (m2 & -> & X2 & X3 & X4 & X5). cbn [bind].
    destruct (trim_arr (mkA m2 (Z.of_nat (length out + length out2)) (adp a - (r - 1)) tr)) as (c & C1 & C2 & C3).
    { split; [exact X2|]. cbn [and_ mem]. split; [lia|]. rewrite Nat2Z.id, X3, M3, <- map_app. apply asc_map. apply Forall_app. auto. }
    exists c. split; [exact C1|]. split; [exact C2|]. rewrite C3. f_equal. unfold held. cbn [and_ mem adp atr]. rewrite Nat2Z.id, X3, M3, <- map_app, ch_map. reflexivity.
  - rewrite HP. cbn [bind]. apply Ret_inj in E. subst b. eexists. split; [reflexivity|]. split; [|reflexivity].
    split; [exact Hl|]. cbn [and_ mem]. split; [lia|constructor].
Qed.
End Right.
