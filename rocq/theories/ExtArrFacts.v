(** The digit generation with buffers does the same as the model with lists. *)
From Coq Require Import ZArith List Bool Lia.
From Verif Require Import GoBase SpecDec DecFacts.
From Verif Require Import DecimalArr ArrFacts ExtArr.
From Verif Require ExtFloat Ftoa.
Import ListNotations.
Open Scope Z_scope.
Import ExtFloat (extFloat, mant, exp, neg, Normalize, frexp10, frexp10Many, uniformize, extFloat_eqb,
                 integerDigits_of, at_, uint64pow10, decimalSlice, mkSlice, sd, scap, sdp, sneg, snd_).
Import Ftoa (byte_of).

Notation len l := (Z.of_nat (length l)).

(** The slice of bytes starts with the digits. *)
Definition pre (dd d : list Z) : Prop := firstn (length d) dd = map byte_of d.
Definition rep (t : bslice) (s : decimalSlice) : Prop :=
  len (bd t) = scap s /\ bnd t = snd_ s /\ bdp t = sdp s /\ pre (bd t) (sd s).

Lemma pre_len dd d : pre dd d -> (length d <= length dd)%nat.
Proof. intros H. apply (f_equal (@length Z)) in H. rewrite firstn_length, map_length in H. lia. Qed.

Lemma pre_nth dd d i : pre dd d -> (i < length d)%nat -> nth i dd 0 = byte_of (nth i d 0).
Proof.
  intros H L. pose proof (pre_len _ _ H). rewrite <- (firstn_skipn (length d) dd). rewrite app_nth1 by (rewrite firstn_length; lia).
  rewrite H. rewrite nth_indep with (d' := byte_of 0) by (rewrite map_length; exact L). apply map_nth.
Qed.

Lemma pre_nil dd : pre dd [].
Proof. reflexivity. Qed.

Lemma pre_app dd d c : (length d < length dd)%nat -> pre dd d -> pre (put dd (length d) (byte_of c)) (d ++ [c]).
Proof.
  intros L H. unfold pre. rewrite app_length. cbn [length]. replace (length d + 1)%nat with (S (length d)) by lia.
  rewrite put_firstn_S by exact L. rewrite H, map_app. reflexivity.
Qed.

Lemma pre_prefix dd d e : pre dd (d ++ e) -> pre dd d.
Proof.
  unfold pre. rewrite app_length, map_app. intros H. apply (f_equal (firstn (length d))) in H. rewrite firstn_firstn in H.
  replace (Nat.min _ _) with (length d) in H by lia. rewrite H, firstn_app, firstn_all2 by (rewrite map_length; lia).
  rewrite map_length, Nat.sub_diag. cbn [firstn]. apply app_nil_r.
Qed.

Lemma pre_last dd d c c' : pre dd (d ++ [c]) -> pre (put dd (length d) (byte_of c')) (d ++ [c']).
Proof. intros H. apply pre_app; [|apply (pre_prefix _ _ _ H)]. apply pre_len in H. rewrite app_length in H. cbn in H. lia. Qed.

Lemma push_upd dd d cap c d' : pre dd d -> len dd = cap -> ExtFloat.push d cap c = Ret d' ->
  exists dd', upd dd (len d) (byte_of c) = Ret dd' /\ pre dd' d' /\ len dd' = cap /\ d' = d ++ [c].
Proof.
  intros H L. unfold ExtFloat.push. destruct (Z.ltb_spec (len d) cap) as [M|M]; [|discriminate]. intros E. apply Ret_inj in E. subst d'.
  eexists. split; [apply upd_ok; lia|]. rewrite Nat2Z.id. split; [apply pre_app; [lia|exact H]|]. split; [|reflexivity].
  rewrite put_length by lia. exact L.
Qed.

Lemma u8_u32 x : u8 (u32 x) = u8 x.
Proof. unfold u8, u32. symmetry; apply Znumtheory.Zmod_div_mod; [lia|lia|]. exists (2 ^ 24). reflexivity. Qed.
Lemma u8_u64 x : u8 (u64 x) = u8 x.
Proof. unfold u8, u64. symmetry; apply Znumtheory.Zmod_div_mod; [lia|lia|]. exists (2 ^ 56). reflexivity. Qed.
Lemma byte_pred c : u8 (byte_of c - 1) = byte_of (c - 1).
Proof. unfold byte_of, u8. rewrite Zminus_mod_idemp_l. f_equal. lia. Qed.
Lemma byte_succ c : u8 (byte_of c + 1) = byte_of (c + 1).
Proof. unfold byte_of, u8. rewrite Zplus_mod_idemp_l. f_equal. lia. Qed.
Lemma byte_small c : 0 <= c <= 9 -> byte_of c = c + 48.
Proof. intros H. unfold byte_of, u8. apply Z.mod_small. lia. Qed.
Lemma byte_eqb c k : -1 <= c <= 9 -> 0 <= k <= 9 -> (byte_of c =? k + 48) = (c =? k).
Proof.
  intros H K. unfold byte_of, u8. rewrite Z.mod_small by lia.
  destruct (Z.eqb_spec (c + 48) (k + 48)), (Z.eqb_spec c k); lia || reflexivity.
Qed.

(** Scratch buffers *)
Lemma fill_fixed_arr fuel : forall fuel' v out buf l, 0 <= v < 2 ^ 32 -> ExtFloat.int_to_digits fuel v out = Ret l -> (fuel <= fuel')%nat ->
  (length out + fuel = length buf)%nat -> skipn fuel buf = map byte_of out ->
  exists buf', fill_fixed fuel' v buf (Z.of_nat fuel) = Ret (buf', len buf - len l) /\ length buf' = length buf /\
    (length l <= length buf)%nat /\ skipn (length buf - length l) buf' = map byte_of l.
Proof.
  induction fuel as [|fuel IH]; intros fuel' v out buf l Hv E Hf HL HS; cbn [ExtFloat.int_to_digits] in E.
  - destruct (Z.leb_spec v 0) as [L|L]; [|discriminate]. apply Ret_inj in E. subst l.
    exists buf. split; [|split; [reflexivity|split; [lia|]]].
    + destruct fuel'; cbn [fill_fixed]; (destruct (Z.leb_spec v 0); [|lia]); do 2 f_equal; lia.
    + replace (length buf - length out)%nat with O by lia. exact HS.
  - destruct (Z.leb_spec v 0) as [L|L].
    + apply Ret_inj in E. subst l. exists buf. split; [|split; [reflexivity|split; [lia|]]].
      * destruct fuel'; cbn [fill_fixed]; (destruct (Z.leb_spec v 0); [|lia]); do 2 f_equal; lia.
      * replace (length buf - length out)%nat with (S fuel) by lia. exact HS.
    + destruct fuel' as [|fuel']; [lia|]. cbn [fill_fixed]. destruct (Z.leb_spec v 0); [lia|].
      pose proof (Z.div_mod v 10 ltac:(lia)) as DM. pose proof (Z.mod_pos_bound v 10 ltac:(lia)) as MB.
      assert (Q : 0 <= v / 10 < 2 ^ 32) by (split; [apply Z.div_pos; lia|apply Z.div_lt_upper_bound; lia]).
      replace (Z.of_nat (S fuel) - 1) with (Z.of_nat fuel) by lia. rewrite upd_ok by lia. cbn [bind]. rewrite Nat2Z.id.
      assert (EU : u8 (u32 (u32 (v - u32 (10 * (v / 10))) + 48)) = byte_of (v - 10 * (v / 10))).
      { unfold byte_of. rewrite u8_u32. unfold u32. rewrite (Z.mod_small (10 * _)) by lia. rewrite (Z.mod_small (v - _)) by lia. reflexivity. }
      rewrite EU. destruct (IH fuel' (v / 10) (v - 10 * (v / 10) :: out) (put buf fuel (byte_of (v - 10 * (v / 10)))) l Q E ltac:(lia)) as (buf' & B1 & B2 & B3 & B4).
      * cbn [length]. rewrite put_length; lia.
      * rewrite put_skipn_at by lia. cbn [map]. f_equal. exact HS.
      * rewrite put_length in * by lia. exists buf'. auto.
Qed.

Lemma fill_short_arr fuel : forall fuel' v out buf l, 0 <= v < 2 ^ 64 -> ExtFloat.int_to_digits fuel v out = Ret l -> (fuel <= fuel')%nat ->
  (length out + fuel = length buf)%nat -> skipn fuel buf = map byte_of out ->
  exists buf', fill_short fuel' v buf (Z.of_nat fuel - 1) = Ret (buf', len buf - len l - 1) /\ length buf' = length buf /\
    (length l <= length buf)%nat /\ skipn (length buf - length l) buf' = map byte_of l.
Proof.
  induction fuel as [|fuel IH]; intros fuel' v out buf l Hv E Hf HL HS; cbn [ExtFloat.int_to_digits] in E.
  - destruct (Z.leb_spec v 0) as [L|L]; [|discriminate]. apply Ret_inj in E. subst l.
    exists buf. split; [|split; [reflexivity|split; [lia|]]].
    + destruct fuel'; cbn [fill_short]; (destruct (Z.leb_spec v 0); [|lia]); do 2 f_equal; lia.
    + replace (length buf - length out)%nat with O by lia. exact HS.
  - destruct (Z.leb_spec v 0) as [L|L].
    + apply Ret_inj in E. subst l. exists buf. split; [|split; [reflexivity|split; [lia|]]].
      * destruct fuel'; cbn [fill_short]; (destruct (Z.leb_spec v 0); [|lia]); do 2 f_equal; lia.
      * replace (length buf - length out)%nat with (S fuel) by lia. exact HS.
    + destruct fuel' as [|fuel']; [lia|]. cbn [fill_short]. destruct (Z.leb_spec v 0); [lia|].
      pose proof (Z.div_mod v 10 ltac:(lia)) as DM. pose proof (Z.mod_pos_bound v 10 ltac:(lia)) as MB.
      assert (Q : 0 <= v / 10 < 2 ^ 64) by (split; [apply Z.div_pos; lia|apply Z.div_lt_upper_bound; lia]).
      replace (Z.of_nat (S fuel) - 1) with (Z.of_nat fuel) by lia. rewrite upd_ok by lia. cbn [bind]. rewrite Nat2Z.id.
      assert (EU : u8 (u64 (u64 (v - u64 (10 * (v / 10))) + 48)) = byte_of (v - 10 * (v / 10))).
      { unfold byte_of. rewrite u8_u64. unfold u64. rewrite (Z.mod_small (10 * _)) by lia. rewrite (Z.mod_small (v - _)) by lia. reflexivity. }
      rewrite EU. destruct (IH fuel' (v / 10) (v - 10 * (v / 10) :: out) (put buf fuel (byte_of (v - 10 * (v / 10)))) l Q E ltac:(lia)) as (buf' & B1 & B2 & B3 & B4).
      * cbn [length]. rewrite put_length; lia.
      * rewrite put_skipn_at by lia. cbn [map]. f_equal. exact HS.
      * rewrite put_length in * by lia. exists buf'. auto.
Qed.

Lemma skipn_nth (m t : list Z) i j : skipn i m = t -> (j < length t)%nat -> nth (i + j) m 0 = nth j t 0.
Proof. intros <- H. rewrite skipn_length in H. rewrite <- (firstn_skipn i m) at 1. rewrite app_nth2; rewrite firstn_length; [f_equal; lia|lia]. Qed.

Lemma copy_fixed_arr buf l p : skipn p buf = map byte_of l -> (p + length l = length buf)%nat -> forall k fuel j dd, (j + k = length l)%nat -> (k <= fuel)%nat ->
  pre dd (firstn j l) -> (length l <= length dd)%nat ->
  exists dd', copy_fixed fuel buf (Z.of_nat p) (Z.of_nat (p + j)) dd = Ret dd' /\ pre dd' l /\ len dd' = len dd.
Proof.
  intros HS HL. induction k as [|k IH]; intros fuel j dd Hj Hf HP LD.
  - exists dd. replace (firstn j l) with l in HP by (symmetry; apply firstn_all2; lia).
    split; [|auto]. destruct fuel; cbn [copy_fixed]; (destruct (Z.ltb_spec (Z.of_nat (p + j)) (len buf)); [lia|reflexivity]).
  - destruct fuel as [|fuel]; [lia|]. cbn [copy_fixed]. destruct (Z.ltb_spec (Z.of_nat (p + j)) (len buf)) as [L|L]; [|lia].
    rewrite get_ok by lia. cbn [bind]. rewrite Nat2Z.id. rewrite (skipn_nth buf (map byte_of l) p j HS) by (rewrite map_length; lia).
    rewrite nth_indep with (d' := byte_of 0) by (rewrite map_length; lia). rewrite map_nth.
    replace (Z.of_nat (p + j) - Z.of_nat p) with (Z.of_nat j) by lia. rewrite upd_ok by lia. cbn [bind]. rewrite Nat2Z.id.
    replace (Z.of_nat (p + j) + 1) with (Z.of_nat (p + S j)) by lia.
    assert (LJ : length (firstn j l) = j) by (rewrite firstn_length; lia).
    destruct (IH fuel (S j) (put dd j (byte_of (nth j l 0))) ltac:(lia) ltac:(lia)) as (dd' & D1 & D2 & D3).
    + rewrite firstn_S by lia. rewrite <- LJ at 1. apply pre_app; [lia|exact HP].
    + rewrite put_length; lia.
    + rewrite put_length in D3 by lia. exists dd'. auto.
Qed.

Lemma copy_short_arr buf l p : skipn p buf = map byte_of l -> (p + length l = length buf)%nat -> forall k fuel j dd, (j + k = length l)%nat -> (k <= fuel)%nat ->
  pre dd (firstn j l) -> (length l <= length dd)%nat ->
  exists dd', copy_short fuel buf (Z.of_nat p - 1) (len l) (Z.of_nat j) dd = Ret dd' /\ pre dd' l /\ len dd' = len dd.
Proof.
  intros HS HL. induction k as [|k IH]; intros fuel j dd Hj Hf HP LD.
  - exists dd. replace (firstn j l) with l in HP by (symmetry; apply firstn_all2; lia).
    split; [|auto]. destruct fuel; cbn [copy_short]; (destruct (Z.ltb_spec (Z.of_nat j) (len l)); [lia|reflexivity]).
  - destruct fuel as [|fuel]; [lia|]. cbn [copy_short]. destruct (Z.ltb_spec (Z.of_nat j) (len l)) as [L|L]; [|lia].
    replace (Z.of_nat p - 1 + 1 + Z.of_nat j) with (Z.of_nat (p + j)) by lia.
    rewrite get_ok by lia. cbn [bind]. rewrite Nat2Z.id. rewrite (skipn_nth buf (map byte_of l) p j HS) by (rewrite map_length; lia).
    rewrite nth_indep with (d' := byte_of 0) by (rewrite map_length; lia). rewrite map_nth.
    rewrite upd_ok by lia. cbn [bind]. rewrite Nat2Z.id. replace (Z.of_nat j + 1) with (Z.of_nat (S j)) by lia.
    assert (LJ : length (firstn j l) = j) by (rewrite firstn_length; lia).
    destruct (IH fuel (S j) (put dd j (byte_of (nth j l 0))) ltac:(lia) ltac:(lia)) as (dd' & D1 & D2 & D3).
    + rewrite firstn_S by lia. rewrite <- LJ at 1. apply pre_app; [lia|exact HP].
    + rewrite put_length; lia.
    + rewrite put_length in D3 by lia. exists dd'. auto.
Qed.

(** FixedDecimal *)
Lemma fraction_fixed_arr cap shift : forall fuel fuel' needed fraction eps d dd r,
  pre dd d -> len dd = cap -> ExtFloat.fixed_fraction fuel needed fraction eps shift d cap = Ret r -> (fuel <= fuel')%nat ->
  match r with
  | None => fraction_fixed fuel' needed fraction eps shift dd (len d) = Ret None
  | Some (d', fr, ep) => exists dd', fraction_fixed fuel' needed fraction eps shift dd (len d) = Ret (Some (dd', len d', fr, ep)) /\ pre dd' d' /\ len dd' = cap
  end.
Proof.
  induction fuel as [|fuel IH]; intros fuel' needed fraction eps d dd r HP HL E Hf; cbn [ExtFloat.fixed_fraction] in E.
  - destruct (Z.leb_spec needed 0) as [L|L]; [|discriminate]. apply Ret_inj in E. subst r. exists dd. split; [|auto].
    destruct fuel'; cbn [fraction_fixed]; (destruct (Z.ltb_spec 0 needed); [lia|reflexivity]).
  - destruct (Z.leb_spec needed 0) as [L|L].
    + apply Ret_inj in E. subst r. exists dd. split; [|auto].
      destruct fuel'; cbn [fraction_fixed]; (destruct (Z.ltb_spec 0 needed); [lia|reflexivity]).
    + destruct fuel' as [|fuel']; [lia|]. cbn [fraction_fixed]. destruct (Z.ltb_spec 0 needed) as [_|]; [|lia].
      destruct (_ <? _). { apply Ret_inj in E. subst r. reflexivity. }
      destruct (ExtFloat.push d cap (Z.shiftr (u64 (fraction * 10)) shift)) as [d1|] eqn:EP; [|discriminate]. cbn [bind] in E.
      destruct (push_upd dd d cap _ d1 HP HL EP) as (dd1 & U1 & U2 & U3 & U4).
      replace (u8 (u64 (Z.shiftr (u64 (fraction * 10)) shift + 48))) with (byte_of (Z.shiftr (u64 (fraction * 10)) shift)) by (symmetry; apply u8_u64).
      rewrite U1. cbn [bind]. replace (len d + 1) with (len d1) by (rewrite U4, app_length; cbn [length]; lia).
      apply (IH fuel' _ _ _ d1 dd1 r U2 U3 E). lia.
Qed.

Lemma nines_arr dd : forall d fuel, pre dd d -> (length d <= fuel)%nat ->
  (forall l, ExtFloat.inc_rev (rev d) = Some l -> digits_ok (rev l)) ->
  match ExtFloat.inc_rev (rev d) with
  | Some l => exists d' c, nines fuel dd (len d - 1) (len d) = Ret (len d', len d' + 1) /\ rev l = d' ++ [c + 1] /\ pre dd (d' ++ [c])
  | None => nines fuel dd (len d - 1) (len d) = Ret (-1, 0)
  end.
Proof.
  induction d as [|c d IH] using rev_ind; intros fuel HP Hf HD.
  - cbn. destruct fuel; reflexivity.
  - rewrite rev_app_distr in *. cbn [rev app ExtFloat.inc_rev] in *. rewrite app_length in *. cbn [length] in *.
    replace (Z.of_nat (length d + 1) - 1) with (len d) by lia. pose proof (pre_len _ _ HP) as PL. rewrite app_length in PL. cbn [length] in PL.
    assert (G : get dd (len d) = Ret (byte_of c)).
    { rewrite get_ok by lia. rewrite Nat2Z.id. rewrite (pre_nth dd (d ++ [c])) by (try rewrite app_length; cbn [length]; auto; lia).
      rewrite app_nth2, Nat.sub_diag by lia. reflexivity. }
    destruct (Z.eqb_spec c 9) as [->|N].
    + specialize (IH (pred fuel) (pre_prefix _ _ _ HP) ltac:(lia) HD). destruct fuel as [|fuel]; [lia|]. cbn [Nat.pred] in IH. cbn [nines].
      destruct (Z.leb_spec 0 (len d)); [|lia]. rewrite G. cbn [bind]. change (byte_of 9 =? 57) with true. cbn iota.
      replace (Z.of_nat (length d + 1) - 1) with (len d) by lia. exact IH.
    + exists d, c. assert (HC : 0 <= c + 1 <= 9).
      { specialize (HD _ eq_refl). unfold digits_ok in HD. cbn [rev] in HD. apply Forall_app in HD. destruct HD as [_ HD]. inversion HD; subst. lia. }
      split; [|split; [cbn [rev]; rewrite rev_involutive; reflexivity|exact HP]].
      destruct fuel as [|fuel]; [lia|]. cbn [nines]. destruct (Z.leb_spec 0 (len d)); [|lia]. rewrite G. cbn [bind].
      change 57 with (9 + 48). rewrite byte_eqb by lia. destruct (Z.eqb_spec c 9); [contradiction|]. f_equal. f_equal. lia.
Qed.

Lemma adjust_fixed_arr t s num den shift eps s' ok : rep t s -> (length (sd s) <= 64)%nat -> 0 < scap s ->
  ExtFloat.adjustLastDigitFixed s num den shift eps = Ret (s', ok) -> (ok = true -> digits_ok (sd s')) ->
  exists t', adjustLastDigitFixed t num den shift eps = Ret (t', ok) /\ rep t' s' /\ (length (sd s') <= Nat.max 1 (length (sd s)))%nat.
Proof.
  intros (R1 & R2 & R3 & R4) HL HC E HD. unfold ExtFloat.adjustLastDigitFixed in E. unfold adjustLastDigitFixed.
  destruct (_ <? num); [discriminate|]. destruct (_ <? u64 (2 * eps)); [discriminate|].
  destruct (u64 (2 * u64 (num + eps)) <? _). { apply Ret_inj in E. injection E as <- <-. exists t. split; [reflexivity|split; [repeat split; assumption|lia]]. }
  destruct (_ <? u64 (2 * u64 (num - eps))).
  2: { apply Ret_inj in E. injection E as <- <-. exists t. split; [reflexivity|split; [repeat split; assumption|lia]]. }
  pose proof (nines_arr (bd t) (sd s) 64 R4 HL) as N. rewrite R2. unfold snd_.
  destruct (ExtFloat.inc_rev (rev (sd s))) as [l|] eqn:EI.
  - apply Ret_inj in E. injection E as <- <-. specialize (HD eq_refl). cbn [sd] in HD.
    destruct N as (d' & c & N1 & N2 & N3). { intros l' El. injection El as <-. exact HD. }
    rewrite N1. cbn [bind]. destruct (Z.ltb_spec (len d') 0); [lia|]. pose proof (pre_len _ _ N3) as PL. rewrite app_length in PL. cbn [length] in PL.
    rewrite get_ok by lia. cbn [bind]. rewrite Nat2Z.id. rewrite (pre_nth _ _ _ N3) by (rewrite app_length; cbn [length]; lia).
    rewrite app_nth2, Nat.sub_diag by lia. cbn [nth]. rewrite byte_succ. rewrite upd_ok by lia. cbn [bind]. rewrite Nat2Z.id.
    eexists. split; [reflexivity|]. split.
    + split; cbn [bd scap]; [rewrite put_length by lia; exact R1|]. split; cbn [bnd snd_ sd]; [unfold snd_; cbn [sd]; rewrite N2, app_length; cbn [length]; lia|].
      split; cbn [bdp sdp]; [exact R3|]. cbn [bd sd]. rewrite N2. apply (pre_last _ _ c). exact N3.
    + cbn [sd]. rewrite rev_length. assert (LI : forall x y, ExtFloat.inc_rev x = Some y -> (length y <= length x)%nat).
      { induction x as [|a x IHx]; intros y Hy; cbn in Hy; [discriminate|]. destruct (a =? 9); [specialize (IHx _ Hy); cbn; lia|injection Hy as <-; cbn; lia]. }
      specialize (LI _ _ EI). rewrite rev_length in LI. lia.
  - rewrite N by discriminate. cbn [bind]. change (-1 <? 0) with true. cbn iota. apply Ret_inj in E. injection E as <- <-.
    rewrite upd_ok by lia. cbn [bind]. eexists. split; [reflexivity|]. change (Z.to_nat 0) with O. split; [|cbn [sd length]; lia].
    split; cbn [bd scap]; [rewrite put_length by lia; exact R1|]. split; [reflexivity|]. split; cbn [bdp sdp]; [lia|]. cbn [bd sd].
    unfold pre. cbn [length map]. rewrite put_firstn_S by lia. reflexivity.
Qed.

Lemma trim_fixed_arr dd n : forall d fuel, pre dd d -> (length d <= fuel)%nat -> digits_ok d ->
  trim_fixed fuel dd (len d - 1) n = Ret (match ExtFloat.drop0 (rev d) with [] => n | r => len r end).
Proof.
  induction d as [|c d IH] using rev_ind; intros fuel HP Hf HD.
  - cbn. destruct fuel; reflexivity.
  - rewrite rev_app_distr. cbn [rev app ExtFloat.drop0]. rewrite app_length in *. cbn [length] in *.
    replace (Z.of_nat (length d + 1) - 1) with (len d) by lia. pose proof (pre_len _ _ HP) as PL. rewrite app_length in PL. cbn [length] in PL.
    assert (G : get dd (len d) = Ret (byte_of c)).
    { rewrite get_ok by lia. rewrite Nat2Z.id. rewrite (pre_nth dd (d ++ [c])) by (try rewrite app_length; cbn [length]; auto; lia).
      rewrite app_nth2, Nat.sub_diag by lia. reflexivity. }
    apply Forall_app in HD. destruct HD as [HD Hc]. inversion Hc as [|? ? Hc' _]; subst.
    destruct fuel as [|fuel]; [lia|]. cbn [trim_fixed]. destruct (Z.leb_spec 0 (len d)); [|lia]. rewrite G. cbn [bind].
    change 48 with (0 + 48). rewrite byte_eqb by lia. destruct (Z.eqb_spec c 0) as [->|N]; cbn [negb].
    + apply IH; [apply (pre_prefix _ _ _ HP)|lia|exact HD].
    + f_equal. cbn [length]. rewrite rev_length. lia.
Qed.

Lemma drop0_suffix l : exists z, l = repeat 0 z ++ ExtFloat.drop0 l.
Proof.
  induction l as [|c l [z IH]]; [exists O; reflexivity|]. cbn [ExtFloat.drop0]. destruct (Z.eqb_spec c 0) as [->|]; [|exists O; reflexivity].
  exists (S z). cbn [repeat app]. f_equal. exact IH.
Qed.

Lemma rev_repeat0 z : rev (repeat 0 z) = repeat 0 z.
Proof. induction z as [|z IH]; [reflexivity|]. cbn [repeat rev]. rewrite IH. rewrite <- repeat_cons. reflexivity. Qed.

Lemma trim_zeros_split l : exists z, l = ExtFloat.trim_zeros_fixed l ++ repeat 0 z /\
  ((z = O) \/ ExtFloat.drop0 (rev l) <> []).
Proof.
  unfold ExtFloat.trim_zeros_fixed. destruct (drop0_suffix (rev l)) as [z Hz]. destruct (ExtFloat.drop0 (rev l)) as [|c r] eqn:E.
  - exists O. split; [cbn [repeat]; rewrite app_nil_r; reflexivity|left; reflexivity].
  - exists z. split; [|right; discriminate]. rewrite <- (rev_involutive l) at 1. rewrite Hz, rev_app_distr, rev_repeat0. reflexivity.
Qed.

Lemma digits_ok_zeros z : digits_ok (repeat 0 z).
Proof. unfold digits_ok. induction z; cbn; constructor; auto; lia. Qed.

Lemma fixed_len fuel : forall needed fraction eps shift d cap d' fr ep, ExtFloat.fixed_fraction fuel needed fraction eps shift d cap = Ret (Some (d', fr, ep)) ->
  len d <= cap -> len d' <= cap.
Proof.
  induction fuel as [|fuel IH]; intros * E L; cbn [ExtFloat.fixed_fraction] in E; (destruct (Z.leb_spec needed 0); [apply Ret_inj in E; injection E as <- _ _; exact L|]); [discriminate|].
  destruct (_ <? _); [discriminate|]. destruct (ExtFloat.push _ _ _) as [d1|] eqn:EP; [|discriminate]. cbn [bind] in E. apply (IH _ _ _ _ _ _ _ _ _ E).
  unfold ExtFloat.push in EP. destruct (Z.ltb_spec (len d) cap); [|discriminate]. apply Ret_inj in EP. subst d1. rewrite app_length. cbn [length]. lia.
Qed.

Lemma u32_div x y : 0 <= x < 2 ^ 32 -> 0 < y -> 0 <= x / y < 2 ^ 32.
Proof. intros H Y. split; [apply Z.div_pos; lia|]. apply Z.le_lt_trans with x; [|lia]. apply Z.div_le_upper_bound; nia. Qed.

Lemma FixedDecimal_arr f t s n s' ok : rep t s -> sd s = [] -> 0 < scap s <= 60 ->
  ExtFloat.FixedDecimal f s n = Ret (s', ok) -> (ok = true -> digits_ok (sd s')) ->
  exists t', FixedDecimal f t n = Ret (t', ok) /\ (ok = true -> rep t' s').
Proof.
  intros R ES HC E HD. unfold ExtFloat.FixedDecimal in E. unfold FixedDecimal. pose proof R as (R1 & R2 & R3 & R4).
  destruct (mant f =? 0).
  { apply Ret_inj in E. injection E as <- <-. eexists. split; [reflexivity|]. intros _. repeat split. exact R1. }
  destruct (n =? 0); [discriminate|]. destruct (Normalize f) as [f1 sh]. destruct (frexp10 f1) as [[[f2 exp10] i0]|]; [|discriminate]. cbn [bind] in *.
  set (shift := u64 (- exp f2)) in *. set (integer := u32 (Z.shiftr (mant f2) shift)) in *. set (fraction := u64 (mant f2 - u64 (Z.shiftl integer shift))) in *.
  set (iD := integerDigits_of integer) in *. assert (HI : 0 <= integer < 2 ^ 32) by (apply Z.mod_pos_bound; lia). cbv zeta in *.
  match type of E with bind ?X _ = _ => destruct X as [[[int1 rest] pow10]|] eqn:E1 end; [|discriminate].
  cbn [bind] in *.
  assert (HI1 : 0 <= int1 < 2 ^ 32).
  { destruct (n <? iD); [|apply Ret_inj in E1; injection E1 as <- _ _; exact HI]. destruct (at_ _ _) as [p|]; [|discriminate]. cbn [bind] in E1.
    assert (0 <= u32 p < 2 ^ 32) by (apply Z.mod_pos_bound; lia). destruct (Z.eqb_spec (u32 p) 0); [discriminate|].
    apply Ret_inj in E1. injection E1 as <- _ _. apply u32_div; lia. }
  clear E1. destruct (ExtFloat.int_to_digits 32 int1 []) as [buf|] eqn:EB; [|discriminate]. cbn [bind] in E.
  destruct (fill_fixed_arr 32 64 int1 [] (repeat 0 32) buf HI1 EB ltac:(lia) eq_refl eq_refl) as (ab & B1 & B2 & B3 & B4).
  change (len (repeat 0 32)) with 32 in *. change (length (repeat 0 32)) with 32%nat in *. change (Z.of_nat 32) with 32 in B1. rewrite B1. cbn [bind].
  destruct (Z.ltb_spec (scap s) (len buf)) as [|HB]; [discriminate|].
  destruct (copy_fixed_arr ab buf (32 - length buf) B4 ltac:(lia) (length buf) 64 0 (bd t) ltac:(lia) ltac:(lia) (pre_nil _) ltac:(lia)) as (dd & D1 & D2 & D3).
  replace (Z.of_nat (32 - length buf)) with (32 - len buf) in D1 by lia. rewrite Nat.add_0_r in D1. replace (Z.of_nat (32 - length buf)) with (32 - len buf) in D1 by lia.
  rewrite D1. cbn [bind]. replace (32 - (32 - len buf)) with (len buf) by lia.
  match type of E with bind ?X _ = _ => destruct X as [r|] eqn:E2 end; [|discriminate]. cbn [bind] in E.
  assert (F : match r with
     | None => (if 0 <? n - len buf then if negb (rest =? 0) || negb (pow10 =? 1) then Panic else fraction_fixed 64 (n - len buf) fraction 1 shift dd (len buf) else Ret (Some (dd, len buf, fraction, 1))) = Ret None
     | Some (d', fr, ep) => exists dd', (if 0 <? n - len buf then if negb (rest =? 0) || negb (pow10 =? 1) then Panic else fraction_fixed 64 (n - len buf) fraction 1 shift dd (len buf) else Ret (Some (dd, len buf, fraction, 1))) = Ret (Some (dd', len d', fr, ep)) /\ pre dd' d' /\ len dd' = scap s /\ len d' <= scap s
     end).
  { destruct (0 <? n - len buf).
    - destruct (_ || _); [discriminate|]. pose proof (fraction_fixed_arr (scap s) shift _ 64 _ _ _ _ dd r D2 ltac:(lia) E2 ltac:(lia)) as F.
      destruct r as [[[d' fr] ep]|]; [|exact F]. destruct F as (dd' & F1 & F2 & F3). exists dd'. repeat split; auto. apply (fixed_len _ _ _ _ _ _ _ _ _ _ E2 HB).
    - apply Ret_inj in E2. subst r. exists dd. repeat split; auto. lia. }
  destruct r as [[[d' fr] ep]|].
  - destruct F as (dd' & -> & F2 & F3 & F4). cbn [bind]. 
    destruct (ExtFloat.adjustLastDigitFixed _ _ _ _ _) as [[s1 ok1]|] eqn:EA; [|discriminate]. cbn [bind] in E.
    assert (OK1 : ok1 = ok). { destruct ok1; apply Ret_inj in E; injection E as _ E; congruence. }
    assert (HD1 : ok1 = true -> digits_ok (sd s1)).
    { intros ->. apply Ret_inj in E. injection E as <- <-. specialize (HD eq_refl). cbn [sd] in HD. destruct (trim_zeros_split (sd s1)) as (z & Hz & _).
      rewrite Hz. apply Forall_app. split; [exact HD|apply digits_ok_zeros]. }
    assert (RP : rep (mkBS dd' (len d') (iD + exp10) (bneg t)) (mkSlice d' (scap s) (iD + exp10) (sneg s))).
    { split; [exact F3|]. split; [reflexivity|]. split; [reflexivity|exact F2]. }
    destruct (adjust_fixed_arr _ _ _ _ _ _ s1 ok1 RP ltac:(cbn [sd]; lia) ltac:(cbn [scap]; lia) EA HD1) as (t1 & T1 & T2 & T3).
    rewrite T1. cbn [bind]. destruct ok1.
    + destruct T2 as (Q1 & Q2 & Q3 & Q4). specialize (HD1 eq_refl). cbn [sd] in T3.
      rewrite Q2. unfold snd_. rewrite (trim_fixed_arr (bd t1) (len (sd s1)) (sd s1) 64 Q4 ltac:(lia) HD1). cbn [bind].
      eexists. rewrite <- OK1. split; [reflexivity|]. intros _. apply Ret_inj in E. injection E as <- _.
      destruct (trim_zeros_split (sd s1)) as (z & Hz & Hz').
      split; [exact Q1|]. split; [|split; [exact Q3|]].
      * unfold snd_. cbn [bnd sd]. unfold ExtFloat.trim_zeros_fixed. destruct (ExtFloat.drop0 (rev (sd s1))); [reflexivity|rewrite rev_length; reflexivity].
      * cbn [bd sd]. rewrite Hz in Q4. apply (pre_prefix _ _ _ Q4).
    + rewrite <- OK1. eexists. split; [reflexivity|discriminate].
  - rewrite F. cbn [bind]. apply Ret_inj in E. injection E as _ <-. eexists. split; [reflexivity|discriminate].
Qed.

(** ShortestDecimal *)
Lemma adjust_loop_arr : forall fuel l dd cd W unit ub l' cd', ExtFloat.adjust_loop fuel l cd W unit ub = Ret (l', cd') -> pre dd (rev l) ->
  exists dd', adjust_loop fuel dd (len l) cd W unit ub = Ret (dd', cd') /\ pre dd' (rev l') /\ length dd' = length dd /\ length l' = length l.
Proof.
  induction fuel as [|fuel IH]; intros l dd cd W unit ub l' cd' E HP; cbn [ExtFloat.adjust_loop adjust_loop] in *; (destruct (_ <? W); [|apply Ret_inj in E; injection E as <- <-; exists dd; auto]).
  - discriminate.
  - destruct l as [|c l]; [discriminate|]. cbn [length]. replace (Z.of_nat (S (length l)) - 1) with (len l) by lia.
    cbn [rev] in HP. pose proof (pre_len _ _ HP) as PL. rewrite app_length, rev_length in PL. cbn [length] in PL.
    rewrite get_ok by lia. cbn [bind]. rewrite Nat2Z.id. rewrite (pre_nth _ _ _ HP) by (rewrite app_length, rev_length; cbn [length]; lia).
    rewrite app_nth2 by (rewrite rev_length; lia). rewrite rev_length, Nat.sub_diag. cbn [nth]. rewrite byte_pred.
    rewrite upd_ok by lia. cbn [bind]. rewrite Nat2Z.id.
    destruct (IH (c - 1 :: l) (put dd (length l) (byte_of (c - 1))) _ _ _ _ _ _ E) as (dd' & D1 & D2 & D3 & D4).
    + cbn [rev]. rewrite <- (rev_length l). apply (pre_last _ _ c). exact HP.
    + cbn [length] in *. rewrite put_length in D3 by lia. exists dd'. auto.
Qed.

Lemma adjust_arr t s cd W A unit ub s' ok : rep t s -> ExtFloat.adjustLastDigit s cd W A unit ub = Ret (s', ok) -> (ok = true -> digits_ok (sd s')) ->
  exists t', adjustLastDigit t cd W A unit ub = Ret (t', ok) /\ (ok = true -> rep t' s').
Proof.
  intros (R1 & R2 & R3 & R4) E HD. unfold ExtFloat.adjustLastDigit in E. unfold adjustLastDigit.
  destruct (unit <? _). { apply Ret_inj in E. injection E as _ <-. eexists. split; [reflexivity|discriminate]. }
  destruct (ExtFloat.adjust_loop _ _ _ _ _ _) as [[l cd']|] eqn:EL; [|discriminate]. cbn [bind] in E.
  destruct (adjust_loop_arr _ _ (bd t) _ _ _ _ _ _ EL) as (dd & D1 & D2 & D3 & D4). { rewrite rev_involutive. exact R4. }
  rewrite rev_length in *. rewrite R2. unfold snd_. rewrite D1. cbn [bind].
  destruct (_ <=? _). { apply Ret_inj in E. injection E as _ <-. eexists. split; [reflexivity|discriminate]. }
  destruct (_ || _). { apply Ret_inj in E. injection E as _ <-. eexists. split; [reflexivity|discriminate]. }
  cbn [bnd bd bdp bneg sd scap sdp sneg] in *.
  assert (RP : forall d, pre dd d -> len d = len (sd s) -> rep (mkBS dd (len (sd s)) (bdp t) (bneg t)) (mkSlice d (scap s) (sdp s) (sneg s))).
  { intros d P L. split; [cbn [bd scap]; lia|]. split; [unfold snd_; cbn [bnd sd]; lia|]. split; [exact R3|exact P]. }
  assert (LR : len (rev l) = len (sd s)) by (rewrite rev_length; lia).
  remember (rev l) as d eqn:Ed. destruct d as [|c [|c2 d]].
  - apply Ret_inj in E. injection E as <- <-. cbn [length] in LR. destruct (Z.eqb_spec (len (sd s)) 1); [lia|]. cbn [bind].
    eexists. split; [reflexivity|]. intros _. apply RP; [exact D2|exact LR].
  - cbn [length] in LR. rewrite <- LR. change (Z.of_nat 1 =? 1) with true. cbn iota. pose proof (pre_len _ _ D2) as PL. cbn [length] in PL.
    rewrite get_ok by lia. change (Z.to_nat 0) with O. rewrite (pre_nth _ _ 0 D2) by (cbn [length]; lia). cbn [nth bind].
    destruct (Z.eqb_spec c 0) as [->|N].
    + apply Ret_inj in E. injection E as <- <-. change (byte_of 0 =? 48) with true. cbn iota. eexists. split; [reflexivity|]. intros _.
      split; [cbn [bd scap]; lia|]. repeat split.
    + apply Ret_inj in E. injection E as <- <-. specialize (HD eq_refl). cbn [sd] in HD. inversion HD; subst.
      change 48 with (0 + 48). rewrite byte_eqb by lia. destruct (Z.eqb_spec c 0); [contradiction|]. eexists. split; [reflexivity|]. intros _.
      rewrite LR. apply RP; [exact D2|exact LR].
  - apply Ret_inj in E. injection E as <- <-. cbn [length] in LR. destruct (Z.eqb_spec (len (sd s)) 1); [lia|]. cbn [bind].
    eexists. split; [reflexivity|]. intros _. apply RP; [exact D2|exact LR].
Qed.

Lemma shortest_int_arr cap dp ng fraction shift al td : forall n integer d dd r,
  pre dd d -> len dd = cap -> ExtFloat.shortest_int n integer fraction shift al td d cap dp ng = Ret r ->
  match r with
  | inl (s', ok) => (ok = true -> digits_ok (sd s')) -> exists t', shortest_int n (len d) integer fraction shift al td dd dp ng = Ret (inl (t', ok)) /\ (ok = true -> rep t' s')
  | inr d' => exists dd', shortest_int n (len d) integer fraction shift al td dd dp ng = Ret (inr dd') /\ pre dd' d' /\ len dd' = cap /\ len d' = len d + Z.of_nat n
  end.
Proof.
  induction n as [|n IH]; intros integer d dd r HP HL E; cbn [ExtFloat.shortest_int shortest_int] in *.
  - apply Ret_inj in E. subst r. exists dd. repeat split; auto. lia.
  - destruct (at_ uint64pow10 (Z.of_nat n)) as [pow|]; [|discriminate]. cbn [bind] in *. set (digit := integer / u32 pow) in *.
    destruct (ExtFloat.push d cap digit) as [d1|] eqn:EP; [|discriminate]. cbn [bind] in E.
    destruct (push_upd dd d cap _ d1 HP HL EP) as (dd1 & U1 & U2 & U3 & U4).
    rewrite u8_u32. change (u8 (digit + 48)) with (byte_of digit). rewrite U1. cbn [bind].
    assert (L1 : len d + 1 = len d1) by (rewrite U4, app_length; cbn [length]; lia).
    destruct (_ <? al).
    + destruct (ExtFloat.adjustLastDigit _ _ _ _ _ _) as [[s' ok]|] eqn:EA; [|discriminate]. cbn [bind] in E. apply Ret_inj in E. subst r.
      intros HD. assert (RP : rep (mkBS dd1 (len d + 1) dp ng) (mkSlice d1 cap dp ng)).
      { split; [exact U3|]. split; [unfold snd_; cbn [bnd sd]; lia|]. split; [reflexivity|exact U2]. }
      destruct (adjust_arr _ _ _ _ _ _ _ s' ok RP EA HD) as (t' & T1 & T2).
      exists t'. rewrite T1. cbn [bind]. auto.
    + specialize (IH _ d1 dd1 r U2 U3 E). rewrite <- L1 in IH. destruct r as [[s' ok]|d']; [exact IH|].
      destruct IH as (dd' & I1 & I2 & I3 & I4). exists dd'. repeat split; auto. lia.
Qed.

Lemma shortest_frac_arr cap dp ng shift al td : forall n fraction multiplier d dd s' ok,
  pre dd d -> len dd = cap -> ExtFloat.shortest_frac n fraction multiplier shift al td d cap dp ng = Ret (s', ok) -> (ok = true -> digits_ok (sd s')) ->
  exists t', shortest_frac n fraction multiplier shift al td dd (len d) dp ng = Ret (t', ok) /\ (ok = true -> rep t' s').
Proof.
  induction n as [|n IH]; intros fraction multiplier d dd s' ok HP HL E HD; cbn [ExtFloat.shortest_frac shortest_frac] in *; [discriminate|].
  set (digit := Z.shiftr (u64 (fraction * 10)) shift) in *.
  destruct (ExtFloat.push d cap digit) as [d1|] eqn:EP; [|discriminate]. cbn [bind] in E.
  destruct (push_upd dd d cap _ d1 HP HL EP) as (dd1 & U1 & U2 & U3 & U4). change (u8 (digit + 48)) with (byte_of digit). rewrite U1. cbn [bind].
  assert (L1 : len d + 1 = len d1) by (rewrite U4, app_length; cbn [length]; lia). rewrite L1.
  destruct (_ <? u64 (al * _)).
  - refine (adjust_arr _ _ _ _ _ _ _ _ _ _ E HD). split; [exact U3|]. split; [reflexivity|]. split; [reflexivity|exact U2].
  - apply (IH _ _ _ _ _ _ U2 U3 E HD).
Qed.

Lemma trim_short_arr dd : forall d fuel, pre dd d -> (length d <= fuel)%nat -> digits_ok d ->
  trim_short fuel dd (len d) = Ret (len (ExtFloat.drop0 (rev d))).
Proof.
  induction d as [|c d IH] using rev_ind; intros fuel HP Hf HD.
  - cbn. destruct fuel; reflexivity.
  - rewrite rev_app_distr. cbn [rev app ExtFloat.drop0]. rewrite app_length in *. cbn [length] in *.
    pose proof (pre_len _ _ HP) as PL. rewrite app_length in PL. cbn [length] in PL.
    assert (G : get dd (len d) = Ret (byte_of c)).
    { rewrite get_ok by lia. rewrite Nat2Z.id. rewrite (pre_nth dd (d ++ [c])) by (try rewrite app_length; cbn [length]; auto; lia).
      rewrite app_nth2, Nat.sub_diag by lia. reflexivity. }
    apply Forall_app in HD. destruct HD as [HD Hc]. inversion Hc as [|? ? Hc' _]; subst.
    destruct fuel as [|fuel]; [lia|]. cbn [trim_short]. destruct (Z.ltb_spec 0 (Z.of_nat (length d + 1))); [|lia].
    replace (Z.of_nat (length d + 1) - 1) with (len d) by lia. rewrite G. cbn [bind].
    change 48 with (0 + 48). rewrite byte_eqb by lia. destruct (Z.eqb_spec c 0) as [->|N].
    + apply IH; [apply (pre_prefix _ _ _ HP)|lia|exact HD].
    + f_equal. cbn [length]. rewrite rev_length. lia.
Qed.

Lemma int_to_digits_digits fuel : forall v out l, ExtFloat.int_to_digits fuel v out = Ret l -> digits_ok out -> digits_ok l.
Proof.
  induction fuel as [|fuel IH]; intros v out l E H; cbn [ExtFloat.int_to_digits] in E; (destruct (Z.leb_spec v 0); [apply Ret_inj in E; subst; exact H|]); [discriminate|].
  apply (IH _ _ _ E). constructor; [|exact H]. pose proof (Z.div_mod v 10 ltac:(lia)). pose proof (Z.mod_pos_bound v 10 ltac:(lia)). lia.
Qed.

Lemma count_digits_pos n : forall i pow x, 0 <= i -> 0 <= ExtFloat.count_digits n i pow x.
Proof. induction n as [|n IH]; intros i pow x H; cbn [ExtFloat.count_digits]; [lia|]. destruct (_ <? _); [exact H|apply IH; lia]. Qed.

Lemma ShortestDecimal_arr f t s lower upper s' ok : rep t s -> sd s = [] -> 0 <= mant f < 2 ^ 64 ->
  ExtFloat.ShortestDecimal f s lower upper = Ret (s', ok) -> (ok = true -> digits_ok (sd s')) ->
  exists t', ShortestDecimal f t lower upper = Ret (t', ok) /\ (ok = true -> rep t' s').
Proof.
  intros R ES HM E HD. unfold ExtFloat.ShortestDecimal in E. unfold ShortestDecimal. pose proof R as (R1 & R2 & R3 & R4).
  destruct (mant f =? 0).
  { apply Ret_inj in E. injection E as <- <-. eexists. split; [reflexivity|]. intros _. repeat split. exact R1. }
  destruct (_ && _ && _).
  - destruct (ExtFloat.int_to_digits 24 (mant f) []) as [buf|] eqn:EB; [|discriminate]. cbn [bind] in E.
    destruct (fill_short_arr 24 64 (mant f) [] (repeat 0 24) buf HM EB ltac:(lia) eq_refl eq_refl) as (ab & B1 & B2 & B3 & B4).
    change (len (repeat 0 24)) with 24 in *. change (length (repeat 0 24)) with 24%nat in *. change (Z.of_nat 24 - 1) with 23 in B1. rewrite B1. cbn [bind].
    destruct (Z.ltb_spec (scap s) (len buf)) as [|HB]; [discriminate|].
    destruct (copy_short_arr ab buf (24 - length buf) B4 ltac:(lia) (length buf) 64 0 (bd t) ltac:(lia) ltac:(lia) (pre_nil _) ltac:(lia)) as (dd & D1 & D2 & D3).
    replace (Z.of_nat (24 - length buf) - 1) with (24 - len buf - 1) in D1 by lia. change (Z.of_nat 0) with 0 in D1.
    replace (24 - (24 - len buf - 1) - 1) with (len buf) by lia. rewrite D1. cbn [bind].
    assert (DB : digits_ok buf) by (apply (int_to_digits_digits _ _ _ _ EB); constructor).
    rewrite (trim_short_arr dd buf 64 D2 ltac:(lia) DB). cbn [bind]. apply Ret_inj in E. injection E as <- <-.
    eexists. split; [reflexivity|]. intros _. split; [cbn [bd scap]; lia|]. split; [unfold snd_; cbn [bnd sd]; rewrite rev_length; reflexivity|].
    split; [cbn [bdp sdp]; rewrite rev_length; reflexivity|]. cbn [bd sd]. destruct (drop0_suffix (rev buf)) as [z Hz].
    assert (SP : buf = rev (ExtFloat.drop0 (rev buf)) ++ repeat 0 z) by (rewrite <- (rev_involutive buf) at 1; rewrite Hz at 1; rewrite rev_app_distr, rev_repeat0; reflexivity).
    rewrite SP in D2. apply (pre_prefix _ _ _ D2).
  - destruct (Normalize upper) as [upper1 sh]. destruct (frexp10Many _ _ _) as [[[[lo f2] up] exp10]|]; [|discriminate]. cbn [bind] in *.
    set (iD := integerDigits_of _) in *. assert (H0 : 0 <= iD) by (apply count_digits_pos; lia).
    destruct (ExtFloat.shortest_int _ _ _ _ _ _ _ _ _ _) as [r|] eqn:EI; [|discriminate]. cbn [bind] in E.
    pose proof (shortest_int_arr (scap s) (iD + exp10) (neg f2) _ _ _ _ _ _ [] (bd t) r (pre_nil _) ltac:(lia) EI) as SI.
    change (len (@nil Z)) with 0 in SI. destruct r as [[s1 ok1]|d1].
    + apply Ret_inj in E. injection E as -> ->. destruct (SI HD) as (t' & T1 & T2). exists t'. cbv zeta. rewrite T1. cbn [bind]. auto.
    + destruct SI as (dd & I1 & I2 & I3 & I4). cbv zeta. rewrite I1. cbn [bind].
      destruct (shortest_frac_arr (scap s) _ _ _ _ _ _ _ _ d1 dd s' ok I2 I3 E HD) as (t' & T1 & T2). exists t'. split; [|exact T2].
      rewrite Z2Nat.id in I4 by exact H0. replace iD with (len d1) at 1 by lia. exact T1.
Qed.
