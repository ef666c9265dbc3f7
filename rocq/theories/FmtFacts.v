(** Reading back what Sprintf wrote: the texts built by the Big methods. *)
From Coq Require Import ZArith Reals Lia Lra Bool List String.
From Flocq Require Import Core.
From Verif Require Import GoBase.
From Verif Require BigFloat.
From Verif Require Import GoFmt.
From Verif Require Import Spec BitFacts RoundFacts IeeeFacts BigFacts BigFacts2.
Import BigFloat (bitlen, gexp, prec, rmode, acc, neg, frm, Finite, MaxExp, MinExp, MaxPrec).
Import ListNotations.
Open Scope Z_scope.

(** Value of a digit list, most significant first. *)
Definition val (base : Z) (ds : list Z) : Z := fold_left (fun v d => base * v + d) ds 0.

Lemma fold_val base ds v :
  fold_left (fun v d => base * v + d) ds v = v * base ^ Z.of_nat (List.length ds) + val base ds.
Proof.
  unfold val. revert v. induction ds as [|d ds IH]; intros v.
  - simpl. ring.
  - cbn [fold_left List.length]. rewrite IH, (IH (base * 0 + d)).
    rewrite Nat2Z.inj_succ, Z.pow_succ_r by lia. ring.
Qed.

Lemma val_app base a b : val base (a ++ b) = val base a * base ^ Z.of_nat (List.length b) + val base b.
Proof. unfold val at 1. rewrite fold_left_app. apply fold_val. Qed.

Lemma val_cons base d ds : val base (d :: ds) = d * base ^ Z.of_nat (List.length ds) + val base ds.
Proof. unfold val at 1. cbn [fold_left]. rewrite fold_val. ring. Qed.

Lemma val_snoc base ds d : val base (ds ++ [d]) = base * val base ds + d.
Proof. rewrite val_app. cbn. ring. Qed.

Definition is_digit (base d : Z) : Prop := 0 <= d < base.

Lemma val_range base ds : 0 < base -> Forall (is_digit base) ds ->
  0 <= val base ds < base ^ Z.of_nat (List.length ds).
Proof.
  intros Hb H. induction H as [|d ds Hd H IH].
  - unfold val. simpl. lia.
  - rewrite val_cons. cbn [List.length]. rewrite Nat2Z.inj_succ, Z.pow_succ_r by lia.
    unfold is_digit in Hd. nia.
Qed.

Lemma digits_rev_spec base : 2 <= base -> forall fuel n, 0 <= n -> (1 <= fuel)%nat -> n < base ^ Z.of_nat fuel ->
  val base (rev (digits_rev fuel base n)) = n /\
  Forall (is_digit base) (digits_rev fuel base n) /\
  digits_rev fuel base n <> [] /\
  (0 < n -> last (digits_rev fuel base n) 0 <> 0) /\
  (forall k, 1 <= k -> n < base ^ k -> Z.of_nat (List.length (digits_rev fuel base n)) <= k) /\
  (forall k, 0 <= k -> base ^ k <= n -> k < Z.of_nat (List.length (digits_rev fuel base n))).
Proof.
  intros Hb. induction fuel as [|f IH]; intros n Hn Hf Hlt; [lia|].
  cbn [digits_rev]. destruct (Z.ltb_spec n base) as [L|L].
  - split; [cbn; unfold val; simpl; lia|]. split; [repeat constructor; unfold is_digit; lia|].
    split; [discriminate|]. split; [cbn; lia|]. split; [intros; cbn; lia|].
    intros k Hk0 Hk. cbn. destruct (Z.eq_dec k 0); [lia|exfalso].
    assert (base ^ 1 <= base ^ k) by (apply Z.pow_le_mono_r; lia). rewrite Z.pow_1_r in *. lia.
  - assert (Hd : 1 <= n / base) by (apply Z.div_le_lower_bound; lia).
    pose proof (Z.div_mod n base ltac:(lia)) as Hdm.
    pose proof (Z.mod_pos_bound n base ltac:(lia)) as Hm.
    rewrite Nat2Z.inj_succ, Z.pow_succ_r in Hlt by lia.
    assert (Hlt' : n / base < base ^ Z.of_nat f) by (apply Z.div_lt_upper_bound; lia).
    assert (Hf' : (1 <= f)%nat) by (destruct f; [simpl in Hlt'; lia|lia]).
    destruct (IH (n / base) ltac:(lia) Hf' Hlt') as (I1 & I2 & I3 & I4 & I5 & I6).
    split; [|split; [|split; [|split; [|split]]]].
    + cbn [rev]. rewrite val_snoc, I1. lia.
    + constructor; [exact Hm|exact I2].
    + discriminate.
    + intros _. cbn [last]. destruct (digits_rev f base (n / base)); [congruence|].
      apply I4. lia.
    + intros k Hk Hnk. cbn [List.length]. rewrite Nat2Z.inj_succ.
      assert (1 < k).
      { destruct (Z.eq_dec k 1) as [->|]; [rewrite Z.pow_1_r in Hnk; lia|lia]. }
      assert (Z.of_nat (List.length (digits_rev f base (n / base))) <= k - 1); [|lia].
      apply I5; [lia|]. apply Z.div_lt_upper_bound; [lia|].
      rewrite <- Z.pow_succ_r by lia. replace (Z.succ (k - 1)) with k by lia. exact Hnk.
    + intros k Hk Hnk. cbn [List.length]. rewrite Nat2Z.inj_succ.
      destruct (Z.eq_dec k 0); [lia|].
      assert (k - 1 < Z.of_nat (List.length (digits_rev f base (n / base)))); [|lia].
      apply I6; [lia|]. apply Z.div_le_lower_bound; [lia|].
      rewrite <- Z.pow_succ_r by lia. replace (Z.succ (k - 1)) with k by lia. exact Hnk.
Qed.

Lemma digits_of_spec base n : 2 <= base -> 0 <= n ->
  val base (digits_of base n) = n /\
  Forall (is_digit base) (digits_of base n) /\
  digits_of base n <> [] /\
  (0 < n -> hd 0 (digits_of base n) <> 0) /\
  (forall k, 1 <= k -> n < base ^ k -> Z.of_nat (List.length (digits_of base n)) <= k) /\
  (forall k, 0 <= k -> base ^ k <= n -> k < Z.of_nat (List.length (digits_of base n))).
Proof.
  intros Hb Hn. unfold digits_of.
  pose proof (Z.log2_nonneg n).
  assert (Hlt : n < base ^ Z.of_nat (Z.to_nat (Z.log2 n + 1))).
  { rewrite Z2Nat.id by lia. apply Z.lt_le_trans with (2 ^ (Z.log2 n + 1)).
    - destruct (Z.eq_dec n 0) as [->|]; [reflexivity|].
      replace (Z.log2 n + 1) with (Z.succ (Z.log2 n)) by lia. apply Z.log2_spec. lia.
    - apply Z.pow_le_mono_l. lia. }
  destruct (digits_rev_spec base Hb (Z.to_nat (Z.log2 n + 1)) n Hn ltac:(lia) Hlt)
    as (I1 & I2 & I3 & I4 & I5 & I6).
  set (l := digits_rev _ base n) in *.
  split; [exact I1|]. split; [apply Forall_rev; exact I2|].
  split; [intros E; apply I3; rewrite <- (rev_involutive l), E; reflexivity|].
  split.
  - intros Hp. rewrite <- (rev_involutive l) in I4. 
    destruct (rev l) as [|d t] eqn:E.
    + exfalso. apply I3. rewrite <- (rev_involutive l), E. reflexivity.
    + cbn [rev] in I4. rewrite last_last in I4. cbn. apply I4. exact Hp.
  - rewrite rev_length. split; assumption.
Qed.

(** A byte string is the bits of n, w of them. *)
Definition bits_text (bs : bytes) (w n : Z) : Prop :=
  exists ds, bs = map digit_byte ds /\ Forall (is_digit 2) ds /\
             Z.of_nat (List.length ds) = w /\ val 2 ds = n.

Lemma bits_text_app a b w1 w2 n1 n2 :
  bits_text a w1 n1 -> bits_text b w2 n2 -> bits_text (a ++ b) (w1 + w2) (n1 * 2 ^ w2 + n2).
Proof.
  intros (d1 & -> & F1 & L1 & V1) (d2 & -> & F2 & L2 & V2).
  exists (d1 ++ d2). rewrite map_app, app_length, val_app, Nat2Z.inj_add, L1, L2, V1, V2.
  repeat split. apply Forall_app. split; assumption.
Qed.

Lemma val_zeros base k : val base (repeat 0 k) = 0.
Proof. induction k; [reflexivity|]. cbn [repeat]. rewrite val_cons, IHk. lia. Qed.

Lemma fmt_b_text w n : 1 <= w -> 0 <= n < 2 ^ w -> bits_text (fmt_b w n) w n.
Proof.
  intros Hw Hn. unfold fmt_b.
  destruct (digits_of_spec 2 n ltac:(lia) ltac:(lia)) as (I1 & I2 & I3 & I4 & I5 & I6).
  specialize (I5 w Hw ltac:(lia)).
  rewrite map_length.
  set (k := Z.to_nat (w - Z.of_nat (List.length (digits_of 2 n)))).
  exists (repeat 0 k ++ digits_of 2 n).
  rewrite map_app, app_length, val_app, val_zeros, repeat_length, I1.
  split; [f_equal; clearbody k; induction k; [reflexivity|cbn; f_equal; exact IHk]|].
  split.
  - apply Forall_app. split; [|exact I2]. clearbody k. induction k; cbn; constructor; try assumption.
    unfold is_digit; lia.
  - split; [unfold k; lia|lia].
Qed.

Lemma fmt_d_bit l : 0 <= l <= 1 -> bits_text (fmt_d l) 1 l.
Proof.
  intros H. assert (C : l = 0 \/ l = 1) by lia. destruct C as [-> | ->].
  - exists [0]. repeat split. repeat constructor; unfold is_digit; lia.
  - exists [1]. repeat split. repeat constructor; unfold is_digit; lia.
Qed.

Lemma scan_bits_text bs w n rest v cnt frac :
  bits_text bs w n ->
  scan_bits (bs ++ rest) v cnt frac =
  scan_bits rest (v * 2 ^ w + n) (cnt + w) (if frac <? 0 then frac else frac + w).
Proof.
  intros (ds & -> & F & L & V). subst w n. revert v cnt frac.
  induction ds as [|d ds IH]; intros v cnt frac.
  - cbn [map app List.length]. unfold val. cbn [fold_left Z.of_nat].
    rewrite Z.pow_0_r. f_equal; try lia. destruct (frac <? 0); lia.
  - inversion F as [|d0 ds0 Hd Fd]; subst. specialize (IH Fd).
    cbn [map app scan_bits].
    assert (Hdb : digit_byte d = 48 + d) by (unfold digit_byte, is_digit in *; destruct (Z.ltb_spec d 10); lia).
    rewrite Hdb.
    assert (Hc : ((48 + d =? 48) || (48 + d =? 49)) = true).
    { unfold is_digit in Hd. assert (C : d = 0 \/ d = 1) by lia. destruct C as [-> | ->]; reflexivity. }
    rewrite Hc. cbn [List.length].
    rewrite IH, val_cons, Nat2Z.inj_succ, Z.pow_succ_r by lia.
    f_equal; try (cbn [List.length]; lia); try (cbn [List.length]; ring).
    destruct (Z.ltb_spec frac 0); [rewrite (proj2 (Z.ltb_lt frac 0)) by lia; reflexivity|].
    rewrite (proj2 (Z.ltb_ge (frac + 1) 0)) by lia. lia.
Qed.

Lemma scan_dec_digits ds v : Forall (is_digit 10) ds ->
  scan_dec (map digit_byte ds) v = Some (v * 10 ^ Z.of_nat (List.length ds) + val 10 ds).
Proof.
  intros F. revert v. induction F as [|d ds Hd F IH]; intros v.
  - cbn. f_equal. ring.
  - cbn [map scan_dec].
    assert (Hdb : digit_byte d = 48 + d) by (unfold digit_byte, is_digit in *; destruct (Z.ltb_spec d 10); lia).
    rewrite Hdb. unfold is_digit in Hd.
    rewrite (proj2 (Z.leb_le 48 (48 + d))) by lia. rewrite (proj2 (Z.leb_le (48 + d) 57)) by lia.
    cbn [andb]. rewrite IH, val_cons. cbn [List.length].
    rewrite Nat2Z.inj_succ, Z.pow_succ_r by lia. f_equal. ring.
Qed.

Lemma scan_exponent_fmt ex : scan_exponent (112 :: fmt_d ex) = Some ex.
Proof.
  unfold scan_exponent, fmt_d.
  assert (K : forall n, 0 <= n ->
    (exists c t, map digit_byte (digits_of 10 n) = c :: t /\ c <> 45 /\ c <> 43) /\
    scan_dec (map digit_byte (digits_of 10 n)) 0 = Some n).
  { intros n Hn. destruct (digits_of_spec 10 n ltac:(lia) Hn) as (I1 & I2 & I3 & _).
    split.
    - destruct (digits_of 10 n) as [|d t]; [congruence|]. cbn [map]. eexists _, _. split; [reflexivity|].
      inversion I2 as [|? ? Hd _]; subst. unfold is_digit in Hd. unfold digit_byte.
      destruct (Z.ltb_spec d 10); lia.
    - rewrite scan_dec_digits by exact I2. rewrite I1. f_equal. }
  destruct (Z.ltb_spec ex 0) as [L|L].
  - destruct (K (- ex) ltac:(lia)) as [(c & t & E & _) S]. cbn [scan_sign].
    rewrite E in *. rewrite S. f_equal. lia.
  - destruct (K ex L) as [(c & t & E & N1 & N2) S]. rewrite E in *.
    assert (Hs : scan_sign (c :: t) = (false, c :: t)).
    { unfold scan_sign. destruct c as [|p|p]; try reflexivity.
      do 6 (destruct p as [p|p|]; try reflexivity); congruence. }
    rewrite Hs, S. reflexivity.
Qed.

(** ** Parse of the text built by Big *)
Definition sign_text (s : bool) : bytes := if s then B "-" else B "+".

Lemma Parse_text z (s : bool) lead fbytes w frac ex :
  0 <= lead <= 1 -> 1 <= w -> bits_text fbytes w frac ->
  Parse z (sign_text s ++ B "0b" ++ fmt_d lead ++ B "." ++ fbytes ++ B "p" ++ fmt_d ex) =
  let v := lead * 2 ^ w + frac in
  if v =? 0 then Some (BigFloat.mkBF (prec z) (rmode z) BigFloat.Exact s BigFloat.Zero)
  else if (MinExp <=? gexp v (ex - w)) && (gexp v (ex - w) <=? MaxExp)
  then Some (BigFloat.round (BigFloat.mkBF (prec z) (rmode z) BigFloat.Exact s (Finite v (ex - w))))
  else None.
Proof.
  intros Hl Hw Hb. unfold Parse.
  assert (Hsg : forall t, scan_sign (sign_text s ++ t) = (s, t)) by (intros; destruct s; reflexivity).
  rewrite Hsg. change (B "0b") with [48; 98]. cbn [app].
  rewrite (scan_bits_text _ 1 lead _ _ _ _ (fmt_d_bit lead Hl)).
  change (-1 <? 0) with true. cbv iota.
  change (B ".") with [46]. cbn [app scan_bits].
  change ((46 =? 48) || (46 =? 49)) with false. change ((46 =? 46) && (-1 <? 0)) with true. cbv iota.
  rewrite (scan_bits_text _ w frac _ _ _ _ Hb).
  change (0 <? 0) with false. cbv iota.
  change (B "p") with [112]. cbn [app scan_bits].
  change ((112 =? 48) || (112 =? 49)) with false. change ((112 =? 46)) with false. cbv iota. cbn [andb].
  rewrite (proj2 (Z.eqb_neq (0 + 1 + w) 0)) by lia.
  rewrite scan_exponent_fmt.
  replace ((0 * 2 ^ 1 + lead) * 2 ^ w + frac) with (lead * 2 ^ w + frac) by ring.
  rewrite (proj2 (Z.ltb_ge (0 + w) 0)) by lia.
  replace (ex - (0 + w)) with (ex - w) by lia. reflexivity.
Qed.

Lemma Parse_correct z (s : bool) lead fbytes w frac ex :
  0 <= lead <= 1 -> 1 <= w <= 1000 -> 0 <= frac < 2 ^ w -> bits_text fbytes w frac ->
  - 2 ^ 20 <= ex <= 2 ^ 20 -> w + 1 <= prec z <= MaxPrec -> 0 < lead * 2 ^ w + frac ->
  exists r, Parse z (sign_text s ++ B "0b" ++ fmt_d lead ++ B "." ++ fbytes ++ B "p" ++ fmt_d ex) = Some r /\
    bval r = VNum s (sgnR s (IZR (lead * 2 ^ w + frac) * p2 (ex - w))) /\
    wf r /\ prec r = prec z /\ rmode r = rmode z /\ acc r = BigFloat.Exact /\ neg r = s.
Proof.
  intros Hl Hw Hfr Hb Hex Hp Hpos. rewrite (Parse_text z s lead fbytes w frac ex) by (try assumption; lia).
  cbv zeta. set (v := lead * 2 ^ w + frac) in *.
  rewrite (proj2 (Z.eqb_neq v 0)) by lia.
  assert (Hv : v < 2 ^ (w + 1)) by (rewrite Z.pow_add_r by lia; change (2 ^ 1) with 2; unfold v; nia).
  pose proof (bitlen_pos v Hpos). assert (bitlen v <= w + 1) by (apply bitlen_le_lt; lia).
  rewrite (proj2 (Z.leb_le MinExp (gexp v (ex - w)))) by (unfold gexp, MinExp; lia).
  rewrite (proj2 (Z.leb_le (gexp v (ex - w)) MaxExp)) by (unfold gexp, MaxExp; lia).
  cbn [andb]. eexists. split; [reflexivity|].
  set (z1 := BigFloat.mkBF (prec z) (rmode z) BigFloat.Exact s (Finite v (ex - w))).
  assert (Hsig : sigbits v (prec z)).
  { apply sigbits_mono with (w + 1); [lia|]. apply sigbits_lt. exact Hv. }
  destruct (round_fits z1 v (ex - w) eq_refl Hpos ltac:(cbn [z1 prec]; lia) Hsig)
    as (R1 & R2 & R3 & R4 & m' & e' & R5 & R6 & R7 & R8 & R9).
  assert (R3' : neg (BigFloat.round z1) = s) by exact R3.
  split; [|split; [|repeat split; assumption]].
  - unfold bval. rewrite R5, R3', R9. reflexivity.
  - unfold wf. rewrite R5, R1. cbn [z1 prec]. split; [lia|]. split; [exact R6|]. split; [exact R7|].
    rewrite R8. unfold gexp, MinExp, MaxExp. lia.
Qed.
