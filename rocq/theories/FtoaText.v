(** The layouts of ftoa.go: fmtE, fmtF, formatDigits. *)
From Coq Require Import ZArith Reals String List Bool Lia Lra.
From Flocq Require Import Core.
From Verif Require Import GoBase Spec SpecText SpecDec SpecFtoa SpecFmt BitFacts ItoaFacts DecFacts DecFacts2.
From Verif Require Import ExtFloat Ftoa.
Import ListNotations.
Open Scope Z_scope.

Notation len l := (Z.of_nat (length l)).

(** Digits as the formatter wants them. *)
Definition dg (l : list Z) (p : Z) : Prop := digits_ok l /\ no_lead0 l /\ no_trail0 l /\ (l = [] -> p = 0).

Lemma chars_byte l : map byte_of l = Decimal.chars l.
Proof. reflexivity. Qed.

Lemma byte_of_digit c : 0 <= c <= 9 -> byte_of c = c + 48 /\ digit_val (c + 48) = c.
Proof.
  intros H. unfold byte_of, u8. rewrite Z.mod_small by lia. split; [reflexivity|].
  unfold digit_val. destruct (Z.leb_spec 48 (c + 48)); [|lia]. destruct (Z.leb_spec (c + 48) 57); [|lia]. cbn [andb]. lia.
Qed.

Lemma exp_text_ok X : -1000 < X < 1000 -> exp_digits X ((if X <? 0 then 45 else 43) :: exp_text (Z.abs X)).
Proof.
  intros H. eexists. split; [reflexivity|]. set (e := Z.abs X). assert (He : 0 <= e < 1000) by (unfold e; lia). clearbody e. clear H X.
  assert (U : forall z, 0 <= z <= 9 -> u8 (u8 z + 48) = z + 48) by (intros z Hz; unfold u8; rewrite (Z.mod_small z), Z.mod_small; lia).
  pose proof (Z.div_mod e 10 ltac:(lia)) as D. pose proof (Z.mod_pos_bound e 10 ltac:(lia)) as M.
  assert (V : forall z, 0 <= z <= 9 -> digit_val (z + 48) = z) by (intros; apply byte_of_digit; assumption).
  unfold exp_text. destruct (Z.ltb_spec e 10); [|destruct (Z.ltb_spec e 100)].
  - rewrite U by lia. split; [|split; [|left; reflexivity]].
    + repeat constructor; rewrite ?V by lia; change (digit_val 48) with 0; lia.
    + unfold read. cbn [fold_left]. rewrite V by lia. change (digit_val 48) with 0. lia.
  - assert (0 <= e / 10 <= 9) by (split; [apply Z.div_pos; lia|assert (e / 10 < 10) by (apply Z.div_lt_upper_bound; lia); lia]).
    rewrite !U by lia. split; [|split; [|left; reflexivity]].
    + repeat constructor; rewrite ?V by lia; lia.
    + unfold read. cbn [fold_left]. rewrite !V by lia. lia.
  - assert (0 <= e / 10 < 100) by (split; [apply Z.div_pos; lia|apply Z.div_lt_upper_bound; lia]).
    assert (E : e / 100 = e / 10 / 10) by (rewrite Z.div_div by lia; reflexivity).
    pose proof (Z.div_mod (e / 10) 10 ltac:(lia)) as D2. pose proof (Z.mod_pos_bound (e / 10) 10 ltac:(lia)) as M2.
    assert (1 <= e / 100 <= 9) by lia.
    replace (u8 (u8 (e / 10) mod 10 + 48)) with (e / 10 mod 10 + 48) by (unfold u8; rewrite (Z.mod_small (e / 10) (2 ^ 8)) by lia; rewrite (Z.mod_small (_ + 48)) by lia; reflexivity).
    rewrite !U by lia.
    assert (A : all_digits 10 [e / 100 + 48; e / 10 mod 10 + 48; e mod 10 + 48]) by (repeat constructor; rewrite ?V by lia; lia).
    split; [exact A|]. split; [unfold read; cbn [fold_left]; rewrite !V by lia; lia|].
    right. split; [lia|]. split; [discriminate|]. split; [exact A|]. cbn [hd]. lia.
Qed.

Lemma point_cons fp : fp <> [] -> point fp = 46 :: fp.
Proof. destruct fp; [contradiction|reflexivity]. Qed.

(** * fmtE *)
Lemma fmtE_ok l cap p sg prec c (ng : bool) k : digits_ok l -> no_lead0 l -> (l = [] -> p = 0) -> -999 < p <= 999 ->
  k = Z.max prec 0 -> len l <= k + 1 ->
  exists fp, fp = Decimal.chars (skipn 1 l ++ repeat 0 (Z.to_nat (k - Z.max (len l - 1) 0))) /\ len fp = k /\
    prints_e c ng fp (lval l p) (fmtE [] ng (mkSlice l cap p sg) prec c).
Proof.
  intros Hl H0 Hp Hr Hk Hlen. eexists. split; [reflexivity|].
  set (ds := skipn 1 l ++ repeat 0 (Z.to_nat (k - Z.max (len l - 1) 0))).
  assert (Ls : length (skipn 1 l) = (length l - 1)%nat) by apply skipn_length.
  assert (Ld : len (Decimal.chars ds) = k).
  { rewrite chars_length. unfold ds. rewrite app_length, repeat_length, Ls. lia. }
  split; [exact Ld|].
  assert (Dd : digits_ok ds) by (unfold ds; apply digits_ok_app; split; [apply digits_ok_skipn, Hl|apply digits_ok_zeros]).
  assert (Hh : 0 <= hd 0 l <= 9) by (destruct l; cbn [hd]; [lia|inversion Hl; assumption]).
  destruct (byte_of_digit (hd 0 l) Hh) as [B1 B2].
  exists (byte_of (hd 0 l)), (if len l =? 0 then 0 else p - 1), ((if (if len l =? 0 then 0 else p - 1) <? 0 then 45 else 43) :: exp_text (Z.abs (if len l =? 0 then 0 else p - 1))).
  assert (Ed : fmtE [] ng (mkSlice l cap p sg) prec c =
    sign_text ng ++ byte_of (hd 0 l) :: point (Decimal.chars ds) ++ c :: (if (if len l =? 0 then 0 else p - 1) <? 0 then 45 else 43) :: exp_text (Z.abs (if len l =? 0 then 0 else p - 1))).
  { unfold fmtE, snd_. cbn [sd sdp]. set (X := if len l =? 0 then 0 else p - 1).
    replace (if ng then [] ++ [45] else []) with (sign_text ng) by (destruct ng; reflexivity).
    replace (if len l =? 0 then 48 else sdig (mkSlice l cap p sg) 0) with (byte_of (hd 0 l)) by (destruct l; reflexivity).
    replace (let '(ch, e) := if X <? 0 then (45, - X) else (43, X) in
             (_ ++ [ch]) ++ exp_text e) with
      ((((if 0 <? prec then
        let '(dst, i) := if 1 <? Z.min (len l) (prec + 1)
        then ((((sign_text ng ++ [byte_of (hd 0 l)]) ++ [46]) ++ map byte_of (firstn (Z.to_nat (Z.min (len l) (prec + 1) - 1)) (skipn 1 l))), Z.min (len l) (prec + 1))
        else ((sign_text ng ++ [byte_of (hd 0 l)]) ++ [46], 1) in dst ++ repeat 48 (Z.to_nat (prec + 1 - i))
        else sign_text ng ++ [byte_of (hd 0 l)]) ++ [c]) ++ [if X <? 0 then 45 else 43]) ++ exp_text (Z.abs X)).
    2:{ destruct (Z.ltb_spec X 0); [rewrite Z.abs_neq by lia|rewrite Z.abs_eq by lia]; reflexivity. }
    rewrite <- !app_assoc. cbn [app].
    destruct (Z.ltb_spec 0 prec) as [P|P].
    - assert (Ek : k = prec) by lia.
      assert (Dne : Decimal.chars ds <> []) by (intros E; rewrite E in Ld; cbn in Ld; lia).
      rewrite (point_cons _ Dne). clear Dne.
      unfold ds. rewrite chars_app. replace (Decimal.chars (repeat 0 _)) with (repeat 48 (Z.to_nat (prec - Z.max (len l - 1) 0))).
      2:{ rewrite Ek, <- zeros_chars. reflexivity. }
      destruct (Z.ltb_spec 1 (Z.min (len l) (prec + 1))) as [Q|Q].
      + rewrite chars_byte. rewrite firstn_all2 by lia. rewrite <- !app_assoc. cbn [app]. rewrite <- !app_assoc.
        replace (prec + 1 - Z.min (len l) (prec + 1)) with (prec - Z.max (len l - 1) 0) by lia. reflexivity.
      + assert (Es : skipn 1 l = []) by (apply length_zero_iff_nil; lia). rewrite Es. cbn [Decimal.chars map app].
        rewrite <- !app_assoc. cbn [app]. replace (prec + 1 - 1) with (prec - Z.max (len l - 1) 0) by lia. reflexivity.
    - assert (Ek : k = 0) by lia. destruct (Decimal.chars ds) as [|? ?] eqn:Ec; [|cbn [length] in Ld; lia].
      cbn [point app]. rewrite <- !app_assoc. cbn [app]. reflexivity. }
  split; [exact Ed|].
  split; [apply exp_text_ok; destruct (Z.eqb_spec (len l) 0); lia|].
  assert (All : all_digits 10 (Decimal.chars (hd 0 l :: ds))) by (apply chars_digits; constructor; assumption).
  split; [exact All|].
  change (byte_of (hd 0 l) :: Decimal.chars ds) with (Decimal.chars (hd 0 l :: ds)).
  rewrite chars_read by (constructor; assumption). rewrite Ld.
  destruct l as [|a t].
  - specialize (Hp eq_refl). subst p. cbn [hd length Z.of_nat Z.eqb skipn] in *. unfold ds. cbn [app].
    change (0 :: repeat 0 (Z.to_nat (k - Z.max (0 - 1) 0))) with (repeat 0 (S (Z.to_nat (k - Z.max (0 - 1) 0)))).
    rewrite dread_zeros, lval_nil. split; [lra|]. intros _. split; reflexivity.
  - cbn [hd skipn] in *. destruct (Z.eqb_spec (len (a :: t)) 0) as [E|_]; [cbn [length] in E; lia|]. split.
    + unfold ds. change (a :: t ++ ?r) with ((a :: t) ++ r).
      set (n := Z.to_nat (k - Z.max (len (a :: t) - 1) 0)). rewrite <- (lval_zeros (a :: t) n p). unfold lval. do 2 f_equal.
      rewrite app_length, repeat_length. unfold n. cbn [length] in *. lia.
    + intros E. exfalso. rewrite B1 in E. apply H0. cbn [hd]. lia.
Qed.

Lemma last_app_cons {A} (s t : list A) x : t <> [] -> last (s ++ t) x = last t x.
Proof.
  intros H. induction s as [|a s IH]; [reflexivity|]. cbn [app last]. rewrite IH. destruct (s ++ t) eqn:E; [|reflexivity].
  apply app_eq_nil in E. destruct E; contradiction.
Qed.

Lemma chars_no_end l : digits_ok l -> no_trail0 l -> no_zero_end (Decimal.chars l).
Proof.
  intros Hl Ht. unfold no_zero_end, no_trail0 in *. induction l as [|a [|b t] IH].
  - cbn. lia.
  - cbn [Decimal.chars map last] in *. inversion Hl; subst. change (u8 (a + 48)) with (byte_of a). rewrite (proj1 (byte_of_digit a ltac:(assumption))). lia.
  - inversion Hl; subst. apply IH; assumption.
Qed.

Lemma no_trail0_tail a t : no_trail0 (a :: t) -> no_trail0 t.
Proof. unfold no_trail0. destruct t as [|b t]; [cbn; lia|]. cbn [last]. intros H. exact H. Qed.

(** * fmtF *)

(** The first [j] digits, zeros after the last. *)
Definition upto (l : list Z) (j : Z) : Z := dread (firstn (Z.to_nat j) l) * 10 ^ Z.max 0 (j - len l).

Lemma upto_step l j : digits_ok l -> 0 <= j -> upto l (j + 1) = upto l j * 10 + (if j <? len l then nth (Z.to_nat j) l 0 else 0).
Proof.
  intros Hl Hj. unfold upto. replace (Z.to_nat (j + 1)) with (S (Z.to_nat j)) by lia.
  destruct (Z.ltb_spec j (len l)) as [L|L].
  - replace (Z.max 0 (j + 1 - len l)) with 0 by lia. replace (Z.max 0 (j - len l)) with 0 by lia.
    assert (E : firstn (S (Z.to_nat j)) l = firstn (Z.to_nat j) l ++ [nth (Z.to_nat j) l 0]).
    { rewrite <- (firstn_skipn (Z.to_nat j) l) at 1. rewrite firstn_S_nth by lia.
      rewrite firstn_app, firstn_length. replace (S (Z.to_nat j) - Nat.min (Z.to_nat j) (length l))%nat with 1%nat by lia.
      rewrite firstn_firstn. replace (Nat.min (S (Z.to_nat j)) (Z.to_nat j)) with (Z.to_nat j) by lia. reflexivity. }
    rewrite E, dread_snoc. change (10 ^ 0) with 1. lia.
  - rewrite !firstn_all2 by lia. replace (Z.max 0 (j + 1 - len l)) with (Z.max 0 (j - len l) + 1) by lia.
    rewrite Z.pow_add_r by lia. change (10 ^ 1) with 10. lia.
Qed.

Lemma frac_digits_snoc n : forall i s, frac_digits (S n) i s = frac_digits n i s ++
  [if (0 <=? sdp s + i + Z.of_nat n) && (sdp s + i + Z.of_nat n <? snd_ s) then sdig s (sdp s + i + Z.of_nat n) else 48].
Proof.
  induction n as [|n IH]; intros i s.
  - cbn [frac_digits app Z.of_nat]. rewrite Z.add_0_r. reflexivity.
  - remember (S n) as m. cbn [frac_digits]. subst m. rewrite IH. cbn [frac_digits app].
    replace (sdp s + i + Z.of_nat (S n)) with (sdp s + (i + 1) + Z.of_nat n) by lia. reflexivity.
Qed.

Lemma frac_digits_length n : forall i s, length (frac_digits n i s) = n.
Proof. induction n; intros; cbn [frac_digits length]; [reflexivity|rewrite IHn; reflexivity]. Qed.

Lemma frac_digit_val l cap p sg j : digits_ok l -> let s := mkSlice l cap p sg in
  let c := if (0 <=? j) && (j <? snd_ s) then sdig s j else 48 in
  digit_val c = (if (0 <=? j) && (j <? len l) then nth (Z.to_nat j) l 0 else 0) /\ 0 <= digit_val c < 10.
Proof.
  intros Hl s c. unfold c, snd_, s. cbn [sd]. destruct (Z.leb_spec 0 j); cbn [andb]; [|change (digit_val 48) with 0; lia].
  destruct (Z.ltb_spec j (len l)); [|change (digit_val 48) with 0; lia]. unfold sdig. cbn [sd].
  assert (0 <= nth (Z.to_nat j) l 0 <= 9) by (apply (proj1 (Forall_forall _ _) Hl), nth_In; lia).
  destruct (byte_of_digit _ H1) as [-> ->]. lia.
Qed.

Lemma frac_digits_all n : forall i l cap p sg, digits_ok l -> all_digits 10 (frac_digits n i (mkSlice l cap p sg)).
Proof.
  induction n; intros; cbn [frac_digits]; [constructor|]. constructor; [|apply IHn; assumption].
  apply (frac_digit_val l cap p sg); assumption.
Qed.

Lemma frac_read l cap p sg ip n : digits_ok l -> read 10 ip = upto l p ->
  read 10 (ip ++ frac_digits n 0 (mkSlice l cap p sg)) = upto l (p + Z.of_nat n).
Proof.
  intros Hl Hip. induction n as [|n IH].
  - cbn [frac_digits]. rewrite app_nil_r, Hip. f_equal. lia.
  - rewrite frac_digits_snoc, app_assoc, read_snoc, IH. cbn [sdp].
    replace (p + 0 + Z.of_nat n) with (p + Z.of_nat n) by lia.
    rewrite (proj1 (frac_digit_val l cap p sg (p + Z.of_nat n) Hl)).
    replace (p + Z.of_nat (S n)) with (p + Z.of_nat n + 1) by lia.
    destruct (Z.leb_spec 0 (p + Z.of_nat n)); cbn [andb].
    + rewrite upto_step by (assumption || lia). lia.
    + unfold upto. replace (Z.to_nat (p + Z.of_nat n + 1)) with O by lia. replace (Z.to_nat (p + Z.of_nat n)) with O by lia. reflexivity.
Qed.

Lemma upto_all l p n : len l <= p + n -> (IZR (upto l (p + n)) * p10 (- n))%R = lval l p.
Proof.
  intros H. unfold upto, lval. rewrite firstn_all2 by lia. rewrite scale10 by lia. do 2 f_equal. lia.
Qed.

(** The text of fmtF whatever the digits: a plain number with [k] decimals. *)
Lemma fmtF_gen l cap p sg prec (ng : bool) k : digits_ok l -> no_lead0 l -> (l = [] -> p <= 0) -> k = Z.max prec 0 ->
  let fp := frac_digits (Z.to_nat k) 0 (mkSlice l cap p sg) in
  len fp = k /\ prints_f ng fp (IZR (upto l (p + k)) * p10 (- k)) (fmtF [] ng (mkSlice l cap p sg) prec).
Proof.
  intros Hl H0 Hp Hk fp. assert (Lf : len fp = k) by (unfold fp; rewrite frac_digits_length; lia). split; [exact Lf|].
  set (ip := if 0 <? p then Decimal.chars (firstn (Z.to_nat (Z.min (len l) p)) l ++ repeat 0 (Z.to_nat (p - Z.min (len l) p))) else [48]).
  exists ip. split.
  { unfold fmtF, snd_. cbn [sd sdp]. fold ip.
    replace (if ng then [] ++ [45] else []) with (sign_text ng) by (destruct ng; reflexivity).
    assert (E : (if 0 <? p then sign_text ng ++ map byte_of (firstn (Z.to_nat (Z.min (len l) p)) l) ++ repeat 48 (Z.to_nat (p - Z.min (len l) p)) else sign_text ng ++ [48]) = sign_text ng ++ ip).
    { unfold ip. destruct (0 <? p); [|reflexivity]. rewrite chars_app, chars_byte, <- zeros_chars. reflexivity. }
    rewrite E. destruct (Z.ltb_spec 0 prec).
    - rewrite point_cons by (intros En; rewrite En in Lf; cbn in Lf; lia). rewrite <- app_assoc. cbn [app]. replace prec with k by lia. reflexivity.
    - destruct fp; [|cbn [length] in Lf; lia]. cbn [point]. rewrite app_nil_r. reflexivity. }
  assert (Rip : read 10 ip = upto l p).
  { unfold ip. destruct (Z.ltb_spec 0 p).
    - rewrite chars_read by (apply digits_ok_app; split; [apply digits_ok_firstn, Hl|apply digits_ok_zeros]).
      rewrite dread_app, dread_zeros, repeat_length. unfold upto.
      replace (Z.of_nat (Z.to_nat (p - Z.min (len l) p))) with (Z.max 0 (p - len l)) by lia.
      destruct (Z_le_gt_dec p (len l)); [replace (Z.min (len l) p) with p by lia|rewrite !firstn_all2 by lia]; lia.
    - unfold upto. replace (Z.to_nat p) with O by lia. reflexivity. }
  assert (Dip : all_digits 10 ip).
  { unfold ip. destruct (0 <? p); [|repeat constructor; vm_compute; discriminate].
    apply chars_digits, digits_ok_app; split; [apply digits_ok_firstn, Hl|apply digits_ok_zeros]. }
  split.
  { unfold ip in *. destruct (Z.ltb_spec 0 p); [|split; [discriminate|split; [exact Dip|reflexivity]]].
    destruct l as [|a t]; [specialize (Hp eq_refl); lia|].
    assert (E : exists r, Decimal.chars (firstn (Z.to_nat (Z.min (len (a :: t)) p)) (a :: t) ++ repeat 0 (Z.to_nat (p - Z.min (len (a :: t)) p))) = byte_of a :: r).
    { replace (Z.to_nat (Z.min (len (a :: t)) p)) with (S (Z.to_nat (Z.min (len (a :: t)) p - 1))) by (cbn [length]; lia). cbn [firstn app Decimal.chars map]. eexists. reflexivity. }
    destruct E as [r E]. rewrite E in *. split; [discriminate|]. split; [exact Dip|]. cbn [hd]. intros E2. exfalso.
    inversion Hl; subst. rewrite (proj1 (byte_of_digit a ltac:(assumption))) in E2. apply H0. cbn [hd]. lia. }
  split; [apply frac_digits_all, Hl|].
  unfold fp. rewrite frac_read by assumption. rewrite frac_digits_length. rewrite Z2Nat.id by lia. reflexivity.
Qed.

Lemma fmtF_ok l cap p sg prec (ng : bool) k : digits_ok l -> no_lead0 l -> (l = [] -> p <= 0) -> k = Z.max prec 0 -> len l - p <= k ->
  exists fp, len fp = k /\ fp = frac_digits (Z.to_nat k) 0 (mkSlice l cap p sg) /\ prints_f ng fp (lval l p) (fmtF [] ng (mkSlice l cap p sg) prec).
Proof.
  intros Hl H0 Hp Hk H. eexists. destruct (fmtF_gen l cap p sg prec ng k Hl H0 Hp Hk) as [L P].
  split; [exact L|]. split; [reflexivity|]. rewrite upto_all in P by lia. exact P.
Qed.

Lemma fmtF_zero l cap p sg prec (ng : bool) k : digits_ok l -> no_lead0 l -> (l = [] -> p <= 0) -> k = Z.max prec 0 -> p + k <= 0 ->
  exists fp, len fp = k /\ prints_f ng fp 0 (fmtF [] ng (mkSlice l cap p sg) prec).
Proof.
  intros Hl H0 Hp Hk H. eexists. destruct (fmtF_gen l cap p sg prec ng k Hl H0 Hp Hk) as [L P].
  split; [exact L|]. replace (upto l (p + k)) with 0 in P; [rewrite Rmult_0_l in P; exact P|].
  unfold upto. replace (Z.to_nat (p + k)) with O by lia. reflexivity.
Qed.

(** The last decimal is the last digit. *)
Lemma frac_last l cap p sg k : dg l p -> k = Z.max (len l - p) 0 ->
  no_zero_end (frac_digits (Z.to_nat k) 0 (mkSlice l cap p sg)).
Proof.
  intros (Hl & _ & Ht & H0) Hk. unfold no_zero_end. destruct (Z_le_gt_dec k 0); [replace (Z.to_nat k) with O by lia; cbn; lia|].
  assert (Nl : l <> []) by (intros ->; specialize (H0 eq_refl); cbn [length Z.of_nat] in Hk; lia).
  assert (N : 1 <= len l) by (destruct l; [contradiction|cbn [length]; lia]).
  replace (Z.to_nat k) with (S (Z.to_nat (k - 1))) by lia. rewrite frac_digits_snoc. rewrite last_app_cons by discriminate. cbn [last].
  cbn [sdp]. rewrite Z.add_0_r. unfold snd_. cbn [sd]. replace (p + Z.of_nat (Z.to_nat (k - 1))) with (len l - 1) by lia.
  destruct (Z.leb_spec 0 (len l - 1)); [|lia]. destruct (Z.ltb_spec (len l - 1) (len l)); [|lia]. cbn [andb]. unfold sdig. cbn [sd].
  destruct (last_firstn_nth l (length l) ltac:(lia)) as [u E]. rewrite firstn_all in E.
  replace (Z.to_nat (len l - 1)) with (length l - 1)%nat by lia.
  set (z := nth (length l - 1) l 0) in *. assert (Tz : z <> 0).
  { unfold no_trail0 in Ht. rewrite E in Ht. rewrite last_app_cons in Ht by discriminate. exact Ht. }
  assert (Rz : 0 <= z <= 9) by (apply (proj1 (Forall_forall _ _) Hl), nth_In; lia).
  rewrite (proj1 (byte_of_digit _ Rz)). lia.
Qed.

(** * formatDigits *)
Lemma formatDigits_e sh ng l cap p sg prec c k : is_e c = true -> dg l p -> -999 < p <= 999 -> k = Z.max prec 0 -> len l <= k + 1 ->
  exists fp, len fp = k /\ (k = Z.max (len l - 1) 0 -> no_zero_end fp) /\
    prints_e c ng fp (lval l p) (formatDigits [] sh ng (mkSlice l cap p sg) prec c).
Proof.
  intros He (D1 & D2 & D3 & D4) Hr Hk Hl. unfold formatDigits. rewrite He.
  destruct (fmtE_ok l cap p sg prec c ng k D1 D2 D4 Hr Hk Hl) as (fp & E & L & P). exists fp. split; [exact L|]. split; [|exact P].
  intros Ek. rewrite E. replace (k - Z.max (len l - 1) 0) with 0 by lia. cbn [Z.to_nat repeat]. rewrite app_nil_r.
  apply chars_no_end; [apply digits_ok_skipn, D1|]. destruct l as [|a t]; [exact D3|apply (no_trail0_tail a), D3].
Qed.

Lemma is_f_not_e : is_e ch_f = false.
Proof. reflexivity. Qed.

Lemma formatDigits_f sh ng l cap p sg prec k : dg l p -> k = Z.max prec 0 -> len l - p <= k ->
  exists fp, len fp = k /\ (k = Z.max (len l - p) 0 -> no_zero_end fp) /\
    prints_f ng fp (lval l p) (formatDigits [] sh ng (mkSlice l cap p sg) prec ch_f).
Proof.
  intros (D1 & D2 & D3 & D4) Hk Hl. unfold formatDigits. rewrite is_f_not_e. change (is_f ch_f) with true. cbn iota.
  destruct (fmtF_ok l cap p sg prec ng k D1 D2 ltac:(intros E; rewrite (D4 E); lia) Hk Hl) as (fp & L & E & P). exists fp. split; [exact L|]. split; [|exact P].
  intros Ek. rewrite E. apply frac_last; [split; [|split; [|split]]; assumption|exact Ek].
Qed.

Lemma formatDigits_f_zero sh ng l cap p sg prec k : dg l p -> k = Z.max prec 0 -> p + k <= 0 ->
  exists fp, len fp = k /\ prints_f ng fp 0 (formatDigits [] sh ng (mkSlice l cap p sg) prec ch_f).
Proof.
  intros (D1 & D2 & D3 & D4) Hk Hl. unfold formatDigits. rewrite is_f_not_e. change (is_f ch_f) with true. cbn iota.
  apply (fmtF_zero l cap p sg prec ng k D1 D2 ltac:(intros E; rewrite (D4 E); lia) Hk Hl).
Qed.

Lemma dg_range l p : dg l p -> l <> [] -> (p10 (p - 1) <= lval l p < p10 p)%R.
Proof. intros (D1 & D2 & _) N. apply lval_range; assumption. Qed.

(** [prec] digits are asked for; [t] is where the scientific notation starts. *)
Lemma formatDigits_g (sh ng : bool) l cap p sg prec c t : is_g c = true -> dg l p -> -999 < p <= 999 ->
  len l <= prec -> (sh = false -> 1 <= prec) -> t = (if sh then 6 else prec) -> (sh = true -> prec = len l) ->
  exists fp, no_zero_end fp /\ prints_g (c - 2) t ng fp (lval l p) (formatDigits [] sh ng (mkSlice l cap p sg) prec c).
Proof.
  intros Hg D Hr Hl Hs Ht Hsl. pose proof D as (D1 & D2 & D3 & D4). unfold formatDigits.
  assert (Hc : c = 103 \/ c = 71) by (unfold is_g, ch_g, ch_G in Hg; apply orb_prop in Hg; destruct Hg as [E|E]; apply Z.eqb_eq in E; auto).
  assert (is_e c = false) as -> by (destruct Hc as [-> | ->]; reflexivity). assert (is_f c = false) as -> by (destruct Hc as [-> | ->]; reflexivity).
  rewrite Hg. unfold snd_. cbn [sd sdp].
  assert (U : u8 (c + 101 - 103) = c - 2) by (destruct Hc as [-> | ->]; reflexivity). rewrite U.
  set (eprec := if sh then 6 else if (len l <? prec) && (p <=? len l) then len l else prec).
  assert (Q : (p - 1 <? -4) || (eprec <=? p - 1) = (p - 1 <? -4) || (t <=? p - 1)).
  { f_equal. unfold eprec. subst t. destruct sh; [reflexivity|]. destruct (Z.ltb_spec (len l) prec); [|reflexivity]. cbn [andb].
    destruct (Z.leb_spec p (len l)); [|reflexivity]. destruct (Z.leb_spec (len l) (p - 1)); [lia|]. destruct (Z.leb_spec prec (p - 1)); [lia|reflexivity]. }
  rewrite Q. clear Q eprec. assert (T : 1 <= t) by (subst t; destruct sh; [lia|auto]).
  destruct (list_eq_dec Z.eq_dec l []) as [El|Nl].
  - (* zero *)
    assert (p = 0) by (apply D4; exact El). subst p. destruct (Z.ltb_spec (0 - 1) (-4)); [lia|]. destruct (Z.leb_spec t (0 - 1)); [lia|]. cbn [orb].
    assert (L0 : len l = 0) by (rewrite El; reflexivity).
    assert (V : lval l 0 = 0%R) by (rewrite El; apply lval_nil).
    set (pr := Z.max ((if 0 <? prec then len l else prec) - 0) 0).
    assert (Pr : pr = 0) by (unfold pr; destruct (Z.ltb_spec 0 prec); lia).
    destruct (fmtF_ok l cap 0 sg pr ng 0 D1 D2 ltac:(lia) ltac:(lia) ltac:(lia)) as (fp & L & E & P).
    exists fp. split; [destruct fp; [cbn; unfold no_zero_end; cbn; lia|cbn [length] in L; lia]|]. split; intros H1; [exact P|].
    exfalso. rewrite V in H1. pose proof (p10_pos (-4)). lra.
  - pose proof (dg_range l p D Nl) as [R1 R2]. assert (N1 : 1 <= len l) by (destruct l; [contradiction|cbn [length]; lia]).
    destruct (Z.ltb_spec (p - 1) (-4)) as [A|A]; [|destruct (Z.leb_spec t (p - 1)) as [B|B]]; cbn [orb].
    + assert (Ep : (if len l <? prec then len l else prec) = len l) by (destruct (Z.ltb_spec (len l) prec); lia). rewrite Ep.
      destruct (fmtE_ok l cap p sg (len l - 1) (c - 2) ng (len l - 1) D1 D2 D4 Hr ltac:(lia) ltac:(lia)) as (fp & E & L & P).
      exists fp. split.
      { rewrite E. replace (_ - Z.max _ _) with 0 by lia. cbn [Z.to_nat repeat]. rewrite app_nil_r.
        apply chars_no_end; [apply digits_ok_skipn, D1|]. destruct l as [|b m]; [exact D3|apply (no_trail0_tail b), D3]. }
      assert (lval l p < p10 (-4))%R by (apply Rlt_le_trans with (p10 p); [exact R2|apply p10_le; lia]). pose proof (p10_pos (p - 1)).
      split; intros H1; [lra|exact P].
    + assert (Ep : (if len l <? prec then len l else prec) = len l) by (destruct (Z.ltb_spec (len l) prec); lia). rewrite Ep.
      destruct (fmtE_ok l cap p sg (len l - 1) (c - 2) ng (len l - 1) D1 D2 D4 Hr ltac:(lia) ltac:(lia)) as (fp & E & L & P).
      exists fp. split.
      { rewrite E. replace (_ - Z.max _ _) with 0 by lia. cbn [Z.to_nat repeat]. rewrite app_nil_r.
        apply chars_no_end; [apply digits_ok_skipn, D1|]. destruct l as [|b m]; [exact D3|apply (no_trail0_tail b), D3]. }
      assert (p10 t <= lval l p)%R by (apply Rle_trans with (p10 (p - 1)); [apply p10_le; lia|exact R1]). pose proof (p10_pos (p - 1)).
      split; intros H1; [lra|exact P].
    + set (pr := Z.max ((if p <? prec then len l else prec) - p) 0).
      assert (Pr : pr = Z.max (len l - p) 0).
      { unfold pr. destruct (Z.ltb_spec p prec); [lia|]. destruct sh; [rewrite (Hsl eq_refl); lia|]. lia. }
      destruct (fmtF_ok l cap p sg pr ng pr D1 D2 ltac:(intros E; contradiction) ltac:(lia) ltac:(lia)) as (fp & L & E & P).
      exists fp. split; [rewrite E; apply frac_last; assumption|]. split; intros H1; [exact P|]. exfalso.
      assert (p10 (-4) <= lval l p)%R by (apply Rle_trans with (p10 (p - 1)); [apply p10_le; lia|exact R1]).
      assert (lval l p < p10 t)%R by (apply Rlt_le_trans with (p10 p); [exact R2|apply p10_le; lia]). lra.
Qed.

(** Only the digits and the point of the slice matter. *)
Lemma formatDigits_slice sh ng l p cap cap' sg sg' prec c :
  formatDigits [] sh ng (mkSlice l cap p sg) prec c = formatDigits [] sh ng (mkSlice l cap' p sg') prec c.
Proof.
  assert (F : forall n i, frac_digits n i (mkSlice l cap p sg) = frac_digits n i (mkSlice l cap' p sg')).
  { induction n; intros i; cbn [frac_digits]; [reflexivity|]. rewrite IHn. reflexivity. }
  unfold formatDigits, fmtE, fmtF, snd_, sdig. cbn [sd sdp]. rewrite !F. reflexivity.
Qed.
