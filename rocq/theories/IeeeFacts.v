(** Encoding and decoding of IEEE bit patterns. *)
From Coq Require Import ZArith Reals Lia Lra Bool.
From Flocq Require Import Core.
From Verif Require Import GoBase.
From Verif Require BigFloat.
From Verif Require Import Spec BitFacts RoundFacts.
Import BigFloat (bitlen, gexp).
Open Scope Z_scope.

Definition enc (mb eb : Z) (s : bool) (E F : Z) : Z :=
  Z.b2z s * 2 ^ (mb + eb) + E * 2 ^ mb + F.

Definition ieee_parts (mb eb : Z) (s : bool) (E F : Z) : fval :=
  let bias := 2 ^ (eb - 1) - 1 in
  if E =? 2 ^ eb - 1 then (if F =? 0 then VInf s else VNaN s)
  else if E =? 0 then VNum s (sgnR s (IZR F * p2 (1 - bias - mb)))
  else VNum s (sgnR s (IZR (2 ^ mb + F) * p2 (E - bias - mb))).

Lemma enc_range mb eb s E F : 0 <= mb -> 0 <= eb -> 0 <= E < 2 ^ eb -> 0 <= F < 2 ^ mb ->
  0 <= enc mb eb s E F < 2 ^ (mb + eb + 1).
Proof.
  intros Hm He HE HF. unfold enc.
  rewrite !Z.pow_add_r by lia. change (2 ^ 1) with 2.
  pose proof (pow2_pos mb Hm). pose proof (pow2_pos eb He).
  assert (0 <= Z.b2z s <= 1) by (destruct s; simpl; lia). nia.
Qed.

Lemma enc_low mb eb s E F : 0 <= mb -> 0 <= eb -> 0 <= E < 2 ^ eb -> 0 <= F < 2 ^ mb ->
  enc mb eb s E F mod 2 ^ mb = F.
Proof.
  intros Hm He HE HF. unfold enc.
  rewrite Z.pow_add_r by lia.
  pose proof (pow2_pos mb Hm).
  replace (Z.b2z s * (2 ^ mb * 2 ^ eb) + E * 2 ^ mb + F)
    with (F + (Z.b2z s * 2 ^ eb + E) * 2 ^ mb) by ring.
  rewrite Z.mod_add by lia. apply Z.mod_small; lia.
Qed.

Lemma enc_div mb eb s E F : 0 <= mb -> 0 <= eb -> 0 <= E < 2 ^ eb -> 0 <= F < 2 ^ mb ->
  enc mb eb s E F / 2 ^ mb = Z.b2z s * 2 ^ eb + E.
Proof.
  intros Hm He HE HF. unfold enc.
  rewrite Z.pow_add_r by lia.
  pose proof (pow2_pos mb Hm).
  replace (Z.b2z s * (2 ^ mb * 2 ^ eb) + E * 2 ^ mb + F)
    with (F + (Z.b2z s * 2 ^ eb + E) * 2 ^ mb) by ring.
  rewrite Z.div_add by lia. rewrite Z.div_small by lia. ring.
Qed.

Lemma enc_exp mb eb s E F : 0 <= mb -> 0 <= eb -> 0 <= E < 2 ^ eb -> 0 <= F < 2 ^ mb ->
  (enc mb eb s E F / 2 ^ mb) mod 2 ^ eb = E.
Proof.
  intros Hm He HE HF. rewrite enc_div by assumption.
  pose proof (pow2_pos eb He).
  rewrite Z.add_comm, Z.mod_add by lia. apply Z.mod_small; lia.
Qed.

Lemma enc_sign mb eb s E F : 0 <= mb -> 0 <= eb -> 0 <= E < 2 ^ eb -> 0 <= F < 2 ^ mb ->
  enc mb eb s E F / 2 ^ (mb + eb) = Z.b2z s.
Proof.
  intros Hm He HE HF.
  pose proof (pow2_pos mb Hm). pose proof (pow2_pos eb He).
  rewrite Z.pow_add_r by lia. rewrite <- Z.div_div by lia.
  rewrite enc_div by assumption.
  rewrite Z.add_comm, Z.div_add by lia. rewrite Z.div_small by lia. lia.
Qed.

Lemma ieee_enc mb eb s E F : 0 <= mb -> 0 <= eb -> 0 <= E < 2 ^ eb -> 0 <= F < 2 ^ mb ->
  ieee mb eb (enc mb eb s E F) = ieee_parts mb eb s E F.
Proof.
  intros Hm He HE HF. unfold ieee.
  rewrite enc_sign, enc_exp, enc_low by assumption.
  replace (Z.odd (Z.b2z s)) with s by (destruct s; reflexivity). reflexivity.
Qed.

Lemma enc_surj mb eb b : 0 <= mb -> 0 <= eb -> 0 <= b < 2 ^ (mb + eb + 1) ->
  exists s E F, 0 <= E < 2 ^ eb /\ 0 <= F < 2 ^ mb /\ b = enc mb eb s E F.
Proof.
  intros Hm He Hb.
  pose proof (pow2_pos mb Hm). pose proof (pow2_pos eb He).
  exists (Z.odd (b / 2 ^ (mb + eb))), ((b / 2 ^ mb) mod 2 ^ eb), (b mod 2 ^ mb).
  split; [apply Z.mod_pos_bound; lia|].
  split; [apply Z.mod_pos_bound; lia|].
  unfold enc. rewrite !Z.pow_add_r in * by lia. change (2 ^ 1) with 2 in Hb.
  assert (Hs : b / (2 ^ mb * 2 ^ eb) = Z.b2z (Z.odd (b / (2 ^ mb * 2 ^ eb)))).
  { destruct (odd_div_range b (2 ^ mb * 2 ^ eb)) as [_ H1]; [nia|lia|].
    assert (C : b / (2 ^ mb * 2 ^ eb) = 0 \/ b / (2 ^ mb * 2 ^ eb) = 1) by lia.
    destruct C as [C|C]; rewrite C; reflexivity. }
  rewrite <- Hs. rewrite <- Z.div_div by lia.
  pose proof (Z.div_mod b (2 ^ mb) ltac:(lia)).
  pose proof (Z.div_mod (b / 2 ^ mb) (2 ^ eb) ltac:(lia)). nia.
Qed.

(** The fields as the model of math and math/big reads them. *)
Lemma f_sign_enc mb eb s E F : 0 <= mb -> 0 <= eb -> 0 <= E < 2 ^ eb -> 0 <= F < 2 ^ mb ->
  BigFloat.f_sign mb eb (enc mb eb s E F) = s.
Proof.
  intros. unfold BigFloat.f_sign. rewrite enc_sign by assumption. destruct s; reflexivity.
Qed.

Lemma f_exp_enc mb eb s E F : 0 <= mb -> 0 <= eb -> 0 <= E < 2 ^ eb -> 0 <= F < 2 ^ mb ->
  BigFloat.f_exp mb eb (enc mb eb s E F) = E.
Proof. intros. unfold BigFloat.f_exp. apply enc_exp; assumption. Qed.

Lemma f_frac_enc mb eb s E F : 0 <= mb -> 0 <= eb -> 0 <= E < 2 ^ eb -> 0 <= F < 2 ^ mb ->
  BigFloat.f_frac mb (enc mb eb s E F) = F.
Proof. intros. unfold BigFloat.f_frac. apply enc_low; assumption. Qed.

Lemma f_isnan_enc mb eb s E F : 0 <= mb -> 0 <= eb -> 0 <= E < 2 ^ eb -> 0 <= F < 2 ^ mb ->
  BigFloat.f_isnan mb eb (enc mb eb s E F) = (E =? 2 ^ eb - 1) && negb (F =? 0).
Proof. intros. unfold BigFloat.f_isnan. rewrite f_exp_enc, f_frac_enc by assumption. reflexivity. Qed.

Lemma with_sign_enc mb eb s E F : 0 <= mb -> 0 <= eb -> 0 <= E < 2 ^ eb -> 0 <= F < 2 ^ mb ->
  BigFloat.with_sign mb eb s (E * 2 ^ mb + F) = enc mb eb s E F.
Proof.
  intros Hm He HE HF. unfold BigFloat.with_sign, enc.
  pose proof (pow2_pos mb Hm). pose proof (pow2_pos eb He).
  destruct s; cbn [Z.b2z].
  - rewrite <- (Z.mul_1_l (2 ^ (mb + eb))) at 1.
    rewrite lor_add; [ring|lia|]. rewrite Z.pow_add_r by lia. nia.
  - rewrite Z.lor_0_l. ring.
Qed.

Lemma with_sign_enc0 mb eb s F : 0 <= mb -> 0 <= eb -> 0 <= F < 2 ^ mb ->
  BigFloat.with_sign mb eb s F = enc mb eb s 0 F.
Proof.
  intros. pose proof (pow2_pos eb). rewrite <- with_sign_enc by lia. f_equal. 
Qed.

(** NaN-ness of a pattern in terms of its meaning. *)
Lemma isnan_ieee mb eb b : 0 <= mb -> 0 <= eb -> 0 <= b < 2 ^ (mb + eb + 1) ->
  BigFloat.f_isnan mb eb b = match ieee mb eb b with VNaN _ => true | _ => false end.
Proof.
  intros Hm He Hb. destruct (enc_surj mb eb b Hm He Hb) as (s & E & F & HE & HF & ->).
  rewrite f_isnan_enc, ieee_enc by assumption. unfold ieee_parts.
  destruct (E =? 2 ^ eb - 1); [destruct (F =? 0); reflexivity|].
  destruct (E =? 0); reflexivity.
Qed.

(** Two patterns with the same meaning are equal, unless they are NaNs. *)
Lemma sgnR_inj s x y : sgnR s x = sgnR s y -> x = y.
Proof. destruct s; simpl; lra. Qed.

Lemma ieee_inj mb eb b1 b2 :
  0 <= mb -> 1 <= eb ->
  0 <= b1 < 2 ^ (mb + eb + 1) -> 0 <= b2 < 2 ^ (mb + eb + 1) ->
  ieee mb eb b1 = ieee mb eb b2 ->
  (forall s, ieee mb eb b1 <> VNaN s) ->
  b1 = b2.
Proof.
  intros Hm He Hb1 Hb2 H Hn.
  destruct (enc_surj mb eb b1 Hm ltac:(lia) Hb1) as (s1 & E1 & F1 & HE1 & HF1 & ->).
  destruct (enc_surj mb eb b2 Hm ltac:(lia) Hb2) as (s2 & E2 & F2 & HE2 & HF2 & ->).
  rewrite !ieee_enc in * by lia. unfold ieee_parts in *.
  set (bias := 2 ^ (eb - 1) - 1) in *.
  pose proof (pow2_pos mb Hm) as Hp.
  assert (Key : forall A a B b, 0 <= A < 2 ^ (mb + 1) -> 0 <= B < 2 ^ (mb + 1) ->
    (IZR A * p2 a = IZR B * p2 b)%R -> a <= b -> (2 ^ mb <= B \/ a = b) -> A = B /\ (a = b)).
  { intros A a B b HA HB Heq Hab Hor.
    replace b with ((b - a) + a) in Heq by lia. rewrite p2_plus, <- Rmult_assoc in Heq.
    apply Rmult_eq_reg_r in Heq; [|apply Rgt_not_eq, p2_pos].
    rewrite <- IZR_pow2, <- mult_IZR in Heq by lia. apply eq_IZR in Heq.
    destruct (Z.eq_dec a b) as [->|Hne].
    - rewrite Z.sub_diag, Z.pow_0_r in Heq. lia.
    - destruct Hor as [Hor|]; [|lia]. exfalso.
      assert (2 ^ 1 <= 2 ^ (b - a)) by (apply Z.pow_le_mono_r; lia).
      rewrite Z.pow_add_r in HA by lia. change (2 ^ 1) with 2 in *. nia. }
  assert (Hp1 : 2 ^ (mb + 1) = 2 * 2 ^ mb) by (rewrite Z.pow_add_r by lia; change (2 ^ 1) with 2; lia).
  destruct (Z.eqb_spec E1 (2 ^ eb - 1)) as [e1|e1].
  { destruct (Z.eqb_spec F1 0) as [f1|f1]; [|exfalso; eapply Hn; reflexivity].
    destruct (Z.eqb_spec E2 (2 ^ eb - 1)) as [e2|e2].
    - destruct (Z.eqb_spec F2 0) as [f2|f2]; [|discriminate].
      injection H as H. subst. reflexivity.
    - destruct (Z.eqb_spec E2 0); discriminate. }
  destruct (Z.eqb_spec E2 (2 ^ eb - 1)) as [e2|e2].
  { destruct (Z.eqb_spec E1 0), (Z.eqb_spec F2 0); discriminate. }
  destruct (Z.eqb_spec E1 0) as [z1|z1], (Z.eqb_spec E2 0) as [z2|z2];
    injection H as H0 H1; subst s2; apply sgnR_inj in H1.
  - destruct (Key F1 (1 - bias - mb) F2 (1 - bias - mb)) as [K _]; try lia; try assumption.
    subst; reflexivity.
  - destruct (Key F1 (1 - bias - mb) (2 ^ mb + F2) (E2 - bias - mb)) as [K1 K2]; try lia; assumption.
  - destruct (Key F2 (1 - bias - mb) (2 ^ mb + F1) (E1 - bias - mb)) as [K1 K2]; try lia.
    symmetry; assumption.
  - destruct (Z_le_gt_dec E1 E2) as [C|C].
    + destruct (Key (2 ^ mb + F1) (E1 - bias - mb) (2 ^ mb + F2) (E2 - bias - mb)) as [K1 K2]; try lia; try assumption.
      assert (F1 = F2) by lia. assert (E1 = E2) by lia. subst; reflexivity.
    + destruct (Key (2 ^ mb + F2) (E2 - bias - mb) (2 ^ mb + F1) (E1 - bias - mb)) as [K1 K2]; try lia.
      symmetry; assumption.
Qed.

Definition fsign (v : fval) : bool := match v with VNaN s | VInf s | VNum s _ => s end.

Lemma sign_ieee mb eb b : 0 <= mb -> 0 <= eb -> 0 <= b < 2 ^ (mb + eb + 1) ->
  BigFloat.f_sign mb eb b = fsign (ieee mb eb b).
Proof.
  intros Hm He Hb. destruct (enc_surj mb eb b Hm He Hb) as (s & E & F & HE & HF & ->).
  rewrite f_sign_enc, ieee_enc by assumption. unfold ieee_parts.
  destruct (E =? 2 ^ eb - 1); [destruct (F =? 0); reflexivity|].
  destruct (E =? 0); reflexivity.
Qed.
