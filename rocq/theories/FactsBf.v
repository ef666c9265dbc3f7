(** bfloat. *)
From Coq Require Import ZArith Reals Lia Lra Bool List String.
From Flocq Require Import Core.
From Verif Require Import GoBase.
From Verif Require BigFloat Bfloat Facts16.
From Verif Require Import GoFmt.
From Verif Require Import Spec BitFacts RoundFacts IeeeFacts BigFacts BigFacts2 FmtFacts PkgFacts.
Import BigFloat (bitlen, gexp, prec, rmode, acc, neg, frm, Finite, MaxExp, MinExp, MaxPrec).
Open Scope Z_scope.

Lemma fields b : 0 <= b < 2 ^ 16 -> exists s E F, 0 <= E < 2 ^ 8 /\ 0 <= F < 2 ^ 7 /\
  b = enc 7 8 s E F /\ Bfloat.Signbit b = s /\ Bfloat.Exp b = E /\ Bfloat.Frac b = F.
Proof.
  intros Hb. destruct (enc_surj 7 8 b ltac:(lia) ltac:(lia) Hb) as (s & E & F & HE & HF & ->).
  exists s, E, F. repeat split; try lia.
  - unfold Bfloat.Signbit. change 0x8000 with (2 ^ 15). rewrite land_bit by lia.
    change (2 ^ 15) with (2 ^ (7 + 8)). rewrite enc_sign by lia. destruct s; reflexivity.
  - unfold Bfloat.Exp. change 0x7F80 with ((2 ^ 8 - 1) * 2 ^ 7).
    rewrite land_field by lia. apply enc_exp; lia.
  - unfold Bfloat.Frac. change 0x7F with (2 ^ 7 - 1). rewrite land_ones_mod by lia.
    apply (enc_low 7 8); lia.
Qed.

Lemma Big_correct f : 0 <= f < 2 ^ 16 ->
  exists x nan, Bfloat.Big f = Ret (x, nan) /\ Facts16.decoded x 8 /\
  match ieee 7 8 f with
  | VNaN s => nan = true /\ bval x = VNum s 0
  | v => nan = false /\ bval x = v
  end.
Proof.
  intros Hf. destruct (fields f Hf) as (s & E & F & HE & HF & Ef & Es & Ee & Eff).
  unfold Bfloat.Big. rewrite Es, Ee, Eff.
  assert (Hi : ieee 7 8 f = ieee_parts 7 8 s E F) by (rewrite Ef; apply ieee_enc; lia).
  rewrite Hi. unfold ieee_parts.
  assert (Hz : forall b : bool, Facts16.decoded (if b then
      BigFloat.NegSelf (BigFloat.SetMode (BigFloat.SetPrec BigFloat.NewFloat0 Bfloat.precision) BigFloat.ToNearestEven)
      else BigFloat.SetMode (BigFloat.SetPrec BigFloat.NewFloat0 Bfloat.precision) BigFloat.ToNearestEven) 8).
  { intros []; repeat split; try reflexivity; cbn; unfold MaxPrec, Bfloat.precision; lia. }
  change (2 ^ 8 - 1) with 255.
  destruct (Z.eqb_spec E 255) as [e1|e1].
  - destruct (Z.eqb_spec F 0) as [f0|f0].
    + eexists _, _. split; [reflexivity|]. split; [repeat split; try reflexivity; cbn; unfold MaxPrec, Bfloat.precision; lia|].
      split; reflexivity.
    + eexists _, _. split; [reflexivity|]. split; [apply Hz|]. split; [reflexivity|].
      destruct s; reflexivity.
  - destruct (Z.eqb_spec E 0) as [e0|e0].
    + destruct (Z.eqb_spec F 0) as [f0|f0].
      * eexists _, _. split; [reflexivity|]. split; [apply Hz|]. split; [reflexivity|].
        rewrite f0, Rmult_0_l, sgnR_0. destruct s; reflexivity.
      * destruct (Parse_correct (BigFloat.SetMode (BigFloat.SetPrec BigFloat.NewFloat0 Bfloat.precision) BigFloat.ToNearestEven)
          s 0 (fmt_b 7 F) 7 F (-126)) as (r & Hr & Hv & Hw & Hp & Hm & Ha & Hn);
          try lia; try (apply fmt_b_text; lia); try (cbn; unfold MaxPrec, Bfloat.precision; lia).
        unfold sign_text in Hr. rewrite Hr. eexists _, _. split; [reflexivity|].
        split; [repeat split; try apply Hw; assumption|]. split; [reflexivity|].
        rewrite Hv. reflexivity.
    + destruct (Parse_correct (BigFloat.SetMode (BigFloat.SetPrec BigFloat.NewFloat0 Bfloat.precision) BigFloat.ToNearestEven)
          s 1 (fmt_b 7 F) 7 F (E - Bfloat.bias)) as (r & Hr & Hv & Hw & Hp & Hm & Ha & Hn);
          try lia; try (apply fmt_b_text; lia); try (cbn; unfold MaxPrec, Bfloat.bias, Bfloat.precision; lia).
      unfold sign_text in Hr. rewrite Hr. eexists _, _. split; [reflexivity|].
      split; [repeat split; try apply Hw; assumption|]. split; [reflexivity|].
      rewrite Hv. unfold Bfloat.bias. do 3 f_equal.
Qed.

(** A bfloat is the upper half of a float32. *)
Lemma bf_f32 b : 0 <= b < 2 ^ 16 -> ieee 7 8 b = ieee 23 8 (b * 2 ^ 16).
Proof.
  intros Hb. destruct (fields b Hb) as (s & E & F & HE & HF & Ef & _). rewrite Ef.
  replace (enc 7 8 s E F * 2 ^ 16) with (enc 23 8 s E (F * 2 ^ 16)) by (unfold enc; destruct s; simpl Z.b2z; lia).
  rewrite !ieee_enc by lia. unfold ieee_parts.
  replace (F * 2 ^ 16 =? 0) with (F =? 0) by (destruct (Z.eqb_spec F 0), (Z.eqb_spec (F * 2 ^ 16) 0); lia).
  destruct (E =? 2 ^ 8 - 1); [reflexivity|].
  destruct (E =? 0); do 2 f_equal.
  - rewrite scale_R by lia. do 2 f_equal.
  - replace (2 ^ 23 + F * 2 ^ 16) with ((2 ^ 7 + F) * 2 ^ 16) by lia.
    rewrite scale_R by lia. do 2 f_equal. lia.
Qed.

Lemma value_fits b s v : 0 <= b < 2 ^ 16 -> ieee 7 8 b = VNum s v -> fits 7 8 v.
Proof. intros Hb H. apply (fits_ieee 7 8 b s v ltac:(lia) ltac:(lia) Hb H). Qed.
