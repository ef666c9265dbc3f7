(** The lemmas behind C82: shifts add up. *)
From Coq Require Import ZArith Reals List Bool Lia Lra.
From Verif Require Import GoBase Spec SpecText SpecDec BitFacts DecFacts DecFacts2 ClaimsDec.
From Verif Require Decimal.
Open Scope Z_scope.

Lemma kept w a k b : w = 32 \/ w = 64 -> dnorm a -> Decimal.Shift w a k = Ret b -> Decimal.trunc b = false ->
  dnorm b /\ Decimal.trunc a = false /\ dval b = (dval a * p2 k)%R.
Proof.
  intros Hw Na HS HT. destruct (c40_trunc w a k Hw Na) as (b' & HS' & Nb & T & _ & Hle).
  rewrite HS in HS'. assert (b' = b) by congruence. subst b'. split; [exact Nb|].
  assert (X : ~ (Decimal.trunc a = true \/ (dval b < dval a * p2 k)%R)) by (intros X; apply T in X; congruence).
  split.
  - destruct (Decimal.trunc a); [exfalso; apply X; auto|reflexivity].
  - destruct (Rle_lt_or_eq_dec _ _ Hle) as [L|L]; [exfalso; apply X; auto|exact L].
Qed.

Lemma same_decimal a b : dnorm a -> dnorm b -> dval a = dval b -> Decimal.trunc a = Decimal.trunc b -> a = b.
Proof.
  intros Na Nb V T. destruct (c39_unique a b Na Nb V) as [D P]. destruct a, b. cbn in *. subst. reflexivity.
Qed.

Lemma c82_add : forall w a j k b c, w = 32 \/ w = 64 -> dnorm a ->
  Decimal.Shift w a j = Ret b -> Decimal.Shift w b k = Ret c -> Decimal.trunc c = false ->
  Decimal.Shift w a (j + k) = Ret c.
Proof.
  intros w a j k b c Hw Na HB HC HT.
  assert (Nb : dnorm b).
  { destruct (c40_trunc w a j Hw Na) as (b' & HS' & Nb & _). rewrite HB in HS'. congruence. }
  destruct (kept w b k c Hw Nb HC HT) as (Nc & Tb & Vc). destruct (kept w a j b Hw Na HB Tb) as (_ & Ta & Vb).
  assert (V : (dval a * p2 (j + k) = dval c)%R) by (rewrite Vc, Vb, p2_plus; ring).
  destruct (c40_exact w a (j + k) Hw Na Ta) as (c' & E & Nc' & Tc' & Vc').
  { rewrite V. apply dnorm_sig. exact Nc. }
  rewrite E. f_equal. apply same_decimal; congruence.
Qed.

Lemma c82_back : forall w a k b, w = 32 \/ w = 64 -> dnorm a ->
  Decimal.Shift w a k = Ret b -> Decimal.trunc b = false -> Decimal.Shift w b (- k) = Ret a.
Proof.
  intros w a k b Hw Na HB HT. destruct (kept w a k b Hw Na HB HT) as (Nb & Ta & Vb).
  assert (V : (dval b * p2 (- k) = dval a)%R).
  { rewrite Vb, Rmult_assoc, <- p2_plus, Z.add_opp_diag_r. change (p2 0) with 1%R. ring. }
  destruct (c40_exact w b (- k) Hw Nb HT) as (a' & E & Na' & Ta' & Va').
  { rewrite V. apply dnorm_sig. exact Na. }
  rewrite E. f_equal. apply same_decimal; congruence.
Qed.

(** Where digits are lost: 1 shifted by -1200 and back. *)
Lemma c82_lost : exists a b c, dnorm a /\ Decimal.Shift 64 a (-1200) = Ret b /\ Decimal.Shift 64 b 1200 = Ret c /\
  Decimal.d c <> Decimal.d a.
Proof.
  exists (Decimal.mkDec (1 :: nil) 1 false). eexists _, _. split; [|split; [vm_compute; reflexivity|split; [vm_compute; reflexivity|vm_compute; discriminate]]].
  unfold dnorm, digits_ok, no_lead0, no_trail0. cbn. repeat split; try lia; try discriminate. repeat constructor; lia.
Qed.
