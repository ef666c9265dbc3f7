(** Changing the sign of the argument (C72): the conversions to and from big.Float. *)
From Coq Require Import ZArith Lia Bool List Reals Lra.
From Verif Require Import GoBase Spec SpecSign BitFacts.
From Verif Require BigFloat Binary16 Binary128 Float80x86.
Import BigFloat (bigfloat, mkBF, prec, rmode, neg, frm, Finite, Zero, Inf, Below, Exact, Above).
Open Scope Z_scope.

(** The bits of the mantissa fit into the precision, so that [round] changes nothing but the
    representation. *)
Definition mant_fits (x : bigfloat) : Prop :=
  match frm x with Finite m e => 0 < m /\ exists m' j, m = m' * 2 ^ j /\ 0 <= j /\ m' < 2 ^ prec x | _ => True end.

Lemma wf_fits x : wf x -> mant_fits x.
Proof. intros [_ H]. unfold mant_fits. destruct (frm x); tauto. Qed.

Lemma wf_opp x : wf x -> wf (opp x).
Proof. intros H. exact H. Qed.

Lemma fits_exact m m' j p : 0 < m -> 0 <= p -> m = m' * 2 ^ j -> 0 <= j -> m' < 2 ^ p ->
  p < BigFloat.bitlen m -> m mod 2 ^ (BigFloat.bitlen m - p) = 0.
Proof.
  intros Hm Hp -> Hj Hm' Hb. pose proof (Z.pow_pos_nonneg 2 j ltac:(lia) Hj) as H2.
  assert (0 < m') by nia.
  unfold BigFloat.bitlen in *. rewrite Z.log2_mul_pow2 in * by lia.
  pose proof (Z.log2_lt_pow2 m' p ltac:(lia)) as HL. destruct HL as [HL _]. specialize (HL Hm').
  set (k := _ + 1 - p) in *. assert (0 <= k <= j) by (unfold k; lia).
  replace j with ((j - k) + k) by lia. rewrite Z.pow_add_r by lia. rewrite Z.mul_assoc. apply Z.mod_mul.
  pose proof (Z.pow_pos_nonneg 2 k). lia.
Qed.

(** [round] does not look at the sign of such numbers. *)
Lemma round_sign p r a n a' n' r' f : 0 <= p -> mant_fits (mkBF p r a n f) ->
  frm (BigFloat.round (mkBF p r a n f)) = frm (BigFloat.round (mkBF p r' a' n' f)) /\
  prec (BigFloat.round (mkBF p r a n f)) = p /\ neg (BigFloat.round (mkBF p r a n f)) = n.
Proof.
  intros Hp H. unfold mant_fits in H. cbn in H. unfold BigFloat.round. cbn [frm prec rmode neg].
  destruct f as [|m e|]; cbn; [auto| |auto].
  destruct H as (Hm & m' & j & E & Hj & Hm').
  destruct (_ <=? _) eqn:B; cbn; [auto|]. apply Z.leb_gt in B.
  rewrite (fits_exact m m' j p Hm Hp E Hj Hm' B). cbn. auto.
Qed.

Lemma SME_sign p r a n f a' n' k : 0 <= p -> mant_fits (mkBF p r a n f) ->
  let z := BigFloat.SetMantExpSelf (mkBF p r a n f) k in
  frm z = frm (BigFloat.SetMantExpSelf (mkBF p r a' n' f) k) /\ prec z = p /\ neg z = n.
Proof.
  intros Hp H. cbv zeta. unfold BigFloat.SetMantExpSelf. cbn [frm].
  destruct f as [|m e|]; [cbn; auto| |cbn; auto].
  unfold BigFloat.setExpAndRound. cbn [prec rmode neg].
  destruct (_ <? _); [cbn; auto|]. destruct (_ <? _); [cbn; auto|].
  unfold BigFloat.set_frm. cbn [prec rmode BigFloat.acc neg].
  apply round_sign; assumption.
Qed.

Definition positive (z : bigfloat) : bigfloat := if BigFloat.Signbit z then BigFloat.NegSelf z else z.
Lemma positive_neg z : neg (positive z) = false /\ frm (positive z) = frm z /\ prec (positive z) = prec z.
Proof. unfold positive, BigFloat.Signbit. destruct z as [p r a n f]. destruct n; cbn; auto. Qed.

Lemma Uint64_frm y z : neg y = neg z -> frm y = frm z -> BigFloat.Uint64 y = BigFloat.Uint64 z.
Proof. intros N F. unfold BigFloat.Uint64, BigFloat.MinPrec. rewrite N, F. reflexivity. Qed.
Lemma IsInt_frm y z : prec y = prec z -> frm y = frm z -> BigFloat.IsInt y = BigFloat.IsInt z.
Proof. intros N F. unfold BigFloat.IsInt, BigFloat.MinPrec. rewrite N, F. reflexivity. Qed.
Lemma Int_frm y z : neg y = neg z -> frm y = frm z -> BigFloat.Int y = BigFloat.Int z.
Proof. intros N F. unfold BigFloat.Int. rewrite N, F. reflexivity. Qed.

(** The two orders in which the functions make the mantissa positive. *)
Lemma after x k : wf x -> let M y := fst (BigFloat.MantExp y) in
  BigFloat.Uint64 (positive (BigFloat.SetMantExpSelf (M (opp x)) k)) = BigFloat.Uint64 (positive (BigFloat.SetMantExpSelf (M x) k)) /\
  BigFloat.Int (positive (BigFloat.SetMantExpSelf (M (opp x)) k)) = BigFloat.Int (positive (BigFloat.SetMantExpSelf (M x) k)) /\
  BigFloat.Uint64 (BigFloat.SetMantExpSelf (positive (M (opp x))) k) = BigFloat.Uint64 (BigFloat.SetMantExpSelf (positive (M x)) k) /\
  BigFloat.Int (BigFloat.SetMantExpSelf (positive (M (opp x))) k) = BigFloat.Int (BigFloat.SetMantExpSelf (positive (M x)) k) /\
  BigFloat.IsInt (BigFloat.SetMantExpSelf (positive (M (opp x))) k) = BigFloat.IsInt (BigFloat.SetMantExpSelf (positive (M x)) k).
Proof.
  intros W M. pose proof (wf_fits x W) as F. destruct W as [[P _] _].
  destruct x as [p r a n f]. cbn [prec] in P.
  assert (Q : forall n' n'', let z := BigFloat.SetMantExpSelf (M (mkBF p r a n' f)) k in
    frm z = frm (BigFloat.SetMantExpSelf (M (mkBF p r a n'' f)) k) /\ prec z = p /\ neg z = n').
  { intros n' n''. unfold M, BigFloat.MantExp. cbn [frm]. unfold mant_fits in F. cbn in F.
    destruct f as [|m e|]; cbn [fst]; try (apply SME_sign; [exact P|exact I]).
    unfold BigFloat.set_frm. cbn [prec rmode BigFloat.acc neg]. apply SME_sign; [exact P|]. exact F. }
  assert (PM : forall n', positive (M (mkBF p r a n' f)) = M (mkBF p r a false f)).
  { intros n'. unfold M, BigFloat.MantExp, positive, BigFloat.Signbit. cbn [frm].
    destruct f; destruct n'; reflexivity. }
  change (opp (mkBF p r a n f)) with (mkBF p r a (negb n) f). rewrite !PM.
  destruct (Q (negb n) n) as (Q1 & Q2 & Q3). destruct (Q n n) as (_ & R2 & R3).
  set (y := BigFloat.SetMantExpSelf _ k) in *. set (z := BigFloat.SetMantExpSelf (M (mkBF p r a n f)) k) in *.
  destruct (positive_neg y) as (N1 & N2 & N3). destruct (positive_neg z) as (Z1 & Z2 & Z3).
  split; [apply Uint64_frm; congruence|]. split; [apply Int_frm; congruence|]. auto.
Qed.

Lemma Cmp_opp x y : frm y = Zero -> BigFloat.Cmp (opp x) y = - BigFloat.Cmp x y.
Proof.
  intros Y. unfold BigFloat.Cmp, BigFloat.ord. rewrite Y. unfold opp. cbn [frm neg].
  destruct (neg y); destruct x as [p r a n f]; cbn [neg frm]; destruct n, f; reflexivity.
Qed.

Lemma MantExp_opp x : snd (BigFloat.MantExp (opp x)) = snd (BigFloat.MantExp x).
Proof. unfold BigFloat.MantExp. destruct x as [p r a n f]. destruct f; reflexivity. Qed.
