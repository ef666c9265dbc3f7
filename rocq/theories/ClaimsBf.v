(** The lemmas behind the bfloat theorems and those on widening conversions. *)
From Coq Require Import ZArith Reals Lia Lra Bool List String.
From Flocq Require Import Core.
From Verif Require Import GoBase.
From Verif Require BigFloat Bfloat Binary16 Binary128 Float80x86.
From Verif Require Import Spec BitFacts RoundFacts IeeeFacts BigFacts BigFacts2 FmtFacts PkgFacts.
From Verif Require Import FactsBf.
From Verif Require Facts16 Facts128 Facts80 Claims16.
Import BigFloat (bitlen, gexp, prec, rmode, acc, neg, frm, Finite, MaxExp, MinExp, MaxPrec).
Open Scope Z_scope.

(** A big.Float that is a number of a narrower format is kept by every wider one. *)
Lemma widen128 x s v mb eb : wf x -> bval x = VNum s v -> mb <= 112 -> 1 <= eb <= 15 -> fits mb eb v ->
  exists q, Binary128.NewFromBig x = Ret (q, BigFloat.Exact) /\ Facts128.ok q /\ Facts128.value q = VNum s v.
Proof.
  intros Hw Hv Hm He Hf. apply Facts128.NewFromBig_fits; [exact Hw|exact Hv|].
  apply fits_mono with (3 := Hf); lia.
Qed.

Lemma widen80 x s v mb eb : wf x -> bval x = VNum s v -> mb <= 63 -> 1 <= eb <= 15 -> fits mb eb v ->
  exists q, Float80x86.NewFromBig x = (q, BigFloat.Exact) /\ Facts80.ok q /\ Facts80.canon q /\ Facts80.value q = VNum s v.
Proof.
  intros Hw Hv Hm He Hf. apply Facts80.NewFromBig_fits; [exact Hw|exact Hv|].
  apply fits_mono with (3 := Hf); lia.
Qed.

(** The two wide formats from a big.Float holding an IEEE value. *)
Lemma wide_of x mb eb b : 0 <= mb <= 63 -> 2 <= eb <= 15 -> 0 <= b < 2 ^ (mb + eb + 1) -> wf x ->
  bval x = ieee mb eb b ->
  exists q e, Binary128.NewFromBig x = Ret (q, BigFloat.Exact) /\ Facts128.ok q /\ Facts128.value q = ieee mb eb b /\
    Float80x86.NewFromBig x = (e, BigFloat.Exact) /\ Facts80.ok e /\ Facts80.canon e /\ Facts80.value e = ieee mb eb b.
Proof.
  intros Hm He Hb Hw Hv. rewrite <- Hv. destruct (bval x) as [s|s|s v] eqn:Ex.
  - unfold bval in Ex. destruct (frm x); discriminate.
  - pose proof (Facts128.NewFromBig_special x) as H1. pose proof (Facts80.NewFromBig_special x) as H2.
    rewrite Ex in H1, H2. destruct (Facts128.inf_pattern s) as [A1 A2]. destruct (Facts80.inf_pattern s) as (B1 & B2 & B3).
    eexists _, _. split; [exact H1|]. split; [exact A2|]. split; [exact A1|].
    split; [exact H2|]. split; [exact B2|]. split; [exact B3|]. exact B1.
  - pose proof (fits_ieee mb eb b s v ltac:(lia) ltac:(lia) Hb (eq_sym Hv)) as [Hf _].
    destruct (widen128 x s v mb eb Hw Ex ltac:(lia) ltac:(lia) Hf) as (q & Q1 & Q2 & Q3).
    destruct (widen80 x s v mb eb Hw Ex ltac:(lia) ltac:(lia) Hf) as (e & E1 & E2 & E3 & E4).
    exists q, e. auto 10.
Qed.

Lemma c22_fields : forall b, 0 <= b < 2 ^ 16 ->
  let f := Bfloat.NewFromBits b in
  0 <= Bfloat.Exp f < 2 ^ 8 /\ 0 <= Bfloat.Frac f < 2 ^ 7 /\
  Z.b2z (Bfloat.Signbit f) * 2 ^ 15 + Bfloat.Exp f * 2 ^ 7 + Bfloat.Frac f = b.
Proof.
  intros b Hb f. destruct (fields b Hb) as (s & E & F & HE & HF & Ef & HS & HX & HY).
  unfold f, Bfloat.NewFromBits. rewrite HS, HX, HY. rewrite Ef. unfold enc. lia.
Qed.

Lemma c22 : forall b, 0 <= b < 2 ^ 16 ->
  exists x nan, Bfloat.Big (Bfloat.NewFromBits b) = Ret (x, nan) /\
    wf x /\ prec x = 8 /\ rmode x = BigFloat.ToNearestEven /\ acc x = BigFloat.Exact /\
    ieee 7 8 b = ieee 23 8 (b * 2 ^ 16) /\
    match ieee 23 8 (b * 2 ^ 16) with
    | VNaN s => nan = true /\ bval x = VNum s 0
    | v => nan = false /\ bval x = v
    end.
Proof.
  intros b Hb. destruct (Big_correct b Hb) as (x & nan & HB & (H1 & H2 & H3 & H4) & Hv).
  rewrite bf_f32 in Hv by exact Hb. pose proof (bf_f32 b Hb). exists x, nan. auto 10.
Qed.

Lemma c58 : forall b, 0 <= b < 2 ^ 16 -> (forall s, ieee 7 8 b <> VNaN s) ->
  exists x d q e, Bfloat.Big (Bfloat.NewFromBits b) = Ret (x, false) /\
    BigFloat.Float32 x = (b * 2 ^ 16, BigFloat.Exact) /\
    BigFloat.Float64 x = (d, BigFloat.Exact) /\ ieee 52 11 d = ieee 7 8 b /\
    Binary128.NewFromBig x = Ret (q, BigFloat.Exact) /\ quad (Binary128.fa q) (Binary128.fb q) = ieee 7 8 b /\
    Float80x86.NewFromBig x = (e, BigFloat.Exact) /\ x87 (Float80x86.se e) (Float80x86.m e) = ieee 7 8 b.
Proof.
  intros b Hb Hn. destruct (Big_correct b Hb) as (x & nan & HB & (Hw & _) & Hv).
  assert (V : nan = false /\ bval x = ieee 7 8 b).
  { destruct (ieee 7 8 b) eqn:E; [exfalso; eapply Hn; reflexivity|exact Hv..]. }
  destruct V as [-> V]. clear Hv.
  destruct (wide_of x 7 8 b ltac:(lia) ltac:(lia) Hb Hw V) as (q & e & Q1 & _ & Q3 & E1 & _ & _ & E4).
  assert (HF : BigFloat.Float32 x = (b * 2 ^ 16, BigFloat.Exact)).
  { apply ToFloat_of_ieee; try (unfold MaxExp; lia); [exact Hw|]. rewrite V. apply bf_f32. exact Hb. }
  assert (HD : exists d, BigFloat.Float64 x = (d, BigFloat.Exact) /\ ieee 52 11 d = ieee 7 8 b).
  { destruct (ieee 7 8 b) as [s|s|s v] eqn:E; [exfalso; eapply Hn; reflexivity| |].
    - pose proof (ToFloat_val 52 11 x ltac:(lia) ltac:(lia) ltac:(unfold MaxExp; lia) Hw) as H.
      unfold BigFloat.Float64. destruct (BigFloat.ToFloat 52 11 x) as [d a]. rewrite V in H.
      exists d. destruct H as (_ & H1 & ->). auto.
    - pose proof (ToFloat_exact 52 11 x s v ltac:(lia) ltac:(lia) ltac:(unfold MaxExp; lia) Hw V) as H.
      unfold BigFloat.Float64. destruct (BigFloat.ToFloat 52 11 x) as [d a].
      exists d. destruct H as (_ & H1 & ->); [|auto].
      apply fits_mono with 7 8; try lia. exact (value_fits b s v Hb E). }
  destruct HD as (d & D1 & D2). exists x, d, q, e. auto 12.
Qed.

Lemma c59 : forall f, 0 <= f < 2 ^ 16 -> (forall s, ieee 10 5 f <> VNaN s) ->
  exists x d g q e,
    Binary16.Big f = Ret (x, false) /\
    Binary16.Float64 f = Ret (d, BigFloat.Exact) /\ Binary16.Float32 f = Ret (g, BigFloat.Exact) /\
    Binary128.NewFromBig x = Ret (q, BigFloat.Exact) /\
    Binary128.NewFromFloat64 d = Ret (q, BigFloat.Exact) /\
    Binary128.NewFromFloat32 g = Ret (q, BigFloat.Exact) /\
    quad (Binary128.fa q) (Binary128.fb q) = ieee 10 5 f /\
    Float80x86.NewFromBig x = (e, BigFloat.Exact) /\
    Float80x86.NewFromFloat64 d = Ret (e, BigFloat.Exact) /\
    Float80x86.NewFromFloat32 g = Ret (e, BigFloat.Exact) /\
    x87 (Float80x86.se e) (Float80x86.m e) = ieee 10 5 f.
Proof.
  intros f Hf Hn. destruct (Facts16.Big_correct f Hf) as (x & nan & HB & (Hw & _) & Hv).
  assert (V : nan = false /\ bval x = ieee 10 5 f).
  { destruct (ieee 10 5 f) eqn:E; [exfalso; eapply Hn; reflexivity|exact Hv..]. }
  destruct V as [-> V]. clear Hv.
  destruct (wide_of x 10 5 f ltac:(lia) ltac:(lia) Hf Hw V) as (q & e & Q1 & Q2 & Q3 & E1 & E2 & E3 & E4).
  destruct (Claims16.c04 f Hf) as (d & g & D1 & D2 & D3 & G1 & G2 & G3 & _).
  destruct (Facts128.nff64_correct d D2) as (q1 & N1 & O1 & V1 & _).
  destruct (f32_to_f64_correct g G2) as [R1 R2]. rewrite G3 in R2.
  destruct (Facts128.nff64_correct _ R1) as (q2 & N2 & O2 & V2 & _).
  destruct (Facts80.nff64_correct d D2) as (e1 & M1 & P1 & W1 & C1).
  destruct (Facts80.nff64_correct _ R1) as (e2 & M2 & P2 & W2 & C2).
  rewrite D3 in V1, W1, C1. rewrite R2 in V2, W2, C2.
  assert (q1 = q) by (apply Facts128.value_inj; try assumption; [intros s; rewrite V1; apply Hn|congruence]).
  assert (q2 = q) by (apply Facts128.value_inj; try assumption; [intros s; rewrite V2; apply Hn|congruence]).
  assert (CC : Facts80.canon e1 /\ Facts80.canon e2).
  { destruct (ieee 10 5 f) eqn:E; [exfalso; eapply Hn; reflexivity|auto..]. }
  destruct CC.
  assert (e1 = e) by (apply Facts80.value_inj; try assumption; congruence).
  assert (e2 = e) by (apply Facts80.value_inj; try assumption; congruence).
  subst q1 q2 e1 e2.
  exists x, d, g, q, e. rewrite Facts128.nff32_eq, Facts80.nff32_eq by exact G2.
  repeat (split; [assumption|]). exact E4.
Qed.

Lemma c59_80 : forall a b, 0 <= a < 2 ^ 16 -> 0 <= b < 2 ^ 64 -> (forall s, x87 a b <> VNaN s) ->
  exists x q y e,
    Float80x86.Big (Float80x86.NewFromBits a b) = Ret (x, false) /\
    Binary128.NewFromBig x = Ret (q, BigFloat.Exact) /\
    quad (Binary128.fa q) (Binary128.fb q) = x87 a b /\
    Binary128.Big q = Ret (y, false) /\ Float80x86.NewFromBig y = (e, BigFloat.Exact) /\
    x87 (Float80x86.se e) (Float80x86.m e) = x87 a b.
Proof.
  intros a b Ha Hb Hn. set (f := Float80x86.NewFromBits a b).
  assert (Hf : Facts80.ok f) by (split; assumption).
  destruct (Facts80.Big_correct f Hf) as (x & nan & HB & (Hw & _) & Hv).
  assert (V : nan = false /\ bval x = Facts80.value f).
  { destruct (Facts80.value f) eqn:E; [exfalso; eapply Hn; exact E|exact Hv..]. }
  destruct V as [-> V]. clear Hv.
  assert (Q : exists q, Binary128.NewFromBig x = Ret (q, BigFloat.Exact) /\ Facts128.ok q /\ Facts128.value q = Facts80.value f).
  { destruct (Facts80.value f) as [s|s|s v] eqn:E; [exfalso; eapply Hn; exact E| |].
    - pose proof (Facts128.NewFromBig_special x) as H1. rewrite V in H1.
      destruct (Facts128.inf_pattern s) as [A1 A2]. eexists. eauto.
    - apply (widen128 x s v 63 15); try lia; try assumption. exact (Facts80.value_fits f s v Hf E). }
  destruct Q as (q & Q1 & Q2 & Q3).
  destruct (Facts128.Big_correct q Q2) as (y & nan & HY & (Wy & _) & Hv).
  assert (V' : nan = false /\ bval y = Facts80.value f).
  { rewrite Q3 in Hv. destruct (Facts80.value f) eqn:E; [exfalso; eapply Hn; exact E|exact Hv..]. }
  destruct V' as [-> V'].
  destruct (Facts80.NewFromBig_of y f Wy Hf V') as (e & E1 & _ & _ & E4 & _).
  exists x, q, y, e. auto 10.
Qed.

