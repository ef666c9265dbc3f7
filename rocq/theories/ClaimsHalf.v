(** Printing at 16 bits: every float64 prints as the half precision number NewFromFloat64 makes of it. *)
From Coq Require Import ZArith Reals String List Bool Lia Lra.
From Flocq Require Import Core.
From Verif Require Import GoBase Spec SpecText SpecDec SpecFtoa SpecFmt BitFacts RoundFacts IeeeFacts BigFacts BigFacts2.
From Verif Require Import FtoaAll.
From Verif Require Facts16 Binary16 BigFloat.
From Verif Require Import ExtFloat Ftoa.
Import ListNotations.
Open Scope Z_scope.

Lemma c66_as : forall b val', 0 <= b < 2 ^ 16 -> 0 <= val' < 2 ^ 64 -> ieee 52 11 val' = ieee 10 5 b ->
  forall s v, ieee 10 5 b = VNum s v -> as_float 16 val' 10 5 b s.
Proof.
  intros b val' Hb Hv E s v Eb. split; [exact Hv|]. split; [exact Hb|]. exists v.
  destruct (fits_ieee 10 5 b s v ltac:(lia) ltac:(lia) Hb Eb) as [F _].
  split; [congruence|]. split; [rewrite (fits_round 10 5 s v ltac:(lia) F); exact Eb|].
  right. right. auto 6.
Qed.

Lemma c66 : forall val, 0 <= val < 2 ^ 64 ->
  exists b a val', Binary16.NewFromFloat64 val = Ret (b, a) /\ 0 <= b < 2 ^ 16 /\
    Binary16.Float64 b = Ret (val', BigFloat.Exact) /\ 0 <= val' < 2 ^ 64 /\ ieee 52 11 val' = ieee 10 5 b /\
    (forall w opt dst fmt prec, w = 32 \/ w = 64 ->
       AppendFloat w opt dst val fmt prec 16 = AppendFloat w opt dst val' fmt prec 16) /\
    (forall s v, ieee 10 5 b = VNum s v -> as_float 16 val' 10 5 b s).
Proof.
  intros val Hv. destruct (Facts16.nff64_total val Hv) as (b & a & E & Hb).
  destruct (Facts16.Float64_correct b Hb) as (val' & E' & Hv' & Hi).
  exists b, a, val'. split; [exact E|]. split; [exact Hb|]. split; [exact E'|]. split; [exact Hv'|]. split; [exact Hi|].
  split; [|exact (c66_as b val' Hb Hv' Hi)].
  intros w opt dst fmt prec Hw. unfold AppendFloat.
  pose proof (Facts16.back64 b val' Hb Hv' Hi) as K.
  assert (S : select val 16 = Ret (b, float16info)) by (unfold select; rewrite E; reflexivity).
  assert (F16 : format_of float16info 10 5) by (left; auto).
  pose proof (decode w val 16 b float16info 10 5 Hw F16 Hb S) as D.
  destruct (ieee 10 5 b) as [s|s|s v] eqn:Eb.
  2,3: unfold genericFtoa; rewrite S; unfold select; cbn [Z.eqb Pos.eqb]; rewrite K; reflexivity.
  rewrite D. set (c := if s then Binary16.NegNaN else Binary16.NaN) in K.
  assert (S' : select val' 16 = Ret (c, float16info)) by (unfold select; cbn [Z.eqb Pos.eqb]; rewrite K; reflexivity).
  pose proof (decode w val' 16 c float16info 10 5 Hw F16 ltac:(unfold c; destruct s; vm_compute; split; congruence) S') as D'.
  unfold c in D'. rewrite Facts16.nan_pattern in D'. rewrite D'. reflexivity.
Qed.
