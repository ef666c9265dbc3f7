(** C101-C103. *)
From Coq Require Import ZArith Reals List Bool Lia Lra Arith.
From Flocq Require Import Core.
From Verif Require Import GoBase BigFloat GoFmt Spec BitFacts RoundFacts BigFacts2 PkgFacts FactsPpc ClaimsPpc Host ClaimsRep
  Pointers ClaimsPtr Pointers2 PtrFacts2 Calls.
From Verif Require Binary16 Binary128 Float80x86 Float128ppc Bfloat FloatPkg.
Import ListNotations.
Open Scope Z_scope.

(** x has an infinite value or one of at most 106 bits. *)
Definition short (x : bigfloat) : Prop :=
  forall s v, bval x = VNum s v -> exists m e, v = (IZR m * p2 e)%R /\ Z.abs m < 2 ^ 106.

Lemma short_rnd md v : (exists m e, v = (IZR m * p2 e)%R /\ Z.abs m < 2 ^ 106) -> rnd_prec md 106 v = v.
Proof.
  intros (m & e & -> & Hm). unfold rnd_prec. pose proof (valid_mode_rnd md). apply round_generic; [assumption|].
  apply generic_format_FLX. exists (Defs.Float radix2 m e); [unfold F2R; cbn [Fnum Fexp]; reflexivity|exact Hm].
Qed.

Lemma rnd_short md v : exists m e, rnd_prec md 106 v = (IZR m * p2 e)%R /\ Z.abs m < 2 ^ 106.
Proof.
  unfold rnd_prec. pose proof (valid_mode_rnd md).
  assert (G : generic_format radix2 (FLX_exp 106) (Generic_fmt.round radix2 (FLX_exp 106) (mode_rnd md) v)).
  { apply generic_format_round; [apply FLX_exp_valid; reflexivity|assumption]. }
  apply FLX_format_generic in G; [|reflexivity]. destruct G as [[m e] E1 E2].
  exists m, e. rewrite E1. split; [reflexivity|exact E2].
Qed.

(** What is left in *x. *)
Lemma ppc_state x f a x' : wf x -> Float128ppc.NewFromBig x = Ret (f, a, x') ->
  wf x' /\ short x' /\ (short x -> bval x' = bval x) .
Proof.
  intros W E. destruct (bval x) as [s|s|s v] eqn:Bx.
  - exfalso. unfold bval in Bx. destruct (frm x); discriminate.
  - destruct (bval_inf x s Bx) as [F N].
    unfold Float128ppc.NewFromBig, BigFloat.IsInf in E. rewrite F in E.
    assert (x' = x) as -> by (destruct (Signbit x); congruence). split; [exact W|]. split; [|auto]. intros t u Q. congruence.
  - destruct (Req_dec v 0) as [->|Nv].
    { rewrite (ClaimsPpc.zero_of x s W Bx) in E. assert (x' = x) as -> by congruence. split; [exact W|]. split; [|auto].
      intros t u Q. assert (u = 0%R) as -> by congruence. exists 0, 0. split; [lra|reflexivity]. }
    destruct (Rlt_or_le (Rabs (rn 52 11 (rnd_prec (rmode x) 106 v))) (p2 1024)) as [L|L].
    + destruct (NewFromBig_num x s v W Bx Nv L) as (h & l & t & Q & _ & _ & _ & _ & _ & W' & B' & _).
      rewrite E in Q. assert (x' = x106 x) as -> by congruence. split; [exact W'|]. split.
      * intros t' u Q'. rewrite B' in Q'. assert (u = rnd_prec (rmode x) 106 v) as -> by congruence. apply rnd_short.
      * intros S. rewrite B'. f_equal. apply short_rnd. eapply S. eassumption.
    + rewrite (NewFromBig_overflow x s v W Bx L) in E. discriminate.
Qed.

Lemma ppc_same x y : wf x -> wf y -> bval x = bval y -> short x ->
  match Float128ppc.NewFromBig x, Float128ppc.NewFromBig y with
  | Ret (f, a, _), Ret (g, b, _) => f = g /\ a = b
  | Panic, Panic => True
  | _, _ => False
  end.
Proof.
  intros Wx Wy E Sx. destruct (bval x) as [s|s|s v] eqn:Bx; symmetry in E.
  - exfalso. unfold bval in Bx. destruct (frm x); discriminate.
  - destruct (bval_inf x s Bx) as [F N], (bval_inf y s E) as [F' N'].
    unfold Float128ppc.NewFromBig, BigFloat.IsInf, BigFloat.Signbit. rewrite F, F', N, N'. destruct s; auto.
  - destruct (Req_dec v 0) as [->|Nv].
    { rewrite (ClaimsPpc.zero_of x s Wx Bx), (ClaimsPpc.zero_of y s Wy E). auto. }
    assert (M : rnd_prec (rmode x) 106 v = rnd_prec (rmode y) 106 v) by (rewrite !short_rnd by (eapply Sx; eassumption); reflexivity).
    destruct (Rlt_or_le (Rabs (rn 52 11 (rnd_prec (rmode x) 106 v))) (p2 1024)) as [L|L].
    + destruct (FactsPpc.NewFromBig_num x s v Wx Bx Nv L) as (h & l & t & -> & Hh & Hl & Eh & El & St & _). rewrite M in L.
      destruct (FactsPpc.NewFromBig_num y s v Wy E Nv L) as (h' & l' & t' & -> & Hh' & Hl' & Eh' & El' & St' & _).
      rewrite <- M in Eh', El', St'. set (r := rnd_prec (rmode x) 106 v) in *. set (d := (r - rn 52 11 r)%R) in *.
      assert (t = t') as <-.
      { destruct St as (A1 & A2 & A3), St' as (B1 & B2 & B3). destruct (Rtotal_order d 0) as [Q|[Q|Q]]; [rewrite A1, B1|rewrite A3, B3|rewrite A2, B2]; auto. }
      split; [|reflexivity]. f_equal; apply (IeeeFacts.ieee_inj 52 11); try lia; try congruence; rewrite ?Eh, ?El; discriminate.
    + rewrite (FactsPpc.NewFromBig_overflow x s v Wx Bx L). rewrite M in L. rewrite (FactsPpc.NewFromBig_overflow y s v Wy E L). exact I.
Qed.

Lemma alone_same opt x y c : wf x -> wf y -> bval x = bval y -> short x -> alone opt x c = alone opt y c.
Proof.
  intros Wx Wy E Sx. destruct (c86_big 64 x y ltac:(lia) Wx Wy E) as (P1 & P2 & P3).
  destruct (host64 x Wx) as (X1 & X2 & X3), (host64 y Wy) as (Y1 & Y2 & Y3). rewrite X1, Y1 in P1. rewrite X2, Y2 in P2. rewrite X3, Y3 in P3.
  destruct (c86_exact 64 opt 64 opt x y ltac:(lia) ltac:(lia) Wx Wy E) as (Q1 & Q2 & Q3).
  unfold alone. destruct c; rewrite ?P1, ?P2, ?P3, ?Q1, ?Q2, ?Q3; try reflexivity.
  pose proof (ppc_same x y Wx Wy E Sx) as H.
  destruct (Float128ppc.NewFromBig x) as [[[f1 a1] y1]|], (Float128ppc.NewFromBig y) as [[[f2 a2] y2]|]; try contradiction; [|reflexivity].
  destruct H as (-> & ->). reflexivity.
Qed.

(** One call. *)
Lemma call_one opt h x c : (x < next h)%nat ->
  match do_call opt x c h with
  | Ret (a, h') =>
      (next h <= next h')%nat /\ alone opt (cell h x) c = Ret a /\
      (cell h' x = cell h x \/ c = CNewPpc /\ exists f b, Float128ppc.NewFromBig (cell h x) = Ret (f, b, cell h' x))
  | Panic => alone opt (cell h x) c = Panic
  end.
Proof.
  intros Hx.
  assert (K : forall (A : Type) (m : M A) (g : A -> answer) (o : outcome A), okM (next h) m ->
    match m h with Ret (r, _) => Ret r | Panic => Panic end = o ->
    match (r <~ m ;; ret (g r)) h with
    | Ret (a, h') => (next h <= next h')%nat /\ match o with Ret r => Ret (g r) | Panic => Panic end = Ret a /\ cell h' x = cell h x
    | Panic => match o with Ret r => Ret (g r) | Panic => Panic end = Panic
    end).
  { intros A m g o Hm <-. unfold mbind, ret. specialize (Hm h (Nat.le_refl _)). destruct (m h) as [[r h']|]; [|reflexivity].
    destruct Hm as [H1 H2]. split; [exact H1|]. split; [reflexivity|]. apply H2, Hx. }
  destruct c; unfold do_call, alone.
  - pose proof (K _ _ A16 _ (okM16 (next h) x) (c29r_16 h x Hx)) as H.
    destruct (mbind _ _ h) as [[a h']|]; [|exact H]. destruct H as (? & ? & ?). auto.
  - pose proof (K _ _ A80 _ (okM80 (next h) x) (c29r_80 h x Hx)) as H.
    destruct (mbind _ _ h) as [[a h']|]; [|exact H]. destruct H as (? & ? & ?). auto.
  - pose proof (K _ _ A128 _ (okM128 (next h) x) (c29r_128 h x Hx)) as H.
    destruct (mbind _ _ h) as [[a h']|]; [|exact H]. destruct H as (? & ? & ?). auto.
  - pose proof (c102 h x Hx) as H. unfold mbind, ret. destruct (NewFromBigPpc x h) as [[[f a] h']|].
    + destruct H as (H1 & H2 & _). rewrite H2. split; [exact H1|]. split; [reflexivity|]. right. split; [reflexivity|]. eauto.
    + rewrite H. reflexivity.
  - unfold p_IsExact16, mbind, load, ret. destruct (FloatPkg.IsExact16 64 opt (cell h x)); auto.
  - unfold p_IsExact32, mbind, load, ret. destruct (FloatPkg.IsExact32 64 opt (cell h x)); auto.
  - unfold p_IsExact64, mbind, load, ret. destruct (FloatPkg.IsExact64 64 opt (cell h x)); auto.
Qed.

Definition answers (r : outcome (list answer * store)) : outcome (list answer) :=
  match r with Ret (l, _) => Ret l | Panic => Panic end.

Lemma c103_none opt x : forall cs h, (x < next h)%nat -> ~ In CNewPpc cs ->
  answers (do_calls opt x cs h) = all_alone opt (cell h x) cs.
Proof.
  induction cs as [|c cs IH]; intros h Hx Hn; [reflexivity|]. cbn [do_calls all_alone].
  pose proof (call_one opt h x c Hx) as H. unfold mbind, ret. destruct (do_call opt x c h) as [[a h']|]; [|rewrite H; reflexivity].
  destruct H as (H1 & -> & [H3|[-> _]]); [|exfalso; apply Hn; left; reflexivity].
  specialize (IH h' ltac:(lia) ltac:(intros Q; apply Hn; right; exact Q)). rewrite H3 in IH. rewrite <- IH.
  destruct (do_calls opt x cs h') as [[l h'']|]; reflexivity.
Qed.

Lemma c103_short opt x v : wf v -> short v -> forall cs h, (x < next h)%nat -> wf (cell h x) -> bval (cell h x) = bval v ->
  answers (do_calls opt x cs h) = all_alone opt v cs.
Proof.
  intros Wv Sv. induction cs as [|c cs IH]; intros h Hx W E; [reflexivity|]. cbn [do_calls all_alone].
  pose proof (call_one opt h x c Hx) as H. rewrite <- (alone_same opt v (cell h x) c Wv W ltac:(symmetry; exact E) Sv) in H.
  unfold mbind, ret. destruct (do_call opt x c h) as [[a h']|]; [|rewrite H; reflexivity].
  destruct H as (H1 & -> & H3). assert (S : short (cell h x)) by (intros s u Q; rewrite E in Q; apply (Sv s u Q)).
  assert (W' : wf (cell h' x) /\ bval (cell h' x) = bval v).
  { destruct H3 as [->|(_ & f & b & Q)]; [auto|]. destruct (ppc_state _ _ _ _ W Q) as (P1 & _ & P2). split; [exact P1|]. rewrite P2, E by exact S. reflexivity. }
  destruct W' as [W' E']. rewrite <- (IH h' ltac:(lia) W' E').
  destruct (do_calls opt x cs h') as [[l h'']|]; reflexivity.
Qed.

Lemma c103 : forall opt h x cs, (x < next h)%nat -> wf (cell h x) ->
  (~ In CNewPpc cs) \/ (forall s v, bval (cell h x) = VNum s v -> exists m e, v = (IZR m * p2 e)%R /\ Z.abs m < 2 ^ 106) ->
  match do_calls opt x cs h with Ret (l, _) => Ret l | Panic => Panic end = all_alone opt (cell h x) cs.
Proof.
  intros opt h x cs Hx W [H|H]; [apply c103_none; assumption|]. apply (c103_short opt x (cell h x) W H cs h Hx W eq_refl).
Qed.

Lemma c103_after : forall opt h x cs f a x', (x < next h)%nat -> wf (cell h x) ->
  Float128ppc.NewFromBig (cell h x) = Ret (f, a, x') ->
  match do_calls opt x (CNewPpc :: cs) h with Ret (l, _) => Ret l | Panic => Panic end =
  match all_alone opt x' cs with Ret l => Ret (APpc (f, a) :: l) | Panic => Panic end.
Proof.
  intros opt h x cs f a x' Hx W E. cbn [do_calls do_call]. unfold mbind, ret. pose proof (c102 h x Hx) as H. rewrite E in H.
  destruct (NewFromBigPpc x h) as [[[g b] h']|]; [|discriminate]. destruct H as (H1 & Q & _).
  assert (g = f /\ b = a /\ x' = cell h' x) as (-> & -> & ->) by (split; [congruence|split; congruence]).
  destruct (ppc_state _ _ _ _ W E) as (P1 & P2 & _).
  rewrite <- (c103_short opt x (cell h' x) P1 P2 cs h' ltac:(lia) P1 eq_refl).
  destruct (do_calls opt x cs h') as [[l h'']|]; reflexivity.
Qed.

Lemma c103_twice : forall x f a x', wf x -> Float128ppc.NewFromBig x = Ret (f, a, x') ->
  exists x'', Float128ppc.NewFromBig x' = Ret (f, a, x'') /\ bval x'' = bval x'.
Proof.
  intros x f a x' W E. destruct (ppc_state x f a x' W E) as (W' & S' & _).
  destruct (bval x) as [s|s|s v] eqn:Bx.
  - exfalso. unfold bval in Bx. destruct (frm x); discriminate.
  - destruct (bval_inf x s Bx) as [F N]. pose proof E as E0.
    unfold Float128ppc.NewFromBig, BigFloat.IsInf in E. rewrite F in E.
    assert (x' = x) as -> by (destruct (Signbit x); congruence). eauto.
  - destruct (Req_dec v 0) as [->|Nv].
    { pose proof E as E0. rewrite (ClaimsPpc.zero_of x s W Bx) in E. assert (x' = x) as -> by congruence. eauto. }
    destruct (Rlt_or_le (Rabs (rn 52 11 (rnd_prec (rmode x) 106 v))) (p2 1024)) as [L|L];
      [|rewrite (NewFromBig_overflow x s v W Bx L) in E; discriminate].
    destruct (NewFromBig_num x s v W Bx Nv L) as (h & l & t & Q & Hh & Hl & Eh & El & St & _ & B' & _).
    rewrite E in Q. assert (x' = x106 x) as -> by congruence. assert (f = Float128ppc.mkFloat h l) as -> by congruence. assert (a = Exact) as -> by congruence.
    set (r := rnd_prec (rmode x) 106 v) in *.
    assert (R : forall md, rnd_prec md 106 r = r) by (intros md; apply short_rnd, rnd_short).
    assert (Nr : r <> 0%R) by (apply rnd_prec_nz; [lia|exact Nv]).
    rewrite <- (R (rmode (x106 x))) in L.
    destruct (NewFromBig_num (x106 x) s r W' B' Nr L) as (h' & l' & t' & Q' & Hh' & Hl' & Eh' & El' & St' & _ & B'' & _).
    rewrite (R (rmode (x106 x))) in *. exists (x106 (x106 x)). split; [|congruence]. rewrite Q'. set (d := (r - rn 52 11 r)%R) in *.
    assert (t = t') as <-.
    { destruct St as (A1 & A2 & A3), St' as (B1 & B2 & B3). destruct (Rtotal_order d 0) as [P|[P|P]]; [rewrite A1, B1|rewrite A3, B3|rewrite A2, B2]; auto. }
    do 3 f_equal. f_equal; apply (IeeeFacts.ieee_inj 52 11); try lia; try congruence; rewrite ?Eh', ?El'; discriminate.
Qed.

(** 1 + 2^-110 is no float64, until it is converted to a double-double. *)
Definition x110 : bigfloat := mkBF 111 ToNearestEven Exact false (Finite (2 ^ 110 + 1) (-110)).
Lemma x110_wf : wf x110.
Proof.
  unfold wf. split; [split; discriminate|]. cbn [frm x110]. split; [reflexivity|]. split.
  - exists (2 ^ 110 + 1), 0. split; [reflexivity|split; [lia|reflexivity]].
  - split; discriminate.
Qed.

Lemma c103_witness opt h x cs l l' : (x < next h)%nat -> wf (cell h x) ->
  match do_calls opt x cs h with Ret (l, _) => Ret l | Panic => Panic end = l ->
  all_alone opt (cell h x) cs = l' -> l <> l' ->
  exists opt h x cs, (x < next h)%nat /\ wf (cell h x) /\
  match do_calls opt x cs h with Ret (l, _) => Ret l | Panic => Panic end <> all_alone opt (cell h x) cs.
Proof. intros Hx W <- <- N. exists opt, h, x, cs. auto. Qed.

Lemma c103_refuted : exists opt h x cs, (x < next h)%nat /\ wf (cell h x) /\
  match do_calls opt x cs h with Ret (l, _) => Ret l | Panic => Panic end <> all_alone opt (cell h x) cs.
Proof.
  refine (c103_witness true (mkStore 1 (fun _ => x110)) 0%nat [CNewPpc; CExact64]
    (Ret [APpc (Float128ppc.mkFloat 4607182418800017408 0, Exact); ABool true])
    (Ret [APpc (Float128ppc.mkFloat 4607182418800017408 0, Exact); ABool false]) (Nat.le_refl 1) x110_wf _ _ _).
  - vm_compute. reflexivity.
  - vm_compute. reflexivity.
  - discriminate.
Qed.

(** What float128ppc.NewFromBig leaves in *x. *)
Lemma c102_value : forall h x f a h', (x < next h)%nat -> wf (cell h x) -> NewFromBigPpc x h = Ret ((f, a), h') ->
  ((exists s, bval (cell h x) = VInf s \/ bval (cell h x) = VNum s 0) -> cell h' x = cell h x) /\
  (forall s v, bval (cell h x) = VNum s v -> v <> 0%R ->
     bval (cell h' x) = VNum s (rnd_prec (rmode (cell h x)) 106 v) /\ prec (cell h' x) = 106).
Proof.
  intros h x f a h' Hx W E. pose proof (c102 h x Hx) as H. rewrite E in H. destruct H as (_ & H & _).
  split.
  - intros [s [B|B]].
    + destruct (bval_inf _ s B) as [F N]. unfold Float128ppc.NewFromBig, BigFloat.IsInf in H. rewrite F in H.
      destruct (Signbit (cell h x)); congruence.
    + rewrite (ClaimsPpc.zero_of _ s W B) in H. congruence.
  - intros s v B Nv. destruct (Rlt_or_le (Rabs (rn 52 11 (rnd_prec (rmode (cell h x)) 106 v))) (p2 1024)) as [L|L];
      [|rewrite (NewFromBig_overflow _ s v W B L) in H; discriminate].
    destruct (NewFromBig_num _ s v W B Nv L) as (hh & l & t & Q & _ & _ & _ & _ & _ & _ & B' & P).
    rewrite H in Q. assert (cell h' x = x106 (cell h x)) as -> by congruence. auto.
Qed.
