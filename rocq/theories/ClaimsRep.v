(** The conversions depend on the value of a big.Float alone, not on how it is represented. *)
From Coq Require Import ZArith Lia Bool List Reals Lra.
From Flocq Require Import Core.
From Verif Require Import GoBase Spec BitFacts RoundFacts IeeeFacts BigFacts BigFacts2 SpecDec SpecFtoa PkgFacts PkgExact ClaimsFloat ClaimsFloat2 AllBig Host.
From Verif Require BigFloat Binary16 Binary128 Float80x86 Float128ppc FactsPpc ClaimsPpc ClaimsTrip.
From Verif Require Import FloatPkg SpecFmt.
Import BigFloat (frm, neg, prec, rmode, acc, Finite, Zero, Inf).
Open Scope Z_scope.

Lemma bval_inf x s : bval x = VInf s -> frm x = Inf /\ neg x = s.
Proof. unfold bval. destruct (frm x); intros H; try discriminate. split; [reflexivity|congruence]. Qed.
Lemma bval_zero x s : wf x -> bval x = VNum s 0 -> frm x = Zero /\ neg x = s.
Proof.
  intros W B. destruct (frm x) as [|m e|] eqn:Ef; unfold bval in B; rewrite Ef in B; [split; congruence| |discriminate].
  exfalso. assert (Q : sgnR (neg x) (IZR m * p2 e) = 0%R) by congruence. destruct W as [_ W]. rewrite Ef in W.
  pose proof (val_pos m e (proj1 W)). destruct (neg x); cbn [sgnR] in Q; lra.
Qed.

Lemma pos_dec v : v = 0%R \/ exists k, (p2 k <= Rabs v < p2 (k + 1))%R.
Proof. destruct (Req_dec v 0) as [H|H]; [left; exact H|right]. exists (mag radix2 v - 1). apply ClaimsTrip.mag_k, H. Qed.

(** Zeros and infinities. *)
Lemma special_rep x y int : wf x -> wf y -> bval x = bval y -> (forall s v, bval x = VNum s v -> v = 0%R) ->
  Binary16.NewFromBig_int int x = Binary16.NewFromBig_int int y /\
  Float80x86.NewFromBig_int int x = Float80x86.NewFromBig_int int y /\
  Binary128.NewFromBig_int int x = Binary128.NewFromBig_int int y.
Proof.
  intros Wx Wy E H.
  assert (K : (frm x = Inf /\ frm y = Inf \/ frm x = Zero /\ frm y = Zero) /\ neg x = neg y).
  { destruct (bval x) as [s|s|s v] eqn:Bx; symmetry in E.
    - exfalso. unfold bval in Bx. destruct (frm x); discriminate.
    - destruct (bval_inf x s Bx), (bval_inf y s E). split; [left; auto|congruence].
    - assert (v = 0%R) as -> by (eapply H; reflexivity). destruct (bval_zero x s Wx Bx), (bval_zero y s Wy E). split; [right; auto|congruence]. }
  destruct K as [[[F G]|[F G]] N];
    unfold Binary16.NewFromBig_int, Float80x86.NewFromBig_int, Binary128.NewFromBig_int, BigFloat.IsInf, BigFloat.Signbit; rewrite F, G, N.
  - repeat split; reflexivity.
  - rewrite !Cmp_zero, F, G by reflexivity. repeat split; reflexivity.
Qed.

Lemma acc_cases (p : Prop) a a' b c : p \/ ~ p -> (p -> a = b) -> (~ p -> a = c) -> (p -> a' = b) -> (~ p -> a' = c) -> a = a' :> BigFloat.accuracy.
Proof. intros [H|H] A1 A2 B1 B2; [rewrite A1, B1|rewrite A2, B2]; auto. Qed.

Lemma rep16 x y s v k : wf x -> wf y -> bval x = VNum s v -> bval y = VNum s v -> (p2 k <= Rabs v < p2 (k + 1))%R -> Binary16.NewFromBig x = Binary16.NewFromBig y.
Proof.
  intros Wx Wy Bx By Hk. pose proof (c07_all x s v k Wx Bx Hk) as X. pose proof (c07_all y s v k Wy By Hk) as Y. cbv zeta in X, Y.
  destruct (Binary16.NewFromBig x) as [b a], (Binary16.NewFromBig y) as [b' a'].
  destruct X as (X1 & X2 & X3), Y as (Y1 & Y2 & Y3).
  destruct (Z_le_gt_dec (-14) k) as [L|L]; [|destruct (Z_le_gt_dec (-24) k) as [M|M]].
  - destruct (X1 L) as (-> & P & Q), (Y1 L) as (-> & P' & Q'). f_equal. eapply acc_cases; [|exact P|exact Q|exact P'|exact Q']. apply Req_dec.
  - destruct (X2 ltac:(lia)) as (-> & ->), (Y2 ltac:(lia)) as (-> & ->). reflexivity.
  - destruct (X3 ltac:(lia)) as (-> & ->), (Y3 ltac:(lia)) as (-> & ->). reflexivity.
Qed.
Lemma rep80 x y s v k : wf x -> wf y -> bval x = VNum s v -> bval y = VNum s v -> (p2 k <= Rabs v < p2 (k + 1))%R -> Float80x86.NewFromBig x = Float80x86.NewFromBig y.
Proof.
  intros Wx Wy Bx By Hk. destruct (c21_all x s v k Wx Bx Hk) as (se & m & a & -> & X1 & X2 & X3). destruct (c21_all y s v k Wy By Hk) as (se' & m' & a' & -> & Y1 & Y2 & Y3).
  destruct (Z_le_gt_dec (-16382) k) as [L|L]; [|destruct (Z_le_gt_dec (-16445) k) as [M|M]].
  - destruct (X1 L) as (-> & -> & P & Q), (Y1 L) as (-> & -> & P' & Q'). f_equal. eapply acc_cases; [|exact P|exact Q|exact P'|exact Q']. apply Req_dec.
  - destruct (X2 ltac:(lia)) as (-> & -> & ->), (Y2 ltac:(lia)) as (-> & -> & ->). reflexivity.
  - destruct (X3 ltac:(lia)) as (-> & -> & ->), (Y3 ltac:(lia)) as (-> & -> & ->). reflexivity.
Qed.
Lemma rep128 x y s v k : wf x -> wf y -> bval x = VNum s v -> bval y = VNum s v -> (p2 k <= Rabs v < p2 (k + 1))%R -> Binary128.NewFromBig x = Binary128.NewFromBig y.
Proof.
  intros Wx Wy Bx By Hk. destruct (c15_all x s v k Wx Bx Hk) as (n & a & -> & X1 & X2 & X3). destruct (c15_all y s v k Wy By Hk) as (n' & a' & -> & Y1 & Y2 & Y3).
  destruct (Z_le_gt_dec (-16382) k) as [L|L]; [|destruct (Z_le_gt_dec (-16494) k) as [M|M]].
  - destruct (X1 L) as (-> & P & Q), (Y1 L) as (-> & P' & Q'). do 2 f_equal. eapply acc_cases; [|exact P|exact Q|exact P'|exact Q']. apply Req_dec.
  - destruct (X2 ltac:(lia)) as (-> & ->), (Y2 ltac:(lia)) as (-> & ->). reflexivity.
  - destruct (X3 ltac:(lia)) as (-> & ->), (Y3 ltac:(lia)) as (-> & ->). reflexivity.
Qed.

Lemma c86_big : forall w x y, w = 32 \/ w = 64 -> wf x -> wf y -> bval x = bval y ->
  Binary16.NewFromBig_host w x = Binary16.NewFromBig_host w y /\
  Float80x86.NewFromBig_host w x = Float80x86.NewFromBig_host w y /\
  Binary128.NewFromBig_host w x = Binary128.NewFromBig_host w y.
Proof.
  intros w x y Hw Wx Wy E.
  assert (D : (forall s v, bval x = VNum s v -> v = 0%R) \/ exists s v k, bval x = VNum s v /\ (p2 k <= Rabs v < p2 (k + 1))%R).
  { destruct (bval x) as [s|s|s v]; [left; discriminate|left; discriminate|]. destruct (pos_dec v) as [->|(k & Hk)]; [left; congruence|right; exists s, v, k; auto]. }
  destruct D as [D|(s & v & k & Bx & Hk)]; [apply special_rep; assumption|]. rewrite Bx in E. symmetry in E.
  destruct Hw as [->| ->].
  - destruct (host32_low x Wx) as (X1 & X2), (host32_low y Wy) as (Y1 & Y2).
    destruct (host32_high x s v k Wx Bx Hk) as (X3 & X4), (host32_high y s v k Wy E Hk) as (Y3 & Y4).
    assert (L : forall n, k < n -> forall z t u, bval z = VNum s v -> bval z = VNum t u -> (Rabs u < p2 n)%R).
    { intros n Hn z t u Bz Q. assert (u = v) as -> by congruence. apply Rlt_le_trans with (1 := proj2 Hk). apply p2_le. lia. }
    split.
    + destruct (Z_lt_ge_dec k (2 ^ 31 - 15)) as [H|H].
      * rewrite X1, Y1 by (intros t u; apply L; assumption). apply (rep16 x y s v k); assumption.
      * rewrite X3, Y3 by lia. reflexivity.
    + destruct (Z_lt_ge_dec k (2 ^ 31 - 16383)) as [H|H].
      * destruct (X2 ltac:(intros t u; apply L; assumption)) as (-> & ->). destruct (Y2 ltac:(intros t u; apply L; assumption)) as (-> & ->).
        split; [apply (rep80 x y s v k)|apply (rep128 x y s v k)]; assumption.
      * destruct (X4 ltac:(lia)) as (-> & ->). destruct (Y4 ltac:(lia)) as (-> & ->). split; reflexivity.
  - destruct (host64 x Wx) as (-> & -> & ->), (host64 y Wy) as (-> & -> & ->).
    split; [apply (rep16 x y s v k)|split; [apply (rep80 x y s v k)|apply (rep128 x y s v k)]]; assumption.
Qed.

Lemma c86_exact : forall w opt w' opt' x y, w = 32 \/ w = 64 -> w' = 32 \/ w' = 64 -> wf x -> wf y -> bval x = bval y ->
  IsExact16 w opt x = IsExact16 w' opt' y /\ IsExact32 w opt x = IsExact32 w' opt' y /\ IsExact64 w opt x = IsExact64 w' opt' y.
Proof.
  intros w opt w' opt' x y Hw Hw' Wx Wy E.
  assert (B : forall (p q : outcome bool), (exists c, p = Ret c) -> (exists c, q = Ret c) -> (p = Ret true <-> q = Ret true) -> p = q).
  { intros p q (c & ->) (d & ->) [H1 H2]. destruct c, d; try reflexivity; [symmetry|]; auto. }
  destruct (bval x) as [s|s|s u] eqn:Bx; symmetry in E.
  - exfalso. unfold bval in Bx. destruct (frm x); discriminate.
  - destruct (inf_panics w opt x s Hw Wx Bx) as (-> & -> & ->), (inf_panics w' opt' y s Hw' Wy E) as (-> & -> & ->). auto.
  - assert (Nx : frm x <> Inf) by (intros Q; unfold bval in Bx; rewrite Q in Bx; discriminate).
    assert (Ny : frm y <> Inf) by (intros Q; unfold bval in E; rewrite Q in E; discriminate).
    destruct (c33p w opt x Hw Wx Nx) as (c & c' & c'' & P1 & P2 & P3). destruct (c33p w' opt' y Hw' Wy Ny) as (d & d' & d'' & Q1 & Q2 & Q3).
    split; [|split]; apply B; eauto.
    + rewrite (c65_16_all w opt x s u Hw Wx Bx), (c65_16_all w' opt' y s u Hw' Wy E). reflexivity.
    + rewrite (c65_32 w opt x Hw Wx), (c65_32 w' opt' y Hw' Wy), Bx, E. reflexivity.
    + rewrite (c65_64 w opt x Hw Wx), (c65_64 w' opt' y Hw' Wy), Bx, E. reflexivity.
Qed.

Lemma c86_same : forall x y s v, wf x -> wf y -> bval x = VNum s v -> bval y = VNum s v ->
  rnd_prec (rmode x) 106 v = rnd_prec (rmode y) 106 v ->
  match Float128ppc.NewFromBig x, Float128ppc.NewFromBig y with
  | Ret (f, a, x'), Ret (g, b, y') => f = g /\ a = b /\ bval x' = bval y'
  | Panic, Panic => True
  | _, _ => False
  end.
Proof.
  intros x y s v Wx Wy Bx E M. destruct (Req_dec v 0) as [->|Nv].
  { rewrite (ClaimsPpc.zero_of x s Wx Bx), (ClaimsPpc.zero_of y s Wy E). rewrite Bx, E. auto. }
  destruct (Rlt_or_le (Rabs (rn 52 11 (rnd_prec (rmode x) 106 v))) (p2 1024)) as [L|L].
  - destruct (FactsPpc.NewFromBig_num x s v Wx Bx Nv L) as (h & l & t & -> & Hh & Hl & Eh & El & St & _ & Bx' & _). rewrite M in L.
    destruct (FactsPpc.NewFromBig_num y s v Wy E Nv L) as (h' & l' & t' & -> & Hh' & Hl' & Eh' & El' & St' & _ & By' & _).
    rewrite <- M in Eh', El', St', By'. set (r := rnd_prec (rmode x) 106 v) in *. set (d := (r - rn 52 11 r)%R) in *.
    assert (t = t') as <-.
    { destruct St as (A1 & A2 & A3), St' as (B1 & B2 & B3). destruct (Rtotal_order d 0) as [Q|[Q|Q]]; [rewrite A1, B1|rewrite A3, B3|rewrite A2, B2]; auto. }
    split; [|split; [reflexivity|congruence]]. f_equal; apply (ieee_inj 52 11); try lia; try congruence; rewrite ?Eh, ?El; discriminate.
  - rewrite (FactsPpc.NewFromBig_overflow x s v Wx Bx L). rewrite M in L. rewrite (FactsPpc.NewFromBig_overflow y s v Wy E L). exact I.
Qed.

Lemma c86_ppc : forall x y, wf x -> wf y -> rmode x = rmode y -> bval x = bval y ->
  match Float128ppc.NewFromBig x, Float128ppc.NewFromBig y with
  | Ret (f, a, x'), Ret (g, b, y') => f = g /\ a = b /\ bval x' = bval y'
  | Panic, Panic => True
  | _, _ => False
  end.
Proof.
  intros x y Wx Wy M E. destruct (bval x) as [s|s|s v] eqn:Bx; symmetry in E.
  - exfalso. unfold bval in Bx. destruct (frm x); discriminate.
  - destruct (bval_inf x s Bx) as [F N], (bval_inf y s E) as [F' N'].
    unfold Float128ppc.NewFromBig, BigFloat.IsInf, BigFloat.Signbit. rewrite F, F', N, N'. destruct s; rewrite Bx, E; auto.
  - apply (c86_same x y s v Wx Wy Bx E). rewrite M. reflexivity.
Qed.

(** Two modes. *)
Lemma c86_exactly : forall x y s v f a x' g b y', wf x -> wf y -> bval x = VNum s v -> bval y = VNum s v ->
  Float128ppc.NewFromBig x = Ret (f, a, x') -> Float128ppc.NewFromBig y = Ret (g, b, y') ->
  let r := rnd_prec (rmode x) 106 v in let r' := rnd_prec (rmode y) 106 v in
  a = b /\ (bval x' = bval y' <-> r = r') /\ (r = r' -> f = g) /\ ((p2 (-969) <= Rabs v)%R -> f = g -> r = r').
Proof.
  intros x y s v f a x' g b y' Wx Wy Bx By Ex Ey r r'.
  assert (Same : r = r' -> f = g /\ a = b /\ bval x' = bval y').
  { intros M. pose proof (c86_same x y s v Wx Wy Bx By M) as H. rewrite Ex, Ey in H. exact H. }
  destruct (Req_dec v 0) as [V0|Nv].
  { assert (M : r = r') by (unfold r, r'; rewrite V0, !rnd_prec_0; reflexivity). destruct (Same M) as (H1 & H2 & H3). tauto. }
  assert (Fin : forall u w p q, wf u -> bval u = VNum s v -> Float128ppc.NewFromBig u = Ret (w, p, q) ->
    (Rabs (rn 52 11 (rnd_prec (rmode u) 106 v)) < p2 1024)%R).
  { intros u w p q Wu Bu Q. destruct (Rlt_or_le (Rabs (rn 52 11 (rnd_prec (rmode u) 106 v))) (p2 1024)) as [L|L]; [exact L|].
    rewrite (FactsPpc.NewFromBig_overflow u s v Wu Bu L) in Q. discriminate. }
  assert (St : forall u w p q, wf u -> bval u = VNum s v -> Float128ppc.NewFromBig u = Ret (w, p, q) ->
    p = BigFloat.Exact /\ bval q = VNum s (rnd_prec (rmode u) 106 v)).
  { intros u w p q Wu Bu Q. destruct (FactsPpc.NewFromBig_num u s v Wu Bu Nv (Fin u w p q Wu Bu Q)) as (h & l & t & Q' & _ & _ & _ & _ & _ & _ & B' & _).
    rewrite Q in Q'. assert (p = BigFloat.Exact /\ q = FactsPpc.x106 u) as [-> ->] by (split; congruence). auto. }
  destruct (St x f a x' Wx Bx Ex) as [-> B1]. destruct (St y g b y' Wy By Ey) as [-> B2].
  split; [reflexivity|]. split; [|split].
  - rewrite B1, B2. split; [intros H; apply VNum_inj in H; apply H|]. intros H. fold r r'. rewrite H. reflexivity.
  - intros M. apply (Same M).
  - intros Hv Q. subst g.
    destruct (ClaimsTrip.c78_ppc x s v Wx Bx (Fin _ _ _ _ Wx Bx Ex) (or_introl Hv)) as (h & l & z1 & s1 & v1 & s2 & v2 & z & z' & E1 & _ & _ & V1 & V2 & _ & S & _).
    destruct (ClaimsTrip.c78_ppc y s v Wy By (Fin _ _ _ _ Wy By Ey) (or_introl Hv)) as (h' & l' & z1' & s1' & v1' & s2' & v2' & u & u' & E2 & _ & _ & V1' & V2' & _ & S' & _).
    rewrite Ex in E1. rewrite Ey in E2. assert (h' = h /\ l' = l) as [-> ->] by (split; congruence).
    rewrite V1 in V1'. rewrite V2 in V2'. apply VNum_inj in V1'. apply VNum_inj in V2'. destruct V1' as [_ <-], V2' as [_ <-].
    unfold r, r'. congruence.
Qed.

(** 1 + 2^-200 in two modes. *)
Lemma c86_refuted : exists x y f g a b x' y', wf x /\ wf y /\ bval x = bval y /\
  Float128ppc.NewFromBig x = Ret (f, a, x') /\ Float128ppc.NewFromBig y = Ret (g, b, y') /\ f <> g.
Proof.
  set (F := Finite (2 ^ 200 + 1) (-200)).
  exists (BigFloat.mkBF 300 BigFloat.ToPositiveInf BigFloat.Exact false F), (BigFloat.mkBF 300 BigFloat.ToNearestEven BigFloat.Exact false F). eexists _, _, _, _, _, _.
  assert (W : forall md, wf (BigFloat.mkBF 300 md BigFloat.Exact false F)).
  { intros md. unfold wf, F. cbn [prec frm]. split; [unfold BigFloat.MaxPrec; lia|].
    split; [lia|]. split; [exists (2 ^ 200 + 1), 0; split; [reflexivity|split; [lia|reflexivity]]|vm_compute; intuition congruence]. }
  split; [apply W|]. split; [apply W|]. split; [reflexivity|]. split; [vm_compute; reflexivity|]. split; [vm_compute; reflexivity|discriminate].
Qed.
