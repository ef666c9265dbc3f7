(** C84: float128ppc.NewFromBig of numbers of opposite signs, for all rounding modes. *)
From Coq Require Import ZArith Reals Bool Lia Lra.
From Flocq Require Import Core.
From Verif Require Import GoBase BigFloat Spec SpecSign BitFacts RoundFacts BigFacts2 PkgFacts FactsPpc ClaimsCalls ClaimsNeg.
From Verif Require Float128ppc ClaimsPpc PkgExact IeeeFacts.
Open Scope Z_scope.

Lemma c84_any : forall x z s v, wf x -> wf z -> bval x = VNum s v -> bval z = VNum (negb s) (- v) ->
  rnd_prec (rmode z) 106 (- v) = (- rnd_prec (rmode x) 106 v)%R ->
  let y := rnd_prec (rmode x) 106 v in
  match Float128ppc.NewFromBig x with
  | Panic => Float128ppc.NewFromBig z = Panic
  | Ret (Float128ppc.mkFloat h l, a, x') =>
      exists l' z', Float128ppc.NewFromBig z = Ret (Float128ppc.mkFloat (flip 64 h) l', a, z') /\
        bval z' = vopp (bval x') /\
        (rn 52 11 y = y -> l = 0 /\ l' = 0) /\ (rn 52 11 y <> y -> l' = flip 64 l)
  end.
Proof.
  intros x z s v W Wz V V' Y y.
  destruct (Req_dec v 0) as [->|Hv].
  { rewrite Ropp_0 in V'. rewrite (ClaimsPpc.zero_of x _ W V), (ClaimsPpc.zero_of z _ Wz V').
    assert (y = 0%R) as -> by (unfold y; apply PkgFacts.rnd_prec_0). rewrite rn_0. rewrite V.
    destruct s; cbn [negb] in *; unfold Float128ppc.NegZero, Float128ppc.Zero; exists 0, z; (split; [reflexivity|]);
      (split; [rewrite V'; cbn [vopp negb]; rewrite Ropp_0; reflexivity|split; [auto|congruence]]). }
  fold y in Y.
  destruct (Rlt_or_le (Rabs (rn 52 11 y)) (p2 1024)) as [L|L].
  2:{ rewrite (NewFromBig_overflow x _ _ W V L). apply (NewFromBig_overflow z _ _ Wz V').
      rewrite Y, rn_opp, Rabs_Ropp. exact L. }
  destruct (NewFromBig_num x _ v W V Hv L) as (h & l & t & E & Hh & Hl & Eh & El & St & _ & Bx & _).
  destruct (NewFromBig_num z _ (- v) Wz V') as (h' & l' & t' & E' & Hh' & Hl' & Eh' & El' & St' & _ & Bz & _).
  { intros Q. apply Hv. lra. }
  { rewrite Y, rn_opp, Rabs_Ropp. exact L. }
  rewrite Y in *. fold y in E, Eh, El, St, Bx. rewrite rn_opp in *. replace (- y - - rn 52 11 y)%R with (- (y - rn 52 11 y))%R in * by ring.
  rewrite rn_opp in El'. set (d := (y - rn 52 11 y)%R) in *. rewrite E, E'.
  assert (K : forall p q, 0 <= p < 2 ^ 64 -> 0 <= q < 2 ^ 64 -> ieee 52 11 q = vopp (ieee 52 11 p) -> (forall s, ieee 52 11 q <> VNaN s) -> q = flip 64 p).
  { intros p q Hp Hq Q N. apply (IeeeFacts.ieee_inj 52 11); try lia; [exact (flip_range 64 p ltac:(lia))|rewrite flip64_ieee by exact Hp; exact Q|exact N]. }
  assert (h' = flip 64 h) as -> by (apply K; try assumption; rewrite Eh'; [rewrite Eh; reflexivity|discriminate]).
  exists l', (x106 z). split; [reflexivity|]. split; [rewrite Bx, Bz; reflexivity|].
  destruct St as (A1 & A2 & A3), St' as (B1 & B2 & B3). split; intros Q.
  - assert (D : d = 0%R) by (unfold d; lra). rewrite D in *. rewrite A3, B3 in * by lra. rewrite rn_0 in *. split.
    + apply (IeeeFacts.ieee_inj 52 11); try lia; [rewrite El, ClaimsPpc.zero64; reflexivity|rewrite El; discriminate].
    + apply (IeeeFacts.ieee_inj 52 11); try lia; [rewrite El', ClaimsPpc.zero64; f_equal; ring|rewrite El'; discriminate].
  - assert (D : d <> 0%R) by (unfold d; lra).
    assert (T : t' = negb t).
    { destruct (Rtotal_order d 0) as [U|[U|U]]; [rewrite A1, B2 by lra; reflexivity|contradiction|rewrite A2, B1 by lra; reflexivity]. }
    apply K; try assumption; rewrite El'; [rewrite El, T; reflexivity|discriminate].
Qed.

Lemma rnd_mirror md v : rnd_prec (mirror md) 106 (- v) = (- rnd_prec md 106 v)%R.
Proof.
  destruct md; try (apply rnd_prec_opp; split; discriminate); unfold rnd_prec; cbn [mirror mode_rnd].
  - rewrite round_UP_opp. reflexivity.
  - rewrite round_DN_opp. reflexivity.
Qed.

Lemma c84_mirror : forall x z s v, wf x -> wf z -> bval x = VNum s v -> bval z = VNum (negb s) (- v) ->
  rmode z = mirror (rmode x) \/ (exists m e, v = (IZR m * p2 e)%R /\ Z.abs m < 2 ^ 106) ->
  let y := rnd_prec (rmode x) 106 v in
  match Float128ppc.NewFromBig x with
  | Panic => Float128ppc.NewFromBig z = Panic
  | Ret (Float128ppc.mkFloat h l, a, x') =>
      exists l' z', Float128ppc.NewFromBig z = Ret (Float128ppc.mkFloat (flip 64 h) l', a, z') /\
        bval z' = vopp (bval x') /\
        (rn 52 11 y = y -> l = 0 /\ l' = 0) /\ (rn 52 11 y <> y -> l' = flip 64 l)
  end.
Proof.
  intros x z s v W Wz V V' H. apply (c84_any x z s v W Wz V V'). destruct H as [->|(m & e & E & Hm)]; [apply rnd_mirror|].
  rewrite (short_rnd (rmode x) v) by eauto. apply short_rnd. exists (- m), e. rewrite opp_IZR. split; [rewrite E; ring|lia].
Qed.

Lemma c84_exactly : forall x s v f a x' g b z', wf x -> ~ symmetric (rmode x) -> bval x = VNum s v ->
  Float128ppc.NewFromBig x = Ret (f, a, x') -> Float128ppc.NewFromBig (opp x) = Ret (g, b, z') ->
  bval z' = vopp (bval x') <-> exists m e, v = (IZR m * p2 e)%R /\ Z.abs m < 2 ^ 106.
Proof.
  intros x s v f a x' g b z' W S V E E'. pose proof (bval_opp x) as V'. rewrite V in V'. cbn [vopp] in V'.
  assert (St : forall u t w p q r, wf u -> bval u = VNum t w -> Float128ppc.NewFromBig u = Ret (p, q, r) -> bval r = VNum t (rnd_prec (rmode u) 106 w)).
  { intros u t w p q r Wu Bu Q. destruct (Req_dec w 0) as [->|Nw].
    - rewrite (ClaimsPpc.zero_of u t Wu Bu) in Q. assert (r = u) as -> by congruence. rewrite rnd_prec_0. exact Bu.
    - destruct (Rlt_or_le (Rabs (rn 52 11 (rnd_prec (rmode u) 106 w))) (p2 1024)) as [L|L];
        [|rewrite (NewFromBig_overflow u t w Wu Bu L) in Q; discriminate].
      destruct (NewFromBig_num u t w Wu Bu Nw L) as (hh & l & t' & Q' & _ & _ & _ & _ & _ & _ & B' & _).
      rewrite Q in Q'. assert (r = x106 u) as -> by congruence. exact B'. }
  rewrite (St _ _ _ _ _ _ W V E), (St _ _ _ _ _ _ (wf_opp x W) V' E'). cbn [vopp]. change (rmode (opp x)) with (rmode x).
  split.
  - intros Q. assert (R : rnd_prec (rmode x) 106 (- v) = (- rnd_prec (rmode x) 106 v)%R) by (injection Q; auto).
    rewrite <- (rnd_mirror (rmode x) v) in R.
    assert (F : (v <= rnd_prec ToPositiveInf 106 v /\ rnd_prec ToNegativeInf 106 v <= v)%R).
    { unfold rnd_prec; cbn [mode_rnd]. split; [apply round_UP_pt|apply round_DN_pt]; apply FLX_exp_valid; reflexivity. }
    assert (G : (- v <= rnd_prec ToPositiveInf 106 (- v) /\ rnd_prec ToNegativeInf 106 (- v) <= - v)%R).
    { unfold rnd_prec; cbn [mode_rnd]. split; [apply round_UP_pt|apply round_DN_pt]; apply FLX_exp_valid; reflexivity. }
    assert (H : exists md, rnd_prec md 106 v = v).
    { exists ToPositiveInf. pose proof (rnd_mirror ToPositiveInf v) as M1. pose proof (rnd_mirror ToNegativeInf v) as M2. cbn [mirror] in *.
      destruct (rmode x); cbn [mirror] in R; try (exfalso; apply S; split; discriminate); lra. }
    destruct H as [md <-]. apply rnd_short.
  - intros (m & e & Q & Hm). f_equal. rewrite (short_rnd _ v) by eauto. apply short_rnd. exists (- m), e. rewrite opp_IZR. split; [rewrite Q; ring|lia].
Qed.
