(** Float.Add, Float.Sub and Float.Cmp of the big.Float model. *)
From Coq Require Import ZArith Reals Lia Lra Bool.
From Flocq Require Import Core.
From Verif Require Import GoBase.
From Verif Require BigFloat.
From Verif Require Import Spec BitFacts RoundFacts IeeeFacts BigFacts BigFacts2 PkgFacts.
Import BigFloat (bitlen, gexp, prec, rmode, acc, neg, frm, Finite, MaxExp, MinExp, MaxPrec).
Open Scope Z_scope.

Lemma p2_20000 : (p2 20000 < p2 MaxExp)%R.
Proof. apply p2_lt. unfold MaxExp. lia. Qed.

Lemma setExpAndRound_correct z m e :
  0 < m -> 0 < prec z <= MaxPrec ->
  let v := sgnR (neg z) (IZR m * p2 e) in
  (Rabs v <= p2 20000)%R -> (p2 (MinExp - 1) <= Rabs v)%R ->
  let r := BigFloat.setExpAndRound z m e in
  wf r /\ bval r = VNum (neg z) (rnd_prec (rmode z) (prec z) v) /\ prec r = prec z /\ rmode r = rmode z /\
  acc_ok (acc r) (bval r) v.
Proof.
  intros Hm Hp v Hu Hl r.
  assert (G1 : MinExp - 1 < gexp m e) by (apply (gexp_lower (neg z)); assumption).
  assert (G2 : gexp m e <= MaxExp).
  { apply (gexp_upper (neg z)); [assumption|]. apply Rle_lt_trans with (1 := Hu). exact p2_20000. }
  unfold r, BigFloat.setExpAndRound.
  rewrite (proj2 (Z.ltb_ge _ _)) by lia. rewrite (proj2 (Z.ltb_ge _ _)) by lia.
  destruct (round_correct (BigFloat.set_frm z (Finite m e)) m e) as (P1 & P2 & P3 & P4 & P5);
    try reflexivity; try assumption; try (cbn [prec BigFloat.set_frm]; lia).
  cbn [prec rmode neg BigFloat.set_frm] in *. fold v in P4, P5.
  destruct P5 as [(m' & e' & Q1 & Q2 & Q3 & Q4 & Q5)|[Q1 Q2]].
  - split; [|split; [|auto]].
    + split; [rewrite P1; lia|]. rewrite Q1, P1. split; [assumption|]. split; [assumption|]. lia.
    + unfold bval. rewrite Q1, P3, Q5. reflexivity.
  - exfalso. pose proof (rnd_prec_le (rmode z) (prec z) v 20000 ltac:(lia) Hu) as Hc.
    pose proof (Rle_trans _ _ _ Q2 Hc) as Hx. pose proof p2_20000. lra.
Qed.

Lemma align m1 e1 m2 e2 : let e := Z.min e1 e2 in
  (IZR (m1 * 2 ^ (e1 - e)) * p2 e = IZR m1 * p2 e1)%R /\
  (IZR (m2 * 2 ^ (e2 - e)) * p2 e = IZR m2 * p2 e2)%R.
Proof.
  intros e. rewrite !scale_R by lia. split; do 2 f_equal; lia.
Qed.

Lemma ucmp_spec m1 e1 m2 e2 :
  (BigFloat.ucmp m1 e1 m2 e2 = -1 <-> (IZR m1 * p2 e1 < IZR m2 * p2 e2)%R) /\
  (BigFloat.ucmp m1 e1 m2 e2 = 0 <-> (IZR m1 * p2 e1 = IZR m2 * p2 e2)%R) /\
  (BigFloat.ucmp m1 e1 m2 e2 = 1 <-> (IZR m2 * p2 e2 < IZR m1 * p2 e1)%R).
Proof.
  unfold BigFloat.ucmp. destruct (align m1 e1 m2 e2) as [A B]. cbv zeta in A, B.
  set (e := Z.min e1 e2) in *. rewrite <- A, <- B. pose proof (p2_pos e) as Hp.
  set (a := m1 * 2 ^ (e1 - e)). set (b := m2 * 2 ^ (e2 - e)).
  destruct (Z.compare_spec a b) as [C|C|C].
  - rewrite C. repeat split; intros; try discriminate; lra.
  - apply IZR_lt in C. pose proof (Rmult_lt_compat_r _ _ _ Hp C). repeat split; intros; try discriminate; lra.
  - apply IZR_lt in C. pose proof (Rmult_lt_compat_r _ _ _ Hp C). repeat split; intros; try discriminate; lra.
Qed.

Definition addsign (s1 s2 : bool) (v1 v : R) (s : bool) : Prop :=
  ((v < 0)%R -> s = true) /\ ((0 < v)%R -> s = false) /\
  (v = 0%R -> s = if Req_EM_T v1 0 then s1 && s2 else false).

Lemma sgn_pos_dec s x v : (0 < x)%R -> v = sgnR s x -> (v < 0 -> s = true)%R /\ (0 < v -> s = false)%R /\ v <> 0%R.
Proof. intros Hx ->. destruct s; cbn [sgnR]; repeat split; intros; try reflexivity; lra. Qed.

Lemma fix_zero_rne z : rmode z = BigFloat.ToNearestEven -> BigFloat.fix_zero_sign z = z.
Proof. intros H. unfold BigFloat.fix_zero_sign. rewrite H. destruct (frm z); reflexivity. Qed.

Lemma setExpAndRound_mode z m e : rmode (BigFloat.setExpAndRound z m e) = rmode z.
Proof.
  unfold BigFloat.setExpAndRound, BigFloat.round. destruct (_ <? _); [reflexivity|]. destruct (_ <? _); [reflexivity|].
  cbn [frm BigFloat.set_frm]. destruct (_ <=? _); [reflexivity|]. destruct (_ =? 0); [reflexivity|]. destruct (_ <? _); reflexivity.
Qed.

(** Set, where it need not round or does. *)
Lemma Set_num z x s v : 0 < prec z <= MaxPrec -> wf x -> bval x = VNum s v -> (Rabs v <= p2 20000)%R ->
  let r := BigFloat.Set_ z x in
  wf r /\ bval r = VNum s (rnd_prec (rmode z) (prec z) v) /\ prec r = prec z /\ rmode r = rmode z /\
  acc_ok (acc r) (bval r) v.
Proof.
  intros Hp Hw Hv Hb r. unfold r, BigFloat.Set_. rewrite (proj2 (Z.eqb_neq _ _)) by lia.
  unfold bval in Hv. destruct (frm x) as [|m e|] eqn:Ef; [| |discriminate].
  - apply VNum_inj in Hv. destruct Hv as [<- <-]. rewrite rnd_prec_0.
    destruct (prec z <? prec x); unfold BigFloat.round, BigFloat.set_acc; cbn [frm prec rmode neg acc];
      unfold wf, bval; cbn [prec frm neg rmode acc acc_ok]; repeat split; try reflexivity; try lia.
  - apply VNum_inj in Hv. destruct Hv as [<- <-].
    destruct Hw as [Hpx Hw]. rewrite Ef in Hw. destruct Hw as (Hm & Hs & Hg).
    destruct (Z.ltb_spec (prec z) (prec x)) as [L|L].
    + destruct (round_correct (BigFloat.mkBF (prec z) (rmode z) BigFloat.Exact (neg x) (Finite m e)) m e) as (P1 & P2 & P3 & P4 & P5);
        try reflexivity; try assumption; try (apply Hg); try (cbn [prec]; lia).
      cbn [prec rmode neg] in *. set (w := sgnR (neg x) (IZR m * p2 e)) in *.
      destruct P5 as [(m' & e' & Q1 & Q2 & Q3 & Q4 & Q5)|[Q1 Q2]].
      * split; [|split; [|auto]].
        -- split; [rewrite P1; lia|]. rewrite Q1, P1. split; [assumption|]. split; [assumption|]. lia.
        -- unfold bval. rewrite Q1, P3, Q5. reflexivity.
      * exfalso. pose proof (rnd_prec_le (rmode z) (prec z) w 20000 ltac:(lia) Hb) as Hc.
        pose proof (Rle_trans _ _ _ Q2 Hc) as Hx. pose proof p2_20000. lra.
    + assert (Hs' : sigbits m (prec z)) by (apply sigbits_mono with (prec x); assumption).
      unfold wf, bval. cbn [prec frm neg rmode acc acc_ok].
      rewrite rnd_prec_fits by (assumption || lia).
      split; [|auto]. split; [lia|]. split; [assumption|]. split; [exact Hs'|]. lia.
Qed.

Lemma Add_num z x y s1 v1 s2 v2 :
  rmode z = BigFloat.ToNearestEven -> 0 < prec z <= MaxPrec -> wf x -> wf y ->
  bval x = VNum s1 v1 -> bval y = VNum s2 v2 ->
  let v := (v1 + v2)%R in
  (Rabs v <= p2 20000)%R -> (v <> 0%R -> (p2 (MinExp - 1) <= Rabs v)%R) ->
  exists r s, BigFloat.Add z x y = Ret r /\ wf r /\ prec r = prec z /\ rmode r = BigFloat.ToNearestEven /\
    bval r = VNum s (rnd_prec BigFloat.ToNearestEven (prec z) v) /\ addsign s1 s2 v1 v s /\ acc_ok (acc r) (bval r) v.
Proof.
  intros Hz Hp Hx Hy Vx Vy v Hu Hl. unfold BigFloat.Add.
  pose proof Vx as Vx'. pose proof Vy as Vy'. unfold bval in Vx', Vy'.
  destruct (frm x) as [|m1 e1|] eqn:Ex; [| |discriminate]; apply VNum_inj in Vx'; destruct Vx' as [N1 R1];
  destruct (frm y) as [|m2 e2|] eqn:Ey; try discriminate; apply VNum_inj in Vy'; destruct Vy' as [N2 R2].
  - exists (BigFloat.mkBF (prec z) (rmode z) BigFloat.Exact (neg x && neg y) BigFloat.Zero), (neg x && neg y).
    assert (v = 0%R) as E by (unfold v; lra). rewrite E. rewrite rnd_prec_0.
    split; [reflexivity|]. unfold wf, bval. cbn [prec rmode frm neg acc acc_ok].
    split; [lia|]. split; [reflexivity|]. split; [exact Hz|]. split; [reflexivity|]. split; [|reflexivity].
    unfold addsign. rewrite N1, N2. split; [lra|]. split; [lra|]. intros _.
    destruct (Req_EM_T v1 0); [reflexivity|lra].
  - destruct Hy as [Hpy Wy]. rewrite Ey in Wy. pose proof (val_pos m2 e2 (proj1 Wy)) as Hpos.
    assert (E : v = v2) by (unfold v; lra). rewrite E in *.
    destruct (Set_num z y s2 v2 Hp) as (W & B & P & M & A); try assumption.
    { split; [exact Hpy|]. rewrite Ey. exact Wy. }
    eexists _, s2. split; [reflexivity|]. split; [exact W|]. split; [exact P|]. split; [congruence|].
    rewrite Hz in B. split; [exact B|]. split; [|exact A].
    destruct (sgn_pos_dec (neg y) (IZR m2 * p2 e2) v2 Hpos (eq_sym R2)) as (S1 & S2 & S3).
    rewrite <- N2. split; [exact S1|]. split; [exact S2|]. intros; contradiction.
  - destruct Hx as [Hpx Wx]. rewrite Ex in Wx. pose proof (val_pos m1 e1 (proj1 Wx)) as Hpos.
    assert (E : v = v1) by (unfold v; lra). rewrite E in *.
    destruct (Set_num z x s1 v1 Hp) as (W & B & P & M & A); try assumption.
    { split; [exact Hpx|]. rewrite Ex. exact Wx. }
    eexists _, s1. split; [reflexivity|]. split; [exact W|]. split; [exact P|]. split; [congruence|].
    rewrite Hz in B. split; [exact B|]. split; [|exact A].
    destruct (sgn_pos_dec (neg x) (IZR m1 * p2 e1) v1 Hpos (eq_sym R1)) as (S1 & S2 & S3).
    rewrite <- N1. split; [exact S1|]. split; [exact S2|]. intros; contradiction.
  - destruct Hx as [Hpx Wx]. rewrite Ex in Wx. pose proof (val_pos m1 e1 (proj1 Wx)) as Hp1.
    destruct Hy as [Hpy Wy]. rewrite Ey in Wy. pose proof (val_pos m2 e2 (proj1 Wy)) as Hp2.
    destruct (align m1 e1 m2 e2) as [A B]. cbv zeta in A, B.
    (* a single rounding of sign s, mantissa M at the common exponent *)
    assert (K : forall (s : bool) M, 0 < M -> v = sgnR s (IZR M * p2 (Z.min e1 e2)) ->
      let r := BigFloat.setExpAndRound (BigFloat.set_neg z s) M (Z.min e1 e2) in
      exists s', wf r /\ prec r = prec z /\ rmode r = BigFloat.ToNearestEven /\
      bval r = VNum s' (rnd_prec BigFloat.ToNearestEven (prec z) v) /\ addsign s1 s2 v1 v s' /\ acc_ok (acc r) (bval r) v).
    { intros s M HM Ev r. exists s.
      destruct (sgn_pos_dec s _ v (val_pos M (Z.min e1 e2) HM) Ev) as (S1 & S2 & S3).
      pose proof (setExpAndRound_correct (BigFloat.set_neg z s) M (Z.min e1 e2) HM Hp) as H. cbv zeta in H.
      cbn [neg BigFloat.set_neg] in H. rewrite <- Ev in H. destruct (H Hu (Hl S3)) as (W & Bv & P & Mo & Ac). clear H.
      cbn [neg BigFloat.set_neg prec rmode] in *. fold r in W, Bv, P, Mo, Ac. rewrite Hz in Bv, Mo.
      split; [exact W|]. split; [exact P|]. split; [exact Mo|]. split; [exact Bv|]. split; [|exact Ac].
      split; [exact S1|]. split; [exact S2|]. intros; contradiction. }
    unfold BigFloat.uadd, BigFloat.usub.
    set (e := Z.min e1 e2) in *. set (a := m1 * 2 ^ (e1 - e)) in *. set (b := m2 * 2 ^ (e2 - e)) in *.
    assert (Ha : 0 < a) by (apply Z.mul_pos_pos; [apply Wx|apply pow2_pos; unfold e; lia]).
    assert (Hb : 0 < b) by (apply Z.mul_pos_pos; [apply Wy|apply pow2_pos; unfold e; lia]).
    destruct (Bool.eqb (neg x) (neg y)) eqn:En.
    + apply eqb_prop in En.
      destruct (K (neg x) (a + b)) as (s & H); [lia| |].
      { unfold v. rewrite <- R1, <- R2, <- En, <- A, <- B, plus_IZR. destruct (neg x); cbn [sgnR]; ring. }
      eexists _, s. split; [reflexivity|]. rewrite fix_zero_rne; [exact H|].
      rewrite setExpAndRound_mode. exact Hz.
    + assert (En' : neg y = negb (neg x)) by (destruct (neg x), (neg y); try reflexivity; discriminate).
      destruct (ucmp_spec m1 e1 m2 e2) as (U1 & U2 & U3). rewrite <- A, <- B in U1, U2, U3.
      pose proof (p2_pos e) as Hpe.
      destruct (Z.ltb_spec 0 (BigFloat.ucmp m1 e1 m2 e2)) as [L|L].
      * assert (U : BigFloat.ucmp m1 e1 m2 e2 = 1).
        { unfold BigFloat.ucmp in *. destruct (Z.compare _ _); lia. }
        apply U3 in U. apply Rmult_lt_reg_r in U; [|exact Hpe]. apply lt_IZR in U.
        rewrite (proj2 (Z.eqb_neq (a - b) 0)) by lia.
        destruct (K (neg x) (a - b)) as (s & H); [lia| |].
        { unfold v. rewrite <- R1, <- R2, En', <- A, <- B, minus_IZR. destruct (neg x); cbn [sgnR negb]; ring. }
        eexists _, s. split; [reflexivity|]. rewrite fix_zero_rne; [exact H|].
        rewrite setExpAndRound_mode. exact Hz.
      * assert (U : a <= b).
        { assert (O : BigFloat.ucmp m1 e1 m2 e2 = -1 \/ BigFloat.ucmp m1 e1 m2 e2 = 0)
            by (unfold BigFloat.ucmp in *; destruct (Z.compare _ _); lia).
          apply le_IZR. apply Rmult_le_reg_r with (p2 e); [exact Hpe|].
          destruct O as [O|O]; [apply U1 in O|apply U2 in O]; lra. }
        rewrite (Z.min_comm e2 e1). fold e. fold a b.
        destruct (Z.eqb_spec (b - a) 0) as [Z0|Z0].
        -- assert (Ev : v = 0%R).
           { unfold v. rewrite <- R1, <- R2, En', <- A, <- B. replace b with a by lia.
             destruct (neg x); cbn [sgnR negb]; ring. }
           rewrite Ev, rnd_prec_0.
           cbn [BigFloat.set_neg prec rmode]. rewrite fix_zero_rne by exact Hz.
           eexists _, false. split; [reflexivity|]. unfold wf, bval. cbn [prec rmode frm neg acc acc_ok].
           split; [lia|]. split; [reflexivity|]. split; [exact Hz|]. split; [reflexivity|]. split; [|reflexivity].
           split; [lra|]. split; [lra|]. intros _. destruct (Req_EM_T v1 0) as [Q|Q]; [|reflexivity].
           exfalso. destruct (sgn_pos_dec (neg x) _ v1 Hp1 (eq_sym R1)) as (_ & _ & S3). contradiction.
        -- destruct (K (negb (neg x)) (b - a)) as (s & H); [lia| |].
           { unfold v. rewrite <- R1, <- R2, En', <- A, <- B, minus_IZR. destruct (neg x); cbn [sgnR negb]; ring. }
           eexists _, s. split; [reflexivity|]. cbn [BigFloat.set_neg neg prec rmode acc frm].
           rewrite fix_zero_rne; [exact H|]. rewrite setExpAndRound_mode. exact Hz.
Qed.

(** Sub is Add of the negated operand when that operand is not rounded. *)
Lemma Sub_Add z x y : prec y <= prec z -> 0 < prec z ->
  BigFloat.Sub z x y = BigFloat.Add z x (BigFloat.NegSelf y).
Proof.
  intros Hp Hz. unfold BigFloat.Sub, BigFloat.Add, BigFloat.NegSelf.
  assert (E : BigFloat.Neg z y = BigFloat.Set_ z (BigFloat.set_neg y (negb (neg y)))).
  { unfold BigFloat.Neg, BigFloat.Set_, BigFloat.NegSelf. cbn [BigFloat.set_neg prec neg frm].
    rewrite (proj2 (Z.eqb_neq _ _)) by lia. rewrite (proj2 (Z.ltb_ge _ _)) by lia. reflexivity. }
  cbn [frm neg BigFloat.set_neg].
  destruct (frm x), (frm y); try reflexivity; try (rewrite <- E; reflexivity);
    destruct (neg x), (neg y); reflexivity.
Qed.

Lemma NegSelf_wf y : wf y -> wf (BigFloat.NegSelf y).
Proof. intros [H1 H2]. split; assumption. Qed.

Lemma NegSelf_bval y : bval (BigFloat.NegSelf y) =
  match bval y with VNum s v => VNum (negb s) (- v) | VInf s => VInf (negb s) | VNaN s => VNaN s end.
Proof.
  unfold bval, BigFloat.NegSelf. cbn [frm neg BigFloat.set_neg].
  destruct (frm y); [|destruct (neg y); cbn [sgnR negb]|]; try reflexivity; f_equal; ring.
Qed.

(** Cmp compares values. *)
Lemma Cmp_num x y s1 v1 s2 v2 : wf x -> wf y -> bval x = VNum s1 v1 -> bval y = VNum s2 v2 ->
  (BigFloat.Cmp x y < 0 <-> (v1 < v2)%R) /\ (BigFloat.Cmp x y = 0 <-> v1 = v2) /\ (0 < BigFloat.Cmp x y <-> (v2 < v1)%R).
Proof.
  intros Hx Hy Vx Vy. unfold BigFloat.Cmp, BigFloat.ord. unfold bval in Vx, Vy.
  destruct Hx as [_ Wx], Hy as [_ Wy].
  destruct (frm x) as [|m1 e1|]; [| |discriminate]; apply VNum_inj in Vx; destruct Vx as [_ <-];
  destruct (frm y) as [|m2 e2|]; try discriminate; apply VNum_inj in Vy; destruct Vy as [_ <-].
  - destruct (neg x), (neg y); cbn; repeat split; intros; try lra; lia.
  - pose proof (val_pos m2 e2 (proj1 Wy)). destruct (neg x), (neg y); cbn; repeat split; intros; try lra; lia.
  - pose proof (val_pos m1 e1 (proj1 Wx)). destruct (neg x), (neg y); cbn; repeat split; intros; try lra; lia.
  - pose proof (val_pos m1 e1 (proj1 Wx)). pose proof (val_pos m2 e2 (proj1 Wy)).
    assert (T : forall m1 e1 m2 e2,
      (BigFloat.ucmp m1 e1 m2 e2 < 0 <-> (IZR m1 * p2 e1 < IZR m2 * p2 e2)%R) /\
      (BigFloat.ucmp m1 e1 m2 e2 = 0 <-> (IZR m1 * p2 e1 = IZR m2 * p2 e2)%R) /\
      (0 < BigFloat.ucmp m1 e1 m2 e2 <-> (IZR m2 * p2 e2 < IZR m1 * p2 e1)%R)).
    { intros a b c d. destruct (ucmp_spec a b c d) as (U1 & U2 & U3).
      assert (O : BigFloat.ucmp a b c d = -1 \/ BigFloat.ucmp a b c d = 0 \/ BigFloat.ucmp a b c d = 1)
        by (unfold BigFloat.ucmp; destruct (Z.compare _ _); lia).
      rewrite <- U1, <- U2, <- U3. lia. }
    destruct (neg x), (neg y); cbn [sgnR Z.opp Z.ltb Z.compare Pos.compare Pos.compare_cont].
    + destruct (T m2 e2 m1 e1) as (T1 & T2 & T3). rewrite T1, T2, T3. split; [|split]; split; intros; lra.
    + repeat split; intros; try lra; lia.
    + repeat split; intros; try lra; lia.
    + apply T.
Qed.
