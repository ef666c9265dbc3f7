(** The lemmas behind the binary128 theorems. *)
From Coq Require Import ZArith Reals Lia Lra Bool List String.
From Flocq Require Import Core.
From Verif Require Import GoBase.
From Verif Require BigFloat Binary128.
From Verif Require Import Spec BitFacts RoundFacts IeeeFacts BigFacts BigFacts2 FmtFacts PkgFacts.
From Verif Require Import Facts128.
From Verif Require Claims16.
Import BigFloat (bitlen, gexp, prec, rmode, acc, neg, frm, Finite, MaxExp, MinExp, MaxPrec).
Import Binary128 (Float, mkFloat, fa, fb).
Open Scope Z_scope.

Lemma val_quad a b : value (mkFloat a b) = quad a b.
Proof. reflexivity. Qed.

Lemma c10_partial : forall a b, 0 <= a < 2 ^ 64 -> 0 <= b < 2 ^ 64 ->
  let f := Binary128.NewFromBits a b in
  let (frac1, frac2) := Binary128.Frac f in
  Binary128.Bits f = (a, b) /\
  0 <= Binary128.Exp_host 64 f < 2 ^ 15 /\ 0 <= frac1 < 2 ^ 48 /\ 0 <= frac2 < 2 ^ 64 /\
  Z.b2z (Binary128.Signbit f) * 2 ^ 63 + Binary128.Exp_host 64 f * 2 ^ 48 + frac1 = a /\ frac2 = b.
Proof.
  intros a b Ha Hb f.
  destruct (fields f) as (s & E & F1 & F2 & HE & HF1 & HF2 & _ & Ea & Eb & HS & HX & HY); [split; assumption|].
  rewrite HY. unfold Binary128.Exp in HX. rewrite HX, HS. cbn [fa fb f Binary128.NewFromBits] in Ea, Eb.
  split; [reflexivity|]. split; [exact HE|]. split; [exact HF1|]. split; [exact HF2|].
  split; [rewrite Ea; reflexivity|congruence].
Qed.

Lemma c10_refuted : exists a b, 0 <= a < 2 ^ 64 /\ 0 <= b < 2 ^ 64 /\
  let f := Binary128.NewFromBits a b in
  Z.b2z (Binary128.Signbit f) * 2 ^ 63 + Binary128.Exp_host 32 f * 2 ^ 48 + fst (Binary128.Frac f) <> a.
Proof.
  exists 0x3FFF000000000000, 0. split; [lia|]. split; [lia|]. vm_compute. discriminate.
Qed.

Lemma c10_32 : forall f, 0 <= Binary128.fa f < 2 ^ 64 -> Binary128.Exp_host 32 f = 0.
Proof.
  intros [a b] Ha. cbn [fa] in Ha. unfold Binary128.Exp_host. cbn [fa].
  change 0x7FFF000000000000 with ((2 ^ 15 - 1) * 2 ^ 48). rewrite land_mask_shift by lia.
  unfold sint. set (k := (a / 2 ^ 48) mod 2 ^ 15).
  replace (k * 2 ^ 48 + 2 ^ (32 - 1)) with (2 ^ (32 - 1) + (k * 2 ^ 16) * 2 ^ 32) by ring.
  rewrite Z.mod_add by lia. reflexivity.
Qed.

Lemma c11 : forall a b, 0 <= a < 2 ^ 64 -> 0 <= b < 2 ^ 64 ->
  exists x nan, Binary128.Big (Binary128.NewFromBits a b) = Ret (x, nan) /\
    wf x /\ prec x = 113 /\ rmode x = BigFloat.ToNearestEven /\ acc x = BigFloat.Exact /\
    match quad a b with
    | VNaN s => nan = true /\ bval x = VNum s 0
    | v => nan = false /\ bval x = v
    end.
Proof.
  intros a b Ha Hb. destruct (Big_correct (mkFloat a b)) as (x & nan & HB & (H1 & H2 & H3 & H4) & Hv); [split; assumption|].
  exists x, nan. rewrite val_quad in Hv. auto 10.
Qed.

Lemma c12 : forall a b, 0 <= a < 2 ^ 64 -> 0 <= b < 2 ^ 64 -> (forall s, quad a b <> VNaN s) ->
  exists x, Binary128.Big (Binary128.NewFromBits a b) = Ret (x, false) /\
    Binary128.NewFromBig x = Ret (Binary128.NewFromBits a b, BigFloat.Exact).
Proof.
  intros a b Ha Hb Hn. apply (roundtrip (mkFloat a b)); [split; assumption|exact Hn].
Qed.

Lemma c13 : 
  (forall x, 0 <= x < 2 ^ 64 -> (forall s, ieee 52 11 x <> VNaN s) ->
     exists f, Binary128.NewFromFloat64 x = Ret (f, BigFloat.Exact) /\
       quad (Binary128.fa f) (Binary128.fb f) = ieee 52 11 x /\
       Binary128.Float64 f = Ret (x, BigFloat.Exact)) /\
  (forall x, 0 <= x < 2 ^ 32 -> (forall s, ieee 23 8 x <> VNaN s) ->
     exists f, Binary128.NewFromFloat32 x = Ret (f, BigFloat.Exact) /\
       quad (Binary128.fa f) (Binary128.fb f) = ieee 23 8 x /\
       Binary128.Float32 f = Ret (x, BigFloat.Exact)).
Proof.
  split.
  - intros x Hx Hn. destruct (nff64_correct x Hx) as (f & E & Hf & Hv & _). exists f.
    split; [exact E|]. split; [exact Hv|].
    apply Float64_exact; [exact Hf|exact Hx|exact Hv|]. intros s. rewrite Hv. apply Hn.
  - intros x Hx Hn. rewrite nff32_eq by exact Hx. destruct (f32_to_f64_correct x Hx) as [Hr Hw].
    destruct (nff64_correct _ Hr) as (f & E & Hf & Hv & _). exists f. rewrite Hw in Hv.
    split; [exact E|]. split; [exact Hv|].
    apply Float32_exact; [exact Hf|exact Hx|exact Hv|]. intros s. rewrite Hv. apply Hn.
Qed.

Lemma c14 : forall f, 0 <= Binary128.fa f < 2 ^ 64 -> 0 <= Binary128.fb f < 2 ^ 64 ->
  exists d a g a', Binary128.Float64 f = Ret (d, a) /\ 0 <= d < 2 ^ 64 /\
    Binary128.Float32 f = Ret (g, a') /\ 0 <= g < 2 ^ 32 /\
    match quad (Binary128.fa f) (Binary128.fb f) with
    | VNum s v => ieee 52 11 d = ieee_round 52 11 s v /\ acc_ok a (ieee 52 11 d) v /\
                  ieee 23 8 g = ieee_round 23 8 s v /\ acc_ok a' (ieee 23 8 g) v
    | v => ieee 52 11 d = v /\ a = BigFloat.Exact /\ ieee 23 8 g = v /\ a' = BigFloat.Exact
    end.
Proof.
  intros f Ha Hb. assert (Hf : ok f) by (split; assumption).
  destruct (Float64_correct f Hf) as (d & a & E1 & R1 & V1).
  destruct (Float32_correct f Hf) as (g & a' & E2 & R2 & V2).
  exists d, a, g, a'. unfold value in *. destruct (quad (fa f) (fb f)); intuition auto.
Qed.

Lemma c15_refuted : exists x m e f a, wf x /\ frm x = Finite m e /\
    Binary128.NewFromBig x = Ret (f, a) /\
    quad (Binary128.fa f) (Binary128.fb f) <> ieee_round 112 15 (neg x) (sgnR (neg x) (IZR m * p2 e)).
Proof.
  exists (BigFloat.mkBF 200 BigFloat.ToNearestEven BigFloat.Exact false (Finite (2 ^ 114 - 1) 0)), (2 ^ 114 - 1), 0,
    (mk false (113 + 16383) (2 ^ 112 - 1)), BigFloat.Below.
  assert (W : wf (BigFloat.mkBF 200 BigFloat.ToNearestEven BigFloat.Exact false (Finite (2 ^ 114 - 1) 0))).
  { apply Claims16.fin_wf; unfold MaxPrec, MinExp, MaxExp; vm_compute; intuition congruence. }
  split; [exact W|]. split; [reflexivity|]. split; [vm_compute; reflexivity|].
  unfold quad. change (?a * 2 ^ 64 + ?b) with (pat (mk false (113 + 16383) (2 ^ 112 - 1))).
  assert (V : value (mk false (113 + 16383) (2 ^ 112 - 1)) = ieee_parts 112 15 false (113 + 16383) (2 ^ 112 - 1))
    by (apply value_mk; lia).
  apply Claims16.round_oracle; try lia; try reflexivity; try exact W; try (unfold MaxExp; lia).
  - apply pat_range. apply mk_ok; lia.
  - intros s. unfold value, quad in V. change (?a * 2 ^ 64 + ?b) with (pat (mk false (113 + 16383) (2 ^ 112 - 1))) in V.
    rewrite V. discriminate.
  - vm_compute. discriminate.
Qed.

Lemma c15_acc_refuted : exists x m e f a, wf x /\ frm x = Finite m e /\
    Binary128.NewFromBig x = Ret (f, a) /\
    ~ acc_ok a (quad (Binary128.fa f) (Binary128.fb f)) (sgnR (neg x) (IZR m * p2 e)).
Proof.
  exists (BigFloat.mkBF 200 BigFloat.ToNearestEven BigFloat.Exact true (Finite (2 ^ 113 + 1) 0)), (2 ^ 113 + 1), 0,
    (mk true (113 + 16383) 0), BigFloat.Below.
  split; [apply Claims16.fin_wf; unfold MaxPrec, MinExp, MaxExp; vm_compute; intuition congruence|].
  split; [reflexivity|]. split; [vm_compute; reflexivity|].
  change (quad _ _) with (value (mk true (113 + 16383) 0)). rewrite value_mk by lia.
  unfold ieee_parts. cbn [neg acc_ok]. change (113 + 16383 =? 2 ^ 15 - 1) with false.
  change (113 + 16383 =? 0) with false. cbn match. cbn [sgnR acc_ok].
  change (2 ^ 112 + 0) with (1 * 2 ^ 112). rewrite scale_R by lia.
  change (p2 0) with 1%R. rewrite Rmult_1_r, Rmult_1_l.
  change (113 + 16383 - (2 ^ (15 - 1) - 1) - 112 + 112) with 113. rewrite <- IZR_pow2 by lia.
  rewrite <- !opp_IZR. intros C. apply lt_IZR in C. lia.
Qed.

Lemma c15_partial : forall x m e, wf x -> frm x = Finite m e ->
  let v := sgnR (neg x) (IZR m * p2 e) in
  (p2 (-16494) <= Rabs v < p2 16384)%R ->
  exists f a, Binary128.NewFromBig x = Ret (f, a) /\
    quad (Binary128.fa f) (Binary128.fb f) = VNum (neg x) (rz 112 15 v) /\
    (fits 112 15 v -> a = BigFloat.Exact /\
       quad (Binary128.fa f) (Binary128.fb f) = ieee_round 112 15 (neg x) v) /\
    ((p2 (-16382) <= v)%R -> acc_ok a (quad (Binary128.fa f) (Binary128.fb f)) v).
Proof.
  intros x m e Hw Hf v [Hlo Hhi].
  assert (Hm : 0 < m) by (destruct Hw as [_ W]; rewrite Hf in W; apply W).
  pose proof (gexp_lower (neg x) m e (-16494) Hm Hlo) as G1. pose proof (gexp_upper (neg x) m e 16384 Hm Hhi) as G2.
  destruct (NewFromBig_trunc x m e Hf Hw ltac:(lia)) as (f & a & E & T1 & T2 & T3 & T4 & T5).
  fold v in T2, T4. exists f, a. split; [exact E|]. unfold value in T2. split; [exact T2|]. split.
  - intros Hfit. rewrite (fits_rz 112 15 v ltac:(lia) Hfit) in T2, T4.
    rewrite T2, (fits_round 112 15 (neg x) v ltac:(lia) Hfit).
    split; [|reflexivity].
    destruct (Z_le_gt_dec (gexp m e) (-16382)); [auto|]. apply T4; [lia|reflexivity].
  - intros Hv. rewrite T2.
    assert (Hpos : (0 < v)%R) by (apply Rlt_le_trans with (2 := Hv); apply p2_pos).
    assert (Hn : neg x = false).
    { destruct (neg x) eqn:En; [|reflexivity]. exfalso. unfold v in Hpos. cbn [sgnR] in Hpos.
      pose proof (val_pos m e Hm). apply (Rlt_irrefl 0). apply Rlt_trans with (1 := Hpos).
      apply Ropp_lt_gt_0_contravar. assumption. }
    assert (G3 : -16382 < gexp m e).
    { apply (gexp_lower (neg x) m e (-16382) Hm). fold v.
      rewrite Rabs_pos_eq by (left; exact Hpos). exact Hv. }
    specialize (T4 G3). destruct T3 as [-> | ->].
    + cbn [acc_ok]. apply T4. reflexivity.
    + cbn [acc_ok]. assert (H : (rz 112 15 v <= v)%R).
      { unfold v. rewrite Hn. cbn [sgnR]. apply rz_lt; lia. }
      destruct H; [assumption|]. apply T4 in H. discriminate.
Qed.

Lemma c15_example :
  let x := BigFloat.mkBF 200 BigFloat.ToNearestEven BigFloat.Exact false (Finite (2 ^ 114 - 1) 0) in
  wf x /\ (p2 (-16494) <= Rabs (sgnR (neg x) (IZR (2 ^ 114 - 1) * p2 0)) < p2 16384)%R.
Proof.
  split; [apply Claims16.fin_wf; unfold MaxPrec, MinExp, MaxExp; vm_compute; intuition congruence|].
  cbn [neg sgnR]. change (p2 0) with 1%R. rewrite Rmult_1_r, Rabs_pos_eq by (apply IZR_le; lia). split.
  - apply Rle_trans with (p2 0); [apply p2_le; lia|]. change (p2 0) with (IZR 1). apply IZR_le. lia.
  - apply Rlt_le_trans with (p2 114); [|apply p2_le; lia]. rewrite <- IZR_pow2 by lia. apply IZR_lt. lia.
Qed.

Lemma c08_128 : forall s,
  (forall x, 0 <= x < 2 ^ 64 -> ieee 52 11 x = VNaN s ->
     Binary128.NewFromFloat64 x = Ret ((if s then Binary128.NegNaN else Binary128.NaN), BigFloat.Exact)) /\
  (forall x, 0 <= x < 2 ^ 64 -> ieee 52 11 x = VInf s ->
     Binary128.NewFromFloat64 x = Ret ((if s then Binary128.NegInf else Binary128.Inf), BigFloat.Exact)) /\
  (forall x, 0 <= x < 2 ^ 64 -> ieee 52 11 x = VNum s 0 ->
     Binary128.NewFromFloat64 x = Ret ((if s then Binary128.NegZero else Binary128.Zero), BigFloat.Exact)) /\
  (forall x, 0 <= x < 2 ^ 32 -> ieee 23 8 x = VNaN s ->
     Binary128.NewFromFloat32 x = Ret ((if s then Binary128.NegNaN else Binary128.NaN), BigFloat.Exact)) /\
  (forall x, 0 <= x < 2 ^ 32 -> ieee 23 8 x = VInf s ->
     Binary128.NewFromFloat32 x = Ret ((if s then Binary128.NegInf else Binary128.Inf), BigFloat.Exact)) /\
  (forall x, 0 <= x < 2 ^ 32 -> ieee 23 8 x = VNum s 0 ->
     Binary128.NewFromFloat32 x = Ret ((if s then Binary128.NegZero else Binary128.Zero), BigFloat.Exact)) /\
  (forall x, wf x -> bval x = VInf s ->
     Binary128.NewFromBig x = Ret ((if s then Binary128.NegInf else Binary128.Inf), BigFloat.Exact)) /\
  (forall x, wf x -> bval x = VNum s 0 ->
     Binary128.NewFromBig x = Ret ((if s then Binary128.NegZero else Binary128.Zero), BigFloat.Exact)) /\
  (let c := (if s then Binary128.NegNaN else Binary128.NaN) in quad (Binary128.fa c) (Binary128.fb c) = VNaN s) /\
  (let c := (if s then Binary128.NegInf else Binary128.Inf) in quad (Binary128.fa c) (Binary128.fb c) = VInf s) /\
  (let c := (if s then Binary128.NegZero else Binary128.Zero) in quad (Binary128.fa c) (Binary128.fb c) = VNum s 0).
Proof.
  intros s. assert (Z64 : forall x, 0 <= x < 2 ^ 64 -> ieee 52 11 x = VNum s 0 ->
     Binary128.NewFromFloat64 x = Ret ((if s then Binary128.NegZero else Binary128.Zero), BigFloat.Exact)).
  { intros x Hx Hv. destruct (nff64_correct x Hx) as (f & -> & Hf & Hfv & _). do 2 f_equal.
    destruct (zero_pattern s) as [V O]. rewrite Hv in Hfv.
    apply value_inj; [exact Hf|exact O|rewrite Hfv; intros; discriminate|congruence]. }
  split; [intros x Hx Hv; apply nff64_nan; assumption|].
  split; [intros x Hx Hv; apply nff64_inf; assumption|].
  split; [exact Z64|].
  assert (A : forall x, 0 <= x < 2 ^ 32 -> Binary128.NewFromFloat32 x = Binary128.NewFromFloat64 (BigFloat.f32_to_f64 x) /\
     0 <= BigFloat.f32_to_f64 x < 2 ^ 64 /\ ieee 52 11 (BigFloat.f32_to_f64 x) = ieee 23 8 x).
  { intros x Hx. destruct (f32_to_f64_correct x Hx) as [Hr Hv]. rewrite nff32_eq by exact Hx. auto. }
  split; [intros x Hx Hv; destruct (A x Hx) as (-> & ? & ?); apply nff64_nan; congruence|].
  split; [intros x Hx Hv; destruct (A x Hx) as (-> & ? & ?); apply nff64_inf; congruence|].
  split; [intros x Hx Hv; destruct (A x Hx) as (-> & ? & ?); apply Z64; congruence|].
  split; [intros x Hw Hv; pose proof (NewFromBig_special x) as H; rewrite Hv in H; exact H|].
  split; [intros x Hw Hv; pose proof (NewFromBig_special x) as H; rewrite Hv in H; auto|].
  split; [apply nan_pattern|]. split; [apply inf_pattern|apply zero_pattern].
Qed.

Lemma c09_128 : forall x, wf x -> exists f a,
  Binary128.NewFromBig x = Ret (f, a) /\
  Binary128.NewFromBig (BigFloat.NegSelf x) =
    Ret (Binary128.NewFromBits (Z.lxor (Binary128.fa f) (2 ^ 63)) (Binary128.fb f), a).
Proof.
  exact NewFromBig_neg.
Qed.

