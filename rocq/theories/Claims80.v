(** The lemmas behind the float80x86 theorems. *)
From Coq Require Import ZArith Reals Lia Lra Bool List String.
From Flocq Require Import Core.
From Verif Require Import GoBase.
From Verif Require BigFloat Float80x86.
From Verif Require Import Spec BitFacts RoundFacts IeeeFacts BigFacts BigFacts2 FmtFacts PkgFacts.
From Verif Require Import Facts80.
From Verif Require Claims16.
Import BigFloat (bitlen, gexp, prec, rmode, acc, neg, frm, Finite, MaxExp, MinExp, MaxPrec).
Import Float80x86 (Float, mkFloat).
Open Scope Z_scope.

Lemma c16 : forall a b, 0 <= a < 2 ^ 16 -> 0 <= b < 2 ^ 64 ->
  let f := Float80x86.NewFromBits a b in
  Float80x86.Bits f = (a, b) /\
  0 <= Float80x86.Exp f < 2 ^ 15 /\ 0 <= Float80x86.Lead f <= 1 /\ 0 <= Float80x86.Frac f < 2 ^ 63 /\
  Z.b2z (Float80x86.Signbit f) * 2 ^ 15 + Float80x86.Exp f = a /\
  Float80x86.Lead f * 2 ^ 63 + Float80x86.Frac f = b.
Proof.
  intros a b Ha Hb f.
  destruct (fields f) as (s & E & M & HE & HM & Ef & HS & HX & HY & HL & HF & HLF); [split; assumption|].
  rewrite HX, HS. rewrite <- HY in HLF.
  split; [reflexivity|]. split; [exact HE|]. split; [exact HL|]. split; [exact HF|].
  split; [|exact HLF]. change a with (Float80x86.se f) at 1. rewrite Ef. reflexivity.
Qed.

Lemma c17 : forall a b, 0 <= a < 2 ^ 16 -> 0 <= b < 2 ^ 64 ->
  exists x nan, Float80x86.Big (Float80x86.NewFromBits a b) = Ret (x, nan) /\
    wf x /\ prec x = 64 /\ rmode x = BigFloat.ToNearestEven /\ acc x = BigFloat.Exact /\
    match x87 a b with
    | VNaN s => nan = true /\ bval x = VNum s 0
    | v => nan = false /\ bval x = v
    end.
Proof.
  intros a b Ha Hb. destruct (Big_correct (mkFloat a b)) as (x & nan & HB & (H1 & H2 & H3 & H4) & Hv); [split; assumption|].
  exists x, nan. change (value (mkFloat a b)) with (x87 a b) in Hv. auto 10.
Qed.

Lemma c18 : forall a b, 0 <= a < 2 ^ 16 -> 0 <= b < 2 ^ 64 -> (forall s, x87 a b <> VNaN s) ->
  exists x g, Float80x86.Big (Float80x86.NewFromBits a b) = Ret (x, false) /\
    Float80x86.NewFromBig x = (g, BigFloat.Exact) /\
    x87 (Float80x86.se g) (Float80x86.m g) = x87 a b /\
    (let E := a mod 2 ^ 15 in
     (E = 0 /\ b < 2 ^ 63) \/ (1 <= E <= 32766 /\ 2 ^ 63 <= b) \/ (E = 32767 /\ b = 2 ^ 63) ->
     g = Float80x86.NewFromBits a b).
Proof.
  intros a b Ha Hb Hn. destruct (roundtrip (mkFloat a b)) as (x & g & H1 & H2 & H3 & H4 & H5 & H6);
    [split; assumption|exact Hn|].
  exists x, g. split; [exact H1|]. split; [exact H2|]. split; [exact H5|]. exact H6.
Qed.

Lemma c19 : 
  (forall x, 0 <= x < 2 ^ 64 -> (forall s, ieee 52 11 x <> VNaN s) ->
     exists f, Float80x86.NewFromFloat64 x = Ret (f, BigFloat.Exact) /\
       x87 (Float80x86.se f) (Float80x86.m f) = ieee 52 11 x /\
       Float80x86.Float64 f = Ret (x, BigFloat.Exact)) /\
  (forall x, 0 <= x < 2 ^ 32 -> (forall s, ieee 23 8 x <> VNaN s) ->
     exists f, Float80x86.NewFromFloat32 x = Ret (f, BigFloat.Exact) /\
       x87 (Float80x86.se f) (Float80x86.m f) = ieee 23 8 x /\
       Float80x86.Float32 f = Ret (x, BigFloat.Exact)).
Proof.
  split.
  - intros x Hx Hn. destruct (nff64_correct x Hx) as (f & E & Hf & Hv & _). exists f.
    split; [exact E|]. split; [exact Hv|].
    apply Float64_exact; [exact Hf|exact Hx|exact Hv|]. intros s. rewrite Hv. apply Hn.
  - intros x Hx Hn. rewrite nff32_eq by exact Hx. destruct (f32_to_f64_correct x Hx) as [Hr Hw].
    destruct (nff64_correct _ Hr) as (f & E & Hf & Hv & _). exists f. rewrite Hw in Hv.
    split; [exact E|]. split; [exact Hv|].
    apply Float32_exact; [exact Hf|exact Hx|exact Hv|]. intros s. rewrite Hv. apply Hn.
Qed.

Lemma c20 : forall f, 0 <= Float80x86.se f < 2 ^ 16 -> 0 <= Float80x86.m f < 2 ^ 64 ->
  exists d a g a', Float80x86.Float64 f = Ret (d, a) /\ 0 <= d < 2 ^ 64 /\
    Float80x86.Float32 f = Ret (g, a') /\ 0 <= g < 2 ^ 32 /\
    match x87 (Float80x86.se f) (Float80x86.m f) with
    | VNum s v => ieee 52 11 d = ieee_round 52 11 s v /\ acc_ok a (ieee 52 11 d) v /\
                  ieee 23 8 g = ieee_round 23 8 s v /\ acc_ok a' (ieee 23 8 g) v
    | v => ieee 52 11 d = v /\ a = BigFloat.Exact /\ ieee 23 8 g = v /\ a' = BigFloat.Exact
    end.
Proof.
  intros f Ha Hb. assert (Hf : ok f) by (split; assumption).
  destruct (Float64_correct f Hf) as (d & a & E1 & R1 & V1).
  destruct (Float32_correct f Hf) as (g & a' & E2 & R2 & V2).
  exists d, a, g, a'. unfold value in *. destruct (x87 _ _); intuition auto.
Qed.

Lemma c21_refuted : exists x m e, wf x /\ frm x = Finite m e /\
    let f := fst (Float80x86.NewFromBig x) in
    x87 (Float80x86.se f) (Float80x86.m f) <> ieee_round 63 15 (neg x) (sgnR (neg x) (IZR m * p2 e)).
Proof.
  exists (BigFloat.mkBF 200 BigFloat.ToNearestEven BigFloat.Exact false (Finite (2 ^ 65 - 1) 0)), (2 ^ 65 - 1), 0.
  assert (W : wf (BigFloat.mkBF 200 BigFloat.ToNearestEven BigFloat.Exact false (Finite (2 ^ 65 - 1) 0))).
  { apply Claims16.fin_wf; unfold MaxPrec, MinExp, MaxExp; vm_compute; intuition congruence. }
  split; [exact W|]. split; [reflexivity|].
  set (f := fst _). assert (Ef : f = mk false (64 + 16383) (2 ^ 64 - 1)) by (vm_compute; reflexivity).
  cbv zeta. rewrite Ef. clear f Ef. set (f := mk _ _ _).
  destruct (canon_ieee f) as [V R]; [apply mk_ok; lia|right; left; vm_compute; intuition congruence|].
  unfold value in V. rewrite V.
  apply Claims16.round_oracle; try lia; try reflexivity; try exact W; try (unfold MaxExp; lia).
  - intros s. rewrite <- V. change (x87 _ _) with (value f). unfold f. rewrite value_mk by lia. discriminate.
  - vm_compute. discriminate.
Qed.

Lemma c21_acc_refuted : exists x m e, wf x /\ frm x = Finite m e /\
    let (f, a) := Float80x86.NewFromBig x in
    ~ acc_ok a (x87 (Float80x86.se f) (Float80x86.m f)) (sgnR (neg x) (IZR m * p2 e)).
Proof.
  exists (BigFloat.mkBF 200 BigFloat.ToNearestEven BigFloat.Exact true (Finite (2 ^ 64 + 1) 0)), (2 ^ 64 + 1), 0.
  split; [apply Claims16.fin_wf; unfold MaxPrec, MinExp, MaxExp; vm_compute; intuition congruence|].
  split; [reflexivity|].
  assert (Ef : Float80x86.NewFromBig (BigFloat.mkBF 200 BigFloat.ToNearestEven BigFloat.Exact true (Finite (2 ^ 64 + 1) 0)) =
    (mk true (64 + 16383) (2 ^ 63), BigFloat.Below)) by (vm_compute; reflexivity).
  rewrite Ef. change (x87 _ _) with (value (mk true (64 + 16383) (2 ^ 63))). rewrite value_mk by lia.
  change (64 + 16383 =? 32767) with false. cbn [neg]. cbv iota. cbn [sgnR acc_ok].
  change (2 ^ 63) with (1 * 2 ^ 63) at 1. rewrite scale_R by lia.
  change (p2 0) with 1%R. rewrite Rmult_1_r, Rmult_1_l.
  change (Z.max (64 + 16383) 1 - 16383 - 63 + 63) with 64. rewrite <- IZR_pow2 by lia.
  rewrite <- !opp_IZR. intros C. apply lt_IZR in C. lia.
Qed.

Lemma c21_partial : forall x m e, wf x -> frm x = Finite m e ->
  let v := sgnR (neg x) (IZR m * p2 e) in
  (p2 (-16445) <= Rabs v < p2 16384)%R ->
  let (f, a) := Float80x86.NewFromBig x in
    x87 (Float80x86.se f) (Float80x86.m f) = VNum (neg x) (rz 63 15 v) /\
    (fits 63 15 v -> a = BigFloat.Exact /\
       x87 (Float80x86.se f) (Float80x86.m f) = ieee_round 63 15 (neg x) v) /\
    ((p2 (-16382) <= v)%R -> acc_ok a (x87 (Float80x86.se f) (Float80x86.m f)) v).
Proof.
  intros x m e Hw Hf v [Hlo Hhi].
  assert (Hm : 0 < m) by (destruct Hw as [_ W]; rewrite Hf in W; apply W).
  pose proof (gexp_lower (neg x) m e (-16445) Hm Hlo) as G1. pose proof (gexp_upper (neg x) m e 16384 Hm Hhi) as G2.
  pose proof (NewFromBig_trunc x m e Hf Hw ltac:(lia)) as T.
  destruct (Float80x86.NewFromBig x) as [f a]. destruct T as (T1 & _ & T2 & T3 & T4 & T5).
  fold v in T2, T4. unfold value in T2. split; [exact T2|]. split.
  - intros Hfit. rewrite (fits_rz 63 15 v ltac:(lia) Hfit) in T2, T4.
    rewrite T2, (fits_round 63 15 (neg x) v ltac:(lia) Hfit).
    split; [|reflexivity].
    destruct (Z_le_gt_dec (gexp m e) (-16382)); [auto|]. apply T4; [lia|reflexivity].
  - intros Hv. rewrite T2.
    assert (Hpos : (0 < v)%R) by (apply Rlt_le_trans with (2 := Hv); apply p2_pos).
    assert (Hn : neg x = false).
    { destruct (neg x) eqn:En; [|reflexivity]. exfalso. unfold v in Hpos. cbn [sgnR] in Hpos.
      pose proof (val_pos m e Hm). apply (Rlt_irrefl 0). apply Rlt_trans with (1 := Hpos).
      apply Ropp_lt_gt_0_contravar. assumption. }
    assert (G3 : -16382 < gexp m e).
    { apply (gexp_lower (neg x) m e (-16382) Hm). fold v.
      rewrite Rabs_pos_eq by (left; exact Hpos). exact Hv. }
    specialize (T4 G3). destruct T3 as [-> | ->].
    + cbn [acc_ok]. apply T4. reflexivity.
    + cbn [acc_ok]. assert (H : (rz 63 15 v <= v)%R).
      { unfold v. rewrite Hn. cbn [sgnR]. apply rz_lt; lia. }
      destruct H; [assumption|]. apply T4 in H. discriminate.
Qed.

Lemma c21_example :
  let x := BigFloat.mkBF 200 BigFloat.ToNearestEven BigFloat.Exact false (Finite (2 ^ 65 - 1) 0) in
  wf x /\ (p2 (-16445) <= Rabs (sgnR (neg x) (IZR (2 ^ 65 - 1) * p2 0)) < p2 16384)%R.
Proof.
  split; [apply Claims16.fin_wf; unfold MaxPrec, MinExp, MaxExp; vm_compute; intuition congruence|].
  cbn [neg sgnR]. change (p2 0) with 1%R. rewrite Rmult_1_r, Rabs_pos_eq by (apply IZR_le; lia). split.
  - apply Rle_trans with (p2 0); [apply p2_le; lia|]. change (p2 0) with (IZR 1). apply IZR_le. lia.
  - apply Rlt_le_trans with (p2 65); [|apply p2_le; lia]. rewrite <- IZR_pow2 by lia. apply IZR_lt. lia.
Qed.

Lemma c08_80 : forall s,
  (forall x, 0 <= x < 2 ^ 64 -> ieee 52 11 x = VNaN s ->
     Float80x86.NewFromFloat64 x = Ret ((if s then Float80x86.NegNaN else Float80x86.NaN), BigFloat.Exact)) /\
  (forall x, 0 <= x < 2 ^ 64 -> ieee 52 11 x = VInf s ->
     Float80x86.NewFromFloat64 x = Ret ((if s then Float80x86.NegInf else Float80x86.Inf), BigFloat.Exact)) /\
  (forall x, 0 <= x < 2 ^ 64 -> ieee 52 11 x = VNum s 0 ->
     Float80x86.NewFromFloat64 x = Ret ((if s then Float80x86.NegZero else Float80x86.Zero), BigFloat.Exact)) /\
  (forall x, 0 <= x < 2 ^ 32 -> ieee 23 8 x = VNaN s ->
     Float80x86.NewFromFloat32 x = Ret ((if s then Float80x86.NegNaN else Float80x86.NaN), BigFloat.Exact)) /\
  (forall x, 0 <= x < 2 ^ 32 -> ieee 23 8 x = VInf s ->
     Float80x86.NewFromFloat32 x = Ret ((if s then Float80x86.NegInf else Float80x86.Inf), BigFloat.Exact)) /\
  (forall x, 0 <= x < 2 ^ 32 -> ieee 23 8 x = VNum s 0 ->
     Float80x86.NewFromFloat32 x = Ret ((if s then Float80x86.NegZero else Float80x86.Zero), BigFloat.Exact)) /\
  (forall x, wf x -> bval x = VInf s ->
     Float80x86.NewFromBig x = ((if s then Float80x86.NegInf else Float80x86.Inf), BigFloat.Exact)) /\
  (forall x, wf x -> bval x = VNum s 0 ->
     Float80x86.NewFromBig x = ((if s then Float80x86.NegZero else Float80x86.Zero), BigFloat.Exact)) /\
  (let c := (if s then Float80x86.NegNaN else Float80x86.NaN) in x87 (Float80x86.se c) (Float80x86.m c) = VNaN s) /\
  (let c := (if s then Float80x86.NegInf else Float80x86.Inf) in x87 (Float80x86.se c) (Float80x86.m c) = VInf s) /\
  (let c := (if s then Float80x86.NegZero else Float80x86.Zero) in x87 (Float80x86.se c) (Float80x86.m c) = VNum s 0).
Proof.
  intros s. assert (Z64 : forall x, 0 <= x < 2 ^ 64 -> ieee 52 11 x = VNum s 0 ->
     Float80x86.NewFromFloat64 x = Ret ((if s then Float80x86.NegZero else Float80x86.Zero), BigFloat.Exact)).
  { intros x Hx Hv. destruct (nff64_correct x Hx) as (f & -> & Hf & Hfv & Hc). do 2 f_equal.
    destruct (zero_pattern s) as (V & O & C). rewrite Hv in Hfv, Hc.
    apply value_inj; [exact Hf|exact O|exact Hc|exact C|congruence]. }
  split; [intros x Hx Hv; apply nff64_nan; assumption|].
  split; [intros x Hx Hv; apply nff64_inf; assumption|].
  split; [exact Z64|].
  assert (A : forall x, 0 <= x < 2 ^ 32 -> Float80x86.NewFromFloat32 x = Float80x86.NewFromFloat64 (BigFloat.f32_to_f64 x) /\
     0 <= BigFloat.f32_to_f64 x < 2 ^ 64 /\ ieee 52 11 (BigFloat.f32_to_f64 x) = ieee 23 8 x).
  { intros x Hx. destruct (f32_to_f64_correct x Hx) as [Hr Hv]. rewrite nff32_eq by exact Hx. auto. }
  split; [intros x Hx Hv; destruct (A x Hx) as (-> & ? & ?); apply nff64_nan; congruence|].
  split; [intros x Hx Hv; destruct (A x Hx) as (-> & ? & ?); apply nff64_inf; congruence|].
  split; [intros x Hx Hv; destruct (A x Hx) as (-> & ? & ?); apply Z64; congruence|].
  split; [intros x Hw Hv; pose proof (NewFromBig_special x) as H; rewrite Hv in H; exact H|].
  split; [intros x Hw Hv; pose proof (NewFromBig_special x) as H; rewrite Hv in H; auto|].
  split; [apply nan_pattern|]. split; [apply inf_pattern|apply zero_pattern].
Qed.

Lemma c09_80 : forall x, wf x ->
  let (f, a) := Float80x86.NewFromBig x in
  Float80x86.NewFromBig (BigFloat.NegSelf x) =
    (Float80x86.NewFromBits (Z.lxor (Float80x86.se f) (2 ^ 15)) (Float80x86.m f), a).
Proof.
  exact NewFromBig_neg.
Qed.

