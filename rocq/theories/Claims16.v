(** The lemmas behind the binary16 theorems. *)
From Coq Require Import ZArith Reals Lia Lra Bool List String.
From Flocq Require Import Core.
From Verif Require Import GoBase.
From Verif Require BigFloat Binary16.
From Verif Require Import Spec BitFacts RoundFacts IeeeFacts BigFacts BigFacts2 FmtFacts PkgFacts Facts16.
Import BigFloat (bitlen, gexp, prec, rmode, acc, neg, frm, Finite, MaxExp, MinExp, MaxPrec).
Open Scope Z_scope.

Lemma c01 b : 0 <= b < 2 ^ 16 ->
  let f := Binary16.NewFromBits b in
  Binary16.Bits f = b /\
  0 <= Binary16.Exp f < 2 ^ 5 /\ 0 <= Binary16.Frac f < 2 ^ 10 /\
  Z.b2z (Binary16.Signbit f) * 2 ^ 15 + Binary16.Exp f * 2 ^ 10 + Binary16.Frac f = b.
Proof.
  intros Hb f. destruct (fields b Hb) as (s & E & F & HE & HF & Ef & HS & HX & HY).
  change f with b. rewrite HS, HX, HY.
  split; [reflexivity|]. split; [exact HE|]. split; [exact HF|]. rewrite Ef. reflexivity.
Qed.

Lemma c02 b : 0 <= b < 2 ^ 16 ->
  exists x nan, Binary16.Big (Binary16.NewFromBits b) = Ret (x, nan) /\
    wf x /\ prec x = 11 /\ rmode x = BigFloat.ToNearestEven /\ acc x = BigFloat.Exact /\
    match ieee 10 5 b with
    | VNaN s => nan = true /\ bval x = VNum s 0
    | v => nan = false /\ bval x = v
    end.
Proof.
  intros Hb. destruct (Big_correct b Hb) as (x & nan & HB & (H1 & H2 & H3 & H4) & Hv).
  exists x, nan. auto 10.
Qed.

Lemma c03 b : 0 <= b < 2 ^ 16 -> (forall s, ieee 10 5 b <> VNaN s) ->
  exists x, Binary16.Big (Binary16.NewFromBits b) = Ret (x, false) /\
    Binary16.NewFromBig x = (Binary16.NewFromBits b, BigFloat.Exact).
Proof. exact (roundtrip b). Qed.

Lemma c04 f : 0 <= f < 2 ^ 16 ->
  exists d g, Binary16.Float64 f = Ret (d, BigFloat.Exact) /\ 0 <= d < 2 ^ 64 /\ ieee 52 11 d = ieee 10 5 f /\
    Binary16.Float32 f = Ret (g, BigFloat.Exact) /\ 0 <= g < 2 ^ 32 /\ ieee 23 8 g = ieee 10 5 f /\
    let f' := match ieee 10 5 f with
              | VNaN s => if s then Binary16.NegNaN else Binary16.NaN
              | _ => f
              end in
    Binary16.NewFromFloat64 d = Ret (f', BigFloat.Exact) /\
    Binary16.NewFromFloat32 g = Ret (f', BigFloat.Exact).
Proof.
  intros Hf. destruct (Float64_correct f Hf) as (d & Hd & Hdr & Hdv).
  destruct (Float32_correct f Hf) as (g & Hg & Hgr & Hgv).
  exists d, g. cbv zeta. rewrite (nff32_eq g Hgr).
  destruct (f32_to_f64_correct g Hgr) as [Hr Hv].
  rewrite (back64 f d Hf Hdr Hdv), (back64 f _ Hf Hr) by congruence. auto 10.
Qed.

(** A computed value differing from ToFloat's is wrongly rounded. *)
Lemma round_oracle mb eb x m e b : 0 <= mb -> 2 <= eb -> 2 ^ (eb - 1) <= MaxExp -> frm x = Finite m e -> wf x ->
  0 <= b < 2 ^ (mb + eb + 1) -> (forall s, ieee mb eb b <> VNaN s) ->
  fst (BigFloat.ToFloat mb eb x) <> b ->
  ieee mb eb b <> ieee_round mb eb (neg x) (sgnR (neg x) (IZR m * p2 e)).
Proof.
  intros Hm He Hmax Hf Hw Hb Hn Hne C.
  pose proof (ToFloat_correct mb eb x m e Hm He Hmax Hf Hw) as H.
  destruct (BigFloat.ToFloat mb eb x) as [b' a]. destruct H as (H1 & H2 & _). cbn [fst] in Hne.
  apply Hne. symmetry. apply (ieee_inj mb eb); try lia; congruence.
Qed.

Lemma fin_wf p md a s m e : 0 < p <= MaxPrec -> 0 < m < 2 ^ p -> MinExp <= gexp m e <= MaxExp ->
  wf (BigFloat.mkBF p md a s (Finite m e)).
Proof.
  intros Hp Hm Hg. unfold wf. cbn [prec frm]. split; [lia|]. split; [lia|]. split; [|exact Hg].
  apply sigbits_lt. lia.
Qed.

(** The float64 patterns of the refutations, as big.Floats. *)
Lemma c05_refuted :
  exists x s v b a, 0 <= x < 2 ^ 64 /\ ieee 52 11 x = VNum s v /\
    Binary16.NewFromFloat64 x = Ret (b, a) /\ ieee 10 5 b <> ieee_round 10 5 s v.
Proof.
  (* 2^17, which comes out as 0 *)
  exists 0x4100000000000000, false, (sgnR false (IZR 1 * p2 17)), 0, BigFloat.Above.
  split; [lia|]. split.
  - change 0x4100000000000000 with (enc 52 11 false 1040 0).
    rewrite ieee_enc_norm by lia. f_equal. cbn [sgnR].
    change (2 ^ 52 + 0) with (1 * 2 ^ 52). rewrite scale_R by lia. reflexivity.
  - split; [reflexivity|].
    apply (round_oracle 10 5 (BigFloat.mkBF 53 BigFloat.ToNearestEven BigFloat.Exact false (Finite 1 17)) 1 17);
      try lia; try reflexivity; try (unfold MaxExp; lia).
    + apply fin_wf; unfold MaxPrec, MinExp, MaxExp; cbn; lia.
    + intros s. change 0 with (enc 10 5 false 0 0). rewrite ieee_enc_sub by lia. discriminate.
    + vm_compute. discriminate.
Qed.

Lemma c05_refuted_subnormal :
  exists x s v b a, 0 <= x < 2 ^ 64 /\ ieee 52 11 x = VNum s v /\ (Rabs v < p2 (-14))%R /\
    Binary16.NewFromFloat64 x = Ret (b, a) /\ ieee 10 5 b <> ieee_round 10 5 s v.
Proof.
  (* 1023.5 * 2^-24 *)
  exists 0x3F0FFC0000000000, false, (sgnR false (IZR 2047 * p2 (-25))), 0x03FF, BigFloat.Exact.
  split; [lia|]. split.
  - change 0x3F0FFC0000000000 with (enc 52 11 false 1008 0xFFC0000000000).
    rewrite ieee_enc_norm by lia. f_equal. cbn [sgnR].
    change (2 ^ 52 + 0xFFC0000000000) with (2047 * 2 ^ 42). rewrite scale_R by lia. reflexivity.
  - split.
    + cbn [sgnR]. rewrite Rabs_pos_eq by (left; apply val_pos; lia).
      change (-14) with (11 + -25). rewrite p2_plus. apply Rmult_lt_compat_r; [apply p2_pos|].
      rewrite <- IZR_pow2 by lia. apply IZR_lt. lia.
    + split; [reflexivity|].
      apply (round_oracle 10 5 (BigFloat.mkBF 53 BigFloat.ToNearestEven BigFloat.Exact false (Finite 2047 (-25))) 2047 (-25));
        try lia; try reflexivity; try (unfold MaxExp; lia).
      * apply fin_wf; unfold MaxPrec, MinExp, MaxExp; cbn; lia.
      * intros s. change 0x03FF with (enc 10 5 false 0 0x3FF). rewrite ieee_enc_sub by lia. discriminate.
      * vm_compute. discriminate.
Qed.

Lemma c05_partial x s v : 0 <= x < 2 ^ 64 -> ieee 52 11 x = VNum s v ->
  v = 0%R \/ (p2 (-14) <= Rabs v < p2 16)%R \/ fits 10 5 v ->
  exists b a, Binary16.NewFromFloat64 x = Ret (b, a) /\ 0 <= b < 2 ^ 16 /\
    ieee 10 5 b = ieee_round 10 5 s v.
Proof.
  intros Hx Hv H.
  assert (K : fits 10 5 v \/ (p2 (-14) <= Rabs v < p2 16)%R).
  { destruct H as [->|[H|H]]; auto. left. apply fits_0. lia. }
  destruct K as [K|K].
  - destruct (nff64_fits x s v Hx Hv K) as (b & E & Hb & Hbv). exists b, BigFloat.Exact.
    rewrite Hbv, (fits_round 10 5 s v ltac:(lia) K). auto.
  - destruct (nff64_normal x s v Hx Hv K) as (b & a & H1 & H2 & H3 & _). exists b, a. auto.
Qed.

Lemma c06_refuted :
  exists x s v b a, 0 <= x < 2 ^ 64 /\ ieee 52 11 x = VNum s v /\
    Binary16.NewFromFloat64 x = Ret (b, a) /\ ~ acc_ok a (ieee 10 5 b) v.
Proof.
  (* 1 + 2^-52 *)
  exists 0x3FF0000000000001, false, (sgnR false (IZR (2 ^ 52 + 1) * p2 (-52))), 0x3C00, BigFloat.Exact.
  split; [lia|]. split.
  - change 0x3FF0000000000001 with (enc 52 11 false 1023 1). rewrite ieee_enc_norm by lia. reflexivity.
  - split; [reflexivity|].
    change 0x3C00 with (enc 10 5 false 15 0). rewrite ieee_enc_norm by lia. cbn [acc_ok sgnR].
    intros C. change (2 ^ 10 + 0) with (1 * 2 ^ 10) in C. rewrite scale_R in C by lia.
    change (15 + 1 - 2 ^ (5 - 1) - 10 + 10) with (52 + -52) in C.
    rewrite p2_plus, <- Rmult_assoc, Rmult_1_l in C.
    apply Rmult_eq_reg_r in C; [|apply Rgt_not_eq, p2_pos].
    rewrite <- IZR_pow2 in C by lia. apply eq_IZR in C. discriminate.
Qed.

Lemma c06_partial x s v : 0 <= x < 2 ^ 64 -> ieee 52 11 x = VNum s v -> fits 10 5 v ->
  exists b a, Binary16.NewFromFloat64 x = Ret (b, a) /\ acc_ok a (ieee 10 5 b) v.
Proof.
  intros Hx Hv K. destruct (nff64_fits x s v Hx Hv K) as (b & E & Hb & Hbv).
  exists b, BigFloat.Exact. rewrite Hbv. split; [exact E|reflexivity].
Qed.

Lemma c07_refuted :
  exists x m e, wf x /\ frm x = Finite m e /\
    let v := sgnR (neg x) (IZR m * p2 e) in
    ieee 10 5 (fst (Binary16.NewFromBig x)) <> ieee_round 10 5 (neg x) v.
Proof.
  (* 1 + 2^-10 - 2^-30, a little below 1 + 2^-10 *)
  exists (BigFloat.mkBF 53 BigFloat.ToNearestEven BigFloat.Exact false (Finite (2 ^ 30 + 2 ^ 20 - 1) (-30))),
    (2 ^ 30 + 2 ^ 20 - 1), (-30).
  split; [apply fin_wf; unfold MaxPrec, MinExp, MaxExp; cbn; lia|]. split; [reflexivity|].
  cbv zeta. apply round_oracle; try lia; try reflexivity; try (unfold MaxExp; lia).
  - apply fin_wf; unfold MaxPrec, MinExp, MaxExp; cbn; lia.
  - apply NewFromBig_range.
  - intros s. change (fst (Binary16.NewFromBig _)) with (enc 10 5 false 15 0).
    rewrite ieee_enc_norm by lia. discriminate.
  - vm_compute. discriminate.
Qed.

Lemma c07_partial x m e : wf x -> frm x = Finite m e ->
  let v := sgnR (neg x) (IZR m * p2 e) in
  (p2 (-24) <= Rabs v < p2 16)%R ->
  ieee 10 5 (fst (Binary16.NewFromBig x)) = VNum (neg x) (rz 10 5 v) /\
  (fits 10 5 v -> Binary16.NewFromBig x = (fst (Binary16.NewFromBig x), BigFloat.Exact) /\
                  ieee 10 5 (fst (Binary16.NewFromBig x)) = ieee_round 10 5 (neg x) v) /\
  ((p2 (-14) <= v)%R -> acc_ok (snd (Binary16.NewFromBig x)) (ieee 10 5 (fst (Binary16.NewFromBig x))) v).
Proof.
  intros Hw Hf v [Hlo Hhi].
  assert (Hm : 0 < m) by (destruct Hw as [_ W]; rewrite Hf in W; apply W).
  pose proof (gexp_lower (neg x) m e (-24) Hm Hlo) as G1. pose proof (gexp_upper (neg x) m e 16 Hm Hhi) as G2.
  pose proof (NewFromBig_trunc x m e Hf Hw ltac:(lia)) as T. fold v in T.
  destruct (Binary16.NewFromBig x) as [b a]. cbn [fst snd].
  destruct T as (T1 & T2 & T3 & T4 & T5). split; [exact T2|]. split.
  - intros Hfit. rewrite (fits_rz 10 5 v ltac:(lia) Hfit) in T2, T4.
    rewrite T2, (fits_round 10 5 (neg x) v ltac:(lia) Hfit).
    split; [|reflexivity]. f_equal.
    destruct (Z_le_gt_dec (gexp m e) (-14)); [auto|]. apply T4; [lia|reflexivity].
  - intros Hv. rewrite T2.
    assert (Hpos : (0 < v)%R) by (apply Rlt_le_trans with (2 := Hv); apply p2_pos).
    assert (Hn : neg x = false).
    { destruct (neg x) eqn:En; [|reflexivity]. exfalso. unfold v in Hpos. cbn [sgnR] in Hpos.
      pose proof (val_pos m e Hm). lra. }
    assert (G3 : -14 < gexp m e).
    { apply (gexp_lower (neg x) m e (-14) Hm). fold v. rewrite Rabs_pos_eq by lra. exact Hv. }
    specialize (T4 G3). destruct T3 as [-> | ->].
    + cbn. apply T4. reflexivity.
    + cbn. assert (rz 10 5 v <= v)%R.
      { unfold v. rewrite Hn. cbn [sgnR]. apply rz_lt; lia. }
      destruct H; [assumption|]. apply T4 in H. discriminate.
Qed.

Lemma c09 x : wf x ->
  Binary16.NewFromBig (BigFloat.NegSelf x) =
  (Z.lxor (fst (Binary16.NewFromBig x)) (2 ^ 15), snd (Binary16.NewFromBig x)).
Proof. exact (NewFromBig_neg x). Qed.

Lemma c06_example : 0 <= 0x3FF8000000000000 < 2 ^ 64 /\
  ieee 52 11 0x3FF8000000000000 = VNum false (IZR (3 * 2 ^ 51) * p2 (-52)) /\
  fits 10 5 (IZR (3 * 2 ^ 51) * p2 (-52)) /\
  Binary16.NewFromFloat64 0x3FF8000000000000 = Ret (0x3E00, BigFloat.Exact) /\
  Binary16.NewFromFloat64 0x3FF0000000000001 = Ret (0x3C00, BigFloat.Exact).
Proof.
  split; [lia|]. split; [reflexivity|]. split; [|split; vm_compute; reflexivity].
  rewrite scale_R by lia. split.
  - exists 3, (-1). split; [reflexivity|lia].
  - rewrite Rabs_pos_eq by (left; apply val_pos; lia).
    change (2 ^ (5 - 1)) with (17 + -1). change (-52 + 51) with (-1). rewrite p2_plus.
    apply Rmult_lt_compat_r; [apply p2_pos|]. rewrite <- IZR_pow2 by lia. apply IZR_lt. lia.
Qed.

Lemma c07_example :
  let x := BigFloat.mkBF 53 BigFloat.ToNearestEven BigFloat.Exact false (Finite (2 ^ 12 + 3) (-12)) in
  wf x /\ (p2 (-24) <= Rabs (sgnR (neg x) (IZR (2 ^ 12 + 3) * p2 (-12))) < p2 16)%R /\
  Binary16.NewFromBig x = (0x3C00, BigFloat.Below).
Proof.
  intros x. split; [apply fin_wf; unfold MaxPrec, MinExp, MaxExp; cbn; lia|].
  split; [|vm_compute; reflexivity].
  cbn [neg x sgnR]. rewrite Rabs_pos_eq by (left; apply val_pos; lia). split.
  - change (-24) with (-12 + -12). rewrite p2_plus. apply Rmult_le_compat_r; [left; apply p2_pos|].
    apply Rle_trans with (p2 0); [apply p2_le; lia|]. apply IZR_le. lia.
  - change 16 with (28 + -12). rewrite p2_plus. apply Rmult_lt_compat_r; [apply p2_pos|].
    rewrite <- IZR_pow2 by lia. apply IZR_lt. lia.
Qed.

Lemma c08_16 s :
  (forall x, 0 <= x < 2 ^ 64 -> ieee 52 11 x = VNaN s ->
     Binary16.NewFromFloat64 x = Ret ((if s then Binary16.NegNaN else Binary16.NaN), BigFloat.Exact)) /\
  (forall x, 0 <= x < 2 ^ 64 -> ieee 52 11 x = VInf s ->
     Binary16.NewFromFloat64 x = Ret ((if s then Binary16.NegInf else Binary16.Inf), BigFloat.Exact)) /\
  (forall x, 0 <= x < 2 ^ 64 -> ieee 52 11 x = VNum s 0 ->
     Binary16.NewFromFloat64 x = Ret ((if s then Binary16.NegZero else Binary16.Zero), BigFloat.Exact)) /\
  (forall x, 0 <= x < 2 ^ 32 -> ieee 23 8 x = VNaN s ->
     Binary16.NewFromFloat32 x = Ret ((if s then Binary16.NegNaN else Binary16.NaN), BigFloat.Exact)) /\
  (forall x, 0 <= x < 2 ^ 32 -> ieee 23 8 x = VInf s ->
     Binary16.NewFromFloat32 x = Ret ((if s then Binary16.NegInf else Binary16.Inf), BigFloat.Exact)) /\
  (forall x, 0 <= x < 2 ^ 32 -> ieee 23 8 x = VNum s 0 ->
     Binary16.NewFromFloat32 x = Ret ((if s then Binary16.NegZero else Binary16.Zero), BigFloat.Exact)) /\
  (forall x, wf x -> bval x = VInf s ->
     Binary16.NewFromBig x = ((if s then Binary16.NegInf else Binary16.Inf), BigFloat.Exact)) /\
  (forall x, wf x -> bval x = VNum s 0 ->
     Binary16.NewFromBig x = ((if s then Binary16.NegZero else Binary16.Zero), BigFloat.Exact)) /\
  ieee 10 5 (if s then Binary16.NegNaN else Binary16.NaN) = VNaN s /\
  ieee 10 5 (if s then Binary16.NegInf else Binary16.Inf) = VInf s /\
  ieee 10 5 (if s then Binary16.NegZero else Binary16.Zero) = VNum s 0.
Proof.
  assert (Z64 : forall x, 0 <= x < 2 ^ 64 -> ieee 52 11 x = VNum s 0 ->
     Binary16.NewFromFloat64 x = Ret ((if s then Binary16.NegZero else Binary16.Zero), BigFloat.Exact)).
  { intros x Hx Hv. pose proof (back64 (if s then Binary16.NegZero else Binary16.Zero) x) as B.
    rewrite zero_pattern in B. apply B; [|exact Hx|exact Hv].
    destruct s; unfold Binary16.NegZero, Binary16.Zero; lia. }
  split; [intros x Hx Hv; apply nff64_nan; assumption|].
  split; [intros x Hx Hv; apply nff64_inf; assumption|].
  split; [exact Z64|].
  assert (A : forall x, 0 <= x < 2 ^ 32 -> Binary16.NewFromFloat32 x = Binary16.NewFromFloat64 (BigFloat.f32_to_f64 x) /\
     0 <= BigFloat.f32_to_f64 x < 2 ^ 64 /\ ieee 52 11 (BigFloat.f32_to_f64 x) = ieee 23 8 x).
  { intros x Hx. destruct (f32_to_f64_correct x Hx) as [Hr Hv]. rewrite nff32_eq by exact Hx. auto. }
  split; [intros x Hx Hv; destruct (A x Hx) as (-> & ? & ?); apply nff64_nan; congruence|].
  split; [intros x Hx Hv; destruct (A x Hx) as (-> & ? & ?); apply nff64_inf; congruence|].
  split; [intros x Hx Hv; destruct (A x Hx) as (-> & ? & ?); apply Z64; congruence|].
  split; [intros x Hw Hv; pose proof (NewFromBig_special x) as H; rewrite Hv in H; exact H|].
  split; [intros x Hw Hv; pose proof (NewFromBig_special x) as H; rewrite Hv in H; auto|].
  split; [apply nan_pattern|]. split; [apply inf_pattern|apply zero_pattern].
Qed.

Lemma c05_32 : forall x, 0 <= x < 2 ^ 32 -> exists y, 0 <= y < 2 ^ 64 /\ ieee 52 11 y = ieee 23 8 x /\
  Binary16.NewFromFloat32 x = Binary16.NewFromFloat64 y.
Proof.
  intros x Hx. exists (BigFloat.f32_to_f64 x). destruct (f32_to_f64_correct x Hx) as [H1 H2].
  split; [exact H1|]. split; [exact H2|]. apply nff32_eq, Hx.
Qed.
