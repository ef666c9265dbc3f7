(** Hosts with a 32-bit int: where the packages behave differently. *)
From Coq Require Import ZArith Reals Lia Lra Bool List String.
From Flocq Require Import Core.
From Verif Require Import GoBase.
From Verif Require BigFloat Binary16 Binary128 Float80x86.
From Verif Require Import Spec BitFacts RoundFacts IeeeFacts BigFacts BigFacts2 FmtFacts PkgFacts.
From Verif Require Import AllBig.
From Verif Require Facts16 Facts128 Facts80 Claims128.
Import BigFloat (bitlen, gexp, prec, rmode, acc, neg, frm, Finite, MaxExp, MinExp, MaxPrec).
Open Scope Z_scope.

Lemma sint_id w x : 0 < w -> - 2 ^ (w - 1) <= x < 2 ^ (w - 1) -> sint w x = x.
Proof.
  intros Hw H. unfold sint. replace w with (w - 1 + 1) at 2 by lia.
  rewrite Z.pow_add_r by lia. rewrite Z.mod_small by lia. lia.
Qed.

(** 32 bits, just above the range *)
Lemma sint32_over x : 2 ^ 31 <= x < 2 ^ 31 + 2 ^ 15 -> sint 32 x = x - 2 ^ 32.
Proof.
  intros H. unfold sint. change (32 - 1) with 31.
  replace (x + 2 ^ 31) with (x - 2 ^ 31 + 1 * 2 ^ 32) by lia. rewrite Z.mod_add by lia. rewrite Z.mod_small by lia. lia.
Qed.

Lemma wf_gexp x m e : wf x -> frm x = Finite m e -> MinExp <= gexp m e <= MaxExp.
Proof. intros [_ W] F. rewrite F in W. apply W. Qed.

(** *** NewFromBig on any host is the 64-bit one applied to the wrapped exponent. *)
Section same.
Variables (x : BigFloat.bigfloat).
Hypothesis W : wf x.

Lemma int_same16 f : (forall m e, frm x = Finite m e -> f (gexp m e - 1 + 15) = gexp m e - 1 + 15) ->
  Binary16.NewFromBig_int f x = Binary16.NewFromBig x.
Proof.
  intros H. unfold Binary16.NewFromBig, Binary16.NewFromBig_int, BigFloat.IsInf, BigFloat.MantExp, Binary16.bias.
  destruct (frm x) as [|m e|] eqn:F.
  - rewrite Cmp_zero, F by reflexivity. reflexivity.
  - rewrite Cmp_zero, F by reflexivity. cbn [Z.eqb]. rewrite (H m e eq_refl). reflexivity.
  - reflexivity.
Qed.
Lemma int_same80 f : (forall m e, frm x = Finite m e -> f (gexp m e - 1 + 16383) = gexp m e - 1 + 16383) ->
  Float80x86.NewFromBig_int f x = Float80x86.NewFromBig x.
Proof.
  intros H. unfold Float80x86.NewFromBig, Float80x86.NewFromBig_int, BigFloat.IsInf, BigFloat.MantExp, Float80x86.bias.
  destruct (frm x) as [|m e|] eqn:F.
  - rewrite Cmp_zero, F by reflexivity. reflexivity.
  - rewrite Cmp_zero, F by reflexivity. cbn [Z.eqb]. rewrite (H m e eq_refl). reflexivity.
  - reflexivity.
Qed.
Lemma int_same128 f : (forall m e, frm x = Finite m e -> f (gexp m e - 1 + 16383) = gexp m e - 1 + 16383) ->
  Binary128.NewFromBig_int f x = Binary128.NewFromBig x.
Proof.
  intros H. unfold Binary128.NewFromBig, Binary128.NewFromBig_int, BigFloat.IsInf, BigFloat.MantExp, Binary128.bias.
  destruct (frm x) as [|m e|] eqn:F.
  - rewrite Cmp_zero, F by reflexivity. reflexivity.
  - rewrite Cmp_zero, F by reflexivity. cbn [Z.eqb]. rewrite (H m e eq_refl). reflexivity.
  - reflexivity.
Qed.
End same.

(** All values of int64: nothing wraps. *)
Lemma host64 : forall x, wf x ->
  Binary16.NewFromBig_host 64 x = Binary16.NewFromBig x /\
  Float80x86.NewFromBig_host 64 x = Float80x86.NewFromBig x /\
  Binary128.NewFromBig_host 64 x = Binary128.NewFromBig x.
Proof.
  intros x W. assert (H : forall m e b, frm x = Finite m e -> 0 <= b < 2 ^ 15 -> sint 64 (gexp m e - 1 + b) = gexp m e - 1 + b).
  { intros m e b F Hb. pose proof (wf_gexp x m e W F) as G. unfold MinExp, MaxExp in G. apply sint_id; lia. }
  split; [|split].
  - apply int_same16. intros m e F. apply H; [exact F|lia].
  - apply int_same80. intros m e F. apply H; [exact F|lia].
  - apply int_same128. intros m e F. apply H; [exact F|lia].
Qed.

(** A 32-bit host agrees below 2^(2^31 - bias). *)
Lemma mag_gexp x m e k : wf x -> frm x = Finite m e -> 
  (forall s v, bval x = VNum s v -> (Rabs v < p2 k)%R) -> gexp m e <= k.
Proof.
  intros W F H. assert (Hm : 0 < m) by (destruct W as [_ W]; rewrite F in W; apply W).
  apply (gexp_upper (neg x) m e k Hm). apply (H (neg x)). unfold bval. rewrite F. reflexivity.
Qed.

Lemma host32_low : forall x, wf x ->
  ((forall s v, bval x = VNum s v -> (Rabs v < p2 (2 ^ 31 - 15))%R) ->
     Binary16.NewFromBig_host 32 x = Binary16.NewFromBig x) /\
  ((forall s v, bval x = VNum s v -> (Rabs v < p2 (2 ^ 31 - 16383))%R) ->
     Float80x86.NewFromBig_host 32 x = Float80x86.NewFromBig x /\
     Binary128.NewFromBig_host 32 x = Binary128.NewFromBig x).
Proof.
  intros x W. assert (H : forall m e b, frm x = Finite m e -> gexp m e <= 2 ^ 31 - b -> 1 <= b < 2 ^ 15 -> sint 32 (gexp m e - 1 + b) = gexp m e - 1 + b).
  { intros m e b F L Hb. pose proof (wf_gexp x m e W F) as G. unfold MinExp in G. apply sint_id; lia. }
  split; [|split]; intros.
  - apply int_same16. intros m e F. apply H; [exact F| |lia]. apply (mag_gexp x m e); assumption.
  - apply int_same80. intros m e F. apply H; [exact F| |lia]. apply (mag_gexp x m e); assumption.
  - apply int_same128. intros m e F. apply H; [exact F| |lia]. apply (mag_gexp x m e); assumption.
Qed.

(** Beyond, the exponent becomes negative. *)
Lemma wrap16 x m e f : frm x = Finite m e -> wf x -> f (gexp m e - 1 + 15) <= -10 ->
  Binary16.NewFromBig_int f x = (Z.b2z (neg x) * 2 ^ 15 + top 20 m mod 2 ^ 11, BigFloat.Below).
Proof.
  intros Hf Hw Hk. unfold Binary16.NewFromBig_int.
  unfold BigFloat.IsInf. rewrite Hf, Cmp_zero, Hf by reflexivity.
  rewrite (MantExp_finite x m e Hf). unfold Binary16.bias, Binary16.precision, BigFloat.Signbit.
  set (E := f (gexp m e - 1 + 15)) in *.
  rewrite (proj2 (Z.leb_le E 0)) by lia. rewrite (proj2 (Z.leb_le E (- (11 - 1)))) by lia.
  change (11 - 1 + 11 - 1) with 20.
  destruct (scaled_mant x m e 20 Hf Hw ltac:(unfold MinExp, MaxExp; lia)) as (U & _ & _ & _ & _ & C).
  cbv zeta in *. unfold absb in C. rewrite C. specialize (U ltac:(lia)).
  destruct (BigFloat.Uint64 _) as [mant a]. cbn [fst] in U. rewrite U. f_equal.
  change 0x7FF with (2 ^ 11 - 1). rewrite land_ones_mod by lia.
  pose proof (Z.mod_pos_bound (top 20 m) (2 ^ 11) ltac:(lia)).
  unfold u16. rewrite Z.mod_small by lia. apply Facts16.sign_or. lia.
Qed.

Lemma wrap80 x m e f : frm x = Finite m e -> wf x -> f (gexp m e - 1 + 16383) <= -63 ->
  Float80x86.NewFromBig_int f x = (Facts80.mk (neg x) 0 (2 ^ 63 - 1), BigFloat.Below).
Proof.
  intros Hf Hw Hk. unfold Float80x86.NewFromBig_int.
  unfold BigFloat.IsInf. rewrite Hf, Cmp_zero, Hf by reflexivity.
  rewrite (MantExp_finite x m e Hf). unfold Float80x86.bias, Float80x86.precision, BigFloat.Signbit.
  set (E := f (gexp m e - 1 + 16383)) in *.
  rewrite (proj2 (Z.leb_le E 0)) by lia. rewrite (proj2 (Z.leb_le E (- (64 - 1)))) by lia.
  change (64 - 1 + 64 - 1) with 126.
  destruct (scaled_mant x m e 126 Hf Hw ltac:(unfold MinExp, MaxExp; lia)) as (_ & _ & _ & _ & _ & C).
  cbv zeta in *. unfold absb at 1 in C. rewrite C.
  destruct (absb_facts x) as (A1 & A2 & A3 & A4).
  destruct (mant_scaled (absb x) m e 126 ltac:(rewrite A3; exact Hf) (absb_wf x Hw) ltac:(unfold MinExp, MaxExp; lia))
    as (P1 & P2 & m' & e' & P3 & P4 & P5 & P6 & P7).
  rewrite <- absb_MantExp in P1, P2, P3. rewrite A1 in P2.
  unfold BigFloat.Uint64. rewrite P3, P2, P6. cbn [Z.leb Z.compare]. 
  rewrite Facts80.sign_only. reflexivity.
Qed.

Lemma wrap128 x m e f : frm x = Finite m e -> wf x -> f (gexp m e - 1 + 16383) <= -112 ->
  Binary128.NewFromBig_int f x = Ret (Facts128.mk (neg x) 0 (top 224 m mod 2 ^ 112), BigFloat.Below).
Proof.
  intros Hf Hw Hk. unfold Binary128.NewFromBig_int.
  unfold BigFloat.IsInf. rewrite Hf, Cmp_zero, Hf by reflexivity.
  rewrite (MantExp_finite x m e Hf). unfold Binary128.bias, Binary128.precision, BigFloat.Signbit.
  set (E := f (gexp m e - 1 + 16383)) in *.
  rewrite (proj2 (Z.leb_le E 0)) by lia. rewrite (proj2 (Z.leb_le E (- (113 - 1)))) by lia.
  change (113 - 1 + 113 - 1) with 224.
  destruct (scaled_mant x m e 224 Hf Hw ltac:(unfold MinExp, MaxExp; lia)) as (_ & _ & _ & I & _ & C).
  cbv zeta in *. unfold absb in C. rewrite C. unfold absb in I. rewrite I.
  set (N := top 224 m) in *.
  change Binary128.maskA with ((2 ^ 48 - 1) * 2 ^ 64). rewrite land_field by lia. rewrite Facts128.splitB.
  pose proof (Z.mod_pos_bound (N / 2 ^ 64) (2 ^ 48) ltac:(lia)).
  pose proof (Z.mod_pos_bound N (2 ^ 64) ltac:(lia)).
  rewrite !Facts128.u64_small by lia.
  change 0x0000FFFFFFFFFFFF with (2 ^ 48 - 1). rewrite land_ones_mod, Z.mod_mod by lia.
  rewrite Facts128.sign_or by lia. unfold Facts128.mk. do 3 f_equal.
  - rewrite Z.mul_0_l, Z.add_0_r. f_equal.
    change (2 ^ 112) with (2 ^ 64 * 2 ^ 48). rewrite Z.rem_mul_r by lia.
    rewrite (Z.mul_comm (2 ^ 64)), Z.div_add by lia. rewrite (Z.div_small (N mod 2 ^ 64)) by lia. lia.
  - change (2 ^ 112) with (2 ^ 64 * 2 ^ 48). rewrite Z.rem_mul_r by lia.
    rewrite (Z.mul_comm (2 ^ 64)), Z.mod_add, Z.mod_mod by lia. reflexivity.
Qed.

Lemma host32_high : forall x s v k, wf x -> bval x = VNum s v -> (p2 k <= Rabs v < p2 (k + 1))%R ->
  let F n := Zfloor (Rabs v * p2 n) in
  (2 ^ 31 - 15 <= k ->
     Binary16.NewFromBig_host 32 x = ((if s then 2 ^ 15 else 0) + F (19 - k) mod 2 ^ 11, BigFloat.Below)) /\
  (2 ^ 31 - 16383 <= k ->
     Float80x86.NewFromBig_host 32 x = (Float80x86.mkFloat (if s then 2 ^ 15 else 0) (2 ^ 63 - 1), BigFloat.Below) /\
     let n := (if s then 2 ^ 127 else 0) + F (223 - k) mod 2 ^ 112 in
     Binary128.NewFromBig_host 32 x = Ret (Binary128.mkFloat (n / 2 ^ 64) (n mod 2 ^ 64), BigFloat.Below)).
Proof.
  intros x s v k W B H F. destruct (mag_finite x s v k W B H) as (m & e & Hf & Hm & Hn & G & A & T & Q).
  pose proof (wf_gexp x m e W Hf) as L. unfold MaxExp in L.
  split; intros K.
  - unfold Binary16.NewFromBig_host. rewrite (wrap16 x m e _ Hf W).
    + rewrite T. replace (20 - 1 - k) with (19 - k) by lia. fold (F (19 - k)). rewrite Hn. destruct s; reflexivity.
    + rewrite sint32_over; lia.
  - assert (E : sint 32 (gexp m e - 1 + 16383) <= -112) by (rewrite sint32_over; lia). split.
    + unfold Float80x86.NewFromBig_host. rewrite (wrap80 x m e _ Hf W) by lia.
      unfold Facts80.mk. rewrite Hn. destruct s; reflexivity.
    + unfold Binary128.NewFromBig_host. rewrite (wrap128 x m e _ Hf W E).
      rewrite T. replace (224 - 1 - k) with (223 - k) by lia. fold (F (223 - k)).
      rewrite mk128 by (apply Z.mod_pos_bound; lia). rewrite Hn, Z.mul_0_l, Z.add_0_r. reflexivity.
Qed.

(** *** binary128.Big and what is built on it *)
Definition clear (f : Binary128.Float) : Binary128.Float :=
  Binary128.mkFloat (Z.b2z (2 ^ 63 <=? Binary128.fa f) * 2 ^ 63 + Binary128.fa f mod 2 ^ 48) (Binary128.fb f).

Lemma clear_ok f : Facts128.ok f -> Facts128.ok (clear f).
Proof.
  intros [Ha Hb]. split; [|exact Hb]. cbn [clear Binary128.fa].
  pose proof (Z.mod_pos_bound (Binary128.fa f) (2 ^ 48) ltac:(lia)). destruct (2 ^ 63 <=? Binary128.fa f); cbn [Z.b2z]; lia.
Qed.

Lemma Big32 f : Facts128.ok f -> Binary128.Big_host 32 f = Binary128.Big (clear f).
Proof.
  intros Hf. assert (S : Binary128.Signbit (clear f) = Binary128.Signbit f /\ Binary128.Frac (clear f) = Binary128.Frac f /\ Binary128.Exp_host 64 (clear f) = 0).
  { destruct Hf as [Ha Hb]. set (a := Binary128.fa f) in *.
    pose proof (Z.mod_pos_bound a (2 ^ 48) ltac:(lia)) as M.
    assert (X : Binary128.fa (clear f) = Z.b2z (2 ^ 63 <=? a) * 2 ^ 63 + a mod 2 ^ 48) by reflexivity.
    unfold Binary128.Signbit, Binary128.Frac, Binary128.Exp_host. rewrite X. fold a.
    change 0x8000000000000000 with ((2 ^ 1 - 1) * 2 ^ 63). change 0x0000FFFFFFFFFFFF with (2 ^ 48 - 1).
    change 0x7FFF000000000000 with ((2 ^ 15 - 1) * 2 ^ 48).
    rewrite !land_mask_shift, !land_ones_mod by lia. split; [|split].
    - do 3 f_equal. destruct (Z.leb_spec (2 ^ 63) a); cbn [Z.b2z].
      + rewrite <- (Z.div_unique a (2 ^ 63) 1 (a - 2 ^ 63)) by lia.
        rewrite <- (Z.div_unique (1 * 2 ^ 63 + a mod 2 ^ 48) (2 ^ 63) 1 (a mod 2 ^ 48)) by lia. reflexivity.
      + rewrite !Z.div_small by lia. reflexivity.
    - f_equal. replace (Z.b2z (2 ^ 63 <=? a) * 2 ^ 63) with (Z.b2z (2 ^ 63 <=? a) * 2 ^ 15 * 2 ^ 48) by ring.
      rewrite Z.add_comm, Z.mod_add, Z.mod_mod by lia. reflexivity.
    - replace ((Z.b2z (2 ^ 63 <=? a) * 2 ^ 63 + a mod 2 ^ 48) / 2 ^ 48) with (Z.b2z (2 ^ 63 <=? a) * 2 ^ 15).
      + rewrite Z.mod_mul by lia. reflexivity.
      + apply Z.div_unique with (a mod 2 ^ 48); [lia|]. ring. }
  destruct S as (S1 & S2 & S3). unfold Binary128.Big, Binary128.Big_host.
  rewrite S1, S2, S3, (Claims128.c10_32 f (proj1 Hf)). reflexivity.
Qed.

Lemma Float64_32 f : Facts128.ok f -> Binary128.Float64_host 32 f = Binary128.Float64 (clear f).
Proof. intros H. unfold Binary128.Float64, Binary128.Float64_host. rewrite Big32 by exact H. reflexivity. Qed.
Lemma Float32_32 f : Facts128.ok f -> Binary128.Float32_host 32 f = Binary128.Float32 (clear f).
Proof. intros H. unfold Binary128.Float32, Binary128.Float32_host. rewrite Big32 by exact H. reflexivity. Qed.

Lemma clear_mk f : Facts128.ok f ->
  clear f = Facts128.mk (2 ^ 63 <=? Binary128.fa f) 0 (Binary128.fa f mod 2 ^ 48 * 2 ^ 64 + Binary128.fb f).
Proof.
  intros [Ha Hb]. unfold clear, Facts128.mk.
  rewrite (Z.add_comm (Binary128.fa f mod 2 ^ 48 * 2 ^ 64)), Z.div_add, Z.mod_add by lia.
  rewrite (Z.div_small (Binary128.fb f)), (Z.mod_small (Binary128.fb f)) by lia. f_equal. ring.
Qed.

Lemma clear_value f : Facts128.ok f ->
  let s := 2 ^ 63 <=? Binary128.fa f in
  quad (Binary128.fa (clear f)) (Binary128.fb (clear f)) =
  VNum s (sgnR s (IZR (Binary128.fa f mod 2 ^ 48 * 2 ^ 64 + Binary128.fb f) * p2 (-16494))).
Proof.
  intros Hf s. pose proof Hf as [Ha Hb]. pose proof (Z.mod_pos_bound (Binary128.fa f) (2 ^ 48) ltac:(lia)).
  rewrite (clear_mk f Hf). fold s.
  change (quad ?u ?v) with (Facts128.value (Binary128.mkFloat u v)).
  replace (Binary128.mkFloat _ _) with (Facts128.mk s 0 (Binary128.fa f mod 2 ^ 48 * 2 ^ 64 + Binary128.fb f)) by reflexivity.
  rewrite Facts128.value_mk by lia. unfold ieee_parts. cbn [Z.eqb]. reflexivity.
Qed.

Lemma ToFloat_tiny mb eb x m e : 0 < mb -> 0 < eb -> frm x = Finite m e -> gexp m e - 1 + mb + 2 ^ (eb - 1) - 1 < 0 ->
  BigFloat.ToFloat mb eb x = (if neg x then 2 ^ (mb + eb) else 0, if neg x then BigFloat.Above else BigFloat.Below).
Proof.
  intros Hmb Heb F L. unfold BigFloat.ToFloat. rewrite F. cbv zeta.
  pose proof (Z.pow_pos_nonneg 2 (eb - 1) ltac:(lia) ltac:(lia)).
  rewrite (proj2 (Z.ltb_lt (gexp m e - 1) (1 - (2 ^ (eb - 1) - 1)))) by lia.
  rewrite (proj2 (Z.ltb_lt (mb + 1 - (1 - (2 ^ (eb - 1) - 1)) + (gexp m e - 1)) 0)) by lia. cbn [orb].
  unfold BigFloat.with_sign, BigFloat.makeAcc. rewrite Z.lor_0_r. destruct (neg x); reflexivity.
Qed.

Lemma h11 : forall a b, 0 <= a < 2 ^ 64 -> 0 <= b < 2 ^ 64 ->
  let s := 2 ^ 63 <=? a in
  exists x, Binary128.Big_host 32 (Binary128.NewFromBits a b) = Ret (x, false) /\
    wf x /\ prec x = 113 /\ rmode x = BigFloat.ToNearestEven /\ acc x = BigFloat.Exact /\
    bval x = VNum s (sgnR s (IZR (a mod 2 ^ 48 * 2 ^ 64 + b) * p2 (-16494))).
Proof.
  intros a b Ha Hb s. set (f := Binary128.NewFromBits a b). assert (Hf : Facts128.ok f) by (split; assumption).
  rewrite (Big32 f Hf). pose proof (clear_ok f Hf) as [C1 C2].
  destruct (Claims128.c11 (Binary128.fa (clear f)) (Binary128.fb (clear f)) C1 C2) as (x & nan & E & W & P & M & A & V).
  rewrite (clear_value f Hf) in V. destruct V as [-> V]. exists x. split; [exact E|]. auto.
Qed.

Lemma h11_refuted : exists a b x nan, 0 <= a < 2 ^ 64 /\ 0 <= b < 2 ^ 64 /\ quad a b = VNum false 1 /\
  Binary128.Big_host 32 (Binary128.NewFromBits a b) = Ret (x, nan) /\ bval x = VNum false 0.
Proof.
  exists 0x3FFF000000000000, 0, (BigFloat.mkBF 113 BigFloat.ToNearestEven BigFloat.Exact false BigFloat.Zero), false.
  split; [lia|]. split; [lia|]. split; [|split; [vm_compute; reflexivity|reflexivity]].
  unfold quad. change (ieee 112 15 _) with (VNum false (sgnR false (IZR (2 ^ 112) * p2 (-112)))).
  cbn [sgnR]. rewrite IZR_pow2, <- p2_plus by lia. reflexivity.
Qed.

Lemma h12 : forall a b, 0 <= a < 2 ^ 64 -> 0 <= b < 2 ^ 64 ->
  exists x, Binary128.Big_host 32 (Binary128.NewFromBits a b) = Ret (x, false) /\
    Binary128.NewFromBig_host 32 x =
      Ret (Binary128.NewFromBits ((if 2 ^ 63 <=? a then 2 ^ 63 else 0) + a mod 2 ^ 48) b, BigFloat.Exact).
Proof.
  intros a b Ha Hb. set (f := Binary128.NewFromBits a b). assert (Hf : Facts128.ok f) by (split; assumption).
  destruct (h11 a b Ha Hb) as (x & E & W & P & _ & _ & V). exists x. split; [exact E|].
  destruct (proj2 (host32_low x W)) as [_ ->]; cycle 1.
  - fold f in E. rewrite (Big32 f Hf) in E. pose proof (clear_ok f Hf) as [C1 C2].
    destruct (Claims128.c12 (Binary128.fa (clear f)) (Binary128.fb (clear f)) C1 C2) as (y & E2 & R).
    { intros t. rewrite (clear_value f Hf). discriminate. }
    change (Binary128.NewFromBits (Binary128.fa (clear f)) (Binary128.fb (clear f))) with (clear f) in E2, R.
    rewrite E in E2. injection E2 as <-. rewrite R. f_equal. f_equal. unfold clear, Binary128.NewFromBits. f_equal.
    cbn [f Binary128.NewFromBits Binary128.fa]. destruct (2 ^ 63 <=? a); reflexivity.
  - intros t v Hv. rewrite V in Hv.
    pose proof (Z.mod_pos_bound a (2 ^ 48) ltac:(lia)) as M.
    assert (H : (Rabs (sgnR (2 ^ 63 <=? a) (IZR (a mod 2 ^ 48 * 2 ^ 64 + b) * p2 (-16494))) = IZR (a mod 2 ^ 48 * 2 ^ 64 + b) * p2 (-16494))%R).
    { assert (0 <= IZR (a mod 2 ^ 48 * 2 ^ 64 + b) * p2 (-16494))%R.
      { apply Rmult_le_pos; [apply IZR_le; lia|left; apply p2_pos]. }
      unfold sgnR. destruct (2 ^ 63 <=? a); [rewrite Rabs_Ropp|]; apply Rabs_pos_eq; assumption. }
    replace v with (sgnR (2 ^ 63 <=? a) (IZR (a mod 2 ^ 48 * 2 ^ 64 + b) * p2 (-16494))) by congruence.
    rewrite H. apply Rlt_trans with (p2 112 * p2 (-16494))%R.
    + apply Rmult_lt_compat_r; [apply p2_pos|]. rewrite <- IZR_pow2 by lia. apply IZR_lt. lia.
    + rewrite <- p2_plus. apply p2_lt. lia.
Qed.

Lemma h12_refuted : exists a b x f acc, 0 <= a < 2 ^ 64 /\ 0 <= b < 2 ^ 64 /\
  Binary128.Big_host 32 (Binary128.NewFromBits a b) = Ret (x, false) /\
  Binary128.NewFromBig_host 32 x = Ret (f, acc) /\ f <> Binary128.NewFromBits a b.
Proof.
  exists 0x3FFF000000000000, 0. eexists _, _, _. split; [lia|]. split; [lia|]. split; [vm_compute; reflexivity|].
  split; [vm_compute; reflexivity|]. vm_compute. discriminate.
Qed.

Lemma h14 : forall a b, 0 <= a < 2 ^ 64 -> 0 <= b < 2 ^ 64 ->
  let f := Binary128.NewFromBits a b in
  let A := if (a mod 2 ^ 48 =? 0) && (b =? 0) then BigFloat.Exact
           else if 2 ^ 63 <=? a then BigFloat.Above else BigFloat.Below in
  Binary128.Float64_host 32 f = Ret (if 2 ^ 63 <=? a then 2 ^ 63 else 0, A) /\
  Binary128.Float32_host 32 f = Ret (if 2 ^ 63 <=? a then 2 ^ 31 else 0, A).
Proof.
  intros a b Ha Hb f A. destruct (h11 a b Ha Hb) as (x & E & W & P & _ & _ & V). fold f in E.
  unfold Binary128.Float64_host, Binary128.Float32_host. rewrite E. cbn [bind].
  unfold BigFloat.Float64, BigFloat.Float32. set (s := 2 ^ 63 <=? a) in *.
  pose proof (Z.mod_pos_bound a (2 ^ 48) ltac:(lia)) as M.
  set (n := a mod 2 ^ 48 * 2 ^ 64 + b) in *. assert (Hn : 0 <= n < 2 ^ 112) by (unfold n; lia).
  assert (EA : A = if n =? 0 then BigFloat.Exact else if s then BigFloat.Above else BigFloat.Below).
  { unfold A, n. destruct (Z.eqb_spec (a mod 2 ^ 48) 0), (Z.eqb_spec b 0), (Z.eqb_spec (a mod 2 ^ 48 * 2 ^ 64 + b) 0); cbn [andb]; try reflexivity; lia. }
  rewrite EA. clear EA. clearbody n s. destruct (Z.eqb_spec n 0) as [->|Hn0].
  - rewrite Rmult_0_l, sgnR_0 in V.
    assert (Z0 : frm x = BigFloat.Zero /\ neg x = s).
    { unfold bval in V. destruct (frm x) as [|m e|] eqn:F.
      - split; congruence.
      - exfalso. assert (V2 : sgnR (neg x) (IZR m * p2 e) = 0%R) by congruence. destruct W as [_ W]. rewrite F in W. pose proof (val_pos m e (proj1 W)).
        unfold sgnR in V2. destruct (neg x); lra.
      - discriminate. }
    destruct Z0 as [Z1 Z2]. unfold BigFloat.ToFloat. rewrite Z1, Z2. destruct s; split; reflexivity.
  - assert (Q : (0 < IZR n * p2 (-16494))%R) by (apply val_pos; lia).
    destruct (bval_finite x s _ W V) as (m & e & F & Hm & N & R).
    { unfold sgnR. destruct s; lra. }
    assert (G : gexp m e <= -16382).
    { apply (gexp_upper s m e (-16382) Hm). rewrite <- R. unfold sgnR.
      replace (Rabs (if s then - (IZR n * p2 (-16494)) else IZR n * p2 (-16494)))%R with (IZR n * p2 (-16494))%R
        by (destruct s; [rewrite Rabs_Ropp|]; symmetry; apply Rabs_pos_eq; lra).
      replace (-16382) with (112 + -16494) by lia. rewrite p2_plus. apply Rmult_lt_compat_r; [apply p2_pos|].
      rewrite <- IZR_pow2 by lia. apply IZR_lt. lia. }
    rewrite !(ToFloat_tiny _ _ x m e) by (try exact F; try lia; change (2 ^ (11 - 1)) with 1024; change (2 ^ (8 - 1)) with 128; lia).
    rewrite N. destruct s; split; reflexivity.
Qed.

Definition fsign (v : fval) : bool := match v with VNaN s | VInf s | VNum s _ => s end.

Lemma odd_top n b : 0 <= n -> 0 <= b < 2 ^ (n + 1) -> Z.odd (b / 2 ^ n) = (2 ^ n <=? b).
Proof.
  intros Hn Hb. rewrite Z.pow_add_r in Hb by lia. change (2 ^ 1) with 2 in Hb.
  destruct (Z.leb_spec (2 ^ n) b).
  - rewrite <- (Z.div_unique b (2 ^ n) 1 (b - 2 ^ n)) by lia. reflexivity.
  - rewrite Z.div_small by lia. reflexivity.
Qed.

Lemma fsign_ieee mb eb b : 0 <= mb + eb -> 0 <= b < 2 ^ (mb + eb + 1) -> fsign (ieee mb eb b) = (2 ^ (mb + eb) <=? b).
Proof.
  intros Hn Hb. unfold ieee. cbv zeta. rewrite (odd_top (mb + eb) b Hn Hb).
  destruct (_ =? 2 ^ eb - 1); [destruct (_ =? 0); reflexivity|]. destruct (_ =? 0); reflexivity.
Qed.

Lemma fsign_quad a b : 0 <= a < 2 ^ 64 -> 0 <= b < 2 ^ 64 -> fsign (quad a b) = (2 ^ 63 <=? a).
Proof.
  intros Ha Hb. unfold quad. rewrite fsign_ieee by lia.
  destruct (Z.leb_spec (2 ^ (112 + 15)) (a * 2 ^ 64 + b)), (Z.leb_spec (2 ^ 63) a); try reflexivity; lia.
Qed.

Lemma h13 : 
  (forall x, 0 <= x < 2 ^ 64 -> (forall s, ieee 52 11 x <> VNaN s) ->
     exists f A, Binary128.NewFromFloat64 x = Ret (f, BigFloat.Exact) /\
       quad (Binary128.fa f) (Binary128.fb f) = ieee 52 11 x /\
       Binary128.Float64_host 32 f = Ret (if 2 ^ 63 <=? x then 2 ^ 63 else 0, A)) /\
  (forall x, 0 <= x < 2 ^ 32 -> (forall s, ieee 23 8 x <> VNaN s) ->
     exists f A, Binary128.NewFromFloat32_host 32 x = Ret (f, A) /\
       quad (Binary128.fa f) (Binary128.fb f) = ieee 23 8 x /\
       Binary128.Float32_host 32 f = Ret (if 2 ^ 31 <=? x then 2 ^ 31 else 0, A)).
Proof.
  split.
  - intros x Hx Hn. destruct (Facts128.nff64_correct x Hx) as (f & E & Hf & Hv & _).
    destruct (h14 (Binary128.fa f) (Binary128.fb f) (proj1 Hf) (proj2 Hf)) as [D _].
    change (Binary128.NewFromBits (Binary128.fa f) (Binary128.fb f)) with (Binary128.mkFloat (Binary128.fa f) (Binary128.fb f)) in D.
    destruct f as [a b]. cbn [Binary128.fa Binary128.fb] in *. eexists _, _. split; [exact E|]. split; [exact Hv|].
    rewrite D. f_equal. f_equal. rewrite <- (fsign_quad a b (proj1 Hf) (proj2 Hf)).
    change (quad a b) with (Facts128.value (Binary128.mkFloat a b)). rewrite Hv. rewrite fsign_ieee by lia. reflexivity.
  - intros x Hx Hn. unfold Binary128.NewFromFloat32_host. destruct (f32_to_f64_correct x Hx) as [Hr Hw].
    destruct (Facts128.nff64_correct _ Hr) as (f & E & Hf & Hv & _). rewrite E. cbn [bind BigFloat.accuracy_eqb].
    destruct (h14 (Binary128.fa f) (Binary128.fb f) (proj1 Hf) (proj2 Hf)) as [_ D].
    change (Binary128.NewFromBits (Binary128.fa f) (Binary128.fb f)) with (Binary128.mkFloat (Binary128.fa f) (Binary128.fb f)) in D.
    destruct f as [a b]. cbn [Binary128.fa Binary128.fb] in *. rewrite D. cbn [bind]. eexists _, _. split; [reflexivity|].
    rewrite Hw in Hv. split; [exact Hv|]. rewrite D. f_equal. f_equal. rewrite <- (fsign_quad a b (proj1 Hf) (proj2 Hf)).
    change (quad a b) with (Facts128.value (Binary128.mkFloat a b)). rewrite Hv. rewrite fsign_ieee by lia. reflexivity.
Qed.

Lemma h13_refuted : exists x f A, 0 <= x < 2 ^ 32 /\ ieee 23 8 x = VNum false (IZR (3 * 2 ^ 22) * p2 (-23)) /\
  Binary128.NewFromFloat32_host 32 x = Ret (f, A) /\ A <> BigFloat.Exact /\
  Binary128.Float32_host 32 f = Ret (0, A).
Proof.
  exists 0x3FC00000. eexists _, _. split; [lia|]. split; [reflexivity|]. split; [vm_compute; reflexivity|].
  split; [discriminate|]. vm_compute. reflexivity.
Qed.

(** A number on which the 32-bit NewFromBig differs. *)
Lemma host32_refuted : exists x, wf x /\
  Binary16.NewFromBig_host 32 x <> Binary16.NewFromBig_host 64 x /\
  Float80x86.NewFromBig_host 32 x <> Float80x86.NewFromBig_host 64 x /\
  Binary128.NewFromBig_host 32 x <> Binary128.NewFromBig_host 64 x.
Proof.
  destruct (pow2_big 1 (2 ^ 31 - 2) ltac:(unfold MaxPrec; lia) ltac:(unfold MinExp, MaxExp; lia)) as [W _].
  eexists. split; [exact W|]. split; [|split]; vm_compute; discriminate.
Qed.
