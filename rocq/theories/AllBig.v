(** NewFromBig on every finite number: what the functions do outside the range in which
    they round. *)
From Coq Require Import ZArith Reals Lia Lra Bool List String.
From Flocq Require Import Core.
From Verif Require Import GoBase.
From Verif Require BigFloat Binary16 Binary128 Float80x86.
From Verif Require Import Spec BitFacts RoundFacts IeeeFacts BigFacts BigFacts2 FmtFacts PkgFacts.
From Verif Require Facts16 Facts128 Facts80.
Import BigFloat (bitlen, gexp, prec, rmode, acc, neg, frm, Finite, MaxExp, MinExp, MaxPrec).
Open Scope Z_scope.

(** A finite number of magnitude [2^k, 2^(k+1)). *)
Lemma mag_finite x s v k : wf x -> bval x = VNum s v -> (p2 k <= Rabs v < p2 (k + 1))%R ->
  exists m e, frm x = Finite m e /\ 0 < m /\ neg x = s /\ gexp m e = k + 1 /\ Rabs v = (IZR m * p2 e)%R /\
    (forall n, top n m = Zfloor (Rabs v * p2 (n - 1 - k))) /\
    (forall n, 0 < n -> sigbits m n <-> IZR (Zfloor (Rabs v * p2 (n - 1 - k))) = (Rabs v * p2 (n - 1 - k))%R).
Proof.
  intros W B H.
  assert (Hnz : v <> 0%R).
  { intros ->. rewrite Rabs_R0 in H. pose proof (p2_pos k). lra. }
  destruct (bval_finite x s v W B Hnz) as (m & e & Hf & Hm & Hn & Hr).
  exists m, e. split; [exact Hf|]. split; [exact Hm|]. split; [exact Hn|].
  rewrite Hr in H. pose proof (gexp_lower s m e k Hm (proj1 H)) as G1. pose proof (gexp_upper s m e (k + 1) Hm (proj2 H)) as G2.
  assert (G : gexp m e = k + 1) by lia. split; [exact G|].
  assert (A : Rabs v = (IZR m * p2 e)%R).
  { rewrite Hr. pose proof (val_pos m e Hm). unfold sgnR. destruct s; [rewrite Rabs_Ropp|]; apply Rabs_pos_eq; lra. }
  split; [exact A|].
  assert (E : forall n, (Rabs v * p2 (n - 1 - k) = IZR m * p2 (n - bitlen m))%R).
  { intros n. rewrite A, Rmult_assoc, <- p2_plus. do 2 f_equal. unfold gexp in G. lia. }
  split; intros n.
  - rewrite E. apply top_floor. exact Hm.
  - intros Hn0. rewrite (sigbits_top n m Hm Hn0), (top_floor n m Hm), E.
    assert (P : (p2 (n - bitlen m) * p2 (bitlen m - n) = 1)%R).
    { rewrite <- p2_plus. replace (n - bitlen m + (bitlen m - n)) with 0 by lia. reflexivity. }
    split; intros K.
    + rewrite <- K at 2. rewrite Rmult_assoc, (Rmult_comm (p2 (bitlen m - n))), P, Rmult_1_r. reflexivity.
    + rewrite K, Rmult_assoc, P, Rmult_1_r. reflexivity.
Qed.

Lemma all16_norm x m e : frm x = Finite m e -> wf x -> 1 <= gexp m e - 1 + 15 ->
  let E := gexp m e - 1 + 15 in
  fst (Binary16.NewFromBig x) = Z.b2z (neg x) * 2 ^ 15 + E mod 2 ^ 5 * 2 ^ 10 + (top 11 m - 2 ^ 10) /\
  (sigbits m 11 -> snd (Binary16.NewFromBig x) = if E <? 32 then BigFloat.Exact else BigFloat.Above) /\
  (~ sigbits m 11 -> snd (Binary16.NewFromBig x) = BigFloat.Below).
Proof.
  intros Hf Hw Hk E. unfold Binary16.NewFromBig, Binary16.NewFromBig_int.
  assert (Hm : 0 < m) by (destruct Hw as [_ Hw]; rewrite Hf in Hw; apply Hw).
  unfold BigFloat.IsInf. rewrite Hf, Cmp_zero, Hf by reflexivity.
  rewrite (MantExp_finite x m e Hf). unfold Binary16.bias, Binary16.precision, BigFloat.Signbit.
  fold E in Hk |- *.
  rewrite (proj2 (Z.leb_gt E 0)) by lia.
  change 0x1F with (2 ^ 5 - 1). rewrite andnot_ones_zero by lia.
  destruct (scaled_mant x m e 11 Hf Hw ltac:(unfold MinExp, MaxExp; lia)) as (U & _ & _ & _ & I & _).
  cbv zeta in *. unfold absb in U, I. specialize (U ltac:(lia)). specialize (I ltac:(lia)).
  set (r := BigFloat.SetMantExpSelf _ 11) in *.
  destruct (BigFloat.Uint64 r) as [mant a]. cbn [fst] in U. rewrite U.
  pose proof (top_range 11 m Hm ltac:(lia)) as Ht.
  change 0x400 with (2 ^ 10). rewrite andnot_pow2_sub by lia.
  change 0x7FF with (2 ^ 11 - 1). rewrite andnot_ones_zero by lia.
  rewrite (proj2 (Z.ltb_lt (top 11 m - 2 ^ 10) (2 ^ 11))) by lia.
  cbn [negb]. rewrite andb_false_r. cbn [fst snd].
  split; [|split].
  - rewrite !land_ones_mod by lia. pose proof (Z.mod_pos_bound E (2 ^ 5) ltac:(lia)) as HE.
    rewrite (Z.mod_small (top 11 m - 2 ^ 10)) by lia.
    unfold u16. rewrite Z.shiftl_mul_pow2 by lia.
    rewrite (Z.mod_small (E mod 2 ^ 5)), (Z.mod_small (E mod 2 ^ 5 * 2 ^ 10)), (Z.mod_small (top 11 m - 2 ^ 10)) by lia.
    rewrite Facts16.sign_or by lia.
    replace (Z.b2z (neg x) * 2 ^ 15 + E mod 2 ^ 5 * 2 ^ 10) with ((Z.b2z (neg x) * 2 ^ 5 + E mod 2 ^ 5) * 2 ^ 10) by ring.
    rewrite lor_add by lia. reflexivity.
  - intros S. apply I in S. rewrite S. cbn [negb]. change (2 ^ 5) with 32. destruct (E <? 32); reflexivity.
  - intros S. destruct (BigFloat.IsInt r); [exfalso; apply S, I; reflexivity|reflexivity].
Qed.

Lemma all16_tiny x m e : frm x = Finite m e -> wf x -> gexp m e - 1 + 15 <= -10 ->
  Binary16.NewFromBig x = (Z.b2z (neg x) * 2 ^ 15 + top 20 m mod 2 ^ 11, BigFloat.Below).
Proof.
  intros Hf Hw Hk. unfold Binary16.NewFromBig, Binary16.NewFromBig_int.
  unfold BigFloat.IsInf. rewrite Hf, Cmp_zero, Hf by reflexivity.
  rewrite (MantExp_finite x m e Hf). unfold Binary16.bias, Binary16.precision, BigFloat.Signbit.
  set (E := gexp m e - 1 + 15) in *.
  rewrite (proj2 (Z.leb_le E 0)) by lia. rewrite (proj2 (Z.leb_le E (- (11 - 1)))) by lia.
  change (11 - 1 + 11 - 1) with 20.
  destruct (scaled_mant x m e 20 Hf Hw ltac:(unfold MinExp, MaxExp; lia)) as (U & _ & _ & _ & _ & C).
  cbv zeta in *. unfold absb in C. rewrite C. specialize (U ltac:(lia)).
  destruct (BigFloat.Uint64 _) as [mant a]. cbn [fst] in U. rewrite U. f_equal.
  change 0x7FF with (2 ^ 11 - 1). rewrite land_ones_mod by lia.
  pose proof (Z.mod_pos_bound (top 20 m) (2 ^ 11) ltac:(lia)).
  unfold u16. rewrite Z.mod_small by lia. apply Facts16.sign_or. lia.
Qed.

Lemma c07_all : forall x s v k, wf x -> bval x = VNum s v -> (p2 k <= Rabs v < p2 (k + 1))%R ->
  let F n := Zfloor (Rabs v * p2 n) in
  let S := if s then 2 ^ 15 else 0 in
  let '(b, a) := Binary16.NewFromBig x in
  (-14 <= k -> b = S + (k + 15) mod 2 ^ 5 * 2 ^ 10 + (F (10 - k) - 2 ^ 10) /\
     (IZR (F (10 - k)) = (Rabs v * p2 (10 - k))%R -> a = if k <? 17 then BigFloat.Exact else BigFloat.Above) /\
     (IZR (F (10 - k)) <> (Rabs v * p2 (10 - k))%R -> a = BigFloat.Below)) /\
  (-24 <= k < -14 -> b = S + F 24 /\ a = BigFloat.Exact) /\
  (k < -24 -> b = S + F (19 - k) mod 2 ^ 11 /\ a = BigFloat.Below).
Proof.
  intros x s v k W B H F S. destruct (mag_finite x s v k W B H) as (m & e & Hf & Hm & Hn & G & A & T & Q).
  assert (ES : S = Z.b2z (neg x) * 2 ^ 15) by (unfold S; rewrite Hn; destruct s; reflexivity).
  destruct (Binary16.NewFromBig x) as [b a] eqn:Eb.
  split; [|split]; intros K.
  - destruct (all16_norm x m e Hf W ltac:(lia)) as (N1 & N2 & N3). rewrite Eb in N1, N2, N3. cbn [fst snd] in N1, N2, N3.
    specialize (T 11). specialize (Q 11 ltac:(lia)). replace (11 - 1 - k) with (10 - k) in T, Q by lia.
    fold (F (10 - k)) in T, Q. rewrite G in *. replace (k + 1 - 1 + 15) with (k + 15) in * by lia.
    split; [|split].
    + rewrite N1, ES, T. reflexivity.
    + intros X. rewrite (N2 (proj2 Q X)). destruct (Z.ltb_spec (k + 15) 32), (Z.ltb_spec k 17); try lia; reflexivity.
    + intros X. apply N3. intros Y. apply X. apply (proj1 Q). exact Y.
  - pose proof (Facts16.NewFromBig_sub x m e Hf W ltac:(lia)) as N. rewrite Eb in N.
    injection N as -> ->. split; [|reflexivity]. unfold enc. rewrite G.
    rewrite T. unfold F. replace (k + 1 - 1 + 15 + 10 - 1 - k) with 24 by lia. rewrite ES. lia.
  - pose proof (all16_tiny x m e Hf W ltac:(lia)) as N. rewrite Eb in N. injection N as -> ->.
    split; [|reflexivity]. rewrite T. unfold F. replace (20 - 1 - k) with (19 - k) by lia. rewrite ES. reflexivity.
Qed.

Lemma c05_all : forall x s v k, 0 <= x < 2 ^ 64 -> ieee 52 11 x = VNum s v ->
  let r := rnd_prec BigFloat.ToNearestEven 11 v in
  (p2 k <= Rabs r < p2 (k + 1))%R ->
  let F n := Zfloor (Rabs r * p2 n) in
  let S := if s then 2 ^ 15 else 0 in
  exists b a, Binary16.NewFromFloat64 x = Ret (b, a) /\
  (-14 <= k -> b = S + (k + 15) mod 2 ^ 5 * 2 ^ 10 + (F (10 - k) - 2 ^ 10) /\
               a = if k <? 17 then BigFloat.Exact else BigFloat.Above) /\
  (-24 <= k < -14 -> b = S + F 24 /\ a = BigFloat.Exact) /\
  (k < -24 -> b = S + F (19 - k) mod 2 ^ 11 /\ a = BigFloat.Below).
Proof.
  intros x s v k Hx Hv r H F S. destruct (Facts16.nff64_num x s v Hx Hv) as (y & E & W & V & P).
  pose proof (c07_all y s r k W V H) as C. cbv zeta in C.
  destruct (mag_finite y s r k W V H) as (m & e & Hf & Hm & Hn & G & A & T & Q).
  destruct (Binary16.NewFromBig y) as [b a] eqn:Eb. exists b, a. split; [exact E|].
  destruct C as (C1 & C2 & C3). split; [|split]; [|assumption..].
  intros K. destruct (C1 K) as (D1 & D2 & _). split; [exact D1|]. apply D2.
  specialize (Q 11 ltac:(lia)). replace (11 - 1 - k) with (10 - k) in Q by lia. apply (proj1 Q).
  destruct W as [_ W]. rewrite Hf, P in W. apply W.
Qed.

(** binary128 *)
Lemma all128_norm x m e : frm x = Finite m e -> wf x -> 1 <= gexp m e - 1 + 16383 ->
  let E := gexp m e - 1 + 16383 in
  exists a, Binary128.NewFromBig x = Ret (Facts128.mk (neg x) (E mod 2 ^ 15) (top 113 m - 2 ^ 112), a) /\
  (sigbits m 113 -> a = if E <? 32768 then BigFloat.Exact else BigFloat.Above) /\
  (~ sigbits m 113 -> a = BigFloat.Below).
Proof.
  intros Hf Hw Hk E. unfold Binary128.NewFromBig, Binary128.NewFromBig_int.
  assert (Hm : 0 < m) by (destruct Hw as [_ Hw]; rewrite Hf in Hw; apply Hw).
  unfold BigFloat.IsInf. rewrite Hf, Cmp_zero, Hf by reflexivity.
  rewrite (MantExp_finite x m e Hf). unfold Binary128.bias, Binary128.precision, BigFloat.Signbit.
  fold E in Hk |- *.
  rewrite (proj2 (Z.leb_gt E 0)) by lia.
  change 0x7FFF with (2 ^ 15 - 1). rewrite andnot_ones_zero by lia.
  destruct (scaled_mant x m e 113 Hf Hw ltac:(unfold MinExp, MaxExp; lia)) as (_ & _ & _ & I & II & _).
  cbv zeta in *. unfold absb in I, II. rewrite I. specialize (II ltac:(lia)).
  set (r := BigFloat.SetMantExpSelf _ 113) in *.
  pose proof (top_range 113 m Hm ltac:(lia)) as Ht. change (113 - 1) with 112 in Ht.
  rewrite clearbit_sub by lia.
  set (M := top 113 m - 2 ^ 112) in *. assert (HM : 0 <= M < 2 ^ 112) by (unfold M; lia).
  destruct (Facts128.splitA M HM) as [-> HA]. rewrite Facts128.splitB.
  rewrite !Facts128.u64_small with (a := M / 2 ^ 64) by lia.
  rewrite !Facts128.u64_small with (a := M mod 2 ^ 64) by (apply Z.mod_pos_bound; lia).
  change 0x0000FFFFFFFFFFFF with (2 ^ 48 - 1). rewrite andnot_ones_zero by lia.
  rewrite (proj2 (Z.ltb_lt (M / 2 ^ 64) (2 ^ 48))) by lia. cbn [negb]. rewrite andb_false_r.
  eexists. split; [|split].
  - f_equal. f_equal. unfold Facts128.mk. f_equal.
    pose proof (Z.mod_pos_bound E (2 ^ 15) ltac:(lia)) as HE.
    rewrite !land_ones_mod by lia. rewrite (Z.mod_small (M / 2 ^ 64)) by lia.
    rewrite Z.shiftl_mul_pow2 by lia. rewrite Facts128.u64_small by lia.
    rewrite Facts128.sign_or by lia.
    replace (Z.b2z (neg x) * 2 ^ 63 + E mod 2 ^ 15 * 2 ^ 48) with ((Z.b2z (neg x) * 2 ^ 15 + E mod 2 ^ 15) * 2 ^ 48) by ring.
    rewrite lor_add by lia. ring.
  - intros Hs. apply II in Hs. rewrite Hs. cbn [negb]. change (2 ^ 15) with 32768. destruct (E <? 32768); reflexivity.
  - intros Hs. destruct (BigFloat.IsInt r); [exfalso; apply Hs, II; reflexivity|reflexivity].
Qed.

Lemma all128_tiny x m e : frm x = Finite m e -> wf x -> gexp m e - 1 + 16383 <= -112 ->
  Binary128.NewFromBig x = Ret (Facts128.mk (neg x) 0 (top 224 m mod 2 ^ 112), BigFloat.Below).
Proof.
  intros Hf Hw Hk. unfold Binary128.NewFromBig, Binary128.NewFromBig_int.
  unfold BigFloat.IsInf. rewrite Hf, Cmp_zero, Hf by reflexivity.
  rewrite (MantExp_finite x m e Hf). unfold Binary128.bias, Binary128.precision, BigFloat.Signbit.
  set (E := gexp m e - 1 + 16383) in *.
  rewrite (proj2 (Z.leb_le E 0)) by lia. rewrite (proj2 (Z.leb_le E (- (113 - 1)))) by lia.
  change (113 - 1 + 113 - 1) with 224.
  destruct (scaled_mant x m e 224 Hf Hw ltac:(unfold MinExp, MaxExp; lia)) as (_ & _ & _ & I & _ & C).
  cbv zeta in *. unfold absb in C. rewrite C. unfold absb in I. rewrite I.
  set (N := top 224 m) in *.
  change Binary128.maskA with ((2 ^ 48 - 1) * 2 ^ 64). rewrite land_field by lia. rewrite Facts128.splitB.
  pose proof (Z.mod_pos_bound (N / 2 ^ 64) (2 ^ 48) ltac:(lia)).
  pose proof (Z.mod_pos_bound N (2 ^ 64) ltac:(lia)).
  rewrite !Facts128.u64_small by lia.
  change 0x0000FFFFFFFFFFFF with (2 ^ 48 - 1). rewrite land_ones_mod, Z.mod_mod by lia.
  rewrite Facts128.sign_or by lia. unfold Facts128.mk. do 3 f_equal.
  - rewrite Z.mul_0_l, Z.add_0_r. f_equal.
    change (2 ^ 112) with (2 ^ 64 * 2 ^ 48). rewrite Z.rem_mul_r by lia.
    rewrite (Z.mul_comm (2 ^ 64)), Z.div_add by lia. rewrite (Z.div_small (N mod 2 ^ 64)) by lia. lia.
  - change (2 ^ 112) with (2 ^ 64 * 2 ^ 48). rewrite Z.rem_mul_r by lia.
    rewrite (Z.mul_comm (2 ^ 64)), Z.mod_add, Z.mod_mod by lia. reflexivity.
Qed.

Lemma mk128 s E F : 0 <= F -> Facts128.mk s E F =
  Binary128.mkFloat (((if s then 2 ^ 127 else 0) + E * 2 ^ 112 + F) / 2 ^ 64) (((if s then 2 ^ 127 else 0) + E * 2 ^ 112 + F) mod 2 ^ 64).
Proof.
  intros HF. unfold Facts128.mk.
  replace ((if s then 2 ^ 127 else 0) + E * 2 ^ 112 + F) with (F + (Z.b2z s * 2 ^ 63 + E * 2 ^ 48) * 2 ^ 64)
    by (destruct s; cbn [Z.b2z]; lia).
  rewrite Z.div_add, Z.mod_add by lia. f_equal. ring.
Qed.

Lemma c15_all : forall x s v k, wf x -> bval x = VNum s v -> (p2 k <= Rabs v < p2 (k + 1))%R ->
  let F n := Zfloor (Rabs v * p2 n) in
  let S := if s then 2 ^ 127 else 0 in
  exists n a, Binary128.NewFromBig x = Ret (Binary128.mkFloat (n / 2 ^ 64) (n mod 2 ^ 64), a) /\
  (-16382 <= k -> n = S + (k + 16383) mod 2 ^ 15 * 2 ^ 112 + (F (112 - k) - 2 ^ 112) /\
     (IZR (F (112 - k)) = (Rabs v * p2 (112 - k))%R -> a = if k <? 16385 then BigFloat.Exact else BigFloat.Above) /\
     (IZR (F (112 - k)) <> (Rabs v * p2 (112 - k))%R -> a = BigFloat.Below)) /\
  (-16494 <= k < -16382 -> n = S + F 16494 /\ a = BigFloat.Exact) /\
  (k < -16494 -> n = S + F (223 - k) mod 2 ^ 112 /\ a = BigFloat.Below).
Proof.
  intros x s v k W B H F S. destruct (mag_finite x s v k W B H) as (m & e & Hf & Hm & Hn & G & A & T & Q).
  destruct (Z_le_gt_dec (-16382) k) as [K|K]; [|destruct (Z_le_gt_dec (-16494) k) as [K2|K2]].
  - destruct (all128_norm x m e Hf W ltac:(lia)) as (a & N1 & N2 & N3).
    pose proof (top_range 113 m Hm ltac:(lia)) as Ht. change (113 - 1) with 112 in Ht.
    rewrite mk128 in N1 by lia. eexists _, a. split; [exact N1|]. split; [|lia]. intros _.
    specialize (T 113). specialize (Q 113 ltac:(lia)). replace (113 - 1 - k) with (112 - k) in T, Q by lia.
    fold (F (112 - k)) in T, Q. rewrite G, T, Hn in *. replace (k + 1 - 1 + 16383) with (k + 16383) in * by lia.
    split; [reflexivity|]. split.
    + intros X. rewrite (N2 (proj2 Q X)). destruct (Z.ltb_spec (k + 16383) 32768), (Z.ltb_spec k 16385); try lia; reflexivity.
    + intros X. apply N3. intros Y. apply X. apply (proj1 Q). exact Y.
  - pose proof (Facts128.NewFromBig_sub x m e Hf W ltac:(lia)) as N. rewrite G in N.
    destruct (rz_sub 112 15 (neg x) m e Hm ltac:(lia) ltac:(lia)) as [Ht _]; [lia|].
    replace (gexp m e - 1 + (2 ^ (15 - 1) - 1) + 112) with (k + 1 - 1 + 16383 + 112) in Ht by lia.
    rewrite mk128 in N by lia. eexists _, _. split; [exact N|]. split; [lia|]. split; [|lia]. intros _.
    split; [|reflexivity]. rewrite T, Hn. replace (k + 1 - 1 + 16383 + 112 - 1 - k) with 16494 by lia.
    unfold F, S. lia.
  - pose proof (all128_tiny x m e Hf W ltac:(lia)) as N.
    rewrite mk128 in N by (apply Z.mod_pos_bound; lia). eexists _, _. split; [exact N|]. split; [lia|]. split; [lia|]. intros _.
    split; [|reflexivity]. rewrite T, Hn. replace (224 - 1 - k) with (223 - k) by lia.
    unfold F, S. lia.
Qed.

(** float80x86 *)
Lemma all80_norm x m e : frm x = Finite m e -> wf x -> 1 <= gexp m e - 1 + 16383 ->
  let E := gexp m e - 1 + 16383 in
  exists a, Float80x86.NewFromBig x = (Facts80.mk (neg x) (E mod 2 ^ 15) (top 64 m), a) /\
  (sigbits m 64 -> a = if E <? 32768 then BigFloat.Exact else BigFloat.Above) /\
  (~ sigbits m 64 -> a = BigFloat.Below).
Proof.
  intros Hf Hw Hk E. unfold Float80x86.NewFromBig, Float80x86.NewFromBig_int.
  assert (Hm : 0 < m) by (destruct Hw as [_ Hw]; rewrite Hf in Hw; apply Hw).
  unfold BigFloat.IsInf. rewrite Hf, Cmp_zero, Hf by reflexivity.
  rewrite (MantExp_finite x m e Hf). unfold Float80x86.bias, Float80x86.precision, BigFloat.Signbit.
  fold E in Hk |- *.
  rewrite (proj2 (Z.leb_gt E 0)) by lia.
  change 0x7FFF with (2 ^ 15 - 1). rewrite andnot_ones_zero by lia.
  destruct (scaled_mant x m e 64 Hf Hw ltac:(unfold MinExp, MaxExp; lia)) as (U & UE & UA & _ & I & _).
  cbv zeta in *. unfold absb in U, UE, UA, I. specialize (U ltac:(lia)). specialize (I ltac:(lia)).
  specialize (UE ltac:(lia)).
  set (r := BigFloat.SetMantExpSelf _ 64) in *.
  destruct (BigFloat.Uint64 r) as [mant a]. cbn [fst snd] in U, UE, UA. rewrite U.
  pose proof (Z.mod_pos_bound E (2 ^ 15) ltac:(lia)) as HE.
  rewrite land_ones_mod by lia. unfold u16. rewrite (Z.mod_small (E mod 2 ^ 15)) by lia.
  rewrite Facts80.sign_or by lia. rewrite Z.lor_0_l.
  eexists. split; [reflexivity|]. change (2 ^ 15) with 32768.
  split; intros Hs.
  - rewrite (proj2 I Hs), (proj2 UE Hs). cbn [negb]. destruct (E <? 32768); reflexivity.
  - destruct (BigFloat.IsInt r); [exfalso; apply Hs, I; reflexivity|reflexivity].
Qed.

Lemma all80_tiny x m e : frm x = Finite m e -> wf x -> gexp m e - 1 + 16383 <= -63 ->
  Float80x86.NewFromBig x = (Facts80.mk (neg x) 0 (2 ^ 63 - 1), BigFloat.Below).
Proof.
  intros Hf Hw Hk. unfold Float80x86.NewFromBig, Float80x86.NewFromBig_int.
  unfold BigFloat.IsInf. rewrite Hf, Cmp_zero, Hf by reflexivity.
  rewrite (MantExp_finite x m e Hf). unfold Float80x86.bias, Float80x86.precision, BigFloat.Signbit.
  set (E := gexp m e - 1 + 16383) in *.
  rewrite (proj2 (Z.leb_le E 0)) by lia. rewrite (proj2 (Z.leb_le E (- (64 - 1)))) by lia.
  change (64 - 1 + 64 - 1) with 126.
  destruct (scaled_mant x m e 126 Hf Hw ltac:(unfold MinExp, MaxExp; lia)) as (_ & _ & _ & _ & _ & C).
  cbv zeta in *. unfold absb at 1 in C. rewrite C.
  destruct (absb_facts x) as (A1 & A2 & A3 & A4).
  destruct (mant_scaled (absb x) m e 126 ltac:(rewrite A3; exact Hf) (absb_wf x Hw) ltac:(unfold MinExp, MaxExp; lia))
    as (P1 & P2 & m' & e' & P3 & P4 & P5 & P6 & P7).
  rewrite <- absb_MantExp in P1, P2, P3. rewrite A1 in P2.
  unfold BigFloat.Uint64. rewrite P3, P2, P6. cbn [Z.leb Z.compare]. 
  rewrite Facts80.sign_only. reflexivity.
Qed.

Lemma c21_all : forall x s v k, wf x -> bval x = VNum s v -> (p2 k <= Rabs v < p2 (k + 1))%R ->
  let F n := Zfloor (Rabs v * p2 n) in
  let S := if s then 2 ^ 15 else 0 in
  exists se m a, Float80x86.NewFromBig x = (Float80x86.mkFloat se m, a) /\
  (-16382 <= k -> se = S + (k + 16383) mod 2 ^ 15 /\ m = F (63 - k) /\
     (IZR (F (63 - k)) = (Rabs v * p2 (63 - k))%R -> a = if k <? 16385 then BigFloat.Exact else BigFloat.Above) /\
     (IZR (F (63 - k)) <> (Rabs v * p2 (63 - k))%R -> a = BigFloat.Below)) /\
  (-16445 <= k < -16382 -> se = S /\ m = F 16445 /\ a = BigFloat.Exact) /\
  (k < -16445 -> se = S /\ m = 2 ^ 63 - 1 /\ a = BigFloat.Below).
Proof.
  intros x s v k W B H F S. destruct (mag_finite x s v k W B H) as (m & e & Hf & Hm & Hn & G & A & T & Q).
  assert (ES : Z.b2z (neg x) * 2 ^ 15 = S) by (unfold S; rewrite Hn; destruct s; reflexivity).
  destruct (Z_le_gt_dec (-16382) k) as [K|K]; [|destruct (Z_le_gt_dec (-16445) k) as [K2|K2]].
  - destruct (all80_norm x m e Hf W ltac:(lia)) as (a & N1 & N2 & N3).
    unfold Facts80.mk in N1. eexists _, _, a. split; [exact N1|]. split; [|lia]. intros _.
    specialize (T 64). specialize (Q 64 ltac:(lia)). replace (64 - 1 - k) with (63 - k) in T, Q by lia.
    fold (F (63 - k)) in T, Q. rewrite G, T, ES in *. replace (k + 1 - 1 + 16383) with (k + 16383) in * by lia.
    split; [reflexivity|]. split; [reflexivity|]. split.
    + intros X. rewrite (N2 (proj2 Q X)). destruct (Z.ltb_spec (k + 16383) 32768), (Z.ltb_spec k 16385); try lia; reflexivity.
    + intros X. apply N3. intros Y. apply X. apply (proj1 Q). exact Y.
  - pose proof (Facts80.NewFromBig_sub x m e Hf W ltac:(lia)) as N. rewrite G in N.
    unfold Facts80.mk in N. eexists _, _, _. split; [exact N|]. split; [lia|]. split; [|lia]. intros _.
    rewrite T, ES. replace (k + 1 - 1 + 16383 + 63 - 1 - k) with 16445 by lia.
    split; [lia|]. split; reflexivity.
  - pose proof (all80_tiny x m e Hf W ltac:(lia)) as N.
    unfold Facts80.mk in N. eexists _, _, _. split; [exact N|]. split; [lia|]. split; [lia|]. intros _.
    rewrite ES. split; [lia|]. split; reflexivity.
Qed.

(** Witnesses. *)
Lemma c05_nan : exists x s v b a, 0 <= x < 2 ^ 64 /\ ieee 52 11 x = VNum s v /\
  Binary16.NewFromFloat64 x = Ret (b, a) /\ ieee 10 5 b = VNaN false.
Proof.
  exists 0x40F8000000000000. eexists _, _, _, _. split; [lia|]. split; [reflexivity|].
  split; [vm_compute; reflexivity|]. reflexivity.
Qed.

Lemma c05_tiny : exists x v b, 0 <= x < 2 ^ 64 /\ ieee 52 11 x = VNum false v /\ (0 < v < p2 (-29))%R /\
  Binary16.NewFromFloat64 x = Ret (b, BigFloat.Below) /\ ieee 10 5 b = VNum false (IZR 512 * p2 (-24)).
Proof.
  exists 0x3E10040000000000. eexists _, _. split; [lia|]. split; [reflexivity|]. split; [|split; [vm_compute; reflexivity|reflexivity]].
  change (0x3E10040000000000 mod 2 ^ 52) with (2 ^ 42). change ((0x3E10040000000000 / 2 ^ 52) mod 2 ^ 11 - (2 ^ (11 - 1) - 1) - 52) with (-82).
  unfold sgnR. split; [apply val_pos; lia|]. replace (-29) with (53 + -82) by lia. rewrite p2_plus.
  apply Rmult_lt_compat_r; [apply p2_pos|]. rewrite <- IZR_pow2 by lia. apply IZR_lt. lia.
Qed.

Lemma pow2_big p k : 0 < p <= MaxPrec -> MinExp <= k + 1 <= MaxExp ->
  let x := BigFloat.mkBF p BigFloat.ToNearestEven BigFloat.Exact false (Finite 1 k) in
  wf x /\ bval x = VNum false (p2 k).
Proof.
  intros Hp Hk x. split.
  - split; [change (prec x) with p; lia|]. cbn [x frm]. split; [lia|]. split.
    + exists 1, 0. split; [reflexivity|]. split; [lia|]. cbn [prec x]. apply Z.pow_gt_1; lia.
    + unfold gexp. change (bitlen 1) with 1. lia.
  - unfold bval. cbn [x frm neg sgnR]. rewrite Rmult_1_l. reflexivity.
Qed.

Lemma c21_tiny : exists x k, k < -1000000 /\ wf x /\ bval x = VNum false (p2 k) /\
  Float80x86.NewFromBig x = (Float80x86.mkFloat 0 (2 ^ 63 - 1), BigFloat.Below).
Proof.
  exists (BigFloat.mkBF 64 BigFloat.ToNearestEven BigFloat.Exact false (Finite 1 (-2000000))), (-2000000).
  split; [lia|]. destruct (pow2_big 64 (-2000000) ltac:(unfold MaxPrec; lia) ltac:(unfold MinExp, MaxExp; lia)) as [W B].
  split; [exact W|]. split; [exact B|]. vm_compute. reflexivity.
Qed.

Lemma three_big k : MinExp <= k + 2 <= MaxExp ->
  let x := BigFloat.mkBF 2 BigFloat.ToNearestEven BigFloat.Exact false (Finite 3 k) in
  wf x /\ bval x = VNum false (IZR 3 * p2 k).
Proof.
  intros Hk x. split.
  - split; [change (prec x) with 2; unfold MaxPrec; lia|]. cbn [x frm]. split; [lia|]. split.
    + exists 3, 0. split; [reflexivity|]. split; [lia|]. reflexivity.
    + unfold gexp. change (bitlen 3) with 2. lia.
  - reflexivity.
Qed.

Lemma c15_nan : exists x v f, wf x /\ bval x = VNum false v /\
  Binary128.NewFromBig x = Ret (f, BigFloat.Exact) /\ quad (Binary128.fa f) (Binary128.fb f) = VNaN false.
Proof.
  exists (BigFloat.mkBF 2 BigFloat.ToNearestEven BigFloat.Exact false (Finite 3 16383)). eexists _, _.
  destruct (three_big 16383 ltac:(unfold MinExp, MaxExp; lia)) as [W B].
  split; [exact W|]. split; [exact B|]. split; [vm_compute; reflexivity|]. reflexivity.
Qed.

Lemma c21_nan : exists x v f, wf x /\ bval x = VNum false v /\
  Float80x86.NewFromBig x = (f, BigFloat.Exact) /\ x87 (Float80x86.se f) (Float80x86.m f) = VNaN false.
Proof.
  exists (BigFloat.mkBF 2 BigFloat.ToNearestEven BigFloat.Exact false (Finite 3 16383)). eexists _, _.
  destruct (three_big 16383 ltac:(unfold MinExp, MaxExp; lia)) as [W B].
  split; [exact W|]. split; [exact B|]. split; [vm_compute; reflexivity|]. reflexivity.
Qed.

(** Examples. *)
Lemma three_mag k : (p2 (k + 1) <= Rabs (IZR 3 * p2 k) < p2 (k + 2))%R.
Proof.
  pose proof (p2_pos k). rewrite Rabs_pos_eq by lra. rewrite !p2_plus.
  change (p2 1) with 2%R. change (p2 2) with 4%R. lra.
Qed.

Lemma c07_all_example :
  let x := BigFloat.mkBF 53 BigFloat.ToNearestEven BigFloat.Exact true (Finite 3 (-16)) in
  wf x /\ bval x = VNum true (- (IZR 3 * p2 (-16))) /\ (p2 (-15) <= Rabs (- (IZR 3 * p2 (-16))) < p2 (-15 + 1))%R /\
  Binary16.NewFromBig x = (0x8000 + 3 * 2 ^ 8, BigFloat.Exact).
Proof.
  split; [|split; [reflexivity|split; [rewrite Rabs_Ropp; apply (three_mag (-16))|vm_compute; reflexivity]]].
  split; [cbn [prec]; unfold MaxPrec; lia|]. cbn [frm]. split; [lia|]. split; [|vm_compute; split; discriminate].
  exists 3, 0. split; [reflexivity|]. split; [lia|]. cbn [prec]. lia.
Qed.

Lemma c05_all_example :
  let v := (IZR (2 ^ 52 + 2 ^ 40) * p2 (-52))%R in
  ieee 52 11 0x3FF0010000000000 = VNum false v /\ (p2 0 <= Rabs (rnd_prec BigFloat.ToNearestEven 11 v) < p2 (0 + 1))%R /\
  Binary16.NewFromFloat64 0x3FF0010000000000 = Ret (0x3C00, BigFloat.Exact).
Proof.
  intros v. split; [reflexivity|]. split; [|vm_compute; reflexivity].
  assert (P : Prec_gt_0 11) by (unfold Prec_gt_0; lia).
  assert (E52 : (p2 (-52) * IZR (2 ^ 52) = 1)%R) by (rewrite IZR_pow2, <- p2_plus by lia; reflexivity).
  assert (V : v = (1 + p2 (-12))%R).
  { unfold v. rewrite plus_IZR, Rmult_plus_distr_r, Rmult_comm, E52. f_equal. rewrite IZR_pow2, <- p2_plus by lia. reflexivity. }
  assert (V0 : (1 < v)%R) by (rewrite V; pose proof (p2_pos (-12)); lra).
  assert (R1 : rnd_prec BigFloat.ToNearestEven 11 1 = 1%R).
  { unfold rnd_prec. apply round_generic; [apply valid_mode_rnd|]. apply (generic_format_bpow radix2 (FLX_exp 11) 0). unfold FLX_exp. lia. }
  assert (R2 : rnd_prec BigFloat.ToNearestEven 11 (1 + p2 (-10)) = (1 + p2 (-10))%R).
  { unfold rnd_prec. apply round_generic; [apply valid_mode_rnd|]. replace (1 + p2 (-10))%R with (F2R (Defs.Float radix2 1025 (-10))).
    - apply generic_format_F2R. intros _. unfold cexp, FLX_exp. rewrite mag_F2R by lia.
      rewrite (mag_unique_pos radix2 (IZR 1025) 11); [lia|]. change (bpow radix2 (11 - 1)) with 1024%R. change (bpow radix2 11) with 2048%R. lra.
    - rewrite F2R_p2. replace 1025%R with (1 + p2 10)%R by (change (p2 10) with 1024%R; lra).
      rewrite Rmult_plus_distr_r, <- p2_plus. change (p2 (10 + -10)) with 1%R. lra. }
  assert (M : forall a b, (a <= b)%R -> (rnd_prec BigFloat.ToNearestEven 11 a <= rnd_prec BigFloat.ToNearestEven 11 b)%R).
  { intros a b L. unfold rnd_prec. pose proof (valid_mode_rnd BigFloat.ToNearestEven). apply round_le; [typeclasses eauto..|exact L]. }
  pose proof (M 1%R v ltac:(lra)) as M1. rewrite R1 in M1.
  pose proof (M v (1 + p2 (-10))%R) as M2. rewrite R2 in M2.
  assert (p2 (-12) < p2 (-10))%R by (apply p2_lt; lia). assert (p2 (-10) < p2 0)%R by (apply p2_lt; lia).
  specialize (M2 ltac:(rewrite V; lra)). rewrite Rabs_pos_eq by lra. change (p2 0) with 1%R in *. change (p2 (0 + 1)) with 2%R. lra.
Qed.

Lemma c15_all_example :
  let x := BigFloat.mkBF 2 BigFloat.ToNearestEven BigFloat.Exact false (Finite 3 16383) in
  wf x /\ bval x = VNum false (IZR 3 * p2 16383) /\ (p2 16384 <= Rabs (IZR 3 * p2 16383) < p2 (16384 + 1))%R /\
  Binary128.NewFromBig x = Ret (Binary128.mkFloat 0x7FFF800000000000 0, BigFloat.Exact).
Proof.
  destruct (three_big 16383 ltac:(unfold MinExp, MaxExp; lia)) as [W B].
  split; [exact W|]. split; [exact B|]. split; [apply (three_mag 16383)|vm_compute; reflexivity].
Qed.

Lemma c21_all_example :
  let x := BigFloat.mkBF 2 BigFloat.ToNearestEven BigFloat.Exact false (Finite 3 (-20000)) in
  wf x /\ bval x = VNum false (IZR 3 * p2 (-20000)) /\ (p2 (-19999) <= Rabs (IZR 3 * p2 (-20000)) < p2 (-19999 + 1))%R /\
  Float80x86.NewFromBig x = (Float80x86.mkFloat 0 (2 ^ 63 - 1), BigFloat.Below).
Proof.
  destruct (three_big (-20000) ltac:(unfold MinExp, MaxExp; lia)) as [W B].
  split; [exact W|]. split; [exact B|]. split; [apply (three_mag (-20000))|vm_compute; reflexivity].
Qed.
