(** C68: the order outside of the ranges of the formats. *)
From Coq Require Import ZArith Reals Lia Lra Bool List.
From Flocq Require Import Core.
From Verif Require Import GoBase.
From Verif Require BigFloat Binary16 Binary128 Float80x86.
From Verif Require Import Spec BitFacts RoundFacts IeeeFacts BigFacts BigFacts2 BigFacts3 PkgFacts SpecOrder ClaimsMore ClaimsMono ClaimsOrder AllBig.
From Verif Require Claims16 Claims128 Claims80.
Import BigFloat (bitlen, gexp, prec, rmode, acc, neg, frm, Finite, MaxExp, MinExp, MaxPrec).
Open Scope Z_scope.

(** The patterns of the greatest number and of the infinity, of 0 and of the least number. *)
Definition top_pattern (mb eb : Z) : Z := (2 ^ eb - 1) * 2 ^ mb - 1.

Lemma vle_nan x y : vle x y -> (forall s, x <> VNaN s) /\ (forall s, y <> VNaN s).
Proof. destruct x as [a|a|a u], y as [c|c|c v]; cbn [vle]; intros H; split; intros s E; try discriminate; try destruct a; try exact H; contradiction. Qed.

Lemma pos_signed mb eb c : 0 <= c < 2 ^ (mb + eb) -> signed (mb + eb) c = c.
Proof. intros H. unfold signed. destruct (Z.ltb_spec c (2 ^ (mb + eb))); lia. Qed.

Lemma top_range mb eb : 1 <= mb -> 2 <= eb -> 0 < top_pattern mb eb /\ top_pattern mb eb + 1 < 2 ^ (mb + eb).
Proof.
  intros Hm He. unfold top_pattern. rewrite Z.pow_add_r by lia. pose proof (Z.pow_le_mono_r 2 1 mb ltac:(lia) ltac:(lia)). pose proof (Z.pow_le_mono_r 2 2 eb ltac:(lia) ltac:(lia)). cbn in H, H0. nia.
Qed.

Lemma finite_nan mb eb c s r : ieee mb eb c = VNum s r -> forall t, ieee mb eb c <> VNaN t.
Proof. intros E t. rewrite E. discriminate. Qed.

(** At the top. *)
Lemma top_finite mb eb b s r : 1 <= mb -> 2 <= eb -> 0 <= b < 2 ^ (mb + eb + 1) -> ieee mb eb b = VNum s r -> signed (mb + eb) b <= top_pattern mb eb.
Proof.
  intros Hm He Hb E. destruct (ieee_mag mb eb b ltac:(lia) He Hb (finite_nan _ _ _ _ _ E)) as (s' & M & HM & S & E'). rewrite S.
  destruct (top_range mb eb Hm He) as [T1 T2]. unfold top_pattern in *. rewrite E' in E. destruct (Z.eqb_spec M ((2 ^ eb - 1) * 2 ^ mb)) as [|N]; [discriminate|]. destruct s'; lia.
Qed.

Lemma top_not_nan mb eb c : 1 <= mb -> 2 <= eb -> c = top_pattern mb eb \/ c = top_pattern mb eb + 1 -> forall s, ieee mb eb c <> VNaN s.
Proof.
  intros Hm He Hc s. pose proof (pow2_pos mb ltac:(lia)) as Hp. pose proof (pow2_pos eb ltac:(lia)) as Hpe. unfold top_pattern in Hc.
  destruct Hc as [-> | ->].
  - replace ((2 ^ eb - 1) * 2 ^ mb - 1) with (enc mb eb false (2 ^ eb - 2) (2 ^ mb - 1)) by (unfold enc; cbn [Z.b2z]; lia).
    assert (4 <= 2 ^ eb) by (apply (Z.pow_le_mono_r 2 2 eb); lia).
    rewrite ieee_enc by lia. unfold ieee_parts. destruct (Z.eqb_spec (2 ^ eb - 2) (2 ^ eb - 1)); [lia|]. destruct (2 ^ eb - 2 =? 0); discriminate.
  - replace ((2 ^ eb - 1) * 2 ^ mb - 1 + 1) with (enc mb eb false (2 ^ eb - 1) 0) by (unfold enc; cbn [Z.b2z]; lia).
    rewrite ieee_enc by lia. unfold ieee_parts. rewrite Z.eqb_refl, Z.eqb_refl. discriminate.
Qed.

Lemma top_above mb eb b c s r : 1 <= mb -> 2 <= eb -> 0 <= b < 2 ^ (mb + eb + 1) -> ieee mb eb b = VNum s r ->
  c = top_pattern mb eb \/ c = top_pattern mb eb + 1 -> vle (ieee mb eb b) (ieee mb eb c).
Proof.
  intros Hm He Hb E Hc. destruct (top_range mb eb Hm He) as [T1 T2]. assert (P2 : 2 ^ (mb + eb + 1) = 2 * 2 ^ (mb + eb)) by (rewrite (Z.pow_add_r 2 (mb + eb) 1) by lia; lia).
  apply ieee_order; try lia; [apply (finite_nan _ _ _ _ _ E)|apply top_not_nan; assumption|].
  pose proof (top_finite mb eb b s r Hm He Hb E). rewrite (pos_signed mb eb c) by lia. lia.
Qed.

Lemma top_only mb eb c : 1 <= mb -> 2 <= eb -> 0 <= c < 2 ^ (mb + eb) -> vle (ieee mb eb (top_pattern mb eb)) (ieee mb eb c) ->
  c = top_pattern mb eb \/ c = top_pattern mb eb + 1.
Proof.
  intros Hm He Hc V. destruct (vle_nan _ _ V) as [N1 N2]. destruct (top_range mb eb Hm He) as [T1 T2].
  assert (P2 : 2 ^ (mb + eb + 1) = 2 * 2 ^ (mb + eb)) by (rewrite (Z.pow_add_r 2 (mb + eb) 1) by lia; lia).
  apply ieee_order in V; try lia; [|exact N1|exact N2]. rewrite !pos_signed in V by lia.
  destruct (ieee_mag mb eb c ltac:(lia) He ltac:(lia) N2) as (s & M & HM & S & _). rewrite pos_signed in S by lia. unfold top_pattern in *. destruct s; lia.
Qed.

(** At the bottom. *)
Lemma low_not_nan mb eb c : 1 <= mb -> 2 <= eb -> c = 0 \/ c = 1 -> forall s, ieee mb eb c <> VNaN s.
Proof.
  intros Hm He Hc s. pose proof (pow2_pos eb ltac:(lia)) as Hpe. assert (2 <= 2 ^ mb) by (apply (Z.pow_le_mono_r 2 1 mb); lia). assert (4 <= 2 ^ eb) by (apply (Z.pow_le_mono_r 2 2 eb); lia).
  replace c with (enc mb eb false 0 c) by (unfold enc; cbn [Z.b2z]; lia). rewrite ieee_enc by lia. unfold ieee_parts. destruct (Z.eqb_spec 0 (2 ^ eb - 1)); [lia|]. discriminate.
Qed.

Lemma low_below mb eb b c s r : 1 <= mb -> 2 <= eb -> 0 <= b < 2 ^ (mb + eb + 1) -> ieee mb eb b = VNum s r -> (0 < r)%R ->
  c = 0 \/ c = 1 -> vle (ieee mb eb c) (ieee mb eb b).
Proof.
  intros Hm He Hb E Hr Hc. destruct (top_range mb eb Hm He) as [T1 T2]. assert (P2 : 2 ^ (mb + eb + 1) = 2 * 2 ^ (mb + eb)) by (rewrite (Z.pow_add_r 2 (mb + eb) 1) by lia; lia).
  apply ieee_order; try lia; [apply low_not_nan; assumption|apply (finite_nan _ _ _ _ _ E)|].
  rewrite (pos_signed mb eb c) by lia.
  destruct (ieee_mag mb eb b ltac:(lia) He Hb (finite_nan _ _ _ _ _ E)) as (s' & M & HM & S & E'). rewrite S. rewrite E' in E. destruct (M =? _); [discriminate|].
  apply VNum_inj in E. destruct E as [_ E].
  destruct (Z.eq_dec M 0) as [E0|N0]; [rewrite E0, mval_0 in E by lia; destruct s'; cbn [sgnR] in E; lra|].
  pose proof (mval_lt mb eb 0 M ltac:(lia) ltac:(lia)) as L. rewrite mval_0 in L by lia. destruct s'; cbn [sgnR] in E; [lra|]. lia.
Qed.

Lemma low_only mb eb c : 1 <= mb -> 2 <= eb -> 0 <= c < 2 ^ (mb + eb) -> vle (ieee mb eb c) (ieee mb eb 1) -> c = 0 \/ c = 1.
Proof.
  intros Hm He Hc V. destruct (vle_nan _ _ V) as [N1 N2]. destruct (top_range mb eb Hm He) as [T1 T2].
  assert (P2 : 2 ^ (mb + eb + 1) = 2 * 2 ^ (mb + eb)) by (rewrite (Z.pow_add_r 2 (mb + eb) 1) by lia; lia).
  apply ieee_order in V; try lia; [|exact N1|exact N2]. rewrite !pos_signed in V by lia. lia.
Qed.

(** The mantissa. *)
Lemma floor_mant v k n : 0 <= n -> (p2 k <= Rabs v < p2 (k + 1))%R -> 2 ^ n <= Zfloor (Rabs v * p2 (n - k)) < 2 ^ (n + 1).
Proof.
  intros Hn [H1 H2]. pose proof (p2_pos (n - k)) as P. split.
  - apply Zfloor_lub. rewrite IZR_pow2 by lia. replace n with (k + (n - k)) at 1 by lia. rewrite p2_plus. apply Rmult_le_compat_r; lra.
  - apply lt_IZR. apply Rle_lt_trans with (1 := Zfloor_lb _). rewrite IZR_pow2 by lia. replace (n + 1) with (k + 1 + (n - k)) by lia. rewrite (p2_plus (k + 1)). apply Rmult_lt_compat_r; lra.
Qed.

Lemma floor_low v k n : 0 <= n -> (Rabs v < p2 k)%R -> 0 <= Zfloor (Rabs v * p2 (n - k)) < 2 ^ n.
Proof.
  intros Hn H. pose proof (p2_pos (n - k)) as P. split.
  - apply Zfloor_lub. apply Rmult_le_pos; [apply Rabs_pos|lra].
  - apply lt_IZR. apply Rle_lt_trans with (1 := Zfloor_lb _). rewrite IZR_pow2 by lia. replace n with (k + (n - k)) at 2 by lia. rewrite p2_plus. apply Rmult_lt_compat_r; lra.
Qed.

Lemma rz_positive mb eb lo u : 0 <= mb -> fits mb eb (p2 lo) -> (p2 lo <= u)%R -> (0 < rz mb eb u)%R.
Proof. intros Hm F H. pose proof (rz_mono mb eb (p2 lo) u Hm H) as L. rewrite (fits_rz mb eb (p2 lo) Hm F) in L. pose proof (p2_pos lo). lra. Qed.

(** * binary16 *)
Lemma range16 x s v : wf x -> bval x = VNum s v -> 0 <= fst (Binary16.NewFromBig x) < 2 ^ 16 /\ ((0 < v)%R -> s = false -> fst (Binary16.NewFromBig x) < 2 ^ 15).
Proof.
  intros W B. destruct (Req_dec v 0) as [V0|V0].
  - subst v. destruct (Claims16.c08_16 s) as (_ & _ & _ & _ & _ & _ & _ & H & _). rewrite (H x W B). cbn [fst]. destruct s; unfold Binary16.NegZero, Binary16.Zero; split; try lia.
  - destruct (mag_ex v V0) as (k & Hk). pose proof (c07_all x s v k W B Hk) as A. cbv zeta in A. destruct (Binary16.NewFromBig x) as [b a]. cbn [fst].
    destruct A as (A1 & A2 & A3).
    assert (R : exists c, 0 <= c < 2 ^ 15 /\ b = (if s then 2 ^ 15 else 0) + c).
    { destruct (Z_le_gt_dec (-14) k) as [K|K].
      - destruct (A1 K) as [E _]. pose proof (floor_mant v k 10 ltac:(lia) Hk) as F. change (2 ^ (10 + 1)) with (2 * 2 ^ 10) in F. pose proof (Z.mod_pos_bound (k + 15) (2 ^ 5) ltac:(lia)).
        eexists. split; [|rewrite E, <- Z.add_assoc; reflexivity]. change (2 ^ 15) with (2 ^ 5 * 2 ^ 10). nia.
      - destruct (Z_le_gt_dec (-24) k) as [K2|K2].
        + destruct (A2 ltac:(lia)) as [E _]. exists (Zfloor (Rabs v * p2 24)). split; [|exact E]. replace 24 with (10 - -14) by reflexivity.
          assert (L : (Rabs v < p2 (-14))%R) by (apply Rlt_le_trans with (1 := proj2 Hk); apply p2_le; lia). pose proof (floor_low v (-14) 10 ltac:(lia) L). change (2 ^ 15) with (32 * 2 ^ 10). lia.
        + destruct (A3 ltac:(lia)) as [E _]. eexists. split; [|exact E]. pose proof (Z.mod_pos_bound (Zfloor (Rabs v * p2 (19 - k))) (2 ^ 11) ltac:(lia)). change (2 ^ 15) with (16 * 2 ^ 11). lia. }
    destruct R as (c & Hc & E). change (2 ^ 16) with (2 * 2 ^ 15). destruct s; split; try lia; discriminate.
Qed.

Definition max16 : BigFloat.bigfloat := BigFloat.mkBF 53 BigFloat.ToNearestEven BigFloat.Exact false (Finite 2047 5).
Definition min16 : BigFloat.bigfloat := BigFloat.mkBF 53 BigFloat.ToNearestEven BigFloat.Exact false (Finite 1 (-24)).

Lemma c68_16_outside : forall y v, wf y -> bval y = VNum false v ->
  ((p2 16 <= v)%R ->
    (forall x s u, wf x -> bval x = VNum s u -> u = 0%R \/ (p2 (-24) <= Rabs u < p2 16)%R ->
      vle (ieee 10 5 (fst (Binary16.NewFromBig x))) (ieee 10 5 (fst (Binary16.NewFromBig y)))) <->
    fst (Binary16.NewFromBig y) = 0x7BFF \/ fst (Binary16.NewFromBig y) = 0x7C00) /\
  ((0 < v < p2 (-24))%R ->
    (forall x s u, wf x -> bval x = VNum s u -> (p2 (-24) <= u < p2 16)%R ->
      vle (ieee 10 5 (fst (Binary16.NewFromBig y))) (ieee 10 5 (fst (Binary16.NewFromBig x)))) <->
    fst (Binary16.NewFromBig y) = 0 \/ fst (Binary16.NewFromBig y) = 1).
Proof.
  intros y v W B. destruct (range16 y false v W B) as [R1 R2]. set (c := fst (Binary16.NewFromBig y)) in *. split; intros Hv.
  - assert (R3 : c < 2 ^ 15) by (apply R2; [pose proof (p2_pos 16); lra|reflexivity]). split.
    + intros H. apply (top_only 10 5 c); [lia|lia|cbn; lia|].
      specialize (H max16 false (IZR 2047 * p2 5)%R). change (fst (Binary16.NewFromBig max16)) with (top_pattern 10 5) in H. apply H.
      * apply Claims16.fin_wf; unfold MaxPrec, MinExp, MaxExp; vm_compute; intuition congruence.
      * reflexivity.
      * right. rewrite Rabs_pos_eq by (apply Rmult_le_pos; [lra|apply Rlt_le, p2_pos]). change 16 with (11 + 5). rewrite (p2_plus 11 5), <- (IZR_pow2 11) by lia. split.
        -- apply Rle_trans with (p2 0); [apply p2_le; lia|]. change (p2 0) with 1%R. rewrite <- (IZR_pow2 5), <- mult_IZR by lia. apply IZR_le. lia.
        -- apply Rmult_lt_compat_r; [apply p2_pos|]. apply IZR_lt. lia.
    + intros Hc x s u Wx Bx Hu. pose proof (val16 x s u Wx Bx Hu) as E. apply (top_above 10 5 _ c s (rz 10 5 u)); [lia|lia| |exact E|exact Hc]. apply (range16 x s u Wx Bx).
  - assert (R3 : c < 2 ^ 15) by (apply R2; [lra|reflexivity]). split.
    + intros H. apply (low_only 10 5 c); [lia|lia|cbn; lia|].
      specialize (H min16 false (IZR 1 * p2 (-24))%R). change (fst (Binary16.NewFromBig min16)) with 1 in H. apply H.
      * apply Claims16.fin_wf; unfold MaxPrec, MinExp, MaxExp; vm_compute; intuition congruence.
      * reflexivity.
      * rewrite Rmult_1_l. split; [lra|]. apply bpow_lt. lia.
    + intros Hc x s u Wx Bx Hu. assert (Hu' : u = 0%R \/ (p2 (-24) <= Rabs u < p2 16)%R) by (right; pose proof (p2_pos (-24)); rewrite Rabs_pos_eq by lra; exact Hu).
      pose proof (val16 x s u Wx Bx Hu') as E. apply (low_below 10 5 _ c s (rz 10 5 u)); [lia|lia|apply (range16 x s u Wx Bx)|exact E| |exact Hc].
      apply (rz_positive 10 5 (-24)); [lia| |lra]. split; [exists 1, (-24); split; [ring|cbn; lia]|]. rewrite Rabs_pos_eq by (apply Rlt_le, p2_pos). apply bpow_lt. cbn. lia.
Qed.

(** * binary128 *)
Lemma range128 x s v : wf x -> bval x = VNum s v -> exists n a,
  Binary128.NewFromBig x = Ret (Binary128.mkFloat (n / 2 ^ 64) (n mod 2 ^ 64), a) /\ 0 <= n < 2 ^ 128 /\ ((0 < v)%R -> s = false -> n < 2 ^ 127).
Proof.
  intros W B. destruct (Req_dec v 0) as [V0|V0].
  - subst v. destruct (Claims128.c08_128 s) as (_ & _ & _ & _ & _ & _ & _ & H & _). rewrite (H x W B).
    exists (if s then 2 ^ 127 else 0). eexists. split; [destruct s; reflexivity|]. destruct s; split; try lia.
  - destruct (mag_ex v V0) as (k & Hk). destruct (c15_all x s v k W B Hk) as (n & a & E & A1 & A2 & A3). exists n, a. split; [exact E|].
    assert (R : exists c, 0 <= c < 2 ^ 127 /\ n = (if s then 2 ^ 127 else 0) + c).
    { clear E. destruct (Z_le_gt_dec (-16382) k) as [K|K].
      - destruct (A1 K) as [En _]. pose proof (floor_mant v k 112 ltac:(lia) Hk) as F. change (2 ^ (112 + 1)) with (2 * 2 ^ 112) in F. pose proof (Z.mod_pos_bound (k + 16383) (2 ^ 15) ltac:(lia)) as F2.
        eexists. split; [|rewrite En, <- Z.add_assoc; reflexivity]. clear - F F2. change (2 ^ 127) with (2 ^ 15 * 2 ^ 112). nia.
      - destruct (Z_le_gt_dec (-16494) k) as [K2|K2].
        + destruct (A2 ltac:(lia)) as [En _]. exists (Zfloor (Rabs v * p2 16494)). split; [|exact En]. replace 16494 with (112 - -16382) by reflexivity.
          assert (L : (Rabs v < p2 (-16382))%R) by (apply Rlt_le_trans with (1 := proj2 Hk); apply p2_le; lia). pose proof (floor_low v (-16382) 112 ltac:(lia) L). change (2 ^ 127) with (2 ^ 15 * 2 ^ 112). lia.
        + destruct (A3 ltac:(lia)) as [En _]. eexists. split; [|exact En]. pose proof (Z.mod_pos_bound (Zfloor (Rabs v * p2 (223 - k))) (2 ^ 112) ltac:(lia)). change (2 ^ 127) with (2 ^ 15 * 2 ^ 112). lia. }
    destruct R as (c & Hc & En). change (2 ^ 128) with (2 * 2 ^ 127). destruct s; split; try lia; discriminate.
Qed.

Lemma quad_join n : quad (n / 2 ^ 64) (n mod 2 ^ 64) = ieee 112 15 n.
Proof. unfold quad. f_equal. rewrite (Z.mul_comm (n / 2 ^ 64)), <- Z.div_mod; [reflexivity|lia]. Qed.

Definition max128 : BigFloat.bigfloat := BigFloat.mkBF 113 BigFloat.ToNearestEven BigFloat.Exact false (Finite (2 ^ 113 - 1) 16271).
Definition min128 : BigFloat.bigfloat := BigFloat.mkBF 53 BigFloat.ToNearestEven BigFloat.Exact false (Finite 1 (-16494)).

Lemma p2_in k lo hi m e : k = bitlen m + e -> 0 < m -> m < 2 ^ (hi - e) -> 0 <= hi - e -> lo <= e -> (p2 lo <= Rabs (IZR m * p2 e) < p2 hi)%R.
Proof.
  intros _ Hm Hh He Hl. pose proof (p2_pos e) as P. rewrite Rabs_pos_eq by (apply Rmult_le_pos; [apply IZR_le; lia|lra]). split.
  - apply Rle_trans with (p2 e); [apply p2_le; exact Hl|]. rewrite <- (Rmult_1_l (p2 e)) at 1. apply Rmult_le_compat_r; [lra|]. apply (IZR_le 1). lia.
  - replace hi with (hi - e + e) by lia. rewrite p2_plus, <- (IZR_pow2 (hi - e)) by lia. apply Rmult_lt_compat_r; [exact P|]. apply IZR_lt. exact Hh.
Qed.

Lemma c68_128_outside : forall y v, wf y -> bval y = VNum false v ->
  exists g b, Binary128.NewFromBig y = Ret (g, b) /\
  ((p2 16384 <= v)%R ->
    (forall x s u, wf x -> bval x = VNum s u -> u = 0%R \/ (p2 (-16494) <= Rabs u < p2 16384)%R ->
      exists f a, Binary128.NewFromBig x = Ret (f, a) /\ vle (quad (Binary128.fa f) (Binary128.fb f)) (quad (Binary128.fa g) (Binary128.fb g))) <->
    g = Binary128.mkFloat 0x7FFEFFFFFFFFFFFF 0xFFFFFFFFFFFFFFFF \/ g = Binary128.mkFloat 0x7FFF000000000000 0) /\
  ((0 < v < p2 (-16494))%R ->
    (forall x s u, wf x -> bval x = VNum s u -> (p2 (-16494) <= u < p2 16384)%R ->
      exists f a, Binary128.NewFromBig x = Ret (f, a) /\ vle (quad (Binary128.fa g) (Binary128.fb g)) (quad (Binary128.fa f) (Binary128.fb f))) <->
    g = Binary128.mkFloat 0 0 \/ g = Binary128.mkFloat 0 1).
Proof.
  intros y v W B. destruct (range128 y false v W B) as (c & b & E & R1 & R2). eexists _, b. split; [exact E|]. cbn [Binary128.fa Binary128.fb]. rewrite quad_join.
  assert (J : forall h l, 0 <= l < 2 ^ 64 -> (Binary128.mkFloat (c / 2 ^ 64) (c mod 2 ^ 64) = Binary128.mkFloat h l <-> c = h * 2 ^ 64 + l)).
  { intros h l Hl. split.
    - intros X. apply (f_equal (fun f => Binary128.fa f * 2 ^ 64 + Binary128.fb f)) in X. cbn [Binary128.fa Binary128.fb] in X. pose proof (Z.div_mod c (2 ^ 64) ltac:(lia)). lia.
    - intros ->. rewrite Z.div_add_l, (Z.div_small l), Z.add_0_r by lia. rewrite Z.add_comm, Z.mod_add, Z.mod_small by lia. reflexivity. }
  split; intros Hv.
  - assert (R3 : c < 2 ^ 127) by (apply R2; [pose proof (p2_pos 16384); lra|reflexivity]). rewrite !J by lia.
    change (0x7FFEFFFFFFFFFFFF * 2 ^ 64 + 0xFFFFFFFFFFFFFFFF) with (top_pattern 112 15). change (0x7FFF000000000000 * 2 ^ 64 + 0) with (top_pattern 112 15 + 1). split.
    + intros H. apply (top_only 112 15 c); [lia|lia|split; [lia|exact R3]|].
      destruct (H max128 false (IZR (2 ^ 113 - 1) * p2 16271)%R) as (f & a & Ef & V).
      * apply Claims16.fin_wf; unfold MaxPrec, MinExp, MaxExp; vm_compute; intuition congruence.
      * reflexivity.
      * right. apply (p2_in _ _ _ _ _ eq_refl); vm_compute; congruence.
      * assert (Em : exists a', Binary128.NewFromBig max128 = Ret (Binary128.mkFloat 0x7FFEFFFFFFFFFFFF 0xFFFFFFFFFFFFFFFF, a')) by (eexists; vm_compute; reflexivity).
        destruct Em as (a' & Em). rewrite Em in Ef. injection Ef as <- <-. exact V.
    + intros Hc x s u Wx Bx Hu. destruct (range128 x s u Wx Bx) as (n & a & En & Rn & _). eexists _, _. split; [exact En|]. cbn [Binary128.fa Binary128.fb]. rewrite quad_join.
      destruct (val128 x s u Wx Bx Hu) as (f & a' & Ef & Q). rewrite En in Ef. injection Ef as <- <-. cbn [Binary128.fa Binary128.fb] in Q. rewrite quad_join in Q.
      apply (top_above 112 15 _ c s (rz 112 15 u)); [lia|lia|exact Rn|exact Q|exact Hc].
  - assert (R3 : c < 2 ^ 127) by (apply R2; [lra|reflexivity]). rewrite !J by lia. change (0 * 2 ^ 64 + 0) with 0. change (0 * 2 ^ 64 + 1) with 1. split.
    + intros H. apply (low_only 112 15 c); [lia|lia|split; [lia|exact R3]|].
      destruct (H min128 false (IZR 1 * p2 (-16494))%R) as (f & a & Ef & V).
      * apply Claims16.fin_wf; unfold MaxPrec, MinExp, MaxExp; vm_compute; intuition congruence.
      * reflexivity.
      * rewrite Rmult_1_l. split; [lra|]. apply bpow_lt. lia.
      * assert (Em : exists a', Binary128.NewFromBig min128 = Ret (Binary128.mkFloat 0 1, a')) by (eexists; vm_compute; reflexivity).
        destruct Em as (a' & Em). rewrite Em in Ef. injection Ef as <- <-. exact V.
    + intros Hc x s u Wx Bx Hu. assert (Hu' : u = 0%R \/ (p2 (-16494) <= Rabs u < p2 16384)%R) by (right; pose proof (p2_pos (-16494)); rewrite Rabs_pos_eq by lra; exact Hu).
      destruct (range128 x s u Wx Bx) as (n & a & En & Rn & _). eexists _, _. split; [exact En|]. cbn [Binary128.fa Binary128.fb]. rewrite quad_join.
      destruct (val128 x s u Wx Bx Hu') as (f & a' & Ef & Q). rewrite En in Ef. injection Ef as <- <-. cbn [Binary128.fa Binary128.fb] in Q. rewrite quad_join in Q.
      apply (low_below 112 15 _ c s (rz 112 15 u)); [lia|lia|exact Rn|exact Q| |exact Hc].
      apply (rz_positive 112 15 (-16494)); [lia| |lra]. split; [exists 1, (-16494); split; [ring|vm_compute; intuition congruence]|]. rewrite Rabs_pos_eq by (apply Rlt_le, p2_pos). apply bpow_lt. reflexivity.
Qed.

(** * float80x86 *)
Definition max80 : BigFloat.bigfloat := BigFloat.mkBF 64 BigFloat.ToNearestEven BigFloat.Exact false (Finite (2 ^ 64 - 1) 16320).
Definition min80 : BigFloat.bigfloat := BigFloat.mkBF 53 BigFloat.ToNearestEven BigFloat.Exact false (Finite 1 (-16445)).

Lemma x87_pos E m : 0 <= E < 2 ^ 15 -> x87 E m = if E =? 2 ^ 15 - 1 then (if m =? 2 ^ 63 then VInf false else VNaN false) else VNum false (IZR m * p2 (Z.max E 1 - 16446)).
Proof.
  intros H. unfold x87. rewrite Z.mod_small, Z.div_small by lia. change (Z.odd 0) with false. cbn [sgnR]. replace (Z.max E 1 - 16383 - 63) with (Z.max E 1 - 16446) by lia. reflexivity.
Qed.

(** What NewFromBig makes of the numbers in the range of the format. *)
Lemma val80_top x s u : wf x -> bval x = VNum s u -> u = 0%R \/ (p2 (-16445) <= Rabs u < p2 16384)%R ->
  (rz 63 15 u <= IZR (2 ^ 64 - 1) * p2 16320)%R.
Proof.
  intros W B H. destruct (Rle_lt_dec u (IZR (2 ^ 64 - 1) * p2 16320)) as [L|L].
  - pose proof (rz_mono 63 15 u _ ltac:(lia) L) as M. rewrite (fits_rz 63 15 (IZR (2 ^ 64 - 1) * p2 16320)) in M; [exact M|lia|].
    split; [exists (2 ^ 64 - 1), 16320; split; [reflexivity|vm_compute; intuition congruence]|]. apply (p2_in _ 0 _ _ _ eq_refl); vm_compute; congruence.
  - assert (U : (0 < u)%R) by (apply Rle_lt_trans with (2 := L); apply Rmult_le_pos; [apply (IZR_le 0); lia|apply Rlt_le, p2_pos]).
    destruct H as [H|H]; [lra|]. pose proof H as H0. rewrite Rabs_pos_eq in H by lra.
    assert (K : (p2 16383 <= Rabs u < p2 (16383 + 1))%R).
    { rewrite Rabs_pos_eq by lra. split; [|exact (proj2 H)]. apply Rle_trans with (2 := Rlt_le _ _ L). change 16383 with (63 + 16320). rewrite p2_plus. apply Rmult_le_compat_r; [apply Rlt_le, p2_pos|]. rewrite <- IZR_pow2 by lia. apply IZR_le. lia. }
    pose proof (val80 x s u W B (or_intror H0)) as V. destruct (c21_all x s u 16383 W B K) as (se & m & a & E & A & _). destruct (A ltac:(lia)) as (Ese & Em & _). rewrite E in V. cbn [fst Float80x86.se Float80x86.m] in V.
    pose proof (floor_mant u 16383 63 ltac:(lia) K) as Fm. rewrite <- Em in Fm.
    change ((16383 + 16383) mod 2 ^ 15) with 32766 in Ese. unfold x87 in V.
    assert (X : se mod 2 ^ 15 = 32766) by (rewrite Ese; destruct s; reflexivity). rewrite X in V. change (32766 =? 2 ^ 15 - 1) with false in V. cbv iota in V. apply VNum_inj in V. destruct V as [Vs V]. rewrite <- V.
    change (Z.max 32766 1 - 16383 - 63) with 16320. pose proof (p2_pos 16320) as P. change (2 ^ (63 + 1)) with (2 ^ 64) in Fm.
    assert (0 < IZR m)%R by (apply (IZR_lt 0); lia). destruct (Z.odd (se / 2 ^ 15)); cbn [sgnR].
    + assert (0 < IZR (2 ^ 64 - 1))%R by (apply (IZR_lt 0); lia). nra.
    + apply Rmult_le_compat_r; [lra|]. apply IZR_le. lia.
Qed.

Lemma c68_80_outside : forall y v, wf y -> bval y = VNum false v ->
  let g := fst (Float80x86.NewFromBig y) in
  ((p2 16384 <= v)%R ->
    (forall x s u, wf x -> bval x = VNum s u -> u = 0%R \/ (p2 (-16445) <= Rabs u < p2 16384)%R ->
      let f := fst (Float80x86.NewFromBig x) in vle (x87 (Float80x86.se f) (Float80x86.m f)) (x87 (Float80x86.se g) (Float80x86.m g))) <->
    g = Float80x86.mkFloat 0x7FFE 0xFFFFFFFFFFFFFFFF \/ g = Float80x86.mkFloat 0x7FFF 0x8000000000000000) /\
  ((0 < v < p2 (-16445))%R ->
    exists x u, wf x /\ bval x = VNum false u /\ (p2 (-16445) <= u < p2 16384)%R /\
      let f := fst (Float80x86.NewFromBig x) in ~ vle (x87 (Float80x86.se g) (Float80x86.m g)) (x87 (Float80x86.se f) (Float80x86.m f))).
Proof.
  intros y v W B g. split; intros Hv.
  - assert (V0 : (0 < v)%R) by (pose proof (p2_pos 16384); lra). destruct (mag_ex v ltac:(lra)) as (k & Hk). destruct (c21_all y false v k W B Hk) as (se & m & a & E & A1 & _).
    assert (K : 16384 <= k) by (apply Z.nlt_ge; intros C; assert (p2 (k + 1) <= p2 16384)%R by (apply p2_le; lia); rewrite (Rabs_pos_eq v) in Hk by lra; lra).
    destruct (A1 ltac:(lia)) as (Ese & Em & _). pose proof (floor_mant v k 63 ltac:(lia) Hk) as Fm. rewrite <- Em in Fm. change (2 ^ (63 + 1)) with (2 ^ 64) in Fm.
    unfold g. rewrite E. cbn [fst Float80x86.se Float80x86.m]. assert (Rse : 0 <= se < 2 ^ 15) by (rewrite Ese; apply Z.mod_pos_bound; lia). clear Ese Em A1 E g.
    split.
    + intros H. specialize (H max80 false (IZR (2 ^ 64 - 1) * p2 16320)%R).
      assert (H1 : vle (x87 0x7FFE 0xFFFFFFFFFFFFFFFF) (x87 se m)).
      { replace (x87 0x7FFE 0xFFFFFFFFFFFFFFFF) with (x87 (Float80x86.se (fst (Float80x86.NewFromBig max80))) (Float80x86.m (fst (Float80x86.NewFromBig max80)))) by (f_equal; vm_compute; reflexivity). apply H.
        * apply Claims16.fin_wf; unfold MaxPrec, MinExp, MaxExp; vm_compute; intuition congruence.
        * reflexivity.
        * right. apply (p2_in _ _ _ _ _ eq_refl); vm_compute; congruence. }
      clear H. rewrite !x87_pos in H1 by lia. change (0x7FFE =? 2 ^ 15 - 1) with false in H1. cbv iota in H1. change (Z.max 0x7FFE 1 - 16446) with 16320 in H1.
      destruct (Z.eqb_spec se (2 ^ 15 - 1)) as [S|S].
      * destruct (Z.eqb_spec m (2 ^ 63)) as [M|M]; [right; rewrite S, M; reflexivity|contradiction].
      * left. cbn [vle] in H1. assert (Q : se = 0x7FFE /\ m = 0xFFFFFFFFFFFFFFFF); [|destruct Q as [-> ->]; reflexivity].
        assert (S1 : se = 0x7FFE).
        { destruct (Z.eq_dec se 0x7FFE) as [|N]; [assumption|exfalso]. assert (LE : (IZR m * p2 (Z.max se 1 - 16446) <= IZR m * p2 16319)%R) by (apply Rmult_le_compat_l; [apply (IZR_le 0); lia|apply p2_le; lia]).
          change 16320 with (1 + 16319) in H1. rewrite p2_plus in H1. change (p2 1) with 2%R in H1. pose proof (p2_pos 16319) as P. assert (IZR m < IZR (2 ^ 64))%R by (apply IZR_lt; lia).
          assert (IZR (2 ^ 64) < IZR (2 ^ 64 - 1) * 2)%R by (rewrite <- mult_IZR; apply IZR_lt; lia). nra. }
        split; [exact S1|]. rewrite S1 in H1. change (Z.max 0x7FFE 1 - 16446) with 16320 in H1. apply Rmult_le_reg_r in H1; [|apply p2_pos]. apply le_IZR in H1. lia.
    + intros Hc x s u Wx Bx Hu. pose proof (val80 x s u Wx Bx Hu) as Vx. cbv zeta in Vx. cbv zeta. rewrite Vx. pose proof (val80_top x s u Wx Bx Hu) as L. destruct Hc as [Hc|Hc].
      * apply (f_equal (fun h => (Float80x86.se h, Float80x86.m h))) in Hc. cbn [Float80x86.se Float80x86.m] in Hc. assert (Es : se = 0x7FFE /\ m = 0xFFFFFFFFFFFFFFFF) by (split; congruence). destruct Es as [-> ->].
        rewrite x87_pos by lia. change (0x7FFE =? 2 ^ 15 - 1) with false. cbv iota. change (Z.max 0x7FFE 1 - 16446) with 16320. exact L.
      * apply (f_equal (fun h => (Float80x86.se h, Float80x86.m h))) in Hc. cbn [Float80x86.se Float80x86.m] in Hc. assert (Es : se = 0x7FFF /\ m = 0x8000000000000000) by (split; congruence). destruct Es as [-> ->].
        rewrite x87_pos by lia. exact I.
  - destruct (mag_ex v ltac:(lra)) as (k & Hk). destruct (c21_all y false v k W B Hk) as (se & m & a & E & _ & _ & A3).
    assert (K : k < -16445) by (apply Z.nle_gt; intros C; assert (p2 (-16445) <= p2 k)%R by (apply p2_le; lia); rewrite (Rabs_pos_eq v) in Hk by lra; lra).
    destruct (A3 K) as (-> & -> & _). unfold g. rewrite E. cbn [fst Float80x86.se Float80x86.m].
    exists min80, (IZR 1 * p2 (-16445))%R. split; [apply Claims16.fin_wf; unfold MaxPrec, MinExp, MaxExp; vm_compute; intuition congruence|]. split; [reflexivity|].
    split; [rewrite Rmult_1_l; split; [lra|apply bpow_lt; lia]|]. cbv zeta.
    replace (x87 (Float80x86.se (fst (Float80x86.NewFromBig min80))) (Float80x86.m (fst (Float80x86.NewFromBig min80)))) with (x87 0 1) by (f_equal; vm_compute; reflexivity).
    rewrite !x87_pos by lia. change (0 =? 2 ^ 15 - 1) with false. cbv iota. change (Z.max 0 1 - 16446) with (-16445). cbn [vle]. apply Rlt_not_le. apply Rmult_lt_compat_r; [apply p2_pos|]. apply IZR_lt. lia.
Qed.

Definition power (e : Z) : BigFloat.bigfloat := BigFloat.mkBF 53 BigFloat.ToNearestEven BigFloat.Exact false (Finite 1 e).

Lemma c68_outside_example : forall e, MinExp < e + 1 <= MaxExp -> wf (power e) /\ bval (power e) = VNum false (IZR 1 * p2 e).
Proof.
  intros e H. split; [|reflexivity]. apply Claims16.fin_wf; try (unfold gexp); change (bitlen 1) with 1; unfold MaxPrec; try lia.
Qed.
