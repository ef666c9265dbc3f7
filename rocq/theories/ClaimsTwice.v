(** The lemmas behind C96 (truncation through a wider format) and C97 (rounding twice). *)
From Coq Require Import ZArith Reals Lia Lra Bool List.
From Flocq Require Import Core Relative.
From Verif Require Import GoBase.
From Verif Require BigFloat Binary16 Binary128 Float80x86.
From Verif Require Import Spec SpecTwice BitFacts RoundFacts IeeeFacts BigFacts BigFacts2 BigFacts3 PkgFacts.
From Verif Require Facts16 Facts128 Facts80 AllBig Claims16 Claims128 Claims80 ClaimsTrip ClaimsRep ClaimsNeg PkgExact FtoaAll.
From Verif Require Import ClaimsErr.
Import BigFloat (bitlen, gexp, prec, rmode, acc, neg, frm, Finite, MaxExp, MinExp, MaxPrec).
Open Scope Z_scope.

(** ** Rounding twice *)

Definition f32 := FLT_exp (-149) 24.
Definition f64 := FLT_exp (-1074) 53.
Local Instance P24 : Prec_gt_0 24. Proof. unfold Prec_gt_0; lia. Qed.
Local Instance P53 : Prec_gt_0 53. Proof. unfold Prec_gt_0; lia. Qed.
Local Instance V32 : Valid_exp f32. Proof. apply FLT_exp_valid. exact P24. Qed.
Local Instance V64 : Valid_exp f64. Proof. apply FLT_exp_valid. exact P53. Qed.
Local Instance M32 : Monotone_exp f32. Proof. apply FLT_exp_monotone. Qed.

Lemma rn32 x : rn 23 8 x = round radix2 f32 ZnearestE x. Proof. reflexivity. Qed.
Lemma rn64 x : rn 52 11 x = round radix2 f64 ZnearestE x. Proof. reflexivity. Qed.

Lemma digits32 h : (0 <= h)%R -> generic_format radix2 f32 h ->
  exists M e, h = (IZR M * bpow radix2 e)%R /\ 0 <= M < 2 ^ 24 /\ -149 <= e /\ ulp radix2 f32 h = bpow radix2 e.
Proof.
  intros P F. destruct (Req_dec h 0) as [->|N].
  - exists 0, (-149). split; [lra|]. split; [lia|]. split; [lia|]. unfold f32. rewrite ulp_FLT_small; [reflexivity|exact P24|].
    rewrite Rabs_R0. apply bpow_gt_0.
  - exists (Ztrunc (scaled_mantissa radix2 f32 h)), (cexp radix2 f32 h). split; [exact F|].
    assert (S : IZR (Ztrunc (scaled_mantissa radix2 f32 h)) = (h * bpow radix2 (- cexp radix2 f32 h))%R).
    { rewrite <- scaled_mantissa_generic by exact F. reflexivity. }
    assert (C : cexp radix2 f32 h >= mag radix2 h - 24) by (unfold cexp, f32, FLT_exp; lia).
    assert (C' : -149 <= cexp radix2 f32 h) by (unfold cexp, f32, FLT_exp; lia).
    split; [|split; [exact C'|apply ulp_neq_0; exact N]].
    split.
    + apply le_IZR. rewrite S. apply Rmult_le_pos; [exact P|apply bpow_ge_0].
    + apply lt_IZR. rewrite S. pose proof (bpow_mag_gt radix2 h) as Hq. set (q := mag radix2 h : Z) in *.
      apply Rlt_le_trans with (bpow radix2 q * bpow radix2 (- cexp radix2 f32 h))%R.
      * apply Rmult_lt_compat_r; [apply bpow_gt_0|]. rewrite <- (Rabs_pos_eq h) by exact P. exact Hq.
      * rewrite <- bpow_plus. rewrite (IZR_Zpower radix2) by lia. apply bpow_le. lia.
Qed.

Lemma mid_format h : (0 <= h)%R -> generic_format radix2 f32 h ->
  generic_format radix2 f64 ((h + succ radix2 f32 h) / 2) /\
  (exists M c, ((h + succ radix2 f32 h) / 2 = IZR M * p2 c)%R /\ Z.abs M < 2 ^ 25 /\ -150 <= c).
Proof.
  intros P F. destruct (digits32 h P F) as (M & e & E & HM & He & U).
  assert (Q : ((h + succ radix2 f32 h) / 2 = IZR (2 * M + 1) * bpow radix2 (e - 1))%R).
  { rewrite succ_eq_pos by exact P. rewrite U, E.
    assert (B : (bpow radix2 e = 2 * bpow radix2 (e - 1))%R).
    { replace e with (1 + (e - 1)) at 1 by lia. rewrite bpow_plus. reflexivity. }
    rewrite B, plus_IZR, mult_IZR. field. }
  split.
  - rewrite Q. apply generic_format_FLT. exists (Float radix2 (2 * M + 1) (e - 1)); [reflexivity| |cbn [Fexp]; lia].
    cbn [Fnum]. change (Z.abs (2 * M + 1) < 2 ^ 53). lia.
  - exists (2 * M + 1), (e - 1). split; [exact Q|]. split; [lia|lia].
Qed.

Lemma side_lt m v : generic_format radix2 f64 m -> (rn 52 11 v < m)%R -> (v < m)%R.
Proof.
  intros F H. apply Rnot_le_lt. intros L. apply (PkgExact.rn_mono 52 11) in L; [|lia]. rewrite (rn64 m), round_generic in L by (try typeclasses eauto; exact F). lra.
Qed.
Lemma side_gt m v : generic_format radix2 f64 m -> (m < rn 52 11 v)%R -> (m < v)%R.
Proof.
  intros F H. apply Rnot_le_lt. intros L. apply (PkgExact.rn_mono 52 11) in L; [|lia]. rewrite (rn64 m), round_generic in L by (try typeclasses eauto; exact F). lra.
Qed.

Lemma f32_f64 m : generic_format radix2 f32 m -> generic_format radix2 f64 m.
Proof.
  intros F. apply generic_inclusion_mag with (fexp1 := f32); [|exact F]. intros _. unfold f32, f64, FLT_exp. lia.
Qed.

(** A number strictly between two neighbours is half way between them if it has 25 bits. *)
Lemma mid_only w M c : (0 < w)%R -> ~ generic_format radix2 f32 w -> (w = IZR M * p2 c)%R -> Z.abs M < 2 ^ 25 -> -150 <= c ->
  w = ((round radix2 f32 Zfloor w + round radix2 f32 Zceil w) / 2)%R.
Proof.
  intros P N E HM Hc. rewrite round_UP_DN_ulp by exact N. rewrite ulp_neq_0 by lra.
  assert (F25 : generic_format radix2 (FLT_exp (-150) 25) w).
  { apply generic_format_FLT. exists (Float radix2 M c); [exact E|exact HM|exact Hc]. }
  set (e := cexp radix2 f32 w). assert (Ce : cexp radix2 (FLT_exp (-150) 25) w = e - 1).
  { unfold e, cexp, f32, FLT_exp. lia. }
  unfold generic_format, F2R in F25. cbn [Fnum Fexp] in F25. rewrite Ce in F25. set (n := Ztrunc _) in F25.
  unfold round, F2R. cbn [Fnum Fexp]. fold e. unfold scaled_mantissa. fold e.
  assert (S : (w * bpow radix2 (- e) = IZR n / 2)%R).
  { rewrite F25 at 1. rewrite Rmult_assoc, <- bpow_plus. replace (e - 1 + - e) with (-1) by lia. change (bpow radix2 (-1)) with (/ 2)%R. reflexivity. }
  rewrite S.
  assert (O : Z.odd n = true).
  { destruct (Z.odd n) eqn:O; [reflexivity|]. exfalso. apply N. rewrite <- Z.negb_even in O. apply negb_false_iff, Z.even_spec in O. destruct O as [j ->].
    assert (X : w = (IZR j * bpow radix2 e)%R).
    { rewrite F25. rewrite mult_IZR. replace e with (1 + (e - 1)) at 2 by lia. rewrite bpow_plus. change (bpow radix2 1) with 2%R. ring. }
    rewrite X. apply generic_format_F2R' with (f := Float radix2 j e); [reflexivity|]. intros _. cbn [Fexp]. rewrite <- X. unfold e. lia. }
  apply Z.odd_spec in O. destruct O as [j Hj].
  assert (Fl : Zfloor (IZR n / 2) = j).
  { apply Zfloor_imp. rewrite Hj. rewrite !plus_IZR, mult_IZR. lra. }
  rewrite Fl. rewrite F25 at 1. rewrite Hj. rewrite plus_IZR, mult_IZR.
  replace (bpow radix2 e) with (2 * bpow radix2 (e - 1))%R.
  - lra.
  - replace e with (1 + (e - 1)) at 2 by lia. rewrite bpow_plus. reflexivity.
Qed.

Lemma twice_pos v : (0 <= v)%R -> let w := rn 52 11 v in
  rn 23 8 w = rn 23 8 v <-> ~ (midpoint 23 8 w /\ ((v - w) * (rn 23 8 w - w) < 0)%R).
Proof.
  intros P w.
  assert (Pw : (0 <= w)%R). { unfold w. rewrite rn64. apply round_ge_generic; [typeclasses eauto|typeclasses eauto|apply generic_format_0|exact P]. }
  destruct (generic_format_EM radix2 f32 w) as [F|N].
  - assert (Rw : rn 23 8 w = w) by (rewrite rn32; apply round_generic; [typeclasses eauto|exact F]).
    assert (Eq : rn 23 8 v = w).
    { apply Rle_antisym.
      - rewrite rn32. apply round_N_le_midp; [typeclasses eauto|exact F|]. apply side_lt; [apply mid_format; assumption|].
        fold w. destruct (Req_dec w 0) as [->|Nz].
        + rewrite succ_0. unfold f32. rewrite ulp_FLT_small; [|exact P24|rewrite Rabs_R0; apply bpow_gt_0]. pose proof (bpow_gt_0 radix2 (-149)). lra.
        + pose proof (succ_gt_id radix2 f32 w Nz). lra.
      - destruct (Req_dec w 0) as [->|Nz].
        + rewrite rn32. apply round_ge_generic; [typeclasses eauto|typeclasses eauto|apply generic_format_0|exact P].
        + rewrite rn32. apply round_N_ge_midp; [typeclasses eauto|exact F|].
          assert (Fp : generic_format radix2 f32 (pred radix2 f32 w)) by (apply generic_format_pred; [typeclasses eauto|exact F]).
          assert (Pp : (0 <= pred radix2 f32 w)%R) by (apply pred_ge_0; [typeclasses eauto|lra|exact F]).
          pose proof (mid_format _ Pp Fp) as [Fm _]. rewrite succ_pred in Fm by (try typeclasses eauto; exact F).
          rewrite Rplus_comm. apply side_gt; [exact Fm|]. fold w. pose proof (pred_lt_id radix2 f32 w Nz). lra. }
    split; [|intros _; congruence]. intros _ [[_ B] _]. congruence.
  - assert (Nz : w <> 0%R) by (intros Z; apply N; rewrite Z; apply generic_format_0).
    set (h := round radix2 f32 Zfloor w). set (h' := round radix2 f32 Zceil w).
    assert (Fh : generic_format radix2 f32 h) by (apply generic_format_round; typeclasses eauto).
    assert (Fh' : generic_format radix2 f32 h') by (apply generic_format_round; typeclasses eauto).
    assert (Ph : (0 <= h)%R) by (apply round_ge_generic; [typeclasses eauto|typeclasses eauto|apply generic_format_0|exact Pw]).
    assert (Sh : succ radix2 f32 h = h') by (apply succ_DN_eq_UP; [typeclasses eauto|exact N]).
    assert (Ph' : pred radix2 f32 h' = h) by (apply pred_UP_eq_DN; [typeclasses eauto|exact N]).
    destruct (round_DN_UP_lt radix2 f32 w N) as [L1 L2]. fold h in L1. fold h' in L2.
    destruct (mid_format h Ph Fh) as [Fm _]. rewrite Sh in Fm.
    assert (V1 : (h < v)%R) by (apply side_gt; [apply f32_f64, Fh|exact L1]).
    assert (V2 : (v < h')%R) by (apply side_lt; [apply f32_f64, Fh'|exact L2]).
    assert (Lo : forall u, (h < u)%R -> (u < (h + h') / 2)%R -> rn 23 8 u = h).
    { intros u A B. apply Rle_antisym.
      - rewrite rn32. apply round_N_le_midp; [typeclasses eauto|exact Fh|rewrite Sh; exact B].
      - rewrite rn32. apply round_ge_generic; [typeclasses eauto|typeclasses eauto|exact Fh|lra]. }
    assert (Hi : forall u, ((h + h') / 2 < u)%R -> (u < h')%R -> rn 23 8 u = h').
    { intros u A B. apply Rle_antisym.
      - rewrite rn32. apply round_le_generic; [typeclasses eauto|typeclasses eauto|exact Fh'|lra].
      - rewrite rn32. apply round_N_ge_midp; [typeclasses eauto|exact Fh'|rewrite Ph'; lra]. }
    destruct (Rtotal_order w ((h + h') / 2)) as [L|[E|G]].
    + rewrite (Lo w L1 L), (Lo v V1 (side_lt _ _ Fm L)). split; [|reflexivity]. intros _ [[(M & c & X & HM & Hc) _] _].
      assert (Y : w = ((h + h') / 2)%R) by (apply (mid_only w M c); [lra|exact N|exact X|exact HM|exact Hc]). lra.
    + assert (D : rn 23 8 w = h \/ rn 23 8 w = h').
      { rewrite rn32. apply round_DN_or_UP. typeclasses eauto. }
      assert (Mp : midpoint 23 8 w).
      { split.
        - destruct (mid_format h Ph Fh) as [_ (M & c & X & HM & Hc)]. rewrite Sh, <- E in X. exists M, c. auto.
        - intros X. apply N. rewrite <- X. apply generic_format_round; typeclasses eauto. }
      destruct (Rtotal_order v w) as [A|[A|A]].
      * rewrite (Lo v V1) by lra. destruct D as [D|D]; rewrite D.
        -- split; [|reflexivity]. intros _ [_ B]. assert (0 < (v - w) * (h - w))%R; [|lra]. replace ((v - w) * (h - w))%R with ((w - v) * (w - h))%R by ring. apply Rmult_lt_0_compat; lra.
        -- split; [intros; lra|]. intros B. exfalso. apply B. split; [exact Mp|]. assert (0 < (w - v) * (h' - w))%R by (apply Rmult_lt_0_compat; lra). lra.
      * rewrite A. split; [|reflexivity]. intros _ [_ B]. replace (w - w)%R with 0%R in B by lra. lra.
      * rewrite (Hi v) by lra. destruct D as [D|D]; rewrite D.
        -- split; [intros; lra|]. intros B. exfalso. apply B. split; [exact Mp|]. assert (0 < (v - w) * (w - h))%R by (apply Rmult_lt_0_compat; lra). lra.
        -- split; [|reflexivity]. intros _ [_ B]. assert (0 < (v - w) * (h' - w))%R by (apply Rmult_lt_0_compat; lra). lra.
    + rewrite (Hi w G L2), (Hi v (side_gt _ _ Fm G) V2). split; [|reflexivity]. intros _ [[(M & c & X & HM & Hc) _] _].
      assert (Y : w = ((h + h') / 2)%R) by (apply (mid_only w M c); [lra|exact N|exact X|exact HM|exact Hc]). lra.
Qed.

Lemma midpoint_opp mb eb d : midpoint mb eb d -> midpoint mb eb (- d).
Proof.
  intros [(M & c & E & HM & Hc) N]. split.
  - exists (- M), c. rewrite opp_IZR. split; [rewrite E; ring|]. rewrite Z.abs_opp. auto.
  - rewrite ClaimsNeg.rn_opp. intros X. apply N. lra.
Qed.

Lemma twice v : let w := rn 52 11 v in
  rn 23 8 w = rn 23 8 v <-> ~ (midpoint 23 8 w /\ ((v - w) * (rn 23 8 w - w) < 0)%R).
Proof.
  intros w. destruct (Rle_lt_dec 0 v) as [P|P]; [apply twice_pos; exact P|].
  pose proof (twice_pos (- v) ltac:(lra)) as T. cbv zeta in T. rewrite !ClaimsNeg.rn_opp in T. fold w in T.
  split.
  - intros E [M L]. apply T; [rewrite E; reflexivity|]. split; [apply midpoint_opp, M|].
    replace ((- v - - w) * (- rn 23 8 w - - w))%R with ((v - w) * (rn 23 8 w - w))%R by ring. exact L.
  - intros N. assert (X : (- rn 23 8 w = - rn 23 8 v)%R); [|lra]. apply T. intros [M L]. apply N. split.
    + rewrite <- (Ropp_involutive w). apply midpoint_opp, M.
    + replace ((v - w) * (rn 23 8 w - w))%R with ((- v - - w) * (- rn 23 8 w - - w))%R by ring. exact L.
Qed.

Lemma rn_pow mb eb k : 1 <= mb -> 2 <= eb -> 0 <= k -> rn mb eb (p2 k) = p2 k.
Proof.
  intros Hm He Hk. unfold rn. apply round_generic; [typeclasses eauto|]. apply generic_format_bpow.
  unfold FLT_exp. assert (2 <= 2 ^ (eb - 1)) by (change 2 with (2 ^ 1) at 1; apply Z.pow_le_mono_r; lia). lia.
Qed.
Lemma rn_abs mb eb v : 1 <= mb -> Rabs (rn mb eb v) = rn mb eb (Rabs v).
Proof.
  intros Hm. unfold rn. symmetry. apply round_NE_abs. apply FLT_exp_valid. unfold Prec_gt_0. lia.
Qed.
Lemma rn_abs_le mb eb v k : 1 <= mb -> 2 <= eb -> 0 <= k -> (Rabs v <= p2 k)%R -> (Rabs (rn mb eb v) <= p2 k)%R.
Proof. intros Hm He Hk H. rewrite rn_abs, <- (rn_pow mb eb k) by assumption. apply PkgExact.rn_mono; assumption. Qed.
Lemma rn_abs_ge mb eb v k : 1 <= mb -> 2 <= eb -> 0 <= k -> (p2 k <= Rabs v)%R -> (p2 k <= Rabs (rn mb eb v))%R.
Proof. intros Hm He Hk H. rewrite rn_abs, <- (rn_pow mb eb k) by assumption. apply PkgExact.rn_mono; assumption. Qed.

Lemma ieee_round_inf mb eb s v : (p2 (2 ^ (eb - 1)) <= Rabs (rn mb eb v))%R -> ieee_round mb eb s v = VInf s.
Proof. intros H. unfold ieee_round. rewrite Rle_bool_true by exact H. reflexivity. Qed.

Lemma rn_sign mb eb v : 1 <= mb -> ((0 <= v)%R -> (0 <= rn mb eb v)%R) /\ ((v <= 0)%R -> (rn mb eb v <= 0)%R).
Proof.
  intros Hm. assert (Z : rn mb eb 0 = 0%R) by (unfold rn; apply round_0; typeclasses eauto).
  split; intros H; apply (PkgExact.rn_mono mb eb) in H; try exact Hm; lra.
Qed.

Lemma twice_bits d g s v : 0 <= d < 2 ^ 64 -> 0 <= g < 2 ^ 32 -> ieee 52 11 d = ieee_round 52 11 s v -> ieee 23 8 g = ieee_round 23 8 s v ->
  BigFloat.f64_to_f32 d = g <->
  ~ ((Rabs v < p2 128)%R /\ midpoint 23 8 (rn 52 11 v) /\ ((v - rn 52 11 v) * (rn 23 8 (rn 52 11 v) - rn 52 11 v) < 0)%R).
Proof.
  intros Hd Hg Id Ig. destruct (FtoaAll.f64_to_f32_correct d Hd) as [Hr C]. set (g' := BigFloat.f64_to_f32 d) in *.
  assert (J : ieee 23 8 g' = ieee 23 8 g -> g' = g).
  { intros E. apply (ieee_inj 23 8); [lia|lia|exact Hr|exact Hg|exact E|]. intros t. rewrite E, Ig. unfold ieee_round. destruct (Rle_bool _ _); discriminate. }
  set (w := rn 52 11 v) in *.
  destruct (Rlt_le_dec (Rabs v) (p2 128)) as [L|L].
  - assert (Lw : (Rabs w <= p2 128)%R) by (apply rn_abs_le; [lia|lia|lia|lra]).
    assert (B : (p2 128 < p2 1024)%R) by (apply bpow_lt; lia).
    assert (Iw : ieee 52 11 d = VNum s w).
    { rewrite Id. unfold ieee_round. fold w. rewrite Rle_bool_false; [reflexivity|]. change (2 ^ (11 - 1)) with 1024. lra. }
    rewrite Iw in C. pose proof (twice v) as T. cbv zeta in T. fold w in T.
    split.
    + intros E (_ & M & S).
      assert (X : rn 23 8 w = rn 23 8 v); [|apply T in X; auto].
      rewrite E, Ig in C. unfold ieee_round in C. change (2 ^ (8 - 1)) with 128 in C.
      destruct (Rle_bool_spec (p2 128) (Rabs (rn 23 8 v))) as [A|A], (Rle_bool_spec (p2 128) (Rabs (rn 23 8 w))) as [A'|A']; try discriminate C.
      * pose proof (rn_abs_le 23 8 v 128 ltac:(lia) ltac:(lia) ltac:(lia) ltac:(lra)) as D.
        pose proof (rn_abs_le 23 8 w 128 ltac:(lia) ltac:(lia) ltac:(lia) Lw) as D'.
        destruct (rn_sign 23 8 v ltac:(lia)) as [S1 S2], (rn_sign 52 11 v ltac:(lia)) as [S3 S4], (rn_sign 23 8 w ltac:(lia)) as [S5 S6]. fold w in S3, S4.
        destruct (Rle_lt_dec 0 v) as [P|P].
        -- specialize (S1 P). specialize (S5 (S3 P)). rewrite Rabs_pos_eq in D, A by exact S1. rewrite Rabs_pos_eq in D', A' by exact S5. lra.
        -- specialize (S2 ltac:(lra)). specialize (S6 (S4 ltac:(lra))). rewrite Rabs_left1 in D, A by exact S2. rewrite Rabs_left1 in D', A' by exact S6. lra.
      * apply VNum_inj in C. destruct C as [_ C]. symmetry. exact C.
    + intros N. apply J. rewrite C, Ig. unfold ieee_round. replace (rn 23 8 w) with (rn 23 8 v); [reflexivity|]. symmetry. apply T. intros [M S]. apply N. auto.
  - split; [intros _ (A & _); lra|]. intros _. apply J. rewrite Ig, (ieee_round_inf 23 8 s v) by (apply rn_abs_ge; [lia|lia|lia|exact L]).
    assert (Lw : (p2 128 <= Rabs w)%R) by (apply rn_abs_ge; [lia|lia|lia|exact L]).
    rewrite Id in C. unfold ieee_round in C at 1. fold w in C. destruct (Rle_bool _ _); [exact C|]. rewrite C. apply ieee_round_inf. apply rn_abs_ge; [lia|lia|lia|exact Lw].
Qed.

Lemma c97_128 : forall f s v, 0 <= Binary128.fa f < 2 ^ 64 -> 0 <= Binary128.fb f < 2 ^ 64 -> quad (Binary128.fa f) (Binary128.fb f) = VNum s v ->
  let w := rn 52 11 v in
  exists d a g a', Binary128.Float64 f = Ret (d, a) /\ Binary128.Float32 f = Ret (g, a') /\
  (BigFloat.f64_to_f32 d = g <-> ~ ((Rabs v < p2 128)%R /\ midpoint 23 8 w /\ ((v - w) * (rn 23 8 w - w) < 0)%R)).
Proof.
  intros f s v Ha Hb Q w. destruct (Claims128.c14 f Ha Hb) as (d & a & g & a' & E & Hd & E' & Hg & V). rewrite Q in V.
  exists d, a, g, a'. split; [exact E|]. split; [exact E'|]. apply (twice_bits d g s v); tauto.
Qed.

Lemma c97_80 : forall f s v, 0 <= Float80x86.se f < 2 ^ 16 -> 0 <= Float80x86.m f < 2 ^ 64 -> x87 (Float80x86.se f) (Float80x86.m f) = VNum s v ->
  let w := rn 52 11 v in
  exists d a g a', Float80x86.Float64 f = Ret (d, a) /\ Float80x86.Float32 f = Ret (g, a') /\
  (BigFloat.f64_to_f32 d = g <-> ~ ((Rabs v < p2 128)%R /\ midpoint 23 8 w /\ ((v - w) * (rn 23 8 w - w) < 0)%R)).
Proof.
  intros f s v Ha Hb Q w. destruct (Claims80.c20 f Ha Hb) as (d & a & g & a' & E & Hd & E' & Hg & V). rewrite Q in V.
  exists d, a, g, a'. split; [exact E|]. split; [exact E'|]. apply (twice_bits d g s v); tauto.
Qed.

(** ** Truncating twice *)

Lemma floor_div a d : 0 < d -> Zfloor (a / IZR d) = Zfloor a / d.
Proof.
  intros Hd. apply Zfloor_imp. assert (D : (0 < IZR d)%R) by (apply IZR_lt; exact Hd).
  pose proof (Zfloor_lb a). pose proof (Zfloor_ub a).
  pose proof (Z.div_mod (Zfloor a) d ltac:(lia)) as E. pose proof (Z.mod_pos_bound (Zfloor a) d Hd) as B. set (q := Zfloor a / d) in *. set (r := Zfloor a mod d) in *.
  split.
  - apply Rmult_le_reg_r with (IZR d); [exact D|]. unfold Rdiv. rewrite Rmult_assoc, Rinv_l, Rmult_1_r by lra.
    apply Rle_trans with (IZR (Zfloor a)); [|assumption]. rewrite <- mult_IZR. apply IZR_le. lia.
  - apply Rmult_lt_reg_r with (IZR d); [exact D|]. unfold Rdiv. rewrite Rmult_assoc, Rinv_l, Rmult_1_r by lra.
    apply Rlt_le_trans with (IZR (Zfloor a) + 1)%R; [assumption|]. rewrite <- mult_IZR, <- plus_IZR. apply IZR_le. nia.
Qed.

Lemma floor_twice a n n' : n <= n' -> Zfloor (IZR (Zfloor (a * p2 n')) * p2 (- n') * p2 n) = Zfloor (a * p2 n).
Proof.
  intros H. assert (E : forall x, (x * p2 (- n') * p2 n = x / IZR (2 ^ (n' - n)))%R).
  { intros x. rewrite (IZR_Zpower radix2) by lia. unfold p2, Rdiv. rewrite <- bpow_opp, Rmult_assoc, <- bpow_plus. f_equal. f_equal. lia. }
  replace (a * p2 n)%R with (a * p2 n' * p2 (- n') * p2 n)%R.
  - rewrite !E. rewrite !floor_div by lia. rewrite Zfloor_IZR. reflexivity.
  - rewrite (Rmult_assoc a), <- p2_plus. replace (n' + - n') with 0 by lia. change (p2 0) with 1%R. ring.
Qed.

Lemma rz_floor mb eb v k : 1 <= mb -> (p2 k <= Rabs v < p2 (k + 1))%R -> 2 - 2 ^ (eb - 1) - mb <= k ->
  let n := - Z.max (k - mb) (2 - 2 ^ (eb - 1) - mb) in
  Rabs (rz mb eb v) = (IZR (Zfloor (Rabs v * p2 n)) * p2 (- n))%R /\ (p2 k <= Rabs (rz mb eb v) < p2 (k + 1))%R.
Proof.
  intros Hm Hk Hl n. assert (Pm : Prec_gt_0 (mb + 1)) by (unfold Prec_gt_0; lia).
  assert (VE : Valid_exp (FLT_exp (3 - 2 ^ (eb - 1) - (mb + 1)) (mb + 1))) by (apply FLT_exp_valid; exact Pm).
  unfold rz. rewrite <- round_ZR_abs by exact VE. rewrite round_ZR_DN by apply Rabs_pos.
  assert (Mg : mag radix2 (Rabs v) = k + 1 :> Z).
  { apply mag_unique. rewrite Rabs_Rabsolu. replace (k + 1 - 1) with k by lia. exact Hk. }
  assert (C : cexp radix2 (FLT_exp (3 - 2 ^ (eb - 1) - (mb + 1)) (mb + 1)) (Rabs v) = - n).
  { unfold cexp. rewrite Mg. unfold FLT_exp, n. lia. }
  split.
  - unfold round, F2R, scaled_mantissa. cbn [Fnum Fexp]. rewrite C. rewrite Z.opp_involutive. reflexivity.
  - split.
    + apply round_ge_generic; [exact VE|typeclasses eauto| |apply Hk]. apply generic_format_bpow. unfold FLT_exp. lia.
    + apply Rle_lt_trans with (Rabs v); [|apply Hk]. apply round_DN_pt. exact VE.
Qed.

(** A number of a wider format that agrees with [x] down to 2^-n' gives the same half. *)
Lemma half_same x y s v w k n' : wf x -> wf y -> bval x = VNum s v -> bval y = VNum s w ->
  (p2 k <= Rabs v < p2 (k + 1))%R -> (p2 k <= Rabs w < p2 (k + 1))%R ->
  Rabs w = (IZR (Zfloor (Rabs v * p2 n')) * p2 (- n'))%R -> 19 - k <= n' \/ (-24 <= k /\ 24 <= n' /\ 10 - k <= n') ->
  fst (Binary16.NewFromBig y) = fst (Binary16.NewFromBig x).
Proof.
  intros Wx Wy Bx By Hv Hw E Hn.
  pose proof (AllBig.c07_all x s v k Wx Bx Hv) as X. pose proof (AllBig.c07_all y s w k Wy By Hw) as Y. cbv zeta in X, Y.
  destruct (Binary16.NewFromBig x) as [b a], (Binary16.NewFromBig y) as [b' a']. cbn [fst].
  destruct X as (X1 & X2 & X3), Y as (Y1 & Y2 & Y3).
  assert (F : forall n, n <= n' -> Zfloor (Rabs w * p2 n) = Zfloor (Rabs v * p2 n)) by (intros n L; rewrite E; apply floor_twice, L).
  destruct (Z_le_gt_dec (-14) k) as [L|L]; [|destruct (Z_le_gt_dec (-24) k) as [M|M]].
  - destruct (X1 L) as (-> & _), (Y1 L) as (-> & _). rewrite (F (10 - k)) by lia. reflexivity.
  - destruct (X2 ltac:(lia)) as (-> & _), (Y2 ltac:(lia)) as (-> & _). rewrite (F 24) by lia. reflexivity.
  - destruct (X3 ltac:(lia)) as (-> & _), (Y3 ltac:(lia)) as (-> & _). rewrite (F (19 - k)) by lia. reflexivity.
Qed.

Lemma range_k v lo hi : (p2 lo <= Rabs v < p2 hi)%R -> exists k, (p2 k <= Rabs v < p2 (k + 1))%R /\ lo <= k < hi.
Proof.
  intros [A B]. assert (N : v <> 0%R) by (intros ->; rewrite Rabs_R0 in A; pose proof (bpow_gt_0 radix2 lo); unfold p2 in A; lra).
  pose proof (ClaimsTrip.mag_k v N) as M. exists (mag radix2 v - 1). split; [exact M|].
  set (k := mag radix2 v - 1) in *. split.
  - apply Z.lt_succ_r. apply (lt_bpow radix2). apply Rle_lt_trans with (Rabs v); [exact A|]. apply M.
  - apply (lt_bpow radix2). apply Rle_lt_trans with (Rabs v); [apply M|exact B].
Qed.

Lemma big128 x s v k : wf x -> bval x = VNum s v -> (p2 k <= Rabs v < p2 (k + 1))%R -> -16494 <= k < 16384 ->
  exists f a y, Binary128.NewFromBig x = Ret (f, a) /\ Binary128.Big f = Ret (y, false) /\ wf y /\ bval y = VNum s (rz 112 15 v).
Proof.
  intros W B Hk R. destruct (fin_parts x s v k W B) as (m & e & E & <- & V); [lra|].
  assert (H : (p2 (-16494) <= Rabs v < p2 16384)%R).
  { split; [apply Rle_trans with (p2 k); [apply bpow_le; lia|apply Hk]|apply Rlt_le_trans with (p2 (k + 1)); [apply Hk|apply bpow_le; lia]]. }
  destruct (Facts128.NewFromBig_total x W) as (f & a & Q & O).
  destruct (Claims128.c15_partial x m e W E) as (f' & a' & Q' & V' & _); [rewrite <- V; exact H|]. rewrite <- V in V'.
  assert (f' = f) by congruence. subst f'.
  destruct f as [fa fb]. destruct O as [O1 O2]. cbn [Binary128.fa Binary128.fb] in *.
  destruct (Claims128.c11 fa fb O1 O2) as (y & nan & Eb & Wy & _ & _ & _ & By). rewrite V' in By. destruct By as [-> By].
  exists (Binary128.mkFloat fa fb), a, y. auto.
Qed.

Lemma big80 x s v k : wf x -> bval x = VNum s v -> (p2 k <= Rabs v < p2 (k + 1))%R -> -16445 <= k < 16384 ->
  exists f a y, Float80x86.NewFromBig x = (f, a) /\ Float80x86.Big f = Ret (y, false) /\ wf y /\ bval y = VNum s (rz 63 15 v).
Proof.
  intros W B Hk R. destruct (fin_parts x s v k W B) as (m & e & E & <- & V); [lra|].
  assert (H : (p2 (-16445) <= Rabs v < p2 16384)%R).
  { split; [apply Rle_trans with (p2 k); [apply bpow_le; lia|apply Hk]|apply Rlt_le_trans with (p2 (k + 1)); [apply Hk|apply bpow_le; lia]]. }
  assert (Hm : 0 < m) by (destruct W as [_ W']; rewrite E in W'; apply W').
  rewrite V in H. pose proof (gexp_lower (neg x) m e (-16445) Hm (proj1 H)) as G1. pose proof (gexp_upper (neg x) m e 16384 Hm (proj2 H)) as G2.
  pose proof (Facts80.NewFromBig_trunc x m e E W ltac:(lia)) as T. rewrite <- V in T.
  destruct (Float80x86.NewFromBig x) as [f a]. destruct T as (O & _ & V' & _).
  destruct f as [fa fb]. destruct O as [O1 O2]. cbn [Float80x86.se Float80x86.m] in *.
  destruct (Claims80.c17 fa fb O1 O2) as (y & nan & Eb & Wy & _ & _ & _ & By). unfold Facts80.value in V'. cbn [Float80x86.se Float80x86.m] in V'. rewrite V' in By. destruct By as [-> By].
  exists (Float80x86.mkFloat fa fb), a, y. auto.
Qed.

Lemma c96_16_128 : forall x s v, wf x -> bval x = VNum s v -> (p2 (-16475) <= Rabs v < p2 16384)%R ->
  exists f a y, Binary128.NewFromBig x = Ret (f, a) /\ Binary128.Big f = Ret (y, false) /\
    fst (Binary16.NewFromBig y) = fst (Binary16.NewFromBig x).
Proof.
  intros x s v W B H. destruct (range_k v _ _ H) as (k & Hk & R).
  destruct (big128 x s v k W B Hk ltac:(lia)) as (f & a & y & Q & Eb & Wy & By). exists f, a, y. split; [exact Q|]. split; [exact Eb|].
  destruct (rz_floor 112 15 v k ltac:(lia) Hk ltac:(lia)) as [E Hw].
  refine (half_same x y s v _ k _ W Wy B By Hk Hw E _). change (2 ^ (15 - 1)) with 16384. lia.
Qed.

Lemma c96_16_80 : forall x s v, wf x -> bval x = VNum s v -> (p2 (-16426) <= Rabs v < p2 16384)%R ->
  exists f a y, Float80x86.NewFromBig x = (f, a) /\ Float80x86.Big f = Ret (y, false) /\
    fst (Binary16.NewFromBig y) = fst (Binary16.NewFromBig x).
Proof.
  intros x s v W B H. destruct (range_k v _ _ H) as (k & Hk & R).
  destruct (big80 x s v k W B Hk ltac:(lia)) as (f & a & y & Q & Eb & Wy & By). exists f, a, y. split; [exact Q|]. split; [exact Eb|].
  destruct (rz_floor 63 15 v k ltac:(lia) Hk ltac:(lia)) as [E Hw].
  refine (half_same x y s v _ k _ W Wy B By Hk Hw E _). change (2 ^ (15 - 1)) with 16384. lia.
Qed.

Lemma c96_80_128 : forall x s v, wf x -> bval x = VNum s v -> (p2 (-16494) <= Rabs v < p2 16384)%R ->
  exists f a y, Binary128.NewFromBig x = Ret (f, a) /\ Binary128.Big f = Ret (y, false) /\
    fst (Float80x86.NewFromBig y) = fst (Float80x86.NewFromBig x).
Proof.
  intros x s v W B H. destruct (range_k v _ _ H) as (k & Hk & R).
  destruct (big128 x s v k W B Hk ltac:(lia)) as (f & a & y & Q & Eb & Wy & By). exists f, a, y. split; [exact Q|]. split; [exact Eb|].
  destruct (rz_floor 112 15 v k ltac:(lia) Hk ltac:(lia)) as [E Hw]. change (2 ^ (15 - 1)) with 16384 in *. set (n' := - Z.max _ _) in *.
  assert (F : forall n, n <= n' -> Zfloor (Rabs (rz 112 15 v) * p2 n) = Zfloor (Rabs v * p2 n)) by (intros n L; rewrite E; apply floor_twice, L).
  destruct (AllBig.c21_all x s v k W B Hk) as (se & m & b & -> & X1 & X2 & X3).
  destruct (AllBig.c21_all y s _ k Wy By Hw) as (se' & m' & b' & -> & Y1 & Y2 & Y3). cbn [fst].
  destruct (Z_le_gt_dec (-16382) k) as [L|L]; [|destruct (Z_le_gt_dec (-16445) k) as [M|M]].
  - destruct (X1 L) as (-> & -> & _), (Y1 L) as (-> & -> & _). rewrite (F (63 - k)) by (unfold n'; lia). reflexivity.
  - destruct (X2 ltac:(lia)) as (-> & -> & _), (Y2 ltac:(lia)) as (-> & -> & _). rewrite (F 16445) by (unfold n'; lia). reflexivity.
  - destruct (X3 ltac:(lia)) as (-> & -> & _), (Y3 ltac:(lia)) as (-> & -> & _). reflexivity.
Qed.

(** The accuracy of the second conversion does not tell of the first: 1 + 2^-100. *)
Lemma c96_acc : exists x f a y b, wf x /\ Float80x86.NewFromBig x = (f, BigFloat.Below) /\ Float80x86.Big f = Ret (y, false) /\
  Binary16.NewFromBig y = (b, BigFloat.Exact) /\ Binary16.NewFromBig x = (b, a) /\ a = BigFloat.Below.
Proof.
  exists (BigFloat.mkBF 101 BigFloat.ToNearestEven BigFloat.Exact false (Finite (2 ^ 100 + 1) (-100))).
  eexists _, _, _, _. split.
  - split; [cbn [BigFloat.prec]; unfold BigFloat.MaxPrec; lia|]. cbn [BigFloat.frm]. split; [lia|]. split; [exists (2 ^ 100 + 1), 0; split; [lia|]; split; [lia|]; cbn [BigFloat.prec]; lia|].
    vm_compute. split; discriminate.
  - split; [vm_compute; reflexivity|]. split; [vm_compute; reflexivity|]. split; [vm_compute; reflexivity|]. split; [vm_compute; reflexivity|]. reflexivity.
Qed.

(** 1 + 2^-53 + 2^-100 truncated to 64 bits is half way between two float64s. *)
Lemma c96_refuted : exists f d a y g b d' a', 0 <= Binary128.fa f < 2 ^ 64 /\ 0 <= Binary128.fb f < 2 ^ 64 /\
  Binary128.Float64 f = Ret (d, a) /\ Binary128.Big f = Ret (y, false) /\ Float80x86.NewFromBig y = (g, b) /\
  Float80x86.Float64 g = Ret (d', a') /\ d' <> d.
Proof.
  exists (Binary128.mkFloat 0x3FFF000000000000 0x0800000000001000). eexists _, _, _, _, _, _, _.
  split; [vm_compute; split; [discriminate|reflexivity]|]. split; [vm_compute; split; [discriminate|reflexivity]|].
  split; [vm_compute; reflexivity|]. split; [vm_compute; reflexivity|]. split; [vm_compute; reflexivity|]. split; [vm_compute; reflexivity|]. vm_compute. discriminate.
Qed.

(** 1 + 2^-24 + 2^-100 *)
Lemma c97_refuted : exists f d a g a', 0 <= Binary128.fa f < 2 ^ 64 /\ 0 <= Binary128.fb f < 2 ^ 64 /\
  Binary128.Float64 f = Ret (d, a) /\ Binary128.Float32 f = Ret (g, a') /\ BigFloat.f64_to_f32 d <> g.
Proof.
  exists (Binary128.mkFloat 0x3FFF000001000000 0x0000000000001000). eexists _, _, _, _.
  split; [vm_compute; split; [discriminate|reflexivity]|]. split; [vm_compute; split; [discriminate|reflexivity]|].
  split; [vm_compute; reflexivity|]. split; [vm_compute; reflexivity|]. vm_compute. discriminate.
Qed.

Lemma c97_example : exists d a g a', Float80x86.Float64 (Float80x86.NewFromBits 0x3FFF 0x8000018000000001) = Ret (d, a) /\
  Float80x86.Float32 (Float80x86.NewFromBits 0x3FFF 0x8000018000000001) = Ret (g, a') /\ BigFloat.f64_to_f32 d = g /\ a = BigFloat.Below /\ a' = BigFloat.Above.
Proof.
  eexists _, _, _, _. split; [vm_compute; reflexivity|]. split; [vm_compute; reflexivity|]. split; [vm_compute; reflexivity|]. split; reflexivity.
Qed.
