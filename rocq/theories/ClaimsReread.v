(** Text('g', p) and SetString of GenText.v together (C93), and the tests of binary128/extra_test.tmpl (C94). *)
From Coq Require Import ZArith Reals Lia Lra Bool List.
From Flocq Require Import Core.
From Verif Require Import GoBase.
From Verif Require BigFloat Binary128 Claims128 GenTests ClaimsGen.
From Verif Require Import Spec SpecText SpecDec SpecFtoa BitFacts RoundFacts BigFacts BigFacts2 BigFacts3 PkgFacts DecFacts ExactGap ItoaFacts GenText RereadFacts ClaimsLen RereadScan ClaimsText SpecFmt.
Import BigFloat (bitlen, gexp, prec, rmode, acc, neg, frm, Finite, MaxExp, MinExp, MaxPrec).
Import ListNotations.
Open Scope Z_scope.

Local Notation len l := (Z.of_nat (length l)).

Lemma near_range t x y a b : (0 <= t <= 1)%R -> near t x y -> (p2 a <= y <= p2 b)%R -> (p2 (a - 1) <= x <= p2 (b + 1))%R.
Proof.
  intros Ht (A & B & C & D) [Y1 Y2]. assert (Ea : p2 a = (2 * p2 (a - 1))%R) by (replace a with (1 + (a - 1)) at 1 by lia; rewrite p2_plus; reflexivity).
  assert (Eb : p2 (b + 1) = (2 * p2 b)%R) by (rewrite Z.add_comm, p2_plus; reflexivity).
  assert (x * (1 + t) <= x * 2)%R by (apply Rmult_le_compat_l; lra). assert (y * (1 + t) <= y * 2)%R by (apply Rmult_le_compat_l; lra). lra.
Qed.

Lemma set_dec_ok ng v k : 0 < v -> -8218 <= k <= 8218 -> (p2 (-19990) <= IZR v * p10 k <= p2 19990)%R ->
  exists y, near (p2 (-171)) y (IZR v * p10 k) /\ wf (set_dec 113 ng v k) /\
    bval (set_dec 113 ng v k) = VNum ng (sgnR ng (rnd_prec BigFloat.ToNearestEven 113 y)).
Proof.
  intros Hv Hk Hr. assert (V0 : (0 < IZR v)%R) by (apply IZR_lt; lia). assert (T : (0 <= p2 (-171) <= 1)%R) by (split; [apply Rlt_le, p2_pos|change 1%R with (p2 0); apply p2_le; lia]).
  unfold set_dec. rewrite (proj2 (Z.eqb_neq v 0)) by lia. rewrite p10_split in *.
  destruct (Z.eqb_spec k 0) as [->|K0].
  - cbn [Z.leb Z.compare Z.pow] in *. exists (IZR v)%R. change (p2 0) with 1%R in *. rewrite Rmult_1_l, Rmult_1_r in *.
    split; [apply near_le with 0%R; [lra|]; apply near_refl; lra|].
    set (z := BigFloat.mkBF 113 BigFloat.ToNearestEven BigFloat.Exact ng (Finite v 0)).
    assert (Ea : forall s, Rabs (sgnR s (IZR v * p2 0)) = IZR v) by (intros s; change (p2 0) with 1%R; rewrite Rmult_1_r; destruct s; cbn [sgnR]; rewrite ?Rabs_Ropp; apply Rabs_pos_eq; lra).
    assert (L1 : (p2 (MinExp - 1) <= Rabs (sgnR ng (IZR v * p2 0)))%R) by (rewrite Ea; apply Rle_trans with (2 := proj1 Hr); apply p2_le; unfold MinExp; lia).
    assert (L2 : (Rabs (sgnR ng (IZR v * p2 0)) <= p2 20000)%R) by (rewrite Ea; apply Rle_trans with (1 := proj2 Hr); apply p2_le; lia).
    assert (E : BigFloat.round z = BigFloat.setExpAndRound z v 0).
    { unfold BigFloat.setExpAndRound. pose proof (gexp_lower _ _ _ _ Hv L1). pose proof (gexp_upper ng v 0 MaxExp Hv ltac:(apply Rle_lt_trans with (1 := L2); exact p2_20000)).
      rewrite (proj2 (Z.ltb_ge _ _)), (proj2 (Z.ltb_ge _ _)) by lia. reflexivity. }
    rewrite E. destruct (setExpAndRound_correct z v 0 Hv ltac:(cbn [prec z]; unfold MaxPrec; lia) L2 L1) as (A & B & _). split; [exact A|]. rewrite B. cbn [neg prec rmode z]. change (p2 0) with 1%R. rewrite Rmult_1_r.
    f_equal. unfold rnd_prec. cbn [mode_rnd]. destruct ng; cbn [sgnR]; [apply round_NE_opp|reflexivity].
  - set (z := BigFloat.mkBF 113 BigFloat.ToNearestEven BigFloat.Exact ng (Finite v k)). change (113 + 64) with 177.
    destruct (Z.ltb_spec k 0) as [L|L].
    + destruct (pow5_near (- k) ltac:(lia)) as (r & Pr & Nr). destruct (pos_parts _ _ _ Pr) as (m & e & F & M & N & Er).
      rewrite (proj2 (Z.leb_gt 0 k)) in * by lia.
      assert (Nd : near (p2 (-171)) (IZR v * p2 k / r) (IZR v * p2 k / IZR (5 ^ (- k)))) by (apply near_div; [apply Rmult_lt_0_compat; [lra|apply p2_pos]|exact Nr]).
      replace (IZR v * p2 k / IZR (5 ^ (- k)))%R with (IZR v * (/ IZR (5 ^ (- k)) * p2 k))%R in Nd by (unfold Rdiv; ring).
      exists (IZR v * p2 k / r)%R. split; [exact Nd|]. pose proof (near_range _ _ _ _ _ T Nd Hr) as Rg.
      pose proof (Quo_any 113 z z (pow5 177 (- k)) v k m e eq_refl eq_refl ltac:(unfold MaxPrec; lia) eq_refl F Hv M) as Q. cbv zeta in Q. rewrite <- Er in Q.
      destruct Q as (A & _ & _ & B).
      { split; [apply Rle_trans with (2 := proj1 Rg)|apply Rle_trans with (1 := proj2 Rg)]; apply p2_le; lia. }
      split; [exact A|]. rewrite B, N. cbn [neg z]. rewrite xorb_false_r. reflexivity.
    + destruct (pow5_near k ltac:(lia)) as (r & Pr & Nr). destruct (pos_parts _ _ _ Pr) as (m & e & F & M & N & Er).
      rewrite (proj2 (Z.leb_le 0 k)) in * by lia.
      assert (Nd : near (p2 (-171)) (IZR v * p2 k * r) (IZR v * p2 k * IZR (5 ^ k))).
      { refine (near_le _ _ _ _ _ (near_mult 0 (p2 (-171)) _ _ _ _ _ _ (near_refl _ _) Nr)); [lra|lra|lra|]. apply Rmult_lt_0_compat; [lra|apply p2_pos]. }
      replace (IZR v * p2 k * IZR (5 ^ k))%R with (IZR v * (IZR (5 ^ k) * p2 k))%R in Nd by ring.
      exists (IZR v * p2 k * r)%R. split; [exact Nd|]. pose proof (near_range _ _ _ _ _ T Nd Hr) as Rg.
      pose proof (Mul_any 113 z z (pow5 177 k) v k m e eq_refl eq_refl ltac:(unfold MaxPrec; lia) eq_refl F Hv M) as Q. cbv zeta in Q. rewrite <- Er in Q.
      destruct Q as (A & _ & _ & B).
      { split; [apply Rle_trans with (2 := proj1 Rg)|apply Rle_trans with (1 := proj2 Rg)]; apply p2_le; lia. }
      split; [exact A|]. rewrite B, N. cbn [neg z]. rewrite xorb_false_r. f_equal.
      unfold rnd_prec. cbn [mode_rnd]. destruct ng; cbn [sgnR]; [apply round_NE_opp|reflexivity].
Qed.

(** Numbers close enough to a number of p bits round to it. *)
Lemma rnd_close p M c y : 1 < p -> 2 ^ (p - 1) <= M < 2 ^ p -> (Rabs (y - IZR M * p2 c) < p2 (c - 1))%R ->
  (M = 2 ^ (p - 1) -> (Rabs (y - IZR M * p2 c) < p2 (c - 2))%R) -> rnd_prec BigFloat.ToNearestEven p y = (IZR M * p2 c)%R.
Proof.
  intros Hp [M1 M2] Hc Hb. pose proof (p2_pos c) as Pc. pose proof (p2_pos (c - 1)) as Pc1. pose proof (pow2_pos (p - 1) ltac:(lia)).
  assert (Ec : p2 c = (2 * p2 (c - 1))%R) by (replace c with (1 + (c - 1)) at 1 by lia; rewrite p2_plus; reflexivity).
  assert (Ec2 : p2 (c - 1) = (2 * p2 (c - 2))%R) by (replace (c - 1) with (1 + (c - 2)) at 1 by lia; rewrite p2_plus; reflexivity).
  assert (EM : (IZR (2 ^ (p - 1)) <= IZR M)%R) by (apply IZR_le; lia). assert (EM2 : (IZR M + 1 <= IZR (2 ^ p))%R) by (rewrite <- plus_IZR; apply IZR_le; lia).
  assert (E1 : (IZR (2 ^ (p - 1)) * p2 c = p2 (c + p - 1))%R) by (rewrite IZR_pow2, <- p2_plus by lia; f_equal; lia).
  assert (E2 : (IZR (2 ^ p) * p2 c = p2 (c + p))%R) by (rewrite IZR_pow2, <- p2_plus by lia; f_equal; lia).
  pose proof (Rabs_def2 _ _ Hc) as [H1 H2].
  assert (Up : (y < p2 (c + p))%R) by (rewrite <- E2; nra).
  unfold rnd_prec, round. cbn [mode_rnd].
  destruct (Rle_or_lt (p2 (c + p - 1)) y) as [L|L].
  - assert (Ce : cexp radix2 (FLX_exp p) y = c).
    { rewrite (cexp_fexp_pos radix2 (FLX_exp p) y (c + p)); [unfold FLX_exp; lia|]. split; assumption. }
    unfold scaled_mantissa. rewrite Ce. replace (ZnearestE (y * bpow radix2 (- c))) with M; [rewrite F2R_p2; reflexivity|]. symmetry. apply Znearest_imp.
    change (bpow radix2) with p2. assert (I : (p2 c * p2 (- c) = 1)%R) by (rewrite <- p2_plus, Z.add_opp_diag_r; reflexivity).
    replace (y * p2 (- c) - IZR M)%R with ((y - IZR M * p2 c) * p2 (- c))%R by (rewrite Rmult_minus_distr_r, Rmult_assoc, I; ring).
    rewrite Rabs_mult, (Rabs_pos_eq (p2 (- c))) by apply Rlt_le, p2_pos. replace (/ 2)%R with (p2 (c - 1) * p2 (- c))%R by (rewrite <- p2_plus; replace (c - 1 + - c) with (-1) by lia; unfold p2; cbn; lra).
    apply Rmult_lt_compat_r; [apply p2_pos|exact Hc].
  - assert (EMb : M = 2 ^ (p - 1)).
    { destruct (Z.eq_dec M (2 ^ (p - 1))) as [|N]; [assumption|]. exfalso. assert (IZR (2 ^ (p - 1)) + 1 <= IZR M)%R by (rewrite <- plus_IZR; apply IZR_le; lia). rewrite <- E1 in L. nra. }
    specialize (Hb EMb). pose proof (Rabs_def2 _ _ Hb) as [G1 G2].
    assert (Lo : (p2 (c + p - 2) <= y)%R).
    { assert (Ep : p2 (c + p - 1) = (2 * p2 (c + p - 2))%R) by (replace (c + p - 1) with (1 + (c + p - 2)) by lia; rewrite p2_plus; reflexivity).
      assert (p2 (c - 2) <= p2 (c + p - 2))%R by (apply p2_le; lia). rewrite EMb, E1 in G2. lra. }
    assert (Ce : cexp radix2 (FLX_exp p) y = c - 1).
    { rewrite (cexp_fexp_pos radix2 (FLX_exp p) y (c + p - 1)); [unfold FLX_exp; lia|]. change (bpow radix2) with p2. replace (c + p - 1 - 1) with (c + p - 2) by lia. split; assumption. }
    unfold scaled_mantissa. rewrite Ce. replace (ZnearestE (y * bpow radix2 (- (c - 1)))) with (2 * M); [rewrite F2R_p2, mult_IZR, Ec; ring|]. symmetry. apply Znearest_imp.
    change (bpow radix2) with p2. assert (I : (p2 c * p2 (- (c - 1)) = 2)%R) by (rewrite <- p2_plus; replace (c + - (c - 1)) with 1 by lia; reflexivity).
    replace (y * p2 (- (c - 1)) - IZR (2 * M))%R with ((y - IZR M * p2 c) * p2 (- (c - 1)))%R by (rewrite Rmult_minus_distr_r, Rmult_assoc, I, mult_IZR; ring).
    rewrite Rabs_mult, (Rabs_pos_eq (p2 (- (c - 1)))) by apply Rlt_le, p2_pos. replace (/ 2)%R with (p2 (c - 2) * p2 (- (c - 1)))%R by (rewrite <- p2_plus; replace (c - 2 + - (c - 1)) with (-1) by lia; unfold p2; cbn; lra).
    apply Rmult_lt_compat_r; [apply p2_pos|exact Hb].
Qed.

Lemma sig_round_near p v K : 1 <= p -> (p10 K <= v < p10 (K + 1))%R -> (Rabs (sig_round p v - v) <= / 2 * p10 (K + 1 - p))%R.
Proof.
  intros Hp Hv. assert (P : Prec_gt_0 p) by (unfold Prec_gt_0; lia). unfold sig_round. pose proof (p10_pos K).
  replace (p10 (K + 1 - p)) with (ulp radix10 (FLX_exp p) v).
  - apply error_le_half_ulp. typeclasses eauto.
  - rewrite ulp_neq_0 by lra. rewrite (cexp_fexp_pos radix10 (FLX_exp p) v (K + 1)); [reflexivity|]. replace (K + 1 - 1) with K by lia. exact Hv.
Qed.

Lemma text_back s p fp x t : 1 <= p <= 3000 -> prints_g 101 p s fp x t -> no_zero_end fp -> sig_digits p x -> (p2 (-16510) <= x <= p2 16400)%R ->
  exists z y, SetString 113 t = Some z /\ near (p2 (-171)) y x /\ wf z /\ bval z = VNum s (sgnR s (rnd_prec BigFloat.ToNearestEven 113 y)).
Proof.
  intros Hp [Pf Pe] Nz Sd Rg. pose proof (p2_pos (-16510)) as X0.
  assert (Fin : forall v k, 0 <= v -> x = (IZR v * p10 k)%R -> -8218 <= k <= 8218 -> SetString 113 t = Some (set_dec 113 s v k) ->
    exists z y, SetString 113 t = Some z /\ near (p2 (-171)) y x /\ wf z /\ bval z = VNum s (sgnR s (rnd_prec BigFloat.ToNearestEven 113 y))).
  { intros v k Hv Ex Hk Es. assert (V : 0 < v). { destruct (Z.eq_dec v 0) as [->|]; [|lia]. rewrite Rmult_0_l in Ex. lra. }
    destruct (set_dec_ok s v k V Hk) as (y & Ny & W & B).
    - rewrite <- Ex. split; [apply Rle_trans with (2 := proj1 Rg)|apply Rle_trans with (1 := proj2 Rg)]; apply p2_le; lia.
    - exists (set_dec 113 s v k), y. rewrite Ex. rewrite Es. auto. }
  destruct (Rlt_or_le x (p10 (-4))) as [Lx|Lx]; [|destruct (Rlt_or_le x (p10 p)) as [Lp|Lp]].
  2:{ specialize (Pf (or_intror (conj Lx Lp))). destruct (SetString_f 113 s fp x t Pf) as (v & Hv & Ex & Es). apply (Fin v (- len fp) Hv Ex); [|exact Es].
      assert (len fp <= p + 4); [|lia]. destruct Pf as (ip & _ & Ni & Af & Ex'). destruct fp as [|f0 f] eqn:Ef; [cbn [length]; lia|]. rewrite <- Ef in *.
      pose proof Ni as (N1 & N2 & N3). assert (Nf : fp <> []) by (rewrite Ef; discriminate).
      assert (A : all_digits 10 (ip ++ fp)) by (apply Forall_app; split; assumption).
      assert (Hm : read 10 (ip ++ fp) mod 10 <> 0).
      { apply last_digit; [intros E; apply app_eq_nil in E; tauto|exact A|]. unfold no_zero_end in Nz.
        destruct (exists_last Nf) as (l' & z & El). rewrite El in *. rewrite app_assoc, last_last. rewrite last_last in Nz. exact Nz. }
      assert (P0 : 0 < read 10 (ip ++ fp)).
      { pose proof (read_range 10 (ip ++ fp) ltac:(lia) A). destruct (Z.eq_dec (read 10 (ip ++ fp)) 0) as [E|]; [|lia]. rewrite E in Hm. exfalso. apply Hm. reflexivity. }
      pose proof (sig_cut _ _ p x Ex' P0 Hm ltac:(lia) Sd) as C. apply IZR_lt in C. rewrite <- p10_pow in C by lia.
      assert (p10 (-4) < p10 (p - len fp))%R.
      { apply Rle_lt_trans with (1 := Lx). rewrite Ex'. unfold Z.sub. rewrite p10_plus. apply Rmult_lt_compat_r; [apply p10_pos|exact C]. }
      apply p10_cmp in H. lia. }
  1: assert (Q : prints_e 101 s fp x t) by (apply Pe; left; lra). 2: assert (Q : prints_e 101 s fp x t) by (apply Pe; right; lra).
  all: pose proof (prints_e_fp 101 s fp x t p Q Nz ltac:(lia) Sd) as Lf; destruct (SetString_e 113 s fp x t Q) as (a & X & A & Ex & Hz & Es);
    assert (Na : a <> 48) by (intros E; destruct (Hz E); lra);
    pose proof (digits_at_least (a :: fp) A Na ltac:(discriminate)) as G; cbn [length] in G; pose proof (read_range 10 (a :: fp) ltac:(lia) A) as [G0 U]; cbn [length] in U;
    assert (G1 : (p10 X <= x)%R) by (rewrite Ex; replace X with (len fp + (X - len fp)) at 1 by lia; rewrite p10_plus; apply Rmult_le_compat_r; [apply Rlt_le, p10_pos|]; rewrite p10_pow by lia; apply IZR_le; replace (len fp) with (Z.of_nat (S (length fp)) - 1) by lia; exact G);
    assert (G2 : (x < p10 (X + 1))%R) by (rewrite Ex; replace (X + 1) with (len fp + 1 + (X - len fp)) by lia; rewrite p10_plus; apply Rmult_lt_compat_r; [apply p10_pos|]; rewrite p10_pow by lia; apply IZR_lt; replace (len fp + 1) with (Z.of_nat (S (length fp))) by lia; exact U);
    destruct (p2_p10 5000 16510 ltac:(lia) ltac:(lia) ltac:(vm_compute; discriminate)) as [Q1 Q2];
    assert (p2 16400 < p2 16510)%R by (apply p2_lt; lia);
    assert (X < 5000) by (apply p10_cmp; lra); assert (-5000 < X + 1) by (apply p10_cmp; change (- (5000)) with (-5000) in Q1; change (- (16510)) with (-16510) in Q1; lra);
    apply (Fin (read 10 (a :: fp)) (X - len fp) G0 Ex); [lia|exact Es].
Qed.

Lemma floor10 v : (0 < v)%R -> exists K, (p10 K <= v < p10 (K + 1))%R.
Proof.
  intros V0. exists (mag radix10 v - 1). pose proof (bpow_mag_gt radix10 v) as A. pose proof (bpow_mag_le radix10 v ltac:(lra)) as B.
  rewrite Rabs_pos_eq in A, B by lra. split; [exact B|]. unfold p10. replace (mag radix10 v - 1 + 1) with (mag radix10 v : Z) by lia. exact A.
Qed.

(** The number that is read: y is r up to 2^(c-54), c the exponent of the 113 bits of v. *)
Lemma reread_near x p s M c : wf x -> bval x = VNum s (sgnR s (IZR M * p2 c)) -> 1 <= p <= 3000 ->
  2 ^ 112 <= M < 2 ^ 113 -> (p2 (-16500) <= IZR M * p2 c <= p2 16390)%R ->
  exists z y, SetString 113 (Text_g x p) = Some z /\ wf z /\ bval z = VNum s (sgnR s (rnd_prec BigFloat.ToNearestEven 113 y)) /\
    (0 < y)%R /\ (Rabs (y - sig_round p (IZR M * p2 c)) <= p2 (c - 54))%R.
Proof.
  intros Hw Hb Hp HM Rg. set (v := (IZR M * p2 c)%R) in *. pose proof (p2_pos (-16500)).
  assert (V0 : (0 < v)%R) by lra. destruct (floor10 v V0) as (K & HK).
  destruct (Text_g_prints x p s v Hw ltac:(lia) Hb ltac:(lra)) as (fp & Nz & Pr).
  pose proof (sig_digits_round p v ltac:(lia)) as Sd. pose proof (sig_round_near p v K ltac:(lia) HK) as Er. set (r := sig_round p v) in *.
  pose proof (p10_pos (K + 1 - p)) as D0. assert (DK : (p10 (K + 1 - p) <= p10 K)%R) by (apply p10_le; lia). pose proof (p2_pos c) as Pc.
  assert (Vu : (v <= p2 (c + 113))%R). { unfold v. rewrite Z.add_comm, p2_plus. apply Rmult_le_compat_r; [lra|]. rewrite <- (IZR_pow2 113) by lia. apply IZR_le. lia. }
  apply Rabs_le_inv in Er.
  assert (Rl : (v / 2 <= r <= 2 * v)%R) by lra.
  destruct (text_back s p fp r (Text_g x p) ltac:(lia) Pr Nz Sd) as (z & y & Ez & Ny & Wz & Bz).
  { assert (E1 : p2 (-16500) = (1024 * p2 (-16510))%R) by (replace (-16500) with (10 + -16510) by lia; rewrite p2_plus; reflexivity).
    assert (E2 : p2 16400 = (1024 * p2 16390)%R) by (replace 16400 with (10 + 16390) by lia; rewrite p2_plus; reflexivity). pose proof (p2_pos (-16510)). pose proof (p2_pos 16390). lra. }
  exists z, y. split; [exact Ez|]. split; [exact Wz|]. split; [exact Bz|]. split; [apply Ny|].
  destruct Ny as (Y0 & R0 & Y1 & Y2). assert (T : (0 < p2 (-171) <= 1)%R) by (split; [apply p2_pos|change 1%R with (p2 0); apply p2_le; lia]).
  assert (Yb : (y <= 4 * v)%R) by (assert (r * (1 + p2 (-171)) <= r * 2)%R by (apply Rmult_le_compat_l; lra); lra).
  assert (E : (4 * p2 (c + 113) * p2 (-171) <= p2 (c - 54))%R) by (change 4%R with (p2 2); rewrite <- !p2_plus; apply p2_le; lia).
  assert (y * p2 (-171) <= 4 * p2 (c + 113) * p2 (-171))%R by (apply Rmult_le_compat_r; lra).
  assert (r * p2 (-171) <= 4 * p2 (c + 113) * p2 (-171))%R by (apply Rmult_le_compat_r; lra).
  apply Rabs_le. lra.
Qed.

Lemma p2_up a b : p2 a = (p2 (a - b) * p2 b)%R.
Proof. rewrite <- p2_plus. f_equal. lia. Qed.

(** It is v again if the decimal is closer to v than to any other number of 113 bits, but for 2^-50 of half a unit. *)
Lemma reread_back x p s M c : wf x -> bval x = VNum s (sgnR s (IZR M * p2 c)) -> 1 <= p <= 3000 ->
  2 ^ 112 <= M < 2 ^ 113 -> (p2 (-16500) <= IZR M * p2 c <= p2 16390)%R ->
  let d := Rabs (sig_round p (IZR M * p2 c) - IZR M * p2 c) in
  (d <= p2 (c - 1) * (1 - p2 (-50)))%R -> (M = 2 ^ 112 -> (d <= p2 (c - 2) * (1 - p2 (-50)))%R) ->
  exists z, SetString 113 (Text_g x p) = Some z /\ wf z /\ bval z = bval x.
Proof.
  intros Hw Hb Hp HM Rg d C1 C2. destruct (reread_near x p s M c Hw Hb Hp HM Rg) as (z & y & Ez & Wz & Bz & Y0 & Yr).
  exists z. split; [exact Ez|]. split; [exact Wz|]. rewrite Bz, Hb. do 2 f_equal. set (v := (IZR M * p2 c)%R) in *. set (r := sig_round p v) in *.
  assert (Tri : (Rabs (y - v) <= p2 (c - 54) + d)%R).
  { replace (y - v)%R with ((y - r) + (r - v))%R by ring. apply Rle_trans with (1 := Rabs_triang _ _). fold d. lra. }
  pose proof (p2_pos (c - 54)) as P54.
  assert (E1 : (p2 (c - 1) * p2 (-50) = 8 * p2 (c - 54))%R) by (change 8%R with (p2 3); rewrite <- !p2_plus; f_equal; lia).
  assert (E2 : (p2 (c - 2) * p2 (-50) = 4 * p2 (c - 54))%R) by (change 4%R with (p2 2); rewrite <- !p2_plus; f_equal; lia).
  apply rnd_close; [lia|exact HM| |].
  - fold v. lra.
  - intros E. specialize (C2 E). fold v. lra.
Qed.

(** And it is not v if the decimal is farther from v than half a unit, again but for 2^-50. *)
Lemma reread_other x p s M c : wf x -> bval x = VNum s (sgnR s (IZR M * p2 c)) -> 1 <= p <= 3000 ->
  2 ^ 112 <= M < 2 ^ 113 -> (p2 (-16500) <= IZR M * p2 c <= p2 16390)%R ->
  (p2 (c - 1) * (1 + p2 (-50)) <= Rabs (sig_round p (IZR M * p2 c) - IZR M * p2 c))%R ->
  exists z u, SetString 113 (Text_g x p) = Some z /\ wf z /\ bval z = VNum s (sgnR s u) /\ u <> (IZR M * p2 c)%R.
Proof.
  intros Hw Hb Hp HM Rg C1. destruct (reread_near x p s M c Hw Hb Hp HM Rg) as (z & y & Ez & Wz & Bz & Y0 & Yr).
  exists z, (rnd_prec BigFloat.ToNearestEven 113 y). split; [exact Ez|]. split; [exact Wz|]. split; [exact Bz|]. intros E.
  set (v := (IZR M * p2 c)%R) in *. set (r := sig_round p v) in *.
  assert (Tri : (Rabs (r - v) <= p2 (c - 54) + Rabs (y - v))%R).
  { replace (r - v)%R with (- (y - r) + (y - v))%R by ring. apply Rle_trans with (1 := Rabs_triang _ _). rewrite Rabs_Ropp. lra. }
  assert (P : Prec_gt_0 113) by reflexivity.
  assert (H : (Rabs (v - y) <= / 2 * p2 c)%R).
  { pose proof (error_le_half_ulp_round radix2 (FLX_exp 113) (fun n => negb (Z.even n)) y) as H. unfold rnd_prec in E. cbn [mode_rnd] in E. rewrite E in H.
    replace (ulp radix2 (FLX_exp 113) v) with (p2 c) in H; [exact H|]. assert (V0 : (0 < v)%R) by (pose proof (p2_pos (-16500)); lra). rewrite ulp_neq_0 by lra.
    rewrite (cexp_fexp_pos radix2 (FLX_exp 113) v (c + 113)); [unfold FLX_exp; replace (c + 113 - 113) with c by lia; reflexivity|]. change (bpow radix2) with p2. unfold v. replace (c + 113 - 1) with (112 + c) by lia. rewrite (Z.add_comm c), !p2_plus.
    rewrite <- (IZR_pow2 112), <- (IZR_pow2 113) by lia. pose proof (p2_pos c). split; [apply Rmult_le_compat_r; [lra|]; apply IZR_le; lia|apply Rmult_lt_compat_r; [lra|]; apply IZR_lt; lia]. }
  rewrite Rabs_minus_sym in H.
  assert (E1 : (p2 (c - 1) * p2 (-50) = 8 * p2 (c - 54))%R) by (change 8%R with (p2 3); rewrite <- !p2_plus; f_equal; lia).
  assert (Ec : p2 c = (p2 (c - 1) * 2)%R) by (apply (p2_up c 1)). pose proof (p2_pos (c - 54)). lra.
Qed.

Lemma norm113 v : (0 < v)%R -> fits 112 15 v -> exists M c, v = (IZR M * p2 c)%R /\ 2 ^ 112 <= M < 2 ^ 113 /\ (p2 (-16500) <= v <= p2 16390)%R.
Proof.
  intros V0 [(M & c & E & HM & Hc) Hv]. rewrite Rabs_pos_eq in Hv by lra. pose proof (p2_pos c).
  assert (M0 : 0 < M). { apply lt_IZR. apply Rmult_lt_reg_r with (p2 c); [assumption|]. lra. }
  rewrite Z.abs_eq in HM by lia. pose proof (bitlen_spec M M0) as [B1 B2]. pose proof (bitlen_pos M M0).
  assert (Bl : bitlen M <= 113) by (apply bitlen_le_lt; lia).
  exists (M * 2 ^ (113 - bitlen M)), (c - (113 - bitlen M)). split; [|split].
  - rewrite mult_IZR, IZR_pow2, Rmult_assoc, <- p2_plus by lia. rewrite E. do 2 f_equal. lia.
  - pose proof (pow2_pos (113 - bitlen M) ltac:(lia)).
    assert (E1 : 2 ^ 112 = 2 ^ (bitlen M - 1) * 2 ^ (113 - bitlen M)) by (rewrite <- Z.pow_add_r by lia; f_equal; lia).
    assert (E2 : 2 ^ 113 = 2 ^ bitlen M * 2 ^ (113 - bitlen M)) by (rewrite <- Z.pow_add_r by lia; f_equal; lia).
    rewrite E1, E2. split; [apply Z.mul_le_mono_nonneg_r; lia|apply Z.mul_lt_mono_pos_r; lia].
  - split.
    + apply Rle_trans with (p2 c); [apply p2_le; change (2 ^ (15 - 1)) with 16384 in Hc; lia|]. rewrite E. assert (1 <= IZR M)%R by (apply IZR_le; lia). nra.
    + apply Rlt_le, Rlt_le_trans with (1 := Hv). apply p2_le. change (2 ^ (15 - 1)) with 16384. lia.
Qed.

Lemma reread_zero x p s : wf x -> bval x = VNum s 0 -> 1 <= p -> exists z, SetString 113 (Text_g x p) = Some z /\ wf z /\ bval z = bval x.
Proof.
  intros Hw Hb Hp. assert (E0 : 0%R = sgnR s 0) by (destruct s; cbn [sgnR]; ring).
  destruct (Text_g_prints x p s 0 Hw Hp) as (fp & _ & [Pf _]); [rewrite <- E0; exact Hb|lra|].
  assert (Er : sig_round p 0 = 0%R) by (unfold sig_round; apply round_0; typeclasses eauto). rewrite Er in Pf.
  destruct (SetString_f 113 s fp 0 _ (Pf (or_introl eq_refl))) as (v & Hv & Ex & Es).
  assert (v = 0) as -> by (apply eq_IZR; pose proof (p10_pos (- len fp)); nra).
  eexists. split; [exact Es|]. unfold set_dec. rewrite Z.eqb_refl. split; [|rewrite Hb; reflexivity].
  split; [cbn [prec]; unfold MaxPrec; lia|exact I].
Qed.

Lemma c93_close : forall x s v p J, wf x -> bval x = VNum s (sgnR s v) -> fits 112 15 v -> 1 <= p <= 3000 -> (p2 J <= v < p2 (J + 1))%R ->
  let d := Rabs (sig_round p v - v) in
  ((d <= p2 (J - 113) * (1 - p2 (-50)))%R -> (v = p2 J -> (d <= p2 (J - 114) * (1 - p2 (-50)))%R) ->
    exists z, SetString 113 (Text_g x p) = Some z /\ wf z /\ bval z = bval x) /\
  ((p2 (J - 113) * (1 + p2 (-50)) <= d)%R ->
    exists z u, SetString 113 (Text_g x p) = Some z /\ wf z /\ bval z = VNum s (sgnR s u) /\ u <> v).
Proof.
  intros x s v p J Hw Hb Fv Hp HJ d. pose proof (p2_pos J). destruct (norm113 v ltac:(lra) Fv) as (M & c & E & HM & Rg).
  assert (Ej : J = c + 112).
  { assert (B1 : (p2 (c + 112) <= v)%R) by (rewrite E, Z.add_comm, p2_plus; apply Rmult_le_compat_r; [apply Rlt_le, p2_pos|]; rewrite <- (IZR_pow2 112) by lia; apply IZR_le; lia).
    assert (B2 : (v < p2 (c + 113))%R) by (rewrite E, Z.add_comm, p2_plus; apply Rmult_lt_compat_r; [apply p2_pos|]; rewrite <- (IZR_pow2 113) by lia; apply IZR_lt; lia).
    assert (c + 112 < J + 1) by (apply p2_lt_inv; lra). assert (J < c + 113) by (apply p2_lt_inv; lra). lia. }
  subst J. replace (c + 112 - 113) with (c - 1) by lia. replace (c + 112 - 114) with (c - 2) by lia. unfold d in *. clear d. rewrite E in *. split.
  - intros C1 C2. apply (reread_back x p s M c); try assumption. intros EM. apply C2. rewrite EM, (IZR_pow2 112), <- p2_plus by lia. f_equal. lia.
  - intros C1. apply (reread_other x p s M c); assumption.
Qed.

Lemma floor2 v : (0 < v)%R -> exists J, (p2 J <= v < p2 (J + 1))%R.
Proof.
  intros V0. exists (mag radix2 v - 1). pose proof (bpow_mag_gt radix2 v) as A. pose proof (bpow_mag_le radix2 v ltac:(lra)) as B.
  rewrite Rabs_pos_eq in A, B by lra. split; [exact B|]. unfold p2. replace (mag radix2 v - 1 + 1) with (mag radix2 v : Z) by lia. exact A.
Qed.

Lemma c93 : forall x s v p, wf x -> bval x = VNum s (sgnR s v) -> (0 <= v)%R -> fits 112 15 v -> 36 <= p <= 3000 ->
  exists z, SetString 113 (Text_g x p) = Some z /\ wf z /\ bval z = bval x.
Proof.
  intros x s v p Hw Hb V0 Fv Hp. destruct (Req_dec v 0) as [Z|N].
  { apply (reread_zero x p s Hw); [|lia]. rewrite Hb, Z. destruct s; cbn [sgnR]; f_equal; ring. }
  destruct (floor10 v ltac:(lra)) as (K & HK). destruct (floor2 v ltac:(lra)) as (J & HJ).
  assert (D : (p10 (K + 1 - p) <= p2 (J - 115))%R).
  { apply Rle_trans with (p10 (K - 35)); [apply p10_le; lia|]. replace (K - 35) with (K + -35) by lia. rewrite p10_plus.
    apply Rle_trans with (p2 (J + 1) * p2 (-116))%R; [|rewrite <- p2_plus; apply p2_le; lia].
    apply Rmult_le_compat; [apply Rlt_le, p10_pos|apply Rlt_le, p10_pos|lra|].
    assert (H : (p2 116 <= p10 35)%R) by (rewrite <- (IZR_pow2 116), p10_pow by lia; apply IZR_le; vm_compute; discriminate).
    pose proof (p2_pos 116). change (-35) with (Z.opp 35). change (-116) with (Z.opp 116). rewrite <- p2_inv.
    assert (I : (p10 (Z.opp 35) = / p10 35)%R) by (apply Rmult_eq_reg_l with (p10 35); [|apply Rgt_not_eq, p10_pos]; rewrite p10_opp, Rinv_r; [reflexivity|apply Rgt_not_eq, p10_pos]).
    rewrite I. apply Rinv_le; [assumption|exact H]. }
  pose proof (sig_round_near p v K ltac:(lia) HK) as Er. pose proof (p2_pos (J - 115)).
  assert (T : (p2 (-50) <= / 2)%R) by (replace (/ 2)%R with (p2 (-1)) by (unfold p2; cbn; lra); apply p2_le; lia).
  assert (E1 : p2 (J - 113) = (4 * p2 (J - 115))%R) by (change 4%R with (p2 2); rewrite <- p2_plus; f_equal; lia).
  assert (E2 : p2 (J - 114) = (2 * p2 (J - 115))%R) by (change 2%R with (p2 1); rewrite <- p2_plus; f_equal; lia).
  apply (proj1 (c93_close x s v p J Hw Hb Fv ltac:(lia) HJ)); [rewrite E1; nra|intros _; rewrite E2; nra].
Qed.

(** 35 digits are enough where the power of ten below v is less than 1.92 times the power of two below v. *)
Lemma c93_35 : forall x s v K J, wf x -> bval x = VNum s (sgnR s v) -> fits 112 15 v ->
  (p10 K <= v < p10 (K + 1))%R -> (p2 J <= v < p2 (J + 1))%R -> v <> p2 J -> (25 * p10 K <= 48 * p2 J)%R ->
  exists z, SetString 113 (Text_g x 35) = Some z /\ wf z /\ bval z = bval x.
Proof.
  intros x s v K J Hw Hb Fv HK HJ Hn C. pose proof (sig_round_near 35 v K ltac:(lia) HK) as Er.
  apply (proj1 (c93_close x s v 35 J Hw Hb Fv ltac:(lia) HJ)); [|contradiction]. apply Rle_trans with (1 := Er).
  replace (K + 1 - 35) with (K + -34) by lia. rewrite p10_plus. replace (J - 113) with (J + -113) by lia. rewrite p2_plus.
  assert (H : (48 / 25 * p10 (-34) <= p2 (-112) * (1 - p2 (-50)))%R).
  { assert (A : (p10 (-34) = / IZR (10 ^ 34))%R) by (unfold p10; cbn [bpow]; reflexivity).
    assert (B : (p2 (-112) = / IZR (2 ^ 112))%R) by (unfold p2; cbn [bpow]; reflexivity). assert (B' : (p2 (-50) = / IZR (2 ^ 50))%R) by (unfold p2; cbn [bpow]; reflexivity).
    rewrite A, B, B'. change (10 ^ 34) with 10000000000000000000000000000000000. change (2 ^ 112) with 5192296858534827628530496329220096. change (2 ^ 50) with 1125899906842624. lra. }
  assert (Eh : p2 (-112) = (2 * p2 (-113))%R) by (change 2%R with (p2 1); rewrite <- p2_plus; reflexivity). rewrite Eh in H.
  pose proof (p10_pos (-34)). pose proof (p2_pos J). assert (p10 K * p10 (-34) <= 48 / 25 * p2 J * p10 (-34))%R by (apply Rmult_le_compat_r; lra).
  assert (p2 J * (48 / 25 * p10 (-34)) <= p2 J * (2 * p2 (-113) * (1 - p2 (-50))))%R by (apply Rmult_le_compat_l; lra). nra.
Qed.

(** * The tests *)
Definition reads35 (v : R) : Prop := v = 0%R \/ exists J, (p2 J <= Rabs v < p2 (J + 1))%R /\
  let d := Rabs (sig_round 35 (Rabs v) - Rabs v) in
  (d <= p2 (J - 113) * (1 - p2 (-50)))%R /\ (Rabs v = p2 J -> (d <= p2 (J - 114) * (1 - p2 (-50)))%R).

Lemma sgn_abs s v : (v = 0 \/ v = sgnR s (Rabs v))%R -> sgnR s (Rabs v) = v.
Proof. intros [->|H]; [rewrite Rabs_R0; destruct s; cbn [sgnR]; ring|symmetry; exact H]. Qed.

Lemma quad_reads p a b s v x : 0 <= a < 2 ^ 64 -> 0 <= b < 2 ^ 64 -> quad a b = VNum s v -> wf x -> bval x = VNum s v ->
  36 <= p <= 3000 \/ p = 35 /\ reads35 v -> exists z, SetString 113 (Text_g x p) = Some z /\ wf z /\ bval z = VNum s v.
Proof.
  intros Ha Hb Hq Hw Hx Hp. destruct (fits_ieee 112 15 (a * 2 ^ 64 + b) s v ltac:(lia) ltac:(lia)) as [Fv Sv]; [nia|exact Hq|].
  pose proof (sgn_abs s v Sv) as Ev.
  assert (Fa : fits 112 15 (Rabs v)).
  { destruct Fv as [(M & c & E & HM & Hc) F]. split; [|rewrite Rabs_Rabsolu; exact F]. exists (Z.abs M), c. split; [|split; [lia|exact Hc]].
    rewrite E, Rabs_mult, abs_IZR, (Rabs_pos_eq (p2 c)) by apply Rlt_le, p2_pos. reflexivity. }
  rewrite <- Hx. destruct Hp as [Hp|[-> Hr]].
  - apply (c93 x s (Rabs v)); [exact Hw|rewrite Ev; exact Hx|apply Rabs_pos|exact Fa|exact Hp].
  - destruct Hr as [Z|(J & HJ & C1 & C2)]; [apply (reread_zero x 35 s Hw); [rewrite Hx, Z; reflexivity|lia]|].
    apply (proj1 (c93_close x s (Rabs v) 35 J Hw ltac:(rewrite Ev; exact Hx) Fa ltac:(lia) HJ)); assumption.
Qed.

Lemma bits_text text g x n : 0 <= GenTests.ga g < 2 ^ 64 -> 0 <= GenTests.gb g < 2 ^ 64 ->
  Binary128.Big (Binary128.NewFromBits (GenTests.ga g) (GenTests.gb g)) = Ret (x, n) ->
  GenTests.test128_bits text g = Ret true -> GenTests.gwant g = text x.
Proof.
  intros Ha Hb HB H. unfold GenTests.test128_bits in H. rewrite HB in H. cbn [bind] in H.
  destruct (Binary128.Float64 _) as [[g64 a64]|]; [|discriminate]. cbn [bind] in H.
  destruct (list_eq_dec Z.eq_dec (GenTests.gwant g) (text x)) as [E|]; [exact E|]. cbn [andb] in H. discriminate.
Qed.

Lemma c94 : forall p exps mants, 35 <= p <= 3000 -> Forall (fun e => 1 <= e <= 0x7FFE) exps -> Forall (fun m => 0 <= fst m < 2 ^ 48 /\ 0 <= snd m < 2 ^ 64) mants ->
  exists ns ds, GenTests.getNormalized128 (fun x => Text_g x p) exps mants = Ret ns /\ GenTests.getDenormalized128 (fun x => Text_g x p) mants = Ret ds /\
  Forall (fun g => GenTests.test128_bits (fun x => Text_g x p) g = Ret true /\ GenTests.test128_float32 g = Ret true /\ GenTests.test128_float64 g = Ret true /\
    (36 <= p \/ (forall s v, quad (GenTests.ga g) (GenTests.gb g) = VNum s v -> reads35 v) -> GenTests.test128_acc reread g = Ret true)) (ns ++ ds).
Proof.
  intros p exps mants Hp He Hm. destruct (ClaimsGen.c71 (fun x => Text_g x p) exps mants He Hm) as (ns & ds & En & Ed & Mn & Md & F).
  exists ns, ds. split; [exact En|]. split; [exact Ed|]. rewrite Forall_forall in *. intros g Hg. destruct (F g Hg) as (T1 & T2 & T3 & T4).
  split; [exact T1|]. split; [exact T2|]. split; [exact T3|]. intros Hc. apply T4. intros t v Hq.
  assert (Bd : 0 <= GenTests.ga g < 2 ^ 64 /\ 0 <= GenTests.gb g < 2 ^ 64).
  { apply in_app_or in Hg. destruct Hg as [Hg|Hg]; apply (in_map (fun g => (GenTests.ga g, GenTests.gb g))) in Hg.
    - rewrite Mn in Hg. apply in_flat_map in Hg. destruct Hg as (s & Hs & Hg). apply in_flat_map in Hg. destruct Hg as (e & He' & Hg). apply in_map_iff in Hg. destruct Hg as (m & E & Hm').
      specialize (He e He'). specialize (Hm m Hm'). assert (Ea : GenTests.ga g = s * 2 ^ 63 + e * 2 ^ 48 + fst m) by congruence. assert (Eb : GenTests.gb g = snd m) by congruence.
      rewrite Ea, Eb. destruct Hs as [<-|[<-|[]]]; lia.
    - rewrite Md in Hg. apply in_flat_map in Hg. destruct Hg as (s & Hs & Hg). apply in_map_iff in Hg. destruct Hg as (m & E & Hm').
      specialize (Hm m Hm'). assert (Ea : GenTests.ga g = s * 2 ^ 63 + fst m) by congruence. assert (Eb : GenTests.gb g = snd m) by congruence.
      rewrite Ea, Eb. destruct Hs as [<-|[<-|[]]]; lia. }
  destruct Bd as [Ba Bb]. destruct (Claims128.c11 _ _ Ba Bb) as (x & n & HB & Wx & _ & _ & _ & Hx). rewrite Hq in Hx. destruct Hx as [_ Hx].
  rewrite (bits_text _ g x n Ba Bb HB T1).
  destruct (quad_reads p _ _ t v x Ba Bb Hq Wx Hx) as (z & Ez & Wz & Bz).
  { destruct Hc as [Hc|Hc]; [left; lia|]. destruct (Z.eq_dec p 35) as [E|E]; [right|left; lia]. split; [exact E|]. apply (Hc t v Hq). }
  exists t. unfold reread. rewrite Ez. split; [exact Wz|exact Bz].
Qed.

Lemma c93_refuted : exists x z, wf x /\ bval x = VNum false (IZR (0x1f40000000000e000000000000001) * p2 (-103)) /\
  fits 112 15 (IZR (0x1f40000000000e000000000000001) * p2 (-103)) /\
  SetString 113 (Text_g x 35) = Some z /\ BigFloat.Cmp z x = -1.
Proof.
  set (M := 0x1f40000000000e000000000000001).
  assert (BM : 2 ^ 112 <= M < 2 ^ 113) by (unfold M; vm_compute; split; congruence).
  exists (BigFloat.mkBF 113 BigFloat.ToNearestEven BigFloat.Exact false (Finite M (-103))). eexists. split; [|split; [|split; [|split; [vm_compute; reflexivity|vm_compute; reflexivity]]]].
  - split; [cbn [prec]; unfold MaxPrec; lia|]. cbn [frm prec]. split; [lia|]. split; [exists M, 0; rewrite Z.pow_0_r; lia|]. unfold M. vm_compute. split; congruence.
  - unfold bval. cbn [frm neg sgnR]. reflexivity.
  - split.
    + exists M, (-103). split; [reflexivity|]. split; [rewrite Z.abs_eq by lia; exact (proj2 BM)|vm_compute; congruence].
    + pose proof (p2_pos (-103)). assert (IZR M < IZR (2 ^ 113))%R by (apply IZR_lt; lia). rewrite (IZR_pow2 113) in H0 by lia. assert (0 < IZR M)%R by (apply IZR_lt; lia).
      rewrite Rabs_pos_eq by nra. apply Rlt_le_trans with (p2 113 * p2 (-103))%R; [apply Rmult_lt_compat_r; assumption|]. rewrite <- p2_plus. apply p2_le. vm_compute. congruence.
Qed.

Lemma c93_hyps : let v := (3 / 2)%R in fits 112 15 v /\ (p10 0 <= v < p10 (0 + 1))%R /\ (p2 0 <= v < p2 (0 + 1))%R /\ v <> p2 0 /\ (25 * p10 0 <= 48 * p2 0)%R /\ reads35 v.
Proof.
  assert (E0 : p2 0 = 1%R) by reflexivity. assert (E1 : p2 1 = 2%R) by reflexivity. assert (T0 : p10 0 = 1%R) by reflexivity. assert (T1 : p10 1 = 10%R) by reflexivity.
  cbv zeta. change (0 + 1) with 1. rewrite E0, E1, T0, T1. split.
  - split; [exists 3, (-1); split; [change (p2 (-1)) with (/ 2)%R; lra|split; [reflexivity|vm_compute; congruence]]|].
    rewrite Rabs_pos_eq by lra. apply Rlt_le_trans with (p2 1); [rewrite E1; lra|apply p2_le; vm_compute; congruence].
  - repeat split; try lra. right. exists 0. rewrite Rabs_pos_eq by lra. change (0 + 1) with 1. rewrite E0, E1. split; [lra|].
    assert (Es : sig_round 35 (3 / 2) = (3 / 2)%R).
    { unfold sig_round. apply round_generic; [typeclasses eauto|]. assert (P : Prec_gt_0 35) by reflexivity. apply generic_format_FLX. exists (Defs.Float radix10 15 (-1)); [unfold F2R; cbn; lra|reflexivity]. }
    rewrite Es, Rminus_diag_eq, Rabs_R0 by reflexivity. assert (p2 (-50) <= 1)%R by (change 1%R with (p2 0); apply p2_le; lia).
    pose proof (p2_pos (0 - 113)). split; [apply Rmult_le_pos; lra|intros H1; lra].
Qed.
