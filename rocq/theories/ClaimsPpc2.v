(** The lemmas behind the theorems on double-doubles that come back (C26, C78, C79). *)
From Coq Require Import ZArith Reals Lia Lra Bool List.
From Flocq Require Import Core.
From Verif Require Import GoBase.
From Verif Require BigFloat Float128ppc.
From Verif Require Import Spec BitFacts RoundFacts IeeeFacts BigFacts BigFacts2 BigFacts3 PkgFacts FactsPpc ClaimsPpc.
Import BigFloat (bitlen, gexp, prec, rmode, acc, neg, frm, Finite, MaxExp, MinExp, MaxPrec).
Import Float128ppc (Float, mkFloat, high, low).
Open Scope Z_scope.

(** Multiples of 2^c *)
Definition grid (c : Z) (y : R) : Prop := exists K, y = (IZR K * p2 c)%R.

Lemma grid_le c d y : d <= c -> grid c y -> grid d y.
Proof. intros H [K ->]. exists (K * 2 ^ (c - d)). symmetry. rewrite scale_R by lia. do 2 f_equal. lia. Qed.

Lemma grid_sub c x y : grid c x -> grid c y -> grid c (x - y).
Proof. intros [K ->] [L ->]. exists (K - L). rewrite minus_IZR. ring. Qed.

Lemma rnd_grid md p v c : 0 < p -> grid c v -> grid c (rnd_prec md p v).
Proof.
  intros Hp Hv. pose proof (valid_mode_rnd md). assert (Prec_gt_0 p) by exact Hp.
  destruct (Z_le_gt_dec c (mag radix2 v - p)) as [L|L].
  - apply (grid_le (mag radix2 v - p)); [exact L|]. unfold rnd_prec, round. rewrite F2R_p2. eexists. reflexivity.
  - destruct Hv as [K ->]. replace (rnd_prec md p (IZR K * p2 c)) with (IZR K * p2 c)%R; [exists K; reflexivity|].
    symmetry. unfold rnd_prec. apply round_generic; [assumption|].
    rewrite <- F2R_p2. apply generic_format_F2R. intros _. unfold cexp, FLX_exp. rewrite F2R_p2. lia.
Qed.

Lemma grid_fits v : fits 52 11 v -> grid (-1074) v.
Proof. intros H. apply (fits_multiple 52 11) in H. exact H. Qed.

Lemma bits_grid p y : 0 < p -> bits_le p y -> grid (mag radix2 y - p) y.
Proof.
  intros Hp (K & c & E & HK). assert (Prec_gt_0 p) by exact Hp.
  assert (G : generic_format radix2 (FLX_exp p) y).
  { apply generic_format_FLX. exists (Defs.Float radix2 K c); [rewrite F2R_p2; exact E|exact HK]. }
  unfold generic_format in G. rewrite F2R_p2 in G. eexists. exact G.
Qed.

(** The remainder of a multiple of 2^-1074 of at most 106 bits is a float64. *)
Lemma rem_fits y : bits_le 106 y -> grid (-1074) y -> (Rabs (rn 52 11 y) < p2 1024)%R -> fits 52 11 (y - rn 52 11 y).
Proof.
  intros Hb Hg Hr. destruct (Req_dec y 0) as [->|Hnz].
  { rewrite rn_0, Rminus_0_r. split; [exists 0, 0; rewrite Rmult_0_l; repeat split; try lia; reflexivity|].
    rewrite Rabs_R0. apply p2_pos. }
  assert (Prec_gt_0 53) by (unfold Prec_gt_0; lia).
  pose proof (remainder_small y Hnz Hr) as Hs.
  set (m := mag radix2 y : Z) in *.
  assert (Er : rn 52 11 y = round radix2 (FLT_exp (-1074) 53) ZnearestE y) by reflexivity.
  split; [|apply Rle_lt_trans with (1 := Hs); apply p2_lt; lia].
  destruct (Z_le_gt_dec (m - 53) (-1074)) as [L|L].
  - replace (rn 52 11 y) with y; [exists 0, 0; rewrite Rminus_diag_eq, Rmult_0_l by reflexivity; repeat split; try lia; reflexivity|].
    symmetry. rewrite Er. apply round_generic; [apply valid_rnd_N|].
    destruct Hg as [K E]. rewrite E, <- F2R_p2. apply generic_format_F2R. intros _.
    rewrite F2R_p2, <- E. unfold cexp, FLT_exp. fold m. lia.
  - set (e := Z.max (m - 106) (-1074)).
    assert (Gy : grid e y).
    { unfold e. destruct (Z.max_spec (m - 106) (-1074)) as [[_ ->]|[_ ->]]; [exact Hg|].
      apply (bits_grid 106); [lia|exact Hb]. }
    assert (Gr : grid e (rn 52 11 y)).
    { apply (grid_le (m - 53)); [unfold e; lia|]. rewrite Er. unfold round. rewrite F2R_p2. unfold cexp.
      fold m. replace (FLT_exp (-1074) 53 m) with (m - 53) by (unfold FLT_exp; lia). eexists. reflexivity. }
    destruct (grid_sub e _ _ Gy Gr) as [K HK]. exists K, e. split; [exact HK|]. split; [|unfold e; cbn; lia].
    assert (Hd : (Rabs (y - rn 52 11 y) <= p2 (m - 54))%R).
    { pose proof (error_le_half_ulp radix2 (FLT_exp (-1074) 53) (fun x => negb (Z.even x)) y) as H0.
      rewrite <- Er in H0. rewrite Rabs_minus_sym in H0. apply Rle_trans with (1 := H0).
      rewrite ulp_neq_0 by exact Hnz. unfold cexp. fold m. replace (FLT_exp (-1074) 53 m) with (m - 53) by (unfold FLT_exp; lia).
      replace (/ 2)%R with (p2 (-1)) by reflexivity. fold (p2 (m - 53)). rewrite <- p2_plus. apply p2_le. lia. }
    rewrite HK, Rabs_mult, (Rabs_pos_eq (p2 _)) in Hd by (apply Rlt_le, p2_pos).
    assert (Hd' : (IZR (Z.abs K) <= p2 (m - 54 - e))%R).
    { apply Rmult_le_reg_r with (p2 e); [apply p2_pos|]. rewrite <- p2_plus, abs_IZR. replace (m - 54 - e + e) with (m - 54) by lia. exact Hd. }
    assert (Hd2 : (IZR (Z.abs K) <= p2 52)%R) by (apply Rle_trans with (1 := Hd'); apply p2_le; unfold e; lia).
    unfold p2 in Hd2. rewrite <- IZR_Zpower in Hd2 by lia. apply le_IZR in Hd2.
    change (radix2 ^ 52) with (2 ^ 52) in Hd2. change (2 ^ (52 + 1)) with (2 * 2 ^ 52). lia.
Qed.

Lemma sum_grid a b s1 v1 s2 v2 : 0 <= a < 2 ^ 64 -> 0 <= b < 2 ^ 64 ->
  ieee 52 11 a = VNum s1 v1 -> ieee 52 11 b = VNum s2 v2 -> grid (-1074) (v1 + v2).
Proof.
  intros Ha Hb Ea Eb.
  pose proof (fits_ieee 52 11 a s1 v1 ltac:(lia) ltac:(lia) Ha Ea) as [Fa _].
  pose proof (fits_ieee 52 11 b s2 v2 ltac:(lia) ltac:(lia) Hb Eb) as [Fb _].
  destruct (grid_fits _ Fa) as [K ->]. destruct (grid_fits _ Fb) as [L ->].
  exists (K + L). rewrite plus_IZR. ring.
Qed.

Lemma Ret3_inj {A B C} (a a' : A) (b b' : B) (c c' : C) : Ret (a, b, c) = Ret (a', b', c') -> a = a'.
Proof. congruence. Qed.

(** What a pair of numbers becomes. *)
Lemma pair_trip a b s1 v1 s2 v2 : 0 <= a < 2 ^ 64 -> 0 <= b < 2 ^ 64 ->
  ieee 52 11 a = VNum s1 v1 -> ieee 52 11 b = VNum s2 v2 ->
  let y := rnd_prec BigFloat.ToNearestEven 106 (v1 + v2) in
  (Rabs (rn 52 11 y) < p2 1024)%R -> y <> 0%R ->
  exists x h l s t, Float128ppc.Big (Float128ppc.NewFromBits a b) = Ret (x, false) /\
    Float128ppc.NewFromBig x = Ret (mkFloat h l, BigFloat.Exact, x106 x) /\
    0 <= h < 2 ^ 64 /\ 0 <= l < 2 ^ 64 /\
    ieee 52 11 h = VNum s (rn 52 11 y) /\ ieee 52 11 l = VNum t (y - rn 52 11 y) /\ sumsign false (y - rn 52 11 y) t.
Proof.
  intros Ha Hb Ea Eb y Hr Hy.
  destruct (Big_num (Float128ppc.NewFromBits a b) s1 v1 s2 v2 (conj Ha Hb) Ea Eb) as (x & s & HB & W & P & M & V & S & A).
  fold y in V.
  assert (Hbits : bits_le 106 y) by (apply rnd_prec_bits; lia).
  assert (Hg : grid (-1074) y) by (apply rnd_grid; [lia|exact (sum_grid a b s1 v1 s2 v2 Ha Hb Ea Eb)]).
  pose proof (NewFromBig_num x s y W V Hy) as H. cbv zeta in H. rewrite (bits_le_rnd _ 106 y ltac:(lia) Hbits) in H.
  destruct (H Hr) as (h & l & t & HN & Hh & Hl & Vh & Vl & St & _).
  rewrite (fits_rn 52 11 _ ltac:(lia) (rem_fits y Hbits Hg Hr)) in Vl.
  exists x, h, l, s, t. auto 10.
Qed.

Lemma c26_exactly : forall a b s1 v1 s2 v2, 0 <= a < 2 ^ 64 -> 0 <= b < 2 ^ 64 ->
  ieee 52 11 a = VNum s1 v1 -> ieee 52 11 b = VNum s2 v2 ->
  ((exists x c x', Float128ppc.Big (Float128ppc.NewFromBits a b) = Ret (x, false) /\
     Float128ppc.NewFromBig x = Ret (Float128ppc.NewFromBits a b, c, x')) <->
   rn 52 11 (v1 + v2) = v1 /\ (exists K c, (v1 + v2 = IZR K * p2 c)%R /\ Z.abs K < 2 ^ 106) /\ b <> Float128ppc.math_NegZero).
Proof.
  intros a b s1 v1 s2 v2 Ha Hb Ea Eb. split.
  2: { intros (H1 & H2 & H3). destruct (c26_partial a b s1 v1 s2 v2 Ha Hb Ea Eb H1 H2 H3) as (x & x' & B & N).
       exists x, BigFloat.Exact, x'. auto. }
  intros (x & c & x' & HB & HN).
  destruct (Big_num (Float128ppc.NewFromBits a b) s1 v1 s2 v2 (conj Ha Hb) Ea Eb) as (x0 & s & HB0 & W & P & M & V & S & A).
  rewrite HB in HB0. assert (x0 = x) by congruence. subst x0. clear HB0.
  set (y := rnd_prec BigFloat.ToNearestEven 106 (v1 + v2)) in *.
  assert (Hbits : bits_le 106 y) by (apply rnd_prec_bits; lia).
  destruct (Req_dec y 0) as [Y0|Y0].
  - assert (Z0 : (v1 + v2 = 0)%R).
    { destruct (Req_dec (v1 + v2) 0) as [|N]; [assumption|]. exfalso. exact (rnd_prec_nz _ 106 _ ltac:(lia) N Y0). }
    rewrite Y0 in V. rewrite (zero_of x s W V) in HN. apply Ret3_inj in HN. unfold Float128ppc.NewFromBits in HN.
    assert (b = 0) by congruence. assert (Eh : a = if s then Float128ppc.math_NegZero else 0) by congruence. subst b.
    assert (v1 = 0%R).
    { rewrite zero64 in Eb. apply VNum_inj in Eb. destruct Eb as [_ Eb]. lra. }
    rewrite Z0, rn_0. split; [congruence|]. split; [exists 0, 0; split; [ring|lia]|]. discriminate.
  - destruct (Rlt_or_le (Rabs (rn 52 11 y)) (p2 1024)) as [Hr|Hr].
    2: { exfalso. rewrite (NewFromBig_overflow x s y W V) in HN; [discriminate|].
         rewrite (bits_le_rnd _ 106 y ltac:(lia) Hbits). exact Hr. }
    destruct (pair_trip a b s1 v1 s2 v2 Ha Hb Ea Eb Hr Y0) as (x1 & h & l & s' & t & HB1 & HN1 & Hh & Hl & Vh & Vl & St).
    fold y in Vh, Vl, St. rewrite HB in HB1. assert (x1 = x) by congruence. subst x1.
    rewrite HN in HN1. apply Ret3_inj in HN1. unfold Float128ppc.NewFromBits in HN1.
    assert (h = a) by congruence. assert (l = b) by congruence. subst h l.
    rewrite Ea in Vh. rewrite Eb in Vl. apply VNum_inj in Vh, Vl. destruct Vh as [_ Vh]. destruct Vl as [T Vl].
    assert (Ey : (v1 + v2 = y)%R) by lra. rewrite Ey. split; [congruence|]. split; [exact Hbits|].
    intros ->. rewrite negzero64 in Eb. apply VNum_inj in Eb. destruct Eb as [Et Eb].
    destruct St as (_ & _ & St). rewrite <- Vl in St. rewrite St in T by congruence. congruence.
Qed.
