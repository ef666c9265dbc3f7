(** C111: how the texts of the format letters are related. *)
From Coq Require Import ZArith Reals Lia Lra Bool List String.
From Flocq Require Import Core.
From Verif Require Import GoBase Spec SpecText SpecDec SpecFtoa BitFacts RoundFacts ItoaFacts FmtFacts DecFacts DecFacts2 BigFacts BigFacts2 BigFacts3 IeeeFacts PkgFacts ClaimsMore ClaimsKeep.
From Verif Require Import FtoaAll PkgText.
From Verif Require BigFloat PkgExact ExtShort FtoaShort ClaimsLen ClaimsSame ClaimsSameF ClaimsFtoa ClaimsFtoa2 ClaimsMany ClaimsEqual.
From Verif Require Import Ftoa SpecFmt.
Import ListNotations.
Open Scope Z_scope.

Local Notation len l := (Z.of_nat (List.length l)).

(** 'e' becomes 'E'. *)
Local Notation up := (fun c => if c =? 101 then 69 else c).

Lemma up_digits l : Forall dig10 l -> map up l = l.
Proof. induction 1 as [|c l Hc _ IH]; [reflexivity|]. cbn [map]. rewrite IH. destruct (Z.eqb_spec c 101); [unfold dig10 in Hc; lia|reflexivity]. Qed.
Lemma up_sign ng : map up (sign_text ng) = sign_text ng.
Proof. destruct ng; reflexivity. Qed.
Lemma up_point fp : Forall dig10 fp -> map up (point fp) = point fp.
Proof. destruct fp as [|c t]; [reflexivity|]. intros H. cbn [point map]. change (up 46) with 46. f_equal. apply (up_digits (c :: t) H). Qed.

Lemma up_e ng fp x s : prints_e 101 ng fp x s -> prints_e 69 ng fp x (map up s).
Proof.
  intros (a & X & xs & -> & Hx & A & V & Z0). exists a, X, xs. split; [|auto]. pose proof A as A'. rewrite all_dig10 in A'. inversion A' as [|? ? Ha Hf]; subst.
  rewrite !map_app. cbn [map]. rewrite !map_app. cbn [map]. rewrite up_sign, up_point by assumption. change (up 101) with 69. f_equal. f_equal.
  - destruct (Z.eqb_spec a 101); [unfold dig10 in Ha; lia|reflexivity].
  - f_equal. f_equal. destruct Hx as (ed & -> & ED & _). rewrite all_dig10 in ED. cbn [map]. rewrite (up_digits ed ED). f_equal. destruct (X <? 0); reflexivity.
Qed.
Lemma up_f ng fp x s : prints_f ng fp x s -> prints_f ng fp x (map up s).
Proof.
  intros (ip & -> & N & A & V). exists ip. split; [|auto]. rewrite !map_app, up_sign. destruct (numeral_dig10 _ N) as [I _]. rewrite all_dig10 in A. rewrite up_point, (up_digits ip I) by exact A. reflexivity.
Qed.
Lemma up_g t ng fp x s : prints_g 101 t ng fp x s -> prints_g 69 t ng fp x (map up s).
Proof. intros [G1 G2]. split; intros H; [apply up_f, G1, H|apply up_e, G2, H]. Qed.

Lemma c111_upper : forall w opt opt' val prec bitSize mb eb b s v, w = 32 \/ w = 64 ->
  as_float bitSize val mb eb b s -> ieee mb eb b = VNum s (sgnR s v) ->
  (prec < 2 ^ (w - 1) - 1 -> exists t, FormatFloat w opt val 101 prec bitSize = Ret t /\ FormatFloat w opt' val 69 prec bitSize = Ret (map (fun c => if c =? 101 then 69 else c) t)) /\
  (exists t, FormatFloat w opt val 103 prec bitSize = Ret t /\ FormatFloat w opt' val 71 prec bitSize = Ret (map (fun c => if c =? 101 then 69 else c) t)).
Proof.
  intros w opt opt' val prec bitSize mb eb b s v Hw A E. pose proof (ClaimsEqual.value_nonneg _ _ _ _ _ _ _ A E) as V0. destruct (Z_lt_le_dec prec 0) as [Hp|Hp].
  - assert (Sh : forall c, c = 101 \/ c = 103 -> exists t, FormatFloat w opt val c prec bitSize = Ret t /\ FormatFloat w opt' val (c - 32) prec bitSize = Ret (map up t)).
    { intros c Hc. destruct (ClaimsFtoa2.c77 w opt val c prec bitSize mb eb b s v Hw A E ltac:(lia) Hp) as (x & D & _ & fp & t & R & N & P). destruct (ClaimsFtoa2.c77 w opt' val (c - 32) prec bitSize mb eb b s v Hw A E ltac:(lia) Hp) as (x' & D' & U' & fp' & t' & R' & N' & P').
      rewrite <- (U' x D) in *. exists t. split; [exact R|]. rewrite R'. f_equal. destruct Hc as [-> | ->].
      - destruct P as [(_ & P)|[(K & _)|(K & _)]]; [|lia|lia]. destruct P' as [(_ & P')|[(K & _)|(K & _)]]; [|lia|lia]. symmetry. apply (prints_e_unique 69 s fp fp' x); [apply up_e, P|exact P'|exact N|exact N'].
      - destruct P as [(K & _)|[(K & _)|(_ & P)]]; [lia|lia|]. destruct P' as [(K & _)|[(K & _)|(_ & P')]]; [lia|lia|]. symmetry. apply (ClaimsEqual.prints_g_unique 69 6 s fp fp' x); [apply (proj1 D)|apply up_g, P|exact P'|exact N|exact N']. }
    split; [intros _; apply (Sh 101); auto|apply (Sh 103); auto].
  - split.
    + intros Hp'. destruct (ClaimsFtoa.c51e w opt val 101 prec bitSize mb eb b s v Hw A E ltac:(auto) ltac:(lia)) as (t & fp & R & L & P). destruct (ClaimsFtoa.c51e w opt' val 69 prec bitSize mb eb b s v Hw A E ltac:(auto) ltac:(lia)) as (t' & fp' & R' & L' & P').
      exists t. split; [exact R|]. rewrite R'. f_equal. symmetry. apply (ClaimsEqual.prints_e_len_same 69 s fp fp' _ _ _ (up_e _ _ _ _ P) P'). lia.
    + destruct (ClaimsFtoa.c51g w opt val 103 prec bitSize mb eb b s v Hw A E ltac:(auto) Hp) as (t & fp & R & L & P). destruct (ClaimsFtoa.c51g w opt' val 71 prec bitSize mb eb b s v Hw A E ltac:(auto) Hp) as (t' & fp' & R' & L' & P').
      exists t. split; [exact R|]. rewrite R'. f_equal. symmetry. apply (ClaimsEqual.prints_g_unique 69 (Z.max prec 1) s fp fp' (sig_round (Z.max prec 1) v)); [|apply up_g, P|exact P'|exact L|exact L'].
      unfold sig_round. assert (HP : Prec_gt_0 (Z.max prec 1)) by (unfold Prec_gt_0; lia). rewrite <- (round_0 radix10 (FLX_exp (Z.max prec 1)) ZnearestE). apply round_le; [apply FLX_exp_valid; exact HP|apply valid_rnd_N|exact V0].
Qed.

(** Two floats between 9e-5 and 1e-4 *)
Lemma fits_small mb eb M : 10 <= mb -> 5 <= eb -> 0 < M < 16 -> fits mb eb (IZR M * p2 (-17)).
Proof.
  intros Hm He HM. assert (16 <= 2 ^ (eb - 1)) by (apply (Z.pow_le_mono_r 2 4 (eb - 1)); lia). assert (2048 <= 2 ^ (mb + 1)) by (apply (Z.pow_le_mono_r 2 11 (mb + 1)); lia). split; [exists M, (-17); split; [reflexivity|]; lia|].
  pose proof (p2_pos (-17)). assert (0 < IZR M)%R by (apply IZR_lt; lia). rewrite Rabs_pos_eq by nra. apply Rlt_le_trans with (p2 4 * p2 (-17))%R.
  - apply Rmult_lt_compat_r; [assumption|]. rewrite <- IZR_pow2 by lia. apply IZR_lt. lia.
  - rewrite <- p2_plus. apply p2_le. lia.
Qed.

Lemma tenth_apart mb eb : 10 <= mb -> 5 <= eb -> (rn mb eb (9 * p10 (-5)) < rn mb eb (p10 (-4)))%R.
Proof.
  intros Hm He. pose proof (fits_small mb eb 12 Hm He ltac:(lia)) as F1. pose proof (fits_small mb eb 13 Hm He ltac:(lia)) as F2.
  assert (P2 : (p2 (-17) = / 131072)%R) by reflexivity. assert (P4 : (p10 (-4) = / 10000)%R) by reflexivity. assert (P5 : (p10 (-5) = / 100000)%R) by reflexivity.
  apply Rle_lt_trans with (12 * p2 (-17))%R; [|apply Rlt_le_trans with (13 * p2 (-17))%R; [pose proof (p2_pos (-17)); lra|]].
  - rewrite <- (fits_rn mb eb (12 * p2 (-17)) ltac:(lia) F1). apply PkgExact.rn_mono; [lia|]. rewrite P2, P5. lra.
  - rewrite <- (fits_rn mb eb (13 * p2 (-17)) ltac:(lia) F2). apply PkgExact.rn_mono; [lia|]. rewrite P2, P4. lra.
Qed.

(** A number of one digit below 10^k is at most 9*10^(k-1). *)
Lemma one_digit k x : (0 <= x)%R -> sig_digits 1 x -> (x < p10 k)%R -> (x <= 9 * p10 (k - 1))%R.
Proof.
  intros Hx (m & e & -> & Hm) L. change (10 ^ 1) with 10 in Hm. pose proof (p10_pos e). destruct (Z_lt_le_dec e k) as [H4|H4].
  - assert (0 <= m) by (apply le_IZR; nra). apply Rle_trans with (9 * p10 e)%R; [apply Rmult_le_compat_r; [lra|apply IZR_le; lia]|]. apply Rmult_le_compat_l; [lra|apply p10_le; lia].
  - pose proof (p10_le k e H4). pose proof (p10_pos (k - 1)). destruct (Z_lt_le_dec 0 m) as [M|M]; [|assert (IZR m <= 0)%R by (apply IZR_le; lia); nra]. assert (1 <= IZR m)%R by (apply IZR_le; lia). nra.
Qed.

Lemma sig_one k : sig_digits 1 (p10 k).
Proof. exists 1, k. split; [ring|]. reflexivity. Qed.

Lemma low_bound mb eb v x : 10 <= mb -> 5 <= eb -> shortest_digits mb eb v x -> ((p10 (-4) <= x)%R <-> (rn mb eb (p10 (-4)) <= v)%R).
Proof.
  intros Hm He (X0 & Rx & Few & _). split.
  - intros H. rewrite <- Rx. apply PkgExact.rn_mono; [lia|exact H].
  - intros H. destruct (Rle_or_lt (p10 (-4)) x) as [|L]; [assumption|exfalso].
    assert (Q : rn mb eb (p10 (-4)) = v) by (apply Rle_antisym; [exact H|rewrite <- Rx; apply PkgExact.rn_mono; [lia|lra]]).
    pose proof (one_digit (-4) x X0 (Few (p10 (-4)) 1 Q (sig_one (-4))) L) as L9. change (-4 - 1) with (-5) in L9. pose proof (tenth_apart mb eb Hm He). pose proof (PkgExact.rn_mono mb eb _ _ ltac:(lia) L9). lra.
Qed.

Lemma fits_integer mb eb N : 19 <= mb -> 6 <= eb -> 0 < N < 2 ^ 20 -> fits mb eb (IZR N).
Proof.
  intros Hm He HN. assert (32 <= 2 ^ (eb - 1)) by (apply (Z.pow_le_mono_r 2 5 (eb - 1)); lia). assert (2 ^ 20 <= 2 ^ (mb + 1)) by (apply Z.pow_le_mono_r; lia).
  split; [exists N, 0; split; [change (p2 0) with 1%R; ring|]; lia|]. rewrite Rabs_pos_eq by (apply IZR_le; lia). apply Rlt_le_trans with (p2 20); [rewrite <- IZR_pow2 by lia; apply IZR_lt; lia|apply p2_le; lia].
Qed.

Lemma high_bound mb eb v x : 19 <= mb -> 6 <= eb -> shortest_digits mb eb v x -> ((x < p10 6)%R <-> (v < p10 6)%R).
Proof.
  intros Hm He (X0 & Rx & Few & _). assert (P6 : p10 6 = IZR 1000000) by reflexivity. assert (P5 : p10 (6 - 1) = IZR 100000) by reflexivity.
  pose proof (fits_rn mb eb _ ltac:(lia) (fits_integer mb eb 1000000 Hm He ltac:(lia))) as E6. pose proof (fits_rn mb eb _ ltac:(lia) (fits_integer mb eb 900000 Hm He ltac:(lia))) as E5. rewrite <- P6 in E6. split; intros H.
  - destruct (Rlt_or_le v (p10 6)) as [|G]; [assumption|exfalso]. pose proof (PkgExact.rn_mono mb eb x (p10 6) ltac:(lia) ltac:(lra)) as K. rewrite Rx, E6 in K. assert (V : rn mb eb (p10 6) = v) by lra.
    pose proof (one_digit 6 x X0 (Few (p10 6) 1 V (sig_one 6)) H) as L9. rewrite P5, <- mult_IZR in L9. change (9 * 100000) with 900000 in L9. pose proof (PkgExact.rn_mono mb eb _ _ ltac:(lia) L9) as K9. rewrite Rx, E5 in K9. rewrite P6 in G. assert (900000 < 1000000)%R by lra. lra.
  - destruct (Rlt_or_le x (p10 6)) as [|G]; [assumption|exfalso]. pose proof (PkgExact.rn_mono mb eb (p10 6) x ltac:(lia) ltac:(lra)) as K. rewrite Rx, E6 in K. lra.
Qed.

Lemma high_bound16 v x : fits 10 5 v -> shortest_digits 10 5 v x -> (x < p10 6)%R /\ (v < p10 6)%R.
Proof.
  intros Fv (X0 & Rx & _). assert (B : (v < p2 16)%R) by (destruct Fv as [_ B]; change (2 ^ (5 - 1)) with 16 in B; pose proof (Rle_abs v); lra).
  assert (P : (p2 16 < p10 6)%R) by (change (p2 16) with (IZR 65536); change (p10 6) with (IZR 1000000); apply IZR_lt; lia). split; [|lra].
  destruct (Rlt_or_le x (p10 6)) as [|G]; [assumption|exfalso]. pose proof (PkgExact.rn_mono 10 5 (p2 16) x ltac:(lia) ltac:(lra)) as K. rewrite Rx in K.
  assert (E16 : rn 10 5 (p2 16) = p2 16) by (unfold rn; apply round_generic; [apply valid_rnd_N|]; apply generic_format_bpow; unfold FLT_exp; lia). lra.
Qed.

Lemma bounds bitSize val mb eb b s v x : as_float bitSize val mb eb b s -> ieee mb eb b = VNum s (sgnR s v) -> shortest_digits mb eb v x ->
  ((p10 (-4) <= x)%R <-> (rn mb eb (p10 (-4)) <= v)%R) /\ ((x < p10 6)%R <-> (v < p10 6)%R).
Proof.
  intros A E D. pose proof (ClaimsMany.value_fits _ _ _ _ _ _ _ A E) as F. destruct A as (_ & _ & u & _ & _ & [(_ & -> & ->)|[(_ & -> & ->)|(_ & -> & -> & _)]]); (split; [apply low_bound; [lia|lia|exact D]|]).
  - apply (high_bound 52 11); [lia|lia|exact D].
  - apply (high_bound 23 8); [lia|lia|exact D].
  - destruct (high_bound16 v x F D). tauto.
Qed.

Lemma zero_digits mb eb v x : 1 <= mb -> shortest_digits mb eb v x -> v = 0%R -> x = 0%R.
Proof.
  intros Hm (X0 & Rx & Few & _) ->. assert (R0 : rn mb eb 0 = 0%R) by (unfold rn; apply round_0; apply valid_rnd_N). destruct (Few 0%R 0 R0) as (m & e & E & M).
  - exists 0, 0. split; [ring|reflexivity].
  - change (10 ^ 0) with 1 in M. assert (m = 0) by lia. subst m. rewrite E. ring.
Qed.

Lemma c111_g : forall w opt opt' val prec prec' bitSize mb eb b s v up, w = 32 \/ w = 64 -> up = 0 \/ up = 32 ->
  as_float bitSize val mb eb b s -> ieee mb eb b = VNum s (sgnR s v) -> prec < 0 -> prec' < 0 ->
  (v = 0%R \/ (rn mb eb (p10 (-4)) <= v < p10 6)%R -> FormatFloat w opt val (103 - up) prec bitSize = FormatFloat w opt' val 102 prec' bitSize) /\
  (v <> 0%R /\ ~ (rn mb eb (p10 (-4)) <= v < p10 6)%R -> FormatFloat w opt val (103 - up) prec bitSize = FormatFloat w opt' val (101 - up) prec' bitSize).
Proof.
  intros w opt opt' val prec prec' bitSize mb eb b s v up Hw Hup A E Hp Hp'. destruct (float_sizes _ _ _ _ _ _ A) as [Hm He].
  destruct (ClaimsFtoa2.c77 w opt val (103 - up) prec bitSize mb eb b s v Hw A E ltac:(lia) Hp) as (x & D & U & fp & t & R & N & P). destruct (bounds _ _ _ _ _ _ _ _ A E D) as [B1 B2]. pose proof (p10_pos (-4)) as P4.
  destruct P as [(K & _)|[(K & _)|(_ & P)]]; [lia|lia|]. rewrite R. split.
  - intros C. assert (C' : (x = 0 \/ p10 (-4) <= x < p10 6)%R) by (destruct C as [C|C]; [left; apply (zero_digits mb eb v x Hm D C)|right; tauto]).
    destruct (ClaimsFtoa2.c77 w opt' val 102 prec' bitSize mb eb b s v Hw A E ltac:(lia) Hp') as (x' & D' & _ & fp' & t' & R' & N' & P'). rewrite (U x' D') in *. destruct P' as [(K & _)|[(_ & P')|(K & _)]]; [lia| |lia]. rewrite R'. f_equal. apply (ClaimsEqual.prints_f_unique s fp fp' x); [apply P, C'|exact P'|exact N|exact N'].
  - intros [C1 C2]. assert (X : (0 < x)%R). { destruct D as (X0 & Rx & _). destruct (Rle_lt_or_eq_dec 0 x X0) as [|Z]; [assumption|exfalso; apply C1]. rewrite <- Rx, <- Z. unfold rn. apply round_0. apply valid_rnd_N. }
    assert (C' : (0 < x < p10 (-4) \/ p10 (-4) <= x /\ p10 6 <= x)%R). { destruct (Rlt_or_le x (p10 (-4))) as [|L]; [left; auto|right]. split; [exact L|]. destruct (Rlt_or_le x (p10 6)); [exfalso; apply C2; tauto|assumption]. }
    destruct (ClaimsFtoa2.c77 w opt' val (101 - up) prec' bitSize mb eb b s v Hw A E ltac:(lia) Hp') as (x' & D' & _ & fp' & t' & R' & N' & P'). rewrite (U x' D') in *. destruct P' as [(_ & P')|[(K & _)|(K & _)]]; [|lia|lia]. rewrite R'. f_equal. replace (103 - up - 2) with (101 - up) in P by lia. apply (prints_e_unique (101 - up) s fp fp' x); [apply P, C'|exact P'|exact N|exact N'].
Qed.

Lemma c111_example : as_float 64 0x3D30000000000000 52 11 0x3D30000000000000 false /\ ieee 52 11 0x3D30000000000000 = VNum false (sgnR false (IZR (2 ^ 52) * p2 (- 96))).
Proof.
  assert (U : ieee 52 11 0x3D30000000000000 = VNum false (IZR (2 ^ 52) * p2 (- 96))) by reflexivity. split; [|exact U]. apply (ClaimsFtoa2.as_float_64 0x3D30000000000000 false (IZR (2 ^ 52) * p2 (- 96)) ltac:(lia) U).
Qed.

(** Rounding to a coarser grid that the rounded number lies on *)
Lemma round10_coarser c k N v : c <= k -> round10 c v = (IZR N * p10 k)%R -> round10 k v = (IZR N * p10 k)%R.
Proof.
  intros L E. destruct (Z.eq_dec c k) as [->|Nk]; [exact E|]. unfold round10. do 2 f_equal. unfold round10 in E. set (a := (v * p10 (- c))%R) in *. pose proof (p10_pos c) as Pc.
  assert (Ez : ZnearestE a = N * 10 ^ (k - c)). { apply eq_IZR. apply Rmult_eq_reg_r with (p10 c); [|lra]. rewrite E, scale10 by lia. do 2 f_equal. lia. }
  assert (Ea : (v * p10 (- k) = a * p10 (c - k))%R) by (unfold a; rewrite Rmult_assoc, <- p10_plus; do 2 f_equal; lia). rewrite Ea. apply Znearest_imp.
  pose proof (p10_pos (c - k)) as P. assert (P1 : (IZR (10 ^ (k - c)) * p10 (c - k) = 1)%R) by (rewrite IZR_p10, <- p10_plus by lia; replace (k - c + (c - k)) with 0 by lia; reflexivity).
  replace (a * p10 (c - k) - IZR N)%R with ((a - IZR (ZnearestE a)) * p10 (c - k))%R by (rewrite Ez, mult_IZR, Rmult_minus_distr_r, Rmult_assoc, P1; ring).
  rewrite Rabs_mult, (Rabs_pos_eq (p10 (c - k))) by lra. pose proof (Znearest_half (fun t => negb (Z.even t)) a) as H. pose proof (p10_le (c - k) (-1) ltac:(lia)) as Q. change (p10 (-1)) with (/ 10)%R in Q. pose proof (Rabs_pos (a - IZR (ZnearestE a))). nra.
Qed.

Lemma sig_round_mag n v : sig_round n v = round10 (mag radix10 v - n) v.
Proof. reflexivity. Qed.

Lemma sig_round_low n v : 0 < n -> (0 < v)%R -> (p10 (mag radix10 v - 1) <= sig_round n v)%R.
Proof.
  intros Hn Hv. assert (HP : Prec_gt_0 n) by exact Hn. assert (E : sig_round n (p10 (mag radix10 v - 1)) = p10 (mag radix10 v - 1)).
  { unfold sig_round. apply round_generic; [apply valid_rnd_N|]. apply generic_format_bpow. unfold FLX_exp. lia. }
  rewrite <- E at 1. unfold sig_round. apply round_le; [apply FLX_exp_valid; exact HP|apply valid_rnd_N|]. pose proof (bpow_mag_le radix10 v ltac:(lra)) as He. rewrite Rabs_pos_eq in He by lra. exact He.
Qed.

Lemma sig_round_z n : sig_round n 0 = 0%R.
Proof. unfold sig_round. apply round_0. apply valid_rnd_N. Qed.

Lemma round10_z k : round10 k 0 = 0%R.
Proof. rewrite ClaimsMany.round10_fix. apply round_0. apply valid_rnd_N. Qed.

Lemma c111_g_fixed : forall w opt opt' val prec bitSize mb eb b s v up, w = 32 \/ w = 64 -> up = 0 \/ up = 32 ->
  as_float bitSize val mb eb b s -> ieee mb eb b = VNum s (sgnR s v) -> 0 <= prec < 2 ^ (w - 1) - 8 ->
  let p := Z.max prec 1 in let x := sig_round p v in
  exists t fp, FormatFloat w opt val (103 - up) prec bitSize = Ret t /\ no_zero_end fp /\ prints_g (101 - up) p s fp x t /\
    (x = 0%R \/ (p10 (-4) <= x < p10 p)%R -> FormatFloat w opt' val 102 (Z.of_nat (List.length fp)) bitSize = Ret t) /\
    (x <> 0%R /\ ~ (p10 (-4) <= x < p10 p)%R -> FormatFloat w opt' val (101 - up) (Z.of_nat (List.length fp)) bitSize = Ret t).
Proof.
  intros w opt opt' val prec bitSize mb eb b s v up Hw Hup A E Hp p x. pose proof (ClaimsEqual.value_nonneg _ _ _ _ _ _ _ A E) as V0. assert (Pp : 1 <= p) by (unfold p; lia).
  assert (W : 100 < 2 ^ (w - 1)) by (destruct Hw as [-> | ->]; lia).
  destruct (ClaimsFtoa.c51g w opt val (103 - up) prec bitSize mb eb b s v Hw A E ltac:(lia) ltac:(lia)) as (t & fp & R & N & P). fold p x in P. replace (103 - up - 2) with (101 - up) in P by lia. exists t, fp. split; [exact R|]. split; [exact N|]. split; [exact P|].
  pose proof (p10_pos (-4)) as P4. set (M := mag radix10 v) in *.
  assert (Low : (0 < v)%R -> (p10 (M - 1) <= x)%R) by (intros H; apply sig_round_low; [lia|exact H]).
  assert (X0 : (0 <= x)%R). { destruct (Rle_lt_or_eq_dec 0 v V0) as [H|H]; [specialize (Low H); pose proof (p10_pos (M - 1)); lra|unfold x; rewrite <- H, sig_round_z; lra]. }
  split.
  - intros C. pose proof (proj1 P C) as F. pose proof F as (ip & Et & Ni & Ai & Vx).
    assert (Q : round10 (- len fp) v = x /\ len fp < 2 ^ (w - 1)).
    { destruct (Rle_lt_or_eq_dec 0 v V0) as [H|H].
      - specialize (Low H). assert (x <> 0%R) by (pose proof (p10_pos (M - 1)); lra). destruct C as [C|C]; [contradiction|].
        assert (ML : M - 1 < p) by (apply p10_lt_inv; lra).
        assert (K : M - p <= - len fp).
        { destruct (Z_le_gt_dec (M - p) (- len fp)) as [|G]; [assumption|exfalso]. assert (Nf : fp <> []) by (intros ->; cbn [List.length] in G; lia).
          apply (read_no_zero_end (ip ++ fp)).
          - unfold all_digits. apply Forall_app. split; [apply Ni|exact Ai].
          - destruct ip; [destruct fp; [contradiction|discriminate]|discriminate].
          - destruct (exists_last Nf) as (l & d & El). unfold no_zero_end in N. rewrite El, app_assoc, !last_last in *. exact N.
          - assert (Z : exists z, read 10 (ip ++ fp) = z * 10 ^ (M - p + len fp)).
            { exists (ZnearestE (v * p10 (- (M - p)))). apply eq_IZR. apply Rmult_eq_reg_r with (p10 (- len fp)); [|apply Rgt_not_eq, p10_pos]. rewrite <- Vx, scale10 by lia. unfold x. rewrite sig_round_mag. fold M. unfold round10. do 2 f_equal. lia. }
            destruct Z as [z ->]. replace (M - p + len fp) with (M - p + len fp - 1 + 1) by lia. rewrite Z.pow_add_r by lia. rewrite Z.mul_assoc. apply Z.mod_mul. lia. }
        split; [|].
        + rewrite Vx. apply (round10_coarser (M - p)); [exact K|]. rewrite <- Vx. unfold x. rewrite sig_round_mag. reflexivity.
        + (* 1e-4 <= x, so M >= -4 *)
          assert (MH : - 4 <= M).
          { destruct (Z_le_gt_dec (- 4) M) as [|G]; [assumption|exfalso]. assert (x <= p10 M)%R.
            { assert (Ev : sig_round p (p10 M) = p10 M) by (unfold sig_round; apply round_generic; [apply valid_rnd_N|]; apply generic_format_bpow; unfold FLX_exp; lia). rewrite <- Ev. unfold x, sig_round. assert (HP : Prec_gt_0 p) by (unfold Prec_gt_0; lia). apply round_le; [apply FLX_exp_valid; exact HP|apply valid_rnd_N|].
              pose proof (bpow_mag_gt radix10 v) as He. rewrite Rabs_pos_eq in He by lra. left. exact He. }
            pose proof (bpow_lt radix10 M (-4) ltac:(lia)) as L. change (p10 M < p10 (-4))%R in L. lra. }
          unfold p in *. lia.
      - assert (Zx : x = 0%R) by (unfold x; rewrite <- H; apply sig_round_z). rewrite <- H, round10_z. split; [symmetry; exact Zx|].
        (* no digits after the point *)
        destruct (list_eq_dec Z.eq_dec fp []) as [->|Nf]; [cbn [List.length]; lia|exfalso]. apply (read_no_zero_end (ip ++ fp)).
        + unfold all_digits. apply Forall_app. split; [apply Ni|exact Ai].
        + destruct ip; [destruct fp; [contradiction|discriminate]|discriminate].
        + destruct (exists_last Nf) as (l & d & El). unfold no_zero_end in N. rewrite El, app_assoc, !last_last in *. exact N.
        + assert (Z : read 10 (ip ++ fp) = 0). { apply eq_IZR. apply Rmult_eq_reg_r with (p10 (- len fp)); [|apply Rgt_not_eq, p10_pos]. rewrite <- Vx, Zx. ring. } rewrite Z. reflexivity. }
    destruct Q as [Q Ln]. destruct (ClaimsFtoa.c51f w opt' val (len fp) bitSize mb eb b s v Hw A E ltac:(lia)) as (t' & fp' & R' & L' & P'). rewrite Q in P'. rewrite R'. f_equal. symmetry. apply (ClaimsSameF.prints_f_same s fp fp' x t t' F P'). lia.
  - intros [C1 C2]. assert (H : (0 < v)%R). { destruct (Rle_lt_or_eq_dec 0 v V0) as [H|H]; [exact H|exfalso; apply C1; unfold x; rewrite <- H; apply sig_round_z]. }
    specialize (Low H). assert (C' : (0 < x < p10 (-4) \/ p10 (-4) <= x /\ p10 p <= x)%R). { destruct (Rlt_or_le x (p10 (-4))) as [|L]; [left; pose proof (p10_pos (M - 1)); lra|right]. split; [exact L|]. destruct (Rlt_or_le x (p10 p)); [exfalso; apply C2; auto|assumption]. }
    pose proof (proj2 P C') as F. pose proof (ClaimsLen.prints_e_fp (101 - up) s fp x t p F N Pp (ClaimsLen.sig_digits_round p v ltac:(lia))) as Ln.
    assert (Q : sig_round (len fp + 1) v = x).
    { pose proof F as (a & X & xs & Et & _ & Ai & Vx & Z0). assert (Na : a <> 48) by (intros K; destruct (Z0 K) as [K' _]; contradiction).
      pose proof (prints_e_range (101 - up) s fp x t F a X xs Et Vx Ai Na) as Rg. assert (ML : M - 1 < X + 1) by (apply p10_lt_inv; lra).
      rewrite sig_round_mag. fold M. set (k := M - (len fp + 1)).
      assert (Ex : x = (IZR (read 10 (a :: fp) * 10 ^ (X - len fp - k)) * p10 k)%R) by (rewrite scale10 by (unfold k; lia); rewrite Vx; do 2 f_equal; lia).
      rewrite Ex. apply (round10_coarser (M - p)); [unfold k; lia|]. rewrite <- Ex. reflexivity. }
    destruct (ClaimsFtoa.c51e w opt' val (101 - up) (len fp) bitSize mb eb b s v Hw A E ltac:(lia) ltac:(unfold p in *; lia)) as (t' & fp' & R' & L' & P'). rewrite Q in P'. rewrite R'. f_equal. symmetry. apply (ClaimsEqual.prints_e_len_same (101 - up) s fp fp' x t t' F P'). lia.
Qed.
