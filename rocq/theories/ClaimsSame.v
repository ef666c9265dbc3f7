(** C105: the shortest text and the text rounded to as many digits. *)
From Coq Require Import ZArith Lia Bool String List Reals Lra Classical.
From Flocq Require Import Core.
From Verif Require Import GoBase Spec SpecText SpecDec SpecFtoa BitFacts RoundFacts BigFacts2 ItoaFacts DecFacts DecFacts2 FloatMid FtoaShort PkgText PkgExact ClaimsFloat2 ClaimsRead ClaimsFtoa ClaimsFtoa2 FtoaAll ClaimsLen ClaimsAlloc FtoaFixed.
From Verif Require Import Ftoa SpecFmt.
Import ListNotations.
Open Scope Z_scope.

Local Notation len l := (Z.of_nat (length l)).

(** Rounding to n digits takes a nearest number, of two equally close ones one with an even last digit. *)
Lemma sig_round_nearest n v y : 0 < n -> sig_digits n y -> (Rabs (sig_round n v - v) <= Rabs (y - v))%R.
Proof.
  intros Hn H. assert (Pg : Prec_gt_0 n) by exact Hn.
  destruct (round_N_pt radix10 (FLX_exp n) (fun t => negb (Z.even t)) v) as [_ G]. apply G. apply sig_format; assumption.
Qed.

Lemma sig_round_even n v y N k : 0 < n -> sig_digits n y -> Rabs (sig_round n v - v) = Rabs (y - v) -> sig_round n v <> y ->
  y = (IZR (2 * N) * p10 k)%R -> Rabs (y - sig_round n v) = p10 k -> False.
Proof.
  intros Hn Hy Ed Ne Ey Ek. assert (Pg : Prec_gt_0 n) by exact Hn.
  assert (VE : Valid_exp (FLX_exp n)) by (apply FLX_exp_valid; exact Pg).
  pose proof (round_N_pt radix10 (FLX_exp n) (fun t => negb (Z.even t)) v) as [_ G].
  assert (Ny : Rnd_N_pt (generic_format radix10 (FLX_exp n)) v y).
  { split; [apply sig_format; assumption|]. intros g Hg. rewrite <- Ed. apply G. exact Hg. }
  clear G. pose proof (Rnd_N_pt_DN_or_UP_eq _ _ _ _ _ (round_DN_pt radix10 (FLX_exp n) v) (round_UP_pt radix10 (FLX_exp n) v) Ny) as D.
  unfold sig_round, Generic_fmt.round, F2R, scaled_mantissa in *. cbn [Fnum Fexp] in *. set (c := cexp radix10 (FLX_exp n) v) in *.
  change (bpow radix10 c) with (p10 c) in *. set (a := (v * bpow radix10 (- c))%R) in *.
  assert (V : v = (a * p10 c)%R).
  { unfold a. rewrite Rmult_assoc. change (p10 c) with (bpow radix10 c). rewrite <- bpow_plus. replace (- c + c) with 0 by lia. cbn [bpow]. ring. }
  pose proof (p10_pos c) as Pc. rewrite V in Ed.
  assert (AB : forall r, Rabs (r * p10 c - a * p10 c) = (Rabs (r - a) * p10 c)%R).
  { intros r. rewrite <- Rmult_minus_distr_r, Rabs_mult, (Rabs_pos_eq (p10 c)) by lra. reflexivity. }
  (* y = f * 10^c *)
  assert (F : exists f, y = (IZR f * p10 c)%R /\ (Rabs (IZR f - a) = Rabs (IZR (ZnearestE a) - a))%R).
  { destruct D as [D|D]; [exists (Zfloor a)|exists (Zceil a)]; (split; [exact D|]); rewrite D, !AB in Ed; apply Rmult_eq_reg_r with (p10 c); lra. }
  destruct F as (f & Ef & Da). set (z := ZnearestE a) in *.
  assert (Nz : z <> f) by (intros K; apply Ne; rewrite Ef, K; reflexivity).
  assert (Hz : (Rabs (IZR z - a) <= / 2)%R) by (rewrite Rabs_minus_sym; apply Znearest_half).
  (* adjacent *)
  assert (Dz : IZR (Z.abs (f - z)) = 1%R).
  { assert (U : (IZR (Z.abs (f - z)) <= 1)%R).
    { rewrite abs_IZR, minus_IZR. replace (IZR f - IZR z)%R with ((IZR f - a) - (IZR z - a))%R by ring. apply Rle_trans with (1 := Rabs_triang _ _). rewrite Rabs_Ropp. lra. }
    apply (le_IZR _ 1) in U. f_equal. lia. }
  assert (Kc : k = c).
  { apply (bpow_inj radix10). change (p10 k = p10 c). rewrite <- Ek, Ef, <- Rmult_minus_distr_r, Rabs_mult, (Rabs_pos_eq (p10 c)), <- minus_IZR, <- abs_IZR, Dz by lra. ring. }
  subst k. assert (f = 2 * N). { apply eq_IZR. apply Rmult_eq_reg_r with (p10 c); [|lra]. rewrite <- Ef. exact Ey. }
  apply (eq_IZR _ 1) in Dz.
  (* the tie *)
  assert (Ta : Z.even z = true).
  { unfold z. assert (Ha : (a = (IZR f + IZR z) / 2)%R).
    { assert (C : f = z + 1 \/ f = z - 1) by lia. destruct C as [C|C]; rewrite C, ?plus_IZR, ?minus_IZR in *; unfold Rabs in Da; repeat destruct Rcase_abs in Da; lra. }
    unfold Znearest. assert (Fl : Zfloor a = Z.min f z).
    { apply Zfloor_imp. rewrite Ha. assert (C : f = z + 1 \/ f = z - 1) by lia. destruct C as [C|C].
      - rewrite Z.min_r by lia. rewrite C, plus_IZR. lra.
      - rewrite Z.min_l by lia. rewrite C, plus_IZR, minus_IZR. lra. }
    assert (Ce : Zceil a = Z.max f z).
    { apply Zceil_imp. rewrite Ha. assert (C : f = z + 1 \/ f = z - 1) by lia. destruct C as [C|C].
      - rewrite Z.max_l by lia. rewrite C, minus_IZR, plus_IZR. lra.
      - rewrite Z.max_r by lia. rewrite C, !minus_IZR. lra. }
    rewrite Fl, Ce. rewrite Rcompare_Eq.
    - destruct (Z.even (Z.min f z)) eqn:Ev; [cbn; exact Ev|]. cbn [negb]. assert (C : Z.max f z = Z.min f z + 1) by lia. rewrite C, Z.even_add, Ev. reflexivity.
    - rewrite Ha. assert (C : f = z + 1 \/ f = z - 1) by lia. destruct C as [C|C].
      + rewrite Z.min_r by lia. rewrite C, plus_IZR. lra.
      + rewrite Z.min_l by lia. rewrite C, minus_IZR. lra. }
  apply Z.even_spec in Ta. destruct Ta as [M Ta]. lia.
Qed.

(** The numbers that round to a float lie symmetrically about it unless it is a power of two. *)
Lemma reads_closer flt mb eb v x z : format_of flt mb eb -> (0 < v)%R -> fits mb eb v -> (forall k, v <> p2 k) ->
  rn mb eb x = v -> (Rabs (z - v) <= Rabs (x - v))%R -> rn mb eb z = v.
Proof.
  intros Hf Pv Fv Np Rx Hz.
  assert (M10 : 10 <= mb /\ 2 <= eb) by (destruct Hf as [(_ & -> & ->)|[(_ & -> & ->)|(_ & -> & ->)]]; lia).
  destruct (fits_parts mb eb v ltac:(lia) ltac:(lia) ltac:(lra) Fv) as (mt & e & Hp & Ev). rewrite Ev in *.
  assert (Hmt : 0 < mt). { apply lt_IZR. apply Rmult_lt_reg_r with (p2 (e - mb)); [apply p2_pos|]. lra. }
  destruct (bounds_facts flt mb eb mt e Hf Hp Hmt) as (_ & _ & _ & F4 & _ & F6).
  assert (S : (2 ^ mb <? mt) || (e =? 2 - 2 ^ (eb - 1)) = true).
  { destruct Hp as [[H1 H2]|[H1 H2]]; [|rewrite H2, Z.eqb_refl; apply orb_true_r].
    destruct (Z.ltb_spec (2 ^ mb) mt) as [|L]; [reflexivity|]. exfalso. apply (Np (mb + (e - mb))). rewrite p2_plus. f_equal. rewrite <- IZR_pow2 by lia. f_equal. lia. }
  rewrite S in F6. apply (inside_reads flt mb eb mt e Hf Hp Hmt). apply (reads_inside flt mb eb mt e Hf Hp Hmt) in Rx. destruct Rx as [I1 I2].
  unfold inside. rewrite F4, F6 in *. set (h := p2 (e - mb - 1)) in *. set (u := (IZR mt * p2 (e - mb))%R) in *.
  unfold Rabs in Hz. split.
  - repeat destruct Rcase_abs in Hz; lra.
  - destruct I2 as [I2|I2]; [left|right; exact I2]. repeat destruct Rcase_abs in Hz; lra.
Qed.

(** Texts with as many digits. *)
Lemma prints_e_same c ng fp fp' x s s' : prints_e c ng fp x s -> prints_e c ng fp' x s' -> no_zero_end fp -> length fp' = length fp -> s = s'.
Proof.
  intros P P' N L. apply (prints_e_unique c ng fp fp' x); try assumption.
  intros Z. destruct fp' as [|f0 f] eqn:Ef; [cbn in Z; lia|]. rewrite <- Ef in *. assert (Nf : fp' <> []) by (rewrite Ef; discriminate).
  assert (H0 : (0 < length fp')%nat) by (rewrite Ef; cbn; lia).
  assert (S : sig_digits (len fp') x).
  { destruct P' as (a & X & xs & _ & _ & A & Ex & _). destruct (exists_last Nf) as (l & d & El). rewrite El in Z. rewrite last_last in Z. subst d.
    exists (read 10 (a :: l)), (X - len l). rewrite El, app_comm_cons in A. unfold all_digits in A. rewrite Forall_app in A. destruct A as [A _].
    pose proof (read_range 10 (a :: l) ltac:(lia) A) as U. split.
    - rewrite Ex, El, app_comm_cons, read_snoc, app_length. cbn [length]. change (digit_val 48) with 0. rewrite Z.add_0_r, mult_IZR, Nat2Z.inj_add. change (Z.of_nat 1) with 1.
      replace (X - len l) with (1 + (X - (len l + 1))) by lia. rewrite p10_plus. change (p10 1) with 10%R. ring.
    - rewrite El, app_length. cbn [length] in *. replace (Z.of_nat (length l + 1)) with (Z.of_nat (S (length l))) by lia. lia. }
  pose proof (prints_e_fp c ng fp x s (len fp') P N ltac:(lia) S). lia.
Qed.

Definition passed (mb eb : Z) (v x : R) : Prop := exists n, rn mb eb (mid_hi mb eb v) <> v /\ sig_digits n (mid_hi mb eb v) /\ ~ sig_digits n x.

Lemma shortest_rounded mb eb v x n : 0 < n -> shortest_digits mb eb v x -> sig_digits n x -> (forall m, sig_digits m x -> m < n -> False) ->
  (x = sig_round n v <-> rn mb eb (sig_round n v) = v /\ (passed mb eb v x -> (sig_round n v <= v)%R)).
Proof.
  intros Hn (X0 & Rx & Few & C1 & C2) Sx Least. set (z := sig_round n v).
  assert (Sz : sig_digits n z) by (apply sig_round_sig; exact Hn).
  assert (Szx : forall m, sig_digits m x -> sig_digits m z).
  { intros m Hm. destruct (Z_lt_ge_dec m n) as [L|L]; [destruct (Least m Hm L)|]. destruct Sz as (M & e & E & H). exists M, e. split; [exact E|]. pose proof (Z.pow_le_mono_r 10 n m ltac:(lia) ltac:(lia)). lia. }
  split.
  - intros Exz. rewrite <- Exz. split; [exact Rx|]. intros P. apply (C2 P).
  - intros [Rz Pz]. pose proof (sig_round_nearest n v x Hn Sx) as Nz. fold z in Nz.
    destruct (classic (passed mb eb v x)) as [P|P].
    + destruct (C2 P) as [D1 D2]. specialize (D2 z Rz Szx (Pz P)). specialize (Pz P). rewrite !Rabs_left1 in Nz by lra. lra.
    + assert (Hx : forall n, rn mb eb (mid_hi mb eb v) <> v -> sig_digits n (mid_hi mb eb v) -> sig_digits n x).
      { intros m H1 H2. destruct (classic (sig_digits m x)) as [|H3]; [assumption|exfalso]. apply P. exists m. auto. }
      destruct (C1 Hx z Rz Szx) as [D1 D2]. destruct (Req_dec z x) as [|Ne]; [congruence|exfalso].
      destruct (D2 ltac:(lra) Ne) as (N & k & E1 & E2). apply (sig_round_even n v x N k Hn Sx ltac:(fold z; lra) Ne E1 E2).
Qed.

Lemma c105 : forall w opt val fmt prec bitSize mb eb b s v t fp x, w = 32 \/ w = 64 ->
  as_float bitSize val mb eb b s -> ieee mb eb b = VNum s (sgnR s v) -> fmt = 101 \/ fmt = 69 -> prec < 0 ->
  FormatFloat w opt val fmt prec bitSize = Ret t -> prints_e fmt s fp x t ->
  exists t', FormatFloat w opt val fmt (len fp) bitSize = Ret t' /\
    (t = t' <-> rn mb eb (sig_round (len fp + 1) v) = v /\ (passed mb eb v x -> (sig_round (len fp + 1) v <= v)%R)).
Proof.
  intros w opt val fmt prec bitSize mb eb b s v t fp x Hw Ha Hx Hc Hp Et Pt.
  pose proof (as_float_size _ _ _ _ _ _ Ha) as Hsz. assert (Sz : 1 <= mb /\ 2 <= eb) by lia. destruct Sz as [Sm Se].
  pose proof (as_nonneg _ _ _ _ _ _ _ Ha Hx) as Pv.
  destruct (c77 w opt val fmt prec bitSize mb eb b s v Hw Ha Hx ltac:(tauto) Hp) as (x1 & Sx & _ & fp1 & t1 & Et1 & Ne & Pr).
  rewrite Et in Et1. injection Et1 as <-.
  assert (Pr' : prints_e fmt s fp1 x1 t). { destruct Pr as [[_ Pr]|[[E _]|[E _]]]; [exact Pr|lia|lia]. } clear Pr.
  destruct (prints_e_inj fmt s s fp fp1 x x1 t Hc Pt Pr') as (_ & <- & <-). clear Pr'.
  assert (L : len fp <= 20).
  { assert (S17 : sig_digits 21 x).
    { destruct Sx as (_ & _ & Few & _). apply (Few (sig_round (enough mb) v) 21); [apply (enough_as bitSize val mb eb b s); assumption|].
      assert (E : 0 < enough mb <= 21) by (destruct Hsz as [(_ & -> & _)|[(_ & -> & _)|(_ & -> & _)]]; unfold enough; cbn; lia).
      destruct (sig_round_sig (enough mb) v ltac:(lia)) as (M & e & E1 & E2). exists M, e. split; [exact E1|]. pose proof (Z.pow_le_mono_r 10 (enough mb) 21 ltac:(lia) ltac:(lia)). lia. }
    pose proof (prints_e_fp fmt s fp x t 21 Pt Ne ltac:(lia) S17). lia. }
  assert (Hr : 0 <= len fp < 2 ^ (w - 1) - 1) by (destruct Hw as [->| ->]; cbn; lia).
  destruct (c51e w opt val fmt (len fp) bitSize mb eb b s v Hw Ha Hx Hc Hr) as (t' & fp' & Et' & Lf & Pt').
  exists t'. split; [exact Et'|].
  assert (T : t = t' <-> x = sig_round (len fp + 1) v).
  { split; intros E.
    - subst t'. apply (prints_e_inj fmt s s fp fp' _ _ t Hc Pt Pt').
    - rewrite <- E in Pt'. apply (prints_e_same fmt s fp fp' x t t' Pt Pt' Ne). lia. }
  rewrite T. destruct (Req_dec v 0) as [V0|V0].
  - subst v. rewrite (sig_round_0 (len fp + 1)). pose proof (shortest_zero mb eb x Sx). split; intros _; [|assumption]. split; [apply rn_0|lra].
  - apply shortest_rounded; [lia|exact Sx|apply (prints_e_sig fmt s fp x t Pt)|]. intros m Sm' Lm.
    destruct (Z_lt_ge_dec m 1) as [L1|L1].
    + destruct Sm' as (M & e & E & HM). assert (P1 : 10 ^ m <= 1). { destruct (Z_lt_ge_dec m 0); [rewrite Z.pow_neg_r by lia; lia|]. replace m with 0 by lia. cbn. lia. }
      assert (M = 0) by lia. subst M. rewrite Rmult_0_l in E. subst x. destruct Sx as (_ & Rx & _). rewrite rn_0 in Rx. lra.
    + pose proof (prints_e_fp fmt s fp x t m Pt Ne ltac:(lia) Sm'). lia.
Qed.

Lemma c105_partial : forall w opt val fmt prec bitSize mb eb b s v t fp x, w = 32 \/ w = 64 ->
  as_float bitSize val mb eb b s -> ieee mb eb b = VNum s (sgnR s v) -> fmt = 101 \/ fmt = 69 -> prec < 0 ->
  FormatFloat w opt val fmt prec bitSize = Ret t -> prints_e fmt s fp x t ->
  (forall k, v <> p2 k) -> (forall n, rn mb eb (mid_hi mb eb v) <> v -> sig_digits n (mid_hi mb eb v) -> sig_digits n x) ->
  FormatFloat w opt val fmt (len fp) bitSize = Ret t.
Proof.
  intros w opt val fmt prec bitSize mb eb b s v t fp x Hw Ha Hx Hc Hp Et Pt Np Hn.
  destruct (c105 w opt val fmt prec bitSize mb eb b s v t fp x Hw Ha Hx Hc Hp Et Pt) as (t' & Et' & H).
  rewrite Et'. f_equal. symmetry. apply H. split; [|intros (n & H1 & H2 & H3); exfalso; apply H3, Hn; assumption].
  pose proof (as_nonneg _ _ _ _ _ _ _ Ha Hx) as Pv.
  destruct (Req_dec v 0) as [V0|V0]; [rewrite V0, sig_round_0; apply rn_0|].
  destruct (c77 w opt val fmt prec bitSize mb eb b s v Hw Ha Hx ltac:(tauto) Hp) as (x1 & (_ & Rx & _) & _ & fp1 & t1 & Et1 & _ & Pr).
  rewrite Et in Et1. injection Et1 as <-.
  assert (Pr' : prints_e fmt s fp1 x1 t). { destruct Pr as [[_ Pr]|[[E _]|[E _]]]; [exact Pr|lia|lia]. }
  destruct (prints_e_inj fmt s s fp fp1 x x1 t Hc Pt Pr') as (_ & <- & _).
  pose proof (as_float_size _ _ _ _ _ _ Ha) as Hsz.
  destruct (decode_as 64 true [] val 101 (-1) bitSize b mb eb s v ltac:(auto) Ha Hx) as (flt & mt & e & Hf & Hq & Ev & _).
  destruct (abs_parts mb eb b s bitSize val (sgnR s v) Ha ltac:(lia) ltac:(lia) (ex_intro _ s Hx)) as (v1 & Hx1 & _ & Fv).
  assert (v1 = v). { rewrite Hx in Hx1. apply VNum_inj in Hx1. destruct Hx1 as [_ Hx1]. destruct s; cbn [sgnR] in Hx1; lra. } subst v1.
  apply (reads_closer flt mb eb v x); [exact Hf|lra|exact Fv|exact Np|exact Rx|].
  apply sig_round_nearest; [lia|]. apply (prints_e_sig fmt s fp x t Pt).
Qed.

Lemma c105_refuted : exists val v t t', as_float 64 val 52 11 val false /\ ieee 52 11 val = VNum false v /\
  (forall opt, FormatFloat 64 opt val 101 (-1) 64 = Ret t) /\ (forall opt, FormatFloat 64 opt val 101 15 64 = Ret t') /\
  t = B "5.684341886080802e-14"%string /\ t' = B "5.684341886080801e-14"%string.
Proof.
  assert (E64 : ieee 52 11 0x3D30000000000000 = VNum false (IZR (2 ^ 52) * p2 (-96))).
  { rewrite ieee_norm64 by (vm_compute; first [reflexivity|split; discriminate|split; [discriminate|reflexivity]]). reflexivity. }
  exists 0x3D30000000000000, (IZR (2 ^ 52) * p2 (-96))%R, (B "5.684341886080802e-14"%string), (B "5.684341886080801e-14"%string).
  split; [apply (as_float_64 0x3D30000000000000 false (IZR (2 ^ 52) * p2 (-96)) ltac:(lia) E64)|]. split; [exact E64|].
  split; [intros []; vm_compute; reflexivity|]. split; [intros []; vm_compute; reflexivity|]. split; reflexivity.
Qed.

Lemma c105_refuted_odd : exists val b, as_float 32 val 23 8 b false /\ ieee 23 8 b = VNum false 29999998976 /\
  (forall opt, FormatFloat 64 opt val 101 (-1) 32 = Ret (B "2.9999998e+10"%string)) /\ (forall opt, FormatFloat 64 opt val 101 7 32 = Ret (B "2.9999999e+10"%string)).
Proof.
  exists 0x421BF08EA0000000, 0x50DF8475.
  assert (E64 : ieee 52 11 0x421BF08EA0000000 = VNum false 29999998976).
  { rewrite ieee_norm64 by (vm_compute; first [reflexivity|split; discriminate|split; [discriminate|reflexivity]]). f_equal.
    change (0x421BF08EA0000000 / 2 ^ 52 - 1075) with (-18). change (2 ^ 52 + 0x421BF08EA0000000 mod 2 ^ 52) with (29999998976 * 2 ^ 18). rewrite mult_IZR, IZR_pow2 by lia.
    rewrite Rmult_assoc, <- p2_plus. change (18 + -18) with 0. change (p2 0) with 1%R. lra. }
  assert (E32 : ieee 23 8 0x50DF8475 = VNum false 29999998976).
  { change (ieee 23 8 0x50DF8475) with (VNum false (IZR 0xDF8475 * p2 11)). f_equal. rewrite <- IZR_pow2, <- mult_IZR by lia. reflexivity. }
  split; [apply (as_float_fits 32 _ 23 8 _ false 29999998976); auto; lia|]. split; [exact E32|].
  split; intros []; vm_compute; reflexivity.
Qed.
