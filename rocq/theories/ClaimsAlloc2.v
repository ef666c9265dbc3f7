(** C100: when FormatFloat allocates a second time. *)
From Coq Require Import ZArith Lia Bool List Reals Lra.
From Flocq Require Import Core.
From Verif Require Import GoBase Spec SpecText SpecDec SpecFtoa BitFacts RoundFacts BigFacts2 ItoaFacts DecFacts DecFacts2 FloatMid PkgExact ClaimsFloat2 ClaimsRead ClaimsFtoa2 ClaimsChain.
From Verif Require Import Ftoa SpecFmt.
Import ListNotations.
Open Scope Z_scope.

Local Notation len l := (Z.of_nat (length l)).

From Verif Require Import ClaimsLen ClaimsFtoa ClaimsFtoa2 FtoaAll ClaimsAlloc ClaimsLenF.
From Verif Require ClaimsArr ClaimsSlice Slices FtoaArr.
Import SpecFmt.

Lemma len_e_exactly : forall w opt val fmt prec bitSize mb eb b s, w = 32 \/ w = 64 ->
  as_float bitSize val mb eb b s -> (exists t v, ieee mb eb b = VNum t v) ->
  fmt = 101 \/ fmt = 69 -> 0 <= prec < 2 ^ (w - 1) - 1 ->
  exists t k, Ftoa.FormatFloat w opt val fmt prec bitSize = Ret t /\ 2 <= k <= (if bitSize =? 64 then 3 else 2) /\
    len t = (if s then 1 else 0) + prec + (if prec =? 0 then 3 else 4) + k.
Proof.
  intros w opt val fmt prec bitSize mb eb b s Hw Ha (s' & v' & Hx) Hf Hp.
  destruct (exp_size_ok _ _ _ _ _ _ Ha) as (Sm & Se & D & Y).
  destruct (abs_parts mb eb b s bitSize val v' Ha Sm Se (ex_intro _ s' Hx)) as (v & Hv & V0 & F).
  destruct (c51e w opt val fmt prec bitSize mb eb b s v Hw Ha Hv Hf Hp) as (t & fp & Et & Lf & Pr).
  pose proof (range_fixed mb eb v (prec + 1) (exp_size bitSize) Sm Se V0 F ltac:(lia) ltac:(lia) Y) as Rg.
  destruct (prints_e_size _ _ _ _ _ (exp_size bitSize) Pr ltac:(lia) Rg) as (k & Hk & E).
  exists t, k. split; [exact Et|]. split; [exact Hk|]. rewrite E, point_len.
  assert (S : len (sign_text s) = if s then 1 else 0) by (destruct s; reflexivity). rewrite S.
  destruct (Z.eqb_spec prec 0); destruct fp; cbn [length] in *; lia.
Qed.

Lemma sint_small w prec : w = 32 \/ w = 64 -> 0 <= prec < 2 ^ (w - 1) - 4 -> sint w (prec + 4) = prec + 4.
Proof.
  intros Hw H. assert (W2 : 2 ^ w = 2 * 2 ^ (w - 1)) by (destruct Hw as [-> | ->]; reflexivity).
  unfold sint. rewrite Z.mod_small by lia. lia.
Qed.

Lemma c100_e : forall grow limit w opt val fmt prec bitSize mb eb b s h, w = 32 \/ w = 64 ->
  as_float bitSize val mb eb b s -> (exists t v, ieee mb eb b = VNum t v) ->
  fmt = 101 \/ fmt = 69 -> 0 <= prec < 2 ^ (w - 1) - 4 -> Z.max (prec + 4) 24 <= limit ->
  exists t h', Slices.FormatFloat grow limit w opt val fmt prec bitSize h = Ret (t, h') /\
    (length h' = S (length h) <-> len t <= 24) /\ (20 <= prec -> 24 < len t).
Proof.
  intros grow limit w opt val fmt prec bitSize mb eb b s h Hw Ha Hx Hf Hp Hl.
  destruct (len_e_exactly w opt val fmt prec bitSize mb eb b s Hw Ha Hx Hf ltac:(lia)) as (t & k & E & Hk & L).
  rewrite <- (ClaimsArr.same_as w opt val fmt prec bitSize mb eb b s Hw Ha ltac:(lia)) in E.
  pose proof (sint_small w prec Hw Hp) as Sg.
  destruct (ClaimsSlice.c98_make grow limit w opt val fmt prec bitSize t h E ltac:(lia)) as (h' & G & _ & K & R1 & R2).
  exists t, h'. split; [exact G|]. rewrite Sg in *.
  assert (20 <= prec -> 24 < len t) by (intros; destruct s, (Z.eqb_spec prec 0); lia).
  split; [|assumption]. split.
  - intros Q. destruct (Z_le_gt_dec (len t) 24) as [|U]; [assumption|]. exfalso. assert (Z.max (prec + 4) 24 < len t) by (destruct s, (Z.eqb_spec prec 0); lia).
    specialize (R2 H0). lia.
  - intros Q. apply R1. lia.
Qed.

(** 'f': the digits before the point decide. *)
Lemma c100_f : forall grow limit w opt val prec bitSize mb eb b s v h, w = 32 \/ w = 64 ->
  as_float bitSize val mb eb b s -> ieee mb eb b = VNum s (sgnR s v) ->
  0 <= prec < 2 ^ (w - 1) - 4 -> Z.max (prec + 4) 24 <= limit ->
  exists t h', Slices.FormatFloat grow limit w opt val 102 prec bitSize h = Ret (t, h') /\
    (20 <= prec -> length h' = S (length h) <-> (round10 (- prec) v < if s then 100 else 1000)%R).
Proof.
  intros grow limit w opt val prec bitSize mb eb b s v h Hw Ha Hx Hp Hl.
  destruct (c51f w opt val prec bitSize mb eb b s v Hw Ha Hx ltac:(lia)) as (t & fp & E & Lf & Pr).
  rewrite <- (ClaimsArr.same_as w opt val 102 prec bitSize mb eb b s Hw Ha ltac:(lia)) in E.
  pose proof (sint_small w prec Hw Hp) as Sg.
  destruct (ClaimsSlice.c98_make grow limit w opt val 102 prec bitSize t h E ltac:(lia)) as (h' & G & _ & K & R1 & R2).
  exists t, h'. split; [exact G|]. rewrite Sg in *. intros P20. replace (Z.max (prec + 4) 24) with (prec + 4) in * by lia.
  destruct Pr as (ip & Et & Ni & Af & Ex). pose proof Ni as (N1 & N2 & N3).
  assert (Lt : len t = (if s then 1 else 0) + len ip + 1 + prec).
  { rewrite Et, !app_length, !Nat2Z.inj_add, point_len. assert (S : len (sign_text s) = if s then 1 else 0) by (destruct s; reflexivity). rewrite S.
    destruct fp; cbn [length] in *; lia. }
  pose proof (read_range 10 ip ltac:(lia) N2) as Ri. pose proof (read_range 10 fp ltac:(lia) Af) as Rf.
  assert (Li : 1 <= len ip) by (destruct ip; [contradiction|cbn [length]; lia]).
  assert (Fl : (IZR (read 10 ip) <= round10 (- prec) v < IZR (read 10 ip + 1))%R).
  { rewrite Ex, read_app. assert (I : (p10 (len fp) * p10 (- len fp) = 1)%R) by (rewrite <- p10_plus; replace (len fp + - len fp) with 0 by lia; apply p10_0).
    rewrite (p10_pow (len fp)) in I by lia. set (P := IZR (10 ^ len fp)) in *. set (Q := p10 (- len fp)) in *.
    assert (QP : (0 < Q)%R) by apply p10_pos. destruct Rf as [F1 F2]. apply IZR_le in F1. apply IZR_lt in F2. fold P in F2.
    rewrite !plus_IZR, mult_IZR. fold P. replace ((IZR (read 10 ip) * P + IZR (read 10 fp)) * Q)%R with (IZR (read 10 ip) + IZR (read 10 fp) * Q)%R by (rewrite Rmult_plus_distr_r, Rmult_assoc, I; ring).
    split; nra. }
  assert (A : forall n, 1 <= n -> (len ip <= n <-> (round10 (- prec) v < IZR (10 ^ n))%R)).
  { intros n Hn. split.
    - intros Q. apply Rlt_le_trans with (1 := proj2 Fl). apply IZR_le. pose proof (Z.pow_le_mono_r 10 (len ip) n ltac:(lia) Q). lia.
    - intros Q. apply (numeral_len ip n Ni Hn). apply lt_IZR. lra. }
  assert (B : length h' = S (length h) <-> len t <= prec + 4).
  { split; [intros Q|exact R1]. destruct (Z_le_gt_dec (len t) (prec + 4)) as [|U]; [assumption|]. assert (prec + 4 < len t) as U' by lia. specialize (R2 U'). lia. }
  rewrite B. destruct s.
  - rewrite <- (A 2) by lia. lia.
  - rewrite <- (A 3) by lia. lia.
Qed.
