(** Lemmas for C100: the length of the texts of a fixed precision. *)
From Coq Require Import ZArith Lia Bool List Reals Lra.
From Flocq Require Import Core.
From Verif Require Import GoBase Spec SpecText SpecDec SpecFtoa BitFacts RoundFacts BigFacts2 ItoaFacts DecFacts DecFacts2 FloatMid PkgExact ClaimsFloat2 ClaimsRead ClaimsFtoa2 ClaimsChain.
From Verif Require Import Ftoa SpecFmt.
Import ListNotations.
Open Scope Z_scope.

Local Notation len l := (Z.of_nat (length l)).

From Verif Require Import ClaimsLen ClaimsFtoa ClaimsFtoa2 FtoaAll.
From Verif Require ClaimsArr ClaimsSlice Slices FtoaArr.
Import SpecFmt.

Lemma prints_f_len2 ng fp x s n q : 1 <= q -> prints_f ng fp x s -> no_zero_end fp -> 1 <= n -> sig_digits n x ->
  x = 0%R \/ (p10 (-4) <= x < p10 q)%R -> len s <= Z.max (q + 1) (n + 6).
Proof.
  intros Hq (ip & -> & Ni & Af & Ex) Hend Hn Hs Hr. pose proof Ni as (N1 & N2 & N3).
  assert (A : all_digits 10 (ip ++ fp)) by (apply Forall_app; split; assumption).
  pose proof (read_range 10 ip ltac:(lia) N2) as Ri. pose proof (read_range 10 fp ltac:(lia) Af) as Rf.
  pose proof (sign_len ng). rewrite !app_length.
  destruct fp as [|f0 f] eqn:Ef.
  - cbn [point length]. rewrite app_nil_r in Ex. cbn [length Z.of_nat Z.opp] in Ex. rewrite p10_0, Rmult_1_r in Ex.
    assert (len ip <= q); [|lia]. destruct (Z_le_gt_dec (len ip) q) as [|K]; [assumption|]. exfalso.
    assert (hd 48 ip <> 48). { intros E. destruct ip as [|c t]; [contradiction|]. cbn [hd] in E. specialize (N3 E). rewrite N3 in K. cbn in K. lia. }
    pose proof (digits_at_least ip N2 H0 N1) as G. pose proof (Z.pow_le_mono_r 10 q (len ip - 1) ltac:(lia) ltac:(lia)) as G2. pose proof (pow10_pos q ltac:(lia)) as G3. apply IZR_lt in G3. cbn in G3.
    assert (IZR (10 ^ q) <= x)%R by (rewrite Ex; apply IZR_le; lia). rewrite (p10_pow q) in Hr by lia. destruct Hr as [Hr|[_ Hr]]; lra.
  - rewrite <- Ef in *. assert (Nf : fp <> []) by (rewrite Ef; discriminate).
    assert (Lp : len (point fp) = len fp + 1) by (rewrite point_len, Ef; reflexivity).
    assert (Hm : read 10 (ip ++ fp) mod 10 <> 0).
    { apply last_digit; [intros E; apply app_eq_nil in E; tauto|exact A|]. unfold no_zero_end in Hend.
      destruct (exists_last Nf) as (l' & z & El). rewrite El in *. rewrite app_assoc, last_last. rewrite last_last in Hend. exact Hend. }
    assert (P0 : 0 < read 10 (ip ++ fp)).
    { pose proof (read_range 10 (ip ++ fp) ltac:(lia) A). destruct (Z.eq_dec (read 10 (ip ++ fp)) 0) as [E|]; [|lia]. rewrite E in Hm. exfalso. apply Hm. reflexivity. }
    pose proof (sig_cut _ _ n x Ex P0 Hm ltac:(lia) Hs) as C. rewrite read_app in C.
    destruct (Z.eq_dec (hd 48 ip) 48) as [E|E].
    + assert (ip = [48]) by (destruct ip as [|c t]; [contradiction|]; cbn [hd] in E; apply N3; exact E). subst ip. cbn [length].
      change (read 10 [48]) with 0 in C. assert (len fp <= n + 3); [|lia]. destruct (Z_le_gt_dec (len fp) (n + 3)) as [|K]; [assumption|]. exfalso.
      assert (R1 : (p10 (-4) <= x)%R).
      { destruct Hr as [Hr|[Hr _]]; [|exact Hr]. exfalso. rewrite Hr in Ex. symmetry in Ex. apply Rmult_integral in Ex. pose proof (p10_pos (- len fp)). destruct Ex as [Ex|Ex]; [|lra]. apply eq_IZR in Ex. lia. }
      rewrite Ex in R1. apply Rmult_le_compat_r with (r := p10 (len fp)) in R1; [|apply Rlt_le, p10_pos].
      rewrite Rmult_assoc, <- !p10_plus in R1. replace (- len fp + len fp) with 0 in R1 by lia. rewrite p10_0, Rmult_1_r in R1.
      rewrite p10_pow in R1 by lia. apply le_IZR in R1. rewrite read_app in R1. change (read 10 [48]) with 0 in R1.
      pose proof (Z.pow_le_mono_r 10 n (-4 + len fp) ltac:(lia) ltac:(lia)). lia.
    + pose proof (digits_at_least ip N2 E N1) as G. assert (1 <= len ip) by (destruct ip; [contradiction|cbn [length]; lia]).
      assert (10 ^ (len ip - 1 + len fp) <= read 10 ip * 10 ^ len fp) by (rewrite Z.pow_add_r by lia; apply Z.mul_le_mono_nonneg_r; [apply Z.pow_nonneg; lia|exact G]).
      assert (len ip + len fp <= n); [|lia]. destruct (Z_le_gt_dec (len ip + len fp) n) as [|K]; [assumption|]. exfalso.
      pose proof (Z.pow_le_mono_r 10 n (len ip - 1 + len fp) ltac:(lia) ltac:(lia)). lia.
Qed.

Lemma sig_round_range n v a b : 1 <= n -> (p10 a <= v < p10 b)%R -> (p10 a <= sig_round n v <= p10 b)%R.
Proof.
  intros Hn [H1 H2]. assert (P : Prec_gt_0 n) by (unfold Prec_gt_0; lia). unfold sig_round.
  assert (G : forall e, generic_format radix10 (FLX_exp n) (p10 e)).
  { intros e. apply generic_format_bpow. unfold FLX_exp. lia. }
  split.
  - apply round_ge_generic; [apply FLX_exp_valid; exact P|apply valid_rnd_N|apply G|exact H1].
  - apply round_le_generic; [apply FLX_exp_valid; exact P|apply valid_rnd_N|apply G|lra].
Qed.

(** The decimal exponent of a rounded float. *)
Lemma range_fixed mb eb v n d : 1 <= mb -> 2 <= eb -> (0 <= v)%R -> fits mb eb v -> 1 <= n -> 0 <= d ->
  2 ^ (2 ^ (eb - 1) + mb - 1) <= 10 ^ (10 ^ d - 1) ->
  sig_round n v = 0%R \/ (p10 (1 - 10 ^ d) <= sig_round n v < p10 (10 ^ d))%R.
Proof.
  intros Hm He V0 F Hn Hd Y. destruct (Req_dec v 0) as [E|E]; [left; rewrite E; unfold sig_round; apply round_0, valid_rnd_N|right].
  assert (Rv : rn mb eb v = v) by (apply BigFacts2.fits_rn; try assumption; lia).
  destruct (reads_range mb eb v v Hm He ltac:(lra) F Rv) as [R1 R2].
  pose proof (pow10_pos d Hd). pose proof (pow2_pos (eb - 1) ltac:(lia)).
  destruct (p2_p10 (10 ^ d - 1) (2 ^ (eb - 1) + mb - 1) ltac:(lia) ltac:(lia) Y) as [Q1 Q2].
  replace (- (10 ^ d - 1)) with (1 - 10 ^ d) in Q1 by lia.
  replace (- (2 ^ (eb - 1) + mb - 1)) with (1 - 2 ^ (eb - 1) - mb) in Q1 by lia.
  assert (p2 (2 ^ (eb - 1)) <= p2 (2 ^ (eb - 1) + mb - 1))%R by (apply p2_le; lia).
  destruct (sig_round_range n v (1 - 10 ^ d) (10 ^ d - 1) Hn ltac:(lra)) as [S1 S2].
  assert (p10 (10 ^ d - 1) < p10 (10 ^ d))%R by (apply bpow_lt; lia). lra.
Qed.

Lemma abs_parts mb eb b s bitSize val v' : as_float bitSize val mb eb b s -> (1 <= mb) -> (2 <= eb) -> (exists t, ieee mb eb b = VNum t v') ->
  exists v, ieee mb eb b = VNum s (sgnR s v) /\ (0 <= v)%R /\ fits mb eb v.
Proof.
  intros Ha Sm Se (s' & Hx).
  assert (Hb : 0 <= b < 2 ^ (mb + eb + 1)) by apply Ha.
  assert (Es : s' = s).
  { destruct Ha as (_ & _ & u & _ & Hr & _). rewrite Hx in Hr. unfold ieee_round in Hr. destruct (Rle_bool _ _); [discriminate|]. congruence. }
  subst s'. destruct (fits_ieee mb eb b s v' ltac:(lia) Se Hb Hx) as [F Sg].
  exists (Rabs v'). split; [|split; [apply Rabs_pos|]].
  - rewrite Hx. f_equal. destruct Sg as [->|Sg]; [|exact Sg]. rewrite Rabs_R0. destruct s; cbn [sgnR]; ring.
  - destruct F as [(M & c & E & HM & Hcc) F]. split; [|rewrite Rabs_Rabsolu; exact F]. exists (Z.abs M), c. split; [|split; [rewrite Z.abs_involutive; exact HM|exact Hcc]].
    rewrite E, Rabs_mult, <- abs_IZR. f_equal. apply Rabs_pos_eq, Rlt_le, p2_pos.
Qed.

(** Digits of the exponent: three for 64 bits, two otherwise. *)
Definition exp_size (bitSize : Z) : Z := if bitSize =? 64 then 3 else 2.

Lemma exp_size_ok bitSize val mb eb b s : as_float bitSize val mb eb b s ->
  1 <= mb /\ 2 <= eb /\ 2 <= exp_size bitSize <= 3 /\ 2 ^ (2 ^ (eb - 1) + mb - 1) <= 10 ^ (10 ^ exp_size bitSize - 1).
Proof.
  intros Ha. unfold exp_size. destruct (as_float_size _ _ _ _ _ _ Ha) as [(-> & -> & ->)|[(-> & -> & ->)|(-> & -> & ->)]];
    cbn [Z.eqb Pos.eqb]; repeat split; try lia; vm_compute; congruence.
Qed.

Lemma len_e : forall w opt val fmt prec bitSize mb eb b s, w = 32 \/ w = 64 ->
  as_float bitSize val mb eb b s -> (exists t v, ieee mb eb b = VNum t v) ->
  fmt = 101 \/ fmt = 69 -> 0 <= prec < 2 ^ (w - 1) - 1 ->
  exists t, Ftoa.FormatFloat w opt val fmt prec bitSize = Ret t /\
    len t <= prec + 5 + (if bitSize =? 64 then 3 else 2).
Proof.
  intros w opt val fmt prec bitSize mb eb b s Hw Ha (s' & v' & Hx) Hf Hp.
  destruct (exp_size_ok _ _ _ _ _ _ Ha) as (Sm & Se & D & Y).
  destruct (abs_parts mb eb b s bitSize val v' Ha Sm Se (ex_intro _ s' Hx)) as (v & Hv & V0 & F).
  destruct (c51e w opt val fmt prec bitSize mb eb b s v Hw Ha Hv Hf Hp) as (t & fp & Et & Lf & Pr).
  exists t. split; [exact Et|].
  pose proof (range_fixed mb eb v (prec + 1) (exp_size bitSize) Sm Se V0 F ltac:(lia) ltac:(lia) Y) as Rg.
  destruct (prints_e_size _ _ _ _ _ (exp_size bitSize) Pr ltac:(lia) Rg) as (k & Hk & E).
  pose proof (sign_len s). rewrite point_len in E. change (if bitSize =? 64 then 3 else 2) with (exp_size bitSize).
  destruct fp; cbn [length] in *; lia.
Qed.

Lemma len_g : forall w opt val fmt prec bitSize mb eb b s, w = 32 \/ w = 64 ->
  as_float bitSize val mb eb b s -> (exists t v, ieee mb eb b = VNum t v) ->
  fmt = 103 \/ fmt = 71 -> 0 <= prec ->
  exists t, Ftoa.FormatFloat w opt val fmt prec bitSize = Ret t /\
    len t <= Z.max prec 1 + 4 + (if bitSize =? 64 then 3 else 2).
Proof.
  intros w opt val fmt prec bitSize mb eb b s Hw Ha (s' & v' & Hx) Hf Hp.
  destruct (exp_size_ok _ _ _ _ _ _ Ha) as (Sm & Se & D & Y).
  destruct (abs_parts mb eb b s bitSize val v' Ha Sm Se (ex_intro _ s' Hx)) as (v & Hv & V0 & F).
  destruct (c51g w opt val fmt prec bitSize mb eb b s v Hw Ha Hv Hf Hp) as (t & fp & Et & Ne & Pr).
  exists t. split; [exact Et|].
  set (n := Z.max prec 1) in *.
  pose proof (range_fixed mb eb v n (exp_size bitSize) Sm Se V0 F ltac:(lia) ltac:(lia) Y) as Rg.
  assert (Sd : sig_digits n (sig_round n v)) by (apply sig_digits_round; lia).
  change (if bitSize =? 64 then 3 else 2) with (exp_size bitSize).
  set (x := sig_round n v) in *. destruct Pr as [G1 G2].
  destruct (Req_dec x 0) as [X0|X0].
  - pose proof (prints_f_len2 s fp x t n n ltac:(lia) (G1 (or_introl X0)) Ne ltac:(lia) Sd (or_introl X0)). lia.
  - destruct Rg as [Rg|Rg]; [contradiction|].
    assert (Xp : (0 < x)%R) by (pose proof (p10_pos (1 - 10 ^ exp_size bitSize)); lra).
    destruct (Rlt_le_dec x (p10 (-4))) as [L|L].
    + apply (prints_e_len (fmt - 2) s fp x); try assumption; try lia; [|right; exact Rg]. apply G2. left. split; assumption.
    + destruct (Rlt_le_dec x (p10 n)) as [L2|L2].
      * pose proof (prints_f_len2 s fp x t n n ltac:(lia) (G1 (or_intror (conj L L2))) Ne ltac:(lia) Sd (or_intror (conj L L2))). lia.
      * apply (prints_e_len (fmt - 2) s fp x); try assumption; try lia; [|right; exact Rg]. apply G2. right. split; assumption.
Qed.

Lemma c100 : forall grow limit w opt val fmt prec bitSize mb eb b s h, w = 32 \/ w = 64 ->
  as_float bitSize val mb eb b s -> (exists t v, ieee mb eb b = VNum t v) ->
  fmt = 101 \/ fmt = 69 \/ fmt = 103 \/ fmt = 71 -> 24 <= limit ->
  - 2 ^ (w - 1) <= prec <= 16 + (if bitSize =? 64 then 0 else 1) + (if (fmt =? 103) || (fmt =? 71) then 1 else 0) ->
  exists t h', Slices.FormatFloat grow limit w opt val fmt prec bitSize h = Ret (t, h') /\
    length h' = S (length h) /\ forall a, (a < length h)%nat -> nth a h' [] = nth a h [].
Proof.
  intros grow limit w opt val fmt prec bitSize mb eb b s h Hw Ha Hx Hf Hl Hp.
  assert (W : 2 ^ (w - 1) = 2147483648 \/ 2 ^ (w - 1) = 9223372036854775808) by (destruct Hw as [-> | ->]; cbn; lia).
  assert (Pm : prec <= 18) by (destruct (bitSize =? 64), ((fmt =? 103) || (fmt =? 71)); lia).
  assert (T : exists t, Ftoa.FormatFloat w opt val fmt prec bitSize = Ret t /\ len t <= 24).
  { destruct (Z_lt_le_dec prec 0) as [N|N].
    - destruct (c91 w opt val fmt prec bitSize mb eb b s Hw Ha Hx Hf N) as (t & E & L). exists t. split; [exact E|].
      unfold max_len in L. destruct (bitSize =? 64), (bitSize =? 32); lia.
    - destruct (Z_lt_le_dec fmt 103) as [F|F]; [destruct (Z_lt_le_dec fmt 72) as [F2|F2]; [destruct (Z_lt_le_dec fmt 70) as [F3|F3]|]|].
      + destruct (len_e w opt val fmt prec bitSize mb eb b s Hw Ha Hx ltac:(lia) ltac:(lia)) as (t & E & L).
        exists t. split; [exact E|]. replace ((fmt =? 103) || (fmt =? 71)) with false in Hp by lia. destruct (bitSize =? 64); lia.
      + destruct (len_g w opt val fmt prec bitSize mb eb b s Hw Ha Hx ltac:(lia) ltac:(lia)) as (t & E & L).
        exists t. split; [exact E|]. replace ((fmt =? 103) || (fmt =? 71)) with true in Hp by lia. destruct (bitSize =? 64); lia.
      + destruct (len_e w opt val fmt prec bitSize mb eb b s Hw Ha Hx ltac:(lia) ltac:(lia)) as (t & E & L).
        exists t. split; [exact E|]. replace ((fmt =? 103) || (fmt =? 71)) with false in Hp by lia. destruct (bitSize =? 64); lia.
      + destruct (len_g w opt val fmt prec bitSize mb eb b s Hw Ha Hx ltac:(lia) ltac:(lia)) as (t & E & L).
        exists t. split; [exact E|]. replace ((fmt =? 103) || (fmt =? 71)) with true in Hp by lia. destruct (bitSize =? 64); lia. }
  destruct T as (t & E & L).
  rewrite <- (ClaimsArr.same_as w opt val fmt prec bitSize mb eb b s Hw Ha ltac:(lia)) in E.
  assert (Sg : sint w (prec + 4) <= 24).
  { assert (W2 : 2 ^ w = 2 * 2 ^ (w - 1)) by (destruct Hw as [-> | ->]; reflexivity).
    unfold sint. rewrite Z.mod_small by lia. lia. }
  destruct (ClaimsSlice.c98_make grow limit w opt val fmt prec bitSize t h E ltac:(lia)) as (h' & G & _ & K & R1 & _).
  exists t, h'. split; [exact G|]. split; [apply R1; lia|exact K].
Qed.

Lemma c100_refuted : forall grow h, exists t h',
  Slices.FormatFloat grow (2 ^ 48) 64 true 0xD4C0000000000000 101 17 64 h = Ret (t, h') /\
  t = [45; 49; 46; 55; 52; 57; 56; 48; 48; 53; 55; 57; 56; 50; 54; 52; 48; 57; 53; 52; 101; 43; 49; 48; 48] /\
  (S (length h) < length h')%nat.
Proof.
  intros grow h.
  assert (E : FtoaArr.FormatFloat 64 true 0xD4C0000000000000 101 17 64 =
    Ret [45; 49; 46; 55; 52; 57; 56; 48; 48; 53; 55; 57; 56; 50; 54; 52; 48; 57; 53; 52; 101; 43; 49; 48; 48]).
  { rewrite ClaimsArr.same by (auto; intros; reflexivity || (cbn; lia)). vm_compute. reflexivity. }
  destruct (ClaimsSlice.c98_make grow (2 ^ 48) 64 true _ 101 17 64 _ h E) as (h' & G & _ & _ & _ & R).
  { vm_compute. congruence. }
  eexists; exists h'. split; [exact G|]. split; [reflexivity|]. apply R. vm_compute. reflexivity.
Qed.
