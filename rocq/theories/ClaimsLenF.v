(** Lemmas for C104: the length of the texts in plain notation. *)
From Coq Require Import ZArith Lia Bool List Reals Lra.
From Flocq Require Import Core.
From Verif Require Import GoBase Spec SpecText SpecDec SpecFtoa BitFacts RoundFacts BigFacts2 ItoaFacts DecFacts DecFacts2 FloatMid PkgExact ClaimsFloat2 ClaimsRead ClaimsFtoa2 ClaimsChain.
From Verif Require Import Ftoa SpecFmt.
Import ListNotations.
Open Scope Z_scope.

Local Notation len l := (Z.of_nat (length l)).

From Verif Require Import ClaimsLen ClaimsFtoa ClaimsFtoa2 FtoaAll ClaimsAlloc.
Import SpecFmt.

(** What lies between two numbers that round to v rounds to v. *)
Lemma rn_between mb eb v x y z : 1 <= mb -> rn mb eb x = v -> rn mb eb z = v -> (x <= y <= z)%R -> rn mb eb y = v.
Proof.
  intros Hm Rx Rz [H1 H2]. apply (rn_mono mb eb) in H1; [|exact Hm]. apply (rn_mono mb eb) in H2; [|exact Hm]. lra.
Qed.

(** Half the least denormal on both sides of a float rounds to it. *)
Lemma rn_least mb eb v y : 1 <= mb -> 2 <= eb -> (0 < v)%R -> fits mb eb v ->
  (Rabs (y - v) < p2 (1 - 2 ^ (eb - 1) - mb))%R -> rn mb eb y = v.
Proof.
  intros Hm He Hv F H. destruct (fits_parts mb eb v Hm He (Rlt_le _ _ Hv) F) as (mt & e & Hp & E).
  assert (N : 0 < mt).
  { apply lt_IZR. apply Rnot_le_lt. intros L. pose proof (p2_pos (e - mb)). assert (IZR mt * p2 (e - mb) <= 0)%R by nra. lra. }
  assert (Ee : 2 - 2 ^ (eb - 1) <= e) by (destruct Hp as [[? ?]|[? ?]]; lia).
  pose proof (parts_weaken _ _ _ _ Hp) as Hp0.
  assert (K : (mid_lo mb eb v < y < mid_hi mb eb v)%R).
  { rewrite E. rewrite (mid_hi_val mb eb Hm He mt e Hp0 N), (mid_lo_val mb eb Hm He mt e Hp0 N). rewrite <- E.
    apply Rabs_lt_inv in H. assert (p2 (1 - 2 ^ (eb - 1) - mb) <= p2 (e - mb - 1))%R by (apply p2_le; lia).
    destruct ((mt =? 2 ^ mb) && negb (e =? 2 - 2 ^ (eb - 1))) eqn:Q; [|lra].
    apply andb_prop in Q. destruct Q as [_ Q]. apply negb_true_iff, Z.eqb_neq in Q.
    assert (p2 (1 - 2 ^ (eb - 1) - mb) <= p2 (e - mb - 2))%R by (apply p2_le; lia). lra. }
  rewrite E in K |- *. apply (reads_back mb eb Hm He mt e Hp0 N); [lra|left; exact K].
Qed.

Lemma sig_pos n x : (0 < x)%R -> sig_digits n x -> 1 <= n.
Proof.
  intros Hx (M & e & E & HM). destruct (Z_le_gt_dec 1 n) as [|L]; [assumption|]. exfalso.
  assert (M <> 0) by (intros ->; rewrite Rmult_0_l in E; lra).
  destruct (Z.eq_dec n 0) as [->|]; [change (10 ^ 0) with 1 in HM; lia|]. rewrite Z.pow_neg_r in HM by lia. lia.
Qed.

Lemma sig_one n M e : 1 <= n -> Z.abs M < 10 -> sig_digits n (IZR M * p10 e).
Proof.
  intros Hn H. exists M, e. split; [reflexivity|]. pose proof (Z.pow_le_mono_r 10 1 n ltac:(lia) Hn). change (10 ^ 1) with 10 in *. lia.
Qed.

Lemma p10_between m x z : (0 < x)%R -> (0 < z)%R -> (x < p10 m <= z)%R \/ (p10 m <= x)%R \/ (z < p10 m)%R.
Proof. intros. destruct (Rlt_le_dec x (p10 m)); [|right; left; assumption]. destruct (Rlt_le_dec z (p10 m)); [right; right; assumption|left; split; assumption]. Qed.

(** The last digit of the shortest decimal is not below the K-th place, if 10^-K is less than the least denormal. *)
Lemma last_place mb eb v x K N k : 1 <= mb -> 2 <= eb -> (0 < v)%R -> fits mb eb v -> shortest_digits mb eb v x ->
  0 <= K -> 2 ^ (2 ^ (eb - 1) + mb - 2) < 10 ^ K ->
  x = (IZR N * p10 k)%R -> N mod 10 <> 0 -> - K <= k.
Proof.
  intros Hm He Hv F (Sx & Rx & Few & Ch) HK HP Ex HN.
  destruct (Z_le_gt_dec (- K) k) as [|Hk]; [assumption|exfalso].
  pose proof (pow2_pos (eb - 1) ltac:(lia)) as P1.
  set (h := p2 (1 - 2 ^ (eb - 1) - mb)).
  assert (Eh : p2 (- (2 ^ (eb - 1) + mb - 2)) = (2 * h)%R).
  { unfold h. replace (1 - 2 ^ (eb - 1) - mb) with (- (2 ^ (eb - 1) + mb - 2) - 1) by lia. rewrite p2_half. lra. }
  assert (HD : (p10 (- K) < 2 * h)%R).
  { rewrite <- Eh. unfold p10, p2. rewrite !bpow_opp. apply Rinv_lt_contravar; [apply Rmult_lt_0_compat; apply bpow_gt_0|].
    change (p2 (2 ^ (eb - 1) + mb - 2) < p10 K)%R. rewrite <- IZR_pow2, p10_pow by lia. apply IZR_lt, HP. }
  pose proof (p10_pos (- K)) as PK. pose proof (p2_pos (1 - 2 ^ (eb - 1) - mb)) as Ph. fold h in Ph.
  (* v is at least the least denormal *)
  assert (V1 : (2 * h <= v)%R).
  { rewrite <- Eh. destruct (fits_parts mb eb v Hm He (Rlt_le _ _ Hv) F) as (mt & e & Hp & E).
    assert (M : 0 < mt). { apply lt_IZR. apply Rnot_le_lt. intros L. pose proof (p2_pos (e - mb)). assert (IZR mt * p2 (e - mb) <= 0)%R by nra. lra. }
    assert (Ee : 2 - 2 ^ (eb - 1) <= e) by (destruct Hp as [[? ?]|[? ?]]; lia). rewrite E.
    apply Rle_trans with (p2 (e - mb)); [apply p2_le; lia|]. pose proof (p2_pos (e - mb)). assert (1 <= IZR mt)%R by (apply IZR_le; lia). nra. }
  (* a multiple of 10^-K that rounds to v *)
  destruct (reads_range mb eb v x Hm He Hv F Rx) as [X1 _]. fold h in X1.
  assert (Xp : (0 < x)%R) by lra.
  assert (Np : 0 < N). { apply lt_IZR. apply Rnot_le_lt. intros L. pose proof (p10_pos k). assert (IZR N * p10 k <= 0)%R by nra. lra. }
  set (J := ZnearestE (v * p10 K)). set (z := (IZR J * p10 (- K))%R).
  assert (Zv : (Rabs (z - v) < h)%R).
  { pose proof (Znearest_half (fun x => negb (Z.even x)) (v * p10 K)) as Q. fold J in Q.
    assert (I : (p10 K * p10 (- K) = 1)%R) by (rewrite <- p10_plus; replace (K + - K) with 0 by lia; apply p10_0).
    unfold z. replace (IZR J * p10 (- K) - v)%R with ((IZR J - v * p10 K) * p10 (- K))%R by (rewrite Rmult_minus_distr_r, Rmult_assoc, I; ring).
    rewrite Rabs_mult, (Rabs_pos_eq (p10 (- K))) by lra. rewrite Rabs_minus_sym. pose proof (Rabs_pos (v * p10 K - IZR J)). nra. }
  assert (Rz : rn mb eb z = v) by (apply rn_least; assumption).
  assert (Zp : (0 < z)%R) by (apply Rabs_lt_inv in Zv; lra).
  assert (Jp : 0 < J). { apply lt_IZR. apply Rnot_le_lt. intros L. assert (IZR J * p10 (- K) <= 0)%R by nra. unfold z in Zp. lra. }
  assert (Zk : (p10 (- K) <= z)%R) by (unfold z; assert (1 <= IZR J)%R by (apply IZR_le; lia); nra).
  (* one digit is not enough *)
  assert (One : N < 10 -> False).
  { intros N10.
    assert (XK : (x < p10 (- K))%R).
    { rewrite Ex. apply Rlt_le_trans with (IZR 10 * p10 k)%R; [apply Rmult_lt_compat_r; [apply p10_pos|apply IZR_lt, N10]|].
      change 10 with (10 ^ 1). rewrite <- (p10_pow 1), <- p10_plus by lia. apply p10_le. lia. }
    assert (R1 : rn mb eb (p10 (- K)) = v) by (apply (rn_between mb eb v x (p10 (- K)) z); try assumption; lra).
    destruct Ch as [Ch _]. specialize (Ch).
    assert (S1 : forall n, 1 <= n -> sig_digits n x) by (intros n Hn; rewrite Ex; apply sig_one; [exact Hn|lia]).
    destruct (Ch) with (z := p10 (- K)) as [C _].
    - intros n _ Sn. apply S1. apply (sig_pos n (mid_hi mb eb v)); [|exact Sn].
      unfold mid_hi. assert (P : Prec_gt_0 (mb + 1)) by (unfold Prec_gt_0; lia).
      pose proof (succ_ge_id radix2 (fx mb eb) v). lra.
    - exact R1.
    - intros n Sn. rewrite <- (Rmult_1_l (p10 (- K))). apply (sig_one n 1); [apply (sig_pos n x Xp Sn)|lia].
    - rewrite !Rabs_left in C by lra. lra. }
  (* the powers of ten *)
  assert (D : forall m, ~ (x < p10 m <= z)%R /\ ~ (z < p10 m <= x)%R).
  { intros m. split; intros Q; apply One.
    - assert (R1 : rn mb eb (p10 m) = v) by (apply (rn_between mb eb v x (p10 m) z); try assumption; lra).
      change 10 with (10 ^ 1). apply (sig_cut N k 1 x); try assumption; try lia. apply (Few (p10 m)); [exact R1|].
      rewrite <- (Rmult_1_l (p10 m)). apply (sig_one 1 1); lia.
    - assert (R1 : rn mb eb (p10 m) = v) by (apply (rn_between mb eb v z (p10 m) x); try assumption; lra).
      change 10 with (10 ^ 1). apply (sig_cut N k 1 x); try assumption; try lia. apply (Few (p10 m)); [exact R1|].
      rewrite <- (Rmult_1_l (p10 m)). apply (sig_one 1 1); lia. }
  destruct (mag radix10 z) as [d Hd]. specialize (Hd ltac:(lra)). rewrite Rabs_pos_eq in Hd by lra.
  change (bpow radix10 (d - 1)) with (p10 (d - 1)) in Hd. change (bpow radix10 d) with (p10 d) in Hd.
  destruct (D (d - 1)) as [D1 _]. destruct (D d) as [_ D2].
  assert (X2 : (p10 (d - 1) <= x < p10 d)%R) by (split; apply Rnot_lt_le || apply Rnot_le_lt; lra).
  assert (DK : - K < d).
  { destruct (Z_le_gt_dec d (- K)) as [L|]; [|lia]. apply p10_le in L. lra. }
  assert (J10 : J < 10 ^ (d + K)).
  { apply lt_IZR. rewrite <- p10_pow by lia. apply Rmult_lt_reg_r with (p10 (- K)); [exact PK|]. rewrite <- p10_plus. replace (d + K + - K) with d by lia. fold z. lra. }
  assert (C : N < 10 ^ (d + K)).
  { apply (sig_cut N k (d + K) x); try assumption; try lia. apply (Few z); [exact Rz|]. exists J, (- K). split; [reflexivity|]. lia. }
  assert (IZR N * p10 k < p10 (d - 1))%R; [|lra].
  apply Rlt_le_trans with (p10 (d + K) * p10 k)%R.
  - apply Rmult_lt_compat_r; [apply p10_pos|]. rewrite p10_pow by lia. apply IZR_lt, C.
  - rewrite <- p10_plus. apply p10_le. lia.
Qed.

(** The bytes of a text in plain notation: K places after the point, q before it, n digits. *)
Lemma prints_f_len3 ng fp x s n q K : prints_f ng fp x s -> no_zero_end fp -> 1 <= n -> 1 <= q -> 0 <= K -> sig_digits n x ->
  (x < p10 q)%R -> (forall N k, x = (IZR N * p10 k)%R -> N mod 10 <> 0 -> - K <= k) ->
  len s <= Z.max (q + 1) (Z.max (n + 2) (K + 3)).
Proof.
  intros (ip & -> & Ni & Af & Ex) Hend Hn Hq HK Hs Hr HL. pose proof Ni as (N1 & N2 & N3).
  assert (A : all_digits 10 (ip ++ fp)) by (apply Forall_app; split; assumption).
  pose proof (read_range 10 ip ltac:(lia) N2) as Ri. pose proof (read_range 10 fp ltac:(lia) Af) as Rf.
  pose proof (sign_len ng). rewrite !app_length.
  destruct fp as [|f0 f] eqn:Ef.
  - cbn [point length]. rewrite app_nil_r in Ex. cbn [length Z.of_nat Z.opp] in Ex. rewrite p10_0, Rmult_1_r in Ex.
    assert (len ip <= q); [|lia]. destruct (Z_le_gt_dec (len ip) q) as [|G]; [assumption|]. exfalso.
    assert (hd 48 ip <> 48). { intros E. destruct ip as [|c t]; [contradiction|]. cbn [hd] in E. specialize (N3 E). rewrite N3 in G. cbn in G. lia. }
    pose proof (digits_at_least ip N2 H0 N1) as G1. pose proof (Z.pow_le_mono_r 10 q (len ip - 1) ltac:(lia) ltac:(lia)) as G2.
    assert (IZR (10 ^ q) <= x)%R by (rewrite Ex; apply IZR_le; lia). rewrite (p10_pow q) in Hr by lia. lra.
  - rewrite <- Ef in *. assert (Nf : fp <> []) by (rewrite Ef; discriminate).
    assert (Lp : len (point fp) = len fp + 1) by (rewrite point_len, Ef; reflexivity).
    assert (Hm : read 10 (ip ++ fp) mod 10 <> 0).
    { apply last_digit; [intros E; apply app_eq_nil in E; tauto|exact A|]. unfold no_zero_end in Hend.
      destruct (exists_last Nf) as (l' & z & El). rewrite El in *. rewrite app_assoc, last_last. rewrite last_last in Hend. exact Hend. }
    assert (P0 : 0 < read 10 (ip ++ fp)).
    { pose proof (read_range 10 (ip ++ fp) ltac:(lia) A). destruct (Z.eq_dec (read 10 (ip ++ fp)) 0) as [E|]; [|lia]. rewrite E in Hm. exfalso. apply Hm. reflexivity. }
    pose proof (HL _ _ Ex Hm) as LK.
    pose proof (sig_cut _ _ n x Ex P0 Hm ltac:(lia) Hs) as C. rewrite read_app in C.
    destruct (Z.eq_dec (hd 48 ip) 48) as [E|E].
    + assert (ip = [48]) by (destruct ip as [|c t]; [contradiction|]; cbn [hd] in E; apply N3; exact E). subst ip. cbn [length]. lia.
    + pose proof (digits_at_least ip N2 E N1) as G. assert (1 <= len ip) by (destruct ip; [contradiction|cbn [length]; lia]).
      assert (10 ^ (len ip - 1 + len fp) <= read 10 ip * 10 ^ len fp) by (rewrite Z.pow_add_r by lia; apply Z.mul_le_mono_nonneg_r; [apply Z.pow_nonneg; lia|exact G]).
      assert (len ip + len fp <= n); [|lia]. destruct (Z_le_gt_dec (len ip + len fp) n) as [|G3]; [assumption|]. exfalso.
      pose proof (Z.pow_le_mono_r 10 n (len ip - 1 + len fp) ltac:(lia) ltac:(lia)). lia.
Qed.

(** Places after the point and before it. *)
Definition low_place (bitSize : Z) : Z := if bitSize =? 64 then 324 else if bitSize =? 32 then 45 else 8.
Definition high_place (bitSize : Z) : Z := if bitSize =? 64 then 309 else if bitSize =? 32 then 39 else 5.

Lemma c104_places : forall w opt val fmt prec bitSize mb eb b s v, w = 32 \/ w = 64 ->
  as_float bitSize val mb eb b s -> ieee mb eb b = VNum s (sgnR s v) -> (0 <= v)%R -> fits mb eb v ->
  fmt = 101 \/ fmt = 69 \/ fmt = 102 \/ fmt = 103 \/ fmt = 71 -> prec < 0 ->
  exists x fp t, FormatFloat w opt val fmt prec bitSize = Ret t /\ prints_short fmt s fp x t /\ no_zero_end fp /\
    shortest_digits mb eb v x /\ forall N k, x = (IZR N * p10 k)%R -> N mod 10 <> 0 -> - low_place bitSize <= k.
Proof.
  intros w opt val fmt prec bitSize mb eb b s v Hw Ha Hx V0 F Hc Hp.
  destruct (c77 w opt val fmt prec bitSize mb eb b s v Hw Ha Hx Hc Hp) as (x & Sx & _ & fp & t & Et & Nz & Pr).
  exists x, fp, t. repeat (split; [assumption|]). intros N k Ex HN.
  destruct (Req_dec v 0) as [E|E].
  { exfalso. rewrite E in Sx. apply shortest_zero in Sx. rewrite Sx in Ex. symmetry in Ex. apply Rmult_integral in Ex. pose proof (p10_pos k). destruct Ex as [Ex|Ex]; [|lra].
    apply eq_IZR in Ex. subst N. apply HN. reflexivity. }
  destruct (as_float_size _ _ _ _ _ _ Ha) as [(-> & -> & ->)|[(-> & -> & ->)|(-> & -> & ->)]];
    (eapply last_place; [| | |exact F|exact Sx| | |exact Ex|exact HN]; [lia|lia|lra|unfold low_place; cbn [Z.eqb Pos.eqb]; lia|vm_compute; reflexivity]).
Qed.

Lemma c104 : forall w opt val prec bitSize mb eb b s, w = 32 \/ w = 64 ->
  as_float bitSize val mb eb b s -> (exists t v, ieee mb eb b = VNum t v) -> prec < 0 ->
  exists t, FormatFloat w opt val 102 prec bitSize = Ret t /\
    len t <= if bitSize =? 64 then 327 else if bitSize =? 32 then 48 else 11.
Proof.
  intros w opt val prec bitSize mb eb b s Hw Ha (s' & v' & Hx) Hp.
  destruct (exp_size_ok _ _ _ _ _ _ Ha) as (Sm & Se & _ & _).
  destruct (abs_parts mb eb b s bitSize val v' Ha Sm Se (ex_intro _ s' Hx)) as (v & Hv & V0 & F).
  destruct (c104_places w opt val 102 prec bitSize mb eb b s v Hw Ha Hv V0 F ltac:(tauto) Hp) as (x & fp & t & Et & Pr & Nz & Sx & L).
  exists t. split; [exact Et|].
  assert (Pf : prints_f s fp x t) by (destruct Pr as [(? & _)|[(_ & P)|(? & _)]]; [lia|exact P|lia]).
  set (n := max_len bitSize - (if bitSize =? 64 then 7 else 6)).
  assert (Cs : 1 <= n /\ 2 ^ (mb + 1) < 10 ^ (n - 1) /\ 1 <= high_place bitSize /\ 0 <= low_place bitSize /\ 2 ^ 2 ^ (eb - 1) <= 10 ^ high_place bitSize /\
    Z.max (high_place bitSize + 1) (Z.max (n + 2) (low_place bitSize + 3)) = if bitSize =? 64 then 327 else if bitSize =? 32 then 48 else 11).
  { unfold n, max_len, high_place, low_place. destruct (as_float_size _ _ _ _ _ _ Ha) as [(-> & -> & ->)|[(-> & -> & ->)|(-> & -> & ->)]]; cbn [Z.eqb Pos.eqb]; repeat split; try lia; vm_compute; congruence. }
  destruct Cs as (C1 & C2 & C3 & C4 & C5 & C6). rewrite <- C6.
  apply (prints_f_len3 s fp x); try assumption.
  - apply (shortest_max mb eb n v x); assumption.
  - destruct (Req_dec v 0) as [E|E].
    + rewrite E in Sx. apply shortest_zero in Sx. rewrite Sx. apply p10_pos.
    + destruct (reads_range mb eb v x Sm Se ltac:(lra) F ltac:(apply Sx)) as [_ R]. apply Rlt_le_trans with (1 := R).
      pose proof (pow2_pos (eb - 1) ltac:(lia)). rewrite <- IZR_pow2, p10_pow by lia. apply IZR_le, C5.
Qed.

(** * A fixed number of places *)
Lemma round10_top q p v : 0 <= q -> 0 <= p -> (v <= IZR q)%R -> (round10 (- p) v <= IZR q)%R.
Proof.
  intros Hq Hp H. apply Rle_trans with (round10 (- p) (IZR q)); [apply round10_mono, H|].
  replace (IZR q) with (IZR (q * 10 ^ p) * p10 (- p))%R.
  - rewrite round10_id. apply Rle_refl.
  - rewrite mult_IZR, <- p10_pow, Rmult_assoc, <- p10_plus by lia. replace (p + - p) with 0 by lia. rewrite p10_0. ring.
Qed.

Lemma c104_fixed : forall w opt val prec bitSize mb eb b s, w = 32 \/ w = 64 ->
  as_float bitSize val mb eb b s -> (exists t v, ieee mb eb b = VNum t v) -> 0 <= prec < 2 ^ (w - 1) ->
  exists t, FormatFloat w opt val 102 prec bitSize = Ret t /\
    prec + (if prec =? 0 then 1 else 2) <= len t <=
      (if bitSize =? 64 then 310 else if bitSize =? 32 then 40 else 6) + prec + (if prec =? 0 then 0 else 1).
Proof.
  intros w opt val prec bitSize mb eb b s Hw Ha (s' & v' & Hx) Hp.
  destruct (exp_size_ok _ _ _ _ _ _ Ha) as (Sm & Se & _ & _).
  destruct (abs_parts mb eb b s bitSize val v' Ha Sm Se (ex_intro _ s' Hx)) as (v & Hv & V0 & F).
  destruct (c51f w opt val prec bitSize mb eb b s v Hw Ha Hv Hp) as (t & fp & Et & Lf & ip & Eq & Ni & Af & Ex).
  exists t. split; [exact Et|]. pose proof Ni as (N1 & N2 & N3).
  pose proof (pow2_pos (eb - 1) ltac:(lia)) as P1.
  assert (Top : (round10 (- prec) v <= IZR (2 ^ 2 ^ (eb - 1)))%R).
  { apply round10_top; [apply Z.pow_nonneg; lia|lia|]. rewrite IZR_pow2 by lia. destruct F as [_ F]. rewrite Rabs_pos_eq in F by exact V0. lra. }
  assert (C : 2 ^ 2 ^ (eb - 1) < 10 ^ high_place bitSize /\ 1 <= high_place bitSize).
  { unfold high_place. destruct (as_float_size _ _ _ _ _ _ Ha) as [(-> & -> & ->)|[(-> & -> & ->)|(-> & -> & ->)]]; cbn [Z.eqb Pos.eqb]; split; try lia; vm_compute; reflexivity. }
  destruct C as [C C1].
  assert (Li : 1 <= len ip) by (destruct ip; [contradiction|cbn [length]; lia]).
  assert (I : len ip <= high_place bitSize).
  { destruct (Z_le_gt_dec (len ip) (high_place bitSize)) as [|G]; [assumption|]. exfalso.
    assert (hd 48 ip <> 48). { intros E. destruct ip as [|c r]; [contradiction|]. cbn [hd] in E. specialize (N3 E). rewrite N3 in G. cbn [length Z.of_nat] in G. change (Z.of_nat 1) with 1 in G. lia. }
    pose proof (digits_at_least ip N2 H N1) as G1. pose proof (Z.pow_le_mono_r 10 (high_place bitSize) (len ip - 1) ltac:(lia) ltac:(lia)) as G2.
    assert (Ri : (IZR (read 10 ip) <= round10 (- prec) v)%R).
    { rewrite Ex, read_app. pose proof (read_range 10 fp ltac:(lia) Af) as Rf. rewrite Lf in *.
      apply Rle_trans with (IZR (read 10 ip * 10 ^ prec) * p10 (- prec))%R.
      - rewrite mult_IZR, <- p10_pow, Rmult_assoc, <- p10_plus by lia. replace (prec + - prec) with 0 by lia. rewrite p10_0. lra.
      - apply Rmult_le_compat_r; [apply Rlt_le, p10_pos|]. apply IZR_le. lia. }
    assert (Q : (IZR (read 10 ip) <= IZR (2 ^ 2 ^ (eb - 1)))%R) by lra. apply le_IZR in Q. lia. }
  subst t. rewrite !app_length. pose proof (sign_len s) as SL. assert (S0 : 0 <= len (sign_text s)) by lia.
  assert (E : len (point fp) = prec + (if prec =? 0 then 0 else 1)).
  { rewrite point_len. destruct fp; cbn [length] in *; destruct (Z.eqb_spec prec 0); lia. }
  assert (H310 : (if bitSize =? 64 then 310 else if bitSize =? 32 then 40 else 6) = high_place bitSize + 1).
  { unfold high_place. destruct (bitSize =? 64); [reflexivity|]. destruct (bitSize =? 32); reflexivity. }
  rewrite H310. destruct (prec =? 0); lia.
Qed.

(** * The binary format *)
Lemma numeral_len l n : numeral 10 l -> 1 <= n -> read 10 l < 10 ^ n -> len l <= n.
Proof.
  intros (N1 & N2 & N3) Hn H. destruct (Z_le_gt_dec (len l) n) as [|G]; [assumption|]. exfalso.
  assert (hd 48 l <> 48). { intros E. destruct l as [|c r]; [contradiction|]. cbn [hd] in E. specialize (N3 E). rewrite N3 in G. cbn [length] in G. lia. }
  pose proof (digits_at_least l N2 H0 N1). pose proof (Z.pow_le_mono_r 10 n (len l - 1) ltac:(lia) ltac:(lia)). lia.
Qed.

Lemma c104_b : forall w opt val prec bitSize mb eb b s, w = 32 \/ w = 64 ->
  as_float bitSize val mb eb b s -> (exists t v, ieee mb eb b = VNum t v) ->
  exists t, FormatFloat w opt val 98 prec bitSize = Ret t /\
    len t <= if bitSize =? 64 then 23 else if bitSize =? 32 then 14 else 9.
Proof.
  intros w opt val prec bitSize mb eb b s Hw Ha (s' & v' & Hx).
  destruct (exp_size_ok _ _ _ _ _ _ Ha) as (Sm & Se & _ & _).
  destruct (abs_parts mb eb b s bitSize val v' Ha Sm Se (ex_intro _ s' Hx)) as (v & Hv & V0 & F).
  destruct (c55 w opt val prec bitSize mb eb b s v Hw Ha Hv) as (ms & ks & m & k & Et & Nm & Rm & Nk & Rk & _ & Bm & Bk & _).
  eexists. split; [exact Et|]. rewrite !app_length. cbn [length]. pose proof (sign_len s).
  destruct (as_float_size _ _ _ _ _ _ Ha) as [(-> & -> & ->)|[(-> & -> & ->)|(-> & -> & ->)]]; cbn [Z.eqb Pos.eqb].
  - assert (len ms <= 16) by (apply numeral_len; [exact Nm|lia|]; rewrite Rm; change (10 ^ 16) with 10000000000000000; change (2 ^ (52 + 1)) with 9007199254740992 in Bm; lia).
    assert (len ks <= 4) by (apply numeral_len; [exact Nk|lia|]; rewrite Rk; change (10 ^ 4) with 10000; change (2 ^ (11 - 1)) with 1024 in Bk; lia). lia.
  - assert (len ms <= 8) by (apply numeral_len; [exact Nm|lia|]; rewrite Rm; change (10 ^ 8) with 100000000; change (2 ^ (23 + 1)) with 16777216 in Bm; lia).
    assert (len ks <= 3) by (apply numeral_len; [exact Nk|lia|]; rewrite Rk; change (10 ^ 3) with 1000; change (2 ^ (8 - 1)) with 128 in Bk; lia). lia.
  - assert (len ms <= 4) by (apply numeral_len; [exact Nm|lia|]; rewrite Rm; change (10 ^ 4) with 10000; change (2 ^ (10 + 1)) with 2048 in Bm; lia).
    assert (len ks <= 2) by (apply numeral_len; [exact Nk|lia|]; rewrite Rk; change (10 ^ 2) with 100; change (2 ^ (5 - 1)) with 16 in Bk; lia). lia.
Qed.
