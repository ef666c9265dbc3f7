(** How long the shortest texts are, and those of float32s at 32 and at 64 bits. *)
From Coq Require Import ZArith Lia Bool List Reals Lra.
From Flocq Require Import Core.
From Verif Require Import GoBase Spec SpecText SpecDec SpecFtoa BitFacts RoundFacts BigFacts2 ItoaFacts DecFacts DecFacts2 FloatMid PkgExact ClaimsFloat2 ClaimsRead ClaimsFtoa2 ClaimsChain.
From Verif Require Import Ftoa SpecFmt.
Import ListNotations.
Open Scope Z_scope.

Local Notation len l := (Z.of_nat (length l)).

Lemma digit10 c : 0 <= digit_val c < 10 -> digit_val c = c - 48 /\ 48 <= c <= 57.
Proof.
  unfold digit_val. destruct ((48 <=? c) && (c <=? 57)) eqn:E1; [apply andb_prop in E1; rewrite !Z.leb_le in E1; lia|].
  destruct ((97 <=? c) && (c <=? 122)) eqn:E2; [apply andb_prop in E2; rewrite !Z.leb_le in E2; lia|lia].
Qed.

Lemma last_digit l : l <> [] -> all_digits 10 l -> last l 49 <> 48 -> read 10 l mod 10 <> 0.
Proof.
  intros N A L. destruct (exists_last N) as (l' & c & ->). rewrite last_last in L. rewrite read_snoc.
  unfold all_digits in A. rewrite Forall_app in A. destruct A as [_ A]. inversion A as [|? ? Hc _]; subst.
  rewrite Z.add_comm, Z.mod_add, Z.mod_small by lia. intros E. apply L.
  destruct (digit10 c Hc). lia.
Qed.

Lemma p10_pow k : 0 <= k -> p10 k = IZR (10 ^ k).
Proof. intros H. symmetry. apply IZR_p10, H. Qed.

Lemma sig_cut N k n x : x = (IZR N * p10 k)%R -> 0 < N -> N mod 10 <> 0 -> 0 <= n -> sig_digits n x -> N < 10 ^ n.
Proof.
  intros E HN Hm Hn (M & e & E2 & HM). rewrite E in E2.
  destruct (Z_le_gt_dec e k) as [L|L].
  - assert (N * 10 ^ (k - e) = M).
    { apply eq_IZR. rewrite mult_IZR, <- p10_pow by lia. apply Rmult_eq_reg_r with (p10 e); [|apply Rgt_not_eq, p10_pos].
      rewrite Rmult_assoc, <- p10_plus. replace (k - e + e) with k by lia. exact E2. }
    pose proof (pow10_pos (k - e) ltac:(lia)). nia.
  - exfalso. assert (N = M * 10 ^ (e - k)).
    { apply eq_IZR. rewrite mult_IZR, <- p10_pow by lia. apply Rmult_eq_reg_r with (p10 k); [|apply Rgt_not_eq, p10_pos].
      rewrite Rmult_assoc, <- p10_plus. replace (e - k + k) with e by lia. exact E2. }
    apply Hm. replace (e - k) with (e - k - 1 + 1) in H by lia. rewrite Z.pow_add_r in H by lia. rewrite H, Z.mul_assoc. apply Z.mod_mul. lia.
Qed.

Lemma p10_cmp a b : (p10 a < p10 b)%R -> a < b.
Proof. intros H. apply (lt_bpow radix10). exact H. Qed.

Lemma digits_at_least l : all_digits 10 l -> hd 48 l <> 48 -> l <> [] -> 10 ^ (len l - 1) <= read 10 l.
Proof.
  intros A H N. apply numeral_lead; [lia| |].
  - split; [exact N|]. split; [exact A|]. intros E. destruct l; [contradiction|]. cbn [hd] in *. contradiction.
  - destruct l as [|c t]; [contradiction|]. cbn [hd] in H. inversion A as [|? ? Hc Ht]; subst. rewrite read_cons.
    pose proof (read_range 10 t ltac:(lia) Ht). pose proof (pow10_pos (len t) ltac:(lia)).
    assert (1 <= digit_val c); [|nia]. destruct (digit10 c Hc). lia.
Qed.

Lemma sign_len ng : len (sign_text ng) <= 1.
Proof. destruct ng; cbn; lia. Qed.

Lemma point_len fp : len (point fp) = if (match fp with [] => true | _ => false end) then 0 else len fp + 1.
Proof. destruct fp; cbn [point length]; lia. Qed.

Lemma prints_e_fp c ng fp x s n : prints_e c ng fp x s -> no_zero_end fp -> 1 <= n -> sig_digits n x -> len fp <= n - 1.
Proof.
  intros (a & X & xs & -> & _ & A & Ex & Hz) Hend Hn Hs. destruct fp as [|f0 f] eqn:Ef; [cbn; lia|]. rewrite <- Ef in *. assert (Nf : fp <> []) by (rewrite Ef; discriminate).
  assert (Hm : read 10 (a :: fp) mod 10 <> 0).
  { apply last_digit; [discriminate|exact A|]. unfold no_zero_end in Hend. rewrite Ef in *. exact Hend. }
  assert (Ha : a <> 48).
  { intros E. destruct (Hz E) as [X0 _]. apply Hm. assert (read 10 (a :: fp) = 0).
    { apply eq_IZR. apply Rmult_eq_reg_r with (p10 (X - len fp)); [|apply Rgt_not_eq, p10_pos]. rewrite <- Ex, X0. ring. }
    rewrite H. reflexivity. }
  pose proof (digits_at_least (a :: fp) A Ha ltac:(discriminate)) as G. cbn [length] in G.
  pose proof (pow10_pos (Z.of_nat (S (length fp)) - 1) ltac:(lia)).
  pose proof (sig_cut _ _ n x Ex ltac:(lia) Hm ltac:(lia) Hs) as C.
  destruct (Z_lt_ge_dec (len fp) n) as [|K]; [lia|]. exfalso.
  pose proof (Z.pow_le_mono_r 10 n (Z.of_nat (S (length fp)) - 1) ltac:(lia) ltac:(lia)). lia.
Qed.

Lemma prints_e_sig c ng fp x s : prints_e c ng fp x s -> sig_digits (len fp + 1) x.
Proof.
  intros (a & X & xs & _ & _ & A & Ex & _). exists (read 10 (a :: fp)), (X - len fp). split; [exact Ex|].
  pose proof (read_range 10 (a :: fp) ltac:(lia) A) as U. cbn [length] in U. replace (len fp + 1) with (Z.of_nat (S (length fp))) by lia. lia.
Qed.

Lemma prints_e_size c ng fp x s d : prints_e c ng fp x s -> 2 <= d -> x = 0%R \/ (p10 (1 - 10 ^ d) <= x < p10 (10 ^ d))%R ->
  exists k, 2 <= k <= d /\ len s = len (sign_text ng) + len (point fp) + k + 3.
Proof.
  intros (a & X & xs & -> & (ed & -> & Aed & Red & Led) & A & Ex & Hz) Hd Hr.
  exists (len ed). split; [|rewrite app_length; cbn [length]; rewrite app_length; cbn [length]; lia].
  destruct Led as [E|[E Nu]]; [lia|]. assert (HX : Z.abs X < 10 ^ d).
  { destruct (Z.eq_dec a 48) as [Ea|Na]; [destruct (Hz Ea); lia|].
    pose proof (digits_at_least (a :: fp) A Na ltac:(discriminate)) as G. cbn [length] in G. pose proof (read_range 10 (a :: fp) ltac:(lia) A) as [_ U]. cbn [length] in U.
    assert (G1 : (p10 X <= x)%R).
    { rewrite Ex. replace X with (len fp + (X - len fp)) at 1 by lia. rewrite p10_plus. apply Rmult_le_compat_r; [apply Rlt_le, p10_pos|].
      rewrite p10_pow by lia. apply IZR_le. replace (len fp) with (Z.of_nat (S (length fp)) - 1) by lia. exact G. }
    assert (G2 : (x < p10 (X + 1))%R).
    { rewrite Ex. replace (X + 1) with (len fp + 1 + (X - len fp)) by lia. rewrite p10_plus. apply Rmult_lt_compat_r; [apply p10_pos|].
      rewrite p10_pow by lia. apply IZR_lt. replace (len fp + 1) with (Z.of_nat (S (length fp))) by lia. exact U. }
    pose proof (p10_pos X). destruct Hr as [Hr|[R1 R2]]; [lra|].
    assert (X < 10 ^ d) by (apply p10_cmp; lra). assert (1 - 10 ^ d < X + 1) by (apply p10_cmp; lra). lia. }
  assert (L3 : 2 <= len ed).
  { pose proof (read_range 10 ed ltac:(lia) Aed) as [_ U]. rewrite Red in U. destruct (Z_le_gt_dec 2 (len ed)) as [|K]; [assumption|]. exfalso.
    pose proof (Z.pow_le_mono_r 10 (len ed) 1 ltac:(lia) ltac:(lia)). lia. }
  pose proof (numeral_lead 10 ed ltac:(lia) Nu ltac:(lia)) as G. rewrite Red in G.
  destruct (Z_lt_ge_dec d (len ed)) as [K|]; [|lia]. exfalso. pose proof (Z.pow_le_mono_r 10 d (len ed - 1) ltac:(lia) ltac:(lia)). lia.
Qed.

Lemma prints_e_len c ng fp x s n d : prints_e c ng fp x s -> no_zero_end fp -> 1 <= n -> 2 <= d -> sig_digits n x ->
  x = 0%R \/ (p10 (1 - 10 ^ d) <= x < p10 (10 ^ d))%R -> len s <= n + 4 + d.
Proof.
  intros P Hend Hn Hd Hs Hr. pose proof (prints_e_fp c ng fp x s n P Hend Hn Hs) as L. destruct (prints_e_size c ng fp x s d P Hd Hr) as (k & Hk & E).
  pose proof (sign_len ng). rewrite point_len in E. destruct fp; cbn [length] in *; lia.
Qed.

Lemma prints_f_len ng fp x s n : prints_f ng fp x s -> no_zero_end fp -> 1 <= n -> sig_digits n x ->
  x = 0%R \/ (p10 (-4) <= x < p10 6)%R -> len s <= n + 6.
Proof.
  intros (ip & -> & Ni & Af & Ex) Hend Hn Hs Hr. pose proof Ni as (N1 & N2 & N3).
  assert (A : all_digits 10 (ip ++ fp)) by (apply Forall_app; split; assumption).
  pose proof (read_range 10 ip ltac:(lia) N2) as Ri. pose proof (read_range 10 fp ltac:(lia) Af) as Rf.
  pose proof (sign_len ng). rewrite !app_length.
  destruct fp as [|f0 f] eqn:Ef.
  - cbn [point length]. rewrite app_nil_r in Ex. cbn [length Z.of_nat Z.opp] in Ex. rewrite p10_0, Rmult_1_r in Ex.
    assert (len ip <= 6); [|lia]. destruct (Z_le_gt_dec (len ip) 6) as [|K]; [assumption|]. exfalso.
    assert (hd 48 ip <> 48). { intros E. destruct ip as [|c t]; [contradiction|]. cbn [hd] in E. specialize (N3 E). rewrite N3 in K. cbn in K. lia. }
    pose proof (digits_at_least ip N2 H0 N1) as G. pose proof (Z.pow_le_mono_r 10 6 (len ip - 1) ltac:(lia) ltac:(lia)) as G2. change (10 ^ 6) with 1000000 in G2.
    assert (IZR 1000000 <= x)%R by (rewrite Ex; apply IZR_le; lia). rewrite (p10_pow 6) in Hr by lia. change (10 ^ 6) with 1000000 in Hr. destruct Hr as [Hr|[_ Hr]]; lra.
  - rewrite <- Ef in *. assert (Nf : fp <> []) by (rewrite Ef; discriminate).
    assert (Lp : len (point fp) = len fp + 1) by (rewrite point_len, Ef; reflexivity).
    assert (Hm : read 10 (ip ++ fp) mod 10 <> 0).
    { apply last_digit; [intros E; apply app_eq_nil in E; tauto|exact A|]. unfold no_zero_end in Hend.
      destruct (exists_last Nf) as (l' & z & El). rewrite El in *. rewrite app_assoc, last_last. rewrite last_last in Hend. exact Hend. }
    assert (P0 : 0 < read 10 (ip ++ fp)).
    { pose proof (read_range 10 (ip ++ fp) ltac:(lia) A). destruct (Z.eq_dec (read 10 (ip ++ fp)) 0) as [E|]; [|lia]. rewrite E in Hm. exfalso. apply Hm. reflexivity. }
    pose proof (sig_cut _ _ n x Ex P0 Hm ltac:(lia) Hs) as C. rewrite read_app in C.
    destruct (Z.eq_dec (hd 48 ip) 48) as [E|E].
    + assert (ip = [48]) by (destruct ip as [|c t]; [contradiction|]; cbn [hd] in E; apply N3; exact E). subst ip. cbn [length].
      change (read 10 [48]) with 0 in C. assert (len fp <= n + 3); [|lia]. destruct (Z_le_gt_dec (len fp) (n + 3)) as [|K]; [assumption|]. exfalso.
      assert (R1 : (p10 (-4) <= x)%R).
      { destruct Hr as [Hr|[Hr _]]; [|exact Hr]. exfalso. rewrite Hr in Ex. symmetry in Ex. apply Rmult_integral in Ex. pose proof (p10_pos (- len fp)). destruct Ex as [Ex|Ex]; [|lra]. apply eq_IZR in Ex. lia. }
      rewrite Ex in R1. apply Rmult_le_compat_r with (r := p10 (len fp)) in R1; [|apply Rlt_le, p10_pos].
      rewrite Rmult_assoc, <- !p10_plus in R1. replace (- len fp + len fp) with 0 in R1 by lia. rewrite p10_0, Rmult_1_r in R1.
      rewrite p10_pow in R1 by lia. apply le_IZR in R1. rewrite read_app in R1. change (read 10 [48]) with 0 in R1.
      pose proof (Z.pow_le_mono_r 10 n (-4 + len fp) ltac:(lia) ltac:(lia)). lia.
    + pose proof (digits_at_least ip N2 E N1) as G. assert (1 <= len ip) by (destruct ip; [contradiction|cbn [length]; lia]).
      assert (10 ^ (len ip - 1 + len fp) <= read 10 ip * 10 ^ len fp) by (rewrite Z.pow_add_r by lia; apply Z.mul_le_mono_nonneg_r; [apply Z.pow_nonneg; lia|exact G]).
      assert (len ip + len fp <= n); [|lia]. destruct (Z_le_gt_dec (len ip + len fp) n) as [|K]; [assumption|]. exfalso.
      pose proof (Z.pow_le_mono_r 10 n (len ip - 1 + len fp) ltac:(lia) ltac:(lia)). lia.
Qed.

(** The shortest digits of a float *)
Lemma sig_digits_round n v : 1 <= n -> sig_digits n (sig_round n v).
Proof.
  intros Hn. assert (P : Prec_gt_0 n) by (unfold Prec_gt_0; lia). unfold sig_round.
  assert (F : FLX_format radix10 n (round radix10 (FLX_exp n) ZnearestE v)).
  { apply FLX_format_generic; [exact P|]. apply generic_format_round; [apply FLX_exp_valid; exact P|apply valid_rnd_N]. }
  destruct F as [f Ef Hf]. exists (Fnum f), (Fexp f). split; [exact Ef|]. exact Hf.
Qed.

Lemma shortest_max mb eb n v x : 1 <= mb -> 2 <= eb -> 1 <= n -> 2 ^ (mb + 1) < 10 ^ (n - 1) -> (0 <= v)%R -> fits mb eb v ->
  shortest_digits mb eb v x -> sig_digits n x.
Proof.
  intros Hm He Hn H Hv F (_ & _ & Few & _). destruct (fits_parts mb eb v Hm He Hv F) as (mt & e & Hp & E).
  apply (Few (sig_round n v) n); [|apply sig_digits_round, Hn]. rewrite E. apply digits_enough; try assumption; lia.
Qed.

Lemma shortest_zero mb eb x : shortest_digits mb eb 0 x -> x = 0%R.
Proof.
  intros (_ & _ & Few & _). destruct (Few 0%R 0) as (M & e & E & HM).
  - apply rn_0.
  - exists 0, 0. split; [ring|]. cbn. lia.
  - change (10 ^ 0) with 1 in HM. assert (M = 0) by lia. rewrite E, H. ring.
Qed.

Lemma reads_range mb eb v x : 1 <= mb -> 2 <= eb -> (0 < v)%R -> fits mb eb v -> rn mb eb x = v ->
  (p2 (1 - 2 ^ (eb - 1) - mb) < x < p2 (2 ^ (eb - 1)))%R.
Proof.
  intros Hm He Hv F R. split.
  - apply Rnot_le_lt. intros L. apply (rn_mono mb eb) in L; [|exact Hm]. rewrite rn_half_least, R in L by assumption. lra.
  - apply Rnot_le_lt. intros L. apply (rn_mono mb eb) in L; [|exact Hm]. rewrite R in L. destruct F as [_ F]. rewrite Rabs_pos_eq in F by lra.
    assert (E : rn mb eb (p2 (2 ^ (eb - 1))) = p2 (2 ^ (eb - 1))); [|lra].
    unfold rn. apply round_generic; [apply valid_rnd_N|]. apply generic_format_FLT. pose proof (pow2_pos (eb - 1) ltac:(lia)). exists (Float radix2 1 (2 ^ (eb - 1))).
    + rewrite F2R_p2. cbn [Fnum Fexp]. ring.
    + cbn [Fnum]. change (1 < 2 ^ (mb + 1)). pose proof (Z.pow_le_mono_r 2 1 (mb + 1) ltac:(lia) ltac:(lia)). lia.
    + cbn [Fexp]. lia.
Qed.

(** The number of bytes that the shortest text of a float of bitSize bits has at most. *)
Definition max_len (bitSize : Z) : Z := if bitSize =? 64 then 24 else if bitSize =? 32 then 15 else 11.

Lemma as_float_size bitSize val mb eb b s : as_float bitSize val mb eb b s -> bitSize = 64 /\ mb = 52 /\ eb = 11 \/ bitSize = 32 /\ mb = 23 /\ eb = 8 \/ bitSize = 16 /\ mb = 10 /\ eb = 5.
Proof. intros (_ & _ & v & _ & _ & H). tauto. Qed.

Lemma p2_p10 a b : 0 <= a -> 0 <= b -> 2 ^ b <= 10 ^ a -> (p10 (- a) <= p2 (- b))%R /\ (p2 b <= p10 a)%R.
Proof.
  intros Ha Hb H. assert (K : (p2 b <= p10 a)%R) by (rewrite <- IZR_pow2, p10_pow by lia; apply IZR_le, H). split; [|exact K].
  unfold p10, p2 in *. rewrite !bpow_opp. apply Rinv_le_contravar; [apply bpow_gt_0|exact K].
Qed.

Lemma c91 : forall w opt val fmt prec bitSize mb eb b s, w = 32 \/ w = 64 ->
  as_float bitSize val mb eb b s -> (exists t v, ieee mb eb b = VNum t v) ->
  fmt = 101 \/ fmt = 69 \/ fmt = 103 \/ fmt = 71 -> prec < 0 ->
  exists t, FormatFloat w opt val fmt prec bitSize = Ret t /\ len t <= max_len bitSize.
Proof.
  intros w opt val fmt prec bitSize mb eb b s Hw Ha (s' & v' & Hx) Hc Hp.
  pose proof (as_float_size _ _ _ _ _ _ Ha) as Hsz.
  assert (Sz : 1 <= mb /\ 2 <= eb) by lia. destruct Sz as [Sm Se].
  assert (Hb : 0 <= b < 2 ^ (mb + eb + 1)) by apply Ha.
  assert (Es : s' = s).
  { destruct Ha as (_ & _ & u & _ & Hr & _). rewrite Hx in Hr. unfold ieee_round in Hr. destruct (Rle_bool _ _); [discriminate|]. congruence. }
  subst s'. destruct (fits_ieee mb eb b s v' ltac:(lia) Se Hb Hx) as [F Sg].
  assert (Hv : exists v, ieee mb eb b = VNum s (sgnR s v) /\ (0 <= v)%R /\ fits mb eb v).
  { exists (Rabs v'). split; [|split; [apply Rabs_pos|]].
    - rewrite Hx. f_equal. destruct Sg as [->|Sg]; [|exact Sg]. rewrite Rabs_R0. destruct s; cbn [sgnR]; ring.
    - destruct F as [(M & c & E & HM & Hcc) F]. split; [|rewrite Rabs_Rabsolu; exact F]. exists (Z.abs M), c. split; [|split; [rewrite Z.abs_involutive; exact HM|exact Hcc]].
      rewrite E, Rabs_mult, <- abs_IZR. f_equal. apply Rabs_pos_eq, Rlt_le, p2_pos. }
  destruct Hv as (v & Hv & V0 & Fv).
  destruct (c77 w opt val fmt prec bitSize mb eb b s v Hw Ha Hv ltac:(tauto) Hp) as (x & Sx & _ & fp & t & Et & Ne & Pr).
  exists t. split; [exact Et|].
  set (n := max_len bitSize - (if bitSize =? 64 then 7 else 6)). set (d := if bitSize =? 64 then 3 else 2).
  assert (Cs : 1 <= n /\ 2 ^ (mb + 1) < 10 ^ (n - 1) /\ 2 <= d /\ n + 4 + d = max_len bitSize /\ n + 6 <= max_len bitSize /\
    2 ^ (2 ^ (eb - 1) + mb - 1) <= 10 ^ (10 ^ d - 1)).
  { unfold n, d, max_len. destruct Hsz as [(-> & -> & ->)|[(-> & -> & ->)|(-> & -> & ->)]]; cbn [Z.eqb Pos.eqb]; repeat split; try lia; vm_compute; congruence. }
  destruct Cs as (N1 & N2 & D & Y1 & Y2 & Y3).
  pose proof (shortest_max mb eb n v x Sm Se N1 N2 V0 Fv Sx) as Sd.
  assert (Hr : x = 0%R \/ (0 < x /\ p10 (1 - 10 ^ d) <= x < p10 (10 ^ d))%R).
  { destruct (Req_dec v 0) as [E|E]; [left; apply (shortest_zero mb eb); rewrite <- E; exact Sx|right].
    destruct (reads_range mb eb v x Sm Se ltac:(lra) Fv ltac:(apply Sx)) as [R1 R2].
    pose proof (pow10_pos d ltac:(lia)). pose proof (pow2_pos (eb - 1) ltac:(lia)).
    destruct (p2_p10 (10 ^ d - 1) (2 ^ (eb - 1) + mb - 1) ltac:(lia) ltac:(lia) Y3) as [Q1 Q2].
    replace (- (10 ^ d - 1)) with (1 - 10 ^ d) in Q1 by lia. replace (- (2 ^ (eb - 1) + mb - 1)) with (1 - 2 ^ (eb - 1) - mb) in Q1 by lia.
    assert (p2 (2 ^ (eb - 1)) <= p2 (2 ^ (eb - 1) + mb - 1))%R by (apply p2_le; lia). assert (p10 (10 ^ d - 1) <= p10 (10 ^ d))%R by (apply p10_le; lia).
    pose proof (p2_pos (1 - 2 ^ (eb - 1) - mb)). lra. }
  assert (Hr' : x = 0%R \/ (p10 (1 - 10 ^ d) <= x < p10 (10 ^ d))%R) by tauto.
  rewrite <- Y1. destruct Pr as [(_ & Pe)|[(Ef & _)|(_ & Pg)]].
  - apply (prints_e_len fmt s fp x); assumption.
  - lia.
  - destruct Pg as [G1 G2]. destruct (Req_dec x 0) as [X0|X0].
    + pose proof (prints_f_len s fp x t n (G1 (or_introl X0)) Ne N1 Sd (or_introl X0)). lia.
    + destruct Hr as [Hr|(Xp & Hr)]; [contradiction|]. destruct (Rlt_le_dec x (p10 (-4))) as [L|L].
      * apply (prints_e_len (fmt - 2) s fp x); try assumption. apply G2. left. split; assumption.
      * destruct (Rlt_le_dec x (p10 6)) as [L2|L2].
        -- pose proof (prints_f_len s fp x t n (G1 (or_intror (conj L L2))) Ne N1 Sd (or_intror (conj L L2))). lia.
        -- apply (prints_e_len (fmt - 2) s fp x); try assumption. apply G2. right. split; assumption.
Qed.

(** * One number at two sizes *)
Lemma range_e mb eb v x d : 1 <= mb -> 2 <= eb -> (0 <= v)%R -> fits mb eb v -> rn mb eb x = v -> (v = 0%R -> x = 0%R) -> 0 <= d ->
  2 ^ (2 ^ (eb - 1) + mb - 1) <= 10 ^ (10 ^ d - 1) -> x = 0%R \/ (p10 (1 - 10 ^ d) <= x < p10 (10 ^ d))%R.
Proof.
  intros Sm Se V0 Fv R Z0 D Y3. destruct (Req_dec v 0) as [E|E]; [left; exact (Z0 E)|right].
  destruct (reads_range mb eb v x Sm Se ltac:(lra) Fv R) as [R1 R2].
  pose proof (pow10_pos d D). pose proof (pow2_pos (eb - 1) ltac:(lia)).
  destruct (p2_p10 (10 ^ d - 1) (2 ^ (eb - 1) + mb - 1) ltac:(lia) ltac:(lia) Y3) as [Q1 Q2].
  replace (- (10 ^ d - 1)) with (1 - 10 ^ d) in Q1 by lia. replace (- (2 ^ (eb - 1) + mb - 1)) with (1 - 2 ^ (eb - 1) - mb) in Q1 by lia.
  assert (p2 (2 ^ (eb - 1)) <= p2 (2 ^ (eb - 1) + mb - 1))%R by (apply p2_le; lia). assert (p10 (10 ^ d - 1) <= p10 (10 ^ d))%R by (apply p10_le; lia). lra.
Qed.

Lemma c92 : forall w opt val fmt prec z z' mb eb mb' eb' b b' s v, w = 32 \/ w = 64 -> z < z' ->
  as_float z val mb eb b s -> as_float z' val mb' eb' b' s ->
  ieee mb eb b = VNum s (sgnR s v) -> ieee mb' eb' b' = VNum s (sgnR s v) -> (0 <= v)%R ->
  fmt = 101 \/ fmt = 69 \/ fmt = 102 \/ fmt = 103 \/ fmt = 71 -> prec < 0 ->
  exists x y fp fp' t t', FormatFloat w opt val fmt prec z = Ret t /\ FormatFloat w opt val fmt prec z' = Ret t' /\
    prints_short fmt s fp x t /\ prints_short fmt s fp' y t' /\
    rn mb eb y = v /\ (forall n, sig_digits n y -> sig_digits n x) /\
    (fmt = 101 \/ fmt = 69 -> len t <= len t').
Proof.
  intros w opt val fmt prec z z' mb eb mb' eb' b b' s v Hw Hz Ha Ha' Hx Hx' V0 Hc Hp.
  pose proof (as_float_size _ _ _ _ _ _ Ha) as S1. pose proof (as_float_size _ _ _ _ _ _ Ha') as S2.
  assert (Hb : 0 <= b < 2 ^ (mb + eb + 1)) by apply Ha.
  assert (Nest : 1 <= mb /\ mb + 2 <= mb' /\ 2 <= eb /\ eb < eb') by lia. destruct Nest as (Nm & Nm' & Ne & Ne').
  assert (Fv : fits mb eb v).
  { destruct (fits_ieee mb eb b s _ ltac:(lia) Ne Hb Hx) as [[(M & c & E & HM & Hcc) F] _].
    assert (Ev : v = sgnR s (sgnR s v)) by (destruct s; cbn [sgnR]; ring). assert (Ra : Rabs v = Rabs (sgnR s v)) by (destruct s; cbn [sgnR]; [rewrite Rabs_Ropp|]; reflexivity).
    split; [|rewrite Ra; exact F]. exists (if s then - M else M), c. split; [|split; [destruct s; rewrite ?Z.abs_opp; exact HM|exact Hcc]].
    rewrite Ev, E. destruct s; cbn [sgnR]; [rewrite opp_IZR|]; ring. }
  destruct (c77 w opt val fmt prec z mb eb b s v Hw Ha Hx Hc Hp) as (x & Sx & _ & fp & t & Et & Nz & Pr).
  destruct (c77 w opt val fmt prec z' mb' eb' b' s v Hw Ha' Hx' Hc Hp) as (y & Sy & _ & fp' & t' & Et' & Nz' & Pr').
  assert (Ry : rn mb eb y = v) by (apply (rn_nested mb eb mb' eb'); try assumption; apply Sy).
  assert (Few : forall n, sig_digits n y -> sig_digits n x) by (intros n Sn; destruct Sx as (_ & _ & F & _); apply (F y n Ry Sn)).
  exists x, y, fp, fp', t, t'. repeat (split; [assumption|]). intros He.
  assert (Pe : prints_e fmt s fp x t) by (destruct Pr as [(_ & P)|[(? & _)|(? & _)]]; [exact P|lia|lia]).
  assert (Pe' : prints_e fmt s fp' y t') by (destruct Pr' as [(_ & P)|[(? & _)|(? & _)]]; [exact P|lia|lia]).
  assert (L : len fp <= len fp').
  { pose proof (prints_e_fp fmt s fp x t (len fp' + 1) Pe Nz ltac:(lia) (Few _ (prints_e_sig _ _ _ _ _ Pe'))). lia. }
  assert (Y3 : 2 ^ (2 ^ (eb - 1) + mb - 1) <= 10 ^ (10 ^ 2 - 1)).
  { assert (C : mb = 10 /\ eb = 5 \/ mb = 23 /\ eb = 8) by lia. destruct C as [(-> & ->)|(-> & ->)]; vm_compute; congruence. }
  destruct (prints_e_size fmt s fp x t 2 Pe ltac:(lia)) as (k & Hk & E1).
  { apply (range_e mb eb v); try assumption; [apply Sx|intros V; apply (shortest_zero mb eb); rewrite <- V; exact Sx|lia]. }
  destruct (prints_e_size fmt s fp' y t' 2 Pe' ltac:(lia)) as (k' & Hk' & E2).
  { apply (range_e mb eb v); try assumption; [intros V; apply (shortest_zero mb' eb'); rewrite <- V; exact Sy|lia]. }
  rewrite E1, E2, !point_len. destruct fp, fp'; cbn [length] in *; lia.
Qed.

(** With 'f' it may be longer. *)
Lemma c92_refuted : exists val b v t t', as_float 32 val 23 8 b false /\ as_float 64 val 52 11 val false /\
  ieee 23 8 b = VNum false v /\ ieee 52 11 val = VNum false v /\
  FormatFloat 64 true val 102 (-1) 32 = Ret t /\ FormatFloat 64 true val 102 (-1) 64 = Ret t' /\ len t' < len t.
Proof.
  assert (V : forall b m k, 0 <= b < 2 ^ 63 -> 1 <= b / 2 ^ 52 <= 2046 -> 2 ^ 52 + b mod 2 ^ 52 = m -> b / 2 ^ 52 - 1075 = k -> ieee 52 11 b = VNum false (IZR m * p2 k))
    by (intros b m k H1 H2 <- <-; apply ieee_norm64; assumption).
  assert (S : forall m k j, 0 <= j -> (IZR (m * 2 ^ j) * p2 k = IZR m * p2 (k + j))%R) by (intros m k j Hj; rewrite mult_IZR, IZR_pow2, Rmult_assoc, <- p2_plus by lia; do 2 f_equal; lia).
  assert (E1 : ieee 52 11 0x42374876E0000000 = VNum false (IZR (0xBA43B7 * 2 ^ 29) * p2 (-16))) by (apply V; first [lia|reflexivity|vm_compute; split; discriminate]).
  assert (E2 : ieee 23 8 0x51BA43B7 = VNum false (IZR (0xBA43B7 * 2 ^ 29) * p2 (-16))).
  { rewrite S by lia. change (ieee 23 8 0x51BA43B7) with (VNum false (IZR 0xBA43B7 * p2 13)). reflexivity. }
  exists 0x42374876E0000000, 0x51BA43B7, (IZR (0xBA43B7 * 2 ^ 29) * p2 (-16))%R, (map (fun i => if i =? 0 then 49 else 48) [0;1;2;3;4;5;6;7;8;9;10;11]), (57 :: 57 :: 57 :: 57 :: 57 :: 57 :: 57 :: 55 :: 57 :: 53 :: 50 :: []).
  split; [apply (as_float_fits 32 _ 23 8 _ false (IZR (0xBA43B7 * 2 ^ 29) * p2 (-16))); [lia|exact E1|lia|exact E2|auto]|].
  split; [apply (as_float_64 _ false (IZR (0xBA43B7 * 2 ^ 29) * p2 (-16))); [lia|exact E1]|]. split; [exact E2|]. split; [exact E1|].
  split; [vm_compute; reflexivity|]. split; [vm_compute; reflexivity|]. vm_compute; reflexivity.
Qed.
