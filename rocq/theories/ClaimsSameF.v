(** C106: the shortest text in plain notation and the text rounded to as many places. *)
From Coq Require Import ZArith Lia Bool String List Reals Lra Classical.
From Flocq Require Import Core.
From Verif Require Import GoBase Spec SpecText SpecDec SpecFtoa BitFacts RoundFacts BigFacts2 ItoaFacts DecFacts DecFacts2 FloatMid FtoaShort PkgText PkgExact ClaimsFloat2 ClaimsRead ClaimsFtoa ClaimsFtoa2 FtoaAll ClaimsLen ClaimsLenF ClaimsAlloc FtoaFixed ClaimsSame.
From Verif Require Import Ftoa SpecFmt.
Import ListNotations.
Open Scope Z_scope.

Local Notation len l := (Z.of_nat (length l)).

Lemma unscale c v : v = (v * p10 (- c) * p10 c)%R.
Proof. rewrite Rmult_assoc, <- p10_plus. replace (- c + c) with 0 by lia. rewrite p10_0. ring. Qed.

Lemma scaled_abs a c r : Rabs (r * p10 c - a * p10 c) = (Rabs (r - a) * p10 c)%R.
Proof. pose proof (p10_pos c). rewrite <- Rmult_minus_distr_r, Rabs_mult, (Rabs_pos_eq (p10 c)) by lra. reflexivity. Qed.

(** Rounding to a place takes a nearest number, of two equally close ones the even one. *)
Lemma round10_nearest c v f : (Rabs (round10 c v - v) <= Rabs (IZR f * p10 c - v))%R.
Proof.
  rewrite (unscale c v) at 2 3. unfold round10. set (a := (v * p10 (- c))%R). rewrite !scaled_abs. pose proof (p10_pos c).
  apply Rmult_le_compat_r; [lra|]. set (z := ZnearestE a).
  assert (Hz : (Rabs (IZR z - a) <= / 2)%R) by (rewrite Rabs_minus_sym; apply Znearest_half).
  destruct (Rle_dec (Rabs (IZR z - a)) (Rabs (IZR f - a))) as [|N]; [assumption|exfalso].
  assert (z <> f) by (intros E; rewrite E in N; lra).
  assert (U : (IZR (Z.abs (f - z)) < 1)%R).
  { rewrite abs_IZR, minus_IZR. replace (IZR f - IZR z)%R with ((IZR f - a) - (IZR z - a))%R by ring. apply Rle_lt_trans with (1 := Rabs_triang _ _). rewrite Rabs_Ropp. lra. }
  apply (lt_IZR _ 1) in U. lia.
Qed.

Lemma round10_even c v f N k : Rabs (round10 c v - v) = Rabs (IZR f * p10 c - v) -> round10 c v <> (IZR f * p10 c)%R ->
  (IZR f * p10 c = IZR (2 * N) * p10 k)%R -> Rabs (IZR f * p10 c - round10 c v) = p10 k -> False.
Proof.
  intros Ed Ne Ey Ek. rewrite (unscale c v) in Ed at 2 3. unfold round10 in *. set (a := (v * p10 (- c))%R) in *. pose proof (p10_pos c) as Pc.
  rewrite !scaled_abs in Ed. apply Rmult_eq_reg_r in Ed; [|lra]. set (z := ZnearestE a) in *.
  assert (Nz : z <> f) by (intros K; apply Ne; rewrite K; reflexivity).
  assert (Hz : (Rabs (IZR z - a) <= / 2)%R) by (rewrite Rabs_minus_sym; apply Znearest_half).
  assert (Dz : IZR (Z.abs (f - z)) = 1%R).
  { assert (U : (IZR (Z.abs (f - z)) <= 1)%R).
    { rewrite abs_IZR, minus_IZR. replace (IZR f - IZR z)%R with ((IZR f - a) - (IZR z - a))%R by ring. apply Rle_trans with (1 := Rabs_triang _ _). rewrite Rabs_Ropp. lra. }
    apply (le_IZR _ 1) in U. f_equal. lia. }
  assert (Kc : k = c).
  { apply (bpow_inj radix10). change (p10 k = p10 c). rewrite <- Ek, <- Rmult_minus_distr_r, Rabs_mult, (Rabs_pos_eq (p10 c)), <- minus_IZR, <- abs_IZR, Dz by lra. ring. }
  subst k. assert (f = 2 * N) by (apply eq_IZR, Rmult_eq_reg_r with (p10 c); [exact Ey|lra]).
  apply (eq_IZR _ 1) in Dz. assert (C : f = z + 1 \/ f = z - 1) by lia.
  assert (Ta : Z.even z = true).
  { unfold z. assert (Ha : (a = (IZR f + IZR z) / 2)%R).
    { destruct C as [C|C]; rewrite C, ?plus_IZR, ?minus_IZR in *; unfold Rabs in Ed; repeat destruct Rcase_abs in Ed; lra. }
    unfold Znearest. assert (Fl : Zfloor a = Z.min f z).
    { apply Zfloor_imp. rewrite Ha. destruct C as [C|C].
      - rewrite Z.min_r by lia. rewrite C, plus_IZR. lra.
      - rewrite Z.min_l by lia. rewrite C, plus_IZR, minus_IZR. lra. }
    assert (Ce : Zceil a = Z.max f z).
    { apply Zceil_imp. rewrite Ha. destruct C as [C|C].
      - rewrite Z.max_l by lia. rewrite C, minus_IZR, plus_IZR. lra.
      - rewrite Z.max_r by lia. rewrite C, !minus_IZR. lra. }
    rewrite Fl, Ce. rewrite Rcompare_Eq.
    - destruct (Z.even (Z.min f z)) eqn:Ev; [cbn; exact Ev|]. cbn [negb]. assert (C' : Z.max f z = Z.min f z + 1) by lia. rewrite C', Z.even_add, Ev. reflexivity.
    - rewrite Ha. destruct C as [C|C].
      + rewrite Z.min_r by lia. rewrite C, plus_IZR. lra.
      + rewrite Z.min_l by lia. rewrite C, minus_IZR. lra. }
  apply Z.even_spec in Ta. destruct Ta as [M Ta]. lia.
Qed.

(** Texts with as many places. *)
Lemma prints_f_same ng fp fp' x s s' : prints_f ng fp x s -> prints_f ng fp' x s' -> length fp' = length fp -> s = s'.
Proof.
  intros (ip & -> & N & A & V) (ip' & -> & N' & A' & V') L. rewrite V, L in V'. pose proof (p10_pos (- len fp)).
  apply Rmult_eq_reg_r in V'; [|lra]. apply eq_IZR in V'. rewrite !read_app, L in V'.
  pose proof (read_range 10 fp ltac:(lia) A) as R1. pose proof (read_range 10 fp' ltac:(lia) A') as R2. rewrite L in R2. pose proof (pow10_pos (len fp) ltac:(lia)).
  assert (E : read 10 ip = read 10 ip') by nia. assert (E' : read 10 fp = read 10 fp') by nia.
  rewrite (numeral_inj 10 ip ip') by (auto; lia). rewrite (all_digits_inj 10 fp fp') by (auto; lia). reflexivity.
Qed.

(** x has its last digit at the place 10^-L. *)
Lemma shortest_places mb eb v x M L : 1 <= mb -> (0 < v)%R -> shortest_digits mb eb v x -> x = (IZR M * p10 (- L))%R -> M mod 10 <> 0 ->
  (x = round10 (- L) v <-> rn mb eb (round10 (- L) v) = v /\ (passed mb eb v x -> (round10 (- L) v <= v)%R)).
Proof.
  intros Hmb Pv (X0 & Rx & Few & C1 & C2) Ex HM. set (z := round10 (- L) v). split.
  - intros Exz. rewrite <- Exz. split; [exact Rx|]. intros P. apply (C2 P).
  - intros [Rz Pz]. pose proof (round10_nearest (- L) v M) as Nz. fold z in Nz. rewrite <- Ex in Nz.
    pose proof (p10_pos (- L)) as PL.
    assert (M0 : 0 < M).
    { assert (M <> 0) by (intros E; rewrite E in HM; apply HM; reflexivity). rewrite Ex in X0. destruct (Z_lt_ge_dec M 0) as [K|K]; [exfalso|lia].
      apply IZR_lt in K. nra. }
    assert (Xp : (0 < x)%R) by (rewrite Ex; apply Rmult_lt_0_compat; [apply IZR_lt; exact M0|exact PL]).
    assert (E1 : forall m, sig_digits m x -> 1 <= m).
    { intros m (M' & e & E & H). destruct (Z_lt_ge_dec m 1) as [K|]; [exfalso|lia]. assert (P1 : 10 ^ m <= 1). { destruct (Z_lt_ge_dec m 0); [rewrite Z.pow_neg_r by lia; lia|]. replace m with 0 by lia. cbn. lia. }
      assert (M' = 0) by lia. subst M'. rewrite E, Rmult_0_l in Xp. lra. }
    set (Mz := ZnearestE (v * p10 (- - L))). assert (Ez : z = (IZR Mz * p10 (- L))%R) by reflexivity.
    assert (Z0 : 0 <= Mz).
    { unfold Mz. apply le_IZR. apply Rle_trans with (IZR (ZnearestE 0)); [change 0%R with (IZR 0); rewrite Zrnd_IZR; [lra|typeclasses eauto]|]. apply IZR_le, Zrnd_le; [typeclasses eauto|].
      apply Rmult_le_pos; [lra|]. apply Rlt_le, p10_pos. }
    assert (Szx : forall m, sig_digits m x -> sig_digits m z).
    { intros m Hm. pose proof (E1 m Hm) as Hm1. pose proof (sig_cut M (- L) m x Ex M0 HM ltac:(lia) Hm) as Hc.
      destruct (Z_lt_ge_dec Mz (10 ^ m)) as [K|K]; [exists Mz, (- L); split; [exact Ez|lia]|].
      destruct (Z.eq_dec Mz (10 ^ m)) as [K'|K'].
      { exists 1, (m - L). split; [rewrite Ez, K', <- p10_pow, <- p10_plus by lia; replace (m + - L) with (m - L) by lia; ring|].
        pose proof (Z.pow_le_mono_r 10 1 m ltac:(lia) ltac:(lia)). lia. }
      exfalso. set (y := (IZR (10 ^ m) * p10 (- L))%R).
      assert (Y1 : (x < y)%R) by (rewrite Ex; unfold y; apply Rmult_lt_compat_r; [exact PL|apply IZR_lt; exact Hc]).
      assert (Y2 : (y < z)%R) by (rewrite Ez; unfold y; apply Rmult_lt_compat_r; [exact PL|apply IZR_lt; lia]).
      assert (Ry : rn mb eb y = v) by (apply (rn_between mb eb v x y z Hmb Rx Rz); lra).
      assert (Sy : forall n, 1 <= n -> sig_digits n y).
      { intros n Hn. exists 1, (m - L). split; [unfold y; rewrite <- p10_pow, <- p10_plus by lia; replace (m + - L) with (m - L) by lia; ring|].
        pose proof (Z.pow_le_mono_r 10 1 n ltac:(lia) ltac:(lia)). lia. }
      assert (Syx : forall n, sig_digits n x -> sig_digits n y) by (intros n Hn; apply Sy, (E1 n Hn)).
      destruct (classic (passed mb eb v x)) as [P|P].
      - destruct (C2 P) as [_ D2]. specialize (Pz P). specialize (D2 y Ry Syx ltac:(lra)). lra.
      - assert (Hx : forall n, rn mb eb (mid_hi mb eb v) <> v -> sig_digits n (mid_hi mb eb v) -> sig_digits n x).
        { intros n H1 H2. destruct (classic (sig_digits n x)) as [|H3]; [assumption|exfalso]. apply P. exists n. auto. }
        destruct (C1 Hx y Ry Syx) as [D1 _]. unfold Rabs in D1, Nz. repeat destruct Rcase_abs in D1; repeat destruct Rcase_abs in Nz; lra. }
    destruct (classic (passed mb eb v x)) as [P|P].
    + destruct (C2 P) as [D1 D2]. specialize (D2 z Rz Szx (Pz P)). specialize (Pz P). rewrite !Rabs_left1 in Nz by lra. lra.
    + assert (Hx : forall n, rn mb eb (mid_hi mb eb v) <> v -> sig_digits n (mid_hi mb eb v) -> sig_digits n x).
      { intros m H1 H2. destruct (classic (sig_digits m x)) as [|H3]; [assumption|exfalso]. apply P. exists m. auto. }
      destruct (C1 Hx z Rz Szx) as [D1 D2]. destruct (Req_dec z x) as [|Ne]; [congruence|exfalso].
      destruct (D2 ltac:(lra) Ne) as (N & k & E3 & E4). rewrite Ex in E3, E4. apply (round10_even (- L) v M N k); fold z.
      * rewrite <- Ex. lra.
      * rewrite <- Ex. exact Ne.
      * exact E3.
      * exact E4.
Qed.

(** x is an integer. *)
Lemma shortest_integer flt mb eb v x M : format_of flt mb eb -> (0 <= v)%R -> fits mb eb v -> shortest_digits mb eb v x -> x = IZR M ->
  (x = IZR (ZnearestE v) <-> (v < p2 (mb + 1))%R \/ x = v).
Proof.
  intros Hf Pv Fv Sx Ex.
  assert (M10 : 10 <= mb /\ 2 <= eb /\ mb + 1 <= 2 ^ (eb - 1)) by (destruct Hf as [(_ & -> & ->)|[(_ & -> & ->)|(_ & -> & ->)]]; cbn; lia).
  destruct (fits_parts mb eb v ltac:(lia) ltac:(lia) Pv Fv) as (mt & e & Hp & Ev).
  assert (Hm0 : 0 <= mt). { destruct (Z_lt_ge_dec mt 0) as [K|]; [exfalso|lia]. apply IZR_lt in K. pose proof (p2_pos (e - mb)). rewrite Ev in Pv. nra. }
  assert (Hm1 : mt < 2 ^ (mb + 1)). { destruct Hp as [[[H1 H2] _]|[H1 _]]; [exact H2|]. rewrite Z.pow_add_r by lia. lia. }
  assert (I : forall N, v = IZR N -> ZnearestE v = N). { intros N ->. apply Zrnd_IZR. typeclasses eauto. }
  destruct (Z_lt_ge_dec (e - mb) 0) as [Le|Le].
  - (* below 2^(mb+1) *)
    assert (V1 : (v < p2 (mb + 1))%R).
    { rewrite Ev. apply Rlt_le_trans with (IZR (2 ^ (mb + 1)) * p2 (e - mb))%R; [apply Rmult_lt_compat_r; [apply p2_pos|apply IZR_lt; exact Hm1]|].
      rewrite IZR_pow2, <- p2_plus by lia. apply bpow_le. lia. }
    split; [intros _; left; exact V1|intros _].
    destruct (classic (exists N, v = IZR N)) as [(N & EN)|Nv].
    + rewrite (I N EN). rewrite EN in *. apply (short_int mb eb N x ltac:(lia) ltac:(lia) ltac:(lia)); try apply (proj1 Sx); try apply (proj1 (proj2 Sx)); try apply (proj1 (proj2 (proj2 Sx))).
      rewrite <- IZR_pow2 in V1 by lia. apply le_IZR in Pv. apply lt_IZR in V1. lia.
    + assert (Hmt : 0 < mt). { destruct (Z.eq_dec mt 0) as [E|]; [exfalso|lia]. apply Nv. exists 0. rewrite Ev, E. ring. }
      destruct Sx as (_ & Rx & _). rewrite Ev in Rx. apply (reads_inside flt mb eb mt e Hf Hp Hmt) in Rx. destruct Rx as [[I1 I2] _].
      destruct (bounds_facts flt mb eb mt e Hf Hp Hmt) as (_ & _ & F3 & F4 & _). rewrite F4 in I2. rewrite <- Ev in *.
      assert (P4 : (p2 (e - mb - 1) <= / 4)%R). { replace (/ 4)%R with (p2 (-2)) by (unfold p2; cbn; lra). apply bpow_le. lia. }
      rewrite Ex. f_equal. symmetry. apply Znearest_imp. rewrite <- Ex. apply Rle_lt_trans with (/ 4)%R; [|lra].
      apply Rabs_le. lra.
  - assert (EN : v = IZR (mt * 2 ^ (e - mb))) by (rewrite mult_IZR, IZR_pow2 by lia; exact Ev). rewrite (I _ EN), <- EN. split; [tauto|].
    intros [V1|V1]; [|exact V1]. rewrite EN in *. apply (short_int mb eb _ x ltac:(lia) ltac:(lia) ltac:(lia)); try apply (proj1 Sx); try apply (proj1 (proj2 Sx)); try apply (proj1 (proj2 (proj2 Sx))).
    rewrite <- IZR_pow2 in V1 by lia. apply le_IZR in Pv. apply lt_IZR in V1. lia.
Qed.

Lemma f_rounded : forall w opt val prec bitSize mb eb b s v t fp x, w = 32 \/ w = 64 ->
  as_float bitSize val mb eb b s -> ieee mb eb b = VNum s (sgnR s v) -> prec < 0 ->
  FormatFloat w opt val 102 prec bitSize = Ret t -> prints_f s fp x t ->
  shortest_digits mb eb v x /\ (fp <> [] -> exists M, x = (IZR M * p10 (- len fp))%R /\ M mod 10 <> 0) /\ (fp = [] -> exists M, x = IZR M) /\
  (0 <= v)%R /\ fits mb eb v /\ (exists flt, format_of flt mb eb) /\
  exists t', FormatFloat w opt val 102 (len fp) bitSize = Ret t' /\ (t = t' <-> x = round10 (- len fp) v).
Proof.
  intros w opt val prec bitSize mb eb b s v t fp x Hw Ha Hx Hp Et Pt.
  pose proof (as_float_size _ _ _ _ _ _ Ha) as Hsz. assert (Sz : 1 <= mb /\ 2 <= eb) by lia. destruct Sz as [Sm Se].
  pose proof (as_nonneg _ _ _ _ _ _ _ Ha Hx) as Pv.
  destruct (decode_as 64 true [] val 101 (-1) bitSize b mb eb s v ltac:(auto) Ha Hx) as (flt & _ & _ & Hf & _).
  destruct (abs_parts mb eb b s bitSize val (sgnR s v) Ha ltac:(lia) ltac:(lia) (ex_intro _ s Hx)) as (v1 & Hx1 & _ & Fv).
  assert (v1 = v). { rewrite Hx in Hx1. apply VNum_inj in Hx1. destruct Hx1 as [_ Hx1]. destruct s; cbn [sgnR] in Hx1; lra. } subst v1.
  destruct (c104_places w opt val 102 prec bitSize mb eb b s v Hw Ha Hx Pv Fv ltac:(tauto) Hp) as (x1 & fp1 & t1 & Et1 & Pr & Ne & Sx & Low).
  rewrite Et in Et1. injection Et1 as <-.
  assert (Pr' : prints_f s fp1 x1 t). { destruct Pr as [[E _]|[[_ Pr]|[E _]]]; [lia|exact Pr|lia]. } clear Pr.
  destruct (prints_f_inj s s fp fp1 x x1 t Pt Pr') as (_ & <- & <-). clear Pr'.
  split; [exact Sx|].
  assert (K1 : fp <> [] -> exists M, x = (IZR M * p10 (- len fp))%R /\ M mod 10 <> 0).
  { intros Nf. destruct Pt as (ip & _ & (N1 & N2 & N3) & A & E). exists (read 10 (ip ++ fp)). split; [exact E|].
    apply last_digit; [intros E'; apply app_eq_nil in E'; tauto|apply Forall_app; split; assumption|]. unfold no_zero_end in Ne.
    destruct (exists_last Nf) as (l' & z & El). rewrite El in *. rewrite app_assoc, last_last. rewrite last_last in Ne. exact Ne. }
  split; [exact K1|].
  split. { intros ->. destruct Pt as (ip & _ & _ & _ & E). exists (read 10 (ip ++ [])). rewrite E. cbn [length Z.of_nat Z.opp]. rewrite p10_0. ring. }
  split; [exact Pv|]. split; [exact Fv|]. split; [exists flt; exact Hf|].
  assert (L : len fp <= 324).
  { destruct fp as [|f0 f] eqn:Ef; [cbn; lia|]. rewrite <- Ef in *. destruct (K1 ltac:(rewrite Ef; discriminate)) as (M & E & HM). pose proof (Low M _ E HM) as Lo.
    unfold low_place in Lo. destruct (bitSize =? 64); [lia|]. destruct (bitSize =? 32); lia. }
  assert (Hr : 0 <= len fp < 2 ^ (w - 1)) by (destruct Hw as [->| ->]; cbn; lia).
  destruct (c51f w opt val (len fp) bitSize mb eb b s v Hw Ha Hx Hr) as (t' & fp' & Et' & Lf & Pt').
  exists t'. split; [exact Et'|]. split; intros E.
  - subst t'. apply (prints_f_inj s s fp fp' _ _ t Pt Pt').
  - rewrite <- E in Pt'. apply (prints_f_same s fp fp' x t t' Pt Pt'). lia.
Qed.

Lemma c106_places : forall w opt val prec bitSize mb eb b s v t fp x, w = 32 \/ w = 64 ->
  as_float bitSize val mb eb b s -> ieee mb eb b = VNum s (sgnR s v) -> prec < 0 ->
  FormatFloat w opt val 102 prec bitSize = Ret t -> prints_f s fp x t -> fp <> [] ->
  exists t', FormatFloat w opt val 102 (len fp) bitSize = Ret t' /\
    (t = t' <-> rn mb eb (round10 (- len fp) v) = v /\ (passed mb eb v x -> (round10 (- len fp) v <= v)%R)).
Proof.
  intros w opt val prec bitSize mb eb b s v t fp x Hw Ha Hx Hp Et Pt Nf.
  destruct (f_rounded w opt val prec bitSize mb eb b s v t fp x Hw Ha Hx Hp Et Pt) as (Sx & K1 & _ & Pv & Fv & (flt & Hf) & t' & Et' & T).
  exists t'. split; [exact Et'|]. rewrite T. destruct (K1 Nf) as (M & E & HM).
  assert (M10 : 10 <= mb) by (destruct Hf as [(_ & -> & ->)|[(_ & -> & ->)|(_ & -> & ->)]]; lia).
  apply (shortest_places mb eb v x M); try assumption; [lia|]. destruct (Req_dec v 0) as [V0|]; [exfalso|lra].
  rewrite V0 in Sx. apply shortest_zero in Sx. rewrite Sx in E. symmetry in E. apply Rmult_integral in E. pose proof (p10_pos (- len fp)). destruct E as [E|E]; [|lra].
  apply eq_IZR in E. subst M. apply HM. reflexivity.
Qed.

Lemma c106_whole : forall w opt val prec bitSize mb eb b s v t x, w = 32 \/ w = 64 ->
  as_float bitSize val mb eb b s -> ieee mb eb b = VNum s (sgnR s v) -> prec < 0 ->
  FormatFloat w opt val 102 prec bitSize = Ret t -> prints_f s [] x t ->
  exists t', FormatFloat w opt val 102 0 bitSize = Ret t' /\ (t = t' <-> (v < p2 (mb + 1))%R \/ x = v).
Proof.
  intros w opt val prec bitSize mb eb b s v t x Hw Ha Hx Hp Et Pt.
  destruct (f_rounded w opt val prec bitSize mb eb b s v t [] x Hw Ha Hx Hp Et Pt) as (Sx & _ & K2 & Pv & Fv & (flt & Hf) & t' & Et' & T).
  exists t'. split; [exact Et'|]. rewrite T. destruct (K2 eq_refl) as (M & E).
  rewrite <- (shortest_integer flt mb eb v x M Hf Pv Fv Sx E). unfold round10. cbn [length Z.of_nat Z.opp]. rewrite p10_0, !Rmult_1_r. reflexivity.
Qed.

Lemma c106_partial : forall w opt val prec bitSize mb eb b s v t fp x, w = 32 \/ w = 64 ->
  as_float bitSize val mb eb b s -> ieee mb eb b = VNum s (sgnR s v) -> prec < 0 ->
  FormatFloat w opt val 102 prec bitSize = Ret t -> prints_f s fp x t ->
  (fp = [] -> (v < p2 (mb + 1))%R) ->
  (fp <> [] -> (forall k, v <> p2 k) /\ (forall n, rn mb eb (mid_hi mb eb v) <> v -> sig_digits n (mid_hi mb eb v) -> sig_digits n x)) ->
  FormatFloat w opt val 102 (len fp) bitSize = Ret t.
Proof.
  intros w opt val prec bitSize mb eb b s v t fp x Hw Ha Hx Hp Et Pt H1 H2.
  destruct fp as [|f0 f] eqn:Ef.
  - destruct (c106_whole w opt val prec bitSize mb eb b s v t x Hw Ha Hx Hp Et Pt) as (t' & Et' & H). cbn [length Z.of_nat]. rewrite Et'. f_equal. symmetry. apply H. left. apply H1. reflexivity.
  - rewrite <- Ef in *. assert (Nf : fp <> []) by (rewrite Ef; discriminate). destruct (H2 Nf) as [Np Hn].
    destruct (c106_places w opt val prec bitSize mb eb b s v t fp x Hw Ha Hx Hp Et Pt Nf) as (t' & Et' & H).
    rewrite Et'. f_equal. symmetry. apply H. split; [|intros (n & G1 & G2 & G3); exfalso; apply G3, Hn; assumption].
    destruct (f_rounded w opt val prec bitSize mb eb b s v t fp x Hw Ha Hx Hp Et Pt) as (Sx & K1 & _ & Pv & Fv & (flt & Hf) & _).
    destruct (Req_dec v 0) as [V0|V0].
    + rewrite V0. unfold round10. rewrite Rmult_0_l. replace (ZnearestE 0) with 0 by (symmetry; apply (Zrnd_IZR _ 0)). rewrite Rmult_0_l. apply rn_0.
    + destruct (K1 Nf) as (M & E & HM). apply (reads_closer flt mb eb v x); [exact Hf|lra|exact Fv|exact Np|exact (proj1 (proj2 Sx))|]. rewrite E. apply round10_nearest.
Qed.

Lemma c106_refuted : exists val v, as_float 64 val 52 11 val false /\ ieee 52 11 val = VNum false v /\
  (forall opt, FormatFloat 64 opt val 102 (-1) 64 = Ret (B "0.00000000000005684341886080802"%string)) /\
  (forall opt, FormatFloat 64 opt val 102 29 64 = Ret (B "0.00000000000005684341886080801"%string)).
Proof.
  assert (E64 : ieee 52 11 0x3D30000000000000 = VNum false (IZR (2 ^ 52) * p2 (-96))).
  { rewrite ieee_norm64 by (vm_compute; first [reflexivity|split; discriminate|split; [discriminate|reflexivity]]). reflexivity. }
  exists 0x3D30000000000000, (IZR (2 ^ 52) * p2 (-96))%R.
  split; [apply (as_float_64 0x3D30000000000000 false (IZR (2 ^ 52) * p2 (-96)) ltac:(lia) E64)|]. split; [exact E64|].
  split; intros []; vm_compute; reflexivity.
Qed.

Lemma c106_whole_refuted : exists val v, as_float 64 val 52 11 val false /\ ieee 52 11 val = VNum false v /\ v = p2 60 /\
  (forall opt, FormatFloat 64 opt val 102 (-1) 64 = Ret (B "1152921504606847000"%string)) /\
  (forall opt, FormatFloat 64 opt val 102 0 64 = Ret (B "1152921504606846976"%string)).
Proof.
  assert (E64 : ieee 52 11 0x43B0000000000000 = VNum false (IZR (2 ^ 52) * p2 8)).
  { rewrite ieee_norm64 by (vm_compute; first [reflexivity|split; discriminate|split; [discriminate|reflexivity]]). reflexivity. }
  exists 0x43B0000000000000, (IZR (2 ^ 52) * p2 8)%R.
  split; [apply (as_float_64 0x43B0000000000000 false (IZR (2 ^ 52) * p2 8) ltac:(lia) E64)|]. split; [exact E64|].
  split; [rewrite IZR_pow2, <- p2_plus by lia; reflexivity|].
  split; intros []; vm_compute; reflexivity.
Qed.
