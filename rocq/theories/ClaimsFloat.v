(** The lemmas behind the theorems about float.go. *)
From Coq Require Import ZArith Reals String List Bool Lia Lra.
From Flocq Require Import Core.
From Verif Require Import GoBase Spec SpecText SpecDec SpecFtoa BitFacts RoundFacts IeeeFacts BigFacts BigFacts2 DecFacts FtoaAll ClaimsFtoa.
From Verif Require BigFloat Ftoa.
From Verif Require Import FloatPkg PkgText PkgExact.
From Verif Require Import SpecFmt.
Import BigFloat (mkBF, frm, neg).
Import ListNotations.
Open Scope Z_scope.

Lemma fits_bits mb eb x s u : 0 <= mb -> 2 <= eb -> 2 ^ (eb - 1) <= BigFloat.MaxExp -> wf x -> bval x = VNum s u -> fits mb eb u ->
  exists b, 0 <= b < 2 ^ (mb + eb + 1) /\ ieee mb eb b = bval x.
Proof.
  intros Hm He Hx Wx Bx F. pose proof (ToFloat_val mb eb x Hm He Hx Wx) as T. destruct (BigFloat.ToFloat mb eb x) as [b a]. rewrite Bx in T. destruct T as [R [T _]].
  exists b. split; [exact R|]. rewrite T, Bx. apply fits_round; [lia|exact F].
Qed.

(** Infinities. *)
Lemma inf_panics w opt x s : w = 32 \/ w = 64 -> wf x -> bval x = VInf s ->
  IsExact64 w opt x = Panic /\ IsExact32 w opt x = Panic /\ IsExact16 w opt x = Panic.
Proof.
  intros Hw Wx Bx. assert (Fx : frm x = BigFloat.Inf) by (unfold bval in Bx; destruct (frm x); try discriminate; reflexivity).
  pose proof (text_inf x Fx) as T.
  pose proof (ToFloat_val 52 11 x ltac:(lia) ltac:(lia) ltac:(vm_compute; discriminate) Wx) as T64. pose proof (ToFloat_val 23 8 x ltac:(lia) ltac:(lia) ltac:(vm_compute; discriminate) Wx) as T32.
  unfold IsExact64, IsExact32, IsExact16, BigFloat.Float64, BigFloat.Float32. destruct (BigFloat.ToFloat 52 11 x) as [b a]. destruct (BigFloat.ToFloat 23 8 x) as [b' a'].
  rewrite Bx in T64, T32. destruct T64 as (R & E & ->). destruct T32 as (R' & E' & ->). cbn [BigFloat.accuracy_eqb negb].
  destruct (f32_to_f64_correct b' R') as [Rf Ef]. rewrite E' in Ef.
  rewrite (special_inf w opt b Ftoa.ch_e (-1) 64 s), (special_inf w opt b Ftoa.ch_e (-1) 16 s), (special_inf w opt _ Ftoa.ch_e (-1) 32 s Hw Rf) by auto.
  cbn [bind]. rewrite T. auto.
Qed.

Lemma finite_returns w opt x : w = 32 \/ w = 64 -> wf x -> frm x <> BigFloat.Inf ->
  exists c c' c'', IsExact64 w opt x = Ret c /\ IsExact32 w opt x = Ret c' /\ IsExact16 w opt x = Ret c''.
Proof.
  intros Hw Wx Fx. destruct (bval x) as [s|s|s u] eqn:Bx; [unfold bval in Bx; destruct (frm x); discriminate|unfold bval in Bx; destruct (frm x); try discriminate; contradiction|].
  destruct (bval_neg x s u Wx Bx) as [Es Eu]. pose proof Bx as Bx'. rewrite Eu, Es in Bx'. destruct (text_trim x (Rabs u) Wx Bx' (Rabs_pos u)) as (fp & t & E2 & _).
  assert (G : forall val bits, 0 <= val < 2 ^ 64 -> bits = 16 \/ bits = 32 \/ bits = 64 -> exists t, Ftoa.FormatFloat w opt val Ftoa.ch_e (-1) bits = Ret t).
  { intros val bits Hv Hb. assert (Hp : - 2 ^ (w - 1) <= -1 < 2 ^ (w - 1)) by (destruct Hw as [-> | ->]; cbn; lia).
    apply c57t; auto; destruct Hw as [-> | ->]; cbn; lia. }
  pose proof (ToFloat_val 52 11 x ltac:(lia) ltac:(lia) ltac:(vm_compute; discriminate) Wx) as T64. pose proof (ToFloat_val 23 8 x ltac:(lia) ltac:(lia) ltac:(vm_compute; discriminate) Wx) as T32.
  unfold IsExact64, IsExact32, IsExact16, BigFloat.Float64, BigFloat.Float32. destruct (BigFloat.ToFloat 52 11 x) as [b a]. destruct (BigFloat.ToFloat 23 8 x) as [b' a'].
  destruct T64 as (R & _). destruct T32 as (R' & _). destruct (f32_to_f64_correct b' R') as [Rf _].
  destruct (G b 64 R ltac:(auto)) as (t1 & E64). destruct (G _ 32 Rf ltac:(auto)) as (t3 & E32). destruct (G b 16 R ltac:(auto)) as (t5 & E16).
  rewrite E64, E32, E16. cbn [bind]. rewrite E2. cbn [bind].
  destruct (negb (BigFloat.accuracy_eqb a BigFloat.Exact)); destruct (negb (BigFloat.accuracy_eqb a' BigFloat.Exact)); eexists _, _, _; split; try reflexivity; split; reflexivity.
Qed.

Lemma ToFloat_fits mb eb x s u : 1 <= mb -> 2 <= eb -> 2 ^ (eb - 1) <= BigFloat.MaxExp -> wf x -> bval x = VNum s u -> fits mb eb u \/ ~ fits mb eb u.
Proof.
  intros Hm He Hx Wx Bx. pose proof (ToFloat_val mb eb x ltac:(lia) He Hx Wx) as T. destruct (BigFloat.ToFloat mb eb x) as [b a]. rewrite Bx in T. destruct T as [R [T Ta]].
  destruct (exact_fits mb eb b a s u Hm He R T Ta) as [A _]. destruct (BigFloat.accuracy_eqb a BigFloat.Exact); [left; apply A; reflexivity|right; intros F; apply A in F; discriminate].
Qed.

Lemma sig_abs n u : sig_digits n u <-> sig_digits n (Rabs u).
Proof.
  split; intros (M & q & E & H).
  - exists (Z.abs M), q. split; [|lia]. rewrite E, Rabs_mult, abs_IZR. f_equal. apply Rabs_pos_eq, Rlt_le, p10_pos.
  - unfold Rabs in E. destruct (Rcase_abs u); [exists (- M), q|exists M, q; auto]. split; [rewrite opp_IZR; lra|lia].
Qed.

Lemma many_digits n : n <= 18 -> ~ sig_digits n (IZR (2 ^ 60)) /\ ~ sig_digits n (sig_round 101 (IZR (2 ^ 60))).
Proof.
  intros Hn. assert (K : ~ sig_digits n (IZR (2 ^ 60))).
  { intros S. apply (FtoaShort.sig_mono n 18 _ Hn) in S. destruct (ExtShort.sig_multiple 18 (IZR (2 ^ 60)) 1 ltac:(lia) S) as [q Hq].
    - change (1 + 18 - 1) with 18. rewrite <- IZR_p10 by lia. apply IZR_le. discriminate.
    - change (p10 1) with (IZR 10) in Hq. rewrite <- mult_IZR in Hq. apply eq_IZR in Hq. assert (D : (2 ^ 60) mod 10 = 0) by (rewrite Hq; apply Z.mod_mul; lia). discriminate. }
  split; [exact K|]. rewrite sig_round_id; [exact K|lia|]. exists (2 ^ 60), 0. split; [rewrite p10_0; ring|reflexivity].
Qed.

(** A witness for the refutations. *)
Definition big (m e : Z) : BigFloat.bigfloat := mkBF 64 BigFloat.ToNearestEven BigFloat.Exact false (BigFloat.Finite m e).
Lemma big_wf m e : 0 < m < 2 ^ 64 -> -2000 <= e <= 2000 -> wf (big m e).
Proof.
  intros Hm He. split; [cbn; unfold BigFloat.MaxPrec; lia|]. cbn [frm big]. split; [lia|]. split; [exists m, 0; cbn [BigFloat.prec big]; lia|].
  unfold BigFloat.gexp. assert (0 <= BigFloat.bitlen m <= 64).
  { unfold BigFloat.bitlen. destruct (m <=? 0) eqn:E; [lia|]. pose proof (Z.log2_nonneg m). assert (Z.log2 m < 64) by (apply Z.log2_lt_pow2; lia). lia. }
  unfold BigFloat.MinExp, BigFloat.MaxExp. lia.
Qed.

Lemma c30_64 : forall w opt x, w = 32 \/ w = 64 -> wf x -> IsExact64 w opt x = Ret true ->
  exists b, 0 <= b < 2 ^ 64 /\ ieee 52 11 b = bval x.
Proof.
  intros w opt x Hw Wx H. destruct (bval x) as [s|s|s u] eqn:Bx.
  - unfold bval in Bx. destruct (frm x); discriminate.
  - destruct (inf_panics w opt x s Hw Wx Bx) as (P64 & P32 & _). congruence.
  - destruct (exact64 w opt x s u Hw Wx Bx) as [_ N]. rewrite <- Bx. apply (fits_bits 52 11 x s u); auto; try lia; [vm_compute; discriminate|].
    destruct (ToFloat_fits 52 11 x s u ltac:(lia) ltac:(lia) ltac:(vm_compute; discriminate) Wx Bx) as [F|F]; [exact F|].
    rewrite (N F) in H. discriminate.
Qed.

Lemma c30_32 : forall w opt x, w = 32 \/ w = 64 -> wf x -> IsExact32 w opt x = Ret true ->
  exists b, 0 <= b < 2 ^ 32 /\ ieee 23 8 b = bval x.
Proof.
  intros w opt x Hw Wx H. destruct (bval x) as [s|s|s u] eqn:Bx.
  - unfold bval in Bx. destruct (frm x); discriminate.
  - destruct (inf_panics w opt x s Hw Wx Bx) as (P64 & P32 & _). congruence.
  - destruct (exact32 w opt x s u Hw Wx Bx) as [_ N]. rewrite <- Bx. apply (fits_bits 23 8 x s u); auto; try lia; [vm_compute; discriminate|].
    destruct (ToFloat_fits 23 8 x s u ltac:(lia) ltac:(lia) ltac:(vm_compute; discriminate) Wx Bx) as [F|F]; [exact F|].
    rewrite (N F) in H. discriminate.
Qed.

Lemma c31r : exists x, wf x /\ bval x = VNum false 65500 /\ IsExact16 64 true x = Ret true /\
  forall b, 0 <= b < 2 ^ 16 -> ieee 10 5 b <> bval x.
Proof.
  exists (big 65500 0). split; [apply big_wf; lia|]. split; [cbn; change (p2 0) with 1%R; f_equal; lra|]. split; [vm_compute; reflexivity|].
  intros b Hb E. assert (Bx : bval (big 65500 0) = VNum false 65500) by (cbn; change (p2 0) with 1%R; f_equal; lra). rewrite Bx in E.
  destruct (fits_ieee 10 5 b false 65500 ltac:(lia) ltac:(lia) Hb E) as [[(M & c & EM & HM & _) _] _]. change (2 ^ (10 + 1)) with 2048 in HM.
  destruct (Z_le_gt_dec c 2) as [L|L].
  - assert (K : (IZR M * p2 c <= 2047 * 4)%R).
    { assert (p2 c <= p2 2)%R by (apply p2_le; lia). change (p2 2) with 4%R in *. pose proof (p2_pos c). assert (M <= 2047) as B by lia. apply IZR_le in B.
      destruct (Rle_lt_dec 0 (IZR M)); [apply Rmult_le_compat; lra|]. apply Rle_trans with 0%R; [|lra]. assert (0 <= (- IZR M) * p2 c)%R by (apply Rmult_le_pos; lra). lra. }
    lra.
  - assert (K : 65500 = M * 2 ^ (c - 3) * 8).
    { apply eq_IZR. rewrite EM, !mult_IZR, IZR_pow2 by lia. change 8%R with (p2 3). rewrite Rmult_assoc, <- p2_plus. do 2 f_equal. lia. }
    assert (65500 mod 8 = 0) as D by (rewrite K; apply Z.mod_mul; lia). discriminate.
Qed.

Lemma c31p : forall w opt x s u, w = 32 \/ w = 64 -> wf x -> bval x = VNum s u -> IsExact16 w opt x = Ret true ->
  (exists b, 0 <= b < 2 ^ 16 /\ ieee 10 5 b = bval x) \/
  (exists N, u = IZR N /\ 2048 < Z.abs N < 65520 /\ sig_digits 5 u /\ fewest_digits 10 5 (rn 10 5 (Rabs u)) (Rabs u)).
Proof.
  intros w opt x s u Hw Wx Bx H. destruct (true16 w opt x s u Hw Wx Bx H) as (F & R & W & S). destruct (bval_neg x s u Wx Bx) as [_ Eu].
  destruct (sound16 (Rabs u) (Rabs_pos u) (fits_abs 52 11 s u Eu F) R W S) as [G|(N & EN & HN)].
  - left. apply (fits_bits 10 5 x s u); auto; try lia; [vm_compute; discriminate|].
    destruct s; cbn [sgnR] in Eu; [|rewrite Eu; exact G]. destruct G as [(M & c & EM & HM & Hc) G]. split; [|rewrite Rabs_Rabsolu in G; exact G].
    exists (- M), c. split; [rewrite opp_IZR, Eu, EM; ring|]. split; [lia|exact Hc].
  - right. exists (if s then - N else N). split; [destruct s; cbn [sgnR] in Eu; rewrite Eu, EN; [rewrite opp_IZR|]; reflexivity|]. split; [destruct s; lia|]. split; [|exact W].
    destruct S as (M & q & EM & HM). exists (if s then - M else M), q. split; [|destruct s; lia]. destruct s; cbn [sgnR] in Eu; rewrite Eu, EM; [rewrite opp_IZR|]; ring.
Qed.

Lemma c32r : (exists x b, wf x /\ 0 <= b < 2 ^ 64 /\ ieee 52 11 b = bval x /\ IsExact64 64 true x = Ret false) /\
  (exists x b, wf x /\ 0 <= b < 2 ^ 32 /\ ieee 23 8 b = bval x /\ IsExact32 64 true x = Ret false) /\
  (exists x b, wf x /\ 0 <= b < 2 ^ 16 /\ ieee 10 5 b = bval x /\ IsExact16 64 true x = Ret false).
Proof.
  split; [|split].
  - exists (big 0x1999999999999A (-56)), 0x3FB999999999999A. split; [apply big_wf; lia|]. split; [lia|]. split; [|vm_compute; reflexivity].
    unfold ieee. cbv zeta. cbn. do 2 f_equal.
  - exists (big 0xCCCCCD (-27)), 0x3DCCCCCD. split; [apply big_wf; lia|]. split; [lia|]. split; [|vm_compute; reflexivity].
    unfold ieee. cbv zeta. cbn. do 2 f_equal.
  - exists (big 0x666 (-14)), 0x2E66. split; [apply big_wf; lia|]. split; [lia|]. split; [|vm_compute; reflexivity].
    unfold ieee. cbv zeta. cbn. do 2 f_equal.
Qed.

Lemma c32_64 : forall w opt x s u b, w = 32 \/ w = 64 -> wf x -> bval x = VNum s u ->
  0 <= b < 2 ^ 64 -> ieee 52 11 b = bval x ->
  sig_digits 15 u \/ (exists N, u = IZR N /\ Z.abs N < 2 ^ 53) ->
  IsExact64 w opt x = Ret true.
Proof.
  intros w opt x s u b Hw Wx Bx Hb Eb HS. destruct (bval_neg x s u Wx Bx) as [_ Eu]. rewrite Bx in Eb.
  assert (F : fits 52 11 u) by (apply (fits_ieee 52 11 b s u); auto; lia). assert (Fa := fits_abs 52 11 s u Eu F).
  assert (K : forall y, rn 52 11 y = Rabs u -> (0 <= y)%R -> fewest_digits 52 11 (Rabs u) y -> y = sig_round 101 (Rabs u)).
  { intros y R Y W. destruct HS as [S|(N & EN & HN)].
    - assert (Sa : sig_digits 15 (Rabs u)) by (apply (proj1 (sig_abs _ _)); exact S).
      rewrite (sig_round_id 101 _ ltac:(lia) (FtoaShort.sig_mono 15 101 _ ltac:(lia) Sa)).
      apply (short_exact 52 11 15); auto; try lia; try apply Rabs_pos; vm_compute; first [reflexivity|discriminate].
    - assert (Ea : Rabs u = IZR (Z.abs N)) by (rewrite EN, abs_IZR; reflexivity). rewrite Ea in *.
      assert (S1 : sig_digits 101 (IZR (Z.abs N))) by (exists (Z.abs N), 0; rewrite p10_0; split; [ring|]; rewrite Z.abs_eq by lia; apply Z.lt_trans with (1 := HN); reflexivity).
      rewrite (sig_round_id 101 _ ltac:(lia) S1).
      apply (short_int 52 11); auto; try lia; cbn; lia. }
    destruct (proj1 (exact64 w opt x s u Hw Wx Bx) F) as (y & c & E & C & Y & R & W & _).
    rewrite E. f_equal. apply C. apply K; assumption.
Qed.

Lemma c32_32 : forall w opt x s u b, w = 32 \/ w = 64 -> wf x -> bval x = VNum s u ->
  0 <= b < 2 ^ 32 -> ieee 23 8 b = bval x ->
  sig_digits 7 u \/ (exists N, u = IZR N /\ Z.abs N < 2 ^ 24) ->
  IsExact32 w opt x = Ret true.
Proof.
  intros w opt x s u b Hw Wx Bx Hb Eb HS. destruct (bval_neg x s u Wx Bx) as [_ Eu]. rewrite Bx in Eb.
  assert (F : fits 23 8 u) by (apply (fits_ieee 23 8 b s u); auto; lia). assert (Fa := fits_abs 23 8 s u Eu F).
  assert (K : forall y, rn 23 8 y = Rabs u -> (0 <= y)%R -> fewest_digits 23 8 (Rabs u) y -> y = sig_round 101 (Rabs u)).
  { intros y R Y W. destruct HS as [S|(N & EN & HN)].
    - assert (Sa : sig_digits 7 (Rabs u)) by (apply (proj1 (sig_abs _ _)); exact S).
      rewrite (sig_round_id 101 _ ltac:(lia) (FtoaShort.sig_mono 7 101 _ ltac:(lia) Sa)).
      apply (short_exact 23 8 7); auto; try lia; try apply Rabs_pos; vm_compute; first [reflexivity|discriminate].
    - assert (Ea : Rabs u = IZR (Z.abs N)) by (rewrite EN, abs_IZR; reflexivity). rewrite Ea in *.
      assert (S1 : sig_digits 101 (IZR (Z.abs N))) by (exists (Z.abs N), 0; rewrite p10_0; split; [ring|]; rewrite Z.abs_eq by lia; apply Z.lt_trans with (1 := HN); reflexivity).
      rewrite (sig_round_id 101 _ ltac:(lia) S1).
      apply (short_int 23 8); auto; try lia; cbn; lia. }
    destruct (proj1 (exact32 w opt x s u Hw Wx Bx) F) as (y & c & E & C & Y & R & W & _).
    rewrite E. f_equal. apply C. apply K; assumption.
Qed.

Lemma c32_16 : forall w opt x s u b, w = 32 \/ w = 64 -> wf x -> bval x = VNum s u ->
  0 <= b < 2 ^ 16 -> ieee 10 5 b = bval x ->
  sig_digits 3 u \/ (exists N, u = IZR N /\ Z.abs N < 2 ^ 11) ->
  IsExact16 w opt x = Ret true.
Proof.
  intros w opt x s u b Hw Wx Bx Hb Eb HS. destruct (bval_neg x s u Wx Bx) as [_ Eu]. rewrite Bx in Eb.
  assert (F : fits 10 5 u) by (apply (fits_ieee 10 5 b s u); auto; lia). assert (Fa := fits_abs 10 5 s u Eu F).
  assert (K : forall y, rn 10 5 y = Rabs u -> (0 <= y)%R -> fewest_digits 10 5 (Rabs u) y -> y = sig_round 101 (Rabs u)).
  { intros y R Y W. destruct HS as [S|(N & EN & HN)].
    - assert (Sa : sig_digits 3 (Rabs u)) by (apply (proj1 (sig_abs _ _)); exact S).
      rewrite (sig_round_id 101 _ ltac:(lia) (FtoaShort.sig_mono 3 101 _ ltac:(lia) Sa)).
      apply (short_exact 10 5 3); auto; try lia; try apply Rabs_pos; vm_compute; first [reflexivity|discriminate].
    - assert (Ea : Rabs u = IZR (Z.abs N)) by (rewrite EN, abs_IZR; reflexivity). rewrite Ea in *.
      assert (S1 : sig_digits 101 (IZR (Z.abs N))) by (exists (Z.abs N), 0; rewrite p10_0; split; [ring|]; rewrite Z.abs_eq by lia; apply Z.lt_trans with (1 := HN); reflexivity).
      rewrite (sig_round_id 101 _ ltac:(lia) S1).
      apply (short_int 10 5); auto; try lia; cbn; lia. }
    assert (F64 : fits 52 11 u).
    { destruct F as [(M & c & EM & HM & Hc) Hu]. change (2 ^ (10 + 1)) with 2048 in HM. change (2 - 2 ^ (5 - 1) - 10) with (-24) in Hc. split; [exists M, c; split; [exact EM|]; split; [change (2 ^ (52 + 1)) with 9007199254740992; lia|cbn; lia]|].
      apply Rlt_le_trans with (1 := Hu). apply p2_le. cbn. lia. }
    assert (Rr : rn 10 5 (Rabs u) = Rabs u) by (apply fits_rn; [lia|exact Fa]).
    assert (Ru : (Rabs (rn 10 5 u) < p2 16)%R) by (rewrite (fits_rn 10 5 u ltac:(lia) F); apply F).
    destruct (proj1 (exact16 w opt x s u Hw Wx Bx) F64 (or_intror (or_intror F)) Ru) as (y & c & E & C & Y & R & W & _). rewrite Rr in R, W.
    rewrite E. f_equal. apply C. apply K; assumption.
Qed.

Lemma c32n_64 : forall w opt x s u, w = 32 \/ w = 64 -> wf x -> bval x = VNum s u ->
  ~ sig_digits 17 (sig_round 101 u) -> IsExact64 w opt x = Ret false.
Proof.
  intros w opt x s u Hw Wx Bx N. destruct (ToFloat_fits 52 11 x s u ltac:(lia) ltac:(lia) ltac:(vm_compute; discriminate) Wx Bx) as [F|F].
  - destruct (proj1 (exact64 w opt x s u Hw Wx Bx) F) as (y & c & E & C & Y & R & W & S & _). rewrite E. destruct c; [|reflexivity]. exfalso. apply N.
    destruct (bval_neg x s u Wx Bx) as [_ Eu]. assert (Ey : y = sig_round 101 (Rabs u)) by (apply C; reflexivity). rewrite Ey in S. apply (proj2 (sig_abs _ _)).
    replace (Rabs (sig_round 101 u)) with (sig_round 101 (Rabs u)); [exact S|]. rewrite Eu at 2. unfold sig_round.
    assert (P : Prec_gt_0 101) by reflexivity. assert (VE : Valid_exp (FLX_exp 101)) by (apply FLX_exp_valid; exact P).
    assert (G : (0 <= Generic_fmt.round radix10 (FLX_exp 101) ZnearestE (Rabs u))%R).
    { rewrite <- (round_0 radix10 (FLX_exp 101) ZnearestE) at 1. apply round_le; [exact VE|apply valid_rnd_N|apply Rabs_pos]. }
    destruct s; cbn [sgnR]; [rewrite round_NE_opp, Rabs_Ropp|]; symmetry; apply Rabs_pos_eq; exact G.
  - apply (proj2 (exact64 w opt x s u Hw Wx Bx) F).
Qed.

Lemma c32n_32 : forall w opt x s u, w = 32 \/ w = 64 -> wf x -> bval x = VNum s u ->
  ~ sig_digits 9 (sig_round 101 u) -> IsExact32 w opt x = Ret false.
Proof.
  intros w opt x s u Hw Wx Bx N. destruct (ToFloat_fits 23 8 x s u ltac:(lia) ltac:(lia) ltac:(vm_compute; discriminate) Wx Bx) as [F|F].
  - destruct (proj1 (exact32 w opt x s u Hw Wx Bx) F) as (y & c & E & C & Y & R & W & S & _). rewrite E. destruct c; [|reflexivity]. exfalso. apply N.
    destruct (bval_neg x s u Wx Bx) as [_ Eu]. assert (Ey : y = sig_round 101 (Rabs u)) by (apply C; reflexivity). rewrite Ey in S. apply (proj2 (sig_abs _ _)).
    replace (Rabs (sig_round 101 u)) with (sig_round 101 (Rabs u)); [exact S|]. rewrite Eu at 2. unfold sig_round.
    assert (P : Prec_gt_0 101) by reflexivity. assert (VE : Valid_exp (FLX_exp 101)) by (apply FLX_exp_valid; exact P).
    assert (G : (0 <= Generic_fmt.round radix10 (FLX_exp 101) ZnearestE (Rabs u))%R).
    { rewrite <- (round_0 radix10 (FLX_exp 101) ZnearestE) at 1. apply round_le; [exact VE|apply valid_rnd_N|apply Rabs_pos]. }
    destruct s; cbn [sgnR]; [rewrite round_NE_opp, Rabs_Ropp|]; symmetry; apply Rabs_pos_eq; exact G.
  - apply (proj2 (exact32 w opt x s u Hw Wx Bx) F).
Qed.

Lemma c32n_16 : forall w opt x s u, w = 32 \/ w = 64 -> wf x -> bval x = VNum s u ->
  ~ sig_digits 5 u -> IsExact16 w opt x = Ret false.
Proof.
  intros w opt x s u Hw Wx Bx N. destruct (finite_returns w opt x Hw Wx) as (_ & _ & c & _ & _ & E).
  { intros K. unfold bval in Bx. rewrite K in Bx. discriminate. }
  rewrite E. destruct c; [|reflexivity]. exfalso. apply N. destruct (true16 w opt x s u Hw Wx Bx E) as (_ & _ & _ & S). apply (proj2 (sig_abs _ _)). exact S.
Qed.

Lemma c33r : exists x, wf x /\ bval x = VInf false /\ IsExact64 64 true x = Panic /\ IsExact32 64 true x = Panic /\ IsExact16 64 true x = Panic.
Proof.
  exists (mkBF 64 BigFloat.ToNearestEven BigFloat.Exact false BigFloat.Inf). split; [split; [vm_compute; split; discriminate|exact I]|]. split; [reflexivity|].
  split; [|split]; vm_compute; reflexivity.
Qed.

Lemma c33p : forall w opt x, w = 32 \/ w = 64 -> wf x -> frm x <> BigFloat.Inf ->
  exists c c' c'', IsExact64 w opt x = Ret c /\ IsExact32 w opt x = Ret c' /\ IsExact16 w opt x = Ret c''.
Proof.
  exact finite_returns.
Qed.

Lemma c33i : forall w opt x s, w = 32 \/ w = 64 -> wf x -> bval x = VInf s ->
  IsExact64 w opt x = Panic /\ IsExact32 w opt x = Panic /\ IsExact16 w opt x = Panic.
Proof.
  exact inf_panics.
Qed.

Lemma c34r : exists s t, prints_e 101 true [] 0 s /\ trimZeros s = Ret t /\ ~ exists ng fp x, prints_e 101 ng fp x t.
Proof.
  exists (B "-0e+00"), (B "-e+00"). split; [|split; [reflexivity|]].
  - exists 48, 0, [43; 48; 48]. split; [reflexivity|]. split; [exists [48; 48]; split; [reflexivity|]; split; [repeat constructor; cbn; lia|]; split; [reflexivity|left; reflexivity]|].
    split; [repeat constructor; cbn; lia|]. split; [cbn; ring|auto].
  - intros (ng & fp & x & a & X & xs & E & _ & A & _). assert (Aa : dig10 a) by (apply all_dig10 in A; inversion A; assumption). unfold dig10 in Aa.
    change (B "-e+00") with [45; 101; 43; 48; 48] in E. destruct ng; cbn [sign_text app] in E; injection E; intros; lia.
Qed.

Lemma c34p : forall ng fp x s, prints_e 101 ng fp x s -> fp <> [] \/ ng = false \/ x <> 0%R ->
  exists fp' k, fp = fp' ++ repeat 48 k /\ no_zero_end fp' /\ exists t, trimZeros s = Ret t /\ prints_e 101 ng fp' x t.
Proof.
  exact trimZeros_ok.
Qed.

Lemma c34s : forall ng fp fp' x s s' t t', prints_e 101 ng fp x s -> prints_e 101 ng fp' x s' ->
  fp <> [] \/ ng = false \/ x <> 0%R -> fp' <> [] \/ ng = false \/ x <> 0%R ->
  trimZeros s = Ret t -> trimZeros s' = Ret t' -> t = t'.
Proof.
  intros ng fp fp' x s s' t t' P P' H H' T T'. destruct (trimZeros_ok ng fp x s P H) as (f & k & _ & N & u & E & Q).
  destruct (trimZeros_ok ng fp' x s' P' H') as (f' & k' & _ & N' & u' & E' & Q'). rewrite T in E. rewrite T' in E'. injection E as ->. injection E' as ->.
  apply (prints_e_unique 101 ng f f' x); assumption.
Qed.

Lemma c34f : forall pre fp xs, Forall (fun c => c <> 101) pre -> all_digits 10 fp ->
  exists fp' k, fp = fp' ++ repeat 48 k /\ no_zero_end fp' /\
    trimZeros (pre ++ 46 :: fp ++ 101 :: xs) = Ret (pre ++ point fp' ++ 101 :: xs).
Proof.
  intros pre fp xs Hp A. apply all_dig10 in A. destruct (split_zeros fp) as (fp' & k & E & N). exists fp', k. split; [exact E|]. split; [exact N|].
  replace (pre ++ 46 :: fp ++ 101 :: xs) with ((pre ++ 46 :: fp) ++ 101 :: xs) by (rewrite <- app_assoc; reflexivity).
  assert (F : Forall (fun c => c <> 101) (pre ++ 46 :: fp)).
  { apply Forall_app. split; [exact Hp|]. constructor; [lia|]. eapply Forall_impl; [|exact A]. unfold dig10. intros. lia. }
  destruct fp' as [|g0 gt] eqn:Ef.
  - rewrite (trim_cut _ pre 46 k xs); [reflexivity|rewrite E; reflexivity|lia|exact F].
  - rewrite <- Ef in *. destruct (exists_last (l := fp')) as (g & c & Eg); [rewrite Ef; discriminate|].
    assert (Nc : c <> 48) by (unfold no_zero_end in N; rewrite Eg, last_last in N; exact N).
    assert (Dc : dig10 c) by (rewrite E, Eg in A; apply Forall_app in A; destruct A as [A _]; apply Forall_app in A; destruct A as [_ A]; inversion A; assumption).
    rewrite (trim_cut _ (pre ++ 46 :: g) c k xs); [|rewrite E, Eg, <- !app_assoc; cbn [app]; rewrite <- ?app_assoc; reflexivity|exact Nc|exact F].
    unfold dig10 in Dc. destruct (Z.eqb_spec c 46); [lia|]. assert (Pp : point fp' = 46 :: fp') by (rewrite Ef; reflexivity). rewrite Pp, Eg, <- !app_assoc. cbn [app]. rewrite <- app_assoc. reflexivity.
Qed.

Lemma c34n : forall s, Forall (fun c => c <> 101) s -> trimZeros s = Panic.
Proof.
  intros s H. unfold trimZeros. replace (index_e s) with (@None nat); [reflexivity|]. induction H as [|c t Hc H IH]; [reflexivity|].
  cbn [index_e]. destruct (Z.eqb_spec c 101); [contradiction|]. rewrite <- IH. reflexivity.
Qed.

