(** ftoa.go with a fixed precision: bigFtoa and the fast path. *)
From Coq Require Import ZArith Reals String List Bool Lia Lra.
From Flocq Require Import Core.
From Verif Require Import GoBase Spec SpecText SpecDec SpecFtoa SpecFmt BitFacts RoundFacts DecFacts DecFacts2 ClaimsDec.
From Verif Require Import ExtFacts ExtFixed ExtBounds ClaimsExt FtoaText.
From Verif Require Import ExtFloat Ftoa.
From Verif Require Decimal.
Import ListNotations.
Import Decimal (d, dp, trunc, nd, mkDec).
Open Scope Z_scope.

Lemma dnorm_dg a : dnorm a -> dg (d a) (dp a).
Proof. intros (A & B & C & _ & D). split; [exact A|]. split; [exact B|]. split; [exact C|exact D]. Qed.

(** * Lengths *)
Lemma round_up_rev_length l : forall r, Decimal.round_up_rev l = Some r -> (length r <= length l)%nat.
Proof.
  induction l as [|c t IH]; intros r H; cbn [Decimal.round_up_rev] in H; [discriminate|].
  destruct (c <? 9); [injection H as <-; cbn [length]; lia|]. apply IH in H. cbn [length]. lia.
Qed.

Lemma strip_length l : (length (Decimal.strip l) <= length l)%nat.
Proof. destruct (strip_spec l) as [n E]. apply (f_equal (@length Z)) in E. rewrite app_length in E. lia. Qed.

Lemma Round_len a n : 0 <= n -> let r := Decimal.Round a n in
  len (d r) <= Z.max n 1 /\ (0 <= n - dp a -> len (d r) - dp r <= n - dp a).
Proof.
  intros Hn. cbn zeta. unfold Decimal.Round, Decimal.nd. destruct (Z.ltb_spec n 0); [lia|].
  destruct (Z.leb_spec (len (d a)) n) as [L|L]; cbn [orb]; [lia|].
  destruct (Decimal.shouldRoundUp a n).
  - unfold Decimal.RoundUp, Decimal.nd. destruct (Z.ltb_spec n 0); [lia|]. destruct (Z.leb_spec (len (d a)) n) as [|_]; [lia|]. cbn [orb].
    destruct (Decimal.round_up_rev (rev (firstn (Z.to_nat n) (d a)))) as [r|] eqn:E; cbn [d dp length]; [|lia].
    apply round_up_rev_length in E. rewrite rev_length in E |- *. rewrite firstn_length in E. lia.
  - unfold Decimal.RoundDown, Decimal.nd. destruct (Z.ltb_spec n 0); [lia|]. destruct (Z.leb_spec (len (d a)) n) as [|_]; [lia|]. cbn [orb].
    unfold Decimal.trim. cbn [d dp]. pose proof (strip_length (firstn (Z.to_nat n) (d a))) as S. rewrite firstn_length in S.
    destruct (Z.eqb_spec (len (Decimal.strip (firstn (Z.to_nat n) (d a)))) 0); lia.
Qed.

(** * Rounding to significant digits *)
Lemma sig_round_0 n : sig_round n 0 = 0%R.
Proof. apply round_0, valid_rnd_N. Qed.

Lemma sig_round_dec a n : dnorm a -> trunc a = false -> 1 <= n ->
  let r := Decimal.Round a n in
  dnorm r /\ dval r = sig_round n (dval a) /\ len (d r) <= n.
Proof.
  intros Ha Ht Hn. cbn zeta. destruct (Round_all a n (dval a) Ha) as (R1 & R2 & _); [unfold cut_to; rewrite Ht; reflexivity|lia|auto|].
  split; [exact R1|]. split; [|destruct (Round_len a n ltac:(lia)) as [L _]; lia].
  destruct (dnorm_cases a Ha) as [[E V]|N].
  - rewrite V, sig_round_0. unfold Decimal.Round, Decimal.nd. rewrite E. cbn [length Z.of_nat]. destruct (Z.leb_spec 0 n); [|lia].
    rewrite orb_true_r. exact V.
  - rewrite R2. symmetry. apply sig_round_at; [exact Hn|]. replace (dp a - n + n) with (dp a) by lia.
    replace (dp a - n + n - 1) with (dp a - 1) by lia. apply dval_pos; assumption.
Qed.

Lemma sig_round_bounds n v q : 1 <= n -> (p10 (q - 1) <= v < p10 q)%R -> (p10 (q - 1) <= sig_round n v <= p10 q)%R.
Proof.
  intros Hn [H1 H2].
  assert (G : forall k, generic_format radix10 (FLX_exp n) (p10 k)) by (intros k; apply generic_format_bpow; unfold FLX_exp; lia).
  assert (VE : Valid_exp (FLX_exp n)) by (apply FLX_exp_valid; unfold Prec_gt_0; lia).
  split; [apply round_ge_generic; auto with typeclass_instances|apply round_le_generic; auto with typeclass_instances; lra].
Qed.

(** * The exact decimal *)
Lemma parts_range flt mb eb mt e : format_of flt mb eb -> float_parts mb eb mt e ->
  0 <= mt < 2 ^ 53 /\ -1074 <= e - mb <= 971 /\ 0 <= mb <= 52 /\ 2 <= eb <= 11 /\ mantbits flt = mb /\ expbits flt = eb /\ bias flt = 1 - 2 ^ (eb - 1).
Proof.
  intros Hf Hp.
  destruct Hf as [(-> & -> & ->)|[(-> & -> & ->)|(-> & -> & ->)]]; cbn [mantbits expbits bias float16info float32info float64info];
    unfold float_parts in Hp; cbn in Hp; lia.
Qed.

Section Parts.
Variables (flt : floatInfo) (mb eb mt e w : Z).
Hypothesis Hf : format_of flt mb eb.
Hypothesis Hp : float_parts mb eb mt e.
Hypothesis Hw : w = 32 \/ w = 64.
Let v := (IZR mt * p2 (e - mb))%R.

Lemma exact_dec : exists a b, Decimal.Assign Decimal.new_decimal mt = Ret a /\ Decimal.Shift w a (e - mantbits flt) = Ret b /\
  dnorm b /\ trunc b = false /\ dval b = v /\ -330 < dp b <= 330.
Proof.
  destruct (parts_range flt mb eb mt e Hf Hp) as (M & E & _ & _ & -> & _).
  destruct (c40_fmt w mt (e - mb) Hw ltac:(lia) ltac:(lia)) as (a & b & E1 & E2 & B1 & B2 & B3).
  exists a, b. split; [exact E1|]. split; [exact E2|]. split; [exact B1|]. split; [exact B2|]. split; [exact B3|].
  destruct (dnorm_cases b B1) as [[D _]|N].
  - destruct B1 as (_ & _ & _ & _ & B1). rewrite (B1 D). lia.
  - pose proof (dval_pos b B1 N) as [R1 R2]. rewrite B3 in R1, R2.
    assert (mt <> 0).
    { intros Z0. apply N. apply dval_0; [exact B1|]. rewrite B3, Z0. apply Rmult_0_l. }
    assert (U : (IZR mt * p2 (e - mb) < p10 330)%R).
    { apply Rlt_le_trans with (p2 53 * p2 (e - mb))%R.
      - apply Rmult_lt_compat_r; [apply p2_pos|]. rewrite <- IZR_pow2 by lia. apply IZR_lt. lia.
      - rewrite <- p2_plus. apply Rle_trans with (p2 1024); [apply p2_le; lia|]. rewrite <- IZR_pow2, <- IZR_p10 by lia. apply IZR_le.
        vm_compute. discriminate. }
    assert (L : (p10 (-330) < IZR mt * p2 (e - mb))%R).
    { apply Rlt_le_trans with (p2 (-1074)).
      - apply Rmult_lt_reg_r with (p10 330 * p2 1074)%R; [apply Rmult_lt_0_compat; [apply p10_pos|apply p2_pos]|].
        replace (p10 (-330) * (p10 330 * p2 1074))%R with (p2 1074 * (p10 330 * p10 (- (330))))%R by (change (- (330)) with (-330); ring).
        replace (p2 (-1074) * (p10 330 * p2 1074))%R with (p10 330 * (p2 (-1074) * p2 1074))%R by ring.
        rewrite p10_opp, <- p2_plus. change (-1074 + 1074) with 0. change (p2 0) with 1%R. rewrite !Rmult_1_r.
        rewrite <- IZR_pow2, <- IZR_p10 by lia. apply IZR_lt. vm_compute. reflexivity.
      - apply Rle_trans with (p2 (e - mb)); [apply p2_le; lia|]. pose proof (p2_pos (e - mb)). assert (1 <= IZR mt)%R by (apply IZR_le; lia). nra. }
    assert (dp b - 1 < 330) by (apply p10_lt_inv; lra). assert (-330 < dp b) by (apply p10_lt_inv; lra). lia.
Qed.

Lemma v_nonneg : (0 <= v)%R.
Proof.
  destruct (parts_range flt mb eb mt e Hf Hp) as (M & _). apply Rmult_le_pos; [apply IZR_le; lia|apply Rlt_le, p2_pos].
Qed.

(** Digits of [v] rounded to [n] places. *)
Definition fixed_digits (n : Z) (l : list Z) (p : Z) : Prop :=
  dg l p /\ len l <= n /\ lval l p = sig_round n v /\ -340 < p <= 340.

Lemma fixed_digits_unique n l p l' p' : fixed_digits n l p -> fixed_digits n l' p' -> l = l' /\ p = p'.
Proof.
  intros (A & _ & A2 & _) (B & _ & B2 & _). destruct (list_eq_dec Z.eq_dec l []) as [E|N].
  - destruct (list_eq_dec Z.eq_dec l' []) as [E'|N'].
    + rewrite E, E'. split; [reflexivity|]. destruct A as (_ & _ & _ & A). destruct B as (_ & _ & _ & B). rewrite A, B; auto.
    + exfalso. pose proof (dg_range l' p' B N') as R. rewrite B2, <- A2, E, lval_nil in R. pose proof (p10_pos (p' - 1)). lra.
  - destruct A as (A & A' & A'' & _). destruct B as (B & B' & B'' & _). apply lval_unique; auto. congruence.
Qed.

Lemma fixed_range n l p : 1 <= n -> dg l p -> lval l p = sig_round n v -> -340 < p <= 340.
Proof.
  intros Hn D E. destruct (list_eq_dec Z.eq_dec l []) as [El|N]; [destruct D as (_ & _ & _ & D); rewrite (D El); lia|].
  pose proof (dg_range l p D N) as R. rewrite E in R.
  destruct exact_dec as (a & b & _ & _ & B1 & B2 & B3 & B4).
  destruct (dnorm_cases b B1) as [[_ V]|Nb].
  - rewrite <- B3, V, sig_round_0 in R. pose proof (p10_pos (p - 1)). lra.
  - pose proof (dval_pos b B1 Nb) as Rb. rewrite B3 in Rb. pose proof (sig_round_bounds n v (dp b) Hn Rb) as S.
    assert (p - 1 < dp b + 1) by (apply p10_lt_inv; pose proof (p10_lt (dp b) (dp b + 1) ltac:(lia)); lra).
    assert (dp b - 1 < p) by (apply p10_lt_inv; lra). lia.
Qed.

Lemma slow_fixed n : 1 <= n -> exists a b, Decimal.Assign Decimal.new_decimal mt = Ret a /\ Decimal.Shift w a (e - mantbits flt) = Ret b /\
  fixed_digits n (d (Decimal.Round b n)) (dp (Decimal.Round b n)).
Proof.
  intros Hn. destruct exact_dec as (a & b & E1 & E2 & B1 & B2 & B3 & B4). exists a, b. split; [exact E1|]. split; [exact E2|].
  destruct (sig_round_dec b n B1 B2 Hn) as (R1 & R2 & R3). rewrite B3 in R2. apply dnorm_dg in R1.
  split; [exact R1|]. split; [exact R3|]. split; [exact R2|]. apply (fixed_range n _ _ Hn R1 R2).
Qed.

Lemma fast_fixed n ng : 1 <= n <= 15 -> exists s ok, FixedDecimal (mkExt mt (e - mantbits flt) ng) (mkSlice [] 24 0 false) n = Ret (s, ok) /\
  (ok = true -> fixed_digits n (sd s) (sdp s)).
Proof.
  intros Hn. destruct (parts_range flt mb eb mt e Hf Hp) as (M & _ & _ & _ & Em & _). rewrite Em.
  destruct (Z.eq_dec mt 0) as [Z0|Nz].
  - exists (mkSlice [] 24 0 ng), true. split; [unfold FixedDecimal; rewrite Z0; reflexivity|]. intros _. cbn [sd sdp].
    split; [|split; [cbn; lia|split; [|lia]]].
    + split; [constructor|]. split; [unfold no_lead0; cbn; lia|]. split; [unfold no_trail0; cbn; lia|reflexivity].
    + unfold v. rewrite Z0, Rmult_0_l, sig_round_0. apply lval_nil.
  - destruct (c48 flt mb eb mt e ng n (mkSlice [] 24 0 false) Hf Hp ltac:(lia) Hn ltac:(cbn; lia)) as (s & ok & E & H).
    exists s, ok. split; [exact E|]. intros Hok. destruct (H Hok) as ((D1 & D2 & D3 & D4) & L & V).
    assert (D : dg (sd s) (sdp s)) by (split; [|split; [|split]]; auto; intros; contradiction).
    split; [exact D|]. split; [exact L|]. split; [exact V|]. apply (fixed_range n _ _ ltac:(lia) D V).
Qed.

Lemma sint_id x : - 2 ^ (w - 1) <= x < 2 ^ (w - 1) -> sint w x = x.
Proof. intros H. unfold sint. destruct Hw as [-> | ->]; cbn in *; rewrite Z.mod_small by lia; lia. Qed.

(** The number of significant digits of formats 'e' and 'g'. *)
Definition want (fmt prec : Z) : Z := if is_e fmt then prec + 1 else Z.max prec 1.

Lemma big_eg ng fmt prec : is_e fmt = true \/ is_g fmt = true -> 0 <= prec -> (is_e fmt = true -> prec < 2 ^ (w - 1) - 1) ->
  exists l p, fixed_digits (want fmt prec) l p /\ forall cap sg,
    bigFtoa w [] prec fmt ng mt e flt = Ret (formatDigits [] false ng (mkSlice l cap p sg) (if is_e fmt then prec else Z.max prec 1) fmt).
Proof.
  intros Hfmt Hprec HE. assert (W : 1 <= want fmt prec) by (unfold want; destruct (is_e fmt); lia).
  destruct (slow_fixed (want fmt prec) W) as (a & b & E1 & E2 & F). eexists _, _. split; [exact F|]. intros cap sg.
  unfold bigFtoa. rewrite E1. cbn [bind]. rewrite E2. cbn [bind]. destruct (Z.ltb_spec prec 0); [lia|].
  assert (NE : is_e fmt = true -> is_f fmt = false /\ is_g fmt = false).
  { unfold is_e, is_f, is_g, ch_e, ch_E, ch_f, ch_g, ch_G. intros H0. apply orb_prop in H0. destruct H0 as [H0|H0]; apply Z.eqb_eq in H0; subst fmt; split; reflexivity. }
  assert (NG : is_g fmt = true -> is_f fmt = false).
  { unfold is_e, is_f, is_g, ch_e, ch_E, ch_f, ch_g, ch_G. intros H0. apply orb_prop in H0. destruct H0 as [H0|H0]; apply Z.eqb_eq in H0; subst fmt; reflexivity. }
  unfold want. destruct (is_e fmt) eqn:Ee.
  - specialize (HE eq_refl). rewrite sint_id by (destruct Hw as [-> | ->]; cbn in *; lia). cbn [bind]. f_equal. apply formatDigits_slice.
  - destruct Hfmt as [?|G]; [discriminate|]. rewrite (NG G), G. cbn [bind]. f_equal.
    replace (if prec =? 0 then 1 else prec) with (Z.max prec 1) by (destruct (Z.eqb_spec prec 0); lia). apply formatDigits_slice.
Qed.

(** The two paths agree. *)
Lemma fast_slow ng fmt prec : 0 <= prec -> (is_e fmt = true -> prec < 2 ^ (w - 1) - 1) -> is_e fmt = true \/ is_f fmt = true \/ is_g fmt = true \/ 1 <= prec \/ mt = 0 ->
  ftoa_digits w true [] fmt prec ng mt e flt = bigFtoa w [] prec fmt ng mt e flt.
Proof.
  intros Hprec HE Hfmt. unfold ftoa_digits. cbn [negb]. destruct (Z.ltb_spec prec 0); [lia|].
  destruct (is_f fmt) eqn:Ef; [reflexivity|]. cbn [negb].
  assert (NE : is_e fmt = true -> is_g fmt = false).
  { unfold is_e, is_f, is_g, ch_e, ch_E, ch_f, ch_g, ch_G. intros H0. apply orb_prop in H0. destruct H0 as [H0|H0]; apply Z.eqb_eq in H0; subst fmt; reflexivity. }
  destruct (is_e fmt) eqn:Ee; [|destruct (is_g fmt) eqn:Eg].
  - rewrite (NE eq_refl). cbn [andb]. specialize (HE eq_refl).
    assert (S1 : sint w (prec + 1) = prec + 1) by (apply sint_id; destruct Hw as [-> | ->]; cbn in *; lia). rewrite S1. destruct (Z.leb_spec (prec + 1) 15); [|reflexivity].
    destruct (fast_fixed (prec + 1) ng ltac:(lia)) as (s & ok & E & F). rewrite E. cbn [bind]. destruct ok; [|reflexivity].
    destruct (big_eg ng fmt prec ltac:(auto) ltac:(lia) ltac:(intros; try congruence; lia)) as (l & p & F' & B). rewrite (B (scap s) (sneg s)). rewrite Ee. f_equal.
    unfold want in F'. rewrite Ee in F'. destruct (fixed_digits_unique _ _ _ _ _ (F eq_refl) F') as [<- <-]. destruct s; reflexivity.
  - replace (if true && (prec =? 0) then 1 else prec) with (Z.max prec 1) by (destruct (Z.eqb_spec prec 0); cbn [andb]; lia).
    assert (BE : bigFtoa w [] (Z.max prec 1) fmt ng mt e flt = bigFtoa w [] prec fmt ng mt e flt).
    { unfold bigFtoa. destruct (Z.ltb_spec (Z.max prec 1) 0); [lia|]. destruct (Z.ltb_spec prec 0); [lia|]. rewrite Ee, Ef, Eg.
      replace (if Z.max prec 1 =? 0 then 1 else Z.max prec 1) with (if prec =? 0 then 1 else prec); [reflexivity|].
      destruct (Z.eqb_spec prec 0); destruct (Z.eqb_spec (Z.max prec 1) 0); lia. }
    destruct (Z.leb_spec (Z.max prec 1) 15); [|exact BE].
    destruct (fast_fixed (Z.max prec 1) ng ltac:(lia)) as (s & ok & E & F). rewrite E. cbn [bind]. destruct ok; [|exact BE].
    destruct (big_eg ng fmt prec ltac:(auto) ltac:(lia) ltac:(intros; try congruence; lia)) as (l & p & F' & B). rewrite (B (scap s) (sneg s)). rewrite Ee. f_equal.
    unfold want in F'. rewrite Ee in F'. destruct (fixed_digits_unique _ _ _ _ _ (F eq_refl) F') as [<- <-]. destruct s; reflexivity.
  - cbn [andb]. destruct (Z.leb_spec prec 15); [|reflexivity].
    assert (U : forall s pr, formatDigits [] false ng s pr fmt = [37; fmt]) by (intros; unfold formatDigits; rewrite Ee, Ef, Eg; reflexivity).
    assert (BE : bigFtoa w [] prec fmt ng mt e flt = Ret [37; fmt]).
    { destruct exact_dec as (a & b & E1 & E2 & _). unfold bigFtoa. rewrite E1. cbn [bind]. rewrite E2. cbn [bind]. destruct (Z.ltb_spec prec 0); [lia|].
      rewrite Ee, Ef, Eg. cbn [bind]. rewrite U. reflexivity. }
    assert (X : exists s ok, FixedDecimal (mkExt mt (e - mantbits flt) ng) (mkSlice [] 24 0 false) prec = Ret (s, ok)).
    { destruct Hfmt as [?|[?|[?|[P|Z0]]]]; try discriminate.
      - destruct (fast_fixed prec ng ltac:(lia)) as (s & ok & E & _). exists s, ok. exact E.
      - unfold FixedDecimal. cbn [mant]. rewrite Z0. eexists _, _. reflexivity. }
    destruct X as (s & ok & ->). cbn [bind]. destruct ok; [|reflexivity]. rewrite U, BE. reflexivity.
Qed.

(** * The texts *)
Lemma slow_e ng fmt prec : is_e fmt = true -> 0 <= prec < 2 ^ (w - 1) - 1 ->
  exists s fp, bigFtoa w [] prec fmt ng mt e flt = Ret s /\ len fp = prec /\ prints_e fmt ng fp (sig_round (prec + 1) v) s.
Proof.
  intros He Hprec. destruct (big_eg ng fmt prec ltac:(auto) ltac:(lia) ltac:(intros; try congruence; lia)) as (l & p & (F1 & F2 & F3 & F4) & B). rewrite (B 0 false), He.
  unfold want in *. rewrite He in *.
  destruct (formatDigits_e false ng l 0 p false prec fmt prec He F1 ltac:(lia) ltac:(lia) F2) as (fp & L & _ & P).
  eexists _, fp. split; [reflexivity|]. split; [exact L|]. rewrite <- F3. exact P.
Qed.

Lemma slow_g ng fmt prec : is_g fmt = true -> 0 <= prec ->
  exists s fp, bigFtoa w [] prec fmt ng mt e flt = Ret s /\ no_zero_end fp /\
    prints_g (fmt - 2) (Z.max prec 1) ng fp (sig_round (Z.max prec 1) v) s.
Proof.
  intros Hg Hprec. assert (Ee : is_e fmt = false).
  { unfold is_g, ch_g, ch_G in Hg. apply orb_prop in Hg. destruct Hg as [H0|H0]; apply Z.eqb_eq in H0; subst fmt; reflexivity. }
  destruct (big_eg ng fmt prec ltac:(auto) ltac:(lia) ltac:(intros; try congruence; lia)) as (l & p & (F1 & F2 & F3 & F4) & B). rewrite (B 0 false).
  unfold want in *. rewrite Ee in *.
  destruct (formatDigits_g false ng l 0 p false (Z.max prec 1) fmt (Z.max prec 1) Hg F1 ltac:(lia) F2 ltac:(lia) eq_refl ltac:(discriminate)) as (fp & N & P).
  eexists _, fp. split; [reflexivity|]. split; [exact N|]. rewrite <- F3. exact P.
Qed.

Lemma round10_small k x : (0 <= x < p10 (k - 1))%R -> round10 k x = 0%R.
Proof.
  intros H. rewrite (round10_near k x 0); [apply Rmult_0_l|]. rewrite Rminus_0_r, Rabs_pos_eq.
  - apply Rmult_lt_reg_r with (p10 k); [apply p10_pos|]. rewrite Rmult_assoc, (Rmult_comm (p10 (- k))), p10_opp, Rmult_1_r.
    replace k with (k - 1 + 1) in * by lia. replace (k - 1 + 1 - 1) with (k - 1) in H by lia. rewrite p10_plus. change (p10 1) with 10%R. pose proof (p10_pos (k - 1)). lra.
  - apply Rmult_le_pos; [lra|apply Rlt_le, p10_pos].
Qed.

Lemma slow_f ng prec : 0 <= prec < 2 ^ (w - 1) ->
  exists s fp, bigFtoa w [] prec ch_f ng mt e flt = Ret s /\ len fp = prec /\ prints_f ng fp (round10 (- prec) v) s.
Proof.
  intros Hprec. destruct exact_dec as (a & b & E1 & E2 & B1 & B2 & B3 & B4).
  unfold bigFtoa. rewrite E1. cbn [bind]. rewrite E2. cbn [bind]. destruct (Z.ltb_spec prec 0); [lia|]. change (is_e ch_f) with false. change (is_f ch_f) with true. cbn [bind].
  pose proof B1 as (_ & _ & _ & Len & _).
  destruct (Z_lt_ge_dec (dp b + prec) 0) as [N|N]; [|destruct (Z_lt_ge_dec (dp b + prec) (2 ^ (w - 1))) as [S|S]].
  - (* nothing left *)
    rewrite sint_id by (destruct Hw as [-> | ->]; cbn in *; lia).
    unfold Decimal.Round. destruct (Z.ltb_spec (dp b + prec) 0); [|lia]. cbn [orb].
    destruct (formatDigits_f_zero false ng (d b) Decimal.maxDigits (dp b) false prec prec (dnorm_dg b B1) ltac:(lia) ltac:(lia)) as (fp & L & P).
    eexists _, fp. split; [reflexivity|]. split; [exact L|]. rewrite round10_small; [exact P|]. split; [exact v_nonneg|].
    destruct (dnorm_cases b B1) as [[_ V]|Nb]; [rewrite <- B3, V; apply p10_pos|].
    pose proof (dval_pos b B1 Nb) as R. rewrite B3 in R. apply Rlt_le_trans with (p10 (dp b)); [lra|apply p10_le; lia].
  - rewrite sint_id by (destruct Hw as [-> | ->]; cbn in *; lia).
    destruct (Round_all b (dp b + prec) (dval b) B1) as (R1 & R2 & _); [unfold cut_to; rewrite B2; reflexivity|lia|auto|].
    destruct (Round_len b (dp b + prec) ltac:(lia)) as [_ L2]. specialize (L2 ltac:(lia)).
    destruct (formatDigits_f false ng (d (Decimal.Round b (dp b + prec))) Decimal.maxDigits (dp (Decimal.Round b (dp b + prec))) false prec prec (dnorm_dg _ R1) ltac:(lia) ltac:(lia)) as (fp & L & _ & P).
    eexists _, fp. split; [reflexivity|]. split; [exact L|]. unfold dval in R2 at 1. rewrite R2, B3 in P. replace (dp b - (dp b + prec)) with (- prec) in P by lia. exact P.
  - assert (R : Decimal.Round b (sint w (dp b + prec)) = b).
    { assert (Sneg : sint w (dp b + prec) < 0).
      { unfold sint. destruct Hw as [-> | ->]; cbn in *.
        - replace (dp b + prec + 2147483648) with (dp b + prec - 2147483648 + 1 * 4294967296) by lia. rewrite Z_mod_plus_full, Z.mod_small by lia. lia.
        - replace (dp b + prec + 9223372036854775808) with (dp b + prec - 9223372036854775808 + 1 * 18446744073709551616) by lia. rewrite Z_mod_plus_full, Z.mod_small by lia. lia. }
      unfold Decimal.Round. destruct (Z.ltb_spec (sint w (dp b + prec)) 0); [reflexivity|lia]. }
    rewrite R.
    assert (P2 : 2000 < prec) by (destruct Hw as [-> | ->]; cbn in *; lia).
    destruct (formatDigits_f false ng (d b) Decimal.maxDigits (dp b) false prec prec (dnorm_dg b B1) ltac:(lia) ltac:(lia)) as (fp & L & _ & P).
    eexists _, fp. split; [reflexivity|]. split; [exact L|].
    destruct (round_id b (- prec)) as [z E]; [unfold Decimal.nd; lia|]. rewrite <- B3, E, round10_id, <- E. exact P.
Qed.

End Parts.
