(** Formatting does not depend on the width of the host's int. *)
From Coq Require Import ZArith Reals String List Bool Lia Lra.
From Flocq Require Import Core.
From Verif Require Import GoBase Spec SpecText SpecDec SpecFtoa BitFacts RoundFacts IeeeFacts ItoaFacts DecFacts DecFacts2 ClaimsDec.
From Verif Require Import ExtFloat Ftoa FtoaShort FtoaAll ClaimsSignFmt2.
From Verif Require Itoa Decimal ClaimsFtoa ClaimsFtoa2.
Import ListNotations.
Open Scope Z_scope.

Lemma formatBits_host h h' u base ng : 0 <= u < 2 ^ 64 -> Itoa.formatBits h u base ng = Itoa.formatBits h' u base ng.
Proof.
  intros Hu. destruct (Z_lt_ge_dec base 2) as [L|L].
  { unfold Itoa.formatBits. rewrite (proj2 (Z.ltb_lt base 2) L). reflexivity. }
  destruct (Z_lt_ge_dec 36 base) as [G|G].
  { unfold Itoa.formatBits. change (Z.of_nat (length Itoa.digits)) with 36. rewrite (proj2 (Z.ltb_lt 36 base) G), orb_true_r. reflexivity. }
  destruct (formatBits_ok h u base ng Hu ltac:(lia)) as (t & N & R & ->).
  destruct (formatBits_ok h' u base ng Hu ltac:(lia)) as (t' & N' & R' & ->).
  rewrite (numeral_inj base t t') by (try lia; try assumption; congruence). reflexivity.
Qed.

Lemma Itoa_host h h' : (forall i base, 0 <= i < 2 ^ 64 -> Itoa.FormatUint h i base = Itoa.FormatUint h' i base) /\
  (forall i base, - 2 ^ 63 <= i < 2 ^ 63 -> Itoa.FormatInt h i base = Itoa.FormatInt h' i base) /\
  (forall i, - 2 ^ 63 <= i < 2 ^ 63 -> Itoa.Itoa h i = Itoa.Itoa h' i) /\
  (forall dst i base, - 2 ^ 63 <= i < 2 ^ 63 -> Itoa.AppendInt h dst i base = Itoa.AppendInt h' dst i base) /\
  (forall dst i base, 0 <= i < 2 ^ 64 -> Itoa.AppendUint h dst i base = Itoa.AppendUint h' dst i base).
Proof.
  assert (U : forall i base, 0 <= i < 2 ^ 64 -> Itoa.FormatUint h i base = Itoa.FormatUint h' i base).
  { intros i base Hi. unfold Itoa.FormatUint. destruct (_ && _); [reflexivity|]. apply formatBits_host, Hi. }
  assert (I : forall i base, - 2 ^ 63 <= i < 2 ^ 63 -> Itoa.FormatInt h i base = Itoa.FormatInt h' i base).
  { intros i base Hi. unfold Itoa.FormatInt. destruct (_ && _); [reflexivity|]. apply formatBits_host. apply Z.mod_pos_bound. lia. }
  split; [exact U|]. split; [exact I|]. split; [intros; apply I; assumption|].
  split; intros; rewrite ?AppendInt_eq, ?AppendUint_eq, ?I, ?U by assumption; reflexivity.
Qed.

Lemma Shift_host a k : dnorm a -> Decimal.trunc a = false -> sig_digits 800 (dval a * p2 k) ->
  exists b, Decimal.Shift 32 a k = Ret b /\ Decimal.Shift 64 a k = Ret b /\ dnorm b /\ dval b = (dval a * p2 k)%R.
Proof.
  intros Ha T S.
  destruct (Shift_exact_ok 32 a k (or_introl eq_refl) Ha T S) as (b & E & N & Tb & V).
  destruct (Shift_exact_ok 64 a k (or_intror eq_refl) Ha T S) as (b' & E' & N' & Tb' & V').
  exists b. split; [exact E|]. split; [|split; assumption]. rewrite E'. f_equal.
  destruct (dnorm_unique b b' N N' ltac:(congruence)) as [D P].
  destruct b, b'. cbn [Decimal.d Decimal.dp Decimal.trunc] in *. congruence.
Qed.

Lemma Assign_Shift_host m k : 0 <= m < 2 ^ 64 -> -1100 <= k <= 2000 ->
  exists a b, Decimal.Assign Decimal.new_decimal m = Ret a /\
    Decimal.Shift 32 a k = Ret b /\ Decimal.Shift 64 a k = Ret b /\ - 400 <= Decimal.dp b <= 700 /\ 0 <= Decimal.nd b <= 800.
Proof.
  intros Hm Hk. destruct (Assign_ok Decimal.new_decimal m Hm) as (a & E & N & V & T).
  destruct (Shift_host a k N T ltac:(rewrite V; apply sig_binary; assumption)) as (b & E1 & E2 & Nb & Vb).
  exists a, b. split; [exact E|]. split; [exact E1|]. split; [exact E2|].
  enough (- 400 <= Decimal.dp b <= 700) by (split; [assumption|]; unfold Decimal.nd; destruct Nb as (_ & _ & _ & Hlen & _); lia).
  destruct (dnorm_cases b Nb) as [[D _]|D]; [destruct Nb as (_ & _ & _ & _ & P); rewrite (P D); lia|].
  pose proof (dval_pos b Nb D) as [L U]. rewrite Vb, V in *.
  assert (Hm0 : 0 < m).
  { destruct (Z.eq_dec m 0) as [->|]; [|lia]. rewrite Rmult_0_l in L. pose proof (p10_pos (Decimal.dp b - 1)). lra. }
  split.
  - destruct (Z_le_gt_dec (-400) (Decimal.dp b)); [assumption|exfalso].
    assert (C1 : (p10 (Decimal.dp b) <= p10 (-400))%R) by (apply p10_le; lia).
    assert (C2 : (p2 (-1100) <= IZR m * p2 k)%R).
    { rewrite <- (Rmult_1_l (p2 (-1100))). apply Rmult_le_compat; [lra|apply Rlt_le, p2_pos|apply IZR_le; lia|apply bpow_le; lia]. }
    assert (C3 : (p10 (-400) <= p2 (-1100))%R).
    { apply Rmult_le_reg_r with (p10 400); [apply p10_pos|]. rewrite (Rmult_comm (p10 (-400))). change (-400) with (- (400)). rewrite p10_opp.
      apply Rmult_le_reg_l with (p2 1100); [apply p2_pos|]. rewrite <- Rmult_assoc, <- p2_plus. change (p2 (1100 + -1100)) with 1%R.
      rewrite Rmult_1_l, Rmult_1_r. rewrite <- (IZR_pow2 1100), <- (IZR_p10 400) by lia. apply IZR_le. apply Z.leb_le. vm_compute. reflexivity. }
    lra.
  - destruct (Z_le_gt_dec (Decimal.dp b) 700); [assumption|exfalso].
    assert (C1 : (p10 700 <= p10 (Decimal.dp b - 1))%R) by (apply p10_le; lia).
    assert (C2 : (IZR m * p2 k <= p2 2064)%R).
    { change 2064 with (64 + 2000). rewrite p2_plus. apply Rmult_le_compat; [apply IZR_le; lia|apply Rlt_le, p2_pos| |apply bpow_le; lia].
      rewrite <- (IZR_pow2 64) by lia. apply IZR_le. lia. }
    assert (C3 : (p2 2064 < p10 700)%R).
    { rewrite <- (IZR_pow2 2064), <- (IZR_p10 700) by lia. apply IZR_lt. apply Z.ltb_lt. vm_compute. reflexivity. }
    lra.
Qed.

Lemma parts_range flt mb eb mt e : format_of flt mb eb -> float_parts mb eb mt e ->
  0 <= mt < 2 ^ 53 /\ mantbits flt = mb /\ -1100 <= e - mb - 2 /\ e - mb <= 1100.
Proof.
  intros [(-> & -> & ->)|[(-> & -> & ->)|(-> & -> & ->)]] H; cbn in *; destruct H as [[H1 H2]|[H1 H2]]; cbn in *; lia.
Qed.

Lemma u64_small x : 0 <= x < 2 ^ 64 -> u64 x = x.
Proof. intros H. apply Z.mod_small, H. Qed.

Lemma roundShortest_host d mt e flt mb eb : format_of flt mb eb -> float_parts mb eb mt e ->
  roundShortest 32 d mt e flt = roundShortest 64 d mt e flt.
Proof.
  intros Hf Hp. destruct (parts_range _ _ _ _ _ Hf Hp) as (R1 & R2 & R3 & R4). unfold roundShortest. rewrite R2.
  destruct (Z.eqb_spec mt 0) as [Z0|Z0]; [reflexivity|]. destruct (_ && _); [reflexivity|].
  assert (U : 0 <= u64 (u64 (mt * 2) + 1) < 2 ^ 64) by (apply Z.mod_pos_bound; lia).
  destruct (Assign_Shift_host _ (e - mb - 1) U ltac:(lia)) as (a & b & -> & A1 & A2 & _). cbn [bind]. rewrite A1, A2. cbn [bind].
  destruct (if _ || _ then _ else _) as [mantlo explo] eqn:Eml.
  assert (U' : 0 <= u64 (u64 (mantlo * 2) + 1) < 2 ^ 64) by (apply Z.mod_pos_bound; lia).
  assert (Hx : explo = e \/ explo = e - 1) by (destruct (_ || _); injection Eml as _ <-; auto).
  destruct (Assign_Shift_host _ (explo - mb - 1) U' ltac:(lia)) as (a' & b' & -> & A1' & A2' & _). cbn [bind]. rewrite A1', A2'. reflexivity.
Qed.

Lemma sint_both x : - 2 ^ 31 <= x < 2 ^ 31 -> sint 32 x = sint 64 x.
Proof. intros H. unfold sint. rewrite !Z.mod_small by lia. lia. Qed.

(** Precisions that a 32-bit host can pass, except the largest with format 'e'. *)
Definition prec_ok (fmt prec : Z) : Prop := prec < 2 ^ 31 /\ (fmt = 101 \/ fmt = 69 -> prec <> 2 ^ 31 - 1).

Lemma prec_e fmt prec : prec_ok fmt prec -> is_e fmt = true -> prec + 1 < 2 ^ 31.
Proof. intros [H1 H2] E. unfold is_e in E. apply orb_prop in E. rewrite !Z.eqb_eq in E. change ch_e with 101 in E. change ch_E with 69 in E. destruct E as [E|E]; [specialize (H2 (or_introl E))|specialize (H2 (or_intror E))]; lia. Qed.

Lemma sint_high x : 2 ^ 31 <= x < 2 ^ 32 -> sint 32 x < 0 /\ sint 64 x = x.
Proof.
  intros H. unfold sint. split; [|rewrite Z.mod_small by lia; lia].
  change (32 - 1) with 31. replace (x + 2 ^ 31) with (x - 2 ^ 31 + 1 * 2 ^ 32) by lia. rewrite Z.mod_add, Z.mod_small by lia. lia.
Qed.

Lemma bigFtoa_host dst prec fmt ng mt e flt mb eb : format_of flt mb eb -> float_parts mb eb mt e -> prec_ok fmt prec ->
  bigFtoa 32 dst prec fmt ng mt e flt = bigFtoa 64 dst prec fmt ng mt e flt.
Proof.
  intros Hf Hp Hpr. destruct (parts_range _ _ _ _ _ Hf Hp) as (R1 & R2 & R3 & R4). unfold bigFtoa. rewrite R2.
  destruct (Assign_Shift_host mt (e - mb) ltac:(lia) ltac:(lia)) as (a & b & -> & A1 & A2 & A3 & A4). cbn [bind]. rewrite A1, A2. cbn [bind].
  destruct (Z.ltb_spec prec 0) as [L|L].
  - rewrite (roundShortest_host b mt e flt mb eb Hf Hp). reflexivity.
  - destruct (is_e fmt) eqn:Ee.
    { pose proof (prec_e _ _ Hpr Ee). rewrite (sint_both (prec + 1)) by lia. reflexivity. }
    destruct (is_f fmt); [|reflexivity].
    replace (Decimal.Round b (sint 32 (Decimal.dp b + prec))) with (Decimal.Round b (sint 64 (Decimal.dp b + prec))); [reflexivity|].
    destruct Hpr as [Hpr _]. destruct (Z_lt_ge_dec (Decimal.dp b + prec) (2 ^ 31)) as [S|S]; [rewrite sint_both by lia; reflexivity|].
    destruct (sint_high (Decimal.dp b + prec) ltac:(lia)) as [S1 S2]. unfold Decimal.Round. rewrite S2.
    rewrite (proj2 (Z.ltb_lt _ 0) S1), (proj2 (Z.leb_le _ (Decimal.dp b + prec))) by lia. rewrite orb_true_r. reflexivity.
Qed.

Lemma ftoa_digits_host opt dst fmt prec ng mt e flt mb eb : format_of flt mb eb -> float_parts mb eb mt e -> prec_ok fmt prec ->
  ftoa_digits 32 opt dst fmt prec ng mt e flt = ftoa_digits 64 opt dst fmt prec ng mt e flt.
Proof.
  intros Hf Hp Hpr. unfold ftoa_digits. pose proof (fun dst ng => bigFtoa_host dst prec fmt ng mt e flt mb eb Hf Hp Hpr) as HB.
  assert (HB' : bigFtoa 32 dst (if is_g fmt && (prec =? 0) then 1 else prec) fmt ng mt e flt = bigFtoa 64 dst (if is_g fmt && (prec =? 0) then 1 else prec) fmt ng mt e flt).
  { destruct (_ && _); [apply (bigFtoa_host _ _ _ _ _ _ _ mb eb); auto; split; lia|apply HB]. }
  rewrite !HB. destruct (negb opt); [reflexivity|]. destruct (Z.ltb_spec prec 0) as [L|L]; [reflexivity|].
  rewrite HB'. destruct (is_e fmt) eqn:Ee; [|reflexivity]. pose proof (prec_e _ _ Hpr Ee).
  rewrite (sint_both (_ + 1)) by (destruct (_ && _); lia). reflexivity.
Qed.

Lemma fmtB_host dst ng mt e flt mb eb : format_of flt mb eb -> float_parts mb eb mt e -> fmtB 32 dst ng mt e flt = fmtB 64 dst ng mt e flt.
Proof.
  intros Hf Hp. destruct (parts_range _ _ _ _ _ Hf Hp) as (R1 & R2 & R3 & R4). unfold fmtB.
  rewrite (formatBits_host (32 =? 32) (64 =? 32) mt) by lia. 
  rewrite (formatBits_host (32 =? 32) (64 =? 32) (u64 _)) by (apply Z.mod_pos_bound; lia). reflexivity.
Qed.

Lemma c73 : forall opt dst f fmt prec bitSize, 0 <= f < 2 ^ 64 ->
  prec < 2 ^ 31 -> (fmt = 101 \/ fmt = 69 -> prec <> 2 ^ 31 - 1) ->
  FormatFloat 32 opt f fmt prec bitSize = FormatFloat 64 opt f fmt prec bitSize /\
  AppendFloat 32 opt dst f fmt prec bitSize = AppendFloat 64 opt dst f fmt prec bitSize.
Proof.
  assert (G : forall opt dst f fmt prec bitSize, 0 <= f < 2 ^ 64 -> prec_ok fmt prec ->
    genericFtoa 32 opt dst f fmt prec bitSize = genericFtoa 64 opt dst f fmt prec bitSize).
  { intros opt dst f fmt prec bitSize Hf Hpr.
    assert (Hb : (bitSize = 16 \/ bitSize = 32 \/ bitSize = 64) \/ select f bitSize = Panic).
    { unfold select. destruct (Z.eqb_spec bitSize 16); [auto|]. destruct (Z.eqb_spec bitSize 32); [auto|]. destruct (Z.eqb_spec bitSize 64); auto. }
    destruct Hb as [Hb|Hb]; [|unfold genericFtoa; rewrite Hb; reflexivity].
    destruct (select_total f bitSize Hf Hb) as (b & flt & mb & eb & Hs & Hfm & Hr).
    pose proof (decode 32 f bitSize b flt mb eb (or_introl eq_refl) Hfm Hr Hs) as D1.
    pose proof (decode 64 f bitSize b flt mb eb (or_intror eq_refl) Hfm Hr Hs) as D2.
    assert (R : 1 <= mb <= 52 /\ 5 <= eb <= 11) by (destruct Hfm as [(-> & -> & ->)|[(-> & -> & ->)|(-> & -> & ->)]]; lia).
    destruct (enc_surj mb eb b ltac:(lia) ltac:(lia) Hr) as (s & E & F & HE & HF & Eb). subst b.
    pose proof (gen_enc 32 _ _ _ _ _ _ E F (or_introl eq_refl) Hfm HE HF Hs opt dst fmt prec) as G1.
    pose proof (gen_enc 64 _ _ _ _ _ _ E F (or_intror eq_refl) Hfm HE HF Hs opt dst fmt prec) as G2.
    rewrite G1, G2. destruct (Z.eqb_spec E (2 ^ eb - 1)) as [e1|e1]; [reflexivity|].
    assert (P : forall exp mant, (if E =? 0 then (E + 1, F) else (E, Z.lor F (2 ^ mb))) = (exp, mant) -> float_parts mb eb mant (exp + bias flt)).
    { intros exp mant H. assert (Hbias : bias flt = 1 - 2 ^ (eb - 1)) by (destruct Hfm as [(-> & -> & ->)|[(-> & -> & ->)|(-> & -> & ->)]]; reflexivity).
      rewrite Hbias. assert (PP : 2 ^ eb = 2 * 2 ^ (eb - 1)) by (replace eb with (eb - 1 + 1) at 1 by lia; rewrite Z.pow_add_r by lia; change (2 ^ 1) with 2; lia).
      destruct (Z.eqb_spec E 0) as [e0|e0]; injection H as <- <-.
      - right. lia.
      - left. rewrite Z.lor_comm. replace (2 ^ mb) with (1 * 2 ^ mb) at 2 by lia. replace (2 ^ mb) with (1 * 2 ^ mb) at 3 by lia. rewrite lor_add by lia.
        rewrite Z.pow_add_r by lia. change (2 ^ 1) with 2. lia. }
    destruct (if E =? 0 then _ else _) as [exp mant]. specialize (P exp mant eq_refl).
    destruct (fmt =? ch_b); [apply (fmtB_host _ _ _ _ _ mb eb); assumption|apply (ftoa_digits_host _ _ _ _ _ _ _ _ mb eb); assumption]. }
  intros. split; apply G; try assumption; split; assumption.
Qed.

Lemma c73_refuted : exists f fmt prec, 0 <= f < 2 ^ 64 /\ 0 <= prec < 2 ^ 31 /\
  FormatFloat 32 true f fmt prec 64 = Panic /\ exists t, FormatFloat 64 true f fmt prec 64 = Ret t.
Proof.
  exists 0x3FF0000000000000, 101, (2 ^ 31 - 1). split; [lia|]. split; [lia|]. split.
  - apply (ClaimsFtoa.c57p 32 _ 101 _ 64 52 11 0x3FF0000000000000 false 1).
    + auto.
    + apply (ClaimsFtoa2.as_float_64 _ false 1); [lia|exact ClaimsFtoa.ieee_one].
    + exact ClaimsFtoa.ieee_one.
    + lra.
    + right. auto.
  - apply ClaimsFtoa.c57t; auto; lia.
Qed.
