(** binary128. *)
From Coq Require Import ZArith Reals Lia Lra Bool List String.
From Flocq Require Import Core.
From Verif Require Import GoBase.
From Verif Require BigFloat Binary128.
From Verif Require Import GoFmt.
From Verif Require Import Spec BitFacts RoundFacts IeeeFacts BigFacts BigFacts2 FmtFacts PkgFacts.
Import BigFloat (bitlen, gexp, prec, rmode, acc, neg, frm, Finite, MaxExp, MinExp, MaxPrec).
Import Binary128 (Float, mkFloat, fa, fb).
Open Scope Z_scope.

Definition ok (f : Float) : Prop := 0 <= fa f < 2 ^ 64 /\ 0 <= fb f < 2 ^ 64.
Definition pat (f : Float) : Z := fa f * 2 ^ 64 + fb f.
Definition value (f : Float) : fval := quad (fa f) (fb f).

Lemma pat_range f : ok f -> 0 <= pat f < 2 ^ (112 + 15 + 1).
Proof. intros [H1 H2]. unfold pat. lia. Qed.

Lemma pat_inj f g : ok f -> ok g -> pat f = pat g -> f = g.
Proof.
  destruct f as [a b], g as [c d]. unfold ok, pat. cbn [fa fb]. intros [H1 H2] [H3 H4] E.
  assert (a = c) by lia. assert (b = d) by lia. congruence.
Qed.

Lemma value_inj f g : ok f -> ok g -> (forall s, value f <> VNaN s) -> value f = value g -> f = g.
Proof.
  intros Hf Hg Hn E. apply pat_inj; [assumption..|].
  apply (ieee_inj 112 15); try lia; try (apply pat_range; assumption); try exact E. exact Hn.
Qed.

(** sign, exponent and the two parts of the fraction *)
Definition mk (s : bool) (E F : Z) : Float :=
  mkFloat (Z.b2z s * 2 ^ 63 + E * 2 ^ 48 + F / 2 ^ 64) (F mod 2 ^ 64).

Lemma mk_ok s E F : 0 <= E < 2 ^ 15 -> 0 <= F < 2 ^ 112 -> ok (mk s E F).
Proof.
  intros HE HF. unfold ok, mk. cbn [fa fb].
  pose proof (Z.mod_pos_bound F (2 ^ 64) ltac:(lia)).
  assert (0 <= F / 2 ^ 64 < 2 ^ 48).
  { split; [apply Z.div_pos; lia|]. apply Z.div_lt_upper_bound; lia. }
  destruct s; cbn [Z.b2z]; lia.
Qed.

Lemma mk_pat s E F : pat (mk s E F) = enc 112 15 s E F.
Proof.
  unfold pat, mk, enc. cbn [fa fb]. pose proof (Z.div_mod F (2 ^ 64) ltac:(lia)).
  destruct s; cbn [Z.b2z]; lia.
Qed.

Lemma fields f : ok f -> exists s E F1 F2, 0 <= E < 2 ^ 15 /\ 0 <= F1 < 2 ^ 48 /\ 0 <= F2 < 2 ^ 64 /\
  f = mk s E (F1 * 2 ^ 64 + F2) /\ fa f = enc 48 15 s E F1 /\ fb f = F2 /\
  Binary128.Signbit f = s /\ Binary128.Exp f = E /\ Binary128.Frac f = (F1, F2).
Proof.
  destruct f as [a b]. intros [Ha Hb]. cbn [fa fb] in Ha, Hb.
  destruct (enc_surj 48 15 a ltac:(lia) ltac:(lia) Ha) as (s & E & F & HE & HF & ->).
  exists s, E, F, b. split; [exact HE|]. split; [exact HF|]. split; [exact Hb|].
  split; [|split; [reflexivity|split; [reflexivity|]]].
  - unfold mk. rewrite Z.div_add_l, (Z.div_small b), (Z.add_comm (F * _)), Z.mod_add, Z.mod_small by lia.
    f_equal. unfold enc. lia.
  - unfold Binary128.Signbit, Binary128.Exp, Binary128.Exp_host, Binary128.Frac. cbn [fa fb].
    split; [|split].
    + change 0x8000000000000000 with (2 ^ (48 + 15)). rewrite land_bit by lia.
      rewrite enc_sign by lia. destruct s; reflexivity.
    + change 0x7FFF000000000000 with ((2 ^ 15 - 1) * 2 ^ 48).
      assert (H : Z.shiftr (Z.land (enc 48 15 s E F) ((2 ^ 15 - 1) * 2 ^ 48)) 48 = E)
        by (rewrite land_field by lia; apply enc_exp; lia).
      rewrite land_mask_shift in * by lia. rewrite enc_exp in * by lia.
      unfold sint. rewrite Z.mod_small by lia.
      replace (E * 2 ^ 48 + 2 ^ (64 - 1) - 2 ^ (64 - 1)) with (E * 2 ^ 48) by lia. exact H.
    + change 0x0000FFFFFFFFFFFF with (2 ^ 48 - 1). rewrite land_ones_mod by lia.
      f_equal. apply (enc_low 48 15); lia.
Qed.

Lemma value_mk s E F : 0 <= E < 2 ^ 15 -> 0 <= F < 2 ^ 112 -> value (mk s E F) = ieee_parts 112 15 s E F.
Proof.
  intros HE HF. unfold value, quad. change (fa (mk s E F) * 2 ^ 64 + fb (mk s E F)) with (pat (mk s E F)).
  rewrite mk_pat. apply ieee_enc; lia.
Qed.

Definition decoded (x : BigFloat.bigfloat) (p : Z) : Prop :=
  wf x /\ prec x = p /\ rmode x = BigFloat.ToNearestEven /\ acc x = BigFloat.Exact.

Lemma Big_correct f : ok f ->
  exists x nan, Binary128.Big f = Ret (x, nan) /\ decoded x 113 /\
  match value f with
  | VNaN s => nan = true /\ bval x = VNum s 0
  | v => nan = false /\ bval x = v
  end.
Proof.
  intros Hf. destruct (fields f Hf) as (s & E & F1 & F2 & HE & HF1 & HF2 & Ef & _ & _ & Es & Ee & Eff).
  unfold Binary128.Big, Binary128.Big_host. unfold Binary128.Exp in Ee. rewrite Es, Ee, Eff.
  assert (Hi : value f = ieee_parts 112 15 s E (F1 * 2 ^ 64 + F2)) by (rewrite Ef; apply value_mk; lia).
  rewrite Hi. unfold ieee_parts. clear Hi.
  assert (Hz : forall b : bool, decoded (if b then
      BigFloat.NegSelf (BigFloat.SetMode (BigFloat.SetPrec BigFloat.NewFloat0 Binary128.precision) BigFloat.ToNearestEven)
      else BigFloat.SetMode (BigFloat.SetPrec BigFloat.NewFloat0 Binary128.precision) BigFloat.ToNearestEven) 113).
  { intros []; repeat split; try reflexivity; cbn; unfold MaxPrec, Binary128.precision; lia. }
  set (z := (BigFloat.SetMode (BigFloat.SetPrec BigFloat.NewFloat0 Binary128.precision) BigFloat.ToNearestEven)) in *.
  assert (Hzp : 112 + 1 <= prec z <= MaxPrec) by (unfold MaxPrec; cbn; unfold Binary128.precision; lia).
  assert (Hzm : rmode z = BigFloat.ToNearestEven) by reflexivity.
  change (2 ^ 15 - 1) with 32767.
  assert (HF : (F1 =? 0) && (F2 =? 0) = (F1 * 2 ^ 64 + F2 =? 0)).
  { destruct (Z.eqb_spec F1 0), (Z.eqb_spec F2 0), (Z.eqb_spec (F1 * 2 ^ 64 + F2) 0); try reflexivity; lia. }
  rewrite HF.
  assert (Ht : bits_text (fmt_b 48 F1 ++ fmt_b 64 F2) 112 (F1 * 2 ^ 64 + F2)).
  { apply (bits_text_app _ _ 48 64); apply fmt_b_text; lia. }
  set (F := F1 * 2 ^ 64 + F2) in *. set (tx := (fmt_b 48 F1 ++ fmt_b 64 F2)%list) in *.
  assert (HFr : 0 <= F < 2 ^ 112) by (unfold F; lia).
  clearbody F tx. clear HF HF1 HF2 Eff Ef F1 F2.
  destruct (Z.eqb_spec E 32767) as [e1|e1].
  - destruct (Z.eqb_spec F 0) as [f0|f0].
    + eexists _, _. split; [reflexivity|]. split; [repeat split; try reflexivity; cbn; unfold MaxPrec, Binary128.precision; lia|].
      split; reflexivity.
    + eexists _, _. split; [reflexivity|]. split; [apply Hz|]. split; [reflexivity|].
      destruct s; reflexivity.
  - destruct (Z.eqb_spec E 0) as [e0|e0].
    + destruct (Z.eqb_spec F 0) as [f0|f0].
      * eexists _, _. split; [reflexivity|]. split; [apply Hz|]. split; [reflexivity|].
        rewrite f0, Rmult_0_l, sgnR_0. destruct s; reflexivity.
      * destruct (Parse_correct z
          s 0 tx 112 F (-16382)) as (r & Hr & Hv & Hw & Hp & Hm & Ha & Hn);
          try lia; try exact Ht; try exact Hzp.
        unfold sign_text in Hr. rewrite Hr. eexists _, _. split; [reflexivity|].
        split; [split; [exact Hw|]; split; [rewrite Hp; reflexivity|]; split; [rewrite Hm; exact Hzm|exact Ha]|]. split; [reflexivity|].
        rewrite Hv. reflexivity.
    + destruct (Parse_correct z
          s 1 tx 112 F (E - Binary128.bias)) as (r & Hr & Hv & Hw & Hp & Hm & Ha & Hn);
          try lia; try exact Ht; try exact Hzp; try (unfold Binary128.bias; lia).
      unfold sign_text in Hr. rewrite Hr. eexists _, _. split; [reflexivity|].
      split; [split; [exact Hw|]; split; [rewrite Hp; reflexivity|]; split; [rewrite Hm; exact Hzm|exact Ha]|]. split; [reflexivity|].
      rewrite Hv. unfold Binary128.bias. do 3 f_equal. 
Qed.

Lemma sign_or (s : bool) r : 0 <= r < 2 ^ 63 ->
  Z.lor (if s then Z.lor 0 0x8000000000000000 else 0) r = Z.b2z s * 2 ^ 63 + r.
Proof.
  intros H. replace (if s then Z.lor 0 0x8000000000000000 else 0) with (Z.b2z s * 2 ^ 63) by (destruct s; reflexivity).
  apply lor_add; lia.
Qed.

Lemma splitA M : 0 <= M < 2 ^ 112 ->
  Z.shiftr (Z.land M Binary128.maskA) 64 = M / 2 ^ 64 /\ 0 <= M / 2 ^ 64 < 2 ^ 48.
Proof.
  intros H. assert (R : 0 <= M / 2 ^ 64 < 2 ^ 48).
  { split; [apply Z.div_pos; lia|]. apply Z.div_lt_upper_bound; lia. }
  split; [|exact R].
  change Binary128.maskA with ((2 ^ 48 - 1) * 2 ^ 64). rewrite land_field by lia.
  apply Z.mod_small. exact R.
Qed.

Lemma splitB M : Z.land M Binary128.maskB = M mod 2 ^ 64.
Proof. change Binary128.maskB with (2 ^ 64 - 1). apply land_ones_mod. lia. Qed.

Lemma u64_small a : 0 <= a < 2 ^ 64 -> u64 a = a.
Proof. intros. unfold u64. apply Z.mod_small. assumption. Qed.

Lemma NewFromBig_sub x m e : frm x = Finite m e -> wf x -> -112 < gexp m e - 1 + 16383 <= 0 ->
  Binary128.NewFromBig x = Ret (mk (neg x) 0 (top (gexp m e - 1 + 16383 + 112) m), BigFloat.Exact).
Proof.
  intros Hf Hw Hk. unfold Binary128.NewFromBig, Binary128.NewFromBig_int.
  assert (Hm : 0 < m) by (destruct Hw as [_ Hw]; rewrite Hf in Hw; apply Hw).
  unfold BigFloat.IsInf. rewrite Hf, Cmp_zero, Hf by reflexivity.
  rewrite (MantExp_finite x m e Hf). unfold Binary128.bias, Binary128.precision, BigFloat.Signbit.
  set (E := gexp m e - 1 + 16383) in *.
  rewrite (proj2 (Z.leb_le E 0)) by lia. rewrite (proj2 (Z.leb_gt E (- (113 - 1)))) by lia.
  replace (E + 113 - 1) with (E + 112) by lia.
  destruct (scaled_mant x m e (E + 112) Hf Hw ltac:(unfold MinExp, MaxExp; lia)) as (_ & _ & _ & I & _ & C).
  cbv zeta in *. unfold absb in C. rewrite C.
  unfold absb in I. rewrite I.
  destruct (rz_sub 112 15 (neg x) m e Hm ltac:(lia) ltac:(lia)) as [Ht _]; [unfold E in *; lia|].
  replace (gexp m e - 1 + (2 ^ (15 - 1) - 1) + 112) with (E + 112) in Ht by (unfold E; lia).
  set (M := top (E + 112) m) in *.
  destruct (splitA M Ht) as [-> HA]. rewrite splitB.
  rewrite !u64_small by (try (pose proof (Z.mod_pos_bound M (2 ^ 64) ltac:(lia))); lia).
  change 0x0000FFFFFFFFFFFF with (2 ^ 48 - 1). rewrite land_ones_mod, Z.mod_small by lia.
  rewrite sign_or by lia. unfold mk. do 3 f_equal. lia.
Qed.

Lemma NewFromBig_norm x m e : frm x = Finite m e -> wf x -> 1 <= gexp m e - 1 + 16383 <= 32767 ->
  exists a, Binary128.NewFromBig x = Ret (mk (neg x) (gexp m e - 1 + 16383) (top 113 m - 2 ^ 112), a) /\
  (a = BigFloat.Exact <-> sigbits m 113) /\ (a = BigFloat.Exact \/ a = BigFloat.Below).
Proof.
  intros Hf Hw Hk. unfold Binary128.NewFromBig, Binary128.NewFromBig_int.
  assert (Hm : 0 < m) by (destruct Hw as [_ Hw]; rewrite Hf in Hw; apply Hw).
  unfold BigFloat.IsInf. rewrite Hf, Cmp_zero, Hf by reflexivity.
  rewrite (MantExp_finite x m e Hf). unfold Binary128.bias, Binary128.precision, BigFloat.Signbit.
  set (E := gexp m e - 1 + 16383) in *.
  rewrite (proj2 (Z.leb_gt E 0)) by lia.
  change 0x7FFF with (2 ^ 15 - 1). rewrite andnot_ones_zero by lia.
  rewrite (proj2 (Z.ltb_lt E (2 ^ 15))) by lia. cbn [negb].
  destruct (scaled_mant x m e 113 Hf Hw ltac:(unfold MinExp, MaxExp; lia)) as (_ & _ & _ & I & II & _).
  cbv zeta in *. unfold absb in I, II. rewrite I. specialize (II ltac:(lia)).
  set (r := BigFloat.SetMantExpSelf _ 113) in *.
  pose proof (top_range 113 m Hm ltac:(lia)) as Ht. change (113 - 1) with 112 in Ht.
  rewrite clearbit_sub by lia.
  set (M := top 113 m - 2 ^ 112) in *. assert (HM : 0 <= M < 2 ^ 112) by (unfold M; lia).
  destruct (splitA M HM) as [-> HA]. rewrite splitB.
  rewrite !u64_small with (a := M / 2 ^ 64) by lia.
  rewrite !u64_small with (a := M mod 2 ^ 64) by (apply Z.mod_pos_bound; lia).
  change 0x0000FFFFFFFFFFFF with (2 ^ 48 - 1). rewrite andnot_ones_zero by lia.
  rewrite (proj2 (Z.ltb_lt (M / 2 ^ 64) (2 ^ 48))) by lia. cbn [negb]. rewrite andb_false_r.
  eexists. split; [|split].
  - f_equal. f_equal. unfold mk. f_equal.
    rewrite !land_ones_mod by lia. rewrite (Z.mod_small E), (Z.mod_small (M / 2 ^ 64)) by lia.
    rewrite Z.shiftl_mul_pow2 by lia. rewrite u64_small by lia.
    rewrite sign_or by lia.
    replace (Z.b2z (neg x) * 2 ^ 63 + E * 2 ^ 48) with ((Z.b2z (neg x) * 2 ^ 15 + E) * 2 ^ 48) by ring.
    rewrite lor_add by lia. ring.
  - rewrite <- II. destruct (BigFloat.IsInt r); cbn [negb]; split; congruence.
  - destruct (BigFloat.IsInt r); cbn [negb]; auto.
Qed.

(** On 2^-16494 <= |x| < 2^16384, NewFromBig truncates. *)
Lemma NewFromBig_trunc x m e : frm x = Finite m e -> wf x -> -16494 < gexp m e <= 16384 ->
  exists f a, Binary128.NewFromBig x = Ret (f, a) /\ ok f /\
  value f = VNum (neg x) (rz 112 15 (sgnR (neg x) (IZR m * p2 e))) /\
  (a = BigFloat.Exact \/ a = BigFloat.Below) /\
  (-16382 < gexp m e -> a = BigFloat.Exact <-> rz 112 15 (sgnR (neg x) (IZR m * p2 e)) = sgnR (neg x) (IZR m * p2 e)) /\
  (gexp m e <= -16382 -> a = BigFloat.Exact).
Proof.
  intros Hf Hw Hk.
  assert (Hm : 0 < m) by (destruct Hw as [_ Hw]; rewrite Hf in Hw; apply Hw).
  destruct (Z_le_gt_dec (gexp m e - 1 + 16383) 0) as [L|L].
  - rewrite (NewFromBig_sub x m e Hf Hw) by lia.
    destruct (rz_sub 112 15 (neg x) m e Hm ltac:(lia) ltac:(lia)) as [Ht Hv]; [lia|].
    change (2 ^ (15 - 1) - 1) with 16383 in *.
    eexists _, _. split; [reflexivity|]. split; [apply mk_ok; lia|]. split.
    { unfold value, quad. change (?a * 2 ^ 64 + ?b) with (pat (mkFloat a b)). rewrite <- Hv, <- mk_pat. reflexivity. }
    split; [auto|]. split; [lia|auto].
  - destruct (NewFromBig_norm x m e Hf Hw) as (a & -> & Ha & Hor); [lia|].
    pose proof (rz_norm 112 15 (neg x) m e Hm ltac:(lia) ltac:(lia)) as Hv. cbv zeta in Hv.
    change (2 ^ (15 - 1) - 1) with 16383 in *.
    pose proof (top_range 113 m Hm ltac:(lia)) as Ht. change (113 - 1) with 112 in Ht.
    eexists _, _. split; [reflexivity|]. split; [apply mk_ok; lia|]. split.
    { rewrite <- Hv by (change (2 ^ 15 - 2) with 32766; lia). change (112 + 1) with 113. rewrite <- mk_pat. reflexivity. }
    split; [exact Hor|].
    split; [|lia]. intros _. rewrite Ha. apply (sigbits_rz 112 15); lia.
Qed.

Lemma NewFromBig_special x :
  match bval x with
  | VInf s => Binary128.NewFromBig x = Ret ((if s then Binary128.NegInf else Binary128.Inf), BigFloat.Exact)
  | VNum s v => v = 0%R -> wf x ->
      Binary128.NewFromBig x = Ret ((if s then Binary128.NegZero else Binary128.Zero), BigFloat.Exact)
  | VNaN _ => False
  end.
Proof.
  unfold bval, Binary128.NewFromBig, Binary128.NewFromBig_int, BigFloat.IsInf, BigFloat.Signbit.
  destruct (frm x) as [|m e|] eqn:Ef.
  - intros _ _. rewrite Cmp_zero, Ef by reflexivity. destruct (neg x); reflexivity.
  - intros E [_ W]. exfalso. rewrite Ef in W.
    pose proof (val_pos m e (proj1 W)). destruct (neg x); cbn [sgnR] in E; lra.
  - destruct (neg x); reflexivity.
Qed.

Lemma zero_pattern (s : bool) : value (if s then Binary128.NegZero else Binary128.Zero) = VNum s 0 /\
  ok (if s then Binary128.NegZero else Binary128.Zero).
Proof.
  replace (if s then Binary128.NegZero else Binary128.Zero) with (mk s 0 0) by (destruct s; reflexivity).
  split; [|apply mk_ok; lia]. rewrite value_mk by lia. unfold ieee_parts. cbn [Z.eqb].
  change (0 =? 2 ^ 15 - 1) with false. rewrite Rmult_0_l, sgnR_0. reflexivity.
Qed.

Lemma inf_pattern (s : bool) : value (if s then Binary128.NegInf else Binary128.Inf) = VInf s /\
  ok (if s then Binary128.NegInf else Binary128.Inf).
Proof.
  replace (if s then Binary128.NegInf else Binary128.Inf) with (mk s 32767 0) by (destruct s; reflexivity).
  split; [|apply mk_ok; lia]. rewrite value_mk by lia. reflexivity.
Qed.

Lemma nan_pattern (s : bool) : value (if s then Binary128.NegNaN else Binary128.NaN) = VNaN s /\
  ok (if s then Binary128.NegNaN else Binary128.NaN).
Proof.
  replace (if s then Binary128.NegNaN else Binary128.NaN) with (mk s 32767 (2 ^ 111)) by (destruct s; reflexivity).
  split; [|apply mk_ok; lia]. rewrite value_mk by lia. reflexivity.
Qed.

(** Numbers of the format, of any provenance, are encoded exactly. *)
Lemma NewFromBig_fits x s v : wf x -> bval x = VNum s v -> fits 112 15 v ->
  exists f, Binary128.NewFromBig x = Ret (f, BigFloat.Exact) /\ ok f /\ value f = VNum s v.
Proof.
  intros Hw Hv Hfit. pose proof (NewFromBig_special x) as Hs. rewrite Hv in Hs.
  unfold bval in Hv. destruct (frm x) as [|m e|] eqn:Ef; [| |discriminate].
  - apply VNum_inj in Hv. destruct Hv as [<- <-]. rewrite Hs by auto.
    eexists. split; [reflexivity|]. destruct (zero_pattern (neg x)). auto.
  - apply VNum_inj in Hv. destruct Hv as [<- <-].
    assert (Hm : 0 < m) by (destruct Hw as [_ W]; rewrite Ef in W; apply W).
    pose proof (fits_range 112 15 (neg x) m e ltac:(lia) ltac:(lia) Hm Hfit) as Hr.
    change (2 ^ (15 - 1)) with 16384 in Hr.
    destruct (NewFromBig_trunc x m e Ef Hw ltac:(lia)) as (f & a & E & H1 & H2 & H3 & H4 & H5).
    rewrite (fits_rz 112 15 _ ltac:(lia) Hfit) in *.
    exists f. split; [|auto]. rewrite E. do 2 f_equal.
    destruct (Z_le_gt_dec (gexp m e) (-16382)); [auto|]. apply H4; [lia|reflexivity].
Qed.

Lemma value_fits f s v : ok f -> value f = VNum s v -> fits 112 15 v.
Proof. intros Hf H. apply (fits_ieee 112 15 (pat f) s v ltac:(lia) ltac:(lia) (pat_range f Hf) H). Qed.

(** A big.Float with the value of a binary128 pattern gives that pattern. *)
Lemma NewFromBig_of x f : wf x -> ok f -> bval x = value f ->
  Binary128.NewFromBig x = Ret (f, BigFloat.Exact).
Proof.
  intros Hw Hf Hv. destruct (value f) as [s|s|s v] eqn:Ei.
  - unfold bval in Hv. destruct (frm x); discriminate.
  - pose proof (NewFromBig_special x) as Hs. rewrite Hv in Hs. rewrite Hs. do 2 f_equal.
    destruct (inf_pattern s) as [V O].
    apply value_inj; try assumption; rewrite V; [intros; discriminate|congruence].
  - pose proof (value_fits f s v Hf Ei) as Hfit.
    destruct (NewFromBig_fits x s v Hw Hv Hfit) as (b & E & Hb & Hbv). rewrite E. do 2 f_equal.
    apply value_inj; try assumption; rewrite Hbv; [intros; discriminate|congruence].
Qed.

Lemma roundtrip f : ok f -> (forall s, value f <> VNaN s) ->
  exists x, Binary128.Big f = Ret (x, false) /\ Binary128.NewFromBig x = Ret (f, BigFloat.Exact).
Proof.
  intros Hf Hn. destruct (Big_correct f Hf) as (x & nan & HB & (Hw & _) & Hv).
  exists x. destruct (value f) as [s|s|s v] eqn:Ei.
  - exfalso. eapply Hn. reflexivity.
  - destruct Hv as [-> Hv]. split; [exact HB|]. apply NewFromBig_of; congruence.
  - destruct Hv as [-> Hv]. split; [exact HB|]. apply NewFromBig_of; congruence.
Qed.

(** ** float64 and float32 *)
Lemma nff64_nan x s : 0 <= x < 2 ^ 64 -> ieee 52 11 x = VNaN s ->
  Binary128.NewFromFloat64 x = Ret ((if s then Binary128.NegNaN else Binary128.NaN), BigFloat.Exact).
Proof.
  intros Hx H. unfold Binary128.NewFromFloat64.
  rewrite isnan_ieee, sign_ieee by (simpl; lia). rewrite H. cbn. destruct s; reflexivity.
Qed.

Lemma nff64_inf x s : 0 <= x < 2 ^ 64 -> ieee 52 11 x = VInf s ->
  Binary128.NewFromFloat64 x = Ret ((if s then Binary128.NegInf else Binary128.Inf), BigFloat.Exact).
Proof.
  intros Hx H. unfold Binary128.NewFromFloat64.
  rewrite isnan_ieee by (simpl; lia). rewrite H.
  pose proof (SetFloat_correct 52 11 x ltac:(lia) ltac:(lia) Hx) as HS. rewrite H in HS.
  destruct HS as (y & Hy & Hv & Hw & _). unfold BigFloat.NewFloat. rewrite Hy. cbn [bind].
  destruct (SetPrec_inf y s 113 Hw Hv ltac:(unfold MaxPrec; lia)) as (W & V & _).
  pose proof (NewFromBig_special (BigFloat.SetMode (BigFloat.SetPrec y 113) BigFloat.ToNearestEven)) as S.
  rewrite V in S. exact S.
Qed.

Lemma nff64_num x s v : 0 <= x < 2 ^ 64 -> ieee 52 11 x = VNum s v ->
  exists f, Binary128.NewFromFloat64 x = Ret (f, BigFloat.Exact) /\ ok f /\ value f = VNum s v.
Proof.
  intros Hx H. unfold Binary128.NewFromFloat64.
  rewrite isnan_ieee by (simpl; lia). rewrite H.
  pose proof (SetFloat_correct 52 11 x ltac:(lia) ltac:(lia) Hx) as HS. rewrite H in HS.
  destruct HS as (y & Hy & Hv & Hw & Hp & Hm & Ha). unfold BigFloat.NewFloat. rewrite Hy. cbn [bind].
  destruct (SetPrec_round y s v 113 Hw Hv ltac:(unfold MaxPrec; lia)
    (ieee_abs_le 52 11 x s v ltac:(lia) ltac:(lia) Hx H)) as (W & V & P & _).
  assert (Hfit : fits 112 15 v).
  { apply (fits_mono 52 11); [lia|lia|]. apply (fits_ieee 52 11 x s v ltac:(lia) ltac:(lia) Hx H). }
  rewrite (fits_rnd_prec _ 112 15 113 v ltac:(lia) ltac:(lia) Hfit) in V.
  exact (NewFromBig_fits _ s v W V Hfit).
Qed.

(** What NewFromFloat64 returns, NaNs included. *)
Lemma nff64_correct x : 0 <= x < 2 ^ 64 ->
  exists f, Binary128.NewFromFloat64 x = Ret (f, BigFloat.Exact) /\ ok f /\ value f = ieee 52 11 x /\
  (forall s, ieee 52 11 x = VNaN s -> f = if s then Binary128.NegNaN else Binary128.NaN).
Proof.
  intros Hx. destruct (ieee 52 11 x) as [s|s|s v] eqn:Ei.
  - rewrite (nff64_nan x s Hx Ei). eexists. split; [reflexivity|]. destruct (nan_pattern s) as [V O].
    split; [exact O|]. split; [exact V|]. intros t [= <-]. reflexivity.
  - rewrite (nff64_inf x s Hx Ei). eexists. split; [reflexivity|]. destruct (inf_pattern s) as [V O].
    split; [exact O|]. split; [exact V|]. discriminate.
  - destruct (nff64_num x s v Hx Ei) as (f & E & O & V). exists f. rewrite E.
    split; [reflexivity|]. split; [exact O|]. split; [exact V|]. discriminate.
Qed.

(** Float64 and Float32 round correctly. *)
Lemma ToFloat_big mb eb f : 0 <= mb -> 2 <= eb -> 2 ^ (eb - 1) <= MaxExp -> ok f -> 
  exists x nan, Binary128.Big f = Ret (x, nan) /\
  match value f with
  | VNaN s => nan = true /\ BigFloat.Signbit x = s
  | VInf s => nan = false /\ exists b, BigFloat.ToFloat mb eb x = (b, BigFloat.Exact) /\
      0 <= b < 2 ^ (mb + eb + 1) /\ ieee mb eb b = VInf s
  | VNum s v => nan = false /\ exists b a, BigFloat.ToFloat mb eb x = (b, a) /\
      0 <= b < 2 ^ (mb + eb + 1) /\ ieee mb eb b = ieee_round mb eb s v /\ acc_ok a (ieee mb eb b) v
  end.
Proof.
  intros Hm He HM Hf. destruct (Big_correct f Hf) as (x & nan & HB & (Hw & _) & Hv).
  exists x, nan. split; [exact HB|]. pose proof (ToFloat_val mb eb x Hm He HM Hw) as H.
  destruct (BigFloat.ToFloat mb eb x) as [b a].
  destruct (value f) as [s|s|s v] eqn:Ei; destruct Hv as [-> Hv]; (split; [reflexivity|]); rewrite Hv in H.
  - unfold bval in Hv. unfold BigFloat.Signbit. destruct (frm x); inversion Hv; reflexivity.
  - destruct H as (H1 & H2 & ->). exists b. auto.
  - destruct H as (H1 & H2 & H3). exists b, a. auto.
Qed.

Lemma Float64_correct f : ok f ->
  exists b a, Binary128.Float64 f = Ret (b, a) /\ 0 <= b < 2 ^ 64 /\
  match value f with
  | VNaN s => a = BigFloat.Exact /\ ieee 52 11 b = VNaN s
  | VInf s => a = BigFloat.Exact /\ ieee 52 11 b = VInf s
  | VNum s v => ieee 52 11 b = ieee_round 52 11 s v /\ acc_ok a (ieee 52 11 b) v
  end.
Proof.
  intros Hf. destruct (ToFloat_big 52 11 f ltac:(lia) ltac:(lia) ltac:(unfold MaxExp; lia) Hf) as (x & nan & HB & H).
  unfold Binary128.Float64, Binary128.Float64_host. fold (Binary128.Big f). rewrite HB. cbn [bind].
  destruct (value f) as [s|s|s v] eqn:Ei; destruct H as [-> H].
  - rewrite H. exists (if s then BigFloat.math_NegNaN else BigFloat.math_NaN), BigFloat.Exact.
    destruct s; (split; [reflexivity|]); (split; [unfold BigFloat.math_NegNaN, BigFloat.math_NaN; lia|split; reflexivity]).
  - destruct H as (b & E & Hb & Hv). unfold BigFloat.Float64. rewrite E. eexists _, _. split; [reflexivity|]. auto.
  - destruct H as (b & a & E & Hb & Hv). unfold BigFloat.Float64. rewrite E. eexists _, _. split; [reflexivity|]. auto.
Qed.

Lemma Float32_correct f : ok f ->
  exists b a, Binary128.Float32 f = Ret (b, a) /\ 0 <= b < 2 ^ 32 /\
  match value f with
  | VNaN s => a = BigFloat.Exact /\ ieee 23 8 b = VNaN s
  | VInf s => a = BigFloat.Exact /\ ieee 23 8 b = VInf s
  | VNum s v => ieee 23 8 b = ieee_round 23 8 s v /\ acc_ok a (ieee 23 8 b) v
  end.
Proof.
  intros Hf. destruct (ToFloat_big 23 8 f ltac:(lia) ltac:(lia) ltac:(unfold MaxExp; lia) Hf) as (x & nan & HB & H).
  unfold Binary128.Float32, Binary128.Float32_host. fold (Binary128.Big f). rewrite HB. cbn [bind].
  destruct (value f) as [s|s|s v] eqn:Ei; destruct H as [-> H].
  - rewrite H. exists (BigFloat.f64_to_f32 (if s then BigFloat.math_NegNaN else BigFloat.math_NaN)), BigFloat.Exact.
    destruct s; (split; [reflexivity|]); (split; [vm_compute; split; congruence|split; reflexivity]).
  - destruct H as (b & E & Hb & Hv). unfold BigFloat.Float32. rewrite E. eexists _, _. split; [reflexivity|]. auto.
  - destruct H as (b & a & E & Hb & Hv). unfold BigFloat.Float32. rewrite E. eexists _, _. split; [reflexivity|]. auto.
Qed.

(** Numbers that are float64 or float32 numbers are converted exactly. *)
Lemma Float64_exact f d : ok f -> 0 <= d < 2 ^ 64 -> value f = ieee 52 11 d -> (forall s, value f <> VNaN s) ->
  Binary128.Float64 f = Ret (d, BigFloat.Exact).
Proof.
  intros Hf Hd E Hn. destruct (Float64_correct f Hf) as (b & a & -> & Hb & H).
  destruct (value f) as [s|s|s v] eqn:Ei; [exfalso; eapply Hn; reflexivity| |].
  - destruct H as [-> H]. do 2 f_equal. apply (ieee_inj 52 11); try lia; try congruence.
  - pose proof (fits_ieee 52 11 d s v ltac:(lia) ltac:(lia) Hd (eq_sym E)) as [Hfit _].
    rewrite fits_round in H by (lia || assumption). destruct H as [H A]. rewrite H in A.
    apply acc_ok_exact in A. subst a. do 2 f_equal. apply (ieee_inj 52 11); try lia; congruence.
Qed.

Lemma Float32_exact f d : ok f -> 0 <= d < 2 ^ 32 -> value f = ieee 23 8 d -> (forall s, value f <> VNaN s) ->
  Binary128.Float32 f = Ret (d, BigFloat.Exact).
Proof.
  intros Hf Hd E Hn. destruct (Float32_correct f Hf) as (b & a & -> & Hb & H).
  destruct (value f) as [s|s|s v] eqn:Ei; [exfalso; eapply Hn; reflexivity| |].
  - destruct H as [-> H]. do 2 f_equal. apply (ieee_inj 23 8); try lia; try congruence.
  - pose proof (fits_ieee 23 8 d s v ltac:(lia) ltac:(lia) Hd (eq_sym E)) as [Hfit _].
    rewrite fits_round in H by (lia || assumption). destruct H as [H A]. rewrite H in A.
    apply acc_ok_exact in A. subst a. do 2 f_equal. apply (ieee_inj 23 8); try lia; congruence.
Qed.

(** NewFromFloat32 is NewFromFloat64 of the exactly converted argument. *)
Lemma nff32_eq x : 0 <= x < 2 ^ 32 ->
  Binary128.NewFromFloat32 x = Binary128.NewFromFloat64 (BigFloat.f32_to_f64 x).
Proof.
  intros Hx. unfold Binary128.NewFromFloat32, Binary128.NewFromFloat32_host.
  destruct (f32_to_f64_correct x Hx) as [Hr Hv].
  destruct (nff64_correct _ Hr) as (f & -> & Hf & Hfv & _). cbn [bind BigFloat.accuracy_eqb]. fold (Binary128.Float32 f).
  destruct (value f) as [s|s|s v] eqn:Ei.
  - destruct (Float32_correct f Hf) as (b & a & -> & _ & H). rewrite Ei in H. destruct H as [-> _]. reflexivity.
  - rewrite (Float32_exact f x Hf Hx); [reflexivity|congruence|intros; congruence].
  - rewrite (Float32_exact f x Hf Hx); [reflexivity|congruence|intros; congruence].
Qed.

(** ** The sign only reaches the sign bit *)
Lemma NewFromBig_core x m e : frm x = Finite m e -> wf x ->
  exists r lo a, 0 <= r < 2 ^ 63 /\ 0 <= lo < 2 ^ 64 /\
  forall s, Binary128.NewFromBig (BigFloat.set_neg x s) = Ret (mkFloat (Z.b2z s * 2 ^ 63 + r) lo, a).
Proof.
  intros Hf Hw.
  set (E := gexp m e - 1 + 16383).
  set (mn := fst (BigFloat.MantExp (BigFloat.set_neg x false))).
  assert (Hmn : forall s, absb (fst (BigFloat.MantExp (BigFloat.set_neg x s))) = mn).
  { intros s. rewrite absb_MantExp, absb_set_neg. reflexivity. }
  assert (Hfs : forall s, frm (BigFloat.set_neg x s) = Finite m e) by (intros; exact Hf).
  assert (Hme : forall s, BigFloat.MantExp (BigFloat.set_neg x s) =
                   (fst (BigFloat.MantExp (BigFloat.set_neg x s)), gexp m e)).
  { intros s. apply MantExp_finite. apply Hfs. }
  assert (Hl : forall a, 0 <= Z.land a 0x0000FFFFFFFFFFFF < 2 ^ 48).
  { intros a. change 0x0000FFFFFFFFFFFF with (2 ^ 48 - 1). rewrite land_ones_mod by lia. apply Z.mod_pos_bound. lia. }
  assert (Hu : forall a, 0 <= u64 a < 2 ^ 64) by (intros a; apply Z.mod_pos_bound; lia).
  destruct (Z.leb_spec E 0) as [L|L].
  - set (E' := if E <=? -112 then 112 else E).
    assert (HE' : -112 < E' <= 112) by (unfold E'; destruct (Z.leb_spec E (-112)); lia).
    set (M := top (E' + 113 - 1) m).
    eexists _, _, _. split; [|split]; cycle 2.
    { intros s. unfold Binary128.NewFromBig, Binary128.NewFromBig_int.
      unfold BigFloat.IsInf. rewrite Hfs, Cmp_zero, Hfs by reflexivity.
      rewrite Hme. unfold Binary128.bias, Binary128.precision, BigFloat.Signbit. fold E.
      rewrite (proj2 (Z.leb_le E 0)) by lia. change (- (113 - 1)) with (-112). change (113 - 1) with 112.
      replace (if E <=? -112 then (112, BigFloat.Below) else (E, BigFloat.Exact))
        with (E', if E <=? -112 then BigFloat.Below else BigFloat.Exact) by (unfold E'; destruct (E <=? -112); reflexivity).
      destruct (scaled_mant (BigFloat.set_neg x s) m e (E' + 113 - 1) (Hfs s) Hw ltac:(unfold MinExp, MaxExp; lia))
        as (_ & _ & _ & I & _ & C).
      cbv zeta in C. unfold absb at 1 in C. rewrite C, I. fold M.
      change (neg (BigFloat.set_neg x s)) with s.
      rewrite sign_or by (pose proof (Hl (u64 (Z.shiftr (Z.land M Binary128.maskA) 64))); lia).
      reflexivity. }
    { pose proof (Hl (u64 (Z.shiftr (Z.land M Binary128.maskA) 64))). lia. }
    { apply Hu. }
  - set (M := Z.clearbit (top 113 m) 112).
    destruct (scaled_mant (BigFloat.set_neg x false) m e 113 (Hfs false) Hw ltac:(unfold MinExp, MaxExp; lia))
        as (_ & _ & _ & I & _ & _). rewrite Hmn in I. cbv zeta in I.
    set (hi := Z.land (u64 (Z.shiftr (Z.land M Binary128.maskA) 64)) 0x0000FFFFFFFFFFFF).
    assert (Hhi : 0 <= hi < 2 ^ 48) by apply Hl.
    assert (Hx : 0 <= u64 (Z.shiftl (Z.land E 0x7FFF) 48) < 2 ^ 63).
    { rewrite Z.shiftl_mul_pow2 by lia. change 0x7FFF with (2 ^ 15 - 1). rewrite land_ones_mod by lia.
      pose proof (Z.mod_pos_bound E (2 ^ 15) ltac:(lia)). rewrite u64_small by lia. lia. }
    assert (Hlor : 0 <= Z.lor (u64 (Z.shiftl (Z.land E 0x7FFF) 48)) hi < 2 ^ 63) by (apply lor_lt; lia).
    eexists _, _, _. split; [|split]; cycle 2.
    { intros s. unfold Binary128.NewFromBig, Binary128.NewFromBig_int.
      unfold BigFloat.IsInf. rewrite Hfs, Cmp_zero, Hfs by reflexivity.
      rewrite Hme. unfold Binary128.bias, Binary128.precision, BigFloat.Signbit. fold E.
      rewrite (proj2 (Z.leb_gt E 0)) by lia.
      pose proof (Hmn s) as C. unfold absb in C. rewrite C. rewrite I. fold M. fold hi.
      rewrite <- Z.lor_assoc. change (neg (BigFloat.set_neg x s)) with s.
      rewrite sign_or by exact Hlor. reflexivity. }
    { exact Hlor. }
    { apply Hu. }
Qed.

Lemma NewFromBig_total x : wf x -> exists f a, Binary128.NewFromBig x = Ret (f, a) /\ ok f.
Proof.
  intros Hw. destruct (frm x) as [|m e|] eqn:Ef.
  - pose proof (NewFromBig_special x) as H. unfold bval in H. rewrite Ef in H.
    eexists _, _. split; [apply H; auto|]. apply zero_pattern.
  - destruct (NewFromBig_core x m e Ef Hw) as (r & lo & a & Hr & Hlo & H).
    rewrite <- (set_neg_self x), H. eexists _, _. split; [reflexivity|].
    unfold ok. cbn [fa fb]. destruct (neg x); cbn [Z.b2z]; lia.
  - pose proof (NewFromBig_special x) as H. unfold bval in H. rewrite Ef in H.
    eexists _, _. split; [apply H; auto|]. apply inf_pattern.
Qed.

Lemma NewFromBig_neg x : wf x -> exists f a,
  Binary128.NewFromBig x = Ret (f, a) /\
  Binary128.NewFromBig (BigFloat.NegSelf x) = Ret (mkFloat (Z.lxor (fa f) (2 ^ 63)) (fb f), a).
Proof.
  intros Hw. assert (Hx : forall s r, 0 <= r < 2 ^ 63 ->
    Z.lxor (Z.b2z s * 2 ^ 63 + r) (2 ^ 63) = Z.b2z (negb s) * 2 ^ 63 + r).
  { intros s r Hr. rewrite <- !lor_add by lia.
    rewrite <- !Z.lxor_lor by (apply land_disjoint; lia).
    rewrite Z.lxor_assoc, (Z.lxor_comm r), <- Z.lxor_assoc. f_equal. destruct s; reflexivity. }
  destruct (frm x) as [|m e|] eqn:Ef.
  - unfold Binary128.NewFromBig, Binary128.NewFromBig_int, BigFloat.IsInf, BigFloat.Signbit.
    rewrite !Cmp_zero by reflexivity. cbn [BigFloat.NegSelf BigFloat.set_neg frm neg]. rewrite Ef.
    destruct (neg x); eexists _, _; split; reflexivity.
  - destruct (NewFromBig_core x m e Ef Hw) as (r & lo & a & Hr & Hlo & H).
    pose proof (H (neg x)) as H0. rewrite set_neg_self in H0.
    eexists _, _. split; [exact H0|]. rewrite NegSelf_set_neg, H. cbn [fa fb].
    rewrite Hx by exact Hr. reflexivity.
  - unfold Binary128.NewFromBig, Binary128.NewFromBig_int, BigFloat.IsInf, BigFloat.Signbit.
    cbn [BigFloat.NegSelf BigFloat.set_neg frm neg]. rewrite Ef.
    destruct (neg x); eexists _, _; split; reflexivity.
Qed.
