(** float80x86. *)
From Coq Require Import ZArith Reals Lia Lra Bool List String.
From Flocq Require Import Core.
From Verif Require Import GoBase.
From Verif Require BigFloat Float80x86.
From Verif Require Import GoFmt.
From Verif Require Import Spec BitFacts RoundFacts IeeeFacts BigFacts BigFacts2 FmtFacts PkgFacts.
Import BigFloat (bitlen, gexp, prec, rmode, acc, neg, frm, Finite, MaxExp, MinExp, MaxPrec).
Import Float80x86 (Float, mkFloat).
Open Scope Z_scope.

Definition ok (f : Float) : Prop := 0 <= Float80x86.se f < 2 ^ 16 /\ 0 <= Float80x86.m f < 2 ^ 64.
Definition value (f : Float) : fval := x87 (Float80x86.se f) (Float80x86.m f).
(** What hardware produces: the lead bit is set exactly when the exponent is not 0, and
    the only pattern with the largest exponent is infinity. *)
Definition canon (f : Float) : Prop :=
  let E := Float80x86.se f mod 2 ^ 15 in
  (E = 0 /\ Float80x86.m f < 2 ^ 63) \/ (1 <= E <= 32766 /\ 2 ^ 63 <= Float80x86.m f) \/ (E = 32767 /\ Float80x86.m f = 2 ^ 63).

Definition mk (s : bool) (E M : Z) : Float := mkFloat (Z.b2z s * 2 ^ 15 + E) M.

Lemma mk_ok s E M : 0 <= E < 2 ^ 15 -> 0 <= M < 2 ^ 64 -> ok (mk s E M).
Proof. intros HE HM. unfold ok, mk. cbn [Float80x86.se Float80x86.m]. destruct s; cbn [Z.b2z]; lia. Qed.

Lemma mk_parts s E M : 0 <= E < 2 ^ 15 ->
  Z.odd (Float80x86.se (mk s E M) / 2 ^ 15) = s /\ Float80x86.se (mk s E M) mod 2 ^ 15 = E.
Proof.
  intros HE. unfold mk. cbn [Float80x86.se]. split.
  - rewrite Z.div_add_l, Z.div_small by lia. destruct s; reflexivity.
  - rewrite Z.add_comm, Z.mod_add, Z.mod_small by lia. reflexivity.
Qed.

Lemma value_mk s E M : 0 <= E < 2 ^ 15 -> value (mk s E M) =
  if E =? 32767 then (if M =? 2 ^ 63 then VInf s else VNaN s)
  else VNum s (sgnR s (IZR M * p2 (Z.max E 1 - 16383 - 63))).
Proof.
  intros HE. unfold value, x87. destruct (mk_parts s E M HE) as [-> ->]. reflexivity.
Qed.

Lemma fields f : ok f -> exists s E M, 0 <= E < 2 ^ 15 /\ 0 <= M < 2 ^ 64 /\
  f = mk s E M /\ Float80x86.Signbit f = s /\ Float80x86.Exp f = E /\ Float80x86.m f = M /\
  0 <= Float80x86.Lead f <= 1 /\ 0 <= Float80x86.Frac f < 2 ^ 63 /\ Float80x86.Lead f * 2 ^ 63 + Float80x86.Frac f = M.
Proof.
  destruct f as [a M]. intros [Ha HM]. cbn [Float80x86.se Float80x86.m] in Ha, HM.
  exists (Z.odd (a / 2 ^ 15)), (a mod 2 ^ 15), M.
  pose proof (Z.mod_pos_bound a (2 ^ 15) ltac:(lia)) as HE.
  split; [exact HE|]. split; [exact HM|]. split; [|split; [|split; [|split; [reflexivity|]]]].
  - unfold mk. f_equal. pose proof (Z.div_mod a (2 ^ 15) ltac:(lia)).
    assert (0 <= a / 2 ^ 15 < 2) by (split; [apply Z.div_pos; lia|apply Z.div_lt_upper_bound; lia]).
    assert (a / 2 ^ 15 = Z.b2z (Z.odd (a / 2 ^ 15))).
    { assert (C : a / 2 ^ 15 = 0 \/ a / 2 ^ 15 = 1) by lia. destruct C as [-> | ->]; reflexivity. }
    rewrite <- H1. lia.
  - unfold Float80x86.Signbit. cbn [Float80x86.se]. change 0x8000 with (2 ^ 15). rewrite land_bit by lia. apply negb_involutive.
  - unfold Float80x86.Exp. cbn [Float80x86.se]. change 0x7FFF with (2 ^ 15 - 1). apply land_ones_mod. lia.
  - unfold Float80x86.Lead, Float80x86.Frac. cbn [Float80x86.m]. change 0x7FFFFFFFFFFFFFFF with (2 ^ 63 - 1).
    rewrite land_ones_mod, Z.shiftr_div_pow2 by lia.
    pose proof (Z.div_mod M (2 ^ 63) ltac:(lia)). pose proof (Z.mod_pos_bound M (2 ^ 63) ltac:(lia)).
    assert (0 <= M / 2 ^ 63 < 2) by (split; [apply Z.div_pos; lia|apply Z.div_lt_upper_bound; lia]). lia.
Qed.

(** Canonical patterns are the binary format with 63 fraction bits. *)
Lemma canon_ieee f : ok f -> canon f ->
  value f = ieee 63 15 (Float80x86.se f * 2 ^ 63 + Float80x86.m f mod 2 ^ 63) /\
  0 <= Float80x86.se f * 2 ^ 63 + Float80x86.m f mod 2 ^ 63 < 2 ^ (63 + 15 + 1).
Proof.
  intros Hf Hc. destruct (fields f Hf) as (s & E & M & HE & HM & Ef & _).
  unfold canon in Hc. rewrite Ef in *. clear Ef f.
  destruct (mk_parts s E M HE) as [_ Hx]. rewrite Hx in Hc.
  rewrite value_mk by exact HE. cbn [Float80x86.m mk Float80x86.se] in *.
  set (F := M mod 2 ^ 63). assert (HF : 0 <= F < 2 ^ 63) by (apply Z.mod_pos_bound; lia).
  assert (Ee : (Z.b2z s * 2 ^ 15 + E) * 2 ^ 63 + F = enc 63 15 s E F) by (unfold enc; destruct s; cbn [Z.b2z]; lia).
  rewrite Ee. split; [|apply enc_range; lia]. rewrite ieee_enc by lia. unfold ieee_parts.
  change (2 ^ 15 - 1) with 32767. destruct (Z.eqb_spec E 32767) as [e|e].
  - destruct Hc as [C|[C|[_ ->]]]; [lia|lia|]. reflexivity.
  - destruct (Z.eqb_spec E 0) as [e0|e0].
    + destruct Hc as [[_ C]|[C|C]]; [|lia|lia]. unfold F. rewrite Z.mod_small by lia.
      subst E. reflexivity.
    + destruct Hc as [C|[[C1 C2]|C]]; [lia| |lia].
      assert (EM : 2 ^ 63 + F = M).
      { unfold F. replace (M mod 2 ^ 63) with (M - 2 ^ 63); [lia|].
        apply (Z.mod_unique _ _ 1); lia. }
      rewrite EM. rewrite Z.max_l by lia. reflexivity.
Qed.

Lemma value_inj f g : ok f -> ok g -> canon f -> canon g -> value f = value g -> f = g.
Proof.
  intros Hf Hg Cf Cg E.
  assert (Hn : forall s, value f <> VNaN s).
  { intros s C. destruct (fields f Hf) as (t & Ex & M & HE & HM & Ef & _). rewrite Ef in *.
    unfold canon in Cf. destruct (mk_parts t Ex M HE) as [_ Hx]. rewrite Hx in Cf. cbn [Float80x86.m mk] in Cf.
    rewrite value_mk in C by exact HE. destruct (Z.eqb_spec Ex 32767); [|discriminate].
    destruct (Z.eqb_spec M (2 ^ 63)); [discriminate|]. lia. }
  destruct (canon_ieee f Hf Cf) as [Vf Rf]. destruct (canon_ieee g Hg Cg) as [Vg Rg].
  assert (P : Float80x86.se f * 2 ^ 63 + Float80x86.m f mod 2 ^ 63 = Float80x86.se g * 2 ^ 63 + Float80x86.m g mod 2 ^ 63).
  { apply (ieee_inj 63 15); try lia; try congruence. }
  pose proof (Z.mod_pos_bound (Float80x86.m f) (2 ^ 63) ltac:(lia)). pose proof (Z.mod_pos_bound (Float80x86.m g) (2 ^ 63) ltac:(lia)).
  assert (S : Float80x86.se f = Float80x86.se g) by lia. assert (F : Float80x86.m f mod 2 ^ 63 = Float80x86.m g mod 2 ^ 63) by lia.
  destruct Hf as [_ Hf], Hg as [_ Hg].
  unfold canon in Cf, Cg. rewrite S in Cf.
  assert (Mm : Float80x86.m f = Float80x86.m g).
  { destruct Cf as [[C1 C2]|[[C1 C2]|[C1 C2]]], Cg as [[D1 D2]|[[D1 D2]|[D1 D2]]]; try lia.
    - rewrite !Z.mod_small in F by lia. exact F.
    - assert (A : forall M, 2 ^ 63 <= M < 2 ^ 64 -> M mod 2 ^ 63 = M - 2 ^ 63).
      { intros M HM. symmetry. apply (Z.mod_unique _ _ 1); lia. }
      rewrite !A in F by lia. lia. }
  destruct f, g. cbn [Float80x86.se Float80x86.m] in *. congruence.
Qed.

Lemma value_fits f s v : ok f -> value f = VNum s v -> fits 63 15 v.
Proof.
  intros Hf H. destruct (fields f Hf) as (t & E & M & HE & HM & -> & _).
  rewrite value_mk in H by exact HE. destruct (Z.eqb_spec E 32767) as [e|e].
  { destruct (M =? 2 ^ 63); discriminate. }
  apply VNum_inj in H. destruct H as [<- <-]. apply fits_sgn.
  split.
  - exists M, (Z.max E 1 - 16383 - 63). split; [reflexivity|]. change (2 - 2 ^ (15 - 1) - 63) with (-16445).
    change (63 + 1) with 64. lia.
  - rewrite Rabs_pos_eq by (apply Rmult_le_pos; [apply IZR_le; lia|left; apply p2_pos]).
    apply Rlt_le_trans with (p2 (64 + (Z.max E 1 - 16383 - 63))).
    + rewrite p2_plus. apply Rmult_lt_compat_r; [apply p2_pos|].
      rewrite <- IZR_pow2 by lia. apply IZR_lt. lia.
    + apply p2_le. change (2 ^ (15 - 1)) with 16384. lia.
Qed.

Definition decoded (x : BigFloat.bigfloat) (p : Z) : Prop :=
  wf x /\ prec x = p /\ rmode x = BigFloat.ToNearestEven /\ acc x = BigFloat.Exact.

Lemma Big_correct f : ok f ->
  exists x nan, Float80x86.Big f = Ret (x, nan) /\ decoded x 64 /\
  match value f with
  | VNaN s => nan = true /\ bval x = VNum s 0
  | v => nan = false /\ bval x = v
  end.
Proof.
  intros Hf. destruct (fields f Hf) as (s & E & M & HE & HM & Ef & Es & Ee & Em & Hl & Hfr & HlF).
  unfold Float80x86.Big. rewrite Es, Ee, Em.
  assert (Hi : value f = value (mk s E M)) by (rewrite Ef; reflexivity).
  rewrite value_mk in Hi by exact HE. rewrite Hi. clear Hi Ef Es Ee Em.
  set (z := BigFloat.SetMode (BigFloat.SetPrec BigFloat.NewFloat0 Float80x86.precision) BigFloat.ToNearestEven) in *.
  assert (Hzp : 63 + 1 <= prec z <= MaxPrec) by (unfold MaxPrec; cbn; unfold Float80x86.precision; lia).
  assert (Hzm : rmode z = BigFloat.ToNearestEven) by reflexivity.
  assert (Hz : forall b : bool, decoded (if b then BigFloat.NegSelf z else z) 64).
  { intros []; repeat split; try reflexivity; cbn; unfold MaxPrec, Float80x86.precision; lia. }
  set (l := Float80x86.Lead f) in *. set (F := Float80x86.Frac f) in *. clearbody l F. clear Hf f.
  set (ltxt := fmt_d l). set (ftxt := fmt_b 63 F).
  assert (HT : forall ex, -20000 <= ex <= 20000 ->
    exists x, Parse z (sign_text s ++ B "0b" ++ ltxt ++ B "." ++ ftxt ++ B "p" ++ fmt_d ex) = Some x /\
      decoded x 64 /\ bval x = VNum s (sgnR s (IZR M * p2 (ex - 63)))).
  { intros ex Hex. destruct (Z.eq_dec M 0) as [->|HM0].
    - pose proof (Parse_text z s l ftxt 63 F ex ltac:(lia) ltac:(lia) (fmt_b_text 63 F ltac:(lia) ltac:(lia))) as P.
      fold ltxt in P. rewrite P. cbv zeta. rewrite HlF. rewrite Z.eqb_refl.
      eexists. split; [reflexivity|]. split; [repeat split; cbn; unfold MaxPrec, Float80x86.precision; lia|].
      unfold bval. cbn [frm neg]. rewrite Rmult_0_l, sgnR_0. reflexivity.
    - destruct (Parse_correct z s l ftxt 63 F ex) as (r & Hr & Hv & Hw & Hp & Hmd & Ha & Hn);
        try lia; try (apply fmt_b_text; lia).
      exists r. split; [exact Hr|]. split.
      + split; [exact Hw|]. split; [rewrite Hp; reflexivity|]. split; [rewrite Hmd; exact Hzm|exact Ha].
      + rewrite Hv, HlF. reflexivity. }
  clearbody ltxt ftxt.
  change 0x7FFF with 32767. change 0x8000000000000000 with (2 ^ 63). change 0x0000 with 0.
  destruct (Z.eqb_spec E 32767) as [e1|e1].
  - destruct (Z.eqb_spec M (2 ^ 63)) as [f0|f0].
    + eexists _, _. split; [reflexivity|].
      split; [repeat split; try reflexivity; cbn; unfold MaxPrec, Float80x86.precision; lia|].
      split; reflexivity.
    + eexists _, _. split; [reflexivity|]. split; [apply Hz|].
      split; [reflexivity|]. destruct s; reflexivity.
  - assert (HZ : forall s : bool, bval (if s then BigFloat.NegSelf z else z) = VNum s 0) by (intros []; reflexivity).
    clearbody z. destruct (Z.eqb_spec E 0) as [e0|e0].
    + destruct (Z.eqb_spec M 0) as [f0|f0].
      * eexists _, _. split; [reflexivity|]. split; [apply Hz|]. split; [reflexivity|].
        rewrite f0, Rmult_0_l, sgnR_0. apply HZ.
      * destruct (HT (-16382) ltac:(lia)) as (x & Hx & Hd & Hv). unfold sign_text in Hx. rewrite Hx. eexists _, _.
        split; [reflexivity|]. split; [exact Hd|]. split; [reflexivity|].
        rewrite Hv, e0. reflexivity.
    + destruct (HT (E - Float80x86.bias) ltac:(unfold Float80x86.bias; lia)) as (x & Hx & Hd & Hv). unfold sign_text in Hx. rewrite Hx. eexists _, _.
      split; [reflexivity|]. split; [exact Hd|]. split; [reflexivity|].
      rewrite Hv, Z.max_l by lia. reflexivity.
Qed.

Lemma sign_or (s : bool) r : 0 <= r < 2 ^ 15 -> Z.lor (if s then Z.lor 0 0x8000 else 0) r = Z.b2z s * 2 ^ 15 + r.
Proof.
  intros H. replace (if s then Z.lor 0 0x8000 else 0) with (Z.b2z s * 2 ^ 15) by (destruct s; reflexivity).
  apply lor_add; lia.
Qed.

Lemma sign_only (s : bool) : (if s then Z.lor 0 0x8000 else 0) = Z.b2z s * 2 ^ 15 + 0.
Proof. destruct s; reflexivity. Qed.

Lemma NewFromBig_sub x m e : frm x = Finite m e -> wf x -> -63 < gexp m e - 1 + 16383 <= 0 ->
  Float80x86.NewFromBig x = (mk (neg x) 0 (top (gexp m e - 1 + 16383 + 63) m), BigFloat.Exact).
Proof.
  intros Hf Hw Hk. unfold Float80x86.NewFromBig, Float80x86.NewFromBig_int.
  assert (Hm : 0 < m) by (destruct Hw as [_ Hw]; rewrite Hf in Hw; apply Hw).
  unfold BigFloat.IsInf. rewrite Hf, Cmp_zero, Hf by reflexivity.
  rewrite (MantExp_finite x m e Hf). unfold Float80x86.bias, Float80x86.precision, BigFloat.Signbit.
  set (E := gexp m e - 1 + 16383) in *.
  rewrite (proj2 (Z.leb_le E 0)) by lia. rewrite (proj2 (Z.leb_gt E (- (64 - 1)))) by lia.
  replace (E + 64 - 1) with (E + 63) by lia.
  destruct (scaled_mant x m e (E + 63) Hf Hw ltac:(unfold MinExp, MaxExp; lia)) as (U & _ & _ & _ & _ & C).
  cbv zeta in *. unfold absb in C. rewrite C.
  specialize (U ltac:(lia)).
  destruct (BigFloat.Uint64 _) as [mant a]. cbn [fst] in U. rewrite U. f_equal.
  destruct (rz_sub 63 15 (neg x) m e Hm ltac:(lia) ltac:(lia)) as [Ht _]; [unfold E in *; lia|].
  replace (gexp m e - 1 + (2 ^ (15 - 1) - 1) + 63) with (E + 63) in Ht by (unfold E; lia).
  change 0x7FFFFFFFFFFFFFFF with (2 ^ 63 - 1). rewrite land_ones_mod, Z.mod_small by lia.
  rewrite sign_only, Z.lor_0_l. reflexivity.
Qed.

Lemma NewFromBig_norm x m e : frm x = Finite m e -> wf x -> 1 <= gexp m e - 1 + 16383 <= 32767 ->
  exists a, Float80x86.NewFromBig x = (mk (neg x) (gexp m e - 1 + 16383) (top 64 m), a) /\
  (a = BigFloat.Exact <-> sigbits m 64) /\ (a = BigFloat.Exact \/ a = BigFloat.Below).
Proof.
  intros Hf Hw Hk. unfold Float80x86.NewFromBig, Float80x86.NewFromBig_int.
  assert (Hm : 0 < m) by (destruct Hw as [_ Hw]; rewrite Hf in Hw; apply Hw).
  unfold BigFloat.IsInf. rewrite Hf, Cmp_zero, Hf by reflexivity.
  rewrite (MantExp_finite x m e Hf). unfold Float80x86.bias, Float80x86.precision, BigFloat.Signbit.
  set (E := gexp m e - 1 + 16383) in *.
  rewrite (proj2 (Z.leb_gt E 0)) by lia.
  change 0x7FFF with (2 ^ 15 - 1). rewrite andnot_ones_zero by lia.
  rewrite (proj2 (Z.ltb_lt E (2 ^ 15))) by lia. cbn [negb].
  destruct (scaled_mant x m e 64 Hf Hw ltac:(unfold MinExp, MaxExp; lia)) as (U & UE & UA & _ & I & _).
  cbv zeta in *. unfold absb in U, UE, UA, I. specialize (U ltac:(lia)). specialize (I ltac:(lia)).
  specialize (UE ltac:(lia)).
  set (r := BigFloat.SetMantExpSelf _ 64) in *.
  destruct (BigFloat.Uint64 r) as [mant a]. cbn [fst snd] in U, UE, UA. rewrite U.
  rewrite land_ones_mod, Z.mod_small by lia. unfold u16. rewrite Z.mod_small by lia.
  rewrite sign_or by lia. rewrite Z.lor_0_l.
  eexists. split; [reflexivity|].
  destruct (BigFloat.IsInt r) eqn:EI; cbn [negb BigFloat.accuracy_eqb].
  - split; [exact UE|exact UA].
  - split; [|auto]. split; [discriminate|]. intros Hs. apply I in Hs. discriminate.
Qed.

(** On 2^-16445 <= |x| < 2^16384, NewFromBig truncates. *)
Lemma NewFromBig_trunc x m e : frm x = Finite m e -> wf x -> -16445 < gexp m e <= 16384 ->
  let '(f, a) := Float80x86.NewFromBig x in
  ok f /\ canon f /\
  value f = VNum (neg x) (rz 63 15 (sgnR (neg x) (IZR m * p2 e))) /\
  (a = BigFloat.Exact \/ a = BigFloat.Below) /\
  (-16382 < gexp m e -> a = BigFloat.Exact <-> rz 63 15 (sgnR (neg x) (IZR m * p2 e)) = sgnR (neg x) (IZR m * p2 e)) /\
  (gexp m e <= -16382 -> a = BigFloat.Exact).
Proof.
  intros Hf Hw Hk.
  assert (Hm : 0 < m) by (destruct Hw as [_ Hw]; rewrite Hf in Hw; apply Hw).
  assert (CV : forall E M, ok (mk (neg x) E M) -> canon (mk (neg x) E M) -> 0 <= E < 2 ^ 15 ->
    value (mk (neg x) E M) = ieee 63 15 (enc 63 15 (neg x) E (M mod 2 ^ 63))).
  { intros E M Ho Hc HE. rewrite (proj1 (canon_ieee _ Ho Hc)). f_equal. cbn [Float80x86.se Float80x86.m mk]. unfold enc.
    destruct (neg x); cbn [Z.b2z]; lia. }
  destruct (Z_le_gt_dec (gexp m e - 1 + 16383) 0) as [L|L].
  - rewrite (NewFromBig_sub x m e Hf Hw) by lia.
    destruct (rz_sub 63 15 (neg x) m e Hm ltac:(lia) ltac:(lia)) as [Ht Hv]; [lia|].
    change (2 ^ (15 - 1) - 1) with 16383 in *.
    set (M := top (gexp m e - 1 + 16383 + 63) m) in *.
    assert (Ho : ok (mk (neg x) 0 M)) by (apply mk_ok; lia).
    assert (Hc : canon (mk (neg x) 0 M)).
    { unfold canon. destruct (mk_parts (neg x) 0 M ltac:(lia)) as [_ ->]. cbn [Float80x86.m mk]. lia. }
    split; [exact Ho|]. split; [exact Hc|].
    split. { rewrite CV, Z.mod_small by (assumption || lia). exact Hv. }
    split; [auto|]. split; [lia|auto].
  - destruct (NewFromBig_norm x m e Hf Hw) as (a & -> & Ha & Hor); [lia|].
    pose proof (rz_norm 63 15 (neg x) m e Hm ltac:(lia) ltac:(lia)) as Hv. cbv zeta in Hv.
    change (2 ^ (15 - 1) - 1) with 16383 in *.
    pose proof (top_range 64 m Hm ltac:(lia)) as Ht. change (64 - 1) with 63 in Ht.
    set (E := gexp m e - 1 + 16383) in *. change (63 + 1) with 64 in Hv. set (M := top 64 m) in *.
    assert (HE : 1 <= E <= 32766) by (unfold E; lia).
    assert (Ho : ok (mk (neg x) E M)) by (apply mk_ok; lia).
    assert (Hc : canon (mk (neg x) E M)).
    { unfold canon. destruct (mk_parts (neg x) E M ltac:(lia)) as [_ ->]. cbn [Float80x86.m mk]. lia. }
    split; [exact Ho|]. split; [exact Hc|].
    split.
    { rewrite CV by (assumption || lia). rewrite <- Hv by (change (2 ^ 15 - 2) with 32766; lia).
      do 2 f_equal. symmetry. apply (Z.mod_unique _ _ 1); lia. }
    split; [exact Hor|].
    split; [|lia]. intros _. rewrite Ha. apply (sigbits_rz 63 15); lia.
Qed.

Lemma NewFromBig_special x :
  match bval x with
  | VInf s => Float80x86.NewFromBig x = ((if s then Float80x86.NegInf else Float80x86.Inf), BigFloat.Exact)
  | VNum s v => v = 0%R -> wf x ->
      Float80x86.NewFromBig x = ((if s then Float80x86.NegZero else Float80x86.Zero), BigFloat.Exact)
  | VNaN _ => False
  end.
Proof.
  unfold bval, Float80x86.NewFromBig, Float80x86.NewFromBig_int, BigFloat.IsInf, BigFloat.Signbit.
  destruct (frm x) as [|m e|] eqn:Ef.
  - intros _ _. rewrite Cmp_zero, Ef by reflexivity. destruct (neg x); reflexivity.
  - intros E [_ W]. exfalso. rewrite Ef in W.
    pose proof (val_pos m e (proj1 W)). destruct (neg x); cbn [sgnR] in E; lra.
  - destruct (neg x); reflexivity.
Qed.

Lemma zero_pattern (s : bool) : value (if s then Float80x86.NegZero else Float80x86.Zero) = VNum s 0 /\
  ok (if s then Float80x86.NegZero else Float80x86.Zero) /\ canon (if s then Float80x86.NegZero else Float80x86.Zero).
Proof.
  replace (if s then Float80x86.NegZero else Float80x86.Zero) with (mk s 0 0) by (destruct s; reflexivity).
  split; [|split; [apply mk_ok; lia|]].
  - rewrite value_mk by lia. change (0 =? 32767) with false. cbv iota. rewrite Rmult_0_l, sgnR_0. reflexivity.
  - left. destruct (mk_parts s 0 0 ltac:(lia)) as [_ ->]. cbn [mk Float80x86.m]. lia.
Qed.

Lemma inf_pattern (s : bool) : value (if s then Float80x86.NegInf else Float80x86.Inf) = VInf s /\
  ok (if s then Float80x86.NegInf else Float80x86.Inf) /\ canon (if s then Float80x86.NegInf else Float80x86.Inf).
Proof.
  replace (if s then Float80x86.NegInf else Float80x86.Inf) with (mk s 32767 (2 ^ 63)) by (destruct s; reflexivity).
  split; [|split; [apply mk_ok; lia|]].
  - rewrite value_mk by lia. reflexivity.
  - right. right. destruct (mk_parts s 32767 (2 ^ 63) ltac:(lia)) as [_ ->]. cbn [mk Float80x86.m]. lia.
Qed.

Lemma nan_pattern (s : bool) : value (if s then Float80x86.NegNaN else Float80x86.NaN) = VNaN s /\
  ok (if s then Float80x86.NegNaN else Float80x86.NaN).
Proof.
  replace (if s then Float80x86.NegNaN else Float80x86.NaN) with (mk s 32767 0xBFFFFFFFFFFFFFFF) by (destruct s; reflexivity).
  split; [|apply mk_ok; lia]. rewrite value_mk by lia. reflexivity.
Qed.

(** Numbers of the format, of any provenance, are encoded exactly. *)
Lemma NewFromBig_fits x s v : wf x -> bval x = VNum s v -> fits 63 15 v ->
  exists f, Float80x86.NewFromBig x = (f, BigFloat.Exact) /\ ok f /\ canon f /\ value f = VNum s v.
Proof.
  intros Hw Hv Hfit. pose proof (NewFromBig_special x) as Hs. rewrite Hv in Hs.
  unfold bval in Hv. destruct (frm x) as [|m e|] eqn:Ef; [| |discriminate].
  - apply VNum_inj in Hv. destruct Hv as [<- <-]. rewrite Hs by auto.
    eexists. split; [reflexivity|]. destruct (zero_pattern (neg x)) as (? & ? & ?). auto.
  - apply VNum_inj in Hv. destruct Hv as [<- <-].
    assert (Hm : 0 < m) by (destruct Hw as [_ W]; rewrite Ef in W; apply W).
    pose proof (fits_range 63 15 (neg x) m e ltac:(lia) ltac:(lia) Hm Hfit) as Hr.
    change (2 ^ (15 - 1)) with 16384 in Hr.
    pose proof (NewFromBig_trunc x m e Ef Hw ltac:(lia)) as H.
    destruct (Float80x86.NewFromBig x) as [f a]. destruct H as (H1 & H0 & H2 & H3 & H4 & H5).
    rewrite (fits_rz 63 15 _ ltac:(lia) Hfit) in *.
    exists f. split; [|auto]. f_equal.
    destruct (Z_le_gt_dec (gexp m e) (-16382)); [auto|]. apply H4; [lia|reflexivity].
Qed.

(** A big.Float with the value of a pattern gives the canonical pattern of that value. *)
Lemma NewFromBig_of x f : wf x -> ok f -> bval x = value f ->
  exists g, Float80x86.NewFromBig x = (g, BigFloat.Exact) /\ ok g /\ canon g /\ value g = value f /\
  (canon f -> g = f).
Proof.
  intros Hw Hf Hv.
  assert (A : exists g, Float80x86.NewFromBig x = (g, BigFloat.Exact) /\ ok g /\ canon g /\ value g = value f).
  { destruct (value f) as [s|s|s v] eqn:Ei.
    - unfold bval in Hv. destruct (frm x); discriminate.
    - pose proof (NewFromBig_special x) as Hs. rewrite Hv in Hs. rewrite Hs.
      destruct (inf_pattern s) as (V & O & C). eexists. split; [reflexivity|]. auto.
    - apply NewFromBig_fits; [exact Hw|exact Hv|]. exact (value_fits f s v Hf Ei). }
  destruct A as (g & A1 & A2 & A3 & A4). exists g. do 4 (split; [assumption|]).
  intros C. apply value_inj; assumption.
Qed.

Lemma roundtrip f : ok f -> (forall s, value f <> VNaN s) ->
  exists x g, Float80x86.Big f = Ret (x, false) /\ Float80x86.NewFromBig x = (g, BigFloat.Exact) /\
  ok g /\ canon g /\ value g = value f /\ (canon f -> g = f).
Proof.
  intros Hf Hn. destruct (Big_correct f Hf) as (x & nan & HB & (Hw & _) & Hv).
  exists x. assert (V : nan = false /\ bval x = value f).
  { destruct (value f) as [s|s|s v] eqn:Ei; [|exact Hv..]. exfalso. eapply Hn. reflexivity. }
  destruct V as [-> V]. destruct (NewFromBig_of x f Hw Hf V) as (g & H). exists g. tauto.
Qed.

(** ** float64 and float32 *)
Lemma nff64_nan x s : 0 <= x < 2 ^ 64 -> ieee 52 11 x = VNaN s ->
  Float80x86.NewFromFloat64 x = Ret ((if s then Float80x86.NegNaN else Float80x86.NaN), BigFloat.Exact).
Proof.
  intros Hx H. unfold Float80x86.NewFromFloat64.
  rewrite isnan_ieee, sign_ieee by (simpl; lia). rewrite H. cbn. destruct s; reflexivity.
Qed.

Lemma nff64_inf x s : 0 <= x < 2 ^ 64 -> ieee 52 11 x = VInf s ->
  Float80x86.NewFromFloat64 x = Ret ((if s then Float80x86.NegInf else Float80x86.Inf), BigFloat.Exact).
Proof.
  intros Hx H. unfold Float80x86.NewFromFloat64.
  rewrite isnan_ieee by (simpl; lia). rewrite H.
  pose proof (SetFloat_correct 52 11 x ltac:(lia) ltac:(lia) Hx) as HS. rewrite H in HS.
  destruct HS as (y & Hy & Hv & Hw & _). unfold BigFloat.NewFloat. rewrite Hy. cbn [bind].
  destruct (SetPrec_inf y s 64 Hw Hv ltac:(unfold MaxPrec; lia)) as (W & V & _).
  pose proof (NewFromBig_special (BigFloat.SetMode (BigFloat.SetPrec y 64) BigFloat.ToNearestEven)) as S.
  rewrite V in S. unfold Float80x86.precision. rewrite S. reflexivity.
Qed.

Lemma nff64_num x s v : 0 <= x < 2 ^ 64 -> ieee 52 11 x = VNum s v ->
  exists f, Float80x86.NewFromFloat64 x = Ret (f, BigFloat.Exact) /\ ok f /\ canon f /\ value f = VNum s v.
Proof.
  intros Hx H. unfold Float80x86.NewFromFloat64.
  rewrite isnan_ieee by (simpl; lia). rewrite H.
  pose proof (SetFloat_correct 52 11 x ltac:(lia) ltac:(lia) Hx) as HS. rewrite H in HS.
  destruct HS as (y & Hy & Hv & Hw & Hp & Hm & Ha). unfold BigFloat.NewFloat. rewrite Hy. cbn [bind].
  destruct (SetPrec_round y s v 64 Hw Hv ltac:(unfold MaxPrec; lia)
    (ieee_abs_le 52 11 x s v ltac:(lia) ltac:(lia) Hx H)) as (W & V & P & _).
  assert (Hfit : fits 63 15 v).
  { apply (fits_mono 52 11); [lia|lia|]. apply (fits_ieee 52 11 x s v ltac:(lia) ltac:(lia) Hx H). }
  rewrite (fits_rnd_prec _ 63 15 64 v ltac:(lia) ltac:(lia) Hfit) in V.
  destruct (NewFromBig_fits _ s v W V Hfit) as (f & E & Hf). exists f.
  unfold Float80x86.precision. rewrite E. auto.
Qed.

(** What NewFromFloat64 returns, NaNs included. *)
Lemma nff64_correct x : 0 <= x < 2 ^ 64 ->
  exists f, Float80x86.NewFromFloat64 x = Ret (f, BigFloat.Exact) /\ ok f /\ value f = ieee 52 11 x /\
  match ieee 52 11 x with
  | VNaN s => f = if s then Float80x86.NegNaN else Float80x86.NaN
  | _ => canon f
  end.
Proof.
  intros Hx. destruct (ieee 52 11 x) as [s|s|s v] eqn:Ei.
  - rewrite (nff64_nan x s Hx Ei). eexists. split; [reflexivity|]. destruct (nan_pattern s) as [V O]. auto.
  - rewrite (nff64_inf x s Hx Ei). eexists. split; [reflexivity|]. destruct (inf_pattern s) as (V & O & C). auto.
  - destruct (nff64_num x s v Hx Ei) as (f & E & O & C & V). exists f. rewrite E. auto.
Qed.

Lemma ToFloat_big mb eb f : 0 <= mb -> 2 <= eb -> 2 ^ (eb - 1) <= MaxExp -> ok f -> 
  exists x nan, Float80x86.Big f = Ret (x, nan) /\
  match value f with
  | VNaN s => nan = true /\ BigFloat.Signbit x = s
  | VInf s => nan = false /\ exists b, BigFloat.ToFloat mb eb x = (b, BigFloat.Exact) /\
      0 <= b < 2 ^ (mb + eb + 1) /\ ieee mb eb b = VInf s
  | VNum s v => nan = false /\ exists b a, BigFloat.ToFloat mb eb x = (b, a) /\
      0 <= b < 2 ^ (mb + eb + 1) /\ ieee mb eb b = ieee_round mb eb s v /\ acc_ok a (ieee mb eb b) v
  end.
Proof.
  intros Hm He HM Hf. destruct (Big_correct f Hf) as (x & nan & HB & (Hw & _) & Hv).
  exists x, nan. split; [exact HB|]. pose proof (ToFloat_val mb eb x Hm He HM Hw) as H.
  destruct (BigFloat.ToFloat mb eb x) as [b a].
  destruct (value f) as [s|s|s v] eqn:Ei; destruct Hv as [-> Hv]; (split; [reflexivity|]); rewrite Hv in H.
  - unfold bval in Hv. unfold BigFloat.Signbit. destruct (frm x); inversion Hv; reflexivity.
  - destruct H as (H1 & H2 & ->). exists b. auto.
  - destruct H as (H1 & H2 & H3). exists b, a. auto.
Qed.

Lemma Float64_correct f : ok f ->
  exists b a, Float80x86.Float64 f = Ret (b, a) /\ 0 <= b < 2 ^ 64 /\
  match value f with
  | VNaN s => a = BigFloat.Exact /\ ieee 52 11 b = VNaN s
  | VInf s => a = BigFloat.Exact /\ ieee 52 11 b = VInf s
  | VNum s v => ieee 52 11 b = ieee_round 52 11 s v /\ acc_ok a (ieee 52 11 b) v
  end.
Proof.
  intros Hf. destruct (ToFloat_big 52 11 f ltac:(lia) ltac:(lia) ltac:(unfold MaxExp; lia) Hf) as (x & nan & HB & H).
  unfold Float80x86.Float64. rewrite HB. cbn [bind].
  destruct (value f) as [s|s|s v] eqn:Ei; destruct H as [-> H].
  - rewrite H. exists (if s then BigFloat.math_NegNaN else BigFloat.math_NaN), BigFloat.Exact.
    destruct s; (split; [reflexivity|]); (split; [unfold BigFloat.math_NegNaN, BigFloat.math_NaN; lia|split; reflexivity]).
  - destruct H as (b & E & Hb & Hv). unfold BigFloat.Float64. rewrite E. eexists _, _. split; [reflexivity|]. auto.
  - destruct H as (b & a & E & Hb & Hv). unfold BigFloat.Float64. rewrite E. eexists _, _. split; [reflexivity|]. auto.
Qed.

Lemma Float32_correct f : ok f ->
  exists b a, Float80x86.Float32 f = Ret (b, a) /\ 0 <= b < 2 ^ 32 /\
  match value f with
  | VNaN s => a = BigFloat.Exact /\ ieee 23 8 b = VNaN s
  | VInf s => a = BigFloat.Exact /\ ieee 23 8 b = VInf s
  | VNum s v => ieee 23 8 b = ieee_round 23 8 s v /\ acc_ok a (ieee 23 8 b) v
  end.
Proof.
  intros Hf. destruct (ToFloat_big 23 8 f ltac:(lia) ltac:(lia) ltac:(unfold MaxExp; lia) Hf) as (x & nan & HB & H).
  unfold Float80x86.Float32. rewrite HB. cbn [bind].
  destruct (value f) as [s|s|s v] eqn:Ei; destruct H as [-> H].
  - rewrite H. exists (BigFloat.f64_to_f32 (if s then BigFloat.math_NegNaN else BigFloat.math_NaN)), BigFloat.Exact.
    destruct s; (split; [reflexivity|]); (split; [vm_compute; split; congruence|split; reflexivity]).
  - destruct H as (b & E & Hb & Hv). unfold BigFloat.Float32. rewrite E. eexists _, _. split; [reflexivity|]. auto.
  - destruct H as (b & a & E & Hb & Hv). unfold BigFloat.Float32. rewrite E. eexists _, _. split; [reflexivity|]. auto.
Qed.

Lemma Float64_exact f d : ok f -> 0 <= d < 2 ^ 64 -> value f = ieee 52 11 d -> (forall s, value f <> VNaN s) ->
  Float80x86.Float64 f = Ret (d, BigFloat.Exact).
Proof.
  intros Hf Hd E Hn. destruct (Float64_correct f Hf) as (b & a & -> & Hb & H).
  destruct (value f) as [s|s|s v] eqn:Ei; [exfalso; eapply Hn; reflexivity| |].
  - destruct H as [-> H]. do 2 f_equal. apply (ieee_inj 52 11); try lia; try congruence.
  - pose proof (fits_ieee 52 11 d s v ltac:(lia) ltac:(lia) Hd (eq_sym E)) as [Hfit _].
    rewrite fits_round in H by (lia || assumption). destruct H as [H A]. rewrite H in A.
    apply acc_ok_exact in A. subst a. do 2 f_equal. apply (ieee_inj 52 11); try lia; congruence.
Qed.

Lemma Float32_exact f d : ok f -> 0 <= d < 2 ^ 32 -> value f = ieee 23 8 d -> (forall s, value f <> VNaN s) ->
  Float80x86.Float32 f = Ret (d, BigFloat.Exact).
Proof.
  intros Hf Hd E Hn. destruct (Float32_correct f Hf) as (b & a & -> & Hb & H).
  destruct (value f) as [s|s|s v] eqn:Ei; [exfalso; eapply Hn; reflexivity| |].
  - destruct H as [-> H]. do 2 f_equal. apply (ieee_inj 23 8); try lia; try congruence.
  - pose proof (fits_ieee 23 8 d s v ltac:(lia) ltac:(lia) Hd (eq_sym E)) as [Hfit _].
    rewrite fits_round in H by (lia || assumption). destruct H as [H A]. rewrite H in A.
    apply acc_ok_exact in A. subst a. do 2 f_equal. apply (ieee_inj 23 8); try lia; congruence.
Qed.

Lemma nff32_eq x : 0 <= x < 2 ^ 32 ->
  Float80x86.NewFromFloat32 x = Float80x86.NewFromFloat64 (BigFloat.f32_to_f64 x).
Proof.
  intros Hx. unfold Float80x86.NewFromFloat32.
  destruct (f32_to_f64_correct x Hx) as [Hr Hv].
  destruct (nff64_correct _ Hr) as (f & -> & Hf & Hfv & _). cbn [bind BigFloat.accuracy_eqb].
  destruct (value f) as [s|s|s v] eqn:Ei.
  - destruct (Float32_correct f Hf) as (b & a & -> & _ & H). rewrite Ei in H. destruct H as [-> _]. reflexivity.
  - rewrite (Float32_exact f x Hf Hx); [reflexivity|congruence|intros; congruence].
  - rewrite (Float32_exact f x Hf Hx); [reflexivity|congruence|intros; congruence].
Qed.

(** ** The sign only reaches the sign bit *)
Lemma NewFromBig_core x m e : frm x = Finite m e -> wf x ->
  exists r lo a, 0 <= r < 2 ^ 15 /\
  forall s, Float80x86.NewFromBig (BigFloat.set_neg x s) = (mkFloat (Z.b2z s * 2 ^ 15 + r) lo, a).
Proof.
  intros Hf Hw.
  set (E := gexp m e - 1 + 16383).
  set (mn := fst (BigFloat.MantExp (BigFloat.set_neg x false))).
  assert (Hmn : forall s, absb (fst (BigFloat.MantExp (BigFloat.set_neg x s))) = mn).
  { intros s. rewrite absb_MantExp, absb_set_neg. reflexivity. }
  assert (Hfs : forall s, frm (BigFloat.set_neg x s) = Finite m e) by (intros; exact Hf).
  assert (Hme : forall s, BigFloat.MantExp (BigFloat.set_neg x s) =
                   (fst (BigFloat.MantExp (BigFloat.set_neg x s)), gexp m e)).
  { intros s. apply MantExp_finite. apply Hfs. }
  destruct (Z.leb_spec E 0) as [L|L].
  - set (E' := if E <=? -63 then 63 else E).
    assert (HE' : -63 < E' <= 63) by (unfold E'; destruct (Z.leb_spec E (-63)); lia).
    set (r := BigFloat.SetMantExpSelf mn (E' + 64 - 1)).
    exists 0. destruct (BigFloat.Uint64 r) as [mm aa] eqn:Eu.
    eexists _, _. split; [lia|].
    intros s. unfold Float80x86.NewFromBig, Float80x86.NewFromBig_int.
    unfold BigFloat.IsInf. rewrite Hfs, Cmp_zero, Hfs by reflexivity.
    rewrite Hme. unfold Float80x86.bias, Float80x86.precision, BigFloat.Signbit. fold E.
    rewrite (proj2 (Z.leb_le E 0)) by lia. change (- (64 - 1)) with (-63). change (64 - 1) with 63.
    replace (if E <=? -63 then (63, BigFloat.Below) else (E, BigFloat.Exact))
      with (E', if E <=? -63 then BigFloat.Below else BigFloat.Exact) by (unfold E'; destruct (E <=? -63); reflexivity).
    destruct (scaled_mant (BigFloat.set_neg x s) m e (E' + 64 - 1) (Hfs s) Hw ltac:(unfold MinExp, MaxExp; lia))
      as (_ & _ & _ & _ & _ & C).
    cbv zeta in C. unfold absb at 1 in C. rewrite C, Hmn. fold r. rewrite Eu.
    change (neg (BigFloat.set_neg x s)) with s. rewrite sign_only. reflexivity.
  - set (r := BigFloat.SetMantExpSelf mn 64).
    destruct (BigFloat.Uint64 r) as [mm aa] eqn:Eu.
    assert (Hx : 0 <= u16 (Z.land E 0x7FFF) < 2 ^ 15).
    { change 0x7FFF with (2 ^ 15 - 1). rewrite land_ones_mod by lia.
      pose proof (Z.mod_pos_bound E (2 ^ 15) ltac:(lia)). unfold u16. rewrite Z.mod_small by lia. lia. }
    exists (u16 (Z.land E 0x7FFF)). eexists _, _. split; [exact Hx|].
    intros s. unfold Float80x86.NewFromBig, Float80x86.NewFromBig_int.
    unfold BigFloat.IsInf. rewrite Hfs, Cmp_zero, Hfs by reflexivity.
    rewrite Hme. unfold Float80x86.bias, Float80x86.precision, BigFloat.Signbit. fold E.
    rewrite (proj2 (Z.leb_gt E 0)) by lia.
    pose proof (Hmn s) as C. unfold absb in C. rewrite C. fold r. rewrite Eu.
    change (neg (BigFloat.set_neg x s)) with s.
    rewrite sign_or by exact Hx. reflexivity.
Qed.

Lemma NewFromBig_neg x : wf x ->
  let (f, a) := Float80x86.NewFromBig x in
  Float80x86.NewFromBig (BigFloat.NegSelf x) = (mkFloat (Z.lxor (Float80x86.se f) (2 ^ 15)) (Float80x86.m f), a).
Proof.
  intros Hw. assert (Hx : forall s r, 0 <= r < 2 ^ 15 ->
    Z.lxor (Z.b2z s * 2 ^ 15 + r) (2 ^ 15) = Z.b2z (negb s) * 2 ^ 15 + r).
  { intros s r Hr. rewrite <- !lor_add by lia.
    rewrite <- !Z.lxor_lor by (apply land_disjoint; lia).
    rewrite Z.lxor_assoc, (Z.lxor_comm r), <- Z.lxor_assoc. f_equal. destruct s; reflexivity. }
  destruct (frm x) as [|m e|] eqn:Ef.
  - unfold Float80x86.NewFromBig, Float80x86.NewFromBig_int, BigFloat.IsInf, BigFloat.Signbit.
    rewrite !Cmp_zero by reflexivity. cbn [BigFloat.NegSelf BigFloat.set_neg frm neg]. rewrite Ef.
    destruct (neg x); reflexivity.
  - destruct (NewFromBig_core x m e Ef Hw) as (r & lo & a & Hr & H).
    pose proof (H (neg x)) as H0. rewrite set_neg_self in H0. rewrite H0.
    rewrite NegSelf_set_neg, H. cbn [Float80x86.se Float80x86.m].
    rewrite Hx by exact Hr. reflexivity.
  - unfold Float80x86.NewFromBig, Float80x86.NewFromBig_int, BigFloat.IsInf, BigFloat.Signbit.
    cbn [BigFloat.NegSelf BigFloat.set_neg frm neg]. rewrite Ef.
    destruct (neg x); reflexivity.
Qed.
