(** The text of a number and of its opposite: the bits. *)
From Coq Require Import ZArith Reals String List Bool Lia Lra.
From Flocq Require Import Core.
From Verif Require Import GoBase Spec SpecText SpecDec SpecFtoa SpecFmt BitFacts RoundFacts IeeeFacts BigFacts BigFacts2 ItoaFacts DecFacts DecFacts2.
From Verif Require Import FloatMid ExtBounds ClaimsExt FtoaText FtoaFixed FtoaShort.
From Verif Require PkgFacts Claims16 Facts16 Binary16 BigFloat Itoa Decimal ClaimsFtoa.
From Verif Require Import SpecSign.
From Verif Require Import ExtFloat Ftoa FtoaAll ClaimsSignFmt.
Import BigFloat (mkBF, frm, prec, rmode, acc).
Import ListNotations.
Open Scope Z_scope.

Lemma gen_enc w val bitSize flt mb eb s E F : w = 32 \/ w = 64 -> format_of flt mb eb ->
  0 <= E < 2 ^ eb -> 0 <= F < 2 ^ mb ->
  select val bitSize = Ret (enc mb eb s E F, flt) ->
  forall opt dst fmt prec, genericFtoa w opt dst val fmt prec bitSize =
    if E =? 2 ^ eb - 1 then Ret (dst ++ (if negb (F =? 0) then B "NaN" else if s then B "-Inf" else B "+Inf"))
    else let '(exp, mant) := if E =? 0 then (E + 1, F) else (E, Z.lor F (2 ^ mb)) in
      if fmt =? ch_b then fmtB w dst s mant (exp + bias flt) flt else ftoa_digits w opt dst fmt prec s mant (exp + bias flt) flt.
Proof.
  intros Hw Hf HE HF Hs opt dst fmt prec. destruct (format_ok flt mb eb Hf) as (_ & Em & Ee).
  assert (R : 1 <= mb <= 52 /\ 5 <= eb <= 11) by (destruct Hf as [(-> & -> & ->)|[(-> & -> & ->)|(-> & -> & ->)]]; cbn; lia).
  destruct R as (R1 & R2).
  unfold genericFtoa. rewrite Hs. cbn [bind]. rewrite <- Em, <- Ee.
  pose proof (pow2_pos mb ltac:(lia)) as Pm. pose proof (pow2_pos eb ltac:(lia)) as Pe.
  assert (P11 : 2 ^ eb <= 2 ^ 11) by (apply Z.pow_le_mono_r; lia).
  replace (negb (Z.shiftr (enc mb eb s E F) (eb + mb) =? 0)) with s.
  2:{ rewrite Z.shiftr_div_pow2, (Z.add_comm eb mb), enc_sign by lia. destruct s; reflexivity. }
  replace (Z.land (sint w (Z.shiftr (enc mb eb s E F) mb)) (2 ^ eb - 1)) with E.
  2:{ rewrite Z.shiftr_div_pow2, enc_div by lia. rewrite (sint_id w Hw).
      2:{ assert (0 <= Z.b2z s <= 1) by (destruct s; cbn; lia). assert (0 <= Z.b2z s * 2 ^ eb <= 2 ^ 11) by nia. destruct Hw as [-> | ->]; cbn in *; lia. }
      replace (2 ^ eb - 1) with (Z.ones eb) by (rewrite Z.ones_equiv; lia). rewrite Z.land_ones by lia. rewrite Z.add_comm, Z.mod_add by lia. rewrite Z.mod_small by lia. reflexivity. }
  replace (Z.land (enc mb eb s E F) (2 ^ mb - 1)) with F.
  2:{ replace (2 ^ mb - 1) with (Z.ones mb) by (rewrite Z.ones_equiv; lia). rewrite Z.land_ones, enc_low by lia. reflexivity. }
  reflexivity.
Qed.

Lemma round_NE p a n n' f : 
  frm (BigFloat.round (mkBF p BigFloat.ToNearestEven a n f)) = frm (BigFloat.round (mkBF p BigFloat.ToNearestEven a n' f)) /\
  prec (BigFloat.round (mkBF p BigFloat.ToNearestEven a n f)) = p /\
  BigFloat.neg (BigFloat.round (mkBF p BigFloat.ToNearestEven a n f)) = n.
Proof.
  unfold BigFloat.round. cbn [frm prec rmode BigFloat.neg]. destruct f as [|m e|]; [cbn; auto| |cbn; auto].
  destruct (_ <=? _); [cbn; auto|]. destruct (_ =? 0); [cbn; auto|]. cbn [BigFloat.round_inc].
  set (i := _ || _). clearbody i. destruct (_ <? _); cbn; auto.
Qed.

(** * float64 to float32 *)
Lemma SetFloat_sign mb eb E F : 0 <= mb -> 1 <= eb -> 0 <= E < 2 ^ eb -> 0 <= F < 2 ^ mb -> ~ (E = 2 ^ eb - 1 /\ F <> 0) ->
  exists f, forall s, BigFloat.SetFloat mb eb (enc mb eb s E F) = Ret (mkBF 53 BigFloat.ToNearestEven BigFloat.Exact s f).
Proof.
  intros Hm He HE HF Hn. unfold BigFloat.SetFloat.
  destruct (Z.eqb_spec E (2 ^ eb - 1)) as [e1|e1].
  - assert (F = 0) by lia. subst F. eexists. intros s. rewrite f_sign_enc, f_exp_enc, f_frac_enc by lia. rewrite (proj2 (Z.eqb_eq _ _) e1). reflexivity.
  - destruct (Z.eqb_spec E 0) as [e0|e0]; [destruct (Z.eqb_spec F 0) as [f0|f0]|]; eexists; intros s; rewrite f_sign_enc, f_exp_enc, f_frac_enc by lia;
      rewrite (proj2 (Z.eqb_neq _ _) e1).
    + rewrite (proj2 (Z.eqb_eq _ _) e0), (proj2 (Z.eqb_eq _ _) f0). reflexivity.
    + rewrite (proj2 (Z.eqb_eq _ _) e0), (proj2 (Z.eqb_neq _ _) f0). reflexivity.
    + rewrite (proj2 (Z.eqb_neq _ _) e0). reflexivity.
Qed.

Lemma ToFloat_sign mb eb f p a : exists mag, forall s, 
  fst (BigFloat.ToFloat mb eb (mkBF p BigFloat.ToNearestEven a s f)) = BigFloat.with_sign mb eb s mag.
Proof.
  unfold BigFloat.ToFloat. cbn [frm BigFloat.neg]. destruct f as [|m e|]; [eexists; intros; reflexivity| |eexists; intros; reflexivity].
  set (pp := if _ <? _ then _ else _). clearbody pp.
  destruct (_ || _); [eexists; intros; reflexivity|]. destruct (pp =? 0); [eexists; intros; reflexivity|].
  assert (H : forall s, frm (BigFloat.Set_ (mkBF pp BigFloat.ToNearestEven BigFloat.Exact false BigFloat.Zero) (mkBF p BigFloat.ToNearestEven a s (BigFloat.Finite m e))) =
     frm (BigFloat.Set_ (mkBF pp BigFloat.ToNearestEven BigFloat.Exact false BigFloat.Zero) (mkBF p BigFloat.ToNearestEven a false (BigFloat.Finite m e)))).
  { intros s. unfold BigFloat.Set_. cbn [prec rmode frm BigFloat.neg]. destruct (_ =? 0); [reflexivity|].
    destruct (_ <? _); [|reflexivity]. apply round_NE. }
  match type of H with forall s, _ = ?r => destruct r as [|rm re|] eqn:Er end;
    try (eexists; intros s; rewrite H; reflexivity).
  destruct (2 ^ (eb - 1) - 1 <? BigFloat.gexp rm re - 1) eqn:E1;
  [ |destruct (BigFloat.gexp rm re - 1 <? 1 - (2 ^ (eb - 1) - 1)) eqn:E2];
  eexists; intros s; rewrite H; cbv zeta; rewrite E1, ?E2; reflexivity.
Qed.

Lemma pattern_sign mb eb b s v : 0 <= mb -> 0 <= eb -> 0 <= b < 2 ^ (mb + eb + 1) -> ieee mb eb b = v ->
  match v with VNaN t => t | VInf t => t | VNum t _ => t end = s ->
  exists E F, 0 <= E < 2 ^ eb /\ 0 <= F < 2 ^ mb /\ b = enc mb eb s E F.
Proof.
  intros Hm He Hb Hi Hv. destruct (enc_surj mb eb b Hm He Hb) as (t & E & F & HE & HF & ->). exists E, F. split; [exact HE|]. split; [exact HF|].
  rewrite ieee_enc in Hi by lia. unfold ieee_parts in Hi. f_equal. rewrite <- Hv.
  destruct (E =? 2 ^ eb - 1); [destruct (F =? 0)|destruct (E =? 0)]; subst v; reflexivity.
Qed.

Lemma with_sign_split mb eb mag b : 0 <= mb -> 0 <= eb -> BigFloat.with_sign mb eb false mag = b -> 0 <= b < 2 ^ (mb + eb) ->
  BigFloat.with_sign mb eb true mag = b + 2 ^ (mb + eb).
Proof.
  intros Hm He E Hb. unfold BigFloat.with_sign in *. rewrite Z.lor_0_l in E. subst mag.
  replace (2 ^ (mb + eb)) with (1 * 2 ^ (mb + eb)) at 1 by lia. rewrite lor_add by lia. lia.
Qed.

Lemma enc_flip mb eb E F : 0 <= mb -> 0 <= eb -> enc mb eb false E F + 2 ^ (mb + eb) = enc mb eb true E F.
Proof. intros. unfold enc. cbn [Z.b2z]. lia. Qed.

Lemma enc_low_range mb eb E F : 0 <= mb -> 0 <= eb -> 0 <= E < 2 ^ eb -> 0 <= F < 2 ^ mb -> 0 <= enc mb eb false E F < 2 ^ (mb + eb).
Proof.
  intros Hm He HE HF. unfold enc. cbn [Z.b2z]. rewrite Z.pow_add_r by lia. pose proof (pow2_pos mb Hm). nia.
Qed.

Lemma not_nan mb eb E F : 0 <= mb -> 0 <= eb -> 0 <= E < 2 ^ eb -> 0 <= F < 2 ^ mb -> (forall s, ieee mb eb (enc mb eb false E F) <> VNaN s) ->
  ~ (E = 2 ^ eb - 1 /\ F <> 0).
Proof.
  intros Hm He HE HF H [e f]. apply (H false). rewrite ieee_enc by lia. unfold ieee_parts.
  rewrite (proj2 (Z.eqb_eq _ _) e), (proj2 (Z.eqb_neq _ _) f). reflexivity.
Qed.

Lemma f64_to_f32_sign f : 0 <= f < 2 ^ 63 -> (forall s, ieee 52 11 f <> VNaN s) ->
  exists E F, 0 <= E < 2 ^ 8 /\ 0 <= F < 2 ^ 23 /\
    BigFloat.f64_to_f32 f = enc 23 8 false E F /\ BigFloat.f64_to_f32 (f + 2 ^ 63) = enc 23 8 true E F.
Proof.
  intros Hf Hn. destruct (f64_to_f32_correct f ltac:(lia)) as [Hr Hc].
  assert (S : exists E F, 0 <= E < 2 ^ 8 /\ 0 <= F < 2 ^ 23 /\ BigFloat.f64_to_f32 f = enc 23 8 false E F).
  { eapply (pattern_sign 23 8); [lia|lia|exact Hr|reflexivity|].
    destruct (pattern_sign 52 11 f false (ieee 52 11 f) ltac:(lia) ltac:(lia) ltac:(lia) eq_refl) as (E & F & HE & HF & Ef).
    { destruct (enc_surj 52 11 f ltac:(lia) ltac:(lia) ltac:(lia)) as (t & E & F & HE & HF & ->). rewrite ieee_enc by lia. unfold ieee_parts.
      assert (t = false) as ->. { destruct t; [|reflexivity]. unfold enc in Hf. cbn [Z.b2z] in Hf. lia. }
      destruct (E =? _); [destruct (F =? 0)|destruct (E =? 0)]; reflexivity. }
    subst f. rewrite ieee_enc in Hc by lia. unfold ieee_parts in Hc.
    destruct (E =? 2 ^ 11 - 1); [destruct (F =? 0)|destruct (E =? 0)]; rewrite Hc; try reflexivity; unfold ieee_round; destruct (Rle_bool _ _); reflexivity. }
  destruct S as (E & F & HE & HF & Eb). exists E, F. split; [exact HE|]. split; [exact HF|]. split; [exact Eb|].
  destruct (pattern_sign 52 11 f false (ieee 52 11 f) ltac:(lia) ltac:(lia) ltac:(lia) eq_refl) as (E' & F' & HE' & HF' & Ef).
  { destruct (enc_surj 52 11 f ltac:(lia) ltac:(lia) ltac:(lia)) as (t & E' & F' & HE' & HF' & ->). rewrite ieee_enc by lia. unfold ieee_parts.
    assert (t = false) as ->. { destruct t; [|reflexivity]. unfold enc in Hf. cbn [Z.b2z] in Hf. lia. }
    destruct (E' =? _); [destruct (F' =? 0)|destruct (E' =? 0)]; reflexivity. }
  rewrite Ef in Hn. pose proof (not_nan 52 11 E' F' ltac:(lia) ltac:(lia) HE' HF' Hn) as Hnn.
  destruct (SetFloat_sign 52 11 E' F' ltac:(lia) ltac:(lia) HE' HF' Hnn) as (fr & HS).
  destruct (ToFloat_sign 23 8 fr 53 BigFloat.Exact) as (mag & HT).
  assert (Hb : forall s, BigFloat.f_isnan 52 11 (enc 52 11 s E' F') = false).
  { intros s. rewrite f_isnan_enc by lia. apply andb_false_iff. destruct (Z.eqb_spec E' (2 ^ 11 - 1)); [|left; reflexivity].
    right. destruct (Z.eqb_spec F' 0); [reflexivity|]. exfalso. apply Hnn. auto. }
  assert (G : forall s, BigFloat.f64_to_f32 (enc 52 11 s E' F') = BigFloat.with_sign 23 8 s mag).
  { intros s. unfold BigFloat.f64_to_f32. rewrite Hb, HS. apply HT. }
  rewrite Ef. change (2 ^ 63) with (2 ^ (52 + 11)). rewrite enc_flip by lia. rewrite G.
  rewrite (with_sign_split 23 8 mag (enc 23 8 false E F)); [apply enc_flip; lia|lia|lia|rewrite <- G, <- Ef; exact Eb|apply enc_low_range; lia].
Qed.

Lemma nff64_sign f : 0 <= f < 2 ^ 63 -> (forall s, ieee 52 11 f <> VNaN s) ->
  exists E F a, 0 <= E < 2 ^ 5 /\ 0 <= F < 2 ^ 10 /\
    Binary16.NewFromFloat64 f = Ret (enc 10 5 false E F, a) /\ Binary16.NewFromFloat64 (f + 2 ^ 63) = Ret (enc 10 5 true E F, a).
Proof.
  intros Hf Hn.
  destruct (pattern_sign 52 11 f false (ieee 52 11 f) ltac:(lia) ltac:(lia) ltac:(lia) eq_refl) as (E' & F' & HE' & HF' & Ef).
  { destruct (enc_surj 52 11 f ltac:(lia) ltac:(lia) ltac:(lia)) as (t & E' & F' & HE' & HF' & ->). rewrite ieee_enc by lia. unfold ieee_parts.
    assert (t = false) as ->. { destruct t; [|reflexivity]. unfold enc in Hf. cbn [Z.b2z] in Hf. lia. }
    destruct (E' =? _); [destruct (F' =? 0)|destruct (E' =? 0)]; reflexivity. }
  assert (Hn' := Hn). rewrite Ef in Hn'. pose proof (not_nan 52 11 E' F' ltac:(lia) ltac:(lia) HE' HF' Hn') as Hnn.
  destruct (SetFloat_sign 52 11 E' F' ltac:(lia) ltac:(lia) HE' HF' Hnn) as (fr & HS).
  assert (Hb : forall s, BigFloat.f_isnan 52 11 (enc 52 11 s E' F') = false).
  { intros s. rewrite f_isnan_enc by lia. apply andb_false_iff. destruct (Z.eqb_spec E' (2 ^ 11 - 1)); [|left; reflexivity].
    right. destruct (Z.eqb_spec F' 0); [reflexivity|]. exfalso. apply Hnn. auto. }
  set (y s := BigFloat.SetMode (BigFloat.SetPrec (mkBF 53 BigFloat.ToNearestEven BigFloat.Exact s fr) Binary16.precision) BigFloat.ToNearestEven).
  assert (G : forall s, Binary16.NewFromFloat64 (enc 52 11 s E' F') = Ret (Binary16.NewFromBig (y s))).
  { intros s. unfold Binary16.NewFromFloat64. rewrite Hb. unfold BigFloat.NewFloat. rewrite HS. reflexivity. }
  assert (Hy : forall s, y s = BigFloat.set_neg (y false) s).
  { intros s. subst y. unfold BigFloat.SetMode, BigFloat.SetPrec, BigFloat.set_neg. cbn [prec rmode frm BigFloat.neg acc].
    destruct (_ <? _); [|reflexivity].
    destruct (round_NE (Z.min Binary16.precision BigFloat.MaxPrec) BigFloat.Exact s false fr) as (A1 & A2 & A3).
    destruct (round_NE (Z.min Binary16.precision BigFloat.MaxPrec) BigFloat.Exact false false fr) as (_ & A4 & _).
    rewrite A1, A2, A3, A4. reflexivity. }
  assert (Hp : prec (y false) = Z.min Binary16.precision BigFloat.MaxPrec).
  { subst y. unfold BigFloat.SetMode, BigFloat.SetPrec. cbn [prec rmode frm BigFloat.neg acc].
    destruct (_ <? _); [|reflexivity]. apply (round_NE _ _ _ false). }
  assert (Hfin : exists r a, 0 <= r < 2 ^ 15 /\ forall s, Binary16.NewFromBig (y s) = (Z.b2z s * 2 ^ 15 + r, a)).
  { destruct (frm (y false)) as [|m e|] eqn:Ey.
    - exists 0, BigFloat.Exact. split; [lia|]. intros s.
      pose proof (Facts16.NewFromBig_special (y s)) as H. unfold bval in H. rewrite Hy in H |- *. cbn [BigFloat.set_neg frm BigFloat.neg] in H. rewrite Ey in H.
      rewrite H; [destruct s; reflexivity|reflexivity|]. 
      split; [|cbn [BigFloat.set_neg frm]; rewrite Ey; exact I]. cbn [BigFloat.set_neg prec]. rewrite Hp. unfold Binary16.precision, BigFloat.MaxPrec. lia.
    - assert (W : wf (y false)).
      { destruct (ieee 52 11 f) as [t|t|t v] eqn:Ei; [exfalso; apply (Hn t); reflexivity| |].
        - pose proof (SetFloat_correct 52 11 f ltac:(lia) ltac:(lia) ltac:(lia)) as HC. rewrite Ei in HC.
          destruct HC as (x & Hx & Hv & Hw & _). rewrite Ef, HS in Hx.
          assert (x = mkBF 53 BigFloat.ToNearestEven BigFloat.Exact false fr) by congruence. subst x.
          apply (PkgFacts.SetPrec_inf _ t 11 Hw Hv). unfold BigFloat.MaxPrec. lia.
        - pose proof (SetFloat_correct 52 11 f ltac:(lia) ltac:(lia) ltac:(lia)) as HC. rewrite Ei in HC.
          destruct HC as (x & Hx & Hv & Hw & _). rewrite Ef, HS in Hx.
          assert (x = mkBF 53 BigFloat.ToNearestEven BigFloat.Exact false fr) by congruence. subst x.
          apply (PkgFacts.SetPrec_round _ t v 11 Hw Hv); [unfold BigFloat.MaxPrec; lia|].
          apply (PkgFacts.ieee_abs_le 52 11 f t v ltac:(lia) ltac:(lia) ltac:(lia) Ei). }
      destruct (Facts16.NewFromBig_core (y false) m e Ey W) as (r & a & Hr & H). exists r, a. split; [exact Hr|]. intros s. rewrite Hy. apply H.
    - exists 0x7C00, BigFloat.Exact. split; [lia|]. intros s.
      pose proof (Facts16.NewFromBig_special (y s)) as H. unfold bval in H. rewrite Hy in H |- *. cbn [BigFloat.set_neg frm BigFloat.neg] in H. rewrite Ey in H.
      rewrite H. destruct s; reflexivity. }
  destruct Hfin as (r & a & Hr & H).
  assert (Hd : 0 <= r / 2 ^ 10 < 2 ^ 5) by (split; [apply Z.div_pos; lia|apply Z.div_lt_upper_bound; lia]).
  pose proof (Z.mod_pos_bound r (2 ^ 10) ltac:(lia)) as Hm. pose proof (Z.div_mod r (2 ^ 10) ltac:(lia)) as Hdm.
  exists (r / 2 ^ 10), (r mod 2 ^ 10), a. split; [exact Hd|]. split; [exact Hm|].
  assert (Er : forall s, enc 10 5 s (r / 2 ^ 10) (r mod 2 ^ 10) = Z.b2z s * 2 ^ 15 + r) by (intros s; unfold enc; lia).
  rewrite !Er, Ef. change (2 ^ 63) with (2 ^ (52 + 11)). rewrite enc_flip, !G, !H by lia. split; reflexivity.
Qed.

Lemma select_sign f bitSize : 0 <= f < 2 ^ 63 -> bitSize = 16 \/ bitSize = 32 \/ bitSize = 64 -> (forall s, ieee 52 11 f <> VNaN s) ->
  exists flt mb eb E F, format_of flt mb eb /\ 0 <= E < 2 ^ eb /\ 0 <= F < 2 ^ mb /\
    select f bitSize = Ret (enc mb eb false E F, flt) /\ select (f + 2 ^ 63) bitSize = Ret (enc mb eb true E F, flt).
Proof.
  intros Hf Hb Hn. unfold select. destruct Hb as [-> |[-> | ->]]; cbn [Z.eqb Pos.eqb].
  - destruct (nff64_sign f Hf Hn) as (E & F & a & HE & HF & -> & ->). cbn [bind]. exists float16info, 10, 5, E, F. split; [left; auto|]. auto.
  - destruct (f64_to_f32_sign f Hf Hn) as (E & F & HE & HF & -> & ->). exists float32info, 23, 8, E, F. split; [right; left; auto|]. auto.
  - exists float64info, 52, 11, (f / 2 ^ 52), (f mod 2 ^ 52). split; [right; right; auto|].
    pose proof (Z.mod_pos_bound f (2 ^ 52) ltac:(lia)) as Hm. pose proof (Z.div_mod f (2 ^ 52) ltac:(lia)) as Hdm.
    split; [split; [apply Z.div_pos; lia|apply Z.div_lt_upper_bound; lia]|]. split; [exact Hm|].
    unfold enc. cbn [Z.b2z]. split; do 2 f_equal; lia.
Qed.

Lemma ieee_flip_nan f s : 0 <= f < 2 ^ 63 -> ieee 52 11 f = VNaN s -> exists s', ieee 52 11 (f + 2 ^ 63) = VNaN s'.
Proof.
  intros Hf H. destruct (enc_surj 52 11 f ltac:(lia) ltac:(lia) ltac:(lia)) as (t & E & F & HE & HF & ->).
  assert (t = false) as ->. { destruct t; [|reflexivity]. unfold enc in Hf. cbn [Z.b2z] in Hf. lia. }
  change (2 ^ 63) with (2 ^ (52 + 11)). rewrite enc_flip by lia. rewrite ieee_enc in H |- * by lia. unfold ieee_parts in *.
  destruct (E =? _); [destruct (F =? 0)|destruct (E =? 0)]; try discriminate. exists true. reflexivity.
Qed.

Lemma converted_select f n v b flt mb eb : 0 <= f < 2 ^ 64 -> converted f n v -> select f n = Ret (b, flt) -> format_of flt mb eb -> v = ieee mb eb b.
Proof.
  intros Hf Hc Hs Hfm. unfold select in Hs. destruct Hc as [[-> Hc]|[[-> Hc]|[-> (b' & a & E & Hc)]]]; cbn [Z.eqb Pos.eqb] in Hs.
  - assert (Eb : b = f) by congruence. assert (El : flt = float64info) by congruence. subst.
    destruct Hfm as [(? & -> & ->)|[(? & -> & ->)|(_ & -> & ->)]]; [discriminate|discriminate|reflexivity].
  - assert (Eb : b = BigFloat.f64_to_f32 f) by congruence. assert (El : flt = float32info) by congruence. subst b flt.
    destruct Hfm as [(? & -> & ->)|[(_ & -> & ->)|(? & -> & ->)]]; [discriminate| |discriminate].
    destruct (f64_to_f32_correct f Hf) as [_ H]. subst v. destruct (ieee 52 11 f); congruence.
  - rewrite E in Hs. cbn [bind] in Hs. unfold Binary16.Bits in Hs. assert (Eb : b = b') by congruence. assert (El : flt = float16info) by congruence. subst b flt.
    destruct Hfm as [(_ & -> & ->)|[(? & -> & ->)|(? & -> & ->)]]; [exact Hc|discriminate|discriminate].
Qed.

Lemma converted_total f n : 0 <= f < 2 ^ 64 -> n = 16 \/ n = 32 \/ n = 64 -> exists v, converted f n v.
Proof.
  intros Hf [-> |[-> | ->]].
  - destruct (Facts16.nff64_total f Hf) as (b & a & E & _). eexists. right; right. split; [reflexivity|]. exists b, a. split; [exact E|reflexivity].
  - eexists. right; left. split; reflexivity.
  - eexists. left. split; reflexivity.
Qed.

Lemma c72 : forall w opt f fmt prec bitSize v, w = 32 \/ w = 64 -> 0 <= f < 2 ^ 63 ->
  fmt = 98 \/ fmt = 101 \/ fmt = 69 \/ fmt = 102 \/ fmt = 103 \/ fmt = 71 -> converted f bitSize v ->
  let t := FormatFloat w opt f fmt prec bitSize in
  let t' := FormatFloat w opt (f + 2 ^ 63) fmt prec bitSize in
  match v with
  | VNaN _ => t = Ret (B "NaN"%string) /\ t' = Ret (B "NaN"%string)
  | VInf _ => t = Ret (B "+Inf"%string) /\ t' = Ret (B "-Inf"%string)
  | VNum _ _ => t' = match t with Ret s => Ret (45 :: s) | Panic => Panic end
  end.
Proof.
  intros w opt f fmt prec bitSize v Hw Hf Hl Hc. cbv zeta.
  assert (Hbs : bitSize = 16 \/ bitSize = 32 \/ bitSize = 64) by (destruct Hc as [[-> _]|[[-> _]|[-> _]]]; auto).
  assert (Hx : (exists s, ieee 52 11 f = VNaN s) \/ forall s, ieee 52 11 f <> VNaN s).
  { destruct (ieee 52 11 f) as [s|s|s x]; [left; exists s; reflexivity|right; discriminate|right; discriminate]. }
  destruct Hx as [[s Hx]|Hx].
  - assert (Hv : exists s', v = VNaN s').
    { destruct Hc as [[-> ->]|[[-> ->]|[-> (b & a & E & ->)]]]; [exists s; exact Hx|rewrite Hx; exists s; reflexivity|].
      rewrite (Facts16.nff64_nan f s ltac:(lia) Hx) in E. injection E as <- <-.
      exists s. destruct s; vm_compute; reflexivity. }
    destruct Hv as [s' ->]. destruct (ieee_flip_nan f s Hf Hx) as [s2 H2].
    split; eapply ClaimsFtoa.special_nan; eauto; lia.
  - destruct (select_sign f bitSize Hf Hbs Hx) as (flt & mb & eb & E & F & Hfm & HE & HF & S1 & S2).
    pose proof (converted_select f bitSize v _ flt mb eb ltac:(lia) Hc S1 Hfm) as Hv.
    pose proof (gen_enc w _ _ _ _ _ _ E F Hw Hfm HE HF S1 opt [] fmt prec) as G1.
    pose proof (gen_enc w _ _ _ _ _ _ E F Hw Hfm HE HF S2 opt [] fmt prec) as G2.
    unfold FormatFloat. rewrite G1, G2.
    assert (R : 1 <= mb /\ 1 <= eb) by (destruct Hfm as [(-> & -> & ->)|[(-> & -> & ->)|(-> & -> & ->)]]; lia).
    rewrite ieee_enc in Hv by lia. unfold ieee_parts in Hv.
    destruct (E =? 2 ^ eb - 1).
    + destruct (F =? 0); subst v; split; reflexivity.
    + assert (Hv' : exists t x, v = VNum t x) by (destruct (E =? 0); eexists _, _; exact Hv).
      destruct Hv' as (t & x & ->). clear Hv.
      destruct (if E =? 0 then _ else _) as [e m].
      destruct (fmt =? ch_b) eqn:Eb.
      * rewrite (fmtB_neg w true). reflexivity.
      * rewrite (ftoa_digits_neg w opt fmt prec true); [reflexivity|].
        destruct Hl as [-> |Hl]; [discriminate|]. unfold ClaimsSignFmt.letter.
        destruct (letter_is fmt Hl) as [[-> _]|[[-> _]|[-> _]]]; rewrite ?orb_true_r; reflexivity.
Qed.

Lemma c72_other : forall w opt f fmt prec bitSize, bitSize <> 16 -> bitSize <> 32 -> bitSize <> 64 ->
  FormatFloat w opt f fmt prec bitSize = Panic.
Proof.
  intros w opt f fmt prec bitSize H1 H2 H3. unfold FormatFloat, genericFtoa, select.
  rewrite (proj2 (Z.eqb_neq _ _) H1), (proj2 (Z.eqb_neq _ _) H2), (proj2 (Z.eqb_neq _ _) H3). reflexivity.
Qed.
