(** genericFtoa: choosing the format, taking the float apart, reading texts. *)
From Coq Require Import ZArith Reals String List Bool Lia Lra.
From Flocq Require Import Core.
From Verif Require Import GoBase Spec SpecText SpecDec SpecFtoa SpecFmt BitFacts RoundFacts IeeeFacts BigFacts BigFacts2 ItoaFacts DecFacts DecFacts2.
From Verif Require Import FloatMid ExtBounds ClaimsExt FtoaText FtoaFixed FtoaShort.
From Verif Require Claims16 Facts16 Binary16 BigFloat Itoa Decimal.
From Verif Require Import ExtFloat Ftoa.
Import ListNotations.
Open Scope Z_scope.

(** * float32(val) *)
Lemma f64_to_f32_correct b : 0 <= b < 2 ^ 64 ->
  0 <= BigFloat.f64_to_f32 b < 2 ^ 32 /\
  match ieee 52 11 b with
  | VNum s v => ieee 23 8 (BigFloat.f64_to_f32 b) = ieee_round 23 8 s v
  | v => ieee 23 8 (BigFloat.f64_to_f32 b) = v
  end.
Proof.
  intros Hb. unfold BigFloat.f64_to_f32. rewrite isnan_ieee by (simpl; lia).
  pose proof (SetFloat_correct 52 11 b ltac:(lia) ltac:(lia) Hb) as HS.
  destruct (ieee 52 11 b) as [s|s|s v] eqn:Ei.
  - destruct (enc_surj 52 11 b ltac:(lia) ltac:(lia) Hb) as (t & E & F & HE & HF & ->).
    rewrite f_sign_enc, f_frac_enc by lia.
    rewrite ieee_enc in Ei by lia. unfold ieee_parts in Ei.
    destruct (E =? 2 ^ 11 - 1); [|destruct (E =? 0); discriminate].
    destruct (F =? 0); [discriminate|]. injection Ei as <-.
    assert (L0 : 0 <= F / 2 ^ 29 < 2 ^ 23) by (split; [apply Z.div_pos; lia|apply Z.div_lt_upper_bound; lia]).
    pose proof (lor_lt (2 ^ 22) (F / 2 ^ 29) 23 ltac:(lia) ltac:(lia) ltac:(lia)) as L1.
    assert (L2 : Z.lor (2 ^ 22) (F / 2 ^ 29) <> 0) by (rewrite Z.lor_eq_0_iff; lia).
    set (P := Z.lor (2 ^ 22) (F / 2 ^ 29)) in *.
    rewrite (lor_add 255) by lia.
    rewrite with_sign_enc by lia.
    split; [apply (enc_range 23 8); lia|]. rewrite ieee_enc by lia. unfold ieee_parts.
    replace (255 =? 2 ^ 8 - 1) with true by reflexivity.
    replace (P =? 0) with false by (symmetry; apply Z.eqb_neq; lia).
    reflexivity.
  - destruct HS as (x & -> & Hv & Hw & _).
    pose proof (ToFloat_val 23 8 x ltac:(lia) ltac:(lia) ltac:(unfold BigFloat.MaxExp; lia) Hw) as H.
    destruct (BigFloat.ToFloat 23 8 x) as [b' a]. rewrite Hv in H.
    destruct H as (H1 & H2 & H3). auto.
  - destruct HS as (x & -> & Hv & Hw & _).
    pose proof (ToFloat_val 23 8 x ltac:(lia) ltac:(lia) ltac:(unfold BigFloat.MaxExp; lia) Hw) as H.
    destruct (BigFloat.ToFloat 23 8 x) as [b' a]. rewrite Hv in H.
    destruct H as (H1 & H2 & H3). auto.
Qed.

(** * select *)
Lemma select_total val bitSize : 0 <= val < 2 ^ 64 -> bitSize = 16 \/ bitSize = 32 \/ bitSize = 64 ->
  exists b flt mb eb, select val bitSize = Ret (b, flt) /\ format_of flt mb eb /\ 0 <= b < 2 ^ (mb + eb + 1).
Proof.
  intros Hv [-> |[-> | ->]]; unfold select; cbn [Z.eqb Pos.eqb].
  - destruct (Facts16.nff64_total val Hv) as (b & a & -> & Hb). cbn [bind]. exists b, float16info, 10, 5. split; [reflexivity|]. split; [left; auto|exact Hb].
  - destruct (f64_to_f32_correct val Hv) as [H _]. eexists _, float32info, 23, 8. split; [reflexivity|]. split; [right; left; auto|exact H].
  - exists val, float64info, 52, 11. split; [reflexivity|]. split; [right; right; auto|exact Hv].
Qed.

Lemma select_as bitSize val mb eb b s : as_float bitSize val mb eb b s ->
  exists flt, select val bitSize = Ret (b, flt) /\ format_of flt mb eb.
Proof.
  intros (Hv & Hb & v & E1 & E2 & H).
  assert (Hx : forall s', ieee mb eb b <> VNaN s') by (intros s'; rewrite E2; unfold ieee_round; destruct (Rle_bool _ _); discriminate).
  unfold select. destruct H as [(-> & -> & ->)|[(-> & -> & ->)|(-> & -> & -> & H)]]; cbn [Z.eqb Pos.eqb].
  - exists float64info. split; [|right; right; auto]. do 2 f_equal.
    apply (ieee_inj 52 11); try lia; try congruence. rewrite E1, E2.
    destruct (fits_ieee 52 11 val s v ltac:(lia) ltac:(lia) Hv E1) as [F _]. rewrite (fits_round 52 11 s v ltac:(lia) F). reflexivity.
  - exists float32info. split; [|right; left; auto]. destruct (f64_to_f32_correct val Hv) as [R C]. rewrite E1 in C. do 2 f_equal.
    apply (ieee_inj 23 8); try lia; try congruence.
  - exists float16info. split; [|left; auto]. destruct (Claims16.c05_partial val s v Hv E1 H) as (b' & a & E3 & Hb' & E4). rewrite E3. cbn [bind]. do 2 f_equal. unfold Binary16.Bits.
    apply (ieee_inj 10 5); try lia; try congruence.
Qed.

(** * Taking the float apart *)
Lemma decode w val bitSize b flt mb eb : w = 32 \/ w = 64 -> format_of flt mb eb -> 0 <= b < 2 ^ (mb + eb + 1) ->
  select val bitSize = Ret (b, flt) ->
  match ieee mb eb b with
  | VNaN _ => forall opt dst fmt prec, genericFtoa w opt dst val fmt prec bitSize = Ret (dst ++ B "NaN")
  | VInf s => forall opt dst fmt prec, genericFtoa w opt dst val fmt prec bitSize = Ret (dst ++ if s then B "-Inf" else B "+Inf")
  | VNum s x => exists mt e, float_parts mb eb mt e /\ x = sgnR s (IZR mt * p2 (e - mb)) /\ forall opt dst fmt prec,
      genericFtoa w opt dst val fmt prec bitSize =
      (if fmt =? ch_b then fmtB w dst s mt e flt else ftoa_digits w opt dst fmt prec s mt e flt)
  end.
Proof.
  intros Hw Hf Hb Hs. destruct (format_ok flt mb eb Hf) as (_ & Em & Ee).
  assert (R : 1 <= mb <= 52 /\ 5 <= eb <= 11 /\ bias flt = 1 - 2 ^ (eb - 1)) by (destruct Hf as [(-> & -> & ->)|[(-> & -> & ->)|(-> & -> & ->)]]; cbn; lia).
  destruct R as (R1 & R2 & Eb).
  destruct (enc_surj mb eb b ltac:(lia) ltac:(lia) Hb) as (s & E & F & HE & HF & ->).
  assert (G : forall opt dst fmt prec, genericFtoa w opt dst val fmt prec bitSize =
    if E =? 2 ^ eb - 1 then Ret (dst ++ (if negb (F =? 0) then B "NaN" else if s then B "-Inf" else B "+Inf"))
    else let '(exp, mant) := if E =? 0 then (E + 1, F) else (E, Z.lor F (2 ^ mb)) in
      if fmt =? ch_b then fmtB w dst s mant (exp + (1 - 2 ^ (eb - 1))) flt else ftoa_digits w opt dst fmt prec s mant (exp + (1 - 2 ^ (eb - 1))) flt).
  { intros opt dst fmt prec.
  unfold genericFtoa. rewrite Hs. cbn [bind]. rewrite <- Em, <- Ee, Eb.
  pose proof (pow2_pos mb ltac:(lia)) as Pm. pose proof (pow2_pos eb ltac:(lia)) as Pe.
  assert (P11 : 2 ^ eb <= 2 ^ 11) by (apply Z.pow_le_mono_r; lia).
  replace (negb (Z.shiftr (enc mb eb s E F) (eb + mb) =? 0)) with s.
  2:{ rewrite Z.shiftr_div_pow2, (Z.add_comm eb mb), enc_sign by lia. destruct s; reflexivity. }
  replace (Z.land (sint w (Z.shiftr (enc mb eb s E F) mb)) (2 ^ eb - 1)) with E.
  2:{ rewrite Z.shiftr_div_pow2, enc_div by lia. rewrite (sint_id w Hw).
      2:{ assert (0 <= Z.b2z s <= 1) by (destruct s; cbn; lia). assert (0 <= Z.b2z s * 2 ^ eb <= 2 ^ 11) by nia. destruct Hw as [-> | ->]; cbn in *; lia. }
      replace (2 ^ eb - 1) with (Z.ones eb) by (rewrite Z.ones_equiv; lia). rewrite Z.land_ones by lia. rewrite Z.add_comm, Z.mod_add by lia. rewrite Z.mod_small by lia. reflexivity. }
  replace (Z.land (enc mb eb s E F) (2 ^ mb - 1)) with F.
  2:{ replace (2 ^ mb - 1) with (Z.ones mb) by (rewrite Z.ones_equiv; lia). rewrite Z.land_ones, enc_low by lia. reflexivity. }
  reflexivity. }
  rewrite ieee_enc by lia. unfold ieee_parts.
  assert (PP : 2 ^ eb = 2 * 2 ^ (eb - 1)) by (replace eb with (eb - 1 + 1) at 1 by lia; rewrite Z.pow_add_r by lia; change (2 ^ 1) with 2; lia).
  destruct (Z.eqb_spec E (2 ^ eb - 1)) as [e1|e1].
  - destruct (F =? 0); cbn [negb] in G; intros; rewrite G; destruct s; reflexivity.
  - destruct (Z.eqb_spec E 0) as [e0|e0].
    + exists F, (2 - 2 ^ (eb - 1)). split; [right; lia|]. split; [do 3 f_equal; lia|]. intros. rewrite G. replace (E + 1 + (1 - 2 ^ (eb - 1))) with (2 - 2 ^ (eb - 1)) by lia. reflexivity.
    + exists (2 ^ mb + F), (E + (1 - 2 ^ (eb - 1))).
      split; [left; rewrite Z.pow_add_r by lia; change (2 ^ 1) with 2; lia|]. split; [do 3 f_equal; lia|].
      intros. rewrite G. replace (Z.lor F (2 ^ mb)) with (2 ^ mb + F); [reflexivity|]. rewrite Z.lor_comm. replace (2 ^ mb) with (1 * 2 ^ mb) at 2 by lia. rewrite lor_add by lia. lia.
Qed.

Lemma decode_as w opt dst val fmt prec bitSize b mb eb s v : w = 32 \/ w = 64 -> as_float bitSize val mb eb b s -> ieee mb eb b = VNum s (sgnR s v) ->
  exists flt mt e, format_of flt mb eb /\ float_parts mb eb mt e /\ v = (IZR mt * p2 (e - mb))%R /\
    genericFtoa w opt dst val fmt prec bitSize =
      (if fmt =? ch_b then fmtB w dst s mt e flt else ftoa_digits w opt dst fmt prec s mt e flt).
Proof.
  intros Hw Ha Hx. destruct (select_as _ _ _ _ _ _ Ha) as (flt & Hs & Hf). destruct Ha as (_ & Hb & _).
  pose proof (decode w val bitSize b flt mb eb Hw Hf Hb Hs) as H. rewrite Hx in H. destruct H as (mt & e & P & E & G).
  exists flt, mt, e. split; [exact Hf|]. split; [exact P|]. split; [|apply G]. destruct s; cbn in E; lra.
Qed.

(** * Reading texts *)
Definition dig10 (c : Z) : Prop := 48 <= c <= 57.
Lemma digit_dig10 c : 0 <= digit_val c < 10 <-> dig10 c.
Proof.
  unfold digit_val, dig10. destruct (Z.leb_spec 48 c); destruct (Z.leb_spec c 57); cbn [andb]; try lia;
    destruct (Z.leb_spec 97 c); destruct (Z.leb_spec c 122); cbn [andb]; lia.
Qed.
Lemma all_dig10 l : all_digits 10 l <-> Forall dig10 l.
Proof. unfold all_digits. split; intros H; (eapply Forall_impl; [|exact H]); intros c; apply digit_dig10. Qed.

Lemma split_digits l : forall l' r r', Forall dig10 l -> Forall dig10 l' -> ~ dig10 (hd 0 r) -> ~ dig10 (hd 0 r') -> l ++ r = l' ++ r' -> l = l' /\ r = r'.
Proof.
  induction l as [|c t IH]; intros [|c' t'] r r' H1 H2 H3 H4 E; cbn [app] in E.
  - auto.
  - exfalso. apply H3. rewrite E. inversion H2. assumption.
  - exfalso. apply H4. rewrite <- E. inversion H1. assumption.
  - injection E as -> E. inversion H1; inversion H2; subst. destruct (IH t' r r') as [-> ->]; auto.
Qed.

Lemma sign_inj ng ng' a t : dig10 (hd 0 a) -> dig10 (hd 0 t) -> sign_text ng ++ a = sign_text ng' ++ t -> ng = ng' /\ a = t.
Proof.
  unfold sign_text, dig10. destruct ng, ng'; cbn [app]; intros Ha Ht E; try (split; [reflexivity|congruence]).
  - rewrite <- E in Ht. cbn in Ht. lia.
  - rewrite E in Ha. cbn in Ha. lia.
Qed.

Lemma point_inj fp fp' r r' : Forall dig10 fp -> Forall dig10 fp' -> ~ dig10 (hd 0 r) -> ~ dig10 (hd 0 r') -> hd 0 r <> 46 -> hd 0 r' <> 46 ->
  point fp ++ r = point fp' ++ r' -> fp = fp' /\ r = r'.
Proof.
  intros H1 H2 H3 H4 H5 H6 E. destruct fp as [|c t]; destruct fp' as [|c' t']; cbn [point app] in E.
  - auto.
  - exfalso. apply H5. rewrite E. reflexivity.
  - exfalso. apply H6. rewrite <- E. reflexivity.
  - injection E as E1 E2. apply (split_digits (c :: t) (c' :: t') r r' H1 H2 H3 H4). cbn [app]. congruence.
Qed.

Lemma prints_e_inj c ng ng' fp fp' x x' s : c = 101 \/ c = 69 -> prints_e c ng fp x s -> prints_e c ng' fp' x' s -> ng = ng' /\ x = x' /\ fp = fp'.
Proof.
  intros Hc (a & X & xs & E & (ed & Ed & ED & ER & _) & AD & V & _) (a' & X' & xs' & E' & (ed' & Ed' & ED' & ER' & _) & AD' & V' & _).
  rewrite E in E'. rewrite all_dig10 in AD, AD'.
  assert (Ha : dig10 a) by (inversion AD; assumption). assert (Ha' : dig10 a') by (inversion AD'; assumption).
  assert (F : Forall dig10 fp) by (inversion AD; assumption). assert (F' : Forall dig10 fp') by (inversion AD'; assumption).
  apply sign_inj in E'; [|exact Ha|exact Ha']. destruct E' as [-> E']. injection E' as -> E'.
  apply point_inj in E'; auto; try (cbn; unfold dig10; lia). destruct E' as [-> E']. injection E' as E'. rewrite Ed, Ed' in E'. injection E' as S ->.
  split; [reflexivity|]. split; [|reflexivity]. rewrite V, V'. do 3 f_equal.
  destruct (Z.ltb_spec X 0); destruct (Z.ltb_spec X' 0); try discriminate; lia.
Qed.

Lemma numeral_dig10 ip : numeral 10 ip -> Forall dig10 ip /\ dig10 (hd 0 ip).
Proof. intros (N & A & _). rewrite all_dig10 in A. split; [exact A|]. destruct ip; [contradiction|]. inversion A; assumption. Qed.

Lemma prints_f_inj ng ng' fp fp' x x' s : prints_f ng fp x s -> prints_f ng' fp' x' s -> ng = ng' /\ x = x' /\ fp = fp'.
Proof.
  intros (ip & E & N & A & V) (ip' & E' & N' & A' & V'). rewrite E in E'. rewrite all_dig10 in A, A'.
  destruct (numeral_dig10 _ N) as [I1 I2]. destruct (numeral_dig10 _ N') as [I1' I2'].
  apply sign_inj in E'.
  2:{ destruct ip; [destruct N; contradiction|exact I2]. }
  2:{ destruct ip'; [destruct N'; contradiction|exact I2']. }
  destruct E' as [-> E'].
  assert (Np : forall q, ~ dig10 (hd 0 (point q))) by (intros [|? ?]; cbn; unfold dig10; lia).
  apply split_digits in E'; auto. destruct E' as [-> E'].
  assert (fp = fp') as ->.
  { destruct fp, fp'; cbn [point] in E'; congruence. }
  split; [reflexivity|]. split; [|reflexivity]. rewrite V, V'. reflexivity.
Qed.

Lemma prints_ef c ng ng' fp fp' x x' s : c = 101 \/ c = 69 -> prints_e c ng fp x s -> prints_f ng' fp' x' s -> False.
Proof.
  intros Hc (a & X & xs & E & _) (ip & E' & N & A & _). rewrite all_dig10 in A. destruct (numeral_dig10 _ N) as [I _].
  assert (K : In c s) by (rewrite E; apply in_or_app; right; right; apply in_or_app; right; left; reflexivity).
  rewrite E' in K. rewrite Forall_forall in A, I. apply in_app_or in K. destruct K as [K|K]; [|apply in_app_or in K; destruct K as [K|K]].
  - unfold sign_text in K. destruct ng'; cbn in K; lia.
  - apply I in K. unfold dig10 in K. lia.
  - destruct fp' as [|f t]; cbn [point] in K; [destruct K|]. destruct K as [K|K]; [lia|]. apply A in K. unfold dig10 in K. lia.
Qed.

Lemma prints_e_nonneg c ng fp x s : prints_e c ng fp x s -> (0 <= x)%R.
Proof.
  intros (a & X & xs & _ & _ & A & -> & _). apply Rmult_le_pos; [|apply Rlt_le, p10_pos]. apply IZR_le. apply (read_range 10 (a :: fp) ltac:(lia) A).
Qed.

Lemma prints_g_cases c t ng fp x s : (0 <= x)%R -> prints_g c t ng fp x s -> prints_f ng fp x s \/ prints_e c ng fp x s.
Proof.
  intros H [G1 G2]. pose proof (p10_pos (-4)). destruct (Rlt_or_le x (p10 (-4))) as [L|L].
  - destruct (Rle_lt_or_eq_dec 0 x H) as [P|P]; [right; apply G2; auto|left; apply G1; left; auto].
  - destruct (Rlt_or_le x (p10 t)); [left; apply G1|right; apply G2]; auto.
Qed.

Lemma prints_short_inj c ng ng' fp fp' x x' s : (0 <= x)%R -> (0 <= x')%R -> prints_short c ng fp x s -> prints_short c ng' fp' x' s -> ng = ng' /\ x = x' /\ fp = fp'.
Proof.
  intros P P' [(Hc & H)|[(Hc & H)|(Hc & H)]] [(Hc' & H')|[(Hc' & H')|(Hc' & H')]]; try lia.
  - apply (prints_e_inj c ng ng' fp fp' x x' s Hc H H').
  - apply (prints_f_inj ng ng' fp fp' x x' s H H').
  - assert (K : c - 2 = 101 \/ c - 2 = 69) by lia. apply prints_g_cases in H, H'; try assumption.
    destruct H as [H|H], H' as [H'|H'].
    + apply (prints_f_inj ng ng' fp fp' x x' s H H').
    + exfalso. apply (prints_ef _ _ _ _ _ _ _ _ K H' H).
    + exfalso. apply (prints_ef _ _ _ _ _ _ _ _ K H H').
    + apply (prints_e_inj _ ng ng' fp fp' x x' s K H H').
Qed.

(** * Precision -1 *)
Lemma sint_wid w x : w = 32 \/ w = 64 -> - 2 ^ (w - 1) <= x < 2 ^ (w - 1) -> sint w x = x.
Proof. intros Hw. apply sint_id. exact Hw. Qed.

Lemma fewest_0 mb eb : fewest_digits mb eb 0 0.
Proof. intros z n _ (M & e & _ & H). exists 0, 0. split; [rewrite Rmult_0_l; reflexivity|]. cbn [Z.abs]. lia. Qed.

Lemma sig_lval l p : digits_ok l -> sig_digits (len l) (lval l p).
Proof. intros H. exists (dread l), (p - len l). split; [reflexivity|]. pose proof (dread_range l H). lia. Qed.

(** The digits printed with precision -1. *)
Lemma short_all w opt fmt prec ng flt mb eb mt e : w = 32 \/ w = 64 -> format_of flt mb eb -> float_parts mb eb mt e -> prec < 0 ->
  let v := (IZR mt * p2 (e - mb))%R in
  exists l p, dg l p /\ -340 < p <= 340 /\ rn mb eb (lval l p) = v /\ fewest_digits mb eb v (lval l p) /\ (v = 0%R -> l = []) /\ (l <> [] -> near v l p) /\ chosen_digits mb eb v (lval l p) /\
  exists prec', (is_e fmt = true -> Z.max prec' 0 = Z.max (len l - 1) 0) /\ (is_f fmt = true -> prec' = Z.max (len l - p) 0) /\ (is_g fmt = true -> prec' = len l) /\
  forall cap sg, ftoa_digits w opt [] fmt prec ng mt e flt = Ret (formatDigits [] true ng (mkSlice l cap p sg) prec' fmt).
Proof.
  intros Hw Hf Hp Hprec v.
  assert (Ief : is_f fmt = true -> is_e fmt = false) by (unfold is_f, is_e, ch_f, ch_e, ch_E; intros E; apply Z.eqb_eq in E; rewrite E; reflexivity).
  assert (Igf : is_g fmt = true -> is_e fmt = false /\ is_f fmt = false).
  { unfold is_g, ch_g, ch_G. intros E. apply orb_prop in E. destruct E as [E|E]; apply Z.eqb_eq in E; rewrite E; split; reflexivity. }
  destruct (Z.eq_dec mt 0) as [->|N].
  - (* zero *)
    assert (V0 : v = 0%R) by (unfold v; apply Rmult_0_l). rewrite V0.
    exists [], 0. split; [split; [constructor|]; split; [unfold no_lead0; cbn; lia|]; split; [unfold no_trail0; cbn; lia|reflexivity]|].
    split; [lia|]. split; [rewrite lval_nil; apply rn_0|]. split; [rewrite lval_nil; apply fewest_0|]. split; [reflexivity|]. split; [contradiction|].
    split; [rewrite lval_nil; split; [|intros _; split; [lra|auto]]; intros _ z _ _; rewrite !Rminus_0_r, Rabs_R0; split; [apply Rabs_pos|]; intros Q Ne; exfalso; apply Ne; symmetry in Q; apply Rabs_eq_R0 in Q; exact Q|].
    destruct (parts_range flt mb eb 0 e Hf Hp) as (_ & _ & M1 & _ & Em & _).
    assert (He : e - mb <= 0).
    { destruct Hp as [[H _]|[_ He]]; [pose proof (pow2_pos mb ltac:(lia)); lia|].
      destruct Hf as [(-> & -> & ->)|[(-> & -> & ->)|(-> & -> & ->)]]; cbn in He; lia. }
    assert (Sl : exists prec', (is_e fmt = true -> Z.max prec' 0 = 0) /\ (is_f fmt = true -> prec' = 0) /\ (is_g fmt = true -> prec' = 0) /\
      forall cap sg, bigFtoa w [] prec fmt ng 0 e flt = Ret (formatDigits [] true ng (mkSlice [] cap 0 sg) prec' fmt)).
    { unfold bigFtoa. change (Decimal.Assign Decimal.new_decimal 0) with (Ret Decimal.new_decimal). cbn [bind]. change (Decimal.Shift w Decimal.new_decimal (e - mantbits flt)) with (Ret Decimal.new_decimal). cbn [bind].
      destruct (Z.ltb_spec prec 0); [|lia]. unfold roundShortest. rewrite Z.eqb_refl. cbn [bind Decimal.d Decimal.dp Decimal.new_decimal].
      eexists. split; [|split; [|split; [|intros cap sg; f_equal; apply formatDigits_slice]]].
      - intros ->. cbn. reflexivity.
      - intros F. rewrite (Ief F), F. reflexivity.
      - intros G. destruct (Igf G) as [-> ->]. rewrite G. reflexivity. }
    cbn [length Z.of_nat Z.sub Z.add Z.opp Z.max Z.compare]. unfold ftoa_digits. destruct opt; cbn [negb]; [|exact Sl]. destruct (Z.ltb_spec prec 0); [|lia].
    assert (Ec : AssignComputeBounds 0 e ng flt = (mkExt 0 0 ng, mkExt 0 0 ng, mkExt 0 0 ng)).
    { unfold AssignComputeBounds. cbn [exp mant]. rewrite Em. destruct (Z.leb_spec (e - mb) 0); [|lia]. rewrite Z.shiftr_0_l, Z.shiftl_0_l. reflexivity. }
    rewrite Ec. unfold ShortestDecimal. cbn [mant exp Z.eqb]. cbn [bind].
    eexists. split; [|split; [|split; [|intros cap sg; f_equal; apply formatDigits_slice]]].
    + intros ->. reflexivity.
    + intros F. rewrite (Ief F), F. reflexivity.
    + intros G. destruct (Igf G) as [-> ->]. rewrite G. reflexivity.
  - assert (Hmt : 0 < mt) by (destruct (parts_range flt mb eb mt e Hf Hp); lia).
    destruct (both_short flt mb eb mt e w Hf Hp Hmt Hw opt fmt prec ng Hprec) as (l & p & (D & Nl & I & S & R & Nr & Cl) & F).
    exists l, p. split; [exact D|]. split; [exact R|]. split; [apply (inside_reads flt mb eb mt e Hf Hp Hmt _ I)|]. split; [|split; [|split; [intros _; exact Nr|split; [apply (closest_reads flt mb eb mt e Hf Hp Hmt _ Cl)|]]]].
    + intros z n Hz Sz. pose proof (reads_inside flt mb eb mt e Hf Hp Hmt z Hz) as Iz.
      destruct (Z_le_gt_dec n (len l - 1)) as [L|L].
      * exfalso. apply (S z Iz). apply sig_mono with (2 := Sz). exact L.
      * apply sig_mono with (len l); [lia|]. apply sig_lval. apply D.
    + intros V0. exfalso. unfold v in V0. pose proof (p2_pos (e - mb)). assert (0 < IZR mt)%R by (apply IZR_lt; exact Hmt). nra.
    + exists (short_prec fmt l p prec). unfold short_prec. split; [intros ->; reflexivity|]. split; [intros Ff; rewrite (Ief Ff), Ff; reflexivity|].
      split; [intros G; destruct (Igf G) as [-> ->]; rewrite G; reflexivity|]. exact F.
Qed.

Definition letter (c : Z) : Prop := c = 101 \/ c = 69 \/ c = 102 \/ c = 103 \/ c = 71.
Lemma letter_is c : letter c -> is_e c = true /\ (c = 101 \/ c = 69) \/ is_f c = true /\ c = 102 \/ is_g c = true /\ (c = 103 \/ c = 71).
Proof. intros [->|[->|[->|[->| ->]]]]; cbn; auto 8. Qed.

Lemma short_text w opt fmt prec ng flt mb eb mt e : w = 32 \/ w = 64 -> format_of flt mb eb -> float_parts mb eb mt e -> prec < 0 -> letter fmt ->
  let v := (IZR mt * p2 (e - mb))%R in
  exists t fp x, ftoa_digits w opt [] fmt prec ng mt e flt = Ret t /\ no_zero_end fp /\ prints_short fmt ng fp x t /\
    (0 <= x)%R /\ rn mb eb x = v /\ fewest_digits mb eb v x /\ last_digit_ok v x /\ chosen_digits mb eb v x.
Proof.
  intros Hw Hf Hp Hprec Hl v. destruct (short_all w opt fmt prec ng flt mb eb mt e Hw Hf Hp Hprec) as (l & p & D & R & V & Fw & _ & Nr & Cl & prec' & H1 & H2 & H3 & F).
  assert (LD : last_digit_ok v (lval l p)).
  { destruct l as [|c l]; [|apply near_last, Nr; discriminate]. intros N k E M. exfalso. apply M. rewrite lval_nil in E.
    assert (N = 0) as ->; [|reflexivity]. apply eq_IZR. pose proof (p10_pos k). nra. }
  specialize (F 0 false). rewrite F. assert (Px : (0 <= lval l p)%R) by (apply lval_nonneg; apply D).
  destruct (letter_is fmt Hl) as [[E L]|[[E L]|[E L]]].
  - destruct (formatDigits_e true ng l 0 p false prec' fmt (Z.max prec' 0) E D ltac:(lia) eq_refl ltac:(specialize (H1 E); lia)) as (fp & _ & Z0 & P).
    eexists _, fp, (lval l p). split; [reflexivity|]. split; [apply Z0; apply H1; exact E|]. split; [left; auto|]. auto.
  - assert (Hc : fmt = ch_f) by (apply Z.eqb_eq; exact E). rewrite Hc in *. specialize (H2 eq_refl).
    destruct (formatDigits_f true ng l 0 p false prec' (Z.max prec' 0) D eq_refl ltac:(lia)) as (fp & _ & Z0 & P).
    eexists _, fp, (lval l p). split; [reflexivity|]. split; [apply Z0; lia|]. split; [right; left; auto|]. auto.
  - specialize (H3 E). destruct (formatDigits_g true ng l 0 p false prec' fmt 6 E D ltac:(lia) ltac:(lia) ltac:(discriminate) eq_refl ltac:(auto)) as (fp & Z0 & P).
    eexists _, fp, (lval l p). split; [reflexivity|]. split; [exact Z0|]. split; [right; right; auto|]. auto.
Qed.

(** Other letters. *)
Lemma unknown_text ng s prec fmt sh : ~ letter fmt -> formatDigits [] sh ng s prec fmt = [37; fmt].
Proof.
  unfold letter. intros H. unfold formatDigits, is_e, is_f, is_g, ch_e, ch_E, ch_f, ch_g, ch_G.
  destruct (Z.eqb_spec fmt 101); [lia|]. destruct (Z.eqb_spec fmt 69); [lia|]. destruct (Z.eqb_spec fmt 102); [lia|]. destruct (Z.eqb_spec fmt 103); [lia|]. destruct (Z.eqb_spec fmt 71); [lia|]. reflexivity.
Qed.

Lemma unknown_slow w fmt prec ng flt mb eb mt e : w = 32 \/ w = 64 -> format_of flt mb eb -> float_parts mb eb mt e -> ~ letter fmt ->
  0 <= prec -> bigFtoa w [] prec fmt ng mt e flt = Ret [37; fmt].
Proof.
  intros Hw Hf Hp H Hprec. destruct (exact_dec flt mb eb mt e w Hf Hp Hw) as (a & b & E1 & E2 & _).
  unfold bigFtoa. rewrite E1. cbn [bind]. rewrite E2. cbn [bind]. destruct (Z.ltb_spec prec 0); [lia|].
  destruct (is_e fmt); [cbn [bind]; rewrite unknown_text by exact H; reflexivity|]. destruct (is_f fmt); [cbn [bind]; rewrite unknown_text by exact H; reflexivity|].
  destruct (is_g fmt); cbn [bind]; rewrite unknown_text by exact H; reflexivity.
Qed.

Lemma unknown_all w opt fmt prec ng flt mb eb mt e : w = 32 \/ w = 64 -> format_of flt mb eb -> float_parts mb eb mt e -> ~ letter fmt ->
  prec <> 0 \/ opt = false \/ mt = 0 -> ftoa_digits w opt [] fmt prec ng mt e flt = Ret [37; fmt].
Proof.
  intros Hw Hf Hp H Hprec. destruct (Z_lt_ge_dec prec 0) as [L|L].
  - destruct (short_all w opt fmt prec ng flt mb eb mt e Hw Hf Hp L) as (l & p & _ & _ & _ & _ & _ & _ & _ & prec' & _ & _ & _ & F).
    rewrite (F 0 false), unknown_text by exact H. reflexivity.
  - destruct opt.
    + rewrite (fast_slow flt mb eb mt e w Hf Hp Hw ng fmt prec ltac:(lia)).
      * apply (unknown_slow w fmt prec ng flt mb eb mt e); auto; lia.
      * intros E. exfalso. apply H. unfold letter. unfold is_e, ch_e, ch_E in E. apply orb_prop in E. destruct E as [E|E]; apply Z.eqb_eq in E; lia.
      * destruct Hprec as [?|[?|?]]; [do 3 right; left; lia|discriminate|auto].
    + apply (unknown_slow w fmt prec ng flt mb eb mt e); auto; lia.
Qed.
