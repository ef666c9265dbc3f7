(** The lemmas behind the theorems about ftoa.go. *)
From Coq Require Import ZArith Reals String List Bool Lia Lra.
From Flocq Require Import Core.
From Verif Require Import GoBase Spec SpecText SpecDec SpecFtoa SpecFmt BitFacts RoundFacts IeeeFacts BigFacts BigFacts2 ItoaFacts DecFacts DecFacts2.
From Verif Require Import FloatMid ExtBounds ClaimsExt FtoaText FtoaFixed FtoaShort FtoaAll.
From Verif Require Facts16 Binary16 BigFloat Itoa Decimal.
From Verif Require Import ExtFloat Ftoa.
Import ListNotations.
Open Scope Z_scope.

Lemma is_e_iff c : c = 101 \/ c = 69 -> is_e c = true /\ (c =? ch_b) = false.
Proof. intros [-> | ->]; split; reflexivity. Qed.
Lemma is_g_iff c : c = 103 \/ c = 71 -> is_g c = true /\ (c =? ch_b) = false.
Proof. intros [-> | ->]; split; reflexivity. Qed.
Lemma letter_not_b c : letter c -> (c =? ch_b) = false.
Proof. intros [->|[->|[->|[->| ->]]]]; reflexivity. Qed.
Lemma is_e_of c : is_e c = true -> c = 101 \/ c = 69.
Proof. unfold is_e, ch_e, ch_E. intros H. apply orb_prop in H. destruct H as [H|H]; apply Z.eqb_eq in H; auto. Qed.

Lemma ieee_one : ieee 52 11 0x3FF0000000000000 = VNum false 1.
Proof.
  unfold ieee. cbv zeta. change (0x3FF0000000000000 mod 2 ^ 52) with 0. change ((0x3FF0000000000000 / 2 ^ 52) mod 2 ^ 11) with 1023.
  change (Z.odd (0x3FF0000000000000 / 2 ^ (52 + 11))) with false. change (1023 =? 2 ^ 11 - 1) with false. change (1023 =? 0) with false. cbn iota. f_equal. cbn [sgnR].
  rewrite Z.add_0_r, IZR_pow2, <- p2_plus by lia. reflexivity.
Qed.

Lemma fixed_big w opt val fmt prec bitSize b mb eb s v : w = 32 \/ w = 64 -> letter fmt -> 0 <= prec -> (is_e fmt = true -> prec < 2 ^ (w - 1) - 1) ->
  as_float bitSize val mb eb b s -> ieee mb eb b = VNum s (sgnR s v) ->
  exists flt mt e, format_of flt mb eb /\ float_parts mb eb mt e /\ v = (IZR mt * p2 (e - mb))%R /\
    FormatFloat w opt val fmt prec bitSize = bigFtoa w [] prec fmt s mt e flt.
Proof.
  intros Hw Hl Hprec HE Ha Hx. destruct (decode_as w opt [] val fmt prec bitSize b mb eb s v Hw Ha Hx) as (flt & mt & e & Hf & Hp & Hv & H).
  exists flt, mt, e. split; [exact Hf|]. split; [exact Hp|]. split; [exact Hv|]. unfold FormatFloat. rewrite H, (letter_not_b fmt Hl).
  destruct opt; [|reflexivity]. apply (fast_slow flt mb eb mt e w Hf Hp Hw s fmt prec Hprec HE).
  destruct (letter_is fmt Hl) as [[K _]|[[K _]|[K _]]]; auto.
Qed.

Lemma short_big w opt val fmt prec bitSize b mb eb s v : w = 32 \/ w = 64 -> letter fmt -> prec < 0 ->
  as_float bitSize val mb eb b s -> ieee mb eb b = VNum s (sgnR s v) ->
  exists t fp x, FormatFloat w opt val fmt prec bitSize = Ret t /\ no_zero_end fp /\ prints_short fmt s fp x t /\
    (0 <= x)%R /\ rn mb eb x = v /\ fewest_digits mb eb v x /\ last_digit_ok v x /\ chosen_digits mb eb v x.
Proof.
  intros Hw Hl Hprec Ha Hx. destruct (decode_as w opt [] val fmt prec bitSize b mb eb s v Hw Ha Hx) as (flt & mt & e & Hf & Hp & Hv & H).
  destruct (short_text w opt fmt prec s flt mb eb mt e Hw Hf Hp Hprec Hl) as (t & fp & x & E & H1). rewrite <- Hv in H1.
  exists t, fp, x. split; [|exact H1]. unfold FormatFloat. rewrite H, (letter_not_b fmt Hl). exact E.
Qed.

Lemma as_float_bits bitSize val mb eb b s : as_float bitSize val mb eb b s -> 1 <= mb <= 52 /\ 5 <= eb <= 11.
Proof. intros (_ & _ & v & _ & _ & [H|[H|H]]); lia. Qed.

Lemma short_round mb eb s x v b : 1 <= mb <= 52 -> 5 <= eb <= 11 -> 0 <= b < 2 ^ (mb + eb + 1) -> ieee mb eb b = VNum s (sgnR s v) -> rn mb eb x = v ->
  ieee_round mb eb s (sgnR s x) = ieee mb eb b.
Proof.
  intros Hm He Hb Hx Hr. rewrite Hx. destruct (fits_ieee mb eb b s (sgnR s v) ltac:(lia) ltac:(lia) Hb Hx) as [F _].
  pose proof (fits_round mb eb s (sgnR s v) ltac:(lia) F) as R.
  assert (E : rn mb eb (sgnR s x) = sgnR s v) by (rewrite <- Hr; destruct s; cbn [sgnR]; [unfold rn; rewrite round_NE_opp; reflexivity|reflexivity]).
  pose proof (fits_rn mb eb (sgnR s v) ltac:(lia) F) as E2. unfold ieee_round in *. rewrite E.
  rewrite E2 in R. exact R.
Qed.

Lemma letter_dec c : letter c \/ ~ letter c.
Proof. unfold letter. lia. Qed.

Lemma mod_sub1 a b : b <= a < 2 * b -> a mod b = a - b.
Proof. intros H. rewrite <- (Z.mod_small (a - b) b) by lia. replace (a - b) with (a + -1 * b) by lia. rewrite Z.mod_add by lia. reflexivity. Qed.

Lemma zero_enc mb eb (s : bool) : 1 <= mb -> 2 <= eb -> exists b, 0 <= b < 2 ^ (mb + eb + 1) /\ ieee mb eb b = VNum s 0.
Proof.
  intros Hm He. exists (enc mb eb s 0 0). pose proof (pow2_pos mb ltac:(lia)). pose proof (pow2_pos eb ltac:(lia)).
  assert (4 <= 2 ^ eb) by (change 4 with (2 ^ 2); apply Z.pow_le_mono_r; lia).
  split; [apply enc_range; lia|]. rewrite ieee_enc by lia. unfold ieee_parts. destruct (Z.eqb_spec 0 (2 ^ eb - 1)); [lia|]. cbn [Z.eqb].
  f_equal. rewrite Rmult_0_l. destruct s; cbn; lra.
Qed.

Lemma special_nan w opt val fmt prec bitSize s : w = 32 \/ w = 64 -> 0 <= val < 2 ^ 64 ->
  bitSize = 16 \/ bitSize = 32 \/ bitSize = 64 -> ieee 52 11 val = VNaN s ->
  FormatFloat w opt val fmt prec bitSize = Ret (B "NaN"%string).
Proof.
  intros Hw Hv Hb Hi.
  assert (S : exists b flt mb eb s', select val bitSize = Ret (b, flt) /\ format_of flt mb eb /\ 0 <= b < 2 ^ (mb + eb + 1) /\ ieee mb eb b = VNaN s').
  { unfold select. destruct Hb as [-> |[-> | ->]]; cbn [Z.eqb Pos.eqb].
    - rewrite (Facts16.nff64_nan val s Hv Hi). cbn [bind]. eexists _, float16info, 10, 5, s. split; [reflexivity|]. split; [left; auto|].
      destruct s; (split; [vm_compute; split; [discriminate|reflexivity]|vm_compute; reflexivity]).
    - destruct (f64_to_f32_correct val Hv) as [R C]. rewrite Hi in C. eexists _, float32info, 23, 8, s. split; [reflexivity|]. split; [right; left; auto|]. auto.
    - exists val, float64info, 52, 11, s. split; [reflexivity|]. split; [right; right; auto|]. auto. }
  destruct S as (b & flt & mb & eb & s' & Hs & Hf & Hr & E). pose proof (decode w val bitSize b flt mb eb Hw Hf Hr Hs) as H. rewrite E in H.
  unfold FormatFloat. rewrite H. reflexivity.
Qed.

Lemma special_inf w opt val fmt prec bitSize s : w = 32 \/ w = 64 -> 0 <= val < 2 ^ 64 ->
  bitSize = 16 \/ bitSize = 32 \/ bitSize = 64 -> ieee 52 11 val = VInf s ->
  FormatFloat w opt val fmt prec bitSize = Ret (if s then B "-Inf" else B "+Inf")%string.
Proof.
  intros Hw Hv Hb Hi.
  assert (S : exists b flt mb eb, select val bitSize = Ret (b, flt) /\ format_of flt mb eb /\ 0 <= b < 2 ^ (mb + eb + 1) /\ ieee mb eb b = VInf s).
  { unfold select. destruct Hb as [-> |[-> | ->]]; cbn [Z.eqb Pos.eqb].
    - rewrite (Facts16.nff64_inf val s Hv Hi). cbn [bind]. eexists _, float16info, 10, 5. split; [reflexivity|]. split; [left; auto|].
      destruct s; (split; [vm_compute; split; [discriminate|reflexivity]|vm_compute; reflexivity]).
    - destruct (f64_to_f32_correct val Hv) as [R C]. rewrite Hi in C. eexists _, float32info, 23, 8. split; [reflexivity|]. split; [right; left; auto|]. auto.
    - exists val, float64info, 52, 11. split; [reflexivity|]. split; [right; right; auto|]. auto. }
  destruct S as (b & flt & mb & eb & Hs & Hf & Hr & E). pose proof (decode w val bitSize b flt mb eb Hw Hf Hr Hs) as H. rewrite E in H.
  unfold FormatFloat. rewrite H. destruct s; reflexivity.
Qed.

(** The panics of the fast path. *)
Lemma count_digits_nonneg n : forall i pow x, 0 <= i -> 0 <= count_digits n i pow x.
Proof. induction n as [|n IH]; intros i pow x Hi; cbn [count_digits]; [lia|]. destruct (x <? pow); [exact Hi|]. apply IH. lia. Qed.

Lemma FixedDecimal_neg f sl n : mant f <> 0 -> n <= -20 -> FixedDecimal f sl n = Panic.
Proof.
  intros Hm Hn. unfold FixedDecimal. destruct (Z.eqb_spec (mant f) 0); [contradiction|]. destruct (Z.eqb_spec n 0); [lia|].
  destruct (Normalize f) as [f' sh]. destruct (frexp10 f') as [[[f'' e10] i]|]; [|reflexivity]. cbn [bind].
  set (d := integerDigits_of _). assert (0 <= d) by (apply count_digits_nonneg; lia).
  destruct (Z.ltb_spec n d); [|lia]. unfold at_. destruct (Z.ltb_spec (d - n) 0); [reflexivity|].
  replace (nth_error uint64pow10 (Z.to_nat (d - n))) with (@None Z); [reflexivity|]. symmetry. apply nth_error_None.
  change (length uint64pow10) with 20%nat. lia.
Qed.

Lemma fast_panics w fmt prec ng flt mb eb mt e : w = 32 \/ w = 64 -> format_of flt mb eb -> float_parts mb eb mt e -> mt <> 0 ->
  ~ letter fmt /\ prec = 0 \/ is_e fmt = true /\ prec = 2 ^ (w - 1) - 1 ->
  ftoa_digits w true [] fmt prec ng mt e flt = Panic.
Proof.
  intros Hw Hf Hp Hm H. unfold ftoa_digits. cbn [negb]. destruct H as [[L ->]|[E ->]].
  - cbn [Z.ltb Z.compare]. destruct (is_f fmt) eqn:Ff; [exfalso; apply L; unfold is_f, ch_f in Ff; apply Z.eqb_eq in Ff; unfold letter; lia|].
    destruct (is_g fmt) eqn:Eg; [exfalso; apply L; unfold is_g, ch_g, ch_G in Eg; apply orb_prop in Eg; unfold letter; lia|].
    destruct (is_e fmt) eqn:Ee; [exfalso; apply L; apply is_e_of in Ee; unfold letter; lia|]. cbn [negb andb].
    destruct (Z.leb_spec 0 15); [|lia]. unfold FixedDecimal. cbn [mant]. destruct (Z.eqb_spec mt 0); [contradiction|]. reflexivity.
  - assert (P : 2 ^ 31 <= 2 ^ (w - 1)) by (destruct Hw as [-> | ->]; cbn; lia). change (2 ^ 31) with 2147483648 in P.
    destruct (Z.ltb_spec (2 ^ (w - 1) - 1) 0); [lia|].
    assert (Ff : is_f fmt = false) by (apply is_e_of in E; destruct E as [-> | ->]; reflexivity).
    assert (Fg : is_g fmt = false) by (apply is_e_of in E; destruct E as [-> | ->]; reflexivity). rewrite Ff, Fg, E. cbn [negb andb].
    assert (Es : sint w (2 ^ (w - 1) - 1 + 1) = - 2 ^ (w - 1)) by (destruct Hw as [-> | ->]; reflexivity). rewrite Es.
    destruct (Z.leb_spec (- 2 ^ (w - 1)) 15); [|lia]. rewrite FixedDecimal_neg; [reflexivity|exact Hm|lia].
Qed.

(** Texts of zero. *)
Lemma zero_texts w opt fmt prec ng flt mb eb mt e : w = 32 \/ w = 64 -> format_of flt mb eb -> float_parts mb eb mt e -> prec < 0 -> letter fmt -> mt = 0 ->
  ftoa_digits w opt [] fmt prec ng mt e flt =
    Ret (sign_text ng ++ 48 :: (if is_e fmt then [fmt; 43; 48; 48] else [])).
Proof.
  intros Hw Hf Hp Hprec Hl Hm. destruct (short_all w opt fmt prec ng flt mb eb mt e Hw Hf Hp Hprec) as (l & p & (_ & _ & _ & D) & _ & _ & _ & L0 & _ & _ & prec' & H1 & H2 & H3 & F).
  assert (El : l = []) by (apply L0; rewrite Hm; apply Rmult_0_l). clear L0. specialize (D El). rewrite El, D in *. cbn [length Z.of_nat] in *.
  rewrite (F 0 false). f_equal. unfold formatDigits.
  destruct (letter_is fmt Hl) as [[E L]|[[E L]|[E L]]].
  - rewrite E. specialize (H1 E). unfold fmtE. cbn [snd_ sd sdp length]. destruct (Z.ltb_spec 0 prec'); [lia|]. destruct ng; reflexivity.
  - assert (Ee : is_e fmt = false) by (rewrite L; reflexivity). rewrite Ee, E. specialize (H2 E). rewrite H2. unfold fmtF. destruct ng; reflexivity.
  - assert (Ee : is_e fmt = false) by (destruct L as [-> | ->]; reflexivity). assert (Ef : is_f fmt = false) by (destruct L as [-> | ->]; reflexivity).
    rewrite Ee, Ef, E. specialize (H3 E). rewrite H3. destruct ng; reflexivity.
Qed.
Lemma c51e : forall w opt val fmt prec bitSize mb eb b s v, w = 32 \/ w = 64 ->
  as_float bitSize val mb eb b s -> ieee mb eb b = VNum s (sgnR s v) ->
  fmt = 101 \/ fmt = 69 -> 0 <= prec < 2 ^ (w - 1) - 1 ->
  exists t fp, FormatFloat w opt val fmt prec bitSize = Ret t /\
    Z.of_nat (length fp) = prec /\ prints_e fmt s fp (sig_round (prec + 1) v) t.
Proof.
  intros w opt val fmt prec bitSize mb eb b s v Hw Ha Hx Hc Hprec.
  destruct (fixed_big w opt val fmt prec bitSize b mb eb s v Hw ltac:(unfold letter; lia) ltac:(lia) ltac:(lia) Ha Hx) as (flt & mt & e & Hf & Hp & -> & ->).
  apply (slow_e flt mb eb mt e w Hf Hp Hw s fmt prec (proj1 (is_e_iff fmt Hc)) Hprec).
Qed.

Lemma c51f : forall w opt val prec bitSize mb eb b s v, w = 32 \/ w = 64 ->
  as_float bitSize val mb eb b s -> ieee mb eb b = VNum s (sgnR s v) ->
  0 <= prec < 2 ^ (w - 1) ->
  exists t fp, FormatFloat w opt val 102 prec bitSize = Ret t /\
    Z.of_nat (length fp) = prec /\ prints_f s fp (round10 (- prec) v) t.
Proof.
  intros w opt val prec bitSize mb eb b s v Hw Ha Hx Hprec.
  destruct (fixed_big w opt val 102 prec bitSize b mb eb s v Hw ltac:(unfold letter; lia) ltac:(lia) ltac:(discriminate) Ha Hx) as (flt & mt & e & Hf & Hp & -> & ->).
  apply (slow_f flt mb eb mt e w Hf Hp Hw s prec Hprec).
Qed.

Lemma c51g : forall w opt val fmt prec bitSize mb eb b s v, w = 32 \/ w = 64 ->
  as_float bitSize val mb eb b s -> ieee mb eb b = VNum s (sgnR s v) ->
  fmt = 103 \/ fmt = 71 -> 0 <= prec ->
  exists t fp, FormatFloat w opt val fmt prec bitSize = Ret t /\ no_zero_end fp /\
    prints_g (fmt - 2) (Z.max prec 1) s fp (sig_round (Z.max prec 1) v) t.
Proof.
  intros w opt val fmt prec bitSize mb eb b s v Hw Ha Hx Hc Hprec. destruct (is_g_iff fmt Hc) as [Hg _].
  assert (Ee : is_e fmt = false) by (destruct Hc as [-> | ->]; reflexivity).
  destruct (fixed_big w opt val fmt prec bitSize b mb eb s v Hw ltac:(unfold letter; lia) ltac:(lia) ltac:(congruence) Ha Hx) as (flt & mt & e & Hf & Hp & -> & ->).
  apply (slow_g flt mb eb mt e w Hf Hp Hw s fmt prec Hg Hprec).
Qed.

Lemma c51r : exists val prec, 0 <= val < 2 ^ 64 /\ ieee 52 11 val = VNum false 1 /\ 0 <= prec < 2 ^ 63 /\
  FormatFloat 64 true val 101 prec 64 = Panic.
Proof.
  exists 0x3FF0000000000000, (2 ^ 63 - 1). split; [lia|]. split; [exact ieee_one|]. split; [lia|].
  change (FormatFloat 64 true 0x3FF0000000000000 101 (2 ^ 63 - 1) 64) with (ftoa_digits 64 true [] 101 (2 ^ (64 - 1) - 1) false (2 ^ 52) 0 float64info).
  apply (fast_panics 64 101 (2 ^ (64 - 1) - 1) false float64info 52 11); [auto|right; right; auto|left; lia|lia|right; auto].
Qed.

Lemma c52 : forall w opt val fmt prec bitSize mb eb b s v, w = 32 \/ w = 64 ->
  as_float bitSize val mb eb b s -> ieee mb eb b = VNum s (sgnR s v) ->
  fmt = 101 \/ fmt = 69 \/ fmt = 102 \/ fmt = 103 \/ fmt = 71 -> prec < 0 ->
  exists t fp x, FormatFloat w opt val fmt prec bitSize = Ret t /\ no_zero_end fp /\
    prints_short fmt s fp x t /\ (0 <= x)%R /\ ieee_round mb eb s (sgnR s x) = ieee mb eb b.
Proof.
  intros w opt val fmt prec bitSize mb eb b s v Hw Ha Hx Hc Hprec.
  destruct (short_big w opt val fmt prec bitSize b mb eb s v Hw Hc Hprec Ha Hx) as (t & fp & x & H1 & H2 & H3 & H4 & H5 & _).
  exists t, fp, x. split; [exact H1|]. split; [exact H2|]. split; [exact H3|]. split; [exact H4|].
  destruct (as_float_bits _ _ _ _ _ _ Ha). apply (short_round mb eb s x v b); auto. apply Ha.
Qed.

Lemma c52d : forall w opt w' opt' val val' fmt prec prec' bitSize mb eb b b' s s' v v' t,
  w = 32 \/ w = 64 -> w' = 32 \/ w' = 64 ->
  as_float bitSize val mb eb b s -> ieee mb eb b = VNum s (sgnR s v) ->
  as_float bitSize val' mb eb b' s' -> ieee mb eb b' = VNum s' (sgnR s' v') ->
  fmt = 101 \/ fmt = 69 \/ fmt = 102 \/ fmt = 103 \/ fmt = 71 -> prec < 0 -> prec' < 0 ->
  FormatFloat w opt val fmt prec bitSize = Ret t -> FormatFloat w' opt' val' fmt prec' bitSize = Ret t ->
  b = b'.
Proof.
  intros w opt w' opt' val val' fmt prec prec' bitSize mb eb b b' s s' v v' t Hw Hw' Ha Hx Ha' Hx' Hc Hp Hp' E E'.
  destruct (short_big w opt val fmt prec bitSize b mb eb s v Hw Hc Hp Ha Hx) as (t1 & fp & x & H1 & _ & H3 & H4 & H5 & _).
  destruct (short_big w' opt' val' fmt prec' bitSize b' mb eb s' v' Hw' Hc Hp' Ha' Hx') as (t2 & fp' & x' & H1' & _ & H3' & H4' & H5' & _).
  rewrite E in H1. rewrite E' in H1'. injection H1 as <-. injection H1' as <-.
  destruct (prints_short_inj fmt s s' fp fp' x x' t H4 H4' H3 H3') as (-> & -> & _).
  destruct (as_float_bits _ _ _ _ _ _ Ha). destruct Ha as (_ & Hb & _). destruct Ha' as (_ & Hb' & _).
  apply (ieee_inj mb eb); try lia; [|intros ? K; rewrite Hx in K; discriminate]. rewrite Hx, Hx'. do 2 f_equal. congruence.
Qed.

Lemma c53 : forall w opt val fmt prec bitSize mb eb b s v t fp x, w = 32 \/ w = 64 ->
  as_float bitSize val mb eb b s -> ieee mb eb b = VNum s (sgnR s v) ->
  fmt = 101 \/ fmt = 69 \/ fmt = 102 \/ fmt = 103 \/ fmt = 71 -> prec < 0 ->
  FormatFloat w opt val fmt prec bitSize = Ret t -> prints_short fmt s fp x t -> (0 <= x)%R ->
  no_zero_end fp /\ fewest_digits mb eb v x.
Proof.
  intros w opt val fmt prec bitSize mb eb b s v t fp x Hw Ha Hx Hc Hprec E P Px.
  destruct (short_big w opt val fmt prec bitSize b mb eb s v Hw Hc Hprec Ha Hx) as (t1 & fp' & x' & H1 & H2 & H3 & H4 & _ & H6 & _).
  rewrite E in H1. injection H1 as <-. destruct (prints_short_inj fmt s s fp fp' x x' t Px H4 P H3) as (_ & -> & ->). auto.
Qed.

Lemma c54 : forall w val fmt prec bitSize, w = 32 \/ w = 64 -> 0 <= val < 2 ^ 64 -> 0 <= prec ->
  (fmt = 101 \/ fmt = 69 -> prec <> 2 ^ (w - 1) - 1 /\ prec < 2 ^ (w - 1)) ->
  fmt = 98 \/ fmt = 101 \/ fmt = 69 \/ fmt = 102 \/ fmt = 103 \/ fmt = 71 \/ prec <> 0 ->
  FormatFloat w true val fmt prec bitSize = FormatFloat w false val fmt prec bitSize.
Proof.
  intros w val fmt prec bitSize Hw Hv Hprec HE Hfmt.
  assert (D : bitSize = 16 \/ bitSize = 32 \/ bitSize = 64 \/ select val bitSize = Panic).
  { unfold select. destruct (Z.eqb_spec bitSize 16); [auto|]. destruct (Z.eqb_spec bitSize 32); [auto|]. destruct (Z.eqb_spec bitSize 64); auto. }
  assert (D' : (bitSize = 16 \/ bitSize = 32 \/ bitSize = 64) \/ select val bitSize = Panic) by tauto. destruct D' as [D'|D'].
  2:{ unfold FormatFloat, genericFtoa. rewrite D'. reflexivity. }
  destruct (select_total val bitSize Hv D') as (b & flt & mb & eb & Hs & Hf & Hb).
  pose proof (decode w val bitSize b flt mb eb Hw Hf Hb Hs) as H. unfold FormatFloat.
  destruct (ieee mb eb b) as [s|s|s x] eqn:Ei; [rewrite !H; reflexivity|rewrite !H; reflexivity|].
  destruct H as (mt & e & P & _ & H). rewrite !H. destruct (Z.eqb_spec fmt ch_b) as [|Nb]; [reflexivity|].
  apply (fast_slow flt mb eb mt e w Hf P Hw s fmt prec Hprec).
  - intros K. apply is_e_of in K. destruct (HE K). lia.
  - destruct (Z.eq_dec prec 0) as [Z0|]; [|do 3 right; left; lia].
    assert (L : letter fmt) by (unfold letter; unfold ch_b in Nb; lia). destruct (letter_is fmt L) as [[K _]|[[K _]|[K _]]]; auto.
Qed.

Lemma c54r : exists val, 0 <= val < 2 ^ 64 /\ FormatFloat 64 true val 120 0 64 = Panic /\
  FormatFloat 64 false val 120 0 64 = Ret (B "%x"%string).
Proof.
  exists 0x3FF0000000000000. split; [lia|]. split; vm_compute; reflexivity.
Qed.

Lemma c55 : forall w opt val prec bitSize mb eb b s v, w = 32 \/ w = 64 ->
  as_float bitSize val mb eb b s -> ieee mb eb b = VNum s (sgnR s v) ->
  exists ms ks m k, FormatFloat w opt val 98 prec bitSize =
      Ret (sign_text s ++ ms ++ 112 :: (if k <? 0 then 45 else 43) :: ks) /\
    numeral 10 ms /\ read 10 ms = m /\ numeral 10 ks /\ read 10 ks = Z.abs k /\ v = (IZR m * p2 k)%R /\
    0 <= m < 2 ^ (mb + 1) /\ 2 - 2 ^ (eb - 1) <= k + mb <= 2 ^ (eb - 1) - 1 /\ (m < 2 ^ mb -> k + mb = 2 - 2 ^ (eb - 1)).
Proof.
  intros w opt val prec bitSize mb eb b s v Hw Ha Hx.
  destruct (decode_as w opt [] val 98 prec bitSize b mb eb s v Hw Ha Hx) as (flt & mt & e & Hf & Hp & Hv & H).
  unfold FormatFloat. rewrite H. change (98 =? ch_b) with true. cbn iota. unfold fmtB.
  destruct (parts_range flt mb eb mt e Hf Hp) as (M & E & _ & _ & Em & _). rewrite Em.
  destruct (formatBits_ok (w =? 32) mt 10 false ltac:(lia) ltac:(lia)) as (ms & N1 & R1 & ->). cbn [bind].
  assert (RU : 0 <= u64 (e - mb) < 2 ^ 64) by (apply Z.mod_pos_bound; lia).
  destruct (formatBits_ok (w =? 32) (u64 (e - mb)) 10 (e - mb <? 0) RU ltac:(lia)) as (ks & N2 & R2 & ->). cbn [bind].
  exists ms, ks, mt, (e - mb). split; [|split; [exact N1|split; [exact R1|split; [exact N2|split; [|split; [exact Hv|]]]]]].
  - f_equal. destruct (Z.ltb_spec (e - mb) 0); destruct (Z.leb_spec 0 (e - mb)); try lia; unfold sign_text; destruct s; cbn [app]; rewrite <- ?app_assoc; reflexivity.
  - rewrite R2. destruct (Z.ltb_spec (e - mb) 0) as [L|L]; unfold u64.
    + replace ((e - mb) mod 2 ^ 64) with (e - mb + 2 ^ 64).
      2:{ rewrite <- (Z.mod_small (e - mb + 2 ^ 64) (2 ^ 64)) by lia. replace (e - mb + 2 ^ 64) with (e - mb + 1 * 2 ^ 64) by lia. apply Z.mod_add. lia. }
      replace (- (e - mb + 2 ^ 64)) with (- (e - mb) + -1 * 2 ^ 64) by lia. rewrite Z.mod_add by lia. rewrite Z.mod_small by lia. lia.
    + rewrite Z.mod_small by lia. lia.
  - replace (e - mb + mb) with e by lia. unfold float_parts in Hp.
    assert (B : 1 <= mb /\ 2 <= eb) by (pose proof (as_float_bits _ _ _ _ _ _ Ha); lia).
    pose proof (pow2_pos mb ltac:(lia)). assert (2 <= 2 ^ (eb - 1)) by (change 2 with (2 ^ 1) at 1; apply Z.pow_le_mono_r; lia).
    assert (2 ^ (mb + 1) = 2 ^ mb * 2) by (rewrite Z.pow_add_r by lia; reflexivity). destruct Hp as [[? ?]|[? ?]]; lia.
Qed.

Lemma c56n : forall w opt val fmt prec bitSize s, w = 32 \/ w = 64 -> 0 <= val < 2 ^ 64 ->
  bitSize = 16 \/ bitSize = 32 \/ bitSize = 64 -> ieee 52 11 val = VNaN s ->
  FormatFloat w opt val fmt prec bitSize = Ret (B "NaN"%string).
Proof.
  intros w opt val fmt prec bitSize s Hw Hv Hb Hi. apply special_nan with s; auto.
Qed.

Lemma c56i : forall w opt val fmt prec bitSize s, w = 32 \/ w = 64 -> 0 <= val < 2 ^ 64 ->
  bitSize = 16 \/ bitSize = 32 \/ bitSize = 64 -> ieee 52 11 val = VInf s ->
  FormatFloat w opt val fmt prec bitSize = Ret (if s then B "-Inf" else B "+Inf")%string.
Proof.
  intros w opt val fmt prec bitSize s Hw Hv Hb Hi. apply special_inf; auto.
Qed.

Lemma c56o : forall w opt val fmt prec bitSize mb eb b s, w = 32 \/ w = 64 ->
  as_float bitSize val mb eb b s -> ieee mb eb b = VInf s ->
  FormatFloat w opt val fmt prec bitSize = Ret (if s then B "-Inf" else B "+Inf")%string.
Proof.
  intros w opt val fmt prec bitSize mb eb b s Hw Ha Hi. destruct (select_as _ _ _ _ _ _ Ha) as (flt & Hs & Hf).
  destruct Ha as (_ & Hb & _). pose proof (decode w val bitSize b flt mb eb Hw Hf Hb Hs) as H. rewrite Hi in H. unfold FormatFloat. rewrite H. destruct s; reflexivity.
Qed.

Lemma c56z : forall w opt val fmt prec bitSize s, w = 32 \/ w = 64 -> 0 <= val < 2 ^ 64 ->
  bitSize = 16 \/ bitSize = 32 \/ bitSize = 64 -> ieee 52 11 val = VNum s 0 ->
  fmt = 101 \/ fmt = 69 \/ fmt = 102 \/ fmt = 103 \/ fmt = 71 -> prec < 0 ->
  FormatFloat w opt val fmt prec bitSize =
    Ret (sign_text s ++ if (fmt =? 101) || (fmt =? 69) then [48; fmt; 43; 48; 48] else [48]).
Proof.
  intros w opt val fmt prec bitSize s Hw Hv Hb Hi Hl Hprec.
  assert (Z0 : forall mb eb, 1 <= mb -> rn mb eb 0 = 0%R) by (intros; apply rn_0).
  assert (Hr : forall mb eb, 1 <= mb -> ieee_round mb eb s 0 = VNum s 0).
  { intros mb eb Hm. unfold ieee_round. rewrite Z0 by exact Hm. rewrite Rabs_R0. pose proof (p2_pos (2 ^ (eb - 1))). rewrite Rle_bool_false by lra. reflexivity. }
  assert (A : exists mb eb b, as_float bitSize val mb eb b s /\ ieee mb eb b = VNum s 0 /\ 1 <= mb).
  { assert (Es : forall mb eb, 1 <= mb -> 2 <= eb -> exists b, 0 <= b < 2 ^ (mb + eb + 1) /\ ieee mb eb b = VNum s 0) by (intros; apply zero_enc; assumption).
    destruct Hb as [-> |[-> | ->]].
    - destruct (Es 10 5 ltac:(lia) ltac:(lia)) as (b & R & E). exists 10, 5, b. split; [|split; [exact E|lia]]. split; [exact Hv|]. split; [exact R|]. exists 0%R. rewrite E, Hr by lia. intuition.
    - destruct (Es 23 8 ltac:(lia) ltac:(lia)) as (b & R & E). exists 23, 8, b. split; [|split; [exact E|lia]]. split; [exact Hv|]. split; [exact R|]. exists 0%R. rewrite E, Hr by lia. intuition.
    - destruct (Es 52 11 ltac:(lia) ltac:(lia)) as (b & R & E). exists 52, 11, b. split; [|split; [exact E|lia]]. split; [exact Hv|]. split; [exact R|]. exists 0%R. rewrite E, Hr by lia. intuition. }
  destruct A as (mb & eb & b & Ha & Ei & _).
  destruct (decode_as w opt [] val fmt prec bitSize b mb eb s 0 Hw Ha) as (flt & mt & e & Hf & Hp & E & H).
  { rewrite Ei. f_equal. destruct s; cbn; lra. }
  unfold FormatFloat. rewrite H, (letter_not_b fmt Hl).
  rewrite (zero_texts w opt fmt prec s flt mb eb mt e Hw Hf Hp Hprec Hl).
  - change (is_e fmt) with ((fmt =? 101) || (fmt =? 69)). destruct ((fmt =? 101) || (fmt =? 69)); reflexivity.
  - apply eq_IZR. pose proof (p2_pos (e - mb)). apply Rmult_eq_reg_r with (p2 (e - mb)); lra.
Qed.

Lemma c57u : forall w opt val fmt prec bitSize mb eb b s v, w = 32 \/ w = 64 ->
  as_float bitSize val mb eb b s -> ieee mb eb b = VNum s (sgnR s v) ->
  ~ (fmt = 98 \/ fmt = 101 \/ fmt = 69 \/ fmt = 102 \/ fmt = 103 \/ fmt = 71) ->
  prec <> 0 \/ opt = false \/ v = 0%R ->
  FormatFloat w opt val fmt prec bitSize = Ret [37; fmt].
Proof.
  intros w opt val fmt prec bitSize mb eb b s v Hw Ha Hx Hn Hprec.
  destruct (decode_as w opt [] val fmt prec bitSize b mb eb s v Hw Ha Hx) as (flt & mt & e & Hf & Hp & Hv & H).
  unfold FormatFloat. rewrite H. destruct (Z.eqb_spec fmt ch_b) as [K|_]; [unfold ch_b in K; lia|].
  apply (unknown_all w opt fmt prec s flt mb eb mt e Hw Hf Hp ltac:(unfold letter; lia)).
  destruct Hprec as [?|[?|V0]]; [auto|auto|]. right; right. apply eq_IZR. pose proof (p2_pos (e - mb)). apply Rmult_eq_reg_r with (p2 (e - mb)); lra.
Qed.

Lemma c57t : forall w opt val fmt prec bitSize, w = 32 \/ w = 64 -> 0 <= val < 2 ^ 64 ->
  - 2 ^ (w - 1) <= prec < 2 ^ (w - 1) ->
  bitSize = 16 \/ bitSize = 32 \/ bitSize = 64 ->
  fmt = 98 \/ fmt = 101 \/ fmt = 69 \/ fmt = 102 \/ fmt = 103 \/ fmt = 71 \/ prec <> 0 \/ opt = false ->
  (fmt = 101 \/ fmt = 69 -> prec <> 2 ^ (w - 1) - 1) ->
  exists t, FormatFloat w opt val fmt prec bitSize = Ret t.
Proof.
  intros w opt val fmt prec bitSize Hw Hv Hprec Hb Hfmt HE. destruct (select_total val bitSize Hv Hb) as (b & flt & mb & eb & Hs & Hf & Hb').
  pose proof (decode w val bitSize b flt mb eb Hw Hf Hb' Hs) as H. unfold FormatFloat. destruct (ieee mb eb b) as [s|s|s x].
  - rewrite H. eexists; reflexivity.
  - rewrite H. eexists; reflexivity.
  - destruct H as (mt & e & Hp & _ & H). rewrite H. destruct (Z.eqb_spec fmt ch_b) as [_|Nb].
    + unfold fmtB. destruct (parts_range flt mb eb mt e Hf Hp) as (M & E & _ & _ & Em & _).
      destruct (formatBits_ok (w =? 32) mt 10 false ltac:(lia) ltac:(lia)) as (ms & _ & _ & ->). cbn [bind].
      destruct (formatBits_ok (w =? 32) (u64 (e - mantbits flt)) 10 (e - mantbits flt <? 0) ltac:(apply Z.mod_pos_bound; lia) ltac:(lia)) as (ks & _ & _ & ->). cbn [bind]. eexists; reflexivity.
    + destruct (letter_dec fmt) as [L|L].
      * destruct (Z_lt_ge_dec prec 0) as [N|N].
        -- destruct (short_text w opt fmt prec s flt mb eb mt e Hw Hf Hp N L) as (t & fp & y & E & _). exists t. exact E.
        -- assert (B : exists t, bigFtoa w [] prec fmt s mt e flt = Ret t).
           { destruct (letter_is fmt L) as [[K Kc]|[[K Kc]|[K Kc]]].
             - destruct (slow_e flt mb eb mt e w Hf Hp Hw s fmt prec K ltac:(specialize (HE Kc); lia)) as (t & fp & E & _). exists t. exact E.
             - rewrite Kc. destruct (slow_f flt mb eb mt e w Hf Hp Hw s prec ltac:(lia)) as (t & fp & E & _). exists t. exact E.
             - destruct (slow_g flt mb eb mt e w Hf Hp Hw s fmt prec K ltac:(lia)) as (t & fp & E & _). exists t. exact E. }
           destruct opt; [|exact B]. rewrite (fast_slow flt mb eb mt e w Hf Hp Hw s fmt prec ltac:(lia)); [exact B| |].
           ++ intros K. apply is_e_of in K. specialize (HE K). lia.
           ++ destruct (letter_is fmt L) as [[K Kc]|[[K Kc]|[K Kc]]]; auto.
      * exists [37; fmt]. apply (unknown_all w opt fmt prec s flt mb eb mt e Hw Hf Hp L). unfold letter in L. unfold ch_b in Nb.
        destruct (Z.eq_dec prec 0); [|auto]. destruct opt; [|auto]. lia.
Qed.

Lemma c57p : forall w val fmt prec bitSize mb eb b s v, w = 32 \/ w = 64 ->
  as_float bitSize val mb eb b s -> ieee mb eb b = VNum s (sgnR s v) -> v <> 0%R ->
  ~ (fmt = 98 \/ fmt = 101 \/ fmt = 69 \/ fmt = 102 \/ fmt = 103 \/ fmt = 71) /\ prec = 0 \/
  (fmt = 101 \/ fmt = 69) /\ prec = 2 ^ (w - 1) - 1 ->
  FormatFloat w true val fmt prec bitSize = Panic.
Proof.
  intros w val fmt prec bitSize mb eb b s v Hw Ha Hx Hn H.
  destruct (decode_as w true [] val fmt prec bitSize b mb eb s v Hw Ha Hx) as (flt & mt & e & Hf & Hp & Hv & G).
  unfold FormatFloat. rewrite G. destruct (Z.eqb_spec fmt ch_b) as [K|_]; [unfold ch_b in K; lia|].
  apply (fast_panics w fmt prec s flt mb eb mt e Hw Hf Hp).
  - intros ->. apply Hn. rewrite Hv. apply Rmult_0_l.
  - unfold letter. destruct H as [[H ->]|[H ->]]; [left; lia|right]. split; [apply (is_e_iff fmt H)|reflexivity].
Qed.

Lemma c57b : forall w opt val fmt prec bitSize, bitSize <> 16 -> bitSize <> 32 -> bitSize <> 64 ->
  FormatFloat w opt val fmt prec bitSize = Panic.
Proof.
  intros w opt val fmt prec bitSize H1 H2 H3. unfold FormatFloat, genericFtoa, select.
  destruct (Z.eqb_spec bitSize 16); [contradiction|]. destruct (Z.eqb_spec bitSize 32); [contradiction|]. destruct (Z.eqb_spec bitSize 64); [contradiction|]. reflexivity.
Qed.

Lemma c57m : forall alloc w opt val fmt prec bitSize, 24 <= alloc ->
  (- 2 ^ (w - 1) <= prec + 4 < 2 ^ (w - 1) -> alloc < prec + 4 ->
     FormatFloat_make alloc w opt val fmt prec bitSize = Panic) /\
  (- 2 ^ (w - 1) <= prec + 4 < 2 ^ (w - 1) -> prec + 4 <= alloc ->
     FormatFloat_make alloc w opt val fmt prec bitSize = FormatFloat w opt val fmt prec bitSize) /\
  (2 ^ (w - 1) <= prec + 4 < 2 ^ w -> 1 <= w ->
     FormatFloat_make alloc w opt val fmt prec bitSize = FormatFloat w opt val fmt prec bitSize).
Proof.
  intros alloc w opt val fmt prec bitSize Ha. unfold FormatFloat_make, sint. split; [|split].
  - intros R L. assert (0 < w - 1 \/ w - 1 <= 0) as [Hw|Hw] by lia.
    + replace (2 ^ w) with (2 * 2 ^ (w - 1)) by (rewrite <- Z.pow_succ_r by lia; f_equal; lia). rewrite Z.mod_small by lia. destruct (Z.ltb_spec alloc (Z.max (prec + 4 + 2 ^ (w - 1) - 2 ^ (w - 1)) 24)); [reflexivity|lia].
    + exfalso. assert (2 ^ (w - 1) <= 1); [|lia]. destruct (Z.eq_dec (w - 1) 0) as [-> |]; [reflexivity|]. rewrite Z.pow_neg_r by lia. lia.
  - intros R L. destruct (Z.ltb_spec alloc (Z.max ((prec + 4 + 2 ^ (w - 1)) mod 2 ^ w - 2 ^ (w - 1)) 24)) as [K|]; [|reflexivity]. exfalso.
    assert (0 < w - 1 \/ w - 1 <= 0) as [Hw|Hw] by lia.
    + replace (2 ^ w) with (2 * 2 ^ (w - 1)) in K by (rewrite <- Z.pow_succ_r by lia; f_equal; lia). rewrite Z.mod_small in K by lia. lia.
    + assert (0 <= 2 ^ (w - 1) <= 1) as P1 by (destruct (Z.eq_dec (w - 1) 0) as [-> |]; [cbn; lia|]; rewrite Z.pow_neg_r by lia; lia).
      assert (0 <= 2 ^ w <= 2) as P2 by (destruct (Z.eq_dec w 1) as [-> |]; [cbn; lia|]; destruct (Z.eq_dec w 0) as [-> |]; [cbn; lia|]; rewrite Z.pow_neg_r by lia; lia).
      destruct (Z.eq_dec (2 ^ w) 0) as [E|N]; [rewrite E, Zmod_0_r in K; lia|]. pose proof (Z.mod_pos_bound (prec + 4 + 2 ^ (w - 1)) (2 ^ w) ltac:(lia)). lia.
  - intros R L. destruct (Z.ltb_spec alloc (Z.max ((prec + 4 + 2 ^ (w - 1)) mod 2 ^ w - 2 ^ (w - 1)) 24)) as [K|]; [|reflexivity]. exfalso.
    assert (P : 2 ^ w = 2 * 2 ^ (w - 1)) by (rewrite <- Z.pow_succ_r by lia; f_equal; lia).
    rewrite (mod_sub1 (prec + 4 + 2 ^ (w - 1)) (2 ^ w)) in K by lia. lia.
Qed.

Lemma c57r : exists val fmt prec, 0 <= val < 2 ^ 64 /\ 0 <= fmt < 256 /\ 0 <= prec < 2 ^ 63 /\ 
  ieee 52 11 val = VNum false 1 /\ FormatFloat 64 true val fmt prec 64 = Panic.
Proof.
  exists 0x3FF0000000000000, 120, 0. split; [lia|]. split; [lia|]. split; [lia|]. split; [exact ieee_one|]. vm_compute. reflexivity.
Qed.

