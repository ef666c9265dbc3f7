(** More about the texts of FormatFloat: reading back, order and the last digit. *)
From Coq Require Import ZArith Reals String List Bool Lia Lra Classical.
From Flocq Require Import Core.
From Verif Require Import GoBase Spec SpecText SpecDec SpecFtoa SpecFmt BitFacts RoundFacts IeeeFacts BigFacts BigFacts2 ItoaFacts DecFacts DecFacts2.
From Verif Require Import FloatMid ExtBounds ExtShort ClaimsExt FtoaText FtoaFixed FtoaShort FtoaAll ClaimsFtoa PkgExact.
From Verif Require Import ExtFloat Ftoa.
From Verif Require Import SpecFmt.
Import ListNotations.
Open Scope Z_scope.

(** * A text denotes one number *)
Lemma prints_e_chars c ng fp x s : prints_e c ng fp x s -> In c s /\ Forall (fun d => d = c \/ d <= 57) s.
Proof.
  intros (a & X & xs & -> & (ed & -> & ED & _) & AD & _). rewrite all_dig10 in ED, AD. split.
  - apply in_or_app. right. right. apply in_or_app. right. left. reflexivity.
  - assert (W : forall l, Forall dig10 l -> Forall (fun d => d = c \/ d <= 57) l) by (intros l; apply Forall_impl; unfold dig10; intros; lia).
    inversion AD as [|? ? A1 A2]; subst. apply Forall_app. split; [destruct ng; cbn [sign_text]; repeat constructor; lia|].
    constructor; [unfold dig10 in A1; lia|]. apply Forall_app. split.
    + destruct fp; cbn [point]; [constructor|]. constructor; [lia|]. apply W. exact A2.
    + constructor; [auto|]. constructor; [destruct (X <? 0); lia|]. apply W. exact ED.
Qed.

Lemma text_of_inj ng ng' x x' s : text_of ng x s -> text_of ng' x' s -> ng = ng' /\ x = x'.
Proof.
  assert (N : forall ng ng' fp fp' x x' s, prints_e 101 ng fp x s -> prints_e 69 ng' fp' x' s -> False).
  { intros ? ? ? ? ? ? ? H H'. destruct (prints_e_chars _ _ _ _ _ H) as [H1 _]. destruct (prints_e_chars _ _ _ _ _ H') as [_ H2].
    rewrite Forall_forall in H2. specialize (H2 _ H1). lia. }
  intros (fp & [H|[H|H]]) (fp' & [H'|[H'|H']]).
  - destruct (prints_f_inj _ _ _ _ _ _ _ H H') as (? & ? & _). auto.
  - exfalso. apply (prints_ef 101 _ _ _ _ _ _ _ ltac:(auto) H' H).
  - exfalso. apply (prints_ef 69 _ _ _ _ _ _ _ ltac:(auto) H' H).
  - exfalso. apply (prints_ef 101 _ _ _ _ _ _ _ ltac:(auto) H H').
  - destruct (prints_e_inj 101 _ _ _ _ _ _ _ ltac:(auto) H H') as (? & ? & _). auto.
  - exfalso. apply (N _ _ _ _ _ _ _ H H').
  - exfalso. apply (prints_ef 69 _ _ _ _ _ _ _ ltac:(auto) H H').
  - exfalso. apply (N _ _ _ _ _ _ _ H' H).
  - destruct (prints_e_inj 69 _ _ _ _ _ _ _ ltac:(auto) H H') as (? & ? & _). auto.
Qed.

Lemma text_of_e c ng fp x s : c = 101 \/ c = 69 -> prints_e c ng fp x s -> text_of ng x s.
Proof. intros [-> | ->] H; exists fp; auto. Qed.
Lemma text_of_g c t ng fp x s : c = 103 \/ c = 71 -> (0 <= x)%R -> prints_g (c - 2) t ng fp x s -> text_of ng x s.
Proof.
  intros Hc Px H. apply prints_g_cases in H; [|exact Px]. destruct H as [H|H]; [exists fp; auto|]. apply (text_of_e (c - 2) ng fp); [lia|exact H].
Qed.
Lemma text_of_short c ng fp x s : (0 <= x)%R -> prints_short c ng fp x s -> text_of ng x s.
Proof.
  intros Px [(Hc & H)|[(_ & H)|(Hc & H)]]; [apply (text_of_e c ng fp); assumption|exists fp; auto|apply (text_of_g c 6 ng fp); assumption].
Qed.

(** * Rounding *)
Lemma sig_round_mono n x y : 0 < n -> (x <= y)%R -> (sig_round n x <= sig_round n y)%R.
Proof. intros Hn H. assert (P : Prec_gt_0 n) by exact Hn. apply round_le; [apply FLX_exp_valid; exact P|apply valid_rnd_N|exact H]. Qed.
Lemma sig_round_sgn n s x : sig_round n (sgnR s x) = sgnR s (sig_round n x).
Proof. destruct s; cbn [sgnR]; [apply round_NE_opp|reflexivity]. Qed.
Lemma round10_fix k x : round10 k x = Generic_fmt.round radix10 (FIX_exp k) ZnearestE x.
Proof. reflexivity. Qed.
Lemma round10_mono k x y : (x <= y)%R -> (round10 k x <= round10 k y)%R.
Proof. intros H. rewrite !round10_fix. apply round_le; [apply FIX_exp_valid|apply valid_rnd_N|exact H]. Qed.
Lemma round10_sgn k s x : round10 k (sgnR s x) = sgnR s (round10 k x).
Proof. rewrite !round10_fix. destruct s; cbn [sgnR]; [apply round_NE_opp|reflexivity]. Qed.
Lemma rn_sgn mb eb s x : rn mb eb (sgnR s x) = sgnR s (rn mb eb x).
Proof. destruct s; cbn [sgnR]; [apply round_NE_opp|reflexivity]. Qed.
Lemma sig_round_nonneg n x : 0 < n -> (0 <= x)%R -> (0 <= sig_round n x)%R.
Proof. intros Hn H. rewrite <- (sig_round_0 n). apply sig_round_mono; assumption. Qed.

Lemma as_nonneg bitSize val mb eb b s v : as_float bitSize val mb eb b s -> ieee mb eb b = VNum s (sgnR s v) -> (0 <= v)%R.
Proof.
  intros Ha Hx. destruct (decode_as 64 true [] val 101 (-1) bitSize b mb eb s v ltac:(auto) Ha Hx) as (flt & mt & e & Hf & Hp & -> & _).
  apply Rmult_le_pos; [|apply Rlt_le, p2_pos]. apply IZR_le. destruct Hp as [[? _]|[? _]]; [|lia].
  destruct (as_float_bits _ _ _ _ _ _ Ha). pose proof (pow2_pos mb ltac:(lia)). lia.
Qed.

Lemma as_enough bitSize val mb eb b s v n : as_float bitSize val mb eb b s -> ieee mb eb b = VNum s (sgnR s v) -> 0 < n -> 2 ^ (mb + 1) < 10 ^ (n - 1) ->
  (0 <= sig_round n v)%R /\ ieee_round mb eb s (sgnR s (sig_round n v)) = ieee mb eb b.
Proof.
  intros Ha Hx Hn H. pose proof (as_nonneg _ _ _ _ _ _ _ Ha Hx) as Pv. destruct (as_float_bits _ _ _ _ _ _ Ha) as [Hm He].
  split; [apply sig_round_nonneg; assumption|]. apply (short_round mb eb s _ v b Hm He (proj1 (proj2 Ha)) Hx).
  destruct (decode_as 64 true [] val 101 (-1) bitSize b mb eb s v ltac:(auto) Ha Hx) as (flt & mt & e & Hf & Hp & -> & _).
  apply digits_enough; auto; lia.
Qed.

(** * Enough digits read back *)
Lemma c62e : forall w opt val fmt prec bitSize mb eb b s v, w = 32 \/ w = 64 ->
  as_float bitSize val mb eb b s -> ieee mb eb b = VNum s (sgnR s v) ->
  fmt = 101 \/ fmt = 69 -> 0 <= prec < 2 ^ (w - 1) - 1 -> 2 ^ (mb + 1) < 10 ^ prec ->
  exists t x, FormatFloat w opt val fmt prec bitSize = Ret t /\ text_of s x t /\ (0 <= x)%R /\
    ieee_round mb eb s (sgnR s x) = ieee mb eb b.
Proof.
  intros w opt val fmt prec bitSize mb eb b s v Hw Ha Hx Hc Hp H.
  destruct (c51e w opt val fmt prec bitSize mb eb b s v Hw Ha Hx Hc Hp) as (t & fp & E & _ & P).
  destruct (as_enough bitSize val mb eb b s v (prec + 1) Ha Hx ltac:(lia)) as [Px R]; [replace (prec + 1 - 1) with prec by lia; exact H|].
  exists t, (sig_round (prec + 1) v). split; [exact E|]. split; [apply (text_of_e fmt s fp); assumption|]. auto.
Qed.

Lemma c62g : forall w opt val fmt prec bitSize mb eb b s v, w = 32 \/ w = 64 ->
  as_float bitSize val mb eb b s -> ieee mb eb b = VNum s (sgnR s v) ->
  fmt = 103 \/ fmt = 71 -> 1 <= prec -> 2 ^ (mb + 1) < 10 ^ (prec - 1) ->
  exists t x, FormatFloat w opt val fmt prec bitSize = Ret t /\ text_of s x t /\ (0 <= x)%R /\
    ieee_round mb eb s (sgnR s x) = ieee mb eb b.
Proof.
  intros w opt val fmt prec bitSize mb eb b s v Hw Ha Hx Hc Hp H.
  destruct (c51g w opt val fmt prec bitSize mb eb b s v Hw Ha Hx Hc ltac:(lia)) as (t & fp & E & _ & P). rewrite Z.max_l in P by lia.
  destruct (as_enough bitSize val mb eb b s v prec Ha Hx ltac:(lia) H) as [Px R].
  exists t, (sig_round prec v). split; [exact E|]. split; [apply (text_of_g fmt prec s fp); assumption|]. auto.
Qed.

Lemma ieee_norm64 b : 0 <= b < 2 ^ 63 -> 1 <= b / 2 ^ 52 <= 2046 -> ieee 52 11 b = VNum false (IZR (2 ^ 52 + b mod 2 ^ 52) * p2 (b / 2 ^ 52 - 1075)).
Proof.
  intros Hb He. unfold ieee. cbv zeta.
  replace (b / 2 ^ (52 + 11)) with 0 by (symmetry; apply Z.div_small; exact Hb). cbn [Z.odd]. rewrite (Z.mod_small (b / 2 ^ 52)) by lia.
  destruct (Z.eqb_spec (b / 2 ^ 52) (2 ^ 11 - 1)) as [K|_]; [change (2 ^ 11 - 1) with 2047 in K; lia|]. destruct (Z.eqb_spec (b / 2 ^ 52) 0); [lia|]. cbn [sgnR]. do 3 f_equal; lia.
Qed.

Lemma as_float_64 val s u : 0 <= val < 2 ^ 64 -> ieee 52 11 val = VNum s u -> as_float 64 val 52 11 val s.
Proof.
  intros Hv Hi. split; [exact Hv|]. split; [exact Hv|]. exists u. split; [exact Hi|]. split; [|left; auto].
  rewrite Hi. symmetry. apply fits_round; [lia|]. apply (fits_ieee 52 11 val s u); auto; lia.
Qed.
Lemma as_float_fits bitSize val mb eb b s u : 0 <= val < 2 ^ 64 -> ieee 52 11 val = VNum s u -> 0 <= b < 2 ^ (mb + eb + 1) -> ieee mb eb b = VNum s u ->
  bitSize = 32 /\ mb = 23 /\ eb = 8 \/ bitSize = 16 /\ mb = 10 /\ eb = 5 -> as_float bitSize val mb eb b s.
Proof.
  intros Hv Hi Hb Eb H. assert (F : fits mb eb u) by (apply (fits_ieee mb eb b s u); auto; lia).
  split; [exact Hv|]. split; [exact Hb|]. exists u. split; [exact Hi|]. split; [rewrite Eb; symmetry; apply fits_round; [lia|exact F]|].
  destruct H as [(-> & -> & ->)|(-> & -> & ->)]; auto 10.
Qed.

Lemma p2_z k : 0 <= k -> p2 k = IZR (2 ^ k). Proof. intros. symmetry. apply IZR_pow2. lia. Qed.

Lemma c62s : (exists val val', val <> val' /\ as_float 64 val 52 11 val false /\ as_float 64 val' 52 11 val' false /\
    forall opt, FormatFloat 64 opt val 101 15 64 = FormatFloat 64 opt val' 101 15 64) /\
  (exists val val' b b', b <> b' /\ as_float 32 val 23 8 b false /\ as_float 32 val' 23 8 b' false /\
    forall opt, FormatFloat 64 opt val 101 7 32 = FormatFloat 64 opt val' 101 7 32) /\
  (exists val val' b b', b <> b' /\ as_float 16 val 10 5 b false /\ as_float 16 val' 10 5 b' false /\
    forall opt, FormatFloat 64 opt val 101 3 16 = FormatFloat 64 opt val' 101 3 16).
Proof.
  assert (V : forall b m k, 0 <= b < 2 ^ 63 -> 1 <= b / 2 ^ 52 <= 2046 -> 2 ^ 52 + b mod 2 ^ 52 = m -> b / 2 ^ 52 - 1075 = k -> ieee 52 11 b = VNum false (IZR m * p2 k))
    by (intros b m k H1 H2 <- <-; apply ieee_norm64; assumption).
  assert (S : forall m k j, 0 <= j -> (IZR (m * 2 ^ j) * p2 k = IZR m * p2 (k + j))%R) by (intros m k j Hj; rewrite mult_IZR, IZR_pow2, Rmult_assoc, <- p2_plus by lia; do 2 f_equal; lia).
  split; [|split].
  - exists 0x3FF0000000000000, 0x3FF0000000000001. split; [discriminate|].
    split; [apply (as_float_64 _ false (IZR (2 ^ 52) * p2 (-52))); [lia|apply V; first [lia|reflexivity|vm_compute; split; discriminate]]|].
    split; [apply (as_float_64 _ false (IZR (2 ^ 52 + 1) * p2 (-52))); [lia|apply V; first [lia|reflexivity|vm_compute; split; discriminate]]|].
    intros []; vm_compute; reflexivity.
  - exists 0x408F400020000000, 0x408F400040000000, 0x447A0001, 0x447A0002. split; [discriminate|].
    split; [apply (as_float_fits 32 _ 23 8 _ false (IZR (0xFA0001 * 2 ^ 29) * p2 (-43))); [lia|apply V; first [lia|reflexivity|vm_compute; split; discriminate]|lia| |auto]|].
    { rewrite S by lia. change (ieee 23 8 0x447A0001) with (VNum false (IZR 0xFA0001 * p2 (-14))). reflexivity. }
    split; [apply (as_float_fits 32 _ 23 8 _ false (IZR (0xFA0002 * 2 ^ 29) * p2 (-43))); [lia|apply V; first [lia|reflexivity|vm_compute; split; discriminate]|lia| |auto]|].
    { rewrite S by lia. change (ieee 23 8 0x447A0002) with (VNum false (IZR 0xFA0002 * p2 (-14))). reflexivity. }
    intros []; vm_compute; reflexivity.
  - exists 0x408F400000000000, 0x408F440000000000, 0x63D0, 0x63D1. split; [discriminate|].
    split; [apply (as_float_fits 16 _ 10 5 _ false (IZR (2000 * 2 ^ 42) * p2 (-43))); [lia|apply V; first [lia|reflexivity|vm_compute; split; discriminate]|lia| |auto]|].
    { rewrite S by lia. change (ieee 10 5 0x63D0) with (VNum false (IZR 2000 * p2 (-1))). reflexivity. }
    split; [apply (as_float_fits 16 _ 10 5 _ false (IZR (2001 * 2 ^ 42) * p2 (-43))); [lia|apply V; first [lia|reflexivity|vm_compute; split; discriminate]|lia| |auto]|].
    { rewrite S by lia. change (ieee 10 5 0x63D1) with (VNum false (IZR 2001 * p2 (-1))). reflexivity. }
    intros []; vm_compute; reflexivity.
Qed.

(** * Order *)
Lemma c63s : forall w opt w' opt' val val' fmt fmt' prec prec' bitSize mb eb b b' s s' v v' t t' x x',
  w = 32 \/ w = 64 -> w' = 32 \/ w' = 64 ->
  as_float bitSize val mb eb b s -> ieee mb eb b = VNum s (sgnR s v) ->
  as_float bitSize val' mb eb b' s' -> ieee mb eb b' = VNum s' (sgnR s' v') ->
  fmt = 101 \/ fmt = 69 \/ fmt = 102 \/ fmt = 103 \/ fmt = 71 -> fmt' = 101 \/ fmt' = 69 \/ fmt' = 102 \/ fmt' = 103 \/ fmt' = 71 ->
  prec < 0 -> prec' < 0 ->
  FormatFloat w opt val fmt prec bitSize = Ret t -> FormatFloat w' opt' val' fmt' prec' bitSize = Ret t' ->
  text_of s x t -> text_of s' x' t' -> (sgnR s v < sgnR s' v')%R -> (sgnR s x < sgnR s' x')%R.
Proof.
  intros w opt w' opt' val val' fmt fmt' prec prec' bitSize mb eb b b' s s' v v' t t' x x' Hw Hw' Ha Hx Ha' Hx' Hc Hc' Hp Hp' E E' T T' L.
  destruct (short_big w opt val fmt prec bitSize b mb eb s v Hw Hc Hp Ha Hx) as (t1 & fp & y & H1 & _ & H3 & H4 & H5 & _).
  destruct (short_big w' opt' val' fmt' prec' bitSize b' mb eb s' v' Hw' Hc' Hp' Ha' Hx') as (t2 & fp' & y' & H1' & _ & H3' & H4' & H5' & _).
  rewrite E in H1. rewrite E' in H1'. injection H1 as <-. injection H1' as <-.
  destruct (text_of_inj _ _ _ _ _ T (text_of_short _ _ _ _ _ H4 H3)) as [_ <-]. destruct (text_of_inj _ _ _ _ _ T' (text_of_short _ _ _ _ _ H4' H3')) as [_ <-].
  destruct (Rlt_or_le (sgnR s x) (sgnR s' x')) as [K|K]; [exact K|exfalso]. destruct (as_float_bits _ _ _ _ _ _ Ha) as [Hm He].
  apply (rn_mono mb eb) in K; [|lia]. rewrite !rn_sgn, H5, H5' in K. lra.
Qed.

Lemma fixed_value w opt val fmt prec bitSize mb eb b s v t x : w = 32 \/ w = 64 ->
  as_float bitSize val mb eb b s -> ieee mb eb b = VNum s (sgnR s v) ->
  fmt = 101 \/ fmt = 69 \/ fmt = 102 \/ fmt = 103 \/ fmt = 71 -> 0 <= prec < 2 ^ (w - 1) - 1 ->
  FormatFloat w opt val fmt prec bitSize = Ret t -> text_of s x t ->
  x = (if fmt =? 102 then round10 (- prec) v else sig_round (if is_e fmt then prec + 1 else Z.max prec 1) v).
Proof.
  intros Hw Ha Hx Hc Hp E T. pose proof (as_nonneg _ _ _ _ _ _ _ Ha Hx) as Pv.
  assert (K : fmt = 101 \/ fmt = 69 \/ fmt = 102 \/ (fmt = 103 \/ fmt = 71)) by tauto.
  destruct K as [K|[K|[K|K]]].
  - destruct (c51e w opt val fmt prec bitSize mb eb b s v Hw Ha Hx ltac:(auto) Hp) as (t1 & fp & E1 & _ & P). rewrite E in E1. injection E1 as <-.
    destruct (text_of_inj _ _ _ _ _ T (text_of_e fmt s fp _ _ ltac:(auto) P)) as [_ ->]. rewrite K. reflexivity.
  - destruct (c51e w opt val fmt prec bitSize mb eb b s v Hw Ha Hx ltac:(auto) Hp) as (t1 & fp & E1 & _ & P). rewrite E in E1. injection E1 as <-.
    destruct (text_of_inj _ _ _ _ _ T (text_of_e fmt s fp _ _ ltac:(auto) P)) as [_ ->]. rewrite K. reflexivity.
  - subst fmt. destruct (c51f w opt val prec bitSize mb eb b s v Hw Ha Hx ltac:(lia)) as (t1 & fp & E1 & _ & P). rewrite E in E1. injection E1 as <-.
    assert (T1 : text_of s (round10 (- prec) v) t) by (exists fp; auto). destruct (text_of_inj _ _ _ _ _ T T1) as [_ ->]. reflexivity.
  - destruct (c51g w opt val fmt prec bitSize mb eb b s v Hw Ha Hx K ltac:(lia)) as (t1 & fp & E1 & _ & P). rewrite E in E1. injection E1 as <-.
    destruct (text_of_inj _ _ _ _ _ T (text_of_g fmt _ s fp _ _ K (sig_round_nonneg (Z.max prec 1) v ltac:(lia) Pv) P)) as [_ ->].
    destruct K as [-> | ->]; reflexivity.
Qed.

Lemma c63f : forall w opt opt' val val' fmt prec bitSize mb eb b b' s s' v v' t t' x x',
  w = 32 \/ w = 64 ->
  as_float bitSize val mb eb b s -> ieee mb eb b = VNum s (sgnR s v) ->
  as_float bitSize val' mb eb b' s' -> ieee mb eb b' = VNum s' (sgnR s' v') ->
  fmt = 101 \/ fmt = 69 \/ fmt = 102 \/ fmt = 103 \/ fmt = 71 -> 0 <= prec < 2 ^ (w - 1) - 1 ->
  FormatFloat w opt val fmt prec bitSize = Ret t -> FormatFloat w opt' val' fmt prec bitSize = Ret t' ->
  text_of s x t -> text_of s' x' t' -> (sgnR s v <= sgnR s' v')%R -> (sgnR s x <= sgnR s' x')%R.
Proof.
  intros w opt opt' val val' fmt prec bitSize mb eb b b' s s' v v' t t' x x' Hw Ha Hx Ha' Hx' Hc Hp E E' T T' L.
  rewrite (fixed_value w opt val fmt prec bitSize mb eb b s v t x Hw Ha Hx Hc Hp E T), (fixed_value w opt' val' fmt prec bitSize mb eb b' s' v' t' x' Hw Ha' Hx' Hc Hp E' T').
  destruct (fmt =? 102); [rewrite <- !round10_sgn; apply round10_mono; exact L|]. rewrite <- !sig_round_sgn. apply sig_round_mono; [|exact L].
  destruct (is_e fmt); lia.
Qed.

(** * The last digit of the shortest text *)
Lemma c64p : forall w opt val fmt prec bitSize mb eb b s v t x, w = 32 \/ w = 64 ->
  as_float bitSize val mb eb b s -> ieee mb eb b = VNum s (sgnR s v) ->
  fmt = 101 \/ fmt = 69 \/ fmt = 102 \/ fmt = 103 \/ fmt = 71 -> prec < 0 ->
  FormatFloat w opt val fmt prec bitSize = Ret t -> text_of s x t -> last_digit_ok v x.
Proof.
  intros w opt val fmt prec bitSize mb eb b s v t x Hw Ha Hx Hc Hp E T.
  destruct (short_big w opt val fmt prec bitSize b mb eb s v Hw Hc Hp Ha Hx) as (t1 & fp & y & H1 & _ & H3 & H4 & _ & _ & H7 & _).
  rewrite E in H1. injection H1 as <-. destruct (text_of_inj _ _ _ _ _ T (text_of_short _ _ _ _ _ H4 H3)) as [_ ->]. exact H7.
Qed.

Lemma c64c : forall w opt val fmt prec bitSize mb eb b s v t x, w = 32 \/ w = 64 ->
  as_float bitSize val mb eb b s -> ieee mb eb b = VNum s (sgnR s v) ->
  fmt = 101 \/ fmt = 69 \/ fmt = 102 \/ fmt = 103 \/ fmt = 71 -> prec < 0 ->
  FormatFloat w opt val fmt prec bitSize = Ret t -> text_of s x t -> closest_digits mb eb v x.
Proof.
  intros w opt val fmt prec bitSize mb eb b s v t x Hw Ha Hx Hc Hp E T.
  destruct (short_big w opt val fmt prec bitSize b mb eb s v Hw Hc Hp Ha Hx) as (t1 & fp & y & H1 & _ & H3 & H4 & _ & _ & _ & H7).
  rewrite E in H1. injection H1 as <-. destruct (text_of_inj _ _ _ _ _ T (text_of_short _ _ _ _ _ H4 H3)) as [_ ->].
  intros G z Z1 Z2. apply (proj1 H7 G z Z1 Z2).
Qed.

(** * Exactly which decimal *)
Lemma shortest_unique mb eb v x y : shortest_digits mb eb v x -> shortest_digits mb eb v y -> x = y.
Proof.
  intros (X0 & Rx & Wx & Cx & Ex) (Y0 & Ry & Wy & Cy & Ey).
  assert (Sxy : forall n, sig_digits n x -> sig_digits n y) by (intros n; apply (Wy x n Rx)).
  assert (Syx : forall n, sig_digits n y -> sig_digits n x) by (intros n; apply (Wx y n Ry)).
  destruct (classic (exists n, rn mb eb (mid_hi mb eb v) <> v /\ sig_digits n (mid_hi mb eb v) /\ ~ sig_digits n x)) as [H|H].
  - destruct (Ex H) as [E1 E2]. destruct Ey as [E3 E4].
    { destruct H as (n & H1 & H2 & H3). exists n. split; [exact H1|]. split; [exact H2|]. intros H4. apply H3, Syx, H4. }
    specialize (E2 y Ry Sxy E3). specialize (E4 x Rx Syx E1). lra.
  - assert (Hx : forall n, rn mb eb (mid_hi mb eb v) <> v -> sig_digits n (mid_hi mb eb v) -> sig_digits n x).
    { intros n H1 H2. destruct (classic (sig_digits n x)) as [|H3]; [assumption|exfalso]. apply H. exists n. auto. }
    destruct (Cx Hx y Ry Sxy) as [D1 T1]. destruct (Cy (fun n H1 H2 => Sxy n (Hx n H1 H2)) x Rx Syx) as [D2 T2].
    destruct (Req_dec x y) as [|Ne]; [assumption|exfalso]. destruct (T1 ltac:(lra) ltac:(auto)) as (N & k & E1 & F1). destruct (T2 ltac:(lra) Ne) as (M & j & E2 & F2).
    assert (k = j) as <-. { apply (bpow_inj radix10). change (p10 k = p10 j). rewrite <- F1, <- F2. apply Rabs_minus_sym. }
    rewrite E1, E2, <- Rmult_minus_distr_r, Rabs_mult, (Rabs_pos_eq (p10 k)), <- minus_IZR, <- abs_IZR in F1 by (apply Rlt_le, p10_pos).
    assert (F : IZR (Z.abs (2 * N - 2 * M)) = 1%R). { apply Rmult_eq_reg_r with (p10 k); [lra|]. pose proof (p10_pos k). lra. }
    apply (eq_IZR _ 1) in F. lia.
Qed.

Lemma c77 : forall w opt val fmt prec bitSize mb eb b s v, w = 32 \/ w = 64 ->
  as_float bitSize val mb eb b s -> ieee mb eb b = VNum s (sgnR s v) ->
  fmt = 101 \/ fmt = 69 \/ fmt = 102 \/ fmt = 103 \/ fmt = 71 -> prec < 0 ->
  exists x, shortest_digits mb eb v x /\ (forall y, shortest_digits mb eb v y -> y = x) /\
    exists fp t, FormatFloat w opt val fmt prec bitSize = Ret t /\ no_zero_end fp /\ prints_short fmt s fp x t.
Proof.
  intros w opt val fmt prec bitSize mb eb b s v Hw Ha Hx Hc Hp.
  destruct (short_big w opt val fmt prec bitSize b mb eb s v Hw Hc Hp Ha Hx) as (t & fp & y & H1 & H2 & H3 & H4 & H5 & H6 & _ & H7).
  assert (S : shortest_digits mb eb v y) by (split; [|split; [|split]]; assumption).
  exists y. split; [exact S|]. split; [intros z Sz; apply (shortest_unique mb eb v); assumption|]. exists fp, t. auto.
Qed.

(** * Both code paths *)
Lemma c76 : forall w val fmt prec bitSize, w = 32 \/ w = 64 -> 0 <= val < 2 ^ 64 -> prec < 0 ->
  FormatFloat w true val fmt prec bitSize = FormatFloat w false val fmt prec bitSize.
Proof.
  intros w val fmt prec bitSize Hw Hv Hprec.
  assert (D : (bitSize = 16 \/ bitSize = 32 \/ bitSize = 64) \/ select val bitSize = Panic).
  { unfold select. destruct (Z.eqb_spec bitSize 16); [auto|]. destruct (Z.eqb_spec bitSize 32); [auto|]. destruct (Z.eqb_spec bitSize 64); auto. }
  destruct D as [D|D]; [|unfold FormatFloat, genericFtoa; rewrite D; reflexivity].
  destruct (select_total val bitSize Hv D) as (b & flt & mb & eb & Hs & Hf & Hb).
  pose proof (decode w val bitSize b flt mb eb Hw Hf Hb Hs) as H. unfold FormatFloat.
  destruct (ieee mb eb b) as [s|s|s x] eqn:Ei; [rewrite !H; reflexivity|rewrite !H; reflexivity|].
  destruct H as (mt & e & P & _ & H). rewrite !H. destruct (Z.eqb_spec fmt ch_b) as [|Nb]; [reflexivity|].
  destruct (Z.eq_dec mt 0) as [M|M].
  - assert (Dl : letter fmt \/ ~ letter fmt) by (unfold letter; lia). destruct Dl as [L|L].
    + rewrite !(zero_texts w _ fmt prec s flt mb eb mt e Hw Hf P Hprec L M). reflexivity.
    + rewrite !(unknown_all w _ fmt prec s flt mb eb mt e Hw Hf P L ltac:(auto)). reflexivity.
  - assert (0 < mt) by (destruct (parts_range flt mb eb mt e Hf P); lia). apply (short_same flt mb eb mt e w Hf P); auto.
Qed.

Lemma c64r : exists val b v t x z, as_float 32 val 23 8 b false /\ ieee 23 8 b = VNum false v /\
  (forall opt, FormatFloat 64 opt val 101 (-1) 32 = Ret t) /\ text_of false x t /\
  rn 23 8 z = v /\ sig_digits 8 z /\ ~ sig_digits 7 x /\ (Rabs (z - v) < Rabs (x - v))%R.
Proof.
  exists 0x421BF08EA0000000, 0x50DF8475, 29999998976%R, (B "2.9999998e+10"), 29999998000%R, 29999999000%R.
  assert (E64 : ieee 52 11 0x421BF08EA0000000 = VNum false 29999998976).
  { rewrite ieee_norm64 by (vm_compute; first [reflexivity|split; discriminate|split; [discriminate|reflexivity]]). f_equal.
    change (0x421BF08EA0000000 / 2 ^ 52 - 1075) with (-18). change (2 ^ 52 + 0x421BF08EA0000000 mod 2 ^ 52) with (29999998976 * 2 ^ 18). rewrite mult_IZR, IZR_pow2 by lia.
    rewrite Rmult_assoc, <- p2_plus. change (18 + -18) with 0. change (p2 0) with 1%R. lra. }
  assert (E32 : ieee 23 8 0x50DF8475 = VNum false 29999998976).
  { change (ieee 23 8 0x50DF8475) with (VNum false (IZR 0xDF8475 * p2 11)). f_equal. rewrite <- IZR_pow2, <- mult_IZR by lia. reflexivity. }
  split; [apply (as_float_fits 32 _ 23 8 _ false 29999998976); auto; lia|]. split; [exact E32|].
  split; [intros []; vm_compute; reflexivity|]. split.
  { exists [57; 57; 57; 57; 57; 57; 56]. right. left. exists 50, 10, [43; 49; 48]. split; [reflexivity|]. split.
    - exists [49; 48]. split; [reflexivity|]. split; [repeat constructor; cbn; lia|]. split; [reflexivity|left; reflexivity].
    - split; [repeat constructor; cbn; lia|]. split; [|discriminate]. cbn [length Z.of_nat Pos.of_succ_nat Pos.succ]. change (10 - 7) with 3. rewrite <- IZR_p10 by lia. rewrite <- mult_IZR. apply f_equal. vm_compute. reflexivity. }
  split.
  { destruct (fits_ieee 23 8 0x50DF8475 false 29999998976 ltac:(lia) ltac:(lia) ltac:(lia) E32) as [F _]. rewrite <- (fits_rn 23 8 29999998976 ltac:(lia) F). unfold rn.
    assert (M : forall y, (29999998976 <= y <= 29999999000)%R -> scaled_mantissa radix2 (FLT_exp (3 - 2 ^ (8 - 1) - (23 + 1)) (23 + 1)) y = (y * p2 (-11))%R /\ cexp radix2 (FLT_exp (3 - 2 ^ (8 - 1) - (23 + 1)) (23 + 1)) y = 11).
    { intros y Hy. assert (C : cexp radix2 (FLT_exp (3 - 2 ^ (8 - 1) - (23 + 1)) (23 + 1)) y = 11).
      { unfold cexp. rewrite (mag_unique_pos radix2 y 35); [reflexivity|]. change (bpow radix2 (35 - 1)) with 17179869184%R. change (bpow radix2 35) with 34359738368%R. lra. }
      split; [|exact C]. unfold scaled_mantissa. rewrite C. reflexivity. }
    unfold Generic_fmt.round. destruct (M 29999999000%R ltac:(lra)) as [-> ->]. destruct (M 29999998976%R ltac:(lra)) as [-> ->]. do 2 f_equal.
    change (p2 (-11)) with (/ 2048)%R. rewrite !(Znearest_imp _ _ 0xDF8475); [reflexivity|apply Rabs_lt; lra..]. }
  split; [exists 29999999, 3; split; [rewrite <- IZR_p10, <- mult_IZR by lia; reflexivity|reflexivity]|]. split.
  - intros S. destruct (sig_multiple 7 29999998000 4 ltac:(lia) S) as [q Hq].
    + change (4 + 7 - 1) with 10. rewrite <- IZR_p10 by lia. apply IZR_le. vm_compute. discriminate.
    + rewrite <- IZR_p10, <- mult_IZR in Hq by lia. apply eq_IZR in Hq. assert (D : 29999998000 mod 10 ^ 4 = 0) by (rewrite Hq; apply Z.mod_mul; lia). discriminate.
  - rewrite !Rabs_right, Rabs_left by lra. lra.
Qed.
