(** C109: which numbers have the same text. *)
From Coq Require Import ZArith Reals Lia Lra Bool List String.
From Flocq Require Import Core.
From Verif Require Import GoBase Spec SpecText SpecDec SpecFtoa BitFacts RoundFacts ItoaFacts FmtFacts DecFacts DecFacts2 BigFacts BigFacts2 BigFacts3 IeeeFacts PkgFacts ClaimsMore ClaimsKeep.
From Verif Require Import FtoaAll PkgText.
From Verif Require BigFloat PkgExact ExtShort FtoaShort ClaimsLen ClaimsSame ClaimsSameF ClaimsFtoa ClaimsFtoa2 ClaimsMany.
From Verif Require Import Ftoa SpecFmt.
Import ListNotations.
Open Scope Z_scope.

Local Notation len l := (Z.of_nat (List.length l)).

(** The same letter, sign, number of digits and number give the same text. *)
Lemma prints_e_len_same c ng fp fp' x s s' : prints_e c ng fp x s -> prints_e c ng fp' x s' -> len fp' = len fp -> s = s'.
Proof.
  intros (a & X & xs & E & Hx & A & V & Z0) (b & Y & ys & E' & Hy & A' & V' & Z0') L.
  assert (AB : a = 48 <-> b = 48).
  { split; intros ->; [destruct (Z0 eq_refl) as [x0 _]|destruct (Z0' eq_refl) as [x0 _]]; rewrite x0 in *.
    - apply (digit_zero_read b fp' A'). apply eq_IZR. pose proof (p10_pos (Y - len fp')). apply Rmult_eq_reg_r with (p10 (Y - len fp')); lra.
    - apply (digit_zero_read a fp A). apply eq_IZR. pose proof (p10_pos (X - len fp)). apply Rmult_eq_reg_r with (p10 (X - len fp)); lra. }
  assert (XY : X = Y).
  { destruct (Z.eq_dec a 48) as [Ea|Na].
    - destruct (Z0 Ea) as [_ ->]. destruct (Z0' (proj1 AB Ea)) as [_ ->]. reflexivity.
    - pose proof (prints_e_range c ng fp x s (ex_intro _ a (ex_intro _ X (ex_intro _ xs (conj E (conj Hx (conj A (conj V Z0))))))) a X xs E V A Na) as R1.
      assert (Nb : b <> 48) by tauto.
      pose proof (prints_e_range c ng fp' x s' (ex_intro _ b (ex_intro _ Y (ex_intro _ ys (conj E' (conj Hy (conj A' (conj V' Z0'))))))) b Y ys E' V' A' Nb) as R2.
      assert (X < Y + 1) by (apply p10_lt_inv; lra). assert (Y < X + 1) by (apply p10_lt_inv; lra). lia. }
  subst Y. rewrite V, L in V'. apply Rmult_eq_reg_r in V'; [|apply Rgt_not_eq, p10_pos]. apply eq_IZR in V'.
  assert (H : a :: fp = b :: fp') by (apply (all_digits_inj 10); auto; [lia|cbn [List.length]; lia]). injection H as -> ->.
  rewrite E, E'. do 3 f_equal. f_equal. apply (exp_digits_fun X); assumption.
Qed.

Lemma prints_f_short ng fp fp' x s s' : prints_f ng fp x s -> prints_f ng fp' x s' -> no_zero_end fp' -> len fp' <= len fp.
Proof.
  intros (ip & _ & N & A & V) (ip' & _ & N' & A' & V') Z. destruct (Z_le_gt_dec (len fp') (len fp)) as [|G]; [assumption|exfalso].
  assert (R : read 10 (ip' ++ fp') = read 10 (ip ++ fp) * 10 ^ (len fp' - len fp)).
  { apply eq_IZR. apply Rmult_eq_reg_r with (p10 (- len fp')); [|apply Rgt_not_eq, p10_pos]. rewrite <- V', V, mult_IZR, Rmult_assoc. f_equal. rewrite <- ClaimsMany.p10_int, <- p10_plus by lia. f_equal. lia. }
  assert (Nf : fp' <> []) by (intros ->; cbn [List.length] in *; lia).
  apply (read_no_zero_end (ip' ++ fp')).
  - unfold all_digits. apply Forall_app. split; [apply N'|exact A'].
  - destruct ip'; [destruct fp'; [contradiction|discriminate]|discriminate].
  - destruct (exists_last Nf) as (l & d & El). unfold no_zero_end in Z. rewrite El, app_assoc, !last_last in *. exact Z.
  - rewrite R. replace (len fp' - len fp) with (len fp' - len fp - 1 + 1) by lia. rewrite Z.pow_add_r by lia. rewrite Z.mul_assoc. apply Z.mod_mul. lia.
Qed.

Lemma prints_f_unique ng fp fp' x s s' : prints_f ng fp x s -> prints_f ng fp' x s' -> no_zero_end fp -> no_zero_end fp' -> s = s'.
Proof.
  intros P P' N N'. pose proof (prints_f_short _ _ _ _ _ _ P P' N'). pose proof (prints_f_short _ _ _ _ _ _ P' P N). apply (ClaimsSameF.prints_f_same ng fp fp' x s s' P P'). lia.
Qed.

Lemma prints_g_unique c t ng fp fp' x s s' : (0 <= x)%R -> prints_g c t ng fp x s -> prints_g c t ng fp' x s' -> no_zero_end fp -> no_zero_end fp' -> s = s'.
Proof.
  intros H [G1 G2] [G1' G2'] N N'. pose proof (p10_pos (-4)). destruct (Rlt_or_le x (p10 (-4))) as [L|L].
  - destruct (Rle_lt_or_eq_dec 0 x H) as [P|P].
    + apply (prints_e_unique c ng fp fp' x); auto.
    + apply (prints_f_unique ng fp fp' x); auto.
  - destruct (Rlt_or_le x (p10 t)); [apply (prints_f_unique ng fp fp' x); auto|apply (prints_e_unique c ng fp fp' x); auto].
Qed.

Lemma prints_g_inj c t t' ng ng' fp fp' x x' s : c = 101 \/ c = 69 -> (0 <= x)%R -> (0 <= x')%R -> prints_g c t ng fp x s -> prints_g c t' ng' fp' x' s -> ng = ng' /\ x = x' /\ fp = fp'.
Proof.
  intros K P P' H H'. apply prints_g_cases in H, H'; try assumption. destruct H as [H|H], H' as [H'|H'].
  - apply (prints_f_inj ng ng' fp fp' x x' s H H').
  - exfalso. apply (prints_ef _ _ _ _ _ _ _ _ K H' H).
  - exfalso. apply (prints_ef _ _ _ _ _ _ _ _ K H H').
  - apply (prints_e_inj _ ng ng' fp fp' x x' s K H H').
Qed.

(** The text depends on the float of that size alone. *)
Lemma c109_depends : forall w opt dst val val' fmt prec bitSize mb eb b s s',
  as_float bitSize val mb eb b s -> as_float bitSize val' mb eb b s' -> AppendFloat w opt dst val fmt prec bitSize = AppendFloat w opt dst val' fmt prec bitSize.
Proof.
  intros w opt dst val val' fmt prec bitSize mb eb b s s' A A'. destruct (select_as _ _ _ _ _ _ A) as (f & S & F). destruct (select_as _ _ _ _ _ _ A') as (f' & S' & F').
  assert (f = f') as <-.
  { destruct F as [(-> & M & _)|[(-> & M & _)|(-> & M & _)]]; destruct F' as [(-> & M' & _)|[(-> & M' & _)|(-> & M' & _)]]; first [reflexivity|lia]. }
  unfold AppendFloat, genericFtoa. rewrite S, S'. reflexivity.
Qed.

Lemma value_nonneg bitSize val mb eb b s v : as_float bitSize val mb eb b s -> ieee mb eb b = VNum s (sgnR s v) -> (0 <= v)%R.
Proof.
  intros A E. destruct (float_sizes _ _ _ _ _ _ A) as [Hm He]. destruct (fits_ieee mb eb b s _ ltac:(lia) He (proj1 (proj2 A)) E) as [_ S]. pose proof (Rabs_pos (sgnR s v)). destruct s; cbn [sgnR] in *; lra.
Qed.

Lemma c109e : forall w opt opt' val val' fmt prec bitSize mb eb b b' s s' v v', w = 32 \/ w = 64 ->
  as_float bitSize val mb eb b s -> ieee mb eb b = VNum s (sgnR s v) -> as_float bitSize val' mb eb b' s' -> ieee mb eb b' = VNum s' (sgnR s' v') ->
  fmt = 101 \/ fmt = 69 -> 0 <= prec < 2 ^ (w - 1) - 1 ->
  (FormatFloat w opt val fmt prec bitSize = FormatFloat w opt' val' fmt prec bitSize <-> s = s' /\ sig_round (prec + 1) v = sig_round (prec + 1) v').
Proof.
  intros w opt opt' val val' fmt prec bitSize mb eb b b' s s' v v' Hw A E A' E' F Hp.
  destruct (ClaimsFtoa.c51e w opt val fmt prec bitSize mb eb b s v Hw A E F Hp) as (t & fp & R & L & P). destruct (ClaimsFtoa.c51e w opt' val' fmt prec bitSize mb eb b' s' v' Hw A' E' F Hp) as (t' & fp' & R' & L' & P').
  rewrite R, R'. split.
  - intros T. assert (t = t') by congruence. subst t'. destruct (prints_e_inj fmt _ _ _ _ _ _ _ F P P') as (-> & -> & _). auto.
  - intros [<- Q]. rewrite <- Q in P'. f_equal. apply (prints_e_len_same fmt s fp fp' _ t t' P P'). lia.
Qed.

Lemma c109f : forall w opt opt' val val' prec bitSize mb eb b b' s s' v v', w = 32 \/ w = 64 ->
  as_float bitSize val mb eb b s -> ieee mb eb b = VNum s (sgnR s v) -> as_float bitSize val' mb eb b' s' -> ieee mb eb b' = VNum s' (sgnR s' v') ->
  0 <= prec < 2 ^ (w - 1) ->
  (FormatFloat w opt val 102 prec bitSize = FormatFloat w opt' val' 102 prec bitSize <-> s = s' /\ round10 (- prec) v = round10 (- prec) v').
Proof.
  intros w opt opt' val val' prec bitSize mb eb b b' s s' v v' Hw A E A' E' Hp.
  destruct (ClaimsFtoa.c51f w opt val prec bitSize mb eb b s v Hw A E Hp) as (t & fp & R & L & P). destruct (ClaimsFtoa.c51f w opt' val' prec bitSize mb eb b' s' v' Hw A' E' Hp) as (t' & fp' & R' & L' & P').
  rewrite R, R'. split.
  - intros T. assert (t = t') by congruence. subst t'. destruct (prints_f_inj _ _ _ _ _ _ _ P P') as (-> & -> & _). auto.
  - intros [<- Q]. rewrite <- Q in P'. f_equal. apply (ClaimsSameF.prints_f_same s fp fp' _ t t' P P'). lia.
Qed.

Lemma c109g : forall w opt opt' val val' fmt prec bitSize mb eb b b' s s' v v', w = 32 \/ w = 64 ->
  as_float bitSize val mb eb b s -> ieee mb eb b = VNum s (sgnR s v) -> as_float bitSize val' mb eb b' s' -> ieee mb eb b' = VNum s' (sgnR s' v') ->
  fmt = 103 \/ fmt = 71 -> 0 <= prec ->
  (FormatFloat w opt val fmt prec bitSize = FormatFloat w opt' val' fmt prec bitSize <-> s = s' /\ sig_round (Z.max prec 1) v = sig_round (Z.max prec 1) v').
Proof.
  intros w opt opt' val val' fmt prec bitSize mb eb b b' s s' v v' Hw A E A' E' F Hp.
  destruct (ClaimsFtoa.c51g w opt val fmt prec bitSize mb eb b s v Hw A E F Hp) as (t & fp & R & L & P). destruct (ClaimsFtoa.c51g w opt' val' fmt prec bitSize mb eb b' s' v' Hw A' E' F Hp) as (t' & fp' & R' & L' & P').
  assert (NN : forall u, (0 <= u)%R -> (0 <= sig_round (Z.max prec 1) u)%R).
  { intros u Hu. unfold sig_round. assert (HP : Prec_gt_0 (Z.max prec 1)) by (unfold Prec_gt_0; lia). rewrite <- (round_0 radix10 (FLX_exp (Z.max prec 1)) ZnearestE). apply round_le; [apply FLX_exp_valid; exact HP|apply valid_rnd_N|exact Hu]. }
  pose proof (NN v (value_nonneg _ _ _ _ _ _ _ A E)) as N1. pose proof (NN v' (value_nonneg _ _ _ _ _ _ _ A' E')) as N2.
  rewrite R, R'. split.
  - intros T. assert (t = t') by congruence. subst t'. destruct (prints_g_inj (fmt - 2) _ _ _ _ _ _ _ _ _ ltac:(lia) N1 N2 P P') as (-> & -> & _). auto.
  - intros [<- Q]. rewrite <- Q in P'. f_equal. apply (prints_g_unique (fmt - 2) (Z.max prec 1) s fp fp' _ t t' N1 P P' L L').
Qed.

Lemma same_value mb eb b b' s s' v v' : 0 <= mb -> 1 <= eb -> 0 <= b < 2 ^ (mb + eb + 1) -> 0 <= b' < 2 ^ (mb + eb + 1) -> ieee mb eb b = VNum s (sgnR s v) -> ieee mb eb b' = VNum s' (sgnR s' v') ->
  s = s' -> v = v' -> b = b'.
Proof. intros Hm He Hb Hb' E E' <- <-. apply (ieee_inj mb eb); try assumption; congruence. Qed.

Lemma c109_shortest : forall w opt opt' val val' fmt prec prec' bitSize mb eb b b' s s' v v', w = 32 \/ w = 64 ->
  as_float bitSize val mb eb b s -> ieee mb eb b = VNum s (sgnR s v) -> as_float bitSize val' mb eb b' s' -> ieee mb eb b' = VNum s' (sgnR s' v') ->
  fmt = 101 \/ fmt = 69 \/ fmt = 102 \/ fmt = 103 \/ fmt = 71 -> prec < 0 -> prec' < 0 ->
  (FormatFloat w opt val fmt prec bitSize = FormatFloat w opt' val' fmt prec' bitSize <-> b = b').
Proof.
  intros w opt opt' val val' fmt prec prec' bitSize mb eb b b' s s' v v' Hw A E A' E' F Hp Hp'.
  destruct (ClaimsFtoa2.c77 w opt val fmt prec bitSize mb eb b s v Hw A E F Hp) as (x & D & U & fp & t & R & N & P). destruct (ClaimsFtoa2.c77 w opt' val' fmt prec' bitSize mb eb b' s' v' Hw A' E' F Hp') as (x' & D' & U' & fp' & t' & R' & N' & P').
  destruct (float_sizes _ _ _ _ _ _ A) as [Hm He]. rewrite R, R'. split.
  - intros T. assert (t = t') by congruence. subst t'. destruct (prints_short_inj fmt _ _ _ _ _ _ _ (proj1 D) (proj1 D') P P') as (S & X & _). subst x'.
    apply (same_value mb eb b b' s s' v v' ltac:(lia) ltac:(lia) (proj1 (proj2 A)) (proj1 (proj2 A')) E E' S). rewrite <- (proj1 (proj2 D)), <- (proj1 (proj2 D')). reflexivity.
  - intros <-. rewrite E in E'. assert (S : s = s') by congruence. subst s'. assert (V : v = v') by (assert (sgnR s v = sgnR s v') by congruence; destruct s; cbn [sgnR] in *; lra). subst v'.
    rewrite <- (U x' D') in *. clear U U'. f_equal. destruct P as [(K & P)|[(K & P)|(K & P)]], P' as [(K' & P')|[(K' & P')|(K' & P')]]; try lia.
    + apply (prints_e_unique fmt s fp fp' x'); assumption.
    + apply (prints_f_unique s fp fp' x'); assumption.
    + apply (prints_g_unique (fmt - 2) 6 s fp fp' x'); try assumption. apply (proj1 D').
Qed.

Lemma c109b : forall w opt opt' val val' prec prec' bitSize mb eb b b' s s' v v', w = 32 \/ w = 64 ->
  as_float bitSize val mb eb b s -> ieee mb eb b = VNum s (sgnR s v) -> as_float bitSize val' mb eb b' s' -> ieee mb eb b' = VNum s' (sgnR s' v') ->
  (FormatFloat w opt val 98 prec bitSize = FormatFloat w opt' val' 98 prec' bitSize <-> b = b').
Proof.
  intros w opt opt' val val' prec prec' bitSize mb eb b b' s s' v v' Hw A E A' E'. destruct (float_sizes _ _ _ _ _ _ A) as [Hm He]. split.
  - destruct (ClaimsFtoa.c55 w opt val prec bitSize mb eb b s v Hw A E) as (ms & ks & m & k & R & N1 & M & N2 & K & V & _). destruct (ClaimsFtoa.c55 w opt' val' prec' bitSize mb eb b' s' v' Hw A' E') as (ms' & ks' & m' & k' & R' & N1' & M' & N2' & K' & V' & _).
    rewrite R, R'. intros T. assert (T' : sign_text s ++ ms ++ 112 :: (if k <? 0 then 45 else 43) :: ks = sign_text s' ++ ms' ++ 112 :: (if k' <? 0 then 45 else 43) :: ks') by congruence. clear T.
    destruct (numeral_dig10 _ N1) as [I1 I2]. destruct (numeral_dig10 _ N1') as [I1' I2'].
    apply sign_inj in T'.
    2:{ destruct ms; [destruct N1; contradiction|exact I2]. }
    2:{ destruct ms'; [destruct N1'; contradiction|exact I2']. }
    destruct T' as [S T']. apply split_digits in T'; [|assumption|assumption|cbn; unfold dig10; lia|cbn; unfold dig10; lia]. destruct T' as [-> T']. injection T' as G ->.
    apply (same_value mb eb b b' s s' v v' ltac:(lia) ltac:(lia) (proj1 (proj2 A)) (proj1 (proj2 A')) E E' S). rewrite V, V', <- M, <- M'. do 2 f_equal. rewrite K in K'.
    destruct (Z.ltb_spec k 0); destruct (Z.ltb_spec k' 0); try discriminate; lia.
  - intros <-. destruct (ClaimsFtoa.c55 w opt val prec bitSize mb eb b s v Hw A E) as (ms & ks & m & k & R & _). transitivity (FormatFloat w opt val' 98 prec bitSize).
    + apply (c109_depends w opt [] val val' 98 prec bitSize mb eb b s s' A A').
    + reflexivity.
Qed.

Lemma digit_head ng r t : dig10 (hd 0 r) -> sign_text ng ++ r = t -> t <> B "NaN" /\ t <> B "+Inf" /\ t <> B "-Inf".
Proof.
  intros H <-. unfold dig10 in H. destruct r as [|c r]; [cbn in H; lia|]. cbn [hd] in H. destruct ng; cbn [sign_text app]; (split; [|split]); intros E; injection E; intros; lia.
Qed.

Lemma prints_short_special c ng fp x s : (0 <= x)%R -> prints_short c ng fp x s -> s <> B "NaN" /\ s <> B "+Inf" /\ s <> B "-Inf".
Proof.
  intros Hx P. assert (K : prints_f ng fp x s \/ exists c', prints_e c' ng fp x s).
  { destruct P as [(_ & P)|[(_ & P)|(_ & P)]]; [right; eauto|auto|]. apply prints_g_cases in P; [|exact Hx]. destruct P; eauto. }
  destruct K as [(ip & -> & N & _)|(c' & a & X & xs & -> & _ & A & _)].
  - apply (digit_head ng (ip ++ point fp)); [|reflexivity]. destruct (numeral_dig10 _ N) as [_ I]. destruct ip; [destruct N; contradiction|exact I].
  - apply (digit_head ng (a :: point fp ++ c' :: xs)); [|reflexivity]. rewrite all_dig10 in A. inversion A. assumption.
Qed.

Lemma c109_all : forall w opt opt' val val' fmt prec prec', w = 32 \/ w = 64 -> 0 <= val < 2 ^ 64 -> 0 <= val' < 2 ^ 64 ->
  fmt = 101 \/ fmt = 69 \/ fmt = 102 \/ fmt = 103 \/ fmt = 71 -> prec < 0 -> prec' < 0 ->
  (FormatFloat w opt val fmt prec 64 = FormatFloat w opt' val' fmt prec' 64 <-> val = val' \/ exists s s', ieee 52 11 val = VNaN s /\ ieee 52 11 val' = VNaN s').
Proof.
  intros w opt opt' val val' fmt prec prec' Hw Hv Hv' F Hp Hp'.
  assert (G : forall o f p, 0 <= f < 2 ^ 64 -> p < 0 -> (exists s, ieee 52 11 f = VNaN s /\ FormatFloat w o f fmt p 64 = Ret (B "NaN")) \/
    (exists s, ieee 52 11 f = VInf s /\ FormatFloat w o f fmt p 64 = Ret (if s then B "-Inf" else B "+Inf")) \/
    (exists s v t, ieee 52 11 f = VNum s (sgnR s v) /\ as_float 64 f 52 11 f s /\ FormatFloat w o f fmt p 64 = Ret t /\ t <> B "NaN" /\ t <> B "+Inf" /\ t <> B "-Inf")).
  { intros o f p Hf P. destruct (ieee 52 11 f) as [s|s|s u] eqn:E.
    - left. exists s. split; [reflexivity|]. apply (ClaimsFtoa.c56n w o f fmt p 64 s); auto.
    - right; left. exists s. split; [reflexivity|]. apply (ClaimsFtoa.c56i w o f fmt p 64 s); auto.
    - right; right. set (v := sgnR s u). assert (Eu : u = sgnR s v) by (unfold v; destruct s; cbn [sgnR]; ring). pose proof (ClaimsFtoa2.as_float_64 f s u Hf E) as A. rewrite Eu in E.
      destruct (ClaimsFtoa2.c77 w o f fmt p 64 52 11 f s v Hw A E F P) as (x & D & _ & fp & t & R & _ & Q). exists s, v, t. split; [congruence|]. split; [exact A|]. split; [exact R|]. apply (prints_short_special fmt s fp x t (proj1 D) Q). }
  assert (I : B "+Inf" <> B "-Inf" /\ B "NaN" <> B "-Inf" /\ B "NaN" <> B "+Inf") by (split; [|split]; discriminate). destruct I as (I1 & I2 & I3).
  destruct (G opt val prec Hv Hp) as [(s & E & R)|[(s & E & R)|(s & v & t & E & A & R & T1 & T2 & T3)]]; destruct (G opt' val' prec' Hv' Hp') as [(s' & E' & R')|[(s' & E' & R')|(s' & v' & t' & E' & A' & R' & T1' & T2' & T3')]]; split.
  all: try (intros [<-|(? & ? & ? & ?)]; congruence).
  all: try (rewrite R, R'; intros H; exfalso; destruct s, s'; congruence).
  - intros _. right. eauto.
  - rewrite R, R'. intros H. left. destruct s, s'; try (exfalso; congruence); apply (ieee_inj 52 11); try lia; try congruence.
  - intros [H|(? & ? & ? & ?)]; [|congruence]. assert (s = s') by congruence. subst s'. congruence.
  - intros H. left. revert H. apply (c109_shortest w opt opt' val val' fmt prec prec' 64 52 11 val val' s s' v v'); assumption.
  - intros [H|(? & ? & ? & ?)]; [|congruence]. apply (c109_shortest w opt opt' val val' fmt prec prec' 64 52 11 val val' s s' v v'); assumption.
Qed.

Lemma as_float_32 val s u : 0 <= val < 2 ^ 64 -> ieee 52 11 val = VNum s u -> as_float 32 val 23 8 (BigFloat.f64_to_f32 val) s.
Proof.
  intros Hv E. destruct (f64_to_f32_correct val Hv) as [R C]. rewrite E in C. split; [exact Hv|]. split; [exact R|]. exists u. split; [exact E|]. split; [exact C|]. right; left; auto.
Qed.

Lemma c109_example : as_float 32 0x3FB999999999999A 23 8 0x3DCCCCCD false /\ as_float 32 0x3FB999999999999B 23 8 0x3DCCCCCD false /\ ieee 23 8 0x3DCCCCCD = VNum false (sgnR false (IZR 13421773 * p2 (- 27))).
Proof.
  split; [|split].
  - change 0x3DCCCCCD with (BigFloat.f64_to_f32 0x3FB999999999999A). eapply as_float_32; [lia|reflexivity].
  - change 0x3DCCCCCD with (BigFloat.f64_to_f32 0x3FB999999999999B). eapply as_float_32; [lia|reflexivity].
  - reflexivity.
Qed.
