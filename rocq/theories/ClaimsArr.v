(** Proofs of the claims about the models with arrays (DecimalArr.v, ExtArr.v, FtoaArr.v). *)
From Coq Require Import ZArith Reals String List Lia Lra Bool.
From Flocq Require Import Core.
From Verif Require Import GoBase Spec SpecText SpecDec SpecArr ClaimsDec.
From Verif Require DecimalArr Decimal ArrFacts ArrOps.
From Verif Require Import ArrFacts.
Import ListNotations.
Open Scope Z_scope.

Lemma c74a : forall a v, length (DecimalArr.mem a) = 800%nat -> 0 <= v < 2 ^ 64 ->
  exists b, DecimalArr.Assign a v = Ret b /\ array_ok b /\ dnorm (held b) /\ dval (held b) = IZR v /\
    DecimalArr.atr b = DecimalArr.atr a.
Proof.
  intros a v Ha Hv. destruct (c39 (held a) v Hv) as (b & E & N & V & T).
  destruct (ArrFacts.Assign_arr a v b Ha Hv E) as (a' & E' & O & <-). exists a'. repeat (split; try assumption); apply N.
Qed.

Lemma shift_pull w a k : w = 32 \/ w = 64 -> array_ok a -> dnorm (held a) -> forall P : Decimal.decimal -> Prop,
  (exists b, Decimal.Shift w (held a) k = Ret b /\ P b) -> exists b, DecimalArr.Shift w a k = Ret b /\ array_ok b /\ P (held b).
Proof.
  intros Hw Ha Hn P (b & E & HP). destruct (ArrOps.Shift_arr w a k Hw Ha Hn) as (b' & E' & O & E2). exists b'.
  split; [exact E'|]. split; [exact O|]. rewrite E in E2. apply Ret_inj in E2. rewrite <- E2. exact HP.
Qed.

Lemma c74e : forall w a k, w = 32 \/ w = 64 -> array_ok a -> dnorm (held a) -> DecimalArr.atr a = false -> sig_digits 800 (dval (held a) * p2 k) ->
  exists b, DecimalArr.Shift w a k = Ret b /\ array_ok b /\ dnorm (held b) /\ DecimalArr.atr b = false /\ dval (held b) = (dval (held a) * p2 k)%R.
Proof.
  intros w a k Hw Ha Hn Ht Hs. apply (shift_pull w a k Hw Ha Hn (fun b => dnorm b /\ Decimal.trunc b = false /\ dval b = (dval (held a) * p2 k)%R)).
  apply c40_exact; auto.
Qed.

Lemma c74t : forall w a k, w = 32 \/ w = 64 -> array_ok a -> dnorm (held a) ->
  exists b, DecimalArr.Shift w a k = Ret b /\ array_ok b /\ dnorm (held b) /\
    (DecimalArr.atr b = true <-> DecimalArr.atr a = true \/ (dval (held b) < dval (held a) * p2 k)%R) /\
    (dval (held a) * p2 k * (1 - p10 (-799)) ^ Z.to_nat (Z.abs k / (w - 4) + 2) <= dval (held b) <= dval (held a) * p2 k)%R.
Proof.
  intros w a k Hw Ha Hn. apply (shift_pull w a k Hw Ha Hn (fun b => dnorm b /\
    (Decimal.trunc b = true <-> DecimalArr.atr a = true \/ (dval b < dval (held a) * p2 k)%R) /\
    (dval (held a) * p2 k * (1 - p10 (-799)) ^ Z.to_nat (Z.abs k / (w - 4) + 2) <= dval b <= dval (held a) * p2 k)%R)).
  exact (c40_trunc w (held a) k Hw Hn).
Qed.

Lemma c74o : forall w a k, w = 32 \/ w = 64 -> array_ok a -> dnorm (held a) -> DecimalArr.and_ a <> 0 -> Z.abs k <= w - 4 ->
  exists b, DecimalArr.Shift w a k = Ret b /\
    exists p, (p10 (p - 1) <= dval (held a) * p2 k < p10 p)%R /\ dval (held b) = floor10 (p - 800) (dval (held a) * p2 k).
Proof.
  intros w a k Hw Ha Hn H0 Hk. destruct (shift_pull w a k Hw Ha Hn (fun b => exists p, (p10 (p - 1) <= dval (held a) * p2 k < p10 p)%R /\ dval b = floor10 (p - 800) (dval (held a) * p2 k))) as (b & E & _ & H).
  - apply c40_one; auto. intros E. apply H0. rewrite <- (ArrOps.held_nd a Ha). unfold Decimal.nd. rewrite E. reflexivity.
  - exists b. auto.
Qed.

Lemma c74f : forall w m e, w = 32 \/ w = 64 -> 0 <= m < 2 ^ 64 -> -1100 <= e <= 2000 ->
  exists a b, DecimalArr.Assign DecimalArr.new_adec m = Ret a /\ DecimalArr.Shift w a e = Ret b /\
    array_ok b /\ dnorm (held b) /\ DecimalArr.atr b = false /\ dval (held b) = (IZR m * p2 e)%R.
Proof.
  intros w m e Hw Hm He. destruct (c40_fmt w m e Hw Hm He) as (a & b & E1 & E2 & N & T & V).
  destruct (c39 (held DecimalArr.new_adec) m Hm) as (a1 & F1 & N1 & _).
  assert (H0 : held DecimalArr.new_adec = Decimal.new_decimal) by reflexivity. rewrite H0 in F1.
  destruct (ArrFacts.Assign_arr DecimalArr.new_adec m a1 eq_refl Hm F1) as (a' & G1 & O & H1). rewrite E1 in F1. apply Ret_inj in F1. subst a1.
  destruct (shift_pull w a' e Hw O ltac:(rewrite H1; exact N1) (fun b => dnorm b /\ Decimal.trunc b = false /\ dval b = (IZR m * p2 e)%R)) as (b' & K1 & K2 & K3).
  - rewrite H1. exists b. auto.
  - exists a', b'. auto.
Qed.

Lemma c74r : forall a n V, array_ok a -> dnorm (held a) -> cut_to (held a) V -> 0 <= n -> DecimalArr.atr a = false \/ n < 800 ->
  exists b, DecimalArr.Round a n = Ret b /\ array_ok b /\ dnorm (held b) /\ dval (held b) = round10 (DecimalArr.adp a - n) V.
Proof.
  intros a n V Ha Hn Hc H0 Ht. destruct (ArrOps.Round_arr a n Ha) as (b & E & O & H). exists b. rewrite H.
  destruct (c41_round (held a) n V Hn Hc H0 Ht). auto.
Qed.

Lemma c74d : forall a n V, array_ok a -> dnorm (held a) -> cut_to (held a) V -> 0 <= n ->
  exists b c, DecimalArr.RoundDown a n = Ret b /\ DecimalArr.RoundUp a n = Ret c /\ array_ok b /\ array_ok c /\
    (DecimalArr.atr a = false \/ n < 800 -> dnorm (held b) /\ dval (held b) = floor10 (DecimalArr.adp a - n) V) /\
    (DecimalArr.atr a = false \/ n < DecimalArr.and_ a -> dnorm (held c) /\ dval (held c) = ceil10 (DecimalArr.adp a - n) V).
Proof.
  intros a n V Ha Hn Hc H0. destruct (ArrOps.RoundDown_arr a n Ha) as (b & E & O & H). destruct (ArrOps.RoundUp_arr a n Ha) as (c & E' & O' & H').
  exists b, c. rewrite H, H'. destruct (c41_dirs (held a) n V Hn Hc H0) as [P Q]. rewrite ArrOps.held_nd in Q by exact Ha. repeat (split; [assumption|]). exact Q.
Qed.

Lemma c74u : forall a n, n < 0 \/ DecimalArr.and_ a <= n ->
  DecimalArr.Round a n = Ret a /\ DecimalArr.RoundDown a n = Ret a /\ DecimalArr.RoundUp a n = Ret a.
Proof.
  intros a n H. unfold DecimalArr.Round, DecimalArr.RoundDown, DecimalArr.RoundUp.
  assert (E : (n <? 0) || (DecimalArr.and_ a <=? n) = true) by (destruct (Z.ltb_spec n 0); [reflexivity|]; apply Z.leb_le; lia). rewrite E. auto.
Qed.

Lemma c74i : forall a V, array_ok a -> dnorm (held a) -> cut_to (held a) V -> ZnearestE V < 2 ^ 64 ->
  DecimalArr.RoundedInteger a = Ret (ZnearestE V).
Proof. intros a V Ha Hn Hc HV. rewrite (ArrOps.RoundedInteger_arr a Ha). f_equal. apply c42; auto. Qed.

Lemma c74s : forall a, array_ok a -> dnorm (held a) ->
  exists t, DecimalArr.String_ a = Ret t /\ denotes_plain t (dval (held a)).
Proof. intros a Ha Hn. eexists. split; [apply ArrOps.String_arr, Ha|apply c43, Hn]. Qed.

Lemma c74b : forall w a n k v, w = 32 \/ w = 64 -> array_ok a -> 0 <= v < 2 ^ 64 ->
  (exists b, DecimalArr.Assign a v = Ret b /\ array_ok b) /\
  (exists b, DecimalArr.Round a n = Ret b /\ array_ok b) /\
  (exists b, DecimalArr.RoundDown a n = Ret b /\ array_ok b) /\
  (exists b, DecimalArr.RoundUp a n = Ret b /\ array_ok b) /\
  (exists m, DecimalArr.RoundedInteger a = Ret m) /\ (exists t, DecimalArr.String_ a = Ret t) /\
  (dnorm (held a) -> exists b, DecimalArr.Shift w a k = Ret b /\ array_ok b).
Proof.
  intros w a n k v Hw Ha Hv. split.
  { destruct (c74a a v (proj1 Ha) Hv) as (b & E & O & _). eauto. }
  split. { destruct (ArrOps.Round_arr a n Ha) as (b & E & O & _). eauto. }
  split. { destruct (ArrOps.RoundDown_arr a n Ha) as (b & E & O & _). eauto. }
  split. { destruct (ArrOps.RoundUp_arr a n Ha) as (b & E & O & _). eauto. }
  split. { rewrite (ArrOps.RoundedInteger_arr a Ha). eauto. }
  split. { rewrite (ArrOps.String_arr a Ha). eauto. }
  intros Hn. destruct (c74t w a k Hw Ha Hn) as (b & E & O & _). eauto.
Qed.

(** * The texts *)
From Verif Require Import SpecFtoa SpecFmt ClaimsFtoa.
From Verif Require FtoaArr Ftoa FtoaArrFacts FtoaAll.

Lemma e_letters c : Ftoa.is_e c = true -> c = 101 \/ c = 69.
Proof. unfold Ftoa.is_e, Ftoa.ch_e, Ftoa.ch_E. lia. Qed.

Lemma c75a : forall w opt dst val fmt prec bitSize, w = 32 \/ w = 64 -> 0 <= val < 2 ^ 64 ->
  (fmt = 101 \/ fmt = 69 -> prec < 2 ^ (w - 1) - 1) ->
  FtoaArr.AppendFloat w opt dst val fmt prec bitSize = Ftoa.AppendFloat w opt dst val fmt prec bitSize.
Proof.
  intros w opt dst val fmt prec bitSize Hw Hv HE. unfold FtoaArr.AppendFloat, Ftoa.AppendFloat. apply FtoaArrFacts.generic_arr; auto.
  intros E. apply e_letters in E. specialize (HE E). lia.
Qed.

Lemma same w opt val fmt prec bitSize : w = 32 \/ w = 64 -> 0 <= val < 2 ^ 64 ->
  (fmt = 101 \/ fmt = 69 -> prec < 2 ^ (w - 1) - 1) ->
  FtoaArr.FormatFloat w opt val fmt prec bitSize = Ftoa.FormatFloat w opt val fmt prec bitSize.
Proof. exact (c75a w opt [] val fmt prec bitSize). Qed.

Lemma same_as w opt val fmt prec bitSize mb eb b s : w = 32 \/ w = 64 -> as_float bitSize val mb eb b s ->
  (fmt = 101 \/ fmt = 69 -> prec < 2 ^ (w - 1) - 1) ->
  FtoaArr.FormatFloat w opt val fmt prec bitSize = Ftoa.FormatFloat w opt val fmt prec bitSize.
Proof. intros Hw (H & _). apply same; auto. Qed.

Lemma neg_small w prec : w = 32 \/ w = 64 -> prec < 0 -> prec < 2 ^ (w - 1) - 1.
Proof. intros [-> | ->] H; cbn; lia. Qed.

Lemma c75t : forall w opt val fmt prec bitSize, w = 32 \/ w = 64 -> 0 <= val < 2 ^ 64 ->
  - 2 ^ (w - 1) <= prec < 2 ^ (w - 1) ->
  bitSize = 16 \/ bitSize = 32 \/ bitSize = 64 ->
  fmt = 98 \/ fmt = 101 \/ fmt = 69 \/ fmt = 102 \/ fmt = 103 \/ fmt = 71 \/ prec <> 0 \/ opt = false ->
  (fmt = 101 \/ fmt = 69 -> prec <> 2 ^ (w - 1) - 1) ->
  exists t, FtoaArr.FormatFloat w opt val fmt prec bitSize = Ret t.
Proof.
  intros w opt val fmt prec bitSize Hw Hv Hp Hb Hf HE. rewrite same by (auto; intros E; specialize (HE E); lia).
  apply c57t; auto.
Qed.

Lemma c75m : forall w opt dst val fmt bitSize mb eb b s v, w = 32 \/ w = 64 ->
  as_float bitSize val mb eb b s -> ieee mb eb b = VNum s (sgnR s v) -> fmt = 101 \/ fmt = 69 ->
  FtoaArr.AppendFloat w opt dst val fmt (2 ^ (w - 1) - 1) bitSize = Panic.
Proof.
  intros w opt dst val fmt bitSize mb eb b s v Hw Ha Hx Hf. unfold FtoaArr.AppendFloat, FtoaArr.genericFtoa.
  assert (Ee : Ftoa.is_e fmt = true) by (destruct Hf as [-> | ->]; reflexivity).
  assert (Eb : (fmt =? Ftoa.ch_b) = false) by (destruct Hf as [-> | ->]; reflexivity).
  pose proof (FtoaAll.decode_as w false [] val 120 7 bitSize b mb eb s v Hw Ha Hx) as (flt & mt & e & Ff & _ & _ & G).
  destruct (FtoaAll.select_as _ _ _ _ _ _ Ha) as (flt' & Hs & Hf'). unfold Ftoa.genericFtoa in G.
  rewrite Hs in *. cbn [bind] in *. rewrite Eb.
  set (E := Z.land (sint w _) _) in *. set (M := Z.land b _) in *. destruct (E =? _).
  - exfalso. clear - G. change (120 =? Ftoa.ch_b) with false in G. cbn [app] in G.
    assert (N : exists t, Ftoa.ftoa_digits w false [] 120 7 s mt e flt = Ret (t ++ [37; 120]) \/ Ftoa.ftoa_digits w false [] 120 7 s mt e flt = Panic).
    { unfold Ftoa.ftoa_digits, Ftoa.bigFtoa. cbn [negb]. destruct (Decimal.Assign _ _) as [d|]; [|exists []; auto]. cbn [bind]. destruct (Decimal.Shift _ _ _) as [d'|]; exists []; auto. }
    destruct N as (t & [N|N]); rewrite N in G; [|discriminate]. apply Ret_inj in G.
    assert (L : forall l, last l 0 = last (t ++ [37; 120]) 0 -> last l 0 = 120) by (intros l ->; change [37; 120] with ([37] ++ [120]); rewrite app_assoc; apply last_last).
    specialize (L _ (f_equal (fun l => last l 0) G)). destruct (negb (M =? 0)); [discriminate L|]. destruct (negb (Z.shiftr _ _ =? 0)); discriminate L.
  - destruct (E =? 0); apply FtoaArrFacts.digits_max; auto.
Qed.

Lemma c75e : forall w opt val fmt prec bitSize mb eb b s v, w = 32 \/ w = 64 ->
  as_float bitSize val mb eb b s -> ieee mb eb b = VNum s (sgnR s v) ->
  fmt = 101 \/ fmt = 69 -> 0 <= prec < 2 ^ (w - 1) - 1 ->
  exists t fp, FtoaArr.FormatFloat w opt val fmt prec bitSize = Ret t /\
    Z.of_nat (length fp) = prec /\ prints_e fmt s fp (sig_round (prec + 1) v) t.
Proof. intros w opt val fmt prec bitSize mb eb b s v Hw Ha Hx Hf Hp. rewrite (same_as w opt val fmt prec bitSize mb eb b s) by (auto; lia). apply (c51e w opt val fmt prec bitSize mb eb b); auto. Qed.

Lemma c75f : forall w opt val prec bitSize mb eb b s v, w = 32 \/ w = 64 ->
  as_float bitSize val mb eb b s -> ieee mb eb b = VNum s (sgnR s v) ->
  0 <= prec < 2 ^ (w - 1) ->
  exists t fp, FtoaArr.FormatFloat w opt val 102 prec bitSize = Ret t /\
    Z.of_nat (length fp) = prec /\ prints_f s fp (round10 (- prec) v) t.
Proof. intros w opt val prec bitSize mb eb b s v Hw Ha Hx Hp. rewrite (same_as w opt val 102 prec bitSize mb eb b s) by (auto; lia). apply (c51f w opt val prec bitSize mb eb b); auto. Qed.

Lemma c75g : forall w opt val fmt prec bitSize mb eb b s v, w = 32 \/ w = 64 ->
  as_float bitSize val mb eb b s -> ieee mb eb b = VNum s (sgnR s v) ->
  fmt = 103 \/ fmt = 71 -> 0 <= prec ->
  exists t fp, FtoaArr.FormatFloat w opt val fmt prec bitSize = Ret t /\ no_zero_end fp /\
    prints_g (fmt - 2) (Z.max prec 1) s fp (sig_round (Z.max prec 1) v) t.
Proof. intros w opt val fmt prec bitSize mb eb b s v Hw Ha Hx Hf Hp. rewrite (same_as w opt val fmt prec bitSize mb eb b s) by (auto; lia). apply (c51g w opt val fmt prec bitSize mb eb b); auto. Qed.

Lemma c75r : forall w opt val fmt prec bitSize mb eb b s v, w = 32 \/ w = 64 ->
  as_float bitSize val mb eb b s -> ieee mb eb b = VNum s (sgnR s v) ->
  fmt = 101 \/ fmt = 69 \/ fmt = 102 \/ fmt = 103 \/ fmt = 71 -> prec < 0 ->
  exists t fp x, FtoaArr.FormatFloat w opt val fmt prec bitSize = Ret t /\ no_zero_end fp /\
    prints_short fmt s fp x t /\ (0 <= x)%R /\ ieee_round mb eb s (sgnR s x) = ieee mb eb b /\ fewest_digits mb eb v x.
Proof.
  intros w opt val fmt prec bitSize mb eb b s v Hw Ha Hx Hf Hp. rewrite (same_as w opt val fmt prec bitSize mb eb b s) by (auto; intros _; apply neg_small; auto).
  destruct (c52 w opt val fmt prec bitSize mb eb b s v Hw Ha Hx Hf Hp) as (t & fp & x & E & N & P & X & R). exists t, fp, x. repeat (split; [assumption|]).
  apply (c53 w opt val fmt prec bitSize mb eb b s v t fp x); auto.
Qed.
