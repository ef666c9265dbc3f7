(** C05, C07, C15, C21: for which numbers the conversions give the nearest number. *)
From Coq Require Import ZArith Reals Lia Lra Bool List.
From Flocq Require Import Core.
From Verif Require Import GoBase.
From Verif Require BigFloat Binary16 Binary128 Float80x86.
From Verif Require Import Spec BitFacts RoundFacts IeeeFacts BigFacts BigFacts2 BigFacts3 PkgFacts SpecOrder ClaimsMore ClaimsMono ClaimsOrder AllBig ClaimsMono2 ClaimsAcc.
From Verif Require Facts16 Claims16 Claims128 Claims80 PkgExact ClaimsTwice ClaimsLenF ClaimsRead ExtAssign.
Import BigFloat (bitlen, gexp, prec, rmode, acc, neg, frm, Finite, MaxExp, MinExp, MaxPrec).
Open Scope Z_scope.

Lemma rz_abs mb eb v : 0 <= mb -> Rabs (rz mb eb v) = rz mb eb (Rabs v).
Proof. intros Hm. unfold rz. symmetry. apply round_ZR_abs. apply valid_FLT. exact Hm. Qed.

Lemma same_sign mb eb v w : 1 <= mb -> ((0 <= v -> 0 <= w) /\ (v <= 0 -> w <= 0))%R -> w = rn mb eb v <-> Rabs w = Rabs (rn mb eb v).
Proof.
  intros Hm [S1 S2]. split; [intros ->; reflexivity|]. intros H. destruct (ClaimsTwice.rn_sign mb eb v Hm) as [R1 R2].
  destruct (Rle_or_lt 0 v) as [V|V]; [specialize (S1 V); specialize (R1 V); rewrite !Rabs_pos_eq in H by assumption; exact H|].
  specialize (S2 (Rlt_le _ _ V)); specialize (R2 (Rlt_le _ _ V)). rewrite !Rabs_left1 in H by assumption. lra.
Qed.

Lemma rz_sign mb eb v : 0 <= mb -> ((0 <= v -> 0 <= rz mb eb v) /\ (v <= 0 -> rz mb eb v <= 0))%R.
Proof. intros Hm. split; intros H; apply (rz_mono mb eb) in H; try exact Hm; rewrite rz_0 in H; exact H. Qed.

Lemma rz_rn mb eb v : 0 <= mb -> rz mb eb (rn mb eb v) = rn mb eb v.
Proof. intros Hm. pose proof (valid_FLT mb eb Hm). unfold rz. apply round_generic; [typeclasses eauto|]. unfold rn. apply generic_format_round; typeclasses eauto. Qed.

Lemma rn_rz mb eb v : 0 <= mb -> rn mb eb (rz mb eb v) = rz mb eb v.
Proof. intros Hm. pose proof (valid_FLT mb eb Hm). unfold rn. apply round_generic; [typeclasses eauto|]. unfold rz. apply generic_format_round; typeclasses eauto. Qed.

(** Truncating gives the nearest number exactly if that is not the greater neighbour. *)
Lemma rz_near mb eb v : 1 <= mb -> rz mb eb v = rn mb eb v <-> (Rabs (rn mb eb v) <= Rabs v)%R.
Proof.
  intros Hm. rewrite (same_sign mb eb v) by (try exact Hm; apply rz_sign; lia). split.
  - intros <-. apply rz_abs_le. lia.
  - intros H. apply Rle_antisym.
    + rewrite rz_abs, ClaimsTwice.rn_abs, <- (rn_rz mb eb (Rabs v)) by lia. apply PkgExact.rn_mono; [exact Hm|]. rewrite <- rz_abs by lia. apply rz_abs_le. lia.
    + rewrite rz_abs by lia. rewrite ClaimsTwice.rn_abs in * by exact Hm. rewrite <- (rz_rn mb eb (Rabs v)) by lia. apply rz_mono; [lia|exact H].
Qed.

Lemma huge_round mb eb s v : 1 <= mb -> 2 <= eb -> (p2 (2 ^ (eb - 1)) <= Rabs v)%R -> ieee_round mb eb s v = VInf s.
Proof. intros Hm He H. apply ClaimsTwice.ieee_round_inf. apply ClaimsTwice.rn_abs_ge; try assumption. apply Z.pow_nonneg. lia. Qed.

Lemma tiny_round mb eb v : 1 <= mb -> 2 <= eb -> let lo := 2 - 2 ^ (eb - 1) - mb in (0 < Rabs v < p2 lo)%R ->
  Rabs (rn mb eb v) = (IZR (if Rle_bool (Rabs v) (p2 (lo - 1)) then 0 else 1) * p2 lo)%R.
Proof.
  intros Hm He lo [H1 H2]. rewrite ClaimsTwice.rn_abs by exact Hm. assert (L : lo - 1 = 1 - 2 ^ (eb - 1) - mb) by (unfold lo; lia).
  assert (Z1 : 2 <= 2 ^ (eb - 1)) by (apply (Z.pow_le_mono_r 2 1 (eb - 1)); lia).
  destruct (Rle_bool_spec (Rabs v) (p2 (lo - 1))) as [S|S]; rewrite L in S.
  - rewrite Rmult_0_l. destruct (Rle_lt_or_eq_dec _ _ S) as [S'|S']; [apply ExtAssign.rn_small; [exact Hm|exact He|lra]|]. rewrite S'. apply ClaimsRead.rn_half_least; assumption.
  - rewrite Rmult_1_l. apply ClaimsLenF.rn_least; [exact Hm|exact He|apply p2_pos| |].
    + split; [exists 1, lo; split; [ring|]; split; [|lia]; change (Z.abs 1) with 1; apply (Z.pow_gt_1 2 (mb + 1)); lia|]. rewrite Rabs_pos_eq by (apply Rlt_le, p2_pos). apply bpow_lt. unfold lo. lia.
    + rewrite Rabs_left by lra. replace lo with (1 + (lo - 1)) by lia. rewrite p2_plus, L. change (p2 1) with 2%R. lra.
Qed.

Lemma tiny_num mb eb s v : 1 <= mb -> 2 <= eb -> (0 < Rabs v < p2 (2 - 2 ^ (eb - 1) - mb))%R -> ieee_round mb eb s v = VNum s (rn mb eb v).
Proof.
  intros Hm He H. apply BigFacts.ieee_round_num. rewrite (tiny_round mb eb v Hm He H). assert (Z1 : 2 <= 2 ^ (eb - 1)) by (apply (Z.pow_le_mono_r 2 1 (eb - 1)); lia).
  apply Rle_lt_trans with (p2 (2 - 2 ^ (eb - 1) - mb)); [|apply bpow_lt; lia]. pose proof (p2_pos (2 - 2 ^ (eb - 1) - mb)). destruct (Rle_bool _ _); lra.
Qed.

(** In the range. *)
Lemma mid_round mb eb s v : 1 <= mb -> 2 <= eb -> (Rabs v < p2 (2 ^ (eb - 1)))%R ->
  VNum s (rz mb eb v) = ieee_round mb eb s v <-> (Rabs (rn mb eb v) <= Rabs v)%R.
Proof.
  intros Hm He H. rewrite <- rz_near by exact Hm. destruct (Rle_or_lt (p2 (2 ^ (eb - 1))) (Rabs (rn mb eb v))) as [L|L].
  - rewrite (ClaimsTwice.ieee_round_inf mb eb s v L). split; [discriminate|]. intros E. exfalso. rewrite <- E in L. pose proof (rz_abs_le mb eb v ltac:(lia)). lra.
  - rewrite (BigFacts.ieee_round_num mb eb s v L). split; [intros E; apply VNum_inj in E; tauto|intros ->; reflexivity].
Qed.

(** Of the numbers composed from a huge number. *)
Lemma huge_inf mb eb (s : bool) E f : 1 <= mb -> 2 <= eb -> 0 <= E < 2 ^ eb -> 2 ^ mb <= f < 2 ^ (mb + 1) ->
  ieee mb eb ((if s then 2 ^ (mb + eb) else 0) + E * 2 ^ mb + (f - 2 ^ mb)) = VInf s <-> E = 2 ^ eb - 1 /\ f = 2 ^ mb.
Proof.
  intros Hm He HE Hf. assert (P : 2 ^ (mb + 1) = 2 * 2 ^ mb) by (rewrite Z.pow_add_r by lia; lia).
  replace ((if s then 2 ^ (mb + eb) else 0) + E * 2 ^ mb + (f - 2 ^ mb)) with (enc mb eb s E (f - 2 ^ mb)).
  2:{ unfold enc. destruct s; cbn [Z.b2z]; rewrite ?(Z.pow_add_r 2 mb eb) by lia; ring. }
  rewrite ieee_enc by lia. unfold ieee_parts. destruct (Z.eqb_spec E (2 ^ eb - 1)) as [X|X].
  - destruct (Z.eqb_spec (f - 2 ^ mb) 0) as [Y|Y]; split; try discriminate; try lia. intros _. reflexivity.
  - split; [destruct (E =? 0); discriminate|lia].
Qed.

Lemma floor_pow v k n : 0 <= n -> (p2 k <= Rabs v < p2 (k + 1))%R ->
  Zfloor (Rabs v * p2 (n - k)) = 2 ^ n <-> (Rabs v < p2 k * (1 + p2 (- n)))%R.
Proof.
  intros Hn H. pose proof (floor_mant v k n Hn H) as F. pose proof (p2_pos (n - k)) as P.
  assert (X : (p2 k * (1 + p2 (- n)) * p2 (n - k) = IZR (2 ^ n + 1))%R).
  { rewrite plus_IZR, IZR_pow2 by lia. rewrite Rmult_plus_distr_l, Rmult_1_r, Rmult_plus_distr_r, <- !p2_plus. f_equal; [f_equal; lia|]. replace (k + - n + (n - k)) with 0 by lia. reflexivity. }
  split.
  - intros E. apply (Rmult_lt_reg_r (p2 (n - k))); [exact P|]. rewrite X. rewrite plus_IZR, <- E. apply Zfloor_ub.
  - intros L. apply (Rmult_lt_compat_r (p2 (n - k))) in L; [|exact P]. rewrite X in L. apply Z.le_antisymm; [|lia]. apply Z.lt_succ_r, lt_IZR. apply Rle_lt_trans with (1 := Zfloor_lb _). exact L.
Qed.

(** A number composed from a tiny one. *)
Lemma tiny_num_iff mb eb (s : bool) v n : 1 <= mb -> 2 <= eb -> (if s then (v < 0)%R else (0 < v)%R) -> (0 < Rabs v < p2 (2 - 2 ^ (eb - 1) - mb))%R -> 0 <= n ->
  VNum s (sgnR s (IZR n * p2 (2 - 2 ^ (eb - 1) - mb))) = ieee_round mb eb s v <-> n = if Rle_bool (Rabs v) (p2 (1 - 2 ^ (eb - 1) - mb)) then 0 else 1.
Proof.
  intros Hm He Hs H Hn. rewrite (tiny_num mb eb s v Hm He H). set (lo := 2 - 2 ^ (eb - 1) - mb) in *. pose proof (p2_pos lo) as P. assert (N : (0 <= IZR n)%R) by (apply (IZR_le 0); exact Hn).
  pose proof (tiny_round mb eb v Hm He H) as T. cbv zeta in T. fold lo in T. replace (lo - 1) with (1 - 2 ^ (eb - 1) - mb) in T by (unfold lo; lia).
  assert (S : ((0 <= v -> 0 <= sgnR s (IZR n * p2 lo)) /\ (v <= 0 -> sgnR s (IZR n * p2 lo) <= 0))%R) by (destruct s; cbn [sgnR]; split; intros; try lra; nra).
  split.
  - intros E. apply VNum_inj in E. destruct E as [_ E]. apply (same_sign mb eb v _ Hm S) in E. rewrite T in E.
    replace (Rabs (sgnR s (IZR n * p2 lo))) with (IZR n * p2 lo)%R in E by (destruct s; cbn [sgnR]; rewrite ?Rabs_Ropp, Rabs_pos_eq by nra; reflexivity).
    apply Rmult_eq_reg_r in E; [|lra]. apply eq_IZR. exact E.
  - intros E. f_equal. apply (same_sign mb eb v _ Hm S). rewrite T, <- E. destruct s; cbn [sgnR]; rewrite ?Rabs_Ropp, Rabs_pos_eq by nra; reflexivity.
Qed.

Lemma k_cases v k lo hi : (p2 k <= Rabs v < p2 (k + 1))%R -> lo <= hi ->
  (k < lo /\ (Rabs v < p2 lo)%R) \/ (lo <= k < hi /\ (p2 lo <= Rabs v < p2 hi)%R) \/ (hi <= k /\ (p2 hi <= Rabs v)%R).
Proof.
  intros H L. destruct (Z_lt_le_dec k lo) as [A|A]; [left; split; [exact A|apply Rlt_le_trans with (1 := proj2 H); apply p2_le; lia]|right].
  destruct (Z_lt_le_dec k hi) as [C|C]; [left|right]; (split; [lia|]).
  - split; [apply (big_k v k lo H); exact A|]. apply Rlt_le_trans with (1 := proj2 H). apply p2_le. lia.
  - apply (big_k v k hi H). exact C.
Qed.

(** * binary16 *)
Lemma c07_exactly : forall x s v k, wf x -> bval x = VNum s v -> (p2 k <= Rabs v < p2 (k + 1))%R ->
  ieee 10 5 (fst (Binary16.NewFromBig x)) = ieee_round 10 5 s v <->
  (16 <= k /\ k mod 32 = 16 /\ (Rabs v < p2 k * (1 + p2 (-10)))%R) \/
  (-24 <= k < 16 /\ (Rabs (rn 10 5 v) <= Rabs v)%R) \/
  (k < -24 /\ Zfloor (Rabs v * p2 (19 - k)) mod 2 ^ 11 = if Rle_bool (Rabs v) (p2 (-25)) then 0 else 1).
Proof.
  intros x s v k W B Hk. assert (V0 : v <> 0%R) by (intros ->; rewrite Rabs_R0 in Hk; pose proof (p2_pos k); lra).
  pose proof (sign_val x s v W B V0) as Hs. pose proof (c07_all x s v k W B Hk) as A. cbv zeta in A.
  destruct (k_cases v k (-24) 16 Hk ltac:(lia)) as [[K KV]|[[K KV]|[K KV]]].
  - destruct (Binary16.NewFromBig x) as [b a]. cbn [fst]. destruct A as (_ & _ & A3). destruct (A3 K) as [Eb _].
    pose proof (Z.mod_pos_bound (Zfloor (Rabs v * p2 (19 - k))) (2 ^ 11) ltac:(lia)) as R. set (n := Zfloor _ mod _) in *.
    pose proof (parts_low 10 5 s n ltac:(lia) ltac:(lia) R) as P. change (10 + 5) with 15 in P. rewrite Eb, P.
    pose proof (tiny_num_iff 10 5 s v n ltac:(lia) ltac:(lia) Hs) as T. change (2 - 2 ^ (5 - 1) - 10) with (-24) in *. change (1 - 2 ^ (5 - 1) - 10) with (-25) in T.
    rewrite T by first [lia | split; [apply Rabs_pos_lt; exact V0|exact KV]]. split; [intros E; right; right; split; [exact K|exact E]|]. intros [E|[E|E]]; first [apply E | clear - E K; lia].
  - pose proof (val16 x s v W B (or_intror KV)) as Ev. rewrite Ev. rewrite (mid_round 10 5 s v) by first [lia | apply KV]. split; [intros E; right; left; split; [exact K|exact E]|]. intros [E|[E|E]]; first [apply E | clear - E K; lia].
  - destruct (Binary16.NewFromBig x) as [b a]. cbn [fst]. destruct A as (A1 & _). destruct (A1 ltac:(lia)) as (Eb & _). pose proof (floor_mant v k 10 ltac:(lia) Hk) as Fm.
    rewrite (huge_round 10 5 s v) by first [lia | exact KV]. pose proof (huge_inf 10 5 s ((k + 15) mod 2 ^ 5) _ ltac:(lia) ltac:(lia) (Z.mod_pos_bound (k + 15) (2 ^ 5) ltac:(lia)) Fm) as P. change (10 + 5) with 15 in P. rewrite Eb, P.
    rewrite (floor_pow v k 10 ltac:(lia) Hk). change (2 ^ 5) with 32. assert (M : (k + 15) mod 32 = 31 <-> k mod 32 = 16) by (pose proof (Z.div_mod k 32 ltac:(lia)); pose proof (Z.div_mod (k + 15) 32 ltac:(lia)); pose proof (Z.mod_pos_bound k 32 ltac:(lia)); pose proof (Z.mod_pos_bound (k + 15) 32 ltac:(lia)); lia).
    change (32 - 1) with 31. rewrite M. split; [intros E; left; split; [exact K|exact E]|]. intros [E|[E|E]]; first [apply E | clear - E K; lia].
Qed.

(** * binary128 *)
Lemma c15_exactly : forall x s v k, wf x -> bval x = VNum s v -> (p2 k <= Rabs v < p2 (k + 1))%R ->
  exists f a, Binary128.NewFromBig x = Ret (f, a) /\
  (quad (Binary128.fa f) (Binary128.fb f) = ieee_round 112 15 s v <->
  (16384 <= k /\ k mod 2 ^ 15 = 2 ^ 14 /\ (Rabs v < p2 k * (1 + p2 (-112)))%R) \/
  (-16494 <= k < 16384 /\ (Rabs (rn 112 15 v) <= Rabs v)%R) \/
  (k < -16494 /\ Zfloor (Rabs v * p2 (223 - k)) mod 2 ^ 112 = if Rle_bool (Rabs v) (p2 (-16495)) then 0 else 1)).
Proof.
  intros x s v k W B Hk. assert (V0 : v <> 0%R) by (intros ->; rewrite Rabs_R0 in Hk; pose proof (p2_pos k); lra).
  pose proof (sign_val x s v W B V0) as Hs. destruct (c15_all x s v k W B Hk) as (b & a & E0 & A1 & _ & A3). eexists _, _. split; [exact E0|]. 
  destruct (k_cases v k (-16494) 16384 Hk ltac:(lia)) as [[K KV]|[[K KV]|[K KV]]].
  - cbn [Binary128.fa Binary128.fb]. rewrite quad_join. destruct (A3 K) as [Eb _].
    pose proof (Z.mod_pos_bound (Zfloor (Rabs v * p2 (223 - k))) (2 ^ 112) ltac:(lia)) as R. set (n := Zfloor _ mod _) in *.
    assert (R' : 0 <= n < 2 ^ (112 + 1)) by (change (2 ^ (112 + 1)) with (2 * 2 ^ 112); lia).
    pose proof (parts_low 112 15 s n ltac:(lia) ltac:(lia) R') as P. change (112 + 15) with 127 in P. rewrite Eb, P.
    pose proof (tiny_num_iff 112 15 s v n ltac:(lia) ltac:(lia) Hs) as T. change (2 - 2 ^ (15 - 1) - 112) with (-16494) in *. change (1 - 2 ^ (15 - 1) - 112) with (-16495) in T.
    rewrite T by first [lia | split; [apply Rabs_pos_lt; exact V0|exact KV]]. split; [intros E; right; right; split; [exact K|exact E]|]. intros [E|[E|E]]; first [apply E | clear - E K; lia].
  - destruct (val128 x s v W B (or_intror KV)) as (f & a' & Ef & Ev). rewrite E0 in Ef. assert (X : f = Binary128.mkFloat (b / 2 ^ 64) (b mod 2 ^ 64)) by congruence. rewrite X in Ev. rewrite Ev. rewrite (mid_round 112 15 s v) by first [lia | apply KV]. split; [intros E; right; left; split; [exact K|exact E]|]. intros [E|[E|E]]; first [apply E | clear - E K; lia].
  - cbn [Binary128.fa Binary128.fb]. rewrite quad_join. destruct (A1 ltac:(lia)) as (Eb & _). pose proof (floor_mant v k 112 ltac:(lia) Hk) as Fm.
    rewrite (huge_round 112 15 s v) by first [lia | exact KV]. pose proof (huge_inf 112 15 s ((k + 16383) mod 2 ^ 15) _ ltac:(lia) ltac:(lia) (Z.mod_pos_bound (k + 16383) (2 ^ 15) ltac:(lia)) Fm) as P. change (112 + 15) with 127 in P. rewrite Eb, P.
    rewrite (floor_pow v k 112 ltac:(lia) Hk). change (2 ^ 15) with 32768. assert (M : (k + 16383) mod 32768 = 32767 <-> k mod 32768 = 2 ^ 14) by (clear; change (2 ^ 14) with 16384; pose proof (Z.div_mod k 32768 ltac:(lia)); pose proof (Z.div_mod (k + 16383) 32768 ltac:(lia)); pose proof (Z.mod_pos_bound k 32768 ltac:(lia)); pose proof (Z.mod_pos_bound (k + 16383) 32768 ltac:(lia)); lia).
    change (32768 - 1) with 32767. rewrite M. split; [intros E; left; split; [exact K|exact E]|]. intros [E|[E|E]]; first [apply E | clear - E K; lia].
Qed.

(** * float80x86 *)
Lemma c21_exactly : forall x s v k, wf x -> bval x = VNum s v -> (p2 k <= Rabs v < p2 (k + 1))%R ->
  let f := fst (Float80x86.NewFromBig x) in
  x87 (Float80x86.se f) (Float80x86.m f) = ieee_round 63 15 s v <->
  (16384 <= k /\ k mod 2 ^ 15 = 2 ^ 14 /\ (Rabs v < p2 k * (1 + p2 (-63)))%R) \/
  (-16445 <= k < 16384 /\ (Rabs (rn 63 15 v) <= Rabs v)%R).
Proof.
  intros x s v k W B Hk f. assert (V0 : v <> 0%R) by (intros ->; rewrite Rabs_R0 in Hk; pose proof (p2_pos k); lra).
  pose proof (sign_val x s v W B V0) as Hs. destruct (c21_all x s v k W B Hk) as (se & m & a & E0 & A1 & _ & A3).
  destruct (k_cases v k (-16445) 16384 Hk ltac:(lia)) as [[K KV]|[[K KV]|[K KV]]].
  - unfold f. rewrite E0. cbn [fst Float80x86.se Float80x86.m]. destruct (A3 K) as (Ese & Em & _). replace se with ((if s then 2 ^ 15 else 0) + 0) by lia. rewrite x87_parts by lia. change (0 =? 2 ^ 15 - 1) with false. cbv iota. change (Z.max 0 1 - 16446) with (-16445).
    pose proof (tiny_num_iff 63 15 s v m ltac:(lia) ltac:(lia) Hs) as T. change (2 - 2 ^ (15 - 1) - 63) with (-16445) in *. rewrite T by first [lia | split; [apply Rabs_pos_lt; exact V0|exact KV]].
    rewrite Em. split; [|intros [E|E]; clear - E K; lia]. destruct (Rle_bool _ _); discriminate.
  - pose proof (val80 x s v W B (or_intror KV)) as Ev. cbv zeta in Ev. fold f in Ev. rewrite Ev. rewrite (mid_round 63 15 s v) by first [lia | apply KV]. split; [intros E; right; split; [exact K|exact E]|]. intros [E|E]; first [apply E | clear - E K; lia].
  - unfold f. rewrite E0. cbn [fst Float80x86.se Float80x86.m]. destruct (A1 ltac:(lia)) as (Ese & Em & _). rewrite (huge_round 63 15 s v) by first [lia | exact KV].
    rewrite Ese, x87_parts by (apply Z.mod_pos_bound; lia). rewrite <- (floor_pow v k 63 ltac:(lia) Hk), <- Em.
    assert (M : (k + 16383) mod 2 ^ 15 = 2 ^ 15 - 1 <-> k mod 2 ^ 15 = 2 ^ 14) by (clear; change (2 ^ 15) with 32768; change (2 ^ 14) with 16384; pose proof (Z.div_mod k 32768 ltac:(lia)); pose proof (Z.div_mod (k + 16383) 32768 ltac:(lia)); pose proof (Z.mod_pos_bound k 32768 ltac:(lia)); pose proof (Z.mod_pos_bound (k + 16383) 32768 ltac:(lia)); lia).
    destruct (Z.eqb_spec ((k + 16383) mod 2 ^ 15) (2 ^ 15 - 1)) as [X|X].
    + destruct (Z.eqb_spec m (2 ^ 63)) as [Y|Y]; split; try discriminate.
      * intros _. left. split; [exact K|]. split; [apply M, X|exact Y].
      * intros _. reflexivity.
      * intros [(_ & _ & E)|E]; [contradiction|clear - E K; lia].
    + split; [discriminate|]. intros [(_ & E & _)|E]; [exfalso; apply X, M, E|clear - E K; lia].
Qed.

(** * binary16.NewFromFloat64 *)
Lemma rz_idem mb eb v : 0 <= mb -> rz mb eb (rz mb eb v) = rz mb eb v.
Proof. intros Hm. pose proof (valid_FLT mb eb Hm). unfold rz at 1. apply round_generic; [typeclasses eauto|]. unfold rz. apply generic_format_round; typeclasses eauto. Qed.

Lemma rnd_few md p v : 0 < p -> exists K c, rnd_prec md p v = (IZR K * p2 c)%R /\ Z.abs K < 2 ^ p.
Proof.
  intros Hp. assert (P : Prec_gt_0 p) by exact Hp. pose proof (valid_mode_rnd md). unfold rnd_prec.
  pose proof (generic_format_round radix2 (FLX_exp p) (mode_rnd md) v) as G. apply FLX_format_generic in G; [|exact P]. destruct G as [[K c] E HK]. exists K, c. split; [rewrite E; reflexivity|exact HK].
Qed.

Lemma rnd_abs p v : 0 < p -> Rabs (rnd_prec BigFloat.ToNearestEven p v) = rnd_prec BigFloat.ToNearestEven p (Rabs v).
Proof. intros Hp. assert (P : Prec_gt_0 p) by exact Hp. unfold rnd_prec. symmetry. apply round_NE_abs. typeclasses eauto. Qed.

Lemma rnd_error p v k : 0 < p -> (p2 k <= Rabs v < p2 (k + 1))%R -> (Rabs (rnd_prec BigFloat.ToNearestEven p v - v) <= p2 (k - p))%R.
Proof.
  intros Hp H. assert (P : Prec_gt_0 p) by exact Hp. assert (V0 : v <> 0%R) by (intros ->; rewrite Rabs_R0 in H; pose proof (p2_pos k); lra).
  pose proof (error_le_half_ulp radix2 (FLX_exp p) (fun x => negb (Z.even x)) v) as E. rewrite ulp_neq_0 in E by exact V0. unfold cexp, FLX_exp in E.
  rewrite (mag_unique radix2 v (k + 1)) in E by (replace (k + 1 - 1) with k by lia; exact H). unfold rnd_prec. cbn [mode_rnd]. apply Rle_trans with (1 := E).
  right. replace (k + 1 - p) with (1 + (k - p)) by lia. change bpow with bpow. fold (p2 (1 + (k - p))). rewrite p2_plus. change (p2 1) with 2%R. lra.
Qed.

Lemma twice_near v : (p2 (-24) <= Rabs v < p2 (-14))%R -> let r := rnd_prec BigFloat.ToNearestEven 11 v in
  rz 10 5 r = rn 10 5 v <-> (Rabs (rn 10 5 v) <= Rabs r)%R.
Proof.
  intros H r. assert (V0 : v <> 0%R) by (intros ->; rewrite Rabs_R0 in H; pose proof (p2_pos (-24)); lra).
  assert (Sr : ((0 <= v -> 0 <= rz 10 5 r) /\ (v <= 0 -> rz 10 5 r <= 0))%R).
  { split; intros L; apply (rz_sign 10 5 r ltac:(lia)); unfold r; [pose proof (rnd_prec_mono BigFloat.ToNearestEven 11 0 v ltac:(lia) L) as M|pose proof (rnd_prec_mono BigFloat.ToNearestEven 11 v 0 ltac:(lia) L) as M]; rewrite ClaimsMono.rnd_prec_0 in M; exact M. }
  rewrite (same_sign 10 5 v _ ltac:(lia) Sr). split; [intros <-; apply rz_abs_le; lia|]. intros L.
  assert (L' := L). rewrite rz_abs, ClaimsTwice.rn_abs in * by lia. unfold r in *. rewrite rnd_abs in * by lia. set (a := Rabs v) in *. set (q := rnd_prec BigFloat.ToNearestEven 11 a) in *.
  assert (Hq : (p2 (-24) <= q <= p2 (-14))%R).
  { unfold q. split; [rewrite <- (rnd_power BigFloat.ToNearestEven 11 (-24)) by lia|rewrite <- (rnd_power BigFloat.ToNearestEven 11 (-14)) by lia]; apply rnd_prec_mono; try lia; lra. }
  pose proof (p2_pos (-24)) as P24.
  apply Rle_antisym; [|rewrite <- (rz_rn 10 5 a) by lia; apply rz_mono; [lia|exact L]].
  assert (Fu : fits 10 5 (rz 10 5 q)). { apply rz_fits; [lia| |apply rz_idem; lia]. apply Rle_lt_trans with (1 := rz_abs_le 10 5 q ltac:(lia)). rewrite Rabs_pos_eq by lra. apply Rle_lt_trans with (1 := proj2 Hq). apply bpow_lt. lia. }
  set (u := rz 10 5 q) in *. assert (Uq : (u <= q)%R). { pose proof (rz_abs_le 10 5 q ltac:(lia)) as X. fold u in X. rewrite (Rabs_pos_eq q) in X by lra. pose proof (Rle_abs u). lra. }
  destruct (Rle_or_lt u a) as [C|C].
  - rewrite <- (fits_rn 10 5 u ltac:(lia) Fu). apply PkgExact.rn_mono; [lia|exact C].
  - assert (Eq : q = u). { apply Rle_antisym; [|exact Uq]. rewrite <- (fits_rnd_prec BigFloat.ToNearestEven 10 5 11 u ltac:(lia) ltac:(lia) Fu). unfold q. apply rnd_prec_mono; [lia|lra]. }
    right. symmetry. apply ClaimsLenF.rn_least; [lia|lia|lra|exact Fu|]. rewrite <- Eq. destruct (mag_ex v V0) as (k & Hk). assert (K : k < -14) by (apply Z.nle_gt; intros D; apply (big_k v k (-14) Hk) in D; fold a in D; lra).
    rewrite Rabs_minus_sym. unfold q. apply Rle_lt_trans with (p2 (k - 11)); [apply rnd_error; [lia|]; rewrite Rabs_pos_eq by (unfold a; apply Rabs_pos); exact Hk|]. apply bpow_lt. change (1 - 2 ^ (5 - 1) - 10) with (-25). lia.
Qed.

Lemma c05_exactly : forall x s v k, 0 <= x < 2 ^ 64 -> ieee 52 11 x = VNum s v -> (p2 k <= Rabs v < p2 (k + 1))%R ->
  let r := rnd_prec BigFloat.ToNearestEven 11 v in
  exists b a, Binary16.NewFromFloat64 x = Ret (b, a) /\
  (ieee 10 5 b = ieee_round 10 5 s v <->
   (16 <= k /\ exists j, Rabs r = p2 j /\ j mod 32 = 16) \/
   -14 <= k < 16 \/
   (-24 <= k < -14 /\ (Rabs (rn 10 5 v) <= Rabs r)%R) \/
   (k < -24 /\ (Rabs r = p2 (-24) \/ (Rabs v <= p2 (-25))%R /\ exists n, Rabs r = (IZR n * p2 (k - 8))%R))).
Proof.
  intros x s v k Hx Ev Hk r. assert (V0 : v <> 0%R) by (intros ->; rewrite Rabs_R0 in Hk; pose proof (p2_pos k); lra).
  pose proof (rnd_ge BigFloat.ToNearestEven 11 v k ltac:(lia) (proj1 Hk)) as R1. pose proof (PkgFacts.rnd_prec_le BigFloat.ToNearestEven 11 v (k + 1) ltac:(lia) (Rlt_le _ _ (proj2 Hk))) as R2. fold r in R1, R2.
  assert (R0 : r <> 0%R) by (intros Z; rewrite Z, Rabs_R0 in R1; pose proof (p2_pos k); lra).
  destruct (k_cases v k (-14) 16 Hk ltac:(lia)) as [[K KV]|[[K KV]|[K KV]]].
  2:{ destruct (Claims16.c05_partial x s v Hx Ev (or_intror (or_introl KV))) as (b & a & E & _ & Q). exists b, a. split; [exact E|]. split; [intros _; right; left; exact K|intros _; exact Q]. }
  - destruct (k_cases v k (-24) (-14) Hk ltac:(lia)) as [[K2 KV2]|[[K2 KV2]|[K2 KV2]]]; [| |lia].
    + destruct (Facts16.nff64_num x s v Hx Ev) as (y0 & _ & W & V & _). fold r in V. pose proof (sign_val y0 s r W V R0) as Hsr. pose proof (rnd_back _ 11 v ltac:(lia) R0 s Hsr) as Hs.
      destruct (mag_ex r R0) as (kr & Hkr). destruct (c05_all x s v kr Hx Ev Hkr) as (b & a & E & A1 & A2 & A3). fold r in A1, A2, A3. exists b, a. split; [exact E|].
      assert (Kr : k <= kr <= k + 1).
      { split; [apply (big_k r kr k Hkr); exact R1|]. apply Z.nlt_ge. intros D. assert (p2 (k + 1) < p2 kr)%R by (apply bpow_lt; lia). lra. }
      pose proof (tiny_num_iff 10 5 s v) as T. change (2 - 2 ^ (5 - 1) - 10) with (-24) in T. change (1 - 2 ^ (5 - 1) - 10) with (-25) in T.
      assert (Q24 : (Rabs r <= p2 (-24))%R) by (apply PkgFacts.rnd_prec_le; [lia|lra]).
      assert (H25 : Rabs r = p2 (-24) -> (p2 (-25) < Rabs v)%R).
      { intros X. apply Rnot_le_lt. intros L. pose proof (PkgFacts.rnd_prec_le BigFloat.ToNearestEven 11 v (-25) ltac:(lia) L) as C. fold r in C. assert (p2 (-25) < p2 (-24))%R by (apply bpow_lt; lia). lra. }
      destruct (Z_lt_le_dec kr (-24)) as [D|D].
      * destruct (A3 D) as [Eb _]. pose proof (Z.mod_pos_bound (Zfloor (Rabs r * p2 (19 - kr))) (2 ^ 11) ltac:(lia)) as R. 
        assert (NR : Rabs r <> p2 (-24)) by (intros X; apply (Z.lt_irrefl kr); apply Z.lt_le_trans with (1 := D); apply (big_k r kr (-24) Hkr); lra).
        pose proof (proj1 (few_floor r kr 10 ltac:(lia) Hkr) (rnd_few BigFloat.ToNearestEven 11 v ltac:(lia))) as FF. set (M := Zfloor (Rabs r * p2 (10 - kr))) in *.
        assert (EM : Rabs r = (IZR M * p2 (kr - 10))%R) by (rewrite FF, Rmult_assoc, <- p2_plus; replace (10 - kr + (kr - 10)) with 0 by lia; change (p2 0) with 1%R; ring).
        assert (EF : Zfloor (Rabs r * p2 (19 - kr)) = M * 2 ^ 9).
        { rewrite EM, Rmult_assoc, <- p2_plus. replace (kr - 10 + (19 - kr)) with 9 by lia. rewrite <- (IZR_pow2 9) by lia. rewrite <- mult_IZR. apply Zfloor_IZR. }
        assert (EN : (M * 2 ^ 9) mod 2 ^ 11 = (M mod 4) * 2 ^ 9) by (change (2 ^ 11) with (4 * 2 ^ 9); apply Z.mul_mod_distr_r; lia).
        pose proof (floor_mant r kr 10 ltac:(lia) Hkr) as FM. fold M in FM.
        assert (NI : (exists n, Rabs r = (IZR n * p2 (k - 8))%R) <-> M mod 4 = 0).
        { split.
          - intros (n & En). assert (X : M = n * 2 ^ (k - kr + 2)).
            { apply eq_IZR. rewrite FF, En, mult_IZR, IZR_pow2, Rmult_assoc, <- p2_plus by lia. do 2 f_equal. lia. }
            destruct (Z.eq_dec kr k) as [Y|Y].
            + rewrite X, Y. replace (k - k + 2) with 2 by lia. apply Z.mod_mul. lia.
            + assert (Y' : kr = k + 1) by lia. assert (X2 : M = 2 ^ 10); [|rewrite X2; reflexivity].
              apply eq_IZR. rewrite FF, IZR_pow2 by lia. replace (Rabs r) with (p2 kr) by (rewrite Y' in *; lra). rewrite <- p2_plus. f_equal. lia.
          - intros X. exists (M / 4 * 2 ^ (kr - k)). pose proof (Z.div_mod M 4 ltac:(lia)) as DM. rewrite X in DM. rewrite EM, DM at 1. rewrite !mult_IZR, !plus_IZR, !mult_IZR, IZR_pow2 by lia.
            replace (kr - 10) with (kr - k + (k - 8) + -2) by lia. rewrite !p2_plus. change (p2 (-2)) with (/ 4)%R. lra. }
        pose proof (parts_low 10 5 s _ ltac:(lia) ltac:(lia) R) as P. change (10 + 5) with 15 in P. change (2 - 2 ^ (5 - 1) - 10) with (-24) in P. rewrite Eb, P.
        rewrite T by first [lia | exact Hs | split; [apply Rabs_pos_lt; exact V0|exact KV2]].
        rewrite EF, EN, NI. pose proof (Z.mod_pos_bound M 4 ltac:(lia)) as MB. destruct (Rle_bool_spec (Rabs v) (p2 (-25))) as [S|S].
        -- split; [intros X; right; right; right; split; [exact K2|]; right; split; [exact S|clear - X; lia]|]. intros [X|[X|[X|(_ & [X|(_ & X)])]]]; [clear - X K2; lia|clear - X K2; lia|clear - X K2; lia|contradiction|rewrite X; reflexivity].
        -- split; [intros X; exfalso; clear - X; lia|]. intros [X|[X|[X|(_ & [X|(X & _)])]]]; [clear - X K2; lia|clear - X K2; lia|clear - X K2; lia|contradiction|lra].
      * assert (Kr2 : kr = -24) by (apply Z.le_antisymm; [lia|exact D]). assert (ER : Rabs r = p2 (-24)) by (apply Rle_antisym; [exact Q24|rewrite <- Kr2; apply Hkr]).
        destruct (A2 ltac:(lia)) as [Eb _]. assert (F1 : Zfloor (Rabs r * p2 24) = 1) by (rewrite ER, <- p2_plus; apply (Zfloor_IZR 1)). rewrite F1 in Eb.
        pose proof (parts_low 10 5 s 1 ltac:(lia) ltac:(lia) ltac:(lia)) as P. change (10 + 5) with 15 in P. change (2 - 2 ^ (5 - 1) - 10) with (-24) in P. rewrite Eb, P.
        rewrite T by first [lia | exact Hs | split; [apply Rabs_pos_lt; exact V0|exact KV2]]. specialize (H25 ER). rewrite Rle_bool_false by exact H25. split; [|reflexivity]. intros _. right. right. right. split; [exact K2|]. left. exact ER.
    + assert (RH : (Rabs r < p2 16)%R) by (apply Rle_lt_trans with (p2 (-14)); [apply PkgFacts.rnd_prec_le; [lia|lra]|apply bpow_lt; lia]).
      destruct (Facts16.nff64_general x s v Hx Ev (proj1 KV2) RH) as (b & E & _ & Q). fold r in Q. exists b, BigFloat.Exact. split; [exact E|]. rewrite Q.
      assert (NN : (Rabs (rn 10 5 v) < p2 (2 ^ (5 - 1)))%R). { apply Rle_lt_trans with (p2 0); [|apply bpow_lt; lia]. apply ClaimsTwice.rn_abs_le; try lia. assert (p2 (-14) < p2 0)%R by (apply bpow_lt; lia). lra. }
      rewrite (BigFacts.ieee_round_num 10 5 s v NN). pose proof (twice_near v KV2) as TN. cbv zeta in TN. fold r in TN. split.
      * intros X. apply VNum_inj in X. right. right. left. split; [exact K2|]. apply TN. apply X.
      * intros [X|[X|[X|X]]]; [clear - X K2; lia|clear - X K2; lia| |clear - X K2; lia]. f_equal. apply TN. apply X.
  - destruct (mag_ex r R0) as (kr & Hkr). destruct (c05_all x s v kr Hx Ev Hkr) as (b & a & E & A1 & _). fold r in A1. exists b, a. split; [exact E|].
    assert (Kr : k <= kr) by (apply (big_k r kr k Hkr); exact R1). destruct (A1 ltac:(lia)) as (Eb & _). pose proof (floor_mant r kr 10 ltac:(lia) Hkr) as Fm.
    rewrite (huge_round 10 5 s v) by first [lia | exact KV]. pose proof (huge_inf 10 5 s ((kr + 15) mod 2 ^ 5) _ ltac:(lia) ltac:(lia) (Z.mod_pos_bound (kr + 15) (2 ^ 5) ltac:(lia)) Fm) as P. change (10 + 5) with 15 in P. rewrite Eb, P.
    pose proof (proj1 (few_floor r kr 10 ltac:(lia) Hkr) (rnd_few BigFloat.ToNearestEven 11 v ltac:(lia))) as FF.
    assert (M : (kr + 15) mod 32 = 31 <-> kr mod 32 = 16) by (clear; pose proof (Z.div_mod kr 32 ltac:(lia)); pose proof (Z.div_mod (kr + 15) 32 ltac:(lia)); pose proof (Z.mod_pos_bound kr 32 ltac:(lia)); pose proof (Z.mod_pos_bound (kr + 15) 32 ltac:(lia)); lia).
    change (2 ^ 5) with 32. change (32 - 1) with 31. rewrite M. split.
    + intros [X Y]. left. split; [exact K|]. exists kr. split; [|exact X]. rewrite Y, IZR_pow2 in FF by lia. replace (Rabs r) with (Rabs r * p2 (10 - kr) * p2 (kr - 10))%R by (rewrite Rmult_assoc, <- p2_plus; replace (10 - kr + (kr - 10)) with 0 by lia; change (p2 0) with 1%R; ring). rewrite <- FF, <- p2_plus. f_equal. lia.
    + intros [(_ & j & J1 & J2)|[X|[X|X]]]; [|clear - X K; lia|clear - X K; lia|clear - X K; lia].
      assert (X : kr = j). { rewrite J1 in Hkr. destruct Hkr as [H1 H2]. apply le_bpow in H1. apply lt_bpow in H2. lia. } subst j. split; [exact J2|]. rewrite J1, <- p2_plus. replace (kr + (10 - kr)) with 10 by lia. rewrite <- (IZR_pow2 10) by lia. apply Zfloor_IZR.
Qed.

Lemma near_example s m e n : 0 <= n < 120 -> 2 ^ n <= m < 2 ^ (n + 1) -> -1000000 < e < 1000000 ->
  wf (number s m e) /\ bval (number s m e) = VNum s (sgnR s (IZR m * p2 e)) /\ (p2 (n + e) <= Rabs (sgnR s (IZR m * p2 e)) < p2 (n + e + 1))%R.
Proof.
  intros Hn Hm He. pose proof (pow2_pos n ltac:(lia)). assert (2 ^ (n + 1) <= 2 ^ 120) by (apply Z.pow_le_mono_r; lia).
  split; [apply acc_example; lia|]. split; [reflexivity|]. replace (Rabs (sgnR s (IZR m * p2 e))) with (IZR m * p2 e)%R.
  2:{ pose proof (p2_pos e). assert (0 < IZR m)%R by (apply (IZR_lt 0); lia). destruct s; cbn [sgnR]; rewrite ?Rabs_Ropp, Rabs_pos_eq by nra; reflexivity. }
  replace (n + e + 1) with (n + 1 + e) by lia. rewrite (p2_plus n e), (p2_plus (n + 1) e), <- (IZR_pow2 n), <- (IZR_pow2 (n + 1)) by lia. pose proof (p2_pos e).
  split; [apply Rmult_le_compat_r; [lra|apply IZR_le; lia]|apply Rmult_lt_compat_r; [lra|apply IZR_lt; lia]].
Qed.
