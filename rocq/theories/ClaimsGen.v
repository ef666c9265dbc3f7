(** The generated test tables: every entry passes the tests of the templates. *)
From Coq Require Import ZArith Reals Lia Lra Bool List String FinFun.
From Flocq Require Import Core.
From Verif Require GenText.
From Verif Require Import GoBase.
From Verif Require BigFloat Binary16 Binary128.
From Verif Require Import GoFmt.
From Verif Require Import Spec BitFacts RoundFacts IeeeFacts BigFacts BigFacts2 BigFacts3 FmtFacts PkgFacts.
From Verif Require Facts16 Claims16 Facts128 Claims128 FtoaAll.
From Verif Require Import GenTests.
Import BigFloat (bitlen, gexp, prec, rmode, acc, neg, frm, Finite, MaxExp, MinExp, MaxPrec).
Import ListNotations.
Open Scope Z_scope.

(** * float64 arithmetic *)
Lemma sgn_xor a b x y : (sgnR a x * sgnR b y = sgnR (xorb a b) (x * y))%R.
Proof. destruct a, b; cbn; ring. Qed.

Lemma SetFloat_bounds a x m e : 0 <= a < 2 ^ 64 -> BigFloat.SetFloat 52 11 a = Ret x -> frm x = Finite m e -> 0 < m < 2 ^ 53 /\ -1074 <= e <= 1023.
Proof.
  intros Ha. destruct (enc_surj 52 11 a ltac:(lia) ltac:(lia) Ha) as (s & E & F & HE & HF & ->).
  unfold BigFloat.SetFloat. rewrite f_sign_enc, f_exp_enc, f_frac_enc by lia.
  change (2 ^ 11 - 1) with 2047. change (2 ^ (11 - 1) - 1) with 1023.
  assert (D : forall f z, Ret (BigFloat.mkBF 53 BigFloat.ToNearestEven BigFloat.Exact s f) = Ret z -> frm z = Finite m e -> f = Finite m e).
  { intros f z G H. assert (T : z = BigFloat.mkBF 53 BigFloat.ToNearestEven BigFloat.Exact s f) by congruence. rewrite T in H. exact H. }
  assert (FI : forall p q, Finite p q = Finite m e -> p = m /\ q = e) by (intros p q G; split; congruence).
  destruct (Z.eqb_spec E 2047); [destruct (Z.eqb_spec F 0)|destruct (Z.eqb_spec E 0); [destruct (Z.eqb_spec F 0)|]]; intros G H; try discriminate;
    pose proof (D _ _ G H) as K; try discriminate; destruct (FI _ _ K) as [<- <-]; lia.
Qed.

Lemma f64_mul_exact a b s t u v : 0 <= a < 2 ^ 64 -> 0 <= b < 2 ^ 64 -> ieee 52 11 a = VNum s u -> ieee 52 11 b = VNum t v ->
  fits 52 11 (u * v) -> exists c, f64_mul a b = Ret c /\ 0 <= c < 2 ^ 64 /\ ieee 52 11 c = VNum (xorb s t) (u * v).
Proof.
  intros Ha Hb Ea Eb F. unfold f64_mul.
  pose proof (SetFloat_correct 52 11 a ltac:(lia) ltac:(lia) Ha) as Sa. rewrite Ea in Sa. destruct Sa as (x & Sx & Vx & _).
  pose proof (SetFloat_correct 52 11 b ltac:(lia) ltac:(lia) Hb) as Sb. rewrite Eb in Sb. destruct Sb as (y & Sy & Vy & _).
  pose proof (SetFloat_bounds a x) as Bx. pose proof (SetFloat_bounds b y) as By. rewrite Sx, Sy.
  cbn [bind]. unfold bval in Vx, Vy.
  assert (Z0 : forall s, 0 <= BigFloat.with_sign 52 11 s 0 < 2 ^ 64 /\ ieee 52 11 (BigFloat.with_sign 52 11 s 0) = VNum s 0).
  { intros z. rewrite with_sign_enc0 by lia. split; [apply (enc_range 52 11 z 0 0); lia|]. rewrite ieee_enc by lia. unfold ieee_parts. cbn [Z.eqb].
    change (0 =? 2 ^ 11 - 1) with false. cbv iota. rewrite Rmult_0_l, sgnR_0. reflexivity. }
  destruct (frm x) as [|m e|]; [| |discriminate]; apply VNum_inj in Vx; destruct Vx as [<- <-];
  (destruct (frm y) as [|m' e'|]; [| |discriminate]); apply VNum_inj in Vy; destruct Vy as [<- <-];
    rewrite ?Rmult_0_l, ?Rmult_0_r in *; try (eexists; split; [reflexivity|apply Z0]).
  destruct (Bx m e Ha Sx eq_refl) as [M E]. destruct (By m' e' Hb Sy eq_refl) as [M' E'].
  set (q := BigFloat.mkBF 106 BigFloat.ToNearestEven BigFloat.Exact (xorb (neg x) (neg y)) (Finite (m * m') (e + e'))).
  assert (V : bval q = VNum (xorb (neg x) (neg y)) (sgnR (neg x) (IZR m * p2 e) * sgnR (neg y) (IZR m' * p2 e'))%R).
  { unfold bval, q. cbn [frm neg]. rewrite sgn_xor, mult_IZR, p2_plus. do 2 f_equal. ring. }
  assert (W : wf q).
  { unfold wf, q. cbn [frm prec]. split; [unfold MaxPrec; lia|]. split; [nia|].
    assert (L : m * m' < 2 ^ 106) by (change (2 ^ 106) with (2 ^ 53 * 2 ^ 53); nia).
    split; [exists (m * m'), 0; change (2 ^ 0) with 1; lia|].
    pose proof (bitlen_pos (m * m') ltac:(nia)). pose proof (proj2 (bitlen_le_lt (m * m') 106 ltac:(nia) ltac:(lia)) L).
    unfold gexp, MinExp, MaxExp. lia. }
  pose proof (ToFloat_exact 52 11 q _ _ ltac:(lia) ltac:(lia) ltac:(unfold MaxExp; lia) W V F) as H.
  destruct (BigFloat.ToFloat 52 11 q) as [c ac]. destruct H as (H1 & H2 & _). exists c. auto.
Qed.

Lemma pow_2_val n : -1022 <= n <= 1023 -> 0 <= pow_2 n < 2 ^ 64 /\ ieee 52 11 (pow_2 n) = VNum false (p2 n).
Proof.
  intros Hn. unfold pow_2. assert (E : (n + 1023) * 2 ^ 52 = enc 52 11 false (n + 1023) 0) by (unfold enc; cbn [Z.b2z]; lia).
  rewrite E. split; [apply (enc_range 52 11); lia|]. rewrite ieee_enc by lia. unfold ieee_parts.
  destruct (Z.eqb_spec (n + 1023) (2 ^ 11 - 1)); [lia|]. destruct (Z.eqb_spec (n + 1023) 0); [lia|].
  f_equal. unfold sgnR. rewrite Z.add_0_r. rewrite (IZR_pow2 52) by lia. rewrite <- p2_plus. f_equal. lia.
Qed.

Lemma pow_m1_val s : 0 <= pow_m1 (Z.b2z s) < 2 ^ 64 /\ ieee 52 11 (pow_m1 (Z.b2z s)) = VNum s (sgnR s 1).
Proof.
  destruct (pow_2_val 0 ltac:(lia)) as [A B]. change (pow_2 0) with 0x3FF0000000000000 in *. destruct s; cbn [Z.b2z pow_m1 Z.eqb].
  - split; [lia|]. change 0xBFF0000000000000 with (enc 52 11 true 1023 0). change 0x3FF0000000000000 with (enc 52 11 false 1023 0) in B.
    rewrite ieee_enc in * by lia. unfold ieee_parts in *. change (1023 =? 2 ^ 11 - 1) with false in *. change (1023 =? 0) with false in *. cbv iota in *.
    apply VNum_inj in B. destruct B as [_ B]. cbn [sgnR] in *. rewrite B. reflexivity.
  - split; [lia|exact B].
Qed.

(** * binary16 *)
Lemma lor_fields (s : bool) E F : 0 <= E < 2 ^ 5 -> 0 <= F < 2 ^ 10 ->
  Z.lor (Z.lor (u16 (Z.shiftl (u16 (Z.b2z s)) 15)) (u16 (Z.shiftl (u16 E) 10))) (u16 F) = enc 10 5 s E F.
Proof.
  intros HE HF. unfold u16. rewrite !Z.shiftl_mul_pow2 by lia.
  assert (0 <= Z.b2z s <= 1) by (destruct s; cbn; lia).
  rewrite !(Z.mod_small _ (2 ^ 16)) by (rewrite ?Z.mod_small by lia; lia).
  rewrite <- Z.lor_assoc. rewrite (lor_add E F 10), (lor_add (Z.b2z s) _ 15) by lia. unfold enc. lia.
Qed.

Definition entry16 (lead E expo : Z) : Prop := lead = 1 /\ 1 <= E <= 30 /\ expo = E - 15 \/ lead = 0 /\ E = 0 /\ expo = -14.

Lemma gen16_ok s lead E expo F : entry16 lead E expo -> 0 <= F < 2 ^ 10 ->
  exists want, gen16 lead (Z.b2z s) E expo F = Ret (enc 10 5 s E F, want) /\ 0 <= want < 2 ^ 64 /\
    ieee 52 11 want = ieee 10 5 (enc 10 5 s E F) /\ exists v, ieee 10 5 (enc 10 5 s E F) = VNum s v.
Proof.
  intros HE HF. assert (Hl : 0 <= lead <= 1) by (destruct HE; lia). assert (E5 : 0 <= E < 31) by (destruct HE; lia).
  set (M := (IZR (lead * 2 ^ 10 + F) * p2 (-10))%R).
  assert (PM : (p2 expo * M = IZR (lead * 2 ^ 10 + F) * p2 (expo - 10))%R) by (unfold M; replace (expo - 10) with (expo + -10) by lia; rewrite p2_plus; ring).
  assert (Vb : ieee 10 5 (enc 10 5 s E F) = VNum s (sgnR s (p2 expo * M))).
  { rewrite ieee_enc by lia. unfold ieee_parts. change (2 ^ 5 - 1) with 31. destruct (Z.eqb_spec E 31); [lia|].
    destruct HE as [(-> & HE & ->)|(-> & -> & ->)].
    - destruct (Z.eqb_spec E 0); [lia|]. rewrite PM. change (1 * 2 ^ 10) with (2 ^ 10). replace (E - 15 - 10) with (E - (2 ^ (5 - 1) - 1) - 10) by (change (2 ^ (5 - 1)) with 16; lia). reflexivity.
    - cbn [Z.eqb]. rewrite PM. reflexivity. }
  assert (FM : fits 52 11 M).
  { split; [exists (lead * 2 ^ 10 + F), (-10); split; [reflexivity|]; split; lia|].
    unfold M. rewrite Rabs_right.
    2:{ apply Rle_ge, Rmult_le_pos; [apply IZR_le; lia|apply Rlt_le, p2_pos]. }
    apply Rle_lt_trans with (p2 11 * p2 (-10))%R.
    - apply Rmult_le_compat_r; [apply Rlt_le, p2_pos|]. rewrite <- (IZR_pow2 11) by lia. apply IZR_le. lia.
    - rewrite <- p2_plus. apply p2_lt. lia. }
  assert (Hm : exists m, ParseFloat (B "+" ++ B "0b" ++ fmt_d lead ++ B "." ++ fmt_b 10 F ++ B "p0") 53 = Ret m /\ wf m /\ bval m = VNum false M).
  { unfold ParseFloat. change (B "p0") with (B "p" ++ fmt_d 0). change (B "+") with (sign_text false).
    set (z := BigFloat.mkBF 53 BigFloat.ToNearestEven BigFloat.Exact false BigFloat.Zero).
    destruct (Z.eq_dec (lead * 2 ^ 10 + F) 0) as [Z0|Z0].
    - rewrite (Parse_text z false lead (fmt_b 10 F) 10 F 0) by (try lia; apply fmt_b_text; lia). cbv zeta. rewrite Z0. cbn [Z.eqb].
      eexists. split; [reflexivity|]. split; [split; [unfold z; cbn [prec]; unfold MaxPrec; lia|exact I]|]. unfold bval. cbn [frm neg]. unfold M. rewrite Z0, Rmult_0_l. reflexivity.
    - destruct (Parse_correct z false lead (fmt_b 10 F) 10 F 0) as (r & Hr & Hv & Hw & _);
        try lia; try (apply fmt_b_text; lia); try (unfold z; cbn [prec]; unfold MaxPrec; lia).
      rewrite Hr. exists r. split; [reflexivity|]. split; [exact Hw|exact Hv]. }
  destruct Hm as (m & Em & Wm & Vm). unfold gen16. rewrite Em. cbn [bind].
  pose proof (ToFloat_exact 52 11 m false M ltac:(lia) ltac:(lia) ltac:(unfold MaxExp; lia) Wm Vm FM) as T.
  unfold BigFloat.Float64. destruct (BigFloat.ToFloat 52 11 m) as [mantissa ac]. destruct T as (T1 & T2 & ->).
  cbn [BigFloat.accuracy_eqb negb].
  assert (X : -14 <= expo <= 15) by (destruct HE; lia).
  destruct (pow_m1_val s) as [A1 A2]. destruct (pow_2_val expo ltac:(lia)) as [B1 B2].
  assert (F1 : fits 52 11 (sgnR s 1 * p2 expo)).
  { split; [exists (if s then -1 else 1), expo; split; [destruct s; reflexivity|]; destruct s; split; lia|].
    destruct s; cbn [sgnR]; [replace (- (1) * p2 expo)%R with (- p2 expo)%R by ring; rewrite Rabs_Ropp|rewrite Rmult_1_l]; (rewrite Rabs_right; [|apply Rle_ge, Rlt_le, p2_pos]); apply p2_lt; lia. }
  destruct (f64_mul_exact _ _ _ _ _ _ A1 B1 A2 B2 F1) as (p & -> & P1 & P2). cbn [bind].
  assert (EM : (sgnR s 1 * p2 expo * M)%R = sgnR s (p2 expo * M)) by (destruct s; cbn [sgnR]; ring).
  pose proof (enc_range 10 5 s E F ltac:(lia) ltac:(lia) ltac:(lia) ltac:(lia)) as Rb.
  assert (F2 : fits 52 11 (sgnR s 1 * p2 expo * M)).
  { rewrite EM. apply (fits_mono 10 5); try lia. apply (proj1 (fits_ieee 10 5 _ s _ ltac:(lia) ltac:(lia) Rb Vb)). }
  destruct (f64_mul_exact _ _ _ _ _ _ P1 T1 P2 T2 F2) as (want & -> & W1 & W2). cbn [bind].
  rewrite lor_fields by lia. rewrite EM, xorb_false_r, xorb_false_r in W2.
  exists want. split; [|split; [exact W1|]; split; [congruence|eexists; exact Vb]].
  do 2 f_equal. assert (N0 : ieee 52 11 (2 ^ 63) = VNum true 0).
  { change (2 ^ 63) with (enc 52 11 true 0 0). rewrite ieee_enc by lia. unfold ieee_parts. change (0 =? 2 ^ 11 - 1) with false. cbn [Z.eqb]. rewrite Rmult_0_l, sgnR_0. reflexivity. }
  assert (N1 : ieee 10 5 0x8000 = VNum true 0) by exact (Facts16.zero_pattern true).
  destruct (Z.eqb_spec (enc 10 5 s E F) 0x8000) as [G|G].
  - apply (ieee_inj 52 11); try lia; try (intros; rewrite N0; discriminate). rewrite N0, W2, <- Vb, G, N1. reflexivity.
  - unfold literal. destruct (Z.eqb_spec want (2 ^ 63)) as [K|K]; [|reflexivity].
    exfalso. apply G. apply (ieee_inj 10 5); try lia; try (rewrite Vb; discriminate). rewrite N1, Vb, <- W2, K. exact N0.
Qed.

Definition passes16 (g : Z * Z) : Prop := test16_bits g = Ret true /\ test16_float32 g = Ret true /\ test16_float64 g = Ret true.

Lemma passes16_ok b want s v : 0 <= b < 2 ^ 16 -> 0 <= want < 2 ^ 64 -> ieee 52 11 want = ieee 10 5 b -> ieee 10 5 b = VNum s v -> passes16 (b, want).
Proof.
  intros Hb Hw E Eb. destruct (fits_ieee 10 5 b s v ltac:(lia) ltac:(lia) Hb Eb) as [F _].
  unfold passes16, test16_bits, test16_float32, test16_float64, Binary16.NewFromBits, Binary16.Bits; cbn [fst snd].
  split; [|split].
  - destruct (Facts16.Float64_correct b Hb) as (d & -> & Hd & Hi). cbn [bind]. f_equal. apply Z.eqb_eq.
    apply (ieee_inj 52 11); try lia; congruence.
  - destruct (FtoaAll.f64_to_f32_correct want Hw) as [R C]. rewrite E, Eb in C.
    rewrite (fits_round 23 8 s v ltac:(lia) (fits_mono 10 5 23 8 v ltac:(lia) ltac:(lia) F)) in C.
    rewrite (Facts16.nff32_eq _ R). destruct (f32_to_f64_correct _ R) as [R' C'].
    rewrite (Facts16.back64 b _ Hb R') by congruence. rewrite Eb. cbn [bind]. f_equal. apply Z.eqb_eq. reflexivity.
  - rewrite (Facts16.back64 b want Hb Hw E). rewrite Eb. cbn [bind]. f_equal. apply Z.eqb_eq. reflexivity.
Qed.

(** * Loops *)
Lemma range_in lo hi x : In x (range lo hi) <-> lo <= x <= hi.
Proof.
  unfold range. rewrite in_map_iff. split.
  - intros (i & <- & H). apply in_seq in H. lia.
  - intros H. exists (Z.to_nat (x - lo)). split; [lia|]. apply in_seq. lia.
Qed.

Lemma range_nil lo hi : hi < lo -> range lo hi = [].
Proof. intros H. unfold range. replace (Z.to_nat (hi - lo + 1)) with O by lia. reflexivity. Qed.

Lemma range_S lo hi : lo <= hi -> range lo hi = lo :: range (lo + 1) hi.
Proof.
  intros H. unfold range. replace (Z.to_nat (hi - lo + 1)) with (S (Z.to_nat (hi - (lo + 1) + 1))) by lia.
  cbn [seq map]. f_equal; [lia|]. rewrite <- seq_shift, map_map. apply map_ext. intros. lia.
Qed.

Lemma range_map lo hi d : map (fun x => d + x) (range lo hi) = range (d + lo) (d + hi).
Proof.
  unfold range. rewrite map_map. replace (d + hi - (d + lo) + 1) with (hi - lo + 1) by lia. apply map_ext. intros. lia.
Qed.

Lemma range_app n : forall lo hi, range lo (lo + Z.of_nat n - 1) ++ range (lo + Z.of_nat n) hi = range lo (Z.max (lo + Z.of_nat n - 1) hi).
Proof.
  induction n as [|n IH]; intros lo hi.
  - rewrite (range_nil lo) by lia. cbn [app]. replace (lo + Z.of_nat 0) with lo by lia.
    destruct (Z_le_gt_dec lo hi); [f_equal; lia|rewrite !range_nil by lia; reflexivity].
  - rewrite (range_S lo (lo + Z.of_nat (S n) - 1)), (range_S lo (Z.max _ _)) by lia. cbn [app]. f_equal.
    specialize (IH (lo + 1) hi). replace (lo + 1 + Z.of_nat n) with (lo + Z.of_nat (S n)) in IH by lia. exact IH.
Qed.

(** Two nested loops count. *)
Lemma range_nest base k lo hi : 0 < k -> lo <= hi + 1 ->
  flat_map (fun e => map (fun m => base + e * k + m) (range 0 (k - 1))) (range lo hi) = range (base + lo * k) (base + hi * k + k - 1).
Proof.
  intros Hk. remember (Z.to_nat (hi - lo + 1)) as n. revert lo Heqn. induction n as [|n IH]; intros lo Hn Hl.
  - rewrite (range_nil lo hi) by lia. assert (lo = hi + 1) by lia. subst lo. cbn [flat_map]. rewrite range_nil by lia. reflexivity.
  - rewrite (range_S lo hi) by lia. cbn [flat_map]. rewrite range_map, IH by lia.
    rewrite Z.add_0_r. pose proof (range_app (Z.to_nat k) (base + lo * k) (base + hi * k + k - 1)) as A.
    rewrite Z2Nat.id in A by lia. rewrite Z.max_r in A by nia.
    replace (base + lo * k + (k - 1)) with (base + lo * k + k - 1) by lia. replace (base + (lo + 1) * k) with (base + lo * k + k) by lia. exact A.
Qed.

Lemma collect_ok {A} (l : list (outcome A)) (P : A -> Prop) : Forall (fun o => exists x, o = Ret x /\ P x) l ->
  exists r, collect l = Ret r /\ Forall P r.
Proof.
  induction 1 as [|o l (x & -> & H) _ (r & E & Hr)].
  - exists []. split; [reflexivity|constructor].
  - exists (x :: r). cbn [collect bind]. rewrite E. split; [reflexivity|constructor; assumption].
Qed.

Lemma collect_list {A B} (l : list (outcome (A * B))) (k : list A) (P : A * B -> Prop) :
  Forall2 (fun o a => exists b, o = Ret (a, b) /\ P (a, b)) l k -> exists r, collect l = Ret r /\ map fst r = k /\ Forall P r.
Proof.
  induction 1 as [|o a l k (b & -> & H) _ (r & E & K & Hr)].
  - exists []. repeat split. constructor.
  - exists ((a, b) :: r). cbn [collect bind]. rewrite E. split; [reflexivity|]. split; [cbn [map fst]; congruence|constructor; assumption].
Qed.

Lemma Forall2_map_in {A B C} (R : B -> C -> Prop) (f : A -> B) (g : A -> C) l : (forall x, In x l -> R (f x) (g x)) -> Forall2 R (map f l) (map g l).
Proof. induction l as [|x l IH]; intros H; [constructor|]. cbn [map]. constructor; [apply H; left; reflexivity|apply IH; intros; apply H; right; assumption]. Qed.

Lemma Forall2_flat_in {A B C} (R : B -> C -> Prop) (f : A -> list B) (g : A -> list C) l : (forall x, In x l -> Forall2 R (f x) (g x)) ->
  Forall2 R (flat_map f l) (flat_map g l).
Proof. induction l as [|x l IH]; intros H; [constructor|]. cbn [flat_map]. apply Forall2_app; [apply H; left; reflexivity|apply IH; intros; apply H; right; assumption]. Qed.

Lemma entry_passes s lead E expo F : entry16 lead E expo -> 0 <= F <= 0x3FF -> (s = 0 \/ s = 1) ->
  exists w, gen16 lead s E expo F = Ret (s * 2 ^ 15 + E * 1024 + F, w) /\ (fun g => passes16 g) (s * 2 ^ 15 + E * 1024 + F, w).
Proof.
  intros HE HF Hs. assert (E5 : 0 <= E < 31) by (destruct HE; lia).
  assert (T : exists t, s = Z.b2z t) by (destruct Hs as [-> | ->]; [exists false|exists true]; reflexivity). destruct T as [t ->].
  destruct (gen16_ok t lead E expo F HE ltac:(lia)) as (w & G & W & V & v & Vb).
  assert (Q : enc 10 5 t E F = Z.b2z t * 2 ^ 15 + E * 1024 + F) by (unfold enc; change (2 ^ (10 + 5)) with (2 ^ 15); lia).
  pose proof (enc_range 10 5 t E F ltac:(lia) ltac:(lia) ltac:(lia) ltac:(lia)) as R.
  rewrite Q in *. exists w. split; [exact G|]. exact (passes16_ok _ w t v R W V Vb).
Qed.

Lemma c67 : exists ns ds, getNormalized16 = Ret ns /\ getDenormalized16 = Ret ds /\
  map fst ns = range 0x0400 0x7BFF ++ range 0x8400 0xFBFF /\ map fst ds = range 0 0x3FF ++ range 0x8000 0x83FF /\
  Forall (fun g => test16_bits g = Ret true /\ test16_float32 g = Ret true /\ test16_float64 g = Ret true) (ns ++ ds).
Proof.
  assert (R01 : range 0 1 = [0; 1]) by reflexivity.
  destruct (collect_list (flat_map (fun signbit => flat_map (fun exp => map (fun mant =>
    gen16 1 signbit exp (exp - 15) mant) (range 0 0x3FF)) (range 1 0x1E)) (range 0 1))
    (flat_map (fun s => flat_map (fun e => map (fun m => s * 2 ^ 15 + e * 1024 + m) (range 0 0x3FF)) (range 1 0x1E)) (range 0 1)) passes16) as (ns & N1 & N2 & N3).
  { apply Forall2_flat_in. intros s Hs. apply Forall2_flat_in. intros e He. apply Forall2_map_in. intros m Hm.
    apply range_in in Hs, He, Hm. apply entry_passes; try lia. left. lia. }
  destruct (collect_list (flat_map (fun signbit => map (fun mant =>
    gen16 0 signbit 0 (0 - 15 + 1) mant) (range 0 0x3FF)) (range 0 1))
    (flat_map (fun s => map (fun m => s * 2 ^ 15 + 0 * 1024 + m) (range 0 0x3FF)) (range 0 1)) passes16) as (ds & D1 & D2 & D3).
  { apply Forall2_flat_in. intros s Hs. apply Forall2_map_in. intros m Hm.
    apply range_in in Hs, Hm. apply entry_passes; try lia. right. lia. }
  exists ns, ds. split; [exact N1|]. split; [exact D1|].
  split; [|split].
  - rewrite N2, R01. cbn [flat_map]. change 1023 with (1024 - 1). rewrite (range_nest (0 * 2 ^ 15) 1024 1 30), (range_nest (1 * 2 ^ 15) 1024 1 30) by lia. rewrite app_nil_r. reflexivity.
  - rewrite D2, R01. cbn [flat_map]. rewrite !range_map, app_nil_r. reflexivity.
  - apply Forall_app. split; [exact N3|exact D3].
Qed.

(** * binary128 *)
Definition entry128 (lead E expo : Z) : Prop := lead = 1 /\ 1 <= E <= 0x7FFE /\ expo = E - 16383 \/ lead = 0 /\ E = 0 /\ expo = -16382.

Lemma lor_fields128 (s : bool) E F : 0 <= E < 2 ^ 15 -> 0 <= F < 2 ^ 48 ->
  Z.lor (Z.lor (u64 (Z.shiftl (u64 (Z.b2z s)) 63)) (u64 (Z.shiftl (u64 E) 48))) F = enc 48 15 s E F.
Proof.
  intros HE HF. unfold u64. rewrite !Z.shiftl_mul_pow2 by lia.
  assert (0 <= Z.b2z s <= 1) by (destruct s; cbn; lia).
  rewrite !(Z.mod_small _ (2 ^ 64)) by (rewrite ?Z.mod_small by lia; lia).
  rewrite <- Z.lor_assoc. rewrite (lor_add E F 48), (lor_add (Z.b2z s) _ 63) by lia. unfold enc. lia.
Qed.

(** The generator parses the text that Big parses. *)
Lemma gen128_parse s lead E expo F1 F2 : entry128 lead E expo -> 0 <= F1 < 2 ^ 48 -> 0 <= F2 < 2 ^ 64 ->
  let f := Binary128.NewFromBits (enc 48 15 s E F1) F2 in
  exists m, Binary128.Big f = Ret (m, false) /\ wf m /\ (exists v, bval m = VNum s v /\ quad (enc 48 15 s E F1) F2 = VNum s v) /\
    ParseFloat ((if Z.b2z s =? 1 then B "-" else B "+") ++ B "0b" ++ fmt_d lead ++ B "." ++ (fmt_b 48 F1 ++ fmt_b 64 F2) ++ B "p" ++ fmt_d expo) 113 = Ret m.
Proof.
  intros HE H1 H2 f. assert (E5 : 0 <= E < 0x7FFF) by (destruct HE; lia).
  pose proof (enc_range 48 15 s E F1 ltac:(lia) ltac:(lia) ltac:(lia) ltac:(lia)) as Rf.
  assert (Hf : Facts128.ok f) by (split; [exact Rf|exact H2]).
  destruct (Facts128.fields f Hf) as (s' & E' & F1' & F2' & HE' & HF1 & HF2 & _ & Ea & Eb & Es & Ee & Eff).
  cbn [f Binary128.NewFromBits Binary128.fa Binary128.fb] in Ea, Eb. subst F2'.
  assert (Q1 : s' = s) by (pose proof (f_equal (BigFloat.f_sign 48 15) Ea) as X; rewrite !f_sign_enc in X by lia; congruence).
  assert (Q2 : E' = E) by (pose proof (f_equal (BigFloat.f_exp 48 15) Ea) as X; rewrite !f_exp_enc in X by lia; congruence).
  assert (Q3 : F1' = F1) by (pose proof (f_equal (BigFloat.f_frac 48) Ea) as X; rewrite !(f_frac_enc 48 15) in X by lia; congruence).
  rewrite Q1 in Es. rewrite Q2 in Ee. rewrite Q3 in Eff. clear Ea Q1 Q2 Q3.
  destruct (Facts128.Big_correct f Hf) as (m & nan & EB & (Wm & _) & Vm).
  assert (HV : exists v, Facts128.value f = VNum s v).
  { assert (Ev : Facts128.value f = ieee_parts 112 15 s E (F1 * 2 ^ 64 + F2)).
    { change (Facts128.value f) with (ieee 112 15 (enc 48 15 s E F1 * 2 ^ 64 + F2)).
      replace (enc 48 15 s E F1 * 2 ^ 64 + F2) with (enc 112 15 s E (F1 * 2 ^ 64 + F2)) by (unfold enc; change (2 ^ (112 + 15)) with (2 ^ (48 + 15) * 2 ^ 64); change (2 ^ 112) with (2 ^ 48 * 2 ^ 64); ring).
      apply ieee_enc; lia. }
    rewrite Ev. unfold ieee_parts. change (2 ^ 15 - 1) with 32767. destruct (Z.eqb_spec E 32767); [lia|]. destruct (E =? 0); eexists; reflexivity. }
  destruct HV as [v HV]. rewrite HV in Vm. destruct Vm as [-> Vm].
  exists m. split; [exact EB|]. split; [exact Wm|]. split; [exists v; split; [exact Vm|exact HV]|].
  unfold Binary128.Big, Binary128.Big_host in EB. unfold Binary128.Exp in Ee. rewrite Es, Ee, Eff in EB. cbv zeta beta in EB.
    destruct (Z.eqb_spec E 0x7FFF); [lia|].
    change (BigFloat.SetMode (BigFloat.SetPrec BigFloat.NewFloat0 Binary128.precision) BigFloat.ToNearestEven)
      with (BigFloat.mkBF 113 BigFloat.ToNearestEven BigFloat.Exact false BigFloat.Zero) in EB.
    unfold ParseFloat. replace (Z.b2z s =? 1) with s by (destruct s; reflexivity). destruct HE as [(-> & HE & ->)|(-> & -> & ->)].
    - destruct (Z.eqb_spec E 0x0000); [lia|]. change Binary128.bias with 16383 in EB.
      destruct (Parse _ _); [congruence|discriminate].
    - change (0 =? 0x0000) with true in EB. cbv iota in EB.
      destruct ((F1 =? 0) && (F2 =? 0)) eqn:Z0.
      + apply andb_true_iff in Z0. destruct Z0 as [Z1 Z2]. apply Z.eqb_eq in Z1, Z2. subst F1 F2.
        change (if s then B "-" else B "+") with (sign_text s).
        rewrite (Parse_text _ s 0 (fmt_b 48 0 ++ fmt_b 64 0) 112 (0 * 2 ^ 64 + 0) (-16382)); try lia.
        2:{ apply (bits_text_app _ _ 48 64); apply fmt_b_text; lia. }
        cbn [Z.mul Z.add Z.eqb]. injection EB as <-. destruct s; reflexivity.
      + destruct (Parse _ _); [congruence|discriminate].
Qed.

Lemma gen128_big text s lead E expo F1 F2 : entry128 lead E expo -> 0 <= F1 < 2 ^ 48 -> 0 <= F2 < 2 ^ 64 ->
  let f := Binary128.NewFromBits (enc 48 15 s E F1) F2 in
  exists m, Binary128.Big f = Ret (m, false) /\ wf m /\ (exists v, bval m = VNum s v /\ quad (enc 48 15 s E F1) F2 = VNum s v) /\
    gen128 text lead (Z.b2z s) E expo F1 F2 = Ret (mkGolden (enc 48 15 s E F1) F2 (text m) (fst (BigFloat.Float64 m)) (snd (BigFloat.Float64 m))).
Proof.
  intros HE H1 H2 f. assert (E5 : 0 <= E < 0x7FFF) by (destruct HE; lia).
  destruct (gen128_parse s lead E expo F1 F2 HE H1 H2) as (m & EB & Wm & Vm & PF).
  exists m. split; [exact EB|]. split; [exact Wm|]. split; [exact Vm|].
  unfold gen128. cbv zeta. match goal with |- bind ?p _ = _ => replace p with (Ret m) by (symmetry; exact PF) end. cbn [bind]. rewrite lor_fields128 by lia. destruct (BigFloat.Float64 m) as [w ac]. cbn [fst snd]. do 2 f_equal.
  unfold literal. destruct (Z.eqb_spec w (2 ^ 63)) as [Q|Q]; [symmetry; exact Q|]. destruct (BigFloat.f_isinf 52 11 w); reflexivity.
Qed.

Lemma f_eq_refl mb eb x v : 0 <= mb -> 2 <= eb -> 0 <= x < 2 ^ (mb + eb + 1) -> ieee mb eb x = v -> (forall s, v <> VNaN s) -> f_eq mb eb x x = true.
Proof.
  intros Hm He Hx E N. unfold f_eq. rewrite (isnan_ieee mb eb x) by (simpl; lia). rewrite E.
  destruct v as [s| |]; [exfalso; apply (N s); reflexivity| |]; rewrite Z.eqb_refl; reflexivity.
Qed.

Lemma round_not_nan mb eb s v t : ieee_round mb eb s v <> VNaN t.
Proof. unfold ieee_round. destruct (Rle_bool _ _); discriminate. Qed.

Lemma acc_valid_ok a x y s v : wf x -> wf y -> bval y = VNum s v -> acc_ok a (bval x) v -> acc_valid a x y = true.
Proof.
  intros Wx Wy Vy A. destruct (bval x) as [t|t|t u] eqn:Vx.
  - destruct a; destruct A.
  - destruct (bval_inf x t Vx) as [Fx Nx]. unfold acc_valid, BigFloat.Cmp, BigFloat.ord. rewrite Fx, Nx.
    assert (Y : frm y <> BigFloat.Inf) by (intros G; unfold bval in Vy; rewrite G in Vy; discriminate).
    destruct a; cbn in A; subst; destruct (frm y); try congruence; destruct (neg y); try contradiction; reflexivity.
  - destruct (Cmp_num x y t u s v Wx Wy Vx Vy) as (C1 & C2 & C3).
    assert (O : BigFloat.Cmp x y = -1 \/ BigFloat.Cmp x y = 0 \/ BigFloat.Cmp x y = 1).
    { unfold BigFloat.Cmp, BigFloat.ucmp. destruct (_ <? _); [lia|]. destruct (_ <? _); [lia|].
      destruct (frm x), (frm y); try lia. destruct (_ <? _); destruct (Z.compare _ _); lia. }
    destruct a; cbn in A; unfold acc_valid; apply Z.eqb_eq; lia || (apply C2; assumption) || (apply C1 in A; lia) || (apply C3 in A; lia).
Qed.

Definition passes128 (text : BigFloat.bigfloat -> bytes) (g : golden) : Prop :=
  test128_bits text g = Ret true /\ test128_float32 g = Ret true /\ test128_float64 g = Ret true.

Lemma entry128_passes text s lead E expo F1 F2 : entry128 lead E expo -> 0 <= F1 < 2 ^ 48 -> 0 <= F2 < 2 ^ 64 -> s = 0 \/ s = 1 ->
  exists g, gen128 text lead s E expo F1 F2 = Ret g /\ ga g = s * 2 ^ 63 + E * 2 ^ 48 + F1 /\ gb g = F2 /\ passes128 text g /\
    forall reread, (forall t v, quad (ga g) (gb g) = VNum t v -> exists t', wf (reread (gwant g)) /\ bval (reread (gwant g)) = VNum t' v) ->
      test128_acc reread g = Ret true.
Proof.
  intros HE H1 H2 Hs. assert (E5 : 0 <= E < 0x7FFF) by (destruct HE; lia).
  assert (T : exists t, s = Z.b2z t) by (destruct Hs as [-> | ->]; [exists false|exists true]; reflexivity). destruct T as [t ->].
  destruct (gen128_big text t lead E expo F1 F2 HE H1 H2) as (m & EB & Wm & (v & Vm & Qv) & EG). cbv zeta in EB.
  rewrite EG. eexists. split; [reflexivity|]. cbn [ga gb].
  split; [unfold enc; change (2 ^ (48 + 15)) with (2 ^ 63); lia|]. split; [reflexivity|].
  set (f := Binary128.NewFromBits (enc 48 15 t E F1) F2) in *.
  assert (E64 : Binary128.Float64 f = Ret (BigFloat.Float64 m)).
  { unfold Binary128.Float64, Binary128.Float64_host. change (Binary128.Big_host 64 f) with (Binary128.Big f). rewrite EB. reflexivity. }
  assert (E32 : Binary128.Float32 f = Ret (BigFloat.Float32 m)).
  { unfold Binary128.Float32, Binary128.Float32_host. change (Binary128.Big_host 64 f) with (Binary128.Big f). rewrite EB. reflexivity. }
  pose proof (ToFloat_val 52 11 m ltac:(lia) ltac:(lia) ltac:(unfold MaxExp; lia) Wm) as T64. rewrite Vm in T64.
  pose proof (ToFloat_val 23 8 m ltac:(lia) ltac:(lia) ltac:(unfold MaxExp; lia) Wm) as T32. rewrite Vm in T32.
  unfold BigFloat.Float64, BigFloat.Float32 in *.
  destruct (BigFloat.ToFloat 52 11 m) as [w64 a64]. destruct (BigFloat.ToFloat 23 8 m) as [w32 a32].
  destruct T64 as (R64 & V64 & A64). destruct T32 as (R32 & V32 & A32). cbn [fst snd].
  split; [split; [|split]|].
  - unfold test128_bits. cbn [ga gb gwant gwant64 gacc64]. fold f. rewrite EB. cbn [bind]. rewrite E64. cbn [bind].
    destruct (list_eq_dec Z.eq_dec (text m) (text m)); [|congruence]. rewrite Z.eqb_refl. destruct a64; reflexivity.
  - unfold test128_float32. cbn [gwant64]. destruct (FtoaAll.f64_to_f32_correct w64 R64) as [R C].
    assert (N : forall z, ieee 23 8 (BigFloat.f64_to_f32 w64) <> VNaN z).
    { intros z. rewrite V64 in C. unfold ieee_round in C. destruct (Rle_bool _ _); rewrite C; [discriminate|apply round_not_nan]. }
    destruct (proj2 Claims128.c13 _ R N) as (f' & -> & _ & E'). cbn [bind]. rewrite E'. cbn [bind]. f_equal.
    exact (f_eq_refl 23 8 _ _ ltac:(lia) ltac:(lia) R eq_refl N).
  - unfold test128_float64. cbn [gwant64].
    assert (N : forall z, ieee 52 11 w64 <> VNaN z) by (intros z; rewrite V64; apply round_not_nan).
    destruct (proj1 Claims128.c13 _ R64 N) as (f' & -> & _ & E'). cbn [bind]. rewrite E'. cbn [bind]. f_equal.
    exact (f_eq_refl 52 11 _ _ ltac:(lia) ltac:(lia) R64 eq_refl N).
  - intros reread HR. destruct (HR t v Qv) as (t' & Wr & Vr). cbn [gwant] in Wr, Vr.
    unfold test128_acc. cbn [ga gb gwant]. fold f. rewrite E64. cbn [bind].
    pose proof (SetFloat_correct 52 11 w64 ltac:(lia) ltac:(lia) R64) as S64.
    destruct (f32_to_f64_correct w32 R32) as [R32' C32].
    pose proof (SetFloat_correct 52 11 _ ltac:(lia) ltac:(lia) R32') as S32. rewrite C32 in S32.
    unfold BigFloat.NewFloat.
    assert (X64 : exists x, BigFloat.SetFloat 52 11 w64 = Ret x /\ wf x /\ bval x = ieee 52 11 w64).
    { destruct (ieee 52 11 w64) eqn:Q; [exfalso; symmetry in V64; eapply round_not_nan; exact V64| |]; destruct S64 as (x0 & X1 & X2 & X3 & _); exists x0; auto. }
    assert (X32 : exists x, BigFloat.SetFloat 52 11 (BigFloat.f32_to_f64 w32) = Ret x /\ wf x /\ bval x = ieee 23 8 w32).
    { destruct (ieee 23 8 w32) eqn:Q; [exfalso; symmetry in V32; eapply round_not_nan; exact V32| |]; destruct S32 as (x0 & X1 & X2 & X3 & _); exists x0; auto. }
    destruct X64 as (x & -> & Wx & Vx). destruct X32 as (y & X32 & Wy & Vy). cbn [bind]. rewrite E32. cbn [bind]. rewrite X32. cbn [bind]. f_equal.
    rewrite <- Vx in A64. rewrite <- Vy in A32.
    rewrite (acc_valid_ok a64 x _ t' v Wx Wr Vr A64), (acc_valid_ok a32 y _ t' v Wy Wr Vr A32). reflexivity.
Qed.

Lemma c71 : forall text exps mants, Forall (fun e => 1 <= e <= 0x7FFE) exps -> Forall (fun m => 0 <= fst m < 2 ^ 48 /\ 0 <= snd m < 2 ^ 64) mants ->
  exists ns ds, getNormalized128 text exps mants = Ret ns /\ getDenormalized128 text mants = Ret ds /\
  map (fun g => (ga g, gb g)) ns = flat_map (fun s => flat_map (fun e => map (fun m => (s * 2 ^ 63 + e * 2 ^ 48 + fst m, snd m)) mants) exps) [0; 1] /\
  map (fun g => (ga g, gb g)) ds = flat_map (fun s => map (fun m => (s * 2 ^ 63 + fst m, snd m)) mants) [0; 1] /\
  Forall (fun g => test128_bits text g = Ret true /\ test128_float32 g = Ret true /\ test128_float64 g = Ret true /\
    forall reread, (forall t v, quad (ga g) (gb g) = VNum t v -> exists t', wf (reread (gwant g)) /\ bval (reread (gwant g)) = VNum t' v) ->
      test128_acc reread g = Ret true) (ns ++ ds).
Proof.
  intros text exps mants He Hm. rewrite Forall_forall in He, Hm.
  set (P := fun g => test128_bits text g = Ret true /\ test128_float32 g = Ret true /\ test128_float64 g = Ret true /\
    forall reread, (forall t v, quad (ga g) (gb g) = VNum t v -> exists t', wf (reread (gwant g)) /\ bval (reread (gwant g)) = VNum t' v) ->
      test128_acc reread g = Ret true).
  assert (CL : forall l k, Forall2 (fun o a => exists g, o = Ret g /\ (ga g, gb g) = a /\ P g) l k -> exists r, collect l = Ret r /\ map (fun g => (ga g, gb g)) r = k /\ Forall P r).
  { induction 1 as [|o a l k (b & -> & H & Q) _ (r & E & K & Hr)].
    - exists []. repeat split. constructor.
    - exists (b :: r). cbn [collect bind]. rewrite E. split; [reflexivity|]. split; [cbn [map]; congruence|constructor; assumption]. }
  assert (EP : forall s lead E expo m, entry128 lead E expo -> In m mants -> In s (range 0 1) ->
    exists g, gen128 text lead s E expo (fst m) (snd m) = Ret g /\ (ga g, gb g) = (s * 2 ^ 63 + E * 2 ^ 48 + fst m, snd m) /\ P g).
  { intros s lead E expo m HE HM HS. apply range_in in HS. destruct (Hm m HM) as [M1 M2].
    destruct (entry128_passes text s lead E expo (fst m) (snd m) HE M1 M2 ltac:(lia)) as (g & G1 & G2 & G3 & (G4 & G5 & G6) & G7).
    exists g. split; [exact G1|]. split; [congruence|]. unfold P. auto. }
  destruct (CL (flat_map (fun signbit => flat_map (fun exp => map (fun mant =>
    gen128 text 1 signbit exp (exp - 16383) (fst mant) (snd mant)) mants) exps) (range 0 1))
    (flat_map (fun s => flat_map (fun e => map (fun m => (s * 2 ^ 63 + e * 2 ^ 48 + fst m, snd m)) mants) exps) (range 0 1))) as (ns & N1 & N2 & N3).
  { apply Forall2_flat_in. intros s Hs. apply Forall2_flat_in. intros e He'. apply Forall2_map_in. intros m Hm'.
    apply EP; try assumption. left. pose proof (He e He'). lia. }
  destruct (CL (flat_map (fun signbit => map (fun mant =>
    gen128 text 0 signbit 0 (0 - 16383 + 1) (fst mant) (snd mant)) mants) (range 0 1))
    (flat_map (fun s => map (fun m => (s * 2 ^ 63 + 0 * 2 ^ 48 + fst m, snd m)) mants) (range 0 1))) as (ds & D1 & D2 & D3).
  { apply Forall2_flat_in. intros s Hs. apply Forall2_map_in. intros m Hm'.
    apply EP; try assumption. right. lia. }
  exists ns, ds. split; [exact N1|]. split; [exact D1|]. split; [exact N2|]. split; [rewrite D2; reflexivity|].
  apply Forall_app. split; [exact N3|exact D3].
Qed.

(** The table of binary16 lists every finite pattern once. *)
Lemma NoDup_range lo hi : NoDup (range lo hi).
Proof. apply Injective_map_NoDup; [intros a b H; lia|apply seq_NoDup]. Qed.

Lemma NoDup_disjoint {A} (l k : list A) : NoDup l -> NoDup k -> (forall x, In x l -> In x k -> False) -> NoDup (l ++ k).
Proof.
  intros Hl Hk D. induction Hl as [|x l N Hl IH]; [exact Hk|]. cbn [app]. constructor.
  - rewrite in_app_iff. intros [H|H]; [exact (N H)|]. exact (D x (or_introl eq_refl) H).
  - apply IH. intros y H1 H2. exact (D y (or_intror H1) H2).
Qed.

Lemma finite16 b : 0 <= b < 2 ^ 16 -> (exists s v, ieee 10 5 b = VNum s v) <-> b mod 2 ^ 15 < 0x7C00.
Proof.
  intros Hb. destruct (enc_surj 10 5 b ltac:(lia) ltac:(lia) Hb) as (s & E & F & HE & HF & ->).
  rewrite ieee_enc by lia. unfold ieee_parts.
  assert (Q : enc 10 5 s E F mod 2 ^ 15 = E * 2 ^ 10 + F).
  { symmetry. apply Z.mod_unique_pos with (Z.b2z s); [lia|]. unfold enc. change (2 ^ (10 + 5)) with (2 ^ 15). destruct s; cbn [Z.b2z]; lia. }
  rewrite Q. change (2 ^ 5 - 1) with 31. destruct (Z.eqb_spec E 31) as [->|N].
  - destruct (F =? 0); split; [intros (? & ? & ?); discriminate|lia|intros (? & ? & ?); discriminate|lia].
  - split; [lia|]. intros _. destruct (E =? 0); eexists _, _; reflexivity.
Qed.

Lemma c67_all : exists ns ds, getNormalized16 = Ret ns /\ getDenormalized16 = Ret ds /\
  NoDup (map fst (ns ++ ds)) /\
  (forall b, In b (map fst (ns ++ ds)) <-> 0 <= b < 2 ^ 16 /\ exists s v, ieee 10 5 b = VNum s v) /\
  Forall (fun g => ieee 52 11 (snd g) = ieee 10 5 (fst g) /\
    test16_bits g = Ret true /\ test16_float32 g = Ret true /\ test16_float64 g = Ret true) (ns ++ ds).
Proof.
  destruct c67 as (ns & ds & N & D & Bn & Bd & F). exists ns, ds. split; [exact N|]. split; [exact D|].
  rewrite map_app, Bn, Bd.
  assert (I : forall b, In b ((range 0x0400 0x7BFF ++ range 0x8400 0xFBFF) ++ range 0 0x3FF ++ range 0x8000 0x83FF) <->
    0x0400 <= b <= 0x7BFF \/ 0x8400 <= b <= 0xFBFF \/ 0 <= b <= 0x3FF \/ 0x8000 <= b <= 0x83FF).
  { intros b. rewrite !in_app_iff, !range_in. tauto. }
  assert (K : forall b, In b ((range 0x0400 0x7BFF ++ range 0x8400 0xFBFF) ++ range 0 0x3FF ++ range 0x8000 0x83FF) <->
    0 <= b < 2 ^ 16 /\ exists s v, ieee 10 5 b = VNum s v).
  { intros b. rewrite I. destruct (Z_lt_dec b 0) as [L|L]; [lia|]. destruct (Z_le_dec (2 ^ 16) b) as [U|U]; [lia|].
    rewrite (finite16 b) by lia. destruct (Z_lt_dec b (2 ^ 15)) as [M|M].
    - rewrite Z.mod_small by lia. lia.
    - replace (b mod 2 ^ 15) with (b - 2 ^ 15); [lia|]. apply Z.mod_unique_pos with 1; lia. }
  split; [|split; [exact K|]].
  - repeat apply NoDup_disjoint; try apply NoDup_range; intros b; rewrite ?in_app_iff, !range_in; lia.
  - rewrite Forall_forall in F |- *. intros [b w] G. destruct (F _ G) as (T1 & T2 & T3). split; [|auto].
    assert (IB : In b (map fst (ns ++ ds))) by (apply in_map_iff; exists (b, w); split; [reflexivity|exact G]).
    rewrite map_app, Bn, Bd in IB. apply K in IB. destruct IB as [Rb _].
    unfold test16_bits in T1. cbn [fst snd] in T1. unfold Binary16.NewFromBits in T1.
    destruct (Facts16.Float64_correct b Rb) as (d & Ed & Hd & Hi). rewrite Ed in T1. cbn [bind] in T1.
    injection T1 as T1. apply Z.eqb_eq in T1. cbn [fst snd]. rewrite T1. exact Hi.
Qed.

(** 1000 + 14 * 2^-43 + 2^-103: the text of 35 digits reads back as the float64 below. *)
Lemma c71_refuted : exists exps mants ns g, Forall (fun e => 1 <= e <= 0x7FFE) exps /\ Forall (fun m => 0 <= fst m < 2 ^ 48 /\ 0 <= snd m < 2 ^ 64) mants /\
  getNormalized128 (fun x => GenText.Text_g x 35) exps mants = Ret ns /\ In g ns /\ test128_acc GenText.reread g = Ret false.
Proof.
  exists [16392], [(0xf40000000000, 0xe000000000000001)].
  eexists. eexists. split; [repeat constructor; lia|]. split; [repeat constructor; cbn; lia|].
  split; [vm_compute; reflexivity|]. split; [left; reflexivity|]. vm_compute. reflexivity.
Qed.
