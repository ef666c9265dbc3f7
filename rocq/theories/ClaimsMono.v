(** The conversions keep the order of numbers (C68, C69), and float128ppc to float64 (C70). *)
From Coq Require Import ZArith Reals Lia Lra Bool List.
From Flocq Require Import Core.
From Verif Require Import GoBase.
From Verif Require BigFloat Float128ppc Binary16 Binary128 Float80x86.
From Verif Require Import Spec SpecOrder BitFacts RoundFacts IeeeFacts BigFacts BigFacts2 BigFacts3 PkgFacts FactsPpc ClaimsPpc ClaimsMore.
From Verif Require Facts16 Facts128 Facts80 Claims16 Claims128 Claims80 AllBig PkgExact.
Import BigFloat (bitlen, gexp, prec, rmode, acc, neg, frm, Finite, MaxExp, MinExp, MaxPrec).
Import Float128ppc (Float, mkFloat, high, low).
Open Scope Z_scope.

Lemma range_nz lo v : (p2 lo <= Rabs v)%R -> v <> 0%R.
Proof. intros H ->. rewrite Rabs_R0 in H. pose proof (p2_pos lo). lra. Qed.

(** ** NewFromBig truncates *)
Lemma val16 x s v : wf x -> bval x = VNum s v -> v = 0%R \/ (p2 (-24) <= Rabs v < p2 16)%R ->
  ieee 10 5 (fst (Binary16.NewFromBig x)) = VNum s (rz 10 5 v).
Proof.
  intros W B [-> |H].
  - rewrite rz_0. destruct (Claims16.c08_16 s) as (_ & _ & _ & _ & _ & _ & _ & H & _ & _ & Hz).
    rewrite (H x W B). exact Hz.
  - destruct (bval_finite x s v W B (range_nz _ _ (proj1 H))) as (m & e & Hf & Hm & Hn & Hr).
    pose proof (Claims16.c07_partial x m e W Hf) as P. cbv zeta in P. rewrite Hn, <- Hr in P. apply (P H).
Qed.

Lemma val128 x s v : wf x -> bval x = VNum s v -> v = 0%R \/ (p2 (-16494) <= Rabs v < p2 16384)%R ->
  exists f a, Binary128.NewFromBig x = Ret (f, a) /\ quad (Binary128.fa f) (Binary128.fb f) = VNum s (rz 112 15 v).
Proof.
  intros W B [-> |H].
  - rewrite rz_0. destruct (Claims128.c08_128 s) as (_ & _ & _ & _ & _ & _ & _ & H & _ & _ & Hz).
    rewrite (H x W B). eexists _, _. split; [reflexivity|exact Hz].
  - destruct (bval_finite x s v W B (range_nz _ _ (proj1 H))) as (m & e & Hf & Hm & Hn & Hr).
    pose proof (Claims128.c15_partial x m e W Hf) as P. cbv zeta in P. rewrite Hn, <- Hr in P.
    destruct (P H) as (f & a & E & Q & _). eauto.
Qed.

Lemma val80 x s v : wf x -> bval x = VNum s v -> v = 0%R \/ (p2 (-16445) <= Rabs v < p2 16384)%R ->
  let f := fst (Float80x86.NewFromBig x) in x87 (Float80x86.se f) (Float80x86.m f) = VNum s (rz 63 15 v).
Proof.
  intros W B [-> |H].
  - rewrite rz_0. destruct (Claims80.c08_80 s) as (_ & _ & _ & _ & _ & _ & _ & H & _ & _ & Hz).
    rewrite (H x W B). exact Hz.
  - destruct (bval_finite x s v W B (range_nz _ _ (proj1 H))) as (m & e & Hf & Hm & Hn & Hr).
    pose proof (Claims80.c21_partial x m e W Hf) as P. cbv zeta in P. rewrite Hn, <- Hr in P. specialize (P H).
    destruct (Float80x86.NewFromBig x) as [f a]. apply P.
Qed.

Lemma c68_16 : forall x y s t u v, wf x -> wf y -> bval x = VNum s u -> bval y = VNum t v ->
  u = 0%R \/ (p2 (-24) <= Rabs u < p2 16)%R -> v = 0%R \/ (p2 (-24) <= Rabs v < p2 16)%R -> (u <= v)%R ->
  vle (ieee 10 5 (fst (Binary16.NewFromBig x))) (ieee 10 5 (fst (Binary16.NewFromBig y))).
Proof.
  intros x y s t u v Wx Wy Bx By Hu Hv H. rewrite (val16 x s u Wx Bx Hu), (val16 y t v Wy By Hv).
  cbn [vle]. apply rz_mono; [lia|exact H].
Qed.

Lemma c68_128 : forall x y s t u v, wf x -> wf y -> bval x = VNum s u -> bval y = VNum t v ->
  u = 0%R \/ (p2 (-16494) <= Rabs u < p2 16384)%R -> v = 0%R \/ (p2 (-16494) <= Rabs v < p2 16384)%R -> (u <= v)%R ->
  exists f a g b, Binary128.NewFromBig x = Ret (f, a) /\ Binary128.NewFromBig y = Ret (g, b) /\
    vle (quad (Binary128.fa f) (Binary128.fb f)) (quad (Binary128.fa g) (Binary128.fb g)).
Proof.
  intros x y s t u v Wx Wy Bx By Hu Hv H.
  destruct (val128 x s u Wx Bx Hu) as (f & a & E & Q). destruct (val128 y t v Wy By Hv) as (g & b & E' & Q').
  exists f, a, g, b. split; [exact E|]. split; [exact E'|]. rewrite Q, Q'. cbn [vle]. apply rz_mono; [lia|exact H].
Qed.

Lemma c68_80 : forall x y s t u v, wf x -> wf y -> bval x = VNum s u -> bval y = VNum t v ->
  u = 0%R \/ (p2 (-16445) <= Rabs u < p2 16384)%R -> v = 0%R \/ (p2 (-16445) <= Rabs v < p2 16384)%R -> (u <= v)%R ->
  let f := fst (Float80x86.NewFromBig x) in let g := fst (Float80x86.NewFromBig y) in
  vle (x87 (Float80x86.se f) (Float80x86.m f)) (x87 (Float80x86.se g) (Float80x86.m g)).
Proof.
  intros x y s t u v Wx Wy Bx By Hu Hv H f g. unfold f, g. rewrite (val80 x s u Wx Bx Hu), (val80 y t v Wy By Hv).
  cbn [vle]. apply rz_mono; [lia|exact H].
Qed.

Lemma rnd_prec_mono md p u v : 0 < p -> (u <= v)%R -> (rnd_prec md p u <= rnd_prec md p v)%R.
Proof.
  intros Hp H. unfold rnd_prec. pose proof (valid_mode_rnd md). assert (Prec_gt_0 p) by exact Hp. apply round_le; try typeclasses eauto. exact H.
Qed.

Lemma rnd_prec_0 md p : rnd_prec md p 0 = 0%R.
Proof. unfold rnd_prec. apply round_0. apply valid_mode_rnd. Qed.

(** binary16.NewFromFloat64 rounds at 11 bits and truncates. *)
Lemma val16_64 x s v : 0 <= x < 2 ^ 64 -> ieee 52 11 x = VNum s v ->
  v = 0%R \/ (p2 (-24) <= Rabs v)%R /\ (Rabs (rnd_prec BigFloat.ToNearestEven 11 v) < p2 16)%R ->
  exists b a, Binary16.NewFromFloat64 x = Ret (b, a) /\ ieee 10 5 b = VNum s (rz 10 5 (rnd_prec BigFloat.ToNearestEven 11 v)).
Proof.
  intros Hx Hi [-> |[H1 H2]].
  - rewrite rnd_prec_0, rz_0. destruct (Claims16.c08_16 s) as (_ & _ & H & _ & _ & _ & _ & _ & _ & _ & Hz).
    rewrite (H x Hx Hi). eexists _, _. split; [reflexivity|exact Hz].
  - destruct (Facts16.nff64_general x s v Hx Hi H1 H2) as (b & E & _ & Q). eauto.
Qed.

Lemma c68_16_64 : forall x y s t u v, 0 <= x < 2 ^ 64 -> 0 <= y < 2 ^ 64 -> ieee 52 11 x = VNum s u -> ieee 52 11 y = VNum t v ->
  u = 0%R \/ (p2 (-24) <= Rabs u)%R /\ (Rabs (rnd_prec BigFloat.ToNearestEven 11 u) < p2 16)%R ->
  v = 0%R \/ (p2 (-24) <= Rabs v)%R /\ (Rabs (rnd_prec BigFloat.ToNearestEven 11 v) < p2 16)%R -> (u <= v)%R ->
  exists b a b' a', Binary16.NewFromFloat64 x = Ret (b, a) /\ Binary16.NewFromFloat64 y = Ret (b', a') /\
    vle (ieee 10 5 b) (ieee 10 5 b').
Proof.
  intros x y s t u v Hx Hy Ex Ey Hu Hv H.
  destruct (val16_64 x s u Hx Ex Hu) as (b & a & E & Q). destruct (val16_64 y t v Hy Ey Hv) as (b' & a' & E' & Q').
  exists b, a, b', a'. split; [exact E|]. split; [exact E'|]. rewrite Q, Q'. cbn [vle].
  apply rz_mono; [lia|]. apply rnd_prec_mono; [lia|exact H].
Qed.

(** 2^15 < 2^17, but 2^17 becomes 0; and 2^-25 becomes 0 while the smaller 1.25*2^-26 becomes 2^-15. *)
Lemma c68_refuted : exists x y, wf x /\ wf y /\ bval x = VNum false (IZR 1 * p2 15) /\ bval y = VNum false (IZR 1 * p2 17) /\
  ~ vle (ieee 10 5 (fst (Binary16.NewFromBig x))) (ieee 10 5 (fst (Binary16.NewFromBig y))).
Proof.
  exists (BigFloat.mkBF 53 BigFloat.ToNearestEven BigFloat.Exact false (Finite 1 15)),
         (BigFloat.mkBF 53 BigFloat.ToNearestEven BigFloat.Exact false (Finite 1 17)).
  split; [apply Claims16.fin_wf; unfold MaxPrec, MinExp, MaxExp; vm_compute; intuition congruence|].
  split; [apply Claims16.fin_wf; unfold MaxPrec, MinExp, MaxExp; vm_compute; intuition congruence|].
  split; [reflexivity|]. split; [reflexivity|].
  match goal with |- ~ vle (ieee 10 5 ?a) (ieee 10 5 ?b) =>
    let a' := eval vm_compute in a in let b' := eval vm_compute in b in
    change a with a'; change b with b' end.
  change 0x7800 with (enc 10 5 false 30 0). change (ieee 10 5 0) with (ieee 10 5 (enc 10 5 false 0 0)).
  rewrite ieee_enc_norm, ieee_enc_sub by lia. cbn [vle sgnR]. rewrite Rmult_0_l.
  apply Rlt_not_le. apply Rmult_lt_0_compat; [apply (IZR_lt 0); lia|apply p2_pos].
Qed.

(** ** Correct rounding keeps the order *)
Lemma ieee_round_mono mb eb s t u v : 1 <= mb -> sign_ok s u -> sign_ok t v -> (u <= v)%R ->
  vle (ieee_round mb eb s u) (ieee_round mb eb t v).
Proof.
  intros Hm [S1 S2] [T1 T2] H. pose proof (PkgExact.rn_mono mb eb u v Hm H) as M.
  assert (RS : forall w, ((0 <= w -> 0 <= rn mb eb w) /\ (w <= 0 -> rn mb eb w <= 0))%R).
  { intros w. pose proof (rn_0 mb eb) as R0. split; intros L.
    - pose proof (PkgExact.rn_mono mb eb 0 w Hm L). lra.
    - pose proof (PkgExact.rn_mono mb eb w 0 Hm L). lra. }
  pose proof (p2_pos (2 ^ (eb - 1))) as PP.
  unfold ieee_round. destruct (Rle_bool_spec (p2 (2 ^ (eb - 1))) (Rabs (rn mb eb u))) as [Lu|Lu];
    destruct (Rle_bool_spec (p2 (2 ^ (eb - 1))) (Rabs (rn mb eb v))) as [Lv|Lv]; cbn [vle].
  - destruct s; [exact I|]. destruct t; [|exact I]. 
    destruct (Rle_or_lt 0 v) as [L|L].
    + destruct (Req_dec v 0) as [E|E]; [rewrite E, rn_0, Rabs_R0 in Lv; lra|]. discriminate (T2 ltac:(lra)).
    + discriminate (S1 ltac:(lra)).
  - destruct s; [exact I|].
    assert (0 <= u)%R by (destruct (Rle_or_lt 0 u) as [|L]; [assumption|]; discriminate (S1 ltac:(lra))).
    rewrite Rabs_pos_eq in Lu by (apply RS; assumption). rewrite Rabs_pos_eq in Lv by (apply RS; lra). lra.
  - destruct t; [|exact I].
    assert (v <= 0)%R by (destruct (Rle_or_lt v 0) as [|L]; [assumption|]; discriminate (T2 ltac:(lra))).
    rewrite Rabs_left1 in Lv by (apply RS; assumption). rewrite Rabs_left1 in Lu by (apply RS; lra). lra.
  - exact M.
Qed.

Lemma sgnR_sign_ok s x : (0 <= x)%R -> sign_ok s (sgnR s x).
Proof. intros H. unfold sign_ok, sgnR. destruct s; split; intros; auto; lra. Qed.

Lemma ieee_sign_ok mb eb b s v : 0 <= mb -> ieee mb eb b = VNum s v -> sign_ok s v.
Proof.
  intros Hm. unfold ieee. set (S := Z.odd _). pose proof (pow2_pos mb Hm) as P. pose proof (Z.mod_pos_bound b (2 ^ mb) P) as F.
  destruct (_ =? _); [destruct (_ =? _); discriminate|].
  destruct (_ =? _); intros H; apply VNum_inj in H; destruct H as [<- <-]; apply sgnR_sign_ok;
    (apply Rmult_le_pos; [apply (IZR_le 0); lia|apply Rlt_le, p2_pos]).
Qed.

Lemma x87_sign_ok a b s v : 0 <= b -> x87 a b = VNum s v -> sign_ok s v.
Proof.
  intros Hb. unfold x87. set (S := Z.odd _). destruct (_ =? _); [destruct (_ =? _); discriminate|].
  intros H; apply VNum_inj in H; destruct H as [<- <-]; apply sgnR_sign_ok;
    (apply Rmult_le_pos; [apply (IZR_le 0); lia|apply Rlt_le, p2_pos]).
Qed.

(** One rounding of both sides, special values unchanged. *)
Lemma round_vle mb eb X Y x y : 1 <= mb ->
  (forall s v, X = VNum s v -> sign_ok s v) -> (forall s v, Y = VNum s v -> sign_ok s v) ->
  match X with VNum s v => x = ieee_round mb eb s v | v => x = v end ->
  match Y with VNum s v => y = ieee_round mb eb s v | v => y = v end -> vle X Y -> vle x y.
Proof.
  intros Hm SX SY HX HY H.
  destruct X as [s|s|s u]; [destruct H| |]; (destruct Y as [t|t|t v]; [destruct s; destruct H || contradiction| |]); subst x y.
  - exact H.
  - destruct s; [|contradiction]. unfold ieee_round. destruct (Rle_bool _ _); exact I.
  - destruct t; [contradiction|]. unfold ieee_round. destruct (Rle_bool _ _); [destruct s|]; exact I.
  - apply ieee_round_mono; auto.
Qed.

Lemma c69_128 : forall f g, 0 <= Binary128.fa f < 2 ^ 64 -> 0 <= Binary128.fb f < 2 ^ 64 ->
  0 <= Binary128.fa g < 2 ^ 64 -> 0 <= Binary128.fb g < 2 ^ 64 ->
  vle (quad (Binary128.fa f) (Binary128.fb f)) (quad (Binary128.fa g) (Binary128.fb g)) ->
  (exists d a d' a', Binary128.Float64 f = Ret (d, a) /\ Binary128.Float64 g = Ret (d', a') /\ vle (ieee 52 11 d) (ieee 52 11 d')) /\
  (exists d a d' a', Binary128.Float32 f = Ret (d, a) /\ Binary128.Float32 g = Ret (d', a') /\ vle (ieee 23 8 d) (ieee 23 8 d')).
Proof.
  intros f g H1 H2 H3 H4 H.
  destruct (Claims128.c14 f H1 H2) as (d & a & e & b & E1 & _ & E2 & _ & Q).
  destruct (Claims128.c14 g H3 H4) as (d' & a' & e' & b' & E1' & _ & E2' & _ & Q').
  assert (SX : forall s v, quad (Binary128.fa f) (Binary128.fb f) = VNum s v -> sign_ok s v) by (intros s v; apply ieee_sign_ok; lia).
  assert (SY : forall s v, quad (Binary128.fa g) (Binary128.fb g) = VNum s v -> sign_ok s v) by (intros s v; apply ieee_sign_ok; lia).
  split.
  - exists d, a, d', a'. split; [exact E1|]. split; [exact E1'|]. revert H. apply (round_vle 52 11); try lia; try assumption.
    + destruct (quad (Binary128.fa f) _); apply Q.
    + destruct (quad (Binary128.fa g) _); apply Q'.
  - exists e, b, e', b'. split; [exact E2|]. split; [exact E2'|]. revert H. apply (round_vle 23 8); try lia; try assumption.
    + destruct (quad (Binary128.fa f) _); apply Q.
    + destruct (quad (Binary128.fa g) _); apply Q'.
Qed.

Lemma c69_80 : forall f g, 0 <= Float80x86.se f < 2 ^ 16 -> 0 <= Float80x86.m f < 2 ^ 64 ->
  0 <= Float80x86.se g < 2 ^ 16 -> 0 <= Float80x86.m g < 2 ^ 64 ->
  vle (x87 (Float80x86.se f) (Float80x86.m f)) (x87 (Float80x86.se g) (Float80x86.m g)) ->
  (exists d a d' a', Float80x86.Float64 f = Ret (d, a) /\ Float80x86.Float64 g = Ret (d', a') /\ vle (ieee 52 11 d) (ieee 52 11 d')) /\
  (exists d a d' a', Float80x86.Float32 f = Ret (d, a) /\ Float80x86.Float32 g = Ret (d', a') /\ vle (ieee 23 8 d) (ieee 23 8 d')).
Proof.
  intros f g H1 H2 H3 H4 H.
  destruct (Claims80.c20 f H1 H2) as (d & a & e & b & E1 & _ & E2 & _ & Q).
  destruct (Claims80.c20 g H3 H4) as (d' & a' & e' & b' & E1' & _ & E2' & _ & Q').
  assert (SX : forall s v, x87 (Float80x86.se f) (Float80x86.m f) = VNum s v -> sign_ok s v) by (intros s v; apply x87_sign_ok; lia).
  assert (SY : forall s v, x87 (Float80x86.se g) (Float80x86.m g) = VNum s v -> sign_ok s v) by (intros s v; apply x87_sign_ok; lia).
  split.
  - exists d, a, d', a'. split; [exact E1|]. split; [exact E1'|]. revert H. apply (round_vle 52 11); try lia; try assumption.
    + destruct (x87 (Float80x86.se f) _); apply Q.
    + destruct (x87 (Float80x86.se g) _); apply Q'.
  - exists e, b, e', b'. split; [exact E2|]. split; [exact E2'|]. revert H. apply (round_vle 23 8); try lia; try assumption.
    + destruct (x87 (Float80x86.se f) _); apply Q.
    + destruct (x87 (Float80x86.se g) _); apply Q'.
Qed.

(** ** float128ppc *)
Lemma ppc_floats : forall a b s1 v1 s2 v2, 0 <= a < 2 ^ 64 -> 0 <= b < 2 ^ 64 ->
  ieee 52 11 a = VNum s1 v1 -> ieee 52 11 b = VNum s2 v2 ->
  let f := Float128ppc.NewFromBits a b in let v := (v1 + v2)%R in
  let y := rnd_prec BigFloat.ToNearestEven 106 v in
  exists t d ad g ag, Float128ppc.Float64 f = Ret (d, ad) /\ 0 <= d < 2 ^ 64 /\ ieee 52 11 d = ieee_round 52 11 t y /\ acc_ok ad (ieee 52 11 d) y /\
    Float128ppc.Float32 f = Ret (g, ag) /\ 0 <= g < 2 ^ 32 /\ ieee 23 8 g = ieee_round 23 8 t y /\ acc_ok ag (ieee 23 8 g) y /\
    sign_ok t v /\ (v = 0%R -> t = s1).
Proof.
  intros a b s1 v1 s2 v2 Ha Hb E1 E2 f v y.
  destruct (Big_num f s1 v1 s2 v2 (conj Ha Hb) E1 E2) as (x & t & HB & W & P & M & B & S & A).
  fold v in S. destruct S as (S1 & S2 & S3).
  pose proof (ToFloat_val 52 11 x ltac:(lia) ltac:(lia) ltac:(unfold MaxExp; lia) W) as H64.
  pose proof (ToFloat_val 23 8 x ltac:(lia) ltac:(lia) ltac:(unfold MaxExp; lia) W) as H32.
  cbv zeta in B. fold v in B. fold y in B. rewrite B in H64, H32.
  unfold Float128ppc.Float64, Float128ppc.Float32. rewrite HB. cbn [bind]. unfold BigFloat.Float64, BigFloat.Float32.
  destruct (BigFloat.ToFloat 52 11 x) as [d ad]. destruct (BigFloat.ToFloat 23 8 x) as [g ag].
  destruct H64 as (R1 & Q1 & Q2). destruct H32 as (R2 & Q3 & Q4).
  exists t, d, ad, g, ag. repeat (split; [first [reflexivity|assumption]|]).
  split; [split; assumption|assumption].
Qed.

Lemma c70_partial : forall a b s1 v1 s2 v2, 0 <= a < 2 ^ 64 -> 0 <= b < 2 ^ 64 ->
  ieee 52 11 a = VNum s1 v1 -> ieee 52 11 b = VNum s2 v2 ->
  (exists K c, (v1 + v2 = IZR K * p2 c)%R /\ Z.abs K < 2 ^ 106) ->
  let f := Float128ppc.NewFromBits a b in let v := (v1 + v2)%R in
  exists t d ad g ag, Float128ppc.Float64 f = Ret (d, ad) /\ ieee 52 11 d = ieee_round 52 11 t v /\ acc_ok ad (ieee 52 11 d) v /\
    Float128ppc.Float32 f = Ret (g, ag) /\ ieee 23 8 g = ieee_round 23 8 t v /\ acc_ok ag (ieee 23 8 g) v /\
    sign_ok t v /\ (v = 0%R -> t = s1) /\ (rn 52 11 v = v1 -> d = a).
Proof.
  intros a b s1 v1 s2 v2 Ha Hb E1 E2 HK f v.
  destruct (ppc_floats a b s1 v1 s2 v2 Ha Hb E1 E2) as (t & d & ad & g & ag & F1 & R1 & V1 & A1 & F2 & R2 & V2 & A2 & S & S0).
  cbv zeta in *. fold v in V1, A1, V2, A2, S, S0, HK. rewrite (bits_le_rnd _ 106 v ltac:(lia) HK) in *.
  exists t, d, ad, g, ag. repeat (split; [assumption|]). intros Hr.
  pose proof (fits_ieee 52 11 a s1 v1 ltac:(lia) ltac:(lia) Ha E1) as [Fa _].
  rewrite (ieee_round_num 52 11 t v) in V1 by (rewrite Hr; apply Fa). rewrite Hr in V1.
  apply (ieee_inj 52 11); try lia; [|intros; congruence]. rewrite V1, E1. f_equal.
  destruct (Req_dec v 0) as [Z|Z]; [auto|].
  destruct (sign_fits a s1 v1 Ha E1) as [Q1 Q2]. destruct (rn_sign v) as [P1 P2]. rewrite Hr in P1, P2.
  destruct S as [S1 S2].
  destruct (Req_dec v1 0) as [Z1|Z1].
  - exfalso. apply Z. unfold v in *. rewrite Z1, Rplus_0_l in *.
    pose proof (fits_ieee 52 11 b s2 v2 ltac:(lia) ltac:(lia) Hb E2) as [Fb _]. rewrite (fits_rn 52 11 v2 ltac:(lia) Fb) in Hr. exact Hr.
  - destruct (Rtotal_order v 0) as [L|[L|L]]; [|contradiction|].
    + rewrite S1 by exact L. symmetry. apply Q1. specialize (P2 ltac:(lra)). lra.
    + rewrite S2 by lra. symmetry. apply Q2. specialize (P1 ltac:(lra)). lra.
Qed.

(** (1 + 2^-52, 2^-53 - 2^-106): the sum needs 107 bits and is first rounded up to a tie. *)
Lemma c70_refuted : exists a b v1 v2 d, 0 <= a < 2 ^ 64 /\ 0 <= b < 2 ^ 64 /\
  ieee 52 11 a = VNum false v1 /\ ieee 52 11 b = VNum false v2 /\ rn 52 11 (v1 + v2) = v1 /\
  Float128ppc.Float64 (Float128ppc.NewFromBits a b) = Ret (d, BigFloat.Above) /\ d <> a.
Proof.
  exists 0x3FF0000000000001, 0x3C9FFFFFFFFFFFFF, (IZR ((2 ^ 52 + 1) * 2 ^ 54) * p2 (-106))%R, (IZR (2 ^ 53 - 1) * p2 (-106))%R, 0x3FF0000000000002.
  split; [lia|]. split; [lia|].
  assert (E1 : ieee 52 11 0x3FF0000000000001 = VNum false (IZR ((2 ^ 52 + 1) * 2 ^ 54) * p2 (-106))).
  { change 0x3FF0000000000001 with (enc 52 11 false 1023 1). rewrite ieee_enc_norm by lia. f_equal. cbn [sgnR].
    rewrite scale_R by lia. do 2 f_equal. }
  split; [exact E1|]. split.
  { change 0x3C9FFFFFFFFFFFFF with (enc 52 11 false 969 (2 ^ 52 - 1)). rewrite ieee_enc_norm by lia. reflexivity. }
  split.
  - rewrite <- Rmult_plus_distr_r, <- plus_IZR.
    pose proof (ToFloat_val 52 11 (BigFloat.mkBF 2000 BigFloat.ToNearestEven BigFloat.Exact false (Finite ((2 ^ 52 + 1) * 2 ^ 54 + (2 ^ 53 - 1)) (-106)))
      ltac:(lia) ltac:(lia) ltac:(unfold MaxExp; lia)) as H.
    match type of H with _ -> let '(b, a) := ?t in _ => assert (T : fst t = 0x3FF0000000000001) by (vm_compute; reflexivity) end.
    destruct (BigFloat.ToFloat 52 11 _) as [b a]. cbn [fst] in T. subst b.
    destruct H as (_ & H & _); [apply Claims16.fin_wf; unfold MaxPrec, MinExp, MaxExp; vm_compute; intuition congruence|].
    cbn [frm neg] in H. unfold ieee_round in H.
    rewrite E1 in H. cbn [sgnR] in H. destruct (Rle_bool _ _); [discriminate|]. apply VNum_inj in H. symmetry. apply H.
  - split; [vm_compute; reflexivity|lia].
Qed.

Lemma c69_ppc : forall a b a' b' s1 v1 s2 v2 t1 w1 t2 w2,
  0 <= a < 2 ^ 64 -> 0 <= b < 2 ^ 64 -> 0 <= a' < 2 ^ 64 -> 0 <= b' < 2 ^ 64 ->
  ieee 52 11 a = VNum s1 v1 -> ieee 52 11 b = VNum s2 v2 -> ieee 52 11 a' = VNum t1 w1 -> ieee 52 11 b' = VNum t2 w2 ->
  (v1 + v2 <= w1 + w2)%R ->
  (exists d e d' e', Float128ppc.Float64 (Float128ppc.NewFromBits a b) = Ret (d, e) /\
     Float128ppc.Float64 (Float128ppc.NewFromBits a' b') = Ret (d', e') /\ vle (ieee 52 11 d) (ieee 52 11 d')) /\
  (exists d e d' e', Float128ppc.Float32 (Float128ppc.NewFromBits a b) = Ret (d, e) /\
     Float128ppc.Float32 (Float128ppc.NewFromBits a' b') = Ret (d', e') /\ vle (ieee 23 8 d) (ieee 23 8 d')).
Proof.
  intros a b a' b' s1 v1 s2 v2 t1 w1 t2 w2 Ha Hb Ha' Hb' E1 E2 E1' E2' H.
  destruct (ppc_floats a b s1 v1 s2 v2 Ha Hb E1 E2) as (t & d & ad & g & ag & F1 & _ & V1 & _ & F2 & _ & V2 & _ & S & _).
  destruct (ppc_floats a' b' t1 w1 t2 w2 Ha' Hb' E1' E2') as (t' & d' & ad' & g' & ag' & F1' & _ & V1' & _ & F2' & _ & V2' & _ & S' & _).
  cbv zeta in *.
  assert (R : forall s v, sign_ok s v -> sign_ok s (rnd_prec BigFloat.ToNearestEven 106 v)).
  { intros s v [Q1 Q2]. split; intros L.
    - apply Q1. destruct (Rle_or_lt 0 v) as [L'|]; [|assumption].
      pose proof (rnd_prec_mono BigFloat.ToNearestEven 106 0 v ltac:(lia) L') as M. rewrite rnd_prec_0 in M. lra.
    - apply Q2. destruct (Rle_or_lt v 0) as [L'|]; [|assumption].
      pose proof (rnd_prec_mono BigFloat.ToNearestEven 106 v 0 ltac:(lia) L') as M. rewrite rnd_prec_0 in M. lra. }
  pose proof (rnd_prec_mono BigFloat.ToNearestEven 106 _ _ ltac:(lia) H) as M.
  split.
  - exists d, ad, d', ad'. split; [exact F1|]. split; [exact F1'|]. rewrite V1, V1'. apply ieee_round_mono; auto; lia.
  - exists g, ag, g', ag'. split; [exact F2|]. split; [exact F2'|]. rewrite V2, V2'. apply ieee_round_mono; auto; lia.
Qed.

(** The distance to the next float64 is a power of two. *)
Lemma gap_pow h : generic_format radix2 (FLT_exp (-1074) 53) h ->
  exists k, -1074 <= k /\ (succ radix2 (FLT_exp (-1074) 53) h - h = p2 k)%R.
Proof.
  intros F. assert (Prec_gt_0 53) by (unfold Prec_gt_0; lia).
  assert (U : forall x, exists k, -1074 <= k /\ ulp radix2 (FLT_exp (-1074) 53) x = p2 k).
  { intros x. destruct (Req_dec x 0) as [-> |Z].
    - exists (-1074). split; [lia|]. apply (ulp_FLT_0 radix2 (-1074) 53).
    - rewrite ulp_neq_0 by exact Z. exists (cexp radix2 (FLT_exp (-1074) 53) x). split; [unfold cexp, FLT_exp; lia|reflexivity]. }
  unfold succ. destruct (Rle_bool_spec 0 h) as [L|L].
  - destruct (U h) as (k & K & E). exists k. split; [exact K|]. rewrite E. ring.
  - unfold pred_pos. destruct (Req_bool_spec (- h) (bpow radix2 (mag radix2 (- h) - 1))) as [E|E].
    + exists (FLT_exp (-1074) 53 (mag radix2 (- h) - 1)). split; [unfold FLT_exp; lia|]. unfold p2. ring.
    + destruct (U (- h)%R) as (k & K & Eu). exists k. split; [exact K|]. rewrite Eu. ring.
Qed.

Lemma rn_half_gap k : -1074 <= k -> (rn 52 11 (p2 (k - 1)) <= p2 (k - 1))%R /\ (- p2 (k - 1) <= rn 52 11 (- p2 (k - 1)))%R.
Proof.
  intros K. assert (Prec_gt_0 53) by (unfold Prec_gt_0; lia).
  assert (E : rn 52 11 (- p2 (k - 1)) = (- rn 52 11 (p2 (k - 1)))%R) by (apply round_NE_opp).
  assert (Q : (rn 52 11 (p2 (k - 1)) <= p2 (k - 1))%R).
  { destruct (Z_le_gt_dec (-1073) k) as [L|L].
    - right. apply round_generic; [typeclasses eauto|]. apply generic_format_bpow. unfold FLT_exp. lia.
    - replace (k - 1) with (-1075) by lia.
      replace (rn 52 11 (p2 (-1075))) with 0%R; [apply Rlt_le, p2_pos|]. symmetry.
      unfold rn, round, scaled_mantissa, cexp. replace (mag radix2 (p2 (-1075)) : Z) with (-1074) by (unfold p2; rewrite mag_bpow; reflexivity).
      change (FLT_exp _ _ (-1074)) with (-1074). unfold p2. rewrite <- bpow_plus. change (-1075 + - -1074) with (-1).
      replace (ZnearestE (bpow radix2 (-1))) with 0; [unfold F2R; cbn; ring|].
      change (bpow radix2 (-1)) with (/ 2)%R. symmetry. unfold Znearest.
      assert (Zf : Zfloor (/ 2) = 0) by (apply Zfloor_imp; cbn; lra). rewrite Zf.
      rewrite Rcompare_Eq by lra. reflexivity. }
  split; [exact Q|]. rewrite E. lra.
Qed.

(** Splitting into two float64s keeps the order. *)
Lemma split_mono y z : (Rabs (rn 52 11 y) < p2 1024)%R -> (Rabs (rn 52 11 z) < p2 1024)%R -> (y <= z)%R ->
  (rn 52 11 y + rn 52 11 (y - rn 52 11 y) <= rn 52 11 z + rn 52 11 (z - rn 52 11 z))%R.
Proof.
  intros Hy Hz H. assert (Prec_gt_0 53) by (unfold Prec_gt_0; lia).
  pose proof (PkgExact.rn_mono 52 11 y z ltac:(lia) H) as M.
  destruct (Req_dec (rn 52 11 y) (rn 52 11 z)) as [E|E].
  - rewrite E. apply Rplus_le_compat_l. apply PkgExact.rn_mono; [lia|]. lra.
  - assert (L : (rn 52 11 y < rn 52 11 z)%R) by lra. clear M E.
    set (fexp := FLT_exp (-1074) 53).
    assert (Fy : generic_format radix2 fexp (rn 52 11 y)) by (apply generic_format_round; typeclasses eauto).
    assert (Fz : generic_format radix2 fexp (rn 52 11 z)) by (apply generic_format_round; typeclasses eauto).
    set (g := rn 52 11 y) in *. set (h := rn 52 11 z) in *.
    pose proof (generic_format_pred radix2 fexp h Fz) as Fp.
    assert (N1 : (succ radix2 fexp g <= h)%R) by (apply succ_le_lt; try typeclasses eauto; assumption).
    assert (N2 : (g <= pred radix2 fexp h)%R) by (apply pred_ge_gt; try typeclasses eauto; assumption).
    assert (SP : succ radix2 fexp (pred radix2 fexp h) = h) by (apply succ_pred; try typeclasses eauto; assumption).
    (* y is at most the midpoint above g, z at least the one below h *)
    assert (Y : (y <= (g + succ radix2 fexp g) / 2)%R).
    { destruct (Rle_or_lt y ((g + succ radix2 fexp g) / 2)) as [|G]; [assumption|]. exfalso.
      assert (G2 : (succ radix2 fexp g <= round radix2 fexp ZnearestE y)%R).
      { apply round_N_ge_midp; try typeclasses eauto; [apply generic_format_succ; try typeclasses eauto; assumption|].
        rewrite pred_succ; try typeclasses eauto; [|assumption]. lra. }
      change (round radix2 fexp ZnearestE y) with g in G2. destruct (gap_pow g Fy) as (k & _ & Ek). fold fexp in Ek. pose proof (p2_pos k). lra. }
    assert (Zm : ((pred radix2 fexp h + h) / 2 <= z)%R).
    { destruct (Rle_or_lt ((pred radix2 fexp h + h) / 2) z) as [|G]; [assumption|]. exfalso.
      assert (G2 : (round radix2 fexp ZnearestE z <= pred radix2 fexp h)%R).
      { apply round_N_le_midp; try typeclasses eauto; [assumption|]. rewrite SP. exact G. }
      change (round radix2 fexp ZnearestE z) with h in G2. destruct (gap_pow _ Fp) as (k & _ & Ek). fold fexp in Ek. rewrite SP in Ek. pose proof (p2_pos k). lra. }
    destruct (gap_pow g Fy) as (k & K & Ek). destruct (gap_pow _ Fp) as (j & J & Ej). fold fexp in Ek, Ej. rewrite SP in Ej.
    destruct (rn_half_gap k K) as [Q1 _]. destruct (rn_half_gap j J) as [_ Q2].
    assert (P2 : forall i, p2 i = (2 * p2 (i - 1))%R).
    { intros i. replace i with (1 + (i - 1)) at 1 by lia. rewrite p2_plus. reflexivity. }
    pose proof (P2 k). pose proof (P2 j).
    pose proof (PkgExact.rn_mono 52 11 (y - g) (p2 (k - 1)) ltac:(lia) ltac:(lra)).
    pose proof (PkgExact.rn_mono 52 11 (- p2 (j - 1)) (z - h) ltac:(lia) ltac:(lra)).
    lra.
Qed.

Lemma c68_ppc : forall x y s t u v, wf x -> wf y -> rmode x = rmode y -> bval x = VNum s u -> bval y = VNum t v ->
  (Rabs (rn 52 11 (rnd_prec (rmode x) 106 u)) < p2 1024)%R -> (Rabs (rn 52 11 (rnd_prec (rmode y) 106 v)) < p2 1024)%R ->
  (u <= v)%R ->
  exists f a x' g b y' s1 h s2 l t1 h' t2 l', Float128ppc.NewFromBig x = Ret (f, a, x') /\ Float128ppc.NewFromBig y = Ret (g, b, y') /\
    ieee 52 11 (high f) = VNum s1 h /\ ieee 52 11 (low f) = VNum s2 l /\
    ieee 52 11 (high g) = VNum t1 h' /\ ieee 52 11 (low g) = VNum t2 l' /\ (h <= h' /\ h + l <= h' + l')%R.
Proof.
  assert (V : forall x s u, wf x -> bval x = VNum s u -> let y := rnd_prec (rmode x) 106 u in (Rabs (rn 52 11 y) < p2 1024)%R ->
    exists f a x' s1 s2, Float128ppc.NewFromBig x = Ret (f, a, x') /\
      ieee 52 11 (high f) = VNum s1 (rn 52 11 y) /\ ieee 52 11 (low f) = VNum s2 (rn 52 11 (y - rn 52 11 y))).
  { intros x s u W B y Hr. destruct (Req_dec u 0) as [Z|Z].
    - subst u. unfold y. rewrite rnd_prec_0, rn_0, Rminus_0_r, rn_0. rewrite (zero_of x s W B).
      destruct s; eexists _, _, _, _, _; (split; [reflexivity|]); split; cbn [high low];
        first [apply zero64|apply negzero64].
    - destruct (NewFromBig_num x s u W B Z Hr) as (h & l & t & E & _ & _ & Vh & Vl & _).
      eexists _, _, _, _, _. split; [exact E|]. split; [exact Vh|exact Vl]. }
  intros x y s t u v Wx Wy Em Bx By Hx Hy H.
  destruct (V x s u Wx Bx Hx) as (f & a & x' & s1 & s2 & E & Vh & Vl).
  destruct (V y t v Wy By Hy) as (g & b & y' & t1 & t2 & E' & Vh' & Vl').
  exists f, a, x', g, b, y', s1. eexists _, s2, _, t1, _, t2, _.
  split; [exact E|]. split; [exact E'|]. split; [exact Vh|]. split; [exact Vl|]. split; [exact Vh'|]. split; [exact Vl'|].
  rewrite <- Em in *. pose proof (rnd_prec_mono (rmode x) 106 u v ltac:(lia) H) as M.
  split; [apply PkgExact.rn_mono; [lia|exact M]|]. apply split_mono; assumption.
Qed.
