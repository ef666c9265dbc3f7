(** Inverting the sign bit: Big, Float64 and Float32 of every format. *)
From Coq Require Import ZArith Lia Bool List Reals Lra String.
From Flocq Require Import Core.
From Verif Require Import GoBase Spec SpecSign BitFacts RoundFacts IeeeFacts BigFacts BigFacts2 SignFacts ClaimsSign.
From Verif Require PkgFacts BigFloat GoFmt Binary16 Binary128 Float80x86 Float128ppc Bfloat FactsPpc ClaimsPpc Claims16 ClaimsBf Claims128 Claims80 Host.
Import BigFloat (bigfloat, mkBF, prec, rmode, neg, frm, acc, Finite, Zero, Inf, Below, Exact, Above, ToNearestEven).
Import ListNotations.
Open Scope Z_scope.

(** * Bits *)
Lemma sign_split n b : 1 <= n -> 0 <= b < 2 ^ n ->
  exists (s : bool) rest, 0 <= rest < 2 ^ (n - 1) /\ b = Z.lor (if s then 2 ^ (n - 1) else 0) rest.
Proof.
  intros Hn Hb.
  assert (E : 2 ^ n = 2 * 2 ^ (n - 1)) by (rewrite <- Z.pow_succ_r by lia; f_equal; lia).
  destruct (Z.ltb_spec b (2 ^ (n - 1))) as [L|L].
  - exists false, b. split; [lia|]. rewrite Z.lor_0_l. reflexivity.
  - exists true, (b - 2 ^ (n - 1)). split; [lia|].
    pose proof (lor_add 1 (b - 2 ^ (n - 1)) (n - 1) ltac:(lia) ltac:(lia)) as L'. rewrite Z.mul_1_l in L'. rewrite L'. lia.
Qed.

Lemma land_rest n rest : 1 <= n -> 0 <= rest < 2 ^ (n - 1) -> Z.land rest (2 ^ (n - 1)) = 0.
Proof.
  intros Hn Hr. apply Z.bits_inj'. intros i Hi. rewrite Z.land_spec, Z.bits_0.
  destruct (Z.eqb_spec i (n - 1)) as [->|e].
  - rewrite (testbit_small rest (n - 1)) by lia. reflexivity.
  - rewrite Z.pow2_bits_false by lia. apply andb_false_r.
Qed.

(** A mask without the sign bit does not see the flip; the sign bit alone is inverted. *)
Lemma flip_mask n b mask : 1 <= n -> 0 <= b < 2 ^ n -> Z.land (2 ^ (n - 1)) mask = 0 -> Z.land (flip n b) mask = Z.land b mask.
Proof.
  intros Hn Hb Hm. destruct (sign_split n b Hn Hb) as (s & r & Hr & ->). rewrite flip_lor by assumption.
  rewrite !Z.land_lor_distr_l. f_equal. destruct s; cbn [negb]; rewrite ?Hm, ?Z.land_0_l; reflexivity.
Qed.
Lemma flip_signbit n b : 1 <= n -> 0 <= b < 2 ^ n ->
  negb (Z.land (flip n b) (2 ^ (n - 1)) =? 0) = negb (negb (Z.land b (2 ^ (n - 1)) =? 0)).
Proof.
  intros Hn Hb. destruct (sign_split n b Hn Hb) as (s & r & Hr & ->). rewrite flip_lor by assumption.
  rewrite !Z.land_lor_distr_l, (land_rest n r) by assumption. rewrite !Z.lor_0_r.
  pose proof (pow2_pos (n - 1) ltac:(lia)).
  destruct s; cbn [negb]; rewrite Z.land_diag, Z.land_0_l, (proj2 (Z.eqb_neq (2 ^ (n - 1)) 0)) by lia; reflexivity.
Qed.
Lemma flip_range n b : 1 <= n -> 0 <= flip n b < 2 ^ n.
Proof. intros. unfold flip. apply Z.mod_pos_bound. apply pow2_pos. lia. Qed.

Lemma flip_enc mb eb s E F : 0 <= mb -> 0 <= eb -> 0 <= E < 2 ^ eb -> 0 <= F < 2 ^ mb ->
  flip (mb + eb + 1) (enc mb eb s E F) = enc mb eb (negb s) E F.
Proof.
  intros Hm He HE HF. unfold flip, enc. replace (mb + eb + 1 - 1) with (mb + eb) by lia.
  assert (E2 : 2 ^ (mb + eb + 1) = 2 * 2 ^ (mb + eb)) by (rewrite <- Z.pow_succ_r by lia; f_equal; lia). rewrite E2.
  pose proof (pow2_pos mb Hm). assert (0 <= E * 2 ^ mb + F < 2 ^ (mb + eb)) by (rewrite Z.pow_add_r by lia; nia).
  destruct s; cbn [Z.b2z negb].
  - replace (1 * 2 ^ (mb + eb) + E * 2 ^ mb + F + 2 ^ (mb + eb)) with (E * 2 ^ mb + F + 1 * (2 * 2 ^ (mb + eb))) by lia.
    rewrite Z.mod_add by lia. rewrite Z.mod_small by lia. lia.
  - rewrite Z.mod_small by lia. lia.
Qed.

Lemma ieee_flip mb eb b : 0 <= mb -> 0 <= eb -> 0 <= b < 2 ^ (mb + eb + 1) -> ieee mb eb (flip (mb + eb + 1) b) = vopp (ieee mb eb b).
Proof.
  intros Hm He Hb. destruct (enc_surj mb eb b Hm He Hb) as (s & E & F & HE & HF & ->).
  rewrite flip_enc by assumption. rewrite !ieee_enc by assumption. unfold ieee_parts.
  destruct (E =? 2 ^ eb - 1); [destruct (F =? 0); reflexivity|]. destruct (E =? 0); cbn [vopp]; f_equal; destruct s; cbn [sgnR negb]; ring.
Qed.

(** * Parse and round *)
Lemma round_opp z : symmetric (rmode z) -> BigFloat.round (opp z) = opp_big (BigFloat.round z).
Proof.
  intros [S1 S2]. unfold BigFloat.round, opp, opp_big, BigFloat.set_acc. cbn [frm prec rmode neg].
  destruct (frm z) as [|m e|] eqn:Ef; cbn [frm prec rmode neg acc opp_acc]; try reflexivity; try (rewrite Ef; reflexivity).
  destruct (_ <=? _); cbn [frm prec rmode neg acc opp_acc]; [rewrite ?Ef; reflexivity|]. destruct (_ =? 0); [reflexivity|].
  assert (R : forall q r sh, BigFloat.round_inc (rmode z) (negb (neg z)) q r sh = BigFloat.round_inc (rmode z) (neg z) q r sh)
    by (intros; destruct (rmode z); try reflexivity; congruence).
  rewrite R. set (i := BigFloat.round_inc _ _ _ _ _). clearbody i.
  destruct (_ <? _); cbn [frm prec rmode neg acc]; f_equal; destruct i, (neg z); reflexivity.
Qed.

Lemma sym_NE : symmetric ToNearestEven.
Proof. split; discriminate. Qed.

Definition ooppb (o : option bigfloat) : option bigfloat := match o with Some x => Some (opp_big x) | None => None end.

Lemma Parse_sign z t (s : bool) : rmode z = ToNearestEven ->
  GoFmt.Parse z ((if negb s then B "-"%string else B "+"%string) ++ t) = ooppb (GoFmt.Parse z ((if s then B "-"%string else B "+"%string) ++ t)).
Proof.
  intros Hz. change (B "-"%string) with [45]. change (B "+"%string) with [43].
  assert (K : forall s : bool, GoFmt.scan_sign ((if s then [45] else [43]) ++ t) = (s, t)) by (intros []; reflexivity).
  unfold GoFmt.Parse. rewrite !K.
  destruct t as [|c0 t]; [reflexivity|].
  destruct (Z.eq_dec c0 48) as [->|n0].
  2:{ transitivity (@None bigfloat); [|transitivity (ooppb (@None bigfloat)); [reflexivity|f_equal]];
      (destruct c0 as [|q|q]; try reflexivity; do 6 (destruct q as [q|q|]; try reflexivity); exfalso; apply n0; reflexivity). }
  destruct t as [|c1 t]; [reflexivity|].
  destruct (Z.eq_dec c1 98) as [->|n1].
  2:{ transitivity (@None bigfloat); [|transitivity (ooppb (@None bigfloat)); [reflexivity|f_equal]];
      (destruct c1 as [|q|q]; try reflexivity; do 7 (destruct q as [q|q|]; try reflexivity); exfalso; apply n1; reflexivity). }
  destruct (GoFmt.scan_bits t 0 0 (-1)) as [[[v cnt] fr] rest]. destruct (cnt =? 0); [reflexivity|].
  destruct (GoFmt.scan_exponent rest) as [ex|]; [|reflexivity].
  destruct (v =? 0); [reflexivity|]. destruct (_ && _); [|reflexivity]. cbn [ooppb]. f_equal.
  rewrite Hz. set (x := mkBF (prec z) ToNearestEven Exact s _). change (mkBF (prec z) ToNearestEven Exact (negb s) _) with (opp x).
  apply round_opp. apply sym_NE.
Qed.

(** What Big of -f is: the negated number, and the same answer to the question whether it is a NaN. *)
Definition neg_big (o : outcome (bigfloat * bool)) : outcome (bigfloat * bool) :=
  match o with Ret (x, n) => Ret (opp_big x, n) | Panic => Panic end.

Lemma big_text z s t : rmode z = ToNearestEven ->
  match GoFmt.Parse z ((if negb s then B "-"%string else B "+"%string) ++ t) with Some x => Ret (x, false) | None => Panic end =
  neg_big match GoFmt.Parse z ((if s : bool then B "-"%string else B "+"%string) ++ t) with Some x => Ret (x, false) | None => Panic end.
Proof. intros Hz. rewrite Parse_sign by exact Hz. destruct (GoFmt.Parse _ _); reflexivity. Qed.

Lemma neg16 f : 0 <= f < 2 ^ 16 -> Binary16.Big (flip 16 f) = neg_big (Binary16.Big f).
Proof.
  intros Hf. unfold Binary16.Big, Binary16.Signbit, Binary16.Exp, Binary16.Frac.
  rewrite (flip_mask 16 f 0x7C00), (flip_mask 16 f 0x3FF) by (lia || reflexivity).
  change 0x8000 with (2 ^ (16 - 1)). rewrite (flip_signbit 16 f) by lia. set (s := negb (_ =? 0)). clearbody s.
  destruct (_ =? 31); [destruct (_ =? 0); destruct s; reflexivity|].
  destruct (_ =? 0); [destruct (_ =? 0); [destruct s; reflexivity|]|]; apply big_text; reflexivity.
Qed.
Lemma negbf f : 0 <= f < 2 ^ 16 -> Bfloat.Big (flip 16 f) = neg_big (Bfloat.Big f).
Proof.
  intros Hf. unfold Bfloat.Big, Bfloat.Signbit, Bfloat.Exp, Bfloat.Frac.
  rewrite (flip_mask 16 f 0x7F80), (flip_mask 16 f 0x7F) by (lia || reflexivity).
  change 0x8000 with (2 ^ (16 - 1)). rewrite (flip_signbit 16 f) by lia. set (s := negb (_ =? 0)). clearbody s.
  destruct (_ =? 255); [destruct (_ =? 0); destruct s; reflexivity|].
  destruct (_ =? 0); [destruct (_ =? 0); [destruct s; reflexivity|]|]; apply big_text; reflexivity.
Qed.
Lemma neg128 w a b : 0 <= a < 2 ^ 64 -> Binary128.Big_host w (Binary128.NewFromBits (flip 64 a) b) = neg_big (Binary128.Big_host w (Binary128.NewFromBits a b)).
Proof.
  intros Ha. unfold Binary128.Big_host, Binary128.Signbit, Binary128.Exp_host, Binary128.Frac, Binary128.NewFromBits. cbn [Binary128.fa Binary128.fb].
  rewrite (flip_mask 64 a 0x7FFF000000000000), (flip_mask 64 a 0x0000FFFFFFFFFFFF) by (lia || reflexivity).
  change 0x8000000000000000 with (2 ^ (64 - 1)). rewrite (flip_signbit 64 a) by lia. set (s := negb (_ =? 0)). clearbody s.
  destruct (_ =? 32767); [destruct (_ && _); destruct s; reflexivity|].
  destruct (_ =? 0); [destruct (_ && _); [destruct s; reflexivity|]|]; apply big_text; reflexivity.
Qed.
Lemma neg80 a b : 0 <= a < 2 ^ 16 -> Float80x86.Big (Float80x86.NewFromBits (flip 16 a) b) = neg_big (Float80x86.Big (Float80x86.NewFromBits a b)).
Proof.
  intros Ha. unfold Float80x86.Big, Float80x86.Signbit, Float80x86.Exp, Float80x86.Lead, Float80x86.Frac, Float80x86.NewFromBits. cbn [Float80x86.se Float80x86.m].
  rewrite (flip_mask 16 a 0x7FFF) by (lia || reflexivity).
  change 0x8000 with (2 ^ (16 - 1)). rewrite (flip_signbit 16 a) by lia. set (s := negb (_ =? 0)). clearbody s.
  destruct (_ =? 32767); [destruct (b =? _); destruct s; reflexivity|].
  destruct (_ =? 0); [destruct (b =? 0); [destruct s; reflexivity|]|]; apply big_text; reflexivity.
Qed.

(** * Rounding *)
Lemma rnd_prec_opp md p x : symmetric md -> rnd_prec md p (- x) = (- rnd_prec md p x)%R.
Proof.
  intros [S1 S2]. unfold rnd_prec. destruct md; cbn [mode_rnd]; try congruence.
  - apply round_NE_opp.
  - apply round_NA_opp.
  - apply round_ZR_opp.
  - apply round_AW_opp.
Qed.
Lemma rn_opp mb eb x : rn mb eb (- x) = (- rn mb eb x)%R.
Proof. apply round_NE_opp. Qed.
Lemma ieee_round_opp mb eb s x : ieee_round mb eb (negb s) (- x) = vopp (ieee_round mb eb s x).
Proof. unfold ieee_round. rewrite rn_opp, Rabs_Ropp. destruct (Rle_bool _ _); reflexivity. Qed.

Lemma acc_opp_unique a a' r x : (forall s, r <> VNaN s) -> acc_ok a r x -> acc_ok a' (vopp r) (- x) -> a' = opp_acc a.
Proof.
  intros Hn H H'. destruct r as [s|s|s y]; [exfalso; eapply Hn; reflexivity| |]; destruct a, a'; cbn in *; try reflexivity; try contradiction; try lra; destruct s; discriminate.
Qed.

Lemma vopp_nan v : (forall s, v <> VNaN s) -> forall s, vopp v <> VNaN s.
Proof. intros H s. destruct v; cbn; try discriminate. exfalso. eapply H. reflexivity. Qed.

Lemma ToFloat_opp mb eb x x' : 0 <= mb -> 2 <= eb -> 2 ^ (eb - 1) <= BigFloat.MaxExp -> wf x -> wf x' -> bval x' = vopp (bval x) ->
  BigFloat.ToFloat mb eb x' = (flip (mb + eb + 1) (fst (BigFloat.ToFloat mb eb x)), opp_acc (snd (BigFloat.ToFloat mb eb x))).
Proof.
  intros Hm He Hx W W' E.
  pose proof (ToFloat_val mb eb x Hm He Hx W) as T. pose proof (ToFloat_val mb eb x' Hm He Hx W') as T'.
  destruct (BigFloat.ToFloat mb eb x) as [b a]. destruct (BigFloat.ToFloat mb eb x') as [b' a']. cbn [fst snd]. rewrite E in T'.
  destruct T as [Hb T], T' as [Hb' T'].
  assert (K : ieee mb eb b' = vopp (ieee mb eb b) -> (forall s, ieee mb eb b <> VNaN s) -> b' = flip (mb + eb + 1) b).
  { intros Q N. apply (ieee_inj mb eb); try lia.
    - apply flip_range. lia.
    - rewrite ieee_flip by lia. exact Q.
    - rewrite Q. apply vopp_nan. exact N. }
  destruct (bval x) as [s|s|s v]; cbn [vopp] in *; [contradiction| |].
  - destruct T as [T ->], T' as [T' ->]. f_equal. apply K; rewrite T; [exact T'|discriminate].
  - destruct T as [T A], T' as [T' A']. assert (Q : ieee mb eb b' = vopp (ieee mb eb b)) by (rewrite T, T'; apply ieee_round_opp).
    assert (N : forall s, ieee mb eb b <> VNaN s) by (intros t; rewrite T; unfold ieee_round; destruct (Rle_bool _ _); discriminate).
    f_equal; [apply K; assumption|]. apply (acc_opp_unique a a' (ieee mb eb b) v); try assumption. rewrite <- Q. exact A'.
Qed.

Lemma bval_opp_big x : bval (opp_big x) = vopp (bval x).
Proof. unfold bval, opp_big. cbn [frm neg]. destruct (frm x); cbn [vopp]; f_equal; destruct (neg x); cbn [sgnR negb]; ring. Qed.
Lemma opp_big_exact x : acc x = Exact -> opp_big x = opp x.
Proof. intros E. unfold opp_big, opp. rewrite E. reflexivity. Qed.

(** Float64 and Float32, from Big. *)
Definition neg_float (n : Z) (o : outcome (Z * BigFloat.accuracy)) : outcome (Z * BigFloat.accuracy) :=
  match o with Ret (d, a) => Ret (flip n d, opp_acc a) | Panic => Panic end.

Definition float64_of (o : outcome (bigfloat * bool)) : outcome (Z * BigFloat.accuracy) :=
  '(x, nan) <- o ;;
  if (nan : bool) then (if BigFloat.Signbit x then Ret (BigFloat.math_NegNaN, Exact) else Ret (BigFloat.math_NaN, Exact))
  else Ret (BigFloat.Float64 x).
Definition float32_of (o : outcome (bigfloat * bool)) : outcome (Z * BigFloat.accuracy) :=
  '(x, nan) <- o ;;
  if (nan : bool) then (if BigFloat.Signbit x then Ret (BigFloat.f64_to_f32 BigFloat.math_NegNaN, Exact) else Ret (BigFloat.f64_to_f32 BigFloat.math_NaN, Exact))
  else Ret (BigFloat.Float32 x).

Lemma float_of_opp x n : wf x ->
  float64_of (Ret (opp_big x, n)) = neg_float 64 (float64_of (Ret (x, n))) /\
  float32_of (Ret (opp_big x, n)) = neg_float 32 (float32_of (Ret (x, n))).
Proof.
  intros W. unfold float64_of, float32_of. cbn [bind]. destruct n.
  - unfold BigFloat.Signbit, opp_big. cbn [neg]. destruct (neg x); cbn [negb neg_float opp_acc]; split; vm_compute; reflexivity.
  - unfold BigFloat.Float64, BigFloat.Float32.
    rewrite (ToFloat_opp 52 11 x (opp_big x)), (ToFloat_opp 23 8 x (opp_big x)); try (unfold BigFloat.MaxExp; lia); try exact W; try exact (bval_opp_big x).
    destruct (BigFloat.ToFloat 52 11 x), (BigFloat.ToFloat 23 8 x). split; reflexivity.
Qed.

(** * The four formats *)
Lemma c83_16 f : 0 <= f < 2 ^ 16 -> exists x nan, Binary16.Big f = Ret (x, nan) /\ wf x /\ Binary16.Big (flip 16 f) = Ret (opp x, nan).
Proof.
  intros Hf. destruct (Claims16.c02 f Hf) as (x & nan & E & W & _ & _ & A & _). exists x, nan. split; [exact E|]. split; [exact W|].
  rewrite neg16 by exact Hf. change (Binary16.Big (Binary16.NewFromBits f)) with (Binary16.Big f) in E. rewrite E. cbn [neg_big].
  rewrite opp_big_exact by exact A. reflexivity.
Qed.
Lemma c83_bf f : 0 <= f < 2 ^ 16 -> exists x nan, Bfloat.Big f = Ret (x, nan) /\ Bfloat.Big (flip 16 f) = Ret (opp x, nan).
Proof.
  intros Hf. destruct (ClaimsBf.c22 f Hf) as (x & nan & E & W & _ & _ & A & _). exists x, nan. split; [exact E|].
  rewrite negbf by exact Hf. change (Bfloat.Big (Bfloat.NewFromBits f)) with (Bfloat.Big f) in E. rewrite E. cbn [neg_big].
  rewrite opp_big_exact by exact A. reflexivity.
Qed.
Lemma c83_80 a b : 0 <= a < 2 ^ 16 -> 0 <= b < 2 ^ 64 ->
  exists x nan, Float80x86.Big (Float80x86.NewFromBits a b) = Ret (x, nan) /\ wf x /\
    Float80x86.Big (Float80x86.NewFromBits (flip 16 a) b) = Ret (opp x, nan).
Proof.
  intros Ha Hb. destruct (Claims80.c17 a b Ha Hb) as (x & nan & E & W & _ & _ & A & _). exists x, nan. split; [exact E|]. split; [exact W|].
  rewrite neg80 by exact Ha. rewrite E. cbn [neg_big]. rewrite opp_big_exact by exact A. reflexivity.
Qed.
Lemma c83_128 w a b : w = 32 \/ w = 64 -> 0 <= a < 2 ^ 64 -> 0 <= b < 2 ^ 64 ->
  exists x nan, Binary128.Big_host w (Binary128.NewFromBits a b) = Ret (x, nan) /\ wf x /\
    Binary128.Big_host w (Binary128.NewFromBits (flip 64 a) b) = Ret (opp x, nan).
Proof.
  intros [->| ->] Ha Hb.
  - destruct (Host.h11 a b Ha Hb) as (x & E & W & _ & _ & A & _). exists x, false. split; [exact E|]. split; [exact W|].
    rewrite neg128 by exact Ha. rewrite E. cbn [neg_big]. rewrite opp_big_exact by exact A. reflexivity.
  - destruct (Claims128.c11 a b Ha Hb) as (x & nan & E & W & _ & _ & A & _). exists x, nan. split; [exact E|]. split; [exact W|].
    rewrite neg128 by exact Ha. change (Binary128.Big_host 64) with Binary128.Big. rewrite E. cbn [neg_big]. rewrite opp_big_exact by exact A. reflexivity.
Qed.

Lemma c83_floats_of x n : wf x ->
  exists d a g a', float64_of (Ret (x, n)) = Ret (d, a) /\ float64_of (Ret (opp x, n)) = Ret (flip 64 d, opp_acc a) /\
    float32_of (Ret (x, n)) = Ret (g, a') /\ float32_of (Ret (opp x, n)) = Ret (flip 32 g, opp_acc a').
Proof.
  intros W. unfold float64_of, float32_of. cbn [bind]. destruct n.
  - unfold BigFloat.Signbit, opp. cbn [neg]. destruct (neg x); cbn [negb]; eexists _, _, _, _; (split; [reflexivity|]; split; [vm_compute; reflexivity|]; split; [reflexivity|vm_compute; reflexivity]).
  - unfold BigFloat.Float64, BigFloat.Float32.
    rewrite (ToFloat_opp 52 11 x (opp x)), (ToFloat_opp 23 8 x (opp x)); try (unfold BigFloat.MaxExp; lia); try exact W; try exact (bval_opp_big x).
    destruct (BigFloat.ToFloat 52 11 x) as [d a], (BigFloat.ToFloat 23 8 x) as [g a']. exists d, a, g, a'. repeat split; reflexivity.
Qed.

Lemma c83_f16 f : 0 <= f < 2 ^ 16 -> exists d a g a', Binary16.Float64 f = Ret (d, a) /\ Binary16.Float64 (flip 16 f) = Ret (flip 64 d, opp_acc a) /\
  Binary16.Float32 f = Ret (g, a') /\ Binary16.Float32 (flip 16 f) = Ret (flip 32 g, opp_acc a').
Proof.
  intros Hf. destruct (c83_16 f Hf) as (x & n & E & W & E'). unfold Binary16.Float64, Binary16.Float32. rewrite E, E'. exact (c83_floats_of x n W).
Qed.
Lemma c83_f80 a b : 0 <= a < 2 ^ 16 -> 0 <= b < 2 ^ 64 -> let f := Float80x86.NewFromBits a b in let f' := Float80x86.NewFromBits (flip 16 a) b in
  exists d c g c', Float80x86.Float64 f = Ret (d, c) /\ Float80x86.Float64 f' = Ret (flip 64 d, opp_acc c) /\
  Float80x86.Float32 f = Ret (g, c') /\ Float80x86.Float32 f' = Ret (flip 32 g, opp_acc c').
Proof.
  intros Ha Hb f f'. destruct (c83_80 a b Ha Hb) as (x & n & E & W & E'). unfold Float80x86.Float64, Float80x86.Float32, f, f'. rewrite E, E'. exact (c83_floats_of x n W).
Qed.
Lemma c83_f128 w a b : w = 32 \/ w = 64 -> 0 <= a < 2 ^ 64 -> 0 <= b < 2 ^ 64 -> let f := Binary128.NewFromBits a b in let f' := Binary128.NewFromBits (flip 64 a) b in
  exists d c g c', Binary128.Float64_host w f = Ret (d, c) /\ Binary128.Float64_host w f' = Ret (flip 64 d, opp_acc c) /\
  Binary128.Float32_host w f = Ret (g, c') /\ Binary128.Float32_host w f' = Ret (flip 32 g, opp_acc c').
Proof.
  intros Hw Ha Hb f f'. destruct (c83_128 w a b Hw Ha Hb) as (x & n & E & W & E'). unfold Binary128.Float64_host, Binary128.Float32_host, f, f'. rewrite E, E'. exact (c83_floats_of x n W).
Qed.

(** * float128ppc *)
Lemma Ret_inj {A} (a b : A) : Ret a = Ret b -> a = b.
Proof. intros H. congruence. Qed.

Lemma flip64_ieee b : 0 <= b < 2 ^ 64 -> ieee 52 11 (flip 64 b) = vopp (ieee 52 11 b).
Proof. intros H. apply (ieee_flip 52 11 b); lia. Qed.

Lemma c83_ppc a b : 0 <= a < 2 ^ 64 -> 0 <= b < 2 ^ 64 -> let f := Float128ppc.NewFromBits a b in let f' := Float128ppc.NewFromBits (flip 64 a) (flip 64 b) in
  match Float128ppc.Big f with
  | Panic => Float128ppc.Big f' = Panic
  | Ret (x, true) => Float128ppc.Big f' = Ret (x, true)
  | Ret (x, false) => exists x', Float128ppc.Big f' = Ret (x', false) /\ wf x /\ wf x' /\ prec x = 106 /\ prec x' = 106 /\
      bval x' = vopp (bval x) /\ acc x' = opp_acc (acc x)
  end.
Proof.
  intros Ha Hb f f'.
  pose proof (flip_range 64 a ltac:(lia)) as Ha'. pose proof (flip_range 64 b ltac:(lia)) as Hb'.
  pose proof (ClaimsPpc.c23 a b Ha Hb) as C. pose proof (ClaimsPpc.c23 (flip 64 a) (flip 64 b) Ha' Hb') as C'.
  destruct (ClaimsPpc.c24_partial) as (P & _). destruct (P a b Ha Hb) as (P1 & _). destruct (P (flip 64 a) (flip 64 b) Ha' Hb') as (P1' & _). clear P.
  fold f in C, P1. fold f' in C', P1'. cbv zeta in C, C', P1, P1'.
  assert (NB : forall g y, Float128ppc.Big g = Ret (y, true) -> y = BigFloat.SetMode (BigFloat.SetPrec BigFloat.NewFloat0 Float128ppc.precision) ToNearestEven).
  { intros g y. unfold Float128ppc.Big. destruct (Float128ppc.IsNaN g); [intros Q; apply Ret_inj in Q; congruence|].
    destruct (BigFloat.NewFloat (Float128ppc.high g)) as [h|]; [|discriminate]. cbn [bind].
    destruct (BigFloat.NewFloat (Float128ppc.low g)) as [l|]; [|discriminate]. cbn [bind].
    destruct (BigFloat.Add _ _ _); [|discriminate]. cbn [bind]. intros Q. apply Ret_inj in Q. congruence. }
  rewrite !flip64_ieee in C', P1' by assumption.
  destruct (ieee 52 11 a) as [s|s|s v], (ieee 52 11 b) as [t|t|t w]; cbn [vopp] in C', P1';
    try (destruct C as (x & E), C' as (x' & E'); rewrite E, E'; rewrite (NB _ _ E), (NB _ _ E'); reflexivity).
  - destruct (Bool.bool_dec s t) as [e|e].
    + destruct (C e) as (x & E & W & Px & V & A). destruct (C' ltac:(congruence)) as (x' & E' & W' & Px' & V' & A').
      rewrite E. exists x'. rewrite A, A', V, V'. repeat split; auto; apply W || apply W'.
    + rewrite (proj2 P1), (proj2 P1'); [reflexivity| |]; [exists (negb s)|exists s]; (split; [reflexivity|]); f_equal; destruct s, t; try reflexivity; congruence.
  - destruct C as (x & E & W & Px & V & A). destruct C' as (x' & E' & W' & Px' & V' & A').
    rewrite E. exists x'. rewrite A, A', V, V'. repeat split; auto; apply W || apply W'.
  - destruct C as (x & E & W & Px & V & A). destruct C' as (x' & E' & W' & Px' & V' & A').
    rewrite E. exists x'. rewrite A, A', V, V'. repeat split; auto; apply W || apply W'.
  - destruct C as (x & u & E & W & Px & _ & V & A & S1 & S2 & S3). destruct C' as (x' & u' & E' & W' & Px' & _ & V' & A' & S1' & S2' & S3').
    rewrite E. exists x'. replace (- v + - w)%R with (- (v + w))%R in * by ring. rewrite rnd_prec_opp in V' by apply sym_NE.
    assert (U : u' = negb u).
    { destruct (Rtotal_order (v + w) 0) as [L|[L|L]].
      - rewrite S1, S2' by lra. reflexivity.
      - rewrite S3, S3' by lra. reflexivity.
      - rewrite S2, S1' by lra. reflexivity. }
    assert (Vo : bval x' = vopp (bval x)) by (rewrite V, V', U; reflexivity).
    split; [exact E'|]. split; [exact W|]. split; [exact W'|]. split; [exact Px|]. split; [exact Px'|]. split; [exact Vo|].
    apply (acc_opp_unique (acc x) (acc x') (bval x) (v + w)); [rewrite V; discriminate|exact A|rewrite <- Vo; exact A'].
Qed.

Lemma c83_fppc a b : 0 <= a < 2 ^ 64 -> 0 <= b < 2 ^ 64 -> let f := Float128ppc.NewFromBits a b in let f' := Float128ppc.NewFromBits (flip 64 a) (flip 64 b) in
  match Float128ppc.Big f with
  | Panic => Float128ppc.Float64 f' = Panic /\ Float128ppc.Float32 f' = Panic
  | Ret (_, true) => Float128ppc.Float64 f' = Float128ppc.Float64 f /\ Float128ppc.Float32 f' = Float128ppc.Float32 f
  | Ret (_, false) => exists d c g c', Float128ppc.Float64 f = Ret (d, c) /\ Float128ppc.Float64 f' = Ret (flip 64 d, opp_acc c) /\
      Float128ppc.Float32 f = Ret (g, c') /\ Float128ppc.Float32 f' = Ret (flip 32 g, opp_acc c')
  end.
Proof.
  intros Ha Hb f f'. pose proof (c83_ppc a b Ha Hb) as C. fold f f' in C. cbv zeta in C. unfold Float128ppc.Float64, Float128ppc.Float32.
  destruct (Float128ppc.Big f) as [[x []]|].
  - rewrite C. split; reflexivity.
  - destruct C as (x' & E' & W & W' & _ & _ & V & _). rewrite E'. cbn [bind]. unfold BigFloat.Float64, BigFloat.Float32.
    rewrite (ToFloat_opp 52 11 x x'), (ToFloat_opp 23 8 x x'); try (unfold BigFloat.MaxExp; lia); try assumption.
    destruct (BigFloat.ToFloat 52 11 x) as [d c], (BigFloat.ToFloat 23 8 x) as [g c']. exists d, c, g, c'. repeat split; reflexivity.
  - rewrite C. split; reflexivity.
Qed.

Lemma wf_opp x : wf x -> wf (opp x).
Proof. intros W. exact W. Qed.
Lemma bval_opp x : bval (opp x) = vopp (bval x).
Proof. exact (bval_opp_big x). Qed.
Lemma x106_opp x : symmetric (rmode x) -> FactsPpc.x106 (opp x) = opp (FactsPpc.x106 x).
Proof.
  intros S. unfold FactsPpc.x106, BigFloat.SetPrec, BigFloat.SetMode. cbn [prec rmode neg frm acc opp].
  destruct (_ <? _); [|reflexivity].
  change (mkBF ?p (rmode x) Exact (negb (neg x)) (frm x)) with (opp (mkBF p (rmode x) Exact (neg x) (frm x))).
  rewrite round_opp by exact S. reflexivity.
Qed.

Lemma c84 : forall x s v, wf x -> symmetric (rmode x) -> bval x = VNum s v ->
  let y := rnd_prec (rmode x) 106 v in
  match Float128ppc.NewFromBig x with
  | Panic => Float128ppc.NewFromBig (opp x) = Panic
  | Ret (Float128ppc.mkFloat h l, a, x') =>
      exists l', Float128ppc.NewFromBig (opp x) = Ret (Float128ppc.mkFloat (flip 64 h) l', a, opp x') /\
        (rn 52 11 y = y -> l = 0 /\ l' = 0) /\ (rn 52 11 y <> y -> l' = flip 64 l)
  end.
Proof.
  intros x s v W S V y.
  pose proof (bval_opp x) as V'. rewrite V in V'. cbn [vopp] in V'.
  destruct (Req_dec v 0) as [->|Hv].
  { rewrite Ropp_0 in V'. rewrite (ClaimsPpc.zero_of x _ W V), (ClaimsPpc.zero_of (opp x) _ (wf_opp x W) V').
    assert (y = 0%R) as -> by (unfold y; apply PkgFacts.rnd_prec_0). rewrite rn_0.
    destruct s; cbn [negb]; unfold Float128ppc.NegZero, Float128ppc.Zero; exists 0; (split; [reflexivity|split; [auto|congruence]]). }
  assert (Y : rnd_prec (rmode (opp x)) 106 (- v) = (- y)%R) by (apply rnd_prec_opp; exact S).
  destruct (Rlt_or_le (Rabs (rn 52 11 y)) (p2 1024)) as [L|L].
  2:{ rewrite (FactsPpc.NewFromBig_overflow x _ _ W V L). apply (FactsPpc.NewFromBig_overflow (opp x) _ _ (wf_opp x W) V').
      rewrite Y, rn_opp, Rabs_Ropp. exact L. }
  destruct (FactsPpc.NewFromBig_num x _ v W V Hv L) as (h & l & t & E & Hh & Hl & Eh & El & St & _).
  destruct (FactsPpc.NewFromBig_num (opp x) _ (- v) (wf_opp x W) V') as (h' & l' & t' & E' & Hh' & Hl' & Eh' & El' & St' & _).
  { intros Q. apply Hv. lra. }
  { rewrite Y, rn_opp, Rabs_Ropp. exact L. }
  rewrite Y in *. fold y in E, Eh, El, St. rewrite rn_opp in *. replace (- y - - rn 52 11 y)%R with (- (y - rn 52 11 y))%R in * by ring.
  rewrite rn_opp in El'. set (d := (y - rn 52 11 y)%R) in *. rewrite E, E', x106_opp by exact S.
  assert (K : forall p q, 0 <= p < 2 ^ 64 -> 0 <= q < 2 ^ 64 -> ieee 52 11 q = vopp (ieee 52 11 p) -> (forall s, ieee 52 11 q <> VNaN s) -> q = flip 64 p).
  { intros p q Hp Hq Q N. apply (ieee_inj 52 11); try lia; [exact (flip_range 64 p ltac:(lia))|rewrite flip64_ieee by exact Hp; exact Q|exact N]. }
  assert (h' = flip 64 h) as -> by (apply K; try assumption; rewrite Eh'; [rewrite Eh; reflexivity|discriminate]).
  exists l'. split; [reflexivity|]. destruct St as (A1 & A2 & A3), St' as (B1 & B2 & B3). split; intros Q.
  - assert (D : d = 0%R) by (unfold d; lra). rewrite D in *. rewrite A3, B3 in * by lra. rewrite rn_0 in *. split.
    + apply (ieee_inj 52 11); try lia; [rewrite El, ClaimsPpc.zero64; reflexivity|rewrite El; discriminate].
    + apply (ieee_inj 52 11); try lia; [rewrite El', ClaimsPpc.zero64; f_equal; ring|rewrite El'; discriminate].
  - assert (D : d <> 0%R) by (unfold d; lra).
    assert (T : t' = negb t).
    { destruct (Rtotal_order d 0) as [U|[U|U]]; [rewrite A1, B2 by lra; reflexivity|contradiction|rewrite A2, B1 by lra; reflexivity]. }
    apply K; try assumption; rewrite El'; [rewrite El, T; reflexivity|discriminate].
Qed.

(** Infinities: the constant for -Inf is +Inf. *)
Lemma c84_inf_refuted : exists x f a x', wf x /\ symmetric (rmode x) /\ bval x = VInf false /\
  Float128ppc.NewFromBig x = Ret (f, a, x') /\ Float128ppc.NewFromBig (opp x) = Ret (f, a, opp x').
Proof.
  exists (mkBF 53 ToNearestEven Exact false Inf). eexists _, _, _.
  split; [split; [unfold BigFloat.MaxPrec; cbn [prec]; lia|exact I]|]. split; [apply sym_NE|]. split; [reflexivity|].
  split; [vm_compute; reflexivity|vm_compute; reflexivity].
Qed.

(** 1 + 2^-200 rounded up is 1 + 2^-105; -1 - 2^-200 rounded up is -1. *)
Lemma c84_mode_refuted : exists x h l a x' l' a' y', wf x /\ rmode x = BigFloat.ToPositiveInf /\ frm x = Finite (2 ^ 200 + 1) (-200) /\
  Float128ppc.NewFromBig x = Ret (Float128ppc.mkFloat h l, a, x') /\
  Float128ppc.NewFromBig (opp x) = Ret (Float128ppc.mkFloat (flip 64 h) l', a', y') /\ l <> 0 /\ l' = 0.
Proof.
  exists (mkBF 300 BigFloat.ToPositiveInf Exact false (Finite (2 ^ 200 + 1) (-200))). eexists _, _, _, _, _, _, _.
  split; [|split; [reflexivity|split; [reflexivity|split; [vm_compute; reflexivity|split; [vm_compute; reflexivity|split; [discriminate|reflexivity]]]]]].
  unfold wf. cbn [prec frm]. split; [unfold BigFloat.MaxPrec; lia|].
  split; [lia|]. split; [exists (2 ^ 200 + 1), 0; split; [reflexivity|split; [lia|reflexivity]]|vm_compute; intuition congruence].
Qed.

Lemma c83_big :
  (forall f, 0 <= f < 2 ^ 16 -> exists x nan, Binary16.Big f = Ret (x, nan) /\ Binary16.Big (flip 16 f) = Ret (opp x, nan)) /\
  (forall f, 0 <= f < 2 ^ 16 -> exists x nan, Bfloat.Big f = Ret (x, nan) /\ Bfloat.Big (flip 16 f) = Ret (opp x, nan)) /\
  (forall a b, 0 <= a < 2 ^ 16 -> 0 <= b < 2 ^ 64 -> exists x nan, Float80x86.Big (Float80x86.NewFromBits a b) = Ret (x, nan) /\
     Float80x86.Big (Float80x86.NewFromBits (flip 16 a) b) = Ret (opp x, nan)) /\
  (forall w a b, w = 32 \/ w = 64 -> 0 <= a < 2 ^ 64 -> 0 <= b < 2 ^ 64 ->
     exists x nan, Binary128.Big_host w (Binary128.NewFromBits a b) = Ret (x, nan) /\
     Binary128.Big_host w (Binary128.NewFromBits (flip 64 a) b) = Ret (opp x, nan)).
Proof.
  split; [|split; [exact c83_bf|split]]; intros.
  - destruct (c83_16 f) as (x & n & E & _ & E'); [assumption|]. exists x, n. auto.
  - destruct (c83_80 a b) as (x & n & E & _ & E'); [assumption|assumption|]. exists x, n. auto.
  - destruct (c83_128 w a b) as (x & n & E & _ & E'); [assumption|assumption|assumption|]. exists x, n. auto.
Qed.
