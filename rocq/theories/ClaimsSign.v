(** Changing the sign of the argument (C72): NewFromBig. *)
From Coq Require Import ZArith Lia Bool List Reals Lra.
From Verif Require Import GoBase Spec SpecSign BitFacts SignFacts.
From Verif Require BigFloat Binary16 Binary128 Float80x86.
Import BigFloat (bigfloat, mkBF, prec, rmode, neg, frm, Finite, Zero, Inf, Below, Exact, Above).
Open Scope Z_scope.

Lemma land_mask a k : 0 <= k -> 0 <= Z.land a (2 ^ k - 1) < 2 ^ k.
Proof. intros H. replace (2 ^ k - 1) with (Z.ones k) by (rewrite Z.ones_equiv; lia). rewrite Z.land_ones by lia. apply Z.mod_pos_bound. apply Z.pow_pos_nonneg; lia. Qed.

Lemma testbit_small a k i : 0 <= a < 2 ^ k -> k <= i -> Z.testbit a i = false.
Proof.
  intros Ha Hi. destruct (Z.ltb_spec k 0).
  - rewrite Z.pow_neg_r in Ha by lia. lia.
  - rewrite <- (Z.mod_small a (2 ^ k)) by lia. apply Z.mod_pow2_bits_high. lia.
Qed.

Lemma lor_bound a b k : 0 <= k -> 0 <= a < 2 ^ k -> 0 <= b < 2 ^ k -> 0 <= Z.lor a b < 2 ^ k.
Proof.
  intros Hk Ha Hb. replace (Z.lor a b) with (Z.lor a b mod 2 ^ k).
  - apply Z.mod_pos_bound. apply Z.pow_pos_nonneg; lia.
  - apply Z.bits_inj'. intros i Hi. destruct (Z.ltb_spec i k).
    + apply Z.mod_pow2_bits_low. lia.
    + rewrite Z.mod_pow2_bits_high by lia. rewrite Z.lor_spec, (testbit_small a k), (testbit_small b k) by lia. reflexivity.
Qed.

Lemma flip_lor n s rest : 1 <= n -> 0 <= rest < 2 ^ (n - 1) ->
  flip n (Z.lor (if s : bool then 2 ^ (n - 1) else 0) rest) = Z.lor (if negb s then 2 ^ (n - 1) else 0) rest.
Proof.
  intros Hn Hr. unfold flip.
  assert (E : 2 ^ n = 2 * 2 ^ (n - 1)) by (rewrite <- Z.pow_succ_r by lia; f_equal; lia).
  assert (L : Z.lor (2 ^ (n - 1)) rest = 2 ^ (n - 1) + rest).
  { pose proof (lor_add 1 rest (n - 1) ltac:(lia) Hr) as L. rewrite Z.mul_1_l in L. exact L. }
  destruct s; cbn [negb]; rewrite ?L, ?Z.lor_0_l; rewrite E.
  - replace (2 ^ (n - 1) + rest + 2 ^ (n - 1)) with (rest + 1 * (2 * 2 ^ (n - 1))) by lia. rewrite Z.mod_add by lia. apply Z.mod_small. lia.
  - rewrite Z.mod_small by lia. lia.
Qed.

Lemma flip16 s rest : 0 <= rest < 2 ^ 15 -> flip 16 (Z.lor (if s : bool then Z.lor 0 0x8000 else 0) rest) = Z.lor (if negb s then Z.lor 0 0x8000 else 0) rest.
Proof. intros H. exact (flip_lor 16 s rest ltac:(lia) H). Qed.

Lemma lor_assoc' a b c : Z.lor (Z.lor a b) c = Z.lor a (Z.lor b c).
Proof. symmetry. apply Z.lor_assoc. Qed.

Lemma u16_mask a : u16 (Z.land a 0x7FF) = Z.land a (2 ^ 11 - 1).
Proof. unfold u16. pose proof (land_mask a 11 ltac:(lia)). apply Z.mod_small. change 0x7FF with (2 ^ 11 - 1). lia. Qed.
Lemma u16_exp a : 0 <= u16 (Z.shiftl (u16 (Z.land a 0x1F)) 10) < 2 ^ 15.
Proof.
  unfold u16. pose proof (land_mask a 5 ltac:(lia)) as H. change 0x1F with (2 ^ 5 - 1).
  rewrite (Z.mod_small (Z.land _ _)) by lia. rewrite Z.shiftl_mul_pow2 by lia. rewrite Z.mod_small by lia. lia.
Qed.

Lemma sign16_int int x : wf x ->
  Binary16.NewFromBig_int int (opp x) = (flip 16 (fst (Binary16.NewFromBig_int int x)), snd (Binary16.NewFromBig_int int x)).
Proof.
  intros W. unfold Binary16.NewFromBig_int.
  change (BigFloat.IsInf (opp x)) with (BigFloat.IsInf x).
  change (BigFloat.Signbit (opp x)) with (negb (BigFloat.Signbit x)).
  rewrite Cmp_opp by reflexivity.
  destruct (BigFloat.IsInf x); [destruct (BigFloat.Signbit x); reflexivity|].
  replace (- BigFloat.Cmp x BigFloat.NewFloat0 =? 0) with (BigFloat.Cmp x BigFloat.NewFloat0 =? 0)
    by (destruct (Z.eqb_spec (BigFloat.Cmp x BigFloat.NewFloat0) 0), (Z.eqb_spec (- BigFloat.Cmp x BigFloat.NewFloat0) 0); lia || reflexivity).
  destruct (_ =? 0); [destruct (BigFloat.Signbit x); reflexivity|].
  pose proof (MantExp_opp x) as E.
  pose proof (fun k => after x k W) as A. cbv zeta in A.
  destruct (BigFloat.MantExp (opp x)) as [m1 e1] eqn:D1. destruct (BigFloat.MantExp x) as [m2 e2] eqn:D2. cbn [fst snd] in E. subst e1.
  destruct (_ <=? 0).
  - destruct (if _ <=? _ then _ else _) as [k ac].
    destruct (A (k + Binary16.precision - 1)) as (A1 & _). rewrite D1, D2 in A1. cbn [fst] in A1. unfold positive in A1. rewrite A1. clear A1.
    destruct (BigFloat.Uint64 _) as [v va]. cbn [fst snd]. f_equal. symmetry. apply flip16.
    rewrite u16_mask. pose proof (land_mask v 11 ltac:(lia)). lia.
  - destruct (A Binary16.precision) as (_ & _ & A1 & _ & A2). rewrite D1, D2 in A1, A2. cbn [fst] in A1, A2. unfold positive in A1, A2. rewrite A1, A2. clear A1 A2.
    destruct (BigFloat.Uint64 _) as [v va]. cbn [fst snd]. f_equal. rewrite !lor_assoc'. symmetry. apply flip16.
    apply lor_bound; [lia|apply u16_exp|]. rewrite u16_mask. pose proof (land_mask (andnot v 0x400) 11 ltac:(lia)). lia.
Qed.

Lemma opp_eqb c : (- c =? 0) = (c =? 0).
Proof. destruct (Z.eqb_spec c 0), (Z.eqb_spec (- c) 0); lia || reflexivity. Qed.

Lemma se_exp a : 0 <= u16 (Z.land a 0x7FFF) < 2 ^ 15.
Proof.
  unfold u16. pose proof (land_mask a 15 ltac:(lia)) as H. change 0x7FFF with (2 ^ 15 - 1).
  rewrite Z.mod_small by lia. exact H.
Qed.

Definition flip80 (f : Float80x86.Float) : Float80x86.Float :=
  Float80x86.mkFloat (flip 16 (Float80x86.se f)) (Float80x86.m f).

Lemma sign80_int int x : wf x ->
  Float80x86.NewFromBig_int int (opp x) = (flip80 (fst (Float80x86.NewFromBig_int int x)), snd (Float80x86.NewFromBig_int int x)).
Proof.
  intros W. unfold Float80x86.NewFromBig_int.
  change (BigFloat.IsInf (opp x)) with (BigFloat.IsInf x).
  change (BigFloat.Signbit (opp x)) with (negb (BigFloat.Signbit x)).
  rewrite Cmp_opp by reflexivity.
  destruct (BigFloat.IsInf x); [destruct (BigFloat.Signbit x); reflexivity|].
  rewrite opp_eqb.
  destruct (_ =? 0); [destruct (BigFloat.Signbit x); reflexivity|].
  pose proof (MantExp_opp x) as E.
  pose proof (fun k => after x k W) as A. cbv zeta in A.
  destruct (BigFloat.MantExp (opp x)) as [m1 e1] eqn:D1. destruct (BigFloat.MantExp x) as [m2 e2] eqn:D2. cbn [fst snd] in E. subst e1.
  destruct (_ <=? 0).
  - destruct (if _ <=? _ then _ else _) as [k ac].
    destruct (A (k + Float80x86.precision - 1)) as (A1 & _). rewrite D1, D2 in A1. cbn [fst] in A1. unfold positive in A1. rewrite A1. clear A1.
    destruct (BigFloat.Uint64 _) as [v va]. cbn [fst snd]. unfold flip80. cbn [Float80x86.se Float80x86.m]. f_equal. f_equal.
    pose proof (flip16 (BigFloat.Signbit x) 0 ltac:(lia)) as F. rewrite !Z.lor_0_r in F. symmetry. exact F.
  - destruct (A Float80x86.precision) as (_ & _ & A1 & _ & A2). rewrite D1, D2 in A1, A2. cbn [fst] in A1, A2. unfold positive in A1, A2. rewrite A1, A2. clear A1 A2.
    destruct (BigFloat.Uint64 _) as [v va]. cbn [fst snd]. unfold flip80. cbn [Float80x86.se Float80x86.m]. f_equal. f_equal. symmetry. apply flip16.
    apply se_exp.
Qed.

Definition flip128 (f : Binary128.Float) : Binary128.Float :=
  Binary128.mkFloat (flip 64 (Binary128.fa f)) (Binary128.fb f).

Lemma flip64 s rest : 0 <= rest < 2 ^ 63 -> flip 64 (Z.lor (if s : bool then Z.lor 0 0x8000000000000000 else 0) rest) = Z.lor (if negb s then Z.lor 0 0x8000000000000000 else 0) rest.
Proof. intros H. exact (flip_lor 64 s rest ltac:(lia) H). Qed.

Lemma u64_exp a : 0 <= u64 (Z.shiftl (Z.land a 0x7FFF) 48) < 2 ^ 63.
Proof.
  unfold u64. pose proof (land_mask a 15 ltac:(lia)) as H. change 0x7FFF with (2 ^ 15 - 1).
  rewrite Z.shiftl_mul_pow2 by lia. rewrite Z.mod_small by lia. lia.
Qed.

Lemma sign128_int int x : wf x ->
  Binary128.NewFromBig_int int (opp x) =
  match Binary128.NewFromBig_int int x with Ret (f, a) => Ret (flip128 f, a) | Panic => Panic end.
Proof.
  intros W. unfold Binary128.NewFromBig_int.
  change (BigFloat.IsInf (opp x)) with (BigFloat.IsInf x).
  change (BigFloat.Signbit (opp x)) with (negb (BigFloat.Signbit x)).
  rewrite Cmp_opp by reflexivity.
  destruct (BigFloat.IsInf x); [destruct (BigFloat.Signbit x); reflexivity|].
  rewrite opp_eqb.
  destruct (_ =? 0); [destruct (BigFloat.Signbit x); reflexivity|].
  pose proof (MantExp_opp x) as E.
  pose proof (fun k => after x k W) as A. cbv zeta in A.
  destruct (BigFloat.MantExp (opp x)) as [m1 e1] eqn:D1. destruct (BigFloat.MantExp x) as [m2 e2] eqn:D2. cbn [fst snd] in E. subst e1.
  destruct (_ <=? 0).
  - destruct (if _ <=? _ then _ else _) as [k ac].
    destruct (A (k + Binary128.precision - 1)) as (_ & A1 & _). rewrite D1, D2 in A1. cbn [fst] in A1. unfold positive in A1. rewrite A1. clear A1.
    destruct (BigFloat.Int _) as [v|]; [|reflexivity]. unfold flip128. cbn [Binary128.fa Binary128.fb]. f_equal. f_equal. f_equal.
    symmetry. apply flip64. pose proof (land_mask (u64 (Z.shiftr (Z.land v Binary128.maskA) 64)) 48 ltac:(lia)) as H. change (2 ^ 48 - 1) with 0x0000FFFFFFFFFFFF in H. lia.
  - destruct (A Binary128.precision) as (_ & _ & _ & A1 & A2). rewrite D1, D2 in A1, A2. cbn [fst] in A1, A2. unfold positive in A1, A2. rewrite A1, A2. clear A1 A2.
    destruct (BigFloat.Int _) as [v|]; [|reflexivity]. unfold flip128. cbn [Binary128.fa Binary128.fb]. f_equal. f_equal. f_equal.
    rewrite !lor_assoc'. symmetry. apply flip64. apply lor_bound; [lia|apply u64_exp|].
    pose proof (land_mask (u64 (Z.shiftr (Z.land (Z.clearbit v 112) Binary128.maskA) 64)) 48 ltac:(lia)) as H. change (2 ^ 48 - 1) with 0x0000FFFFFFFFFFFF in H. lia.
Qed.
