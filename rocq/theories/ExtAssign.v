(** Facts about extfloat.go: AssignDecimal and floatBits. *)
From Coq Require Import ZArith Reals List Bool Lia Lra.
From Flocq Require Import Core.
From Verif Require Import GoBase BigFloat ExtFloat.
From Verif Require Import Spec BitFacts RoundFacts IeeeFacts SpecDec SpecFtoa DecFacts DecFacts2 ExtFacts ExtFixed FloatMid ExtBounds.
Import ListNotations.
Open Scope Z_scope.

(** * floatBits *)
Lemma land_bit m k : 0 <= k -> (Z.land m (2 ^ k) =? 0) = negb (Z.odd (m / 2 ^ k)).
Proof.
  intros Hk. rewrite <- Z.shiftr_div_pow2, <- Z.testbit_odd by lia.
  assert (E : Z.land m (2 ^ k) = if Z.testbit m k then 2 ^ k else 0).
  { apply Z.bits_inj'. intros n Hn. rewrite Z.land_spec, Z.pow2_bits_eqb by lia. destruct (Z.eqb_spec k n) as [<-|Hne].
    - rewrite andb_true_r. destruct (Z.testbit m k); [symmetry; apply Z.pow2_bits_true; lia|symmetry; apply Z.bits_0].
    - rewrite andb_false_r. destruct (Z.testbit m k); [symmetry; apply Z.pow2_bits_false; lia|symmetry; apply Z.bits_0]. }
  rewrite E. destruct (Z.testbit m k); [|reflexivity]. pose proof (pow2_pos k Hk). destruct (Z.eqb_spec (2 ^ k) 0); [lia|reflexivity].
Qed.

(** Lines 157-173. *)
Definition assemble (flt : floatInfo) (ng : bool) (mt e : Z) : Z :=
  let '(mt, e) :=
    if 2 ^ expbits flt - 1 <=? e - bias flt then (0, 2 ^ expbits flt - 1 + bias flt)
    else if Z.land mt (2 ^ mantbits flt) =? 0 then (mt, bias flt)
    else (mt, e) in
  let bits := Z.land mt (2 ^ mantbits flt - 1) in
  let bits := Z.lor bits
    (u64 (Z.shiftl (u64 (Z.land (e - bias flt) (2 ^ expbits flt - 1))) (mantbits flt))) in
  if ng then Z.lor bits (2 ^ (mantbits flt + expbits flt)) else bits.

Definition round_val (eb : Z) (s : bool) (x : R) : fval :=
  if Rle_bool (p2 (2 ^ (eb - 1))) x then VInf s else VNum s (sgnR s x).

Lemma enc_lor flt (ng : bool) E F : flt_ok flt -> 0 <= E < 2 ^ expbits flt -> 0 <= F < 2 ^ mantbits flt ->
  (let bits := Z.lor F (u64 (Z.shiftl (u64 (Z.land E (2 ^ expbits flt - 1))) (mantbits flt))) in
   if ng then Z.lor bits (2 ^ (mantbits flt + expbits flt)) else bits) = enc (mantbits flt) (expbits flt) ng E F.
Proof.
  intros Hf HE HF. destruct (flt_facts flt Hf) as (F1 & F2 & _ & _).
  set (mb := mantbits flt) in *. set (eb := expbits flt) in *. clearbody mb eb.
  pose proof (pow2_pos mb ltac:(lia)) as Pm. pose proof (pow2_pos eb ltac:(lia)) as Pe.
  assert (P63 : 2 ^ mb * 2 ^ eb <= 2 ^ 63) by (rewrite <- Z.pow_add_r by lia; apply Z.pow_le_mono_r; lia).
  replace (2 ^ eb - 1) with (Z.ones eb) by (rewrite Z.ones_equiv; lia). rewrite Z.land_ones, Z.mod_small by lia.
  assert (PE1 : 2 ^ eb <= 2 ^ 11) by (apply Z.pow_le_mono_r; lia).
  replace (u64 E) with E by (unfold u64; rewrite Z.mod_small; lia). rewrite Z.shiftl_mul_pow2 by lia.
  replace (u64 (E * 2 ^ mb)) with (E * 2 ^ mb) by (unfold u64; rewrite Z.mod_small; nia).
  cbn zeta. rewrite (Z.lor_comm F), (lor_add E F mb) by lia.
  unfold enc. rewrite Z.pow_add_r by lia. destruct ng; cbn [Z.b2z]; [|ring].
  rewrite Z.lor_comm, <- Z.pow_add_r by lia. replace (2 ^ (mb + eb)) with (1 * 2 ^ (mb + eb)) at 1 by lia. rewrite (lor_add 1 (E * 2 ^ mb + F) (mb + eb)); [ring|lia|].
  rewrite Z.pow_add_r by lia. nia.
Qed.

Lemma assemble_ok flt ng mt e : flt_ok flt -> parts0 (mantbits flt) (expbits flt) mt e ->
  ieee (mantbits flt) (expbits flt) (assemble flt ng mt e) = round_val (expbits flt) ng (IZR mt * p2 (e - mantbits flt)).
Proof.
  intros Hf Hp. destruct (flt_facts flt Hf) as (F1 & F2 & F3 & F4). unfold assemble.
  pose proof (pow2_pos (mantbits flt) ltac:(lia)) as Pm.
  assert (Peb : 2 ^ expbits flt = 2 * 2 ^ (expbits flt - 1)) by (rewrite <- Z.pow_succ_r by lia; f_equal; lia).
  assert (Pm1 : 2 ^ (mantbits flt + 1) = 2 * 2 ^ mantbits flt) by (rewrite Z.pow_add_r by lia; change (2 ^ 1) with 2; ring).
  destruct (Z.leb_spec (2 ^ expbits flt - 1) (e - bias flt)) as [L|L].
  - replace (Z.land 0 (2 ^ mantbits flt - 1)) with 0 by reflexivity. cbn zeta.
    replace (2 ^ expbits flt - 1 + bias flt - bias flt) with (2 ^ expbits flt - 1) by lia.
    pose proof (enc_lor flt ng (2 ^ expbits flt - 1) 0 Hf ltac:(lia) ltac:(lia)) as EL. cbn zeta in EL. rewrite EL.
    rewrite ieee_enc by lia. unfold ieee_parts. cbn zeta. rewrite !Z.eqb_refl. unfold round_val. rewrite Rle_bool_true; [reflexivity|].
    destruct Hp as [[P1 P2]|[P1 P2]]; [|lia]. apply Rle_trans with (IZR (2 ^ mantbits flt) * p2 (e - mantbits flt))%R.
    + rewrite IZR_pow2, <- p2_plus by lia. apply p2_le. lia.
    + apply Rmult_le_compat_r; [apply Rlt_le, p2_pos|apply IZR_le; lia].
  - rewrite land_bit by lia.
    assert (NO : (IZR mt * p2 (e - mantbits flt) < p2 (2 ^ (expbits flt - 1)))%R).
    { apply Rlt_le_trans with (IZR (2 ^ (mantbits flt + 1)) * p2 (e - mantbits flt))%R.
      - apply Rmult_lt_compat_r; [apply p2_pos|]. apply IZR_lt. destruct Hp; lia.
      - rewrite IZR_pow2, <- p2_plus by lia. apply p2_le. lia. }
    unfold round_val. rewrite Rle_bool_false by exact NO.
    replace (2 ^ mantbits flt - 1) with (Z.ones (mantbits flt)) by (rewrite Z.ones_equiv; lia).
    destruct (Z_lt_le_dec mt (2 ^ mantbits flt)) as [C|C].
    + assert (H0 : 0 <= mt /\ e = 2 - 2 ^ (expbits flt - 1)) by (destruct Hp; lia). destruct H0 as [H0 He].
      rewrite Z.div_small by lia. cbn [Z.odd negb]. rewrite Z.land_ones, Z.mod_small by lia.
      replace (bias flt - bias flt) with 0 by lia.
      pose proof (enc_lor flt ng 0 mt Hf ltac:(lia) ltac:(lia)) as EL. cbn zeta in EL |- *. rewrite EL.
      rewrite ieee_enc by lia. unfold ieee_parts. cbn zeta. destruct (Z.eqb_spec 0 (2 ^ expbits flt - 1)); [lia|]. cbn [Z.eqb].
      do 4 f_equal. lia.
    + assert (H0 : mt < 2 ^ (mantbits flt + 1) /\ 2 - 2 ^ (expbits flt - 1) <= e) by (destruct Hp; lia). destruct H0 as [H0 He].
      replace (mt / 2 ^ mantbits flt) with 1 by (apply (Z.div_unique _ _ 1 (mt - 2 ^ mantbits flt)); lia). cbn [Z.odd negb].
      rewrite Z.land_ones by lia.
      replace (mt mod 2 ^ mantbits flt) with (mt - 2 ^ mantbits flt) by (apply (Z.mod_unique _ _ 1); lia).
      pose proof (enc_lor flt ng (e - bias flt) (mt - 2 ^ mantbits flt) Hf ltac:(lia) ltac:(lia)) as EL. cbn zeta in EL |- *. rewrite EL.
      rewrite ieee_enc by lia. unfold ieee_parts. cbn zeta. destruct (Z.eqb_spec (e - bias flt) (2 ^ expbits flt - 1)); [lia|].
      destruct (Z.eqb_spec (e - bias flt) 0); [lia|]. replace (2 ^ mantbits flt + (mt - 2 ^ mantbits flt)) with mt by lia. do 4 f_equal. lia.
Qed.

Definition extra (flt : floatInfo) (e : Z) : Z :=
  if e <=? bias flt - 63 then 1 - mantbits flt + bias flt - e else 63 - mantbits flt.

Lemma extra_ge flt e : flt_ok flt -> 11 <= 63 - mantbits flt <= extra flt e /\ e + extra flt e = Z.max (e + 63) (bias flt + 1) - mantbits flt.
Proof. intros Hf. destruct (flt_facts flt Hf) as (F1 & _). unfold extra. destruct (Z.leb_spec e (bias flt - 63)); lia. Qed.

Lemma floatBits_ok f flt (xb := extra flt (exp f)) (q := mant f / 2 ^ xb)
   (q' := if Z.odd (mant f / 2 ^ (xb - 1)) then q + 1 else q) : flt_ok flt -> 2 ^ 63 <= mant f < 2 ^ 64 ->
  ieee (mantbits flt) (expbits flt) (fst (floatBits f flt)) =
  round_val (expbits flt) (neg f) (IZR q' * p2 (exp f + xb)).
Proof.
  intros Hf Hm. destruct (flt_facts flt Hf) as (F1 & F2 & F3 & F4). destruct (extra_ge flt (exp f) Hf) as [X1 X2]. fold xb in X1, X2.
  destruct (Normalize_ok f ltac:(lia)) as (N1 & N2 & N3 & N4 & _ & N5 & N6).
  assert (Bl : bitlen (mant f) = 64) by (apply bitlen_unique; lia). rewrite Bl in N4, N5. change (64 - 64) with 0 in N4, N5. change (2 ^ 0) with 1 in N5.
  unfold floatBits. destruct (Normalize f) as [g sh]. cbn [fst] in *. rewrite Z.mul_1_r in N5. rewrite Z.sub_0_r in N4. rewrite N3, N4, N5. clear N1 N2 N3 N4 N5 N6 Bl.
  set (mb := mantbits flt) in *.
  (* the shifted mantissa *)
  set (n := Z.max 0 (bias flt + 1 - (exp f + 63))).
  assert (E1 : (if exp f + 63 <? bias flt + 1 then (Z.shiftr (mant f) (bias flt + 1 - (exp f + 63)), exp f + 63 + (bias flt + 1 - (exp f + 63)))
                else (mant f, exp f + 63)) = (mant f / 2 ^ n, exp f + 63 + n)).
  { unfold n. destruct (Z.ltb_spec (exp f + 63) (bias flt + 1)) as [L|L].
    - rewrite Z.max_r, Z.shiftr_div_pow2 by lia. reflexivity.
    - rewrite Z.max_l by lia. change (2 ^ 0) with 1. rewrite Z.div_1_r. f_equal. lia. }
  rewrite E1. clear E1.
  assert (Hn : 0 <= n /\ n + (63 - mb) = xb /\ exp f + 63 + n = Z.max (exp f + 63) (bias flt + 1)) by (unfold n; lia).
  destruct Hn as (Hn0 & Hn1 & Hn2). rewrite Hn2. clearbody n.
  rewrite Z.shiftr_div_pow2 by lia. rewrite land_bit by lia. rewrite negb_involutive, !Z.div_div, <- !Z.pow_add_r by (try apply pow2_pos; try lia; pose proof (pow2_pos n); lia).
  replace (n + (63 - mb)) with xb by lia. replace (n + (62 - mb)) with (xb - 1) by lia. fold q.
  set (e0 := Z.max (exp f + 63) (bias flt + 1)) in *.
  assert (Px : 0 < 2 ^ xb) by (apply pow2_pos; lia).
  assert (Pmb1 : 2 ^ (mb + 1) = 2 * 2 ^ mb) by (rewrite Z.pow_add_r by lia; change (2 ^ 1) with 2; ring).
  assert (Pmb : 0 < 2 ^ mb) by (apply pow2_pos; lia).
  (* q is a mantissa *)
  assert (Hq : parts0 mb (expbits flt) q e0).
  { unfold parts0. assert (Hq2 : 0 <= q < 2 ^ (mb + 1)).
    { split; [apply Z.div_pos; lia|]. apply Z.div_lt_upper_bound; [lia|]. apply Z.lt_le_trans with (2 ^ 64); [lia|].
      rewrite <- Z.pow_add_r by lia. apply Z.pow_le_mono_r; lia. }
    unfold e0. destruct (Z_lt_le_dec (bias flt + 1) (exp f + 63)) as [L|L].
    - left. rewrite Z.max_l by lia. split; [|lia]. split; [|lia]. unfold q. apply Z.div_le_lower_bound; [lia|].
      replace xb with (63 - mb) by lia. rewrite <- Z.pow_add_r by lia. replace (63 - mb + mb) with 63 by lia. lia.
    - rewrite Z.max_r by lia. destruct (Z_lt_le_dec q (2 ^ mb)); [right|left]; lia. }
  replace (u64 (q + 1)) with (q + 1).
  2:{ unfold u64. rewrite Z.mod_small; [reflexivity|]. assert (2 ^ (mb + 1) <= 2 ^ 53) by (apply Z.pow_le_mono_r; lia). unfold parts0 in Hq. lia. }
  fold q'. assert (Hq' : q <= q' <= q + 1) by (unfold q'; destruct (Z.odd _); lia). clearbody q'.
  assert (K : forall mt e (Y : Z * bool), fst (let '(mt0, e1, ov) :=
      (if 2 ^ expbits flt - 1 <=? e - bias flt then (0, 2 ^ expbits flt - 1 + bias flt, true)
       else if Z.land mt (2 ^ mb) =? 0 then (mt, bias flt, false) else (mt, e, false)) in
      ((if neg f then Z.lor (Z.lor (Z.land mt0 (2 ^ mb - 1)) (u64 (Z.shiftl (u64 (Z.land (e1 - bias flt) (2 ^ expbits flt - 1))) mb))) (2 ^ (mb + expbits flt))
        else Z.lor (Z.land mt0 (2 ^ mb - 1)) (u64 (Z.shiftl (u64 (Z.land (e1 - bias flt) (2 ^ expbits flt - 1))) mb))), ov)) = assemble flt (neg f) mt e).
  { intros mt e _. unfold assemble. fold mb. destruct (2 ^ expbits flt - 1 <=? e - bias flt); [reflexivity|]. destruct (Z.land mt (2 ^ mb) =? 0); reflexivity. }
  rewrite X2. destruct (Z.eqb_spec q' (2 * 2 ^ mb)) as [C|C].
  - rewrite C. rewrite Z.shiftr_div_pow2 by lia. change (2 ^ 1) with 2. rewrite (Z.mul_comm 2 (2 ^ mb)), Z.div_mul by lia.
    pose proof (K (2 ^ mb) (e0 + 1) (0, true)) as K'. cbn zeta in K'. rewrite K'. clear K K'. unfold mb.
    rewrite assemble_ok; [|exact Hf|left; fold mb; unfold parts0 in Hq; lia]. fold mb. f_equal.
    rewrite mult_IZR. replace (e0 + 1 - mb) with (1 + (e0 - mb)) by lia. rewrite p2_plus. change (p2 1) with 2%R. ring.
  - pose proof (K q' e0 (0, true)) as K'. cbn zeta in K'. rewrite K'. clear K K'. unfold mb. rewrite assemble_ok; [reflexivity|exact Hf|].
    fold mb. unfold parts0 in *. lia.
Qed.

(** * Rounding within a known error *)
Lemma rn_small mb eb V : 1 <= mb -> 2 <= eb -> (0 < V < p2 (1 - 2 ^ (eb - 1) - mb))%R -> rn mb eb V = 0%R.
Proof.
  intros Hmb Heb HV. set (c := 2 - 2 ^ (eb - 1) - mb) in *.
  replace 0%R with (IZR 0 * p2 c)%R by ring. apply round_parts.
  - unfold cexp, fx, FLT_exp. assert (mag radix2 V <= c - 1).
    { apply mag_le_bpow; [lra|]. rewrite Rabs_pos_eq by lra. change (bpow radix2 (c - 1)) with (p2 (c - 1)). replace (c - 1) with (1 - 2 ^ (eb - 1) - mb) by lia. lra. }
    revert H. generalize (mag radix2 V : Z). intros g H. unfold c in *. lia.
  - rewrite Rmult_0_l, Rminus_0_r, Rabs_pos_eq by lra. replace (c - 1) with (1 - 2 ^ (eb - 1) - mb) by lia. lra.
  - left. rewrite Rmult_0_l, Rminus_0_r, Rabs_pos_eq by lra. replace (c - 1) with (1 - 2 ^ (eb - 1) - mb) by lia. lra.
Qed.

Lemma mid_lo_le mb eb mt e : 1 <= mb -> 2 <= eb -> parts0 mb eb mt e -> 0 < mt ->
  (mid_lo mb eb (IZR mt * p2 (e - mb)) <= IZR mt * p2 (e - mb) - p2 (e - mb - 2))%R.
Proof.
  intros Hmb Heb Hp Hmt. rewrite (mid_lo_val mb eb Hmb Heb mt e Hp Hmt).
  pose proof (p2_le (e - mb - 2) (e - mb - 1) ltac:(lia)). destruct ((mt =? 2 ^ mb) && negb (e =? 2 - 2 ^ (eb - 1))); lra.
Qed.

Definition rejects (flt : floatInfo) (E e m : Z) : bool :=
  let xb := extra flt e in
  let halfway := u64 (Z.shiftl 1 (xb - 1)) in
  let mantExtra := Z.land m (u64 (u64 (Z.shiftl 1 xb) - 1)) in
  (sint 64 (sint 64 halfway - E) <? sint 64 mantExtra) && (sint 64 mantExtra <? sint 64 (sint 64 halfway + E)).

Lemma sint_small x : - 2 ^ 63 <= x < 2 ^ 63 -> sint 64 x = x.
Proof.
  intros H. unfold sint. change (64 - 1) with 63. rewrite Z.mod_small by lia. lia.
Qed.

Lemma rejects_low flt E e m : flt_ok flt -> extra flt e <= 63 -> 0 < E <= 52 -> 0 <= m -> rejects flt E e m = false ->
  m mod 2 ^ extra flt e <= 2 ^ (extra flt e - 1) - E \/ 2 ^ (extra flt e - 1) + E <= m mod 2 ^ extra flt e.
Proof.
  intros Hf Hx HE Hm. destruct (extra_ge flt e Hf) as [X1 _]. unfold rejects. set (xb := extra flt e) in *.
  rewrite !Z.shiftl_1_l. assert (P1 : 2 ^ xb = 2 * 2 ^ (xb - 1)) by (rewrite <- Z.pow_succ_r by lia; f_equal; lia).
  assert (P2 : 2 ^ xb <= 2 ^ 63) by (apply Z.pow_le_mono_r; lia). assert (P3 : 2 ^ 10 <= 2 ^ (xb - 1)) by (apply Z.pow_le_mono_r; lia).
  replace (u64 (2 ^ (xb - 1))) with (2 ^ (xb - 1)) by (unfold u64; rewrite Z.mod_small; lia).
  replace (u64 (2 ^ xb)) with (2 ^ xb) by (unfold u64; rewrite Z.mod_small; lia).
  replace (u64 (2 ^ xb - 1)) with (2 ^ xb - 1) by (unfold u64; rewrite Z.mod_small; lia).
  replace (2 ^ xb - 1) with (Z.ones xb) by (rewrite Z.ones_equiv; lia). rewrite Z.land_ones by lia.
  pose proof (Z.mod_pos_bound m (2 ^ xb) ltac:(lia)). rewrite !(sint_small (2 ^ (xb - 1))) by lia. rewrite !sint_small by lia.
  intros C. apply andb_false_iff in C. destruct C as [C|C]; apply Z.ltb_ge in C; lia.
Qed.

Lemma rejects_high flt E e m : flt_ok flt -> 65 <= extra flt e -> 0 < E <= 52 -> 2 ^ 63 <= m < 2 ^ 64 -> rejects flt E e m = false ->
  m <= 2 ^ 64 - E.
Proof.
  intros Hf Hx HE Hm. unfold rejects. set (xb := extra flt e) in *.
  rewrite !Z.shiftl_1_l. replace (u64 (2 ^ (xb - 1))) with 0.
  2:{ unfold u64. replace (xb - 1) with (xb - 65 + 64) by lia. rewrite Z.pow_add_r, Z.mod_mul by lia. reflexivity. }
  replace (u64 (2 ^ xb)) with 0.
  2:{ unfold u64. replace xb with (xb - 64 + 64) by lia. rewrite Z.pow_add_r, Z.mod_mul by lia. reflexivity. }
  change (u64 (0 - 1)) with (Z.ones 64). rewrite Z.land_ones, (Z.mod_small m) by lia. change (sint 64 0) with 0.
  rewrite !(sint_small (0 - E)), !(sint_small (0 + E)) by lia.
  replace (sint 64 m) with (m - 2 ^ 64).
  2:{ unfold sint. change (64 - 1) with 63. replace ((m + 2 ^ 63) mod 2 ^ 64) with (m - 2 ^ 63) by (apply (Z.mod_unique _ _ 1); lia). lia. }
  intros C. apply andb_false_iff in C. destruct C as [C|C]; apply Z.ltb_ge in C; lia.
Qed.

Section Core.
Variables (flt : floatInfo) (f : extFloat) (V : R) (E : Z).
Hypothesis Hf : flt_ok flt.
Hypothesis Hm : 2 ^ 63 <= mant f < 2 ^ 64.
Hypothesis HE : 0 < E <= 52.
Hypothesis HV : (0 < V)%R.
Hypothesis Herr : (Rabs (IZR (mant f) - V * p2 (- exp f)) < IZR E)%R.
Let mb := mantbits flt.
Let eb := expbits flt.
Let xb := extra flt (exp f).
Let q := mant f / 2 ^ xb.
Let q' := if Z.odd (mant f / 2 ^ (xb - 1)) then q + 1 else q.
Hypothesis Hok : rejects flt E (exp f) (mant f) = false.

Lemma V_scaled z : (V * p2 (- exp f) < IZR z <-> V < IZR z * p2 (exp f))%R /\ (IZR z < V * p2 (- exp f) <-> IZR z * p2 (exp f) < V)%R.
Proof.
  pose proof (p2_pos (exp f)) as P. assert (EE : (p2 (- exp f) * p2 (exp f) = 1)%R) by (rewrite <- p2_plus; replace (- exp f + exp f) with 0 by lia; reflexivity).
  assert (A : V = (V * p2 (- exp f) * p2 (exp f))%R) by (rewrite Rmult_assoc, EE; ring).
  split; split; intros H.
  - rewrite A. apply Rmult_lt_compat_r; assumption.
  - apply (Rmult_lt_reg_r (p2 (exp f))); [exact P|]. rewrite <- A. exact H.
  - rewrite A. apply Rmult_lt_compat_r; assumption.
  - apply (Rmult_lt_reg_r (p2 (exp f))); [exact P|]. rewrite <- A. exact H.
Qed.

Lemma V_bounds a b : a <= mant f - E -> mant f + E <= b -> (IZR a * p2 (exp f) < V < IZR b * p2 (exp f))%R.
Proof.
  intros Ha Hb. apply IZR_le in Ha. apply IZR_le in Hb. rewrite minus_IZR in Ha. rewrite plus_IZR in Hb.
  apply Rabs_def2 in Herr. split; apply V_scaled; lra.
Qed.

Let hl := p2 (1 - 2 ^ (eb - 1) - mb).

Lemma round_far : (V <= hl * (1 - p2 (-56)) \/ hl < V)%R -> rn mb eb V = (IZR q' * p2 (exp f + xb))%R.
Proof.
  intros Hfar.
  destruct (flt_facts flt Hf) as (F1 & F2 & F3 & F4). fold mb eb in F1, F2, F3, F4.
  destruct (extra_ge flt (exp f) Hf) as [X1 X2]. fold xb mb in X1, X2.
  set (e0 := Z.max (exp f + 63) (bias flt + 1)) in *. set (X := exp f + xb) in *.
  assert (P1 : 2 ^ xb = 2 * 2 ^ (xb - 1)) by (rewrite <- Z.pow_succ_r by lia; f_equal; lia).
  assert (Px : 0 < 2 ^ (xb - 1)) by (apply pow2_pos; lia).
  pose proof (Z.div_mod (mant f) (2 ^ xb) ltac:(lia)) as DM. fold q in DM. pose proof (Z.mod_pos_bound (mant f) (2 ^ xb) ltac:(lia)) as HR.
  set (r := mant f mod 2 ^ xb) in *.
  assert (PX : forall a k, 0 <= k -> (IZR (a * 2 ^ k) * p2 (exp f) = IZR a * p2 (exp f + k))%R).
  { intros a k Hk. rewrite mult_IZR, IZR_pow2, Rmult_assoc, <- p2_plus by lia. do 2 f_equal. lia. }
  destruct (Z_le_gt_dec xb 63) as [C|C].
  - (* the extra bits fit into the mantissa *)
    assert (P3 : 2 ^ 10 <= 2 ^ (xb - 1)) by (apply Z.pow_le_mono_r; lia).
    assert (P4 : 2 ^ (xb - 1) = 2 * 2 ^ (xb - 2)) by (rewrite <- Z.pow_succ_r by lia; f_equal; lia).
    assert (Hq2 : 0 < 2 ^ mb /\ 2 ^ (mb + 1) = 2 * 2 ^ mb) by (split; [apply pow2_pos; lia|rewrite Z.pow_add_r by lia; change (2 ^ 1) with 2; ring]).
    destruct Hq2 as [Pmb Pmb1].
    assert (Hq : parts0 mb eb q e0).
    { unfold parts0. assert (Hq2 : 0 <= q < 2 ^ (mb + 1)).
      { split; [apply Z.div_pos; lia|]. apply Z.div_lt_upper_bound; [lia|]. apply Z.lt_le_trans with (2 ^ 64); [lia|].
        rewrite <- Z.pow_add_r by lia. apply Z.pow_le_mono_r; lia. }
      unfold e0. destruct (Z_lt_le_dec (bias flt + 1) (exp f + 63)) as [L|L].
      - left. rewrite Z.max_l by lia. split; [|lia]. split; [|lia]. unfold q. apply Z.div_le_lower_bound; [lia|].
        replace xb with (63 - mb) by lia. rewrite <- Z.pow_add_r by lia. replace (63 - mb + mb) with 63 by lia. lia.
      - rewrite Z.max_r by lia. destruct (Z_lt_le_dec q (2 ^ mb)); [right|left]; lia. }
    assert (Hup : mant f / 2 ^ (xb - 1) = 2 * q + (if 2 ^ (xb - 1) <=? r then 1 else 0)).
    { symmetry. destruct (Z.leb_spec (2 ^ (xb - 1)) r).
      - apply (Z.div_unique _ _ _ (r - 2 ^ (xb - 1))); lia.
      - apply (Z.div_unique _ _ _ r); lia. }
    assert (Eq : q' = if 2 ^ (xb - 1) <=? r then q + 1 else q).
    { unfold q'. rewrite Hup, Z.odd_add, Z.odd_mul. destruct (2 ^ (xb - 1) <=? r); reflexivity. }
    rewrite Eq. clear Hup Eq. 
    destruct (rejects_low flt E (exp f) (mant f) Hf C HE ltac:(lia) Hok) as [R|R]; fold xb r in R.
    + destruct (Z.leb_spec (2 ^ (xb - 1)) r) as [|_]; [lia|].
      destruct (Z.eq_dec q 0) as [Q0|Q0].
      * rewrite Q0, Rmult_0_l. apply rn_small; [lia|lia|]. split; [exact HV|].
        destruct (V_bounds (mant f - E) (1 * 2 ^ (xb - 1))) as [_ B]; [lia|lia|]. rewrite PX in B by lia. rewrite Rmult_1_l in B.
        apply Rlt_le_trans with (1 := B). apply p2_le. unfold parts0 in Hq. lia.
      * assert (Hv := reads_back mb eb ltac:(lia) ltac:(lia) q e0 Hq ltac:(unfold parts0 in Hq; lia) V).
        rewrite <- X2 in Hv. apply Hv; clear Hv.
        all: destruct (V_bounds (q * 2 ^ xb - 2 ^ (xb - 2)) (q * 2 ^ xb + 2 ^ (xb - 1))) as [B1 B2]; [nia|nia|].
        all: rewrite minus_IZR, Rmult_minus_distr_r, PX in B1 by lia; rewrite plus_IZR, Rmult_plus_distr_r, PX in B2 by lia.
        all: replace (2 ^ (xb - 2)) with (1 * 2 ^ (xb - 2)) in B1 by lia; replace (2 ^ (xb - 1)) with (1 * 2 ^ (xb - 1)) in B2 by lia;
          rewrite PX, Rmult_1_l in B1 by lia; rewrite PX, Rmult_1_l in B2 by lia.
        all: pose proof (mid_lo_le mb eb q e0 ltac:(lia) ltac:(lia) Hq ltac:(unfold parts0 in Hq; lia)) as ML.
        all: pose proof (mid_hi_val mb eb ltac:(lia) ltac:(lia) q e0 Hq ltac:(unfold parts0 in Hq; lia)) as MH; cbn zeta in MH.
        all: rewrite <- X2 in ML, MH; unfold X in *; replace (exp f + xb - 2) with (exp f + (xb - 2)) in ML by lia; replace (exp f + xb - 1) with (exp f + (xb - 1)) in MH by lia.
        -- lra.
        -- left. lra.
    + destruct (Z.leb_spec (2 ^ (xb - 1)) r) as [_|]; [|lia].
      destruct (V_bounds (q * 2 ^ xb + 2 ^ (xb - 1)) ((q + 1) * 2 ^ xb + 2 ^ (xb - 1))) as [B1 B2]; [nia|nia|].
      rewrite plus_IZR, Rmult_plus_distr_r, PX in B1 by lia; rewrite plus_IZR, Rmult_plus_distr_r, PX in B2 by lia.
      replace (2 ^ (xb - 1)) with (1 * 2 ^ (xb - 1)) in B1, B2 by lia. rewrite PX, Rmult_1_l in B1 by lia; rewrite PX, Rmult_1_l in B2 by lia.
      fold X in B1, B2. assert (EX : (p2 (exp f + (xb - 1)) = p2 X / 2)%R) by (unfold X; rewrite <- p2_half; f_equal; lia). rewrite EX in B1, B2.
      assert (Eq1 : (IZR q * p2 X = IZR (q + 1) * p2 X - p2 X)%R) by (rewrite plus_IZR; ring). rewrite Eq1 in B1.
      destruct (Z.eq_dec (q + 1) (2 ^ (mb + 1))) as [Q1|Q1].
      * (* the next binade *)
        assert (Hq1 : parts0 mb eb (2 ^ mb) (e0 + 1)) by (left; unfold parts0 in Hq; lia).
        assert (Hv := reads_back mb eb ltac:(lia) ltac:(lia) (2 ^ mb) (e0 + 1) Hq1 ltac:(lia) V).
        pose proof (mid_lo_val mb eb ltac:(lia) ltac:(lia) (2 ^ mb) (e0 + 1) Hq1 ltac:(lia)) as ML. cbn zeta in ML.
        pose proof (mid_hi_val mb eb ltac:(lia) ltac:(lia) (2 ^ mb) (e0 + 1) Hq1 ltac:(lia)) as MH. cbn zeta in MH.
        rewrite Z.eqb_refl in ML. destruct (Z.eqb_spec (e0 + 1) (2 - 2 ^ (eb - 1))) as [|_]; [lia|]. cbn [negb andb] in ML.
        replace (e0 + 1 - mb) with (X + 1) in * by (unfold X; lia). replace (X + 1 - 2) with (X - 1) in ML by lia. replace (X + 1 - 1) with X in MH by lia.
        rewrite p2_half in ML. assert (EV : (IZR (2 ^ mb) * p2 (X + 1) = IZR (q + 1) * p2 X)%R).
        { rewrite Q1, Pmb1, mult_IZR. replace (X + 1) with (1 + X) by lia. rewrite p2_plus. change (p2 1) with 2%R. ring. }
        rewrite EV in *. pose proof (p2_pos X). apply Hv; [lra|left; lra].
      * assert (Hq1 : parts0 mb eb (q + 1) e0).
        { unfold parts0 in *. lia. }
        assert (Hv := reads_back mb eb ltac:(lia) ltac:(lia) (q + 1) e0 Hq1 ltac:(unfold parts0 in Hq; lia) V).
        pose proof (mid_lo_val mb eb ltac:(lia) ltac:(lia) (q + 1) e0 Hq1 ltac:(unfold parts0 in Hq; lia)) as ML. cbn zeta in ML.
        pose proof (mid_hi_val mb eb ltac:(lia) ltac:(lia) (q + 1) e0 Hq1 ltac:(unfold parts0 in Hq; lia)) as MH. cbn zeta in MH.
        replace ((q + 1 =? 2 ^ mb) && negb (e0 =? 2 - 2 ^ (eb - 1))) with false in ML.
        2:{ symmetry. apply andb_false_iff. destruct (Z.eqb_spec (q + 1) (2 ^ mb)); [|left; reflexivity]. right. apply negb_false_iff, Z.eqb_eq. unfold parts0 in Hq. lia. }
        rewrite <- X2 in *. rewrite p2_half in ML, MH. pose proof (p2_pos X). apply Hv; [lra|left; lra].
  - assert (E0 : e0 = bias flt + 1 /\ exp f + 63 < bias flt + 1).
    { unfold xb, extra in C. fold mb in C. unfold e0. destruct (Z.leb_spec (exp f) (bias flt - 63)); lia. }
    destruct E0 as [E0 E1].
    assert (P64 : 2 ^ 64 <= 2 ^ xb) by (apply Z.pow_le_mono_r; lia).
    assert (Q0 : q = 0) by (unfold q; apply Z.div_small; lia).
    destruct (Z.eq_dec xb 64) as [C2|C2].
    + (* between half the least number and the least number *)
      assert (Eq : q' = 1).
      { unfold q'. rewrite Q0, C2. replace (mant f / 2 ^ (64 - 1)) with 1; [reflexivity|]. apply (Z.div_unique _ _ _ (mant f - 2 ^ 63)); lia. }
      rewrite Eq. assert (HX : X = 2 - 2 ^ (eb - 1) - mb) by lia.
      assert (Hq1 : parts0 mb eb 1 (2 - 2 ^ (eb - 1))).
      { right. split; [|reflexivity]. assert (2 ^ 1 <= 2 ^ mb) by (apply Z.pow_le_mono_r; lia). lia. }
      assert (Hv := reads_back mb eb ltac:(lia) ltac:(lia) 1 _ Hq1 ltac:(lia) V).
      pose proof (mid_lo_val mb eb ltac:(lia) ltac:(lia) 1 _ Hq1 ltac:(lia)) as ML. cbn zeta in ML.
      pose proof (mid_hi_val mb eb ltac:(lia) ltac:(lia) 1 _ Hq1 ltac:(lia)) as MH. cbn zeta in MH.
      rewrite Z.eqb_refl in ML. cbn [negb] in ML. rewrite andb_false_r in ML. rewrite <- HX in *. rewrite p2_half in ML, MH. pose proof (p2_pos X) as PXp.
      unfold hl in Hfar. replace (1 - 2 ^ (eb - 1) - mb) with (X - 1) in Hfar by lia.
      assert (EX : (IZR (2 ^ 63) * p2 (exp f) = p2 (X - 1))%R) by (rewrite IZR_pow2, <- p2_plus by lia; f_equal; lia).
      destruct (Z_lt_le_dec (mant f) (2 ^ 63 + E)) as [L|L].
      * destruct (V_bounds (2 ^ 63 - 128) (2 ^ 63 + 128)) as [B1 B2]; [lia|lia|].
        rewrite minus_IZR, Rmult_minus_distr_r, EX in B1. rewrite plus_IZR, Rmult_plus_distr_r, EX in B2.
        assert (E6 : (IZR 128 * p2 (exp f) = p2 (X - 1 - 56))%R) by (change 128 with (2 ^ 7) at 1; rewrite IZR_pow2, <- p2_plus by lia; f_equal; lia).
        rewrite E6 in B1, B2. replace (X - 1 - 56) with (X - 1 + -56) in B1, B2 by lia. rewrite p2_plus in B1, B2.
        assert (P56 : (0 < p2 (-56) <= 1)%R) by (split; [apply p2_pos|change 1%R with (p2 0); apply p2_le; lia]).
        destruct Hfar as [Hfar|Hfar]; [exfalso; lra|].
        pose proof (p2_pos (X - 1)) as PX1. assert (p2 (X - 1) * p2 (-56) <= p2 (X - 1))%R by nra. pose proof (p2_half X) as HX2.
        apply Hv; [lra|left; lra].
      * destruct (V_bounds (2 ^ 63) (2 ^ 64 + 2 ^ 63)) as [B1 B2]; [lia|lia|].
        rewrite EX, p2_half in B1. rewrite plus_IZR, Rmult_plus_distr_r, EX, p2_half in B2.
        replace (IZR (2 ^ 64) * p2 (exp f))%R with (p2 X) in B2 by (rewrite IZR_pow2, <- p2_plus by lia; f_equal; lia).
        apply Hv; [lra|left; lra].
    + pose proof (rejects_high flt E (exp f) (mant f) Hf ltac:(fold xb; lia) HE Hm Hok) as R.
      assert (Eq : q' = 0).
      { unfold q'. rewrite Q0. replace (mant f / 2 ^ (xb - 1)) with 0; [reflexivity|]. symmetry. apply Z.div_small.
        assert (2 ^ 64 <= 2 ^ (xb - 1)) by (apply Z.pow_le_mono_r; lia). lia. }
      rewrite Eq, Rmult_0_l. apply rn_small; [lia|lia|]. split; [exact HV|].
      destruct (V_bounds (mant f - E) (1 * 2 ^ 64)) as [_ B]; [lia|lia|]. rewrite PX in B by lia. rewrite Rmult_1_l in B.
      apply Rlt_le_trans with (1 := B). apply p2_le. lia.
Qed.

(** Rounded correctly, or the number is just below half the least and becomes the least. *)
Lemma round_known : rn mb eb V = (IZR q' * p2 (exp f + xb))%R \/
  (hl * (1 - p2 (-56)) < V <= hl)%R /\ q' = 1 /\ exp f + xb = 2 - 2 ^ (eb - 1) - mb.
Proof.
  destruct (Rle_or_lt V hl) as [Vhl|Vhl]; [destruct (Rlt_or_le (hl * (1 - p2 (-56))) V) as [Vhl2|Vhl2]|].
  2,3: left; assert (Hfar : (V <= hl * (1 - p2 (-56)) \/ hl < V)%R) by (try (left; assumption); right; assumption); apply (round_far Hfar).
  destruct (flt_facts flt Hf) as (F1 & F2 & F3 & F4). fold mb eb in F1, F2, F3, F4.
  destruct (extra_ge flt (exp f) Hf) as [X1 X2]. fold xb mb in X1, X2.
  set (X := exp f + xb) in *.
  assert (HXl : 2 - 2 ^ (eb - 1) - mb <= X) by lia.
  destruct (Z_le_gt_dec xb 63) as [C|C].
  - exfalso. destruct (V_bounds (2 ^ 63 - 52) (mant f + E)) as [B _]; [lia|lia|].
    assert (L : (p2 (-63) * IZR (2 ^ 63 - 52) * (2 * hl) <= IZR (2 ^ 63 - 52) * p2 (exp f))%R).
    { replace (2 * hl)%R with (p2 (2 - 2 ^ (eb - 1) - mb)) by (unfold hl; change 2%R with (p2 1); rewrite <- p2_plus; f_equal; lia).
      replace (p2 (-63) * IZR (2 ^ 63 - 52) * p2 (2 - 2 ^ (eb - 1) - mb))%R with (IZR (2 ^ 63 - 52) * p2 (-63 + (2 - 2 ^ (eb - 1) - mb)))%R by (rewrite p2_plus; ring).
      apply Rmult_le_compat_l; [apply IZR_le; lia|]. apply p2_le. unfold X in HXl. lia. }
    assert (G : (/ 2 <= p2 (-63) * IZR (2 ^ 63 - 52))%R).
    { change (/ 2)%R with (p2 (-1)). replace (-1) with (-63 + 62) by lia. rewrite p2_plus. apply Rmult_le_compat_l; [apply Rlt_le, p2_pos|].
      rewrite <- IZR_pow2 by lia. apply IZR_le. lia. }
    assert (0 < hl)%R by apply p2_pos. nra.
  - assert (E1 : exp f + 63 < bias flt + 1).
    { unfold xb, extra in C. fold mb in C. destruct (Z.leb_spec (exp f) (bias flt - 63)); lia. }
    assert (P64 : 2 ^ 64 <= 2 ^ xb) by (apply Z.pow_le_mono_r; lia).
    assert (Q0 : q = 0) by (unfold q; apply Z.div_small; lia).
    destruct (Z.eq_dec xb 64) as [C2|C2].
    + right. split; [split; assumption|]. split; [|unfold X in *; lia].
      unfold q'. rewrite Q0, C2. replace (mant f / 2 ^ (64 - 1)) with 1; [reflexivity|]. apply (Z.div_unique _ _ _ (mant f - 2 ^ 63)); lia.
    + left. assert (Eq : q' = 0).
      { unfold q'. rewrite Q0. replace (mant f / 2 ^ (xb - 1)) with 0; [reflexivity|]. symmetry. apply Z.div_small.
        assert (2 ^ 64 <= 2 ^ (xb - 1)) by (apply Z.pow_le_mono_r; lia). lia. }
      rewrite Eq, Rmult_0_l. apply rn_small; [lia|lia|]. split; [exact HV|].
      pose proof (rejects_high flt E (exp f) (mant f) Hf ltac:(fold xb; lia) HE Hm Hok) as R.
      destruct (V_bounds (mant f - E) (2 ^ 64)) as [_ B]; [lia|lia|]. rewrite IZR_pow2, <- p2_plus in B by lia.
      apply Rlt_le_trans with (1 := B). apply p2_le. lia.
Qed.

Lemma floatBits_round : ieee mb eb (fst (floatBits f flt)) = ieee_round mb eb (neg f) (sgnR (neg f) V) \/
  (hl * (1 - p2 (-56)) < V <= hl)%R /\ ieee mb eb (fst (floatBits f flt)) = VNum (neg f) (sgnR (neg f) (2 * hl)).
Proof.
  unfold mb, eb. rewrite floatBits_ok by assumption. fold mb eb xb q q'. destruct round_known as [RK|(RV & Rq & Re)].
  - left. rewrite <- RK. unfold round_val, ieee_round.
    assert (ES : rn mb eb (sgnR (neg f) V) = sgnR (neg f) (rn mb eb V)).
    { destruct (neg f); [|reflexivity]. cbn [sgnR]. unfold rn. apply round_NE_opp. }
    rewrite ES. assert (PR : (0 <= rn mb eb V)%R).
    { destruct (flt_facts flt Hf) as (F1 & _). rewrite RK. apply Rmult_le_pos; [|apply Rlt_le, p2_pos]. apply IZR_le.
      unfold q', q. destruct (extra_ge flt (exp f) Hf) as [X1 _]. assert (0 <= mant f / 2 ^ xb) by (apply Z.div_pos; [lia|apply pow2_pos; unfold xb; lia]). destruct (Z.odd _); lia. }
    replace (Rabs (sgnR (neg f) (rn mb eb V))) with (rn mb eb V); [reflexivity|].
    destruct (neg f); cbn [sgnR]; [rewrite Rabs_Ropp|]; rewrite Rabs_pos_eq by exact PR; reflexivity.
  - right. split; [exact RV|]. rewrite Rq, Re, Rmult_1_l. unfold round_val.
    replace (2 * hl)%R with (p2 (2 - 2 ^ (eb - 1) - mb)) by (unfold hl; change 2%R with (p2 1); rewrite <- p2_plus; f_equal; lia).
    rewrite Rle_bool_false; [reflexivity|]. apply p2_lt. destruct (flt_facts flt Hf) as (F1 & F2 & _). fold mb eb in F1, F2.
    pose proof (pow2_pos (eb - 1)). lia.
Qed.
End Core.

(** * AssignDecimal *)
Lemma scale_step f p k W d : 0 <= mant f < 2 ^ 64 -> 2 ^ 63 <= mant p < 2 ^ 64 -> (Rabs (eval p - p10 k) <= p2 (exp p - 1))%R -> (0 <= d)%R ->
  (Rabs (IZR (mant f) - W * p2 (- exp f)) <= d)%R ->
  (Rabs (IZR (mant (Multiply f p)) - W * p10 k * p2 (- exp (Multiply f p))) < 1 + d)%R.
Proof.
  intros Hf Hp Hk Hd HW. pose proof (scale_error f p k Hf Hp Hk) as SE. destruct (Multiply_mant f p Hf ltac:(lia)) as (_ & Ee & _).
  set (ep := exp (Multiply f p)) in *.
  replace (IZR (mant (Multiply f p)) - W * p10 k * p2 (- ep))%R
    with ((IZR (mant (Multiply f p)) - eval f * p10 k * p2 (- ep)) + (eval f - W) * p10 k * p2 (- ep))%R by ring.
  apply Rle_lt_trans with (1 := Rabs_triang _ _).
  assert (K : (Rabs ((eval f - W) * p10 k * p2 (- ep)) <= d)%R); [|lra].
  assert (E1 : ((eval f - W) * p10 k * p2 (- ep) = (IZR (mant f) - W * p2 (- exp f)) * (p10 k * p2 (- exp p - 64)))%R).
  { rewrite Ee. unfold eval. replace (- (exp f + exp p + 64)) with (- exp f + (- exp p - 64)) by lia. rewrite p2_plus.
    assert (E0 : (p2 (exp f) * p2 (- exp f) = 1)%R) by (rewrite <- p2_plus; replace (exp f + - exp f) with 0 by lia; reflexivity).
    replace ((IZR (mant f) * p2 (exp f) - W) * p10 k * (p2 (- exp f) * p2 (- exp p - 64)))%R
      with ((IZR (mant f) * (p2 (exp f) * p2 (- exp f)) - W * p2 (- exp f)) * (p10 k * p2 (- exp p - 64)))%R by ring. rewrite E0. ring. }
  rewrite E1, Rabs_mult. assert (U : (0 <= p10 k * p2 (- exp p - 64) <= 1)%R).
  { split; [apply Rmult_le_pos; apply Rlt_le; [apply p10_pos|apply p2_pos]|].
    apply Rabs_le_inv in Hk. assert (p10 k <= eval p + p2 (exp p - 1))%R by lra.
    apply Rle_trans with ((eval p + p2 (exp p - 1)) * p2 (- exp p - 64))%R; [apply Rmult_le_compat_r; [apply Rlt_le, p2_pos|assumption]|].
    unfold eval. rewrite Rmult_plus_distr_r, Rmult_assoc, <- !p2_plus. replace (exp p + (- exp p - 64)) with (-64) by lia. replace (exp p - 1 + (- exp p - 64)) with (-65) by lia.
    assert (IZR (mant p) <= IZR (2 ^ 64 - 1))%R by (apply IZR_le; lia). rewrite minus_IZR in H0. pose proof (p2_pos (-64)).
    apply Rle_trans with ((IZR (2 ^ 64) - 1) * p2 (-64) + p2 (-65))%R; [apply Rplus_le_compat_r, Rmult_le_compat_r; lra|].
    rewrite Rmult_minus_distr_r, IZR_pow2, <- p2_plus by lia. change (p2 (64 + -64)) with 1%R. pose proof (p2_le (-65) (-64) ltac:(lia)). lra. }
  rewrite (Rabs_pos_eq (p10 k * _)) by lra.
  apply Rle_trans with (d * (p10 k * p2 (- exp p - 64)))%R; [apply Rmult_le_compat_r; lra|].
  rewrite <- (Rmult_1_r d) at 2. apply Rmult_le_compat_l; lra.
Qed.

Lemma eval_scaled f W : eval f = W -> (IZR (mant f) = W * p2 (- exp f))%R.
Proof. intros <-. unfold eval. rewrite Rmult_assoc, <- p2_plus. replace (exp f + - exp f) with 0 by lia. change (p2 0) with 1%R. ring. Qed.

(** The numbers that may be meant: m itself, or with [tr] anything above m by at most 2^-61 m, or by
    at most 8 units of the normalised mantissa if m has 19 digits. *)
Definition meant (tr : bool) (m : Z) (W : R) : Prop :=
  W = IZR m \/ tr = true /\ (IZR m <= W)%R /\
    ((W <= IZR m * (1 + p2 (-61)))%R \/ 10 ^ 18 <= m /\ ((W - IZR m) * p2 (64 - bitlen m) <= 8)%R).

Lemma rel_units N V : 0 < N -> (IZR N <= V <= IZR N * (1 + p2 (-61)))%R -> ((V - IZR N) * p2 (64 - bitlen N) <= 8)%R.
Proof.
  intros HN HV. pose proof (p2_pos (64 - bitlen N)) as P. pose proof (bitlen_pos N HN) as BP. pose proof (bitlen_spec N HN) as [_ B]. apply IZR_lt in B.
  rewrite IZR_pow2 in B by lia.
  apply Rle_trans with (IZR N * p2 (-61) * p2 (64 - bitlen N))%R; [apply Rmult_le_compat_r; lra|].
  apply Rle_trans with (p2 (bitlen N) * p2 (-61) * p2 (64 - bitlen N))%R.
  - apply Rmult_le_compat_r; [lra|]. apply Rmult_le_compat_r; [apply Rlt_le, p2_pos|lra].
  - rewrite <- !p2_plus. replace (bitlen N + -61 + (64 - bitlen N)) with 3 by lia. change (p2 3) with 8%R. lra.
Qed.

Lemma AssignDecimal_ok m e10 ng tr flt W : flt_ok flt -> 0 < m < 2 ^ 64 -> -348 <= e10 < 348 -> meant tr m W -> exists f E,
  2 ^ 63 <= mant f < 2 ^ 64 /\ neg f = ng /\ 0 < E <= 52 /\
  (Rabs (IZR (mant f) - W * p10 e10 * p2 (- exp f)) < IZR E)%R /\
  AssignDecimal m e10 ng tr flt = Ret (f, negb (rejects flt E (exp f) (mant f))).
Proof.
  intros Hf Hm He HW. unfold AssignDecimal, firstPowerOfTen, stepPowerOfTen.
  rewrite Z.quot_div_nonneg, Z.rem_mod_nonneg by lia. replace (e10 - -348) with (e10 + 348) by lia.
  pose proof (Z.div_mod (e10 + 348) 8 ltac:(lia)) as DM. pose proof (Z.mod_pos_bound (e10 + 348) 8 ltac:(lia)) as MB.
  set (i := (e10 + 348) / 8) in *. set (a := (e10 + 348) mod 8) in *.
  assert (Hi : 0 <= i < 87) by (unfold i; split; [apply Z.div_pos; lia|apply Z.div_lt_upper_bound; lia]).
  change (Z.of_nat (length powersOfTen)) with 87. destruct (Z.ltb_spec e10 (-348)) as [|_]; [lia|]. destruct (Z.leb_spec 87 i) as [|_]; [lia|]. cbn [orb].
  destruct (Z.ltb_spec a 19) as [_|]; [|lia]. rewrite at_pow10 by lia. cbn [bind andb mant exp neg].
  assert (Ha : at_ uint64pow10 a = Ret (10 ^ a)) by (apply at_pow10; lia).
  assert (Hp : exists p, at_ powersOfTen i = Ret p /\ nth_error powersOfTen (Z.to_nat i) = Some p).
  { unfold at_. destruct (Z.ltb_spec i 0); [lia|]. destruct (nth_error powersOfTen (Z.to_nat i)) as [p|] eqn:En; [exists p; auto|]. exfalso.
    apply nth_error_None in En. change (length powersOfTen) with 87%nat in En. lia. }
  destruct Hp as (p & Hp1 & Hp2). destruct (powersOfTen_ok _ _ Hp2) as [HpM HpE]. rewrite Z2Nat.id in HpE by lia.
  (* the first step *)
  set (tre := if tr then 0 + 8 / 2 else 0).
  assert (Ht : 0 <= tre <= 4 /\ (tr = true -> tre = 4)) by (unfold tre; destruct tr; cbn; split; [lia|reflexivity|lia|discriminate]). clearbody tre. destruct Ht as [Ht Ht4].
  (* the distance to M, in units of the normalised mantissa *)
  assert (HN : forall M V, 0 < M < 2 ^ 64 -> (IZR M <= V)%R -> ((V - IZR M) * p2 (64 - bitlen M) <= 8)%R ->
     let n := fst (Normalize (mkExt M 0 ng)) in (Rabs (IZR (mant n) - V * p2 (- exp n)) <= 8)%R).
  { intros M V HM HV H8 n. destruct (Normalize_ok (mkExt M 0 ng) ltac:(cbn [mant]; lia)) as (N1 & N2 & N3 & N4 & N4' & N5 & N6). fold n in N1, N2, N3, N4, N5. cbn [mant exp] in *.
    assert (A : (V * p2 (- exp n) = V * p2 (64 - bitlen M))%R) by (rewrite N4; do 2 f_equal; lia).
    rewrite A, N5, mult_IZR, IZR_pow2, <- Rmult_minus_distr_r, Rabs_mult, (Rabs_pos_eq (p2 _)) by (try lia; apply Rlt_le, p2_pos).
    replace (Rabs (IZR M - V)) with (V - IZR M)%R; [exact H8|]. rewrite Rabs_minus_sym. symmetry. apply Rabs_pos_eq. lra. }
  match goal with |- context [bind ?x _] => match x with (if _ then _ else _) => set (st := x) end end.
  assert (S1 : exists g d er, st = Ret (g, tre + er) /\ 2 ^ 62 <= mant g < 2 ^ 64 /\ neg g = ng /\ (0 <= d)%R /\ 
     (Rabs (IZR (mant g) - W * p10 a * p2 (- exp g)) <= d)%R /\ 0 <= er <= 4 /\ ((d <= 1)%R \/ tre = 4 /\ ((d <= 8)%R \/ (d <= 9)%R /\ er = 4))).
  { unfold st. destruct (Z.ltb_spec m (10 ^ (19 - a))) as [L|L].
    - assert (Hma : 0 < m * 10 ^ a < 2 ^ 64).
      { pose proof (pow10_pos a ltac:(lia)) as PA. assert (m * 10 ^ a < 10 ^ 19); [|lia]. replace 19 with (19 - a + a) by lia. rewrite Z.pow_add_r by lia. nia. }
      rewrite Ha. cbn [bind]. replace (u64 (m * 10 ^ a)) with (m * 10 ^ a) by (unfold u64; rewrite Z.mod_small; lia).
      destruct HW as [EW|(H1 & H2 & H3)].
      + destruct (Normalize_ok (mkExt (m * 10 ^ a) 0 ng) ltac:(cbn [mant]; lia)) as (N1 & N2 & N3 & _).
        eexists _, 0%R, 0. split; [rewrite Z.add_0_r; reflexivity|]. split; [lia|]. split; [exact N3|]. split; [lra|].
        split; [|split; [lia|left; lra]]. rewrite EW.
        replace (IZR m * p10 a)%R with (eval (mkExt (m * 10 ^ a) 0 ng)).
        2:{ unfold eval. cbn [mant exp]. rewrite mult_IZR, IZR_p10 by lia. change (p2 0) with 1%R. ring. }
        rewrite <- N2, <- (eval_scaled _ _ eq_refl). rewrite Rminus_eq_0, Rabs_R0. lra.
      + destruct (Normalize_ok (mkExt (m * 10 ^ a) 0 ng) ltac:(cbn [mant]; lia)) as (N1 & N2 & N3 & _).
        eexists _, 8%R, 0. split; [rewrite Z.add_0_r; reflexivity|]. split; [lia|]. split; [exact N3|]. split; [lra|].
        split; [|split; [lia|right; split; [apply Ht4, H1|left; lra]]].
        pose proof (p10_pos a) as P10. apply HN; [lia| |].
        * rewrite mult_IZR, IZR_p10 by lia. apply Rmult_le_compat_r; lra.
        * destruct H3 as [H3|[H3 H4]].
          -- apply rel_units; [lia|]. rewrite mult_IZR, IZR_p10 by lia. split; [apply Rmult_le_compat_r; lra|].
             rewrite Rmult_assoc, (Rmult_comm (p10 a)), <- Rmult_assoc. apply Rmult_le_compat_r; lra.
          -- assert (Ea : a = 0).
             { destruct (Z.eq_dec a 0) as [|Na]; [assumption|]. exfalso. assert (10 ^ (19 - a) <= 10 ^ 18) by (apply Z.pow_le_mono_r; lia). lia. }
             rewrite Ea. change (10 ^ 0) with 1. rewrite Z.mul_1_r. change (p10 0) with 1%R. rewrite Rmult_1_r. exact H4.
    - destruct (Normalize_ok (mkExt m 0 ng) ltac:(cbn [mant]; lia)) as (N1 & N2 & N3 & _).
      assert (HD : exists dd, (0 <= dd)%R /\ (Rabs (IZR (mant (fst (Normalize (mkExt m 0 ng)))) - W * p2 (- exp (fst (Normalize (mkExt m 0 ng))))) <= dd)%R /\ (dd = 0%R \/ dd = 8%R /\ tre = 4)).
      { destruct HW as [EW|(H1 & H2 & H3)].
        - exists 0%R. split; [lra|]. split; [|left; reflexivity].
          replace W with (eval (mkExt m 0 ng)) by (rewrite EW; unfold eval; cbn [mant exp]; change (p2 0) with 1%R; ring).
          rewrite <- N2, <- (eval_scaled _ _ eq_refl). rewrite Rminus_eq_0, Rabs_R0. lra.
        - exists 8%R. split; [lra|]. split; [|right; split; [reflexivity|apply Ht4, H1]]. apply HN; [exact Hm|exact H2|].
          destruct H3 as [H3|[H3 H4]]; [apply rel_units; [lia|lra]|exact H4]. }
      destruct HD as (dd & D1 & D2 & D3).
      assert (Hs : exists sp, at_ smallPowersOfTen a = Ret sp /\ nth_error smallPowersOfTen (Z.to_nat a) = Some sp).
      { unfold at_. destruct (Z.ltb_spec a 0); [lia|]. destruct (nth_error smallPowersOfTen (Z.to_nat a)) as [sp|] eqn:En; [exists sp; auto|]. exfalso.
        apply nth_error_None in En. change (length smallPowersOfTen) with 8%nat in En. lia. }
      destruct Hs as (sp & Hs1 & Hs2). destruct (smallPowersOfTen_ok _ _ Hs2) as [HsM HsE]. rewrite Z2Nat.id in HsE by lia. rewrite Hs1. cbn [bind].
      eexists _, (1 + dd)%R, 4. split; [reflexivity|]. set (n := fst (Normalize (mkExt m 0 ng))) in *.
      split; [pose proof (Multiply_lower n sp N1 HsM); pose proof (Multiply_range n sp); lia|].
      split; [destruct (Multiply_mant n sp ltac:(lia) ltac:(lia)) as (_ & _ & ->); exact N3|]. split; [lra|].
      split; [|split; [lia|destruct D3 as [->|[-> ->]]; [left; lra|right; split; [reflexivity|right; split; [lra|reflexivity]]]]].
      apply Rlt_le, (scale_step n sp a W dd); [lia|lia| |lra|exact D2].
      rewrite HsE, Rminus_eq_0, Rabs_R0. apply Rlt_le, p2_pos. }
  destruct S1 as (g & d & er & Est & G1 & G2 & Gd & G3 & G4 & G5). rewrite Est. clear Est st. cbn [bind]. rewrite Hp1. cbn [bind].
  (* the second *)
  pose proof (scale_step g p (-348 + 8 * i) (W * p10 a) d ltac:(lia) HpM HpE Gd G3) as SS.
  replace (W * p10 a * p10 (-348 + 8 * i))%R with (W * p10 e10)%R in SS by (rewrite Rmult_assoc, <- p10_plus; do 2 f_equal; lia).
  destruct (Multiply_mant g p ltac:(lia) ltac:(lia)) as (Em & _ & En).
  pose proof (Multiply_range g p ltac:(lia) ltac:(lia)) as MR.
  assert (ML : 2 ^ 61 <= mant (Multiply g p)).
  { rewrite Em. apply Z.div_le_lower_bound; [lia|]. assert (2 ^ 62 * 2 ^ 63 <= mant g * mant p) by (apply Z.mul_le_mono_nonneg; lia).
    change (2 ^ 64 * 2 ^ 61) with (2 ^ 62 * 2 ^ 63). lia. }
  set (h := Multiply g p) in *. destruct (Normalize_ok h ltac:(lia)) as (N1 & N2 & N3 & N4 & N4' & N5 & N6).
  destruct (Normalize h) as [k sh]. cbn [fst snd] in *.
  assert (Hsh : 0 <= sh <= 2).
  { rewrite N4'. assert (61 < bitlen (mant h)); [|lia]. destruct (Z_lt_le_dec 61 (bitlen (mant h))) as [|L]; [assumption|].
    apply bitlen_le_lt in L; lia. }
  set (er1 := tre + er) in *. set (er2 := if 0 <? er1 then er1 + 1 else er1).
  assert (Her : 0 < er2 + 8 / 2 <= 13 /\ (1 + d <= IZR (er2 + 8 / 2))%R).
  { change (8 / 2) with 4. unfold er2. split; [destruct (Z.ltb_spec 0 er1); unfold er1 in *; lia|].
    fold er2. assert (IZR 4 <= IZR (er2 + 4))%R by (apply IZR_le; unfold er2; destruct (Z.ltb_spec 0 er1); unfold er1 in *; lia).
    destruct G5 as [G5|[G6 [G5|[G5 G7]]]]; [lra| |].
    - assert (IZR 9 <= IZR (er2 + 4))%R by (apply IZR_le; unfold er2; destruct (Z.ltb_spec 0 er1); unfold er1 in *; lia). lra.
    - assert (IZR 13 <= IZR (er2 + 4))%R by (apply IZR_le; unfold er2; destruct (Z.ltb_spec 0 er1); unfold er1 in *; lia). lra. }
  destruct Her as [Her1 Her2]. set (er3 := er2 + 8 / 2) in *. clearbody er3.
  assert (Esh : sint 64 (Z.shiftl er3 sh) = er3 * 2 ^ sh /\ er3 * 2 ^ sh <= 52).
  { rewrite Z.shiftl_mul_pow2 by lia. assert (H4 : 1 <= 2 ^ sh <= 4) by (change 1 with (2 ^ 0); change 4 with (2 ^ 2); split; apply Z.pow_le_mono_r; lia).
    split; [apply sint_small; nia|nia]. }
  destruct Esh as [Esh1 Esh2]. rewrite Esh1.
  exists k, (er3 * 2 ^ sh). split; [exact N1|]. split; [rewrite N3, En; exact G2|].
  split; [pose proof (pow2_pos sh); nia|]. split.
  - rewrite N5, <- N4', N4, <- N4'. rewrite !mult_IZR, IZR_pow2 by lia. replace (- (exp h - sh)) with (- exp h + sh) by lia. rewrite p2_plus, <- Rmult_assoc, <- Rmult_minus_distr_r.
    rewrite Rabs_mult, (Rabs_pos_eq (p2 sh)) by (apply Rlt_le, p2_pos). apply Rmult_lt_compat_r; [apply p2_pos|]. lra.
  - unfold rejects. fold (extra flt (exp k)). replace (if exp k <=? bias flt - 63 then 63 - mantbits flt + 1 + (bias flt - 63 - exp k) else 63 - mantbits flt) with (extra flt (exp k)).
    2:{ unfold extra. destruct (exp k <=? bias flt - 63); [lia|reflexivity]. }
    match goal with |- (if ?b then _ else _) = _ => destruct b; reflexivity end.
Qed.

Lemma AssignDecimal_round m e10 ng tr flt f W : flt_ok flt -> 0 < m < 2 ^ 64 -> meant tr m W ->
  AssignDecimal m e10 ng tr flt = Ret (f, true) ->
  ieee (mantbits flt) (expbits flt) (fst (floatBits f flt)) = ieee_round (mantbits flt) (expbits flt) ng (sgnR ng (W * p10 e10)) \/
  let hl := p2 (1 - 2 ^ (expbits flt - 1) - mantbits flt) in
  (hl * (1 - p2 (-56)) < W * p10 e10 <= hl)%R /\
  ieee (mantbits flt) (expbits flt) (fst (floatBits f flt)) = VNum ng (sgnR ng (2 * hl)).
Proof.
  intros Hf Hm HW HA. assert (He : -348 <= e10 < 348).
  { unfold AssignDecimal, firstPowerOfTen, stepPowerOfTen in HA. change (Z.of_nat (length powersOfTen)) with 87 in HA.
    destruct (Z.ltb_spec e10 (-348)) as [|L]; [cbn [orb] in HA; discriminate|].
    rewrite Z.quot_div_nonneg in HA by lia. destruct (Z.leb_spec 87 ((e10 - -348) / 8)) as [|L2]; [cbn [orb] in HA; discriminate|].
    split; [lia|]. pose proof (Z.div_mod (e10 - -348) 8 ltac:(lia)). pose proof (Z.mod_pos_bound (e10 - -348) 8 ltac:(lia)). lia. }
  destruct (AssignDecimal_ok m e10 ng tr flt W Hf Hm He HW) as (g & E & H1 & H2 & H3 & H4 & H5). rewrite H5 in HA.
  injection HA as <- HR. apply negb_true_iff in HR.
  rewrite <- H2. apply (floatBits_round flt g (W * p10 e10) E); try assumption.
  apply Rmult_lt_0_compat; [|apply p10_pos]. assert (0 < IZR m)%R by (apply IZR_lt; lia). destruct HW as [->|(_ & ? & _)]; lra.
Qed.
