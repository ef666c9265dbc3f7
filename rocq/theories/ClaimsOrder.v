(** The lemmas behind C80: patterns are ordered as the numbers they denote. *)
From Coq Require Import ZArith Reals Lia Lra Bool List.
From Flocq Require Import Core.
From Verif Require Import GoBase.
From Verif Require BigFloat Binary16 Binary128 Float80x86 Bfloat.
From Verif Require Import Spec BitFacts RoundFacts IeeeFacts BigFacts BigFacts2 BigFacts3 PkgFacts SpecOrder.
From Verif Require Facts16 Facts128 Facts80 FactsBf.
Import BigFloat (bitlen, gexp, prec, rmode, acc, neg, frm, Finite, MaxExp, MinExp, MaxPrec).
Open Scope Z_scope.

(** ** Cmp on all big.Floats *)
Lemma ucmp_three m1 e1 m2 e2 : let c := BigFloat.ucmp m1 e1 m2 e2 in c = -1 \/ c = 0 \/ c = 1.
Proof. unfold BigFloat.ucmp. cbv zeta. destruct (Z.compare _ _); auto. Qed.

Lemma Cmp_three x y : let c := BigFloat.Cmp x y in c = -1 \/ c = 0 \/ c = 1.
Proof.
  unfold BigFloat.Cmp. cbv zeta. destruct (BigFloat.ord x <? BigFloat.ord y); [auto|].
  destruct (BigFloat.ord y <? BigFloat.ord x); [auto|].
  destruct (frm x), (frm y); auto. destruct (BigFloat.ord x <? 0); apply ucmp_three.
Qed.

Lemma Cmp_le x y : wf x -> wf y -> (BigFloat.Cmp x y <= 0 <-> vle (bval x) (bval y)) /\
  (0 <= BigFloat.Cmp x y <-> vle (bval y) (bval x)).
Proof.
  intros Wx Wy.
  destruct (bval x) as [s|s|s u] eqn:Bx; [unfold bval in Bx; destruct (frm x); discriminate| |];
  (destruct (bval y) as [t|t|t v] eqn:By; [unfold bval in By; destruct (frm y); discriminate| |]).
  4: { destruct (Cmp_num x y s u t v Wx Wy Bx By) as (C1 & C2 & C3). cbn [vle].
       destruct (Rtotal_order u v) as [L|[L|L]].
       - apply C1 in L as L'. split; split; intros; try lia; try lra.
       - apply C2 in L as L'. split; split; intros; try lia; try lra.
       - apply C3 in L as L'. split; split; intros; try lia; try lra. }
  all: unfold bval in Bx, By; unfold BigFloat.Cmp, BigFloat.ord;
    destruct (frm x), (frm y); try discriminate;
    (let H := fresh in assert (H : neg x = s) by congruence; rewrite H);
    (let H := fresh in assert (H : neg y = t) by congruence; rewrite H); cbn [vle];
    destruct s, t; cbn; split; split; intros; try lia; try tauto.
Qed.

(** ** Values as a function of the magnitude *)
Definition mval (mb eb M : Z) : R :=
  let E := M / 2 ^ mb in let F := M mod 2 ^ mb in
  if E =? 0 then (IZR F * p2 (1 - (2 ^ (eb - 1) - 1) - mb))%R
  else (IZR (2 ^ mb + F) * p2 (E - (2 ^ (eb - 1) - 1) - mb))%R.

Lemma mval_lt mb eb M N : 0 <= mb -> 0 <= M < N -> (mval mb eb M < mval mb eb N)%R.
Proof.
  intros Hm [H0 H]. unfold mval. cbv zeta. set (c := 2 ^ (eb - 1) - 1).
  pose proof (pow2_pos mb Hm) as Hp.
  pose proof (Z_div_mod_eq_full M (2 ^ mb)) as EM. pose proof (Z_div_mod_eq_full N (2 ^ mb)) as EN.
  pose proof (Z.mod_pos_bound M (2 ^ mb) Hp) as FM. pose proof (Z.mod_pos_bound N (2 ^ mb) Hp) as FN.
  assert (EQ : 0 <= M / 2 ^ mb) by (apply Z.div_pos; lia).
  assert (LE : M / 2 ^ mb <= N / 2 ^ mb) by (apply Z.div_le_mono; lia).
  set (E := M / 2 ^ mb) in *. set (F := M mod 2 ^ mb) in *. set (E' := N / 2 ^ mb) in *. set (F' := N mod 2 ^ mb) in *.
  destruct (Z.eq_dec E E') as [X|X].
  - assert (F < F') by (rewrite <- X in EN; lia). rewrite <- X.
    destruct (E =? 0); apply Rmult_lt_compat_r; try apply p2_pos; apply IZR_lt; lia.
  - assert (Hlt : E + 1 <= E') by lia.
    destruct (Z.eqb_spec E' 0) as [Q|Q]; [lia|].
    apply Rlt_le_trans with (p2 (E' - c)).
    + apply Rlt_le_trans with (p2 (Z.max E 1 + mb - c - mb + (if E =? 0 then 0 else 1))).
      * destruct (Z.eqb_spec E 0) as [Q0|Q0].
        -- rewrite Q0. replace (Z.max 0 1 + mb - c - mb + 0) with (mb + (1 - c - mb)) by lia. rewrite p2_plus.
           apply Rmult_lt_compat_r; [apply p2_pos|]. rewrite <- IZR_pow2 by lia. apply IZR_lt. lia.
        -- replace (Z.max E 1 + mb - c - mb + 1) with ((mb + 1) + (E - c - mb)) by lia. rewrite p2_plus.
           apply Rmult_lt_compat_r; [apply p2_pos|]. rewrite <- IZR_pow2 by lia. apply IZR_lt. rewrite Z.pow_add_r by lia. lia.
      * apply p2_le. destruct (Z.eqb_spec E 0); lia.
    + replace (p2 (E' - c)) with (p2 mb * p2 (E' - c - mb))%R by (rewrite <- p2_plus; f_equal; lia).
      apply Rmult_le_compat_r; [apply Rlt_le, p2_pos|]. rewrite <- IZR_pow2 by lia. apply IZR_le. lia.
Qed.

Lemma mval_0 mb eb : 0 <= mb -> mval mb eb 0 = 0%R.
Proof. intros Hm. unfold mval. cbv zeta. pose proof (pow2_pos mb Hm). rewrite Z.div_0_l, Z.mod_0_l by lia. cbn. ring. Qed.

(** A pattern is its sign and its magnitude. *)
Lemma ieee_mag mb eb b : 0 <= mb -> 2 <= eb -> 0 <= b < 2 ^ (mb + eb + 1) -> (forall s, ieee mb eb b <> VNaN s) ->
  exists (s : bool) M, 0 <= M <= (2 ^ eb - 1) * 2 ^ mb /\ signed (mb + eb) b = (if s then - M else M) /\
    ieee mb eb b = if M =? (2 ^ eb - 1) * 2 ^ mb then VInf s else VNum s (sgnR s (mval mb eb M)).
Proof.
  intros Hm He Hb Hn. destruct (enc_surj mb eb b Hm ltac:(lia) Hb) as (s & E & F & HE & HF & ->).
  rewrite ieee_enc in * by (lia || assumption). unfold ieee_parts in *.
  pose proof (pow2_pos mb Hm) as Hp. pose proof (pow2_pos eb ltac:(lia)) as Hpe.
  exists s, (E * 2 ^ mb + F).
  assert (D : (E * 2 ^ mb + F) / 2 ^ mb = E) by (rewrite Z.add_comm, Z.div_add, Z.div_small by lia; lia).
  assert (R : (E * 2 ^ mb + F) mod 2 ^ mb = F) by (rewrite Z.add_comm, Z.mod_add, Z.mod_small by lia; lia).
  assert (B : 0 <= E * 2 ^ mb + F < 2 ^ (mb + eb)) by (rewrite Z.pow_add_r by lia; nia).
  assert (S : signed (mb + eb) (enc mb eb s E F) = if s then - (E * 2 ^ mb + F) else E * 2 ^ mb + F).
  { unfold signed, enc. destruct s; cbn [Z.b2z].
    - destruct (Z.ltb_spec (1 * 2 ^ (mb + eb) + E * 2 ^ mb + F) (2 ^ (mb + eb))); lia.
    - destruct (Z.ltb_spec (0 * 2 ^ (mb + eb) + E * 2 ^ mb + F) (2 ^ (mb + eb))); lia. }
  cbv zeta in *. destruct (Z.eqb_spec E (2 ^ eb - 1)) as [Q|Q].
  - destruct (Z.eqb_spec F 0) as [Q0|Q0]; [|exfalso; eapply Hn; reflexivity].
    split; [subst; lia|]. split; [exact S|]. subst. rewrite Z.add_0_r, Z.eqb_refl. reflexivity.
  - assert (L : E * 2 ^ mb + F < (2 ^ eb - 1) * 2 ^ mb).
    { assert ((E + 1) * 2 ^ mb <= (2 ^ eb - 1) * 2 ^ mb) by (apply Z.mul_le_mono_nonneg_r; lia). lia. }
    split; [lia|]. split; [exact S|]. destruct (Z.eqb_spec (E * 2 ^ mb + F) ((2 ^ eb - 1) * 2 ^ mb)); [lia|].
    unfold mval. cbv zeta. rewrite D, R. destruct (E =? 0); reflexivity.
Qed.

Lemma mval_le mb eb M N : 0 <= mb -> 0 <= M -> 0 <= N -> (mval mb eb M <= mval mb eb N)%R <-> M <= N.
Proof.
  intros Hm H0 H1. split; intros H.
  - destruct (Z_le_gt_dec M N) as [|L]; [assumption|]. exfalso. pose proof (mval_lt mb eb N M Hm ltac:(lia)). lra.
  - destruct (Z.eq_dec M N) as [->|L]; [lra|]. apply Rlt_le, mval_lt; lia.
Qed.

Lemma ieee_order mb eb b c : 0 <= mb -> 2 <= eb -> 0 <= b < 2 ^ (mb + eb + 1) -> 0 <= c < 2 ^ (mb + eb + 1) ->
  (forall s, ieee mb eb b <> VNaN s) -> (forall s, ieee mb eb c <> VNaN s) ->
  (vle (ieee mb eb b) (ieee mb eb c) <-> signed (mb + eb) b <= signed (mb + eb) c).
Proof.
  intros Hm He Hb Hc Nb Nc.
  destruct (ieee_mag mb eb b Hm He Hb Nb) as (s & M & HM & SM & ->).
  destruct (ieee_mag mb eb c Hm He Hc Nc) as (t & N & HN & SN & ->). rewrite SM, SN.
  assert (Hinf : 0 < (2 ^ eb - 1) * 2 ^ mb).
  { pose proof (pow2_pos mb Hm). assert (2 ^ 2 <= 2 ^ eb) by (apply Z.pow_le_mono_r; lia). change (2 ^ 2) with 4 in *. nia. }
  set (I := (2 ^ eb - 1) * 2 ^ mb) in *.
  pose proof (mval_le mb eb M N Hm ltac:(lia) ltac:(lia)) as L1.
  pose proof (mval_le mb eb N M Hm ltac:(lia) ltac:(lia)) as L2.
  pose proof (mval_le mb eb M 0 Hm ltac:(lia) ltac:(lia)) as L3.
  pose proof (mval_le mb eb N 0 Hm ltac:(lia) ltac:(lia)) as L4.
  pose proof (mval_le mb eb 0 M Hm ltac:(lia) ltac:(lia)) as L5.
  pose proof (mval_le mb eb 0 N Hm ltac:(lia) ltac:(lia)) as L6.
  rewrite mval_0 in * by exact Hm.
  assert (P1 : (0 <= mval mb eb M)%R) by (apply L5; lia).
  assert (P2 : (0 <= mval mb eb N)%R) by (apply L6; lia).
  destruct (Z.eqb_spec M I) as [QM|QM], (Z.eqb_spec N I) as [QN|QN]; destruct s, t; cbn [vle sgnR]; try (split; intros; lia || tauto).
  - split; intros H; [apply Z.opp_le_mono; rewrite !Z.opp_involutive; apply L2; lra|].
    apply Ropp_le_contravar, L2. lia.
  - split; intros H; [lia|lra].
  - split; intros H.
    + assert (M <= 0) by (apply L3; lra). assert (N <= 0) by (apply L4; lra). lia.
    + assert (M <= 0) by lia. assert (N <= 0) by lia. apply L3 in H0. apply L4 in H1. lra.
Qed.

Lemma sgn_of c a b : c = -1 \/ c = 0 \/ c = 1 -> (c <= 0 <-> a <= b) -> (0 <= c <-> b <= a) -> c = Z.sgn (a - b).
Proof. intros H1 H2 H3. destruct (Z.sgn_spec (a - b)) as [[? ->]|[[? ->]|[? ->]]]; lia. Qed.

Lemma Cmp_ieee mb eb x y b c : 0 <= mb -> 2 <= eb -> 0 <= b < 2 ^ (mb + eb + 1) -> 0 <= c < 2 ^ (mb + eb + 1) ->
  (forall s, ieee mb eb b <> VNaN s) -> (forall s, ieee mb eb c <> VNaN s) ->
  wf x -> wf y -> bval x = ieee mb eb b -> bval y = ieee mb eb c ->
  BigFloat.Cmp x y = Z.sgn (signed (mb + eb) b - signed (mb + eb) c).
Proof.
  intros Hm He Hb Hc Nb Nc Wx Wy Bx By. destruct (Cmp_le x y Wx Wy) as [C1 C2]. rewrite Bx, By in C1, C2.
  rewrite (ieee_order mb eb b c Hm He Hb Hc Nb Nc) in C1. rewrite (ieee_order mb eb c b Hm He Hc Hb Nc Nb) in C2.
  apply sgn_of; [apply Cmp_three|exact C1|exact C2].
Qed.

Lemma c80_16 : forall f g, 0 <= f < 2 ^ 16 -> 0 <= g < 2 ^ 16 ->
  (forall s, ieee 10 5 f <> VNaN s) -> (forall s, ieee 10 5 g <> VNaN s) ->
  exists x y, Binary16.Big f = Ret (x, false) /\ Binary16.Big g = Ret (y, false) /\
    BigFloat.Cmp x y = Z.sgn (signed 15 f - signed 15 g).
Proof.
  intros f g Hf Hg Nf Ng.
  destruct (Facts16.Big_correct f Hf) as (x & n1 & B1 & (W1 & _) & V1).
  destruct (Facts16.Big_correct g Hg) as (y & n2 & B2 & (W2 & _) & V2).
  assert (X : n1 = false /\ bval x = ieee 10 5 f) by (destruct (ieee 10 5 f); [exfalso; eapply Nf; reflexivity|exact V1..]).
  assert (Y : n2 = false /\ bval y = ieee 10 5 g) by (destruct (ieee 10 5 g); [exfalso; eapply Ng; reflexivity|exact V2..]).
  destruct X as [-> X]. destruct Y as [-> Y]. exists x, y. split; [exact B1|]. split; [exact B2|].
  change 15 with (10 + 5). apply Cmp_ieee; try assumption; lia.
Qed.

Lemma c80_bf : forall f g, 0 <= f < 2 ^ 16 -> 0 <= g < 2 ^ 16 ->
  (forall s, ieee 7 8 f <> VNaN s) -> (forall s, ieee 7 8 g <> VNaN s) ->
  exists x y, Bfloat.Big (Bfloat.NewFromBits f) = Ret (x, false) /\ Bfloat.Big (Bfloat.NewFromBits g) = Ret (y, false) /\
    BigFloat.Cmp x y = Z.sgn (signed 15 f - signed 15 g).
Proof.
  intros f g Hf Hg Nf Ng.
  destruct (FactsBf.Big_correct f Hf) as (x & n1 & B1 & (W1 & _) & V1).
  destruct (FactsBf.Big_correct g Hg) as (y & n2 & B2 & (W2 & _) & V2).
  assert (X : n1 = false /\ bval x = ieee 7 8 f) by (destruct (ieee 7 8 f); [exfalso; eapply Nf; reflexivity|exact V1..]).
  assert (Y : n2 = false /\ bval y = ieee 7 8 g) by (destruct (ieee 7 8 g); [exfalso; eapply Ng; reflexivity|exact V2..]).
  destruct X as [-> X]. destruct Y as [-> Y]. exists x, y. split; [exact B1|]. split; [exact B2|].
  change 15 with (7 + 8). apply Cmp_ieee; try assumption; lia.
Qed.

Lemma c80_128 : forall a b c d, 0 <= a < 2 ^ 64 -> 0 <= b < 2 ^ 64 -> 0 <= c < 2 ^ 64 -> 0 <= d < 2 ^ 64 ->
  (forall s, quad a b <> VNaN s) -> (forall s, quad c d <> VNaN s) ->
  exists x y, Binary128.Big (Binary128.NewFromBits a b) = Ret (x, false) /\
    Binary128.Big (Binary128.NewFromBits c d) = Ret (y, false) /\
    BigFloat.Cmp x y = Z.sgn (signed 127 (a * 2 ^ 64 + b) - signed 127 (c * 2 ^ 64 + d)).
Proof.
  intros a b c d Ha Hb Hc Hd Nf Ng.
  destruct (Facts128.Big_correct (Binary128.NewFromBits a b) (conj Ha Hb)) as (x & n1 & B1 & (W1 & _) & V1).
  destruct (Facts128.Big_correct (Binary128.NewFromBits c d) (conj Hc Hd)) as (y & n2 & B2 & (W2 & _) & V2).
  change (Facts128.value (Binary128.NewFromBits a b)) with (quad a b) in V1.
  change (Facts128.value (Binary128.NewFromBits c d)) with (quad c d) in V2.
  assert (X : n1 = false /\ bval x = quad a b) by (destruct (quad a b); [exfalso; eapply Nf; reflexivity|exact V1..]).
  assert (Y : n2 = false /\ bval y = quad c d) by (destruct (quad c d); [exfalso; eapply Ng; reflexivity|exact V2..]).
  destruct X as [-> X]. destruct Y as [-> Y]. exists x, y. split; [exact B1|]. split; [exact B2|].
  change 127 with (112 + 15). apply Cmp_ieee; try assumption; lia.
Qed.

(** A canonical pattern in 80 bits and in the format with 63 fraction bits. *)
Lemma signed_canon f : Facts80.ok f -> Facts80.canon f ->
  exists s E F l, 0 <= E /\ 0 <= F < 2 ^ 63 /\ (E = 0 /\ l = 0 \/ 1 <= E /\ l = 1) /\
    signed 79 (Float80x86.se f * 2 ^ 64 + Float80x86.m f) =
      (if s : bool then - (E * 2 ^ 64 + l * 2 ^ 63 + F) else E * 2 ^ 64 + l * 2 ^ 63 + F) /\
    signed 78 (Float80x86.se f * 2 ^ 63 + Float80x86.m f mod 2 ^ 63) = (if s then - (E * 2 ^ 63 + F) else E * 2 ^ 63 + F).
Proof.
  intros Hf Hc. destruct (Facts80.fields f Hf) as (s & E & M & HE & HM & Ef & _).
  unfold Facts80.canon in Hc. rewrite Ef in *. clear Ef f Hf.
  destruct (Facts80.mk_parts s E M HE) as [_ Hx]. rewrite Hx in Hc. clear Hx.
  unfold Facts80.mk. cbn [Float80x86.m Facts80.mk Float80x86.se] in *.
  set (F := M mod 2 ^ 63). assert (HF : 0 <= F < 2 ^ 63) by (apply Z.mod_pos_bound; lia).
  assert (X : exists l, (E = 0 /\ l = 0 \/ 1 <= E /\ l = 1) /\ M = l * 2 ^ 63 + F).
  { destruct Hc as [[C1 C2]|[[C1 C2]|[C1 C2]]].
    - exists 0. split; [lia|]. unfold F. rewrite Z.mod_small by lia. lia.
    - exists 1. split; [lia|]. unfold F. replace (M mod 2 ^ 63) with (M - 2 ^ 63) by (apply (Z.mod_unique _ _ 1); lia). lia.
    - exists 1. split; [lia|]. unfold F. rewrite C2, Z.mod_same by lia. lia. }
  destruct X as (l & HL & EM). exists s, E, F, l. split; [lia|]. split; [exact HF|]. split; [exact HL|].
  clearbody F. clear Hc. subst M. unfold signed. destruct s; cbn [Z.b2z].
  - split.
    + destruct (Z.ltb_spec ((1 * 2 ^ 15 + E) * 2 ^ 64 + (l * 2 ^ 63 + F)) (2 ^ 79)); lia.
    + destruct (Z.ltb_spec ((1 * 2 ^ 15 + E) * 2 ^ 63 + F) (2 ^ 78)); lia.
  - split.
    + destruct (Z.ltb_spec ((0 * 2 ^ 15 + E) * 2 ^ 64 + (l * 2 ^ 63 + F)) (2 ^ 79)); lia.
    + destruct (Z.ltb_spec ((0 * 2 ^ 15 + E) * 2 ^ 63 + F) (2 ^ 78)); lia.
Qed.

Lemma signed_canon_sgn f g : Facts80.ok f -> Facts80.canon f -> Facts80.ok g -> Facts80.canon g ->
  Z.sgn (signed 78 (Float80x86.se f * 2 ^ 63 + Float80x86.m f mod 2 ^ 63) - signed 78 (Float80x86.se g * 2 ^ 63 + Float80x86.m g mod 2 ^ 63)) =
  Z.sgn (signed 79 (Float80x86.se f * 2 ^ 64 + Float80x86.m f) - signed 79 (Float80x86.se g * 2 ^ 64 + Float80x86.m g)).
Proof.
  intros O1 C1 O2 C2.
  destruct (signed_canon f O1 C1) as (s & E & F & l & H1 & H2 & H3 & -> & ->).
  destruct (signed_canon g O2 C2) as (t & E' & F' & l' & H4 & H5 & H6 & -> & ->).
  apply sgn_of.
  - match goal with |- Z.sgn ?a = _ \/ _ => destruct (Z.sgn_spec a) as [[? ->]|[[? ->]|[? ->]]]; auto end.
  - rewrite Z.sgn_nonpos. destruct s, t; lia.
  - rewrite Z.sgn_nonneg. destruct s, t; lia.
Qed.

Lemma c80_80 : forall a b c d, 0 <= a < 2 ^ 16 -> 0 <= b < 2 ^ 64 -> 0 <= c < 2 ^ 16 -> 0 <= d < 2 ^ 64 ->
  (forall se m, (se, m) = (a, b) \/ (se, m) = (c, d) -> let E := se mod 2 ^ 15 in
     (E = 0 /\ m < 2 ^ 63) \/ (1 <= E <= 32766 /\ 2 ^ 63 <= m) \/ (E = 32767 /\ m = 2 ^ 63)) ->
  exists x y, Float80x86.Big (Float80x86.NewFromBits a b) = Ret (x, false) /\
    Float80x86.Big (Float80x86.NewFromBits c d) = Ret (y, false) /\
    BigFloat.Cmp x y = Z.sgn (signed 79 (a * 2 ^ 64 + b) - signed 79 (c * 2 ^ 64 + d)).
Proof.
  intros a b c d Ha Hb Hc Hd Hcan.
  set (f := Float80x86.NewFromBits a b). set (g := Float80x86.NewFromBits c d).
  assert (Of : Facts80.ok f) by (split; assumption). assert (Og : Facts80.ok g) by (split; assumption).
  assert (Cf : Facts80.canon f) by (apply Hcan; auto). assert (Cg : Facts80.canon g) by (apply Hcan; auto).
  destruct (Facts80.Big_correct f Of) as (x & n1 & B1 & (W1 & _) & V1).
  destruct (Facts80.Big_correct g Og) as (y & n2 & B2 & (W2 & _) & V2).
  destruct (Facts80.canon_ieee f Of Cf) as [If Rf]. destruct (Facts80.canon_ieee g Og Cg) as [Ig Rg].
  assert (N : forall h, Facts80.ok h -> Facts80.canon h -> forall s, Facts80.value h <> VNaN s).
  { intros h Oh Ch s Hv. destruct (Facts80.fields h Oh) as (t & E & M & HE & HM & Eh & _). rewrite Eh in *.
    unfold Facts80.canon in Ch. destruct (Facts80.mk_parts t E M HE) as [_ Hx]. rewrite Hx in Ch.
    rewrite Facts80.value_mk in Hv by exact HE. cbn [Float80x86.m Facts80.mk] in Ch. revert Hv.
    destruct (Z.eqb_spec E 32767) as [Q|Q]; [|discriminate].
    destruct Ch as [C|[C|[_ C]]]; [lia|lia|]. rewrite C. discriminate. }
  pose proof (N f Of Cf) as Nf. pose proof (N g Og Cg) as Ng.
  assert (X : n1 = false /\ bval x = Facts80.value f) by (destruct (Facts80.value f); [exfalso; eapply Nf; reflexivity|exact V1..]).
  assert (Y : n2 = false /\ bval y = Facts80.value g) by (destruct (Facts80.value g); [exfalso; eapply Ng; reflexivity|exact V2..]).
  destruct X as [-> X]. destruct Y as [-> Y]. exists x, y. split; [exact B1|]. split; [exact B2|].
  rewrite If in X, Nf. rewrite Ig in Y, Ng.
  rewrite (Cmp_ieee 63 15 x y _ _ ltac:(lia) ltac:(lia) Rf Rg Nf Ng W1 W2 X Y).
  exact (signed_canon_sgn f g Of Cf Og Cg).
Qed.
