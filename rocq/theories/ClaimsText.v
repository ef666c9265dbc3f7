(** Text('g', p) of math/big, as binary128/gen.go prints it. *)
From Coq Require Import ZArith Reals String List Bool Lia Lra.
From Flocq Require Import Core.
From Verif Require Import GoBase Spec SpecText SpecDec SpecFtoa BitFacts RoundFacts FmtFacts DecFacts DecFacts2 ExtFixed FtoaText FtoaFixed FtoaAll PkgText.
From Verif Require BigFloat Ftoa ExtFloat.
From Verif Require Import GoFmt GenText SpecGo ClaimsLines.
From Verif Require Import SpecFmt.
Import ListNotations.
Open Scope Z_scope.

Local Notation len l := (Z.of_nat (length l)).

Lemma to_dec_ok m e : 0 < m -> let '(n, e10) := to_dec m e in 0 < n /\ (IZR m * p2 e = IZR n * p10 e10)%R.
Proof.
  intros Hm. unfold to_dec. destruct (Z.leb_spec 0 e) as [L|L].
  - pose proof (pow2_pos e L). split; [nia|]. rewrite mult_IZR, IZR_pow2, p10_0 by lia. ring.
  - pose proof (Z.pow_pos_nonneg 5 (- e) ltac:(lia) ltac:(lia)). split; [nia|]. rewrite mult_IZR.
    assert (K : p2 e = (IZR (5 ^ (- e)) * p10 e)%R).
    { apply Rmult_eq_reg_r with (p10 (- e)); [|apply Rgt_not_eq, p10_pos]. rewrite Rmult_assoc, p10_opp, Rmult_1_r.
      rewrite <- (IZR_p10 (- e)) by lia. change 10 with (2 * 5). rewrite Z.pow_mul_l, mult_IZR, IZR_pow2 by lia. rewrite <- Rmult_assoc, <- p2_plus. replace (e + - e) with 0 by lia. change (p2 0) with 1%R. ring. }
    rewrite K. ring.
Qed.

Lemma no_zeros_ok fuel : forall n e, 0 < n < 10 ^ Z.of_nat fuel -> let '(n', e') := no_zeros fuel n e in
  0 < n' <= n /\ n' mod 10 <> 0 /\ (IZR n' * p10 e' = IZR n * p10 e)%R.
Proof.
  induction fuel as [|fuel IH]; intros n e H; [cbn in H; lia|]. cbn [no_zeros].
  destruct (Z.eqb_spec (n mod 10) 0) as [E|E]; [|split; [lia|split; [exact E|reflexivity]]].
  pose proof (Z.div_mod n 10 ltac:(lia)) as D. rewrite E in D.
  assert (P : 10 ^ Z.of_nat (S fuel) = 10 * 10 ^ Z.of_nat fuel) by (rewrite Nat2Z.inj_succ, Z.pow_succ_r by lia; reflexivity).
  specialize (IH (n / 10) (e + 1) ltac:(lia)). destruct (no_zeros fuel (n / 10) (e + 1)) as [n' e']. destruct IH as (I1 & I2 & I3).
  split; [lia|]. split; [exact I2|]. rewrite I3. rewrite D at 2. rewrite Z.add_0_r, mult_IZR, p10_plus. change (p10 1) with 10%R. ring.
Qed.

Lemma val_dread l : val 10 l = dread l.
Proof.
  unfold val, dread. generalize 0. induction l as [|a t IH]; intros z; [reflexivity|]. cbn [fold_left]. replace (10 * z + a) with (z * 10 + a) by ring. apply IH.
Qed.

Lemma digit_byte_of l : Forall (is_digit 10) l -> map digit_byte l = Decimal.chars l.
Proof.
  intros H. rewrite <- chars_byte. apply map_ext_in. intros a Ha. rewrite Forall_forall in H. specialize (H a Ha). unfold is_digit in H.
  rewrite (proj1 (byte_of_digit a ltac:(lia))). unfold digit_byte. destruct (Z.ltb_spec a 10); lia.
Qed.

(** The part of [Text_g] after the digits are known. *)
Definition out_g (ng : bool) (p : Z) (ds : list Z) (dp : Z) : bytes :=
    let nd := Z.of_nat (length ds) in
    let eprec := if (nd <? p) && (dp <=? nd) then nd else p in
    let ex := dp - 1 in
    if (ex <? -4) || (eprec <=? ex) then
      (if ng then B "-" else []) ++ map digit_byte (firstn 1 ds) ++ (if 1 <? nd then B "." else [])
        ++ map digit_byte (skipn 1 ds) ++ B "e" ++ (if ex <? 0 then B "-" else B "+")
        ++ (if Z.abs ex <? 10 then B "0" else []) ++ fmt_d (Z.abs ex)
    else Ftoa.fmtF [] ng (ExtFloat.mkSlice ds nd dp false) (Z.max ((if dp <? p then nd else p) - dp) 0).

Lemma out_e ng l p : dg l p -> l <> [] ->
  exists fp, no_zero_end fp /\ prints_e 101 ng fp (lval l p)
    ((if ng then B "-" else []) ++ map digit_byte (firstn 1 l) ++ (if 1 <? len l then B "." else [])
        ++ map digit_byte (skipn 1 l) ++ B "e" ++ (if p - 1 <? 0 then B "-" else B "+")
        ++ (if Z.abs (p - 1) <? 10 then B "0" else []) ++ fmt_d (Z.abs (p - 1))).
Proof.
  intros (D1 & D2 & D3 & _) N. assert (D : Forall (is_digit 10) l).
  { eapply Forall_impl; [|exact D1]. intros a Ha. unfold is_digit. cbv beta in Ha. lia. }
  destruct l as [|a t]; [contradiction|]. cbn [firstn skipn]. exists (Decimal.chars t). inversion D1 as [|? ? Ha Ht]; subst. inversion D as [|? ? Ha' Ht']; subst. split.
  - apply chars_no_end; [exact Ht|apply (no_trail0_tail a), D3].
  - destruct (byte_of_digit a Ha) as [B1 B2].
    exists (Ftoa.byte_of a), (p - 1). eexists. split; [|split; [apply exp_digits_text|split; [|split]]].
    + rewrite (digit_byte_of [a]) by (constructor; [assumption|constructor]). rewrite (digit_byte_of t) by assumption. unfold sign_text. destruct ng; cbn [app Decimal.chars map].
      all: destruct t as [|b t]; cbn [length Decimal.chars map point app].
      all: try (replace (1 <? len [a]) with false by reflexivity); try (destruct (Z.ltb_spec 1 (Z.of_nat (S (S (length t))))); [|lia]).
      all: cbn [app B list_ascii_of_string map].
      all: destruct (p - 1 <? 0), (Z.abs (p - 1) <? 10); reflexivity.
    + change (Ftoa.byte_of a :: Decimal.chars t) with (Decimal.chars (a :: t)). apply chars_digits. assumption.
    + change (Ftoa.byte_of a :: Decimal.chars t) with (Decimal.chars (a :: t)). rewrite chars_read by assumption. unfold lval. do 2 f_equal.
      rewrite chars_length. cbn [length]. lia.
    + intros E. exfalso. rewrite B1 in E. apply D2. cbn [hd]. lia.
Qed.

Lemma out_g_ok ng l p t : dg l p -> len l <= t -> 1 <= t -> exists fp, no_zero_end fp /\ prints_g 101 t ng fp (lval l p) (out_g ng t l p).
Proof.
  intros D Hl T. pose proof D as (D1 & D2 & D3 & D4). unfold out_g. cbv zeta.
  set (eprec := if (len l <? t) && (p <=? len l) then len l else t).
  assert (Q : (p - 1 <? -4) || (eprec <=? p - 1) = (p - 1 <? -4) || (t <=? p - 1)).
  { f_equal. unfold eprec. destruct (Z.ltb_spec (len l) t); [|reflexivity]. cbn [andb].
    destruct (Z.leb_spec p (len l)); [|reflexivity]. destruct (Z.leb_spec (len l) (p - 1)); [lia|]. destruct (Z.leb_spec t (p - 1)); [lia|reflexivity]. }
  rewrite Q. clear Q eprec.
  destruct (list_eq_dec Z.eq_dec l []) as [El|Nl].
  - assert (p = 0) by (apply D4; exact El). subst p. destruct (Z.ltb_spec (0 - 1) (-4)); [lia|]. destruct (Z.leb_spec t (0 - 1)); [lia|]. cbn [orb].
    assert (L0 : len l = 0) by (rewrite El; reflexivity).
    assert (V : lval l 0 = 0%R) by (rewrite El; apply lval_nil).
    set (pr := Z.max ((if 0 <? t then len l else t) - 0) 0).
    assert (Pr : pr = 0) by (unfold pr; destruct (Z.ltb_spec 0 t); lia).
    destruct (fmtF_ok l (len l) 0 false pr ng 0 D1 D2 ltac:(lia) ltac:(lia) ltac:(lia)) as (fp & L & E & P).
    exists fp. split; [destruct fp; [cbn; unfold no_zero_end; cbn; lia|cbn [length] in L; lia]|]. split; intros H1; [exact P|].
    exfalso. rewrite V in H1. pose proof (p10_pos (-4)). lra.
  - pose proof (dg_range l p D Nl) as [R1 R2]. assert (N1 : 1 <= len l) by (destruct l; [contradiction|cbn [length]; lia]).
    destruct (out_e ng l p D Nl) as (fp & F1 & F2).
    destruct (Z.ltb_spec (p - 1) (-4)) as [A|A]; [|destruct (Z.leb_spec t (p - 1)) as [C|C]]; cbn [orb].
    + exists fp. split; [exact F1|]. assert (lval l p < p10 (-4))%R by (apply Rlt_le_trans with (p10 p); [exact R2|apply p10_le; lia]). pose proof (p10_pos (p - 1)).
      split; intros H1; [lra|exact F2].
    + exists fp. split; [exact F1|]. assert (p10 t <= lval l p)%R by (apply Rle_trans with (p10 (p - 1)); [apply p10_le; lia|exact R1]). pose proof (p10_pos (p - 1)).
      split; intros H1; [lra|exact F2].
    + clear fp F1 F2. set (pr := Z.max ((if p <? t then len l else t) - p) 0).
      assert (Pr : pr = Z.max (len l - p) 0) by (unfold pr; destruct (Z.ltb_spec p t); lia).
      destruct (fmtF_ok l (len l) p false pr ng pr D1 D2 ltac:(intros E; contradiction) ltac:(lia) ltac:(lia)) as (fp & L & E & P).
      exists fp. split; [rewrite E; apply frac_last; assumption|]. split; intros H1; [exact P|]. exfalso.
      assert (p10 (-4) <= lval l p)%R by (apply Rle_trans with (p10 (p - 1)); [apply p10_le; lia|exact R1]).
      assert (lval l p < p10 t)%R by (apply Rlt_le_trans with (p10 p); [exact R2|apply p10_le; lia]). lra.
Qed.

(** Text('g', p) prints the number correctly rounded to p digits. *)
Lemma Text_g_prints x p s v : wf x -> 1 <= p -> bval x = VNum s (sgnR s v) -> (0 <= v)%R ->
  exists fp, no_zero_end fp /\ prints_g 101 p s fp (sig_round p v) (Text_g x p).
Proof.
  intros Hw Hp Hb Hv. unfold bval in Hb. destruct Hw as [_ Hw].
  destruct (BigFloat.frm x) as [|m e|] eqn:Ef; [| |discriminate].
  - assert (Es : BigFloat.neg x = s) by congruence. assert (V0 : v = 0%R) by (injection Hb as _ K; destruct s; cbn [sgnR] in K; lra).
    assert (E : Text_g x p = out_g s p [] 0) by (unfold Text_g; rewrite Ef, Es; reflexivity). rewrite E, V0, sig_round_0.
    replace 0%R with (lval [] 0) by apply lval_nil. apply out_g_ok; [|cbn [length]; lia|exact Hp].
    repeat split; [constructor|unfold no_lead0; cbn; lia|unfold no_trail0; cbn; lia].
  - destruct Hw as (Hm & _). assert (Es : BigFloat.neg x = s) by congruence.
    assert (V : v = (IZR m * p2 e)%R) by (injection Hb as _ K; rewrite Es in K; destruct s; cbn [sgnR] in K; lra).
    pose proof (to_dec_ok m e Hm) as T. unfold Text_g. rewrite Ef. destruct (to_dec m e) as [n e10]. destruct T as [Hn Hvn].
    pose proof (dec_round_ok p n e10 Hp Hn) as D. destruct (dec_round p n e10) as [q qe]. destruct D as [Q D]. rewrite <- Hvn, <- V in D.
    pose proof (pow10_pos (p - 1) ltac:(lia)).
    pose proof (no_zeros_ok (Z.to_nat p) q qe) as Z0. rewrite Z2Nat.id in Z0 by lia. specialize (Z0 ltac:(lia)).
    destruct (no_zeros (Z.to_nat p) q qe) as [q' qe']. destruct Z0 as (Z1 & Z2 & Z3).
    destruct (digits_of_spec 10 q' ltac:(lia) ltac:(lia)) as (Vq & Dq & Nq & Hq & L1 & _). specialize (L1 p Hp ltac:(lia)). specialize (Hq ltac:(lia)).
    rewrite Es. fold (out_g s p (digits_of 10 q') (ndigits q' + qe')).
    assert (Y : lval (digits_of 10 q') (ndigits q' + qe') = sig_round p v).
    { rewrite <- D, <- Z3. unfold lval. rewrite <- val_dread, Vq. do 2 f_equal. unfold ndigits. lia. }
    rewrite <- Y. apply out_g_ok; [|exact L1|exact Hp]. repeat split.
    + eapply Forall_impl; [|exact Dq]. intros a Ha. unfold is_digit in Ha. cbv beta. lia.
    + unfold no_lead0. destruct (digits_of 10 q'); [contradiction|exact Hq].
    + unfold no_trail0. destruct (exists_last Nq) as (l' & a & El). rewrite El, last_last. rewrite El, val_snoc in Vq. intros ->. apply Z2. rewrite <- Vq.
      rewrite Z.add_0_r, Z.mul_comm. apply Z.mod_mul. lia.
    + intros E. contradiction.
Qed.

Lemma all_digits_plain l : all_digits 10 l -> Forall plain l.
Proof.
  intros H. eapply Forall_impl; [|exact H]. intros c Hc. cbv beta in Hc. unfold digit_val in Hc. unfold plain.
  repeat match type of Hc with context [if ?b then _ else _] => destruct b eqn:?E end;
  repeat match goal with E : _ && _ = true |- _ => apply andb_true_iff in E; destruct E | E : (_ <=? _) = true |- _ => apply Z.leb_le in E | E : (_ =? _) = true |- _ => apply Z.eqb_eq in E end; lia.
Qed.

Lemma point_plain fp : all_digits 10 fp -> Forall plain (point fp).
Proof. intros H. pose proof (all_digits_plain fp H). destruct fp; [constructor|]. constructor; [unfold plain; lia|assumption]. Qed.

Lemma sign_plain ng : Forall plain (sign_text ng).
Proof. destruct ng; repeat constructor; lia. Qed.

Lemma prints_f_plain ng fp x s : prints_f ng fp x s -> Forall plain s.
Proof.
  intros (ip & -> & (_ & A & _) & F & _). rewrite !Forall_app. split; [apply sign_plain|]. split; [apply all_digits_plain, A|apply point_plain, F].
Qed.

Lemma prints_e_plain ng fp x s : prints_e 101 ng fp x s -> Forall plain s.
Proof.
  intros (a & X & xs & -> & (ed & -> & E & _) & A & _). inversion A as [|? ? A1 A2]; subst.
  rewrite Forall_app. split; [apply sign_plain|]. constructor; [pose proof (all_digits_plain [a] ltac:(constructor; [exact A1|constructor])) as K; inversion K; assumption|].
  rewrite Forall_app. split; [apply point_plain, A2|]. constructor; [unfold plain; lia|]. constructor; [destruct (X <? 0); unfold plain; lia|].
  apply all_digits_plain, E.
Qed.

Lemma sig_round_nonneg p v : 1 <= p -> (0 <= v)%R -> (0 <= sig_round p v)%R.
Proof.
  intros Hp Hv. unfold sig_round. replace 0%R with (round radix10 (FLX_exp p) ZnearestE 0) by (apply round_0; auto with typeclass_instances).
  apply round_le; auto with typeclass_instances. apply FLX_exp_valid. unfold Prec_gt_0. lia.
Qed.

Lemma Text_g_plain x p : 1 <= p -> wf x -> Forall plain (Text_g x p).
Proof.
  intros Hp Hw. assert (C : BigFloat.frm x = BigFloat.Inf \/ exists s v, bval x = VNum s (sgnR s v) /\ (0 <= v)%R).
  { pose proof Hw as [_ W]. unfold bval. destruct (BigFloat.frm x) as [|m e|] eqn:Ef; [right|right|left; reflexivity].
    - exists (BigFloat.neg x), 0%R. split; [|lra]. f_equal. destruct (BigFloat.neg x); cbn [sgnR]; lra.
    - destruct W as [Hm _]. exists (BigFloat.neg x), (IZR m * p2 e)%R. split; [reflexivity|]. apply Rmult_le_pos; [apply IZR_le; lia|apply Rlt_le, p2_pos]. }
  destruct C as [Ei|(s & v & Hb & Hv)].
  - unfold Text_g. rewrite Ei. destruct (BigFloat.neg x); apply plain_list; reflexivity.
  - destruct (Text_g_prints x p s v Hw Hp Hb Hv) as (fp & _ & P1 & P2). pose proof (sig_round_nonneg p v Hp Hv) as N. set (r := sig_round p v) in *.
    assert (O : (r = 0 \/ p10 (-4) <= r < p10 p \/ 0 < r < p10 (-4) \/ p10 (-4) <= r /\ p10 p <= r)%R).
    { destruct (Rlt_le_dec r (p10 (-4))); [destruct (Req_dec r 0); [auto|right; right; left; lra]|]. destruct (Rlt_le_dec r (p10 p)); auto. }
    destruct O as [O|[O|[O|O]]].
    + apply (prints_f_plain s fp r), P1. auto.
    + apply (prints_f_plain s fp r), P1. auto.
    + apply (prints_e_plain s fp r), P2. auto.
    + apply (prints_e_plain s fp r), P2. auto.
Qed.
