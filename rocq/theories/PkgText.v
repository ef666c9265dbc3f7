(** The texts that float.go compares: big.Float.Text('e', p) and trimZeros. *)
From Coq Require Import ZArith Reals String List Bool Lia Lra.
From Flocq Require Import Core.
From Verif Require Import GoBase Spec SpecText SpecDec SpecFtoa SpecFmt BitFacts RoundFacts ItoaFacts FmtFacts DecFacts DecFacts2 ExtFixed FtoaText FtoaFixed FtoaAll.
From Verif Require BigFloat.
From Verif Require Import GoFmt FloatPkg.
From Verif Require Import SpecFmt.
Import ListNotations.
Open Scope Z_scope.

Local Notation len l := (Z.of_nat (length l)).

(** * Rounding a fraction *)
Lemma ZnearestE_div n d : 0 <= n -> 0 < d ->
  ZnearestE (IZR n / IZR d) =
    (if (d <? 2 * (n mod d)) || ((2 * (n mod d) =? d) && Z.odd (n / d)) then n / d + 1 else n / d).
Proof.
  intros Hn Hd. pose proof (Z.div_mod n d ltac:(lia)) as E. pose proof (Z.mod_pos_bound n d Hd) as R. set (q := n / d) in *. set (r := n mod d) in *.
  assert (Pd : (0 < IZR d)%R) by (apply IZR_lt; exact Hd).
  assert (X : (IZR n / IZR d = IZR q + IZR r / IZR d)%R).
  { rewrite E, plus_IZR, mult_IZR. field. lra. }
  assert (F : Zfloor (IZR n / IZR d) = q).
  { apply Zfloor_imp. rewrite X, plus_IZR. assert (0 <= IZR r / IZR d)%R by (apply Rmult_le_pos; [apply IZR_le; lia|apply Rlt_le, Rinv_0_lt_compat; exact Pd]).
    assert (IZR r / IZR d < 1)%R; [|lra]. apply Rmult_lt_reg_r with (IZR d); [exact Pd|]. unfold Rdiv. rewrite Rmult_assoc, Rinv_l, Rmult_1_r, Rmult_1_l by lra. apply IZR_lt. lia. }
  unfold Znearest. rewrite F, X. replace (IZR q + IZR r / IZR d - IZR q)%R with (IZR r / IZR d)%R by ring.
  assert (C : Rcompare (IZR r / IZR d) (/ 2) = Z.compare (2 * r) d).
  { rewrite <- (Rcompare_mult_r (2 * IZR d)) by lra.
    replace (IZR r / IZR d * (2 * IZR d))%R with (IZR (2 * r)) by (rewrite mult_IZR; field; lra).
    replace (/ 2 * (2 * IZR d))%R with (IZR d) by field. apply Rcompare_IZR. }
  rewrite C.
  assert (Cl : r <> 0 -> Zceil (IZR q + IZR r / IZR d) = q + 1).
  { intros Nr. rewrite <- X. rewrite Zceil_floor_neq; [rewrite F; reflexivity|]. rewrite F, X. intros K. apply Nr.
    assert (IZR r / IZR d = 0)%R by lra. apply eq_IZR. apply Rmult_eq_reg_r with (/ IZR d)%R; [lra|apply Rinv_neq_0_compat; lra]. }
  destruct (Z.compare_spec (2 * r) d) as [K|K|K].
  - destruct (Z.ltb_spec d (2 * r)); [lia|]. destruct (Z.eqb_spec (2 * r) d); [|lia]. cbn [orb andb]. rewrite <- Z.negb_even.
    destruct (Z.even q); cbn [negb]; [reflexivity|]. apply Cl. lia.
  - destruct (Z.ltb_spec d (2 * r)); [lia|]. destruct (Z.eqb_spec (2 * r) d); [lia|]. reflexivity.
  - destruct (Z.ltb_spec d (2 * r)); [|lia]. cbn [orb]. apply Cl. lia.
Qed.

Lemma ndigits_range n : 0 < n -> 1 <= ndigits n /\ 10 ^ (ndigits n - 1) <= n < 10 ^ ndigits n.
Proof.
  intros Hn. unfold ndigits. destruct (digits_of_spec 10 n ltac:(lia) ltac:(lia)) as (V & D & N & _ & L1 & L2).
  set (l := digits_of 10 n) in *. assert (1 <= len l) by (destruct l; [contradiction|]; cbn [length]; lia).
  split; [lia|]. split.
  - destruct (Z_le_gt_dec (10 ^ (len l - 1)) n) as [|G]; [assumption|]. exfalso.
    destruct (Z.eq_dec (len l) 1) as [E|]; [rewrite E in G; cbn in G; lia|]. specialize (L1 (len l - 1) ltac:(lia) ltac:(lia)). lia.
  - destruct (Z_lt_ge_dec n (10 ^ len l)) as [|G]; [assumption|]. exfalso. specialize (L2 (len l) ltac:(lia) ltac:(lia)). lia.
Qed.

Lemma dec_round_ok nd n e10 : 1 <= nd -> 0 < n -> let '(q, qe) := dec_round nd n e10 in
  10 ^ (nd - 1) <= q < 10 ^ nd /\ (IZR q * p10 qe)%R = sig_round nd (IZR n * p10 e10).
Proof.
  intros Hnd Hn. unfold dec_round. destruct (ndigits_range n Hn) as (K1 & K2). set (k := ndigits n) in *.
  set (c := e10 + k - nd).
  assert (S : sig_round nd (IZR n * p10 e10) = round10 c (IZR n * p10 e10)).
  { apply sig_round_at; [exact Hnd|]. unfold c. replace (e10 + k - nd + nd - 1) with (k - 1 + e10) by lia. replace (e10 + k - nd + nd) with (k + e10) by lia.
    rewrite !p10_plus, <- (IZR_p10 (k - 1)), <- (IZR_p10 k) by lia. split; [apply Rmult_le_compat_r; [apply Rlt_le, p10_pos|]; apply IZR_le; lia|apply Rmult_lt_compat_r; [apply p10_pos|]; apply IZR_lt; lia]. }
  rewrite S. unfold round10. rewrite Rmult_assoc, <- p10_plus.
  destruct (Z.leb_spec k nd) as [L|L].
  - replace (e10 + - c) with (nd - k) by (unfold c; lia). rewrite <- (IZR_p10 (nd - k)), <- mult_IZR, (Zrnd_IZR ZnearestE) by lia.
    split; [|do 2 f_equal; unfold c; lia].
    assert (E1 : 10 ^ (nd - 1) = 10 ^ (k - 1) * 10 ^ (nd - k)) by (rewrite <- Z.pow_add_r by lia; f_equal; lia).
    assert (E2 : 10 ^ nd = 10 ^ k * 10 ^ (nd - k)) by (rewrite <- Z.pow_add_r by lia; f_equal; lia). rewrite E1, E2.
    pose proof (pow10_pos (nd - k) ltac:(lia)) as Pk. destruct K2 as [K2 K3]. split; [apply Z.mul_le_mono_nonneg_r; lia|apply Z.mul_lt_mono_pos_r; lia].
  - replace (e10 + - c) with (- (k - nd)) by (unfold c; lia). set (d := 10 ^ (k - nd)).
    assert (Pd : 0 < d) by (apply pow10_pos; lia).
    assert (Ed : p10 (- (k - nd)) = (/ IZR d)%R).
    { unfold d. rewrite IZR_p10 by lia. unfold p10. rewrite bpow_opp. reflexivity. }
    rewrite Ed. fold (IZR n / IZR d)%R. rewrite ZnearestE_div by lia.
    set (q' := if _ || _ then n / d + 1 else n / d).
    assert (Dk : d * 10 ^ nd = 10 ^ k) by (unfold d; rewrite <- Z.pow_add_r by lia; f_equal; lia).
    assert (Dk1 : d * 10 ^ (nd - 1) = 10 ^ (k - 1)) by (unfold d; rewrite <- Z.pow_add_r by lia; f_equal; lia).
    assert (Q1 : 10 ^ (nd - 1) <= n / d) by (apply Z.div_le_lower_bound; lia). assert (Q2 : n / d < 10 ^ nd) by (apply Z.div_lt_upper_bound; lia).
    assert (Q : 10 ^ (nd - 1) <= q' <= 10 ^ nd) by (unfold q'; destruct (_ || _); lia).
    assert (P10 : 10 ^ nd = 10 * 10 ^ (nd - 1)) by (replace nd with (nd - 1 + 1) at 1 by lia; rewrite Z.pow_add_r by lia; lia).
    pose proof (pow10_pos (nd - 1) ltac:(lia)).
    destruct (Z.eqb_spec q' (10 ^ nd)) as [E|E].
    + split; [lia|]. rewrite E, P10. replace (e10 + (k - nd) + 1) with (c + 1) by (unfold c; lia). rewrite p10_plus, mult_IZR. change (p10 1) with (IZR 10). ring.
    + split; [lia|]. do 2 f_equal. unfold c. lia.
Qed.

(** * Digits *)
Lemma digit_val_byte d : 0 <= d < 10 -> digit_val (digit_byte d) = d.
Proof.
  intros H. unfold digit_byte, digit_val. destruct (Z.ltb_spec d 10); [|lia].
  destruct (Z.leb_spec 48 (48 + d)); [|lia]. destruct (Z.leb_spec (48 + d) 57); [|lia]. cbn [andb]. lia.
Qed.

Lemma read_digits ds : Forall (is_digit 10) ds -> all_digits 10 (map digit_byte ds) /\ read 10 (map digit_byte ds) = val 10 ds.
Proof.
  intros H. split.
  - unfold all_digits. rewrite Forall_map. eapply Forall_impl; [|exact H]. intros d Hd. rewrite digit_val_byte; exact Hd.
  - induction H as [|d ds Hd H IH]; [reflexivity|]. cbn [map]. rewrite read_cons, val_cons, digit_val_byte, map_length, IH by exact Hd. reflexivity.
Qed.

Lemma fmt_d_numeral n : 0 <= n -> numeral 10 (fmt_d n) /\ read 10 (fmt_d n) = n.
Proof.
  intros Hn. unfold fmt_d. destruct (Z.ltb_spec n 0); [lia|]. destruct (digits_of_spec 10 n ltac:(lia) Hn) as (V & D & N & H0 & L1 & _).
  destruct (read_digits _ D) as [A R]. split; [|rewrite R; exact V]. split; [|split; [exact A|]].
  - intros E. apply N. destruct (digits_of 10 n); [reflexivity|discriminate].
  - intros E. destruct (digits_of 10 n) as [|c t] eqn:El; [contradiction|]. cbn [map hd] in E.
    assert (C : c = 0) by (inversion D as [|? ? Hc]; subst; unfold digit_byte in E; unfold is_digit in Hc; destruct (Z.ltb_spec c 10); lia).
    assert (n = 0) by (cbn [hd] in H0; destruct (Z.eq_dec n 0); [assumption|exfalso; apply H0; lia]).
    specialize (L1 1 ltac:(lia) ltac:(lia)). cbn [length] in L1. destruct t; [|cbn [length] in L1; lia]. subst c. reflexivity.
Qed.

Lemma exp_digits_text ex : exp_digits ex ((if ex <? 0 then 45 else 43) :: (if Z.abs ex <? 10 then [48] else []) ++ fmt_d (Z.abs ex)).
Proof.
  destruct (fmt_d_numeral (Z.abs ex) ltac:(lia)) as (N & R). eexists. split; [reflexivity|].
  assert (A : all_digits 10 (fmt_d (Z.abs ex))) by apply N.
  assert (Lf : forall k, 1 <= k -> Z.abs ex < 10 ^ k -> len (fmt_d (Z.abs ex)) <= k).
  { intros k Hk H. unfold fmt_d. destruct (Z.ltb_spec (Z.abs ex) 0); [lia|]. rewrite map_length. destruct (digits_of_spec 10 (Z.abs ex) ltac:(lia) ltac:(lia)) as (_ & _ & _ & _ & L1 & _). apply L1; assumption. }
  assert (Lg : forall k, 0 <= k -> 10 ^ k <= Z.abs ex -> k < len (fmt_d (Z.abs ex))).
  { intros k Hk H. unfold fmt_d. destruct (Z.ltb_spec (Z.abs ex) 0); [lia|]. rewrite map_length. destruct (digits_of_spec 10 (Z.abs ex) ltac:(lia) ltac:(lia)) as (_ & _ & _ & _ & _ & L2). apply L2; assumption. }
  assert (Ln : 1 <= len (fmt_d (Z.abs ex))) by (destruct N as [N _]; destruct (fmt_d (Z.abs ex)); [contradiction|]; cbn [length]; lia).
  destruct (Z.ltb_spec (Z.abs ex) 10) as [L|L].
  - split; [constructor; [cbn; lia|exact A]|]. cbn [app]. rewrite read_cons, R. change (digit_val 48) with 0. split; [lia|].
    left. cbn [length]. specialize (Lf 1 ltac:(lia) L). lia.
  - cbn [app]. split; [exact A|]. split; [exact R|]. destruct (Z_lt_ge_dec (Z.abs ex) 100) as [L1|L1].
    + left. specialize (Lf 2 ltac:(lia) ltac:(lia)). specialize (Lg 1 ltac:(lia) ltac:(lia)). lia.
    + right. split; [lia|exact N].
Qed.

(** * big.Float.Text('e', p) *)
Lemma Text_e_ok x p v : Spec.wf x -> 1 <= p -> bval x = VNum (BigFloat.neg x) (sgnR (BigFloat.neg x) v) -> (0 <= v)%R ->
  exists fp, len fp = p /\ prints_e 101 (BigFloat.neg x) fp (sig_round (p + 1) v) (Text_e x p).
Proof.
  intros Hw Hp Hb Hv. unfold Text_e, bval in *. destruct Hw as [_ Hw].
  assert (Es : (if BigFloat.neg x then B "-" else []) = sign_text (BigFloat.neg x)) by (unfold sign_text; destruct (BigFloat.neg x); reflexivity).
  assert (Ee : forall ex, (if ex <? 0 then B "-" else B "+") ++ (if Z.abs ex <? 10 then B "0" else []) ++ fmt_d (Z.abs ex) =
    (if ex <? 0 then 45 else 43) :: (if Z.abs ex <? 10 then [48] else []) ++ fmt_d (Z.abs ex)).
  { intros ex. destruct (ex <? 0); destruct (Z.abs ex <? 10); reflexivity. }
  destruct (BigFloat.frm x) as [|m e|] eqn:Ef; [| |discriminate].
  - injection Hb as Hb. assert (V0 : v = 0%R) by (destruct (BigFloat.neg x); cbn [sgnR] in Hb; lra). rewrite V0, sig_round_0.
    exists (repeat 48 (Z.to_nat p)). split; [rewrite repeat_length; lia|].
    replace (Z.to_nat (p + 1)) with (S (Z.to_nat p)) by lia. cbn [repeat firstn skipn]. rewrite Es, Ee.
    exists 48, 0. eexists. split; [|split; [apply (exp_digits_text 0)|]].
    + f_equal. cbn [app]. f_equal. destruct (Z.to_nat p) eqn:E; [lia|]. reflexivity.
    + assert (A : forall n, all_digits 10 (repeat 48 n) /\ read 10 (repeat 48 n) = 0).
      { induction n as [|n [I1 I2]]; [split; [constructor|reflexivity]|]. cbn [repeat]. split; [constructor; [cbn; lia|exact I1]|]. rewrite read_cons, I2. change (digit_val 48) with 0. lia. }
      change (48 :: repeat 48 (Z.to_nat p)) with (repeat 48 (S (Z.to_nat p))). destruct (A (S (Z.to_nat p))) as [A1 A2]. rewrite A2. split; [exact A1|]. split; [rewrite Rmult_0_l; reflexivity|]. auto.
  - destruct Hw as (Hm & _). injection Hb as Hb.
    assert (V : v = (IZR m * p2 e)%R) by (destruct (BigFloat.neg x); cbn [sgnR] in Hb; lra).
    assert (T : let '(n, e10) := to_dec m e in 0 < n /\ v = (IZR n * p10 e10)%R).
    { unfold to_dec. destruct (Z.leb_spec 0 e) as [L|L].
      - pose proof (pow2_pos e L). split; [nia|]. rewrite mult_IZR, IZR_pow2, p10_0, V by lia. ring.
      - pose proof (Z.pow_pos_nonneg 5 (- e) ltac:(lia) ltac:(lia)). split; [nia|]. rewrite V, mult_IZR.
        assert (K : p2 e = (IZR (5 ^ (- e)) * p10 e)%R).
        { apply Rmult_eq_reg_r with (p10 (- e)); [|apply Rgt_not_eq, p10_pos]. rewrite Rmult_assoc, p10_opp, Rmult_1_r.
          rewrite <- (IZR_p10 (- e)) by lia. change 10 with (2 * 5). rewrite Z.pow_mul_l, mult_IZR, IZR_pow2 by lia. rewrite <- Rmult_assoc, <- p2_plus. replace (e + - e) with 0 by lia. change (p2 0) with 1%R. ring. }
        rewrite K. ring. }
    destruct (to_dec m e) as [n e10]. destruct T as [Hn Hvn].
    pose proof (dec_round_ok (p + 1) n e10 ltac:(lia) Hn) as D. destruct (dec_round (p + 1) n e10) as [q qe]. destruct D as [Q D]. rewrite <- Hvn in D.
    pose proof (pow10_pos (p + 1 - 1) ltac:(lia)).
    destruct (digits_of_spec 10 q ltac:(lia) ltac:(lia)) as (Vq & Dq & Nq & Hq & L1 & L2). specialize (L1 (p + 1) ltac:(lia) ltac:(lia)). specialize (L2 (p + 1 - 1) ltac:(lia) ltac:(lia)).
    specialize (Hq ltac:(lia)). destruct (digits_of 10 q) as [|c t] eqn:El; [contradiction|]. cbn [hd] in Hq. cbn [length] in L1, L2.
    destruct (read_digits _ Dq) as [A R]. rewrite Vq in R. cbn [map] in *. rewrite <- D.
    exists (map digit_byte t). split; [rewrite map_length; lia|]. cbn [firstn skipn]. rewrite Es, Ee.
    exists (digit_byte c), (qe + p). eexists. split; [|split; [apply exp_digits_text|]].
    + f_equal. cbn [app]. f_equal. destruct t; [cbn [length] in L2; lia|]. reflexivity.
    + split; [exact A|]. rewrite R. split; [do 2 f_equal; rewrite map_length; lia|].
      intros E. exfalso. apply Hq. inversion Dq as [|? ? Hc]; subst. unfold is_digit in Hc. unfold digit_byte in E. destruct (Z.ltb_spec c 10); lia.
Qed.

(** * trimZeros *)
Lemma index_e_app P R : Forall (fun c => c <> 101) P -> index_e (P ++ 101 :: R) = Some (length P).
Proof.
  intros H. induction H as [|c P Hc H IH]; [reflexivity|]. cbn [app index_e length]. destruct (Z.eqb_spec c 101); [contradiction|]. rewrite IH. reflexivity.
Qed.

Lemma zeros_mid k (R : list Z) : repeat 48 k ++ 48 :: R = 48 :: repeat 48 k ++ R.
Proof. induction k as [|k IH]; [reflexivity|]. cbn [repeat app]. rewrite IH. reflexivity. Qed.

Lemma skip_zeros_ok k : forall Q c R, c <> 48 -> skip_zeros (Q ++ c :: repeat 48 k ++ R) (length Q + k) = length Q.
Proof.
  induction k as [|k IH]; intros Q c R Hc.
  - rewrite Nat.add_0_r. cbn [repeat app]. destruct (length Q) as [|n] eqn:E; [reflexivity|]. cbn [skip_zeros]. rewrite <- E, nth_middle.
    destruct (Z.eqb_spec c 48); [contradiction|reflexivity].
  - replace (length Q + S k)%nat with (S (length Q + k)) by lia. cbn [skip_zeros].
    replace (repeat 48 (S k) ++ R) with (repeat 48 k ++ 48 :: R) by (exact (zeros_mid k R)).
    assert (nth (S (length Q + k)) (Q ++ c :: repeat 48 k ++ 48 :: R) 0 = 48) as ->.
    { rewrite app_nth2 by lia. replace (S (length Q + k) - length Q)%nat with (S k) by lia. cbn [nth].
      rewrite app_nth2 by (rewrite repeat_length; lia). rewrite repeat_length, Nat.sub_diag. reflexivity. }
    rewrite Z.eqb_refl. apply IH, Hc.
Qed.

Lemma trim_cut P Q c k xs : P = Q ++ c :: repeat 48 k -> c <> 48 -> Forall (fun c => c <> 101) P ->
  trimZeros (P ++ 101 :: xs) = Ret ((if c =? 46 then Q else Q ++ [c]) ++ 101 :: xs).
Proof.
  intros HP Hc HF. unfold trimZeros. rewrite index_e_app by exact HF.
  assert (L : length P = S (length Q + k)) by (rewrite HP, app_length; cbn [length]; rewrite repeat_length; lia). rewrite L.
  assert (E : P ++ 101 :: xs = Q ++ c :: repeat 48 k ++ 101 :: xs) by (rewrite HP, <- app_assoc; reflexivity).
  rewrite E. rewrite skip_zeros_ok by exact Hc. rewrite nth_middle.
  assert (S2 : skipn (S (length Q + k)) (Q ++ c :: repeat 48 k ++ 101 :: xs) = 101 :: xs).
  { rewrite <- E, <- L, skipn_app, skipn_all, Nat.sub_diag. reflexivity. }
  rewrite S2. destruct (c =? 46).
  - f_equal. f_equal. rewrite firstn_app, firstn_all, Nat.sub_diag. cbn [firstn]. apply app_nil_r.
  - f_equal. f_equal. replace (S (length Q)) with (length (Q ++ [c])) by (rewrite app_length; cbn [length]; lia).
    replace (Q ++ c :: repeat 48 k ++ 101 :: xs) with ((Q ++ [c]) ++ repeat 48 k ++ 101 :: xs) by (rewrite <- app_assoc; reflexivity).
    rewrite firstn_app, firstn_all, Nat.sub_diag. cbn [firstn]. apply app_nil_r.
Qed.

Lemma split_zeros fp : exists fp' k, fp = fp' ++ repeat 48 k /\ no_zero_end fp'.
Proof.
  induction fp as [|c l IH] using rev_ind; [exists [], O; split; [reflexivity|unfold no_zero_end; cbn; lia]|].
  destruct (Z.eq_dec c 48) as [->|N].
  - destruct IH as (f & k & -> & H). exists f, (S k). split; [|exact H]. rewrite <- app_assoc. f_equal. symmetry. apply repeat_cons.
  - exists (l ++ [c]), O. cbn [repeat]. rewrite app_nil_r. split; [reflexivity|]. unfold no_zero_end. rewrite last_last. exact N.
Qed.

Lemma read_zeros k : read 10 (repeat 48 k) = 0.
Proof. induction k as [|k IH]; [reflexivity|]. cbn [repeat]. rewrite read_cons, IH. change (digit_val 48) with 0. lia. Qed.

Lemma trimZeros_ok ng fp x s : prints_e 101 ng fp x s -> fp <> [] \/ ng = false \/ x <> 0%R ->
  exists fp' k, fp = fp' ++ repeat 48 k /\ no_zero_end fp' /\ exists s', trimZeros s = Ret s' /\ prints_e 101 ng fp' x s'.
Proof.
  intros (a & X & xs & -> & Hx & A & V & Z0) Hc. destruct (split_zeros fp) as (fp' & k & E & N). exists fp', k. split; [exact E|]. split; [exact N|].
  assert (Aa : dig10 a) by (apply all_dig10 in A; inversion A; assumption). assert (Af : Forall dig10 fp) by (apply all_dig10 in A; inversion A; assumption).
  assert (Af' : Forall dig10 fp') by (rewrite E in Af; apply Forall_app in Af; apply Af).
  assert (F101 : Forall (fun c => c <> 101) (sign_text ng ++ a :: point fp)).
  { apply Forall_app. split; [destruct ng; repeat constructor; lia|]. constructor; [unfold dig10 in Aa; lia|].
    assert (G : Forall (fun c => c <> 101) fp) by (eapply Forall_impl; [|exact Af]; unfold dig10; intros; lia).
    destruct fp; [constructor|]. constructor; [lia|exact G]. }
  replace (sign_text ng ++ a :: point fp ++ 101 :: xs) with ((sign_text ng ++ a :: point fp) ++ 101 :: xs) by (rewrite <- app_assoc; reflexivity).
  assert (P : prints_e 101 ng fp' x (sign_text ng ++ a :: point fp' ++ 101 :: xs)).
  { exists a, X, xs. split; [reflexivity|]. split; [exact Hx|]. split; [apply all_dig10; constructor; assumption|]. split; [|exact Z0].
    rewrite V, E. replace (a :: fp' ++ repeat 48 k) with ((a :: fp') ++ repeat 48 k) by reflexivity. rewrite read_app, read_zeros, Z.add_0_r, app_length, repeat_length.
    rewrite scale10 by lia. do 2 f_equal. lia. }
  exists (sign_text ng ++ a :: point fp' ++ 101 :: xs). split; [|exact P].
  destruct fp as [|f0 ft].
  - destruct fp'; [|discriminate]. cbn [point app]. destruct (Z.eq_dec a 48) as [->|Na].
    + destruct ng; [|reflexivity]. exfalso. destruct (Z0 eq_refl) as [Z1 _]. destruct Hc as [H|[H|H]]; [apply H; reflexivity|discriminate|apply H; exact Z1].
    + rewrite (trim_cut _ (sign_text ng) a 0 xs); [|reflexivity|exact Na|exact F101]. unfold dig10 in Aa. destruct (Z.eqb_spec a 46); [lia|]. rewrite <- app_assoc. reflexivity.
  - destruct fp' as [|g0 gt] eqn:Ef'.
    + cbn [app] in E. rewrite (trim_cut _ (sign_text ng ++ [a]) 46 k xs); [|rewrite E; destruct k; [discriminate|]; cbn [point repeat]; rewrite <- app_assoc; reflexivity|lia|exact F101].
      rewrite Z.eqb_refl, <- app_assoc. reflexivity.
    + rewrite <- Ef' in *. destruct (exists_last (l := fp')) as (g & c & Eg); [rewrite Ef'; discriminate|].
      assert (Nc : c <> 48) by (unfold no_zero_end in N; rewrite Eg, last_last in N; exact N).
      assert (Dc : dig10 c) by (rewrite Eg in Af'; apply Forall_app in Af'; destruct Af' as [_ K]; inversion K; assumption).
      rewrite (trim_cut _ (sign_text ng ++ a :: 46 :: g) c k xs); [|cbn [point]; rewrite E, Eg, <- !app_assoc; reflexivity|exact Nc|exact F101].
      unfold dig10 in Dc. destruct (Z.eqb_spec c 46); [lia|]. f_equal. assert (Pp : point fp' = 46 :: fp') by (rewrite Ef'; reflexivity). rewrite Pp, Eg, <- !app_assoc. cbn [app]. rewrite <- app_assoc. reflexivity.
Qed.

(** * A number has one text without trailing zeros *)
Lemma exp_digits_fun X s t : exp_digits X s -> exp_digits X t -> s = t.
Proof.
  intros (a & -> & A & RA & LA) (b & -> & Bd & RB & LB). f_equal.
  destruct LA as [LA|[HA NA]]; destruct LB as [LB|[HB NB]].
  - apply (all_digits_inj 10); try assumption; try lia; congruence.
  - exfalso. pose proof (read_range 10 a ltac:(lia) A) as K. rewrite LA in K. change (10 ^ Z.of_nat 2) with 100 in K. lia.
  - exfalso. pose proof (read_range 10 b ltac:(lia) Bd) as K. rewrite LB in K. change (10 ^ Z.of_nat 2) with 100 in K. lia.
  - apply (numeral_inj 10); auto; [lia|congruence].
Qed.

Lemma digit_zero_read a fp : all_digits 10 (a :: fp) -> read 10 (a :: fp) = 0 -> a = 48.
Proof.
  intros A R. inversion A as [|? ? Ha Hf]; subst. rewrite read_cons in R. pose proof (read_range 10 fp ltac:(lia) Hf). pose proof (pow10_pos (len fp) ltac:(lia)).
  apply digit_val_48. nia.
Qed.

Lemma prints_e_range c ng fp x s : prints_e c ng fp x s -> forall a X xs, s = sign_text ng ++ a :: point fp ++ c :: xs ->
  x = (IZR (read 10 (a :: fp)) * p10 (X - len fp))%R -> all_digits 10 (a :: fp) -> a <> 48 -> (p10 X <= x < p10 (X + 1))%R.
Proof.
  intros _ a X xs _ V A Na. inversion A as [|? ? Ha Hf]; subst. rewrite read_cons. pose proof (read_range 10 fp ltac:(lia) Hf) as R. pose proof (pow10_pos (len fp) ltac:(lia)) as P.
  assert (1 <= digit_val a) by (destruct (Z.eq_dec (digit_val a) 0) as [E|]; [apply digit_val_48 in E; contradiction|lia]).
  set (N := digit_val a * 10 ^ len fp + read 10 fp). assert (10 ^ len fp <= N < 10 ^ (len fp + 1)) as [N1 N2] by (rewrite Z.pow_add_r by lia; unfold N; nia).
  assert (E1 : p10 X = (IZR (10 ^ len fp) * p10 (X - len fp))%R) by (rewrite (IZR_p10 (len fp)), <- p10_plus by lia; f_equal; lia).
  assert (E2 : p10 (X + 1) = (IZR (10 ^ (len fp + 1)) * p10 (X - len fp))%R) by (rewrite (IZR_p10 (len fp + 1)), <- p10_plus by lia; f_equal; lia).
  rewrite E1, E2.
  pose proof (p10_pos (X - len fp)). split; [apply Rmult_le_compat_r; [lra|]; apply IZR_le; exact N1|apply Rmult_lt_compat_r; [lra|]; apply IZR_lt; exact N2].
Qed.

Lemma read_no_zero_end l : all_digits 10 l -> l <> [] -> last l 49 <> 48 -> read 10 l mod 10 <> 0.
Proof.
  intros A N L. destruct (exists_last N) as (t & c & ->). rewrite last_last in L. rewrite read_snoc. unfold all_digits in A. apply Forall_app in A. destruct A as [_ A]. inversion A as [|? ? Hc _]; subst.
  rewrite Z.add_comm, Z.mod_add by lia. rewrite Z.mod_small by lia. intros K. apply digit_val_48 in K. contradiction.
Qed.

Lemma prints_e_unique c ng fp fp' x s s' : prints_e c ng fp x s -> prints_e c ng fp' x s' -> no_zero_end fp -> no_zero_end fp' -> s = s'.
Proof.
  intros (a & X & xs & E & Hx & A & V & Z0) (b & Y & ys & E' & Hy & A' & V' & Z0') N N'.
  assert (K : a = b /\ X = Y /\ fp = fp').
  { assert (AB : a = 48 <-> b = 48).
    { split; intros ->; [destruct (Z0 eq_refl) as [x0 _]|destruct (Z0' eq_refl) as [x0 _]]; rewrite x0 in *.
      - apply (digit_zero_read b fp' A'). apply eq_IZR. pose proof (p10_pos (Y - len fp')). apply Rmult_eq_reg_r with (p10 (Y - len fp')); lra.
      - apply (digit_zero_read a fp A). apply eq_IZR. pose proof (p10_pos (X - len fp)). apply Rmult_eq_reg_r with (p10 (X - len fp)); lra. }
    assert (XY : X = Y).
    { destruct (Z.eq_dec a 48) as [Ea|Na].
      - destruct (Z0 Ea) as [_ ->]. destruct (Z0' (proj1 AB Ea)) as [_ ->]. reflexivity.
      - pose proof (prints_e_range c ng fp x s (ex_intro _ a (ex_intro _ X (ex_intro _ xs (conj E (conj Hx (conj A (conj V Z0))))))) a X xs E V A Na) as R1.
        assert (Nb : b <> 48) by tauto.
        pose proof (prints_e_range c ng fp' x s' (ex_intro _ b (ex_intro _ Y (ex_intro _ ys (conj E' (conj Hy (conj A' (conj V' Z0'))))))) b Y ys E' V' A' Nb) as R2.
        assert (X < Y + 1) by (apply p10_lt_inv; lra). assert (Y < X + 1) by (apply p10_lt_inv; lra). lia. }
    subst Y. (* one list extends the other; the last digit is not zero *)
    assert (G : forall a fp b fp', all_digits 10 (a :: fp) -> all_digits 10 (b :: fp') -> (len fp <= len fp')%Z ->
      (IZR (read 10 (a :: fp)) * p10 (X - len fp) = IZR (read 10 (b :: fp')) * p10 (X - len fp'))%R -> no_zero_end fp' -> a = b /\ fp = fp').
    { clear. intros a fp b fp' A A' L V N'.
      assert (R : read 10 (b :: fp') = read 10 (a :: fp) * 10 ^ (len fp' - len fp)).
      { apply eq_IZR. apply Rmult_eq_reg_r with (p10 (X - len fp')); [|apply Rgt_not_eq, p10_pos]. rewrite <- V, scale10 by lia. do 2 f_equal. lia. }
      destruct (Z.eq_dec (len fp) (len fp')) as [El|Nl].
      - rewrite El, Z.sub_diag, Z.mul_1_r in R. assert (H : a :: fp = b :: fp'); [|injection H; auto].
        apply (all_digits_inj 10); auto; [lia|]. cbn [length]. lia.
      - exfalso. assert (Nf : fp' <> []) by (intros ->; cbn [length] in *; lia).
        assert (Af : all_digits 10 fp') by (inversion A'; assumption).
        apply (read_no_zero_end (b :: fp') A' ltac:(discriminate)); [destruct fp'; [contradiction|exact N']|].
        rewrite R. replace (len fp' - len fp) with (len fp' - len fp - 1 + 1) by lia. rewrite Z.pow_add_r by lia. rewrite Z.mul_assoc. apply Z.mod_mul. lia. }
    destruct (Z_le_gt_dec (len fp) (len fp')) as [L|L].
    - destruct (G a fp b fp' A A' L ltac:(congruence) N'). auto.
    - destruct (G b fp' a fp A' A ltac:(lia) ltac:(congruence) N). auto. }
  destruct K as (-> & -> & ->). rewrite E, E'. do 3 f_equal. f_equal. apply (exp_digits_fun Y); assumption.
Qed.
