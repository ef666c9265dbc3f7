(** When the accuracies of C06, C07, C15 and C21 are true outside of the ranges of the formats. *)
From Coq Require Import ZArith Reals Lia Lra Bool List.
From Flocq Require Import Core.
From Verif Require Import GoBase.
From Verif Require BigFloat Binary16 Binary128 Float80x86.
From Verif Require Import Spec BitFacts RoundFacts IeeeFacts BigFacts BigFacts2 BigFacts3 PkgFacts SpecOrder ClaimsMore ClaimsMono ClaimsOrder AllBig ClaimsMono2.
From Verif Require Float128ppc Facts16 Claims16 Claims128 Claims80 FactsPpc ClaimsTrip ClaimsCalls.
Import BigFloat (bitlen, gexp, prec, rmode, acc, neg, frm, Finite, MaxExp, MinExp, MaxPrec).
Open Scope Z_scope.

(** Numbers of at most [n] bits are those whose first [n] bits are all there is. *)
Lemma few_floor v k n : 0 <= n -> (p2 k <= Rabs v < p2 (k + 1))%R ->
  (exists K c, v = (IZR K * p2 c)%R /\ Z.abs K < 2 ^ (n + 1)) <-> IZR (Zfloor (Rabs v * p2 (n - k))) = (Rabs v * p2 (n - k))%R.
Proof.
  intros Hn H. split.
  - intros (K & c & E & HK). assert (C : k - n <= c).
    { apply Z.nlt_ge. intros C. assert (L : (Rabs v < p2 k)%R); [|lra]. rewrite E, Rabs_mult, <- abs_IZR, (Rabs_pos_eq (p2 c)) by (apply Rlt_le, p2_pos).
      apply Rlt_le_trans with (IZR (2 ^ (n + 1)) * p2 c)%R; [apply Rmult_lt_compat_r; [apply p2_pos|apply IZR_lt; exact HK]|]. rewrite IZR_pow2, <- p2_plus by lia. apply p2_le. lia. }
    assert (X : (Rabs v * p2 (n - k))%R = IZR (Z.abs K * 2 ^ (c + n - k))).
    { rewrite E, Rabs_mult, <- abs_IZR, (Rabs_pos_eq (p2 c)) by (apply Rlt_le, p2_pos). rewrite mult_IZR, IZR_pow2 by lia. replace (c + n - k) with (c + (n - k)) by lia. rewrite p2_plus. ring. }
    rewrite X, Zfloor_IZR. reflexivity.
  - intros E. pose proof (floor_mant v k n Hn H) as F. set (f := Zfloor (Rabs v * p2 (n - k))) in *.
    assert (X : Rabs v = (IZR f * p2 (k - n))%R) by (rewrite E, Rmult_assoc, <- p2_plus; replace (n - k + (k - n)) with 0 by lia; change (p2 0) with 1%R; ring).
    destruct (Rle_or_lt 0 v) as [V|V].
    + exists f, (k - n). rewrite Rabs_pos_eq in X by exact V. split; [exact X|]. pose proof (pow2_pos n Hn). lia.
    + exists (- f), (k - n). rewrite Rabs_left in X by exact V. split; [rewrite opp_IZR; lra|]. pose proof (pow2_pos n Hn). lia.
Qed.

Lemma Rdec (x y : R) : x = y \/ x <> y.
Proof. destruct (Req_dec x y); tauto. Qed.

Lemma sign_val x s v : wf x -> bval x = VNum s v -> v <> 0%R -> if s then (v < 0)%R else (0 < v)%R.
Proof.
  intros W B N. destruct (bval_finite x s v W B N) as (m & e & _ & Hm & _ & E). assert (0 < IZR m * p2 e)%R by (apply Rmult_lt_0_compat; [apply (IZR_lt 0); lia|apply p2_pos]). destruct s; cbn [sgnR] in E; lra.
Qed.

(** What is true of an accuracy of a number of which a finite number nearer to 0, an infinity or a
    NaN was made. *)
Lemma acc_big (ex : Prop) (s : bool) v a r big (D : ex \/ ~ ex) : (if s then (v < 0)%R else (0 < v)%R) ->
  (match r with VNum t y => t = s /\ (Rabs y < Rabs v)%R /\ (ex -> a = BigFloat.Above) | VInf t => t = s | VNaN _ => True end) ->
  (ex -> a = if (big : bool) then BigFloat.Above else BigFloat.Exact) -> (~ ex -> a = BigFloat.Below) ->
  (acc_ok a r v <-> match r with
    | VNum _ _ => ex <-> s = true
    | VInf _ => (ex <-> s = false) /\ (ex -> big = true)
    | VNaN _ => False
    end).
Proof.
  intros Hs Hr A1 A2. destruct D as [X|X].
  - destruct r as [t|t|t y].
    + rewrite (A1 X). destruct big; cbn [acc_ok]; tauto.
    + subst t. rewrite (A1 X). destruct big; cbn [acc_ok]; destruct s; intuition congruence.
    + destruct Hr as (-> & L & A). rewrite (A X). cbn [acc_ok]. destruct s.
      * rewrite (Rabs_left v) in L by lra. pose proof (Rabs_def2 y (- v) L). split; [tauto|lra].
      * rewrite (Rabs_pos_eq v) in L by lra. pose proof (Rabs_def2 y v L). split; [lra|]. intros [Q _]. specialize (Q X). discriminate.
  - rewrite (A2 X). destruct r as [t|t|t y]; cbn [acc_ok].
    + tauto.
    + subst t. destruct s; intuition congruence.
    + destruct Hr as (-> & L & _). destruct s.
      * rewrite (Rabs_left v) in L by lra. pose proof (Rabs_def2 y (- v) L). split; [lra|]. intros [_ Q]. exfalso. apply X, Q. reflexivity.
      * rewrite (Rabs_pos_eq v) in L by lra. pose proof (Rabs_def2 y v L). split; [|lra]. intros _. split; [contradiction|discriminate].
Qed.

Lemma acc_tiny (s : bool) v a y lo : (if s then (v < 0)%R else (0 < v)%R) -> (Rabs v < lo)%R -> a = BigFloat.Below ->
  (y = 0 \/ lo <= y)%R -> (acc_ok a (VNum s (sgnR s y)) v <-> (sgnR s y = 0%R <-> s = false)).
Proof.
  intros Hs L -> Hy. cbn [acc_ok]. pose proof (Rabs_pos v). destruct s; cbn [sgnR].
  - rewrite (Rabs_left v) in * by lra. split.
    + intros Q. split; [intros Z; exfalso; lra|discriminate].
    + intros [Q _]. destruct Hy as [-> |Hy]; [|lra]. exfalso. assert ((-0)%R = 0%R) as Z by ring. specialize (Q Z). discriminate.
  - rewrite (Rabs_pos_eq v) in * by lra. split.
    + intros Q. split; [reflexivity|]. intros _. destruct Hy as [Hy|Hy]; [exact Hy|lra].
    + intros [_ Q]. rewrite (Q eq_refl). lra.
Qed.

(** The patterns that NewFromBig composes. *)
Lemma parts_big mb eb (s : bool) E f : 1 <= mb -> 2 <= eb -> 0 <= E < 2 ^ eb -> 2 ^ mb <= f < 2 ^ (mb + 1) ->
  match ieee mb eb ((if s then 2 ^ (mb + eb) else 0) + E * 2 ^ mb + (f - 2 ^ mb)) with
  | VNum t y => t = s /\ (Rabs y < p2 (2 ^ (eb - 1)))%R /\ E <> 2 ^ eb - 1
  | VInf t => t = s
  | VNaN _ => True
  end.
Proof.
  intros Hm He HE Hf. assert (P : 2 ^ (mb + 1) = 2 * 2 ^ mb) by (rewrite Z.pow_add_r by lia; lia).
  replace ((if s then 2 ^ (mb + eb) else 0) + E * 2 ^ mb + (f - 2 ^ mb)) with (enc mb eb s E (f - 2 ^ mb)).
  2:{ unfold enc. destruct s; cbn [Z.b2z]; rewrite ?(Z.pow_add_r 2 mb eb) by lia; ring. }
  rewrite ieee_enc by lia. unfold ieee_parts. destruct (Z.eqb_spec E (2 ^ eb - 1)) as [X|X].
  - destruct (_ =? 0); [reflexivity|exact I].
  - assert (Q : 2 ^ eb = 2 * 2 ^ (eb - 1)) by (replace eb with (1 + (eb - 1)) at 1 by lia; rewrite Z.pow_add_r by lia; reflexivity).
    assert (Z1 : 2 <= 2 ^ (eb - 1)) by (apply (Z.pow_le_mono_r 2 1 (eb - 1)); lia).
    assert (G : forall t M c, 0 <= M < 2 ^ (mb + 1) -> c + mb + 1 <= 2 ^ (eb - 1) -> (Rabs (sgnR t (IZR M * p2 c)) < p2 (2 ^ (eb - 1)))%R).
    { intros t M c HM Hc. assert (N : (0 <= IZR M)%R) by (apply (IZR_le 0); lia). pose proof (p2_pos c) as Pc.
      replace (Rabs (sgnR t (IZR M * p2 c))) with (IZR M * p2 c)%R by (destruct t; cbn [sgnR]; rewrite ?Rabs_Ropp, Rabs_pos_eq by nra; reflexivity).
      apply Rlt_le_trans with (IZR (2 ^ (mb + 1)) * p2 c)%R; [apply Rmult_lt_compat_r; [exact Pc|apply IZR_lt; lia]|]. rewrite IZR_pow2, <- p2_plus by lia. apply p2_le. lia. }
    destruct (Z.eqb_spec E 0) as [Y|Y]; (split; [reflexivity|]); (split; [|exact X]); apply G; lia.
Qed.

Lemma parts_low mb eb (s : bool) n : 1 <= mb -> 2 <= eb -> 0 <= n < 2 ^ (mb + 1) ->
  ieee mb eb ((if s then 2 ^ (mb + eb) else 0) + n) = VNum s (sgnR s (IZR n * p2 (2 - 2 ^ (eb - 1) - mb))).
Proof.
  intros Hm He Hn. assert (P : 2 ^ (mb + 1) = 2 * 2 ^ mb) by (rewrite Z.pow_add_r by lia; lia). pose proof (pow2_pos mb ltac:(lia)).
  destruct (Z_lt_le_dec n (2 ^ mb)) as [L|L].
  - replace ((if s then 2 ^ (mb + eb) else 0) + n) with (enc mb eb s 0 n).
    2:{ unfold enc. destruct s; cbn [Z.b2z]; rewrite ?(Z.pow_add_r 2 mb eb) by lia; ring. }
    rewrite ieee_enc_sub by lia. reflexivity.
  - replace ((if s then 2 ^ (mb + eb) else 0) + n) with (enc mb eb s 1 (n - 2 ^ mb)).
    2:{ unfold enc. destruct s; cbn [Z.b2z]; rewrite ?(Z.pow_add_r 2 mb eb) by lia; ring. }
    assert (4 <= 2 ^ eb) by (apply (Z.pow_le_mono_r 2 2 eb); lia). rewrite ieee_enc_norm by lia. replace (2 ^ mb + (n - 2 ^ mb)) with n by lia. reflexivity.
Qed.

Lemma low_val n c : 0 <= n -> (IZR n * p2 c = 0 \/ p2 c <= IZR n * p2 c)%R.
Proof.
  intros H. destruct (Z.eq_dec n 0) as [-> |N]; [left; ring|right]. rewrite <- (Rmult_1_l (p2 c)) at 1. apply Rmult_le_compat_r; [apply Rlt_le, p2_pos|]. apply (IZR_le 1). lia.
Qed.

Lemma big_k v k n : (p2 k <= Rabs v < p2 (k + 1))%R -> (p2 n <= Rabs v)%R <-> n <= k.
Proof.
  intros H. split.
  - intros L. apply Z.nlt_ge. intros C. assert (p2 (k + 1) <= p2 n)%R by (apply p2_le; lia). lra.
  - intros L. apply Rle_trans with (2 := proj1 H). apply p2_le. exact L.
Qed.

(** * binary16 *)
Lemma c07_outside : forall x s v, wf x -> bval x = VNum s v ->
  let few := exists K c, v = (IZR K * p2 c)%R /\ Z.abs K < 2 ^ 11 in
  let '(b, a) := Binary16.NewFromBig x in
  ((p2 16 <= Rabs v)%R -> (acc_ok a (ieee 10 5 b) v <-> match ieee 10 5 b with
    | VNum _ _ => few <-> s = true
    | VInf _ => (few <-> s = false) /\ (few -> (p2 17 <= Rabs v)%R)
    | VNaN _ => False
    end)) /\
  ((0 < Rabs v < p2 (-24))%R -> exists r, ieee 10 5 b = VNum s r /\ (acc_ok a (ieee 10 5 b) v <-> (r = 0%R <-> s = false))).
Proof.
  intros x s v W B few. destruct (Req_dec v 0) as [V0|V0].
  { destruct (Binary16.NewFromBig x) as [b a]. subst v. rewrite Rabs_R0. split; intros H; [pose proof (p2_pos 16); lra|lra]. }
  destruct (mag_ex v V0) as (k & Hk). pose proof (c07_all x s v k W B Hk) as A. cbv zeta in A. pose proof (sign_val x s v W B V0) as Hs. pose proof (few_floor v k 10 ltac:(lia) Hk) as Hfew. change (10 + 1) with 11 in Hfew. fold few in Hfew.
  destruct (Binary16.NewFromBig x) as [b a]. destruct A as (A1 & _ & A3). split; intros H.
  - apply (big_k v k 16 Hk) in H. destruct (A1 ltac:(lia)) as (Eb & Ex & In). pose proof (floor_mant v k 10 ltac:(lia) Hk) as Fm. rewrite <- Hfew in Ex, In. clear A1 A3.
    pose proof (parts_big 10 5 s ((k + 15) mod 2 ^ 5) _ ltac:(lia) ltac:(lia) (Z.mod_pos_bound (k + 15) (2 ^ 5) ltac:(lia)) Fm) as P. change (10 + 5) with 15 in P. rewrite <- Eb in P.
    rewrite (acc_big few s v a (ieee 10 5 b) (17 <=? k)).
    + destruct (ieee 10 5 b); try reflexivity. rewrite (big_k v k 17 Hk). rewrite Z.leb_le. reflexivity.
    + rewrite Hfew. apply Rdec.
    + exact Hs.
    + destruct (ieee 10 5 b); [exact I|exact P|]. destruct P as (-> & P & N). split; [reflexivity|]. split.
      * apply Rlt_le_trans with (1 := P). apply (big_k v k 16 Hk). exact H.
      * intros X. rewrite (Ex X). destruct (Z.ltb_spec k 17); [|reflexivity]. exfalso. apply N. replace k with 16 by lia. reflexivity.
    + intros X. rewrite (Ex X). destruct (Z.ltb_spec k 17), (Z.leb_spec 17 k); try lia; reflexivity.
    + exact In.
  - assert (K : k < -24) by (apply Z.nle_gt; intros C; apply (big_k v k (-24) Hk) in C; lra). destruct (A3 K) as [Eb Ea].
    pose proof (Z.mod_pos_bound (Zfloor (Rabs v * p2 (19 - k))) (2 ^ 11) ltac:(lia)) as R. set (n := Zfloor _ mod _) in *.
    pose proof (parts_low 10 5 s n ltac:(lia) ltac:(lia) R) as P. change (10 + 5) with 15 in P. rewrite <- Eb in P. rewrite P. eexists. split; [reflexivity|].
    apply (acc_tiny s v a _ (p2 (-24))); [exact Hs|apply H|exact Ea|]. apply (low_val n (-24)). lia.
Qed.

Lemma rnd_sign (s : bool) v : (if s then (v < 0)%R else (0 < v)%R) <-> (v <> 0%R /\ (if s then (v <= 0)%R else (0 <= v)%R)).
Proof. destruct s; lra. Qed.

Lemma rnd_back md p v : 0 < p -> rnd_prec md p v <> 0%R -> forall s : bool, (if s then (rnd_prec md p v < 0)%R else (0 < rnd_prec md p v)%R) -> if s then (v < 0)%R else (0 < v)%R.
Proof.
  intros Hp N s H. pose proof (rnd_prec_mono md p v 0 Hp) as M1. pose proof (rnd_prec_mono md p 0 v Hp) as M2. rewrite ClaimsMono.rnd_prec_0 in M1, M2.
  destruct s; [destruct (Rlt_or_le v 0) as [|L]; [assumption|specialize (M2 L); lra]|destruct (Rlt_or_le 0 v) as [|L]; [assumption|specialize (M1 L); lra]].
Qed.

Lemma rnd_power md p k : 0 < p -> rnd_prec md p (p2 k) = p2 k.
Proof.
  intros Hp. pose proof (rnd_prec_fits md p false 1 k ltac:(lia) Hp) as H. cbn [sgnR] in H. rewrite Rmult_1_l in H. apply H. apply sigbits_lt. pose proof (Z.pow_gt_1 2 p ltac:(lia)). lia.
Qed.

Lemma rnd_ge md p v k : 0 < p -> (p2 k <= Rabs v)%R -> (p2 k <= Rabs (rnd_prec md p v))%R.
Proof.
  intros Hp H. destruct (Rle_or_lt 0 v) as [V|V].
  - rewrite Rabs_pos_eq in H by exact V. pose proof (rnd_prec_mono md p (p2 k) v Hp H) as M. rewrite rnd_power in M by exact Hp. apply Rle_trans with (1 := M). apply Rle_abs.
  - rewrite Rabs_left in H by exact V. pose proof (rnd_prec_mono md p v (- p2 k) Hp ltac:(lra)) as M.
    replace (rnd_prec md p (- p2 k)) with (- p2 k)%R in M.
    + rewrite <- Rabs_Ropp. apply Rle_trans with (2 := Rle_abs _). lra.
    + pose proof (rnd_prec_fits md p true 1 k ltac:(lia) Hp) as R. cbn [sgnR] in R. rewrite Rmult_1_l in R. symmetry. apply R. apply sigbits_lt. pose proof (Z.pow_gt_1 2 p ltac:(lia)). lia.
Qed.

(** NewFromFloat64, which rounds to 11 bits first. *)
Lemma c06_outside : forall x s v, 0 <= x < 2 ^ 64 -> ieee 52 11 x = VNum s v ->
  let r := rnd_prec BigFloat.ToNearestEven 11 v in
  exists b a, Binary16.NewFromFloat64 x = Ret (b, a) /\
  ((p2 17 <= Rabs r)%R -> (acc_ok a (ieee 10 5 b) v <-> match ieee 10 5 b with
    | VNum _ _ => s = true
    | VInf _ => s = false
    | VNaN _ => False
    end)) /\
  ((0 < Rabs v < p2 (-24))%R -> exists y, ieee 10 5 b = VNum s y /\
    (acc_ok a (ieee 10 5 b) v <-> (y = 0%R <-> s = false) /\ (Rabs r < p2 (-24))%R)).
Proof.
  intros x s v Hx Ev r. destruct (Req_dec v 0) as [V0|V0].
  { destruct (Facts16.nff64_num x s v Hx Ev) as (y & E & W & V & P). destruct (Binary16.NewFromBig y) as [b a]. exists b, a. split; [exact E|]. unfold r. subst v. rewrite ClaimsMono.rnd_prec_0, Rabs_R0. split; intros H; [pose proof (p2_pos 17); lra|lra]. }
  assert (R0 : r <> 0%R).
  { destruct (mag_ex v V0) as (k & Hk). pose proof (rnd_ge BigFloat.ToNearestEven 11 v k ltac:(lia) (proj1 Hk)) as G. fold r in G. intros Z. rewrite Z, Rabs_R0 in G. pose proof (p2_pos k). lra. }
  destruct (Facts16.nff64_num x s v Hx Ev) as (y0 & _ & W & V & P). fold r in V. pose proof (sign_val y0 s r W V R0) as Hsr. pose proof (rnd_back _ 11 v ltac:(lia) R0 s Hsr) as Hs.
  destruct (mag_ex r R0) as (k & Hk). destruct (c05_all x s v k Hx Ev Hk) as (b & a & E & A1 & A2 & A3). fold r in A1, A2, A3. exists b, a. split; [exact E|]. split; intros H.
  - apply (big_k r k 17 Hk) in H. destruct (A1 ltac:(lia)) as (Eb & Ea). pose proof (floor_mant r k 10 ltac:(lia) Hk) as Fm.
    pose proof (parts_big 10 5 s ((k + 15) mod 2 ^ 5) _ ltac:(lia) ltac:(lia) (Z.mod_pos_bound (k + 15) (2 ^ 5) ltac:(lia)) Fm) as Q. change (10 + 5) with 15 in Q. rewrite <- Eb in Q.
    assert (Ea' : a = BigFloat.Above) by (rewrite Ea; destruct (Z.ltb_spec k 17); [lia|reflexivity]).
    rewrite (acc_big True s v a (ieee 10 5 b) true).
    + destruct (ieee 10 5 b); tauto.
    + left. exact I.
    + exact Hs.
    + destruct (ieee 10 5 b); [exact I|exact Q|]. destruct Q as (-> & Q & _). split; [reflexivity|]. split; [|tauto]. apply Rlt_le_trans with (1 := Q). change (2 ^ (5 - 1)) with 16.
      destruct (Rle_or_lt (p2 16) (Rabs v)) as [|L]; [assumption|]. exfalso. pose proof (PkgFacts.rnd_prec_le BigFloat.ToNearestEven 11 v 16 ltac:(lia) (Rlt_le _ _ L)) as C. fold r in C.
      assert (p2 16 < p2 17)%R by (apply bpow_lt; lia). assert (p2 17 <= Rabs r)%R by (apply (big_k r k 17 Hk); exact H). lra.
    + intros _. exact Ea'.
    + tauto.
  - destruct (Z_lt_le_dec k (-24)) as [K|K].
    + destruct (A3 K) as [Eb Ea]. pose proof (Z.mod_pos_bound (Zfloor (Rabs r * p2 (19 - k))) (2 ^ 11) ltac:(lia)) as R. set (n := Zfloor _ mod _) in *.
      pose proof (parts_low 10 5 s n ltac:(lia) ltac:(lia) R) as Q. change (10 + 5) with 15 in Q. rewrite <- Eb in Q. rewrite Q. eexists. split; [reflexivity|].
      assert (L : (Rabs r < p2 (-24))%R) by (apply Rlt_le_trans with (1 := proj2 Hk); apply p2_le; lia).
      rewrite (acc_tiny s v a _ (p2 (-24))); [tauto|exact Hs|apply H|exact Ea|]. apply (low_val n (-24)). lia.
    + assert (K2 : k = -24).
      { pose proof (PkgFacts.rnd_prec_le BigFloat.ToNearestEven 11 v (-24) ltac:(lia) (Rlt_le _ _ (proj2 H))) as C. fold r in C. apply Z.le_antisymm; [|exact K]. apply Z.nlt_ge. intros D. assert (p2 (-24) < p2 k)%R by (apply bpow_lt; lia). lra. }
      destruct (A2 ltac:(lia)) as [Eb Ea]. assert (L : (p2 (-24) <= Rabs r)%R) by (rewrite <- K2; apply Hk).
      assert (N1 : 0 < Zfloor (Rabs r * p2 24) < 2 ^ 11).
      { pose proof (floor_mant r k 0 ltac:(lia) Hk) as Fm. rewrite K2 in Fm. change (0 - -24) with 24 in Fm. change (2 ^ 0) with 1 in Fm. change (2 ^ (0 + 1)) with 2 in Fm. lia. }
      pose proof (parts_low 10 5 s _ ltac:(lia) ltac:(lia) (conj (Z.lt_le_incl _ _ (proj1 N1)) (proj2 N1))) as Q. change (10 + 5) with 15 in Q. rewrite <- Eb in Q. rewrite Q. eexists. split; [reflexivity|].
      rewrite Ea. cbn [acc_ok]. split; [|lra]. intros Z. exfalso. set (n := Zfloor (Rabs r * p2 24)) in *. pose proof (low_val n (-24) ltac:(lia)) as LV. change (2 - 2 ^ (5 - 1) - 10) with (-24) in Z.
      assert (X : Rabs v = (IZR n * p2 (-24))%R) by (rewrite <- Z; pose proof (p2_pos (-24)); assert (0 < IZR n)%R by (apply (IZR_lt 0); lia); destruct s; cbn [sgnR]; rewrite ?Rabs_Ropp; apply Rabs_pos_eq; nra).
      lra.
Qed.

(** * binary128 *)
Lemma c15_outside : forall x s v, wf x -> bval x = VNum s v ->
  let few := exists K c, v = (IZR K * p2 c)%R /\ Z.abs K < 2 ^ 113 in
  exists f a, Binary128.NewFromBig x = Ret (f, a) /\
  let q := quad (Binary128.fa f) (Binary128.fb f) in
  ((p2 16384 <= Rabs v)%R -> (acc_ok a q v <-> match q with
    | VNum _ _ => few <-> s = true
    | VInf _ => (few <-> s = false) /\ (few -> (p2 16385 <= Rabs v)%R)
    | VNaN _ => False
    end)) /\
  ((0 < Rabs v < p2 (-16494))%R -> exists r, q = VNum s r /\ (acc_ok a q v <-> (r = 0%R <-> s = false))).
Proof.
  intros x s v W B few. destruct (Req_dec v 0) as [V0|V0].
  { destruct (range128 x s v W B) as (n & a & E & _). eexists _, _. split; [exact E|]. subst v. cbv zeta. rewrite Rabs_R0. split; intros H; [pose proof (p2_pos 16384); lra|lra]. }
  destruct (mag_ex v V0) as (k & Hk). destruct (c15_all x s v k W B Hk) as (b & a & E & A1 & _ & A3). pose proof (sign_val x s v W B V0) as Hs. pose proof (few_floor v k 112 ltac:(lia) Hk) as Hfew. change (112 + 1) with 113 in Hfew. fold few in Hfew.
  eexists _, a. split; [exact E|]. cbn [Binary128.fa Binary128.fb]. rewrite quad_join. cbv zeta. split; intros H.
  - apply (big_k v k 16384 Hk) in H. destruct (A1 ltac:(lia)) as (Eb & Ex & In). pose proof (floor_mant v k 112 ltac:(lia) Hk) as Fm. rewrite <- Hfew in Ex, In. clear A1 A3 E.
    pose proof (parts_big 112 15 s ((k + 16383) mod 2 ^ 15) _ ltac:(lia) ltac:(lia) (Z.mod_pos_bound (k + 16383) (2 ^ 15) ltac:(lia)) Fm) as P. change (112 + 15) with 127 in P. rewrite <- Eb in P.
    rewrite (acc_big few s v a (ieee 112 15 b) (16385 <=? k)).
    + destruct (ieee 112 15 b); try reflexivity. rewrite (big_k v k 16385 Hk). rewrite Z.leb_le. reflexivity.
    + rewrite Hfew. apply Rdec.
    + exact Hs.
    + destruct (ieee 112 15 b); [exact I|exact P|]. destruct P as (-> & P & N). split; [reflexivity|]. split.
      * apply Rlt_le_trans with (1 := P). apply (big_k v k 16384 Hk). exact H.
      * intros X. rewrite (Ex X). destruct (Z.ltb_spec k 16385); [|reflexivity]. exfalso. apply N. replace k with 16384 by lia. reflexivity.
    + intros X. rewrite (Ex X). destruct (Z.ltb_spec k 16385), (Z.leb_spec 16385 k); try lia; reflexivity.
    + exact In.
  - assert (K : k < -16494) by (apply Z.nle_gt; intros C; apply (big_k v k (-16494) Hk) in C; lra). destruct (A3 K) as [Eb Ea].
    pose proof (Z.mod_pos_bound (Zfloor (Rabs v * p2 (223 - k))) (2 ^ 112) ltac:(lia)) as R. set (n := Zfloor _ mod _) in *.
    assert (R' : 0 <= n < 2 ^ (112 + 1)) by (change (2 ^ (112 + 1)) with (2 * 2 ^ 112); lia).
    pose proof (parts_low 112 15 s n ltac:(lia) ltac:(lia) R') as P. change (112 + 15) with 127 in P. rewrite <- Eb in P. rewrite P. eexists. split; [reflexivity|].
    apply (acc_tiny s v a _ (p2 (-16494))); [exact Hs|apply H|exact Ea|]. apply (low_val n (-16494)). lia.
Qed.

(** * float80x86 *)
Lemma x87_parts (s : bool) E m : 0 <= E < 2 ^ 15 -> x87 ((if s then 2 ^ 15 else 0) + E) m =
  if E =? 2 ^ 15 - 1 then (if m =? 2 ^ 63 then VInf s else VNaN s) else VNum s (sgnR s (IZR m * p2 (Z.max E 1 - 16446))).
Proof.
  intros H. unfold x87. replace (Z.max (((if s then 2 ^ 15 else 0) + E) mod 2 ^ 15) 1 - 16383 - 63) with (Z.max (((if s then 2 ^ 15 else 0) + E) mod 2 ^ 15) 1 - 16446) by lia.
  assert (X : ((if s then 2 ^ 15 else 0) + E) / 2 ^ 15 = Z.b2z s /\ ((if s then 2 ^ 15 else 0) + E) mod 2 ^ 15 = E).
  { destruct s; cbn [Z.b2z].
    - replace (2 ^ 15 + E) with (E + 1 * 2 ^ 15) by lia. rewrite Z.div_add, Z.mod_add, Z.div_small, Z.mod_small by lia. split; reflexivity.
    - rewrite Z.add_0_l, Z.div_small, Z.mod_small by lia. split; reflexivity. }
  destruct X as [-> ->]. replace (Z.odd (Z.b2z s)) with s by (destruct s; reflexivity). reflexivity.
Qed.

Lemma c21_outside : forall x s v, wf x -> bval x = VNum s v ->
  let few := exists K c, v = (IZR K * p2 c)%R /\ Z.abs K < 2 ^ 64 in
  let '(f, a) := Float80x86.NewFromBig x in
  let q := x87 (Float80x86.se f) (Float80x86.m f) in
  ((p2 16384 <= Rabs v)%R -> (acc_ok a q v <-> match q with
    | VNum _ _ => few <-> s = true
    | VInf _ => (few <-> s = false) /\ (few -> (p2 16385 <= Rabs v)%R)
    | VNaN _ => False
    end)) /\
  ((0 < Rabs v < p2 (-16445))%R -> (acc_ok a q v <-> s = true)).
Proof.
  intros x s v W B few. destruct (Req_dec v 0) as [V0|V0].
  { destruct (Float80x86.NewFromBig x) as [f a]. subst v. cbv zeta. rewrite Rabs_R0. split; intros H; [pose proof (p2_pos 16384); lra|lra]. }
  destruct (mag_ex v V0) as (k & Hk). destruct (c21_all x s v k W B Hk) as (se & m & a & E & A1 & _ & A3). pose proof (sign_val x s v W B V0) as Hs. pose proof (few_floor v k 63 ltac:(lia) Hk) as Hfew. change (63 + 1) with 64 in Hfew. fold few in Hfew.
  rewrite E. cbn [Float80x86.se Float80x86.m]. cbv zeta. split; intros H.
  - apply (big_k v k 16384 Hk) in H. destruct (A1 ltac:(lia)) as (Ese & Em & Ex & In). pose proof (floor_mant v k 63 ltac:(lia) Hk) as Fm. rewrite <- Hfew in Ex, In. rewrite <- Em in Fm. change (2 ^ (63 + 1)) with (2 ^ 64) in Fm. clear A1 A3 E.
    pose proof (Z.mod_pos_bound (k + 16383) (2 ^ 15) ltac:(lia)) as RE. rewrite Ese, (x87_parts s _ m RE).
    rewrite (acc_big few s v a _ (16385 <=? k)).
    + destruct (_ =? 2 ^ 15 - 1); [|reflexivity]. destruct (m =? 2 ^ 63); [|reflexivity]. rewrite (big_k v k 16385 Hk). rewrite Z.leb_le. reflexivity.
    + rewrite Hfew. apply Rdec.
    + exact Hs.
    + destruct (Z.eqb_spec ((k + 16383) mod 2 ^ 15) (2 ^ 15 - 1)) as [X|X]; [destruct (m =? 2 ^ 63); [reflexivity|exact I]|]. split; [reflexivity|]. split.
      * apply Rlt_le_trans with (p2 16384); [|apply (big_k v k 16384 Hk); exact H]. assert (N : (0 <= IZR m)%R) by (apply (IZR_le 0); lia). set (c := Z.max _ 1 - 16446). pose proof (p2_pos c) as Pc.
        replace (Rabs (sgnR s (IZR m * p2 c))) with (IZR m * p2 c)%R by (destruct s; cbn [sgnR]; rewrite ?Rabs_Ropp, Rabs_pos_eq by nra; reflexivity).
        apply Rlt_le_trans with (IZR (2 ^ 64) * p2 c)%R; [apply Rmult_lt_compat_r; [exact Pc|apply IZR_lt; lia]|]. rewrite IZR_pow2, <- p2_plus by lia. apply p2_le. unfold c. lia.
      * intros Y. rewrite (Ex Y). destruct (Z.ltb_spec k 16385); [|reflexivity]. exfalso. apply X. replace k with 16384 by lia. reflexivity.
    + intros X. rewrite (Ex X). destruct (Z.ltb_spec k 16385), (Z.leb_spec 16385 k); try lia; reflexivity.
    + exact In.
  - assert (K : k < -16445) by (apply Z.nle_gt; intros C; apply (big_k v k (-16445) Hk) in C; lra). destruct (A3 K) as (Ese & Em & Ea).
    replace se with ((if s then 2 ^ 15 else 0) + 0) by lia. rewrite x87_parts by lia. change (0 =? 2 ^ 15 - 1) with false. cbv iota. change (Z.max 0 1 - 16446) with (-16445). rewrite Em.
    rewrite (acc_tiny s v a _ (p2 (-16445))); [|exact Hs|apply H|exact Ea|apply low_val; lia].
    pose proof (p2_pos (-16445)) as Pc. assert (0 < IZR (2 ^ 63 - 1))%R by (apply (IZR_lt 0); lia). destruct s; cbn [sgnR]; split; intros Q; try reflexivity; try discriminate.
    + split; [intros Z; exfalso; nra|discriminate].
    + exfalso. pose proof (proj2 Q eq_refl). nra.
Qed.

(** * float128ppc, whose accuracy is always Exact *)
Lemma mult_fits v : fits 52 11 v -> exists K, v = (IZR K * p2 (-1074))%R.
Proof.
  intros [(M & c & E & HM & Hc) _]. change (2 - 2 ^ (11 - 1) - 52) with (-1074) in Hc. exists (M * 2 ^ (c + 1074)). rewrite E, mult_IZR, IZR_pow2 by lia. rewrite Rmult_assoc, <- p2_plus. do 2 f_equal. lia.
Qed.

Lemma c27_exactly : forall x s v, wf x -> bval x = VNum s v ->
  (Rabs (rn 52 11 (rnd_prec (rmode x) 106 v)) < p2 1024)%R ->
  exists h l x' s1 v1 s2 v2, Float128ppc.NewFromBig x = Ret (Float128ppc.mkFloat h l, BigFloat.Exact, x') /\
    ieee 52 11 h = VNum s1 v1 /\ ieee 52 11 l = VNum s2 v2 /\
    (acc_ok BigFloat.Exact (VNum s (v1 + v2)) v <->
     (exists K c, v = (IZR K * p2 c)%R /\ Z.abs K < 2 ^ 106) /\ (exists K, v = (IZR K * p2 (-1074))%R)).
Proof.
  intros x s v W B Hr. destruct (Req_dec v 0) as [V0|V0].
  - destruct (ClaimsTrip.c78_ppc x s v W B Hr) as (h & l & x' & s1 & v1 & s2 & v2 & z & z' & E & _ & _ & E1 & E2 & _ & Ey & _); [right; exists 0; rewrite V0; ring|].
    exists h, l, x', s1, v1, s2, v2. split; [exact E|]. split; [exact E1|]. split; [exact E2|]. cbn [acc_ok]. rewrite Ey, V0, ClaimsMono.rnd_prec_0. split; [|reflexivity]. intros _. split; [exists 0, 0; split; [ring|reflexivity]|exists 0; ring].
  - destruct (FactsPpc.NewFromBig_num x s v W B V0 Hr) as (h & l & t & E & Hh & Hl & Vh & Vl & _).
    eexists h, l, _, _, _, _, _. split; [exact E|]. split; [exact Vh|]. split; [exact Vl|]. cbn [acc_ok].
    assert (X : (exists K, v = (IZR K * p2 (-1074))%R) -> (rn 52 11 (rnd_prec (rmode x) 106 v) + rn 52 11 (rnd_prec (rmode x) 106 v - rn 52 11 (rnd_prec (rmode x) 106 v)) = rnd_prec (rmode x) 106 v)%R).
    { intros HK. destruct (ClaimsTrip.c78_ppc x s v W B Hr (or_intror HK)) as (h' & l' & x' & s1 & v1 & s2 & v2 & z & z' & E' & _ & _ & E1 & E2 & _ & Ey & _).
      rewrite E in E'. injection E' as <- <- _. rewrite Vh in E1. rewrite Vl in E2. apply VNum_inj in E1, E2. destruct E1 as [_ <-], E2 as [_ <-]. exact Ey. }
    split.
    + intros Es. assert (HK : exists K, v = (IZR K * p2 (-1074))%R).
      { destruct (mult_fits _ (proj1 (fits_ieee 52 11 h _ _ ltac:(lia) ltac:(lia) Hh Vh))) as (K1 & X1). destruct (mult_fits _ (proj1 (fits_ieee 52 11 l _ _ ltac:(lia) ltac:(lia) Hl Vl))) as (K2 & X2).
        exists (K1 + K2). rewrite <- Es, X1 at 1. rewrite X2, plus_IZR. ring. }
      split; [|exact HK]. rewrite (X HK) in Es. destruct (ClaimsCalls.rnd_short (rmode x) v) as (m & e & Em & Hm). exists m, e. split; [congruence|exact Hm].
    + intros [F HK]. rewrite (X HK). apply ClaimsCalls.short_rnd. exact F.
Qed.

Definition number (s : bool) (m e : Z) : BigFloat.bigfloat := BigFloat.mkBF 120 BigFloat.ToNearestEven BigFloat.Exact s (Finite m e).

Lemma acc_example s m e : 0 < m < 2 ^ 120 -> -1000000 < e < 1000000 -> wf (number s m e) /\ bval (number s m e) = VNum s (sgnR s (IZR m * p2 e)).
Proof.
  intros Hm He. split; [|reflexivity]. apply Claims16.fin_wf; [unfold MaxPrec; lia|exact Hm|]. unfold gexp. assert (1 <= bitlen m <= 120); [|unfold MinExp, MaxExp; lia].
  split; [apply bitlen_pos; lia|apply bitlen_le_lt; lia].
Qed.
