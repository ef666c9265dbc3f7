(** The arithmetic inside SetString of GenText.v: Mul, Quo and pow5. *)
From Coq Require Import ZArith Reals Lia Lra Bool List.
From Flocq Require Import Core Relative.
From Verif Require Import GoBase.
From Verif Require BigFloat.
From Verif Require Import Spec BitFacts RoundFacts BigFacts BigFacts2 BigFacts3 PkgFacts GenText.
Import BigFloat (bitlen, gexp, prec, rmode, acc, neg, frm, Finite, MaxExp, MinExp, MaxPrec).
Open Scope Z_scope.

Lemma p2_0 : p2 0 = 1%R.
Proof. reflexivity. Qed.

(** x is y up to a factor 1+t. *)
Definition near (t x y : R) : Prop := (0 < x /\ 0 < y /\ x <= y * (1 + t) /\ y <= x * (1 + t))%R.

Lemma near_le t t' x y : (t <= t')%R -> near t x y -> near t' x y.
Proof. intros H (A & B & C & D). repeat split; try assumption; nra. Qed.

Lemma near_refl x : (0 < x)%R -> near 0 x x.
Proof. intros H. repeat split; lra. Qed.

Lemma near_mult t t' x y x' y' : (0 <= t)%R -> (0 <= t')%R -> near t x y -> near t' x' y' -> near (t + t' + t * t') (x * x') (y * y').
Proof.
  intros T T' (A & B & C & D) (A' & B' & C' & D'). repeat split; [nra|nra| |].
  - replace (y * y' * (1 + (t + t' + t * t')))%R with ((y * (1 + t)) * (y' * (1 + t')))%R by ring. apply Rmult_le_compat; lra.
  - replace (x * x' * (1 + (t + t' + t * t')))%R with ((x * (1 + t)) * (x' * (1 + t')))%R by ring. apply Rmult_le_compat; lra.
Qed.

Lemma near_trans t t' x y z : (0 <= t)%R -> (0 <= t')%R -> near t x y -> near t' y z -> near (t + t' + t * t') x z.
Proof.
  intros T T' (A & B & C & D) (A' & B' & C' & D'). repeat split; [lra|lra| |].
  - replace (z * (1 + (t + t' + t * t')))%R with ((z * (1 + t')) * (1 + t))%R by ring. apply Rle_trans with (1 := C). apply Rmult_le_compat_r; lra.
  - replace (x * (1 + (t + t' + t * t')))%R with ((x * (1 + t)) * (1 + t'))%R by ring. apply Rle_trans with (1 := D'). apply Rmult_le_compat_r; lra.
Qed.

Lemma near_div t a x y : (0 < a)%R -> near t x y -> near t (a / x) (a / y).
Proof.
  intros H (A & B & C & D). unfold Rdiv. pose proof (Rinv_0_lt_compat x A). pose proof (Rinv_0_lt_compat y B).
  repeat split; [nra|nra| |]; rewrite Rmult_assoc; apply Rmult_le_compat_l; try lra.
  - apply Rmult_le_reg_l with x; [lra|]. rewrite Rinv_r by lra. apply Rmult_le_reg_l with y; [lra|]. rewrite Rmult_1_r.
    replace (y * (x * (/ y * (1 + t))))%R with (x * (1 + t) * (y * / y))%R by ring. rewrite Rinv_r by lra. lra.
  - apply Rmult_le_reg_l with y; [lra|]. rewrite Rinv_r by lra. apply Rmult_le_reg_l with x; [lra|]. rewrite Rmult_1_r.
    replace (x * (y * (/ x * (1 + t))))%R with (y * (1 + t) * (x * / x))%R by ring. rewrite Rinv_r by lra. lra.
Qed.

Lemma near_rnd p x : 0 < p -> (0 < x)%R -> near (p2 (- p)) (rnd_prec BigFloat.ToNearestEven p x) x.
Proof.
  intros Hp Hx. unfold rnd_prec. cbn [mode_rnd].
  pose proof (relative_error_N_FLX radix2 p Hp (fun n => negb (Z.even n)) x) as A.
  pose proof (relative_error_N_FLX_round radix2 p Hp (fun n => negb (Z.even n)) x) as B.
  assert (E : (/ 2 * bpow radix2 (- p + 1) = p2 (- p))%R) by (change (bpow radix2) with p2; rewrite p2_plus; change (p2 1) with 2%R; field).
  rewrite E in A, B. set (r := round radix2 (FLX_exp p) ZnearestE x) in *. rewrite (Rabs_pos_eq x) in A by lra.
  pose proof (p2_pos (- p)). assert (p2 (- p) < 1)%R by (change 1%R with (p2 0); apply p2_lt; lia).
  apply Rabs_le_inv in A. assert (R0 : (0 < r)%R) by nra. rewrite (Rabs_pos_eq r) in B by lra. apply Rabs_le_inv in B.
  repeat split; try assumption; nra.
Qed.

(** A positive number of P bits. *)
Definition pos (P : Z) (z : BigFloat.bigfloat) (r : R) : Prop :=
  wf z /\ prec z = P /\ rmode z = BigFloat.ToNearestEven /\ bval z = VNum false r /\ (0 < r)%R.

Lemma pos_parts P z r : pos P z r -> exists m e, frm z = Finite m e /\ 0 < m /\ neg z = false /\ r = (IZR m * p2 e)%R.
Proof.
  intros ([_ W] & _ & _ & B & R0). unfold bval in B. destruct (frm z) as [|m e|].
  - injection B as _ B. destruct (neg z); cbn [sgnR] in B; lra.
  - exists m, e. destruct W as [W _]. assert (N : neg z = false) by congruence. rewrite N in B. cbn [sgnR] in B. injection B as <-. auto.
  - discriminate.
Qed.

Lemma Mul_any P z x y m1 e1 m2 e2 : prec z = P -> rmode z = BigFloat.ToNearestEven -> 0 < P <= MaxPrec ->
  frm x = Finite m1 e1 -> frm y = Finite m2 e2 -> 0 < m1 -> 0 < m2 ->
  let v := (IZR m1 * p2 e1 * (IZR m2 * p2 e2))%R in (p2 (-20000) <= v <= p2 20000)%R ->
  let s := xorb (neg x) (neg y) in
  wf (Mul z x y) /\ prec (Mul z x y) = P /\ rmode (Mul z x y) = BigFloat.ToNearestEven /\
  bval (Mul z x y) = VNum s (rnd_prec BigFloat.ToNearestEven P (sgnR s v)).
Proof.
  intros HP Hr HP' Fx Fy M1 M2 v [V1 V2] s. unfold Mul. rewrite Fx, Fy.
  assert (Ev : (IZR (m1 * m2) * p2 (e1 + e2))%R = v) by (unfold v; rewrite mult_IZR, p2_plus; ring).
  pose proof (p2_pos (-20000)).
  assert (Av : Rabs (sgnR s v) = v) by (destruct s; cbn [sgnR]; rewrite ?Rabs_Ropp; apply Rabs_pos_eq; lra).
  pose proof (setExpAndRound_correct (BigFloat.mkBF (prec z) (rmode z) (acc z) s BigFloat.Zero) (m1 * m2) (e1 + e2) ltac:(nia)) as K.
  cbn [neg prec rmode] in K. rewrite Ev, Av in K. cbv zeta in K.
  destruct (K ltac:(lia) V2) as (A & B & C & D & _).
  { apply Rle_trans with (2 := V1). apply p2_le. unfold MinExp. lia. }
  fold s. rewrite HP, Hr in *. split; [exact A|]. split; [exact C|]. split; [exact D|exact B].
Qed.

Lemma Mul_pos P Q S z x y a b : prec z = P -> rmode z = BigFloat.ToNearestEven -> 0 < P <= MaxPrec -> pos Q x a -> pos S y b ->
  (p2 (-20000) <= a * b <= p2 20000)%R -> exists r, pos P (Mul z x y) r /\ near (p2 (- P)) r (a * b).
Proof.
  intros HP Hr HP' Hx Hy Hv. destruct (pos_parts _ _ _ Hx) as (m1 & e1 & F1 & M1 & N1 & E1). destruct (pos_parts _ _ _ Hy) as (m2 & e2 & F2 & M2 & N2 & E2).
  destruct (Mul_any P z x y m1 e1 m2 e2 HP Hr HP' F1 F2 M1 M2) as (A & B & C & D); [rewrite <- E1, <- E2; exact Hv|].
  rewrite N1, N2, <- E1, <- E2 in D. cbn [xorb sgnR] in D.
  assert (AB : (0 < a * b)%R) by (apply Rmult_lt_0_compat; [apply Hx|apply Hy]).
  pose proof (near_rnd P (a * b) ltac:(lia) AB) as Nr. exists (rnd_prec BigFloat.ToNearestEven P (a * b)). split; [|exact Nr].
  repeat split; try assumption; try apply A. apply Nr.
Qed.

(** The error of the loop: u is half a unit of the result z, the factors f are better. *)
Lemma loop_near fuel : forall d P Q n A B z f a b c t, P = 177 -> Q = 241 -> (Z.of_nat d <= Z.of_nat fuel) -> 0 <= n < 2 ^ Z.of_nat d ->
  0 < A -> 1 <= B -> (IZR (A * B ^ n) <= p2 19999)%R -> (IZR (B ^ (2 ^ Z.of_nat d)) <= p2 19999)%R ->
  pos P z a -> near (c * p2 (-176)) a (IZR A) -> (0 <= c)%R -> (c + 2 * IZR (Z.of_nat d) <= 1024)%R ->
  pos Q f b -> near t b (IZR B) -> (p2 (-241) <= t)%R -> (t * p2 (2 * Z.of_nat d) <= p2 (-178))%R ->
  exists r, pos P (pow5_loop fuel n z f) r /\ near ((c + 2 * IZR (Z.of_nat d)) * p2 (-176)) r (IZR (A * B ^ n)).
Proof.
  induction fuel as [|fuel IH]; intros d P Q n A B z f a b c t HP HQ Hd Hn HA HB HmaxA Hmax Hz Hna Hc Hcd Hf Hnb Ht Htd.
  - replace (Z.of_nat d) with 0 in * by lia. change (2 ^ 0) with 1 in Hn. replace n with 0 by lia. cbn [pow5_loop Z.leb Z.compare]. exists a. split; [exact Hz|].
    rewrite Z.pow_0_r, Z.mul_1_r, Rmult_0_r, Rplus_0_r. exact Hna.
  - cbn [pow5_loop]. destruct (Z.leb_spec n 0) as [L|L].
    { replace n with 0 by lia. exists a. split; [exact Hz|]. rewrite Z.pow_0_r, Z.mul_1_r. refine (near_le _ _ _ _ _ Hna).
      pose proof (p2_pos (-176)). assert (0 <= IZR (Z.of_nat d))%R by (apply IZR_le; lia). nra. }
    destruct d as [|d']; [change (2 ^ Z.of_nat 0) with 1 in Hn; lia|].
    assert (Sd : Z.of_nat (S d') = Z.of_nat d' + 1) by lia. rewrite Sd in *.
    set (u := p2 (-176)) in *. assert (U0 : (0 < u)%R) by apply p2_pos. assert (U1 : (u <= / 4096)%R).
    { replace (/ 4096)%R with (p2 (-12)) by (unfold p2; cbn; lra). apply p2_le. lia. }
    assert (P2d : (1 <= p2 (2 * Z.of_nat d'))%R) by (change 1%R with (p2 0); apply p2_le; lia).
    assert (P4 : p2 (2 * (Z.of_nat d' + 1)) = (4 * p2 (2 * Z.of_nat d'))%R) by (replace (2 * (Z.of_nat d' + 1)) with (2 + 2 * Z.of_nat d') by lia; rewrite p2_plus; f_equal).
    assert (U178 : p2 (-178) = (u / 4)%R) by (unfold u; replace (-176) with (-178 + 2) by lia; rewrite p2_plus; change (p2 2) with 4%R; field).
    assert (U177 : p2 (-177) = (u / 2)%R) by (unfold u; replace (-176) with (-177 + 1) by lia; rewrite p2_plus; change (p2 1) with 2%R; field).
    rewrite P4, U178 in Htd. pose proof (p2_pos (-241)) as T241.
    assert (Ht4 : (t <= u / 16)%R) by nra.
    assert (A1 : (1 <= IZR A)%R) by (apply IZR_le; lia). assert (B1 : (1 <= IZR B)%R) by (apply IZR_le; lia).
    assert (EB : B ^ 2 ^ (Z.of_nat d' + 1) = (B * B) ^ 2 ^ Z.of_nat d').
    { rewrite Z.pow_add_r, Z.pow_1_r, Z.mul_comm, Z.pow_mul_r by lia. rewrite (Z.pow_2_r B). reflexivity. }
    assert (PW : B * B <= (B * B) ^ 2 ^ Z.of_nat d').
    { pose proof (pow2_pos (Z.of_nat d') ltac:(lia)). rewrite <- (Z.pow_1_r (B * B)) at 1. apply Z.pow_le_mono_r; nia. }
    rewrite EB in Hmax. assert (M1 : (IZR B * IZR B <= p2 19999)%R).
    { apply Rle_trans with (2 := Hmax). rewrite <- mult_IZR. apply IZR_le. exact PW. }
    assert (M2 : (IZR A * IZR B <= p2 19999)%R).
    { apply Rle_trans with (2 := HmaxA). rewrite <- mult_IZR. apply IZR_le. apply Z.mul_le_mono_nonneg_l; [lia|]. rewrite <- (Z.pow_1_r B) at 1. apply Z.pow_le_mono_r; lia. }
    assert (E2 : p2 20000 = (2 * p2 19999)%R) by (replace 20000 with (1 + 19999) by lia; rewrite p2_plus; reflexivity).
    assert (E3 : (p2 (-20000) <= / 8)%R) by (replace (/ 8)%R with (p2 (-3)) by (unfold p2; cbn; lra); apply p2_le; lia).
    assert (D0 : (0 <= IZR (Z.of_nat d'))%R) by (apply IZR_le; lia). rewrite plus_IZR in *.
    assert (C1 : (c * u <= 1024 * / 4096)%R) by (apply Rmult_le_compat; lra).
    assert (Bh : (/ 2 <= b)%R) by (destruct Hnb as (Q1 & _ & _ & N2); assert (t <= 1)%R by lra; assert (b * (1 + t) <= b * 2)%R by (apply Rmult_le_compat_l; lra); lra).
    assert (Ah : (/ 2 <= a)%R) by (destruct Hna as (Q1 & _ & _ & N2); assert (a * (1 + c * u) <= a * 2)%R by (apply Rmult_le_compat_l; lra); lra).
    (* the square *)
    assert (Hff : exists b', pos Q (Mul f f f) b' /\ near (4 * t) b' (IZR (B * B))).
    { destruct Hf as (W & PP & RR & BB & B0). pose proof Hnb as (_ & _ & N1 & N2).
      assert (Hfp : pos Q f b) by (repeat split; try assumption; apply W).
      destruct (Mul_pos Q Q Q f f f b b PP RR ltac:(rewrite HQ; unfold MaxPrec; lia) Hfp Hfp) as (r & Pr & Nr).
      { assert (/ 4 <= b * b)%R by nra. split; [lra|]. rewrite E2. assert (b * b <= IZR B * IZR B * ((1 + t) * (1 + t)))%R by (replace (IZR B * IZR B * ((1 + t) * (1 + t)))%R with ((IZR B * (1 + t)) * (IZR B * (1 + t)))%R by ring; apply Rmult_le_compat; lra). nra. }
      exists r. split; [exact Pr|]. rewrite HQ in Nr. change (Z.opp 241) with (-241) in Nr. rewrite mult_IZR.
      pose proof (near_mult t t b _ b _ ltac:(lra) ltac:(lra) Hnb Hnb) as Nm.
      refine (near_le _ _ _ _ _ (near_trans _ _ _ _ _ _ _ Nr Nm)); [|lra|nra]. set (g := p2 (-241)) in *. assert (t <= / 65536)%R by lra. nra. }
    destruct Hff as (b' & Pb' & Nb').
    assert (Hzz : exists a', pos P (if Z.odd n then Mul z z f else z) a' /\ near ((c + 2) * u) a' (IZR (A * B ^ (n mod 2)))).
    { destruct (Z.odd n) eqn:Eo.
      - destruct Hz as (W & PP & RR & BB & B0). pose proof Hnb as (Q1 & _ & N1 & N2). pose proof Hna as (_ & _ & N3 & N4).
        assert (Hzp : pos P z a) by (repeat split; try assumption; apply W).
        destruct (Mul_pos P P Q z z f a b PP RR ltac:(rewrite HP; unfold MaxPrec; lia) Hzp Hf) as (r & Pr & Nr).
        { assert (/ 4 <= a * b)%R by nra. split; [lra|]. rewrite E2. assert (a * b <= IZR A * IZR B * ((1 + c * u) * (1 + t)))%R by (replace (IZR A * IZR B * ((1 + c * u) * (1 + t)))%R with ((IZR A * (1 + c * u)) * (IZR B * (1 + t)))%R by ring; apply Rmult_le_compat; lra).
          assert (G1 : ((1 + c * u) * (1 + t) <= 2)%R) by nra. assert (0 <= IZR A * IZR B)%R by nra. nra. }
        exists r. split; [exact Pr|]. rewrite Zodd_mod in Eo. apply Zeq_bool_eq in Eo. rewrite Eo, Z.pow_1_r, mult_IZR.
        pose proof (near_mult (c * u) t a _ b _ ltac:(nra) ltac:(lra) Hna Hnb) as Nm. rewrite HP in Nr. change (Z.opp 177) with (-177) in Nr. rewrite U177 in Nr.
        refine (near_le _ _ _ _ _ (near_trans _ _ _ _ _ _ _ Nr Nm)); [|lra|nra].
        assert (K1 : (c * u * t <= u / 16)%R) by nra. assert (K2 : (c * u + t + c * u * t <= 1)%R) by nra. nra.
      - exists a. split; [exact Hz|]. rewrite Zodd_mod in Eo. apply Zeq_bool_neq in Eo. pose proof (Z.mod_pos_bound n 2 ltac:(lia)). replace (n mod 2) with 0 by lia.
        rewrite Z.pow_0_r, Z.mul_1_r. refine (near_le _ _ _ _ _ Hna). nra. }
    destruct Hzz as (a' & Pa' & Na').
    pose proof (Z.mod_pos_bound n 2 ltac:(lia)) as Bm. pose proof (Z.div_mod n 2 ltac:(lia)) as Dm.
    assert (Hp1 : 1 <= B ^ (n mod 2)) by (pose proof (Z.pow_pos_nonneg B (n mod 2) ltac:(lia) ltac:(lia)); lia).
    assert (En : A * B ^ (n mod 2) * (B * B) ^ (n / 2) = A * B ^ n).
    { rewrite <- (Z.pow_2_r B), <- Z.pow_mul_r, <- Z.mul_assoc, <- Z.pow_add_r by (try apply Z.div_pos; lia). do 2 f_equal. lia. }
    assert (N2 : 0 <= n / 2 < 2 ^ Z.of_nat d').
    { split; [apply Z.div_pos; lia|]. apply Z.div_lt_upper_bound; [lia|]. replace (2 * 2 ^ Z.of_nat d') with (2 ^ (Z.of_nat d' + 1)); [lia|]. rewrite Z.pow_add_r by lia. lia. }
    destruct (IH d' P Q (n / 2) (A * B ^ (n mod 2)) (B * B) (if Z.odd n then Mul z z f else z) (Mul f f f) a' b' (c + 2)%R (4 * t)%R HP HQ ltac:(lia) N2) as (r & Pr & Nr);
      [nia|nia|rewrite En; exact HmaxA|exact Hmax|exact Pa'|exact Na'|lra|lra|exact Pb'|exact Nb'|lra|rewrite U178; lra|].
    exists r. split; [exact Pr|]. rewrite En in Nr. refine (near_le _ _ _ _ _ Nr). apply Req_le. ring.
Qed.

Lemma nat_pos p m : 0 < m < 2 ^ p -> 0 < p <= 1000 -> pos p (BigFloat.round (BigFloat.mkBF p BigFloat.ToNearestEven BigFloat.Exact false (Finite m 0))) (IZR m).
Proof.
  intros [Hm Hl] Hp. unfold BigFloat.round. cbn [frm prec]. assert (L : bitlen m <= p) by (unfold bitlen; pose proof (Z.log2_lt_pow2 m p Hm); lia).
  rewrite (proj2 (Z.leb_le _ _) L). unfold BigFloat.set_acc. cbn [prec rmode neg frm]. pose proof (bitlen_pos m Hm).
  split; [|split; [reflexivity|split; [reflexivity|split; [|apply IZR_lt; lia]]]].
  - split; [cbn [prec]; unfold MaxPrec; lia|]. cbn [frm prec]. split; [lia|]. split; [exists m, 0; rewrite Z.pow_0_r; lia|]. unfold gexp, MinExp, MaxExp. lia.
  - unfold bval. cbn [frm neg sgnR]. rewrite p2_0, Rmult_1_r. reflexivity.
Qed.

Lemma pow5_max n : 0 <= n <= 8220 -> (IZR (5 ^ n) <= p2 19999)%R.
Proof.
  intros Hn. apply Rle_trans with (IZR (2 ^ 19180)); [|rewrite (IZR_pow2 19180) by lia; apply p2_le; lia]. apply IZR_le.
  apply Z.le_trans with (5 ^ 8220); [apply Z.pow_le_mono_r; lia|]. replace 8220 with (3 * 2740) by lia. replace 19180 with (7 * 2740) by lia.
  rewrite !Z.pow_mul_r by lia. apply Z.pow_le_mono_l. change (5 ^ 3) with 125. change (2 ^ 7) with 128. lia.
Qed.

(** 5^n with an error of less than 2^-171. *)
Lemma pow5_near n : 0 < n <= 8218 -> exists r, pos 177 (pow5 177 n) r /\ near (p2 (-171)) r (IZR (5 ^ n)).
Proof.
  intros Hn. unfold pow5. assert (P0 : 0 < 5 ^ n) by (apply Z.pow_pos_nonneg; lia). destruct (Z.leb_spec n 27) as [L|L].
  - exists (IZR (5 ^ n)). split.
    + apply nat_pos; [|lia]. split; [exact P0|]. apply Z.le_lt_trans with (5 ^ 27); [apply Z.pow_le_mono_r; lia|reflexivity].
    + apply near_le with 0%R; [apply Rlt_le, p2_pos|]. apply near_refl, IZR_lt, P0.
  - assert (Ht : (p2 (-241) * p2 (2 * Z.of_nat 13) <= p2 (-178))%R) by (rewrite <- p2_plus; apply p2_le; cbn; lia).
    assert (Z5 : pos 177 (BigFloat.round (BigFloat.mkBF 177 BigFloat.ToNearestEven BigFloat.Exact false (Finite (5 ^ 27) 0))) (IZR (5 ^ 27))) by (apply nat_pos; [split; reflexivity|lia]).
    assert (F5 : pos 241 (BigFloat.round (BigFloat.mkBF (177 + 64) BigFloat.ToNearestEven BigFloat.Exact false (Finite 5 0))) (IZR 5)) by (apply nat_pos; [split; reflexivity|lia]).
    pose proof (fun H1 H2 H3 H4 H5 H6 H7 => loop_near 64 13 177 241 (n - 27) (5 ^ 27) 5 _ _ _ _ 0%R (p2 (-241)) eq_refl eq_refl ltac:(lia) H1 ltac:(reflexivity) ltac:(lia) H2 H3 Z5 H4 ltac:(lra) H5 F5 H6 ltac:(lra) H7) as K.
    destruct K as (r & Pr & Nr).
    + change (2 ^ Z.of_nat 13) with 8192. lia.
    + rewrite <- Z.pow_add_r by lia. apply pow5_max. lia.
    + apply pow5_max. change (2 ^ Z.of_nat 13) with 8192. lia.
    + apply near_le with 0%R; [lra|]. apply near_refl, IZR_lt. reflexivity.
    + change (IZR (Z.of_nat 13)) with 13%R. lra.
    + apply near_le with 0%R; [apply Rlt_le, p2_pos|]. apply near_refl, IZR_lt. reflexivity.
    + exact Ht.
    + exists r. split; [exact Pr|]. rewrite <- Z.pow_add_r in Nr by lia. replace (27 + (n - 27)) with n in Nr by lia. refine (near_le _ _ _ _ _ Nr).
      change (IZR (Z.of_nat 13)) with 13%R. replace (-171) with (5 + -176) by lia. rewrite p2_plus. change (p2 5) with 32%R. pose proof (p2_pos (-176)). lra.
Qed.

(** Rounding to nearest sees only on which side of the next half a number lies. *)
Lemma rnd_between p K c y y' : 0 < p -> 2 ^ p <= K -> (IZR K * p2 c < y < IZR (K + 1) * p2 c)%R -> (IZR K * p2 c < y' < IZR (K + 1) * p2 c)%R ->
  rnd_prec BigFloat.ToNearestEven p y = rnd_prec BigFloat.ToNearestEven p y'.
Proof.
  intros Hp HK Hy Hy'. pose proof (pow2_pos p ltac:(lia)). set (j := bitlen K - p).
  assert (K0 : 0 < K) by lia. pose proof (bitlen_spec K K0) as [B1 B2].
  assert (J : 1 <= j). { unfold j. pose proof (bitlen_pos K K0). assert (p < bitlen K); [|lia]. apply (Z.pow_lt_mono_r_iff 2); lia. }
  assert (Mg : forall t, (IZR K * p2 c < t < IZR (K + 1) * p2 c)%R -> cexp radix2 (FLX_exp p) t = c + j).
  { intros t [T1 T2]. rewrite (cexp_fexp_pos radix2 (FLX_exp p) t (bitlen K + c)); [unfold FLX_exp, j; lia|]. change (bpow radix2) with p2. split.
    - apply Rle_trans with (IZR K * p2 c)%R; [|lra]. replace (bitlen K + c - 1) with (bitlen K - 1 + c) by lia. rewrite p2_plus. apply Rmult_le_compat_r; [apply Rlt_le, p2_pos|].
      rewrite <- IZR_pow2 by lia. apply IZR_le, B1.
    - apply Rlt_le_trans with (1 := T2). rewrite p2_plus. apply Rmult_le_compat_r; [apply Rlt_le, p2_pos|]. rewrite <- IZR_pow2 by lia. apply IZR_le. lia. }
  pose proof (Z.div_mod K (2 ^ j) ltac:(pose proof (pow2_pos j ltac:(lia)); lia)) as Dm. pose proof (Z.mod_pos_bound K (2 ^ j) (pow2_pos j ltac:(lia))) as Bm.
  set (a := K / 2 ^ j) in *. set (r := K mod 2 ^ j) in *.
  assert (Sc : forall t, (IZR K * p2 c < t < IZR (K + 1) * p2 c)%R -> ZnearestE (scaled_mantissa radix2 (FLX_exp p) t) = if r <? 2 ^ (j - 1) then a else a + 1).
  { intros t Ht. unfold scaled_mantissa. rewrite (Mg t Ht). change (bpow radix2) with p2. set (x := (t * p2 (- (c + j)))%R).
    assert (X : (IZR a + IZR r * p2 (- j) < x < IZR a + IZR (r + 1) * p2 (- j))%R).
    { assert (E : forall k, (IZR a + IZR (r + k) * p2 (- j) = IZR (K + k) * p2 c * p2 (- (c + j)))%R).
      { intros k. replace (K + k) with (2 ^ j * a + (r + k)) by lia. rewrite (plus_IZR (2 ^ j * a)), mult_IZR, IZR_pow2 by lia. rewrite Rmult_assoc, <- p2_plus. replace (c + - (c + j)) with (- j) by lia.
        rewrite Rmult_plus_distr_r. replace (p2 j * IZR a * p2 (- j))%R with (IZR a * (p2 j * p2 (- j)))%R by ring. rewrite <- p2_plus, Z.add_opp_diag_r, p2_0. ring. }
      pose proof (E 0) as E0. pose proof (E 1) as E1. rewrite !Z.add_0_r in E0. rewrite E0, E1. unfold x. pose proof (p2_pos (- (c + j))). split; apply Rmult_lt_compat_r; try assumption; apply Ht. }
    assert (Hh : (p2 (j - 1) * p2 (- j) = / 2)%R) by (rewrite <- p2_plus; replace (j - 1 + - j) with (-1) by lia; unfold p2; cbn; lra).
    pose proof (p2_pos (- j)) as Pj. assert (H2 : (p2 j * p2 (- j) = 1)%R) by (rewrite <- p2_plus, Z.add_opp_diag_r; apply p2_0).
    destruct (Z.ltb_spec r (2 ^ (j - 1))) as [L|L]; apply Znearest_imp.
    - assert (U : (IZR (r + 1) * p2 (- j) <= / 2)%R) by (rewrite <- Hh, <- (IZR_pow2 (j - 1)) by lia; apply Rmult_le_compat_r; [lra|apply IZR_le; lia]).
      assert (0 <= IZR r * p2 (- j))%R by (apply Rmult_le_pos; [apply IZR_le; lia|lra]). apply Rabs_def1; lra.
    - assert (U : (/ 2 <= IZR r * p2 (- j))%R) by (rewrite <- Hh, <- (IZR_pow2 (j - 1)) by lia; apply Rmult_le_compat_r; [lra|apply IZR_le; lia]).
      assert (V : (IZR (r + 1) * p2 (- j) <= 1)%R) by (rewrite <- H2, <- (IZR_pow2 j) by lia; apply Rmult_le_compat_r; [lra|apply IZR_le; lia]).
      rewrite plus_IZR. apply Rabs_def1; lra. }
  unfold rnd_prec, round. cbn [mode_rnd]. rewrite (Sc y Hy), (Sc y' Hy'), (Mg y Hy), (Mg y' Hy'). reflexivity.
Qed.

(** The quotient is rounded correctly. *)
Lemma Quo_any P z x y m1 e1 m2 e2 : prec z = P -> rmode z = BigFloat.ToNearestEven -> 0 < P <= MaxPrec ->
  frm x = Finite m1 e1 -> frm y = Finite m2 e2 -> 0 < m1 -> 0 < m2 ->
  let v := (IZR m1 * p2 e1 / (IZR m2 * p2 e2))%R in (p2 (-19999) <= v <= p2 19999)%R ->
  let s := xorb (neg x) (neg y) in
  wf (Quo z x y) /\ prec (Quo z x y) = P /\ rmode (Quo z x y) = BigFloat.ToNearestEven /\
  bval (Quo z x y) = VNum s (sgnR s (rnd_prec BigFloat.ToNearestEven P v)).
Proof.
  intros HP Hr HP' Fx Fy M1 M2 v [V1 V2] s. unfold Quo. rewrite Fx, Fy.
  set (sh := Z.max 0 (prec z + 2 + bitlen m2 - bitlen m1)). set (n := m1 * 2 ^ sh). set (q := n / m2).
  set (c := e1 - e2 - sh). pose proof (p2_pos c) as Pc. pose proof (pow2_pos sh ltac:(lia)) as Psh.
  pose proof (Z.div_mod n m2 ltac:(lia)) as Dm. pose proof (Z.mod_pos_bound n m2 M2) as Bm. fold q in Dm.
  assert (Ev : v = (IZR n / IZR m2 * p2 c)%R).
  { unfold v, n, c. rewrite mult_IZR, IZR_pow2 by lia. unfold Z.sub. rewrite !p2_plus, <- !p2_inv. field. repeat split; try (apply Rgt_not_eq, p2_pos). apply not_0_IZR; lia. }
  assert (M2r : (0 < IZR m2)%R) by (apply IZR_lt; lia).
  assert (Q2 : 2 ^ (P + 1) <= q).
  { unfold q. apply Z.div_le_lower_bound; [lia|]. pose proof (bitlen_spec m1 M1) as [B1 _]. pose proof (bitlen_spec m2 M2) as [_ B2].
    pose proof (bitlen_pos m1 M1). pose proof (bitlen_pos m2 M2).
    apply Z.le_trans with (2 ^ bitlen m2 * 2 ^ (P + 1)); [apply Z.mul_le_mono_nonneg_r; lia|]. rewrite <- Z.pow_add_r by lia.
    apply Z.le_trans with (2 ^ (bitlen m1 - 1) * 2 ^ sh); [rewrite <- Z.pow_add_r by lia; apply Z.pow_le_mono_r; lia|]. unfold n. apply Z.mul_le_mono_nonneg_r; lia. }
  pose proof (pow2_pos (P + 1) ltac:(lia)) as PP1.
  set (st := if n mod m2 =? 0 then 0 else 1).
  assert (Ec : p2 c = (2 * p2 (c - 1))%R) by (replace c with (1 + (c - 1)) at 1 by lia; rewrite p2_plus; reflexivity).
  assert (Rw : rnd_prec BigFloat.ToNearestEven P (IZR (2 * q + st) * p2 (c - 1)) = rnd_prec BigFloat.ToNearestEven P v /\ (p2 (-20000) <= IZR (2 * q + st) * p2 (c - 1) <= p2 20000)%R).
  { assert (F1 : (IZR n / IZR m2 = IZR q + IZR (n mod m2) / IZR m2)%R) by (rewrite Dm at 1; rewrite plus_IZR, mult_IZR; field; lra).
    assert (F2 : (0 <= IZR (n mod m2) / IZR m2 < 1)%R).
    { split; [apply Rmult_le_pos; [apply IZR_le; lia|apply Rlt_le, Rinv_0_lt_compat; lra]|]. apply Rmult_lt_reg_r with (IZR m2); [lra|]. unfold Rdiv. rewrite Rmult_assoc, Rinv_l, Rmult_1_r, Rmult_1_l by lra. apply IZR_lt; lia. }
    assert (q2r : (2 <= IZR q)%R) by (apply IZR_le; change 2 with (2 ^ 1); apply Z.le_trans with (2 ^ (P + 1)); [apply Z.pow_le_mono_r; lia|exact Q2]).
    rewrite Ev, F1. unfold st. destruct (Z.eqb_spec (n mod m2) 0) as [E0|E0].
    - rewrite E0. unfold Rdiv. rewrite Rmult_0_l, Rplus_0_r, Z.add_0_r, mult_IZR, Ec.
      replace (IZR 2 * IZR q * p2 (c - 1))%R with (IZR q * (2 * p2 (c - 1)))%R by ring. split; [reflexivity|]. rewrite <- Ec.
      assert (Ev' : v = (IZR q * p2 c)%R) by (rewrite Ev, F1, E0; unfold Rdiv; ring). rewrite <- Ev'. split; [apply Rle_trans with (2 := V1)|apply Rle_trans with (1 := V2)]; apply p2_le; lia.
    - assert (F3 : (0 < IZR (n mod m2) / IZR m2)%R) by (apply Rmult_lt_0_compat; [apply IZR_lt; lia|apply Rinv_0_lt_compat; lra]).
      assert (Ir : (IZR q * p2 c < IZR (2 * q + 1) * p2 (c - 1) < IZR (q + 1) * p2 c)%R).
      { rewrite Ec, !plus_IZR, mult_IZR. pose proof (p2_pos (c - 1)). nra. }
      assert (Iv : (IZR q * p2 c < (IZR q + IZR (n mod m2) / IZR m2) * p2 c < IZR (q + 1) * p2 c)%R).
      { rewrite plus_IZR. split; apply Rmult_lt_compat_r; lra. }
      split.
      + apply (rnd_between P q c); try assumption; [lia|]. apply Z.le_trans with (2 := Q2). apply Z.pow_le_mono_r; lia.
      + assert (Ev' : v = ((IZR q + IZR (n mod m2) / IZR m2) * p2 c)%R) by (rewrite Ev, F1; reflexivity). rewrite <- Ev' in Iv. replace (IZR (q + 1)) with (IZR q + 1)%R in Ir, Iv by (rewrite plus_IZR; reflexivity).
        assert (L1 : p2 (-19999) = (2 * p2 (-20000))%R) by (replace (-19999) with (1 + -20000) by lia; rewrite p2_plus; reflexivity).
        assert (L2 : p2 20000 = (2 * p2 19999)%R) by (replace 20000 with (1 + 19999) by lia; rewrite p2_plus; reflexivity).
        assert (K1 : ((IZR q + 1) * p2 c <= 2 * (IZR q * p2 c))%R) by nra. pose proof (p2_pos (-20000)). split; lra. }
  destruct Rw as [Rw [R1 R2]].
  assert (Pst : 0 < 2 * q + st) by (unfold st; destruct (_ =? 0); lia).
  pose proof (setExpAndRound_correct (BigFloat.mkBF (prec z) (rmode z) (acc z) s BigFloat.Zero) (2 * q + st) (c - 1) Pst) as K.
  cbn [neg prec rmode] in K.
  pose proof (p2_pos (-20000)). assert (Av : Rabs (sgnR s (IZR (2 * q + st) * p2 (c - 1))) = (IZR (2 * q + st) * p2 (c - 1))%R) by (destruct s; cbn [sgnR]; rewrite ?Rabs_Ropp; apply Rabs_pos_eq; lra).
  rewrite Av in K. cbv zeta in K. destruct (K ltac:(lia) R2) as (A & B & C & D & _).
  { apply Rle_trans with (2 := R1). apply p2_le. unfold MinExp. lia. }
  fold s. rewrite HP, Hr in *. split; [exact A|]. split; [exact C|]. split; [exact D|]. rewrite B. f_equal. rewrite <- Rw.
  unfold rnd_prec. cbn [mode_rnd]. destruct s; cbn [sgnR]; [apply round_NE_opp|reflexivity].
Qed.
