(** C82: how much shifting twice and shifting once differ where digits are lost. *)
From Coq Require Import ZArith Lia Bool List Reals Lra.
From Flocq Require Import Core.
From Verif Require Import GoBase Spec SpecText SpecDec BitFacts RoundFacts DecFacts ClaimsDec ClaimsDec2.
From Verif Require Decimal.
Open Scope Z_scope.

Lemma eps_range : (0 < 1 - p10 (-799) < 1)%R.
Proof.
  pose proof (p10_pos (-799)). pose proof (bpow_lt radix10 (-799) 0 ltac:(lia)) as L. change (p10 (-799) < 1)%R in L. lra.
Qed.

Lemma pow_anti (r : R) n m : (0 < r < 1)%R -> (n <= m)%nat -> (r ^ m <= r ^ n)%R.
Proof.
  intros H L. replace m with (n + (m - n))%nat by lia. rewrite pow_add. pose proof (pow_lt r n (proj1 H)). assert (r ^ (m - n) <= 1)%R.
  { clear -H. induction (m - n)%nat as [|q IH]; [cbn; lra|]. cbn [pow]. pose proof (pow_lt r q (proj1 H)). nra. }
  nra.
Qed.

Lemma c82_near : forall w a j k b c, w = 32 \/ w = 64 -> dnorm a ->
  Decimal.Shift w a j = Ret b -> Decimal.Shift w b k = Ret c ->
  exists c', Decimal.Shift w a (j + k) = Ret c' /\ dnorm c /\ dnorm c' /\
    (Decimal.trunc c' = true -> Decimal.trunc c = true) /\
    (Decimal.trunc c = true <-> Decimal.trunc a = true \/ (dval c < dval a * p2 (j + k))%R) /\
    (Decimal.trunc c' = true <-> Decimal.trunc a = true \/ (dval c' < dval a * p2 (j + k))%R) /\
    (Rabs (dval c - dval c') <= dval a * p2 (j + k) * (1 - (1 - p10 (-799)) ^ Z.to_nat (Z.abs j / (w - 4) + Z.abs k / (w - 4) + 4)))%R.
Proof.
  intros w a j k b c Hw Na HB HC. destruct (c40_trunc w a j Hw Na) as (b' & HB' & Nb & Tb & Vb). rewrite HB in HB'. injection HB' as <-.
  destruct (c40_trunc w b k Hw Nb) as (c0 & HC' & Nc & Tc & Vc). rewrite HC in HC'. injection HC' as <-.
  destruct (c40_trunc w a (j + k) Hw Na) as (c' & E & Nc' & Tc' & Vc'). exists c'. split; [exact E|]. split; [exact Nc|]. split; [exact Nc'|].
  assert (TT : Decimal.trunc c' = true -> Decimal.trunc c = true).
  { intros T. destruct (Decimal.trunc c) eqn:G; [reflexivity|]. pose proof (c82_add w a j k b c Hw Na HB HC G) as E'. rewrite E in E'. congruence. }
  split; [exact TT|].
  pose proof (bpow_gt_0 radix2 j) as Pj. pose proof (bpow_gt_0 radix2 k) as Pk. change (0 < p2 j)%R in Pj. change (0 < p2 k)%R in Pk.
  pose proof (dval_nonneg a Na) as A0. pose proof (dval_nonneg b Nb) as B0. rewrite p2_plus in *. set (V := (dval a * (p2 j * p2 k))%R) in *.
  assert (VB : (dval b * p2 k <= V)%R) by (unfold V; destruct Vb as [_ U]; nra).
  split; [|split; [exact Tc'|]].
  - rewrite Tc, Tb. split.
    + intros [[T|L]|L]; [left; exact T| |]; right; [|lra]. apply Rle_lt_trans with (1 := proj2 Vc). unfold V. nra.
    + intros [T|L]; [left; left; exact T|]. destruct (Rlt_le_dec (dval b) (dval a * p2 j)) as [L'|L']; [left; right; exact L'|right]. apply Rlt_le_trans with (1 := L). unfold V. nra.
  - set (q := w - 4) in *. assert (Q : 0 < q) by (unfold q; destruct Hw as [-> | ->]; lia). set (r := (1 - p10 (-799))%R) in *. pose proof eps_range as R0. fold r in R0.
    pose proof (Z_div_pos (Z.abs j) q ltac:(lia) ltac:(lia)) as D1. pose proof (Z_div_pos (Z.abs k) q ltac:(lia) ltac:(lia)) as D2.
    assert (D3 : Z.abs (j + k) / q <= Z.abs j / q + Z.abs k / q + 1).
    { apply Z.lt_succ_r. apply Z.div_lt_upper_bound; [lia|]. pose proof (Z.mul_succ_div_gt (Z.abs j) q Q). pose proof (Z.mul_succ_div_gt (Z.abs k) q Q). lia. }
    assert (D4 : 0 <= Z.abs (j + k) / q) by (apply Z_div_pos; lia).
    set (n := Z.to_nat (Z.abs j / q + Z.abs k / q + 4)). set (n1 := Z.to_nat (Z.abs j / q + 2)) in *. set (n2 := Z.to_nat (Z.abs k / q + 2)) in *.
    assert (En : (r ^ n = r ^ n1 * r ^ n2)%R) by (rewrite <- pow_add; f_equal; unfold n, n1, n2; lia).
    assert (V0 : (0 <= V)%R) by (unfold V; apply Rmult_le_pos; [exact A0|]; apply Rmult_le_pos; lra).
    pose proof (pow_lt r n1 (proj1 R0)) as P1. pose proof (pow_lt r n2 (proj1 R0)) as P2.
    assert (LC : (V * r ^ n <= dval c)%R).
    { apply Rle_trans with (2 := proj1 Vc). rewrite En, <- Rmult_assoc. apply Rmult_le_compat_r; [lra|]. replace (V * r ^ n1)%R with (dval a * p2 j * r ^ n1 * p2 k)%R by (unfold V; ring). apply Rmult_le_compat_r; [lra|]. apply Vb. }
    assert (LC' : (V * r ^ n <= dval c')%R).
    { apply Rle_trans with (2 := proj1 Vc'). apply Rmult_le_compat_l; [exact V0|]. apply pow_anti; [exact R0|unfold n; lia]. }
    destruct Vc as [_ Uc]. destruct Vc' as [_ Uc']. apply Rabs_le. lra.
Qed.

Definition a800 : Decimal.decimal := Decimal.mkDec (1 :: repeat 0 798 ++ 5 :: nil) 1 false.

Lemma c82_near_example : dnorm a800 /\ exists b c, Decimal.Shift 64 a800 (-2) = Ret b /\ Decimal.Shift 64 b 2 = Ret c /\
  Decimal.Shift 64 a800 (-2 + 2) = Ret a800 /\ Decimal.trunc c = true /\ Decimal.d c = 1 :: repeat 0 798 ++ 4 :: nil.
Proof.
  split.
  - unfold dnorm, a800. cbn [Decimal.d Decimal.dp]. split; [|split; [|split]].
    + apply Forall_forall. intros x Hx. destruct Hx as [<-|Hx]; [lia|]. apply in_app_or in Hx. destruct Hx as [Hx|[<-|[]]]; [apply repeat_spec in Hx; lia|lia].
    + vm_compute. discriminate.
    + vm_compute. discriminate.
    + vm_compute. intuition congruence.
  - do 2 eexists. split; [vm_compute; reflexivity|]. split; [vm_compute; reflexivity|]. split; [vm_compute; reflexivity|]. split; vm_compute; reflexivity.
Qed.
