(** Numbers that are exact for a format are exact for the wider ones. *)
From Coq Require Import ZArith Lia Bool List Reals Lra.
From Flocq Require Import Core.
From Verif Require Import GoBase Spec BitFacts RoundFacts BigFacts BigFacts2 SpecDec SpecFtoa FloatMid PkgExact ClaimsFloat ClaimsFloat2.
From Verif Require BigFloat.
From Verif Require Import FloatPkg SpecFmt.
Open Scope Z_scope.

(** What a wide format rounds to a narrow float, the narrow format rounds to it, too. *)
Lemma rn_nested mb eb mb' eb' u z : 1 <= mb -> mb + 2 <= mb' -> 2 <= eb -> eb < eb' -> (0 <= u)%R -> fits mb eb u ->
  rn mb' eb' z = u -> rn mb eb z = u.
Proof.
  intros Hm Hm' He He' U F R. pose proof (rn_close mb' eb' u z ltac:(lia) R) as C.
  assert (P2 : 2 * 2 ^ (eb - 1) <= 2 ^ (eb' - 1)) by (rewrite <- Z.pow_succ_r by lia; apply Z.pow_le_mono_r; lia).
  pose proof (pow2_pos (eb - 1) ltac:(lia)) as P3.
  destruct (fits_parts mb eb u Hm He U F) as (mt & e & Hp & E).
  assert (Pm : 0 <= mt < 2 ^ (mb + 1)).
  { pose proof (pow2_pos mb ltac:(lia)). assert (2 ^ (mb + 1) = 2 ^ mb * 2) by (rewrite Z.pow_add_r by lia; reflexivity). destruct Hp as [[? ?]|[? ?]]; lia. }
  assert (PX : 2 - 2 ^ (eb - 1) - mb <= e - mb) by (destruct Hp as [[? ?]|[? ?]]; lia).
  set (X := e - mb) in *.
  assert (UL : (ulp radix2 (fx mb' eb') u <= p2 (X - 2))%R).
  { destruct (Req_dec u 0) as [->|N].
    - assert (V : Valid_exp (fx mb' eb')) by (apply FLT_exp_valid; unfold Prec_gt_0; lia).
      unfold fx. rewrite ulp_FLT_0 by (unfold Prec_gt_0; lia). apply bpow_le. lia.
    - rewrite ulp_neq_0 by exact N. apply bpow_le. unfold cexp, fx, FLT_exp.
      assert (mag radix2 u <= X + mb + 1).
      { apply mag_le_bpow; [exact N|]. rewrite Rabs_pos_eq by exact U. rewrite E. change (bpow radix2 (X + mb + 1)) with (p2 (X + mb + 1)).
        replace (X + mb + 1) with (mb + 1 + X) by lia. rewrite p2_plus. apply Rmult_lt_compat_r; [apply p2_pos|]. rewrite <- IZR_pow2 by lia. apply IZR_lt. lia. }
      lia. }
  assert (E2 : (p2 (X - 2) = p2 X / 4)%R) by (replace (X - 2) with (X - 1 - 1) by lia; rewrite !p2_half; lra).
  pose proof (p2_pos X) as QX. apply Rabs_le_inv in C.
  destruct (Z.eq_dec mt 0) as [->|N].
  - assert (u = 0%R) as -> by (rewrite E; ring).
    assert (EX : X = 3 - 2 ^ (eb - 1) - (mb + 1)) by (unfold X; pose proof (pow2_pos mb ltac:(lia)); destruct Hp as [[? ?]|[? ?]]; lia).
    pose proof (p2_half X) as HX.
    assert (A : (Rabs (z - IZR 0 * p2 X) < p2 (X - 1))%R) by (rewrite Rmult_0_l; apply Rabs_lt; lra).
    destruct (Req_dec z 0) as [->|NZ]; [apply rn_0|].
    rewrite (round_parts mb eb X 0 z); [ring| |lra|left; exact A].
    rewrite Rmult_0_l, Rminus_0_r in A. unfold cexp, fx, FLT_exp.
    assert (mag radix2 z <= X - 1) by (apply mag_le_bpow; [exact NZ|exact A]). lia.
  - rewrite E. apply (reads_back mb eb Hm He mt e (parts_weaken _ _ _ _ Hp) ltac:(lia)).
    + rewrite (mid_hi_val mb eb Hm He mt e (parts_weaken _ _ _ _ Hp) ltac:(lia)), (mid_lo_val mb eb Hm He mt e (parts_weaken _ _ _ _ Hp) ltac:(lia)).
      fold X. rewrite <- E. pose proof (p2_half X). destruct (_ && _); lra.
    + left. rewrite (mid_hi_val mb eb Hm He mt e (parts_weaken _ _ _ _ Hp) ltac:(lia)), (mid_lo_val mb eb Hm He mt e (parts_weaken _ _ _ _ Hp) ltac:(lia)).
      fold X. rewrite <- E. pose proof (p2_half X). destruct (_ && _); lra.
Qed.

Lemma fewest_nested mb eb mb' eb' u : 1 <= mb -> mb + 2 <= mb' -> 2 <= eb -> eb < eb' -> (0 <= u)%R -> fits mb eb u ->
  fewest_digits mb eb u u -> fewest_digits mb' eb' u u.
Proof. intros Hm Hm' He He' U F W z n R S. apply (W z n); [|exact S]. apply (rn_nested mb eb mb' eb'); assumption. Qed.

Lemma fits_10_23 u : fits 10 5 u -> fits 23 8 u.
Proof.
  intros [(M & c & EM & HM & Hc) Hu]. change (2 ^ (10 + 1)) with 2048 in HM. change (2 - 2 ^ (5 - 1) - 10) with (-24) in Hc.
  split; [exists M, c; split; [exact EM|]; split; [change (2 ^ (23 + 1)) with 16777216; lia|cbn; lia]|]. apply Rlt_le_trans with (1 := Hu). apply p2_le. cbn. lia.
Qed.

Lemma c85_32 w opt x : w = 32 \/ w = 64 -> wf x -> IsExact32 w opt x = Ret true -> IsExact64 w opt x = Ret true.
Proof.
  intros Hw Wx H. apply c65_32 in H; [|exact Hw|exact Wx]. destruct H as (s & u & B & F & D).
  apply c65_64; [exact Hw|exact Wx|]. exists s, u. split; [exact B|]. split; [apply fits_23_52; exact F|].
  destruct (bval_neg x s u Wx B) as [_ Eu].
  apply (fewest_nested 23 8 52 11); try lia; [apply Rabs_pos|apply (fits_abs 23 8 s); assumption|exact D].
Qed.

Lemma c85_16 w opt x : w = 32 \/ w = 64 -> wf x -> IsExact16 w opt x = Ret true -> IsExact32 w opt x = Ret true.
Proof.
  intros Hw Wx H. destruct (bval x) as [s|s|s u] eqn:B.
  - unfold bval in B. destruct (BigFloat.frm x); discriminate.
  - destruct (inf_panics w opt x s Hw Wx B) as (_ & _ & P). rewrite P in H. discriminate.
  - destruct (bval_neg x s u Wx B) as [_ Eu].
    destruct (true16 w opt x s u Hw Wx B H) as (F & R & D & S5).
    destruct (sound16 (Rabs u) (Rabs_pos u) (fits_abs 52 11 s u Eu F) R D S5) as [F16|(N & EN & HN)].
    + apply c65_32; [exact Hw|exact Wx|]. exists s, u. split; [exact B|].
      assert (Fu : fits 10 5 u).
      { destruct F16 as [(M & c & E & HM & Hc) Hu]. rewrite Rabs_Rabsolu in Hu. split; [|exact Hu].
        destruct s; cbn [sgnR] in Eu; [exists (- M), c; rewrite Eu, opp_IZR, E; split; [ring|lia]|exists M, c; rewrite Eu, E; auto]. }
      split; [apply fits_10_23; exact Fu|]. apply (fewest_nested 10 5 23 8); try lia; [apply Rabs_pos|exact F16|].
      rewrite fits_rn in D by (lia || exact F16). exact D.
    + assert (I : exists K, u = IZR K /\ Z.abs K < 2 ^ 24).
      { destruct s; cbn [sgnR] in Eu; [exists (- N)|exists N]; rewrite Eu, EN, ?opp_IZR; split; try reflexivity; change (2 ^ 24) with 16777216; lia. }
      destruct I as (K & EK & HK).
      assert (Fu : fits 23 8 u) by (rewrite EK; apply fits_int; try lia; exact HK).
      pose proof (ToFloat_val 23 8 x ltac:(lia) ltac:(lia) ltac:(vm_compute; discriminate) Wx) as T.
      destruct (BigFloat.ToFloat 23 8 x) as [b a]. rewrite B in T. destruct T as (Hb & Tb & _).
      apply (c32_32 w opt x s u b); auto.
      * rewrite Tb, B. unfold ieee_round. rewrite (fits_rn 23 8 u ltac:(lia) Fu), Rle_bool_false by (apply Fu). reflexivity.
      * right. exists K. auto.
Qed.

Lemma c85 : forall w opt x, w = 32 \/ w = 64 -> wf x ->
  (IsExact16 w opt x = Ret true -> IsExact32 w opt x = Ret true) /\
  (IsExact32 w opt x = Ret true -> IsExact64 w opt x = Ret true).
Proof. intros w opt x Hw Wx. split; [apply c85_16|apply c85_32]; assumption. Qed.
