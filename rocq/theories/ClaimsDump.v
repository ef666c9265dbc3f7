(** Proofs about GenDump.v. *)
From Coq Require Import ZArith Reals List Bool Lia Permutation.
From Verif Require Import GoBase Spec SpecGo GenTests GenLines GenDump ClaimsGen ClaimsLines ClaimsText BitFacts.
From Verif Require BigFloat GenText.
Import ListNotations.
Open Scope Z_scope.

Local Notation len l := (Z.of_nat (length l)).

Lemma flat_len {A B : Type} (f : A -> list B) n l : (forall a, In a l -> len (f a) = n) -> len (flat_map f l) = n * len l.
Proof.
  induction l as [|a l IH]; intros H; [cbn [flat_map length]; lia|]. cbn [flat_map length]. rewrite app_length, Nat2Z.inj_add, IH by (intros; apply H; right; assumption).
  rewrite (H a) by (left; reflexivity). lia.
Qed.

Lemma Forall2_len {A B : Type} (R : A -> B -> Prop) l m : Forall2 R l m -> length l = length m.
Proof. induction 1; [reflexivity|]. cbn [length]. congruence. Qed.

Lemma c88 : forall sortInts sortSlice rs us,
  (forall l, Permutation (sortInts l) l) -> (forall less l, Permutation (sortSlice less l) l) ->
  Forall (fun r => 0 <= r < 0x7FFE) rs -> Forall (fun u => 0 <= fst u < 2 ^ 64 /\ 0 <= snd u < 2 ^ 64) us ->
  exists nl dl ns ds, dumpTest (fun x => GenText.Text_g x 35) sortInts sortSlice rs us = Ret (nl, dl) /\
    len nl = 2 * len rs * len us /\ len dl = 2 * len us /\
    Forall2 (fun t g => entry128_text t (ga g) (gb g) (gwant g) (gwant64 g) (gacc64 g)) nl ns /\
    Forall2 (fun t g => entry128_text t (ga g) (gb g) (gwant g) (gwant64 g) (gacc64 g)) dl ds /\
    (forall a b, In (a, b) (map (fun g => (ga g, gb g)) ns) <->
      exists s r u, (s = 0 \/ s = 1) /\ In r rs /\ In u us /\ a = s * 2 ^ 63 + (r + 1) * 2 ^ 48 + fst u mod 2 ^ 48 /\ b = snd u) /\
    (forall a b, In (a, b) (map (fun g => (ga g, gb g)) ds) <->
      exists s u, (s = 0 \/ s = 1) /\ In u us /\ a = s * 2 ^ 63 + fst u mod 2 ^ 48 /\ b = snd u) /\
    Forall (fun g => test128_bits (fun x => GenText.Text_g x 35) g = Ret true /\ test128_float32 g = Ret true /\ test128_float64 g = Ret true) (ns ++ ds).
Proof.
  intros sI sS rs us PI PS Hr Hu. set (text := fun x => GenText.Text_g x 35).
  assert (Lm : forall r, draw_mant r = (fst r mod 2 ^ 48, snd r)).
  { intros r. unfold draw_mant. f_equal. change 0xFFFFFFFFFFFF with (Z.ones 48). apply Z.land_ones. lia. }
  assert (He : Forall (fun e => 1 <= e <= 0x7FFE) (sI (map draw_exp rs))).
  { rewrite Forall_forall in *. intros e He. apply (Permutation_in _ (PI _)) in He. apply in_map_iff in He. destruct He as (r & <- & Hin). specialize (Hr r Hin). unfold draw_exp. lia. }
  assert (Hm : Forall (fun m => 0 <= fst m < 2 ^ 48 /\ 0 <= snd m < 2 ^ 64) (sS mant_less (map draw_mant us))).
  { rewrite Forall_forall in *. intros m H. apply (Permutation_in _ (PS _ _)) in H. apply in_map_iff in H. destruct H as (r & <- & Hin). specialize (Hu r Hin).
    rewrite Lm. cbn [fst snd]. split; [apply Z.mod_pos_bound; lia|lia]. }
  assert (Tp : forall x, wf x -> Forall plain (text x)) by (intros x Hx; apply Text_g_plain; [lia|exact Hx]).
  destruct (c71 text _ _ He Hm) as (ns & ds & G1 & G2 & M1 & M2 & Ft).
  destruct (c87_128 text _ _ Tp He Hm) as (nl & dl & ns' & ds' & L1 & L2 & G1' & G2' & F2).
  assert (ns' = ns) by congruence. assert (ds' = ds) by congruence. subst ns' ds'.
  assert (LE : len (sI (map draw_exp rs)) = len rs) by (rewrite (Permutation_length (PI _)), map_length; reflexivity).
  assert (LM : len (sS mant_less (map draw_mant us)) = len us) by (rewrite (Permutation_length (PS _ _)), map_length; reflexivity).
  set (exps := sI (map draw_exp rs)) in *. set (mants := sS mant_less (map draw_mant us)) in *.
  assert (Nn : len ns = 2 * len rs * len us).
  { apply (f_equal (@length _)) in M1. rewrite map_length in M1. rewrite M1.
    rewrite (flat_len _ (len rs * len us)); [cbn [length]; lia|]. intros s _. rewrite (flat_len _ (len us)); [lia|]. intros e _. rewrite map_length. exact LM. }
  assert (Nd : len ds = 2 * len us).
  { apply (f_equal (@length _)) in M2. rewrite map_length in M2. rewrite M2. rewrite (flat_len _ (len us)); [cbn [length]; lia|]. intros s _. rewrite map_length. exact LM. }
  assert (S2 : Forall2 (fun t g => entry128_text t (ga g) (gb g) (gwant g) (gwant64 g) (gacc64 g)) nl ns /\ Forall2 (fun t g => entry128_text t (ga g) (gb g) (gwant g) (gwant64 g) (gacc64 g)) dl ds).
  { exact F2. }
  destruct S2 as [S1 S2]. exists nl, dl, ns, ds. split.
  { unfold dumpTest. fold exps. fold mants. rewrite L1. cbn [bind]. rewrite L2. reflexivity. }
  split; [rewrite <- Nn; f_equal; exact (Forall2_len _ _ _ S1)|]. split; [rewrite <- Nd; f_equal; exact (Forall2_len _ _ _ S2)|].
  split; [exact S1|]. split; [exact S2|]. split; [|split].
  - intros a b. rewrite M1. rewrite in_flat_map. split.
    + intros (s & Hs & H). apply in_flat_map in H. destruct H as (e & He' & H). apply in_map_iff in H. destruct H as (m & E & H).
      apply (Permutation_in _ (PI _)) in He'. apply in_map_iff in He'. destruct He' as (r & <- & Hr').
      apply (Permutation_in _ (PS _ _)) in H. apply in_map_iff in H. destruct H as (u & <- & Hu'). rewrite Lm in E. cbn [fst snd] in E. unfold draw_exp in E.
      exists s, r, u. split; [cbn [In] in Hs; lia|]. split; [exact Hr'|]. split; [exact Hu'|]. split; congruence.
    + intros (s & r & u & Hs & Hr' & Hu' & -> & ->). exists s. split; [cbn [In]; lia|]. apply in_flat_map. exists (draw_exp r).
      split; [apply (Permutation_in _ (Permutation_sym (PI _))), in_map, Hr'|]. apply in_map_iff. exists (draw_mant u). split; [rewrite Lm; reflexivity|].
      apply (Permutation_in _ (Permutation_sym (PS _ _))), in_map, Hu'.
  - intros a b. rewrite M2. rewrite in_flat_map. split.
    + intros (s & Hs & H). apply in_map_iff in H. destruct H as (m & E & H).
      apply (Permutation_in _ (PS _ _)) in H. apply in_map_iff in H. destruct H as (u & <- & Hu'). rewrite Lm in E. cbn [fst snd] in E.
      exists s, u. split; [cbn [In] in Hs; lia|]. split; [exact Hu'|]. split; congruence.
    + intros (s & u & Hs & Hu' & -> & ->). exists s. split; [cbn [In]; lia|]. apply in_map_iff. exists (draw_mant u). split; [rewrite Lm; reflexivity|].
      apply (Permutation_in _ (Permutation_sym (PS _ _))), in_map, Hu'.
  - eapply Forall_impl; [|exact Ft]. intros g (T1 & T2 & T3 & _). auto.
Qed.

(** The comparison of sort.Slice. *)
Definition lex_less (x y : Z * Z) : Prop := fst x < fst y \/ fst x = fst y /\ snd x < snd y.

Lemma c89_refuted : exists x y, 0 <= fst x < 2 ^ 48 /\ 0 <= snd x < 2 ^ 64 /\ 0 <= fst y < 2 ^ 48 /\ 0 <= snd y < 2 ^ 64 /\
  mant_less x y = true /\ mant_less y x = true.
Proof. exists (1, 2), (2, 1). vm_compute. repeat split; congruence. Qed.

Lemma c89_exactly x y : (mant_less x y = true <-> lex_less x y) <-> ~ (fst y < fst x /\ snd x < snd y).
Proof. unfold mant_less, lex_less. destruct (Z.ltb_spec (fst x) (fst y)), (Z.ltb_spec (snd x) (snd y)); intuition (try lia; try discriminate). Qed.
