(** The lemmas behind the pointer theorems (C29). *)
From Coq Require Import ZArith List Bool Lia Arith.
From Verif Require Import GoBase BigFloat Pointers.
From Verif Require Binary16 Binary128 Float80x86.
Open Scope Z_scope.

(** One run of a computation that may write only addresses allocated after [n]. *)
Definition frame (n : nat) (h h' : store) : Prop :=
  (next h <= next h')%nat /\ forall p, (p < n)%nat -> cell h' p = cell h p.

Definition okM {A} (n : nat) (x : M A) : Prop :=
  forall h, (n <= next h)%nat -> match x h with Ret (_, h') => frame n h h' | Panic => True end.

Lemma okM_ret {A} n (a : A) : okM n (ret a).
Proof. intros h _. split; auto. Qed.
Lemma okM_panic {A} n : okM n (fun _ => @Panic (A * store)).
Proof. intros h _. exact I. Qed.
Lemma okM_load n p : okM n (load p).
Proof. intros h _. split; auto. Qed.
Lemma okM_store n p v : (n <= p)%nat -> okM n (store_at p v).
Proof.
  intros Hp h _. split; [cbn; lia|]. intros q Hq. cbn. destruct (Nat.eqb_spec q p); [lia|reflexivity].
Qed.
Lemma okM_bind {A B} n (x : M A) (f : A -> M B) : okM n x -> (forall a, okM n (f a)) -> okM n (mbind x f).
Proof.
  intros Hx Hf h Hh. unfold mbind. specialize (Hx h Hh). destruct (x h) as [[a h']|]; [|exact I].
  destruct Hx as [H1 H2]. specialize (Hf a h' ltac:(lia)). destruct (f a h') as [[b h'']|]; [|exact I].
  destruct Hf as [H3 H4]. split; [lia|]. intros p Hp. rewrite H4, H2 by exact Hp. reflexivity.
Qed.
Lemma okM_alloc {B} n v (f : nat -> M B) : (forall p, (n <= p)%nat -> okM n (f p)) -> okM n (mbind (alloc v) f).
Proof.
  intros Hf h Hh. unfold mbind, alloc. specialize (Hf (next h) Hh).
  specialize (Hf (mkStore (S (next h)) (fun p => if Nat.eqb p (next h) then v else cell h p)) ltac:(cbn; lia)).
  destruct (f (next h) _) as [[b h'']|]; [|exact I]. destruct Hf as [H3 H4]. cbn [next cell] in *.
  split; [lia|]. intros p Hp. rewrite H4 by exact Hp. destruct (Nat.eqb_spec p (next h)); [lia|reflexivity].
Qed.
Lemma okM_SetPrec n z p : (n <= z)%nat -> okM n (p_SetPrec z p).
Proof. intros H. apply okM_bind; [apply okM_load|]. intros. apply okM_store, H. Qed.
Lemma okM_MantExp n x z : (n <= z)%nat -> okM n (p_MantExp x z).
Proof.
  intros H. apply okM_bind; [apply okM_load|]. intros. apply okM_bind; [apply okM_store, H|]. intros. apply okM_ret.
Qed.
Lemma okM_SetMantExp n z e : (n <= z)%nat -> okM n (p_SetMantExp z e).
Proof. intros H. apply okM_bind; [apply okM_load|]. intros. apply okM_store, H. Qed.
Lemma okM_pos n z : (n <= z)%nat -> okM n (p_make_positive z).
Proof.
  intros H. apply okM_bind; [apply okM_load|]. intros a. destruct (Signbit a); [apply okM_store, H|apply okM_ret].
Qed.

Ltac okm :=
  repeat match goal with
  | |- okM _ (mbind (alloc _) _) => apply okM_alloc; intros
  | |- okM _ (mbind _ _) => apply okM_bind; [|intros]
  | |- okM _ (ret _) => apply okM_ret
  | |- okM _ (load _) => apply okM_load
  | |- okM _ (fun _ => Panic) => apply okM_panic
  | |- okM _ (p_SetPrec _ _) => apply okM_SetPrec; lia
  | |- okM _ (p_MantExp _ _) => apply okM_MantExp; lia
  | |- okM _ (p_SetMantExp _ _) => apply okM_SetMantExp; lia
  | |- okM _ (p_make_positive _) => apply okM_pos; lia
  | |- okM _ (if ?c then _ else _) => destruct c
  | |- okM _ (let _ := _ in _) => cbv zeta
  | |- okM _ (match ?c with _ => _ end) => destruct c
  end.

Lemma okM16 n x : okM n (NewFromBig16 x).
Proof. unfold NewFromBig16. okm. Qed.
Lemma okM80 n x : okM n (NewFromBig80 x).
Proof. unfold NewFromBig80. okm. Qed.
Lemma okM128 n x : okM n (NewFromBig128 x).
Proof. unfold NewFromBig128. okm. Qed.

(** Forget the store. *)
Definition result {A} (x : outcome (A * store)) : outcome A :=
  match x with Ret (a, _) => Ret a | Panic => Panic end.

Lemma eqb_S n : Nat.eqb (S n) n = false.
Proof. induction n; cbn; auto. Qed.

Ltac run h x Hx :=
  unfold p_MantExp, p_SetMantExp, p_make_positive, p_SetPrec, mbind, alloc, load, store_at, ret;
  repeat (cbv beta iota zeta; cbn [next cell];
    rewrite ?Nat.eqb_refl, ?eqb_S, ?(proj2 (Nat.eqb_neq x (next h))), ?(proj2 (Nat.eqb_neq x (S (next h)))) by lia).

Lemma c29_16 : forall h x r h', (x < next h)%nat -> NewFromBig16 x h = Ret (r, h') ->
  forall p, (p < next h)%nat -> cell h' p = cell h p.
Proof.
  intros h x r h' Hx E p Hp. pose proof (okM16 (next h) x h (Nat.le_refl _)) as H. rewrite E in H. apply H, Hp.
Qed.

Lemma c29r_16 : forall h x, (x < next h)%nat ->
  match NewFromBig16 x h with Ret (r, _) => Ret r | Panic => Panic end = Ret (Binary16.NewFromBig (cell h x)).
Proof.
  intros h x Hx. unfold NewFromBig16, Binary16.NewFromBig, Binary16.NewFromBig_int. set (v := cell h x).
  run h x Hx. fold v.
  destruct (IsInf v); [destruct (Signbit v); reflexivity|].
  destruct (Cmp v _ =? 0); [destruct (Signbit v); reflexivity|].
  unfold Pointers.p_MantExp.
  run h x Hx. fold v.
  destruct (MantExp v) as [mant exponent]. cbn [fst snd]. run h x Hx.
  destruct (exponent - 1 + _ <=? 0).
  - destruct (exponent - 1 + _ <=? _); run h x Hx;
      destruct (Signbit (SetMantExpSelf mant _)); run h x Hx; destruct (Uint64 _); reflexivity.
  - run h x Hx. destruct (Signbit mant); run h x Hx; destruct (Uint64 _); reflexivity.
Qed.

Lemma c29_80 : forall h x r h', (x < next h)%nat -> NewFromBig80 x h = Ret (r, h') ->
  forall p, (p < next h)%nat -> cell h' p = cell h p.
Proof.
  intros h x r h' Hx E p Hp. pose proof (okM80 (next h) x h (Nat.le_refl _)) as H. rewrite E in H. apply H, Hp.
Qed.

Lemma c29r_80 : forall h x, (x < next h)%nat ->
  match NewFromBig80 x h with Ret (r, _) => Ret r | Panic => Panic end = Ret (Float80x86.NewFromBig (cell h x)).
Proof.
  intros h x Hx. unfold NewFromBig80, Float80x86.NewFromBig, Float80x86.NewFromBig_int. set (v := cell h x).
  run h x Hx. fold v.
  destruct (IsInf v); [destruct (Signbit v); reflexivity|].
  destruct (Cmp v _ =? 0); [destruct (Signbit v); reflexivity|].
  unfold Pointers.p_MantExp.
  run h x Hx. fold v.
  destruct (MantExp v) as [mant exponent]. cbn [fst snd]. run h x Hx.
  destruct (exponent - 1 + _ <=? 0).
  - destruct (exponent - 1 + _ <=? _); run h x Hx;
      destruct (Signbit (SetMantExpSelf mant _)); run h x Hx; destruct (Uint64 _); reflexivity.
  - run h x Hx. destruct (Signbit mant); run h x Hx; destruct (Uint64 _); reflexivity.
Qed.

Lemma c29_128 : forall h x r h', (x < next h)%nat -> NewFromBig128 x h = Ret (r, h') ->
  forall p, (p < next h)%nat -> cell h' p = cell h p.
Proof.
  intros h x r h' Hx E p Hp. pose proof (okM128 (next h) x h (Nat.le_refl _)) as H. rewrite E in H. apply H, Hp.
Qed.

Lemma c29r_128 : forall h x, (x < next h)%nat ->
  match NewFromBig128 x h with Ret (r, _) => Ret r | Panic => Panic end = Binary128.NewFromBig (cell h x).
Proof.
  intros h x Hx. unfold NewFromBig128, Binary128.NewFromBig, Binary128.NewFromBig_int. set (v := cell h x).
  run h x Hx. fold v.
  destruct (IsInf v); [destruct (Signbit v); reflexivity|].
  destruct (Cmp v _ =? 0); [destruct (Signbit v); reflexivity|].
  unfold Pointers.p_MantExp.
  run h x Hx. fold v.
  destruct (MantExp v) as [mant exponent]. cbn [fst snd]. run h x Hx.
  destruct (exponent - 1 + _ <=? 0).
  - destruct (exponent - 1 + _ <=? _); run h x Hx;
      destruct (Signbit (SetMantExpSelf mant _)); run h x Hx; destruct (Int _); reflexivity.
  - run h x Hx. destruct (Signbit mant); run h x Hx; destruct (Int _); reflexivity.
Qed.

