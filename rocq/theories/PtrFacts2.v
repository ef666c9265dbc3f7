(** Lemmas for C101 and C102: Big and float128ppc.NewFromBig at the level of pointers. *)
From Coq Require Import ZArith List Bool Lia Arith.
From Verif Require Import GoBase BigFloat GoFmt Pointers ClaimsPtr Pointers2.
From Verif Require Binary16 Binary128 Float80x86 Float128ppc Bfloat.
Open Scope Z_scope.

(** What Big promises: a new address that holds the number, and nothing else changed. *)
Definition fresh (h : store) (r : outcome ((nat * bool) * store)) (v : outcome (bigfloat * bool)) : Prop :=
  match r with
  | Ret ((x, nan), h') =>
      (next h <= x < next h')%nat /\ v = Ret (cell h' x, nan) /\ forall p, (p < next h)%nat -> cell h' p = cell h p
  | Panic => v = Panic
  end.

Ltac eqbs :=
  repeat (cbv beta iota zeta; cbn [next cell];
    match goal with
    | |- context [Nat.eqb ?a ?b] =>
        first [rewrite (proj2 (Nat.eqb_eq a b)) by lia | rewrite (proj2 (Nat.eqb_neq a b)) by lia]
    end);
  cbv beta iota zeta; cbn [next cell].

Ltac open :=
  unfold p_start, p_SetPrec, p_SetMode, p_SetInf, p_NegSelf, p_Parse, p_Add, p_Sub, mbind, alloc, load, store_at, ret.

Ltac done1 :=
  unfold fresh; cbv beta iota zeta; cbn [next cell];
  first [ reflexivity
        | split; [lia|split; [eqbs; reflexivity|intros p Hp; eqbs; reflexivity]] ].

Lemma c101_16 : forall h f, fresh h (Big16 f h) (Binary16.Big f).
Proof.
  intros h f. unfold Big16, Binary16.Big. cbv zeta. open. eqbs.
  destruct (Binary16.Exp f =? 31); [|destruct (Binary16.Exp f =? 0)].
  - destruct (Binary16.Frac f =? 0); [|destruct (Binary16.Signbit f)]; eqbs; done1.
  - destruct (Binary16.Frac f =? 0); [destruct (Binary16.Signbit f); eqbs; done1|].
    eqbs. destruct (Parse _ _); done1.
  - eqbs. destruct (Parse _ _); done1.
Qed.

Lemma c101_bf : forall h f, fresh h (BigBf f h) (Bfloat.Big f).
Proof.
  intros h f. unfold BigBf, Bfloat.Big. cbv zeta. open. eqbs.
  destruct (Bfloat.Exp f =? 255); [|destruct (Bfloat.Exp f =? 0)].
  - destruct (Bfloat.Frac f =? 0); [|destruct (Bfloat.Signbit f)]; eqbs; done1.
  - destruct (Bfloat.Frac f =? 0); [destruct (Bfloat.Signbit f); eqbs; done1|].
    eqbs. destruct (Parse _ _); done1.
  - eqbs. destruct (Parse _ _); done1.
Qed.

Lemma c101_80 : forall h f, fresh h (Big80 f h) (Float80x86.Big f).
Proof.
  intros h f. unfold Big80, Float80x86.Big. cbv zeta. open. eqbs.
  destruct (Float80x86.Exp f =? 32767); [|destruct (Float80x86.Exp f =? 0)].
  - destruct (Float80x86.m f =? 9223372036854775808); [|destruct (Float80x86.Signbit f)]; eqbs; done1.
  - destruct (Float80x86.m f =? 0); [destruct (Float80x86.Signbit f); eqbs; done1|].
    eqbs. destruct (Parse _ _); done1.
  - eqbs. destruct (Parse _ _); done1.
Qed.

Lemma c101_128 : forall h f, fresh h (Big128 f h) (Binary128.Big f).
Proof.
  intros h f. unfold Big128, Binary128.Big, Binary128.Big_host.
  destruct (Binary128.Frac f) as [a b]. cbv zeta. open. eqbs.
  destruct (Binary128.Exp_host 64 f =? 32767); [|destruct (Binary128.Exp_host 64 f =? 0)].
  - destruct ((a =? 0) && (b =? 0)); [|destruct (Binary128.Signbit f)]; eqbs; done1.
  - destruct ((a =? 0) && (b =? 0)); [destruct (Binary128.Signbit f); eqbs; done1|].
    eqbs. destruct (Parse _ _); done1.
  - eqbs. destruct (Parse _ _); done1.
Qed.

Lemma c101_ppc : forall h f, fresh h (BigPpc f h) (Float128ppc.Big f).
Proof.
  intros h f. unfold BigPpc, Float128ppc.Big. cbv zeta. open. eqbs.
  destruct (Float128ppc.IsNaN f); [done1|].
  unfold p_NewFloat. open.
  destruct (NewFloat (Float128ppc.high f)) as [vh|]; [|done1]. cbn [bind]. open. eqbs.
  destruct (NewFloat (Float128ppc.low f)) as [vl|]; [|done1]. cbn [bind]. eqbs.
  destruct (Add _ _ _) as [vx|]; [|done1]. cbn [bind]. eqbs.
  destruct ((Cmp vx _ =? 0) && f_sign 52 11 (Float128ppc.high f)); [|done1].
  destruct (negb (Signbit vx)); eqbs; done1.
Qed.

Lemma c102 : forall h x, (x < next h)%nat ->
  match NewFromBigPpc x h with
  | Ret ((f, a), h') =>
      (next h <= next h')%nat /\ Float128ppc.NewFromBig (cell h x) = Ret (f, a, cell h' x) /\
      forall p, (p < next h)%nat -> p <> x -> cell h' p = cell h p
  | Panic => Float128ppc.NewFromBig (cell h x) = Panic
  end.
Proof.
  intros h x Hx. unfold NewFromBigPpc, Float128ppc.NewFromBig. cbv zeta. open. eqbs. set (v := cell h x).
  destruct (IsInf v).
  { destruct (Signbit v); cbn [next cell]; (split; [lia|split; [eqbs; reflexivity|intros p Hp Hn; eqbs; reflexivity]]). }
  destruct (Cmp v _ =? 0).
  { destruct (Signbit v); cbn [next cell]; (split; [lia|split; [eqbs; reflexivity|intros p Hp Hn; eqbs; reflexivity]]). }
  eqbs. destruct (BigFloat.Float64 _) as [hi ?]. unfold p_NewFloat.
  destruct (NewFloat hi) as [vh|]; [|reflexivity]. cbn [bind]. open. eqbs.
  destruct (Sub _ _ _) as [vl|]; [|reflexivity]. cbn [bind]. eqbs.
  destruct (BigFloat.Float64 vl) as [lo ?]. eqbs.
  destruct (Add _ _ _) as [vr|]; [|reflexivity]. cbn [bind]. eqbs.
  split; [lia|]. split; [eqbs; reflexivity|]. intros p Hp Hn. eqbs. reflexivity.
Qed.
