(** C85 and C86: the IsExact functions agree with each other, and the conversions depend on the
    value of a big.Float alone. *)
From Coq Require Import ZArith Reals Lia.
From Flocq Require Import Core.
From Verif Require Import GoBase.
From Verif Require BigFloat Binary16 Binary128 Float80x86 Float128ppc.
From Verif Require Import FloatPkg Spec ClaimsChain ClaimsRep.
Import BigFloat (mkBF, rmode, Finite).
Open Scope Z_scope.

(** What is exact in 16 bits is exact in 32 bits, and what is exact in 32 bits is in 64. *)
Theorem C85_chain : forall w opt x, w = 32 \/ w = 64 -> wf x ->
  (IsExact16 w opt x = Ret true -> IsExact32 w opt x = Ret true) /\
  (IsExact32 w opt x = Ret true -> IsExact64 w opt x = Ret true).
Proof. exact c85. Qed.
Print Assumptions C85_chain.

(** 65500, not a half precision number, for which IsExact16 says true (C31); and 2^15 and 2^30, for
    which the answers differ though both numbers belong to all formats that say false. *)
Example C85_example :
  let n m e := mkBF 53 BigFloat.ToNearestEven BigFloat.Exact false (Finite m e) in
  (IsExact16 64 true (n 65500 0) = Ret true /\ IsExact32 64 true (n 65500 0) = Ret true /\ IsExact64 64 true (n 65500 0) = Ret true) /\
  (IsExact16 64 true (n 1 15) = Ret false /\ IsExact32 64 true (n 1 15) = Ret true /\ IsExact64 64 true (n 1 15) = Ret true) /\
  (IsExact32 64 true (n 1 30) = Ret false /\ IsExact64 64 true (n 1 30) = Ret true).
Proof. vm_compute. repeat split. Qed.

(** NewFromBig of three formats, on both kinds of hosts: precision, mode and accuracy of the
    argument and the representation of its mantissa do not matter. *)
Theorem C86_NewFromBig : forall w x y, w = 32 \/ w = 64 -> wf x -> wf y -> bval x = bval y ->
  Binary16.NewFromBig_host w x = Binary16.NewFromBig_host w y /\
  Float80x86.NewFromBig_host w x = Float80x86.NewFromBig_host w y /\
  Binary128.NewFromBig_host w x = Binary128.NewFromBig_host w y.
Proof. exact c86_big. Qed.
Print Assumptions C86_NewFromBig.

(** 3, two ways. *)
Example C86_example :
  let x := mkBF 2 BigFloat.ToZero BigFloat.Above false (Finite 3 0) in
  let y := mkBF 500 BigFloat.ToNegativeInf BigFloat.Exact false (Finite (3 * 2 ^ 400) (-400)) in
  x <> y /\ Binary16.NewFromBig_host 32 x = (0x4200, BigFloat.Exact) /\ Binary16.NewFromBig_host 32 y = (0x4200, BigFloat.Exact).
Proof. split; [discriminate|]. split; vm_compute; reflexivity. Qed.

(** float128ppc.NewFromBig depends on the rounding mode. *)
Theorem C86_float128ppc_refuted : exists x y f g a b x' y', wf x /\ wf y /\ bval x = bval y /\
  Float128ppc.NewFromBig x = Ret (f, a, x') /\ Float128ppc.NewFromBig y = Ret (g, b, y') /\ f <> g.
Proof. exact c86_refuted. Qed.
Print Assumptions C86_float128ppc_refuted.

(** But on nothing else. *)
Theorem C86_float128ppc_partial : forall x y, wf x -> wf y -> rmode x = rmode y -> bval x = bval y ->
  match Float128ppc.NewFromBig x, Float128ppc.NewFromBig y with
  | Ret (f, a, x'), Ret (g, b, y') => f = g /\ a = b /\ bval x' = bval y'
  | Panic, Panic => True
  | _, _ => False
  end.
Proof. exact c86_ppc. Qed.
Print Assumptions C86_float128ppc_partial.

(** In different modes: the number that is left in *x is the same exactly if both modes round v to the same 106
    bits, and then so are the halves; from 2^-969 on the halves tell the modes apart too. *)
Theorem C86_float128ppc_exactly : forall x y s v f a x' g b y', wf x -> wf y -> bval x = VNum s v -> bval y = VNum s v ->
  Float128ppc.NewFromBig x = Ret (f, a, x') -> Float128ppc.NewFromBig y = Ret (g, b, y') ->
  let r := rnd_prec (rmode x) 106 v in let r' := rnd_prec (rmode y) 106 v in
  a = b /\ (bval x' = bval y' <-> r = r') /\ (r = r' -> f = g) /\ ((p2 (-969) <= Rabs v)%R -> f = g -> r = r').
Proof. exact c86_exactly. Qed.
Print Assumptions C86_float128ppc_exactly.

(** 1 + 2^-120 rounded up and down. *)
Example C86_exactly_example :
  let x := mkBF 121 BigFloat.ToPositiveInf BigFloat.Exact false (Finite (2 ^ 120 + 1) (-120)) in
  let y := mkBF 121 BigFloat.ToNegativeInf BigFloat.Exact false (Finite (2 ^ 120 + 1) (-120)) in
  (exists x', Float128ppc.NewFromBig x = Ret (Float128ppc.mkFloat 0x3FF0000000000000 0x3960000000000000, BigFloat.Exact, x')) /\
  (exists y', Float128ppc.NewFromBig y = Ret (Float128ppc.mkFloat 0x3FF0000000000000 0, BigFloat.Exact, y')).
Proof. split; (eexists; vm_compute; reflexivity). Qed.

(** The IsExact functions depend neither on the representation, nor on the host, nor on the
    fast path being enabled. *)
Theorem C86_IsExact : forall w opt w' opt' x y, w = 32 \/ w = 64 -> w' = 32 \/ w' = 64 -> wf x -> wf y -> bval x = bval y ->
  IsExact16 w opt x = IsExact16 w' opt' y /\ IsExact32 w opt x = IsExact32 w' opt' y /\ IsExact64 w opt x = IsExact64 w' opt' y.
Proof. exact c86_exact. Qed.
Print Assumptions C86_IsExact.

Example C86_IsExact_example :
  let x := mkBF 3 BigFloat.ToZero BigFloat.Above true (Finite 5 (-3)) in
  let y := mkBF 60 BigFloat.ToNegativeInf BigFloat.Exact true (Finite (5 * 2 ^ 50) (-53)) in
  x <> y /\ IsExact16 32 false x = Ret true /\ IsExact16 64 true y = Ret true.
Proof. split; [discriminate|]. split; vm_compute; reflexivity. Qed.
