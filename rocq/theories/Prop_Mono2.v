(** C68, outside of the ranges: which positive numbers keep their order with the numbers in the
    range of the format, and which do not.

    [vle] is the order of the numbers, -Inf and +Inf included (SpecOrder.v). *)
From Coq Require Import ZArith Reals Lia Lra.
From Flocq Require Import Core.
From Verif Require Import GoBase Spec SpecOrder.
From Verif Require BigFloat Binary16 Binary128 Float80x86 Float128ppc.
From Verif Require FactsPpc.
From Verif Require Import ClaimsMono2.
Import BigFloat (rmode).
Open Scope Z_scope.

(** binary16: numbers from 2^16 on stay above all numbers in the range exactly if they become the
    greatest number or the infinity, positive numbers below 2^-24 stay below all positive numbers
    in the range exactly if they become 0 or the least number. *)
Theorem C68_binary16_outside : forall y v, wf y -> bval y = VNum false v ->
  ((p2 16 <= v)%R ->
    (forall x s u, wf x -> bval x = VNum s u -> u = 0%R \/ (p2 (-24) <= Rabs u < p2 16)%R ->
      vle (ieee 10 5 (fst (Binary16.NewFromBig x))) (ieee 10 5 (fst (Binary16.NewFromBig y)))) <->
    fst (Binary16.NewFromBig y) = 0x7BFF \/ fst (Binary16.NewFromBig y) = 0x7C00) /\
  ((0 < v < p2 (-24))%R ->
    (forall x s u, wf x -> bval x = VNum s u -> (p2 (-24) <= u < p2 16)%R ->
      vle (ieee 10 5 (fst (Binary16.NewFromBig y))) (ieee 10 5 (fst (Binary16.NewFromBig x)))) <->
    fst (Binary16.NewFromBig y) = 0 \/ fst (Binary16.NewFromBig y) = 1).
Proof. exact c68_16_outside. Qed.
Print Assumptions C68_binary16_outside.

(** 2^16 becomes +Inf and keeps its order, 2^17 becomes 0 and does not; 2^-25 becomes 0 and keeps
    its order. *)
Example C68_outside_example :
  (forall e, BigFloat.MinExp < e + 1 <= BigFloat.MaxExp -> wf (power e) /\ bval (power e) = VNum false (IZR 1 * p2 e)) /\
  fst (Binary16.NewFromBig (power 16)) = 0x7C00 /\ fst (Binary16.NewFromBig (power 17)) = 0 /\
  fst (Binary16.NewFromBig (power (-25))) = 0.
Proof. split; [exact c68_outside_example|]. repeat split; vm_compute; reflexivity. Qed.

(** binary128 *)
Theorem C68_binary128_outside : forall y v, wf y -> bval y = VNum false v ->
  exists g b, Binary128.NewFromBig y = Ret (g, b) /\
  ((p2 16384 <= v)%R ->
    (forall x s u, wf x -> bval x = VNum s u -> u = 0%R \/ (p2 (-16494) <= Rabs u < p2 16384)%R ->
      exists f a, Binary128.NewFromBig x = Ret (f, a) /\ vle (quad (Binary128.fa f) (Binary128.fb f)) (quad (Binary128.fa g) (Binary128.fb g))) <->
    g = Binary128.mkFloat 0x7FFEFFFFFFFFFFFF 0xFFFFFFFFFFFFFFFF \/ g = Binary128.mkFloat 0x7FFF000000000000 0) /\
  ((0 < v < p2 (-16494))%R ->
    (forall x s u, wf x -> bval x = VNum s u -> (p2 (-16494) <= u < p2 16384)%R ->
      exists f a, Binary128.NewFromBig x = Ret (f, a) /\ vle (quad (Binary128.fa g) (Binary128.fb g)) (quad (Binary128.fa f) (Binary128.fb f))) <->
    g = Binary128.mkFloat 0 0 \/ g = Binary128.mkFloat 0 1).
Proof. exact c68_128_outside. Qed.
Print Assumptions C68_binary128_outside.

(** 2^16385 becomes 0, 2^-16495 becomes 0. *)
Example C68_binary128_outside_example :
  Binary128.NewFromBig (power 16384) = Ret (Binary128.mkFloat 0x7FFF000000000000 0, BigFloat.Exact) /\
  Binary128.NewFromBig (power 16385) = Ret (Binary128.mkFloat 0 0, BigFloat.Above) /\
  Binary128.NewFromBig (power (-16495)) = Ret (Binary128.mkFloat 0 0, BigFloat.Below).
Proof. repeat split; vm_compute; reflexivity. Qed.

(** float80x86: positive numbers below the least number never keep their order, as they become the
    greatest denormal number. *)
Theorem C68_float80x86_outside : forall y v, wf y -> bval y = VNum false v ->
  let g := fst (Float80x86.NewFromBig y) in
  ((p2 16384 <= v)%R ->
    (forall x s u, wf x -> bval x = VNum s u -> u = 0%R \/ (p2 (-16445) <= Rabs u < p2 16384)%R ->
      let f := fst (Float80x86.NewFromBig x) in vle (x87 (Float80x86.se f) (Float80x86.m f)) (x87 (Float80x86.se g) (Float80x86.m g))) <->
    g = Float80x86.mkFloat 0x7FFE 0xFFFFFFFFFFFFFFFF \/ g = Float80x86.mkFloat 0x7FFF 0x8000000000000000) /\
  ((0 < v < p2 (-16445))%R ->
    exists x u, wf x /\ bval x = VNum false u /\ (p2 (-16445) <= u < p2 16384)%R /\
      let f := fst (Float80x86.NewFromBig x) in ~ vle (x87 (Float80x86.se g) (Float80x86.m g)) (x87 (Float80x86.se f) (Float80x86.m f))).
Proof. exact c68_80_outside. Qed.
Print Assumptions C68_float80x86_outside.

Example C68_float80x86_outside_example :
  fst (Float80x86.NewFromBig (power 16384)) = Float80x86.mkFloat 0x7FFF 0x8000000000000000 /\
  fst (Float80x86.NewFromBig (power 16385)) = Float80x86.mkFloat 0 0x8000000000000000 /\
  fst (Float80x86.NewFromBig (power (-16446))) = Float80x86.mkFloat 0 0x7FFFFFFFFFFFFFFF.
Proof. repeat split; vm_compute; reflexivity. Qed.

(** float128ppc: there is no number to be ordered, the function panics. *)
Theorem C68_float128ppc_outside : forall x s v, wf x -> bval x = VNum s v ->
  (p2 1024 <= Rabs (rn 52 11 (rnd_prec (rmode x) 106 v)))%R -> Float128ppc.NewFromBig x = Panic.
Proof. exact FactsPpc.NewFromBig_overflow. Qed.
Print Assumptions C68_float128ppc_outside.

(** 2^1024 *)
Example C68_float128ppc_outside_example : Float128ppc.NewFromBig (power 1024) = Panic.
Proof. vm_compute. reflexivity. Qed.
