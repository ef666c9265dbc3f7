(** The midpoints between neighbouring numbers of a format. *)
From Coq Require Import ZArith Reals.
From Flocq Require Import Core.
From Verif Require Import Spec.
Open Scope Z_scope.

(** [d] lies half way between two numbers of the format with [mb] fraction and [eb] exponent
    bits, were its exponent range unbounded above: it has one bit more and does not belong to it. *)
Definition midpoint (mb eb : Z) (d : R) : Prop :=
  (exists M c, d = (IZR M * p2 c)%R /\ Z.abs M < 2 ^ (mb + 2) /\ 1 - 2 ^ (eb - 1) - mb <= c) /\ rn mb eb d <> d.
