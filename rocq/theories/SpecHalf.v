(** Numbers half way between two decimals of [q] digits, or between two multiples of 10^k. *)
From Coq Require Import ZArith Reals.
From Verif Require Import Spec SpecDec.
Open Scope Z_scope.

Definition half_digits (q : Z) (x : R) : Prop :=
  exists n k, 10 ^ (q - 1) <= n < 10 ^ q /\ x = ((IZR n + / 2) * p10 k)%R.

Definition half_places (k : Z) (x : R) : Prop := exists n, x = ((IZR n + / 2) * p10 k)%R.
