(** Specification: the digits that the array of a decimal holds. *)
From Coq Require Import ZArith List.
From Verif Require DecimalArr Decimal.
Open Scope Z_scope.

(** The array has 800 bytes, at most that many are in use, and these are ASCII digits. *)
Definition array_ok (a : DecimalArr.adec) : Prop :=
  length (DecimalArr.mem a) = 800%nat /\ 0 <= DecimalArr.and_ a <= 800 /\
  Forall (fun c => 48 <= c <= 57) (firstn (Z.to_nat (DecimalArr.and_ a)) (DecimalArr.mem a)).

(** The bytes in use as digits, with the decimal point and the flag: what the model of
    Decimal.v keeps. *)
Definition held (a : DecimalArr.adec) : Decimal.decimal :=
  Decimal.mkDec (map (fun c => c - 48) (firstn (Z.to_nat (DecimalArr.and_ a)) (DecimalArr.mem a)))
    (DecimalArr.adp a) (DecimalArr.atr a).
