(** C82: shifting by j and then by k, and shifting by j + k, where digits are lost. *)
From Coq Require Import ZArith Reals List.
From Verif Require Import GoBase Spec SpecDec ClaimsShift2.
From Verif Require Decimal.
Open Scope Z_scope.

(** Both results are marked exactly if they are too small; the two shifts lose digits wherever the one does; and each
    of the shifts by at most w - 4 places that they consist of loses less than one unit of the 800th digit, so that
    they differ by little. *)
Theorem C82_Shift_near : forall w a j k b c, w = 32 \/ w = 64 -> dnorm a ->
  Decimal.Shift w a j = Ret b -> Decimal.Shift w b k = Ret c ->
  exists c', Decimal.Shift w a (j + k) = Ret c' /\ dnorm c /\ dnorm c' /\
    (Decimal.trunc c' = true -> Decimal.trunc c = true) /\
    (Decimal.trunc c = true <-> Decimal.trunc a = true \/ (dval c < dval a * p2 (j + k))%R) /\
    (Decimal.trunc c' = true <-> Decimal.trunc a = true \/ (dval c' < dval a * p2 (j + k))%R) /\
    (Rabs (dval c - dval c') <= dval a * p2 (j + k) * (1 - (1 - p10 (-799)) ^ Z.to_nat (Z.abs j / (w - 4) + Z.abs k / (w - 4) + 4)))%R.
Proof. exact c82_near. Qed.
Print Assumptions C82_Shift_near.

(** 1.00...05 with 800 digits: divided by four and multiplied by four it ends in 4. *)
Example C82_near_example : dnorm (Decimal.mkDec (1 :: repeat 0 798 ++ 5 :: nil) 1 false) /\ exists b c, Decimal.Shift 64 (Decimal.mkDec (1 :: repeat 0 798 ++ 5 :: nil) 1 false) (-2) = Ret b /\ Decimal.Shift 64 b 2 = Ret c /\
  Decimal.Shift 64 (Decimal.mkDec (1 :: repeat 0 798 ++ 5 :: nil) 1 false) (-2 + 2) = Ret (Decimal.mkDec (1 :: repeat 0 798 ++ 5 :: nil) 1 false) /\ Decimal.trunc c = true /\ Decimal.d c = 1 :: repeat 0 798 ++ 4 :: nil.
Proof. exact c82_near_example. Qed.
