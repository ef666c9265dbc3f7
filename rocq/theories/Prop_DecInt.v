(** C42 for every decimal: what RoundedInteger returns from 2^64 on. *)
From Coq Require Import ZArith Reals List Lra.
From Flocq Require Import Core.
From Verif Require Import GoBase Spec SpecDec ClaimsDecInt.
From Verif Require DecimalArr.
From Verif Require Import SpecArr.
From Verif Require Import Decimal.
Import ListNotations.
Open Scope Z_scope.

(** Up to 10^20 the nearest integer modulo 2^64, beyond the greatest uint64. *)
Theorem C42_RoundedInteger_all : forall a V, dnorm a -> cut_to a V ->
  ((V < p10 20)%R -> RoundedInteger a = ZnearestE V mod 2 ^ 64) /\ ((p10 20 <= V)%R -> RoundedInteger a = 2 ^ 64 - 1).
Proof. exact c42_all. Qed.
Print Assumptions C42_RoundedInteger_all.

(** 2*10^19 and 10^20 *)
Example C42_all_example : RoundedInteger (mkDec [2] 20 false) = 2 * 10 ^ 19 - 2 ^ 64 /\ RoundedInteger (mkDec [1] 21 false) = 2 ^ 64 - 1.
Proof. split; [vm_compute; reflexivity|vm_compute; reflexivity]. Qed.
Example C42_all_hypotheses : dnorm (mkDec [2] 20 false) /\ cut_to (mkDec [2] 20 false) (dval (mkDec [2] 20 false)).
Proof. exact c42_all_example. Qed.

(** It is the nearest integer exactly where that is below 2^64. *)
Theorem C42_RoundedInteger_exactly : forall a V, dnorm a -> cut_to a V -> (RoundedInteger a = ZnearestE V <-> ZnearestE V < 2 ^ 64).
Proof. exact c42_exactly. Qed.
Print Assumptions C42_RoundedInteger_exactly.

Example C42_exactly_example : RoundedInteger (mkDec [2; 5] 1 false) = 2 /\ RoundedInteger (mkDec [3; 5] 1 false) = 4.
Proof. split; [vm_compute; reflexivity|vm_compute; reflexivity]. Qed.

(** The same on the array of 800 bytes (C74). *)
Theorem C74_RoundedInteger_all : forall a V, array_ok a -> dnorm (held a) -> cut_to (held a) V ->
  ((V < p10 20)%R -> DecimalArr.RoundedInteger a = Ret (ZnearestE V mod 2 ^ 64)) /\ ((p10 20 <= V)%R -> DecimalArr.RoundedInteger a = Ret (2 ^ 64 - 1)).
Proof. exact c74i_all. Qed.
Print Assumptions C74_RoundedInteger_all.

Example C74_all_example : DecimalArr.RoundedInteger (DecimalArr.mkA ([50] ++ repeat 0 799) 1 20 false) = Ret (2 * 10 ^ 19 - 2 ^ 64).
Proof. vm_compute. reflexivity. Qed.
