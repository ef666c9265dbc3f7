(** C110: lengths and order of the texts of integers, and which texts they are. *)
From Coq Require Import ZArith String List Lia.
From Verif Require Import GoBase SpecText SpecLex ClaimsInts.
From Verif Require Itoa.
Import ListNotations.
Open Scope Z_scope.

(** The text of i has at most n digits exactly if i < base^n. *)
Theorem C110_length : forall h base i s n, 2 <= base <= 36 -> 0 <= i < 2 ^ 64 -> 1 <= n -> Itoa.FormatUint h i base = Ret s -> (Z.of_nat (List.length s) <= n <-> i < base ^ n).
Proof. exact c110_length. Qed.
Print Assumptions C110_length.

Example C110_length_example : Itoa.FormatUint true 999 10 = Ret (B "999"%string) /\ Itoa.FormatUint true 1000 10 = Ret (B "1000"%string).
Proof. split; [vm_compute; reflexivity|vm_compute; reflexivity]. Qed.

(** The sign is one byte more. *)
Theorem C110_length_int : forall h base i s n, 2 <= base <= 36 -> - 2 ^ 63 <= i < 2 ^ 63 -> 1 <= n -> Itoa.FormatInt h i base = Ret s -> (Z.of_nat (List.length s) <= n + (if i <? 0 then 1 else 0) <-> Z.abs i < base ^ n).
Proof. exact c110_length_int. Qed.
Print Assumptions C110_length_int.

Example C110_length_int_example : Itoa.FormatInt false (-35) 36 = Ret (B "-z"%string) /\ Itoa.FormatInt false (-36) 36 = Ret (B "-10"%string).
Proof. split; [vm_compute; reflexivity|vm_compute; reflexivity]. Qed.

(** The longest texts have 64 and 65 bytes. *)
Theorem C110_longest : forall h base i s, 2 <= base <= 36 ->
  (0 <= i < 2 ^ 64 -> Itoa.FormatUint h i base = Ret s -> 1 <= Z.of_nat (List.length s) <= 64) /\ (- 2 ^ 63 <= i < 2 ^ 63 -> Itoa.FormatInt h i base = Ret s -> 1 <= Z.of_nat (List.length s) <= 65).
Proof. exact c110_longest. Qed.
Print Assumptions C110_longest.

(** Both are attained. *)
Example C110_longest_example : match Itoa.FormatUint true (2 ^ 64 - 1) 2 with Ret s => List.length s = 64%nat | Panic => False end /\ match Itoa.FormatInt true (- 2 ^ 63) 2 with Ret s => List.length s = 65%nat | Panic => False end.
Proof. split; [vm_compute; reflexivity|vm_compute; reflexivity]. Qed.

(** A greater base never gives a longer text. *)
Theorem C110_bases : forall h h' base base' i s s', 2 <= base <= base' -> base' <= 36 ->
  (0 <= i < 2 ^ 64 -> Itoa.FormatUint h i base = Ret s -> Itoa.FormatUint h' i base' = Ret s' -> Z.of_nat (List.length s') <= Z.of_nat (List.length s)) /\
  (- 2 ^ 63 <= i < 2 ^ 63 -> Itoa.FormatInt h i base = Ret s -> Itoa.FormatInt h' i base' = Ret s' -> Z.of_nat (List.length s') <= Z.of_nat (List.length s)).
Proof. exact c110_bases. Qed.
Print Assumptions C110_bases.

Example C110_bases_example : Itoa.FormatInt true (-255) 10 = Ret (B "-255"%string) /\ Itoa.FormatInt false (-255) 16 = Ret (B "-ff"%string).
Proof. split; [vm_compute; reflexivity|vm_compute; reflexivity]. Qed.

(** The order of numbers is that of the lengths of their texts, and for equal lengths that of their bytes. *)
Theorem C110_order : forall h h' base i j s t, 2 <= base <= 36 -> 0 <= i < 2 ^ 64 -> 0 <= j < 2 ^ 64 ->
  Itoa.FormatUint h i base = Ret s -> Itoa.FormatUint h' j base = Ret t -> (i < j <-> Z.of_nat (List.length s) < Z.of_nat (List.length t) \/ Z.of_nat (List.length s) = Z.of_nat (List.length t) /\ bytes_lt s t).
Proof. exact c110_order. Qed.
Print Assumptions C110_order.

(** The letters come behind the digits. *)
Example C110_order_example : Itoa.FormatUint true 159 16 = Ret (B "9f"%string) /\ Itoa.FormatUint true 160 16 = Ret (B "a0"%string) /\ bytes_lt (B "9f"%string) (B "a0"%string).
Proof. split; [vm_compute; reflexivity|]. split; [vm_compute; reflexivity|]. cbn. lia. Qed.

(** Every numeral without superfluous zeros is the text of its number. *)
Theorem C110_complete : forall h base s, 2 <= base <= 36 ->
  (numeral base s -> read base s < 2 ^ 64 -> Itoa.FormatUint h (read base s) base = Ret s) /\
  (forall i, - 2 ^ 63 <= i < 2 ^ 63 -> denotes_int base s i -> Itoa.FormatInt h i base = Ret s).
Proof. exact c110_complete. Qed.
Print Assumptions C110_complete.

Example C110_complete_example : numeral 36 (B "3w5e11264sgsf"%string) /\ read 36 (B "3w5e11264sgsf"%string) = 2 ^ 64 - 1.
Proof. split; [split; [discriminate|split; [repeat constructor; vm_compute; congruence|discriminate]]|vm_compute; reflexivity]. Qed.
