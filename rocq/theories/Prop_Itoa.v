(** Properties of the integer formatter (C35 to C38) and of AppendFloat (C36). *)
From Coq Require Import ZArith List.
From Verif Require Import GoBase SpecText ClaimsItoa.
From Verif Require Itoa Ftoa.
Import ListNotations.
Open Scope Z_scope.

(** [h] tells whether the host is a 32-bit one. *)
Theorem C35_format : forall h base, 2 <= base <= 36 ->
  (forall i, 0 <= i < 2 ^ 64 ->
     exists s, Itoa.FormatUint h i base = Ret s /\ numeral base s /\ read base s = i) /\
  (forall i, - 2 ^ 63 <= i < 2 ^ 63 ->
     exists s, Itoa.FormatInt h i base = Ret s /\ denotes_int base s i).
Proof. exact c35. Qed.
Print Assumptions C35_format.

Example C35_example : Itoa.FormatInt false (- 2 ^ 63) 36 = Ret [45; 49; 121; 50; 112; 48; 105; 106; 51; 50; 101; 56; 101; 56].
Proof. vm_compute. reflexivity. Qed.

(** Distinct numbers give distinct texts. *)
Theorem C35_injective : forall h base, 2 <= base <= 36 ->
  (forall i j, 0 <= i < 2 ^ 64 -> 0 <= j < 2 ^ 64 ->
     Itoa.FormatUint h i base = Itoa.FormatUint h j base -> i = j) /\
  (forall i j, - 2 ^ 63 <= i < 2 ^ 63 -> - 2 ^ 63 <= j < 2 ^ 63 ->
     Itoa.FormatInt h i base = Itoa.FormatInt h j base -> i = j) /\
  (forall i, - 2 ^ 63 <= i < 2 ^ 63 -> Itoa.Itoa h i = Itoa.FormatInt h i 10).
Proof. exact c35_inj. Qed.
Print Assumptions C35_injective.

Theorem C36_append : 
  (forall h dst i base, Itoa.AppendInt h dst i base =
     match Itoa.FormatInt h i base with Ret s => Ret (dst ++ s) | Panic => Panic end) /\
  (forall h dst i base, Itoa.AppendUint h dst i base =
     match Itoa.FormatUint h i base with Ret s => Ret (dst ++ s) | Panic => Panic end) /\
  (forall w o dst f fmt prec bits, Ftoa.AppendFloat w o dst f fmt prec bits =
     match Ftoa.FormatFloat w o f fmt prec bits with Ret s => Ret (dst ++ s) | Panic => Panic end).
Proof. exact c36. Qed.
Print Assumptions C36_append.

Example C36_example : Ftoa.AppendFloat 64 true [120; 61] 0x3FF8000000000000 103 (-1) 64 = Ret [120; 61; 49; 46; 53].
Proof. vm_compute. reflexivity. Qed.

(** A write outside the 65-byte buffer is a panic of the model. *)
Theorem C37_panics : forall h dst base,
  (forall i, - 2 ^ 63 <= i < 2 ^ 63 ->
     (Itoa.FormatInt h i base = Panic <-> base < 2 \/ 36 < base) /\
     (Itoa.AppendInt h dst i base = Panic <-> base < 2 \/ 36 < base)) /\
  (forall i, 0 <= i < 2 ^ 64 ->
     (Itoa.FormatUint h i base = Panic <-> base < 2 \/ 36 < base) /\
     (Itoa.AppendUint h dst i base = Panic <-> base < 2 \/ 36 < base)).
Proof. exact c37. Qed.
Print Assumptions C37_panics.

Example C37_example : Itoa.FormatInt false (- 2 ^ 63) 2 <> Panic /\ Itoa.FormatInt false 7 37 = Panic.
Proof. vm_compute. split; congruence. Qed.

Theorem C38_word_size : forall base,
  (forall i, - 2 ^ 63 <= i < 2 ^ 63 -> Itoa.FormatInt true i base = Itoa.FormatInt false i base) /\
  (forall i, 0 <= i < 2 ^ 64 -> Itoa.FormatUint true i base = Itoa.FormatUint false i base).
Proof. exact c38. Qed.
Print Assumptions C38_word_size.

Example C38_example : Itoa.FormatUint true (2 ^ 64 - 1) 10 = Ret
  [49; 56; 52; 52; 54; 55; 52; 52; 48; 55; 51; 55; 48; 57; 53; 53; 49; 54; 49; 53].
Proof. vm_compute. reflexivity. Qed.
