(** Specification: what a text of digits denotes.  Independent of the models. *)
From Coq Require Import ZArith List.
Import ListNotations.
Open Scope Z_scope.

(** The value of the digit 0-9a-z; -1 for any other byte. *)
Definition digit_val (c : Z) : Z :=
  if andb (48 <=? c) (c <=? 57) then c - 48
  else if andb (97 <=? c) (c <=? 122) then c - 87
  else -1.

(** The number written by the digits [s] in the given base. *)
Definition read (base : Z) (s : list Z) : Z :=
  fold_left (fun a c => a * base + digit_val c) s 0.

(** All bytes are digits below the base. *)
Definition all_digits (base : Z) (s : list Z) : Prop :=
  Forall (fun c => 0 <= digit_val c < base) s.

(** A numeral: at least one digit, and no superfluous leading zero. *)
Definition numeral (base : Z) (s : list Z) : Prop :=
  s <> [] /\ all_digits base s /\ (hd 0 s = 48 -> s = [48]).

(** An integer with an optional minus sign. *)
Definition denotes_int (base : Z) (s : list Z) (i : Z) : Prop :=
  (0 <= i /\ numeral base s /\ read base s = i) \/
  (i < 0 /\ exists t, s = 45 :: t /\ numeral base t /\ read base t = - i).
