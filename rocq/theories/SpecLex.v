(** Specification: the order of texts, byte by byte.  Independent of the models. *)
From Coq Require Import ZArith List.
Import ListNotations.
Open Scope Z_scope.

(** [s] comes before [t]. *)
Fixpoint bytes_lt (s t : list Z) : Prop :=
  match s, t with
  | [], [] => False
  | [], _ :: _ => True
  | _ :: _, [] => False
  | a :: s', b :: t' => a < b \/ a = b /\ bytes_lt s' t'
  end.
