(** Specification: the order of the numbers a format denotes.  Independent of the models. *)
From Coq Require Import ZArith Reals.
From Verif Require Import Spec.

(** [x] is at most [y]: -Inf, the numbers, +Inf; false when one of them is a NaN. *)
Definition vle (x y : fval) : Prop :=
  match x, y with
  | VNaN _, _ | _, VNaN _ => False
  | VInf true, _ | _, VInf false => True
  | VNum _ a, VNum _ b => (a <= b)%R
  | _, _ => False
  end.

(** A sign is the sign of the number (either one for 0). *)
Definition sign_ok (s : bool) (v : R) : Prop := ((v < 0 -> s = true) /\ (0 < v -> s = false))%R.

(** A pattern of a sign bit and [n] bits of magnitude as the integer it is in sign-magnitude
    representation; both zeros are 0. *)
Definition signed (n p : Z) : Z := (if p <? 2 ^ n then p else 2 ^ n - p)%Z.
