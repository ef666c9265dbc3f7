(** What appending to a slice means. *)
From Coq Require Import ZArith List Arith.
From Verif Require Import Slices.
Import ListNotations.
Open Scope Z_scope.

(** Byte [i] of the array at [a]. *)
Definition byte_at (h : heap) (a i : nat) : Z := nth i (nth a h []) 0.

(** The bytes that the slice can hold lie in its array.  (A slice of capacity 0 needs none.) *)
Definition valid (h : heap) (s : gslice) : Prop :=
  (len s <= cap s)%nat /\ (off s + cap s <= length (nth (arr s) h []))%nat.

(** The slice reads as the text [t]. *)
Definition reads (h : heap) (s : gslice) (t : list Z) : Prop :=
  length t = len s /\ forall i, (i < len s)%nat -> byte_at h (arr s) (off s + i) = nth i t 0.

(** From heap [h] to [h'], the slice [s'] came out of appending [t] to [s]: *)
Record appended (h : heap) (s : gslice) (t : list Z) (h' : heap) (s' : gslice) : Prop := {
  (** all arrays are still there, with their sizes *)
  ap_more : (length h <= length h')%nat;
  ap_size : forall a, (a < length h)%nat -> length (nth a h' []) = length (nth a h []);
  (** all bytes are as before, except that the first [k] bytes of [t] are behind the slice, within
      its capacity; all of [t] if there is room *)
  ap_prefix : exists k, (k <= length t)%nat /\ (len s + k <= cap s)%nat /\
    ((len s + length t <= cap s)%nat -> k = length t) /\
    forall a i, (a < length h)%nat ->
      (a = arr s -> (off s + len s <= i < off s + len s + k)%nat -> byte_at h' a i = nth (i - (off s + len s)) t 0) /\
      (a <> arr s \/ (i < off s + len s)%nat \/ (off s + len s + k <= i)%nat -> byte_at h' a i = byte_at h a i);
  (** the result is a slice *)
  ap_valid : valid h' s';
  (** it reads as the old slice followed by [t] *)
  ap_reads : forall u, reads h s u -> reads h' s' (u ++ t);
  (** it is the old slice made longer if there is room; nothing is allocated then *)
  ap_room : (len s + length t <= cap s)%nat ->
    s' = mkSl (arr s) (off s) (len s + length t) (cap s) /\ length h' = length h;
  (** otherwise it is in an array that was not there before *)
  ap_new : (cap s < len s + length t)%nat -> (length h <= arr s' < length h')%nat
}.
