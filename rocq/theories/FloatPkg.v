(** Model of float.go, on a host with int of [w] bits, with the package variable optimize of
    internal/strconv = [opt] (it is true and nothing changes it). *)
From Coq Require Import ZArith String List Bool.
From Verif Require Import GoBase BigFloat GoFmt.
From Verif Require Ftoa.
Import ListNotations.
Open Scope Z_scope.

(** strings.Index(s, "e"): position of the first 'e', [None] for -1 (float.go:53). *)
Fixpoint index_e (s : bytes) : option nat :=
  match s with
  | [] => None
  | c :: t => if c =? 101 then Some O
              else match index_e t with Some n => Some (S n) | None => None end
  end.

(** float.go:57-62: from pos down to 1, skipping the bytes '0'. *)
Fixpoint skip_zeros (s : bytes) (pos : nat) : nat :=
  match pos with
  | O => O
  | S p => if nth pos s 0 =? 48 then skip_zeros s p else pos
  end.

(** float.go:52-67.  Line 63 reads s[pos] with pos = -1 when the 'e' is the first byte: [Panic]. *)
Definition trimZeros (s : bytes) : outcome bytes :=
  match index_e s with
  | None => Panic
  | Some O => Panic
  | Some (S p as epos) =>
      let pos := skip_zeros s p in
      let pos := if nth pos s 0 =? 46 then pos else S pos in
      Ret (firstn pos s ++ skipn epos s)
  end.

(** Go's == on strings: float.go:21,33,45. *)
Definition bytes_eqb (a b : bytes) : bool :=
  if list_eq_dec Z.eq_dec a b then true else false.

(** float.go:14-22 *)
Definition IsExact16 (w : Z) (opt : bool) (x : bigfloat) : outcome bool :=
  let '(f, acc) := BigFloat.Float64 x in
  if negb (accuracy_eqb acc Exact) then Ret false
  else
    s1 <- Ftoa.FormatFloat w opt f Ftoa.ch_e (-1) 16 ;;
    s2 <- trimZeros (Text_e x 100) ;;
    Ret (bytes_eqb s1 s2).

(** float.go:26-34 *)
Definition IsExact32 (w : Z) (opt : bool) (x : bigfloat) : outcome bool :=
  let '(f, acc) := BigFloat.Float32 x in
  if negb (accuracy_eqb acc Exact) then Ret false
  else
    s1 <- Ftoa.FormatFloat w opt (f32_to_f64 f) Ftoa.ch_e (-1) 32 ;;
    s2 <- trimZeros (Text_e x 100) ;;
    Ret (bytes_eqb s1 s2).

(** float.go:38-46 *)
Definition IsExact64 (w : Z) (opt : bool) (x : bigfloat) : outcome bool :=
  let '(f, acc) := BigFloat.Float64 x in
  if negb (accuracy_eqb acc Exact) then Ret false
  else
    s1 <- Ftoa.FormatFloat w opt f Ftoa.ch_e (-1) 64 ;;
    s2 <- trimZeros (Text_e x 100) ;;
    Ret (bytes_eqb s1 s2).
