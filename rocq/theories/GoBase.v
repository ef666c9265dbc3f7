(** Go's integer types, bytes and panics.

    A Go integer is a [Z].  Go's wrap-around on conversion and arithmetic is written
    out where it happens with [u8], [u16], [u32], [u64] and [sint].  A []byte or a
    string is a list of byte codes.  A Go panic is the value [Panic]. *)
From Coq Require Import ZArith String Ascii List Bool.
Import ListNotations.
Open Scope Z_scope.

(** Conversion to the unsigned types of Go (language spec, "Conversions between numeric types"),
    and the arithmetic of these types; byte(x): decimal.go:89,141,286, ftoa.go:388-392. *)
Definition u8 (x : Z) : Z := x mod 2 ^ 8.
(** uint16(x): binary16.go:134,143,160, float80x86.go:167. *)
Definition u16 (x : Z) : Z := x mod 2 ^ 16.
(** uint32(x): extfloat.go:217-226,375,395,564,585. *)
Definition u32 (x : Z) : Z := x mod 2 ^ 32.
(** uint64(x): binary128.go:156, decimal.go:404-406, extfloat.go:169,376, itoa.go:29,44. *)
Definition u64 (x : Z) : Z := x mod 2 ^ 64.

(** Conversion to a signed type of [w] bits (two's complement), as at binary128.go:291 and
    extfloat.go:306-307. *)
Definition sint (w x : Z) : Z := (x + 2 ^ (w - 1)) mod 2 ^ w - 2 ^ (w - 1).

(** Go's [&^] operator: binary16.go:140,153,156, binary128.go:153,180, float80x86.go:164. *)
Definition andnot (a b : Z) : Z := Z.land a (Z.lnot b).

(** The result of a Go call: a value or a panic (binary16.go:257, itoa.go:91, ftoa.go:78). *)
Inductive outcome (A : Type) : Type :=
| Ret (a : A)
| Panic.
Arguments Ret {A} a.
Arguments Panic {A}.

(** Go's call sequence: a panic of a callee ends the caller, as at binary16.go:175. *)
Definition bind {A B : Type} (x : outcome A) (f : A -> outcome B) : outcome B :=
  match x with
  | Ret a => f a
  | Panic => Panic
  end.

Notation "x <- e ;; k" := (bind e (fun x => k))
  (at level 61, e at next level, right associativity).
Notation "' p <- e ;; k" := (bind e (fun x => match x with p => k end))
  (at level 61, p pattern, e at next level, right associativity).

(** Go strings and byte slices (ftoa.go:47-55, itoa.go:18-47). *)
Definition bytes := list Z.

(** String literals, as at binary16.go:249-255 and ftoa.go:92-99. *)
Definition B (s : string) : bytes :=
  map (fun c => Z.of_nat (nat_of_ascii c)) (list_ascii_of_string s).
