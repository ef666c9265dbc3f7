(** Specification: rounding to decimal digits and decimals that read back. *)
From Coq Require Import ZArith Reals List Bool.
From Flocq Require Import Core.
From Verif Require ExtFloat.
From Verif Require Import Spec SpecText SpecDec.
Import ListNotations.
Open Scope Z_scope.

(** [v] rounded to [n] significant decimal digits: nearest, ties to even. *)
Definition sig_round (n : Z) (v : R) : R := round radix10 (FLX_exp n) ZnearestE v.

(** Digits with neither a leading nor a trailing zero, not empty. *)
Definition digs_norm (l : list Z) : Prop := digits_ok l /\ no_lead0 l /\ no_trail0 l /\ l <> [].

(** The exponent function of the format with [mb] fraction and [eb] exponent bits. *)
Definition fx (mb eb : Z) : Z -> Z := FLT_exp (3 - 2 ^ (eb - 1) - (mb + 1)) (mb + 1).

(** Half way to the neighbouring floats of [v] (Flocq's pred and succ). *)
Definition mid_lo (mb eb : Z) (v : R) : R := ((pred radix2 (fx mb eb) v + v) / 2)%R.
Definition mid_hi (mb eb : Z) (v : R) : R := ((v + succ radix2 (fx mb eb) v) / 2)%R.

(** [mt * 2^(e - mb)], with [mt] a mantissa of mb+1 bits (fewer at the least exponent), is a
    finite number of the format. *)
Definition float_parts (mb eb mt e : Z) : Prop :=
  2 ^ mb <= mt < 2 ^ (mb + 1) /\ 2 - 2 ^ (eb - 1) <= e <= 2 ^ (eb - 1) - 1 \/
  0 <= mt < 2 ^ mb /\ e = 2 - 2 ^ (eb - 1).

(** The three formats the formatter knows. *)
Definition format_of (flt : ExtFloat.floatInfo) (mb eb : Z) : Prop :=
  flt = ExtFloat.float16info /\ mb = 10 /\ eb = 5 \/
  flt = ExtFloat.float32info /\ mb = 23 /\ eb = 8 \/
  flt = ExtFloat.float64info /\ mb = 52 /\ eb = 11.

(** The number an extended float stands for, without its sign. *)
Definition ext_val (f : ExtFloat.extFloat) : R := (IZR (ExtFloat.mant f) * p2 (ExtFloat.exp f))%R.

(** The digits [l] with the point after [p] of them denote a number strictly between [a] and
    [b], and every number from [a] to [b] needs at least as many digits. *)
Definition shortest_between (a b : R) (l : list Z) (p : Z) : Prop :=
  digs_norm l /\ (a < lval l p < b)%R /\
  forall z, (a <= z <= b)%R -> ~ sig_digits (Z.of_nat (length l) - 1) z.
