(** Specification: the texts of floating-point numbers.  Independent of the models. *)
From Coq Require Import ZArith Reals List Bool.
From Flocq Require Import Core.
From Verif Require Import Spec SpecText SpecDec SpecFtoa.
Import ListNotations.
Open Scope Z_scope.

(** A minus sign for negative numbers (and -0); the point, left out before no digits. *)
Definition sign_text (ng : bool) : list Z := if ng then [45] else [].
Definition point (fp : list Z) : list Z := match fp with [] => [] | _ => 46 :: fp end.

(** The exponent [X]: a sign and at least two digits, no more than needed. *)
Definition exp_digits (X : Z) (s : list Z) : Prop :=
  exists ed, s = (if X <? 0 then 45 else 43) :: ed /\ all_digits 10 ed /\ read 10 ed = Z.abs X /\
    (length ed = 2%nat \/ 100 <= Z.abs X /\ numeral 10 ed).

(** [s] is -d.ddde±dd with the letter [c] and the digits [fp] after the point, and denotes
    [x] (or -x for [ng]).  The first digit is 0 only for the number 0. *)
Definition prints_e (c : Z) (ng : bool) (fp : list Z) (x : R) (s : list Z) : Prop :=
  exists a X xs, s = sign_text ng ++ a :: point fp ++ c :: xs /\ exp_digits X xs /\
    all_digits 10 (a :: fp) /\
    x = (IZR (read 10 (a :: fp)) * p10 (X - Z.of_nat (length fp)))%R /\
    (a = 48 -> x = 0%R /\ X = 0).

(** [s] is -ddd.ddd with the digits [fp] after the point, and denotes [x] (or -x). *)
Definition prints_f (ng : bool) (fp : list Z) (x : R) (s : list Z) : Prop :=
  exists ip, s = sign_text ng ++ ip ++ point fp /\ numeral 10 ip /\ all_digits 10 fp /\
    x = (IZR (read 10 (ip ++ fp)) * p10 (- Z.of_nat (length fp)))%R.

(** Format 'g': scientific (letter [c]) if x < 10^-4 or x >= 10^t, plain otherwise. *)
Definition prints_g (c t : Z) (ng : bool) (fp : list Z) (x : R) (s : list Z) : Prop :=
  ((x = 0 \/ p10 (-4) <= x < p10 t)%R -> prints_f ng fp x s) /\
  ((0 < x < p10 (-4) \/ p10 (-4) <= x /\ p10 t <= x)%R -> prints_e c ng fp x s).

(** No trailing zero. *)
Definition no_zero_end (fp : list Z) : Prop := last fp 49 <> 48.

(** The format letter [c] with as many digits as needed; 'g' and 'G' are plain up to 10^6. *)
Definition prints_short (c : Z) (ng : bool) (fp : list Z) (x : R) (s : list Z) : Prop :=
  (c = 101 \/ c = 69) /\ prints_e c ng fp x s \/
  c = 102 /\ prints_f ng fp x s \/
  (c = 103 \/ c = 71) /\ prints_g (c - 2) 6 ng fp x s.

(** No decimal with fewer digits than [x] rounds to [v]. *)
Definition fewest_digits (mb eb : Z) (v x : R) : Prop :=
  forall z n, rn mb eb z = v -> sig_digits n z -> sig_digits n x.

(** [x] is less than one unit of its last digit away from [v]. *)
Definition last_digit_ok (v x : R) : Prop :=
  forall N k, x = (IZR N * p10 k)%R -> N mod 10 <> 0 -> (Rabs (x - v) < p10 k)%R.

(** [x] is as close to [v] as any number that rounds to [v] and needs no more digits, unless the
    upper end of the numbers that round to [v] itself rounds to the next float and needs fewer
    digits than [x]. *)
Definition closest_digits (mb eb : Z) (v x : R) : Prop :=
  (forall n, rn mb eb (mid_hi mb eb v) <> v -> sig_digits n (mid_hi mb eb v) -> sig_digits n x) ->
  forall z, rn mb eb z = v -> (forall n, sig_digits n x -> sig_digits n z) -> (Rabs (x - v) <= Rabs (z - v))%R.

(** Which decimal is chosen: the closest to [v], of two equally close ones that with the even
    last digit; but where the upper end of the numbers that round to [v] itself rounds to the
    next float and needs fewer digits than [x], the greatest not above [v]. *)
Definition chosen_digits (mb eb : Z) (v x : R) : Prop :=
  ((forall n, rn mb eb (mid_hi mb eb v) <> v -> sig_digits n (mid_hi mb eb v) -> sig_digits n x) ->
   forall z, rn mb eb z = v -> (forall n, sig_digits n x -> sig_digits n z) ->
     (Rabs (x - v) <= Rabs (z - v))%R /\
     (Rabs (x - v) = Rabs (z - v) -> z <> x -> exists N k, x = IZR (2 * N) * p10 k /\ Rabs (x - z) = p10 k)%R) /\
  ((exists n, rn mb eb (mid_hi mb eb v) <> v /\ sig_digits n (mid_hi mb eb v) /\ ~ sig_digits n x) ->
   (x <= v)%R /\ forall z, rn mb eb z = v -> (forall n, sig_digits n x -> sig_digits n z) -> (z <= v)%R -> (z <= x)%R).

(** [x] is the decimal that stands for the float [v]. *)
Definition shortest_digits (mb eb : Z) (v x : R) : Prop :=
  (0 <= x)%R /\ rn mb eb x = v /\ fewest_digits mb eb v x /\ chosen_digits mb eb v x.

(** [b] is [val] (a float64) as a float of [bitSize] bits, format (mb, eb), rounded to
    nearest even.  Half precision: only for numbers whose conversion rounds correctly (see
    C05). *)
Definition as_float (bitSize val mb eb b : Z) (s : bool) : Prop :=
  0 <= val < 2 ^ 64 /\ 0 <= b < 2 ^ (mb + eb + 1) /\
  exists v, ieee 52 11 val = VNum s v /\ ieee mb eb b = ieee_round mb eb s v /\
    (bitSize = 64 /\ mb = 52 /\ eb = 11 \/ bitSize = 32 /\ mb = 23 /\ eb = 8 \/
     bitSize = 16 /\ mb = 10 /\ eb = 5 /\
       (v = 0%R \/ (p2 (-14) <= Rabs v < p2 16)%R \/ fits 10 5 v)).

(** [s] is a text of the number [x] (or -x for [ng]) in one of the notations. *)
Definition text_of (ng : bool) (x : R) (s : list Z) : Prop :=
  exists fp, prints_f ng fp x s \/ prints_e 101 ng fp x s \/ prints_e 69 ng fp x s.
