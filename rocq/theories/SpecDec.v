(** Specification: decimal numbers.  Uses only the record type of the model. *)
From Coq Require Import ZArith Reals List Bool.
From Flocq Require Import Core.
From Verif Require Decimal.
From Verif Require Import Spec SpecText.
Import ListNotations.
Open Scope Z_scope.

Definition radix10 : radix := Build_radix 10 eq_refl.
Definition p10 (e : Z) : R := bpow radix10 e.

(** The integer with the digit values [l]. *)
Definition dread (l : list Z) : Z := fold_left (fun a c => a * 10 + c) l 0.

(** 0.l * 10^p *)
Definition lval (l : list Z) (p : Z) : R := (IZR (dread l) * p10 (p - Z.of_nat (length l)))%R.

(** The number a decimal stands for. *)
Definition dval (a : Decimal.decimal) : R := lval (Decimal.d a) (Decimal.dp a).

Definition digits_ok (l : list Z) : Prop := Forall (fun c => 0 <= c <= 9) l.

(** Neither a leading nor a trailing zero. *)
Definition no_lead0 (l : list Z) : Prop := hd 1 l <> 0.
Definition no_trail0 (l : list Z) : Prop := last l 1 <> 0.

(** Normalised decimals. *)
Definition dnorm (a : Decimal.decimal) : Prop :=
  digits_ok (Decimal.d a) /\ no_lead0 (Decimal.d a) /\ no_trail0 (Decimal.d a) /\
  Z.of_nat (length (Decimal.d a)) <= 800 /\ (Decimal.d a = [] -> Decimal.dp a = 0).

(** At most [n] significant decimal digits. *)
Definition sig_digits (n : Z) (v : R) : Prop :=
  exists M e, v = (IZR M * p10 e)%R /\ Z.abs M < 10 ^ n.

(** The nearest multiple of 10^k, ties to even; the neighbours below and above. *)
Definition round10 (k : Z) (v : R) : R := (IZR (ZnearestE (v * p10 (- k))) * p10 k)%R.
Definition floor10 (k : Z) (v : R) : R := (IZR (Zfloor (v * p10 (- k))) * p10 k)%R.
Definition ceil10 (k : Z) (v : R) : R := (IZR (Zceil (v * p10 (- k))) * p10 k)%R.

(** The text [ip.fp] (the point is left out when [fp] is empty) with the bytes of digits in
    base 10 denotes [v]. *)
Definition denotes_plain (s : list Z) (v : R) : Prop :=
  exists ip fp, s = ip ++ (match fp with [] => [] | _ => 46 :: fp end) /\
    ip <> [] /\ all_digits 10 ip /\ all_digits 10 fp /\
    v = (IZR (read 10 (ip ++ fp)) * p10 (- Z.of_nat (length fp)))%R.

(** [V] is a number whose digits from the 801st on were cut off, giving [a]. *)
Definition cut_to (a : Decimal.decimal) (V : R) : Prop :=
  if Decimal.trunc a then (dval a < V < dval a + p10 (Decimal.dp a - 800))%R else V = dval a.
