(** The shortest text of FormatFloat and the text rounded to as many digits (C105).

    [as_float bitSize val mb eb b s] says that b is the pattern of the bitSize bits that FormatFloat looks at
    (SpecFmt.v); [prints_e fmt s fp x t] that the text t is x in the format 'e' or 'E', with the digits fp after
    the point; [sig_round n v] is v rounded to n digits, ties to even. *)
From Coq Require Import ZArith Reals String List.
From Verif Require Import GoBase Spec SpecText SpecDec SpecFtoa Ftoa SpecFmt ClaimsSame.
Import ListNotations.
Open Scope Z_scope.

(** Rounding to the number of digits of the shortest text gives the shortest text exactly if what it gives reads
    back as v and is not above v in the case of C64, where the upper end of the numbers that round to v rounds to
    the next float and has fewer digits than the shortest text. *)
Theorem C105_rounded_exactly : forall w opt val fmt prec bitSize mb eb b s v t fp x, w = 32 \/ w = 64 ->
  as_float bitSize val mb eb b s -> ieee mb eb b = VNum s (sgnR s v) -> fmt = 101 \/ fmt = 69 -> prec < 0 ->
  FormatFloat w opt val fmt prec bitSize = Ret t -> prints_e fmt s fp x t ->
  exists t', FormatFloat w opt val fmt (Z.of_nat (length fp)) bitSize = Ret t' /\
    (t = t' <-> rn mb eb (sig_round (Z.of_nat (length fp) + 1) v) = v /\
      ((exists n, rn mb eb (mid_hi mb eb v) <> v /\ sig_digits n (mid_hi mb eb v) /\ ~ sig_digits n x) ->
       (sig_round (Z.of_nat (length fp) + 1) v <= v)%R)).
Proof. exact c105. Qed.
Print Assumptions C105_rounded_exactly.

(** So it does for all floats that are not a power of two, outside the case of C64. *)
Theorem C105_rounded_partial : forall w opt val fmt prec bitSize mb eb b s v t fp x, w = 32 \/ w = 64 ->
  as_float bitSize val mb eb b s -> ieee mb eb b = VNum s (sgnR s v) -> fmt = 101 \/ fmt = 69 -> prec < 0 ->
  FormatFloat w opt val fmt prec bitSize = Ret t -> prints_e fmt s fp x t ->
  (forall k, v <> p2 k) ->
  (forall n, rn mb eb (mid_hi mb eb v) <> v -> sig_digits n (mid_hi mb eb v) -> sig_digits n x) ->
  FormatFloat w opt val fmt (Z.of_nat (length fp)) bitSize = Ret t.
Proof. exact c105_partial. Qed.
Print Assumptions C105_rounded_partial.

(** The float64 next to 2/3 and the half next to 1/3. *)
Example C105_example :
  FormatFloat 64 true 0x3FE5555555555555 101 (-1) 64 = Ret (B "6.666666666666666e-01"%string) /\
  FormatFloat 64 true 0x3FE5555555555555 101 15 64 = Ret (B "6.666666666666666e-01"%string) /\
  FormatFloat 64 true 0x3FD5540000000000 101 (-1) 16 = Ret (B "3.333e-01"%string) /\
  FormatFloat 64 true 0x3FD5540000000000 101 3 16 = Ret (B "3.333e-01"%string).
Proof. repeat split; vm_compute; reflexivity. Qed.

(** A power of two: of the 16-digit decimals only 5.684341886080802e-14 reads back as 2^-44, but
    5.684341886080801e-14 is nearer. *)
Theorem C105_rounded_refuted : exists val v t t', as_float 64 val 52 11 val false /\ ieee 52 11 val = VNum false v /\
  (forall opt, FormatFloat 64 opt val 101 (-1) 64 = Ret t) /\ (forall opt, FormatFloat 64 opt val 101 15 64 = Ret t') /\
  t = B "5.684341886080802e-14"%string /\ t' = B "5.684341886080801e-14"%string.
Proof. exact c105_refuted. Qed.
Print Assumptions C105_rounded_refuted.

(** Not a power of two: the case of C64. *)
Theorem C105_odd_refuted : exists val b, as_float 32 val 23 8 b false /\ ieee 23 8 b = VNum false 29999998976 /\
  (forall opt, FormatFloat 64 opt val 101 (-1) 32 = Ret (B "2.9999998e+10"%string)) /\
  (forall opt, FormatFloat 64 opt val 101 7 32 = Ret (B "2.9999999e+10"%string)).
Proof. exact c105_refuted_odd. Qed.
Print Assumptions C105_odd_refuted.
