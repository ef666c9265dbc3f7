(** C112: rounding a text again.

    [half_digits q x] and [half_places k x] say that x is half way between two decimals of q digits or two
    multiples of 10^k (SpecHalf.v). *)
From Coq Require Import ZArith Reals String List.
From Verif Require Import GoBase Spec SpecText SpecDec SpecFtoa SpecHalf ClaimsReround.
From Verif Require Import Ftoa SpecFmt.
Import ListNotations.
Open Scope Z_scope.

(** The float64 next to 0.45 is greater than 0.45: it is 4.5e-01 with two digits and with as few as identify it, and 5e-01
    with one, but 0.45 rounded to one digit (half way, to even) is 0.4. *)
Theorem C112_refuted : exists val v t x t', as_float 64 val 52 11 val false /\ ieee 52 11 val = VNum false v /\
  (forall opt, FormatFloat 64 opt val 101 1 64 = Ret t /\ FormatFloat 64 opt val 101 (-1) 64 = Ret t /\ FormatFloat 64 opt val 101 0 64 = Ret t') /\
  prints_e 101 false [53] x t /\ forall fp', ~ prints_e 101 false fp' (sig_round 1 x) t'.
Proof. exact c112_refuted. Qed.
Print Assumptions C112_refuted.

(** In 'e' ('E' for up = 32) the text with p digits after the point, rounded to q, is the text with q, unless its
    number x is half way between two numbers of that many digits, and the float is on one side of x and the rounded x
    on the other. *)
Theorem C112_e_exactly : forall w opt opt' val p q bitSize mb eb b s v up, w = 32 \/ w = 64 -> up = 0 \/ up = 32 ->
  as_float bitSize val mb eb b s -> ieee mb eb b = VNum s (sgnR s v) -> 0 <= q < p -> p < 2 ^ (w - 1) - 1 ->
  exists t fp x t' fp', FormatFloat w opt val (101 - up) p bitSize = Ret t /\ Z.of_nat (List.length fp) = p /\ prints_e (101 - up) s fp x t /\
    FormatFloat w opt' val (101 - up) q bitSize = Ret t' /\ Z.of_nat (List.length fp') = q /\
    (prints_e (101 - up) s fp' (sig_round (q + 1) x) t' <-> ~ (half_digits (q + 1) x /\ ((v - x) * (sig_round (q + 1) x - x) < 0)%R)).
Proof. exact c112_e. Qed.
Print Assumptions C112_e_exactly.

(** 0.25 is half way and it is the float itself. *)
Example C112_e_example : FormatFloat 64 true 0x3FD0000000000000 101 1 64 = Ret (B "2.5e-01"%string) /\ FormatFloat 64 true 0x3FD0000000000000 101 0 64 = Ret (B "2e-01"%string).
Proof. split; [vm_compute; reflexivity|vm_compute; reflexivity]. Qed.

(** The hypotheses of the theorems are met. *)
Example C112_hypotheses : exists v, as_float 64 0x3FDCCCCCCCCCCCCD 52 11 0x3FDCCCCCCCCCCCCD false /\ ieee 52 11 0x3FDCCCCCCCCCCCCD = VNum false (sgnR false v) /\
  FormatFloat 64 true 0x3FDCCCCCCCCCCCCD 101 (-1) 64 = Ret (B "4.5e-01"%string) /\ text_of false (IZR 45 * p10 (-2)) (B "4.5e-01"%string) /\ ~ sig_digits (0 + 1) (IZR 45 * p10 (-2)).
Proof. exact c112_example. Qed.

(** The same in 'f'. *)
Theorem C112_f_exactly : forall w opt opt' val p q bitSize mb eb b s v, w = 32 \/ w = 64 ->
  as_float bitSize val mb eb b s -> ieee mb eb b = VNum s (sgnR s v) -> 0 <= q < p -> p < 2 ^ (w - 1) ->
  exists t fp x t' fp', FormatFloat w opt val 102 p bitSize = Ret t /\ Z.of_nat (List.length fp) = p /\ prints_f s fp x t /\
    FormatFloat w opt' val 102 q bitSize = Ret t' /\ Z.of_nat (List.length fp') = q /\
    (prints_f s fp' (round10 (- q) x) t' <-> ~ (half_places (- q) x /\ ((v - x) * (round10 (- q) x - x) < 0)%R)).
Proof. exact c112_f. Qed.
Print Assumptions C112_f_exactly.

(** The float64 next to 1.125, which is 1.125, and that next to 0.145, which is less. *)
Example C112_f_example : FormatFloat 64 true 0x3FF2000000000000 102 3 64 = Ret (B "1.125"%string) /\ FormatFloat 64 true 0x3FF2000000000000 102 2 64 = Ret (B "1.12"%string).
Proof. split; [vm_compute; reflexivity|vm_compute; reflexivity]. Qed.

Example C112_f_example_below : FormatFloat 64 true 0x3FC28F5C28F5C28F 102 3 64 = Ret (B "0.145"%string) /\ FormatFloat 64 true 0x3FC28F5C28F5C28F 102 2 64 = Ret (B "0.14"%string).
Proof. split; [vm_compute; reflexivity|vm_compute; reflexivity]. Qed.

(** The same in 'g' and 'G', with p and q digits in all. *)
Theorem C112_g_exactly : forall w opt opt' val p q bitSize mb eb b s v up, w = 32 \/ w = 64 -> up = 0 \/ up = 32 ->
  as_float bitSize val mb eb b s -> ieee mb eb b = VNum s (sgnR s v) -> 1 <= q < p ->
  exists t fp x t' fp', FormatFloat w opt val (103 - up) p bitSize = Ret t /\ no_zero_end fp /\ prints_g (101 - up) p s fp x t /\
    FormatFloat w opt' val (103 - up) q bitSize = Ret t' /\ no_zero_end fp' /\
    (prints_g (101 - up) q s fp' (sig_round q x) t' <-> ~ (half_digits q x /\ ((v - x) * (sig_round q x - x) < 0)%R)).
Proof. exact c112_g. Qed.
Print Assumptions C112_g_exactly.

(** 1.125 *)
Example C112_g_example : FormatFloat 64 true 0x3FF2000000000000 103 4 64 = Ret (B "1.125"%string) /\ FormatFloat 64 true 0x3FF2000000000000 103 3 64 = Ret (B "1.12"%string).
Proof. split; [vm_compute; reflexivity|vm_compute; reflexivity]. Qed.

(** The same for the text with as few digits as identify the float, in any format, that has more than q + 1 digits. *)
Theorem C112_shortest_exactly : forall w opt opt' val fmt prec q bitSize mb eb b s v t x up, w = 32 \/ w = 64 -> up = 0 \/ up = 32 ->
  as_float bitSize val mb eb b s -> ieee mb eb b = VNum s (sgnR s v) ->
  fmt = 101 \/ fmt = 69 \/ fmt = 102 \/ fmt = 103 \/ fmt = 71 -> prec < 0 ->
  FormatFloat w opt val fmt prec bitSize = Ret t -> text_of s x t ->
  0 <= q < 2 ^ (w - 1) - 1 -> ~ sig_digits (q + 1) x ->
  exists t' fp', FormatFloat w opt' val (101 - up) q bitSize = Ret t' /\ Z.of_nat (List.length fp') = q /\
    (prints_e (101 - up) s fp' (sig_round (q + 1) x) t' <-> ~ (half_digits (q + 1) x /\ ((v - x) * (sig_round (q + 1) x - x) < 0)%R)).
Proof. exact c112_short. Qed.
Print Assumptions C112_shortest_exactly.

(** 1.0000000000000002 *)
Example C112_shortest_example : FormatFloat 64 true 0x3FF0000000000001 103 (-1) 64 = Ret (B "1.0000000000000002"%string) /\ FormatFloat 64 true 0x3FF0000000000001 101 4 64 = Ret (B "1.0000e+00"%string).
Proof. split; [vm_compute; reflexivity|vm_compute; reflexivity]. Qed.
