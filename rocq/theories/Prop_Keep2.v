(** C107 below the normal range: where floats have m+1 bits, texts of n digits with 10^n <= 2^m
    survive being read and printed.

    Floats of at least 2^(2-2^(eb-1)-mb+m) have m bits after the first; m = mb is the normal range
    of Prop_Keep.v. *)
From Coq Require Import ZArith Reals String List Lia Lra.
From Verif Require Import GoBase Spec SpecText SpecDec SpecFtoa ClaimsKeep2.
From Verif Require Import Ftoa SpecFmt.
Import ListNotations.
Open Scope Z_scope.

(** Formats 'e' and 'E' *)
Theorem C107_e_subnormal : forall w opt val fmt prec bitSize mb eb b s m x, w = 32 \/ w = 64 ->
  as_float bitSize val mb eb b s -> ieee mb eb b = VNum s (sgnR s (rn mb eb x)) -> fmt = 101 \/ fmt = 69 -> 0 <= prec -> m <= mb -> 10 ^ (prec + 1) <= 2 ^ m ->
  sig_digits (prec + 1) x -> (p2 (2 - 2 ^ (eb - 1) - mb + m) <= x)%R ->
  exists t fp, FormatFloat w opt val fmt prec bitSize = Ret t /\ Z.of_nat (List.length fp) = prec /\ prints_e fmt s fp x t.
Proof. exact c107e_low. Qed.
Print Assumptions C107_e_subnormal.

(** 123e-322 is read as the 2490th float. *)
Example C107_subnormal_e_hypotheses : let x := (IZR 123 * p10 (- (322)))%R in
  as_float 64 2490 52 11 2490 false /\ ieee 52 11 2490 = VNum false (sgnR false (rn 52 11 x)) /\ 10 ^ (2 + 1) <= 2 ^ 10 /\
  sig_digits (2 + 1) x /\ (p2 (2 - 2 ^ (11 - 1) - 52 + 10) <= x)%R.
Proof. exact c107_low_example. Qed.
Example C107_subnormal_e_example : FormatFloat 64 true 2490 101 2 64 = Ret (B "1.23e-320"%string).
Proof. vm_compute. reflexivity. Qed.

(** Formats 'g' and 'G' *)
Theorem C107_g_subnormal : forall w opt val fmt prec bitSize mb eb b s m x, w = 32 \/ w = 64 ->
  as_float bitSize val mb eb b s -> ieee mb eb b = VNum s (sgnR s (rn mb eb x)) -> fmt = 103 \/ fmt = 71 -> 1 <= prec -> 1 <= m <= mb -> 10 ^ prec <= 2 ^ m ->
  sig_digits prec x -> (p2 (2 - 2 ^ (eb - 1) - mb + m) <= x)%R ->
  exists t fp, FormatFloat w opt val fmt prec bitSize = Ret t /\ no_zero_end fp /\ prints_g (fmt - 2) prec s fp x t.
Proof. exact c107g_low. Qed.
Print Assumptions C107_g_subnormal.

Example C107_subnormal_g_example : FormatFloat 64 false 2490 71 3 64 = Ret (B "1.23E-320"%string).
Proof. vm_compute. reflexivity. Qed.

(** Format 'f': wherever a unit of the last place is more than the least float, also for 0. *)
Theorem C107_f_subnormal : forall w opt val prec bitSize mb eb b s N, w = 32 \/ w = 64 -> let x := (IZR N * p10 (- prec))%R in
  as_float bitSize val mb eb b s -> ieee mb eb b = VNum s (sgnR s (rn mb eb x)) -> 0 <= prec < 2 ^ (w - 1) -> 0 <= N < 2 ^ mb -> (p2 (2 - 2 ^ (eb - 1) - mb) < p10 (- prec))%R ->
  exists t fp, FormatFloat w opt val 102 prec bitSize = Ret t /\ Z.of_nat (List.length fp) = prec /\ prints_f s fp x t.
Proof. exact c107f_low. Qed.
Print Assumptions C107_f_subnormal.

(** 0.000003 in half precision is read as 50 * 2^-24. *)
Example C107_subnormal_f_example : FormatFloat 64 true 0x3EC9000000000000 102 6 16 = Ret (B "0.000003"%string).
Proof. vm_compute. reflexivity. Qed.

(** The shortest text *)
Theorem C107_shortest_subnormal : forall w opt val fmt prec bitSize mb eb b s m n x, w = 32 \/ w = 64 ->
  as_float bitSize val mb eb b s -> ieee mb eb b = VNum s (sgnR s (rn mb eb x)) ->
  fmt = 101 \/ fmt = 69 \/ fmt = 102 \/ fmt = 103 \/ fmt = 71 -> prec < 0 -> 1 <= m <= mb -> 10 ^ n <= 2 ^ m ->
  sig_digits n x -> (p2 (2 - 2 ^ (eb - 1) - mb + m) <= x)%R ->
  exists t fp, FormatFloat w opt val fmt prec bitSize = Ret t /\ no_zero_end fp /\ prints_short fmt s fp x t.
Proof. exact c107s_low. Qed.
Print Assumptions C107_shortest_subnormal.

Example C107_subnormal_shortest_example : FormatFloat 64 true 2490 101 (-1) 64 = Ret (B "1.23e-320"%string) /\
  FormatFloat 64 false 18 101 (-1) 64 = Ret (B "9e-323"%string).
Proof. split; vm_compute; reflexivity. Qed.
