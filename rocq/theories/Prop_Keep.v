(** C107: a text of few digits survives being read and printed.

    [x] is a decimal number, [rn mb eb x] the float nearest to it, which a reader gives (Spec.v).
    That 10^n <= 2^mb says: up to 15 digits for 64, 6 for 32 and 3 for 16 bits. *)
From Coq Require Import ZArith Reals String List Lia Lra.
From Verif Require Import GoBase Spec SpecText SpecDec SpecFtoa ClaimsKeep.
From Verif Require ExtFloat.
From Verif Require Import Ftoa SpecFmt.
Import ListNotations.
Open Scope Z_scope.

(** Formats 'e' and 'E' with prec digits after the point print x itself, if x has at most prec+1
    digits and is in the normal range. *)
Theorem C107_e : forall w opt val fmt prec bitSize mb eb b s x, w = 32 \/ w = 64 ->
  as_float bitSize val mb eb b s -> ieee mb eb b = VNum s (sgnR s (rn mb eb x)) -> fmt = 101 \/ fmt = 69 -> 0 <= prec -> 10 ^ (prec + 1) <= 2 ^ mb ->
  sig_digits (prec + 1) x -> (p2 (2 - 2 ^ (eb - 1)) <= x)%R ->
  exists t fp, FormatFloat w opt val fmt prec bitSize = Ret t /\ Z.of_nat (List.length fp) = prec /\ prints_e fmt s fp x t.
Proof. exact c107e. Qed.
Print Assumptions C107_e.

(** The float64 next to 123456789012345e7 is 41600 less. *)
Example C107_example : let x := IZR 1234567890123450000000 in
  as_float 64 0x4450BB448EC2F5EE 52 11 0x4450BB448EC2F5EE false /\ ieee 52 11 0x4450BB448EC2F5EE = VNum false (sgnR false (rn 52 11 x)) /\
  rn 52 11 x = IZR (1234567890123450000000 - 41600) /\ sig_digits 15 x /\ (p2 (2 - 2 ^ (11 - 1)) <= x)%R.
Proof. exact c107_example. Qed.
Example C107_example_e : 10 ^ (14 + 1) <= 2 ^ 52 /\ FormatFloat 64 true 0x4450BB448EC2F5EE 101 14 64 = Ret (B "1.23456789012345e+21"%string).
Proof. split; [lia|vm_compute; reflexivity]. Qed.

(** Formats 'g' and 'G' with prec digits do. *)
Theorem C107_g : forall w opt val fmt prec bitSize mb eb b s x, w = 32 \/ w = 64 ->
  as_float bitSize val mb eb b s -> ieee mb eb b = VNum s (sgnR s (rn mb eb x)) -> fmt = 103 \/ fmt = 71 -> 1 <= prec -> 10 ^ prec <= 2 ^ mb ->
  sig_digits prec x -> (p2 (2 - 2 ^ (eb - 1)) <= x)%R ->
  exists t fp, FormatFloat w opt val fmt prec bitSize = Ret t /\ no_zero_end fp /\ prints_g (fmt - 2) prec s fp x t.
Proof. exact c107g. Qed.
Print Assumptions C107_g.

Example C107_example_g : FormatFloat 64 true 0x4450BB448EC2F5EE 103 15 64 = Ret (B "1.23456789012345e+21"%string).
Proof. vm_compute. reflexivity. Qed.

(** Format 'f' with prec places does, if x has no more places and less than 2^mb units of the last. *)
Theorem C107_f : forall w opt val prec bitSize mb eb b s N, w = 32 \/ w = 64 -> let x := (IZR N * p10 (- prec))%R in
  as_float bitSize val mb eb b s -> ieee mb eb b = VNum s (sgnR s (rn mb eb x)) -> 0 <= prec < 2 ^ (w - 1) -> 0 <= N < 2 ^ mb -> (p2 (2 - 2 ^ (eb - 1)) <= x)%R ->
  exists t fp, FormatFloat w opt val 102 prec bitSize = Ret t /\ Z.of_nat (List.length fp) = prec /\ prints_f s fp x t.
Proof. exact c107f. Qed.
Print Assumptions C107_f.

(** 0.1, 0.30 and 1234567.8 *)
Example C107_example_f : FormatFloat 64 true 0x3FB999999999999A 102 1 64 = Ret (B "0.1"%string) /\
  FormatFloat 64 false 0x3FD3333333333333 102 2 64 = Ret (B "0.30"%string) /\
  FormatFloat 64 true 0x4132D687CCCCCCCD 102 1 64 = Ret (B "1234567.8"%string).
Proof. repeat split; vm_compute; reflexivity. Qed.

(** The shortest text is a text of x, whatever the letter. *)
Theorem C107_shortest : forall w opt val fmt prec bitSize mb eb b s n x, w = 32 \/ w = 64 ->
  as_float bitSize val mb eb b s -> ieee mb eb b = VNum s (sgnR s (rn mb eb x)) ->
  fmt = 101 \/ fmt = 69 \/ fmt = 102 \/ fmt = 103 \/ fmt = 71 -> prec < 0 -> 10 ^ n <= 2 ^ mb ->
  sig_digits n x -> (p2 (2 - 2 ^ (eb - 1)) <= x)%R ->
  exists t fp, FormatFloat w opt val fmt prec bitSize = Ret t /\ no_zero_end fp /\ prints_short fmt s fp x t.
Proof. exact c107s. Qed.
Print Assumptions C107_shortest.

Example C107_example_shortest : FormatFloat 64 true 0x4450BB448EC2F5EE 102 (-1) 64 = Ret (B "1234567890123450000000"%string) /\
  FormatFloat 64 false 0x4450BB448EC2F5EE 101 (-1) 64 = Ret (B "1.23456789012345e+21"%string).
Proof. split; vm_compute; reflexivity. Qed.

(** So the number that AssignDecimal read from up to 15 digits is printed with these digits. *)
Theorem C107_AssignDecimal : forall w opt m e10 s tr f fmt prec, w = 32 \/ w = 64 -> let x := (IZR m * p10 e10)%R in
  0 < m < 10 ^ 15 -> (p2 (-1022) <= x)%R -> (rn 52 11 x < p2 1024)%R -> ExtFloat.AssignDecimal m e10 s tr ExtFloat.float64info = Ret (f, true) ->
  fmt = 101 \/ fmt = 69 \/ fmt = 102 \/ fmt = 103 \/ fmt = 71 -> prec < 0 ->
  exists t fp, FormatFloat w opt (fst (ExtFloat.floatBits f ExtFloat.float64info)) fmt prec 64 = Ret t /\ no_zero_end fp /\ prints_short fmt s fp x t.
Proof. exact c107_read. Qed.
Print Assumptions C107_AssignDecimal.

(** -123456789012345e-20 *)
Example C107_AssignDecimal_example : exists f, ExtFloat.AssignDecimal 123456789012345 (-20) true false ExtFloat.float64info = Ret (f, true) /\
  FormatFloat 64 true (fst (ExtFloat.floatBits f ExtFloat.float64info)) 101 (-1) 64 = Ret (B "-1.23456789012345e-06"%string).
Proof. eexists. split; [vm_compute; reflexivity|vm_compute; reflexivity]. Qed.

(** With one digit more it is impossible: two numbers are read as the same float. *)
Theorem C107_sharp : forall mb eb n, (mb = 52 /\ eb = 11 /\ n = 16) \/ (mb = 23 /\ eb = 8 /\ n = 7) \/ (mb = 10 /\ eb = 5 /\ n = 4) ->
  exists x y, sig_digits n x /\ sig_digits n y /\ (p2 (2 - 2 ^ (eb - 1)) <= x < y)%R /\ rn mb eb x = rn mb eb y.
Proof. exact c107_sharp. Qed.
Print Assumptions C107_sharp.

(** 9.223372036854777e+18 and 9.223372036854778e+18 *)
Example C107_sharp_example : FormatFloat 64 true 0x43E0000000000001 101 15 64 = Ret (B "9.223372036854778e+18"%string).
Proof. vm_compute. reflexivity. Qed.

(** And so it is with a single digit below the normal range. *)
Theorem C107_subnormal : forall mb eb, (mb = 52 /\ eb = 11) \/ (mb = 23 /\ eb = 8) \/ (mb = 10 /\ eb = 5) ->
  exists x y, sig_digits 1 x /\ sig_digits 1 y /\ (0 < x < y)%R /\ rn mb eb x = rn mb eb y /\ rn mb eb x <> 0%R.
Proof. exact c107_subnormal. Qed.
Print Assumptions C107_subnormal.

(** 3e-324 and 4e-324 *)
Example C107_subnormal_example : FormatFloat 64 true 1 101 0 64 = Ret (B "5e-324"%string).
Proof. vm_compute. reflexivity. Qed.
