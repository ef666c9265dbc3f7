(** C109: which numbers have the same text.

    Those that are the same float of the size asked for, for every format and precision; with
    precision -1 and format 'b' no others; with other precisions those whose signs and rounded
    numbers are equal. *)
From Coq Require Import ZArith Reals String List.
From Verif Require Import GoBase Spec SpecText SpecDec SpecFtoa ClaimsEqual.
From Verif Require Import Ftoa SpecFmt.
Import ListNotations.
Open Scope Z_scope.

(** The text depends on nothing but the float of that size. *)
Theorem C109_depends : forall w opt dst val val' fmt prec bitSize mb eb b s s',
  as_float bitSize val mb eb b s -> as_float bitSize val' mb eb b s' -> AppendFloat w opt dst val fmt prec bitSize = AppendFloat w opt dst val' fmt prec bitSize.
Proof. exact c109_depends. Qed.
Print Assumptions C109_depends.

(** 0.1 and the next float64 are the same float32. *)
Example C109_hypotheses : as_float 32 0x3FB999999999999A 23 8 0x3DCCCCCD false /\ as_float 32 0x3FB999999999999B 23 8 0x3DCCCCCD false /\ ieee 23 8 0x3DCCCCCD = VNum false (sgnR false (IZR 13421773 * p2 (- 27))).
Proof. exact c109_example. Qed.

Example C109_depends_example : AppendFloat 64 true [120] 0x3FB999999999999A 103 20 32 = Ret (B "x0.10000000149011611938"%string) /\ AppendFloat 64 true [120] 0x3FB999999999999B 103 20 32 = Ret (B "x0.10000000149011611938"%string).
Proof. split; [vm_compute; reflexivity|vm_compute; reflexivity]. Qed.

(** Precision -1 *)
Theorem C109_shortest : forall w opt opt' val val' fmt prec prec' bitSize mb eb b b' s s' v v', w = 32 \/ w = 64 ->
  as_float bitSize val mb eb b s -> ieee mb eb b = VNum s (sgnR s v) -> as_float bitSize val' mb eb b' s' -> ieee mb eb b' = VNum s' (sgnR s' v') ->
  fmt = 101 \/ fmt = 69 \/ fmt = 102 \/ fmt = 103 \/ fmt = 71 -> prec < 0 -> prec' < 0 ->
  (FormatFloat w opt val fmt prec bitSize = FormatFloat w opt' val' fmt prec' bitSize <-> b = b').
Proof. exact c109_shortest. Qed.
Print Assumptions C109_shortest.

Example C109_shortest_example : FormatFloat 64 true 0x3FB999999999999A 103 (-1) 64 = Ret (B "0.1"%string) /\ FormatFloat 64 true 0x3FB999999999999B 103 (-1) 64 = Ret (B "0.10000000000000002"%string).
Proof. split; [vm_compute; reflexivity|vm_compute; reflexivity]. Qed.

(** Precision -1, all float64s *)
Theorem C109_shortest_all : forall w opt opt' val val' fmt prec prec', w = 32 \/ w = 64 -> 0 <= val < 2 ^ 64 -> 0 <= val' < 2 ^ 64 ->
  fmt = 101 \/ fmt = 69 \/ fmt = 102 \/ fmt = 103 \/ fmt = 71 -> prec < 0 -> prec' < 0 ->
  (FormatFloat w opt val fmt prec 64 = FormatFloat w opt' val' fmt prec' 64 <-> val = val' \/ exists s s', ieee 52 11 val = VNaN s /\ ieee 52 11 val' = VNaN s').
Proof. exact c109_all. Qed.
Print Assumptions C109_shortest_all.

(** Two NaNs *)
Example C109_shortest_all_example : FormatFloat 64 true 0x7FF8000000000001 103 (-1) 64 = Ret (B "NaN"%string) /\ FormatFloat 64 true 0xFFF0000000000002 103 (-1) 64 = Ret (B "NaN"%string).
Proof. split; [vm_compute; reflexivity|vm_compute; reflexivity]. Qed.

(** Format 'b' *)
Theorem C109_b : forall w opt opt' val val' prec prec' bitSize mb eb b b' s s' v v', w = 32 \/ w = 64 ->
  as_float bitSize val mb eb b s -> ieee mb eb b = VNum s (sgnR s v) -> as_float bitSize val' mb eb b' s' -> ieee mb eb b' = VNum s' (sgnR s' v') ->
  (FormatFloat w opt val 98 prec bitSize = FormatFloat w opt' val' 98 prec' bitSize <-> b = b').
Proof. exact c109b. Qed.
Print Assumptions C109_b.

Example C109_b_example : FormatFloat 64 true 0x3FB999999999999A 98 0 64 = Ret (B "7205759403792794p-56"%string) /\ FormatFloat 64 true 0x3FB999999999999B 98 7 64 = Ret (B "7205759403792795p-56"%string).
Proof. split; [vm_compute; reflexivity|vm_compute; reflexivity]. Qed.

(** Formats 'e' and 'E' with n digits after the point *)
Theorem C109_e : forall w opt opt' val val' fmt prec bitSize mb eb b b' s s' v v', w = 32 \/ w = 64 ->
  as_float bitSize val mb eb b s -> ieee mb eb b = VNum s (sgnR s v) -> as_float bitSize val' mb eb b' s' -> ieee mb eb b' = VNum s' (sgnR s' v') ->
  fmt = 101 \/ fmt = 69 -> 0 <= prec < 2 ^ (w - 1) - 1 ->
  (FormatFloat w opt val fmt prec bitSize = FormatFloat w opt' val' fmt prec bitSize <-> s = s' /\ sig_round (prec + 1) v = sig_round (prec + 1) v').
Proof. exact c109e. Qed.
Print Assumptions C109_e.

Example C109_e_example : FormatFloat 64 true 0x3FB999999999999A 101 15 64 = Ret (B "1.000000000000000e-01"%string) /\ FormatFloat 64 false 0x3FB999999999999B 101 15 64 = Ret (B "1.000000000000000e-01"%string).
Proof. split; [vm_compute; reflexivity|vm_compute; reflexivity]. Qed.

(** Formats 'g' and 'G' with n digits *)
Theorem C109_g : forall w opt opt' val val' fmt prec bitSize mb eb b b' s s' v v', w = 32 \/ w = 64 ->
  as_float bitSize val mb eb b s -> ieee mb eb b = VNum s (sgnR s v) -> as_float bitSize val' mb eb b' s' -> ieee mb eb b' = VNum s' (sgnR s' v') ->
  fmt = 103 \/ fmt = 71 -> 0 <= prec ->
  (FormatFloat w opt val fmt prec bitSize = FormatFloat w opt' val' fmt prec bitSize <-> s = s' /\ sig_round (Z.max prec 1) v = sig_round (Z.max prec 1) v').
Proof. exact c109g. Qed.
Print Assumptions C109_g.

Example C109_g_example : FormatFloat 64 true 0x3FB999999999999A 103 16 64 = Ret (B "0.1"%string) /\ FormatFloat 64 false 0x3FB999999999999B 103 16 64 = Ret (B "0.1"%string).
Proof. split; [vm_compute; reflexivity|vm_compute; reflexivity]. Qed.

(** Format 'f' with n places *)
Theorem C109_f : forall w opt opt' val val' prec bitSize mb eb b b' s s' v v', w = 32 \/ w = 64 ->
  as_float bitSize val mb eb b s -> ieee mb eb b = VNum s (sgnR s v) -> as_float bitSize val' mb eb b' s' -> ieee mb eb b' = VNum s' (sgnR s' v') ->
  0 <= prec < 2 ^ (w - 1) ->
  (FormatFloat w opt val 102 prec bitSize = FormatFloat w opt' val' 102 prec bitSize <-> s = s' /\ round10 (- prec) v = round10 (- prec) v').
Proof. exact c109f. Qed.
Print Assumptions C109_f.

(** 0.5 and -0.5 with no places: the sign stays. *)
Example C109_f_example : FormatFloat 64 true 0x3FE0000000000000 102 0 64 = Ret (B "0"%string) /\ FormatFloat 64 true 0xBFE0000000000000 102 0 64 = Ret (B "-0"%string).
Proof. split; [vm_compute; reflexivity|vm_compute; reflexivity]. Qed.
