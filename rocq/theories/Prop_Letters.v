(** C111: how the texts of the format letters are related. *)
From Coq Require Import ZArith Reals String List.
From Verif Require Import GoBase Spec SpecText SpecDec SpecFtoa ClaimsLetters.
From Verif Require Import Ftoa SpecFmt.
Import ListNotations.
Open Scope Z_scope.

(** 'E' and 'G' print what 'e' and 'g' do, with E instead of e. *)
Theorem C111_upper : forall w opt opt' val prec bitSize mb eb b s v, w = 32 \/ w = 64 ->
  as_float bitSize val mb eb b s -> ieee mb eb b = VNum s (sgnR s v) ->
  (prec < 2 ^ (w - 1) - 1 -> exists t, FormatFloat w opt val 101 prec bitSize = Ret t /\ FormatFloat w opt' val 69 prec bitSize = Ret (map (fun c => if c =? 101 then 69 else c) t)) /\
  (exists t, FormatFloat w opt val 103 prec bitSize = Ret t /\ FormatFloat w opt' val 71 prec bitSize = Ret (map (fun c => if c =? 101 then 69 else c) t)).
Proof. exact c111_upper. Qed.
Print Assumptions C111_upper.

(** 2^-44 *)
Example C111_upper_example : FormatFloat 64 true 0x3D30000000000000 101 3 64 = Ret (B "5.684e-14"%string) /\ FormatFloat 64 false 0x3D30000000000000 69 3 64 = Ret (B "5.684E-14"%string).
Proof. split; [vm_compute; reflexivity|vm_compute; reflexivity]. Qed.

(** The hypotheses are met. *)
Example C111_hypotheses : as_float 64 0x3D30000000000000 52 11 0x3D30000000000000 false /\ ieee 52 11 0x3D30000000000000 = VNum false (sgnR false (IZR (2 ^ 52) * p2 (- 96))).
Proof. exact c111_example. Qed.

(** With precision -1 'g' ('G' for up = 32) prints what 'f' does, for 0 and from the float nearest to 10^-4
    up to 10^6, and what 'e' ('E') does, for other numbers. *)
Theorem C111_g : forall w opt opt' val prec prec' bitSize mb eb b s v up, w = 32 \/ w = 64 -> up = 0 \/ up = 32 ->
  as_float bitSize val mb eb b s -> ieee mb eb b = VNum s (sgnR s v) -> prec < 0 -> prec' < 0 ->
  (v = 0%R \/ (rn mb eb (p10 (-4)) <= v < p10 6)%R -> FormatFloat w opt val (103 - up) prec bitSize = FormatFloat w opt' val 102 prec' bitSize) /\
  (v <> 0%R /\ ~ (rn mb eb (p10 (-4)) <= v < p10 6)%R -> FormatFloat w opt val (103 - up) prec bitSize = FormatFloat w opt' val (101 - up) prec' bitSize).
Proof. exact c111_g. Qed.
Print Assumptions C111_g.

(** The floats nearest to 10^-4 and to 10^6-1, the float below 10^-4 and 10^6 *)
Example C111_g_example_f : FormatFloat 64 true 0x3F1A36E2EB1C432D 103 (-1) 64 = Ret (B "0.0001"%string) /\ FormatFloat 64 true 0x412E847E00000000 71 (-1) 64 = Ret (B "999999"%string).
Proof. split; [vm_compute; reflexivity|vm_compute; reflexivity]. Qed.

Example C111_g_example_e : FormatFloat 64 true 0x3F1A36E2EB1C432C 103 (-1) 64 = Ret (B "9.999999999999999e-05"%string) /\ FormatFloat 64 true 0x412E848000000000 71 (-1) 64 = Ret (B "1E+06"%string).
Proof. split; [vm_compute; reflexivity|vm_compute; reflexivity]. Qed.

(** With a precision p from 0 'g' ('G') prints what 'f' or 'e' ('E') do with the number of digits left after the point
    when the zeros at the end of the number rounded to p digits (to one for p = 0) are dropped. *)
Theorem C111_g_fixed : forall w opt opt' val prec bitSize mb eb b s v up, w = 32 \/ w = 64 -> up = 0 \/ up = 32 ->
  as_float bitSize val mb eb b s -> ieee mb eb b = VNum s (sgnR s v) -> 0 <= prec < 2 ^ (w - 1) - 8 ->
  let p := Z.max prec 1 in let x := sig_round p v in
  exists t fp, FormatFloat w opt val (103 - up) prec bitSize = Ret t /\ no_zero_end fp /\ prints_g (101 - up) p s fp x t /\
    (x = 0%R \/ (p10 (-4) <= x < p10 p)%R -> FormatFloat w opt' val 102 (Z.of_nat (List.length fp)) bitSize = Ret t) /\
    (x <> 0%R /\ ~ (p10 (-4) <= x < p10 p)%R -> FormatFloat w opt' val (101 - up) (Z.of_nat (List.length fp)) bitSize = Ret t).
Proof. exact c111_g_fixed. Qed.
Print Assumptions C111_g_fixed.

(** 2^-44 rounded to two digits and 3/2 rounded to nine; 3 * 2^20 rounded to three *)
Example C111_g_fixed_example : FormatFloat 64 true 0x3D30000000000000 103 2 64 = Ret (B "5.7e-14"%string) /\ FormatFloat 64 true 0x3D30000000000000 101 1 64 = Ret (B "5.7e-14"%string).
Proof. split; [vm_compute; reflexivity|vm_compute; reflexivity]. Qed.

Example C111_g_fixed_example_f : FormatFloat 64 true 0x3FF8000000000000 103 9 64 = Ret (B "1.5"%string) /\ FormatFloat 64 true 0x3FF8000000000000 102 1 64 = Ret (B "1.5"%string).
Proof. split; [vm_compute; reflexivity|vm_compute; reflexivity]. Qed.

Example C111_g_fixed_example_zeros : FormatFloat 64 true 0x4148000000000000 103 3 64 = Ret (B "3.15e+06"%string) /\ FormatFloat 64 true 0x4148000000000000 101 2 64 = Ret (B "3.15e+06"%string).
Proof. split; [vm_compute; reflexivity|vm_compute; reflexivity]. Qed.
