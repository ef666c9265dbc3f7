(** The length of the texts of FormatFloat in plain and in binary notation (C104). *)
From Coq Require Import ZArith Reals String List.
From Verif Require Import GoBase Spec SpecText SpecDec SpecFtoa Ftoa SpecFmt ClaimsLenF.
Import ListNotations.
Open Scope Z_scope.

(** No shortest text has a digit behind the 324th (45th, 8th) place after the point, whatever the format:
    N is the number of the digits, without trailing zero, and k their place. *)
Theorem C104_places : forall w opt val fmt prec bitSize mb eb b s v, w = 32 \/ w = 64 ->
  as_float bitSize val mb eb b s -> ieee mb eb b = VNum s (sgnR s v) -> (0 <= v)%R -> fits mb eb v ->
  fmt = 101 \/ fmt = 69 \/ fmt = 102 \/ fmt = 103 \/ fmt = 71 -> prec < 0 ->
  exists x fp t, FormatFloat w opt val fmt prec bitSize = Ret t /\ prints_short fmt s fp x t /\ no_zero_end fp /\
    shortest_digits mb eb v x /\
    forall N k, x = (IZR N * p10 k)%R -> N mod 10 <> 0 -> - (if bitSize =? 64 then 324 else if bitSize =? 32 then 45 else 8) <= k.
Proof. exact c104_places. Qed.
Print Assumptions C104_places.

(** 'f' with as many digits as needed *)
Theorem C104_shortest : forall w opt val prec bitSize mb eb b s, w = 32 \/ w = 64 ->
  as_float bitSize val mb eb b s -> (exists t v, ieee mb eb b = VNum t v) -> prec < 0 ->
  exists t, FormatFloat w opt val 102 prec bitSize = Ret t /\
    Z.of_nat (length t) <= if bitSize =? 64 then 327 else if bitSize =? 32 then 48 else 11.
Proof. exact c104. Qed.
Print Assumptions C104_shortest.

(** The least denormals: the bounds are attained. *)
Example C104_example : forall n, n = 322%nat ->
  FormatFloat 64 true 0x8000000000000001 102 (-1) 64 = Ret (B "-0.0"%string ++ repeat 48 n ++ B "5"%string) /\
  FormatFloat 64 true 0xB6A0000000000000 102 (-1) 32 = Ret (B "-0."%string ++ repeat 48 44 ++ B "1"%string) /\
  FormatFloat 64 true 0xBE70000000000000 102 (-1) 16 = Ret (B "-0.00000006"%string) /\
  map (fun t => Z.of_nat (length t)) [B "-0.0"%string ++ repeat 48 n ++ B "5"%string; B "-0."%string ++ repeat 48 44 ++ B "1"%string; B "-0.00000006"%string] = [327; 48; 11].
Proof. intros n ->. repeat split; vm_compute; reflexivity. Qed.

(** 'f' with prec places after the point *)
Theorem C104_fixed : forall w opt val prec bitSize mb eb b s, w = 32 \/ w = 64 ->
  as_float bitSize val mb eb b s -> (exists t v, ieee mb eb b = VNum t v) -> 0 <= prec < 2 ^ (w - 1) ->
  exists t, FormatFloat w opt val 102 prec bitSize = Ret t /\
    prec + (if prec =? 0 then 1 else 2) <= Z.of_nat (length t) <=
      (if bitSize =? 64 then 310 else if bitSize =? 32 then 40 else 6) + prec + (if prec =? 0 then 0 else 1).
Proof. exact c104_fixed. Qed.
Print Assumptions C104_fixed.

Example C104_fixed_example :
  FormatFloat 64 true 0xC7EFFFFFE0000000 102 2 32 = Ret (B "-340282346638528859811704183484516925440.00"%string) /\
  FormatFloat 64 true 0xC0EFFC0000000000 102 3 16 = Ret (B "-65504.000"%string) /\
  FormatFloat 64 true 0x3FE8000000000000 102 0 64 = Ret (B "1"%string) /\
  map (fun t => Z.of_nat (length t)) [B "-340282346638528859811704183484516925440.00"%string; B "-65504.000"%string; B "1"%string] = [43; 10; 1].
Proof. repeat split; vm_compute; reflexivity. Qed.

(** 'b' *)
Theorem C104_binary : forall w opt val prec bitSize mb eb b s, w = 32 \/ w = 64 ->
  as_float bitSize val mb eb b s -> (exists t v, ieee mb eb b = VNum t v) ->
  exists t, FormatFloat w opt val 98 prec bitSize = Ret t /\
    Z.of_nat (length t) <= if bitSize =? 64 then 23 else if bitSize =? 32 then 14 else 9.
Proof. exact c104_b. Qed.
Print Assumptions C104_binary.

Example C104_binary_example :
  FormatFloat 64 true 0x8010000000000000 98 (-1) 64 = Ret (B "-4503599627370496p-1074"%string) /\
  FormatFloat 64 true 0xBA00000000000000 98 (-1) 32 = Ret (B "-8388608p-118"%string) /\
  FormatFloat 64 true 0xBF10000000000000 98 (-1) 16 = Ret (B "-1024p-24"%string) /\
  map (fun t => Z.of_nat (length t)) [B "-4503599627370496p-1074"%string; B "-1024p-24"%string] = [23; 9].
Proof. repeat split; vm_compute; reflexivity. Qed.
