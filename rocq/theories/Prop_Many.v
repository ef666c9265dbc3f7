(** C108: enough digits are the number itself, no fewer are, and more digits are never further
    from it.

    767 digits (112, 21) and 1074 places (149, 24) are enough for 64 (32, 16) bits. *)
From Coq Require Import ZArith Reals String List.
From Verif Require Import GoBase Spec SpecText SpecDec SpecFtoa ClaimsMany.
From Verif Require Import Ftoa SpecFmt.
Import ListNotations.
Open Scope Z_scope.

(** Formats 'e' and 'E' *)
Theorem C108_e : forall w opt val fmt prec bitSize mb eb b s v, w = 32 \/ w = 64 ->
  as_float bitSize val mb eb b s -> ieee mb eb b = VNum s (sgnR s v) -> fmt = 101 \/ fmt = 69 -> prec < 2 ^ (w - 1) - 1 ->
  (mb = 52 -> 766 <= prec) -> (mb = 23 -> 111 <= prec) -> (mb = 10 -> 20 <= prec) ->
  exists t fp, FormatFloat w opt val fmt prec bitSize = Ret t /\ Z.of_nat (List.length fp) = prec /\ prints_e fmt s fp v t.
Proof. exact c108e. Qed.
Print Assumptions C108_e.

(** The least half precision number, 2^-24, has 17 digits. *)
Example C108_e_example : FormatFloat 64 true 0x3E70000000000000 101 20 16 = Ret (B "5.96046447753906250000e-08"%string).
Proof. vm_compute. reflexivity. Qed.

(** The hypotheses are met. *)
Example C108_hypotheses : as_float 16 0x3E70000000000000 10 5 1 false /\ ieee 10 5 1 = VNum false (sgnR false (IZR 1 * p2 (-24))).
Proof. exact c108_example. Qed.

(** Formats 'g' and 'G' *)
Theorem C108_g : forall w opt val fmt prec bitSize mb eb b s v, w = 32 \/ w = 64 ->
  as_float bitSize val mb eb b s -> ieee mb eb b = VNum s (sgnR s v) -> fmt = 103 \/ fmt = 71 ->
  (mb = 52 -> 767 <= prec) -> (mb = 23 -> 112 <= prec) -> (mb = 10 -> 21 <= prec) ->
  exists t fp, FormatFloat w opt val fmt prec bitSize = Ret t /\ no_zero_end fp /\ prints_g (fmt - 2) prec s fp v t.
Proof. exact c108g. Qed.
Print Assumptions C108_g.

Example C108_g_example : FormatFloat 64 false 0x3E70000000000000 103 21 16 = Ret (B "5.9604644775390625e-08"%string).
Proof. vm_compute. reflexivity. Qed.

(** Format 'f' *)
Theorem C108_f : forall w opt val prec bitSize mb eb b s v, w = 32 \/ w = 64 ->
  as_float bitSize val mb eb b s -> ieee mb eb b = VNum s (sgnR s v) -> prec < 2 ^ (w - 1) ->
  (mb = 52 -> 1074 <= prec) -> (mb = 23 -> 149 <= prec) -> (mb = 10 -> 24 <= prec) ->
  exists t fp, FormatFloat w opt val 102 prec bitSize = Ret t /\ Z.of_nat (List.length fp) = prec /\ prints_f s fp v t.
Proof. exact c108f. Qed.
Print Assumptions C108_f.

Example C108_f_example : FormatFloat 64 true 0x3E70000000000000 102 24 16 = Ret (B "0.000000059604644775390625"%string).
Proof. vm_compute. reflexivity. Qed.

(** No fewer digits or places are enough for the greatest number with the least exponent. *)
Theorem C108_sharp : forall bitSize mb eb n p val, bitSize = 64 /\ mb = 52 /\ eb = 11 /\ n = 767 /\ p = 1074 /\ val = 0x001FFFFFFFFFFFFF \/ bitSize = 32 /\ mb = 23 /\ eb = 8 /\ n = 112 /\ p = 149 /\ val = 0x381FFFFFE0000000 \/
    bitSize = 16 /\ mb = 10 /\ eb = 5 /\ n = 21 /\ p = 24 /\ val = 0x3F1FFC0000000000 ->
  let v := (IZR (2 ^ (mb + 1) - 1) * p2 (- p))%R in
  as_float bitSize val mb eb (2 ^ (mb + 1) - 1) false /\ ieee mb eb (2 ^ (mb + 1) - 1) = VNum false v /\
  forall w opt, w = 32 \/ w = 64 ->
  (forall prec t fp x, 0 <= prec < n - 1 -> FormatFloat w opt val 101 prec bitSize = Ret t -> prints_e 101 false fp x t -> x <> v) /\
  (forall prec t fp x, 0 <= prec < p -> FormatFloat w opt val 102 prec bitSize = Ret t -> prints_f false fp x t -> x <> v).
Proof. exact c108_sharp. Qed.
Print Assumptions C108_sharp.

(** 20 digits and 23 places are not enough for (2^11-1)*2^-24 in half precision. *)
Example C108_sharp_example_e : FormatFloat 64 true 0x3F1FFC0000000000 101 18 16 = Ret (B "1.220107078552246094e-04"%string).
Proof. vm_compute. reflexivity. Qed.

Example C108_sharp_example_f : FormatFloat 64 true 0x3F1FFC0000000000 102 23 16 = Ret (B "0.00012201070785522460938"%string).
Proof. vm_compute. reflexivity. Qed.

(** More digits of 'e' and 'E' are never further from the number. *)
Theorem C108_closer_e : forall w opt opt' val fmt fmt' prec prec' bitSize mb eb b s v, w = 32 \/ w = 64 ->
  as_float bitSize val mb eb b s -> ieee mb eb b = VNum s (sgnR s v) -> fmt = 101 \/ fmt = 69 -> fmt' = 101 \/ fmt' = 69 -> 0 <= prec <= prec' -> prec' < 2 ^ (w - 1) - 1 ->
  exists t t' fp fp' x x', FormatFloat w opt val fmt prec bitSize = Ret t /\ prints_e fmt s fp x t /\ FormatFloat w opt' val fmt' prec' bitSize = Ret t' /\ prints_e fmt' s fp' x' t' /\
    (Rabs (x' - v) <= Rabs (x - v))%R.
Proof. exact c108_closer_e. Qed.
Print Assumptions C108_closer_e.

(** The float nearest to 0.15 is a little less. *)
Example C108_closer_e_example : FormatFloat 64 true 0x3FC3333333333333 101 0 64 = Ret (B "1e-01"%string) /\ FormatFloat 64 true 0x3FC3333333333333 69 17 64 = Ret (B "1.49999999999999994E-01"%string).
Proof. split; [vm_compute; reflexivity|vm_compute; reflexivity]. Qed.

(** The same of 'g' and 'G', in which precision 0 means 1 *)
Theorem C108_closer_g : forall w opt opt' val fmt fmt' prec prec' bitSize mb eb b s v, w = 32 \/ w = 64 ->
  as_float bitSize val mb eb b s -> ieee mb eb b = VNum s (sgnR s v) -> fmt = 103 \/ fmt = 71 -> fmt' = 103 \/ fmt' = 71 -> 0 <= prec <= prec' ->
  exists t t' fp fp' x x', FormatFloat w opt val fmt prec bitSize = Ret t /\ prints_g (fmt - 2) (Z.max prec 1) s fp x t /\ FormatFloat w opt' val fmt' prec' bitSize = Ret t' /\ prints_g (fmt' - 2) (Z.max prec' 1) s fp' x' t' /\
    (Rabs (x' - v) <= Rabs (x - v))%R.
Proof. exact c108_closer_g. Qed.
Print Assumptions C108_closer_g.

Example C108_closer_g_example : FormatFloat 64 true 0x3FC3333333333333 103 0 64 = Ret (B "0.1"%string) /\ FormatFloat 64 true 0x3FC3333333333333 71 2 64 = Ret (B "0.15"%string).
Proof. split; [vm_compute; reflexivity|vm_compute; reflexivity]. Qed.

(** And of 'f' *)
Theorem C108_closer_f : forall w opt opt' val prec prec' bitSize mb eb b s v, w = 32 \/ w = 64 ->
  as_float bitSize val mb eb b s -> ieee mb eb b = VNum s (sgnR s v) -> 0 <= prec <= prec' -> prec' < 2 ^ (w - 1) ->
  exists t t' fp fp' x x', FormatFloat w opt val 102 prec bitSize = Ret t /\ prints_f s fp x t /\ FormatFloat w opt' val 102 prec' bitSize = Ret t' /\ prints_f s fp' x' t' /\
    (Rabs (x' - v) <= Rabs (x - v))%R.
Proof. exact c108_closer_f. Qed.
Print Assumptions C108_closer_f.

Example C108_closer_f_example : FormatFloat 64 true 0x3FE0000000000000 102 0 64 = Ret (B "0"%string) /\ FormatFloat 64 true 0x3FE0000000000000 102 1 64 = Ret (B "0.5"%string).
Proof. split; [vm_compute; reflexivity|vm_compute; reflexivity]. Qed.
