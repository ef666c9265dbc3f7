(** The length of the shortest texts of FormatFloat, and the texts of one number at two sizes (C91, C92).

    [as_float bitSize val mb eb b s] says that b is the pattern of the bitSize bits that FormatFloat looks at
    (SpecFtoa.v); [sig_digits n x] that x has a decimal with n digits; [prints_short fmt s fp x t] that the text
    t is x in the format fmt, with the digits fp after the point (SpecFmt.v). *)
From Coq Require Import ZArith Reals String List.
From Verif Require Import GoBase Spec SpecText SpecDec SpecFtoa Ftoa SpecFmt ClaimsLen ClaimsLenG.
Import ListNotations.
Open Scope Z_scope.

(** FormatFloat makes room for 24 bytes if the precision is negative (ftoa.go:53). *)
Theorem C91_lengths : forall w opt val fmt prec bitSize mb eb b s, w = 32 \/ w = 64 -> as_float bitSize val mb eb b s ->
  (exists t v, ieee mb eb b = VNum t v) -> fmt = 101 \/ fmt = 69 \/ fmt = 103 \/ fmt = 71 -> prec < 0 ->
  exists t, FormatFloat w opt val fmt prec bitSize = Ret t /\
    Z.of_nat (length t) <= if bitSize =? 64 then 24 else if bitSize =? 32 then 15 else 11.
Proof. exact c91. Qed.
Print Assumptions C91_lengths.

(** The bounds are attained. *)
Example C91_example :
  FormatFloat 64 true 0xFFEFFFFFFFFFFFFF 101 (-1) 64 = Ret (B "-1.7976931348623157e+308"%string) /\
  FormatFloat 64 true 0xC4EA7BE5E0000000 101 (-1) 32 = Ret (B "-1.00053634e+24"%string) /\
  FormatFloat 64 true 0xBF1A400000000000 101 (-1) 16 = Ret (B "-1.0014e-04"%string) /\
  map (fun t => Z.of_nat (length t)) [B "-1.7976931348623157e+308"%string; B "-1.00053634e+24"%string; B "-1.0014e-04"%string] = [24; 15; 11].
Proof. repeat split; vm_compute; reflexivity. Qed.

(** A float32 or half v at its own and at a larger size: the digits of the larger size still denote v at the
    smaller one, so they are at least as many.  With 'e', 'E', 'g' and 'G' the text is at least as long.  With 'f'
    it is at most one byte shorter, and that exactly if the smaller size rounds v up to a power of ten from 10^11 on
    and the greater one does not. *)
Theorem C92_two_sizes_partial : forall w opt val fmt prec z z' mb eb mb' eb' b b' s v, w = 32 \/ w = 64 -> z < z' ->
  as_float z val mb eb b s -> as_float z' val mb' eb' b' s ->
  ieee mb eb b = VNum s (sgnR s v) -> ieee mb' eb' b' = VNum s (sgnR s v) -> (0 <= v)%R ->
  fmt = 101 \/ fmt = 69 \/ fmt = 102 \/ fmt = 103 \/ fmt = 71 -> prec < 0 ->
  exists x y fp fp' t t', FormatFloat w opt val fmt prec z = Ret t /\ FormatFloat w opt val fmt prec z' = Ret t' /\
    prints_short fmt s fp x t /\ prints_short fmt s fp' y t' /\
    rn mb eb y = v /\ (forall n, sig_digits n y -> sig_digits n x) /\
    (fmt <> 102 -> Z.of_nat (length t) <= Z.of_nat (length t')) /\
    (fmt = 102 -> Z.of_nat (length t) <= Z.of_nat (length t') + 1 /\
     (Z.of_nat (length t') < Z.of_nat (length t) <-> exists j, 11 <= j /\ x = p10 j /\ (y < x)%R)).
Proof. exact c92_g. Qed.
Print Assumptions C92_two_sizes_partial.

(** The float32 next to 0.1 *)
Example C92_example : FormatFloat 64 true 0x3FB99999A0000000 101 (-1) 32 = Ret (B "1e-01"%string) /\
  FormatFloat 64 true 0x3FB99999A0000000 101 (-1) 64 = Ret (B "1.0000000149011612e-01"%string) /\
  FormatFloat 64 true 0x3FB99999A0000000 103 (-1) 32 = Ret (B "0.1"%string) /\
  FormatFloat 64 true 0x3FB99999A0000000 103 (-1) 64 = Ret (B "0.10000000149011612"%string) /\
  FormatFloat 64 true 0x42374876E0000000 102 (-1) 32 = Ret (B "100000000000"%string) /\
  FormatFloat 64 true 0x42374876E0000000 102 (-1) 64 = Ret (B "99999997952"%string).
Proof. repeat split; vm_compute; reflexivity. Qed.

(** With 'f' it may be shorter: 99999997952 is 100000000000 at 32 bits. *)
Theorem C92_two_sizes_refuted : exists val b v t t', as_float 32 val 23 8 b false /\ as_float 64 val 52 11 val false /\
  ieee 23 8 b = VNum false v /\ ieee 52 11 val = VNum false v /\
  FormatFloat 64 true val 102 (-1) 32 = Ret t /\ FormatFloat 64 true val 102 (-1) 64 = Ret t' /\
  Z.of_nat (length t') < Z.of_nat (length t).
Proof. exact c92_refuted. Qed.
Print Assumptions C92_two_sizes_refuted.
