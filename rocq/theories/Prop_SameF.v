(** The shortest text of FormatFloat in plain notation and the text rounded to as many places (C106).

    [as_float bitSize val mb eb b s] says that b is the pattern of the bitSize bits that FormatFloat looks at
    (SpecFmt.v); [prints_f s fp x t] that the text t is x in the format 'f', with the digits fp after the point;
    [round10 (-p) v] is v rounded to p places after the point, ties to even. *)
From Coq Require Import ZArith Reals String List.
From Verif Require Import GoBase Spec SpecText SpecDec SpecFtoa Ftoa SpecFmt ClaimsSameF.
Import ListNotations.
Open Scope Z_scope.

(** If the shortest text has digits after the point, rounding to as many places gives the same text exactly if what
    it gives reads back as v and is not above v in the case of C64. *)
Theorem C106_places_exactly : forall w opt val prec bitSize mb eb b s v t fp x, w = 32 \/ w = 64 ->
  as_float bitSize val mb eb b s -> ieee mb eb b = VNum s (sgnR s v) -> prec < 0 ->
  FormatFloat w opt val 102 prec bitSize = Ret t -> prints_f s fp x t -> fp <> [] ->
  exists t', FormatFloat w opt val 102 (Z.of_nat (length fp)) bitSize = Ret t' /\
    (t = t' <-> rn mb eb (round10 (- Z.of_nat (length fp)) v) = v /\
      ((exists n, rn mb eb (mid_hi mb eb v) <> v /\ sig_digits n (mid_hi mb eb v) /\ ~ sig_digits n x) ->
       (round10 (- Z.of_nat (length fp)) v <= v)%R)).
Proof. exact c106_places. Qed.
Print Assumptions C106_places_exactly.

(** If it has none, rounding to an integer gives the same text exactly for the numbers below 2^53 (2^24, 2^11) and
    for those whose shortest text is the exact one. *)
Theorem C106_whole_exactly : forall w opt val prec bitSize mb eb b s v t x, w = 32 \/ w = 64 ->
  as_float bitSize val mb eb b s -> ieee mb eb b = VNum s (sgnR s v) -> prec < 0 ->
  FormatFloat w opt val 102 prec bitSize = Ret t -> prints_f s [] x t ->
  exists t', FormatFloat w opt val 102 0 bitSize = Ret t' /\ (t = t' <-> (v < p2 (mb + 1))%R \/ x = v).
Proof. exact c106_whole. Qed.
Print Assumptions C106_whole_exactly.

(** So rounding gives the shortest text for all numbers without digits after the point below 2^53 (2^24, 2^11) and
    for all others that are not a power of two, outside the case of C64. *)
Theorem C106_rounded_partial : forall w opt val prec bitSize mb eb b s v t fp x, w = 32 \/ w = 64 ->
  as_float bitSize val mb eb b s -> ieee mb eb b = VNum s (sgnR s v) -> prec < 0 ->
  FormatFloat w opt val 102 prec bitSize = Ret t -> prints_f s fp x t ->
  (fp = [] -> (v < p2 (mb + 1))%R) ->
  (fp <> [] -> (forall k, v <> p2 k) /\
    (forall n, rn mb eb (mid_hi mb eb v) <> v -> sig_digits n (mid_hi mb eb v) -> sig_digits n x)) ->
  FormatFloat w opt val 102 (Z.of_nat (length fp)) bitSize = Ret t.
Proof. exact c106_partial. Qed.
Print Assumptions C106_rounded_partial.

(** The float64 next to 2/3, the half 33.34375, the float32 123456784. *)
Example C106_example :
  FormatFloat 64 true 0x3FE5555555555555 102 (-1) 64 = Ret (B "0.6666666666666666"%string) /\
  FormatFloat 64 true 0x3FE5555555555555 102 16 64 = Ret (B "0.6666666666666666"%string) /\
  FormatFloat 64 true 0x4040AC0000000000 102 (-1) 16 = Ret (B "33.34"%string) /\
  FormatFloat 64 true 0x4040AC0000000000 102 2 16 = Ret (B "33.34"%string) /\
  FormatFloat 64 true 0x419D6F3440000000 102 (-1) 32 = Ret (B "123456780"%string) /\
  FormatFloat 64 true 0x419D6F3440000000 102 0 32 = Ret (B "123456784"%string).
Proof. repeat split; vm_compute; reflexivity. Qed.

(** 2^-44 and 2^60. *)
Theorem C106_places_refuted : exists val v, as_float 64 val 52 11 val false /\ ieee 52 11 val = VNum false v /\
  (forall opt, FormatFloat 64 opt val 102 (-1) 64 = Ret (B "0.00000000000005684341886080802"%string)) /\
  (forall opt, FormatFloat 64 opt val 102 29 64 = Ret (B "0.00000000000005684341886080801"%string)).
Proof. exact c106_refuted. Qed.
Print Assumptions C106_places_refuted.

Theorem C106_whole_refuted : exists val v, as_float 64 val 52 11 val false /\ ieee 52 11 val = VNum false v /\ v = p2 60 /\
  (forall opt, FormatFloat 64 opt val 102 (-1) 64 = Ret (B "1152921504606847000"%string)) /\
  (forall opt, FormatFloat 64 opt val 102 0 64 = Ret (B "1152921504606846976"%string)).
Proof. exact c106_whole_refuted. Qed.
Print Assumptions C106_whole_refuted.
