(** Properties of FormatFloat (internal/strconv/ftoa.go, C51 to C57).

    [w] is the width of int; [opt] is the package variable optimize, so each theorem with
    an arbitrary [opt] speaks of both code paths.  [as_float bitSize val mb eb b s] says
    that [b] is the float64 [val] as a float of bitSize bits; [prints_e], [prints_f],
    [prints_g] and [prints_short] relate a text to the number it denotes (SpecFmt.v). *)
From Coq Require Import ZArith Reals String List Bool Lia Lra.
From Flocq Require Import Core.
From Verif Require Import GoBase Spec SpecText SpecDec SpecFtoa SpecFmt ClaimsFtoa.
From Verif Require Import Ftoa.
Import ListNotations.
Open Scope Z_scope.

(** Formats 'e' and 'E': prec digits after the point, correctly rounded.  Missing from the
    property: prec = MaxInt (see C51_refuted); half precision numbers that C05 excludes. *)
Theorem C51_e_partial : forall w opt val fmt prec bitSize mb eb b s v, w = 32 \/ w = 64 ->
  as_float bitSize val mb eb b s -> ieee mb eb b = VNum s (sgnR s v) ->
  fmt = 101 \/ fmt = 69 -> 0 <= prec < 2 ^ (w - 1) - 1 ->
  exists t fp, FormatFloat w opt val fmt prec bitSize = Ret t /\
    Z.of_nat (length fp) = prec /\ prints_e fmt s fp (sig_round (prec + 1) v) t.
Proof. exact c51e. Qed.
Print Assumptions C51_e_partial.

(** 1.5 (a float64 printed as float32) with no digits after the point. *)
Example C51_example : FormatFloat 64 true 0x3FF8000000000000 101 0 32 = Ret (B "2e+00"%string).
Proof. vm_compute. reflexivity. Qed.
Example C51_example_big : FormatFloat 64 false 0x0000000000000001 101 20 64 = Ret (B "4.94065645841246544177e-324"%string).
Proof. vm_compute. reflexivity. Qed.

(** Format 'f': prec digits after the point, correctly rounded. *)
Theorem C51_f_partial : forall w opt val prec bitSize mb eb b s v, w = 32 \/ w = 64 ->
  as_float bitSize val mb eb b s -> ieee mb eb b = VNum s (sgnR s v) ->
  0 <= prec < 2 ^ (w - 1) ->
  exists t fp, FormatFloat w opt val 102 prec bitSize = Ret t /\
    Z.of_nat (length fp) = prec /\ prints_f s fp (round10 (- prec) v) t.
Proof. exact c51f. Qed.
Print Assumptions C51_f_partial.

Example C51_f_example : FormatFloat 32 true 0xC000000000000000 102 2 16 = Ret (B "-2.00"%string).
Proof. vm_compute. reflexivity. Qed.

(** Formats 'g' and 'G': rounded to prec digits, trailing zeros left out. *)
Theorem C51_g_partial : forall w opt val fmt prec bitSize mb eb b s v, w = 32 \/ w = 64 ->
  as_float bitSize val mb eb b s -> ieee mb eb b = VNum s (sgnR s v) ->
  fmt = 103 \/ fmt = 71 -> 0 <= prec ->
  exists t fp, FormatFloat w opt val fmt prec bitSize = Ret t /\ no_zero_end fp /\
    prints_g (fmt - 2) (Z.max prec 1) s fp (sig_round (Z.max prec 1) v) t.
Proof. exact c51g. Qed.
Print Assumptions C51_g_partial.

Example C51_g_example : FormatFloat 64 true 0x40FE240C9FBE76C9 71 4 64 = Ret (B "1.235E+05"%string).
Proof. vm_compute. reflexivity. Qed.

(** With the largest precision (prec+1 overflows) the fast path of 'e' panics. *)
Theorem C51_refuted : exists val prec, 0 <= val < 2 ^ 64 /\ ieee 52 11 val = VNum false 1 /\ 0 <= prec < 2 ^ 63 /\
  FormatFloat 64 true val 101 prec 64 = Panic.
Proof. exact c51r. Qed.
Print Assumptions C51_refuted.

(** The text denotes x (with the sign s) and x rounds to the float printed. *)
Theorem C52_reads_back : forall w opt val fmt prec bitSize mb eb b s v, w = 32 \/ w = 64 ->
  as_float bitSize val mb eb b s -> ieee mb eb b = VNum s (sgnR s v) ->
  fmt = 101 \/ fmt = 69 \/ fmt = 102 \/ fmt = 103 \/ fmt = 71 -> prec < 0 ->
  exists t fp x, FormatFloat w opt val fmt prec bitSize = Ret t /\ no_zero_end fp /\
    prints_short fmt s fp x t /\ (0 <= x)%R /\ ieee_round mb eb s (sgnR s x) = ieee mb eb b.
Proof. exact c52. Qed.
Print Assumptions C52_reads_back.

Example C52_example : FormatFloat 64 true 0x3FB999999999999A 101 (-1) 64 = Ret (B "1e-01"%string) /\
  FormatFloat 64 false 0x3FB999999999999A 103 (-1) 32 = Ret (B "0.1"%string) /\
  FormatFloat 64 true 0x3FB999999999999A 102 (-1) 16 = Ret (B "0.1"%string).
Proof. vm_compute. auto. Qed.

(** Distinct floats have distinct texts (on any of the code paths). *)
Theorem C52_distinct : forall w opt w' opt' val val' fmt prec prec' bitSize mb eb b b' s s' v v' t,
  w = 32 \/ w = 64 -> w' = 32 \/ w' = 64 ->
  as_float bitSize val mb eb b s -> ieee mb eb b = VNum s (sgnR s v) ->
  as_float bitSize val' mb eb b' s' -> ieee mb eb b' = VNum s' (sgnR s' v') ->
  fmt = 101 \/ fmt = 69 \/ fmt = 102 \/ fmt = 103 \/ fmt = 71 -> prec < 0 -> prec' < 0 ->
  FormatFloat w opt val fmt prec bitSize = Ret t -> FormatFloat w' opt' val' fmt prec' bitSize = Ret t ->
  b = b'.
Proof. exact c52d. Qed.
Print Assumptions C52_distinct.

Example C52_distinct_example : FormatFloat 64 true 0x3FB999999999999A 101 (-1) 64 <> FormatFloat 64 true 0x3FB999999999999B 101 (-1) 64.
Proof. vm_compute. discriminate. Qed.

(** fewest_digits: every decimal that rounds to v has at least as many digits as the number x
    that the text denotes. *)
Theorem C53_shortest : forall w opt val fmt prec bitSize mb eb b s v t fp x, w = 32 \/ w = 64 ->
  as_float bitSize val mb eb b s -> ieee mb eb b = VNum s (sgnR s v) ->
  fmt = 101 \/ fmt = 69 \/ fmt = 102 \/ fmt = 103 \/ fmt = 71 -> prec < 0 ->
  FormatFloat w opt val fmt prec bitSize = Ret t -> prints_short fmt s fp x t -> (0 <= x)%R ->
  no_zero_end fp /\ fewest_digits mb eb v x.
Proof. exact c53. Qed.
Print Assumptions C53_shortest.

(** 29999998976 as a float32. *)
Example C53_example : FormatFloat 64 true 0x421bf08ea0000000 101 (-1) 32 = Ret (B "2.9999998e+10"%string) /\
  FormatFloat 64 false 0x421bf08ea0000000 101 (-1) 32 = Ret (B "2.9999998e+10"%string).
Proof. vm_compute. auto. Qed.

(** Also for special values, 'b' and other bit sizes (where both panic). *)
Theorem C54_partial : forall w val fmt prec bitSize, w = 32 \/ w = 64 -> 0 <= val < 2 ^ 64 -> 0 <= prec ->
  (fmt = 101 \/ fmt = 69 -> prec <> 2 ^ (w - 1) - 1 /\ prec < 2 ^ (w - 1)) ->
  fmt = 98 \/ fmt = 101 \/ fmt = 69 \/ fmt = 102 \/ fmt = 103 \/ fmt = 71 \/ prec <> 0 ->
  FormatFloat w true val fmt prec bitSize = FormatFloat w false val fmt prec bitSize.
Proof. exact c54. Qed.
Print Assumptions C54_partial.

Example C54_example : FormatFloat 64 true 0x3FB999999999999A 101 10 64 = FormatFloat 64 false 0x3FB999999999999A 101 10 64.
Proof. vm_compute. reflexivity. Qed.

(** With an unknown letter and precision 0 the fast path panics, the slow one does not. *)
Theorem C54_refuted : exists val, 0 <= val < 2 ^ 64 /\ FormatFloat 64 true val 120 0 64 = Panic /\
  FormatFloat 64 false val 120 0 64 = Ret (B "%x"%string).
Proof. exact c54r. Qed.
Print Assumptions C54_refuted.

(** The mantissa ms and the binary exponent ks in decimal.  The mantissa has mb + 1 bits, fewer
    only for subnormal numbers. *)
Theorem C55_exact : forall w opt val prec bitSize mb eb b s v, w = 32 \/ w = 64 ->
  as_float bitSize val mb eb b s -> ieee mb eb b = VNum s (sgnR s v) ->
  exists ms ks m k, FormatFloat w opt val 98 prec bitSize =
      Ret (sign_text s ++ ms ++ 112 :: (if k <? 0 then 45 else 43) :: ks) /\
    numeral 10 ms /\ read 10 ms = m /\ numeral 10 ks /\ read 10 ks = Z.abs k /\ v = (IZR m * p2 k)%R /\
    0 <= m < 2 ^ (mb + 1) /\ 2 - 2 ^ (eb - 1) <= k + mb <= 2 ^ (eb - 1) - 1 /\ (m < 2 ^ mb -> k + mb = 2 - 2 ^ (eb - 1)).
Proof. exact c55. Qed.
Print Assumptions C55_exact.

Example C55_example : FormatFloat 64 true 0xC008000000000000 98 (-1) 64 = Ret (B "-6755399441055744p-51"%string).
Proof. vm_compute. reflexivity. Qed.

Theorem C56_nan : forall w opt val fmt prec bitSize s, w = 32 \/ w = 64 -> 0 <= val < 2 ^ 64 ->
  bitSize = 16 \/ bitSize = 32 \/ bitSize = 64 -> ieee 52 11 val = VNaN s ->
  FormatFloat w opt val fmt prec bitSize = Ret (B "NaN"%string).
Proof. exact c56n. Qed.
Print Assumptions C56_nan.

Example C56_example : ieee 52 11 0xFFF8000000000123 = VNaN true /\ FormatFloat 64 true 0xFFF8000000000123 98 7 16 = Ret (B "NaN"%string).
Proof. split; vm_compute; reflexivity. Qed.

Theorem C56_inf : forall w opt val fmt prec bitSize s, w = 32 \/ w = 64 -> 0 <= val < 2 ^ 64 ->
  bitSize = 16 \/ bitSize = 32 \/ bitSize = 64 -> ieee 52 11 val = VInf s ->
  FormatFloat w opt val fmt prec bitSize = Ret (if s then B "-Inf" else B "+Inf")%string.
Proof. exact c56i. Qed.
Print Assumptions C56_inf.

Example C56_inf_example : ieee 52 11 0x7FF0000000000000 = VInf false.
Proof. vm_compute. reflexivity. Qed.

(** A number too large for the smaller format is printed as an infinity. *)
Theorem C56_overflow : forall w opt val fmt prec bitSize mb eb b s, w = 32 \/ w = 64 ->
  as_float bitSize val mb eb b s -> ieee mb eb b = VInf s ->
  FormatFloat w opt val fmt prec bitSize = Ret (if s then B "-Inf" else B "+Inf")%string.
Proof. exact c56o. Qed.
Print Assumptions C56_overflow.

Example C56_overflow_example : FormatFloat 64 true 0x7FE0000000000000 101 (-1) 32 = Ret (B "+Inf"%string).
Proof. vm_compute. reflexivity. Qed.

(** 0e+00 and -0e+00 with 'e', 0 and -0 with 'f' and 'g'. *)
Theorem C56_zero : forall w opt val fmt prec bitSize s, w = 32 \/ w = 64 -> 0 <= val < 2 ^ 64 ->
  bitSize = 16 \/ bitSize = 32 \/ bitSize = 64 -> ieee 52 11 val = VNum s 0 ->
  fmt = 101 \/ fmt = 69 \/ fmt = 102 \/ fmt = 103 \/ fmt = 71 -> prec < 0 ->
  FormatFloat w opt val fmt prec bitSize =
    Ret (sign_text s ++ if (fmt =? 101) || (fmt =? 69) then [48; fmt; 43; 48; 48] else [48]).
Proof. exact c56z. Qed.
Print Assumptions C56_zero.

Example C56_zero_example : FormatFloat 64 true 0x8000000000000000 101 (-1) 64 = Ret (B "-0e+00"%string).
Proof. vm_compute. reflexivity. Qed.

(** An unknown letter, except with precision 0 on the fast path (see C57_refuted). *)
Theorem C57_unknown_partial : forall w opt val fmt prec bitSize mb eb b s v, w = 32 \/ w = 64 ->
  as_float bitSize val mb eb b s -> ieee mb eb b = VNum s (sgnR s v) ->
  ~ (fmt = 98 \/ fmt = 101 \/ fmt = 69 \/ fmt = 102 \/ fmt = 103 \/ fmt = 71) ->
  prec <> 0 \/ opt = false \/ v = 0%R ->
  FormatFloat w opt val fmt prec bitSize = Ret [37; fmt].
Proof. exact c57u. Qed.
Print Assumptions C57_unknown_partial.

Example C57_example : FormatFloat 64 true 0x3FF8000000000000 120 (-1) 64 = Ret (B "%x"%string).
Proof. vm_compute. reflexivity. Qed.

(** FormatFloat returns for every value, letter and precision but: an unknown letter with
    precision 0 on the fast path, and 'e' or 'E' with the largest precision. *)
Theorem C57_returns_partial : forall w opt val fmt prec bitSize, w = 32 \/ w = 64 -> 0 <= val < 2 ^ 64 ->
  - 2 ^ (w - 1) <= prec < 2 ^ (w - 1) ->
  bitSize = 16 \/ bitSize = 32 \/ bitSize = 64 ->
  fmt = 98 \/ fmt = 101 \/ fmt = 69 \/ fmt = 102 \/ fmt = 103 \/ fmt = 71 \/ prec <> 0 \/ opt = false ->
  (fmt = 101 \/ fmt = 69 -> prec <> 2 ^ (w - 1) - 1) ->
  exists t, FormatFloat w opt val fmt prec bitSize = Ret t.
Proof. exact c57t. Qed.
Print Assumptions C57_returns_partial.

Example C57_returns_example : FormatFloat 32 true 0x3FF8000000000000 69 2 16 = Ret (B "1.50E+00"%string).
Proof. vm_compute. reflexivity. Qed.

(** And in those cases it always panics, unless the number is 0 or special. *)
Theorem C57_panics : forall w val fmt prec bitSize mb eb b s v, w = 32 \/ w = 64 ->
  as_float bitSize val mb eb b s -> ieee mb eb b = VNum s (sgnR s v) -> v <> 0%R ->
  ~ (fmt = 98 \/ fmt = 101 \/ fmt = 69 \/ fmt = 102 \/ fmt = 103 \/ fmt = 71) /\ prec = 0 \/
  (fmt = 101 \/ fmt = 69) /\ prec = 2 ^ (w - 1) - 1 ->
  FormatFloat w true val fmt prec bitSize = Panic.
Proof. exact c57p. Qed.
Print Assumptions C57_panics.

Example C57_panics_example : FormatFloat 64 true 0x3FF0000000000000 120 0 32 = Panic.
Proof. vm_compute. reflexivity. Qed.

Theorem C57_bitSize : forall w opt val fmt prec bitSize, bitSize <> 16 -> bitSize <> 32 -> bitSize <> 64 ->
  FormatFloat w opt val fmt prec bitSize = Panic.
Proof. exact c57b. Qed.
Print Assumptions C57_bitSize.

Example C57_bitSize_example : FormatFloat 64 true 0x7FF8000000000001 101 2 17 = Panic.
Proof. reflexivity. Qed.

(** The make of line 53: a precision for which prec+4 bytes cannot be allocated panics, even
    for NaN; if prec+4 overflows, nothing happens.  [alloc] is the largest allocation. *)
Theorem C57_make : forall alloc w opt val fmt prec bitSize, 24 <= alloc ->
  (- 2 ^ (w - 1) <= prec + 4 < 2 ^ (w - 1) -> alloc < prec + 4 ->
     FormatFloat_make alloc w opt val fmt prec bitSize = Panic) /\
  (- 2 ^ (w - 1) <= prec + 4 < 2 ^ (w - 1) -> prec + 4 <= alloc ->
     FormatFloat_make alloc w opt val fmt prec bitSize = FormatFloat w opt val fmt prec bitSize) /\
  (2 ^ (w - 1) <= prec + 4 < 2 ^ w -> 1 <= w ->
     FormatFloat_make alloc w opt val fmt prec bitSize = FormatFloat w opt val fmt prec bitSize).
Proof. exact c57m. Qed.
Print Assumptions C57_make.

Example C57_make_example : FormatFloat_make (2 ^ 48) 64 true 0x7FF8000000000001 101 (2 ^ 50) 64 = Panic /\
  FormatFloat_make (2 ^ 48) 64 true 0x7FF8000000000001 101 (2 ^ 63 - 1) 64 = Ret (B "NaN"%string).
Proof. split; vm_compute; reflexivity. Qed.

(** FormatFloat(1, 'x', 0, 64) panics. *)
Theorem C57_refuted : exists val fmt prec, 0 <= val < 2 ^ 64 /\ 0 <= fmt < 256 /\ 0 <= prec < 2 ^ 63 /\ 
  ieee 52 11 val = VNum false 1 /\ FormatFloat 64 true val fmt prec 64 = Panic.
Proof. exact c57r. Qed.
Print Assumptions C57_refuted.
