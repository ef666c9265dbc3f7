(** More properties of FormatFloat (internal/strconv/ftoa.go, C62 to C64, C76, C77) and what IsExact64,
    IsExact32 and IsExact16 (float.go, C65) decide.

    [as_float bitSize val mb eb b s] says that [b] is the float64 [val] as a float of bitSize
    bits; [text_of s x t] says that the text t denotes x with the sign s (SpecFmt.v); [rn] is
    rounding to the nearest float, ties to even.  [w] is the width of int; [opt] is the package
    variable optimize, so each theorem with an arbitrary [opt] speaks of both code paths. *)
From Coq Require Import ZArith Reals String List Bool Lia Lra.
From Verif Require Import GoBase Spec SpecText SpecDec SpecFtoa SpecFmt.
From Verif Require BigFloat.
From Verif Require Import Ftoa FloatPkg ClaimsFtoa2 ClaimsFloat2.
Import BigFloat (mkBF).
Import ListNotations.
Open Scope Z_scope.

(** With prec digits after the point such that 2^(mb+1) < 10^prec: 16 for float64, 8 for
    float32, 4 for half precision. *)
Theorem C62_e : forall w opt val fmt prec bitSize mb eb b s v, w = 32 \/ w = 64 ->
  as_float bitSize val mb eb b s -> ieee mb eb b = VNum s (sgnR s v) ->
  fmt = 101 \/ fmt = 69 -> 0 <= prec < 2 ^ (w - 1) - 1 -> 2 ^ (mb + 1) < 10 ^ prec ->
  exists t x, FormatFloat w opt val fmt prec bitSize = Ret t /\ text_of s x t /\ (0 <= x)%R /\
    ieee_round mb eb s (sgnR s x) = ieee mb eb b.
Proof. exact c62e. Qed.
Print Assumptions C62_e.

Example C62_example : 2 ^ (52 + 1) < 10 ^ 16 /\
  FormatFloat 64 true 0x3FB999999999999A 101 16 64 = Ret (B "1.0000000000000001e-01"%string).
Proof. split; [reflexivity|vm_compute; reflexivity]. Qed.

(** With prec digits: 17, 9 and 5. *)
Theorem C62_g : forall w opt val fmt prec bitSize mb eb b s v, w = 32 \/ w = 64 ->
  as_float bitSize val mb eb b s -> ieee mb eb b = VNum s (sgnR s v) ->
  fmt = 103 \/ fmt = 71 -> 1 <= prec -> 2 ^ (mb + 1) < 10 ^ (prec - 1) ->
  exists t x, FormatFloat w opt val fmt prec bitSize = Ret t /\ text_of s x t /\ (0 <= x)%R /\
    ieee_round mb eb s (sgnR s x) = ieee mb eb b.
Proof. exact c62g. Qed.
Print Assumptions C62_g.

Example C62_g_example : 2 ^ (23 + 1) < 10 ^ (9 - 1) /\
  FormatFloat 32 false 0x3FB99999A0000000 103 9 32 = Ret (B "0.100000001"%string).
Proof. split; [reflexivity|vm_compute; reflexivity]. Qed.

(** One digit fewer is not enough: two floats with the same text. *)
Theorem C62_sharp : (exists val val', val <> val' /\ as_float 64 val 52 11 val false /\ as_float 64 val' 52 11 val' false /\
    forall opt, FormatFloat 64 opt val 101 15 64 = FormatFloat 64 opt val' 101 15 64) /\
  (exists val val' b b', b <> b' /\ as_float 32 val 23 8 b false /\ as_float 32 val' 23 8 b' false /\
    forall opt, FormatFloat 64 opt val 101 7 32 = FormatFloat 64 opt val' 101 7 32) /\
  (exists val val' b b', b <> b' /\ as_float 16 val 10 5 b false /\ as_float 16 val' 10 5 b' false /\
    forall opt, FormatFloat 64 opt val 101 3 16 = FormatFloat 64 opt val' 101 3 16).
Proof. exact c62s. Qed.
Print Assumptions C62_sharp.

Example C62_sharp_example : FormatFloat 64 true 0x3FF0000000000001 101 15 64 = Ret (B "1.000000000000000e+00"%string) /\
  FormatFloat 64 true 0x3FF0000000000001 101 16 64 = Ret (B "1.0000000000000002e+00"%string).
Proof. split; vm_compute; reflexivity. Qed.

(** Shortest texts are in the order of the floats, whatever the letters and code paths. *)
Theorem C63_shortest : forall w opt w' opt' val val' fmt fmt' prec prec' bitSize mb eb b b' s s' v v' t t' x x',
  w = 32 \/ w = 64 -> w' = 32 \/ w' = 64 ->
  as_float bitSize val mb eb b s -> ieee mb eb b = VNum s (sgnR s v) ->
  as_float bitSize val' mb eb b' s' -> ieee mb eb b' = VNum s' (sgnR s' v') ->
  fmt = 101 \/ fmt = 69 \/ fmt = 102 \/ fmt = 103 \/ fmt = 71 -> fmt' = 101 \/ fmt' = 69 \/ fmt' = 102 \/ fmt' = 103 \/ fmt' = 71 ->
  prec < 0 -> prec' < 0 ->
  FormatFloat w opt val fmt prec bitSize = Ret t -> FormatFloat w' opt' val' fmt' prec' bitSize = Ret t' ->
  text_of s x t -> text_of s' x' t' -> (sgnR s v < sgnR s' v')%R -> (sgnR s x < sgnR s' x')%R.
Proof. exact c63s. Qed.
Print Assumptions C63_shortest.

(** -1.5, 0.1 and the next float. *)
Example C63_example : FormatFloat 64 true 0xBFF8000000000000 101 (-1) 64 = Ret (B "-1.5e+00"%string) /\
  FormatFloat 32 false 0x3FB999999999999A 103 (-1) 64 = Ret (B "0.1"%string) /\
  FormatFloat 64 true 0x3FB999999999999B 102 (-1) 64 = Ret (B "0.10000000000000002"%string).
Proof. repeat split; vm_compute; reflexivity. Qed.

(** Texts of the same precision are in the order of the floats.  Missing from the property:
    'e' with prec = MaxInt, where the fast path panics (C51_refuted). *)
Theorem C63_fixed_partial : forall w opt opt' val val' fmt prec bitSize mb eb b b' s s' v v' t t' x x',
  w = 32 \/ w = 64 ->
  as_float bitSize val mb eb b s -> ieee mb eb b = VNum s (sgnR s v) ->
  as_float bitSize val' mb eb b' s' -> ieee mb eb b' = VNum s' (sgnR s' v') ->
  fmt = 101 \/ fmt = 69 \/ fmt = 102 \/ fmt = 103 \/ fmt = 71 -> 0 <= prec < 2 ^ (w - 1) - 1 ->
  FormatFloat w opt val fmt prec bitSize = Ret t -> FormatFloat w opt' val' fmt prec bitSize = Ret t' ->
  text_of s x t -> text_of s' x' t' -> (sgnR s v <= sgnR s' v')%R -> (sgnR s x <= sgnR s' x')%R.
Proof. exact c63f. Qed.
Print Assumptions C63_fixed_partial.

Example C63_fixed_example : FormatFloat 64 true 0xBFF8000000000000 102 0 64 = Ret (B "-2"%string) /\
  FormatFloat 64 false 0xBFF4000000000000 102 0 64 = Ret (B "-1"%string) /\
  FormatFloat 64 true 0x3FB999999999999A 102 0 64 = Ret (B "0"%string).
Proof. repeat split; vm_compute; reflexivity. Qed.

(** The float32 29999998976 is printed as 2.9999998e+10, but 2.9999999e+10, which has as many
    digits and is read back as well, is closer. *)
Theorem C64_refuted : exists val b v t x z, as_float 32 val 23 8 b false /\ ieee 23 8 b = VNum false v /\
  (forall opt, FormatFloat 64 opt val 101 (-1) 32 = Ret t) /\ text_of false x t /\
  rn 23 8 z = v /\ sig_digits 8 z /\ ~ sig_digits 7 x /\ (Rabs (z - v) < Rabs (x - v))%R.
Proof. exact c64r. Qed.
Print Assumptions C64_refuted.

(** What holds on both paths: the text is less than one unit of its last digit away from the
    float.  (Less than half a unit where the fast path succeeds: C49_ShortestDecimal.) *)
Theorem C64_partial : forall w opt val fmt prec bitSize mb eb b s v t x, w = 32 \/ w = 64 ->
  as_float bitSize val mb eb b s -> ieee mb eb b = VNum s (sgnR s v) ->
  fmt = 101 \/ fmt = 69 \/ fmt = 102 \/ fmt = 103 \/ fmt = 71 -> prec < 0 ->
  FormatFloat w opt val fmt prec bitSize = Ret t -> text_of s x t -> last_digit_ok v x.
Proof. exact c64p. Qed.
Print Assumptions C64_partial.

Example C64_example : FormatFloat 64 false 0x421BF08EA0000000 101 (-1) 32 = Ret (B "2.9999998e+10"%string).
Proof. vm_compute. reflexivity. Qed.

(** The text is the closest of its length, except possibly where the upper midpoint does not read
    back and is a decimal of fewer digits (as 3e+10 for 29999998976). *)
Theorem C64_closest_partial : forall w opt val fmt prec bitSize mb eb b s v t x, w = 32 \/ w = 64 ->
  as_float bitSize val mb eb b s -> ieee mb eb b = VNum s (sgnR s v) ->
  fmt = 101 \/ fmt = 69 \/ fmt = 102 \/ fmt = 103 \/ fmt = 71 -> prec < 0 ->
  FormatFloat w opt val fmt prec bitSize = Ret t -> text_of s x t -> closest_digits mb eb v x.
Proof. exact c64c. Qed.
Print Assumptions C64_closest_partial.

(** Of 0.3 and its neighbours of one digit, 0.3 is the closest to the float64 next to it. *)
Example C64_closest_example : FormatFloat 64 true 0x3FD3333333333333 101 (-1) 64 = Ret (B "3e-01"%string).
Proof. vm_compute. reflexivity. Qed.

(** With a negative precision the fast path and the slow path print the same text, whatever the
    letter and the bit size. *)
Theorem C76_shortest_paths : forall w val fmt prec bitSize, w = 32 \/ w = 64 -> 0 <= val < 2 ^ 64 -> prec < 0 ->
  FormatFloat w true val fmt prec bitSize = FormatFloat w false val fmt prec bitSize.
Proof. exact c76. Qed.
Print Assumptions C76_shortest_paths.

Example C76_example : FormatFloat 64 true 0x3FF3C0CA428C59FB 103 (-1) 64 = Ret (B "1.2345678901234567"%string) /\
  FormatFloat 64 false 0x3FF3C0CA428C59FB 103 (-1) 64 = Ret (B "1.2345678901234567"%string).
Proof. split; vm_compute; reflexivity. Qed.

(** The digits printed with a negative precision are completely described: exactly one decimal
    satisfies [shortest_digits], and it is the one printed.  It reads back as the float and has
    the fewest digits.  Of several such it is the closest to the float, and of two equally close
    ones that with the even last digit.  Only where the upper midpoint does not read back and is
    a decimal of fewer digits, it is the greatest one not above the float. *)
Theorem C77_shortest_exactly : forall w opt val fmt prec bitSize mb eb b s v, w = 32 \/ w = 64 ->
  as_float bitSize val mb eb b s -> ieee mb eb b = VNum s (sgnR s v) ->
  fmt = 101 \/ fmt = 69 \/ fmt = 102 \/ fmt = 103 \/ fmt = 71 -> prec < 0 ->
  exists x, shortest_digits mb eb v x /\ (forall y, shortest_digits mb eb v y -> y = x) /\
    exists fp t, FormatFloat w opt val fmt prec bitSize = Ret t /\ no_zero_end fp /\ prints_short fmt s fp x t.
Proof. exact c77. Qed.
Print Assumptions C77_shortest_exactly.

(** The least float64: 3, 4, 5, 6 and 7e-324 read back too, 5e-324 is the closest.  128.25 in half
    precision: 128.2 and 128.3 are equally close.  The last is the exception: 2.9999999e+10 is
    closer. *)
Example C77_example : FormatFloat 64 true 1 101 (-1) 64 = Ret (B "5e-324"%string) /\
  FormatFloat 64 true 0x4060080000000000 101 (-1) 16 = Ret (B "1.282e+02"%string) /\
  FormatFloat 64 true 0x421BF08EA0000000 101 (-1) 32 = Ret (B "2.9999998e+10"%string).
Proof. repeat split; vm_compute; reflexivity. Qed.

(** IsExact64 answers true exactly for the float64 numbers that are their own shortest text. *)
Theorem C65_IsExact64 : forall w opt x, w = 32 \/ w = 64 -> wf x ->
  (IsExact64 w opt x = Ret true <-> exists s u, bval x = VNum s u /\ fits 52 11 u /\ fewest_digits 52 11 (Rabs u) (Rabs u)).
Proof. exact c65_64. Qed.
Print Assumptions C65_IsExact64.

(** 2^53 + 2 and 2^60: all 16 digits of the first are needed, 17 digits do for the other. *)
Example C65_example : IsExact64 64 true (mkBF 53 BigFloat.ToNearestEven BigFloat.Exact false (BigFloat.Finite (2 ^ 52 + 1) 1)) = Ret true /\
  IsExact64 64 true (mkBF 53 BigFloat.ToNearestEven BigFloat.Exact false (BigFloat.Finite 1 60)) = Ret false.
Proof. split; vm_compute; reflexivity. Qed.

Theorem C65_IsExact32 : forall w opt x, w = 32 \/ w = 64 -> wf x ->
  (IsExact32 w opt x = Ret true <-> exists s u, bval x = VNum s u /\ fits 23 8 u /\ fewest_digits 23 8 (Rabs u) (Rabs u)).
Proof. exact c65_32. Qed.
Print Assumptions C65_IsExact32.

Example C65_IsExact32_example : IsExact32 32 false (mkBF 24 BigFloat.ToNearestEven BigFloat.Exact true (BigFloat.Finite 5 (-3))) = Ret true /\
  IsExact32 32 false (mkBF 24 BigFloat.ToNearestEven BigFloat.Exact true (BigFloat.Finite 0xCCCCCD (-27))) = Ret false.
Proof. split; vm_compute; reflexivity. Qed.

(** For half precision, where the number is one of half precision; C31_refuted and C31_partial
    describe the answers for other numbers. *)
Theorem C65_IsExact16_partial : forall w opt x s u, w = 32 \/ w = 64 -> wf x -> bval x = VNum s u -> fits 10 5 u ->
  (IsExact16 w opt x = Ret true <-> fewest_digits 10 5 (Rabs u) (Rabs u)).
Proof. exact c65_16. Qed.
Print Assumptions C65_IsExact16_partial.

(** 2050; and 32768, for which 32770 does, with fewer digits. *)
Example C65_IsExact16_example : IsExact16 64 true (mkBF 24 BigFloat.ToNearestEven BigFloat.Exact false (BigFloat.Finite 1025 1)) = Ret true /\
  IsExact16 64 true (mkBF 24 BigFloat.ToNearestEven BigFloat.Exact false (BigFloat.Finite 1 15)) = Ret false.
Proof. split; vm_compute; reflexivity. Qed.

(** For all numbers: IsExact16 answers true exactly for the float64 numbers that are the shortest
    text of the half precision number next to them, which must be finite. *)
Theorem C65_IsExact16 : forall w opt x s u, w = 32 \/ w = 64 -> wf x -> bval x = VNum s u ->
  (IsExact16 w opt x = Ret true <->
   fits 52 11 u /\ (rn 10 5 (Rabs u) < p2 16)%R /\ shortest_digits 10 5 (rn 10 5 (Rabs u)) (Rabs u)).
Proof. exact c65_16_all. Qed.
Print Assumptions C65_IsExact16.

(** 65500, 65510 and 65520 next to 65504 and 65536. *)
Example C65_IsExact16_all_example : IsExact16 64 true (mkBF 24 BigFloat.ToNearestEven BigFloat.Exact false (BigFloat.Finite 65500 0)) = Ret true /\
  IsExact16 64 true (mkBF 24 BigFloat.ToNearestEven BigFloat.Exact false (BigFloat.Finite 65510 0)) = Ret false /\
  IsExact16 64 true (mkBF 24 BigFloat.ToNearestEven BigFloat.Exact false (BigFloat.Finite 65520 0)) = Ret false.
Proof. repeat split; vm_compute; reflexivity. Qed.
