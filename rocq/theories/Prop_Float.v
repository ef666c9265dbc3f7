(** float.go: whether a number is exactly a float of 16, 32 or 64 bits.  See Spec.v (bval,
    wf, ieee, fits, rn), SpecDec.v (sig_digits), SpecFtoa.v (sig_round) and SpecFmt.v
    (prints_e, fewest_digits).  The host has int of w bits, opt is the variable optimize. *)
From Coq Require Import ZArith Reals String List Bool Lia Lra.
From Verif Require Import GoBase Spec SpecText SpecDec SpecFtoa.
From Verif Require BigFloat.
From Verif Require Import FloatPkg ClaimsFloat.
From Verif Require Import SpecFmt.
Import BigFloat (mkBF, frm, neg).
Import ListNotations.
Open Scope Z_scope.

Theorem C30_IsExact64 : forall w opt x, w = 32 \/ w = 64 -> wf x -> IsExact64 w opt x = Ret true ->
  exists b, 0 <= b < 2 ^ 64 /\ ieee 52 11 b = bval x.
Proof. exact c30_64. Qed.
Print Assumptions C30_IsExact64.

(** 2.5 *)
Example C30_IsExact64_example : IsExact64 64 true (mkBF 24 BigFloat.ToNearestEven BigFloat.Exact true (BigFloat.Finite 5 (-1))) = Ret true.
Proof. vm_compute. reflexivity. Qed.

Theorem C30_IsExact32 : forall w opt x, w = 32 \/ w = 64 -> wf x -> IsExact32 w opt x = Ret true ->
  exists b, 0 <= b < 2 ^ 32 /\ ieee 23 8 b = bval x.
Proof. exact c30_32. Qed.
Print Assumptions C30_IsExact32.

(** 2.5 *)
Example C30_IsExact32_example : IsExact32 64 true (mkBF 24 BigFloat.ToNearestEven BigFloat.Exact true (BigFloat.Finite 5 (-1))) = Ret true.
Proof. vm_compute. reflexivity. Qed.

(** 65500 lies between the halves 65472 and 65504; the shortest text of 65504 is 6.55e+04. *)
Theorem C31_refuted : exists x, wf x /\ bval x = VNum false 65500 /\ IsExact16 64 true x = Ret true /\
  forall b, 0 <= b < 2 ^ 16 -> ieee 10 5 b <> bval x.
Proof. exact c31r. Qed.
Print Assumptions C31_refuted.

(** What holds: the answer true is right for everything but integers between 2048 and 65520
    of at most 5 digits (which no shorter decimal of the nearest half replaces); in particular
    for all numbers up to 2048 and from 65520 on. *)
Theorem C31_partial : forall w opt x s u, w = 32 \/ w = 64 -> wf x -> bval x = VNum s u -> IsExact16 w opt x = Ret true ->
  (exists b, 0 <= b < 2 ^ 16 /\ ieee 10 5 b = bval x) \/
  (exists N, u = IZR N /\ 2048 < Z.abs N < 65520 /\ sig_digits 5 u /\ fewest_digits 10 5 (rn 10 5 (Rabs u)) (Rabs u)).
Proof. exact c31p. Qed.
Print Assumptions C31_partial.

(** -0.625 *)
Example C31_example : IsExact16 64 true (mkBF 24 BigFloat.ToNearestEven BigFloat.Exact true (BigFloat.Finite 5 (-3))) = Ret true /\
  ieee 10 5 0xB900 = VNum true (- (IZR 1280 * p2 (-11))).
Proof. split; vm_compute; reflexivity. Qed.

(** The floats nearest to 0.1: the shortest text is 1e-01, the exact value has more digits. *)
Theorem C32_refuted : (exists x b, wf x /\ 0 <= b < 2 ^ 64 /\ ieee 52 11 b = bval x /\ IsExact64 64 true x = Ret false) /\
  (exists x b, wf x /\ 0 <= b < 2 ^ 32 /\ ieee 23 8 b = bval x /\ IsExact32 64 true x = Ret false) /\
  (exists x b, wf x /\ 0 <= b < 2 ^ 16 /\ ieee 10 5 b = bval x /\ IsExact16 64 true x = Ret false).
Proof. exact c32r. Qed.
Print Assumptions C32_refuted.

(** What holds: numbers with at most 15 significant digits, and integers below 2^53. *)
Theorem C32_IsExact64_partial : forall w opt x s u b, w = 32 \/ w = 64 -> wf x -> bval x = VNum s u ->
  0 <= b < 2 ^ 64 -> ieee 52 11 b = bval x ->
  sig_digits 15 u \/ (exists N, u = IZR N /\ Z.abs N < 2 ^ 53) ->
  IsExact64 w opt x = Ret true.
Proof. exact c32_64. Qed.
Print Assumptions C32_IsExact64_partial.

Example C32_IsExact64_example : IsExact64 32 false (mkBF 24 BigFloat.ToNearestEven BigFloat.Exact true (BigFloat.Finite 125 (-3))) = Ret true /\
  IsExact64 64 true (mkBF 64 BigFloat.ToNearestEven BigFloat.Exact false (BigFloat.Finite (2 ^ 53 - 1) 0)) = Ret true.
Proof. vm_compute. auto. Qed.

(** What holds: numbers with at most 7 significant digits, and integers below 2^24. *)
Theorem C32_IsExact32_partial : forall w opt x s u b, w = 32 \/ w = 64 -> wf x -> bval x = VNum s u ->
  0 <= b < 2 ^ 32 -> ieee 23 8 b = bval x ->
  sig_digits 7 u \/ (exists N, u = IZR N /\ Z.abs N < 2 ^ 24) ->
  IsExact32 w opt x = Ret true.
Proof. exact c32_32. Qed.
Print Assumptions C32_IsExact32_partial.

Example C32_IsExact32_example : IsExact32 32 false (mkBF 24 BigFloat.ToNearestEven BigFloat.Exact true (BigFloat.Finite 125 (-3))) = Ret true /\
  IsExact32 64 true (mkBF 64 BigFloat.ToNearestEven BigFloat.Exact false (BigFloat.Finite (2 ^ 24 - 1) 0)) = Ret true.
Proof. vm_compute. auto. Qed.

(** What holds: numbers with at most 3 significant digits, and integers below 2^11. *)
Theorem C32_IsExact16_partial : forall w opt x s u b, w = 32 \/ w = 64 -> wf x -> bval x = VNum s u ->
  0 <= b < 2 ^ 16 -> ieee 10 5 b = bval x ->
  sig_digits 3 u \/ (exists N, u = IZR N /\ Z.abs N < 2 ^ 11) ->
  IsExact16 w opt x = Ret true.
Proof. exact c32_16. Qed.
Print Assumptions C32_IsExact16_partial.

Example C32_IsExact16_example : IsExact16 32 false (mkBF 24 BigFloat.ToNearestEven BigFloat.Exact true (BigFloat.Finite 125 (-3))) = Ret true /\
  IsExact16 64 true (mkBF 64 BigFloat.ToNearestEven BigFloat.Exact false (BigFloat.Finite (2 ^ 11 - 1) 0)) = Ret true.
Proof. vm_compute. auto. Qed.

(** All numbers that (to 101 digits) have more than 17 significant digits are rejected, floats or not. *)
Theorem C32_IsExact64_rejects : forall w opt x s u, w = 32 \/ w = 64 -> wf x -> bval x = VNum s u ->
  ~ sig_digits 17 (sig_round 101 u) -> IsExact64 w opt x = Ret false.
Proof. exact c32n_64. Qed.
Print Assumptions C32_IsExact64_rejects.

(** 2^60 *)
Example C32_IsExact64_rejects_example : bval (mkBF 64 BigFloat.ToNearestEven BigFloat.Exact false (BigFloat.Finite 1 60)) = VNum false (IZR (2 ^ 60)) /\
  ~ sig_digits 17 (sig_round 101 (IZR (2 ^ 60))) /\ IsExact64 64 true (mkBF 64 BigFloat.ToNearestEven BigFloat.Exact false (BigFloat.Finite 1 60)) = Ret false.
Proof.
  split; [cbn; f_equal; ring|]. split; [apply many_digits; lia|vm_compute; reflexivity].
Qed.

(** All numbers that (to 101 digits) have more than 9 significant digits are rejected, floats or not. *)
Theorem C32_IsExact32_rejects : forall w opt x s u, w = 32 \/ w = 64 -> wf x -> bval x = VNum s u ->
  ~ sig_digits 9 (sig_round 101 u) -> IsExact32 w opt x = Ret false.
Proof. exact c32n_32. Qed.
Print Assumptions C32_IsExact32_rejects.

(** 2^60 *)
Example C32_IsExact32_rejects_example : bval (mkBF 64 BigFloat.ToNearestEven BigFloat.Exact false (BigFloat.Finite 1 60)) = VNum false (IZR (2 ^ 60)) /\
  ~ sig_digits 9 (sig_round 101 (IZR (2 ^ 60))) /\ IsExact32 64 true (mkBF 64 BigFloat.ToNearestEven BigFloat.Exact false (BigFloat.Finite 1 60)) = Ret false.
Proof.
  split; [cbn; f_equal; ring|]. split; [apply many_digits; lia|vm_compute; reflexivity].
Qed.

(** All numbers that have more than 5 significant digits are rejected, floats or not. *)
Theorem C32_IsExact16_rejects : forall w opt x s u, w = 32 \/ w = 64 -> wf x -> bval x = VNum s u ->
  ~ sig_digits 5 u -> IsExact16 w opt x = Ret false.
Proof. exact c32n_16. Qed.
Print Assumptions C32_IsExact16_rejects.

(** 2^60 *)
Example C32_IsExact16_rejects_example : bval (mkBF 64 BigFloat.ToNearestEven BigFloat.Exact false (BigFloat.Finite 1 60)) = VNum false (IZR (2 ^ 60)) /\
  ~ sig_digits 5 (IZR (2 ^ 60)) /\ IsExact16 64 true (mkBF 64 BigFloat.ToNearestEven BigFloat.Exact false (BigFloat.Finite 1 60)) = Ret false.
Proof.
  split; [cbn; f_equal; ring|]. split; [apply many_digits; lia|vm_compute; reflexivity].
Qed.

(** +Inf has no exponent for trimZeros to find. *)
Theorem C33_refuted : exists x, wf x /\ bval x = VInf false /\ IsExact64 64 true x = Panic /\ IsExact32 64 true x = Panic /\ IsExact16 64 true x = Panic.
Proof. exact c33r. Qed.
Print Assumptions C33_refuted.

(** What holds: the three functions return for every finite number. *)
Theorem C33_partial : forall w opt x, w = 32 \/ w = 64 -> wf x -> frm x <> BigFloat.Inf ->
  exists c c' c'', IsExact64 w opt x = Ret c /\ IsExact32 w opt x = Ret c' /\ IsExact16 w opt x = Ret c''.
Proof. exact c33p. Qed.
Print Assumptions C33_partial.

(** 2^2000 and 2^-2000 *)
Example C33_example : IsExact64 64 true (mkBF 1 BigFloat.ToNearestEven BigFloat.Exact false (BigFloat.Finite 1 2000)) = Ret false /\
  IsExact16 64 true (mkBF 1 BigFloat.ToNearestEven BigFloat.Exact false (BigFloat.Finite 1 (-2000))) = Ret false.
Proof. vm_compute. auto. Qed.

(** And they panic for both infinities. *)
Theorem C33_panics : forall w opt x s, w = 32 \/ w = 64 -> wf x -> bval x = VInf s ->
  IsExact64 w opt x = Panic /\ IsExact32 w opt x = Panic /\ IsExact16 w opt x = Panic.
Proof. exact c33i. Qed.
Print Assumptions C33_panics.

Example C33_panics_example : IsExact32 32 false (mkBF 53 BigFloat.ToNearestEven BigFloat.Exact true BigFloat.Inf) = Panic.
Proof. vm_compute. reflexivity. Qed.

(** The only digit of -0e+00 is trimmed, too. *)
Theorem C34_refuted : exists s t, prints_e 101 true [] 0 s /\ trimZeros s = Ret t /\ ~ exists ng fp x, prints_e 101 ng fp x t.
Proof. exact c34r. Qed.
Print Assumptions C34_refuted.

(** What holds: every text with a fraction, and all without one but -0e+00, become the text of
    the same number with the digits [fp'], trailing zeros removed. *)
Theorem C34_partial : forall ng fp x s, prints_e 101 ng fp x s -> fp <> [] \/ ng = false \/ x <> 0%R ->
  exists fp' k, fp = fp' ++ repeat 48 k /\ no_zero_end fp' /\ exists t, trimZeros s = Ret t /\ prints_e 101 ng fp' x t.
Proof. exact c34p. Qed.
Print Assumptions C34_partial.

Example C34_example : trimZeros (B "-1.2500e+07"%string) = Ret (B "-1.25e+07"%string) /\ trimZeros (B "5.000e-310"%string) = Ret (B "5e-310"%string).
Proof. split; reflexivity. Qed.

(** Two texts of one number become the same text. *)
Theorem C34_same_partial : forall ng fp fp' x s s' t t', prints_e 101 ng fp x s -> prints_e 101 ng fp' x s' ->
  fp <> [] \/ ng = false \/ x <> 0%R -> fp' <> [] \/ ng = false \/ x <> 0%R ->
  trimZeros s = Ret t -> trimZeros s' = Ret t' -> t = t'.
Proof. exact c34s. Qed.
Print Assumptions C34_same_partial.

Example C34_same_example : trimZeros (B "-1.2500e+07"%string) = Ret (B "-1.25e+07"%string) /\ trimZeros (B "-1.25000000e+07"%string) = Ret (B "-1.25e+07"%string).
Proof. split; reflexivity. Qed.

(** Whatever stands before the point and after the 'e', only the fraction [fp] changes. *)
Theorem C34_fraction : forall pre fp xs, Forall (fun c => c <> 101) pre -> all_digits 10 fp ->
  exists fp' k, fp = fp' ++ repeat 48 k /\ no_zero_end fp' /\
    trimZeros (pre ++ 46 :: fp ++ 101 :: xs) = Ret (pre ++ point fp' ++ 101 :: xs).
Proof. exact c34f. Qed.
Print Assumptions C34_fraction.

Example C34_fraction_example : trimZeros (B "100.0500e5"%string) = Ret (B "100.05e5"%string) /\ trimZeros (B "100.e5"%string) = Ret (B "100e5"%string).
Proof. split; reflexivity. Qed.

(** A text without 'e' panics. *)
Theorem C34_no_exponent : forall s, Forall (fun c => c <> 101) s -> trimZeros s = Panic.
Proof. exact c34n. Qed.
Print Assumptions C34_no_exponent.

Example C34_no_exponent_example : trimZeros (B "+Inf"%string) = Panic.
Proof. reflexivity. Qed.
