(** Properties of the extended floats of internal/strconv/extfloat.go (C44 to C50, C60).
    [ext_val] is the number an extended float stands for; a finite float of the format
    [flt] is given by its mantissa and exponent (see [float_parts] in SpecFtoa.v). *)
From Coq Require Import ZArith Reals List Bool Lia Lra.
From Flocq Require Import Core.
From Verif Require Import GoBase Spec SpecDec SpecFtoa ClaimsExt.
From Verif Require Import ExtFloat.
Import ListNotations.
Open Scope Z_scope.

(** p2 (exp p) is one unit in the last place of p. *)
Theorem C44_powersOfTen : length powersOfTen = 87%nat /\ length smallPowersOfTen = 8%nat /\ length uint64pow10 = 20%nat /\
  (forall i p, nth_error powersOfTen i = Some p ->
     2 ^ 63 <= mant p < 2 ^ 64 /\
     (Rabs (ext_val p - p10 (-348 + 8 * Z.of_nat i)) <= p2 (exp p) / 2)%R) /\
  (forall i p, nth_error smallPowersOfTen i = Some p ->
     2 ^ 63 <= mant p < 2 ^ 64 /\ ext_val p = p10 (Z.of_nat i)) /\
  (forall i p, nth_error uint64pow10 i = Some p -> p = 10 ^ Z.of_nat i).
Proof. exact c44. Qed.
Print Assumptions C44_powersOfTen.

Example C44_example : exists p, nth_error powersOfTen 86 = Some p /\ mant p = 0xaf87023b9bf0ee6b /\ exp p = 1066.
Proof. eexists. split; [reflexivity|]. split; reflexivity. Qed.

(** The error is at most half a unit; the claim allows 2^-32 more. *)
Theorem C45_Multiply : forall f g, 0 <= mant f < 2 ^ 64 -> 0 <= mant g < 2 ^ 64 ->
  (Rabs (IZR (mant (Multiply f g)) - IZR (mant f * mant g) * p2 (-64)) <= / 2)%R /\
  0 <= mant (Multiply f g) < 2 ^ 64 /\
  exp (Multiply f g) = exp f + exp g + 64 /\ neg (Multiply f g) = neg f.
Proof. exact c45m. Qed.
Print Assumptions C45_Multiply.

Example C45_example : Multiply (mkExt (2 ^ 63 + 1) 3 true) (mkExt (2 ^ 64 - 1) 5 false) = mkExt (2 ^ 63) 72 true.
Proof. vm_compute. reflexivity. Qed.

Theorem C45_Normalize : forall f g s, 0 < mant f < 2 ^ 64 -> Normalize f = (g, s) ->
  ext_val g = ext_val f /\ 2 ^ 63 <= mant g < 2 ^ 64 /\ neg g = neg f /\
  exp g = exp f - s /\ mant g = mant f * 2 ^ s /\ 0 <= s <= 63.
Proof. exact c45n. Qed.
Print Assumptions C45_Normalize.

Example C45_Normalize_example : Normalize (mkExt 5 0 true) = (mkExt (5 * 2 ^ 61) (-61) true, 61).
Proof. vm_compute. reflexivity. Qed.

(** mid_lo and mid_hi are half way to Flocq's pred and succ of v in the format.  Integers below
    2^(mb+1) are treated apart (next theorem). *)
Theorem C46_bounds : forall flt mb eb mt e ng, format_of flt mb eb -> float_parts mb eb mt e -> 0 < mt ->
  let v := (IZR mt * p2 (e - mb))%R in
  (forall n, v = IZR n -> 2 ^ (mb + 1) <= n) ->
  exists f lower upper, AssignComputeBounds mt e ng flt = (f, lower, upper) /\
    ext_val f = v /\ ext_val lower = mid_lo mb eb v /\ ext_val upper = mid_hi mb eb v /\ neg f = ng.
Proof. exact c46. Qed.
Print Assumptions C46_bounds.

(** 0.1 as a float32. *)
Example C46_example : float_parts 23 8 13421773 (-4) /\
  AssignComputeBounds 13421773 (-4) false float32info =
    (mkExt 13421773 (-27) false, mkExt 26843545 (-28) false, mkExt 26843547 (-28) false).
Proof. split; [left; lia|vm_compute; reflexivity]. Qed.

Theorem C46_small_integers : forall flt mb eb mt e ng n, format_of flt mb eb -> float_parts mb eb mt e -> 0 < mt ->
  (IZR mt * p2 (e - mb))%R = IZR n -> n < 2 ^ (mb + 1) ->
  AssignComputeBounds mt e ng flt = (mkExt n 0 ng, mkExt n 0 ng, mkExt n 0 ng).
Proof. exact c46i. Qed.
Print Assumptions C46_small_integers.

Example C46_small_example : float_parts 52 11 (3 * 2 ^ 51) 3 /\ AssignComputeBounds (3 * 2 ^ 51) 3 true float64info =
  (mkExt 12 0 true, mkExt 12 0 true, mkExt 12 0 true).
Proof. split; [left; lia|vm_compute; reflexivity]. Qed.

(** The exponents of normalised floats are in this range (C47_range).  The last part bounds
    the error of the scaled mantissa by one unit. *)
Theorem C47_frexp10 : forall f, 2 ^ 63 <= mant f < 2 ^ 64 -> -1140 <= exp f <= 965 ->
  exists i p, nth_error powersOfTen (Z.to_nat i) = Some p /\ 0 <= i < 87 /\
    frexp10 f = Ret (Multiply f p, 348 - 8 * i, i) /\ -60 <= exp (Multiply f p) <= -32 /\
    (Rabs (IZR (mant (Multiply f p)) - ext_val f * p10 (-348 + 8 * i) * p2 (- exp (Multiply f p))) < 1)%R.
Proof. exact c47. Qed.
Print Assumptions C47_frexp10.

Example C47_example : frexp10 (mkExt (2 ^ 63) (-1137) false) = Ret (mkExt 0x4f0cedc95a718dd5 (-60) false, -324, 84).
Proof. vm_compute. reflexivity. Qed.

(** What FixedDecimal and ShortestDecimal pass to frexp10. *)
Theorem C47_range : forall flt mb eb mt e ng, format_of flt mb eb -> float_parts mb eb mt e -> 0 < mt ->
  forall g, g = mkExt mt (e - mb) ng \/ g = mkExt (2 * mt + 1) (e - mb - 1) ng ->
  -1140 <= exp (fst (Normalize g)) <= 965 /\ 2 ^ 63 <= mant (fst (Normalize g)) < 2 ^ 64.
Proof. exact c47r. Qed.
Print Assumptions C47_range.

Example C47_range_example : float_parts 52 11 1 (-1022) /\ exp (fst (Normalize (mkExt 1 (-1074) false))) = -1137.
Proof. split; [right; lia|vm_compute; reflexivity]. Qed.

(** The conclusion 'Ret' says that it does not panic and stays inside its buffer of [scap s] bytes
    (ftoa.go:155 uses 24).  lval is the number the digits denote. *)
Theorem C48_FixedDecimal : forall flt mb eb mt e ng n s, format_of flt mb eb -> float_parts mb eb mt e -> 0 < mt ->
  1 <= n <= 15 -> 15 <= scap s ->
  exists s' ok, FixedDecimal (mkExt mt (e - mb) ng) s n = Ret (s', ok) /\
    (ok = true -> digs_norm (sd s') /\ Z.of_nat (length (sd s')) <= n /\
       lval (sd s') (sdp s') = sig_round n (IZR mt * p2 (e - mb))).
Proof. exact c48. Qed.
Print Assumptions C48_FixedDecimal.

(** pi to 15 digits. *)
Example C48_example : FixedDecimal (mkExt 7074237752028440 (-51) false) (mkSlice [] 24 0 false) 15 =
  Ret (mkSlice [3;1;4;1;5;9;2;6;5;3;5;8;9;7;9] 24 1 false, true).
Proof. vm_compute. reflexivity. Qed.

(** rn is rounding to the nearest float, ties to even: the digits read back as v. They are less
    than half a unit of their last digit away from v. *)
Theorem C49_ShortestDecimal : forall flt mb eb mt e ng s, format_of flt mb eb -> float_parts mb eb mt e -> 0 < mt -> 32 <= scap s ->
  let v := (IZR mt * p2 (e - mb))%R in
  exists f lower upper s' ok, AssignComputeBounds mt e ng flt = (f, lower, upper) /\
    ShortestDecimal f s lower upper = Ret (s', ok) /\
    (ok = true -> shortest_between (mid_lo mb eb v) (mid_hi mb eb v) (sd s') (sdp s') /\
       rn mb eb (lval (sd s') (sdp s')) = v /\
       (Rabs (lval (sd s') (sdp s') - v) < / 2 * p10 (sdp s' - Z.of_nat (length (sd s'))))%R).
Proof. exact c49. Qed.
Print Assumptions C49_ShortestDecimal.

Example C49_example : let '(f, lower, upper) := AssignComputeBounds 13421773 (-4) false float32info in
  ShortestDecimal f (mkSlice [] 32 0 false) lower upper = Ret (mkSlice [1] 32 0 false, true).
Proof. vm_compute. reflexivity. Qed.

(** 7006492321624085354e-64 is less than half of the least float32, but comes out as the least
    float32: the limit of the error check, 2^63, overflows int64. *)
Theorem C50_AssignDecimal_refuted : exists flt mb eb m e10 f, format_of flt mb eb /\ 0 < m < 2 ^ 64 /\
  AssignDecimal m e10 false false flt = Ret (f, true) /\
  ieee mb eb (fst (floatBits f flt)) <> ieee_round mb eb false (IZR m * p10 e10).
Proof. exact c50r. Qed.
Print Assumptions C50_AssignDecimal_refuted.

(** 2^-25, half of the least half precision number, is a tie and should give 0. *)
Theorem C50_AssignDecimal_tie_refuted : exists m e10 f, 0 < m < 2 ^ 64 /\
  AssignDecimal m e10 false false float16info = Ret (f, true) /\
  ieee 10 5 (fst (floatBits f float16info)) <> ieee_round 10 5 false (IZR m * p10 e10).
Proof. exact c50t. Qed.
Print Assumptions C50_AssignDecimal_tie_refuted.

(** 0e340 comes out as infinity. *)
Theorem C50_AssignDecimal_zero_refuted : exists e10 f, AssignDecimal 0 e10 false false float64info = Ret (f, true) /\
  ieee 52 11 (fst (floatBits f float64info)) = VInf false.
Proof. exact c50z. Qed.
Print Assumptions C50_AssignDecimal_zero_refuted.

(** Missing: the number 0 (see below) and numbers at most one part in 2^56 below half the least positive
    float. *)
Theorem C50_AssignDecimal_partial : forall flt mb eb m e10 ng tr f, format_of flt mb eb -> 0 < m < 2 ^ 64 ->
  let half_least := p2 (1 - 2 ^ (eb - 1) - mb) in
  (IZR m * p10 e10 <= half_least * (1 - p2 (-56)) \/ half_least < IZR m * p10 e10)%R ->
  AssignDecimal m e10 ng tr flt = Ret (f, true) ->
  ieee mb eb (fst (floatBits f flt)) = ieee_round mb eb ng (sgnR ng (IZR m * p10 e10)).
Proof. exact c50p. Qed.
Print Assumptions C50_AssignDecimal_partial.

(** Everywhere: what is accepted is right, or it is such a number and the result is the least float. *)
Theorem C50_AssignDecimal_all : forall flt mb eb m e10 ng tr f, format_of flt mb eb -> 0 < m < 2 ^ 64 ->
  AssignDecimal m e10 ng tr flt = Ret (f, true) ->
  ieee mb eb (fst (floatBits f flt)) = ieee_round mb eb ng (sgnR ng (IZR m * p10 e10)) \/
  let half_least := p2 (1 - 2 ^ (eb - 1) - mb) in
  (half_least * (1 - p2 (-56)) < IZR m * p10 e10 <= half_least)%R /\
  ieee mb eb (fst (floatBits f flt)) = VNum ng (sgnR ng (2 * half_least)).
Proof. exact c50_all. Qed.
Print Assumptions C50_AssignDecimal_all.

(** What becomes of 0: by the exponent it is refused, a zero or an infinity. *)
Theorem C50_AssignDecimal_zero : forall flt lo hi ng tr e10,
  (flt = float16info /\ lo = -20 /\ hi = -12) \/ (flt = float32info /\ lo = -60 /\ hi = 20) \/ (flt = float64info /\ lo = -340 /\ hi = 292) ->
  exists f, AssignDecimal 0 e10 ng tr flt = Ret (f, (lo <=? e10) && (e10 <? 348)) /\
    (lo <= e10 < hi -> ieee (mantbits flt) (expbits flt) (fst (floatBits f flt)) = VNum ng 0) /\
    (hi <= e10 < 348 -> ieee (mantbits flt) (expbits flt) (fst (floatBits f flt)) = VInf ng).
Proof. exact c50_zero. Qed.
Print Assumptions C50_AssignDecimal_zero.

(** 0.00 at 64 bits and 0 at 16 bits. *)
Example C50_zero_example : (exists f, AssignDecimal 0 (-2) false false float64info = Ret (f, true) /\ fst (floatBits f float64info) = 0) /\
  (exists f, AssignDecimal 0 0 false false float16info = Ret (f, true) /\ fst (floatBits f float16info) = 0x7C00).
Proof. split; eexists; (split; [vm_compute; reflexivity|vm_compute; reflexivity]). Qed.

Example C50_example : exists f, AssignDecimal 1 (-1) false false float32info = Ret (f, true) /\ fst (floatBits f float32info) = 0x3dcccccd.
Proof. eexists. split; [vm_compute; reflexivity|vm_compute; reflexivity]. Qed.

(** The error of a truncated mantissa is under-estimated: the digits of 2^60 - 37, followed by
    999999 and thirty more, give a float64 that is not the nearest. *)
Theorem C60_trunc_refuted : exists flt mb eb m e10 V f, format_of flt mb eb /\ 2 ^ 60 - 37 <= m < 2 ^ 60 /\
  (IZR m * p10 e10 <= V < IZR (m + 1) * p10 e10)%R /\
  AssignDecimal m e10 false true flt = Ret (f, true) /\
  ieee mb eb (fst (floatBits f flt)) <> ieee_round mb eb false V.
Proof. exact c60r. Qed.
Print Assumptions C60_trunc_refuted.

(** It is right where m is at least 2^60, or has 19 digits and at most half a unit was cut off (as
    line 249 assumes), or at most the 2^61st part of m was.  Missing: mantissas below 2^60 and larger
    parts cut off (where it is false), and numbers next to half the least float. *)
Theorem C60_trunc_partial : forall flt mb eb m e10 ng f V, format_of flt mb eb -> 0 < m < 2 ^ 64 ->
  (2 ^ 60 <= m /\ (IZR m * p10 e10 <= V <= (IZR m + 1) * p10 e10)%R) \/
  (10 ^ 18 <= m /\ (IZR m * p10 e10 <= V <= (IZR m + / 2) * p10 e10)%R) \/
  (IZR m * p10 e10 <= V <= IZR m * (1 + p2 (-61)) * p10 e10)%R ->
  let half_least := p2 (1 - 2 ^ (eb - 1) - mb) in
  (V <= half_least * (1 - p2 (-56)) \/ half_least < V)%R ->
  AssignDecimal m e10 ng true flt = Ret (f, true) ->
  ieee mb eb (fst (floatBits f flt)) = ieee_round mb eb ng (sgnR ng V).
Proof. exact c60p. Qed.
Print Assumptions C60_trunc_partial.

Example C60_example : exists f, AssignDecimal 3141592653589793238 (-18) false true float64info = Ret (f, true) /\
  fst (floatBits f float64info) = 0x400921fb54442d18.
Proof. eexists. split; [vm_compute; reflexivity|vm_compute; reflexivity]. Qed.
