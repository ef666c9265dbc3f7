(** Properties of the arbitrary-precision decimals of internal/strconv/decimal.go (C39 to C43).
    [dval] is the number a decimal stands for, [dnorm] its normal form (see SpecDec.v);
    [w] is the width of Go's uint, 32 or 64. *)
From Coq Require Import ZArith Reals String List Lia Lra.
From Flocq Require Import Core.
From Verif Require Import GoBase Spec SpecText SpecDec ClaimsDec.
From Verif Require Decimal.
Import ListNotations.
Import Decimal (mkDec, d, dp, trunc, nd).
Open Scope Z_scope.

Theorem C39_Assign : forall a v, 0 <= v < 2 ^ 64 ->
  exists b, Decimal.Assign a v = Ret b /\ dnorm b /\ dval b = IZR v /\ Decimal.trunc b = Decimal.trunc a.
Proof. exact c39. Qed.
Print Assumptions C39_Assign.

Example C39_example : Decimal.Assign Decimal.new_decimal 18446744073709551600 =
  Ret (mkDec [1; 8; 4; 4; 6; 7; 4; 4; 0; 7; 3; 7; 0; 9; 5; 5; 1; 6] 20 false).
Proof. vm_compute. reflexivity. Qed.

(** The normal form of a number is unique, so the result above is determined by v. *)
Theorem C39_normal_form : forall a b, dnorm a -> dnorm b -> dval a = dval b ->
  Decimal.d a = Decimal.d b /\ Decimal.dp a = Decimal.dp b.
Proof. exact c39_unique. Qed.
Print Assumptions C39_normal_form.

Theorem C40_Shift_exact : forall w a k, w = 32 \/ w = 64 -> dnorm a -> Decimal.trunc a = false -> sig_digits 800 (dval a * p2 k) ->
  exists b, Decimal.Shift w a k = Ret b /\ dnorm b /\ Decimal.trunc b = false /\ dval b = (dval a * p2 k)%R.
Proof. exact c40_exact. Qed.
Print Assumptions C40_Shift_exact.

Example C40_example : exists b, Decimal.Shift 64 (mkDec [1] 1 false) (-70) = Ret b /\
  b = mkDec [8; 4; 7; 0; 3; 2; 9; 4; 7; 2; 5; 4; 3; 0; 0; 3; 3; 9; 0; 6; 8; 3; 2; 2; 5; 0; 0; 6; 7; 9; 6; 4; 1; 9; 6; 2; 0; 5; 1; 3; 9; 1; 6; 0; 1; 5; 6; 2; 5] (-21) false.
Proof. eexists. split; vm_compute; reflexivity. Qed.

(** Every number the formatter shifts (mantissas below 2^56, exponents from -1076 to 971) has few enough digits. *)
Theorem C40_Shift_formatter : forall w m e, w = 32 \/ w = 64 -> 0 <= m < 2 ^ 64 -> -1100 <= e <= 2000 ->
  exists a b, Decimal.Assign Decimal.new_decimal m = Ret a /\ Decimal.Shift w a e = Ret b /\
    dnorm b /\ Decimal.trunc b = false /\ dval b = (IZR m * p2 e)%R.
Proof. exact c40_fmt. Qed.
Print Assumptions C40_Shift_formatter.

Example C40_formatter_example : 0 <= 2 ^ 53 - 1 < 2 ^ 64 /\ -1100 <= -1074 <= 2000.
Proof. lia. Qed.

(** In general: the flag records exactly the loss of digits, and each of the shifts by at most w-4 places loses less than one unit of the 800th digit. *)
Theorem C40_Shift_truncation : forall w a k, w = 32 \/ w = 64 -> dnorm a ->
  exists b, Decimal.Shift w a k = Ret b /\ dnorm b /\
    (Decimal.trunc b = true <-> Decimal.trunc a = true \/ (dval b < dval a * p2 k)%R) /\
    (dval a * p2 k * (1 - p10 (-799)) ^ Z.to_nat (Z.abs k / (w - 4) + 2) <= dval b <= dval a * p2 k)%R.
Proof. exact c40_trunc. Qed.
Print Assumptions C40_Shift_truncation.

Example C40_truncation_example : exists b, Decimal.Shift 64 (mkDec [1] 1 false) (-1200) = Ret b /\ Decimal.trunc b = true /\ length (Decimal.d b) = 800%nat.
Proof. eexists. split; [vm_compute; reflexivity|]. split; vm_compute; reflexivity. Qed.

(** A shift by at most w-4 places keeps exactly the first 800 digits of the product. *)
Theorem C40_Shift_single : forall w a k, w = 32 \/ w = 64 -> dnorm a -> Decimal.d a <> [] -> Z.abs k <= w - 4 ->
  exists b, Decimal.Shift w a k = Ret b /\
    exists p, (p10 (p - 1) <= dval a * p2 k < p10 p)%R /\ dval b = floor10 (p - 800) (dval a * p2 k).
Proof. exact c40_one. Qed.
Print Assumptions C40_Shift_single.

(** [V] is the number itself, or, when digits were cut off ([trunc]), any number that has the digits of [a] as its first 800 digits. *)
Theorem C41_Round : forall a n V, dnorm a -> cut_to a V -> 0 <= n -> Decimal.trunc a = false \/ n < 800 ->
  dnorm (Decimal.Round a n) /\ dval (Decimal.Round a n) = round10 (Decimal.dp a - n) V.
Proof. exact c41_round. Qed.
Print Assumptions C41_Round.

Example C41_Round_example : Decimal.Round (mkDec [9; 9; 9; 5] 0 false) 3 = mkDec [1] 1 false /\
  Decimal.Round (mkDec [1; 2; 5] 1 false) 2 = mkDec [1; 2] 1 false /\ Decimal.Round (mkDec [1; 2; 5] 1 true) 2 = mkDec [1; 3] 1 true /\
  Decimal.Round (mkDec [6] 0 false) 0 = mkDec [1] 1 false.
Proof. vm_compute. auto. Qed.
Example C41_hypotheses : dnorm (mkDec [1; 2; 5] 1 false) /\ cut_to (mkDec [1; 2; 5] 1 false) (IZR 125 * p10 (-2)) /\
  dnorm (mkDec [1; 2; 5] 1 true) /\ cut_to (mkDec [1; 2; 5] 1 true) (IZR 125 * p10 (-2) + p10 (-900)).
Proof.
  unfold dnorm, digits_ok, no_lead0, no_trail0, cut_to, dval, lval. cbn [d dp trunc hd last length].
  change (dread [1; 2; 5]) with 125. change (1 - Z.of_nat 3) with (-2). change (1 - 800) with (-799).
  assert (0 < p10 (-900) < p10 (-799))%R by (split; [apply bpow_gt_0|apply bpow_lt; lia]).
  repeat split; try lia; try discriminate; try lra; repeat constructor; lia.
Qed.

Theorem C41_RoundDown_RoundUp : forall a n V, dnorm a -> cut_to a V -> 0 <= n ->
  (Decimal.trunc a = false \/ n < 800 ->
     dnorm (Decimal.RoundDown a n) /\ dval (Decimal.RoundDown a n) = floor10 (Decimal.dp a - n) V) /\
  (Decimal.trunc a = false \/ n < Decimal.nd a ->
     dnorm (Decimal.RoundUp a n) /\ dval (Decimal.RoundUp a n) = ceil10 (Decimal.dp a - n) V).
Proof. exact c41_dirs. Qed.
Print Assumptions C41_RoundDown_RoundUp.

Example C41_dirs_example : Decimal.RoundUp (mkDec [1; 9; 9; 1] 2 false) 3 = mkDec [2] 2 false /\
  Decimal.RoundDown (mkDec [1; 0; 0; 9] 2 false) 3 = mkDec [1] 2 false /\ Decimal.RoundDown (mkDec [9] 0 false) 0 = mkDec [] 0 false.
Proof. vm_compute. auto. Qed.

Theorem C41_unchanged : forall a n, n < 0 \/ Decimal.nd a <= n ->
  Decimal.Round a n = a /\ Decimal.RoundDown a n = a /\ Decimal.RoundUp a n = a.
Proof. exact c41_id. Qed.
Print Assumptions C41_unchanged.

(** Missing from the full statement: numbers below 2^64 whose nearest integer is 2^64 itself. *)
Theorem C42_RoundedInteger_partial : forall a V, dnorm a -> cut_to a V -> ZnearestE V < 2 ^ 64 ->
  Decimal.RoundedInteger a = ZnearestE V.
Proof. exact c42. Qed.
Print Assumptions C42_RoundedInteger_partial.

Example C42_example : Decimal.RoundedInteger (mkDec [1; 2; 5; 5] 3 false) = 126 /\ Decimal.RoundedInteger (mkDec [1; 2; 4; 5] 3 false) = 124 /\
  Decimal.RoundedInteger (mkDec [1; 2] 6 false) = 120000 /\ Decimal.RoundedInteger (mkDec [6] 0 false) = 1 /\ Decimal.RoundedInteger (mkDec [9] (-1) false) = 0.
Proof. vm_compute. auto. Qed.

(** 2^64 - 1/2 is below 2^64, but the addition of the carry wraps around. *)
Theorem C42_RoundedInteger_refuted : exists a, dnorm a /\ Decimal.trunc a = false /\ (dval a < IZR (2 ^ 64))%R /\
  Decimal.RoundedInteger a = 0 /\ ZnearestE (dval a) = 2 ^ 64.
Proof. exact c42_refuted. Qed.
Print Assumptions C42_RoundedInteger_refuted.

Theorem C43_String : forall a, dnorm a -> denotes_plain (Decimal.String_ a) (dval a).
Proof. exact c43. Qed.
Print Assumptions C43_String.

Example C43_example : Decimal.String_ (mkDec [1; 2; 5] (-2) false) = B "0.00125"%string /\ Decimal.String_ (mkDec [1; 2; 5] 2 false) = B "12.5"%string /\
  Decimal.String_ (mkDec [1; 2; 5] 5 false) = B "12500"%string /\ Decimal.String_ Decimal.new_decimal = B "0"%string.
Proof. vm_compute. auto. Qed.
