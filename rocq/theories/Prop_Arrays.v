(** Properties of the models with arrays: decimal.go on its array of 800 bytes (C74), and
    FormatFloat and AppendFloat with the buffers of 24, 32 and 800 bytes (C75).

    [array_ok] says that the bytes in use are digits, [held] is the decimal they spell
    (SpecArr.v); [dnorm], [dval], [cut_to] and the roundings are those of SpecDec.v.  An index
    outside an array is [Panic], so each equation with [Ret] also says that there is none. *)
From Coq Require Import ZArith Reals String List Bool Lia Lra.
From Flocq Require Import Core.
From Verif Require Import GoBase Spec SpecText SpecDec SpecFtoa SpecFmt SpecArr ClaimsArr.
From Verif Require Import DecimalArr.
From Verif Require FtoaArr Ftoa Decimal ClaimsFtoa ClaimsFtoa2.
Import ListNotations.
Open Scope Z_scope.

(** Whatever the array held before. *)
Theorem C74_Assign : forall a v, length (mem a) = 800%nat -> 0 <= v < 2 ^ 64 ->
  exists b, Assign a v = Ret b /\ array_ok b /\ dnorm (held b) /\ dval (held b) = IZR v /\
    atr b = atr a.
Proof. exact c74a. Qed.
Print Assumptions C74_Assign.

Example C74_Assign_example : exists b, Assign (mkA (repeat 77 800) 800 (-5) false) 90210 = Ret b /\
  firstn 6 (mem b) = [57; 48; 50; 49; 48; 77] /\ and_ b = 4 /\ adp b = 5.
Proof. eexists. split; [vm_compute; reflexivity|]. vm_compute. auto. Qed.

(** No operation indexes outside the array, whatever digits it holds. *)
Theorem C74_in_bounds : forall w a n k v, w = 32 \/ w = 64 -> array_ok a -> 0 <= v < 2 ^ 64 ->
  (exists b, Assign a v = Ret b /\ array_ok b) /\
  (exists b, Round a n = Ret b /\ array_ok b) /\
  (exists b, RoundDown a n = Ret b /\ array_ok b) /\
  (exists b, RoundUp a n = Ret b /\ array_ok b) /\
  (exists m, RoundedInteger a = Ret m) /\ (exists t, String_ a = Ret t) /\
  (dnorm (held a) -> exists b, Shift w a k = Ret b /\ array_ok b).
Proof. exact c74b. Qed.
Print Assumptions C74_in_bounds.

Example C74_in_bounds_example : array_ok (mkA (repeat 57 800) 800 3 true) /\
  exists b, Round (mkA (repeat 57 800) 800 3 true) 799 = Ret b /\ and_ b = 1 /\ adp b = 4 /\ get (mem b) 0 = Ret 49.
Proof.
  split.
  - split; [reflexivity|]. split; [cbn; lia|]. apply Forall_forall. intros x H. cbn [mem and_] in H.
    assert (E : firstn (Z.to_nat 800) (repeat 57 800) = repeat 57 800) by reflexivity. rewrite E in H. apply repeat_spec in H. lia.
  - eexists. split; [vm_compute; reflexivity|]. vm_compute. auto.
Qed.

Theorem C74_Shift_exact : forall w a k, w = 32 \/ w = 64 -> array_ok a -> dnorm (held a) -> atr a = false -> sig_digits 800 (dval (held a) * p2 k) ->
  exists b, Shift w a k = Ret b /\ array_ok b /\ dnorm (held b) /\ atr b = false /\ dval (held b) = (dval (held a) * p2 k)%R.
Proof. exact c74e. Qed.
Print Assumptions C74_Shift_exact.

Example C74_Shift_example : exists a b, Assign new_adec 5 = Ret a /\ Shift 64 a (-3) = Ret b /\
  firstn (Z.to_nat (and_ b)) (mem b) = [54; 50; 53] /\ adp b = 0 /\ atr b = false.
Proof. eexists. eexists. split; [vm_compute; reflexivity|]. split; [vm_compute; reflexivity|]. vm_compute. auto. Qed.

(** The numbers that the formatter shifts. *)
Theorem C74_Shift_formatter : forall w m e, w = 32 \/ w = 64 -> 0 <= m < 2 ^ 64 -> -1100 <= e <= 2000 ->
  exists a b, Assign new_adec m = Ret a /\ Shift w a e = Ret b /\
    array_ok b /\ dnorm (held b) /\ atr b = false /\ dval (held b) = (IZR m * p2 e)%R.
Proof. exact c74f. Qed.
Print Assumptions C74_Shift_formatter.

Example C74_formatter_example : 0 <= 2 ^ 53 - 1 < 2 ^ 64 /\ -1100 <= -1074 <= 2000.
Proof. lia. Qed.

(** Digits that do not fit are dropped and recorded in the flag. *)
Theorem C74_Shift_truncation : forall w a k, w = 32 \/ w = 64 -> array_ok a -> dnorm (held a) ->
  exists b, Shift w a k = Ret b /\ array_ok b /\ dnorm (held b) /\
    (atr b = true <-> atr a = true \/ (dval (held b) < dval (held a) * p2 k)%R) /\
    (dval (held a) * p2 k * (1 - p10 (-799)) ^ Z.to_nat (Z.abs k / (w - 4) + 2) <= dval (held b) <= dval (held a) * p2 k)%R.
Proof. exact c74t. Qed.
Print Assumptions C74_Shift_truncation.

Example C74_truncation_example : exists b, Shift 64 (mkA (49 :: repeat 48 798 ++ [53]) 800 1 false) (-2) = Ret b /\
  atr b = true /\ and_ b = 800.
Proof. eexists. split; [vm_compute; reflexivity|]. vm_compute. auto. Qed.

Theorem C74_Shift_single : forall w a k, w = 32 \/ w = 64 -> array_ok a -> dnorm (held a) -> and_ a <> 0 -> Z.abs k <= w - 4 ->
  exists b, Shift w a k = Ret b /\
    exists p, (p10 (p - 1) <= dval (held a) * p2 k < p10 p)%R /\ dval (held b) = floor10 (p - 800) (dval (held a) * p2 k).
Proof. exact c74o. Qed.
Print Assumptions C74_Shift_single.

Example C74_single_example : exists b, Shift 32 (mkA (55 :: repeat 0 799) 1 1 false) 28 = Ret b /\
  firstn (Z.to_nat (and_ b)) (mem b) = [49; 56; 55; 57; 48; 52; 56; 49; 57; 50] /\ 7 * 2 ^ 28 = 1879048192.
Proof. eexists. split; [vm_compute; reflexivity|]. vm_compute. auto. Qed.

Theorem C74_Round : forall a n V, array_ok a -> dnorm (held a) -> cut_to (held a) V -> 0 <= n -> atr a = false \/ n < 800 ->
  exists b, Round a n = Ret b /\ array_ok b /\ dnorm (held b) /\ dval (held b) = round10 (adp a - n) V.
Proof. exact c74r. Qed.
Print Assumptions C74_Round.

Example C74_Round_example : exists b, Round (mkA ([49; 50; 53] ++ repeat 0 797) 3 1 false) 2 = Ret b /\
  firstn 2 (mem b) = [49; 50] /\ and_ b = 2 /\
  exists c, Round (mkA ([49; 50; 53] ++ repeat 0 797) 3 1 true) 2 = Ret c /\ firstn 2 (mem c) = [49; 51].
Proof. eexists. split; [vm_compute; reflexivity|]. split; [reflexivity|]. split; [reflexivity|]. eexists. split; [vm_compute; reflexivity|reflexivity]. Qed.

Theorem C74_RoundDown_RoundUp : forall a n V, array_ok a -> dnorm (held a) -> cut_to (held a) V -> 0 <= n ->
  exists b c, RoundDown a n = Ret b /\ RoundUp a n = Ret c /\ array_ok b /\ array_ok c /\
    (atr a = false \/ n < 800 -> dnorm (held b) /\ dval (held b) = floor10 (adp a - n) V) /\
    (atr a = false \/ n < and_ a -> dnorm (held c) /\ dval (held c) = ceil10 (adp a - n) V).
Proof. exact c74d. Qed.
Print Assumptions C74_RoundDown_RoundUp.

Example C74_dirs_example : exists b c, RoundDown (mkA ([57; 57; 49] ++ repeat 0 797) 3 1 false) 2 = Ret b /\ and_ b = 2 /\ adp b = 1 /\
  RoundUp (mkA ([57; 57; 49] ++ repeat 0 797) 3 1 false) 2 = Ret c /\ firstn 1 (mem c) = [49] /\ and_ c = 1 /\ adp c = 2.
Proof. eexists. eexists. split; [vm_compute; reflexivity|]. split; [reflexivity|]. split; [reflexivity|]. split; [vm_compute; reflexivity|]. auto. Qed.

Theorem C74_unchanged : forall a n, n < 0 \/ and_ a <= n ->
  Round a n = Ret a /\ RoundDown a n = Ret a /\ RoundUp a n = Ret a.
Proof. exact c74u. Qed.
Print Assumptions C74_unchanged.

Example C74_unchanged_example : -1 < 0 \/ and_ new_adec <= -1.
Proof. lia. Qed.

(** Missing, as in C42: numbers below 2^64 whose nearest integer is 2^64. *)
Theorem C74_RoundedInteger_partial : forall a V, array_ok a -> dnorm (held a) -> cut_to (held a) V -> ZnearestE V < 2 ^ 64 ->
  RoundedInteger a = Ret (ZnearestE V).
Proof. exact c74i. Qed.
Print Assumptions C74_RoundedInteger_partial.

Example C74_RoundedInteger_example : RoundedInteger (mkA ([49; 50; 53; 53] ++ repeat 0 796) 4 3 false) = Ret 126.
Proof. vm_compute. reflexivity. Qed.

Theorem C74_String : forall a, array_ok a -> dnorm (held a) ->
  exists t, String_ a = Ret t /\ denotes_plain t (dval (held a)).
Proof. exact c74s. Qed.
Print Assumptions C74_String.

Example C74_String_example : String_ (mkA ([49; 50; 53] ++ repeat 0 797) 3 (-2) false) = Ret (B "0.00125"%string).
Proof. vm_compute. reflexivity. Qed.

(** The model with buffers prints what the model with lists prints. *)
Theorem C75_same_text : forall w opt dst val fmt prec bitSize, w = 32 \/ w = 64 -> 0 <= val < 2 ^ 64 ->
  (fmt = 101 \/ fmt = 69 -> prec < 2 ^ (w - 1) - 1) ->
  FtoaArr.AppendFloat w opt dst val fmt prec bitSize = Ftoa.AppendFloat w opt dst val fmt prec bitSize.
Proof. exact c75a. Qed.
Print Assumptions C75_same_text.

Example C75_example : FtoaArr.AppendFloat 64 true [62] 0x3FB999999999999A 101 10 64 = Ret (B ">1.0000000000e-01"%string) /\
  Ftoa.AppendFloat 64 true [62] 0x3FB999999999999A 101 10 64 = Ret (B ">1.0000000000e-01"%string).
Proof. split; vm_compute; reflexivity. Qed.

(** No call indexes outside a buffer, except as stated in C57. *)
Theorem C75_returns_partial : forall w opt val fmt prec bitSize, w = 32 \/ w = 64 -> 0 <= val < 2 ^ 64 ->
  - 2 ^ (w - 1) <= prec < 2 ^ (w - 1) ->
  bitSize = 16 \/ bitSize = 32 \/ bitSize = 64 ->
  fmt = 98 \/ fmt = 101 \/ fmt = 69 \/ fmt = 102 \/ fmt = 103 \/ fmt = 71 \/ prec <> 0 \/ opt = false ->
  (fmt = 101 \/ fmt = 69 -> prec <> 2 ^ (w - 1) - 1) ->
  exists t, FtoaArr.FormatFloat w opt val fmt prec bitSize = Ret t.
Proof. exact c75t. Qed.
Print Assumptions C75_returns_partial.

Example C75_returns_example : FtoaArr.FormatFloat 32 true 0x3FF8000000000000 69 2 16 = Ret (B "1.50E+00"%string).
Proof. vm_compute. reflexivity. Qed.

(** The largest int as precision of 'e': i <= prec always holds in the loop of lines 368-370, so
    that the call does not return (for some numbers FixedDecimal panics before). *)
Theorem C75_never_returns : forall w opt dst val fmt bitSize mb eb b s v, w = 32 \/ w = 64 ->
  as_float bitSize val mb eb b s -> ieee mb eb b = VNum s (sgnR s v) -> fmt = 101 \/ fmt = 69 ->
  FtoaArr.AppendFloat w opt dst val fmt (2 ^ (w - 1) - 1) bitSize = Panic.
Proof. exact c75m. Qed.
Print Assumptions C75_never_returns.

Example C75_never_example : as_float 64 0x3FF0000000000000 52 11 0x3FF0000000000000 false /\ ieee 52 11 0x3FF0000000000000 = VNum false (sgnR false 1).
Proof. split; [apply (ClaimsFtoa2.as_float_64 _ false 1); [lia|]|]; exact ClaimsFtoa.ieee_one. Qed.

(** Correctly rounded texts; missing as in C51: the largest int as precision. *)
Theorem C75_e_partial : forall w opt val fmt prec bitSize mb eb b s v, w = 32 \/ w = 64 ->
  as_float bitSize val mb eb b s -> ieee mb eb b = VNum s (sgnR s v) ->
  fmt = 101 \/ fmt = 69 -> 0 <= prec < 2 ^ (w - 1) - 1 ->
  exists t fp, FtoaArr.FormatFloat w opt val fmt prec bitSize = Ret t /\
    Z.of_nat (length fp) = prec /\ prints_e fmt s fp (sig_round (prec + 1) v) t.
Proof. exact c75e. Qed.
Print Assumptions C75_e_partial.

Example C75_e_example : FtoaArr.FormatFloat 64 true 0x3FF8000000000000 101 0 32 = Ret (B "2e+00"%string).
Proof. vm_compute. reflexivity. Qed.

Theorem C75_f : forall w opt val prec bitSize mb eb b s v, w = 32 \/ w = 64 ->
  as_float bitSize val mb eb b s -> ieee mb eb b = VNum s (sgnR s v) ->
  0 <= prec < 2 ^ (w - 1) ->
  exists t fp, FtoaArr.FormatFloat w opt val 102 prec bitSize = Ret t /\
    Z.of_nat (length fp) = prec /\ prints_f s fp (round10 (- prec) v) t.
Proof. exact c75f. Qed.
Print Assumptions C75_f.

Example C75_f_example : FtoaArr.FormatFloat 32 true 0xC000000000000000 102 2 16 = Ret (B "-2.00"%string).
Proof. vm_compute. reflexivity. Qed.

Theorem C75_g : forall w opt val fmt prec bitSize mb eb b s v, w = 32 \/ w = 64 ->
  as_float bitSize val mb eb b s -> ieee mb eb b = VNum s (sgnR s v) ->
  fmt = 103 \/ fmt = 71 -> 0 <= prec ->
  exists t fp, FtoaArr.FormatFloat w opt val fmt prec bitSize = Ret t /\ no_zero_end fp /\
    prints_g (fmt - 2) (Z.max prec 1) s fp (sig_round (Z.max prec 1) v) t.
Proof. exact c75g. Qed.
Print Assumptions C75_g.

Example C75_g_example : FtoaArr.FormatFloat 64 true 0x40FE240C9FBE76C9 71 4 64 = Ret (B "1.235E+05"%string).
Proof. vm_compute. reflexivity. Qed.

Theorem C75_shortest : forall w opt val fmt prec bitSize mb eb b s v, w = 32 \/ w = 64 ->
  as_float bitSize val mb eb b s -> ieee mb eb b = VNum s (sgnR s v) ->
  fmt = 101 \/ fmt = 69 \/ fmt = 102 \/ fmt = 103 \/ fmt = 71 -> prec < 0 ->
  exists t fp x, FtoaArr.FormatFloat w opt val fmt prec bitSize = Ret t /\ no_zero_end fp /\
    prints_short fmt s fp x t /\ (0 <= x)%R /\ ieee_round mb eb s (sgnR s x) = ieee mb eb b /\ fewest_digits mb eb v x.
Proof. exact c75r. Qed.
Print Assumptions C75_shortest.

Example C75_shortest_example : FtoaArr.FormatFloat 64 true 0x421bf08ea0000000 101 (-1) 32 = Ret (B "2.9999998e+10"%string) /\
  FtoaArr.FormatFloat 64 false 0x421bf08ea0000000 103 (-1) 32 = Ret (B "2.9999998e+10"%string).
Proof. split; vm_compute; reflexivity. Qed.

