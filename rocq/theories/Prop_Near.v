(** C05, C07, C15 and C21: for exactly which numbers the conversions give the nearest number of
    the format, ties to even, as they should for all.

    [rn] is the nearest number of the format were its exponents unbounded above, [ieee_round]
    also has the infinities (Spec.v).  The number [k] is the exponent of the number converted. *)
From Coq Require Import ZArith Reals Lia Lra.
From Flocq Require Import Core.
From Verif Require Import GoBase Spec.
From Verif Require BigFloat Binary16 Binary128 Float80x86.
From Verif Require Import ClaimsAcc ClaimsNear.
Open Scope Z_scope.

(** binary16.NewFromFloat64.  With [r] the number rounded to 11 bits: a huge number becomes an
    infinity only if [r] is 2^16, 2^48, 2^80 and so on; all numbers of the normal range are
    rounded right; one of the subnormal range is if the nearest number is not greater than [r];
    a tiny one is if [r] is the least number, or if it is at most half of it and [r] has at most
    9 bits. *)
Theorem C05_binary16_nearest_exactly : forall x s v k, 0 <= x < 2 ^ 64 -> ieee 52 11 x = VNum s v -> (p2 k <= Rabs v < p2 (k + 1))%R ->
  let r := rnd_prec BigFloat.ToNearestEven 11 v in
  exists b a, Binary16.NewFromFloat64 x = Ret (b, a) /\
  (ieee 10 5 b = ieee_round 10 5 s v <->
   (16 <= k /\ exists j, Rabs r = p2 j /\ j mod 32 = 16) \/
   -14 <= k < 16 \/
   (-24 <= k < -14 /\ (Rabs (rn 10 5 v) <= Rabs r)%R) \/
   (k < -24 /\ (Rabs r = p2 (-24) \/ (Rabs v <= p2 (-25))%R /\ exists n, Rabs r = (IZR n * p2 (k - 8))%R))).
Proof. exact c05_exactly. Qed.
Print Assumptions C05_binary16_nearest_exactly.

(** 2^48, 2^49, 3 * 2^-25, which is rounded to 2^-24, and 5 * 2^-30 and 513 * 2^-40, of which the
    second has 10 bits. *)
Example C05_exactly_example :
  Binary16.NewFromFloat64 0x42F0000000000000 = Ret (0x7C00, BigFloat.Above) /\
  Binary16.NewFromFloat64 0x4300000000000000 = Ret (0, BigFloat.Above) /\
  Binary16.NewFromFloat64 0x3E78000000000000 = Ret (1, BigFloat.Exact) /\
  Binary16.NewFromFloat64 0x3E34000000000000 = Ret (0, BigFloat.Below) /\
  Binary16.NewFromFloat64 0x3E00080000000000 = Ret (2 ^ 10, BigFloat.Below) /\
  ieee 52 11 0x42F0000000000000 = VNum false (IZR (2 ^ 52) * p2 (-4)) /\
  (p2 (52 + -4) <= Rabs (IZR (2 ^ 52) * p2 (-4)) < p2 (52 + -4 + 1))%R.
Proof. do 5 (split; [vm_compute; reflexivity|]). split; [reflexivity|]. apply (near_example false (2 ^ 52) (-4) 52); lia. Qed.

(** binary16.NewFromBig, which truncates instead of rounding to 11 bits first. *)
Theorem C07_binary16_NewFromBig_exactly : forall x s v k, wf x -> bval x = VNum s v -> (p2 k <= Rabs v < p2 (k + 1))%R ->
  ieee 10 5 (fst (Binary16.NewFromBig x)) = ieee_round 10 5 s v <->
  (16 <= k /\ k mod 32 = 16 /\ (Rabs v < p2 k * (1 + p2 (-10)))%R) \/
  (-24 <= k < 16 /\ (Rabs (rn 10 5 v) <= Rabs v)%R) \/
  (k < -24 /\ Zfloor (Rabs v * p2 (19 - k)) mod 2 ^ 11 = if Rle_bool (Rabs v) (p2 (-25)) then 0 else 1).
Proof. exact c07_exactly. Qed.
Print Assumptions C07_binary16_NewFromBig_exactly.

(** 2^16 + 1, 2^16 + 2^6, 2049 and 2051, which lie in the middle of two numbers, and 3 * 2^-26. *)
Example C07_exactly_example :
  (forall s m e n, 0 <= n < 120 -> 2 ^ n <= m < 2 ^ (n + 1) -> -1000000 < e < 1000000 ->
   wf (number s m e) /\ bval (number s m e) = VNum s (sgnR s (IZR m * p2 e)) /\ (p2 (n + e) <= Rabs (sgnR s (IZR m * p2 e)) < p2 (n + e + 1))%R) /\
  Binary16.NewFromBig (number false 65537 0) = (0x7C00, BigFloat.Below) /\
  Binary16.NewFromBig (number false 65600 0) = (0x7C01, BigFloat.Exact) /\
  Binary16.NewFromBig (number false 2049 0) = (0x6800, BigFloat.Below) /\
  Binary16.NewFromBig (number false 2051 0) = (0x6801, BigFloat.Below) /\
  Binary16.NewFromBig (number false 3 (-26)) = (0, BigFloat.Below).
Proof. split; [exact near_example|]. repeat split; vm_compute; reflexivity. Qed.

(** binary128.NewFromBig *)
Theorem C15_binary128_NewFromBig_exactly : forall x s v k, wf x -> bval x = VNum s v -> (p2 k <= Rabs v < p2 (k + 1))%R ->
  exists f a, Binary128.NewFromBig x = Ret (f, a) /\
  (quad (Binary128.fa f) (Binary128.fb f) = ieee_round 112 15 s v <->
  (16384 <= k /\ k mod 2 ^ 15 = 2 ^ 14 /\ (Rabs v < p2 k * (1 + p2 (-112)))%R) \/
  (-16494 <= k < 16384 /\ (Rabs (rn 112 15 v) <= Rabs v)%R) \/
  (k < -16494 /\ Zfloor (Rabs v * p2 (223 - k)) mod 2 ^ 112 = if Rle_bool (Rabs v) (p2 (-16495)) then 0 else 1)).
Proof. exact c15_exactly. Qed.
Print Assumptions C15_binary128_NewFromBig_exactly.

(** 2^16384, 2^114 + 1 and 2^114 + 3, 2^-16496 *)
Example C15_exactly_example :
  Binary128.NewFromBig (number false 1 16384) = Ret (Binary128.mkFloat 0x7FFF000000000000 0, BigFloat.Exact) /\
  Binary128.NewFromBig (number false (2 ^ 114 + 1) 0) = Ret (Binary128.mkFloat 0x4071000000000000 0, BigFloat.Below) /\
  Binary128.NewFromBig (number false (2 ^ 114 + 3) 0) = Ret (Binary128.mkFloat 0x4071000000000000 0, BigFloat.Below) /\
  Binary128.NewFromBig (number false 1 (-16496)) = Ret (Binary128.mkFloat 0 0, BigFloat.Below).
Proof. repeat split; vm_compute; reflexivity. Qed.

(** float80x86.NewFromBig: no tiny number is rounded right. *)
Theorem C21_float80x86_NewFromBig_exactly : forall x s v k, wf x -> bval x = VNum s v -> (p2 k <= Rabs v < p2 (k + 1))%R ->
  let f := fst (Float80x86.NewFromBig x) in
  x87 (Float80x86.se f) (Float80x86.m f) = ieee_round 63 15 s v <->
  (16384 <= k /\ k mod 2 ^ 15 = 2 ^ 14 /\ (Rabs v < p2 k * (1 + p2 (-63)))%R) \/
  (-16445 <= k < 16384 /\ (Rabs (rn 63 15 v) <= Rabs v)%R).
Proof. exact c21_exactly. Qed.
Print Assumptions C21_float80x86_NewFromBig_exactly.

(** 2^16384, 2^65 + 1 and 2^65 + 3, 2^-16446 *)
Example C21_exactly_example :
  Float80x86.NewFromBig (number false 1 16384) = (Float80x86.mkFloat 0x7FFF (2 ^ 63), BigFloat.Exact) /\
  Float80x86.NewFromBig (number false (2 ^ 65 + 1) 0) = (Float80x86.mkFloat 0x4040 (2 ^ 63), BigFloat.Below) /\
  Float80x86.NewFromBig (number false (2 ^ 65 + 3) 0) = (Float80x86.mkFloat 0x4040 (2 ^ 63), BigFloat.Below) /\
  Float80x86.NewFromBig (number false 1 (-16446)) = (Float80x86.mkFloat 0 (2 ^ 63 - 1), BigFloat.Below).
Proof. repeat split; vm_compute; reflexivity. Qed.
