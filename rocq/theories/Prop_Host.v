(** Property C61: hosts with a 32-bit int.  [_host 32] and [_host 64] are the functions of
    /repo on such hosts; the functions of binary16, float80x86, bfloat and float128ppc that are
    not listed here use no value of type int that could leave 32 bits. *)
From Coq Require Import ZArith Reals Bool.
From Flocq Require Import Core.
From Verif Require Import GoBase Spec.
From Verif Require BigFloat Binary16 Binary128 Float80x86.
From Verif Require Import Host.
Import BigFloat (prec, rmode, acc, neg, frm, Finite).
Open Scope Z_scope.

(** NewFromBig is not the same function on all hosts: 2^(2^31-2) tells them apart. *)
Theorem C61_NewFromBig_refuted : exists x, wf x /\
  Binary16.NewFromBig_host 32 x <> Binary16.NewFromBig_host 64 x /\
  Float80x86.NewFromBig_host 32 x <> Float80x86.NewFromBig_host 64 x /\
  Binary128.NewFromBig_host 32 x <> Binary128.NewFromBig_host 64 x.
Proof. exact host32_refuted. Qed.
Print Assumptions C61_NewFromBig_refuted.

(** The 64-bit NewFromBig is the function of the other theorems. *)
Theorem C61_NewFromBig_64bit : forall x, wf x ->
  Binary16.NewFromBig_host 64 x = Binary16.NewFromBig x /\
  Float80x86.NewFromBig_host 64 x = Float80x86.NewFromBig x /\
  Binary128.NewFromBig_host 64 x = Binary128.NewFromBig x.
Proof. exact host64. Qed.
Print Assumptions C61_NewFromBig_64bit.

Example C61_64bit_example : Binary16.NewFromBig_host 64 (BigFloat.mkBF 2 BigFloat.ToZero BigFloat.Exact true (Finite 3 0)) = (0xC200, BigFloat.Exact).
Proof. vm_compute. reflexivity. Qed.

(** On a 32-bit host it is the same function below 2^(2^31-15) (binary16) and 2^(2^31-16383). *)
Theorem C61_NewFromBig_32bit_partial : forall x, wf x ->
  ((forall s v, bval x = VNum s v -> (Rabs v < p2 (2 ^ 31 - 15))%R) ->
     Binary16.NewFromBig_host 32 x = Binary16.NewFromBig x) /\
  ((forall s v, bval x = VNum s v -> (Rabs v < p2 (2 ^ 31 - 16383))%R) ->
     Float80x86.NewFromBig_host 32 x = Float80x86.NewFromBig x /\
     Binary128.NewFromBig_host 32 x = Binary128.NewFromBig x).
Proof. exact host32_low. Qed.
Print Assumptions C61_NewFromBig_32bit_partial.

Example C61_32bit_example : Binary128.NewFromBig_host 32 (BigFloat.mkBF 2 BigFloat.ToZero BigFloat.Exact true (Finite 3 0)) =
  Ret (Binary128.mkFloat 0xC000800000000000 0, BigFloat.Exact).
Proof. vm_compute. reflexivity. Qed.

(** Beyond, the exponent wraps around and the number is treated as a tiny one. *)
Theorem C61_NewFromBig_32bit_huge : forall x s v k, wf x -> bval x = VNum s v -> (p2 k <= Rabs v < p2 (k + 1))%R ->
  let F n := Zfloor (Rabs v * p2 n) in
  (2 ^ 31 - 15 <= k ->
     Binary16.NewFromBig_host 32 x = ((if s then 2 ^ 15 else 0) + F (19 - k) mod 2 ^ 11, BigFloat.Below)) /\
  (2 ^ 31 - 16383 <= k ->
     Float80x86.NewFromBig_host 32 x = (Float80x86.mkFloat (if s then 2 ^ 15 else 0) (2 ^ 63 - 1), BigFloat.Below) /\
     let n := (if s then 2 ^ 127 else 0) + F (223 - k) mod 2 ^ 112 in
     Binary128.NewFromBig_host 32 x = Ret (Binary128.mkFloat (n / 2 ^ 64) (n mod 2 ^ 64), BigFloat.Below)).
Proof. exact host32_high. Qed.
Print Assumptions C61_NewFromBig_32bit_huge.

(** -1.5 * 2^(2^31-2) *)
Example C61_huge_example : Binary16.NewFromBig_host 32 (BigFloat.mkBF 2 BigFloat.ToZero BigFloat.Exact true (Finite 3 (2 ^ 31 - 3))) = (2 ^ 15, BigFloat.Below) /\
  Float80x86.NewFromBig_host 32 (BigFloat.mkBF 2 BigFloat.ToZero BigFloat.Exact true (Finite 3 (2 ^ 31 - 3))) = (Float80x86.mkFloat (2 ^ 15) (2 ^ 63 - 1), BigFloat.Below).
Proof. split; vm_compute; reflexivity. Qed.

(** On a 32-bit host the Big of the binary128 number 1 is 0. *)
Theorem C61_binary128_Big_refuted : exists a b x nan, 0 <= a < 2 ^ 64 /\ 0 <= b < 2 ^ 64 /\ quad a b = VNum false 1 /\
  Binary128.Big_host 32 (Binary128.NewFromBits a b) = Ret (x, nan) /\ bval x = VNum false 0.
Proof. exact h11_refuted. Qed.
Print Assumptions C61_binary128_Big_refuted.

(** On a 32-bit host Big returns the number whose exponent bits are cleared, never an infinity
    or NaN. *)
Theorem C61_binary128_Big_32bit : forall a b, 0 <= a < 2 ^ 64 -> 0 <= b < 2 ^ 64 ->
  let s := 2 ^ 63 <=? a in
  exists x, Binary128.Big_host 32 (Binary128.NewFromBits a b) = Ret (x, false) /\
    wf x /\ prec x = 113 /\ rmode x = BigFloat.ToNearestEven /\ acc x = BigFloat.Exact /\
    bval x = VNum s (sgnR s (IZR (a mod 2 ^ 48 * 2 ^ 64 + b) * p2 (-16494))).
Proof. exact h11. Qed.
Print Assumptions C61_binary128_Big_32bit.

Example C61_Big_example :
  Binary128.Big_host 32 (Binary128.NewFromBits 0xC000800000000000 7) =
    Ret (BigFloat.mkBF 113 BigFloat.ToNearestEven BigFloat.Exact true (Finite (2 ^ 111 + 7) (-16494)), false).
Proof. vm_compute. reflexivity. Qed.

(** The round trip through Big fails on a 32-bit host. *)
Theorem C61_binary128_roundtrip_refuted : exists a b x f acc, 0 <= a < 2 ^ 64 /\ 0 <= b < 2 ^ 64 /\
  Binary128.Big_host 32 (Binary128.NewFromBits a b) = Ret (x, false) /\
  Binary128.NewFromBig_host 32 x = Ret (f, acc) /\ f <> Binary128.NewFromBits a b.
Proof. exact h12_refuted. Qed.
Print Assumptions C61_binary128_roundtrip_refuted.

(** What comes back: the exponent bits are cleared. *)
Theorem C61_binary128_roundtrip_32bit : forall a b, 0 <= a < 2 ^ 64 -> 0 <= b < 2 ^ 64 ->
  exists x, Binary128.Big_host 32 (Binary128.NewFromBits a b) = Ret (x, false) /\
    Binary128.NewFromBig_host 32 x =
      Ret (Binary128.NewFromBits ((if 2 ^ 63 <=? a then 2 ^ 63 else 0) + a mod 2 ^ 48) b, BigFloat.Exact).
Proof. exact h12. Qed.
Print Assumptions C61_binary128_roundtrip_32bit.

Example C61_roundtrip_example :
  let x := BigFloat.mkBF 113 BigFloat.ToNearestEven BigFloat.Exact false (Finite (2 ^ 111 + 7) (-16494)) in
  Binary128.Big_host 32 (Binary128.NewFromBits 0x0000800000000000 7) = Ret (x, false) /\
  Binary128.NewFromBig_host 32 x = Ret (Binary128.NewFromBits 0x0000800000000000 7, BigFloat.Exact).
Proof. split; vm_compute; reflexivity. Qed.

(** On a 32-bit host NewFromFloat32(1.5) does not report Exact and its Float32 is 0. *)
Theorem C61_binary128_floats_refuted : exists x f A, 0 <= x < 2 ^ 32 /\ ieee 23 8 x = VNum false (IZR (3 * 2 ^ 22) * p2 (-23)) /\
  Binary128.NewFromFloat32_host 32 x = Ret (f, A) /\ A <> BigFloat.Exact /\
  Binary128.Float32_host 32 f = Ret (0, A).
Proof. exact h13_refuted. Qed.
Print Assumptions C61_binary128_floats_refuted.

(** On a 32-bit host the Float64 (Float32) of every number that came from a float64 (float32)
    is a zero. *)
Theorem C61_binary128_floats_32bit : 
  (forall x, 0 <= x < 2 ^ 64 -> (forall s, ieee 52 11 x <> VNaN s) ->
     exists f A, Binary128.NewFromFloat64 x = Ret (f, BigFloat.Exact) /\
       quad (Binary128.fa f) (Binary128.fb f) = ieee 52 11 x /\
       Binary128.Float64_host 32 f = Ret (if 2 ^ 63 <=? x then 2 ^ 63 else 0, A)) /\
  (forall x, 0 <= x < 2 ^ 32 -> (forall s, ieee 23 8 x <> VNaN s) ->
     exists f A, Binary128.NewFromFloat32_host 32 x = Ret (f, A) /\
       quad (Binary128.fa f) (Binary128.fb f) = ieee 23 8 x /\
       Binary128.Float32_host 32 f = Ret (if 2 ^ 31 <=? x then 2 ^ 31 else 0, A)).
Proof. exact h13. Qed.
Print Assumptions C61_binary128_floats_32bit.

Example C61_floats_example : (forall s, ieee 23 8 0xBFC00000 <> VNaN s) /\
  Binary128.NewFromFloat32_host 32 0xBFC00000 = Ret (Binary128.mkFloat 0xBFFF800000000000 0, BigFloat.Above).
Proof. split; [intros s; discriminate|vm_compute; reflexivity]. Qed.

(** On a 32-bit host Float64 and Float32 return zeros only. *)
Theorem C61_binary128_to_floats_32bit : forall a b, 0 <= a < 2 ^ 64 -> 0 <= b < 2 ^ 64 ->
  let f := Binary128.NewFromBits a b in
  let A := if (a mod 2 ^ 48 =? 0) && (b =? 0) then BigFloat.Exact
           else if 2 ^ 63 <=? a then BigFloat.Above else BigFloat.Below in
  Binary128.Float64_host 32 f = Ret (if 2 ^ 63 <=? a then 2 ^ 63 else 0, A) /\
  Binary128.Float32_host 32 f = Ret (if 2 ^ 63 <=? a then 2 ^ 31 else 0, A).
Proof. exact h14. Qed.
Print Assumptions C61_binary128_to_floats_32bit.

Example C61_to_floats_example : Binary128.Float64_host 32 (Binary128.NewFromBits 0xFFFF000000000000 0) = Ret (2 ^ 63, BigFloat.Exact).
Proof. vm_compute. reflexivity. Qed.
