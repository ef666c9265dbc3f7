(** Properties of package binary128 (C10 to C15, and its share of C08 and C09).
    Every theorem is closed by a lemma of Claims128.v. *)
From Coq Require Import ZArith Reals Lia.
From Flocq Require Import Core.
From Verif Require Import GoBase.
From Verif Require BigFloat Binary128.
From Verif Require Import Spec Claims128.
Import BigFloat (prec, rmode, acc, neg, frm, Finite).
Open Scope Z_scope.

(** C10 on hosts with a 64-bit int ([Exp_host 64]); see the refutation below for 32 bits. *)
Theorem C10_binary128_fields_partial : forall a b, 0 <= a < 2 ^ 64 -> 0 <= b < 2 ^ 64 ->
  let f := Binary128.NewFromBits a b in
  let (frac1, frac2) := Binary128.Frac f in
  Binary128.Bits f = (a, b) /\
  0 <= Binary128.Exp_host 64 f < 2 ^ 15 /\ 0 <= frac1 < 2 ^ 48 /\ 0 <= frac2 < 2 ^ 64 /\
  Z.b2z (Binary128.Signbit f) * 2 ^ 63 + Binary128.Exp_host 64 f * 2 ^ 48 + frac1 = a /\ frac2 = b.
Proof. exact c10_partial. Qed.
Print Assumptions C10_binary128_fields_partial.

Example C10_example :
  Binary128.Signbit (Binary128.NewFromBits 0xC000800000000000 7) = true /\
  Binary128.Exp_host 64 (Binary128.NewFromBits 0xC000800000000000 7) = 16384 /\
  Binary128.Frac (Binary128.NewFromBits 0xC000800000000000 7) = (2 ^ 47, 7).
Proof. vm_compute. auto. Qed.

(** On a 32-bit host Exp returns 0 for the number 1: the conversion to int comes before the
    shift.  So the full claim, for every host, is false. *)
Theorem C10_binary128_fields_refuted : exists a b, 0 <= a < 2 ^ 64 /\ 0 <= b < 2 ^ 64 /\
  let f := Binary128.NewFromBits a b in
  Z.b2z (Binary128.Signbit f) * 2 ^ 63 + Binary128.Exp_host 32 f * 2 ^ 48 + fst (Binary128.Frac f) <> a.
Proof. exact c10_refuted. Qed.
Print Assumptions C10_binary128_fields_refuted.

(** Not only for 1: on a 32-bit host Exp is always 0. *)
Theorem C10_binary128_Exp_32bit : forall f, 0 <= Binary128.fa f < 2 ^ 64 -> Binary128.Exp_host 32 f = 0.
Proof. exact c10_32. Qed.
Print Assumptions C10_binary128_Exp_32bit.

Theorem C11_binary128_Big : forall a b, 0 <= a < 2 ^ 64 -> 0 <= b < 2 ^ 64 ->
  exists x nan, Binary128.Big (Binary128.NewFromBits a b) = Ret (x, nan) /\
    wf x /\ prec x = 113 /\ rmode x = BigFloat.ToNearestEven /\ acc x = BigFloat.Exact /\
    match quad a b with
    | VNaN s => nan = true /\ bval x = VNum s 0
    | v => nan = false /\ bval x = v
    end.
Proof. exact c11. Qed.
Print Assumptions C11_binary128_Big.

(** the smallest subnormal number *)
Example C11_example : quad 0 1 = VNum false (IZR 1 * p2 (-16494)).
Proof. reflexivity. Qed.

Theorem C12_binary128_roundtrip : forall a b, 0 <= a < 2 ^ 64 -> 0 <= b < 2 ^ 64 -> (forall s, quad a b <> VNaN s) ->
  exists x, Binary128.Big (Binary128.NewFromBits a b) = Ret (x, false) /\
    Binary128.NewFromBig x = Ret (Binary128.NewFromBits a b, BigFloat.Exact).
Proof. exact c12. Qed.
Print Assumptions C12_binary128_roundtrip.

Example C12_example : forall s, quad 0xC000921FB54442D1 0x8469898CC51701B8 <> VNaN s.
Proof. intros s. discriminate. Qed.

(** Infinities are included; NaNs are in C08. *)
Theorem C13_binary128_floats : 
  (forall x, 0 <= x < 2 ^ 64 -> (forall s, ieee 52 11 x <> VNaN s) ->
     exists f, Binary128.NewFromFloat64 x = Ret (f, BigFloat.Exact) /\
       quad (Binary128.fa f) (Binary128.fb f) = ieee 52 11 x /\
       Binary128.Float64 f = Ret (x, BigFloat.Exact)) /\
  (forall x, 0 <= x < 2 ^ 32 -> (forall s, ieee 23 8 x <> VNaN s) ->
     exists f, Binary128.NewFromFloat32 x = Ret (f, BigFloat.Exact) /\
       quad (Binary128.fa f) (Binary128.fb f) = ieee 23 8 x /\
       Binary128.Float32 f = Ret (x, BigFloat.Exact)).
Proof. exact c13. Qed.
Print Assumptions C13_binary128_floats.

(** the smallest subnormal float64 *)
Example C13_example : (forall s, ieee 52 11 1 <> VNaN s) /\
  Binary128.NewFromFloat64 1 = Ret (Binary128.NewFromBits 0x3BCD000000000000 0, BigFloat.Exact).
Proof. split; [intros s; discriminate|vm_compute; reflexivity]. Qed.

(** NaNs included: they give a NaN of the same sign. *)
Theorem C14_binary128_to_floats : forall f, 0 <= Binary128.fa f < 2 ^ 64 -> 0 <= Binary128.fb f < 2 ^ 64 ->
  exists d a g a', Binary128.Float64 f = Ret (d, a) /\ 0 <= d < 2 ^ 64 /\
    Binary128.Float32 f = Ret (g, a') /\ 0 <= g < 2 ^ 32 /\
    match quad (Binary128.fa f) (Binary128.fb f) with
    | VNum s v => ieee 52 11 d = ieee_round 52 11 s v /\ acc_ok a (ieee 52 11 d) v /\
                  ieee 23 8 g = ieee_round 23 8 s v /\ acc_ok a' (ieee 23 8 g) v
    | v => ieee 52 11 d = v /\ a = BigFloat.Exact /\ ieee 23 8 g = v /\ a' = BigFloat.Exact
    end.
Proof. exact c14. Qed.
Print Assumptions C14_binary128_to_floats.

(** 1 + 2^-53, a tie; and a number that underflows to 0 *)
Example C14_example :
  Binary128.Float64 (Binary128.NewFromBits 0x3FFF000000000000 0x0800000000000000) = Ret (0x3FF0000000000000, BigFloat.Below) /\
  Binary128.Float32 (Binary128.NewFromBits 0xBF00000000000000 0) = Ret (0x80000000, BigFloat.Above).
Proof. vm_compute. auto. Qed.

(** The full claim C15: for every well-formed finite [x] of value [v] the result is
    [ieee_round 112 15 (neg x) v] with a truthful accuracy.  It is false: 2^114 - 1 is
    truncated. *)
Theorem C15_binary128_NewFromBig_refuted : exists x m e f a, wf x /\ frm x = Finite m e /\
    Binary128.NewFromBig x = Ret (f, a) /\
    quad (Binary128.fa f) (Binary128.fb f) <> ieee_round 112 15 (neg x) (sgnR (neg x) (IZR m * p2 e)).
Proof. exact c15_refuted. Qed.
Print Assumptions C15_binary128_NewFromBig_refuted.

(** The accuracy is wrong for negative numbers that are not representable. *)
Theorem C15_binary128_accuracy_refuted : exists x m e f a, wf x /\ frm x = Finite m e /\
    Binary128.NewFromBig x = Ret (f, a) /\
    ~ acc_ok a (quad (Binary128.fa f) (Binary128.fb f)) (sgnR (neg x) (IZR m * p2 e)).
Proof. exact c15_acc_refuted. Qed.
Print Assumptions C15_binary128_accuracy_refuted.

(** What holds of C15, for 2^-16494 <= |x| < 2^16384: the result is x truncated; it is x
    itself, and Exact, for binary128 numbers; the accuracy is truthful for x >= 2^-16382.
    Missing: nearest rounding, other magnitudes, and the accuracy of negative and of
    subnormal results. *)
Theorem C15_binary128_NewFromBig_partial : forall x m e, wf x -> frm x = Finite m e ->
  let v := sgnR (neg x) (IZR m * p2 e) in
  (p2 (-16494) <= Rabs v < p2 16384)%R ->
  exists f a, Binary128.NewFromBig x = Ret (f, a) /\
    quad (Binary128.fa f) (Binary128.fb f) = VNum (neg x) (rz 112 15 v) /\
    (fits 112 15 v -> a = BigFloat.Exact /\
       quad (Binary128.fa f) (Binary128.fb f) = ieee_round 112 15 (neg x) v) /\
    ((p2 (-16382) <= v)%R -> acc_ok a (quad (Binary128.fa f) (Binary128.fb f)) v).
Proof. exact c15_partial. Qed.
Print Assumptions C15_binary128_NewFromBig_partial.

Example C15_example :
  let x := BigFloat.mkBF 200 BigFloat.ToNearestEven BigFloat.Exact false (Finite (2 ^ 114 - 1) 0) in
  wf x /\ (p2 (-16494) <= Rabs (sgnR (neg x) (IZR (2 ^ 114 - 1) * p2 0)) < p2 16384)%R.
Proof. exact c15_example. Qed.

Theorem C08_binary128_special : forall s,
  (forall x, 0 <= x < 2 ^ 64 -> ieee 52 11 x = VNaN s ->
     Binary128.NewFromFloat64 x = Ret ((if s then Binary128.NegNaN else Binary128.NaN), BigFloat.Exact)) /\
  (forall x, 0 <= x < 2 ^ 64 -> ieee 52 11 x = VInf s ->
     Binary128.NewFromFloat64 x = Ret ((if s then Binary128.NegInf else Binary128.Inf), BigFloat.Exact)) /\
  (forall x, 0 <= x < 2 ^ 64 -> ieee 52 11 x = VNum s 0 ->
     Binary128.NewFromFloat64 x = Ret ((if s then Binary128.NegZero else Binary128.Zero), BigFloat.Exact)) /\
  (forall x, 0 <= x < 2 ^ 32 -> ieee 23 8 x = VNaN s ->
     Binary128.NewFromFloat32 x = Ret ((if s then Binary128.NegNaN else Binary128.NaN), BigFloat.Exact)) /\
  (forall x, 0 <= x < 2 ^ 32 -> ieee 23 8 x = VInf s ->
     Binary128.NewFromFloat32 x = Ret ((if s then Binary128.NegInf else Binary128.Inf), BigFloat.Exact)) /\
  (forall x, 0 <= x < 2 ^ 32 -> ieee 23 8 x = VNum s 0 ->
     Binary128.NewFromFloat32 x = Ret ((if s then Binary128.NegZero else Binary128.Zero), BigFloat.Exact)) /\
  (forall x, wf x -> bval x = VInf s ->
     Binary128.NewFromBig x = Ret ((if s then Binary128.NegInf else Binary128.Inf), BigFloat.Exact)) /\
  (forall x, wf x -> bval x = VNum s 0 ->
     Binary128.NewFromBig x = Ret ((if s then Binary128.NegZero else Binary128.Zero), BigFloat.Exact)) /\
  (let c := (if s then Binary128.NegNaN else Binary128.NaN) in quad (Binary128.fa c) (Binary128.fb c) = VNaN s) /\
  (let c := (if s then Binary128.NegInf else Binary128.Inf) in quad (Binary128.fa c) (Binary128.fb c) = VInf s) /\
  (let c := (if s then Binary128.NegZero else Binary128.Zero) in quad (Binary128.fa c) (Binary128.fb c) = VNum s 0).
Proof. exact c08_128. Qed.
Print Assumptions C08_binary128_special.

Example C08_binary128_example : ieee 52 11 0xFFF0000000000001 = VNaN true /\ ieee 23 8 0xFF800000 = VInf true /\
  bval (BigFloat.mkBF 7 BigFloat.ToZero BigFloat.Above true BigFloat.Zero) = VNum true 0.
Proof. repeat split. Qed.

Theorem C09_binary128_sign : forall x, wf x -> exists f a,
  Binary128.NewFromBig x = Ret (f, a) /\
  Binary128.NewFromBig (BigFloat.NegSelf x) =
    Ret (Binary128.NewFromBits (Z.lxor (Binary128.fa f) (2 ^ 63)) (Binary128.fb f), a).
Proof. exact c09_128. Qed.
Print Assumptions C09_binary128_sign.

Example C09_binary128_example :
  Binary128.NewFromBig (BigFloat.mkBF 200 BigFloat.ToNearestEven BigFloat.Exact true (Finite 3 (-1))) =
    Ret (Binary128.NewFromBits 0xBFFF800000000000 0, BigFloat.Exact).
Proof. vm_compute. reflexivity. Qed.
