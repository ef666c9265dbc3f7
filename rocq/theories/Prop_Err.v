(** How large the errors of the conversions are (C95), conversions through a wider format (C96),
    and rounding twice (C97).

    [midpoint mb eb d] says that d is half way between two neighbouring numbers of the format
    (SpecTwice.v); the other words are those of Spec.v. *)
From Coq Require Import ZArith Reals Bool Lia Lra.
From Verif Require Import GoBase Spec SpecTwice.
From Verif Require BigFloat Binary16 Binary128 Float80x86 Float128ppc.
From Verif Require Import ClaimsErr ClaimsTwice.
Import BigFloat (mkBF, rmode, Finite).
Import Float128ppc (mkFloat).
Open Scope Z_scope.

(** NewFromBig: never away from zero; less than one unit of the last of 11, 113 and 64 bits. *)
Theorem C95_binary16 : forall x s v, wf x -> bval x = VNum s v -> (p2 (-24) <= Rabs v < p2 16)%R ->
  exists r, ieee 10 5 (fst (Binary16.NewFromBig x)) = VNum s r /\ (Rabs r <= Rabs v)%R /\
    ((p2 (-14) <= Rabs v)%R -> (Rabs (r - v) < p2 (-10) * Rabs v)%R) /\ (Rabs v < p2 (-14) -> Rabs (r - v) < p2 (-24))%R.
Proof. exact c95_16. Qed.
Print Assumptions C95_binary16.

Theorem C95_binary128 : forall x s v, wf x -> bval x = VNum s v -> (p2 (-16494) <= Rabs v < p2 16384)%R ->
  exists f a r, Binary128.NewFromBig x = Ret (f, a) /\ quad (Binary128.fa f) (Binary128.fb f) = VNum s r /\ (Rabs r <= Rabs v)%R /\
    ((p2 (-16382) <= Rabs v)%R -> (Rabs (r - v) < p2 (-112) * Rabs v)%R) /\ (Rabs v < p2 (-16382) -> Rabs (r - v) < p2 (-16494))%R.
Proof. exact c95_128. Qed.
Print Assumptions C95_binary128.

Theorem C95_float80x86 : forall x s v, wf x -> bval x = VNum s v -> (p2 (-16445) <= Rabs v < p2 16384)%R ->
  exists f a r, Float80x86.NewFromBig x = (f, a) /\ x87 (Float80x86.se f) (Float80x86.m f) = VNum s r /\ (Rabs r <= Rabs v)%R /\
    ((p2 (-16382) <= Rabs v)%R -> (Rabs (r - v) < p2 (-63) * Rabs v)%R) /\ (Rabs v < p2 (-16382) -> Rabs (r - v) < p2 (-16445))%R.
Proof. exact c95_80. Qed.
Print Assumptions C95_float80x86.

(** The sum of the halves of a double-double. *)
Theorem C95_float128ppc : forall x s v, wf x -> bval x = VNum s v -> (p2 (-969) <= Rabs v <= p2 1023)%R ->
  exists h l x' s1 v1 s2 v2, Float128ppc.NewFromBig x = Ret (mkFloat h l, BigFloat.Exact, x') /\
    ieee 52 11 h = VNum s1 v1 /\ ieee 52 11 l = VNum s2 v2 /\
    (Rabs (v1 + v2 - v) < p2 (-105) * Rabs v)%R /\
    (rmode x = BigFloat.ToNearestEven \/ rmode x = BigFloat.ToNearestAway -> Rabs (v1 + v2 - v) <= p2 (-106) * Rabs v)%R.
Proof. exact c95_ppc. Qed.
Print Assumptions C95_float128ppc.

(** 1 + 2^-11 + 2^-12 loses 3/4 of the last bit; 1 + 2^-150 lies in all the ranges. *)
Example C95_example :
  let x := mkBF 53 BigFloat.ToNearestEven BigFloat.Exact false (Finite (2 ^ 12 + 3) (-12)) in
  Binary16.NewFromBig x = (0x3C00, BigFloat.Below) /\
  (p2 (-24) <= Rabs (1 + p2 (-150)) < p2 16)%R /\ (p2 (-969) <= Rabs (1 + p2 (-150)) <= p2 1023)%R.
Proof. exact c95_example. Qed.

(** Down to the least normal number NewFromFloat64 is within half a unit of the last bit. *)
Theorem C95_binary16_NewFromFloat64 : forall x s v, 0 <= x < 2 ^ 64 -> ieee 52 11 x = VNum s v -> (p2 (-14) <= Rabs v < 65520)%R ->
  exists b a r, Binary16.NewFromFloat64 x = Ret (b, a) /\ ieee 10 5 b = VNum s r /\ (Rabs (r - v) <= p2 (-11) * Rabs v)%R.
Proof. exact c95_16_float. Qed.
Print Assumptions C95_binary16_NewFromFloat64.

(** 1 + 2^-11, a tie *)
Example C95_NewFromFloat64_example : ieee 52 11 0x3FF0020000000000 = VNum false (IZR (2 ^ 52 + 2 ^ 41) * p2 (-52)) /\
  Binary16.NewFromFloat64 0x3FF0020000000000 = Ret (0x3C00, BigFloat.Exact).
Proof. split; vm_compute; reflexivity. Qed.

(** Float64 and Float32; the bounds on |v| are those beyond which the result is infinite. *)
Theorem C95_binary128_to_floats : forall f s v, 0 <= Binary128.fa f < 2 ^ 64 -> 0 <= Binary128.fb f < 2 ^ 64 ->
  quad (Binary128.fa f) (Binary128.fb f) = VNum s v ->
  exists d a g a', Binary128.Float64 f = Ret (d, a) /\ Binary128.Float32 f = Ret (g, a') /\
    ((Rabs v < p2 1024 - p2 970)%R -> exists r, ieee 52 11 d = VNum s r /\
       ((p2 (-1022) <= Rabs v)%R -> (Rabs (r - v) <= p2 (-53) * Rabs v)%R) /\ ((Rabs v < p2 (-1022))%R -> (Rabs (r - v) <= p2 (-1075))%R)) /\
    ((Rabs v < p2 128 - p2 103)%R -> exists r, ieee 23 8 g = VNum s r /\
       ((p2 (-126) <= Rabs v)%R -> (Rabs (r - v) <= p2 (-24) * Rabs v)%R) /\ ((Rabs v < p2 (-126))%R -> (Rabs (r - v) <= p2 (-150))%R)).
Proof. exact c95_128_to. Qed.
Print Assumptions C95_binary128_to_floats.

Theorem C95_float80x86_to_floats : forall f s v, 0 <= Float80x86.se f < 2 ^ 16 -> 0 <= Float80x86.m f < 2 ^ 64 ->
  x87 (Float80x86.se f) (Float80x86.m f) = VNum s v ->
  exists d a g a', Float80x86.Float64 f = Ret (d, a) /\ Float80x86.Float32 f = Ret (g, a') /\
    ((Rabs v < p2 1024 - p2 970)%R -> exists r, ieee 52 11 d = VNum s r /\
       ((p2 (-1022) <= Rabs v)%R -> (Rabs (r - v) <= p2 (-53) * Rabs v)%R) /\ ((Rabs v < p2 (-1022))%R -> (Rabs (r - v) <= p2 (-1075))%R)) /\
    ((Rabs v < p2 128 - p2 103)%R -> exists r, ieee 23 8 g = VNum s r /\
       ((p2 (-126) <= Rabs v)%R -> (Rabs (r - v) <= p2 (-24) * Rabs v)%R) /\ ((Rabs v < p2 (-126))%R -> (Rabs (r - v) <= p2 (-150))%R)).
Proof. exact c95_80_to. Qed.
Print Assumptions C95_float80x86_to_floats.

(** 2^1024 - 2^970, the first number that overflows, and 3 * 2^-1076, which is rounded to 2^-1074. *)
Example C95_to_floats_example :
  Float80x86.Float64 (Float80x86.NewFromBits 0x43FE 0xFFFFFFFFFFFFFC00) = Ret (0x7FF0000000000000, BigFloat.Above) /\
  Float80x86.Float64 (Float80x86.NewFromBits 0x43FE 0xFFFFFFFFFFFFFBFF) = Ret (0x7FEFFFFFFFFFFFFF, BigFloat.Below) /\
  Float80x86.Float64 (Float80x86.NewFromBits 0x3BCC 0xC000000000000000) = Ret (1, BigFloat.Above).
Proof. split; [vm_compute; reflexivity|]. split; vm_compute; reflexivity. Qed.

(** Truncating to a wider format first makes no difference.  The lower bounds are those from which
    the wider format keeps all bits NewFromBig looks at. *)
Theorem C96_binary16_through_binary128 : forall x s v, wf x -> bval x = VNum s v -> (p2 (-16475) <= Rabs v < p2 16384)%R ->
  exists f a y, Binary128.NewFromBig x = Ret (f, a) /\ Binary128.Big f = Ret (y, false) /\
    fst (Binary16.NewFromBig y) = fst (Binary16.NewFromBig x).
Proof. exact c96_16_128. Qed.
Print Assumptions C96_binary16_through_binary128.

Theorem C96_binary16_through_float80x86 : forall x s v, wf x -> bval x = VNum s v -> (p2 (-16426) <= Rabs v < p2 16384)%R ->
  exists f a y, Float80x86.NewFromBig x = (f, a) /\ Float80x86.Big f = Ret (y, false) /\
    fst (Binary16.NewFromBig y) = fst (Binary16.NewFromBig x).
Proof. exact c96_16_80. Qed.
Print Assumptions C96_binary16_through_float80x86.

Theorem C96_float80x86_through_binary128 : forall x s v, wf x -> bval x = VNum s v -> (p2 (-16494) <= Rabs v < p2 16384)%R ->
  exists f a y, Binary128.NewFromBig x = Ret (f, a) /\ Binary128.Big f = Ret (y, false) /\
    fst (Float80x86.NewFromBig y) = fst (Float80x86.NewFromBig x).
Proof. exact c96_80_128. Qed.
Print Assumptions C96_float80x86_through_binary128.

(** Only the accuracy of the second conversion does not tell of the first: 1 + 2^-100. *)
Example C96_example : exists x f a y b, wf x /\ Float80x86.NewFromBig x = (f, BigFloat.Below) /\ Float80x86.Big f = Ret (y, false) /\
  Binary16.NewFromBig y = (b, BigFloat.Exact) /\ Binary16.NewFromBig x = (b, a) /\ a = BigFloat.Below.
Proof. exact c96_acc. Qed.

(** It does make a difference for Float64, which rounds to nearest: 1 + 2^-53 + 2^-100. *)
Theorem C96_Float64_refuted : exists f d a y g b d' a', 0 <= Binary128.fa f < 2 ^ 64 /\ 0 <= Binary128.fb f < 2 ^ 64 /\
  Binary128.Float64 f = Ret (d, a) /\ Binary128.Big f = Ret (y, false) /\ Float80x86.NewFromBig y = (g, b) /\
  Float80x86.Float64 g = Ret (d', a') /\ d' <> d.
Proof. exact c96_refuted. Qed.
Print Assumptions C96_Float64_refuted.

(** Go's float32 of Float64 is not always Float32: 1 + 2^-24 + 2^-100. *)
Theorem C97_refuted : exists f d a g a', 0 <= Binary128.fa f < 2 ^ 64 /\ 0 <= Binary128.fb f < 2 ^ 64 /\
  Binary128.Float64 f = Ret (d, a) /\ Binary128.Float32 f = Ret (g, a') /\ BigFloat.f64_to_f32 d <> g.
Proof. exact c97_refuted. Qed.
Print Assumptions C97_refuted.

(** It is unless Float64 is half way between two float32s and the number is on one side of it and
    the float32 on the other. *)
Theorem C97_binary128_exactly : forall f s v, 0 <= Binary128.fa f < 2 ^ 64 -> 0 <= Binary128.fb f < 2 ^ 64 ->
  quad (Binary128.fa f) (Binary128.fb f) = VNum s v ->
  let w := rn 52 11 v in
  exists d a g a', Binary128.Float64 f = Ret (d, a) /\ Binary128.Float32 f = Ret (g, a') /\
  (BigFloat.f64_to_f32 d = g <-> ~ ((Rabs v < p2 128)%R /\ midpoint 23 8 w /\ ((v - w) * (rn 23 8 w - w) < 0)%R)).
Proof. exact c97_128. Qed.
Print Assumptions C97_binary128_exactly.

Theorem C97_float80x86_exactly : forall f s v, 0 <= Float80x86.se f < 2 ^ 16 -> 0 <= Float80x86.m f < 2 ^ 64 ->
  x87 (Float80x86.se f) (Float80x86.m f) = VNum s v ->
  let w := rn 52 11 v in
  exists d a g a', Float80x86.Float64 f = Ret (d, a) /\ Float80x86.Float32 f = Ret (g, a') /\
  (BigFloat.f64_to_f32 d = g <-> ~ ((Rabs v < p2 128)%R /\ midpoint 23 8 w /\ ((v - w) * (rn 23 8 w - w) < 0)%R)).
Proof. exact c97_80. Qed.
Print Assumptions C97_float80x86_exactly.

(** 1 + 3 * 2^-24 + 2^-63 has the float64 1 + 3 * 2^-24, half way; the float32 is on the side of the number. *)
Example C97_example : exists d a g a', Float80x86.Float64 (Float80x86.NewFromBits 0x3FFF 0x8000018000000001) = Ret (d, a) /\
  Float80x86.Float32 (Float80x86.NewFromBits 0x3FFF 0x8000018000000001) = Ret (g, a') /\ BigFloat.f64_to_f32 d = g /\ a = BigFloat.Below /\ a' = BigFloat.Above.
Proof. exact c97_example. Qed.
