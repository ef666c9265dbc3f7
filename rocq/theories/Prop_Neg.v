(** C83 and C84: inverting the sign of a float, and of the argument of float128ppc.NewFromBig.
    See SpecSign.v (flip, opp, opp_acc, vopp, symmetric). *)
From Coq Require Import ZArith Reals Lia.
From Flocq Require Import Core.
From Verif Require Import GoBase.
From Verif Require BigFloat Binary16 Bfloat Binary128 Float80x86 Float128ppc.
From Verif Require Import Spec SpecSign ClaimsNeg ClaimsNeg2.
Import BigFloat (prec, rmode, acc, frm, Finite).
Open Scope Z_scope.

(** Inverting the sign bit inverts the sign of Big and nothing else. *)
Theorem C83_Big :
  (forall f, 0 <= f < 2 ^ 16 -> exists x nan, Binary16.Big f = Ret (x, nan) /\ Binary16.Big (flip 16 f) = Ret (opp x, nan)) /\
  (forall f, 0 <= f < 2 ^ 16 -> exists x nan, Bfloat.Big f = Ret (x, nan) /\ Bfloat.Big (flip 16 f) = Ret (opp x, nan)) /\
  (forall a b, 0 <= a < 2 ^ 16 -> 0 <= b < 2 ^ 64 -> exists x nan, Float80x86.Big (Float80x86.NewFromBits a b) = Ret (x, nan) /\
     Float80x86.Big (Float80x86.NewFromBits (flip 16 a) b) = Ret (opp x, nan)) /\
  (forall w a b, w = 32 \/ w = 64 -> 0 <= a < 2 ^ 64 -> 0 <= b < 2 ^ 64 ->
     exists x nan, Binary128.Big_host w (Binary128.NewFromBits a b) = Ret (x, nan) /\
     Binary128.Big_host w (Binary128.NewFromBits (flip 64 a) b) = Ret (opp x, nan)).
Proof. exact c83_big. Qed.
Print Assumptions C83_Big.

(** -2 and 2; the sign bit of 2 inverted. *)
Example C83_Big_example : flip 16 0xC000 = 0x4000 /\
  Binary16.Big 0xC000 = Ret (BigFloat.mkBF 11 BigFloat.ToNearestEven BigFloat.Exact true (Finite 1024 (-9)), false) /\
  Binary16.Big 0x4000 = Ret (BigFloat.mkBF 11 BigFloat.ToNearestEven BigFloat.Exact false (Finite 1024 (-9)), false).
Proof. split; [reflexivity|]. split; vm_compute; reflexivity. Qed.

(** It inverts the sign bits of Float64 and Float32, also those of a NaN, and the accuracies. *)
Theorem C83_binary16_floats : forall f, 0 <= f < 2 ^ 16 ->
  exists d a g a', Binary16.Float64 f = Ret (d, a) /\ Binary16.Float64 (flip 16 f) = Ret (flip 64 d, opp_acc a) /\
    Binary16.Float32 f = Ret (g, a') /\ Binary16.Float32 (flip 16 f) = Ret (flip 32 g, opp_acc a').
Proof. exact c83_f16. Qed.
Print Assumptions C83_binary16_floats.

Theorem C83_float80x86_floats : forall a b, 0 <= a < 2 ^ 16 -> 0 <= b < 2 ^ 64 ->
  let f := Float80x86.NewFromBits a b in
  let f' := Float80x86.NewFromBits (flip 16 a) b in
  exists d c g c', Float80x86.Float64 f = Ret (d, c) /\ Float80x86.Float64 f' = Ret (flip 64 d, opp_acc c) /\
    Float80x86.Float32 f = Ret (g, c') /\ Float80x86.Float32 f' = Ret (flip 32 g, opp_acc c').
Proof. exact c83_f80. Qed.
Print Assumptions C83_float80x86_floats.

(** 1 + 2^-63 and its negative. *)
Example C83_float80x86_example :
  Float80x86.Float64 (Float80x86.NewFromBits 0x3FFF (2 ^ 63 + 1)) = Ret (0x3FF0000000000000, BigFloat.Below) /\
  Float80x86.Float64 (Float80x86.NewFromBits 0xBFFF (2 ^ 63 + 1)) = Ret (0xBFF0000000000000, BigFloat.Above).
Proof. split; vm_compute; reflexivity. Qed.

Theorem C83_binary128_floats : forall w a b, w = 32 \/ w = 64 -> 0 <= a < 2 ^ 64 -> 0 <= b < 2 ^ 64 ->
  let f := Binary128.NewFromBits a b in
  let f' := Binary128.NewFromBits (flip 64 a) b in
  exists d c g c', Binary128.Float64_host w f = Ret (d, c) /\ Binary128.Float64_host w f' = Ret (flip 64 d, opp_acc c) /\
    Binary128.Float32_host w f = Ret (g, c') /\ Binary128.Float32_host w f' = Ret (flip 32 g, opp_acc c').
Proof. exact c83_f128. Qed.
Print Assumptions C83_binary128_floats.

(** A NaN and its negative. *)
Example C83_binary128_example :
  Binary128.Float64_host 64 (Binary128.NewFromBits 0x7FFF800000000000 0) = Ret (0x7FF8000000000001, BigFloat.Exact) /\
  Binary128.Float64_host 64 (Binary128.NewFromBits 0xFFFF800000000000 0) = Ret (0xFFF8000000000001, BigFloat.Exact).
Proof. split; vm_compute; reflexivity. Qed.

(** float128ppc: both sign bits are inverted.  The sign of a NaN was lost in Big already (C28). *)
Theorem C83_float128ppc_Big : forall a b, 0 <= a < 2 ^ 64 -> 0 <= b < 2 ^ 64 ->
  let f := Float128ppc.NewFromBits a b in
  let f' := Float128ppc.NewFromBits (flip 64 a) (flip 64 b) in
  match Float128ppc.Big f with
  | Panic => Float128ppc.Big f' = Panic
  | Ret (x, true) => Float128ppc.Big f' = Ret (x, true)
  | Ret (x, false) => exists x', Float128ppc.Big f' = Ret (x', false) /\ wf x /\ wf x' /\ prec x = 106 /\ prec x' = 106 /\
      bval x' = vopp (bval x) /\ acc x' = opp_acc (acc x)
  end.
Proof. exact c83_ppc. Qed.
Print Assumptions C83_float128ppc_Big.

Theorem C83_float128ppc_floats : forall a b, 0 <= a < 2 ^ 64 -> 0 <= b < 2 ^ 64 ->
  let f := Float128ppc.NewFromBits a b in
  let f' := Float128ppc.NewFromBits (flip 64 a) (flip 64 b) in
  match Float128ppc.Big f with
  | Panic => Float128ppc.Float64 f' = Panic /\ Float128ppc.Float32 f' = Panic
  | Ret (_, true) => Float128ppc.Float64 f' = Float128ppc.Float64 f /\ Float128ppc.Float32 f' = Float128ppc.Float32 f
  | Ret (_, false) => exists d c g c', Float128ppc.Float64 f = Ret (d, c) /\ Float128ppc.Float64 f' = Ret (flip 64 d, opp_acc c) /\
      Float128ppc.Float32 f = Ret (g, c') /\ Float128ppc.Float32 f' = Ret (flip 32 g, opp_acc c')
  end.
Proof. exact c83_fppc. Qed.
Print Assumptions C83_float128ppc_floats.

(** 1 - 2^-60, and 1 - 1 with its zero. *)
Example C83_float128ppc_example : flip 64 0x3FF0000000000000 = 0xBFF0000000000000 /\ flip 64 0xBC30000000000000 = 0x3C30000000000000 /\
  Float128ppc.Float64 (Float128ppc.NewFromBits 0x3FF0000000000000 0xBC30000000000000) = Ret (0x3FF0000000000000, BigFloat.Above) /\
  Float128ppc.Float64 (Float128ppc.NewFromBits 0xBFF0000000000000 0x3C30000000000000) = Ret (0xBFF0000000000000, BigFloat.Below) /\
  Float128ppc.Float64 (Float128ppc.NewFromBits 0x3FF0000000000000 0xBFF0000000000000) = Ret (0, BigFloat.Exact) /\
  Float128ppc.Float64 (Float128ppc.NewFromBits 0xBFF0000000000000 0x3FF0000000000000) = Ret (2 ^ 63, BigFloat.Exact).
Proof. repeat split; vm_compute; reflexivity. Qed.

(** float128ppc.NewFromBig does not tell the infinities apart. *)
Theorem C84_infinity_refuted : exists x f a x', wf x /\ symmetric (rmode x) /\ bval x = VInf false /\
  Float128ppc.NewFromBig x = Ret (f, a, x') /\ Float128ppc.NewFromBig (opp x) = Ret (f, a, opp x').
Proof. exact c84_inf_refuted. Qed.
Print Assumptions C84_infinity_refuted.

(** Directed rounding: 1 + 2^-200 rounded up is 1 + 2^-105; -1 - 2^-200 rounded up is -1. *)
Theorem C84_mode_refuted : exists x h l a x' l' a' y', wf x /\ rmode x = BigFloat.ToPositiveInf /\ frm x = Finite (2 ^ 200 + 1) (-200) /\
  Float128ppc.NewFromBig x = Ret (Float128ppc.mkFloat h l, a, x') /\
  Float128ppc.NewFromBig (opp x) = Ret (Float128ppc.mkFloat (flip 64 h) l', a', y') /\ l <> 0 /\ l' = 0.
Proof. exact c84_mode_refuted. Qed.
Print Assumptions C84_mode_refuted.

(** What holds: for finite numbers and the other modes both halves change their signs, but a low
    half without remainder is +0 on both sides; the number left behind in x is negated. *)
Theorem C84_partial : forall x s v, wf x -> symmetric (rmode x) -> bval x = VNum s v ->
  let y := rnd_prec (rmode x) 106 v in
  match Float128ppc.NewFromBig x with
  | Panic => Float128ppc.NewFromBig (opp x) = Panic
  | Ret (Float128ppc.mkFloat h l, a, x') =>
      exists l', Float128ppc.NewFromBig (opp x) = Ret (Float128ppc.mkFloat (flip 64 h) l', a, opp x') /\
        (rn 52 11 y = y -> l = 0 /\ l' = 0) /\ (rn 52 11 y <> y -> l' = flip 64 l)
  end.
Proof. exact c84. Qed.
Print Assumptions C84_partial.

(** 1 + 2^-60, and 3 without a remainder. *)
Example C84_example :
  let x := BigFloat.mkBF 106 BigFloat.ToZero BigFloat.Exact false (Finite (2 ^ 60 + 1) (-60)) in
  let y := BigFloat.mkBF 106 BigFloat.ToZero BigFloat.Exact false (Finite 3 0) in
  (exists x', Float128ppc.NewFromBig x = Ret (Float128ppc.mkFloat 0x3FF0000000000000 0x3C30000000000000, BigFloat.Exact, x')) /\
  (exists x', Float128ppc.NewFromBig (opp x) = Ret (Float128ppc.mkFloat 0xBFF0000000000000 0xBC30000000000000, BigFloat.Exact, x')) /\
  (exists x', Float128ppc.NewFromBig (opp y) = Ret (Float128ppc.mkFloat 0xC008000000000000 0, BigFloat.Exact, x')).
Proof. split; [|split]; (eexists; vm_compute; reflexivity). Qed.

(** In all modes, if -x is rounded in the mirrored mode; and whatever the modes if the number has at
    most 106 bits. *)
Theorem C84_mirrored : forall x z s v, wf x -> wf z -> bval x = VNum s v -> bval z = VNum (negb s) (- v) ->
  rmode z = mirror (rmode x) \/ (exists m e, v = (IZR m * p2 e)%R /\ Z.abs m < 2 ^ 106) ->
  let y := rnd_prec (rmode x) 106 v in
  match Float128ppc.NewFromBig x with
  | Panic => Float128ppc.NewFromBig z = Panic
  | Ret (Float128ppc.mkFloat h l, a, x') =>
      exists l' z', Float128ppc.NewFromBig z = Ret (Float128ppc.mkFloat (flip 64 h) l', a, z') /\
        bval z' = vopp (bval x') /\
        (rn 52 11 y = y -> l = 0 /\ l' = 0) /\ (rn 52 11 y <> y -> l' = flip 64 l)
  end.
Proof. exact c84_mirror. Qed.
Print Assumptions C84_mirrored.

(** 1 + 2^-120 rounded up, -1 - 2^-120 rounded down: 2^-105 remains in both. *)
Example C84_mirrored_example :
  let x := BigFloat.mkBF 121 BigFloat.ToPositiveInf BigFloat.Exact false (Finite (2 ^ 120 + 1) (-120)) in
  let z := BigFloat.mkBF 121 BigFloat.ToNegativeInf BigFloat.Exact true (Finite (2 ^ 120 + 1) (-120)) in
  rmode z = mirror (rmode x) /\
  (exists x', Float128ppc.NewFromBig x = Ret (Float128ppc.mkFloat 0x3FF0000000000000 0x3960000000000000, BigFloat.Exact, x')) /\
  (exists x', Float128ppc.NewFromBig z = Ret (Float128ppc.mkFloat 0xBFF0000000000000 0xB960000000000000, BigFloat.Exact, x')).
Proof. split; [reflexivity|]. split; (eexists; vm_compute; reflexivity). Qed.

(** In the directed modes x and -x leave opposite numbers behind exactly if x has at most 106 bits. *)
Theorem C84_directed_exactly : forall x s v f a x' g b z', wf x -> ~ symmetric (rmode x) -> bval x = VNum s v ->
  Float128ppc.NewFromBig x = Ret (f, a, x') -> Float128ppc.NewFromBig (opp x) = Ret (g, b, z') ->
  bval z' = vopp (bval x') <-> exists m e, v = (IZR m * p2 e)%R /\ Z.abs m < 2 ^ 106.
Proof. exact c84_exactly. Qed.
Print Assumptions C84_directed_exactly.

Example C84_directed_example : ~ symmetric BigFloat.ToPositiveInf /\ mirror BigFloat.ToPositiveInf = BigFloat.ToNegativeInf.
Proof. split; [intros [_ H]; apply H; reflexivity|reflexivity]. Qed.
