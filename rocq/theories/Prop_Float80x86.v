(** Properties of package float80x86 (C16 to C21, and its share of C08 and C09).
    Every theorem is closed by a lemma of Claims80.v. *)
From Coq Require Import ZArith Reals Lia.
From Flocq Require Import Core.
From Verif Require Import GoBase.
From Verif Require BigFloat Float80x86.
From Verif Require Import Spec Claims80.
Import BigFloat (prec, rmode, acc, neg, frm, Finite).
Open Scope Z_scope.

Theorem C16_float80x86_fields : forall a b, 0 <= a < 2 ^ 16 -> 0 <= b < 2 ^ 64 ->
  let f := Float80x86.NewFromBits a b in
  Float80x86.Bits f = (a, b) /\
  0 <= Float80x86.Exp f < 2 ^ 15 /\ 0 <= Float80x86.Lead f <= 1 /\ 0 <= Float80x86.Frac f < 2 ^ 63 /\
  Z.b2z (Float80x86.Signbit f) * 2 ^ 15 + Float80x86.Exp f = a /\
  Float80x86.Lead f * 2 ^ 63 + Float80x86.Frac f = b.
Proof. exact c16. Qed.
Print Assumptions C16_float80x86_fields.

Example C16_example :
  let f := Float80x86.NewFromBits 0xC000 0xC90FDAA22168C235 in
  Float80x86.Signbit f = true /\ Float80x86.Exp f = 16384 /\ Float80x86.Lead f = 1 /\
  Float80x86.Frac f = 0x490FDAA22168C235.
Proof. vm_compute. auto. Qed.

Theorem C17_float80x86_Big : forall a b, 0 <= a < 2 ^ 16 -> 0 <= b < 2 ^ 64 ->
  exists x nan, Float80x86.Big (Float80x86.NewFromBits a b) = Ret (x, nan) /\
    wf x /\ prec x = 64 /\ rmode x = BigFloat.ToNearestEven /\ acc x = BigFloat.Exact /\
    match x87 a b with
    | VNaN s => nan = true /\ bval x = VNum s 0
    | v => nan = false /\ bval x = v
    end.
Proof. exact c17. Qed.
Print Assumptions C17_float80x86_Big.

(** an unnormal number: exponent field 5, lead bit 0 *)
Example C17_example : x87 5 3 = VNum false (IZR 3 * p2 (-16441)).
Proof. reflexivity. Qed.

(** The last hypothesis says that the encoding is canonical. *)
Theorem C18_float80x86_roundtrip : forall a b, 0 <= a < 2 ^ 16 -> 0 <= b < 2 ^ 64 -> (forall s, x87 a b <> VNaN s) ->
  exists x g, Float80x86.Big (Float80x86.NewFromBits a b) = Ret (x, false) /\
    Float80x86.NewFromBig x = (g, BigFloat.Exact) /\
    x87 (Float80x86.se g) (Float80x86.m g) = x87 a b /\
    (let E := a mod 2 ^ 15 in
     (E = 0 /\ b < 2 ^ 63) \/ (1 <= E <= 32766 /\ 2 ^ 63 <= b) \/ (E = 32767 /\ b = 2 ^ 63) ->
     g = Float80x86.NewFromBits a b).
Proof. exact c18. Qed.
Print Assumptions C18_float80x86_roundtrip.

Example C18_example : (forall s, x87 0x4000 0xC90FDAA22168C235 <> VNaN s) /\
  1 <= 0x4000 mod 2 ^ 15 <= 32766 /\ 2 ^ 63 <= 0xC90FDAA22168C235.
Proof. split; [intros s; discriminate|]. vm_compute. intuition congruence. Qed.

(** Infinities are included; NaNs are in C08. *)
Theorem C19_float80x86_floats : 
  (forall x, 0 <= x < 2 ^ 64 -> (forall s, ieee 52 11 x <> VNaN s) ->
     exists f, Float80x86.NewFromFloat64 x = Ret (f, BigFloat.Exact) /\
       x87 (Float80x86.se f) (Float80x86.m f) = ieee 52 11 x /\
       Float80x86.Float64 f = Ret (x, BigFloat.Exact)) /\
  (forall x, 0 <= x < 2 ^ 32 -> (forall s, ieee 23 8 x <> VNaN s) ->
     exists f, Float80x86.NewFromFloat32 x = Ret (f, BigFloat.Exact) /\
       x87 (Float80x86.se f) (Float80x86.m f) = ieee 23 8 x /\
       Float80x86.Float32 f = Ret (x, BigFloat.Exact)).
Proof. exact c19. Qed.
Print Assumptions C19_float80x86_floats.

Example C19_example : (forall s, ieee 52 11 1 <> VNaN s) /\
  Float80x86.NewFromFloat64 1 = Ret (Float80x86.NewFromBits 0x3BCD (2 ^ 63), BigFloat.Exact).
Proof. split; [intros s; discriminate|vm_compute; reflexivity]. Qed.

(** NaNs included: they give a NaN of the same sign. *)
Theorem C20_float80x86_to_floats : forall f, 0 <= Float80x86.se f < 2 ^ 16 -> 0 <= Float80x86.m f < 2 ^ 64 ->
  exists d a g a', Float80x86.Float64 f = Ret (d, a) /\ 0 <= d < 2 ^ 64 /\
    Float80x86.Float32 f = Ret (g, a') /\ 0 <= g < 2 ^ 32 /\
    match x87 (Float80x86.se f) (Float80x86.m f) with
    | VNum s v => ieee 52 11 d = ieee_round 52 11 s v /\ acc_ok a (ieee 52 11 d) v /\
                  ieee 23 8 g = ieee_round 23 8 s v /\ acc_ok a' (ieee 23 8 g) v
    | v => ieee 52 11 d = v /\ a = BigFloat.Exact /\ ieee 23 8 g = v /\ a' = BigFloat.Exact
    end.
Proof. exact c20. Qed.
Print Assumptions C20_float80x86_to_floats.

(** pi rounds up to float64; 2^1024 overflows *)
Example C20_example :
  Float80x86.Float64 (Float80x86.NewFromBits 0x4000 0xC90FDAA22168C235) = Ret (0x400921FB54442D18, BigFloat.Below) /\
  Float80x86.Float64 (Float80x86.NewFromBits 0x43FF 0x8000000000000000) = Ret (0x7FF0000000000000, BigFloat.Above).
Proof. vm_compute. auto. Qed.

(** The full claim C21: for every well-formed finite [x] of value [v] the result denotes
    [ieee_round 63 15 (neg x) v] (the x87 format has 63 bits after the lead bit) with a
    truthful accuracy.  It is false: 2^65 - 1 is truncated. *)
Theorem C21_float80x86_NewFromBig_refuted : exists x m e, wf x /\ frm x = Finite m e /\
    let f := fst (Float80x86.NewFromBig x) in
    x87 (Float80x86.se f) (Float80x86.m f) <> ieee_round 63 15 (neg x) (sgnR (neg x) (IZR m * p2 e)).
Proof. exact c21_refuted. Qed.
Print Assumptions C21_float80x86_NewFromBig_refuted.

(** The accuracy is wrong for negative numbers that are not representable. *)
Theorem C21_float80x86_accuracy_refuted : exists x m e, wf x /\ frm x = Finite m e /\
    let (f, a) := Float80x86.NewFromBig x in
    ~ acc_ok a (x87 (Float80x86.se f) (Float80x86.m f)) (sgnR (neg x) (IZR m * p2 e)).
Proof. exact c21_acc_refuted. Qed.
Print Assumptions C21_float80x86_accuracy_refuted.

(** What holds of C21, for 2^-16445 <= |x| < 2^16384: the result is x truncated; it is x
    itself, and Exact, for x87 numbers; the accuracy is truthful for x >= 2^-16382.
    Missing: nearest rounding, other magnitudes, and the accuracy of negative and of
    subnormal results. *)
Theorem C21_float80x86_NewFromBig_partial : forall x m e, wf x -> frm x = Finite m e ->
  let v := sgnR (neg x) (IZR m * p2 e) in
  (p2 (-16445) <= Rabs v < p2 16384)%R ->
  let (f, a) := Float80x86.NewFromBig x in
    x87 (Float80x86.se f) (Float80x86.m f) = VNum (neg x) (rz 63 15 v) /\
    (fits 63 15 v -> a = BigFloat.Exact /\
       x87 (Float80x86.se f) (Float80x86.m f) = ieee_round 63 15 (neg x) v) /\
    ((p2 (-16382) <= v)%R -> acc_ok a (x87 (Float80x86.se f) (Float80x86.m f)) v).
Proof. exact c21_partial. Qed.
Print Assumptions C21_float80x86_NewFromBig_partial.

Example C21_example :
  let x := BigFloat.mkBF 200 BigFloat.ToNearestEven BigFloat.Exact false (Finite (2 ^ 65 - 1) 0) in
  wf x /\ (p2 (-16445) <= Rabs (sgnR (neg x) (IZR (2 ^ 65 - 1) * p2 0)) < p2 16384)%R.
Proof. exact c21_example. Qed.

Theorem C08_float80x86_special : forall s,
  (forall x, 0 <= x < 2 ^ 64 -> ieee 52 11 x = VNaN s ->
     Float80x86.NewFromFloat64 x = Ret ((if s then Float80x86.NegNaN else Float80x86.NaN), BigFloat.Exact)) /\
  (forall x, 0 <= x < 2 ^ 64 -> ieee 52 11 x = VInf s ->
     Float80x86.NewFromFloat64 x = Ret ((if s then Float80x86.NegInf else Float80x86.Inf), BigFloat.Exact)) /\
  (forall x, 0 <= x < 2 ^ 64 -> ieee 52 11 x = VNum s 0 ->
     Float80x86.NewFromFloat64 x = Ret ((if s then Float80x86.NegZero else Float80x86.Zero), BigFloat.Exact)) /\
  (forall x, 0 <= x < 2 ^ 32 -> ieee 23 8 x = VNaN s ->
     Float80x86.NewFromFloat32 x = Ret ((if s then Float80x86.NegNaN else Float80x86.NaN), BigFloat.Exact)) /\
  (forall x, 0 <= x < 2 ^ 32 -> ieee 23 8 x = VInf s ->
     Float80x86.NewFromFloat32 x = Ret ((if s then Float80x86.NegInf else Float80x86.Inf), BigFloat.Exact)) /\
  (forall x, 0 <= x < 2 ^ 32 -> ieee 23 8 x = VNum s 0 ->
     Float80x86.NewFromFloat32 x = Ret ((if s then Float80x86.NegZero else Float80x86.Zero), BigFloat.Exact)) /\
  (forall x, wf x -> bval x = VInf s ->
     Float80x86.NewFromBig x = ((if s then Float80x86.NegInf else Float80x86.Inf), BigFloat.Exact)) /\
  (forall x, wf x -> bval x = VNum s 0 ->
     Float80x86.NewFromBig x = ((if s then Float80x86.NegZero else Float80x86.Zero), BigFloat.Exact)) /\
  (let c := (if s then Float80x86.NegNaN else Float80x86.NaN) in x87 (Float80x86.se c) (Float80x86.m c) = VNaN s) /\
  (let c := (if s then Float80x86.NegInf else Float80x86.Inf) in x87 (Float80x86.se c) (Float80x86.m c) = VInf s) /\
  (let c := (if s then Float80x86.NegZero else Float80x86.Zero) in x87 (Float80x86.se c) (Float80x86.m c) = VNum s 0).
Proof. exact c08_80. Qed.
Print Assumptions C08_float80x86_special.

Example C08_float80x86_example : ieee 52 11 0xFFF0000000000001 = VNaN true /\ ieee 23 8 0xFF800000 = VInf true /\
  bval (BigFloat.mkBF 7 BigFloat.ToZero BigFloat.Above true BigFloat.Zero) = VNum true 0.
Proof. repeat split. Qed.

Theorem C09_float80x86_sign : forall x, wf x ->
  let (f, a) := Float80x86.NewFromBig x in
  Float80x86.NewFromBig (BigFloat.NegSelf x) =
    (Float80x86.NewFromBits (Z.lxor (Float80x86.se f) (2 ^ 15)) (Float80x86.m f), a).
Proof. exact c09_80. Qed.
Print Assumptions C09_float80x86_sign.

Example C09_float80x86_example :
  Float80x86.NewFromBig (BigFloat.mkBF 200 BigFloat.ToNearestEven BigFloat.Exact true (Finite 3 (-1))) =
    (Float80x86.NewFromBits 0xBFFF 0xC000000000000000, BigFloat.Exact).
Proof. vm_compute. reflexivity. Qed.
