(** Properties C72 (the text of -f) and C73 (texts do not depend on the host), and the part of C09
    about hosts with a 32-bit int.

    [flip n b] inverts the first bit of a pattern of n bits, [opp x] is the big.Float x with the
    other sign, [converted f n v] says that v is what the float64 f is when converted to n bits
    (SpecSign.v). *)
From Coq Require Import ZArith Reals String List Bool.
From Flocq Require Import Core.
From Verif Require Import GoBase Spec SpecText SpecSign.
From Verif Require BigFloat Binary16 Binary128 Float80x86 Itoa.
From Verif Require Import Ftoa ClaimsSign ClaimsSignFmt2 ClaimsWidth ExSign.
Import ListNotations.
Open Scope Z_scope.

(** NewFromBig of -x is NewFromBig of x with the sign bit inverted, on every host: also where the
    exponent wraps around (C61). *)
Theorem C09_binary16_host_sign : forall w x, wf x ->
  Binary16.NewFromBig_host w (opp x) =
    (flip 16 (fst (Binary16.NewFromBig_host w x)), snd (Binary16.NewFromBig_host w x)).
Proof. exact (fun w => sign16_int (sint w)). Qed.
Print Assumptions C09_binary16_host_sign.

Theorem C09_float80x86_host_sign : forall w x, wf x -> let '(f, a) := Float80x86.NewFromBig_host w x in
  Float80x86.NewFromBig_host w (opp x) =
    (Float80x86.mkFloat (flip 16 (Float80x86.se f)) (Float80x86.m f), a).
Proof. exact c09_80h. Qed.
Print Assumptions C09_float80x86_host_sign.

Theorem C09_binary128_host_sign : forall w x, wf x ->
  Binary128.NewFromBig_host w (opp x) =
  match Binary128.NewFromBig_host w x with
  | Ret (f, a) => Ret (Binary128.mkFloat (flip 64 (Binary128.fa f)) (Binary128.fb f), a)
  | Panic => Panic
  end.
Proof. exact (fun w => sign128_int (sint w)). Qed.
Print Assumptions C09_binary128_host_sign.

(** -3 * 2^(2^31-3), which a 32-bit host takes for a small number. *)
Example C09_host_example : let x := BigFloat.mkBF 2 BigFloat.ToZero BigFloat.Exact true (BigFloat.Finite 3 (2 ^ 31 - 3)) in
  wf x /\ bval x <> bval (opp x) /\
  Binary16.NewFromBig_host 32 x <> Binary16.NewFromBig_host 64 x.
Proof. exact ex_host. Qed.

(** The text of -f is the text of f after a '-'; NaN has no sign, +Inf becomes -Inf. *)
Theorem C72_text_of_minus : forall w opt f fmt prec bitSize v, w = 32 \/ w = 64 -> 0 <= f < 2 ^ 63 ->
  fmt = 98 \/ fmt = 101 \/ fmt = 69 \/ fmt = 102 \/ fmt = 103 \/ fmt = 71 -> converted f bitSize v ->
  let t := FormatFloat w opt f fmt prec bitSize in
  let t' := FormatFloat w opt (f + 2 ^ 63) fmt prec bitSize in
  match v with
  | VNaN _ => t = Ret (B "NaN"%string) /\ t' = Ret (B "NaN"%string)
  | VInf _ => t = Ret (B "+Inf"%string) /\ t' = Ret (B "-Inf"%string)
  | VNum _ _ => t' = match t with Ret s => Ret (45 :: s) | Panic => Panic end
  end.
Proof. exact c72. Qed.
Print Assumptions C72_text_of_minus.

(** For other bit sizes both panic. *)
Theorem C72_other_bitSizes : forall w opt f fmt prec bitSize, bitSize <> 16 -> bitSize <> 32 -> bitSize <> 64 ->
  FormatFloat w opt f fmt prec bitSize = Panic.
Proof. exact c72_other. Qed.
Print Assumptions C72_other_bitSizes.

(** 1.5, and the float64 that float32 rounds to infinity. *)
Example C72_example : converted 0x3FF8000000000000 16 (VNum false (IZR 1536 * p2 (-10))) /\
  FormatFloat 32 true 0x3FF8000000000000 103 (-1) 16 = Ret (B "1.5"%string) /\
  FormatFloat 32 true (0x3FF8000000000000 + 2 ^ 63) 103 (-1) 16 = Ret (B "-1.5"%string) /\
  FormatFloat 64 true 0x7FE0000000000000 103 (-1) 32 = Ret (B "+Inf"%string) /\
  FormatFloat 64 true (0x7FE0000000000000 + 2 ^ 63) 103 (-1) 32 = Ret (B "-Inf"%string).
Proof. exact ex_minus. Qed.

(** FormatFloat and AppendFloat give the same text on hosts with a 32-bit and with a 64-bit int,
    but for formats 'e' and 'E' with the largest precision of the former. *)
Theorem C73_floats_partial : forall opt dst f fmt prec bitSize, 0 <= f < 2 ^ 64 ->
  prec < 2 ^ 31 -> (fmt = 101 \/ fmt = 69 -> prec <> 2 ^ 31 - 1) ->
  FormatFloat 32 opt f fmt prec bitSize = FormatFloat 64 opt f fmt prec bitSize /\
  AppendFloat 32 opt dst f fmt prec bitSize = AppendFloat 64 opt dst f fmt prec bitSize.
Proof. exact c73. Qed.
Print Assumptions C73_floats_partial.

(** There it panics on one of them and returns on the other. *)
Theorem C73_refuted : exists f fmt prec, 0 <= f < 2 ^ 64 /\ 0 <= prec < 2 ^ 31 /\
  FormatFloat 32 true f fmt prec 64 = Panic /\ exists t, FormatFloat 64 true f fmt prec 64 = Ret t.
Proof. exact c73_refuted. Qed.
Print Assumptions C73_refuted.

(** The integer texts do not depend on the host either; the flag says whether it has 32 bits. *)
Theorem C73_integers : forall h h',
  (forall i base, 0 <= i < 2 ^ 64 -> Itoa.FormatUint h i base = Itoa.FormatUint h' i base) /\
  (forall i base, - 2 ^ 63 <= i < 2 ^ 63 -> Itoa.FormatInt h i base = Itoa.FormatInt h' i base) /\
  (forall i, - 2 ^ 63 <= i < 2 ^ 63 -> Itoa.Itoa h i = Itoa.Itoa h' i) /\
  (forall dst i base, - 2 ^ 63 <= i < 2 ^ 63 -> Itoa.AppendInt h dst i base = Itoa.AppendInt h' dst i base) /\
  (forall dst i base, 0 <= i < 2 ^ 64 -> Itoa.AppendUint h dst i base = Itoa.AppendUint h' dst i base).
Proof. exact Itoa_host. Qed.
Print Assumptions C73_integers.

Example C73_example : FormatFloat 32 true 0x7FEFFFFFFFFFFFFF 103 (-1) 64 = Ret (B "1.7976931348623157e+308"%string) /\
  FormatFloat 64 true 0x7FEFFFFFFFFFFFFF 103 (-1) 64 = Ret (B "1.7976931348623157e+308"%string) /\
  Itoa.FormatInt true (- 2 ^ 63) 10 = Ret (B "-9223372036854775808"%string) /\
  Itoa.FormatInt false (- 2 ^ 63) 10 = Ret (B "-9223372036854775808"%string).
Proof. vm_compute. repeat split. Qed.
