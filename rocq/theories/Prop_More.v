(** When the accuracies of C06, C07, C15 and C21 are true and when the round trip of C26 succeeds,
    exactly; and C66, C68, C69 and C70.

    [vle] is the order of the numbers, -Inf and +Inf included (SpecOrder.v). *)
From Coq Require Import ZArith Reals String List Bool Lia Lra.
From Flocq Require Import Core.
From Verif Require Import GoBase Spec SpecText SpecDec SpecFtoa SpecFmt SpecOrder.
From Verif Require BigFloat Binary16 Binary128 Float80x86 Float128ppc.
From Verif Require Import Ftoa ClaimsMore ClaimsMono ClaimsHalf ExMore.
Import BigFloat (rmode).
Import Float128ppc (high, low).
Import ListNotations.
Open Scope Z_scope.

(** binary16.NewFromBig, from 2^-24 up to 2^16: the accuracy is true exactly of the half precision
    numbers and of all positive numbers from 2^-14 on. *)
Theorem C07_binary16_accuracy_iff : forall x s v, wf x -> bval x = VNum s v -> (p2 (-24) <= Rabs v < p2 16)%R ->
  let '(b, a) := Binary16.NewFromBig x in
  acc_ok a (ieee 10 5 b) v <-> fits 10 5 v \/ (p2 (-14) <= v)%R.
Proof. exact c07_iff. Qed.
Print Assumptions C07_binary16_accuracy_iff.

(** Also for the next two and for C68. *)
Example C07_iff_example :
  wf (three (-16)) /\ bval (three (-16)) = VNum false (IZR 3 * p2 (-16)) /\
  wf (three (-15)) /\ bval (three (-15)) = VNum false (IZR 3 * p2 (-15)) /\ (IZR 3 * p2 (-16) <= IZR 3 * p2 (-15))%R /\
  (p2 (-24) <= Rabs (IZR 3 * p2 (-16)) < p2 16)%R /\ (p2 (-24) <= Rabs (IZR 3 * p2 (-15)) < p2 16)%R.
Proof. exact ex_three. Qed.

(** binary128.NewFromBig *)
Theorem C15_binary128_accuracy_iff : forall x s v, wf x -> bval x = VNum s v -> (p2 (-16494) <= Rabs v < p2 16384)%R ->
  exists f a, Binary128.NewFromBig x = Ret (f, a) /\
  (acc_ok a (quad (Binary128.fa f) (Binary128.fb f)) v <-> fits 112 15 v \/ (p2 (-16382) <= v)%R).
Proof. exact c15_iff. Qed.
Print Assumptions C15_binary128_accuracy_iff.

(** float80x86.NewFromBig *)
Theorem C21_float80x86_accuracy_iff : forall x s v, wf x -> bval x = VNum s v -> (p2 (-16445) <= Rabs v < p2 16384)%R ->
  let '(f, a) := Float80x86.NewFromBig x in
  acc_ok a (x87 (Float80x86.se f) (Float80x86.m f)) v <-> fits 63 15 v \/ (p2 (-16382) <= v)%R.
Proof. exact c21_iff. Qed.
Print Assumptions C21_float80x86_accuracy_iff.

(** binary16.NewFromFloat64, from 2^-24 up to 2^17: the accuracy is true exactly of the half precision numbers. *)
Theorem C06_binary16_accuracy_iff : forall x s v, 0 <= x < 2 ^ 64 -> ieee 52 11 x = VNum s v ->
  (p2 (-24) <= Rabs v)%R -> (Rabs (rnd_prec BigFloat.ToNearestEven 11 v) < p2 17)%R ->
  exists b a, Binary16.NewFromFloat64 x = Ret (b, a) /\ (acc_ok a (ieee 10 5 b) v <-> fits 10 5 v).
Proof. exact c06_iff. Qed.
Print Assumptions C06_binary16_accuracy_iff.

Example C06_iff_example : let v := (IZR (2 ^ 52 + 2 ^ 40) * p2 (-52))%R in
  ieee 52 11 0x3FF0010000000000 = VNum false v /\ (p2 (-24) <= Rabs v)%R /\ (Rabs (rnd_prec BigFloat.ToNearestEven 11 v) < p2 17)%R.
Proof. exact ex_half. Qed.

(** The pairs of finite float64s that float128ppc.NewFromBig reproduces from Big, exactly. *)
Theorem C26_float128ppc_roundtrip_iff : forall a b s1 v1 s2 v2, 0 <= a < 2 ^ 64 -> 0 <= b < 2 ^ 64 ->
  ieee 52 11 a = VNum s1 v1 -> ieee 52 11 b = VNum s2 v2 ->
  (exists x acc x', Float128ppc.Big (Float128ppc.NewFromBits a b) = Ret (x, false) /\
    Float128ppc.NewFromBig x = Ret (Float128ppc.NewFromBits a b, acc, x')) <->
  rn 52 11 (v1 + v2) = v1 /\ (exists K c, (v1 + v2 = IZR K * p2 c)%R /\ Z.abs K < 2 ^ 106) /\ b <> Float128ppc.math_NegZero.
Proof. exact c26_iff. Qed.
Print Assumptions C26_float128ppc_roundtrip_iff.

(** 1 + 2^-60; also for C69 and C70 *)
Example C26_iff_example : (ieee 52 11 0x3FF0000000000000 = VNum false (IZR (2 ^ 52) * p2 (-52)) /\
  ieee 52 11 0x3C30000000000000 = VNum false (IZR (2 ^ 52) * p2 (-112)) /\
  exists K c, (IZR (2 ^ 52) * p2 (-52) + IZR (2 ^ 52) * p2 (-112) = IZR K * p2 c)%R /\ Z.abs K < 2 ^ 106) /\
  exists x x', Float128ppc.Big (Float128ppc.NewFromBits 0x3FF0000000000000 0x3C30000000000000) = Ret (x, false) /\
    Float128ppc.NewFromBig x = Ret (Float128ppc.NewFromBits 0x3FF0000000000000 0x3C30000000000000, BigFloat.Exact, x').
Proof.
  split; [exact ex_pair|].
  exists (BigFloat.mkBF 106 BigFloat.ToNearestEven BigFloat.Exact false (BigFloat.Finite 40564819207303340883078874660864 (-105))).
  exists (BigFloat.mkBF 106 BigFloat.ToNearestEven BigFloat.Exact false (BigFloat.Finite 40564819207303340883078874660864 (-105))).
  split; vm_compute; reflexivity.
Qed.

(** Every float64 is printed at 16 bits as the half precision number that NewFromFloat64 makes of it, so C51
    to C57 and C62 to C64 apply to what is printed of every float64. *)
Theorem C66_half_texts : forall val, 0 <= val < 2 ^ 64 ->
  exists b a val', Binary16.NewFromFloat64 val = Ret (b, a) /\ 0 <= b < 2 ^ 16 /\
    Binary16.Float64 b = Ret (val', BigFloat.Exact) /\ 0 <= val' < 2 ^ 64 /\ ieee 52 11 val' = ieee 10 5 b /\
    (forall w opt dst fmt prec, w = 32 \/ w = 64 ->
       AppendFloat w opt dst val fmt prec 16 = AppendFloat w opt dst val' fmt prec 16) /\
    (forall s v, ieee 10 5 b = VNum s v -> as_float 16 val' 10 5 b s).
Proof. exact c66. Qed.
Print Assumptions C66_half_texts.

(** 98304 becomes a NaN, 2^-30 becomes 2^-15. *)
Example C66_example : FormatFloat 64 true 0x40F8000000000000 103 (-1) 16 = Ret (B "NaN"%string) /\
  AppendFloat 64 true [] 0x3E10040000000000 103 (-1) 16 = Ret (B "3.05e-05"%string).
Proof. split; vm_compute; reflexivity. Qed.

(** Missing: numbers out of the range (C68_refuted). *)
Theorem C68_binary16_partial : forall x y s t u v, wf x -> wf y -> bval x = VNum s u -> bval y = VNum t v ->
  u = 0%R \/ (p2 (-24) <= Rabs u < p2 16)%R -> v = 0%R \/ (p2 (-24) <= Rabs v < p2 16)%R -> (u <= v)%R ->
  vle (ieee 10 5 (fst (Binary16.NewFromBig x))) (ieee 10 5 (fst (Binary16.NewFromBig y))).
Proof. exact c68_16. Qed.
Print Assumptions C68_binary16_partial.

(** Missing: as above. *)
Theorem C68_binary16_NewFromFloat64_partial : forall x y s t u v, 0 <= x < 2 ^ 64 -> 0 <= y < 2 ^ 64 -> ieee 52 11 x = VNum s u -> ieee 52 11 y = VNum t v ->
  u = 0%R \/ (p2 (-24) <= Rabs u)%R /\ (Rabs (rnd_prec BigFloat.ToNearestEven 11 u) < p2 16)%R ->
  v = 0%R \/ (p2 (-24) <= Rabs v)%R /\ (Rabs (rnd_prec BigFloat.ToNearestEven 11 v) < p2 16)%R -> (u <= v)%R ->
  exists b a b' a', Binary16.NewFromFloat64 x = Ret (b, a) /\ Binary16.NewFromFloat64 y = Ret (b', a') /\
    vle (ieee 10 5 b) (ieee 10 5 b').
Proof. exact c68_16_64. Qed.
Print Assumptions C68_binary16_NewFromFloat64_partial.

(** Missing: as above. *)
Theorem C68_binary128_partial : forall x y s t u v, wf x -> wf y -> bval x = VNum s u -> bval y = VNum t v ->
  u = 0%R \/ (p2 (-16494) <= Rabs u < p2 16384)%R -> v = 0%R \/ (p2 (-16494) <= Rabs v < p2 16384)%R -> (u <= v)%R ->
  exists f a g b, Binary128.NewFromBig x = Ret (f, a) /\ Binary128.NewFromBig y = Ret (g, b) /\
    vle (quad (Binary128.fa f) (Binary128.fb f)) (quad (Binary128.fa g) (Binary128.fb g)).
Proof. exact c68_128. Qed.
Print Assumptions C68_binary128_partial.

(** Missing: as above. *)
Theorem C68_float80x86_partial : forall x y s t u v, wf x -> wf y -> bval x = VNum s u -> bval y = VNum t v ->
  u = 0%R \/ (p2 (-16445) <= Rabs u < p2 16384)%R -> v = 0%R \/ (p2 (-16445) <= Rabs v < p2 16384)%R -> (u <= v)%R ->
  let f := fst (Float80x86.NewFromBig x) in let g := fst (Float80x86.NewFromBig y) in
  vle (x87 (Float80x86.se f) (Float80x86.m f)) (x87 (Float80x86.se g) (Float80x86.m g)).
Proof. exact c68_80. Qed.
Print Assumptions C68_float80x86_partial.

(** Missing: numbers whose high part is infinite. *)
Theorem C68_float128ppc_partial : forall x y s t u v, wf x -> wf y -> rmode x = rmode y -> bval x = VNum s u -> bval y = VNum t v ->
  (Rabs (rn 52 11 (rnd_prec (rmode x) 106 u)) < p2 1024)%R -> (Rabs (rn 52 11 (rnd_prec (rmode y) 106 v)) < p2 1024)%R ->
  (u <= v)%R ->
  exists f a x' g b y' s1 h s2 l t1 h' t2 l', Float128ppc.NewFromBig x = Ret (f, a, x') /\ Float128ppc.NewFromBig y = Ret (g, b, y') /\
    ieee 52 11 (high f) = VNum s1 h /\ ieee 52 11 (low f) = VNum s2 l /\
    ieee 52 11 (high g) = VNum t1 h' /\ ieee 52 11 (low g) = VNum t2 l' /\ (h <= h' /\ h + l <= h' + l')%R.
Proof. exact c68_ppc. Qed.
Print Assumptions C68_float128ppc_partial.

Example C68_float128ppc_example : Float128ppc.NewFromBig (three (-16)) =
    Ret (Float128ppc.NewFromBits 0x3F08000000000000 0, BigFloat.Exact, BigFloat.SetPrec (three (-16)) 106) /\
  Float128ppc.NewFromBig (three (-15)) =
    Ret (Float128ppc.NewFromBits 0x3F18000000000000 0, BigFloat.Exact, BigFloat.SetPrec (three (-15)) 106).
Proof. split; vm_compute; reflexivity. Qed.

(** 2^15 is less than 2^17, which becomes 0. *)
Theorem C68_refuted : exists x y, wf x /\ wf y /\ bval x = VNum false (IZR 1 * p2 15) /\ bval y = VNum false (IZR 1 * p2 17) /\
  ~ vle (ieee 10 5 (fst (Binary16.NewFromBig x))) (ieee 10 5 (fst (Binary16.NewFromBig y))).
Proof. exact c68_refuted. Qed.
Print Assumptions C68_refuted.

(** Float64 and Float32 of binary128 keep the order. *)
Theorem C69_binary128 : forall f g, 0 <= Binary128.fa f < 2 ^ 64 -> 0 <= Binary128.fb f < 2 ^ 64 ->
  0 <= Binary128.fa g < 2 ^ 64 -> 0 <= Binary128.fb g < 2 ^ 64 ->
  vle (quad (Binary128.fa f) (Binary128.fb f)) (quad (Binary128.fa g) (Binary128.fb g)) ->
  (exists d a d' a', Binary128.Float64 f = Ret (d, a) /\ Binary128.Float64 g = Ret (d', a') /\ vle (ieee 52 11 d) (ieee 52 11 d')) /\
  (exists d a d' a', Binary128.Float32 f = Ret (d, a) /\ Binary128.Float32 g = Ret (d', a') /\ vle (ieee 23 8 d) (ieee 23 8 d')).
Proof. exact c69_128. Qed.
Print Assumptions C69_binary128.

(** 1 and 1 + 2^-112 *)
Example C69_example : vle (quad 0x3FFF000000000000 0) (quad 0x3FFF000000000000 1).
Proof. exact ex_quad. Qed.

(** Float64 and Float32 of float80x86 keep the order. *)
Theorem C69_float80x86 : forall f g, 0 <= Float80x86.se f < 2 ^ 16 -> 0 <= Float80x86.m f < 2 ^ 64 ->
  0 <= Float80x86.se g < 2 ^ 16 -> 0 <= Float80x86.m g < 2 ^ 64 ->
  vle (x87 (Float80x86.se f) (Float80x86.m f)) (x87 (Float80x86.se g) (Float80x86.m g)) ->
  (exists d a d' a', Float80x86.Float64 f = Ret (d, a) /\ Float80x86.Float64 g = Ret (d', a') /\ vle (ieee 52 11 d) (ieee 52 11 d')) /\
  (exists d a d' a', Float80x86.Float32 f = Ret (d, a) /\ Float80x86.Float32 g = Ret (d', a') /\ vle (ieee 23 8 d) (ieee 23 8 d')).
Proof. exact c69_80. Qed.
Print Assumptions C69_float80x86.

(** Float64 and Float32 of float128ppc keep the order of the sums. *)
Theorem C69_float128ppc : forall a b a' b' s1 v1 s2 v2 t1 w1 t2 w2,
  0 <= a < 2 ^ 64 -> 0 <= b < 2 ^ 64 -> 0 <= a' < 2 ^ 64 -> 0 <= b' < 2 ^ 64 ->
  ieee 52 11 a = VNum s1 v1 -> ieee 52 11 b = VNum s2 v2 -> ieee 52 11 a' = VNum t1 w1 -> ieee 52 11 b' = VNum t2 w2 ->
  (v1 + v2 <= w1 + w2)%R ->
  (exists d e d' e', Float128ppc.Float64 (Float128ppc.NewFromBits a b) = Ret (d, e) /\
     Float128ppc.Float64 (Float128ppc.NewFromBits a' b') = Ret (d', e') /\ vle (ieee 52 11 d) (ieee 52 11 d')) /\
  (exists d e d' e', Float128ppc.Float32 (Float128ppc.NewFromBits a b) = Ret (d, e) /\
     Float128ppc.Float32 (Float128ppc.NewFromBits a' b') = Ret (d', e') /\ vle (ieee 23 8 d) (ieee 23 8 d')).
Proof. exact c69_ppc. Qed.
Print Assumptions C69_float128ppc.

(** Missing: sums of more than 106 bits (C70_refuted; what happens to them: C70_float128ppc_all). *)
Theorem C70_float128ppc_partial : forall a b s1 v1 s2 v2, 0 <= a < 2 ^ 64 -> 0 <= b < 2 ^ 64 ->
  ieee 52 11 a = VNum s1 v1 -> ieee 52 11 b = VNum s2 v2 ->
  (exists K c, (v1 + v2 = IZR K * p2 c)%R /\ Z.abs K < 2 ^ 106) ->
  let f := Float128ppc.NewFromBits a b in let v := (v1 + v2)%R in
  exists t d ad g ag, Float128ppc.Float64 f = Ret (d, ad) /\ ieee 52 11 d = ieee_round 52 11 t v /\ acc_ok ad (ieee 52 11 d) v /\
    Float128ppc.Float32 f = Ret (g, ag) /\ ieee 23 8 g = ieee_round 23 8 t v /\ acc_ok ag (ieee 23 8 g) v /\
    sign_ok t v /\ (v = 0%R -> t = s1) /\ (rn 52 11 v = v1 -> d = a).
Proof. exact c70_partial. Qed.
Print Assumptions C70_float128ppc_partial.

(** Double rounding: the high part of a normalised pair is its nearest float64, but Float64 returns its
    neighbour. *)
Theorem C70_float128ppc_refuted : exists a b v1 v2 d, 0 <= a < 2 ^ 64 /\ 0 <= b < 2 ^ 64 /\
  ieee 52 11 a = VNum false v1 /\ ieee 52 11 b = VNum false v2 /\ rn 52 11 (v1 + v2) = v1 /\
  Float128ppc.Float64 (Float128ppc.NewFromBits a b) = Ret (d, BigFloat.Above) /\ d <> a.
Proof. exact c70_refuted. Qed.
Print Assumptions C70_float128ppc_refuted.

(** Every pair of finite numbers: the sum is rounded to 106 bits and the result is rounded again; the accuracy
    compares with the sum rounded once. *)
Theorem C70_float128ppc_all : forall a b s1 v1 s2 v2, 0 <= a < 2 ^ 64 -> 0 <= b < 2 ^ 64 ->
  ieee 52 11 a = VNum s1 v1 -> ieee 52 11 b = VNum s2 v2 ->
  let f := Float128ppc.NewFromBits a b in let v := (v1 + v2)%R in
  let y := rnd_prec BigFloat.ToNearestEven 106 v in
  exists t d ad g ag, Float128ppc.Float64 f = Ret (d, ad) /\ 0 <= d < 2 ^ 64 /\ ieee 52 11 d = ieee_round 52 11 t y /\ acc_ok ad (ieee 52 11 d) y /\
    Float128ppc.Float32 f = Ret (g, ag) /\ 0 <= g < 2 ^ 32 /\ ieee 23 8 g = ieee_round 23 8 t y /\ acc_ok ag (ieee 23 8 g) y /\
    sign_ok t v /\ (v = 0%R -> t = s1).
Proof. exact ppc_floats. Qed.
Print Assumptions C70_float128ppc_all.
