(** C06, C07, C15, C21 and C27: for which numbers outside of the ranges of the formats the
    accuracy is true; the _iff theorems of Prop_More.v say it for those inside.

    [acc_ok a r v] says that the accuracy [a] is true of the result [r] of rounding [v] (Spec.v).
    Huge numbers become a number nearer to 0, an infinity or a NaN, tiny ones 0 or a number of
    which the least is greater than they are. *)
From Coq Require Import ZArith Reals Lia Lra.
From Verif Require Import GoBase Spec.
From Verif Require BigFloat Binary16 Binary128 Float80x86 Float128ppc.
From Verif Require Import ClaimsAcc.
Import BigFloat (rmode).
Open Scope Z_scope.

(** binary16.NewFromBig: of a huge number that became a number the accuracy is true exactly if the
    number is positive and has more than 11 bits or is negative and has not. *)
Theorem C07_binary16_accuracy_outside : forall x s v, wf x -> bval x = VNum s v ->
  let few := exists K c, v = (IZR K * p2 c)%R /\ Z.abs K < 2 ^ 11 in
  let '(b, a) := Binary16.NewFromBig x in
  ((p2 16 <= Rabs v)%R -> (acc_ok a (ieee 10 5 b) v <-> match ieee 10 5 b with
    | VNum _ _ => few <-> s = true
    | VInf _ => (few <-> s = false) /\ (few -> (p2 17 <= Rabs v)%R)
    | VNaN _ => False
    end)) /\
  ((0 < Rabs v < p2 (-24))%R -> exists r, ieee 10 5 b = VNum s r /\ (acc_ok a (ieee 10 5 b) v <-> (r = 0%R <-> s = false))).
Proof. exact c07_outside. Qed.
Print Assumptions C07_binary16_accuracy_outside.

(** The numbers 2^16, 2^17, -2^17, 2^17 + 2^-3, 2^48, 5*2^-27 and
    2^-28 + 2^-40. *)
Example C07_outside_example :
  (forall s m e, 0 < m < 2 ^ 120 -> -1000000 < e < 1000000 -> wf (number s m e) /\ bval (number s m e) = VNum s (sgnR s (IZR m * p2 e))) /\
  Binary16.NewFromBig (number false 1 16) = (0x7C00, BigFloat.Exact) /\
  Binary16.NewFromBig (number false 1 17) = (0, BigFloat.Above) /\
  Binary16.NewFromBig (number true 1 17) = (0x8000, BigFloat.Above) /\
  Binary16.NewFromBig (number false (2 ^ 20 + 1) (-3)) = (0, BigFloat.Below) /\
  Binary16.NewFromBig (number false 1 48) = (0x7C00, BigFloat.Above) /\
  Binary16.NewFromBig (number false 5 (-27)) = (0, BigFloat.Below) /\
  Binary16.NewFromBig (number false (2 ^ 12 + 1) (-40)) = (0x80, BigFloat.Below).
Proof. split; [exact acc_example|]. repeat split; vm_compute; reflexivity. Qed.

(** binary16.NewFromFloat64, which rounds to 11 bits before. *)
Theorem C06_binary16_accuracy_outside : forall x s v, 0 <= x < 2 ^ 64 -> ieee 52 11 x = VNum s v ->
  let r := rnd_prec BigFloat.ToNearestEven 11 v in
  exists b a, Binary16.NewFromFloat64 x = Ret (b, a) /\
  ((p2 17 <= Rabs r)%R -> (acc_ok a (ieee 10 5 b) v <-> match ieee 10 5 b with
    | VNum _ _ => s = true
    | VInf _ => s = false
    | VNaN _ => False
    end)) /\
  ((0 < Rabs v < p2 (-24))%R -> exists y, ieee 10 5 b = VNum s y /\
    (acc_ok a (ieee 10 5 b) v <-> (y = 0%R <-> s = false) /\ (Rabs r < p2 (-24))%R)).
Proof. exact c06_outside. Qed.
Print Assumptions C06_binary16_accuracy_outside.

(** 2^17, -2^17, 2^-25 and the float below 2^-24, which is rounded to 2^-24. *)
Example C06_outside_example :
  Binary16.NewFromFloat64 0x4100000000000000 = Ret (0, BigFloat.Above) /\
  Binary16.NewFromFloat64 0xC100000000000000 = Ret (0x8000, BigFloat.Above) /\
  Binary16.NewFromFloat64 0x3E60000000000000 = Ret (0, BigFloat.Below) /\
  Binary16.NewFromFloat64 0x3E6FFFFFFFFFFFFF = Ret (1, BigFloat.Exact).
Proof. repeat split; vm_compute; reflexivity. Qed.

(** binary128.NewFromBig *)
Theorem C15_binary128_accuracy_outside : forall x s v, wf x -> bval x = VNum s v ->
  let few := exists K c, v = (IZR K * p2 c)%R /\ Z.abs K < 2 ^ 113 in
  exists f a, Binary128.NewFromBig x = Ret (f, a) /\
  let q := quad (Binary128.fa f) (Binary128.fb f) in
  ((p2 16384 <= Rabs v)%R -> (acc_ok a q v <-> match q with
    | VNum _ _ => few <-> s = true
    | VInf _ => (few <-> s = false) /\ (few -> (p2 16385 <= Rabs v)%R)
    | VNaN _ => False
    end)) /\
  ((0 < Rabs v < p2 (-16494))%R -> exists r, q = VNum s r /\ (acc_ok a q v <-> (r = 0%R <-> s = false))).
Proof. exact c15_outside. Qed.
Print Assumptions C15_binary128_accuracy_outside.

Example C15_outside_example :
  Binary128.NewFromBig (number true 1 16384) = Ret (Binary128.mkFloat 0xFFFF000000000000 0, BigFloat.Exact) /\
  Binary128.NewFromBig (number true 3 16385) = Ret (Binary128.mkFloat 0x8001800000000000 0, BigFloat.Above) /\
  Binary128.NewFromBig (number false (2 ^ 114 + 1) 16385) = Ret (Binary128.mkFloat 0x0072000000000000 0, BigFloat.Below) /\
  Binary128.NewFromBig (number true 3 (-16500)) = Ret (Binary128.mkFloat 0x8000000000000000 0, BigFloat.Below).
Proof. repeat split; vm_compute; reflexivity. Qed.

(** float80x86.NewFromBig: of tiny numbers the accuracy is true if they are negative. *)
Theorem C21_float80x86_accuracy_outside : forall x s v, wf x -> bval x = VNum s v ->
  let few := exists K c, v = (IZR K * p2 c)%R /\ Z.abs K < 2 ^ 64 in
  let '(f, a) := Float80x86.NewFromBig x in
  let q := x87 (Float80x86.se f) (Float80x86.m f) in
  ((p2 16384 <= Rabs v)%R -> (acc_ok a q v <-> match q with
    | VNum _ _ => few <-> s = true
    | VInf _ => (few <-> s = false) /\ (few -> (p2 16385 <= Rabs v)%R)
    | VNaN _ => False
    end)) /\
  ((0 < Rabs v < p2 (-16445))%R -> (acc_ok a q v <-> s = true)).
Proof. exact c21_outside. Qed.
Print Assumptions C21_float80x86_accuracy_outside.

Example C21_outside_example :
  Float80x86.NewFromBig (number true 3 16385) = (Float80x86.mkFloat 0x8001 0xC000000000000000, BigFloat.Above) /\
  Float80x86.NewFromBig (number false (2 ^ 65 + 1) 16385) = (Float80x86.mkFloat 0x0041 0x8000000000000000, BigFloat.Below) /\
  Float80x86.NewFromBig (number true 1 (-16446)) = (Float80x86.mkFloat 0x8000 0x7FFFFFFFFFFFFFFF, BigFloat.Below).
Proof. repeat split; vm_compute; reflexivity. Qed.

(** float128ppc.NewFromBig: its accuracy, always Exact, is true exactly of the numbers of at most 106
    bits that are a multiple of 2^-1074. *)
Theorem C27_float128ppc_accuracy_exactly : forall x s v, wf x -> bval x = VNum s v ->
  (Rabs (rn 52 11 (rnd_prec (rmode x) 106 v)) < p2 1024)%R ->
  exists h l x' s1 v1 s2 v2, Float128ppc.NewFromBig x = Ret (Float128ppc.mkFloat h l, BigFloat.Exact, x') /\
    ieee 52 11 h = VNum s1 v1 /\ ieee 52 11 l = VNum s2 v2 /\
    (acc_ok BigFloat.Exact (VNum s (v1 + v2)) v <->
     (exists K c, v = (IZR K * p2 c)%R /\ Z.abs K < 2 ^ 106) /\ (exists K, v = (IZR K * p2 (-1074))%R)).
Proof. exact c27_exactly. Qed.
Print Assumptions C27_float128ppc_accuracy_exactly.

(** 1 + 2^-105, which is exact, and 1 + 2^-106, which is not. *)
Example C27_exactly_example :
  (exists x', Float128ppc.NewFromBig (number false (2 ^ 105 + 1) (-105)) = Ret (Float128ppc.mkFloat 0x3FF0000000000000 0x3960000000000000, BigFloat.Exact, x')) /\
  (exists x', Float128ppc.NewFromBig (number false (2 ^ 106 + 1) (-106)) = Ret (Float128ppc.mkFloat 0x3FF0000000000000 0, BigFloat.Exact, x')).
Proof. split; eexists; vm_compute; reflexivity. Qed.
