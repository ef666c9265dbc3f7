(** Properties of package float128ppc (C23 to C28, and its share of C08 and C29).
    Every theorem is closed by a lemma of ClaimsPpc.v. *)
From Coq Require Import ZArith Reals Lia.
From Flocq Require Import Core.
From Verif Require Import GoBase.
From Verif Require BigFloat Float128ppc.
From Verif Require Import Spec ClaimsPpc.
Import BigFloat (prec, rmode, acc, neg, frm, Finite).
Import Float128ppc (mkFloat, high, low).
Open Scope Z_scope.

(** NaN exactly when a half is a NaN, and otherwise the sum rounded once at 106 bits. *)
Theorem C23_float128ppc_Big : forall a b, 0 <= a < 2 ^ 64 -> 0 <= b < 2 ^ 64 ->
  let f := Float128ppc.NewFromBits a b in
  match ieee 52 11 a, ieee 52 11 b with
  | VNaN _, _ | _, VNaN _ => exists x, Float128ppc.Big f = Ret (x, true)
  | VNum s v, VNum _ w =>
      exists x t, Float128ppc.Big f = Ret (x, false) /\ wf x /\ prec x = 106 /\
        rmode x = BigFloat.ToNearestEven /\
        bval x = VNum t (rnd_prec BigFloat.ToNearestEven 106 (v + w)) /\
        acc_ok (acc x) (bval x) (v + w) /\
        ((v + w < 0)%R -> t = true) /\ ((0 < v + w)%R -> t = false) /\ ((v + w = 0)%R -> t = s)
  | VInf s, VInf t =>
      s = t -> exists x, Float128ppc.Big f = Ret (x, false) /\ wf x /\ prec x = 106 /\ bval x = VInf s /\ acc x = BigFloat.Exact
  | VInf s, VNum _ _ | VNum _ _, VInf s =>
      exists x, Float128ppc.Big f = Ret (x, false) /\ wf x /\ prec x = 106 /\ bval x = VInf s /\ acc x = BigFloat.Exact
  end.
Proof. exact c23. Qed.
Print Assumptions C23_float128ppc_Big.

(** 1 + 2^-60 *)
Example C23_example : ieee 52 11 0x3FF0000000000000 = VNum false (IZR (2 ^ 52) * p2 (-52)) /\
  ieee 52 11 0x3C30000000000000 = VNum false (IZR (2 ^ 52) * p2 (-112)).
Proof. split; reflexivity. Qed.

(** (+Inf, -Inf) makes Big panic, and the finite number 2^1024 makes NewFromBig panic. *)
Theorem C24_float128ppc_no_panic_refuted : 
  (exists a b, 0 <= a < 2 ^ 64 /\ 0 <= b < 2 ^ 64 /\
     Float128ppc.Big (Float128ppc.NewFromBits a b) = Panic /\
     Float128ppc.Float64 (Float128ppc.NewFromBits a b) = Panic /\
     Float128ppc.Float32 (Float128ppc.NewFromBits a b) = Panic) /\
  (exists x, wf x /\ bval x = VNum false (p2 1024) /\ Float128ppc.NewFromBig x = Panic).
Proof. exact c24_refuted. Qed.
Print Assumptions C24_float128ppc_no_panic_refuted.

(** Exactly when each function panics. *)
Theorem C24_float128ppc_no_panic_partial : 
  (forall a b, 0 <= a < 2 ^ 64 -> 0 <= b < 2 ^ 64 ->
     let f := Float128ppc.NewFromBits a b in
     let opposite := exists s, ieee 52 11 a = VInf s /\ ieee 52 11 b = VInf (negb s) in
     (Float128ppc.Big f = Panic <-> opposite) /\
     (Float128ppc.Float64 f = Panic <-> opposite) /\ (Float128ppc.Float32 f = Panic <-> opposite)) /\
  (forall x, 0 <= x < 2 ^ 64 -> Float128ppc.NewFromFloat64 x <> Panic) /\
  (forall x, 0 <= x < 2 ^ 32 -> Float128ppc.NewFromFloat32 x <> Panic) /\
  (forall x, wf x -> Float128ppc.NewFromBig x = Panic <->
     exists s v, bval x = VNum s v /\ (p2 1024 <= Rabs (rn 52 11 (rnd_prec (rmode x) 106 v)))%R).
Proof. exact c24_partial. Qed.
Print Assumptions C24_float128ppc_no_panic_partial.

Example C24_example : wf (BigFloat.mkBF 53 BigFloat.ToNearestEven BigFloat.Exact true (Finite 3 1000)) /\
  Float128ppc.NewFromBig (BigFloat.mkBF 53 BigFloat.ToNearestEven BigFloat.Exact true (Finite 3 1000)) <> Panic.
Proof.
  split; [|vm_compute; discriminate]. unfold wf. cbn [prec frm]. split; [vm_compute; intuition congruence|].
  split; [lia|]. split; [exists 3, 0; repeat split; try lia; reflexivity|vm_compute; intuition congruence].
Qed.

(** [y] is x rounded to 106 bits in x's own mode (SetPrec); the high part is the float64
    nearest to [y], the low part the float64 nearest to the remainder. *)
Theorem C25_float128ppc_split : forall x s v, wf x -> bval x = VNum s v -> v <> 0%R ->
  let y := rnd_prec (rmode x) 106 v in
  (Rabs (rn 52 11 y) < p2 1024)%R ->
  exists h l a x' t, Float128ppc.NewFromBig x = Ret (mkFloat h l, a, x') /\
    0 <= h < 2 ^ 64 /\ 0 <= l < 2 ^ 64 /\
    ieee 52 11 h = ieee_round 52 11 s y /\ ieee 52 11 h = VNum s (rn 52 11 y) /\
    ieee 52 11 l = ieee_round 52 11 t (y - rn 52 11 y) /\ ieee 52 11 l = VNum t (rn 52 11 (y - rn 52 11 y)) /\
    (fits 52 11 (y - rn 52 11 y) -> (rn 52 11 y + rn 52 11 (y - rn 52 11 y) = y)%R) /\
    (Rabs (rn 52 11 (y - rn 52 11 y)) <= / 2 * ulp radix2 (FLT_exp (-1074) 53) (rn 52 11 y))%R.
Proof. exact c25. Qed.
Print Assumptions C25_float128ppc_split.

(** 1 + 2^-100 at precision 200 *)
Example C25_example :
  let x := BigFloat.mkBF 200 BigFloat.ToNearestEven BigFloat.Exact false (Finite (2 ^ 100 + 1) (-100)) in
  Float128ppc.NewFromBig x = Ret (mkFloat 0x3FF0000000000000 0x39B0000000000000, BigFloat.Exact,
    BigFloat.mkBF 106 BigFloat.ToNearestEven BigFloat.Exact false (Finite (2 ^ 100 + 1) (-100))).
Proof. vm_compute. reflexivity. Qed.

(** In C25, [y] is x itself when x has at most 106 bits. *)
Theorem C25_float128ppc_short : forall md K c, Z.abs K < 2 ^ 106 ->
  rnd_prec md 106 (IZR K * p2 c) = (IZR K * p2 c)%R.
Proof. exact c25_short. Qed.
Print Assumptions C25_float128ppc_short.

(** (1, 2^-1074) is a normalised pair; it comes back as (1, 0). *)
Theorem C26_float128ppc_roundtrip_refuted : exists a b s1 v1 s2 v2 x a' b' acc' x', 0 <= a < 2 ^ 64 /\ 0 <= b < 2 ^ 64 /\
  ieee 52 11 a = VNum s1 v1 /\ ieee 52 11 b = VNum s2 v2 /\ rn 52 11 (v1 + v2) = v1 /\ (0 < v2)%R /\
  Float128ppc.Big (Float128ppc.NewFromBits a b) = Ret (x, false) /\
  Float128ppc.NewFromBig x = Ret (mkFloat a' b', acc', x') /\ b' <> b.
Proof. exact c26_refuted. Qed.
Print Assumptions C26_float128ppc_roundtrip_refuted.

(** (1, -0) comes back as (1, +0). *)
Theorem C26_float128ppc_negative_zero_refuted : exists a b x a' b' acc' x', 0 <= a < 2 ^ 64 /\ 0 <= b < 2 ^ 64 /\
  ieee 52 11 a = VNum false (IZR (2 ^ 52) * p2 (-52)) /\ b = Float128ppc.math_NegZero /\
  Float128ppc.Big (Float128ppc.NewFromBits a b) = Ret (x, false) /\
  Float128ppc.NewFromBig x = Ret (mkFloat a' b', acc', x') /\ b' <> b.
Proof. exact c26_refuted_nz. Qed.
Print Assumptions C26_float128ppc_negative_zero_refuted.

(** What holds of C26: pairs whose sum has at most 106 bits and whose low half is not -0. *)
Theorem C26_float128ppc_roundtrip_partial : forall a b s1 v1 s2 v2, 0 <= a < 2 ^ 64 -> 0 <= b < 2 ^ 64 ->
  ieee 52 11 a = VNum s1 v1 -> ieee 52 11 b = VNum s2 v2 -> rn 52 11 (v1 + v2) = v1 ->
  (exists K c, (v1 + v2 = IZR K * p2 c)%R /\ Z.abs K < 2 ^ 106) -> b <> Float128ppc.math_NegZero ->
  exists x x', Float128ppc.Big (Float128ppc.NewFromBits a b) = Ret (x, false) /\
    Float128ppc.NewFromBig x = Ret (Float128ppc.NewFromBits a b, BigFloat.Exact, x').
Proof. exact c26_partial. Qed.
Print Assumptions C26_float128ppc_roundtrip_partial.

(** 1 and 2^-60 *)
Example C26_example : exists x x',
  Float128ppc.Big (Float128ppc.NewFromBits 0x3FF0000000000000 0x3C30000000000000) = Ret (x, false) /\
  Float128ppc.NewFromBig x = Ret (Float128ppc.NewFromBits 0x3FF0000000000000 0x3C30000000000000, BigFloat.Exact, x').
Proof. eexists _, _. split; [vm_compute; reflexivity|]. vm_compute. reflexivity. Qed.

(** 2^-1000 + 2^-1100 gives (2^-1000, 0) and Exact. *)
Theorem C27_float128ppc_accuracy_refuted : exists x s v h l a x' s1 v1 s2 v2, wf x /\ bval x = VNum s v /\
  Float128ppc.NewFromBig x = Ret (mkFloat h l, a, x') /\
  ieee 52 11 h = VNum s1 v1 /\ ieee 52 11 l = VNum s2 v2 /\
  ~ acc_ok a (VNum s (v1 + v2)) v.
Proof. exact c27_refuted. Qed.
Print Assumptions C27_float128ppc_accuracy_refuted.

(** What holds of C27: the accuracy is Exact whatever happens, so it is truthful exactly when
    the halves add up to x; they do when x has at most 106 bits and the remainder is a
    float64. *)
Theorem C27_float128ppc_accuracy_partial : forall x s v, wf x -> bval x = VNum s v ->
  (Rabs (rn 52 11 (rnd_prec (rmode x) 106 v)) < p2 1024)%R ->
  exists h l x' s1 v1 s2 v2, Float128ppc.NewFromBig x = Ret (mkFloat h l, BigFloat.Exact, x') /\
    ieee 52 11 h = VNum s1 v1 /\ ieee 52 11 l = VNum s2 v2 /\
    ((v1 + v2 = v)%R <-> acc_ok BigFloat.Exact (VNum s (v1 + v2)) v) /\
    ((exists K c, v = (IZR K * p2 c)%R /\ Z.abs K < 2 ^ 106) -> fits 52 11 (v - v1) -> (v1 + v2 = v)%R).
Proof. exact c27_partial. Qed.
Print Assumptions C27_float128ppc_accuracy_partial.

(** Missing from the full claim: a NaN that comes back keeps its sign, which is false. *)
Theorem C28_float128ppc_floats_partial : 
  (forall x, 0 <= x < 2 ^ 64 -> (forall s, ieee 52 11 x <> VNaN s) ->
     exists f, Float128ppc.NewFromFloat64 x = Ret (f, BigFloat.Exact) /\ Float128ppc.Bits f = (x, 0) /\
       Float128ppc.Float64 f = Ret (x, BigFloat.Exact)) /\
  (forall x, 0 <= x < 2 ^ 32 -> (forall s, ieee 23 8 x <> VNaN s) ->
     exists f y, Float128ppc.NewFromFloat32 x = Ret (f, BigFloat.Exact) /\ Float128ppc.Bits f = (y, 0) /\
       0 <= y < 2 ^ 64 /\ ieee 52 11 y = ieee 23 8 x /\ Float128ppc.Float32 f = Ret (x, BigFloat.Exact)) /\
  (forall x s, 0 <= x < 2 ^ 64 -> ieee 52 11 x = VNaN s ->
     exists f, Float128ppc.NewFromFloat64 x = Ret (f, BigFloat.Exact) /\ ieee 52 11 (high f) = VNaN s) /\
  (forall x s, 0 <= x < 2 ^ 32 -> ieee 23 8 x = VNaN s ->
     exists f, Float128ppc.NewFromFloat32 x = Ret (f, BigFloat.Exact) /\ ieee 52 11 (high f) = VNaN s).
Proof. exact c28. Qed.
Print Assumptions C28_float128ppc_floats_partial.

(** the smallest subnormal float64, negative *)
Example C28_example : (forall s, ieee 52 11 0x8000000000000001 <> VNaN s) /\
  Float128ppc.Float64 (mkFloat 0x8000000000000001 0) = Ret (0x8000000000000001, BigFloat.Exact).
Proof. split; [intros s; discriminate|vm_compute; reflexivity]. Qed.

(** A negative NaN comes back positive. *)
Theorem C28_float128ppc_nan_sign_refuted : exists x f y, 0 <= x < 2 ^ 64 /\ ieee 52 11 x = VNaN true /\
  Float128ppc.NewFromFloat64 x = Ret (f, BigFloat.Exact) /\
  Float128ppc.Float64 f = Ret (y, BigFloat.Exact) /\ ieee 52 11 y = VNaN false.
Proof. exact c28_refuted. Qed.
Print Assumptions C28_float128ppc_nan_sign_refuted.

(** The constant NegInf is +Inf, so NewFromBig sends -Inf to +Inf. *)
Theorem C08_float128ppc_special_refuted : 
  ieee 52 11 (high Float128ppc.NegInf) = VInf false /\
  (forall x, bval x = VInf true -> exists f x', Float128ppc.NewFromBig x = Ret (f, BigFloat.Exact, x') /\
     ieee 52 11 (high f) = VInf false).
Proof. exact c08_refuted. Qed.
Print Assumptions C08_float128ppc_special_refuted.

Example C08_float128ppc_example : bval (BigFloat.mkBF 53 BigFloat.ToNearestEven BigFloat.Exact true BigFloat.Inf) = VInf true.
Proof. reflexivity. Qed.

(** What holds of C08 in float128ppc. *)
Theorem C08_float128ppc_special_partial : 
  (forall x, bval x = VInf false -> Float128ppc.NewFromBig x = Ret (Float128ppc.Inf, BigFloat.Exact, x)) /\
  (forall x s, wf x -> bval x = VNum s 0 ->
     Float128ppc.NewFromBig x = Ret ((if s then Float128ppc.NegZero else Float128ppc.Zero), BigFloat.Exact, x)) /\
  (forall x s, 0 <= x < 2 ^ 64 -> ieee 52 11 x = VNaN s ->
     Float128ppc.NewFromFloat64 x = Ret ((if s then Float128ppc.NegNaN else Float128ppc.NaN), BigFloat.Exact)) /\
  (forall x s, 0 <= x < 2 ^ 32 -> ieee 23 8 x = VNaN s ->
     Float128ppc.NewFromFloat32 x = Ret ((if s then Float128ppc.NegNaN else Float128ppc.NaN), BigFloat.Exact)) /\
  (forall x, 0 <= x < 2 ^ 64 -> (forall s, ieee 52 11 x <> VNaN s) ->
     Float128ppc.NewFromFloat64 x = Ret (mkFloat x 0, BigFloat.Exact) /\
     exists b, Float128ppc.Big (mkFloat x 0) = Ret (b, false) /\ bval b = ieee 52 11 x).
Proof. exact c08_partial. Qed.
Print Assumptions C08_float128ppc_special_partial.

(** NewFromBig rounds its argument in place: 2^107 + 1 has become 2^107 in the caller's variable. *)
Theorem C29_float128ppc_argument_refuted : exists x f a x', wf x /\ Float128ppc.NewFromBig x = Ret (f, a, x') /\
  prec x' <> prec x /\ bval x' <> bval x.
Proof. exact c29_refuted. Qed.
Print Assumptions C29_float128ppc_argument_refuted.

(** What NewFromBig leaves in its argument. *)
Theorem C29_float128ppc_argument_partial : forall x f a x', wf x -> Float128ppc.NewFromBig x = Ret (f, a, x') ->
  match bval x with
  | VNum s v => v <> 0%R -> prec x' = 106 /\ rmode x' = BigFloat.ToNearestEven /\ acc x' = BigFloat.Exact /\
                  bval x' = VNum s (rnd_prec (rmode x) 106 v)
  | _ => x' = x
  end /\
  (bval x = VNum (neg x) 0 -> x' = x).
Proof. exact c29_partial. Qed.
Print Assumptions C29_float128ppc_argument_partial.

Example C29_float128ppc_example :
  exists f a, Float128ppc.NewFromBig (BigFloat.mkBF 53 BigFloat.ToZero BigFloat.Exact false (Finite 3 0)) =
    Ret (f, a, BigFloat.mkBF 106 BigFloat.ToNearestEven BigFloat.Exact false (Finite 3 0)).
Proof. eexists _, _. vm_compute. reflexivity. Qed.
