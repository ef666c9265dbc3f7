(** Specification: what changing the sign of an argument means.  Independent of the models'
    functions. *)
From Coq Require Import ZArith Reals Bool.
From Verif Require Import Spec.
From Verif Require BigFloat Binary16 GoBase.
Open Scope Z_scope.

(** The bit pattern of [n] bits with the first bit inverted. *)
Definition flip (n b : Z) : Z := (b + 2 ^ (n - 1)) mod 2 ^ n.

(** The same big.Float with the other sign. *)
Definition opp (x : BigFloat.bigfloat) : BigFloat.bigfloat :=
  BigFloat.mkBF (BigFloat.prec x) (BigFloat.rmode x) (BigFloat.acc x) (negb (BigFloat.neg x)) (BigFloat.frm x).

(** The accuracy of the negated result of a symmetric operation. *)
Definition opp_acc (a : BigFloat.accuracy) : BigFloat.accuracy :=
  match a with
  | BigFloat.Below => BigFloat.Above
  | BigFloat.Exact => BigFloat.Exact
  | BigFloat.Above => BigFloat.Below
  end.

(** The negation of a big.Float that is the result of a symmetric operation. *)
Definition opp_big (x : BigFloat.bigfloat) : BigFloat.bigfloat :=
  BigFloat.mkBF (BigFloat.prec x) (BigFloat.rmode x) (opp_acc (BigFloat.acc x)) (negb (BigFloat.neg x)) (BigFloat.frm x).

(** The rounding modes that treat both signs alike. *)
Definition symmetric (m : BigFloat.mode) : Prop := m <> BigFloat.ToNegativeInf /\ m <> BigFloat.ToPositiveInf.

(** Rounding -x in the mode [mirror m] is rounding x in the mode [m]. *)
Definition mirror (m : BigFloat.mode) : BigFloat.mode :=
  match m with
  | BigFloat.ToNegativeInf => BigFloat.ToPositiveInf
  | BigFloat.ToPositiveInf => BigFloat.ToNegativeInf
  | _ => m
  end.

(** The negation of a value. *)
Definition vopp (v : fval) : fval :=
  match v with
  | VNaN s => VNaN (negb s)
  | VInf s => VInf (negb s)
  | VNum s r => VNum (negb s) (- r)%R
  end.

(** What the conversion of the float64 [f] to [n] bits yields before it is printed: float32
    rounds to nearest even, float16 is what the library's own conversion makes of it. *)
Definition converted (f n : Z) (v : fval) : Prop :=
  n = 64 /\ v = ieee 52 11 f \/
  n = 32 /\ v = match ieee 52 11 f with VNum s x => ieee_round 23 8 s x | u => u end \/
  n = 16 /\ exists b a, Binary16.NewFromFloat64 f = GoBase.Ret (b, a) /\ v = ieee 10 5 b.
