(** The specification vocabulary: what a bit pattern and a big.Float denote, what correct
    rounding is, and when an accuracy is truthful.  It uses the types of the model
    (accuracy, bigfloat) but none of its functions; rounding is Flocq's. *)
From Coq Require Import ZArith Reals Bool.
From Flocq Require Import Core.
From Verif Require BigFloat.
Open Scope Z_scope.

(** What a floating-point number denotes: [VNum s x] is the real [x]; the sign [s] is kept
    because of the two zeros. *)
Inductive fval :=
| VNaN (s : bool)
| VInf (s : bool)
| VNum (s : bool) (x : R).

(** (-1)^s * x *)
Definition sgnR (s : bool) (x : R) : R := if s then (- x)%R else x.

Definition p2 (e : Z) : R := bpow radix2 e.

(** The IEEE 754 interchange format with [mb] fraction bits and [eb] exponent bits
    (IEEE 754-2008, 3.4), for the pattern [b] of 1 + eb + mb bits. *)
Definition ieee (mb eb b : Z) : fval :=
  let s := Z.odd (b / 2 ^ (mb + eb)) in
  let E := (b / 2 ^ mb) mod 2 ^ eb in
  let F := b mod 2 ^ mb in
  let bias := 2 ^ (eb - 1) - 1 in
  if E =? 2 ^ eb - 1 then (if F =? 0 then VInf s else VNaN s)
  else if E =? 0 then VNum s (sgnR s (IZR F * p2 (1 - bias - mb)))
  else VNum s (sgnR s (IZR (2 ^ mb + F) * p2 (E - bias - mb))).

(** The x87 80-bit extended format: sign and exponent [se] (16 bits), significand [m]
    (64 bits with an explicit integer bit). *)
Definition x87 (se m : Z) : fval :=
  let s := Z.odd (se / 2 ^ 15) in
  let E := se mod 2 ^ 15 in
  if E =? 2 ^ 15 - 1 then (if m =? 2 ^ 63 then VInf s else VNaN s)
  else VNum s (sgnR s (IZR m * p2 (Z.max E 1 - 16383 - 63))).

(** The number a big.Float stands for. *)
Definition bval (x : BigFloat.bigfloat) : fval :=
  match BigFloat.frm x with
  | BigFloat.Zero => VNum (BigFloat.neg x) 0
  | BigFloat.Inf => VInf (BigFloat.neg x)
  | BigFloat.Finite m e => VNum (BigFloat.neg x) (sgnR (BigFloat.neg x) (IZR m * p2 e))
  end.

(** Well-formed big.Floats: a positive mantissa whose significant bits fit into the
    precision (the mantissa is m'*2^j with m' < 2^prec), an exponent in Go's range.  Zeros
    and infinities may have precision 0, as the zero value of big.Float does. *)
Definition wf (x : BigFloat.bigfloat) : Prop :=
  0 <= BigFloat.prec x <= BigFloat.MaxPrec /\
  match BigFloat.frm x with
  | BigFloat.Finite m e =>
      0 < m /\
      (exists m' j, m = m' * 2 ^ j /\ 0 <= j /\ m' < 2 ^ BigFloat.prec x) /\
      BigFloat.MinExp <= BigFloat.gexp m e <= BigFloat.MaxExp
  | _ => True
  end.

(** Nearest, ties to even, in the format with [mb] fraction and [eb] exponent bits, were
    its exponent range unbounded above (gradual underflow included). *)
Definition rn (mb eb : Z) (x : R) : R :=
  round radix2 (FLT_exp (3 - 2 ^ (eb - 1) - (mb + 1)) (mb + 1)) ZnearestE x.

(** IEEE 754 roundTiesToEven of the real [x] whose sign is [s]. *)
Definition ieee_round (mb eb : Z) (s : bool) (x : R) : fval :=
  if Rle_bool (p2 (2 ^ (eb - 1))) (Rabs (rn mb eb x)) then VInf s else VNum s (rn mb eb x).

(** The accuracy [a] tells the truth about the result [r] of rounding [x]. *)
Definition acc_ok (a : BigFloat.accuracy) (r : fval) (x : R) : Prop :=
  match a with
  | BigFloat.Exact => match r with VNum _ y => y = x | _ => False end
  | BigFloat.Below =>
      match r with VNum _ y => (y < x)%R | VInf s => s = true | VNaN _ => False end
  | BigFloat.Above =>
      match r with VNum _ y => (x < y)%R | VInf s => s = false | VNaN _ => False end
  end.

(** Rounding of a real to an integer for each of big.Float's modes. *)
Definition mode_rnd (md : BigFloat.mode) : R -> Z :=
  match md with
  | BigFloat.ToNearestEven => ZnearestE
  | BigFloat.ToNearestAway => ZnearestA
  | BigFloat.ToZero => Ztrunc
  | BigFloat.AwayFromZero => Zaway
  | BigFloat.ToNegativeInf => Zfloor
  | BigFloat.ToPositiveInf => Zceil
  end.

(** Rounding to [p] significant bits, unbounded exponent. *)
Definition rnd_prec (md : BigFloat.mode) (p : Z) (x : R) : R :=
  round radix2 (FLX_exp p) (mode_rnd md) x.

(** Truncation towards zero in the format with [mb] fraction and [eb] exponent bits, were
    its exponent range unbounded above. *)
Definition rz (mb eb : Z) (x : R) : R :=
  round radix2 (FLT_exp (3 - 2 ^ (eb - 1) - (mb + 1)) (mb + 1)) Ztrunc x.

(** Numbers of the format: at most mb+1 bits, exponent at least the least, no overflow. *)
Definition fits (mb eb : Z) (v : R) : Prop :=
  (exists M c, v = (IZR M * p2 c)%R /\ Z.abs M < 2 ^ (mb + 1) /\ 2 - 2 ^ (eb - 1) - mb <= c) /\
  (Rabs v < p2 (2 ^ (eb - 1)))%R.

(** A binary128 number given as its upper and lower 64 bits. *)
Definition quad (a b : Z) : fval := ieee 112 15 (a * 2 ^ 64 + b).
