(** NewFromBig of binary16, binary128 and float80x86 at the level of pointers.

    The other models pass big.Floats by value.  Here *big.Float values are addresses in a
    store, [new] and big.NewFloat allocate, and every method with a pointer receiver
    overwrites its receiver.  This is what property C29 is about.
    big.Int values (binary128.go:133-144, 165-180) are fresh and stay values. *)
From Coq Require Import ZArith List Bool.
From Verif Require Import GoBase BigFloat.
From Verif Require Binary16 Binary128 Float80x86.
Open Scope Z_scope.

(** The store of *big.Float: the next free address and the contents.
    (Go memory model for binary16.go:87-162, binary128.go:88-186, float80x86.go:97-183.) *)
Record store := mkStore { next : nat; cell : nat -> bigfloat }.

(** A statement sequence of the three functions above: store in, result and store out. *)
Definition M (A : Type) : Type := store -> outcome (A * store).

(** Sequencing of the statements of binary16.go:87-162, binary128.go:88-186,
    float80x86.go:97-183. *)
Definition ret {A} (a : A) : M A := fun h => Ret (a, h).
(** Sequencing: binary16.go:87-162, binary128.go:88-186, float80x86.go:97-183. *)
Definition mbind {A B} (x : M A) (f : A -> M B) : M B :=
  fun h => match x h with Ret (a, h') => f a h' | Panic => Panic end.
Notation "x <~ e ;; k" := (mbind e (fun x => k))
  (at level 61, e at next level, right associativity).

(** new(big.Float), big.NewFloat(0): binary16.go:89,115; binary128.go:90,116; float80x86.go:99,138. *)
Definition alloc (v : bigfloat) : M nat :=
  fun h => Ret (next h, mkStore (S (next h)) (fun p => if Nat.eqb p (next h) then v else cell h p)).
(** Reading through a pointer: the arguments and value methods of the same lines. *)
Definition load (p : nat) : M bigfloat := fun h => Ret (cell h p, h).
(** Overwriting a receiver: binary16.go:128-130, 146-148 and alike. *)
Definition store_at (p : nat) (v : bigfloat) : M unit :=
  fun h => Ret (tt, mkStore (next h) (fun q => if Nat.eqb q p then v else cell h q)).

(** The zero value of big.Float: new(big.Float) in binary16.go:115. *)
Definition zero_value : bigfloat := mkBF 0 ToNearestEven Exact false Zero.

(** x.MantExp(mant) (math/big, used in binary16.go:116): copies *x into *mant and returns x's exponent. *)
Definition p_MantExp (x mant : nat) : M Z :=
  vx <~ load x ;; _ <~ store_at mant (fst (MantExp vx)) ;; ret (snd (MantExp vx)).
(** mant.SetMantExp(mant, exp): binary16.go:128, 148. *)
Definition p_SetMantExp (z : nat) (exp : Z) : M unit :=
  v <~ load z ;; store_at z (SetMantExpSelf v exp).
(** if mant.Signbit() { mant.Neg(mant) }: binary16.go:129-131, 145-147. *)
Definition p_make_positive (z : nat) : M unit :=
  v <~ load z ;; if Signbit v then store_at z (NegSelf v) else ret tt.
(** z.SetPrec(p): binary128.go:90, 116. *)
Definition p_SetPrec (z : nat) (p : Z) : M unit :=
  v <~ load z ;; store_at z (SetPrec v p).

(** binary16.go:87-162 *)
Definition NewFromBig16 (x : nat) : M (Binary16.Float * accuracy) :=
  zero <~ alloc NewFloat0 ;;
  vx <~ load x ;; vzero <~ load zero ;;
  if IsInf vx then
    ret (if Signbit vx then (Binary16.NegInf, Exact) else (Binary16.Inf, Exact))
  else if Cmp vx vzero =? 0 then
    ret (if Signbit vx then (Binary16.NegZero, Exact) else (Binary16.Zero, Exact))
  else
    let bits := if Signbit vx then Z.lor 0 0x8000 else 0 in
    mant <~ alloc zero_value ;;
    exponent <~ p_MantExp x mant ;;
    let exp := exponent - 1 + Binary16.bias in
    if exp <=? 0 then
      let '(exp, acc) := if exp <=? - (Binary16.precision - 1) then (Binary16.precision - 1, Below) else (exp, Exact) in
      _ <~ p_SetMantExp mant (exp + Binary16.precision - 1) ;;
      _ <~ p_make_positive mant ;;
      v <~ load mant ;;
      let '(mantissa, _) := Uint64 v in
      ret (Z.lor bits (u16 (Z.land mantissa 0x7FF)), acc)
    else
      let acc := if negb (andnot exp 0x1F =? 0) then Above else Exact in
      let bits := Z.lor bits (u16 (Z.shiftl (u16 (Z.land exp 0x1F)) 10)) in
      _ <~ p_make_positive mant ;;
      _ <~ p_SetMantExp mant Binary16.precision ;;
      v <~ load mant ;;
      let acc := if negb (IsInt v) then Below else acc in
      let '(mantissa, _) := Uint64 v in
      let mantissa := andnot mantissa 0x400 in
      let acc := if accuracy_eqb acc Exact && negb (andnot mantissa 0x7FF =? 0) then Below else acc in
      let mantissa := Z.land mantissa 0x7FF in
      ret (Z.lor bits (u16 mantissa), acc).

(** float80x86.go:97-183 *)
Definition NewFromBig80 (x : nat) : M (Float80x86.Float * accuracy) :=
  zero <~ alloc NewFloat0 ;;
  vx <~ load x ;; vzero <~ load zero ;;
  if IsInf vx then
    ret (if Signbit vx then (Float80x86.NegInf, Exact) else (Float80x86.Inf, Exact))
  else if Cmp vx vzero =? 0 then
    ret (if Signbit vx then (Float80x86.NegZero, Exact) else (Float80x86.Zero, Exact))
  else
    let se := if Signbit vx then Z.lor 0 0x8000 else 0 in
    mant <~ alloc zero_value ;;
    exponent <~ p_MantExp x mant ;;
    let exp := exponent - 1 + Float80x86.bias in
    if exp <=? 0 then
      let '(exp, acc) := if exp <=? - (Float80x86.precision - 1) then (Float80x86.precision - 1, Below) else (exp, Exact) in
      _ <~ p_SetMantExp mant (exp + Float80x86.precision - 1) ;;
      _ <~ p_make_positive mant ;;
      v <~ load mant ;;
      let '(v, _) := Uint64 v in
      ret (Float80x86.mkFloat se (Z.lor 0 (Z.land v 0x7FFFFFFFFFFFFFFF)), acc)
    else
      let acc := if negb (andnot exp 0x7FFF =? 0) then Above else Exact in
      let se := Z.lor se (u16 (Z.land exp 0x7FFF)) in
      _ <~ p_make_positive mant ;;
      _ <~ p_SetMantExp mant Float80x86.precision ;;
      v <~ load mant ;;
      let acc := if negb (IsInt v) then Below else acc in
      let '(mantissa, acc2) := Uint64 v in
      let acc := if accuracy_eqb acc Exact then acc2 else acc in
      ret (Float80x86.mkFloat se (Z.lor 0 mantissa), acc).

(** binary128.go:88-186 *)
Definition NewFromBig128 (x : nat) : M (Binary128.Float * accuracy) :=
  zero <~ alloc NewFloat0 ;;
  _ <~ p_SetPrec zero Binary128.precision ;;
  vx <~ load x ;; vzero <~ load zero ;;
  if IsInf vx then
    ret (if Signbit vx then (Binary128.NegInf, Exact) else (Binary128.Inf, Exact))
  else if Cmp vx vzero =? 0 then
    ret (if Signbit vx then (Binary128.NegZero, Exact) else (Binary128.Zero, Exact))
  else
    let a := if Signbit vx then Z.lor 0 0x8000000000000000 else 0 in
    mant <~ alloc zero_value ;;
    _ <~ p_SetPrec mant Binary128.precision ;;
    exponent <~ p_MantExp x mant ;;
    let exp := exponent - 1 + Binary128.bias in
    if exp <=? 0 then
      let '(exp, acc) := if exp <=? - (Binary128.precision - 1) then (Binary128.precision - 1, Below) else (exp, Exact) in
      _ <~ p_SetMantExp mant (exp + Binary128.precision - 1) ;;
      _ <~ p_make_positive mant ;;
      v <~ load mant ;;
      match Int v with
      | None => fun _ => Panic
      | Some mantissa =>
          let bigA := Z.shiftr (Z.land mantissa Binary128.maskA) 64 in
          let bigB := Z.land mantissa Binary128.maskB in
          ret (Binary128.mkFloat (Z.lor a (Z.land (u64 bigA) 0x0000FFFFFFFFFFFF)) (u64 bigB), acc)
      end
    else
      let acc := if negb (andnot exp 0x7FFF =? 0) then Above else Exact in
      let a := Z.lor a (u64 (Z.shiftl (Z.land exp 0x7FFF) 48)) in
      _ <~ p_make_positive mant ;;
      _ <~ p_SetMantExp mant Binary128.precision ;;
      v <~ load mant ;;
      let acc := if negb (IsInt v) then Below else acc in
      match Int v with
      | None => fun _ => Panic
      | Some mantissa =>
          let mantissa := Z.clearbit mantissa 112 in
          let bigA := Z.shiftr (Z.land mantissa Binary128.maskA) 64 in
          let bigB := Z.land mantissa Binary128.maskB in
          let acc := if accuracy_eqb acc Exact && negb (andnot (u64 bigA) 0x0000FFFFFFFFFFFF =? 0) then Below else acc in
          ret (Binary128.mkFloat (Z.lor a (Z.land (u64 bigA) 0x0000FFFFFFFFFFFF)) (u64 bigB), acc)
      end.
