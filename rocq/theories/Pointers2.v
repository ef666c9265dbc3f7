(** The other functions that take or return a *big.Float at the level of pointers: Big of all
    five packages, what calls it, NewFromBig of float128ppc, and IsExact16/32/64.  See Pointers.v.

    Methods with a pointer receiver overwrite it; the functions below name every big.Float that
    the code allocates.  What math/big allocates inside a method and drops is left out. *)
From Coq Require Import ZArith String List Bool.
From Verif Require Import GoBase BigFloat GoFmt Pointers.
From Verif Require Binary16 Binary128 Float80x86 Float128ppc Bfloat FloatPkg.
Import ListNotations.
Open Scope Z_scope.

(** big.NewFloat(x): panics on NaN.  float128ppc.go:108, 161, 162; binary16.go:78. *)
Definition p_NewFloat (x : Z) : M nat :=
  match NewFloat x with Ret v => alloc v | Panic => fun _ => Panic end.
(** z.SetMode(m), z.SetInf(b), z.Neg(z): binary16.go:209, 226, 231 and alike. *)
Definition p_SetMode (z : nat) (md : mode) : M unit := v <~ load z ;; store_at z (SetMode v md).
(** z.SetInf(b): binary16.go:226 and alike. *)
Definition p_SetInf (z : nat) (sb : bool) : M unit := v <~ load z ;; store_at z (SetInf v sb).
(** z.Neg(z): binary16.go:231 and alike. *)
Definition p_NegSelf (z : nat) : M unit := v <~ load z ;; store_at z (NegSelf v).
(** x.Parse(s, 0) and the panic if it fails: binary16.go:256-258 and alike. *)
Definition p_Parse (z : nat) (s : bytes) : M unit :=
  v <~ load z ;; match Parse v s with Some v' => store_at z v' | None => fun _ => Panic end.
(** z.Add(x, y), z.Sub(x, y): float128ppc.go:112, 117, 163. *)
Definition p_Add (z x y : nat) : M unit :=
  vz <~ load z ;; vx <~ load x ;; vy <~ load y ;;
  match Add vz vx vy with Ret v => store_at z v | Panic => fun _ => Panic end.
(** z.Sub(x, y): float128ppc.go:112. *)
Definition p_Sub (z x y : nat) : M unit :=
  vz <~ load z ;; vx <~ load x ;; vy <~ load y ;;
  match Sub vz vx vy with Ret v => store_at z v | Panic => fun _ => Panic end.

(** big.NewFloat(0), SetPrec(precision), SetMode(big.ToNearestEven): binary16.go:207-209,
    binary128.go:231-233, float80x86.go:227-229, bfloat.go:34-36, float128ppc.go:155-157. *)
Definition p_start (p : Z) : M nat :=
  x <~ alloc NewFloat0 ;; _ <~ p_SetPrec x p ;; _ <~ p_SetMode x ToNearestEven ;; ret x.

(** binary16.go:203-260 *)
Definition Big16 (f : Binary16.Float) : M (nat * bool) :=
  let signbit := Binary16.Signbit f in
  let exp := Binary16.Exp f in
  let frac := Binary16.Frac f in
  x <~ p_start Binary16.precision ;;
  let text lead exponent :=
    let sign := if signbit then B "-" else B "+" in
    let s := sign ++ B "0b" ++ fmt_d lead ++ B "." ++ fmt_b 10 frac ++ B "p" ++ fmt_d exponent in
    _ <~ p_Parse x s ;; ret (x, false) in
  if exp =? 0x1F then
    (if frac =? 0 then _ <~ p_SetInf x signbit ;; ret (x, false)
     else _ <~ (if signbit then p_NegSelf x else ret tt) ;; ret (x, true))
  else if exp =? 0x00 then
    (if frac =? 0 then _ <~ (if signbit then p_NegSelf x else ret tt) ;; ret (x, false)
     else text 0 (-14))
  else text 1 (exp - Binary16.bias).

(** bfloat.go:30-85 *)
Definition BigBf (f : Bfloat.Float) : M (nat * bool) :=
  let signbit := Bfloat.Signbit f in
  let exp := Bfloat.Exp f in
  let frac := Bfloat.Frac f in
  x <~ p_start Bfloat.precision ;;
  let text lead exponent :=
    let sign := if signbit then B "-" else B "+" in
    let s := sign ++ B "0b" ++ fmt_d lead ++ B "." ++ fmt_b 7 frac ++ B "p" ++ fmt_d exponent in
    _ <~ p_Parse x s ;; ret (x, false) in
  if exp =? 0xFF then
    (if frac =? 0 then _ <~ p_SetInf x signbit ;; ret (x, false)
     else _ <~ (if signbit then p_NegSelf x else ret tt) ;; ret (x, true))
  else if exp =? 0x00 then
    (if frac =? 0 then _ <~ (if signbit then p_NegSelf x else ret tt) ;; ret (x, false)
     else text 0 (-126))
  else text 1 (exp - Bfloat.bias).

(** float80x86.go:224-282 *)
Definition Big80 (f : Float80x86.Float) : M (nat * bool) :=
  let signbit := Float80x86.Signbit f in
  let exp := Float80x86.Exp f in
  x <~ p_start Float80x86.precision ;;
  let text exponent :=
    let sign := if signbit then B "-" else B "+" in
    let lead := Float80x86.Lead f in
    let frac := Float80x86.Frac f in
    let s := sign ++ B "0b" ++ fmt_d lead ++ B "." ++ fmt_b 63 frac ++ B "p" ++ fmt_d exponent in
    _ <~ p_Parse x s ;; ret (x, false) in
  if exp =? 0x7FFF then
    (if Float80x86.m f =? 0x8000000000000000 then _ <~ p_SetInf x signbit ;; ret (x, false)
     else _ <~ (if signbit then p_NegSelf x else ret tt) ;; ret (x, true))
  else if exp =? 0x0000 then
    (if Float80x86.m f =? 0 then _ <~ (if signbit then p_NegSelf x else ret tt) ;; ret (x, false)
     else text (-16382))
  else text (exp - Float80x86.bias).

(** binary128.go:227-280, on a 64-bit host *)
Definition Big128 (f : Binary128.Float) : M (nat * bool) :=
  let signbit := Binary128.Signbit f in
  let exp := Binary128.Exp_host 64 f in
  let '(frac1, frac2) := Binary128.Frac f in
  x <~ p_start Binary128.precision ;;
  let text lead exponent :=
    let sign := if signbit then B "-" else B "+" in
    let fracStr := fmt_b 48 frac1 ++ fmt_b 64 frac2 in
    let s := sign ++ B "0b" ++ fmt_d lead ++ B "." ++ fracStr ++ B "p" ++ fmt_d exponent in
    _ <~ p_Parse x s ;; ret (x, false) in
  if exp =? 0x7FFF then
    (if (frac1 =? 0) && (frac2 =? 0) then _ <~ p_SetInf x signbit ;; ret (x, false)
     else _ <~ (if signbit then p_NegSelf x else ret tt) ;; ret (x, true))
  else if exp =? 0x0000 then
    (if (frac1 =? 0) && (frac2 =? 0) then _ <~ (if signbit then p_NegSelf x else ret tt) ;; ret (x, false)
     else text 0 (-16382))
  else text 1 (exp - Binary128.bias).

(** float128ppc.go:154-174 *)
Definition BigPpc (f : Float128ppc.Float) : M (nat * bool) :=
  x <~ p_start Float128ppc.precision ;;
  if Float128ppc.IsNaN f then ret (x, true)
  else
    h <~ p_NewFloat (Float128ppc.high f) ;;
    _ <~ p_SetPrec h Float128ppc.precision ;;
    l <~ p_NewFloat (Float128ppc.low f) ;;
    _ <~ p_SetPrec l Float128ppc.precision ;;
    _ <~ p_Add x h l ;;
    zero <~ alloc NewFloat0 ;;
    _ <~ p_SetPrec zero Float128ppc.precision ;;
    vx <~ load x ;; vzero <~ load zero ;;
    _ <~ (if (Cmp vx vzero =? 0) && f_sign 52 11 (Float128ppc.high f) then
            (if negb (Signbit vx) then p_NegSelf x else ret tt)
          else ret tt) ;;
    ret (x, false).

(** float128ppc.go:82-121: *x itself is rounded in line 104. *)
Definition NewFromBigPpc (x : nat) : M (Float128ppc.Float * accuracy) :=
  zero <~ alloc NewFloat0 ;;
  _ <~ p_SetPrec zero Float128ppc.precision ;;
  vx <~ load x ;; vzero <~ load zero ;;
  if IsInf vx then
    ret (if Signbit vx then (Float128ppc.NegInf, Exact) else (Float128ppc.Inf, Exact))
  else if Cmp vx vzero =? 0 then
    ret (if Signbit vx then (Float128ppc.NegZero, Exact) else (Float128ppc.Zero, Exact))
  else
    _ <~ p_SetPrec x Float128ppc.precision ;;
    _ <~ p_SetMode x ToNearestEven ;;
    vx <~ load x ;;
    let '(high, _) := BigFloat.Float64 vx in
    h <~ p_NewFloat high ;;
    _ <~ p_SetPrec h Float128ppc.precision ;;
    _ <~ p_SetMode h ToNearestEven ;;
    l <~ p_start Float128ppc.precision ;;
    _ <~ p_Sub l x h ;;
    vl <~ load l ;;
    let '(low, _) := BigFloat.Float64 vl in
    result <~ p_start Float128ppc.precision ;;
    _ <~ p_Add result h l ;;
    vx <~ load x ;; vresult <~ load result ;;
    ret (Float128ppc.mkFloat high low, accuracy_of_int (Cmp vx vresult)).

(** binary16.go:190-199, binary128.go:214-223, float80x86.go:211-220, float128ppc.go:141-150, from
    their Big. *)
Definition p_Float64 (big : M (nat * bool)) : M (Z * accuracy) :=
  xn <~ big ;;
  let '(x, nan) := xn in
  v <~ load x ;;
  if (nan : bool) then ret (if Signbit v then (math_NegNaN, Exact) else (math_NaN, Exact))
  else ret (BigFloat.Float64 v).

(** binary16.go:174-183, binary128.go:198-207, float80x86.go:195-204, float128ppc.go:129-138. *)
Definition p_Float32 (big : M (nat * bool)) : M (Z * accuracy) :=
  xn <~ big ;;
  let '(x, nan) := xn in
  v <~ load x ;;
  if (nan : bool) then ret (if Signbit v then (f64_to_f32 math_NegNaN, Exact) else (f64_to_f32 math_NaN, Exact))
  else ret (BigFloat.Float32 v).

(** float.go:14-46: x is only read, by x.Float64(), x.Float32() and x.Text. *)
Definition p_IsExact16 (w : Z) (opt : bool) (x : nat) : M bool :=
  v <~ load x ;; match FloatPkg.IsExact16 w opt v with Ret b => ret b | Panic => fun _ => Panic end.
(** float.go:26-34 *)
Definition p_IsExact32 (w : Z) (opt : bool) (x : nat) : M bool :=
  v <~ load x ;; match FloatPkg.IsExact32 w opt v with Ret b => ret b | Panic => fun _ => Panic end.
(** float.go:38-46 *)
Definition p_IsExact64 (w : Z) (opt : bool) (x : nat) : M bool :=
  v <~ load x ;; match FloatPkg.IsExact64 w opt v with Ret b => ret b | Panic => fun _ => Panic end.
