(** The programs binary16/gen.go and binary128/gen.go, which print test tables, and the tests of
    extra_test.tmpl that run over these tables.

    The tables are lists of the values that the compiled literals denote: Go's %v prints the shortest
    text that reads back as the same float64, and a literal has no sign of zero. *)
From Coq Require Import ZArith String List Bool.
From Verif Require Import GoBase BigFloat GoFmt.
From Verif Require Binary16 Binary128.
Import ListNotations.
Open Scope Z_scope.

(** The values of a loop variable: [for i := lo; i <= hi; i++], binary16/gen.go:57-60,90,93. *)
Definition range (lo hi : Z) : list Z := map (fun i => lo + Z.of_nat i) (seq 0 (Z.to_nat (hi - lo + 1))).

(** The body of a loop appends one entry or panics: binary16/gen.go:75,114, binary128/gen.go:137,188. *)
Fixpoint collect {A : Type} (l : list (outcome A)) : outcome (list A) :=
  match l with
  | [] => Ret []
  | x :: t => y <- x ;; r <- collect t ;; Ret (y :: r)
  end.

(** The float64 product of two finite float64s: the exact product rounded to nearest even
    (binary16/gen.go:70,103).  Infinities and NaNs do not occur and panic here. *)
Definition f64_mul (a b : Z) : outcome Z :=
  x <- SetFloat 52 11 a ;;
  y <- SetFloat 52 11 b ;;
  let s := xorb (neg x) (neg y) in
  match frm x, frm y with
  | Finite m e, Finite m' e' => Ret (fst (ToFloat 52 11 (mkBF 106 ToNearestEven Exact s (Finite (m * m') (e + e')))))
  | Inf, _ | _, Inf => Panic
  | _, _ => Ret (with_sign 52 11 s 0)
  end.

(** math.Pow(-1, float64(signbit)), signbit 0 or 1 (binary16/gen.go:70,103). *)
Definition pow_m1 (signbit : Z) : Z := if signbit =? 0 then 0x3FF0000000000000 else 0xBFF0000000000000.

(** math.Pow(2, n), n an integer with -1022 <= n <= 1023 (binary16/gen.go:70,103). *)
Definition pow_2 (n : Z) : Z := (n + 1023) * 2 ^ 52.

(** The float64 that the text %v of a finite float64 denotes as a Go literal
    (binary16/gen.go:74,112, binary128/gen.go:135,186). *)
Definition literal (x : Z) : Z := if x =? 2 ^ 63 then 0 else x.

(** big.ParseFloat(s, 0, prec, big.ToNearestEven) (binary16/gen.go:62,95, binary128/gen.go:112,163). *)
Definition ParseFloat (s : bytes) (p : Z) : outcome bigfloat :=
  match Parse (mkBF p ToNearestEven Exact false Zero) s with
  | Some x => Ret x
  | None => Panic
  end.

(** ** binary16/gen.go *)

(** binary16/gen.go:61-75 with lead 1 and expo = exp-bias; 94-115 with lead 0, exp = 0 and
    expo = exp-bias+1.  The special case of line 107 cannot apply when exp >= 1. *)
Definition gen16 (lead signbit exp expo mant : Z) : outcome (Z * Z) :=
  m <- ParseFloat (B "+" ++ B "0b" ++ fmt_d lead ++ B "." ++ fmt_b 10 mant ++ B "p0") 53 ;;
  let '(mantissa, acc) := Float64 m in
  if negb (accuracy_eqb acc Exact) then Panic
  else
    p <- f64_mul (pow_m1 signbit) (pow_2 expo) ;;
    want <- f64_mul p mantissa ;;
    let bits := u16 (Z.shiftl (u16 signbit) 15) in
    let bits := Z.lor bits (u16 (Z.shiftl (u16 exp) 10)) in
    let bits := Z.lor bits (u16 mant) in
    Ret (bits, if bits =? 0x8000 then 2 ^ 63 else literal want).

(** binary16/gen.go:49-80 *)
Definition getNormalized16 : outcome (list (Z * Z)) :=
  collect (flat_map (fun signbit => flat_map (fun exp => map (fun mant =>
    gen16 1 signbit exp (exp - 15) mant) (range 0 0x3FF)) (range 1 0x1E)) (range 0 1)).

(** binary16/gen.go:82-118 *)
Definition getDenormalized16 : outcome (list (Z * Z)) :=
  collect (flat_map (fun signbit => map (fun mant =>
    gen16 0 signbit 0 (0 - 15 + 1) mant) (range 0 0x3FF)) (range 0 1)).

(** binary16/extra_test.tmpl:11-19,23-31: no error for this entry *)
Definition test16_bits (g : Z * Z) : outcome bool :=
  '(got, _) <- Binary16.Float64 (Binary16.NewFromBits (fst g)) ;;
  Ret (snd g =? got).

(** binary16/extra_test.tmpl:35-43,58-66 *)
Definition test16_float32 (g : Z * Z) : outcome bool :=
  '(f, _) <- Binary16.NewFromFloat32 (f64_to_f32 (snd g)) ;;
  Ret (fst g =? Binary16.Bits f).

(** binary16/extra_test.tmpl:47-54,70-77 *)
Definition test16_float64 (g : Z * Z) : outcome bool :=
  '(f, _) <- Binary16.NewFromFloat64 (snd g) ;;
  Ret (fst g =? Binary16.Bits f).

(** ** binary128/gen.go *)

(** An entry of the table: binary128/extra_test.tmpl:125-130. *)
Record golden : Type := mkGolden { ga : Z; gb : Z; gwant : bytes; gwant64 : Z; gacc64 : accuracy }.

(** binary128/gen.go:107-137 with lead 1 and exponent = exp-bias; 157-188 with lead 0, exp = 0 and
    exponent = exp-bias+1.  [text] is Text('g', 35).  The switch: lines 123-136, 174-187. *)
Definition gen128 (text : bigfloat -> bytes) (lead signbit exp exponent ma mb : Z) : outcome golden :=
  let sign := if signbit =? 1 then B "-" else B "+" in
  let mant := fmt_b 48 ma ++ fmt_b 64 mb in
  m <- ParseFloat (sign ++ B "0b" ++ fmt_d lead ++ B "." ++ mant ++ B "p" ++ fmt_d exponent) 113 ;;
  let '(want64, acc64) := Float64 m in
  let a := u64 (Z.shiftl (u64 signbit) 63) in
  let a := Z.lor a (u64 (Z.shiftl (u64 exp) 48)) in
  let a := Z.lor a ma in
  Ret (mkGolden a mb (text m)
        (if want64 =? 2 ^ 63 then 2 ^ 63
         else if f_isinf 52 11 want64 then want64
         else literal want64) acc64).

(** binary128/gen.go:93-142 *)
Definition getNormalized128 (text : bigfloat -> bytes) (exps : list Z) (mants : list (Z * Z)) : outcome (list golden) :=
  collect (flat_map (fun signbit => flat_map (fun exp => map (fun mant =>
    gen128 text 1 signbit exp (exp - 16383) (fst mant) (snd mant)) mants) exps) (range 0 1)).

(** binary128/gen.go:144-192 *)
Definition getDenormalized128 (text : bigfloat -> bytes) (mants : list (Z * Z)) : outcome (list golden) :=
  collect (flat_map (fun signbit => map (fun mant =>
    gen128 text 0 signbit 0 (0 - 16383 + 1) (fst mant) (snd mant)) mants) (range 0 1)).

(** x == y on floats (binary128/extra_test.tmpl:88,98,109,119). *)
Definition f_eq (mb eb x y : Z) : bool :=
  negb (f_isnan mb eb x) && negb (f_isnan mb eb y) &&
  ((x =? y) || ((x mod 2 ^ (mb + eb) =? 0) && (y mod 2 ^ (mb + eb) =? 0))).

(** binary128/extra_test.tmpl:21-39: the text, the float64 and its accuracy *)
Definition test128_bits (text : bigfloat -> bytes) (g : golden) : outcome bool :=
  '(got, _) <- Binary128.Big (Binary128.NewFromBits (ga g) (gb g)) ;;
  '(got64, acc64) <- Binary128.Float64 (Binary128.NewFromBits (ga g) (gb g)) ;;
  Ret ((if list_eq_dec Z.eq_dec (gwant g) (text got) then true else false) &&
       (gwant64 g =? got64) && accuracy_eqb (gacc64 g) acc64).

(** The switch of binary128/extra_test.tmpl:43-59 and 63-79. *)
Definition acc_valid (a : accuracy) (got want : bigfloat) : bool :=
  match a with
  | Below => Cmp got want =? -1
  | Exact => Cmp got want =? 0
  | Above => Cmp got want =? 1
  end.

(** binary128/extra_test.tmpl:41-79.  [reread] is big.NewFloat(0).SetPrec(113).SetString(s). *)
Definition test128_acc (reread : bytes -> bigfloat) (g : golden) : outcome bool :=
  let wantBig := reread (gwant g) in
  '(got64, acc64) <- Binary128.Float64 (Binary128.NewFromBits (ga g) (gb g)) ;;
  got64Big <- NewFloat got64 ;;
  '(got32, acc32) <- Binary128.Float32 (Binary128.NewFromBits (ga g) (gb g)) ;;
  got32Big <- NewFloat (f32_to_f64 got32) ;;
  Ret (acc_valid acc64 got64Big wantBig && acc_valid acc32 got32Big wantBig).

(** binary128/extra_test.tmpl:84-91,105-112 *)
Definition test128_float32 (g : golden) : outcome bool :=
  let want32 := f64_to_f32 (gwant64 g) in
  '(f, _) <- Binary128.NewFromFloat32 want32 ;;
  '(got32, _) <- Binary128.Float32 f ;;
  Ret (f_eq 23 8 want32 got32).

(** binary128/extra_test.tmpl:95-101,116-122 *)
Definition test128_float64 (g : golden) : outcome bool :=
  '(f, _) <- Binary128.NewFromFloat64 (gwant64 g) ;;
  '(got64, _) <- Binary128.Float64 f ;;
  Ret (f_eq 52 11 (gwant64 g) got64).
