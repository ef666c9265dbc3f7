(** The lines of Go source that binary16/gen.go and binary128/gen.go print, from which the tables of
    GenTests.v are compiled. *)
From Coq Require Import ZArith String List Bool.
From Verif Require Import GoBase BigFloat GoFmt GenTests.
From Verif Require Ftoa.
Import ListNotations.
Open Scope Z_scope.

(** %0<w>X of an unsigned integer: binary16/gen.go:74,109,112, binary128/gen.go:127-135,178-186. *)
Definition fmt_X (w n : Z) : bytes :=
  let ds := map (fun d => if d <? 10 then 48 + d else 55 + d) (digits_of 16 n) in
  repeat 48 (Z.to_nat (w - Z.of_nat (length ds))) ++ ds.

(** %v of a float64 is strconv.AppendFloat with 'g', -1 and 64 (binary16/gen.go:74,112,
    binary128/gen.go:135,186).  The strconv of the standard library is modelled by Ftoa.v, the model of its
    copy in internal/strconv. *)
Definition fmt_v (x : Z) : outcome bytes := Ftoa.FormatFloat 64 true x 103 (-1) 64.

(** %v of a big.Accuracy (binary128/gen.go:127-135,178-186). *)
Definition fmt_acc (a : accuracy) : bytes :=
  match a with Below => B "Below" | Exact => B "Exact" | Above => B "Above" end.

(** %q of a text of printable ASCII without quotes and backslashes (binary128/gen.go:127-135,178-186). *)
Definition fmt_q (s : bytes) : bytes := [34] ++ s ++ [34].

(** binary16/gen.go:61-75 and 94-115; lead, expo as in [gen16].  Lines 107-110 are in the second loop
    only; in the first exp >= 1, so that bits is not 0x8000. *)
Definition line16 (lead signbit exp expo mant : Z) : outcome bytes :=
  let s := B "+" ++ B "0b" ++ fmt_d lead ++ B "." ++ fmt_b 10 mant ++ B "p0" in
  m <- ParseFloat s 53 ;;
  let '(mantissa, acc) := Float64 m in
  if negb (accuracy_eqb acc Exact) then Panic
  else
    p <- f64_mul (pow_m1 signbit) (pow_2 expo) ;;
    want <- f64_mul p mantissa ;;
    let bits := u16 (Z.shiftl (u16 signbit) 15) in
    let bits := Z.lor bits (u16 (Z.shiftl (u16 exp) 10)) in
    let bits := Z.lor bits (u16 mant) in
    if bits =? 0x8000 then
      Ret (B "{bits: 0x" ++ fmt_X 4 bits ++ B ", want: math.Copysign(0, -1)}, // " ++ s)
    else
      v <- fmt_v want ;;
      Ret (B "{bits: 0x" ++ fmt_X 4 bits ++ B ", want: " ++ v ++ B "}, // " ++ s).

(** binary16/gen.go:49-80 *)
Definition linesNormalized16 : outcome (list bytes) :=
  collect (flat_map (fun signbit => flat_map (fun exp => map (fun mant =>
    line16 1 signbit exp (exp - 15) mant) (range 0 0x3FF)) (range 1 0x1E)) (range 0 1)).

(** binary16/gen.go:82-118 *)
Definition linesDenormalized16 : outcome (list bytes) :=
  collect (flat_map (fun signbit => map (fun mant =>
    line16 0 signbit 0 (0 - 15 + 1) mant) (range 0 0x3FF)) (range 0 1)).

(** binary128/gen.go:107-137 and 157-188; lead, exponent as in [gen128]; [text] is Text('g', 35). *)
Definition line128 (text : bigfloat -> bytes) (lead signbit exp exponent ma mb : Z) : outcome bytes :=
  let sign := if signbit =? 1 then B "-" else B "+" in
  let mant := fmt_b 48 ma ++ fmt_b 64 mb in
  let s := sign ++ B "0b" ++ fmt_d lead ++ B "." ++ mant ++ B "p" ++ fmt_d exponent in
  m <- ParseFloat s 113 ;;
  let want := text m in
  let '(want64, acc64) := Float64 m in
  let a := u64 (Z.shiftl (u64 signbit) 63) in
  let a := Z.lor a (u64 (Z.shiftl (u64 exp) 48)) in
  let a := Z.lor a ma in
  let b := mb in
  lit <- (if want64 =? 2 ^ 63 then Ret (B "math.Copysign(0, -1)")
          else if want64 =? 0x7FF0000000000000 then Ret (B "math.Inf(+1)")
          else if want64 =? 0xFFF0000000000000 then Ret (B "math.Inf(-1)")
          else fmt_v want64) ;;
  Ret (B "{a: 0x" ++ fmt_X 16 a ++ B ", b: 0x" ++ fmt_X 16 b ++ B ", want: " ++ fmt_q want ++ B ", want64: " ++ lit
       ++ B ", acc64: big." ++ fmt_acc acc64 ++ B "}, // " ++ s).

(** binary128/gen.go:93-142 *)
Definition linesNormalized128 (text : bigfloat -> bytes) (exps : list Z) (mants : list (Z * Z)) : outcome (list bytes) :=
  collect (flat_map (fun signbit => flat_map (fun exp => map (fun mant =>
    line128 text 1 signbit exp (exp - 16383) (fst mant) (snd mant)) mants) exps) (range 0 1)).

(** binary128/gen.go:144-192 *)
Definition linesDenormalized128 (text : bigfloat -> bytes) (mants : list (Z * Z)) : outcome (list bytes) :=
  collect (flat_map (fun signbit => map (fun mant =>
    line128 text 0 signbit 0 (0 - 16383 + 1) (fst mant) (snd mant)) mants) (range 0 1)).
