(** What binary128/gen.go and its tests use of math/big besides BigFloat.v: Text('g', p) and
    SetString on decimal numbers. *)
From Coq Require Import ZArith String List Bool.
From Verif Require Import GoBase BigFloat GoFmt.
From Verif Require ExtFloat Ftoa.
Import ListNotations.
Open Scope Z_scope.

(** Without the zeros at the end (decimal.round of math/big, binary128/gen.go:116). *)
Fixpoint no_zeros (fuel : nat) (n e : Z) : Z * Z :=
  match fuel with
  | O => (n, e)
  | S fuel => if n mod 10 =? 0 then no_zeros fuel (n / 10) (e + 1) else (n, e)
  end.

(** x.Text('g', p), p > 0: Append, fmtE and fmtF of math/big/ftoa.go (binary128/gen.go:116,167,
    extra_test.tmpl:23).  Its fmtF is that of internal/strconv/ftoa.go:399-429. *)
Definition Text_g (x : bigfloat) (p : Z) : bytes :=
  let out ds dp :=
    let nd := Z.of_nat (length ds) in
    let eprec := if (nd <? p) && (dp <=? nd) then nd else p in
    let ex := dp - 1 in
    if (ex <? -4) || (eprec <=? ex) then
      (if neg x then B "-" else []) ++ map digit_byte (firstn 1 ds) ++ (if 1 <? nd then B "." else [])
        ++ map digit_byte (skipn 1 ds) ++ B "e" ++ (if ex <? 0 then B "-" else B "+")
        ++ (if Z.abs ex <? 10 then B "0" else []) ++ fmt_d (Z.abs ex)
    else Ftoa.fmtF [] (neg x) (ExtFloat.mkSlice ds nd dp false) (Z.max ((if dp <? p then nd else p) - dp) 0) in
  match frm x with
  | Inf => (if neg x then B "-" else B "+") ++ B "Inf"
  | Zero => out [] 0
  | Finite m e =>
      let '(n, e10) := to_dec m e in
      let '(q, qe) := dec_round p n e10 in
      let '(q, qe) := no_zeros (Z.to_nat p) q qe in
      out (digits_of 10 q) (ndigits q + qe)
  end.

(** z.Mul(x, y) for finite x, y that are not zero (inside SetString, extra_test.tmpl:41). *)
Definition Mul (z x y : bigfloat) : bigfloat :=
  match frm x, frm y with
  | Finite m1 e1, Finite m2 e2 =>
      setExpAndRound (mkBF (prec z) (rmode z) (acc z) (xorb (neg x) (neg y)) Zero) (m1 * m2) (e1 + e2)
  | _, _ => z
  end.

(** z.Quo(x, y), likewise: more bits than z keeps, and a bit for the rest (inside SetString,
    extra_test.tmpl:41). *)
Definition Quo (z x y : bigfloat) : bigfloat :=
  match frm x, frm y with
  | Finite m1 e1, Finite m2 e2 =>
      let s := Z.max 0 (prec z + 2 + bitlen m2 - bitlen m1) in
      let n := m1 * 2 ^ s in
      let q := n / m2 in
      let sticky := if n mod m2 =? 0 then 0 else 1 in
      setExpAndRound (mkBF (prec z) (rmode z) (acc z) (xorb (neg x) (neg y)) Zero) (2 * q + sticky) (e1 - e2 - s - 1)
  | _, _ => z
  end.

(** The loop of Float.pow5 of math/big (inside SetString, extra_test.tmpl:41). *)
Fixpoint pow5_loop (fuel : nat) (n : Z) (z f : bigfloat) : bigfloat :=
  if n <=? 0 then z
  else match fuel with
       | O => z
       | S fuel => pow5_loop fuel (n / 2) (if Z.odd n then Mul z z f else z) (Mul f f f)
       end.

(** z.pow5(n) for a new z of precision [p] (inside SetString, extra_test.tmpl:41). *)
Definition pow5 (p n : Z) : bigfloat :=
  let nat_ p m := round (mkBF p ToNearestEven Exact false (Finite m 0)) in
  if n <=? 27 then nat_ p (5 ^ n)
  else pow5_loop 64 (n - 27) (nat_ p (5 ^ 27)) (nat_ (p + 64) 5).

(** The digits before and after the point: their number, and how many of them follow the point
    (-1 before it) (inside SetString, extra_test.tmpl:41). *)
Fixpoint scan_digits (s : bytes) (v cnt frac : Z) : Z * Z * Z * bytes :=
  match s with
  | 46 :: t => if frac <? 0 then scan_digits t v cnt 0 else (v, cnt, frac, s)
  | c :: t =>
      if (48 <=? c) && (c <=? 57) then scan_digits t (10 * v + (c - 48)) (cnt + 1) (if frac <? 0 then -1 else frac + 1)
      else (v, cnt, frac, s)
  | [] => (v, cnt, frac, s)
  end.

(** The decimal exponent (inside SetString, extra_test.tmpl:41). *)
Definition scan_exp10 (s : bytes) : option Z :=
  match s with
  | [] => Some 0
  | 101 :: t =>
      let '(ng, t) := scan_sign t in
      match t with
      | [] => None
      | _ => match scan_dec t 0 with Some v => Some (if ng then - v else v) | None => None end
      end
  | _ => None
  end.

(** big.NewFloat(0).SetPrec(p).SetString(s) for decimal numbers (extra_test.tmpl:41): the mantissa exactly,
    times or divided by a power of five of p+64 bits; nil for other texts. *)
Definition SetString (p : Z) (s : bytes) : option bigfloat :=
  let '(ng, s) := scan_sign s in
  let '(v, cnt, frac, s) := scan_digits s 0 0 (-1) in
  if cnt =? 0 then None
  else match scan_exp10 s with
       | None => None
       | Some ex =>
           let k := ex - (if frac <? 0 then 0 else frac) in
           let z := mkBF p ToNearestEven Exact ng (if v =? 0 then Zero else Finite v k) in
           if v =? 0 then Some z
           else if k =? 0 then Some (round z)
           else if k <? 0 then Some (Quo z z (pow5 (p + 64) (- k)))
           else Some (Mul z z (pow5 (p + 64) k))
       end.

(** extra_test.tmpl:41; nil is not returned for the texts of [Text_g]. *)
Definition reread (s : bytes) : bigfloat :=
  match SetString 113 s with Some x => x | None => NewFloat0 end.
