(** The fmt.Sprintf verbs and the big.Float.Parse grammar that mewmew/float uses.

    Both are external to /repo and part of the trusted base.  The lines cited are those of
    /repo that call the function modelled. *)
From Coq Require Import ZArith String List Bool.
From Verif Require Import GoBase BigFloat.
Import ListNotations.
Open Scope Z_scope.

(** Digits of [n >= 0] in [base], least significant first, at least one digit (inside Sprintf,
    binary16.go:255). *)
Fixpoint digits_rev (fuel : nat) (base n : Z) : list Z :=
  match fuel with
  | O => []
  | S f => if n <? base then [n] else n mod base :: digits_rev f base (n / base)
  end.
(** The same, most significant first (inside Sprintf, binary16.go:255). *)
Definition digits_of (base n : Z) : list Z :=
  rev (digits_rev (Z.to_nat (Z.log2 n + 1)) base n).

(** The byte of a digit (inside Sprintf, binary16.go:255). *)
Definition digit_byte (d : Z) : Z := if d <? 10 then 48 + d else 87 + d.

(** %d of an int: binary16.go:255, binary128.go:275, float80x86.go:277, bfloat.go:80. *)
Definition fmt_d (n : Z) : bytes :=
  if n <? 0 then 45 :: map digit_byte (digits_of 10 (- n))
  else map digit_byte (digits_of 10 n).

(** %0<w>b of an unsigned integer: binary16.go:255, binary128.go:274, float80x86.go:277,
    bfloat.go:80. *)
Definition fmt_b (w : Z) (n : Z) : bytes :=
  let ds := map digit_byte (digits_of 2 n) in
  repeat 48 (Z.to_nat (w - Z.of_nat (length ds))) ++ ds.

(** ** big.Float.Parse(s, 0)

    number = [ sign ] "0b" mantissa [ "p" exponent ].  Only this part of the grammar is
    modelled (other prefixes and exponent markers are not produced by mewmew/float and are
    rejected here); [None] is an error, upon which mewmew/float panics. *)

(** scanSign (inside Parse, binary16.go:256) *)
Definition scan_sign (s : bytes) : bool * bytes :=
  match s with
  | 45 :: t => (true, t)
  | 43 :: t => (false, t)
  | _ => (false, s)
  end.

(** nat.scan for base 2 with a radix point allowed: value, digit count, number of digits
    after the point (-1 if there is no point yet), and the rest of the input (inside Parse,
    binary16.go:256). *)
Fixpoint scan_bits (s : bytes) (v cnt frac : Z) : Z * Z * Z * bytes :=
  match s with
  | c :: t =>
      if (c =? 48) || (c =? 49) then
        scan_bits t (2 * v + (c - 48)) (cnt + 1) (if frac <? 0 then frac else frac + 1)
      else if (c =? 46) && (frac <? 0) then scan_bits t v cnt 0
      else (v, cnt, frac, s)
  | [] => (v, cnt, frac, s)
  end.

(** The decimal digits of the exponent, to the end of the input (inside Parse, binary16.go:256). *)
Fixpoint scan_dec (s : bytes) (v : Z) : option Z :=
  match s with
  | [] => Some v
  | c :: t => if (48 <=? c) && (c <=? 57) then scan_dec t (10 * v + (c - 48)) else None
  end.

(** scanExponent, to the end of the input: exponent 0 if absent (inside Parse, binary16.go:256). *)
Definition scan_exponent (s : bytes) : option Z :=
  match s with
  | [] => Some 0
  | 112 :: t =>
      let '(ng, t) := scan_sign t in
      match t with
      | [] => None
      | _ => match scan_dec t 0 with
             | Some v => Some (if ng then - v else v)
             | None => None
             end
      end
  | _ => None
  end.

(** Float.scan and Float.Parse into z (z.prec is not 0): binary16.go:256, binary128.go:276,
    float80x86.go:278, bfloat.go:81. *)
Definition Parse (z : bigfloat) (s : bytes) : option bigfloat :=
  let '(ng, s) := scan_sign s in
  match s with
  | 48 :: 98 :: s =>
      let '(v, cnt, frac, s) := scan_bits s 0 0 (-1) in
      if cnt =? 0 then None
      else match scan_exponent s with
           | None => None
           | Some ex =>
               if v =? 0 then Some (mkBF (prec z) (rmode z) Exact ng Zero)
               else
                 let e := ex - (if frac <? 0 then 0 else frac) in
                 if (MinExp <=? gexp v e) && (gexp v e <=? MaxExp)
                 then Some (round (mkBF (prec z) (rmode z) Exact ng (Finite v e)))
                 else None
           end
  | _ => None
  end.

(** ** big.Float.Text('e', p) for p > 0 *)

(** A finite number m * 2^e as an integer times a power of ten (inside Text, float.go:20,32,44). *)
Definition to_dec (m e : Z) : Z * Z :=
  if 0 <=? e then (m * 2 ^ e, 0) else (m * 5 ^ (- e), e).

(** Number of decimal digits (inside Text, float.go:20,32,44). *)
Definition ndigits (n : Z) : Z := Z.of_nat (length (digits_of 10 n)).

(** decimal.round(nd) of math/big/decimal.go on n * 10^e10, n > 0: to at most [nd] digits,
    to nearest, ties to even.  Result: an integer of exactly [nd] digits and the power of
    ten of its last digit (inside Text, float.go:20,32,44). *)
Definition dec_round (nd n e10 : Z) : Z * Z :=
  let k := ndigits n in
  if k <=? nd then (n * 10 ^ (nd - k), e10 - (nd - k))
  else
    let d := 10 ^ (k - nd) in
    let q := n / d in
    let r := n mod d in
    let q' := if (d <? 2 * r) || ((2 * r =? d) && Z.odd q) then q + 1 else q in
    if q' =? 10 ^ nd then (10 ^ (nd - 1), e10 + (k - nd) + 1) else (q', e10 + (k - nd)).

(** x.Text('e', p), math/big/ftoa.go Append and fmtE: float.go:20,32,44. *)
Definition Text_e (x : bigfloat) (p : Z) : bytes :=
  let sgn := if neg x then B "-" else [] in
  let out ds ex :=
    sgn ++ firstn 1 ds ++ B "." ++ skipn 1 ds ++ B "e"
      ++ (if ex <? 0 then B "-" else B "+")
      ++ (if Z.abs ex <? 10 then B "0" else []) ++ fmt_d (Z.abs ex) in
  match frm x with
  | Inf => (if neg x then B "-" else B "+") ++ B "Inf"
  | Zero => out (repeat 48 (Z.to_nat (p + 1))) 0
  | Finite m e =>
      let '(n, e10) := to_dec m e in
      let '(q, qe) := dec_round (p + 1) n e10 in
      out (map digit_byte (digits_of 10 q)) (qe + p)
  end.
