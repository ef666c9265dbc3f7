(** Second model of internal/strconv/ftoa.go, with the arrays: the decimals of DecimalArr.v, the
    slices of ExtArr.v with their buffers of 32, 24 and 800 bytes, and every index into them
    checked.  What does not touch an array (the sign, the bits, %b) is that of Ftoa.v. *)
From Coq Require Import ZArith String List Bool.
From Verif Require Import GoBase BigFloat.
From Verif Require Import DecimalArr ExtArr.
From Verif Require Decimal ExtFloat Ftoa.
Import ListNotations.
Open Scope Z_scope.
Import ExtFloat (floatInfo, mantbits, expbits, bias).
Import Ftoa (is_e, is_f, is_g, ch_b, exp_text).

(** ftoa.go:344-396.  For the largest int as prec, prec+1 wraps, m is negative and the loop of
    lines 368-370 runs for ever; that is [Panic] here. *)
Definition fmtE (w : Z) (dst : bytes) (neg : bool) (s : bslice) (prec fmt : Z) : outcome bytes :=
  let dst := if neg then dst ++ [45] else dst in
  ch <- (if negb (bnd s =? 0) then get (bd s) 0 else Ret 48) ;;
  let dst := dst ++ [ch] in
  dst <-
    (if 0 <? prec then
       let dst := dst ++ [46] in
       let m := Z.min (bnd s) (sint w (prec + 1)) in
       '(dst, i) <-
         (if 1 <? m then t <- slice (bd s) 1 m ;; Ret (dst ++ t, m) else Ret (dst, 1)) ;;
       if sint w (prec + 1) =? prec + 1 then Ret (dst ++ repeat 48 (Z.to_nat (prec + 1 - i))) else Panic
     else Ret dst) ;;
  let dst := dst ++ [fmt] in
  let e := bdp s - 1 in
  let e := if bnd s =? 0 then 0 else e in
  let '(ch, e) := if e <? 0 then (45, - e) else (43, e) in
  let dst := dst ++ [ch] in
  Ret (dst ++ exp_text e).

(** ftoa.go:419-425: the digits i, i+1, ... of the fraction; [n] of them. *)
Fixpoint frac_digits (n : nat) (i : Z) (s : bslice) : outcome bytes :=
  match n with
  | O => Ret []
  | S n =>
      let j := bdp s + i in
      ch <- (if (0 <=? j) && (j <? bnd s) then get (bd s) j else Ret 48) ;;
      r <- frac_digits n (i + 1) s ;;
      Ret (ch :: r)
  end.

(** ftoa.go:399-429 *)
Definition fmtF (dst : bytes) (neg : bool) (s : bslice) (prec : Z) : outcome bytes :=
  let dst := if neg then dst ++ [45] else dst in
  dst <-
    (if 0 <? bdp s then
       let m := Z.min (bnd s) (bdp s) in
       t <- slice (bd s) 0 m ;;
       Ret (dst ++ t ++ repeat 48 (Z.to_nat (bdp s - m)))
     else Ret (dst ++ [48])) ;;
  if 0 <? prec then r <- frac_digits (Z.to_nat prec) 0 s ;; Ret (dst ++ [46] ++ r) else Ret dst.

(** ftoa.go:204-237 *)
Definition formatDigits (w : Z) (dst : bytes) (shortest neg : bool) (s : bslice) (prec fmt : Z) : outcome bytes :=
  if is_e fmt then fmtE w dst neg s prec fmt
  else if is_f fmt then fmtF dst neg s prec
  else if is_g fmt then
    let eprec := if (bnd s <? prec) && (bdp s <=? bnd s) then bnd s else prec in
    let eprec := if shortest then 6 else eprec in
    let exp := bdp s - 1 in
    if (exp <? -4) || (eprec <=? exp) then
      let prec := if bnd s <? prec then bnd s else prec in
      fmtE w dst neg s (prec - 1) (u8 (fmt + 101 - 103))
    else
      let prec := if bdp s <? prec then bnd s else prec in
      fmtF dst neg s (Z.max (prec - bdp s) 0)
  else Ret (dst ++ [37; fmt]).

(** ftoa.go:301-334; all digits are bytes. *)
Fixpoint rs_loop (fuel : nat) (i : Z) (inclusive : bool) (d lower upper : adec) : outcome adec :=
  if i <? and_ d then
    match fuel with
    | O => Panic
    | S fuel =>
        l <- (if i <? and_ lower then get (mem lower) i else Ret 48) ;;
        m <- get (mem d) i ;;
        u <- (if i <? and_ upper then get (mem upper) i else Ret 48) ;;
        let okdown := negb (l =? m) || (inclusive && (i + 1 =? and_ lower)) in
        let okup := negb (m =? u) && (inclusive || (u8 (m + 1) <? u) || (i + 1 <? and_ upper)) in
        if okdown && okup then Round d (i + 1)
        else if okdown then RoundDown d (i + 1)
        else if okup then RoundUp d (i + 1)
        else rs_loop fuel (i + 1) inclusive d lower upper
    end
  else Ret d.

(** ftoa.go:241-335 *)
Definition roundShortest (w : Z) (d : adec) (mant exp : Z) (flt : floatInfo) : outcome adec :=
  if mant =? 0 then Ret (mkA (mem d) 0 (adp d) (atr d))
  else
    let minexp := bias flt + 1 in
    if (minexp <? exp) && (100 * (exp - mantbits flt) <=? 332 * (adp d - and_ d)) then Ret d
    else
      upper <- Assign new_adec (u64 (u64 (mant * 2) + 1)) ;;
      upper <- Shift w upper (exp - mantbits flt - 1) ;;
      let '(mantlo, explo) :=
        if (2 ^ mantbits flt <? mant) || (exp =? minexp) then (u64 (mant - 1), exp)
        else (u64 (u64 (mant * 2) - 1), exp - 1) in
      lower <- Assign new_adec (u64 (u64 (mantlo * 2) + 1)) ;;
      lower <- Shift w lower (explo - mantbits flt - 1) ;;
      let inclusive := mant mod 2 =? 0 in
      rs_loop 801 0 inclusive d lower upper.

(** ftoa.go:168-202 *)
Definition bigFtoa (w : Z) (dst : bytes) (prec fmt : Z) (neg : bool) (mant exp : Z) (flt : floatInfo)
  : outcome bytes :=
  d <- Assign new_adec mant ;;
  d <- Shift w d (exp - mantbits flt) ;;
  let shortest := prec <? 0 in
  let whole (d : adec) := mkBS (mem d) (and_ d) (adp d) false in
  '(digs, prec) <-
    (if shortest then
       d <- roundShortest w d mant exp flt ;;
       let digs := whole d in
       Ret (digs,
            if is_e fmt then bnd digs - 1
            else if is_f fmt then Z.max (bnd digs - bdp digs) 0
            else if is_g fmt then bnd digs
            else prec)
     else
       '(d, prec) <-
         (if is_e fmt then d <- Round d (sint w (prec + 1)) ;; Ret (d, prec)
          else if is_f fmt then d <- Round d (sint w (adp d + prec)) ;; Ret (d, prec)
          else if is_g fmt then
            let prec := if prec =? 0 then 1 else prec in
            d <- Round d prec ;; Ret (d, prec)
          else Ret (d, prec)) ;;
       Ret (whole d, prec)) ;;
  formatDigits w dst shortest neg digs prec fmt.

(** ftoa.go:118-164: from the decoded mantissa and exponent. *)
Definition ftoa_digits (w : Z) (optimize : bool) (dst : bytes) (fmt prec : Z) (neg : bool)
    (mant exp : Z) (flt : floatInfo) : outcome bytes :=
  (* 114-116 *)
  if negb optimize then bigFtoa w dst prec fmt neg mant exp flt
  else
    let shortest := prec <? 0 in
    if shortest then
      (* 123-140 *)
      let '(f, lower, upper) := ExtFloat.AssignComputeBounds mant exp neg flt in
      '(digs, ok) <- ShortestDecimal f (mkBS (repeat 0 32) 0 0 false) lower upper ;;
      if (ok : bool) then
        let prec :=
          if is_e fmt then Z.max (bnd digs - 1) 0
          else if is_f fmt then Z.max (bnd digs - bdp digs) 0
          else if is_g fmt then bnd digs
          else prec in
        formatDigits w dst shortest neg digs prec fmt
      else bigFtoa w dst prec fmt neg mant exp flt
    else if negb (is_f fmt) then
      (* 141-160 *)
      let prec := if is_g fmt && (prec =? 0) then 1 else prec in
      let digits := if is_e fmt then sint w (prec + 1) else prec in
      if digits <=? 15 then
        '(digs, ok) <- FixedDecimal (ExtFloat.mkExt mant (exp - mantbits flt) neg)
                         (mkBS (repeat 0 24) 0 0 false) digits ;;
        if (ok : bool) then formatDigits w dst shortest neg digs prec fmt
        else bigFtoa w dst prec fmt neg mant exp flt
      else bigFtoa w dst prec fmt neg mant exp flt
    else bigFtoa w dst prec fmt neg mant exp flt.

(** ftoa.go:62-165 *)
Definition genericFtoa (w : Z) (optimize : bool) (dst : bytes) (val fmt prec bitSize : Z) : outcome bytes :=
  '(bits, flt) <- Ftoa.select val bitSize ;;
  (* 81-83 *)
  let neg := negb (Z.shiftr bits (expbits flt + mantbits flt) =? 0) in
  let exp := Z.land (sint w (Z.shiftr bits (mantbits flt))) (2 ^ expbits flt - 1) in
  let mant := Z.land bits (2 ^ mantbits flt - 1) in
  (* 85-107 *)
  if exp =? 2 ^ expbits flt - 1 then
    Ret (dst ++ (if negb (mant =? 0) then B "NaN" else if neg then B "-Inf" else B "+Inf"))
  else
    let '(exp, mant) := if exp =? 0 then (exp + 1, mant) else (exp, Z.lor mant (2 ^ mantbits flt)) in
    let exp := exp + bias flt in
    (* 110-112 *)
    if fmt =? ch_b then Ftoa.fmtB w dst neg mant exp flt
    else ftoa_digits w optimize dst fmt prec neg mant exp flt.

(** ftoa.go:52-54 *)
Definition FormatFloat (w : Z) (optimize : bool) (f fmt prec bitSize : Z) : outcome bytes :=
  genericFtoa w optimize [] f fmt prec bitSize.

(** ftoa.go:58-60 *)
Definition AppendFloat (w : Z) (optimize : bool) (dst : bytes) (f fmt prec bitSize : Z) : outcome bytes :=
  genericFtoa w optimize dst f fmt prec bitSize.
