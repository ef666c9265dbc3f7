(** Third model of the functions of internal/strconv that append: itoa.go:40-56, 89-202 and
    ftoa.go:52-237, 344-452, now with the memory behind the slices.

    The other models pass dst as the list of its bytes and return a longer list.  Here a []byte is
    a pointer into an array, a length and a capacity; arrays live in a heap, and append writes
    into the array behind the slice when the capacity suffices and copies to a new array when it
    does not.  What never leaves a function is kept as a value: the arrays buf, a and d.d of the
    digits (they are those of ExtArr.v, Itoa.v and DecimalArr.v) and strings.
    Memory is unbounded, except for the limit of make in [FormatFloat]. *)
From Coq Require Import ZArith String List Bool Arith.
From Verif Require Import GoBase BigFloat.
From Verif Require Import DecimalArr ExtArr.
From Verif Require Decimal ExtFloat Ftoa FtoaArr Itoa.
Import ListNotations.
Open Scope Z_scope.
Import ExtFloat (floatInfo, mantbits, expbits, bias).
Import Ftoa (is_e, is_f, is_g, ch_b, exp_text).

(** The arrays that slices point into, by address (Go's memory for dst in itoa.go:40-56 and
    ftoa.go:58-60). *)
Definition heap : Type := list (list Z).

(** A []byte (the type of dst, ftoa.go:58): array, index of the first byte, len and cap. *)
Record gslice := mkSl { arr : nat; off : nat; len : nat; cap : nat }.

(** The array behind a slice (dst, ftoa.go:58). *)
Definition array (h : heap) (a : nat) : list Z := nth a h [].

(** The bytes of a slice: string(dst) in ftoa.go:53. *)
Definition contents (h : heap) (s : gslice) : list Z := firstn (len s) (skipn (off s) (array h (arr s))).

(** nil as a []byte (itoa.go:18, 29): no array, so any address will do. *)
Definition nil_slice : gslice := mkSl 0 0 0 0.

(** The statements of itoa.go:40-56 and ftoa.go:52-452: heap in, result and heap out. *)
Definition M (A : Type) : Type := heap -> outcome (A * heap).
(** The value of an expression, as at itoa.go:56. *)
Definition ret {A} (a : A) : M A := fun h => Ret (a, h).
(** A computation that leaves the heap alone, as at ftoa.go:83-90. *)
Definition lift {A} (x : outcome A) : M A := fun h => match x with Ret a => Ret (a, h) | Panic => Panic end.
(** Sequencing of statements: itoa.go:40-56, ftoa.go:52-452. *)
Definition mbind {A B} (x : M A) (f : A -> M B) : M B :=
  fun h => match x h with Ret (a, h') => f a h' | Panic => Panic end.
Notation "x <~ e ;; k" := (mbind e (fun x => k))
  (at level 61, e at next level, right associativity).

(** The copy into an array that append makes: [xs] from index [p] on (ftoa.go:363 and alike). *)
Definition overwrite (l : list Z) (p : nat) (xs : list Z) : list Z :=
  firstn p l ++ xs ++ skipn (p + length xs) l.

(** The heap with the array at [a] replaced (ftoa.go:363 and alike). *)
Definition set_array (h : heap) (a : nat) (l : list Z) : heap :=
  if (a <? length h)%nat then firstn a h ++ l :: skipn (S a) h else h.

(** make([]byte, 0, c): ftoa.go:53 *)
Definition make0 (c : nat) : M gslice :=
  fun h => Ret (mkSl (length h) 0 0 c, h ++ [repeat 0 c]).

Section append.

(** How much append allocates for an old capacity and a needed length; the language leaves that
    open ("a new, sufficiently large underlying array"). *)
Variable grow : nat -> nat -> nat.

(** append(s, xs...): itoa.go:42, 52, 197 and ftoa.go:97, 236, 347-449. *)
Definition append (s : gslice) (xs : list Z) : M gslice :=
  fun h =>
    let n := (len s + length xs)%nat in
    if (n <=? cap s)%nat then
      Ret (mkSl (arr s) (off s) n (cap s),
           set_array h (arr s) (overwrite (array h (arr s)) (off s + len s) xs))
    else
      let c := Nat.max n (grow (cap s) n) in
      Ret (mkSl (length h) 0 n c, h ++ [contents h s ++ xs ++ repeat 0 (c - n)]).

(** itoa.go:40-46 *)
Definition AppendInt (host32bit : bool) (dst : gslice) (i base : Z) : M gslice :=
  if (0 <=? i) && (i <? Itoa.nSmalls) && (base =? 10) then
    s <~ lift (Itoa.small i) ;; append dst s
  else
    s <~ lift (Itoa.formatBits host32bit (u64 i) base (i <? 0)) ;; append dst s.

(** itoa.go:50-56 *)
Definition AppendUint (host32bit : bool) (dst : gslice) (i base : Z) : M gslice :=
  if (i <? Itoa.nSmalls) && (base =? 10) then
    s <~ lift (Itoa.small i) ;; append dst s
  else
    s <~ lift (Itoa.formatBits host32bit i base false) ;; append dst s.

(** ftoa.go:366-368, 409-411: [n] rounds of a loop that appends '0'. *)
Fixpoint zeros (n : nat) (dst : gslice) : M gslice :=
  match n with
  | O => ret dst
  | S n => dst <~ append dst [48] ;; zeros n dst
  end.

(** ftoa.go:344-396.  For the largest int as prec the loop of lines 366-368 runs for ever, see
    FtoaArr.v. *)
Definition fmtE (w : Z) (dst : gslice) (neg : bool) (s : bslice) (prec fmt : Z) : M gslice :=
  dst <~ (if neg then append dst [45] else ret dst) ;;
  ch <~ lift (if negb (bnd s =? 0) then get (bd s) 0 else Ret 48) ;;
  dst <~ append dst [ch] ;;
  dst <~
    (if 0 <? prec then
       dst <~ append dst [46] ;;
       let m := Z.min (bnd s) (sint w (prec + 1)) in
       di <~
         (if 1 <? m then
            t <~ lift (slice (bd s) 1 m) ;; dst <~ append dst t ;; ret (dst, m)
          else ret (dst, 1)) ;;
       let '(dst, i) := di in
       if sint w (prec + 1) =? prec + 1 then zeros (Z.to_nat (prec + 1 - i)) dst else lift Panic
     else ret dst) ;;
  dst <~ append dst [fmt] ;;
  let e := bdp s - 1 in
  let e := if bnd s =? 0 then 0 else e in
  let '(ch, e) := if e <? 0 then (45, - e) else (43, e) in
  dst <~ append dst [ch] ;;
  append dst (exp_text e).

(** ftoa.go:419-425, from digit [i] on; [n] rounds. *)
Fixpoint frac (n : nat) (i : Z) (dst : gslice) (s : bslice) : M gslice :=
  match n with
  | O => ret dst
  | S n =>
      let j := bdp s + i in
      ch <~ lift (if (0 <=? j) && (j <? bnd s) then get (bd s) j else Ret 48) ;;
      dst <~ append dst [ch] ;;
      frac n (i + 1) dst s
  end.

(** ftoa.go:399-429 *)
Definition fmtF (dst : gslice) (neg : bool) (s : bslice) (prec : Z) : M gslice :=
  dst <~ (if neg then append dst [45] else ret dst) ;;
  dst <~
    (if 0 <? bdp s then
       let m := Z.min (bnd s) (bdp s) in
       t <~ lift (slice (bd s) 0 m) ;;
       dst <~ append dst t ;;
       zeros (Z.to_nat (bdp s - m)) dst
     else append dst [48]) ;;
  if 0 <? prec then
    dst <~ append dst [46] ;;
    frac (Z.to_nat prec) 0 dst s
  else ret dst.

(** ftoa.go:432-452 *)
Definition fmtB (w : Z) (dst : gslice) (neg : bool) (mant exp : Z) (flt : floatInfo) : M gslice :=
  dst <~ (if neg then append dst [45] else ret dst) ;;
  s <~ lift (Itoa.formatBits (w =? 32) mant 10 false) ;;
  dst <~ append dst s ;;
  dst <~ append dst [112] ;;
  let exp := exp - mantbits flt in
  dst <~ (if 0 <=? exp then append dst [43] else ret dst) ;;
  s <~ lift (Itoa.formatBits (w =? 32) (u64 exp) 10 (exp <? 0)) ;;
  append dst s.

(** ftoa.go:204-237 *)
Definition formatDigits (w : Z) (dst : gslice) (shortest neg : bool) (s : bslice) (prec fmt : Z) : M gslice :=
  if is_e fmt then fmtE w dst neg s prec fmt
  else if is_f fmt then fmtF dst neg s prec
  else if is_g fmt then
    let eprec := if (bnd s <? prec) && (bdp s <=? bnd s) then bnd s else prec in
    let eprec := if shortest then 6 else eprec in
    let exp := bdp s - 1 in
    if (exp <? -4) || (eprec <=? exp) then
      let prec := if bnd s <? prec then bnd s else prec in
      fmtE w dst neg s (prec - 1) (u8 (fmt + 101 - 103))
    else
      let prec := if bdp s <? prec then bnd s else prec in
      fmtF dst neg s (Z.max (prec - bdp s) 0)
  else append dst [37; fmt].

(** ftoa.go:168-202 *)
Definition bigFtoa (w : Z) (dst : gslice) (prec fmt : Z) (neg : bool) (mant exp : Z) (flt : floatInfo)
  : M gslice :=
  d <~ lift (Assign new_adec mant) ;;
  d <~ lift (Shift w d (exp - mantbits flt)) ;;
  let shortest := prec <? 0 in
  let whole (d : adec) := mkBS (mem d) (and_ d) (adp d) false in
  dp <~
    (if shortest then
       d <~ lift (FtoaArr.roundShortest w d mant exp flt) ;;
       let digs := whole d in
       ret (digs,
            if is_e fmt then bnd digs - 1
            else if is_f fmt then Z.max (bnd digs - bdp digs) 0
            else if is_g fmt then bnd digs
            else prec)
     else
       dp <~
         (if is_e fmt then d <~ lift (Round d (sint w (prec + 1))) ;; ret (d, prec)
          else if is_f fmt then d <~ lift (Round d (sint w (adp d + prec))) ;; ret (d, prec)
          else if is_g fmt then
            let prec := if prec =? 0 then 1 else prec in
            d <~ lift (Round d prec) ;; ret (d, prec)
          else ret (d, prec)) ;;
       let '(d, prec) := dp in
       ret (whole d, prec)) ;;
  let '(digs, prec) := dp in
  formatDigits w dst shortest neg digs prec fmt.

(** ftoa.go:114-164: from the decoded mantissa and exponent. *)
Definition ftoa_digits (w : Z) (optimize : bool) (dst : gslice) (fmt prec : Z) (neg : bool)
    (mant exp : Z) (flt : floatInfo) : M gslice :=
  (* 114-116 *)
  if negb optimize then bigFtoa w dst prec fmt neg mant exp flt
  else
    let shortest := prec <? 0 in
    if shortest then
      (* 123-140 *)
      let '(f, lower, upper) := ExtFloat.AssignComputeBounds mant exp neg flt in
      dk <~ lift (ShortestDecimal f (mkBS (repeat 0 32) 0 0 false) lower upper) ;;
      let '(digs, ok) := dk in
      if (ok : bool) then
        let prec :=
          if is_e fmt then Z.max (bnd digs - 1) 0
          else if is_f fmt then Z.max (bnd digs - bdp digs) 0
          else if is_g fmt then bnd digs
          else prec in
        formatDigits w dst shortest neg digs prec fmt
      else bigFtoa w dst prec fmt neg mant exp flt
    else if negb (is_f fmt) then
      (* 141-160 *)
      let prec := if is_g fmt && (prec =? 0) then 1 else prec in
      let digits := if is_e fmt then sint w (prec + 1) else prec in
      if digits <=? 15 then
        dk <~ lift (FixedDecimal (ExtFloat.mkExt mant (exp - mantbits flt) neg)
                      (mkBS (repeat 0 24) 0 0 false) digits) ;;
        let '(digs, ok) := dk in
        if (ok : bool) then formatDigits w dst shortest neg digs prec fmt
        else bigFtoa w dst prec fmt neg mant exp flt
      else bigFtoa w dst prec fmt neg mant exp flt
    else bigFtoa w dst prec fmt neg mant exp flt.

(** ftoa.go:62-165 *)
Definition genericFtoa (w : Z) (optimize : bool) (dst : gslice) (val fmt prec bitSize : Z) : M gslice :=
  bf <~ lift (Ftoa.select val bitSize) ;;
  let '(bits, flt) := bf in
  (* 81-83 *)
  let neg := negb (Z.shiftr bits (expbits flt + mantbits flt) =? 0) in
  let exp := Z.land (sint w (Z.shiftr bits (mantbits flt))) (2 ^ expbits flt - 1) in
  let mant := Z.land bits (2 ^ mantbits flt - 1) in
  (* 85-107 *)
  if exp =? 2 ^ expbits flt - 1 then
    append dst (if negb (mant =? 0) then B "NaN" else if neg then B "-Inf" else B "+Inf")
  else
    let '(exp, mant) := if exp =? 0 then (exp + 1, mant) else (exp, Z.lor mant (2 ^ mantbits flt)) in
    let exp := exp + bias flt in
    (* 110-112 *)
    if fmt =? ch_b then fmtB w dst neg mant exp flt
    else ftoa_digits w optimize dst fmt prec neg mant exp flt.

(** ftoa.go:58-60 *)
Definition AppendFloat (w : Z) (optimize : bool) (dst : gslice) (f fmt prec bitSize : Z) : M gslice :=
  genericFtoa w optimize dst f fmt prec bitSize.

(** ftoa.go:52-54; make panics for a capacity above [limit], the run time's bound.  The conversion
    to a string copies the bytes. *)
Definition FormatFloat (limit : Z) (w : Z) (optimize : bool) (f fmt prec bitSize : Z) : M (list Z) :=
  let c := Z.max (sint w (prec + 4)) 24 in
  dst <~ (if limit <? c then lift Panic else make0 (Z.to_nat c)) ;;
  dst <~ genericFtoa w optimize dst f fmt prec bitSize ;;
  fun h => Ret (contents h dst, h).

End append.
