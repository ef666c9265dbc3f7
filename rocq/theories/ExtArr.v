(** Second model of the digit generation of internal/strconv/extfloat.go, with the byte
    buffers: scratch buffers and the slice d.d are arrays of bytes that are overwritten in
    place, with Go's bounds checks.  The arithmetic on extFloat values is that of ExtFloat.v;
    loops have fuel, running out of which is [Panic]. *)
From Coq Require Import ZArith List Bool.
From Verif Require Import GoBase.
From Verif Require Import DecimalArr.
From Verif Require ExtFloat.
Import ListNotations.
Open Scope Z_scope.
Import ExtFloat (extFloat, mant, exp, neg, Normalize, frexp10, frexp10Many, uniformize, extFloat_eqb,
                 integerDigits_of, at_, uint64pow10).

(** ftoa.go:337-341 *)
Record bslice := mkBS { bd : list Z; bnd : Z; bdp : Z; bneg : bool }.

(** extfloat.go:401-409: the buffer and pos. *)
Fixpoint fill_fixed (fuel : nat) (v : Z) (buf : list Z) (pos : Z) : outcome (list Z * Z) :=
  if v <=? 0 then Ret (buf, pos)
  else match fuel with
       | O => Panic
       | S fuel =>
           let v1 := v / 10 in
           let v := u32 (v - u32 (10 * v1)) in
           let pos := pos - 1 in
           buf <- upd buf pos (u8 (u32 (v + 48))) ;;
           fill_fixed fuel v1 buf pos
       end.

(** extfloat.go:410-412 *)
Fixpoint copy_fixed (fuel : nat) (buf : list Z) (pos i : Z) (dd : list Z) : outcome (list Z) :=
  if i <? Z.of_nat (length buf) then
    match fuel with
    | O => Panic
    | S fuel =>
        c <- get buf i ;;
        dd <- upd dd (i - pos) c ;;
        copy_fixed fuel buf pos (i + 1) dd
    end
  else Ret dd.

(** extfloat.go:424-436; [None]: "return false".  Otherwise the slice, nd, fraction and eps. *)
Fixpoint fraction_fixed (fuel : nat) (needed fraction eps shift : Z) (dd : list Z) (nd : Z)
  : outcome (option (list Z * Z * Z * Z)) :=
  if 0 <? needed then
    match fuel with
    | O => Panic
    | S fuel =>
        let fraction := u64 (fraction * 10) in
        let eps := u64 (eps * 10) in
        if u64 (Z.shiftl 1 shift) <? u64 (2 * eps) then Ret None
        else
          let digit := Z.shiftr fraction shift in
          dd <- upd dd nd (u8 (u64 (digit + 48))) ;;
          fraction_fixed fuel (needed - 1) (u64 (fraction - u64 (Z.shiftl digit shift))) eps shift dd (nd + 1)
    end
  else Ret (Some (dd, nd, fraction, eps)).

(** extfloat.go:489-496: i and d.nd. *)
Fixpoint nines (fuel : nat) (dd : list Z) (i nd : Z) : outcome (Z * Z) :=
  if 0 <=? i then
    c <- get dd i ;;
    if c =? 57 then match fuel with O => Panic | S fuel => nines fuel dd (i - 1) (nd - 1) end
    else Ret (i, nd)
  else Ret (i, nd).

(** extfloat.go:477-507 *)
Definition adjustLastDigitFixed (s : bslice) (num den shift eps : Z) : outcome (bslice * bool) :=
  let D := u64 (Z.shiftl den shift) in
  if D <? num then Panic
  else if D <? u64 (2 * eps) then Panic
  else if u64 (2 * u64 (num + eps)) <? D then Ret (s, true)
  else if D <? u64 (2 * u64 (num - eps)) then
    '(i, nd) <- nines 64 (bd s) (bnd s - 1) (bnd s) ;;
    if i <? 0 then
      dd <- upd (bd s) 0 49 ;;
      Ret (mkBS dd 1 (bdp s + 1) (bneg s), true)
    else
      c <- get (bd s) i ;;
      dd <- upd (bd s) i (u8 (c + 1)) ;;
      Ret (mkBS dd nd (bdp s) (bneg s), true)
  else Ret (s, false).

(** extfloat.go:460-465: d.nd. *)
Fixpoint trim_fixed (fuel : nat) (dd : list Z) (i nd : Z) : outcome Z :=
  if 0 <=? i then
    c <- get dd i ;;
    if negb (c =? 48) then Ret (i + 1)
    else match fuel with O => Panic | S fuel => trim_fixed fuel dd (i - 1) nd end
  else Ret nd.

(** extfloat.go:359-467 *)
Definition FixedDecimal (f : extFloat) (s : bslice) (n : Z) : outcome (bslice * bool) :=
  if mant f =? 0 then Ret (mkBS (bd s) 0 0 (neg f), true)
  else if n =? 0 then Panic
  else
    let '(f, _) := Normalize f in
    '(f, exp10, _) <- frexp10 f ;;
    (* 374-382 *)
    let shift := u64 (- exp f) in
    let integer := u32 (Z.shiftr (mant f) shift) in
    let fraction := u64 (mant f - u64 (Z.shiftl integer shift)) in
    let eps := 1 in
    let needed := n in
    (* 383-398 *)
    let integerDigits := integerDigits_of integer in
    '(integer, rest, pow10) <-
      (if needed <? integerDigits then
         p <- at_ uint64pow10 (integerDigits - needed) ;;
         (if u32 p =? 0 then Panic
          else
            let q := integer / u32 p in
            Ret (q, u32 (integer - u32 (q * u32 p)), p))
       else Ret (integer, 0, 1)) ;;
    (* 401-416 *)
    '(buf, pos) <- fill_fixed 64 integer (repeat 0 32) 32 ;;
    dd <- copy_fixed 64 buf pos pos (bd s) ;;
    let nd := 32 - pos in
    let dp := integerDigits + exp10 in
    let needed := needed - nd in
    (* 418-438 *)
    r <-
      (if 0 <? needed then
         (if negb (rest =? 0) || negb (pow10 =? 1) then Panic
          else fraction_fixed 64 needed fraction eps shift dd nd)
       else Ret (Some (dd, nd, fraction, eps))) ;;
    match r with
    | None => Ret (mkBS dd nd dp (bneg s), false)
    | Some (dd, nd, fraction, eps) =>
        (* 455-466 *)
        '(s, ok) <- adjustLastDigitFixed (mkBS dd nd dp (bneg s))
                      (Z.lor (u64 (Z.shiftl rest shift)) fraction) pow10 shift eps ;;
        if (ok : bool) then
          nd <- trim_fixed 64 (bd s) (bnd s - 1) (bnd s) ;;
          Ret (mkBS (bd s) nd (bdp s) (bneg s), true)
        else Ret (s, false)
    end.

(** extfloat.go:631-634 *)
Fixpoint adjust_loop (fuel : nat) (dd : list Z) (nd currentDiff targetDiff ulpDecimal ulpBinary : Z)
  : outcome (list Z * Z) :=
  if u64 (u64 (currentDiff + ulpDecimal / 2) + ulpBinary) <? targetDiff then
    match fuel with
    | O => Panic
    | S fuel =>
        c <- get dd (nd - 1) ;;
        dd <- upd dd (nd - 1) (u8 (c - 1)) ;;
        adjust_loop fuel dd nd (u64 (currentDiff + ulpDecimal)) targetDiff ulpDecimal ulpBinary
    end
  else Ret (dd, currentDiff).

(** extfloat.go:626-649 *)
Definition adjustLastDigit (s : bslice) (currentDiff targetDiff maxDiff ulpDecimal ulpBinary : Z)
  : outcome (bslice * bool) :=
  if ulpDecimal <? u64 (2 * ulpBinary) then Ret (s, false)
  else
    '(dd, currentDiff) <- adjust_loop 300 (bd s) (bnd s) currentDiff targetDiff ulpDecimal ulpBinary ;;
    let s := mkBS dd (bnd s) (bdp s) (bneg s) in
    if u64 (currentDiff + ulpDecimal) <=? u64 (u64 (targetDiff + ulpDecimal / 2) + ulpBinary)
    then Ret (s, false)
    else if (currentDiff <? ulpBinary) || (u64 (maxDiff - ulpBinary) <? currentDiff)
    then Ret (s, false)
    else
      zero <- (if bnd s =? 1 then c <- get (bd s) 0 ;; Ret (c =? 48) else Ret false) ;;
      if (zero : bool) then Ret (mkBS (bd s) 0 0 (bneg s), true) else Ret (s, true).

(** extfloat.go:522-530: the buffer and n. *)
Fixpoint fill_short (fuel : nat) (v : Z) (buf : list Z) (n : Z) : outcome (list Z * Z) :=
  if v <=? 0 then Ret (buf, n)
  else match fuel with
       | O => Panic
       | S fuel =>
           let v1 := v / 10 in
           let v := u64 (v - u64 (10 * v1)) in
           buf <- upd buf n (u8 (u64 (v + 48))) ;;
           fill_short fuel v1 buf (n - 1)
       end.

(** extfloat.go:532-534 *)
Fixpoint copy_short (fuel : nat) (buf : list Z) (n nd i : Z) (dd : list Z) : outcome (list Z) :=
  if i <? nd then
    match fuel with
    | O => Panic
    | S fuel =>
        c <- get buf (n + 1 + i) ;;
        dd <- upd dd i c ;;
        copy_short fuel buf n nd (i + 1) dd
    end
  else Ret dd.

(** extfloat.go:536-538 *)
Fixpoint trim_short (fuel : nat) (dd : list Z) (nd : Z) : outcome Z :=
  if 0 <? nd then
    c <- get dd (nd - 1) ;;
    if c =? 48 then match fuel with O => Panic | S fuel => trim_short fuel dd (nd - 1) end
    else Ret nd
  else Ret nd.

(** extfloat.go:581-595, [i] the loop variable, [n] = integerDigits - i: [inl] when the loop
    returns, [inr] with the slice when it ends. *)
Fixpoint shortest_int (n : nat) (i integer fraction shift allowance targetDiff : Z)
    (dd : list Z) (dp : Z) (ng : bool)
  : outcome (bslice * bool + list Z) :=
  match n with
  | O => Ret (inr dd)
  | S n =>
      pow <- at_ uint64pow10 (Z.of_nat n) ;;
      let digit := integer / u32 pow in
      dd <- upd dd i (u8 (u32 (digit + 48))) ;;
      let integer := u32 (integer - u32 (digit * u32 pow)) in
      let currentDiff := u64 (u64 (Z.shiftl integer shift) + fraction) in
      if currentDiff <? allowance then
        r <- adjustLastDigit (mkBS dd (i + 1) dp ng) currentDiff targetDiff allowance
               (u64 (Z.shiftl pow shift)) 2 ;;
        Ret (inl r)
      else shortest_int n (i + 1) integer fraction shift allowance targetDiff dd dp ng
  end.

(** extfloat.go:602-619 *)
Fixpoint shortest_frac (fuel : nat) (fraction multiplier shift allowance targetDiff : Z)
    (dd : list Z) (nd dp : Z) (ng : bool) : outcome (bslice * bool) :=
  match fuel with
  | O => Panic
  | S fuel =>
      let fraction := u64 (fraction * 10) in
      let multiplier := u64 (multiplier * 10) in
      let digit := Z.shiftr fraction shift in
      dd <- upd dd nd (u8 (digit + 48)) ;;
      let fraction := u64 (fraction - u64 (Z.shiftl digit shift)) in
      if fraction <? u64 (allowance * multiplier) then
        adjustLastDigit (mkBS dd (nd + 1) dp ng) fraction (u64 (targetDiff * multiplier))
          (u64 (allowance * multiplier)) (u64 (Z.shiftl 1 shift)) (u64 (multiplier * 2))
      else shortest_frac fuel fraction multiplier shift allowance targetDiff dd (nd + 1) dp ng
  end.

(** extfloat.go:513-620 *)
Definition ShortestDecimal (f : extFloat) (s : bslice) (lower upper : extFloat) : outcome (bslice * bool) :=
  if mant f =? 0 then Ret (mkBS (bd s) 0 0 (neg f), true)
  else if (exp f =? 0) && extFloat_eqb lower f && extFloat_eqb lower upper then
    (* 521-543 *)
    '(buf, n) <- fill_short 64 (mant f) (repeat 0 24) 23 ;;
    let nd := 24 - n - 1 in
    dd <- copy_short 64 buf n nd 0 (bd s) ;;
    nd' <- trim_short 64 dd nd ;;
    Ret (mkBS dd nd' (if nd' =? 0 then 0 else nd) (neg f), true)
  else
    let '(upper, _) := Normalize upper in
    let f := uniformize f upper in
    let lower := uniformize lower upper in
    '(lower, f, upper, exp10) <- frexp10Many lower f upper ;;
    (* 558-570 *)
    let upm := u64 (mant upper + 1) in
    let lom := u64 (mant lower - 1) in
    let shift := u64 (- exp upper) in
    let integer := u32 (Z.shiftr upm shift) in
    let fraction := u64 (upm - u64 (Z.shiftl integer shift)) in
    let allowance := u64 (upm - lom) in
    let targetDiff := u64 (upm - mant f) in
    (* 573-598 *)
    let integerDigits := integerDigits_of integer in
    let dp := integerDigits + exp10 in
    r <- shortest_int (Z.to_nat integerDigits) 0 integer fraction shift allowance targetDiff
           (bd s) dp (neg f) ;;
    match r with
    | inl r => Ret r
    | inr dd => shortest_frac 40 fraction 1 shift allowance targetDiff dd integerDigits dp (neg f)
    end.
