(** Second model of internal/strconv/decimal.go, with the array: the bytes d[0], ..., d[799] are
    overwritten in place, reads and writes are checked against the bounds of the array (Go
    panics outside), and the digits are the bytes '0'..'9'.

    As in Decimal.v: sums of the field dp are not wrapped, the field neg is not used by the
    package and left out, [w] is the width of Go's uint, and loops have fuel, running out of
    which is [Panic]. *)
From Coq Require Import ZArith String List Bool.
From Verif Require Import GoBase.
From Verif Require Decimal.
Import ListNotations.
Open Scope Z_scope.

(** decimal.go:14-20 *)
Record adec := mkA { mem : list Z; and_ : Z; adp : Z; atr : bool }.

(** Reading l[i] and writing l[i] = v in Go, for an array or slice l: decimal.go:72, 89, 97, ... *)
Definition get (l : list Z) (i : Z) : outcome Z :=
  if i <? 0 then Panic
  else match nth_error l (Z.to_nat i) with Some c => Ret c | None => Panic end.
(** Writing l[i] = v within the bounds: decimal.go:89, 141. *)
Definition put (l : list Z) (i : nat) (v : Z) : list Z := firstn i l ++ v :: skipn (S i) l.
(** Writing l[i] = v with the check of the bounds: decimal.go:89, 141. *)
Definition upd (l : list Z) (i v : Z) : outcome (list Z) :=
  if (i <? 0) || (Z.of_nat (length l) <=? i) then Panic else Ret (put l (Z.to_nat i) v).

(** l[i:j] of an array or slice without spare capacity: decimal.go:43-56, 271. *)
Definition slice (l : list Z) (i j : Z) : outcome (list Z) :=
  if (i <? 0) || (j <? i) || (Z.of_nat (length l) <? j) then Panic
  else Ret (firstn (Z.to_nat (j - i)) (skipn (Z.to_nat i) l)).

(** new(decimal) (ftoa.go:169): all bytes zero. *)
Definition new_adec : adec := mkA (repeat 0 800) 0 0 false.

(** decimal.go:72-74 *)
Fixpoint trim_loop (fuel : nat) (m : list Z) (n : Z) : outcome Z :=
  if 0 <? n then
    c <- get m (n - 1) ;;
    if c =? 48 then match fuel with O => Panic | S fuel => trim_loop fuel m (n - 1) end
    else Ret n
  else Ret n.

(** decimal.go:71-78 *)
Definition trim (a : adec) : outcome adec :=
  n <- trim_loop 801 (mem a) (and_ a) ;;
  Ret (mkA (mem a) n (if n =? 0 then 0 else adp a) (atr a)).

(** decimal.go:86-92: the buffer and n. *)
Fixpoint assign_loop (fuel : nat) (v : Z) (buf : list Z) (n : Z) : outcome (list Z * Z) :=
  if v <=? 0 then Ret (buf, n)
  else match fuel with
       | O => Panic
       | S fuel =>
           let v1 := v / 10 in
           let v := u64 (v - u64 (10 * v1)) in
           buf <- upd buf n (u8 (u64 (v + 48))) ;;
           assign_loop fuel v1 buf (n + 1)
       end.

(** decimal.go:96-99, with [n] after n--. *)
Fixpoint reverse_loop (fuel : nat) (buf : list Z) (n : Z) (m : list Z) (nd : Z) : outcome (list Z * Z) :=
  if 0 <=? n then
    match fuel with
    | O => Panic
    | S fuel =>
        c <- get buf n ;;
        m <- upd m nd c ;;
        reverse_loop fuel buf (n - 1) m (nd + 1)
    end
  else Ret (m, nd).

(** decimal.go:81-102 *)
Definition Assign (a : adec) (v : Z) : outcome adec :=
  '(buf, n) <- assign_loop 64 v (repeat 0 24) 0 ;;
  '(m, nd) <- reverse_loop 64 buf (n - 1) (mem a) 0 ;;
  trim (mkA m nd nd (atr a)).

(** decimal.go:123-126 *)
Fixpoint pad (fuel : nat) (w k n r : Z) : outcome (Z * Z) :=
  if Z.shiftr n k =? 0 then
    match fuel with O => Panic | S fuel => pad fuel w k ((n * 10) mod 2 ^ w) (r + 1) end
  else Ret (n, r).

(** decimal.go:116-131; [None] is the return of line 121. *)
Fixpoint pick (fuel : nat) (w k : Z) (m : list Z) (nd n r : Z) : outcome (option (Z * Z)) :=
  if Z.shiftr n k =? 0 then
    if nd <=? r then
      if n =? 0 then Ret None else '(n, r) <- pad 64 w k n r ;; Ret (Some (n, r))
    else
      match fuel with
      | O => Panic
      | S fuel => c <- get m r ;; pick fuel w k m nd ((n * 10 + c - 48) mod 2 ^ w) (r + 1)
      end
  else Ret (Some (n, r)).

(** decimal.go:136-144; [wp] is the write pointer. *)
Fixpoint mid (fuel : nat) (w k mask : Z) (m : list Z) (nd n r wp : Z) : outcome (list Z * Z * Z) :=
  if r <? nd then
    match fuel with
    | O => Panic
    | S fuel =>
        c <- get m r ;;
        let dig := Z.shiftr n k in
        let n := Z.land n mask in
        m <- upd m wp (u8 ((dig + 48) mod 2 ^ w)) ;;
        mid fuel w k mask m nd ((n * 10 + c - 48) mod 2 ^ w) (r + 1) (wp + 1)
    end
  else Ret (m, n, wp).

(** decimal.go:147-157 *)
Fixpoint extra (fuel : nat) (w k mask : Z) (m : list Z) (n wp : Z) (tr : bool) : outcome (list Z * Z * bool) :=
  if n <=? 0 then Ret (m, wp, tr)
  else match fuel with
       | O => Panic
       | S fuel =>
           let dig := Z.shiftr n k in
           let n := Z.land n mask in
           if wp <? Z.of_nat (length m) then
             m <- upd m wp (u8 ((dig + 48) mod 2 ^ w)) ;;
             extra fuel w k mask m ((n * 10) mod 2 ^ w) (wp + 1) tr
           else extra fuel w k mask m ((n * 10) mod 2 ^ w) wp (if 0 <? dig then true else tr)
       end.

(** decimal.go:110-161 *)
Definition rightShift (w : Z) (a : adec) (k : Z) : outcome adec :=
  p <- pick 801 w k (mem a) (and_ a) 0 0 ;;
  match p with
  | None => Ret (mkA (mem a) 0 (adp a) (atr a))
  | Some (n, r) =>
      let dp := adp a - (r - 1) in
      let mask := (2 ^ k - 1) mod 2 ^ w in
      '(m, n, wp) <- mid 801 w k mask (mem a) (and_ a) n r 0 ;;
      '(m, wp, tr) <- extra 66 w k mask m n wp (atr a) ;;
      trim (mkA m wp dp tr)
  end.

(** decimal.go:257-265, from index [i] on; [s] is the rest of the string. *)
Fixpoint prefixIsLessThan (b s : list Z) : bool :=
  match s, b with
  | [], _ => false
  | _ :: _, [] => true
  | s0 :: s, b0 :: b => if negb (b0 =? s0) then b0 <? s0 else prefixIsLessThan b s
  end.

(** decimal.go:284-289 and 297-302 *)
Definition put_down (w : Z) (m : list Z) (wi rem : Z) (tr : bool) : outcome (list Z * bool) :=
  if wi <? Z.of_nat (length m) then m <- upd m wi (u8 ((rem + 48) mod 2 ^ w)) ;; Ret (m, tr)
  else Ret (m, if negb (rem =? 0) then true else tr).

(** decimal.go:280-291, with [r] after r--. *)
Fixpoint left_digits (fuel : nat) (w k : Z) (m : list Z) (r n wi : Z) (tr : bool) : outcome (list Z * Z * Z * bool) :=
  if 0 <=? r then
    match fuel with
    | O => Panic
    | S fuel =>
        c <- get m r ;;
        let n := (n + Z.shiftl ((c - 48) mod 2 ^ w) k) mod 2 ^ w in
        let quo := n / 10 in
        let rem := n - 10 * quo in
        let wi := wi - 1 in
        '(m, tr) <- put_down w m wi rem tr ;;
        left_digits fuel w k m (r - 1) quo wi tr
    end
  else Ret (m, n, wi, tr).

(** decimal.go:294-304 *)
Fixpoint left_extra (fuel : nat) (w : Z) (m : list Z) (n wi : Z) (tr : bool) : outcome (list Z * bool) :=
  if 0 <? n then
    match fuel with
    | O => Panic
    | S fuel =>
        let quo := n / 10 in
        let rem := n - 10 * quo in
        let wi := wi - 1 in
        '(m, tr) <- put_down w m wi rem tr ;;
        left_extra fuel w m quo wi tr
    end
  else Ret (m, tr).

(** decimal.go:269-312.  The table is that of Decimal.v, its strings written as bytes. *)
Definition leftShift (w : Z) (a : adec) (k : Z) : outcome adec :=
  match nth_error Decimal.leftcheats (Z.to_nat k) with
  | None => Panic
  | Some (delta, cutoff) =>
      s <- slice (mem a) 0 (and_ a) ;;
      let delta := if prefixIsLessThan s (map (fun c => c + 48) cutoff) then delta - 1 else delta in
      '(m, n, wi, tr) <- left_digits 801 w k (mem a) (and_ a - 1) 0 (and_ a + delta) (atr a) ;;
      '(m, tr) <- left_extra 64 w m n wi tr ;;
      let nd := and_ a + delta in
      let nd := if Z.of_nat (length m) <=? nd then Z.of_nat (length m) else nd in
      trim (mkA m nd (adp a + delta) tr)
  end.

(** decimal.go:320-324 *)
Fixpoint shl_loop (fuel : nat) (w : Z) (a : adec) (k : Z) : outcome adec :=
  if Decimal.maxShift w <? k then
    match fuel with
    | O => Panic
    | S fuel => a <- leftShift w a (Decimal.maxShift w) ;; shl_loop fuel w a (k - Decimal.maxShift w)
    end
  else leftShift w a k.

(** decimal.go:326-330 *)
Fixpoint shr_loop (fuel : nat) (w : Z) (a : adec) (k : Z) : outcome adec :=
  if k <? - Decimal.maxShift w then
    match fuel with
    | O => Panic
    | S fuel => a <- rightShift w a (Decimal.maxShift w) ;; shr_loop fuel w a (k + Decimal.maxShift w)
    end
  else rightShift w a (- k).

(** decimal.go:315-332 *)
Definition Shift (w : Z) (a : adec) (k : Z) : outcome adec :=
  let fuel := Z.to_nat (Z.abs k / Decimal.maxShift w + 1) in
  if and_ a =? 0 then Ret a
  else if 0 <? k then shl_loop fuel w a k
  else if k <? 0 then shr_loop fuel w a k
  else Ret a.

(** decimal.go:335-348 *)
Definition shouldRoundUp (a : adec) (nd : Z) : outcome bool :=
  if (nd <? 0) || (and_ a <=? nd) then Ret false
  else
    c <- get (mem a) nd ;;
    if (c =? 53) && (nd + 1 =? and_ a) then
      if atr a then Ret true
      else if 0 <? nd then
        c <- get (mem a) (nd - 1) ;; Ret (negb (u8 (c - 48) mod 2 =? 0))
      else Ret false
    else Ret (53 <=? c).

(** decimal.go:366-372 *)
Definition RoundDown (a : adec) (nd : Z) : outcome adec :=
  if (nd <? 0) || (and_ a <=? nd) then Ret a
  else trim (mkA (mem a) nd (adp a) (atr a)).

(** decimal.go:381-388; [None]: all digits are 9. *)
Fixpoint up_loop (fuel : nat) (m : list Z) (i : Z) : outcome (option (list Z * Z)) :=
  if 0 <=? i then
    match fuel with
    | O => Panic
    | S fuel =>
        c <- get m i ;;
        if c <? 57 then m <- upd m i (u8 (c + 1)) ;; Ret (Some (m, i + 1))
        else up_loop fuel m (i - 1)
    end
  else Ret None.

(** decimal.go:375-395 *)
Definition RoundUp (a : adec) (nd : Z) : outcome adec :=
  if (nd <? 0) || (and_ a <=? nd) then Ret a
  else
    p <- up_loop 801 (mem a) (nd - 1) ;;
    match p with
    | Some (m, n) => Ret (mkA m n (adp a) (atr a))
    | None => m <- upd (mem a) 0 49 ;; Ret (mkA m 1 (adp a + 1) (atr a))
    end.

(** decimal.go:354-363 *)
Definition Round (a : adec) (nd : Z) : outcome adec :=
  if (nd <? 0) || (and_ a <=? nd) then Ret a
  else
    up <- shouldRoundUp a nd ;;
    if (up : bool) then RoundUp a nd else RoundDown a nd.

(** decimal.go:405-407: n and i. *)
Fixpoint int_digits (fuel : nat) (a : adec) (i n : Z) : outcome (Z * Z) :=
  if (i <? adp a) && (i <? and_ a) then
    match fuel with
    | O => Panic
    | S fuel => c <- get (mem a) i ;; int_digits fuel a (i + 1) (u64 (u64 (n * 10) + u8 (c - 48)))
    end
  else Ret (n, i).

(** decimal.go:408-410 *)
Fixpoint int_zeros (fuel : nat) (a : adec) (i n : Z) : outcome Z :=
  if i <? adp a then
    match fuel with O => Panic | S fuel => int_zeros fuel a (i + 1) (u64 (n * 10)) end
  else Ret n.

(** decimal.go:399-415 *)
Definition RoundedInteger (a : adec) : outcome Z :=
  if 20 <? adp a then Ret 0xFFFFFFFFFFFFFFFF
  else
    '(n, i) <- int_digits 21 a 0 0 ;;
    n <- int_zeros 21 a i n ;;
    up <- shouldRoundUp a (adp a) ;;
    Ret (if (up : bool) then u64 (n + 1) else n).

(** copy(buf[w:], src) of decimal.go:44-55: the buffer and the number of bytes copied. *)
Definition copy (buf : list Z) (w : Z) (src : list Z) : outcome (list Z * Z) :=
  dst <- slice buf w (Z.of_nat (length buf)) ;;
  let n := Nat.min (length dst) (length src) in
  Ret (firstn (Z.to_nat w) buf ++ firstn n src ++ skipn n dst, Z.of_nat n).

(** digitZero(buf[i:j]), decimal.go:61-66 *)
Definition digitZero (buf : list Z) (i j : Z) : outcome (list Z * Z) :=
  dst <- slice buf i j ;;
  Ret (firstn (Z.to_nat i) buf ++ repeat 48 (length dst) ++ skipn (Z.to_nat j) buf, Z.of_nat (length dst)).

(** decimal.go:22-59 *)
Definition String_ (a : adec) : outcome bytes :=
  let n := 10 + and_ a in
  let n := if 0 <? adp a then n + adp a else n in
  let n := if adp a <? 0 then n + - adp a else n in
  let buf := repeat 0 (Z.to_nat n) in
  if and_ a =? 0 then Ret (B "0")
  else if adp a <=? 0 then
    buf <- upd buf 0 48 ;;
    buf <- upd buf 1 46 ;;
    '(buf, c) <- digitZero buf 2 (2 + - adp a) ;;
    s <- slice (mem a) 0 (and_ a) ;;
    '(buf, c') <- copy buf (2 + c) s ;;
    slice buf 0 (2 + c + c')
  else if adp a <? and_ a then
    s <- slice (mem a) 0 (adp a) ;;
    '(buf, c) <- copy buf 0 s ;;
    buf <- upd buf c 46 ;;
    s <- slice (mem a) (adp a) (and_ a) ;;
    '(buf, c') <- copy buf (c + 1) s ;;
    slice buf 0 (c + 1 + c')
  else
    s <- slice (mem a) 0 (and_ a) ;;
    '(buf, c) <- copy buf 0 s ;;
    '(buf, c') <- digitZero buf c (c + adp a - and_ a) ;;
    slice buf 0 (c + c').

