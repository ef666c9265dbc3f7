(** Model of internal/strconv/decimal.go.

    A decimal is the list of its nd digits (values 0..9, Go keeps the bytes '0'..'9'), the
    decimal point dp and the flag trunc.  The bytes of the array beyond nd are never read
    (except as explained at [leftShift]); the field neg is never used by the package.
    [w] is the width of Go's uint (32 or 64). *)
From Coq Require Import ZArith String List Bool.
From Verif Require Import GoBase.
Import ListNotations.
Open Scope Z_scope.

(** decimal.go:14-20 *)
Record decimal := mkDec { d : list Z; dp : Z; trunc : bool }.

(** nd: decimal.go:16 *)
Definition nd (a : decimal) : Z := Z.of_nat (length (d a)).

(** len(a.d), decimal.go:15 *)
Definition maxDigits : Z := 800.

(** A decimal as allocated by new(decimal): all fields zero (ftoa.go:169). *)
Definition new_decimal : decimal := mkDec [] 0 false.

(** decimal.go:61-66: copy of digits, and digitZero's run of zeros. *)
Definition zeros (n : Z) : bytes := repeat 48 (Z.to_nat n).
(** The bytes of digits: decimal.go:22-59. *)
Definition chars (l : list Z) : bytes := map (fun c => u8 (c + 48)) l.

(** decimal.go:22-59 *)
Definition String_ (a : decimal) : bytes :=
  if nd a =? 0 then B "0"
  else if dp a <=? 0 then B "0." ++ zeros (- dp a) ++ chars (d a)
  else if dp a <? nd a then
    chars (firstn (Z.to_nat (dp a)) (d a)) ++ B "." ++ chars (skipn (Z.to_nat (dp a)) (d a))
  else chars (d a) ++ zeros (dp a - nd a).

(** Drops trailing zeros (the loop of decimal.go:72-74). *)
Fixpoint drop_zeros (l : list Z) : list Z :=
  match l with
  | [] => []
  | x :: t => if x =? 0 then drop_zeros t else l
  end.
(** The same at the end of the list: decimal.go:72-74. *)
Definition strip (l : list Z) : list Z := rev (drop_zeros (rev l)).

(** decimal.go:71-78 *)
Definition trim (a : decimal) : decimal :=
  let l := strip (d a) in
  mkDec l (if Z.of_nat (length l) =? 0 then 0 else dp a) (trunc a).

(** decimal.go:86-92: digits of v, least significant first; 24 bytes are enough for a
    uint64, running out of them is [Panic]. *)
Fixpoint assign_loop (fuel : nat) (v : Z) : outcome (list Z) :=
  if v <=? 0 then Ret []
  else match fuel with
       | O => Panic
       | S fuel =>
           let v1 := v / 10 in
           l <- assign_loop fuel v1 ;;
           Ret (u64 (v - u64 (10 * v1)) :: l)
       end.

(** decimal.go:81-102 *)
Definition Assign (a : decimal) (v : Z) : outcome decimal :=
  l <- assign_loop 24 v ;;
  let l := rev l in
  Ret (trim (mkDec l (Z.of_nat (length l)) (trunc a))).

(** decimal.go:106-107 *)
Definition maxShift (w : Z) : Z := w - 4.

(** decimal.go:123-126: pad with zeros until n>>k is not 0. *)
Fixpoint rs_pad (fuel : nat) (w k n r : Z) : outcome (Z * Z) :=
  if Z.shiftr n k =? 0 then
    match fuel with
    | O => Panic
    | S fuel => rs_pad fuel w k ((n * 10) mod 2 ^ w) (r + 1)
    end
  else Ret (n, r).

(** decimal.go:116-131: pick up leading digits until n>>k is not 0.  [None]: the number
    was zero.  Otherwise n, r and the digits not read yet. *)
Fixpoint rs_pick (w k : Z) (l : list Z) (n r : Z) : outcome (option (Z * Z * list Z)) :=
  if Z.shiftr n k =? 0 then
    match l with
    | [] =>
        if n =? 0 then Ret None
        else '(n, r) <- rs_pad 64 w k n r ;; Ret (Some (n, r, []))
    | c :: l => rs_pick w k l ((n * 10 + c) mod 2 ^ w) (r + 1)
    end
  else Ret (Some (n, r, l)).

(** decimal.go:136-144: pick up a digit, put down a digit. *)
Fixpoint rs_mid (w k mask : Z) (l : list Z) (n : Z) : Z * list Z :=
  match l with
  | [] => (n, [])
  | c :: l =>
      let dig := Z.shiftr n k in
      let n := Z.land n mask in
      let '(n, out) := rs_mid w k mask l ((n * 10 + c) mod 2 ^ w) in
      (n, dig :: out)
  end.

(** decimal.go:147-157: put down extra digits; [wp] is the write pointer. *)
Fixpoint rs_extra (fuel : nat) (w k mask n wp : Z) (tr : bool) : outcome (list Z * bool) :=
  if n <=? 0 then Ret ([], tr)
  else match fuel with
       | O => Panic
       | S fuel =>
           let dig := Z.shiftr n k in
           let n := Z.land n mask in
           if wp <? maxDigits then
             '(out, tr) <- rs_extra fuel w k mask ((n * 10) mod 2 ^ w) (wp + 1) tr ;;
             Ret (dig :: out, tr)
           else rs_extra fuel w k mask ((n * 10) mod 2 ^ w) wp (tr || (0 <? dig))
       end.

(** decimal.go:110-161 *)
Definition rightShift (w : Z) (a : decimal) (k : Z) : outcome decimal :=
  p <- rs_pick w k (d a) 0 0 ;;
  match p with
  | None => Ret (mkDec [] (dp a) (trunc a))
  | Some (n, r, rest) =>
      let dp' := dp a - (r - 1) in
      let mask := (2 ^ k - 1) mod 2 ^ w in
      let '(n, out) := rs_mid w k mask rest n in
      '(out2, tr) <- rs_extra 66 w k mask n (Z.of_nat (length out)) (trunc a) ;;
      Ret (trim (mkDec (out ++ out2) dp' tr))
  end.

(** The digit values of a decimal literal, for the table of decimal.go:178-253. *)
Definition dstr (s : string) : list Z := map (fun c => c - 48) (B s).

(** decimal.go:178-253 *)
Definition leftcheats : list (Z * list Z) := [
  (0, dstr "");
  (1, dstr "5");
  (1, dstr "25");
  (1, dstr "125");
  (2, dstr "625");
  (2, dstr "3125");
  (2, dstr "15625");
  (3, dstr "78125");
  (3, dstr "390625");
  (3, dstr "1953125");
  (4, dstr "9765625");
  (4, dstr "48828125");
  (4, dstr "244140625");
  (4, dstr "1220703125");
  (5, dstr "6103515625");
  (5, dstr "30517578125");
  (5, dstr "152587890625");
  (6, dstr "762939453125");
  (6, dstr "3814697265625");
  (6, dstr "19073486328125");
  (7, dstr "95367431640625");
  (7, dstr "476837158203125");
  (7, dstr "2384185791015625");
  (7, dstr "11920928955078125");
  (8, dstr "59604644775390625");
  (8, dstr "298023223876953125");
  (8, dstr "1490116119384765625");
  (9, dstr "7450580596923828125");
  (9, dstr "37252902984619140625");
  (9, dstr "186264514923095703125");
  (10, dstr "931322574615478515625");
  (10, dstr "4656612873077392578125");
  (10, dstr "23283064365386962890625");
  (10, dstr "116415321826934814453125");
  (11, dstr "582076609134674072265625");
  (11, dstr "2910383045673370361328125");
  (11, dstr "14551915228366851806640625");
  (12, dstr "72759576141834259033203125");
  (12, dstr "363797880709171295166015625");
  (12, dstr "1818989403545856475830078125");
  (13, dstr "9094947017729282379150390625");
  (13, dstr "45474735088646411895751953125");
  (13, dstr "227373675443232059478759765625");
  (13, dstr "1136868377216160297393798828125");
  (14, dstr "5684341886080801486968994140625");
  (14, dstr "28421709430404007434844970703125");
  (14, dstr "142108547152020037174224853515625");
  (15, dstr "710542735760100185871124267578125");
  (15, dstr "3552713678800500929355621337890625");
  (15, dstr "17763568394002504646778106689453125");
  (16, dstr "88817841970012523233890533447265625");
  (16, dstr "444089209850062616169452667236328125");
  (16, dstr "2220446049250313080847263336181640625");
  (16, dstr "11102230246251565404236316680908203125");
  (17, dstr "55511151231257827021181583404541015625");
  (17, dstr "277555756156289135105907917022705078125");
  (17, dstr "1387778780781445675529539585113525390625");
  (18, dstr "6938893903907228377647697925567626953125");
  (18, dstr "34694469519536141888238489627838134765625");
  (18, dstr "173472347597680709441192448139190673828125");
  (19, dstr "867361737988403547205962240695953369140625")].

(** decimal.go:256-266 *)
Fixpoint prefixIsLessThan (b s : list Z) : bool :=
  match s with
  | [] => false
  | s0 :: s =>
      match b with
      | [] => true
      | b0 :: b => if b0 =? s0 then prefixIsLessThan b s else b0 <? s0
      end
  end.

(** One digit put down by decimal.go:284-290 and 297-303: "w--; a.d[w] = rem", dropping
    digits beyond the array and panicking before its start.  Result: the write index, the
    digits from there on, and trunc. *)
Definition ls_put (wi rem : Z) (acc : list Z) (tr : bool) : outcome (Z * list Z * bool) :=
  let wi := wi - 1 in
  if wi <? maxDigits then
    (if wi <? 0 then Panic else Ret (wi, rem :: acc, tr))
  else Ret (wi, acc, tr || negb (rem =? 0)).

(** decimal.go:280-291, over the digits from the last to the first.  (A digit is read
    before the write index reaches it because delta is not negative.) *)
Fixpoint ls_digits (w k : Z) (l : list Z) (n wi : Z) (acc : list Z) (tr : bool)
  : outcome (Z * Z * list Z * bool) :=
  match l with
  | [] => Ret (n, wi, acc, tr)
  | c :: l =>
      let n := (n + Z.shiftl c k) mod 2 ^ w in
      let quo := n / 10 in
      let rem := n - 10 * quo in
      '(wi, acc, tr) <- ls_put wi rem acc tr ;;
      ls_digits w k l quo wi acc tr
  end.

(** decimal.go:294-304 *)
Fixpoint ls_extra (fuel : nat) (n wi : Z) (acc : list Z) (tr : bool) : outcome (Z * list Z * bool) :=
  if n <=? 0 then Ret (wi, acc, tr)
  else match fuel with
       | O => Panic
       | S fuel =>
           let quo := n / 10 in
           let rem := n - 10 * quo in
           '(wi, acc, tr) <- ls_put wi rem acc tr ;;
           ls_extra fuel quo wi acc tr
       end.

(** decimal.go:269-312.  If fewer than nd+delta digits were put down, the array keeps the
    old digits in front ([firstn wi (d a)]). *)
Definition leftShift (w : Z) (a : decimal) (k : Z) : outcome decimal :=
  match nth_error leftcheats (Z.to_nat k) with
  | None => Panic
  | Some (delta, cutoff) =>
      let delta := if prefixIsLessThan (d a) cutoff then delta - 1 else delta in
      '(n, wi, acc, tr) <- ls_digits w k (rev (d a)) 0 (nd a + delta) [] (trunc a) ;;
      '(wi, acc, tr) <- ls_extra 64 n wi acc tr ;;
      let l := firstn (Z.to_nat wi) (d a) ++ acc in
      let nd' := Z.min (nd a + delta) maxDigits in
      Ret (trim (mkDec (firstn (Z.to_nat nd') l) (dp a + delta) tr))
  end.

(** decimal.go:320-323: the loop of left shifts, then the rest. *)
Fixpoint shl_loop (fuel : nat) (w : Z) (a : decimal) (k : Z) : outcome decimal :=
  if maxShift w <? k then
    match fuel with
    | O => Panic
    | S fuel => a <- leftShift w a (maxShift w) ;; shl_loop fuel w a (k - maxShift w)
    end
  else leftShift w a k.

(** decimal.go:326-329, with [k] for -k. *)
Fixpoint shr_loop (fuel : nat) (w : Z) (a : decimal) (k : Z) : outcome decimal :=
  if maxShift w <? k then
    match fuel with
    | O => Panic
    | S fuel => a <- rightShift w a (maxShift w) ;; shr_loop fuel w a (k - maxShift w)
    end
  else rightShift w a k.

(** decimal.go:315-332; the fuel is the number of iterations. *)
Definition Shift (w : Z) (a : decimal) (k : Z) : outcome decimal :=
  let fuel := Z.to_nat (Z.abs k / maxShift w + 1) in
  if nd a =? 0 then Ret a
  else if 0 <? k then shl_loop fuel w a k
  else if k <? 0 then shr_loop fuel w a (- k)
  else Ret a.

(** a.d[i] for i < a.nd: decimal.go:72, ftoa.go:297-330. *)
Definition dig (a : decimal) (i : Z) : Z := nth (Z.to_nat i) (d a) 0.

(** decimal.go:335-348 *)
Definition shouldRoundUp (a : decimal) (n : Z) : bool :=
  if (n <? 0) || (nd a <=? n) then false
  else if (dig a n =? 5) && (n + 1 =? nd a) then
    (if trunc a then true else (0 <? n) && negb (dig a (n - 1) mod 2 =? 0))
  else 5 <=? dig a n.

(** decimal.go:366-372 *)
Definition RoundDown (a : decimal) (n : Z) : decimal :=
  if (n <? 0) || (nd a <=? n) then a
  else trim (mkDec (firstn (Z.to_nat n) (d a)) (dp a) (trunc a)).

(** decimal.go:381-388: the digits up to n, last first; None if all are 9. *)
Fixpoint round_up_rev (l : list Z) : option (list Z) :=
  match l with
  | [] => None
  | c :: t => if c <? 9 then Some (c + 1 :: t) else round_up_rev t
  end.

(** decimal.go:375-395 *)
Definition RoundUp (a : decimal) (n : Z) : decimal :=
  if (n <? 0) || (nd a <=? n) then a
  else match round_up_rev (rev (firstn (Z.to_nat n) (d a))) with
       | Some l => mkDec (rev l) (dp a) (trunc a)
       | None => mkDec [1] (dp a + 1) (trunc a)
       end.

(** decimal.go:354-363 *)
Definition Round (a : decimal) (n : Z) : decimal :=
  if (n <? 0) || (nd a <=? n) then a
  else if shouldRoundUp a n then RoundUp a n else RoundDown a n.

(** decimal.go:405-407 *)
Fixpoint int_digits (l : list Z) (n : Z) : Z :=
  match l with
  | [] => n
  | c :: t => int_digits t (u64 (u64 (n * 10) + c))
  end.

(** decimal.go:408-410 *)
Fixpoint int_zeros (k : nat) (n : Z) : Z :=
  match k with
  | O => n
  | S k => int_zeros k (u64 (n * 10))
  end.

(** decimal.go:399-415 *)
Definition RoundedInteger (a : decimal) : Z :=
  if 20 <? dp a then 0xFFFFFFFFFFFFFFFF
  else
    let n := int_digits (firstn (Z.to_nat (dp a)) (d a)) 0 in
    let n := int_zeros (Z.to_nat (dp a - nd a)) n in
    if shouldRoundUp a (dp a) then u64 (n + 1) else n.
