(** Model of internal/strconv/itoa.go. *)
From Coq Require Import ZArith String List Bool.
From Verif Require Import GoBase BigFloat.
Import ListNotations.
Open Scope Z_scope.

(** s[i] with Go's bounds check: itoa.go:61-63,121-187. *)
Definition index (s : bytes) (i : Z) : outcome Z :=
  if (0 <=? i) && (i <? Z.of_nat (length s)) then Ret (nth (Z.to_nat i) s 0) else Panic.

(** itoa.go:66 *)
Definition nSmalls : Z := 100.

(** itoa.go:68-77 *)
Definition smallsString : bytes := B ("00010203040506070809" ++
  "10111213141516171819" ++
  "20212223242526272829" ++
  "30313233343536373839" ++
  "40414243444546474849" ++
  "50515253545556575859" ++
  "60616263646566676869" ++
  "70717273747576777879" ++
  "80818283848586878889" ++
  "90919293949596979899")%string.

(** itoa.go:81 *)
Definition digits : bytes := B "0123456789abcdefghijklmnopqrstuvwxyz".

(** itoa.go:59-64; slicing of the constant strings, with bounds checks. *)
Definition small (i : Z) : outcome bytes :=
  if i <? 10 then
    c <- index digits i ;; Ret [c]
  else
    c0 <- index smallsString (i * 2) ;;
    c1 <- index smallsString (i * 2 + 1) ;;
    Ret [c0; c1].

(** itoa.go:95-96.  The buffer a[i:] is the list of the bytes written so far; a write
    "i--; a[i] = c" puts [c] in front and panics if the 65 bytes are used up. *)
Definition put (c : Z) (out : bytes) : outcome bytes :=
  if Z.of_nat (length out) <? 64 + 1 then Ret (c :: out) else Panic.

(** itoa.go:118-122 and 138-142: the last two digits of us; "i -= 2" and two writes. *)
Definition put2 (us : Z) (out : bytes) : outcome bytes :=
  let is := us mod 100 * 2 in
  c1 <- index smallsString (is + 1) ;;
  c0 <- index smallsString (is + 0) ;;
  out <- put c1 out ;;
  put c0 out.

(** itoa.go:117-123: [n] rounds of the inner loop; returns us and the buffer. *)
Fixpoint pairs (n : nat) (us : Z) (out : bytes) : outcome (Z * bytes) :=
  match n with
  | O => Ret (us, out)
  | S n => out <- put2 us out ;; pairs n (us / 100) out
  end.

(** itoa.go:111-131, for a host with 32-bit uint.  Loops run on fuel; exhausted fuel is [Panic]. *)
Fixpoint lower9 (fuel : nat) (u : Z) (out : bytes) : outcome (Z * bytes) :=
  match fuel with
  | O => Panic
  | S fuel =>
      if 1000000000 <=? u then
        let q := u / 1000000000 in
        let us := u32 (u64 (u - u64 (q * 1000000000))) in
        '(us, out) <- pairs 4 us out ;;
        c <- index smallsString (us * 2 + 1) ;;
        out <- put c out ;;
        lower9 fuel q out
      else Ret (u, out)
  end.

(** itoa.go:137-143 *)
Fixpoint hundreds (fuel : nat) (us : Z) (out : bytes) : outcome (Z * bytes) :=
  match fuel with
  | O => Panic
  | S fuel =>
      if 100 <=? us then
        out <- put2 us out ;;
        hundreds fuel (us / 100) out
      else Ret (us, out)
  end.

(** itoa.go:105-152 *)
Definition base10 (host32bit : bool) (u : Z) : outcome bytes :=
  '(u, out) <- (if host32bit then lower9 65 u [] else Ret (u, [])) ;;
  let us := if host32bit then u32 u else u64 u in
  '(us, out) <- hundreds 65 us out ;;
  let is := us * 2 in
  c <- index smallsString (is + 1) ;;
  out <- put c out ;;
  if 10 <=? us then
    c <- index smallsString is ;;
    put c out
  else Ret out.

(** itoa.go:165-172; uint is [w] bits wide. *)
Fixpoint pow2_loop (fuel : nat) (w base shift m u : Z) (out : bytes) : outcome bytes :=
  match fuel with
  | O => Panic
  | S fuel =>
      if base <=? u then
        c <- index digits (Z.land (u mod 2 ^ w) m) ;;
        out <- put c out ;;
        pow2_loop fuel w base shift m (Z.shiftr u shift) out
      else
        c <- index digits (u mod 2 ^ w) ;;
        put c out
  end.

(** itoa.go:175-187 *)
Fixpoint gen_loop (fuel : nat) (w b u : Z) (out : bytes) : outcome bytes :=
  match fuel with
  | O => Panic
  | S fuel =>
      if b <=? u then
        let q := u / b in
        c <- index digits (u64 (u - u64 (q * b)) mod 2 ^ w) ;;
        out <- put c out ;;
        gen_loop fuel w b q out
      else
        c <- index digits (u mod 2 ^ w) ;;
        put c out
  end.

(** itoa.go:204-206 *)
Definition isPowerOfTwo (x : Z) : bool := Z.land x (x - 1) =? 0.

(** itoa.go:89-202: the text a[i:]; appending it to dst or converting it to a string is
    left to the callers.  [host32bit] (itoa.go:79) is the word size of the host. *)
Definition formatBits (host32bit : bool) (u base : Z) (neg : bool) : outcome bytes :=
  if (base <? 2) || (Z.of_nat (length digits) <? base) then Panic
  else
    let w := if host32bit then 32 else 64 in
    let u := if neg then u64 (- u) else u in
    out <-
      (if base =? 10 then base10 host32bit u
       else if isPowerOfTwo base then
         let shift := Z.land (ctz base) 7 in
         pow2_loop 65 w base shift (base - 1) u []
       else gen_loop 65 w base u []) ;;
    if neg then put 45 out else Ret out.

(** itoa.go:14-20 *)
Definition FormatUint (host32bit : bool) (i base : Z) : outcome bytes :=
  if (i <? nSmalls) && (base =? 10) then small i
  else formatBits host32bit i base false.

(** itoa.go:25-31 *)
Definition FormatInt (host32bit : bool) (i base : Z) : outcome bytes :=
  if (0 <=? i) && (i <? nSmalls) && (base =? 10) then small i
  else formatBits host32bit (u64 i) base (i <? 0).

(** itoa.go:34-36 *)
Definition Itoa (host32bit : bool) (i : Z) : outcome bytes := FormatInt host32bit i 10.

(** itoa.go:40-46 *)
Definition AppendInt (host32bit : bool) (dst : bytes) (i base : Z) : outcome bytes :=
  if (0 <=? i) && (i <? nSmalls) && (base =? 10) then
    s <- small i ;; Ret (dst ++ s)
  else
    s <- formatBits host32bit (u64 i) base (i <? 0) ;; Ret (dst ++ s).

(** itoa.go:50-56 *)
Definition AppendUint (host32bit : bool) (dst : bytes) (i base : Z) : outcome bytes :=
  if (i <? nSmalls) && (base =? 10) then
    s <- small i ;; Ret (dst ++ s)
  else
    s <- formatBits host32bit i base false ;; Ret (dst ++ s).
