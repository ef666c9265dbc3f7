(** Appending to slices: which bytes of memory change (C98, C99), and how often FormatFloat
    allocates (C100).

    The functions are those of Slices.v, where a slice is a part of an array in a heap and
    [grow] decides how much append allocates.  [appended h s t h' s'] says what appending the
    text t to s does to the heap (SpecSlice.v); [reads h s t] that the bytes of s are t. *)
From Coq Require Import ZArith Reals String List Lia Arith.
From Verif Require Import GoBase Spec SpecFtoa SpecFmt Slices SpecSlice.
From Verif Require Ftoa FtoaArr Itoa.
From Verif Require ClaimsFtoa ClaimsFtoa2.
From Verif Require Import ClaimsSlice ClaimsAlloc ClaimsAlloc2.
Import ListNotations.
Open Scope Z_scope.

Theorem C98_AppendFloat : forall grow w opt h dst f fmt prec bitSize t, valid h dst ->
  FtoaArr.FormatFloat w opt f fmt prec bitSize = Ret t ->
  exists s' h', AppendFloat grow w opt dst f fmt prec bitSize h = Ret (s', h') /\ appended h dst t h' s'.
Proof. exact c98_f. Qed.
Print Assumptions C98_AppendFloat.

Theorem C98_AppendInt : forall grow host h dst i base t, valid h dst -> Itoa.FormatInt host i base = Ret t ->
  exists s' h', AppendInt grow host dst i base h = Ret (s', h') /\ appended h dst t h' s'.
Proof. exact c98_i. Qed.
Print Assumptions C98_AppendInt.

Theorem C98_AppendUint : forall grow host h dst i base t, valid h dst -> Itoa.FormatUint host i base = Ret t ->
  exists s' h', AppendUint grow host dst i base h = Ret (s', h') /\ appended h dst t h' s'.
Proof. exact c98_u. Qed.
Print Assumptions C98_AppendUint.

(** An array of eight bytes, and the slice of its second byte with capacity 5: there is room for four more.  1.5
    and ff fit, -12345 does not. *)
Example C98_example :
  valid [[1; 2; 3; 4; 5; 6; 7; 8]] (mkSl 0 1 1 5) /\
  AppendFloat (fun _ n => n) 64 true (mkSl 0 1 1 5) 0x3FF8000000000000 103 (-1) 64 [[1; 2; 3; 4; 5; 6; 7; 8]] =
    Ret (mkSl 0 1 4 5, [[1; 2; 49; 46; 53; 6; 7; 8]]) /\
  AppendInt (fun _ n => (2 * n)%nat) false (mkSl 0 1 1 5) (-12345) 10 [[1; 2; 3; 4; 5; 6; 7; 8]] =
    Ret (mkSl 1 0 7 14, [[1; 2; 3; 4; 5; 6; 7; 8]; [2; 45; 49; 50; 51; 52; 53; 0; 0; 0; 0; 0; 0; 0]]) /\
  AppendUint (fun _ n => n) true (mkSl 0 1 1 5) 255 16 [[1; 2; 3; 4; 5; 6; 7; 8]] =
    Ret (mkSl 0 1 3 5, [[1; 2; 102; 102; 5; 6; 7; 8]]).
Proof. split; [split; cbn; lia|]. repeat split; vm_compute; reflexivity. Qed.

(** They panic when the functions that return strings do. *)
Theorem C98_panics : forall grow h dst, valid h dst ->
  (forall w opt f fmt prec bitSize, FtoaArr.FormatFloat w opt f fmt prec bitSize = Panic ->
     AppendFloat grow w opt dst f fmt prec bitSize h = Panic) /\
  (forall host i base, Itoa.FormatInt host i base = Panic -> AppendInt grow host dst i base h = Panic) /\
  (forall host i base, Itoa.FormatUint host i base = Panic -> AppendUint grow host dst i base h = Panic).
Proof. exact c98_panics. Qed.
Print Assumptions C98_panics.

Example C98_panics_example : FtoaArr.FormatFloat 64 true 0 101 (-1) 63 = Panic /\ Itoa.FormatInt false 5 1 = Panic /\
  Itoa.FormatUint false 5 37 = Panic.
Proof. repeat split; vm_compute; reflexivity. Qed.

(** Another slice keeps its bytes unless it reaches behind dst within dst's capacity. *)
Theorem C98_other_slices : forall h s t h' s' u x, appended h s t h' s' -> valid h u ->
  arr u <> arr s \/ (off u + len u <= off s + len s)%nat \/ (off s + cap s <= off u)%nat ->
  reads h u x -> valid h' u /\ reads h' u x.
Proof. exact c98_other. Qed.
Print Assumptions C98_other_slices.

(** A slice behind dst that dst's capacity reaches is overwritten. *)
Example C98_other_example :
  reads [[1; 2; 3; 4]] (mkSl 0 1 2 3) [2; 3] /\
  AppendUint (fun _ n => n) false (mkSl 0 0 1 4) 77 10 [[1; 2; 3; 4]] = Ret (mkSl 0 0 3 4, [[1; 55; 55; 4]]) /\
  reads [[1; 55; 55; 4]] (mkSl 0 1 2 3) [55; 55] /\
  reads [[1; 55; 55; 4]] (mkSl 0 3 1 1) [4].
Proof.
  split; [|split; [vm_compute; reflexivity|split]]; (split; [reflexivity|]);
    intros i Hi; cbn [len] in Hi; destruct i as [|[|i]]; try reflexivity; lia.
Qed.

(** FormatFloat works in a buffer of its own.  It returns the text, leaves every array as it is
    and allocates again exactly if the text is longer than the buffer. *)
Theorem C98_FormatFloat : forall grow limit w opt f fmt prec bitSize t h,
  FtoaArr.FormatFloat w opt f fmt prec bitSize = Ret t -> Z.max (sint w (prec + 4)) 24 <= limit ->
  exists h', FormatFloat grow limit w opt f fmt prec bitSize h = Ret (t, h') /\
    (length h < length h')%nat /\
    (forall a, (a < length h)%nat -> nth a h' [] = nth a h []) /\
    (Z.of_nat (length t) <= Z.max (sint w (prec + 4)) 24 -> length h' = S (length h)) /\
    (Z.max (sint w (prec + 4)) 24 < Z.of_nat (length t) -> (S (length h) < length h')%nat).
Proof. exact c98_make. Qed.
Print Assumptions C98_FormatFloat.

Theorem C98_FormatFloat_panics : forall grow limit w opt f fmt prec bitSize h,
  FtoaArr.FormatFloat w opt f fmt prec bitSize = Panic \/ limit < Z.max (sint w (prec + 4)) 24 ->
  FormatFloat grow limit w opt f fmt prec bitSize h = Panic.
Proof. exact c98_make_panics. Qed.
Print Assumptions C98_FormatFloat_panics.

Example C98_FormatFloat_example :
  FormatFloat (fun _ n => n) (2 ^ 48) 64 true 0x3FF8000000000000 102 2 64 [[9]] =
    Ret ([49; 46; 53; 48], [[9]; [49; 46; 53; 48] ++ repeat 0 20]) /\
  2 ^ 48 < Z.max (sint 64 (2 ^ 62 + 4)) 24.
Proof. split; vm_compute; reflexivity. Qed.

(** AppendInt and AppendUint leave every array as it is if the text does not fit. *)
Theorem C99_AppendInt : forall grow host h dst i base t s' h', valid h dst -> Itoa.FormatInt host i base = Ret t ->
  AppendInt grow host dst i base h = Ret (s', h') -> (cap dst < len dst + length t)%nat ->
  forall a, (a < length h)%nat -> nth a h' [] = nth a h [].
Proof. exact c99_i. Qed.
Print Assumptions C99_AppendInt.

Theorem C99_AppendUint : forall grow host h dst i base t s' h', valid h dst -> Itoa.FormatUint host i base = Ret t ->
  AppendUint grow host dst i base h = Ret (s', h') -> (cap dst < len dst + length t)%nat ->
  forall a, (a < length h)%nat -> nth a h' [] = nth a h [].
Proof. exact c99_u. Qed.
Print Assumptions C99_AppendUint.

Example C99_example : AppendInt (fun _ n => n) false (mkSl 0 0 1 3) (-12) 10 [[1; 2; 3]] =
  Ret (mkSl 1 0 4 4, [[1; 2; 3]; [1; 45; 49; 50]]).
Proof. vm_compute. reflexivity. Qed.

(** AppendFloat does not: 1.5 is three bytes long, there is room for two, and these two are overwritten. *)
Theorem C99_AppendFloat_refuted : forall grow, exists h dst s' h', valid h dst /\
  AppendFloat grow 64 true dst 0x3FF8000000000000 102 1 64 h = Ret (s', h') /\
  (cap dst < len dst + 3)%nat /\ nth 0 h [] = [88; 89; 90] /\ nth 0 h' [] = [88; 49; 46].
Proof. exact c99_refuted. Qed.
Print Assumptions C99_AppendFloat_refuted.

(** What holds of AppendFloat: the old arrays have at most the first bytes of the text behind dst and are
    unchanged elsewhere.  They are unchanged if dst has no room at all. *)
Theorem C99_AppendFloat_partial : forall grow w opt h dst f fmt prec bitSize t s' h', valid h dst ->
  FtoaArr.FormatFloat w opt f fmt prec bitSize = Ret t -> AppendFloat grow w opt dst f fmt prec bitSize h = Ret (s', h') ->
  exists k, (k <= length t)%nat /\ (len dst + k <= cap dst)%nat /\
    forall a i, (a < length h)%nat ->
      (a = arr dst -> (off dst + len dst <= i < off dst + len dst + k)%nat ->
         byte_at h' a i = nth (i - (off dst + len dst)) t 0) /\
      (a <> arr dst \/ (i < off dst + len dst)%nat \/ (off dst + len dst + k <= i)%nat -> byte_at h' a i = byte_at h a i).
Proof. exact c99_f. Qed.
Print Assumptions C99_AppendFloat_partial.

(** -1.5e+00 behind one byte, with room for three more; the exponent moves to a new array. *)
Example C99_AppendFloat_example : exists s' h',
  AppendFloat (fun _ n => n) 64 true (mkSl 0 1 1 4) 0xBFF8000000000000 101 1 64 [[7; 8; 9; 9; 9; 9]] = Ret (s', h') /\
  nth 0 h' [] = [7; 8; 45; 49; 46; 9].
Proof. eexists _, _. split; [vm_compute; reflexivity|reflexivity]. Qed.

(** FormatFloat allocates once for every finite number with a negative precision or at most 16 digits after the
    point of 'e', 17 digits of 'g'; one more for 32 and 16 bits. *)
Theorem C100_once_partial : forall grow limit w opt val fmt prec bitSize mb eb b s h, w = 32 \/ w = 64 ->
  as_float bitSize val mb eb b s -> (exists t v, ieee mb eb b = VNum t v) ->
  fmt = 101 \/ fmt = 69 \/ fmt = 103 \/ fmt = 71 -> 24 <= limit ->
  - 2 ^ (w - 1) <= prec <= 16 + (if bitSize =? 64 then 0 else 1) + (if ((fmt =? 103) || (fmt =? 71))%bool then 1 else 0) ->
  exists t h', FormatFloat grow limit w opt val fmt prec bitSize h = Ret (t, h') /\
    length h' = S (length h) /\ forall a, (a < length h)%nat -> nth a h' [] = nth a h [].
Proof. exact c100. Qed.
Print Assumptions C100_once_partial.

Example C100_example : as_float 64 0x3FF0000000000000 52 11 0x3FF0000000000000 false /\
  (exists t v, ieee 52 11 0x3FF0000000000000 = VNum t v) /\
  FormatFloat (fun _ n => n) (2 ^ 48) 64 true 0x3FF0000000000000 101 3 64 [] = Ret (B "1.000e+00"%string, [B "1.000e+00"%string ++ repeat 0 15]).
Proof.
  split; [apply (ClaimsFtoa2.as_float_64 _ false 1); [lia|exact ClaimsFtoa.ieee_one]|].
  split; [exists false, (sgnR false 1); exact ClaimsFtoa.ieee_one|vm_compute; reflexivity].
Qed.

(** With 17 digits after the point of 'e' it allocates twice: -1.74980057982640954e+100 *)
Theorem C100_once_refuted : forall grow h, exists t h',
  FormatFloat grow (2 ^ 48) 64 true 0xD4C0000000000000 101 17 64 h = Ret (t, h') /\
  t = [45; 49; 46; 55; 52; 57; 56; 48; 48; 53; 55; 57; 56; 50; 54; 52; 48; 57; 53; 52; 101; 43; 49; 48; 48] /\
  (S (length h) < length h')%nat.
Proof. exact c100_refuted. Qed.
Print Assumptions C100_once_refuted.

(** Exactly when in 'e' and 'E': it allocates once for the texts of at most 24 bytes; those with 20 digits or more
    after the point are longer. *)
Theorem C100_e_exactly : forall grow limit w opt val fmt prec bitSize mb eb b s h, w = 32 \/ w = 64 ->
  as_float bitSize val mb eb b s -> (exists t v, ieee mb eb b = VNum t v) ->
  fmt = 101 \/ fmt = 69 -> 0 <= prec < 2 ^ (w - 1) - 4 -> Z.max (prec + 4) 24 <= limit ->
  exists t h', FormatFloat grow limit w opt val fmt prec bitSize h = Ret (t, h') /\
    (length h' = S (length h) <-> Z.of_nat (length t) <= 24) /\ (20 <= prec -> 24 < Z.of_nat (length t)).
Proof. exact c100_e. Qed.
Print Assumptions C100_e_exactly.

(** And in 'f' with 20 digits or more after the point, if the text has at most three bytes before the point. *)
Theorem C100_f_exactly : forall grow limit w opt val prec bitSize mb eb b s v h, w = 32 \/ w = 64 ->
  as_float bitSize val mb eb b s -> ieee mb eb b = VNum s (sgnR s v) ->
  0 <= prec < 2 ^ (w - 1) - 4 -> Z.max (prec + 4) 24 <= limit ->
  exists t h', FormatFloat grow limit w opt val 102 prec bitSize h = Ret (t, h') /\
    (20 <= prec -> length h' = S (length h) <-> (SpecDec.round10 (- prec) v < if s then 100 else 1000)%R).
Proof. exact c100_f. Qed.
Print Assumptions C100_f_exactly.

(** 1 with 20 digits: twice in 'e', once in 'f'; and 1000. *)
Example C100_exactly_example :
  (exists t a b, FormatFloat (fun _ n => n) (2 ^ 48) 64 true 0x3FF0000000000000 101 20 64 [] = Ret (t, [a; b])) /\
  (exists t a, FormatFloat (fun _ n => n) (2 ^ 48) 64 true 0x3FF0000000000000 102 20 64 [] = Ret (t, [a])) /\
  (exists t a b, FormatFloat (fun _ n => n) (2 ^ 48) 64 true 0x408F400000000000 102 20 64 [] = Ret (t, [a; b])).
Proof. split; [do 3 eexists|split; [do 2 eexists|do 3 eexists]]; vm_compute; reflexivity. Qed.

(** The length of the texts with a fixed precision *)
Theorem C100_length_e : forall w opt val fmt prec bitSize mb eb b s, w = 32 \/ w = 64 ->
  as_float bitSize val mb eb b s -> (exists t v, ieee mb eb b = VNum t v) ->
  fmt = 101 \/ fmt = 69 -> 0 <= prec < 2 ^ (w - 1) - 1 ->
  exists t k, Ftoa.FormatFloat w opt val fmt prec bitSize = Ret t /\ 2 <= k <= (if bitSize =? 64 then 3 else 2) /\
    Z.of_nat (length t) = (if s then 1 else 0) + prec + (if prec =? 0 then 3 else 4) + k.
Proof. exact len_e_exactly. Qed.
Print Assumptions C100_length_e.

Theorem C100_length_g : forall w opt val fmt prec bitSize mb eb b s, w = 32 \/ w = 64 ->
  as_float bitSize val mb eb b s -> (exists t v, ieee mb eb b = VNum t v) ->
  fmt = 103 \/ fmt = 71 -> 0 <= prec ->
  exists t, Ftoa.FormatFloat w opt val fmt prec bitSize = Ret t /\
    Z.of_nat (length t) <= Z.max prec 1 + 4 + (if bitSize =? 64 then 3 else 2).
Proof. exact len_g. Qed.
Print Assumptions C100_length_g.

(** The bounds 13, 12, 12 and 11 are attained. *)
Example C100_length_example :
  Ftoa.FormatFloat 64 true 0xD4C0000000000000 101 5 64 = Ret (B "-1.74980e+100"%string) /\
  Ftoa.FormatFloat 64 true 0xD4C0000000000000 103 5 64 = Ret (B "-1.7498e+100"%string) /\
  Ftoa.FormatFloat 64 true 0xC4C0000000000000 69 5 32 = Ret (B "-1.51116E+23"%string) /\
  Ftoa.FormatFloat 64 true 0xC4C0000000000000 71 5 32 = Ret (B "-1.5112E+23"%string).
Proof. repeat split; vm_compute; reflexivity. Qed.
