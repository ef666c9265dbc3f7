(** Properties C101, C102 and C103: the *big.Floats that Big returns, the *big.Float that
    float128ppc.NewFromBig changes, and what a program sees that converts one number several
    times. *)
From Coq Require Import ZArith Reals List.
From Verif Require Import GoBase BigFloat Spec Pointers Pointers2 Calls PtrFacts2 ClaimsCalls.
From Verif Require Binary16 Bfloat Binary128 Float80x86 Float128ppc.
Import ListNotations.
Open Scope Z_scope.

(** binary16: Big returns a new address, which holds the number the model by value gives, and
    changes nothing else. *)
Theorem C101_binary16 : forall h f,
  match Big16 f h with
  | Ret ((x, nan), h') =>
      (next h <= x < next h')%nat /\ Binary16.Big f = Ret (cell h' x, nan) /\
      forall p, (p < next h)%nat -> cell h' p = cell h p
  | Panic => Binary16.Big f = Panic
  end.
Proof. exact c101_16. Qed.
Print Assumptions C101_binary16.

Example C101_binary16_example :
  exists x h', Big16 48129 (mkStore 3 (fun _ => NewFloat0)) = Ret ((x, false), h') /\ x = 3%nat /\ IsInf (cell h' x) = false /\ Signbit (cell h' x) = true.
Proof.
  eexists _, _. split; [vm_compute; reflexivity|]. split; [reflexivity|]. split; [vm_compute; reflexivity|vm_compute; reflexivity].
Qed.

(** bfloat: Big returns a new address, which holds the number the model by value gives, and
    changes nothing else. *)
Theorem C101_bfloat : forall h f,
  match BigBf f h with
  | Ret ((x, nan), h') =>
      (next h <= x < next h')%nat /\ Bfloat.Big f = Ret (cell h' x, nan) /\
      forall p, (p < next h)%nat -> cell h' p = cell h p
  | Panic => Bfloat.Big f = Panic
  end.
Proof. exact c101_bf. Qed.
Print Assumptions C101_bfloat.

Example C101_bfloat_example :
  exists x h', BigBf 49024 (mkStore 3 (fun _ => NewFloat0)) = Ret ((x, false), h') /\ x = 3%nat /\ IsInf (cell h' x) = false /\ Signbit (cell h' x) = true.
Proof.
  eexists _, _. split; [vm_compute; reflexivity|]. split; [reflexivity|]. split; [vm_compute; reflexivity|vm_compute; reflexivity].
Qed.

(** float80x86: Big returns a new address, which holds the number the model by value gives, and
    changes nothing else. *)
Theorem C101_float80x86 : forall h f,
  match Big80 f h with
  | Ret ((x, nan), h') =>
      (next h <= x < next h')%nat /\ Float80x86.Big f = Ret (cell h' x, nan) /\
      forall p, (p < next h)%nat -> cell h' p = cell h p
  | Panic => Float80x86.Big f = Panic
  end.
Proof. exact c101_80. Qed.
Print Assumptions C101_float80x86.

Example C101_float80x86_example :
  exists x h', Big80 (Float80x86.mkFloat 49152 (2 ^ 63 + 5)) (mkStore 3 (fun _ => NewFloat0)) = Ret ((x, false), h') /\ x = 3%nat /\ IsInf (cell h' x) = false /\ Signbit (cell h' x) = true.
Proof.
  eexists _, _. split; [vm_compute; reflexivity|]. split; [reflexivity|]. split; [vm_compute; reflexivity|vm_compute; reflexivity].
Qed.

(** binary128: Big returns a new address, which holds the number the model by value gives, and
    changes nothing else. *)
Theorem C101_binary128 : forall h f,
  match Big128 f h with
  | Ret ((x, nan), h') =>
      (next h <= x < next h')%nat /\ Binary128.Big f = Ret (cell h' x, nan) /\
      forall p, (p < next h)%nat -> cell h' p = cell h p
  | Panic => Binary128.Big f = Panic
  end.
Proof. exact c101_128. Qed.
Print Assumptions C101_binary128.

Example C101_binary128_example :
  exists x h', Big128 (Binary128.mkFloat (2 ^ 62 + 2 ^ 63) 7) (mkStore 3 (fun _ => NewFloat0)) = Ret ((x, false), h') /\ x = 3%nat /\ IsInf (cell h' x) = false /\ Signbit (cell h' x) = true.
Proof.
  eexists _, _. split; [vm_compute; reflexivity|]. split; [reflexivity|]. split; [vm_compute; reflexivity|vm_compute; reflexivity].
Qed.

(** float128ppc: Big returns a new address, which holds the number the model by value gives, and
    changes nothing else. *)
Theorem C101_float128ppc : forall h f,
  match BigPpc f h with
  | Ret ((x, nan), h') =>
      (next h <= x < next h')%nat /\ Float128ppc.Big f = Ret (cell h' x, nan) /\
      forall p, (p < next h)%nat -> cell h' p = cell h p
  | Panic => Float128ppc.Big f = Panic
  end.
Proof. exact c101_ppc. Qed.
Print Assumptions C101_float128ppc.

Example C101_float128ppc_example :
  exists x h', BigPpc (Float128ppc.mkFloat (2 ^ 62 + 2 ^ 63) (2 ^ 59)) (mkStore 3 (fun _ => NewFloat0)) = Ret ((x, false), h') /\ x = 3%nat /\ IsInf (cell h' x) = false /\ Signbit (cell h' x) = true.
Proof.
  eexists _, _. split; [vm_compute; reflexivity|]. split; [reflexivity|]. split; [vm_compute; reflexivity|vm_compute; reflexivity].
Qed.

(** float128ppc.NewFromBig changes, of what was there before, only *x, and gives what the model by
    value gives; the model's third component is what *x holds afterwards. *)
Theorem C102_float128ppc : forall h x, (x < next h)%nat ->
  match NewFromBigPpc x h with
  | Ret ((f, a), h') =>
      (next h <= next h')%nat /\ Float128ppc.NewFromBig (cell h x) = Ret (f, a, cell h' x) /\
      forall p, (p < next h)%nat -> p <> x -> cell h' p = cell h p
  | Panic => Float128ppc.NewFromBig (cell h x) = Panic
  end.
Proof. exact c102. Qed.
Print Assumptions C102_float128ppc.

(** *x keeps infinities and zeros, and becomes any other number rounded to 106 bits in its own mode. *)
Theorem C102_argument : forall h x f a h', (x < next h)%nat -> wf (cell h x) -> NewFromBigPpc x h = Ret ((f, a), h') ->
  ((exists s, bval (cell h x) = VInf s \/ bval (cell h x) = VNum s 0) -> cell h' x = cell h x) /\
  (forall s v, bval (cell h x) = VNum s v -> v <> 0%R ->
     bval (cell h' x) = VNum s (rnd_prec (rmode (cell h x)) 106 v) /\ prec (cell h' x) = 106).
Proof. exact c102_value. Qed.
Print Assumptions C102_argument.

Example C102_example :
  exists r h', NewFromBigPpc 0 (mkStore 2 (fun _ => mkBF 111 ToZero Above true (Finite (2 ^ 110 + 1) (-110)))) = Ret (r, h') /\
    cell h' 0%nat = mkBF 106 ToNearestEven Exact true (Finite (2 ^ 105) (-105)) /\
    cell h' 1%nat = mkBF 111 ToZero Above true (Finite (2 ^ 110 + 1) (-110)).
Proof. eexists _, _. split; [vm_compute; reflexivity|]. split; [vm_compute; reflexivity|vm_compute; reflexivity]. Qed.

(** In any program of calls of NewFromBig and IsExact16/32/64 with the same pointer, every call
    answers what it answers alone, if none of them is NewFromBig of float128ppc or the number is
    infinite or has at most 106 bits. *)
Theorem C103_order_partial : forall opt h x cs, (x < next h)%nat -> wf (cell h x) ->
  (~ In CNewPpc cs) \/ (forall s v, bval (cell h x) = VNum s v -> exists m e, v = (IZR m * p2 e)%R /\ Z.abs m < 2 ^ 106) ->
  match do_calls opt x cs h with Ret (l, _) => Ret l | Panic => Panic end = all_alone opt (cell h x) cs.
Proof. exact c103. Qed.
Print Assumptions C103_order_partial.

Example C103_order_example :
  all_alone true (mkBF 111 ToZero Above true (Finite (2 ^ 110 + 1) (-110))) [CExact64; CNew16; CExact64] =
    Ret [ABool false; A16 (48128, Below); ABool false] /\
  all_alone true (mkBF 53 ToZero Above true (Finite (2 ^ 52 + 1) (-52))) [CNewPpc; CExact32; CNewPpc] =
    Ret [APpc (Float128ppc.mkFloat 13830554455654793217 0, Exact); ABool false; APpc (Float128ppc.mkFloat 13830554455654793217 0, Exact)].
Proof. split; [vm_compute; reflexivity|vm_compute; reflexivity]. Qed.

(** It is not so in general: 1 + 2^-110 is no float64, but after its conversion to a double-double
    IsExact64 answers true for the same pointer. *)
Theorem C103_order_refuted : exists opt h x cs, (x < next h)%nat /\ wf (cell h x) /\
  match do_calls opt x cs h with Ret (l, _) => Ret l | Panic => Panic end <> all_alone opt (cell h x) cs.
Proof. exact c103_refuted. Qed.
Print Assumptions C103_order_refuted.

(** What comes after the first conversion to a double-double is answered for the number which that
    call left in *x. *)
Theorem C103_after : forall opt h x cs f a x', (x < next h)%nat -> wf (cell h x) ->
  Float128ppc.NewFromBig (cell h x) = Ret (f, a, x') ->
  match do_calls opt x (CNewPpc :: cs) h with Ret (l, _) => Ret l | Panic => Panic end =
  match all_alone opt x' cs with Ret l => Ret (APpc (f, a) :: l) | Panic => Panic end.
Proof. exact c103_after. Qed.
Print Assumptions C103_after.

Example C103_after_example :
  Float128ppc.NewFromBig (mkBF 111 ToZero Above true (Finite (2 ^ 110 + 1) (-110))) =
    Ret (Float128ppc.mkFloat 13830554455654793216 0, Exact, mkBF 106 ToNearestEven Exact true (Finite (2 ^ 105) (-105))).
Proof. vm_compute. reflexivity. Qed.

(** A second conversion to a double-double gives the same again and leaves the number alone. *)
Theorem C103_twice : forall x f a x', wf x -> Float128ppc.NewFromBig x = Ret (f, a, x') ->
  exists x'', Float128ppc.NewFromBig x' = Ret (f, a, x'') /\ bval x'' = bval x'.
Proof. exact c103_twice. Qed.
Print Assumptions C103_twice.
