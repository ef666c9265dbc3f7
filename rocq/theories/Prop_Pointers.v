(** Property C29 for binary16, binary128 and float80x86: NewFromBig leaves its argument and
    everything else that was in memory alone, at the level of pointers. *)
From Coq Require Import ZArith.
From Verif Require Import GoBase BigFloat Pointers ClaimsPtr.
From Verif Require Binary16 Binary128 Float80x86.
Open Scope Z_scope.

(** Nothing that existed before the call, in particular *x, has changed after it. *)
Theorem C29_binary16_argument : forall h x r h', (x < next h)%nat -> NewFromBig16 x h = Ret (r, h') ->
  forall p, (p < next h)%nat -> cell h' p = cell h p.
Proof. exact c29_16. Qed.
Print Assumptions C29_binary16_argument.

Example C29_binary16_example :
  let h := mkStore 1 (fun _ => mkBF 60 ToZero Above true (Finite (2 ^ 59 + 1) (-70))) in
  exists r h', NewFromBig16 0 h = Ret (r, h') /\ next h' = 3%nat.
Proof. eexists _, _. split; [vm_compute; reflexivity|]. reflexivity. Qed.

(** It computes what the model by value computes. *)
Theorem C29_binary16_result : forall h x, (x < next h)%nat ->
  match NewFromBig16 x h with Ret (r, _) => Ret r | Panic => Panic end = Ret (Binary16.NewFromBig (cell h x)).
Proof. exact c29r_16. Qed.
Print Assumptions C29_binary16_result.

(** Nothing that existed before the call, in particular *x, has changed after it. *)
Theorem C29_float80x86_argument : forall h x r h', (x < next h)%nat -> NewFromBig80 x h = Ret (r, h') ->
  forall p, (p < next h)%nat -> cell h' p = cell h p.
Proof. exact c29_80. Qed.
Print Assumptions C29_float80x86_argument.

Example C29_float80x86_example :
  let h := mkStore 1 (fun _ => mkBF 60 ToZero Above true (Finite (2 ^ 59 + 1) (-70))) in
  exists r h', NewFromBig80 0 h = Ret (r, h') /\ next h' = 3%nat.
Proof. eexists _, _. split; [vm_compute; reflexivity|]. reflexivity. Qed.

(** It computes what the model by value computes. *)
Theorem C29_float80x86_result : forall h x, (x < next h)%nat ->
  match NewFromBig80 x h with Ret (r, _) => Ret r | Panic => Panic end = Ret (Float80x86.NewFromBig (cell h x)).
Proof. exact c29r_80. Qed.
Print Assumptions C29_float80x86_result.

(** Nothing that existed before the call, in particular *x, has changed after it. *)
Theorem C29_binary128_argument : forall h x r h', (x < next h)%nat -> NewFromBig128 x h = Ret (r, h') ->
  forall p, (p < next h)%nat -> cell h' p = cell h p.
Proof. exact c29_128. Qed.
Print Assumptions C29_binary128_argument.

Example C29_binary128_example :
  let h := mkStore 1 (fun _ => mkBF 60 ToZero Above true (Finite (2 ^ 59 + 1) (-70))) in
  exists r h', NewFromBig128 0 h = Ret (r, h') /\ next h' = 3%nat.
Proof. eexists _, _. split; [vm_compute; reflexivity|]. reflexivity. Qed.

(** It computes what the model by value computes. *)
Theorem C29_binary128_result : forall h x, (x < next h)%nat ->
  match NewFromBig128 x h with Ret (r, _) => Ret r | Panic => Panic end = Binary128.NewFromBig (cell h x).
Proof. exact c29r_128. Qed.
Print Assumptions C29_binary128_result.
