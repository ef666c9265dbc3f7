(** Programs that convert the same *big.Float several times: what the functions of this module
    return then.  Used by property C103. *)
From Coq Require Import ZArith List Bool.
From Verif Require Import GoBase BigFloat Pointers Pointers2.
From Verif Require Binary16 Binary128 Float80x86 Float128ppc FloatPkg.
Import ListNotations.
Open Scope Z_scope.

(** The exported functions with a *big.Float argument: binary16.go:87, float80x86.go:97,
    binary128.go:88, float128ppc.go:82, float.go:14, 25, 36. *)
Inductive call := CNew16 | CNew80 | CNew128 | CNewPpc | CExact16 | CExact32 | CExact64.

(** Their results: the same lines. *)
Inductive answer :=
| A16 (r : Binary16.Float * accuracy)
| A80 (r : Float80x86.Float * accuracy)
| A128 (r : Binary128.Float * accuracy)
| APpc (r : Float128ppc.Float * accuracy)
| ABool (b : bool).

(** One call with the pointer x on a 64-bit host: the same lines. *)
Definition do_call (opt : bool) (x : nat) (c : call) : M answer :=
  match c with
  | CNew16 => r <~ NewFromBig16 x ;; ret (A16 r)
  | CNew80 => r <~ NewFromBig80 x ;; ret (A80 r)
  | CNew128 => r <~ NewFromBig128 x ;; ret (A128 r)
  | CNewPpc => r <~ NewFromBigPpc x ;; ret (APpc r)
  | CExact16 => b <~ p_IsExact16 64 opt x ;; ret (ABool b)
  | CExact32 => b <~ p_IsExact32 64 opt x ;; ret (ABool b)
  | CExact64 => b <~ p_IsExact64 64 opt x ;; ret (ABool b)
  end.

(** One after the other, always with the same pointer. *)
Fixpoint do_calls (opt : bool) (x : nat) (cs : list call) : M (list answer) :=
  match cs with
  | [] => ret []
  | c :: cs => a <~ do_call opt x c ;; l <~ do_calls opt x cs ;; ret (a :: l)
  end.

(** What the call gives on the number v if it is the only one: the same lines. *)
Definition alone (opt : bool) (v : bigfloat) (c : call) : outcome answer :=
  match c with
  | CNew16 => Ret (A16 (Binary16.NewFromBig v))
  | CNew80 => Ret (A80 (Float80x86.NewFromBig v))
  | CNew128 => match Binary128.NewFromBig v with Ret r => Ret (A128 r) | Panic => Panic end
  | CNewPpc => match Float128ppc.NewFromBig v with Ret (f, a, _) => Ret (APpc (f, a)) | Panic => Panic end
  | CExact16 => match FloatPkg.IsExact16 64 opt v with Ret b => Ret (ABool b) | Panic => Panic end
  | CExact32 => match FloatPkg.IsExact32 64 opt v with Ret b => Ret (ABool b) | Panic => Panic end
  | CExact64 => match FloatPkg.IsExact64 64 opt v with Ret b => Ret (ABool b) | Panic => Panic end
  end.

(** Each of several such calls, always with the number as it was at first (the entry points of
    [alone]). *)
Fixpoint all_alone (opt : bool) (v : bigfloat) (cs : list call) : outcome (list answer) :=
  match cs with
  | [] => Ret []
  | c :: cs =>
      match alone opt v c with
      | Ret a => match all_alone opt v cs with Ret l => Ret (a :: l) | Panic => Panic end
      | Panic => Panic
      end
  end.
