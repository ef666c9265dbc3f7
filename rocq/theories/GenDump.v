(** What dumpTest of binary128/gen.go draws and sorts before it makes the lines of GenLines.v.  The random
    numbers and the two sorting functions are parameters; flags, files and the template are not modelled. *)
From Coq Require Import ZArith List Bool.
From Verif Require Import GoBase BigFloat GenLines.
Import ListNotations.
Open Scope Z_scope.

(** binary128/gen.go:46: rand.Intn(0x7FFE) + 1, [r] being what rand.Intn returns. *)
Definition draw_exp (r : Z) : Z := r + 1.

(** binary128/gen.go:56-59: two uint64s, of the first of which 48 bits are kept. *)
Definition draw_mant (r : Z * Z) : Z * Z := (Z.land (fst r) 0xFFFFFFFFFFFF, snd r).

(** The function given to sort.Slice: binary128/gen.go:62-67. *)
Definition mant_less (x y : Z * Z) : bool :=
  if fst x <? fst y then true else snd x <? snd y.

(** binary128/gen.go:42-71: the two lists of lines handed to the template. *)
Definition dumpTest (text : bigfloat -> bytes) (sortInts : list Z -> list Z)
    (sortSlice : (Z * Z -> Z * Z -> bool) -> list (Z * Z) -> list (Z * Z)) (rs : list Z) (us : list (Z * Z)) : outcome (list bytes * list bytes) :=
  let exps := sortInts (map draw_exp rs) in
  let mants := sortSlice mant_less (map draw_mant us) in
  ns <- linesNormalized128 text exps mants ;;
  ds <- linesDenormalized128 text mants ;;
  Ret (ns, ds).
