(** Specification: what the generated lines of Go source denote.  Independent of the models but for
    the names of the accuracies. *)
From Coq Require Import ZArith Reals String List Bool.
From Verif Require Import GoBase Spec SpecText SpecDec SpecFtoa SpecFmt.
From Verif Require BigFloat.
Import ListNotations.
Open Scope Z_scope.

(** A hexadecimal digit, in capitals. *)
Definition hex_val (c : Z) : Z :=
  if andb (48 <=? c) (c <=? 57) then c - 48 else if andb (65 <=? c) (c <=? 70) then c - 55 else -1.

(** [s] is [v] in [n] hexadecimal digits. *)
Definition hex_text (n : nat) (s : list Z) (v : Z) : Prop :=
  length s = n /\ Forall (fun c => 0 <= hex_val c) s /\ fold_left (fun a c => a * 16 + hex_val c) s 0 = v.

(** Printable ASCII but for the quote and the backslash. *)
Definition plain (c : Z) : Prop := 32 <= c < 127 /\ c <> 34 /\ c <> 92.

(** The float64 (a bit pattern) of an expression: a constant, perhaps after a minus sign, is rounded to
    nearest even, and -0 is 0 since constants have no negative zero; or one of three calls. *)
Definition go_float64 (s : list Z) (x : Z) : Prop :=
  0 <= x < 2 ^ 64 /\
  ((exists ng v, text_of ng v s /\ (0 <= v)%R /\
      (rn 52 11 v = 0%R -> x = 0) /\ (rn 52 11 v <> 0%R -> (rn 52 11 v < p2 1024)%R /\ ieee 52 11 x = VNum ng (sgnR ng (rn 52 11 v)))) \/
   s = B "math.Copysign(0, -1)" /\ ieee 52 11 x = VNum true 0 \/
   s = B "math.Inf(+1)" /\ ieee 52 11 x = VInf false \/
   s = B "math.Inf(-1)" /\ ieee 52 11 x = VInf true).

(** A comment to the end of the line. *)
Definition comment (s : list Z) : Prop := exists c, s = B " // " ++ c /\ Forall plain c.

(** A line of the tables of binary16 and its two fields. *)
Definition entry16_text (s : list Z) (g : Z * Z) : Prop :=
  exists hx lit c, s = B "{bits: 0x" ++ hx ++ B ", want: " ++ lit ++ B "}," ++ c /\
    hex_text 4 hx (fst g) /\ go_float64 lit (snd g) /\ comment c.

(** The name of an accuracy after "big.". *)
Definition accuracy_name (s : list Z) (a : BigFloat.accuracy) : Prop :=
  a = BigFloat.Below /\ s = B "Below" \/ a = BigFloat.Exact /\ s = B "Exact" \/ a = BigFloat.Above /\ s = B "Above".

(** A line of the tables of binary128 and its five fields. *)
Definition entry128_text (s : list Z) (a b : Z) (want : list Z) (want64 : Z) (acc64 : BigFloat.accuracy) : Prop :=
  exists hx hy lit n c, s = B "{a: 0x" ++ hx ++ B ", b: 0x" ++ hy ++ B ", want: " ++ [34] ++ want ++ [34] ++ B ", want64: " ++ lit ++
      B ", acc64: big." ++ n ++ B "}," ++ c /\
    hex_text 16 hx a /\ hex_text 16 hy b /\ Forall plain want /\ go_float64 lit want64 /\ accuracy_name n acc64 /\ comment c.
