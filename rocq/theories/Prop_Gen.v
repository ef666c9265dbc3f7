(** The test tables of binary16/gen.go and binary128/gen.go (C67, C71). *)
From Coq Require Import ZArith Reals String List Bool.
From Verif Require Import GoBase Spec GenTests ClaimsGen.
From Verif Require BigFloat GenText.
Import ListNotations.
Open Scope Z_scope.

(** The tables of binary16/gen.go list every finite half precision pattern once, with its exact float64,
    and all tests of extra_test.tmpl succeed on every entry. *)
Theorem C67_binary16_tables : exists ns ds, getNormalized16 = Ret ns /\ getDenormalized16 = Ret ds /\
  NoDup (map fst (ns ++ ds)) /\
  (forall b, In b (map fst (ns ++ ds)) <-> 0 <= b < 2 ^ 16 /\ exists s v, ieee 10 5 b = VNum s v) /\
  Forall (fun g => ieee 52 11 (snd g) = ieee 10 5 (fst g) /\
    test16_bits g = Ret true /\ test16_float32 g = Ret true /\ test16_float64 g = Ret true) (ns ++ ds).
Proof. exact c67_all. Qed.
Print Assumptions C67_binary16_tables.

Example C67_example : gen16 1 0 15 0 1 = Ret (0x3C01, 0x3FF0040000000000) /\ gen16 0 1 0 (-14) 0 = Ret (0x8000, 2 ^ 63).
Proof. split; vm_compute; reflexivity. Qed.

(** binary128/gen.go, for whatever exponents and mantissas it draws: the tables list the patterns of these
    exponents and mantissas, and the tests of extra_test.tmpl succeed on every entry.  [text] is Text('g', 35)
    and [reread] is SetString.  Missing: that the text of 35 digits reads back as the number, which the
    comparisons of lines 43 to 79 of the template suppose. *)
Theorem C71_binary128_tables_partial : forall text exps mants, Forall (fun e => 1 <= e <= 0x7FFE) exps -> Forall (fun m => 0 <= fst m < 2 ^ 48 /\ 0 <= snd m < 2 ^ 64) mants ->
  exists ns ds, getNormalized128 text exps mants = Ret ns /\ getDenormalized128 text mants = Ret ds /\
  map (fun g => (ga g, gb g)) ns = flat_map (fun s => flat_map (fun e => map (fun m => (s * 2 ^ 63 + e * 2 ^ 48 + fst m, snd m)) mants) exps) [0; 1] /\
  map (fun g => (ga g, gb g)) ds = flat_map (fun s => map (fun m => (s * 2 ^ 63 + fst m, snd m)) mants) [0; 1] /\
  Forall (fun g => test128_bits text g = Ret true /\ test128_float32 g = Ret true /\ test128_float64 g = Ret true /\
    forall reread, (forall t v, quad (ga g) (gb g) = VNum t v -> exists t', wf (reread (gwant g)) /\ bval (reread (gwant g)) = VNum t' v) ->
      test128_acc reread g = Ret true) (ns ++ ds).
Proof. exact c71. Qed.
Print Assumptions C71_binary128_tables_partial.

(** 1 + 2^-112 *)
Example C71_example : gen128 (fun _ => []) 1 0 16383 0 0 1 = Ret (mkGolden 0x3FFF000000000000 1 [] 0x3FF0000000000000 BigFloat.Below).
Proof. vm_compute; reflexivity. Qed.

(** Without the hypothesis on [reread] the claim is false of the models of Text('g', 35) and SetString: 35 digits
    do not tell 1000+14*2^-43+2^-103 from the float64 next to it, and the test of the accuracy fails. *)
Theorem C71_refuted : exists exps mants ns g, Forall (fun e => 1 <= e <= 0x7FFE) exps /\ Forall (fun m => 0 <= fst m < 2 ^ 48 /\ 0 <= snd m < 2 ^ 64) mants /\
  getNormalized128 (fun x => GenText.Text_g x 35) exps mants = Ret ns /\ In g ns /\ test128_acc GenText.reread g = Ret false.
Proof. exact c71_refuted. Qed.
Print Assumptions C71_refuted.

Example C71_texts : forall x, x = BigFloat.mkBF 113 BigFloat.ToNearestEven BigFloat.Exact true (BigFloat.Finite 3 (-3)) ->
  GenText.Text_g x 35 = B "-0.375"%string /\ BigFloat.Cmp (GenText.reread (B "-0.375"%string)) x = 0 /\
  BigFloat.Cmp (GenText.reread (B "-37.5e-02"%string)) x = 0.
Proof. intros x ->. vm_compute. auto. Qed.
