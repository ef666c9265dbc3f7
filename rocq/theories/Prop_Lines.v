(** The lines of Go source that the two gen.go print (C87, C88, C89, C90).

    [entry16_text t g] and [entry128_text t a b want want64 acc64] say which fields a line of source has
    (SpecGo.v); [sig_round 35 v] is v rounded to 35 digits, to nearest even; [prints_g 101 35 s fp r t] says that
    the text t is r in the format 'g', with the digits fp after the point (SpecFmt.v). *)
From Coq Require Import ZArith Reals String List Bool Permutation.
From Verif Require Import GoBase Spec SpecText SpecDec SpecFtoa SpecFmt SpecGo GenTests GenLines GenDump ClaimsLines ClaimsText ClaimsDump.
From Verif Require BigFloat GenText.
Import ListNotations.
Open Scope Z_scope.

(** Compiled, the lines are the tables of GenTests.v. *)
Theorem C87_binary16_lines : exists nl dl ns ds, linesNormalized16 = Ret nl /\ linesDenormalized16 = Ret dl /\
  getNormalized16 = Ret ns /\ getDenormalized16 = Ret ds /\ Forall2 entry16_text nl ns /\ Forall2 entry16_text dl ds.
Proof. exact c87_16. Qed.
Print Assumptions C87_binary16_lines.

Example C87_binary16_example : line16 1 0 15 0 1 = Ret (B "{bits: 0x3C01, want: 1.0009765625}, // +0b1.0000000001p0"%string) /\
  line16 0 1 0 (-14) 0 = Ret (B "{bits: 0x8000, want: math.Copysign(0, -1)}, // +0b0.0000000000p0"%string).
Proof. split; vm_compute; reflexivity. Qed.

Theorem C87_binary128_lines : forall text exps mants, (forall x, wf x -> Forall plain (text x)) ->
  Forall (fun e => 1 <= e <= 0x7FFE) exps -> Forall (fun m => 0 <= fst m < 2 ^ 48 /\ 0 <= snd m < 2 ^ 64) mants ->
  exists nl dl ns ds, linesNormalized128 text exps mants = Ret nl /\ linesDenormalized128 text mants = Ret dl /\
  getNormalized128 text exps mants = Ret ns /\ getDenormalized128 text mants = Ret ds /\
  Forall2 (fun t g => entry128_text t (ga g) (gb g) (gwant g) (gwant64 g) (gacc64 g)) nl ns /\
  Forall2 (fun t g => entry128_text t (ga g) (gb g) (gwant g) (gwant64 g) (gacc64 g)) dl ds.
Proof. exact c87_128. Qed.
Print Assumptions C87_binary128_lines.

(** Text('g', p) is such a text. *)
Theorem C87_Text_plain : forall x p, 1 <= p -> wf x -> Forall plain (GenText.Text_g x p).
Proof. exact Text_g_plain. Qed.
Print Assumptions C87_Text_plain.

(** -1.5 * 2^2000 *)
Example C87_binary128_example : line128 (fun x => GenText.Text_g x 35) 1 1 18383 2000 (2 ^ 47) 0 =
  Ret (B "{a: 0xC7CF800000000000, b: 0x0000000000000000, want: ""-1.722196042911381786349249801766523e+602"", want64: math.Inf(-1), acc64: big.Below}, // -0b1.1000000000000000000000000000000000000000000000000000000000000000000000000000000000000000000000000000000000000000p2000"%string).
Proof. vm_compute. reflexivity. Qed.

(** Text('g', p) prints the number correctly rounded to p digits, without zeros at the end. *)
Theorem C88_Text_rounds : forall x p s v, wf x -> 1 <= p -> bval x = VNum s (sgnR s v) -> (0 <= v)%R ->
  exists fp, no_zero_end fp /\ prints_g 101 p s fp (sig_round p v) (GenText.Text_g x p).
Proof. exact Text_g_prints. Qed.
Print Assumptions C88_Text_rounds.

Example C88_example : let x := BigFloat.mkBF 113 BigFloat.ToNearestEven BigFloat.Exact true (BigFloat.Finite (2 ^ 112 + 1) (-112)) in
  wf x /\ GenText.Text_g x 35 = B "-1.0000000000000000000000000000000002"%string.
Proof.
  split; [|vm_compute; reflexivity]. split; [vm_compute; split; congruence|]. split; [reflexivity|].
  split; [|vm_compute; split; congruence]. exists (2 ^ 112 + 1), 0. repeat split; vm_compute; congruence.
Qed.

(** The two lists dumpTest hands to the template, whatever is drawn and however it is permuted: 64 exponents and 512
    mantissas give 65536 and 1024 lines.  They list every sign with every exponent and mantissa drawn, and the tests
    of extra_test.tmpl succeed on all of them (except perhaps those of lines 43 to 79: C71). *)
Theorem C89_dumpTest : forall sortInts sortSlice rs us,
  (forall l, Permutation (sortInts l) l) -> (forall less l, Permutation (sortSlice less l) l) ->
  Forall (fun r => 0 <= r < 0x7FFE) rs -> Forall (fun u => 0 <= fst u < 2 ^ 64 /\ 0 <= snd u < 2 ^ 64) us ->
  exists nl dl ns ds, dumpTest (fun x => GenText.Text_g x 35) sortInts sortSlice rs us = Ret (nl, dl) /\
    Z.of_nat (length nl) = 2 * Z.of_nat (length rs) * Z.of_nat (length us) /\ Z.of_nat (length dl) = 2 * Z.of_nat (length us) /\
    Forall2 (fun t g => entry128_text t (ga g) (gb g) (gwant g) (gwant64 g) (gacc64 g)) nl ns /\
    Forall2 (fun t g => entry128_text t (ga g) (gb g) (gwant g) (gwant64 g) (gacc64 g)) dl ds /\
    (forall a b, In (a, b) (map (fun g => (ga g, gb g)) ns) <->
      exists s r u, (s = 0 \/ s = 1) /\ In r rs /\ In u us /\ a = s * 2 ^ 63 + (r + 1) * 2 ^ 48 + fst u mod 2 ^ 48 /\ b = snd u) /\
    (forall a b, In (a, b) (map (fun g => (ga g, gb g)) ds) <->
      exists s u, (s = 0 \/ s = 1) /\ In u us /\ a = s * 2 ^ 63 + fst u mod 2 ^ 48 /\ b = snd u) /\
    Forall (fun g => test128_bits (fun x => GenText.Text_g x 35) g = Ret true /\ test128_float32 g = Ret true /\ test128_float64 g = Ret true) (ns ++ ds).
Proof. exact c88. Qed.
Print Assumptions C89_dumpTest.

(** One exponent and one mantissa drawn (the texts left out, as those of denormals are long to compute). *)
Example C89_example : exists nl dl, dumpTest (fun _ => []) (fun l => l) (fun _ l => l) [16382] [(2 ^ 47, 0)] = Ret (nl, dl) /\
  length nl = 2%nat /\ length dl = 2%nat /\
  hd [] nl = B "{a: 0x3FFF800000000000, b: 0x0000000000000000, want: """", want64: 1.5, acc64: big.Exact}, // +0b1.1000000000000000000000000000000000000000000000000000000000000000000000000000000000000000000000000000000000000000p0"%string.
Proof. eexists. eexists. split; [vm_compute; reflexivity|]. split; [reflexivity|]. split; [reflexivity|]. vm_compute. reflexivity. Qed.

(** The function given to sort.Slice is no order: of (1, 2) and (2, 1) each is less than the other. *)
Theorem C90_less_refuted : exists x y, 0 <= fst x < 2 ^ 48 /\ 0 <= snd x < 2 ^ 64 /\ 0 <= fst y < 2 ^ 48 /\ 0 <= snd y < 2 ^ 64 /\
  mant_less x y = true /\ mant_less y x = true.
Proof. exact c89_refuted. Qed.
Print Assumptions C90_less_refuted.

(** Where it is the lexicographic order: everywhere but for y of a smaller first and a greater second half. *)
Theorem C90_less_partial : forall x y,
  (mant_less x y = true <-> fst x < fst y \/ fst x = fst y /\ snd x < snd y) <-> ~ (fst y < fst x /\ snd x < snd y).
Proof. exact c89_exactly. Qed.
Print Assumptions C90_less_partial.

Example C90_example : mant_less (1, 2) (1, 3) = true /\ mant_less (2, 3) (1, 2) = false /\ mant_less (2, 1) (1, 2) = true.
Proof. repeat split. Qed.
