(** Round trips and orders: which double-doubles come back (C26), what NewFromBig returned comes
    back through Big (C78), double-doubles in quadruple precision (C79), patterns are in the order
    of the numbers (C80), AssignDecimal reads the shortest digits back (C81), shifts add up (C82).

    [signed n p] is the pattern p read as a sign bit, bit n, and a magnitude (SpecOrder.v);
    [shortest_digits mb eb v x] says that x is the decimal FormatFloat prints for v (SpecFmt.v). *)
From Coq Require Import ZArith Reals List Bool Lia Lra.
From Verif Require Import GoBase Spec SpecText SpecDec SpecFtoa SpecFmt SpecOrder.
From Verif Require BigFloat Binary16 Bfloat Binary128 Float80x86 Float128ppc Decimal ExtFloat.
From Verif Require Import ClaimsPpc2 ClaimsTrip ClaimsTrip2 ClaimsOrder ClaimsRead ClaimsDec2.
Import BigFloat (mkBF, rmode).
Import Float128ppc (mkFloat).
Open Scope Z_scope.

(** A pair of finite floats comes back from Big and NewFromBig exactly when it is normalised, its
    sum has at most 106 bits and its low half is not -0. *)
Theorem C26_float128ppc_roundtrip_exactly : forall a b s1 v1 s2 v2, 0 <= a < 2 ^ 64 -> 0 <= b < 2 ^ 64 ->
  ieee 52 11 a = VNum s1 v1 -> ieee 52 11 b = VNum s2 v2 ->
  ((exists x c x', Float128ppc.Big (Float128ppc.NewFromBits a b) = Ret (x, false) /\
      Float128ppc.NewFromBig x = Ret (Float128ppc.NewFromBits a b, c, x')) <->
   rn 52 11 (v1 + v2) = v1 /\ (exists K c, (v1 + v2 = IZR K * p2 c)%R /\ Z.abs K < 2 ^ 106) /\ b <> Float128ppc.math_NegZero).
Proof. exact c26_exactly. Qed.
Print Assumptions C26_float128ppc_roundtrip_exactly.

(** (1, 1), which is not normalised, and (1, 2^-60). *)
Example C26_exactly_example : (exists x h l c x', Float128ppc.Big (Float128ppc.NewFromBits 0x3FF0000000000000 0x3FF0000000000000) = Ret (x, false) /\
    Float128ppc.NewFromBig x = Ret (mkFloat h l, c, x') /\ h = 0x4000000000000000 /\ l = 0) /\
  (exists x c x', Float128ppc.Big (Float128ppc.NewFromBits 0x3FF0000000000000 0x3C30000000000000) = Ret (x, false) /\
    Float128ppc.NewFromBig x = Ret (Float128ppc.NewFromBits 0x3FF0000000000000 0x3C30000000000000, c, x')).
Proof. split; [eexists _, _, _, _, _; split; [vm_compute; reflexivity|split; [vm_compute; reflexivity|split; reflexivity]]|
  eexists _, _, _; split; [vm_compute; reflexivity|vm_compute; reflexivity]]. Qed.

(** What NewFromBig made of a number comes back through Big unchanged, even where it is not the
    right pattern (C05). *)
Theorem C78_binary16 : forall x, wf x -> let f := fst (Binary16.NewFromBig x) in (forall s, ieee 10 5 f <> VNaN s) ->
  exists y, Binary16.Big f = Ret (y, false) /\ Binary16.NewFromBig y = (f, BigFloat.Exact).
Proof. exact c78_16. Qed.
Print Assumptions C78_binary16.

Theorem C78_binary128 : forall x, wf x -> exists f a, Binary128.NewFromBig x = Ret (f, a) /\
  ((forall s, quad (Binary128.fa f) (Binary128.fb f) <> VNaN s) ->
   exists y, Binary128.Big f = Ret (y, false) /\ Binary128.NewFromBig y = Ret (f, BigFloat.Exact)).
Proof. exact c78_128. Qed.
Print Assumptions C78_binary128.

(** The numbers 1 + 2^-20 and 1 + 2^-150, which are rounded. *)
Example C78_example : Binary16.NewFromBig (mkBF 21 BigFloat.ToNearestEven BigFloat.Exact false (BigFloat.Finite (2 ^ 20 + 1) (-20))) = (0x3C00, BigFloat.Below) /\
  Binary128.NewFromBig (mkBF 151 BigFloat.ToNearestEven BigFloat.Exact false (BigFloat.Finite (2 ^ 150 + 1) (-150))) =
    Ret (Binary128.mkFloat 0x3FFF000000000000 0, BigFloat.Below).
Proof. split; vm_compute; reflexivity. Qed.

(** NewFromBig makes of 2^16385 a pattern that does not come back. *)
Theorem C78_float80x86_refuted : exists x f y g, wf x /\ Float80x86.NewFromBig x = (f, BigFloat.Above) /\
  Float80x86.Big f = Ret (y, false) /\ Float80x86.NewFromBig y = (g, BigFloat.Exact) /\ g <> f.
Proof. exact c78_80_refuted. Qed.
Print Assumptions C78_float80x86_refuted.

(** Missing from the property: numbers outside the range of the format. *)
Theorem C78_float80x86_partial : forall x, wf x -> match bval x with VNum _ v => (Rabs v < p2 16384)%R | _ => True end ->
  exists f a y, Float80x86.NewFromBig x = (f, a) /\ Float80x86.Big f = Ret (y, false) /\ Float80x86.NewFromBig y = (f, BigFloat.Exact).
Proof. exact c78_80. Qed.
Print Assumptions C78_float80x86_partial.

(** 1 + 2^-100 *)
Example C78_float80x86_example : let x := mkBF 101 BigFloat.ToNearestEven BigFloat.Exact false (BigFloat.Finite (2 ^ 100 + 1) (-100)) in
  Float80x86.NewFromBig x = (Float80x86.mkFloat 0x3FFF 0x8000000000000000, BigFloat.Below).
Proof. vm_compute. reflexivity. Qed.

(** Which results come back, for numbers of any size: beyond the range the exponent loses its high bits. *)
Theorem C78_float80x86_exactly : forall x s v k, wf x -> bval x = VNum s v -> (p2 k <= Rabs v < p2 (k + 1))%R ->
  exists f a, Float80x86.NewFromBig x = (f, a) /\
  ((exists y c, Float80x86.Big f = Ret (y, false) /\ Float80x86.NewFromBig y = (f, c)) <->
   k < 16384 \/ ((k + 16383) mod 2 ^ 15 <> 0 /\
     ((k + 16383) mod 2 ^ 15 = 2 ^ 15 - 1 -> (Rabs v < p2 k + p2 (k - 63))%R))).
Proof. exact c78_80_exactly. Qed.
Print Assumptions C78_float80x86_exactly.

(** 2^16386 becomes 2^-16381, which comes back. *)
Example C78_float80x86_exactly_example : let x := mkBF 1 BigFloat.ToNearestEven BigFloat.Exact false (BigFloat.Finite 1 16386) in
  Float80x86.NewFromBig x = (Float80x86.mkFloat 1 (2 ^ 63), BigFloat.Above) /\ (16386 + 16383) mod 2 ^ 15 = 1.
Proof. split; vm_compute; reflexivity. Qed.

(** NewFromBig returns a pair that is not normalised for (2^52+1) 2^-1073 + 3 2^-1076. *)
Theorem C78_float128ppc_refuted : exists x h l a x' s1 v1 s2 v2 z h' l' a' z', wf x /\
  Float128ppc.NewFromBig x = Ret (mkFloat h l, a, x') /\ ieee 52 11 h = VNum s1 v1 /\ ieee 52 11 l = VNum s2 v2 /\
  rn 52 11 (v1 + v2) <> v1 /\ Float128ppc.Big (mkFloat h l) = Ret (z, false) /\
  Float128ppc.NewFromBig z = Ret (mkFloat h' l', a', z') /\ h' <> h.
Proof. exact c78_ppc_refuted. Qed.
Print Assumptions C78_float128ppc_refuted.

(** It makes (2^-1000, -0) of 2^-1000 - 2^-1100; the -0 does not come back. *)
Theorem C78_float128ppc_zero_refuted : exists x h l a x' z h' l' a' z', wf x /\
  Float128ppc.NewFromBig x = Ret (mkFloat h l, a, x') /\ l = Float128ppc.math_NegZero /\
  Float128ppc.Big (mkFloat h l) = Ret (z, false) /\ Float128ppc.NewFromBig z = Ret (mkFloat h' l', a', z') /\ l' <> l.
Proof. exact c78_ppc_zero_refuted. Qed.
Print Assumptions C78_float128ppc_zero_refuted.

(** Missing from the property: numbers for which NewFromBig panics (C24), and numbers below 2^-969
    that are not multiples of the least float64. *)
Theorem C78_float128ppc_partial : forall x s v, wf x -> bval x = VNum s v ->
  let y := rnd_prec (rmode x) 106 v in (Rabs (rn 52 11 y) < p2 1024)%R ->
  (p2 (-969) <= Rabs v)%R \/ (exists K, v = (IZR K * p2 (-1074))%R) ->
  exists h l x' s1 v1 s2 v2 z z', Float128ppc.NewFromBig x = Ret (mkFloat h l, BigFloat.Exact, x') /\
    0 <= h < 2 ^ 64 /\ 0 <= l < 2 ^ 64 /\ ieee 52 11 h = VNum s1 v1 /\ ieee 52 11 l = VNum s2 v2 /\
    rn 52 11 (v1 + v2) = v1 /\ (v1 + v2 = y)%R /\
    Float128ppc.Big (mkFloat h l) = Ret (z, false) /\ bval z = VNum s y /\
    Float128ppc.NewFromBig z = Ret (mkFloat h l, BigFloat.Exact, z').
Proof. exact c78_ppc. Qed.
Print Assumptions C78_float128ppc_partial.

(** Which results come back, for all numbers but 0 and those for which NewFromBig panics: the pair must be
    normalised and its low half not a negative number rounded to -0. *)
Theorem C78_float128ppc_exactly : forall x s v, wf x -> bval x = VNum s v -> v <> 0%R ->
  let y := rnd_prec (rmode x) 106 v in
  let h := rn 52 11 y in
  (Rabs h < p2 1024)%R ->
  exists f x', Float128ppc.NewFromBig x = Ret (f, BigFloat.Exact, x') /\
  ((exists z c z', Float128ppc.Big f = Ret (z, false) /\ Float128ppc.NewFromBig z = Ret (f, c, z')) <->
   rn 52 11 (h + rn 52 11 (y - h)) = h /\ ~ (- p2 (-1075) <= y - h < 0)%R).
Proof. exact c78_ppc_exactly. Qed.
Print Assumptions C78_float128ppc_exactly.

(** 2^-1000 + 2^-1100 becomes (2^-1000, 0). *)
Example C78_float128ppc_exactly_example : exists x', Float128ppc.NewFromBig
    (mkBF 101 BigFloat.ToNearestEven BigFloat.Exact false (BigFloat.Finite (2 ^ 100 + 1) (-1100))) = Ret (mkFloat (23 * 2 ^ 52) 0, BigFloat.Exact, x').
Proof. eexists. vm_compute. reflexivity. Qed.

(** 1 + 2^-150, which is rounded to 1. *)
Example C78_float128ppc_example : exists x', Float128ppc.NewFromBig (mkBF 151 BigFloat.ToNearestEven BigFloat.Exact false (BigFloat.Finite (2 ^ 150 + 1) (-150))) =
  Ret (mkFloat 0x3FF0000000000000 0, BigFloat.Exact, x').
Proof. eexists. vm_compute. reflexivity. Qed.

(** What Big returns for a double-double is a number of quadruple precision. *)
Theorem C79_float128ppc_binary128 : forall a b, 0 <= a < 2 ^ 64 -> 0 <= b < 2 ^ 64 ->
  (forall s, ieee 52 11 a <> VNaN s) -> (forall s, ieee 52 11 b <> VNaN s) ->
  (forall s, ieee 52 11 a = VInf s -> ieee 52 11 b = VInf (negb s) -> False) ->
  exists x q y, Float128ppc.Big (Float128ppc.NewFromBits a b) = Ret (x, false) /\
    Binary128.NewFromBig x = Ret (q, BigFloat.Exact) /\ quad (Binary128.fa q) (Binary128.fb q) = bval x /\
    Binary128.Big q = Ret (y, false) /\ bval y = bval x.
Proof. exact c79. Qed.
Print Assumptions C79_float128ppc_binary128.

(** (1, 2^-60) *)
Example C79_example : exists x, Float128ppc.Big (Float128ppc.NewFromBits 0x3FF0000000000000 0x3C30000000000000) = Ret (x, false) /\
  Binary128.NewFromBig x = Ret (Binary128.mkFloat 0x3FFF000000000000 0x0010000000000000, BigFloat.Exact).
Proof. eexists. split; [vm_compute; reflexivity|vm_compute; reflexivity]. Qed.

(** Cmp of the numbers is the order of the patterns, read as sign and magnitude. *)
Theorem C80_binary16 : forall f g, 0 <= f < 2 ^ 16 -> 0 <= g < 2 ^ 16 ->
  (forall s, ieee 10 5 f <> VNaN s) -> (forall s, ieee 10 5 g <> VNaN s) ->
  exists x y, Binary16.Big f = Ret (x, false) /\ Binary16.Big g = Ret (y, false) /\
    BigFloat.Cmp x y = Z.sgn (signed 15 f - signed 15 g).
Proof. exact c80_16. Qed.
Print Assumptions C80_binary16.

Theorem C80_bfloat : forall f g, 0 <= f < 2 ^ 16 -> 0 <= g < 2 ^ 16 ->
  (forall s, ieee 7 8 f <> VNaN s) -> (forall s, ieee 7 8 g <> VNaN s) ->
  exists x y, Bfloat.Big (Bfloat.NewFromBits f) = Ret (x, false) /\ Bfloat.Big (Bfloat.NewFromBits g) = Ret (y, false) /\
    BigFloat.Cmp x y = Z.sgn (signed 15 f - signed 15 g).
Proof. exact c80_bf. Qed.
Print Assumptions C80_bfloat.

Theorem C80_binary128 : forall a b c d, 0 <= a < 2 ^ 64 -> 0 <= b < 2 ^ 64 -> 0 <= c < 2 ^ 64 -> 0 <= d < 2 ^ 64 ->
  (forall s, quad a b <> VNaN s) -> (forall s, quad c d <> VNaN s) ->
  exists x y, Binary128.Big (Binary128.NewFromBits a b) = Ret (x, false) /\ Binary128.Big (Binary128.NewFromBits c d) = Ret (y, false) /\
    BigFloat.Cmp x y = Z.sgn (signed 127 (a * 2 ^ 64 + b) - signed 127 (c * 2 ^ 64 + d)).
Proof. exact c80_128. Qed.
Print Assumptions C80_binary128.

(** -0 and 0 are equal, -1 is below the least number, infinity is above 65504. *)
Example C80_example : signed 15 0x8000 = 0 /\ signed 15 0 = 0 /\ signed 15 0xBC00 < signed 15 1 /\ signed 15 0x7BFF < signed 15 0x7C00 /\
  signed 127 (0xBFFF000000000000 * 2 ^ 64) < signed 127 1.
Proof. repeat split; vm_compute; reflexivity. Qed.

(** For patterns whose integer bit is as the processor writes it. *)
Theorem C80_float80x86 : forall a b c d, 0 <= a < 2 ^ 16 -> 0 <= b < 2 ^ 64 -> 0 <= c < 2 ^ 16 -> 0 <= d < 2 ^ 64 ->
  (forall se m, (se, m) = (a, b) \/ (se, m) = (c, d) -> let E := se mod 2 ^ 15 in
     (E = 0 /\ m < 2 ^ 63) \/ (1 <= E <= 32766 /\ 2 ^ 63 <= m) \/ (E = 32767 /\ m = 2 ^ 63)) ->
  exists x y, Float80x86.Big (Float80x86.NewFromBits a b) = Ret (x, false) /\ Float80x86.Big (Float80x86.NewFromBits c d) = Ret (y, false) /\
    BigFloat.Cmp x y = Z.sgn (signed 79 (a * 2 ^ 64 + b) - signed 79 (c * 2 ^ 64 + d)).
Proof. exact c80_80. Qed.
Print Assumptions C80_float80x86.

(** -1 and 3 *)
Example C80_float80x86_example : 0xBFFF mod 2 ^ 15 = 0x3FFF /\ 2 ^ 63 <= 0x8000000000000000 /\ 0x4000 mod 2 ^ 15 = 0x4000 /\ 2 ^ 63 <= 0xC000000000000000 /\
  signed 79 (0xBFFF * 2 ^ 64 + 0x8000000000000000) < signed 79 (0x4000 * 2 ^ 64 + 0xC000000000000000).
Proof. repeat split; vm_compute; congruence. Qed.

(** Where AssignDecimal succeeds on a decimal whose nearest float is v > 0, it returns v. *)
Theorem C81_reads_back : forall flt mb eb b s v m e10 tr f, format_of flt mb eb -> 0 <= b < 2 ^ (mb + eb + 1) ->
  ieee mb eb b = VNum s (sgnR s v) -> (0 < v)%R -> 0 < m < 2 ^ 64 -> rn mb eb (IZR m * p10 e10) = v ->
  ExtFloat.AssignDecimal m e10 s tr flt = Ret (f, true) -> fst (ExtFloat.floatBits f flt) = b.
Proof. exact c81. Qed.
Print Assumptions C81_reads_back.

(** So it does on the digits FormatFloat prints for v. *)
Theorem C81_shortest_reads_back : forall flt mb eb b s v x m e10 tr f, format_of flt mb eb -> 0 <= b < 2 ^ (mb + eb + 1) ->
  ieee mb eb b = VNum s (sgnR s v) -> (0 < v)%R -> shortest_digits mb eb v x ->
  0 < m < 2 ^ 64 -> x = (IZR m * p10 e10)%R ->
  ExtFloat.AssignDecimal m e10 s tr flt = Ret (f, true) -> fst (ExtFloat.floatBits f flt) = b.
Proof. exact c81_shortest. Qed.
Print Assumptions C81_shortest_reads_back.

(** 0.1, 5e-324 and 1.7976931348623157e+308. *)
Example C81_example : (exists f, ExtFloat.AssignDecimal 1 (-1) false false ExtFloat.float64info = Ret (f, true) /\ fst (ExtFloat.floatBits f ExtFloat.float64info) = 0x3FB999999999999A) /\
  (exists f, ExtFloat.AssignDecimal 5 (-324) true false ExtFloat.float64info = Ret (f, true) /\ fst (ExtFloat.floatBits f ExtFloat.float64info) = 0x8000000000000001) /\
  (exists f, ExtFloat.AssignDecimal 17976931348623157 292 false false ExtFloat.float64info = Ret (f, true) /\ fst (ExtFloat.floatBits f ExtFloat.float64info) = 0x7FEFFFFFFFFFFFFF).
Proof. repeat split; eexists; (split; [vm_compute; reflexivity|vm_compute; reflexivity]). Qed.

(** Shifting by j and then by k is shifting by j + k, where no digit is lost. *)
Theorem C82_Shift_adds : forall w a j k b c, w = 32 \/ w = 64 -> dnorm a ->
  Decimal.Shift w a j = Ret b -> Decimal.Shift w b k = Ret c -> Decimal.trunc c = false ->
  Decimal.Shift w a (j + k) = Ret c.
Proof. exact c82_add. Qed.
Print Assumptions C82_Shift_adds.

(** Shifting back. *)
Theorem C82_Shift_back : forall w a k b, w = 32 \/ w = 64 -> dnorm a ->
  Decimal.Shift w a k = Ret b -> Decimal.trunc b = false -> Decimal.Shift w b (- k) = Ret a.
Proof. exact c82_back. Qed.
Print Assumptions C82_Shift_back.

(** 1.25 * 2^3 / 2^5 *)
Example C82_example : Decimal.Shift 64 (Decimal.mkDec (1 :: 2 :: 5 :: nil) 1 false) 3 = Ret (Decimal.mkDec (1 :: nil) 2 false) /\
  Decimal.Shift 64 (Decimal.mkDec (1 :: nil) 2 false) (-5) = Ret (Decimal.mkDec (3 :: 1 :: 2 :: 5 :: nil) 0 false) /\
  Decimal.Shift 64 (Decimal.mkDec (1 :: 2 :: 5 :: nil) 1 false) (-2) = Ret (Decimal.mkDec (3 :: 1 :: 2 :: 5 :: nil) 0 false).
Proof. repeat split; vm_compute; reflexivity. Qed.

(** 2^-1200 has more than 800 digits: shifted back it is not 1. *)
Theorem C82_Shift_refuted : exists a b c, dnorm a /\ Decimal.Shift 64 a (-1200) = Ret b /\ Decimal.Shift 64 b 1200 = Ret c /\
  Decimal.d c <> Decimal.d a.
Proof. exact c82_lost. Qed.
Print Assumptions C82_Shift_refuted.
