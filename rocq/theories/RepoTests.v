(** The tables of the test files of /repo, evaluated in the model.

    These are tests, not proofs: they show that the model returns what the authors of the
    code expect on every entry of their own tables (binary16_test.go, binary128_test.go,
    float80x86_test.go, bfloat_test.go, float128ppc_test.go).  The float64 constants of the
    tables are written as bit patterns. *)
From Coq Require Import ZArith List Bool.
From Verif Require Import GoBase BigFloat.
From Verif Require Binary16 Binary128 Float80x86 Bfloat Float128ppc.
Import ListNotations.
Open Scope Z_scope.

(** binary16_test.go:9-108: the bits, Float64bits(want). *)
Definition tests16_from_bits : list (Z * Z) := [
  (0x7E00, 0x7FF8000000000001);
  (0xFE00, 0xFFF8000000000001);
  (0x3C00, 0x3FF0000000000000);
  (0x3C01, 0x3FF0040000000000);
  (0xC000, 0xC000000000000000);
  (0x7BFF, 0x40EFFC0000000000);
  (0x0400, 0x3F10000000000000);
  (0x0001, 0x3E70000000000000);
  (0x0000, 0x0);
  (0x8000, 0x8000000000000000);
  (0x7C00, 0x7FF0000000000000);
  (0xFC00, 0xFFF0000000000000);
  (0x3555, 0x3FD5540000000000);
  (0x3800, 0x3FE0000000000000);
  (0xB800, 0xBFE0000000000000);
  (0x3E00, 0x3FF8000000000000);
  (0xBE00, 0xBFF8000000000000);
  (0x4100, 0x4004000000000000);
  (0xC100, 0xC004000000000000);
  (0x0010, 0x3EB0000000000000);
  (0x8001, 0xBE70000000000000);
  (0x0001, 0x3E70000000000000);
  (0x0002, 0x3E80000000000000);
  (0x0004, 0x3E90000000000000);
  (0x0008, 0x3EA0000000000000);
  (0x0010, 0x3EB0000000000000);
  (0x0020, 0x3EC0000000000000);
  (0x0040, 0x3ED0000000000000);
  (0x0080, 0x3EE0000000000000);
  (0x0100, 0x3EF0000000000000);
  (0x0200, 0x3F00000000000000);
  (0x0400, 0x3F10000000000000);
  (0x0800, 0x3F20000000000000);
  (0x0C00, 0x3F30000000000000);
  (0x1000, 0x3F40000000000000);
  (0x1400, 0x3F50000000000000);
  (0x1800, 0x3F60000000000000);
  (0x1C00, 0x3F70000000000000);
  (0x2000, 0x3F80000000000000);
  (0x2400, 0x3F90000000000000);
  (0x2800, 0x3FA0000000000000);
  (0x2C00, 0x3FB0000000000000);
  (0x3000, 0x3FC0000000000000);
  (0x3400, 0x3FD0000000000000);
  (0x3800, 0x3FE0000000000000);
  (0x3C00, 0x3FF0000000000000);
  (0x4000, 0x4000000000000000);
  (0x4400, 0x4010000000000000);
  (0x4800, 0x4020000000000000);
  (0x4C00, 0x4030000000000000);
  (0x5000, 0x4040000000000000);
  (0x5400, 0x4050000000000000);
  (0x5800, 0x4060000000000000);
  (0x5C00, 0x4070000000000000);
  (0x6000, 0x4080000000000000);
  (0x6400, 0x4090000000000000);
  (0x6800, 0x40A0000000000000);
  (0x6C00, 0x40B0000000000000);
  (0x7000, 0x40C0000000000000);
  (0x7400, 0x40D0000000000000);
  (0x7800, 0x40E0000000000000)].
(** binary16_test.go:109-118 *)
Example tests16_from_bits_pass :
  map (fun t => Binary16.Float64 (Binary16.NewFromBits (fst t))) tests16_from_bits =
  map (fun t => Ret (snd t, Exact)) tests16_from_bits.
Proof. vm_compute. reflexivity. Qed.

(** binary16_test.go:121-218: Float64bits(in), want, acc. *)
Definition tests16_from_float64 : list (Z * Z * accuracy) := [
  (0x7FF8000000000001, 0x7E00, Exact);
  (0xFFF8000000000001, 0xFE00, Exact);
  (0x3FF0000000000000, 0x3C00, Exact);
  (0x3FF0040000000000, 0x3C01, Exact);
  (0xC000000000000000, 0xC000, Exact);
  (0x40EFFC0000000000, 0x7BFF, Exact);
  (0x3F10000000000000, 0x0400, Exact);
  (0x3E70000000000000, 0x0001, Exact);
  (0x0, 0x0000, Exact);
  (0x8000000000000000, 0x8000, Exact);
  (0x7FF0000000000000, 0x7C00, Exact);
  (0xFFF0000000000000, 0xFC00, Exact);
  (0x3FD5540000000000, 0x3555, Exact);
  (0x3FE0000000000000, 0x3800, Exact);
  (0xBFE0000000000000, 0xB800, Exact);
  (0x3FF8000000000000, 0x3E00, Exact);
  (0xBFF8000000000000, 0xBE00, Exact);
  (0x4004000000000000, 0x4100, Exact);
  (0xC004000000000000, 0xC100, Exact);
  (0x3EB0000000000000, 0x0010, Exact);
  (0xBE70000000000000, 0x8001, Exact);
  (0x3E60000000000000, 0x0000, Below);
  (0x3E70000000000000, 0x0001, Exact);
  (0x3E80000000000000, 0x0002, Exact);
  (0x3E90000000000000, 0x0004, Exact);
  (0x3EA0000000000000, 0x0008, Exact);
  (0x3EB0000000000000, 0x0010, Exact);
  (0x3EC0000000000000, 0x0020, Exact);
  (0x3ED0000000000000, 0x0040, Exact);
  (0x3EE0000000000000, 0x0080, Exact);
  (0x3EF0000000000000, 0x0100, Exact);
  (0x3F00000000000000, 0x0200, Exact);
  (0x3F10000000000000, 0x0400, Exact);
  (0x3F20000000000000, 0x0800, Exact);
  (0x3F30000000000000, 0x0C00, Exact);
  (0x3F40000000000000, 0x1000, Exact);
  (0x3F50000000000000, 0x1400, Exact);
  (0x3F60000000000000, 0x1800, Exact);
  (0x3F70000000000000, 0x1C00, Exact);
  (0x3F80000000000000, 0x2000, Exact);
  (0x3F90000000000000, 0x2400, Exact);
  (0x3FA0000000000000, 0x2800, Exact);
  (0x3FB0000000000000, 0x2C00, Exact);
  (0x3FC0000000000000, 0x3000, Exact);
  (0x3FD0000000000000, 0x3400, Exact);
  (0x3FE0000000000000, 0x3800, Exact);
  (0x3FF0000000000000, 0x3C00, Exact);
  (0x4000000000000000, 0x4000, Exact);
  (0x4010000000000000, 0x4400, Exact);
  (0x4020000000000000, 0x4800, Exact);
  (0x4030000000000000, 0x4C00, Exact);
  (0x4040000000000000, 0x5000, Exact);
  (0x4050000000000000, 0x5400, Exact);
  (0x4060000000000000, 0x5800, Exact);
  (0x4070000000000000, 0x5C00, Exact);
  (0x4080000000000000, 0x6000, Exact);
  (0x4090000000000000, 0x6400, Exact);
  (0x40A0000000000000, 0x6800, Exact);
  (0x40B0000000000000, 0x6C00, Exact);
  (0x40C0000000000000, 0x7000, Exact);
  (0x40D0000000000000, 0x7400, Exact);
  (0x40E0000000000000, 0x7800, Exact)].
(** binary16_test.go:219-233 *)
Example tests16_from_float64_pass :
  map (fun t => Binary16.NewFromFloat64 (fst (fst t))) tests16_from_float64 =
  map (fun t => Ret (snd (fst t), snd t)) tests16_from_float64.
Proof. vm_compute. reflexivity. Qed.

(** binary128_test.go:11-75: a, b, want (rounded to 113 bits as newFloat does), nan. *)
Definition tests128_from_bits : list (Z * Z * bigfloat * bool) := [
  (0x7FFF800000000000, 0x0000000000000001, (mkBF 113 ToNearestEven Exact false Zero), true);
  (0xFFFF800000000000, 0x0000000000000000, (mkBF 113 ToNearestEven Exact true Zero), true);
  (0x7FFF000000000000, 0x0000000000000000, (mkBF 113 ToNearestEven Exact false Inf), false);
  (0xFFFF000000000000, 0x0000000000000000, (mkBF 113 ToNearestEven Exact true Inf), false);
  (0x0000000000000000, 0x0000000000000000, (mkBF 113 ToNearestEven Exact false Zero), false);
  (0x8000000000000000, 0x0000000000000000, (mkBF 113 ToNearestEven Exact true Zero), false);
  (0x0000000000000000, 0x0000000000000001, (mkBF 113 ToNearestEven Exact false (Finite 0x10000000000000000000000000000 (-16606))), false);
  (0x0000FFFFFFFFFFFF, 0xFFFFFFFFFFFFFFFF, (mkBF 113 ToNearestEven Exact false (Finite 0x1FFFFFFFFFFFFFFFFFFFFFFFFFFFE (-16495))), false);
  (0x0001000000000000, 0x0000000000000000, (mkBF 113 ToNearestEven Exact false (Finite 0x10000000000000000000000000000 (-16494))), false);
  (0x7FFEFFFFFFFFFFFF, 0xFFFFFFFFFFFFFFFF, (mkBF 113 ToNearestEven Exact false (Finite 0x1FFFFFFFFFFFFFFFFFFFFFFFFFFFF (16271))), false);
  (0x3FFEFFFFFFFFFFFF, 0xFFFFFFFFFFFFFFFF, (mkBF 113 ToNearestEven Exact false (Finite 0x1FFFFFFFFFFFFFFFFFFFFFFFFFFFF (-113))), false);
  (0x3FFF000000000000, 0x0000000000000000, (mkBF 113 ToNearestEven Exact false (Finite 0x10000000000000000000000000000 (-112))), false);
  (0x3FFF000000000000, 0x0000000000000001, (mkBF 113 ToNearestEven Exact false (Finite 0x10000000000000000000000000001 (-112))), false);
  (0xC000000000000000, 0x0000000000000000, (mkBF 113 ToNearestEven Exact true (Finite 0x10000000000000000000000000000 (-111))), false);
  (0x4000921FB54442D1, 0x8469898CC51701B8, (mkBF 113 ToNearestEven Exact false (Finite 0x1921FB54442D18469898CC51701B8 (-111))), false);
  (0x3FFD555555555555, 0x5555555555555555, (mkBF 113 ToNearestEven Exact false (Finite 0x15555555555555555555555555555 (-114))), false)].
(** binary128_test.go:76-85 *)
Example tests128_from_bits_pass :
  forallb (fun t => let '(a, b, want, nan) := t in
    match Binary128.Big (Binary128.NewFromBits a b) with
    | Ret (got, n) => (Cmp want got =? 0) && Bool.eqb n nan
    | Panic => false
    end) tests128_from_bits = true.
Proof. vm_compute. reflexivity. Qed.

(** binary128_test.go:89-128: Float64bits(in), a, b, acc. *)
Definition tests128_from_float64 : list (Z * Z * Z * accuracy) := [
  (0x7FF8000000000001, 0x7FFF800000000000, 0x0000000000000000, Exact);
  (0xFFF8000000000001, 0xFFFF800000000000, 0x0000000000000000, Exact);
  (0x7FF0000000000000, 0x7FFF000000000000, 0x0000000000000000, Exact);
  (0xFFF0000000000000, 0xFFFF000000000000, 0x0000000000000000, Exact);
  (0x0, 0x0000000000000000, 0x0000000000000000, Exact);
  (0x8000000000000000, 0x8000000000000000, 0x0000000000000000, Exact);
  (0x3FF0000000000000, 0x3FFF000000000000, 0x0000000000000000, Exact);
  (0xC000000000000000, 0xC000000000000000, 0x0000000000000000, Exact);
  (0x400921FB54442D18, 0x4000921FB54442D1, 0x8469898CC51701B8, Exact);
  (0x3FD5555555555555, 0x3FFD555555555555, 0x5555555555555555, Exact)].
(** binary128_test.go:129-146; the low word is compared under the mask of line 135. *)
Example tests128_from_float64_pass :
  forallb (fun t => let '(x, a, b, acc) := t in
    match Binary128.NewFromFloat64 x with
    | Ret (f, c) => (Binary128.fa f =? a)
                    && (Z.land (Binary128.fb f) 0xF000000000000000 =? Z.land b 0xF000000000000000)
                    && accuracy_eqb acc c
    | Panic => false
    end) tests128_from_float64 = true.
Proof. vm_compute. reflexivity. Qed.

(** float80x86_test.go:10-47: se, m, Float64bits(want). *)
Definition tests80_from_bits : list (Z * Z * Z) := [
  (0x7FFF, 0xBFFFFFFFFFFFFFFF, 0x7FF8000000000001);
  (0xFFFF, 0xBFFFFFFFFFFFFFFF, 0xFFF8000000000001);
  (0x0000, 0x0000000000000000, 0x0);
  (0x8000, 0x0000000000000000, 0x8000000000000000);
  (0x3FFF, 0x8000000000000000, 0x3FF0000000000000);
  (0x4000, 0x8000000000000000, 0x4000000000000000);
  (0x7FFF, 0x8000000000000000, 0x7FF0000000000000);
  (0xFFFF, 0x8000000000000000, 0xFFF0000000000000)].
(** float80x86_test.go:48-57 *)
Example tests80_from_bits_pass :
  map (fun t => Float80x86.Float64 (Float80x86.NewFromBits (fst (fst t)) (snd (fst t)))) tests80_from_bits =
  map (fun t => Ret (snd t, Exact)) tests80_from_bits.
Proof. vm_compute. reflexivity. Qed.

(** float80x86_test.go:61-98: Float64bits(in), se, m, acc. *)
Definition tests80_from_float64 : list (Z * Z * Z * accuracy) := [
  (0x7FF8000000000001, 0x7FFF, 0xBFFFFFFFFFFFFFFF, Exact);
  (0xFFF8000000000001, 0xFFFF, 0xBFFFFFFFFFFFFFFF, Exact);
  (0x0, 0x0000, 0x0000000000000000, Exact);
  (0x8000000000000000, 0x8000, 0x0000000000000000, Exact);
  (0x3FF0000000000000, 0x3FFF, 0x8000000000000000, Exact);
  (0x4000000000000000, 0x4000, 0x8000000000000000, Exact);
  (0x7FF0000000000000, 0x7FFF, 0x8000000000000000, Exact);
  (0xFFF0000000000000, 0xFFFF, 0x8000000000000000, Exact)].
(** float80x86_test.go:99-111 *)
Example tests80_from_float64_pass :
  map (fun t => Float80x86.NewFromFloat64 (fst (fst (fst t)))) tests80_from_float64 =
  map (fun t => Ret (Float80x86.mkFloat (snd (fst (fst t))) (snd (fst t)), snd t)) tests80_from_float64.
Proof. vm_compute. reflexivity. Qed.

(** bfloat_test.go:9-33: bits, Float64bits(want). *)
Definition testsbf_from_bits : list (Z * Z) := [
  (0, 0x0);
  (0x8000, 0x8000000000000000);
  (0x7f80, 0x7FF0000000000000);
  (0xff80, 0xFFF0000000000000);
  (0x7f81, 0x7FF8000000000001);
  (0xff81, 0xFFF8000000000001);
  (0x3f80, 0x3FF0000000000000);
  (0xc000, 0xC000000000000000);
  (0x4049, 0x4009200000000000);
  (0x3eab, 0x3FD5600000000000)].
(** bfloat_test.go:34-46; a NaN is not compared (lines 38-40). *)
Example testsbf_from_bits_pass :
  forallb (fun t => match Bfloat.Big (Bfloat.NewFromBits (fst t)) with
    | Ret (x, nan) => nan || (fst (Float64 x) =? snd t)
    | Panic => false
    end) testsbf_from_bits = true.
Proof. vm_compute. reflexivity. Qed.

(** float128ppc_test.go:9-26: h, l. *)
Definition testsppc_roundtrip : list (Z * Z) := [
  (0x0000000000000000, 0x0000000000000000);
  (0x3DF0000000000000, 0x0000000000000000);
  (0x3FF0000000000000, 0x0000000000000000);
  (0x4000000000000000, 0x0000000000000000);
  (0x400C000000000030, 0x0000000010000000);
  (0x400F000000000000, 0xBCB0000000000000);
  (0x403B000000000000, 0x0000000000000000);
  (0x405EDA5E353F7CEE, 0x0000000000000000);
  (0x4093B40000000000, 0x0000000000000000);
  (0x41F0000000000000, 0x0000000000000000);
  (0x4D436562A0416DE0, 0x0000000000000000);
  (0x8000000000000000, 0x0000000000000000);
  (0x818F2887B9295809, 0x800000000032D000);
  (0xC00547AE147AE148, 0x3CA47AE147AE147A)].
(** float128ppc_test.go:28-33 *)
Definition testppc (t : Z * Z) : outcome ((Z * Z) * accuracy) :=
  x <- Float128ppc.Big (Float128ppc.NewFromBits (fst t) (snd t)) ;;
  y <- Float128ppc.NewFromBig (fst x) ;;
  Ret (Float128ppc.Bits (fst (fst y)), snd (fst y)).
(** float128ppc_test.go:34-43.  All entries but the fifth come back unchanged. *)
Example testsppc_roundtrip_pass :
  let ts := filter (fun t => negb (fst t =? 0x400C000000000030)) testsppc_roundtrip in
  length ts = 13%nat /\ map testppc ts = map (fun t => Ret (t, Exact)) ts.
Proof. vm_compute. split; reflexivity. Qed.
(** The fifth entry does not: the two halves are more than 1000 binary places apart and Big
    keeps 106 bits, so the low half is lost (property C26).  According to this model that
    entry of the test of /repo fails. *)
Example testsppc_roundtrip_fifth :
  nth 4 testsppc_roundtrip (0, 0) = (0x400C000000000030, 0x0000000010000000) /\
  testppc (0x400C000000000030, 0x0000000010000000) = Ret ((0x400C000000000030, 0), Exact).
Proof. vm_compute. split; reflexivity. Qed.
