# Formal model of mewmew/float in Rocq (Coq 8.16.1)

`properties.jsonl` lists what is claimed, `MANIFEST.json` says which theorem answers which claim,
`rocq/theories/Prop_*.v` contain those theorems and nothing else, each closed by `exact` and followed by
`Print Assumptions` and an example. `seeded/LOG.jsonl` records the wrong programs tried against the theorems.
In it `theorems_failed` lists, for each file that did not compile, the first lemma whose proof failed (the compiler
stops there). A failed proof script is evidence that the edit was noticed, not a proof that the claim is false; where
the edit turned out to be equivalent, `note` says so. `property_files_not_built` lists the `Prop_*.v` files that depend
on those lemmas, among the files that existed when the edit was tried. An empty `theorems_failed` is an edit
that survived; its `note` says why and `theorems_tightened` what was added.

## What is modelled

Every function of the non-test Go files:

| Go file | model | theorems |
|---|---|---|
| `binary16/binary16.go` | `Binary16.v` | `Prop_Binary16.v`, `Prop_NewFromBig.v`, `Prop_Host.v` |
| `binary128/binary128.go` | `Binary128.v` | `Prop_Binary128.v`, `Prop_NewFromBig.v`, `Prop_Host.v` |
| `float80x86/float80x86.go` | `Float80x86.v` | `Prop_Float80x86.v`, `Prop_NewFromBig.v`, `Prop_Host.v` |
| `bfloat/bfloat.go` | `Bfloat.v` | `Prop_Bfloat.v` |
| `float128ppc/float128ppc.go` | `Float128ppc.v` | `Prop_Float128ppc.v` |
| `float.go` | `FloatPkg.v` | `Prop_Float.v`, `Prop_FtoaMore.v` |
| `internal/strconv/itoa.go` | `Itoa.v` | `Prop_Itoa.v`, `Prop_Ints.v` |
| `internal/strconv/decimal.go` | `Decimal.v` | `Prop_Decimal.v`, `Prop_DecInt.v`, `Prop_Shift.v` |
| `internal/strconv/extfloat.go` | `ExtFloat.v` | `Prop_ExtFloat.v` |
| `internal/strconv/ftoa.go` | `Ftoa.v` | `Prop_Ftoa.v`, `Prop_FtoaMore.v`, `Prop_Len.v`, `Prop_LenF.v`, `Prop_Same.v`, `Prop_SameF.v`, `Prop_Keep.v`, `Prop_Keep2.v`, `Prop_Many.v`, `Prop_Equal.v`, `Prop_Letters.v`, `Prop_Reround.v` |
| the arrays and buffers of the last three files | `DecimalArr.v`, `ExtArr.v`, `FtoaArr.v` | `Prop_Arrays.v` |
| the slices of `itoa.go` and `ftoa.go`, their lengths and capacities | `Slices.v` | `Prop_Slices.v` |
| `*big.Float` arguments and results | `Pointers.v`, `Pointers2.v`, `Calls.v` | `Prop_Pointers.v`, `Prop_Calls.v` |
| `binary16/gen.go`, `binary128/gen.go`, `extra_test.tmpl` | `GenTests.v`, `GenLines.v`, `GenDump.v` | `Prop_Gen.v`, `Prop_Lines.v`, `Prop_Reread.v` |

`Prop_More.v`, `Prop_Mono2.v`, `Prop_Acc.v`, `Prop_Near.v`, `Prop_Sign.v`, `Prop_Neg.v`, `Prop_Rep.v`, `Prop_Trip.v` and `Prop_Err.v` have theorems about several packages.

Outside /repo, but modelled because the code calls it: `GoBase.v` (Go's integers and panics), `BigFloat.v`
(`math/big.Float`, `math`, conversions between float32 and float64) and `GoFmt.v` (`fmt.Sprintf` with `%d` and
`%0nb`, `big.Float.Parse`, `big.Float.Text('e', p)`).

The specifications are separate and do not use the models' helpers: `Spec.v` (values of bit patterns and big.Floats,
rounding by Flocq's `round`), `SpecText.v` (numerals in a base), `SpecDec.v` (decimals), `SpecFtoa.v` (rounding
intervals, nearest floats), `SpecFmt.v` (what each format letter prints), `SpecOrder.v` (order of values), `SpecTwice.v` (midpoints), `SpecSign.v` (change of sign), `SpecArr.v` (digits in an array), `SpecSlice.v` (bytes of a slice), `SpecLex.v` (order of texts), `SpecHalf.v` (decimals half way between others), `SpecGo.v` (what a
line of a generated table denotes). The
other files contain lemmas.

`RepoTests.v` evaluates the test tables of /repo in the model. All entries come out as the tests expect, except the
fifth of `float128ppc_test.go` (0x400C000000000030, 0x10000000), for which the model says that the test fails: the
sum has more than the 106 bits that `Big` keeps.

`Decimal.v`, `ExtFloat.v` and `Ftoa.v` keep the digits of a number in a list. The models with arrays have the 800 bytes
of `decimal.d` and the buffers of 24 and 32 bytes of `genericFtoa`, overwrite them in place as the code does and check
every index. `Prop_Arrays.v` proves that they print the same texts.

`GenTests.v` models what `binary16/gen.go` and `binary128/gen.go` compute and the tests of the `extra_test.tmpl`
they fill in. Taken as given there: a float64 printed with `%v` is the same number as a Go literal (proved in
`Prop_Lines.v`); `math.Pow` is exact on the powers of two it is called with; the results of `Text('g', 35)` and
`SetString` are parameters (`GenText.v` models both, `Prop_Reread.v` proves when a number comes back); any draw of the random generator is possible.

`GenLines.v` models the lines of source themselves: `%0nX`, `%v` of a float64 (as the standard library's strconv, of
which /repo has a copy, modelled by `Ftoa.v`), `%v` of a `big.Accuracy`, and `%q` of a text that needs no escapes.
`GenDump.v` models what `dumpTest` draws and sorts; the random numbers and the sorting functions are parameters.

Not modelled: the flags and the file output of `gen.go`, `*_test.go` beyond their tables, and

* the addresses of objects, except in `Pointers.v`, `Pointers2.v` and `Slices.v`. Elsewhere a `*big.Float` is a record;
  a method that changes its receiver returns the new record. `Prop_Pointers.v` and `Prop_Calls.v` prove that the
  pointer models of `NewFromBig` and `Big` return the same as the value models. In `Slices.v` the arrays that `append`
  reads from (the digits, the local buffers) are values, and `grow`, the capacity that append allocates, is a parameter. `float128ppc.NewFromBig`, which changes its argument, returns the changed argument.
* memory and time. An allocation always succeeds, except the `make` of `ftoa.go:53`, whose panic is modelled
  (`C57_make`).
* the text of panics. All panics are the value `Panic`.
* concurrency. The code has none, and its package variables are only read.

## Conventions and simplifications

* Go integers are `Z`. Where Go wraps or masks, the model does (`u8` to `u64`, `sint w`). Theorems quantify over a Go
  type by a hypothesis such as `0 <= b < 2^16`.
* `int` and `uint`: the models of `internal/strconv` and `float.go` take their width `w`, and the theorems hold for 32
  and 64. In the format packages int has 64 bits; the `_host` functions take the width (`Prop_Host.v`, C61).
* Sums of ints that cannot leave 32 bits for the values they get are not wrapped. Two could, for a precision near the
  largest int, and are left unwrapped: `prec+1` inside the `fmtE` of `Ftoa.v` (the caller's `prec+1` wraps and decides
  C51 and C57; `FtoaArr.v` wraps both, see `C75_never_returns`), and `integerDigits-needed` in `FixedDecimal`.
* float64 and float32 values are bit patterns. `math.NaN()` is 0x7FF8000000000001; conversions of NaNs keep the sign.
  No theorem depends on the payload of a NaN.
* A big.Float is any record satisfying `wf`: precision from 0 to 2^32-1, the mantissa fits the precision, the exponent
  is an int32. A mantissa is an integer that need not be normalised; big.Float hides the difference.
* `big.Float.Parse` accepts only the part of the grammar the packages produce; the theorems on `Big` show that no
  text is rejected.
* Loops are recursion on a list or on fuel. Running out of fuel is `Panic`, and the theorems show it does not happen.

## How properties are proved

* Bit fields (C01, C10, C16): lemmas on `Z.land` and shifts.
* `Big` (C02, C11, C17, C22, C23): the model prints the text, the model of `Parse` reads it; induction on the digits.
* Conversions (C03-C09, C12-C15, C18-C21, C58, C59): generic lemmas on the mantissa of a big.Float; the model of
  `Float64` and `Float32` is proved to be Flocq's rounding to nearest with a truthful accuracy.
* Double-double (C23-C28): Flocq's theory of rounding errors.
* `float.go` (C30-C34): the text of `big.Float.Text('e', 100)` and of `FormatFloat` are compared as numbers.
* `itoa.go` (C35-C38): the digits read back in the base; 32-bit and 64-bit paths give the same.
* `decimal.go` (C39-C43): value = integer of digits times a power of ten; loops by induction; the cheat table by
  evaluation of its 61 entries and a general lemma.
* `extfloat.go` (C44-C50, C60): tables by evaluation of every entry; error analysis in R.
* `ftoa.go` (C51-C57, C62-C64, C76, C77): composition of the above with the text specification. That both paths print
  the same shortest digits (C76) follows from what each is proved to return: the fast one the nearest decimal of its
  length, strictly inside the interval (C49), the slow one that decimal whenever there is one (`FtoaShort.v`).
* Changes of sign and of the host (C72, C73): the two runs are compared step by step, or both results are characterised
  by a property that determines them.
* Arrays (C74, C75): each function of the models with arrays is proved to return the bytes of the list that the other
  model returns, and then the earlier theorems apply.
* What IsExact64 decides (C65): a float64 that agrees with a decimal of 17 digits to 100 digits is that decimal.
  `GapTable.v` has a pair of neighbouring fractions around 5^k/2^j for each power that matters; `ExactGap.v` checks
  them and proves that no other fraction with a small denominator lies between.
* Round trips and orders (C78-C80): what NewFromBig returns is described for every number, and fed to the round trips of
  C07, C15, C21 and C26; patterns are ordered because the value of a pattern increases with its magnitude.
* Reading back (C81): a decimal that rounds to a positive float is above half the least float, where C50 applies.
* Pointers (C29): a store monad; every cell that existed before the call is unchanged after it.

A claim that is false of the model has a theorem `..._refuted` with a witness and a theorem `..._partial` with what
holds; where it was possible the exact set on which it holds, or a description of the function on all arguments
(`..._all`), is proved.

## What the proofs found in the code

* `binary16`, `binary128`, `float80x86`: `NewFromBig` truncates instead of rounding. From 2^16 (2^16384) on the
  exponent is taken modulo 2^5 (2^15): 98304 becomes a NaN, 2^17 becomes 0. Below the least subnormal the result is
  garbage: float80x86 returns the largest subnormal number. Accuracies of negative numbers are wrong.
* `binary16.NewFromFloat64` rounds twice, and reports Exact for 1 + 2^-52.
* `binary128.Exp` is 0 on 32-bit hosts, so `Big` loses the exponent there.
* `float128ppc`: `NegInf` is +Inf; `Big` panics on opposite infinities; (1, 2^-1074) comes back as (1, 0); the accuracy is
  always Exact; `NewFromBig` rounds its argument in place, and below 2^-969 can return a pair that is not normalised.
* `float.go`: IsExact16(65500) is true; the floats nearest to 0.1 are not exact; infinities panic;
  trimZeros("-0e+00") is "-e+00".
* `decimal.RoundedInteger` wraps to 0 if the nearest integer is 2^64.
* `extfloat.AssignDecimal` (not called in this repository) gives wrong floats at and just below half the least
  subnormal: 7006492321624085354e-64 for float32, 298023223876953125e-25 for float16; 0e292 gives an infinity, and so do
  0e20 for float32 and 0e-12 for float16; the error of a truncated mantissa is underestimated: 1152921504606846939e36
  with 999999 following its digits.
* `ftoa.go`: FormatFloat(1, 'x', 0, 64) panics; 'e' with the largest precision panics (2^31-1 on 32-bit hosts); the shortest text is not
  always the closest one of its length: float32 29999998976 is printed as 2.9999998e+10.

## Trusted base

* Coq's kernel, including its virtual machine (`vm_compute`). No `native_compute`.
* The models: that the files above say what the Go code does. In particular `BigFloat.v` and `GoFmt.v`, which were
  written from knowledge of Go's `math/big` and `fmt`; their sources are not in /repo.
* The specifications.
* Axioms of Coq's standard library, as listed by `Print Assumptions` (no other axioms; Flocq's theorems used here add
  none):
  * `ClassicalDedekindReals.sig_forall_dec`, `ClassicalDedekindReals.sig_not_dec` and
    `FunctionalExtensionality.functional_extensionality_dep`: the real numbers.
  * `Classical_Prop.classic`: excluded middle, used by Flocq and by `Reals`.

### No axioms (64 theorems)

* `Prop_Arrays`: C74_unchanged
* `Prop_Bfloat`: C22_bfloat_fields
* `Prop_Binary128`: C10_binary128_fields_partial, C10_binary128_fields_refuted, C10_binary128_Exp_32bit
* `Prop_Binary16`: C01_binary16_fields
* `Prop_Calls`: C101_binary16, C101_bfloat, C101_float80x86, C101_binary128, C101_float128ppc, C102_float128ppc, C103_order_refuted
* `Prop_Decimal`: C41_unchanged
* `Prop_Err`: C96_Float64_refuted, C97_refuted
* `Prop_Float`: C34_fraction, C34_no_exponent
* `Prop_Float80x86`: C16_float80x86_fields
* `Prop_Ftoa`: C54_refuted, C57_bitSize, C57_make
* `Prop_Gen`: C71_refuted
* `Prop_Host`: C61_NewFromBig_64bit, C61_binary128_roundtrip_refuted
* `Prop_Ints`: C110_length, C110_length_int, C110_longest, C110_bases, C110_order, C110_complete
* `Prop_Itoa`: C35_format, C35_injective, C36_append, C37_panics, C38_word_size
* `Prop_Lines`: C90_less_refuted, C90_less_partial
* `Prop_Neg`: C84_mode_refuted
* `Prop_Pointers`: C29_binary16_argument, C29_binary16_result, C29_float80x86_argument, C29_float80x86_result, C29_binary128_argument, C29_binary128_result
* `Prop_Sign`: C09_binary16_host_sign, C09_float80x86_host_sign, C09_binary128_host_sign, C72_other_bitSizes, C73_integers
* `Prop_Slices`: C98_AppendFloat, C98_AppendInt, C98_AppendUint, C98_panics, C98_other_slices, C98_FormatFloat, C98_FormatFloat_panics, C99_AppendInt, C99_AppendUint, C99_AppendFloat_refuted, C99_AppendFloat_partial
* `Prop_Trip`: C78_float80x86_refuted, C78_float128ppc_zero_refuted, C82_Shift_refuted

### `sig_forall_dec`, `functional_extensionality_dep` (76 theorems)

* `Prop_Arrays`: C74_Assign, C74_in_bounds, C74_Shift_exact, C74_Shift_formatter, C74_Shift_truncation, C74_Shift_single, C74_Round, C74_RoundDown_RoundUp, C74_RoundedInteger_partial, C74_String
* `Prop_Bfloat`: C22_bfloat_Big
* `Prop_Binary128`: C11_binary128_Big, C15_binary128_accuracy_refuted
* `Prop_Binary16`: C02_binary16_Big, C06_binary16_accuracy_refuted
* `Prop_DecInt`: C42_RoundedInteger_all, C42_RoundedInteger_exactly, C74_RoundedInteger_all
* `Prop_Decimal`: C39_Assign, C39_normal_form, C40_Shift_exact, C40_Shift_formatter, C40_Shift_truncation, C40_Shift_single, C41_Round, C41_RoundDown_RoundUp, C42_RoundedInteger_partial, C42_RoundedInteger_refuted, C43_String
* `Prop_ExtFloat`: C44_powersOfTen, C45_Multiply, C45_Normalize, C46_small_integers, C47_frexp10, C47_range, C50_AssignDecimal_zero_refuted, C50_AssignDecimal_zero
* `Prop_Float`: C31_refuted, C32_refuted, C33_refuted, C34_refuted, C34_partial, C34_same_partial
* `Prop_Float128ppc`: C24_float128ppc_no_panic_refuted, C26_float128ppc_negative_zero_refuted, C27_float128ppc_accuracy_refuted, C28_float128ppc_nan_sign_refuted, C08_float128ppc_special_refuted, C29_float128ppc_argument_refuted
* `Prop_Float80x86`: C17_float80x86_Big, C21_float80x86_accuracy_refuted
* `Prop_Ftoa`: C51_refuted, C57_refuted
* `Prop_Host`: C61_NewFromBig_refuted, C61_NewFromBig_32bit_partial, C61_binary128_Big_refuted, C61_binary128_Big_32bit, C61_binary128_floats_refuted, C61_binary128_to_floats_32bit
* `Prop_More`: C68_refuted
* `Prop_Neg`: C83_Big, C84_infinity_refuted
* `Prop_NewFromBig`: C05_binary16_NaN_refuted, C05_binary16_tiny_refuted, C15_binary128_NaN_refuted, C21_float80x86_NaN_refuted, C21_float80x86_tiny_refuted
* `Prop_Rep`: C86_float128ppc_refuted
* `Prop_Reread`: C93_35_digits_refuted
* `Prop_Shift`: C82_Shift_near
* `Prop_Trip`: C80_binary16, C80_bfloat, C80_binary128, C80_float80x86, C82_Shift_adds, C82_Shift_back

### `sig_forall_dec`, `sig_not_dec`, `classic`, `functional_extensionality_dep` (241 theorems)

* `Prop_Acc`: C07_binary16_accuracy_outside, C06_binary16_accuracy_outside, C15_binary128_accuracy_outside, C21_float80x86_accuracy_outside, C27_float128ppc_accuracy_exactly
* `Prop_Arrays`: C75_same_text, C75_returns_partial, C75_never_returns, C75_e_partial, C75_f, C75_g, C75_shortest
* `Prop_Bfloat`: C58_bfloat_widening, C59_binary16_widening, C59_float80x86_binary128
* `Prop_Binary128`: C12_binary128_roundtrip, C13_binary128_floats, C14_binary128_to_floats, C15_binary128_NewFromBig_refuted, C15_binary128_NewFromBig_partial, C08_binary128_special, C09_binary128_sign
* `Prop_Binary16`: C03_binary16_roundtrip, C04_binary16_floats, C05_binary16_nearest_refuted, C05_binary16_nearest_subnormal_refuted, C05_binary16_nearest_partial, C05_binary16_double_rounding_partial, C05_binary16_NewFromFloat32, C06_binary16_accuracy_partial, C07_binary16_NewFromBig_refuted, C07_binary16_NewFromBig_partial, C08_binary16_special, C09_binary16_sign
* `Prop_Calls`: C102_argument, C103_order_partial, C103_after, C103_twice
* `Prop_Equal`: C109_depends, C109_shortest, C109_shortest_all, C109_b, C109_e, C109_g, C109_f
* `Prop_Err`: C95_binary16, C95_binary128, C95_float80x86, C95_float128ppc, C95_binary16_NewFromFloat64, C95_binary128_to_floats, C95_float80x86_to_floats, C96_binary16_through_binary128, C96_binary16_through_float80x86, C96_float80x86_through_binary128, C97_binary128_exactly, C97_float80x86_exactly
* `Prop_ExtFloat`: C46_bounds, C48_FixedDecimal, C49_ShortestDecimal, C50_AssignDecimal_refuted, C50_AssignDecimal_tie_refuted, C50_AssignDecimal_partial, C50_AssignDecimal_all, C60_trunc_refuted, C60_trunc_partial
* `Prop_Float`: C30_IsExact64, C30_IsExact32, C31_partial, C32_IsExact64_partial, C32_IsExact32_partial, C32_IsExact16_partial, C32_IsExact64_rejects, C32_IsExact32_rejects, C32_IsExact16_rejects, C33_partial, C33_panics
* `Prop_Float128ppc`: C23_float128ppc_Big, C24_float128ppc_no_panic_partial, C25_float128ppc_split, C25_float128ppc_short, C26_float128ppc_roundtrip_refuted, C26_float128ppc_roundtrip_partial, C27_float128ppc_accuracy_partial, C28_float128ppc_floats_partial, C08_float128ppc_special_partial, C29_float128ppc_argument_partial
* `Prop_Float80x86`: C18_float80x86_roundtrip, C19_float80x86_floats, C20_float80x86_to_floats, C21_float80x86_NewFromBig_refuted, C21_float80x86_NewFromBig_partial, C08_float80x86_special, C09_float80x86_sign
* `Prop_Ftoa`: C51_e_partial, C51_f_partial, C51_g_partial, C52_reads_back, C52_distinct, C53_shortest, C54_partial, C55_exact, C56_nan, C56_inf, C56_overflow, C56_zero, C57_unknown_partial, C57_returns_partial, C57_panics
* `Prop_FtoaMore`: C62_e, C62_g, C62_sharp, C63_shortest, C63_fixed_partial, C64_refuted, C64_partial, C64_closest_partial, C76_shortest_paths, C77_shortest_exactly, C65_IsExact64, C65_IsExact32, C65_IsExact16_partial, C65_IsExact16
* `Prop_Gen`: C67_binary16_tables, C71_binary128_tables_partial
* `Prop_Host`: C61_NewFromBig_32bit_huge, C61_binary128_roundtrip_32bit, C61_binary128_floats_32bit
* `Prop_Keep`: C107_e, C107_g, C107_f, C107_shortest, C107_AssignDecimal, C107_sharp, C107_subnormal
* `Prop_Keep2`: C107_e_subnormal, C107_g_subnormal, C107_f_subnormal, C107_shortest_subnormal
* `Prop_Len`: C91_lengths, C92_two_sizes_partial, C92_two_sizes_refuted
* `Prop_LenF`: C104_places, C104_shortest, C104_fixed, C104_binary
* `Prop_Letters`: C111_upper, C111_g, C111_g_fixed
* `Prop_Lines`: C87_binary16_lines, C87_binary128_lines, C87_Text_plain, C88_Text_rounds, C89_dumpTest
* `Prop_Many`: C108_e, C108_g, C108_f, C108_sharp, C108_closer_e, C108_closer_g, C108_closer_f
* `Prop_Mono2`: C68_binary16_outside, C68_binary128_outside, C68_float80x86_outside, C68_float128ppc_outside
* `Prop_More`: C07_binary16_accuracy_iff, C15_binary128_accuracy_iff, C21_float80x86_accuracy_iff, C06_binary16_accuracy_iff, C26_float128ppc_roundtrip_iff, C66_half_texts, C68_binary16_partial, C68_binary16_NewFromFloat64_partial, C68_binary128_partial, C68_float80x86_partial, C68_float128ppc_partial, C69_binary128, C69_float80x86, C69_float128ppc, C70_float128ppc_partial, C70_float128ppc_refuted, C70_float128ppc_all
* `Prop_Near`: C05_binary16_nearest_exactly, C07_binary16_NewFromBig_exactly, C15_binary128_NewFromBig_exactly, C21_float80x86_NewFromBig_exactly
* `Prop_Neg`: C83_binary16_floats, C83_float80x86_floats, C83_binary128_floats, C83_float128ppc_Big, C83_float128ppc_floats, C84_partial, C84_mirrored, C84_directed_exactly
* `Prop_NewFromBig`: C07_binary16_NewFromBig_all, C05_binary16_NewFromFloat64_all, C15_binary128_NewFromBig_all, C21_float80x86_NewFromBig_all
* `Prop_Rep`: C85_chain, C86_NewFromBig, C86_float128ppc_partial, C86_float128ppc_exactly, C86_IsExact
* `Prop_Reread`: C93_36_digits, C93_few_digits_partial, C93_35_digits_partial, C94_tests
* `Prop_Reround`: C112_refuted, C112_e_exactly, C112_f_exactly, C112_g_exactly, C112_shortest_exactly
* `Prop_Same`: C105_rounded_exactly, C105_rounded_partial, C105_rounded_refuted, C105_odd_refuted
* `Prop_SameF`: C106_places_exactly, C106_whole_exactly, C106_rounded_partial, C106_places_refuted, C106_whole_refuted
* `Prop_Sign`: C72_text_of_minus, C73_floats_partial, C73_refuted
* `Prop_Slices`: C100_once_partial, C100_once_refuted, C100_e_exactly, C100_f_exactly, C100_length_e, C100_length_g
* `Prop_Trip`: C26_float128ppc_roundtrip_exactly, C78_binary16, C78_binary128, C78_float80x86_partial, C78_float80x86_exactly, C78_float128ppc_refuted, C78_float128ppc_partial, C78_float128ppc_exactly, C79_float128ppc_binary128, C81_reads_back, C81_shortest_reads_back
