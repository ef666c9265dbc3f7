{
 "claims": [
  {
   "property": "C01",
   "status": "proved",
   "theorems": [
    "C01_binary16_fields"
   ],
   "note": ""
  },
  {
   "property": "C02",
   "status": "proved",
   "theorems": [
    "C02_binary16_Big"
   ],
   "note": ""
  },
  {
   "property": "C03",
   "status": "proved",
   "theorems": [
    "C03_binary16_roundtrip"
   ],
   "note": ""
  },
  {
   "property": "C04",
   "status": "proved",
   "theorems": [
    "C04_binary16_floats"
   ],
   "note": ""
  },
  {
   "property": "C05",
   "status": "partial",
   "theorems": [
    "C05_binary16_nearest_refuted",
    "C05_binary16_nearest_subnormal_refuted",
    "C05_binary16_nearest_partial",
    "C05_binary16_double_rounding_partial",
    "C05_binary16_NewFromFloat32",
    "C05_binary16_NewFromFloat64_all",
    "C05_binary16_NaN_refuted",
    "C05_binary16_tiny_refuted",
    "C05_binary16_nearest_exactly"
   ],
   "note": "False as stated: 2^17 gives 0, 1023.5*2^-24 is truncated. Holds for zeros, 2^-14<=|x|<2^16 and exactly representable x; elsewhere down to 2^-24 the actual double rounding is proved. The _all theorem gives the result for every non-zero finite x. The _exactly theorem says for exactly which numbers the result is the nearest number."
  },
  {
   "property": "C06",
   "status": "partial",
   "theorems": [
    "C06_binary16_accuracy_refuted",
    "C06_binary16_accuracy_partial",
    "C06_binary16_accuracy_iff",
    "C06_binary16_accuracy_outside"
   ],
   "note": "False as stated: 1+2^-52 converts to 1 and reports Exact. Holds, from 2^-24 up to 2^17, exactly for the representable x (_iff). The _outside theorem says for which other numbers it is true."
  },
  {
   "property": "C07",
   "status": "partial",
   "theorems": [
    "C07_binary16_NewFromBig_refuted",
    "C07_binary16_NewFromBig_partial",
    "C07_binary16_NewFromBig_all",
    "C07_binary16_accuracy_iff",
    "C07_binary16_accuracy_outside",
    "C07_binary16_NewFromBig_exactly"
   ],
   "note": "False as stated: NewFromBig truncates. Truncation, exactness on representable x and truthfulness for x>=2^-14 are proved for 2^-24<=|x|<2^16. The _iff theorem says exactly when the accuracy is true. The _all theorem gives the result for every non-zero finite x. The _outside theorem says when the accuracy is true outside of that range. The _exactly theorem says for exactly which numbers the result is the nearest number."
  },
  {
   "property": "C08",
   "status": "partial",
   "theorems": [
    "C08_binary16_special",
    "C08_binary128_special",
    "C08_float80x86_special",
    "C08_float128ppc_special_refuted",
    "C08_float128ppc_special_partial"
   ],
   "note": "Proved for binary16, binary128 and float80x86. False of float128ppc: its NegInf constant is +Inf."
  },
  {
   "property": "C09",
   "status": "proved",
   "theorems": [
    "C09_binary16_sign",
    "C09_binary128_sign",
    "C09_float80x86_sign",
    "C09_binary16_host_sign",
    "C09_binary128_host_sign",
    "C09_float80x86_host_sign"
   ],
   "note": ""
  },
  {
   "property": "C10",
   "status": "partial",
   "theorems": [
    "C10_binary128_fields_partial",
    "C10_binary128_fields_refuted",
    "C10_binary128_Exp_32bit"
   ],
   "note": "Proved for hosts with a 64-bit int; false on 32-bit hosts, where Exp is always 0."
  },
  {
   "property": "C100",
   "status": "partial",
   "theorems": [
    "C100_once_partial",
    "C100_once_refuted",
    "C100_e_exactly",
    "C100_f_exactly",
    "C100_length_e",
    "C100_length_g",
    "C98_FormatFloat"
   ],
   "note": "False: -1.74980057982640954e+100 has 25 bytes and precision 17. Proved for negative precisions and for up to 16 digits after the point ('e') or 17 digits ('g'), one more for 32 and 16 bits; C100_e_exactly says exactly when for 'e' and 'E' (texts of at most 24 bytes); C98_FormatFloat says for every format that it is when the text is no longer than max(prec+4, 24)."
  },
  {
   "property": "C101",
   "status": "proved",
   "theorems": [
    "C101_binary16",
    "C101_bfloat",
    "C101_float80x86",
    "C101_binary128",
    "C101_float128ppc"
   ],
   "note": ""
  },
  {
   "property": "C102",
   "status": "proved",
   "theorems": [
    "C102_float128ppc",
    "C102_argument"
   ],
   "note": ""
  },
  {
   "property": "C103",
   "status": "partial",
   "theorems": [
    "C103_order_partial",
    "C103_order_refuted",
    "C103_after",
    "C103_twice"
   ],
   "note": "False because float128ppc.NewFromBig rounds its argument: IsExact64 of 1+2^-110 answers true afterwards. Proved for sequences without that call and for numbers of at most 106 bits; C103_after says what all later calls answer otherwise."
  },
  {
   "property": "C104",
   "status": "proved",
   "theorems": [
    "C104_places",
    "C104_shortest",
    "C104_fixed",
    "C104_binary"
   ],
   "note": "The Examples show that the bounds of 'f' with negative precision are attained and that the binary ones are for 64 and 16 bits."
  },
  {
   "property": "C105",
   "status": "partial",
   "theorems": [
    "C105_rounded_exactly",
    "C105_rounded_partial",
    "C105_rounded_refuted",
    "C105_odd_refuted"
   ],
   "note": "False: 2^-44 is 5.684341886080802e-14, but 5.684341886080801e-14 with 16 digits, and the float32 29999998976 is 2.9999998e+10, but 2.9999999e+10 with 8 digits. C105_rounded_exactly says when it holds; C105_rounded_partial that it does for every number that is not a power of two, outside the case of C64."
  },
  {
   "property": "C106",
   "status": "partial",
   "theorems": [
    "C106_places_exactly",
    "C106_whole_exactly",
    "C106_rounded_partial",
    "C106_places_refuted",
    "C106_whole_refuted"
   ],
   "note": "False: 2^-44 is 0.00000000000005684341886080802, but ends in 1 when rounded to 29 places, and 2^60 is 1152921504606847000, but 1152921504606846976 with no places. C106_places_exactly and C106_whole_exactly say when it holds; C106_rounded_partial that it does for integers below 2^53 (2^24, 2^11) and for all texts with a point of numbers that are not a power of two, outside the case of C64."
  },
  {
   "property": "C107",
   "status": "proved",
   "theorems": [
    "C107_e",
    "C107_g",
    "C107_f",
    "C107_shortest",
    "C107_AssignDecimal",
    "C107_sharp",
    "C107_subnormal",
    "C107_e_subnormal",
    "C107_g_subnormal",
    "C107_f_subnormal",
    "C107_shortest_subnormal"
   ],
   "note": "C107_sharp and C107_subnormal show that one digit more, or a single digit below the normal range, is too many; the _subnormal theorems say how many digits survive there. For 16 bits: for the values whose conversion rounds correctly (C05)."
  },
  {
   "property": "C108",
   "status": "proved",
   "theorems": [
    "C108_e",
    "C108_g",
    "C108_f",
    "C108_sharp",
    "C108_closer_e",
    "C108_closer_g",
    "C108_closer_f"
   ],
   "note": "For 16 bits: for the values whose conversion rounds correctly (C05)."
  },
  {
   "property": "C109",
   "status": "proved",
   "theorems": [
    "C109_depends",
    "C109_shortest",
    "C109_shortest_all",
    "C109_b",
    "C109_e",
    "C109_g",
    "C109_f"
   ],
   "note": "For 'e' and 'E' with any precision but the largest int, with which they panic (C51). For 16 bits: for the values whose conversion rounds correctly (C05)."
  },
  {
   "property": "C11",
   "status": "proved",
   "theorems": [
    "C11_binary128_Big"
   ],
   "note": "On 64-bit hosts (int is modelled with 64 bits)."
  },
  {
   "property": "C110",
   "status": "proved",
   "theorems": [
    "C110_length",
    "C110_length_int",
    "C110_longest",
    "C110_bases",
    "C110_order",
    "C110_complete"
   ],
   "note": ""
  },
  {
   "property": "C111",
   "status": "proved",
   "theorems": [
    "C111_upper",
    "C111_g",
    "C111_g_fixed"
   ],
   "note": "For 'e' with any precision but the largest int, with which it panics (C51); C111_g_fixed for precisions at least 8 below it. For 16 bits: for the values whose conversion rounds correctly (C05)."
  },
  {
   "property": "C112",
   "status": "partial",
   "theorems": [
    "C112_refuted",
    "C112_e_exactly",
    "C112_f_exactly",
    "C112_g_exactly",
    "C112_shortest_exactly"
   ],
   "note": "False: the float64 next to 0.45 is 4.5e-01 with two digits and 5e-01 with one. The _exactly theorems say when it holds: unless the number of the longer text is half way between two of the shorter length, with the float on one side of it and the rounded number on the other."
  },
  {
   "property": "C12",
   "status": "proved",
   "theorems": [
    "C12_binary128_roundtrip"
   ],
   "note": "On 64-bit hosts."
  },
  {
   "property": "C13",
   "status": "proved",
   "theorems": [
    "C13_binary128_floats"
   ],
   "note": "On 64-bit hosts."
  },
  {
   "property": "C14",
   "status": "proved",
   "theorems": [
    "C14_binary128_to_floats"
   ],
   "note": "On 64-bit hosts."
  },
  {
   "property": "C15",
   "status": "partial",
   "theorems": [
    "C15_binary128_NewFromBig_refuted",
    "C15_binary128_accuracy_refuted",
    "C15_binary128_NewFromBig_partial",
    "C15_binary128_NewFromBig_all",
    "C15_binary128_NaN_refuted",
    "C15_binary128_accuracy_iff",
    "C15_binary128_accuracy_outside",
    "C15_binary128_NewFromBig_exactly"
   ],
   "note": "False as stated: NewFromBig truncates. Truncation, exactness on representable x and truthfulness for x>=2^-16382 are proved for 2^-16494<=|x|<2^16384. The _iff theorem says exactly when the accuracy is true. The _all theorem gives the result for every non-zero finite x. The _outside theorem says when the accuracy is true outside of that range. The _exactly theorem says for exactly which numbers the result is the nearest number."
  },
  {
   "property": "C16",
   "status": "proved",
   "theorems": [
    "C16_float80x86_fields"
   ],
   "note": ""
  },
  {
   "property": "C17",
   "status": "proved",
   "theorems": [
    "C17_float80x86_Big"
   ],
   "note": ""
  },
  {
   "property": "C18",
   "status": "proved",
   "theorems": [
    "C18_float80x86_roundtrip"
   ],
   "note": ""
  },
  {
   "property": "C19",
   "status": "proved",
   "theorems": [
    "C19_float80x86_floats"
   ],
   "note": ""
  },
  {
   "property": "C20",
   "status": "proved",
   "theorems": [
    "C20_float80x86_to_floats"
   ],
   "note": ""
  },
  {
   "property": "C21",
   "status": "partial",
   "theorems": [
    "C21_float80x86_NewFromBig_refuted",
    "C21_float80x86_accuracy_refuted",
    "C21_float80x86_NewFromBig_partial",
    "C21_float80x86_NewFromBig_all",
    "C21_float80x86_NaN_refuted",
    "C21_float80x86_tiny_refuted",
    "C21_float80x86_accuracy_iff",
    "C21_float80x86_accuracy_outside",
    "C21_float80x86_NewFromBig_exactly"
   ],
   "note": "False as stated: NewFromBig truncates. Truncation, exactness on representable x and truthfulness for x>=2^-16382 are proved for 2^-16445<=|x|<2^16384. The _iff theorem says exactly when the accuracy is true. The _all theorem gives the result for every non-zero finite x. The _outside theorem says when the accuracy is true outside of that range. The _exactly theorem says for exactly which numbers the result is the nearest number."
  },
  {
   "property": "C22",
   "status": "proved",
   "theorems": [
    "C22_bfloat_fields",
    "C22_bfloat_Big"
   ],
   "note": ""
  },
  {
   "property": "C23",
   "status": "proved",
   "theorems": [
    "C23_float128ppc_Big"
   ],
   "note": ""
  },
  {
   "property": "C24",
   "status": "partial",
   "theorems": [
    "C24_float128ppc_no_panic_refuted",
    "C24_float128ppc_no_panic_partial"
   ],
   "note": "False as stated; the exact set of inputs on which each function panics is proved."
  },
  {
   "property": "C25",
   "status": "proved",
   "theorems": [
    "C25_float128ppc_split",
    "C25_float128ppc_short"
   ],
   "note": ""
  },
  {
   "property": "C26",
   "status": "partial",
   "theorems": [
    "C26_float128ppc_roundtrip_refuted",
    "C26_float128ppc_negative_zero_refuted",
    "C26_float128ppc_roundtrip_partial",
    "C26_float128ppc_roundtrip_iff",
    "C26_float128ppc_roundtrip_exactly"
   ],
   "note": "False as stated: (1, 2^-1074) comes back as (1, 0). Holds exactly when the high half is the nearest float64 of the sum, the sum has at most 106 bits and the low half is not -0."
  },
  {
   "property": "C27",
   "status": "partial",
   "theorems": [
    "C27_float128ppc_accuracy_refuted",
    "C27_float128ppc_accuracy_partial",
    "C27_float128ppc_accuracy_exactly"
   ],
   "note": "False as stated: the accuracy is always Exact. It is true exactly of multiples of 2^-1074 of at most 106 bits (_exactly)."
  },
  {
   "property": "C28",
   "status": "partial",
   "theorems": [
    "C28_float128ppc_floats_partial",
    "C28_float128ppc_nan_sign_refuted"
   ],
   "note": "Everything but the sign of a NaN that comes back through Float64, which is lost."
  },
  {
   "property": "C29",
   "status": "partial",
   "theorems": [
    "C29_binary16_argument",
    "C29_binary16_result",
    "C29_binary128_argument",
    "C29_binary128_result",
    "C29_float80x86_argument",
    "C29_float80x86_result",
    "C29_float128ppc_argument_refuted",
    "C29_float128ppc_argument_partial"
   ],
   "note": "Proved for binary16, binary128 and float80x86 in a model with pointers. False of float128ppc, which rounds its argument in place."
  },
  {
   "property": "C30",
   "status": "proved",
   "theorems": [
    "C30_IsExact64",
    "C30_IsExact32"
   ],
   "note": ""
  },
  {
   "property": "C31",
   "status": "partial",
   "theorems": [
    "C31_refuted",
    "C31_partial",
    "C65_IsExact16"
   ],
   "note": "False: IsExact16(65500) is true; C65_IsExact16 says exactly where it is. Proved for all other numbers than integers between 2048 and 65520 of at most five digits."
  },
  {
   "property": "C32",
   "status": "partial",
   "theorems": [
    "C32_refuted",
    "C65_IsExact64",
    "C65_IsExact32",
    "C65_IsExact16_partial",
    "C32_IsExact64_partial",
    "C32_IsExact32_partial",
    "C32_IsExact16_partial",
    "C32_IsExact64_rejects",
    "C32_IsExact32_rejects",
    "C32_IsExact16_rejects"
   ],
   "note": "False: the floats nearest to 0.1 are rejected, like all that need more than 17 (9, 5) digits. Proved for floats with at most 15 (7, 3) digits and for integers below 2^53 (2^24, 2^11); C65 says exactly for which floats the answer is true."
  },
  {
   "property": "C33",
   "status": "partial",
   "theorems": [
    "C33_refuted",
    "C33_partial",
    "C33_panics"
   ],
   "note": "False: infinities panic. Proved for all finite numbers."
  },
  {
   "property": "C34",
   "status": "partial",
   "theorems": [
    "C34_refuted",
    "C34_partial",
    "C34_same_partial",
    "C34_fraction",
    "C34_no_exponent"
   ],
   "note": "False of -0e+00, whose only digit is trimmed. Proved for every other text."
  },
  {
   "property": "C35",
   "status": "proved",
   "theorems": [
    "C35_format",
    "C35_injective"
   ],
   "note": ""
  },
  {
   "property": "C36",
   "status": "proved",
   "theorems": [
    "C36_append"
   ],
   "note": ""
  },
  {
   "property": "C37",
   "status": "proved",
   "theorems": [
    "C37_panics"
   ],
   "note": ""
  },
  {
   "property": "C38",
   "status": "proved",
   "theorems": [
    "C38_word_size"
   ],
   "note": ""
  },
  {
   "property": "C39",
   "status": "proved",
   "theorems": [
    "C39_Assign",
    "C39_normal_form"
   ],
   "note": ""
  },
  {
   "property": "C40",
   "status": "proved",
   "theorems": [
    "C40_Shift_exact",
    "C40_Shift_formatter",
    "C40_Shift_truncation",
    "C40_Shift_single"
   ],
   "note": "A shift by more than uintsize-4 places truncates once per step; the loss is bounded and recorded exactly."
  },
  {
   "property": "C41",
   "status": "proved",
   "theorems": [
    "C41_Round",
    "C41_RoundDown_RoundUp",
    "C41_unchanged"
   ],
   "note": "For n>=0. A negative n leaves the value alone."
  },
  {
   "property": "C42",
   "status": "partial",
   "theorems": [
    "C42_RoundedInteger_refuted",
    "C42_RoundedInteger_partial",
    "C42_RoundedInteger_all",
    "C42_RoundedInteger_exactly"
   ],
   "note": "False only where the nearest integer is 2^64: the carry wraps around. Proved everywhere else; the _all theorem says what is returned from 2^64 on."
  },
  {
   "property": "C43",
   "status": "proved",
   "theorems": [
    "C43_String"
   ],
   "note": ""
  },
  {
   "property": "C44",
   "status": "proved",
   "theorems": [
    "C44_powersOfTen"
   ],
   "note": ""
  },
  {
   "property": "C45",
   "status": "proved",
   "theorems": [
    "C45_Multiply",
    "C45_Normalize"
   ],
   "note": "The proved bound is 1/2."
  },
  {
   "property": "C46",
   "status": "proved",
   "theorems": [
    "C46_bounds",
    "C46_small_integers"
   ],
   "note": ""
  },
  {
   "property": "C47",
   "status": "proved",
   "theorems": [
    "C47_frexp10",
    "C47_range"
   ],
   "note": ""
  },
  {
   "property": "C48",
   "status": "proved",
   "theorems": [
    "C48_FixedDecimal"
   ],
   "note": ""
  },
  {
   "property": "C49",
   "status": "proved",
   "theorems": [
    "C49_ShortestDecimal"
   ],
   "note": ""
  },
  {
   "property": "C50",
   "status": "partial",
   "theorems": [
    "C50_AssignDecimal_refuted",
    "C50_AssignDecimal_tie_refuted",
    "C50_AssignDecimal_zero_refuted",
    "C50_AssignDecimal_partial",
    "C50_AssignDecimal_all",
    "C50_AssignDecimal_zero"
   ],
   "note": "False for 0 with a large exponent and for numbers at or less than one part in 2^56 below half the least positive float, where the error limit overflows int64. Proved for every other positive mantissa and every exponent; the _all theorem says that the only wrong result is the least float, and C50_AssignDecimal_zero says for every exponent what becomes of 0."
  },
  {
   "property": "C51",
   "status": "partial",
   "theorems": [
    "C51_e_partial",
    "C51_f_partial",
    "C51_g_partial",
    "C51_refuted"
   ],
   "note": "False only for 'e' and 'E' with the largest precision, where prec+1 overflows; proved for every other precision on both code paths. For 16 bits: for the values whose conversion rounds correctly (C05); C66 adds the others."
  },
  {
   "property": "C52",
   "status": "proved",
   "theorems": [
    "C52_reads_back",
    "C52_distinct"
   ],
   "note": "For 16 bits: for every half precision value and every float64 whose conversion rounds correctly (C05); C66 adds the others."
  },
  {
   "property": "C53",
   "status": "proved",
   "theorems": [
    "C53_shortest"
   ],
   "note": "Both code paths."
  },
  {
   "property": "C54",
   "status": "partial",
   "theorems": [
    "C54_partial",
    "C54_refuted"
   ],
   "note": "False for an unknown letter with precision 0 and for 'e' with the largest precision, where the fast path panics; proved for everything else."
  },
  {
   "property": "C55",
   "status": "proved",
   "theorems": [
    "C55_exact"
   ],
   "note": ""
  },
  {
   "property": "C56",
   "status": "proved",
   "theorems": [
    "C56_nan",
    "C56_inf",
    "C56_overflow",
    "C56_zero"
   ],
   "note": ""
  },
  {
   "property": "C57",
   "status": "partial",
   "theorems": [
    "C57_refuted",
    "C57_unknown_partial",
    "C57_returns_partial",
    "C57_panics",
    "C57_bitSize",
    "C57_make"
   ],
   "note": "False: FormatFloat(1,'x',0,64) panics. The set of arguments on which it panics is proved exactly; C57_make adds the allocation of line 53."
  },
  {
   "property": "C58",
   "status": "proved",
   "theorems": [
    "C58_bfloat_widening"
   ],
   "note": ""
  },
  {
   "property": "C59",
   "status": "proved",
   "theorems": [
    "C59_binary16_widening",
    "C59_float80x86_binary128"
   ],
   "note": ""
  },
  {
   "property": "C60",
   "status": "partial",
   "theorems": [
    "C60_trunc_refuted",
    "C60_trunc_partial"
   ],
   "note": "False for some mantissas below 2^60. Proved for mantissas of at least 2^60, for those of 19 digits if at most half a unit was cut off, and for all if at most the 2^61st part was, in each case unless the number is at or just below half the least float (C50)."
  },
  {
   "property": "C61",
   "status": "partial",
   "theorems": [
    "C61_NewFromBig_refuted",
    "C61_NewFromBig_64bit",
    "C61_NewFromBig_32bit_partial",
    "C61_NewFromBig_32bit_huge",
    "C61_binary128_Big_refuted",
    "C61_binary128_Big_32bit",
    "C61_binary128_roundtrip_refuted",
    "C61_binary128_roundtrip_32bit",
    "C61_binary128_floats_refuted",
    "C61_binary128_floats_32bit",
    "C61_binary128_to_floats_32bit"
   ],
   "note": "False: on 32-bit hosts binary128's Exp is 0, so Big loses the exponent, and NewFromBig wraps around for exponents near 2^31. What the functions do on 32-bit hosts is proved completely."
  },
  {
   "property": "C62",
   "status": "proved",
   "theorems": [
    "C62_e",
    "C62_g",
    "C62_sharp"
   ],
   "note": ""
  },
  {
   "property": "C63",
   "status": "partial",
   "theorems": [
    "C63_shortest",
    "C63_fixed_partial"
   ],
   "note": "Proved but for format 'e' with precision MaxInt, where the fast path panics."
  },
  {
   "property": "C64",
   "status": "partial",
   "theorems": [
    "C64_refuted",
    "C64_partial",
    "C64_closest_partial",
    "C77_shortest_exactly",
    "C49_ShortestDecimal"
   ],
   "note": "False: the float32 29999998976 is printed as 2.9999998e+10 though 2.9999999e+10 is closer. Proved: less than one unit of the last digit (half a unit where the fast path succeeds), and the closest of its length unless the upper midpoint rounds to the next float and has fewer digits, as 3e+10 there."
  },
  {
   "property": "C65",
   "status": "partial",
   "theorems": [
    "C65_IsExact64",
    "C65_IsExact32",
    "C65_IsExact16_partial",
    "C65_IsExact16",
    "C31_refuted",
    "C31_partial"
   ],
   "note": "Proved for float64 and float32, and for half precision numbers. False of IsExact16 for other numbers (C31_refuted); C65_IsExact16 says for every number what it answers."
  },
  {
   "property": "C66",
   "status": "proved",
   "theorems": [
    "C66_half_texts"
   ],
   "note": ""
  },
  {
   "property": "C67",
   "status": "proved",
   "theorems": [
    "C67_binary16_tables"
   ],
   "note": "That Go's %v reads back as the float64 printed is part of this model, and proved in C87."
  },
  {
   "property": "C68",
   "status": "partial",
   "theorems": [
    "C68_refuted",
    "C68_binary16_partial",
    "C68_binary16_NewFromFloat64_partial",
    "C68_binary128_partial",
    "C68_float80x86_partial",
    "C68_float128ppc_partial",
    "C68_binary16_outside",
    "C68_binary128_outside",
    "C68_float80x86_outside",
    "C68_float128ppc_outside"
   ],
   "note": "False: binary16.NewFromBig makes 0 of 2^17. Proved between the least positive and the greatest number of each format. The _outside theorems say which positive numbers outside keep their order with all of those inside."
  },
  {
   "property": "C69",
   "status": "proved",
   "theorems": [
    "C69_binary128",
    "C69_float80x86",
    "C69_float128ppc"
   ],
   "note": "For float128ppc: pairs of finite numbers, in the order of their sums."
  },
  {
   "property": "C70",
   "status": "partial",
   "theorems": [
    "C70_float128ppc_refuted",
    "C70_float128ppc_partial",
    "C70_float128ppc_all"
   ],
   "note": "False for sums of more than 106 bits, which are rounded twice. Proved for all others; the _all theorem says what happens to every pair of finite numbers."
  },
  {
   "property": "C71",
   "status": "partial",
   "theorems": [
    "C71_binary128_tables_partial",
    "C71_refuted"
   ],
   "note": "False: 35 digits do not tell 1000+14*2^-43+2^-103 from the float64 next to it, so the test of its accuracy fails. Proved but for the comparisons with the number read back from the text, which are proved where the text reads back as the number; C94 says where it does."
  },
  {
   "property": "C72",
   "status": "proved",
   "theorems": [
    "C72_text_of_minus",
    "C72_other_bitSizes"
   ],
   "note": "An unknown format letter prints the letter only, whatever the sign."
  },
  {
   "property": "C73",
   "status": "partial",
   "theorems": [
    "C73_floats_partial",
    "C73_refuted",
    "C73_integers"
   ],
   "note": "False for formats 'e' and 'E' with precision 2^31-1, where FormatFloat panics on 32-bit hosts only. Proved for all other arguments."
  },
  {
   "property": "C74",
   "status": "partial",
   "theorems": [
    "C74_Assign",
    "C74_in_bounds",
    "C74_Shift_exact",
    "C74_Shift_formatter",
    "C74_Shift_truncation",
    "C74_Shift_single",
    "C74_Round",
    "C74_RoundDown_RoundUp",
    "C74_unchanged",
    "C74_RoundedInteger_partial",
    "C74_RoundedInteger_all",
    "C74_String",
    "C42_RoundedInteger_refuted"
   ],
   "note": "Proved, for decimals in normal form, but for RoundedInteger of numbers whose nearest integer is 2^64, for which it is false (C42_RoundedInteger_refuted)."
  },
  {
   "property": "C75",
   "status": "partial",
   "theorems": [
    "C75_same_text",
    "C75_returns_partial",
    "C75_never_returns",
    "C75_e_partial",
    "C75_f",
    "C75_g",
    "C75_shortest"
   ],
   "note": "Proved but for formats 'e' and 'E' with precision MaxInt, where the call never returns (C75_never_returns), and unknown letters with precision 0, where the fast path panics (C57)."
  },
  {
   "property": "C76",
   "status": "proved",
   "theorems": [
    "C76_shortest_paths"
   ],
   "note": "With C54, which is about precisions that are not negative, both paths agree wherever both return."
  },
  {
   "property": "C77",
   "status": "proved",
   "theorems": [
    "C77_shortest_exactly",
    "C66_half_texts"
   ],
   "note": "For 16 bits the theorem is about values whose conversion rounds correctly (C05); C66 reduces all others to these."
  },
  {
   "property": "C78",
   "status": "partial",
   "theorems": [
    "C78_binary16",
    "C78_binary128",
    "C78_float80x86_refuted",
    "C78_float80x86_partial",
    "C78_float80x86_exactly",
    "C78_float128ppc_refuted",
    "C78_float128ppc_zero_refuted",
    "C78_float128ppc_partial",
    "C78_float128ppc_exactly"
   ],
   "note": "Proved for binary16 and binary128. False for float80x86 beyond its range (2^16385) and for float128ppc, whose NewFromBig can return a pair that is not normalised or a low half of -0 below 2^-969. Proved within the range of float80x86, and for float128ppc from 2^-969 on and for multiples of 2^-1074; the _exactly theorems say for every number whether it comes back."
  },
  {
   "property": "C79",
   "status": "proved",
   "theorems": [
    "C79_float128ppc_binary128"
   ],
   "note": ""
  },
  {
   "property": "C80",
   "status": "proved",
   "theorems": [
    "C80_binary16",
    "C80_bfloat",
    "C80_binary128",
    "C80_float80x86"
   ],
   "note": ""
  },
  {
   "property": "C81",
   "status": "proved",
   "theorems": [
    "C81_reads_back",
    "C81_shortest_reads_back"
   ],
   "note": "A decimal that rounds to a positive float is above half the least float; AssignDecimal rounds wrongly only at or below it (C50)."
  },
  {
   "property": "C82",
   "status": "partial",
   "theorems": [
    "C82_Shift_adds",
    "C82_Shift_back",
    "C82_Shift_near",
    "C82_Shift_refuted"
   ],
   "note": "False where digits beyond the 800th are lost: 1 shifted by -1200 and back. Proved wherever the result is not marked as truncated; C82_Shift_near bounds the difference everywhere."
  },
  {
   "property": "C83",
   "status": "proved",
   "theorems": [
    "C83_Big",
    "C83_binary16_floats",
    "C83_float80x86_floats",
    "C83_binary128_floats",
    "C83_float128ppc_Big",
    "C83_float128ppc_floats"
   ],
   "note": ""
  },
  {
   "property": "C84",
   "status": "partial",
   "theorems": [
    "C84_infinity_refuted",
    "C84_mode_refuted",
    "C84_partial",
    "C84_mirrored",
    "C84_directed_exactly"
   ],
   "note": "False for the infinities (NegInf is +Inf) and in the directed modes, where x is rounded to 106 bits in its own mode. Proved for all finite x in the other modes, for -x in the mirrored mode (C84_mirrored), and C84_directed_exactly says when the directed modes do the same."
  },
  {
   "property": "C85",
   "status": "proved",
   "theorems": [
    "C85_chain"
   ],
   "note": ""
  },
  {
   "property": "C86",
   "status": "partial",
   "theorems": [
    "C86_NewFromBig",
    "C86_IsExact",
    "C86_float128ppc_refuted",
    "C86_float128ppc_partial",
    "C86_float128ppc_exactly"
   ],
   "note": "False for float128ppc.NewFromBig, which rounds x to 106 bits in the mode of x; proved for equal modes, and C86_float128ppc_exactly says when two modes do the same. Proved for the other formats and for IsExact."
  },
  {
   "property": "C87",
   "status": "proved",
   "theorems": [
    "C87_binary16_lines",
    "C87_binary128_lines",
    "C87_Text_plain"
   ],
   "note": "%v is strconv's 'g' with precision -1, modelled by Ftoa.v, the model of the copy of strconv in /repo."
  },
  {
   "property": "C88",
   "status": "proved",
   "theorems": [
    "C88_Text_rounds"
   ],
   "note": "Of the model of Text('g', p) in GenText.v."
  },
  {
   "property": "C89",
   "status": "proved",
   "theorems": [
    "C89_dumpTest"
   ],
   "note": ""
  },
  {
   "property": "C90",
   "status": "partial",
   "theorems": [
    "C90_less_refuted",
    "C90_less_partial"
   ],
   "note": "False: it compares the second halves also where the first are in the other order. Proved exactly where it is the lexicographic order; by C89 the tables do not depend on it."
  },
  {
   "property": "C91",
   "status": "proved",
   "theorems": [
    "C91_lengths"
   ],
   "note": "The Example shows that each bound is attained."
  },
  {
   "property": "C92",
   "status": "partial",
   "theorems": [
    "C92_two_sizes_partial",
    "C92_two_sizes_refuted"
   ],
   "note": "The digits are as stated for all formats; that the text is not longer is proved for 'e', 'E', 'g' and 'G' and refuted for 'f' (99999997952). For 'f' it is at most one byte longer, exactly for numbers that the smaller size rounds up to a power of ten from 10^11 on and the greater one does not."
  },
  {
   "property": "C93",
   "status": "partial",
   "theorems": [
    "C93_36_digits",
    "C93_few_digits_partial",
    "C93_35_digits_partial",
    "C93_35_digits_refuted"
   ],
   "note": "False for 35 digits (witness 1000+14*2^-43+2^-103), true for 36 and more. For any number of digits it is determined up to 2^-50 of half a unit in the last place; for 35 it holds wherever the power of ten below the number is at most 1.92 times the power of two below it."
  },
  {
   "property": "C94",
   "status": "proved",
   "theorems": [
    "C94_tests"
   ],
   "note": "Of the models of Text and SetString in GenText.v."
  },
  {
   "property": "C95",
   "status": "proved",
   "theorems": [
    "C95_binary16",
    "C95_binary128",
    "C95_float80x86",
    "C95_float128ppc",
    "C95_binary16_NewFromFloat64",
    "C95_binary128_to_floats",
    "C95_float80x86_to_floats"
   ],
   "note": ""
  },
  {
   "property": "C96",
   "status": "proved",
   "theorems": [
    "C96_binary16_through_binary128",
    "C96_binary16_through_float80x86",
    "C96_float80x86_through_binary128",
    "C96_Float64_refuted"
   ],
   "note": "Of NewFromBig, which truncates; C96_Float64_refuted shows that the same does not hold of Float64, which rounds to nearest."
  },
  {
   "property": "C97",
   "status": "partial",
   "theorems": [
    "C97_refuted",
    "C97_binary128_exactly",
    "C97_float80x86_exactly"
   ],
   "note": "False: 1+2^-24+2^-100 is rounded twice. The _exactly theorems say for which numbers it holds: all but those whose float64 is half way between two float32s, with the number on one side of it and the float32 on the other."
  },
  {
   "property": "C98",
   "status": "proved",
   "theorems": [
    "C98_AppendFloat",
    "C98_AppendInt",
    "C98_AppendUint",
    "C98_panics",
    "C98_other_slices",
    "C98_FormatFloat",
    "C98_FormatFloat_panics"
   ],
   "note": "Of the model Slices.v, in which slices are parts of arrays in a heap. FormatFloat can also panic in make."
  },
  {
   "property": "C99",
   "status": "partial",
   "theorems": [
    "C99_AppendInt",
    "C99_AppendUint",
    "C99_AppendFloat_refuted",
    "C99_AppendFloat_partial"
   ],
   "note": "Proved for AppendInt and AppendUint, which append the text at once. False for AppendFloat, which appends piece by piece: the pieces that fit are written into the old array, and C99_AppendFloat_partial shows that nothing else is."
  }
 ]
}