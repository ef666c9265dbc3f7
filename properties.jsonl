{"id": "C01", "title": "binary16: bit pattern is kept and split without loss", "statement": "NewFromBits(b).Bits() returns b, and Signbit, Exp and Frac are the sign bit, the 5 exponent bits and the 10 fraction bits: they lie in range and together determine b (sign*2^15 + exp*2^10 + frac = b).", "quantifier": "every 16-bit pattern", "why_tests_cant": "a table test checks about sixty of 65536 patterns", "anchors": ["binary16/binary16.go:NewFromBits", "binary16/binary16.go:Float.Bits", "binary16/binary16.go:Float.Signbit", "binary16/binary16.go:Float.Exp", "binary16/binary16.go:Float.Frac"]}
{"id": "C02", "title": "binary16: Big decodes every pattern to its IEEE 754 value", "statement": "Big never panics. It reports NaN exactly for exponent 31 with non-zero fraction; it returns the infinity of the right sign for exponent 31 and fraction 0; it returns the zero of the right sign for exponent 0 and fraction 0; otherwise the result is finite, has the sign of the sign bit, and is exactly (-1)^s * 2^(exp-15) * (1+frac/2^10), or (-1)^s * 2^-14 * frac/2^10 when exp is 0. The result has precision 11 and accuracy Exact.", "quantifier": "every 16-bit pattern", "why_tests_cant": "the value is obtained by printing and re-parsing text; only a sample of the texts is exercised", "anchors": ["binary16/binary16.go:Float.Big"]}
{"id": "C03", "title": "binary16: NewFromBig inverts Big", "statement": "For every f that is not a NaN, NewFromBig applied to f.Big() returns exactly the bits of f, with accuracy Exact. In particular both zeros, both infinities, every subnormal and every normal value survive.", "quantifier": "every 16-bit pattern that is not a NaN", "why_tests_cant": "needs all exponents x all fractions x signs", "anchors": ["binary16/binary16.go:NewFromBig", "binary16/binary16.go:Float.Big"]}
{"id": "C04", "title": "binary16: Float32 and Float64 are exact, and converting back gives the same number", "statement": "For every f that is not a NaN, f.Float64() and f.Float32() have exactly the value (and sign of zero) of f with accuracy Exact, and NewFromFloat64(f.Float64()) and NewFromFloat32(f.Float32()) return the bits of f with accuracy Exact. For a NaN the result is a NaN of the same sign, and converting back gives the package's NaN or NegNaN.", "quantifier": "every 16-bit pattern", "why_tests_cant": "requires all 65536 patterns through two conversions each way", "anchors": ["binary16/binary16.go:Float.Float32", "binary16/binary16.go:Float.Float64", "binary16/binary16.go:NewFromFloat64", "binary16/binary16.go:NewFromFloat32"]}
{"id": "C05", "title": "binary16: NewFromFloat64 returns the nearest half precision number", "statement": "For every finite float64 x the result is the half precision number nearest to x, ties to even, with overflow to the infinity of x's sign exactly when |x| >= 65520 and gradual underflow to subnormals and signed zero below 2^-14.", "quantifier": "all 2^64 float64 inputs", "why_tests_cant": "2^64 inputs; rounding boundaries, overflow and gradual underflow are where errors hide", "anchors": ["binary16/binary16.go:NewFromFloat64", "binary16/binary16.go:NewFromBig"]}
{"id": "C06", "title": "binary16: the reported accuracy of NewFromFloat64/NewFromFloat32 is truthful", "statement": "The returned accuracy is Exact when the returned number equals x, Below when it is smaller than x and Above when it is larger.", "quantifier": "all float64 and float32 inputs", "why_tests_cant": "an accuracy can be wrong only on inputs nobody listed", "anchors": ["binary16/binary16.go:NewFromFloat64", "binary16/binary16.go:NewFromFloat32", "binary16/binary16.go:NewFromBig"]}
{"id": "C07", "title": "binary16: NewFromBig returns the nearest half precision number for any big.Float", "statement": "For every finite x of any precision and exponent the result is the half precision number nearest to x (ties to even), infinity on overflow and a subnormal or signed zero on underflow, with a truthful accuracy.", "quantifier": "every *big.Float: any precision, mode, exponent in [-2^31, 2^31)", "why_tests_cant": "infinitely many inputs", "anchors": ["binary16/binary16.go:NewFromBig"]}
{"id": "C08", "title": "Special values keep their class and sign through every constructor", "statement": "In each package NewFromFloat64/NewFromFloat32/NewFromBig map +-Inf, +-0 (and +-NaN for the float constructors) to the package's constant of the same class and sign, with accuracy Exact; and Big/Float32/Float64 of those constants return the same class and sign.", "quantifier": "all NaN payloads, both infinities, both zeros, for all packages", "why_tests_cant": "2^53 NaN payloads per format", "anchors": ["binary16/binary16.go:NewFromFloat64", "binary128/binary128.go:NewFromFloat64", "float80x86/float80x86.go:NewFromFloat64", "float128ppc/float128ppc.go:NewFromFloat64", "float128ppc/float128ppc.go:NewFromBig"]}
{"id": "C09", "title": "Conversion is symmetric in the sign", "statement": "Negating the argument of NewFromBig flips the sign bit of the result and changes nothing else, including the accuracy, in binary16, binary128 and float80x86.", "quantifier": "every finite or infinite big.Float", "why_tests_cant": "all inputs", "anchors": ["binary16/binary16.go:NewFromBig", "binary128/binary128.go:NewFromBig", "float80x86/float80x86.go:NewFromBig"]}
{"id": "C10", "title": "binary128: bit pattern is kept and split without loss", "statement": "NewFromBits(a,b).Bits() returns (a,b), and Signbit, Exp and Frac are the sign bit, the 15 exponent bits and the 48+64 fraction bits of a and b on every host Go supports (32- or 64-bit int).", "quantifier": "every 128-bit pattern, both host word sizes", "why_tests_cant": "2^128 patterns; CI runs on one word size", "anchors": ["binary128/binary128.go:NewFromBits", "binary128/binary128.go:Float.Bits", "binary128/binary128.go:Float.Signbit", "binary128/binary128.go:Float.Exp", "binary128/binary128.go:Float.Frac"]}
{"id": "C11", "title": "binary128: Big decodes every pattern to its IEEE 754 value", "statement": "As for binary16, with a 15-bit exponent of bias 16383, a 112-bit fraction and precision 113; Big never panics.", "quantifier": "every 128-bit pattern", "why_tests_cant": "2^128 patterns", "anchors": ["binary128/binary128.go:Float.Big"]}
{"id": "C12", "title": "binary128: NewFromBig inverts Big", "statement": "For every f that is not a NaN, NewFromBig(f.Big()) returns exactly the bits of f with accuracy Exact.", "quantifier": "every 128-bit pattern that is not a NaN", "why_tests_cant": "2^128 patterns", "anchors": ["binary128/binary128.go:NewFromBig", "binary128/binary128.go:Float.Big"]}
{"id": "C13", "title": "binary128: every float64 and float32 is represented exactly and comes back unchanged", "statement": "For every finite float64 x, NewFromFloat64(x) has exactly the value of x, reports Exact, and its Float64() is bit-identical to x with accuracy Exact; likewise NewFromFloat32 and Float32 for every finite float32.", "quantifier": "all finite float64 and float32 values including subnormals and zeros", "why_tests_cant": "2^64 inputs", "anchors": ["binary128/binary128.go:NewFromFloat64", "binary128/binary128.go:NewFromFloat32", "binary128/binary128.go:Float.Float64", "binary128/binary128.go:Float.Float32"]}
{"id": "C14", "title": "binary128: Float64 and Float32 round to nearest even and report a truthful accuracy", "statement": "For every f that is not a NaN, f.Float64() (f.Float32()) is the binary64 (binary32) number nearest to f, ties to even, overflowing to infinity and underflowing gradually as IEEE 754 says, and the accuracy is Exact, Below or Above according to whether the result equals, is below or is above f.", "quantifier": "every 128-bit pattern that is not a NaN", "why_tests_cant": "2^128 patterns, with ties, double boundaries and underflow", "anchors": ["binary128/binary128.go:Float.Float64", "binary128/binary128.go:Float.Float32"]}
{"id": "C15", "title": "binary128: NewFromBig returns the nearest number with a truthful accuracy", "statement": "For every finite x of any precision the result is the binary128 number nearest to x (ties to even), infinity on overflow, subnormal or zero on underflow, with a truthful accuracy.", "quantifier": "every *big.Float", "why_tests_cant": "infinitely many inputs", "anchors": ["binary128/binary128.go:NewFromBig"]}
{"id": "C16", "title": "float80x86: bit pattern is kept and split without loss", "statement": "NewFromBits(se,m).Bits() returns (se,m), and Signbit, Exp, Lead and Frac are the sign bit, the 15 exponent bits, the explicit lead bit and the 63 fraction bits.", "quantifier": "every 80-bit pattern", "why_tests_cant": "2^80 patterns", "anchors": ["float80x86/float80x86.go:NewFromBits", "float80x86/float80x86.go:Float.Bits", "float80x86/float80x86.go:Float.Signbit", "float80x86/float80x86.go:Float.Exp", "float80x86/float80x86.go:Float.Lead", "float80x86/float80x86.go:Float.Frac"]}
{"id": "C17", "title": "float80x86: Big decodes every pattern to its x87 value", "statement": "Big never panics; exponent 0x7FFF gives infinity exactly for mantissa 2^63 and NaN otherwise; every other pattern, normal, subnormal, pseudo-denormal or unnormal, gives exactly (-1)^s * (m/2^63) * 2^(max(exp,1)-16383), with a signed zero when m is 0, precision 64 and accuracy Exact.", "quantifier": "every 80-bit pattern", "why_tests_cant": "2^80 patterns including the unusual encodings", "anchors": ["float80x86/float80x86.go:Float.Big"]}
{"id": "C18", "title": "float80x86: NewFromBig inverts Big", "statement": "For every f that is not a NaN, NewFromBig(f.Big()) reports Exact and denotes the same number with the same sign; if f is a canonical encoding (lead bit set exactly when the exponent is not 0, or zero, or infinity) the bits are identical.", "quantifier": "every 80-bit pattern that is not a NaN", "why_tests_cant": "2^80 patterns", "anchors": ["float80x86/float80x86.go:NewFromBig", "float80x86/float80x86.go:Float.Big"]}
{"id": "C19", "title": "float80x86: every float64 and float32 is represented exactly and comes back unchanged", "statement": "For every finite float64 x, NewFromFloat64(x) has exactly the value of x, reports Exact, and its Float64() is bit-identical to x with accuracy Exact; likewise for float32.", "quantifier": "all finite float64 and float32 values", "why_tests_cant": "2^64 inputs", "anchors": ["float80x86/float80x86.go:NewFromFloat64", "float80x86/float80x86.go:NewFromFloat32", "float80x86/float80x86.go:Float.Float64", "float80x86/float80x86.go:Float.Float32"]}
{"id": "C20", "title": "float80x86: Float64 and Float32 round to nearest even and report a truthful accuracy", "statement": "For every f that is not a NaN, f.Float64() (f.Float32()) is the binary64 (binary32) number nearest to f, ties to even, with IEEE overflow and gradual underflow, and the accuracy is truthful.", "quantifier": "every 80-bit pattern that is not a NaN", "why_tests_cant": "2^80 patterns", "anchors": ["float80x86/float80x86.go:Float.Float64", "float80x86/float80x86.go:Float.Float32"]}
{"id": "C21", "title": "float80x86: NewFromBig returns the nearest number with a truthful accuracy", "statement": "For every finite x of any precision the result is the x87 extended number nearest to x (ties to even), infinity on overflow, subnormal or zero on underflow, with a truthful accuracy.", "quantifier": "every *big.Float", "why_tests_cant": "infinitely many inputs", "anchors": ["float80x86/float80x86.go:NewFromBig"]}
{"id": "C22", "title": "bfloat: Big decodes every pattern to its bfloat16 value", "statement": "Big never panics; NaN and infinity are recognised; every other pattern b has exactly the value of the float32 whose bits are b shifted left by 16, with the right sign of zero, precision 8 and accuracy Exact. Signbit, Exp and Frac split b without loss.", "quantifier": "every 16-bit pattern", "why_tests_cant": "a table test checks ten patterns", "anchors": ["bfloat/bfloat.go:Float.Big", "bfloat/bfloat.go:Float.Signbit", "bfloat/bfloat.go:Float.Exp", "bfloat/bfloat.go:Float.Frac", "bfloat/bfloat.go:NewFromBits"]}
{"id": "C23", "title": "float128ppc: Big is the correctly rounded sum of the two halves", "statement": "If neither half is a NaN and the halves are not infinities of opposite sign, Big returns high+low rounded to nearest even at 106 bits (infinite if a half is infinite, a zero of high's sign when the sum is zero), and its accuracy is truthful; it reports NaN exactly when a half is a NaN.", "quantifier": "all 2^128 pairs of float64 bit patterns", "why_tests_cant": "2^128 inputs", "anchors": ["float128ppc/float128ppc.go:Float.Big", "float128ppc/float128ppc.go:Float.IsNaN"]}
{"id": "C24", "title": "float128ppc: no operation panics", "statement": "Big, Float32, Float64, NewFromFloat64, NewFromFloat32 and NewFromBig return for every input.", "quantifier": "all bit patterns and every big.Float", "why_tests_cant": "a panic hides behind one unlisted input", "anchors": ["float128ppc/float128ppc.go:Float.Big", "float128ppc/float128ppc.go:NewFromBig"]}
{"id": "C25", "title": "float128ppc: NewFromBig splits a number into high and low parts", "statement": "For every finite x within float64 range the high part is the float64 nearest to x (ties to even, after x is rounded to 106 bits) and the low part is the float64 nearest to the remainder x-high; when the remainder is representable their sum is exactly x, and |low| is at most half an ulp of high.", "quantifier": "every finite *big.Float below the float64 overflow threshold", "why_tests_cant": "infinitely many inputs", "anchors": ["float128ppc/float128ppc.go:NewFromBig"]}
{"id": "C26", "title": "float128ppc: Big followed by NewFromBig gives the same pair", "statement": "For every non-NaN double-double (high, low) with high = the float64 nearest to high+low, NewFromBig(f.Big()) returns the same two halves with accuracy Exact.", "quantifier": "all normalised double-double pairs", "why_tests_cant": "2^128 inputs", "anchors": ["float128ppc/float128ppc.go:NewFromBig", "float128ppc/float128ppc.go:Float.Big"]}
{"id": "C27", "title": "float128ppc: the accuracy returned by NewFromBig is truthful", "statement": "The returned accuracy is Exact when high+low equals the x passed in, Below when it is smaller and Above when it is larger.", "quantifier": "every finite *big.Float", "why_tests_cant": "infinitely many inputs", "anchors": ["float128ppc/float128ppc.go:NewFromBig"]}
{"id": "C28", "title": "float128ppc: every float64 and float32 comes back unchanged", "statement": "For every non-NaN float64 x, NewFromFloat64(x) reports Exact, has exactly the value of x and its Float64() is bit-identical to x; likewise for float32. A NaN keeps its sign.", "quantifier": "all float64 and float32 values", "why_tests_cant": "2^64 inputs", "anchors": ["float128ppc/float128ppc.go:NewFromFloat64", "float128ppc/float128ppc.go:Float.Float64", "float128ppc/float128ppc.go:NewFromFloat32", "float128ppc/float128ppc.go:Float.Float32"]}
{"id": "C29", "title": "NewFromBig does not modify its argument", "statement": "After NewFromBig(x) returns, *x has the value, precision, rounding mode and accuracy it had before, in every package.", "quantifier": "every *big.Float", "why_tests_cant": "aliasing effects show only for particular precisions and modes", "anchors": ["binary16/binary16.go:NewFromBig", "binary128/binary128.go:NewFromBig", "float80x86/float80x86.go:NewFromBig", "float128ppc/float128ppc.go:NewFromBig"]}
{"id": "C30", "title": "IsExact32/IsExact64 are sound", "statement": "If IsExact64(x) (IsExact32(x)) returns true then some float64 (float32) has exactly the value of x.", "quantifier": "every *big.Float", "why_tests_cant": "infinitely many inputs", "anchors": ["float.go:IsExact64", "float.go:IsExact32"]}
{"id": "C31", "title": "IsExact16 is sound", "statement": "If IsExact16(x) returns true then some half precision number has exactly the value of x.", "quantifier": "every *big.Float", "why_tests_cant": "infinitely many inputs", "anchors": ["float.go:IsExact16"]}
{"id": "C32", "title": "IsExact16/32/64 are complete", "statement": "If some float64 (float32, half) has exactly the value of x then IsExact64(x) (IsExact32(x), IsExact16(x)) returns true.", "quantifier": "every *big.Float", "why_tests_cant": "infinitely many inputs", "anchors": ["float.go:IsExact16", "float.go:IsExact32", "float.go:IsExact64"]}
{"id": "C33", "title": "IsExact16/32/64 return for every argument", "statement": "IsExact16, IsExact32 and IsExact64 never panic.", "quantifier": "every *big.Float, including infinities and zeros", "why_tests_cant": "a panic hides behind one unlisted input", "anchors": ["float.go:IsExact16", "float.go:IsExact32", "float.go:IsExact64", "float.go:trimZeros"]}
{"id": "C34", "title": "Trimming zeros does not change the number", "statement": "For every text in scientific notation, trimming removes exactly the trailing zeros of the fraction (and the decimal point if nothing is left of it), so the number denoted is unchanged and two texts of one number with the same leading digit and exponent trim to the same text.", "quantifier": "all scientific-notation texts", "why_tests_cant": "unbounded texts", "anchors": ["float.go:trimZeros"]}
{"id": "C35", "title": "FormatUint/FormatInt print the number", "statement": "For every value i and every base from 2 to 36 the text is an optional minus sign followed by digits 0-9a-z below the base with no superfluous leading zero, and reading those digits in that base gives i back; so distinct numbers give distinct texts.", "quantifier": "all int64/uint64 values and all 35 bases", "why_tests_cant": "2^64 x 35 inputs; MinInt64 and per-base loops", "anchors": ["internal/strconv/itoa.go:FormatUint", "internal/strconv/itoa.go:FormatInt", "internal/strconv/itoa.go:Itoa", "internal/strconv/itoa.go:formatBits", "internal/strconv/itoa.go:small"]}
{"id": "C36", "title": "AppendInt/AppendUint/AppendFloat append exactly the formatted text", "statement": "The result is dst followed by what FormatInt/FormatUint/FormatFloat returns for the same arguments; dst's bytes are kept.", "quantifier": "all arguments and all prefixes dst", "why_tests_cant": "all pairs of prefix and number", "anchors": ["internal/strconv/itoa.go:AppendInt", "internal/strconv/itoa.go:AppendUint", "internal/strconv/ftoa.go:AppendFloat"]}
{"id": "C37", "title": "Integer formatting panics exactly for an illegal base", "statement": "FormatInt, FormatUint, AppendInt and AppendUint panic if and only if the base is below 2 or above 36; in particular the 65-byte scratch buffer is never overrun.", "quantifier": "all values and all int bases", "why_tests_cant": "all bases", "anchors": ["internal/strconv/itoa.go:formatBits"]}
{"id": "C38", "title": "Integer formatting does not depend on the host word size", "statement": "The 32-bit and the 64-bit code paths give the same text.", "quantifier": "all values and bases", "why_tests_cant": "CI runs one host", "anchors": ["internal/strconv/itoa.go:formatBits"]}
{"id": "C39", "title": "Decimal assignment is exact and normalised", "statement": "Assign(v) makes the decimal equal to v with no leading or trailing zero digit.", "quantifier": "all uint64 v", "why_tests_cant": "2^64 inputs", "anchors": ["internal/strconv/decimal.go:decimal.Assign", "internal/strconv/decimal.go:trim"]}
{"id": "C40", "title": "Decimal shifting multiplies by a power of two exactly", "statement": "Shift(k) multiplies the value by 2^k exactly whenever the exact result has at most 800 digits (which holds for everything the float formatter produces), keeps the digits normalised, and otherwise truncates to 800 digits and records that non-zero digits were dropped.", "quantifier": "every normalised decimal, every shift count", "why_tests_cant": "unbounded; the digit-count table has 61 entries with boundary behaviour each", "anchors": ["internal/strconv/decimal.go:decimal.Shift", "internal/strconv/decimal.go:leftShift", "internal/strconv/decimal.go:rightShift", "internal/strconv/decimal.go:prefixIsLessThan", "internal/strconv/decimal.go:leftcheats"]}
{"id": "C41", "title": "Decimal rounding is correct", "statement": "Round(n) gives the decimal with at most n digits nearest to the value, ties to an even last digit (a recorded truncation breaks the tie upwards); RoundDown(n) and RoundUp(n) give the neighbours below and above; all leave the value alone when it already has at most n digits.", "quantifier": "every normalised decimal and every n", "why_tests_cant": "unbounded digit strings, carry chains of 9s", "anchors": ["internal/strconv/decimal.go:decimal.Round", "internal/strconv/decimal.go:decimal.RoundUp", "internal/strconv/decimal.go:decimal.RoundDown", "internal/strconv/decimal.go:shouldRoundUp"]}
{"id": "C42", "title": "RoundedInteger is the nearest integer", "statement": "For every decimal below 2^64 RoundedInteger returns the integer nearest to the value, ties to even.", "quantifier": "every normalised decimal with at most 20 integer digits", "why_tests_cant": "unbounded digit strings", "anchors": ["internal/strconv/decimal.go:decimal.RoundedInteger"]}
{"id": "C43", "title": "decimal.String prints the value", "statement": "String returns a decimal text that denotes exactly the value of the decimal.", "quantifier": "every normalised decimal", "why_tests_cant": "unbounded digit strings and exponents", "anchors": ["internal/strconv/decimal.go:decimal.String"]}
{"id": "C44", "title": "The powers-of-ten tables are correctly rounded", "statement": "Every entry of powersOfTen is within half a unit in the last place of 10^(-348+8i), normalised; every entry of smallPowersOfTen equals 10^i exactly; uint64pow10[i] is 10^i.", "quantifier": "all 87+8+20 entries", "why_tests_cant": "finite, but no test compares them to exact arithmetic", "anchors": ["internal/strconv/extfloat.go:powersOfTen", "internal/strconv/extfloat.go:smallPowersOfTen", "internal/strconv/extfloat.go:uint64pow10"]}
{"id": "C45", "title": "Extended multiplication has bounded error", "statement": "Multiply gives a mantissa within 1/2 + 2^-32 of the exact product scaled by 2^-64, with the exponents added; Normalize keeps the value and sets the top bit.", "quantifier": "all pairs of 64-bit mantissas", "why_tests_cant": "2^128 inputs", "anchors": ["internal/strconv/extfloat.go:extFloat.Multiply", "internal/strconv/extfloat.go:extFloat.Normalize"]}
{"id": "C46", "title": "Interval bounds used for shortest formatting are right", "statement": "For every finite non-zero float (16, 32 or 64 bits) that is not a small integer, the computed lower and upper values are exactly the midpoints to the neighbouring floats.", "quantifier": "all floats of the three sizes", "why_tests_cant": "2^64 inputs, binade boundaries and subnormals", "anchors": ["internal/strconv/extfloat.go:extFloat.AssignComputeBounds"]}
{"id": "C47", "title": "Scaling by a power of ten always finds a table entry", "statement": "For every normalised mantissa and every exponent arising from a float, the search in the powers-of-ten table stops inside the table and leaves a binary exponent between -60 and -32.", "quantifier": "all floats of the three sizes", "why_tests_cant": "the search is an unguarded loop over an array", "anchors": ["internal/strconv/extfloat.go:extFloat.frexp10", "internal/strconv/extfloat.go:frexp10Many"]}
{"id": "C48", "title": "The fast fixed-precision path is right whenever it answers", "statement": "If the fast path answers for n digits, the digits are those of the exact value rounded to n significant digits, to nearest; it never panics and never writes outside its buffer.", "quantifier": "all floats of the three sizes, all n from 1 to 15", "why_tests_cant": "2^64 x 15 inputs", "anchors": ["internal/strconv/extfloat.go:extFloat.FixedDecimal", "internal/strconv/extfloat.go:adjustLastDigitFixed"]}
{"id": "C49", "title": "The fast shortest path is right whenever it answers", "statement": "If the fast path answers, the decimal lies strictly inside the rounding interval of the float, so it reads back as the same float; no decimal with fewer digits lies inside; it terminates and never writes outside its buffer.", "quantifier": "all floats of the three sizes", "why_tests_cant": "2^64 inputs", "anchors": ["internal/strconv/extfloat.go:extFloat.ShortestDecimal", "internal/strconv/extfloat.go:adjustLastDigit"]}
{"id": "C50", "title": "Decimal to binary approximation is right whenever it answers", "statement": "If AssignDecimal reports success, floatBits returns the float nearest to mantissa*10^exp10.", "quantifier": "all 64-bit mantissas, all exponents", "why_tests_cant": "2^64 x 688 inputs", "anchors": ["internal/strconv/extfloat.go:extFloat.AssignDecimal", "internal/strconv/extfloat.go:extFloat.floatBits"]}
{"id": "C51", "title": "FormatFloat with a fixed precision prints the correctly rounded value", "statement": "For formats 'e', 'E', 'f', 'g' and 'G' with prec >= 0 the text denotes the exact value of f (as a float of bitSize bits) rounded to the requested number of digits, to nearest, ties to even, laid out as documented.", "quantifier": "all floats, all precisions, both code paths", "why_tests_cant": "2^64 x unbounded precision", "anchors": ["internal/strconv/ftoa.go:FormatFloat", "internal/strconv/ftoa.go:genericFtoa", "internal/strconv/ftoa.go:bigFtoa", "internal/strconv/ftoa.go:formatDigits", "internal/strconv/ftoa.go:fmtE", "internal/strconv/ftoa.go:fmtF"]}
{"id": "C52", "title": "FormatFloat with precision -1 round-trips", "statement": "For every finite f the text produced with precision -1 denotes a number whose nearest float (of bitSize bits, ties to even) is f; so distinct floats give distinct texts.", "quantifier": "all finite floats of 32 and 64 bits, and all half precision values", "why_tests_cant": "2^64 inputs", "anchors": ["internal/strconv/ftoa.go:FormatFloat", "internal/strconv/ftoa.go:genericFtoa", "internal/strconv/ftoa.go:bigFtoa", "internal/strconv/ftoa.go:roundShortest"]}
{"id": "C53", "title": "FormatFloat with precision -1 uses the smallest number of digits", "statement": "No decimal with fewer significant digits than the text produced reads back as f.", "quantifier": "all finite floats", "why_tests_cant": "2^64 inputs", "anchors": ["internal/strconv/ftoa.go:FormatFloat", "internal/strconv/ftoa.go:roundShortest"]}
{"id": "C54", "title": "The fast and the slow formatting paths agree", "statement": "With a fixed precision, formatting with the fast path enabled and disabled gives the same text.", "quantifier": "all floats, formats and precisions", "why_tests_cant": "2^64 x formats x precisions", "anchors": ["internal/strconv/ftoa.go:genericFtoa", "internal/strconv/ftoa.go:bigFtoa", "internal/strconv/ftoa.go:optimize"]}
{"id": "C55", "title": "Binary format 'b' is exact", "statement": "FormatFloat(f,'b',...) prints an integer mantissa and a binary exponent whose product is exactly f.", "quantifier": "all finite floats", "why_tests_cant": "2^64 inputs", "anchors": ["internal/strconv/ftoa.go:fmtB"]}
{"id": "C56", "title": "Infinities, NaN and zero are printed as documented", "statement": "FormatFloat prints NaN for every NaN, +Inf and -Inf for the infinities, and 0e+00 / -0e+00 for the zeros with format 'e' and precision -1.", "quantifier": "all NaN payloads, all formats and precisions", "why_tests_cant": "2^53 NaN payloads", "anchors": ["internal/strconv/ftoa.go:genericFtoa"]}
{"id": "C57", "title": "FormatFloat returns for every argument it documents, and an unknown format gives '%' followed by the letter", "statement": "FormatFloat panics exactly for a bitSize other than 16, 32 or 64; an unknown format letter yields the two-byte text % and the letter.", "quantifier": "all floats, format bytes, precisions and bit sizes", "why_tests_cant": "unbounded arguments", "anchors": ["internal/strconv/ftoa.go:genericFtoa", "internal/strconv/ftoa.go:formatDigits"]}
{"id": "C58", "title": "bfloat values embed exactly in the wider formats", "statement": "Big of a bfloat that is not a NaN is exactly representable as float32 and as binary128 and float80x86, with accuracy Exact.", "quantifier": "every 16-bit pattern", "why_tests_cant": "cross-package composition is untested", "anchors": ["bfloat/bfloat.go:Float.Big", "binary128/binary128.go:NewFromBig", "float80x86/float80x86.go:NewFromBig"]}
{"id": "C59", "title": "Widening conversions commute", "statement": "Converting a half precision number to binary128 or float80x86, directly through Big or through Float32 or Float64, gives the same bits, with accuracy Exact.", "quantifier": "every 16-bit pattern that is not a NaN", "why_tests_cant": "cross-package composition is untested", "anchors": ["binary16/binary16.go:Float.Big", "binary128/binary128.go:NewFromBig", "float80x86/float80x86.go:NewFromBig", "binary128/binary128.go:NewFromFloat64"]}
{"id": "C60", "title": "A truncated mantissa is accounted for", "statement": "If AssignDecimal reports success with trunc set, floatBits returns the float nearest to every number whose first 19 digits are those of mantissa (from mantissa*10^exp10 up to (mantissa+1)*10^exp10).", "quantifier": "all 19-digit mantissas, all exponents, all numbers with those leading digits", "why_tests_cant": "infinitely many numbers share their first 19 digits; wrong ones lie within a few units in 2^64 of a midpoint", "anchors": ["internal/strconv/extfloat.go:extFloat.AssignDecimal", "internal/strconv/extfloat.go:extFloat.floatBits"]}
{"id": "C61", "title": "The packages do the same on 32-bit and 64-bit hosts", "statement": "NewFromBig of binary16, binary128 and float80x86, and Big, Float32, Float64 and NewFromFloat32 of binary128, return the same on hosts whose int has 32 bits and on hosts whose int has 64 bits.", "quantifier": "all numbers, both host word sizes", "why_tests_cant": "tests run on one host, and only on numbers of moderate size", "anchors": ["binary16/binary16.go:NewFromBig", "binary128/binary128.go:NewFromBig", "float80x86/float80x86.go:NewFromBig", "binary128/binary128.go:Float.Exp", "binary128/binary128.go:Float.Big"]}
{"id": "C62", "title": "Enough digits read back", "statement": "FormatFloat with format 'e' and at least 16 (float32: 8, half: 4) digits after the point, or format 'g' with at least 17 (9, 5) digits, gives a text that rounds back to the float; one digit fewer is not enough.", "quantifier": "all finite floats and precisions", "why_tests_cant": "2^64 inputs times unboundedly many precisions", "anchors": ["internal/strconv/ftoa.go:FormatFloat", "internal/strconv/ftoa.go:genericFtoa"]}
{"id": "C63", "title": "Formatting keeps the order of floats", "statement": "If f < g then the shortest text of f denotes a smaller number than the shortest text of g; if f <= g then with the same format and precision the text of f denotes a number not larger than that of g.", "quantifier": "all pairs of finite floats, all formats and precisions", "why_tests_cant": "2^128 pairs", "anchors": ["internal/strconv/ftoa.go:FormatFloat", "internal/strconv/ftoa.go:roundShortest"]}
{"id": "C64", "title": "The shortest text is the closest of its length", "statement": "Of all decimals with as many digits as the shortest text that read back as f, the text denotes the one closest to f; in particular it is less than one unit of its last digit away from f.", "quantifier": "all finite floats, both code paths", "why_tests_cant": "2^64 inputs; the exceptions are rare", "anchors": ["internal/strconv/ftoa.go:roundShortest", "internal/strconv/extfloat.go:extFloat.ShortestDecimal"]}
{"id": "C65", "title": "What IsExact64, IsExact32 and IsExact16 decide", "statement": "IsExact64 (IsExact32, IsExact16) answers true exactly for the numbers that are floats of that size and have no shorter decimal that rounds to them.", "quantifier": "every big.Float", "why_tests_cant": "numbers of unbounded precision; near misses agree to 100 digits", "anchors": ["float.go:IsExact64", "float.go:IsExact32", "float.go:IsExact16"]}
{"id": "C66", "title": "Printing at 16 bits prints a half precision number", "statement": "For every float64 f, FormatFloat(f, fmt, prec, 16) prints the half precision number that binary16.NewFromFloat64 makes of f, as it would print that number's exact float64.", "quantifier": "all float64s, formats, precisions, both code paths, both host word sizes", "why_tests_cant": "2^64 floats; most of them are out of the range of half precision", "anchors": ["internal/strconv/ftoa.go:genericFtoa", "binary16/binary16.go:NewFromFloat64"]}
{"id": "C67", "title": "The half precision test tables are complete and right", "statement": "The tables printed by binary16/gen.go list every finite half precision pattern exactly once, each with its exact float64, and every test of extra_test.tmpl succeeds on every entry.", "quantifier": "all 63488 entries of the tables", "why_tests_cant": "the tables are not checked in, and a test does not say that its table is complete", "anchors": ["binary16/gen.go:getNormalized", "binary16/gen.go:getDenormalized", "binary16/binary16.go:NewFromFloat32", "binary16/binary16.go:NewFromFloat64", "binary16/binary16.go:Float.Float64"]}
{"id": "C68", "title": "Conversions from big.Float keep the order", "statement": "If x <= y then the number NewFromBig(x) denotes is at most the one NewFromBig(y) denotes (binary16, binary128, float80x86, float128ppc; also binary16.NewFromFloat64).", "quantifier": "all pairs of numbers", "why_tests_cant": "infinitely many pairs", "anchors": ["binary16/binary16.go:NewFromBig", "binary16/binary16.go:NewFromFloat64", "binary128/binary128.go:NewFromBig", "float80x86/float80x86.go:NewFromBig", "float128ppc/float128ppc.go:NewFromBig"]}
{"id": "C69", "title": "Conversions to float64 and float32 keep the order", "statement": "If f <= g then f.Float64() <= g.Float64() and f.Float32() <= g.Float32(), infinities included (binary128, float80x86, float128ppc).", "quantifier": "all pairs of patterns that are not NaNs", "why_tests_cant": "2^256 pairs", "anchors": ["binary128/binary128.go:Float.Float64", "binary128/binary128.go:Float.Float32", "float80x86/float80x86.go:Float.Float64", "float80x86/float80x86.go:Float.Float32", "float128ppc/float128ppc.go:Float.Float64", "float128ppc/float128ppc.go:Float.Float32"]}
{"id": "C70", "title": "Float64 and Float32 of a double-double are correctly rounded", "statement": "Float64 and Float32 of float128ppc return the float nearest to the sum of the pair, with the right accuracy; for a normalised pair Float64 returns the high part.", "quantifier": "all pairs of finite float64s", "why_tests_cant": "2^128 pairs; double rounding needs a sum of more than 106 bits next to a tie", "anchors": ["float128ppc/float128ppc.go:Float.Float64", "float128ppc/float128ppc.go:Float.Float32", "float128ppc/float128ppc.go:Float.Big"]}
{"id": "C71", "title": "The quadruple precision test tables are right", "statement": "Whatever exponents and mantissas binary128/gen.go draws, its tables list the patterns of these exponents and mantissas, and every test of extra_test.tmpl succeeds on every entry.", "quantifier": "all lists of exponents and mantissas", "why_tests_cant": "the generator draws one random sample; the tables are not checked in", "anchors": ["binary128/gen.go:getNormalized", "binary128/gen.go:getDenormalized", "binary128/binary128.go:Float.Big", "binary128/binary128.go:Float.Float64", "binary128/binary128.go:Float.Float32", "binary128/binary128.go:NewFromFloat64"]}
{"id": "C72", "title": "The text of -f", "statement": "FormatFloat of -f is '-' followed by FormatFloat of f; a NaN is printed without sign, an infinity with '-' instead of '+'.", "quantifier": "all floats, formats, precisions and bit sizes, both code paths, both host word sizes", "why_tests_cant": "2^64 inputs times unboundedly many precisions", "anchors": ["internal/strconv/ftoa.go:FormatFloat", "internal/strconv/ftoa.go:genericFtoa", "internal/strconv/ftoa.go:formatDigits", "internal/strconv/ftoa.go:fmtE", "internal/strconv/ftoa.go:fmtF", "internal/strconv/ftoa.go:fmtB"]}
{"id": "C73", "title": "Texts do not depend on the host", "statement": "FormatFloat, AppendFloat, FormatInt, FormatUint, AppendInt, AppendUint and Itoa return the same text on hosts whose int has 32 bits and on hosts whose int has 64 bits.", "quantifier": "all numbers, formats, bases and precisions", "why_tests_cant": "tests run on one host", "anchors": ["internal/strconv/ftoa.go:FormatFloat", "internal/strconv/ftoa.go:bigFtoa", "internal/strconv/itoa.go:formatBits"]}
{"id": "C74", "title": "Decimals in their array of 800 bytes", "statement": "Every operation of decimal.go, executed on its array of 800 bytes, reads and writes only inside the array and leaves in it the digits of the exact result (Assign, Shift, Round, RoundDown, RoundUp), or returns the right integer or text (RoundedInteger, String), whatever stale bytes the array holds.", "quantifier": "all arrays, digits, shifts, precisions and integers, both host word sizes", "why_tests_cant": "indices go wrong only at the 800th digit or with stale bytes; a slip shows as a wrong last digit", "anchors": ["internal/strconv/decimal.go:decimal.Assign", "internal/strconv/decimal.go:decimal.Shift", "internal/strconv/decimal.go:rightShift", "internal/strconv/decimal.go:leftShift", "internal/strconv/decimal.go:decimal.Round", "internal/strconv/decimal.go:decimal.RoundUp", "internal/strconv/decimal.go:decimal.RoundDown", "internal/strconv/decimal.go:decimal.RoundedInteger", "internal/strconv/decimal.go:decimal.String", "internal/strconv/decimal.go:digitZero", "internal/strconv/decimal.go:trim"]}
{"id": "C75", "title": "Texts from the fixed buffers", "statement": "FormatFloat and AppendFloat never index outside their buffers of 24, 32 and 800 bytes, and what they print from these is correctly rounded for a fixed precision and the shortest text that reads back for a negative one.", "quantifier": "all floats, formats, precisions and bit sizes, both code paths, both host word sizes", "why_tests_cant": "an overrun needs a number with unusually many digits", "anchors": ["internal/strconv/ftoa.go:FormatFloat", "internal/strconv/ftoa.go:AppendFloat", "internal/strconv/ftoa.go:genericFtoa", "internal/strconv/ftoa.go:bigFtoa", "internal/strconv/ftoa.go:roundShortest", "internal/strconv/ftoa.go:fmtE", "internal/strconv/ftoa.go:fmtF", "internal/strconv/extfloat.go:extFloat.FixedDecimal", "internal/strconv/extfloat.go:extFloat.ShortestDecimal", "internal/strconv/extfloat.go:adjustLastDigit"]}
{"id": "C76", "title": "Both code paths print the same shortest text", "statement": "With a negative precision, FormatFloat prints the same text with the fast path (ShortestDecimal) and with the slow one (roundShortest).", "quantifier": "all floats, format letters and bit sizes, both host word sizes", "why_tests_cant": "2^64 inputs; the two algorithms decide differently which digit to print last", "anchors": ["internal/strconv/ftoa.go:genericFtoa", "internal/strconv/ftoa.go:roundShortest", "internal/strconv/extfloat.go:extFloat.ShortestDecimal", "internal/strconv/extfloat.go:adjustLastDigit"]}
{"id": "C77", "title": "The shortest text is completely determined", "statement": "With a negative precision, FormatFloat prints the decimal that reads back as f with fewest digits; of several the closest to f, of two equally close the one with the even last digit; except that where the upper midpoint does not read back and is a decimal of fewer digits, it prints the greatest not above f.", "quantifier": "all finite floats, format letters and bit sizes, both code paths, both host word sizes", "why_tests_cant": "2^64 inputs; ties and the exception are rare", "anchors": ["internal/strconv/ftoa.go:genericFtoa", "internal/strconv/ftoa.go:roundShortest", "internal/strconv/decimal.go:shouldRoundUp", "internal/strconv/extfloat.go:extFloat.ShortestDecimal", "internal/strconv/extfloat.go:adjustLastDigit"]}
{"id": "C78", "title": "What NewFromBig returned comes back through Big", "statement": "For every x, if f is what NewFromBig(x) returned and is not a NaN, then NewFromBig(f.Big()) is f again, with Exact (binary16, binary128, float80x86, float128ppc).", "quantifier": "every big.Float", "why_tests_cant": "numbers of unbounded precision and range", "anchors": ["binary16/binary16.go:NewFromBig", "binary128/binary128.go:NewFromBig", "float80x86/float80x86.go:NewFromBig", "float128ppc/float128ppc.go:NewFromBig"]}
{"id": "C79", "title": "Double-doubles are numbers of quadruple precision", "statement": "What Big returns for a double-double that is not a NaN, binary128.NewFromBig converts exactly, and binary128's Big gives it back.", "quantifier": "all pairs of float64s but NaNs and opposite infinities", "why_tests_cant": "2^128 pairs", "anchors": ["float128ppc/float128ppc.go:Float.Big", "binary128/binary128.go:NewFromBig", "binary128/binary128.go:Float.Big"]}
{"id": "C80", "title": "The order of patterns is the order of numbers", "statement": "Cmp of f.Big() and g.Big() is the comparison of the patterns of f and g read as sign and magnitude (binary16, bfloat, binary128, float80x86).", "quantifier": "all pairs of patterns that are not NaNs; for float80x86 those with the integer bit as the processor writes it", "why_tests_cant": "up to 2^256 pairs", "anchors": ["binary16/binary16.go:Float.Big", "bfloat/bfloat.go:Float.Big", "binary128/binary128.go:Float.Big", "float80x86/float80x86.go:Float.Big"]}
{"id": "C81", "title": "AssignDecimal reads the shortest digits back", "statement": "Where AssignDecimal accepts the digits and exponent that FormatFloat prints for a float with a negative precision, floatBits of its result is the pattern of that float.", "quantifier": "all finite floats of 16, 32 and 64 bits that are not zero", "why_tests_cant": "2^64 inputs; AssignDecimal rounds wrongly next to half the least float", "anchors": ["internal/strconv/extfloat.go:extFloat.AssignDecimal", "internal/strconv/extfloat.go:extFloat.floatBits", "internal/strconv/ftoa.go:roundShortest"]}
{"id": "C82", "title": "Shifts add up", "statement": "Shifting a decimal by j and then by k is shifting it by j + k, and shifting it by k and then by -k changes nothing.", "quantifier": "all decimals in normal form, all shifts, both host word sizes", "why_tests_cant": "infinitely many shifts; losses occur only beyond 800 digits", "anchors": ["internal/strconv/decimal.go:decimal.Shift", "internal/strconv/decimal.go:leftShift", "internal/strconv/decimal.go:rightShift"]}
{"id": "C83", "title": "The sign bit is the sign", "statement": "Inverting the sign bit of a pattern (both sign bits of a double-double) inverts the sign of Big, Float64 and Float32 and swaps Below and Above, and changes nothing else; a double-double NaN, whose sign Big does not report, gives the same results.", "quantifier": "all patterns of binary16, bfloat, binary128, float80x86 and float128ppc; both host word sizes for binary128", "why_tests_cant": "2^128 patterns", "anchors": ["binary16/binary16.go:Float.Big", "bfloat/bfloat.go:Float.Big", "binary128/binary128.go:Float.Big", "float80x86/float80x86.go:Float.Big", "float128ppc/float128ppc.go:Float.Big", "binary16/binary16.go:Float.Float64", "binary128/binary128.go:Float.Float64", "float80x86/float80x86.go:Float.Float64", "float128ppc/float128ppc.go:Float.Float64", "binary16/binary16.go:Float.Float32", "binary128/binary128.go:Float.Float32", "float80x86/float80x86.go:Float.Float32", "float128ppc/float128ppc.go:Float.Float32"]}
{"id": "C84", "title": "float128ppc.NewFromBig of -x", "statement": "float128ppc.NewFromBig(-x) is NewFromBig(x) with both halves negated (a low half of zero excepted), with the same accuracy, and it leaves the negated number in x.", "quantifier": "every big.Float, every rounding mode", "why_tests_cant": "numbers of unbounded precision", "anchors": ["float128ppc/float128ppc.go:NewFromBig"]}
{"id": "C85", "title": "The IsExact functions agree with each other", "statement": "IsExact16(x) implies IsExact32(x), and IsExact32(x) implies IsExact64(x).", "quantifier": "every big.Float, both code paths, both host word sizes", "why_tests_cant": "numbers of unbounded precision; each function compares different texts", "anchors": ["float.go:IsExact16", "float.go:IsExact32", "float.go:IsExact64"]}
{"id": "C86", "title": "Conversions depend on the value alone", "statement": "NewFromBig (binary16, binary128, float80x86, float128ppc) and the IsExact functions give the same results for two big.Floats of the same value and sign, whatever their precisions, rounding modes, accuracies and mantissas.", "quantifier": "all pairs of big.Floats of one value, both host word sizes", "why_tests_cant": "infinitely many representations", "anchors": ["binary16/binary16.go:NewFromBig", "binary128/binary128.go:NewFromBig", "float80x86/float80x86.go:NewFromBig", "float128ppc/float128ppc.go:NewFromBig", "float.go:IsExact16", "float.go:IsExact32", "float.go:IsExact64"]}
{"id": "C87", "title": "The generated source is the generated table", "statement": "Every line of Go source printed by binary16/gen.go and binary128/gen.go is a table entry, and the constants in it denote the pattern, the text, the float64 and the accuracy computed: %v of a float64 read as a Go constant is that float64 (0 for -0, which is printed as a call of math.Copysign), infinities are printed as calls of math.Inf, and the quoted text needs no escapes.", "quantifier": "all 63488 lines of binary16, all exponents and mantissas for binary128", "why_tests_cant": "the generator's output is not checked; 2^128 possible lines", "anchors": ["binary16/gen.go:getNormalized", "binary16/gen.go:getDenormalized", "binary128/gen.go:getNormalized", "binary128/gen.go:getDenormalized"]}
{"id": "C88", "title": "The wanted text is correctly rounded", "statement": "The text in the tables of binary128/gen.go is the number rounded to 35 digits, to nearest even, in the format 'g' and without zeros at the end.", "quantifier": "every big.Float and every positive number of digits", "why_tests_cant": "infinitely many numbers", "anchors": ["binary128/gen.go:getNormalized", "binary128/gen.go:getDenormalized", "binary128/extra_test.tmpl:testNewFromBits"]}
{"id": "C89", "title": "Any draw gives good tables", "statement": "Whatever the random generator draws and however sort.Slice permutes it, dumpTest of binary128/gen.go makes two lines for every exponent and mantissa drawn and two for every mantissa, does not panic, and the tests of patterns, float32s and float64s succeed on every entry.", "quantifier": "all random numbers, all permutations", "why_tests_cant": "the seed is fixed, so only one draw is ever tested", "anchors": ["binary128/gen.go:dumpTest"]}
{"id": "C90", "title": "The order of the mantissas", "statement": "The function that dumpTest gives to sort.Slice is a strict order: of two mantissas not both are less than the other.", "quantifier": "all pairs of mantissas", "why_tests_cant": "sort.Slice does not check its argument", "anchors": ["binary128/gen.go:dumpTest"]}
{"id": "C91", "title": "The length of the shortest texts", "statement": "With a negative precision the text that FormatFloat returns for a finite number in the formats 'e', 'E', 'g' and 'G' has at most 24 bytes for 64 bits (the buffer FormatFloat makes), 15 for 32 bits and 11 for 16 bits.", "quantifier": "all finite numbers, the three sizes, both widths of int, with and without the fast algorithm", "why_tests_cant": "the longest texts belong to few of 2^64 numbers", "anchors": ["internal/strconv/ftoa.go:FormatFloat", "internal/strconv/ftoa.go:genericFtoa"]}
{"id": "C92", "title": "One number at two sizes", "statement": "If a number is a float of a smaller and of a larger size, the shortest digits of the larger size still denote it at the smaller size, and the text of the smaller size is not longer.", "quantifier": "all numbers that are floats of two sizes, all formats", "why_tests_cant": "pairs of texts are not compared in any test", "anchors": ["internal/strconv/ftoa.go:FormatFloat", "internal/strconv/ftoa.go:roundShortest"]}
{"id": "C93", "title": "Texts of 35 digits read back", "statement": "The text of 35 digits that gen.go writes for a binary128 number reads back, by SetString with 113 bits, as the same number.", "quantifier": "all finite binary128 numbers", "why_tests_cant": "of 2^128 numbers only those near certain powers of ten fail", "anchors": ["binary128/gen.go:getNormalized", "binary128/gen.go:getDenormalized", "binary128/extra_test.tmpl:TestNewFromBits"]}
{"id": "C94", "title": "The tests succeed on all tables", "statement": "Whatever exponents and mantissas are drawn, all tests of extra_test.tmpl, the comparisons with the reread texts included, succeed on the tables of gen.go if these have texts of 36 digits, and with 35 digits on all numbers whose text is close enough to read back.", "quantifier": "all lists of exponents and mantissas, all numbers of digits from 35 to 3000", "why_tests_cant": "the tests run on one table", "anchors": ["binary128/gen.go:getNormalized", "binary128/gen.go:getDenormalized", "binary128/extra_test.tmpl:TestNewFromBits"]}
{"id": "C95", "title": "How large the errors are", "statement": "NewFromBig never returns a number of larger magnitude and is off by less than one unit of the last of 11 (binary16), 113 (binary128) and 64 (float80x86) bits; the halves of float128ppc.NewFromBig add up to the argument within 2^-106 of it (2^-105 in directed modes); Float64 and Float32 of binary128 and float80x86 and binary16.NewFromFloat64 are off by at most half a unit.", "quantifier": "all big.Floats and patterns in the range of the format, subnormal numbers included where the unit is that of the least number", "why_tests_cant": "numbers of unbounded precision", "anchors": ["binary16/binary16.go:NewFromBig", "binary128/binary128.go:NewFromBig", "float80x86/float80x86.go:NewFromBig", "float128ppc/float128ppc.go:NewFromBig", "binary16/binary16.go:NewFromFloat64", "binary128/binary128.go:Float.Float64", "binary128/binary128.go:Float.Float32", "float80x86/float80x86.go:Float.Float64", "float80x86/float80x86.go:Float.Float32"]}
{"id": "C96", "title": "Conversion through a wider format", "statement": "binary16.NewFromBig returns the same pattern for x and for x converted to binary128 or float80x86 and back by Big, and float80x86.NewFromBig for x and for x converted to binary128 and back.", "quantifier": "all big.Floats in the range of the wider format (from 2^-16426 for binary16 through float80x86, from 2^-16475 through binary128)", "why_tests_cant": "numbers of unbounded precision", "anchors": ["binary16/binary16.go:NewFromBig", "binary128/binary128.go:NewFromBig", "float80x86/float80x86.go:NewFromBig", "binary128/binary128.go:Float.Big", "float80x86/float80x86.go:Float.Big"]}
{"id": "C97", "title": "Float32 is float32 of Float64", "statement": "Go's conversion to float32 of what Float64 returns is what Float32 returns.", "quantifier": "all numbers of binary128 and float80x86", "why_tests_cant": "2^128 patterns; few of them lie near the midpoints", "anchors": ["binary128/binary128.go:Float.Float64", "binary128/binary128.go:Float.Float32", "float80x86/float80x86.go:Float.Float64", "float80x86/float80x86.go:Float.Float32"]}
{"id": "C98", "title": "Appending writes only behind the slice", "statement": "AppendFloat, AppendInt and AppendUint return a slice that reads as dst followed by the text that FormatFloat, FormatInt and FormatUint return; of all memory that existed before they change at most the bytes between the length and the capacity of dst, and they panic only when those functions do. FormatFloat leaves all existing memory as it is.", "quantifier": "all heaps, slices and arguments, every way in which append may grow a slice", "why_tests_cant": "aliasing depends on lengths and capacities of the caller's slices", "anchors": ["internal/strconv/ftoa.go:AppendFloat", "internal/strconv/ftoa.go:FormatFloat", "internal/strconv/itoa.go:AppendInt", "internal/strconv/itoa.go:AppendUint"]}
{"id": "C99", "title": "A text that does not fit leaves the old array alone", "statement": "If the text is longer than what is left of the capacity of dst, AppendFloat, AppendInt and AppendUint leave every byte of the array of dst as it was.", "quantifier": "all heaps, slices and arguments", "why_tests_cant": "aliasing depends on lengths and capacities of the caller's slices", "anchors": ["internal/strconv/ftoa.go:AppendFloat", "internal/strconv/itoa.go:AppendInt", "internal/strconv/itoa.go:AppendUint"]}
{"id": "C100", "title": "FormatFloat allocates once", "statement": "The buffer of max(prec+4, 24) bytes that FormatFloat makes is never outgrown in the formats 'e', 'E', 'g' and 'G' for finite numbers.", "quantifier": "all finite numbers of the three sizes, all precisions", "why_tests_cant": "the longest texts belong to few of 2^64 numbers", "anchors": ["internal/strconv/ftoa.go:FormatFloat"]}
{"id": "C101", "title": "Big returns a number of its own", "statement": "The *big.Float that Big returns is newly allocated, in all five packages, and nothing that existed before the call has changed.", "quantifier": "all patterns and all states of memory", "why_tests_cant": "2^128 patterns; sharing is invisible in the value", "anchors": ["binary16/binary16.go:Float.Big", "bfloat/bfloat.go:Float.Big", "binary128/binary128.go:Float.Big", "float80x86/float80x86.go:Float.Big", "float128ppc/float128ppc.go:Float.Big"]}
{"id": "C102", "title": "float128ppc.NewFromBig changes only x", "statement": "Of what existed before the call, float128ppc.NewFromBig(x) changes nothing but *x, and *x becomes x rounded to 106 bits if it is finite and not zero.", "quantifier": "all states of memory and all numbers", "why_tests_cant": "numbers of unbounded precision; tests do not look at the argument afterwards", "anchors": ["float128ppc/float128ppc.go:NewFromBig"]}
{"id": "C103", "title": "Conversions do not disturb each other", "statement": "In a program that calls NewFromBig of any of the packages and IsExact16/32/64 with the same pointer, in any order and number, every call answers what it would answer as the only call.", "quantifier": "all finite sequences of calls, all numbers", "why_tests_cant": "infinitely many sequences and numbers", "anchors": ["binary16/binary16.go:NewFromBig", "binary128/binary128.go:NewFromBig", "float80x86/float80x86.go:NewFromBig", "float128ppc/float128ppc.go:NewFromBig", "float.go:IsExact16", "float.go:IsExact32", "float.go:IsExact64"]}
{"id": "C104", "title": "Texts in plain and binary notation have a bounded length", "statement": "With a negative precision 'f' gives at most 327 bytes (48 for 32 and 11 for 16 bits), no text having a digit behind the 324th (45th, 8th) place after the point; with a precision p at most 311+p (41+p, 7+p) bytes; 'b' at most 23 (14, 9) bytes.", "quantifier": "all finite numbers of the three sizes, all precisions", "why_tests_cant": "the longest texts belong to few of 2^64 numbers", "anchors": ["internal/strconv/ftoa.go:FormatFloat", "internal/strconv/ftoa.go:fmtF", "internal/strconv/ftoa.go:fmtB"]}
{"id": "C105", "title": "The shortest text is the number rounded to that many digits", "statement": "FormatFloat(x, 'e', -1, size) is FormatFloat(x, 'e', n-1, size) where n is the number of its digits.", "quantifier": "all finite numbers of the three sizes", "why_tests_cant": "the exceptions are powers of two and one number in many millions", "anchors": ["internal/strconv/ftoa.go:FormatFloat", "internal/strconv/ftoa.go:roundShortest", "internal/strconv/extfloat.go:ShortestDecimal", "internal/strconv/decimal.go:Round"]}
{"id": "C106", "title": "The shortest text in plain notation is the number rounded to that many places", "statement": "FormatFloat(x, 'f', -1, size) is FormatFloat(x, 'f', n, size) where n is the number of its digits after the point.", "quantifier": "all finite numbers of the three sizes", "why_tests_cant": "the exceptions are powers of two, most large integers and one other number in many millions", "anchors": ["internal/strconv/ftoa.go:FormatFloat", "internal/strconv/ftoa.go:roundShortest", "internal/strconv/ftoa.go:fmtF", "internal/strconv/decimal.go:Round"]}
{"id": "C107", "title": "Texts of few digits survive being read and printed", "statement": "A decimal number of at most 15 digits (6 for 32 and 3 for 16 bits) in the normal range, read as the nearest float, is printed as the same number by 'e', 'E', 'g' and 'G' with a precision for at least its digits (and no more than these) and by every format with precision -1; a number of fewer than 2^52 (2^23, 2^10) units of 10^-p is by 'f' with precision p. One digit more is too many.", "quantifier": "all decimal numbers of the normal ranges of the three sizes, both code paths", "why_tests_cant": "10^15 mantissas with 600 exponents; a wrong last digit shows in few of them", "anchors": ["internal/strconv/ftoa.go:FormatFloat", "internal/strconv/ftoa.go:roundShortest", "internal/strconv/extfloat.go:FixedDecimal", "internal/strconv/extfloat.go:ShortestDecimal", "internal/strconv/decimal.go:Round"]}
{"id": "C108", "title": "Enough digits are the number itself", "statement": "'e' and 'E' with a precision of at least 766 (111 for 32, 20 for 16 bits), 'g' and 'G' with at least 767 (112, 21) and 'f' with at least 1074 (149, 24) print the number itself without rounding; no smaller precisions of 'e' and 'f' do so for every number, and a greater precision never gives a text further from the number.", "quantifier": "all finite numbers of the three sizes, all precisions, both code paths", "why_tests_cant": "the longest expansions belong to few numbers and tests do not ask for 767 digits", "anchors": ["internal/strconv/ftoa.go:FormatFloat", "internal/strconv/ftoa.go:bigFtoa", "internal/strconv/decimal.go:Shift", "internal/strconv/decimal.go:Round", "internal/strconv/extfloat.go:FixedDecimal"]}
{"id": "C109", "title": "Which numbers have the same text", "statement": "FormatFloat and AppendFloat give the same text for two float64s that are the same float of the size asked for; with precision -1 and with format 'b' only for such (and any two NaNs), and with precision p for 'e', 'E', 'g', 'G' and 'f' exactly for those with the same sign and the same number after rounding to that precision.", "quantifier": "all pairs of finite numbers of the three sizes, all precisions, both code paths", "why_tests_cant": "2^128 pairs of numbers", "anchors": ["internal/strconv/ftoa.go:FormatFloat", "internal/strconv/ftoa.go:AppendFloat", "internal/strconv/ftoa.go:genericFtoa"]}
{"id": "C110", "title": "Lengths and order of the texts of integers", "statement": "The text of i has at most n digits exactly if |i| < base^n, at most 64 digits in all, and is not longer in a greater base; FormatUint's texts are ordered by length and then byte by byte like their numbers; and every numeral without superfluous zeros in the range is the text of its number.", "quantifier": "all 64-bit integers, all bases from 2 to 36, both word sizes", "why_tests_cant": "2^64 integers in 35 bases", "anchors": ["internal/strconv/itoa.go:FormatUint", "internal/strconv/itoa.go:FormatInt", "internal/strconv/itoa.go:formatBits"]}
{"id": "C111", "title": "How the format letters are related", "statement": "FormatFloat with 'E' and 'G' prints what it prints with 'e' and 'g', with E for e; with precision -1 'g' prints exactly what 'f' prints for 0 and for numbers from the float nearest to 10^-4 up to below 10^6, and exactly what 'e' prints for all others; with precision p from 0 'g' prints what 'f' or 'e' print with as many digits after the point as remain when the number is rounded to p digits and the zeros at the end are dropped.", "quantifier": "all finite numbers of the three sizes, both code paths", "why_tests_cant": "all 2^64 numbers; the borders are single floats", "anchors": ["internal/strconv/ftoa.go:FormatFloat", "internal/strconv/ftoa.go:formatDigits", "internal/strconv/ftoa.go:fmtE", "internal/strconv/ftoa.go:fmtF"]}
{"id": "C112", "title": "Rounding a text again", "statement": "A text of FormatFloat with more digits, rounded to fewer digits (half way to even), is the text with fewer digits: for 'e', 'f' and 'g' with two precisions, and for the shortest text and 'e' with fewer digits.", "quantifier": "all finite numbers of the three sizes, all pairs of precisions, both code paths", "why_tests_cant": "2^64 numbers times all pairs of precisions; it fails only where the text ends in a 5 that hides on which side the number is", "anchors": ["internal/strconv/ftoa.go:FormatFloat", "internal/strconv/ftoa.go:genericFtoa", "internal/strconv/decimal.go:shouldRoundUp", "internal/strconv/extfloat.go:extFloat.FixedDecimal"]}
