{"id": "C01", "title": "Construction from digits keeps the value and normalises", "statement": "UBig::new(v) denotes the same number as the little-endian digit vector v in the base of the digit type, and its digits() never ends in a zero digit; zero is represented by the empty vector.", "quantifier": "every digit vector of any length with digits below the base, all eight number types (UBigBin8..64, UBigDec8..64), debug and release builds", "why_tests_cant": "Tests fix a handful of short vectors; the claim is about vectors of every length with any run of leading zeros.", "anchors": ["src/ubig.rs: UBig::new, drop_leading_zeros", "src/ubig/support.rs: drop_leading_zeros"]}
{"id": "C02", "title": "Equality of normalised numbers is equality of numbers", "statement": "For two normalised numbers of the same type, x == y holds exactly when they denote the same integer; in particular is_zero() holds exactly for the integer 0.", "quantifier": "every pair of normalised numbers, all eight number types (UBigBin8..64, UBigDec8..64), debug and release builds", "why_tests_cant": "Derived equality compares vectors; that this is numeric equality depends on uniqueness of base-b expansions, which no finite sample shows.", "anchors": ["src/ubig.rs: UBig (derived Eq), Zero::is_zero"]}
{"id": "C03", "title": "Comparison is the numeric order", "statement": "x.cmp(&y), x < y etc. agree with the order of the integers denoted, for normalised x and y; the order is total and antisymmetric with respect to ==.", "quantifier": "every pair of normalised numbers, all eight number types (UBigBin8..64, UBigDec8..64), debug and release builds", "why_tests_cant": "There are unboundedly many length/digit combinations; tests compare a few.", "anchors": ["src/ubig/cmp.rs: cmp, lt", "src/ubig.rs: PartialOrd, Ord"]}
{"id": "C04", "title": "Conversion from a machine integer is exact", "statement": "UBig::from(n) denotes n and is normalised for every value n of the storage type, including decimal values that need two digits.", "quantifier": "every value of u8/u16/u32/u64, all eight number types (UBigBin8..64, UBigDec8..64), debug and release builds", "why_tests_cant": "2^64 inputs per type; tests try a few.", "anchors": ["src/ubig.rs: From<T> for UBig<BinaryDigit<T>>, From<T> for UBig<DecimalDigit<T>>", "src/digit.rs: DecimalDigit::split, fits_single"]}
{"id": "C05", "title": "Addition of big numbers is exact", "statement": "x + &y (and +=) never panics, denotes the sum of the integers denoted, and is normalised if x and y are.", "quantifier": "every pair of numbers of any lengths, all eight number types (UBigBin8..64, UBigDec8..64), debug and release builds", "why_tests_cant": "Carry propagation across an arbitrary number of digits and unequal lengths cannot be enumerated.", "anchors": ["src/ubig/ops.rs: AddAssign<&UBig<T>>", "src/ubig.rs: add_assign_big_at_offset", "src/ubig/add.rs: add_assign_big, inc_assign"]}
{"id": "C06", "title": "Addition of a machine integer is exact", "statement": "x += n for a storage value n never panics, denotes value(x)+n and is normalised if x is, also when n does not fit one decimal digit.", "quantifier": "every number and every storage value, all eight number types (UBigBin8..64, UBigDec8..64), debug and release builds", "why_tests_cant": "Long carry chains and the two-digit decimal path combine into unboundedly many cases.", "anchors": ["src/ubig/ops.rs: AddAssign<T>", "src/ubig/add.rs: add_assign_digit"]}
{"id": "C07", "title": "Addition laws hold for ==", "statement": "x+y == y+x, (x+y)+z == x+(y+z), x+0 == x, compared with the crate's own ==, for normalised numbers.", "quantifier": "every triple of normalised numbers, all eight number types (UBigBin8..64, UBigDec8..64), debug and release builds", "why_tests_cant": "Algebraic laws quantify over all triples.", "anchors": ["src/ubig/ops.rs: Add", "src/ubig.rs: derived Eq, Zero::zero"]}
{"id": "C08", "title": "Subtraction of big numbers: value and underflow", "statement": "For normalised x and y, x - &y panics exactly when x < y; otherwise the result denotes value(x)-value(y).", "quantifier": "every pair of normalised numbers, all eight number types (UBigBin8..64, UBigDec8..64), debug and release builds", "why_tests_cant": "Borrow chains of every length; the panic condition is an equivalence over all pairs.", "anchors": ["src/ubig/ops.rs: SubAssign<&UBig<T>>", "src/ubig/sub.rs: sub_assign_big, dec_assign", "src/ubig.rs: sub_assign_big_at_offset"]}
{"id": "C09", "title": "Subtraction of big numbers returns a normalised number", "statement": "For normalised x >= y the difference x - &y is normalised, so that later comparisons and == are numeric.", "quantifier": "every pair of normalised numbers with x >= y, all eight number types (UBigBin8..64, UBigDec8..64), debug and release builds", "why_tests_cant": "Depends on the length of the borrow chain and the digits above it; failing pairs are a vanishing fraction of random pairs.", "anchors": ["src/ubig/sub.rs: sub_assign_big (carry branch)", "src/ubig/ops.rs: SubAssign<&UBig<T>>"]}
{"id": "C10", "title": "Subtraction of a machine integer: value, underflow, normal form", "statement": "x -= n panics exactly when value(x) < n, otherwise denotes value(x)-n and is normalised.", "quantifier": "every normalised number and storage value, all eight number types (UBigBin8..64, UBigDec8..64), debug and release builds", "why_tests_cant": "All pairs (x, n) including those where the difference is zero or the borrow runs through the number.", "anchors": ["src/ubig/ops.rs: SubAssign<T> for UBig<T>, UBig<BinaryDigit<T>>, UBig<DecimalDigit<T>>", "src/ubig/sub.rs: sub_assign_digit, dec_assign"]}
{"id": "C11", "title": "Multiplication by a machine integer is exact", "statement": "x *= n never panics, denotes value(x)*n and is normalised if x is, including decimal factors that need two digits.", "quantifier": "every number and storage value, all eight number types (UBigBin8..64, UBigDec8..64), debug and release builds", "why_tests_cant": "The two-digit decimal kernel juggles two carries and a deferred increment; correctness for all digit combinations is not testable.", "anchors": ["src/ubig/ops.rs: MulAssign<T>", "src/ubig.rs: mul_add_assign_digit, mul_pair_add_assign_digit", "src/ubig/mul.rs: mul_add_assign_digit, mul_pair_add_assign_digit"]}
{"id": "C12", "title": "Multiplication of big numbers, schoolbook range", "statement": "x * &y is total and exact, with normalised result, whenever one operand has fewer than 20 digits.", "quantifier": "all normalised x, y with min length < 20, all eight number types (UBigBin8..64, UBigDec8..64), debug and release builds", "why_tests_cant": "Unbounded operand lengths and all digit values.", "anchors": ["src/ubig/mul.rs: mul_big_into", "src/ubig/mul/long.rs: mul_big_long_into", "src/ubig.rs: mul_big"]}
{"id": "C13", "title": "Multiplication of big numbers never returns a wrong product", "statement": "Whenever x * &y returns, the result denotes value(x)*value(y) and is normalised, for operands of every size (schoolbook, Karatsuba and Toom-3 ranges).", "quantifier": "every pair of numbers of any lengths, all eight number types (UBigBin8..64, UBigDec8..64), debug and release builds", "why_tests_cant": "Karatsuba/Toom-3 recursion depth and the sign case analysis grow with the size; each level has many carry/sign branches.", "anchors": ["src/ubig/mul.rs: mul_big_into, mul_big_into_with_work", "src/ubig/mul/karatsuba.rs: mul_big_karatsuba_into", "src/ubig/mul/toom3.rs: mul_big_toom3_into"]}
{"id": "C14", "title": "Multiplication of big numbers never panics", "statement": "x * &y returns for every pair of normalised numbers, whatever their lengths and digits.", "quantifier": "every pair of normalised numbers, all eight number types (UBigBin8..64, UBigDec8..64), debug and release builds", "why_tests_cant": "Panics come from unwrap/assert/index deep in the recursion and need special digit patterns that random tests miss.", "anchors": ["src/ubig/mul/karatsuba.rs: mul_big_karatsuba_into", "src/ubig/mul/toom3.rs: mul_big_toom3_into", "src/ubig/sub.rs: sub_big_into_abs_sign, sub_assign_big_abs_sign"]}
{"id": "C15", "title": "Squaring is exact", "statement": "Whenever x.square() returns, it denotes value(x)^2, is normalised, and equals &x * &x.", "quantifier": "every normalised number of any length, all eight number types (UBigBin8..64, UBigDec8..64), debug and release builds", "why_tests_cant": "The squaring routines reuse buffers without clearing them; only large structured inputs reach the stale data.", "anchors": ["src/ubig.rs: square", "src/ubig/mul.rs: square_into", "src/ubig/mul/long.rs: square_long_into", "src/ubig/mul/karatsuba.rs: square_karatsuba_into", "src/ubig/mul/toom3.rs: square_toom3_into"]}
{"id": "C16", "title": "Exponentiation is exact", "statement": "Whenever x.pow(e) returns it denotes value(x)^e (with 0^0 = 1) and is normalised.", "quantifier": "every normalised number and every exponent, all eight number types (UBigBin8..64, UBigDec8..64), debug and release builds", "why_tests_cant": "Exponents are unbounded; square-and-multiply invariants need induction.", "anchors": ["src/ubig/ops.rs: Pow<usize>"]}
{"id": "C17", "title": "Division and remainder by a machine integer", "statement": "x / n and x % n for a storage value n panic exactly when n = 0, otherwise give floor quotient and remainder: x = q*n + r, 0 <= r < n, both normalised.", "quantifier": "every number and storage value, all eight number types (UBigBin8..64, UBigDec8..64), debug and release builds", "why_tests_cant": "All dividends of any length; decimal divisors that need two digits take a separate estimation path.", "anchors": ["src/ubig/ops.rs: DivAssign<T>, RemAssign<T>, Rem<T>", "src/ubig/div.rs: div_assign_digit, rem_digit, div_assign_digit_pair"]}
{"id": "C18", "title": "Division and remainder of big numbers (binary types)", "statement": "For normalised x and y != 0 of a binary type, x.div_assign_big(&y) leaves the quotient and returns the remainder with x = q*y + r, 0 <= r < y, both normalised.", "quantifier": "every pair of normalised binary numbers with y != 0, debug and release builds", "why_tests_cant": "Quotient-digit estimation errs only for rare digit coincidences (probability about 1/base per step).", "anchors": ["src/ubig.rs: div_assign_big, rem_assign_big", "src/ubig/div.rs: div_big, div_big_with_work, div_assign_digit_pair", "src/ubig/div/long.rs", "src/ubig/div/bz.rs", "src/digit.rs: div_carry_assign"]}
{"id": "C19", "title": "Division and remainder of big numbers (decimal types)", "statement": "The same Euclidean equation for the decimal types.", "quantifier": "every pair of normalised decimal numbers with y != 0, debug and release builds", "why_tests_cant": "The normalisation shift interacts with the non-power-of-two base for some leading digits only.", "anchors": ["src/ubig/div/long.rs: div_big_long", "src/ubig/div.rs: div_assign_digit_pair", "src/ubig/div/bz.rs: div_big_bz", "src/digit.rs: DecimalDigit::max_shift"]}
{"id": "C20", "title": "Division by zero is reported and harmless", "statement": "div_assign_big and rem_assign_big return DivisionByZero exactly when the divisor is zero, the operators panic exactly then for a zero divisor, and on error the dividend is unchanged.", "quantifier": "every dividend, all eight number types (UBigBin8..64, UBigDec8..64), debug and release builds", "why_tests_cant": "The state left behind on the error path is not observed by any test and must hold for all dividends.", "anchors": ["src/ubig.rs: div_assign_big, rem_assign_big", "src/ubig/ops.rs: DivAssign<&UBig<T>>, RemAssign<&UBig<T>>"]}
{"id": "C21", "title": "Left shift multiplies by a power of two", "statement": "x << n denotes value(x)*2^n for every n and is normalised; for binary types it never panics.", "quantifier": "every normalised number and every shift amount, all eight number types (UBigBin8..64, UBigDec8..64), debug and release builds", "why_tests_cant": "Shift amounts are unbounded and include the zero number and digit-aligned shifts.", "anchors": ["src/ubig/ops.rs: ShlAssign<usize>", "src/ubig/shl.rs: shl_carry_assign_within_digit"]}
{"id": "C22", "title": "Right shift divides by a power of two", "statement": "x >> n denotes floor(value(x)/2^n) for every n, is normalised and never panics.", "quantifier": "every normalised number and every shift amount, all eight number types (UBigBin8..64, UBigDec8..64), debug and release builds", "why_tests_cant": "Shift amounts beyond the number's length are rarely tested.", "anchors": ["src/ubig/ops.rs: ShrAssign<usize>", "src/ubig/shr.rs: shr_carry_assign_within_digit"]}
{"id": "C23", "title": "Parsing a decimal numeral is exact", "statement": "from_str(s) for a non-empty string s of ASCII decimal digits returns the number that s denotes, normalised, whatever the length and leading zeros.", "quantifier": "every non-empty string of digits 0-9, all eight number types (UBigBin8..64, UBigDec8..64), debug and release builds", "why_tests_cant": "String length is unbounded; chunk boundaries fall anywhere.", "anchors": ["src/ubig.rs: FromStr for UBig<BinaryDigit<T>>, FromStr for UBig<DecimalDigit<T>>", "src/digit.rs: from_decimal_str"]}
{"id": "C24", "title": "Parsing a hexadecimal numeral is exact", "statement": "from_str(\"0x\"+s) for a non-empty string s of hexadecimal digits (either case) returns the number that s denotes, normalised.", "quantifier": "every non-empty string of hex digits, all eight number types (UBigBin8..64, UBigDec8..64), debug and release builds", "why_tests_cant": "As for decimal numerals; decimal types additionally convert the base chunk by chunk.", "anchors": ["src/ubig.rs: FromStr", "src/digit.rs: from_hexadecimal_str"]}
{"id": "C25", "title": "Parsing rejects everything that is not a numeral", "statement": "from_str(s) returns InvalidNumber for every string that is not a digit string or 0x-prefixed hex digit string, and never panics.", "quantifier": "every string, all eight number types (UBigBin8..64, UBigDec8..64), debug and release builds", "why_tests_cant": "The set of malformed strings is infinite; acceptance of embedded signs depends on chunk boundaries.", "anchors": ["src/ubig.rs: FromStr", "src/digit.rs: from_base_str"]}
{"id": "C26", "title": "Hexadecimal formatting of binary numbers is exact and round-trips", "statement": "{:x}, {:X} and {:#x} print the minimal hexadecimal numeral of the number; parsing {:#x} output gives back an equal number.", "quantifier": "every normalised binary number, UBigBin8..64", "why_tests_cant": "Zero padding of inner digits matters for every digit value and position.", "anchors": ["src/ubig.rs: LowerHex, UpperHex, FromStr"]}
{"id": "C27", "title": "Decimal formatting of decimal numbers is exact and round-trips", "statement": "Display of a decimal-type number prints its minimal decimal numeral; parsing it gives back an equal number.", "quantifier": "every normalised decimal number, UBigDec8..64", "why_tests_cant": "Zero padding of inner digits matters for every digit value and position.", "anchors": ["src/ubig.rs: Display for UBig<DecimalDigit<T>>, FromStr"]}
{"id": "C28", "title": "Width and padding flags", "statement": "Formatting with a width pads the numeral (with fill and alignment, or with zeros after the prefix) to exactly the requested width and never truncates; flags + and # only add sign and prefix.", "quantifier": "every number, every width, fill, alignment and flag combination", "why_tests_cant": "Flag combinations times all numbers.", "anchors": ["src/ubig.rs: LowerHex, UpperHex, Display (pad_integral)"]}
{"id": "C29", "title": "Conversion from binary to decimal is exact", "statement": "x.to_decimal() denotes the same integer as x and is normalised, so Display of a binary number prints its decimal numeral.", "quantifier": "every normalised binary number of any length, UBigBin8..64, debug and release builds", "why_tests_cant": "The divide-and-conquer path starts at 16 digits and errs only when a low half has leading zeros.", "anchors": ["src/ubig.rs: to_decimal, build_decimal, Display for UBig<BinaryDigit<T>>"]}
{"id": "C30", "title": "Digits stay below the base", "statement": "No sequence of operations on a number whose digits are below the base produces a number with a digit at or above the base.", "quantifier": "all operations (+, -, *, square, pow, shifts, digit division) and all operands, all eight number types (UBigBin8..64, UBigDec8..64), debug and release builds", "why_tests_cant": "An inductive invariant over unbounded histories.", "anchors": ["src/digit.rs: impl Digit for BinaryDigit/DecimalDigit", "src/ubig/ops.rs"]}
{"id": "C31", "title": "Arithmetic histories track the integers", "statement": "Run any program of +=, -=, *=, square, pow, << steps on registers of numbers: if it does not panic, every register holds exactly the integer computed by the same program over the integers.", "quantifier": "every program of any length and every initial state, all eight number types (UBigBin8..64, UBigDec8..64), debug and release builds", "why_tests_cant": "Errors could compound through non-normalised intermediate values; only an invariant over all histories settles it.", "anchors": ["src/ubig/ops.rs: all operators"]}
{"id": "C32", "title": "The choice of digit type is unobservable", "statement": "Adding, multiplying or parsing the same integers in two different number types yields numbers denoting the same integer.", "quantifier": "every pair of the eight number types and all operands", "why_tests_cant": "Eight different kernels (including the hand-written u64 ones) must agree on all inputs.", "anchors": ["src/digit.rs: impl Digit (8 instances)", "src/lib.rs: type aliases"]}
{"id": "C33", "title": "Operator forms agree", "statement": "By-value, by-reference and assigning forms of each operator give identical results (or all panic).", "quantifier": "every operand pair, all eight number types (UBigBin8..64, UBigDec8..64), debug and release builds", "why_tests_cant": "Each form is a separate impl; the remainder forms follow different code paths.", "anchors": ["src/ubig/ops.rs: Add, Sub, Mul, Div, Rem, Shl, Shr, Pow impls"]}
{"id": "C34", "title": "Multiplication laws hold for ==", "statement": "When the products involved return: x*y == y*x, (x*y)*z == x*(y*z), x*(y+z) == x*y + x*z, x*1 == x, x*0 == 0, compared with the crate's own ==.", "quantifier": "every triple of normalised numbers, all eight number types (UBigBin8..64, UBigDec8..64), debug and release builds", "why_tests_cant": "x*y and y*x take different splits in Karatsuba/Toom-3.", "anchors": ["src/ubig/ops.rs: Mul", "src/ubig/mul.rs", "src/ubig.rs: derived Eq"]}
{"id": "C35", "title": "Division of 128-bit intermediates by 10^19 is exact", "statement": "For the 64-bit decimal type every digit product/shift is split exactly into quotient and remainder by 10^19 by the multiply-and-shift reciprocal, without overflow. For larger 128-bit values debug builds return the remainder and the low 64 bits of the quotient, or panic.", "quantifier": "every 128-bit intermediate below 10^38 (and the slightly larger ones reached in division)", "why_tests_cant": "10^38 inputs; the reciprocal's rounding error must be bounded for all of them.", "anchors": ["src/digit.rs: DecimalDigit<u64>::div_rem_base, mul_carry_assign, shl_carry_assign, add_prod_carry_assign"]}
{"id": "C36", "title": "Digit kernels compute exact carries", "statement": "Each digit operation (increment, decrement, add/subtract with carry, shifts, doubling, multiply-add, division by a digit or by 3) returns a digit below the base and the exact carry, with no overflow panic in debug builds. A text is read as a digit exactly if it is a numeral of a number below the base, of any length, perhaps behind a plus sign.", "quantifier": "all digit values and admissible carries, all eight digit types, debug and release builds", "why_tests_cant": "2^128 or more operand combinations for the 64-bit types.", "anchors": ["src/digit.rs: Digit trait, impl_digit_binary, impl_digit_decimal, BinaryDigit<u64>, DecimalDigit<u64>"]}
{"id": "C37", "title": "Debug and release builds agree", "statement": "If an operation returns in a debug build (overflow checks and debug assertions on), it returns the same result in a release build.", "quantifier": "all operations of the crate and all operands, all eight number types", "why_tests_cant": "Overflow behaviour differs only on inputs that overflow, which tests in one profile never see.", "anchors": ["src/digit.rs", "src/ubig/mul/karatsuba.rs: debug_assert", "src/ubig/div/bz.rs: debug_assert", "src/ubig/div/long.rs: debug_assert"]}
{"id": "C38", "title": "Scratch space is always sufficient", "statement": "The scratch buffers sized by the library are never too small: no 'Insufficient work space' or 'Not enough space' panic occurs in multiplication, squaring or division.", "quantifier": "every pair of operand lengths", "why_tests_cant": "Work-size recurrences versus recursion sizes must be compared for every length.", "anchors": ["src/ubig/mul.rs: calc_mul_work_size", "src/ubig/mul/karatsuba.rs: calc_karatsuba_work_size", "src/ubig/mul/toom3.rs: calc_toom3_work_size", "src/ubig/div/bz.rs: calc_div_bz_work_size"]}
{"id": "C39", "title": "Results do not depend on scratch contents", "statement": "The product computed by the library does not depend on what was previously stored in its scratch or result buffers.", "quantifier": "every buffer contents and all operands", "why_tests_cant": "Stale data is only reached at recursion depth three with special operands.", "anchors": ["src/ubig/mul.rs: mul_big_into_with_work, square_into_with_work", "src/ubig/mul/toom3.rs"]}
{"id": "C40", "title": "Termination", "statement": "Every operation terminates: the recursion of multiplication, squaring, division and decimal conversion always reaches its base case.", "quantifier": "all operand lengths, all eight number types (UBigBin8..64, UBigDec8..64), debug and release builds", "why_tests_cant": "Non-termination cannot be observed by a finite test.", "anchors": ["src/ubig/mul.rs", "src/ubig/mul/karatsuba.rs", "src/ubig/mul/toom3.rs", "src/ubig/div/bz.rs", "src/ubig.rs: build_decimal"]}
{"id": "C41", "title": "Fibonacci benchmark program", "statement": "The program of benches/fibo.rs, run with index k, returns a normalised number equal to the k-th Fibonacci number, unless one of its multiplications panics; it always returns when the Fibonacci number of half the index has at most 19 digits, and when three times it has at most 40. In general it panics exactly when one of its products, each of a Fibonacci number and a Lucas number, is one on which the multiplication stops.", "quantifier": "every index k below 2^32, all eight number types (UBigBin8..64, UBigDec8..64), debug and release builds", "why_tests_cant": "The benchmark only times the program; no index space of 2^32 is ever run and no result is compared.", "anchors": ["benches/fibo.rs: fibonacci, fibonacci_work"]}
{"id": "C42", "title": "Candidates for division by 10^19", "statement": "Each of the five candidate routines of benches/divbase.rs that divide a 128-bit product by 10^19 returns the exact quotient and remainder, without overflow; so the benchmark prints the same two sums for each of them. Long division, the division operator and the division instruction also do so for every 128-bit number whose quotient fits in 64 bits; for the others the instruction traps and the other two return the low 64 bits of the quotient. Above 10^38 the two multiplying routines return the same in debug builds or panic; in release builds they can be wrong.", "quantifier": "every n below 10^38 (all products of two digits plus carry), every list of such n, debug and release builds", "why_tests_cant": "There are 10^38 inputs; an error in the approximate inverse shows on very few of them.", "anchors": ["benches/divbase.rs: mul_inv_base, mul_inv_base_2, div_op_base, divq, divq_base, div_long_base, test_div_base"]}
{"id": "C43", "title": "Digit traits", "statement": "Adding or multiplying two digits with the digit type's + and * gives the exact digit or reports an overflow; zero and one are neutral; different errors print different texts.", "quantifier": "all pairs of digits, all eight digit types, debug and release builds", "why_tests_cant": "The 64-bit digit types have 2^128 pairs.", "anchors": ["src/digit.rs: impl Add/Mul/Zero/One (414-457, 864-907)", "src/result.rs: Display for Error"]}
{"id": "C44", "title": "Exact failure condition of binary schoolbook division", "statement": "Dividing a binary number by a divisor of 2 to 19 digits gives the right quotient and remainder if and only if no partial remainder starts with the leading digit of the (shifted) divisor.", "quantifier": "all dividends of any length, all divisors of 2 to 19 digits, four binary types, debug and release builds", "why_tests_cant": "Ties have probability about 2^-w per step and cannot be hit at random for wide digits; that every tie fails is a universal statement.", "anchors": ["src/ubig/div/long.rs", "src/ubig/div.rs"]}
{"id": "C45", "title": "Addition and subtraction undo each other", "statement": "(x + y) - y == x; (x - y) + y == x whenever y <= x; x - x == 0.", "quantifier": "all pairs of normalised numbers of any length, all eight digit types, debug and release builds", "why_tests_cant": "A failure needs the sum to carry into a new digit and x to be much smaller than y, which random operands of equal length hardly ever do.", "anchors": ["src/ubig/add.rs", "src/ubig/sub.rs", "src/ubig/ops.rs"]}
{"id": "C46", "title": "Multiplication and division undo each other", "statement": "Where division is right (divisors of one digit; longer ones without ties for binary types, or that scale and do not open with a tie for decimal types, where no multiplication of the recursive division stops): (x * y) / y == x with remainder zero, and (x / y) * y + x % y == x with x % y < y, through the operators, whenever the products return.", "quantifier": "all dividends and divisors of any length meeting the condition, eight digit types, debug and release builds", "why_tests_cant": "The statement chains four operations on unbounded operands; the result must be the same digit vector, not only of the same value.", "anchors": ["src/ubig/ops.rs", "src/ubig/mul.rs", "src/ubig/div.rs"]}
{"id": "C47", "title": "Number of digits of results", "statement": "A sum has as many digits as the longer operand or one more; a product of nonzero numbers has the sum of the digit counts or one less; a quotient has the difference of the digit counts or one more, a remainder at most as many as the divisor.", "quantifier": "all normalised operands of any length (for division: where C46 applies), eight digit types, debug and release builds", "why_tests_cant": "The bound must hold for every operand; leading zeros appear only for rare carry patterns.", "anchors": ["src/ubig/ops.rs"]}
{"id": "C48", "title": "Laws of shifts", "statement": "(x << m) << n == x << (m + n); (x << n) >> n == x; x << n == x * (1 << n) whenever that product returns.", "quantifier": "binary types: all nonzero normalised x and all shift amounts; decimal types: the second law, for amounts within one digit step (4*MAX_HEX_PLACES); debug and release builds", "why_tests_cant": "Shift amounts and lengths are unbounded; errors show at digit boundaries.", "anchors": ["src/ubig/shl.rs", "src/ubig/shr.rs", "src/ubig.rs"]}
{"id": "C49", "title": "Laws of powers", "statement": "x^0 == 1, x^1 == x, x^a * x^b == x^(a+b) whenever all return, and (x^a)^b == x^(a*b), whenever all return, and always for results below 40 digits.", "quantifier": "all normalised x, all exponents within the squaring limit of C15, eight digit types, debug and release builds", "why_tests_cant": "The operations on the two sides go through different sequences of squarings; only a proof covers all exponents.", "anchors": ["src/ubig.rs: pow"]}
{"id": "C50", "title": "Numbers and texts determine each other", "statement": "Parsing a numeral without leading zeros and printing the result gives the same text (decimal types; binary types below 15 digits; hexadecimal for binary types), printing a number and parsing the text gives the same digits, and a number moves between decimal types of different widths through its text.", "quantifier": "all numerals of any length (decimal text of binary types: values below base^15, numbers below 16 digits), all digit types, debug and release builds", "why_tests_cant": "Numerals are unbounded; zero padding between digits fails only on particular digit patterns.", "anchors": ["src/ubig.rs: FromStr, Display, LowerHex"]}
{"id": "C51", "title": "The order fits the arithmetic", "statement": "The comparison is a total order; adding the same number to both sides, or multiplying both by the same nonzero number, keeps it; x - y panics with underflow exactly when x < y.", "quantifier": "all normalised numbers of any length (products: whenever both return), eight digit types, debug and release builds", "why_tests_cant": "Relates unbounded operands of three operations.", "anchors": ["src/ubig/cmp.rs", "src/ubig/ops.rs"]}
{"id": "C52", "title": "Exact failure condition of binary recursive division", "statement": "Dividing a binary number by a divisor of 20 digits or more: when a base case of the recursion has a partial remainder that starts with the leading digit of its divisor, no quotient that is returned is right; up to 80 digits the division is right in every other case, and above that every quotient that is returned is.", "quantifier": "all dividends of any length, all divisors of 20 digits or more (fewer than 2^64), four binary types, debug and release builds", "why_tests_cant": "Ties are rare for wide digits, and that the error of a base case is never repaired on any level of the recursion is a universal statement.", "anchors": ["src/ubig/div/bz.rs", "src/ubig/div/long.rs", "src/ubig/div.rs"]}
{"id": "C53", "title": "Exact panic condition of decimal recursive division", "statement": "Dividing a decimal number by a divisor of 20 to 80 digits that gains no digit when scaled panics (index out of range) exactly when the dividend of some base case of the recursion starts with the leading digit of its divisor; in all other cases quotient and remainder are right.", "quantifier": "all dividends of any length, all scaling divisors of 20 to 80 digits, four decimal types, debug and release builds", "why_tests_cant": "The condition concerns intermediate remainders and has probability about 1 in 10^9 or less for the wide types.", "anchors": ["src/ubig/div/bz.rs", "src/ubig/div/long.rs", "src/ubig/div.rs"]}
{"id": "C54", "title": "Debug builds notice decimal divisors that do not scale", "statement": "In a debug build, dividing by a decimal divisor of three or more digits that gains a digit when scaled (the case in which the quotient of a release build is unreliable) panics whenever the dividend is not smaller than the divisor, except for the leading digit 1 of the 16 and 64 bit types.", "quantifier": "all dividends of any length, all such divisors of any length from 3 digits, four decimal types, debug builds", "why_tests_cant": "The dropped carry depends on all digits of the divisor; tests see single divisors, and running them in debug builds does not show that no divisor escapes the assertion.", "anchors": ["src/ubig/div/long.rs", "src/ubig/div/bz.rs", "src/ubig/div.rs", "src/digit.rs"]}
{"id": "C55", "title": "The recursions are shallow", "statement": "Multiplication and squaring of numbers of up to 19*2^k digits, and recursive division by such a divisor, never nest their recursive calls more than k + 1 deep; allowing deeper nesting changes nothing. So no input can exhaust the stack by recursion.", "quantifier": "all operands (arbitrary digits, any lengths), all product buffers and scratch spaces, eight digit types, debug and release builds", "why_tests_cant": "The sizes of the parts depend on leading zeros and differences of the operands; a test sees the depth for one operand only, and the deep cases need operands far too long to run.", "anchors": ["src/ubig/mul.rs", "src/ubig/mul/karatsuba.rs", "src/ubig/mul/toom3.rs", "src/ubig/div/bz.rs"]}
{"id": "C56", "title": "Slice addition", "statement": "inc_assign, add_assign_digit and add_assign_big leave the sum modulo b^n in a slice of n digits and return what does not fit as carry; add_assign_big panics exactly when the second operand is longer; add_big_into stores the whole sum with its digit count, leaves the rest of the output alone, and reports NoSpace exactly when the sum or the longer operand does not fit.", "quantifier": "all digit slices of any length (leading zeros allowed), eight digit types, debug and release builds", "why_tests_cant": "The carry chain depends on every digit; tests cannot cover all lengths and all positions where the chain starts and stops.", "anchors": ["src/ubig/add.rs"]}
{"id": "C57", "title": "Slice subtraction", "statement": "dec_assign, sub_assign_digit, sub_assign_big, sub_big_into and rsub_assign_big leave the difference, and report Underflow exactly when the result would be negative (or the first operand is the shorter slice); sub_big_into reports NoSpace exactly when the output is shorter than the first operand and leaves the digits above it alone.", "quantifier": "all digit slices of any length (leading zeros allowed), eight digit types, debug and release builds", "why_tests_cant": "The borrow chain depends on every digit; an error condition that is off by one value needs the exact operand to show.", "anchors": ["src/ubig/sub.rs", "src/ubig/rsub.rs"]}
{"id": "C58", "title": "Digit count of slice subtraction", "statement": "The number of digits returned by a successful slice subtraction is the number of digits of the difference (no leading zeros).", "quantifier": "all pairs of slices, eight digit types, debug and release builds", "why_tests_cant": "Only borrows that empty the top digits matter, a vanishing fraction of random operands.", "anchors": ["src/ubig/sub.rs"]}
{"id": "C59", "title": "Signed differences", "statement": "sub_big_into_abs_sign and sub_assign_big_abs_sign give the absolute value of the difference and whether it is negative, for all operands that fit the output as documented.", "quantifier": "all slices of any length, all contents of the output, eight digit types, debug and release builds", "why_tests_cant": "The sign is decided from the lengths first; operands with leading zeros or leftover digits in the buffer occur only deep inside Karatsuba and Toom-3.", "anchors": ["src/ubig/sub.rs"]}
{"id": "C60", "title": "Shifts within a digit and doubling", "statement": "shl_carry_assign_within_digit, shr_carry_assign_within_digit and double_carry_assign compute x*2^s + carry, (carry*b^n + x) / 2^s with its remainder, and 2x + carry on a slice of n digits, with the part that does not fit returned as carry and, for the right shift, the exact digit count.", "quantifier": "all slices of any length, every shift s with 2^s < b, every carry below 2^s, eight digit types, debug and release builds", "why_tests_cant": "Carries run through all digits; 2^s does not divide the decimal bases, so every digit value matters.", "anchors": ["src/ubig/shl.rs", "src/ubig/shr.rs", "src/ubig/mul.rs"]}
{"id": "C61", "title": "Multiplication kernels", "statement": "mul_add_assign_digit, mul_digit_into, mul_pair_add_assign_digit, mul_big_long_into and square_long_into compute the exact product (plus offset), whatever the output contained before, touch no digit above the product, and return the exact carry or digit count.", "quantifier": "all slices of any length (leading zeros allowed), all single digits and pairs, all output contents, eight digit types, debug and release builds", "why_tests_cant": "The intermediate sums come close to the limits of the double-width type only for extreme digits at every position.", "anchors": ["src/ubig/mul.rs", "src/ubig/mul/long.rs"]}
{"id": "C62", "title": "Division kernels", "statement": "rem_digit, div_assign_digit and div3_carry_assign compute the exact quotient and remainder with the exact digit count, and report DivisionByZero exactly for a zero divisor.", "quantifier": "all slices of any length, all single digits, carries 0 to 2 for division by three, eight digit types, debug and release builds", "why_tests_cant": "Remainders run through all digits.", "anchors": ["src/ubig/div.rs"]}
{"id": "C63", "title": "Addition and subtraction at an offset", "statement": "add_assign_big_at_offset adds other*b^offset to a number, growing it as needed (its digit count is the larger of the two, plus one on carry; only adding zero beyond the end leaves leading zeros); sub_assign_big_at_offset subtracts it, reporting Underflow exactly when the result would be negative.", "quantifier": "all numbers of any length, every offset, eight digit types, debug and release builds", "why_tests_cant": "Only offset zero is exercised by the crate; with an offset the truncation must keep the low digits.", "anchors": ["src/ubig.rs"]}
{"id": "C64", "title": "Places per digit", "statement": "The hexadecimal places of a binary digit and the decimal places of a decimal digit are exact; MAX_DECIMAL_PLACES and MAX_HEX_PLACES are the largest numbers of places that always fit one digit.", "quantifier": "all eight digit types", "why_tests_cant": "The constants are computed from rational approximations of logarithms.", "anchors": ["src/digit.rs"]}
{"id": "C65", "title": "Estimate of decimal places", "statement": "nr_decimal_places(n) is the maximum number of decimal places needed to express a number of n binary digits.", "quantifier": "every n, four binary types", "why_tests_cant": "The estimate uses a rational approximation of log10 256; whether it is enough for a given n is a statement about 256^n.", "anchors": ["src/digit.rs"]}
{"id": "C66", "title": "Exact outcome of multiplication", "statement": "Multiplication of two numbers panics exactly when one of the subtractions of Karatsuba or Toom-3, at any level of the recursion, takes the smaller number for the larger one because the smaller one has leading zeros (the condition is stated on lengths and values alone and can be computed); the panic is always the unwrap of an underflow. In every other case it returns the product in normal form.", "quantifier": "all pairs of numbers of any length, leading zeros allowed, eight digit types, debug and release builds", "why_tests_cant": "Random numbers practically never have the runs of zeros needed; the smallest failing product has 41 digits, the first in Toom-3 has 128.", "anchors": ["src/ubig/mul.rs", "src/ubig/mul/karatsuba.rs", "src/ubig/mul/toom3.rs"]}
{"id": "C67", "title": "Outcome of a product depends on the factors only", "statement": "x * y and y * x have the same outcome, the same panic included, and so have debug and release builds.", "quantifier": "all pairs of numbers of any length, eight digit types", "why_tests_cant": "The two orders run through different code: the shorter number is cut at the same place as the longer one.", "anchors": ["src/ubig/mul.rs", "src/ubig/mul/karatsuba.rs", "src/ubig/mul/toom3.rs"]}
{"id": "C68", "title": "Exact outcome of recursive division", "statement": "Division by a divisor of 20 digits or more panics with the unwrap of an underflow when the product of a quotient guess and the lower half of the divisor, at some level of the recursion, is one that stops by C66. For binary types division is right exactly when that does not happen and no partial remainder ties with its divisor; for decimal types whose divisor scales, exactly when that does not happen and no block opens with a tie. Up to 80 digits of divisor it never happens.", "quantifier": "all dividends of any length, all divisors of 20 digits and more (decimal: that scale), eight digit types, debug and release builds", "why_tests_cant": "The stopping products need particular digits deep in the recursion of division and of multiplication at once; random divisions of any size hardly ever meet one.", "anchors": ["src/ubig/div.rs", "src/ubig/div/bz.rs", "src/ubig/mul/karatsuba.rs"]}
{"id": "C69", "title": "Scratch memory is linear in the operands", "statement": "Multiplication of numbers below 20 digits takes no scratch memory; Karatsuba takes between 1 and 9/4, Toom-3 between 2 and 7/2 times the length of the longer factor; recursive division pads its divisor by less than a tenth and one digit and takes at most four times its length. The sizes never shrink when an operand grows, and their computation does not overflow for lengths below 2^61.", "quantifier": "all lengths", "why_tests_cant": "The sizes are defined by recursions with roundings at every level; a bound on all lengths, and that no length asks for less than a shorter one, needs induction.", "anchors": ["src/ubig/mul.rs", "src/ubig/mul/karatsuba.rs", "src/ubig/mul/toom3.rs", "src/ubig/div/bz.rs"]}
{"id": "C70", "title": "The outcome of a program is determined by digit counts and values", "statement": "Take any program of +=, -=, *=, /=, %=, square, pow, <<, >> steps with number and machine operands, and registers that may hold leading zeros. A machine that knows only the number of digits and the value of each register predicts its run: the program returns exactly if every step of the machine goes, each register then has the predicted number of digits and value, and so every digit; it panics with a given message exactly if the machine stops with it. Debug and release builds agree on every digit and message. Steps with known outcome: all but squares and powers beyond 1131 digits, divisions by numbers of three or more digits with leading zeros, and divisions that tie or whose decimal divisor does not scale.", "quantifier": "every program of any length of such steps and every initial state, all eight number types, debug and release builds", "why_tests_cant": "Whether a step panics depends on leading zeros left behind by earlier steps; tests sample a few histories, and the ones that leave leading zeros are rare.", "anchors": ["src/ubig.rs", "src/ubig/ops.rs", "src/ubig/add.rs", "src/ubig/sub.rs", "src/ubig/mul.rs", "src/ubig/div.rs"]}
{"id": "C71", "title": "What the slice routines leave behind, also when they fail", "statement": "Incrementing, decrementing, adding, subtracting and reverse subtracting on digit slices leave in the buffer the digits of the result modulo the base to the width of the buffer, whether they report success, a carry or an error; the value returned, error or digit count, is determined by values and lengths; the routines with a separate output write what those in place would leave and touch nothing beyond. A routine is undone digit for digit by its inverse, after a failure too, and the inverse reports a carry or borrow exactly when the first did. Input refused at entry (too short a buffer, too long a subtrahend, a zero divisor) leaves all buffers untouched.", "quantifier": "all slices of valid digits of any length, all eight digit types, debug and release builds", "why_tests_cant": "Tests look at results of calls that succeed; callers such as the offset subtractions and the recursive division keep using buffers after a failed or wrapped call, for any of unboundedly many contents.", "anchors": ["src/ubig/add.rs", "src/ubig/sub.rs", "src/ubig/rsub.rs", "src/ubig/div.rs"]}
{"id": "C72", "title": "Division of and by numbers with leading zeros", "statement": "Subtractions can leave leading zeros. If the dividend has fewer digits than the divisor, leading zeros counted, or as many and is smaller, / gives 0 and % gives the dividend unchanged, also where the divisor is not larger than the dividend. Otherwise a dividend with leading zeros is divided just as one without (by fewer than 20 digits, rightly under the conditions of C17 and C18; by 20 or more, without a tie and with a decimal divisor that scales, rightly unless a product inside stops as in C68, and then it panics). A divisor of one digit and a leading zero gives the right result if the quotient has fewer digits than the dividend, and otherwise panics with NoSpace; two zero digits panic with DivisionByZero. A divisor of three or more digits with a leading zero makes debug builds of binary types and of UBigDec64 panic always; in the other decimal types debug builds panic if the divisor shifted by the least power of two above the base has a leading digit below half the base, and both builds are right for up to 19 digits if it has one of at least half the base without overflow and the shifted dividend a smaller one; otherwise debug and release builds can return digits that are no decimal digits or a wrong quotient; release builds can return a wrong quotient and remainder (binary) or digits that are no decimal digits (decimal).", "quantifier": "every dividend and divisor of any length, all eight number types, debug and release builds; the wrong results are witnesses", "why_tests_cant": "Numbers with leading zeros arise only from particular subtractions; tests divide normalised numbers, and debug and release builds are not compared.", "anchors": ["src/ubig.rs: div_assign_big, rem_assign_big", "src/ubig/div.rs: div_assign_digit_pair, div_big, div_big_with_work", "src/ubig/div/long.rs: div_big_long", "src/ubig/div/bz.rs: div_big_bz"]}
{"id": "C73", "title": "What shows of leading zeros", "statement": "Subtractions can leave leading zeros. On numbers with and without them, == holds exactly if digit counts (leading zeros counted) and values agree; the order is that of the digit counts, and of the values if the counts are equal, and it still fits ==. Hexadecimal text of binary and decimal text of decimal numbers has the right value, but a leading zero shows: the text starts with one zero, followed by all the places of the digits below. Reading the text back gives the same value without leading zeros. Conversion from binary to decimal and Display of binary numbers below 16 digits drop leading zeros: value right, no leading zero in the text.", "quantifier": "every digit vector with digits below the base, with any number of leading zeros; all eight number types, debug and release builds", "why_tests_cant": "Tests compare and print numbers made by UBig::new or from text, which have no leading zeros; those that have come from particular subtractions.", "anchors": ["src/ubig.rs: PartialEq derive, Ord, PartialOrd, LowerHex, UpperHex, Display, FromStr, to_decimal", "src/ubig/cmp.rs: cmp, lt"]}
{"id": "C74", "title": "Comparison operators and debug text", "statement": "On normalised numbers the operators <, <=, >, >= and != and partial_cmp are those of the integers, max and min return the larger and the smaller value, and clamp the nearest value in its range, panicking for an empty range. With leading zeros the operators compare lengths first and remain consistent with each other and with ==. The debug text, on one line or on several, lists the digits from the lowest, as minimal decimal numerals with the name of the digit type, and determines the digits and the kind of digit.", "quantifier": "all numbers of every digit type, of any length", "why_tests_cant": "All pairs of digit vectors of any length; the tests compare a few pairs and never use debug text, clamp, max or min.", "anchors": ["src/ubig.rs: PartialOrd::partial_cmp, Ord::cmp, derive(Debug, PartialEq)", "src/digit.rs: derive(Debug)"]}
{"id": "C75", "title": "Calculating with texts", "statement": "Reading two numerals (decimal, or hexadecimal with 0x), adding them and printing the sum (hexadecimal for binary types, decimal for decimal types) gives the one canonical text of the sum. Products are right too, or the multiplication panics, which needs two factors of at least 20 digits, one of more than 40. Differences have the right value, possibly with superfluous zeros, and negative ones panic. Quotients and remainders by a single digit are right, by zero panic. Canonical texts can be read again and are unique. Texts that are no numerals are refused, up to the exceptions of C25. Parsed numerals compare like the integers.", "quantifier": "all numerals of any length, all eight number types, debug and release builds", "why_tests_cant": "Unboundedly many texts; the chain of parsing, arithmetic and printing is never tested as a whole.", "anchors": ["src/ubig.rs: from_str, LowerHex::fmt, Display::fmt", "src/ubig/ops.rs: add, sub, mul, div, rem"]}
{"id": "C76", "title": "Expressions over texts", "statement": "An expression of +, -, *, /, %, powers and shifts whose leaves are numerals, in which only sums and terms without differences are subtracted, added, multiplied, divided or shifted, is evaluated and printed correctly, by a canonical text if it contains no difference; or it panics for the first reason from left to right: a negative difference, a division by zero, a product that jams, a recursive division that stops, a shift to the right by too much. Divisions are those that C18, C19 and C68 prove right, powers and decimal shifts square at most 1131 digits. There is no third outcome without divisions, powers and shifts to the left. The value does not depend on type and build. Subtracting a difference can panic wrongly.", "quantifier": "all expression trees and numerals of any size, all eight number types, debug and release builds", "why_tests_cant": "Unboundedly many expressions; wrong or premature panics depend on how intermediate results are represented.", "anchors": ["src/ubig.rs: from_str, LowerHex::fmt, Display::fmt", "src/ubig/ops.rs: add, sub, mul, div, rem"]}
{"id": "C77", "title": "Converting texts to decimal", "statement": "Reading a numeral (decimal, or hexadecimal with 0x) and displaying it gives the one decimal text of its value: always in decimal types, for values below 16 digits in binary types. Conversions through different types, once or twice, give the same text. From 16 digits on binary types may lose zeros; up to 5102 digits, if no inner division ties, the text is too small unless all lower parts fill their places, or the conversion panics, which needs more than 120 digits.", "quantifier": "all numerals, all eight number types, debug and release builds", "why_tests_cant": "Unboundedly many texts; the lost zeros show only for values with zeros in particular places.", "anchors": ["src/ubig.rs: from_str, Display::fmt, to_decimal"]}
{"id": "C78", "title": "Any expression over texts", "statement": "The digit count (leading zeros included) and the value of every part decide what becomes of an expression of +, -, *, /, %, powers and shifts over texts: the number and its text to the last superfluous zero, the refusal of a text, or the panic. Differences may stand anywhere. Expressions of sums, differences, products, right shifts, short left shifts and divisions by texts of single digits have exactly one outcome. A value that comes out is the integer the expression stands for, unless something is divided by a number with leading zeros; then quotient and remainder can be wrong. Comparisons of two results look at digit counts first, so they are right without leading zeros and can be wrong with them. Binary results of fewer than sixteen digits display as the decimal text of their value. Debug and release builds agree.", "quantifier": "all expression trees, texts of any length, all eight number types, both builds", "why_tests_cant": "Unboundedly many expressions; leading zeros left by a difference show only in later operations, as wrong panics or wrong quotients.", "anchors": ["src/ubig/ops.rs: add, sub, mul, div, rem, shl, shr", "src/ubig.rs: from_str, pow, LowerHex::fmt, Display::fmt", "src/ubig/sub.rs"]}
{"id": "C79", "title": "Sums and products in any order", "statement": "Expressions with the same terms, in any order and with any brackets, return the same digits, leading zeros included, or none of them returns. The sum has as many digits as its longest term, or as its value needs. Expressions with the same factors that return, return the same digits, and the right product; whether a product panics can depend on the order.", "quantifier": "all expressions over texts whose terms (factors) have one of the outcomes of C78, any number of terms, all eight number types, both builds", "why_tests_cant": "Unboundedly many terms and orders; carries and leading zeros differ along the way.", "anchors": ["src/ubig/ops.rs: add, mul", "src/ubig/add.rs", "src/ubig/mul.rs"]}
{"id": "C80", "title": "Expressions that mean the same", "statement": "Only differences, and binary left shifts by a digit or more, can leave leading zeros; products, quotients, powers and most shifts remove them. Expressions over texts in which this excludes leading zeros in the result and in all divisors return, when they return, a normalised number of the right value with the canonical text. Two of them that stand for the same integer return the same digits, and the same text in all binary or all decimal types; for instance a(b+d) and ab+ad, or (a+b)^2 and a^2+2ab+b^2, whatever the parts.", "quantifier": "all pairs of expressions over texts with outcomes described by C78, all eight number types, both builds", "why_tests_cant": "Identities hold for unboundedly many expressions and sizes.", "anchors": ["src/ubig/ops.rs: add, sub, mul, div, rem, shl, shr", "src/ubig.rs: pow, from_str, LowerHex::fmt, Display::fmt"]}
{"id": "C81", "title": "Messages of panics", "statement": "The message an operator stops with tells the cause: no two causes share a message (of those without line numbers or source text), and the messages of -, / and % name the operator. Subtraction of a normalised number stops exactly when it is larger, with \"Failed to subtract: Underflow\" (for a two-digit machine integer that is a multiple of the radix, subtracted from zero, with an index error instead); / and % stop for the normalised divisor zero with the message of their operator and \"Division by zero\", and for a one-digit divisor with a leading zero whose quotient is too long with \"Not enough space to store the result\"; products that stop print that an unwrap met Underflow; right shifts of decimal numbers beyond the bits of a digit print \"not implemented\".", "quantifier": "all operands (leading zeros excluded where the statement says normalised; squares up to 1131 digits), all eight number types, both builds", "why_tests_cant": "A test sees the message of one pair of operands; which operands lead to which message is a statement about all of them.", "anchors": ["src/result.rs: Error, Display::fmt", "src/ubig/ops.rs: sub_assign, div_assign, rem_assign, mul_assign, shr_assign"]}
{"id": "C82", "title": "Every panic of an expression has a part to blame", "statement": "When the evaluation of an expression over texts panics, some part of it panics on its own in the same way although the operands of that part are numbers, and the panic tells why: a difference whose second operand is larger or has more digits, a quotient or remainder by zero or by a single digit with a leading zero, a product, power, long decimal left shift or long division that runs into the failing multiplication, or a right shift beyond the limits. The message names the operator of that part. Expressions without differences, divisions and right shifts can only stop in products. A failed subtraction does not mean that a difference is negative: 5 - (10000 - 9998) stops in base 100. For every expression, of known outcome or not: if it returns a number all its parts do, and if the part evaluated first panics or is refused, the whole does the same.", "quantifier": "all expressions over texts with outcomes described by C78, all eight number types, both builds", "why_tests_cant": "Expressions nest without bound; the claim is about every way in which one can fail.", "anchors": ["src/ubig/ops.rs: sub_assign, mul_assign, div_assign, rem_assign, shl_assign, shr_assign", "src/ubig.rs: pow, from_str", "src/result.rs: Error"]}
