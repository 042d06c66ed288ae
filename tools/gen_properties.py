#!/usr/bin/env python3
"""Writes ../properties.jsonl.  Keeping the texts here makes them easy to edit."""
import json, os
P = []
def p(title, statement, quantifier, why, anchors):
    P.append(dict(id="C%02d" % (len(P)+1), title=title, statement=statement,
                  quantifier=quantifier, why_tests_cant=why, anchors=anchors))

ALLT = "all eight number types (UBigBin8..64, UBigDec8..64), debug and release builds"

p("Construction from digits keeps the value and normalises",
  "UBig::new(v) denotes the same number as the little-endian digit vector v in the base of the digit type, and its digits() never ends in a zero digit; zero is represented by the empty vector.",
  "every digit vector of any length with digits below the base, " + ALLT,
  "Tests fix a handful of short vectors; the claim is about vectors of every length with any run of leading zeros.",
  ["src/ubig.rs: UBig::new, drop_leading_zeros", "src/ubig/support.rs: drop_leading_zeros"])
p("Equality of normalised numbers is equality of numbers",
  "For two normalised numbers of the same type, x == y holds exactly when they denote the same integer; in particular is_zero() holds exactly for the integer 0.",
  "every pair of normalised numbers, " + ALLT,
  "Derived equality compares vectors; that this is numeric equality depends on uniqueness of base-b expansions, which no finite sample shows.",
  ["src/ubig.rs: UBig (derived Eq), Zero::is_zero"])
p("Comparison is the numeric order",
  "x.cmp(&y), x < y etc. agree with the order of the integers denoted, for normalised x and y; the order is total and antisymmetric with respect to ==.",
  "every pair of normalised numbers, " + ALLT,
  "There are unboundedly many length/digit combinations; tests compare a few.",
  ["src/ubig/cmp.rs: cmp, lt", "src/ubig.rs: PartialOrd, Ord"])
p("Conversion from a machine integer is exact",
  "UBig::from(n) denotes n and is normalised for every value n of the storage type, including decimal values that need two digits.",
  "every value of u8/u16/u32/u64, " + ALLT,
  "2^64 inputs per type; tests try a few.",
  ["src/ubig.rs: From<T> for UBig<BinaryDigit<T>>, From<T> for UBig<DecimalDigit<T>>", "src/digit.rs: DecimalDigit::split, fits_single"])
p("Addition of big numbers is exact",
  "x + &y (and +=) never panics, denotes the sum of the integers denoted, and is normalised if x and y are.",
  "every pair of numbers of any lengths, " + ALLT,
  "Carry propagation across an arbitrary number of digits and unequal lengths cannot be enumerated.",
  ["src/ubig/ops.rs: AddAssign<&UBig<T>>", "src/ubig.rs: add_assign_big_at_offset", "src/ubig/add.rs: add_assign_big, inc_assign"])
p("Addition of a machine integer is exact",
  "x += n for a storage value n never panics, denotes value(x)+n and is normalised if x is, also when n does not fit one decimal digit.",
  "every number and every storage value, " + ALLT,
  "Long carry chains and the two-digit decimal path combine into unboundedly many cases.",
  ["src/ubig/ops.rs: AddAssign<T>", "src/ubig/add.rs: add_assign_digit"])
p("Addition laws hold for ==",
  "x+y == y+x, (x+y)+z == x+(y+z), x+0 == x, compared with the crate's own ==, for normalised numbers.",
  "every triple of normalised numbers, " + ALLT,
  "Algebraic laws quantify over all triples.",
  ["src/ubig/ops.rs: Add", "src/ubig.rs: derived Eq, Zero::zero"])
p("Subtraction of big numbers: value and underflow",
  "For normalised x and y, x - &y panics exactly when x < y; otherwise the result denotes value(x)-value(y).",
  "every pair of normalised numbers, " + ALLT,
  "Borrow chains of every length; the panic condition is an equivalence over all pairs.",
  ["src/ubig/ops.rs: SubAssign<&UBig<T>>", "src/ubig/sub.rs: sub_assign_big, dec_assign", "src/ubig.rs: sub_assign_big_at_offset"])
p("Subtraction of big numbers returns a normalised number",
  "For normalised x >= y the difference x - &y is normalised, so that later comparisons and == are numeric.",
  "every pair of normalised numbers with x >= y, " + ALLT,
  "Depends on the length of the borrow chain and the digits above it; failing pairs are a vanishing fraction of random pairs.",
  ["src/ubig/sub.rs: sub_assign_big (carry branch)", "src/ubig/ops.rs: SubAssign<&UBig<T>>"])
p("Subtraction of a machine integer: value, underflow, normal form",
  "x -= n panics exactly when value(x) < n, otherwise denotes value(x)-n and is normalised.",
  "every normalised number and storage value, " + ALLT,
  "All pairs (x, n) including those where the difference is zero or the borrow runs through the number.",
  ["src/ubig/ops.rs: SubAssign<T> for UBig<T>, UBig<BinaryDigit<T>>, UBig<DecimalDigit<T>>", "src/ubig/sub.rs: sub_assign_digit, dec_assign"])
p("Multiplication by a machine integer is exact",
  "x *= n never panics, denotes value(x)*n and is normalised if x is, including decimal factors that need two digits.",
  "every number and storage value, " + ALLT,
  "The two-digit decimal kernel juggles two carries and a deferred increment; correctness for all digit combinations is not testable.",
  ["src/ubig/ops.rs: MulAssign<T>", "src/ubig.rs: mul_add_assign_digit, mul_pair_add_assign_digit", "src/ubig/mul.rs: mul_add_assign_digit, mul_pair_add_assign_digit"])
p("Multiplication of big numbers, schoolbook range",
  "x * &y is total and exact, with normalised result, whenever one operand has fewer than 20 digits.",
  "all normalised x, y with min length < 20, " + ALLT,
  "Unbounded operand lengths and all digit values.",
  ["src/ubig/mul.rs: mul_big_into", "src/ubig/mul/long.rs: mul_big_long_into", "src/ubig.rs: mul_big"])
p("Multiplication of big numbers never returns a wrong product",
  "Whenever x * &y returns, the result denotes value(x)*value(y) and is normalised, for operands of every size (schoolbook, Karatsuba and Toom-3 ranges).",
  "every pair of numbers of any lengths, " + ALLT,
  "Karatsuba/Toom-3 recursion depth and the sign case analysis grow with the size; each level has many carry/sign branches.",
  ["src/ubig/mul.rs: mul_big_into, mul_big_into_with_work", "src/ubig/mul/karatsuba.rs: mul_big_karatsuba_into", "src/ubig/mul/toom3.rs: mul_big_toom3_into"])
p("Multiplication of big numbers never panics",
  "x * &y returns for every pair of normalised numbers, whatever their lengths and digits.",
  "every pair of normalised numbers, " + ALLT,
  "Panics come from unwrap/assert/index deep in the recursion and need special digit patterns that random tests miss.",
  ["src/ubig/mul/karatsuba.rs: mul_big_karatsuba_into", "src/ubig/mul/toom3.rs: mul_big_toom3_into", "src/ubig/sub.rs: sub_big_into_abs_sign, sub_assign_big_abs_sign"])
p("Squaring is exact",
  "Whenever x.square() returns, it denotes value(x)^2, is normalised, and equals &x * &x.",
  "every normalised number of any length, " + ALLT,
  "The squaring routines reuse buffers without clearing them; only large structured inputs reach the stale data.",
  ["src/ubig.rs: square", "src/ubig/mul.rs: square_into", "src/ubig/mul/long.rs: square_long_into", "src/ubig/mul/karatsuba.rs: square_karatsuba_into", "src/ubig/mul/toom3.rs: square_toom3_into"])
p("Exponentiation is exact",
  "Whenever x.pow(e) returns it denotes value(x)^e (with 0^0 = 1) and is normalised.",
  "every normalised number and every exponent, " + ALLT,
  "Exponents are unbounded; square-and-multiply invariants need induction.",
  ["src/ubig/ops.rs: Pow<usize>"])
p("Division and remainder by a machine integer",
  "x / n and x % n for a storage value n panic exactly when n = 0, otherwise give floor quotient and remainder: x = q*n + r, 0 <= r < n, both normalised.",
  "every number and storage value, " + ALLT,
  "All dividends of any length; decimal divisors that need two digits take a separate estimation path.",
  ["src/ubig/ops.rs: DivAssign<T>, RemAssign<T>, Rem<T>", "src/ubig/div.rs: div_assign_digit, rem_digit, div_assign_digit_pair"])
p("Division and remainder of big numbers (binary types)",
  "For normalised x and y != 0 of a binary type, x.div_assign_big(&y) leaves the quotient and returns the remainder with x = q*y + r, 0 <= r < y, both normalised.",
  "every pair of normalised binary numbers with y != 0, debug and release builds",
  "Quotient-digit estimation errs only for rare digit coincidences (probability about 1/base per step).",
  ["src/ubig.rs: div_assign_big, rem_assign_big", "src/ubig/div.rs: div_big, div_big_with_work, div_assign_digit_pair", "src/ubig/div/long.rs", "src/ubig/div/bz.rs", "src/digit.rs: div_carry_assign"])
p("Division and remainder of big numbers (decimal types)",
  "The same Euclidean equation for the decimal types.",
  "every pair of normalised decimal numbers with y != 0, debug and release builds",
  "The normalisation shift interacts with the non-power-of-two base for some leading digits only.",
  ["src/ubig/div/long.rs: div_big_long", "src/ubig/div.rs: div_assign_digit_pair", "src/ubig/div/bz.rs: div_big_bz", "src/digit.rs: DecimalDigit::max_shift"])
p("Division by zero is reported and harmless",
  "div_assign_big and rem_assign_big return DivisionByZero exactly when the divisor is zero, the operators panic exactly then for a zero divisor, and on error the dividend is unchanged.",
  "every dividend, " + ALLT,
  "The state left behind on the error path is not observed by any test and must hold for all dividends.",
  ["src/ubig.rs: div_assign_big, rem_assign_big", "src/ubig/ops.rs: DivAssign<&UBig<T>>, RemAssign<&UBig<T>>"])
p("Left shift multiplies by a power of two",
  "x << n denotes value(x)*2^n for every n and is normalised; for binary types it never panics.",
  "every normalised number and every shift amount, " + ALLT,
  "Shift amounts are unbounded and include the zero number and digit-aligned shifts.",
  ["src/ubig/ops.rs: ShlAssign<usize>", "src/ubig/shl.rs: shl_carry_assign_within_digit"])
p("Right shift divides by a power of two",
  "x >> n denotes floor(value(x)/2^n) for every n, is normalised and never panics.",
  "every normalised number and every shift amount, " + ALLT,
  "Shift amounts beyond the number's length are rarely tested.",
  ["src/ubig/ops.rs: ShrAssign<usize>", "src/ubig/shr.rs: shr_carry_assign_within_digit"])
p("Parsing a decimal numeral is exact",
  "from_str(s) for a non-empty string s of ASCII decimal digits returns the number that s denotes, normalised, whatever the length and leading zeros.",
  "every non-empty string of digits 0-9, " + ALLT,
  "String length is unbounded; chunk boundaries fall anywhere.",
  ["src/ubig.rs: FromStr for UBig<BinaryDigit<T>>, FromStr for UBig<DecimalDigit<T>>", "src/digit.rs: from_decimal_str"])
p("Parsing a hexadecimal numeral is exact",
  "from_str(\"0x\"+s) for a non-empty string s of hexadecimal digits (either case) returns the number that s denotes, normalised.",
  "every non-empty string of hex digits, " + ALLT,
  "As for decimal numerals; decimal types additionally convert the base chunk by chunk.",
  ["src/ubig.rs: FromStr", "src/digit.rs: from_hexadecimal_str"])
p("Parsing rejects everything that is not a numeral",
  "from_str(s) returns InvalidNumber for every string that is not a digit string or 0x-prefixed hex digit string, and never panics.",
  "every string, " + ALLT,
  "The set of malformed strings is infinite; acceptance of embedded signs depends on chunk boundaries.",
  ["src/ubig.rs: FromStr", "src/digit.rs: from_base_str"])
p("Hexadecimal formatting of binary numbers is exact and round-trips",
  "{:x}, {:X} and {:#x} print the minimal hexadecimal numeral of the number; parsing {:#x} output gives back an equal number.",
  "every normalised binary number, UBigBin8..64",
  "Zero padding of inner digits matters for every digit value and position.",
  ["src/ubig.rs: LowerHex, UpperHex, FromStr"])
p("Decimal formatting of decimal numbers is exact and round-trips",
  "Display of a decimal-type number prints its minimal decimal numeral; parsing it gives back an equal number.",
  "every normalised decimal number, UBigDec8..64",
  "Zero padding of inner digits matters for every digit value and position.",
  ["src/ubig.rs: Display for UBig<DecimalDigit<T>>, FromStr"])
p("Width and padding flags",
  "Formatting with a width pads the numeral (with fill and alignment, or with zeros after the prefix) to exactly the requested width and never truncates; flags + and # only add sign and prefix.",
  "every number, every width, fill, alignment and flag combination",
  "Flag combinations times all numbers.",
  ["src/ubig.rs: LowerHex, UpperHex, Display (pad_integral)"])
p("Conversion from binary to decimal is exact",
  "x.to_decimal() denotes the same integer as x and is normalised, so Display of a binary number prints its decimal numeral.",
  "every normalised binary number of any length, UBigBin8..64, debug and release builds",
  "The divide-and-conquer path starts at 16 digits and errs only when a low half has leading zeros.",
  ["src/ubig.rs: to_decimal, build_decimal, Display for UBig<BinaryDigit<T>>"])
p("Digits stay below the base",
  "No sequence of operations on a number whose digits are below the base produces a number with a digit at or above the base.",
  "all operations (+, -, *, square, pow, shifts, digit division) and all operands, " + ALLT,
  "An inductive invariant over unbounded histories.",
  ["src/digit.rs: impl Digit for BinaryDigit/DecimalDigit", "src/ubig/ops.rs"])
p("Arithmetic histories track the integers",
  "Run any program of +=, -=, *=, square, pow, << steps on registers of numbers: if it does not panic, every register holds exactly the integer computed by the same program over the integers.",
  "every program of any length and every initial state, " + ALLT,
  "Errors could compound through non-normalised intermediate values; only an invariant over all histories settles it.",
  ["src/ubig/ops.rs: all operators"])
p("The choice of digit type is unobservable",
  "Adding, multiplying or parsing the same integers in two different number types yields numbers denoting the same integer.",
  "every pair of the eight number types and all operands",
  "Eight different kernels (including the hand-written u64 ones) must agree on all inputs.",
  ["src/digit.rs: impl Digit (8 instances)", "src/lib.rs: type aliases"])
p("Operator forms agree",
  "By-value, by-reference and assigning forms of each operator give identical results (or all panic).",
  "every operand pair, " + ALLT,
  "Each form is a separate impl; the remainder forms follow different code paths.",
  ["src/ubig/ops.rs: Add, Sub, Mul, Div, Rem, Shl, Shr, Pow impls"])
p("Multiplication laws hold for ==",
  "When the products involved return: x*y == y*x, (x*y)*z == x*(y*z), x*(y+z) == x*y + x*z, x*1 == x, x*0 == 0, compared with the crate's own ==.",
  "every triple of normalised numbers, " + ALLT,
  "x*y and y*x take different splits in Karatsuba/Toom-3.",
  ["src/ubig/ops.rs: Mul", "src/ubig/mul.rs", "src/ubig.rs: derived Eq"])
p("Division of 128-bit intermediates by 10^19 is exact",
  "For the 64-bit decimal type every digit product/shift is split exactly into quotient and remainder by 10^19 by the multiply-and-shift reciprocal, without overflow.",
  "every 128-bit intermediate below 10^38 (and the slightly larger ones reached in division)",
  "10^38 inputs; the reciprocal's rounding error must be bounded for all of them.",
  ["src/digit.rs: DecimalDigit<u64>::div_rem_base, mul_carry_assign, shl_carry_assign, add_prod_carry_assign"])
p("Digit kernels compute exact carries",
  "Each digit operation (increment, decrement, add/subtract with carry, shifts, doubling, multiply-add, division by a digit or by 3) returns a digit below the base and the exact carry, with no overflow panic in debug builds.",
  "all digit values and admissible carries, all eight digit types, debug and release builds",
  "2^128 or more operand combinations for the 64-bit types.",
  ["src/digit.rs: Digit trait, impl_digit_binary, impl_digit_decimal, BinaryDigit<u64>, DecimalDigit<u64>"])
p("Debug and release builds agree",
  "If an operation returns in a debug build (overflow checks and debug assertions on), it returns the same result in a release build.",
  "all operations of the crate and all operands, all eight number types",
  "Overflow behaviour differs only on inputs that overflow, which tests in one profile never see.",
  ["src/digit.rs", "src/ubig/mul/karatsuba.rs: debug_assert", "src/ubig/div/bz.rs: debug_assert", "src/ubig/div/long.rs: debug_assert"])
p("Scratch space is always sufficient",
  "The scratch buffers sized by the library are never too small: no 'Insufficient work space' or 'Not enough space' panic occurs in multiplication, squaring or division.",
  "every pair of operand lengths",
  "Work-size recurrences versus recursion sizes must be compared for every length.",
  ["src/ubig/mul.rs: calc_mul_work_size", "src/ubig/mul/karatsuba.rs: calc_karatsuba_work_size", "src/ubig/mul/toom3.rs: calc_toom3_work_size", "src/ubig/div/bz.rs: calc_div_bz_work_size"])
p("Results do not depend on scratch contents",
  "The product computed by the library does not depend on what was previously stored in its scratch or result buffers.",
  "every buffer contents and all operands",
  "Stale data is only reached at recursion depth three with special operands.",
  ["src/ubig/mul.rs: mul_big_into_with_work, square_into_with_work", "src/ubig/mul/toom3.rs"])
p("Termination",
  "Every operation terminates: the recursion of multiplication, squaring, division and decimal conversion always reaches its base case.",
  "all operand lengths, " + ALLT,
  "Non-termination cannot be observed by a finite test.",
  ["src/ubig/mul.rs", "src/ubig/mul/karatsuba.rs", "src/ubig/mul/toom3.rs", "src/ubig/div/bz.rs", "src/ubig.rs: build_decimal"])

here = os.path.dirname(os.path.abspath(__file__))
with open(os.path.join(here, "..", "properties.jsonl"), "w") as f:
    for q in P:
        f.write(json.dumps(q, ensure_ascii=False) + "\n")
print(len(P))
