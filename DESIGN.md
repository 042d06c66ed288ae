# Design

Subject: the Rust crate `babs` (gvissers/babs), arbitrary-precision unsigned
integers `UBig<T>` over eight digit types: `BinaryDigit<u8|u16|u32|u64>` (base
2^8 .. 2^64) and `DecimalDigit<u8|u16|u32|u64>` (base 100, 10^4, 10^9, 10^19).

## Layout of the development (`rocq/theories`)

Model files (definitions only, each citing file and lines of the source):

| file | models |
|---|---|
| `Base.v`  | outcomes (`Ret`/`Panic`/`NoFuel`), Rust `Result`, slices |
| `Digit.v` | `src/digit.rs`: machine words, digit trait, 8 implementations |
| `Slice.v` | `src/ubig/{support,cmp,add,sub,rsub,shl,shr}.rs`, `div3_carry_assign` |
| `Mul.v`   | `src/ubig/mul.rs`, `mul/{long,karatsuba,toom3}.rs` |
| `Div.v`   | `src/ubig/div.rs`, `div/{long,bz}.rs` |
| `UBig.v`  | `src/ubig.rs` (arithmetic, conversion to decimal), `src/ubig/ops.rs` |
| `Text.v`  | `FromStr`, `LowerHex`, `UpperHex`, `Display` of `src/ubig.rs` |
| `Forms.v` | the by-value, by-reference and assigning forms of each operator, `src/ubig/ops.rs` |
| `Traits.v` | `num_traits` `Zero`/`One`/`Add`/`Mul` of a digit, `nr_digits`, `digits`, `Display` of `Error` |
| `Panics.v` | derived `Debug` and `PartialEq` of `Error`, the messages of panics |
| `Order.v` | `PartialOrd`/`Ord` of numbers with the methods the traits provide, derived `Debug` |
| `Bench.v` | `benches/fibo.rs`, `benches/divbase.rs` (the computations, not the timing) |
| `Hist.v`  | programs over registers: which operation runs on which registers (no source; a driver for C30/C31) |
| `Calc.v` | reading two numbers, an operator, printing (no source; a driver for C75 and C77) |
| `Expr.v` | evaluation of expressions over texts (no source; a driver for C76, C78-C80 and C82) |

Specification files (do not mention the code):

| file | says |
|---|---|
| `Spec.v` | value of a digit list, normal form, ranges of the eight types, numerals and padding |
| `SpecDiv.v` | Euclidean division; when a division ties or scales, in integers only |
| `SpecHist.v` | integer semantics of the programs of `Hist.v` |
| `SpecRoom.v` | which panics mean "a scratch or result buffer was too small" |
| `SpecFib.v` | Fibonacci numbers |
| `SpecFibStop.v` | for which indices one of the products of the Fibonacci program stops |
| `SpecParse.v` | which strings the parser takes, and their values: groups of digits, each with an optional plus |
| `SpecMul.v` | for which numbers, given as lengths and values, Karatsuba multiplication stops |
| `SpecToom.v` | the same for Toom-3, so for multiplication at every size; powers |
| `SpecDec.v` | how a long binary number is cut into pieces for conversion to decimal |

Proof files, from the bottom up:

| files | prove |
|---|---|
| `Hoare`, `ListLemmas`, `DigitOK` | the Hoare predicate; digit lists; the contract of a digit type, for all 8 types and both builds |
| `SliceProof`, `MulProof`, `WorkSize`, `BufProof`, `KaratsubaProof`, `ToomProof`, `ToomMain`, `MulTopProof` | add, subtract, shift, multiply and square on slices |
| `UBigProof`, `PowProof`, `TypedProof`, `TextProof` | the `UBig` level, powers, typed entry points, parsing and printing |
| `DivProof`, `DivWide`, `DivPairProof`, `DivLongProof`, `DivTopProof` | division: one digit, two digits, schoolbook |
| `DivSize`, `DivBzProof` | Burnikel-Ziegler division |
| `Gives`, `Ends`, `EndsLow`, `EndsTyped` | "if it returns, then"; "it returns or panics" (fuel suffices) for arbitrary digits |
| `Builds`, `FormsProof` | debug and release builds agree; operator forms agree |
| `DivTie`, `DivBzTie` | with a tie the quotient is never right (schoolbook; recursive) |
| `DivBzOpen` | exactly when the recursive division of decimals runs out of range |
| `DivScale` | a decimal divisor that does not scale is never divided correctly by itself |
| `DivDebug` | debug builds stop on a decimal divisor that does not scale |
| `Depth` | cutting a recursion off below its depth changes nothing |
| `SubExact`, `ParseExact`, `DigitText` | exact behaviour of the two defective cases of subtraction, of the parser, of reading a digit |
| `KaraExact`, `ClaimsKara` | exactly when Karatsuba multiplication and squaring stop |
| `WorkBound` | bounds on the scratch sizes |
| `BufSquare` | squares with a cleared output |
| `SpecCount` | a machine on digit counts and values: which steps go, what they leave |
| `CountProof`, `PowCount`, `CountRun` | the operators, powers of numbers with leading zeros, and whole programs follow that machine |
| `ErrProof` | whole outcome of the slice routines, errors included; the routines with output in terms of those in place |
| `DivPad`, `DivLift` | division of and by numbers with leading zeros; decimal divisors shifted past the base |
| `LeadZero` | equality, order and text of numbers with leading zeros |
| `ConvProof` | texts to decimal texts |
| `SpecExpr`, `ExprProof` | expressions over texts: value and first panic |
| `SpecTally`, `TallyProof` | the outcome of any expression from digit counts and values |
| `SpecSum`, `SumProof` | terms and factors in any order |
| `SpecTrim`, `TrimProof` | expressions without leading zeros, by their form |
| `PanicsProof` | messages of panics |
| `SpecBlame`, `BlameProof` | the part of an expression at fault for a panic |
| `SpecCalc`, `CalcProof` | texts of integers; calculating with texts |
| `SpecOrder`, `OrderProof` | what the debug text is; comparison operators and debug text |
| `DivBzJam`, `ClaimsBz` | which recursive divisions stop in a multiplication |
| `ToomLen`, `ToomExact`, `ToomJam`, `ToomSquare`, `ClaimsToom` | the same for Toom-3; the condition decided by computation |
| `SliceClaims`, `OffsetProof` | the contracts of the routines on slices; addition at an offset |
| `Sizes` | decimal places of binary numbers |
| `SpecWork`, `WorkExact` | the product seen by the caller; two runs with different buffer contents |
| `PowExact`, `TwoTypes` | exactly when powers and decimal left shifts stop, and when a product does in two types |
| `DecExact`, `DecJam` | when the conversion of a long binary number to decimal is right, and when it panics |
| `Laws`, `TextLaws` | laws relating several operations |
| `Keeps`, `KeepsDiv`, `HistProof` | digits stay below the base; programs compute integers |
| `Room`, `RoomMul`, `RoomDiv` | buffers are large enough |
| `FibProof`, `FibExact`, `BenchProof`, `TraitsProof` | the benchmark programs and the digit traits |
| `Cases`, `Claims*`, `Witness` | the statements of the properties; counterexamples |
| `Prop_*` | only the property theorems, an example beside each, and `Print Assumptions` |

Fidelity tests (no properties): `RepoTests.v` is the 74 integration tests of
`/repo/tests`, `UnitTests.v` the 96 unit tests inside `/repo/src` except those of
`ubig.rs`, and `UBigTests.v` the 14 of `ubig.rs`, translated by `tools/gen_tests.py`,
`tools/gen_unit_tests.py` and `tools/gen_ubig_tests.py` into examples about the model.
The translators stop at any statement they do not understand, so no test is skipped;
all 184 (every `#[test]` of the crate) hold of the model.

`seeded/` holds the wrong programs tried against the theorems: `mutants*.py` list
them, `mutate.py` builds each in a scratch copy, `log.py` writes `LOG.jsonl`.
`auto.py` tries random one-token edits. `tools/gen_manifest.py` writes `MANIFEST.json`;
`tools/check_cites.py` checks that every function of `/repo/src` is cited by the model.

## Modelling decisions

* A digit is the storage integer, as a `Z`.  A number is its digit vector, a
  `list Z`, least significant first.  Mutable slices are passed in and returned.
* Panics are a separate outcome `Panic w` with the cause `w`.  Rust `Result`
  values are ordinary values, so code that ignores an error (`let _ = ..`) while
  keeping the mutation made so far is modelled as such.
* Loops over slices are structural recursions.  The mutual recursions
  (multiplication, squaring, Burnikel-Ziegler, decimal conversion) run on fuel;
  exhaustion is the outcome `NoFuel`, which no theorem's conclusion accepts.
* `dbg : bool` selects the build profile: `true` has overflow checks, shift
  checks and `debug_assert!`; `false` wraps and skips.  Theorems hold for both
  unless stated.
* Machine integers wrap or panic at their width as in Rust.

Simplified or not modelled:

* `usize` lengths and counters are unbounded naturals (no overflow of a length
  or shift amount; a real vector never gets near 2^64 digits).  Subtraction on
  lengths is only used where the source guards it.
* Allocation never fails.  The state of a value after a panic unwinds through it
  is not modelled.
* The standard library is modelled, not verified: `from_str_radix`, `rchunks`,
  `strip_prefix`, `pad_integral`, integer formatting, iterator adaptors.
  The model of formatting takes widths in characters and fill as one character.
* `ten.pow(k)` in `from_str` is written `10 ^ k` checked against the width.
* Blocks that occur two or three times with the same text (Toom-3 evaluation and
  interpolation, Karatsuba recombination, the macro bodies of `digit.rs` for
  u8/u16/u32 and the equal u64 bodies) are one definition; the citations name
  every occurrence.
* Digits are assumed below the base on entry (the public field of `DecimalDigit`
  lets a caller break this; `UBig::new` does not check).  Storage values `n: T`
  range over the whole storage type.
* `Clone` and the `src/lib.rs` aliases are not modelled.
* Messages of panics (`Panics.v`): those of `unwrap` and `unimplemented!` are written down from the
  standard library; the ones with line numbers, indices or source text are left out. Which of the
  three "Failed to ..." texts is printed follows from the operator, not from the place in the model.
  Every other function of `src` has a definition in the model.  Of `benches`, the
  timing loops and the random inputs are not.  The instruction `div` of the inline
  assembly variant (`divq`) is modelled: quotient, remainder, trap when the quotient
  does not fit.

## Trusted base

The Coq 8.16.1 kernel (and `vm_compute`), the fidelity of the model files to the
source, the model of the standard library named above.  `Print Assumptions` under
every property theorem reports "Closed under the global context" (no axioms).

## Proof method

`spec P e Q` is a Hoare predicate on outcomes: if `e` returns, `Q` holds of the
value; if it panics, `P` holds of the cause; `NoFuel` is never allowed.
`DigitOK B D` collects the contracts of the digit operations for base `B`; it is
proved once for each of the 8 types and both build profiles, and all list level
proofs are generic over it.  Final theorems quantify over `dbg` and the type.

## Properties

Statements are in `properties.jsonl`.

| id | how modelled and proved |
|---|---|
| C01 | `ubig_new`; value kept, result normal. |
| C02 | `ubig_eqb` on normal lists is integer equality (uniqueness of normal digit lists). |
| C03 | `ubig_cmp` on normal lists equals `Z.compare` of the values. |
| C04 | `from_T`. |
| C05 | `add_assign`, total, both profiles. |
| C06 | `add_assign_T`, all storage values. |
| C07 | follows from C05 and C02. |
| C08 | `sub_assign`: value and exact panic condition. |
| C09 | false: a borrow into the top digit leaves a zero; refuted, with the exact condition. |
| C10 | false (`5 - 5`, and the decimal two-digit case drops a digit); refuted, value theorem for what holds, exact result of the two-digit case. |
| C11 | `mul_assign_T`, including `mul_pair_add_assign_digit`. |
| C12 | `mul_assign` when one operand is below the Karatsuba cutoff: total. |
| C13 | `mul_assign`, all sizes: returns implies exact (Karatsuba and Toom-3 proved). |
| C14 | false: Karatsuba underflow `unwrap` panic at 41 digits; refuted, total up to 40 digits, exact panic condition (`SpecMul.v`) when a factor has fewer than 128 digits, and at every size in C66. |
| C15 | false: Toom-3 squaring reads dirty buffers, wrong at 1132 digits; proved up to 1131 digits (so the limit is exact), where no Toom-3 level reuses a dirty buffer; with the exact panic condition, that of C66, and the outcome of `x * x`. |
| C16 | `pow` by induction on the binary exponent, under the limit of C15; false beyond (the square of C15 is a power). A power for which nothing longer than 1131 digits is squared stops exactly when one of its multiplications does (C66). |
| C17 | `div_assign_T`, `rem_assign_T`: single digit exact; decimal two-digit divisor goes through the pair division (see C19): right for every dividend exactly when the divisor scales [Prop_DivScale]. |
| C18 | false: the quotient estimate wraps when a partial remainder starts with the leading digit of the divisor (a tie). Refuted; proved without ties, and exactly then up to 80 digits of divisor; beyond that a multiplication panic is the only other outcome. |
| C19 | false: a divisor that gains a digit when scaled loses it. Refuted; proved for divisors that scale (from 20 digits on with the exact condition of an index panic). Below 20 digits a divisor that does not scale is never divided correctly by itself [Prop_DivScale]. |
| C20 | error iff zero divisor; "unchanged" false for `div_assign_big`. |
| C21 | binary false for 0 (`0 << 8` is not normalised); value exact; decimal shifts can stop when multiplying by 2^n (refuted), characterised like C16. |
| C22 | false: panics when shifting by more digits than present, unimplemented for decimals; guarded theorem. |
| C23, C24 | `from_str` on digit strings against an independent numeral value. |
| C25 | false (`"12+3"`, `""`); refuted; never panics proved; accepted strings characterised (`SpecParse.v`). |
| C26, C27 | formatting equals the minimal numeral; round trip through the parser. |
| C28 | `pad_integral` shape and length. |
| C29 | exact below 16 digits; false from 16 digits (missing zero padding); exact condition of the panic and of a right result when no inner division meets a tie (`SpecDec.v`, `SpecBz.v`). |
| C30 | `keeps`: every digit written is below the base, by a syntactic induction over the code; all programs of `Hist.v`. |
| C31 | program semantics over registers (`SpecHist.v`), induction over the program. |
| C32 | corollaries across two types. |
| C33 | `Forms.v`: equality of outcomes of the forms, including panics. |
| C34 | from C13, C05 and C02; commutativity of the whole outcome in C67. |
| C35 | `div_rem_base`; above the range, a quotient rounded up and a remainder that is not negative fix both. |
| C36 | `DigitOK` for the 8 types. |
| C37 | `same`: the two builds agree on outcomes, function by function, for arbitrary digits. |
| C38 | `room`: buffer panics excluded, for all lengths and arbitrary digits; includes the `debug_assert!`s on scratch sizes (`debug_work`, its own panic cause). |
| C39 | multiplication: outcome (product or panic) independent of buffer contents, by running two calls in lockstep (`WorkExact.v`); squaring: below 128 digits, refuted beyond. |
| C40 | `ends`: `NoFuel` excluded for every fuelled function, for arbitrary digits. |
| C41 | `fibonacci`: induction on the doubling recursion with the Fibonacci identities; the exact outcome from the one of each product (`FibExact.v`), none of which stops while its factors have at most forty digits. |
| C42 | `mul_inv_base` etc.: error bound of the approximate inverse, in integers; all 128-bit numbers for long division and the operator, and in debug builds. |
| C43 | false: decimal digits may exceed the base, release builds wrap; exact when it fits; the outcome for every pair of storage values. |
| C44 | `DivTie.v`: with a tie the estimate is below the true quotient digit and never repaired. |
| C45 | first law false because of C09; value and exact condition; the others proved. |
| C46 | from C13 and C18/C19 with uniqueness of normal forms. |
| C47 | from the values, by bounds on powers of the base. |
| C48 | from C21/C22 and uniqueness. |
| C49 | from C16 and C13. |
| C50 | minimal numerals are determined by their value (`minimal_unique`); C23-C29. |
| C51 | from C03 and the values. |
| C52 | `DivBzTie.v`: a tie in a base case loses at least B - 3 from the quotient, each level above recovers at most two. |
| C53 | `DivBzOpen.v`: the first estimate is written outside the quotient exactly when the leading digits agree. |
| C54 | `DivDebug.v`: without the dropped carry the leading digit of the scaled divisor is less than half the base. |
| C55 | each level at least halves the lengths (`Ends.v`); more fuel does not change an outcome (`Depth.v`). |
| C56-C57, C60-C62 | the lemmas on slices (`SliceProof.v`, `MulProof.v`, `DivProof.v`) for the eight types (`SliceClaims.v`). |
| C58 | false; `left_over` of `SpecMul.v` is the exact count. |
| C59 | false; the operand with more digits is taken to be the larger (`precedes`), exact outcome from C57. |
| C63 | the addition also with its digit count; the subtraction is false for nonzero offsets; exact outcome from C57 and C58. |
| C64 | computed for the eight types. |
| C65 | false; 643/267 and 33961/14102 are neighbouring fractions around log10 256 (`Sizes.v`). |
| C66 | Toom-3 proved again with lengths: which differences have leading zeros, and which are then taken the wrong way (`ToomLen.v` to `ToomJam.v`); decision procedure proved sound and complete. |
| C67 | C66, whose condition is symmetric and does not mention the build. |
| C68 | the proof of the recursive division repeated with the exact outcome of each product (`DivBzJam.v`); the condition decided by computation (`ClaimsBz.v`). |
| C69 | induction along the recursions of the sizes. |
| C70 | the digit count of every operator as a function of counts and values (`SpecCount`); induction over the program. |
| C71 | equations between the routines with output and those in place, for any digit operations; values modulo the width. |
| C72 | case split on digit counts; the lemmas on long division never use that the dividend is normalised once it does not precede the divisor; shift by the whole digit width overflows in debug builds (in D64, computing that shift does). The other decimal types shift by 2^s above the base: contracts of the digit shifts redone for that s, long division with the digit below the zero as leading digit. |
| C73 | equality of digit vectors is equality of count and value; text of `x ++ [d]` is the text of `d` and fixed-width texts of the rest; parsing as in C23, C24; the loop of `to_decimal` never uses that the top digit is nonzero. |
| C74 | `Order.v`: the provided methods of the comparison traits on top of `ubig_cmp`, and the derived `Debug`; the text is cut at each closing parenthesis, which no numeral contains. |
| C75 | `calculate` reads, computes and prints; composition of C23-C27, C05, C08, C13, C14, C18, C19, C73. |
| C76 | two relations `means` and `stops` on expressions, `compute` follows them; by induction over C05, C08, C16, C18, C19, C21, C22, C66, C68. |
| C77 | `convert` reads and displays; composition of C23, C24, C27, C29. |
| C78 | As C76, without its restriction on differences: every part of an expression is described by digit count and value (the cells of C70). Divisions by numbers with leading zeros are the only source of wrong values. |
| C79 | The cell of a sum depends only on the cells of its terms; permutation of lists of terms and factors. Products may panic in one order and not in another. |
| C80 | The operations that make, hand on or remove leading zeros are read off the cells of C78; equal values without leading zeros are equal digits. |
| C81 | The exact outcomes of C08, C20, C66, C72 and C22 with the texts of `Panics.v`; the cause is found back from the text by search in the finite list of messages. |
| C82 | Induction over the expression with the outcomes of C78; the negation of each condition for returning is turned into a reason. |

## Defects of the code found on the way

Each is a theorem or example with a concrete witness (file in brackets).

1. `x - 5` for `x = 5` leaves a zero digit, as does a big subtraction whose borrow empties the top digit [Prop_Sub, Prop_DigitArg].
2. Decimal `x -= n` with `n` of two digits drops a digit, or panics [Prop_DigitArg].
3. `0 << 9` is not normalised; `1 >> 17` panics; decimal `>>` of large amounts is unimplemented [Prop_Shift].
4. Karatsuba multiplication panics on some 41-digit numbers [Prop_Mul], Toom-3 on others: (B^43 - 1 + B^127)^2 for B = 256 [Prop_Toom].
5. Squaring 1132 digits can give a wrong square [Prop_SquareBig].
6. Binary division is wrong or panics on ties (2^311 divided by 129 * 2^152 - 1 gives 0 [Prop_DivBigExact]); decimal division is wrong when the divisor does not scale, and can return digits above the base [Prop_Div, Prop_DivBig].
7. `div_assign_big` by zero overwrites the dividend [Prop_Div].
8. `to_decimal` of 16 or more digits omits inner zeros [Prop_Text].
9. `"12+3"`, `""` and `"0x"` parse [Prop_Text].
10. `+` on decimal digits gives a value at or above the base [Prop_Bench].
11. A decimal left shift can panic [Prop_PowExact].
12. The digit counts of slice subtraction include leading zeros; signed differences panic on leading zeros and read digits above the given length; subtraction at an offset drops digits; adding zero beyond the end leaves leading zeros [Prop_Slice].
13. `nr_decimal_places` is one short for every length [Prop_Sizes].
14. Powers of numbers with leading zeros panic: (256^40 - (256^40 - 1))^3 [Prop_Count].
15. Division by a number with leading zeros: 7 / (65536 - 65534) is 0; others panic, and release builds return wrong numbers [Prop_DivPad].
