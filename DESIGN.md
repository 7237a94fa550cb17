# Formal model of jk-jeon/Grisu-Exact in Coq 8.16.1

## Layout (`rocq/theories`)

| Files | Contents |
|---|---|
| `Machine.v`, `Tables.v`, `Model.v`, `CharsModel.v` | the model: outcomes and machine integers, the tables of the source, `grisu_exact.h`, `fp_to_chars` |
| `Constants.v` | why the compile-time constants of the model are plain values: no assertion fails and nothing overflows in their computation, the `static_assert`s hold, the caches have the right lengths |
| `Spec.v`, `TextSpec.v` | the specification: real numbers, formats, decimals, texts |
| `Arith.v` … `Ones.v` | the algorithm on integers |
| `Link.v`, `Reading.v`, `Bridge.v`, `ReadsBack.v`, `Shortest.v`, `Main.v`, `Results.v`, `Inward.v`, `Long.v` | from integers to the specification |
| `Congruence.v`, `Builds.v`, `Logs.v`, `Signs.v`, `CacheFacts.v`, `Chars.v`, `Texts.v`, `Outputs.v`, `Unique.v`, `Claims.v` | the other properties |
| `UserSpec.v`, `IeeeSpec.v`, `Users.v`, `Nearby.v`, `Ieee.v` | vocabulary and proofs of C31-C38 |
| `FormatSpec.v`; `Formats.v` | half way between two numbers of a format; proofs of C63-C65 |
| `StopSpec.v`; `LeftExact.v`, `InwardExact.v`, `Masked.v` | where the search of the toward-zero modes ends early; proofs of C10_exact and C37_masked |
| `BigintModel.v`, `GenModel.v` | the model of `tests/bigint.h` and `tests/generate_cache.cpp` |
| `BigSpec.v`; `BigFacts.v`, `Bigint.v`, `BigintOps.v`, `BigintMul.v`, `BigClaims.v`, `BigExact.v`; `GenBits.v`, `GenLoop.v`, `GenTables.v` | what a bigint stands for; proofs of C39-C46 |
| `DivModel.v`, `EuclidModel.v` | the model of `long_division` and of `minmax_euclid` |
| `DivSpec.v`, `EuclidSpec.v`; `Division.v`, `DivCross.v`, `EuclidNum.v`, `Euclid.v`, `DivClaims.v`, `DivCrossClaims.v` | the divisions that lose their place, extreme residues; proofs of C50, C51 |
| `LengthModel.v`, `LengthTables.v` | the model of the rest of `tests/verify_cache_length.cpp`, and the rows recorded in `test_results` |
| `LengthSpec.v`, `LengthShort.v`; `LengthCerts.v`, `LengthNum.v`, `LengthCheck.v`, `Lengths.v`, `LengthClaims.v`, `LengthExact.v` | when a number of bits is enough, and which rows lack bits; proofs of C52-C54 |
| `FileModel.v`, `FileTexts.v`; `FileSpec.v`; `FileClaims.v` | the texts that `generate_cache` and `verify_cache_length` write, the files of `test_results`; readers for both; proofs of C61 |
| `BenchModel.v`; `BenchSpec.v`, `BenchTimesSpec.v`; `BenchClaims.v`, `BenchTimes.v` | the model of the benchmark; what its files say; proofs of C62 |
| `LiveModel.v`; `LiveSpec.v`; `LiveFacts.v` | the model of the dialogue of `tests/live_test.cpp`; what it should say; proofs of C66, C67 |
| `ScreenModel.v`; `ScreenSpec.v`; `ScreenFacts.v` | the model of what all test programs print on the screen and of `tests/main.cpp`; the reports of success; proofs of C68 |
| `FormSpec.v`, `Forms.v` | the form of the printed texts, and proofs of C69 |
| `RoundSpec.v`; `ShortText.v`, `RoundedDigits.v`, `PowerTables.v`, `Powers.v` | vocabulary and proofs for C71-C73 |
| `CppSpec.v`; `CppText.v`, `PlainText.v` | what the C++ standard requires of `std::to_chars`; proofs for C79, C81 |
| `SpecialInputs.v` | proofs for C80 |
| `NarrowTables.v`, `NarrowSpec.v`, `JsonSpec.v`; `NarrowRows.v`, `Narrow.v`, `NarrowClaims.v`, `Json.v` | Farey pairs, vocabulary and proofs for C74-C76 |
| `WriterSpec.v`; `Writer.v` | vocabulary and proofs for C77 |
| `MachineArith.v`; `FastPath.v` | IEEE-754 conversion, product and quotient on bit patterns; proofs for C78 |
| `Tight.v`, `Overrun.v`, `TightClaims.v` | the bounds of C15 and C25 are reached; buffers that are too small |
| `SmallTables.v`, `SmallModel.v`; `SmallFacts.v` | the compact tables of `benchmark/ryu/d2s.h` and its two functions; proofs of C70 |
| `CheckModel.v`, `RandomModel.v` | the model of the four other `tests/verify_*.cpp`, of `decompose_float` and of `tests/random_float.h` |
| `ProgramSpec.v`, `RandomSpec.v`; `LiveClaims.v`, `RandomClaims.v`, `RandomFirst.v`, `Reader.v`, `CheckClaims.v`, `LogCounts.v`, `LogClaims.v`, `LogRanges.v` | random draws and readers; proofs of C55-C60 |
| `RyuTables.v`, `RyuModel.v`, `TestModel.v` | the model of `benchmark/ryu` and of `tests/uniform_random_test.cpp` |
| `RyuFarey.v`, `RyuArith.v`, `RyuCore.v`, `RyuScale.v`, `RyuFlags.v`, `RyuScaled.v`, `RyuLoops.v`, `RyuDecimal.v`, `RyuChars.v`, `RyuClaims.v` | proofs of C47-C49 |
| `Properties.v`, `PropertiesUsers.v`, `PropertiesTools.v`, `PropertiesRyu.v`, `PropertiesDivision.v`, `PropertiesLengths.v`, `PropertiesPrograms.v`, `PropertiesFiles.v`, `PropertiesBench.v`, `PropertiesInward.v`, `PropertiesBig.v`, `PropertiesFormats.v`, `PropertiesLive.v`, `PropertiesScreen.v`, `PropertiesSpecial.v`, `PropertiesConstants.v`, `PropertiesWriter.v`, `PropertiesFast.v`, `PropertiesForms.v`, `PropertiesSmall.v`, `PropertiesTight.v`, `PropertiesReaders.v`, `PropertiesNarrow.v` | the theorems named in `MANIFEST.json`, each with `Print Assumptions` and an `Example` |

`scripts/gen_tables.py` copies the tables of the source into `Tables.v`; `scripts/gen_farey.py` computes the fractions of
`FareyTables.v`; `scripts/gen_ryu_tables.py`, `scripts/gen_small_tables.py` and `scripts/gen_ryu_farey.py` do the same for Ryu; `scripts/gen_narrow.py` those of `NarrowTables.v` and `scripts/gen_powers.py` those of `PowerTables.v`; `scripts/gen_lengths.py`
copies the rows of `test_results` and computes the multipliers of `LengthCerts.v`; `scripts/gen_files.py` copies the same files as texts. None is trusted for the proofs beyond the table text itself: the
fractions and the multipliers are checked inside Coq.

## What is modelled

* `grisu_exact.h` — everything that executes: 128-bit helpers (all three `#if` branches), power/divisibility helpers and their
  generated tables, log floors, `common_info` constants, both cache tables, `bit_representation_t`, correct-rounding and
  rounding-mode policies with their `delegate` functions, `grisu_exact_impl::compute` with every label and `goto`,
  `compute_mul`, `compute_delta`, `is_product_integer`, `equal_fractional_parts`, `is_zf_smaller_than_deltaf`,
  `increasing_search`, case handlers and the `grisu_exact` entry point.
* `fp_to_chars.h`, `fp_to_chars/fp_to_chars.cpp` — complete, including the byte buffer.
* `tests/bigint.h` — everything. A bigint is its array (a function, with the index checked at
  every access), and its leading-one position; an argument by reference that may be the object itself is a parameter `src`.
* `tests/generate_cache.cpp` — the bytes written to the two files and the overflow report. A bitset
  is the integer of its bits. The shift of a 64-bit one by 64 is a parameter: undefined (`None`) or yielding some value (`Some v`).

* `benchmark/ryu` — `f2s.c`, `d2s.c` and the headers they include: every function that `f2s`, `f2s_buffered`, `f2s_buffered_n`, `d2s`,
  `d2s_buffered`, `d2s_buffered_n` reach, for all `#if` branches that compile (128-bit integers, MSVC intrinsics, portable; 32-bit platform;
  full table for float). `d2s.h`, which nothing includes, is modelled by itself
  (`SmallModel.v`). Not modelled: `f2s.c` and `d2s.c` with `RYU_OPTIMIZE_SIZE`, for which they include a header that is missing; the debug output. `malloc` is taken to succeed.
* `tests/verify_cache_length.cpp` — the bytes of the four files and the maxima are the result. `std::size_t` has 64 bits.
  Line ends are written as the byte 10, opening and writing a file succeeds.
* `tests/uniform_random_test.cpp` — the comparison; the inputs are an arbitrary list instead of random numbers.
* `tests/verify_delta_computation.cpp`, `tests/verify_correct_rounding_bound.cpp`, `tests/verify_incorrect_rounding_removal.cpp`,
  `tests/verify_log_computation.cpp` — complete; the numbers reported are the result.
* `tests/live_test.cpp` — complete. `std::stof` and `std::stod` are an arbitrary partial function from lines to bit patterns; the result is the screen
  after a given number of calls to `std::getline`.
* `tests/random_float.h` — complete except for the construction of the engine. The random engine with `std::uniform_int_distribution` is an
  arbitrary function of the number of the call and the bounds; `std::stof` and `std::stod` are an arbitrary function, which C57 takes to round correctly.
* `benchmark/benchmark.h`, `benchmark/benchmark.cpp`, `benchmark/grisu_exact.cpp`, `benchmark/grisu_exact_wo_correct_rounding.cpp`, `benchmark/ryu.cpp`,
  `tests/uniform_random_perf_test.cpp` — complete except for the clock (an arbitrary function), the text of the measured time and MATLAB.
  The orders of the two `std::unordered_map` are parameters.

The template parameter `Float` is the model parameter `fmt := Binary32 | Binary64`; the rounding-mode, policy and handler tag types are
enumerations; `#if` branches and `NDEBUG` are a `config` parameter. Unsigned arithmetic is `Z` with explicit `mod 2^32`/`mod 2^64`;
undefined behaviour, failed assertions and exhausted loops are distinct outcomes (`Undefined`, `AssertFailed`, `Diverged`).
Loops carry fuel; no theorem assumes the fuel suffices, `Ok` in a conclusion says that it does.

## Not modelled

MATLAB scripts, project files; performance; the C++ compiler, the intrinsics themselves
(`_umul128`, `__umulh`, `_addcarry_u64`, `_BitScanForward`, `__builtin_ctz` are given their documented meaning), the memory model beyond
a byte buffer indexed from the start pointer, and `memcpy` between a float and its bits (identity on the bit pattern).
What the programs print on the screen, and `tests/main.cpp` with any selection of its macros, is the subject of `ScreenModel.v`. How `std::ostream`
prints a floating-point number in two of the programs is a parameter there; the order of the text of a run that does not end is not described.

## Specification, independent of the model

`Spec.v` uses of the model only the enumerations of the API and the result record.

* value of a bit pattern: Flocq's `b32_of_bits` / `b64_of_bits` and `B2R`.
* reading a decimal: Flocq's `round radix2 (FLT_exp emin prec) rnd` with `rnd` the textbook rounding function of the mode. The exponent
  range has no upper end: a decimal beyond the overflow threshold reads as a number outside the format, so it never "reads back". For
  the modes that round the largest finite number toward zero an IEEE reader also maps larger decimals to the largest finite number;
  such competitors are considered in C38 only, which repeats the main statements for a reader that overflows (`IeeeSpec.v`).
* digits: `Zdigits radix10`. Decimals: arbitrary `s * 10^e`.
* texts: a reader and a writer on lists of byte values (`TextSpec.v`).

## How the properties are proved

The centre is an exactness argument: for each binary exponent e, with k the chosen power of ten, the products `f * cache` truncated by the
code equal `floor(f * 2^e * 10^k)` for every f the algorithm can feed in. For one e this is the statement that no fraction with denominator
`<= 2^(p+2)` lies between the exact multiplier and the rounded-up one; a Farey pair (two neighbouring fractions a/b, c/d with bc-ad=1 and
b+d > 2^(p+2)) around them proves it. The pairs are computed and checked inside Coq over all exponents (finite: 254 and 2046), everything
else is proved for all significands by ordinary reasoning. Then the kappa search is a greedy search for a monotone predicate, boundary
adjustment and correct rounding are integer inequalities. The intervals are tied to the reals by a lemma "the decimal reads back iff it
lies in the interval" for each mode.

* C01-C06, C14-C16: the theorem about `compute` against the interval, transferred to the reals.
* C07-C10: the same for the toward-zero modes; see the findings below. C10_exact: the binary search meets the lower end u of its range after
  steps whose last one is gcd(d/2, s-u), s being the starting point and d its last digit; it returns u + gcd(d/2, s-u).
* C11-C13, C30: on the model, using the main theorem where the code paths differ.
* C17: exact arithmetic of each branch. C18: modular arithmetic. C19: finite sweep plus the real-logarithm statement. C20: sweep with exact
  integer powers. C21: against Flocq's `binary_float_of_bits`.
* C22-C26: the buffer after each store is described by `written`; the reader inverts the writer. `C25_exact`: two runs on buffers of different sizes do
  the same until the smaller one is left, which is undefined; the last pointer formed lies in the buffer, so a run that ends had room for the text.
* C15_tight: a result below 10^-45 would read back to at most 2^-149, hence comes from the least float, whose results are 1E-45 and 2E-45.
* C27: a build with assertions is simulated by every other build.
* C28: from round trip and monotonicity of rounding. C29: two decimals satisfying the specification have equally many digits and lie
  symmetrically around the input, which every tie rule excludes.
* C31: the decimals reading back lie within one unit on each side of the input, and two decimals of at most 15 (6) digits near it differ
  by more than that. C32: an integer below 2^53 (2^24) is the only integer reading back to it, and a shorter decimal with a fractional
  part cannot. C33: `B2R` is injective on nonzero finite numbers. C34: rounding error bounds. C35: from the candidates of C29.
* C36: the search that skips the lower end stops after at most four steps, and the end is then one of two grid points. C37: C01 and C08; with the mask the test
  answers for the end point 0 as well, and a sweep shows that a wrong answer costs no digit (`Masked.v`). C38: the two
  readers agree on every finite value except the largest one.
* C39-C44: loop invariants on the number held by the array. C45, C46: the generator computes the top bits of 5^k by copying and of 1/5^k
  by long division; both are equal to the table entries by the checked facts behind C20.
* C47-C49: the exactness argument again, for Ryu's tables and its products of up to 55+124 bits (`RyuFarey.v` holds the fractions); the
  flags about trailing zeros are proved to mean that the dropped digits are zero; the two digit-removal loops are related to "the best decimal
  on a grid of powers of ten", which is unique and is what C03-C05 say of `grisu_exact`. Then both programs print the same pair, and
  the text code is compared piece by piece.
* C50: the loop invariant "dividend = quotient * divisor + rest, and the shifted divisor is the divisor times a power of two". `safe v w`
  (`DivSpec.v`) says in terms of the two numbers that neither of the two faults of finding 8 is reached; a dividend that is not 64 bits longer
  is always safe, and so is an even divisor when the quotient has no 60 zeros in a row between ones. `DivCross.v`
  follows the loop past the first fault when it is met at the last element border: the shifted divisor is then w 2^t + 2^(t-1), which gives
  the wrong result in closed form (`C50_crossing`), so that for an odd divisor less than 128 bits shorter the condition is exact
  (`C50_odd_exact`). The second fault is counted (`leaps`) only when the bits it brings in differ
  from the right ones, so (2^65 + 1) / 1 is safe; even then the result can be right, when what is left is already smaller than the divisor (`C50_leaps_right`). C51: the pairs
  (si, ai) and (ui, -bi) are a basis of the lattice of all (n, a n mod b); the extreme points are read off from the last basis. The bigint
  program is proved to follow the program on numbers, at most 67 turns.
* C52: for every row the two extreme residues are read off from a pair of multipliers s, u <= N < s + u of determinant 1, so that C51 gives what
  `minmax_euclid` returns; the pairs are checked inside Coq for the 2300 rows (finite). The rows are then compared with the recorded ones.
  C53, C54: the formulas of the rows imply "enough" with one more bit (k < 0); for k >= 0 the check compares N times the lost part with the least residue.
  `C53_exact`: with s, u as in C52, the quotients agree exactly when they agree at u, since n >= s + u for every other candidate; checked for each row.
* C55: the fields of a bit pattern. C56: the three fields determine the pattern. C57: C01 and C03 for the number drawn; the loop ends at the first
  number whose result has no fewer digits. `C57_first` says which turn that is and that each turn has its own three draws. `Reader.v` shows that a reader as assumed exists.
* C59: builds agree by C27's simulation; for one build the kappa found by the conversion at each power of two is characterised by the coarsest
  grid point inside the open interval and the absence of a coarser one in the closed interval, which is checked for all exponents inside Coq
  (finite: 254 and 2046). C60: first part, the divisions of 2^e by 10 are
  safe because floor(2^3983 / 10^j) has no 60 zeros in a row, for j up to 1199 (finite); third part, the lower bits are followed by addition for e up to 65536;
  second part, at e = 617 the product leaves `int32_t`.
* C61: the texts of C45's tables and C52's rows are computed and compared with the recorded ones (finite); that the readers recover any table and any
  rows from the text is by induction.
* C62: C25, C47 and C57 for the calls, C22-C24 for the texts, C61's readers for the lines and cells. `C62_rows` follows the counter of measurements and that of samples.
* C63: floats and the points half way between them are doubles, so a monotone reading as a double cannot carry a decimal across one of them; what
  the printed decimal reads as then follows from the round trip (C02, C06, C07). C64: the same, and C03. C65: a decimal that is not half way is read
  alike by all nearest modes, so each of two results is a candidate in the other mode, and C29 says that there is only one.
* C66: C55's decomposition and C22-C25 for one answer, induction on the lines for the dialogue. C67 is false: see finding 13.
* C68: the printing loops are run side by side with the loops of C47, C52, C59 and C60; the reports of the rest follow from C45, C62 and C66. False
  when verify_log_computation is selected (finding 11), or generate_cache where shifts by 64 are undefined (finding 7).
* C69: a text in the form is the text of its sign, digits and exponent, so that reading and writing are inverse to each other; short texts by C31's
  survival of short decimals; that every one is printed from the existence of the correctly rounding reader (`Reader.v`).
* C70: the three branches are shown to compute the same shifted product; then by evaluation for each of the 326 and 292 indices (finite).
* C71: two decimals that read back and lie in different decades have a power of ten between them, which then reads back too; so the result has one
  digit, and being within a thousandth of the input excludes that the other one is shorter. Subnormal numbers all have exponents of equal length.
* C72: the interval of the input is symmetric, so whatever is closer than a decimal that reads back reads back, and the mirror image of one that
  reads back does so too when both ends are alike. C72_exact: the remaining inputs are powers of two. The 254 floats among them are computed (`float_powers`), and so are the 45 listed doubles. For the other doubles, a misrounded decimal `(t+1)·10^e` needs `10^e` to lie in a range that leaves one power of two per `e`, and then one `t`; `PowerTables.v` lists both for `e` from -323 to 293 and `Powers.v` checks (`upper_fine`, `lower_fine`) that each row gives no misrounded decimal, a listed power, or a decimal ending in 0, which is never returned. C73: a number strictly between the input and the other reading would lie between the decimal and one of the two readings.
* C74: narrowing can only go wrong when the double is half way between two floats. Near such a point a decimal s * 10^e with s >= 336000000 has
  a shorter one beside it that reads the same (s/10 rounded towards the input), so it is not a result. For smaller s Farey pairs around 10^e/2^k (473 of them, checked in `NarrowRows.v`) leave 47 decimals that come within half a unit of a double
  without being half way themselves; the floats they read as are evaluated. C75: from the round trip, since rounding up never goes below the
  decimal. C76: the form of C69 is a JSON number, and so is a zero; the other texts begin with a letter.
* C77: the lemmas of C22 (`Chars.v`) hold for any significand; 0 is written by the same steps as one digit. A longer exponent makes the offset into
  the table 200 or more.
* C78: both operands are numbers of the format (10^k = 5^k 2^k with 5^k below 2^24 or 2^53), so the operation, by Flocq's theorems on `Bmult` and
  `Bdiv`, rounds exactly the decimal that C02 says is read back, and by C33 only the input has that value.
* C79: as in C71 a text of fewest characters has fewest digits, since the exponents of two decimals that read back have lengths that differ by at most
  one and only around a power of ten, where the result has one digit; then C29. `std::to_chars` itself is not modelled, only its requirement, transcribed
  in `CppSpec.v` from [charconv.to.chars]; the reading is that of `Spec.v`.
* C80: for an exponent field of ones the index into the table is -1 whatever the fraction is. Zeros: two inputs for each format, evaluated for one build
  with assertions, which by C27 decides for all, and in the modes toward zero for all 36 builds
  (finite); what the masking ctz lets through is smaller than the least subnormal number.
* C81: C79 and the text of C22; what `plain` takes away from an exponent in the style of printf is exactly what the printed one lacks.
* C82: `Constants.v`, by evaluation (two formats, finitely many calls). The assertions on types (grisu_exact.h:356-359, 368, 196-212) are assumptions on the platform.

## Findings

1. Toward-zero modes, significand of all ones (`Spec.halts`: 60 floats and 98 doubles up to sign): the right endpoint wraps to 0 and
   `divisible_by_power_of_2(0, .)` is called — assertion failure, or `ctz(0)` (C08).
2. Toward-zero modes, `Spec.lengthened` (4 floats, 1 double up to sign): the result has one digit too many (C09).
3. Toward-zero modes with correct rounding: the result need not be the closest one (C10), e.g. 9007199254740994.0 gives 9007199254740995.
   C10_exact describes all these inputs. The result is at most four units of its last digit away from the closest, and every input equal to a decimal of the result's exponent is affected when the next
   decimal of that exponent reads back too (C36).
4. `floor_log2_pow10` overflows `int32_t` for 617 <= |e| <= 642 although its comment and assertion admit them (C19).
5. Largest finite number under a mode rounding toward zero: an overflowing IEEE reader maps every larger decimal to it, so one digit would
   suffice; the code prints the shortest decimal inside the ordinary rounding interval (C38).
6. `tests/bigint.h`: `operator*` asserts that no carry leaves a row of the product, which is false for e.g. (2^64-1)(2^65-1); the release
   build then drops the carry (C43). Products with 0 and `*= 0` leave a nonzero leading-one position (C42, C43). `+= element` and `--`
   do not maintain the leading-one position (C44). `PropertiesBig.v` says exactly when.
7. `tests/generate_cache.cpp`: for double the generator shifts a 64-bit value by 64 when 5^110 (256 bits) is processed (C46). The value is
   not used afterwards, so the tables are right whatever it is (C45).
8. `tests/bigint.h`: `long_division` can be wrong when the dividend is 64 or more bits longer than the divisor: when the shifted divisor moves right
   across an element boundary the lowest bit of an odd divisor is copied one position too low, e.g. 2^65 / 3 gives quotient 10540996613548315209 and
   remainder 1, without failing an assertion (C50). Second fault there: after a shift by whole elements (783-826) the elements above the new
   leading one are not cleared before the shift by bits; (2^128 + 2) / 2 in three elements then loops forever (C50). `minmax_euclid` inherits this (C51). The divisions of
   `verify_cache_length` never run into it (C52).
9. `tests/verify_cache_length.cpp` understates the bits needed (C53). For k < 0 the bound for 2y should be one higher: the recorded 55 bits for float,
   e = 96 and 123 bits for double, e = 710 give wrong integer parts. For k >= 0 the number of bits is not raised again when the second or the third
   minimum admits no saving: float, e = -90 is recorded with 55 bits but needs 61. Exactly 9 + 50 rows for k < 0 lack one bit (`LengthShort.v`). The conclusion drawn from the maxima is right: 64 and 128 bits
   are enough for every exponent (C54).
10. `tests/live_test.cpp`: `decompose_float` shows every subnormal number as half its value (the exponent of a zero exponent field is not raised by
    one), and its assertion "x should be a finite number" compares with a value the exponent never has (C55).
11. `tests/verify_log_computation.cpp` overflows `int32_t` at e = 617, for the same reason as finding 4 (C60).
12. `tests/verify_incorrect_rounding_removal.cpp:112` tests `e + extended_precision + k >= 0` with `std::size_t`, which is always true.
    C59 is about the program as written.
13. `tests/live_test.cpp:55-70`: `std::getline` fails at the end of the input, the string is not a number, and the loop goes on: the program prints
    "Not a valid input; input again." for ever (C67).
14. 7.038531E-26, the text of the float 0x15ae43fd, is the only text (with its negative) that `strtod` followed by a conversion to float misreads (C74); with `do_not_care` there are eight.
15. `grisu_exact_case_handlers::ignore_special_cases` (and `assert_finite` with NDEBUG) lets infinities and NaNs reach `get_cache(min_k - 1)`: every one of
    them reads before the beginning of the table. Zeros pass both handlers; in the toward-zero modes they reach `ctz(0)` (C80).

## Trusted base

* Coq's kernel (`vm_compute` in coqc; coqchk re-checks everything with the ordinary reduction machine).
* The axioms listed by `Print Assumptions` under every theorem of the `Properties*.v` files. They all come from Coq's standard library, through its
  real numbers: `ClassicalDedekindReals.sig_forall_dec`, `ClassicalDedekindReals.sig_not_dec`,
  `FunctionalExtensionality.functional_extensionality_dep`, `Classical_Prop.classic`. Theorems proved without reals
  are closed. `ASSUMPTIONS.md` lists them theorem by theorem.
* The definitions of Flocq used in the specification.
* The reading of the C++ source recorded in the citations of the model.
