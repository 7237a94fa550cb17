#!/usr/bin/env python3
# Regenerates properties.jsonl from the table below.
import json
P=[]
def p(id,title,statement,quantifier,why,anchors):
    P.append(dict(id=id,title=title,statement=statement,quantifier=quantifier,why_tests_cant=why,anchors=anchors))
G='grisu_exact.h'; C='fp_to_chars.h'; CC='fp_to_chars/fp_to_chars.cpp'
D64='binary64 has 2^64 inputs, times rounding modes, times correct-rounding policies; no test suite can enumerate them, and the failing inputs of a wrong boundary are isolated points'
p('C01','Nearest and away-type rounding: the conversion is total and free of undefined behaviour',
  'For every finite nonzero float or double, every nearest rounding mode, away_from_zero, and toward_plus/minus_infinity whenever they round away from zero, and every correct-rounding policy, grisu_exact terminates and returns a value: no assert fires, no undefined shift, no out-of-range table access, no ctz(0), no signed overflow, no endless loop.',
  'every finite nonzero bit pattern of both formats, both signs, every such rounding mode and policy, every supported platform branch, with or without NDEBUG',D64,
  [G+': grisu_exact, grisu_exact_impl::compute, get_cache, divisible_by_power_of_2, divisible_by_power_of_5'])
p('C02','Round trip for nearest rounding modes',
  'Reading the decimal significand*10^exponent (with the sign) back under the same nearest rounding mode gives exactly the input value.',
  'every finite nonzero input of both formats, every nearest mode (to_even, to_odd, toward_plus/minus_infinity, toward_zero, away_from_zero and the four *_static_boundary variants), every correct-rounding policy',D64,
  [G+': grisu_exact, grisu_exact_rounding_modes'])
p('C03','Shortest output for nearest rounding modes',
  'No decimal that reads back to the input under the chosen nearest mode has fewer significand digits than the returned significand.',
  'every finite nonzero input, every nearest mode, every policy; and every competing decimal (any significand, any exponent)','the claim quantifies over all competing decimals as well as all inputs',
  [G+': grisu_exact_impl::compute, increasing_search'])
p('C04','Closest output for nearest rounding modes',
  'Unless do_not_care was requested, among all decimals with the minimum number of digits that read back to the input, none is closer to the exact input value than the returned one.',
  'every finite nonzero input, every nearest mode, every policy but do_not_care, every competing decimal','needs exact comparison with every competitor for every input',
  [G+': grisu_exact_impl::compute (correct_rounding_search_label, correct_rounding_search_when_kappa_is_0_label)'])
p('C05','Tie breaking of the correct-rounding policies',
  'When two distinct shortest decimals are equally close to the input, tie_to_even returns an even significand, tie_to_odd an odd one, tie_to_up the one of larger magnitude and tie_to_down the one of smaller magnitude.',
  'every finite nonzero input, every nearest mode, the four policies, every competitor at equal distance','ties are isolated inputs that random testing does not hit',
  [G+': grisu_exact_correct_rounding, grisu_exact_impl::compute'])
p('C06','Directed rounding away from zero: round trip, shortest, closest',
  'For away_from_zero, toward_plus_infinity on positive inputs and toward_minus_infinity on negative inputs, the result reads back to the input under that directed mode, has the fewest digits, and is the closest shortest decimal.',
  'every finite nonzero input of matching sign, both formats, every policy',D64,[G+': right_closed_directed, grisu_exact_impl::compute'])
p('C07','Directed rounding toward zero: round trip whenever the call is defined',
  'For toward_zero, toward_plus_infinity on negative inputs and toward_minus_infinity on positive inputs, whenever the call returns a value, it reads back to the input under that mode; and the call is defined for every input whose significand bits are not all ones.',
  'every finite nonzero input of matching sign, both formats, every policy',D64,[G+': left_closed_directed, grisu_exact_impl::compute'])
p('C08','Directed rounding toward zero is defined for every finite nonzero input',
  'The toward-zero directed modes terminate without assertion failure or undefined behaviour on every finite nonzero input. (The code violates this for significands with all bits one: the right endpoint wraps to 0 and reaches divisible_by_power_of_2(0,.), whose assert(x != 0) fails and whose __builtin_ctz(0) is undefined.)',
  'every finite nonzero input','only isolated exponents with an all-ones significand fail',[G+': is_product_integer, divisible_by_power_of_2, compute (fr == 0)'])
p('C09','Directed rounding toward zero: shortest output',
  'For the toward-zero directed modes the output has the fewest digits among the decimals that read back to the input. (The code violates this for a handful of all-ones significands, where divisible_by_power_of_5(0,.) wrongly reports an integer right endpoint; it holds for every other input.)',
  'every finite nonzero input and every competing decimal','exceptions are four floats and one double per sign',[G+': is_product_integer, divisible_by_power_of_5'])
p('C10','Directed rounding toward zero: closest output',
  'For the toward-zero directed modes with a correct-rounding policy the output is the closest shortest decimal. (The code violates this: the binary search returns through return_label without subtracting steps when displacement == deltai.)',
  'every finite nonzero input, every competing decimal','only inputs at exact coincidence of integer parts show it',[G+': compute, lines 2088-2143'])
p('C11','Sign handling',
  'is_negative of the result is the sign bit of the input; negating the input flips only is_negative provided the rounding mode is mirrored (plus infinity <-> minus infinity); sign-symmetric modes give the same significand and exponent for x and -x.',
  'every bit pattern, mode, policy','quantifies over all pairs of inputs',[G+': bit_representation_t::is_negative, compute, delegate members'])
p('C12','return_sign = false agrees with return_sign = true',
  'grisu_exact<false> returns the same significand and exponent as grisu_exact<true>.','every input, mode, policy, case handler','all inputs',[G+': grisu_exact, fp_t'])
p('C13','Static-boundary variants agree with the plain modes',
  'nearest_to_even_static_boundary, nearest_to_odd_static_boundary, nearest_toward_plus/minus_infinity_static_boundary return the same result as the modes they specialise.',
  'every input, policy','all inputs; the two code paths use different interval types (is_symmetric, compile-time endpoints)',[G+': nearest_*_static_boundary'])
p('C14','do_not_care returns the largest shortest decimal of the interval',
  'With do_not_care the result still round-trips and is shortest, and it is the decimal of largest magnitude among the decimals on its own power-of-ten grid that read back to the input.',
  'every finite nonzero input, every nearest or away-type mode','all inputs',[G+': compute, boundary_adjustment_label'])
p('C15','Significand and exponent ranges',
  'The significand is positive, has at most 9 digits (float) or 17 digits (double), and the scientific exponent (exponent + digits - 1) lies in [-45,38] for float and [-324,308] for double; each of these bounds is reached.',
  'every finite nonzero input, every policy, every nearest and away-type mode, and the toward-zero directed modes except on the inputs for which C08 fails','all inputs; decimal_length and the exponent printer depend on it',[G+': compute',CC+': decimal_length, fp_to_chars_impl'])
p('C16','No trailing zeros',
  'The returned significand is never divisible by 10.','every finite nonzero input, every policy, every nearest and away-type mode, and the toward-zero directed modes except on the inputs for which C08 fails','all inputs',[G+': compute'])
p('C17','Wide multiplication is exact on every platform branch',
  'umul128, umul128_upper64, umul192_upper64 and umul96_upper32 return exactly the (upper part of the) mathematical product, in the __int128 branch, the MSVC branch and the portable branch, with every intermediate wrap-around accounted for.',
  'all 64-bit x 64-bit, 64 x 128 and 32 x 64 operands','2^128 to 2^192 operand combinations; carry bugs are rare',[G+': umul128, umul128_upper64, umul192_upper64, umul96_upper32'])
p('C18','Divisibility tests are exact',
  'divisible_by_power_of_2(x,exp) holds iff 2^exp divides x (x != 0, exp >= 1) on every platform branch; divisible_by_power_of_5(x,exp) holds iff 5^exp divides x for every exp of the table.',
  'all 32-bit / 64-bit x and every admissible exp','2^64 values of x',[G+': divisible_by_power_of_2, divisible_by_power_of_5, compute_modular_inverse_of_5, generate_divisibility_test_table'])
p('C19','Logarithm floors are exact on their documented ranges',
  'floor_log10_pow2(e) = floor(log10 2^e) for |e| <= 1650, floor_log2_pow10(e) = floor(log2 10^e) for |e| <= 642, floor_log5_pow2(e) = floor(log5 2^e) for |e| <= 65536, with no 32/64-bit signed overflow. (The code violates the part about floor_log2_pow10: for 617 <= |e| <= 642, admitted by its comment and its assertion, the 32-bit product overflows.)',
  'every e in the documented ranges','the real-valued specification cannot be evaluated by floating-point tests at the boundaries',[G+': floor_log10_pow2, floor_log2_pow10, floor_log5_pow2'])
p('C20','The power-of-ten cache is exact',
  'For every k the stored cache entry is 10^k scaled to 64 (float) or 128 (double) bits, rounded down for k >= 0 and up for k < 0, every entry has its top bit set, and every k computed from a finite input indexes inside the table.',
  'every k in [min_k,max_k] of both formats','needs exact arithmetic on 1100-bit numbers; one wrong nibble only affects few inputs',[G+': cache_holder, get_cache, common_info'])
p('C21','Classification of bit patterns',
  'is_finite, is_nonzero, is_subnormal, is_negative/positive, is_(positive/negative_)infinity, is_nan agree with the IEEE-754 meaning of the bit pattern; every pattern is exactly one of finite, infinite, NaN; quiet and signaling NaNs partition NaNs.',
  'all 2^32 and 2^64 bit patterns','2^64 patterns',[G+': bit_representation_t'])
p('C22','fp_to_chars output denotes the grisu_exact result',
  'For a finite nonzero input, the characters written are [-]d[.ddd...]E[-]d.. with a nonzero leading digit and no superfluous zeros, and parsing them as a decimal gives exactly sign*significand*10^exponent of grisu_exact.',
  'every finite nonzero input, every policy, every nearest and away-type mode, and the toward-zero directed modes except on the inputs for which C08 fails, both formats','all inputs; digit-pair table, 8-digit split and decimal point placement have many paths',[C+': fp_to_chars_n',CC+': fp_to_chars_impl, decimal_length, radix_100_table'])
p('C23','fp_to_chars round trip',
  'The text produced by fp_to_chars for a finite input, read by a correctly rounding parser in the same mode, gives back the input value, and the sign of zero is preserved in the text.',
  'every finite input (including both zeros), every mode on the inputs for which it returns a value',D64,[C+': fp_to_chars, fp_to_chars_n'])
p('C24','fp_to_chars on special values',
  'Zero prints 0E0 (with - for negative zero), infinities print Infinity / -Infinity, and every NaN of either sign and any payload prints NaN.',
  'all zeros, infinities and all NaN payloads','2^53 NaN patterns',[C+': fp_to_chars_n'])
p('C25','Buffer safety of fp_to_chars',
  'fp_to_chars_n writes only inside [buffer, returned pointer), every byte of that range is written, the length is at most 15 for float and 24 for double, and fp_to_chars writes exactly one more byte, a NUL at the returned pointer; so a 31-byte buffer always suffices. The smallest buffer that is safe for every value has 15 bytes for float and 24 for double, one more for fp_to_chars; with a buffer shorter than the text the behaviour is undefined.',
  'every float and double, every policy, every nearest and away-type mode, and the toward-zero directed modes except on the inputs for which C08 fails','all inputs; an off-by-one only shows for one digit count',[C+': fp_to_chars, fp_to_chars_n',CC+': fp_to_chars_impl'])
p('C26','decimal_length is the digit count',
  'decimal_length(v) is the number of decimal digits of v under its precondition, and the precondition always holds when called from fp_to_chars.',
  'every v below 10^9 (float) or 10^17 (double); every call','all v',[CC+': decimal_length'])
p('C27','Results do not depend on the platform branch or on NDEBUG',
  'Two builds differing in compiler branch (GCC/Clang x86-64, MSVC x64, portable) or in NDEBUG return identical results.',
  'every finite nonzero input, every policy, every nearest and away-type mode, and the toward-zero directed modes except on the inputs for which C08 fails, every pair of configurations','all inputs and all configurations',[G+': the #if branches'])
p('C28','Injectivity and monotonicity of the conversion',
  'For a fixed rounding mode, different input values give different decimals, and a smaller input gives a smaller decimal, whatever the policies used for the two.',
  'every pair of finite nonzero inputs on which the mode returns a value','quantifies over pairs',[G+': grisu_exact'])
p('C29','The output is determined by the specification alone',
  'For a nearest or away-type mode and a tie-breaking policy, exactly one pair (significand, exponent) reads back to the input, is shortest, is closest and obeys the tie rule, and it is the pair grisu_exact returns; with do_not_care, exactly one pair is shortest and of largest magnitude, and it is the one returned.',
  'every finite nonzero input and every competing decimal','uniqueness over all competitors',[G+': grisu_exact'])
p('C30','Non-finite inputs are rejected by the default case handler',
  'With assertions enabled, grisu_exact with assert_finite stops at the assertion for every infinity and NaN, and the handler never interferes with a finite input.',
  'all bit patterns','all NaN payloads',[G+': grisu_exact_case_handlers::assert_finite, grisu_exact'])
p('C31','Short decimals survive',
  'A decimal of at most 6 digits (float) or 15 digits (double) that reads as a normal number is printed back as the same number: if x is what reading s*10^e gives, grisu_exact(x) denotes exactly s*10^e.',
  'every decimal with so few digits whose reading is a normal number; every mode under which the result is the shortest decimal; every policy','quantifies over all short decimals and all exponents',[G+': grisu_exact'])
p('C32','Integers are printed exactly',
  'If the input is an integer v with |v| < 2^24 (float) or 2^53 (double), the result has a nonnegative exponent and denotes exactly v.',
  'every such integer, every one of the 14 rounding modes (also the ones with a C08 or C09 failure), every policy','about 2^54 inputs times modes times policies',[G+': grisu_exact'])
p('C33','Bit-identical round trip',
  'Whenever grisu_exact returns, the finite bit pattern whose value is the reading of the decimal is the input pattern and no other (so the sign and every bit survive).',
  'every finite nonzero input, every mode and policy, every competing bit pattern','quantifies over pairs of bit patterns',[G+': grisu_exact'])
p('C34','Error bound and side of the result',
  'With a nearest mode the decimal is within half a unit in the last place of the input; with any mode it is within one; with a mode rounding away from zero it never exceeds the input in magnitude, and with a mode rounding toward zero it is never below it in magnitude.',
  'every finite nonzero input and every returned result','all inputs',[G+': grisu_exact, correct rounding policies'])
p('C35','Policies differ only on exact ties',
  'If two tie-breaking policies give different results, the input lies exactly half way between the two decimals; do_not_care gives a decimal with as many digits as every policy and at least its magnitude.',
  'every finite nonzero input, every pair of policies, every nearest and away-type mode','quantifies over pairs of policies on all inputs',[G+': correct rounding policies'])
p('C36','Toward-zero modes: distance from the closest decimal',
  'With a mode rounding toward zero and a correct-rounding policy the result is within four units of its last digit of the closest decimal with as many digits, which lies on the same power-of-ten grid. When the input equals a multiple u of that unit and u+1 units read back as well, the closest decimal is always missed.',
  'every finite nonzero input outside the lists of C08 and C09, every policy except do_not_care','the miss depends on an exact coincidence',[G+': compute, lines 2088-2143'])
p('C37','Exactly which calls have no result',
  'In a build with an intrinsic trailing-zero count or with assertions on, grisu_exact returns a value if and only if the mode does not round the input toward zero or the input is not one of the 60 floats / 98 doubles (per sign) with an all-ones significand and a listed exponent; on those inputs a debug build stops at an assertion and a release build reaches undefined behaviour. In a release build without such an intrinsic every call returns, the result reads back, and it is shortest outside the list of C09.',
  'every finite nonzero input, every mode, policy and build','158 inputs among 2^64',[G+': compute, is_product_integer, divisible_by_power_of_2'])
p('C38','Round trip, shortest and closest for a reader that overflows',
  'With a reader that follows the IEEE-754 overflow rules (magnitudes reaching 2^128 or 2^1024 become an infinity, or the largest finite number under the modes rounding toward zero) every result still reads back; it is shortest and closest under the conditions of C03, C04, C06 and C09, except that for the largest finite number under a mode rounding toward zero a one-digit decimal would read back as well.',
  'every finite nonzero input, every mode and policy, every competing decimal including those beyond the overflow threshold','unbounded set of competitors',[G+': grisu_exact'])
B='tests/bigint.h'
GC='tests/generate_cache.cpp'
p('C39','Big integers are made and compared as the numbers they stand for',
  'A bigint made from an element, or as a power of two below its capacity, holds that number with its leading-one position; the twelve comparisons (with a bigint and with an element) answer as the numbers compare.',
  'every capacity, every number of that capacity, any contents of uninitialised memory, every build','unbounded numbers',[B+': bigint, power_of_2, operator<, operator<=, operator>, operator>=, operator==, operator!='])
p('C40','Big integer addition and subtraction are exact',
  'b += c leaves the sum whenever it fits the capacity (also b += b) and b -= c the difference whenever it is not negative, with the right leading-one position, no assertion fails and no element outside the array is touched.',
  'every capacity, every pair of numbers, every build','unbounded numbers; carry chains',[B+': operator+=, operator-='])
p('C41','multiply_5 and multiply_2_until',
  'multiply_5 of a positive bigint yields five times the number whenever that fits; multiply_2_until(c) doubles b the least number of times that makes it at least c, and returns that number of times.',
  'every capacity, every positive number, every build','unbounded numbers',[B+': multiply_5, multiply_2_until'])
p('C42','Multiplication of a big integer by an element',
  'b *= x leaves a proper bigint holding the product whenever it fits.',
  'every capacity, every number, every element, every build','unbounded numbers',[B+': operator*='])
p('C43','Product of two big integers',
  'x * y is a proper bigint holding the product whenever it fits the capacity.',
  'every capacity, every pair of numbers, every build','unbounded numbers; the failing pairs are rare',[B+': operator*'])
p('C44','Adding an element to a big integer, and subtracting one',
  'b += x and --b leave proper bigints holding the sum and the difference.',
  'every capacity, every number, every element, every build','unbounded numbers',[B+': operator+=, operator--'])
p('C45','The cache generator writes the tables that the header contains',
  'generate_cache writes, for float and for double, exactly the entries of the tables in the header in their order, and reports no overflow.',
  'every build, any contents of uninitialised memory, any value of the one shift that is as wide as its operand','the program depends on uninitialised memory and on the build; running it shows one case',[GC+': generate_cache, generate_cache_bitset, write_file',G+': cache_holder'])
p('C46','The cache generator has defined behaviour',
  'generate_cache executes no operation that the C++ standard leaves undefined.',
  'every build, any contents of uninitialised memory','undefined behaviour is not observable in a run',[GC+': get_upper_bits'])
R='benchmark/ryu'
p('C47','The default output is byte for byte the output of Ryu',
  'For every float and double bit pattern, fp_to_chars with its default arguments and Ryu (f2s_buffered, d2s_buffered) write the same zero-terminated string and the same number of characters, so uniform_random_test reports success whatever inputs are drawn.',
  'every bit pattern including zeros, infinities and all NaNs; every build of both programs; any list of inputs; any buffer contents','the test compares a random sample of 2^64 inputs',['fp_to_chars.h: fp_to_chars, fp_to_chars_n',R+'/f2s.c: f2s_buffered, f2s_buffered_n',R+'/d2s.c: d2s_buffered, d2s_buffered_n','tests/uniform_random_test.cpp: uniform_random_test'])
p('C48','Ryu prints a shortest and closest decimal',
  'The string f2s_buffered or d2s_buffered writes for a finite nonzero number denotes a decimal that reads back to the number under round-to-nearest-even, has the fewest digits of all decimals reading back, and is the closest of these to the number, ties going to the even significand.',
  'every finite nonzero input, every competing decimal, every build','all inputs and all competing decimals',[R+'/f2s.c: f2d, to_chars, f2s_buffered',R+'/d2s.c: d2d, d2d_small_int, to_chars, d2s_buffered'])
p('C49','Ryu never overruns the memory it allocates',
  'f2s and d2s write at most 16 and 25 bytes, all of them inside the allocated block, end the string with the only zero byte, fail no assertion, index no table outside its bounds, overflow no signed integer, and give the same string whatever the block contained.',
  'every bit pattern, every content of the allocated memory, every build','all inputs; out-of-bounds writes are not observable in a run',[R+'/f2s.c: f2s, f2s_buffered, f2s_buffered_n',R+'/d2s.c: d2s, d2s_buffered, d2s_buffered_n'])
VC='tests/verify_cache_length.cpp'
p('C50','Long division of big integers',
  'x.long_division(n) leaves the remainder in x and returns the quotient, both as proper bigints.',
  'every capacity, every dividend, every divisor other than 0, every build, any contents of uninitialised memory','unbounded numbers; wrong results come out silently',[B+': long_division'])
p('C51','The min-max Euclid algorithm finds the extreme residues',
  'minmax_euclid(a, b, N) returns the least and the greatest value of a n mod b for n = 1..N, and multipliers that attain them.',
  'every capacity, all positive a, b and N, every build, any contents of uninitialised memory','N goes up to 2^55 in the program that uses it; a search over all n is impossible',[VC+': minmax_euclid'])
p('C52','The cache length program writes the recorded results',
  'verify_cache_length terminates, fails no assertion, executes nothing undefined and writes exactly the rows in the four files of test_results, with the maxima 57 and 61 bits for float and 125 and 125 bits for double.',
  'every build, any contents of uninitialised memory','the program reads uninitialised memory and uses divisions and products that are wrong for some numbers; a run shows one build',[VC+': verify_cache_length, verify_cache_length_single_type_negative_k, verify_cache_length_single_type_positive_k, further_info','test_results: *.csv'])
p('C53','The recorded numbers of bits are enough',
  'For every exponent the integer parts that are computed from the power of ten rounded to the recorded number of bits (up for k < 0, down for k >= 0) are the true ones, for all significands of p+2 bits, for all of p+1 bits scaled by four, and for the largest one halved.',
  'every row of the four files, every significand','2^54 significands per row; the failing ones are isolated',[VC+': verify_cache_length_single_type_negative_k, verify_cache_length_single_type_positive_k','test_results: *.csv'])
p('C54','The precision of the cache is enough',
  'For every exponent, powers of ten rounded to 64 bits (float) and 128 bits (double) give the true integer parts for the same significands as in C53.',
  'every exponent of the format, every significand','2^54 significands for 2046 exponents',[G+': cache_holder, cache_precision',VC+': verify_cache_length'])
p('C55','The live test shows the number it was given',
  'For every finite float and double, the sign, significand and binary exponent that the live test shows (decompose_float) denote exactly that number; for infinities and NaNs the assertion that the number is finite fails in builds with assertions.',
  'every bit pattern, every build','2^64 inputs; the wrong ones are rare in use',['tests/live_test.cpp: decompose_float'])
RF='tests/random_float.h'
p('C56','Random finite numbers are finite and equally likely',
  'uniformly_randomly_generate_finite_float returns a finite number whatever the random generator yields, and every finite number, of either sign and including both zeros, arises from exactly one outcome of its three independent draws, so that uniform draws give a uniform distribution; what uniformly_randomly_generate_general_float returns is the bit pattern drawn by a single draw from all of them.',
  'every sequence of random numbers, every finite number','2^64 outcomes; uniformity is a statement about all of them',[RF+': uniformly_randomly_generate_finite_float, uniformly_randomly_generate_general_float'])
p('C57','Random numbers with a given number of digits need exactly that many digits',
  'randomly_generate_float_with_given_digits(n) executes nothing undefined, fails no assertion, and if it returns, the number returned is finite and the shortest decimals that read back to it have exactly n digits (for n = 1 it may be zero); every number that needs n digits and has such a decimal within the exponent range drawn from is returned for some draws. Each turn draws a sign, a significand and an exponent anew, and what is returned is the value of the first decimal drawn that is in the range of the type and needs n digits.',
  'every n from 1 to 9 (float) or 17 (double), every sequence of random numbers, every correctly rounding std::stof/std::stod, every build','every random sequence; minimality is over all competing decimals',[RF+': randomly_generate_float_with_given_digits'])
p('C58','The seed sequence repeats the stored values',
  'repeating_seed_seq::generate fills the range given with the stored values over and over, from the first one, and writes nothing outside the range.',
  'every range, every nonempty list of stored values','all lengths of the range, multiples of the number of values or not',[RF+': repeating_seed_seq'])
p('C59','The three checks of the conversion succeed',
  'verify_delta_computation, verify_correct_rounding_bound and verify_incorrect_rounding_removal execute nothing undefined, fail no assertion and report success for float and double, with exactly the special exponents listed in the theorems; the two ways to compute delta agree for every entry of the cache.',
  'every build','the programs run the conversion in the build at hand only; the claim is for all builds',['tests/verify_delta_computation.cpp: verify_delta_computation','tests/verify_correct_rounding_bound.cpp: verify_correct_rounding_bound','tests/verify_incorrect_rounding_removal.cpp: verify_incorrect_rounding_removal'])
p('C60','The check of the logarithms runs to its end',
  'verify_log_computation executes no operation that the C++ standard leaves undefined and reports the ranges in which the three logarithm functions are right.',
  'every build, any contents of uninitialised memory','undefined behaviour is not observable in a run',['tests/verify_log_computation.cpp: verify_log_computation'])
p('C61','The recorded files are what the programs write, and say what the header says',
  'generate_cache writes binary32_generated_cache.txt and binary64_generated_cache.txt, and verify_cache_length the four csv files, byte for byte as they are in test_results; read as C++ the first two declare exactly the cache tables of grisu_exact.h, and any table or rows written this way can be read back.',
  'every build, any contents of uninitialised memory, any value of the undefined shift; reading back: every table of 64-bit words, every list of rows','one run shows one build and one state of memory; that no other table or row is garbled by the text is about all of them',['tests/generate_cache.cpp: generate_cache','tests/verify_cache_length.cpp: verify_cache_length','test_results/binary32_generated_cache.txt','test_results/binary64_generated_cache.txt'])
p('C62','The benchmark files describe the samples faithfully',
  'The benchmark overruns none of its buffers, executes nothing undefined and fails no assertion; its uniform file has one row per registered function and sample, with the name, a text that reads back to the sample (or names the infinity or NaN) and the bits of the sample; its digits file has one row per function, number of digits and sample, with a text that reads back to a sample that needs exactly that many digits. The random samples are drawn one after the other, none with the random numbers of another, and the time in a row is the one measured for the function and the sample of that row. The performance test with random numbers ends.',
  'every number of samples and iterations, every random sequence, every clock, every order of the hash maps, every build','random samples, and buffer overruns need not be visible',['benchmark/benchmark.cpp: benchmark_test','benchmark/benchmark.h: benchmark_holder','tests/uniform_random_perf_test.cpp: uniform_random_perf_test'])
p('C63','A double printed and read as a float',
  'Printing a double with a nearest mode and reading the decimal as a float with any nearest mode gives the float that the double itself rounds to, unless the double lies exactly half way between two neighbouring floats; then the result is the neighbour on the side of the printed decimal (unless that equals the double). With a directed mode, printing and reading as a float gives what rounding the double to a float gives, without exception. From the smallest normal float on, the half-way doubles are those whose last 29 bits are a one followed by zeros.',
  'every finite nonzero double, every policy, every pair of nearest modes, every directed mode for which the call returns','double rounding goes wrong on isolated inputs only',[G+': grisu_exact'])
p('C64','A float widened to a double',
  'The decimal printed for a float converted to double reads back as that float, and has at least as many digits as the decimal printed for the float itself.',
  'every finite nonzero float, every mode and pair of policies for which the shortest decimal is returned','2^32 floats times all modes, and the reader is a mathematical one',[G+': grisu_exact'])
p('C65','Nearest modes differ only at half-way decimals',
  'Two nearest rounding modes give the same result for an input, or at least one of the two results is a decimal exactly half way between two neighbouring numbers of the format.',
  'every finite nonzero input, every pair of nearest modes, every policy','quantifies over pairs of modes on all inputs',[G+': rounding_modes, grisu_exact'])
p('C66','The live test answers every line',
  'The live test answers every line that std::stof or std::stod accepts with four lines: the sign, an exponent in decimal and a significand in hexadecimal with all its digits, which make up the number if it is zero or normal, and a text that reads back to the number (or names the infinity or NaN); to every other line it says that the input is not valid. It never overruns its buffer, executes nothing undefined and fails no assertion.',
  'every input, every number of lines, any function in place of std::stof and std::stod, any contents of the buffer, every build','interactive, and quantifies over all dialogues',['tests/live_test.cpp: live_test, live_test_float, live_test_double'])
p('C67','The live test ends with its input',
  'When the input has been read to its end the live test ends, or at least prints nothing more.',
  'every input','a test that does not end shows nothing',['tests/live_test.cpp: live_test'])
p('C68','The test executable reports success',
  'Whatever programs are selected in the test executable, it runs without undefined behaviour and prints the reports of success of the programs selected, in the order of main, up to the first live test: "verified." for each format, the four maxima 57, 61, 125 and 125, no overflow, no error and the number of examples for each random test.',
  'all selections of the programs, all builds, all contents of uninitialised memory, all random numbers drawn, all orders of the benchmark, all lines typed, all numbers of samples',
  'a run shows one selection, one seed and one build; undefined behaviour need not show at all',
  ['tests/main.cpp: main','tests/verify_delta_computation.cpp','tests/verify_correct_rounding_bound.cpp','tests/verify_incorrect_rounding_removal.cpp','tests/verify_log_computation.cpp','tests/verify_cache_length.cpp','tests/generate_cache.cpp','tests/uniform_random_test.cpp','tests/uniform_random_perf_test.cpp','benchmark/benchmark.cpp','benchmark/benchmark.h'])
p('C69','One form for every text, and short texts come back byte for byte',
  'Every text printed for a finite nonzero number is an optional minus, a digit that is not 0, further digits after a point of which the last is not 0, E, and an exponent without leading zeros or plus sign; no two texts of this form stand for the same number. Reading a text of this form with up to 6 (float) or 15 (double) digits as a normal number and printing it gives the same bytes, and every such text with an exponent from -37 to 37 (-307 to 307) is printed for some number.',
  'every finite nonzero input and mode for which the call returns; every text of the form; every policy and build',
  'quantifies over all texts and all numbers',['fp_to_chars.h: fp_to_chars, fp_to_chars_n'])
p('C70','The compact tables of Ryu are exact',
  'For every power of five that a double can need, double_computePow5 gives the first 121 bits of 5^i and double_computeInvPow5 one more than the quotient of 2^(122 + floor(log2 5^i)) and 5^i, 121 and 122 being the bit counts that the header defines, with and without 128-bit integers, with and without assertions, and without undefined behaviour.',
  'i from 0 to 325 and from 0 to 291, the index ranges of the full tables; every build',
  'nothing in the repository includes the file, so no test runs it; the off-by-one corrections differ from index to index and from branch to branch',['benchmark/ryu/d2s.h: double_computePow5, double_computeInvPow5'])
p('C71','The printed text is as short as possible',
  'No text of the form [-]d[.ddd]E[-]nnn that reads back to the input has fewer characters than the text fp_to_chars prints for it, exponent and signs included.',
  'every finite nonzero input, every policy, every nearest and away-type mode, and the toward-zero directed modes except on the inputs for which C08 or C09 fails; every text','a competing text may lie in another decade, where the exponent takes fewer characters',[C+': fp_to_chars, fp_to_chars_n',G+': grisu_exact'])
p('C72','The result is the input rounded to its number of digits',
  'For an input whose two neighbours are equally far (not a power of two, or not above the smallest normal number) the result is the decimal that printf gives for as many digits: no decimal with as many digits is closer, and in the modes with a symmetric interval the significand is the scaled input rounded to an integer with the tie rule of the policy. Its number of digits is the least for which such rounding reads back, so the usual loop over the precisions of printf finds the same digits. At powers of two this can fail: in the default mode and policy the result is more than half a unit of its last digit away from exactly three powers of two among the floats and 45 among the doubles (and their negatives), which are listed.',
  'every finite nonzero input with equally far neighbours, every nearest mode, every policy but do_not_care (the number of digits: every policy); the list: every finite nonzero input','all inputs and all decimals; the exception occurs at a few powers of two only',[G+': grisu_exact'])
p('C73','Other readers find the input or a number next to it',
  'A reader that does not know the rounding mode, but is faithful (returns a number of the format with no other one strictly between it and the decimal, as rounding in any mode does), reads the result as the input or as one of its two neighbours.',
  'every finite nonzero input, every mode and policy, whenever a result is returned; every faithful reader','all inputs and all readers',[G+': grisu_exact'])
p('C74','Printed floats survive being read as doubles, but a few',
  'A float printed in the default rounding mode, read as a double (correctly rounded, ties to even, like strtod or a script language without floats) and converted to float is the same float again, with exactly one exception up to sign if the policy rounds correctly: 0x15ae43fd, printed as 7.038531E-26, comes back as its neighbour 0x15ae43fe. With do_not_care there are exactly eight exceptions up to sign.',
  'every finite nonzero float, every policy','two roundings in a row may differ from one for any of 2^32 floats; that only these are affected needs all of them',[G+': grisu_exact',C+': fp_to_chars'])
p('C75','Two modes give an enclosure',
  'The decimal printed under toward_plus_infinity is at most the input and the one printed under toward_minus_infinity at least the input, for both signs, and they are less than two spacings apart: a program can print guaranteed lower and upper bounds.',
  'every finite nonzero input for which both calls return (the inputs of C08 excepted); every policy','an inequality between real numbers for all inputs',[G+': grisu_exact'])
p('C76','Exactly the finite numbers are printed as JSON numbers',
  'The text printed by fp_to_chars is a number in the grammar of JSON (RFC 8259) if and only if the input is finite; zeros of both signs are included, infinities and NaNs are not.',
  'every bit pattern of both formats, every policy and mode, whenever a text is printed; every buffer that is long enough','all inputs; the grammar has many special cases (leading zeros, empty fractions)',[C+': fp_to_chars, fp_to_chars_n'])
p('C77','The digit writers accept any short decimal',
 'float_to_chars and double_to_chars write s * 10^e in scientific notation, keeping zeros at the end, for every s of at most 9 (17) digits, 0 included, and every exponent for which the exponent written has at most 2 (3) digits. For other exponents their behaviour is undefined, and for more digits a build with assertions stops.',
 'every significand, every int exponent, every buffer and position, every build',
 'There are 10^17 significands and 2^32 exponents; the tests call the writers only with results of grisu_exact, which have no zeros at the end and small exponents.',
 ['fp_to_chars.h: fp_to_chars_detail::float_to_chars, double_to_chars', CC+': fp_to_chars_impl, decimal_length, radix_100_table'])
p('C78','Short results are put together by one machine operation',
 'If the significand returned under nearest-to-even is at most 2^24 (2^53), in particular if it has at most 7 (15) digits, and the exponent lies between -10 and 10 (-22 and 22), then converting the signed significand and the power of ten to the format and multiplying them, or dividing for a negative exponent, in IEEE-754 arithmetic rounding to nearest even gives the input bit for bit.',
 'every finite nonzero float and double with such a result, every correct rounding policy, every build',
 'There are too many doubles with such a result; the tests read the results back with the C library.',
 [G+': grisu_exact, fp_t, rounding_modes::nearest_to_even'])
p('C79','The result is the decimal the C++ standard requires of std::to_chars',
 'Under nearest-to-even with ties to even the signed significand and the exponent are exactly those of the text std::to_chars(first, last, value, std::chars_format::scientific) is required to write: of all texts in the style of printf("%e") that read back to the input it has the fewest characters, of those with equally many it is closest to the input, and of equally close ones the last digit is even; and no other decimal meets this requirement. The same holds for the other modes rounding to nearest or away from zero and the other tie rules, with the reading and the rule changed accordingly.',
 'every finite nonzero float and double, every such mode and tie rule, every build',
 'The requirement ranges over all decimals, and counting characters instead of digits could prefer another one where the length of the exponent changes; testing against a library implementation covers samples only.',
 [G+': grisu_exact, fp_t, rounding_modes::nearest_to_even, correct_rounding::tie_to_even'])
p('C80','What zeros, infinities and NaNs give',
 'grisu_exact called with an infinity or a NaN never returns a result, whichever case handler is chosen: a build with assertions stops, and one without reads outside the table of powers. Called with a zero it returns the significand 0 and the sign of the zero, with the exponent -37 (-307), in the modes rounding to nearest and away from zero; in the modes rounding toward zero a build with assertions stops, one without has undefined behaviour unless trailing zeros are counted by masking, and then it returns a nonzero decimal that reads back to zero.',
 'every bit pattern of a zero, an infinity or a NaN of both formats, every mode, correct rounding policy, case handler and build',
 'There are 2^53 NaNs, and undefined behaviour in a build without assertions can look like a result in a test.',
 [G+': grisu_exact, grisu_exact_case_handlers::ignore_special_cases, assert_finite, get_cache, is_finite'])
p('C81','fp_to_chars writes what std::to_chars writes, with E, no plus sign and no padding',
 'For every finite value there is exactly one text std::to_chars(first, last, value, std::chars_format::scientific) may write, and fp_to_chars_n and fp_to_chars (nearest-to-even, ties to even) write that text with E in place of e, without the plus sign of the exponent and without the zero in front of an exponent of one digit; so a program that uppercases and strips the exponent can exchange the two. Zeros are included, with their sign. The same holds for the other modes rounding to nearest or away from zero and the other tie rules, with the reading and the rule changed accordingly.',
 'every finite float and double, every such mode and tie rule, every build and every buffer large enough',
 'Comparing with a library implementation covers samples only, and compares with that implementation rather than with the requirement.',
 [C+': fp_to_chars, fp_to_chars_n'])
p('C82','The header compiles for float and double',
 'Every constant the header computes by calling one of its logarithm functions is a constant expression, because no assertion in them fails and no arithmetic overflows in any build; every static assertion on these constants holds; and each table of powers has exactly one entry for every exponent from the declared minimum to the declared maximum.',
 'both formats, every build (with and without assertions)',
 'The compiler checks it for the platform and the macros it is run with, and for the templates that are instantiated there; it never checks the lengths of the tables, whose arrays have no declared bound.',
 [G+': common_info, cache_holder, floor_log10_pow2, floor_log5_pow2, floor_log2_pow10'])
with open('/verif/properties.jsonl','w') as f:
    for x in P: f.write(json.dumps(x)+'\n')
