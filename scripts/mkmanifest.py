#!/usr/bin/env python3
# Regenerates MANIFEST.json; run from anywhere. Theorem names are checked against Properties*.v.
import json, re, glob, os
root = os.path.join(os.path.dirname(os.path.abspath(__file__)), '..')
src = ''.join(open(p).read() for p in glob.glob(root + '/rocq/theories/Properties*.v'))
known = set(re.findall(r'^(?:Theorem)\s+(\w+)', src, re.M))
claims = [
 ('C01', 'proved', ['C01_total'], ''),
 ('C02', 'proved', ['C02_nearest_round_trip'], ''),
 ('C03', 'proved', ['C03_nearest_shortest'], ''),
 ('C04', 'proved', ['C04_nearest_closest'], ''),
 ('C05', 'proved', ['C05_ties'], ''),
 ('C06', 'proved', ['C06_outward'], ''),
 ('C07', 'proved', ['C07_inward_round_trip'], ''),
 ('C08', 'partial', ['C08_refuted', 'C08_undefined_refuted', 'C08_partial', 'C08_stops'],
  'False of the code: witnesses proved. Proved to hold exactly for the inputs outside Spec.halts.'),
 ('C09', 'partial', ['C09_refuted', 'C09_partial', 'C09_exceptions'],
  'False of the code: witness proved. Proved to hold outside Spec.halts and Spec.lengthened, and to fail for every input of Spec.lengthened.'),
 ('C10', 'partial', ['C10_refuted', 'C10_partial', 'C10_exact'],
  'False of the code: witness proved. C10_exact says for exactly which inputs (outside Spec.halts and Spec.lengthened) it holds, and what is returned for the others; C36 bounds the distance in every case.'),
 ('C11', 'proved', ['C11_result_sign', 'C11_mirror', 'C11_negate', 'C11_mirror_reading'], ''),
 ('C12', 'proved', ['C12_return_sign'], ''),
 ('C13', 'proved', ['C13_static_boundary'], ''),
 ('C14', 'proved', ['C14_do_not_care'], ''),
 ('C15', 'proved', ['C15_ranges', 'C15_tight', 'C15_reached'], ''),
 ('C16', 'proved', ['C16_no_trailing_zero'], ''),
 ('C17', 'proved', ['C17_wide_mul', 'C17_wide_mul_128', 'C17_wide_mul_96'], ''),
 ('C18', 'proved', ['C18_power_of_2', 'C18_power_of_5'], ''),
 ('C19', 'partial', ['C19_log10_pow2', 'C19_log5_pow2', 'C19_log2_pow10_partial', 'C19_log2_pow10_refuted'],
  'Proved for floor_log10_pow2 and floor_log5_pow2 on their whole documented ranges. floor_log2_pow10 is proved for |e| <= 616; for 617 <= |e| <= 642 the documented claim is false (32-bit overflow), which is proved.'),
 ('C20', 'proved', ['C20_cache', 'C01_total'], 'C01_total covers the last part: no call indexes outside the table.'),
 ('C21', 'proved', ['C21_classification', 'C21_one_kind'], ''),
 ('C22', 'proved', ['C22_text_denotes'], ''),
 ('C23', 'proved', ['C23_text_round_trip'], ''),
 ('C24', 'proved', ['C24_special', 'C24_read'], ''),
 ('C25', 'proved', ['C25_buffer', 'C25_exact', 'C25_smallest'], ''),
 ('C26', 'proved', ['C26_decimal_length', 'C26_calls'], ''),
 ('C27', 'proved', ['C27_builds', 'C27_debug'], ''),
 ('C28', 'proved', ['C28_monotone'], ''),
 ('C29', 'proved', ['C29_unique', 'C29_unique_do_not_care'], ''),
 ('C30', 'proved', ['C30_rejects', 'C30_passes'], ''),
 ('C31', 'proved', ['C31_short_decimals'], ''),
 ('C32', 'proved', ['C32_integers'], ''),
 ('C33', 'proved', ['C33_same_bits'], ''),
 ('C34', 'proved', ['C34_half_spacing', 'C34_sides'], ''),
 ('C35', 'proved', ['C35_policies', 'C35_do_not_care'], ''),
 ('C36', 'proved', ['C36_within_four', 'C36_missed'], ''),
 ('C38', 'proved', ['C38_round_trip', 'C38_shortest', 'C38_closest', 'C38_largest_number'], ''),
 ('C39', 'proved', ['C39_from_element', 'C39_power_of_2', 'C39_compare', 'C39_compare_element'], ''),
 ('C40', 'proved', ['C40_add', 'C40_add_itself', 'C40_subtract'], ''),
 ('C41', 'proved', ['C41_times_5', 'C41_double_until'], ''),
 ('C42', 'partial', ['C42_times_element_partial', 'C42_times_element_refuted', 'C42_times_element_exact'],
  'False of the code for a number of several elements times 0: witness proved. C42_times_element_exact: proper exactly in the other cases.'),
 ('C43', 'partial', ['C43_product_partial', 'C43_product_stops', 'C43_product_refuted', 'C43_product_zero_refuted', 'C43_product_wrong', 'C43_product_zero'],
  'False of the code: witnesses proved. For positive factors whose product fits: proved exact unless BigSpec.carry_lost; then a build with assertions always stops and one without always returns a number that is too small. Products with 0 are proved proper exactly when both factors have one element.'),
 ('C44', 'partial', ['C44_plus_element_partial', 'C44_minus_one_partial', 'C44_plus_element_refuted', 'C44_minus_one_refuted', 'C44_plus_element_exact', 'C44_minus_one_exact'],
  'False of the code: witnesses proved. The elements are proved right in every case; the two theorems _exact say exactly when the leading-one position is.'),
 ('C45', 'proved', ['C45_tables'], ''),
 ('C46', 'partial', ['C46_defined_partial', 'C46_defined_refuted'],
  'Proved for float; proved false for double.'),
 ('C37', 'proved', ['C37_no_result', 'C37_outcome', 'C37_masked'], ''),
 ('C47', 'proved', ['C47_same_string', 'C47_same_text', 'C47_test'], ''),
 ('C48', 'proved', ['C48_ryu'], ''),
 ('C49', 'proved', ['C49_allocated'], ''),
 ('C50', 'partial', ['C50_division_partial', 'C50_division_near_partial', 'C50_division_refuted', 'C50_division_endless_refuted', 'C50_crossing', 'C50_odd_exact'],
  'False of the code: 2^65 / 3 is wrong, (2^128 + 2) / 2 never ends; both witnesses proved. Proved whenever neither of the two situations of DivSpec.v arises (crosses, for an odd divisor; leaps), in particular whenever the dividend is not 64 or more bits longer than the divisor. An odd division met by crosses at the last element border gives the wrong result stated in closed form (C50_crossing); for odd divisors less than 128 bits shorter the condition is exact (C50_odd_exact). leaps counts a shift by whole elements and bits only if the bits brought in from the elements above differ from the right ones. Missing: which of the divisions met by leaps, or by crosses higher up, still come out right; C50_leaps_right is one.'),
 ('C51', 'partial', ['C51_minmax_partial', 'C51_minmax_one_element', 'C51_minmax_refuted'],
  'False of the code because of C50: witness proved. Proved when the divisions stay within 64 bits (EuclidSpec.close) and the last product loses no carry (C43); without any condition for numbers below 2^64.'),
 ('C52', 'proved', ['C52_written'], ''),
 ('C53', 'partial', ['C53_exact', 'C53_negative_partial', 'C53_positive_partial', 'C53_negative32_refuted', 'C53_negative64_refuted', 'C53_positive32_refuted'],
  'False of the code: witnesses proved. With one more bit it is proved for all rows with k < 0; as recorded it is proved for all rows with k >= 0 except float, e = -90. C53_exact says for every row how many bits are lacking: 6 for float, e = -90; 1 for 9 other rows of float and 50 of double; none for the rest.'),
 ('C54', 'proved', ['C54_cache'], ''),
 ('C55', 'partial', ['C55_decompose_partial', 'C55_subnormal_refuted', 'C55_assertion_refuted'],
  'False of the code: every subnormal number is shown as half its value, and the assertion never fails. Proved for zeros and normal numbers.'),
 ('C56', 'proved', ['C56_finite', 'C56_uniform', 'C56_general'], ''),
 ('C57', 'proved', ['C57_digits', 'C57_reachable', 'C57_first'], ''),
 ('C58', 'proved', ['C58_seeds'], ''),
 ('C59', 'proved', ['C59_deltas', 'C59_delta_program', 'C59_bound_program', 'C59_removal_program'], ''),
 ('C60', 'partial', ['C60_log10_partial', 'C60_log5_partial', 'C60_log2_refuted', 'C60_program_refuted'],
  'False of the code: signed overflow at e = 617 in the second part, in every build. The first part is proved to report exactly the range in which floor_log10_pow2 is right, the third that floor_log5_pow2 is right as far as it looks.'),
 ('C61', 'proved', ['C61_tables', 'C61_float_table', 'C61_declared', 'C61_any_table', 'C61_rows', 'C61_rows_read', 'C61_any_rows'], ''),
 ('C62', 'proved', ['C62_benchmark', 'C62_measured', 'C62_names', 'C62_called', 'C62_rows', 'C62_perf_test'], 'Or the search for a sample with the given number of digits goes on for longer than any chosen number of turns.'),
 ('C63', 'proved', ['C63_narrowed', 'C63_midway', 'C63_directed', 'C63_midway_bits'], ''),
 ('C64', 'proved', ['C64_widened'], ''),
 ('C65', 'proved', ['C65_nearest_modes'], ''),
 ('C66', 'proved', ['C66_dialogue'], ''),
 ('C67', 'partial', ['C67_end_refuted'],
  'False of the code: after the end of any input every further turn prints that the input is not valid.'),
 ('C68', 'partial', ['C68_screen_partial', 'C68_sure_partial', 'C68_logs_refuted', 'C68_generate_refuted'],
  'False of the code: with verify_log_computation selected the behaviour is undefined, and with generate_cache selected it is where a shift by 64 is. Proved for all other selections; the only other outcome is that the search for a benchmark sample takes more than a given number of turns.'),
 ('C69', 'proved', ['C69_form', 'C69_one_text', 'C69_short_texts', 'C69_every_text'], ''),
 ('C70', 'proved', ['C70_pow5', 'C70_inv_pow5', 'C70_announced'], ''),
 ('C71', 'proved', ['C71_shortest_text'], ''),
 ('C72', 'proved', ['C72_rounded', 'C72_least', 'C72_exact'], ''),
 ('C73', 'proved', ['C73_readers'], ''),
 ('C74', 'proved', ['C74_by_way_of_double'], ''),
 ('C75', 'proved', ['C75_enclosure'], ''),
 ('C76', 'proved', ['C76_json'], ''),
 ('C77', 'proved', ['C77_writes', 'C77_exponents', 'C77_digits'], ''),
 ('C78', 'proved', ['C78_put_together', 'C78_short'], ''),
 ('C79', 'proved', ['C79_to_chars', 'C79_general'], ''),
 ('C80', 'proved', ['C80_special', 'C80_zero', 'C80_zero_inward'], ''),
 ('C81', 'proved', ['C81_same_text'], ''),
 ('C82', 'proved', ['C82_logarithms', 'C82_static_asserts', 'C82_lengths'], ''),
]
for c in claims:
    for t in c[2]:
        assert t in known, t
props = [json.loads(l)['id'] for l in open(root + '/properties.jsonl')]
missing = [p for p in props if p not in [c[0] for c in claims]]
unused = known - {t for c in claims for t in c[2]}
print('missing', missing, 'unused', sorted(unused))
with open(root + '/MANIFEST.json', 'w') as o:
    json.dump({'claims': [dict(property=a, status=b, theorems=c, note=d) for a, b, c, d in claims]}, o, indent=1)
    o.write('\n')
