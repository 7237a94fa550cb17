{
 "claims": [
  {
   "property": "C01",
   "status": "proved",
   "theorems": [
    "C01_total"
   ],
   "note": ""
  },
  {
   "property": "C02",
   "status": "proved",
   "theorems": [
    "C02_nearest_round_trip"
   ],
   "note": ""
  },
  {
   "property": "C03",
   "status": "proved",
   "theorems": [
    "C03_nearest_shortest"
   ],
   "note": ""
  },
  {
   "property": "C04",
   "status": "proved",
   "theorems": [
    "C04_nearest_closest"
   ],
   "note": ""
  },
  {
   "property": "C05",
   "status": "proved",
   "theorems": [
    "C05_ties"
   ],
   "note": ""
  },
  {
   "property": "C06",
   "status": "proved",
   "theorems": [
    "C06_outward"
   ],
   "note": ""
  },
  {
   "property": "C07",
   "status": "proved",
   "theorems": [
    "C07_inward_round_trip"
   ],
   "note": ""
  },
  {
   "property": "C08",
   "status": "partial",
   "theorems": [
    "C08_refuted",
    "C08_undefined_refuted",
    "C08_partial",
    "C08_stops"
   ],
   "note": "False of the code: witnesses proved. Proved to hold exactly for the inputs outside Spec.halts."
  },
  {
   "property": "C09",
   "status": "partial",
   "theorems": [
    "C09_refuted",
    "C09_partial",
    "C09_exceptions"
   ],
   "note": "False of the code: witness proved. Proved to hold outside Spec.halts and Spec.lengthened, and to fail for every input of Spec.lengthened."
  },
  {
   "property": "C10",
   "status": "partial",
   "theorems": [
    "C10_refuted",
    "C10_partial",
    "C10_exact"
   ],
   "note": "False of the code: witness proved. C10_exact says for exactly which inputs (outside Spec.halts and Spec.lengthened) it holds, and what is returned for the others; C36 bounds the distance in every case."
  },
  {
   "property": "C11",
   "status": "proved",
   "theorems": [
    "C11_result_sign",
    "C11_mirror",
    "C11_negate",
    "C11_mirror_reading"
   ],
   "note": ""
  },
  {
   "property": "C12",
   "status": "proved",
   "theorems": [
    "C12_return_sign"
   ],
   "note": ""
  },
  {
   "property": "C13",
   "status": "proved",
   "theorems": [
    "C13_static_boundary"
   ],
   "note": ""
  },
  {
   "property": "C14",
   "status": "proved",
   "theorems": [
    "C14_do_not_care"
   ],
   "note": ""
  },
  {
   "property": "C15",
   "status": "proved",
   "theorems": [
    "C15_ranges",
    "C15_tight",
    "C15_reached"
   ],
   "note": ""
  },
  {
   "property": "C16",
   "status": "proved",
   "theorems": [
    "C16_no_trailing_zero"
   ],
   "note": ""
  },
  {
   "property": "C17",
   "status": "proved",
   "theorems": [
    "C17_wide_mul",
    "C17_wide_mul_128",
    "C17_wide_mul_96"
   ],
   "note": ""
  },
  {
   "property": "C18",
   "status": "proved",
   "theorems": [
    "C18_power_of_2",
    "C18_power_of_5"
   ],
   "note": ""
  },
  {
   "property": "C19",
   "status": "partial",
   "theorems": [
    "C19_log10_pow2",
    "C19_log5_pow2",
    "C19_log2_pow10_partial",
    "C19_log2_pow10_refuted"
   ],
   "note": "Proved for floor_log10_pow2 and floor_log5_pow2 on their whole documented ranges. floor_log2_pow10 is proved for |e| <= 616; for 617 <= |e| <= 642 the documented claim is false (32-bit overflow), which is proved."
  },
  {
   "property": "C20",
   "status": "proved",
   "theorems": [
    "C20_cache",
    "C01_total"
   ],
   "note": "C01_total covers the last part: no call indexes outside the table."
  },
  {
   "property": "C21",
   "status": "proved",
   "theorems": [
    "C21_classification",
    "C21_one_kind"
   ],
   "note": ""
  },
  {
   "property": "C22",
   "status": "proved",
   "theorems": [
    "C22_text_denotes"
   ],
   "note": ""
  },
  {
   "property": "C23",
   "status": "proved",
   "theorems": [
    "C23_text_round_trip"
   ],
   "note": ""
  },
  {
   "property": "C24",
   "status": "proved",
   "theorems": [
    "C24_special",
    "C24_read"
   ],
   "note": ""
  },
  {
   "property": "C25",
   "status": "proved",
   "theorems": [
    "C25_buffer",
    "C25_exact",
    "C25_smallest"
   ],
   "note": ""
  },
  {
   "property": "C26",
   "status": "proved",
   "theorems": [
    "C26_decimal_length",
    "C26_calls"
   ],
   "note": ""
  },
  {
   "property": "C27",
   "status": "proved",
   "theorems": [
    "C27_builds",
    "C27_debug"
   ],
   "note": ""
  },
  {
   "property": "C28",
   "status": "proved",
   "theorems": [
    "C28_monotone"
   ],
   "note": ""
  },
  {
   "property": "C29",
   "status": "proved",
   "theorems": [
    "C29_unique",
    "C29_unique_do_not_care"
   ],
   "note": ""
  },
  {
   "property": "C30",
   "status": "proved",
   "theorems": [
    "C30_rejects",
    "C30_passes"
   ],
   "note": ""
  },
  {
   "property": "C31",
   "status": "proved",
   "theorems": [
    "C31_short_decimals"
   ],
   "note": ""
  },
  {
   "property": "C32",
   "status": "proved",
   "theorems": [
    "C32_integers"
   ],
   "note": ""
  },
  {
   "property": "C33",
   "status": "proved",
   "theorems": [
    "C33_same_bits"
   ],
   "note": ""
  },
  {
   "property": "C34",
   "status": "proved",
   "theorems": [
    "C34_half_spacing",
    "C34_sides"
   ],
   "note": ""
  },
  {
   "property": "C35",
   "status": "proved",
   "theorems": [
    "C35_policies",
    "C35_do_not_care"
   ],
   "note": ""
  },
  {
   "property": "C36",
   "status": "proved",
   "theorems": [
    "C36_within_four",
    "C36_missed"
   ],
   "note": ""
  },
  {
   "property": "C38",
   "status": "proved",
   "theorems": [
    "C38_round_trip",
    "C38_shortest",
    "C38_closest",
    "C38_largest_number"
   ],
   "note": ""
  },
  {
   "property": "C39",
   "status": "proved",
   "theorems": [
    "C39_from_element",
    "C39_power_of_2",
    "C39_compare",
    "C39_compare_element"
   ],
   "note": ""
  },
  {
   "property": "C40",
   "status": "proved",
   "theorems": [
    "C40_add",
    "C40_add_itself",
    "C40_subtract"
   ],
   "note": ""
  },
  {
   "property": "C41",
   "status": "proved",
   "theorems": [
    "C41_times_5",
    "C41_double_until"
   ],
   "note": ""
  },
  {
   "property": "C42",
   "status": "partial",
   "theorems": [
    "C42_times_element_partial",
    "C42_times_element_refuted",
    "C42_times_element_exact"
   ],
   "note": "False of the code for a number of several elements times 0: witness proved. C42_times_element_exact: proper exactly in the other cases."
  },
  {
   "property": "C43",
   "status": "partial",
   "theorems": [
    "C43_product_partial",
    "C43_product_stops",
    "C43_product_refuted",
    "C43_product_zero_refuted",
    "C43_product_wrong",
    "C43_product_zero"
   ],
   "note": "False of the code: witnesses proved. For positive factors whose product fits: proved exact unless BigSpec.carry_lost; then a build with assertions always stops and one without always returns a number that is too small. Products with 0 are proved proper exactly when both factors have one element."
  },
  {
   "property": "C44",
   "status": "partial",
   "theorems": [
    "C44_plus_element_partial",
    "C44_minus_one_partial",
    "C44_plus_element_refuted",
    "C44_minus_one_refuted",
    "C44_plus_element_exact",
    "C44_minus_one_exact"
   ],
   "note": "False of the code: witnesses proved. The elements are proved right in every case; the two theorems _exact say exactly when the leading-one position is."
  },
  {
   "property": "C45",
   "status": "proved",
   "theorems": [
    "C45_tables"
   ],
   "note": ""
  },
  {
   "property": "C46",
   "status": "partial",
   "theorems": [
    "C46_defined_partial",
    "C46_defined_refuted"
   ],
   "note": "Proved for float; proved false for double."
  },
  {
   "property": "C37",
   "status": "proved",
   "theorems": [
    "C37_no_result",
    "C37_outcome",
    "C37_masked"
   ],
   "note": ""
  },
  {
   "property": "C47",
   "status": "proved",
   "theorems": [
    "C47_same_string",
    "C47_same_text",
    "C47_test"
   ],
   "note": ""
  },
  {
   "property": "C48",
   "status": "proved",
   "theorems": [
    "C48_ryu"
   ],
   "note": ""
  },
  {
   "property": "C49",
   "status": "proved",
   "theorems": [
    "C49_allocated"
   ],
   "note": ""
  },
  {
   "property": "C50",
   "status": "partial",
   "theorems": [
    "C50_division_partial",
    "C50_division_near_partial",
    "C50_division_refuted",
    "C50_division_endless_refuted",
    "C50_crossing",
    "C50_odd_exact"
   ],
   "note": "False of the code: 2^65 / 3 is wrong, (2^128 + 2) / 2 never ends; both witnesses proved. Proved whenever neither of the two situations of DivSpec.v arises (crosses, for an odd divisor; leaps), in particular whenever the dividend is not 64 or more bits longer than the divisor. An odd division met by crosses at the last element border gives the wrong result stated in closed form (C50_crossing); for odd divisors less than 128 bits shorter the condition is exact (C50_odd_exact). leaps counts a shift by whole elements and bits only if the bits brought in from the elements above differ from the right ones. Missing: which of the divisions met by leaps, or by crosses higher up, still come out right; C50_leaps_right is one."
  },
  {
   "property": "C51",
   "status": "partial",
   "theorems": [
    "C51_minmax_partial",
    "C51_minmax_one_element",
    "C51_minmax_refuted"
   ],
   "note": "False of the code because of C50: witness proved. Proved when the divisions stay within 64 bits (EuclidSpec.close) and the last product loses no carry (C43); without any condition for numbers below 2^64."
  },
  {
   "property": "C52",
   "status": "proved",
   "theorems": [
    "C52_written"
   ],
   "note": ""
  },
  {
   "property": "C53",
   "status": "partial",
   "theorems": [
    "C53_exact",
    "C53_negative_partial",
    "C53_positive_partial",
    "C53_negative32_refuted",
    "C53_negative64_refuted",
    "C53_positive32_refuted"
   ],
   "note": "False of the code: witnesses proved. With one more bit it is proved for all rows with k < 0; as recorded it is proved for all rows with k >= 0 except float, e = -90. C53_exact says for every row how many bits are lacking: 6 for float, e = -90; 1 for 9 other rows of float and 50 of double; none for the rest."
  },
  {
   "property": "C54",
   "status": "proved",
   "theorems": [
    "C54_cache"
   ],
   "note": ""
  },
  {
   "property": "C55",
   "status": "partial",
   "theorems": [
    "C55_decompose_partial",
    "C55_subnormal_refuted",
    "C55_assertion_refuted"
   ],
   "note": "False of the code: every subnormal number is shown as half its value, and the assertion never fails. Proved for zeros and normal numbers."
  },
  {
   "property": "C56",
   "status": "proved",
   "theorems": [
    "C56_finite",
    "C56_uniform",
    "C56_general"
   ],
   "note": ""
  },
  {
   "property": "C57",
   "status": "proved",
   "theorems": [
    "C57_digits",
    "C57_reachable",
    "C57_first"
   ],
   "note": ""
  },
  {
   "property": "C58",
   "status": "proved",
   "theorems": [
    "C58_seeds"
   ],
   "note": ""
  },
  {
   "property": "C59",
   "status": "proved",
   "theorems": [
    "C59_deltas",
    "C59_delta_program",
    "C59_bound_program",
    "C59_removal_program"
   ],
   "note": ""
  },
  {
   "property": "C60",
   "status": "partial",
   "theorems": [
    "C60_log10_partial",
    "C60_log5_partial",
    "C60_log2_refuted",
    "C60_program_refuted"
   ],
   "note": "False of the code: signed overflow at e = 617 in the second part, in every build. The first part is proved to report exactly the range in which floor_log10_pow2 is right, the third that floor_log5_pow2 is right as far as it looks."
  },
  {
   "property": "C61",
   "status": "proved",
   "theorems": [
    "C61_tables",
    "C61_float_table",
    "C61_declared",
    "C61_any_table",
    "C61_rows",
    "C61_rows_read",
    "C61_any_rows"
   ],
   "note": ""
  },
  {
   "property": "C62",
   "status": "proved",
   "theorems": [
    "C62_benchmark",
    "C62_measured",
    "C62_names",
    "C62_called",
    "C62_rows",
    "C62_perf_test"
   ],
   "note": "Or the search for a sample with the given number of digits goes on for longer than any chosen number of turns."
  },
  {
   "property": "C63",
   "status": "proved",
   "theorems": [
    "C63_narrowed",
    "C63_midway",
    "C63_directed",
    "C63_midway_bits"
   ],
   "note": ""
  },
  {
   "property": "C64",
   "status": "proved",
   "theorems": [
    "C64_widened"
   ],
   "note": ""
  },
  {
   "property": "C65",
   "status": "proved",
   "theorems": [
    "C65_nearest_modes"
   ],
   "note": ""
  },
  {
   "property": "C66",
   "status": "proved",
   "theorems": [
    "C66_dialogue"
   ],
   "note": ""
  },
  {
   "property": "C67",
   "status": "partial",
   "theorems": [
    "C67_end_refuted"
   ],
   "note": "False of the code: after the end of any input every further turn prints that the input is not valid."
  },
  {
   "property": "C68",
   "status": "partial",
   "theorems": [
    "C68_screen_partial",
    "C68_sure_partial",
    "C68_logs_refuted",
    "C68_generate_refuted"
   ],
   "note": "False of the code: with verify_log_computation selected the behaviour is undefined, and with generate_cache selected it is where a shift by 64 is. Proved for all other selections; the only other outcome is that the search for a benchmark sample takes more than a given number of turns."
  },
  {
   "property": "C69",
   "status": "proved",
   "theorems": [
    "C69_form",
    "C69_one_text",
    "C69_short_texts",
    "C69_every_text"
   ],
   "note": ""
  },
  {
   "property": "C70",
   "status": "proved",
   "theorems": [
    "C70_pow5",
    "C70_inv_pow5",
    "C70_announced"
   ],
   "note": ""
  },
  {
   "property": "C71",
   "status": "proved",
   "theorems": [
    "C71_shortest_text"
   ],
   "note": ""
  },
  {
   "property": "C72",
   "status": "proved",
   "theorems": [
    "C72_rounded",
    "C72_least",
    "C72_exact"
   ],
   "note": ""
  },
  {
   "property": "C73",
   "status": "proved",
   "theorems": [
    "C73_readers"
   ],
   "note": ""
  },
  {
   "property": "C74",
   "status": "proved",
   "theorems": [
    "C74_by_way_of_double"
   ],
   "note": ""
  },
  {
   "property": "C75",
   "status": "proved",
   "theorems": [
    "C75_enclosure"
   ],
   "note": ""
  },
  {
   "property": "C76",
   "status": "proved",
   "theorems": [
    "C76_json"
   ],
   "note": ""
  },
  {
   "property": "C77",
   "status": "proved",
   "theorems": [
    "C77_writes",
    "C77_exponents",
    "C77_digits"
   ],
   "note": ""
  },
  {
   "property": "C78",
   "status": "proved",
   "theorems": [
    "C78_put_together",
    "C78_short"
   ],
   "note": ""
  },
  {
   "property": "C79",
   "status": "proved",
   "theorems": [
    "C79_to_chars",
    "C79_general"
   ],
   "note": ""
  },
  {
   "property": "C80",
   "status": "proved",
   "theorems": [
    "C80_special",
    "C80_zero",
    "C80_zero_inward"
   ],
   "note": ""
  },
  {
   "property": "C81",
   "status": "proved",
   "theorems": [
    "C81_same_text"
   ],
   "note": ""
  },
  {
   "property": "C82",
   "status": "proved",
   "theorems": [
    "C82_logarithms",
    "C82_static_asserts",
    "C82_lengths"
   ],
   "note": ""
  }
 ]
}
