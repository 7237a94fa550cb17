# What Print Assumptions lists for each theorem

Written by `scripts/assumptions.py`.

## Closed under the global context

C11_mirror, C12_return_sign, C13_static_boundary, C17_wide_mul, C17_wide_mul_128, C17_wide_mul_96, C18_power_of_2, C18_power_of_5, C19_log2_pow10_refuted, C24_read, C26_decimal_length, C27_debug, C39_compare, C39_compare_element, C39_from_element, C39_power_of_2, C40_add, C40_add_itself, C40_subtract, C41_double_until, C41_times_5, C42_times_element_exact, C42_times_element_partial, C42_times_element_refuted, C43_product_partial, C43_product_refuted, C43_product_stops, C43_product_wrong, C43_product_zero, C43_product_zero_refuted, C44_minus_one_exact, C44_minus_one_partial, C44_minus_one_refuted, C44_plus_element_exact, C44_plus_element_partial, C44_plus_element_refuted, C45_tables, C46_defined_partial, C46_defined_refuted, C50_crossing, C50_division_endless_refuted, C50_division_near_partial, C50_division_partial, C50_division_refuted, C50_odd_exact, C51_minmax_one_element, C51_minmax_partial, C51_minmax_refuted, C52_written, C56_general, C58_seeds, C59_delta_program, C59_deltas, C60_log2_refuted, C60_program_refuted, C61_any_rows, C61_any_table, C61_declared, C61_float_table, C61_rows, C61_rows_read, C61_tables, C62_names, C68_logs_refuted, C70_announced, C70_inv_pow5, C70_pow5, C77_digits, C77_exponents, C77_writes, C82_lengths, C82_logarithms, C82_static_asserts

## `ClassicalDedekindReals.sig_forall_dec`, `FunctionalExtensionality.functional_extensionality_dep`

C11_mirror_reading, C69_one_text

## `ClassicalDedekindReals.sig_forall_dec`, `ClassicalDedekindReals.sig_not_dec`, `Classical_Prop.classic`, `FunctionalExtensionality.functional_extensionality_dep`

C01_total, C02_nearest_round_trip, C03_nearest_shortest, C04_nearest_closest, C05_ties, C06_outward, C07_inward_round_trip, C08_partial, C08_refuted, C08_stops, C08_undefined_refuted, C09_exceptions, C09_partial, C09_refuted, C10_exact, C10_partial, C10_refuted, C11_negate, C11_result_sign, C14_do_not_care, C15_ranges, C15_reached, C15_tight, C16_no_trailing_zero, C19_log10_pow2, C19_log2_pow10_partial, C19_log5_pow2, C20_cache, C21_classification, C21_one_kind, C22_text_denotes, C23_text_round_trip, C24_special, C25_buffer, C25_exact, C25_smallest, C26_calls, C27_builds, C28_monotone, C29_unique, C29_unique_do_not_care, C30_passes, C30_rejects, C31_short_decimals, C32_integers, C33_same_bits, C34_half_spacing, C34_sides, C35_do_not_care, C35_policies, C36_missed, C36_within_four, C37_masked, C37_no_result, C37_outcome, C38_closest, C38_largest_number, C38_round_trip, C38_shortest, C47_same_string, C47_same_text, C47_test, C48_ryu, C49_allocated, C53_exact, C53_negative32_refuted, C53_negative64_refuted, C53_negative_partial, C53_positive32_refuted, C53_positive_partial, C54_cache, C55_assertion_refuted, C55_decompose_partial, C55_subnormal_refuted, C56_finite, C56_uniform, C57_digits, C57_first, C57_reachable, C59_bound_program, C59_removal_program, C60_log10_partial, C60_log5_partial, C62_benchmark, C62_called, C62_measured, C62_perf_test, C62_rows, C63_directed, C63_midway, C63_midway_bits, C63_narrowed, C64_widened, C65_nearest_modes, C66_dialogue, C67_end_refuted, C68_generate_refuted, C68_screen_partial, C68_sure_partial, C69_every_text, C69_form, C69_short_texts, C71_shortest_text, C72_exact, C72_least, C72_rounded, C73_readers, C74_by_way_of_double, C75_enclosure, C76_json, C78_put_together, C78_short, C79_general, C79_to_chars, C80_special, C80_zero, C80_zero_inward, C81_same_text
