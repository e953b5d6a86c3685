{
 "claims": [
  {
   "property": "C01",
   "status": "proved",
   "theorems": [
    "C01_r_trig_reports_rising_edges"
   ],
   "note": "All CLK histories of a fresh instance."
  },
  {
   "property": "C02",
   "status": "proved",
   "theorems": [
    "C02_f_trig_reports_falling_edges"
   ],
   "note": "All CLK histories of a fresh instance."
  },
  {
   "property": "C03",
   "status": "proved",
   "theorems": [
    "C03_sr_set_dominant"
   ],
   "note": "All histories, any initial Q1."
  },
  {
   "property": "C04",
   "status": "proved",
   "theorems": [
    "C04_rs_reset_dominant"
   ],
   "note": "All histories, any initial Q1."
  },
  {
   "property": "C05",
   "status": "proved",
   "theorems": [
    "C05_every_counter",
    "C05_ctu_counts_edges_since_reset",
    "C05_ctu_every_history_splits",
    "C05_ctu_q"
   ],
   "note": "All histories, both build profiles, all counter types. The CU level before the first counted call is the level of the last non-reset call (see C08)."
  },
  {
   "property": "C06",
   "status": "proved",
   "theorems": [
    "C06_ctd_counts_edges_since_load",
    "C06_ctd_every_history_splits",
    "C06_ctd_q"
   ],
   "note": "All histories, both profiles, all counter types."
  },
  {
   "property": "C07",
   "status": "proved",
   "theorems": [
    "C07_ctud_every_call",
    "C07_ctud_net_count"
   ],
   "note": "All histories, both profiles, all counter types."
  },
  {
   "property": "C08",
   "status": "partial",
   "theorems": [
    "C08_counts_edge_of_reset_call_refuted",
    "C08_misses_edge_after_reset_call_refuted",
    "C08_ctd_refuted",
    "C08_ctud_refuted",
    "C08_ctu_partial",
    "C08_ctd_partial",
    "C08_ctud_partial"
   ],
   "note": "False as stated: R/LD calls do not sample the count input. Refuted for CTU (extra and missed counts), CTD and CTUD; the IEC law is proved for histories where the input does not change in R/LD calls."
  },
  {
   "property": "C09",
   "status": "proved",
   "theorems": [
    "C09_ton_on_delay"
   ],
   "note": "All histories with a monotone clock below 2^63 ns and PT >= 0, two separate clock readings per call."
  },
  {
   "property": "C10",
   "status": "proved",
   "theorems": [
    "C10_tof_off_delay"
   ],
   "note": "As C09."
  },
  {
   "property": "C11",
   "status": "proved",
   "theorems": [
    "C11_tp_pulse_not_interruptible"
   ],
   "note": "Constant PT over the history, any IN behaviour during the pulse."
  },
  {
   "property": "C12",
   "status": "partial",
   "theorems": [
    "C12_tp_never_aborts_refuted",
    "C12_tp_abort_condition_partial"
   ],
   "note": "False as stated: refuted; exact abort condition proved for every history."
  },
  {
   "property": "C13",
   "status": "partial",
   "theorems": [
    "C13_tp_starts_on_rising_edge_refuted",
    "C13_tp_restart_rule_partial"
   ],
   "note": "False as stated: refuted; exact restart rule proved."
  },
  {
   "property": "C14",
   "status": "proved",
   "theorems": [
    "C14_et_range",
    "C14_ton_et_monotone",
    "C14_tof_et_monotone",
    "C14_tp_et_monotone"
   ],
   "note": "Range for all three timers; monotonicity between consecutive calls of a run."
  },
  {
   "property": "C15",
   "status": "partial",
   "theorems": [
    "C15_negative_preset_refuted",
    "C15_ton_negative_preset_partial",
    "C15_tof_negative_preset_partial",
    "C15_tp_negative_preset_partial"
   ],
   "note": "False as stated: refuted; exact behaviour with negative presets proved."
  },
  {
   "property": "C16",
   "status": "proved",
   "theorems": [
    "C16_every_type",
    "C16_max_is_upper_bound_element",
    "C16_min_is_lower_bound_element",
    "C16_empty_or_null_aborts"
   ],
   "note": "Unbounded arrays; sound for every ordered integer type (all instances share one body)."
  },
  {
   "property": "C17",
   "status": "proved",
   "theorems": [
    "C17_every_type",
    "C17_limit_is_nearest_point",
    "C17_limit_monotone",
    "C17_limit_inverted_bounds"
   ],
   "note": "All integers."
  },
  {
   "property": "C18",
   "status": "proved",
   "theorems": [
    "C18_by_name",
    "C18_max_ignores_nan",
    "C18_min_ignores_nan",
    "C18_empty_or_null_aborts",
    "C18_limit_nan",
    "C18_limit_range"
   ],
   "note": "For every resolution of ties between equal elements (+0/-0)."
  },
  {
   "property": "C19",
   "status": "proved",
   "theorems": [
    "C19_every_type",
    "C19_shl_below_width",
    "C19_shr_below_width"
   ],
   "note": "Both profiles, every width."
  },
  {
   "property": "C20",
   "status": "partial",
   "theorems": [
    "C20_shift_out_refuted",
    "C20_shift_beyond_width_partial"
   ],
   "note": "False as stated: refuted for every width; exact behaviour proved (debug aborts, release shifts by n mod width)."
  },
  {
   "property": "C21",
   "status": "proved",
   "theorems": [
    "C21_every_type",
    "C21_rotate_bits",
    "C21_rotate_range",
    "C21_rotate_inverse",
    "C21_rotate_mod_width",
    "C21_rotate_additive"
   ],
   "note": "Every width > 0, every n."
  },
  {
   "property": "C22",
   "status": "partial",
   "theorems": [
    "C22_every_type_partial",
    "C22_endian_round_trip_refuted",
    "C22_to_endian_memory_partial",
    "C22_from_inverts_opposite_partial"
   ],
   "note": "False as stated on every host and type: FROM_X is not the inverse of TO_X but of TO_(other order). Proved: memory image of TO_X, and the cross inverse."
  },
  {
   "property": "C23",
   "status": "partial",
   "theorems": [
    "C23_floats_by_name",
    "C23_float_endian_refuted",
    "C23_float_endian_identity_partial"
   ],
   "note": "False as stated on little-endian hosts: all REAL/LREAL variants are the identity (proved)."
  },
  {
   "property": "C24",
   "status": "proved",
   "theorems": [
    "C24_every_type",
    "C24_bcd_valid_iff"
   ],
   "note": "All widths."
  },
  {
   "property": "C25",
   "status": "proved",
   "theorems": [
    "C25_by_name",
    "C25_is_valid_by_name",
    "C25_is_valid_iff_finite",
    "C25_real_dword_inverse",
    "C25_lreal_lword_inverse"
   ],
   "note": "All bit patterns, NaN payloads included."
  },
  {
   "property": "C26",
   "status": "proved",
   "theorems": [
    "C26_calendar_total",
    "C26_concat_date_valid",
    "C26_concat_date_invalid",
    "C26_consecutive_days",
    "C26_every_type"
   ],
   "note": "Full. day_number counts days by walking the calendar; the chrono algorithms are proved equal to it. The types of up to 32 bits; wider types are C31."
  },
  {
   "property": "C27",
   "status": "proved",
   "theorems": [
    "C27_split_date_total",
    "C27_split_of_concat",
    "C27_concat_of_split",
    "C27_by_name"
   ],
   "note": "Full, for every instance and every i64."
  },
  {
   "property": "C28",
   "status": "proved",
   "theorems": [
    "C28_dt_is_date_plus_tod",
    "C28_concat_date_tod",
    "C28_by_name"
   ],
   "note": "Full, for every i64 and chrono release."
  },
  {
   "property": "C29",
   "status": "proved",
   "theorems": [
    "C29_concat_tod_valid",
    "C29_split_tod_total",
    "C29_split_of_concat",
    "C29_by_name"
   ],
   "note": "Full, for the types of up to 32 bits; wider types alias (C31)."
  },
  {
   "property": "C30",
   "status": "partial",
   "theorems": [
    "C30_concat_tod_range_refuted",
    "C30_concat_tod_exact_partial",
    "C30_by_name_partial"
   ],
   "note": "False as stated: up to 1999 ms are accepted as a leap second and 23:59:59 + 1999 ms exceeds 24h (refuted, every release). The exact set of accepted fields and the result are proved."
  },
  {
   "property": "C31",
   "status": "partial",
   "theorems": [
    "C31_wide_concat_refuted",
    "C31_narrow_concat_rejects_partial",
    "C31_reduced_modulo_partial"
   ],
   "note": "False as stated for LINT/ULINT (refuted: arguments are reduced modulo 2^32). Rejection proved for all types of up to 32 bits, reduction law proved for all."
  },
  {
   "property": "C32",
   "status": "proved",
   "theorems": [
    "C32_day_of_week_cycle",
    "C32_epoch_is_thursday",
    "C32_by_name"
   ],
   "note": "Full, for every timestamp."
  },
  {
   "property": "C33",
   "status": "proved",
   "theorems": [
    "C33_split_dt_total",
    "C33_concat_dt_valid",
    "C33_concat_of_split",
    "C33_split_of_concat",
    "C33_by_name"
   ],
   "note": "Full, for every i64 whose midnight is representable and all valid fields."
  },
  {
   "property": "C34",
   "status": "partial",
   "theorems": [
    "C34_time_exact_or_abort",
    "C34_datetime_exact_or_abort",
    "C34_old_release_refuted",
    "C34_datetime_every_release_partial",
    "C34_every_name"
   ],
   "note": "TIME/TIME and date-date subtraction: full. DT/TOD +- TIME: full for current chrono releases; for older releases refuted in the lowest partial second of i64, exact condition proved."
  },
  {
   "property": "C35",
   "status": "proved",
   "theorems": [
    "C35_date_arithmetic_laws",
    "C35_add_difference",
    "C35_tod_does_not_wrap"
   ],
   "note": "Full, with the range condition in the statement."
  },
  {
   "property": "C36",
   "status": "proved",
   "theorems": [
    "C36_every_name",
    "C36_mul_exact_or_abort",
    "C36_div_truncates",
    "C36_div_inverts_mul"
   ],
   "note": "Signed and unsigned integer factors: exact or abort."
  },
  {
   "property": "C37",
   "status": "partial",
   "theorems": [
    "C37_unsigned_by_name",
    "C37_unsigned_refuted",
    "C37_unsigned_exact_partial",
    "C37_narrow_factor_partial"
   ],
   "note": "False for unsigned factors >= 2^63; true below."
  },
  {
   "property": "C38",
   "status": "proved",
   "theorems": [
    "C38_sign_symmetry",
    "C38_result_sign",
    "C38_zero_time",
    "C38_aborts",
    "C38_divide_by_infinity"
   ],
   "note": "Sign symmetry, sign and range of the result, zero time, NaN/infinite factors, zero divisor, infinite divisor; for three generations of Duration::from_secs_f."
  },
  {
   "property": "C39",
   "status": "partial",
   "theorems": [
    "C39_neutral_factor_refuted",
    "C39_neutral_factor_partial",
    "C39_limits_refuted",
    "C39_older_std_refuted"
   ],
   "note": "Refuted in both precisions. With the current Duration exact up to 2^23 s (LREAL) and 2^-6 s (REAL), both limits sharp (C39_limits_refuted); with older std releases wrong from 1 ns (REAL) or 3 ns (LREAL) on."
  },
  {
   "property": "C40",
   "status": "proved",
   "theorems": [
    "C40_len_by_name",
    "C40_len_counts_characters",
    "C40_len_any_bytes",
    "C40_len_any_words",
    "C40_unterminated_read_out_of_bounds"
   ],
   "note": "Exact for texts below 2^31 characters (the result is an i32), for arbitrary bytes (abort iff not UTF-8) and for arbitrary words."
  },
  {
   "property": "C41",
   "status": "partial",
   "theorems": [
    "C41_left_by_name",
    "C41_right_by_name",
    "C41_mid_by_name_partial",
    "C41_left",
    "C41_right",
    "C41_mid_partial",
    "C41_mid_after_the_end_refuted"
   ],
   "note": "LEFT, RIGHT and MID characterised for all arguments. The stated range of MID is false in one corner: MID(s, 0, LEN(s)+1) aborts (refuted)."
  },
  {
   "property": "C42",
   "status": "partial",
   "theorems": [
    "C42_left_right_concat",
    "C42_mid_is_left_partial",
    "C42_mid_is_right_partial",
    "C42_len_left",
    "C42_mid_is_left_refuted",
    "C42_mid_is_right_refuted"
   ],
   "note": "All laws proved; MID(s,L,LEN(s)-L+1) = RIGHT(s,L) is false for L = 0, and MID(s,0,1) = LEFT(s,0) for the empty text: MID aborts there (both refuted)."
  },
  {
   "property": "C43",
   "status": "proved",
   "theorems": [
    "C43_insert_by_name",
    "C43_delete_by_name",
    "C43_replace_by_name",
    "C43_insert",
    "C43_delete",
    "C43_replace",
    "C43_replace_is_delete_then_insert",
    "C43_delete_undoes_insert",
    "C43_lengths_add_up"
   ],
   "note": "For strings below 2^31 characters and non-negative lengths (negative ones: C44); DELETE undoes INSERT needs a non-empty inserted text because DELETE rejects position LEN+1."
  },
  {
   "property": "C44",
   "status": "partial",
   "theorems": [
    "C44_negative_length_refuted",
    "C44_negative_length_debug_partial",
    "C44_negative_length_release_partial"
   ],
   "note": "Refuted in release builds: DELETE('hello',-1,3) = 'heello'. Debug builds always abort; the exact release behaviour is proved."
  },
  {
   "property": "C45",
   "status": "proved",
   "theorems": [
    "C45_find_by_name",
    "C45_find_string"
   ],
   "note": "For haystacks below 2^31 characters, both profiles."
  },
  {
   "property": "C46",
   "status": "proved",
   "theorems": [
    "C46_find_wstring"
   ],
   "note": "For haystacks below 2^31 characters, both profiles."
  },
  {
   "property": "C47",
   "status": "proved",
   "theorems": [
    "C47_concat_ext_by_name",
    "C47_concat_by_name",
    "C47_concat",
    "C47_concat_associative",
    "C47_concat_len",
    "C47_concat_without_arguments",
    "C47_concat_null"
   ],
   "note": "Any number of arguments; with none nothing is written."
  },
  {
   "property": "C48",
   "status": "proved",
   "theorems": [
    "C48_results_well_formed",
    "C48_concat_well_formed",
    "C48_written_in_place"
   ],
   "note": "For arbitrary sources (invalid, unpaired surrogates) whenever the call succeeds. STRING_TO_WSTRING is the exception, see C53."
  },
  {
   "property": "C49",
   "status": "proved",
   "theorems": [
    "C49_compare_by_name",
    "C49_too_few_by_name",
    "C49_ne_by_name",
    "C49_two_strings",
    "C49_all_pairs",
    "C49_too_few_arguments",
    "C49_strict_total_order"
   ],
   "note": "On arbitrary terminated units, any number of arguments."
  },
  {
   "property": "C50",
   "status": "proved",
   "theorems": [
    "C50_string_order_is_code_point_order"
   ],
   "note": "N-ary."
  },
  {
   "property": "C51",
   "status": "partial",
   "theorems": [
    "C51_wstring_order_refuted",
    "C51_wstring_order_partial",
    "C51_wstring_order_bmp_partial"
   ],
   "note": "Refuted: U+FF5E > U+1F600 by UTF-16 words. Partial: order of the words, hence code point order within the BMP."
  },
  {
   "property": "C52",
   "status": "proved",
   "theorems": [
    "C52_wstring_to_string_by_name",
    "C52_string_round_trip",
    "C52_wstring_round_trip",
    "C52_unpaired_surrogates_are_replaced",
    "C52_every_wstring_is_readable"
   ],
   "note": "Round trips into zero-initialised destinations; unpaired surrogates become U+FFFD."
  },
  {
   "property": "C53",
   "status": "partial",
   "theorems": [
    "C53_string_to_wstring_by_name",
    "C53_string_to_wstring_refuted",
    "C53_string_to_wstring_partial"
   ],
   "note": "Refuted: no terminator is written. Partial: right iff the destination held a NUL at that place."
  },
  {
   "property": "C54",
   "status": "partial",
   "theorems": [
    "C54_wchar_to_char",
    "C54_char_to_wchar",
    "C54_char_round_trip_refuted",
    "C54_char_round_trip_partial"
   ],
   "note": "Refuted from 128 on; the exact function on all 256 values is proved."
  },
  {
   "property": "C55",
   "status": "proved",
   "theorems": [
    "C55_lint_round_trip",
    "C55_dint_round_trip",
    "C55_wide_lint_round_trip",
    "C55_wide_dint_round_trip",
    "C55_canonical_numeral",
    "C55_canonical_numerals_are_distinct"
   ],
   "note": "Round trips for STRING and WSTRING; canonical numeral for BYTE, DWORD, LWORD, DINT, LINT."
  },
  {
   "property": "C56",
   "status": "proved",
   "theorems": [
    "C56_string_to_lint",
    "C56_string_to_dint",
    "C56_string_to_integer_by_name"
   ],
   "note": "Exact language and value; every other text is a panic."
  },
  {
   "property": "C57",
   "status": "partial",
   "theorems": [
    "C57_stale_destination_refuted",
    "C57_stale_destination_partial",
    "C57_integers_by_name"
   ],
   "note": "Refuted: no terminator is written (5 over 123 reads 523). Partial: right iff the destination held a NUL at that place."
  },
  {
   "property": "C58",
   "status": "partial",
   "theorems": [
    "C58_wstring_to_dint_refuted",
    "C58_wstring_to_dint_partial",
    "C58_wstring_to_dint_wraps",
    "C58_wstring_to_lint_agrees",
    "C58_long_text_overruns"
   ],
   "note": "Refuted: WSTRING_TO_DINT(\"2147483648\") = -2147483648. Partial: agrees on texts up to 80 bytes that STRING_TO_DINT accepts; longer texts overrun a temporary."
  },
  {
   "property": "C59",
   "status": "proved",
   "theorems": [
    "C59_time_text",
    "C59_distinct_times_have_distinct_texts",
    "C59_a_text_denotes_one_time",
    "C59_time_by_name"
   ],
   "note": "Exact text, one time per text."
  },
  {
   "property": "C60",
   "status": "partial",
   "theorems": [
    "C60_zero_is_empty_refuted",
    "C60_negative_time_refuted",
    "C60_negative_time_partial"
   ],
   "note": "Refuted: 0 gives the empty text, -1 the text of 24h-1ns. Partial: what is written for negative times."
  },
  {
   "property": "C61",
   "status": "proved",
   "theorems": [
    "C61_date_text",
    "C61_tod_text",
    "C61_dt_text",
    "C61_date_text_determines_day",
    "C61_tod_text_determines_time",
    "C61_dt_text_determines_timestamp",
    "C61_dates_by_name"
   ],
   "note": "Texts and their injectivity for every i64."
  },
  {
   "property": "C62",
   "status": "partial",
   "theorems": [
    "C62_lreal_to_string_refuted",
    "C62_lreal_to_string_partial",
    "C62_lreal_to_string_aborts",
    "C62_special_values",
    "C62_real_to_string",
    "C62_reals_by_name",
    "C62_special_by_name"
   ],
   "note": "Refuted: numbers up to -1e73 abort. Partial: exactly those; all others are written as claimed."
  },
  {
   "property": "C63",
   "status": "proved",
   "theorems": [
    "C63_time_of_day",
    "C63_clock_by_name"
   ],
   "note": "Clock reading (seconds, nanoseconds) as parameter."
  },
  {
   "property": "C64",
   "status": "proved",
   "theorems": [
    "C64_conversion_value",
    "C64_round_trip"
   ],
   "note": "All 132 integer/bit conversion functions of the table, every value."
  },
  {
   "property": "C65",
   "status": "proved",
   "theorems": [
    "C65_bool_to_int",
    "C65_bool_round_trip",
    "C65_nonzero_test",
    "C65_bit_types_on_bits"
   ],
   "note": "All BOOL_TO_X and X_TO_BOOL functions."
  },
  {
   "property": "C66",
   "status": "partial",
   "theorems": [
    "C66_bit_type_to_bool_refuted",
    "C66_lowest_bit_partial"
   ],
   "note": "Refuted for all four bit types (2 -> FALSE); the partial proves they return the lowest bit."
  },
  {
   "property": "C67",
   "status": "partial",
   "theorems": [
    "C67_abs_refuted",
    "C67_abs_int_partial",
    "C67_abs_float_partial"
   ],
   "note": "Refuted: ABS of the smallest value is negative. The partials give the exact integer result and the value of the float ABS (whose result for -0.0 keeps the sign)."
  },
  {
   "property": "C68",
   "status": "proved",
   "theorems": [
    "C68_round_by_name",
    "C68_real_to_int",
    "C68_lreal_to_time",
    "C68_trunc",
    "C68_round",
    "C68_nearest_unique"
   ],
   "note": "All sixteen REAL/LREAL to integer conversions, LREAL to TIME/LTIME, TRUNC and ROUND. A result outside the target type is undefined behaviour of the generated code (fptosi poison) and is modelled as such."
  },
  {
   "property": "C69",
   "status": "partial",
   "theorems": [
    "C69_exponent_refuted",
    "C69_exponent_partial"
   ],
   "note": "Refuted (exponent taken modulo 2^32); the partial gives the exact rule."
  },
  {
   "property": "C70",
   "status": "proved",
   "theorems": [
    "C70_same_blocks",
    "C70_instance_memory",
    "C70_variables",
    "C70_alignment",
    "C70_start_time"
   ],
   "note": "Proved for every exported block, both sizes of Option<Instant>, any base address, memory contents and field values. With the older 24-byte representation the last 7 bytes of start_time lie in the tail padding behind the declared buffer (inside the 64-byte instance)."
  },
  {
   "property": "C71",
   "status": "proved",
   "theorems": [
    "C71_by_name",
    "C71_sqrt_nearest",
    "C71_sqrt_nan",
    "C71_sqrt_monotone",
    "C71_sqrt_exact_on_squares",
    "C71_sqrt_special"
   ],
   "note": "Nearest with ties to even, NaN cases, monotone, exact on squares, specials."
  },
  {
   "property": "C72",
   "status": "partial",
   "theorems": [
    "C72_concat_dt_sum_refuted",
    "C72_concat_dt_sum_partial"
   ],
   "note": "False as stated: CONCAT_TOD may return 24h + up to 999 ms and CONCAT_DT then loses a day (refuted, every release). Proved: equal below 24h, exactly one day less above."
  },
  {
   "property": "C73",
   "status": "proved",
   "theorems": [
    "C73_by_name",
    "C73_rounded_once",
    "C73_in_expressions",
    "C73_mul_accuracy",
    "C73_div_accuracy",
    "C73_exact",
    "C73_overflow"
   ],
   "note": "Error bound through Flocq; uses the standard library's real-number axioms. C73_exact: durations without rounding (unrounded, SpecTicks.v); C73_overflow: what certainly does not fit aborts; C73_rounded_once (PropertiesTicks.v): if the exact result in seconds is a value of the format, it is rounded once, halves to even (cut off with the generation DurTrunc); C73_in_expressions (PropertiesTicks2.v): the same for the calls in an expression, by every generic name; C73_exact_limit shows that multiples of 1/512 s are not enough with REAL."
  },
  {
   "property": "C74",
   "status": "proved",
   "theorems": [
    "C74_by_name",
    "C74_expt_exact",
    "C74_expt_reciprocal"
   ],
   "note": "Exact powers and correctly rounded reciprocals; which NaN/rounded value an inexact power gives is not claimed."
  },
  {
   "property": "C75",
   "status": "proved",
   "theorems": [
    "C75_time_to_int",
    "C75_round_trip",
    "C75_lint_round_trip",
    "C75_long_and_short_types_agree",
    "C75_date_and_time_parts"
   ],
   "note": "All conversions of the date/time group; DT_TO_DATE aborts less than a day above the lower end of the range."
  },
  {
   "property": "C76",
   "status": "proved",
   "theorems": [
    "C76_int_to_float",
    "C76_int_float_int",
    "C76_time_to_lreal"
   ],
   "note": "All sixteen integer-to-float conversions and TIME/LTIME to LREAL."
  },
  {
   "property": "C77",
   "status": "proved",
   "theorems": [
    "C77_real_to_lreal",
    "C77_lreal_to_real",
    "C77_round_trip",
    "C77_nan"
   ],
   "note": "Exact widening, correctly rounded narrowing with overflow threshold, identity round trip."
  },
  {
   "property": "C78",
   "status": "proved",
   "theorems": [
    "C78_string_to_lreal",
    "C78_string_to_real",
    "C78_wide_texts_agree",
    "C78_by_name"
   ],
   "note": "Correct rounding against real arithmetic (Flocq)."
  },
  {
   "property": "C79",
   "status": "proved",
   "theorems": [
    "C79_lreal_round_trip",
    "C79_real_round_trip",
    "C79_special_values"
   ],
   "note": "Accuracy of the round trip for LREAL and REAL, special values."
  },
  {
   "property": "C80",
   "status": "proved",
   "theorems": [
    "C80_integers",
    "C80_times",
    "C80_lreal",
    "C80_real"
   ],
   "note": "All eleven conversions."
  },
  {
   "property": "C81",
   "status": "partial",
   "theorems": [
    "C81_tagged",
    "C81_ton_niche_refuted",
    "C81_tp_niche_refuted",
    "C81_tof_niche_refuted",
    "C81_ton_niche_partial",
    "C81_tof_niche_partial",
    "C81_tp_niche_partial"
   ],
   "note": "Proved for the tagged representation of Option<Instant>. For the newer (niche) representation refuted for all three timers; proved there for TON histories beginning with IN off, TOF histories beginning with IN on, and TP outputs given exactly until IN first falls."
  },
  {
   "property": "C82",
   "status": "partial",
   "theorems": [
    "C82_code_of_every_function",
    "C82_interfaces_agree",
    "C82_external_is_exported_partial",
    "C82_external_is_exported_refuted",
    "C82_unique_names",
    "C82_calling_convention_partial",
    "C82_calling_convention_refuted",
    "C82_exported_is_declared_partial",
    "C82_external_generic_is_exported",
    "C82_function_blocks"
   ],
   "note": "Interfaces, unique names: proved. Refuted: SPLIT_LDT__* is declared external and has no symbol; shift, rotate and endianness functions lack extern \"C\". Partial: exactly those exceptions."
  },
  {
   "property": "C83",
   "status": "partial",
   "theorems": [
    "C83_instance_has_code_partial",
    "C83_instance_has_code_refuted",
    "C83_expt_has_code",
    "C83_instance_fits_generic"
   ],
   "note": "Refuted: e.g. ABS of UDINT has no code. Partial: exact list of instances without code. EXPT and agreement of declared instances with their generic: proved."
  },
  {
   "property": "C84",
   "status": "proved",
   "theorems": [
    "C84_bodies_well_scoped",
    "C84_split_ldt_bodies",
    "C84_aliases",
    "C84_result_parameter",
    "C84_wide_texts",
    "C84_concat_dt",
    "C84_split_ltod"
   ],
   "note": "For arbitrary values, library and initial values. Covers the bodies that pass arguments without conversion; the others are C58, C64-C69, C80."
  },
  {
   "property": "C85",
   "status": "partial",
   "theorems": [
    "C85_left",
    "C85_right",
    "C85_mid",
    "C85_delete",
    "C85_string_to_wstring",
    "C85_within_result_refuted",
    "C85_delete_negative_refuted",
    "C85_insert_partial",
    "C85_replace_partial",
    "C85_concat_partial",
    "C85_wstring_to_string_partial"
   ],
   "note": "Proved for LEFT, RIGHT, MID, DELETE with a length that is not negative, STRING_TO_WSTRING. Refuted for INSERT, REPLACE, CONCAT, WSTRING_TO_STRING and DELETE with a negative length (release). Partial: exact size conditions."
  },
  {
   "property": "C86",
   "status": "partial",
   "theorems": [
    "C86_whole_strings_refuted",
    "C86_first_80_units_partial",
    "C86_up_to_80_units_partial"
   ],
   "note": "Refuted: only the first 80 units are compared. Partial: exact rule; agreement up to 80 units. Assumes RuSTy's copy of by-value strings (ModelWrap.v)."
  },
  {
   "property": "C87",
   "status": "partial",
   "theorems": [
    "C87_by_name",
    "C87_string_to_char",
    "C87_char_to_string_refuted",
    "C87_char_to_string_partial"
   ],
   "note": "STRING_TO_CHAR proved. CHAR_TO_STRING refuted (reads the memory behind the character); partial: right exactly if that is zero."
  },
  {
   "property": "C88",
   "status": "proved",
   "theorems": [
    "C88_overloads_agree",
    "C88_splits_agree",
    "C88_names_agree"
   ],
   "note": "All 336 exported functions that are no function blocks, called by name through one table; libm is an abstract function of the platform."
  },
  {
   "property": "C89",
   "status": "partial",
   "theorems": [
    "C89_lreal_real",
    "C89_real_lreal_partial",
    "C89_real_lreal_refuted"
   ],
   "note": "EXPT__LREAL__REAL proved. EXPT__REAL__LREAL refuted: the exponent is rounded to REAL first; partial: exact for exponents that are REAL numbers."
  },
  {
   "property": "C90",
   "status": "proved",
   "theorems": [
    "C90_result_of_type_or_listed_abort",
    "C90_listed_functions_abort"
   ],
   "note": "All 289 exported functions with numeric parameters or one array of numbers; the C mathematical library is a parameter assumed to return numbers of its format. String functions are covered by C40-C63 and C85."
  },
  {
   "property": "C91",
   "status": "proved",
   "theorems": [
    "C91_independent",
    "C91_no_new_aborts",
    "C91_ctu",
    "C91_ctd",
    "C91_ctud",
    "C91_bistables",
    "C91_triggers",
    "C91_timers",
    "C91_input_left_out"
   ],
   "note": "Function blocks executed on bytes: ST stores inputs at its offsets, the Rust function decodes and encodes its struct, ST reads outputs. Little-endian; clock readings of timers within 0..2^63 ns. What zeroed memory means for a timer is C81."
  },
  {
   "property": "C92",
   "status": "proved",
   "theorems": [
    "C92_up_counters",
    "C92_down_counters",
    "C92_up_down_counters",
    "C92_short_histories"
   ],
   "note": "Stated on programs (bytes), any addresses, any pair of build profiles."
  },
  {
   "property": "C93",
   "status": "proved",
   "theorems": [
    "C93_dates",
    "C93_times_of_day",
    "C93_timestamps",
    "C93_split_dates",
    "C93_split_timestamps",
    "C93_days_between",
    "C93_latest_and_earliest"
   ],
   "note": "CONCAT_* for argument types of up to 32 bits (wider ones are C31's finding); milliseconds below 1000 (C30's finding otherwise)."
  },
  {
   "property": "C94",
   "status": "proved",
   "theorems": [
    "C94_date_texts",
    "C94_tod_texts",
    "C94_dt_texts"
   ],
   "note": "The WSTRING comparison reads the same units; texts are ASCII."
  },
  {
   "property": "C95",
   "status": "partial",
   "theorems": [
    "C95_results",
    "C95_comparisons",
    "C95_destinations_partial",
    "C95_concat",
    "C95_time_to_string_refuted"
   ],
   "note": "Proved for every exported function with string parameters except TIME_TO_STRING_EXT, which looks for a terminator it did not write: over an old text it mixes old and new characters, and a destination without NUL aborts (refuted, with witness)."
  },
  {
   "property": "C96",
   "status": "proved",
   "theorems": [
    "C96_memory_cases",
    "C96_characters_cases",
    "C96_left",
    "C96_right",
    "C96_mid",
    "C96_insert",
    "C96_delete",
    "C96_replace",
    "C96_concat_surrogate",
    "C96_concat_not_utf8",
    "C96_find_bytes",
    "C96_find_words",
    "C96_find_absent",
    "C96_bytes_not_utf8",
    "C96_second_not_utf8",
    "C96_unterminated"
   ],
   "note": "Sources and destination are disjoint memories; lengths below 2^31 characters."
  },
  {
   "property": "C97",
   "status": "partial",
   "theorems": [
    "C97_time_shift",
    "C97_polls_ton_tof",
    "C97_polls_tp_partial",
    "C97_polls_tp_refuted"
   ],
   "note": "False for TP only in that an additional call can abort (a fresh or finished TP called with IN = FALSE, see C12): C97_polls_tp_refuted; C97_polls_tp_partial covers all other cases."
  },
  {
   "property": "C98",
   "status": "proved",
   "theorems": [
    "C98_f_trig_is_inverted_r_trig",
    "C98_pulses_count_as_edges",
    "C98_rs_is_dual_of_sr",
    "C98_sr_rs_agree",
    "C98_ctud_is_ctu",
    "C98_ctud_is_ctd",
    "C98_tof_is_inverted_ton"
   ],
   "note": "Stated over all call histories of the two blocks side by side."
  },
  {
   "property": "C99",
   "status": "partial",
   "theorems": [
    "C99_formal_parameters",
    "C99_generic",
    "C99_standard_names_partial",
    "C99_standard_names_refuted"
   ],
   "note": "Decided over the table of all declarations of the ST files. The last sentence is false for LIMIT (MIN, IN, MAX instead of MN, IN, MX) and SIN, COS, TAN (rad instead of IN), and for these only."
  },
  {
   "property": "C100",
   "status": "partial",
   "theorems": [
    "C100_names",
    "C100_numbers",
    "C100_words_and_integers",
    "C100_from_bool",
    "C100_reverse_partial",
    "C100_reverse_refuted"
   ],
   "note": "The last sentence is false: exactly 20 conversions between non-text types have no reverse, among them DT_TO_LINT (there is no LINT_TO_DT) and BOOL_TO_SINT."
  },
  {
   "property": "C101",
   "status": "proved",
   "theorems": [
    "C101_functions",
    "C101_atan2",
    "C101_expt",
    "C101_expt_lreal_real",
    "C101_expt_real_lreal"
   ],
   "note": "For every platform whose mathematical methods satisfy a closeness relation (an arbitrary predicate on format, result and real value), the exported functions, called by name, satisfy it for the real functions of the standard library. A correctly rounding library is shown to meet the assumption."
  },
  {
   "property": "C102",
   "status": "proved",
   "theorems": [
    "C102_result_of_type_or_listed",
    "C102_listed_abort",
    "C102_listed_undefined",
    "C102_generic_calls",
    "C102_any_number_of_arguments"
   ],
   "note": "Proved by an effect analysis of the Structured Text functions and of calls between functions, proved sound, whose results are computed for every declaration; exported functions by C90. Listed functions: exact. Not covered: functions with string parameters or results (C40-C63, C85-C87)."
  },
  {
   "property": "C103",
   "status": "proved",
   "theorems": [
    "C103_int_to_real",
    "C103_time_to_lreal",
    "C103_real_to_int",
    "C103_lreal_to_time",
    "C103_trunc",
    "C103_round",
    "C103_real_to_lreal",
    "C103_lreal_to_real",
    "C103_product",
    "C103_quotient"
   ],
   "note": "Proved. Conversions of integers among themselves are exact when in range (C64) and therefore also monotone. The negative factor case follows from sign symmetry (C38). For the products and quotients the hard step is that the seconds of a duration, computed with up to four roundings, grow with the duration: the rounding of s + 1 seconds is never below the rounded sum for s seconds and a fraction."
  },
  {
   "property": "C104",
   "status": "partial",
   "theorems": [
    "C104_substrings",
    "C104_delete",
    "C104_insert",
    "C104_replace",
    "C104_replace_in_place",
    "C104_replace_in_place_shorter",
    "C104_concat",
    "C104_append",
    "C104_left_refuted",
    "C104_insert_refuted",
    "C104_replace_refuted",
    "C104_replace_undefined_refuted",
    "C104_concat_refuted"
   ],
   "note": "Partial because the statement is false for some overlaps: refuted for LEFT to a place inside its source, INSERT in the middle in place, REPLACE in place by a longer text (or by fewer bytes, which can be undefined), and CONCAT with the destination as a later argument. Proved for all others listed. Reads and writes are assumed to happen in program order, which Rust's aliasing rules do not promise for overlapping memory."
  },
  {
   "property": "C105",
   "status": "partial",
   "theorems": [
    "C105_ton_tof",
    "C105_tp",
    "C105_tp_rises_with_in_partial",
    "C105_tp_rises_with_in_refuted"
   ],
   "note": "Partial because Q of TP can rise without an edge of IN when PT is raised after the pulse (refuted with a witness for IN constantly TRUE and constantly FALSE); proved for constant PT. The effect of changed presets is proved exactly for TON, TOF and TP."
  },
  {
   "property": "C106",
   "status": "proved",
   "theorems": [
    "C106_blinker_ticks",
    "C106_blinker_period",
    "C106_delays_add_up",
    "C106_delays_pass",
    "C106_debounce",
    "C106_debounce_holds",
    "C106_toggle"
   ],
   "note": "blinker, delays in series, debouncer and toggle, over histories of any length"
  },
  {
   "property": "C107",
   "status": "partial",
   "theorems": [
    "C107_meaning",
    "C107_trigger_counts_refuted",
    "C107_trigger_counts_partial"
   ],
   "note": "Exact count, with the lost edge characterised; the plain statement is refuted. Missing: the history in which the edge is lost, where the statement is false."
  },
  {
   "property": "C108",
   "status": "partial",
   "theorems": [
    "C108_interface",
    "C108_names",
    "C108_regenerate_refuted",
    "C108_real_to_int_partial",
    "C108_whole_partial",
    "C108_others_partial"
   ],
   "note": "False: the generator writes `in` where the library's 16 real-to-integer functions have ROUND(in), so regenerating turns rounding into truncation (C108_regenerate_refuted). Proved: same interfaces in the same order, exact value of the regenerated functions, agreement on whole numbers and on all other functions."
  },
  {
   "property": "C109",
   "status": "proved",
   "theorems": [
    "C109_sign",
    "C109_nan",
    "C109_opposite",
    "C109_monotone",
    "C109_accuracy",
    "C109_accuracy_negative"
   ],
   "note": "Sign, NaN, symmetry and order for all bases and exponents; accuracy under the explicit hypothesis that the exact power, widened by one rounding per factor, stays between the smallest normal number and the overflow threshold. powi is modelled as the square-and-multiply loop of compiler-rt (see DESIGN 3)."
  },
  {
   "property": "C110",
   "status": "proved",
   "theorems": [
    "C110_left",
    "C110_right",
    "C110_mid",
    "C110_delete",
    "C110_insert",
    "C110_replace",
    "C110_concat",
    "C110_len",
    "C110_find",
    "C110_compare",
    "C110_equal_texts",
    "C110_operators",
    "C110_wstring_to_string",
    "C110_string_to_wstring",
    "C110_first_unit"
   ],
   "note": "All calls by generic name are executed by the model of the compiler's dispatch (ModelApi.v) down to the Rust functions. DELETE is stated for lengths that are not negative (see C44); INSERT, REPLACE, CONCAT and WSTRING_TO_STRING exactly: results beyond 2048 units overrun (see C85)."
  },
  {
   "property": "C111",
   "status": "proved",
   "theorems": [
    "C111_integers",
    "C111_times",
    "C111_dates",
    "C111_times_of_day",
    "C111_timestamps",
    "C111_reals",
    "C111_parse_integers",
    "C111_parse_wide_integers",
    "C111_parse_reals",
    "C111_parse_wide_reals",
    "C111_integer_round_trips",
    "C111_real_round_trip",
    "C111_lreal_round_trip"
   ],
   "note": "Calls by name. TIME is stated for times that are not negative and LREAL above -10^73 (see C60, C62 for the rest), WSTRING parsing for texts of at most 80 bytes (see C58)."
  },
  {
   "property": "C112",
   "status": "proved",
   "theorems": [
    "C112_left_of_concat",
    "C112_right_of_concat",
    "C112_concat_assoc",
    "C112_len_of_concat",
    "C112_split_left_right",
    "C112_split_left_mid",
    "C112_delete_undoes_insert",
    "C112_replace_is_insert_delete",
    "C112_find_mid",
    "C112_find_replace",
    "C112_wide_and_back",
    "C112_narrow_and_back",
    "C112_left_of_left",
    "C112_mid_is_right_of_left",
    "C112_insert_at_ends",
    "C112_find_inserted",
    "C112_find_appended",
    "C112_delete_found",
    "C112_not_found_aborts",
    "C112_starts_with",
    "C112_ends_with",
    "C112_shorter_aborts",
    "C112_appended_is_greater",
    "C112_appended_operator"
   ],
   "note": "Expressions are evaluated by value_of (ModelApi.v), the evaluator that also runs the ST bodies."
  },
  {
   "property": "C113",
   "status": "proved",
   "theorems": [
    "C113_date",
    "C113_tod",
    "C113_dt",
    "C113_date_back",
    "C113_tod_back",
    "C113_dt_back"
   ],
   "note": "Full. The exact condition under which CONCAT aborts (midnight of the first representable day) is part of the theorem."
  },
  {
   "property": "C114",
   "status": "proved",
   "theorems": [
    "C114_sums",
    "C114_add_days",
    "C114_days_between",
    "C114_month_length",
    "C114_year_length",
    "C114_weekday",
    "C114_cycle",
    "C114_leap_day"
   ],
   "note": "Full. Aborts beyond the TIME range are part of the theorems."
  },
  {
   "property": "C115",
   "status": "proved",
   "theorems": [
    "C115_convert",
    "C115_convert_chain",
    "C115_convert_back",
    "C115_int_through_real",
    "C115_real_through_lreal",
    "C115_bits_through_real",
    "C115_rotations",
    "C115_shifts",
    "C115_rotate_is_shifts",
    "C115_byte_order",
    "C115_select_nested",
    "C115_select_order",
    "C115_select_lattice",
    "C115_limit",
    "C115_time_scaling",
    "C115_time_sums",
    "C115_time_distributes",
    "C115_dt_recomposed"
   ],
   "note": "Expressions are evaluated by the interpreter of ModelApi.v from the declarations of the library; the operators of RuSTy (+, AND, ...) are not part of the library and not modelled. The conversions through REAL use the axioms of the reals (for Flocq)."
  },
  {
   "property": "C116",
   "status": "proved",
   "theorems": [
    "C116_variable",
    "C116_abs",
    "C116_round",
    "C116_trunc",
    "C116_to_integer",
    "C116_of_integer",
    "C116_through_real",
    "C116_widen",
    "C116_narrow",
    "C116_widen_narrow",
    "C116_sqrt",
    "C116_sqrt_ordered",
    "C116_power",
    "C116_square_root",
    "C116_root_square",
    "C116_select",
    "C116_max_nested",
    "C116_limit",
    "C116_time_to_lreal",
    "C116_lreal_to_time",
    "C116_time_through_lreal",
    "C116_times",
    "C116_mul_div"
   ],
   "note": "Rules and laws for arbitrary argument expressions with finite values, in the executable semantics of calls (ModelApi.v). Not covered: NaN and infinities inside expressions (C18, C23, C68 treat them per function), the libm functions (C101)."
  },
  {
   "property": "C117",
   "status": "proved",
   "theorems": [
    "C117_cascade",
    "C117_at_most",
    "C117_fast",
    "C117_reloading",
    "C117_edge_of_edge",
    "C117_every_change",
    "C117_rebuilt"
   ],
   "note": "All cycles. C117_fast shows that the condition on the input of C117_cascade is needed."
  },
  {
   "property": "C118",
   "status": "proved",
   "theorems": [
    "C118_rises",
    "C118_holds",
    "C118_falls",
    "C118_pulse_length",
    "C118_pause_length",
    "C118_watchdog",
    "C118_retriggerable",
    "C118_latch",
    "C118_pulse_needs_edge",
    "C118_one_pulse",
    "C118_second_pulse"
   ],
   "note": "All cycles, all call times. The circuits are conditions on the histories of calls of the modelled blocks. R_TRIG before TP: PropertiesPulse.v."
  },
  {
   "property": "C119",
   "status": "proved",
   "theorems": [
    "C119_value",
    "C119_aborts",
    "C119_unique",
    "C119_rounding_unique",
    "C119_complete"
   ],
   "note": "means/aborts (SpecTerm.v) are defined from the reference yields/fails; C119_value and C119_aborts hold for all expressions, C119_unique for uniqueness, C119_complete for typed expressions of integers, bit strings, times and dates. Texts longer than 2048 units and out-of-range TRUNC or real-to-integer conversions are outside the reference: there the code is undefined (C85, C111, C116)."
  },
  {
   "property": "C120",
   "status": "proved",
   "theorems": [
    "C120_value_of_type",
    "C120_never_fails",
    "C120_unique_type",
    "C120_programs",
    "C120_cycles"
   ],
   "note": "Types of expressions (has_type) and programs of assignments (well_typed) are defined in SpecType.v from the declarations alone; strings are excluded. C120_never_fails and C120_cycles are the statements for expressions that call no listed function."
  },
  {
   "property": "C121",
   "status": "proved",
   "theorems": [
    "C121_goes_on",
    "C121_cycles",
    "C121_instances",
    "C121_up_counter",
    "C121_down_counter",
    "C121_rising_edge",
    "C121_bistable",
    "C121_timer",
    "C121_on_delay",
    "C121_up_down_counter",
    "C121_falling_edge",
    "C121_off_delay",
    "C121_pulse"
   ],
   "note": "Combines the memory model of the blocks (C91) with the typed expressions (C120) and the SPLIT functions (C113) as statements. Strings are not covered. Inputs are passed at exactly the declared type (a conversion is written as an assignment before). The on-delay, off-delay and pulse corollaries are for the layout where zeroed memory is a fresh timer (C81 has the other)."
  },
  {
   "property": "C122",
   "status": "proved",
   "theorems": [
    "C122_text",
    "C122_count",
    "C122_comparison",
    "C122_program",
    "C122_cycles",
    "C122_delete_bound_reached",
    "C122_narrow_bound_reached"
   ],
   "note": "Never Ub, results valid and within their bound, for expressions and programs of any size and any number of cycles; closed under the global context. Not all functions are in the rules: other conversions to texts are bounded in C111."
  },
  {
   "property": "C123",
   "status": "proved",
   "theorems": [
    "C123_value",
    "C123_goes_on",
    "C123_cycles",
    "C123_instances",
    "C123_up_counter",
    "C123_down_counter",
    "C123_up_down_counter",
    "C123_rising_edge",
    "C123_falling_edge",
    "C123_bistable",
    "C123_timer",
    "C123_on_delay",
    "C123_off_delay",
    "C123_pulse"
   ],
   "note": "C123_value: any nesting of the functions of C120 and C122, of the conversions between texts and values and of text comparisons gives a value as described by the rules of SpecWhole.v, or is stopped by a function it calls that is listed in stoppers or undefined. C123_goes_on: executions keep what is known of every variable; whatever derivation is given for the statement that stopped, it names a listed function or block. C123_cycles: without these, any number of cycles. C123_instances and the ten theorems on blocks: as C121, with inputs computed from texts too. Not covered: text variables without a known bound, operators of the compiler."
  },
  {
   "property": "C124",
   "status": "proved",
   "theorems": [
    "C124_refines",
    "C124_stops",
    "C124_unique",
    "C124_complete"
   ],
   "note": "C124_refines: simulation of any program with a meaning by the model of the code, final variables and instance outputs agree; C124_stops: programs the reference stops abort; C124_unique: at most one meaning; C124_complete: typed programs over integers, bit strings, times, dates and all function blocks have a meaning or are stopped, hence the run is characterised exactly. Timers are in the reference with any preset, also negative ones, and pulse timers with all their states (C12, C13, C105). Programs with timers need the representation of Option<Instant> in which zeroed memory is a fresh timer (C81). Cases: a program with a counter, MAX, an on-delay and CONCAT derived in the reference and run in the model; a program stopped by an overflow of TIME; a typed program; a pulse timer through all its states."
  },
  {
   "property": "C125",
   "status": "proved",
   "theorems": [
    "C125_expression",
    "C125_complete"
   ],
   "note": "Closes the gap left by C124_complete: expressions with texts. `formed` bounds the length of every text and the sign of lengths; every formed expression is computed to what the reference says or aborts as the reference says. Of real numbers, two integers between which they lie are tracked; rounding cannot leave bounds that are themselves representable. EXPT, texts read as real numbers and times multiplied by real numbers are not covered by this claim (C124_refines covers the programs with them that have a meaning)."
  }
 ]
}