{
 "claims": [
  {
   "property": "C01",
   "status": "proved",
   "theorems": [
    "C01_parsing_is_exact",
    "C01_from_str_is_exact",
    "C01_parsed_decimals_are_clean"
   ],
   "note": ""
  },
  {
   "property": "C02",
   "status": "proved",
   "theorems": [
    "C02_numerals_within_the_limits_are_accepted",
    "C02_from_str_accepts"
   ],
   "note": ""
  },
  {
   "property": "C03",
   "status": "proved",
   "theorems": [
    "C03_the_rest_is_rejected"
   ],
   "note": ""
  },
  {
   "property": "C04",
   "status": "partial",
   "theorems": [
    "C04_limit_is_sharp_refuted",
    "C04_long_strings_refuted",
    "C04_long_exponents_refuted",
    "C04_parsing_is_total_and_exact_partial",
    "C04_debug_builds_partial"
   ],
   "note": "Refuted as stated (an i8 digit counter wraps: '1' and 256 zeroes is read as 1 in release builds, debug builds panic; an exponent of ten digits panics). Proved: exactly the right result below 128 mantissa digits, and in debug builds, for strings of every length, the right result or a panic (C04_debug_builds_partial). The limit is sharp: a numeral of 128 digits panics in both builds. C93 gives the outcome of every string in release builds."
  },
  {
   "property": "C05",
   "status": "partial",
   "theorems": [
    "C05_every_string_partial",
    "C05_debug_builds_partial",
    "C05_reset_ignores_the_target_partial",
    "C05_same_number_partial",
    "C05_stale_units_refuted"
   ],
   "note": "holds with reset = true; with reset = false the number, sign and digit counts agree for every string in both builds (C05_every_string_partial), but stale upper units remain (refuted)"
  },
  {
   "property": "C06",
   "status": "proved",
   "theorems": [
    "C06_failed_parse"
   ],
   "note": ""
  },
  {
   "property": "C07",
   "status": "partial",
   "theorems": [
    "C07_digit_limit_partial",
    "C07_fraction_limit_refuted"
   ],
   "note": "65-digit limit proved for every string; the limit of 30 fractional digits is refuted"
  },
  {
   "property": "C08",
   "status": "proved",
   "theorems": [
    "C08_to_string_is_canonical",
    "C08_to_string_is_exact",
    "C08_canonical_numerals_are_unique"
   ],
   "note": ""
  },
  {
   "property": "C09",
   "status": "proved",
   "theorems": [
    "C09_to_string_truncates"
   ],
   "note": ""
  },
  {
   "property": "C10",
   "status": "proved",
   "theorems": [
    "C10_printing_then_parsing",
    "C10_declared_digits_suffice"
   ],
   "note": ""
  },
  {
   "property": "C11",
   "status": "proved",
   "theorems": [
    "C11_parsing_then_printing",
    "C11_exponents_are_expanded"
   ],
   "note": ""
  },
  {
   "property": "C12",
   "status": "proved",
   "theorems": [
    "C12_formatting_appends_ascii"
   ],
   "note": ""
  },
  {
   "property": "C13",
   "status": "proved",
   "theorems": [
    "C13_comparison_is_numeric",
    "C13_eq_is_numeric",
    "C13_lt_is_numeric",
    "C13_gt_is_numeric"
   ],
   "note": ""
  },
  {
   "property": "C14",
   "status": "proved",
   "theorems": [
    "C14_comparison_is_a_total_order"
   ],
   "note": ""
  },
  {
   "property": "C15",
   "status": "partial",
   "theorems": [
    "C15_equal_numbers_compare_equal_refuted",
    "C15_equal_numbers_compare_equal_partial"
   ],
   "note": "False of the code: \"-0\" and \"0\" denote the same number and are not ==. Proved for all pairs without a negative zero."
  },
  {
   "property": "C16",
   "status": "partial",
   "theorems": [
    "C16_refuted",
    "C16_same_shape_partial"
   ],
   "note": "False of the code: 1 and 1.0 are == and hash differently. Proved for decimals of the same unit counts (see C17)."
  },
  {
   "property": "C17",
   "status": "proved",
   "theorems": [
    "C17_hash_feed",
    "C17_hash_returns"
   ],
   "note": ""
  },
  {
   "property": "C18",
   "status": "proved",
   "theorems": [
    "C18_from_i64_is_exact",
    "C18_from_u64_is_exact"
   ],
   "note": ""
  },
  {
   "property": "C19",
   "status": "proved",
   "theorems": [
    "C19_as_i64"
   ],
   "note": ""
  },
  {
   "property": "C20",
   "status": "proved",
   "theorems": [
    "C20_as_u64"
   ],
   "note": ""
  },
  {
   "property": "C21",
   "status": "proved",
   "theorems": [
    "C21_i64_round_trip",
    "C21_u64_round_trip",
    "C21_comparison_of_integers",
    "C21_i64_prints_in_decimal",
    "C21_u64_prints_in_decimal"
   ],
   "note": ""
  },
  {
   "property": "C22",
   "status": "proved",
   "theorems": [
    "C22_addition_is_exact",
    "C22_addition_returns_iff_room",
    "C22_addition_keeps_shape"
   ],
   "note": ""
  },
  {
   "property": "C23",
   "status": "proved",
   "theorems": [
    "C23_subtraction_is_exact",
    "C23_subtraction_returns_iff_room",
    "C23_subtraction_keeps_shape"
   ],
   "note": ""
  },
  {
   "property": "C24",
   "status": "partial",
   "theorems": [
    "C24_overflow_is_an_error_refuted",
    "C24_carry_panics_refuted",
    "C24_overflow_is_an_error_partial"
   ],
   "note": "False of the code: add/sub panic with index out of bounds instead of returning Err(Overflow). The exact set of operands on which they return is proved (C22_addition_returns_iff_room)."
  },
  {
   "property": "C25",
   "status": "proved",
   "theorems": [
    "C25_addition_commutes",
    "C25_addition_associates",
    "C25_zero_is_neutral",
    "C25_self_difference_is_zero",
    "C25_subtraction_is_antisymmetric",
    "C25_subtraction_undoes_addition"
   ],
   "note": ""
  },
  {
   "property": "C26",
   "status": "partial",
   "theorems": [
    "C26_no_negative_zero_add",
    "C26_no_negative_zero_sub",
    "C26_no_negative_zero_mul",
    "C26_no_negative_zero_div",
    "C26_no_negative_zero_rem",
    "C26_no_negative_zero_refuted"
   ],
   "note": "False as stated: 5000000000 / 10 * (-2) is a zero with the sign flag set, in both builds (C26_no_negative_zero_refuted; the quotient declares one integral digit too few, C36). Proved: no sum or difference, no product of decimals that declare all their digits, and no quotient and no remainder whatsoever is a negative zero."
  },
  {
   "property": "C27",
   "status": "proved",
   "theorems": [
    "C27_previous_result_is_irrelevant"
   ],
   "note": ""
  },
  {
   "property": "C28",
   "status": "proved",
   "theorems": [
    "C28_multiplication_is_exact",
    "C28_multiplication_returns"
   ],
   "note": ""
  },
  {
   "property": "C29",
   "status": "proved",
   "theorems": [
    "C29_truncation_error",
    "C29_sign_and_shape",
    "C29_error_can_exceed_two_ulps"
   ],
   "note": ""
  },
  {
   "property": "C30",
   "status": "proved",
   "theorems": [
    "C30_overflow_iff_too_many_digits",
    "C30_overflow_is_returned"
   ],
   "note": ""
  },
  {
   "property": "C31",
   "status": "partial",
   "theorems": [
    "C31_multiplication_never_panics_refuted",
    "C31_long_integers_panic_refuted",
    "C31_multiplication_returns_iff_partial",
    "C31_release_returns_partial"
   ],
   "note": "False of the code: \".5\" * \".5\" panics in a debug build (failed assertion), 60-digit integers panic in both builds. The exact set of operands on which mul_to returns is proved."
  },
  {
   "property": "C32",
   "status": "proved",
   "theorems": [
    "C32_multiplication_commutes",
    "C32_multiplication_associates",
    "C32_multiplication_distributes",
    "C32_one_is_neutral",
    "C32_zero_absorbs",
    "C32_signs"
   ],
   "note": ""
  },
  {
   "property": "C33",
   "status": "proved",
   "theorems": [
    "C33_zero_divisors_are_reported",
    "C33_only_zero_divisors_are_reported",
    "C33_operators_panic"
   ],
   "note": ""
  },
  {
   "property": "C34",
   "status": "partial",
   "theorems": [
    "C34_truncated_quotient_refuted",
    "C34_release_small_operands_refuted",
    "C34_release_unit_overflow_refuted",
    "C34_truncated_quotient_partial",
    "C34_quotient_units_partial",
    "C34_overflow_iff",
    "C34_ten_digits",
    "C34_room",
    "C34_any_divisor_partial"
   ],
   "note": "False in general (three refutations, among them a silent wrong quotient in both builds). Proved for all dividends and divisors whose non-zero digits lie in two consecutive base-10^9 units (in particular up to ten significant digits), and for all operands whose quotient is tame (no nine-digit group of the digits asked for within ten of 10^9; no low group when the divisor is much longer than the dividend): truncated quotient, sign, units, overflow. No condition on the sizes of the operands (fewer than 248 fractional digits asked for; C92 covers every request). For every divisor: integral units, sign, and overflow exactly for more than 81 integral digits. In debug builds every quotient of integers, and of any decimals whose divisor is not cut, is right (C97)."
  },
  {
   "property": "C35",
   "status": "partial",
   "theorems": [
    "C35_division_never_panics_refuted",
    "C35_large_request_refuted",
    "C35_division_returns_partial",
    "C35_what_does_not_fit_panics",
    "C35_returns_iff_it_fits_partial",
    "C35_release_returns_partial",
    "C35_release_returns_iff_it_fits"
   ],
   "note": "False in general (assertion in debug builds, index out of bounds and i8 overflow in both). Proved: in release builds division of non-zero decimals returns exactly if it fits (division_fits in Spec_Div: digit counts within an i8, and not the nine-unit buffer case), for every divisor; in every build what does not fit panics; in debug builds everything that fits returns for divisors of one significant unit or a tame quotient; C96 says exactly what returns for divisors of two units. Requests for more than 247 fractional digits wrap around (refuted) and are excluded. C97 says exactly what returns in debug builds for longer divisors."
  },
  {
   "property": "C36",
   "status": "partial",
   "theorems": [
    "C36_quotients_are_operands_refuted",
    "C36_quotients_are_operands_partial",
    "C36_regular_quotients_partial",
    "C36_debug_quotients_partial",
    "C36_debug_operands_partial"
   ],
   "note": "False: quotients may declare one integral digit too few, which multiplication trusts. Proved: they can be compared, added, subtracted; and are regular under a condition on the leading digits. Every quotient a debug build returns is a well-formed decimal."
  },
  {
   "property": "C37",
   "status": "partial",
   "theorems": [
    "C37_truncated_remainder_refuted",
    "C37_truncated_remainder_partial",
    "C37_two_units",
    "C37_smaller_dividend",
    "C37_ten_digit_divisors_partial",
    "C37_tame_quotients",
    "C37_tame_remainder_partial",
    "C37_regular_partial",
    "C37_any_remainder_partial"
   ],
   "note": "False in general: 2 % 1.000000000000000001 is returned as 0.000000000000000002 in both builds. Proved for every pair for which long division guesses all quotient units right; this is shown for divisors of up to ten significant digits, digits within two base-10^9 units, a dividend smaller than the divisor, and any divisor if no integral group of nine quotient digits is within ten of 10^9. For every divisor: a well-formed decimal, of the sign of the dividend, smaller than four times the divisor. C94 gives the exact criterion when no integral group is within ten of 10^9, and the result for all machine integers."
  },
  {
   "property": "C38",
   "status": "proved",
   "theorems": [
    "C38_round_to_is_half_away",
    "C38_round_to_returns_iff_room",
    "C38_longer_keeps_the_number"
   ],
   "note": ""
  },
  {
   "property": "C39",
   "status": "partial",
   "theorems": [
    "C39_refuted_whole_units",
    "C39_refuted_top_digit",
    "C39_round_to_negative_partial",
    "C39_round_to_above_the_digits_partial"
   ],
   "note": "False: for f a multiple of 9 the code truncates (round_to(1999999999, -9) = 1000000000), and 95 rounded to hundreds is 0. Proved: what round_to returns for every f below the digit count, and above it."
  },
  {
   "property": "C40",
   "status": "partial",
   "theorems": [
    "C40_refuted",
    "C40_in_place_agrees_partial",
    "C40_growing_agrees_iff_partial"
   ],
   "note": "False: in-place round to more units keeps the old lowest units (1.5 rounded to 10 digits is 1.5000000005). Proved: equal whenever no unit is added, and exactly when the units concerned are zero otherwise."
  },
  {
   "property": "C41",
   "status": "proved",
   "theorems": [
    "C41_rounding_twice",
    "C41_rounding_is_monotone",
    "C41_rounding_is_close",
    "C41_equal_numbers_round_equally"
   ],
   "note": ""
  },
  {
   "property": "C42",
   "status": "partial",
   "theorems": [
    "C42_refuted_wraps",
    "C42_refuted_panics",
    "C42_nonnegative_arguments_partial",
    "C42_negative_arguments_partial",
    "C42_well_formed_partial"
   ],
   "note": "False as stated: round(250) gives frac() = -6, round(100) panics. Proved for -2^63+1 < f <= 127: every well-formed decimal, with round_to and in place, is left well-formed with frac() = max(0,f), or the call panics. The remaining positions are settled by C88."
  },
  {
   "property": "C43",
   "status": "proved",
   "theorems": [
    "C43_histories_keep_values_regular",
    "C43_from_zero",
    "C43_values_are_operands"
   ],
   "note": "Including failed calls. Remainders are restricted to guesses_right, division and in-place growth are in C44."
  },
  {
   "property": "C44",
   "status": "partial",
   "theorems": [
    "C44_histories_with_division_refuted",
    "C44_careful_histories_partial",
    "C44_well_formed_histories_partial",
    "C44_debug_histories_partial",
    "C44_values_are_operands_partial"
   ],
   "note": "False as stated: in release builds division can leave a unit above 10^9; quotients can declare too few digits, in-place rounding and parsing with reset = false leave digits beyond the declared ones. Proved: in debug builds every history of calls of the API (rounding positions up to 127) keeps every variable well-formed, and so comparison, sums and differences of its values exact; in both builds the same for histories without division, whatever the strings and digits; and all of C43/C54 for division by divisors of two significant units or with tame quotients, with the leading digits aligned, and in-place rounding that adds no unit."
  },
  {
   "property": "C45",
   "status": "proved",
   "theorems": [
    "C45_operators_return",
    "C45_operators_panic"
   ],
   "note": ""
  },
  {
   "property": "C46",
   "status": "proved",
   "theorems": [
    "C46_is_zero_means_zero"
   ],
   "note": ""
  },
  {
   "property": "C47",
   "status": "proved",
   "theorems": [
    "C47_sign_accessors"
   ],
   "note": ""
  },
  {
   "property": "C48",
   "status": "proved",
   "theorems": [
    "C48_builds_agree",
    "C48_debug_is_release_with_checks",
    "C48_remainder_with_checks",
    "C48_remainder_with_room",
    "C48_operators_agree"
   ],
   "note": ""
  },
  {
   "property": "C49",
   "status": "proved",
   "theorems": [
    "C49_subtraction_and_comparison_agree"
   ],
   "note": ""
  },
  {
   "property": "C50",
   "status": "proved",
   "theorems": [
    "C50_end_to_end_products",
    "C50_end_to_end_sums",
    "C50_end_to_end_differences"
   ],
   "note": ""
  },
  {
   "property": "C51",
   "status": "proved",
   "theorems": [
    "C51_running_totals_are_exact",
    "C51_running_totals_return"
   ],
   "note": ""
  },
  {
   "property": "C52",
   "status": "proved",
   "theorems": [
    "C52_unit_counts"
   ],
   "note": ""
  },
  {
   "property": "C53",
   "status": "partial",
   "theorems": [
    "C53_remainder_never_panics_refuted",
    "C53_remainder_returns_partial",
    "C53_small_dividend_panics_refuted",
    "C53_too_long_panics_refuted",
    "C53_one_unit_divisors_partial",
    "C53_tame_quotients_partial",
    "C53_release_returns_partial"
   ],
   "note": "False in general (failed assertions in debug builds; index out of bounds in both builds when the integral units of a smaller dividend do not fit beside the fractional units of the divisor). Proved: with right guesses (in particular with tame quotients) exactly these dividends panic. In a release build exactly these, for all divisors. Operands of at least 10^72 with divisors of nine fractional groups (too_long, Spec_Rem.v) panic as well: proved for all of them. C95 says exactly when a debug build returns."
  },
  {
   "property": "C54",
   "status": "proved",
   "theorems": [
    "C54_histories_are_exact",
    "C54_numbers_are_determined"
   ],
   "note": ""
  },
  {
   "property": "C55",
   "status": "proved",
   "theorems": [
    "C55_only_numbers_matter"
   ],
   "note": ""
  },
  {
   "property": "C56",
   "status": "proved",
   "theorems": [
    "C56_flip_is_a_sign_change",
    "C56_products",
    "C56_quotients",
    "C56_remainders",
    "C56_sums_and_differences"
   ],
   "note": ""
  },
  {
   "property": "C57",
   "status": "partial",
   "theorems": [
    "C57_exact_quotients_refuted",
    "C57_exact_quotients_partial",
    "C57_division_undoes_multiplication_partial",
    "C57_division_by_one",
    "C57_division_by_itself_partial"
   ],
   "note": "False: (1.999999999999999999 * 1.000000001000000001) / 1.000000001000000001 panics in debug builds and is malformed in release builds. Proved for divisors of two significant units and for tame quotients; division by one without condition. In debug builds it holds for every divisor, if the call returns (C98)."
  },
  {
   "property": "C58",
   "status": "partial",
   "theorems": [
    "C58_division_and_remainder_agree_partial",
    "C58_division_and_remainder_agree_refuted"
   ],
   "note": "False where the remainder or quotient is wrong (2 and 1.000000000000000001). Proved for divisors of two significant units and for tame quotients. It holds for every pair whose quotient a debug build returns without cutting the divisor (C98)."
  },
  {
   "property": "C59",
   "status": "proved",
   "theorems": [
    "C59_averages_are_truncated_means",
    "C59_averages_lie_between"
   ],
   "note": ""
  },
  {
   "property": "C60",
   "status": "proved",
   "theorems": [
    "C60_sums_keep_the_order",
    "C60_differences_keep_the_order",
    "C60_products_keep_the_order"
   ],
   "note": ""
  },
  {
   "property": "C61",
   "status": "partial",
   "theorems": [
    "C61_division_is_monotone_refuted",
    "C61_division_is_monotone_partial",
    "C61_order_up_to_one_place_partial",
    "C61_larger_divisors_partial"
   ],
   "note": "False: 2/3 has 9 fractional digits and is below 1.9999999999999999999999/3, which has 27. Proved (divisors of two significant units, tame quotients): the order is kept between results with the same number of fractional digits, and in general up to one unit in the last place of the shorter result."
  },
  {
   "property": "C62",
   "status": "proved",
   "theorems": [
    "C62_rounded_numerals",
    "C62_end_to_end_rounding"
   ],
   "note": ""
  },
  {
   "property": "C63",
   "status": "proved",
   "theorems": [
    "C63_parsed_integers",
    "C63_integers_are_read_back",
    "C63_naturals_are_read_back"
   ],
   "note": ""
  },
  {
   "property": "C64",
   "status": "partial",
   "theorems": [
    "C64_running_products_are_exact_refuted",
    "C64_running_products_are_exact_partial",
    "C64_running_products_return_partial"
   ],
   "note": "False: the declared integral digits grow by a unit with each factor, 1*1*...*1 (eleven factors) overflows. Proved, with returning, if the integral units of the factors and the units of all fractional digits add up to at most nine (four for the fraction)."
  },
  {
   "property": "C65",
   "status": "proved",
   "theorems": [
    "C65_rounded_quotients",
    "C65_quotients_to_integers",
    "C65_rounded_averages",
    "C65_end_to_end_quotients"
   ],
   "note": "tame: no group of the quotient next to a base boundary, see Spec_Div.v; the exact quotient condition is C34."
  },
  {
   "property": "C66",
   "status": "proved",
   "theorems": [
    "C66_rounded_products",
    "C66_end_to_end_products"
   ],
   "note": ""
  },
  {
   "property": "C67",
   "status": "proved",
   "theorems": [
    "C67_printed_keys",
    "C67_reparsed_keys"
   ],
   "note": ""
  },
  {
   "property": "C68",
   "status": "proved",
   "theorems": [
    "C68_order_of_strings",
    "C68_sorted_lists"
   ],
   "note": ""
  },
  {
   "property": "C69",
   "status": "proved",
   "theorems": [
    "C69_division_returns"
   ],
   "note": "division_fits and sane_request are in Spec_Div.v; what happens beyond the unit counters is not claimed."
  },
  {
   "property": "C70",
   "status": "proved",
   "theorems": [
    "C70_every_quotient"
   ],
   "note": ""
  },
  {
   "property": "C71",
   "status": "proved",
   "theorems": [
    "C71_every_remainder"
   ],
   "note": ""
  },
  {
   "property": "C72",
   "status": "proved",
   "theorems": [
    "C72_remainder_returns"
   ],
   "note": "The operands that are too long (10^72 and more, by a divisor of nine fractional groups) are described in Spec_Rem.v."
  },
  {
   "property": "C73",
   "status": "proved",
   "theorems": [
    "C73_every_product"
   ],
   "note": ""
  },
  {
   "property": "C74",
   "status": "proved",
   "theorems": [
    "C74_every_rounding"
   ],
   "note": ""
  },
  {
   "property": "C75",
   "status": "proved",
   "theorems": [
    "C75_every_rounding_in_place"
   ],
   "note": ""
  },
  {
   "property": "C76",
   "status": "proved",
   "theorems": [
    "C76_debug_builds"
   ],
   "note": ""
  },
  {
   "property": "C77",
   "status": "proved",
   "theorems": [
    "C77_i64_arithmetic",
    "C77_u64_arithmetic"
   ],
   "note": ""
  },
  {
   "property": "C78",
   "status": "partial",
   "theorems": [
    "C78_integer_remainders_refuted",
    "C78_integer_quotients_refuted",
    "C78_i64_remainders_partial",
    "C78_u64_remainders_partial",
    "C78_i64_quotients_partial"
   ],
   "note": "False: 3000000000000000002 % 1000000000000000001 is 1 instead of 10^18 in both builds, and the quotient panics (debug) or is malformed (release). Proved for divisors below 10^18, for smaller dividends, and for 19- and 20-digit divisors unless the first nine digits after the point of the quotient are within ten of 10^9. C94 and C95 say for all machine integers what the remainder is and when a debug build panics. In debug builds every quotient that is returned is right, and C96 and C97 say which are."
  },
  {
   "property": "C79",
   "status": "proved",
   "theorems": [
    "C79_parsing_in_debug_builds"
   ],
   "note": ""
  },
  {
   "property": "C80",
   "status": "proved",
   "theorems": [
    "C80_every_sum",
    "C80_every_difference"
   ],
   "note": ""
  },
  {
   "property": "C81",
   "status": "proved",
   "theorems": [
    "C81_what_can_be_observed",
    "C81_equal_is_identical"
   ],
   "note": ""
  },
  {
   "property": "C82",
   "status": "proved",
   "theorems": [
    "C82_parsing_into_used_targets"
   ],
   "note": ""
  },
  {
   "property": "C83",
   "status": "proved",
   "theorems": [
    "C83_simple_calls_end",
    "C83_division_ends",
    "C83_debug_histories",
    "C83_sound_histories"
   ],
   "note": ""
  },
  {
   "property": "C84",
   "status": "proved",
   "theorems": [
    "C84_operators_agree",
    "C84_le_ge_are_numeric",
    "C84_max_min",
    "C84_clamp"
   ],
   "note": ""
  },
  {
   "property": "C85",
   "status": "proved",
   "theorems": [
    "C85_leading_groups",
    "C85_leading_group",
    "C85_never_far_off"
   ],
   "note": ""
  },
  {
   "property": "C86",
   "status": "proved",
   "theorems": [
    "C86_right_or_complement",
    "C86_small_quotients",
    "C86_large_remainders_are_right"
   ],
   "note": ""
  },
  {
   "property": "C87",
   "status": "proved",
   "theorems": [
    "C87_i64_remainders",
    "C87_u64_remainders",
    "C87_integral_part",
    "C87_i64_quotients",
    "C87_u64_quotients"
   ],
   "note": ""
  },
  {
   "property": "C88",
   "status": "proved",
   "theorems": [
    "C88_large_positions",
    "C88_large_positions_keep_the_number",
    "C88_lowest_positions",
    "C88_histories"
   ],
   "note": ""
  },
  {
   "property": "C89",
   "status": "proved",
   "theorems": [
    "C89_end_to_end_quotients",
    "C89_end_to_end_remainders"
   ],
   "note": ""
  },
  {
   "property": "C90",
   "status": "proved",
   "theorems": [
    "C90_no_string_makes_a_malformed_decimal",
    "C90_what_is_read_is_fit",
    "C90_histories"
   ],
   "note": ""
  },
  {
   "property": "C91",
   "status": "proved",
   "theorems": [
    "C91_digit_strings_in_release",
    "C91_read_right_up_to_65_digits"
   ],
   "note": ""
  },
  {
   "property": "C92",
   "status": "proved",
   "theorems": [
    "C92_every_request_truncates",
    "C92_requests_modulo_256",
    "C92_256_more_digits",
    "C92_requests_past_2_63",
    "C92_impossible_requests"
   ],
   "note": ""
  },
  {
   "property": "C93",
   "status": "proved",
   "theorems": [
    "C93_long_numerals_in_release",
    "C93_all_other_strings_are_rejected",
    "C93_release_panics_iff",
    "C93_every_string_in_release"
   ],
   "note": ""
  },
  {
   "property": "C94",
   "status": "proved",
   "theorems": [
    "C94_right_iff",
    "C94_i64_remainders",
    "C94_u64_remainders",
    "C94_when_right"
   ],
   "note": ""
  },
  {
   "property": "C95",
   "status": "proved",
   "theorems": [
    "C95_debug_returns_iff",
    "C95_i64_debug",
    "C95_u64_debug"
   ],
   "note": ""
  },
  {
   "property": "C96",
   "status": "proved",
   "theorems": [
    "C96_debug_returns_iff",
    "C96_i64_debug",
    "C96_u64_debug"
   ],
   "note": ""
  },
  {
   "property": "C97",
   "status": "proved",
   "theorems": [
    "C97_debug_returns_iff",
    "C97_debug_quotients_are_right",
    "C97_debug_quotient_units",
    "C97_release_quotients",
    "C97_i64",
    "C97_u64"
   ],
   "note": ""
  },
  {
   "property": "C98",
   "status": "proved",
   "theorems": [
    "C98_exact_quotients",
    "C98_division_undoes_multiplication",
    "C98_division_by_itself",
    "C98_order",
    "C98_division_and_remainder_agree"
   ],
   "note": ""
  },
  {
   "property": "C99",
   "status": "proved",
   "theorems": [
    "C99_i64_quotients",
    "C99_u64_quotients",
    "C99_end_to_end_quotients"
   ],
   "note": ""
  },
  {
   "property": "C100",
   "status": "proved",
   "theorems": [
    "C100_simple_test",
    "C100_i64_release",
    "C100_u64_release"
   ],
   "note": ""
  },
  {
   "property": "C101",
   "status": "proved",
   "theorems": [
    "C101_sums_return_no_error",
    "C101_errors_of_each_function",
    "C101_errors_tell_the_cause",
    "C101_messages"
   ],
   "note": "All inputs for the list of errors; wf operands for their meaning (C33, C70). When products overflow is C30, when conversions fail C19/C20, when parsing fails C03."
  },
  {
   "property": "C102",
   "status": "proved",
   "theorems": [
    "C102_histories_with_division",
    "C102_observations"
   ],
   "note": "Debug builds need no condition on the guesses: a division that returns is right (C97). Products need operands that declare all their digits, see C36."
  },
  {
   "property": "C103",
   "status": "proved",
   "theorems": [
    "C103_ledgers",
    "C103_invoices"
   ],
   "note": "full; the debug condition on first factors is shown necessary by an example"
  },
  {
   "property": "C104",
   "status": "proved",
   "theorems": [
    "C104_sized_programs",
    "C104_results_are_unique"
   ],
   "note": "full; generalises C103"
  },
  {
   "property": "C105",
   "status": "proved",
   "theorems": [
    "C105_averages"
   ],
   "note": "full"
  },
  {
   "property": "C106",
   "status": "proved",
   "theorems": [
    "C106_compounding",
    "C106_declared_digits_pile_up"
   ],
   "note": "full; C106_declared_digits_pile_up is the negative half for every rate and balance"
  },
  {
   "property": "C107",
   "status": "proved",
   "theorems": [
    "C107_rounding_repairs",
    "C107_splitting"
   ],
   "note": "full"
  },
  {
   "property": "C108",
   "status": "proved",
   "theorems": [
    "C108_there_and_back"
   ],
   "note": "full; C108_too_few_places shows that the condition for the identity is needed"
  },
  {
   "property": "C109",
   "status": "proved",
   "theorems": [
    "C109_division_by_one",
    "C109_compounding_in_place"
   ],
   "note": "full"
  },
  {
   "property": "C110",
   "status": "proved",
   "theorems": [
    "C110_rounded_lines",
    "C110_short_lines_are_exact"
   ],
   "note": "C110_rounded_lines: every call of the program returns Ok, the total is the sum of round_at(product, f), printed canonically with at most f fractional digits, within n half units of the exact total. The example meets the bound with equality (0.125 twice, to cents: 0.26 against 0.25). C110_short_lines_are_exact: nothing is lost when the fractional digits of the factors fit."
  }
 ]
}