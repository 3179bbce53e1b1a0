{
 "C15": {
  "note": "False of the code: \"-0\" and \"0\" denote the same number and are not ==. Proved for all pairs without a negative zero."
 },
 "C24": {
  "note": "False of the code: add/sub panic with index out of bounds instead of returning Err(Overflow). The exact set of operands on which they return is proved (C22_addition_returns_iff_room)."
 },
 "C26": {
  "status": "partial",
  "note": "False as stated: 5000000000 / 10 * (-2) is a zero with the sign flag set, in both builds (C26_no_negative_zero_refuted; the quotient declares one integral digit too few, C36). Proved: no sum or difference, no product of decimals that declare all their digits, and no quotient and no remainder whatsoever is a negative zero."
 },
 "C04": {
  "note": "Refuted as stated (an i8 digit counter wraps: '1' and 256 zeroes is read as 1 in release builds, debug builds panic; an exponent of ten digits panics). Proved: exactly the right result below 128 mantissa digits, and in debug builds, for strings of every length, the right result or a panic (C04_debug_builds_partial). The limit is sharp: a numeral of 128 digits panics in both builds. C93 gives the outcome of every string in release builds."
 },
 "C05": {
  "note": "holds with reset = true; with reset = false the number, sign and digit counts agree for every string in both builds (C05_every_string_partial), but stale upper units remain (refuted)"
 },
 "C07": {
  "note": "65-digit limit proved for every string; the limit of 30 fractional digits is refuted"
 },
 "C31": {
  "note": "False of the code: \".5\" * \".5\" panics in a debug build (failed assertion), 60-digit integers panic in both builds. The exact set of operands on which mul_to returns is proved."
 },
 "C34": {
  "note": "False in general (three refutations, among them a silent wrong quotient in both builds). Proved for all dividends and divisors whose non-zero digits lie in two consecutive base-10^9 units (in particular up to ten significant digits), and for all operands whose quotient is tame (no nine-digit group of the digits asked for within ten of 10^9; no low group when the divisor is much longer than the dividend): truncated quotient, sign, units, overflow. No condition on the sizes of the operands (fewer than 248 fractional digits asked for; C92 covers every request). For every divisor: integral units, sign, and overflow exactly for more than 81 integral digits. In debug builds every quotient of integers, and of any decimals whose divisor is not cut, is right (C97)."
 },
 "C35": {
  "note": "False in general (assertion in debug builds, index out of bounds and i8 overflow in both). Proved: in release builds division of non-zero decimals returns exactly if it fits (division_fits in Spec_Div: digit counts within an i8, and not the nine-unit buffer case), for every divisor; in every build what does not fit panics; in debug builds everything that fits returns for divisors of one significant unit or a tame quotient; C96 says exactly what returns for divisors of two units. Requests for more than 247 fractional digits wrap around (refuted) and are excluded. C97 says exactly what returns in debug builds for longer divisors."
 },
 "C36": {
  "note": "False: quotients may declare one integral digit too few, which multiplication trusts. Proved: they can be compared, added, subtracted; and are regular under a condition on the leading digits. Every quotient a debug build returns is a well-formed decimal."
 },
 "C37": {
  "note": "False in general: 2 % 1.000000000000000001 is returned as 0.000000000000000002 in both builds. Proved for every pair for which long division guesses all quotient units right; this is shown for divisors of up to ten significant digits, digits within two base-10^9 units, a dividend smaller than the divisor, and any divisor if no integral group of nine quotient digits is within ten of 10^9. For every divisor: a well-formed decimal, of the sign of the dividend, smaller than four times the divisor. C94 gives the exact criterion when no integral group is within ten of 10^9, and the result for all machine integers."
 },
 "C53": {
  "note": "False in general (failed assertions in debug builds; index out of bounds in both builds when the integral units of a smaller dividend do not fit beside the fractional units of the divisor). Proved: with right guesses (in particular with tame quotients) exactly these dividends panic. In a release build exactly these, for all divisors. Operands of at least 10^72 with divisors of nine fractional groups (too_long, Spec_Rem.v) panic as well: proved for all of them. C95 says exactly when a debug build returns."
 },
 "C43": {
  "note": "Including failed calls. Remainders are restricted to guesses_right, division and in-place growth are in C44."
 },
 "C44": {
  "note": "False as stated: in release builds division can leave a unit above 10^9; quotients can declare too few digits, in-place rounding and parsing with reset = false leave digits beyond the declared ones. Proved: in debug builds every history of calls of the API (rounding positions up to 127) keeps every variable well-formed, and so comparison, sums and differences of its values exact; in both builds the same for histories without division, whatever the strings and digits; and all of C43/C54 for division by divisors of two significant units or with tame quotients, with the leading digits aligned, and in-place rounding that adds no unit."
 },
 "C16": {
  "note": "False of the code: 1 and 1.0 are == and hash differently. Proved for decimals of the same unit counts (see C17)."
 },
 "C39": {
  "note": "False: for f a multiple of 9 the code truncates (round_to(1999999999, -9) = 1000000000), and 95 rounded to hundreds is 0. Proved: what round_to returns for every f below the digit count, and above it."
 },
 "C40": {
  "note": "False: in-place round to more units keeps the old lowest units (1.5 rounded to 10 digits is 1.5000000005). Proved: equal whenever no unit is added, and exactly when the units concerned are zero otherwise."
 },
 "C42": {
  "note": "False as stated: round(250) gives frac() = -6, round(100) panics. Proved for -2^63+1 < f <= 127: every well-formed decimal, with round_to and in place, is left well-formed with frac() = max(0,f), or the call panics. The remaining positions are settled by C88."
 },
 "C57": {
  "note": "False: (1.999999999999999999 * 1.000000001000000001) / 1.000000001000000001 panics in debug builds and is malformed in release builds. Proved for divisors of two significant units and for tame quotients; division by one without condition. In debug builds it holds for every divisor, if the call returns (C98)."
 },
 "C58": {
  "note": "False where the remainder or quotient is wrong (2 and 1.000000000000000001). Proved for divisors of two significant units and for tame quotients. It holds for every pair whose quotient a debug build returns without cutting the divisor (C98)."
 },
 "C61": {
  "note": "False: 2/3 has 9 fractional digits and is below 1.9999999999999999999999/3, which has 27. Proved (divisors of two significant units, tame quotients): the order is kept between results with the same number of fractional digits, and in general up to one unit in the last place of the shorter result."
 },
 "C64": {
  "note": "False: the declared integral digits grow by a unit with each factor, 1*1*...*1 (eleven factors) overflows. Proved, with returning, if the integral units of the factors and the units of all fractional digits add up to at most nine (four for the fraction)."
 },
 "C65": {
  "note": "tame: no group of the quotient next to a base boundary, see Spec_Div.v; the exact quotient condition is C34."
 },
 "C69": {
  "note": "division_fits and sane_request are in Spec_Div.v; what happens beyond the unit counters is not claimed."
 },
 "C72": {
  "note": "The operands that are too long (10^72 and more, by a divisor of nine fractional groups) are described in Spec_Rem.v."
 },
 "C78": {
  "note": "False: 3000000000000000002 % 1000000000000000001 is 1 instead of 10^18 in both builds, and the quotient panics (debug) or is malformed (release). Proved for divisors below 10^18, for smaller dividends, and for 19- and 20-digit divisors unless the first nine digits after the point of the quotient are within ten of 10^9. C94 and C95 say for all machine integers what the remainder is and when a debug build panics. In debug builds every quotient that is returned is right, and C96 and C97 say which are."
 },
 "C101": {
  "note": "All inputs for the list of errors; wf operands for their meaning (C33, C70). When products overflow is C30, when conversions fail C19/C20, when parsing fails C03."
 },
 "C102": {
  "note": "Debug builds need no condition on the guesses: a division that returns is right (C97). Products need operands that declare all their digits, see C36."
 },
 "C103": {
  "note": "full; the debug condition on first factors is shown necessary by an example"
 },
 "C104": {
  "note": "full; generalises C103"
 },
 "C105": {
  "note": "full"
 },
 "C106": {
  "note": "full; C106_declared_digits_pile_up is the negative half for every rate and balance"
 },
 "C107": {
  "note": "full"
 },
 "C108": {
  "note": "full; C108_too_few_places shows that the condition for the identity is needed"
 },
 "C109": {
  "note": "full"
 },
 "C110": {
  "note": "C110_rounded_lines: every call of the program returns Ok, the total is the sum of round_at(product, f), printed canonically with at most f fractional digits, within n half units of the exact total. The example meets the bound with equality (0.125 twice, to cents: 0.26 against 0.25). C110_short_lines_are_exact: nothing is lost when the fractional digits of the factors fit."
 }
}