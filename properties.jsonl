{"id": "C01", "title": "Parsing is exact", "statement": "If from_bytes_str / from_ascii_str / from_str accepts a string with at most 127 mantissa digits, the string is a numeral ([+-] digits with at most one point [e[+-]digits]) and the decimal is exactly the number the numeral denotes, with the sign of the numeral and max(0, fraction digits - exponent) fractional digits.", "quantifier": "all byte strings with at most 127 digits in the mantissa, every previous content of the target, both values of reset, both build profiles", "why_tests_cant": "The strings form an infinite set; unit tests cover a few dozen of them.", "anchors": ["src/serde.rs: from_bytes_str, from_ascii_str, FromStr::from_str"]}
{"id": "C02", "title": "Every numeral within the limits is accepted", "statement": "Every numeral with exponent between -30 and 65 whose digits after applying the exponent number at most 65 is accepted, without panic, and gives the number it denotes.", "quantifier": "all numerals of the grammar within these limits", "why_tests_cant": "Every combination of digit counts, point position, sign and exponent would have to be tried.", "anchors": ["src/serde.rs: from_bytes_str, from_ascii_str, FromStr::from_str"]}
{"id": "C03", "title": "Everything else is rejected with ConversionSyntax and without panic", "statement": "For a byte string with at most 62 digit bytes before the first 'e' or 'E' and at most 10 bytes from there on, parsing never panics; it returns Err(ConversionSyntax) exactly when the string is not a numeral within the limits of C02.", "quantifier": "all byte strings with that many digits (arbitrary other bytes)", "why_tests_cant": "Garbage inputs are unboundedly many.", "anchors": ["src/serde.rs: from_bytes_str, from_ascii_str, FromStr::from_str"]}
{"id": "C04", "title": "Parsing is total and exact on strings of every length", "statement": "Parsing any byte string returns Ok with the denoted number or Err(ConversionSyntax); it never panics and never returns a different number.", "quantifier": "all byte strings of every length", "why_tests_cant": "Length is unbounded; the failure needs 128 or more digits.", "anchors": ["src/serde.rs: from_bytes_str, from_ascii_str, FromStr::from_str"]}
{"id": "C05", "title": "The parse result does not depend on what the target held before", "statement": "Parsing the same string into two targets (reset = true, or reset = false into any two targets) gives decimals no API call can tell apart.", "quantifier": "all strings, all pairs of target values, both reset flags", "why_tests_cant": "The previous contents of the target range over all decimals.", "anchors": ["src/serde.rs: from_bytes_str, from_ascii_str, FromStr::from_str"]}
{"id": "C06", "title": "A failed parse leaves a defined target", "statement": "When parsing returns Err, the target is unchanged if reset = false and is zero if reset = true.", "quantifier": "all byte strings, all targets", "why_tests_cant": "All failing strings would have to be tried.", "anchors": ["src/serde.rs: from_bytes_str, from_ascii_str, FromStr::from_str"]}
{"id": "C07", "title": "The documented limits hold for parsed decimals", "statement": "A successfully parsed decimal has at most 65 digits and at most 30 fractional digits (MAX_DIGITS, MAX_FRAC).", "quantifier": "all byte strings", "why_tests_cant": "All accepted strings would have to be tried.", "anchors": ["src/serde.rs: from_bytes_str, from_ascii_str, FromStr::from_str", "src/decimal.rs: MAX_FRAC, MAX_DIGITS"]}
{"id": "C08", "title": "to_string(-1) is the canonical numeral", "statement": "to_string(-1) is: '-' iff the sign flag is set, the integral digits without leading zeroes ('0' if there are none), and, iff frac() > 0, '.' and exactly frac() digits; it denotes the value of the decimal truncated to frac() digits (which is the value itself when no digit is stored beyond frac()). It never panics.", "quantifier": "all well-formed decimals", "why_tests_cant": "There are about 10^81 decimals.", "anchors": ["src/serde.rs: to_string, append_str_buf, append_frac", "src/utils.rs: d3_to_str, BIN2CHAR"]}
{"id": "C09", "title": "to_string(f) truncates to exactly f fractional digits", "statement": "For f >= 0, to_string(f) prints the value truncated towards zero to f digits, with exactly f digits after the point (no point when f = 0), padding with zeroes; it never panics.", "quantifier": "all well-formed decimals and all f in 0..2^63-1", "why_tests_cant": "All decimals times all f.", "anchors": ["src/serde.rs: to_string, append_str_buf, append_frac", "src/utils.rs: d3_to_str, BIN2CHAR"]}
{"id": "C10", "title": "Printing then parsing is the identity", "statement": "Parsing to_string(-1) of a decimal with at most 65 printed digits and no digits beyond frac() gives a decimal of the same value, sign and frac() (and hence equal to it).", "quantifier": "all well-formed decimals that fit the limit", "why_tests_cant": "All decimals.", "anchors": ["src/serde.rs: from_bytes_str, from_ascii_str, FromStr::from_str", "src/serde.rs: to_string, append_str_buf, append_frac", "src/utils.rs: d3_to_str, BIN2CHAR"]}
{"id": "C11", "title": "Parsing then printing canonicalizes", "statement": "Printing the parse of a numeral without exponent gives the same numeral without '+' and leading zeroes (and '0' before a bare point); in particular canonical numerals print as themselves.", "quantifier": "all numerals within the limits", "why_tests_cant": "All numerals.", "anchors": ["src/serde.rs: from_bytes_str, from_ascii_str, FromStr::from_str", "src/serde.rs: to_string, append_str_buf, append_frac", "src/utils.rs: d3_to_str, BIN2CHAR"]}
{"id": "C12", "title": "Formatting only appends ASCII", "statement": "append_str_buf leaves the bytes already in the buffer in place, appends what to_string returns, and appends only the bytes '-', '.', '0'..'9' (so String::from_utf8_unchecked in to_string is sound).", "quantifier": "all well-formed decimals, all buffers, all f", "why_tests_cant": "All decimals and buffers.", "anchors": ["src/serde.rs: to_string, append_str_buf, append_frac", "src/utils.rs: d3_to_str, BIN2CHAR"]}
{"id": "C13", "title": "Comparison agrees with the numbers", "statement": "cmp(a,b) (and so ==, <, >) is the order of the numbers a and b denote, whatever their digit counts, except that a zero with the sign flag set counts as below a zero without it; it never panics.", "quantifier": "all pairs of well-formed decimals", "why_tests_cant": "All pairs of decimals.", "anchors": ["src/cmp.rs: Ord::cmp, PartialEq::eq, cmp_abs, cmp_abs_lsu"]}
{"id": "C14", "title": "Comparison is a total order", "statement": "cmp is reflexive, antisymmetric (cmp(b,a) is the reverse of cmp(a,b)) and transitive, == is an equivalence and a congruence for cmp.", "quantifier": "all triples of well-formed decimals", "why_tests_cant": "All triples.", "anchors": ["src/cmp.rs: Ord::cmp, PartialEq::eq, PartialOrd::partial_cmp"]}
{"id": "C15", "title": "Equal numbers compare equal, also zeroes", "statement": "If two decimals denote the same number they are ==; in particular \"-0\" == \"0\".", "quantifier": "all pairs of well-formed decimals", "why_tests_cant": "All pairs.", "anchors": ["src/cmp.rs: Ord::cmp", "src/serde.rs: from_bytes_str", "src/decimal.rs: set_neg"]}
{"id": "C16", "title": "Equal decimals hash equally", "statement": "a == b implies that a and b feed the same data to every Hasher (the contract of Hash and Eq, needed for HashMap keys).", "quantifier": "all pairs of decimals", "why_tests_cant": "All pairs.", "anchors": ["src/decimal.rs: Hash::hash", "src/cmp.rs: PartialEq::eq"]}
{"id": "C17", "title": "Hash feed determines and is determined by the number within one shape", "statement": "For decimals with the same numbers of integral and fractional units, a == b holds exactly when both feed the same data to the hasher; decimals with the same feed are always ==.", "quantifier": "all pairs of well-formed decimals", "why_tests_cant": "All pairs.", "anchors": ["src/decimal.rs: Hash::hash", "src/cmp.rs: PartialEq::eq"]}
{"id": "C18", "title": "From<i64> and From<u64> are exact", "statement": "FixedDecimal::from(n) denotes exactly n, has no fractional digits, has the sign of n, and never panics.", "quantifier": "all i64 and all u64 values", "why_tests_cant": "2^64 values each.", "anchors": ["src/decimal.rs: From<i64>, From<u64>"]}
{"id": "C19", "title": "as_i64 rounds half away from zero, exactly in range", "statement": "as_i64 returns Ok iff i64::MIN <= value <= i64::MAX, and then the value rounded to the nearest integer, halves away from zero; otherwise Err(ExceedsConversionTargetRange). It never panics.", "quantifier": "all well-formed decimals without stale digits", "why_tests_cant": "All decimals.", "anchors": ["src/decimal.rs: as_i64, lsu_to_i64, MAX_I64, MIN_I64"]}
{"id": "C20", "title": "as_u64 rounds half away from zero, exactly in range", "statement": "as_u64 returns Ok iff the sign flag is clear and value <= u64::MAX, and then the value rounded to the nearest integer, halves up; otherwise Err(ExceedsConversionTargetRange). It never panics.", "quantifier": "all well-formed decimals without stale digits", "why_tests_cant": "All decimals.", "anchors": ["src/decimal.rs: as_u64, lsu_to_u64, MAX_U64"]}
{"id": "C21", "title": "Integers survive the round trip", "statement": "from(n).as_i64() == Ok(n) for every i64 n, from(n).as_u64() == Ok(n) for every u64 n, cmp(from(n), from(k)) is the order of n and k, and to_string prints n in decimal.", "quantifier": "all pairs of 64-bit integers", "why_tests_cant": "2^128 pairs.", "anchors": ["src/decimal.rs: From<i64>, From<u64>, as_i64, as_u64", "src/cmp.rs: Ord::cmp"]}
{"id": "C22", "title": "Addition is exact", "statement": "Whenever add_to (or +) returns, the result denotes exactly the sum; it returns (Ok, without panic) exactly when an operand is zero, or the larger integral and larger fractional unit counts add up to at most 7, or to 8 and the signs differ or the sum needs no further unit; for non-zero operands frac() of the result is the larger frac().", "quantifier": "all pairs of well-formed decimals, all previous contents of res", "why_tests_cant": "All pairs.", "anchors": ["src/arith.rs: add_to, add_abs, sub_abs, impl Add"]}
{"id": "C23", "title": "Subtraction is exact", "statement": "Whenever sub_to (or -) returns, the result denotes exactly the difference; it returns (Ok, without panic) exactly when an operand is zero, or the larger integral and larger fractional unit counts add up to at most 7, or to 8 and the signs agree or the sum of the absolute values needs no further unit; for non-zero operands frac() of the result is the larger frac().", "quantifier": "all pairs of well-formed decimals, all previous contents of res", "why_tests_cant": "All pairs.", "anchors": ["src/arith.rs: sub_to, sub_abs, add_abs, impl Sub"]}
{"id": "C24", "title": "Addition and subtraction report overflow as an error", "statement": "add_to and sub_to return (Ok or Err(Overflow)) for all operands the API can produce; they do not panic.", "quantifier": "all pairs of reachable decimals", "why_tests_cant": "All pairs.", "anchors": ["src/arith.rs: add_to, sub_to, add_abs, sub_abs"]}
{"id": "C25", "title": "Ring laws of addition and subtraction", "statement": "a+b == b+a, (a+b)+c == a+(b+c), a+0 == a, a-a == 0, a-b == -(b-a), (a+b)-b == a as decimals compare, whenever the calls return.", "quantifier": "all triples of well-formed decimals without negative zeroes", "why_tests_cant": "All triples.", "anchors": ["src/arith.rs: add_to, sub_to"]}
{"id": "C26", "title": "Arithmetic never produces a negative zero", "statement": "If no operand is a zero with the sign flag set, no result of add_to, sub_to, mul_to, div_to, rem_to is.", "quantifier": "all pairs of well-formed decimals", "why_tests_cant": "All pairs.", "anchors": ["src/arith.rs: add_to, sub_to, mul_to, div_to, rem_to", "src/decimal.rs: set_neg_and_check_zero"]}
{"id": "C27", "title": "Results do not depend on the previous contents of the result argument", "statement": "add_to, sub_to, mul_to, div_to, rem_to and round_to return the same outcome and leave the same decimal in res whatever res held before.", "quantifier": "all operands, all pairs of previous contents, also when the call fails", "why_tests_cant": "All contents of res.", "anchors": ["src/arith.rs: add_to, sub_to, mul_to, div_to, rem_to", "src/round.rs: round_to"]}
{"id": "C28", "title": "Multiplication is exact when the digits fit", "statement": "For decimals whose digits fit their declared counts, if units(intg_a+intg_b) + units(frac_a+frac_b) <= 9 and units(frac_a+frac_b) <= 4, a returning mul_to gives exactly the product with frac_a+frac_b fractional digits, and it does return Ok in a release build; in a debug build too if the left operand has an integral digit or more than 9 fractional digits.", "quantifier": "all pairs of well-formed decimals", "why_tests_cant": "All pairs.", "anchors": ["src/arith.rs: mul_to, mul_abs, impl Mul"]}
{"id": "C29", "title": "Truncated multiplication errs by less than 2 units per dropped column, towards zero", "statement": "When the product needs more than 4 fractional units or more than 9 units, the returned magnitude is at most the exact product and below it by less than 2*min(9,k) units in the last kept place (10^(-9 u), u the kept and k the dropped fractional units), by less than one if k = 1, and by nothing if k = 0; the sign is the product of the signs.", "quantifier": "all pairs of well-formed decimals", "why_tests_cant": "All pairs.", "anchors": ["src/arith.rs: mul_abs"]}
{"id": "C30", "title": "Multiplication reports overflow", "statement": "mul_to returns Err(Overflow) whenever the declared integral digits add up to more than 81 (and at most 119), and the operands are not zero, res is then zero; and it never returns Err otherwise (for operands whose digits fit the declared counts).", "quantifier": "all pairs of well-formed decimals", "why_tests_cant": "All pairs.", "anchors": ["src/arith.rs: mul_abs"]}
{"id": "C31", "title": "Multiplication never panics", "statement": "mul_to returns for all operands the API can produce (in both build profiles).", "quantifier": "all pairs of reachable decimals", "why_tests_cant": "All pairs.", "anchors": ["src/arith.rs: mul_abs"]}
{"id": "C32", "title": "Multiplication laws", "statement": "a*b == b*a, (a*b)*c == a*(b*c), a*1 == a, a*0 == 0, a*(-b) == -(a*b), a*(b+c) == a*b + a*c whenever the exact results fit (C28).", "quantifier": "all triples of well-formed decimals within the limits of C28", "why_tests_cant": "All triples.", "anchors": ["src/arith.rs: mul_to"]}
{"id": "C33", "title": "DivisionByZero exactly for zero divisors", "statement": "div_to and rem_to return Err(DivisionByZero) iff the divisor denotes 0, then leave res zero, and the operators / and % panic then.", "quantifier": "all pairs of well-formed decimals, all incr_frac up to 64", "why_tests_cant": "All pairs.", "anchors": ["src/arith.rs: div_abs, rem_abs, impl Div, impl Rem"]}
{"id": "C34", "title": "Division gives the truncated quotient", "statement": "div_to returns the quotient truncated towards zero to the fractional units of the result, with the sign of the quotient; at least frac_a + frac_b + incr_frac fractional digits (rounded up to units, at most 36, and less only if the integral part needs the room).", "quantifier": "all pairs of well-formed decimals with non-zero divisor", "why_tests_cant": "All pairs; the failures need a divisor of three units or a particular digit pattern.", "anchors": ["src/arith.rs: div_to, div_abs"]}
{"id": "C35", "title": "Division never panics on a non-zero divisor", "statement": "div_to returns for all reachable decimals with non-zero divisor, in both build profiles.", "quantifier": "all pairs of reachable decimals", "why_tests_cant": "All pairs.", "anchors": ["src/arith.rs: div_abs"]}
{"id": "C36", "title": "Quotients can be used as operands", "statement": "A decimal returned by div_to behaves like a parsed decimal of the same value in later operations (for example (a/b)*c is exact when it fits).", "quantifier": "all histories ending in a division and another operation", "why_tests_cant": "All operands and histories.", "anchors": ["src/arith.rs: div_abs, mul_abs"]}
{"id": "C37", "title": "Remainder gives the truncated remainder", "statement": "rem_to(a,b) returns r with a = q*b + r for an integer q, |r| < |b|, r = 0 or r of the sign of a, exactly.", "quantifier": "all pairs of well-formed decimals with non-zero divisor", "why_tests_cant": "All pairs; the failures need particular digit patterns in divisors of three units.", "anchors": ["src/arith.rs: rem_to, rem_abs"]}
{"id": "C38", "title": "round_to rounds half away from zero for non-negative f", "statement": "For f >= 0, round_to(res, f) stores the value rounded to f fractional digits, halves away from zero, with frac() = f and the sign flag of the operand (for f >= frac(): the value itself); it returns without panic exactly when the integral units and units(f) fit in nine and the rounded number does too.", "quantifier": "all well-formed decimals (without digits beyond frac() if f >= frac()), all f up to 127", "why_tests_cant": "All decimals.", "anchors": ["src/round.rs: round_to, round_half_up"]}
{"id": "C39", "title": "round_to rounds half away from zero for negative f", "statement": "For f < 0, round_to(res, f) stores the value rounded to a multiple of 10^-f, halves away from zero.", "quantifier": "all well-formed decimals, all f < 0", "why_tests_cant": "All decimals; failures need f a multiple of 9, or f near the digit count.", "anchors": ["src/round.rs: round_to, round_half_up"]}
{"id": "C40", "title": "round and round_to agree", "statement": "a.round(f) leaves in a exactly the decimal that a.round_to(res, f) stores in res.", "quantifier": "all well-formed decimals, all f", "why_tests_cant": "All decimals.", "anchors": ["src/round.rs: round, round_to"]}
{"id": "C41", "title": "Rounding is idempotent, monotone and within half a unit", "statement": "For f >= 0: round_to(f) twice gives the same number as once; a <= b implies rounded a <= rounded b; |rounded a - a| <= 10^-f / 2; equal numbers round to equal numbers.", "quantifier": "all pairs of well-formed decimals, all such f", "why_tests_cant": "All pairs.", "anchors": ["src/round.rs: round_to"]}
{"id": "C42", "title": "Rounding is defined for every argument", "statement": "round and round_to accept every isize argument and only ever return a well-formed decimal whose frac() is the larger of 0 and f.", "quantifier": "all decimals, all f in the isize range", "why_tests_cant": "2^64 arguments.", "anchors": ["src/round.rs: round, round_to"]}
{"id": "C43", "title": "Values stay well-formed over every history (without / )", "statement": "Starting from parsed decimals, converted integers and the constants, every sequence of additions, subtractions, multiplications, remainders (by divisors for which long division guesses every quotient unit right, in particular up to ten significant digits), copies, round_to and sign changes, in which no call panics, keeps every value well-formed: nine units below 10^9, digits within the declared counts, nothing beyond them; so C08-C38 apply to every value of the history.", "quantifier": "all finite sequences of calls on any number of variables", "why_tests_cant": "Histories are unboundedly many.", "anchors": ["src/arith.rs: add_to, sub_to, mul_to, rem_to", "src/serde.rs: from_bytes_str", "src/round.rs: round_to", "src/decimal.rs: From<i64>, From<u64>"]}
{"id": "C44", "title": "Values stay well-formed over every history (with / and %)", "statement": "The same for histories that also use div_to, rem_to, in-place round, parsing with reset = false.", "quantifier": "all finite sequences of calls", "why_tests_cant": "Histories are unboundedly many.", "anchors": ["src/arith.rs: div_to, rem_to", "src/round.rs: round"]}
{"id": "C45", "title": "Operators agree with the *_to functions", "statement": "a+b, a-b, a*b, a/b, a%b return the decimal the corresponding *_to function (with incr_frac = 4 for /) stores when that returns Ok, and panic exactly when it returns Err or panics.", "quantifier": "all pairs of decimals", "why_tests_cant": "All pairs.", "anchors": ["src/arith.rs: impl Add, Sub, Mul, Div, Rem"]}
{"id": "C46", "title": "is_zero means zero", "statement": "is_zero() holds iff the decimal denotes 0.", "quantifier": "all well-formed decimals without stale digits", "why_tests_cant": "All decimals.", "anchors": ["src/decimal.rs: is_zero, set_zero, set_one, zero, one"]}
{"id": "C47", "title": "Sign accessors only touch the sign", "statement": "set_neg makes the value -|value|, set_pos makes it |value|; both keep intg(), frac() and all digits; is_neg reports the flag.", "quantifier": "all well-formed decimals", "why_tests_cant": "All decimals.", "anchors": ["src/decimal.rs: is_neg, set_neg, set_pos, intg, frac"]}
{"id": "C48", "title": "Debug and release builds agree", "statement": "If a call of any API function returns in a debug build, the same call returns the same result in a release build. Panics agree too: a debug build does what the release build does, the same result or the same panic, unless an overflow check or a debug assertion stops it (for the remainder also the array read inside a debug assertion).", "quantifier": "all API functions and all arguments", "why_tests_cant": "All inputs in two builds.", "anchors": ["src/*.rs: all public functions", "Cargo.toml: profile.release"]}
{"id": "C49", "title": "Subtraction and comparison agree", "statement": "cmp(a,b) is Less / Equal / Greater exactly when a-b is negative / zero / positive, for decimals that are not negative zeroes, whenever a-b returns.", "quantifier": "all pairs of well-formed decimals", "why_tests_cant": "All pairs.", "anchors": ["src/cmp.rs: Ord::cmp", "src/arith.rs: sub_to"]}
{"id": "C50", "title": "End to end: strings in, exact strings out", "statement": "For numerals s, t with at most 30 integral and 30 fractional digits, printing parse(s)+parse(t), parse(s)-parse(t) yields the numeral of the exact sum and difference; for at most 45 integral and 36 fractional digits in both numerals together, and (in a debug build) an integral digit in s, the same for the product.", "quantifier": "all pairs of numerals within the limits", "why_tests_cant": "All pairs of strings.", "anchors": ["src/serde.rs: from_bytes_str, from_ascii_str, FromStr::from_str", "src/serde.rs: to_string, append_str_buf, append_frac", "src/utils.rs: d3_to_str, BIN2CHAR", "src/arith.rs: add_to, sub_to, mul_to"]}
{"id": "C51", "title": "Running totals are exact", "statement": "Adding the decimals of any list one after the other into an accumulator gives exactly their sum as long as no call panics, whatever the length of the list.", "quantifier": "all finite lists of well-formed decimals", "why_tests_cant": "Lists are unboundedly long.", "anchors": ["src/arith.rs: add_to"]}
{"id": "C52", "title": "The digit counts are unit counts", "statement": "intg_units() and frac_units() are the digit counts divided by nine, rounded up, for every count up to 119, and panic above.", "quantifier": "all i8 digit counts", "why_tests_cant": "Finite, but the statement is the contract every other property rests on.", "anchors": ["src/decimal.rs: intg_units, frac_units", "src/utils.rs: get_units, div9, mod9"]}
{"id": "C53", "title": "The remainder never panics", "statement": "rem_to(a,b) returns for every pair of well-formed decimals with a non-zero divisor.", "quantifier": "all pairs of well-formed decimals with non-zero divisor, both builds", "why_tests_cant": "All pairs; the failures need particular digit patterns or superfluous declared digits.", "anchors": ["src/arith.rs: rem_to, rem_abs"]}
{"id": "C54", "title": "Histories compute exactly", "statement": "After every sequence of parses, integer conversions, copies, additions, subtractions, multiplications whose digits fit, remainders (as in C43), roundings and sign changes without panic, every variable denotes exactly the number obtained by doing the same with rational numbers (failed calls leaving zero).", "quantifier": "all finite sequences of calls on any number of variables, any regular initial values, both build profiles", "why_tests_cant": "Histories are unboundedly many.", "anchors": ["src/arith.rs: add_to, sub_to, mul_to, rem_to", "src/serde.rs: from_bytes_str", "src/round.rs: round_to, round", "src/decimal.rs: From<i64>, From<u64>, set_neg, set_pos"]}
{"id": "C55", "title": "Only the numbers matter", "statement": "Running the same calls (those of C54) on variables that hold the same numbers, but with other digit counts or in another build profile, leaves the same numbers, and decimals that are == unless one is a negative zero.", "quantifier": "all finite sequences of calls, all pairs of initial values denoting the same numbers, all pairs of builds", "why_tests_cant": "Pairs of histories are unboundedly many.", "anchors": ["src/arith.rs: add_to, sub_to, mul_to, rem_to", "src/serde.rs: from_bytes_str", "src/round.rs: round_to, round"]}
{"id": "C56", "title": "Signs of operands change only the sign of the result", "statement": "Changing the sign of either operand of * or / or of the dividend of %, or of both operands of + or -, gives the same error, the same panic, or a result with the same digits and digit counts and the opposite value; the sign of the divisor of % has no effect; a - b is a + (-b).", "quantifier": "all pairs of well-formed decimals, also those for which the result is wrong, both builds", "why_tests_cant": "All pairs.", "anchors": ["src/arith.rs: add_to, sub_to, mul_to, div_to, rem_to", "src/decimal.rs: set_neg, set_pos"]}
{"id": "C57", "title": "Exact quotients are found", "statement": "If the quotient of two decimals has no more fractional digits than the result is given, div_to returns it exactly: (a*b)/b is a, a/1 is a, a/a is 1.", "quantifier": "all pairs of regular decimals, both builds", "why_tests_cant": "All pairs; the failures need quotients with nine-digit groups next to 10^9.", "anchors": ["src/arith.rs: div_to, div_abs, mul_to"]}
{"id": "C58", "title": "Division and remainder fit together", "statement": "a equals the integral part of the quotient div_to(a,b) times b, plus the remainder rem_to(a,b), exactly.", "quantifier": "all pairs of well-formed decimals with non-zero divisor for which both calls return", "why_tests_cant": "All pairs.", "anchors": ["src/arith.rs: div_to, rem_to"]}
{"id": "C59", "title": "Averages are truncated means and lie between the extremes", "statement": "The running total of a list divided by its length (converted from u64) is the mean truncated to the fractional digits of the result, and lies between any two bounds of the elements that have no more fractional digits than the result.", "quantifier": "all non-empty finite lists of well-formed decimals (fewer than 10^18), both builds, whenever the calls return", "why_tests_cant": "Lists are unboundedly long.", "anchors": ["src/arith.rs: add_to, div_to", "src/decimal.rs: From<u64>"]}
{"id": "C60", "title": "Arithmetic respects the order", "statement": "cmp(a+c, b+c) = cmp(a-c, b-c) = cmp(c-b, c-a) = cmp(a,b); for products that fit, cmp(a*c, b*c) is cmp(a,b) for positive c and the reverse for negative c.", "quantifier": "all triples of regular decimals that are not negative zeroes, whenever the calls return", "why_tests_cant": "All triples.", "anchors": ["src/arith.rs: add_to, sub_to, mul_to", "src/cmp.rs: Ord::cmp"]}
{"id": "C61", "title": "Division respects the order", "statement": "For b > 0, a <= a' implies a/b <= a'/b; for a >= 0 and 0 < b <= b', a/b' <= a/b.", "quantifier": "all triples of well-formed decimals", "why_tests_cant": "All triples.", "anchors": ["src/arith.rs: div_to", "src/cmp.rs: Ord::cmp"]}
{"id": "C62", "title": "Rounding and printing", "statement": "Printing the result of round_to(f) gives the canonical numeral of the number rounded half away from zero, with the sign of the operand and exactly f fractional digits; for parsed numerals of up to 44 integral digits and f up to 36 nothing panics.", "quantifier": "all well-formed decimals, all f from 0 to 127; all such numerals", "why_tests_cant": "All decimals and strings.", "anchors": ["src/serde.rs: from_bytes_str, from_ascii_str, FromStr::from_str", "src/serde.rs: to_string, append_str_buf, append_frac", "src/utils.rs: d3_to_str, BIN2CHAR", "src/round.rs: round_to"]}
{"id": "C63", "title": "Reading integers from strings", "statement": "Parsing a numeral within the limits and converting with as_i64 / as_u64 gives its value rounded half away from zero if it lies in the range, and the range error otherwise; integers printed and read back are unchanged.", "quantifier": "all numerals within the limits, all i64 and u64", "why_tests_cant": "2^64 integers, all strings.", "anchors": ["src/serde.rs: from_bytes_str, from_ascii_str, FromStr::from_str", "src/serde.rs: to_string, append_str_buf, append_frac", "src/utils.rs: d3_to_str, BIN2CHAR", "src/decimal.rs: as_i64, as_u64, From<i64>, From<u64>"]}
{"id": "C64", "title": "Running products are exact", "statement": "Multiplying the decimals of a list one after the other gives exactly their product whenever the product has no more digits than a decimal holds.", "quantifier": "all finite lists of regular decimals", "why_tests_cant": "Lists are unboundedly long.", "anchors": ["src/arith.rs: mul_to, impl Mul"]}
{"id": "C65", "title": "Quotients rounded to fewer digits are correctly rounded", "statement": "For divisors of at most two significant nine-digit groups, or tame quotients (C34): rounding the (truncated) result of div_to to fewer digits with round_to gives the exact quotient rounded half away from zero, as_i64 of it is the exact quotient rounded to an integer, and averages of lists round correctly. Parsing two plain numerals (36 integral and 27 fractional digits; a divisor of ten digits, in debug builds an integer of nine digits), dividing, rounding to up to 8 digits and printing never panics and prints the correctly rounded quotient.", "quantifier": "all such pairs of decimals or numerals, all lists, all positions below the digits of the quotient", "why_tests_cant": "All pairs; double rounding errors occur at isolated inputs.", "anchors": ["src/serde.rs: from_bytes_str, from_ascii_str, FromStr::from_str", "src/serde.rs: to_string, append_str_buf, append_frac", "src/utils.rs: d3_to_str, BIN2CHAR", "src/arith.rs: div_to", "src/round.rs: round_to", "src/decimal.rs: as_i64"]}
{"id": "C66", "title": "Products rounded are correctly rounded, from string to string", "statement": "For products that fit: rounding the result of mul_to gives the exact product rounded half away from zero. Parsing two plain numerals with at most 44 integral and 36 fractional digits together (65 each; in debug builds the first has an integral digit), multiplying, rounding to up to 36 digits and printing never panics and prints the correctly rounded product.", "quantifier": "all pairs of regular decimals, all such pairs of numerals, all positions", "why_tests_cant": "All pairs.", "anchors": ["src/serde.rs: from_bytes_str, from_ascii_str, FromStr::from_str", "src/serde.rs: to_string, append_str_buf, append_frac", "src/utils.rs: d3_to_str, BIN2CHAR", "src/arith.rs: mul_to", "src/round.rs: round_to"]}
{"id": "C67", "title": "Printed strings serve as keys", "statement": "Two decimals print the same string iff they are equal (==) and have the same number of fractional digits; so equal decimals of one scale, printed and parsed again (within the parse limit), have one hash and are equal to the originals, although Hash itself does not respect ==.", "quantifier": "all pairs of well-formed decimals without digits below the declared ones", "why_tests_cant": "All pairs.", "anchors": ["src/serde.rs: from_bytes_str, from_ascii_str, FromStr::from_str", "src/serde.rs: to_string, append_str_buf, append_frac", "src/utils.rs: d3_to_str, BIN2CHAR", "src/cmp.rs: PartialEq::eq, Hash::hash"]}
{"id": "C68", "title": "The order of strings and sorted lists", "statement": "Comparing what two numerals are parsed to compares the numbers written, where a zero written with a minus sign is below the zero written without; a list in which no element compares greater than its successor is ascending in value throughout.", "quantifier": "all pairs of numerals within the limits, all finite lists", "why_tests_cant": "All pairs, all lists.", "anchors": ["src/serde.rs: from_bytes_str, from_ascii_str, FromStr::from_str", "src/cmp.rs: Ord::cmp"]}
{"id": "C69", "title": "Exactly when division returns", "statement": "In a release build div_to returns exactly if the dividend has room for the quotient asked for (a condition on the leading digits of the operands and the requested increment; zero operands always), otherwise it panics. A debug build returns on no others, and on all of these if the divisor has one significant group or the quotient is tame.", "quantifier": "all pairs of well-formed decimals, all non-negative increments whose unit count fits the counters", "why_tests_cant": "All pairs.", "anchors": ["src/arith.rs: div_to, div_abs"]}
{"id": "C70", "title": "What is true of every quotient", "statement": "For a non-zero divisor, whenever div_to returns: it is Ok or Overflow; Overflow exactly if the quotient has more than 81 integral digits, with a zero result; the result is no negative zero and has the sign of the quotient; at most 36 fractional digits; no more integral groups than the quotient needs (one at least); in debug builds the result is well-formed.", "quantifier": "all pairs of well-formed decimals, all increments, both builds, also those for which the digits are wrong", "why_tests_cant": "All pairs.", "anchors": ["src/arith.rs: div_to, div_abs"]}
{"id": "C71", "title": "What is true of every remainder", "statement": "Whenever rem_to returns: DivisionByZero exactly for a zero divisor, otherwise Ok; the result is well-formed, not a negative zero, has the sign of the dividend and is below four times the divisor in magnitude.", "quantifier": "all pairs of well-formed decimals, both builds, also those for which the digits are wrong", "why_tests_cant": "All pairs.", "anchors": ["src/arith.rs: rem_to, rem_abs"]}
{"id": "C72", "title": "Exactly when the remainder returns", "statement": "In a release build rem_to returns unless the operands are too long (a dividend of at least 10^72 and a divisor of nine fractional groups and at least 10^-72; debug builds: all of these, release builds: those whose dividend, read from its leading group on, is not below the divisor, read from its leading group on) or the dividend is non-zero, smaller in magnitude than the divisor, of fewer fractional groups, and its integral groups and the fractional groups of the divisor exceed nine together; a debug build returns on no others, and on all of these if the integral quotient is tame.", "quantifier": "all pairs of well-formed decimals", "why_tests_cant": "All pairs.", "anchors": ["src/arith.rs: rem_to, rem_abs"]}
{"id": "C73", "title": "The outcome of every multiplication", "statement": "For regular decimals mul_to gives zero for a zero factor; panics exactly if the digit counts leave no room (more than 119 declared digits together, or all groups of the first factor dropped); Overflow exactly above 81 integral digits; otherwise the product truncated towards zero, with its sign and declared digits, with an error below two units in the last place for every dropped group and none if none is dropped.", "quantifier": "all pairs of regular decimals, both builds", "why_tests_cant": "All pairs.", "anchors": ["src/arith.rs: mul_to, mul_abs"]}
{"id": "C74", "title": "The outcome of every rounding", "statement": "round_to(f) returns exactly if the integral groups and the groups for f fit in nine, before and after a carry; the result is the value rounded half away from zero, except truncated when f is a negative multiple of nine, and zero when -f is at least the declared integral digits; it has max(f,0) fractional digits and keeps well-formedness.", "quantifier": "all well-formed decimals without digits below the declared ones, all positions up to 127", "why_tests_cant": "All decimals and positions.", "anchors": ["src/round.rs: round_to"]}
{"id": "C75", "title": "The outcome of every rounding in place", "statement": "round(f) equals round_to(f) unless f needs more fractional groups than there are; then it panics exactly if round_to does, and otherwise returns f fractional digits with the old lowest groups left behind as additional digits.", "quantifier": "all well-formed clean decimals, all positions up to 127, both builds", "why_tests_cant": "All decimals and positions.", "anchors": ["src/round.rs: round, round_to"]}
{"id": "C76", "title": "Debug builds never compute with a damaged decimal", "statement": "After any sequence of calls in a debug build in which none panics: every decimal is well-formed, any two (no negative zeroes) compare by value, sums and differences that return are exact, and printing succeeds with the canonical numeral of the value at the declared digits.", "quantifier": "all finite histories of public calls with rounding positions up to 127, starting from zeroes", "why_tests_cant": "All histories.", "anchors": ["src/arith.rs: add_to, sub_to, mul_to, div_to, rem_to", "src/round.rs: round, round_to", "src/cmp.rs: Ord::cmp", "src/serde.rs: to_string, append_str_buf, append_frac", "src/utils.rs: d3_to_str, BIN2CHAR"]}
{"id": "C77", "title": "Sums, differences and products of machine integers", "statement": "Converting two i64 (two u64) to decimals, applying +, - or * and converting back gives exactly checked machine arithmetic: the integer, or ExceedsConversionTargetRange if it is out of range; no step panics.", "quantifier": "all pairs of i64, all pairs of u64, both builds", "why_tests_cant": "2^128 pairs.", "anchors": ["src/decimal.rs: From<i64>, From<u64>, as_i64, as_u64", "src/arith.rs: add_to, sub_to, mul_to"]}
{"id": "C78", "title": "Quotients and remainders of machine integers", "statement": "The remainder of the decimals of two i64 (u64) converts back to the machine remainder; the quotient printed without fraction is the machine quotient, and converts back to the exact quotient rounded half away from zero, or the range error.", "quantifier": "all pairs of i64, all pairs of u64, non-zero divisor", "why_tests_cant": "2^128 pairs; the failures are next to multiples of 19-digit divisors.", "anchors": ["src/decimal.rs: From<i64>, From<u64>, as_i64, as_u64", "src/arith.rs: div_to, rem_to"]}
{"id": "C79", "title": "Debug builds parse every string right or panic", "statement": "In a debug build from_str on any byte string gives: the number written, with its sign and fractional digits, if the string is a numeral within the limits; otherwise ConversionSyntax or a panic, and a panic only for more than 62 mantissa digits or an exponent part of more than ten bytes.", "quantifier": "all byte strings of every length", "why_tests_cant": "All strings.", "anchors": ["src/serde.rs: from_bytes_str, from_ascii_str, FromStr::from_str"]}
{"id": "C80", "title": "The outcome of every sum and difference", "statement": "add_to and sub_to never return an error: the result is exact (with the larger number of fractional digits, no negative zero, and as regular as the operands), or, exactly if the groups of both operands and a possible carry do not fit in eight, the call panics.", "quantifier": "all pairs of well-formed clean decimals, both builds", "why_tests_cant": "All pairs.", "anchors": ["src/arith.rs: add_to, sub_to"]}
{"id": "C81", "title": "What can be observed of a decimal", "statement": "Two decimals with the same number, sign and digit counts print the same for every argument, are ==, hash the same and compare alike with every third; if nothing is stored beyond their units they are identical, so that no operation can tell them apart.", "quantifier": "all pairs of well-formed decimals", "why_tests_cant": "All pairs.", "anchors": ["src/serde.rs: to_string, append_str_buf, append_frac", "src/utils.rs: d3_to_str, BIN2CHAR", "src/cmp.rs: PartialEq::eq, Ord::cmp, Hash::hash"]}
{"id": "C82", "title": "Parsing into a used decimal", "statement": "Whatever two targets held, with or without reset, parsing a string into them gives results with the same number, sign and digit counts (so indistinguishable as in C81); only the storage beyond the declared groups may keep what the target held.", "quantifier": "all byte strings of fewer than 128 mantissa digits, all well-formed targets, both builds", "why_tests_cant": "All strings and targets.", "anchors": ["src/serde.rs: from_bytes_str, from_ascii_str, FromStr::from_str"]}
{"id": "C83", "title": "Every call ends", "statement": "No call runs forever: parsing any bytes, printing, converting, comparing, hashing, rounding, adding, subtracting and multiplying any decimals, and dividing or taking remainders of well-formed decimals, all return or panic. In a debug build every call after every history of calls ends.", "quantifier": "all functions, all arguments of their Rust types, both builds; all histories", "why_tests_cant": "Termination for all inputs.", "anchors": ["src/serde.rs: from_bytes_str (loops at 172-245)", "src/decimal.rs: From<u64>", "src/arith.rs: div_to, rem_to (while loops at 637-641, 864-868)"]}
{"id": "C84", "title": "Order operators, max, min and clamp", "statement": "Exactly one of <, == and > holds between two decimals; <= is not >, >= is not <, != is not ==, partial_cmp is never None; <= and >= are those of the numbers unless a zero with a minus sign is compared. max and min hand back the two operands, one each, and their numbers are the maximum and the minimum; operands that are == come back in the order given (min the first, max the second). clamp panics exactly when the bounds are out of order, and otherwise hands back the operand itself when it lies within the bounds and the nearest bound when not.", "quantifier": "all well-formed decimals, both builds", "why_tests_cant": "Infinite pairs and triples of operands.", "anchors": ["src/cmp.rs: PartialEq, PartialOrd, Ord"]}
{"id": "C85", "title": "The leading digits of every quotient are right", "statement": "In a debug build the leading nine-digit group of every quotient that division hands back is that of the true quotient, whatever the operands: what comes back is zero exactly if the true quotient is below its last place, and otherwise it has the sign of the true quotient and is less than twice as large and more than half as large. Further down, in either build, the digits are right up to any nine-digit group before which, the leading group apart, the true quotient does not come close to a multiple of 10^9.", "quantifier": "all well-formed operands with a divisor other than zero, all destinations, all precision increments for which the call returns", "why_tests_cant": "Infinite operand pairs; wrong digits appear only for rare operands that no random test hits.", "anchors": ["src/arith.rs: FixedDecimal::div_to, div_abs, div_mod"]}
{"id": "C86", "title": "A remainder is right, or the distance to the next multiple", "statement": "If no nine-digit group of the integral part of the quotient is within ten of 10^9 (in particular for every quotient below 999999990), the decimal that remainder hands back has the sign of the dividend (or is zero), is smaller than the divisor in magnitude, and is either the true remainder or the distance from the dividend to the next multiple of the divisor away from zero; in the latter case it is smaller than the divisor by a factor of more than 10^8. So a remainder that is not tiny beside the divisor is the true one.", "quantifier": "all well-formed operands with a divisor other than zero, all destinations, both builds", "why_tests_cant": "Infinite operand pairs; the wrong remainders occur for about one pair in 10^8 and no random test hits them.", "anchors": ["src/arith.rs: FixedDecimal::rem_to, rem_abs, div_mod"]}
{"id": "C87", "title": "Quotients and remainders of all machine integers", "statement": "For all i64 (u64) x and y with y other than 0: if remainder returns, the result converts back without overflow and is Rust's x % y, or, only if |y| has at least 19 digits, the distance to the next multiple of y, which is then smaller than |y| by a factor of more than 10^8. In a debug build, if division returns it does not report an error, and the quotient printed without fractional digits is Rust's x / y.", "quantifier": "all pairs of i64 and all pairs of u64", "why_tests_cant": "2^128 pairs of operands.", "anchors": ["src/arith.rs: FixedDecimal::div_to, rem_to", "src/decimal.rs: FixedDecimal::from_i64, from_u64, as_i64, as_u64", "src/serde.rs: FixedDecimal::to_string"]}
{"id": "C88", "title": "Rounding to every position", "statement": "A rounding position above 127 is taken modulo 256, as a number between -128 and 127: if that is no less than the present count of fractional digits the call is the call with the wrapped position; if it is less, the decimal comes back with the same digits and the wrapped count, or the call panics; what round_to returns for such a position is always the number rounded, and well-formed unless the wrapped position is between -8 and -1. The lowest isize position panics in debug builds and drops the fractional digits in release builds; the next one panics in both. So in a debug build every history of calls, with all rounding positions but those above 127 that wrap to -8 ... -1, keeps every variable well-formed.", "quantifier": "all well-formed decimals, all destinations, all isize positions, both builds; all histories of a debug build", "why_tests_cant": "2^64 positions for each of infinitely many decimals, and histories of every length.", "anchors": ["src/decimal.rs: FixedDecimal::round, round_to", "src/utils.rs: get_units"]}
{"id": "C89", "title": "Everyday divisors, from strings to strings", "statement": "For every numeral s of at most 36 integral and 27 fractional digits and every numeral t other than zero of at most 9 and 9 digits (no exponents): both are read; a release build divides and takes the remainder without panic or error, a debug build does so if t has no fractional digits; and whenever division returns, the printed quotient is the exact s/t truncated to the digits printed, at least as many as asked for (or 36); whenever the remainder returns, the printed remainder differs from s by a multiple of t, is smaller than t in magnitude and has the sign of s.", "quantifier": "all pairs of such numerals, all requests for up to 83 more digits, all destinations, both builds", "why_tests_cant": "About 10^81 pairs of strings.", "anchors": ["src/serde.rs: FixedDecimal::from_str, to_string", "src/arith.rs: FixedDecimal::div_to, rem_to"]}
{"id": "C90", "title": "No string makes a malformed decimal", "statement": "Whatever the bytes and however long the string, in both builds, with and without resetting the target: if reading returns, with a value or with an error, the target is well-formed (nine groups below 10^9, counts of digits that fit). So two decimals that were read from any strings can be printed and compared, and their sums and differences, where they return, are exact. Histories of calls in both builds that read arbitrary strings and round to arbitrary positions (but those that wrap to -8 ... -1), with division restricted as in C44, keep every variable well-formed.", "quantifier": "all byte strings of every length, all well-formed targets, both builds; all histories", "why_tests_cant": "Strings of unbounded length; the 8-bit counter of digits wraps around from 128 digits on.", "anchors": ["src/serde.rs: FixedDecimal::from_bytes_str, from_str"]}
{"id": "C91", "title": "Digit strings of every length in release builds", "statement": "In a release build, a string of an optional sign and n >= 1 digits, whatever n: with w = n mod 256, if w <= 65 the string is accepted and read as the integer of its first w digits (of int_digits w and no fractional digits); if w > 65 it is rejected with ConversionSyntax and the target is left as it was (zero, if reset was asked for). So a digit string with a non-zero first digit that is accepted is read correctly if and only if it has at most 65 digits: strings of 256 to 321 digits, 512 to 577 digits and so on are silently misread. (A debug build panics from 128 digits on, C79.)", "quantifier": "all digit strings of every length, both signs, all well-formed targets, both values of reset", "why_tests_cant": "The 8-bit digit counter wraps around; the length is unbounded.", "anchors": ["src/serde.rs: FixedDecimal::from_bytes_str, from_str"]}
{"id": "C92", "title": "Division whatever the number of digits asked for", "statement": "For every usize incr_frac, both builds and all well-formed operands with a non-zero divisor of at most two significant groups (or a tame quotient): a quotient that is returned is the exact quotient truncated towards zero to the fractional digits the result has, is well-formed and never a negative zero. Its number of fractional groups is determined by the request modulo 256: two requests that agree modulo 256 have the same outcome, 256 more digits are no more digits, a request of 2^63 + 16 or more is the same as a request of none, and a request for 120 to 247 digits (modulo 256) never returns.", "quantifier": "all usize requests, all operands, both builds", "why_tests_cant": "2^64 requests times all operands; the request passes through isize and i8 conversions.", "anchors": ["src/arith.rs: FixedDecimal::div_to, div_abs"]}
{"id": "C93", "title": "Every string, in a release build", "statement": "In a release build every byte string is (a) a numeral within the limits, read as the number it denotes; (b) a numeral of 128 digits or more with an exponent from -30 to 65; or (c) rejected with ConversionSyntax, leaving the target as it was (or zero with reset). In case (b) let i be the digits before the point plus the exponent modulo 256, and f the digits behind the point minus the exponent as a signed byte. If f <= 0 the first i digits of the string are read as an integer if i <= 65, otherwise the string is rejected; if f > 0 the string is rejected if f or the count of all digits as a signed byte is above 65, and otherwise the call panics. So parsing panics in a release build exactly in this last case.", "quantifier": "all byte strings of every length, all targets, both values of reset", "why_tests_cant": "Strings of every length; the counters wrap at lengths no test uses.", "anchors": ["src/serde.rs: from_bytes_str"]}
{"id": "C94", "title": "Exactly which remainders are right", "statement": "For all i64 (u64) x and y with y other than 0, if remainder returns (always in a release build), converting the result back gives: Rust's x % y, unless |y| >= 10^18, |x| >= |y| and the quotient of the operands, multiplied by 10^9 / (leading nine-digit group of |y| + 1) and cut by nine digits each, differs from |x| / |y|; in this case it is the distance to the next multiple of y away from zero, with the sign of x. For decimals: if no nine-digit group of the integral part of the quotient is within ten of 10^9, the result differs from the dividend by a multiple of the divisor exactly if long division guesses every unit of the quotient right from the three leading units; otherwise the result is not zero and is the distance to the next multiple.", "quantifier": "all pairs of i64 and of u64; all well-formed operands with a divisor other than zero and quotient groups as stated, all destinations, both builds", "why_tests_cant": "2^128 pairs of integers, about one in 10^8 of those with long divisors gives the wrong remainder.", "anchors": ["src/arith.rs: FixedDecimal::rem_to, rem_abs, div_mod", "src/decimal.rs: FixedDecimal::from_i64, from_u64, as_i64, as_u64"]}
{"id": "C95", "title": "Exactly which remainders a debug build returns", "statement": "A debug build returns a remainder exactly if there is room for it (C72) and every first guess of long division, taken from two leading units of what remains and one of the divisor, is below 10^9 (this for quotients whose units are guessed right or whose integral groups are not within ten of 10^9). For i64 and u64: it panics exactly if the divisor has 10 to 18 digits and the first guess of the last nine digits of the quotient is 10^9 or more.", "quantifier": "all well-formed operands with a divisor other than zero and quotients as stated, all destinations; all pairs of i64 and of u64", "why_tests_cant": "2^128 pairs of integers; the panic needs a quotient unit near 10^9.", "anchors": ["src/arith.rs: FixedDecimal::rem_to, rem_abs, div_mod"]}
{"id": "C96", "title": "Exactly which quotients a debug build returns", "statement": "If the digits of the divisor lie within two base-10^9 units (18 digits of an integer, ten digits wherever the point is), a debug build returns a quotient exactly if it fits (as in a release build, C69) and every first guess of long division, taken from two leading units of what remains and one of the divisor, is below 10^9; otherwise it panics. For i64 and u64 and divisors below 10^18: it panics exactly if the divisor has ten digits or more and the first guess of the last nine integral digits, or of the nine digits behind the point, is 10^9 or more.", "quantifier": "all well-formed operands with such divisors other than zero, all destinations, all requests of at most 247 fractional digits in total; all i64 and u64 dividends with divisors below 10^18", "why_tests_cant": "Infinite operand pairs; the panic needs a unit of the quotient near 10^9.", "anchors": ["src/arith.rs: FixedDecimal::div_to, div_abs"]}
{"id": "C97", "title": "Debug quotients by long divisors are right", "statement": "If the fractional units of the divisor are no more than those of the dividend and the integral units of the quotient together (integers, say), every quotient that a debug build returns is the right one cut off where its digits end, well-formed, clean and rightly signed, however long the divisor is. It returns one exactly if the quotient fits (C69), every first guess of long division is below 10^9 and every corrected guess but the last is right; otherwise it panics. A release build returns the right quotient if the corrected guesses but the last are right. For i64 and u64 and every divisor but zero: whatever a debug build returns is x / y cut off after nine digits; for divisors from 10^18 it returns exactly if dropping nine digits of both scaled operands does not change the integral part and the first guess of the nine digits behind the point is below 10^9.", "quantifier": "all well-formed operands as stated with a divisor other than zero, all destinations, all requests of at most 247 fractional digits in total; all pairs of i64 and of u64", "why_tests_cant": "2^128 pairs of integers; wrong guesses need a unit of the quotient near 10^9.", "anchors": ["src/arith.rs: FixedDecimal::div_to, div_abs"]}
{"id": "C98", "title": "Laws of division that debug builds keep for divisors of any length", "statement": "In a debug build, if the call returns: a quotient that ends within its digits is exact; an exact product divided by one of its factors is == the other factor; a decimal divided by itself is == 1; the order of dividends is kept between quotients with as many fractional digits, and lost by less than one unit in the last place otherwise (dividing by a divisor with no more fractional units than the dividend and the integral part of the quotient together). If it returned a quotient q of a and b with fractional digits, the remainder r of a and b, in either build, satisfies a = b * trunc(q) + r, |r| < |b| and has the sign of a.", "quantifier": "all well-formed (for products: regular) operands, divisors of any length other than zero, all destinations, all requests of at most 247 fractional digits in total", "why_tests_cant": "Infinite operands; the release build breaks these laws on rare quotients only.", "anchors": ["src/arith.rs: FixedDecimal::div_to, rem_to, mul_to"]}
{"id": "C99", "title": "Debug quotients from end to end", "statement": "In a debug build, every quotient x / y of two i64 (u64) that is returned, whatever y other than 0, prints with up to nine fractional digits as the exact quotient cut off there, and converts back to the exact quotient rounded half away from zero (or the range error). Of two numerals of up to 65 digits each, the divisor with no more digits behind the point than the dividend, the parsed operands' quotient, if returned, prints as the exact quotient cut off at its last digit; overflow is reported only for quotients of 10^81 and more; and if it has fractional digits, the remainder in either build prints as exactly dividend - divisor * integral part of the quotient, and is smaller than the divisor.", "quantifier": "all pairs of i64 and of u64; all pairs of numerals without exponent of at most 65 digits as stated, all destinations, all requests of up to 117 further fractional digits", "why_tests_cant": "2^128 pairs of integers, 10^130 pairs of numerals.", "anchors": ["src/serde.rs: FixedDecimal::from_bytes_str, to_string", "src/arith.rs: FixedDecimal::div_to, rem_to", "src/decimal.rs: as_i64, as_u64"]}
{"id": "C100", "title": "Quotients and remainders of machine integers in release builds", "statement": "In a release build, for x and y of type i64 (u64), y other than 0, the remainder x % y is always returned, and converts back to Rust's x % y exactly if the integral part of the quotient is found: always for |y| < 10^18 and |x| < |y|, otherwise if dropping nine digits of both scaled operands does not change it. Then the quotient x / y is returned too, prints with up to nine fractional digits as the exact quotient cut off there, and converts back to the exact quotient rounded half away from zero (or the range error). The integral part is found whenever |y| - |x % y| is 40 or more, so that a wrong remainder, and a quotient of which nothing is guaranteed, needs a true remainder within 40 of the divisor.", "quantifier": "all pairs of i64 and all pairs of u64", "why_tests_cant": "2^128 pairs; the wrong ones are those with a remainder next to the divisor, some 10^-17 of all.", "anchors": ["src/arith.rs: FixedDecimal::div_to, rem_to", "src/decimal.rs: From<i64>, From<u64>, as_i64, as_u64", "src/serde.rs: FixedDecimal::to_string"]}
{"id": "C101", "title": "Errors say what went wrong", "statement": "Whatever the operands, additions and subtractions return no error; a product can only fail with Overflow, a quotient with DivisionByZero or Overflow, a remainder with DivisionByZero, parsing with ConversionSyntax and a conversion to i64 or u64 with ExceedsConversionTargetRange. A failed quotient is DivisionByZero exactly when the divisor is zero and Overflow exactly when the quotient has more than 81 integral digits, and leaves the plain zero in the destination, as does a failed remainder. The texts of the four errors are distinct, non-empty printable ASCII.", "quantifier": "all operands (well formed or not), destinations, precision requests, byte strings, builds, and all pairs of errors", "why_tests_cant": "tests see the errors of the calls they make; a wrong kind of error on one path only shows on the inputs that take it", "anchors": ["src/error.rs: Error", "src/arith.rs: add_to, sub_to, mul_to, div_to, rem_to", "src/decimal.rs: as_i64, as_u64", "src/serde.rs: from_bytes_str, from_str"]}
{"id": "C102", "title": "Histories with division compute right", "statement": "Every sequence of calls (parsing, conversions, copies, sign changes, sums, differences, products that fit of operands declaring all their digits, quotients by divisors that have two significant units or of which no unit is cut off or that are tame, remainders whose guesses are right, roundings) that does not panic in a debug build leaves in each variable the number the same calls give on rational numbers, where a quotient is truncated (to at least nine fractional digits if digits are asked for and the quotient is below 10^72) and errors leave zero; in a release build the same holds if the guesses of the divisions are right. The variables compare as these numbers and print as them.", "quantifier": "all histories of any length on any number of variables, both builds", "why_tests_cant": "a test runs one history; how results of divisions, with their digit counts, enter later calls depends on the whole history", "anchors": ["src/arith.rs: add_to, sub_to, mul_to, div_to, rem_to", "src/round.rs: round_to, round", "src/serde.rs: from_bytes_str, to_string", "src/cmp.rs: cmp"]}
{"id": "C103", "title": "Ledger programs never fail and are exact", "statement": "Take any program that parses decimal strings or converts machine integers, copies, changes signs, adds, subtracts, multiplies inputs of at most 18 integral and 9 fractional digits, and rounds to at most 27 fractional digits. If on paper all its numbers stay below 10^36 in absolute value (and, in a debug build, the first factor of every product of non-zero factors is at least one), then every call of the program returns without error or panic, every variable ends up holding exactly the number computed on paper, and prints as exactly that number. In particular the total of an invoice with any number of lines quantity times price is exact; here a debug build only needs the first factor of each line to be written with an integral digit, as in 0.5. This cannot be dropped: .5 * .5 panics in a debug build.", "quantifier": "all programs over any number of variables and of any length, all input strings and integers within the stated sizes, both builds", "why_tests_cant": "the length of the program and the sequence of intermediate values are unbounded; a test runs one program, and the guarantee that nothing panics rests on an invariant over the sizes of all variables", "anchors": ["src/arith.rs: add_to, sub_to, mul_to", "src/round.rs: round_to", "src/serde.rs: from_bytes_str, to_string", "src/decimal.rs: From<i64>, From<u64>"]}
{"id": "C104", "title": "Statically sized programs never fail and are exact", "statement": "Give every variable a declared size: groups of nine integral digits (at least one) and groups of nine fractional digits, at most nine together. Check a program statically: inputs fit the size of their variable, sums and differences go into variables as large as their operands and need at most seven groups, the sizes of the factors of a product add up to that of its variable with at most four fractional groups, roundings change only the fractional groups. If then, on paper, every assigned number is below the bound given by the integral groups of its variable (and, in a debug build, the first factor of every product of non-zero factors is at least one), every call of the program returns without error or panic, every variable holds exactly the number computed on paper, stays within its declared size, and prints as that number.", "quantifier": "all assignments of sizes, all programs over any number of variables and of any length that pass the static check, both builds", "why_tests_cant": "the sizes, the program and the sequence of values are unbounded; the guarantee rests on an invariant tying declared digits to values through every call", "anchors": ["src/arith.rs: add_to, sub_to, mul_to", "src/round.rs: round_to", "src/serde.rs: from_bytes_str, to_string", "src/decimal.rs: From<i64>, From<u64>"]}
{"id": "C105", "title": "Averages of strings never fail and are correctly rounded", "statement": "Parse any positive number (below 10^9) of decimal strings of at most 36 integral and 27 fractional digits each whose absolute values sum to less than 10^36, add them up one after the other, divide the total by their number asking for four more fractional digits (as / does), and round the quotient to f places, 0 <= f <= 8. In both builds no call fails or panics; the printed result has exactly f places and is the exact mean rounded half away from zero to f places; the printed quotient is the exact mean truncated to the places it shows, which are more than f unless the mean is zero.", "quantifier": "all non-empty lists of strings within the limits, all f in 0..8, both builds", "why_tests_cant": "the list is unbounded, and truncating before rounding is only harmless because enough digits are kept for every list", "anchors": ["src/serde.rs: from_bytes_str, to_string", "src/arith.rs: add_to, div_to", "src/round.rs: round_to", "src/decimal.rs: From<u64>"]}
{"id": "C106", "title": "Compounding works when the balance is written and read back, and only then", "statement": "Repeat any number of times: read the balance from its string, multiply it by a rate of at most 18 integral and 9 fractional digits, round it to f places (0 <= f <= 9), print it. As long as the balances computed on paper stay below 10^36, nothing fails in either build and the string is, after every number of periods, exactly the balance computed on paper with the same roundings. If instead the rounded product is used as the next balance without printing it, every period declares nine more integral digits whatever the number: a non-zero balance survives at most nine periods, and at most eight if f > 0. The ninth period of 100 at 3.75 % panics (index out of bounds), although the balance is below 140; so does 1 * 1.", "quantifier": "all rates, balances, places, numbers of periods, both builds", "why_tests_cant": "the number of periods is unbounded, and the failure after the eighth concerns digits declared, which no comparison of values shows", "anchors": ["src/arith.rs: mul_to", "src/round.rs: round_to", "src/serde.rs: to_string, from_str"]}
{"id": "C107", "title": "Splitting a sum into equal parts loses nothing", "statement": "Split a decimal string of at most 36 integral and 9 fractional digits between n people, 0 < n < 10^9: divide the sum by n (asking for four more digits, as / does), round the part to f places (0 <= f <= 8), multiply the part by n and subtract the product from the sum. In both builds no call fails or panics; the printed part has exactly f places and is the exact quotient rounded half away from zero; n times the part plus the printed rest is exactly the sum; twice the rest is at most n units of the last place, and if the sum has at most f places the rest is a whole number of at most n/2 such units. A quotient may declare too few digits to be multiplied (see C36); rounding it to fewer digits always repairs it.", "quantifier": "all strings within the limits, all n and f in the ranges, both builds; for the repair all well-formed decimals", "why_tests_cant": "four operations are chained, and the product is only right because the rounding in between repairs what the division leaves; no set of examples covers all sums and counts", "anchors": ["src/serde.rs: from_bytes_str, to_string", "src/arith.rs: div_to, mul_to, sub_to", "src/round.rs: round_to", "src/decimal.rs: From<u64>"]}
{"id": "C108", "title": "Converting an amount and converting it back", "statement": "Multiply an amount by a rate, round to g places and print; read that string, divide by the rate (asking for four more digits, as / does), round to f places and print. For amounts of at most 25 integral and 26 fractional digits and non-zero rates of at most ten digits, 0 <= g <= 27, 0 <= f <= 8, every call returns (in debug builds: whole rates of at most nine digits, amounts written with an integral digit). The two strings are canonical with exactly g and f places, the first is the exact product rounded half away from zero, the second differs from the amount by at most half a unit of its last place plus half a unit of the first's last place divided by the rate; if the amount has at most f places and 10^-g < |rate| 10^-f, the second is the amount.", "quantifier": "all amounts and rates within the limits, all g and f in the ranges, both builds", "why_tests_cant": "the bound and the identity must hold for every pair of amount and rate, and two roundings and a truncated division lie in between", "anchors": ["src/serde.rs: from_str, to_string", "src/arith.rs: mul_to, div_to", "src/round.rs: round_to"]}
{"id": "C109", "title": "Division by one resets the declared digits, so that compounding in place never ends", "statement": "Dividing a regular non-zero decimal of at most 36 fractional digits and eight units by one, without asking for more digits, returns in both builds the same number with all its fractional digits, regular, with as few groups of integral digits as its number needs, and never more than before. So a balance that is multiplied by a rate, rounded to f places (0 <= f <= 9) and divided by one every period can be compounded for any number of periods without being printed: as long as the amounts on paper stay below 10^36, no call fails or panics, and the balance is the one on paper. (Without the division by one the ninth period panics: C106.)", "quantifier": "all regular decimals and rates within the limits, all f in 0..9, any number of periods, both builds (in debug builds the rate declares an integral digit)", "why_tests_cant": "the number of periods is unbounded, and the effect of the division is only visible in later periods", "anchors": ["src/arith.rs: mul_to, div_to", "src/round.rs: round_to"]}
{"id": "C110", "title": "Invoices with rounded lines", "statement": "In an invoice of any length whose every line is the product of two parsed strings (at most 18 integral and 9 fractional digits each), rounded to f fractional digits and added to the total, no call fails, the total is exactly the sum of the rounded products, it prints with at most f fractional digits as exactly that sum, and it differs from the sum of the unrounded products by at most half a unit of the f-th digit per line. If the two numbers of every line are together written with at most f fractional digits, it is exactly the sum of the unrounded products.", "quantifier": "every list of lines of any length whose magnitudes plus one per line stay below 10^36, every f from 0 to 27, release build; debug build when every line has a zero factor or its first factor is at least one or written with an integral digit", "why_tests_cant": "the errors of the rounded lines accumulate over lists of unbounded length; the bound and the absence of a panic need an invariant over all programs, not samples", "anchors": ["src/arith.rs: add_to, mul_to", "src/round.rs: round_to", "src/serde.rs: from_bytes_str, to_string"]}
