# Design: a Rocq model of fxd-rs and proofs about it

## 1. What is modelled

All of `src/` except test modules: `decimal.rs`, `cmp.rs`, `round.rs`, `arith.rs`, `serde.rs`,
`utils.rs`, `error.rs`.  Function by function, as executable Gallina:

| file | models |
|---|---|
| `rocq/theories/Rust.v` | the fragment of Rust used: `build` (Debug/Release), `outcome` (value or panic), machine integers with overflow check (Debug) or wrap (Release), `as` casts, indexing, slices, `debug_assert!` |
| `Tables.v` | `DIV9_TABLE`, `MOD9_TABLE`, `POW10`, `BIN2CHAR`, generated from the source text by `tools/gen_tables.py` |
| `Model_Base.v` | `FixedDecimal`, its accessors, `utils.rs`, `error.rs` |
| `Model_Cmp.v`, `Model_Round.v`, `Model_Decimal.v`, `Model_Arith.v`, `Model_Serde.v` | the file of the same name (`Model_Decimal`: conversions and hash) |
| `Model_Order.v` | the provided methods of `PartialEq`, `PartialOrd` and `Ord` (standard library bodies over src/cmp.rs) |
| `Tests.v` | the unit-test vectors of the repository replayed on the model in both builds (a fidelity test, not a proof) |
| `DiffTests.v` | 900 random cases (parse, print, cmp, add, sub, mul, div, rem, round, conversions, both builds) whose expected results come from `tools/port.py`, a second, independent transcription of the Rust source in Python; generated by `tools/gen_diff.py` (25 000 further cases agreed). A fidelity test, not a proof |

Conventions.  A `&mut self`/`res: &mut` function returns the new value (also beside an `Err`).  A panic is
`Panic kind`.  Every machine operation that can overflow for some argument is checked (`i8`, `i32`, `i64`,
`usize`, ...); index arithmetic whose values stay below 64 is exact.  A loop is a structural recursion on its
number of iterations, or on fuel with `Panic PFuel`; theorems that say "returns" (`= Ret ...`) exclude `PFuel`,
and C83 proves that no call reaches it (so the fuel is enough and the Rust loop ends).

Not modelled: the benches, `#[derive(Debug, Clone, Copy)]`, the expansion of thiserror's derive (`Model_Error.v` takes the four literals of
`src/error.rs` as the texts), the caller's `Hasher`
(only the sequence of writes it receives), memory layout, performance, 32-bit targets.  `to_string`'s
`String::from_utf8_unchecked` is modelled as the identity on bytes; C12 proves the bytes are ASCII.

## 2. Specification layer (`Spec.v`)

Independent of the model's helpers (it mentions only the record fields):

* `value d : Q` - the number: the base-10^9 value of the first `iu + fu` units divided by `10^(9 fu)`, negated if
  the sign bit is set, with `iu = ceil(int_digits/9)`, `fu = ceil(frac/9)`.
* `wf d` - nine units in `[0,10^9)`, i8 fields, `iu + fu <= 9`, `0 <= frac`.
* `clean d` - units beyond `iu + fu` are zero.  `tight d` - the integral part is below `10^intg`.
  `nohidden d` - the digits beyond `frac` are zero.
* rounding on Q: truncation and half-away-from-zero; numerals: a grammar of byte strings (sign, integral digits,
  point, fractional digits, exponent) as an inductive description with its denotation in Q.

## 3. Proof method

* `Lib*.v`: machine-integer lemmas (`chk m lo hi z = Ret z` in range, for both builds), arrays (`get`/`set`/`blit`),
  the segment value `seg l i n = sum l[i+k] 10^(9k)`, and one loop lemma per loop of the model (bounds, frame,
  carry equation) by induction on the iteration count, so no bound on sizes is used except those the code has.
* Per area, a file of lemmas gives total-correctness facts for both builds at once (`m` is universally quantified).
* Properties are then stated in files `Prop_*.v`, with short proofs from those lemmas, non-vacuity
  examples, and `Print Assumptions`.
* Where the code violates a property, `..._refuted` gives a concrete history through the public API
  (parse, call, observe), checked by computation; `..._partial` states the strongest part proved.
* Histories (C43, C44): an operation language over a store of variables, invariant by induction over the list of operations.
* Build agreement (C48): a refinement relation on `outcome` (equal, or a failed overflow check or assertion) preserved by every construct used.
* Termination (C83): "does not run out of fuel" is preserved by every construct (`Term.v`); the fuelled loops by a measure; the guess loop
  of division by the bounds of `Robust.v`, which hold for right and wrong guesses alike.

## 4. Properties

| id | how | expected status |
|---|---|---|
| C01-C03 | scan/convert loop lemmas against the numeral grammar | proved |
| C04 | witnesses (128 digits; `1` and 256 zeroes; ten-digit exponent); debug builds: right or panic at every length (`Sound.v`) | refuted + C01-C03 |
| C05 | reset=true proved; reset=false refuted for is_zero/as_i64, value partial | partial |
| C06 | case analysis | proved |
| C07 | 65 digits proved, 30 fractional digits refuted | partial |
| C08, C09, C12 | formatting loops against a digit specification | proved |
| C10, C11 | composition of C01/C02 and C08 | proved |
| C13, C14 | `cmp_abs_lsu` against integer comparison of scaled magnitudes | proved |
| C15 | witness `-0`; all other values proved | partial |
| C16 | witness `1`, `1.0` | refuted |
| C17 | uniqueness of base-10^9 representation | proved |
| C18-C21 | arithmetic on three units, rounding lemma | proved |
| C22, C23, C25, C49, C51 | carry/borrow loop equations | proved |
| C24 | witness | refuted |
| C26 | witness (5000000000 / 10 * -2); sums, differences, products of tight operands, all quotients and all remainders proved (`Robust*.v`: every path of the long division, also the wrong-guess branches) | partial |
| C27 | case analysis | proved |
| C28-C30, C32 | multiplication row invariant | proved |
| C31 | witness (`.5 * .5` in a debug build) | refuted |
| C33 | case analysis | proved |
| C34, C37 | refuted for three-unit divisors; proved for divisors of one or two significant units and for all divisors with tame quotients (no nine-digit group close to 10^9) | partial |
| C35 | witnesses; exact condition (`division_fits` in `Spec_Div.v`) under which a release build returns, for all divisors (`DivFit.v`); necessary in debug builds too, sufficient there for one-unit divisors or tame quotients | refuted + exact |
| C36 | witnesses; comparison, sums, regularity under a condition on the leading digits | refuted + partial |
| C38, C41 | `round_half_up` against half-away rounding | proved |
| C39, C40, C42 | refuted at the edges, partial elsewhere | partial |
| C43 | invariant (`regular`) over histories, induction on the list of calls | proved |
| C44 | witnesses; the invariant `regular` for `careful_call`; the invariant `wf` for every call in debug builds (`Sound.v`) | refuted + partial |
| C45-C48, C52 | case analysis, refinement, table sweep | proved |
| C50 | composition | proved |
| C53 | witnesses; exact set of panics when the guesses are right; operands that are too long (`Spec_Rem.v`, `RemFull.v`) | refuted + partial |
| C54, C55 | simulation of every call by rational arithmetic, induction on the history | proved |
| C56 | the magnitude operations do not read the signs; exactness for sums | proved |
| C57, C58, C61 | from C34, C37 and laws of truncation (`Laws.v`); witnesses | refuted + partial |
| C59, C60, C62, C63 | from C51, C34, C22, C28, C38, C08, C01, C19 | proved |
| C64 | induction on the list; witness | refuted + partial |
| C65 | truncation then rounding at a coarser place is rounding (`Laws4.v`); composition with C34, C38, C62 | proved |
| C66 | C29 exactness composed with C38 and printing | proved |
| C67 | canonical numerals are determined by value, sign and digits | proved |
| C68 | C04 composed with cmp_numeric; induction on sorted lists | proved |
| C69 | C35 with the zero cases | proved |
| C70, C71 | invariants of the long-division loops that hold also for wrong guesses (`Robust*.v`) | proved |
| C72 | C53 combined in both directions, with `too_long` of `Spec_Rem.v` | proved |
| C73 | C26, C29-C32 combined into one case distinction | proved |
| C74, C75 | C38-C40 combined; the kept lowest groups of `round` computed exactly | proved |
| C76 | induction over histories (C44) and exactness of each call | proved |
| C77 | C18-C20, C22, C23, C28 composed; three groups always fit | proved |
| C78 | witness; C34, C37 with integer conditions on the operands | refuted + partial |
| C79, C82 | the parser's case analysis (`ParseThms.v`, `Sound.v`) | proved |
| C83 | fuel is never spent (`Term.v`, `Robust.v`-`Robust3.v`, `Prop_Term.v`) | proved |
| C84 | the provided methods of the comparison traits (`Model_Order.v`), from the laws of `cmp` (`Prop_Order.v`) | proved |
| C85 | `long_div` started in any state, group by group (`DivP.v`): the quotient register agrees with the true quotient up to the first group in danger; carried through `div_abs` (`DivP2.v`) to `div_to` (`Prop_Lead.v`); `tame_tail` in `Spec_Lead.v` | proved |
| C86 | the remainder loop when the guesses may be one too large (`Rem6.v`, `Rem7.v`): a guess that is too large leaves the negated remainder, and a later one corrects it; only the last can show (`Prop_Near.v`) | proved |
| C87 | C86 and C85 applied to decimals that are machine integers: every group of their quotient is small, or the divisor has two units (`Prop_Near.v`) | proved |
| C88 | every isize position: the cast to the 8-bit counter is followed through both rounding functions; histories by induction (`Prop_Limits.v`) | proved |
| C89 | a divisor of one integral and one fractional unit has two significant units, so C34, C35, C37 and C53 apply; composed with parsing and printing (`Prop_Everyday.v`) | proved |
| C90 | invariants of the scan and of the two digit loops that do not mention the number of digits (every unit stays below 10^9, reading past the last digit cannot return), so they survive the wrapping counter; histories by induction (`ParseAny.v`, `Prop_AnyString.v`) | proved |
| C91 | the scan returns the wrapped counter (induction over the digits), the layout keeps it, and the integral phase stops after that many digits (`intg_phase_ok` with a cut shorter than the string) (`Prop_Long.v`) | proved |
| C92 | the request is one argument of an otherwise request-free computation, so outcomes depend only on the group count taken of it (`Spec_Request.v`); the division theorems are then repeated for every group count (`DivReq.v`, `Prop_Request.v`) | proved |
| C93 | scan, layout and conversion with wrapped counters (`LongParse.v`); the integral phase stops after the wrapped count, the fractional phase runs out of units; `signed_byte`, `read_int`, `read_frac` in `Spec_Long.v` (`Prop_Every.v`) | proved |
| C94 | the loop of `Rem6.v` also says whether the last guess was right; `remainder_computed` in `Spec_Machine.v` (`Rem7.v`, `Prop_RemIff.v`) | proved |
| C95 | the loop in debug builds: a first guess of 10^9 or more fails an assertion whether or not earlier guesses were right (`RemDebug.v`); `first_guess_fits` in `Spec_Machine.v` (`Prop_RemIff.v`) | proved |
| C96 | the division loop in debug builds, by induction: it finishes exactly if every first guess is a unit (`DivDebug.v`); `first_guesses_fit`, `quotient_guesses_fit` in `Spec_Guess.v` (`Prop_DivDebug.v`) | proved |
| C97 | the division loop with whole divisors: after a guess that is too large the next one fails a debug assertion, so what returns is right (`DivSafe.v`, `DivSafe2.v`, `DivSafe3.v`); `nothing_cut`, `guesses_right_but_last`, `long_quotient_found` in `Spec_Guess.v` (`Prop_Safe.v`) | proved |
| C98 | consequences of C97; the integral units of a quotient are the units a remainder guesses (`integral_guesses`) (`Prop_SafeLaws.v`) | proved |
| C99 | C97 and C98 with parsing, printing and conversion (`Prop_SafeEnd.v`) | proved |
| C100 | C97 in release builds, with the exact remainders of C94; a last unit guessed as 10^9 is corrected (`DivLast.v`); `quotient_found` in `Spec_Guess.v` (`Prop_SafeInts.v`) | proved |
| C101 | which errors each function may return, by inversion of every path of the model (no well-formedness needed); what the errors of quotients and remainders mean; the texts (`Model_Error.v`, `Prop_Errors.v`) | proved |
| C102 | histories with division: invariant wf, clean, no hidden digits (not tight, since quotients are not), one step per call, refinement to a run on Q (`Spec_Calls.v`, `Prop_Calls.v`) | proved |
| C103 | invariant: small variables have at most 2 integral and 1 fractional units, all others at most 4 and 3; every call of the program returns and keeps it; with `exact_step` and `meaning_unique` the values are those of the run on numbers; invoices of any length by induction | proved |
| C104 | invariant: every variable is regular and its units are within its declared size; per call, returning (exact domains of C22, C38, C73), value (`exact_step`, `meaning_unique`) and size (shape lemmas, `iu_of_bound`) are proved; induction on the program | proved |
| C105 | the total by `ledger_program`; the division by the exact domain (C35), the truncated quotient (C34) and its units; rounding a truncation (`round_truncate`); printing by C08 | proved |
| C106 | one period: exact product (C73, `exact_step`), room for the rounding (C38), canonical printing (C08) whose integral digits are bounded by the value, read back (`short_parse`); induction on the periods. In place: the product declares `9 * units_for(...)` digits and rounding keeps them; induction | proved |
| C107 | `rounded_division` (C105) gives the part, tight because rounding to fewer digits declares whole units (`rounded_tight`); the product by `sized_step` (C104); the difference by C80; the bounds from `round_at_close` (`Spec_Split.v`, `Prop_Split.v`) | proved |
| C108 | C66 from strings, the printed product has at most 36 integral digits (`canonical_int_digits`), C65 from strings; a number near a multiple of the last place is rounded to it (`round_at_near`) (`Spec_Convert.v`, `Prop_Convert.v`) | proved |
| C109 | division by one: returns (C35), exact (C34, all digits kept), regular (C36 with the leading digit of one), units from C34; one period: C73, C38, then the division; induction on the periods (`Spec_Tidy.v`, `Prop_Tidy.v`) | proved |
| C110 | Programs of parse, multiply, round_to, add and copy run on states (Spec_Receipt.v); one ledger step per call as in C103, with the declared digits of the total as a further invariant, by induction on the lines (Prop_Receipt.v) | proved |
| C80 | C22, C23, C26 combined into one case distinction | proved |
| C81 | canonical numerals and group sequences are unique | proved |

Every property can be expressed in the model; none is not applicable.

## 5. Trusted base

* Coq 8.16.1's kernel, including `vm_compute`.
* The reading of the Rust code in the `Model_*` files and of Rust's semantics in `Rust.v` (machine integers, casts,
  slices, panics, debug assertions); `Tests.v` replays the unit tests of the repository on the model in both builds; `DiffTests.v` compares the model with an independent port of the source on random cases.
* The specification: `Spec.v`, `Spec_Div.v`, `Spec_Rem.v`, `Spec_History.v`, `Spec_Flip.v`, `Spec_Lead.v`, `Spec_Long.v`, `Spec_Machine.v`, `Spec_Request.v`, `Spec_Guess.v`, `Spec_Calls.v`, `Spec_Ledger.v`, `Spec_Typed.v`, `Spec_Average.v`, `Spec_Compound.v`, `Spec_Split.v`, `Spec_Convert.v`, `Spec_Tidy.v`, `Spec_Receipt.v`.
* `Print Assumptions` stands after every property theorem in the `Prop_*.v` files and answers "Closed under the
  global context" for each of them: no axiom is used.  (The axioms `vcheck` lists, `Coq.ssr.ssrunder.Under_rel.*`,
  are the parameters of a module type of the standard library that is loaded but not used by any theorem.)

Modelled: every function of `src/` outside test modules that computes on decimals (table in section 1).
Not modelled: see the end of section 1.

## 6. Findings (all proved on the model from parsed literals)

| call | result | theorem |
|---|---|---|
| parse `1` followed by 256 zeroes | 1 in release builds, panic in debug builds | `C04_long_strings_refuted` |
| parse `1e99999999999` | panic in debug builds | `C04_long_exponents_refuted` |
| parse 123 digits, a point and 5 digits | index out of bounds in release builds, panic in debug builds | `C04_limit_is_sharp_refuted` |
| parse 321 / 256 sevens | the first 65 of them / 0 in release builds, panic in debug builds | `C90_example` |
| parse `0` without reset onto 10^18 | zero, but `is_zero()` is false | `C05_stale_units_refuted` |
| parse `.` and 65 digits | accepted, although MAX_FRAC is 30 | `C07_fraction_limit_refuted` |
| `-0 == 0` | false | `C15_equal_numbers_compare_equal_refuted` |
| hash of `1` and `1.0` | differ although `1 == 1.0` | `C16_refuted` |
| 37 integral and 28 fractional digits, + 1 | index out of bounds | `C24_overflow_is_an_error_refuted` |
| `.5 * .5` | failed assertion in debug builds | `C31_multiplication_never_panics_refuted` |
| nine times: multiply by 1.0375 (or 1) and round to cents | index out of bounds in the ninth round, both builds | `C106_in_place_panics` |
| (10^59)^2 | panic instead of Err(Overflow) | `C31_long_integers_panic_refuted` |
| 499999999500000000 / 999999999000000000.500000001 | silently wrong in the tenth digit, both builds | `C34_truncated_quotient_refuted` |
| 474287466904952399 / 500680056.026040052971204665 | 947286517.00000000021496367 in debug builds (right: 947286517.999999999785036331) | `C85_wrong_tail_example` |
| 1 / 1.000000000000000001 | 0.999999999000000002000000003 in release builds | `C34_release_small_operands_refuted` |
| 999999999000000002 / 1.000000000000000001 | a unit of 10^9 in release builds | `C34_release_unit_overflow_refuted` |
| 1 / 1.000000001 | failed assertion in debug builds | `C35_division_never_panics_refuted` |
| div_to(1, 3, incr_frac = 256) | 0 | `C35_large_request_refuted` |
| (5000000000 / 10) * 9 | 500000000 | `C36_quotients_are_operands_refuted` |
| (5000000000 / 10) * (-2) | a zero with the sign flag set | `C26_no_negative_zero_refuted` |
| 2 % 1.000000000000000001 | 0.000000000000000002, both builds | `C37_truncated_remainder_refuted` |
| round_to(1999999999, -9) | 1000000000 (truncated) | `C39_refuted_whole_units` |
| round_to(95, -2) | 0 (but 100 for `095`) | `C39_refuted_top_digit` |
| 1.5 rounded in place to 10 digits | 1.5000000005 | `C40_refuted` |
| round(250) / round(100) | frac() = -6 / panic | `C42_refuted_wraps`, `C42_refuted_panics` |
| round(258) of 12.345 | the same digits with frac() = 2, printed as 12.34 | `C88_example` |
| round_to(-12.945, isize::MIN) | -12 in release builds, panic in debug builds | `C88_lowest_positions` |
| (1.999999999999999999 * 1.000000001000000001) / 1.000000001000000001 | failed assertion in debug builds, malformed in release builds | `C57_exact_quotients_refuted` |
| 2/3 and 1.9999999999999999999999/3 | the first is smaller | `C61_division_is_monotone_refuted` |
| 1*1*...*1 (eleven factors) | overflow | `C64_running_products_are_exact_refuted` |
| i64 3000000000000000002 % 1000000000000000001 | 1 in both builds (right: 10^18) | `C78_integer_remainders_refuted`, `C87_remainder_example` |
| 321 sevens / 256 sevens, release | read as the first 65 of them / as 0 | `C91_example` |
| div_to(1.5, -0.4, incr_frac = 254) | -3 | `C92_example` |
| 77.(258 sevens) / the same with e2 / -7.(129 sevens), release | index out of bounds / 7777 / -7 | `C93_example` |
| i64 1000000000999999999 % 1000000001, debug | failed assertion (release: right) | `C95_example`; exactly when: `C95_i64_debug` |
| i64 1000000000 / 1000000001, debug | failed assertion (release: right) | `C96_example`; exactly when: `C96_i64_debug` |
| i64 3000000000000000002 / 1000000000000000001, debug | failed assertion | `C97_example`; exactly when: `C97_i64` |
| 1*1*1 % 2.(63 zeroes)1 | index out of bounds | `C53_remainder_never_panics_refuted` |
| 10^80 % 0.08 written with 81 fractional digits | index out of bounds in both builds (% 0.8: in debug builds only) | `C53_too_long_example`, `C53_too_long_panics_refuted` |

## 7. Seeded bugs

`tools/seed.py` edits one definition of the model in a scratch copy, rebuilds with failing proofs replaced by
`Admitted`, and records which property theorems then depend on an admitted fact.  `tools/mutations1.json`,
`tools/mutations2.json`, `tools/mutations3.json`, `tools/mutations4.json`, `tools/mutations5.json`, `tools/mutations6.json` hold the edits, `seeded/LOG.jsonl` the outcomes.

`tools/automut.py` makes random one-token edits of the model (operators, constants, dropped conversions) and stops at
the first proof that fails; `seeded/AUTO.jsonl` holds its outcomes.  Every mutant but one was rejected; the survivor
(`(MAX_FRAC + 9 + 1) / 9` for `(MAX_FRAC + 9 - 1) / 9`, both 4) is the same program.
