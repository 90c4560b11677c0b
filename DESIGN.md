# Formal model of fundu in Rocq (Coq 8.16.1)

Subject: `/repo` (fundu-core, fundu, fundu-systemd, fundu-gnu) at the pinned commit, read as text.

## 1. Layout

`rocq/theories/`

| kind | files |
|---|---|
| model (no proofs) | `Prelude` (integers, result monad), `Util`, `Time`, `Config`, `Bytes`, `Repr`, `Parse`, `Standard`, `Custom`, `Systemd`, `DateTime`, `Gnu`, `Serde` (derived (de)serialisation), `Equal` (derived equality of parsers and builders), `Cost`, `CostExt` (the same functions, counting steps), `Examples` (the example programs systemd, gnu and custom), `ExamplesMore` (`Debug` of durations, the other example programs), `Misc` (messages of errors, equality, hash, provided order methods) |
| specification (uses no function of the model except its data types) | `SpecTime` (nanoseconds, clamping), `SpecNum` (decimal value of a digit string), `SpecParse` (character classes, well-formed environment), `SpecValue` (value of number, unit, numeral), `SpecFloat` (f64 literals and doubles), `SpecTexts` and `SpecGnuTexts` (regular expressions of the fuzz targets), `SpecManyTexts` (the same for multiple durations), `SpecGrammar` (grammar of one duration and of several), `SpecErrors` (grammar of errors), `SpecSpelling`, `SpecCustom`, `SpecSystemd` (documented time spans), `SpecDate` (calendar, day by day), `SpecGnu` (relative time grammar), `SpecGnuErrors` (what is wrong with a text which is none), `SpecSystemdErrors` (the same for time spans), `SpecExamples` (white space, words and layout of the example programs), `SpecDebug` (texts for debugging, output of the other example programs), `Unbuffered` (scanner without buffer) |
| proofs | `*Proofs`, `Ref*` (the parser as a function on the remaining text, equal to the model), `Gnu*`, `SystemdSpan`, `SystemdExact`, `SystemdErrors`, `Cost*` |
| examples | `ExEnv`: an environment of units, keywords, numerals and configurations meeting all hypotheses; the examples stand below their theorem in `Prop*` |
| tests of the model | `Conform` (vocabulary), `ConformParser`, `ConformTime`, `ConformSystemd`, `ConformGnu`, `ConformDocs`: about 2800 assertions of the test suite and the documentation of `/repo`, replayed on the model. No theorem depends on them |
| properties | `Prop*`: the theorems `Cnn_*`, each followed by `Print Assumptions` and an example |

Every model definition cites the file and lines of `/repo` it models.

## 2. How Rust is modelled

* Integers are `Z`; every Rust operation that can wrap, saturate or panic is written out: `checked_*`
  return `option`, `wrapping_*` use `mod 2^64`, and *plain* `+ - *` on machine integers go through
  `add_u64`, ... which return `Crash Overflow` outside of the type's range (debug: panic, release: wrap;
  a proof that `Crash` is never returned therefore covers both build modes).
* Bytes are `Z` in `0..255`, strings and slices are `list Z`; positions are `nat`.
* `res A = Ok a | Err ParseError | Crash kind`. `Crash` covers: arithmetic overflow, failing
  `unwrap/expect`, slice index out of bounds, `unreachable!`, `assert!`, `debug_assert!`, use of
  `from_utf8_unchecked` on invalid UTF-8, and exhausted fuel (non termination). Nothing is totalised
  silently.
* `&mut self` methods return the new state. Trait `ReprParserTemplate` is a record of methods.
  `TimeUnitsLike`, `NumbersLike` and delimiters are arbitrary functions, over which all theorems quantify.
* `usize` is modelled as `nat` (no input is longer than `isize::MAX`, so positions cannot overflow).
* `std::time::Duration`, `time::Duration`, `chrono::Duration`, `str::from_utf8`, `slice::chunks_exact`,
  `u64::from_le(read_unaligned)`, and the code generated by serde's derive, are modelled by their documented contract: part of the trusted base.

## 3. Plan per property

See `properties.jsonl` for the statements and `MANIFEST.json` for the theorem names.

* C01-C09 Duration algebra. Abstraction `nanos : Duration -> Z` (signed nanoseconds); each operation is
  proved equal to the operation on `Z`. `Hash` is modelled as the list of primitives fed to the hasher.
* C10 Display round trip: composition of the formatter model with `parse_multiple`; uses the completeness of
  the multi-duration parser on `123y 4M ...`; induction over the list of parts.
* C11 Multiplier arithmetic: direct.
* C12, C13 SWAR tricks: 64 bit masks/multiplications in `Z`; byte-wise decomposition lemma for `Z.land`,
  finite sweep over one byte (with carry) lifted by a lemma, induction over the 8 bytes.
* C14 scanners: induction on the remaining input, relation to the maximal run of digits.
* C15, C16: induction over chunks; value of a digit string as `Z`.
* C17, C18: `DurationRepr::parse` against a rational specification (value of the decimal number times the
  multiplier, cut at 18 decimal places, clamped); C17_error_bound compares with the real value.
* C19 units without a number, keywords and numerals: for all exponents, also those where the code deviates
  from the documented reading (`_refuted`, C19_other_exponents).
* C20 no crash / UTF-8: invariant "the position is at a character boundary" through all functions; termination is
  "the fuel (length of the input + 1) is never used up".
* C21 case analysis over all paths.
* C22 grammar: relational grammar in `SpecGrammar`, equivalence with `parse_single`.
* C23 components: relation `component`, induction over the loop of `parse_multiple`; soundness, completeness,
  uniqueness of the decomposition.
* C24, C25: position bounds for all error paths. C26-C28, C30: consequences of C22/C23.
* C29: simulation between the scanner and a scanner without buffer.
* C31-C33 standard parser; C34-C36 custom parser: lookups against membership in the registered lists.
* C37-C39, C47 systemd: the parser's text grammar specialised to documented time spans.
* C40, C44 gnu: the packed 64 bit constants against the documented words; grammar and evaluation as in C23, months and
  years by the calendar of C41/C43.
* C41-C43, C48-C50 calendar: proof against an independently defined day-by-day calendar.
* C51 errors: a relational grammar of errors (`SpecErrors`), one rule per thing that can be wrong; equivalence with the
  parser through error functions on plain texts (`RefErrors`, `ErrorProofs`).
* C52 arithmetic laws: consequences of C01-C05 (all results as integers of nanoseconds).
* C53, C54 negative durations, signs and `ago`: C53 from the functions behind C22/C51 and induction over the loop of
  `parse_multiple`; C54 from the grammar (C22, C23), rule by rule.
* C55-C57: from the grammars (C22, C23), rule by rule: a single duration is a component (C55), every component may be
  followed by delimiters and another number (C56), monotonicity of `floor_scale10` (C57).
* C58, C59: messages, equality, hash and provided order methods (`Misc.v`), case analysis and injectivity of the
  decimal printer.
* C60 more units: from the grammars; the only rules with a negative premise about units are looked at separately.
* C61 delimiters: relation `respaced` on texts, preserved by every rule of both grammars; C62 the same for the gnu grammar with
  letter case (`alike`).
* C63 canonical text: invariant of the formatter "what remains is less than every unit already tried". C63_length: by induction on the greedy sum, each unit has a largest number of digits.
* C64 tables: congruence of all parsing functions in the answers of the three tables, then C31/C34/C36. SYSTEMD_TIME_UNITS: lookup against the documented words, then the same congruence.
* C65 order: the components of joined parts are the components of the parts (C56), permutations of sums; C66 the same for systemd,
  C67 for gnu with the rules of its own grammar.
* C68 options: monotonicity of the grammars of C22/C23 in the configuration.
* C69 calendar laws: the first days of the months on a line of 12 per year; C70 laws of points and vectors on instants.
* C71 settings: for each option the last of the calls concerning it, by induction on the calls from the end.
* C72 serde: functions to and from values of serde's data model, one for each derive; composition is the identity, the range of the deserialiser.
* C73, C74 systemd language and maximum: the grammar of C23 for the configuration of systemd is equivalent to a concrete description of the texts.
* C75 equality: the derived equalities as functions (Equal.v), congruence of all parsing functions in the delimiters (DelimProofs.v).
* C76 more words: monotonicity of the parsing functions in the numerals (directly) and in the keywords (through the grammar of C22 and C23).
* C77 gnu errors: rules for the first wrong component (SpecGnuErrors.v), proved equal to the errors of the core (C51) and of the evaluation.
* C78 systemd errors: rules for the first wrong part (SpecSystemdErrors.v), proved equal to the errors of the core (C51) with the configuration of systemd.
* C79 running time: every function of the parser once more in a counting monad (Cost.v, CostExt.v); erasing the counter gives the model
  (CostErase.v). The bound is amortised: a potential made of the bytes left and of the bytes left behind the next end of a duration pays for the
  words which are read twice (buffer misses, the look-ahead for `ago`). CostQuad.v has the family of texts which takes quadratic time,
  CostWorst.v the quadratic bound which needs no hypothesis.
* C80 writing a duration: the text of the value with nine decimals is an instance of the grammars (C22, C23, C47, C59) with the value of C21.
* C81 default unit: both texts are evaluated with the grammar; for the converse every case of the grammar but the bare number carries over to the
  configuration with another default unit.
* C82 agreement: standard/systemd: both are embedded, by the monotonicity theorems C55, C60 and C68, into one parser which allows everything either allows.
  systemd/gnu: the specifications any_span (C73) and relative_time (C44) are read in parallel, part by component; every sign, number and word splits the
  text in one way only. standard/gnu: the grammar of C22 against relative_time.
* C83 f64 literals: SpecFloat.v has the grammar of f64::from_str and the doubles over Q; the texts by C22 and C21, the distance by bounding the gap between
  neighbouring doubles below 2^64 (2048 s) and the rounding to nanoseconds. C84, C85 regular expressions of the fuzz targets: SpecTexts.v and SpecGnuTexts.v say
  how texts are written, without looking ahead; equal to the grammars C22 and C44, which say how they are read.
* C86 positions of errors: the error grammars (C22 errors, C77) say what stands in front of each error; for each of these a continuation is given and
  shown to be in the grammar of written texts (C84, C85; for sequences of durations C87).
* C87 texts of multiple durations: SpecManyTexts.v says how to write them from left to right, without looking ahead; equivalence with the grammar of
  C23, which looks ahead, in both directions by cases on what a duration ends and the next one starts with.
* C84, C86-C89 for custom parsers (PropCustomTexts.v): the identifiers found in the tables of a custom parser are those given to its methods (C34, C36),
  so the conditions and the written texts can be said in terms of these.
* C88 conjunctions: texts of C87 are closed under appending, whatever stands between them; the values are those of the same list of durations.
* C89 letter case: the grammars of C22 and C23 are blind to case except for the lookups; texts which agree stay in agreement behind every part of the grammar, since every part ends at the edge of a word.
* C90 reading back: the canonical text of C63 is a text of the grammar of C23 in every such configuration; for the converse (fundu-systemd, fundu-gnu) every maximal run of letters of an accepted text is one of the parser's words.
* C91, C92, C93 example programs (Examples.v): their parsers are custom parsers built by calls (C33, C34), so C20 and C21 exclude panics; the readable texts are greedy sums as in C63 with other words, which are texts of the grammar of C23 resp. of C44; `str::trim` is specified by the list of Unicode white space (SpecExamples.v). C91_texts, C92_texts and C93_texts (PropExampleTexts.v) give exactly the texts they read: C87 and C84 for their tables, which SpecExamples.v repeats.
* C94 `Debug` (ExamplesMore.v, SpecDebug.v): the loop of std which writes the digits after the point is inverted by induction over the digits; reading back is C22/C23 and C29 for a number with a fraction, distinctness follows from reading back by one parser.
* C95, C96, C97 the other example programs (ExamplesMore.v): the values come from C02, C08, C09, C20, C21 and C44, the texts from C94; for C96 the day of finding 4 is out of reach, as clock and relative time are both at most 2^64 seconds. C84_standard, C95_texts, C97_texts (PropStandardTexts.v): exactly the texts which the standard parser reads.
* C98 months in days: by C44_calendar the result differs from the exact part by the days between the first days of two months; the first days of the 4800 months of a cycle are computed (by the kernel) and extended to all months by periodicity and induction.
* C99 length of messages: by induction on the error relations of C51, C77 and C78: every rule quotes at most one part of the text in front of the reader.
* C100 final errors: every rule of the error relation of C51 for a syntax error at a byte looks at nothing behind this byte, so the rule applies to every other continuation; the side conditions (no keyword, no time unit, no infinity) are settled by the bytes in front. For multiple durations, time spans and relative times: a part in front of the component with the wrong exponent does not look behind the first digit of that component's number (lift_component, piece_cut, item_piece'), so it is read in the same way; the rule for the exponent is as for single durations. Infinity and conjunction errors of multiple durations are not included: there an identifier may still match (`1 infx` and the unit `infxy`).
* C101 characters: SpecUnicode.v defines scalar values and their encoding with 7, 11, 16 or 21 bits, without reference to the model's predicate `utf8`; both agree by case analysis on the lead byte and arithmetic. Positions and messages: induction over the error relations (C51, C77, C78); every text in front of a rest is cut at an ASCII byte or is itself a word of the configuration.
* C102 kinds of errors: case analysis over the error relations of C51, C77 and C78; every rest in front of the reader is an end of the input.
* C103 fuzz oracle: SpecRegex.v gives regular expressions with named groups a source text and a meaning, SpecFuzz.v is the target (its expression and its check).
  Proof: the expression is inverted part by part, accepted texts come from C84, errors from the rules of C51. Byte classes instead of characters: all classes of the expression
  are ASCII, so that this is the same for valid UTF-8.
* C104 f64 fuzz oracle: SpecFloatFuzz.v is the target. From C83 (texts, errors, distance), and: no double lies between the literal 1e-18 of the target and the one below it,
  so that the comparison of the doubles decides on which side of 10^-18 the exact value is. The nearest double exists: the least element of a finite family.
* C105 gnu fuzz oracle: SpecGnuFuzz.v has the three expressions (SpecRegex.v, matched without regard to case) and the check. The texts of the main expression are normalised
  (joined digits, units belonging to the number in front of them); such a text is read component by component until the end or the first wrong fraction (errors from C77); accepted texts come from C85.
* C106 gnu fuzz values: SpecGnuExtract.v has a backtracking matcher (the order of the alternatives matters), captures_iter, the extraction expression and the function extract. For each
  component of a written text (SpecGnuTexts.v) the first match and its captures are determined, and extract adds the same amount; white space left over by `ago` is a match of its own, or belongs to
  the next time unit. Induction over the components, then C44 and C85.
* C45, C46 helper tables: finite sweeps lifted to all values by monotonicity.
Properties of the real code that are false are stated as `_refuted` theorems (a concrete counterexample of the
expected statement) beside the theorem that does hold.

Not expressible in a model, and left out: performance (`#[inline]`, const evaluation), `Debug` output,
`const fn` evaluability, the system clock behind `DateTime::now_utc`.

## 4. Trusted base

* Coq's kernel (8.16.1); `vm_compute` is used for finite sweeps and examples (kernel conversion).
* `Print Assumptions` stands below every theorem in `Prop*.v`: all of them are "Closed under the global context".
  No axiom is used. (A scan of the loaded libraries also sees the axioms in the library `Coq.ssr.ssrunder`,
  which the standard library loads; no theorem depends on them.)
* The reading of the Rust code: model definitions cite the lines. As evidence for it the files `Conform*.v` replay the assertions of
  the test suite of `/repo` (unit tests, integration tests, documentation examples), about 2800 of them, on the model: parsers, builders,
  errors with their positions, arithmetic, conversions, calendar, panics (`should_panic`). They are tests of the model, not part of the
  claims. Left out: tests with non-ASCII delimiters (undefined behaviour, finding 8), offsets of foreign date types, and all but one
  for each test function of the inputs of more than 30000 digits (they pass, but take minutes).
* The contracts of library code listed in section 2.
* For C79 only: which operations count as a step (head of `Cost.v`), and that between two steps the code does a bounded amount of work. A lookup
  in a table costs one step and one for each byte of the identifier: the factor for the size of the table (a linear search in
  `CustomTimeUnits`) is not counted. The memory allocator is not counted.

What is modelled: all of fundu-core/src (parse.rs, time.rs, config.rs, util.rs, the error types of error.rs with their messages), fundu/src/standard,
fundu/src/custom, fundu-systemd/src/lib.rs, fundu-gnu/src (lib.rs, datetime.rs, util.rs), without tests;
the fuzz targets fundu/fuzz/fuzz_targets/*.rs and fundu-gnu/fuzz/fuzz_targets/*.rs (without libfuzzer; the crate regex by the meaning of its syntax); the example programs fundu/examples/*.rs and fundu-gnu/examples/chrono.rs, as functions of their arguments (without clap); `Debug` of Duration, with that of std::time::Duration as a contract of std. What `Debug` prints for the durations of chrono and time is a parameter of the theorem.
What is not: the derive `Clone`, the derive `Debug` of the other types, the text of `str::Utf8Error` (unreachable), the capacity of vectors, the unused function
`CustomTimeUnits::lookup` and field `Config::default_multiplier`, lifetimes and the `std::time::SystemTime` clock
(a parameter of the model). `From<OffsetDateTime>` etc. read the fields of a foreign type: the type is modelled by these fields.

## 5. Findings (the code as it is violates the expected property)

1. `DurationRepr::parse_duration_with_fixed_number` ignores the sign of the input if the multiplier's exponent
   is > 19 (parse.rs:588-594): `-kw` with `Multiplier(1, 20)` gives `Duration::MAX`. Also exponents < -18
   give zero even if the coefficient is large. (C19_large_exponent_refuted, C19_small_exponent_refuted)
2. Precision: digits beyond 18 fractional digits are cut *before* multiplying with the unit
   (parse.rs:480-553), so `0.0000000000000000317y` (a bit more than 1ns) gives 0. (C17_always_exact_refuted)
3. `Bytes::buffered_advance_to` caches by position, not by delimiter (parse.rs:701-731): with inner delimiters which
   are not outer delimiters, `year ago` may fail depending on keywords being defined, and without `ago` a numeral in front of
   a time unit may fail depending on `number_is_optional`. (C29_without_hypothesis_refuted, C29_numerals_refuted) The theorems
   about multiple durations therefore have the hypothesis `delims_ok`, which is void for parsers of single durations, for parsers
   without keywords and numerals (the standard and the systemd parser), with keywords only if `ago` is not allowed, and
   with numerals only if it is.
4. `JulianDay::to_gregorian` has an unchecked subtraction which overflows for one Julian day near the end
   of the range (fundu-gnu/src/datetime.rs:202-236), JulianDay(-92233720366826639). (C41_to_gregorian_total_refuted)
5. Duplicated custom identifiers resolve by group of equal (unit, multiplier) in first registration order.
   (C34_first_registration_wins_refuted)
6. numeral * unit * multiplier can panic for custom numerals (documented as panic only for units).
   (C35_numerals_never_crash_refuted)
7. A negative number which rounds to zero nanoseconds but not to zero attoseconds (`-1e-10`) is a `NegativeNumber` error
   if negatives are not allowed, `-0` is accepted.
8. Delimiters matching non-ASCII bytes break the `from_utf8_unchecked` calls; documented as a precondition (`env_ok`).
9. `DateTime::from(chrono::NaiveDateTime)` panics for a leap second (nanoseconds >= 10^9). (C50_chrono_leap_second_refuted)
10. gnu: `1eighth day` is an error while `1 eighth day` is 1 second + 8 days.
11. The error "Input may not start with a delimiter" and `ParseError::Overflow` are never returned by the core parser.
12. With `allow_time_unit_delimiter` and conjunctions, a number without a time unit in front of a conjunction is an error although
    it is accepted without `allow_time_unit_delimiter`: `1 and 2s`, because the delimiters in front of the (missing) unit are consumed
    and not given back (parse.rs:1260-1273, 1688-1692). (C68_unit_delimiter_refuted)
13. serde (C72): `DateTime` derives `Deserialize` without validation, so `{"days":0,"time":18446744073709551615}` is accepted, and
    `checked_add_duration`, `duration_since` and with them the gnu parser panic for it.
14. With multiple durations, a number with two decimal points is read as two numbers: `1.5.5s` is 1.5 s + 0.5 s (systemd, and every
    parser with parse_multiple), although `1s.5s` is an error. (C73_one_decimal_point_refuted)
15. The exported table `SYSTEMD_TIME_UNITS` of fundu lacks `μs` with the greek letter, which fundu-systemd accepts. (C64_systemd_table)
16. `CustomDurationParserBuilder` derives `==` from the equality of CustomTimeUnit, which ignores identifiers: two equal builders may build
    parsers which accept different inputs. (C75_custom_builder_refuted)
17. Errors of fundu-systemd and fundu-gnu carry byte offsets into the input *without* the surrounding white space, not into the given input:
    ` 1e` is reported at column 1, where the digit is. (C77_position_in_input_refuted, C78_position_in_input_refuted)
18. With `allow_ago`, multiple durations, and an inner delimiter which contains outer delimiters *and* other bytes, the look-ahead for `ago`
    may skip words which are read again: the text `a,a,...,ax` (inner delimiters `a` and `,`, outer `,`) takes a number of steps quadratic in its
    length. (C79_delimiters_needed)
19. Without time units but with `allow_time_unit_delimiter`, the error for `1 x` is reported at the `x`, although the text is already wrong before it:
    no text beginning with `1 ` is accepted. (C86_without_units_refuted)
20. fundu-gnu reports `.5e1` at the exponent, although the `.5` in front of it is already an error, which is found later. (C86_gnu, second case)
21. The text of a Duration with microseconds (`1Ms`, Display of fundu-core) is not a time span of fundu-systemd (which has `us`), nor is the text
    `0ns` of zero, unless nanoseconds are allowed; fundu-gnu reads none of these texts. (C90_systemd, C90_gnu)
22. `From<chrono::DateTime<T>>` keeps the instant (it converts to UTC), `From<time::OffsetDateTime>` keeps the clock at the offset: two equal
    OffsetDateTimes at different offsets become different DateTimes. (C50_time_instant_refuted; the examples of the documentation show both)
23. The example program gnu prints an empty `Human:` text, or a lone `-`, for a duration below a second, which only arises after saturation
    (`18446744073709551616sec -18446744073709551615sec`), and `Seconds: -0` for the negative one. (C92_example)
24. The sample output in the documentation of fundu/examples/custom.rs shows 34398382.959360000 for `1.09y` and 3352039.944768000 for `1.42mon`;
    the program prints 34398383.238400000 and 3352039.944200000. (C93_example, C93_values)
25. The standard parser does not read what `{:?}` prints for the std durations from 1µs to 999.999µs: std writes the micro sign, the default
    identifier is `Ms`. fundu-systemd does not read `0ns` (the zero duration) or any other number of nanoseconds without nanosecond units. (C94_standard, C94_systemd)
26. The messages `Error parsing infinity: Invalid character '…'`, `… Expected a delimiter but found '…'` and `A conjunction must be separated by …`
    show the first byte of a character as if it were a character: `infé` is reported with Ã instead of é. (C101_shown_character_refuted)
27. The fuzz target parse_single.rs panics for `+ yesterday` and `- yesterday` with allow_sign_delimiter and without allow_negative and allow_ago: its exceptions
    list only `yesterday`, `+yesterday` and `-yesterday`. The parser is right. These are the only false alarms. (C103_false_alarm_refuted, C103_fuzz_target)
