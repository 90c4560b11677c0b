{"id": "C01", "title": "checked_add / checked_sub are exact or None", "statement": "Viewing a Duration as a signed number of nanoseconds, `a.checked_add(b)` returns Some(c) with c exactly a+b whenever a+b lies between Duration::MIN and Duration::MAX, and None otherwise; checked_sub likewise for a-b.", "quantifier": "all pairs of Durations of either sign, including both zeros and the extreme values", "why_tests_cant": "four sign combinations times carries/borrows of nanoseconds over 2^64 seconds cannot be enumerated", "anchors": ["fundu-core/src/time.rs:Duration::checked_add", "fundu-core/src/time.rs:Duration::checked_sub", "fundu-core/src/time.rs:Duration::neg"]}
{"id": "C02", "title": "saturating_add / saturating_sub clamp the exact result", "statement": "`a.saturating_add(b)` is the exact sum clamped to [Duration::MIN, Duration::MAX], `a.saturating_sub(b)` the exact difference clamped likewise; the operators + and - return the exact result or panic precisely when checked_* is None.", "quantifier": "all pairs of Durations", "why_tests_cant": "saturation boundary is reached only at particular 94 bit values", "anchors": ["fundu-core/src/time.rs:Duration::saturating_add", "fundu-core/src/time.rs:Duration::saturating_sub", "fundu-core/src/time.rs:impl Add for Duration", "fundu-core/src/time.rs:impl Sub for Duration"]}
{"id": "C03", "title": "Duration ordering is the order of the signed nanosecond values", "statement": "For any two Durations cmp returns Less/Equal/Greater exactly as their signed nanosecond values compare, == holds exactly if cmp is Equal; hence a total order in which +0 and -0 are equal.", "quantifier": "all pairs (triples for transitivity) of Durations", "why_tests_cant": "total order laws quantify over all triples; negative zero is a corner case", "anchors": ["fundu-core/src/time.rs:impl Ord for Duration", "fundu-core/src/time.rs:impl PartialOrd for Duration", "fundu-core/src/time.rs:impl PartialEq for Duration"]}
{"id": "C04", "title": "Equal Durations hash equally", "statement": "If a == b then a and b feed the same data to the Hasher, so they can be used as HashMap keys; unequal Durations feed different data.", "quantifier": "all pairs of Durations, including +0 and -0", "why_tests_cant": "a law over all pairs; only the two zeros make it non trivial", "anchors": ["fundu-core/src/time.rs:impl Hash for Duration"]}
{"id": "C05", "title": "Constructors, neg and abs", "statement": "Duration::positive and Duration::negative give exactly the value and sign asked for (also with more than a second of nanoseconds) and panic exactly if there is no such duration; every Duration comes from them. -d has the negated value, is an involution up to ==, abs(d) is the absolute value and is never negative; no overflow is possible (MIN = -MAX). is_zero holds exactly for the value 0, is_positive and is_negative are opposites and tell the sign of every value other than 0.", "quantifier": "all Durations", "why_tests_cant": "needs every value", "anchors": ["fundu-core/src/time.rs:impl Neg for Duration", "fundu-core/src/time.rs:Duration::abs", "fundu-core/src/time.rs:Duration::positive", "fundu-core/src/time.rs:Duration::negative", "fundu-core/src/time.rs:Duration::from_std"]}
{"id": "C06", "title": "as_* accessors truncate toward zero", "statement": "as_weeks/days/hours/minutes/seconds/millis/micros/nanos return the signed nanosecond value divided by the unit, truncated toward zero, without wrap-around for any Duration; subsec_millis/micros/nanos return the fractional part of the second truncated, with the sign of the duration.", "quantifier": "all Durations", "why_tests_cant": "i64/i128 casts must never wrap over 2^64 seconds", "anchors": ["fundu-core/src/time.rs:Duration::as_weeks", "fundu-core/src/time.rs:Duration::as_seconds", "fundu-core/src/time.rs:Duration::as_nanos", "fundu-core/src/time.rs:Duration::subsec_nanos"]}
{"id": "C07", "title": "extract_* splits a duration without losing time", "statement": "d.extract_X() (weeks, days, hours, minutes, seconds) returns the number n of whole units contained in d (truncated toward zero) and leaves a remainder r in d with value(d_before) = n*X + value(r), |r| < X and the same sign.", "quantifier": "all Durations and all extract methods, in any sequence", "why_tests_cant": "the remainder update is guarded by conditions; needs every value and sign", "anchors": ["fundu-core/src/time.rs:Duration::extract_weeks", "fundu-core/src/time.rs:Duration::extract_i64", "fundu-core/src/time.rs:Duration::extract_seconds"]}
{"id": "C08", "title": "Conversions between Duration and std::time::Duration", "statement": "From<std> preserves the value; TryFrom<Duration> for std succeeds exactly if the duration is not negative (a zero always converts) and preserves the value, otherwise reports NegativeDuration; saturating_into clamps negative values to zero.", "quantifier": "all Durations", "why_tests_cant": "needs every value; the sign flag on a zero value is a corner case", "anchors": ["fundu-core/src/time.rs:impl From<StdDuration> for Duration", "fundu-core/src/time.rs:impl TryFrom<Duration> for StdDuration", "fundu-core/src/time.rs:impl SaturatingInto<StdDuration> for Duration"]}
{"id": "C09", "title": "Conversions to and from time::Duration and chrono::Duration", "statement": "Converting a Duration into time::Duration / chrono::Duration succeeds with the exact value if and only if the value is representable there, otherwise PositiveOverflow/NegativeOverflow is reported according to the sign (saturating_into gives the nearest bound); converting back from them is exact for every value.", "quantifier": "all Durations and all time/chrono durations", "why_tests_cant": "range checks at i64 second / millisecond boundaries with nanosecond parts", "anchors": ["fundu-core/src/time.rs:impl TryFrom<Duration> for time::Duration", "fundu-core/src/time.rs:impl TryFrom<Duration> for chrono::Duration", "fundu-core/src/time.rs:impl From<time::Duration> for Duration", "fundu-core/src/time.rs:impl From<chrono::Duration> for Duration"]}
{"id": "C10", "title": "Display round-trips through the parser", "statement": "Formatting any Duration and parsing the text with all default time units, multiple durations and negative durations enabled gives back an equal Duration.", "quantifier": "all Durations", "why_tests_cant": "covers formatter, grammar and arithmetic for 2^94 values", "anchors": ["fundu-core/src/time.rs:impl Display for Duration", "fundu-core/src/parse.rs:Parser::parse_multiple"]}
{"id": "C11", "title": "Multiplier::checked_mul is exact or None", "statement": "Multiplier(a,x).checked_mul(Multiplier(b,y)) is Some(Multiplier(a*b,x+y)) exactly if a*b fits i64 and x+y fits i16, else None; `*` panics in exactly those cases; saturating_neg negates the coefficient exactly except i64::MIN which becomes i64::MAX. is_positive and is_negative tell the sign of the coefficient.", "quantifier": "all pairs of Multipliers", "why_tests_cant": "overflow boundaries", "anchors": ["fundu-core/src/time.rs:Multiplier::checked_mul", "fundu-core/src/time.rs:Multiplier::saturating_neg", "fundu-core/src/time.rs:impl Mul for Multiplier"]}
{"id": "C12", "title": "The 8 digit fast path computes the decimal value", "statement": "The bit-trick conversion of 8 ASCII digits returns the decimal value of these digits.", "quantifier": "all 10^8 sequences of 8 ASCII digits", "why_tests_cant": "wrapping multiplications and masks on 64 bit words", "anchors": ["fundu-core/src/parse.rs:Parse8Digits::parse_8_digits"]}
{"id": "C13", "title": "The 8 byte digit detection is exact", "statement": "The bit-trick test of the scanner accepts a chunk of 8 bytes if and only if all eight bytes are ASCII digits.", "quantifier": "all 2^64 chunks of 8 bytes", "why_tests_cant": "2^64 inputs; carries between the bytes", "anchors": ["fundu-core/src/parse.rs:Bytes::parse_8_digits"]}
{"id": "C14", "title": "Digit scanning consumes exactly the maximal run of digits and strips exactly the leading zeros", "statement": "Scanning the whole number part at any position consumes the maximal run of ASCII digits there and returns the range of this run without its leading zeros (empty for zero); scanning the fraction returns the whole maximal run.", "quantifier": "all inputs and positions", "why_tests_cant": "mixed 8-byte/1-byte loops over inputs of any length", "anchors": ["fundu-core/src/parse.rs:Bytes::parse_digits_strip_zeros", "fundu-core/src/parse.rs:Bytes::parse_digits"]}
{"id": "C15", "title": "The whole number part is exact or overflows", "statement": "For any digit strings the integer conversion used for the whole part returns the decimal value of the digits with the exponent's zeros appended if it fits u64 and reports overflow otherwise.", "quantifier": "all digit strings of any length and any number of appended zeros", "why_tests_cant": "strings of unbounded length, chunked", "anchors": ["fundu-core/src/parse.rs:Whole::parse", "fundu-core/src/parse.rs:Whole::parse_slice"]}
{"id": "C16", "title": "The fraction is truncated to 18 digits, never wrong or overflowing", "statement": "For any digit strings the fraction conversion returns floor(0.(zeros)(prepended digits)(digits) * 10^18) and never overflows.", "quantifier": "all digit strings of any length and any number of leading zeros", "why_tests_cant": "unbounded strings, chunked", "anchors": ["fundu-core/src/parse.rs:Fract::parse", "fundu-core/src/parse.rs:Fract::parse_slice"]}
{"id": "C17", "title": "Parsing a number and unit gives the exact value truncated to nanoseconds", "statement": "For `[sign]W.F e X unit` the resulting duration is sign * floor(c * floor(x * 10^18) / 10^9) nanoseconds, where x = W.F * 10^(X + e), (c,e) is the multiplier of the unit, saturated to Duration::MAX/MIN if that exceeds them. If x has at most 18 fractional digits this is the mathematically exact value truncated toward zero to nanoseconds; otherwise the result is below the exact value by less than 1ns + c*1e-18s.", "quantifier": "all numbers of any length, all i16 exponents, all multipliers", "why_tests_cant": "unbounded digits, exponents moving digits between whole and fraction", "anchors": ["fundu-core/src/parse.rs:DurationRepr::parse", "fundu-core/src/parse.rs:DurationRepr::calculate_duration"]}
{"id": "C18", "title": "Saturation happens exactly at overflow", "statement": "A parsed number with a time unit never is an error or a wrapped value because of its size: it is Duration::MAX (Duration::MIN for a negative one) if its exact value is at least 2^64 seconds, and only if its exact value is not below the maximum, provided the number has at most 18 decimal places (exponents included) or the unit's coefficient is at most 10^9 (true for every built-in unit). For other numbers the bound is 2^64 + |coefficient|*10^-18 seconds, because digits behind the 18th are cut; the plain bound is refuted for them.", "quantifier": "all numbers and multipliers", "why_tests_cant": "several checked operations on different paths have to agree", "anchors": ["fundu-core/src/parse.rs:DurationRepr::parse", "fundu-core/src/parse.rs:DurationRepr::calculate_duration"]}
{"id": "C19", "title": "Units without a number and numerals evaluate like the number they stand for", "statement": "With number_is_optional, keyword or numeral, the duration is that of the multiplier coefficient*10^exponent seconds (numeral*unit*multiplier), with the sign applied, saturated, for every combined exponent from -18 to 19. A unit without a number has the value of `1 unit`, for every exponent up to 19, and above if there is no minus sign. For the other exponents the value is zero (below -18) or saturated by the sign of the coefficient alone (above 19; refuted: a minus sign in the input is ignored there).", "quantifier": "all multipliers and signs", "why_tests_cant": "exponent cases -32768..32767", "anchors": ["fundu-core/src/parse.rs:DurationRepr::parse_duration_with_fixed_number"]}
{"id": "C20", "title": "The parser never panics, never loops and never breaks UTF-8", "statement": "For every valid UTF-8 input, every configuration with ASCII-only delimiters and every TimeUnitsLike/NumbersLike whose multipliers do not overflow when combined, Parser::parse terminates and returns Ok or Err: no arithmetic overflow, no out-of-bounds slice, no failing unwrap/expect/assert, and every string handed out by from_utf8_unchecked is valid UTF-8.", "quantifier": "all inputs, configurations, time units, keywords, numerals", "why_tests_cant": "all inputs of any length and all functions as delimiters/time units", "anchors": ["fundu-core/src/parse.rs:Parser::parse", "fundu-core/src/parse.rs:ReprParserTemplate::parse", "fundu-core/src/parse.rs:Bytes::get_remainder_str_unchecked"]}
{"id": "C21", "title": "Without allow_negative no negative duration is returned", "statement": "If allow_negative is not set then Parser::parse returns a non negative duration or an error.", "quantifier": "all inputs, configurations and units", "why_tests_cant": "all inputs", "anchors": ["fundu-core/src/parse.rs:Parser::parse_single", "fundu-core/src/parse.rs:Parser::parse_multiple", "fundu-core/src/config.rs:Config::allow_negative"]}
{"id": "C22", "title": "Single durations: exactly the documented grammar is accepted, with the documented meaning", "statement": "With allow_multiple off, Parser::parse accepts exactly the strings of the documented grammar (sign, number with fraction and exponent, delimiter, time unit, ago; inf/infinity; keyword; unit without number; numeral with unit; each subject to its configuration switch) and gives each the documented value.", "quantifier": "all inputs, configurations, units, keywords and numerals", "why_tests_cant": "equivalence of a recogniser with a grammar over all strings", "anchors": ["fundu-core/src/parse.rs:ReprParserSingle", "fundu-core/src/parse.rs:ReprParserTemplate::parse", "fundu/src/lib.rs:grammar"]}
{"id": "C23", "title": "Multiple durations: the result is the saturating sum of its components", "statement": "With allow_multiple on, a successful parse decomposes the whole input from left to right, without gap or overlap, into components (each a single duration of the grammar) separated by delimiters/conjunctions, and the result is the left-to-right saturating sum of the component values.", "quantifier": "all inputs with any number of components", "why_tests_cant": "unbounded number of components", "anchors": ["fundu-core/src/parse.rs:Parser::parse_multiple", "fundu-core/src/parse.rs:ReprParserMultiple"]}
{"id": "C24", "title": "Error positions lie within the input", "statement": "Every ParseError::Syntax or ParseError::TimeUnit returned by Parser::parse carries a byte position not greater than the length of the input, at a character boundary.", "quantifier": "all inputs and configurations", "why_tests_cant": "all error paths on all inputs", "anchors": ["fundu-core/src/parse.rs:ReprParserTemplate::parse", "fundu-core/src/error.rs:ParseError"]}
{"id": "C25", "title": "The empty input is the only one reported as Empty (single)", "statement": "Parser::parse returns ParseError::Empty for the empty string, and in single mode for no other input.", "quantifier": "all inputs", "why_tests_cant": "all inputs", "anchors": ["fundu-core/src/parse.rs:ReprParserTemplate::parse"]}
{"id": "C26", "title": "Infinity", "statement": "`inf` and `infinity` in any letter case with optional sign parse to Duration::MAX/MIN, unless infinity is disabled; nothing else starting with inf is accepted (single mode).", "quantifier": "all case variants, signs and suffixes", "why_tests_cant": "all suffixes", "anchors": ["fundu-core/src/parse.rs:ReprParserSingle::parse_infinity_remainder", "fundu-core/src/config.rs:Config::disable_infinity"]}
{"id": "C27", "title": "disable_fraction / disable_exponent only restrict", "statement": "Whatever is accepted with disable_fraction, disable_exponent, disable_infinity switched on is accepted with the same value when they are switched off, unless the input contains an inf-prefix which is otherwise a unit/keyword; with disable_fraction no accepted number has a '.', with disable_exponent none has an exponent.", "quantifier": "all inputs and configurations (single mode)", "why_tests_cant": "relation between two runs on all inputs", "anchors": ["fundu-core/src/parse.rs:ReprParserTemplate::parse_number_fraction", "fundu-core/src/parse.rs:ReprParserTemplate::parse_number_exponent"]}
{"id": "C28", "title": "Exponents are read exactly or rejected", "statement": "The exponent digits are read as the exact decimal number if it fits -32768..=32767, otherwise NegativeExponentOverflow/PositiveExponentOverflow is reported according to its sign.", "quantifier": "all exponent strings of any length", "why_tests_cant": "unbounded digit strings, i16 boundary is asymmetric", "anchors": ["fundu-core/src/parse.rs:ReprParserTemplate::parse_exponent"]}
{"id": "C29", "title": "Internal buffering is unobservable", "statement": "The look-ahead buffer of the scanner never changes what is parsed: the result equals that of a scanner without buffer, for every parser of single durations, every parser without keywords and numerals, and every parser whose inner delimiters are also outer delimiters (or digits or signs). With inner delimiters of other kinds it can change the result of a parser with keywords or numerals.", "quantifier": "all inputs, configurations and units", "why_tests_cant": "relation of two runs", "anchors": ["fundu-core/src/parse.rs:Bytes::buffered_advance_to"]}
{"id": "C30", "title": "Leading zeros and the equivalent spellings of a number do not matter", "statement": "Adding leading zeros to the whole number part, trailing zeros to the fraction, or a plus sign never changes the parsed duration.", "quantifier": "all numbers", "why_tests_cant": "all inputs of any length", "anchors": ["fundu-core/src/parse.rs:Bytes::parse_digits_strip_zeros", "fundu-core/src/parse.rs:DurationRepr::parse"]}
{"id": "C31", "title": "DurationParser knows exactly its configured time units", "statement": "A DurationParser built from a list of time units accepts an identifier as time unit if and only if it is the default identifier of one of these units, and maps it to this unit.", "quantifier": "all lists of time units and all identifiers", "why_tests_cant": "all strings; lookup is split by identifier length", "anchors": ["fundu/src/standard/time_units.rs:TimeUnits::get", "fundu/src/standard/time_units.rs:TimeUnits::with_time_units"]}
{"id": "C32", "title": "parse_duration of the standard parser never panics and agrees with parse", "statement": "The parser's result converted to std::time::Duration equals the parsed value; the conversion cannot fail when negatives are disallowed.", "quantifier": "all inputs and parser configurations", "why_tests_cant": "all inputs", "anchors": ["fundu/src/standard/parser.rs:DurationParser::parse"]}
{"id": "C33", "title": "Builder and setters configure the same parser", "statement": "Any sequence of builder calls yields the same parser as the corresponding sequence of setter calls.", "quantifier": "all sequences of option calls", "why_tests_cant": "unbounded sequences", "anchors": ["fundu/src/standard/builder.rs:DurationParserBuilder::build", "fundu/src/standard/parser.rs:DurationParser"]}
{"id": "C34", "title": "Custom time units are found by each of their identifiers and nothing else", "statement": "After adding any list of custom time units, an identifier is recognised if and only if it is among their identifiers, with a unit and multiplier under which it was registered; the length shortcuts never hide a registered identifier.", "quantifier": "all lists of custom units and all identifiers", "why_tests_cant": "all registration histories", "anchors": ["fundu/src/custom/time_units.rs:CustomTimeUnits::get", "fundu/src/custom/time_units.rs:CustomTimeUnits::add_time_unit"]}
{"id": "C35", "title": "CustomTimeUnit::new rules out overflow panics at parse time", "statement": "If every custom time unit and keyword was accepted by its constructor, parsing any input without numerals never panics because of multiplier overflow, also with `ago`.", "quantifier": "all units, multipliers, inputs", "why_tests_cant": "all multipliers", "anchors": ["fundu/src/custom/time_units.rs:CustomTimeUnit::new", "fundu-core/src/parse.rs:DurationRepr::parse"]}
{"id": "C36", "title": "Custom numerals are found exactly by their identifiers", "statement": "A numeral identifier is recognised iff it was registered, with the multiplier of the first registration.", "quantifier": "all lists of numerals and identifiers", "why_tests_cant": "all histories", "anchors": ["fundu/src/custom/mod.rs:Numerals::get"]}
{"id": "C37", "title": "systemd: results are within [0, max]", "statement": "TimeSpanParser::parse/parse_nanos (and the _with_max variants with a positive max) return a non negative duration not greater than the maximum, or an error; 'infinity' surrounded by white space returns exactly the maximum.", "quantifier": "all inputs, maxima and default units", "why_tests_cant": "all inputs", "anchors": ["fundu-systemd/src/lib.rs:TimeSpanParser::parse_with_max"]}
{"id": "C38", "title": "systemd: surrounding white space is ignored", "statement": "Parsing a string with leading and trailing white space (space, \\t..\\r) equals parsing the trimmed string.", "quantifier": "all inputs", "why_tests_cant": "all inputs", "anchors": ["fundu-systemd/src/lib.rs:trim_whitespace"]}
{"id": "C39", "title": "systemd: global functions and parser methods agree; nanos units only add", "statement": "parse(s, unit, max) and TimeSpanParser agree; every string accepted by parse is accepted by parse_nanos with the same value before clamping.", "quantifier": "all inputs", "why_tests_cant": "all inputs", "anchors": ["fundu-systemd/src/lib.rs:parse", "fundu-systemd/src/lib.rs:parse_nanos"]}
{"id": "C40", "title": "gnu: identifiers match ASCII case insensitively and exactly", "statement": "A time unit, keyword or numeral is recognised iff it equals one of the documented words ignoring ASCII case.", "quantifier": "all byte strings", "why_tests_cant": "the lookup packs up to 8 bytes into an integer and compares packed constants", "anchors": ["fundu-gnu/src/lib.rs:TimeUnits::get", "fundu-gnu/src/util.rs:to_lowercase_u64"]}
{"id": "C41", "title": "Gregorian dates and Julian day numbers are in bijection", "statement": "Converting a valid proleptic Gregorian date to its Julian day and back gives the same date, and consecutive days have consecutive Julian days.", "quantifier": "all dates of all i64 years for which the Julian day exists", "why_tests_cant": "calendar periodicity over 2^64 years", "anchors": ["fundu-gnu/src/datetime.rs:JulianDay::from_gregorian", "fundu-gnu/src/datetime.rs:JulianDay::to_gregorian"]}
{"id": "C42", "title": "DateTime arithmetic with durations is exact or None", "statement": "checked_add_duration / checked_sub_duration give the exact instant if its Julian day fits i64 and None otherwise; (x + d) - x == d via duration_since.", "quantifier": "all DateTimes and Durations", "why_tests_cant": "all values, signs and day carries", "anchors": ["fundu-gnu/src/datetime.rs:DateTime::checked_add_duration", "fundu-gnu/src/datetime.rs:DateTime::duration_since"]}
{"id": "C43", "title": "DateTime::checked_add_gregorian adds months with normalised overflow days", "statement": "Adding years, months and days keeps the time of day; the month is normalised into 1..=12 with carry into the year, and a day past the end of the month rolls over into the following month.", "quantifier": "all dates and all i64 year/month/day offsets", "why_tests_cant": "all offsets", "anchors": ["fundu-gnu/src/datetime.rs:DateTime::checked_add_gregorian"]}
{"id": "C44", "title": "gnu: relative time with date", "statement": "RelativeTimeParser::parse_with_date / parse_fuzzy: the result is the saturating sum of the components, years and months being counted exactly by the calendar from the given date. The global functions do the same as the methods, and without a date the current time is the date.", "quantifier": "all inputs and dates", "why_tests_cant": "all inputs", "anchors": ["fundu-gnu/src/lib.rs:RelativeTimeParser::parse_with_date", "fundu-gnu/src/lib.rs:RelativeTimeParser::parse_fuzzy", "fundu-gnu/src/lib.rs:parse", "fundu-gnu/src/lib.rs:parse_with_date", "fundu-gnu/src/lib.rs:parse_fuzzy"]}
{"id": "C45", "title": "floor_log10 / floor_log2 helpers are exact", "statement": "The lookup based logarithm returns floor(log10 x), floor(log2 x) for every non-zero x.", "quantifier": "all u64 values > 0", "why_tests_cant": "2^64 inputs", "anchors": ["fundu-core/src/util.rs:FloorLog10"]}
{"id": "C46", "title": "time units and multipliers are those documented", "statement": "Each TimeUnit's multiplier equals its documented length in seconds and its default identifier is unique, so the default identifiers denote distinct units.", "quantifier": "all time units", "why_tests_cant": "stated over the whole table and used by every parse", "anchors": ["fundu-core/src/time.rs:TimeUnit::multiplier", "fundu-core/src/time.rs:TimeUnit::default_identifier"]}
{"id": "C47", "title": "systemd: documented time spans denote the sum of their parts", "statement": "A time span written as parts (an optional plus sign, digits with at most 18 decimal places, white space, a documented time unit; number or unit may be missing), separated by white space which may be missing where a number or a sign follows, parses to the exact sum of the parts, rounded down per part to nanoseconds, cut at the maximum.", "quantifier": "all sequences of parts, default units, maxima and surrounding white space", "why_tests_cant": "infinitely many texts", "anchors": ["fundu-systemd/src/lib.rs:TimeSpanParser::parse_with_max", "fundu-systemd/src/lib.rs:TimeUnits", "fundu-core/src/parse.rs:Parser::parse"]}
{"id": "C48", "title": "DateTime order is chronological", "statement": "Comparing two DateTimes compares the instants they denote, equality is equality of instants, and the order agrees with the sign of duration_since.", "quantifier": "all pairs of DateTimes", "why_tests_cant": "all pairs of values", "anchors": ["fundu-gnu/src/datetime.rs:DateTime"]}
{"id": "C49", "title": "DateTime fields round trip", "statement": "from_gregorian_date_time followed by to_gregorian_date_time gives the fields back for every valid date and time in the documented range of years, rebuilding a DateTime from its fields gives the same DateTime, and fields outside of the documented ranges panic.", "quantifier": "all field values and all DateTimes", "why_tests_cant": "all field values", "anchors": ["fundu-gnu/src/datetime.rs:DateTime::from_gregorian_date_time", "fundu-gnu/src/datetime.rs:DateTime::to_gregorian_date_time", "fundu-gnu/src/datetime.rs:DateTime::as_hmsn"]}
{"id": "C50", "title": "DateTime conversions from time and chrono keep the fields", "statement": "Converting a calendar value of the crates time or chrono gives the DateTime with the same year, month, day, hour, minute, second and nanosecond. A chrono::DateTime is converted to the DateTime of the same instant whatever its time zone; a time::OffsetDateTime to the date and time of day at its offset, so that equal OffsetDateTimes at different offsets give different DateTimes (as the documentation's examples have it).", "quantifier": "all calendar values of these crates", "why_tests_cant": "all field values", "anchors": ["fundu-gnu/src/datetime.rs:impl From<OffsetDateTime> for DateTime", "fundu-gnu/src/datetime.rs:impl From<chrono::NaiveDateTime> for DateTime", "fundu-gnu/src/datetime.rs:impl From<chrono::DateTime<T>> for DateTime"]}
{"id": "C51", "title": "Which error an input is rejected with", "statement": "Every rejected input is rejected with exactly the error which the grammar of errors assigns to it: the kind of the ParseError, its byte position and its message are determined by the first thing in the input (read from the left) which is wrong, for single and for multiple durations. The rules do not overlap, no accepted input has an error, and the grammar and the rules together cover every input.", "quantifier": "all configurations, time units, keywords, numerals and input texts", "why_tests_cant": "all input texts and all configurations", "anchors": ["fundu-core/src/parse.rs:Parser::parse", "fundu-core/src/parse.rs:ReprParserTemplate::parse", "fundu-core/src/parse.rs:ReprParserSingle", "fundu-core/src/parse.rs:ReprParserMultiple", "fundu-core/src/error.rs:ParseError"]}
{"id": "C52", "title": "Duration arithmetic obeys the laws of ordered arithmetic", "statement": "checked_add commutes and associates where nothing overflows, ZERO is neutral, a negated duration is the inverse, subtracting is adding the negated duration and undoes an addition. Adding keeps the order (saturating addition is monotone), negation reverses it, saturating results are the checked ones when those exist, and the absolute value obeys the triangle inequality. Saturating addition does not associate at the limits.", "quantifier": "all valid Durations", "why_tests_cant": "all pairs and triples of 97 bit values", "anchors": ["fundu-core/src/time.rs:Duration::checked_add", "fundu-core/src/time.rs:Duration::checked_sub", "fundu-core/src/time.rs:Duration::saturating_add", "fundu-core/src/time.rs:impl Ord for Duration", "fundu-core/src/time.rs:impl Neg for Duration"]}
{"id": "C53", "title": "Switching allow_negative off only turns results into NegativeNumber", "statement": "With a single duration, the parser without allow_negative gives the same result or error as the parser with it, except that a negative duration becomes NegativeNumber. With multiple durations it gives the same result or error or NegativeNumber, and never accepts an input with another value; with allow_negative NegativeNumber never occurs.", "quantifier": "all configurations, time units, keywords, numerals and input texts", "why_tests_cant": "all input texts and all configurations", "anchors": ["fundu-core/src/parse.rs:Parser::parse", "fundu-core/src/parse.rs:Parser::parse_single", "fundu-core/src/parse.rs:Parser::parse_multiple", "fundu-core/src/config.rs:Config::allow_negative"]}
{"id": "C54", "title": "A sign or `ago` negates what was parsed", "statement": "If an input without a sign is accepted, it is accepted with a sign in front: a plus keeps the value, a minus negates it (with multiple durations: the first of them). A number with a time unit followed by delimiters and ago in any case is the negated duration.", "quantifier": "all configurations which allow negative durations, time units, keywords and numerals with moderate exponents, all input texts", "why_tests_cant": "all input texts and all configurations", "anchors": ["fundu-core/src/parse.rs:ReprParserTemplate::parse", "fundu-core/src/parse.rs:ReprParserSingle::parse_time_unit", "fundu-core/src/config.rs:Config::allow_ago"]}
{"id": "C55", "title": "Single durations are accepted in multiple mode", "statement": "An input which a parser for single durations accepts is accepted with the same value by the same parser with parse_multiple enabled, if the identifiers are plain words (no delimiters, digits or signs) and no identifier is in two of the tables. With digits in identifiers this fails.", "quantifier": "all configurations, conjunctions, plain time units, keywords and numerals, and input texts", "why_tests_cant": "all input texts and all configurations", "anchors": ["fundu-core/src/parse.rs:Parser::parse_single", "fundu-core/src/parse.rs:Parser::parse_multiple", "fundu-core/src/config.rs:Config::allow_multiple"]}
{"id": "C56", "title": "Concatenated inputs add up", "statement": "With multiple durations enabled, two accepted inputs with delimiters between them are accepted if the second starts with a digit or a sign, and the value is the sum: the components of the second input are added to the value of the first one. Without negative durations it is the saturating sum of the two values.", "quantifier": "all configurations with delimiters which are no letters, digits, signs or points, all tables and all pairs of accepted inputs", "why_tests_cant": "all pairs of inputs and all configurations", "anchors": ["fundu-core/src/parse.rs:Parser::parse_multiple", "fundu-core/src/parse.rs:ReprParserMultiple"]}
{"id": "C57", "title": "Greater numbers are greater durations, equal amounts are equal durations", "statement": "With the same time unit a greater number never gives a smaller duration, whatever the spelling (zeros, fraction, exponent). The same amount of time in different units or spellings (90, 1.5min, 9e4ms) gives the same duration, as long as 18 decimal places suffice; beyond that it may differ.", "quantifier": "all configurations, time units, numbers and spellings", "why_tests_cant": "all pairs of numbers and spellings", "anchors": ["fundu-core/src/parse.rs:DurationRepr::parse", "fundu-core/src/parse.rs:Fract::parse", "fundu-core/src/parse.rs:Whole::parse"]}
{"id": "C58", "title": "The messages of errors are faithful", "statement": "Different ParseErrors have different messages, the message of an error with a position ends with this position, which is a position of the input, and the conversion errors are mapped to the documented ParseErrors.", "quantifier": "all errors and all inputs", "why_tests_cant": "all messages and positions", "anchors": ["fundu-core/src/error.rs:impl Display for ParseError", "fundu-core/src/error.rs:impl Display for TryFromDurationError", "fundu-core/src/error.rs:impl From<TryFromDurationError> for ParseError"]}
{"id": "C59", "title": "Equality, hash and order methods", "statement": "CustomTimeUnits are equal, and hash equally, if and only if their base units and multipliers are the same; identifiers do not matter. <, <=, max and clamp of Durations are the ones of the numbers of nanoseconds; clamp panics exactly if the limits are swapped.", "quantifier": "all custom time units and all Durations", "why_tests_cant": "all pairs and triples of values", "anchors": ["fundu/src/custom/time_units.rs:impl PartialEq for CustomTimeUnit", "fundu/src/custom/time_units.rs:impl Hash for CustomTimeUnit", "fundu-core/src/time.rs:impl PartialOrd for Duration", "fundu-core/src/time.rs:impl Ord for Duration"]}
{"id": "C60", "title": "More time units only add", "statement": "An input which is accepted with some time units is accepted with more of them, and has the same value. For the standard parser this holds with all settings, for single and multiple durations; for custom tables it may fail only through numerals (with optional numbers) and keywords.", "quantifier": "all pairs of tables of which the one extends the other, all configurations and all accepted inputs", "why_tests_cant": "all pairs of tables and all inputs", "anchors": ["fundu-core/src/parse.rs:ReprParserSingle", "fundu-core/src/parse.rs:ReprParserMultiple", "fundu/src/standard/parser.rs:DurationParser::with_time_units"]}
{"id": "C61", "title": "How many delimiters are in a row does not matter", "statement": "Where one or more delimiters are accepted (after a sign, between number and time unit, between numeral and time unit, before ago, between durations and conjunctions), any other sequence of one or more delimiters is accepted with the same value.", "quantifier": "all configurations with delimiters which are no letters, digits, signs or points, all tables whose identifiers have no delimiter, all pairs of inputs which differ in their delimiters only", "why_tests_cant": "all inputs, all delimiters and all places of an input", "anchors": ["fundu-core/src/parse.rs:Bytes::try_consume_delimiter", "fundu-core/src/parse.rs:ReprParserTemplate", "fundu-core/src/config.rs:Delimiter"]}
{"id": "C62", "title": "gnu: letter case and the amount of white space do not matter", "statement": "Two texts which have the same bytes up to ASCII letter case, and white space at the same places, are both relative times or both are not, and mean the same: parse_fuzzy gives the same years, months and duration, parse_with_date the same duration or the same error.", "quantifier": "all pairs of such texts, all dates", "why_tests_cant": "all texts in all letter cases", "anchors": ["fundu-gnu/src/lib.rs:RelativeTimeParser::parse_fuzzy", "fundu-gnu/src/lib.rs:RelativeTimeParser::parse_with_date", "fundu-gnu/src/util.rs:to_lowercase_u64"]}
{"id": "C63", "title": "The text of a Duration is canonical", "statement": "Display writes a Duration as the sum of units which uses the longest unit that fits as often as it fits, longest unit first, with numbers in decimal without leading zeros and a minus sign before each of them if the Duration is negative. Two Durations have the same text if and only if they are equal. A text has at least 2 characters and at most 53, or 63 if the Duration is negative.", "quantifier": "all Durations, all pairs of Durations", "why_tests_cant": "2^94 values", "anchors": ["fundu-core/src/time.rs:impl Display for Duration"]}
{"id": "C64", "title": "What a parser does depends only on what its identifiers mean", "statement": "Two custom parsers with the same settings whose identifiers have the same, unambiguous meaning give the same result (value or error) for every input, no matter in which order, how often, or in which units and calls the identifiers were registered. A custom parser which has time units with their default identifiers is the DurationParser with these time units; the exported tables are those of DurationParser::new and with_all_time_units; SYSTEMD_TIME_UNITS has the identifiers of the systemd parser (with nanoseconds) except \"\u03bcs\" written with the greek letter, and a custom parser with this table, \"\u03bcs\" and the settings of the systemd parser returns what the systemd parser returns, before its limit is applied.", "quantifier": "all pairs of histories of calls, all settings, all inputs", "why_tests_cant": "all histories of registrations and all inputs", "anchors": ["fundu/src/custom/parser.rs:CustomDurationParser", "fundu/src/custom/time_units.rs:CustomTimeUnits", "fundu/src/standard/parser.rs:DurationParser", "fundu/src/custom/time_units.rs:DEFAULT_ALL_TIME_UNITS", "fundu/src/custom/time_units.rs:SYSTEMD_TIME_UNITS", "fundu-systemd/src/lib.rs:TimeSpanParser::parse_nanos_with_max"]}
{"id": "C65", "title": "The order of the durations in an input does not matter", "statement": "If several inputs are accepted by a parser for multiple durations and each starts with a digit or sign, then written one after the other with delimiters between them they are accepted in every order with the same value: the sum of their values or the maximum. With negative durations this holds if the sizes of all of them together do not exceed the maximum. Without negative durations greater parts never give a smaller result.", "quantifier": "all configurations, all lists of accepted inputs and all their permutations", "why_tests_cant": "all inputs and all orders", "anchors": ["fundu-core/src/parse.rs:Parser::parse_multiple", "fundu-core/src/parse.rs:ReprParserMultiple", "fundu-core/src/time.rs:Duration::saturating_add"]}
{"id": "C66", "title": "systemd: time spans one after the other add up, in every order", "statement": "Time spans which start with a digit or sign, written one after the other with white space between them, are accepted in every order with the same value: the sum of the values of the spans, or the maximum passed to the parser.", "quantifier": "all default units, all maxima, all lists of accepted spans and all their permutations", "why_tests_cant": "all spans and all orders", "anchors": ["fundu-systemd/src/lib.rs:TimeSpanParser::parse_with_max", "fundu-systemd/src/lib.rs:TimeSpanParser::parse_nanos_with_max"]}
{"id": "C67", "title": "gnu: relative times one after the other add up, in every order", "statement": "Relative times which start with a digit or sign, written one after the other with white space between them, are a relative time whose years, months and duration are the sums of those of the parts (unless the limits of the types are exceeded), in every order, and give the same duration seen from any date.", "quantifier": "all lists of relative times, all their permutations, all dates", "why_tests_cant": "all texts, orders and dates", "anchors": ["fundu-gnu/src/lib.rs:RelativeTimeParser::parse_fuzzy", "fundu-gnu/src/lib.rs:RelativeTimeParser::parse_with_date"]}
{"id": "C68", "title": "Switching an option on only adds inputs", "statement": "If an input is accepted, it is accepted with the same value after any of fractions, exponents, infinity, optional numbers, negative durations, `ago`, delimiters after the sign and delimiters in front of the time unit are switched on, provided that the identifiers are ordinary words (no delimiters, digits or signs, no leading point or `inf`, not `ago`, no two tables share one). With multiple durations, delimiters in front of the time unit require that there are no conjunctions and numbers are not optional.", "quantifier": "all pairs of configurations one of which allows more, all tables of ordinary words, all inputs", "why_tests_cant": "all combinations of options, tables and inputs", "anchors": ["fundu-core/src/parse.rs:ReprParserTemplate::parse", "fundu-core/src/parse.rs:ReprParserSingle", "fundu-core/src/parse.rs:ReprParserMultiple", "fundu-core/src/config.rs:Config"]}
{"id": "C69", "title": "Laws of calendar arithmetic", "statement": "checked_add_gregorian depends on the years and months only through 12*years + months; adding nothing changes nothing; the day of the month and the time of day are kept if the month reached has such a day (always for days up to the 28th); if the day was kept, adding in two steps is adding at once and adding the negative leads back; the order of dates is kept for days up to the 28th or within one month; added days are durations of 24 hours. So gnu relative times with the same number of months (12 per year) and the same exact part give the same duration seen from every date.", "quantifier": "all DateTimes, all years, months and days, all relative times", "why_tests_cant": "all dates and amounts", "anchors": ["fundu-gnu/src/datetime.rs:DateTime::checked_add_gregorian", "fundu-gnu/src/lib.rs:RelativeTimeParser::parse_with_date"]}
{"id": "C70", "title": "DateTimes and Durations are like points and vectors", "statement": "Adding one duration after the other is adding their sum, in either order; subtracting a duration takes back adding it; the durations between three DateTimes add up; duration_since in the other direction is the negative; later DateTimes and longer durations lead to later DateTimes.", "quantifier": "all DateTimes and Durations", "why_tests_cant": "all values", "anchors": ["fundu-gnu/src/datetime.rs:DateTime::checked_add_duration", "fundu-gnu/src/datetime.rs:DateTime::checked_sub_duration", "fundu-gnu/src/datetime.rs:DateTime::duration_since"]}
{"id": "C71", "title": "Every setting is set by its own method, and the last call wins", "statement": "After any sequence of setter or builder calls each option of the parser has the value given by the last call concerning it (allow_ago(true) also allows negatives), or its documented default; time units are untouched by settings. So the order of settings of different options does not matter. The same for the builders, the custom parser and the configuration builder of the core.", "quantifier": "all parsers, all sequences of calls with all arguments", "why_tests_cant": "all call sequences", "anchors": ["fundu/src/standard/parser.rs:DurationParser", "fundu/src/standard/builder.rs:DurationParserBuilder", "fundu/src/custom/parser.rs:CustomDurationParser", "fundu/src/custom/builder.rs:CustomDurationParserBuilder", "fundu-core/src/config.rs:ConfigBuilder"]}
{"id": "C72", "title": "serde: round trip, and only valid durations", "statement": "With the feature serde, deserialising what was serialised gives the same value for Duration (including the sign of zero), TimeUnit, Multiplier, ParseError, TryFromDurationError and DateTime. The order of the fields and additional fields do not matter. Whatever is deserialised as a Duration is a valid Duration with the value the input states, or refused. (For DateTime the corresponding claim is refuted: a time of day of more than one day is accepted and makes its methods panic.)", "quantifier": "all values; all inputs of the deserialiser, in every order of fields", "why_tests_cant": "one value of each type is tested; invalid inputs and the order of fields are not tested at all", "anchors": ["fundu-core/src/time.rs:Duration", "fundu-core/src/time.rs:TimeUnit", "fundu-core/src/time.rs:Multiplier", "fundu-core/src/error.rs:ParseError", "fundu-core/src/error.rs:TryFromDurationError", "fundu-gnu/src/datetime.rs:DateTime", "fundu-gnu/src/datetime.rs:JulianDay"]}
{"id": "C73", "title": "systemd: exactly the time spans are accepted", "statement": "TimeSpanParser::parse, parse_nanos and their _with_max variants accept a text if and only if it is, up to surrounding white space, the word infinity or a sequence of parts (an optional sign, a decimal number, white space and a known time unit; number or unit may be missing) with white space between them, which may only be missing in front of a sign, of a digit after a unit, or of a point after a number with a point. The result is the sum of the lengths of the parts, each number cut to 18 decimal places and rounded down to nanoseconds, or the maximum. A minus sign is accepted only in front of a number which is cut to zero.", "quantifier": "all UTF-8 texts, all default units, all maxima", "why_tests_cant": "the tests list some accepted and some rejected texts; which other texts are accepted, and with which value, is unknown", "anchors": ["fundu-systemd/src/lib.rs:TimeSpanParser::parse_with_max", "fundu-systemd/src/lib.rs:TimeSpanParser::parse_nanos_with_max", "fundu-systemd/src/lib.rs:CONFIG", "fundu-core/src/parse.rs:Parser::parse"]}
{"id": "C74", "title": "systemd: the maximum only caps the result", "statement": "Whether parse_with_max (parse_nanos_with_max) fails, and with which error, does not depend on the maximum; a lower maximum gives the lesser of this maximum and the result with a higher maximum, and the same result if it is not reached.", "quantifier": "all texts, all pairs of non-negative maxima", "why_tests_cant": "relates two runs of the parser with different maxima on the same, arbitrary text", "anchors": ["fundu-systemd/src/lib.rs:TimeSpanParser::parse_with_max", "fundu-systemd/src/lib.rs:TimeSpanParser::parse_nanos_with_max"]}
{"id": "C75", "title": "Equal parsers parse equally", "statement": "Parsers which compare equal with == (DurationParser, CustomDurationParser, TimeSpanParser) return the same result for every input, and == is an equivalence relation on parsers, builders and configurations. Equal DurationParserBuilders build equal parsers. Equal CustomDurationParserBuilders need not (their equality ignores the identifiers of time units and keywords), unless the identifiers are the same, too. A parser depends on its delimiters only through what they answer for each byte.", "quantifier": "all pairs of parsers or builders, all inputs; whichever delimiter functions the compiler merges", "why_tests_cant": "relates two arbitrary parsers on all inputs", "anchors": ["fundu/src/standard/parser.rs:DurationParser", "fundu/src/custom/parser.rs:CustomDurationParser", "fundu/src/custom/builder.rs:CustomDurationParserBuilder", "fundu/src/standard/builder.rs:DurationParserBuilder", "fundu-core/src/config.rs:Config", "fundu/src/custom/time_units.rs:CustomTimeUnit::eq"]}
{"id": "C76", "title": "More numerals and more keywords only add", "statement": "Registering further numerals with a custom parser never changes what it already accepts: every text which was accepted is accepted with the same result. Registering further keywords keeps every accepted text with its value, provided that a new keyword is not the identifier of a time unit, contains no inner delimiter, is no beginning of a numeral, and gives no registered keyword a second meaning. Without the condition on time units the meaning may change when numbers are optional.", "quantifier": "all parsers, all additional numerals and keywords, all inputs, both modes", "why_tests_cant": "relates two parsers on all inputs", "anchors": ["fundu/src/custom/parser.rs:CustomDurationParser::numeral", "fundu/src/custom/parser.rs:CustomDurationParser::keyword", "fundu-core/src/parse.rs:ReprParserTemplate::parse", "fundu-core/src/parse.rs:parse_keyword", "fundu-core/src/parse.rs:parse_numeral"]}
{"id": "C77", "title": "gnu: which error a relative time is rejected with", "statement": "Every text which is not a relative time (surrounding white space aside) is rejected with exactly one error, and which one follows from explicit rules about the first wrong component: only a sign at the end, a point without digits, an exponent, a fraction with a unit other than seconds or with a missing whole or fractional part, an unknown word, or a numeral without a time unit. Kind, byte offset and message are those of the rules; offsets are counted in the text without the surrounding white space (not in the given input). With a date, the same errors are returned, and the only further one is Overflow, only if years or months are involved.", "quantifier": "all inputs, all dates, all clocks", "why_tests_cant": "one exact error for every rejected input", "anchors": ["fundu-gnu/src/lib.rs:RelativeTimeParser::parse_fuzzy", "fundu-gnu/src/lib.rs:RelativeTimeParser::parse_with_date", "fundu-gnu/src/lib.rs:DurationReprParser::parse_fuzzy", "fundu-core/src/parse.rs:ReprParserMultiple"]}
{"id": "C78", "title": "systemd: which error a time span is rejected with", "statement": "Every text is either a time span (or infinity), surrounding white space aside, or rejected with exactly one error given by explicit rules about the first wrong part: only a sign at the end, a point without digits, an exponent, an unknown word, or a negative part whose length is not nearly nothing (NegativeNumber); Empty if there is nothing but white space. The error does not depend on the maximum. Offsets are counted in the text without the surrounding white space, not in the given input.", "quantifier": "all inputs, default units, maxima, both functions (micro and nano seconds)", "why_tests_cant": "one exact error for every rejected input", "anchors": ["fundu-systemd/src/lib.rs:TimeSpanParser::parse_with_max", "fundu-systemd/src/lib.rs:TimeSpanParser::parse_nanos_with_max", "fundu-systemd/src/lib.rs:trim_whitespace", "fundu-core/src/parse.rs:ReprParserMultiple"]}
{"id": "C79", "title": "Parsing takes time linear in the length of the input", "statement": "The number of elementary steps (iterations of the loops, bytes read, compared, validated or copied, identifiers looked up) of a call of parse is at most a constant times the length of the input plus a constant, on success and on failure: 16 n + 50 for a single duration whatever the configuration; (124 + 4 k) (n + 1) for multiple durations, k the length of the conjunctions, if `ago` is not allowed or the inner delimiters fit to the outer ones; 124 n + 134 for the parsers of fundu-systemd and fundu-gnu. With ill-fitting delimiters and `ago` there is no linear bound, but the quadratic one (21 n + 61 + 4 k) (n + 1) holds for every configuration.", "quantifier": "all inputs (arbitrary bytes), configurations, unit, keyword and numeral tables, default units, dates", "why_tests_cant": "an asymptotic bound over inputs of every length; an input which makes the parser rescan its rest after every word would show only as slowness", "anchors": ["fundu-core/src/parse.rs:Parser::parse", "fundu-core/src/parse.rs:Bytes", "fundu-core/src/parse.rs:ReprParserMultiple", "fundu-core/src/parse.rs:DurationRepr::parse", "fundu-systemd/src/lib.rs:TimeSpanParser::parse_with_max", "fundu-gnu/src/lib.rs:RelativeTimeParser::parse_with_date"]}
{"id": "C80", "title": "Every duration can be written down", "statement": "For every duration, positive or negative, to the nanosecond, there is a text - its value in seconds with nine decimal places, as in -1.500000001 - which parse reads as exactly that duration, with single and with multiple durations, whenever the default unit is the second, fractions are enabled and negative durations are allowed; so do parse_duration, the standard parsers, and the parsers of fundu-systemd (up to the maximum) and fundu-gnu.", "quantifier": "all representable durations, configurations with default unit second, unit, keyword and numeral tables, dates", "why_tests_cant": "ranges over the more than 2^94 durations, including the limits of the range where saturation begins", "anchors": ["fundu-core/src/parse.rs:Parser::parse", "fundu-core/src/parse.rs:DurationRepr::parse", "fundu/src/standard/parser.rs:DurationParser::parse", "fundu-systemd/src/lib.rs:TimeSpanParser::parse_with_max", "fundu-gnu/src/lib.rs:RelativeTimeParser::parse_with_date"]}
{"id": "C81", "title": "The default time unit is the unit of a number without a unit, and matters for nothing else", "statement": "A number without a time unit means the same, result or error, as the same number with an identifier of the default unit (without multiplier) written behind it; likewise for systemd time spans, and for each number in a sequence of durations separated by delimiters. Two parsers for single durations which differ in their default unit only accept the same texts with the same results, except for a number without a time unit. Where negative durations are allowed they also reject the same texts with the same errors, in the mode for multiple durations too.", "quantifier": "all numbers (sign, digits, fraction, exponent), identifiers, delimiters, configurations, unit, keyword and numeral tables, default units, inputs", "why_tests_cant": "quantifies over every number and every identifier of every table, and over every pair of default units for the second half", "anchors": ["fundu-core/src/config.rs:Config::default_unit", "fundu-core/src/parse.rs:Parser::parse", "fundu-core/src/parse.rs:DurationRepr::parse", "fundu/src/standard/parser.rs:DurationParser::default_unit", "fundu-systemd/src/lib.rs:TimeSpanParser::set_default_unit"]}
{"id": "C82", "title": "The parsers of the crates agree on the texts they have in common", "statement": "A text accepted by the standard parser (with any of the time units, any default unit and otherwise default settings) and by the systemd parser with the same default unit is the same duration for both, cut at the maximum of the systemd parser. A text accepted by the systemd parser and by the gnu parser means the same for both: the exact part plus months and years, counted with the fixed length the systemd parser gives them, cut at the maximum; without months and years the gnu parser returns this duration whatever the date. A text accepted by the standard parser and the gnu parser has no months and years and is the same duration for both.", "quantifier": "all texts, sets of time units, default units, maxima, dates", "why_tests_cant": "two independent implementations of a grammar have to coincide on the whole infinite intersection of what they accept, including white space, fractions with any number of digits and saturation", "anchors": ["fundu/src/standard/parser.rs:DurationParser::parse", "fundu-systemd/src/lib.rs:TimeSpanParser::parse_with_max", "fundu-systemd/src/lib.rs:TimeSpanParser::parse_nanos_with_max", "fundu-gnu/src/lib.rs:RelativeTimeParser::parse_fuzzy", "fundu-gnu/src/lib.rs:RelativeTimeParser::parse_with_date"]}
{"id": "C83", "title": "Without time units the parser reads the literals of f64", "statement": "DurationParser::without_time_units() accepts exactly the texts f64::from_str accepts (sign, digits with at most one point, exponent, inf, infinity, in any letter case), except nan, exponents outside of 16 bits, and negative values of at least 10^-18 seconds; the errors tell which of these it was. The result is the exact decimal value, rounded down to nanoseconds and saturated. Reading the same text as the nearest f64 and converting that to a std Duration gives at most 1024 seconds more or less, the bound claimed by the fuzz target of the crate; this bound is reached.", "quantifier": "all texts, all numbers of digits, exponents and roundings", "why_tests_cant": "the fuzz target supports its bound with `a lot of random runs`; equality of two grammars and the error bound range over infinitely many texts and all doubles", "anchors": ["fundu/fuzz/fuzz_targets/f64_like_input.rs", "fundu/src/standard/parser.rs:DurationParser::without_time_units", "fundu/src/standard/parser.rs:DurationParser::parse", "fundu-core/src/parse.rs:Parser::parse_single"]}
{"id": "C84", "title": "A regular expression for single durations", "statement": "If the identifiers and delimiters cannot be mistaken for each other or for parts of a number, the parser for one duration accepts exactly the texts written as optional sign, then number with or without time unit (and ago), infinity, keyword, time unit, or numeral with time unit, as far as the settings allow them, and returns the value of these parts; negative durations need a setting which allows them. In particular the parser of the fuzz target parse_single, under all its settings, accepts exactly what the regular expression of this fuzz target describes.", "quantifier": "all texts, settings, time units, keywords and numerals of the described kind; including custom parsers after any sequence of calls", "why_tests_cant": "fuzzing samples texts and settings; here the languages of the parser and of the expression are equal", "anchors": ["fundu/fuzz/fuzz_targets/parse_single.rs", "fundu-core/src/parse.rs:Parser::parse_single", "fundu/src/custom/parser.rs:CustomDurationParser::parse"]}
{"id": "C85", "title": "A regular expression for relative times", "statement": "RelativeTimeParser::parse_fuzzy accepts exactly the texts which are put together, with optional white space around them, from pieces: a number with or without unit, a unit, a numeral with unit, a keyword, each with an optional sign, units possibly followed by ago; white space between two pieces may be missing only in front of a digit or sign, or after a number in front of a numeral or keyword (not one starting with e); after a number without unit there is no unit without sign; only seconds have fractions. The result is the sum of the pieces. A text can be put together in one way only.", "quantifier": "all texts", "why_tests_cant": "the fuzz target needs two more control expressions for texts its main expression does not get right, and samples; here the language of the parser is characterised without exception", "anchors": ["fundu-gnu/fuzz/fuzz_targets/parsing.rs", "fundu-gnu/src/lib.rs:RelativeTimeParser::parse_fuzzy"]}
{"id": "C86", "title": "What is in front of an error is the beginning of an acceptable text", "statement": "If the parser of a single duration, or of a sequence of durations, reports a byte position with an error, then the text in front of this position can be continued to a text the parser accepts (or rejects only because it is negative); the text carried by InvalidInput is the rest of the input, and the text in front of it can be continued as well. The same holds for time spans of fundu-systemd, where positions refer to the text without the white space around it, and for relative times of fundu-gnu, except that a number without a whole part may be in front of the error, which would be an error itself.", "quantifier": "all texts, all settings, time units, keywords, numerals, delimiters and conjunctions which cannot be mistaken for each other; including custom parsers after any sequence of calls", "why_tests_cant": "existence of a continuation for every prefix in front of every error of every text", "anchors": ["fundu-core/src/error.rs:ParseError", "fundu-core/src/parse.rs:Parser::parse_single", "fundu/src/standard/parser.rs:DurationParser::parse", "fundu-gnu/src/lib.rs:RelativeTimeParser::parse_fuzzy", "fundu-systemd/src/lib.rs:TimeSpanParser::parse", "fundu-core/src/parse.rs:Parser::parse_multiple", "fundu/src/custom/parser.rs:CustomDurationParser::parse"]}
{"id": "C87", "title": "A regular expression for multiple durations", "statement": "With one set of delimiters, and identifiers and conjunctions which cannot be mistaken for each other or for a part of a number, the parser of multiple durations accepts exactly the texts written as follows, in one way only: single durations (number, number with time unit perhaps followed by `ago`, infinity, keyword, time unit alone, numeral and time unit, each with an optional sign) and between them nothing (after a number in front of something which continues neither the number nor is its time unit; after a word in front of a digit or sign), delimiters, or delimiters and a conjunction, which is followed by delimiters or directly by a digit or sign. With allow_time_unit_delimiter a time unit alone cannot follow a number, and a number without time unit cannot be followed by a conjunction. The result is the saturating sum of the durations.", "quantifier": "all texts, all configurations of the core parser and of the standard parser with parse_multiple, all tables of time units, keywords and numerals and all conjunctions which satisfy the stated disjointness; including custom parsers after any sequence of calls", "why_tests_cant": "equality of two infinite languages for all configurations", "anchors": ["fundu-core/src/parse.rs:Parser::parse_multiple", "fundu-core/src/parse.rs:ReprParserMultiple", "fundu/src/standard/parser.rs:DurationParser::parse_multiple", "fundu/src/custom/parser.rs:CustomDurationParser::parse"]}
{"id": "C88", "title": "A conjunction between durations says the same as delimiters", "statement": "In a parser for multiple durations, two accepted inputs written one after the other with a conjunction between them (in any letter case, with delimiters in front of it, and behind it unless a digit or sign follows) are accepted with the same value as with delimiters only between them. The exception is a first input which ends with a number without time unit while delimiters are allowed in front of time units.", "quantifier": "all settings, time units, keywords, numerals, delimiters and conjunctions which cannot be mistaken for each other, all pairs of accepted inputs; including custom parsers after any sequence of calls", "why_tests_cant": "all pairs of inputs, all conjunctions and all places between durations", "anchors": ["fundu-core/src/parse.rs:ReprParserMultiple::try_consume_connection", "fundu-core/src/parse.rs:Parser::parse_multiple", "fundu-core/src/config.rs:Config::conjunctions", "fundu/src/custom/parser.rs:CustomDurationParser::parse"]}
{"id": "C89", "title": "Letter case matters in the identifiers only", "statement": "If two inputs differ in nothing but the case of letters, and at every place (not within a longer word) they have the same time units, keywords and numerals, then both are accepted with the same value or both are rejected: `inf`, `infinity`, the exponent's `e`, `ago` and the conjunctions may be written in any case. With tables which ignore case nothing depends on case; with the standard parser's time units it does (`1m`, `1M`).", "quantifier": "all settings, tables of time units, keywords and numerals, delimiters which do not distinguish the case of letters, all pairs of inputs; including custom parsers after any sequence of calls", "why_tests_cant": "all pairs of inputs which differ in the case of letters, over all settings and tables", "anchors": ["fundu-core/src/parse.rs:ReprParserTemplate::parse_infinity_remainder", "fundu-core/src/parse.rs:ReprParserTemplate::parse_exponent", "fundu-core/src/parse.rs:Bytes::next_is_ignore_ascii_case", "fundu-core/src/parse.rs:ReprParserMultiple::try_consume_connection", "fundu/src/standard/time_units.rs:TimeUnits::get", "fundu/src/custom/parser.rs:CustomDurationParser::parse"]}
{"id": "C90", "title": "The text of a duration is read back by the parsers which know its time units", "statement": "The text which Display writes for a Duration is accepted by every parser for multiple durations which takes a space for a delimiter and knows the time units in the text by the standard identifiers, whatever its other settings, and the value is the value of the duration; without allow_negative the text of a negative duration is rejected as negative number. This holds of the core parser, the standard parser and custom parsers. fundu-systemd reads exactly those texts back which have no microseconds (written `Ms`) and, without nanosecond time units, no nanoseconds. fundu-gnu accepts none of the texts.", "quantifier": "all durations, all settings with multiple durations, all tables of time units, keywords and numerals which contain the needed time units", "why_tests_cant": "all durations over all settings and tables; that a text is rejected unless all its time units are known is a statement about all readings of it", "anchors": ["fundu-core/src/time.rs:Duration::fmt", "fundu-core/src/parse.rs:Parser::parse", "fundu/src/standard/parser.rs:DurationParser::parse", "fundu/src/custom/parser.rs:CustomDurationParser::parse", "fundu-systemd/src/lib.rs:TimeSpanParser::parse", "fundu-gnu/src/lib.rs:RelativeTimeParser::parse"]}
{"id": "C91", "title": "The example program systemd prints the microseconds and a readable time span, which is read back", "statement": "For every argument the example program systemd prints either three lines (the argument, the microseconds of the time span rounded down, and the time span in years to nanoseconds, longest unit first, `0` for zero) or one complaint with the message of the error; it never panics. Unicode white space around the argument only changes the echo of the argument. Given the text of its third line the program prints the same second and third line again, and fundu-systemd reads this text as the same value, cut at its maximum (without nanosecond units if it has none). The texts its parser accepts are exactly one or more numbers (no exponent, no infinity) with words of its table and ASCII blanks between them, and the value is their sum.", "quantifier": "all arguments (UTF-8 texts), all white space around them, all parsers and maxima of fundu-systemd for reading the text", "why_tests_cant": "all texts, and a round trip for all durations between 0 and 2^64 seconds", "anchors": ["fundu/examples/systemd.rs:main", "fundu/examples/systemd.rs:make_human", "fundu/src/custom/parser.rs:CustomDurationParser::parse", "fundu-systemd/src/lib.rs:TimeSpanParser::parse_with_max"]}
{"id": "C92", "title": "The example program gnu prints the seconds and a readable relative time, which is read back", "statement": "For every argument the example program gnu prints either three lines (the argument, the whole seconds with their sign, and the time in years to seconds with a plural s, every part with a minus sign if it is negative, `0sec` for zero) or one complaint; it never panics. White space around the argument only changes the echo. Given the text of its third line, the program prints the same seconds and text again, unless the seconds are 0: then the text is `0sec`, or (only after saturation) empty or `-`, which the program rejects. fundu-gnu reads the text as the years, months and remaining seconds of the printed seconds. The texts its parser accepts are exactly one or more signed integers with words of its table, such words alone, with `ago`, and the keywords yesterday, tomorrow, now, today, and the value is their sum.", "quantifier": "all arguments (UTF-8 texts), all white space around them", "why_tests_cant": "all texts, and a round trip for all durations within 2^64 seconds in both directions", "anchors": ["fundu/examples/gnu.rs:main", "fundu/examples/gnu.rs:make_human", "fundu/examples/gnu.rs:make_plural", "fundu/src/custom/parser.rs:CustomDurationParser::parse", "fundu-gnu/src/lib.rs:RelativeTimeParser::parse_fuzzy"]}
{"id": "C93", "title": "The example program custom is an exact calculator for its units", "statement": "For every list of arguments the example program custom prints its header and for each argument either a row or a complaint with the message of the error, and never panics; the arguments do not influence each other. A row has the argument aligned to 20 characters, the seconds aligned to 21 and exactly nine digits of nanoseconds, which together are the value of the duration. Numbers with up to nine digits after the point and any of its units (sidereal month and year, fortnight, nanoseconds by default), perhaps after white space, give exactly the product, rounded down to nanoseconds and cut at the largest duration. The texts its parser accepts are exactly one number (no exponent) with or without a word of its table, or infinity.", "quantifier": "all lists of arguments (UTF-8 texts), all numbers and all units of the program", "why_tests_cant": "all texts and all numbers; the sample output in the documentation of the program is wrong for the year and the month", "anchors": ["fundu/examples/custom.rs:main", "fundu/examples/custom.rs:CUSTOM_TIME_UNITS", "fundu/src/custom/parser.rs:CustomDurationParser::parse", "fundu-core/src/parse.rs:DurationRepr::parse"]}
{"id": "C94", "title": "The text of a duration for debugging is exact, unambiguous and mostly readable by the parsers", "statement": "`{:?}` of a Duration shows the sign and the absolute value in the longest of the units s, ms, \u00b5s and ns which fits, as a decimal number with all its digits and none too many; different Durations have different texts. The number with its unit is read back as exactly the same value by every parser for single durations which knows the unit and allows fractions. Of the standard parsers with the units ns, ms and s, those texts with `\u00b5s` (1000 to 999999 nanoseconds) are errors, and all others are read exactly; fundu-systemd reads every such text with nanosecond units, and without them exactly those from one microsecond on, cut at its maximum.", "quantifier": "all durations, all parsers for single durations whose table knows the unit, all lists of units of the standard parser, all parsers and maxima of fundu-systemd", "why_tests_cant": "all 2^64 * 10^9 values and all parser configurations", "anchors": ["fundu-core/src/time.rs:Duration", "fundu/src/standard/parser.rs:DurationParser::parse", "fundu-systemd/src/lib.rs:TimeSpanParser::parse_with_max", "fundu-core/src/parse.rs:Parser::parse"]}
{"id": "C95", "title": "The example programs clap_derive and clap_builder print the duration or the saturated sum of two durations", "statement": "With one argument the programs print the duration which the default parser reads, with two arguments the sum, cut at the largest duration, in the format of C94. They panic exactly if an argument is rejected (or missing, which only clap_builder allows). Both programs print the same for the same arguments. The program simple ends without a panic.", "quantifier": "all arguments (UTF-8 texts)", "why_tests_cant": "all pairs of texts, including those whose sum overflows", "anchors": ["fundu/examples/clap_derive.rs:main", "fundu/examples/clap_builder.rs:main", "fundu/examples/simple.rs:main", "fundu-core/src/time.rs:Duration::saturating_add"]}
{"id": "C96", "title": "The example program chrono of fundu-gnu prints the exact seconds, or the limits of chrono, and never panics", "statement": "For every argument and every time of the system clock the program prints either three aligned lines or a complaint with the message of the error, and never panics. The second line has the whole seconds of the duration, rounded towards zero and cut at the limits of chrono::Duration; the third line has the same number if the duration is within these limits, and otherwise the message for an overflow in its direction.", "quantifier": "all arguments (UTF-8 texts), all times of the clock", "why_tests_cant": "all texts and all points in time; the calendar function used has a day on which it panics (finding 4), which must be out of reach", "anchors": ["fundu-gnu/examples/chrono.rs:main", "fundu-gnu/src/lib.rs:parse", "fundu-core/src/time.rs:SaturatingInto<ChronoDuration> for Duration", "fundu-core/src/time.rs:TryFrom<Duration> for ChronoDuration"]}
{"id": "C97", "title": "The example program convert shows for every duration the three conversions, exact or with an error, and saturated", "statement": "For every argument, without the white space around it, the program convert prints the duration in both formats and for std, chrono and time two lines each: the conversion with exactly the same value if it is within the limits of the type, and else the error (negative for std, overflow in the right direction for the others); and the saturated conversion with the value cut at these limits. If the argument is rejected it prints the message. It never panics.", "quantifier": "all arguments (UTF-8 texts), whatever chrono and time print for their durations", "why_tests_cant": "all texts and all durations, at the limits of three types", "anchors": ["fundu/examples/convert.rs:main", "fundu-core/src/time.rs:TryFrom<Duration> for std::time::Duration", "fundu-core/src/time.rs:TryFrom<Duration> for ChronoDuration", "fundu-core/src/time.rs:TryFrom<Duration> for TimeDuration", "fundu-core/src/time.rs:SaturatingInto"]}
{"id": "C98", "title": "gnu: how long months and years are, whatever the date", "statement": "A relative time with n months (a year is twelve) and an exact part gives, from every date and from every time of the clock for which it is accepted, the exact part plus a whole number of days: within 4.4 days of n times 30.436875 days, 28 to 31 days for every month, 365 or 366 for every year, and exactly 146097 days for 400 years; with n negative the same backwards. More months are always longer, by 28 to 31 days each. Moving the date by a multiple of 400 years does not change the result.", "quantifier": "all relative times, all dates and times of the clock, all numbers of months and years", "why_tests_cant": "all dates of a 400 year cycle times all numbers of months, in both directions", "anchors": ["fundu-gnu/src/lib.rs:RelativeTimeParser::parse_with_date", "fundu-gnu/src/datetime.rs:DateTime::checked_add_gregorian", "fundu-gnu/src/datetime.rs:JulianDay::try_from_gregorian", "fundu-gnu/src/datetime.rs:JulianDay::to_gregorian"]}
{"id": "C99", "title": "Error messages are not much longer than the input", "statement": "Whatever the input is, the text carried by the error of a rejected input is at most 78 bytes longer than the input, and the message shown for it at most 126 bytes longer (for inputs up to 2^64 - 1 bytes): no input is repeated more than once in a message. This holds for the core parser, the standard parser with any settings, custom parsers after any calls, fundu-systemd and fundu-gnu.", "quantifier": "all inputs, all settings, all time units, keywords and numerals, all dates, all errors", "why_tests_cant": "all inputs and all configurations; tests see a few messages", "anchors": ["fundu-core/src/error.rs:impl Display for ParseError", "fundu-core/src/parse.rs:Parser::parse", "fundu-systemd/src/lib.rs:TimeSpanParser::parse", "fundu-gnu/src/lib.rs:RelativeTimeParser::parse"]}
{"id": "C100", "title": "A syntax error does not depend on what follows it", "statement": "If a parser of single durations reports a syntax error at a byte of the input, it reports a syntax error at the same byte for every text which agrees with the input up to and including this byte (except for the messages that the input ends with a delimiter, and that a point has no digits around it). Hence such a position is the length of the longest part of the input which can be continued to an acceptable text. An exponent overflow stays the same error whatever is appended. With keywords which contain delimiters this fails. Parsers of multiple durations, time spans and relative times report an error in an exponent (no exponent allowed, no digits, overflow) in the same way, whatever follows, unless digits are delimiters or part of a conjunction.", "quantifier": "all inputs, all continuations, all settings, all time units, numerals, and keywords (without delimiters, for single durations); all time spans, default units and maxima; all relative times", "why_tests_cant": "relates infinitely many inputs with the same beginning", "anchors": ["fundu-core/src/parse.rs:ReprParserTemplate::parse", "fundu-core/src/parse.rs:ReprParserSingle", "fundu-core/src/parse.rs:parse_exponent", "fundu/src/standard/parser.rs:DurationParser::parse", "fundu/src/custom/parser.rs:CustomDurationParser::parse", "fundu-core/src/parse.rs:ReprParserMultiple", "fundu-systemd/src/lib.rs:TimeSpanParser::parse_with_max", "fundu-gnu/src/lib.rs:RelativeTimeParser::parse_fuzzy"]}
{"id": "C101", "title": "Texts are sequences of characters", "statement": "A valid str is exactly the UTF-8 encoding (RFC 3629) of a sequence of Unicode scalar values, and of one only. Whatever sequence of characters is parsed, by any of the parsers: the position in an error never lies inside of a character, and the message shown for the error is again a sequence of characters. (The character which some messages show need not occur in the input: only its first byte is looked at.) Where letter case is ignored, it is ignored for the ASCII letters A-Z and nothing else.", "quantifier": "all sequences of Unicode characters, all settings, time units, keywords, numerals and conjunctions", "why_tests_cant": "ranges over all characters and all texts; tests use ASCII texts and a few samples", "anchors": ["fundu-core/src/parse.rs:Bytes", "fundu-core/src/parse.rs:ReprParserTemplate", "fundu-core/src/error.rs:ParseError", "fundu-systemd/src/lib.rs:TimeSpanParser", "fundu-gnu/src/lib.rs:RelativeTimeParser"]}
{"id": "C102", "title": "What each kind of error means", "statement": "A program which matches on ParseError can rely on this: Empty means the empty input (only white space for fundu-systemd and fundu-gnu); NegativeNumber occurs only if negative durations are not allowed (in fundu-systemd only if there is a minus sign); PositiveExponentOverflow and NegativeExponentOverflow occur only if exponents are enabled and the input contains an exponent above 32767 or below -32768; a TimeUnit error occurs only with single durations or numerals; InvalidInput carries a non-empty end of the input which starts neither with a digit nor with a point; the core parsers, the standard and the custom parser, and fundu-systemd never return Overflow; fundu-systemd returns neither time unit nor exponent errors, fundu-gnu neither exponent errors nor NegativeNumber.", "quantifier": "all inputs, settings, time units, keywords and numerals, all five parsers", "why_tests_cant": "says for every rejected input what its error implies, and that some errors never occur", "anchors": ["fundu-core/src/error.rs:ParseError", "fundu-core/src/parse.rs:Parser::parse", "fundu/src/standard/parser.rs:DurationParser::parse", "fundu/src/custom/parser.rs:CustomDurationParser::parse", "fundu-systemd/src/lib.rs:TimeSpanParser::parse_with_max", "fundu-gnu/src/lib.rs:RelativeTimeParser::parse_with_date"]}
{"id": "C103", "title": "The oracle of the fuzz target for single durations holds for every input", "statement": "The check of fundu/fuzz/fuzz_targets/parse_single.rs (build a parser from ten settings, build a regular expression from the same settings, parse, and compare: an accepted input matches the expression or is one of the listed exceptions; a rejected input does not match or the error is one of the listed exceptions, where an exponent overflow is only allowed if the captured exponent is not an i16) succeeds for every setting and every input, except for a sign, delimiters and `yesterday` with allow_sign_delimiter but neither allow_negative nor allow_ago: there the check is wrong, not the parser.", "quantifier": "all 1024 settings of the target, all valid UTF-8 inputs of any length, all ways in which the expression can match", "why_tests_cant": "the fuzzer samples inputs; the exception above is an input it has not found", "anchors": ["fundu/fuzz/fuzz_targets/parse_single.rs:generate_regex", "fundu/fuzz/fuzz_targets/parse_single.rs:fuzz_target", "fundu/src/custom/parser.rs:CustomDurationParser::parse", "fundu-core/src/parse.rs:Parser::parse_single"]}
{"id": "C104", "title": "The oracle of the fuzz target for f64 like inputs holds for every input", "statement": "The check of fundu/fuzz/fuzz_targets/f64_like_input.rs succeeds for every input: what is no literal of f64, and nan, is rejected by DurationParser::without_time_units(); a negative literal whose double is below 1e-18 in magnitude is accepted (or rejected for its exponent), one above is rejected; every other literal is accepted with a duration which converts to std::time::Duration and differs by at most 1024 seconds from Duration::try_from_secs_f64 (Duration::MAX if that fails), or is rejected for its exponent; and whenever it is rejected for its exponent, the text after the first e is a number outside of i16.", "quantifier": "all valid UTF-8 inputs of any length, all doubles which are nearest to the literal", "why_tests_cant": "the fuzzer samples inputs; the bound of 1024 seconds is there \"backed by a lot of random runs and manual comparisons\"", "anchors": ["fundu/fuzz/fuzz_targets/f64_like_input.rs:check_exponent_overflow", "fundu/fuzz/fuzz_targets/f64_like_input.rs:fuzz_target", "fundu/src/standard/parser.rs:DurationParser::without_time_units", "fundu-core/src/time.rs:TryFrom<Duration> for std::time::Duration"]}
{"id": "C105", "title": "The oracle of the fuzz target for relative times accepts every outcome of the parser", "statement": "For every input and every current time, the check of fundu-gnu/fuzz/fuzz_targets/parsing.rs on acceptance succeeds: an input accepted by RelativeTimeParser::parse matches the main regular expression (and then parse_fuzzy succeeds as well), or starts or ends with white space, or contains a match of the control expression; an input which matches the main expression is accepted, or is rejected with Overflow, or with one of the two messages about fractions and contains a match of the control expression for fractions. The control expressions are needed: there are inputs of each kind.", "quantifier": "all valid UTF-8 inputs of any length, all times of the system clock", "why_tests_cant": "the fuzzer samples inputs; whether two control expressions are enough for the differences between the main expression and the parser is a statement about two infinite languages", "anchors": ["fundu-gnu/fuzz/fuzz_targets/parsing.rs:generate_regex", "fundu-gnu/fuzz/fuzz_targets/parsing.rs:generate_control_regex", "fundu-gnu/fuzz/fuzz_targets/parsing.rs:generate_fraction_control_regex", "fundu-gnu/fuzz/fuzz_targets/parsing.rs:fuzz_target", "fundu-gnu/src/lib.rs:RelativeTimeParser::parse"]}
{"id": "C106", "title": "The value which the fuzz target for relative times computes is the value of parse_fuzzy", "statement": "For every input which the main regular expression of fundu-gnu/fuzz/fuzz_targets/parsing.rs matches and which is accepted, the years, months and duration of RelativeTimeParser::parse_fuzzy equal the ones which the target computes on its own from the captures of its extraction expression (leftmost first match, one match after the other): the comparison in the target never fails, whatever the signs, fractions, `ago`, numerals, keywords, units, white space and numbers beyond the limits. More generally, what the target extracts from a relative time is the sum of its components, saturating from left to right.", "quantifier": "all valid UTF-8 inputs of any length", "why_tests_cant": "the fuzzer samples inputs; that two different algorithms, a hand-written parser and a regular expression with a loop over its captures, compute the same value for each text of an infinite language is not a statement about samples", "anchors": ["fundu-gnu/fuzz/fuzz_targets/parsing.rs:generate_extraction_regex", "fundu-gnu/fuzz/fuzz_targets/parsing.rs:extract", "fundu-gnu/fuzz/fuzz_targets/parsing.rs:fuzz_target", "fundu-gnu/src/lib.rs:RelativeTimeParser::parse_fuzzy"]}
