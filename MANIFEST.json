{
 "claims": [
  {
   "property": "C01",
   "status": "proved",
   "theorems": [
    "C01_checked_add_exact_or_none",
    "C01_checked_sub_exact_or_none",
    "C01_representable_iff"
   ],
   "note": ""
  },
  {
   "property": "C02",
   "status": "proved",
   "theorems": [
    "C02_saturating_add_clamps",
    "C02_saturating_sub_clamps",
    "C02_add_operator",
    "C02_sub_operator"
   ],
   "note": ""
  },
  {
   "property": "C03",
   "status": "proved",
   "theorems": [
    "C03_cmp_is_value_order",
    "C03_eq_is_value_equality",
    "C03_eq_iff_cmp_equal",
    "C03_min_is_value_minimum"
   ],
   "note": ""
  },
  {
   "property": "C04",
   "status": "proved",
   "theorems": [
    "C04_hash_iff_equal"
   ],
   "note": ""
  },
  {
   "property": "C05",
   "status": "proved",
   "theorems": [
    "C05_constructors",
    "C05_from_std",
    "C05_every_duration",
    "C05_neg",
    "C05_abs",
    "C05_signs"
   ],
   "note": ""
  },
  {
   "property": "C06",
   "status": "proved",
   "theorems": [
    "C06_as_units_truncate",
    "C06_subsec_truncate"
   ],
   "note": ""
  },
  {
   "property": "C07",
   "status": "proved",
   "theorems": [
    "C07_extract_splits"
   ],
   "note": ""
  },
  {
   "property": "C08",
   "status": "proved",
   "theorems": [
    "C08_from_std_exact",
    "C08_try_into_std",
    "C08_saturating_into_std"
   ],
   "note": ""
  },
  {
   "property": "C09",
   "status": "proved",
   "theorems": [
    "C09_try_into_time",
    "C09_saturating_into_time",
    "C09_from_time_exact",
    "C09_try_into_chrono",
    "C09_saturating_into_chrono",
    "C09_from_chrono_exact"
   ],
   "note": ""
  },
  {
   "property": "C10",
   "status": "proved",
   "theorems": [
    "C10_display_parses_back",
    "C10_display_is_utf8"
   ],
   "note": ""
  },
  {
   "property": "C11",
   "status": "proved",
   "theorems": [
    "C11_checked_mul_exact_or_none",
    "C11_mul_operator",
    "C11_saturating_neg",
    "C11_signs"
   ],
   "note": ""
  },
  {
   "property": "C12",
   "status": "proved",
   "theorems": [
    "C12_eight_digits_value"
   ],
   "note": ""
  },
  {
   "property": "C13",
   "status": "proved",
   "theorems": [
    "C13_eight_digits_detection"
   ],
   "note": ""
  },
  {
   "property": "C14",
   "status": "proved",
   "theorems": [
    "C14_scan_fraction",
    "C14_scan_whole"
   ],
   "note": ""
  },
  {
   "property": "C15",
   "status": "proved",
   "theorems": [
    "C15_whole_exact_or_overflow"
   ],
   "note": ""
  },
  {
   "property": "C16",
   "status": "proved",
   "theorems": [
    "C16_fraction_truncated"
   ],
   "note": ""
  },
  {
   "property": "C17",
   "status": "proved",
   "theorems": [
    "C17_number_with_unit",
    "C17_number_without_unit",
    "C17_exact",
    "C17_error_bound",
    "C17_always_exact_refuted"
   ],
   "note": "The _refuted theorem documents that the truncation happens before the multiplication with the unit; the property states the formula with this cut."
  },
  {
   "property": "C18",
   "status": "proved",
   "theorems": [
    "C18_saturates",
    "C18_saturates_any",
    "C18_saturates_only",
    "C18_never_wraps",
    "C18_text",
    "C18_large_multiplier_refuted"
   ],
   "note": "C18_text is end to end; C18_saturates_any covers any multiplier and any number of digits; C18_large_multiplier_refuted shows why the plain bound is restricted."
  },
  {
   "property": "C19",
   "status": "proved",
   "theorems": [
    "C19_unit_value",
    "C19_numeral_value",
    "C19_other_exponents",
    "C19_unit_is_one_unit",
    "C19_numeral_is_number",
    "C19_large_exponent_refuted",
    "C19_small_exponent_refuted",
    "C19_keyword_text",
    "C19_unit_text",
    "C19_unit_like_one_text",
    "C19_numeral_text"
   ],
   "note": "Complete for all exponents (C19_other_exponents); the two _refuted theorems show that the documented reading is false of the code outside of -18..19."
  },
  {
   "property": "C20",
   "status": "proved",
   "theorems": [
    "C20_never_crashes"
   ],
   "note": ""
  },
  {
   "property": "C21",
   "status": "proved",
   "theorems": [
    "C21_not_negative"
   ],
   "note": ""
  },
  {
   "property": "C22",
   "status": "proved",
   "theorems": [
    "C22_single_grammar",
    "C22_meaning_is_unique"
   ],
   "note": ""
  },
  {
   "property": "C23",
   "status": "proved",
   "theorems": [
    "C23_multiple_sound",
    "C23_multiple_complete",
    "C23_components_unique",
    "C23_left_to_right"
   ],
   "note": ""
  },
  {
   "property": "C24",
   "status": "proved",
   "theorems": [
    "C24_error_positions",
    "C24_invalid_input"
   ],
   "note": ""
  },
  {
   "property": "C25",
   "status": "proved",
   "theorems": [
    "C25_empty_input",
    "C25_empty_only"
   ],
   "note": ""
  },
  {
   "property": "C26",
   "status": "proved",
   "theorems": [
    "C26_infinity",
    "C26_nothing_else_starts_with_inf"
   ],
   "note": ""
  },
  {
   "property": "C27",
   "status": "proved",
   "theorems": [
    "C27_fraction_exponent_only_restrict",
    "C27_infinity_only_restricts",
    "C27_no_point",
    "C27_no_exponent"
   ],
   "note": ""
  },
  {
   "property": "C28",
   "status": "proved",
   "theorems": [
    "C28_exponent_exact",
    "C28_exponent_overflow"
   ],
   "note": "In range C28_exponent_exact (end to end, single durations), out of range C28_exponent_overflow (single and multiple durations)."
  },
  {
   "property": "C29",
   "status": "proved",
   "theorems": [
    "C29_buffer_unobservable",
    "C29_inner_is_outer",
    "C29_single",
    "C29_time_units_only",
    "C29_without_hypothesis_refuted",
    "C29_numerals_refuted"
   ],
   "note": ""
  },
  {
   "property": "C30",
   "status": "proved",
   "theorems": [
    "C30_equivalent_spellings",
    "C30_zeros_are_the_same_number"
   ],
   "note": ""
  },
  {
   "property": "C31",
   "status": "proved",
   "theorems": [
    "C31_single_durations",
    "C31_multiple_durations",
    "C31_lookup",
    "C31_is_empty",
    "C31_other_constructors",
    "C31_configured_unit",
    "C31_other_identifier",
    "C31_current_time_units"
   ],
   "note": ""
  },
  {
   "property": "C32",
   "status": "proved",
   "theorems": [
    "C32_parse_never_crashes",
    "C32_conversion_cannot_fail",
    "C32_parse_duration"
   ],
   "note": ""
  },
  {
   "property": "C33",
   "status": "proved",
   "theorems": [
    "C33_custom_builder_equals_setters",
    "C33_builder_equals_setters"
   ],
   "note": ""
  },
  {
   "property": "C34",
   "status": "proved",
   "theorems": [
    "C34_found_iff_registered",
    "C34_lookup",
    "C34_unambiguous",
    "C34_first_registration_wins_refuted",
    "C34_is_empty",
    "C34_parser_lookup",
    "C34_registered_identifier",
    "C34_other_identifier",
    "C34_single_durations",
    "C34_multiple_durations"
   ],
   "note": ""
  },
  {
   "property": "C35",
   "status": "proved",
   "theorems": [
    "C35_never_crashes_without_numerals",
    "C35_never_crashes_with_numerals",
    "C35_numerals_never_crash_refuted",
    "C35_constructor"
   ],
   "note": ""
  },
  {
   "property": "C36",
   "status": "proved",
   "theorems": [
    "C36_lookup",
    "C36_parser"
   ],
   "note": ""
  },
  {
   "property": "C37",
   "status": "proved",
   "theorems": [
    "C37_maxima",
    "C37_within_max",
    "C37_nanos_within_max",
    "C37_within_default_max",
    "C37_infinity_is_max",
    "C37_units",
    "C37_value_sound",
    "C37_value_complete",
    "C37_nanos_value_sound",
    "C37_nanos_value_complete",
    "C37_negative_max_panics"
   ],
   "note": ""
  },
  {
   "property": "C38",
   "status": "proved",
   "theorems": [
    "C38_surrounding_white_space",
    "C38_only_white_space_is_empty"
   ],
   "note": ""
  },
  {
   "property": "C39",
   "status": "proved",
   "theorems": [
    "C39_global_functions",
    "C39_same_default_unit",
    "C39_nanos_extends",
    "C39_nanos_extends_default"
   ],
   "note": ""
  },
  {
   "property": "C40",
   "status": "proved",
   "theorems": [
    "C40_units",
    "C40_units_rejected",
    "C40_keywords",
    "C40_numerals",
    "C40_words_are_unambiguous"
   ],
   "note": ""
  },
  {
   "property": "C41",
   "status": "proved",
   "theorems": [
    "C41_julian_is_bijective",
    "C41_from_gregorian_exact_or_none",
    "C41_day_rolls_over",
    "C41_invalid_month_or_day_panics",
    "C41_to_gregorian",
    "C41_to_gregorian_total_refuted",
    "C41_round_trip_from_date",
    "C41_round_trip_from_day",
    "C41_documented_year_ranges",
    "C41_consecutive_days",
    "C41_day_arithmetic"
   ],
   "note": ""
  },
  {
   "property": "C42",
   "status": "proved",
   "theorems": [
    "C42_add_duration_exact_or_none",
    "C42_sub_duration_exact_or_none",
    "C42_duration_since_exact_or_none",
    "C42_add_then_since",
    "C42_since_then_add",
    "C42_now_utc_exact"
   ],
   "note": ""
  },
  {
   "property": "C43",
   "status": "proved",
   "theorems": [
    "C43_add_gregorian",
    "C43_add_gregorian_no_date"
   ],
   "note": ""
  },
  {
   "property": "C44",
   "status": "proved",
   "theorems": [
    "C44_parse_never_crashes",
    "C44_global_functions",
    "C44_fuzzy_sound",
    "C44_fuzzy_complete",
    "C44_one_reading",
    "C44_fuzzy_never_crashes",
    "C44_white_space",
    "C44_only_white_space_is_empty",
    "C44_date_is_irrelevant",
    "C44_current_time",
    "C44_calendar",
    "C44_with_date",
    "C44_with_date_calendar"
   ],
   "note": ""
  },
  {
   "property": "C45",
   "status": "proved",
   "theorems": [
    "C45_floor_log10",
    "C45_floor_log2"
   ],
   "note": ""
  },
  {
   "property": "C46",
   "status": "proved",
   "theorems": [
    "C46_unit_lengths",
    "C46_default_identifiers_unique"
   ],
   "note": ""
  },
  {
   "property": "C47",
   "status": "proved",
   "theorems": [
    "C47_time_spans",
    "C47_time_spans_with_nanos"
   ],
   "note": ""
  },
  {
   "property": "C48",
   "status": "proved",
   "theorems": [
    "C48_order_is_chronological",
    "C48_order_agrees_with_duration_since"
   ],
   "note": ""
  },
  {
   "property": "C49",
   "status": "proved",
   "theorems": [
    "C49_fields_round_trip",
    "C49_rebuild",
    "C49_invalid_fields_panic"
   ],
   "note": ""
  },
  {
   "property": "C50",
   "status": "proved",
   "theorems": [
    "C50_from_calendar",
    "C50_chrono_leap_second_refuted",
    "C50_chrono_instant",
    "C50_time_offset",
    "C50_time_instant_refuted",
    "C50_every_instant"
   ],
   "note": " PropOffset.v: C50_chrono_instant, C50_time_offset, C50_time_instant_refuted, C50_every_instant (offsets)."
  },
  {
   "property": "C51",
   "status": "proved",
   "theorems": [
    "C51_single_errors",
    "C51_multiple_errors",
    "C51_one_error",
    "C51_grammar_or_error"
   ],
   "note": ""
  },
  {
   "property": "C52",
   "status": "proved",
   "theorems": [
    "C52_add_commutes",
    "C52_add_associates",
    "C52_zero_is_neutral",
    "C52_negation_is_inverse",
    "C52_sub_is_add_neg",
    "C52_sub_undoes_add",
    "C52_add_keeps_order",
    "C52_saturating_add_monotone",
    "C52_neg_reverses_order",
    "C52_saturating_is_checked",
    "C52_saturating_add_commutes",
    "C52_saturating_associates_refuted",
    "C52_triangle"
   ],
   "note": ""
  },
  {
   "property": "C53",
   "status": "proved",
   "theorems": [
    "C53_single_switch",
    "C53_multiple_switch"
   ],
   "note": ""
  },
  {
   "property": "C54",
   "status": "proved",
   "theorems": [
    "C54_sign_single",
    "C54_sign_multiple",
    "C54_ago_single",
    "C54_ago_multiple"
   ],
   "note": "exponents of units, keywords and numerals up to 19 (above that the sign is ignored by the code, finding 1, C19_large_exponent_refuted); `ago` for a number with a unit and without the smallest i64 as coefficient"
  },
  {
   "property": "C55",
   "status": "proved",
   "theorems": [
    "C55_single_within_multiple",
    "C55_identifiers_with_digits_refuted"
   ],
   "note": ""
  },
  {
   "property": "C56",
   "status": "proved",
   "theorems": [
    "C56_concatenation",
    "C56_second_without_number_refuted"
   ],
   "note": ""
  },
  {
   "property": "C57",
   "status": "proved",
   "theorems": [
    "C57_monotone",
    "C57_same_amount",
    "C57_beyond_18_places_refuted"
   ],
   "note": ""
  },
  {
   "property": "C58",
   "status": "proved",
   "theorems": [
    "C58_messages_differ",
    "C58_message_shows_position",
    "C58_conversion_errors",
    "C58_conversion_error_as_parse_error"
   ],
   "note": ""
  },
  {
   "property": "C59",
   "status": "proved",
   "theorems": [
    "C59_custom_unit_equality",
    "C59_order_methods",
    "C59_clamp"
   ],
   "note": ""
  },
  {
   "property": "C60",
   "status": "proved",
   "theorems": [
    "C60_more_units_single",
    "C60_optional_numbers_refuted",
    "C60_more_units_multiple",
    "C60_keywords_refuted",
    "C60_standard_parser"
   ],
   "note": "C60_standard_parser is unconditional in the settings (ASCII delimiters as for all parsers); the two _refuted theorems show that the hypotheses on numerals and keywords are needed for custom tables."
  },
  {
   "property": "C61",
   "status": "proved",
   "theorems": [
    "C61_delimiters_single",
    "C61_delimiters_multiple",
    "C61_delimiter_in_identifier_refuted",
    "C61_standard_parser"
   ],
   "note": "Proved on the grammars of C22/C23, rule by rule; _refuted: an identifier with a delimiter in it."
  },
  {
   "property": "C62",
   "status": "proved",
   "theorems": [
    "C62_fuzzy",
    "C62_with_date"
   ],
   "note": "Proved on the grammar of C44, rule by rule, with the surrounding white space."
  },
  {
   "property": "C63",
   "status": "proved",
   "theorems": [
    "C63_canonical_text",
    "C63_zero",
    "C63_one_decomposition",
    "C63_text_determines_value",
    "C63_length"
   ],
   "note": "Refines C10: the decomposition is stated with its own table of unit lengths and identifiers, and proved unique. C63_length bounds the length of the text; both bounds are reached."
  },
  {
   "property": "C64",
   "status": "proved",
   "theorems": [
    "C64_systemd_table",
    "C64_systemd_parser",
    "C64_meaning_is_enough",
    "C64_order_of_registration",
    "C64_ambiguous_order_refuted",
    "C64_standard_parser",
    "C64_exported_tables"
   ],
   "note": "Congruence of the whole parser in the answers of the tables (ExtProofs.parse_ext), with C31, C34 and C36; _refuted: an ambiguous identifier."
  },
  {
   "property": "C65",
   "status": "proved",
   "theorems": [
    "C65_sum_of_parts",
    "C65_order_of_parts",
    "C65_greater_parts",
    "C65_order_of_signed_parts",
    "C65_saturation_in_between_refuted"
   ],
   "note": "From C56's extension of the grammar, by induction over the parts; _refuted: saturation in between."
  },
  {
   "property": "C66",
   "status": "proved",
   "theorems": [
    "C66_sum_of_spans",
    "C66_order_of_spans"
   ],
   "note": "From C65 for the systemd configuration, with both tables of units."
  },
  {
   "property": "C67",
   "status": "proved",
   "theorems": [
    "C67_parts_add_up",
    "C67_two_texts",
    "C67_order_of_parts",
    "C67_without_number_refuted"
   ],
   "note": "Every rule of the gnu grammar is preserved when white space and a text starting with a digit or sign follow; _refuted: a second text which starts with a word."
  },
  {
   "property": "C68",
   "status": "proved",
   "theorems": [
    "C68_more_options_single",
    "C68_more_options_multiple",
    "C68_unit_delimiter_refuted",
    "C68_words_refuted"
   ],
   "note": "Every rule of the grammars of C22 and C23 for the smaller configuration is a rule for the larger one; _refuted: 'and' or optional numbers with delimiters in front of the unit, identifiers starting with inf, a conjunction 'ago'."
  },
  {
   "property": "C69",
   "status": "proved",
   "theorems": [
    "C69_twelve_months_are_a_year",
    "C69_nothing_added",
    "C69_day_is_kept",
    "C69_step_by_step",
    "C69_there_and_back",
    "C69_steps_refuted",
    "C69_order_is_kept",
    "C69_order_refuted",
    "C69_days_are_durations",
    "C69_gnu_months_and_years"
   ],
   "note": "From the closed form of checked_add_gregorian (C43) and the lengths of months; _refuted: 31 January plus one month twice, and back; the order of 31 January and 1 February."
  },
  {
   "property": "C70",
   "status": "proved",
   "theorems": [
    "C70_two_durations",
    "C70_durations_commute",
    "C70_subtraction",
    "C70_triangle",
    "C70_direction",
    "C70_monotone"
   ],
   "note": "From C42 and C48 on instants."
  },
  {
   "property": "C71",
   "status": "proved",
   "theorems": [
    "C71_standard_setters",
    "C71_standard_defaults",
    "C71_custom_setters",
    "C71_standard_builder",
    "C71_custom_builder",
    "C71_core_builder",
    "C71_only_last_values_matter",
    "C71_order_does_not_matter"
   ],
   "note": "last_value and configured are defined in PropSettings.v from the documentation of the setters."
  },
  {
   "property": "C72",
   "status": "proved",
   "theorems": [
    "C72_duration_round_trip",
    "C72_time_unit_round_trip",
    "C72_multiplier_round_trip",
    "C72_error_round_trip",
    "C72_conversion_error_round_trip",
    "C72_date_time_round_trip",
    "C72_field_order",
    "C72_further_fields",
    "C72_without_names",
    "C72_deserialised_duration",
    "C72_deserialised_is_valid",
    "C72_deserialised_date_time",
    "C72_deserialised_date_time_is_valid_refuted"
   ],
   "note": "The code generated by the derive is modelled in Serde.v by serde's documented contract; invalid DateTimes: finding 13."
  },
  {
   "property": "C73",
   "status": "proved",
   "theorems": [
    "C73_exactly_time_spans",
    "C73_exactly_time_spans_nanos",
    "C73_default_maximum",
    "C73_documented",
    "C73_one_decimal_point_refuted"
   ],
   "note": "any_span in SpecSystemd.v is the whole language; malformed numbers like 1.5.5: finding 14."
  },
  {
   "property": "C74",
   "status": "proved",
   "theorems": [
    "C74_maximum_only_caps",
    "C74_maximum_only_caps_nanos",
    "C74_not_reached"
   ],
   "note": ""
  },
  {
   "property": "C75",
   "status": "proved",
   "theorems": [
    "C75_standard",
    "C75_custom",
    "C75_systemd",
    "C75_standard_builder",
    "C75_custom_builder_refuted",
    "C75_custom_builder",
    "C75_equivalence"
   ],
   "note": "Address comparison of functions is a parameter which is only assumed to be sound. The custom builder: finding 16."
  },
  {
   "property": "C76",
   "status": "proved",
   "theorems": [
    "C76_more_numerals",
    "C76_custom_numerals",
    "C76_more_keywords",
    "C76_keyword_like_unit_refuted",
    "C76_custom_keywords"
   ],
   "note": "The conditions on new keywords are stated on the registered identifiers (C76_custom_keywords)."
  },
  {
   "property": "C77",
   "status": "proved",
   "theorems": [
    "C77_errors",
    "C77_one_error",
    "C77_time_or_error",
    "C77_with_date",
    "C77_kinds",
    "C77_position_in_input_refuted"
   ],
   "note": "SpecGnuErrors.v has the rules. C77_position_in_input_refuted records finding 17: offsets refer to the trimmed text."
  },
  {
   "property": "C78",
   "status": "proved",
   "theorems": [
    "C78_errors",
    "C78_nanos_errors",
    "C78_default_errors",
    "C78_one_error",
    "C78_span_or_error",
    "C78_span_or_error_nanos",
    "C78_position_in_input_refuted"
   ],
   "note": "SpecSystemdErrors.v has the rules. C78_position_in_input_refuted records finding 17."
  },
  {
   "property": "C79",
   "status": "proved",
   "theorems": [
    "C79_same_result",
    "C79_same_result_standard",
    "C79_same_result_custom",
    "C79_same_result_systemd",
    "C79_same_result_gnu",
    "C79_single",
    "C79_linear",
    "C79_standard",
    "C79_custom",
    "C79_systemd",
    "C79_gnu",
    "C79_quadratic",
    "C79_delimiters_needed"
   ],
   "note": "Cost.v and CostExt.v repeat the functions of the model with a counter; C79_same_result* prove that their results are those of the model. Where the steps are counted is part of the trusted base. C79_delimiters_needed: quadratic without the hypothesis (finding 18)."
  },
  {
   "property": "C80",
   "status": "proved",
   "theorems": [
    "C80_has_a_text",
    "C80_single",
    "C80_multiple",
    "C80_systemd",
    "C80_gnu",
    "C80_standard",
    "C80_parse_duration"
   ],
   "note": "Spec: seconds_text (sign, digits, point, nine digits, whose digits denote the value in nanoseconds). C80_has_a_text: every duration has one."
  },
  {
   "property": "C81",
   "status": "proved",
   "theorems": [
    "C81_same_as_written",
    "C81_same_as_written_multiple",
    "C81_only_bare_numbers",
    "C81_same_errors",
    "C81_systemd",
    "C81_in_a_sequence"
   ],
   "note": "Half 1: C81_same_as_written (single, with errors), C81_same_as_written_multiple (a lone number where several durations are allowed), C81_in_a_sequence (any of the numbers of a sequence), C81_systemd. Half 2: C81_only_bare_numbers. Errors: C81_same_errors (both modes)."
  },
  {
   "property": "C82",
   "status": "proved",
   "theorems": [
    "C82_standard_and_systemd_nanos",
    "C82_standard_and_systemd",
    "C82_standard_and_systemd_default",
    "C82_systemd_nanos_and_gnu",
    "C82_systemd_and_gnu",
    "C82_systemd_and_gnu_date",
    "C82_standard_and_gnu"
   ],
   "note": "Standard and systemd: C82_standard_and_systemd(_nanos, _default); systemd and gnu: C82_systemd_and_gnu, C82_systemd_nanos_and_gnu, C82_systemd_and_gnu_date; standard and gnu: C82_standard_and_gnu. Examples beside them show texts in and outside the intersections."
  },
  {
   "property": "C83",
   "status": "proved",
   "theorems": [
    "C83_float_texts",
    "C83_float_errors",
    "C83_near_f64",
    "C83_bound_is_reached"
   ],
   "note": "Accepted texts and values C83_float_texts, rejected literals C83_float_errors, distance from the result via f64 C83_near_f64, sharpness C83_bound_is_reached. Doubles are specified over the rationals (SpecFloat.v)."
  },
  {
   "property": "C84",
   "status": "proved",
   "theorems": [
    "C84_custom",
    "C84_standard",
    "C84_written_texts",
    "C84_fuzz_target"
   ],
   "note": "General form C84_written_texts, the fuzz target C84_fuzz_target. C84_custom: the custom parser, in terms of the identifiers given to its methods. C84_standard: the standard parser with any units and settings."
  },
  {
   "property": "C85",
   "status": "proved",
   "theorems": [
    "C85_reading_and_writing",
    "C85_written_texts",
    "C85_one_way"
   ],
   "note": "C85_reading_and_writing (the reading of C44 and the writing of SpecGnuTexts.v coincide), C85_written_texts for the parser, C85_one_way."
  },
  {
   "property": "C86",
   "status": "proved",
   "theorems": [
    "C86_custom",
    "C86_gnu",
    "C86_multiple",
    "C86_multiple_standard",
    "C86_in_front_of_errors",
    "C86_standard",
    "C86_without_units_refuted",
    "C86_systemd",
    "C86_systemd_default"
   ],
   "note": "Core parser for one duration C86_in_front_of_errors, for sequences of durations C86_multiple, standard parser C86_standard and C86_multiple_standard, time spans C86_systemd and C86_systemd_default, relative times C86_gnu. C86_without_units_refuted: without time units but with delimiters in front of them the claim is false, which is why the theorems exclude it (finding 19). C86_custom: custom parsers."
  },
  {
   "property": "C87",
   "status": "proved",
   "theorems": [
    "C87_custom",
    "C87_written_texts",
    "C87_unique",
    "C87_standard"
   ],
   "note": "C87_written_texts for the core parser with keywords and numerals, C87_unique, C87_standard for the standard parser with any time units, settings and conjunctions of letters. C87_custom: custom parsers."
  },
  {
   "property": "C88",
   "status": "proved",
   "theorems": [
    "C88_conjunctions",
    "C88_standard",
    "C88_custom"
   ],
   "note": "C88_conjunctions (core parser), C88_standard. The exception is finding 12, see C68_unit_delimiter_refuted and the example. C88_custom: custom parsers."
  },
  {
   "property": "C89",
   "status": "proved",
   "theorems": [
    "C89_single",
    "C89_multiple",
    "C89_blind_tables",
    "C89_standard",
    "C89_identifiers_refuted",
    "C89_custom"
   ],
   "note": "C89_single and C89_multiple (core parser), C89_blind_tables, C89_standard (`same_words` and `cut` are defined in PropCase.v in terms of the texts); C89_identifiers_refuted shows that identifiers are different. C89_custom: custom parsers."
  },
  {
   "property": "C90",
   "status": "proved",
   "theorems": [
    "C90_read_back",
    "C90_negative",
    "C90_standard",
    "C90_systemd",
    "C90_systemd_nanos",
    "C90_systemd_negative",
    "C90_custom",
    "C90_gnu"
   ],
   "note": "C90_read_back and C90_negative (core parser), C90_standard, C90_custom, C90_systemd, C90_systemd_nanos, C90_systemd_negative, C90_gnu. `needs v u` (PropReadBack.v) tells which time units are in the text of a duration, in terms of its value."
  },
  {
   "property": "C91",
   "status": "proved",
   "theorems": [
    "C91_systemd_example",
    "C91_white_space",
    "C91_again",
    "C91_systemd_reads_it",
    "C91_texts"
   ],
   "note": "C91_systemd_example, C91_white_space, C91_again, C91_systemd_reads_it. What clap does with the command line is not modelled: the program is a function of its argument. C91_texts: exactly which texts are read."
  },
  {
   "property": "C92",
   "status": "proved",
   "theorems": [
    "C92_gnu_example",
    "C92_white_space",
    "C92_again",
    "C92_gnu_reads_it",
    "C92_texts"
   ],
   "note": "C92_gnu_example, C92_white_space, C92_again, C92_gnu_reads_it. C92_example shows the empty text and `-` (finding 23). C92_texts: exactly which texts are read."
  },
  {
   "property": "C93",
   "status": "proved",
   "theorems": [
    "C93_custom_example",
    "C93_independent",
    "C93_values",
    "C93_texts"
   ],
   "note": "C93_custom_example, C93_independent, C93_values. C93_example computes the sample output, which differs from the documentation (finding 24). C93_texts: exactly which texts are read."
  },
  {
   "property": "C94",
   "status": "proved",
   "theorems": [
    "C94_std_debug",
    "C94_debug",
    "C94_read_back",
    "C94_standard",
    "C94_systemd",
    "C94_distinct",
    "C94_debug_distinct"
   ],
   "note": "C94_std_debug and C94_debug (the text, against SpecDebug.v), C94_distinct, C94_debug_distinct, C94_read_back (any parser for single durations), C94_standard, C94_systemd. How std prints its Duration is a modelled contract of std (ExamplesMore.v)."
  },
  {
   "property": "C95",
   "status": "proved",
   "theorems": [
    "C95_every_argument",
    "C95_one_duration",
    "C95_sum",
    "C95_builder",
    "C95_simple",
    "C95_texts"
   ],
   "note": "C95_every_argument, C95_one_duration, C95_sum, C95_builder, C95_simple; C95_texts: exactly the texts which are read. clap is not modelled."
  },
  {
   "property": "C96",
   "status": "proved",
   "theorems": [
    "C96_chrono",
    "C96_never_panics"
   ],
   "note": "C96_chrono, C96_never_panics; C44_parse_never_crashes (in PropExamplesMore.v) shows that `parse` of fundu-gnu never panics for any clock."
  },
  {
   "property": "C97",
   "status": "proved",
   "theorems": [
    "C97_convert",
    "C97_texts"
   ],
   "note": "C97_convert, with the printing functions of chrono and time as parameters; C97_texts: exactly the texts which are read."
  },
  {
   "property": "C98",
   "status": "proved",
   "theorems": [
    "C98_how_long",
    "C98_from_now",
    "C98_four_centuries",
    "C98_more_months"
   ],
   "note": "C98_how_long, C98_from_now, C98_four_centuries, C98_more_months; C98_example shows that the bounds are reached."
  },
  {
   "property": "C99",
   "status": "proved",
   "theorems": [
    "C99_messages_are_short",
    "C99_standard",
    "C99_custom",
    "C99_systemd",
    "C99_gnu"
   ],
   "note": "C99_messages_are_short (core), C99_standard, C99_custom, C99_systemd, C99_gnu. With several durations the delimiters must fit (delims_ok), as in C51."
  },
  {
   "property": "C100",
   "status": "proved",
   "theorems": [
    "C100_what_follows_does_not_matter",
    "C100_exponent_overflow_is_final",
    "C100_longest_beginning",
    "C100_standard",
    "C100_custom",
    "C100_keywords_refuted",
    "C100_multiple",
    "C100_multiple_exponent_overflow",
    "C100_multiple_standard",
    "C100_multiple_custom",
    "C100_multiple_conjunctions_refuted",
    "C100_gnu",
    "C100_systemd"
   ],
   "note": "Single durations: C100_what_follows_does_not_matter, C100_exponent_overflow_is_final, C100_longest_beginning (core), C100_standard, C100_custom; C100_keywords_refuted shows that the hypothesis about keywords is needed. Multiple durations: C100_multiple, C100_multiple_exponent_overflow, C100_multiple_standard, C100_multiple_custom (C100_multiple_conjunctions_refuted: conjunctions must not contain digits). C100_gnu and C100_systemd for the other two crates, whose only other syntax errors look ahead."
  },
  {
   "property": "C101",
   "status": "proved",
   "theorems": [
    "C101_strings_are_texts",
    "C101_one_reading",
    "C101_positions",
    "C101_messages",
    "C101_shown_character_refuted",
    "C101_standard",
    "C101_custom",
    "C101_systemd",
    "C101_gnu",
    "C101_letter_case"
   ],
   "note": "C101_strings_are_texts and C101_one_reading tie the predicate utf8, which most other theorems use, to the encoding of characters in SpecUnicode.v. C101_positions and C101_messages for the core parser, C101_standard, C101_custom, C101_systemd, C101_gnu for the others; C101_shown_character_refuted: the character in a message may be one which is not in the input. C101_letter_case pins down the comparison which ignores case."
  },
  {
   "property": "C102",
   "status": "proved",
   "theorems": [
    "C102_kinds",
    "C102_standard",
    "C102_custom",
    "C102_systemd",
    "C102_gnu"
   ],
   "note": "C102_kinds for the core parser, C102_standard, C102_custom, C102_systemd, C102_gnu."
  },
  {
   "property": "C103",
   "status": "proved",
   "theorems": [
    "C103_source",
    "C103_fuzz_target",
    "C103_false_alarm_refuted"
   ],
   "note": "C103_fuzz_target is an equivalence: the check succeeds if and only if the input is not one of the false alarms. C103_source: the regular expression in parts has the source text which generate_regex builds. C103_false_alarm_refuted: two inputs for which the target panics (finding 27)."
  },
  {
   "property": "C104",
   "status": "proved",
   "theorems": [
    "C104_float_target",
    "C104_every_literal_is_read"
   ],
   "note": "C104_float_target for every input, C104_every_literal_is_read: every literal has a value to be checked with. The values of f64 are the doubles of SpecFloat.v (53 bits times a power of two, read to the nearest, ties either way); std try_from_secs_f64 is taken from its documentation."
  },
  {
   "property": "C105",
   "status": "proved",
   "theorems": [
    "C105_source",
    "C105_matching_inputs",
    "C105_accepted_inputs",
    "C105_fuzz_target",
    "C105_controls_are_needed"
   ],
   "note": "C105_fuzz_target, from C105_accepted_inputs and C105_matching_inputs; C105_source: the modelled expressions have the source texts of the target; C105_controls_are_needed. The comparison of the values is C106."
  },
  {
   "property": "C106",
   "status": "proved",
   "theorems": [
    "C106_source",
    "C106_extract",
    "C106_value",
    "C106_first_match",
    "C106_fuzz_target",
    "C106_example",
    "C106_first_match_exists",
    "C106_extract_never_panics"
   ],
   "note": "C106_value and C106_fuzz_target (the whole check, with C105); C106_extract: the value extracted from each written relative time. C106_source: the expression has the source text of the target; C106_first_match, C106_first_match_exists: the backtracking matcher finds a match of a beginning of the text, in the sense of SpecRegex.v, exactly if there is one. C106_example meets the hypotheses. C106_extract_never_panics: for every text, also one which is not accepted."
  }
 ]
}