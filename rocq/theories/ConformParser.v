(** * The test functions of fundu/tests/parser_test.rs, fundu-core/tests/test_parsing_numerals.rs, fundu-core/src/error.rs, fundu-core/src/parse.rs, fundu/src/custom/time_units.rs: the assertions of the tests of /repo, run on the model (see Conform.v)

    Generated from the test functions of /repo; one example for each test function (or documentation block), each element of
    its list is one assertion of one case. *)
From Verif Require Import Prelude Util Time Config Bytes Repr Parse Standard Custom Systemd DateTime Gnu Misc Conform.

(* fundu/tests/parser_test.rs:40: 38 assertions *)
Example test_parse_duration_with_illegal_argument_then_error : all_pass [
  is_true (Ok (is_err (dp_parse (dpb_build (dpb_call dpb_new B_default_time_units)) (%""))));
  is_true (Ok (is_err (dp_parse (dpb_build (dpb_call (dpb_call dpb_new B_default_time_units) (B_parse_multiple (Some [(%"and")])))) (%""))));
  is_true (Ok (is_err (dp_parse (dpb_build (dpb_call dpb_new B_default_time_units)) (%"  1"))));
  is_true (Ok (is_err (dp_parse (dpb_build (dpb_call (dpb_call dpb_new B_default_time_units) (B_parse_multiple (Some [(%"and")])))) (%"  1"))));
  is_true (Ok (is_err (dp_parse (dpb_build (dpb_call dpb_new B_default_time_units)) (%"1   "))));
  is_true (Ok (is_err (dp_parse (dpb_build (dpb_call (dpb_call dpb_new B_default_time_units) (B_parse_multiple (Some [(%"and")])))) (%"1   "))));
  is_true (Ok (is_err (dp_parse (dpb_build (dpb_call dpb_new B_default_time_units)) (%"1.1e1msNOPE"))));
  is_true (Ok (is_err (dp_parse (dpb_build (dpb_call (dpb_call dpb_new B_default_time_units) (B_parse_multiple (Some [(%"and")])))) (%"1.1e1msNOPE"))));
  is_true (Ok (is_err (dp_parse (dpb_build (dpb_call dpb_new B_default_time_units)) [32; 32; 9; 10])));
  is_true (Ok (is_err (dp_parse (dpb_build (dpb_call (dpb_call dpb_new B_default_time_units) (B_parse_multiple (Some [(%"and")])))) [32; 32; 9; 10])));
  is_true (Ok (is_err (dp_parse (dpb_build (dpb_call dpb_new B_default_time_units)) (%"."))));
  is_true (Ok (is_err (dp_parse (dpb_build (dpb_call (dpb_call dpb_new B_default_time_units) (B_parse_multiple (Some [(%"and")])))) (%"."))));
  is_true (Ok (is_err (dp_parse (dpb_build (dpb_call dpb_new B_default_time_units)) (%"+"))));
  is_true (Ok (is_err (dp_parse (dpb_build (dpb_call (dpb_call dpb_new B_default_time_units) (B_parse_multiple (Some [(%"and")])))) (%"+"))));
  is_true (Ok (is_err (dp_parse (dpb_build (dpb_call dpb_new B_default_time_units)) (%"e-10"))));
  is_true (Ok (is_err (dp_parse (dpb_build (dpb_call (dpb_call dpb_new B_default_time_units) (B_parse_multiple (Some [(%"and")])))) (%"e-10"))));
  is_true (Ok (is_err (dp_parse (dpb_build (dpb_call dpb_new B_default_time_units)) (%"-e1"))));
  is_true (Ok (is_err (dp_parse (dpb_build (dpb_call (dpb_call dpb_new B_default_time_units) (B_parse_multiple (Some [(%"and")])))) (%"-e1"))));
  is_true (Ok (is_err (dp_parse (dpb_build (dpb_call dpb_new B_default_time_units)) (%"-.e1"))));
  is_true (Ok (is_err (dp_parse (dpb_build (dpb_call (dpb_call dpb_new B_default_time_units) (B_parse_multiple (Some [(%"and")])))) (%"-.e1"))));
  is_true (Ok (is_err (dp_parse (dpb_build (dpb_call dpb_new B_default_time_units)) (%"-1"))));
  is_true (Ok (is_err (dp_parse (dpb_build (dpb_call (dpb_call dpb_new B_default_time_units) (B_parse_multiple (Some [(%"and")])))) (%"-1"))));
  is_true (Ok (is_err (dp_parse (dpb_build (dpb_call dpb_new B_default_time_units)) (%"-1.0"))));
  is_true (Ok (is_err (dp_parse (dpb_build (dpb_call (dpb_call dpb_new B_default_time_units) (B_parse_multiple (Some [(%"and")])))) (%"-1.0"))));
  is_true (Ok (is_err (dp_parse (dpb_build (dpb_call dpb_new B_default_time_units)) (%"-0.000000001"))));
  is_true (Ok (is_err (dp_parse (dpb_build (dpb_call (dpb_call dpb_new B_default_time_units) (B_parse_multiple (Some [(%"and")])))) (%"-0.000000001"))));
  is_true (Ok (is_err (dp_parse (dpb_build (dpb_call dpb_new B_default_time_units)) (%"2E+"))));
  is_true (Ok (is_err (dp_parse (dpb_build (dpb_call (dpb_call dpb_new B_default_time_units) (B_parse_multiple (Some [(%"and")])))) (%"2E+"))));
  is_true (Ok (is_err (dp_parse (dpb_build (dpb_call dpb_new B_default_time_units)) (%"-3E75"))));
  is_true (Ok (is_err (dp_parse (dpb_build (dpb_call (dpb_call dpb_new B_default_time_units) (B_parse_multiple (Some [(%"and")])))) (%"-3E75"))));
  is_true (Ok (is_err (dp_parse (dpb_build (dpb_call dpb_new B_default_time_units)) (%"-1.e-18"))));
  is_true (Ok (is_err (dp_parse (dpb_build (dpb_call (dpb_call dpb_new B_default_time_units) (B_parse_multiple (Some [(%"and")])))) (%"-1.e-18"))));
  is_true (Ok (is_err (dp_parse (dpb_build (dpb_call dpb_new B_default_time_units)) (%"-.00000000000019999999e-4"))));
  is_true (Ok (is_err (dp_parse (dpb_build (dpb_call (dpb_call dpb_new B_default_time_units) (B_parse_multiple (Some [(%"and")])))) (%"-.00000000000019999999e-4"))));
  is_true (Ok (is_err (dp_parse (dpb_build (dpb_call dpb_new B_default_time_units)) (%"-.00000003e-2"))));
  is_true (Ok (is_err (dp_parse (dpb_build (dpb_call (dpb_call dpb_new B_default_time_units) (B_parse_multiple (Some [(%"and")])))) (%"-.00000003e-2"))));
  is_true (Ok (is_err (dp_parse (dpb_build (dpb_call dpb_new B_default_time_units)) ((%"-0") ++ repeat 56 24 ++ (%"182888") ++ repeat 51 45 ++ (%"8888888888888888888") ++ repeat 48 691 ++ (%"4") ++ repeat 48 99 ++ (%"6") ++ repeat 48 114 ++ (%"1616564957e-1027")))));
  is_true (Ok (is_err (dp_parse (dpb_build (dpb_call (dpb_call dpb_new B_default_time_units) (B_parse_multiple (Some [(%"and")])))) ((%"-0") ++ repeat 56 24 ++ (%"182888") ++ repeat 51 45 ++ (%"8888888888888888888") ++ repeat 48 691 ++ (%"4") ++ repeat 48 99 ++ (%"6") ++ repeat 48 114 ++ (%"1616564957e-1027")))))] = true.
Proof. vm_compute. reflexivity. Qed.

(* fundu/tests/parser_test.rs:70: 36 assertions *)
Example test_parse_duration_when_simple_arguments_are_valid : all_pass [
  same deqb (dp_parse (dpb_build (dpb_call dpb_new B_default_time_units)) (%"1")) (positive 1 0);
  same deqb (dp_parse (dpb_build (dpb_call (dpb_call dpb_new B_default_time_units) (B_parse_multiple (Some [(%"and")])))) (%"1")) (positive 1 0);
  same deqb (dp_parse (dpb_build (dpb_call dpb_new B_default_time_units)) (%"10.010000000")) (positive 10 10000000);
  same deqb (dp_parse (dpb_build (dpb_call (dpb_call dpb_new B_default_time_units) (B_parse_multiple (Some [(%"and")])))) (%"10.010000000")) (positive 10 10000000);
  same deqb (dp_parse (dpb_build (dpb_call dpb_new B_default_time_units)) (%"0")) (Ok ZERO);
  same deqb (dp_parse (dpb_build (dpb_call (dpb_call dpb_new B_default_time_units) (B_parse_multiple (Some [(%"and")])))) (%"0")) (Ok ZERO);
  same deqb (dp_parse (dpb_build (dpb_call dpb_new B_default_time_units)) (repeat 48 2000)) (Ok ZERO);
  same deqb (dp_parse (dpb_build (dpb_call (dpb_call dpb_new B_default_time_units) (B_parse_multiple (Some [(%"and")])))) (repeat 48 2000)) (Ok ZERO);
  same deqb (dp_parse (dpb_build (dpb_call dpb_new B_default_time_units)) (repeat 48 2000 ++ (%"1"))) (positive 1 0);
  same deqb (dp_parse (dpb_build (dpb_call (dpb_call dpb_new B_default_time_units) (B_parse_multiple (Some [(%"and")])))) (repeat 48 2000 ++ (%"1"))) (positive 1 0);
  same deqb (dp_parse (dpb_build (dpb_call dpb_new B_default_time_units)) (%"0.0")) (Ok ZERO);
  same deqb (dp_parse (dpb_build (dpb_call (dpb_call dpb_new B_default_time_units) (B_parse_multiple (Some [(%"and")])))) (%"0.0")) (Ok ZERO);
  same deqb (dp_parse (dpb_build (dpb_call dpb_new B_default_time_units)) (%".0")) (Ok ZERO);
  same deqb (dp_parse (dpb_build (dpb_call (dpb_call dpb_new B_default_time_units) (B_parse_multiple (Some [(%"and")])))) (%".0")) (Ok ZERO);
  same deqb (dp_parse (dpb_build (dpb_call dpb_new B_default_time_units)) (%"0.")) (Ok ZERO);
  same deqb (dp_parse (dpb_build (dpb_call (dpb_call dpb_new B_default_time_units) (B_parse_multiple (Some [(%"and")])))) (%"0.")) (Ok ZERO);
  same deqb (dp_parse (dpb_build (dpb_call dpb_new B_default_time_units)) (%"1.1")) (positive 1 100000000);
  same deqb (dp_parse (dpb_build (dpb_call (dpb_call dpb_new B_default_time_units) (B_parse_multiple (Some [(%"and")])))) (%"1.1")) (positive 1 100000000);
  same deqb (dp_parse (dpb_build (dpb_call dpb_new B_default_time_units)) (%"0.999999999")) (positive 0 999999999);
  same deqb (dp_parse (dpb_build (dpb_call (dpb_call dpb_new B_default_time_units) (B_parse_multiple (Some [(%"and")])))) (%"0.999999999")) (positive 0 999999999);
  same deqb (dp_parse (dpb_build (dpb_call dpb_new B_default_time_units)) (%"1.999999999")) (positive 1 999999999);
  same deqb (dp_parse (dpb_build (dpb_call (dpb_call dpb_new B_default_time_units) (B_parse_multiple (Some [(%"and")])))) (%"1.999999999")) (positive 1 999999999);
  same deqb (dp_parse (dpb_build (dpb_call dpb_new B_default_time_units)) (%"1234.123456789")) (positive 1234 123456789);
  same deqb (dp_parse (dpb_build (dpb_call (dpb_call dpb_new B_default_time_units) (B_parse_multiple (Some [(%"and")])))) (%"1234.123456789")) (positive 1234 123456789);
  same deqb (dp_parse (dpb_build (dpb_call dpb_new B_default_time_units)) (%"18446744073709551615")) (positive 18446744073709551615 0);
  same deqb (dp_parse (dpb_build (dpb_call (dpb_call dpb_new B_default_time_units) (B_parse_multiple (Some [(%"and")])))) (%"18446744073709551615")) (positive 18446744073709551615 0);
  same deqb (dp_parse (dpb_build (dpb_call dpb_new B_default_time_units)) (%"000000100")) (positive 100 0);
  same deqb (dp_parse (dpb_build (dpb_call (dpb_call dpb_new B_default_time_units) (B_parse_multiple (Some [(%"and")])))) (%"000000100")) (positive 100 0);
  same deqb (dp_parse (dpb_build (dpb_call dpb_new B_default_time_units)) (%"00000010.0")) (positive 10 0);
  same deqb (dp_parse (dpb_build (dpb_call (dpb_call dpb_new B_default_time_units) (B_parse_multiple (Some [(%"and")])))) (%"00000010.0")) (positive 10 0);
  same deqb (dp_parse (dpb_build (dpb_call dpb_new B_default_time_units)) (%"-9.99999999999E-19")) (Ok ZERO);
  same deqb (dp_parse (dpb_build (dpb_call (dpb_call dpb_new B_default_time_units) (B_parse_multiple (Some [(%"and")])))) (%"-9.99999999999E-19")) (Ok ZERO);
  same deqb (dp_parse (dpb_build (dpb_call dpb_new B_default_time_units)) ((%"-.") ++ repeat 48 37 ++ (%"11") ++ repeat 56 29 ++ (%"000000000000") ++ repeat 51 94 ++ repeat 56 34 ++ (%"0000") ++ repeat 51 75 ++ (%"88888888888888888") ++ repeat 51 49 ++ (%"88888888888888") ++ repeat 51 109 ++ repeat 56 48 ++ (%"5888888000000000000") ++ repeat 51 29 ++ (%"888") ++ repeat 51 109 ++ repeat 56 55 ++ (%"00000000000033333333333333333") ++ repeat 48 253 ++ (%"11414703819657838596"))) (Ok ZERO);
  same deqb (dp_parse (dpb_build (dpb_call (dpb_call dpb_new B_default_time_units) (B_parse_multiple (Some [(%"and")])))) ((%"-.") ++ repeat 48 37 ++ (%"11") ++ repeat 56 29 ++ (%"000000000000") ++ repeat 51 94 ++ repeat 56 34 ++ (%"0000") ++ repeat 51 75 ++ (%"88888888888888888") ++ repeat 51 49 ++ (%"88888888888888") ++ repeat 51 109 ++ repeat 56 48 ++ (%"5888888000000000000") ++ repeat 51 29 ++ (%"888") ++ repeat 51 109 ++ repeat 56 55 ++ (%"00000000000033333333333333333") ++ repeat 48 253 ++ (%"11414703819657838596"))) (Ok ZERO);
  same deqb (dp_parse (dpb_build (dpb_call dpb_new B_default_time_units)) ((%"179769313486231570814527423731704356798070567525844996598917476803157260780028538760589558632766878171540458953514382464234321326889464182768467546703537516986049910576551282076245490090389328944075868508455133942304583236903222948165808559332123348274797826204144723168738177180919299881250404026184124858368"))) (Ok MAX);
  same deqb (dp_parse (dpb_build (dpb_call (dpb_call dpb_new B_default_time_units) (B_parse_multiple (Some [(%"and")])))) ((%"179769313486231570814527423731704356798070567525844996598917476803157260780028538760589558632766878171540458953514382464234321326889464182768467546703537516986049910576551282076245490090389328944075868508455133942304583236903222948165808559332123348274797826204144723168738177180919299881250404026184124858368"))) (Ok MAX)] = true.
Proof. vm_compute. reflexivity. Qed.

(* fundu/tests/parser_test.rs:111: 19 assertions *)
Example test_parse_duration_when_arguments_contain_exponent : all_pass [
  same deqb (no_err (dp_parse (dp_set dp_with_all_time_units (Set_allow_negative true)) (%"-1844674407370955161500.11e1"))) (Ok MIN);
  same deqb (no_err (dp_parse (dp_set dp_with_all_time_units (Set_allow_negative true)) (%"1844674407370955161500e-1"))) (Ok MAX);
  same deqb (no_err (dp_parse (dp_set dp_with_all_time_units (Set_allow_negative true)) (%"18446744073709551615.11e1"))) (Ok MAX);
  same deqb (no_err (dp_parse (dp_set dp_with_all_time_units (Set_allow_negative true)) (%"-1844674407370955161500e-1"))) (Ok MIN);
  same deqb (no_err (dp_parse (dp_set dp_with_all_time_units (Set_allow_negative true)) (%"1.00000001e-1"))) (positive 0 100000001);
  same deqb (no_err (dp_parse (dp_set dp_with_all_time_units (Set_allow_negative true)) (%"1.1e0"))) (positive 1 100000000);
  same deqb (no_err (dp_parse (dp_set dp_with_all_time_units (Set_allow_negative true)) (%"1.e0"))) (positive 1 0);
  same deqb (no_err (dp_parse (dp_set dp_with_all_time_units (Set_allow_negative true)) (%"1.1e-0"))) (positive 1 100000000);
  same deqb (no_err (dp_parse (dp_set dp_with_all_time_units (Set_allow_negative true)) (%"1.09e1"))) (positive 10 900000000);
  same deqb (no_err (dp_parse (dp_set dp_with_all_time_units (Set_allow_negative true)) (%"1.09E1"))) (positive 10 900000000);
  same deqb (no_err (dp_parse (dp_set dp_with_all_time_units (Set_allow_negative true)) (%"2e4"))) (positive 20000 0);
  same deqb (no_err (dp_parse (dp_set dp_with_all_time_units (Set_allow_negative true)) (%"0.0000000001e1"))) (positive 0 1);
  same deqb (no_err (dp_parse (dp_set dp_with_all_time_units (Set_allow_negative true)) (%"184467440737095516159.999999999e-1"))) (Ok MAX);
  same deqb (no_err (dp_parse (dp_set dp_with_all_time_units (Set_allow_negative true)) (%"0.1000000001e+1"))) (positive 1 1);
  same deqb (no_err (dp_parse (dp_set dp_with_all_time_units (Set_allow_negative true)) (%"10.00000001e-1"))) (positive 1 1);
  same deqb (no_err (dp_parse (dp_set dp_with_all_time_units (Set_allow_negative true)) (%"1.0e-20"))) (Ok ZERO);
  same deqb (no_err (dp_parse (dp_set dp_with_all_time_units (Set_allow_negative true)) (%"1.0e-32768"))) (Ok ZERO);
  same deqb (no_err (dp_parse (dp_set dp_with_all_time_units (Set_allow_negative true)) (%"1.0e+32767"))) (Ok MAX);
  same deqb (no_err (dp_parse (dp_set dp_with_all_time_units (Set_allow_negative true)) ((%"1") ++ repeat 48 (Z.to_nat 32768) ++ (%".0e-32768ns")))) (positive 0 1)] = true.
Proof. vm_compute. reflexivity. Qed.

(* fundu/tests/parser_test.rs:130: 6 assertions *)
Example test_parse_duration_when_arguments_with_illegal_exponent_then_error : all_pass [
  is_true (Ok (is_err (dp_parse (dpb_build (dpb_call dpb_new B_all_time_units)) (%"e1"))));
  is_true (Ok (is_err (dp_parse (dpb_build (dpb_call dpb_new B_all_time_units)) (%"1e"))));
  is_true (Ok (is_err (dp_parse (dpb_build (dpb_call dpb_new B_all_time_units)) (%"6eMs"))));
  is_true (Ok (is_err (dp_parse (dpb_build (dpb_call dpb_new B_all_time_units)) (%"1e+F"))));
  is_true (Ok (is_err (dp_parse (dpb_build (dpb_call dpb_new B_all_time_units)) (%"1e32768"))));
  is_true (Ok (is_err (dp_parse (dpb_build (dpb_call dpb_new B_all_time_units)) (%"1e-32769"))))] = true.
Proof. vm_compute. reflexivity. Qed.

(* fundu/tests/parser_test.rs:139: 2 assertions *)
Example test_parse_duration_when_precision_of_float_would_be_insufficient_then_still_parse_exact : all_pass [
  same std_eqb (no_err (parse_duration (%"1.99999999999999999"))) (std_new 1 999999999);
  same std_eqb (no_err (parse_duration (%"18446744073709551615.1"))) (std_new 18446744073709551615 100000000)] = true.
Proof. vm_compute. reflexivity. Qed.

(* fundu/tests/parser_test.rs:152: 4 assertions *)
Example test_parse_duration_when_arguments_are_capped_then_max_duration_or_min_nanos : all_pass [
  same std_eqb (no_err (parse_duration (%"1.0000000001"))) (std_new 1 0);
  same std_eqb (no_err (parse_duration (%"1.99999999999"))) (std_new 1 999999999);
  same std_eqb (no_err (parse_duration (%"18446744073709551616"))) (Ok STD_MAX);
  same std_eqb (no_err (parse_duration (%"18446744073709551616.0"))) (Ok STD_MAX)] = true.
Proof. vm_compute. reflexivity. Qed.

(* fundu/tests/parser_test.rs:166: 5 assertions *)
Example test_parse_duration_when_arguments_have_a_sign : all_pass [
  same std_eqb (no_err (parse_duration (%"+0"))) (Ok STD_ZERO);
  same std_eqb (no_err (parse_duration (%"+0.0"))) (Ok STD_ZERO);
  same std_eqb (no_err (parse_duration (%"-0"))) (Ok STD_ZERO);
  same std_eqb (no_err (parse_duration (%"-0.0"))) (Ok STD_ZERO);
  same std_eqb (no_err (parse_duration (%"+1.0"))) (std_new 1 0)] = true.
Proof. vm_compute. reflexivity. Qed.

(* fundu/tests/parser_test.rs:181: 6 assertions *)
Example test_parse_duration_when_arguments_are_infinity_values : all_pass [
  same std_eqb (no_err (parse_duration (%"inf"))) (Ok STD_MAX);
  same std_eqb (no_err (parse_duration (%"+inf"))) (Ok STD_MAX);
  same std_eqb (no_err (parse_duration (%"iNf"))) (Ok STD_MAX);
  same std_eqb (no_err (parse_duration (%"infinity"))) (Ok STD_MAX);
  same std_eqb (no_err (parse_duration (%"+infinity"))) (Ok STD_MAX);
  same std_eqb (no_err (parse_duration (%"InfiNitY"))) (Ok STD_MAX)] = true.
Proof. vm_compute. reflexivity. Qed.

(* fundu/tests/parser_test.rs:192: 5 assertions *)
Example test_parse_duration_when_arguments_are_illegal_infinity_values_then_error : all_pass [
  same std_eqb (parse_duration (%"-inf")) (Err NegativeNumber);
  same std_eqb (parse_duration (%"-infinity")) (Err NegativeNumber);
  same std_eqb (parse_duration (%"infinityINVALID")) (Err (Syntax 8%nat (%"Expected end of input but found: 'INVALID'")));
  same std_eqb (parse_duration (%"infin")) (Err (Syntax 5%nat (%"Error parsing infinity: Premature end of input")));
  same std_eqb (parse_duration (%"inf1.0")) (Err (Syntax 3%nat (%"Error parsing infinity: Invalid character '1'")))] = true.
Proof. vm_compute. reflexivity. Qed.

(* fundu/tests/parser_test.rs:217: 17 assertions *)
Example test_parse_duration_when_time_units_are_given : all_pass [
  same deqb (no_err (dp_parse (dp_set dp_with_all_time_units (Set_allow_negative true)) ((%"0.") ++ repeat 57 100 ++ (%"y")))) (positive 31557599 999999999);
  same deqb (no_err (dp_parse (dp_set dp_with_all_time_units (Set_allow_negative true)) (%"1s"))) (positive 1 0);
  same deqb (no_err (dp_parse (dp_set dp_with_all_time_units (Set_allow_negative true)) (%"1ms"))) (positive 0 1000000);
  same deqb (no_err (dp_parse (dp_set dp_with_all_time_units (Set_allow_negative true)) (%"1000ms"))) (positive 1 0);
  same deqb (no_err (dp_parse (dp_set dp_with_all_time_units (Set_allow_negative true)) (%"1Ms"))) (positive 0 1000);
  same deqb (no_err (dp_parse (dp_set dp_with_all_time_units (Set_allow_negative true)) (%"1e-3Ms"))) (positive 0 1);
  same deqb (no_err (dp_parse (dp_set dp_with_all_time_units (Set_allow_negative true)) (%"1ns"))) (positive 0 1);
  same deqb (no_err (dp_parse (dp_set dp_with_all_time_units (Set_allow_negative true)) (%"0.1m"))) (positive 6 0);
  same deqb (no_err (dp_parse (dp_set dp_with_all_time_units (Set_allow_negative true)) (%"100.0e-3m"))) (positive 6 0);
  same deqb (no_err (dp_parse (dp_set dp_with_all_time_units (Set_allow_negative true)) (%"0.0000000001m"))) (positive 0 6);
  same deqb (no_err (dp_parse (dp_set dp_with_all_time_units (Set_allow_negative true)) (%"0.000000000001h"))) (positive 0 3);
  same deqb (no_err (dp_parse (dp_set dp_with_all_time_units (Set_allow_negative true)) (%"0.0000000000000001y"))) (positive 0 3);
  same deqb (no_err (dp_parse (dp_set dp_with_all_time_units (Set_allow_negative true)) (%"18446744073709551615m"))) (Ok MAX);
  same deqb (no_err (dp_parse (dp_set dp_with_all_time_units (Set_allow_negative true)) (%"18446744073709551615.00001m"))) (Ok MAX);
  same deqb (no_err (dp_parse (dp_set dp_with_all_time_units (Set_allow_negative true)) (%"-18446744073709551615.00001m"))) (Ok MIN);
  same deqb (no_err (dp_parse (dp_set dp_with_all_time_units (Set_allow_negative true)) (%"18446744073709551615.1d"))) (Ok MAX);
  same deqb (no_err (dp_parse (dp_set dp_with_all_time_units (Set_allow_negative true)) (%"-18446744073709551615.1d"))) (Ok MIN)] = true.
Proof. vm_compute. reflexivity. Qed.

(* fundu/tests/parser_test.rs:228: 2 assertions *)
Example test_parser_when_time_units : all_pass [
  runs (no_err (dp_parse (dp_with_time_units [Second]) (%"1s")));
  runs (no_err (dp_parse (dp_with_time_units [Hour]) (%"1h")))] = true.
Proof. vm_compute. reflexivity. Qed.

(* fundu/tests/parser_test.rs:236: 1 assertions *)
Example test_parser_when_time_units_are_not_present_then_error : all_pass [
  is_true (Ok (is_err (dp_parse (dp_with_time_units [Minute]) (%"1s"))))] = true.
Proof. vm_compute. reflexivity. Qed.

(* fundu/tests/parser_test.rs:253: 5 assertions *)
Example test_parser_when_allow_time_unit_delimiter_then_error : all_pass [
  same perr_eqb (get_err (dp_parse (dp_set (dp_set dp_with_all_time_units (Set_allow_time_unit_delimiter true)) (Set_inner_delimiter (fun b => (b =? 32)))) (%""))) (Ok Empty);
  same perr_eqb (get_err (dp_parse (dp_set (dp_set dp_with_all_time_units (Set_allow_time_unit_delimiter true)) (Set_inner_delimiter (fun b => (b =? 32)))) (%" "))) (Ok (InvalidInput (%" ")));
  same perr_eqb (get_err (dp_parse (dp_set (dp_set dp_with_all_time_units (Set_allow_time_unit_delimiter true)) (Set_inner_delimiter (fun b => (b =? 32)))) (%" 123"))) (Ok (InvalidInput (%" 123")));
  same perr_eqb (get_err (dp_parse (dp_set (dp_set dp_with_all_time_units (Set_allow_time_unit_delimiter true)) (Set_inner_delimiter (fun b => (b =? 32)))) (%"123 ns "))) (Ok (TimeUnitErr 4%nat (%"Invalid time unit: 'ns '")));
  same perr_eqb (get_err (dp_parse (dp_set (dp_set dp_with_all_time_units (Set_allow_time_unit_delimiter true)) (Set_inner_delimiter (fun b => (b =? 32)))) [49; 50; 51; 9; 110; 115])) (Ok (TimeUnitErr 3%nat [73; 110; 118; 97; 108; 105; 100; 32; 116; 105; 109; 101; 32; 117; 110; 105; 116; 58; 32; 39; 9; 110; 115; 39]))] = true.
Proof. vm_compute. reflexivity. Qed.

(* fundu/tests/parser_test.rs:253: 2 assertions *)
Example test_parser_when_allow_time_unit_delimiter : all_pass [
  same deqb (no_err (dp_parse (dp_set (dp_set dp_with_all_time_units (Set_allow_time_unit_delimiter true)) (Set_inner_delimiter (fun b => is_ascii_whitespace b))) (%"123ns"))) (positive 0 123);
  same deqb (no_err (dp_parse (dp_set (dp_set dp_with_all_time_units (Set_allow_time_unit_delimiter true)) (Set_inner_delimiter (fun b => is_ascii_whitespace b))) [49; 50; 51; 32; 9; 10; 12; 13; 110; 115])) (positive 0 123)] = true.
Proof. vm_compute. reflexivity. Qed.

(* fundu/tests/parser_test.rs:289: 3 assertions *)
Example test_parser_when_allow_delimiter_then_ok : all_pass [
  same deqb (dp_parse (dp_set (dp_set dp_with_all_time_units (Set_allow_time_unit_delimiter true)) (Set_inner_delimiter (fun b => (b =? 32)))) (%"123ns")) (positive 0 123);
  same deqb (dp_parse (dp_set (dp_set dp_with_all_time_units (Set_allow_time_unit_delimiter true)) (Set_inner_delimiter (fun b => (b =? 32)))) (%"123 ns")) (positive 0 123);
  same deqb (dp_parse (dp_set (dp_set dp_with_all_time_units (Set_allow_time_unit_delimiter true)) (Set_inner_delimiter (fun b => (b =? 32)))) (%"123      ns")) (positive 0 123)] = true.
Proof. vm_compute. reflexivity. Qed.

(* fundu/tests/parser_test.rs:303: 3 assertions *)
Example test_parser_when_number_is_optional : all_pass [
  same deqb (dp_parse (dp_set dp_with_all_time_units (Set_number_is_optional true)) (%"ns")) (positive 0 1);
  same deqb (dp_parse (dp_set dp_with_all_time_units (Set_number_is_optional true)) (%"e1")) (Err (InvalidInput (%"e1")));
  same deqb (dp_parse (dp_set dp_with_all_time_units (Set_number_is_optional true)) (%".")) (Err (Syntax 0%nat (%"Either the whole number part or the fraction must be present")))] = true.
Proof. vm_compute. reflexivity. Qed.

(* fundu/tests/parser_test.rs:317: 1 assertions *)
Example test_parser_when_number_is_optional_and_allow_delimiter_then_error : all_pass [
  same deqb (dp_parse (dp_set (dp_set dp_with_all_time_units (Set_number_is_optional true)) (Set_allow_time_unit_delimiter true)) [13; 100]) (Err (InvalidInput [13; 100]))] = true.
Proof. vm_compute. reflexivity. Qed.

(* fundu/tests/parser_test.rs:334: 3 assertions *)
Example test_parser_when_disable_fraction : all_pass [
  same deqb (dp_parse (dp_set dp_with_all_time_units (Set_disable_fraction true)) (%"1.")) (Err (Syntax 1%nat (%"No fraction allowed")));
  same deqb (dp_parse (dp_set dp_with_all_time_units (Set_disable_fraction true)) (%".1")) (Err (Syntax 0%nat (%"No fraction allowed")));
  same deqb (dp_parse (dp_set dp_with_all_time_units (Set_disable_fraction true)) (%".")) (Err (Syntax 0%nat (%"No fraction allowed")))] = true.
Proof. vm_compute. reflexivity. Qed.

(* fundu/tests/parser_test.rs:350: 3 assertions *)
Example test_parser_when_disable_exponent : all_pass [
  same deqb (dp_parse (dp_set dp_with_all_time_units (Set_disable_exponent true)) (%"1e0")) (Err (Syntax 1%nat (%"No exponent allowed")));
  same deqb (dp_parse (dp_set dp_with_all_time_units (Set_disable_exponent true)) (%"0.1e0")) (Err (Syntax 3%nat (%"No exponent allowed")));
  same deqb (dp_parse (dp_set dp_with_all_time_units (Set_disable_exponent true)) (%"1e")) (Err (Syntax 1%nat (%"No exponent allowed")))] = true.
Proof. vm_compute. reflexivity. Qed.

(* fundu/tests/parser_test.rs:370: 7 assertions *)
Example test_parser_when_disable_infinity : all_pass [
  same deqb (dp_parse (dp_set dp_with_all_time_units (Set_disable_infinity true)) (%"i")) (Err (InvalidInput (%"i")));
  same deqb (dp_parse (dp_set dp_with_all_time_units (Set_disable_infinity true)) (%"in")) (Err (InvalidInput (%"in")));
  same deqb (dp_parse (dp_set dp_with_all_time_units (Set_disable_infinity true)) (%"inf")) (Err (InvalidInput (%"inf")));
  same deqb (dp_parse (dp_set dp_with_all_time_units (Set_disable_infinity true)) (%"+inf")) (Err (InvalidInput (%"inf")));
  same deqb (dp_parse (dp_set dp_with_all_time_units (Set_disable_infinity true)) (%"-inf")) (Err (InvalidInput (%"inf")));
  same deqb (dp_parse (dp_set dp_with_all_time_units (Set_disable_infinity true)) (%"infi")) (Err (InvalidInput (%"infi")));
  same deqb (dp_parse (dp_set dp_with_all_time_units (Set_disable_infinity true)) (%"infinity")) (Err (InvalidInput (%"infinity")))] = true.
Proof. vm_compute. reflexivity. Qed.

(* fundu/tests/parser_test.rs:384: 1 assertions *)
Example test_parser_when_custom_time_unit_then_error : all_pass [
  is_true (Ok (is_err (dp_parse (dp_with_time_units [Minute]) (%"1s"))))] = true.
Proof. vm_compute. reflexivity. Qed.

(* fundu/tests/parser_test.rs:429: 12 assertions *)
Example test_parse_error_messages : all_pass [
  same deqb (dp_parse dp_without_time_units (%"1y")) (Err (TimeUnitErr 1%nat (%"No time units allowed but found: 'y'")));
  same str_eqb (map_res display_parse_error (get_err (dp_parse dp_without_time_units (%"1y")))) (Ok (%"Time unit error: No time units allowed but found: 'y' at column 1"));
  same deqb (dp_parse dp_with_all_time_units (%"1years")) (Err (TimeUnitErr 1%nat (%"Invalid time unit: 'years'")));
  same str_eqb (map_res display_parse_error (get_err (dp_parse dp_with_all_time_units (%"1years")))) (Ok (%"Time unit error: Invalid time unit: 'years' at column 1"));
  same deqb (dp_parse dp_new (%"1e-32769")) (Err NegativeExponentOverflow);
  same str_eqb (map_res display_parse_error (get_err (dp_parse dp_new (%"1e-32769")))) (Ok (%"Negative exponent overflow: Minimum is -32768"));
  same deqb (dp_parse dp_new (%"1e+32768")) (Err PositiveExponentOverflow);
  same str_eqb (map_res display_parse_error (get_err (dp_parse dp_new (%"1e+32768")))) (Ok (%"Positive exponent overflow: Maximum is +32767"));
  same deqb (dp_parse dp_new (%"-1")) (Err NegativeNumber);
  same str_eqb (map_res display_parse_error (get_err (dp_parse dp_new (%"-1")))) (Ok (%"Number was negative"));
  same deqb (dp_parse dp_new (%"-inf")) (Err NegativeNumber);
  same str_eqb (map_res display_parse_error (get_err (dp_parse dp_new (%"-inf")))) (Ok (%"Number was negative"))] = true.
Proof. vm_compute. reflexivity. Qed.

(* fundu/tests/parser_test.rs:453: 10 assertions *)
Example test_parser_setting_default_time_unit : all_pass [
  same deqb (no_err (dp_parse (dp_set dp_without_time_units (Set_default_unit NanoSecond)) (%"1"))) (positive 0 1);
  same deqb (no_err (dp_parse (dp_set dp_without_time_units (Set_default_unit MicroSecond)) (%"1"))) (positive 0 1000);
  same deqb (no_err (dp_parse (dp_set dp_without_time_units (Set_default_unit MilliSecond)) (%"1"))) (positive 0 1000000);
  same deqb (no_err (dp_parse (dp_set dp_without_time_units (Set_default_unit Second)) (%"1"))) (positive 1 0);
  same deqb (no_err (dp_parse (dp_set dp_without_time_units (Set_default_unit Minute)) (%"1"))) (positive 60 0);
  same deqb (no_err (dp_parse (dp_set dp_without_time_units (Set_default_unit Hour)) (%"1"))) (positive 3600 0);
  same deqb (no_err (dp_parse (dp_set dp_without_time_units (Set_default_unit Day)) (%"1"))) (positive 86400 0);
  same deqb (no_err (dp_parse (dp_set dp_without_time_units (Set_default_unit Week)) (%"1"))) (positive 604800 0);
  same deqb (no_err (dp_parse (dp_set dp_without_time_units (Set_default_unit Month)) (%"1"))) (positive 2629800 0);
  same deqb (no_err (dp_parse (dp_set dp_without_time_units (Set_default_unit Year)) (%"1"))) (positive 31557600 0)] = true.
Proof. vm_compute. reflexivity. Qed.

(* fundu/tests/parser_test.rs:506: 29 assertions *)
Example test_parser_when_setting_parse_multiple : all_pass [
  same deqb (dp_parse (dpb_build (dpb_call (dpb_call (dpb_call dpb_new B_all_time_units) (B_parse_multiple (Some [(%"and")]))) B_allow_negative)) (%"0 0")) (Ok ZERO);
  same deqb (dp_parse (dpb_build (dpb_call (dpb_call (dpb_call dpb_new B_all_time_units) (B_parse_multiple (Some [(%"and")]))) B_allow_negative)) (%"0 and 0")) (Ok ZERO);
  same deqb (dp_parse (dpb_build (dpb_call (dpb_call (dpb_call dpb_new B_all_time_units) (B_parse_multiple (Some [(%"and")]))) B_allow_negative)) [48; 32; 9; 10; 13; 32; 32; 48]) (Ok ZERO);
  same deqb (dp_parse (dpb_build (dpb_call (dpb_call (dpb_call dpb_new B_all_time_units) (B_parse_multiple (Some [(%"and")]))) B_allow_negative)) (%"0 1")) (positive 1 0);
  same deqb (dp_parse (dpb_build (dpb_call (dpb_call (dpb_call dpb_new B_all_time_units) (B_parse_multiple (Some [(%"and")]))) B_allow_negative)) (%"0 and 1")) (positive 1 0);
  same deqb (dp_parse (dpb_build (dpb_call (dpb_call (dpb_call dpb_new B_all_time_units) (B_parse_multiple (Some [(%"and")]))) B_allow_negative)) (%"1 0")) (positive 1 0);
  same deqb (dp_parse (dpb_build (dpb_call (dpb_call (dpb_call dpb_new B_all_time_units) (B_parse_multiple (Some [(%"and")]))) B_allow_negative)) (%"1 and 0")) (positive 1 0);
  same deqb (dp_parse (dpb_build (dpb_call (dpb_call (dpb_call dpb_new B_all_time_units) (B_parse_multiple (Some [(%"and")]))) B_allow_negative)) (%"1 1")) (positive 2 0);
  same deqb (dp_parse (dpb_build (dpb_call (dpb_call (dpb_call dpb_new B_all_time_units) (B_parse_multiple (Some [(%"and")]))) B_allow_negative)) (%"1 and 1")) (positive 2 0);
  same deqb (dp_parse (dpb_build (dpb_call (dpb_call (dpb_call dpb_new B_all_time_units) (B_parse_multiple (Some [(%"and")]))) B_allow_negative)) (%"1+1")) (positive 2 0);
  same deqb (dp_parse (dpb_build (dpb_call (dpb_call (dpb_call dpb_new B_all_time_units) (B_parse_multiple (Some [(%"and")]))) B_allow_negative)) (%"1ns 1ns")) (positive 0 2);
  same deqb (dp_parse (dpb_build (dpb_call (dpb_call (dpb_call dpb_new B_all_time_units) (B_parse_multiple (Some [(%"and")]))) B_allow_negative)) (%"1ns+1ns")) (positive 0 2);
  same deqb (dp_parse (dpb_build (dpb_call (dpb_call (dpb_call dpb_new B_all_time_units) (B_parse_multiple (Some [(%"and")]))) B_allow_negative)) (%"1ns and 1ns")) (positive 0 2);
  same deqb (dp_parse (dpb_build (dpb_call (dpb_call (dpb_call dpb_new B_all_time_units) (B_parse_multiple (Some [(%"and")]))) B_allow_negative)) (%"1ns and+1ns")) (positive 0 2);
  same deqb (dp_parse (dpb_build (dpb_call (dpb_call (dpb_call dpb_new B_all_time_units) (B_parse_multiple (Some [(%"and")]))) B_allow_negative)) (%"1ns1ns")) (positive 0 2);
  same deqb (dp_parse (dpb_build (dpb_call (dpb_call (dpb_call dpb_new B_all_time_units) (B_parse_multiple (Some [(%"and")]))) B_allow_negative)) (%"1.123e9ns 1.987e9ns")) (positive 3 110000000);
  same deqb (dp_parse (dpb_build (dpb_call (dpb_call (dpb_call dpb_new B_all_time_units) (B_parse_multiple (Some [(%"and")]))) B_allow_negative)) (%"1.123e9ns and 1.987e9ns")) (positive 3 110000000);
  same deqb (dp_parse (dpb_build (dpb_call (dpb_call (dpb_call dpb_new B_all_time_units) (B_parse_multiple (Some [(%"and")]))) B_allow_negative)) (%"18446744073709551615s 18446744073709551615s")) (Ok MAX);
  same deqb (dp_parse (dpb_build (dpb_call (dpb_call (dpb_call dpb_new B_all_time_units) (B_parse_multiple (Some [(%"and")]))) B_allow_negative)) (%"1ns 1.001Ms1e1ms 9 .9 3m6h")) (positive 21789 910001002);
  same deqb (dp_parse (dpb_build (dpb_call (dpb_call (dpb_call dpb_new B_all_time_units) (B_parse_multiple (Some [(%"and")]))) B_allow_negative)) (%"1ns+1.001Ms-1e1+9-.9+3m6h")) (positive 21778 100001002);
  same deqb (dp_parse (dpb_build (dpb_call (dpb_call (dpb_call dpb_new B_all_time_units) (B_parse_multiple (Some [(%"and")]))) B_allow_negative)) (%"1ns and 1.001Ms and1e1ms and 9 .9 and 3m6h")) (positive 21789 910001002);
  same deqb (dp_parse (dpb_build (dpb_call (dpb_call (dpb_call dpb_new B_all_time_units) (B_parse_multiple (Some [(%"and")]))) B_allow_negative)) (%"inf")) (Ok MAX);
  same deqb (dp_parse (dpb_build (dpb_call (dpb_call (dpb_call dpb_new B_all_time_units) (B_parse_multiple (Some [(%"and")]))) B_allow_negative)) (%"infinity")) (Ok MAX);
  same deqb (dp_parse (dpb_build (dpb_call (dpb_call (dpb_call dpb_new B_all_time_units) (B_parse_multiple (Some [(%"and")]))) B_allow_negative)) (%"inf inf")) (Ok MAX);
  same deqb (dp_parse (dpb_build (dpb_call (dpb_call (dpb_call dpb_new B_all_time_units) (B_parse_multiple (Some [(%"and")]))) B_allow_negative)) (%"infinity infinity")) (Ok MAX);
  same deqb (dp_parse (dpb_build (dpb_call (dpb_call (dpb_call dpb_new B_all_time_units) (B_parse_multiple (Some [(%"and")]))) B_allow_negative)) (%"inf infinity")) (Ok MAX);
  same deqb (dp_parse (dpb_build (dpb_call (dpb_call (dpb_call dpb_new B_all_time_units) (B_parse_multiple (Some [(%"and")]))) B_allow_negative)) (%"infinity inf")) (Ok MAX);
  same deqb (dp_parse (dpb_build (dpb_call (dpb_call (dpb_call dpb_new B_all_time_units) (B_parse_multiple (Some [(%"and")]))) B_allow_negative)) (%"inf and inf")) (Ok MAX);
  same deqb (dp_parse (dpb_build (dpb_call (dpb_call (dpb_call dpb_new B_all_time_units) (B_parse_multiple (Some [(%"and")]))) B_allow_negative)) (%"infinity and infinity")) (Ok MAX)] = true.
Proof. vm_compute. reflexivity. Qed.

(* fundu/tests/parser_test.rs:535: 19 assertions *)
Example test_parser_when_setting_parse_multiple_then_error : all_pass [
  same deqb (dp_parse (dpb_build (dpb_call (dpb_call dpb_new B_all_time_units) (B_parse_multiple (Some [(%"and")])))) (%"")) (Err Empty);
  same deqb (dp_parse (dpb_build (dpb_call (dpb_call dpb_new B_all_time_units) (B_parse_multiple (Some [(%"and")])))) (%"and")) (Err (InvalidInput (%"and")));
  same deqb (dp_parse (dpb_build (dpb_call (dpb_call dpb_new B_all_time_units) (B_parse_multiple (Some [(%"and")])))) [32; 9; 10]) (Err (InvalidInput [32; 9; 10]));
  same deqb (dp_parse (dpb_build (dpb_call (dpb_call dpb_new B_all_time_units) (B_parse_multiple (Some [(%"and")])))) (%".")) (Err (Syntax 0%nat (%"Either the whole number part or the fraction must be present")));
  same deqb (dp_parse (dpb_build (dpb_call (dpb_call dpb_new B_all_time_units) (B_parse_multiple (Some [(%"and")])))) (%"ns")) (Err (InvalidInput (%"ns")));
  same deqb (dp_parse (dpb_build (dpb_call (dpb_call dpb_new B_all_time_units) (B_parse_multiple (Some [(%"and")])))) (%"1 a")) (Err (InvalidInput (%"a")));
  same deqb (dp_parse (dpb_build (dpb_call (dpb_call dpb_new B_all_time_units) (B_parse_multiple (Some [(%"and")])))) (%"1 1 ")) (Err (Syntax 3%nat (%"Input may not end with a delimiter")));
  same deqb (dp_parse (dpb_build (dpb_call (dpb_call dpb_new B_all_time_units) (B_parse_multiple (Some [(%"and")])))) (%"1 and")) (Err (Syntax 2%nat (%"Input may not end with a conjunction but found: 'and'")));
  same deqb (dp_parse (dpb_build (dpb_call (dpb_call dpb_new B_all_time_units) (B_parse_multiple (Some [(%"and")])))) (%"1 anda")) (Err (Syntax 5%nat (%"A conjunction must be separated by a delimiter, sign or digit but found: 'a'")));
  same deqb (dp_parse (dpb_build (dpb_call (dpb_call dpb_new B_all_time_units) (B_parse_multiple (Some [(%"and")])))) (%"1 and ")) (Err (Syntax 5%nat (%"Input may not end with a delimiter")));
  same deqb (dp_parse (dpb_build (dpb_call (dpb_call dpb_new B_all_time_units) (B_parse_multiple (Some [(%"and")])))) (%"1s ")) (Err (Syntax 2%nat (%"Input may not end with a delimiter")));
  same deqb (dp_parse (dpb_build (dpb_call (dpb_call dpb_new B_all_time_units) (B_parse_multiple (Some [(%"and")])))) (%"1 1 and")) (Err (Syntax 4%nat (%"Input may not end with a conjunction but found: 'and'")));
  same deqb (dp_parse (dpb_build (dpb_call (dpb_call dpb_new B_all_time_units) (B_parse_multiple (Some [(%"and")])))) (%"a 1")) (Err (InvalidInput (%"a 1")));
  same deqb (dp_parse (dpb_build (dpb_call (dpb_call dpb_new B_all_time_units) (B_parse_multiple (Some [(%"and")])))) (%"a a")) (Err (InvalidInput (%"a a")));
  same deqb (dp_parse (dpb_build (dpb_call (dpb_call dpb_new B_all_time_units) (B_parse_multiple (Some [(%"and")])))) (%"inf ")) (Err (Syntax 3%nat (%"Input may not end with a delimiter")));
  same deqb (dp_parse (dpb_build (dpb_call (dpb_call dpb_new B_all_time_units) (B_parse_multiple (Some [(%"and")])))) (%"inf and")) (Err (Syntax 4%nat (%"Input may not end with a conjunction but found: 'and'")));
  same deqb (dp_parse (dpb_build (dpb_call (dpb_call dpb_new B_all_time_units) (B_parse_multiple (Some [(%"and")])))) (%"inf1")) (Err (Syntax 3%nat (%"Error parsing infinity: Invalid character '1'")));
  same deqb (dp_parse (dpb_build (dpb_call (dpb_call dpb_new B_all_time_units) (B_parse_multiple (Some [(%"and")])))) (%"infinity1")) (Err (Syntax 8%nat (%"Error parsing infinity: Expected a delimiter but found '1'")));
  same deqb (dp_parse (dpb_build (dpb_call (dpb_call dpb_new B_all_time_units) (B_parse_multiple (Some [(%"and")])))) (%"infi")) (Err (Syntax 0%nat (%"Error parsing infinity: 'infi' is an invalid identifier for infinity")))] = true.
Proof. vm_compute. reflexivity. Qed.

(* fundu/tests/parser_test.rs:549: 2 assertions *)
Example test_parser_when_parse_multiple_number_is_optional_allow_delimiter : all_pass [
  same deqb (dp_parse (dpb_build (dpb_call (dpb_call (dpb_call (dpb_call dpb_new B_all_time_units) (B_parse_multiple (Some [(%"and")]))) B_number_is_optional) B_allow_time_unit_delimiter)) (%"1 ns 1 s")) (positive 1 1);
  same deqb (dp_parse (dpb_build (dpb_call (dpb_call (dpb_call (dpb_call dpb_new B_all_time_units) (B_parse_multiple (Some [(%"and")]))) B_number_is_optional) B_allow_time_unit_delimiter)) (%"1s + 1s")) (Err (InvalidInput (%" 1s")))] = true.
Proof. vm_compute. reflexivity. Qed.

(* fundu/tests/parser_test.rs:582: 7 assertions *)
Example test_parser_when_parse_multiple_with_sign_delimiter : all_pass [
  same deqb (dp_parse (dpb_build (dpb_call (dpb_call (dpb_call (dpb_call (dpb_call dpb_new B_all_time_units) (B_parse_multiple (Some [(%"and")]))) B_allow_time_unit_delimiter) B_allow_sign_delimiter) B_allow_negative)) (%"+")) (Err (Syntax 1%nat (%"Unexpected end of input. Sign without a number")));
  same deqb (dp_parse (dpb_build (dpb_call (dpb_call (dpb_call (dpb_call (dpb_call dpb_new B_all_time_units) (B_parse_multiple (Some [(%"and")]))) B_allow_time_unit_delimiter) B_allow_sign_delimiter) B_allow_negative)) (%"+   ")) (Err (Syntax 1%nat (%"Input may not end with a delimiter")));
  same deqb (dp_parse (dpb_build (dpb_call (dpb_call (dpb_call (dpb_call (dpb_call dpb_new B_all_time_units) (B_parse_multiple (Some [(%"and")]))) B_allow_time_unit_delimiter) B_allow_sign_delimiter) B_allow_negative)) (%"+1")) (positive 1 0);
  same deqb (dp_parse (dpb_build (dpb_call (dpb_call (dpb_call (dpb_call (dpb_call dpb_new B_all_time_units) (B_parse_multiple (Some [(%"and")]))) B_allow_time_unit_delimiter) B_allow_sign_delimiter) B_allow_negative)) (%"+    1")) (positive 1 0);
  same deqb (dp_parse (dpb_build (dpb_call (dpb_call (dpb_call (dpb_call (dpb_call dpb_new B_all_time_units) (B_parse_multiple (Some [(%"and")]))) B_allow_time_unit_delimiter) B_allow_sign_delimiter) B_allow_negative)) (%"+2 - 1")) (positive 1 0);
  same deqb (dp_parse (dpb_build (dpb_call (dpb_call (dpb_call (dpb_call (dpb_call dpb_new B_all_time_units) (B_parse_multiple (Some [(%"and")]))) B_allow_time_unit_delimiter) B_allow_sign_delimiter) B_allow_negative)) (%"+2 - 1 +")) (Err (Syntax 8%nat (%"Unexpected end of input. Sign without a number")));
  same deqb (dp_parse (dpb_build (dpb_call (dpb_call (dpb_call (dpb_call (dpb_call dpb_new B_all_time_units) (B_parse_multiple (Some [(%"and")]))) B_allow_time_unit_delimiter) B_allow_sign_delimiter) B_allow_negative)) (%"+2 - 1 + ")) (Err (Syntax 8%nat (%"Input may not end with a delimiter")))] = true.
Proof. vm_compute. reflexivity. Qed.

(* fundu/tests/parser_test.rs:597: 1 assertions *)
Example test_parser_when_parse_multiple_number_is_optional_not_allow_delimiter : all_pass [
  same deqb (dp_parse (dpb_build (dpb_call (dpb_call (dpb_call dpb_new B_all_time_units) (B_parse_multiple (Some [(%"and")]))) B_number_is_optional)) (%"1 ns 1 s")) (positive 3 1)] = true.
Proof. vm_compute. reflexivity. Qed.

(* fundu/tests/parser_test.rs:660: 4 assertions *)
Example test_parser_when_parse_multiple_without_time_units : all_pass [
  same deqb (cp_parse (cb_build (cb_call (cb_call cb_new (CB_parse_multiple (Some [(%"and")]))) CB_allow_ago)) (%"1 1")) (positive 2 0);
  same deqb (cp_parse (cb_build (cb_call (cb_call cb_new (CB_parse_multiple (Some [(%"and")]))) CB_allow_ago)) (%"1ns 1ns")) (Err (InvalidInput (%"ns 1ns")));
  same deqb (cp_parse (cb_build (cb_call (cb_call cb_new (CB_parse_multiple (Some [(%"and")]))) CB_allow_ago)) (%"1 1ns")) (Err (InvalidInput (%"ns")));
  same deqb (cp_parse (cb_build (cb_call (cb_call cb_new (CB_parse_multiple (Some [(%"and")]))) CB_allow_ago)) (%"1 ago")) (Err (InvalidInput (%"ago")))] = true.
Proof. vm_compute. reflexivity. Qed.

(* fundu/tests/parser_test.rs:672: 1 assertions *)
Example test_parser_when_parse_multiple_without_time_units_default_unit_is_not_seconds : all_pass [
  same deqb (dp_parse (dpb_build (dpb_call (dpb_call dpb_new (B_parse_multiple (Some [(%"and")]))) (B_default_unit NanoSecond))) (%"1 1")) (positive 0 2)] = true.
Proof. vm_compute. reflexivity. Qed.

(* fundu/tests/parser_test.rs:691: 31 assertions *)
Example test_custom_duration_parser_parse_when_systemd_time_units : all_pass [
  same deqb (cp_parse (cp_with_time_units SYSTEMD_TIME_UNITS) (%"1ns")) (positive 0 1);
  same deqb (cp_parse (cp_with_time_units SYSTEMD_TIME_UNITS) (%"1nsec")) (positive 0 1);
  same deqb (cp_parse (cp_with_time_units SYSTEMD_TIME_UNITS) (%"1us")) (positive 0 1000);
  same deqb (cp_parse (cp_with_time_units SYSTEMD_TIME_UNITS) [49; 194; 181; 115]) (positive 0 1000);
  same deqb (cp_parse (cp_with_time_units SYSTEMD_TIME_UNITS) (%"1usec")) (positive 0 1000);
  same deqb (cp_parse (cp_with_time_units SYSTEMD_TIME_UNITS) (%"1ms")) (positive 0 1000000);
  same deqb (cp_parse (cp_with_time_units SYSTEMD_TIME_UNITS) (%"1msec")) (positive 0 1000000);
  same deqb (cp_parse (cp_with_time_units SYSTEMD_TIME_UNITS) (%"1s")) (positive 1 0);
  same deqb (cp_parse (cp_with_time_units SYSTEMD_TIME_UNITS) (%"1sec")) (positive 1 0);
  same deqb (cp_parse (cp_with_time_units SYSTEMD_TIME_UNITS) (%"1second")) (positive 1 0);
  same deqb (cp_parse (cp_with_time_units SYSTEMD_TIME_UNITS) (%"1seconds")) (positive 1 0);
  same deqb (cp_parse (cp_with_time_units SYSTEMD_TIME_UNITS) (%"1m")) (positive 60 0);
  same deqb (cp_parse (cp_with_time_units SYSTEMD_TIME_UNITS) (%"1min")) (positive 60 0);
  same deqb (cp_parse (cp_with_time_units SYSTEMD_TIME_UNITS) (%"1minute")) (positive 60 0);
  same deqb (cp_parse (cp_with_time_units SYSTEMD_TIME_UNITS) (%"1minutes")) (positive 60 0);
  same deqb (cp_parse (cp_with_time_units SYSTEMD_TIME_UNITS) (%"1h")) (positive 3600 0);
  same deqb (cp_parse (cp_with_time_units SYSTEMD_TIME_UNITS) (%"1hr")) (positive 3600 0);
  same deqb (cp_parse (cp_with_time_units SYSTEMD_TIME_UNITS) (%"1hour")) (positive 3600 0);
  same deqb (cp_parse (cp_with_time_units SYSTEMD_TIME_UNITS) (%"1hours")) (positive 3600 0);
  same deqb (cp_parse (cp_with_time_units SYSTEMD_TIME_UNITS) (%"1d")) (positive 86400 0);
  same deqb (cp_parse (cp_with_time_units SYSTEMD_TIME_UNITS) (%"1day")) (positive 86400 0);
  same deqb (cp_parse (cp_with_time_units SYSTEMD_TIME_UNITS) (%"1days")) (positive 86400 0);
  same deqb (cp_parse (cp_with_time_units SYSTEMD_TIME_UNITS) (%"1w")) (positive 604800 0);
  same deqb (cp_parse (cp_with_time_units SYSTEMD_TIME_UNITS) (%"1week")) (positive 604800 0);
  same deqb (cp_parse (cp_with_time_units SYSTEMD_TIME_UNITS) (%"1weeks")) (positive 604800 0);
  same deqb (cp_parse (cp_with_time_units SYSTEMD_TIME_UNITS) (%"1M")) (positive 2629800 0);
  same deqb (cp_parse (cp_with_time_units SYSTEMD_TIME_UNITS) (%"1month")) (positive 2629800 0);
  same deqb (cp_parse (cp_with_time_units SYSTEMD_TIME_UNITS) (%"1months")) (positive 2629800 0);
  same deqb (cp_parse (cp_with_time_units SYSTEMD_TIME_UNITS) (%"1y")) (positive 31557600 0);
  same deqb (cp_parse (cp_with_time_units SYSTEMD_TIME_UNITS) (%"1year")) (positive 31557600 0);
  same deqb (cp_parse (cp_with_time_units SYSTEMD_TIME_UNITS) (%"1years")) (positive 31557600 0)] = true.
Proof. vm_compute. reflexivity. Qed.

(* fundu/tests/parser_test.rs:736: 28 assertions *)
Example test_parse_negative : all_pass [
  same deqb (no_err (dp_parse (dp_set dp_with_all_time_units (Set_allow_negative true)) (%"-0"))) (Ok ZERO);
  same deqb (no_err (dp_parse (dp_set dp_with_all_time_units (Set_allow_negative true)) (%"-0.000000001"))) (negative 0 1);
  same deqb (no_err (dp_parse (dp_set dp_with_all_time_units (Set_allow_negative true)) (%"-0.0000000001"))) (negative 0 0);
  same deqb (no_err (dp_parse (dp_set dp_with_all_time_units (Set_allow_negative true)) (%"+0"))) (Ok ZERO);
  same deqb (no_err (dp_parse (dp_set dp_with_all_time_units (Set_allow_negative true)) (%"0.000000001"))) (positive 0 1);
  same deqb (no_err (dp_parse (dp_set dp_with_all_time_units (Set_allow_negative true)) (%"0.0000000001"))) (Ok ZERO);
  same deqb (no_err (dp_parse (dp_set dp_with_all_time_units (Set_allow_negative true)) (%"0"))) (Ok ZERO);
  same deqb (no_err (dp_parse (dp_set dp_with_all_time_units (Set_allow_negative true)) (%"-1"))) (negative 1 0);
  same deqb (no_err (dp_parse (dp_set dp_with_all_time_units (Set_allow_negative true)) (%"-1.2"))) (negative 1 200000000);
  same deqb (no_err (dp_parse (dp_set dp_with_all_time_units (Set_allow_negative true)) (%"-1e-9"))) (negative 0 1);
  same deqb (no_err (dp_parse (dp_set dp_with_all_time_units (Set_allow_negative true)) (%"-18446744073709551615"))) (negative 18446744073709551615 0);
  same deqb (no_err (dp_parse (dp_set dp_with_all_time_units (Set_allow_negative true)) (%"-18446744073709551615.000000001"))) (negative 18446744073709551615 1);
  same deqb (no_err (dp_parse (dp_set dp_with_all_time_units (Set_allow_negative true)) (%"-18446744073709551615.999999999"))) (Ok MIN);
  same deqb (no_err (dp_parse (dp_set dp_with_all_time_units (Set_allow_negative true)) (%"-18446744073709551615.9999999999"))) (Ok MIN);
  same deqb (no_err (dp_parse (dp_set dp_with_all_time_units (Set_allow_negative true)) (%"-18446744073709551616"))) (Ok MIN);
  same deqb (no_err (dp_parse (dp_set dp_with_all_time_units (Set_allow_negative true)) (%"-1122334455.123456789e-4"))) (negative 112233 445512345);
  same deqb (no_err (dp_parse (dp_set dp_with_all_time_units (Set_allow_negative true)) (%"-1.000000001y"))) (negative 31557600 31557600);
  same deqb (no_err (dp_parse (dp_set dp_with_all_time_units (Set_allow_negative true)) ((%"-") ++ repeat 49 1000 ++ (%".") ++ repeat 49 1000 ++ (%"e1000")))) (Ok MIN);
  same deqb (no_err (dp_parse (dp_set dp_with_all_time_units (Set_allow_negative true)) (%"1"))) (positive 1 0);
  same deqb (no_err (dp_parse (dp_set dp_with_all_time_units (Set_allow_negative true)) (%"18446744073709551615"))) (positive 18446744073709551615 0);
  same deqb (no_err (dp_parse (dp_set dp_with_all_time_units (Set_allow_negative true)) (%"18446744073709551615.000000001"))) (positive 18446744073709551615 1);
  same deqb (no_err (dp_parse (dp_set dp_with_all_time_units (Set_allow_negative true)) (%"18446744073709551615.999999999"))) (Ok MAX);
  same deqb (no_err (dp_parse (dp_set dp_with_all_time_units (Set_allow_negative true)) (%"18446744073709551616"))) (Ok MAX);
  same deqb (no_err (dp_parse (dp_set dp_with_all_time_units (Set_allow_negative true)) (%"18446744073709551616.000000001"))) (Ok MAX);
  same deqb (no_err (dp_parse (dp_set dp_with_all_time_units (Set_allow_negative true)) (%"1122334455.123456789e-4"))) (positive 112233 445512345);
  same deqb (no_err (dp_parse (dp_set dp_with_all_time_units (Set_allow_negative true)) (%"1.000000001y"))) (positive 31557600 31557600);
  same deqb (no_err (dp_parse (dp_set dp_with_all_time_units (Set_allow_negative true)) (repeat 49 1000 ++ (%".") ++ repeat 49 1000 ++ (%"e1000")))) (Ok MAX);
  same deqb (no_err (dp_parse (dp_set dp_with_all_time_units (Set_allow_negative true)) (%"-18446744073709551615y"))) (Ok MIN)] = true.
Proof. vm_compute. reflexivity. Qed.

(* fundu/tests/parser_test.rs:768: 20 assertions *)
Example test_parse_negative_when_multiple : all_pass [
  same deqb (no_err (dp_parse (dpb_build (dpb_call (dpb_call (dpb_call dpb_new B_all_time_units) (B_parse_multiple (Some [(%"and")]))) B_allow_negative)) (%"0"))) (Ok ZERO);
  same deqb (no_err (dp_parse (dpb_build (dpb_call (dpb_call (dpb_call dpb_new B_all_time_units) (B_parse_multiple (Some [(%"and")]))) B_allow_negative)) (%"0 0"))) (Ok ZERO);
  same deqb (no_err (dp_parse (dpb_build (dpb_call (dpb_call (dpb_call dpb_new B_all_time_units) (B_parse_multiple (Some [(%"and")]))) B_allow_negative)) (%"1 1"))) (positive 2 0);
  same deqb (no_err (dp_parse (dpb_build (dpb_call (dpb_call (dpb_call dpb_new B_all_time_units) (B_parse_multiple (Some [(%"and")]))) B_allow_negative)) (%"-1 1"))) (Ok ZERO);
  same deqb (no_err (dp_parse (dpb_build (dpb_call (dpb_call (dpb_call dpb_new B_all_time_units) (B_parse_multiple (Some [(%"and")]))) B_allow_negative)) (%"-1 -1"))) (negative 2 0);
  same deqb (no_err (dp_parse (dpb_build (dpb_call (dpb_call (dpb_call dpb_new B_all_time_units) (B_parse_multiple (Some [(%"and")]))) B_allow_negative)) (%"-1 and -1"))) (negative 2 0);
  same deqb (no_err (dp_parse (dpb_build (dpb_call (dpb_call (dpb_call dpb_new B_all_time_units) (B_parse_multiple (Some [(%"and")]))) B_allow_negative)) (%"-1ns -1s"))) (negative 1 1);
  same deqb (no_err (dp_parse (dpb_build (dpb_call (dpb_call (dpb_call dpb_new B_all_time_units) (B_parse_multiple (Some [(%"and")]))) B_allow_negative)) (%"-1ns and -1s"))) (negative 1 1);
  same deqb (no_err (dp_parse (dpb_build (dpb_call (dpb_call (dpb_call dpb_new B_all_time_units) (B_parse_multiple (Some [(%"and")]))) B_allow_negative)) (%"1ns -1s"))) (negative 0 999999999);
  same deqb (no_err (dp_parse (dpb_build (dpb_call (dpb_call (dpb_call dpb_new B_all_time_units) (B_parse_multiple (Some [(%"and")]))) B_allow_negative)) (%"-1.1ms -1e-9s"))) (negative 0 1100001);
  same deqb (no_err (dp_parse (dpb_build (dpb_call (dpb_call (dpb_call dpb_new B_all_time_units) (B_parse_multiple (Some [(%"and")]))) B_allow_negative)) (%"-18446744073709551615s -1s"))) (Ok MIN);
  same deqb (no_err (dp_parse (dpb_build (dpb_call (dpb_call (dpb_call dpb_new B_all_time_units) (B_parse_multiple (Some [(%"and")]))) B_allow_negative)) (%"18446744073709551615s 1s"))) (Ok MAX);
  same deqb (no_err (dp_parse (dpb_build (dpb_call (dpb_call (dpb_call dpb_new B_all_time_units) (B_parse_multiple (Some [(%"and")]))) B_allow_negative)) (%"-inf"))) (Ok MIN);
  same deqb (no_err (dp_parse (dpb_build (dpb_call (dpb_call (dpb_call dpb_new B_all_time_units) (B_parse_multiple (Some [(%"and")]))) B_allow_negative)) (%"-inf -inf"))) (Ok MIN);
  same deqb (no_err (dp_parse (dpb_build (dpb_call (dpb_call (dpb_call dpb_new B_all_time_units) (B_parse_multiple (Some [(%"and")]))) B_allow_negative)) (%"-infinity"))) (Ok MIN);
  same deqb (no_err (dp_parse (dpb_build (dpb_call (dpb_call (dpb_call dpb_new B_all_time_units) (B_parse_multiple (Some [(%"and")]))) B_allow_negative)) (%"-infinity -infinity"))) (Ok MIN);
  same deqb (no_err (dp_parse (dpb_build (dpb_call (dpb_call (dpb_call dpb_new B_all_time_units) (B_parse_multiple (Some [(%"and")]))) B_allow_negative)) (%"-infinity and -infinity"))) (Ok MIN);
  same deqb (no_err (dp_parse (dpb_build (dpb_call (dpb_call (dpb_call dpb_new B_all_time_units) (B_parse_multiple (Some [(%"and")]))) B_allow_negative)) (%"infinity infinity"))) (Ok MAX);
  same deqb (no_err (dp_parse (dpb_build (dpb_call (dpb_call (dpb_call dpb_new B_all_time_units) (B_parse_multiple (Some [(%"and")]))) B_allow_negative)) (%"-inf +inf"))) (Ok ZERO);
  same deqb (no_err (dp_parse (dpb_build (dpb_call (dpb_call (dpb_call dpb_new B_all_time_units) (B_parse_multiple (Some [(%"and")]))) B_allow_negative)) (%"-inf and +inf"))) (Ok ZERO)] = true.
Proof. vm_compute. reflexivity. Qed.

(* fundu/tests/parser_test.rs:792: 10 assertions *)
Example test_custom_parser_when_disable_infinity_then_no_problems_with_infinity_like_ids : all_pass [
  same deqb (cp_parse (cb_build (cb_call (cb_call (cb_call cb_new CB_disable_infinity) CB_number_is_optional) (CB_time_units [(ctu_with_default NanoSecond [(%"i")])]))) (%"i")) (positive 0 1);
  same deqb (cp_parse (cb_build (cb_call (cb_call (cb_call cb_new CB_disable_infinity) CB_number_is_optional) (CB_time_units [(ctu_with_default NanoSecond [(%"I")])]))) (%"I")) (positive 0 1);
  same deqb (cp_parse (cb_build (cb_call (cb_call (cb_call cb_new CB_disable_infinity) CB_number_is_optional) (CB_time_units [(ctu_with_default NanoSecond [(%"i")])]))) (%"+i")) (positive 0 1);
  same deqb (cp_parse (cb_build (cb_call (cb_call (cb_call cb_new CB_disable_infinity) CB_number_is_optional) (CB_time_units [(ctu_with_default NanoSecond [(%"i")])]))) (%"1i")) (positive 0 1);
  same deqb (cp_parse (cb_build (cb_call (cb_call (cb_call cb_new CB_disable_infinity) CB_number_is_optional) (CB_time_units [(ctu_with_default NanoSecond [(%"i")])]))) (%"1.0i")) (positive 0 1);
  same deqb (cp_parse (cb_build (cb_call (cb_call (cb_call cb_new CB_disable_infinity) CB_number_is_optional) (CB_time_units [(ctu_with_default NanoSecond [(%"i")])]))) (%"1.0e0i")) (positive 0 1);
  same deqb (cp_parse (cb_build (cb_call (cb_call (cb_call cb_new CB_disable_infinity) CB_number_is_optional) (CB_time_units [(ctu_with_default NanoSecond [(%"inf")])]))) (%"inf")) (positive 0 1);
  same deqb (cp_parse (cb_build (cb_call (cb_call (cb_call cb_new CB_disable_infinity) CB_number_is_optional) (CB_time_units [(ctu_with_default NanoSecond [(%"infi")])]))) (%"infi")) (positive 0 1);
  same deqb (cp_parse (cb_build (cb_call (cb_call (cb_call cb_new CB_disable_infinity) CB_number_is_optional) (CB_time_units [(ctu_with_default NanoSecond [(%"infinity")])]))) (%"infinity")) (positive 0 1);
  same deqb (cp_parse (cb_build (cb_call (cb_call (cb_call cb_new CB_disable_infinity) CB_number_is_optional) (CB_time_units [(ctu_with_default NanoSecond [(%"infinity")])]))) (%"1infinity")) (positive 0 1)] = true.
Proof. vm_compute. reflexivity. Qed.

(* fundu/tests/parser_test.rs:816: 10 assertions *)
Example test_custom_parser_when_negative_multiplier : all_pass [
  same deqb (no_err (cp_parse (cb_build (cb_call (cb_call cb_new (CB_time_unit (ctu_ok (ctu_new Second [(%"s")] (Some (Mul (-1) 0)))))) CB_allow_negative)) (%"0s"))) (Ok ZERO);
  same deqb (no_err (cp_parse (cb_build (cb_call (cb_call cb_new (CB_time_unit (ctu_ok (ctu_new Second [(%"s")] (Some (Mul (-1) 0)))))) CB_allow_negative)) (%"-0s"))) (Ok ZERO);
  same deqb (no_err (cp_parse (cb_build (cb_call (cb_call cb_new (CB_time_unit (ctu_ok (ctu_new Second [(%"s")] (Some (Mul (-1) 0)))))) CB_allow_negative)) (%"1s"))) (negative 1 0);
  same deqb (no_err (cp_parse (cb_build (cb_call (cb_call cb_new (CB_time_unit (ctu_ok (ctu_new Second [(%"s")] (Some (Mul (-1) 0)))))) CB_allow_negative)) (%"-1s"))) (positive 1 0);
  same deqb (no_err (cp_parse (cb_build (cb_call (cb_call cb_new (CB_time_unit (ctu_ok (ctu_new Second [(%"s")] (Some (Mul (-1) 0)))))) CB_allow_negative)) (%"2s"))) (negative 2 0);
  same deqb (no_err (cp_parse (cb_build (cb_call (cb_call cb_new (CB_time_unit (ctu_ok (ctu_new Second [(%"s")] (Some (Mul (-1) 0)))))) CB_allow_negative)) (%"-2s"))) (positive 2 0);
  same deqb (no_err (cp_parse (cb_build (cb_call (cb_call cb_new (CB_time_unit (ctu_ok (ctu_new Second [(%"s")] (Some (Mul (-1) 0)))))) CB_allow_negative)) (%"0.1s"))) (negative 0 100000000);
  same deqb (no_err (cp_parse (cb_build (cb_call (cb_call cb_new (CB_time_unit (ctu_ok (ctu_new Second [(%"s")] (Some (Mul (-1) 0)))))) CB_allow_negative)) (%"-0.1s"))) (positive 0 100000000);
  same deqb (no_err (cp_parse (cb_build (cb_call (cb_call cb_new (CB_time_unit (ctu_ok (ctu_new Second [(%"s")] (Some (Mul (-1) 0)))))) CB_allow_negative)) (%"340282366920938463463374607431768211455s"))) (Ok MIN);
  same deqb (no_err (cp_parse (cb_build (cb_call (cb_call cb_new (CB_time_unit (ctu_ok (ctu_new Second [(%"s")] (Some (Mul (-1) 0)))))) CB_allow_negative)) (%"-340282366920938463463374607431768211455s"))) (Ok MAX)] = true.
Proof. vm_compute. reflexivity. Qed.

(* fundu/tests/parser_test.rs:832: 6 assertions *)
Example test_custom_parser_when_multiplier_is_zero : all_pass [
  same deqb (cp_parse (cb_build (cb_call (cb_call cb_new (CB_time_unit (ctu_ok (ctu_new Second [(%"s")] (Some (Mul 0 0)))))) CB_allow_negative)) (%"0s")) (Ok ZERO);
  same deqb (cp_parse (cb_build (cb_call (cb_call cb_new (CB_time_unit (ctu_ok (ctu_new Second [(%"s")] (Some (Mul 0 0)))))) CB_allow_negative)) (%"-0s")) (Ok ZERO);
  same deqb (cp_parse (cb_build (cb_call (cb_call cb_new (CB_time_unit (ctu_ok (ctu_new Second [(%"s")] (Some (Mul 0 0)))))) CB_allow_negative)) (%"1s")) (Ok ZERO);
  same deqb (cp_parse (cb_build (cb_call (cb_call cb_new (CB_time_unit (ctu_ok (ctu_new Second [(%"s")] (Some (Mul 0 0)))))) CB_allow_negative)) (%"1234567.89s")) (Ok ZERO);
  same deqb (cp_parse (cb_build (cb_call (cb_call cb_new (CB_time_unit (ctu_ok (ctu_new Second [(%"s")] (Some (Mul 0 0)))))) CB_allow_negative)) (%"18446744073709551615s")) (Ok ZERO);
  same deqb (cp_parse (cb_build (cb_call (cb_call cb_new (CB_time_unit (ctu_ok (ctu_new Second [(%"s")] (Some (Mul 0 0)))))) CB_allow_negative)) (%"-18446744073709551615s")) (Ok ZERO)] = true.
Proof. vm_compute. reflexivity. Qed.

(* fundu/tests/parser_test.rs:848: 7 assertions *)
Example test_custom_parser_with_keywords : all_pass [
  same deqb (no_err (cp_parse (cb_build (cb_call (cb_call (cb_call (cb_call (cb_call cb_new (CB_keyword (CTU Day (Mul (-1) 0) [(%"yesterday")]))) (CB_keyword (CTU Day (Mul 1 0) [(%"tomorrow")]))) (CB_keyword (CTU Day (Mul 0 0) [(%"today")]))) (CB_time_units [(ctu_with_default NanoSecond [(%"ns")]); (ctu_with_default Second [(%"s"); (%"second")])])) CB_allow_negative)) (%"yesterday"))) (negative 86400 0);
  same deqb (no_err (cp_parse (cb_build (cb_call (cb_call (cb_call (cb_call (cb_call cb_new (CB_keyword (CTU Day (Mul (-1) 0) [(%"yesterday")]))) (CB_keyword (CTU Day (Mul 1 0) [(%"tomorrow")]))) (CB_keyword (CTU Day (Mul 0 0) [(%"today")]))) (CB_time_units [(ctu_with_default NanoSecond [(%"ns")]); (ctu_with_default Second [(%"s"); (%"second")])])) CB_allow_negative)) (%"-yesterday"))) (positive 86400 0);
  same deqb (no_err (cp_parse (cb_build (cb_call (cb_call (cb_call (cb_call (cb_call cb_new (CB_keyword (CTU Day (Mul (-1) 0) [(%"yesterday")]))) (CB_keyword (CTU Day (Mul 1 0) [(%"tomorrow")]))) (CB_keyword (CTU Day (Mul 0 0) [(%"today")]))) (CB_time_units [(ctu_with_default NanoSecond [(%"ns")]); (ctu_with_default Second [(%"s"); (%"second")])])) CB_allow_negative)) (%"+yesterday"))) (negative 86400 0);
  same deqb (no_err (cp_parse (cb_build (cb_call (cb_call (cb_call (cb_call (cb_call cb_new (CB_keyword (CTU Day (Mul (-1) 0) [(%"yesterday")]))) (CB_keyword (CTU Day (Mul 1 0) [(%"tomorrow")]))) (CB_keyword (CTU Day (Mul 0 0) [(%"today")]))) (CB_time_units [(ctu_with_default NanoSecond [(%"ns")]); (ctu_with_default Second [(%"s"); (%"second")])])) CB_allow_negative)) (%"tomorrow"))) (positive 86400 0);
  same deqb (no_err (cp_parse (cb_build (cb_call (cb_call (cb_call (cb_call (cb_call cb_new (CB_keyword (CTU Day (Mul (-1) 0) [(%"yesterday")]))) (CB_keyword (CTU Day (Mul 1 0) [(%"tomorrow")]))) (CB_keyword (CTU Day (Mul 0 0) [(%"today")]))) (CB_time_units [(ctu_with_default NanoSecond [(%"ns")]); (ctu_with_default Second [(%"s"); (%"second")])])) CB_allow_negative)) (%"-tomorrow"))) (negative 86400 0);
  same deqb (no_err (cp_parse (cb_build (cb_call (cb_call (cb_call (cb_call (cb_call cb_new (CB_keyword (CTU Day (Mul (-1) 0) [(%"yesterday")]))) (CB_keyword (CTU Day (Mul 1 0) [(%"tomorrow")]))) (CB_keyword (CTU Day (Mul 0 0) [(%"today")]))) (CB_time_units [(ctu_with_default NanoSecond [(%"ns")]); (ctu_with_default Second [(%"s"); (%"second")])])) CB_allow_negative)) (%"today"))) (Ok ZERO);
  same deqb (no_err (cp_parse (cb_build (cb_call (cb_call (cb_call (cb_call (cb_call cb_new (CB_keyword (CTU Day (Mul (-1) 0) [(%"yesterday")]))) (CB_keyword (CTU Day (Mul 1 0) [(%"tomorrow")]))) (CB_keyword (CTU Day (Mul 0 0) [(%"today")]))) (CB_time_units [(ctu_with_default NanoSecond [(%"ns")]); (ctu_with_default Second [(%"s"); (%"second")])])) CB_allow_negative)) (%"-today"))) (Ok ZERO)] = true.
Proof. vm_compute. reflexivity. Qed.

(* fundu/tests/parser_test.rs:873: 5 assertions *)
Example test_custom_parser_with_keywords_then_error : all_pass [
  same deqb (cp_parse (cb_build (cb_call (cb_call cb_new (CB_keyword (CTU Day (Mul 1 0) [(%"tomorrow")]))) (CB_time_units [(ctu_with_default NanoSecond [(%"ns")]); (ctu_with_default Second [(%"s"); (%"second")])]))) (%" tomorrow")) (Err (InvalidInput (%" tomorrow")));
  same deqb (cp_parse (cb_build (cb_call (cb_call cb_new (CB_keyword (CTU Day (Mul 1 0) [(%"tomorrow")]))) (CB_time_units [(ctu_with_default NanoSecond [(%"ns")]); (ctu_with_default Second [(%"s"); (%"second")])]))) (%"tomorrow ")) (Err (InvalidInput (%"tomorrow ")));
  same deqb (cp_parse (cb_build (cb_call (cb_call cb_new (CB_keyword (CTU Day (Mul 1 0) [(%"tomorrow")]))) (CB_time_units [(ctu_with_default NanoSecond [(%"ns")]); (ctu_with_default Second [(%"s"); (%"second")])]))) (%"tomorro")) (Err (InvalidInput (%"tomorro")));
  same deqb (cp_parse (cb_build (cb_call (cb_call cb_new (CB_keyword (CTU Day (Mul 1 0) [(%"tomorrow")]))) (CB_time_units [(ctu_with_default NanoSecond [(%"ns")]); (ctu_with_default Second [(%"s"); (%"second")])]))) (%"1tomorrow")) (Err (TimeUnitErr 1%nat (%"Invalid time unit: 'tomorrow'")));
  same deqb (cp_parse (cb_build (cb_call (cb_call cb_new (CB_keyword (CTU Day (Mul 1 0) [(%"tomorrow")]))) (CB_time_units [(ctu_with_default NanoSecond [(%"ns")]); (ctu_with_default Second [(%"s"); (%"second")])]))) (%"1 tomorrow")) (Err (TimeUnitErr 1%nat (%"Invalid time unit: ' tomorrow'")))] = true.
Proof. vm_compute. reflexivity. Qed.

(* fundu/tests/parser_test.rs:894: 9 assertions *)
Example test_custom_parser_with_keywords_when_parse_multiple : all_pass [
  same deqb (cp_parse (cb_build (cb_call (cb_call (cb_call (cb_call (cb_call cb_new (CB_keyword (CTU Day (Mul (-1) 0) [(%"yesterday")]))) (CB_keyword (CTU Day (Mul 1 0) [(%"tomorrow")]))) (CB_time_units [(ctu_with_default NanoSecond [(%"ns")]); (ctu_with_default Second [(%"s"); (%"second")])])) (CB_parse_multiple (Some [(%"and")]))) CB_allow_negative)) (%"tomorrow")) (positive 86400 0);
  same deqb (cp_parse (cb_build (cb_call (cb_call (cb_call (cb_call (cb_call cb_new (CB_keyword (CTU Day (Mul (-1) 0) [(%"yesterday")]))) (CB_keyword (CTU Day (Mul 1 0) [(%"tomorrow")]))) (CB_time_units [(ctu_with_default NanoSecond [(%"ns")]); (ctu_with_default Second [(%"s"); (%"second")])])) (CB_parse_multiple (Some [(%"and")]))) CB_allow_negative)) (%"tomorrow1.1")) (positive 86401 100000000);
  same deqb (cp_parse (cb_build (cb_call (cb_call (cb_call (cb_call (cb_call cb_new (CB_keyword (CTU Day (Mul (-1) 0) [(%"yesterday")]))) (CB_keyword (CTU Day (Mul 1 0) [(%"tomorrow")]))) (CB_time_units [(ctu_with_default NanoSecond [(%"ns")]); (ctu_with_default Second [(%"s"); (%"second")])])) (CB_parse_multiple (Some [(%"and")]))) CB_allow_negative)) (%"tomorrow tomorrow")) (positive 172800 0);
  same deqb (cp_parse (cb_build (cb_call (cb_call (cb_call (cb_call (cb_call cb_new (CB_keyword (CTU Day (Mul (-1) 0) [(%"yesterday")]))) (CB_keyword (CTU Day (Mul 1 0) [(%"tomorrow")]))) (CB_time_units [(ctu_with_default NanoSecond [(%"ns")]); (ctu_with_default Second [(%"s"); (%"second")])])) (CB_parse_multiple (Some [(%"and")]))) CB_allow_negative)) (%"yesterday tomorrow")) (Ok ZERO);
  same deqb (cp_parse (cb_build (cb_call (cb_call (cb_call (cb_call (cb_call cb_new (CB_keyword (CTU Day (Mul (-1) 0) [(%"yesterday")]))) (CB_keyword (CTU Day (Mul 1 0) [(%"tomorrow")]))) (CB_time_units [(ctu_with_default NanoSecond [(%"ns")]); (ctu_with_default Second [(%"s"); (%"second")])])) (CB_parse_multiple (Some [(%"and")]))) CB_allow_negative)) (%"1 tomorrow")) (positive 86401 0);
  same deqb (cp_parse (cb_build (cb_call (cb_call (cb_call (cb_call (cb_call cb_new (CB_keyword (CTU Day (Mul (-1) 0) [(%"yesterday")]))) (CB_keyword (CTU Day (Mul 1 0) [(%"tomorrow")]))) (CB_time_units [(ctu_with_default NanoSecond [(%"ns")]); (ctu_with_default Second [(%"s"); (%"second")])])) (CB_parse_multiple (Some [(%"and")]))) CB_allow_negative)) (%".1 tomorrow")) (positive 86400 100000000);
  same deqb (cp_parse (cb_build (cb_call (cb_call (cb_call (cb_call (cb_call cb_new (CB_keyword (CTU Day (Mul (-1) 0) [(%"yesterday")]))) (CB_keyword (CTU Day (Mul 1 0) [(%"tomorrow")]))) (CB_time_units [(ctu_with_default NanoSecond [(%"ns")]); (ctu_with_default Second [(%"s"); (%"second")])])) (CB_parse_multiple (Some [(%"and")]))) CB_allow_negative)) (%".1 and tomorrow")) (positive 86400 100000000);
  same deqb (cp_parse (cb_build (cb_call (cb_call (cb_call (cb_call (cb_call cb_new (CB_keyword (CTU Day (Mul (-1) 0) [(%"yesterday")]))) (CB_keyword (CTU Day (Mul 1 0) [(%"tomorrow")]))) (CB_time_units [(ctu_with_default NanoSecond [(%"ns")]); (ctu_with_default Second [(%"s"); (%"second")])])) (CB_parse_multiple (Some [(%"and")]))) CB_allow_negative)) (%"tomorrow and .1")) (positive 86400 100000000);
  same deqb (cp_parse (cb_build (cb_call (cb_call (cb_call (cb_call (cb_call cb_new (CB_keyword (CTU Day (Mul (-1) 0) [(%"yesterday")]))) (CB_keyword (CTU Day (Mul 1 0) [(%"tomorrow")]))) (CB_time_units [(ctu_with_default NanoSecond [(%"ns")]); (ctu_with_default Second [(%"s"); (%"second")])])) (CB_parse_multiple (Some [(%"and")]))) CB_allow_negative)) (%"tomorrow and1.1")) (positive 86401 100000000)] = true.
Proof. vm_compute. reflexivity. Qed.

(* fundu/tests/parser_test.rs:925: 9 assertions *)
Example test_custom_parser_with_keywords_when_parse_multiple_and_number_is_optional : all_pass [
  same deqb (cp_parse (cb_build (cb_call (cb_call (cb_call (cb_call cb_new (CB_keyword (CTU Day (Mul 1 0) [(%"tomorrow")]))) (CB_time_units [(ctu_with_default NanoSecond [(%"ns")]); (ctu_with_default Second [(%"s"); (%"second")])])) (CB_parse_multiple (Some [(%"and")]))) CB_number_is_optional)) (%"ns")) (positive 0 1);
  same deqb (cp_parse (cb_build (cb_call (cb_call (cb_call (cb_call cb_new (CB_keyword (CTU Day (Mul 1 0) [(%"tomorrow")]))) (CB_time_units [(ctu_with_default NanoSecond [(%"ns")]); (ctu_with_default Second [(%"s"); (%"second")])])) (CB_parse_multiple (Some [(%"and")]))) CB_number_is_optional)) (%"ns ns")) (positive 0 2);
  same deqb (cp_parse (cb_build (cb_call (cb_call (cb_call (cb_call cb_new (CB_keyword (CTU Day (Mul 1 0) [(%"tomorrow")]))) (CB_time_units [(ctu_with_default NanoSecond [(%"ns")]); (ctu_with_default Second [(%"s"); (%"second")])])) (CB_parse_multiple (Some [(%"and")]))) CB_number_is_optional)) (%"ns and ns")) (positive 0 2);
  same deqb (cp_parse (cb_build (cb_call (cb_call (cb_call (cb_call cb_new (CB_keyword (CTU Day (Mul 1 0) [(%"tomorrow")]))) (CB_time_units [(ctu_with_default NanoSecond [(%"ns")]); (ctu_with_default Second [(%"s"); (%"second")])])) (CB_parse_multiple (Some [(%"and")]))) CB_number_is_optional)) (%"tomorrow ns")) (positive 86400 1);
  same deqb (cp_parse (cb_build (cb_call (cb_call (cb_call (cb_call cb_new (CB_keyword (CTU Day (Mul 1 0) [(%"tomorrow")]))) (CB_time_units [(ctu_with_default NanoSecond [(%"ns")]); (ctu_with_default Second [(%"s"); (%"second")])])) (CB_parse_multiple (Some [(%"and")]))) CB_number_is_optional)) (%"tomorrow and ns")) (positive 86400 1);
  same deqb (cp_parse (cb_build (cb_call (cb_call (cb_call (cb_call cb_new (CB_keyword (CTU Day (Mul 1 0) [(%"tomorrow")]))) (CB_time_units [(ctu_with_default NanoSecond [(%"ns")]); (ctu_with_default Second [(%"s"); (%"second")])])) (CB_parse_multiple (Some [(%"and")]))) CB_number_is_optional)) (%"ns tomorrow")) (positive 86400 1);
  same deqb (cp_parse (cb_build (cb_call (cb_call (cb_call (cb_call cb_new (CB_keyword (CTU Day (Mul 1 0) [(%"tomorrow")]))) (CB_time_units [(ctu_with_default NanoSecond [(%"ns")]); (ctu_with_default Second [(%"s"); (%"second")])])) (CB_parse_multiple (Some [(%"and")]))) CB_number_is_optional)) (%"ns and tomorrow")) (positive 86400 1);
  same deqb (cp_parse (cb_build (cb_call (cb_call (cb_call (cb_call cb_new (CB_keyword (CTU Day (Mul 1 0) [(%"tomorrow")]))) (CB_time_units [(ctu_with_default NanoSecond [(%"ns")]); (ctu_with_default Second [(%"s"); (%"second")])])) (CB_parse_multiple (Some [(%"and")]))) CB_number_is_optional)) (%"1 tomorrow ns")) (positive 86401 1);
  same deqb (cp_parse (cb_build (cb_call (cb_call (cb_call (cb_call cb_new (CB_keyword (CTU Day (Mul 1 0) [(%"tomorrow")]))) (CB_time_units [(ctu_with_default NanoSecond [(%"ns")]); (ctu_with_default Second [(%"s"); (%"second")])])) (CB_parse_multiple (Some [(%"and")]))) CB_number_is_optional)) (%"1 and tomorrow and ns")) (positive 86401 1)] = true.
Proof. vm_compute. reflexivity. Qed.

(* fundu/tests/parser_test.rs:959: 11 assertions *)
Example test_custom_parser_multiplier_when_number_is_optional_and_time_unit_without_number : all_pass [
  same deqb (cp_parse (cb_build (cb_call (cb_call (cb_call cb_new (CB_time_unit (ctu_ok (ctu_new Second [(%"my")] (Some (Mul 0 0)))))) CB_number_is_optional) CB_allow_negative)) (%"my")) (Ok ZERO);
  same deqb (cp_parse (cb_build (cb_call (cb_call (cb_call cb_new (CB_time_unit (ctu_ok (ctu_new Second [(%"my")] (Some (Mul 1 32767)))))) CB_number_is_optional) CB_allow_negative)) (%"my")) (Ok MAX);
  same deqb (cp_parse (cb_build (cb_call (cb_call (cb_call cb_new (CB_time_unit (ctu_ok (ctu_new Second [(%"my")] (Some (Mul 1 (-32768))))))) CB_number_is_optional) CB_allow_negative)) (%"my")) (Ok ZERO);
  same deqb (cp_parse (cb_build (cb_call (cb_call (cb_call cb_new (CB_time_unit (ctu_ok (ctu_new Second [(%"my")] (Some (Mul 1 19)))))) CB_number_is_optional) CB_allow_negative)) (%"my")) (positive 10000000000000000000 0);
  same deqb (cp_parse (cb_build (cb_call (cb_call (cb_call cb_new (CB_time_unit (ctu_ok (ctu_new Second [(%"my")] (Some (Mul 1 (-19))))))) CB_number_is_optional) CB_allow_negative)) (%"my")) (Ok ZERO);
  same deqb (cp_parse (cb_build (cb_call (cb_call (cb_call cb_new (CB_time_unit (ctu_ok (ctu_new Second [(%"my")] (Some (Mul 1 (-10))))))) CB_number_is_optional) CB_allow_negative)) (%"my")) (Ok ZERO);
  same deqb (cp_parse (cb_build (cb_call (cb_call (cb_call cb_new (CB_time_unit (ctu_ok (ctu_new Second [(%"my")] (Some (Mul 1 20)))))) CB_number_is_optional) CB_allow_negative)) (%"my")) (Ok MAX);
  same deqb (cp_parse (cb_build (cb_call (cb_call (cb_call cb_new (CB_time_unit (ctu_ok (ctu_new Second [(%"my")] (Some (Mul (-1) 20)))))) CB_number_is_optional) CB_allow_negative)) (%"my")) (Ok MIN);
  same deqb (cp_parse (cb_build (cb_call (cb_call (cb_call cb_new (CB_time_unit (ctu_ok (ctu_new Second [(%"my")] (Some (Mul 1 (-18))))))) CB_number_is_optional) CB_allow_negative)) (%"my")) (Ok ZERO);
  same deqb (cp_parse (cb_build (cb_call (cb_call (cb_call cb_new (CB_time_unit (ctu_ok (ctu_new Second [(%"my")] (Some (Mul 1234567 8)))))) CB_number_is_optional) CB_allow_negative)) (%"my")) (positive 123456700000000 0);
  same deqb (cp_parse (cb_build (cb_call (cb_call (cb_call cb_new (CB_time_unit (ctu_ok (ctu_new Second [(%"my")] (Some (Mul (-1234567) 8)))))) CB_number_is_optional) CB_allow_negative)) (%"my")) (negative 123456700000000 0)] = true.
Proof. vm_compute. reflexivity. Qed.

(* fundu/tests/parser_test.rs:973: 1 assertions *)
Example test_custom_parser_with_negative_keyword_when_not_allow_negative_then_error : all_pass [
  same deqb (cp_parse (cb_build (cb_call cb_new (CB_keyword (CTU Day (Mul (-1) 0) [(%"yesterday")])))) (%"yesterday")) (Err NegativeNumber)] = true.
Proof. vm_compute. reflexivity. Qed.

(* fundu/tests/parser_test.rs:993: 8 assertions *)
Example test_custom_parser_with_allow_ago : all_pass [
  same deqb (cp_parse (cb_build (cb_call (cb_call (cb_call (cb_call cb_new (CB_time_units SYSTEMD_TIME_UNITS)) CB_allow_time_unit_delimiter) CB_allow_ago) CB_allow_negative)) (%"1")) (positive 1 0);
  same deqb (cp_parse (cb_build (cb_call (cb_call (cb_call (cb_call cb_new (CB_time_units SYSTEMD_TIME_UNITS)) CB_allow_time_unit_delimiter) CB_allow_ago) CB_allow_negative)) (%"1s")) (positive 1 0);
  same deqb (cp_parse (cb_build (cb_call (cb_call (cb_call (cb_call cb_new (CB_time_units SYSTEMD_TIME_UNITS)) CB_allow_time_unit_delimiter) CB_allow_ago) CB_allow_negative)) (%"1s ago")) (negative 1 0);
  same deqb (cp_parse (cb_build (cb_call (cb_call (cb_call (cb_call cb_new (CB_time_units SYSTEMD_TIME_UNITS)) CB_allow_time_unit_delimiter) CB_allow_ago) CB_allow_negative)) (%"1s AGO")) (negative 1 0);
  same deqb (cp_parse (cb_build (cb_call (cb_call (cb_call (cb_call cb_new (CB_time_units SYSTEMD_TIME_UNITS)) CB_allow_time_unit_delimiter) CB_allow_ago) CB_allow_negative)) (%"1s aGO")) (negative 1 0);
  same deqb (cp_parse (cb_build (cb_call (cb_call (cb_call (cb_call cb_new (CB_time_units SYSTEMD_TIME_UNITS)) CB_allow_time_unit_delimiter) CB_allow_ago) CB_allow_negative)) (%"-1s ago")) (positive 1 0);
  same deqb (cp_parse (cb_build (cb_call (cb_call (cb_call (cb_call cb_new (CB_time_units SYSTEMD_TIME_UNITS)) CB_allow_time_unit_delimiter) CB_allow_ago) CB_allow_negative)) (%"1day ago")) (negative 86400 0);
  same deqb (cp_parse (cb_build (cb_call (cb_call (cb_call (cb_call cb_new (CB_time_units SYSTEMD_TIME_UNITS)) CB_allow_time_unit_delimiter) CB_allow_ago) CB_allow_negative)) (%"1 s ago")) (negative 1 0)] = true.
Proof. vm_compute. reflexivity. Qed.

(* fundu/tests/parser_test.rs:1009: 4 assertions *)
Example test_custom_parser_with_allow_ago_then_error : all_pass [
  same deqb (cp_parse (cb_build (cb_call (cb_call (cb_call (cb_call cb_new (CB_time_units SYSTEMD_TIME_UNITS)) CB_allow_time_unit_delimiter) CB_allow_ago) CB_allow_negative)) (%"1 ago")) (Err (TimeUnitErr 2%nat (%"Invalid time unit: 'ago'")));
  same deqb (cp_parse (cb_build (cb_call (cb_call (cb_call (cb_call cb_new (CB_time_units SYSTEMD_TIME_UNITS)) CB_allow_time_unit_delimiter) CB_allow_ago) CB_allow_negative)) (%"ago")) (Err (InvalidInput (%"ago")));
  same deqb (cp_parse (cb_build (cb_call (cb_call (cb_call (cb_call cb_new (CB_time_units SYSTEMD_TIME_UNITS)) CB_allow_time_unit_delimiter) CB_allow_ago) CB_allow_negative)) (%"1s ag")) (Err (TimeUnitErr 1%nat (%"Invalid time unit: 's ag'")));
  same deqb (cp_parse (cb_build (cb_call (cb_call (cb_call (cb_call cb_new (CB_time_units SYSTEMD_TIME_UNITS)) CB_allow_time_unit_delimiter) CB_allow_ago) CB_allow_negative)) (%"1s 1s")) (Err (TimeUnitErr 1%nat (%"Invalid time unit: 's 1s'")))] = true.
Proof. vm_compute. reflexivity. Qed.

(* fundu/tests/parser_test.rs:1049: 11 assertions *)
Example test_custom_parser_with_allow_ago_when_parse_multiple : all_pass [
  same deqb (cp_parse (cb_build (cb_call (cb_call (cb_call (cb_call (cb_call cb_new (CB_time_units SYSTEMD_TIME_UNITS)) CB_allow_time_unit_delimiter) CB_allow_ago) CB_allow_negative) (CB_parse_multiple (Some [(%"and")])))) (%"1s")) (positive 1 0);
  same deqb (cp_parse (cb_build (cb_call (cb_call (cb_call (cb_call (cb_call cb_new (CB_time_units SYSTEMD_TIME_UNITS)) CB_allow_time_unit_delimiter) CB_allow_ago) CB_allow_negative) (CB_parse_multiple (Some [(%"and")])))) (%"1s ago")) (negative 1 0);
  same deqb (cp_parse (cb_build (cb_call (cb_call (cb_call (cb_call (cb_call cb_new (CB_time_units SYSTEMD_TIME_UNITS)) CB_allow_time_unit_delimiter) CB_allow_ago) CB_allow_negative) (CB_parse_multiple (Some [(%"and")])))) (%"1s ago 1s ago")) (negative 2 0);
  same deqb (cp_parse (cb_build (cb_call (cb_call (cb_call (cb_call (cb_call cb_new (CB_time_units SYSTEMD_TIME_UNITS)) CB_allow_time_unit_delimiter) CB_allow_ago) CB_allow_negative) (CB_parse_multiple (Some [(%"and")])))) (%"1s ago 1day ago")) (negative 86401 0);
  same deqb (cp_parse (cb_build (cb_call (cb_call (cb_call (cb_call (cb_call cb_new (CB_time_units SYSTEMD_TIME_UNITS)) CB_allow_time_unit_delimiter) CB_allow_ago) CB_allow_negative) (CB_parse_multiple (Some [(%"and")])))) (%"1s ago1s ago")) (negative 2 0);
  same deqb (cp_parse (cb_build (cb_call (cb_call (cb_call (cb_call (cb_call cb_new (CB_time_units SYSTEMD_TIME_UNITS)) CB_allow_time_unit_delimiter) CB_allow_ago) CB_allow_negative) (CB_parse_multiple (Some [(%"and")])))) (%"1 s ago 1 day ago")) (negative 86401 0);
  same deqb (cp_parse (cb_build (cb_call (cb_call (cb_call (cb_call (cb_call cb_new (CB_time_units SYSTEMD_TIME_UNITS)) CB_allow_time_unit_delimiter) CB_allow_ago) CB_allow_negative) (CB_parse_multiple (Some [(%"and")])))) (%"1 s ago and 1 day ago")) (negative 86401 0);
  same deqb (cp_parse (cb_build (cb_call (cb_call (cb_call (cb_call (cb_call cb_new (CB_time_units SYSTEMD_TIME_UNITS)) CB_allow_time_unit_delimiter) CB_allow_ago) CB_allow_negative) (CB_parse_multiple (Some [(%"and")])))) (%"1 s and 1 day ago")) (negative 86399 0);
  same deqb (cp_parse (cb_build (cb_call (cb_call (cb_call (cb_call (cb_call cb_new (CB_time_units SYSTEMD_TIME_UNITS)) CB_allow_time_unit_delimiter) CB_allow_ago) CB_allow_negative) (CB_parse_multiple (Some [(%"and")])))) (%"1 s 1 day ago")) (negative 86399 0);
  same deqb (cp_parse (cb_build (cb_call (cb_call (cb_call (cb_call (cb_call cb_new (CB_time_units SYSTEMD_TIME_UNITS)) CB_allow_time_unit_delimiter) CB_allow_ago) CB_allow_negative) (CB_parse_multiple (Some [(%"and")])))) (%"1s ago 1 day")) (positive 86399 0);
  same deqb (cp_parse (cb_build (cb_call (cb_call (cb_call (cb_call (cb_call cb_new (CB_time_units SYSTEMD_TIME_UNITS)) CB_allow_time_unit_delimiter) CB_allow_ago) CB_allow_negative) (CB_parse_multiple (Some [(%"and")])))) (%"1s ago and 1 day")) (positive 86399 0)] = true.
Proof. vm_compute. reflexivity. Qed.

(* fundu-core/tests/test_parsing_numerals.rs:99: 6 assertions *)
Example test_parse_with_numerals : all_pass [
  same deqb (parse (set_inner_delimiter (set_allow_time_unit_delimiter config_new true) (fun b => b =? 32)) (%"next second") two_time_units (Some tomorrow_keyword) (Some two_numerals)) (positive 1 0);
  same deqb (parse (set_inner_delimiter (set_allow_time_unit_delimiter config_new true) (fun b => b =? 32)) (%"three second") two_time_units (Some tomorrow_keyword) (Some two_numerals)) (positive 3 0);
  same deqb (parse (set_inner_delimiter (set_allow_time_unit_delimiter config_new true) (fun b => b =? 32)) (%"next minute") two_time_units (Some tomorrow_keyword) (Some two_numerals)) (positive 60 0);
  same deqb (parse (set_inner_delimiter (set_allow_time_unit_delimiter config_new true) (fun b => b =? 32)) (%"three minute") two_time_units (Some tomorrow_keyword) (Some two_numerals)) (positive 180 0);
  same deqb (parse (set_inner_delimiter (set_allow_time_unit_delimiter config_new true) (fun b => b =? 32)) (%"next        second") two_time_units (Some tomorrow_keyword) (Some two_numerals)) (positive 1 0);
  same deqb (parse (set_inner_delimiter (set_allow_time_unit_delimiter config_new true) (fun b => b =? 32)) (%"tomorrow") two_time_units (Some tomorrow_keyword) (Some two_numerals)) (positive 86400 0)] = true.
Proof. vm_compute. reflexivity. Qed.

(* fundu-core/tests/test_parsing_numerals.rs:128: 4 assertions *)
Example test_parse_with_numerals_when_sign_is_present : all_pass [
  same deqb (parse (set_allow_negative (set_inner_delimiter (set_allow_sign_delimiter (set_allow_negative (set_allow_ago_only (set_allow_time_unit_delimiter config_new true) true) true) true) (fun b => b =? 32)) true) (%"+next second") two_time_units (Some tomorrow_keyword) (Some two_numerals)) (positive 1 0);
  same deqb (parse (set_allow_negative (set_inner_delimiter (set_allow_sign_delimiter (set_allow_negative (set_allow_ago_only (set_allow_time_unit_delimiter config_new true) true) true) true) (fun b => b =? 32)) true) (%"+ next second") two_time_units (Some tomorrow_keyword) (Some two_numerals)) (positive 1 0);
  same deqb (parse (set_allow_negative (set_inner_delimiter (set_allow_sign_delimiter (set_allow_negative (set_allow_ago_only (set_allow_time_unit_delimiter config_new true) true) true) true) (fun b => b =? 32)) true) (%"-next second") two_time_units (Some tomorrow_keyword) (Some two_numerals)) (negative 1 0);
  same deqb (parse (set_allow_negative (set_inner_delimiter (set_allow_sign_delimiter (set_allow_negative (set_allow_ago_only (set_allow_time_unit_delimiter config_new true) true) true) true) (fun b => b =? 32)) true) (%"- next second") two_time_units (Some tomorrow_keyword) (Some two_numerals)) (negative 1 0)] = true.
Proof. vm_compute. reflexivity. Qed.

(* fundu-core/tests/test_parsing_numerals.rs:158: 2 assertions *)
Example test_parse_with_numerals_when_number_is_optional : all_pass [
  same deqb (parse (set_number_is_optional config_new true) (%"second") two_time_units (Some tomorrow_keyword) (Some two_numerals)) (positive 1 0);
  same deqb (parse (set_number_is_optional config_new true) (%"tomorrow") two_time_units (Some tomorrow_keyword) (Some two_numerals)) (positive 86400 0)] = true.
Proof. vm_compute. reflexivity. Qed.

(* fundu-core/tests/test_parsing_numerals.rs:186: 7 assertions *)
Example test_parse_with_numerals_when_invalid : all_pass [
  same deqb (parse (set_inner_delimiter (set_allow_time_unit_delimiter config_new true) (fun b => b =? 32)) (%"nextsecond") two_time_units (Some tomorrow_keyword) (Some two_numerals)) (Err (InvalidInput (%"nextsecond")));
  same deqb (parse (set_inner_delimiter (set_allow_time_unit_delimiter config_new true) (fun b => b =? 32)) [110; 101; 120; 116; 10; 115; 101; 99; 111; 110; 100] two_time_units (Some tomorrow_keyword) (Some two_numerals)) (Err (InvalidInput [110; 101; 120; 116; 10; 115; 101; 99; 111; 110; 100]));
  same deqb (parse (set_inner_delimiter (set_allow_time_unit_delimiter config_new true) (fun b => b =? 32)) (%"nex second") two_time_units (Some tomorrow_keyword) (Some two_numerals)) (Err (InvalidInput (%"nex second")));
  same deqb (parse (set_inner_delimiter (set_allow_time_unit_delimiter config_new true) (fun b => b =? 32)) (%"next") two_time_units (Some tomorrow_keyword) (Some two_numerals)) (Err (InvalidInput (%"next")));
  same deqb (parse (set_inner_delimiter (set_allow_time_unit_delimiter config_new true) (fun b => b =? 32)) (%"next    ") two_time_units (Some tomorrow_keyword) (Some two_numerals)) (Err (Syntax 4%nat (%"Input may not end with a delimiter")));
  same deqb (parse (set_inner_delimiter (set_allow_time_unit_delimiter config_new true) (fun b => b =? 32)) (%"next tomorrow") two_time_units (Some tomorrow_keyword) (Some two_numerals)) (Err (TimeUnitErr 5%nat (%"Found numeral 'next' without a time unit")));
  same deqb (parse (set_inner_delimiter (set_allow_time_unit_delimiter config_new true) (fun b => b =? 32)) (%"next hour") two_time_units (Some tomorrow_keyword) (Some two_numerals)) (Err (TimeUnitErr 5%nat (%"Found numeral 'next' without a time unit")))] = true.
Proof. vm_compute. reflexivity. Qed.

(* fundu-core/tests/test_parsing_numerals.rs:214: 3 assertions *)
Example test_parse_with_numerals_when_invalid_parse_multiple : all_pass [
  same deqb (parse (set_outer_delimiter (set_inner_delimiter (set_allow_multiple (set_allow_time_unit_delimiter config_new true) true None) (fun b => b =? 32)) (fun b => b =? 32)) (%"next 1") two_time_units (Some tomorrow_keyword) (Some two_numerals)) (Err (TimeUnitErr 5%nat (%"Found numeral 'next' without a time unit")));
  same deqb (parse (set_outer_delimiter (set_inner_delimiter (set_allow_multiple (set_allow_time_unit_delimiter config_new true) true None) (fun b => b =? 32)) (fun b => b =? 32)) (%"next +") two_time_units (Some tomorrow_keyword) (Some two_numerals)) (Err (TimeUnitErr 5%nat (%"Found numeral 'next' without a time unit")));
  same deqb (parse (set_outer_delimiter (set_inner_delimiter (set_allow_multiple (set_allow_time_unit_delimiter config_new true) true None) (fun b => b =? 32)) (fun b => b =? 32)) (%"next next") two_time_units (Some tomorrow_keyword) (Some two_numerals)) (Err (TimeUnitErr 5%nat (%"Found numeral 'next' without a time unit")))] = true.
Proof. vm_compute. reflexivity. Qed.

(* fundu-core/tests/test_parsing_numerals.rs:250: 3 assertions *)
Example test_parse_with_numerals_when_empty_time_units_no_keywords_and_parse_multiple : all_pass [
  same deqb (parse (set_outer_delimiter (set_inner_delimiter (set_allow_multiple (set_allow_time_unit_delimiter config_new true) true None) (fun b => b =? 32)) (fun b => b =? 32)) (%"next second") empty_time_units None (Some two_numerals)) (Err (TimeUnitErr 5%nat (%"Found numeral 'next' without time units being defined")));
  same deqb (parse (set_outer_delimiter (set_inner_delimiter (set_allow_multiple (set_allow_time_unit_delimiter config_new true) true None) (fun b => b =? 32)) (fun b => b =? 32)) (%"next 1") empty_time_units None (Some two_numerals)) (Err (TimeUnitErr 5%nat (%"Found numeral 'next' without time units being defined")));
  same deqb (parse (set_outer_delimiter (set_inner_delimiter (set_allow_multiple (set_allow_time_unit_delimiter config_new true) true None) (fun b => b =? 32)) (fun b => b =? 32)) (%"tomorrow") empty_time_units None (Some two_numerals)) (Err (InvalidInput (%"tomorrow")))] = true.
Proof. vm_compute. reflexivity. Qed.

(* fundu-core/src/error.rs:141: 8 assertions *)
Example test_error_messages_parse_error : all_pass [
  same str_eqb (Ok (display_parse_error (Syntax 10%nat (%"Invalid character")))) (Ok (%"Syntax error: Invalid character at column 10"));
  same str_eqb (Ok (display_parse_error Overflow)) (Ok (%"Number overflow"));
  same str_eqb (Ok (display_parse_error (TimeUnitErr 10%nat (%"Found invalid 'y'")))) (Ok (%"Time unit error: Found invalid 'y' at column 10"));
  same str_eqb (Ok (display_parse_error NegativeExponentOverflow)) (Ok (%"Negative exponent overflow: Minimum is -32768"));
  same str_eqb (Ok (display_parse_error PositiveExponentOverflow)) (Ok (%"Positive exponent overflow: Maximum is +32767"));
  same str_eqb (Ok (display_parse_error NegativeNumber)) (Ok (%"Number was negative"));
  same str_eqb (Ok (display_parse_error (InvalidInput (%"Unexpected")))) (Ok (%"Invalid input: Unexpected"));
  same str_eqb (Ok (display_parse_error Empty)) (Ok (%"Empty input"))] = true.
Proof. vm_compute. reflexivity. Qed.

(* fundu-core/src/error.rs:149: 3 assertions *)
Example test_from_for_parse_error : all_pass [
  same perr_eqb (Ok (parse_error_of NegativeOverflow)) (Ok Overflow);
  same perr_eqb (Ok (parse_error_of PositiveOverflow)) (Ok Overflow);
  same perr_eqb (Ok (parse_error_of NegativeDuration)) (Ok NegativeNumber)] = true.
Proof. vm_compute. reflexivity. Qed.

(* fundu-core/src/error.rs:166: 3 assertions *)
Example test_error_messages_try_from_duration_error : all_pass [
  same str_eqb (Ok (display_try_from_error NegativeDuration)) (Ok (%"Error converting duration: value is negative"));
  same str_eqb (Ok (display_try_from_error PositiveOverflow)) (Ok (%"Error converting duration: value overflows the positive value range"));
  same str_eqb (Ok (display_try_from_error NegativeOverflow)) (Ok (%"Error converting duration: value overflows the negative value range"))] = true.
Proof. vm_compute. reflexivity. Qed.

(* fundu-core/src/parse.rs:1802: 4 assertions *)
Example test_duration_repr_parser_parse_8_digits : all_pass [
  same (opt_eqb Z.eqb) (Ok (option_map fst (parse_8_digits (bytes_new (%"00000000"))))) (map_res Some (Ok 3472328296227680304));
  same (opt_eqb Z.eqb) (Ok (option_map fst (parse_8_digits (bytes_new (%"00000001"))))) (map_res Some (Ok 3544385890265608240));
  same (opt_eqb Z.eqb) (Ok (option_map fst (parse_8_digits (bytes_new (%"10000000"))))) (map_res Some (Ok 3472328296227680305));
  same (opt_eqb Z.eqb) (Ok (option_map fst (parse_8_digits (bytes_new (%"99999999"))))) (map_res Some (Ok 4123389851770370361))] = true.
Proof. vm_compute. reflexivity. Qed.

(* fundu-core/src/parse.rs:1814: 12 assertions *)
Example test_duration_repr_parser_parse_8_digits_when_not_8_digits : all_pass [
  same (opt_eqb Z.eqb) (Ok (option_map fst (parse_8_digits (bytes_new (%""))))) (Ok None);
  same str_eqb (get_remainder (after8 (bytes_new (%"")))) (Ok (%""));
  same (opt_eqb Z.eqb) (Ok (cur (after8 (bytes_new (%""))))) (Ok None);
  same Z.eqb (Ok (Z.of_nat (pos (after8 (bytes_new (%"")))))) (Ok 0);
  same (opt_eqb Z.eqb) (Ok (option_map fst (parse_8_digits (bytes_new (%"a0000000"))))) (Ok None);
  same str_eqb (get_remainder (after8 (bytes_new (%"a0000000")))) (Ok (%"a0000000"));
  same (opt_eqb Z.eqb) (Ok (cur (after8 (bytes_new (%"a0000000"))))) (map_res Some (Ok 97));
  same Z.eqb (Ok (Z.of_nat (pos (after8 (bytes_new (%"a0000000")))))) (Ok 0);
  same (opt_eqb Z.eqb) (Ok (option_map fst (parse_8_digits (bytes_new (%"9999999"))))) (Ok None);
  same str_eqb (get_remainder (after8 (bytes_new (%"9999999")))) (Ok (%"9999999"));
  same (opt_eqb Z.eqb) (Ok (cur (after8 (bytes_new (%"9999999"))))) (map_res Some (Ok 57));
  same Z.eqb (Ok (Z.of_nat (pos (after8 (bytes_new (%"9999999")))))) (Ok 0)] = true.
Proof. vm_compute. reflexivity. Qed.

(* fundu-core/src/parse.rs:1826: 4 assertions *)
Example test_duration_repr_parser_parse_8_digits_when_more_than_8 : all_pass [
  same (opt_eqb Z.eqb) (Ok (option_map fst (parse_8_digits (bytes_new (%"00000000a"))))) (map_res Some (Ok 3472328296227680304));
  same str_eqb (get_remainder (after8 (bytes_new (%"00000000a")))) (Ok (%"a"));
  same (opt_eqb Z.eqb) (Ok (cur (after8 (bytes_new (%"00000000a"))))) (map_res Some (Ok 97));
  same Z.eqb (Ok (Z.of_nat (pos (after8 (bytes_new (%"00000000a")))))) (Ok 8)] = true.
Proof. vm_compute. reflexivity. Qed.

(* fundu-core/src/parse.rs:1856: 17 assertions *)
Example test_duration_repr_parser_parse_whole_single : all_pass [
  same z2_eqb (map_res range_of (parse_whole (bytes_new (%"0")))) (let* a := (Ok 1) in let* b := (Ok 1) in Ok (a, b));
  same z2_eqb (map_res range_of (parse_whole (bytes_new (%"1")))) (let* a := (Ok 0) in let* b := (Ok 1) in Ok (a, b));
  same z2_eqb (map_res range_of (parse_whole (bytes_new (%"9")))) (let* a := (Ok 0) in let* b := (Ok 1) in Ok (a, b));
  same z2_eqb (map_res range_of (parse_whole (bytes_new (%"10")))) (let* a := (Ok 0) in let* b := (Ok 2) in Ok (a, b));
  same z2_eqb (map_res range_of (parse_whole (bytes_new (%"00000000")))) (let* a := (Ok 8) in let* b := (Ok 8) in Ok (a, b));
  same z2_eqb (map_res range_of (parse_whole (bytes_new (%"000000000000000")))) (let* a := (Ok 15) in let* b := (Ok 15) in Ok (a, b));
  same z2_eqb (map_res range_of (parse_whole (bytes_new (%"00000010")))) (let* a := (Ok 6) in let* b := (Ok 8) in Ok (a, b));
  same z2_eqb (map_res range_of (parse_whole (bytes_new (%"000000010")))) (let* a := (Ok 7) in let* b := (Ok 9) in Ok (a, b));
  same z2_eqb (map_res range_of (parse_whole (bytes_new (%"12345")))) (let* a := (Ok 0) in let* b := (Ok 5) in Ok (a, b));
  same z2_eqb (map_res range_of (parse_whole (bytes_new (%"99999999")))) (let* a := (Ok 0) in let* b := (Ok 8) in Ok (a, b));
  same z2_eqb (map_res range_of (parse_whole (bytes_new (%"99999998")))) (let* a := (Ok 0) in let* b := (Ok 8) in Ok (a, b));
  same z2_eqb (map_res range_of (parse_whole (bytes_new (%"100000000")))) (let* a := (Ok 0) in let* b := (Ok 9) in Ok (a, b));
  same z2_eqb (map_res range_of (parse_whole (bytes_new (%"100000001")))) (let* a := (Ok 0) in let* b := (Ok 9) in Ok (a, b));
  same z2_eqb (map_res range_of (parse_whole (bytes_new (%"0000000011111111")))) (let* a := (Ok 8) in let* b := (Ok 16) in Ok (a, b));
  same z2_eqb (map_res range_of (parse_whole (bytes_new (%"1111111100000000")))) (let* a := (Ok 0) in let* b := (Ok 16) in Ok (a, b));
  same z2_eqb (map_res range_of (parse_whole (bytes_new (%"11111111000000001")))) (let* a := (Ok 0) in let* b := (Ok 17) in Ok (a, b));
  same z2_eqb (map_res range_of (parse_whole (bytes_new (%"9999999999999999")))) (let* a := (Ok 0) in let* b := (Ok 16) in Ok (a, b))] = true.
Proof. vm_compute. reflexivity. Qed.

(* fundu-core/src/parse.rs:1862: 17 assertions *)
Example test_duration_repr_parser_parse_whole_multiple : all_pass [
  same z2_eqb (map_res range_of (parse_whole (bytes_new (%"0")))) (let* a := (Ok 1) in let* b := (Ok 1) in Ok (a, b));
  same z2_eqb (map_res range_of (parse_whole (bytes_new (%"1")))) (let* a := (Ok 0) in let* b := (Ok 1) in Ok (a, b));
  same z2_eqb (map_res range_of (parse_whole (bytes_new (%"9")))) (let* a := (Ok 0) in let* b := (Ok 1) in Ok (a, b));
  same z2_eqb (map_res range_of (parse_whole (bytes_new (%"10")))) (let* a := (Ok 0) in let* b := (Ok 2) in Ok (a, b));
  same z2_eqb (map_res range_of (parse_whole (bytes_new (%"00000000")))) (let* a := (Ok 8) in let* b := (Ok 8) in Ok (a, b));
  same z2_eqb (map_res range_of (parse_whole (bytes_new (%"000000000000000")))) (let* a := (Ok 15) in let* b := (Ok 15) in Ok (a, b));
  same z2_eqb (map_res range_of (parse_whole (bytes_new (%"00000010")))) (let* a := (Ok 6) in let* b := (Ok 8) in Ok (a, b));
  same z2_eqb (map_res range_of (parse_whole (bytes_new (%"000000010")))) (let* a := (Ok 7) in let* b := (Ok 9) in Ok (a, b));
  same z2_eqb (map_res range_of (parse_whole (bytes_new (%"12345")))) (let* a := (Ok 0) in let* b := (Ok 5) in Ok (a, b));
  same z2_eqb (map_res range_of (parse_whole (bytes_new (%"99999999")))) (let* a := (Ok 0) in let* b := (Ok 8) in Ok (a, b));
  same z2_eqb (map_res range_of (parse_whole (bytes_new (%"99999998")))) (let* a := (Ok 0) in let* b := (Ok 8) in Ok (a, b));
  same z2_eqb (map_res range_of (parse_whole (bytes_new (%"100000000")))) (let* a := (Ok 0) in let* b := (Ok 9) in Ok (a, b));
  same z2_eqb (map_res range_of (parse_whole (bytes_new (%"100000001")))) (let* a := (Ok 0) in let* b := (Ok 9) in Ok (a, b));
  same z2_eqb (map_res range_of (parse_whole (bytes_new (%"0000000011111111")))) (let* a := (Ok 8) in let* b := (Ok 16) in Ok (a, b));
  same z2_eqb (map_res range_of (parse_whole (bytes_new (%"1111111100000000")))) (let* a := (Ok 0) in let* b := (Ok 16) in Ok (a, b));
  same z2_eqb (map_res range_of (parse_whole (bytes_new (%"11111111000000001")))) (let* a := (Ok 0) in let* b := (Ok 17) in Ok (a, b));
  same z2_eqb (map_res range_of (parse_whole (bytes_new (%"9999999999999999")))) (let* a := (Ok 0) in let* b := (Ok 16) in Ok (a, b))] = true.
Proof. vm_compute. reflexivity. Qed.

(* fundu-core/src/parse.rs:1920: 11 assertions *)
Example test_duration_repr_parser_parse_fract_single : all_pass [
  same z2_eqb (map_res range_of (parse_fract (bytes_new (%"0")))) (let* a := (Ok 0) in let* b := (Ok 1) in Ok (a, b));
  same z2_eqb (map_res range_of (parse_fract (bytes_new (%"1")))) (let* a := (Ok 0) in let* b := (Ok 1) in Ok (a, b));
  same z2_eqb (map_res range_of (parse_fract (bytes_new (%"9")))) (let* a := (Ok 0) in let* b := (Ok 1) in Ok (a, b));
  same z2_eqb (map_res range_of (parse_fract (bytes_new (%"10")))) (let* a := (Ok 0) in let* b := (Ok 2) in Ok (a, b));
  same z2_eqb (map_res range_of (parse_fract (bytes_new (%"01")))) (let* a := (Ok 0) in let* b := (Ok 2) in Ok (a, b));
  same z2_eqb (map_res range_of (parse_fract (bytes_new (%"001")))) (let* a := (Ok 0) in let* b := (Ok 3) in Ok (a, b));
  same z2_eqb (map_res range_of (parse_fract (bytes_new (%"000000001")))) (let* a := (Ok 0) in let* b := (Ok 9) in Ok (a, b));
  same z2_eqb (map_res range_of (parse_fract (bytes_new (%"12345")))) (let* a := (Ok 0) in let* b := (Ok 5) in Ok (a, b));
  same z2_eqb (map_res range_of (parse_fract (bytes_new (%"99999999")))) (let* a := (Ok 0) in let* b := (Ok 8) in Ok (a, b));
  same z2_eqb (map_res range_of (parse_fract (bytes_new (%"99999998")))) (let* a := (Ok 0) in let* b := (Ok 8) in Ok (a, b));
  same z2_eqb (map_res range_of (parse_fract (bytes_new (%"123456789")))) (let* a := (Ok 0) in let* b := (Ok 9) in Ok (a, b))] = true.
Proof. vm_compute. reflexivity. Qed.

(* fundu-core/src/parse.rs:1926: 11 assertions *)
Example test_duration_repr_parser_parse_fract_multiple : all_pass [
  same z2_eqb (map_res range_of (parse_fract (bytes_new (%"0")))) (let* a := (Ok 0) in let* b := (Ok 1) in Ok (a, b));
  same z2_eqb (map_res range_of (parse_fract (bytes_new (%"1")))) (let* a := (Ok 0) in let* b := (Ok 1) in Ok (a, b));
  same z2_eqb (map_res range_of (parse_fract (bytes_new (%"9")))) (let* a := (Ok 0) in let* b := (Ok 1) in Ok (a, b));
  same z2_eqb (map_res range_of (parse_fract (bytes_new (%"10")))) (let* a := (Ok 0) in let* b := (Ok 2) in Ok (a, b));
  same z2_eqb (map_res range_of (parse_fract (bytes_new (%"01")))) (let* a := (Ok 0) in let* b := (Ok 2) in Ok (a, b));
  same z2_eqb (map_res range_of (parse_fract (bytes_new (%"001")))) (let* a := (Ok 0) in let* b := (Ok 3) in Ok (a, b));
  same z2_eqb (map_res range_of (parse_fract (bytes_new (%"000000001")))) (let* a := (Ok 0) in let* b := (Ok 9) in Ok (a, b));
  same z2_eqb (map_res range_of (parse_fract (bytes_new (%"12345")))) (let* a := (Ok 0) in let* b := (Ok 5) in Ok (a, b));
  same z2_eqb (map_res range_of (parse_fract (bytes_new (%"99999999")))) (let* a := (Ok 0) in let* b := (Ok 8) in Ok (a, b));
  same z2_eqb (map_res range_of (parse_fract (bytes_new (%"99999998")))) (let* a := (Ok 0) in let* b := (Ok 8) in Ok (a, b));
  same z2_eqb (map_res range_of (parse_fract (bytes_new (%"123456789")))) (let* a := (Ok 0) in let* b := (Ok 9) in Ok (a, b))] = true.
Proof. vm_compute. reflexivity. Qed.

(* fundu-core/src/parse.rs:1932: 7 assertions *)
Example test_fract : all_pass [
  same Z.eqb (fract_parse (%"1") None None) (Ok 100000000000000000);
  same Z.eqb (fract_parse (%"1") None (Some 1%nat)) (Ok 10000000000000000);
  same Z.eqb (fract_parse (%"12") None None) (Ok 120000000000000000);
  same Z.eqb (fract_parse (%"12") None (Some 1%nat)) (Ok 12000000000000000);
  same Z.eqb (fract_parse (%"2") (Some (%"1")) None) (Ok 120000000000000000);
  same Z.eqb (fract_parse (%"") (Some (%"1")) None) (Ok 100000000000000000);
  same Z.eqb (fract_parse (%"234") (Some (%"1")) (Some 16%nat)) (Ok 12)] = true.
Proof. vm_compute. reflexivity. Qed.

(* fundu-core/src/parse.rs:1961: 1 assertions *)
Example test_try_consume_delimiter_when_input_starts_with_delimiter_then_error : all_pass [
  same (fun _ _ : scanner => true) (try_consume_delimiter (fun b => (b =? 32)) (bytes_new (%" some"))) (Err (Syntax 0%nat (%"Input may not start with a delimiter")))] = true.
Proof. vm_compute. reflexivity. Qed.

(* fundu/src/custom/time_units.rs:543: 40 assertions *)
Example test_custom_time_units_init_with_time_units : all_pass [
  is_true (map_res negb (Ok (cu_is_empty (cu_with_time_units [(ctu_with_default NanoSecond [(%"some")])]))));
  same (opt_eqb lk_eqb) (Ok (find_group (cu_with_time_units [(ctu_with_default NanoSecond [(%"some")])]) NanoSecond (Mul 1 0))) (map_res Some (Ok (Lookup 4 4 NanoSecond (Mul 1 0), [(%"some")])));
  is_true (map_res negb (Ok (cu_is_empty (cu_with_time_units [(ctu_with_default NanoSecond [(%"some"); (%"other"); [208; 180; 208; 181; 209; 143; 208; 186; 209; 150]])]))));
  same (opt_eqb lk_eqb) (Ok (find_group (cu_with_time_units [(ctu_with_default NanoSecond [(%"some"); (%"other"); [208; 180; 208; 181; 209; 143; 208; 186; 209; 150]])]) NanoSecond (Mul 1 0))) (map_res Some (Ok (Lookup 4 10 NanoSecond (Mul 1 0), [(%"some"); (%"other"); [208; 180; 208; 181; 209; 143; 208; 186; 209; 150]])));
  is_true (map_res negb (Ok (cu_is_empty (cu_with_time_units [(ctu_with_default MicroSecond [(%"some")])]))));
  same (opt_eqb lk_eqb) (Ok (find_group (cu_with_time_units [(ctu_with_default MicroSecond [(%"some")])]) MicroSecond (Mul 1 0))) (map_res Some (Ok (Lookup 4 4 MicroSecond (Mul 1 0), [(%"some")])));
  is_true (map_res negb (Ok (cu_is_empty (cu_with_time_units [(ctu_with_default MicroSecond [(%"some"); (%"other"); [208; 180; 208; 181; 209; 143; 208; 186; 209; 150]])]))));
  same (opt_eqb lk_eqb) (Ok (find_group (cu_with_time_units [(ctu_with_default MicroSecond [(%"some"); (%"other"); [208; 180; 208; 181; 209; 143; 208; 186; 209; 150]])]) MicroSecond (Mul 1 0))) (map_res Some (Ok (Lookup 4 10 MicroSecond (Mul 1 0), [(%"some"); (%"other"); [208; 180; 208; 181; 209; 143; 208; 186; 209; 150]])));
  is_true (map_res negb (Ok (cu_is_empty (cu_with_time_units [(ctu_with_default MilliSecond [(%"some")])]))));
  same (opt_eqb lk_eqb) (Ok (find_group (cu_with_time_units [(ctu_with_default MilliSecond [(%"some")])]) MilliSecond (Mul 1 0))) (map_res Some (Ok (Lookup 4 4 MilliSecond (Mul 1 0), [(%"some")])));
  is_true (map_res negb (Ok (cu_is_empty (cu_with_time_units [(ctu_with_default MilliSecond [(%"some"); (%"other"); [208; 180; 208; 181; 209; 143; 208; 186; 209; 150]])]))));
  same (opt_eqb lk_eqb) (Ok (find_group (cu_with_time_units [(ctu_with_default MilliSecond [(%"some"); (%"other"); [208; 180; 208; 181; 209; 143; 208; 186; 209; 150]])]) MilliSecond (Mul 1 0))) (map_res Some (Ok (Lookup 4 10 MilliSecond (Mul 1 0), [(%"some"); (%"other"); [208; 180; 208; 181; 209; 143; 208; 186; 209; 150]])));
  is_true (map_res negb (Ok (cu_is_empty (cu_with_time_units [(ctu_with_default Second [(%"some")])]))));
  same (opt_eqb lk_eqb) (Ok (find_group (cu_with_time_units [(ctu_with_default Second [(%"some")])]) Second (Mul 1 0))) (map_res Some (Ok (Lookup 4 4 Second (Mul 1 0), [(%"some")])));
  is_true (map_res negb (Ok (cu_is_empty (cu_with_time_units [(ctu_with_default Second [(%"some"); (%"other"); [208; 180; 208; 181; 209; 143; 208; 186; 209; 150]])]))));
  same (opt_eqb lk_eqb) (Ok (find_group (cu_with_time_units [(ctu_with_default Second [(%"some"); (%"other"); [208; 180; 208; 181; 209; 143; 208; 186; 209; 150]])]) Second (Mul 1 0))) (map_res Some (Ok (Lookup 4 10 Second (Mul 1 0), [(%"some"); (%"other"); [208; 180; 208; 181; 209; 143; 208; 186; 209; 150]])));
  is_true (map_res negb (Ok (cu_is_empty (cu_with_time_units [(ctu_with_default Minute [(%"some")])]))));
  same (opt_eqb lk_eqb) (Ok (find_group (cu_with_time_units [(ctu_with_default Minute [(%"some")])]) Minute (Mul 1 0))) (map_res Some (Ok (Lookup 4 4 Minute (Mul 1 0), [(%"some")])));
  is_true (map_res negb (Ok (cu_is_empty (cu_with_time_units [(ctu_with_default Minute [(%"some"); (%"other"); [208; 180; 208; 181; 209; 143; 208; 186; 209; 150]])]))));
  same (opt_eqb lk_eqb) (Ok (find_group (cu_with_time_units [(ctu_with_default Minute [(%"some"); (%"other"); [208; 180; 208; 181; 209; 143; 208; 186; 209; 150]])]) Minute (Mul 1 0))) (map_res Some (Ok (Lookup 4 10 Minute (Mul 1 0), [(%"some"); (%"other"); [208; 180; 208; 181; 209; 143; 208; 186; 209; 150]])));
  is_true (map_res negb (Ok (cu_is_empty (cu_with_time_units [(ctu_with_default Hour [(%"some")])]))));
  same (opt_eqb lk_eqb) (Ok (find_group (cu_with_time_units [(ctu_with_default Hour [(%"some")])]) Hour (Mul 1 0))) (map_res Some (Ok (Lookup 4 4 Hour (Mul 1 0), [(%"some")])));
  is_true (map_res negb (Ok (cu_is_empty (cu_with_time_units [(ctu_with_default Hour [(%"some"); (%"other"); [208; 180; 208; 181; 209; 143; 208; 186; 209; 150]])]))));
  same (opt_eqb lk_eqb) (Ok (find_group (cu_with_time_units [(ctu_with_default Hour [(%"some"); (%"other"); [208; 180; 208; 181; 209; 143; 208; 186; 209; 150]])]) Hour (Mul 1 0))) (map_res Some (Ok (Lookup 4 10 Hour (Mul 1 0), [(%"some"); (%"other"); [208; 180; 208; 181; 209; 143; 208; 186; 209; 150]])));
  is_true (map_res negb (Ok (cu_is_empty (cu_with_time_units [(ctu_with_default Day [(%"some")])]))));
  same (opt_eqb lk_eqb) (Ok (find_group (cu_with_time_units [(ctu_with_default Day [(%"some")])]) Day (Mul 1 0))) (map_res Some (Ok (Lookup 4 4 Day (Mul 1 0), [(%"some")])));
  is_true (map_res negb (Ok (cu_is_empty (cu_with_time_units [(ctu_with_default Day [(%"some"); (%"other"); [208; 180; 208; 181; 209; 143; 208; 186; 209; 150]])]))));
  same (opt_eqb lk_eqb) (Ok (find_group (cu_with_time_units [(ctu_with_default Day [(%"some"); (%"other"); [208; 180; 208; 181; 209; 143; 208; 186; 209; 150]])]) Day (Mul 1 0))) (map_res Some (Ok (Lookup 4 10 Day (Mul 1 0), [(%"some"); (%"other"); [208; 180; 208; 181; 209; 143; 208; 186; 209; 150]])));
  is_true (map_res negb (Ok (cu_is_empty (cu_with_time_units [(ctu_with_default Week [(%"some")])]))));
  same (opt_eqb lk_eqb) (Ok (find_group (cu_with_time_units [(ctu_with_default Week [(%"some")])]) Week (Mul 1 0))) (map_res Some (Ok (Lookup 4 4 Week (Mul 1 0), [(%"some")])));
  is_true (map_res negb (Ok (cu_is_empty (cu_with_time_units [(ctu_with_default Week [(%"some"); (%"other"); [208; 180; 208; 181; 209; 143; 208; 186; 209; 150]])]))));
  same (opt_eqb lk_eqb) (Ok (find_group (cu_with_time_units [(ctu_with_default Week [(%"some"); (%"other"); [208; 180; 208; 181; 209; 143; 208; 186; 209; 150]])]) Week (Mul 1 0))) (map_res Some (Ok (Lookup 4 10 Week (Mul 1 0), [(%"some"); (%"other"); [208; 180; 208; 181; 209; 143; 208; 186; 209; 150]])));
  is_true (map_res negb (Ok (cu_is_empty (cu_with_time_units [(ctu_with_default Month [(%"some")])]))));
  same (opt_eqb lk_eqb) (Ok (find_group (cu_with_time_units [(ctu_with_default Month [(%"some")])]) Month (Mul 1 0))) (map_res Some (Ok (Lookup 4 4 Month (Mul 1 0), [(%"some")])));
  is_true (map_res negb (Ok (cu_is_empty (cu_with_time_units [(ctu_with_default Month [(%"some"); (%"other"); [208; 180; 208; 181; 209; 143; 208; 186; 209; 150]])]))));
  same (opt_eqb lk_eqb) (Ok (find_group (cu_with_time_units [(ctu_with_default Month [(%"some"); (%"other"); [208; 180; 208; 181; 209; 143; 208; 186; 209; 150]])]) Month (Mul 1 0))) (map_res Some (Ok (Lookup 4 10 Month (Mul 1 0), [(%"some"); (%"other"); [208; 180; 208; 181; 209; 143; 208; 186; 209; 150]])));
  is_true (map_res negb (Ok (cu_is_empty (cu_with_time_units [(ctu_with_default Year [(%"some")])]))));
  same (opt_eqb lk_eqb) (Ok (find_group (cu_with_time_units [(ctu_with_default Year [(%"some")])]) Year (Mul 1 0))) (map_res Some (Ok (Lookup 4 4 Year (Mul 1 0), [(%"some")])));
  is_true (map_res negb (Ok (cu_is_empty (cu_with_time_units [(ctu_with_default Year [(%"some"); (%"other"); [208; 180; 208; 181; 209; 143; 208; 186; 209; 150]])]))));
  same (opt_eqb lk_eqb) (Ok (find_group (cu_with_time_units [(ctu_with_default Year [(%"some"); (%"other"); [208; 180; 208; 181; 209; 143; 208; 186; 209; 150]])]) Year (Mul 1 0))) (map_res Some (Ok (Lookup 4 10 Year (Mul 1 0), [(%"some"); (%"other"); [208; 180; 208; 181; 209; 143; 208; 186; 209; 150]])))] = true.
Proof. vm_compute. reflexivity. Qed.

(* fundu/src/custom/time_units.rs:563: 3 assertions *)
Example test_custom_time_units_init_with_time_units_when_multiple_equal_ids : all_pass [
  is_true (map_res negb (Ok (cu_is_empty (cu_with_time_units [(ctu_with_default NanoSecond [(%"same"); (%"same")])]))));
  same (opt_eqb lk_eqb) (Ok (find_group (cu_with_time_units [(ctu_with_default NanoSecond [(%"same"); (%"same")])]) NanoSecond (Mul 1 0))) (map_res Some (Ok (Lookup 4 4 NanoSecond (Mul 1 0), [(%"same"); (%"same")])));
  same (opt_eqb um_eqb) (Ok (cu_get (cu_with_time_units [(ctu_with_default NanoSecond [(%"same"); (%"same")])]) (%"same"))) (map_res Some (let* a := (Ok NanoSecond) in let* b := (Ok (Mul 1 0)) in Ok (a, b)))] = true.
Proof. vm_compute. reflexivity. Qed.

(* fundu/src/custom/time_units.rs:613: 2 assertions *)
Example test_custom_time_units_when_adding_time_unit_with_empty_slice_then_not_added : all_pass [
  is_true (Ok (cu_is_empty (add_custom_time_unit cu_new (ctu_with_default MicroSecond []))));
  same (opt_eqb lk_eqb) (Ok (find_group (add_custom_time_unit cu_new (ctu_with_default MicroSecond [])) MicroSecond (Mul 1 0))) (Ok None)] = true.
Proof. vm_compute. reflexivity. Qed.

(* fundu/src/custom/time_units.rs:621: 2 assertions *)
Example test_custom_time_units_when_adding_time_unit_with_empty_id_then_not_added : all_pass [
  is_true (Ok (cu_is_empty (add_custom_time_unit cu_new (ctu_with_default MicroSecond [(%"")]))));
  same (opt_eqb lk_eqb) (Ok (find_group (add_custom_time_unit cu_new (ctu_with_default MicroSecond [(%"")])) MicroSecond (Mul 1 0))) (Ok None)] = true.
Proof. vm_compute. reflexivity. Qed.

(* fundu/src/custom/time_units.rs:629: 1 assertions *)
Example test_custom_time_units_adding_custom_time_unit_with_empty_id_then_not_added : all_pass [
  is_true (Ok (cu_is_empty (add_custom_time_unit cu_new (ctu_ok (ctu_new Second [(%"")] (Some (Mul 2 0)))))))] = true.
Proof. vm_compute. reflexivity. Qed.

(* fundu/src/custom/time_units.rs:629: 3 assertions *)
Example test_custom_time_units_adding_custom_time_unit : all_pass [
  is_true (map_res negb (Ok (cu_is_empty (add_custom_time_unit cu_new (ctu_ok (ctu_new Second [(%"sec")] (Some (Mul 2 0))))))));
  same (opt_eqb lk_eqb) (Ok (find_group (add_custom_time_unit cu_new (ctu_ok (ctu_new Second [(%"sec")] (Some (Mul 2 0))))) Second (Mul 2 0))) (map_res Some (Ok (Lookup 3 3 Second (Mul 2 0), [(%"sec")])));
  same (opt_eqb um_eqb) (Ok (cu_get (add_custom_time_unit cu_new (ctu_ok (ctu_new Second [(%"sec")] (Some (Mul 2 0))))) (%"sec"))) (map_res Some (let* a := (Ok Second) in let* b := (Ok (Mul 2 0)) in Ok (a, b)))] = true.
Proof. vm_compute. reflexivity. Qed.

(* fundu/src/custom/time_units.rs:658: 4 assertions *)
Example test_custom_time_units_adding_multiple_custom_time_unit : all_pass [
  same (opt_eqb lk_eqb) (Ok (find_group (add_custom_time_unit (add_custom_time_unit cu_new (ctu_ok (ctu_new Second [(%"sec")] (Some (Mul 1 0))))) (ctu_ok (ctu_new Second [(%"secs")] (Some (Mul 2 0))))) Second (Mul 1 0))) (map_res Some (Ok (Lookup 3 3 Second (Mul 1 0), [(%"sec")])));
  same (opt_eqb lk_eqb) (Ok (find_group (add_custom_time_unit (add_custom_time_unit cu_new (ctu_ok (ctu_new Second [(%"sec")] (Some (Mul 1 0))))) (ctu_ok (ctu_new Second [(%"secs")] (Some (Mul 2 0))))) Second (Mul 2 0))) (map_res Some (Ok (Lookup 4 4 Second (Mul 2 0), [(%"secs")])));
  same (opt_eqb um_eqb) (Ok (cu_get (add_custom_time_unit (add_custom_time_unit cu_new (ctu_ok (ctu_new Second [(%"sec")] (Some (Mul 1 0))))) (ctu_ok (ctu_new Second [(%"secs")] (Some (Mul 2 0))))) (%"sec"))) (map_res Some (let* a := (Ok Second) in let* b := (Ok (Mul 1 0)) in Ok (a, b)));
  same (opt_eqb um_eqb) (Ok (cu_get (add_custom_time_unit (add_custom_time_unit cu_new (ctu_ok (ctu_new Second [(%"sec")] (Some (Mul 1 0))))) (ctu_ok (ctu_new Second [(%"secs")] (Some (Mul 2 0))))) (%"secs"))) (map_res Some (let* a := (Ok Second) in let* b := (Ok (Mul 2 0)) in Ok (a, b)))] = true.
Proof. vm_compute. reflexivity. Qed.

(* fundu/src/custom/time_units.rs:695: 4 assertions *)
Example test_custom_time_units_adding_custom_time_unit_when_normal_time_unit_already_exists : all_pass [
  same (opt_eqb lk_eqb) (Ok (find_group (add_custom_time_unit (cu_with_time_units [(ctu_with_default Second [(%"s")])]) (ctu_ok (ctu_new Second [(%"ss")] (Some (Mul 2 0))))) Second (Mul 1 0))) (map_res Some (Ok (Lookup 1 1 Second (Mul 1 0), [(%"s")])));
  same (opt_eqb lk_eqb) (Ok (find_group (add_custom_time_unit (cu_with_time_units [(ctu_with_default Second [(%"s")])]) (ctu_ok (ctu_new Second [(%"ss")] (Some (Mul 2 0))))) Second (Mul 2 0))) (map_res Some (Ok (Lookup 2 2 Second (Mul 2 0), [(%"ss")])));
  same (opt_eqb um_eqb) (Ok (cu_get (add_custom_time_unit (cu_with_time_units [(ctu_with_default Second [(%"s")])]) (ctu_ok (ctu_new Second [(%"ss")] (Some (Mul 2 0))))) (%"s"))) (map_res Some (let* a := (Ok Second) in let* b := (Ok (Mul 1 0)) in Ok (a, b)));
  same (opt_eqb um_eqb) (Ok (cu_get (add_custom_time_unit (cu_with_time_units [(ctu_with_default Second [(%"s")])]) (ctu_ok (ctu_new Second [(%"ss")] (Some (Mul 2 0))))) (%"ss"))) (map_res Some (let* a := (Ok Second) in let* b := (Ok (Mul 2 0)) in Ok (a, b)))] = true.
Proof. vm_compute. reflexivity. Qed.

(* fundu/src/custom/time_units.rs:724: 3 assertions *)
Example test_custom_time_units_adding_custom_time_unit_when_normal_time_unit_with_same_id : all_pass [
  same (opt_eqb lk_eqb) (Ok (find_group (add_custom_time_unit (cu_with_time_units [(ctu_with_default Second [(%"s")])]) (ctu_ok (ctu_new Second [(%"s")] (Some (Mul 2 0))))) Second (Mul 1 0))) (map_res Some (Ok (Lookup 1 1 Second (Mul 1 0), [(%"s")])));
  same (opt_eqb lk_eqb) (Ok (find_group (add_custom_time_unit (cu_with_time_units [(ctu_with_default Second [(%"s")])]) (ctu_ok (ctu_new Second [(%"s")] (Some (Mul 2 0))))) Second (Mul 2 0))) (map_res Some (Ok (Lookup 1 1 Second (Mul 2 0), [(%"s")])));
  same (opt_eqb um_eqb) (Ok (cu_get (add_custom_time_unit (cu_with_time_units [(ctu_with_default Second [(%"s")])]) (ctu_ok (ctu_new Second [(%"s")] (Some (Mul 2 0))))) (%"s"))) (map_res Some (let* a := (Ok Second) in let* b := (Ok (Mul 1 0)) in Ok (a, b)))] = true.
Proof. vm_compute. reflexivity. Qed.

(* fundu/src/custom/time_units.rs:752: 2 assertions *)
Example test_custom_time_units_adding_custom_time_unit_when_identifiers_is_empty : all_pass [
  is_true (Ok (cu_is_empty (add_custom_time_unit cu_new (ctu_ok (ctu_new Second [] (Some (Mul 2 0)))))));
  same (opt_eqb lk_eqb) (Ok (find_group (add_custom_time_unit cu_new (ctu_ok (ctu_new Second [] (Some (Mul 2 0))))) Second (Mul 2 0))) (Ok None)] = true.
Proof. vm_compute. reflexivity. Qed.

(* fundu/src/custom/time_units.rs:760: 1 assertions *)
Example test_custom_time_units_adding_custom_time_unit_when_adding_same_unit_twice : all_pass [
  same (opt_eqb lk_eqb) (Ok (find_group (add_custom_time_unit (add_custom_time_unit cu_new (ctu_ok (ctu_new Second [(%"s")] (Some (Mul 2 0))))) (ctu_ok (ctu_new Second [(%"s")] (Some (Mul 2 0))))) Second (Mul 2 0))) (map_res Some (Ok (Lookup 1 1 Second (Mul 2 0), [(%"s"); (%"s")])))] = true.
Proof. vm_compute. reflexivity. Qed.

(* fundu/src/custom/time_units.rs:779: 1 assertions *)
Example test_custom_time_unit_new_when_overflow_then_panic : all_pass [
  crashes (ctu_new Year [(%"year")] (Some (Mul 9223372036854775807 0)))] = true.
Proof. vm_compute. reflexivity. Qed.

(* fundu/src/custom/time_units.rs:796: 3 assertions *)
Example test_custom_time_unit_equality_when_equal : all_pass [
  same ctu_eqb (Ok (ctu_ok (ctu_new Second [(%"s")] None))) (Ok (ctu_ok (ctu_new Second [(%"s")] (Some (Mul 1 0)))));
  same ctu_eqb (Ok (ctu_ok (ctu_new Second [(%"s")] None))) (Ok (ctu_ok (ctu_new Second [(%"secs")] (Some (Mul 1 0)))));
  same ctu_eqb (Ok (ctu_ok (ctu_new Second [(%"s")] (Some (Mul 2 0))))) (Ok (ctu_ok (ctu_new Second [(%"secs")] (Some (Mul 2 0)))))] = true.
Proof. vm_compute. reflexivity. Qed.

(* fundu/src/custom/time_units.rs:812: 2 assertions *)
Example test_custom_time_unit_equality_when_not_equal : all_pass [
  differ ctu_eqb (Ok (ctu_ok (ctu_new MilliSecond [(%"ms")] (Some (Mul 1 0))))) (Ok (ctu_ok (ctu_new Second [(%"ms")] (Some (Mul 1 0)))));
  differ ctu_eqb (Ok (ctu_ok (ctu_new MilliSecond [(%"ms")] (Some (Mul 1000 0))))) (Ok (ctu_ok (ctu_new Second [(%"ms")] (Some (Mul 1 0)))))] = true.
Proof. vm_compute. reflexivity. Qed.

(* fundu/src/custom/time_units.rs:832: 9 assertions *)
Example test_custom_time_unit_hash_when_equal : all_pass [
  same ctu_eqb (Ok (ctu_ok (ctu_new Second [(%"some")] (Some (Mul 1 0))))) (Ok (ctu_ok (ctu_new Second [(%"other")] (Some (Mul 1 0)))));
  same ctu_eqb (Ok (ctu_ok (ctu_new Second [(%"other")] (Some (Mul 1 0))))) (Ok (ctu_ok (ctu_new Second [(%"some")] (Some (Mul 1 0)))));
  same (list_eqb Z.eqb) (Ok (ctu_hash (ctu_ok (ctu_new Second [(%"some")] (Some (Mul 1 0)))))) (Ok (ctu_hash (ctu_ok (ctu_new Second [(%"other")] (Some (Mul 1 0))))));
  same ctu_eqb (Ok (ctu_ok (ctu_new Day [(%"some")] None))) (Ok (ctu_with_default Day [(%"other")]));
  same ctu_eqb (Ok (ctu_with_default Day [(%"other")])) (Ok (ctu_ok (ctu_new Day [(%"some")] None)));
  same (list_eqb Z.eqb) (Ok (ctu_hash (ctu_ok (ctu_new Day [(%"some")] None)))) (Ok (ctu_hash (ctu_with_default Day [(%"other")])));
  same ctu_eqb (Ok (ctu_ok (ctu_new Day [(%"some")] (Some (Mul 123 4))))) (Ok (ctu_ok (ctu_new Day [(%"other")] (Some (Mul 123 4)))));
  same ctu_eqb (Ok (ctu_ok (ctu_new Day [(%"other")] (Some (Mul 123 4))))) (Ok (ctu_ok (ctu_new Day [(%"some")] (Some (Mul 123 4)))));
  same (list_eqb Z.eqb) (Ok (ctu_hash (ctu_ok (ctu_new Day [(%"some")] (Some (Mul 123 4)))))) (Ok (ctu_hash (ctu_ok (ctu_new Day [(%"other")] (Some (Mul 123 4))))))] = true.
Proof. vm_compute. reflexivity. Qed.
