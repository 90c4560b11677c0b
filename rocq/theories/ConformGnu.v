(** * The test functions of fundu-gnu/tests/test_relative_time_parser.rs, fundu-gnu/src/util.rs, fundu-gnu/src/datetime.rs: the assertions of the tests of /repo, run on the model (see Conform.v)

    Generated from the test functions of /repo; one example for each test function (or documentation block), each element of
    its list is one assertion of one case. *)
From Verif Require Import Prelude Util Time Config Bytes Repr Parse Standard Custom Systemd DateTime Gnu Misc Conform.

(* fundu-gnu/tests/test_relative_time_parser.rs:55: 62 assertions *)
Example test_parser_parse_valid_input : all_pass [
  same deqb (gnu_parse gnu_new (inl (Std 1690000000 0)) (%"0")) (Ok ZERO);
  same deqb (gnu_global_parse (inl (Std 1690000000 0)) (%"0")) (Ok ZERO);
  same deqb (gnu_parse gnu_new (inl (Std 1690000000 0)) (%"-0")) (Ok ZERO);
  same deqb (gnu_global_parse (inl (Std 1690000000 0)) (%"-0")) (Ok ZERO);
  same deqb (gnu_parse gnu_new (inl (Std 1690000000 0)) (%"1")) (positive 1 0);
  same deqb (gnu_global_parse (inl (Std 1690000000 0)) (%"1")) (positive 1 0);
  same deqb (gnu_parse gnu_new (inl (Std 1690000000 0)) (%"+1")) (positive 1 0);
  same deqb (gnu_global_parse (inl (Std 1690000000 0)) (%"+1")) (positive 1 0);
  same deqb (gnu_parse gnu_new (inl (Std 1690000000 0)) (%"sec")) (positive 1 0);
  same deqb (gnu_global_parse (inl (Std 1690000000 0)) (%"sec")) (positive 1 0);
  same deqb (gnu_parse gnu_new (inl (Std 1690000000 0)) (%"+sec")) (positive 1 0);
  same deqb (gnu_global_parse (inl (Std 1690000000 0)) (%"+sec")) (positive 1 0);
  same deqb (gnu_parse gnu_new (inl (Std 1690000000 0)) (%"+   sec")) (positive 1 0);
  same deqb (gnu_global_parse (inl (Std 1690000000 0)) (%"+   sec")) (positive 1 0);
  same deqb (gnu_parse gnu_new (inl (Std 1690000000 0)) [45; 9; 10; 11; 12; 13; 32; 115; 101; 99]) (negative 1 0);
  same deqb (gnu_global_parse (inl (Std 1690000000 0)) [45; 9; 10; 11; 12; 13; 32; 115; 101; 99]) (negative 1 0);
  same deqb (gnu_parse gnu_new (inl (Std 1690000000 0)) (%"1 sec")) (positive 1 0);
  same deqb (gnu_global_parse (inl (Std 1690000000 0)) (%"1 sec")) (positive 1 0);
  same deqb (gnu_parse gnu_new (inl (Std 1690000000 0)) [49; 9; 10; 11; 12; 13; 32; 115; 101; 99]) (positive 1 0);
  same deqb (gnu_global_parse (inl (Std 1690000000 0)) [49; 9; 10; 11; 12; 13; 32; 115; 101; 99]) (positive 1 0);
  same deqb (gnu_parse gnu_new (inl (Std 1690000000 0)) (%"1 yesterday")) (negative 86399 0);
  same deqb (gnu_global_parse (inl (Std 1690000000 0)) (%"1 yesterday")) (negative 86399 0);
  same deqb (gnu_parse gnu_new (inl (Std 1690000000 0)) (%"-1")) (negative 1 0);
  same deqb (gnu_global_parse (inl (Std 1690000000 0)) (%"-1")) (negative 1 0);
  same deqb (gnu_parse gnu_new (inl (Std 1690000000 0)) (%"1 sec ago")) (negative 1 0);
  same deqb (gnu_global_parse (inl (Std 1690000000 0)) (%"1 sec ago")) (negative 1 0);
  same deqb (gnu_parse gnu_new (inl (Std 1690000000 0)) [49; 32; 115; 101; 99; 9; 10; 11; 12; 13; 32; 97; 103; 111]) (negative 1 0);
  same deqb (gnu_global_parse (inl (Std 1690000000 0)) [49; 32; 115; 101; 99; 9; 10; 11; 12; 13; 32; 97; 103; 111]) (negative 1 0);
  same deqb (gnu_parse gnu_new (inl (Std 1690000000 0)) (%"-1 sec ago")) (positive 1 0);
  same deqb (gnu_global_parse (inl (Std 1690000000 0)) (%"-1 sec ago")) (positive 1 0);
  same deqb (gnu_parse gnu_new (inl (Std 1690000000 0)) (%"1 sec 1 sec")) (positive 2 0);
  same deqb (gnu_global_parse (inl (Std 1690000000 0)) (%"1 sec 1 sec")) (positive 2 0);
  same deqb (gnu_parse gnu_new (inl (Std 1690000000 0)) [49; 32; 115; 101; 99; 9; 10; 11; 12; 13; 32; 49; 32; 115; 101; 99]) (positive 2 0);
  same deqb (gnu_global_parse (inl (Std 1690000000 0)) [49; 32; 115; 101; 99; 9; 10; 11; 12; 13; 32; 49; 32; 115; 101; 99]) (positive 2 0);
  same deqb (gnu_parse gnu_new (inl (Std 1690000000 0)) (%"1 sec ago 1 sec")) (Ok ZERO);
  same deqb (gnu_global_parse (inl (Std 1690000000 0)) (%"1 sec ago 1 sec")) (Ok ZERO);
  same deqb (gnu_parse gnu_new (inl (Std 1690000000 0)) (%"1 sec 0 sec")) (positive 1 0);
  same deqb (gnu_global_parse (inl (Std 1690000000 0)) (%"1 sec 0 sec")) (positive 1 0);
  same deqb (gnu_parse gnu_new (inl (Std 1690000000 0)) (%"1 sec+1 sec")) (positive 2 0);
  same deqb (gnu_global_parse (inl (Std 1690000000 0)) (%"1 sec+1 sec")) (positive 2 0);
  same deqb (gnu_parse gnu_new (inl (Std 1690000000 0)) (%"3 sec-1 sec")) (positive 2 0);
  same deqb (gnu_global_parse (inl (Std 1690000000 0)) (%"3 sec-1 sec")) (positive 2 0);
  same deqb (gnu_parse gnu_new (inl (Std 1690000000 0)) (%"3 sec - 1 sec")) (positive 2 0);
  same deqb (gnu_global_parse (inl (Std 1690000000 0)) (%"3 sec - 1 sec")) (positive 2 0);
  same deqb (gnu_parse gnu_new (inl (Std 1690000000 0)) (%"1.1")) (positive 1 100000000);
  same deqb (gnu_global_parse (inl (Std 1690000000 0)) (%"1.1")) (positive 1 100000000);
  same deqb (gnu_parse gnu_new (inl (Std 1690000000 0)) (%"1.1sec")) (positive 1 100000000);
  same deqb (gnu_global_parse (inl (Std 1690000000 0)) (%"1.1sec")) (positive 1 100000000);
  same deqb (gnu_parse gnu_new (inl (Std 1690000000 0)) (%"0.1")) (positive 0 100000000);
  same deqb (gnu_global_parse (inl (Std 1690000000 0)) (%"0.1")) (positive 0 100000000);
  same deqb (gnu_parse gnu_new (inl (Std 1690000000 0)) (%"0.1sec")) (positive 0 100000000);
  same deqb (gnu_global_parse (inl (Std 1690000000 0)) (%"0.1sec")) (positive 0 100000000);
  same deqb (gnu_parse gnu_new (inl (Std 1690000000 0)) (%"1.0")) (positive 1 0);
  same deqb (gnu_global_parse (inl (Std 1690000000 0)) (%"1.0")) (positive 1 0);
  same deqb (gnu_parse gnu_new (inl (Std 1690000000 0)) (%"1.0sec")) (positive 1 0);
  same deqb (gnu_global_parse (inl (Std 1690000000 0)) (%"1.0sec")) (positive 1 0);
  same deqb (gnu_parse gnu_new (inl (Std 1690000000 0)) (%"0.0123456789sec")) (positive 0 12345678);
  same deqb (gnu_global_parse (inl (Std 1690000000 0)) (%"0.0123456789sec")) (positive 0 12345678);
  same deqb (gnu_parse gnu_new (inl (Std 1690000000 0)) (%"583344214028year")) (positive 18408565361559340800 0);
  same deqb (gnu_global_parse (inl (Std 1690000000 0)) (%"583344214028year")) (positive 18408565361559340800 0);
  same deqb (gnu_parse gnu_new (inl (Std 1690000000 0)) (%"sec2")) (positive 3 0);
  same deqb (gnu_global_parse (inl (Std 1690000000 0)) (%"sec2")) (positive 3 0)] = true.
Proof. vm_compute. reflexivity. Qed.

(* fundu-gnu/tests/test_relative_time_parser.rs:102: 40 assertions *)
Example test_parser_parse_invalid_input : all_pass [
  same deqb (gnu_parse gnu_new (inl (Std 1690000000 0)) (%"+minute agotomorrow year")) (Err (InvalidInput (%"agotomorrow year")));
  same deqb (gnu_global_parse (inl (Std 1690000000 0)) (%"+minute agotomorrow year")) (Err (InvalidInput (%"agotomorrow year")));
  same deqb (gnu_parse gnu_new (inl (Std 1690000000 0)) (%"")) (Err Empty);
  same deqb (gnu_global_parse (inl (Std 1690000000 0)) (%"")) (Err Empty);
  same deqb (gnu_parse gnu_new (inl (Std 1690000000 0)) (%"    ")) (Err Empty);
  same deqb (gnu_global_parse (inl (Std 1690000000 0)) (%"    ")) (Err Empty);
  same deqb (gnu_parse gnu_new (inl (Std 1690000000 0)) (%".1")) (Err (InvalidInput (%"Fraction without a whole number")));
  same deqb (gnu_global_parse (inl (Std 1690000000 0)) (%".1")) (Err (InvalidInput (%"Fraction without a whole number")));
  same deqb (gnu_parse gnu_new (inl (Std 1690000000 0)) (%".1sec")) (Err (InvalidInput (%"Fraction without a whole number")));
  same deqb (gnu_global_parse (inl (Std 1690000000 0)) (%".1sec")) (Err (InvalidInput (%"Fraction without a whole number")));
  same deqb (gnu_parse gnu_new (inl (Std 1690000000 0)) (%"1.")) (Err (InvalidInput (%"Fraction without a fractional number")));
  same deqb (gnu_global_parse (inl (Std 1690000000 0)) (%"1.")) (Err (InvalidInput (%"Fraction without a fractional number")));
  same deqb (gnu_parse gnu_new (inl (Std 1690000000 0)) (%"1.sec")) (Err (InvalidInput (%"Fraction without a fractional number")));
  same deqb (gnu_global_parse (inl (Std 1690000000 0)) (%"1.sec")) (Err (InvalidInput (%"Fraction without a fractional number")));
  same deqb (gnu_parse gnu_new (inl (Std 1690000000 0)) [50; 46; 10; 48]) (Err (InvalidInput (%"Fraction without a fractional number")));
  same deqb (gnu_global_parse (inl (Std 1690000000 0)) [50; 46; 10; 48]) (Err (InvalidInput (%"Fraction without a fractional number")));
  same deqb (gnu_parse gnu_new (inl (Std 1690000000 0)) (%"2..0")) (Err (InvalidInput (%"Fraction without a fractional number")));
  same deqb (gnu_global_parse (inl (Std 1690000000 0)) (%"2..0")) (Err (InvalidInput (%"Fraction without a fractional number")));
  same deqb (gnu_parse gnu_new (inl (Std 1690000000 0)) (%"1e2")) (Err (Syntax 1%nat (%"No exponent allowed")));
  same deqb (gnu_global_parse (inl (Std 1690000000 0)) (%"1e2")) (Err (Syntax 1%nat (%"No exponent allowed")));
  same deqb (gnu_parse gnu_new (inl (Std 1690000000 0)) (%"inf")) (Err (InvalidInput (%"inf")));
  same deqb (gnu_global_parse (inl (Std 1690000000 0)) (%"inf")) (Err (InvalidInput (%"inf")));
  same deqb (gnu_parse gnu_new (inl (Std 1690000000 0)) (%"infinity")) (Err (InvalidInput (%"infinity")));
  same deqb (gnu_global_parse (inl (Std 1690000000 0)) (%"infinity")) (Err (InvalidInput (%"infinity")));
  same deqb (gnu_parse gnu_new (inl (Std 1690000000 0)) (%"1 ago")) (Err (InvalidInput (%"ago")));
  same deqb (gnu_global_parse (inl (Std 1690000000 0)) (%"1 ago")) (Err (InvalidInput (%"ago")));
  same deqb (gnu_parse gnu_new (inl (Std 1690000000 0)) (%"today ago")) (Err (InvalidInput (%"ago")));
  same deqb (gnu_global_parse (inl (Std 1690000000 0)) (%"today ago")) (Err (InvalidInput (%"ago")));
  same deqb (gnu_parse gnu_new (inl (Std 1690000000 0)) (%"1.1year")) (Err (InvalidInput (%"Fraction only allowed together with seconds as time unit")));
  same deqb (gnu_global_parse (inl (Std 1690000000 0)) (%"1.1year")) (Err (InvalidInput (%"Fraction only allowed together with seconds as time unit")));
  same deqb (gnu_parse gnu_new (inl (Std 1690000000 0)) (%"1.1minute")) (Err (InvalidInput (%"Fraction only allowed together with seconds as time unit")));
  same deqb (gnu_global_parse (inl (Std 1690000000 0)) (%"1.1minute")) (Err (InvalidInput (%"Fraction only allowed together with seconds as time unit")));
  same deqb (gnu_parse gnu_new (inl (Std 1690000000 0)) (%"222222222222222222222222222222year")) (Err Overflow);
  same deqb (gnu_global_parse (inl (Std 1690000000 0)) (%"222222222222222222222222222222year")) (Err Overflow);
  same deqb (gnu_parse gnu_new (inl (Std 1690000000 0)) (%"+")) (Err (Syntax 1%nat (%"Unexpected end of input. Sign without a number")));
  same deqb (gnu_global_parse (inl (Std 1690000000 0)) (%"+")) (Err (Syntax 1%nat (%"Unexpected end of input. Sign without a number")));
  same deqb (gnu_parse gnu_new (inl (Std 1690000000 0)) (%"1sec +")) (Err (Syntax 6%nat (%"Unexpected end of input. Sign without a number")));
  same deqb (gnu_global_parse (inl (Std 1690000000 0)) (%"1sec +")) (Err (Syntax 6%nat (%"Unexpected end of input. Sign without a number")));
  same deqb (gnu_parse gnu_new (inl (Std 1690000000 0)) (%"1sec +   ")) (Err (Syntax 6%nat (%"Unexpected end of input. Sign without a number")));
  same deqb (gnu_global_parse (inl (Std 1690000000 0)) (%"1sec +   ")) (Err (Syntax 6%nat (%"Unexpected end of input. Sign without a number")))] = true.
Proof. vm_compute. reflexivity. Qed.

(* fundu-gnu/tests/test_relative_time_parser.rs:113: 2 assertions *)
Example test_parser_parse_with_invalid_time_units : all_pass [
  same deqb (gnu_parse gnu_new (inl (Std 1690000000 0)) (%"s")) (Err (InvalidInput (%"s")));
  same deqb (gnu_parse gnu_new (inl (Std 1690000000 0)) (%"secondss")) (Err (InvalidInput (%"secondss")))] = true.
Proof. vm_compute. reflexivity. Qed.

(* fundu-gnu/tests/test_relative_time_parser.rs:128: 16 assertions *)
Example test_parser_parse_with_valid_time_units_blank : all_pass [
  same deqb (gnu_parse gnu_new (inl (Std 1690000000 0)) (%"sec")) (positive 1 0);
  same deqb (gnu_parse gnu_new (inl (Std 1690000000 0)) (%"secs")) (positive 1 0);
  same deqb (gnu_parse gnu_new (inl (Std 1690000000 0)) (%"second")) (positive 1 0);
  same deqb (gnu_parse gnu_new (inl (Std 1690000000 0)) (%"seconds")) (positive 1 0);
  same deqb (gnu_parse gnu_new (inl (Std 1690000000 0)) (%"min")) (positive 60 0);
  same deqb (gnu_parse gnu_new (inl (Std 1690000000 0)) (%"mins")) (positive 60 0);
  same deqb (gnu_parse gnu_new (inl (Std 1690000000 0)) (%"minute")) (positive 60 0);
  same deqb (gnu_parse gnu_new (inl (Std 1690000000 0)) (%"minutes")) (positive 60 0);
  same deqb (gnu_parse gnu_new (inl (Std 1690000000 0)) (%"hour")) (positive 3600 0);
  same deqb (gnu_parse gnu_new (inl (Std 1690000000 0)) (%"hours")) (positive 3600 0);
  same deqb (gnu_parse gnu_new (inl (Std 1690000000 0)) (%"day")) (positive 86400 0);
  same deqb (gnu_parse gnu_new (inl (Std 1690000000 0)) (%"days")) (positive 86400 0);
  same deqb (gnu_parse gnu_new (inl (Std 1690000000 0)) (%"week")) (positive 604800 0);
  same deqb (gnu_parse gnu_new (inl (Std 1690000000 0)) (%"weeks")) (positive 604800 0);
  same deqb (gnu_parse gnu_new (inl (Std 1690000000 0)) (%"fortnight")) (positive 1209600 0);
  same deqb (gnu_parse gnu_new (inl (Std 1690000000 0)) (%"fortnights")) (positive 1209600 0)] = true.
Proof. vm_compute. reflexivity. Qed.

(* fundu-gnu/tests/test_relative_time_parser.rs:135: 16 assertions *)
Example test_parser_parse_with_valid_time_units_uppercase : all_pass [
  same deqb (gnu_parse gnu_new (inl (Std 1690000000 0)) (%"SEC")) (positive 1 0);
  same deqb (gnu_parse gnu_new (inl (Std 1690000000 0)) (%"SECS")) (positive 1 0);
  same deqb (gnu_parse gnu_new (inl (Std 1690000000 0)) (%"SECOND")) (positive 1 0);
  same deqb (gnu_parse gnu_new (inl (Std 1690000000 0)) (%"SECONDS")) (positive 1 0);
  same deqb (gnu_parse gnu_new (inl (Std 1690000000 0)) (%"MIN")) (positive 60 0);
  same deqb (gnu_parse gnu_new (inl (Std 1690000000 0)) (%"MINS")) (positive 60 0);
  same deqb (gnu_parse gnu_new (inl (Std 1690000000 0)) (%"MINUTE")) (positive 60 0);
  same deqb (gnu_parse gnu_new (inl (Std 1690000000 0)) (%"MINUTES")) (positive 60 0);
  same deqb (gnu_parse gnu_new (inl (Std 1690000000 0)) (%"HOUR")) (positive 3600 0);
  same deqb (gnu_parse gnu_new (inl (Std 1690000000 0)) (%"HOURS")) (positive 3600 0);
  same deqb (gnu_parse gnu_new (inl (Std 1690000000 0)) (%"DAY")) (positive 86400 0);
  same deqb (gnu_parse gnu_new (inl (Std 1690000000 0)) (%"DAYS")) (positive 86400 0);
  same deqb (gnu_parse gnu_new (inl (Std 1690000000 0)) (%"WEEK")) (positive 604800 0);
  same deqb (gnu_parse gnu_new (inl (Std 1690000000 0)) (%"WEEKS")) (positive 604800 0);
  same deqb (gnu_parse gnu_new (inl (Std 1690000000 0)) (%"FORTNIGHT")) (positive 1209600 0);
  same deqb (gnu_parse gnu_new (inl (Std 1690000000 0)) (%"FORTNIGHTS")) (positive 1209600 0)] = true.
Proof. vm_compute. reflexivity. Qed.

(* fundu-gnu/tests/test_relative_time_parser.rs:145: 16 assertions *)
Example test_parser_parse_with_valid_time_units_with_number : all_pass [
  same deqb (gnu_parse gnu_new (inl (Std 1690000000 0)) (%"1sec")) (positive 1 0);
  same deqb (gnu_parse gnu_new (inl (Std 1690000000 0)) (%"1secs")) (positive 1 0);
  same deqb (gnu_parse gnu_new (inl (Std 1690000000 0)) (%"1second")) (positive 1 0);
  same deqb (gnu_parse gnu_new (inl (Std 1690000000 0)) (%"1seconds")) (positive 1 0);
  same deqb (gnu_parse gnu_new (inl (Std 1690000000 0)) (%"1min")) (positive 60 0);
  same deqb (gnu_parse gnu_new (inl (Std 1690000000 0)) (%"1mins")) (positive 60 0);
  same deqb (gnu_parse gnu_new (inl (Std 1690000000 0)) (%"1minute")) (positive 60 0);
  same deqb (gnu_parse gnu_new (inl (Std 1690000000 0)) (%"1minutes")) (positive 60 0);
  same deqb (gnu_parse gnu_new (inl (Std 1690000000 0)) (%"1hour")) (positive 3600 0);
  same deqb (gnu_parse gnu_new (inl (Std 1690000000 0)) (%"1hours")) (positive 3600 0);
  same deqb (gnu_parse gnu_new (inl (Std 1690000000 0)) (%"1day")) (positive 86400 0);
  same deqb (gnu_parse gnu_new (inl (Std 1690000000 0)) (%"1days")) (positive 86400 0);
  same deqb (gnu_parse gnu_new (inl (Std 1690000000 0)) (%"1week")) (positive 604800 0);
  same deqb (gnu_parse gnu_new (inl (Std 1690000000 0)) (%"1weeks")) (positive 604800 0);
  same deqb (gnu_parse gnu_new (inl (Std 1690000000 0)) (%"1fortnight")) (positive 1209600 0);
  same deqb (gnu_parse gnu_new (inl (Std 1690000000 0)) (%"1fortnights")) (positive 1209600 0)] = true.
Proof. vm_compute. reflexivity. Qed.

(* fundu-gnu/tests/test_relative_time_parser.rs:169: 14 assertions *)
Example test_parser_parse_with_just_time_unit_when_ago_or_negative : all_pass [
  same deqb (gnu_parse gnu_new (inl (Std 1690000000 0)) (%"-0second")) (Ok ZERO);
  same deqb (gnu_parse gnu_new (inl (Std 1690000000 0)) (%"-1second")) (negative 1 0);
  same deqb (gnu_parse gnu_new (inl (Std 1690000000 0)) (%"-2second")) (negative 2 0);
  same deqb (gnu_parse gnu_new (inl (Std 1690000000 0)) (%"-second")) (negative 1 0);
  same deqb (gnu_parse gnu_new (inl (Std 1690000000 0)) (%"second ago")) (negative 1 0);
  same deqb (gnu_parse gnu_new (inl (Std 1690000000 0)) (%"+second ago")) (negative 1 0);
  same deqb (gnu_parse gnu_new (inl (Std 1690000000 0)) (%"-second ago")) (positive 1 0);
  same deqb (gnu_parse gnu_new (inl (Std 1690000000 0)) (%"-0minute")) (Ok ZERO);
  same deqb (gnu_parse gnu_new (inl (Std 1690000000 0)) (%"-1minute")) (negative 60 0);
  same deqb (gnu_parse gnu_new (inl (Std 1690000000 0)) (%"-2minute")) (negative 120 0);
  same deqb (gnu_parse gnu_new (inl (Std 1690000000 0)) (%"-minute")) (negative 60 0);
  same deqb (gnu_parse gnu_new (inl (Std 1690000000 0)) (%"minute ago")) (negative 60 0);
  same deqb (gnu_parse gnu_new (inl (Std 1690000000 0)) (%"+minute ago")) (negative 60 0);
  same deqb (gnu_parse gnu_new (inl (Std 1690000000 0)) (%"-minute ago")) (positive 60 0)] = true.
Proof. vm_compute. reflexivity. Qed.

(* fundu-gnu/tests/test_relative_time_parser.rs:180: 8 assertions *)
Example test_parser_parse_with_date_when_valid_fuzzy_time_units : all_pass [
  same deqb (let* x := (from_time_calendar (Cal 1970 1 1 0 0 0 0)) in gnu_parse_with_date gnu_new (inl (Std 1690000000 0)) (%"month") (Some x)) (positive 2678400 0);
  same deqb (let* x := (from_time_calendar (Cal 1970 1 1 0 0 0 0)) in gnu_global_parse_with_date (inl (Std 1690000000 0)) (%"month") (Some x)) (positive 2678400 0);
  same deqb (let* x := (from_time_calendar (Cal 1970 1 1 0 0 0 0)) in gnu_parse_with_date gnu_new (inl (Std 1690000000 0)) (%"months") (Some x)) (positive 2678400 0);
  same deqb (let* x := (from_time_calendar (Cal 1970 1 1 0 0 0 0)) in gnu_global_parse_with_date (inl (Std 1690000000 0)) (%"months") (Some x)) (positive 2678400 0);
  same deqb (let* x := (from_time_calendar (Cal 1970 1 1 0 0 0 0)) in gnu_parse_with_date gnu_new (inl (Std 1690000000 0)) (%"year") (Some x)) (positive 31536000 0);
  same deqb (let* x := (from_time_calendar (Cal 1970 1 1 0 0 0 0)) in gnu_global_parse_with_date (inl (Std 1690000000 0)) (%"year") (Some x)) (positive 31536000 0);
  same deqb (let* x := (from_time_calendar (Cal 1970 1 1 0 0 0 0)) in gnu_parse_with_date gnu_new (inl (Std 1690000000 0)) (%"years") (Some x)) (positive 31536000 0);
  same deqb (let* x := (from_time_calendar (Cal 1970 1 1 0 0 0 0)) in gnu_global_parse_with_date (inl (Std 1690000000 0)) (%"years") (Some x)) (positive 31536000 0)] = true.
Proof. vm_compute. reflexivity. Qed.

(* fundu-gnu/tests/test_relative_time_parser.rs:235: 38 assertions *)
Example test_parser_parse_with_date_when_fuzzy : all_pass [
  same deqb (let* x := (from_time_calendar (Cal 999999 12 31 23 59 59 999999999)) in gnu_parse_with_date gnu_new (inl (Std 1690000000 0)) (%"+0.000000001sec") (Some x)) (positive 0 1);
  same deqb (let* x := (from_time_calendar (Cal 999999 12 31 23 59 59 999999999)) in gnu_global_parse_with_date (inl (Std 1690000000 0)) (%"+0.000000001sec") (Some x)) (positive 0 1);
  same deqb (let* x := (from_time_calendar (Cal 1970 12 31 23 59 59 999999999)) in gnu_parse_with_date gnu_new (inl (Std 1690000000 0)) (%"-year") (Some x)) (negative 31536000 0);
  same deqb (let* x := (from_time_calendar (Cal 1970 12 31 23 59 59 999999999)) in gnu_global_parse_with_date (inl (Std 1690000000 0)) (%"-year") (Some x)) (negative 31536000 0);
  same deqb (let* x := (from_time_calendar (Cal 1972 1 1 0 0 0 0)) in gnu_parse_with_date gnu_new (inl (Std 1690000000 0)) (%"year") (Some x)) (positive 31622400 0);
  same deqb (let* x := (from_time_calendar (Cal 1972 1 1 0 0 0 0)) in gnu_global_parse_with_date (inl (Std 1690000000 0)) (%"year") (Some x)) (positive 31622400 0);
  same deqb (let* x := (from_time_calendar (Cal 1972 1 29 0 0 0 0)) in gnu_parse_with_date gnu_new (inl (Std 1690000000 0)) (%"month") (Some x)) (positive 2678400 0);
  same deqb (let* x := (from_time_calendar (Cal 1972 1 29 0 0 0 0)) in gnu_global_parse_with_date (inl (Std 1690000000 0)) (%"month") (Some x)) (positive 2678400 0);
  same deqb (let* x := (from_time_calendar (Cal 1970 4 30 0 0 0 0)) in gnu_parse_with_date gnu_new (inl (Std 1690000000 0)) (%"month") (Some x)) (positive 2592000 0);
  same deqb (let* x := (from_time_calendar (Cal 1970 4 30 0 0 0 0)) in gnu_global_parse_with_date (inl (Std 1690000000 0)) (%"month") (Some x)) (positive 2592000 0);
  same deqb (let* x := (from_time_calendar (Cal (-999999) 1 1 0 0 0 0)) in gnu_parse_with_date gnu_new (inl (Std 1690000000 0)) (%"month") (Some x)) (positive 2678400 0);
  same deqb (let* x := (from_time_calendar (Cal (-999999) 1 1 0 0 0 0)) in gnu_global_parse_with_date (inl (Std 1690000000 0)) (%"month") (Some x)) (positive 2678400 0);
  same deqb (let* x := (from_time_calendar (Cal 1972 12 31 23 59 59 999999999)) in gnu_parse_with_date gnu_new (inl (Std 1690000000 0)) (%"-year") (Some x)) (negative 31622400 0);
  same deqb (let* x := (from_time_calendar (Cal 1972 12 31 23 59 59 999999999)) in gnu_global_parse_with_date (inl (Std 1690000000 0)) (%"-year") (Some x)) (negative 31622400 0);
  same deqb (let* x := (from_time_calendar (Cal 999999 12 31 23 59 59 999999999)) in gnu_parse_with_date gnu_new (inl (Std 1690000000 0)) (%"-year") (Some x)) (negative 31536000 0);
  same deqb (let* x := (from_time_calendar (Cal 999999 12 31 23 59 59 999999999)) in gnu_global_parse_with_date (inl (Std 1690000000 0)) (%"-year") (Some x)) (negative 31536000 0);
  same deqb (let* x := (from_time_calendar (Cal 1970 1 31 0 0 0 0)) in gnu_parse_with_date gnu_new (inl (Std 1690000000 0)) (%"-month") (Some x)) (negative 2678400 0);
  same deqb (let* x := (from_time_calendar (Cal 1970 1 31 0 0 0 0)) in gnu_global_parse_with_date (inl (Std 1690000000 0)) (%"-month") (Some x)) (negative 2678400 0);
  same deqb (let* x := (from_time_calendar (Cal 1970 1 1 0 0 0 0)) in gnu_parse_with_date gnu_new (inl (Std 1690000000 0)) (%"-month") (Some x)) (negative 2678400 0);
  same deqb (let* x := (from_time_calendar (Cal 1970 1 1 0 0 0 0)) in gnu_global_parse_with_date (inl (Std 1690000000 0)) (%"-month") (Some x)) (negative 2678400 0);
  same deqb (let* x := (from_time_calendar (Cal 1970 1 1 0 0 0 0)) in gnu_parse_with_date gnu_new (inl (Std 1690000000 0)) (%"-year") (Some x)) (negative 31536000 0);
  same deqb (let* x := (from_time_calendar (Cal 1970 1 1 0 0 0 0)) in gnu_global_parse_with_date (inl (Std 1690000000 0)) (%"-year") (Some x)) (negative 31536000 0);
  same deqb (let* x := (from_time_calendar (Cal 1970 1 1 0 0 0 0)) in gnu_parse_with_date gnu_new (inl (Std 1690000000 0)) (%"-12month") (Some x)) (negative 31536000 0);
  same deqb (let* x := (from_time_calendar (Cal 1970 1 1 0 0 0 0)) in gnu_global_parse_with_date (inl (Std 1690000000 0)) (%"-12month") (Some x)) (negative 31536000 0);
  same deqb (let* x := (from_time_calendar (Cal 1970 1 1 0 0 0 0)) in gnu_parse_with_date gnu_new (inl (Std 1690000000 0)) (%"-2year") (Some x)) (negative 63158400 0);
  same deqb (let* x := (from_time_calendar (Cal 1970 1 1 0 0 0 0)) in gnu_global_parse_with_date (inl (Std 1690000000 0)) (%"-2year") (Some x)) (negative 63158400 0);
  same deqb (let* x := (from_time_calendar (Cal 1970 1 1 0 0 0 0)) in gnu_parse_with_date gnu_new (inl (Std 1690000000 0)) (%"-24month") (Some x)) (negative 63158400 0);
  same deqb (let* x := (from_time_calendar (Cal 1970 1 1 0 0 0 0)) in gnu_global_parse_with_date (inl (Std 1690000000 0)) (%"-24month") (Some x)) (negative 63158400 0);
  same deqb (let* x := (from_time_calendar (Cal 1970 1 28 0 0 0 0)) in gnu_parse_with_date gnu_new (inl (Std 1690000000 0)) (%"4days +month") (Some x)) (positive 2764800 0);
  same deqb (let* x := (from_time_calendar (Cal 1970 1 28 0 0 0 0)) in gnu_global_parse_with_date (inl (Std 1690000000 0)) (%"4days +month") (Some x)) (positive 2764800 0);
  same deqb (let* x := (from_time_calendar (Cal 1970 1 28 0 0 0 0)) in gnu_parse_with_date gnu_new (inl (Std 1690000000 0)) (%"1month 1day") (Some x)) (positive 2764800 0);
  same deqb (let* x := (from_time_calendar (Cal 1970 1 28 0 0 0 0)) in gnu_global_parse_with_date (inl (Std 1690000000 0)) (%"1month 1day") (Some x)) (positive 2764800 0);
  same deqb (let* x := (from_time_calendar (Cal 1970 1 29 0 0 0 0)) in gnu_parse_with_date gnu_new (inl (Std 1690000000 0)) (%"month") (Some x)) (positive 2678400 0);
  same deqb (let* x := (from_time_calendar (Cal 1970 1 29 0 0 0 0)) in gnu_global_parse_with_date (inl (Std 1690000000 0)) (%"month") (Some x)) (positive 2678400 0);
  same deqb (let* x := (from_time_calendar (Cal 1970 1 31 0 0 0 0)) in gnu_parse_with_date gnu_new (inl (Std 1690000000 0)) (%"month") (Some x)) (positive 2678400 0);
  same deqb (let* x := (from_time_calendar (Cal 1970 1 31 0 0 0 0)) in gnu_global_parse_with_date (inl (Std 1690000000 0)) (%"month") (Some x)) (positive 2678400 0);
  same deqb (let* x := (from_time_calendar (Cal 999999 12 31 23 59 59 999999999)) in gnu_parse_with_date gnu_new (inl (Std 1690000000 0)) (%"+1year") (Some x)) (positive 31622400 0);
  same deqb (let* x := (from_time_calendar (Cal 999999 12 31 23 59 59 999999999)) in gnu_global_parse_with_date (inl (Std 1690000000 0)) (%"+1year") (Some x)) (positive 31622400 0)] = true.
Proof. vm_compute. reflexivity. Qed.

(* fundu-gnu/tests/test_relative_time_parser.rs:253: 8 assertions *)
Example test_parser_parse_with_date_when_fuzzy_unit_and_normal_units : all_pass [
  same deqb (let* x := (from_time_calendar (Cal 1972 1 1 0 0 0 0)) in gnu_parse_with_date gnu_new (inl (Std 1690000000 0)) (%"year +9sec") (Some x)) (positive 31622409 0);
  same deqb (let* x := (from_time_calendar (Cal 1972 1 1 0 0 0 0)) in gnu_global_parse_with_date (inl (Std 1690000000 0)) (%"year +9sec") (Some x)) (positive 31622409 0);
  same deqb (let* x := (from_time_calendar (Cal 1972 1 1 0 0 0 0)) in gnu_parse_with_date gnu_new (inl (Std 1690000000 0)) (%"year +9hour") (Some x)) (positive 31654800 0);
  same deqb (let* x := (from_time_calendar (Cal 1972 1 1 0 0 0 0)) in gnu_global_parse_with_date (inl (Std 1690000000 0)) (%"year +9hour") (Some x)) (positive 31654800 0);
  same deqb (let* x := (from_time_calendar (Cal 1972 1 1 0 0 0 0)) in gnu_parse_with_date gnu_new (inl (Std 1690000000 0)) (%"year +100hour") (Some x)) (positive 31982400 0);
  same deqb (let* x := (from_time_calendar (Cal 1972 1 1 0 0 0 0)) in gnu_global_parse_with_date (inl (Std 1690000000 0)) (%"year +100hour") (Some x)) (positive 31982400 0);
  same deqb (let* x := (from_time_calendar (Cal 1972 1 1 0 0 0 0)) in gnu_parse_with_date gnu_new (inl (Std 1690000000 0)) (%"year +100hour +0.000000001") (Some x)) (positive 31982400 1);
  same deqb (let* x := (from_time_calendar (Cal 1972 1 1 0 0 0 0)) in gnu_global_parse_with_date (inl (Std 1690000000 0)) (%"year +100hour +0.000000001") (Some x)) (positive 31982400 1)] = true.
Proof. vm_compute. reflexivity. Qed.

(* fundu-gnu/tests/test_relative_time_parser.rs:270: 4 assertions *)
Example test_parser_parse_with_valid_keywords : all_pass [
  same deqb (gnu_parse gnu_new (inl (Std 1690000000 0)) (%"yesterday")) (negative 86400 0);
  same deqb (gnu_parse gnu_new (inl (Std 1690000000 0)) (%"tomorrow")) (positive 86400 0);
  same deqb (gnu_parse gnu_new (inl (Std 1690000000 0)) (%"today")) (Ok ZERO);
  same deqb (gnu_parse gnu_new (inl (Std 1690000000 0)) (%"now")) (Ok ZERO)] = true.
Proof. vm_compute. reflexivity. Qed.

(* fundu-gnu/tests/test_relative_time_parser.rs:280: 5 assertions *)
Example test_parser_trims_whitespace : all_pass [
  same deqb (gnu_parse gnu_new (inl (Std 1690000000 0)) (%"    1sec")) (positive 1 0);
  same deqb (gnu_parse gnu_new (inl (Std 1690000000 0)) [9; 10; 11; 12; 13; 32; 49; 115; 101; 99]) (positive 1 0);
  same deqb (gnu_parse gnu_new (inl (Std 1690000000 0)) (%"1sec   ")) (positive 1 0);
  same deqb (gnu_parse gnu_new (inl (Std 1690000000 0)) [49; 115; 101; 99; 32; 9; 10; 11; 12; 13]) (positive 1 0);
  same deqb (gnu_parse gnu_new (inl (Std 1690000000 0)) (%"  1sec  ")) (positive 1 0)] = true.
Proof. vm_compute. reflexivity. Qed.

(* fundu-gnu/tests/test_relative_time_parser.rs:296: 8 assertions *)
Example test_parser_when_overflow : all_pass [
  same deqb (gnu_parse gnu_new (inl (Std 1690000000 0)) (%"18446744073709551616")) (Ok MAX);
  same deqb (gnu_parse gnu_new (inl (Std 1690000000 0)) (%"18446744073709551616.0")) (Ok MAX);
  same deqb (gnu_parse gnu_new (inl (Std 1690000000 0)) (%"-18446744073709551616")) (Ok MIN);
  same deqb (gnu_parse gnu_new (inl (Std 1690000000 0)) (%"-18446744073709551616.0")) (Ok MIN);
  same deqb (gnu_parse gnu_new (inl (Std 1690000000 0)) (%"340282366920938463463374607431768211455")) (Ok MAX);
  same deqb (gnu_parse gnu_new (inl (Std 1690000000 0)) (%"-340282366920938463463374607431768211455")) (Ok MIN);
  same deqb (gnu_parse gnu_new (inl (Std 1690000000 0)) (%"18446744073709551614min")) (Ok MAX);
  same deqb (gnu_parse gnu_new (inl (Std 1690000000 0)) (%"-18446744073709551614min")) (Ok MIN)] = true.
Proof. vm_compute. reflexivity. Qed.

(* fundu-gnu/tests/test_relative_time_parser.rs:310: 9 assertions *)
Example test_parser_parse_fuzzy : all_pass [
  same fuzzy_eqb (gnu_parse_fuzzy gnu_new (%"22222222222222222222days")) (let* a := (Ok 0) in let* b := (Ok 0) in let* c := (Ok MAX) in Ok (a, b, c));
  same fuzzy_eqb (gnu_parse_fuzzy gnu_new (%"-22222222222222222222days")) (let* a := (Ok 0) in let* b := (Ok 0) in let* c := (Ok MIN) in Ok (a, b, c));
  same fuzzy_eqb (gnu_parse_fuzzy gnu_new (%"22222222222222222222year")) (let* a := (Ok 9223372036854775807) in let* b := (Ok 0) in let* c := (Ok ZERO) in Ok (a, b, c));
  same fuzzy_eqb (gnu_parse_fuzzy gnu_new (%"-22222222222222222222year")) (let* a := (Ok (-9223372036854775808)) in let* b := (Ok 0) in let* c := (Ok ZERO) in Ok (a, b, c));
  same fuzzy_eqb (gnu_parse_fuzzy gnu_new (%"-18446744073709551615year")) (let* a := (Ok (-9223372036854775808)) in let* b := (Ok 0) in let* c := (Ok ZERO) in Ok (a, b, c));
  same fuzzy_eqb (gnu_parse_fuzzy gnu_new (%"18446744073709551615year")) (let* a := (Ok 9223372036854775807) in let* b := (Ok 0) in let* c := (Ok ZERO) in Ok (a, b, c));
  same fuzzy_eqb (gnu_parse_fuzzy gnu_new (%"22222222222222222222month")) (let* a := (Ok 0) in let* b := (Ok 9223372036854775807) in let* c := (Ok ZERO) in Ok (a, b, c));
  same fuzzy_eqb (gnu_parse_fuzzy gnu_new (%"-22222222222222222222month")) (let* a := (Ok 0) in let* b := (Ok (-9223372036854775808)) in let* c := (Ok ZERO) in Ok (a, b, c));
  same fuzzy_eqb (gnu_parse_fuzzy gnu_new (%"22222222222222222222year 22222222222222222222month")) (let* a := (Ok 9223372036854775807) in let* b := (Ok 9223372036854775807) in let* c := (Ok ZERO) in Ok (a, b, c))] = true.
Proof. vm_compute. reflexivity. Qed.

(* fundu-gnu/tests/test_relative_time_parser.rs:316: 28 assertions *)
Example test_parser_numerals_with_not_fuzzy_time_units : all_pass [
  same deqb (gnu_parse gnu_new (inl (Std 1690000000 0)) (%"last sec")) (map_res (from_std true) (std_new 1 0));
  same deqb (gnu_parse gnu_new (inl (Std 1690000000 0)) (%"last min")) (map_res (from_std true) (std_new 60 0));
  same deqb (gnu_parse gnu_new (inl (Std 1690000000 0)) (%"this sec")) (map_res (from_std false) (std_new 0 0));
  same deqb (gnu_parse gnu_new (inl (Std 1690000000 0)) (%"this min")) (map_res (from_std false) (std_new 0 0));
  same deqb (gnu_parse gnu_new (inl (Std 1690000000 0)) (%"next sec")) (map_res (from_std false) (std_new 1 0));
  same deqb (gnu_parse gnu_new (inl (Std 1690000000 0)) (%"next min")) (map_res (from_std false) (std_new 60 0));
  same deqb (gnu_parse gnu_new (inl (Std 1690000000 0)) (%"first sec")) (map_res (from_std false) (std_new 1 0));
  same deqb (gnu_parse gnu_new (inl (Std 1690000000 0)) (%"first min")) (map_res (from_std false) (std_new 60 0));
  same deqb (gnu_parse gnu_new (inl (Std 1690000000 0)) (%"third sec")) (map_res (from_std false) (std_new 3 0));
  same deqb (gnu_parse gnu_new (inl (Std 1690000000 0)) (%"third min")) (map_res (from_std false) (std_new 180 0));
  same deqb (gnu_parse gnu_new (inl (Std 1690000000 0)) (%"fourth sec")) (map_res (from_std false) (std_new 4 0));
  same deqb (gnu_parse gnu_new (inl (Std 1690000000 0)) (%"fourth min")) (map_res (from_std false) (std_new 240 0));
  same deqb (gnu_parse gnu_new (inl (Std 1690000000 0)) (%"fifth sec")) (map_res (from_std false) (std_new 5 0));
  same deqb (gnu_parse gnu_new (inl (Std 1690000000 0)) (%"fifth min")) (map_res (from_std false) (std_new 300 0));
  same deqb (gnu_parse gnu_new (inl (Std 1690000000 0)) (%"sixth sec")) (map_res (from_std false) (std_new 6 0));
  same deqb (gnu_parse gnu_new (inl (Std 1690000000 0)) (%"sixth min")) (map_res (from_std false) (std_new 360 0));
  same deqb (gnu_parse gnu_new (inl (Std 1690000000 0)) (%"seventh sec")) (map_res (from_std false) (std_new 7 0));
  same deqb (gnu_parse gnu_new (inl (Std 1690000000 0)) (%"seventh min")) (map_res (from_std false) (std_new 420 0));
  same deqb (gnu_parse gnu_new (inl (Std 1690000000 0)) (%"eighth sec")) (map_res (from_std false) (std_new 8 0));
  same deqb (gnu_parse gnu_new (inl (Std 1690000000 0)) (%"eighth min")) (map_res (from_std false) (std_new 480 0));
  same deqb (gnu_parse gnu_new (inl (Std 1690000000 0)) (%"ninth sec")) (map_res (from_std false) (std_new 9 0));
  same deqb (gnu_parse gnu_new (inl (Std 1690000000 0)) (%"ninth min")) (map_res (from_std false) (std_new 540 0));
  same deqb (gnu_parse gnu_new (inl (Std 1690000000 0)) (%"tenth sec")) (map_res (from_std false) (std_new 10 0));
  same deqb (gnu_parse gnu_new (inl (Std 1690000000 0)) (%"tenth min")) (map_res (from_std false) (std_new 600 0));
  same deqb (gnu_parse gnu_new (inl (Std 1690000000 0)) (%"eleventh sec")) (map_res (from_std false) (std_new 11 0));
  same deqb (gnu_parse gnu_new (inl (Std 1690000000 0)) (%"eleventh min")) (map_res (from_std false) (std_new 660 0));
  same deqb (gnu_parse gnu_new (inl (Std 1690000000 0)) (%"twelfth sec")) (map_res (from_std false) (std_new 12 0));
  same deqb (gnu_parse gnu_new (inl (Std 1690000000 0)) (%"twelfth min")) (map_res (from_std false) (std_new 720 0))] = true.
Proof. vm_compute. reflexivity. Qed.

(* fundu-gnu/tests/test_relative_time_parser.rs:358: 8 assertions *)
Example test_parser_with_invalid_numerals_then_error : all_pass [
  same deqb (gnu_parse gnu_new (inl (Std 1690000000 0)) (%"aaa sec")) (Err (InvalidInput (%"aaa sec")));
  same deqb (gnu_parse gnu_new (inl (Std 1690000000 0)) (%"aaaa sec")) (Err (InvalidInput (%"aaaa sec")));
  same deqb (gnu_parse gnu_new (inl (Std 1690000000 0)) (%"aaaaa sec")) (Err (InvalidInput (%"aaaaa sec")));
  same deqb (gnu_parse gnu_new (inl (Std 1690000000 0)) (%"aaaaaa sec")) (Err (InvalidInput (%"aaaaaa sec")));
  same deqb (gnu_parse gnu_new (inl (Std 1690000000 0)) (%"aaaaaaa sec")) (Err (InvalidInput (%"aaaaaaa sec")));
  same deqb (gnu_parse gnu_new (inl (Std 1690000000 0)) (%"aaaaaaaa sec")) (Err (InvalidInput (%"aaaaaaaa sec")));
  same deqb (gnu_parse gnu_new (inl (Std 1690000000 0)) (%"aaaaaaaaa sec")) (Err (InvalidInput (%"aaaaaaaaa sec")));
  same deqb (gnu_parse gnu_new (inl (Std 1690000000 0)) (%"aaaaaaaaaaaaaaaaa sec")) (Err (InvalidInput (%"aaaaaaaaaaaaaaaaa sec")))] = true.
Proof. vm_compute. reflexivity. Qed.

(* fundu-gnu/tests/test_relative_time_parser.rs:371: 4 assertions *)
Example test_parser_numerals_not_fuzzy_time_units_when_ago : all_pass [
  same deqb (gnu_parse gnu_new (inl (Std 1690000000 0)) (%"last minute ago")) (positive 60 0);
  same deqb (gnu_parse gnu_new (inl (Std 1690000000 0)) (%"this minute ago")) (Ok ZERO);
  same deqb (gnu_parse gnu_new (inl (Std 1690000000 0)) (%"next minute ago")) (negative 60 0);
  same deqb (gnu_parse gnu_new (inl (Std 1690000000 0)) (%"third minute ago")) (negative 180 0)] = true.
Proof. vm_compute. reflexivity. Qed.

(* fundu-gnu/tests/test_relative_time_parser.rs:394: 15 assertions *)
Example test_parser_numerals_with_fuzzy_time_unit : all_pass [
  same deqb (let* x := (from_gregorian_date_time 1970 8 1 0 0 0 0) in gnu_parse_with_date gnu_new (inl (Std 1690000000 0)) (%"last year") (Some x)) (negative 31536000 0);
  same deqb (let* x := (from_gregorian_date_time 1970 8 1 0 0 0 0) in gnu_parse_with_date gnu_new (inl (Std 1690000000 0)) (%"+last year") (Some x)) (negative 31536000 0);
  same deqb (let* x := (from_gregorian_date_time 1970 8 1 0 0 0 0) in gnu_parse_with_date gnu_new (inl (Std 1690000000 0)) (%"-last year") (Some x)) (positive 31536000 0);
  same deqb (let* x := (from_gregorian_date_time 1970 8 1 0 0 0 0) in gnu_parse_with_date gnu_new (inl (Std 1690000000 0)) (%"last year ago") (Some x)) (positive 31536000 0);
  same deqb (let* x := (from_gregorian_date_time 1970 8 1 0 0 0 0) in gnu_parse_with_date gnu_new (inl (Std 1690000000 0)) (%"this year") (Some x)) (Ok ZERO);
  same deqb (let* x := (from_gregorian_date_time 1970 8 1 0 0 0 0) in gnu_parse_with_date gnu_new (inl (Std 1690000000 0)) (%"-this year") (Some x)) (Ok ZERO);
  same deqb (let* x := (from_gregorian_date_time 1970 8 1 0 0 0 0) in gnu_parse_with_date gnu_new (inl (Std 1690000000 0)) (%"this year ago") (Some x)) (Ok ZERO);
  same deqb (let* x := (from_gregorian_date_time 1970 8 1 0 0 0 0) in gnu_parse_with_date gnu_new (inl (Std 1690000000 0)) (%"next year") (Some x)) (positive 31536000 0);
  same deqb (let* x := (from_gregorian_date_time 1970 8 1 0 0 0 0) in gnu_parse_with_date gnu_new (inl (Std 1690000000 0)) (%"+next year") (Some x)) (positive 31536000 0);
  same deqb (let* x := (from_gregorian_date_time 1970 8 1 0 0 0 0) in gnu_parse_with_date gnu_new (inl (Std 1690000000 0)) (%"-next year") (Some x)) (negative 31536000 0);
  same deqb (let* x := (from_gregorian_date_time 1970 8 1 0 0 0 0) in gnu_parse_with_date gnu_new (inl (Std 1690000000 0)) (%"next year ago") (Some x)) (negative 31536000 0);
  same deqb (let* x := (from_gregorian_date_time 1970 8 1 0 0 0 0) in gnu_parse_with_date gnu_new (inl (Std 1690000000 0)) (%"+next year ago") (Some x)) (negative 31536000 0);
  same deqb (let* x := (from_gregorian_date_time 1970 8 1 0 0 0 0) in gnu_parse_with_date gnu_new (inl (Std 1690000000 0)) (%"-next year ago") (Some x)) (positive 31536000 0);
  same deqb (let* x := (from_gregorian_date_time 1970 8 1 0 0 0 0) in gnu_parse_with_date gnu_new (inl (Std 1690000000 0)) (%"third year") (Some x)) (positive 94694400 0);
  same deqb (let* x := (from_gregorian_date_time 1970 8 1 0 0 0 0) in gnu_parse_with_date gnu_new (inl (Std 1690000000 0)) (%"third year ago") (Some x)) (negative 94694400 0)] = true.
Proof. vm_compute. reflexivity. Qed.

(* fundu-gnu/tests/test_relative_time_parser.rs:413: 8 assertions *)
Example test_parser_with_fuzzy_time_unit_when_ago_or_sign : all_pass [
  same deqb (let* x := (from_gregorian_date_time 1970 8 1 0 0 0 0) in gnu_parse_with_date gnu_new (inl (Std 1690000000 0)) (%"+year") (Some x)) (positive 31536000 0);
  same deqb (let* x := (from_gregorian_date_time 1970 8 1 0 0 0 0) in gnu_parse_with_date gnu_new (inl (Std 1690000000 0)) (%"-year") (Some x)) (negative 31536000 0);
  same deqb (let* x := (from_gregorian_date_time 1970 8 1 0 0 0 0) in gnu_parse_with_date gnu_new (inl (Std 1690000000 0)) (%"-year ago") (Some x)) (positive 31536000 0);
  same deqb (let* x := (from_gregorian_date_time 1970 8 1 0 0 0 0) in gnu_parse_with_date gnu_new (inl (Std 1690000000 0)) (%"-1year") (Some x)) (negative 31536000 0);
  same deqb (let* x := (from_gregorian_date_time 1970 8 1 0 0 0 0) in gnu_parse_with_date gnu_new (inl (Std 1690000000 0)) (%"-2year") (Some x)) (negative 63072000 0);
  same deqb (let* x := (from_gregorian_date_time 1970 8 1 0 0 0 0) in gnu_parse_with_date gnu_new (inl (Std 1690000000 0)) (%"-1year ago") (Some x)) (positive 31536000 0);
  same deqb (let* x := (from_gregorian_date_time 1970 8 1 0 0 0 0) in gnu_parse_with_date gnu_new (inl (Std 1690000000 0)) (%"-2year ago") (Some x)) (positive 63158400 0);
  same deqb (let* x := (from_gregorian_date_time 1970 8 1 0 0 0 0) in gnu_parse_with_date gnu_new (inl (Std 1690000000 0)) (%"year ago") (Some x)) (negative 31536000 0)] = true.
Proof. vm_compute. reflexivity. Qed.

(* fundu-gnu/src/util.rs:129: 15 assertions *)
Example test_to_lowercase_u64 : all_pass [
  same z2_eqb (Ok (to_lowercase_u64 (%""))) (let* a := (Ok 0) in let* b := (Ok 0) in Ok (a, b));
  same z2_eqb (Ok (to_lowercase_u64 (%"a"))) (let* a := (Ok 97) in let* b := (Ok 0) in Ok (a, b));
  same z2_eqb (Ok (to_lowercase_u64 (%"A"))) (let* a := (Ok 97) in let* b := (Ok 0) in Ok (a, b));
  same z2_eqb (Ok (to_lowercase_u64 (%"az"))) (let* a := (Ok 31329) in let* b := (Ok 0) in Ok (a, b));
  same z2_eqb (Ok (to_lowercase_u64 (%"AZ"))) (let* a := (Ok 31329) in let* b := (Ok 0) in Ok (a, b));
  same z2_eqb (Ok (to_lowercase_u64 (%"aZ"))) (let* a := (Ok 31329) in let* b := (Ok 0) in Ok (a, b));
  same z2_eqb (Ok (to_lowercase_u64 (%"abcdefgh"))) (let* a := (Ok 7523094288207667809) in let* b := (Ok 0) in Ok (a, b));
  same z2_eqb (Ok (to_lowercase_u64 (%"ABCDEFGH"))) (let* a := (Ok 7523094288207667809) in let* b := (Ok 0) in Ok (a, b));
  same z2_eqb (Ok (to_lowercase_u64 (%"ABcdEfGh"))) (let* a := (Ok 7523094288207667809) in let* b := (Ok 0) in Ok (a, b));
  same z2_eqb (Ok (to_lowercase_u64 (%"abcdefghi"))) (let* a := (Ok 7523094288207667809) in let* b := (Ok 105) in Ok (a, b));
  same z2_eqb (Ok (to_lowercase_u64 (%"ABCDEFGHI"))) (let* a := (Ok 7523094288207667809) in let* b := (Ok 105) in Ok (a, b));
  same z2_eqb (Ok (to_lowercase_u64 (%"ABcDefGHi"))) (let* a := (Ok 7523094288207667809) in let* b := (Ok 105) in Ok (a, b));
  same z2_eqb (Ok (to_lowercase_u64 (%"abcdefghijklmnop"))) (let* a := (Ok 7523094288207667809) in let* b := (Ok 8101815670912281193) in Ok (a, b));
  same z2_eqb (Ok (to_lowercase_u64 (%"ABCDEFGHIJKLMNOP"))) (let* a := (Ok 7523094288207667809) in let* b := (Ok 8101815670912281193) in Ok (a, b));
  same z2_eqb (Ok (to_lowercase_u64 (%"aBcDeFGHijKlMnoP"))) (let* a := (Ok 7523094288207667809) in let* b := (Ok 8101815670912281193) in Ok (a, b))] = true.
Proof. vm_compute. reflexivity. Qed.

(* fundu-gnu/src/util.rs:173: 38 assertions *)
Example test_to_lowercase_u64_with_all_gnu_ids : all_pass [
  same z2_eqb (Ok (to_lowercase_u64 (%"now"))) (let* a := (Ok 7827310) in let* b := (Ok 0) in Ok (a, b));
  same z2_eqb (Ok (to_lowercase_u64 (%"yesterday"))) (let* a := (Ok 7017859899421058425) in let* b := (Ok 121) in Ok (a, b));
  same z2_eqb (Ok (to_lowercase_u64 (%"tomorrow"))) (let* a := (Ok 8606223248749588340) in let* b := (Ok 0) in Ok (a, b));
  same z2_eqb (Ok (to_lowercase_u64 (%"today"))) (let* a := (Ok 521325014900) in let* b := (Ok 0) in Ok (a, b));
  same z2_eqb (Ok (to_lowercase_u64 (%"sec"))) (let* a := (Ok 6514035) in let* b := (Ok 0) in Ok (a, b));
  same z2_eqb (Ok (to_lowercase_u64 (%"secs"))) (let* a := (Ok 1935893875) in let* b := (Ok 0) in Ok (a, b));
  same z2_eqb (Ok (to_lowercase_u64 (%"second"))) (let* a := (Ok 110425477965171) in let* b := (Ok 0) in Ok (a, b));
  same z2_eqb (Ok (to_lowercase_u64 (%"seconds"))) (let* a := (Ok 32480047799690611) in let* b := (Ok 0) in Ok (a, b));
  same z2_eqb (Ok (to_lowercase_u64 (%"min"))) (let* a := (Ok 7235949) in let* b := (Ok 0) in Ok (a, b));
  same z2_eqb (Ok (to_lowercase_u64 (%"mins"))) (let* a := (Ok 1936615789) in let* b := (Ok 0) in Ok (a, b));
  same z2_eqb (Ok (to_lowercase_u64 (%"minute"))) (let* a := (Ok 111550860781933) in let* b := (Ok 0) in Ok (a, b));
  same z2_eqb (Ok (to_lowercase_u64 (%"minutes"))) (let* a := (Ok 32481173182507373) in let* b := (Ok 0) in Ok (a, b));
  same z2_eqb (Ok (to_lowercase_u64 (%"hour"))) (let* a := (Ok 1920298856) in let* b := (Ok 0) in Ok (a, b));
  same z2_eqb (Ok (to_lowercase_u64 (%"hours"))) (let* a := (Ok 495841537896) in let* b := (Ok 0) in Ok (a, b));
  same z2_eqb (Ok (to_lowercase_u64 (%"day"))) (let* a := (Ok 7954788) in let* b := (Ok 0) in Ok (a, b));
  same z2_eqb (Ok (to_lowercase_u64 (%"days"))) (let* a := (Ok 1937334628) in let* b := (Ok 0) in Ok (a, b));
  same z2_eqb (Ok (to_lowercase_u64 (%"week"))) (let* a := (Ok 1801807223) in let* b := (Ok 0) in Ok (a, b));
  same z2_eqb (Ok (to_lowercase_u64 (%"weeks"))) (let* a := (Ok 495723046263) in let* b := (Ok 0) in Ok (a, b));
  same z2_eqb (Ok (to_lowercase_u64 (%"fortnight"))) (let* a := (Ok 7523097625666678630) in let* b := (Ok 116) in Ok (a, b));
  same z2_eqb (Ok (to_lowercase_u64 (%"fortnights"))) (let* a := (Ok 7523097625666678630) in let* b := (Ok 29556) in Ok (a, b));
  same z2_eqb (Ok (to_lowercase_u64 (%"month"))) (let* a := (Ok 448629993325) in let* b := (Ok 0) in Ok (a, b));
  same z2_eqb (Ok (to_lowercase_u64 (%"months"))) (let* a := (Ok 126892467187565) in let* b := (Ok 0) in Ok (a, b));
  same z2_eqb (Ok (to_lowercase_u64 (%"year"))) (let* a := (Ok 1918985593) in let* b := (Ok 0) in Ok (a, b));
  same z2_eqb (Ok (to_lowercase_u64 (%"years"))) (let* a := (Ok 495840224633) in let* b := (Ok 0) in Ok (a, b));
  same z2_eqb (Ok (to_lowercase_u64 (%"last"))) (let* a := (Ok 1953718636) in let* b := (Ok 0) in Ok (a, b));
  same z2_eqb (Ok (to_lowercase_u64 (%"this"))) (let* a := (Ok 1936287860) in let* b := (Ok 0) in Ok (a, b));
  same z2_eqb (Ok (to_lowercase_u64 (%"next"))) (let* a := (Ok 1954047342) in let* b := (Ok 0) in Ok (a, b));
  same z2_eqb (Ok (to_lowercase_u64 (%"first"))) (let* a := (Ok 500153084262) in let* b := (Ok 0) in Ok (a, b));
  same z2_eqb (Ok (to_lowercase_u64 (%"third"))) (let* a := (Ok 431416240244) in let* b := (Ok 0) in Ok (a, b));
  same z2_eqb (Ok (to_lowercase_u64 (%"fourth"))) (let* a := (Ok 114849345793894) in let* b := (Ok 0) in Ok (a, b));
  same z2_eqb (Ok (to_lowercase_u64 (%"fifth"))) (let* a := (Ok 448629467494) in let* b := (Ok 0) in Ok (a, b));
  same z2_eqb (Ok (to_lowercase_u64 (%"sixth"))) (let* a := (Ok 448630647155) in let* b := (Ok 0) in Ok (a, b));
  same z2_eqb (Ok (to_lowercase_u64 (%"seventh"))) (let* a := (Ok 29401415075390835) in let* b := (Ok 0) in Ok (a, b));
  same z2_eqb (Ok (to_lowercase_u64 (%"eighth"))) (let* a := (Ok 114849177102693) in let* b := (Ok 0) in Ok (a, b));
  same z2_eqb (Ok (to_lowercase_u64 (%"ninth"))) (let* a := (Ok 448629991790) in let* b := (Ok 0) in Ok (a, b));
  same z2_eqb (Ok (to_lowercase_u64 (%"tenth"))) (let* a := (Ok 448629990772) in let* b := (Ok 0) in Ok (a, b));
  same z2_eqb (Ok (to_lowercase_u64 (%"eleventh"))) (let* a := (Ok 7526762259300052069) in let* b := (Ok 0) in Ok (a, b));
  same z2_eqb (Ok (to_lowercase_u64 (%"twelfth"))) (let* a := (Ok 29401380831983476) in let* b := (Ok 0) in Ok (a, b))] = true.
Proof. vm_compute. reflexivity. Qed.

(* fundu-gnu/src/datetime.rs:877: 18 assertions *)
Example test_julian_days_from_gregorian : all_pass [
  same Z.eqb (from_gregorian (-4713) 11 23) (Ok (-1));
  same Z.eqb (from_gregorian (-4713) 11 24) (Ok 0);
  same Z.eqb (from_gregorian (-4712) 1 1) (Ok 38);
  same Z.eqb (from_gregorian 0 1 1) (Ok 1721060);
  same Z.eqb (from_gregorian 0 2 29) (Ok 1721119);
  same Z.eqb (from_gregorian 0 3 1) (Ok 1721120);
  same Z.eqb (from_gregorian 0 12 31) (Ok 1721425);
  same Z.eqb (from_gregorian 1 1 1) (Ok 1721426);
  same Z.eqb (from_gregorian 1970 1 1) (Ok 2440588);
  same Z.eqb (from_gregorian 1979 12 31) (Ok 2444239);
  same Z.eqb (from_gregorian 1980 1 1) (Ok 2444240);
  same Z.eqb (from_gregorian 0 12 1) (Ok 1721395);
  same Z.eqb (from_gregorian 1 12 31) (Ok 1721790);
  same Z.eqb (from_gregorian 1 11 31) (Ok 1721760);
  same Z.eqb (from_gregorian 1971 2 31) (Ok 2441014);
  same Z.eqb (from_gregorian 1972 2 31) (Ok 2441379);
  same Z.eqb (from_gregorian (-25200470046051300) 1 1) (Ok (-9204282680793170880));
  same Z.eqb (from_gregorian 25200470046046596 12 31) (Ok 9204282680794895265)] = true.
Proof. vm_compute. reflexivity. Qed.

(* fundu-gnu/src/datetime.rs:904: 5 assertions *)
Example test_julian_days_try_from_gregorian_then_none : all_pass [
  same (opt_eqb Z.eqb) (try_from_gregorian 9223372036854775807 1 1) (Ok None);
  same (opt_eqb Z.eqb) (try_from_gregorian (-9223372036854775808) 1 1) (Ok None);
  same (opt_eqb Z.eqb) (try_from_gregorian (-9223372036854775808) 3 1) (Ok None);
  same (opt_eqb Z.eqb) (try_from_gregorian (-25269512429739111) 1 1) (Ok None);
  same (opt_eqb Z.eqb) (try_from_gregorian 25269512429734395 12 31) (Ok None)] = true.
Proof. vm_compute. reflexivity. Qed.

(* fundu-gnu/src/datetime.rs:917: 4 assertions *)
Example test_julian_days_try_from_gregorian_with_illegal_argument_then_panic : all_pass [
  crashes (try_from_gregorian 0 0 1);
  crashes (try_from_gregorian 0 13 1);
  crashes (try_from_gregorian 0 1 0);
  crashes (try_from_gregorian 0 1 32)] = true.
Proof. vm_compute. reflexivity. Qed.

(* fundu-gnu/src/datetime.rs:924: 1 assertions *)
Example test_julian_days_as_days : all_pass [
  same Z.eqb (Ok 1) (Ok 1)] = true.
Proof. vm_compute. reflexivity. Qed.

(* fundu-gnu/src/datetime.rs:943: 1 assertions *)
Example test_julian_days_to_gregorian : all_pass [
  same (opt_eqb z3_eqb) (to_gregorian 91320515216383918) (map_res Some (let* a := (Ok 250027078488026) in let* b := (Ok 1) in let* c := (Ok 22) in Ok (a, b, c)))] = true.
Proof. vm_compute. reflexivity. Qed.

(* fundu-gnu/src/datetime.rs:951: 3 assertions *)
Example test_julian_days_to_gregorian_then_none : all_pass [
  same (opt_eqb z3_eqb) (to_gregorian (-9223372036854775808)) (Ok None);
  same (opt_eqb z3_eqb) (to_gregorian 9223372036854775807) (Ok None);
  same (opt_eqb z3_eqb) (to_gregorian 92233720368547758) (Ok None)] = true.
Proof. vm_compute. reflexivity. Qed.

(* fundu-gnu/src/datetime.rs:974: 13 assertions *)
Example test_julian_days_checked_add : all_pass [
  same (opt_eqb Z.eqb) (Ok (jd_checked_add 0 0)) (map_res Some (Ok 0));
  same (opt_eqb Z.eqb) (Ok (jd_checked_add 0 1)) (map_res Some (Ok 1));
  same (opt_eqb Z.eqb) (Ok (jd_checked_add 1 0)) (map_res Some (Ok 1));
  same (opt_eqb Z.eqb) (Ok (jd_checked_add 0 (-1))) (map_res Some (Ok (-1)));
  same (opt_eqb Z.eqb) (Ok (jd_checked_add (-1) 0)) (map_res Some (Ok (-1)));
  same (opt_eqb Z.eqb) (Ok (jd_checked_add 1 1)) (map_res Some (Ok 2));
  same (opt_eqb Z.eqb) (Ok (jd_checked_add (-1) (-1))) (map_res Some (Ok (-2)));
  same (opt_eqb Z.eqb) (Ok (jd_checked_add (-9223372036854775808) 0)) (map_res Some (Ok (-9223372036854775808)));
  same (opt_eqb Z.eqb) (Ok (jd_checked_add 0 (-9223372036854775808))) (map_res Some (Ok (-9223372036854775808)));
  same (opt_eqb Z.eqb) (Ok (jd_checked_add 0 9223372036854775807)) (map_res Some (Ok 9223372036854775807));
  same (opt_eqb Z.eqb) (Ok (jd_checked_add 9223372036854775807 0)) (map_res Some (Ok 9223372036854775807));
  same (opt_eqb Z.eqb) (Ok (jd_checked_add (-9223372036854775808) 9223372036854775807)) (map_res Some (Ok (-1)));
  same (opt_eqb Z.eqb) (Ok (jd_checked_add 9223372036854775807 (-9223372036854775808))) (map_res Some (Ok (-1)))] = true.
Proof. vm_compute. reflexivity. Qed.

(* fundu-gnu/src/datetime.rs:988: 2 assertions *)
Example test_julian_days_checked_add_then_none : all_pass [
  same (opt_eqb Z.eqb) (Ok (jd_checked_add 1 9223372036854775807)) (Ok None);
  same (opt_eqb Z.eqb) (Ok (jd_checked_add (-1) (-9223372036854775808))) (Ok None)] = true.
Proof. vm_compute. reflexivity. Qed.

(* fundu-gnu/src/datetime.rs:993: 9 assertions *)
Example test_julian_days_checked_sub : all_pass [
  same (opt_eqb Z.eqb) (Ok (jd_checked_sub 0 0)) (map_res Some (Ok 0));
  same (opt_eqb Z.eqb) (Ok (jd_checked_sub 0 (-1))) (map_res Some (Ok 1));
  same (opt_eqb Z.eqb) (Ok (jd_checked_sub 0 1)) (map_res Some (Ok (-1)));
  same (opt_eqb Z.eqb) (Ok (jd_checked_sub 1 0)) (map_res Some (Ok 1));
  same (opt_eqb Z.eqb) (Ok (jd_checked_sub 1 (-1))) (map_res Some (Ok 2));
  same (opt_eqb Z.eqb) (Ok (jd_checked_sub (-1) 1)) (map_res Some (Ok (-2)));
  same (opt_eqb Z.eqb) (Ok (jd_checked_sub (-9223372036854775808) 0)) (map_res Some (Ok (-9223372036854775808)));
  same (opt_eqb Z.eqb) (Ok (jd_checked_sub 0 (-9223372036854775807))) (map_res Some (Ok 9223372036854775807));
  same (opt_eqb Z.eqb) (Ok (jd_checked_sub (-9223372036854775808) (-9223372036854775807))) (map_res Some (Ok (-1)))] = true.
Proof. vm_compute. reflexivity. Qed.

(* fundu-gnu/src/datetime.rs:1001: 1 assertions *)
Example test_julian_days_checked_sub_then_none : all_pass [
  same (opt_eqb Z.eqb) (Ok (jd_checked_sub (-9223372036854775808) 1)) (Ok None)] = true.
Proof. vm_compute. reflexivity. Qed.

(* fundu-gnu/src/datetime.rs:1006: 13 assertions *)
Example test_julian_days_checked_add_days : all_pass [
  same (opt_eqb Z.eqb) (Ok (jd_checked_add 0 0)) (map_res Some (Ok 0));
  same (opt_eqb Z.eqb) (Ok (jd_checked_add 0 1)) (map_res Some (Ok 1));
  same (opt_eqb Z.eqb) (Ok (jd_checked_add 1 0)) (map_res Some (Ok 1));
  same (opt_eqb Z.eqb) (Ok (jd_checked_add 0 (-1))) (map_res Some (Ok (-1)));
  same (opt_eqb Z.eqb) (Ok (jd_checked_add (-1) 0)) (map_res Some (Ok (-1)));
  same (opt_eqb Z.eqb) (Ok (jd_checked_add 1 1)) (map_res Some (Ok 2));
  same (opt_eqb Z.eqb) (Ok (jd_checked_add (-1) (-1))) (map_res Some (Ok (-2)));
  same (opt_eqb Z.eqb) (Ok (jd_checked_add (-9223372036854775808) 0)) (map_res Some (Ok (-9223372036854775808)));
  same (opt_eqb Z.eqb) (Ok (jd_checked_add 0 (-9223372036854775808))) (map_res Some (Ok (-9223372036854775808)));
  same (opt_eqb Z.eqb) (Ok (jd_checked_add 0 9223372036854775807)) (map_res Some (Ok 9223372036854775807));
  same (opt_eqb Z.eqb) (Ok (jd_checked_add 9223372036854775807 0)) (map_res Some (Ok 9223372036854775807));
  same (opt_eqb Z.eqb) (Ok (jd_checked_add (-9223372036854775808) 9223372036854775807)) (map_res Some (Ok (-1)));
  same (opt_eqb Z.eqb) (Ok (jd_checked_add 9223372036854775807 (-9223372036854775808))) (map_res Some (Ok (-1)))] = true.
Proof. vm_compute. reflexivity. Qed.

(* fundu-gnu/src/datetime.rs:1018: 1 assertions *)
Example test_julian_checked_add_days_then_none : all_pass [
  same (opt_eqb Z.eqb) (Ok (jd_checked_add 9223372036854775807 1)) (Ok None)] = true.
Proof. vm_compute. reflexivity. Qed.

(* fundu-gnu/src/datetime.rs:1023: 9 assertions *)
Example test_julian_days_checked_sub_days : all_pass [
  same (opt_eqb Z.eqb) (Ok (jd_checked_sub 0 0)) (map_res Some (Ok 0));
  same (opt_eqb Z.eqb) (Ok (jd_checked_sub 0 (-1))) (map_res Some (Ok 1));
  same (opt_eqb Z.eqb) (Ok (jd_checked_sub 0 1)) (map_res Some (Ok (-1)));
  same (opt_eqb Z.eqb) (Ok (jd_checked_sub 1 0)) (map_res Some (Ok 1));
  same (opt_eqb Z.eqb) (Ok (jd_checked_sub 1 (-1))) (map_res Some (Ok 2));
  same (opt_eqb Z.eqb) (Ok (jd_checked_sub (-1) 1)) (map_res Some (Ok (-2)));
  same (opt_eqb Z.eqb) (Ok (jd_checked_sub (-9223372036854775808) 0)) (map_res Some (Ok (-9223372036854775808)));
  same (opt_eqb Z.eqb) (Ok (jd_checked_sub 0 (-9223372036854775807))) (map_res Some (Ok 9223372036854775807));
  same (opt_eqb Z.eqb) (Ok (jd_checked_sub (-9223372036854775808) (-9223372036854775807))) (map_res Some (Ok (-1)))] = true.
Proof. vm_compute. reflexivity. Qed.

(* fundu-gnu/src/datetime.rs:1031: 1 assertions *)
Example test_julian_days_checked_sub_days_then_none : all_pass [
  same (opt_eqb Z.eqb) (Ok (jd_checked_sub (-9223372036854775808) 1)) (Ok None)] = true.
Proof. vm_compute. reflexivity. Qed.

(* fundu-gnu/src/datetime.rs:1041: 1 assertions *)
Example test_date_time_from_gregorian_date_time : all_pass [
  same dt_eqb (from_gregorian_date_time 0 1 1 23 59 59 0) (Ok (DT 1721060 86399000000000))] = true.
Proof. vm_compute. reflexivity. Qed.

(* fundu-gnu/src/datetime.rs:1063: 1 assertions *)
Example test_date_time_to_gregorian_date : all_pass [
  same (opt_eqb z3_eqb) (let* x := UNIX_EPOCH in to_gregorian_date x) (map_res Some (let* a := (Ok 1970) in let* b := (Ok 1) in let* c := (Ok 1) in Ok (a, b, c)))] = true.
Proof. vm_compute. reflexivity. Qed.

(* fundu-gnu/src/datetime.rs:1069: 1 assertions *)
Example test_date_time_to_gregorian_date_time : all_pass [
  same (opt_eqb z7_eqb) (let* x := UNIX_EPOCH in to_gregorian_date_time x) (map_res Some (Ok (1970, 1, 1, (0, 0, 0, 0))))] = true.
Proof. vm_compute. reflexivity. Qed.

(* fundu-gnu/src/datetime.rs:1078: 1 assertions *)
Example test_date_time_as_julian_day : all_pass [
  same Z.eqb (map_res as_julian_day UNIX_EPOCH) (Ok 2440588)] = true.
Proof. vm_compute. reflexivity. Qed.

(* fundu-gnu/src/datetime.rs:1091: 7 assertions *)
Example test_date_time_as_hmsn : all_pass [
  same z4_eqb (map_res as_hmsn (from_gregorian_date_time 1 1 1 0 0 0 0)) (let* a := (Ok 0) in let* b := (Ok 0) in let* c := (Ok 0) in let* d := (Ok 0) in Ok (a, b, c, d));
  same z4_eqb (map_res as_hmsn (from_gregorian_date_time 1 1 1 0 0 0 1)) (let* a := (Ok 0) in let* b := (Ok 0) in let* c := (Ok 0) in let* d := (Ok 1) in Ok (a, b, c, d));
  same z4_eqb (map_res as_hmsn (from_gregorian_date_time 1 1 1 0 0 1 0)) (let* a := (Ok 0) in let* b := (Ok 0) in let* c := (Ok 1) in let* d := (Ok 0) in Ok (a, b, c, d));
  same z4_eqb (map_res as_hmsn (from_gregorian_date_time 1 1 1 0 1 0 0)) (let* a := (Ok 0) in let* b := (Ok 1) in let* c := (Ok 0) in let* d := (Ok 0) in Ok (a, b, c, d));
  same z4_eqb (map_res as_hmsn (from_gregorian_date_time 1 1 1 1 0 0 0)) (let* a := (Ok 1) in let* b := (Ok 0) in let* c := (Ok 0) in let* d := (Ok 0) in Ok (a, b, c, d));
  same z4_eqb (map_res as_hmsn (from_gregorian_date_time 1 1 1 1 1 1 1)) (let* a := (Ok 1) in let* b := (Ok 1) in let* c := (Ok 1) in let* d := (Ok 1) in Ok (a, b, c, d));
  same z4_eqb (map_res as_hmsn (from_gregorian_date_time 1 1 1 23 59 59 999999999)) (let* a := (Ok 23) in let* b := (Ok 59) in let* c := (Ok 59) in let* d := (Ok 999999999) in Ok (a, b, c, d))] = true.
Proof. vm_compute. reflexivity. Qed.

(* fundu-gnu/src/datetime.rs:1178: 14 assertions *)
Example test_date_time_checked_add_duration : all_pass [
  same dt_eqb (let* x := (let* x := (from_gregorian_date_time 1970 1 1 0 0 0 0) in let* y := (Ok ZERO) in checked_add_duration x y) in unwrap x) (from_gregorian_date_time 1970 1 1 0 0 0 0);
  same dt_eqb (let* x := (let* x := (from_gregorian_date_time 1970 1 1 0 0 0 0) in let* y := (Ok MAX) in checked_add_duration x y) in unwrap x) (from_gregorian_date_time 584554051223 11 9 7 0 15 999999999);
  same dt_eqb (let* x := (let* x := (from_gregorian_date_time 1970 1 1 0 0 0 0) in let* y := (Ok MIN) in checked_add_duration x y) in unwrap x) (from_gregorian_date_time (-584554047284) 2 23 16 59 44 1);
  same dt_eqb (let* x := (let* x := (from_gregorian_date_time 1972 1 1 0 0 0 0) in let* y := (positive 360000 0) in checked_add_duration x y) in unwrap x) (from_gregorian_date_time 1972 1 5 4 0 0 0);
  same dt_eqb (let* x := (let* x := (from_gregorian_date_time 1972 1 1 0 0 0 0) in let* y := (positive 5097600 0) in checked_add_duration x y) in unwrap x) (from_gregorian_date_time 1972 2 29 0 0 0 0);
  same dt_eqb (let* x := (let* x := (from_gregorian_date_time 1972 1 1 23 59 59 999999999) in let* y := (positive 86399 999999999) in checked_add_duration x y) in unwrap x) (from_gregorian_date_time 1972 1 2 23 59 59 999999998);
  same dt_eqb (let* x := (let* x := (from_gregorian_date_time 1972 1 1 23 59 59 999999999) in let* y := (positive 0 1) in checked_add_duration x y) in unwrap x) (from_gregorian_date_time 1972 1 2 0 0 0 0);
  same dt_eqb (let* x := (let* x := (from_gregorian_date_time 1969 12 31 23 59 59 999999999) in let* y := (positive 0 1) in checked_add_duration x y) in unwrap x) (from_gregorian_date_time 1970 1 1 0 0 0 0);
  same dt_eqb (let* x := (let* x := (from_gregorian_date_time 1969 12 31 23 59 59 999999999) in let* y := (positive 86400 0) in checked_add_duration x y) in unwrap x) (from_gregorian_date_time 1970 1 1 23 59 59 999999999);
  same dt_eqb (let* x := (let* x := (from_gregorian_date_time 1969 12 30 23 59 59 999999999) in let* y := (positive 86400 1) in checked_add_duration x y) in unwrap x) (from_gregorian_date_time 1970 1 1 0 0 0 0);
  same dt_eqb (let* x := (let* x := (from_gregorian_date_time 1972 1 1 0 0 0 0) in let* y := (negative 0 1) in checked_add_duration x y) in unwrap x) (from_gregorian_date_time 1971 12 31 23 59 59 999999999);
  same dt_eqb (let* x := (let* x := (from_gregorian_date_time 1970 1 1 0 0 0 0) in let* y := (negative 0 1) in checked_add_duration x y) in unwrap x) (from_gregorian_date_time 1969 12 31 23 59 59 999999999);
  same dt_eqb (let* x := (let* x := (from_gregorian_date_time 1970 1 1 0 0 0 0) in let* y := (negative 86400 0) in checked_add_duration x y) in unwrap x) (from_gregorian_date_time 1969 12 31 0 0 0 0);
  same dt_eqb (let* x := (let* x := (from_gregorian_date_time 1970 1 1 0 0 0 0) in let* y := (negative 86400 1) in checked_add_duration x y) in unwrap x) (from_gregorian_date_time 1969 12 30 23 59 59 999999999)] = true.
Proof. vm_compute. reflexivity. Qed.

(* fundu-gnu/src/datetime.rs:1194: 14 assertions *)
Example test_date_time_checked_sub_duration : all_pass [
  same dt_eqb (let* x := (let* x := (from_gregorian_date_time 1970 1 1 0 0 0 0) in let* y := (Ok ZERO) in checked_sub_duration x y) in unwrap x) (from_gregorian_date_time 1970 1 1 0 0 0 0);
  same dt_eqb (let* x := (let* x := (from_gregorian_date_time 584554051223 11 9 7 0 15 999999999) in let* y := (Ok MAX) in checked_sub_duration x y) in unwrap x) (from_gregorian_date_time 1970 1 1 0 0 0 0);
  same dt_eqb (let* x := (let* x := (from_gregorian_date_time (-584554047284) 2 23 16 59 44 1) in let* y := (Ok MIN) in checked_sub_duration x y) in unwrap x) (from_gregorian_date_time 1970 1 1 0 0 0 0);
  same dt_eqb (let* x := (let* x := (from_gregorian_date_time 1972 1 5 4 0 0 0) in let* y := (positive 360000 0) in checked_sub_duration x y) in unwrap x) (from_gregorian_date_time 1972 1 1 0 0 0 0);
  same dt_eqb (let* x := (let* x := (from_gregorian_date_time 1972 2 29 0 0 0 0) in let* y := (positive 5097600 0) in checked_sub_duration x y) in unwrap x) (from_gregorian_date_time 1972 1 1 0 0 0 0);
  same dt_eqb (let* x := (let* x := (from_gregorian_date_time 1972 1 2 23 59 59 999999998) in let* y := (positive 86399 999999999) in checked_sub_duration x y) in unwrap x) (from_gregorian_date_time 1972 1 1 23 59 59 999999999);
  same dt_eqb (let* x := (let* x := (from_gregorian_date_time 1972 1 2 0 0 0 0) in let* y := (positive 0 1) in checked_sub_duration x y) in unwrap x) (from_gregorian_date_time 1972 1 1 23 59 59 999999999);
  same dt_eqb (let* x := (let* x := (from_gregorian_date_time 1970 1 1 0 0 0 0) in let* y := (positive 0 1) in checked_sub_duration x y) in unwrap x) (from_gregorian_date_time 1969 12 31 23 59 59 999999999);
  same dt_eqb (let* x := (let* x := (from_gregorian_date_time 1970 1 1 23 59 59 999999999) in let* y := (positive 86400 0) in checked_sub_duration x y) in unwrap x) (from_gregorian_date_time 1969 12 31 23 59 59 999999999);
  same dt_eqb (let* x := (let* x := (from_gregorian_date_time 1970 1 1 0 0 0 0) in let* y := (positive 86400 1) in checked_sub_duration x y) in unwrap x) (from_gregorian_date_time 1969 12 30 23 59 59 999999999);
  same dt_eqb (let* x := (let* x := (from_gregorian_date_time 1971 12 31 23 59 59 999999999) in let* y := (negative 0 1) in checked_sub_duration x y) in unwrap x) (from_gregorian_date_time 1972 1 1 0 0 0 0);
  same dt_eqb (let* x := (let* x := (from_gregorian_date_time 1969 12 31 23 59 59 999999999) in let* y := (negative 0 1) in checked_sub_duration x y) in unwrap x) (from_gregorian_date_time 1970 1 1 0 0 0 0);
  same dt_eqb (let* x := (let* x := (from_gregorian_date_time 1969 12 31 0 0 0 0) in let* y := (negative 86400 0) in checked_sub_duration x y) in unwrap x) (from_gregorian_date_time 1970 1 1 0 0 0 0);
  same dt_eqb (let* x := (let* x := (from_gregorian_date_time 1969 12 30 23 59 59 999999999) in let* y := (negative 86400 1) in checked_sub_duration x y) in unwrap x) (from_gregorian_date_time 1970 1 1 0 0 0 0)] = true.
Proof. vm_compute. reflexivity. Qed.

(* fundu-gnu/src/datetime.rs:1265: 11 assertions *)
Example test_date_time_checked_add_gregorian : all_pass [
  same (opt_eqb dt_eqb) (let* x := (from_gregorian_date_time 1970 1 1 0 0 0 0) in checked_add_gregorian x 0 0 0) (map_res Some (from_gregorian_date_time 1970 1 1 0 0 0 0));
  same (opt_eqb dt_eqb) (let* x := (from_gregorian_date_time 1970 1 1 0 0 0 0) in checked_add_gregorian x 1 0 0) (map_res Some (from_gregorian_date_time 1971 1 1 0 0 0 0));
  same (opt_eqb dt_eqb) (let* x := (from_gregorian_date_time 1970 1 1 0 0 0 0) in checked_add_gregorian x 0 1 0) (map_res Some (from_gregorian_date_time 1970 2 1 0 0 0 0));
  same (opt_eqb dt_eqb) (let* x := (from_gregorian_date_time 1970 1 1 0 0 0 0) in checked_add_gregorian x 0 0 1) (map_res Some (from_gregorian_date_time 1970 1 2 0 0 0 0));
  same (opt_eqb dt_eqb) (let* x := (from_gregorian_date_time 1970 1 1 0 0 0 0) in checked_add_gregorian x 1 1 1) (map_res Some (from_gregorian_date_time 1971 2 2 0 0 0 0));
  same (opt_eqb dt_eqb) (let* x := (from_gregorian_date_time 1970 1 1 0 0 0 0) in checked_add_gregorian x (-1) 0 0) (map_res Some (from_gregorian_date_time 1969 1 1 0 0 0 0));
  same (opt_eqb dt_eqb) (let* x := (from_gregorian_date_time 1970 1 1 0 0 0 0) in checked_add_gregorian x 0 (-1) 0) (map_res Some (from_gregorian_date_time 1969 12 1 0 0 0 0));
  same (opt_eqb dt_eqb) (let* x := (from_gregorian_date_time 1970 1 1 0 0 0 0) in checked_add_gregorian x 0 0 (-1)) (map_res Some (from_gregorian_date_time 1969 12 31 0 0 0 0));
  same (opt_eqb dt_eqb) (let* x := (from_gregorian_date_time 1970 1 1 0 0 0 0) in checked_add_gregorian x (-1) (-1) (-1)) (map_res Some (from_gregorian_date_time 1968 11 30 0 0 0 0));
  same (opt_eqb dt_eqb) (let* x := (from_gregorian_date_time 1970 12 1 0 0 0 0) in checked_add_gregorian x 0 11 0) (map_res Some (from_gregorian_date_time 1971 11 1 0 0 0 0));
  same (opt_eqb dt_eqb) (let* x := (from_gregorian_date_time 1972 2 1 0 0 0 0) in checked_add_gregorian x 0 1 0) (map_res Some (from_gregorian_date_time 1972 3 1 0 0 0 0))] = true.
Proof. vm_compute. reflexivity. Qed.

(* fundu-gnu/src/datetime.rs:1285: 2 assertions *)
Example test_date_time_checked_add_gregorian_then_none : all_pass [
  same (opt_eqb dt_eqb) (let* x := (from_gregorian_date_time (-4713) 11 24 0 0 0 0) in checked_add_gregorian x 9223372036854775807 0 0) (Ok None);
  same (opt_eqb dt_eqb) (let* x := (from_gregorian_date_time (-4713) 11 24 0 0 0 0) in checked_add_gregorian x (-9223372036854775808) 0 0) (Ok None)] = true.
Proof. vm_compute. reflexivity. Qed.

(* fundu-gnu/src/datetime.rs:1194: 6 assertions *)
Example test_date_time_checked_sub : all_pass [
  same (opt_eqb deqb) (let* x := (from_gregorian_date_time 1970 1 2 0 0 0 2) in let* y := (from_gregorian_date_time 1970 1 2 0 0 0 1) in duration_since x y) (map_res Some (positive 0 1));
  same (opt_eqb deqb) (let* x := (from_gregorian_date_time 1970 1 1 0 0 0 0) in let* y := (from_gregorian_date_time 1969 12 31 23 59 59 999999999) in duration_since x y) (map_res Some (positive 0 1));
  same (opt_eqb deqb) (let* x := (from_gregorian_date_time 1970 1 1 0 0 0 0) in let* y := (from_gregorian_date_time 1969 12 1 0 0 0 0) in duration_since x y) (map_res Some (positive 2678400 0));
  same (opt_eqb deqb) (let* x := (from_gregorian_date_time 1970 1 2 23 59 59 0) in let* y := (from_gregorian_date_time 1970 1 2 23 59 59 1) in duration_since x y) (map_res Some (negative 0 1));
  same (opt_eqb deqb) (let* x := (from_gregorian_date_time 1970 1 1 0 0 0 0) in let* y := (from_gregorian_date_time 1970 1 1 0 0 0 1) in duration_since x y) (map_res Some (negative 0 1));
  same (opt_eqb deqb) (let* x := (from_gregorian_date_time 1970 1 1 0 0 0 0) in let* y := (from_gregorian_date_time 1970 1 2 0 0 0 0) in duration_since x y) (map_res Some (negative 86400 0))] = true.
Proof. vm_compute. reflexivity. Qed.

(* fundu-gnu/src/datetime.rs:1359: 7 assertions *)
Example test_date_time_now_utc : all_pass [
  same dt_eqb (now_utc_with_system_time (inl STD_ZERO)) UNIX_EPOCH;
  same dt_eqb (let* x := (std_new 1 0) in now_utc_with_system_time (inr x)) (from_gregorian_date_time 1969 12 31 23 59 59 0);
  same dt_eqb (let* x := (std_new 0 1) in now_utc_with_system_time (inr x)) (from_gregorian_date_time 1969 12 31 23 59 59 999999999);
  same dt_eqb (let* x := (std_new 1 1) in now_utc_with_system_time (inr x)) (from_gregorian_date_time 1969 12 31 23 59 58 999999999);
  same dt_eqb (let* x := (std_new 1 0) in now_utc_with_system_time (inl x)) (from_gregorian_date_time 1970 1 1 0 0 1 0);
  same dt_eqb (let* x := (std_new 0 1) in now_utc_with_system_time (inl x)) (from_gregorian_date_time 1970 1 1 0 0 0 1);
  same dt_eqb (let* x := (std_new 1 1) in now_utc_with_system_time (inl x)) (from_gregorian_date_time 1970 1 1 0 0 1 1)] = true.
Proof. vm_compute. reflexivity. Qed.

(* fundu-gnu/src/datetime.rs:1466: 1 assertions *)
Example test_time_primitive_date_time_into_date_time : all_pass [
  same dt_eqb (from_time_calendar (Cal 0 1 1 0 0 0 0)) (from_gregorian_date_time 0 1 1 0 0 0 0)] = true.
Proof. vm_compute. reflexivity. Qed.
