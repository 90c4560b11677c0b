(** * The test functions of fundu-systemd/tests/test_time_span_parser.rs: the assertions of the tests of /repo, run on the model (see Conform.v)

    Generated from the test functions of /repo; one example for each test function (or documentation block), each element of
    its list is one assertion of one case. *)
From Verif Require Import Prelude Util Time Config Bytes Repr Parse Standard Custom Systemd DateTime Gnu Misc Conform.

(* fundu-systemd/tests/test_time_span_parser.rs:27: 28 assertions *)
Example test_parse_parse_when_invalid : all_pass [
  same deqb (sd_parse sd_new (%"")) (Err Empty);
  same deqb (sd_global_parse (%"") None None) (Err Empty);
  same deqb (sd_parse_nanos sd_new (%"")) (Err Empty);
  same deqb (sd_global_parse_nanos (%"") None None) (Err Empty);
  same deqb (sd_parse sd_new (%"-1")) (Err NegativeNumber);
  same deqb (sd_global_parse (%"-1") None None) (Err NegativeNumber);
  same deqb (sd_parse_nanos sd_new (%"-1")) (Err NegativeNumber);
  same deqb (sd_global_parse_nanos (%"-1") None None) (Err NegativeNumber);
  same deqb (sd_parse sd_new (%".")) (Err (Syntax 0%nat (%"Either the whole number part or the fraction must be present")));
  same deqb (sd_global_parse (%".") None None) (Err (Syntax 0%nat (%"Either the whole number part or the fraction must be present")));
  same deqb (sd_parse_nanos sd_new (%".")) (Err (Syntax 0%nat (%"Either the whole number part or the fraction must be present")));
  same deqb (sd_global_parse_nanos (%".") None None) (Err (Syntax 0%nat (%"Either the whole number part or the fraction must be present")));
  same deqb (sd_parse sd_new (%"..1")) (Err (Syntax 0%nat (%"Either the whole number part or the fraction must be present")));
  same deqb (sd_global_parse (%"..1") None None) (Err (Syntax 0%nat (%"Either the whole number part or the fraction must be present")));
  same deqb (sd_parse_nanos sd_new (%"..1")) (Err (Syntax 0%nat (%"Either the whole number part or the fraction must be present")));
  same deqb (sd_global_parse_nanos (%"..1") None None) (Err (Syntax 0%nat (%"Either the whole number part or the fraction must be present")));
  same deqb (sd_parse sd_new (%"1..")) (Err (Syntax 2%nat (%"Either the whole number part or the fraction must be present")));
  same deqb (sd_global_parse (%"1..") None None) (Err (Syntax 2%nat (%"Either the whole number part or the fraction must be present")));
  same deqb (sd_parse_nanos sd_new (%"1..")) (Err (Syntax 2%nat (%"Either the whole number part or the fraction must be present")));
  same deqb (sd_global_parse_nanos (%"1..") None None) (Err (Syntax 2%nat (%"Either the whole number part or the fraction must be present")));
  same deqb (sd_parse sd_new (%"234e10")) (Err (Syntax 3%nat (%"No exponent allowed")));
  same deqb (sd_global_parse (%"234e10") None None) (Err (Syntax 3%nat (%"No exponent allowed")));
  same deqb (sd_parse_nanos sd_new (%"234e10")) (Err (Syntax 3%nat (%"No exponent allowed")));
  same deqb (sd_global_parse_nanos (%"234e10") None None) (Err (Syntax 3%nat (%"No exponent allowed")));
  same deqb (sd_parse sd_new (%"3.invalid")) (Err (InvalidInput (%"invalid")));
  same deqb (sd_global_parse (%"3.invalid") None None) (Err (InvalidInput (%"invalid")));
  same deqb (sd_parse_nanos sd_new (%"3.invalid")) (Err (InvalidInput (%"invalid")));
  same deqb (sd_global_parse_nanos (%"3.invalid") None None) (Err (InvalidInput (%"invalid")))] = true.
Proof. vm_compute. reflexivity. Qed.

(* fundu-systemd/tests/test_time_span_parser.rs:42: 16 assertions *)
Example test_parser_parse_infinity_when_invalid_then_error : all_pass [
  same deqb (sd_parse sd_new (%"inf")) (Err (InvalidInput (%"inf")));
  same deqb (sd_global_parse (%"inf") None None) (Err (InvalidInput (%"inf")));
  same deqb (sd_parse_nanos sd_new (%"inf")) (Err (InvalidInput (%"inf")));
  same deqb (sd_global_parse_nanos (%"inf") None None) (Err (InvalidInput (%"inf")));
  same deqb (sd_parse sd_new (%"Infinity")) (Err (InvalidInput (%"Infinity")));
  same deqb (sd_global_parse (%"Infinity") None None) (Err (InvalidInput (%"Infinity")));
  same deqb (sd_parse_nanos sd_new (%"Infinity")) (Err (InvalidInput (%"Infinity")));
  same deqb (sd_global_parse_nanos (%"Infinity") None None) (Err (InvalidInput (%"Infinity")));
  same deqb (sd_parse sd_new (%"infinit")) (Err (InvalidInput (%"infinit")));
  same deqb (sd_global_parse (%"infinit") None None) (Err (InvalidInput (%"infinit")));
  same deqb (sd_parse_nanos sd_new (%"infinit")) (Err (InvalidInput (%"infinit")));
  same deqb (sd_global_parse_nanos (%"infinit") None None) (Err (InvalidInput (%"infinit")));
  same deqb (sd_parse sd_new (%"infinitys")) (Err (InvalidInput (%"infinitys")));
  same deqb (sd_global_parse (%"infinitys") None None) (Err (InvalidInput (%"infinitys")));
  same deqb (sd_parse_nanos sd_new (%"infinitys")) (Err (InvalidInput (%"infinitys")));
  same deqb (sd_global_parse_nanos (%"infinitys") None None) (Err (InvalidInput (%"infinitys")))] = true.
Proof. vm_compute. reflexivity. Qed.

(* fundu-systemd/tests/test_time_span_parser.rs:42: 20 assertions *)
Example test_parser_parse_infinity : all_pass [
  same deqb (sd_parse sd_new (%"infinity")) SYSTEMD_MAX_MICRO_DURATION;
  same deqb (sd_global_parse (%"infinity") None None) SYSTEMD_MAX_MICRO_DURATION;
  same deqb (sd_parse_nanos sd_new (%"infinity")) SYSTEMD_MAX_NANOS_DURATION;
  same deqb (sd_global_parse_nanos (%"infinity") None None) SYSTEMD_MAX_NANOS_DURATION;
  same deqb (sd_parse sd_new (%"    infinity")) SYSTEMD_MAX_MICRO_DURATION;
  same deqb (sd_global_parse (%"    infinity") None None) SYSTEMD_MAX_MICRO_DURATION;
  same deqb (sd_parse_nanos sd_new (%"    infinity")) SYSTEMD_MAX_NANOS_DURATION;
  same deqb (sd_global_parse_nanos (%"    infinity") None None) SYSTEMD_MAX_NANOS_DURATION;
  same deqb (sd_parse sd_new [9; 10; 11; 12; 13; 32; 105; 110; 102; 105; 110; 105; 116; 121]) SYSTEMD_MAX_MICRO_DURATION;
  same deqb (sd_global_parse [9; 10; 11; 12; 13; 32; 105; 110; 102; 105; 110; 105; 116; 121] None None) SYSTEMD_MAX_MICRO_DURATION;
  same deqb (sd_parse_nanos sd_new [9; 10; 11; 12; 13; 32; 105; 110; 102; 105; 110; 105; 116; 121]) SYSTEMD_MAX_NANOS_DURATION;
  same deqb (sd_global_parse_nanos [9; 10; 11; 12; 13; 32; 105; 110; 102; 105; 110; 105; 116; 121] None None) SYSTEMD_MAX_NANOS_DURATION;
  same deqb (sd_parse sd_new (%"infinity   ")) SYSTEMD_MAX_MICRO_DURATION;
  same deqb (sd_global_parse (%"infinity   ") None None) SYSTEMD_MAX_MICRO_DURATION;
  same deqb (sd_parse_nanos sd_new (%"infinity   ")) SYSTEMD_MAX_NANOS_DURATION;
  same deqb (sd_global_parse_nanos (%"infinity   ") None None) SYSTEMD_MAX_NANOS_DURATION;
  same deqb (sd_parse sd_new [105; 110; 102; 105; 110; 105; 116; 121; 32; 9; 10; 11; 12; 13]) SYSTEMD_MAX_MICRO_DURATION;
  same deqb (sd_global_parse [105; 110; 102; 105; 110; 105; 116; 121; 32; 9; 10; 11; 12; 13] None None) SYSTEMD_MAX_MICRO_DURATION;
  same deqb (sd_parse_nanos sd_new [105; 110; 102; 105; 110; 105; 116; 121; 32; 9; 10; 11; 12; 13]) SYSTEMD_MAX_NANOS_DURATION;
  same deqb (sd_global_parse_nanos [105; 110; 102; 105; 110; 105; 116; 121; 32; 9; 10; 11; 12; 13] None None) SYSTEMD_MAX_NANOS_DURATION] = true.
Proof. vm_compute. reflexivity. Qed.

(* fundu-systemd/tests/test_time_span_parser.rs:89: 30 assertions *)
Example test_parser_parse_with_valid_time_units : all_pass [
  same deqb (sd_parse sd_new (%"us")) (positive 0 1000);
  same deqb (sd_parse sd_new [206; 188; 115]) (positive 0 1000);
  same deqb (sd_parse sd_new [194; 181; 115]) (positive 0 1000);
  same deqb (sd_parse sd_new (%"usec")) (positive 0 1000);
  same deqb (sd_parse sd_new (%"ms")) (positive 0 1000000);
  same deqb (sd_parse sd_new (%"msec")) (positive 0 1000000);
  same deqb (sd_parse sd_new (%"s")) (positive 1 0);
  same deqb (sd_parse sd_new (%"sec")) (positive 1 0);
  same deqb (sd_parse sd_new (%"second")) (positive 1 0);
  same deqb (sd_parse sd_new (%"seconds")) (positive 1 0);
  same deqb (sd_parse sd_new (%"m")) (positive 60 0);
  same deqb (sd_parse sd_new (%"min")) (positive 60 0);
  same deqb (sd_parse sd_new (%"minute")) (positive 60 0);
  same deqb (sd_parse sd_new (%"minutes")) (positive 60 0);
  same deqb (sd_parse sd_new (%"h")) (positive 3600 0);
  same deqb (sd_parse sd_new (%"hr")) (positive 3600 0);
  same deqb (sd_parse sd_new (%"hour")) (positive 3600 0);
  same deqb (sd_parse sd_new (%"hours")) (positive 3600 0);
  same deqb (sd_parse sd_new (%"d")) (positive 86400 0);
  same deqb (sd_parse sd_new (%"day")) (positive 86400 0);
  same deqb (sd_parse sd_new (%"days")) (positive 86400 0);
  same deqb (sd_parse sd_new (%"w")) (positive 604800 0);
  same deqb (sd_parse sd_new (%"week")) (positive 604800 0);
  same deqb (sd_parse sd_new (%"weeks")) (positive 604800 0);
  same deqb (sd_parse sd_new (%"M")) (positive 2629800 0);
  same deqb (sd_parse sd_new (%"month")) (positive 2629800 0);
  same deqb (sd_parse sd_new (%"months")) (positive 2629800 0);
  same deqb (sd_parse sd_new (%"y")) (positive 31557600 0);
  same deqb (sd_parse sd_new (%"year")) (positive 31557600 0);
  same deqb (sd_parse sd_new (%"years")) (positive 31557600 0)] = true.
Proof. vm_compute. reflexivity. Qed.

(* fundu-systemd/tests/test_time_span_parser.rs:101: 4 assertions *)
Example test_parser_parse_when_invalid_time_units : all_pass [
  same deqb (sd_parse sd_new (%"nsec")) (Err (InvalidInput (%"nsec")));
  same deqb (sd_global_parse (%"nsec") None None) (Err (InvalidInput (%"nsec")));
  same deqb (sd_parse sd_new (%"ns")) (Err (InvalidInput (%"ns")));
  same deqb (sd_global_parse (%"ns") None None) (Err (InvalidInput (%"ns")))] = true.
Proof. vm_compute. reflexivity. Qed.

(* fundu-systemd/tests/test_time_span_parser.rs:112: 10 assertions *)
Example test_parser_parse_when_saturating : all_pass [
  same deqb (sd_parse sd_new (%"18446744073710.551615000")) SYSTEMD_MAX_MICRO_DURATION;
  same deqb (sd_global_parse (%"18446744073710.551615000") None None) SYSTEMD_MAX_MICRO_DURATION;
  same deqb (sd_parse sd_new (%"18446744073709.551615001")) SYSTEMD_MAX_MICRO_DURATION;
  same deqb (sd_global_parse (%"18446744073709.551615001") None None) SYSTEMD_MAX_MICRO_DURATION;
  same deqb (sd_parse sd_new (%"18446744073709.551615000")) SYSTEMD_MAX_MICRO_DURATION;
  same deqb (sd_global_parse (%"18446744073709.551615000") None None) SYSTEMD_MAX_MICRO_DURATION;
  same deqb (sd_parse sd_new (repeat 49 1022)) SYSTEMD_MAX_MICRO_DURATION;
  same deqb (sd_global_parse (repeat 49 1022) None None) SYSTEMD_MAX_MICRO_DURATION;
  same deqb (sd_parse sd_new (%"1year 10000years 100000years 14975376516109.55s 1616usec")) SYSTEMD_MAX_MICRO_DURATION;
  same deqb (sd_global_parse (%"1year 10000years 100000years 14975376516109.55s 1616usec") None None) SYSTEMD_MAX_MICRO_DURATION] = true.
Proof. vm_compute. reflexivity. Qed.

(* fundu-systemd/tests/test_time_span_parser.rs:126: 10 assertions *)
Example test_parser_parse_when_barely_not_saturating : all_pass [
  same deqb (sd_parse sd_new (%"18446744073709551615us")) (positive 18446744073709 551615000);
  same deqb (sd_global_parse (%"18446744073709551615us") None None) (positive 18446744073709 551615000);
  same deqb (sd_parse sd_new (%"18446744073709551614us")) (positive 18446744073709 551614000);
  same deqb (sd_global_parse (%"18446744073709551614us") None None) (positive 18446744073709 551614000);
  same deqb (sd_parse sd_new (%"18446744073708.551615000")) (positive 18446744073708 551615000);
  same deqb (sd_global_parse (%"18446744073708.551615000") None None) (positive 18446744073708 551615000);
  same deqb (sd_parse sd_new (%"18446744073709.551614999")) (positive 18446744073709 551614999);
  same deqb (sd_global_parse (%"18446744073709.551614999") None None) (positive 18446744073709 551614999);
  same deqb (sd_parse sd_new (%"18446744073709.551614000")) (positive 18446744073709 551614000);
  same deqb (sd_global_parse (%"18446744073709.551614000") None None) (positive 18446744073709 551614000)] = true.
Proof. vm_compute. reflexivity. Qed.

(* fundu-systemd/tests/test_time_span_parser.rs:142: 64 assertions *)
Example test_parser_parse_with_nanos_with_valid_time_units : all_pass [
  same deqb (sd_parse_nanos sd_new (%"ns")) (positive 0 1);
  same deqb (sd_global_parse_nanos (%"ns") None None) (positive 0 1);
  same deqb (sd_parse_nanos sd_new (%"nsec")) (positive 0 1);
  same deqb (sd_global_parse_nanos (%"nsec") None None) (positive 0 1);
  same deqb (sd_parse_nanos sd_new (%"us")) (positive 0 1000);
  same deqb (sd_global_parse_nanos (%"us") None None) (positive 0 1000);
  same deqb (sd_parse_nanos sd_new [206; 188; 115]) (positive 0 1000);
  same deqb (sd_global_parse_nanos [206; 188; 115] None None) (positive 0 1000);
  same deqb (sd_parse_nanos sd_new [194; 181; 115]) (positive 0 1000);
  same deqb (sd_global_parse_nanos [194; 181; 115] None None) (positive 0 1000);
  same deqb (sd_parse_nanos sd_new (%"usec")) (positive 0 1000);
  same deqb (sd_global_parse_nanos (%"usec") None None) (positive 0 1000);
  same deqb (sd_parse_nanos sd_new (%"ms")) (positive 0 1000000);
  same deqb (sd_global_parse_nanos (%"ms") None None) (positive 0 1000000);
  same deqb (sd_parse_nanos sd_new (%"msec")) (positive 0 1000000);
  same deqb (sd_global_parse_nanos (%"msec") None None) (positive 0 1000000);
  same deqb (sd_parse_nanos sd_new (%"s")) (positive 1 0);
  same deqb (sd_global_parse_nanos (%"s") None None) (positive 1 0);
  same deqb (sd_parse_nanos sd_new (%"sec")) (positive 1 0);
  same deqb (sd_global_parse_nanos (%"sec") None None) (positive 1 0);
  same deqb (sd_parse_nanos sd_new (%"second")) (positive 1 0);
  same deqb (sd_global_parse_nanos (%"second") None None) (positive 1 0);
  same deqb (sd_parse_nanos sd_new (%"seconds")) (positive 1 0);
  same deqb (sd_global_parse_nanos (%"seconds") None None) (positive 1 0);
  same deqb (sd_parse_nanos sd_new (%"m")) (positive 60 0);
  same deqb (sd_global_parse_nanos (%"m") None None) (positive 60 0);
  same deqb (sd_parse_nanos sd_new (%"min")) (positive 60 0);
  same deqb (sd_global_parse_nanos (%"min") None None) (positive 60 0);
  same deqb (sd_parse_nanos sd_new (%"minute")) (positive 60 0);
  same deqb (sd_global_parse_nanos (%"minute") None None) (positive 60 0);
  same deqb (sd_parse_nanos sd_new (%"minutes")) (positive 60 0);
  same deqb (sd_global_parse_nanos (%"minutes") None None) (positive 60 0);
  same deqb (sd_parse_nanos sd_new (%"h")) (positive 3600 0);
  same deqb (sd_global_parse_nanos (%"h") None None) (positive 3600 0);
  same deqb (sd_parse_nanos sd_new (%"hr")) (positive 3600 0);
  same deqb (sd_global_parse_nanos (%"hr") None None) (positive 3600 0);
  same deqb (sd_parse_nanos sd_new (%"hour")) (positive 3600 0);
  same deqb (sd_global_parse_nanos (%"hour") None None) (positive 3600 0);
  same deqb (sd_parse_nanos sd_new (%"hours")) (positive 3600 0);
  same deqb (sd_global_parse_nanos (%"hours") None None) (positive 3600 0);
  same deqb (sd_parse_nanos sd_new (%"d")) (positive 86400 0);
  same deqb (sd_global_parse_nanos (%"d") None None) (positive 86400 0);
  same deqb (sd_parse_nanos sd_new (%"day")) (positive 86400 0);
  same deqb (sd_global_parse_nanos (%"day") None None) (positive 86400 0);
  same deqb (sd_parse_nanos sd_new (%"days")) (positive 86400 0);
  same deqb (sd_global_parse_nanos (%"days") None None) (positive 86400 0);
  same deqb (sd_parse_nanos sd_new (%"w")) (positive 604800 0);
  same deqb (sd_global_parse_nanos (%"w") None None) (positive 604800 0);
  same deqb (sd_parse_nanos sd_new (%"week")) (positive 604800 0);
  same deqb (sd_global_parse_nanos (%"week") None None) (positive 604800 0);
  same deqb (sd_parse_nanos sd_new (%"weeks")) (positive 604800 0);
  same deqb (sd_global_parse_nanos (%"weeks") None None) (positive 604800 0);
  same deqb (sd_parse_nanos sd_new (%"M")) (positive 2629800 0);
  same deqb (sd_global_parse_nanos (%"M") None None) (positive 2629800 0);
  same deqb (sd_parse_nanos sd_new (%"month")) (positive 2629800 0);
  same deqb (sd_global_parse_nanos (%"month") None None) (positive 2629800 0);
  same deqb (sd_parse_nanos sd_new (%"months")) (positive 2629800 0);
  same deqb (sd_global_parse_nanos (%"months") None None) (positive 2629800 0);
  same deqb (sd_parse_nanos sd_new (%"y")) (positive 31557600 0);
  same deqb (sd_global_parse_nanos (%"y") None None) (positive 31557600 0);
  same deqb (sd_parse_nanos sd_new (%"year")) (positive 31557600 0);
  same deqb (sd_global_parse_nanos (%"year") None None) (positive 31557600 0);
  same deqb (sd_parse_nanos sd_new (%"years")) (positive 31557600 0);
  same deqb (sd_global_parse_nanos (%"years") None None) (positive 31557600 0)] = true.
Proof. vm_compute. reflexivity. Qed.

(* fundu-systemd/tests/test_time_span_parser.rs:170: 8 assertions *)
Example test_parse_and_parse_nanos_with_time_units : all_pass [
  same deqb (sd_global_parse (%"123.123") (Some Second) None) (positive 123 123000000);
  same deqb (sd_global_parse_nanos (%"123.123") (Some Second) None) (positive 123 123000000);
  same deqb (sd_global_parse (%"123.123") (Some MicroSecond) None) (positive 0 123123);
  same deqb (sd_global_parse_nanos (%"123.123") (Some MicroSecond) None) (positive 0 123123);
  same deqb (sd_global_parse (%"123.123") (Some Year) None) (positive 3885466384 800000000);
  same deqb (sd_global_parse_nanos (%"123.123") (Some Year) None) (positive 3885466384 800000000);
  same deqb (sd_global_parse (%"123.123") (Some NanoSecond) None) (positive 0 123);
  same deqb (sd_global_parse_nanos (%"123.123") (Some NanoSecond) None) (positive 0 123)] = true.
Proof. vm_compute. reflexivity. Qed.

(* fundu-systemd/tests/test_time_span_parser.rs:195: 7 assertions *)
Example test_parse_with_max : all_pass [
  same deqb (sd_global_parse (%"123.123") None None) (positive 123 123000000);
  same deqb (sd_global_parse (%"123456789y") None None) SYSTEMD_MAX_MICRO_DURATION;
  same deqb (let* x := (Ok ZERO) in sd_global_parse (%"123.123") None (Some x)) (Ok ZERO);
  same deqb (let* x := (Ok MAX) in sd_global_parse (%"123.123") None (Some x)) (positive 123 123000000);
  same deqb (let* x := (Ok MAX) in sd_global_parse (%"340282366920938463463374607431768211455") None (Some x)) (Ok MAX);
  same deqb (let* x := (positive 123456 789) in sd_global_parse (%"123456") None (Some x)) (positive 123456 0);
  same deqb (let* x := (positive 123456 789) in sd_global_parse (%"123457") None (Some x)) (positive 123456 789)] = true.
Proof. vm_compute. reflexivity. Qed.

(* fundu-systemd/tests/test_time_span_parser.rs:207: 2 assertions *)
Example test_parse_with_invalid_max_then_panic : all_pass [
  crashes (let* x := (negative 0 0) in sd_global_parse (%"123") None (Some x));
  crashes (let* x := (negative 1 0) in sd_global_parse (%"123") None (Some x))] = true.
Proof. vm_compute. reflexivity. Qed.

(* fundu-systemd/tests/test_time_span_parser.rs:215: 2 assertions *)
Example test_parse_nanos_with_invalid_max_then_panic : all_pass [
  crashes (let* x := (negative 0 0) in sd_global_parse_nanos (%"123") None (Some x));
  crashes (let* x := (negative 1 0) in sd_global_parse_nanos (%"123") None (Some x))] = true.
Proof. vm_compute. reflexivity. Qed.
