(** * The documentation examples: the assertions of the tests of /repo, run on the model (see Conform.v)

    Generated from the test functions of /repo; one example for each test function (or documentation block), each element of
    its list is one assertion of one case. *)
From Verif Require Import Prelude Util Time Config Bytes Repr Parse Standard Custom Systemd DateTime Gnu Misc Conform.

(* fundu-core/src/time.rs:63: 7 assertions *)
Example doc_fundu_core_time_63 : all_pass [
  same str_eqb (Ok (default_identifier NanoSecond)) (Ok (%"ns"));
  same str_eqb (Ok (default_identifier Second)) (Ok (%"s"));
  same str_eqb (Ok (default_identifier Hour)) (Ok (%"h"));
  same mult_eqb (Ok (unit_multiplier NanoSecond)) (Ok (Mul 1 (-9)));
  same mult_eqb (Ok (unit_multiplier MilliSecond)) (Ok (Mul 1 (-3)));
  same mult_eqb (Ok (unit_multiplier Second)) (Ok (Mul 1 0));
  same mult_eqb (Ok (unit_multiplier Hour)) (Ok (Mul 3600 0))] = true.
Proof. vm_compute. reflexivity. Qed.

(* fundu-core/src/time.rs:404: 1 assertions *)
Example doc_fundu_core_time_404 : all_pass [
  same Z.eqb (Ok (expo (Mul 123 45))) (Ok 45)] = true.
Proof. vm_compute. reflexivity. Qed.

(* fundu-core/src/time.rs:419: 1 assertions *)
Example doc_fundu_core_time_419 : all_pass [
  is_true (Ok (mul_is_negative (Mul (-123) 45)))] = true.
Proof. vm_compute. reflexivity. Qed.

(* fundu-core/src/time.rs:434: 1 assertions *)
Example doc_fundu_core_time_434 : all_pass [
  is_true (Ok (mul_is_positive (Mul 123 45)))] = true.
Proof. vm_compute. reflexivity. Qed.

(* fundu-core/src/time.rs:453: 4 assertions *)
Example doc_fundu_core_time_453 : all_pass [
  same (opt_eqb mult_eqb) (Ok (mul_checked_mul (Mul 1 2) (Mul 3 4))) (map_res Some (Ok (Mul 3 6)));
  same (opt_eqb mult_eqb) (Ok (mul_checked_mul (Mul (-1) 2) (Mul 3 (-4)))) (map_res Some (Ok (Mul (-3) (-2))));
  same (opt_eqb mult_eqb) (Ok (mul_checked_mul (Mul 2 0) (Mul 9223372036854775807 1))) (Ok None);
  same (opt_eqb mult_eqb) (Ok (mul_checked_mul (Mul 1 2) (Mul 1 32767))) (Ok None)] = true.
Proof. vm_compute. reflexivity. Qed.

(* fundu-core/src/time.rs:527: 1 assertions *)
Example doc_fundu_core_time_527 : all_pass [
  same std_eqb (conv_get (map_res try_into_std (positive 1 2))) (std_new 1 2)] = true.
Proof. vm_compute. reflexivity. Qed.

(* fundu-core/src/time.rs:559: 1 assertions *)
Example doc_fundu_core_time_559 : all_pass [
  is_true (map_res is_zero (Ok ZERO))] = true.
Proof. vm_compute. reflexivity. Qed.

(* fundu-core/src/time.rs:574: 1 assertions *)
Example doc_fundu_core_time_574 : all_pass [
  same deqb (negative 18446744073709551615 999999999) (Ok MIN)] = true.
Proof. vm_compute. reflexivity. Qed.

(* fundu-core/src/time.rs:589: 1 assertions *)
Example doc_fundu_core_time_589 : all_pass [
  same deqb (positive 18446744073709551615 999999999) (Ok MAX)] = true.
Proof. vm_compute. reflexivity. Qed.

(* fundu-core/src/time.rs:604: 2 assertions *)
Example doc_fundu_core_time_604 : all_pass [
  same deqb (positive 1 0) (map_res (from_std false) (std_new 1 0));
  same deqb (negative 1 0) (map_res (from_std true) (std_new 1 0))] = true.
Proof. vm_compute. reflexivity. Qed.

(* fundu-core/src/time.rs:626: 2 assertions *)
Example doc_fundu_core_time_626 : all_pass [
  is_true (map_res is_positive (positive 1 0));
  is_true (map_res is_positive (positive 0 0))] = true.
Proof. vm_compute. reflexivity. Qed.

(* fundu-core/src/time.rs:651: 1 assertions *)
Example doc_fundu_core_time_651 : all_pass [
  is_true (map_res is_negative (negative 1 0))] = true.
Proof. vm_compute. reflexivity. Qed.

(* fundu-core/src/time.rs:677: 4 assertions *)
Example doc_fundu_core_time_677 : all_pass [
  same Z.eqb (let* x := (positive 604800 0) in as_weeks x) (Ok 1);
  same Z.eqb (let* x := (negative 604800 0) in as_weeks x) (Ok (-1));
  same Z.eqb (let* x := (positive 1 0) in as_weeks x) (Ok 0);
  same Z.eqb (let* x := (positive 1500000 0) in as_weeks x) (Ok 2)] = true.
Proof. vm_compute. reflexivity. Qed.

(* fundu-core/src/time.rs:694: 4 assertions *)
Example doc_fundu_core_time_694 : all_pass [
  same Z.eqb (let* x := (positive 86400 0) in as_days x) (Ok 1);
  same Z.eqb (let* x := (negative 86400 0) in as_days x) (Ok (-1));
  same Z.eqb (let* x := (positive 1 0) in as_days x) (Ok 0);
  same Z.eqb (let* x := (positive 1500000 0) in as_days x) (Ok 17)] = true.
Proof. vm_compute. reflexivity. Qed.

(* fundu-core/src/time.rs:711: 4 assertions *)
Example doc_fundu_core_time_711 : all_pass [
  same Z.eqb (let* x := (positive 3600 0) in as_hours x) (Ok 1);
  same Z.eqb (let* x := (negative 3600 0) in as_hours x) (Ok (-1));
  same Z.eqb (let* x := (positive 1 0) in as_hours x) (Ok 0);
  same Z.eqb (let* x := (positive 1500000 0) in as_hours x) (Ok 416)] = true.
Proof. vm_compute. reflexivity. Qed.

(* fundu-core/src/time.rs:728: 4 assertions *)
Example doc_fundu_core_time_728 : all_pass [
  same Z.eqb (let* x := (positive 60 0) in as_minutes x) (Ok 1);
  same Z.eqb (let* x := (negative 60 0) in as_minutes x) (Ok (-1));
  same Z.eqb (let* x := (positive 1 0) in as_minutes x) (Ok 0);
  same Z.eqb (let* x := (positive 1500000 0) in as_minutes x) (Ok 25000)] = true.
Proof. vm_compute. reflexivity. Qed.

(* fundu-core/src/time.rs:745: 4 assertions *)
Example doc_fundu_core_time_745 : all_pass [
  same Z.eqb (map_res as_seconds (positive 1 0)) (Ok 1);
  same Z.eqb (map_res as_seconds (negative 1 0)) (Ok (-1));
  same Z.eqb (map_res as_seconds (positive 0 1000000)) (Ok 0);
  same Z.eqb (map_res as_seconds (positive 1500000 0)) (Ok 1500000)] = true.
Proof. vm_compute. reflexivity. Qed.

(* fundu-core/src/time.rs:763: 4 assertions *)
Example doc_fundu_core_time_763 : all_pass [
  same Z.eqb (let* x := (positive 1 0) in as_millis x) (Ok 1000);
  same Z.eqb (let* x := (negative 1 0) in as_millis x) (Ok (-1000));
  same Z.eqb (let* x := (positive 0 1000000) in as_millis x) (Ok 1);
  same Z.eqb (let* x := (positive 12 3000000) in as_millis x) (Ok 12003)] = true.
Proof. vm_compute. reflexivity. Qed.

(* fundu-core/src/time.rs:780: 4 assertions *)
Example doc_fundu_core_time_780 : all_pass [
  same Z.eqb (let* x := (positive 1 0) in as_micros x) (Ok 1000000);
  same Z.eqb (let* x := (negative 1 0) in as_micros x) (Ok (-1000000));
  same Z.eqb (let* x := (positive 0 1000) in as_micros x) (Ok 1);
  same Z.eqb (let* x := (positive 12 3000) in as_micros x) (Ok 12000003)] = true.
Proof. vm_compute. reflexivity. Qed.

(* fundu-core/src/time.rs:797: 4 assertions *)
Example doc_fundu_core_time_797 : all_pass [
  same Z.eqb (let* x := (positive 1 0) in as_nanos x) (Ok 1000000000);
  same Z.eqb (let* x := (negative 1 0) in as_nanos x) (Ok (-1000000000));
  same Z.eqb (let* x := (positive 0 1) in as_nanos x) (Ok 1);
  same Z.eqb (let* x := (positive 12 3) in as_nanos x) (Ok 12000000003)] = true.
Proof. vm_compute. reflexivity. Qed.

(* fundu-core/src/time.rs:814: 4 assertions *)
Example doc_fundu_core_time_814 : all_pass [
  same Z.eqb (let* x := (positive 0 123456789) in subsec_millis x) (Ok 123);
  same Z.eqb (let* x := (negative 0 123456789) in subsec_millis x) (Ok (-123));
  same Z.eqb (let* x := (positive 1 0) in subsec_millis x) (Ok 0);
  same Z.eqb (let* x := (positive 0 1) in subsec_millis x) (Ok 0)] = true.
Proof. vm_compute. reflexivity. Qed.

(* fundu-core/src/time.rs:902: 4 assertions *)
Example doc_fundu_core_time_902 : all_pass [
  same Z.eqb (let* x := (positive 86400 0) in map_res fst (extract_days x)) (Ok 1);
  same deqb (let* x := (positive 86400 0) in map_res snd (extract_days x)) (Ok ZERO);
  same Z.eqb (let* x := (positive 123 456) in map_res fst (extract_days x)) (Ok 0);
  same deqb (let* x := (positive 123 456) in map_res snd (extract_days x)) (positive 123 456)] = true.
Proof. vm_compute. reflexivity. Qed.

(* fundu-core/src/time.rs:922: 4 assertions *)
Example doc_fundu_core_time_922 : all_pass [
  same Z.eqb (let* x := (positive 3600 0) in map_res fst (extract_hours x)) (Ok 1);
  same deqb (let* x := (positive 3600 0) in map_res snd (extract_hours x)) (Ok ZERO);
  same Z.eqb (let* x := (positive 123 456) in map_res fst (extract_hours x)) (Ok 0);
  same deqb (let* x := (positive 123 456) in map_res snd (extract_hours x)) (positive 123 456)] = true.
Proof. vm_compute. reflexivity. Qed.

(* fundu-core/src/time.rs:942: 4 assertions *)
Example doc_fundu_core_time_942 : all_pass [
  same Z.eqb (let* x := (positive 60 0) in map_res fst (extract_minutes x)) (Ok 1);
  same deqb (let* x := (positive 60 0) in map_res snd (extract_minutes x)) (Ok ZERO);
  same Z.eqb (let* x := (positive 12 456) in map_res fst (extract_minutes x)) (Ok 0);
  same deqb (let* x := (positive 12 456) in map_res snd (extract_minutes x)) (positive 12 456)] = true.
Proof. vm_compute. reflexivity. Qed.

(* fundu-core/src/time.rs:962: 4 assertions *)
Example doc_fundu_core_time_962 : all_pass [
  same Z.eqb (let* x := (positive 1 0) in map_res fst (extract_seconds x)) (Ok 1);
  same deqb (let* x := (positive 1 0) in map_res snd (extract_seconds x)) (Ok ZERO);
  same Z.eqb (let* x := (positive 12 456) in map_res fst (extract_seconds x)) (Ok 12);
  same deqb (let* x := (positive 12 456) in map_res snd (extract_seconds x)) (positive 0 456)] = true.
Proof. vm_compute. reflexivity. Qed.

(* fundu-core/src/time.rs:988: 2 assertions *)
Example doc_fundu_core_time_988 : all_pass [
  is_true (map_res is_negative (Ok MIN));
  is_true (map_res is_negative (negative 0 1))] = true.
Proof. vm_compute. reflexivity. Qed.

(* fundu-core/src/time.rs:1006: 2 assertions *)
Example doc_fundu_core_time_1006 : all_pass [
  is_true (map_res is_positive (Ok ZERO));
  is_true (map_res is_positive (positive 0 1))] = true.
Proof. vm_compute. reflexivity. Qed.

(* fundu-core/src/time.rs:1024: 3 assertions *)
Example doc_fundu_core_time_1024 : all_pass [
  is_true (map_res is_zero (Ok ZERO));
  is_true (map_res is_zero (positive 0 0));
  is_true (map_res is_zero (negative 0 0))] = true.
Proof. vm_compute. reflexivity. Qed.

(* fundu-core/src/time.rs:1047: 3 assertions *)
Example doc_fundu_core_time_1047 : all_pass [
  same deqb (map_res abs (Ok MIN)) (Ok MAX);
  same deqb (map_res abs (negative 1 0)) (positive 1 0);
  same deqb (map_res abs (positive 1 0)) (positive 1 0)] = true.
Proof. vm_compute. reflexivity. Qed.

(* fundu-core/src/time.rs:1068: 3 assertions *)
Example doc_fundu_core_time_1068 : all_pass [
  same (opt_eqb deqb) (let* x := (positive 1 0) in let* y := (positive 1 0) in checked_add x y) (map_res Some (positive 2 0));
  same (opt_eqb deqb) (let* x := (positive 18446744073709551615 0) in let* y := (positive 1 0) in checked_add x y) (Ok None);
  same (opt_eqb deqb) (let* x := (negative 18446744073709551615 0) in let* y := (negative 1 0) in checked_add x y) (Ok None)] = true.
Proof. vm_compute. reflexivity. Qed.

(* fundu-core/src/time.rs:1118: 2 assertions *)
Example doc_fundu_core_time_1118 : all_pass [
  same (opt_eqb deqb) (let* x := (positive 1 0) in let* y := (positive 1 0) in checked_sub x y) (map_res Some (Ok ZERO));
  same (opt_eqb deqb) (let* x := (negative 18446744073709551615 0) in let* y := (positive 1 0) in checked_sub x y) (Ok None)] = true.
Proof. vm_compute. reflexivity. Qed.

(* fundu-core/src/time.rs:1140: 2 assertions *)
Example doc_fundu_core_time_1140 : all_pass [
  same deqb (let* x := (positive 1 0) in let* y := (positive 0 1) in saturating_add x y) (positive 1 1);
  same deqb (let* x := (positive 18446744073709551615 0) in let* y := (positive 1 0) in saturating_add x y) (Ok MAX)] = true.
Proof. vm_compute. reflexivity. Qed.

(* fundu-core/src/time.rs:1167: 2 assertions *)
Example doc_fundu_core_time_1167 : all_pass [
  same deqb (let* x := (positive 1 0) in let* y := (positive 1 0) in saturating_sub x y) (Ok ZERO);
  same deqb (let* x := (negative 18446744073709551615 0) in let* y := (positive 1 0) in saturating_sub x y) (Ok MIN)] = true.
Proof. vm_compute. reflexivity. Qed.

(* fundu-gnu/src/datetime.rs:59: 4 assertions *)
Example doc_fundu_gnu_datetime_59 : all_pass [
  same (opt_eqb z3_eqb) (to_gregorian 0) (map_res Some (let* a := (Ok (-4713)) in let* b := (Ok 11) in let* c := (Ok 24) in Ok (a, b, c)));
  same (opt_eqb z3_eqb) (to_gregorian (-365)) (map_res Some (let* a := (Ok (-4714)) in let* b := (Ok 11) in let* c := (Ok 24) in Ok (a, b, c)));
  same (opt_eqb z3_eqb) (to_gregorian 1721060) (map_res Some (let* a := (Ok 0) in let* b := (Ok 1) in let* c := (Ok 1) in Ok (a, b, c)));
  same (opt_eqb z3_eqb) (to_gregorian 2440588) (map_res Some (let* a := (Ok 1970) in let* b := (Ok 1) in let* c := (Ok 1) in Ok (a, b, c)))] = true.
Proof. vm_compute. reflexivity. Qed.

(* fundu-gnu/src/datetime.rs:88: 4 assertions *)
Example doc_fundu_gnu_datetime_88 : all_pass [
  same Z.eqb (from_gregorian (-4713) 11 24) (Ok 0);
  same Z.eqb (from_gregorian (-4714) 11 24) (Ok (-365));
  same Z.eqb (from_gregorian 0 1 1) (Ok 1721060);
  same Z.eqb (from_gregorian 1970 1 1) (Ok 2440588)] = true.
Proof. vm_compute. reflexivity. Qed.

(* fundu-gnu/src/datetime.rs:123: 4 assertions *)
Example doc_fundu_gnu_datetime_123 : all_pass [
  same (opt_eqb Z.eqb) (try_from_gregorian (-4713) 11 24) (map_res Some (Ok 0));
  same (opt_eqb Z.eqb) (try_from_gregorian (-4714) 11 24) (map_res Some (Ok (-365)));
  same (opt_eqb Z.eqb) (try_from_gregorian 0 1 1) (map_res Some (Ok 1721060));
  same (opt_eqb Z.eqb) (try_from_gregorian 1970 1 1) (map_res Some (Ok 2440588))] = true.
Proof. vm_compute. reflexivity. Qed.

(* fundu-gnu/src/datetime.rs:175: 1 assertions *)
Example doc_fundu_gnu_datetime_175 : all_pass [
  same Z.eqb (Ok (-1)) (Ok (-1))] = true.
Proof. vm_compute. reflexivity. Qed.

(* fundu-gnu/src/datetime.rs:193: 4 assertions *)
Example doc_fundu_gnu_datetime_193 : all_pass [
  same (opt_eqb z3_eqb) (to_gregorian (-365)) (map_res Some (let* a := (Ok (-4714)) in let* b := (Ok 11) in let* c := (Ok 24) in Ok (a, b, c)));
  same (opt_eqb z3_eqb) (to_gregorian 0) (map_res Some (let* a := (Ok (-4713)) in let* b := (Ok 11) in let* c := (Ok 24) in Ok (a, b, c)));
  same (opt_eqb z3_eqb) (to_gregorian 1721060) (map_res Some (let* a := (Ok 0) in let* b := (Ok 1) in let* c := (Ok 1) in Ok (a, b, c)));
  same (opt_eqb z3_eqb) (to_gregorian 2440588) (map_res Some (let* a := (Ok 1970) in let* b := (Ok 1) in let* c := (Ok 1) in Ok (a, b, c)))] = true.
Proof. vm_compute. reflexivity. Qed.

(* fundu-gnu/src/datetime.rs:239: 2 assertions *)
Example doc_fundu_gnu_datetime_239 : all_pass [
  same (opt_eqb Z.eqb) (Ok (jd_checked_add 0 10000)) (map_res Some (Ok 10000));
  same (opt_eqb Z.eqb) (Ok (jd_checked_add 0 (-1))) (map_res Some (Ok (-1)))] = true.
Proof. vm_compute. reflexivity. Qed.

(* fundu-gnu/src/datetime.rs:259: 2 assertions *)
Example doc_fundu_gnu_datetime_259 : all_pass [
  same (opt_eqb Z.eqb) (Ok (jd_checked_sub 1700000 1)) (map_res Some (Ok 1699999));
  same (opt_eqb Z.eqb) (Ok (jd_checked_sub 0 366)) (map_res Some (Ok (-366)))] = true.
Proof. vm_compute. reflexivity. Qed.

(* fundu-gnu/src/datetime.rs:279: 2 assertions *)
Example doc_fundu_gnu_datetime_279 : all_pass [
  same (opt_eqb Z.eqb) (Ok (jd_checked_add 0 10000)) (map_res Some (Ok 10000));
  same (opt_eqb Z.eqb) (Ok (jd_checked_add 0 (-1))) (map_res Some (Ok (-1)))] = true.
Proof. vm_compute. reflexivity. Qed.

(* fundu-gnu/src/datetime.rs:299: 2 assertions *)
Example doc_fundu_gnu_datetime_299 : all_pass [
  same (opt_eqb Z.eqb) (Ok (jd_checked_sub 1700000 1)) (map_res Some (Ok 1699999));
  same (opt_eqb Z.eqb) (Ok (jd_checked_sub 0 366)) (map_res Some (Ok (-366)))] = true.
Proof. vm_compute. reflexivity. Qed.

(* fundu-gnu/src/datetime.rs:335: 1 assertions *)
Example doc_fundu_gnu_datetime_335 : all_pass [
  same dt_eqb (from_gregorian_date_time 1970 1 1 0 0 0 0) UNIX_EPOCH] = true.
Proof. vm_compute. reflexivity. Qed.

(* fundu-gnu/src/datetime.rs:423: 3 assertions *)
Example doc_fundu_gnu_datetime_423 : all_pass [
  same dt_eqb (from_gregorian_date_time 1970 1 1 0 0 0 0) UNIX_EPOCH;
  same (opt_eqb z7_eqb) (let* x := (from_gregorian_date_time 1972 2 29 1 30 59 700000000) in to_gregorian_date_time x) (map_res Some (Ok (1972, 2, 29, (1, 30, 59, 700000000))));
  same dt_eqb (from_gregorian_date_time 1960 4 31 1 30 59 700000000) (from_gregorian_date_time 1960 5 1 1 30 59 700000000)] = true.
Proof. vm_compute. reflexivity. Qed.

(* fundu-gnu/src/datetime.rs:471: 2 assertions *)
Example doc_fundu_gnu_datetime_471 : all_pass [
  same (opt_eqb z3_eqb) (let* x := UNIX_EPOCH in to_gregorian_date x) (map_res Some (let* a := (Ok 1970) in let* b := (Ok 1) in let* c := (Ok 1) in Ok (a, b, c)));
  same (opt_eqb z3_eqb) (let* x := (from_gregorian_date_time 1959 1 12 10 3 59 0) in to_gregorian_date x) (map_res Some (let* a := (Ok 1959) in let* b := (Ok 1) in let* c := (Ok 12) in Ok (a, b, c)))] = true.
Proof. vm_compute. reflexivity. Qed.

(* fundu-gnu/src/datetime.rs:488: 2 assertions *)
Example doc_fundu_gnu_datetime_488 : all_pass [
  same (opt_eqb z7_eqb) (let* x := UNIX_EPOCH in to_gregorian_date_time x) (map_res Some (Ok (1970, 1, 1, (0, 0, 0, 0))));
  same (opt_eqb z7_eqb) (let* x := (from_gregorian_date_time 1959 1 12 10 3 59 500000000) in to_gregorian_date_time x) (map_res Some (Ok (1959, 1, 12, (10, 3, 59, 500000000))))] = true.
Proof. vm_compute. reflexivity. Qed.

(* fundu-gnu/src/datetime.rs:513: 2 assertions *)
Example doc_fundu_gnu_datetime_513 : all_pass [
  same z4_eqb (map_res as_hmsn UNIX_EPOCH) (let* a := (Ok 0) in let* b := (Ok 0) in let* c := (Ok 0) in let* d := (Ok 0) in Ok (a, b, c, d));
  same z4_eqb (map_res as_hmsn (from_gregorian_date_time 1959 1 12 10 3 59 500000000)) (let* a := (Ok 10) in let* b := (Ok 3) in let* c := (Ok 59) in let* d := (Ok 500000000) in Ok (a, b, c, d))] = true.
Proof. vm_compute. reflexivity. Qed.

(* fundu-gnu/src/datetime.rs:545: 3 assertions *)
Example doc_fundu_gnu_datetime_545 : all_pass [
  same Z.eqb (map_res as_julian_day UNIX_EPOCH) (Ok 2440588);
  same Z.eqb (map_res as_julian_day (from_gregorian_date_time (-4713) 11 24 10 3 59 500000000)) (Ok 0);
  same Z.eqb (map_res as_julian_day (from_gregorian_date_time 2023 3 9 23 59 59 999999999)) (Ok 2460013)] = true.
Proof. vm_compute. reflexivity. Qed.

(* fundu-gnu/src/datetime.rs:597: 1 assertions *)
Example doc_fundu_gnu_datetime_597 : all_pass [
  same (opt_eqb dt_eqb) (let* x := (from_gregorian_date_time 1970 1 1 23 59 59 0) in let* y := (positive 3600 0) in checked_add_duration x y) (map_res Some (from_gregorian_date_time 1970 1 2 0 59 59 0))] = true.
Proof. vm_compute. reflexivity. Qed.

(* fundu-gnu/src/datetime.rs:643: 1 assertions *)
Example doc_fundu_gnu_datetime_643 : all_pass [
  same (opt_eqb dt_eqb) (let* x := (from_gregorian_date_time 1970 1 1 0 0 0 0) in let* y := (positive 3600 0) in checked_sub_duration x y) (map_res Some (from_gregorian_date_time 1969 12 31 23 0 0 0))] = true.
Proof. vm_compute. reflexivity. Qed.

(* fundu-gnu/src/datetime.rs:664: 4 assertions *)
Example doc_fundu_gnu_datetime_664 : all_pass [
  same (opt_eqb dt_eqb) (let* x := (from_gregorian_date_time 1970 1 1 0 0 0 0) in checked_add_gregorian x 2000 0 0) (map_res Some (from_gregorian_date_time 3970 1 1 0 0 0 0));
  same (opt_eqb dt_eqb) (let* x := (from_gregorian_date_time 1970 1 1 0 0 0 0) in checked_add_gregorian x 0 121 0) (map_res Some (from_gregorian_date_time 1980 2 1 0 0 0 0));
  same (opt_eqb dt_eqb) (let* x := (from_gregorian_date_time 1970 1 1 0 0 0 0) in checked_add_gregorian x 0 0 365) (map_res Some (from_gregorian_date_time 1971 1 1 0 0 0 0));
  same (opt_eqb dt_eqb) (let* x := (from_gregorian_date_time 1972 1 1 0 0 0 0) in checked_add_gregorian x 0 0 366) (map_res Some (from_gregorian_date_time 1973 1 1 0 0 0 0))] = true.
Proof. vm_compute. reflexivity. Qed.

(* fundu-gnu/src/datetime.rs:726: 3 assertions *)
Example doc_fundu_gnu_datetime_726 : all_pass [
  same (opt_eqb deqb) (let* x := (from_gregorian_date_time 1971 1 1 23 0 0 0) in let* y := UNIX_EPOCH in duration_since x y) (map_res Some (positive 31618800 0));
  same (opt_eqb deqb) (let* x := (from_gregorian_date_time 1973 1 1 0 0 10 123456789) in let* y := (from_gregorian_date_time 1972 1 1 0 0 0 0) in duration_since x y) (map_res Some (positive 31622410 123456789));
  same (opt_eqb deqb) (let* x := (from_gregorian_date_time 1972 1 1 0 0 0 0) in let* y := (from_gregorian_date_time 1973 1 1 0 0 10 123456789) in duration_since x y) (map_res Some (negative 31622410 123456789))] = true.
Proof. vm_compute. reflexivity. Qed.

(* fundu-gnu/src/lib.rs:79: 14 assertions *)
Example doc_fundu_gnu_lib_79 : all_pass [
  same deqb (gnu_parse gnu_new (inl (Std 1690000000 0)) (%"1hour")) (positive 3600 0);
  same deqb (gnu_parse gnu_new (inl (Std 1690000000 0)) (%"minute")) (positive 60 0);
  same deqb (gnu_parse gnu_new (inl (Std 1690000000 0)) (%"2 hours")) (positive 7200 0);
  same deqb (gnu_parse gnu_new (inl (Std 1690000000 0)) (%"second")) (positive 1 0);
  same deqb (gnu_parse gnu_new (inl (Std 1690000000 0)) (%"-3minutes")) (negative 180 0);
  same deqb (gnu_parse gnu_new (inl (Std 1690000000 0)) (%"3 mins ago")) (negative 180 0);
  same deqb (gnu_parse gnu_new (inl (Std 1690000000 0)) (%"999sec +1day")) (positive 87399 0);
  same deqb (gnu_parse gnu_new (inl (Std 1690000000 0)) (%"55secs500week")) (positive 302400055 0);
  same deqb (gnu_parse gnu_new (inl (Std 1690000000 0)) (%"300mins20secs 5hour")) (positive 36020 0);
  same deqb (gnu_parse gnu_new (inl (Std 1690000000 0)) (%"123456789")) (positive 123456789 0);
  same deqb (gnu_parse gnu_new (inl (Std 1690000000 0)) (%"42fortnight")) (positive 50803200 0);
  same deqb (gnu_parse gnu_new (inl (Std 1690000000 0)) (%"yesterday")) (negative 86400 0);
  same deqb (gnu_parse gnu_new (inl (Std 1690000000 0)) (%"now")) (positive 0 0);
  same deqb (gnu_parse gnu_new (inl (Std 1690000000 0)) (%"today -10seconds")) (negative 10 0)] = true.
Proof. vm_compute. reflexivity. Qed.

(* fundu-gnu/src/lib.rs:129: 4 assertions *)
Example doc_fundu_gnu_lib_129 : all_pass [
  same deqb (let* x := (from_gregorian_date_time 1970 1 1 0 0 0 0) in gnu_parse_with_date gnu_new (inl (Std 1690000000 0)) (%"+1year") (Some x)) (positive 31536000 0);
  same deqb (let* x := (from_gregorian_date_time 1970 1 1 0 0 0 0) in gnu_parse_with_date gnu_new (inl (Std 1690000000 0)) (%"+2month") (Some x)) (positive 5097600 0);
  same deqb (let* x := (from_gregorian_date_time 1972 1 1 0 0 0 0) in gnu_parse_with_date gnu_new (inl (Std 1690000000 0)) (%"+1year") (Some x)) (positive 31622400 0);
  same deqb (let* x := (from_gregorian_date_time 1972 1 1 0 0 0 0) in gnu_parse_with_date gnu_new (inl (Std 1690000000 0)) (%"+2month") (Some x)) (positive 5184000 0)] = true.
Proof. vm_compute. reflexivity. Qed.

(* fundu-gnu/src/lib.rs:160: 2 assertions *)
Example doc_fundu_gnu_lib_160 : all_pass [
  same deqb (gnu_global_parse (inl (Std 1690000000 0)) (%"123 sec")) (positive 123 0);
  same deqb (gnu_global_parse (inl (Std 1690000000 0)) (%"1sec3min")) (positive 181 0)] = true.
Proof. vm_compute. reflexivity. Qed.

(* fundu-gnu/src/lib.rs:170: 2 assertions *)
Example doc_fundu_gnu_lib_170 : all_pass [
  same std_eqb (conv_get (map_res try_into_std (no_err (gnu_global_parse (inl (Std 1690000000 0)) (%"123 sec"))))) (std_new 123 0);
  same std_eqb (let* x := (no_err (gnu_global_parse (inl (Std 1690000000 0)) (%"123 sec"))) in saturating_into_std x) (std_new 123 0)] = true.
Proof. vm_compute. reflexivity. Qed.

(* fundu-gnu/src/lib.rs:458: 14 assertions *)
Example doc_fundu_gnu_lib_458 : all_pass [
  same deqb (gnu_parse gnu_new (inl (Std 1690000000 0)) (%"1hour")) (positive 3600 0);
  same deqb (gnu_parse gnu_new (inl (Std 1690000000 0)) (%"minute")) (positive 60 0);
  same deqb (gnu_parse gnu_new (inl (Std 1690000000 0)) (%"2 hours")) (positive 7200 0);
  same deqb (gnu_parse gnu_new (inl (Std 1690000000 0)) (%"second")) (positive 1 0);
  same deqb (gnu_parse gnu_new (inl (Std 1690000000 0)) (%"-3minutes")) (negative 180 0);
  same deqb (gnu_parse gnu_new (inl (Std 1690000000 0)) (%"3 mins ago")) (negative 180 0);
  same deqb (gnu_parse gnu_new (inl (Std 1690000000 0)) (%"999sec +1day")) (positive 87399 0);
  same deqb (gnu_parse gnu_new (inl (Std 1690000000 0)) (%"55secs500week")) (positive 302400055 0);
  same deqb (gnu_parse gnu_new (inl (Std 1690000000 0)) (%"300mins20secs 5hour")) (positive 36020 0);
  same deqb (gnu_parse gnu_new (inl (Std 1690000000 0)) (%"123456789")) (positive 123456789 0);
  same deqb (gnu_parse gnu_new (inl (Std 1690000000 0)) (%"42fortnight")) (positive 50803200 0);
  same deqb (gnu_parse gnu_new (inl (Std 1690000000 0)) (%"yesterday")) (negative 86400 0);
  same deqb (gnu_parse gnu_new (inl (Std 1690000000 0)) (%"now")) (positive 0 0);
  same deqb (gnu_parse gnu_new (inl (Std 1690000000 0)) (%"today -10seconds")) (negative 10 0)] = true.
Proof. vm_compute. reflexivity. Qed.

(* fundu-gnu/src/lib.rs:516: 3 assertions *)
Example doc_fundu_gnu_lib_516 : all_pass [
  same deqb (gnu_parse gnu_new (inl (Std 1690000000 0)) (%"2hours")) (positive 7200 0);
  same deqb (gnu_parse gnu_new (inl (Std 1690000000 0)) (%"123")) (positive 123 0);
  same deqb (gnu_parse gnu_new (inl (Std 1690000000 0)) (%"3min +10sec")) (positive 190 0)] = true.
Proof. vm_compute. reflexivity. Qed.

(* fundu-gnu/src/lib.rs:546: 4 assertions *)
Example doc_fundu_gnu_lib_546 : all_pass [
  same deqb (gnu_parse gnu_new (inl (Std 1690000000 0)) (%"2hours")) (positive 7200 0);
  same deqb (gnu_parse gnu_new (inl (Std 1690000000 0)) (%"12 seconds")) (positive 12 0);
  same deqb (gnu_parse gnu_new (inl (Std 1690000000 0)) (%"123456789")) (positive 123456789 0);
  same deqb (gnu_parse gnu_new (inl (Std 1690000000 0)) (%"yesterday")) (negative 86400 0)] = true.
Proof. vm_compute. reflexivity. Qed.

(* fundu-gnu/src/lib.rs:582: 5 assertions *)
Example doc_fundu_gnu_lib_582 : all_pass [
  same deqb (gnu_parse_with_date gnu_new (inl (Std 1690000000 0)) (%"2hours") None) (positive 7200 0);
  same deqb (let* x := (from_gregorian_date_time 1970 2 1 0 0 0 0) in gnu_parse_with_date gnu_new (inl (Std 1690000000 0)) (%"+1month") (Some x)) (positive 2419200 0);
  same deqb (let* x := (from_gregorian_date_time 1970 2 1 0 0 0 0) in gnu_parse_with_date gnu_new (inl (Std 1690000000 0)) (%"+1year") (Some x)) (positive 31536000 0);
  same deqb (let* x := (from_gregorian_date_time 1972 2 1 0 0 0 0) in gnu_parse_with_date gnu_new (inl (Std 1690000000 0)) (%"+1month") (Some x)) (positive 2505600 0);
  same deqb (let* x := (from_gregorian_date_time 1972 2 1 0 0 0 0) in gnu_parse_with_date gnu_new (inl (Std 1690000000 0)) (%"+1year") (Some x)) (positive 31622400 0)] = true.
Proof. vm_compute. reflexivity. Qed.

(* fundu-gnu/src/lib.rs:648: 2 assertions *)
Example doc_fundu_gnu_lib_648 : all_pass [
  same fuzzy_eqb (gnu_parse_fuzzy gnu_new (%"2hours")) (let* a := (Ok 0) in let* b := (Ok 0) in let* c := (positive 7200 0) in Ok (a, b, c));
  same fuzzy_eqb (gnu_parse_fuzzy gnu_new (%"2hours +123month -10years")) (let* a := (Ok (-10)) in let* b := (Ok 123) in let* c := (positive 7200 0) in Ok (a, b, c))] = true.
Proof. vm_compute. reflexivity. Qed.

(* fundu-gnu/src/lib.rs:877: 4 assertions *)
Example doc_fundu_gnu_lib_877 : all_pass [
  same deqb (gnu_global_parse (inl (Std 1690000000 0)) (%"2hours")) (positive 7200 0);
  same deqb (gnu_global_parse (inl (Std 1690000000 0)) (%"12 seconds")) (positive 12 0);
  same deqb (gnu_global_parse (inl (Std 1690000000 0)) (%"123456789")) (positive 123456789 0);
  same deqb (gnu_global_parse (inl (Std 1690000000 0)) (%"yesterday")) (negative 86400 0)] = true.
Proof. vm_compute. reflexivity. Qed.

(* fundu-gnu/src/lib.rs:905: 5 assertions *)
Example doc_fundu_gnu_lib_905 : all_pass [
  same deqb (gnu_global_parse_with_date (inl (Std 1690000000 0)) (%"2hours") None) (positive 7200 0);
  same deqb (let* x := (from_gregorian_date_time 1970 2 1 0 0 0 0) in gnu_global_parse_with_date (inl (Std 1690000000 0)) (%"+1month") (Some x)) (positive 2419200 0);
  same deqb (let* x := (from_gregorian_date_time 1970 2 1 0 0 0 0) in gnu_global_parse_with_date (inl (Std 1690000000 0)) (%"+1year") (Some x)) (positive 31536000 0);
  same deqb (let* x := (from_gregorian_date_time 1972 2 1 0 0 0 0) in gnu_global_parse_with_date (inl (Std 1690000000 0)) (%"+1month") (Some x)) (positive 2505600 0);
  same deqb (let* x := (from_gregorian_date_time 1972 2 1 0 0 0 0) in gnu_global_parse_with_date (inl (Std 1690000000 0)) (%"+1year") (Some x)) (positive 31622400 0)] = true.
Proof. vm_compute. reflexivity. Qed.

(* fundu-gnu/src/lib.rs:957: 2 assertions *)
Example doc_fundu_gnu_lib_957 : all_pass [
  same fuzzy_eqb (gnu_parse_fuzzy gnu_new (%"2hours")) (let* a := (Ok 0) in let* b := (Ok 0) in let* c := (positive 7200 0) in Ok (a, b, c));
  same fuzzy_eqb (gnu_parse_fuzzy gnu_new (%"2hours +123month -10years")) (let* a := (Ok (-10)) in let* b := (Ok 123) in let* c := (positive 7200 0) in Ok (a, b, c))] = true.
Proof. vm_compute. reflexivity. Qed.

(* fundu-systemd/src/lib.rs:84: 9 assertions *)
Example doc_fundu_systemd_lib_84 : all_pass [
  same deqb (sd_parse sd_new (%"2h")) (positive 7200 0);
  same deqb (sd_parse sd_new (%"second")) (positive 1 0);
  same deqb (sd_parse sd_new (%"48hr")) (positive 172800 0);
  same deqb (sd_parse sd_new (%"12.3 seconds")) (positive 12 300000000);
  same deqb (sd_parse sd_new (%"300ms20s 5day")) (positive 432020 300000000);
  same deqb (sd_parse sd_new (%"123456789")) (positive 123456789 0);
  same deqb (sd_parse sd_new (%"infinity")) SYSTEMD_MAX_MICRO_DURATION;
  same deqb (sd_parse_nanos sd_new (%"7809 nsec")) (positive 0 7809);
  same deqb (sd_parse_nanos sd_new (%"infinity")) SYSTEMD_MAX_NANOS_DURATION] = true.
Proof. vm_compute. reflexivity. Qed.

(* fundu-systemd/src/lib.rs:123: 2 assertions *)
Example doc_fundu_systemd_lib_123 : all_pass [
  same deqb (sd_parse (sd_with_default_unit MicroSecond) (%"100")) (positive 0 100000);
  same deqb (sd_parse (sd_set_default_unit sd_new MicroSecond) (%"100")) (positive 0 100000)] = true.
Proof. vm_compute. reflexivity. Qed.

(* fundu-systemd/src/lib.rs:138: 6 assertions *)
Example doc_fundu_systemd_lib_138 : all_pass [
  same deqb (sd_global_parse (%"123 sec") None None) (positive 123 0);
  same deqb (sd_global_parse (%"123 nsec") None None) (Err (InvalidInput (%"nsec")));
  same deqb (sd_global_parse_nanos (%"123 nsec") None None) (positive 0 123);
  same deqb (sd_global_parse (%"infinity") None None) SYSTEMD_MAX_MICRO_DURATION;
  same deqb (sd_global_parse_nanos (%"infinity") None None) SYSTEMD_MAX_NANOS_DURATION;
  same deqb (let* x := (Ok MAX) in sd_global_parse_nanos (%"infinity") None (Some x)) (Ok MAX)] = true.
Proof. vm_compute. reflexivity. Qed.

(* fundu-systemd/src/lib.rs:253: 11 assertions *)
Example doc_fundu_systemd_lib_253 : all_pass [
  same deqb (sd_parse sd_new (%"2h")) (positive 7200 0);
  same deqb (sd_parse sd_new (%"2hours")) (positive 7200 0);
  same deqb (sd_parse sd_new (%"second")) (positive 1 0);
  same deqb (sd_parse sd_new (%"48hr")) (positive 172800 0);
  same deqb (sd_parse sd_new (%"12.3 seconds")) (positive 12 300000000);
  same deqb (sd_parse sd_new (%"1y 12month")) (positive 63115200 0);
  same deqb (sd_parse sd_new (%"999us +1d")) (positive 86400 999000);
  same deqb (sd_parse sd_new (%"55s500ms")) (positive 55 500000000);
  same deqb (sd_parse sd_new (%"300ms20s 5day")) (positive 432020 300000000);
  same deqb (sd_parse sd_new (%"123456789")) (positive 123456789 0);
  same deqb (sd_parse sd_new (%"infinity")) SYSTEMD_MAX_MICRO_DURATION] = true.
Proof. vm_compute. reflexivity. Qed.

(* fundu-systemd/src/lib.rs:301: 2 assertions *)
Example doc_fundu_systemd_lib_301 : all_pass [
  same deqb (sd_parse (sd_with_default_unit MicroSecond) (%"100")) (positive 0 100000);
  same deqb (sd_parse (sd_set_default_unit sd_new MicroSecond) (%"100")) (positive 0 100000)] = true.
Proof. vm_compute. reflexivity. Qed.

(* fundu-systemd/src/lib.rs:323: 3 assertions *)
Example doc_fundu_systemd_lib_323 : all_pass [
  same deqb (sd_parse sd_new (%"2h")) (positive 7200 0);
  same deqb (sd_parse sd_new (%"123")) (positive 123 0);
  same deqb (sd_parse sd_new (%"3us +10sec")) (positive 10 3000)] = true.
Proof. vm_compute. reflexivity. Qed.

(* fundu-systemd/src/lib.rs:345: 2 assertions *)
Example doc_fundu_systemd_lib_345 : all_pass [
  same deqb (sd_parse (sd_with_default_unit MicroSecond) (%"123")) (positive 0 123000);
  same deqb (sd_parse (sd_with_default_unit MicroSecond) (%"3us +10sec")) (positive 10 3000)] = true.
Proof. vm_compute. reflexivity. Qed.

(* fundu-systemd/src/lib.rs:381: 6 assertions *)
Example doc_fundu_systemd_lib_381 : all_pass [
  same deqb (sd_parse sd_new (%"2hours")) (positive 7200 0);
  same deqb (sd_parse sd_new (%"12.3 seconds")) (positive 12 300000000);
  same deqb (sd_parse sd_new (%"100000000000000000000000000000years")) SYSTEMD_MAX_MICRO_DURATION;
  same deqb (sd_parse sd_new (%"1y 12month")) (positive 63115200 0);
  same deqb (sd_parse sd_new (%"123456789")) (positive 123456789 0);
  same deqb (sd_parse sd_new (%"infinity")) SYSTEMD_MAX_MICRO_DURATION] = true.
Proof. vm_compute. reflexivity. Qed.

(* fundu-systemd/src/lib.rs:427: 3 assertions *)
Example doc_fundu_systemd_lib_427 : all_pass [
  same deqb (let* x := (Ok MAX) in sd_parse_with_max sd_new (%"100000000000000000000000000000years") x) (Ok MAX);
  same deqb (let* x := (positive 1 0) in sd_parse_with_max sd_new (%"123 sec") x) (positive 1 0);
  same deqb (let* x := (positive 9223372036854775807 123) in sd_parse_with_max sd_new (%"infinity") x) (positive 9223372036854775807 123)] = true.
Proof. vm_compute. reflexivity. Qed.

(* fundu-systemd/src/lib.rs:470: 6 assertions *)
Example doc_fundu_systemd_lib_470 : all_pass [
  same deqb (sd_parse_nanos sd_new (%"2hours")) (positive 7200 0);
  same deqb (sd_parse_nanos sd_new (%"12.3 seconds")) (positive 12 300000000);
  same deqb (sd_parse_nanos sd_new (%"100000000000000000000000000000years")) SYSTEMD_MAX_NANOS_DURATION;
  same deqb (sd_parse_nanos sd_new (%"1y 12month")) (positive 63115200 0);
  same deqb (sd_parse_nanos sd_new (%"123456789")) (positive 123456789 0);
  same deqb (sd_parse_nanos sd_new (%"infinity")) SYSTEMD_MAX_NANOS_DURATION] = true.
Proof. vm_compute. reflexivity. Qed.

(* fundu-systemd/src/lib.rs:519: 3 assertions *)
Example doc_fundu_systemd_lib_519 : all_pass [
  same deqb (let* x := (Ok MAX) in sd_parse_nanos_with_max sd_new (%"100000000000000000000000000000years") x) (Ok MAX);
  same deqb (let* x := (positive 1 0) in sd_parse_nanos_with_max sd_new (%"1234567890 nsec") x) (positive 1 0);
  same deqb (let* x := (positive 9223372036854775807 123) in sd_parse_nanos_with_max sd_new (%"infinity") x) (positive 9223372036854775807 123)] = true.
Proof. vm_compute. reflexivity. Qed.

(* fundu-systemd/src/lib.rs:559: 4 assertions *)
Example doc_fundu_systemd_lib_559 : all_pass [
  same deqb (sd_parse (sd_with_default_unit MicroSecond) (%"100")) (positive 0 100000);
  same deqb (sd_parse (sd_set_default_unit (sd_with_default_unit MicroSecond) Second) (%"100")) (positive 100 0);
  same deqb (sd_parse sd_new (%"123456")) (positive 123456 0);
  same deqb (sd_parse (sd_set_default_unit sd_new MicroSecond) (%"123456")) (positive 0 123456000)] = true.
Proof. vm_compute. reflexivity. Qed.

(* fundu-systemd/src/lib.rs:663: 6 assertions *)
Example doc_fundu_systemd_lib_663 : all_pass [
  same deqb (sd_global_parse (%"2hours") None None) (positive 7200 0);
  same deqb (sd_global_parse (%"1y 12month") None None) (positive 63115200 0);
  same deqb (sd_global_parse (%"12.3") (Some MilliSecond) None) (positive 0 12300000);
  same deqb (sd_global_parse (%"100000000000000000000000000000years") None None) SYSTEMD_MAX_MICRO_DURATION;
  same deqb (let* x := (Ok MAX) in sd_global_parse (%"100000000000000000000000000000years") None (Some x)) (Ok MAX);
  same deqb (sd_global_parse (%"infinity") None None) SYSTEMD_MAX_MICRO_DURATION] = true.
Proof. vm_compute. reflexivity. Qed.

(* fundu-systemd/src/lib.rs:729: 6 assertions *)
Example doc_fundu_systemd_lib_729 : all_pass [
  same deqb (sd_global_parse_nanos (%"2nsec") None None) (positive 0 2);
  same deqb (sd_global_parse_nanos (%"1y 12month") None None) (positive 63115200 0);
  same deqb (sd_global_parse_nanos (%"12.3") (Some MilliSecond) None) (positive 0 12300000);
  same deqb (sd_global_parse_nanos (%"100000000000000000000000000000years") None None) SYSTEMD_MAX_NANOS_DURATION;
  same deqb (let* x := (Ok MAX) in sd_global_parse_nanos (%"100000000000000000000000000000years") None (Some x)) (Ok MAX);
  same deqb (sd_global_parse_nanos (%"infinity") None None) SYSTEMD_MAX_NANOS_DURATION] = true.
Proof. vm_compute. reflexivity. Qed.

(* fundu/src/custom/builder.rs:18: 4 assertions *)
Example doc_fundu_custom_builder_18 : all_pass [
  same deqb (no_err (cp_parse (cb_build (cb_call (cb_call (cb_call cb_new (CB_time_units [(ctu_with_default NanoSecond [(%"ns")])])) (CB_default_unit MicroSecond)) CB_allow_time_unit_delimiter)) (%"1 ns"))) (positive 0 1);
  same deqb (no_err (cp_parse (cb_build (cb_call (cb_call (cb_call cb_new (CB_time_units [(ctu_with_default NanoSecond [(%"ns")])])) (CB_default_unit MicroSecond)) CB_allow_time_unit_delimiter)) (%"1"))) (positive 0 1000);
  same deqb (no_err (cp_parse (cp_call (cp_call (cp_with_time_units [(ctu_with_default NanoSecond [(%"ns")])]) (C_set (Set_default_unit MicroSecond))) (C_set (Set_allow_time_unit_delimiter true))) (%"1 ns"))) (positive 0 1);
  same deqb (no_err (cp_parse (cp_call (cp_call (cp_with_time_units [(ctu_with_default NanoSecond [(%"ns")])]) (C_set (Set_default_unit MicroSecond))) (C_set (Set_allow_time_unit_delimiter true))) (%"1"))) (positive 0 1000)] = true.
Proof. vm_compute. reflexivity. Qed.

(* fundu/src/custom/builder.rs:113: 1 assertions *)
Example doc_fundu_custom_builder_113 : all_pass [
  same deqb (no_err (cp_parse (cb_build (cb_call cb_new (CB_time_units [(ctu_ok (ctu_new Week [(%"fortnight"); (%"fortnights")] (Some (Mul 2 0)))); (ctu_ok (ctu_new Second [(%"shake"); (%"shakes")] (Some (Mul 1 (-8)))))]))) (%"1fortnight"))) (positive 1209600 0)] = true.
Proof. vm_compute. reflexivity. Qed.

(* fundu/src/custom/builder.rs:146: 3 assertions *)
Example doc_fundu_custom_builder_146 : all_pass [
  same deqb (cp_parse (cb_build (cb_call (cb_call cb_new (CB_time_unit (ctu_with_default NanoSecond [(%"ns")]))) (CB_keyword (CTU Day (Mul 1 0) [(%"tomorrow")])))) (%"123ns")) (positive 0 123);
  same deqb (cp_parse (cb_build (cb_call (cb_call cb_new (CB_time_unit (ctu_with_default NanoSecond [(%"ns")]))) (CB_keyword (CTU Day (Mul 1 0) [(%"tomorrow")])))) (%"tomorrow")) (positive 86400 0);
  same deqb (cp_parse (cb_build (cb_call (cb_call cb_new (CB_time_unit (ctu_with_default NanoSecond [(%"ns")]))) (CB_keyword (CTU Day (Mul 1 0) [(%"tomorrow")])))) (%"123tomorrow")) (Err (TimeUnitErr 3%nat (%"Invalid time unit: 'tomorrow'")))] = true.
Proof. vm_compute. reflexivity. Qed.

(* fundu/src/custom/builder.rs:183: 2 assertions *)
Example doc_fundu_custom_builder_183 : all_pass [
  same deqb (cp_parse (cb_build (cb_call (cb_call cb_new CB_allow_negative) (CB_keywords [(CTU Day (Mul (-1) 0) [(%"yesterday")]); (CTU Day (Mul 1 0) [(%"tomorrow")])]))) (%"yesterday")) (negative 86400 0);
  same deqb (cp_parse (cb_build (cb_call (cb_call cb_new CB_allow_negative) (CB_keywords [(CTU Day (Mul (-1) 0) [(%"yesterday")]); (CTU Day (Mul 1 0) [(%"tomorrow")])]))) (%"tomorrow")) (positive 86400 0)] = true.
Proof. vm_compute. reflexivity. Qed.

(* fundu/src/custom/builder.rs:220: 2 assertions *)
Example doc_fundu_custom_builder_220 : all_pass [
  same deqb (cp_parse (cb_build (cb_call (cb_call (cb_call cb_new (CB_numeral (Numeral [(%"one"); (%"next")] (Mul 1 0)))) (CB_time_unit (ctu_with_default NanoSecond [(%"nano"); (%"nanos")]))) CB_allow_negative)) (%"next nano")) (positive 0 1);
  same deqb (cp_parse (cb_build (cb_call (cb_call (cb_call cb_new (CB_numeral (Numeral [(%"one"); (%"next")] (Mul 1 0)))) (CB_time_unit (ctu_with_default NanoSecond [(%"nano"); (%"nanos")]))) CB_allow_negative)) (%"one nano")) (positive 0 1)] = true.
Proof. vm_compute. reflexivity. Qed.

(* fundu/src/custom/builder.rs:245: 4 assertions *)
Example doc_fundu_custom_builder_245 : all_pass [
  same deqb (cp_parse (cb_build (cb_call (cb_call (cb_call cb_new (CB_numerals [(Numeral [(%"last")] (Mul (-1) 0)); (Numeral [(%"this")] (Mul 0 0)); (Numeral [(%"one"); (%"next")] (Mul 1 0)); (Numeral [(%"two")] (Mul 2 0))])) (CB_time_unit (ctu_with_default NanoSecond [(%"nano"); (%"nanos")]))) CB_allow_negative)) (%"last nano")) (negative 0 1);
  same deqb (cp_parse (cb_build (cb_call (cb_call (cb_call cb_new (CB_numerals [(Numeral [(%"last")] (Mul (-1) 0)); (Numeral [(%"this")] (Mul 0 0)); (Numeral [(%"one"); (%"next")] (Mul 1 0)); (Numeral [(%"two")] (Mul 2 0))])) (CB_time_unit (ctu_with_default NanoSecond [(%"nano"); (%"nanos")]))) CB_allow_negative)) (%"this nano")) (negative 0 0);
  same deqb (cp_parse (cb_build (cb_call (cb_call (cb_call cb_new (CB_numerals [(Numeral [(%"last")] (Mul (-1) 0)); (Numeral [(%"this")] (Mul 0 0)); (Numeral [(%"one"); (%"next")] (Mul 1 0)); (Numeral [(%"two")] (Mul 2 0))])) (CB_time_unit (ctu_with_default NanoSecond [(%"nano"); (%"nanos")]))) CB_allow_negative)) (%"next nano")) (positive 0 1);
  same deqb (cp_parse (cb_build (cb_call (cb_call (cb_call cb_new (CB_numerals [(Numeral [(%"last")] (Mul (-1) 0)); (Numeral [(%"this")] (Mul 0 0)); (Numeral [(%"one"); (%"next")] (Mul 1 0)); (Numeral [(%"two")] (Mul 2 0))])) (CB_time_unit (ctu_with_default NanoSecond [(%"nano"); (%"nanos")]))) CB_allow_negative)) (%"two nanos")) (positive 0 2)] = true.
Proof. vm_compute. reflexivity. Qed.

(* fundu/src/custom/builder.rs:278: 1 assertions *)
Example doc_fundu_custom_builder_278 : all_pass [
  same deqb (no_err (cp_parse (cb_build (cb_call cb_new (CB_default_unit NanoSecond))) (%"42"))) (positive 0 42)] = true.
Proof. vm_compute. reflexivity. Qed.

(* fundu/src/custom/builder.rs:302: 3 assertions *)
Example doc_fundu_custom_builder_302 : all_pass [
  same deqb (cp_parse (cb_build (cb_call (cb_call cb_new (CB_time_units [(ctu_with_default NanoSecond [(%"ns")])])) CB_allow_time_unit_delimiter)) (%"123 ns")) (positive 0 123);
  same deqb (cp_parse (cb_build (cb_call (cb_call cb_new (CB_time_units [(ctu_with_default NanoSecond [(%"ns")])])) CB_allow_time_unit_delimiter)) (%"123   ns")) (positive 0 123);
  same deqb (cp_parse (cb_build (cb_call (cb_call cb_new (CB_time_units [(ctu_with_default NanoSecond [(%"ns")])])) CB_allow_time_unit_delimiter)) (%"123ns")) (positive 0 123)] = true.
Proof. vm_compute. reflexivity. Qed.

(* fundu/src/custom/builder.rs:326: 4 assertions *)
Example doc_fundu_custom_builder_326 : all_pass [
  same deqb (cp_parse (cb_build (cb_call (cb_call cb_new (CB_time_units [(ctu_with_default NanoSecond [(%"ns")])])) CB_allow_sign_delimiter)) (%"+123ns")) (positive 0 123);
  same deqb (cp_parse (cb_build (cb_call (cb_call cb_new (CB_time_units [(ctu_with_default NanoSecond [(%"ns")])])) CB_allow_sign_delimiter)) [43; 9; 10; 32; 49; 50; 51; 110; 115]) (positive 0 123);
  same deqb (cp_parse (cb_build (cb_call (cb_call cb_new (CB_time_units [(ctu_with_default NanoSecond [(%"ns")])])) CB_allow_sign_delimiter)) (%"+ 123ns")) (positive 0 123);
  same deqb (cp_parse (cb_build (cb_call (cb_call cb_new (CB_time_units [(ctu_with_default NanoSecond [(%"ns")])])) CB_allow_sign_delimiter)) (%"+     123ns")) (positive 0 123)] = true.
Proof. vm_compute. reflexivity. Qed.

(* fundu/src/custom/builder.rs:351: 3 assertions *)
Example doc_fundu_custom_builder_351 : all_pass [
  same deqb (cp_parse (cb_build (cb_call (cb_call (cb_call cb_new CB_allow_negative) (CB_time_units [(ctu_with_default NanoSecond [(%"ns")]); (ctu_ok (ctu_new Second [(%"neg")] (Some (Mul (-1) 0))))])) (CB_keyword (CTU Day (Mul (-1) 0) [(%"yesterday")])))) (%"-123ns")) (negative 0 123);
  same deqb (cp_parse (cb_build (cb_call (cb_call (cb_call cb_new CB_allow_negative) (CB_time_units [(ctu_with_default NanoSecond [(%"ns")]); (ctu_ok (ctu_new Second [(%"neg")] (Some (Mul (-1) 0))))])) (CB_keyword (CTU Day (Mul (-1) 0) [(%"yesterday")])))) (%"1.23e-7neg")) (negative 0 123);
  same deqb (cp_parse (cb_build (cb_call (cb_call (cb_call cb_new CB_allow_negative) (CB_time_units [(ctu_with_default NanoSecond [(%"ns")]); (ctu_ok (ctu_new Second [(%"neg")] (Some (Mul (-1) 0))))])) (CB_keyword (CTU Day (Mul (-1) 0) [(%"yesterday")])))) (%"yesterday")) (negative 86400 0)] = true.
Proof. vm_compute. reflexivity. Qed.

(* fundu/src/custom/builder.rs:386: 3 assertions *)
Example doc_fundu_custom_builder_386 : all_pass [
  same deqb (cp_parse (cb_build (cb_call (cb_call (cb_call cb_new CB_allow_ago) (CB_time_units [(ctu_with_default NanoSecond [(%"ns")]); (ctu_ok (ctu_new Second [(%"neg")] (Some (Mul (-1) 0))))])) (CB_keyword (CTU Day (Mul (-1) 0) [(%"yesterday")])))) (%"123ns ago")) (negative 0 123);
  same deqb (cp_parse (cb_build (cb_call (cb_call (cb_call cb_new CB_allow_ago) (CB_time_units [(ctu_with_default NanoSecond [(%"ns")]); (ctu_ok (ctu_new Second [(%"neg")] (Some (Mul (-1) 0))))])) (CB_keyword (CTU Day (Mul (-1) 0) [(%"yesterday")])))) (%"-123ns ago")) (positive 0 123);
  same deqb (cp_parse (cb_build (cb_call (cb_call (cb_call cb_new CB_allow_ago) (CB_time_units [(ctu_with_default NanoSecond [(%"ns")]); (ctu_ok (ctu_new Second [(%"neg")] (Some (Mul (-1) 0))))])) (CB_keyword (CTU Day (Mul (-1) 0) [(%"yesterday")])))) (%"123neg ago")) (positive 123 0)] = true.
Proof. vm_compute. reflexivity. Qed.

(* fundu/src/custom/builder.rs:410: 3 assertions *)
Example doc_fundu_custom_builder_410 : all_pass [
  same deqb (cp_parse (cb_build (cb_call (cb_call (cb_call cb_new CB_allow_ago) (CB_time_units [(ctu_with_default NanoSecond [(%"ns")])])) (CB_keyword (CTU Day (Mul (-1) 0) [(%"yesterday")])))) (%"123 ago")) (Err (TimeUnitErr 3%nat (%"Invalid time unit: ' ago'")));
  same deqb (cp_parse (cb_build (cb_call (cb_call (cb_call cb_new CB_allow_ago) (CB_time_units [(ctu_with_default NanoSecond [(%"ns")])])) (CB_keyword (CTU Day (Mul (-1) 0) [(%"yesterday")])))) (%"123ns ago ago")) (Err (Syntax 9%nat (%"Expected end of input but found: ' ago'")));
  same deqb (cp_parse (cb_build (cb_call (cb_call (cb_call cb_new CB_allow_ago) (CB_time_units [(ctu_with_default NanoSecond [(%"ns")])])) (CB_keyword (CTU Day (Mul (-1) 0) [(%"yesterday")])))) (%"yesterday ago")) (Err (InvalidInput (%"yesterday ago")))] = true.
Proof. vm_compute. reflexivity. Qed.

(* fundu/src/custom/builder.rs:460: 1 assertions *)
Example doc_fundu_custom_builder_460 : all_pass [
  same deqb (cp_parse (cb_build (cb_call cb_new CB_disable_exponent)) (%"123e+1")) (Err (Syntax 3%nat (%"No exponent allowed")))] = true.
Proof. vm_compute. reflexivity. Qed.

(* fundu/src/custom/builder.rs:482: 3 assertions *)
Example doc_fundu_custom_builder_482 : all_pass [
  same deqb (cp_parse (cb_build (cb_call (cb_call cb_new (CB_time_units [(ctu_with_default NanoSecond [(%"ns")])])) CB_disable_fraction)) (%"123.456")) (Err (Syntax 3%nat (%"No fraction allowed")));
  same deqb (cp_parse (cb_build (cb_call (cb_call cb_new (CB_time_units [(ctu_with_default NanoSecond [(%"ns")])])) CB_disable_fraction)) (%"123e-2")) (positive 1 230000000);
  same deqb (cp_parse (cb_build (cb_call (cb_call cb_new (CB_time_units [(ctu_with_default NanoSecond [(%"ns")])])) CB_disable_fraction)) (%"123ns")) (positive 0 123)] = true.
Proof. vm_compute. reflexivity. Qed.

(* fundu/src/custom/builder.rs:513: 3 assertions *)
Example doc_fundu_custom_builder_513 : all_pass [
  same deqb (cp_parse (cb_build (cb_call cb_new CB_disable_infinity)) (%"inf")) (Err (InvalidInput (%"inf")));
  same deqb (cp_parse (cb_build (cb_call cb_new CB_disable_infinity)) (%"infinity")) (Err (InvalidInput (%"infinity")));
  same deqb (cp_parse (cb_build (cb_call cb_new CB_disable_infinity)) (%"+inf")) (Err (InvalidInput (%"inf")))] = true.
Proof. vm_compute. reflexivity. Qed.

(* fundu/src/custom/builder.rs:544: 3 assertions *)
Example doc_fundu_custom_builder_544 : all_pass [
  same deqb (cp_parse (cb_build (cb_call (cb_call cb_new (CB_time_units CUSTOM_DEFAULT_TIME_UNITS)) CB_number_is_optional)) (%"ns")) (positive 0 1);
  same deqb (cp_parse (cb_build (cb_call (cb_call cb_new (CB_time_units CUSTOM_DEFAULT_TIME_UNITS)) CB_number_is_optional)) (%".001e-6s")) (positive 0 1);
  same deqb (cp_parse (cb_build (cb_call (cb_call cb_new (CB_time_units CUSTOM_DEFAULT_TIME_UNITS)) CB_number_is_optional)) (%"+ns")) (positive 0 1)] = true.
Proof. vm_compute. reflexivity. Qed.

(* fundu/src/custom/builder.rs:569: 6 assertions *)
Example doc_fundu_custom_builder_569 : all_pass [
  same deqb (cp_parse (cb_build (cb_call (cb_call cb_new (CB_time_units CUSTOM_DEFAULT_TIME_UNITS)) (CB_parse_multiple (Some [(%"and")])))) (%"1.5h 2e+2ns")) (positive 5400 200);
  same deqb (cp_parse (cb_build (cb_call (cb_call cb_new (CB_time_units CUSTOM_DEFAULT_TIME_UNITS)) (CB_parse_multiple (Some [(%"and")])))) (%"55s500ms")) (positive 55 500000000);
  same deqb (cp_parse (cb_build (cb_call (cb_call cb_new (CB_time_units CUSTOM_DEFAULT_TIME_UNITS)) (CB_parse_multiple (Some [(%"and")])))) (%"1m and 1ns")) (positive 60 1);
  same deqb (cp_parse (cb_build (cb_call (cb_call cb_new (CB_time_units CUSTOM_DEFAULT_TIME_UNITS)) (CB_parse_multiple (Some [(%"and")])))) (%"1.   .1")) (positive 1 100000000);
  same deqb (cp_parse (cb_build (cb_call (cb_call cb_new (CB_time_units CUSTOM_DEFAULT_TIME_UNITS)) (CB_parse_multiple (Some [(%"and")])))) (%"2h")) (positive 7200 0);
  same deqb (cp_parse (cb_build (cb_call (cb_call cb_new (CB_time_units CUSTOM_DEFAULT_TIME_UNITS)) (CB_parse_multiple (Some [(%"and")])))) (%"300ms20s 5d")) (positive 432020 300000000)] = true.
Proof. vm_compute. reflexivity. Qed.

(* fundu/src/custom/builder.rs:609: 2 assertions *)
Example doc_fundu_custom_builder_609 : all_pass [
  same deqb (cp_parse (cb_build (cb_call (cb_call (cb_call cb_new (CB_time_units CUSTOM_DEFAULT_TIME_UNITS)) (CB_parse_multiple None)) (CB_outer_delimiter (fun b => (b =? 59))))) (%"1.5h;2e+2ns")) (positive 5400 200);
  same deqb (cp_parse (cb_build (cb_call (cb_call (cb_call cb_new (CB_time_units CUSTOM_DEFAULT_TIME_UNITS)) (CB_parse_multiple (Some [(%"and")]))) (CB_outer_delimiter (fun b => (b =? 59))))) (%"1.5h;and;2e+2ns")) (positive 5400 200)] = true.
Proof. vm_compute. reflexivity. Qed.

(* fundu/src/custom/builder.rs:646: 2 assertions *)
Example doc_fundu_custom_builder_646 : all_pass [
  same deqb (cp_parse (cb_build (cb_call (cb_call (cb_call cb_new (CB_time_units CUSTOM_DEFAULT_TIME_UNITS)) CB_allow_ago) (CB_inner_delimiter (fun b => (b =? 35))))) (%"1.5h#ago")) (negative 5400 0);
  same deqb (cp_parse (cb_build (cb_call (cb_call (cb_call cb_new (CB_time_units CUSTOM_DEFAULT_TIME_UNITS)) CB_allow_sign_delimiter) (CB_inner_delimiter (fun b => (b =? 35))))) (%"+##1.5h")) (positive 5400 0)] = true.
Proof. vm_compute. reflexivity. Qed.

(* fundu/src/custom/builder.rs:674: 3 assertions *)
Example doc_fundu_custom_builder_674 : all_pass [
  same deqb (no_err (cp_parse (cb_build (cb_call (cb_call cb_new (CB_time_units [(ctu_with_default Minute [(%"min")]); (ctu_with_default Hour [(%"h"); (%"hr")])])) CB_allow_time_unit_delimiter)) (%"60 min"))) (positive 3600 0);
  same deqb (no_err (cp_parse (cb_build (cb_call (cb_call cb_new (CB_time_units [(ctu_with_default Minute [(%"min")]); (ctu_with_default Hour [(%"h"); (%"hr")])])) CB_allow_time_unit_delimiter)) (%"1h"))) (positive 3600 0);
  same deqb (no_err (cp_parse (cb_build (cb_call (cb_call cb_new (CB_time_units [(ctu_with_default Minute [(%"min")]); (ctu_with_default Hour [(%"h"); (%"hr")])])) CB_allow_time_unit_delimiter)) [49; 9; 10; 32; 104; 114])) (positive 3600 0)] = true.
Proof. vm_compute. reflexivity. Qed.

(* fundu/src/custom/mod.rs:22: 4 assertions *)
Example doc_fundu_custom_mod_22 : all_pass [
  same deqb (cp_parse (cb_build (cb_call (cb_call (cb_call cb_new (CB_numerals [(Numeral [(%"last")] (Mul (-1) 0)); (Numeral [(%"this")] (Mul 0 0)); (Numeral [(%"one"); (%"next")] (Mul 1 0)); (Numeral [(%"two")] (Mul 2 0))])) (CB_time_unit (ctu_with_default NanoSecond [(%"nano"); (%"nanos")]))) CB_allow_negative)) (%"last nano")) (negative 0 1);
  same deqb (cp_parse (cb_build (cb_call (cb_call (cb_call cb_new (CB_numerals [(Numeral [(%"last")] (Mul (-1) 0)); (Numeral [(%"this")] (Mul 0 0)); (Numeral [(%"one"); (%"next")] (Mul 1 0)); (Numeral [(%"two")] (Mul 2 0))])) (CB_time_unit (ctu_with_default NanoSecond [(%"nano"); (%"nanos")]))) CB_allow_negative)) (%"this nano")) (negative 0 0);
  same deqb (cp_parse (cb_build (cb_call (cb_call (cb_call cb_new (CB_numerals [(Numeral [(%"last")] (Mul (-1) 0)); (Numeral [(%"this")] (Mul 0 0)); (Numeral [(%"one"); (%"next")] (Mul 1 0)); (Numeral [(%"two")] (Mul 2 0))])) (CB_time_unit (ctu_with_default NanoSecond [(%"nano"); (%"nanos")]))) CB_allow_negative)) (%"next nano")) (positive 0 1);
  same deqb (cp_parse (cb_build (cb_call (cb_call (cb_call cb_new (CB_numerals [(Numeral [(%"last")] (Mul (-1) 0)); (Numeral [(%"this")] (Mul 0 0)); (Numeral [(%"one"); (%"next")] (Mul 1 0)); (Numeral [(%"two")] (Mul 2 0))])) (CB_time_unit (ctu_with_default NanoSecond [(%"nano"); (%"nanos")]))) CB_allow_negative)) (%"two nanos")) (positive 0 2)] = true.
Proof. vm_compute. reflexivity. Qed.

(* fundu/src/custom/parser.rs:49: 1 assertions *)
Example doc_fundu_custom_parser_49 : all_pass [
  same deqb (no_err (cp_parse cp_new (%"100.0"))) (positive 100 0)] = true.
Proof. vm_compute. reflexivity. Qed.

(* fundu/src/custom/parser.rs:131: 4 assertions *)
Example doc_fundu_custom_parser_131 : all_pass [
  same deqb (no_err (dp_parse (dpb_build (dpb_call (dpb_call (dpb_call dpb_new B_all_time_units) (B_default_unit MicroSecond)) B_allow_time_unit_delimiter)) (%"1 ns"))) (positive 0 1);
  same deqb (no_err (dp_parse (dpb_build (dpb_call (dpb_call (dpb_call dpb_new B_all_time_units) (B_default_unit MicroSecond)) B_allow_time_unit_delimiter)) (%"1"))) (positive 0 1000);
  same deqb (no_err (dp_parse (dp_set (dp_set dp_with_all_time_units (Set_default_unit MicroSecond)) (Set_allow_time_unit_delimiter true)) (%"1 ns"))) (positive 0 1);
  same deqb (no_err (dp_parse (dp_set (dp_set dp_with_all_time_units (Set_default_unit MicroSecond)) (Set_allow_time_unit_delimiter true)) (%"1"))) (positive 0 1000)] = true.
Proof. vm_compute. reflexivity. Qed.

(* fundu/src/custom/parser.rs:165: 1 assertions *)
Example doc_fundu_custom_parser_165 : all_pass [
  same deqb (no_err (cp_parse (cp_call (cp_call (cp_call cp_new (C_time_unit (ctu_ok (ctu_new Week [(%"fortnight"); (%"fortnights")] (Some (Mul 2 0)))))) (C_time_unit (ctu_ok (ctu_new Second [(%"kilosecond"); (%"kiloseconds"); (%"kilos")] (Some (Mul 1000 0)))))) (C_time_unit (ctu_ok (ctu_new Second [(%"shakes")] (Some (Mul 1 (-8))))))) (%"1fortnights"))) (positive 1209600 0)] = true.
Proof. vm_compute. reflexivity. Qed.

(* fundu/src/custom/parser.rs:197: 1 assertions *)
Example doc_fundu_custom_parser_197 : all_pass [
  same deqb (no_err (cp_parse (cp_call (cp_with_time_units CUSTOM_DEFAULT_TIME_UNITS) (C_time_unit (ctu_ok (ctu_new Day [(%"y"); (%"year"); (%"years")] (Some (Mul 365 0)))))) (%"1year"))) (positive 31536000 0)] = true.
Proof. vm_compute. reflexivity. Qed.

(* fundu/src/custom/parser.rs:227: 1 assertions *)
Example doc_fundu_custom_parser_227 : all_pass [
  same deqb (no_err (cp_parse (cp_call cp_new (C_time_units [(ctu_ok (ctu_new Week [(%"fortnight"); (%"fortnights")] (Some (Mul 2 0)))); (ctu_ok (ctu_new Second [(%"shake"); (%"shakes")] (Some (Mul 1 (-8)))))])) (%"1fortnight"))) (positive 1209600 0)] = true.
Proof. vm_compute. reflexivity. Qed.

(* fundu/src/custom/parser.rs:259: 3 assertions *)
Example doc_fundu_custom_parser_259 : all_pass [
  same deqb (cp_parse (cp_call (cp_with_time_units [(ctu_with_default NanoSecond [(%"ns")])]) (C_keyword (CTU Day (Mul 1 0) [(%"tomorrow")]))) (%"123ns")) (positive 0 123);
  same deqb (cp_parse (cp_call (cp_with_time_units [(ctu_with_default NanoSecond [(%"ns")])]) (C_keyword (CTU Day (Mul 1 0) [(%"tomorrow")]))) (%"tomorrow")) (positive 86400 0);
  same deqb (cp_parse (cp_call (cp_with_time_units [(ctu_with_default NanoSecond [(%"ns")])]) (C_keyword (CTU Day (Mul 1 0) [(%"tomorrow")]))) (%"123tomorrow")) (Err (TimeUnitErr 3%nat (%"Invalid time unit: 'tomorrow'")))] = true.
Proof. vm_compute. reflexivity. Qed.

(* fundu/src/custom/parser.rs:294: 2 assertions *)
Example doc_fundu_custom_parser_294 : all_pass [
  same deqb (cp_parse (cp_call (cp_call cp_new (C_set (Set_allow_negative true))) (C_keywords [(CTU Day (Mul (-1) 0) [(%"yesterday")]); (CTU Day (Mul 1 0) [(%"tomorrow")])])) (%"yesterday")) (negative 86400 0);
  same deqb (cp_parse (cp_call (cp_call cp_new (C_set (Set_allow_negative true))) (C_keywords [(CTU Day (Mul (-1) 0) [(%"yesterday")]); (CTU Day (Mul 1 0) [(%"tomorrow")])])) (%"tomorrow")) (positive 86400 0)] = true.
Proof. vm_compute. reflexivity. Qed.

(* fundu/src/custom/parser.rs:326: 2 assertions *)
Example doc_fundu_custom_parser_326 : all_pass [
  same deqb (cp_parse (cp_call (cp_with_time_units [(ctu_with_default NanoSecond [(%"nano"); (%"nanos")])]) (C_numeral (Numeral [(%"one"); (%"next")] (Mul 1 0)))) (%"next nano")) (positive 0 1);
  same deqb (cp_parse (cp_call (cp_with_time_units [(ctu_with_default NanoSecond [(%"nano"); (%"nanos")])]) (C_numeral (Numeral [(%"one"); (%"next")] (Mul 1 0)))) (%"one nano")) (positive 0 1)] = true.
Proof. vm_compute. reflexivity. Qed.

(* fundu/src/custom/parser.rs:350: 4 assertions *)
Example doc_fundu_custom_parser_350 : all_pass [
  same deqb (cp_parse (cp_call (cp_call (cp_with_time_units [(ctu_with_default NanoSecond [(%"nano"); (%"nanos")])]) (C_set (Set_allow_negative true))) (C_numerals [(Numeral [(%"last")] (Mul (-1) 0)); (Numeral [(%"this")] (Mul 0 0)); (Numeral [(%"one"); (%"next")] (Mul 1 0)); (Numeral [(%"two")] (Mul 2 0))])) (%"last nano")) (negative 0 1);
  same deqb (cp_parse (cp_call (cp_call (cp_with_time_units [(ctu_with_default NanoSecond [(%"nano"); (%"nanos")])]) (C_set (Set_allow_negative true))) (C_numerals [(Numeral [(%"last")] (Mul (-1) 0)); (Numeral [(%"this")] (Mul 0 0)); (Numeral [(%"one"); (%"next")] (Mul 1 0)); (Numeral [(%"two")] (Mul 2 0))])) (%"this nano")) (negative 0 0);
  same deqb (cp_parse (cp_call (cp_call (cp_with_time_units [(ctu_with_default NanoSecond [(%"nano"); (%"nanos")])]) (C_set (Set_allow_negative true))) (C_numerals [(Numeral [(%"last")] (Mul (-1) 0)); (Numeral [(%"this")] (Mul 0 0)); (Numeral [(%"one"); (%"next")] (Mul 1 0)); (Numeral [(%"two")] (Mul 2 0))])) (%"next nano")) (positive 0 1);
  same deqb (cp_parse (cp_call (cp_call (cp_with_time_units [(ctu_with_default NanoSecond [(%"nano"); (%"nanos")])]) (C_set (Set_allow_negative true))) (C_numerals [(Numeral [(%"last")] (Mul (-1) 0)); (Numeral [(%"this")] (Mul 0 0)); (Numeral [(%"one"); (%"next")] (Mul 1 0)); (Numeral [(%"two")] (Mul 2 0))])) (%"two nanos")) (positive 0 2)] = true.
Proof. vm_compute. reflexivity. Qed.

(* fundu/src/custom/parser.rs:389: 1 assertions *)
Example doc_fundu_custom_parser_389 : all_pass [
  same deqb (no_err (cp_parse cp_new (%"1.2e-1"))) (positive 0 120000000)] = true.
Proof. vm_compute. reflexivity. Qed.

(* fundu/src/custom/parser.rs:414: 1 assertions *)
Example doc_fundu_custom_parser_414 : all_pass [
  same deqb (no_err (cp_parse (cp_call cp_new (C_set (Set_default_unit NanoSecond))) (%"42"))) (positive 0 42)] = true.
Proof. vm_compute. reflexivity. Qed.

(* fundu/src/custom/parser.rs:437: 5 assertions *)
Example doc_fundu_custom_parser_437 : all_pass [
  same deqb (cp_parse (cp_with_time_units [(ctu_with_default NanoSecond [(%"ns")])]) (%"123 ns")) (Err (TimeUnitErr 3%nat (%"Invalid time unit: ' ns'")));
  same deqb (cp_parse (cp_call (cp_with_time_units [(ctu_with_default NanoSecond [(%"ns")])]) (C_set (Set_allow_time_unit_delimiter true))) (%"123 ns")) (positive 0 123);
  same deqb (cp_parse (cp_call (cp_with_time_units [(ctu_with_default NanoSecond [(%"ns")])]) (C_set (Set_allow_time_unit_delimiter true))) (%"123     ns")) (positive 0 123);
  same deqb (cp_parse (cp_call (cp_with_time_units [(ctu_with_default NanoSecond [(%"ns")])]) (C_set (Set_allow_time_unit_delimiter true))) (%"123ns")) (positive 0 123);
  same deqb (cp_parse (cp_call (cp_with_time_units [(ctu_with_default NanoSecond [(%"ns")])]) (C_set (Set_allow_time_unit_delimiter true))) [49; 50; 51; 9; 10; 13; 32; 110; 115]) (positive 0 123)] = true.
Proof. vm_compute. reflexivity. Qed.

(* fundu/src/custom/parser.rs:468: 4 assertions *)
Example doc_fundu_custom_parser_468 : all_pass [
  same deqb (cp_parse (cp_call (cp_with_time_units [(ctu_with_default NanoSecond [(%"ns")])]) (C_set (Set_allow_sign_delimiter true))) (%"+123ns")) (positive 0 123);
  same deqb (cp_parse (cp_call (cp_with_time_units [(ctu_with_default NanoSecond [(%"ns")])]) (C_set (Set_allow_sign_delimiter true))) [43; 9; 10; 32; 49; 50; 51; 110; 115]) (positive 0 123);
  same deqb (cp_parse (cp_call (cp_with_time_units [(ctu_with_default NanoSecond [(%"ns")])]) (C_set (Set_allow_sign_delimiter true))) (%"+ 123ns")) (positive 0 123);
  same deqb (cp_parse (cp_call (cp_with_time_units [(ctu_with_default NanoSecond [(%"ns")])]) (C_set (Set_allow_sign_delimiter true))) (%"+     123ns")) (positive 0 123)] = true.
Proof. vm_compute. reflexivity. Qed.

(* fundu/src/custom/parser.rs:497: 3 assertions *)
Example doc_fundu_custom_parser_497 : all_pass [
  same deqb (cp_parse (cp_call (cp_call (cp_with_time_units [(ctu_with_default NanoSecond [(%"ns")]); (ctu_ok (ctu_new Second [(%"neg")] (Some (Mul (-1) 0))))]) (C_set (Set_allow_negative true))) (C_keyword (CTU Day (Mul (-1) 0) [(%"yesterday")]))) (%"-123ns")) (negative 0 123);
  same deqb (cp_parse (cp_call (cp_call (cp_with_time_units [(ctu_with_default NanoSecond [(%"ns")]); (ctu_ok (ctu_new Second [(%"neg")] (Some (Mul (-1) 0))))]) (C_set (Set_allow_negative true))) (C_keyword (CTU Day (Mul (-1) 0) [(%"yesterday")]))) (%"1.23e-7neg")) (negative 0 123);
  same deqb (cp_parse (cp_call (cp_call (cp_with_time_units [(ctu_with_default NanoSecond [(%"ns")]); (ctu_ok (ctu_new Second [(%"neg")] (Some (Mul (-1) 0))))]) (C_set (Set_allow_negative true))) (C_keyword (CTU Day (Mul (-1) 0) [(%"yesterday")]))) (%"yesterday")) (negative 86400 0)] = true.
Proof. vm_compute. reflexivity. Qed.

(* fundu/src/custom/parser.rs:534: 3 assertions *)
Example doc_fundu_custom_parser_534 : all_pass [
  same deqb (cp_parse (cp_call (cp_call (cp_with_time_units [(ctu_with_default NanoSecond [(%"ns")]); (ctu_ok (ctu_new Second [(%"neg")] (Some (Mul (-1) 0))))]) (C_set (Set_allow_ago true))) (C_keyword (CTU Day (Mul (-1) 0) [(%"yesterday")]))) (%"123ns ago")) (negative 0 123);
  same deqb (cp_parse (cp_call (cp_call (cp_with_time_units [(ctu_with_default NanoSecond [(%"ns")]); (ctu_ok (ctu_new Second [(%"neg")] (Some (Mul (-1) 0))))]) (C_set (Set_allow_ago true))) (C_keyword (CTU Day (Mul (-1) 0) [(%"yesterday")]))) (%"-123ns ago")) (positive 0 123);
  same deqb (cp_parse (cp_call (cp_call (cp_with_time_units [(ctu_with_default NanoSecond [(%"ns")]); (ctu_ok (ctu_new Second [(%"neg")] (Some (Mul (-1) 0))))]) (C_set (Set_allow_ago true))) (C_keyword (CTU Day (Mul (-1) 0) [(%"yesterday")]))) (%"123neg ago")) (positive 123 0)] = true.
Proof. vm_compute. reflexivity. Qed.

(* fundu/src/custom/parser.rs:555: 3 assertions *)
Example doc_fundu_custom_parser_555 : all_pass [
  same deqb (cp_parse (cp_call (cp_call (cp_with_time_units [(ctu_with_default NanoSecond [(%"ns")])]) (C_set (Set_allow_ago true))) (C_keyword (CTU Day (Mul (-1) 0) [(%"yesterday")]))) (%"123 ago")) (Err (TimeUnitErr 3%nat (%"Invalid time unit: ' ago'")));
  same deqb (cp_parse (cp_call (cp_call (cp_with_time_units [(ctu_with_default NanoSecond [(%"ns")])]) (C_set (Set_allow_ago true))) (C_keyword (CTU Day (Mul (-1) 0) [(%"yesterday")]))) (%"123ns ago ago")) (Err (Syntax 9%nat (%"Expected end of input but found: ' ago'")));
  same deqb (cp_parse (cp_call (cp_call (cp_with_time_units [(ctu_with_default NanoSecond [(%"ns")])]) (C_set (Set_allow_ago true))) (C_keyword (CTU Day (Mul (-1) 0) [(%"yesterday")]))) (%"yesterday ago")) (Err (InvalidInput (%"yesterday ago")))] = true.
Proof. vm_compute. reflexivity. Qed.

(* fundu/src/custom/parser.rs:605: 1 assertions *)
Example doc_fundu_custom_parser_605 : all_pass [
  same deqb (cp_parse (cp_call (cp_with_time_units CUSTOM_DEFAULT_TIME_UNITS) (C_set (Set_disable_exponent true))) (%"123e+1")) (Err (Syntax 3%nat (%"No exponent allowed")))] = true.
Proof. vm_compute. reflexivity. Qed.

(* fundu/src/custom/parser.rs:626: 3 assertions *)
Example doc_fundu_custom_parser_626 : all_pass [
  same deqb (cp_parse (cp_call (cp_with_time_units [(ctu_with_default NanoSecond [(%"ns")])]) (C_set (Set_disable_fraction true))) (%"123.456")) (Err (Syntax 3%nat (%"No fraction allowed")));
  same deqb (cp_parse (cp_call (cp_with_time_units [(ctu_with_default NanoSecond [(%"ns")])]) (C_set (Set_disable_fraction true))) (%"123e-2")) (positive 1 230000000);
  same deqb (cp_parse (cp_call (cp_with_time_units [(ctu_with_default NanoSecond [(%"ns")])]) (C_set (Set_disable_fraction true))) (%"123ns")) (positive 0 123)] = true.
Proof. vm_compute. reflexivity. Qed.

(* fundu/src/custom/parser.rs:657: 3 assertions *)
Example doc_fundu_custom_parser_657 : all_pass [
  same deqb (cp_parse (cp_call cp_new (C_set (Set_disable_infinity true))) (%"inf")) (Err (InvalidInput (%"inf")));
  same deqb (cp_parse (cp_call cp_new (C_set (Set_disable_infinity true))) (%"infinity")) (Err (InvalidInput (%"infinity")));
  same deqb (cp_parse (cp_call cp_new (C_set (Set_disable_infinity true))) (%"+inf")) (Err (InvalidInput (%"inf")))] = true.
Proof. vm_compute. reflexivity. Qed.

(* fundu/src/custom/parser.rs:687: 3 assertions *)
Example doc_fundu_custom_parser_687 : all_pass [
  same deqb (cp_parse (cp_call (cp_with_time_units CUSTOM_DEFAULT_TIME_UNITS) (C_set (Set_number_is_optional true))) (%"ns")) (positive 0 1);
  same deqb (cp_parse (cp_call (cp_with_time_units CUSTOM_DEFAULT_TIME_UNITS) (C_set (Set_number_is_optional true))) (%".001e-6s")) (positive 0 1);
  same deqb (cp_parse (cp_call (cp_with_time_units CUSTOM_DEFAULT_TIME_UNITS) (C_set (Set_number_is_optional true))) (%"+ns")) (positive 0 1)] = true.
Proof. vm_compute. reflexivity. Qed.

(* fundu/src/custom/parser.rs:708: 6 assertions *)
Example doc_fundu_custom_parser_708 : all_pass [
  same deqb (cp_parse (cp_call (cp_with_time_units CUSTOM_DEFAULT_TIME_UNITS) (C_set (Set_parse_multiple true (Some [(%"and")])))) (%"1.5h 2e+2ns")) (positive 5400 200);
  same deqb (cp_parse (cp_call (cp_with_time_units CUSTOM_DEFAULT_TIME_UNITS) (C_set (Set_parse_multiple true (Some [(%"and")])))) (%"55s500ms")) (positive 55 500000000);
  same deqb (cp_parse (cp_call (cp_with_time_units CUSTOM_DEFAULT_TIME_UNITS) (C_set (Set_parse_multiple true (Some [(%"and")])))) (%"1m and 1ns")) (positive 60 1);
  same deqb (cp_parse (cp_call (cp_with_time_units CUSTOM_DEFAULT_TIME_UNITS) (C_set (Set_parse_multiple true (Some [(%"and")])))) (%"1.   .1")) (positive 1 100000000);
  same deqb (cp_parse (cp_call (cp_with_time_units CUSTOM_DEFAULT_TIME_UNITS) (C_set (Set_parse_multiple true (Some [(%"and")])))) (%"2h")) (positive 7200 0);
  same deqb (cp_parse (cp_call (cp_with_time_units CUSTOM_DEFAULT_TIME_UNITS) (C_set (Set_parse_multiple true (Some [(%"and")])))) (%"300ms20s 5d")) (positive 432020 300000000)] = true.
Proof. vm_compute. reflexivity. Qed.

(* fundu/src/custom/parser.rs:754: 2 assertions *)
Example doc_fundu_custom_parser_754 : all_pass [
  same deqb (cp_parse (cp_call (cp_call (cp_with_time_units CUSTOM_DEFAULT_TIME_UNITS) (C_set (Set_allow_ago true))) (C_set (Set_inner_delimiter (fun b => (b =? 35))))) (%"1.5h#ago")) (negative 5400 0);
  same deqb (cp_parse (cp_call (cp_call (cp_with_time_units CUSTOM_DEFAULT_TIME_UNITS) (C_set (Set_allow_sign_delimiter true))) (C_set (Set_inner_delimiter (fun b => (b =? 35))))) (%"+##1.5h")) (positive 5400 0)] = true.
Proof. vm_compute. reflexivity. Qed.

(* fundu/src/custom/parser.rs:786: 2 assertions *)
Example doc_fundu_custom_parser_786 : all_pass [
  same deqb (cp_parse (cp_call (cp_call (cp_with_time_units CUSTOM_DEFAULT_TIME_UNITS) (C_set (Set_parse_multiple true None))) (C_set (Set_outer_delimiter (fun b => (b =? 59))))) (%"1.5h;2e+2ns")) (positive 5400 200);
  same deqb (cp_parse (cp_call (cp_call (cp_with_time_units CUSTOM_DEFAULT_TIME_UNITS) (C_set (Set_parse_multiple true (Some [(%"and")])))) (C_set (Set_outer_delimiter (fun b => (b =? 59))))) (%"1.5h;and;2e+2ns")) (positive 5400 200)] = true.
Proof. vm_compute. reflexivity. Qed.

(* fundu/src/custom/time_units.rs:141: 1 assertions *)
Example doc_fundu_custom_time_units_141 : all_pass [
  differ ctu_eqb (Ok (ctu_ok (ctu_new Week [(%"fortnight"); (%"fortnights")] (Some (Mul 2 0))))) (Ok (ctu_ok (ctu_new Day [(%"fortnight"); (%"fortnights")] (Some (Mul 14 0)))))] = true.
Proof. vm_compute. reflexivity. Qed.

(* fundu/src/custom/time_units.rs:157: 1 assertions *)
Example doc_fundu_custom_time_units_157 : all_pass [
  same deqb (no_err (cp_parse (cb_build (cb_call cb_new (CB_time_units [(ctu_ok (ctu_new Week [(%"fortnight"); (%"fortnights")] (Some (Mul 2 0)))); (ctu_ok (ctu_new Day [(%"fortnight"); (%"fortnights")] (Some (Mul 14 0))))]))) (%"1fortnight"))) (positive 1209600 0)] = true.
Proof. vm_compute. reflexivity. Qed.

(* fundu/src/custom/time_units.rs:239: 1 assertions *)
Example doc_fundu_custom_time_units_239 : all_pass [
  same ctu_eqb (Ok (ctu_with_default Second [(%"sec"); (%"secs")])) (Ok (ctu_ok (ctu_new Second [(%"sec"); (%"secs")] (Some (Mul 1 0)))))] = true.
Proof. vm_compute. reflexivity. Qed.

(* fundu/src/custom/time_units.rs:404: 2 assertions *)
Example doc_fundu_custom_time_units_404 : all_pass [
  same deqb (cp_parse (cp_call (cp_with_time_units [(ctu_with_default NanoSecond [(%"ns")])]) (C_keyword (CTU Day (Mul 1 0) [(%"tomorrow")]))) (%"tomorrow")) (positive 86400 0);
  same deqb (cp_parse (cp_call (cp_with_time_units [(ctu_with_default NanoSecond [(%"ns")])]) (C_keyword (CTU Day (Mul 1 0) [(%"tomorrow")]))) (%"123tomorrow")) (Err (TimeUnitErr 3%nat (%"Invalid time unit: 'tomorrow'")))] = true.
Proof. vm_compute. reflexivity. Qed.

(* fundu/src/lib.rs:178: 1 assertions *)
Example doc_fundu_lib_178 : all_pass [
  same deqb (no_err (dp_parse dp_with_all_time_units (%"3m"))) (positive 180 0)] = true.
Proof. vm_compute. reflexivity. Qed.

(* fundu/src/lib.rs:190: 1 assertions *)
Example doc_fundu_lib_190 : all_pass [
  same deqb (no_err (dp_parse dp_without_time_units (%"1.0e2"))) (positive 100 0)] = true.
Proof. vm_compute. reflexivity. Qed.

(* fundu/src/lib.rs:202: 1 assertions *)
Example doc_fundu_lib_202 : all_pass [
  is_true (Ok (is_err (dp_parse dp_new (%"3y"))))] = true.
Proof. vm_compute. reflexivity. Qed.

(* fundu/src/lib.rs:211: 4 assertions *)
Example doc_fundu_lib_211 : all_pass [
  same deqb (no_err (dp_parse (dp_with_time_units [NanoSecond; Minute; Hour]) (%"9e3ns"))) (positive 0 9000);
  same deqb (no_err (dp_parse (dp_with_time_units [NanoSecond; Minute; Hour]) (%"10m"))) (positive 600 0);
  same deqb (no_err (dp_parse (dp_with_time_units [NanoSecond; Minute; Hour]) (%"1.1h"))) (positive 3960 0);
  same deqb (no_err (dp_parse (dp_with_time_units [NanoSecond; Minute; Hour]) (%"7"))) (positive 7 0)] = true.
Proof. vm_compute. reflexivity. Qed.

(* fundu/src/lib.rs:226: 1 assertions *)
Example doc_fundu_lib_226 : all_pass [
  same deqb (no_err (dp_parse (dp_set dp_without_time_units (Set_default_unit MilliSecond)) (%"1000"))) (positive 1 0)] = true.
Proof. vm_compute. reflexivity. Qed.

(* fundu/src/lib.rs:242: 3 assertions *)
Example doc_fundu_lib_242 : all_pass [
  same deqb (cp_parse (cp_with_time_units [(ctu_with_default MilliSecond [[207; 135; 206; 185; 206; 187; 206; 185; 206; 191; 207; 131; 207; 132; 207; 140; 32; 207; 132; 206; 191; 207; 133; 32; 206; 180; 206; 181; 207; 133; 207; 132; 206; 181; 207; 129; 206; 191; 206; 187; 206; 173; 207; 128; 207; 132; 206; 191; 207; 133]]); (ctu_with_default Second [(%"s"); (%"secs")]); (ctu_with_default Hour [[226; 143; 179]])]) [46; 51; 207; 135; 206; 185; 206; 187; 206; 185; 206; 191; 207; 131; 207; 132; 207; 140; 32; 207; 132; 206; 191; 207; 133; 32; 206; 180; 206; 181; 207; 133; 207; 132; 206; 181; 207; 129; 206; 191; 206; 187; 206; 173; 207; 128; 207; 132; 206; 191; 207; 133]) (positive 0 300000);
  same deqb (cp_parse (cp_with_time_units [(ctu_with_default MilliSecond [[207; 135; 206; 185; 206; 187; 206; 185; 206; 191; 207; 131; 207; 132; 207; 140; 32; 207; 132; 206; 191; 207; 133; 32; 206; 180; 206; 181; 207; 133; 207; 132; 206; 181; 207; 129; 206; 191; 206; 187; 206; 173; 207; 128; 207; 132; 206; 191; 207; 133]]); (ctu_with_default Second [(%"s"); (%"secs")]); (ctu_with_default Hour [[226; 143; 179]])]) (%"1e3secs")) (positive 1000 0);
  same deqb (cp_parse (cp_with_time_units [(ctu_with_default MilliSecond [[207; 135; 206; 185; 206; 187; 206; 185; 206; 191; 207; 131; 207; 132; 207; 140; 32; 207; 132; 206; 191; 207; 133; 32; 206; 180; 206; 181; 207; 133; 207; 132; 206; 181; 207; 129; 206; 191; 206; 187; 206; 173; 207; 128; 207; 132; 206; 191; 207; 133]]); (ctu_with_default Second [(%"s"); (%"secs")]); (ctu_with_default Hour [[226; 143; 179]])]) [49; 46; 49; 226; 143; 179]) (positive 3960 0)] = true.
Proof. vm_compute. reflexivity. Qed.

(* fundu/src/lib.rs:262: 1 assertions *)
Example doc_fundu_lib_262 : all_pass [
  same str_eqb (map_res display_parse_error (get_err (dp_parse dp_without_time_units (%"1y")))) (Ok (%"Time unit error: No time units allowed but found: 'y' at column 1"))] = true.
Proof. vm_compute. reflexivity. Qed.

(* fundu/src/lib.rs:278: 4 assertions *)
Example doc_fundu_lib_278 : all_pass [
  same deqb (no_err (dp_parse (dpb_build (dpb_call (dpb_call (dpb_call (dpb_call (dpb_call dpb_new (B_time_units [NanoSecond])) B_allow_time_unit_delimiter) B_number_is_optional) B_disable_fraction) B_disable_exponent)) (%"ns"))) (positive 0 1);
  same deqb (no_err (dp_parse (dpb_build (dpb_call (dpb_call (dpb_call (dpb_call (dpb_call dpb_new (B_time_units [NanoSecond])) B_allow_time_unit_delimiter) B_number_is_optional) B_disable_fraction) B_disable_exponent)) [49; 48; 48; 48; 9; 10; 13; 32; 110; 115])) (positive 0 1000);
  same perr_eqb (get_err (dp_parse (dpb_build (dpb_call (dpb_call (dpb_call (dpb_call (dpb_call dpb_new (B_time_units [NanoSecond])) B_allow_time_unit_delimiter) B_number_is_optional) B_disable_fraction) B_disable_exponent)) (%"1.0ns"))) (Ok (Syntax 1%nat (%"No fraction allowed")));
  same perr_eqb (get_err (dp_parse (dpb_build (dpb_call (dpb_call (dpb_call (dpb_call (dpb_call dpb_new (B_time_units [NanoSecond])) B_allow_time_unit_delimiter) B_number_is_optional) B_disable_fraction) B_disable_exponent)) (%"1e9ns"))) (Ok (Syntax 1%nat (%"No exponent allowed")))] = true.
Proof. vm_compute. reflexivity. Qed.

(* fundu/src/standard/builder.rs:30: 4 assertions *)
Example doc_fundu_standard_builder_30 : all_pass [
  same deqb (no_err (dp_parse (dpb_build (dpb_call (dpb_call (dpb_call dpb_new B_all_time_units) (B_default_unit MicroSecond)) B_allow_time_unit_delimiter)) (%"1   ns"))) (positive 0 1);
  same deqb (no_err (dp_parse (dpb_build (dpb_call (dpb_call (dpb_call dpb_new B_all_time_units) (B_default_unit MicroSecond)) B_allow_time_unit_delimiter)) (%"1"))) (positive 0 1000);
  same deqb (no_err (dp_parse (dp_set (dp_set dp_with_all_time_units (Set_default_unit MicroSecond)) (Set_allow_time_unit_delimiter true)) (%"1    ns"))) (positive 0 1);
  same deqb (no_err (dp_parse (dp_set (dp_set dp_with_all_time_units (Set_default_unit MicroSecond)) (Set_allow_time_unit_delimiter true)) (%"1"))) (positive 0 1000)] = true.
Proof. vm_compute. reflexivity. Qed.

(* fundu/src/standard/builder.rs:56: 1 assertions *)
Example doc_fundu_standard_builder_56 : all_pass [
  same deqb (no_err (dp_parse (dpb_build (dpb_call (dpb_call (dpb_call dpb_new (B_time_units [Second; Minute; Hour; Day])) B_allow_negative) (B_parse_multiple None))) (%"1h"))) (positive 3600 0)] = true.
Proof. vm_compute. reflexivity. Qed.

(* fundu/src/standard/builder.rs:243: 1 assertions *)
Example doc_fundu_standard_builder_243 : all_pass [
  same deqb (no_err (dp_parse (dpb_build (dpb_call (dpb_call dpb_new B_all_time_units) (B_default_unit NanoSecond))) (%"42"))) (positive 0 42)] = true.
Proof. vm_compute. reflexivity. Qed.

(* fundu/src/standard/builder.rs:268: 3 assertions *)
Example doc_fundu_standard_builder_268 : all_pass [
  same deqb (dp_parse (dpb_build (dpb_call (dpb_call dpb_new B_default_time_units) B_allow_time_unit_delimiter)) [49; 50; 51; 32; 9; 10; 12; 13; 110; 115]) (positive 0 123);
  same deqb (dp_parse (dpb_build (dpb_call (dpb_call dpb_new B_default_time_units) B_allow_time_unit_delimiter)) (%"123ns")) (positive 0 123);
  same deqb (dp_parse (dpb_build (dpb_call (dpb_call dpb_new B_default_time_units) B_allow_time_unit_delimiter)) (%"123   ns")) (positive 0 123)] = true.
Proof. vm_compute. reflexivity. Qed.

(* fundu/src/standard/builder.rs:294: 4 assertions *)
Example doc_fundu_standard_builder_294 : all_pass [
  same deqb (dp_parse (dpb_build (dpb_call (dpb_call dpb_new B_default_time_units) B_allow_sign_delimiter)) (%"+123ns")) (positive 0 123);
  same deqb (dp_parse (dpb_build (dpb_call (dpb_call dpb_new B_default_time_units) B_allow_sign_delimiter)) [43; 9; 10; 32; 49; 50; 51; 110; 115]) (positive 0 123);
  same deqb (dp_parse (dpb_build (dpb_call (dpb_call dpb_new B_default_time_units) B_allow_sign_delimiter)) (%"+ 123ns")) (positive 0 123);
  same deqb (dp_parse (dpb_build (dpb_call (dpb_call dpb_new B_default_time_units) B_allow_sign_delimiter)) (%"+     123ns")) (positive 0 123)] = true.
Proof. vm_compute. reflexivity. Qed.

(* fundu/src/standard/builder.rs:318: 2 assertions *)
Example doc_fundu_standard_builder_318 : all_pass [
  same deqb (dp_parse (dpb_build (dpb_call dpb_new B_allow_negative)) (%"-123")) (negative 123 0);
  same deqb (dp_parse (dpb_build (dpb_call dpb_new B_allow_negative)) (%"-1.23e-7")) (negative 0 123)] = true.
Proof. vm_compute. reflexivity. Qed.

(* fundu/src/standard/builder.rs:338: 2 assertions *)
Example doc_fundu_standard_builder_338 : all_pass [
  same deqb (dp_parse (dpb_build (dpb_call (dpb_call dpb_new B_all_time_units) B_allow_ago)) (%"123ns ago")) (negative 0 123);
  same deqb (dp_parse (dpb_build (dpb_call (dpb_call dpb_new B_all_time_units) B_allow_ago)) (%"-123ns ago")) (positive 0 123)] = true.
Proof. vm_compute. reflexivity. Qed.

(* fundu/src/standard/builder.rs:352: 2 assertions *)
Example doc_fundu_standard_builder_352 : all_pass [
  same deqb (dp_parse (dpb_build (dpb_call (dpb_call dpb_new B_all_time_units) B_allow_ago)) (%"123 ago")) (Err (TimeUnitErr 3%nat (%"Invalid time unit: ' ago'")));
  same deqb (dp_parse (dpb_build (dpb_call (dpb_call dpb_new B_all_time_units) B_allow_ago)) (%"123ns ago ago")) (Err (Syntax 9%nat (%"Expected end of input but found: ' ago'")))] = true.
Proof. vm_compute. reflexivity. Qed.

(* fundu/src/standard/builder.rs:390: 1 assertions *)
Example doc_fundu_standard_builder_390 : all_pass [
  same deqb (dp_parse (dpb_build (dpb_call (dpb_call dpb_new B_default_time_units) B_disable_exponent)) (%"123e+1")) (Err (Syntax 3%nat (%"No exponent allowed")))] = true.
Proof. vm_compute. reflexivity. Qed.

(* fundu/src/standard/builder.rs:413: 3 assertions *)
Example doc_fundu_standard_builder_413 : all_pass [
  same deqb (dp_parse (dpb_build (dpb_call (dpb_call dpb_new B_default_time_units) B_disable_fraction)) (%"123.456")) (Err (Syntax 3%nat (%"No fraction allowed")));
  same deqb (dp_parse (dpb_build (dpb_call (dpb_call dpb_new B_default_time_units) B_disable_fraction)) (%"123e-2")) (positive 1 230000000);
  same deqb (dp_parse (dpb_build (dpb_call (dpb_call dpb_new B_default_time_units) B_disable_fraction)) (%"123ns")) (positive 0 123)] = true.
Proof. vm_compute. reflexivity. Qed.

(* fundu/src/standard/builder.rs:443: 3 assertions *)
Example doc_fundu_standard_builder_443 : all_pass [
  same deqb (dp_parse (dpb_build (dpb_call dpb_new B_disable_infinity)) (%"inf")) (Err (InvalidInput (%"inf")));
  same deqb (dp_parse (dpb_build (dpb_call dpb_new B_disable_infinity)) (%"infinity")) (Err (InvalidInput (%"infinity")));
  same deqb (dp_parse (dpb_build (dpb_call dpb_new B_disable_infinity)) (%"+inf")) (Err (InvalidInput (%"inf")))] = true.
Proof. vm_compute. reflexivity. Qed.

(* fundu/src/standard/builder.rs:472: 2 assertions *)
Example doc_fundu_standard_builder_472 : all_pass [
  same deqb (dp_parse (dpb_build (dpb_call (dpb_call dpb_new B_default_time_units) B_number_is_optional)) (%"ns")) (positive 0 1);
  same deqb (dp_parse (dpb_build (dpb_call (dpb_call dpb_new B_default_time_units) B_number_is_optional)) (%"+ns")) (positive 0 1)] = true.
Proof. vm_compute. reflexivity. Qed.

(* fundu/src/standard/builder.rs:494: 6 assertions *)
Example doc_fundu_standard_builder_494 : all_pass [
  same deqb (dp_parse (dpb_build (dpb_call (dpb_call dpb_new B_default_time_units) (B_parse_multiple (Some [(%"and")])))) (%"1.5h 2e+2ns")) (positive 5400 200);
  same deqb (dp_parse (dpb_build (dpb_call (dpb_call dpb_new B_default_time_units) (B_parse_multiple (Some [(%"and")])))) (%"55s500ms")) (positive 55 500000000);
  same deqb (dp_parse (dpb_build (dpb_call (dpb_call dpb_new B_default_time_units) (B_parse_multiple (Some [(%"and")])))) (%"1m and 1ns")) (positive 60 1);
  same deqb (dp_parse (dpb_build (dpb_call (dpb_call dpb_new B_default_time_units) (B_parse_multiple (Some [(%"and")])))) (%"1.   .1")) (positive 1 100000000);
  same deqb (dp_parse (dpb_build (dpb_call (dpb_call dpb_new B_default_time_units) (B_parse_multiple (Some [(%"and")])))) (%"2h")) (positive 7200 0);
  same deqb (dp_parse (dpb_build (dpb_call (dpb_call dpb_new B_default_time_units) (B_parse_multiple (Some [(%"and")])))) (%"300ms20s 5d")) (positive 432020 300000000)] = true.
Proof. vm_compute. reflexivity. Qed.

(* fundu/src/standard/builder.rs:534: 2 assertions *)
Example doc_fundu_standard_builder_534 : all_pass [
  same deqb (dp_parse (dpb_build (dpb_call (dpb_call (dpb_call dpb_new B_all_time_units) B_allow_ago) (B_inner_delimiter (fun b => (b =? 35))))) (%"1.5h#ago")) (negative 5400 0);
  same deqb (dp_parse (dpb_build (dpb_call (dpb_call (dpb_call dpb_new B_all_time_units) B_allow_sign_delimiter) (B_inner_delimiter (fun b => (b =? 35))))) (%"+##1.5h")) (positive 5400 0)] = true.
Proof. vm_compute. reflexivity. Qed.

(* fundu/src/standard/builder.rs:565: 2 assertions *)
Example doc_fundu_standard_builder_565 : all_pass [
  same deqb (dp_parse (dpb_build (dpb_call (dpb_call (dpb_call dpb_new B_all_time_units) (B_parse_multiple None)) (B_outer_delimiter (fun b => (b =? 59))))) (%"1.5h;2e+2ns")) (positive 5400 200);
  same deqb (dp_parse (dpb_build (dpb_call (dpb_call (dpb_call dpb_new B_all_time_units) (B_parse_multiple (Some [(%"and")]))) (B_outer_delimiter (fun b => (b =? 59))))) (%"1.5h;and;2e+2ns")) (positive 5400 200)] = true.
Proof. vm_compute. reflexivity. Qed.

(* fundu/src/standard/builder.rs:599: 2 assertions *)
Example doc_fundu_standard_builder_599 : all_pass [
  same deqb (no_err (dp_parse (dpb_build (dpb_call dpb_new B_default_time_units)) (%"1m"))) (positive 60 0);
  same deqb (no_err (dp_parse (dpb_build (dpb_call dpb_new B_default_time_units)) (%"60s"))) (positive 60 0)] = true.
Proof. vm_compute. reflexivity. Qed.

(* fundu/src/standard/parser.rs:24: 1 assertions *)
Example doc_fundu_standard_parser_24 : all_pass [
  same deqb (no_err (dp_parse dp_new (%"42Ms"))) (positive 0 42000)] = true.
Proof. vm_compute. reflexivity. Qed.

(* fundu/src/standard/parser.rs:57: 3 assertions *)
Example doc_fundu_standard_parser_57 : all_pass [
  same deqb (no_err (dp_parse dp_new (%"1"))) (positive 1 0);
  same deqb (no_err (dp_parse dp_new (%"1s"))) (positive 1 0);
  same deqb (no_err (dp_parse dp_new (%"42.0e9ns"))) (positive 42 0)] = true.
Proof. vm_compute. reflexivity. Qed.

(* fundu/src/standard/parser.rs:99: 1 assertions *)
Example doc_fundu_standard_parser_99 : all_pass [
  same deqb (no_err (dp_parse (dp_with_time_units [NanoSecond; Hour; Week]) (%"1.5w"))) (positive 907200 0)] = true.
Proof. vm_compute. reflexivity. Qed.

(* fundu/src/standard/parser.rs:121: 1 assertions *)
Example doc_fundu_standard_parser_121 : all_pass [
  same deqb (no_err (dp_parse dp_without_time_units (%"33.33"))) (positive 33 330000000)] = true.
Proof. vm_compute. reflexivity. Qed.

(* fundu/src/standard/parser.rs:182: 4 assertions *)
Example doc_fundu_standard_parser_182 : all_pass [
  same deqb (no_err (dp_parse (dpb_build (dpb_call (dpb_call (dpb_call dpb_new B_all_time_units) (B_default_unit MicroSecond)) B_allow_time_unit_delimiter)) [49; 32; 9; 10; 110; 115])) (positive 0 1);
  same deqb (no_err (dp_parse (dpb_build (dpb_call (dpb_call (dpb_call dpb_new B_all_time_units) (B_default_unit MicroSecond)) B_allow_time_unit_delimiter)) (%"1"))) (positive 0 1000);
  same deqb (no_err (dp_parse (dp_set (dp_set dp_with_all_time_units (Set_default_unit MicroSecond)) (Set_allow_time_unit_delimiter true)) (%"1 ns"))) (positive 0 1);
  same deqb (no_err (dp_parse (dp_set (dp_set dp_with_all_time_units (Set_default_unit MicroSecond)) (Set_allow_time_unit_delimiter true)) (%"1"))) (positive 0 1000)] = true.
Proof. vm_compute. reflexivity. Qed.

(* fundu/src/standard/parser.rs:219: 1 assertions *)
Example doc_fundu_standard_parser_219 : all_pass [
  same deqb (no_err (dp_parse dp_new (%"1.2e-1s"))) (positive 0 120000000)] = true.
Proof. vm_compute. reflexivity. Qed.

(* fundu/src/standard/parser.rs:239: 1 assertions *)
Example doc_fundu_standard_parser_239 : all_pass [
  same deqb (no_err (dp_parse (dp_set dp_with_all_time_units (Set_default_unit NanoSecond)) (%"42"))) (positive 0 42)] = true.
Proof. vm_compute. reflexivity. Qed.

(* fundu/src/standard/parser.rs:264: 6 assertions *)
Example doc_fundu_standard_parser_264 : all_pass [
  same deqb (dp_parse dp_new (%"123 ns")) (Err (TimeUnitErr 3%nat (%"Invalid time unit: ' ns'")));
  same deqb (dp_parse (dp_set dp_new (Set_allow_time_unit_delimiter true)) (%"123 ns")) (positive 0 123);
  same deqb (dp_parse (dp_set dp_new (Set_allow_time_unit_delimiter true)) (%"123    ns")) (positive 0 123);
  same deqb (dp_parse (dp_set dp_new (Set_allow_time_unit_delimiter true)) (%"123ns")) (positive 0 123);
  same deqb (dp_parse (dp_set (dp_set dp_new (Set_allow_time_unit_delimiter true)) (Set_allow_time_unit_delimiter true)) [49; 50; 51; 13; 10; 110; 115]) (positive 0 123);
  same deqb (dp_parse (dp_set (dp_set dp_new (Set_allow_time_unit_delimiter true)) (Set_allow_time_unit_delimiter true)) [49; 50; 51; 9; 10; 13; 32; 110; 115]) (positive 0 123)] = true.
Proof. vm_compute. reflexivity. Qed.

(* fundu/src/standard/parser.rs:298: 4 assertions *)
Example doc_fundu_standard_parser_298 : all_pass [
  same deqb (dp_parse (dp_set dp_new (Set_allow_sign_delimiter true)) (%"+123ns")) (positive 0 123);
  same deqb (dp_parse (dp_set dp_new (Set_allow_sign_delimiter true)) [43; 9; 10; 32; 49; 50; 51; 110; 115]) (positive 0 123);
  same deqb (dp_parse (dp_set dp_new (Set_allow_sign_delimiter true)) (%"+ 123ns")) (positive 0 123);
  same deqb (dp_parse (dp_set dp_new (Set_allow_sign_delimiter true)) (%"+     123ns")) (positive 0 123)] = true.
Proof. vm_compute. reflexivity. Qed.

(* fundu/src/standard/parser.rs:321: 2 assertions *)
Example doc_fundu_standard_parser_321 : all_pass [
  same deqb (dp_parse (dp_set dp_new (Set_allow_negative true)) (%"-123")) (negative 123 0);
  same deqb (dp_parse (dp_set dp_new (Set_allow_negative true)) (%"-1.23e-7")) (negative 0 123)] = true.
Proof. vm_compute. reflexivity. Qed.

(* fundu/src/standard/parser.rs:344: 2 assertions *)
Example doc_fundu_standard_parser_344 : all_pass [
  same deqb (dp_parse (dp_set dp_with_all_time_units (Set_allow_ago true)) (%"123ns ago")) (negative 0 123);
  same deqb (dp_parse (dp_set dp_with_all_time_units (Set_allow_ago true)) (%"-123ns ago")) (positive 0 123)] = true.
Proof. vm_compute. reflexivity. Qed.

(* fundu/src/standard/parser.rs:356: 2 assertions *)
Example doc_fundu_standard_parser_356 : all_pass [
  same deqb (dp_parse (dp_set dp_with_all_time_units (Set_allow_ago true)) (%"123 ago")) (Err (TimeUnitErr 3%nat (%"Invalid time unit: ' ago'")));
  same deqb (dp_parse (dp_set dp_with_all_time_units (Set_allow_ago true)) (%"123ns ago ago")) (Err (Syntax 9%nat (%"Expected end of input but found: ' ago'")))] = true.
Proof. vm_compute. reflexivity. Qed.

(* fundu/src/standard/parser.rs:396: 1 assertions *)
Example doc_fundu_standard_parser_396 : all_pass [
  same deqb (dp_parse (dp_set dp_new (Set_disable_exponent true)) (%"123e+1")) (Err (Syntax 3%nat (%"No exponent allowed")))] = true.
Proof. vm_compute. reflexivity. Qed.

(* fundu/src/standard/parser.rs:419: 3 assertions *)
Example doc_fundu_standard_parser_419 : all_pass [
  same deqb (dp_parse (dp_set dp_new (Set_disable_fraction true)) (%"123.456")) (Err (Syntax 3%nat (%"No fraction allowed")));
  same deqb (dp_parse (dp_set dp_new (Set_disable_fraction true)) (%"123e-2")) (positive 1 230000000);
  same deqb (dp_parse (dp_set dp_new (Set_disable_fraction true)) (%"123ns")) (positive 0 123)] = true.
Proof. vm_compute. reflexivity. Qed.

(* fundu/src/standard/parser.rs:448: 3 assertions *)
Example doc_fundu_standard_parser_448 : all_pass [
  same deqb (dp_parse (dp_set dp_new (Set_disable_infinity true)) (%"inf")) (Err (InvalidInput (%"inf")));
  same deqb (dp_parse (dp_set dp_new (Set_disable_infinity true)) (%"infinity")) (Err (InvalidInput (%"infinity")));
  same deqb (dp_parse (dp_set dp_new (Set_disable_infinity true)) (%"+inf")) (Err (InvalidInput (%"inf")))] = true.
Proof. vm_compute. reflexivity. Qed.

(* fundu/src/standard/parser.rs:481: 2 assertions *)
Example doc_fundu_standard_parser_481 : all_pass [
  same deqb (dp_parse (dp_set dp_new (Set_number_is_optional true)) (%"ns")) (positive 0 1);
  same deqb (dp_parse (dp_set dp_new (Set_number_is_optional true)) (%"+ns")) (positive 0 1)] = true.
Proof. vm_compute. reflexivity. Qed.

(* fundu/src/standard/parser.rs:521: 2 assertions *)
Example doc_fundu_standard_parser_521 : all_pass [
  same deqb (dp_parse (dp_set (dp_set dp_new (Set_parse_multiple true None)) (Set_number_is_optional true)) (%"1 s 1 ns")) (positive 3 1);
  same deqb (dp_parse (dp_set (dp_set (dp_set dp_new (Set_parse_multiple true None)) (Set_number_is_optional true)) (Set_allow_time_unit_delimiter true)) (%"1 s 1 ns")) (positive 1 1)] = true.
Proof. vm_compute. reflexivity. Qed.

(* fundu/src/standard/parser.rs:537: 6 assertions *)
Example doc_fundu_standard_parser_537 : all_pass [
  same deqb (dp_parse (dp_set dp_new (Set_parse_multiple true (Some [(%"and")]))) (%"1.5h 2e+2ns")) (positive 5400 200);
  same deqb (dp_parse (dp_set dp_new (Set_parse_multiple true (Some [(%"and")]))) (%"55s500ms")) (positive 55 500000000);
  same deqb (dp_parse (dp_set dp_new (Set_parse_multiple true (Some [(%"and")]))) (%"1m and 1ns")) (positive 60 1);
  same deqb (dp_parse (dp_set dp_new (Set_parse_multiple true (Some [(%"and")]))) (%"1.   .1")) (positive 1 100000000);
  same deqb (dp_parse (dp_set dp_new (Set_parse_multiple true (Some [(%"and")]))) (%"2h")) (positive 7200 0);
  same deqb (dp_parse (dp_set dp_new (Set_parse_multiple true (Some [(%"and")]))) (%"300ms20s 5d")) (positive 432020 300000000)] = true.
Proof. vm_compute. reflexivity. Qed.

(* fundu/src/standard/parser.rs:582: 2 assertions *)
Example doc_fundu_standard_parser_582 : all_pass [
  same deqb (dp_parse (dp_set (dp_set dp_with_all_time_units (Set_allow_ago true)) (Set_inner_delimiter (fun b => (b =? 35)))) (%"1.5h#ago")) (negative 5400 0);
  same deqb (dp_parse (dp_set (dp_set dp_with_all_time_units (Set_allow_sign_delimiter true)) (Set_inner_delimiter (fun b => (b =? 35)))) (%"+##1.5h")) (positive 5400 0)] = true.
Proof. vm_compute. reflexivity. Qed.

(* fundu/src/standard/parser.rs:614: 2 assertions *)
Example doc_fundu_standard_parser_614 : all_pass [
  same deqb (dp_parse (dp_set (dp_set dp_with_all_time_units (Set_parse_multiple true None)) (Set_outer_delimiter (fun b => (b =? 59)))) (%"1.5h;2e+2ns")) (positive 5400 200);
  same deqb (dp_parse (dp_set (dp_set dp_with_all_time_units (Set_parse_multiple true (Some [(%"and")]))) (Set_outer_delimiter (fun b => (b =? 59)))) (%"1.5h;and;2e+2ns")) (positive 5400 200)] = true.
Proof. vm_compute. reflexivity. Qed.

(* README.md:151: 1 assertions *)
Example doc_readme_151 : all_pass [
  same deqb (no_err (dp_parse dp_with_all_time_units (%"3m"))) (positive 180 0)] = true.
Proof. vm_compute. reflexivity. Qed.

(* README.md:163: 1 assertions *)
Example doc_readme_163 : all_pass [
  same deqb (no_err (dp_parse dp_without_time_units (%"1.0e2"))) (positive 100 0)] = true.
Proof. vm_compute. reflexivity. Qed.

(* README.md:175: 1 assertions *)
Example doc_readme_175 : all_pass [
  is_true (Ok (is_err (dp_parse dp_new (%"3y"))))] = true.
Proof. vm_compute. reflexivity. Qed.

(* README.md:184: 4 assertions *)
Example doc_readme_184 : all_pass [
  same deqb (no_err (dp_parse (dp_with_time_units [NanoSecond; Minute; Hour]) (%"9e3ns"))) (positive 0 9000);
  same deqb (no_err (dp_parse (dp_with_time_units [NanoSecond; Minute; Hour]) (%"10m"))) (positive 600 0);
  same deqb (no_err (dp_parse (dp_with_time_units [NanoSecond; Minute; Hour]) (%"1.1h"))) (positive 3960 0);
  same deqb (no_err (dp_parse (dp_with_time_units [NanoSecond; Minute; Hour]) (%"7"))) (positive 7 0)] = true.
Proof. vm_compute. reflexivity. Qed.

(* README.md:199: 1 assertions *)
Example doc_readme_199 : all_pass [
  same deqb (no_err (dp_parse (dp_set dp_without_time_units (Set_default_unit MilliSecond)) (%"1000"))) (positive 1 0)] = true.
Proof. vm_compute. reflexivity. Qed.

(* README.md:215: 3 assertions *)
Example doc_readme_215 : all_pass [
  same deqb (cp_parse (cp_with_time_units [(ctu_with_default MilliSecond [[207; 135; 206; 185; 206; 187; 206; 185; 206; 191; 207; 131; 207; 132; 207; 140; 32; 207; 132; 206; 191; 207; 133; 32; 206; 180; 206; 181; 207; 133; 207; 132; 206; 181; 207; 129; 206; 191; 206; 187; 206; 173; 207; 128; 207; 132; 206; 191; 207; 133]]); (ctu_with_default Second [(%"s"); (%"secs")]); (ctu_with_default Hour [[226; 143; 179]])]) [46; 51; 207; 135; 206; 185; 206; 187; 206; 185; 206; 191; 207; 131; 207; 132; 207; 140; 32; 207; 132; 206; 191; 207; 133; 32; 206; 180; 206; 181; 207; 133; 207; 132; 206; 181; 207; 129; 206; 191; 206; 187; 206; 173; 207; 128; 207; 132; 206; 191; 207; 133]) (positive 0 300000);
  same deqb (cp_parse (cp_with_time_units [(ctu_with_default MilliSecond [[207; 135; 206; 185; 206; 187; 206; 185; 206; 191; 207; 131; 207; 132; 207; 140; 32; 207; 132; 206; 191; 207; 133; 32; 206; 180; 206; 181; 207; 133; 207; 132; 206; 181; 207; 129; 206; 191; 206; 187; 206; 173; 207; 128; 207; 132; 206; 191; 207; 133]]); (ctu_with_default Second [(%"s"); (%"secs")]); (ctu_with_default Hour [[226; 143; 179]])]) (%"1e3secs")) (positive 1000 0);
  same deqb (cp_parse (cp_with_time_units [(ctu_with_default MilliSecond [[207; 135; 206; 185; 206; 187; 206; 185; 206; 191; 207; 131; 207; 132; 207; 140; 32; 207; 132; 206; 191; 207; 133; 32; 206; 180; 206; 181; 207; 133; 207; 132; 206; 181; 207; 129; 206; 191; 206; 187; 206; 173; 207; 128; 207; 132; 206; 191; 207; 133]]); (ctu_with_default Second [(%"s"); (%"secs")]); (ctu_with_default Hour [[226; 143; 179]])]) [49; 46; 49; 226; 143; 179]) (positive 3960 0)] = true.
Proof. vm_compute. reflexivity. Qed.

(* README.md:235: 1 assertions *)
Example doc_readme_235 : all_pass [
  same str_eqb (map_res display_parse_error (get_err (dp_parse dp_without_time_units (%"1y")))) (Ok (%"Time unit error: No time units allowed but found: 'y' at column 1"))] = true.
Proof. vm_compute. reflexivity. Qed.

(* README.md:252: 4 assertions *)
Example doc_readme_252 : all_pass [
  same deqb (no_err (dp_parse (dpb_build (dpb_call (dpb_call (dpb_call (dpb_call (dpb_call dpb_new (B_time_units [NanoSecond])) B_allow_time_unit_delimiter) B_number_is_optional) B_disable_fraction) B_disable_exponent)) (%"ns"))) (positive 0 1);
  same deqb (no_err (dp_parse (dpb_build (dpb_call (dpb_call (dpb_call (dpb_call (dpb_call dpb_new (B_time_units [NanoSecond])) B_allow_time_unit_delimiter) B_number_is_optional) B_disable_fraction) B_disable_exponent)) [49; 48; 48; 48; 9; 10; 13; 32; 110; 115])) (positive 0 1000);
  same perr_eqb (get_err (dp_parse (dpb_build (dpb_call (dpb_call (dpb_call (dpb_call (dpb_call dpb_new (B_time_units [NanoSecond])) B_allow_time_unit_delimiter) B_number_is_optional) B_disable_fraction) B_disable_exponent)) (%"1.0ns"))) (Ok (Syntax 1%nat (%"No fraction allowed")));
  same perr_eqb (get_err (dp_parse (dpb_build (dpb_call (dpb_call (dpb_call (dpb_call (dpb_call dpb_new (B_time_units [NanoSecond])) B_allow_time_unit_delimiter) B_number_is_optional) B_disable_fraction) B_disable_exponent)) (%"1e9ns"))) (Ok (Syntax 1%nat (%"No exponent allowed")))] = true.
Proof. vm_compute. reflexivity. Qed.

(* README.md:284: 7 assertions *)
Example doc_readme_284 : all_pass [
  same deqb (dp_parse (dpb_build (dpb_call (dpb_call dpb_new B_default_time_units) (B_parse_multiple (Some [(%"and")])))) (%"1.5h 2e+2ns")) (positive 5400 200);
  same deqb (dp_parse (dpb_build (dpb_call (dpb_call dpb_new B_default_time_units) (B_parse_multiple (Some [(%"and")])))) (%"55s500ms")) (positive 55 500000000);
  same deqb (dp_parse (dpb_build (dpb_call (dpb_call dpb_new B_default_time_units) (B_parse_multiple (Some [(%"and")])))) [49; 9; 49]) (positive 2 0);
  same deqb (dp_parse (dpb_build (dpb_call (dpb_call dpb_new B_default_time_units) (B_parse_multiple (Some [(%"and")])))) (%"1.   .1")) (positive 1 100000000);
  same deqb (dp_parse (dpb_build (dpb_call (dpb_call dpb_new B_default_time_units) (B_parse_multiple (Some [(%"and")])))) (%"2h")) (positive 7200 0);
  same deqb (dp_parse (dpb_build (dpb_call (dpb_call dpb_new B_default_time_units) (B_parse_multiple (Some [(%"and")])))) (%"300ms20s 5d")) (positive 432020 300000000);
  same deqb (dp_parse (dpb_build (dpb_call (dpb_call dpb_new B_default_time_units) (B_parse_multiple (Some [(%"and")])))) (%"300.0ms and 5d")) (positive 432000 300000000)] = true.
Proof. vm_compute. reflexivity. Qed.

(* README.md:374: 4 assertions *)
Example doc_readme_374 : all_pass [
  same deqb (no_err (dp_parse (dpb_build (dpb_call (dpb_call (dpb_call (dpb_call (dpb_call dpb_new (B_time_units [NanoSecond])) B_allow_time_unit_delimiter) B_number_is_optional) B_disable_fraction) B_disable_exponent)) (%"ns"))) (positive 0 1);
  same deqb (no_err (dp_parse (dpb_build (dpb_call (dpb_call (dpb_call (dpb_call (dpb_call dpb_new (B_time_units [NanoSecond])) B_allow_time_unit_delimiter) B_number_is_optional) B_disable_fraction) B_disable_exponent)) [49; 48; 48; 48; 9; 10; 13; 32; 110; 115])) (positive 0 1000);
  same perr_eqb (get_err (dp_parse (dpb_build (dpb_call (dpb_call (dpb_call (dpb_call (dpb_call dpb_new (B_time_units [NanoSecond])) B_allow_time_unit_delimiter) B_number_is_optional) B_disable_fraction) B_disable_exponent)) (%"1.0ns"))) (Ok (Syntax 1%nat (%"No fraction allowed")));
  same perr_eqb (get_err (dp_parse (dpb_build (dpb_call (dpb_call (dpb_call (dpb_call (dpb_call dpb_new (B_time_units [NanoSecond])) B_allow_time_unit_delimiter) B_number_is_optional) B_disable_fraction) B_disable_exponent)) (%"1e9ns"))) (Ok (Syntax 1%nat (%"No exponent allowed")))] = true.
Proof. vm_compute. reflexivity. Qed.

(* README.md:413: 3 assertions *)
Example doc_readme_413 : all_pass [
  same deqb (no_err (cp_parse (cb_build (cb_call (cb_call cb_new (CB_time_units [(ctu_with_default Second [(%"s"); (%"secs"); (%"seconds")]); (ctu_with_default Minute [(%"min")]); (ctu_with_default Hour [[207; 142; 207; 129; 206; 177]]); (ctu_ok (ctu_new Week [(%"f"); (%"fortnight"); (%"fortnights")] (Some (Mul 2 0))))])) (CB_keyword (CTU Day (Mul 1 0) [(%"tomorrow")])))) [52; 50; 101; 45; 49; 207; 142; 207; 129; 206; 177])) (positive 15120 0);
  same deqb (no_err (cp_parse (cb_build (cb_call (cb_call cb_new (CB_time_units [(ctu_with_default Second [(%"s"); (%"secs"); (%"seconds")]); (ctu_with_default Minute [(%"min")]); (ctu_with_default Hour [[207; 142; 207; 129; 206; 177]]); (ctu_ok (ctu_new Week [(%"f"); (%"fortnight"); (%"fortnights")] (Some (Mul 2 0))))])) (CB_keyword (CTU Day (Mul 1 0) [(%"tomorrow")])))) (%"tomorrow"))) (positive 86400 0);
  same deqb (no_err (cp_parse (cb_build (cb_call (cb_call cb_new (CB_time_units [(ctu_with_default Second [(%"s"); (%"secs"); (%"seconds")]); (ctu_with_default Minute [(%"min")]); (ctu_with_default Hour [[207; 142; 207; 129; 206; 177]]); (ctu_ok (ctu_new Week [(%"f"); (%"fortnight"); (%"fortnights")] (Some (Mul 2 0))))])) (CB_keyword (CTU Day (Mul 1 0) [(%"tomorrow")])))) (%"1fortnight"))) (positive 1209600 0)] = true.
Proof. vm_compute. reflexivity. Qed.
