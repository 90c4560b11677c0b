(** * The test functions of fundu-core/src/time.rs: the assertions of the tests of /repo, run on the model (see Conform.v)

    Generated from the test functions of /repo; one example for each test function (or documentation block), each element of
    its list is one assertion of one case. *)
From Verif Require Import Prelude Util Time Config Bytes Repr Parse Standard Custom Systemd DateTime Gnu Misc Conform.

(* fundu-core/src/time.rs:1594: 10 assertions *)
Example test_time_unit_default_identifier : all_pass [
  same str_eqb (Ok (default_identifier NanoSecond)) (Ok (%"ns"));
  same str_eqb (Ok (default_identifier MicroSecond)) (Ok (%"Ms"));
  same str_eqb (Ok (default_identifier MilliSecond)) (Ok (%"ms"));
  same str_eqb (Ok (default_identifier Second)) (Ok (%"s"));
  same str_eqb (Ok (default_identifier Minute)) (Ok (%"m"));
  same str_eqb (Ok (default_identifier Hour)) (Ok (%"h"));
  same str_eqb (Ok (default_identifier Day)) (Ok (%"d"));
  same str_eqb (Ok (default_identifier Week)) (Ok (%"w"));
  same str_eqb (Ok (default_identifier Month)) (Ok (%"M"));
  same str_eqb (Ok (default_identifier Year)) (Ok (%"y"))] = true.
Proof. vm_compute. reflexivity. Qed.

(* fundu-core/src/time.rs:1609: 10 assertions *)
Example test_time_unit_multiplier : all_pass [
  same mult_eqb (Ok (unit_multiplier NanoSecond)) (Ok (Mul 1 (-9)));
  same mult_eqb (Ok (unit_multiplier MicroSecond)) (Ok (Mul 1 (-6)));
  same mult_eqb (Ok (unit_multiplier MilliSecond)) (Ok (Mul 1 (-3)));
  same mult_eqb (Ok (unit_multiplier Second)) (Ok (Mul 1 0));
  same mult_eqb (Ok (unit_multiplier Minute)) (Ok (Mul 60 0));
  same mult_eqb (Ok (unit_multiplier Hour)) (Ok (Mul 3600 0));
  same mult_eqb (Ok (unit_multiplier Day)) (Ok (Mul 86400 0));
  same mult_eqb (Ok (unit_multiplier Week)) (Ok (Mul 604800 0));
  same mult_eqb (Ok (unit_multiplier Month)) (Ok (Mul 2629800 0));
  same mult_eqb (Ok (unit_multiplier Year)) (Ok (Mul 31557600 0))] = true.
Proof. vm_compute. reflexivity. Qed.

(* fundu-core/src/time.rs:1614: 1 assertions *)
Example test_multiplier_get_coefficient : all_pass [
  same Z.eqb (Ok (coef (Mul 1234 0))) (Ok 1234)] = true.
Proof. vm_compute. reflexivity. Qed.

(* fundu-core/src/time.rs:1620: 1 assertions *)
Example test_multiplier_get_exponent : all_pass [
  same Z.eqb (Ok (expo (Mul 0 1234))) (Ok 1234)] = true.
Proof. vm_compute. reflexivity. Qed.

(* fundu-core/src/time.rs:1631: 10 assertions *)
Example test_multiplier_is_negative_and_is_positive : all_pass [
  same Bool.eqb (Ok (mul_is_negative (Mul 0 0))) (Ok false);
  same Bool.eqb (Ok (mul_is_positive (Mul 0 0))) (Ok true);
  same Bool.eqb (Ok (mul_is_negative (Mul (-1) 0))) (Ok true);
  same Bool.eqb (Ok (mul_is_positive (Mul (-1) 0))) (Ok false);
  same Bool.eqb (Ok (mul_is_negative (Mul 1 0))) (Ok false);
  same Bool.eqb (Ok (mul_is_positive (Mul 1 0))) (Ok true);
  same Bool.eqb (Ok (mul_is_negative (Mul 1 (-1)))) (Ok false);
  same Bool.eqb (Ok (mul_is_positive (Mul 1 (-1)))) (Ok true);
  same Bool.eqb (Ok (mul_is_negative (Mul (-1) 1))) (Ok true);
  same Bool.eqb (Ok (mul_is_positive (Mul (-1) 1))) (Ok false)] = true.
Proof. vm_compute. reflexivity. Qed.

(* fundu-core/src/time.rs:1650: 10 assertions *)
Example test_multiplier_multiplication_barely_no_panic : all_pass [
  runs (let* x := (Ok (unit_multiplier NanoSecond)) in let* y := (Ok (Mul 9223372036854775807 (-32759))) in mul_mul x y);
  runs (let* x := (Ok (unit_multiplier MicroSecond)) in let* y := (Ok (Mul 9223372036854775807 (-32762))) in mul_mul x y);
  runs (let* x := (Ok (unit_multiplier MilliSecond)) in let* y := (Ok (Mul 9223372036854775807 (-32765))) in mul_mul x y);
  runs (let* x := (Ok (unit_multiplier Second)) in let* y := (Ok (Mul 9223372036854775807 (-32768))) in mul_mul x y);
  runs (let* x := (Ok (unit_multiplier Minute)) in let* y := (Ok (Mul 153722867280912930 (-32768))) in mul_mul x y);
  runs (let* x := (Ok (unit_multiplier Hour)) in let* y := (Ok (Mul 2562047788015215 (-32768))) in mul_mul x y);
  runs (let* x := (Ok (unit_multiplier Day)) in let* y := (Ok (Mul 106751991167300 (-32768))) in mul_mul x y);
  runs (let* x := (Ok (unit_multiplier Week)) in let* y := (Ok (Mul 15250284452471 (-32768))) in mul_mul x y);
  runs (let* x := (Ok (unit_multiplier Month)) in let* y := (Ok (Mul 3507252276543 (-32768))) in mul_mul x y);
  runs (let* x := (Ok (unit_multiplier Year)) in let* y := (Ok (Mul 292271023045 (-32768))) in mul_mul x y)] = true.
Proof. vm_compute. reflexivity. Qed.

(* fundu-core/src/time.rs:1668: 9 assertions *)
Example test_multiplier_multiplication_then_panic : all_pass [
  crashes (let* x := (Ok (unit_multiplier NanoSecond)) in let* y := (Ok (Mul 9223372036854775807 (-32760))) in mul_mul x y);
  crashes (let* x := (Ok (unit_multiplier MicroSecond)) in let* y := (Ok (Mul 9223372036854775807 (-32764))) in mul_mul x y);
  crashes (let* x := (Ok (unit_multiplier MilliSecond)) in let* y := (Ok (Mul 9223372036854775807 (-32766))) in mul_mul x y);
  crashes (let* x := (Ok (unit_multiplier Minute)) in let* y := (Ok (Mul 153722867280912931 (-32768))) in mul_mul x y);
  crashes (let* x := (Ok (unit_multiplier Hour)) in let* y := (Ok (Mul 2562047788015216 (-32768))) in mul_mul x y);
  crashes (let* x := (Ok (unit_multiplier Day)) in let* y := (Ok (Mul 106751991167301 (-32768))) in mul_mul x y);
  crashes (let* x := (Ok (unit_multiplier Week)) in let* y := (Ok (Mul 15250284452472 (-32768))) in mul_mul x y);
  crashes (let* x := (Ok (unit_multiplier Month)) in let* y := (Ok (Mul 3507252276544 (-32768))) in mul_mul x y);
  crashes (let* x := (Ok (unit_multiplier Year)) in let* y := (Ok (Mul 292271023046 (-32768))) in mul_mul x y)] = true.
Proof. vm_compute. reflexivity. Qed.

(* fundu-core/src/time.rs:1680: 8 assertions *)
Example test_fundu_duration_is_positive_and_is_negative : all_pass [
  same Bool.eqb (map_res is_positive (positive 0 0)) (Ok true);
  same Bool.eqb (map_res is_negative (positive 0 0)) (Ok false);
  same Bool.eqb (map_res is_positive (negative 0 0)) (Ok false);
  same Bool.eqb (map_res is_negative (negative 0 0)) (Ok true);
  same Bool.eqb (map_res is_positive (positive 1 0)) (Ok true);
  same Bool.eqb (map_res is_negative (positive 1 0)) (Ok false);
  same Bool.eqb (map_res is_positive (negative 1 0)) (Ok false);
  same Bool.eqb (map_res is_negative (negative 1 0)) (Ok true)] = true.
Proof. vm_compute. reflexivity. Qed.

(* fundu-core/src/time.rs:1696: 7 assertions *)
Example test_fundu_duration_abs : all_pass [
  same deqb (map_res abs (positive 0 0)) (positive 0 0);
  same deqb (map_res abs (negative 0 0)) (positive 0 0);
  same deqb (map_res abs (positive 1 0)) (positive 1 0);
  same deqb (map_res abs (positive 0 1)) (positive 0 1);
  same deqb (map_res abs (negative 1 0)) (positive 1 0);
  same deqb (map_res abs (negative 0 1)) (positive 0 1);
  same deqb (map_res abs (negative 1 1)) (positive 1 1)] = true.
Proof. vm_compute. reflexivity. Qed.

(* fundu-core/src/time.rs:1720: 26 assertions *)
Example test_fundu_display : all_pass [
  same str_eqb (map_res display (Ok ZERO)) (Ok (%"0ns"));
  same str_eqb (map_res display (map_res dneg (Ok ZERO))) (Ok (%"0ns"));
  same str_eqb (map_res display (positive 0 1)) (Ok (%"1ns"));
  same str_eqb (map_res display (map_res dneg (positive 0 1))) (Ok (%"-1ns"));
  same str_eqb (map_res display (positive 0 1000)) (Ok (%"1Ms"));
  same str_eqb (map_res display (map_res dneg (positive 0 1000))) (Ok (%"-1Ms"));
  same str_eqb (map_res display (positive 0 1000000)) (Ok (%"1ms"));
  same str_eqb (map_res display (map_res dneg (positive 0 1000000))) (Ok (%"-1ms"));
  same str_eqb (map_res display (positive 1 0)) (Ok (%"1s"));
  same str_eqb (map_res display (map_res dneg (positive 1 0))) (Ok (%"-1s"));
  same str_eqb (map_res display (positive 60 0)) (Ok (%"1m"));
  same str_eqb (map_res display (map_res dneg (positive 60 0))) (Ok (%"-1m"));
  same str_eqb (map_res display (positive 3600 0)) (Ok (%"1h"));
  same str_eqb (map_res display (map_res dneg (positive 3600 0))) (Ok (%"-1h"));
  same str_eqb (map_res display (positive 86400 0)) (Ok (%"1d"));
  same str_eqb (map_res display (map_res dneg (positive 86400 0))) (Ok (%"-1d"));
  same str_eqb (map_res display (positive 604800 0)) (Ok (%"1w"));
  same str_eqb (map_res display (map_res dneg (positive 604800 0))) (Ok (%"-1w"));
  same str_eqb (map_res display (positive 2629800 0)) (Ok (%"1M"));
  same str_eqb (map_res display (map_res dneg (positive 2629800 0))) (Ok (%"-1M"));
  same str_eqb (map_res display (positive 31557600 0)) (Ok (%"1y"));
  same str_eqb (map_res display (map_res dneg (positive 31557600 0))) (Ok (%"-1y"));
  same str_eqb (map_res display (positive 34882261 1001001)) (Ok (%"1y 1M 1w 1d 1h 1m 1s 1ms 1Ms 1ns"));
  same str_eqb (map_res display (map_res dneg (positive 34882261 1001001))) (Ok (%"-1y -1M -1w -1d -1h -1m -1s -1ms -1Ms -1ns"));
  same str_eqb (map_res display (Ok MAX)) (Ok (%"584542046090y 7M 2w 1d 17h 30m 15s 999ms 999Ms 999ns"));
  same str_eqb (map_res display (map_res dneg (Ok MAX))) (Ok (%"-584542046090y -7M -2w -1d -17h -30m -15s -999ms -999Ms -999ns"))] = true.
Proof. vm_compute. reflexivity. Qed.

(* fundu-core/src/time.rs:1789: 27 assertions *)
Example test_fundu_duration_add : all_pass [
  same deqb (let* x := (Ok ZERO) in let* y := (Ok ZERO) in dadd x y) (Ok ZERO);
  same deqb (let* x := (positive 0 0) in let* y := (positive 0 0) in dadd x y) (positive 0 0);
  same deqb (let* x := (negative 0 0) in let* y := (negative 0 0) in dadd x y) (Ok ZERO);
  same deqb (let* x := (positive 1 0) in let* y := (Ok ZERO) in dadd x y) (positive 1 0);
  same deqb (let* x := (Ok ZERO) in let* y := (positive 1 0) in dadd x y) (positive 1 0);
  same deqb (let* x := (negative 1 0) in let* y := (Ok ZERO) in dadd x y) (negative 1 0);
  same deqb (let* x := (Ok ZERO) in let* y := (negative 1 0) in dadd x y) (negative 1 0);
  same deqb (let* x := (negative 1 0) in let* y := (positive 1 0) in dadd x y) (Ok ZERO);
  same deqb (let* x := (positive 1 0) in let* y := (negative 1 0) in dadd x y) (Ok ZERO);
  same deqb (let* x := (negative 1 0) in let* y := (positive 2 0) in dadd x y) (positive 1 0);
  same deqb (let* x := (positive 2 0) in let* y := (negative 1 0) in dadd x y) (positive 1 0);
  same deqb (let* x := (negative 0 1) in let* y := (positive 1 0) in dadd x y) (positive 0 999999999);
  same deqb (let* x := (positive 1 0) in let* y := (negative 0 1) in dadd x y) (positive 0 999999999);
  same deqb (let* x := (positive 0 1) in let* y := (negative 1 0) in dadd x y) (negative 0 999999999);
  same deqb (let* x := (negative 1 0) in let* y := (positive 0 1) in dadd x y) (negative 0 999999999);
  same deqb (let* x := (positive 1 0) in let* y := (negative 2 0) in dadd x y) (negative 1 0);
  same deqb (let* x := (negative 2 0) in let* y := (positive 1 0) in dadd x y) (negative 1 0);
  same deqb (let* x := (negative 18446744073709551614 999999999) in let* y := (Ok MAX) in dadd x y) (positive 1 0);
  same deqb (let* x := (Ok MAX) in let* y := (negative 18446744073709551614 999999999) in dadd x y) (positive 1 0);
  same deqb (let* x := (negative 18446744073709551615 999999998) in let* y := (Ok MAX) in dadd x y) (positive 0 1);
  same deqb (let* x := (Ok MAX) in let* y := (negative 18446744073709551615 999999998) in dadd x y) (positive 0 1);
  same deqb (let* x := (positive 18446744073709551614 999999999) in let* y := (Ok MIN) in dadd x y) (negative 1 0);
  same deqb (let* x := (Ok MIN) in let* y := (positive 18446744073709551614 999999999) in dadd x y) (negative 1 0);
  same deqb (let* x := (positive 18446744073709551615 999999998) in let* y := (Ok MIN) in dadd x y) (negative 0 1);
  same deqb (let* x := (Ok MIN) in let* y := (positive 18446744073709551615 999999998) in dadd x y) (negative 0 1);
  same deqb (let* x := (Ok MIN) in let* y := (Ok MAX) in dadd x y) (Ok ZERO);
  same deqb (let* x := (Ok MAX) in let* y := (Ok MIN) in dadd x y) (Ok ZERO)] = true.
Proof. vm_compute. reflexivity. Qed.

(* fundu-core/src/time.rs:1803: 27 assertions *)
Example test_fundu_duration_add_assign : all_pass [
  same deqb (let* x := (Ok ZERO) in let* y := (Ok ZERO) in dadd x y) (Ok ZERO);
  same deqb (let* x := (positive 0 0) in let* y := (positive 0 0) in dadd x y) (positive 0 0);
  same deqb (let* x := (negative 0 0) in let* y := (negative 0 0) in dadd x y) (Ok ZERO);
  same deqb (let* x := (positive 1 0) in let* y := (Ok ZERO) in dadd x y) (positive 1 0);
  same deqb (let* x := (Ok ZERO) in let* y := (positive 1 0) in dadd x y) (positive 1 0);
  same deqb (let* x := (negative 1 0) in let* y := (Ok ZERO) in dadd x y) (negative 1 0);
  same deqb (let* x := (Ok ZERO) in let* y := (negative 1 0) in dadd x y) (negative 1 0);
  same deqb (let* x := (negative 1 0) in let* y := (positive 1 0) in dadd x y) (Ok ZERO);
  same deqb (let* x := (positive 1 0) in let* y := (negative 1 0) in dadd x y) (Ok ZERO);
  same deqb (let* x := (negative 1 0) in let* y := (positive 2 0) in dadd x y) (positive 1 0);
  same deqb (let* x := (positive 2 0) in let* y := (negative 1 0) in dadd x y) (positive 1 0);
  same deqb (let* x := (negative 0 1) in let* y := (positive 1 0) in dadd x y) (positive 0 999999999);
  same deqb (let* x := (positive 1 0) in let* y := (negative 0 1) in dadd x y) (positive 0 999999999);
  same deqb (let* x := (positive 0 1) in let* y := (negative 1 0) in dadd x y) (negative 0 999999999);
  same deqb (let* x := (negative 1 0) in let* y := (positive 0 1) in dadd x y) (negative 0 999999999);
  same deqb (let* x := (positive 1 0) in let* y := (negative 2 0) in dadd x y) (negative 1 0);
  same deqb (let* x := (negative 2 0) in let* y := (positive 1 0) in dadd x y) (negative 1 0);
  same deqb (let* x := (negative 18446744073709551614 999999999) in let* y := (Ok MAX) in dadd x y) (positive 1 0);
  same deqb (let* x := (Ok MAX) in let* y := (negative 18446744073709551614 999999999) in dadd x y) (positive 1 0);
  same deqb (let* x := (negative 18446744073709551615 999999998) in let* y := (Ok MAX) in dadd x y) (positive 0 1);
  same deqb (let* x := (Ok MAX) in let* y := (negative 18446744073709551615 999999998) in dadd x y) (positive 0 1);
  same deqb (let* x := (positive 18446744073709551614 999999999) in let* y := (Ok MIN) in dadd x y) (negative 1 0);
  same deqb (let* x := (Ok MIN) in let* y := (positive 18446744073709551614 999999999) in dadd x y) (negative 1 0);
  same deqb (let* x := (positive 18446744073709551615 999999998) in let* y := (Ok MIN) in dadd x y) (negative 0 1);
  same deqb (let* x := (Ok MIN) in let* y := (positive 18446744073709551615 999999998) in dadd x y) (negative 0 1);
  same deqb (let* x := (Ok MIN) in let* y := (Ok MAX) in dadd x y) (Ok ZERO);
  same deqb (let* x := (Ok MAX) in let* y := (Ok MIN) in dadd x y) (Ok ZERO)] = true.
Proof. vm_compute. reflexivity. Qed.

(* fundu-core/src/time.rs:1813: 27 assertions *)
Example test_fundu_duration_checked_add : all_pass [
  same (opt_eqb deqb) (let* x := (Ok ZERO) in let* y := (Ok ZERO) in checked_add x y) (map_res Some (Ok ZERO));
  same (opt_eqb deqb) (let* x := (positive 0 0) in let* y := (positive 0 0) in checked_add x y) (map_res Some (positive 0 0));
  same (opt_eqb deqb) (let* x := (negative 0 0) in let* y := (negative 0 0) in checked_add x y) (map_res Some (Ok ZERO));
  same (opt_eqb deqb) (let* x := (positive 1 0) in let* y := (Ok ZERO) in checked_add x y) (map_res Some (positive 1 0));
  same (opt_eqb deqb) (let* x := (Ok ZERO) in let* y := (positive 1 0) in checked_add x y) (map_res Some (positive 1 0));
  same (opt_eqb deqb) (let* x := (negative 1 0) in let* y := (Ok ZERO) in checked_add x y) (map_res Some (negative 1 0));
  same (opt_eqb deqb) (let* x := (Ok ZERO) in let* y := (negative 1 0) in checked_add x y) (map_res Some (negative 1 0));
  same (opt_eqb deqb) (let* x := (negative 1 0) in let* y := (positive 1 0) in checked_add x y) (map_res Some (Ok ZERO));
  same (opt_eqb deqb) (let* x := (positive 1 0) in let* y := (negative 1 0) in checked_add x y) (map_res Some (Ok ZERO));
  same (opt_eqb deqb) (let* x := (negative 1 0) in let* y := (positive 2 0) in checked_add x y) (map_res Some (positive 1 0));
  same (opt_eqb deqb) (let* x := (positive 2 0) in let* y := (negative 1 0) in checked_add x y) (map_res Some (positive 1 0));
  same (opt_eqb deqb) (let* x := (negative 0 1) in let* y := (positive 1 0) in checked_add x y) (map_res Some (positive 0 999999999));
  same (opt_eqb deqb) (let* x := (positive 1 0) in let* y := (negative 0 1) in checked_add x y) (map_res Some (positive 0 999999999));
  same (opt_eqb deqb) (let* x := (positive 0 1) in let* y := (negative 1 0) in checked_add x y) (map_res Some (negative 0 999999999));
  same (opt_eqb deqb) (let* x := (negative 1 0) in let* y := (positive 0 1) in checked_add x y) (map_res Some (negative 0 999999999));
  same (opt_eqb deqb) (let* x := (positive 1 0) in let* y := (negative 2 0) in checked_add x y) (map_res Some (negative 1 0));
  same (opt_eqb deqb) (let* x := (negative 2 0) in let* y := (positive 1 0) in checked_add x y) (map_res Some (negative 1 0));
  same (opt_eqb deqb) (let* x := (negative 18446744073709551614 999999999) in let* y := (Ok MAX) in checked_add x y) (map_res Some (positive 1 0));
  same (opt_eqb deqb) (let* x := (Ok MAX) in let* y := (negative 18446744073709551614 999999999) in checked_add x y) (map_res Some (positive 1 0));
  same (opt_eqb deqb) (let* x := (negative 18446744073709551615 999999998) in let* y := (Ok MAX) in checked_add x y) (map_res Some (positive 0 1));
  same (opt_eqb deqb) (let* x := (Ok MAX) in let* y := (negative 18446744073709551615 999999998) in checked_add x y) (map_res Some (positive 0 1));
  same (opt_eqb deqb) (let* x := (positive 18446744073709551614 999999999) in let* y := (Ok MIN) in checked_add x y) (map_res Some (negative 1 0));
  same (opt_eqb deqb) (let* x := (Ok MIN) in let* y := (positive 18446744073709551614 999999999) in checked_add x y) (map_res Some (negative 1 0));
  same (opt_eqb deqb) (let* x := (positive 18446744073709551615 999999998) in let* y := (Ok MIN) in checked_add x y) (map_res Some (negative 0 1));
  same (opt_eqb deqb) (let* x := (Ok MIN) in let* y := (positive 18446744073709551615 999999998) in checked_add x y) (map_res Some (negative 0 1));
  same (opt_eqb deqb) (let* x := (Ok MIN) in let* y := (Ok MAX) in checked_add x y) (map_res Some (Ok ZERO));
  same (opt_eqb deqb) (let* x := (Ok MAX) in let* y := (Ok MIN) in checked_add x y) (map_res Some (Ok ZERO))] = true.
Proof. vm_compute. reflexivity. Qed.

(* fundu-core/src/time.rs:1819: 27 assertions *)
Example test_fundu_duration_sub : all_pass [
  same deqb (let* x := (Ok ZERO) in let* y := (map_res dneg (Ok ZERO)) in dsub x y) (Ok ZERO);
  same deqb (let* x := (positive 0 0) in let* y := (map_res dneg (positive 0 0)) in dsub x y) (positive 0 0);
  same deqb (let* x := (negative 0 0) in let* y := (map_res dneg (negative 0 0)) in dsub x y) (Ok ZERO);
  same deqb (let* x := (positive 1 0) in let* y := (map_res dneg (Ok ZERO)) in dsub x y) (positive 1 0);
  same deqb (let* x := (Ok ZERO) in let* y := (map_res dneg (positive 1 0)) in dsub x y) (positive 1 0);
  same deqb (let* x := (negative 1 0) in let* y := (map_res dneg (Ok ZERO)) in dsub x y) (negative 1 0);
  same deqb (let* x := (Ok ZERO) in let* y := (map_res dneg (negative 1 0)) in dsub x y) (negative 1 0);
  same deqb (let* x := (negative 1 0) in let* y := (map_res dneg (positive 1 0)) in dsub x y) (Ok ZERO);
  same deqb (let* x := (positive 1 0) in let* y := (map_res dneg (negative 1 0)) in dsub x y) (Ok ZERO);
  same deqb (let* x := (negative 1 0) in let* y := (map_res dneg (positive 2 0)) in dsub x y) (positive 1 0);
  same deqb (let* x := (positive 2 0) in let* y := (map_res dneg (negative 1 0)) in dsub x y) (positive 1 0);
  same deqb (let* x := (negative 0 1) in let* y := (map_res dneg (positive 1 0)) in dsub x y) (positive 0 999999999);
  same deqb (let* x := (positive 1 0) in let* y := (map_res dneg (negative 0 1)) in dsub x y) (positive 0 999999999);
  same deqb (let* x := (positive 0 1) in let* y := (map_res dneg (negative 1 0)) in dsub x y) (negative 0 999999999);
  same deqb (let* x := (negative 1 0) in let* y := (map_res dneg (positive 0 1)) in dsub x y) (negative 0 999999999);
  same deqb (let* x := (positive 1 0) in let* y := (map_res dneg (negative 2 0)) in dsub x y) (negative 1 0);
  same deqb (let* x := (negative 2 0) in let* y := (map_res dneg (positive 1 0)) in dsub x y) (negative 1 0);
  same deqb (let* x := (negative 18446744073709551614 999999999) in let* y := (map_res dneg (Ok MAX)) in dsub x y) (positive 1 0);
  same deqb (let* x := (Ok MAX) in let* y := (map_res dneg (negative 18446744073709551614 999999999)) in dsub x y) (positive 1 0);
  same deqb (let* x := (negative 18446744073709551615 999999998) in let* y := (map_res dneg (Ok MAX)) in dsub x y) (positive 0 1);
  same deqb (let* x := (Ok MAX) in let* y := (map_res dneg (negative 18446744073709551615 999999998)) in dsub x y) (positive 0 1);
  same deqb (let* x := (positive 18446744073709551614 999999999) in let* y := (map_res dneg (Ok MIN)) in dsub x y) (negative 1 0);
  same deqb (let* x := (Ok MIN) in let* y := (map_res dneg (positive 18446744073709551614 999999999)) in dsub x y) (negative 1 0);
  same deqb (let* x := (positive 18446744073709551615 999999998) in let* y := (map_res dneg (Ok MIN)) in dsub x y) (negative 0 1);
  same deqb (let* x := (Ok MIN) in let* y := (map_res dneg (positive 18446744073709551615 999999998)) in dsub x y) (negative 0 1);
  same deqb (let* x := (Ok MIN) in let* y := (map_res dneg (Ok MAX)) in dsub x y) (Ok ZERO);
  same deqb (let* x := (Ok MAX) in let* y := (map_res dneg (Ok MIN)) in dsub x y) (Ok ZERO)] = true.
Proof. vm_compute. reflexivity. Qed.

(* fundu-core/src/time.rs:1825: 27 assertions *)
Example test_fundu_duration_sub_assign : all_pass [
  same deqb (let* x := (Ok ZERO) in let* y := (map_res dneg (Ok ZERO)) in dsub x y) (Ok ZERO);
  same deqb (let* x := (positive 0 0) in let* y := (map_res dneg (positive 0 0)) in dsub x y) (positive 0 0);
  same deqb (let* x := (negative 0 0) in let* y := (map_res dneg (negative 0 0)) in dsub x y) (Ok ZERO);
  same deqb (let* x := (positive 1 0) in let* y := (map_res dneg (Ok ZERO)) in dsub x y) (positive 1 0);
  same deqb (let* x := (Ok ZERO) in let* y := (map_res dneg (positive 1 0)) in dsub x y) (positive 1 0);
  same deqb (let* x := (negative 1 0) in let* y := (map_res dneg (Ok ZERO)) in dsub x y) (negative 1 0);
  same deqb (let* x := (Ok ZERO) in let* y := (map_res dneg (negative 1 0)) in dsub x y) (negative 1 0);
  same deqb (let* x := (negative 1 0) in let* y := (map_res dneg (positive 1 0)) in dsub x y) (Ok ZERO);
  same deqb (let* x := (positive 1 0) in let* y := (map_res dneg (negative 1 0)) in dsub x y) (Ok ZERO);
  same deqb (let* x := (negative 1 0) in let* y := (map_res dneg (positive 2 0)) in dsub x y) (positive 1 0);
  same deqb (let* x := (positive 2 0) in let* y := (map_res dneg (negative 1 0)) in dsub x y) (positive 1 0);
  same deqb (let* x := (negative 0 1) in let* y := (map_res dneg (positive 1 0)) in dsub x y) (positive 0 999999999);
  same deqb (let* x := (positive 1 0) in let* y := (map_res dneg (negative 0 1)) in dsub x y) (positive 0 999999999);
  same deqb (let* x := (positive 0 1) in let* y := (map_res dneg (negative 1 0)) in dsub x y) (negative 0 999999999);
  same deqb (let* x := (negative 1 0) in let* y := (map_res dneg (positive 0 1)) in dsub x y) (negative 0 999999999);
  same deqb (let* x := (positive 1 0) in let* y := (map_res dneg (negative 2 0)) in dsub x y) (negative 1 0);
  same deqb (let* x := (negative 2 0) in let* y := (map_res dneg (positive 1 0)) in dsub x y) (negative 1 0);
  same deqb (let* x := (negative 18446744073709551614 999999999) in let* y := (map_res dneg (Ok MAX)) in dsub x y) (positive 1 0);
  same deqb (let* x := (Ok MAX) in let* y := (map_res dneg (negative 18446744073709551614 999999999)) in dsub x y) (positive 1 0);
  same deqb (let* x := (negative 18446744073709551615 999999998) in let* y := (map_res dneg (Ok MAX)) in dsub x y) (positive 0 1);
  same deqb (let* x := (Ok MAX) in let* y := (map_res dneg (negative 18446744073709551615 999999998)) in dsub x y) (positive 0 1);
  same deqb (let* x := (positive 18446744073709551614 999999999) in let* y := (map_res dneg (Ok MIN)) in dsub x y) (negative 1 0);
  same deqb (let* x := (Ok MIN) in let* y := (map_res dneg (positive 18446744073709551614 999999999)) in dsub x y) (negative 1 0);
  same deqb (let* x := (positive 18446744073709551615 999999998) in let* y := (map_res dneg (Ok MIN)) in dsub x y) (negative 0 1);
  same deqb (let* x := (Ok MIN) in let* y := (map_res dneg (positive 18446744073709551615 999999998)) in dsub x y) (negative 0 1);
  same deqb (let* x := (Ok MIN) in let* y := (map_res dneg (Ok MAX)) in dsub x y) (Ok ZERO);
  same deqb (let* x := (Ok MAX) in let* y := (map_res dneg (Ok MIN)) in dsub x y) (Ok ZERO)] = true.
Proof. vm_compute. reflexivity. Qed.

(* fundu-core/src/time.rs:1835: 27 assertions *)
Example test_fundu_duration_checked_sub : all_pass [
  same (opt_eqb deqb) (let* x := (Ok ZERO) in let* y := (map_res dneg (Ok ZERO)) in checked_sub x y) (map_res Some (Ok ZERO));
  same (opt_eqb deqb) (let* x := (positive 0 0) in let* y := (map_res dneg (positive 0 0)) in checked_sub x y) (map_res Some (positive 0 0));
  same (opt_eqb deqb) (let* x := (negative 0 0) in let* y := (map_res dneg (negative 0 0)) in checked_sub x y) (map_res Some (Ok ZERO));
  same (opt_eqb deqb) (let* x := (positive 1 0) in let* y := (map_res dneg (Ok ZERO)) in checked_sub x y) (map_res Some (positive 1 0));
  same (opt_eqb deqb) (let* x := (Ok ZERO) in let* y := (map_res dneg (positive 1 0)) in checked_sub x y) (map_res Some (positive 1 0));
  same (opt_eqb deqb) (let* x := (negative 1 0) in let* y := (map_res dneg (Ok ZERO)) in checked_sub x y) (map_res Some (negative 1 0));
  same (opt_eqb deqb) (let* x := (Ok ZERO) in let* y := (map_res dneg (negative 1 0)) in checked_sub x y) (map_res Some (negative 1 0));
  same (opt_eqb deqb) (let* x := (negative 1 0) in let* y := (map_res dneg (positive 1 0)) in checked_sub x y) (map_res Some (Ok ZERO));
  same (opt_eqb deqb) (let* x := (positive 1 0) in let* y := (map_res dneg (negative 1 0)) in checked_sub x y) (map_res Some (Ok ZERO));
  same (opt_eqb deqb) (let* x := (negative 1 0) in let* y := (map_res dneg (positive 2 0)) in checked_sub x y) (map_res Some (positive 1 0));
  same (opt_eqb deqb) (let* x := (positive 2 0) in let* y := (map_res dneg (negative 1 0)) in checked_sub x y) (map_res Some (positive 1 0));
  same (opt_eqb deqb) (let* x := (negative 0 1) in let* y := (map_res dneg (positive 1 0)) in checked_sub x y) (map_res Some (positive 0 999999999));
  same (opt_eqb deqb) (let* x := (positive 1 0) in let* y := (map_res dneg (negative 0 1)) in checked_sub x y) (map_res Some (positive 0 999999999));
  same (opt_eqb deqb) (let* x := (positive 0 1) in let* y := (map_res dneg (negative 1 0)) in checked_sub x y) (map_res Some (negative 0 999999999));
  same (opt_eqb deqb) (let* x := (negative 1 0) in let* y := (map_res dneg (positive 0 1)) in checked_sub x y) (map_res Some (negative 0 999999999));
  same (opt_eqb deqb) (let* x := (positive 1 0) in let* y := (map_res dneg (negative 2 0)) in checked_sub x y) (map_res Some (negative 1 0));
  same (opt_eqb deqb) (let* x := (negative 2 0) in let* y := (map_res dneg (positive 1 0)) in checked_sub x y) (map_res Some (negative 1 0));
  same (opt_eqb deqb) (let* x := (negative 18446744073709551614 999999999) in let* y := (map_res dneg (Ok MAX)) in checked_sub x y) (map_res Some (positive 1 0));
  same (opt_eqb deqb) (let* x := (Ok MAX) in let* y := (map_res dneg (negative 18446744073709551614 999999999)) in checked_sub x y) (map_res Some (positive 1 0));
  same (opt_eqb deqb) (let* x := (negative 18446744073709551615 999999998) in let* y := (map_res dneg (Ok MAX)) in checked_sub x y) (map_res Some (positive 0 1));
  same (opt_eqb deqb) (let* x := (Ok MAX) in let* y := (map_res dneg (negative 18446744073709551615 999999998)) in checked_sub x y) (map_res Some (positive 0 1));
  same (opt_eqb deqb) (let* x := (positive 18446744073709551614 999999999) in let* y := (map_res dneg (Ok MIN)) in checked_sub x y) (map_res Some (negative 1 0));
  same (opt_eqb deqb) (let* x := (Ok MIN) in let* y := (map_res dneg (positive 18446744073709551614 999999999)) in checked_sub x y) (map_res Some (negative 1 0));
  same (opt_eqb deqb) (let* x := (positive 18446744073709551615 999999998) in let* y := (map_res dneg (Ok MIN)) in checked_sub x y) (map_res Some (negative 0 1));
  same (opt_eqb deqb) (let* x := (Ok MIN) in let* y := (map_res dneg (positive 18446744073709551615 999999998)) in checked_sub x y) (map_res Some (negative 0 1));
  same (opt_eqb deqb) (let* x := (Ok MIN) in let* y := (map_res dneg (Ok MAX)) in checked_sub x y) (map_res Some (Ok ZERO));
  same (opt_eqb deqb) (let* x := (Ok MAX) in let* y := (map_res dneg (Ok MIN)) in checked_sub x y) (map_res Some (Ok ZERO))] = true.
Proof. vm_compute. reflexivity. Qed.

(* fundu-core/src/time.rs:1868: 10 assertions *)
Example test_fundu_duration_add_and_add_assign_then_overflow : all_pass [
  crashes (let* x := (Ok MIN) in let* y := (Ok MIN) in dadd x y);
  crashes (let* x := (Ok MIN) in let* y := (negative 1 0) in dadd x y);
  crashes (let* x := (Ok MIN) in let* y := (negative 0 1) in dadd x y);
  crashes (let* x := (Ok MAX) in let* y := (Ok MAX) in dadd x y);
  crashes (let* x := (Ok MAX) in let* y := (positive 1 0) in dadd x y);
  crashes (let* x := (Ok MAX) in let* y := (positive 0 1) in dadd x y);
  crashes (let* x := (positive 9223372036854775808 500000000) in let* y := (positive 9223372036854775807 500000000) in dadd x y);
  crashes (let* x := (positive 9223372036854775808 500000000) in let* y := (positive 9223372036854775808 499999999) in dadd x y);
  crashes (let* x := (negative 9223372036854775808 500000000) in let* y := (negative 9223372036854775807 500000000) in dadd x y);
  crashes (let* x := (negative 9223372036854775808 500000000) in let* y := (negative 9223372036854775808 499999999) in dadd x y)] = true.
Proof. vm_compute. reflexivity. Qed.

(* fundu-core/src/time.rs:1875: 10 assertions *)
Example test_fundu_duration_sub_and_sub_assign_then_overflow : all_pass [
  crashes (let* x := (Ok MIN) in let* y := (map_res dneg (Ok MIN)) in dsub x y);
  crashes (let* x := (Ok MIN) in let* y := (map_res dneg (negative 1 0)) in dsub x y);
  crashes (let* x := (Ok MIN) in let* y := (map_res dneg (negative 0 1)) in dsub x y);
  crashes (let* x := (Ok MAX) in let* y := (map_res dneg (Ok MAX)) in dsub x y);
  crashes (let* x := (Ok MAX) in let* y := (map_res dneg (positive 1 0)) in dsub x y);
  crashes (let* x := (Ok MAX) in let* y := (map_res dneg (positive 0 1)) in dsub x y);
  crashes (let* x := (positive 9223372036854775808 500000000) in let* y := (map_res dneg (positive 9223372036854775807 500000000)) in dsub x y);
  crashes (let* x := (positive 9223372036854775808 500000000) in let* y := (map_res dneg (positive 9223372036854775808 499999999)) in dsub x y);
  crashes (let* x := (negative 9223372036854775808 500000000) in let* y := (map_res dneg (negative 9223372036854775807 500000000)) in dsub x y);
  crashes (let* x := (negative 9223372036854775808 500000000) in let* y := (map_res dneg (negative 9223372036854775808 499999999)) in dsub x y)] = true.
Proof. vm_compute. reflexivity. Qed.

(* fundu-core/src/time.rs:1880: 18 assertions *)
Example test_fundu_duration_checked_add_then_overflow : all_pass [
  same (opt_eqb deqb) (let* x := (Ok MIN) in let* y := (Ok MIN) in checked_add x y) (Ok None);
  same (opt_eqb deqb) (let* x := (Ok MIN) in let* y := (negative 1 0) in checked_add x y) (Ok None);
  same (opt_eqb deqb) (let* x := (negative 1 0) in let* y := (Ok MIN) in checked_add x y) (Ok None);
  same (opt_eqb deqb) (let* x := (Ok MIN) in let* y := (negative 0 1) in checked_add x y) (Ok None);
  same (opt_eqb deqb) (let* x := (negative 0 1) in let* y := (Ok MIN) in checked_add x y) (Ok None);
  same (opt_eqb deqb) (let* x := (Ok MAX) in let* y := (Ok MAX) in checked_add x y) (Ok None);
  same (opt_eqb deqb) (let* x := (Ok MAX) in let* y := (positive 1 0) in checked_add x y) (Ok None);
  same (opt_eqb deqb) (let* x := (positive 1 0) in let* y := (Ok MAX) in checked_add x y) (Ok None);
  same (opt_eqb deqb) (let* x := (Ok MAX) in let* y := (positive 0 1) in checked_add x y) (Ok None);
  same (opt_eqb deqb) (let* x := (positive 0 1) in let* y := (Ok MAX) in checked_add x y) (Ok None);
  same (opt_eqb deqb) (let* x := (positive 9223372036854775808 500000000) in let* y := (positive 9223372036854775807 500000000) in checked_add x y) (Ok None);
  same (opt_eqb deqb) (let* x := (positive 9223372036854775807 500000000) in let* y := (positive 9223372036854775808 500000000) in checked_add x y) (Ok None);
  same (opt_eqb deqb) (let* x := (positive 9223372036854775808 500000000) in let* y := (positive 9223372036854775808 499999999) in checked_add x y) (Ok None);
  same (opt_eqb deqb) (let* x := (positive 9223372036854775808 499999999) in let* y := (positive 9223372036854775808 500000000) in checked_add x y) (Ok None);
  same (opt_eqb deqb) (let* x := (negative 9223372036854775808 500000000) in let* y := (negative 9223372036854775807 500000000) in checked_add x y) (Ok None);
  same (opt_eqb deqb) (let* x := (negative 9223372036854775807 500000000) in let* y := (negative 9223372036854775808 500000000) in checked_add x y) (Ok None);
  same (opt_eqb deqb) (let* x := (negative 9223372036854775808 500000000) in let* y := (negative 9223372036854775808 499999999) in checked_add x y) (Ok None);
  same (opt_eqb deqb) (let* x := (negative 9223372036854775808 499999999) in let* y := (negative 9223372036854775808 500000000) in checked_add x y) (Ok None)] = true.
Proof. vm_compute. reflexivity. Qed.

(* fundu-core/src/time.rs:1886: 10 assertions *)
Example test_fundu_duration_checked_sub_then_overflow : all_pass [
  same (opt_eqb deqb) (let* x := (Ok MIN) in let* y := (map_res dneg (Ok MIN)) in checked_sub x y) (Ok None);
  same (opt_eqb deqb) (let* x := (Ok MIN) in let* y := (map_res dneg (negative 1 0)) in checked_sub x y) (Ok None);
  same (opt_eqb deqb) (let* x := (Ok MIN) in let* y := (map_res dneg (negative 0 1)) in checked_sub x y) (Ok None);
  same (opt_eqb deqb) (let* x := (Ok MAX) in let* y := (map_res dneg (Ok MAX)) in checked_sub x y) (Ok None);
  same (opt_eqb deqb) (let* x := (Ok MAX) in let* y := (map_res dneg (positive 1 0)) in checked_sub x y) (Ok None);
  same (opt_eqb deqb) (let* x := (Ok MAX) in let* y := (map_res dneg (positive 0 1)) in checked_sub x y) (Ok None);
  same (opt_eqb deqb) (let* x := (positive 9223372036854775808 500000000) in let* y := (map_res dneg (positive 9223372036854775807 500000000)) in checked_sub x y) (Ok None);
  same (opt_eqb deqb) (let* x := (positive 9223372036854775808 500000000) in let* y := (map_res dneg (positive 9223372036854775808 499999999)) in checked_sub x y) (Ok None);
  same (opt_eqb deqb) (let* x := (negative 9223372036854775808 500000000) in let* y := (map_res dneg (negative 9223372036854775807 500000000)) in checked_sub x y) (Ok None);
  same (opt_eqb deqb) (let* x := (negative 9223372036854775808 500000000) in let* y := (map_res dneg (negative 9223372036854775808 499999999)) in checked_sub x y) (Ok None)] = true.
Proof. vm_compute. reflexivity. Qed.

(* fundu-core/src/time.rs:1891: 18 assertions *)
Example test_fundu_duration_saturating_add_then_saturate : all_pass [
  same deqb (let* x := (Ok MIN) in let* y := (Ok MIN) in saturating_add x y) (Ok MIN);
  same deqb (let* x := (Ok MIN) in let* y := (negative 1 0) in saturating_add x y) (Ok MIN);
  same deqb (let* x := (negative 1 0) in let* y := (Ok MIN) in saturating_add x y) (Ok MIN);
  same deqb (let* x := (Ok MIN) in let* y := (negative 0 1) in saturating_add x y) (Ok MIN);
  same deqb (let* x := (negative 0 1) in let* y := (Ok MIN) in saturating_add x y) (Ok MIN);
  same deqb (let* x := (Ok MAX) in let* y := (Ok MAX) in saturating_add x y) (Ok MAX);
  same deqb (let* x := (Ok MAX) in let* y := (positive 1 0) in saturating_add x y) (Ok MAX);
  same deqb (let* x := (positive 1 0) in let* y := (Ok MAX) in saturating_add x y) (Ok MAX);
  same deqb (let* x := (Ok MAX) in let* y := (positive 0 1) in saturating_add x y) (Ok MAX);
  same deqb (let* x := (positive 0 1) in let* y := (Ok MAX) in saturating_add x y) (Ok MAX);
  same deqb (let* x := (positive 9223372036854775808 500000000) in let* y := (positive 9223372036854775807 500000000) in saturating_add x y) (Ok MAX);
  same deqb (let* x := (positive 9223372036854775807 500000000) in let* y := (positive 9223372036854775808 500000000) in saturating_add x y) (Ok MAX);
  same deqb (let* x := (positive 9223372036854775808 500000000) in let* y := (positive 9223372036854775808 499999999) in saturating_add x y) (Ok MAX);
  same deqb (let* x := (positive 9223372036854775808 499999999) in let* y := (positive 9223372036854775808 500000000) in saturating_add x y) (Ok MAX);
  same deqb (let* x := (negative 9223372036854775808 500000000) in let* y := (negative 9223372036854775807 500000000) in saturating_add x y) (Ok MIN);
  same deqb (let* x := (negative 9223372036854775807 500000000) in let* y := (negative 9223372036854775808 500000000) in saturating_add x y) (Ok MIN);
  same deqb (let* x := (negative 9223372036854775808 500000000) in let* y := (negative 9223372036854775808 499999999) in saturating_add x y) (Ok MIN);
  same deqb (let* x := (negative 9223372036854775808 499999999) in let* y := (negative 9223372036854775808 500000000) in saturating_add x y) (Ok MIN)] = true.
Proof. vm_compute. reflexivity. Qed.

(* fundu-core/src/time.rs:1902: 10 assertions *)
Example test_fundu_duration_saturating_sub_then_saturate : all_pass [
  same deqb (let* x := (Ok MIN) in let* y := (map_res dneg (Ok MIN)) in saturating_sub x y) (Ok MIN);
  same deqb (let* x := (Ok MIN) in let* y := (map_res dneg (negative 1 0)) in saturating_sub x y) (Ok MIN);
  same deqb (let* x := (Ok MIN) in let* y := (map_res dneg (negative 0 1)) in saturating_sub x y) (Ok MIN);
  same deqb (let* x := (Ok MAX) in let* y := (map_res dneg (Ok MAX)) in saturating_sub x y) (Ok MAX);
  same deqb (let* x := (Ok MAX) in let* y := (map_res dneg (positive 1 0)) in saturating_sub x y) (Ok MAX);
  same deqb (let* x := (Ok MAX) in let* y := (map_res dneg (positive 0 1)) in saturating_sub x y) (Ok MAX);
  same deqb (let* x := (positive 9223372036854775808 500000000) in let* y := (map_res dneg (positive 9223372036854775807 500000000)) in saturating_sub x y) (Ok MAX);
  same deqb (let* x := (positive 9223372036854775808 500000000) in let* y := (map_res dneg (positive 9223372036854775808 499999999)) in saturating_sub x y) (Ok MAX);
  same deqb (let* x := (negative 9223372036854775808 500000000) in let* y := (map_res dneg (negative 9223372036854775807 500000000)) in saturating_sub x y) (Ok MIN);
  same deqb (let* x := (negative 9223372036854775808 500000000) in let* y := (map_res dneg (negative 9223372036854775808 499999999)) in saturating_sub x y) (Ok MIN)] = true.
Proof. vm_compute. reflexivity. Qed.

(* fundu-core/src/time.rs:1925: 11 assertions *)
Example test_fundu_duration_as_seconds : all_pass [
  same Z.eqb (map_res as_seconds (Ok ZERO)) (Ok 0);
  same Z.eqb (map_res as_seconds (positive 1 0)) (Ok 1);
  same Z.eqb (map_res as_seconds (positive 0 1)) (Ok 0);
  same Z.eqb (map_res as_seconds (positive 1 1)) (Ok 1);
  same Z.eqb (map_res as_seconds (negative 1 0)) (Ok (-1));
  same Z.eqb (map_res as_seconds (negative 0 1)) (Ok 0);
  same Z.eqb (map_res as_seconds (negative 1 1)) (Ok (-1));
  same Z.eqb (map_res as_seconds (positive 123456789 987654321)) (Ok 123456789);
  same Z.eqb (map_res as_seconds (negative 123456789 987654321)) (Ok (-123456789));
  same Z.eqb (map_res as_seconds (Ok MIN)) (Ok (-18446744073709551615));
  same Z.eqb (map_res as_seconds (Ok MAX)) (Ok 18446744073709551615)] = true.
Proof. vm_compute. reflexivity. Qed.

(* fundu-core/src/time.rs:1941: 132 assertions *)
Example test_fundu_duration_as_whole : all_pass [
  same Z.eqb (let* x := (Ok ZERO) in as_whole x 2) (Ok 0);
  same Z.eqb (let* x := (map_res dneg (Ok ZERO)) in as_whole x 2) (Ok 0);
  same Z.eqb (let* x := (Ok ZERO) in as_whole x 3) (Ok 0);
  same Z.eqb (let* x := (map_res dneg (Ok ZERO)) in as_whole x 3) (Ok 0);
  same Z.eqb (let* x := (Ok ZERO) in as_whole x 4) (Ok 0);
  same Z.eqb (let* x := (map_res dneg (Ok ZERO)) in as_whole x 4) (Ok 0);
  same Z.eqb (let* x := (Ok ZERO) in as_whole x 60) (Ok 0);
  same Z.eqb (let* x := (map_res dneg (Ok ZERO)) in as_whole x 60) (Ok 0);
  same Z.eqb (let* x := (Ok ZERO) in as_whole x 9223372036854775807) (Ok 0);
  same Z.eqb (let* x := (map_res dneg (Ok ZERO)) in as_whole x 9223372036854775807) (Ok 0);
  same Z.eqb (let* x := (Ok ZERO) in as_whole x 18446744073709551615) (Ok 0);
  same Z.eqb (let* x := (map_res dneg (Ok ZERO)) in as_whole x 18446744073709551615) (Ok 0);
  same Z.eqb (let* x := (positive 1 0) in as_whole x 2) (Ok 0);
  same Z.eqb (let* x := (map_res dneg (positive 1 0)) in as_whole x 2) (Ok 0);
  same Z.eqb (let* x := (positive 1 0) in as_whole x 3) (Ok 0);
  same Z.eqb (let* x := (map_res dneg (positive 1 0)) in as_whole x 3) (Ok 0);
  same Z.eqb (let* x := (positive 1 0) in as_whole x 4) (Ok 0);
  same Z.eqb (let* x := (map_res dneg (positive 1 0)) in as_whole x 4) (Ok 0);
  same Z.eqb (let* x := (positive 1 0) in as_whole x 60) (Ok 0);
  same Z.eqb (let* x := (map_res dneg (positive 1 0)) in as_whole x 60) (Ok 0);
  same Z.eqb (let* x := (positive 1 0) in as_whole x 9223372036854775807) (Ok 0);
  same Z.eqb (let* x := (map_res dneg (positive 1 0)) in as_whole x 9223372036854775807) (Ok 0);
  same Z.eqb (let* x := (positive 1 0) in as_whole x 18446744073709551615) (Ok 0);
  same Z.eqb (let* x := (map_res dneg (positive 1 0)) in as_whole x 18446744073709551615) (Ok 0);
  same Z.eqb (let* x := (positive 0 1) in as_whole x 2) (Ok 0);
  same Z.eqb (let* x := (map_res dneg (positive 0 1)) in as_whole x 2) (Ok 0);
  same Z.eqb (let* x := (positive 0 1) in as_whole x 3) (Ok 0);
  same Z.eqb (let* x := (map_res dneg (positive 0 1)) in as_whole x 3) (Ok 0);
  same Z.eqb (let* x := (positive 0 1) in as_whole x 4) (Ok 0);
  same Z.eqb (let* x := (map_res dneg (positive 0 1)) in as_whole x 4) (Ok 0);
  same Z.eqb (let* x := (positive 0 1) in as_whole x 60) (Ok 0);
  same Z.eqb (let* x := (map_res dneg (positive 0 1)) in as_whole x 60) (Ok 0);
  same Z.eqb (let* x := (positive 0 1) in as_whole x 9223372036854775807) (Ok 0);
  same Z.eqb (let* x := (map_res dneg (positive 0 1)) in as_whole x 9223372036854775807) (Ok 0);
  same Z.eqb (let* x := (positive 0 1) in as_whole x 18446744073709551615) (Ok 0);
  same Z.eqb (let* x := (map_res dneg (positive 0 1)) in as_whole x 18446744073709551615) (Ok 0);
  same Z.eqb (let* x := (positive 1 1) in as_whole x 2) (Ok 0);
  same Z.eqb (let* x := (map_res dneg (positive 1 1)) in as_whole x 2) (Ok 0);
  same Z.eqb (let* x := (positive 1 1) in as_whole x 3) (Ok 0);
  same Z.eqb (let* x := (map_res dneg (positive 1 1)) in as_whole x 3) (Ok 0);
  same Z.eqb (let* x := (positive 1 1) in as_whole x 4) (Ok 0);
  same Z.eqb (let* x := (map_res dneg (positive 1 1)) in as_whole x 4) (Ok 0);
  same Z.eqb (let* x := (positive 1 1) in as_whole x 60) (Ok 0);
  same Z.eqb (let* x := (map_res dneg (positive 1 1)) in as_whole x 60) (Ok 0);
  same Z.eqb (let* x := (positive 1 1) in as_whole x 9223372036854775807) (Ok 0);
  same Z.eqb (let* x := (map_res dneg (positive 1 1)) in as_whole x 9223372036854775807) (Ok 0);
  same Z.eqb (let* x := (positive 1 1) in as_whole x 18446744073709551615) (Ok 0);
  same Z.eqb (let* x := (map_res dneg (positive 1 1)) in as_whole x 18446744073709551615) (Ok 0);
  same Z.eqb (let* x := (positive 60 0) in as_whole x 2) (Ok 30);
  same Z.eqb (let* x := (map_res dneg (positive 60 0)) in as_whole x 2) (Ok (-30));
  same Z.eqb (let* x := (positive 60 0) in as_whole x 3) (Ok 20);
  same Z.eqb (let* x := (map_res dneg (positive 60 0)) in as_whole x 3) (Ok (-20));
  same Z.eqb (let* x := (positive 60 0) in as_whole x 4) (Ok 15);
  same Z.eqb (let* x := (map_res dneg (positive 60 0)) in as_whole x 4) (Ok (-15));
  same Z.eqb (let* x := (positive 60 0) in as_whole x 60) (Ok 1);
  same Z.eqb (let* x := (map_res dneg (positive 60 0)) in as_whole x 60) (Ok (-1));
  same Z.eqb (let* x := (positive 60 0) in as_whole x 9223372036854775807) (Ok 0);
  same Z.eqb (let* x := (map_res dneg (positive 60 0)) in as_whole x 9223372036854775807) (Ok 0);
  same Z.eqb (let* x := (positive 60 0) in as_whole x 18446744073709551615) (Ok 0);
  same Z.eqb (let* x := (map_res dneg (positive 60 0)) in as_whole x 18446744073709551615) (Ok 0);
  same Z.eqb (let* x := (positive 61 0) in as_whole x 2) (Ok 30);
  same Z.eqb (let* x := (map_res dneg (positive 61 0)) in as_whole x 2) (Ok (-30));
  same Z.eqb (let* x := (positive 61 0) in as_whole x 3) (Ok 20);
  same Z.eqb (let* x := (map_res dneg (positive 61 0)) in as_whole x 3) (Ok (-20));
  same Z.eqb (let* x := (positive 61 0) in as_whole x 4) (Ok 15);
  same Z.eqb (let* x := (map_res dneg (positive 61 0)) in as_whole x 4) (Ok (-15));
  same Z.eqb (let* x := (positive 61 0) in as_whole x 60) (Ok 1);
  same Z.eqb (let* x := (map_res dneg (positive 61 0)) in as_whole x 60) (Ok (-1));
  same Z.eqb (let* x := (positive 61 0) in as_whole x 9223372036854775807) (Ok 0);
  same Z.eqb (let* x := (map_res dneg (positive 61 0)) in as_whole x 9223372036854775807) (Ok 0);
  same Z.eqb (let* x := (positive 61 0) in as_whole x 18446744073709551615) (Ok 0);
  same Z.eqb (let* x := (map_res dneg (positive 61 0)) in as_whole x 18446744073709551615) (Ok 0);
  same Z.eqb (let* x := (positive 59 0) in as_whole x 2) (Ok 29);
  same Z.eqb (let* x := (map_res dneg (positive 59 0)) in as_whole x 2) (Ok (-29));
  same Z.eqb (let* x := (positive 59 0) in as_whole x 3) (Ok 19);
  same Z.eqb (let* x := (map_res dneg (positive 59 0)) in as_whole x 3) (Ok (-19));
  same Z.eqb (let* x := (positive 59 0) in as_whole x 4) (Ok 14);
  same Z.eqb (let* x := (map_res dneg (positive 59 0)) in as_whole x 4) (Ok (-14));
  same Z.eqb (let* x := (positive 59 0) in as_whole x 60) (Ok 0);
  same Z.eqb (let* x := (map_res dneg (positive 59 0)) in as_whole x 60) (Ok 0);
  same Z.eqb (let* x := (positive 59 0) in as_whole x 9223372036854775807) (Ok 0);
  same Z.eqb (let* x := (map_res dneg (positive 59 0)) in as_whole x 9223372036854775807) (Ok 0);
  same Z.eqb (let* x := (positive 59 0) in as_whole x 18446744073709551615) (Ok 0);
  same Z.eqb (let* x := (map_res dneg (positive 59 0)) in as_whole x 18446744073709551615) (Ok 0);
  same Z.eqb (let* x := (positive 120 0) in as_whole x 2) (Ok 60);
  same Z.eqb (let* x := (map_res dneg (positive 120 0)) in as_whole x 2) (Ok (-60));
  same Z.eqb (let* x := (positive 120 0) in as_whole x 3) (Ok 40);
  same Z.eqb (let* x := (map_res dneg (positive 120 0)) in as_whole x 3) (Ok (-40));
  same Z.eqb (let* x := (positive 120 0) in as_whole x 4) (Ok 30);
  same Z.eqb (let* x := (map_res dneg (positive 120 0)) in as_whole x 4) (Ok (-30));
  same Z.eqb (let* x := (positive 120 0) in as_whole x 60) (Ok 2);
  same Z.eqb (let* x := (map_res dneg (positive 120 0)) in as_whole x 60) (Ok (-2));
  same Z.eqb (let* x := (positive 120 0) in as_whole x 9223372036854775807) (Ok 0);
  same Z.eqb (let* x := (map_res dneg (positive 120 0)) in as_whole x 9223372036854775807) (Ok 0);
  same Z.eqb (let* x := (positive 120 0) in as_whole x 18446744073709551615) (Ok 0);
  same Z.eqb (let* x := (map_res dneg (positive 120 0)) in as_whole x 18446744073709551615) (Ok 0);
  same Z.eqb (let* x := (positive 123456789 987654321) in as_whole x 2) (Ok 61728394);
  same Z.eqb (let* x := (map_res dneg (positive 123456789 987654321)) in as_whole x 2) (Ok (-61728394));
  same Z.eqb (let* x := (positive 123456789 987654321) in as_whole x 3) (Ok 41152263);
  same Z.eqb (let* x := (map_res dneg (positive 123456789 987654321)) in as_whole x 3) (Ok (-41152263));
  same Z.eqb (let* x := (positive 123456789 987654321) in as_whole x 4) (Ok 30864197);
  same Z.eqb (let* x := (map_res dneg (positive 123456789 987654321)) in as_whole x 4) (Ok (-30864197));
  same Z.eqb (let* x := (positive 123456789 987654321) in as_whole x 60) (Ok 2057613);
  same Z.eqb (let* x := (map_res dneg (positive 123456789 987654321)) in as_whole x 60) (Ok (-2057613));
  same Z.eqb (let* x := (positive 123456789 987654321) in as_whole x 9223372036854775807) (Ok 0);
  same Z.eqb (let* x := (map_res dneg (positive 123456789 987654321)) in as_whole x 9223372036854775807) (Ok 0);
  same Z.eqb (let* x := (positive 123456789 987654321) in as_whole x 18446744073709551615) (Ok 0);
  same Z.eqb (let* x := (map_res dneg (positive 123456789 987654321)) in as_whole x 18446744073709551615) (Ok 0);
  same Z.eqb (let* x := (Ok MIN) in as_whole x 2) (Ok (-9223372036854775807));
  same Z.eqb (let* x := (map_res dneg (Ok MIN)) in as_whole x 2) (Ok 9223372036854775807);
  same Z.eqb (let* x := (Ok MIN) in as_whole x 3) (Ok (-6148914691236517205));
  same Z.eqb (let* x := (map_res dneg (Ok MIN)) in as_whole x 3) (Ok 6148914691236517205);
  same Z.eqb (let* x := (Ok MIN) in as_whole x 4) (Ok (-4611686018427387903));
  same Z.eqb (let* x := (map_res dneg (Ok MIN)) in as_whole x 4) (Ok 4611686018427387903);
  same Z.eqb (let* x := (Ok MIN) in as_whole x 60) (Ok (-307445734561825860));
  same Z.eqb (let* x := (map_res dneg (Ok MIN)) in as_whole x 60) (Ok 307445734561825860);
  same Z.eqb (let* x := (Ok MIN) in as_whole x 9223372036854775807) (Ok (-2));
  same Z.eqb (let* x := (map_res dneg (Ok MIN)) in as_whole x 9223372036854775807) (Ok 2);
  same Z.eqb (let* x := (Ok MIN) in as_whole x 18446744073709551615) (Ok (-1));
  same Z.eqb (let* x := (map_res dneg (Ok MIN)) in as_whole x 18446744073709551615) (Ok 1);
  same Z.eqb (let* x := (Ok MAX) in as_whole x 2) (Ok 9223372036854775807);
  same Z.eqb (let* x := (map_res dneg (Ok MAX)) in as_whole x 2) (Ok (-9223372036854775807));
  same Z.eqb (let* x := (Ok MAX) in as_whole x 3) (Ok 6148914691236517205);
  same Z.eqb (let* x := (map_res dneg (Ok MAX)) in as_whole x 3) (Ok (-6148914691236517205));
  same Z.eqb (let* x := (Ok MAX) in as_whole x 4) (Ok 4611686018427387903);
  same Z.eqb (let* x := (map_res dneg (Ok MAX)) in as_whole x 4) (Ok (-4611686018427387903));
  same Z.eqb (let* x := (Ok MAX) in as_whole x 60) (Ok 307445734561825860);
  same Z.eqb (let* x := (map_res dneg (Ok MAX)) in as_whole x 60) (Ok (-307445734561825860));
  same Z.eqb (let* x := (Ok MAX) in as_whole x 9223372036854775807) (Ok 2);
  same Z.eqb (let* x := (map_res dneg (Ok MAX)) in as_whole x 9223372036854775807) (Ok (-2));
  same Z.eqb (let* x := (Ok MAX) in as_whole x 18446744073709551615) (Ok 1);
  same Z.eqb (let* x := (map_res dneg (Ok MAX)) in as_whole x 18446744073709551615) (Ok (-1))] = true.
Proof. vm_compute. reflexivity. Qed.

(* fundu-core/src/time.rs:1957: 6 assertions *)
Example test_fundu_duration_as_weeks : all_pass [
  same Z.eqb (let* x := (positive 604800 0) in as_weeks x) (Ok 1);
  same Z.eqb (let* x := (map_res dneg (positive 604800 0)) in as_weeks x) (Ok (-1));
  same Z.eqb (let* x := (positive 604801 0) in as_weeks x) (Ok 1);
  same Z.eqb (let* x := (map_res dneg (positive 604801 0)) in as_weeks x) (Ok (-1));
  same Z.eqb (let* x := (positive 604799 0) in as_weeks x) (Ok 0);
  same Z.eqb (let* x := (map_res dneg (positive 604799 0)) in as_weeks x) (Ok 0)] = true.
Proof. vm_compute. reflexivity. Qed.

(* fundu-core/src/time.rs:1968: 6 assertions *)
Example test_fundu_duration_as_days : all_pass [
  same Z.eqb (let* x := (positive 86400 0) in as_days x) (Ok 1);
  same Z.eqb (let* x := (map_res dneg (positive 86400 0)) in as_days x) (Ok (-1));
  same Z.eqb (let* x := (positive 86401 0) in as_days x) (Ok 1);
  same Z.eqb (let* x := (map_res dneg (positive 86401 0)) in as_days x) (Ok (-1));
  same Z.eqb (let* x := (positive 86399 0) in as_days x) (Ok 0);
  same Z.eqb (let* x := (map_res dneg (positive 86399 0)) in as_days x) (Ok 0)] = true.
Proof. vm_compute. reflexivity. Qed.

(* fundu-core/src/time.rs:1979: 6 assertions *)
Example test_fundu_duration_as_hours : all_pass [
  same Z.eqb (let* x := (positive 3600 0) in as_hours x) (Ok 1);
  same Z.eqb (let* x := (map_res dneg (positive 3600 0)) in as_hours x) (Ok (-1));
  same Z.eqb (let* x := (positive 3601 0) in as_hours x) (Ok 1);
  same Z.eqb (let* x := (map_res dneg (positive 3601 0)) in as_hours x) (Ok (-1));
  same Z.eqb (let* x := (positive 3599 0) in as_hours x) (Ok 0);
  same Z.eqb (let* x := (map_res dneg (positive 3599 0)) in as_hours x) (Ok 0)] = true.
Proof. vm_compute. reflexivity. Qed.

(* fundu-core/src/time.rs:1990: 6 assertions *)
Example test_fundu_duration_as_minutes : all_pass [
  same Z.eqb (let* x := (positive 60 0) in as_minutes x) (Ok 1);
  same Z.eqb (let* x := (map_res dneg (positive 60 0)) in as_minutes x) (Ok (-1));
  same Z.eqb (let* x := (positive 61 0) in as_minutes x) (Ok 1);
  same Z.eqb (let* x := (map_res dneg (positive 61 0)) in as_minutes x) (Ok (-1));
  same Z.eqb (let* x := (positive 59 0) in as_minutes x) (Ok 0);
  same Z.eqb (let* x := (map_res dneg (positive 59 0)) in as_minutes x) (Ok 0)] = true.
Proof. vm_compute. reflexivity. Qed.

(* fundu-core/src/time.rs:2014: 20 assertions *)
Example test_fundu_duration_as_nanos : all_pass [
  same Z.eqb (let* x := (Ok ZERO) in as_nanos x) (Ok 0);
  same Z.eqb (let* x := (map_res dneg (Ok ZERO)) in as_nanos x) (Ok 0);
  same Z.eqb (let* x := (positive 1 0) in as_nanos x) (Ok 1000000000);
  same Z.eqb (let* x := (map_res dneg (positive 1 0)) in as_nanos x) (Ok (-1000000000));
  same Z.eqb (let* x := (positive 1 1) in as_nanos x) (Ok 1000000001);
  same Z.eqb (let* x := (map_res dneg (positive 1 1)) in as_nanos x) (Ok (-1000000001));
  same Z.eqb (let* x := (positive 2 0) in as_nanos x) (Ok 2000000000);
  same Z.eqb (let* x := (map_res dneg (positive 2 0)) in as_nanos x) (Ok (-2000000000));
  same Z.eqb (let* x := (positive 2 1) in as_nanos x) (Ok 2000000001);
  same Z.eqb (let* x := (map_res dneg (positive 2 1)) in as_nanos x) (Ok (-2000000001));
  same Z.eqb (let* x := (positive 2 1000) in as_nanos x) (Ok 2000001000);
  same Z.eqb (let* x := (map_res dneg (positive 2 1000)) in as_nanos x) (Ok (-2000001000));
  same Z.eqb (let* x := (positive 2 1000000) in as_nanos x) (Ok 2001000000);
  same Z.eqb (let* x := (map_res dneg (positive 2 1000000)) in as_nanos x) (Ok (-2001000000));
  same Z.eqb (let* x := (positive 123456789 987654321) in as_nanos x) (Ok 123456789987654321);
  same Z.eqb (let* x := (map_res dneg (positive 123456789 987654321)) in as_nanos x) (Ok (-123456789987654321));
  same Z.eqb (let* x := (Ok MAX) in as_nanos x) (Ok 18446744073709551615999999999);
  same Z.eqb (let* x := (map_res dneg (Ok MAX)) in as_nanos x) (Ok (-18446744073709551615999999999));
  same Z.eqb (let* x := (Ok MIN) in as_nanos x) (Ok (-18446744073709551615999999999));
  same Z.eqb (let* x := (map_res dneg (Ok MIN)) in as_nanos x) (Ok 18446744073709551615999999999)] = true.
Proof. vm_compute. reflexivity. Qed.

(* fundu-core/src/time.rs:2020: 20 assertions *)
Example test_fundu_duration_as_micros : all_pass [
  same Z.eqb (let* x := (Ok ZERO) in as_micros x) (Ok 0);
  same Z.eqb (let* x := (map_res dneg (Ok ZERO)) in as_micros x) (Ok 0);
  same Z.eqb (let* x := (positive 1 0) in as_micros x) (Ok 1000000);
  same Z.eqb (let* x := (map_res dneg (positive 1 0)) in as_micros x) (Ok (-1000000));
  same Z.eqb (let* x := (positive 1 1) in as_micros x) (Ok 1000000);
  same Z.eqb (let* x := (map_res dneg (positive 1 1)) in as_micros x) (Ok (-1000000));
  same Z.eqb (let* x := (positive 2 0) in as_micros x) (Ok 2000000);
  same Z.eqb (let* x := (map_res dneg (positive 2 0)) in as_micros x) (Ok (-2000000));
  same Z.eqb (let* x := (positive 2 1) in as_micros x) (Ok 2000000);
  same Z.eqb (let* x := (map_res dneg (positive 2 1)) in as_micros x) (Ok (-2000000));
  same Z.eqb (let* x := (positive 2 1000) in as_micros x) (Ok 2000001);
  same Z.eqb (let* x := (map_res dneg (positive 2 1000)) in as_micros x) (Ok (-2000001));
  same Z.eqb (let* x := (positive 2 1000000) in as_micros x) (Ok 2001000);
  same Z.eqb (let* x := (map_res dneg (positive 2 1000000)) in as_micros x) (Ok (-2001000));
  same Z.eqb (let* x := (positive 123456789 987654321) in as_micros x) (Ok 123456789987654);
  same Z.eqb (let* x := (map_res dneg (positive 123456789 987654321)) in as_micros x) (Ok (-123456789987654));
  same Z.eqb (let* x := (Ok MAX) in as_micros x) (Ok 18446744073709551615999999);
  same Z.eqb (let* x := (map_res dneg (Ok MAX)) in as_micros x) (Ok (-18446744073709551615999999));
  same Z.eqb (let* x := (Ok MIN) in as_micros x) (Ok (-18446744073709551615999999));
  same Z.eqb (let* x := (map_res dneg (Ok MIN)) in as_micros x) (Ok 18446744073709551615999999)] = true.
Proof. vm_compute. reflexivity. Qed.

(* fundu-core/src/time.rs:2026: 20 assertions *)
Example test_fundu_duration_as_millis : all_pass [
  same Z.eqb (let* x := (Ok ZERO) in as_millis x) (Ok 0);
  same Z.eqb (let* x := (map_res dneg (Ok ZERO)) in as_millis x) (Ok 0);
  same Z.eqb (let* x := (positive 1 0) in as_millis x) (Ok 1000);
  same Z.eqb (let* x := (map_res dneg (positive 1 0)) in as_millis x) (Ok (-1000));
  same Z.eqb (let* x := (positive 1 1) in as_millis x) (Ok 1000);
  same Z.eqb (let* x := (map_res dneg (positive 1 1)) in as_millis x) (Ok (-1000));
  same Z.eqb (let* x := (positive 2 0) in as_millis x) (Ok 2000);
  same Z.eqb (let* x := (map_res dneg (positive 2 0)) in as_millis x) (Ok (-2000));
  same Z.eqb (let* x := (positive 2 1) in as_millis x) (Ok 2000);
  same Z.eqb (let* x := (map_res dneg (positive 2 1)) in as_millis x) (Ok (-2000));
  same Z.eqb (let* x := (positive 2 1000) in as_millis x) (Ok 2000);
  same Z.eqb (let* x := (map_res dneg (positive 2 1000)) in as_millis x) (Ok (-2000));
  same Z.eqb (let* x := (positive 2 1000000) in as_millis x) (Ok 2001);
  same Z.eqb (let* x := (map_res dneg (positive 2 1000000)) in as_millis x) (Ok (-2001));
  same Z.eqb (let* x := (positive 123456789 987654321) in as_millis x) (Ok 123456789987);
  same Z.eqb (let* x := (map_res dneg (positive 123456789 987654321)) in as_millis x) (Ok (-123456789987));
  same Z.eqb (let* x := (Ok MAX) in as_millis x) (Ok 18446744073709551615999);
  same Z.eqb (let* x := (map_res dneg (Ok MAX)) in as_millis x) (Ok (-18446744073709551615999));
  same Z.eqb (let* x := (Ok MIN) in as_millis x) (Ok (-18446744073709551615999));
  same Z.eqb (let* x := (map_res dneg (Ok MIN)) in as_millis x) (Ok 18446744073709551615999)] = true.
Proof. vm_compute. reflexivity. Qed.

(* fundu-core/src/time.rs:2045: 18 assertions *)
Example test_fundu_duration_subsec_nanos : all_pass [
  same Z.eqb (let* x := (Ok ZERO) in subsec_nanos x) (Ok 0);
  same Z.eqb (let* x := (map_res dneg (Ok ZERO)) in subsec_nanos x) (Ok 0);
  same Z.eqb (let* x := (positive 1 0) in subsec_nanos x) (Ok 0);
  same Z.eqb (let* x := (map_res dneg (positive 1 0)) in subsec_nanos x) (Ok 0);
  same Z.eqb (let* x := (positive 1 1) in subsec_nanos x) (Ok 1);
  same Z.eqb (let* x := (map_res dneg (positive 1 1)) in subsec_nanos x) (Ok (-1));
  same Z.eqb (let* x := (positive 0 2) in subsec_nanos x) (Ok 2);
  same Z.eqb (let* x := (map_res dneg (positive 0 2)) in subsec_nanos x) (Ok (-2));
  same Z.eqb (let* x := (positive 0 1000) in subsec_nanos x) (Ok 1000);
  same Z.eqb (let* x := (map_res dneg (positive 0 1000)) in subsec_nanos x) (Ok (-1000));
  same Z.eqb (let* x := (positive 0 1000000) in subsec_nanos x) (Ok 1000000);
  same Z.eqb (let* x := (map_res dneg (positive 0 1000000)) in subsec_nanos x) (Ok (-1000000));
  same Z.eqb (let* x := (positive 0 123456789) in subsec_nanos x) (Ok 123456789);
  same Z.eqb (let* x := (map_res dneg (positive 0 123456789)) in subsec_nanos x) (Ok (-123456789));
  same Z.eqb (let* x := (Ok MAX) in subsec_nanos x) (Ok 999999999);
  same Z.eqb (let* x := (map_res dneg (Ok MAX)) in subsec_nanos x) (Ok (-999999999));
  same Z.eqb (let* x := (Ok MIN) in subsec_nanos x) (Ok (-999999999));
  same Z.eqb (let* x := (map_res dneg (Ok MIN)) in subsec_nanos x) (Ok 999999999)] = true.
Proof. vm_compute. reflexivity. Qed.

(* fundu-core/src/time.rs:2051: 18 assertions *)
Example test_fundu_duration_subsec_micros : all_pass [
  same Z.eqb (let* x := (Ok ZERO) in subsec_micros x) (Ok 0);
  same Z.eqb (let* x := (map_res dneg (Ok ZERO)) in subsec_micros x) (Ok 0);
  same Z.eqb (let* x := (positive 1 0) in subsec_micros x) (Ok 0);
  same Z.eqb (let* x := (map_res dneg (positive 1 0)) in subsec_micros x) (Ok 0);
  same Z.eqb (let* x := (positive 1 1) in subsec_micros x) (Ok 0);
  same Z.eqb (let* x := (map_res dneg (positive 1 1)) in subsec_micros x) (Ok 0);
  same Z.eqb (let* x := (positive 0 2) in subsec_micros x) (Ok 0);
  same Z.eqb (let* x := (map_res dneg (positive 0 2)) in subsec_micros x) (Ok 0);
  same Z.eqb (let* x := (positive 0 1000) in subsec_micros x) (Ok 1);
  same Z.eqb (let* x := (map_res dneg (positive 0 1000)) in subsec_micros x) (Ok (-1));
  same Z.eqb (let* x := (positive 0 1000000) in subsec_micros x) (Ok 1000);
  same Z.eqb (let* x := (map_res dneg (positive 0 1000000)) in subsec_micros x) (Ok (-1000));
  same Z.eqb (let* x := (positive 0 123456789) in subsec_micros x) (Ok 123456);
  same Z.eqb (let* x := (map_res dneg (positive 0 123456789)) in subsec_micros x) (Ok (-123456));
  same Z.eqb (let* x := (Ok MAX) in subsec_micros x) (Ok 999999);
  same Z.eqb (let* x := (map_res dneg (Ok MAX)) in subsec_micros x) (Ok (-999999));
  same Z.eqb (let* x := (Ok MIN) in subsec_micros x) (Ok (-999999));
  same Z.eqb (let* x := (map_res dneg (Ok MIN)) in subsec_micros x) (Ok 999999)] = true.
Proof. vm_compute. reflexivity. Qed.

(* fundu-core/src/time.rs:2058: 18 assertions *)
Example test_fundu_duration_subsec_millis : all_pass [
  same Z.eqb (let* x := (Ok ZERO) in subsec_millis x) (Ok 0);
  same Z.eqb (let* x := (map_res dneg (Ok ZERO)) in subsec_millis x) (Ok 0);
  same Z.eqb (let* x := (positive 1 0) in subsec_millis x) (Ok 0);
  same Z.eqb (let* x := (map_res dneg (positive 1 0)) in subsec_millis x) (Ok 0);
  same Z.eqb (let* x := (positive 1 1) in subsec_millis x) (Ok 0);
  same Z.eqb (let* x := (map_res dneg (positive 1 1)) in subsec_millis x) (Ok 0);
  same Z.eqb (let* x := (positive 0 2) in subsec_millis x) (Ok 0);
  same Z.eqb (let* x := (map_res dneg (positive 0 2)) in subsec_millis x) (Ok 0);
  same Z.eqb (let* x := (positive 0 1000) in subsec_millis x) (Ok 0);
  same Z.eqb (let* x := (map_res dneg (positive 0 1000)) in subsec_millis x) (Ok 0);
  same Z.eqb (let* x := (positive 0 1000000) in subsec_millis x) (Ok 1);
  same Z.eqb (let* x := (map_res dneg (positive 0 1000000)) in subsec_millis x) (Ok (-1));
  same Z.eqb (let* x := (positive 0 123456789) in subsec_millis x) (Ok 123);
  same Z.eqb (let* x := (map_res dneg (positive 0 123456789)) in subsec_millis x) (Ok (-123));
  same Z.eqb (let* x := (Ok MAX) in subsec_millis x) (Ok 999);
  same Z.eqb (let* x := (map_res dneg (Ok MAX)) in subsec_millis x) (Ok (-999));
  same Z.eqb (let* x := (Ok MIN) in subsec_millis x) (Ok (-999));
  same Z.eqb (let* x := (map_res dneg (Ok MIN)) in subsec_millis x) (Ok 999)] = true.
Proof. vm_compute. reflexivity. Qed.

(* fundu-core/src/time.rs:2076: 154 assertions *)
Example test_fundu_duration_extract_i64 : all_pass [
  same Z.eqb (let* x := (Ok ZERO) in map_res fst (extract_i64 x 2)) (Ok 0);
  same deqb (let* x := (Ok ZERO) in map_res snd (extract_i64 x 2)) (map_res (from_std false) (std_new 0 0));
  same Z.eqb (let* x := (Ok ZERO) in map_res fst (extract_i64 x 3)) (Ok 0);
  same deqb (let* x := (Ok ZERO) in map_res snd (extract_i64 x 3)) (map_res (from_std false) (std_new 0 0));
  same Z.eqb (let* x := (Ok ZERO) in map_res fst (extract_i64 x 4)) (Ok 0);
  same deqb (let* x := (Ok ZERO) in map_res snd (extract_i64 x 4)) (map_res (from_std false) (std_new 0 0));
  same Z.eqb (let* x := (Ok ZERO) in map_res fst (extract_i64 x 5)) (Ok 0);
  same deqb (let* x := (Ok ZERO) in map_res snd (extract_i64 x 5)) (map_res (from_std false) (std_new 0 0));
  same Z.eqb (let* x := (Ok ZERO) in map_res fst (extract_i64 x 60)) (Ok 0);
  same deqb (let* x := (Ok ZERO) in map_res snd (extract_i64 x 60)) (map_res (from_std false) (std_new 0 0));
  same Z.eqb (let* x := (Ok ZERO) in map_res fst (extract_i64 x 9223372036854775807)) (Ok 0);
  same deqb (let* x := (Ok ZERO) in map_res snd (extract_i64 x 9223372036854775807)) (map_res (from_std false) (std_new 0 0));
  same Z.eqb (let* x := (Ok ZERO) in map_res fst (extract_i64 x 18446744073709551615)) (Ok 0);
  same deqb (let* x := (Ok ZERO) in map_res snd (extract_i64 x 18446744073709551615)) (map_res (from_std false) (std_new 0 0));
  same Z.eqb (let* x := (positive 1 0) in map_res fst (extract_i64 x 2)) (Ok 0);
  same deqb (let* x := (positive 1 0) in map_res snd (extract_i64 x 2)) (map_res (from_std false) (std_new 1 0));
  same Z.eqb (let* x := (positive 1 0) in map_res fst (extract_i64 x 3)) (Ok 0);
  same deqb (let* x := (positive 1 0) in map_res snd (extract_i64 x 3)) (map_res (from_std false) (std_new 1 0));
  same Z.eqb (let* x := (positive 1 0) in map_res fst (extract_i64 x 4)) (Ok 0);
  same deqb (let* x := (positive 1 0) in map_res snd (extract_i64 x 4)) (map_res (from_std false) (std_new 1 0));
  same Z.eqb (let* x := (positive 1 0) in map_res fst (extract_i64 x 5)) (Ok 0);
  same deqb (let* x := (positive 1 0) in map_res snd (extract_i64 x 5)) (map_res (from_std false) (std_new 1 0));
  same Z.eqb (let* x := (positive 1 0) in map_res fst (extract_i64 x 60)) (Ok 0);
  same deqb (let* x := (positive 1 0) in map_res snd (extract_i64 x 60)) (map_res (from_std false) (std_new 1 0));
  same Z.eqb (let* x := (positive 1 0) in map_res fst (extract_i64 x 9223372036854775807)) (Ok 0);
  same deqb (let* x := (positive 1 0) in map_res snd (extract_i64 x 9223372036854775807)) (map_res (from_std false) (std_new 1 0));
  same Z.eqb (let* x := (positive 1 0) in map_res fst (extract_i64 x 18446744073709551615)) (Ok 0);
  same deqb (let* x := (positive 1 0) in map_res snd (extract_i64 x 18446744073709551615)) (map_res (from_std false) (std_new 1 0));
  same Z.eqb (let* x := (positive 1 1) in map_res fst (extract_i64 x 2)) (Ok 0);
  same deqb (let* x := (positive 1 1) in map_res snd (extract_i64 x 2)) (map_res (from_std false) (std_new 1 1));
  same Z.eqb (let* x := (positive 1 1) in map_res fst (extract_i64 x 3)) (Ok 0);
  same deqb (let* x := (positive 1 1) in map_res snd (extract_i64 x 3)) (map_res (from_std false) (std_new 1 1));
  same Z.eqb (let* x := (positive 1 1) in map_res fst (extract_i64 x 4)) (Ok 0);
  same deqb (let* x := (positive 1 1) in map_res snd (extract_i64 x 4)) (map_res (from_std false) (std_new 1 1));
  same Z.eqb (let* x := (positive 1 1) in map_res fst (extract_i64 x 5)) (Ok 0);
  same deqb (let* x := (positive 1 1) in map_res snd (extract_i64 x 5)) (map_res (from_std false) (std_new 1 1));
  same Z.eqb (let* x := (positive 1 1) in map_res fst (extract_i64 x 60)) (Ok 0);
  same deqb (let* x := (positive 1 1) in map_res snd (extract_i64 x 60)) (map_res (from_std false) (std_new 1 1));
  same Z.eqb (let* x := (positive 1 1) in map_res fst (extract_i64 x 9223372036854775807)) (Ok 0);
  same deqb (let* x := (positive 1 1) in map_res snd (extract_i64 x 9223372036854775807)) (map_res (from_std false) (std_new 1 1));
  same Z.eqb (let* x := (positive 1 1) in map_res fst (extract_i64 x 18446744073709551615)) (Ok 0);
  same deqb (let* x := (positive 1 1) in map_res snd (extract_i64 x 18446744073709551615)) (map_res (from_std false) (std_new 1 1));
  same Z.eqb (let* x := (positive 2 0) in map_res fst (extract_i64 x 2)) (Ok 1);
  same deqb (let* x := (positive 2 0) in map_res snd (extract_i64 x 2)) (map_res (from_std false) (std_new 0 0));
  same Z.eqb (let* x := (positive 2 0) in map_res fst (extract_i64 x 3)) (Ok 0);
  same deqb (let* x := (positive 2 0) in map_res snd (extract_i64 x 3)) (map_res (from_std false) (std_new 2 0));
  same Z.eqb (let* x := (positive 2 0) in map_res fst (extract_i64 x 4)) (Ok 0);
  same deqb (let* x := (positive 2 0) in map_res snd (extract_i64 x 4)) (map_res (from_std false) (std_new 2 0));
  same Z.eqb (let* x := (positive 2 0) in map_res fst (extract_i64 x 5)) (Ok 0);
  same deqb (let* x := (positive 2 0) in map_res snd (extract_i64 x 5)) (map_res (from_std false) (std_new 2 0));
  same Z.eqb (let* x := (positive 2 0) in map_res fst (extract_i64 x 60)) (Ok 0);
  same deqb (let* x := (positive 2 0) in map_res snd (extract_i64 x 60)) (map_res (from_std false) (std_new 2 0));
  same Z.eqb (let* x := (positive 2 0) in map_res fst (extract_i64 x 9223372036854775807)) (Ok 0);
  same deqb (let* x := (positive 2 0) in map_res snd (extract_i64 x 9223372036854775807)) (map_res (from_std false) (std_new 2 0));
  same Z.eqb (let* x := (positive 2 0) in map_res fst (extract_i64 x 18446744073709551615)) (Ok 0);
  same deqb (let* x := (positive 2 0) in map_res snd (extract_i64 x 18446744073709551615)) (map_res (from_std false) (std_new 2 0));
  same Z.eqb (let* x := (positive 2 1) in map_res fst (extract_i64 x 2)) (Ok 1);
  same deqb (let* x := (positive 2 1) in map_res snd (extract_i64 x 2)) (map_res (from_std false) (std_new 0 1));
  same Z.eqb (let* x := (positive 2 1) in map_res fst (extract_i64 x 3)) (Ok 0);
  same deqb (let* x := (positive 2 1) in map_res snd (extract_i64 x 3)) (map_res (from_std false) (std_new 2 1));
  same Z.eqb (let* x := (positive 2 1) in map_res fst (extract_i64 x 4)) (Ok 0);
  same deqb (let* x := (positive 2 1) in map_res snd (extract_i64 x 4)) (map_res (from_std false) (std_new 2 1));
  same Z.eqb (let* x := (positive 2 1) in map_res fst (extract_i64 x 5)) (Ok 0);
  same deqb (let* x := (positive 2 1) in map_res snd (extract_i64 x 5)) (map_res (from_std false) (std_new 2 1));
  same Z.eqb (let* x := (positive 2 1) in map_res fst (extract_i64 x 60)) (Ok 0);
  same deqb (let* x := (positive 2 1) in map_res snd (extract_i64 x 60)) (map_res (from_std false) (std_new 2 1));
  same Z.eqb (let* x := (positive 2 1) in map_res fst (extract_i64 x 9223372036854775807)) (Ok 0);
  same deqb (let* x := (positive 2 1) in map_res snd (extract_i64 x 9223372036854775807)) (map_res (from_std false) (std_new 2 1));
  same Z.eqb (let* x := (positive 2 1) in map_res fst (extract_i64 x 18446744073709551615)) (Ok 0);
  same deqb (let* x := (positive 2 1) in map_res snd (extract_i64 x 18446744073709551615)) (map_res (from_std false) (std_new 2 1));
  same Z.eqb (let* x := (positive 60 0) in map_res fst (extract_i64 x 2)) (Ok 30);
  same deqb (let* x := (positive 60 0) in map_res snd (extract_i64 x 2)) (map_res (from_std false) (std_new 0 0));
  same Z.eqb (let* x := (positive 60 0) in map_res fst (extract_i64 x 3)) (Ok 20);
  same deqb (let* x := (positive 60 0) in map_res snd (extract_i64 x 3)) (map_res (from_std false) (std_new 0 0));
  same Z.eqb (let* x := (positive 60 0) in map_res fst (extract_i64 x 4)) (Ok 15);
  same deqb (let* x := (positive 60 0) in map_res snd (extract_i64 x 4)) (map_res (from_std false) (std_new 0 0));
  same Z.eqb (let* x := (positive 60 0) in map_res fst (extract_i64 x 5)) (Ok 12);
  same deqb (let* x := (positive 60 0) in map_res snd (extract_i64 x 5)) (map_res (from_std false) (std_new 0 0));
  same Z.eqb (let* x := (positive 60 0) in map_res fst (extract_i64 x 60)) (Ok 1);
  same deqb (let* x := (positive 60 0) in map_res snd (extract_i64 x 60)) (map_res (from_std false) (std_new 0 0));
  same Z.eqb (let* x := (positive 60 0) in map_res fst (extract_i64 x 9223372036854775807)) (Ok 0);
  same deqb (let* x := (positive 60 0) in map_res snd (extract_i64 x 9223372036854775807)) (map_res (from_std false) (std_new 60 0));
  same Z.eqb (let* x := (positive 60 0) in map_res fst (extract_i64 x 18446744073709551615)) (Ok 0);
  same deqb (let* x := (positive 60 0) in map_res snd (extract_i64 x 18446744073709551615)) (map_res (from_std false) (std_new 60 0));
  same Z.eqb (let* x := (positive 61 0) in map_res fst (extract_i64 x 2)) (Ok 30);
  same deqb (let* x := (positive 61 0) in map_res snd (extract_i64 x 2)) (map_res (from_std false) (std_new 1 0));
  same Z.eqb (let* x := (positive 61 0) in map_res fst (extract_i64 x 3)) (Ok 20);
  same deqb (let* x := (positive 61 0) in map_res snd (extract_i64 x 3)) (map_res (from_std false) (std_new 1 0));
  same Z.eqb (let* x := (positive 61 0) in map_res fst (extract_i64 x 4)) (Ok 15);
  same deqb (let* x := (positive 61 0) in map_res snd (extract_i64 x 4)) (map_res (from_std false) (std_new 1 0));
  same Z.eqb (let* x := (positive 61 0) in map_res fst (extract_i64 x 5)) (Ok 12);
  same deqb (let* x := (positive 61 0) in map_res snd (extract_i64 x 5)) (map_res (from_std false) (std_new 1 0));
  same Z.eqb (let* x := (positive 61 0) in map_res fst (extract_i64 x 60)) (Ok 1);
  same deqb (let* x := (positive 61 0) in map_res snd (extract_i64 x 60)) (map_res (from_std false) (std_new 1 0));
  same Z.eqb (let* x := (positive 61 0) in map_res fst (extract_i64 x 9223372036854775807)) (Ok 0);
  same deqb (let* x := (positive 61 0) in map_res snd (extract_i64 x 9223372036854775807)) (map_res (from_std false) (std_new 61 0));
  same Z.eqb (let* x := (positive 61 0) in map_res fst (extract_i64 x 18446744073709551615)) (Ok 0);
  same deqb (let* x := (positive 61 0) in map_res snd (extract_i64 x 18446744073709551615)) (map_res (from_std false) (std_new 61 0));
  same Z.eqb (let* x := (positive 59 0) in map_res fst (extract_i64 x 2)) (Ok 29);
  same deqb (let* x := (positive 59 0) in map_res snd (extract_i64 x 2)) (map_res (from_std false) (std_new 1 0));
  same Z.eqb (let* x := (positive 59 0) in map_res fst (extract_i64 x 3)) (Ok 19);
  same deqb (let* x := (positive 59 0) in map_res snd (extract_i64 x 3)) (map_res (from_std false) (std_new 2 0));
  same Z.eqb (let* x := (positive 59 0) in map_res fst (extract_i64 x 4)) (Ok 14);
  same deqb (let* x := (positive 59 0) in map_res snd (extract_i64 x 4)) (map_res (from_std false) (std_new 3 0));
  same Z.eqb (let* x := (positive 59 0) in map_res fst (extract_i64 x 5)) (Ok 11);
  same deqb (let* x := (positive 59 0) in map_res snd (extract_i64 x 5)) (map_res (from_std false) (std_new 4 0));
  same Z.eqb (let* x := (positive 59 0) in map_res fst (extract_i64 x 60)) (Ok 0);
  same deqb (let* x := (positive 59 0) in map_res snd (extract_i64 x 60)) (map_res (from_std false) (std_new 59 0));
  same Z.eqb (let* x := (positive 59 0) in map_res fst (extract_i64 x 9223372036854775807)) (Ok 0);
  same deqb (let* x := (positive 59 0) in map_res snd (extract_i64 x 9223372036854775807)) (map_res (from_std false) (std_new 59 0));
  same Z.eqb (let* x := (positive 59 0) in map_res fst (extract_i64 x 18446744073709551615)) (Ok 0);
  same deqb (let* x := (positive 59 0) in map_res snd (extract_i64 x 18446744073709551615)) (map_res (from_std false) (std_new 59 0));
  same Z.eqb (let* x := (positive 123456789 987654321) in map_res fst (extract_i64 x 2)) (Ok 61728394);
  same deqb (let* x := (positive 123456789 987654321) in map_res snd (extract_i64 x 2)) (map_res (from_std false) (std_new 1 987654321));
  same Z.eqb (let* x := (positive 123456789 987654321) in map_res fst (extract_i64 x 3)) (Ok 41152263);
  same deqb (let* x := (positive 123456789 987654321) in map_res snd (extract_i64 x 3)) (map_res (from_std false) (std_new 0 987654321));
  same Z.eqb (let* x := (positive 123456789 987654321) in map_res fst (extract_i64 x 4)) (Ok 30864197);
  same deqb (let* x := (positive 123456789 987654321) in map_res snd (extract_i64 x 4)) (map_res (from_std false) (std_new 1 987654321));
  same Z.eqb (let* x := (positive 123456789 987654321) in map_res fst (extract_i64 x 5)) (Ok 24691357);
  same deqb (let* x := (positive 123456789 987654321) in map_res snd (extract_i64 x 5)) (map_res (from_std false) (std_new 4 987654321));
  same Z.eqb (let* x := (positive 123456789 987654321) in map_res fst (extract_i64 x 60)) (Ok 2057613);
  same deqb (let* x := (positive 123456789 987654321) in map_res snd (extract_i64 x 60)) (map_res (from_std false) (std_new 9 987654321));
  same Z.eqb (let* x := (positive 123456789 987654321) in map_res fst (extract_i64 x 9223372036854775807)) (Ok 0);
  same deqb (let* x := (positive 123456789 987654321) in map_res snd (extract_i64 x 9223372036854775807)) (map_res (from_std false) (std_new 123456789 987654321));
  same Z.eqb (let* x := (positive 123456789 987654321) in map_res fst (extract_i64 x 18446744073709551615)) (Ok 0);
  same deqb (let* x := (positive 123456789 987654321) in map_res snd (extract_i64 x 18446744073709551615)) (map_res (from_std false) (std_new 123456789 987654321));
  same Z.eqb (let* x := (Ok MAX) in map_res fst (extract_i64 x 2)) (Ok 9223372036854775807);
  same deqb (let* x := (Ok MAX) in map_res snd (extract_i64 x 2)) (map_res (from_std false) (std_new 1 999999999));
  same Z.eqb (let* x := (Ok MAX) in map_res fst (extract_i64 x 3)) (Ok 6148914691236517205);
  same deqb (let* x := (Ok MAX) in map_res snd (extract_i64 x 3)) (map_res (from_std false) (std_new 0 999999999));
  same Z.eqb (let* x := (Ok MAX) in map_res fst (extract_i64 x 4)) (Ok 4611686018427387903);
  same deqb (let* x := (Ok MAX) in map_res snd (extract_i64 x 4)) (map_res (from_std false) (std_new 3 999999999));
  same Z.eqb (let* x := (Ok MAX) in map_res fst (extract_i64 x 5)) (Ok 3689348814741910323);
  same deqb (let* x := (Ok MAX) in map_res snd (extract_i64 x 5)) (map_res (from_std false) (std_new 0 999999999));
  same Z.eqb (let* x := (Ok MAX) in map_res fst (extract_i64 x 60)) (Ok 307445734561825860);
  same deqb (let* x := (Ok MAX) in map_res snd (extract_i64 x 60)) (map_res (from_std false) (std_new 15 999999999));
  same Z.eqb (let* x := (Ok MAX) in map_res fst (extract_i64 x 9223372036854775807)) (Ok 2);
  same deqb (let* x := (Ok MAX) in map_res snd (extract_i64 x 9223372036854775807)) (map_res (from_std false) (std_new 1 999999999));
  same Z.eqb (let* x := (Ok MAX) in map_res fst (extract_i64 x 18446744073709551615)) (Ok 1);
  same deqb (let* x := (Ok MAX) in map_res snd (extract_i64 x 18446744073709551615)) (map_res (from_std false) (std_new 0 999999999));
  same Z.eqb (let* x := (Ok MIN) in map_res fst (extract_i64 x 2)) (Ok (-9223372036854775807));
  same deqb (let* x := (Ok MIN) in map_res snd (extract_i64 x 2)) (map_res (from_std true) (std_new 1 999999999));
  same Z.eqb (let* x := (Ok MIN) in map_res fst (extract_i64 x 3)) (Ok (-6148914691236517205));
  same deqb (let* x := (Ok MIN) in map_res snd (extract_i64 x 3)) (map_res (from_std true) (std_new 0 999999999));
  same Z.eqb (let* x := (Ok MIN) in map_res fst (extract_i64 x 4)) (Ok (-4611686018427387903));
  same deqb (let* x := (Ok MIN) in map_res snd (extract_i64 x 4)) (map_res (from_std true) (std_new 3 999999999));
  same Z.eqb (let* x := (Ok MIN) in map_res fst (extract_i64 x 5)) (Ok (-3689348814741910323));
  same deqb (let* x := (Ok MIN) in map_res snd (extract_i64 x 5)) (map_res (from_std true) (std_new 0 999999999));
  same Z.eqb (let* x := (Ok MIN) in map_res fst (extract_i64 x 60)) (Ok (-307445734561825860));
  same deqb (let* x := (Ok MIN) in map_res snd (extract_i64 x 60)) (map_res (from_std true) (std_new 15 999999999));
  same Z.eqb (let* x := (Ok MIN) in map_res fst (extract_i64 x 9223372036854775807)) (Ok (-2));
  same deqb (let* x := (Ok MIN) in map_res snd (extract_i64 x 9223372036854775807)) (map_res (from_std true) (std_new 1 999999999));
  same Z.eqb (let* x := (Ok MIN) in map_res fst (extract_i64 x 18446744073709551615)) (Ok (-1));
  same deqb (let* x := (Ok MIN) in map_res snd (extract_i64 x 18446744073709551615)) (map_res (from_std true) (std_new 0 999999999))] = true.
Proof. vm_compute. reflexivity. Qed.

(* fundu-core/src/time.rs:2109: 6 assertions *)
Example test_fundu_duration_extract_weeks : all_pass [
  same Z.eqb (let* x := (positive 604800 123) in map_res fst (extract_weeks x)) (Ok 1);
  same deqb (let* x := (positive 604800 123) in map_res snd (extract_weeks x)) (positive 0 123);
  same Z.eqb (let* x := (positive 604801 123) in map_res fst (extract_weeks x)) (Ok 1);
  same deqb (let* x := (positive 604801 123) in map_res snd (extract_weeks x)) (positive 1 123);
  same Z.eqb (let* x := (positive 604799 123) in map_res fst (extract_weeks x)) (Ok 0);
  same deqb (let* x := (positive 604799 123) in map_res snd (extract_weeks x)) (positive 604799 123)] = true.
Proof. vm_compute. reflexivity. Qed.

(* fundu-core/src/time.rs:2132: 6 assertions *)
Example test_fundu_duration_extract_days : all_pass [
  same Z.eqb (let* x := (positive 86400 123) in map_res fst (extract_days x)) (Ok 1);
  same deqb (let* x := (positive 86400 123) in map_res snd (extract_days x)) (positive 0 123);
  same Z.eqb (let* x := (positive 86401 123) in map_res fst (extract_days x)) (Ok 1);
  same deqb (let* x := (positive 86401 123) in map_res snd (extract_days x)) (positive 1 123);
  same Z.eqb (let* x := (positive 86399 123) in map_res fst (extract_days x)) (Ok 0);
  same deqb (let* x := (positive 86399 123) in map_res snd (extract_days x)) (positive 86399 123)] = true.
Proof. vm_compute. reflexivity. Qed.

(* fundu-core/src/time.rs:2147: 6 assertions *)
Example test_fundu_duration_extract_hours : all_pass [
  same Z.eqb (let* x := (positive 3600 123) in map_res fst (extract_hours x)) (Ok 1);
  same deqb (let* x := (positive 3600 123) in map_res snd (extract_hours x)) (positive 0 123);
  same Z.eqb (let* x := (positive 3601 123) in map_res fst (extract_hours x)) (Ok 1);
  same deqb (let* x := (positive 3601 123) in map_res snd (extract_hours x)) (positive 1 123);
  same Z.eqb (let* x := (positive 3599 123) in map_res fst (extract_hours x)) (Ok 0);
  same deqb (let* x := (positive 3599 123) in map_res snd (extract_hours x)) (positive 3599 123)] = true.
Proof. vm_compute. reflexivity. Qed.

(* fundu-core/src/time.rs:2162: 6 assertions *)
Example test_fundu_duration_extract_minutes : all_pass [
  same Z.eqb (let* x := (positive 60 123) in map_res fst (extract_minutes x)) (Ok 1);
  same deqb (let* x := (positive 60 123) in map_res snd (extract_minutes x)) (positive 0 123);
  same Z.eqb (let* x := (positive 61 123) in map_res fst (extract_minutes x)) (Ok 1);
  same deqb (let* x := (positive 61 123) in map_res snd (extract_minutes x)) (positive 1 123);
  same Z.eqb (let* x := (positive 59 123) in map_res fst (extract_minutes x)) (Ok 0);
  same deqb (let* x := (positive 59 123) in map_res snd (extract_minutes x)) (positive 59 123)] = true.
Proof. vm_compute. reflexivity. Qed.

(* fundu-core/src/time.rs:2184: 24 assertions *)
Example test_fundu_duration_extract_seconds : all_pass [
  same Z.eqb (let* x := (Ok ZERO) in map_res fst (extract_seconds x)) (Ok 0);
  same deqb (let* x := (Ok ZERO) in map_res snd (extract_seconds x)) (Ok ZERO);
  same Z.eqb (let* x := (map_res dneg (Ok ZERO)) in map_res fst (extract_seconds x)) (Ok 0);
  same deqb (let* x := (map_res dneg (Ok ZERO)) in map_res snd (extract_seconds x)) (map_res dneg (Ok ZERO));
  same Z.eqb (let* x := (positive 1 123) in map_res fst (extract_seconds x)) (Ok 1);
  same deqb (let* x := (positive 1 123) in map_res snd (extract_seconds x)) (positive 0 123);
  same Z.eqb (let* x := (map_res dneg (positive 1 123)) in map_res fst (extract_seconds x)) (Ok (-1));
  same deqb (let* x := (map_res dneg (positive 1 123)) in map_res snd (extract_seconds x)) (map_res dneg (positive 0 123));
  same Z.eqb (let* x := (positive 2 123) in map_res fst (extract_seconds x)) (Ok 2);
  same deqb (let* x := (positive 2 123) in map_res snd (extract_seconds x)) (positive 0 123);
  same Z.eqb (let* x := (map_res dneg (positive 2 123)) in map_res fst (extract_seconds x)) (Ok (-2));
  same deqb (let* x := (map_res dneg (positive 2 123)) in map_res snd (extract_seconds x)) (map_res dneg (positive 0 123));
  same Z.eqb (let* x := (positive 0 123) in map_res fst (extract_seconds x)) (Ok 0);
  same deqb (let* x := (positive 0 123) in map_res snd (extract_seconds x)) (positive 0 123);
  same Z.eqb (let* x := (map_res dneg (positive 0 123)) in map_res fst (extract_seconds x)) (Ok 0);
  same deqb (let* x := (map_res dneg (positive 0 123)) in map_res snd (extract_seconds x)) (map_res dneg (positive 0 123));
  same Z.eqb (let* x := (Ok MAX) in map_res fst (extract_seconds x)) (Ok 18446744073709551615);
  same deqb (let* x := (Ok MAX) in map_res snd (extract_seconds x)) (positive 0 999999999);
  same Z.eqb (let* x := (map_res dneg (Ok MAX)) in map_res fst (extract_seconds x)) (Ok (-18446744073709551615));
  same deqb (let* x := (map_res dneg (Ok MAX)) in map_res snd (extract_seconds x)) (map_res dneg (positive 0 999999999));
  same Z.eqb (let* x := (Ok MIN) in map_res fst (extract_seconds x)) (Ok (-18446744073709551615));
  same deqb (let* x := (Ok MIN) in map_res snd (extract_seconds x)) (negative 0 999999999);
  same Z.eqb (let* x := (map_res dneg (Ok MIN)) in map_res fst (extract_seconds x)) (Ok 18446744073709551615);
  same deqb (let* x := (map_res dneg (Ok MIN)) in map_res snd (extract_seconds x)) (map_res dneg (negative 0 999999999))] = true.
Proof. vm_compute. reflexivity. Qed.

(* fundu-core/src/time.rs:2261: 26 assertions *)
Example test_duration_partial_and_total_ordering : all_pass [
  same (opt_eqb cmp_eqb) (let* x := (Ok ZERO) in let* y := (Ok ZERO) in Ok (partial_cmp x y)) (map_res Some (Ok Eq));
  same (opt_eqb cmp_eqb) (let* x := (negative 0 0) in let* y := (negative 0 0) in Ok (partial_cmp x y)) (map_res Some (Ok Eq));
  same (opt_eqb cmp_eqb) (let* x := (negative 0 0) in let* y := (Ok ZERO) in Ok (partial_cmp x y)) (map_res Some (Ok Eq));
  same (opt_eqb cmp_eqb) (let* x := (Ok ZERO) in let* y := (negative 0 0) in Ok (partial_cmp x y)) (map_res Some (Ok Eq));
  same (opt_eqb cmp_eqb) (let* x := (positive 1 0) in let* y := (positive 1 0) in Ok (partial_cmp x y)) (map_res Some (Ok Eq));
  same (opt_eqb cmp_eqb) (let* x := (negative 1 0) in let* y := (negative 1 0) in Ok (partial_cmp x y)) (map_res Some (Ok Eq));
  same (opt_eqb cmp_eqb) (let* x := (negative 1 0) in let* y := (positive 1 0) in Ok (partial_cmp x y)) (map_res Some (Ok Lt));
  same (opt_eqb cmp_eqb) (let* x := (positive 1 0) in let* y := (negative 1 0) in Ok (partial_cmp x y)) (map_res Some (Ok Gt));
  same (opt_eqb cmp_eqb) (let* x := (Ok ZERO) in let* y := (positive 0 1) in Ok (partial_cmp x y)) (map_res Some (Ok Lt));
  same (opt_eqb cmp_eqb) (let* x := (positive 0 1) in let* y := (Ok ZERO) in Ok (partial_cmp x y)) (map_res Some (Ok Gt));
  same (opt_eqb cmp_eqb) (let* x := (Ok ZERO) in let* y := (negative 0 1) in Ok (partial_cmp x y)) (map_res Some (Ok Gt));
  same (opt_eqb cmp_eqb) (let* x := (negative 0 1) in let* y := (Ok ZERO) in Ok (partial_cmp x y)) (map_res Some (Ok Lt));
  same (opt_eqb cmp_eqb) (let* x := (Ok MAX) in let* y := (Ok MAX) in Ok (partial_cmp x y)) (map_res Some (Ok Eq));
  same (opt_eqb cmp_eqb) (let* x := (Ok MAX) in let* y := (positive 18446744073709551615 999999998) in Ok (partial_cmp x y)) (map_res Some (Ok Gt));
  same (opt_eqb cmp_eqb) (let* x := (positive 18446744073709551615 999999998) in let* y := (Ok MAX) in Ok (partial_cmp x y)) (map_res Some (Ok Lt));
  same (opt_eqb cmp_eqb) (let* x := (Ok MIN) in let* y := (Ok MIN) in Ok (partial_cmp x y)) (map_res Some (Ok Eq));
  same (opt_eqb cmp_eqb) (let* x := (Ok MIN) in let* y := (negative 18446744073709551615 999999998) in Ok (partial_cmp x y)) (map_res Some (Ok Lt));
  same (opt_eqb cmp_eqb) (let* x := (negative 18446744073709551615 999999998) in let* y := (Ok MIN) in Ok (partial_cmp x y)) (map_res Some (Ok Gt));
  same (opt_eqb cmp_eqb) (let* x := (Ok MIN) in let* y := (Ok MAX) in Ok (partial_cmp x y)) (map_res Some (Ok Lt));
  same (opt_eqb cmp_eqb) (let* x := (Ok MAX) in let* y := (Ok MIN) in Ok (partial_cmp x y)) (map_res Some (Ok Gt));
  same (opt_eqb cmp_eqb) (let* x := (positive 123 987) in let* y := (positive 987 123) in Ok (partial_cmp x y)) (map_res Some (Ok Lt));
  same (opt_eqb cmp_eqb) (let* x := (positive 987 123) in let* y := (positive 123 987) in Ok (partial_cmp x y)) (map_res Some (Ok Gt));
  same (opt_eqb cmp_eqb) (let* x := (negative 123 987) in let* y := (negative 987 123) in Ok (partial_cmp x y)) (map_res Some (Ok Gt));
  same (opt_eqb cmp_eqb) (let* x := (negative 987 123) in let* y := (negative 123 987) in Ok (partial_cmp x y)) (map_res Some (Ok Lt));
  same (opt_eqb cmp_eqb) (let* x := (positive 123 987) in let* y := (negative 987 123) in Ok (partial_cmp x y)) (map_res Some (Ok Gt));
  same (opt_eqb cmp_eqb) (let* x := (negative 987 123) in let* y := (positive 123 987) in Ok (partial_cmp x y)) (map_res Some (Ok Lt))] = true.
Proof. vm_compute. reflexivity. Qed.

(* fundu-core/src/time.rs:2278: 15 assertions *)
Example test_duration_hash_and_eq_property_when_equal : all_pass [
  same deqb (Ok ZERO) (Ok ZERO);
  same hash_eqb (map_res dhash (Ok ZERO)) (map_res dhash (Ok ZERO));
  same deqb (negative 0 0) (negative 0 0);
  same hash_eqb (map_res dhash (negative 0 0)) (map_res dhash (negative 0 0));
  same deqb (negative 0 0) (Ok ZERO);
  same deqb (Ok ZERO) (negative 0 0);
  same hash_eqb (map_res dhash (negative 0 0)) (map_res dhash (Ok ZERO));
  same deqb (positive 1 0) (positive 1 0);
  same hash_eqb (map_res dhash (positive 1 0)) (map_res dhash (positive 1 0));
  same deqb (negative 1 0) (negative 1 0);
  same hash_eqb (map_res dhash (negative 1 0)) (map_res dhash (negative 1 0));
  same deqb (Ok MAX) (Ok MAX);
  same hash_eqb (map_res dhash (Ok MAX)) (map_res dhash (Ok MAX));
  same deqb (Ok MIN) (Ok MIN);
  same hash_eqb (map_res dhash (Ok MIN)) (map_res dhash (Ok MIN))] = true.
Proof. vm_compute. reflexivity. Qed.

(* fundu-core/src/time.rs:2300: 15 assertions *)
Example test_duration_hash_and_eq_property_when_not_equal : all_pass [
  differ deqb (Ok ZERO) (positive 1 0);
  differ deqb (positive 1 0) (Ok ZERO);
  differ hash_eqb (map_res dhash (Ok ZERO)) (map_res dhash (positive 1 0));
  differ deqb (Ok ZERO) (negative 1 0);
  differ deqb (negative 1 0) (Ok ZERO);
  differ hash_eqb (map_res dhash (Ok ZERO)) (map_res dhash (negative 1 0));
  differ deqb (positive 1 0) (negative 2 0);
  differ deqb (negative 2 0) (positive 1 0);
  differ hash_eqb (map_res dhash (positive 1 0)) (map_res dhash (negative 2 0));
  differ deqb (positive 1 0) (negative 1 0);
  differ deqb (negative 1 0) (positive 1 0);
  differ hash_eqb (map_res dhash (positive 1 0)) (map_res dhash (negative 1 0));
  differ deqb (Ok MIN) (Ok MAX);
  differ deqb (Ok MAX) (Ok MIN);
  differ hash_eqb (map_res dhash (Ok MIN)) (map_res dhash (Ok MAX))] = true.
Proof. vm_compute. reflexivity. Qed.

(* fundu-core/src/time.rs:2324: 7 assertions *)
Example test_fundu_duration_saturating_into_std_duration : all_pass [
  same std_eqb (let* x := (Ok ZERO) in saturating_into_std x) (Ok STD_ZERO);
  same std_eqb (let* x := (negative 0 0) in saturating_into_std x) (Ok STD_ZERO);
  same std_eqb (let* x := (positive 1 0) in saturating_into_std x) (std_new 1 0);
  same std_eqb (let* x := (positive 0 1) in saturating_into_std x) (std_new 0 1);
  same std_eqb (let* x := (negative 1 0) in saturating_into_std x) (Ok STD_ZERO);
  same std_eqb (let* x := (negative 0 1) in saturating_into_std x) (Ok STD_ZERO);
  same std_eqb (let* x := (Ok MAX) in saturating_into_std x) (Ok STD_MAX)] = true.
Proof. vm_compute. reflexivity. Qed.

(* fundu-core/src/time.rs:2358: 10 assertions *)
Example test_fundu_duration_saturating_into_time_duration : all_pass [
  same tdur_eqb (let* x := (Ok ZERO) in saturating_into_time x) (Ok (Tdur 0 0));
  same tdur_eqb (let* x := (negative 0 0) in saturating_into_time x) (Ok (Tdur 0 0));
  same tdur_eqb (let* x := (positive 1 0) in saturating_into_time x) (time_new 1 0);
  same tdur_eqb (let* x := (negative 1 0) in saturating_into_time x) (time_new (-1) 0);
  same tdur_eqb (let* x := (negative 9223372036854775808 999999999) in saturating_into_time x) (Ok TIME_MIN);
  same tdur_eqb (let* x := (negative 9223372036854775809 0) in saturating_into_time x) (Ok TIME_MIN);
  same tdur_eqb (let* x := (negative 18446744073709551615 999999999) in saturating_into_time x) (Ok TIME_MIN);
  same tdur_eqb (let* x := (positive 9223372036854775807 999999999) in saturating_into_time x) (Ok TIME_MAX);
  same tdur_eqb (let* x := (positive 9223372036854775808 999999999) in saturating_into_time x) (Ok TIME_MAX);
  same tdur_eqb (let* x := (positive 18446744073709551615 999999999) in saturating_into_time x) (Ok TIME_MAX)] = true.
Proof. vm_compute. reflexivity. Qed.

(* fundu-core/src/time.rs:2398: 10 assertions *)
Example test_fundu_duration_saturating_into_chrono_duration : all_pass [
  same cdur_eqb (let* x := (Ok ZERO) in saturating_into_chrono x) (Ok (Cdur 0 0));
  same cdur_eqb (let* x := (negative 0 0) in saturating_into_chrono x) (Ok (Cdur 0 0));
  same cdur_eqb (let* x := (positive 1 0) in saturating_into_chrono x) (c_seconds 1);
  same cdur_eqb (let* x := (negative 1 0) in saturating_into_chrono x) (c_seconds (-1));
  same cdur_eqb (let* x := (negative 9223372036854775 808000000) in saturating_into_chrono x) (Ok C_MIN);
  same cdur_eqb (let* x := (negative 9223372036854776 0) in saturating_into_chrono x) (Ok C_MIN);
  same cdur_eqb (let* x := (negative 18446744073709551615 999999999) in saturating_into_chrono x) (Ok C_MIN);
  same cdur_eqb (let* x := (positive 9223372036854775 807000000) in saturating_into_chrono x) (Ok C_MAX);
  same cdur_eqb (let* x := (positive 9223372036854776 807000000) in saturating_into_chrono x) (Ok C_MAX);
  same cdur_eqb (let* x := (positive 18446744073709551615 999999999) in saturating_into_chrono x) (Ok C_MAX)] = true.
Proof. vm_compute. reflexivity. Qed.

(* fundu-core/src/time.rs:2413: 4 assertions *)
Example test_std_duration_try_from_for_fundu_duration_then_error : all_pass [
  same tfe_eqb (conv_err (map_res try_into_std (negative 1 0))) (Ok NegativeDuration);
  same tfe_eqb (conv_err (map_res try_into_std (negative 0 1))) (Ok NegativeDuration);
  same tfe_eqb (conv_err (map_res try_into_std (negative 1 1))) (Ok NegativeDuration);
  same tfe_eqb (conv_err (map_res try_into_std (Ok MIN))) (Ok NegativeDuration)] = true.
Proof. vm_compute. reflexivity. Qed.

(* fundu-core/src/time.rs:2466: 12 assertions *)
Example test_chrono_duration_try_from_fundu_duration : all_pass [
  same cdur_eqb (conv_get (let* x := (Ok ZERO) in try_into_chrono x)) (Ok (Cdur 0 0));
  same cdur_eqb (conv_get (let* x := (negative 0 0) in try_into_chrono x)) (Ok (Cdur 0 0));
  same cdur_eqb (conv_get (let* x := (positive 1 0) in try_into_chrono x)) (c_seconds 1);
  same cdur_eqb (conv_get (let* x := (positive 1 1) in try_into_chrono x)) (Ok (c_nanoseconds 1000000001));
  same cdur_eqb (conv_get (let* x := (negative 1 0) in try_into_chrono x)) (c_seconds (-1));
  same cdur_eqb (conv_get (let* x := (negative 1 1) in try_into_chrono x)) (Ok (c_nanoseconds (-1000000001)));
  same cdur_eqb (conv_get (let* x := (positive 0 999999999) in try_into_chrono x)) (Ok (c_nanoseconds 999999999));
  same cdur_eqb (conv_get (let* x := (negative 0 999999999) in try_into_chrono x)) (Ok (c_nanoseconds (-999999999)));
  same cdur_eqb (conv_get (let* x := (positive 9223372036854775 0) in try_into_chrono x)) (c_seconds 9223372036854775);
  same cdur_eqb (conv_get (let* x := (positive 9223372036854775 807000000) in try_into_chrono x)) (Ok C_MAX);
  same cdur_eqb (conv_get (let* x := (negative 9223372036854775 0) in try_into_chrono x)) (c_seconds (-9223372036854775));
  same cdur_eqb (conv_get (let* x := (negative 9223372036854775 807000000) in try_into_chrono x)) (Ok C_MIN)] = true.
Proof. vm_compute. reflexivity. Qed.

(* fundu-core/src/time.rs:2500: 6 assertions *)
Example test_chrono_duration_try_from_fundu_duration_then_error : all_pass [
  same tfe_eqb (conv_err (let* x := (positive 9223372036854776 0) in try_into_chrono x)) (Ok PositiveOverflow);
  same tfe_eqb (conv_err (let* x := (positive 9223372036854775 807000001) in try_into_chrono x)) (Ok PositiveOverflow);
  same tfe_eqb (conv_err (let* x := (Ok MAX) in try_into_chrono x)) (Ok PositiveOverflow);
  same tfe_eqb (conv_err (let* x := (negative 9223372036854776 0) in try_into_chrono x)) (Ok NegativeOverflow);
  same tfe_eqb (conv_err (let* x := (negative 9223372036854775 808000001) in try_into_chrono x)) (Ok NegativeOverflow);
  same tfe_eqb (conv_err (let* x := (Ok MIN) in try_into_chrono x)) (Ok NegativeOverflow)] = true.
Proof. vm_compute. reflexivity. Qed.

(* fundu-core/src/time.rs:2510: 1 assertions *)
Example test_time_duration_try_from_fundu_duration : all_pass [
  same tdur_eqb (conv_get (let* x := (map_res (from_std false) (std_new 1 0)) in try_into_time x)) (time_new 1 0)] = true.
Proof. vm_compute. reflexivity. Qed.

(* fundu-core/src/time.rs:2533: 4 assertions *)
Example test_fundu_duration_from_std_time_duration : all_pass [
  same deqb (map_res of_std (Ok STD_ZERO)) (map_res (from_std false) (Ok STD_ZERO));
  same deqb (map_res of_std (std_new 1 0)) (map_res (from_std false) (std_new 1 0));
  same deqb (map_res of_std (std_new 1 123456789)) (map_res (from_std false) (std_new 1 123456789));
  same deqb (map_res of_std (Ok STD_MAX)) (map_res (from_std false) (Ok STD_MAX))] = true.
Proof. vm_compute. reflexivity. Qed.

(* fundu-core/src/time.rs:2557: 9 assertions *)
Example test_fundu_duration_from_time_duration : all_pass [
  same deqb (let* x := (Ok (Tdur 0 0)) in of_time x) (Ok ZERO);
  same deqb (let* x := (time_new 1 0) in of_time x) (positive 1 0);
  same deqb (let* x := (time_new 0 1) in of_time x) (positive 0 1);
  same deqb (let* x := (time_new (-1) 0) in of_time x) (negative 1 0);
  same deqb (let* x := (time_new 0 (-1)) in of_time x) (negative 0 1);
  same deqb (let* x := (time_new 1 (-1)) in of_time x) (positive 0 999999999);
  same deqb (let* x := (time_new (-1) 1) in of_time x) (negative 0 999999999);
  same deqb (let* x := (Ok TIME_MIN) in of_time x) (negative 9223372036854775808 999999999);
  same deqb (let* x := (Ok TIME_MAX) in of_time x) (positive 9223372036854775807 999999999)] = true.
Proof. vm_compute. reflexivity. Qed.

(* fundu-core/src/time.rs:2573: 7 assertions *)
Example test_fundu_duration_from_chrono_duration : all_pass [
  same deqb (let* x := (Ok (Cdur 0 0)) in of_chrono x) (Ok ZERO);
  same deqb (let* x := (c_seconds 1) in of_chrono x) (positive 1 0);
  same deqb (let* x := (Ok (c_nanoseconds 1)) in of_chrono x) (positive 0 1);
  same deqb (let* x := (c_seconds (-1)) in of_chrono x) (negative 1 0);
  same deqb (let* x := (Ok (c_nanoseconds (-1))) in of_chrono x) (negative 0 1);
  same deqb (let* x := (Ok C_MIN) in of_chrono x) (negative 9223372036854775 807000000);
  same deqb (let* x := (Ok C_MAX) in of_chrono x) (positive 9223372036854775 807000000)] = true.
Proof. vm_compute. reflexivity. Qed.
