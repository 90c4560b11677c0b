(** * Model of `Debug` for durations, and of the example programs clap_derive.rs, clap_builder.rs, convert.rs, simple.rs of fundu and chrono.rs of fundu-gnu

    The command line is taken for granted, as in Examples.v. *)
From Verif Require Import Prelude Util Time Config Parse Standard Gnu DateTime Misc Examples.

(** std: `Debug` for std::time::Duration without flags. The digits after the point are written into a buffer of nine digits, as long as something is left:
    `while fractional_part > 0 && pos < 9 { buf[pos] = b'0' + (fractional_part / divisor); fractional_part %= divisor; divisor /= 10; pos += 1 }` *)
(* std: core/src/time.rs fmt_decimal; used by fundu-core/src/time.rs:547 derive(Debug) and the examples *)
Fixpoint debug_digits (n : nat) (fractional_part divisor : Z) : str :=
  match n with
  | O => []
  | S n => if 0 <? fractional_part then (48 + fractional_part / divisor) :: debug_digits n (fractional_part mod divisor) (divisor / 10) else []
  end.
(* std: core/src/time.rs fmt_decimal; the rounding code needs a precision *)
Definition fmt_decimal (integer_part fractional_part divisor : Z) (postfix : str) : str :=
  let digits := debug_digits 9 fractional_part divisor in
  dec integer_part ++ (match digits with [] => [] | _ => %"." ++ digits end) ++ postfix.
(* std: core/src/time.rs Debug for Duration; `µs` with the micro sign U+00B5 *)
Definition std_debug (d : std_duration) : str :=
  if 0 <? secs d then fmt_decimal (secs d) (subsec d) 100000000 (%"s")
  else if 1000000 <=? subsec d then fmt_decimal (subsec d / 1000000) (subsec d mod 1000000) 100000 (%"ms")
  else if 1000 <=? subsec d then fmt_decimal (subsec d / 1000) (subsec d mod 1000) 100 [194; 181; 115]
  else fmt_decimal (subsec d) 0 1 (%"ns").
(* fundu-core/src/time.rs:547-553 derive(Debug) of Duration *)
Definition debug (d : duration) : str :=
  %"Duration { is_negative: " ++ (if neg d then %"true" else %"false") ++ %", inner: " ++ std_debug (inner d) ++ %" }".

(* `Result::unwrap`: panics for an error; no line of /repo *)
Definition unwrap_ok {A} (r : res A) : res A := match r with Err _ => Crash CrashUnwrap | _ => r end.

(** ** fundu/examples/clap_derive.rs and clap_builder.rs *)
(* fundu/examples/clap_derive.rs:25-40 *)
Definition clap_derive_main (arg1 : str) (arg2 : option str) : res printed :=
  let parser := dp_new in
  match arg2 with
  | Some arg2 =>
      let* d1 := unwrap_ok (dp_parse parser arg1) in
      let* d2 := unwrap_ok (dp_parse parser arg2) in
      let* sum := saturating_add d1 d2 in
      Ok (Lines [%"The sum of the two durations: " ++ debug sum])
  | None =>
      let* d := unwrap_ok (dp_parse parser arg1) in
      Ok (Lines [%"The duration is: " ++ debug d])
  end.
(* fundu/examples/clap_builder.rs:9-30; both arguments are optional here, but the second one needs the first *)
Definition clap_builder_main (arg1 arg2 : option str) : res printed :=
  let parser := dp_new in
  match arg2 with
  | Some arg2 =>
      let* a := unwrap arg1 in
      let* d1 := unwrap_ok (dp_parse parser a) in
      let* d2 := unwrap_ok (dp_parse parser arg2) in
      let* sum := saturating_add d1 d2 in
      Ok (Lines [%"The sum of the two durations: " ++ debug sum])
  | None =>
      let* a := unwrap arg1 in
      let* d := unwrap_ok (dp_parse parser a) in
      Ok (Lines [%"The duration is: " ++ debug d])
  end.

(** ** fundu/examples/simple.rs *)
(* fundu/examples/simple.rs:8-15 *)
Definition simple_main : res unit :=
  let* d := unwrap_ok (dp_parse (dp_with_time_units [Year]) (%"100y")) in
  let* expected := positive 3155760000 0 in
  rassert (deqb d expected).

(** ** fundu/examples/convert.rs *)
(* fundu/examples/convert.rs:11-14 *)
Definition convert_parser : duration_parser := dpb_build (fold_left dpb_call [B_all_time_units; B_allow_negative] dpb_new).
(** `Debug` of time::Duration and chrono::Duration are foreign code: parameters *)
(* fundu/examples/convert.rs:32-81; an empty line stands for the line feed at the end of a text *)
Definition convert_main (debug_chrono : chrono_duration -> str) (debug_time : time_duration -> str) (input : str) : res printed :=
  match dp_parse convert_parser (str_trim input) with
  | Ok d =>
      let std1 := match try_into_std d with
                  | inl x => %"Conversion to std::time::Duration: " ++ std_debug x
                  | inr e => %"Error converting to std::time::Duration: The original error message was: '" ++ display_try_from_error e ++ %"'"
                  end in
      let* std2 := saturating_into_std d in
      let* c := try_into_chrono d in
      let chrono1 := match c with
                     | inl x => %"Conversion to chrono::Duration: " ++ debug_chrono x
                     | inr e => %"Error converting to chrono::Duration: The original error message was: '" ++ display_try_from_error e ++ %"'"
                     end in
      let* chrono2 := saturating_into_chrono d in
      let* t := try_into_time d in
      let time1 := match t with
                   | inl x => %"Conversion to time::Duration: " ++ debug_time x
                   | inr e => %"Error converting to time::Duration: The original error message was: '" ++ display_try_from_error e ++ %"'"
                   end in
      let* time2 := saturating_into_time d in
      Ok (Lines [%"Input was: '" ++ input ++ %"'"; %"fundu::Duration: " ++ debug d; %"fundu::Duration as human readable string: " ++ display d; [];
                 std1; %"Saturating conversion with SaturatingInto::<std::time::Duration>: " ++ std_debug std2; [];
                 chrono1; %"Saturating conversion with SaturatingInto::<chrono::Duration>: " ++ debug_chrono chrono2; [];
                 time1; %"Saturating conversion with SaturatingInto::<time::Duration>: " ++ debug_time time2])
  | Err e => Ok (Lines [%"Error parsing duration '" ++ input ++ %"': " ++ display_parse_error e])
  | Crash c => Crash c
  end.

(** ** fundu-gnu/examples/chrono.rs *)
(* std: `{}` of an i64 *)
Definition signed_dec (x : Z) : str := if x <? 0 then %"-" ++ dec (- x) else dec x.
(* fundu-gnu/examples/chrono.rs:32-56; [now] is what the system clock says *)
Definition chrono_main (now : std_duration + std_duration) (input : str) : res printed :=
  match gnu_global_parse now input with
  | Ok d =>
      let* c := saturating_into_chrono d in
      let* r := try_into_chrono d in
      Ok (Lines [pad 42 8 (%"Original") ++ %": " ++ input;
                 pad 42 42 (%"Seconds (saturating_into chrono::Duration)") ++ %": " ++ signed_dec (c_num_seconds c);
                 pad 42 35 (%"Seconds (try_into chrono::Duration)") ++ %": " ++
                   match r with inl c => signed_dec (c_num_seconds c) | inr e => display_try_from_error e end])
  | Err e => Ok (Complaint (%"Failed to parse relative time '" ++ input ++ %"': " ++ display_parse_error e))
  | Crash c => Crash c
  end.
