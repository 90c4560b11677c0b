(** * The running time of the parser

    The functions of Bytes.v, Repr.v and Parse.v once more, now counting what they do. A step is
    - one iteration of a loop of the code,
    - one byte of a string which an operation of the standard library compares, validates, copies into an error
      message or reads to build a number,
    - one byte of an identifier which is looked up in a table (time units, keywords, numerals), and one for the lookup.
    Everything else (arithmetic, slices, assignments, comparisons of single bytes) happens a bounded number of times
    between two steps. That the results are those of the model is proved in CostProofs.v ([parse_t_result]). *)
From Verif Require Import Prelude Util Time Config Bytes Repr Parse.

(** a computation: the number of its steps and its result *)
(* no line of /repo *)
Definition timed (A : Type) : Type := (nat * res A)%type.
(* the operator `?`, steps are added: no line of /repo *)
Definition tbind {A B} (m : timed A) (f : A -> timed B) : timed B :=
  match snd m with
  | Ok a => let y := f a in (fst m + fst y, snd y)%nat
  | Err e => (fst m, Err e)
  | Crash c => (fst m, Crash c)
  end.
Notation "'let^' x := m 'in' f" := (tbind m (fun x => f))
  (at level 200, x pattern, m at level 100, f at level 200, right associativity).
(* [steps n m]: n steps, then m; [now m]: no step. No line of /repo *)
Definition steps {A} (n : nat) (m : timed A) : timed A := (n + fst m, snd m)%nat.
(* no line of /repo *)
Definition now {A} (m : res A) : timed A := (0%nat, m).

(** ** Bytes *)
(* fundu-core/src/parse.rs:687-698, 715-728, 888-898 *)
Fixpoint skip_until_t (fuel : nat) (stop : byte -> bool) (b : scanner) : timed scanner :=
  match fuel with
  | O => now (Crash CrashFuel)
  | S f => steps 1 match cur b with
           | Some x => if stop x then now (Ok b) else skip_until_t f stop (advance b)
           | None => now (Ok b)
           end
  end.
(* fundu-core/src/parse.rs:687-699 *)
Definition advance_to_t (d : delimiter) (b : scanner) : timed (scanner * str) :=
  let start := pos b in
  let^ b' := skip_until_t (loop_fuel b) d b in
  let^ s := now (slice (input b') start (pos b')) in
  now (Ok (b', s)).
(* fundu-core/src/parse.rs:701-732 *)
Definition buffered_advance_to_t (d : delimiter) (b : scanner) : timed (scanner * str) :=
  let fresh :=
    let start := pos b in
    let^ b' := skip_until_t (loop_fuel b) d b in
    let^ s := now (slice (input b') start (pos b')) in
    now (Ok (Scan (pos b') (cur b') (Some (start, s, cur b')) (input b'), s)) in
  match buffer b with
  | Some (p, buf, Some next) =>
      if (p =? pos b)%nat && d next then now (Ok (advance_by b (length buf), buf)) else fresh
  | Some (p, buf, None) =>
      if (p =? pos b)%nat then now (Ok (advance_by b (length buf), buf)) else fresh
  | None => fresh
  end.
(** the remainder is validated, byte by byte, and copied into an error by every caller *)
(* fundu-core/src/parse.rs:748-752 *)
Definition get_remainder_str_t (b : scanner) : timed str :=
  steps (2 * (length (input b) - pos b)) (now (get_remainder_str b)).
(** fundu-core/src/parse.rs:743-746 and the copy *)
Definition get_remainder_copy_t (b : scanner) : timed str :=
  steps (length (input b) - pos b) (now (get_remainder_str_unchecked b)).
(* fundu-core/src/parse.rs:789-801 *)
Fixpoint strip_loop8_t (fuel : nat) (start : nat) (strip : bool) (b : scanner) : timed (nat * bool * scanner) :=
  match fuel with
  | O => now (Crash CrashFuel)
  | S f => steps 1
    match parse_8_digits b with
    | None => now (Ok (start, strip, b))
    | Some (eight, b') =>
        if strip then
          if eight =? ASCII_EIGHT_ZEROS then strip_loop8_t f (start + 8) true b'
          else
            let^ d := now (arith is_u64 (eight - ASCII_EIGHT_ZEROS)) in
            let leading_zeros := trailing_zeros_u64 d / 8 in
            strip_loop8_t f (start + Z.to_nat leading_zeros) false b'
        else strip_loop8_t f start false b'
    end
  end.
(* fundu-core/src/parse.rs:803-817 *)
Fixpoint strip_loop1_t (fuel : nat) (start : nat) (strip : bool) (b : scanner) : timed (nat * scanner) :=
  match fuel with
  | O => now (Crash CrashFuel)
  | S f => steps 1
    match cur b with
    | None => now (Ok (start, b))
    | Some x =>
        let digit := wrap_u8 (x - 48) in
        if digit <? 10 then
          if strip then
            if digit =? 0 then strip_loop1_t f (start + 1) true (advance b)
            else strip_loop1_t f start false (advance b)
          else strip_loop1_t f start false (advance b)
        else now (Ok (start, b))
    end
  end.
(* fundu-core/src/parse.rs:782-820 *)
Definition parse_digits_strip_zeros_t (b : scanner) : timed (scanner * (nat * nat)) :=
  let^ _ := now (debug_assert (match cur b with Some x => is_digit x | None => false end)) in
  let^ r := strip_loop8_t (loop_fuel b) (pos b) true b in
  let '(start, strip, b1) := r in
  let^ r := strip_loop1_t (loop_fuel b) start strip b1 in
  let '(start, b2) := r in
  now (Ok (b2, (start, pos b2))).
(* fundu-core/src/parse.rs:826 *)
Fixpoint digits_loop8_t (fuel : nat) (b : scanner) : timed scanner :=
  match fuel with
  | O => now (Crash CrashFuel)
  | S f => steps 1 match parse_8_digits b with Some (_, b') => digits_loop8_t f b' | None => now (Ok b) end
  end.
(* fundu-core/src/parse.rs:827 *)
Fixpoint digits_loop1_t (fuel : nat) (b : scanner) : timed scanner :=
  match fuel with
  | O => now (Crash CrashFuel)
  | S f => steps 1 match parse_digit b with Some (_, b') => digits_loop1_t f b' | None => now (Ok b) end
  end.
(* fundu-core/src/parse.rs:822-830 *)
Definition parse_digits_t (b : scanner) : timed (scanner * (nat * nat)) :=
  let^ _ := now (debug_assert (match cur b with Some x => is_digit x | None => false end)) in
  let start := pos b in
  let^ b1 := digits_loop8_t (loop_fuel b) b in
  let^ b2 := digits_loop1_t (loop_fuel b) b1 in
  now (Ok (b2, (start, pos b2))).
(** the bytes which are compared: at most the word *)
(* fundu-core/src/parse.rs:855-859 *)
Definition next_is_t (b : scanner) (word : str) : timed bool :=
  steps (length word) (now (Ok (next_is_ignore_ascii_case b word))).
(* fundu-core/src/parse.rs:866-875 *)
Definition check_end_of_input_t (b : scanner) : timed unit :=
  match cur b with
  | None => now (Ok tt)
  | Some _ =>
      let^ remainder := get_remainder_str_t b in
      now (Err (Syntax (pos b) (%"Expected end of input but found: '" ++ remainder ++ %"'")))
  end.
(* fundu-core/src/parse.rs:877-903 *)
Definition try_consume_delimiter_t (d : delimiter) (b : scanner) : timed scanner :=
  let^ c := now (unwrap (cur b)) in
  let^ _ := now (debug_assert (d c)) in
  if (pos b =? 0)%nat then now (Err (Syntax 0 (%"Input may not start with a delimiter")))
  else
    let start := pos b in
    let^ b' := skip_until_t (loop_fuel b) (fun x => negb (d x)) (advance b) in
    match cur b' with
    | Some _ => now (Ok b')
    | None => now (Err (Syntax start (%"Input may not end with a delimiter")))
    end.

(** ** Tables *)
(** the lookup of an identifier *)
(* fundu-core/src/time.rs trait TimeUnitsLike::get *)
Definition u_get_t (t : units_like) (id : str) : timed (option (time_unit * multiplier)) :=
  steps (S (length id)) (now (Ok (u_get t id))).
(* fundu-core/src/parse.rs trait NumbersLike::get *)
Definition numeral_get_t (t : numbers_like) (id : str) : timed (option multiplier) :=
  steps (S (length id)) (now (Ok (t id))).

(** ** Numbers *)
(* fundu-core/src/parse.rs:275-285 *)
Fixpoint whole_chunks_t (seconds : Z) (cs : list str) : timed (option Z) :=
  match cs with
  | [] => now (Ok (Some seconds))
  | c :: cs' => steps 1
      match chk is_u64 (seconds * 100000000) with
      | None => now (Ok None)
      | Some s =>
          let^ v := now (swar_8_digits c) in
          match chk is_u64 (s + v) with
          | Some s' => whole_chunks_t s' cs'
          | None => now (Ok None)
          end
      end
  end.
(* fundu-core/src/parse.rs:286-296, 298-308 *)
Fixpoint whole_digits_t (seconds : Z) (ds : str) : timed (option Z) :=
  match ds with
  | [] => now (Ok (Some seconds))
  | num :: ds' => steps 1
      match chk is_u64 (seconds * 10) with
      | None => now (Ok None)
      | Some s =>
          let^ v := now (arith is_u8 (num - 48)) in
          match chk is_u64 (s + v) with
          | Some s' => whole_digits_t s' ds'
          | None => now (Ok None)
          end
      end
  end.
(* fundu-core/src/parse.rs:271-311 *)
Definition whole_parse_slice_t (seconds : Z) (digits : str) : timed (option Z) :=
  if (8 <=? length digits)%nat then
    let '(cs, r) := chunks_exact8 digits in
    let^ o := whole_chunks_t seconds cs in
    match o with
    | Some s => whole_digits_t s r
    | None => now (Ok None)
    end
  else whole_digits_t seconds digits.
(* fundu-core/src/parse.rs:313-334 *)
Definition whole_parse_t (digits : str) (append : option str) (zeros : option nat) : timed (option Z) :=
  if is_empty digits && none_or_empty append then now (Ok (Some 0))
  else
    let^ o := whole_parse_slice_t 0 digits in
    match o with
    | None => now (Ok None)
    | Some s =>
        let^ o := match append with None => now (Ok (Some s)) | Some a => whole_parse_slice_t s a end in
        match o with
        | None => now (Ok None)
        | Some seconds =>
            if seconds =? 0 then now (Ok (Some 0))
            else match zeros with
                 | Some num_zeros =>
                     if (0 <? num_zeros)%nat then
                       match nth_error POW10 num_zeros with
                       | Some pow => now (Ok (chk is_u64 (seconds * pow)))
                       | None => now (Ok None)
                       end
                     else now (Ok (Some seconds))
                 | None => now (Ok (Some seconds))
                 end
        end
    end.
(* fundu-core/src/parse.rs:357-360 *)
Fixpoint fract_chunks_t (attos : Z) (cs : list str) : timed Z :=
  match cs with
  | [] => now (Ok attos)
  | c :: cs' => steps 1
      (let^ p := now (arith is_u64 (attos * 100000000)) in
      let^ v := now (swar_8_digits c) in
      let^ a := now (arith is_u64 (p + v)) in
      fract_chunks_t a cs')
  end.
(* fundu-core/src/parse.rs:361-363, 365-367 *)
Fixpoint fract_digits_t (attos : Z) (ds : str) : timed Z :=
  match ds with
  | [] => now (Ok attos)
  | num :: ds' => steps 1
      (let^ p := now (arith is_u64 (attos * 10)) in
      let^ v := now (arith is_u8 (num - 48)) in
      let^ a := now (arith is_u64 (p + v)) in
      fract_digits_t a ds')
  end.
(* fundu-core/src/parse.rs:353-370 *)
Definition fract_parse_slice_t (attos : Z) (max_to_parse : nat) (digits : str) : timed (Z * nat) :=
  let num_parsable := Nat.min (length digits) max_to_parse in
  let^ ds := now (slice digits 0 num_parsable) in
  let^ a :=
    (if (8 <=? num_parsable)%nat then
       let '(cs, r) := chunks_exact8 ds in
       let^ a := fract_chunks_t attos cs in
       fract_digits_t a r
     else fract_digits_t attos ds) in
  now (Ok (a, max_to_parse - num_parsable)%nat).
(* fundu-core/src/parse.rs:372-408 *)
Definition fract_parse_t (digits : str) (prepend : option str) (zeros : option nat) : timed Z :=
  if is_empty digits && none_or_empty prepend then now (Ok 0)
  else
    match (match zeros with
           | Some z => if (18 <? z)%nat then None else Some (18 - z)%nat
           | None => Some 18%nat
           end) with
    | None => now (Ok 0)
    | Some max_to_parse =>
        let plain :=
          let^ r := fract_parse_slice_t 0 max_to_parse digits in
          let '(attos, remainder) := r in
          if (0 <? remainder)%nat then now (mul_pow10 attos remainder) else now (Ok attos) in
        match prepend with
        | Some p =>
            if negb (is_empty p) then
              let^ r := fract_parse_slice_t 0 max_to_parse p in
              let '(attos, remainder) := r in
              if (remainder =? 0)%nat then now (Ok attos)
              else if is_empty digits then now (mul_pow10 attos remainder)
              else
                let^ r := fract_parse_slice_t attos remainder digits in
                let '(attos, remainder) := r in
                if (0 <? remainder)%nat then now (mul_pow10 attos remainder) else now (Ok attos)
            else plain
        | None => plain
        end
    end.
(* fundu-core/src/parse.rs:484-554 *)
Definition split_number_t (digits : str) (exponent : Z) (whole fract : option (nat * nat))
  : timed (option (Z * Z)) :=
  let exponent_abs := Z.to_nat (Z.abs exponent) in
  match Z.compare exponent 0 with
  | Lt =>
      let^ first_branch :=
        match whole with
        | Some w => let^ l := now (range_len w) in now (Ok (exponent_abs <? l)%nat)
        | None => now (Ok false)
        end in
      match first_branch, whole with
      | true, Some w =>
          let^ e := now (sub_usize (snd w) exponent_abs) in
          let^ ds := now (slice digits (fst w) e) in
          let^ o := whole_parse_t ds None None in
          match o with
          | None => now (Ok None)
          | Some seconds =>
              let^ fd := now (opt_slice digits fract) in
              let^ pd := now (slice digits e (snd w)) in
              let^ attos := fract_parse_t fd (Some pd) None in
              now (Ok (Some (seconds, attos)))
          end
      | _, _ =>
          let^ attos :=
            match fract with
            | Some f =>
                if range_is_empty f then
                  let^ wd := now (opt_slice digits whole) in
                  let^ l := now (opt_len whole) in
                  let^ z := now (sub_usize exponent_abs l) in
                  fract_parse_t wd None (Some z)
                else
                  let^ fd := now (range_slice digits f) in
                  let^ pd := match whole with
                             | Some w => if range_is_empty w then now (Ok None)
                                         else let^ s := now (range_slice digits w) in now (Ok (Some s))
                             | None => now (Ok None)
                             end in
                  let^ l := now (opt_len whole) in
                  let^ z := now (sub_usize exponent_abs l) in
                  fract_parse_t fd pd (Some z)
            | None =>
                let^ wd := now (opt_slice digits whole) in
                let^ l := now (opt_len whole) in
                let^ z := now (sub_usize exponent_abs l) in
                fract_parse_t wd None (Some z)
            end in
          now (Ok (Some (0, attos)))
      end
  | Eq =>
      let^ o := match whole with
                | None => now (Ok (Some 0))
                | Some w => let^ ds := now (range_slice digits w) in whole_parse_t ds None None
                end in
      match o with
      | None => now (Ok None)
      | Some seconds =>
          let^ attos := match fract with
                        | None => now (Ok 0)
                        | Some f => let^ fd := now (range_slice digits f) in fract_parse_t fd None None
                        end in
          now (Ok (Some (seconds, attos)))
      end
  | Gt =>
      let^ first_branch :=
        match fract with
        | Some f => let^ l := now (range_len f) in now (Ok (exponent_abs <? l)%nat)
        | None => now (Ok false)
        end in
      match first_branch, fract with
      | true, Some f =>
          let^ wd := now (opt_slice digits whole) in
          let^ ad := now (slice digits (fst f) (fst f + exponent_abs)) in
          let^ o := whole_parse_t wd (Some ad) None in
          match o with
          | None => now (Ok None)
          | Some seconds =>
              let^ fd := now (slice digits (fst f + exponent_abs) (snd f)) in
              let^ attos := fract_parse_t fd None None in
              now (Ok (Some (seconds, attos)))
          end
      | _, _ =>
          let^ wd := now (opt_slice digits whole) in
          let^ ad := match fract with
                     | None => now (Ok None)
                     | Some f => let^ s := now (range_slice digits f) in now (Ok (Some s))
                     end in
          let^ l := now (opt_len fract) in
          let^ z := now (sub_usize exponent_abs l) in
          let^ o := whole_parse_t wd ad (Some z) in
          match o with
          | None => now (Ok None)
          | Some seconds => now (Ok (Some (seconds, 0)))
          end
      end
  end.
(* fundu-core/src/parse.rs:436-568 *)
Definition repr_parse_t (r : repr) : timed duration :=
  if r_is_infinite r then now (Ok (from_std (neg_or_default (r_is_negative r)) STD_MAX))
  else
    match r_whole r, r_fract r with
    | None, None =>
        match r_numeral r, r_unit r with
        | Some numeral, u =>
            let^ time_unit := now (unwrap u) in
            let^ m1 := now (mul_mul numeral (unit_multiplier time_unit)) in
            let^ m := now (mul_mul m1 (r_multiplier r)) in
            now (parse_duration_with_fixed_number r (coef m) (expo m))
        | None, Some time_unit =>
            let^ m := now (mul_mul (unit_multiplier time_unit) (r_multiplier r)) in
            now (parse_duration_with_fixed_number r (coef m) (expo m))
        | None, None => now (Crash CrashUnreachable)
        end
    | _, _ =>
        let time_unit := match r_unit r with Some u => u | None => r_default_unit r end in
        let^ m := now (mul_mul (unit_multiplier time_unit) (r_multiplier r)) in
        let coefficient := coef m in
        if coefficient =? 0 then now (Ok ZERO)
        else
          let^ exponent := now (arith is_i32 (expo m + r_exponent r)) in
          let is_neg := xorb (neg_or_default (r_is_negative r)) (coefficient <? 0) in
          let^ o := split_number_t (r_input r) exponent (r_whole r) (r_fract r) in
          now (finish_number is_neg coefficient o)
    end.

(** ** trait ReprParserTemplate *)
(* fundu-core/src/parse.rs:906-942 *)
Record template_t (O : Type) : Type := TemplateT {
  tt_make_output : scanner -> repr -> O;
  tt_parse_infinity_remainder : scanner -> repr -> config -> timed O;
  tt_parse_keyword : scanner -> option units_like -> config
                    -> timed (scanner * option (time_unit * multiplier));
  tt_parse_time_unit : scanner -> config -> units_like
                      -> timed (scanner * option (time_unit * multiplier));
  tt_parse_number_time_unit : scanner -> repr -> config -> units_like -> timed (scanner * repr * bool);
  tt_finalize : scanner -> repr -> config -> timed O
}.
Arguments tt_make_output {O}. Arguments tt_parse_infinity_remainder {O}.
Arguments tt_parse_keyword {O}. Arguments tt_parse_time_unit {O}.
Arguments tt_parse_number_time_unit {O}. Arguments tt_finalize {O}.

(* fundu-core/src/parse.rs:950-986 *)
Definition parse_numeral_t (b : scanner) (numerals : option numbers_like) (c : config)
  : timed (scanner * option (str * multiplier)) :=
  match numerals with
  | None => now (Ok (b, None))
  | Some numerals =>
      let start := pos b in
      let^ r := buffered_advance_to_t (c_inner_delimiter c) b in
      let '(b, buf) := r in
      if is_empty buf then now (Ok (b, None))
      else
        let^ string := now (str_unchecked buf) in
        let^ o := numeral_get_t numerals string in
        match o with
        | None => now (Ok (reset b start, None))
        | Some m =>
            match cur b with
            | Some x =>
                if c_inner_delimiter c x then
                  let^ b := try_consume_delimiter_t (c_inner_delimiter c) b in
                  now (Ok (b, Some (string, m)))
                else now (Ok (reset b start, None))
            | None => now (Ok (reset b start, None))
            end
        end
  end.
(* fundu-core/src/parse.rs:1122-1145 *)
Definition parse_number_sign_t (b : scanner) (r : repr) (c : config) : timed (scanner * repr) :=
  let^ s := now (parse_sign_is_negative b) in
  let '(b, o) := s in
  match o with
  | None => now (Ok (b, r))
  | Some is_neg =>
      let r := set_negative r is_neg in
      match cur b with
      | Some x =>
          if c_allow_sign_delimiter c && c_inner_delimiter c x then
            let^ b := try_consume_delimiter_t (c_inner_delimiter c) b in now (Ok (b, r))
          else now (Ok (b, r))
      | None => now (Err (Syntax (pos b) (%"Unexpected end of input. Sign without a number")))
      end
  end.
(* fundu-core/src/parse.rs:1153-1190 *)
Definition parse_number_fraction_t (b : scanner) (r : repr) (disable_fraction : bool)
  : timed (scanner * repr * bool) :=
  match cur b with
  | Some x =>
      if (x =? 46) && negb disable_fraction then
        let b := advance b in
        let no_whole := match r_whole r with None => true | Some _ => false end in
        match cur b with
        | Some y =>
            if is_digit y then
              let^ f := parse_digits_t b in
              let '(b, f) := f in now (Ok (b, set_fract r f, true))
            else if no_whole then
              let^ p := now (sub_usize (pos b) 1) in
              now (Err (Syntax p (%"Either the whole number part or the fraction must be present")))
            else now (Ok (b, set_fract r (pos b, pos b), true))
        | None =>
            if no_whole then
              let^ p := now (sub_usize (pos b) 1) in
              now (Err (Syntax p (%"Either the whole number part or the fraction must be present")))
            else now (Ok (b, set_fract r (pos b, pos b), false))
        end
      else if x =? 46 then now (Err (Syntax (pos b) (%"No fraction allowed")))
      else now (Ok (b, r, true))
  | None => now (Ok (b, r, false))
  end.
(* fundu-core/src/parse.rs:1198-1224 *)
Fixpoint exponent_loop_t (fuel : nat) (is_neg : bool) (exponent : Z) (b : scanner) : timed (scanner * Z) :=
  match fuel with
  | O => now (Crash CrashFuel)
  | S f => steps 1
    match cur b with
    | Some x =>
        let digit := wrap_u8 (x - 48) in
        if digit <? 10 then
          if is_neg then
            match (let? e := chk is_i16 (exponent * 10) in chk is_i16 (e - digit)) with
            | Some e => exponent_loop_t f is_neg e (advance b)
            | None => now (Err NegativeExponentOverflow)
            end
          else
            match (let? e := chk is_i16 (exponent * 10) in chk is_i16 (e + digit)) with
            | Some e => exponent_loop_t f is_neg e (advance b)
            | None => now (Err PositiveExponentOverflow)
            end
        else now (Ok (b, exponent))
    | None => now (Ok (b, exponent))
    end
  end.
(* fundu-core/src/parse.rs:1192-1237 *)
Definition parse_exponent_t (b : scanner) : timed (scanner * Z) :=
  let^ s := now (parse_sign_is_negative b) in
  let '(b, o) := s in
  let is_neg := neg_or_default o in
  let start := pos b in
  let^ r := exponent_loop_t (loop_fuel b) is_neg 0 b in
  let '(b, exponent) := r in
  let^ n := now (sub_usize (pos b) start) in
  if (0 <? n)%nat then now (Ok (b, exponent))
  else if is_end_of_input b then
    now (Err (Syntax (pos b) (%"Expected exponent but reached end of input")))
  else now (Err (Syntax (pos b) (%"The exponent must have at least one digit"))).
(* fundu-core/src/parse.rs:1239-1258 *)
Definition parse_number_exponent_t (b : scanner) (r : repr) (disable_exponent : bool)
  : timed (scanner * repr * bool) :=
  match cur b with
  | Some x =>
      if eq_nocase x 101 && negb disable_exponent then
        let^ e := parse_exponent_t (advance b) in
        let '(b, e) := e in now (Ok (b, set_exponent r e, true))
      else if eq_nocase x 101 then now (Err (Syntax (pos b) (%"No exponent allowed")))
      else now (Ok (b, r, true))
  | None => now (Ok (b, r, false))
  end.
(* fundu-core/src/parse.rs:1260-1273 *)
Definition parse_number_delimiter_t (b : scanner) (d : option delimiter) : timed (scanner * bool) :=
  match cur b, d with
  | Some x, Some d =>
      if d x then let^ b := try_consume_delimiter_t d b in now (Ok (b, true)) else now (Ok (b, true))
  | Some _, None => now (Ok (b, true))
  | None, _ => now (Ok (b, false))
  end.

Section Template.
Context {O : Type} (T : template_t O).
(* fundu-core/src/parse.rs:1078-1099 *)
Definition template_number_t (b : scanner) (r : repr) (c : config) (time_units : units_like) : timed O :=
  let^ x := parse_number_fraction_t b r (c_disable_fraction c) in
  let '(b, r, go) := x in
  if negb go then now (Ok (tt_make_output T b r)) else
  let^ x := parse_number_exponent_t b r (c_disable_exponent c) in
  let '(b, r, go) := x in
  if negb go then now (Ok (tt_make_output T b r)) else
  let^ x := parse_number_delimiter_t b
              (if c_allow_time_unit_delimiter c then Some (c_inner_delimiter c) else None) in
  let '(b, go) := x in
  if negb go then now (Ok (tt_make_output T b r)) else
  let^ x := tt_parse_number_time_unit T b r c time_units in
  let '(b, r, go) := x in
  if negb go then now (Ok (tt_make_output T b r)) else
  tt_finalize T b r c.
(* fundu-core/src/parse.rs:1040-1061; the identifier is copied into the message *)
Definition template_numeral_t (b : scanner) (r : repr) (c : config) (time_units : units_like)
    (numerals : option numbers_like) : timed O :=
  let^ x := parse_numeral_t b numerals c in
  let '(b, o) := x in
  match o with
  | Some (id, numeral) =>
      let^ x := tt_parse_time_unit T b c time_units in
      let '(b, o) := x in
      match o with
      | Some um => tt_finalize T b (set_unit (set_numeral r numeral) um) c
      | None => steps (length id)
          (if u_is_empty time_units then
            now (Err (TimeUnitErr (pos b)
                   (%"Found numeral '" ++ id ++ %"' without time units being defined")))
          else
            now (Err (TimeUnitErr (pos b) (%"Found numeral '" ++ id ++ %"' without a time unit"))))
      end
  | None => let^ remainder := get_remainder_str_t b in now (Err (InvalidInput remainder))
  end.
(* fundu-core/src/parse.rs:1020-1066 *)
Definition template_word_t (b : scanner) (r : repr) (c : config) (time_units : units_like)
    (keywords : option units_like) (numerals : option numbers_like) : timed O :=
  let^ x := tt_parse_keyword T b keywords c in
  let '(b, o) := x in
  match o with
  | Some um => tt_finalize T b (set_unit r um) c
  | None =>
      if c_number_is_optional c then
        let start := pos b in
        let^ x := tt_parse_time_unit T b c time_units in
        let '(b, o) := x in
        match o with
        | Some um => tt_finalize T b (set_unit r um) c
        | None => template_numeral_t (reset b start) r c time_units numerals
        end
      else template_numeral_t b r c time_units numerals
  end.
(* fundu-core/src/parse.rs:988-1100 *)
Definition template_parse_t (b : scanner) (c : config) (time_units : units_like)
    (keywords : option units_like) (numerals : option numbers_like) : timed O :=
  match cur b with
  | None => now (Err Empty)
  | Some _ =>
      let^ x := parse_number_sign_t b (repr_init c b) c in
      let '(b, r) := x in
      match cur b with
      | Some byte =>
          if is_digit byte then
            let^ x := parse_digits_strip_zeros_t b in
            let '(b, w) := x in
            template_number_t b (set_whole r w) c time_units
          else if byte =? 46 then template_number_t b r c time_units
          else
            let^ inf := (if negb (c_disable_infinity c) then next_is_t b (%"inf") else now (Ok false)) in
            if (inf : bool) then tt_parse_infinity_remainder T (advance_by b 3) r c
            else template_word_t b r c time_units keywords numerals
      | None => now (Err (Syntax (pos b) (%"Unexpected end of input")))
      end
  end.
End Template.

(** ** ReprParserSingle *)
(* fundu-core/src/parse.rs:1313-1334 *)
Fixpoint infinity_loop_single_t (expected : str) (b : scanner) : timed scanner :=
  match expected with
  | [] => now (Ok b)
  | e :: expected' => steps 1
      match cur b with
      | Some x =>
          if eq_nocase x e then infinity_loop_single_t expected' (advance b)
          else now (Err (Syntax (pos b)
                 (%"Error parsing infinity: Invalid character '" ++ char_of_byte x ++ %"'")))
      | None => now (Err (Syntax (pos b) (%"Error parsing infinity: Premature end of input")))
      end
  end.
(* fundu-core/src/parse.rs:1301-1338 *)
Definition single_infinity_remainder_t (b : scanner) (r : repr) (c : config) : timed repr :=
  if is_end_of_input b then now (Ok (set_infinite r))
  else
    let^ b := infinity_loop_single_t (%"inity") b in
    let^ _ := check_end_of_input_t b in
    now (Ok (set_infinite r)).
(* fundu-core/src/parse.rs:1340-1358 *)
Definition single_keyword_t (b : scanner) (keywords : option units_like) (c : config)
  : timed (scanner * option (time_unit * multiplier)) :=
  match keywords with
  | None => now (Ok (b, None))
  | Some keywords =>
      let^ keyword := now (get_remainder_str_unchecked b) in
      let^ o := u_get_t keywords keyword in
      match o with
      | None => now (Ok (b, None))
      | Some um => now (Ok (finish b, Some um))
      end
  end.
(* fundu-core/src/parse.rs:1360-1420 *)
Definition single_time_unit_t (b : scanner) (c : config) (time_units : units_like)
  : timed (scanner * option (time_unit * multiplier)) :=
  let^ _ := now (debug_assert (negb (is_end_of_input b))) in
  if c_allow_ago c then
    let start := pos b in
    let^ x := advance_to_t (c_inner_delimiter c) b in
    let '(b, s) := x in
    let^ string := now (str_unchecked s) in
    if is_empty string then now (Ok (b, None))
    else
      let^ o := u_get_t time_units string in
      match o with
      | None => now (Ok (reset b start, None))
      | Some (time_unit, multiplier) =>
          match cur b with
          | Some _ =>
              let^ b := try_consume_delimiter_t (c_inner_delimiter c) b in
              let^ ago := next_is_t b (%"ago") in
              if (ago : bool) then
                now (Ok (advance_by b 3, Some (time_unit, mul_saturating_neg multiplier)))
              else now (Ok (reset b start, None))
          | None => now (Ok (b, Some (time_unit, multiplier)))
          end
      end
  else
    let^ string := now (get_remainder_str_unchecked b) in
    let^ o := u_get_t time_units string in
    match o with
    | None => now (Ok (b, None))
    | Some um => now (Ok (finish b, Some um))
    end.
(* fundu-core/src/parse.rs:1422-1457 *)
Definition single_number_time_unit_t (b : scanner) (r : repr) (c : config) (time_units : units_like)
  : timed (scanner * repr * bool) :=
  match cur b with
  | Some _ =>
      if negb (u_is_empty time_units) then
        let^ x := single_time_unit_t b c time_units in
        let '(b, o) := x in
        match o with
        | Some um => now (Ok (b, set_unit r um, true))
        | None =>
            let^ remainder := get_remainder_str_t b in
            now (Err (TimeUnitErr (pos b) (%"Invalid time unit: '" ++ remainder ++ %"'")))
        end
      else
        let^ remainder := get_remainder_copy_t b in
        now (Err (TimeUnitErr (pos b) (%"No time units allowed but found: '" ++ remainder ++ %"'")))
  | None => now (Ok (b, r, false))
  end.
(* fundu-core/src/parse.rs:1459-1466 *)
Definition single_finalize_t (b : scanner) (r : repr) (c : config) : timed repr :=
  let^ _ := check_end_of_input_t b in now (Ok r).
(* fundu-core/src/parse.rs:1288-1466 *)
Definition single_t : template_t repr := {|
  tt_make_output := fun _ r => r;
  tt_parse_infinity_remainder := single_infinity_remainder_t;
  tt_parse_keyword := single_keyword_t;
  tt_parse_time_unit := single_time_unit_t;
  tt_parse_number_time_unit := single_number_time_unit_t;
  tt_finalize := single_finalize_t
|}.

(** ** ReprParserMultiple *)
(* fundu-core/src/parse.rs:1495-1526; the word is copied into the message *)
Fixpoint conjunction_loop_t (d : delimiter) (start : nat) (ws : list str) (b : scanner) : timed scanner :=
  match ws with
  | [] => now (Ok b)
  | word :: ws' => steps 1
      (let^ here := next_is_t b word in
      if (here : bool) then
        let b := advance_by b (length word) in
        match cur b with
        | Some x =>
            if d x then try_consume_delimiter_t d b
            else if is_next_duration x then now (Ok b)
            else now (Err (Syntax (pos b)
                   (%"A conjunction must be separated by a delimiter, sign or digit but found: '"
                      ++ char_of_byte x ++ %"'")))
        | None => steps (length word)
            (now (Err (Syntax start (%"Input may not end with a conjunction but found: '" ++ word ++ %"'"))))
        end
      else conjunction_loop_t d start ws' b)
  end.
(* fundu-core/src/parse.rs:1485-1528 *)
Definition try_consume_connection_t (d : delimiter) (conjunctions : list str) (b : scanner) : timed scanner :=
  let^ x := now (unwrap (cur b)) in
  let^ _ := now (debug_assert (d x)) in
  let^ b := try_consume_delimiter_t d b in
  conjunction_loop_t d (pos b) conjunctions b.
(* fundu-core/src/parse.rs:1551-1554, 1596-1599, 1642-1645, 1725-1728, 1766-1769 *)
Definition connect_t (c : config) (b : scanner) : timed scanner :=
  try_consume_connection_t (c_outer_delimiter c) (conjunctions_or_default c) b.
(* fundu-core/src/parse.rs:1563-1590 *)
Fixpoint infinity_loop_multi_t (start : nat) (expected : str) (b : scanner) : timed scanner :=
  match expected with
  | [] => now (Ok b)
  | e :: expected' => steps 1
      match cur b with
      | Some x =>
          if eq_nocase x e then infinity_loop_multi_t start expected' (advance b)
          else now (Err (Syntax (pos b)
                 (%"Error parsing infinity: Invalid character '" ++ char_of_byte x ++ %"'")))
      | None => steps (2 * (pos b - start))
          (let^ p := now (sub_usize start 3) in
          let^ s := now (get_current_str_unwrap b start) in
          now (Err (Syntax p (%"Error parsing infinity: 'inf" ++ s
                           ++ %"' is an invalid identifier for infinity"))))
      end
  end.
(* fundu-core/src/parse.rs:1541-1611 *)
Definition multi_infinity_remainder_t (b : scanner) (r : repr) (c : config) : timed multi_output :=
  let go_on :=
    let start := pos b in
    let^ b := infinity_loop_multi_t start (%"inity") b in
    match cur b with
    | Some x =>
        if c_outer_delimiter c x then
          let^ b := connect_t c b in now (Ok (set_infinite r, Some b))
        else now (Err (Syntax (pos b)
               (%"Error parsing infinity: Expected a delimiter but found '" ++ char_of_byte x ++ %"'")))
    | None => now (Ok (set_infinite r, None))
    end in
  match cur b with
  | Some x =>
      if c_outer_delimiter c x then
        let^ b := connect_t c b in now (Ok (set_infinite r, Some b))
      else go_on
  | None => now (Ok (set_infinite r, None))
  end.
(* fundu-core/src/parse.rs:1613-1654 *)
Definition multi_keyword_t (b : scanner) (keywords : option units_like) (c : config)
  : timed (scanner * option (time_unit * multiplier)) :=
  match keywords with
  | None => now (Ok (b, None))
  | Some keywords =>
      let start := pos b in
      let^ x := buffered_advance_to_t (fun x => c_outer_delimiter c x || is_next_duration x) b in
      let '(b, buf) := x in
      if is_empty buf then now (Ok (b, None))
      else
        let^ string := now (str_unchecked buf) in
        let^ o := u_get_t keywords string in
        match o with
        | None => now (Ok (reset b start, None))
        | Some um =>
            let^ b := match cur b with
                      | Some x => if c_outer_delimiter c x then connect_t c b else now (Ok b)
                      | None => now (Ok b)
                      end in
            now (Ok (b, Some um))
        end
  end.
(* fundu-core/src/parse.rs:1656-1735 *)
Definition multi_time_unit_t (b : scanner) (c : config) (time_units : units_like)
  : timed (scanner * option (time_unit * multiplier)) :=
  let^ _ := now (debug_assert (negb (is_end_of_input b))) in
  let start := pos b in
  let^ x := (if c_allow_ago c then
               buffered_advance_to_t
                 (fun x => c_inner_delimiter c x || c_outer_delimiter c x || is_next_duration x) b
             else buffered_advance_to_t (fun x => c_outer_delimiter c x || is_next_duration x) b) in
  let '(b, buf) := x in
  if is_empty buf then now (Ok (b, None))
  else
    let^ string := now (str_unchecked buf) in
    let^ o := u_get_t time_units string in
    match o with
    | None => now (Ok (reset b start, None))
    | Some (time_unit, multiplier) =>
        let^ y :=
          match cur b with
          | Some x =>
              if c_allow_ago c && c_inner_delimiter c x then
                let start := pos b in
                let^ b := try_consume_delimiter_t (c_inner_delimiter c) b in
                let^ ago := next_is_t b (%"ago") in
                if (ago : bool) then
                  let b := advance_by b 3 in
                  match cur b with
                  | Some y =>
                      if c_outer_delimiter c y || is_next_duration y
                      then now (Ok (b, mul_saturating_neg multiplier))
                      else now (Ok (reset b start, multiplier))
                  | None => now (Ok (b, mul_saturating_neg multiplier))
                  end
                else now (Ok (reset b start, multiplier))
              else now (Ok (b, multiplier))
          | None => now (Ok (b, multiplier))
          end in
        let '(b, multiplier) := y in
        let^ b := match cur b with
                  | Some x => if c_outer_delimiter c x then connect_t c b else now (Ok b)
                  | None => now (Ok b)
                  end in
        now (Ok (b, Some (time_unit, multiplier)))
    end.
(* fundu-core/src/parse.rs:1737-1758 *)
Definition multi_number_time_unit_t (b : scanner) (r : repr) (c : config) (time_units : units_like)
  : timed (scanner * repr * bool) :=
  match cur b with
  | Some _ =>
      if negb (u_is_empty time_units) then
        let^ x := multi_time_unit_t b c time_units in
        let '(b, o) := x in
        match o with
        | Some um => now (Ok (b, set_unit r um, true))
        | None => now (Ok (b, r, true))
        end
      else now (Ok (b, r, true))
  | None => now (Ok (b, r, false))
  end.
(* fundu-core/src/parse.rs:1760-1777 *)
Definition multi_finalize_t (b : scanner) (r : repr) (c : config) : timed multi_output :=
  match cur b with
  | Some x =>
      if c_outer_delimiter c x then let^ b := connect_t c b in now (Ok (r, Some b))
      else now (Ok (r, Some b))
  | None => now (Ok (r, None))
  end.
(* fundu-core/src/parse.rs:1528-1775 *)
Definition multi_t : template_t multi_output := {|
  tt_make_output := multi_make_output;
  tt_parse_infinity_remainder := multi_infinity_remainder_t;
  tt_parse_keyword := multi_keyword_t;
  tt_parse_time_unit := multi_time_unit_t;
  tt_parse_number_time_unit := multi_number_time_unit_t;
  tt_finalize := multi_finalize_t
|}.

(** ** Parser *)
(* fundu-core/src/parse.rs:120-138 *)
Fixpoint multiple_loop_t (fuel : nat) (c : config) (time_units : units_like)
    (keywords : option units_like) (numerals : option numbers_like)
    (d : duration) (b : scanner) : timed duration :=
  match fuel with
  | O => now (Crash CrashFuel)
  | S f => steps 1
    (let^ x := template_parse_t multi_t b c time_units keywords numerals in
    let '(r, maybe_parser) := x in
    let^ parsed := repr_parse_t r in
    let^ d :=
      (if negb (c_allow_negative c) && is_negative parsed then now (Err NegativeNumber)
       else if is_zero parsed then now (Ok d)
       else if is_zero d then now (Ok parsed)
       else now (saturating_add d parsed)) in
    match maybe_parser with
    | Some b => multiple_loop_t f c time_units keywords numerals d b
    | None => now (Ok d)
    end)
  end.
(* fundu-core/src/parse.rs:109-139 *)
Definition parse_multiple_t (c : config) (source : str) (time_units : units_like)
    (keywords : option units_like) (numerals : option numbers_like) : timed duration :=
  multiple_loop_t (S (length source)) c time_units keywords numerals ZERO (bytes_new source).
(* fundu-core/src/parse.rs:140-160 *)
Definition parse_single_t (c : config) (source : str) (time_units : units_like)
    (keywords : option units_like) (numerals : option numbers_like) : timed duration :=
  let^ r := template_parse_t single_t (bytes_new source) c time_units keywords numerals in
  let^ d := repr_parse_t r in
  if negb (c_allow_negative c) && is_negative d then now (Err NegativeNumber) else now (Ok d).
(* fundu-core/src/parse.rs:222-234 *)
Definition parse_t (c : config) (source : str) (time_units : units_like)
    (keywords : option units_like) (numerals : option numbers_like) : timed duration :=
  if c_allow_multiple c then parse_multiple_t c source time_units keywords numerals
  else parse_single_t c source time_units keywords numerals.
