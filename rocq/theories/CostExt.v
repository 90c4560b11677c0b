(** * The running time of the public functions

    Steps as in Cost.v; in addition one step for each byte at which a loop of the trimming functions stops or which it
    removes. The arithmetic on dates after the parsing (fundu-gnu) has no loops: no step. *)
From Verif Require Import Prelude Util Time Config Bytes Repr Parse Standard Custom Systemd DateTime Gnu Cost.

(* fundu/src/standard/parser.rs:228-230 *)
Definition dp_parse_t (p : duration_parser) (source : str) : timed duration :=
  parse_t (dp_config p) source (std_units (dp_units p)) None None.
(* fundu/src/custom/parser.rs:398-405 *)
Definition cp_parse_t (p : custom_parser) (source : str) : timed duration :=
  parse_t (cp_config p) source (custom_like (cp_units p))
    (if negb (cu_is_empty (cp_keywords p)) then Some (custom_like (cp_keywords p)) else None)
    (match cp_numerals p with [] => None | l => Some (numerals_get l) end).

(* fundu-systemd/src/lib.rs:781-789 and 790-796 *)
Fixpoint trim_start_t (l : str) : timed str :=
  match l with
  | [] => steps 1 (now (Ok []))
  | b :: remainder => steps 1 (if (b =? 32) || (wrap_u8 (b - 9) <? 5) then trim_start_t remainder else now (Ok l))
  end.
(** the second loop takes bytes from the end *)
(* fundu-systemd/src/lib.rs:781-799, fundu-gnu/src/util.rs:37-55 *)
Definition trim_t (source : str) : timed str :=
  let^ l := trim_start_t source in
  let^ r := trim_start_t (rev l) in
  now (str_unchecked (rev r)).
(* Result::map: no line of /repo *)
Definition map_t {A B} (f : A -> B) (m : timed A) : timed B := (fst m, map_res f (snd m)).
(* fundu-systemd/src/lib.rs:445-455; the comparison with "infinity" looks at nothing if the lengths differ *)
Definition sd_parse_with_max_t (p : span_parser) (source : str) (max : duration) : timed duration :=
  let^ _ := now (rassert (is_positive max)) in
  let^ trimmed := trim_t source in
  steps 8 match sd_parse_infinity trimmed max with
  | Some d => now (Ok d)
  | None => map_t (fun d => dmin d max) (parse_t p trimmed sd_TIME_UNITS None None)
  end.
(* fundu-systemd/src/lib.rs:537-551 *)
Definition sd_parse_nanos_with_max_t (p : span_parser) (source : str) (max : duration) : timed duration :=
  let^ _ := now (rassert (is_positive max)) in
  let^ trimmed := trim_t source in
  steps 8 match sd_parse_infinity trimmed max with
  | Some d => now (Ok d)
  | None => map_t (fun d => dmin d max) (parse_t p trimmed sd_TIME_UNITS_WITH_NANOS None None)
  end.

(** the fraction is read only if the whole number did not overflow *)
(* fundu-gnu/src/lib.rs:346-350, 366-370 *)
Definition gnu_calculate_t (is_neg : bool) (whole : option Z) (fract : timed Z) (coefficient : Z) : timed duration :=
  match whole with
  | Some seconds => let^ attos := fract in now (calculate_duration is_neg seconds attos coefficient)
  | None => now (Ok (min_or_max is_neg))
  end.
(* fundu-gnu/src/lib.rs:314-380 *)
Definition gnu_repr_parse_t (r : repr) : timed duration :=
  let is_neg := neg_or_default (r_is_negative r) in
  let time_unit := match r_unit r with Some u => u | None => r_default_unit r end in
  let digits := r_input r in
  match r_whole r, r_fract r with
  | None, None =>
      match r_numeral r, r_unit r with
      | Some numeral, _ =>
          let^ m1 := now (mul_mul numeral (unit_multiplier time_unit)) in
          let^ m := now (mul_mul m1 (r_multiplier r)) in
          now (parse_duration_with_fixed_number r (coef m) (expo m))
      | None, Some _ =>
          let^ m := now (mul_mul (unit_multiplier time_unit) (r_multiplier r)) in
          now (calculate_duration (xorb is_neg (coef m <? 0)) 1 0 (coef m))
      | None, None => now (Crash CrashUnreachable)
      end
  | None, Some _ =>
      if time_unit_eqb time_unit Second then now (Err (InvalidInput (%"Fraction without a whole number")))
      else now (Err fraction_error)
  | Some whole, None =>
      let^ m := now (mul_mul (unit_multiplier time_unit) (r_multiplier r)) in
      let^ w := now (range_slice digits whole) in
      let^ seconds := whole_parse_t w None None in
      gnu_calculate_t (xorb is_neg (coef m <? 0)) seconds (now (Ok 0)) (coef m)
  | Some whole, Some fract =>
      if time_unit_eqb time_unit Second then
        if range_is_empty fract then now (Err (InvalidInput (%"Fraction without a fractional number")))
        else
          let^ m := now (mul_mul (unit_multiplier time_unit) (r_multiplier r)) in
          let^ w := now (range_slice digits whole) in
          let^ seconds := whole_parse_t w None None in
          gnu_calculate_t (xorb is_neg (coef m <? 0)) seconds
            (let^ f := now (range_slice digits fract) in fract_parse_t f None None) (coef m)
      else now (Err fraction_error)
  end.
(* fundu-gnu/src/lib.rs:395-450 *)
Definition gnu_fuzzy_value_t (r : repr) : timed Z :=
  match r_whole r with
  | None =>
      match r_numeral r with
      | Some numeral =>
          let^ m := now (mul_mul numeral (r_multiplier r)) in
          now (Ok (if neg_or_default (r_is_negative r) then (if coef m =? i64_min then i64_max else - coef m) else coef m))
      | None => now (Ok (if xorb (neg_or_default (r_is_negative r)) (mul_is_negative (r_multiplier r)) then -1 else 1))
      end
  | Some whole =>
      let is_neg := xorb (neg_or_default (r_is_negative r)) (mul_is_negative (r_multiplier r)) in
      let^ w := now (range_slice (r_input r) whole) in
      let^ value := whole_parse_t w None None in
      match (let? v := value in chk is_i64 v) with
      | Some v => if is_neg then now (arith is_i64 (- v)) else now (Ok v)
      | None => now (Ok (if is_neg then i64_min else i64_max))
      end
  end.
(* fundu-gnu/src/lib.rs:382-452 *)
Definition gnu_repr_parse_fuzzy_t (r : repr) : timed fuzzy_output :=
  match r_unit r with
  | Some Month =>
      match r_fract r with Some _ => now (Err fraction_error) | None => let^ v := gnu_fuzzy_value_t r in now (Ok (FMonths v)) end
  | Some Year =>
      match r_fract r with Some _ => now (Err fraction_error) | None => let^ v := gnu_fuzzy_value_t r in now (Ok (FYears v)) end
  | _ => let^ d := gnu_repr_parse_t r in now (Ok (FDuration d))
  end.
(* fundu-gnu/src/lib.rs:671-698 *)
Fixpoint gnu_fuzzy_loop_t (fuel : nat) (p : relative_parser) (years months : Z) (d : duration) (b : scanner)
  : timed (Z * Z * duration) :=
  match fuel with
  | O => now (Crash CrashFuel)
  | S f => steps 1
    (let^ x := template_parse_t multi_t b p gnu_TIME_UNITS (Some gnu_TIME_KEYWORDS) (Some gnu_NUMERALS) in
    let '(r, maybe_parser) := x in
    let^ out := gnu_repr_parse_fuzzy_t r in
    let^ st :=
      match out with
      | FDuration parsed =>
          if is_zero d then now (Ok (years, months, parsed))
          else if is_zero parsed then now (Ok (years, months, d))
          else let^ d := now (saturating_add d parsed) in now (Ok (years, months, d))
      | FMonths v => now (Ok (years, i64_saturating_add months v, d))
      | FYears v => now (Ok (i64_saturating_add years v, months, d))
      end in
    let '(years, months, d) := st in
    match maybe_parser with
    | Some b => gnu_fuzzy_loop_t f p years months d b
    | None => now (Ok (years, months, d))
    end)
  end.
(* fundu-gnu/src/lib.rs:662-699 *)
Definition gnu_parse_fuzzy_t (p : relative_parser) (source : str) : timed (Z * Z * duration) :=
  let^ trimmed := trim_t source in
  gnu_fuzzy_loop_t (S (length trimmed)) p 0 0 ZERO (bytes_new trimmed).
(* fundu-gnu/src/lib.rs:612-631 *)
Definition gnu_parse_with_date_t (p : relative_parser) (clock : std_duration + std_duration) (source : str)
    (date : option date_time) : timed duration :=
  let^ x := gnu_parse_fuzzy_t p source in
  let '(years, months, d) := x in
  if (years =? 0) && (months =? 0) then now (Ok d)
  else
    let^ orig := match date with Some date => now (Ok date) | None => now (now_utc_with_system_time clock) end in
    let^ o := now (checked_add_duration orig d) in
    match o with
    | None => now (Err Overflow)
    | Some date =>
        let^ o := now (checked_add_gregorian date years months 0) in
        match o with
        | None => now (Err Overflow)
        | Some date =>
            let^ o := now (duration_since date orig) in
            match o with Some d => now (Ok d) | None => now (Err Overflow) end
        end
    end.
