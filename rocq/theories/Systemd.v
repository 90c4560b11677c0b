(** * The systemd parser: fundu-systemd/src/lib.rs *)
From Verif Require Import Prelude Time Config Parse.

(** fundu-systemd/src/lib.rs:211 DELIMITER; u8 `wrapping_sub(9) < 5`. The argument is a u8 in Rust, the [is_u8 b]
    says the same for the model, where it is an integer *)
Definition sd_delimiter : delimiter := fun b => is_u8 b && ((b =? 32) || (wrap_u8 (b - 9) <? 5)).

(** fundu-systemd/src/lib.rs:213-221 CONFIG: the calls on the ConfigBuilder (fundu-core/src/config.rs:347-622), in order *)
Definition sd_CONFIG : config :=
  let c := config_new in
  let c := set_allow_time_unit_delimiter c true in
  let c := set_disable_exponent c true in
  let c := set_disable_infinity c true in
  let c := set_number_is_optional c true in
  let c := set_allow_multiple c true None in
  let c := set_inner_delimiter c sd_delimiter in
  set_outer_delimiter c sd_delimiter.

(** fundu-systemd/src/lib.rs:240-241 SYSTEMD_MAX_MICRO_DURATION: a constant, so that a panic of
    Duration::positive (or an overflow of the u32 product) would be a compile time error *)
Definition SYSTEMD_MAX_MICRO_DURATION : res duration :=
  let* n := arith is_u32 (wrap_u32 (u64_max mod 1000000) * 1000) in
  positive (u64_max / 1000000) n.
(** fundu-systemd/src/lib.rs:244-245 SYSTEMD_MAX_NANOS_DURATION *)
Definition SYSTEMD_MAX_NANOS_DURATION : res duration :=
  positive (u64_max / 1000000000) (wrap_u32 (u64_max mod 1000000000)).

(** fundu-systemd/src/lib.rs:226-235 the constants NANO_SECOND ... YEAR *)
Definition sd_unit (u : time_unit) : option (time_unit * multiplier) := Some (u, Mul 1 0).

(** `match identifier { "a" | "b" | ... => ... }`: one arm *)
(* one arm of the match in fundu-systemd/src/lib.rs:599-645 *)
Definition arm (words : list str) (identifier : str) : bool := existsb (fun w => str_eqb identifier w) words.

(** greek small letter mu U+03BC and micro sign U+00B5, encoded as UTF-8 *)
(* fundu-systemd/src/lib.rs:603, 632 *)
Definition mu_s : str := [206; 188; 115].
(* fundu-systemd/src/lib.rs:603, 632 *)
Definition micro_s : str := [194; 181; 115].

(** fundu-systemd/src/lib.rs:599-615 TimeUnits::get *)
Definition sd_get (id : str) : option (time_unit * multiplier) :=
  if arm [%"us"; mu_s; micro_s; %"usec"] id then sd_unit MicroSecond
  else if arm [%"ms"; %"msec"] id then sd_unit MilliSecond
  else if arm [%"s"; %"sec"; %"second"; %"seconds"] id then sd_unit Second
  else if arm [%"m"; %"min"; %"minute"; %"minutes"] id then sd_unit Minute
  else if arm [%"h"; %"hr"; %"hour"; %"hours"] id then sd_unit Hour
  else if arm [%"d"; %"day"; %"days"] id then sd_unit Day
  else if arm [%"w"; %"week"; %"weeks"] id then sd_unit Week
  else if arm [%"M"; %"month"; %"months"] id then sd_unit Month
  else if arm [%"y"; %"year"; %"years"] id then sd_unit Year
  else None.
(** fundu-systemd/src/lib.rs:627-645 TimeUnitsWithNanos::get *)
Definition sd_get_nanos (id : str) : option (time_unit * multiplier) :=
  if arm [%"ns"; %"nsec"] id then sd_unit NanoSecond
  else if arm [%"us"; mu_s; micro_s; %"usec"] id then sd_unit MicroSecond
  else if arm [%"ms"; %"msec"] id then sd_unit MilliSecond
  else if arm [%"s"; %"sec"; %"second"; %"seconds"] id then sd_unit Second
  else if arm [%"m"; %"min"; %"minute"; %"minutes"] id then sd_unit Minute
  else if arm [%"h"; %"hr"; %"hour"; %"hours"] id then sd_unit Hour
  else if arm [%"d"; %"day"; %"days"] id then sd_unit Day
  else if arm [%"w"; %"week"; %"weeks"] id then sd_unit Week
  else if arm [%"M"; %"month"; %"months"] id then sd_unit Month
  else if arm [%"y"; %"year"; %"years"] id then sd_unit Year
  else None.

(** fundu-systemd/src/lib.rs:592-616, 620-645 impl TimeUnitsLike; is_empty is `false` (594-596, 622-624) *)
Definition sd_TIME_UNITS : units_like := Units false sd_get.
(* fundu-systemd/src/lib.rs:223, 618-646 *)
Definition sd_TIME_UNITS_WITH_NANOS : units_like := Units false sd_get_nanos.

(** fundu-systemd/src/lib.rs:781-799 trim_whitespace. The first loop: split_first *)
Fixpoint trim_start (l : str) : str :=
  match l with
  | [] => []
  | b :: remainder => if (b =? 32) || (wrap_u8 (b - 9) <? 5) then trim_start remainder else l
  end.
(** the second loop: split_last, which is split_first of the reversed slice *)
(* fundu-systemd/src/lib.rs:790-796 second loop *)
Definition trim_end (l : str) : str := rev (trim_start (rev l)).
(* fundu-systemd/src/lib.rs:781-799 *)
Definition sd_trim_whitespace (source : str) : res str := str_unchecked (trim_end (trim_start source)).

(** fundu-systemd/src/lib.rs:314-316 struct TimeSpanParser { raw: Parser }, which is its Config *)
Definition span_parser := config.
(** fundu-systemd/src/lib.rs:335-339 new, 237 PARSER, 583-587 Default *)
Definition sd_new : span_parser := sd_CONFIG.
(** fundu-systemd/src/lib.rs:356-362 with_default_unit *)
Definition sd_with_default_unit (u : time_unit) : span_parser := set_default_unit sd_CONFIG u.
(** fundu-systemd/src/lib.rs:578-580 set_default_unit *)
Definition sd_set_default_unit (p : span_parser) (u : time_unit) : span_parser := set_default_unit p u.

(** fundu-systemd/src/lib.rs:364-366 parse_infinity *)
Definition sd_parse_infinity (source : str) (max : duration) : option duration :=
  if str_eqb source (%"infinity") then Some max else None.

(** fundu-systemd/src/lib.rs:445-455 parse_with_max; `Result::map` *)
Definition sd_parse_with_max (p : span_parser) (source : str) (max : duration) : res duration :=
  let* _ := rassert (is_positive max) in
  let* trimmed := sd_trim_whitespace source in
  match sd_parse_infinity trimmed max with
  | Some d => Ok d
  | None => map_res (fun d => dmin d max) (parse p trimmed sd_TIME_UNITS None None)
  end.
(** fundu-systemd/src/lib.rs:408-410 parse *)
Definition sd_parse (p : span_parser) (source : str) : res duration :=
  let* max := SYSTEMD_MAX_MICRO_DURATION in sd_parse_with_max p source max.
(** fundu-systemd/src/lib.rs:537-551 parse_nanos_with_max *)
Definition sd_parse_nanos_with_max (p : span_parser) (source : str) (max : duration) : res duration :=
  let* _ := rassert (is_positive max) in
  let* trimmed := sd_trim_whitespace source in
  match sd_parse_infinity trimmed max with
  | Some d => Ok d
  | None => map_res (fun d => dmin d max) (parse p trimmed sd_TIME_UNITS_WITH_NANOS None None)
  end.
(** fundu-systemd/src/lib.rs:500-502 parse_nanos *)
Definition sd_parse_nanos (p : span_parser) (source : str) : res duration :=
  let* max := SYSTEMD_MAX_NANOS_DURATION in sd_parse_nanos_with_max p source max.

(* Option::unwrap_or, fundu-systemd/src/lib.rs:696-780 *)
Definition unwrap_or {A} (o : option A) (d : A) : A := match o with Some a => a | None => d end.

(** fundu-systemd/src/lib.rs:696-711 the global function parse *)
Definition sd_global_parse (source : str) (default_unit : option time_unit) (max : option duration) : res duration :=
  let* default_max := SYSTEMD_MAX_MICRO_DURATION in
  match default_unit with
  | None | Some Second => sd_parse_with_max sd_new source (unwrap_or max default_max)
  | Some u => sd_parse_with_max (sd_set_default_unit sd_new u) source (unwrap_or max default_max)
  end.
(** fundu-systemd/src/lib.rs:762-777 the global function parse_nanos *)
Definition sd_global_parse_nanos (source : str) (default_unit : option time_unit) (max : option duration) : res duration :=
  let* default_max := SYSTEMD_MAX_NANOS_DURATION in
  match default_unit with
  | None | Some Second => sd_parse_nanos_with_max sd_new source (unwrap_or max default_max)
  | Some u => sd_parse_nanos_with_max (sd_set_default_unit sd_new u) source (unwrap_or max default_max)
  end.
