(** * The gnu parser: fundu-gnu/src/lib.rs and fundu-gnu/src/util.rs (the calendar is in DateTime.v) *)
From Verif Require Import Prelude Util Time Config Bytes Repr Parse Systemd DateTime.

(** fundu-gnu/src/lib.rs:264 DELIMITER. The argument is a u8 in Rust, the [is_u8 b] says the same for the model *)
Definition gnu_delimiter : delimiter := fun b => is_u8 b && ((b =? 32) || (wrap_u8 (b - 9) <? 5)).

(** fundu-gnu/src/lib.rs:266-277 CONFIG: the calls on the ConfigBuilder, in order; allow_ago also sets allow_negative
    (fundu-core/src/config.rs:550-554) *)
Definition gnu_CONFIG : config :=
  let c := config_new in
  let c := set_allow_time_unit_delimiter c true in
  let c := set_allow_negative (set_allow_ago_only c true) true in
  let c := set_disable_exponent c true in
  let c := set_disable_infinity c true in
  let c := set_allow_negative c true in
  let c := set_number_is_optional c true in
  let c := set_allow_multiple c true None in
  let c := set_allow_sign_delimiter c true in
  let c := set_inner_delimiter c gnu_delimiter in
  set_outer_delimiter c gnu_delimiter.

(** fundu-gnu/src/util.rs:33-51 trim_whitespace: the loops are those of fundu-systemd/src/lib.rs:781-799 (Systemd.v) *)
Definition gnu_trim_whitespace (source : str) : res str := str_unchecked (trim_end (trim_start source)).

(** fundu-gnu/src/util.rs:59-69 LOWER_CASE_MASK *)
Definition LOWER_CASE_MASK : list Z :=
  [ 0x0; 0x20; 0x2020; 0x202020; 0x20202020; 0x2020202020; 0x202020202020; 0x20202020202020; 0x2020202020202020 ].
(** fundu-gnu/src/util.rs:58-106 to_lowercase_u64. The bytes are copied into a zeroed array of two u64, which are then read
    as little endian numbers ([u64::from_le]). The debug_assert (72-75: at most 16 bytes) is dropped: every caller has
    matched the length before, see [lookup_lengths] in GnuWords.v. *)
Definition to_lowercase_u64 (string : str) : Z * Z :=
  if (8 <? length string)%nat then
    (Z.lor (le_num (firstn 8 string)) (nth 8 LOWER_CASE_MASK 0),
     Z.lor (le_num (skipn 8 string)) (nth (length string - 8) LOWER_CASE_MASK 0))
  else (Z.lor (le_num string) (nth (length string) LOWER_CASE_MASK 0), 0).
(* equality of [u64; 2]: no line of /repo *)
Definition pair_eqb (a b : Z * Z) : bool := (fst a =? fst b) && (snd a =? snd b).

(** fundu-gnu/src/lib.rs:283-290 *)
Definition SECOND_UNIT := (Second, Mul 1 0).
(* fundu-gnu/src/lib.rs:283-290 *)
Definition MINUTE_UNIT := (Minute, Mul 1 0).
(* fundu-gnu/src/lib.rs:283-290 *)
Definition HOUR_UNIT := (Hour, Mul 1 0).
(* fundu-gnu/src/lib.rs:283-290 *)
Definition DAY_UNIT := (Day, Mul 1 0).
(* fundu-gnu/src/lib.rs:283-290 *)
Definition WEEK_UNIT := (Week, Mul 1 0).
(* fundu-gnu/src/lib.rs:283-290 *)
Definition FORTNIGHT_UNIT := (Week, Mul 2 0).
(* fundu-gnu/src/lib.rs:283-290 *)
Definition MONTH_UNIT := (Month, Mul 1 0).
(* fundu-gnu/src/lib.rs:283-290 *)
Definition YEAR_UNIT := (Year, Mul 1 0).

(** fundu-gnu/src/lib.rs:719-738 the constants of TimeUnits::get *)
Definition SEC : Z * Z := (0x0000000000636573, 0).
(* fundu-gnu/src/lib.rs:719-738 *)
Definition SECS : Z * Z := (0x0000000073636573, 0).
(* fundu-gnu/src/lib.rs:719-738 *)
Definition SECOND : Z * Z := (0x0000646E6F636573, 0).
(* fundu-gnu/src/lib.rs:719-738 *)
Definition SECONDS : Z * Z := (0x0073646E6F636573, 0).
(* fundu-gnu/src/lib.rs:719-738 *)
Definition MIN_ : Z * Z := (0x00000000006E696D, 0).
(* fundu-gnu/src/lib.rs:719-738 *)
Definition MINS : Z * Z := (0x00000000736E696D, 0).
(* fundu-gnu/src/lib.rs:719-738 *)
Definition MINUTE : Z * Z := (0x00006574756E696D, 0).
(* fundu-gnu/src/lib.rs:719-738 *)
Definition MINUTES : Z * Z := (0x00736574756E696D, 0).
(* fundu-gnu/src/lib.rs:719-738 *)
Definition HOUR : Z * Z := (0x0000000072756F68, 0).
(* fundu-gnu/src/lib.rs:719-738 *)
Definition HOURS : Z * Z := (0x0000007372756F68, 0).
(* fundu-gnu/src/lib.rs:719-738 *)
Definition DAY : Z * Z := (0x0000000000796164, 0).
(* fundu-gnu/src/lib.rs:719-738 *)
Definition DAYS : Z * Z := (0x0000000073796164, 0).
(* fundu-gnu/src/lib.rs:719-738 *)
Definition WEEK : Z * Z := (0x000000006B656577, 0).
(* fundu-gnu/src/lib.rs:719-738 *)
Definition WEEKS : Z * Z := (0x000000736B656577, 0).
(* fundu-gnu/src/lib.rs:719-738 *)
Definition FORTNIGHT : Z * Z := (0x6867696E74726F66, 0x0000000000000074).
(* fundu-gnu/src/lib.rs:719-738 *)
Definition FORTNIGHTS : Z * Z := (0x6867696E74726F66, 0x0000000000007374).
(* fundu-gnu/src/lib.rs:719-738 *)
Definition MONTH : Z * Z := (0x00000068746E6F6D, 0).
(* fundu-gnu/src/lib.rs:719-738 *)
Definition MONTHS : Z * Z := (0x00007368746E6F6D, 0).
(* fundu-gnu/src/lib.rs:719-738 *)
Definition YEAR : Z * Z := (0x0000000072616579, 0).
(* fundu-gnu/src/lib.rs:719-738 *)
Definition YEARS : Z * Z := (0x0000007372616579, 0).

(** `match x { A => Some(a), B => Some(b), ..., _ => None }` *)
(* a match on [u64; 2] constants, fundu-gnu/src/lib.rs:711-936 *)
Fixpoint select {A} (x : Z * Z) (arms : list ((Z * Z) * A)) : option A :=
  match arms with
  | [] => None
  | (k, a) :: arms' => if pair_eqb x k then Some a else select x arms'
  end.

(** fundu-gnu/src/lib.rs:740-779: the match on the length in TimeUnits::get *)
Definition gnu_unit_get (id : str) : option (time_unit * multiplier) :=
  match length id with
  | 3%nat => select (to_lowercase_u64 id) [(SEC, SECOND_UNIT); (MIN_, MINUTE_UNIT); (DAY, DAY_UNIT)]
  | 4%nat => select (to_lowercase_u64 id)
      [(SECS, SECOND_UNIT); (MINS, MINUTE_UNIT); (DAYS, DAY_UNIT); (HOUR, HOUR_UNIT); (WEEK, WEEK_UNIT); (YEAR, YEAR_UNIT)]
  | 5%nat => select (to_lowercase_u64 id) [(HOURS, HOUR_UNIT); (WEEKS, WEEK_UNIT); (YEARS, YEAR_UNIT); (MONTH, MONTH_UNIT)]
  | 6%nat => select (to_lowercase_u64 id) [(SECOND, SECOND_UNIT); (MINUTE, MINUTE_UNIT); (MONTHS, MONTH_UNIT)]
  | 7%nat => select (to_lowercase_u64 id) [(SECONDS, SECOND_UNIT); (MINUTES, MINUTE_UNIT)]
  | 9%nat => select (to_lowercase_u64 id) [(FORTNIGHT, FORTNIGHT_UNIT)]
  | 10%nat => select (to_lowercase_u64 id) [(FORTNIGHTS, FORTNIGHT_UNIT)]
  | _ => None
  end.

(** fundu-gnu/src/lib.rs:792-795 *)
Definition NOW : Z * Z := (0x0000000000776F6E, 0).
(* fundu-gnu/src/lib.rs:792-795 *)
Definition YESTERDAY : Z * Z := (0x6164726574736579, 0x0000000000000079).
(* fundu-gnu/src/lib.rs:792-795 *)
Definition TOMORROW : Z * Z := (0x776F72726F6D6F74, 0).
(* fundu-gnu/src/lib.rs:792-795 *)
Definition TODAY : Z * Z := (0x0000007961646F74, 0).
(** fundu-gnu/src/lib.rs:791-809 TimeKeywords::get *)
Definition gnu_keyword_get (id : str) : option (time_unit * multiplier) :=
  match length id with
  | 3%nat => select (to_lowercase_u64 id) [(NOW, (Day, Mul 0 0))]
  | 5%nat => select (to_lowercase_u64 id) [(TODAY, (Day, Mul 0 0))]
  | 8%nat => select (to_lowercase_u64 id) [(TOMORROW, (Day, Mul 1 0))]
  | 9%nat => select (to_lowercase_u64 id) [(YESTERDAY, (Day, Mul (-1) 0))]
  | _ => None
  end.

(** fundu-gnu/src/lib.rs:816-829 *)
Definition LAST : Z * Z := (0x000000007473616C, 0).
(* fundu-gnu/src/lib.rs:816-829 *)
Definition THIS : Z * Z := (0x0000000073696874, 0).
(* fundu-gnu/src/lib.rs:816-829 *)
Definition NEXT : Z * Z := (0x000000007478656E, 0).
(* fundu-gnu/src/lib.rs:816-829 *)
Definition FIRST : Z * Z := (0x0000007473726966, 0).
(* fundu-gnu/src/lib.rs:816-829 *)
Definition THIRD : Z * Z := (0x0000006472696874, 0).
(* fundu-gnu/src/lib.rs:816-829 *)
Definition FOURTH : Z * Z := (0x0000687472756F66, 0).
(* fundu-gnu/src/lib.rs:816-829 *)
Definition FIFTH : Z * Z := (0x0000006874666966, 0).
(* fundu-gnu/src/lib.rs:816-829 *)
Definition SIXTH : Z * Z := (0x0000006874786973, 0).
(* fundu-gnu/src/lib.rs:816-829 *)
Definition SEVENTH : Z * Z := (0x0068746E65766573, 0).
(* fundu-gnu/src/lib.rs:816-829 *)
Definition EIGHTH : Z * Z := (0x0000687468676965, 0).
(* fundu-gnu/src/lib.rs:816-829 *)
Definition NINTH : Z * Z := (0x00000068746E696E, 0).
(* fundu-gnu/src/lib.rs:816-829 *)
Definition TENTH : Z * Z := (0x00000068746E6574, 0).
(* fundu-gnu/src/lib.rs:816-829 *)
Definition ELEVENTH : Z * Z := (0x68746E6576656C65, 0).
(* fundu-gnu/src/lib.rs:816-829 *)
Definition TWELFTH : Z * Z := (0x006874666C657774, 0).
(** fundu-gnu/src/lib.rs:815-860 Numerals::get *)
Definition gnu_numeral_get (id : str) : option multiplier :=
  match length id with
  | 4%nat => select (to_lowercase_u64 id) [(LAST, Mul (-1) 0); (THIS, Mul 0 0); (NEXT, Mul 1 0)]
  | 5%nat => select (to_lowercase_u64 id)
      [(FIRST, Mul 1 0); (THIRD, Mul 3 0); (FIFTH, Mul 5 0); (SIXTH, Mul 6 0); (NINTH, Mul 9 0); (TENTH, Mul 10 0)]
  | 6%nat => select (to_lowercase_u64 id) [(FOURTH, Mul 4 0); (EIGHTH, Mul 8 0)]
  | 7%nat => select (to_lowercase_u64 id) [(SEVENTH, Mul 7 0); (TWELFTH, Mul 12 0)]
  | 8%nat => select (to_lowercase_u64 id) [(ELEVENTH, Mul 11 0)]
  | _ => None
  end.

(** fundu-gnu/src/lib.rs:279-281, 711-716, 784-789, 813: is_empty is `false` *)
Definition gnu_TIME_UNITS : units_like := Units false gnu_unit_get.
(* fundu-gnu/src/lib.rs:280, 784-789 *)
Definition gnu_TIME_KEYWORDS : units_like := Units false gnu_keyword_get.
(* fundu-gnu/src/lib.rs:281, 813 *)
Definition gnu_NUMERALS : numbers_like := gnu_numeral_get.

(** fundu-gnu/src/lib.rs:294-309 FuzzyUnit, FuzzyTime, ParseFuzzyOutput *)
Inductive fuzzy_output := FDuration (d : duration) | FMonths (value : Z) | FYears (value : Z).

(* fundu-gnu/src/lib.rs:377, 391 *)
Definition fraction_error : parse_error := InvalidInput (%"Fraction only allowed together with seconds as time unit").

(** fundu-gnu/src/lib.rs:346-350, 366-370 `match Whole::parse(..) { Some(seconds) => .., None if .. => return Ok(MIN), None => return Ok(MAX) }`
    followed by calculate_duration; the fraction is parsed only if the whole number did not overflow *)
Definition gnu_calculate (is_neg : bool) (whole : option Z) (fract : res Z) (coefficient : Z) : res duration :=
  match whole with
  | Some seconds => let* attos := fract in calculate_duration is_neg seconds attos coefficient
  | None => Ok (min_or_max is_neg)
  end.

(** fundu-gnu/src/lib.rs:314-380 DurationReprParser::parse *)
Definition gnu_repr_parse (r : repr) : res duration :=
  let is_neg := neg_or_default (r_is_negative r) in
  let time_unit := match r_unit r with Some u => u | None => r_default_unit r end in
  let digits := r_input r in
  match r_whole r, r_fract r with
  | None, None =>
      match r_numeral r, r_unit r with
      | Some numeral, _ =>
          let* m1 := mul_mul numeral (unit_multiplier time_unit) in
          let* m := mul_mul m1 (r_multiplier r) in
          parse_duration_with_fixed_number r (coef m) (expo m)
      | None, Some _ =>
          let* m := mul_mul (unit_multiplier time_unit) (r_multiplier r) in
          calculate_duration (xorb is_neg (coef m <? 0)) 1 0 (coef m)
      | None, None => Crash CrashUnreachable
      end
  | None, Some _ =>
      if time_unit_eqb time_unit Second then Err (InvalidInput (%"Fraction without a whole number"))
      else Err fraction_error
  | Some whole, None =>
      let* m := mul_mul (unit_multiplier time_unit) (r_multiplier r) in
      let* w := range_slice digits whole in
      let* seconds := whole_parse w None None in
      gnu_calculate (xorb is_neg (coef m <? 0)) seconds (Ok 0) (coef m)
  | Some whole, Some fract =>
      if time_unit_eqb time_unit Second then
        if range_is_empty fract then Err (InvalidInput (%"Fraction without a fractional number"))
        else
          let* m := mul_mul (unit_multiplier time_unit) (r_multiplier r) in
          let* w := range_slice digits whole in
          let* seconds := whole_parse w None None in
          gnu_calculate (xorb is_neg (coef m <? 0)) seconds
            (let* f := range_slice digits fract in fract_parse f None None) (coef m)
      else Err fraction_error
  end.

(** fundu-gnu/src/lib.rs:395-450: the match on self.0.whole in parse_fuzzy; `coefficient.saturating_neg()` is that of i64;
    `-value` is the negation of a non-negative i64 (checked, as in a debug build) *)
Definition gnu_fuzzy_value (r : repr) : res Z :=
  match r_whole r with
  | None =>
      match r_numeral r with
      | Some numeral =>
          let* m := mul_mul numeral (r_multiplier r) in
          Ok (if neg_or_default (r_is_negative r) then (if coef m =? i64_min then i64_max else - coef m) else coef m)
      | None => Ok (if xorb (neg_or_default (r_is_negative r)) (mul_is_negative (r_multiplier r)) then -1 else 1)
      end
  | Some whole =>
      let is_neg := xorb (neg_or_default (r_is_negative r)) (mul_is_negative (r_multiplier r)) in
      let* w := range_slice (r_input r) whole in
      let* value := whole_parse w None None in
      match (let? v := value in chk is_i64 v) with
      | Some v => if is_neg then arith is_i64 (- v) else Ok v
      | None => Ok (if is_neg then i64_min else i64_max)
      end
  end.

(** fundu-gnu/src/lib.rs:382-452 DurationReprParser::parse_fuzzy *)
Definition gnu_repr_parse_fuzzy (r : repr) : res fuzzy_output :=
  match r_unit r with
  | Some Month =>
      match r_fract r with Some _ => Err fraction_error | None => let* v := gnu_fuzzy_value r in Ok (FMonths v) end
  | Some Year =>
      match r_fract r with Some _ => Err fraction_error | None => let* v := gnu_fuzzy_value r in Ok (FYears v) end
  | _ => let* d := gnu_repr_parse r in Ok (FDuration d)
  end.

(** i64::saturating_add *)
(* i64::saturating_add, used by fundu-gnu/src/lib.rs:671-698 *)
Definition i64_saturating_add (a b : Z) : Z := Z.max i64_min (Z.min i64_max (a + b)).

(** fundu-gnu/src/lib.rs:511-534 RelativeTimeParser { raw } and new; 292 PARSER, 702-706 Default *)
Definition relative_parser := config.
(* fundu-gnu/src/lib.rs:530-534 *)
Definition gnu_new : relative_parser := gnu_CONFIG.

(** fundu-gnu/src/lib.rs:671-698: the loop of parse_fuzzy; the fuel is not used up (one component consumes at least a byte) *)
Fixpoint gnu_fuzzy_loop (fuel : nat) (p : relative_parser) (years months : Z) (d : duration) (b : scanner)
  : res (Z * Z * duration) :=
  match fuel with
  | O => Crash CrashFuel
  | S f =>
    let* x := template_parse multi b p gnu_TIME_UNITS (Some gnu_TIME_KEYWORDS) (Some gnu_NUMERALS) in
    let '(r, maybe_parser) := x in
    let* out := gnu_repr_parse_fuzzy r in
    let* st :=
      match out with
      | FDuration parsed =>
          if is_zero d then Ok (years, months, parsed)
          else if is_zero parsed then Ok (years, months, d)
          else let* d := saturating_add d parsed in Ok (years, months, d)
      | FMonths v => Ok (years, i64_saturating_add months v, d)
      | FYears v => Ok (i64_saturating_add years v, months, d)
      end in
    let '(years, months, d) := st in
    match maybe_parser with
    | Some b => gnu_fuzzy_loop f p years months d b
    | None => Ok (years, months, d)
    end
  end.

(** fundu-gnu/src/lib.rs:662-699 parse_fuzzy *)
Definition gnu_parse_fuzzy (p : relative_parser) (source : str) : res (Z * Z * duration) :=
  let* trimmed := gnu_trim_whitespace source in
  gnu_fuzzy_loop (S (length trimmed)) p 0 0 ZERO (bytes_new trimmed).

(** fundu-gnu/src/lib.rs:612-631 parse_with_date. [now] is what the system clock says, see now_utc_with_system_time *)
Definition gnu_parse_with_date (p : relative_parser) (now : std_duration + std_duration) (source : str) (date : option date_time)
  : res duration :=
  let* x := gnu_parse_fuzzy p source in
  let '(years, months, d) := x in
  if (years =? 0) && (months =? 0) then Ok d
  else
    let* orig := match date with Some date => Ok date | None => now_utc_with_system_time now end in
    let* o := checked_add_duration orig d in
    match o with
    | None => Err Overflow
    | Some date =>
        let* o := checked_add_gregorian date years months 0 in
        match o with
        | None => Err Overflow
        | Some date =>
            let* o := duration_since date orig in
            match o with Some d => Ok d | None => Err Overflow end
        end
    end.

(** fundu-gnu/src/lib.rs:564-567 parse *)
Definition gnu_parse (p : relative_parser) (now : std_duration + std_duration) (source : str) : res duration :=
  gnu_parse_with_date p now source None.

(** fundu-gnu/src/lib.rs:885-887, 934-936, 969-971: the global functions *)
Definition gnu_global_parse (now : std_duration + std_duration) (source : str) : res duration := gnu_parse gnu_new now source.
(* fundu-gnu/src/lib.rs:934-936 *)
Definition gnu_global_parse_with_date (now : std_duration + std_duration) (source : str) (date : option date_time) : res duration :=
  gnu_parse_with_date gnu_new now source date.
(* fundu-gnu/src/lib.rs:969-971 *)
Definition gnu_global_parse_fuzzy (source : str) : res (Z * Z * duration) := gnu_parse_fuzzy gnu_new source.
