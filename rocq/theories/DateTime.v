(** * fundu-gnu/src/datetime.rs and floor_div of fundu-gnu/src/util.rs *)
From Verif Require Import Prelude Time.

(** fundu-gnu/src/util.rs:8-16 floor_div; `/` and `%` truncate toward zero, panic for a zero divisor and
    overflow for i64::MIN / -1, `d - 1` is the plain operator *)
Definition floor_div (lhs rhs : Z) : res Z :=
  if rhs =? 0 then Crash CrashArith else
  let* d := arith is_i64 (Z.quot lhs rhs) in
  let r := Z.rem lhs rhs in
  if ((0 <? r) && (rhs <? 0)) || ((r <? 0) && (0 <? rhs)) then arith is_i64 (d - 1) else Ok d.

(** fundu-gnu/src/lib.rs:215-245 validate!: panics outside of min..=max *)
Definition validate (x lo hi : Z) : res unit :=
  if (x <? lo) || (hi <? x) then Crash CrashUnwrap else Ok tt.

(** fundu-gnu/src/datetime.rs:19 *)
Definition DAYS_IN_PREVIOUS_MONTH : list Z := [306; 337; 0; 31; 61; 92; 122; 153; 184; 214; 245; 275].
(** fundu-gnu/src/datetime.rs:20-34, the literal of 366 entries written run by run *)
Definition ORDINAL_TO_MONTH : list Z :=
  repeat 3 31 ++ repeat 4 30 ++ repeat 5 31 ++ repeat 6 30 ++ repeat 7 31 ++ repeat 8 31 ++
  repeat 9 30 ++ repeat 10 31 ++ repeat 11 30 ++ repeat 12 31 ++ repeat 1 31 ++ repeat 2 29.
(** fundu-gnu/src/datetime.rs:36-47 constants *)
Definition NANOS_PER_SEC : Z := 1000000000.
(* fundu-gnu/src/datetime.rs:39 *)
Definition NANOS_PER_DAY : Z := 86400000000000.
(* fundu-gnu/src/datetime.rs:47 *)
Definition JD_BASE : Z := 1721119.

(** array[i] with i: usize; panics out of bounds *)
(* indexing of an array, fundu-gnu/src/datetime.rs:143-170, 202-236 *)
Definition index (l : list Z) (i : Z) : res Z :=
  if i <? 0 then Crash CrashIndex else
  match nth_error l (Z.to_nat i) with Some x => Ok x | None => Crash CrashIndex end.
(* integers of the language: no line of /repo *)
Definition is_u16 := inb 0 65535.
(* integers of the language: no line of /repo *)
Definition is_i8 := inb (-128) 127.

(** ** JulianDay(i64), fundu-gnu/src/datetime.rs:65-67. The newtype is modelled by its integer; the methods
    that return an Option or panic return [res (option _)]. *)

(** fundu-gnu/src/datetime.rs:143-170 try_from_gregorian *)
Definition try_from_gregorian (year month day : Z) : res (option Z) :=
  let* _ := validate month 1 12 in
  let* _ := validate day 1 31 in
  match (if month <? 3 then chk is_i64 (year - 1) else Some year) with
  | None => Ok None
  | Some year =>
    match chk is_i64 (year * 365) with
    | None => Ok None
    | Some y =>
      let* i := arith is_u8 (month - 1) in
      let* p := index DAYS_IN_PREVIOUS_MONTH i in
      let* s := arith is_i64 (day + p) in
      let* f4 := floor_div year 4 in
      let* s := arith is_i64 (s + f4) in
      let* f100 := floor_div year 100 in
      let* s := arith is_i64 (s - f100) in
      let* f400 := floor_div year 400 in
      let* s := arith is_i64 (s + f400) in
      let* s := arith is_i64 (s + JD_BASE) in
      Ok (chk is_i64 (y + s))
    end
  end.

(** fundu-gnu/src/datetime.rs:96-101 from_gregorian: panics where try_from_gregorian returns None *)
Definition from_gregorian (year month day : Z) : res Z :=
  let* r := try_from_gregorian year month day in unwrap r.

(** fundu-gnu/src/datetime.rs:202-236 to_gregorian; `- 25`, the additions and products without `checked_` are plain *)
Definition to_gregorian (jd : Z) : res (option (Z * Z * Z)) :=
  match chk is_i64 (jd - JD_BASE) with
  | None => Ok None
  | Some zero =>
    match chk is_i64 (zero * 100) with
    | None => Ok None
    | Some hundred =>
      let* c := arith is_i64 (hundred - 25) in
      let* full_centuries := floor_div c 3652425 in
      let* f := floor_div full_centuries 4 in
      let* days_centuries := arith is_i64 (full_centuries - f) in
      let* h := arith is_i64 (100 * days_centuries) in
      match chk is_i64 (h + c) with
      | None => Ok None
      | Some n =>
        let* year := floor_div n 36525 in
        let* o := arith is_i64 (days_centuries + zero) in
        let* y365 := arith is_i64 (365 * year) in
        let* o := arith is_i64 (o - y365) in
        let* f4 := floor_div year 4 in
        let* o := arith is_i64 (o - f4) in
        let* ordinal := unwrap (chk is_u16 o) in
        let* i := arith is_u16 (ordinal - 1) in
        let* month := index ORDINAL_TO_MONTH i in
        let* j := arith is_u8 (month - 1) in
        let* p := index DAYS_IN_PREVIOUS_MONTH j in
        let* d := arith is_u16 (ordinal - p) in
        let* day := unwrap (chk is_u8 d) in
        if month <? 3
        then let* y1 := arith is_i64 (year + 1) in Ok (Some (y1, month, day))
        else Ok (Some (year, month, day))
      end
    end
  end.

(** fundu-gnu/src/datetime.rs:248-253 checked_add_days, 268-273 checked_sub_days; 288-293 checked_add and 311-316 checked_sub are
    the same functions on two JulianDays *)
Definition jd_checked_add (jd days : Z) : option Z := chk is_i64 (jd + days).
(* fundu-gnu/src/datetime.rs:311-317 *)
Definition jd_checked_sub (jd days : Z) : option Z := chk is_i64 (jd - days).

(** ** DateTime, lines 389-394 *)
Record date_time : Type := DT { days : Z; time : Z }.
(** the values the constructors produce: the day is an i64, the time of day in nanoseconds is below one day.
    (With the serde feature a deserialised value can violate the second part: Serde.v, C72.) *)
(* fundu-gnu/src/datetime.rs:391-394 the types of the fields and the invariant of `time` *)
Definition date_time_ok (x : date_time) : Prop :=
  is_i64 (days x) = true /\ 0 <= time x < NANOS_PER_DAY.

(** fundu-gnu/src/datetime.rs:389 derive(PartialOrd, Ord): field by field in the order of declaration; derive(PartialEq, Eq) *)
Definition dt_cmp (a b : date_time) : comparison :=
  match Z.compare (days a) (days b) with Eq => Z.compare (time a) (time b) | c => c end.
(* fundu-gnu/src/datetime.rs:389 derived PartialEq *)
Definition dt_eqb (a b : date_time) : bool := (days a =? days b) && (time a =? time b).

(** fundu-gnu/src/datetime.rs:444-465 from_gregorian_date_time; u64 arithmetic *)
Definition from_gregorian_date_time (year month day hour minute second nanos : Z) : res date_time :=
  let* _ := validate hour 0 23 in
  let* _ := validate minute 0 59 in
  let* _ := validate second 0 59 in
  let* _ := validate nanos 0 999999999 in
  let* d := from_gregorian year month day in
  let* h := arith is_u64 (hour * 3600) in
  let* m := arith is_u64 (minute * 60) in
  let* s := arith is_u64 (h + m) in
  let* s := arith is_u64 (s + second) in
  let* s := arith is_u64 (s * NANOS_PER_SEC) in
  let* t := arith is_u64 (s + nanos) in
  Ok (DT d t).

(** fundu-gnu/src/datetime.rs:398 UNIX_EPOCH (a const, evaluated at compile time) *)
Definition UNIX_EPOCH : res date_time := from_gregorian_date_time 1970 1 1 0 0 0 0.

(** fundu-gnu/src/datetime.rs:480-482 to_gregorian_date *)
Definition to_gregorian_date (x : date_time) : res (option (Z * Z * Z)) := to_gregorian (days x).

(** fundu-gnu/src/datetime.rs:522-536 as_hmsn; the casts `as u8` and `as u32` wrap *)
Definition as_hmsn (x : date_time) : Z * Z * Z * Z :=
  let t := time x in
  let nanos := wrap_u32 (t mod NANOS_PER_SEC) in
  let t := t / NANOS_PER_SEC in
  let hour := t / 3600 in
  let t := t mod 3600 in
  let min := t / 60 in
  let t := t mod 60 in
  (wrap_u8 hour, wrap_u8 min, wrap_u8 t, nanos).

(** fundu-gnu/src/datetime.rs:501-505 to_gregorian_date_time *)
Definition to_gregorian_date_time (x : date_time) : res (option (Z * Z * Z * (Z * Z * Z * Z))) :=
  let* r := to_gregorian (days x) in
  match r with None => Ok None | Some d => Ok (Some (d, as_hmsn x)) end.

(** fundu-gnu/src/datetime.rs:558-560 as_julian_day *)
Definition as_julian_day (x : date_time) : Z := days x.

(** fundu-gnu/src/datetime.rs:607-637 checked_add_duration *)
Definition checked_add_duration (x : date_time) (d : duration) : res (option date_time) :=
  let* (n, rest) := extract_days d in
  match jd_checked_add (days x) n with
  | None => Ok None
  | Some jd =>
    let* total := as_nanos rest in
    let* nanos := unwrap (chk is_i64 total) in
    let* t := unwrap (chk is_i64 (time x)) in
    let* t := arith is_i64 (t + nanos) in
    if t <? 0 then
      match jd_checked_add jd (-1) with
      | None => Ok None
      | Some jd =>
        let* t := arith is_i64 (t + NANOS_PER_DAY) in
        let* t := unwrap (chk is_u64 t) in Ok (Some (DT jd t))
      end
    else if t <? NANOS_PER_DAY then
      let* t := unwrap (chk is_u64 t) in Ok (Some (DT jd t))
    else
      match jd_checked_add jd 1 with
      | None => Ok None
      | Some jd =>
        let* t := arith is_i64 (t - NANOS_PER_DAY) in
        let* t := unwrap (chk is_u64 t) in Ok (Some (DT jd t))
      end
  end.

(** fundu-gnu/src/datetime.rs:654-656 checked_sub_duration *)
Definition checked_sub_duration (x : date_time) (d : duration) : res (option date_time) :=
  checked_add_duration x (dneg d).

(** fundu-gnu/src/datetime.rs:693-718 checked_add_gregorian; `/` and `%` on i64 truncate *)
Definition checked_add_gregorian (x : date_time) (years months dd : Z) : res (option date_time) :=
  let* r := to_gregorian (days x) in
  match r with
  | None => Ok None
  | Some (year, month, day) =>
    match chk is_i64 (years + Z.quot months 12) with
    | None => Ok None
    | Some y =>
      let* m1 := unwrap (chk is_i8 (Z.rem months 12)) in
      let* m2 := unwrap (chk is_i8 month) in
      let* m := arith is_i8 (m1 + m2) in
      let* m := arith is_i8 (m - 1) in
      let* p :=
        (if m <? 0 then
           match chk is_i64 (y - 1) with
           | None => Ok None
           | Some y => let* a := arith is_i8 (m + 12) in
                       let* a := unwrap (chk is_u8 a) in Ok (Some (a, y))
           end
         else if m <? 12 then let* a := unwrap (chk is_u8 m) in Ok (Some (a, y))
         else
           match chk is_i64 (y + 1) with
           | None => Ok None
           | Some y => let* a := arith is_i8 (m - 12) in
                       let* a := unwrap (chk is_u8 a) in Ok (Some (a, y))
           end) in
      match p with
      | None => Ok None
      | Some (month, years) =>
        match chk is_i64 (year + years) with
        | None => Ok None
        | Some year =>
          let* month := arith is_u8 (month + 1) in
          let* r := try_from_gregorian year month day in
          match r with
          | None => Ok None
          | Some jd =>
            match jd_checked_add jd dd with
            | None => Ok None
            | Some jd => Ok (Some (DT jd (time x)))
            end
          end
        end
      end
    end
  end.

(** fundu-gnu/src/datetime.rs:747-765 duration_since *)
Definition duration_since (x rhs : date_time) : res (option duration) :=
  match jd_checked_sub (days x) (days rhs) with
  | None => Ok None
  | Some jd =>
    let* t1 := unwrap (chk is_i64 (time x)) in
    let* t2 := unwrap (chk is_i64 (time rhs)) in
    match chk is_i64 (t1 - t2) with
    | None => Ok None
    | Some t =>
      match (let? p := chk is_i128 (jd * NANOS_PER_DAY) in chk is_i128 (p + t)) with
      | None => Ok None
      | Some total =>
        let is_negative := total <? 0 in
        let total := Z.abs total in
        match chk is_u64 (total / NANOS_PER_SEC) with
        | None => Ok None
        | Some secs =>
          let* nanos := unwrap (chk is_u32 (total mod NANOS_PER_SEC)) in
          let* i := std_new secs nanos in
          Ok (Some (from_std is_negative i))
        end
      end
    end
  end.

(** fundu-gnu/src/datetime.rs:562-572 now_utc_with_system_time. A SystemTime is modelled by the outcome of
    `now.duration_since(UNIX_EPOCH)`: [inl d] for Ok(d), [inr d] for Err(e) with e.duration() = d. now_utc
    (587-589) is this function applied to the system clock, which is not modelled. *)
Definition now_utc_with_system_time (now : std_duration + std_duration) : res date_time :=
  let* epoch := UNIX_EPOCH in
  match now with
  | inl d => let* r := checked_add_duration epoch (of_std d) in unwrap r
  | inr d => let* r := checked_add_duration epoch (from_std true d) in unwrap r
  end.

(** ** Conversions, lines 768-806. The calendar types of the crates time and chrono are modelled by the fields
    read from them: year, month, day, hour, minute, second, nanosecond. *)
Record calendar : Type := Cal { cal_y : Z; cal_mo : Z; cal_d : Z; cal_h : Z; cal_mi : Z; cal_s : Z; cal_n : Z }.
(** fundu-gnu/src/datetime.rs:769-775 From<OffsetDateTime>: the fields of the date and time in its own offset; 778-782
    From<PrimitiveDateTime> is the same for the offset 0 *)
Definition from_time_calendar (v : calendar) : res date_time :=
  from_gregorian_date_time (cal_y v) (cal_mo v) (cal_d v) (cal_h v) (cal_mi v) (cal_s v) (cal_n v).
(** fundu-gnu/src/datetime.rs:792-806 From<chrono::NaiveDateTime>: the fields are u32 converted by u8::try_from(..).unwrap();
    785-789 From<chrono::DateTime<T>> is the same for the fields of naive_utc() *)
Definition from_chrono_calendar (v : calendar) : res date_time :=
  let* mo := unwrap (chk is_u8 (cal_mo v)) in
  let* d := unwrap (chk is_u8 (cal_d v)) in
  let* h := unwrap (chk is_u8 (cal_h v)) in
  let* mi := unwrap (chk is_u8 (cal_mi v)) in
  let* s := unwrap (chk is_u8 (cal_s v)) in
  from_gregorian_date_time (cal_y v) mo d h mi s (cal_n v).
