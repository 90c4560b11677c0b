(** * fundu-core/src/time.rs *)
From Verif Require Import Prelude.

(** ** TimeUnit, fundu-core/src/time.rs:81-102 *)
Inductive time_unit : Type :=
| NanoSecond | MicroSecond | MilliSecond | Second | Minute | Hour | Day | Week | Month | Year.

(* fundu-core/src/time.rs:79 derived PartialEq of TimeUnit *)
Definition time_unit_eqb (a b : time_unit) : bool :=
  match a, b with
  | NanoSecond, NanoSecond | MicroSecond, MicroSecond | MilliSecond, MilliSecond
  | Second, Second | Minute, Minute | Hour, Hour | Day, Day | Week, Week
  | Month, Month | Year, Year => true
  | _, _ => false
  end.

(** fundu-core/src/time.rs:19-38 DEFAULT_ID_* and 115-128 TimeUnit::default_identifier *)
Definition default_identifier (u : time_unit) : str :=
  match u with
  | NanoSecond => %"ns" | MicroSecond => %"Ms" | MilliSecond => %"ms" | Second => %"s"
  | Minute => %"m" | Hour => %"h" | Day => %"d" | Week => %"w" | Month => %"M" | Year => %"y"
  end.

(** ** Multiplier(i64, i16), fundu-core/src/time.rs:376 *)
Record multiplier : Type := Mul { coef : Z; expo : Z }.

(** values of the Rust type *)
(* fundu-core/src/time.rs:376 the types of the fields of Multiplier *)
Definition multiplier_ok (m : multiplier) : Prop := is_i64 (coef m) = true /\ is_i16 (expo m) = true.

(** fundu-core/src/time.rs:378-382 Default *)
Definition default_multiplier : multiplier := Mul 1 0.

(** fundu-core/src/time.rs:139-154 TimeUnit::multiplier (table lookup by enum index) *)
Definition unit_multiplier (u : time_unit) : multiplier :=
  match u with
  | NanoSecond => Mul 1 (-9) | MicroSecond => Mul 1 (-6) | MilliSecond => Mul 1 (-3)
  | Second => Mul 1 0 | Minute => Mul 60 0 | Hour => Mul 3600 0 | Day => Mul 86400 0
  | Week => Mul 604800 0 | Month => Mul 2629800 0 | Year => Mul 31557600 0
  end.

(** fundu-core/src/time.rs:441-443 is_positive, 426-428 is_negative *)
Definition mul_is_positive (m : multiplier) : bool := (coef m =? 0) || (0 <? coef m).
(* fundu-core/src/time.rs:426-428 *)
Definition mul_is_negative (m : multiplier) : bool := negb (mul_is_positive m).

(** fundu-core/src/time.rs:468-475 checked_mul *)
Definition mul_checked_mul (a b : multiplier) : option multiplier :=
  let? c := chk is_i64 (coef a * coef b) in
  let? e := chk is_i16 (expo a + expo b) in
  Some (Mul c e).

(** fundu-core/src/time.rs:493-495 saturating_neg (i64::saturating_neg on the coefficient) *)
Definition mul_saturating_neg (m : multiplier) : multiplier :=
  Mul (if coef m =? i64_min then i64_max else - coef m) (expo m).

(** fundu-core/src/time.rs:498-505 impl Mul: panics on overflow *)
Definition mul_mul (a b : multiplier) : res multiplier := unwrap (mul_checked_mul a b).

(** ** std::time::Duration (contract of the standard library, trusted) *)
(* contract of core::time::Duration, used by fundu-core/src/time.rs:549-552 (`inner`) and throughout *)
Record std_duration : Type := Std { secs : Z; subsec : Z }.
(* contract of core::time::Duration, used by fundu-core/src/time.rs:549-552 (`inner`) and throughout *)
Definition std_ok (d : std_duration) : Prop :=
  is_u64 (secs d) = true /\ inb 0 999999999 (subsec d) = true.
(* contract of core::time::Duration, used by fundu-core/src/time.rs:549-552 (`inner`) and throughout *)
Definition STD_ZERO := Std 0 0.
(* contract of core::time::Duration, used by fundu-core/src/time.rs:549-552 (`inner`) and throughout *)
Definition STD_MAX := Std u64_max 999999999.
(** Duration::new(secs, nanos): carries the nanos over into secs, panics on overflow *)
(* contract of core::time::Duration, used by fundu-core/src/time.rs:549-552 (`inner`) and throughout *)
Definition std_new (s n : Z) : res std_duration :=
  if n <? 1000000000 then Ok (Std s n)
  else let* s' := unwrap (chk is_u64 (s + n / 1000000000)) in Ok (Std s' (n mod 1000000000)).
(* contract of core::time::Duration, used by fundu-core/src/time.rs:549-552 (`inner`) and throughout *)
Definition std_is_zero (d : std_duration) : bool := (secs d =? 0) && (subsec d =? 0).
(* contract of core::time::Duration, used by fundu-core/src/time.rs:549-552 (`inner`) and throughout *)
Definition std_eqb (a b : std_duration) : bool := (secs a =? secs b) && (subsec a =? subsec b).
(* contract of core::time::Duration, used by fundu-core/src/time.rs:549-552 (`inner`) and throughout *)
Definition std_cmp (a b : std_duration) : comparison :=
  match Z.compare (secs a) (secs b) with Eq => Z.compare (subsec a) (subsec b) | c => c end.
(* contract of core::time::Duration, used by fundu-core/src/time.rs:549-552 (`inner`) and throughout *)
Definition std_checked_add (a b : std_duration) : option std_duration :=
  let? s := chk is_u64 (secs a + secs b) in
  let n := subsec a + subsec b in
  if 1000000000 <=? n then
    let? s' := chk is_u64 (s + 1) in Some (Std s' (n - 1000000000))
  else Some (Std s n).
(* contract of core::time::Duration, used by fundu-core/src/time.rs:549-552 (`inner`) and throughout *)
Definition std_checked_sub (a b : std_duration) : option std_duration :=
  let? s := chk is_u64 (secs a - secs b) in
  if subsec b <=? subsec a then Some (Std s (subsec a - subsec b))
  else let? s' := chk is_u64 (s - 1) in Some (Std s' (subsec a + 1000000000 - subsec b)).
(** impl Sub: expect *)
(* contract of core::time::Duration, used by fundu-core/src/time.rs:549-552 (`inner`) and throughout *)
Definition std_sub (a b : std_duration) : res std_duration := unwrap (std_checked_sub a b).

(** ** Duration, fundu-core/src/time.rs:549-553 *)
Record duration : Type := Dur { neg : bool; inner : std_duration }.
(** the values of the Rust type *)
(* fundu-core/src/time.rs:549-552 the types of the fields *)
Definition duration_ok (d : duration) : Prop := std_ok (inner d).

(** fundu-core/src/time.rs:566-596 ZERO, MIN, MAX *)
Definition ZERO : duration := Dur false STD_ZERO.
(* fundu-core/src/time.rs:580-583 *)
Definition MIN : duration := Dur true STD_MAX.
(* fundu-core/src/time.rs:595-598 *)
Definition MAX : duration := Dur false STD_MAX.

(** fundu-core/src/time.rs:613 from_std, 635 positive, 657 negative *)
Definition from_std (is_negative : bool) (i : std_duration) : duration := Dur is_negative i.
(* fundu-core/src/time.rs:635-640 *)
Definition positive (s n : Z) : res duration := let* i := std_new s n in Ok (Dur false i).
(* fundu-core/src/time.rs:657-662 *)
Definition negative (s n : Z) : res duration := let* i := std_new s n in Ok (Dur true i).

(** fundu-core/src/time.rs:39-49 constants *)
Definition SECS_PER_MINUTE := 60.
(* fundu-core/src/time.rs:43 *)
Definition SECS_PER_HOUR := 3600.
(* fundu-core/src/time.rs:44 *)
Definition SECS_PER_DAY := 86400.
(* fundu-core/src/time.rs:45 *)
Definition SECS_PER_WEEK := 86400 * 7.

(** fundu-core/src/time.rs:665-671 as_whole; the cast `as i64` wraps, the negation is plain *)
Definition as_whole (d : duration) (factor : Z) : res Z :=
  let* _ := debug_assert (1 <? factor) in
  let result := wrap_i64 (secs (inner d) / factor) in
  if neg d then arith is_i64 (- result) else Ok result.
(** fundu-core/src/time.rs:686-737 *)
Definition as_weeks d := as_whole d SECS_PER_WEEK.
(* fundu-core/src/time.rs:703-705 *)
Definition as_days d := as_whole d SECS_PER_DAY.
(* fundu-core/src/time.rs:720-722 *)
Definition as_hours d := as_whole d SECS_PER_HOUR.
(* fundu-core/src/time.rs:737-739 *)
Definition as_minutes d := as_whole d SECS_PER_MINUTE.
(** fundu-core/src/time.rs:754-757 as_seconds (i128) *)
Definition as_seconds (d : duration) : Z :=
  let s := secs (inner d) in if neg d then - s else s.
(** fundu-core/src/time.rs:851-855 subsec_nanos; the cast `as i32` wraps *)
Definition subsec_nanos (d : duration) : res Z :=
  let n := wrap_i32 (subsec (inner d)) in if neg d then arith is_i32 (- n) else Ok n.
(** fundu-core/src/time.rs:823-825, 837-839; `/` on i32 truncates toward zero *)
Definition subsec_millis (d : duration) : res Z := let* n := subsec_nanos d in Ok (Z.quot n 1000000).
(* fundu-core/src/time.rs:839-841 *)
Definition subsec_micros (d : duration) : res Z := let* n := subsec_nanos d in Ok (Z.quot n 1000).
(** fundu-core/src/time.rs:772-806, i128 arithmetic *)
Definition as_millis (d : duration) : res Z :=
  let* p := arith is_i128 (as_seconds d * 1000) in
  let* n := subsec_millis d in arith is_i128 (p + n).
(* fundu-core/src/time.rs:789-791 *)
Definition as_micros (d : duration) : res Z :=
  let* p := arith is_i128 (as_seconds d * 1000000) in
  let* n := subsec_micros d in arith is_i128 (p + n).
(* fundu-core/src/time.rs:806-808 *)
Definition as_nanos (d : duration) : res Z :=
  let* p := arith is_i128 (as_seconds d * 1000000000) in
  let* n := subsec_nanos d in arith is_i128 (p + n).

(** fundu-core/src/time.rs:861-876 extract_i64: returns (extracted, self after) *)
Definition extract_i64 (d : duration) (factor : Z) : res (Z * duration) :=
  let* _ := debug_assert (1 <? factor) in
  let s := secs (inner d) in
  let* extracted := unwrap (chk is_i64 (s / factor)) in
  if 0 <? extracted then
    let* i := std_new (s mod factor) (subsec (inner d)) in
    let* e := (if neg d then arith is_i64 (- extracted) else Ok extracted) in
    Ok (e, Dur (neg d) i)
  else Ok (0, d).
(** fundu-core/src/time.rs:894-954 *)
Definition extract_weeks d := extract_i64 d SECS_PER_WEEK.
(* fundu-core/src/time.rs:914-916 *)
Definition extract_days d := extract_i64 d SECS_PER_DAY.
(* fundu-core/src/time.rs:934-936 *)
Definition extract_hours d := extract_i64 d SECS_PER_HOUR.
(* fundu-core/src/time.rs:954-956 *)
Definition extract_minutes d := extract_i64 d SECS_PER_MINUTE.
(** fundu-core/src/time.rs:974-982 extract_seconds *)
Definition extract_seconds (d : duration) : res (Z * duration) :=
  let extracted := as_seconds d in
  if extracted =? 0 then Ok (0, d)
  else let* i := std_new 0 (subsec (inner d)) in Ok (extracted, Dur (neg d) i).

(** fundu-core/src/time.rs:998-1062 *)
Definition is_negative (d : duration) : bool := neg d.
(* fundu-core/src/time.rs:1016-1018 *)
Definition is_positive (d : duration) : bool := negb (neg d).
(* fundu-core/src/time.rs:1037-1039 *)
Definition is_zero (d : duration) : bool := std_is_zero (inner d).
(* fundu-core/src/time.rs:1060-1062 *)
Definition abs (d : duration) : duration := from_std false (inner d).

(** fundu-core/src/time.rs:1285-1294 impl Neg *)
Definition dneg (d : duration) : duration := Dur (xorb (neg d) true) (inner d).

(** fundu-core/src/time.rs:1084-1114 checked_add; `self.inner.sub(..)` is the panicking operator *)
Definition checked_add (a b : duration) : res (option duration) :=
  match neg a, neg b, std_cmp (inner a) (inner b) with
  | true, true, _ => Ok (option_map (from_std true) (std_checked_add (inner a) (inner b)))
  | true, false, Eq | false, true, Eq => Ok (Some ZERO)
  | true, false, Gt => let* i := std_sub (inner a) (inner b) in Ok (Some (from_std true i))
  | true, false, Lt => let* i := std_sub (inner b) (inner a) in Ok (Some (from_std false i))
  | false, true, Gt => let* i := std_sub (inner a) (inner b) in Ok (Some (from_std false i))
  | false, true, Lt => let* i := std_sub (inner b) (inner a) in Ok (Some (from_std true i))
  | false, false, _ => Ok (option_map (from_std false) (std_checked_add (inner a) (inner b)))
  end.
(** fundu-core/src/time.rs:1131-1133 *)
Definition checked_sub (a b : duration) : res (option duration) := checked_add a (dneg b).
(** fundu-core/src/time.rs:1152-1160 *)
Definition saturating_add (a b : duration) : res duration :=
  let* r := checked_add a b in
  match r with
  | Some d => Ok d
  | None => Ok (if neg a then MIN else MAX)
  end.
(** fundu-core/src/time.rs:1180-1182 *)
Definition saturating_sub (a b : duration) : res duration := saturating_add a (dneg b).
(** fundu-core/src/time.rs:1255-1283 impl Add, Sub (and the *Assign versions) *)
Definition dadd (a b : duration) : res duration := let* r := checked_add a b in unwrap r.
(* fundu-core/src/time.rs:1270-1277 Sub *)
Definition dsub (a b : duration) : res duration := let* r := checked_sub a b in unwrap r.

(** fundu-core/src/time.rs:1296-1301 PartialEq *)
Definition deqb (a b : duration) : bool :=
  (is_zero a && is_zero b) || (Bool.eqb (neg a) (neg b) && std_eqb (inner a) (inner b)).

(** fundu-core/src/time.rs:1303-1312 Hash: the primitives written to the Hasher.
    std::time::Duration derives Hash, i.e. writes the u64 seconds and the u32 nanoseconds. *)
Inductive hash_item := HBool (b : bool) | HU64 (z : Z) | HU32 (z : Z).
(* fundu-core/src/time.rs:1303-1312 *)
Definition dhash (d : duration) : list hash_item :=
  [ if is_zero d then HBool false else HBool (neg d); HU64 (secs (inner d)); HU32 (subsec (inner d)) ].

(** fundu-core/src/time.rs:1320-1330 Ord *)
Definition dcmp (a b : duration) : comparison :=
  match neg a, neg b with
  | true, true => std_cmp (inner b) (inner a)
  | true, false => if is_zero a && is_zero b then Eq else Lt
  | false, true => if is_zero a && is_zero b then Eq else Gt
  | false, false => std_cmp (inner a) (inner b)
  end.
(** Ord::min (std default method): the second is returned only if it is strictly smaller *)
(* the provided method Ord::min, used by fundu-systemd/src/lib.rs:453, 549 *)
Definition dmin (a b : duration) : duration := match dcmp a b with Gt => b | _ => a end.

(** ** Display, fundu-core/src/time.rs:1185-1253 *)
(** "{}" of an unsigned integer: decimal digits. 40 digits are more than enough for u64/u32 (see
    [dec_spec] in PropDisplay.v). *)
Fixpoint dec_fuel (n : nat) (x : Z) : str :=
  match n with
  | O => []
  | S n' => if x <? 10 then [48 + x] else dec_fuel n' (x / 10) ++ [48 + x mod 10]
  end.
(* see [dec_fuel] *)
Definition dec (x : Z) : str := dec_fuel 40 x.

(** one `if secs >= U { push(format!("{}id", secs / U)); secs %= U }` *)
(* fundu-core/src/time.rs:1201-1243 one `if seconds >= U` block *)
Definition fmt_part (U : Z) (id : str) (st : list str * Z) : list str * Z :=
  let '(result, s) := st in
  if U <=? s then (result ++ [dec (s / U) ++ id], s mod U) else (result, s).

(** fundu-core/src/time.rs:1200-1245 *)
Definition fmt_parts (d : duration) : list str :=
  let s0 := secs (inner d) in
  let r1 :=
    if 0 <? s0 then
      let st := fmt_part 31557600 (%"y") ([], s0) in
      let st := fmt_part 2629800 (%"M") st in
      let st := fmt_part 604800 (%"w") st in
      let st := fmt_part 86400 (%"d") st in
      let st := fmt_part 3600 (%"h") st in
      let '(r, s) := fmt_part 60 (%"m") st in
      if 1 <=? s then r ++ [dec s ++ %"s"] else r
    else [] in
  let n0 := subsec (inner d) in
  if 0 <? n0 then
    let st := fmt_part 1000000 (%"ms") (r1, n0) in
    let '(r, n) := fmt_part 1000 (%"Ms") st in
    if 1 <=? n then r ++ [dec n ++ %"ns"] else r
  else r1.

(** [str]::join *)
(* [String]::join, used by fundu-core/src/time.rs:1245-1252 *)
Fixpoint join (sep : str) (l : list str) : str :=
  match l with
  | [] => []
  | [x] => x
  | x :: l' => x ++ sep ++ join sep l'
  end.

(** fundu-core/src/time.rs:1196-1198 and 1247-1251 *)
Definition display (d : duration) : str :=
  if is_zero d then %"0ns"
  else if is_negative d then %"-" ++ join (%" -") (fmt_parts d)
  else join (%" ") (fmt_parts d).

(** ** Conversions *)
(** fundu-core/src/error.rs:72-79 TryFromDurationError *)
Inductive try_from_error := NegativeDuration | PositiveOverflow | NegativeOverflow.
(** fundu-core/src/error.rs:81-90 From<TryFromDurationError> for ParseError *)
Definition parse_error_of (e : try_from_error) : parse_error :=
  match e with
  | NegativeDuration => NegativeNumber
  | PositiveOverflow | NegativeOverflow => Overflow
  end.
(** `res` with a conversion error as a value *)
(* Result<_, TryFromDurationError> *)
Definition conv (A : Type) := (A + try_from_error)%type.

(** fundu-core/src/time.rs:1333-1340 *)
Definition of_std (s : std_duration) : duration := Dur false s.
(** fundu-core/src/time.rs:1352-1362 *)
Definition try_into_std (d : duration) : conv std_duration :=
  if negb (is_zero d) && neg d then inr NegativeDuration else inl (inner d).
(** fundu-core/src/time.rs:1342-1349 *)
Definition saturating_into_std (d : duration) : res std_duration :=
  match try_into_std d with
  | inl s => Ok s
  | inr NegativeDuration => Ok STD_ZERO
  | inr _ => Crash CrashUnreachable
  end.

(** *** time::Duration (crate time 0.3.23; contract, trusted): seconds: i64, nanoseconds: i32 with the
    same sign and absolute value below 10^9 *)
(* contract of the crate time, used by fundu-core/src/time.rs:1367-1425 *)
Record time_duration := Tdur { t_secs : Z; t_nanos : Z }.
(* contract of the crate time, used by fundu-core/src/time.rs:1367-1425 *)
Definition time_ok (t : time_duration) : Prop :=
  is_i64 (t_secs t) = true /\ inb (-999999999) 999999999 (t_nanos t) = true /\
  (0 < t_secs t -> 0 <= t_nanos t) /\ (t_secs t < 0 -> t_nanos t <= 0).
(** time::Duration::new *)
(* contract of the crate time, used by fundu-core/src/time.rs:1367-1425 *)
Definition time_new (s n : Z) : res time_duration :=
  let* s1 := unwrap (chk is_i64 (s + Z.quot n 1000000000)) in
  let n1 := Z.rem n 1000000000 in
  if (0 <? s1) && (n1 <? 0) then Ok (Tdur (s1 - 1) (n1 + 1000000000))
  else if (s1 <? 0) && (0 <? n1) then Ok (Tdur (s1 + 1) (n1 - 1000000000))
  else Ok (Tdur s1 n1).
(* contract of the crate time, used by fundu-core/src/time.rs:1367-1425 *)
Definition TIME_MIN := Tdur i64_min (-999999999).
(* contract of the crate time, used by fundu-core/src/time.rs:1367-1425 *)
Definition TIME_MAX := Tdur i64_max 999999999.

(** fundu-core/src/time.rs:1368-1378 *)
Definition of_time (t : time_duration) : res duration :=
  let* i := std_new (Z.abs (t_secs t)) (Z.abs (t_nanos t)) in
  Ok (Dur ((t_secs t <? 0) || (t_nanos t <? 0)) i).
(** fundu-core/src/time.rs:1384-1413 *)
Definition try_into_time (d : duration) : res (conv time_duration) :=
  let s := secs (inner d) in
  let n := subsec (inner d) in
  if neg d then
    if Z.abs i64_min <? s then Ok (inr NegativeOverflow)
    else let* t := time_new (wrap_i64 (wrap_u64 (- s))) (- wrap_i32 n) in Ok (inl t)
  else
    if i64_max <? s then Ok (inr PositiveOverflow)
    else let* t := time_new (wrap_i64 s) (wrap_i32 n) in Ok (inl t).
(** fundu-core/src/time.rs:1416-1424 *)
Definition saturating_into_time (d : duration) : res time_duration :=
  let* r := try_into_time d in
  match r with
  | inl t => Ok t
  | inr PositiveOverflow => Ok TIME_MAX
  | inr NegativeOverflow => Ok TIME_MIN
  | inr NegativeDuration => Crash CrashUnreachable
  end.

(** *** chrono::Duration (crate chrono 0.4.33; contract, trusted): secs: i64 (rounded toward minus
    infinity), nanos in 0..10^9, value between -i64::MAX and i64::MAX milliseconds *)
(* contract of the crate chrono, used by fundu-core/src/time.rs:1427-1496 *)
Record chrono_duration := Cdur { c_secs : Z; c_nanos : Z }.
(* contract of the crate chrono, used by fundu-core/src/time.rs:1427-1496 *)
Definition c_value (c : chrono_duration) : Z := c_secs c * 1000000000 + c_nanos c.
(* contract of the crate chrono, used by fundu-core/src/time.rs:1427-1496 *)
Definition C_MAX := Cdur 9223372036854775 807000000.
(* contract of the crate chrono, used by fundu-core/src/time.rs:1427-1496 *)
Definition C_MIN := Cdur (-9223372036854776) 193000000.
(* contract of the crate chrono, used by fundu-core/src/time.rs:1427-1496 *)
Definition c_inrange (c : chrono_duration) : bool :=
  (c_value C_MIN <=? c_value c) && (c_value c <=? c_value C_MAX).
(* contract of the crate chrono, used by fundu-core/src/time.rs:1427-1496 *)
Definition chrono_ok (c : chrono_duration) : Prop :=
  inb 0 999999999 (c_nanos c) = true /\ c_inrange c = true.
(* contract of the crate chrono, used by fundu-core/src/time.rs:1427-1496 *)
Definition c_num_seconds (c : chrono_duration) : Z :=
  if (c_secs c <? 0) && (0 <? c_nanos c) then c_secs c + 1 else c_secs c.
(* contract of the crate chrono, used by fundu-core/src/time.rs:1427-1496 *)
Definition c_seconds (s : Z) : res chrono_duration :=
  if c_inrange (Cdur s 0) then Ok (Cdur s 0) else Crash CrashUnwrap.
(* contract of the crate chrono, used by fundu-core/src/time.rs:1427-1496 *)
Definition c_nanoseconds (n : Z) : chrono_duration := Cdur (n / 1000000000) (n mod 1000000000).
(* contract of the crate chrono, used by fundu-core/src/time.rs:1427-1496 *)
Definition c_checked_add (a b : chrono_duration) : option chrono_duration :=
  let s := c_secs a + c_secs b in
  let n := c_nanos a + c_nanos b in
  let c := if 1000000000 <=? n then Cdur (s + 1) (n - 1000000000) else Cdur s n in
  if c_inrange c then Some c else None.
(* contract of the crate chrono, used by fundu-core/src/time.rs:1427-1496 *)
Definition c_to_std (c : chrono_duration) : option std_duration :=
  if c_secs c <? 0 then None else Some (Std (c_secs c) (c_nanos c)).
(* contract of the crate chrono, used by fundu-core/src/time.rs:1427-1496 *)
Definition c_abs (c : chrono_duration) : chrono_duration :=
  if (c_secs c <? 0) && negb (c_nanos c =? 0)
  then Cdur (Z.abs (c_secs c + 1)) (1000000000 - c_nanos c)
  else Cdur (Z.abs (c_secs c)) (c_nanos c).

(** fundu-core/src/time.rs:1428-1467 *)
Definition try_into_chrono (d : duration) : res (conv chrono_duration) :=
  let s := secs (inner d) in
  let n := subsec (inner d) in
  if neg d then
    if Z.abs (c_num_seconds C_MIN) <? s then Ok (inr NegativeOverflow)
    else
      let nanos := c_nanoseconds (- n) in
      let* ms := arith is_i64 (- wrap_i64 s) in
      let* cs := c_seconds ms in
      Ok (match c_checked_add cs nanos with Some c => inl c | None => inr NegativeOverflow end)
  else
    if Z.abs (c_num_seconds C_MAX) <? s then Ok (inr PositiveOverflow)
    else
      let nanos := c_nanoseconds n in
      let* cs := c_seconds (wrap_i64 s) in
      Ok (match c_checked_add cs nanos with Some c => inl c | None => inr PositiveOverflow end).
(** fundu-core/src/time.rs:1470-1478 *)
Definition saturating_into_chrono (d : duration) : res chrono_duration :=
  let* r := try_into_chrono d in
  match r with
  | inl t => Ok t
  | inr PositiveOverflow => Ok C_MAX
  | inr NegativeOverflow => Ok C_MIN
  | inr NegativeDuration => Crash CrashUnreachable
  end.
(** fundu-core/src/time.rs:1482-1495 *)
Definition of_chrono (c : chrono_duration) : res duration :=
  match c_to_std c with
  | Some i => Ok (Dur false i)
  | None => let* i := unwrap (c_to_std (c_abs c)) in Ok (Dur true i)
  end.
