(** * The feature `serde`: the derived Serialize and Deserialize

    The types carry `#[cfg_attr(feature = "serde", derive(Serialize, Deserialize))]` without any further attribute. What the
    derive generates is fixed by the declaration of the type (names and order of the fields and variants); it is
    transcribed here as functions to and from a value of serde's data model (crate serde 1.0.196; contract, trusted). *)
From Verif Require Import Prelude Time DateTime.

(** serde's data model, as far as the derives use it. [SSeq]: a struct given by position, as formats without field
    names do. The length hints are left out. *)
(* contract of the crate serde: trait Serializer *)
Inductive sval : Type :=
| SBool (b : bool)
| SI16 (z : Z) | SI64 (z : Z) | SU32 (z : Z) | SU64 (z : Z)
| SStr (s : str)
| SNewtype (name : str) (v : sval)                           (* serialize_newtype_struct *)
| STuple (name : str) (l : list sval)                        (* serialize_tuple_struct *)
| SStruct (name : str) (fields : list (str * sval))          (* serialize_struct, or a map when deserialised *)
| SSeq (l : list sval)
| SUnitVariant (name variant : str)
| SNewtypeVariant (name variant : str) (v : sval)
| STupleVariant (name variant : str) (l : list sval).

(** ** Serialize *)
(* fundu-core/src/time.rs:78-105 the names of the variants of TimeUnit *)
Definition unit_variant (u : time_unit) : str :=
  match u with
  | NanoSecond => %"NanoSecond" | MicroSecond => %"MicroSecond" | MilliSecond => %"MilliSecond" | Second => %"Second"
  | Minute => %"Minute" | Hour => %"Hour" | Day => %"Day" | Week => %"Week" | Month => %"Month" | Year => %"Year"
  end.
(* fundu-core/src/time.rs:80 derive(Serialize) for TimeUnit *)
Definition ser_time_unit (u : time_unit) : sval := SUnitVariant (%"TimeUnit") (unit_variant u).
(* fundu-core/src/time.rs:375 derive(Serialize) for Multiplier(i64, i16) *)
Definition ser_multiplier (m : multiplier) : sval := STuple (%"Multiplier") [SI64 (coef m); SI16 (expo m)].
(* crate serde, impl Serialize for std::time::Duration: secs: u64, nanos: u32 *)
Definition ser_std (d : std_duration) : sval := SStruct (%"Duration") [(%"secs", SU64 (secs d)); (%"nanos", SU32 (subsec d))].
(* fundu-core/src/time.rs:548-552 derive(Serialize) for Duration { is_negative, inner } *)
Definition ser_duration (d : duration) : sval :=
  SStruct (%"Duration") [(%"is_negative", SBool (neg d)); (%"inner", ser_std (inner d))].
(* fundu-core/src/error.rs:71-79 derive(Serialize) for TryFromDurationError *)
Definition ser_try_from_error (e : try_from_error) : sval :=
  SUnitVariant (%"TryFromDurationError")
    match e with NegativeDuration => %"NegativeDuration" | PositiveOverflow => %"PositiveOverflow" | NegativeOverflow => %"NegativeOverflow" end.
(* fundu-core/src/error.rs:16-40 derive(Serialize) for ParseError; a usize is serialised as u64 *)
Definition ser_parse_error (e : parse_error) : sval :=
  let n := %"ParseError" in
  match e with
  | Empty => SUnitVariant n (%"Empty")
  | Syntax p m => STupleVariant n (%"Syntax") [SU64 (Z.of_nat p); SStr m]
  | Overflow => SUnitVariant n (%"Overflow")
  | TimeUnitErr p m => STupleVariant n (%"TimeUnit") [SU64 (Z.of_nat p); SStr m]
  | NegativeExponentOverflow => SUnitVariant n (%"NegativeExponentOverflow")
  | PositiveExponentOverflow => SUnitVariant n (%"PositiveExponentOverflow")
  | NegativeNumber => SUnitVariant n (%"NegativeNumber")
  | InvalidInput m => SNewtypeVariant n (%"InvalidInput") (SStr m)
  end.
(* fundu-gnu/src/datetime.rs:68-69 derive(Serialize) for JulianDay(i64) *)
Definition ser_julian_day (jd : Z) : sval := SNewtype (%"JulianDay") (SI64 jd).
(* fundu-gnu/src/datetime.rs:390-394 derive(Serialize) for DateTime { days, time } *)
Definition ser_date_time (x : date_time) : sval :=
  SStruct (%"DateTime") [(%"days", ser_julian_day (days x)); (%"time", SU64 (time x))].

(** ** Deserialize: None is an error of the deserializer *)
(* crate serde, the visitors of the integers: every width is accepted if the value fits *)
Definition de_int (fits : Z -> bool) (v : sval) : option Z :=
  match v with SI16 z | SI64 z | SU32 z | SU64 z => chk fits z | _ => None end.
(* crate serde *)
Definition de_bool (v : sval) : option bool := match v with SBool b => Some b | _ => None end.
(* crate serde *)
Definition de_str (v : sval) : option str := match v with SStr s => Some s | _ => None end.

(* derived visit_map: the value of a field; missing and duplicate fields are errors, the order is arbitrary and unknown
   fields are ignored *)
Definition de_field (fields : list (str * sval)) (name : str) : option sval :=
  match filter (fun f => str_eqb (fst f) name) fields with [(_, v)] => Some v | _ => None end.
(* derived visit_map and visit_seq of a struct of two fields *)
Definition de_struct2 (f1 f2 : str) (v : sval) : option (sval * sval) :=
  match v with
  | SStruct _ fields => let? a := de_field fields f1 in let? b := de_field fields f2 in Some (a, b)
  | SSeq [a; b] => Some (a, b)
  | _ => None
  end.

(* fundu-core/src/time.rs:80 derive(Deserialize) for TimeUnit *)
Definition de_time_unit (v : sval) : option time_unit :=
  match v with
  | SUnitVariant _ s =>
      find (fun u => str_eqb (unit_variant u) s) [NanoSecond; MicroSecond; MilliSecond; Second; Minute; Hour; Day; Week; Month; Year]
  | _ => None
  end.
(* fundu-core/src/time.rs:375 derive(Deserialize) for Multiplier *)
Definition de_multiplier (v : sval) : option multiplier :=
  match v with
  | STuple _ [a; b] | SSeq [a; b] => let? c := de_int is_i64 a in let? e := de_int is_i16 b in Some (Mul c e)
  | _ => None
  end.
(* crate serde, impl Deserialize for std::time::Duration: check_overflow, then Duration::new, which carries the nanoseconds *)
Definition de_std (v : sval) : option std_duration :=
  let? (a, b) := de_struct2 (%"secs") (%"nanos") v in
  let? s := de_int is_u64 a in let? n := de_int is_u32 b in
  let? s' := chk is_u64 (s + n / 1000000000) in Some (Std s' (n mod 1000000000)).
(* fundu-core/src/time.rs:548-552 derive(Deserialize) for Duration *)
Definition de_duration (v : sval) : option duration :=
  let? (a, b) := de_struct2 (%"is_negative") (%"inner") v in
  let? n := de_bool a in let? i := de_std b in Some (Dur n i).
(* fundu-core/src/error.rs:71-79 derive(Deserialize) for TryFromDurationError *)
Definition de_try_from_error (v : sval) : option try_from_error :=
  match v with
  | SUnitVariant _ s =>
      if str_eqb s (%"NegativeDuration") then Some NegativeDuration
      else if str_eqb s (%"PositiveOverflow") then Some PositiveOverflow
      else if str_eqb s (%"NegativeOverflow") then Some NegativeOverflow else None
  | _ => None
  end.
(* fundu-core/src/error.rs:16-40 derive(Deserialize) for ParseError *)
Definition de_parse_error (v : sval) : option parse_error :=
  match v with
  | SUnitVariant _ s =>
      if str_eqb s (%"Empty") then Some Empty
      else if str_eqb s (%"Overflow") then Some Overflow
      else if str_eqb s (%"NegativeExponentOverflow") then Some NegativeExponentOverflow
      else if str_eqb s (%"PositiveExponentOverflow") then Some PositiveExponentOverflow
      else if str_eqb s (%"NegativeNumber") then Some NegativeNumber else None
  | STupleVariant _ s [a; b] =>
      let? p := de_int is_u64 a in let? m := de_str b in
      if str_eqb s (%"Syntax") then Some (Syntax (Z.to_nat p) m)
      else if str_eqb s (%"TimeUnit") then Some (TimeUnitErr (Z.to_nat p) m) else None
  | SNewtypeVariant _ s a => let? m := de_str a in if str_eqb s (%"InvalidInput") then Some (InvalidInput m) else None
  | _ => None
  end.
(* fundu-gnu/src/datetime.rs:68-69 derive(Deserialize) for JulianDay; visit_newtype_struct and visit_seq *)
Definition de_julian_day (v : sval) : option Z :=
  match v with SNewtype _ a | SSeq [a] => de_int is_i64 a | _ => None end.
(* fundu-gnu/src/datetime.rs:390-394 derive(Deserialize) for DateTime: no validation of `time` *)
Definition de_date_time (v : sval) : option date_time :=
  let? (a, b) := de_struct2 (%"days") (%"time") v in
  let? d := de_julian_day a in let? t := de_int is_u64 b in Some (DT d t).
