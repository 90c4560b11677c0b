(** * The standard parser: fundu/src/standard *)
From Verif Require Import Prelude Time Config Parse.

(** ** fundu/src/standard/time_units.rs *)

(** `unit as usize`: the discriminants of enum TimeUnit, fundu-core/src/time.rs:81-102 *)
Definition unit_index (u : time_unit) : nat :=
  match u with
  | NanoSecond => 0 | MicroSecond => 1 | MilliSecond => 2 | Second => 3 | Minute => 4
  | Hour => 5 | Day => 6 | Week => 7 | Month => 8 | Year => 9
  end.

(** fundu/src/standard/time_units.rs:15-26 DEFAULT_TIME_UNITS (the values of DEFAULT_ID_*: fundu-core/src/time.rs:19-37) *)
Definition DEFAULT_TIME_UNITS : list str :=
  [ %"ns"; %"Ms"; %"ms"; %"s"; %"m"; %"h"; %"d"; %"w"; %"M"; %"y" ].

(** fundu/src/standard/time_units.rs:30-32 struct TimeUnits { data: [Option<TimeUnit>; 10] } *)
Definition units_data := list (option time_unit).

(** fundu/src/standard/time_units.rs:43-45 is_empty *)
Definition su_is_empty (data : units_data) : bool :=
  forallb (fun o => match o with None => true | Some _ => false end) data.

(** `.filter_map(|t| *t).find_map(|t| (DEFAULT_TIME_UNITS[t as usize] == identifier).then(...))`.
    The index is always in bounds (0..=9), a failing index is not modelled separately: [nth] with default. *)
(* fundu/src/standard/time_units.rs:54-62 *)
Fixpoint find_unit (l : units_data) (identifier : str) : option (time_unit * multiplier) :=
  match l with
  | [] => None
  | None :: l' => find_unit l' identifier
  | Some t :: l' =>
      if str_eqb (nth (unit_index t) DEFAULT_TIME_UNITS []) identifier then Some (t, default_multiplier)
      else find_unit l' identifier
  end.

(** fundu/src/standard/time_units.rs:52-64 get *)
Definition su_get (data : units_data) (identifier : str) : option (time_unit * multiplier) :=
  match length identifier with
  | 1%nat => find_unit (skipn 3 data) identifier
  | 2%nat => find_unit (firstn 3 data) identifier
  | _ => None
  end.

(** impl TimeUnitsLike for TimeUnits, fundu/src/standard/time_units.rs:40-65 *)
Definition std_units (data : units_data) : units_like := Units (su_is_empty data) (su_get data).

(** fundu/src/standard/time_units.rs:69-71 new *)
Definition units_new : units_data := repeat None 10.

(** array assignment data[i] = x (i is in bounds) *)
(* assignment to an array element, fundu/src/standard/time_units.rs:79 *)
Fixpoint set_nth {A} (i : nat) (x : A) (l : list A) : list A :=
  match l, i with
  | [], _ => []
  | _ :: l', O => x :: l'
  | y :: l', S i' => y :: set_nth i' x l'
  end.

(** fundu/src/standard/time_units.rs:74-83 with_time_units: the while loop over the units *)
Definition units_with (units : list time_unit) : units_data :=
  fold_left (fun data unit => set_nth (unit_index unit) (Some unit) data) units units_new.

(** fundu/src/standard/time_units.rs:86-101 with_default_time_units *)
Definition units_default : units_data :=
  [ Some NanoSecond; Some MicroSecond; Some MilliSecond; Some Second; Some Minute; Some Hour; Some Day; Some Week;
    None; None ].

(** fundu/src/standard/time_units.rs:104-119 with_all_time_units *)
Definition units_all : units_data :=
  [ Some NanoSecond; Some MicroSecond; Some MilliSecond; Some Second; Some Minute; Some Hour; Some Day; Some Week;
    Some Month; Some Year ].

(** fundu/src/standard/time_units.rs:122-124 get_time_units *)
Fixpoint get_time_units (data : units_data) : list time_unit :=
  match data with
  | [] => []
  | Some u :: data' => u :: get_time_units data'
  | None :: data' => get_time_units data'
  end.

(** ** fundu/src/standard/parser.rs *)

(** fundu/src/standard/parser.rs:46-50 struct DurationParser; `inner: Parser` is its Config (fundu-core/src/parse.rs:88-95) *)
Record duration_parser : Type := DParser { dp_units : units_data; dp_config : config }.

(** fundu/src/standard/parser.rs:88-93, 110-115, 134-139, 165-170; Parser::new is Config::new (DEFAULT_CONFIG, fundu-core/src/parse.rs:98-107) *)
Definition dp_new : duration_parser := DParser units_default config_new.
(* fundu/src/standard/parser.rs:110-115 *)
Definition dp_with_time_units (l : list time_unit) : duration_parser := DParser (units_with l) config_new.
(* fundu/src/standard/parser.rs:134-139 *)
Definition dp_without_time_units : duration_parser := DParser units_new config_new.
(* fundu/src/standard/parser.rs:165-170 *)
Definition dp_with_all_time_units : duration_parser := DParser units_all config_new.

(** fundu/src/standard/parser.rs:228-230 parse *)
Definition dp_parse (p : duration_parser) (source : str) : res duration :=
  parse (dp_config p) source (std_units (dp_units p)) None None.

(** The setters `&mut self -> &mut Self` with their arguments; the same methods exist for CustomDurationParser *)
(* fundu/src/standard/parser.rs:251-640, fundu/src/custom/parser.rs:426-812 the setters *)
Inductive setting : Type :=
| Set_default_unit (u : time_unit)
| Set_allow_time_unit_delimiter (v : bool)
| Set_allow_sign_delimiter (v : bool)
| Set_allow_negative (v : bool)
| Set_allow_ago (v : bool)
| Set_disable_exponent (v : bool)
| Set_disable_fraction (v : bool)
| Set_disable_infinity (v : bool)
| Set_number_is_optional (v : bool)
| Set_parse_multiple (v : bool) (conjunctions : option (list str))
| Set_inner_delimiter (d : delimiter)
| Set_outer_delimiter (d : delimiter).

(** fundu/src/standard/parser.rs:251-640, what each of them does with self.inner.config *)
Definition dp_set_config (c : config) (s : setting) : config :=
  match s with
  | Set_default_unit u => set_default_unit c u                                   (* 251-254 *)
  | Set_allow_time_unit_delimiter v => set_allow_time_unit_delimiter c v         (* 285-288 *)
  | Set_allow_sign_delimiter v => set_allow_sign_delimiter c v                   (* 309-312 *)
  | Set_allow_negative v => set_allow_negative c v                               (* 330-333 *)
  | Set_allow_ago v =>                                                           (* 381-387 *)
      let c := set_allow_ago_only c v in
      if v then set_allow_negative c true else c
  | Set_disable_exponent v => set_disable_exponent c v                           (* 406-409 *)
  | Set_disable_fraction v => set_disable_fraction c v                           (* 437-440 *)
  | Set_disable_infinity v => set_disable_infinity c v                           (* 467-470 *)
  | Set_number_is_optional v => set_number_is_optional c v                       (* 490-493 *)
  | Set_parse_multiple v cj => set_allow_multiple c v cj                         (* 562-570 *)
  | Set_inner_delimiter d => set_inner_delimiter c d                             (* 599-602 *)
  | Set_outer_delimiter d => set_outer_delimiter c d                             (* 637-640 *)
  end.
(* fundu/src/standard/parser.rs:251-640 the setters change only self.inner.config *)
Definition dp_set (p : duration_parser) (s : setting) : duration_parser :=
  DParser (dp_units p) (dp_set_config (dp_config p) s).

(** fundu/src/standard/parser.rs:658-660 *)
Definition dp_get_current_time_units (p : duration_parser) : list time_unit := get_time_units (dp_units p).

(** fundu/src/standard/parser.rs:700-706 parse_duration; `d.try_into().unwrap()` *)
Definition parse_duration (s : str) : res std_duration :=
  let* d := dp_parse dp_new s in
  match try_into_std d with inl x => Ok x | inr _ => Crash CrashUnwrap end.

(** ** fundu/src/standard/builder.rs *)

(** fundu/src/standard/builder.rs:14-19 *)
Inductive units_choice : Type := ChoiceDefault | ChoiceAll | ChoiceNone | ChoiceCustom (l : list time_unit).

(** fundu/src/standard/builder.rs:68-71 *)
Record duration_parser_builder : Type := DBuilder { dpb_choice : units_choice; dpb_config : config }.

(** fundu/src/standard/builder.rs:102-107 *)
Definition dpb_new : duration_parser_builder := DBuilder ChoiceNone config_new.

(** the methods of the builder *)
(* fundu/src/standard/builder.rs:153-594 the methods of the builder *)
Inductive builder_call : Type :=
| B_default_time_units | B_all_time_units | B_time_units (l : list time_unit)
| B_default_unit (u : time_unit)
| B_allow_time_unit_delimiter
| B_allow_sign_delimiter
| B_allow_negative
| B_allow_ago
| B_disable_exponent
| B_disable_fraction
| B_disable_infinity
| B_number_is_optional
| B_parse_multiple (conjunctions : option (list str))
| B_inner_delimiter (d : delimiter)
| B_outer_delimiter (d : delimiter).

(** fundu/src/standard/builder.rs:153-593 *)
Definition dpb_call (b : duration_parser_builder) (o : builder_call) : duration_parser_builder :=
  let c := dpb_config b in
  let cfg := DBuilder (dpb_choice b) in
  match o with
  | B_default_time_units => DBuilder ChoiceDefault c                             (* 153-156 *)
  | B_all_time_units => DBuilder ChoiceAll c                                     (* 205-208 *)
  | B_time_units l => DBuilder (ChoiceCustom l) c                                (* 232-235 *)
  | B_default_unit u => cfg (set_default_unit c u)                               (* 257-260 *)
  | B_allow_time_unit_delimiter => cfg (set_allow_time_unit_delimiter c true)    (* 283-286 *)
  | B_allow_sign_delimiter => cfg (set_allow_sign_delimiter c true)              (* 307-310 *)
  | B_allow_negative => cfg (set_allow_negative c true)                          (* 326-329 *)
  | B_allow_ago => cfg (set_allow_negative (set_allow_ago_only c true) true)     (* 378-382 *)
  | B_disable_exponent => cfg (set_disable_exponent c true)                      (* 402-405 *)
  | B_disable_fraction => cfg (set_disable_fraction c true)                      (* 432-435 *)
  | B_disable_infinity => cfg (set_disable_infinity c true)                      (* 461-464 *)
  | B_number_is_optional => cfg (set_number_is_optional c true)                  (* 483-486 *)
  | B_parse_multiple cj => cfg (set_allow_multiple c true cj)                    (* 521-525 *)
  | B_inner_delimiter d => cfg (set_inner_delimiter c d)                         (* 553-556 *)
  | B_outer_delimiter d => cfg (set_outer_delimiter c d)                         (* 590-593 *)
  end.

(** fundu/src/standard/builder.rs:607-628 build *)
Definition dpb_build (b : duration_parser_builder) : duration_parser :=
  match dpb_choice b with
  | ChoiceDefault => DParser units_default (dpb_config b)
  | ChoiceAll => DParser units_all (dpb_config b)
  | ChoiceNone => DParser units_new (dpb_config b)
  | ChoiceCustom l => DParser (units_with l) (dpb_config b)
  end.
