(** * Model of the derived equality (`==`) of configurations, parsers and builders *)
From Verif Require Import Prelude Time Config Parse Standard Custom Systemd Misc.

(** derived PartialEq of Option, and of slices, vectors and arrays: the length, then element by element (library code: no line of /repo) *)
Definition opt_eqb {A} (e : A -> A -> bool) (a b : option A) : bool :=
  match a, b with Some x, Some y => e x y | None, None => true | _, _ => false end.
(* no line of /repo *)
Fixpoint list_eqb {A} (e : A -> A -> bool) (a b : list A) : bool :=
  match a, b with
  | [], [] => true
  | x :: a', y :: b' => e x y && list_eqb e a' b'
  | _, _ => false
  end.
(* fundu-core/src/time.rs:79 derived PartialEq of TimeUnit: the discriminants *)
Definition unit_eqb (a b : time_unit) : bool := Nat.eqb (unit_index a) (unit_index b).

(** A Delimiter is a `fn(u8) -> bool` (fundu-core/src/time.rs, config.rs: type Delimiter): `==` compares addresses. Which functions have
    the same address is decided by the compiler, so it is a parameter [addr], and equality of the structures with
    delimiters is a proposition instead of a boolean. *)
Section Addresses.
Variable addr : delimiter -> delimiter -> Prop.

(* fundu-core/src/config.rs:124 derived PartialEq of Config; default_multiplier is not modelled (always Multiplier(1, 0)) *)
Definition config_eq (a b : config) : Prop :=
  unit_eqb (c_default_unit a) (c_default_unit b) && Bool.eqb (c_disable_exponent a) (c_disable_exponent b) &&
  Bool.eqb (c_disable_fraction a) (c_disable_fraction b) && Bool.eqb (c_disable_infinity a) (c_disable_infinity b) &&
  Bool.eqb (c_number_is_optional a) (c_number_is_optional b) && Bool.eqb (c_allow_multiple a) (c_allow_multiple b) &&
  opt_eqb (list_eqb str_eqb) (c_conjunctions a) (c_conjunctions b) && Bool.eqb (c_allow_negative a) (c_allow_negative b) &&
  Bool.eqb (c_allow_ago a) (c_allow_ago b) && Bool.eqb (c_allow_sign_delimiter a) (c_allow_sign_delimiter b) &&
  Bool.eqb (c_allow_time_unit_delimiter a) (c_allow_time_unit_delimiter b) = true /\
  addr (c_inner_delimiter a) (c_inner_delimiter b) /\ addr (c_outer_delimiter a) (c_outer_delimiter b).

(* fundu/src/standard/parser.rs:46, fundu/src/standard/time_units.rs:29 derived PartialEq of DurationParser and TimeUnits *)
Definition dp_eq (a b : duration_parser) : Prop :=
  list_eqb (opt_eqb unit_eqb) (dp_units a) (dp_units b) = true /\ config_eq (dp_config a) (dp_config b).

(* fundu/src/custom/time_units.rs:61 derived PartialEq of LookupData *)
Definition ld_eqb (a b : lookup_data) : bool :=
  (ld_min a =? ld_min b) && (ld_max a =? ld_max b) && unit_eqb (ld_unit a) (ld_unit b) && mult_eqb (ld_mult a) (ld_mult b).
(* fundu/src/custom/time_units.rs:273 derived PartialEq of CustomTimeUnits; 58 type IdentifiersLookupData is a pair *)
Definition cu_eqb (a b : custom_units) : bool :=
  (cu_min a =? cu_min b) && (cu_max a =? cu_max b) &&
  list_eqb (fun x y => ld_eqb (fst x) (fst y) && list_eqb str_eqb (snd x) (snd y)) (cu_units a) (cu_units b).
(* fundu/src/custom/mod.rs:42 derived PartialEq of Numeral *)
Definition numeral_eqb (a b : numeral) : bool := list_eqb str_eqb (nu_ids a) (nu_ids b) && mult_eqb (nu_mult a) (nu_mult b).
(* fundu/src/custom/parser.rs:33 derived PartialEq of CustomDurationParser, fundu/src/custom/mod.rs:66 of Numerals *)
Definition cp_eq (a b : custom_parser) : Prop :=
  cu_eqb (cp_units a) (cp_units b) && cu_eqb (cp_keywords a) (cp_keywords b) && list_eqb numeral_eqb (cp_numerals a) (cp_numerals b) = true /\
  config_eq (cp_config a) (cp_config b).

(* fundu/src/standard/builder.rs:13 derived PartialEq of TimeUnitsChoice *)
Definition choice_eqb (a b : units_choice) : bool :=
  match a, b with
  | ChoiceDefault, ChoiceDefault | ChoiceAll, ChoiceAll | ChoiceNone, ChoiceNone => true
  | ChoiceCustom l, ChoiceCustom k => list_eqb unit_eqb l k
  | _, _ => false
  end.
(* fundu/src/standard/builder.rs:67 derived PartialEq of DurationParserBuilder *)
Definition dpb_eq (a b : duration_parser_builder) : Prop :=
  choice_eqb (dpb_choice a) (dpb_choice b) = true /\ config_eq (dpb_config a) (dpb_config b).
(* fundu/src/custom/builder.rs:42 derived PartialEq of CustomDurationParserBuilder, fundu/src/custom/time_units.rs:428 of TimeKeyword;
   both use the equality of CustomTimeUnit (time_units.rs:256-260), which ignores the identifiers *)
Definition cb_eq (a b : custom_builder) : Prop :=
  config_eq (cb_config a) (cb_config b) /\ list_eqb ctu_eqb (cb_units a) (cb_units b) && list_eqb ctu_eqb (cb_keywords a) (cb_keywords b) &&
  list_eqb numeral_eqb (cb_numerals a) (cb_numerals b) = true.
(* fundu-systemd/src/lib.rs:313 derived PartialEq of TimeSpanParser, fundu-core/src/parse.rs:87 of Parser *)
Definition sd_eq (a b : span_parser) : Prop := config_eq a b.
End Addresses.
