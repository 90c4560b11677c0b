(** * Vocabulary for running the test suite of /repo on the model

    The files Conform*.v replay the assertions of the unit tests, integration tests and documentation examples of /repo on
    the model. They are tests of the MODEL (does it compute what the maintainers say the program computes?), not proofs of
    the properties: no theorem of MANIFEST.json uses them. *)
From Verif Require Import Prelude Util Time Config Bytes Repr Parse Standard Custom Systemd DateTime Gnu Misc.

(* derived PartialEq of ParseError, fundu-core/src/error.rs:17 *)
Definition perr_eqb (a b : parse_error) : bool :=
  match a, b with
  | Empty, Empty | Overflow, Overflow | NegativeExponentOverflow, NegativeExponentOverflow => true
  | PositiveExponentOverflow, PositiveExponentOverflow | NegativeNumber, NegativeNumber => true
  | Syntax p m, Syntax q n => Nat.eqb p q && str_eqb m n
  | TimeUnitErr p m, TimeUnitErr q n => Nat.eqb p q && str_eqb m n
  | InvalidInput m, InvalidInput n => str_eqb m n
  | _, _ => false
  end.
(* derived PartialEq of TryFromDurationError, fundu-core/src/error.rs:71 *)
Definition tfe_eqb (a b : try_from_error) : bool :=
  match a, b with
  | NegativeDuration, NegativeDuration | PositiveOverflow, PositiveOverflow | NegativeOverflow, NegativeOverflow => true
  | _, _ => false
  end.
(* PartialEq of std::cmp::Ordering *)
Definition cmp_eqb (a b : comparison) : bool :=
  match a, b with Lt, Lt | Eq, Eq | Gt, Gt => true | _, _ => false end.
(* PartialEq of Option *)
Definition opt_eqb {A} (f : A -> A -> bool) (a b : option A) : bool :=
  match a, b with Some x, Some y => f x y | None, None => true | _, _ => false end.
(* PartialEq of slices *)
Fixpoint list_eqb {A} (f : A -> A -> bool) (a b : list A) : bool :=
  match a, b with [], [] => true | x :: a', y :: b' => f x y && list_eqb f a' b' | _, _ => false end.
(* PartialEq of tuples *)
Definition z2_eqb (a b : Z * Z) := (fst a =? fst b) && (snd a =? snd b).
(* PartialEq of tuples *)
Definition z3_eqb (a b : Z * Z * Z) := z2_eqb (fst a) (fst b) && (snd a =? snd b).
(* PartialEq of tuples *)
Definition z4_eqb (a b : Z * Z * Z * Z) := z3_eqb (fst a) (fst b) && (snd a =? snd b).
(* PartialEq of tuples *)
Definition z7_eqb (a b : Z * Z * Z * (Z * Z * Z * Z)) := z3_eqb (fst a) (fst b) && z4_eqb (snd a) (snd b).
(* PartialEq of tuples *)
Definition fuzzy_eqb (a b : Z * Z * duration) := z2_eqb (fst a) (fst b) && deqb (snd a) (snd b).
(* PartialEq of tuples *)
Definition um_eqb (a b : time_unit * multiplier) := time_unit_eqb (fst a) (fst b) && mult_eqb (snd a) (snd b).
(* PartialEq of time::Duration and chrono::Duration *)
Definition tdur_eqb (a b : time_duration) := (t_secs a =? t_secs b) && (t_nanos a =? t_nanos b).
(* PartialEq of time::Duration and chrono::Duration *)
Definition cdur_eqb (a b : chrono_duration) := (c_secs a =? c_secs b) && (c_nanos a =? c_nanos b).
(* what is written to the hasher *)
Definition hash_item_eqb (a b : hash_item) : bool :=
  match a, b with
  | HBool x, HBool y => Bool.eqb x y
  | HU64 x, HU64 y | HU32 x, HU32 y => x =? y
  | _, _ => false
  end.
(* what is written to the hasher *)
Definition hash_eqb := list_eqb hash_item_eqb.
(* derived PartialEq of LookupData and a vector of identifiers *)
Definition lk_eqb (a b : lookup_data * list (list Z)) : bool :=
  (ld_min (fst a) =? ld_min (fst b)) && (ld_max (fst a) =? ld_max (fst b)) && time_unit_eqb (ld_unit (fst a)) (ld_unit (fst b)) &&
  mult_eqb (ld_mult (fst a)) (ld_mult (fst b)) && list_eqb str_eqb (snd a) (snd b).

(* assert_eq!(a, b) for values which may be a Result *)
Definition same {A} (f : A -> A -> bool) (a b : res A) : bool :=
  match a, b with Ok x, Ok y => f x y | Err x, Err y => perr_eqb x y | _, _ => false end.
(* assert_ne!(a, b) *)
Definition differ {A} (f : A -> A -> bool) (a b : res A) : bool :=
  match a, b with Ok x, Ok y => negb (f x y) | _, _ => false end.
(* assert!(a) *)
Definition is_true (a : res bool) : bool := match a with Ok b => b | _ => false end.
(* a statement which must not panic *)
Definition runs {A} (a : res A) : bool := match a with Crash _ => false | _ => true end.
(* #[should_panic] *)
Definition crashes {A} (a : res A) : bool := match a with Crash _ => true | _ => false end.
(* Result::is_err *)
Definition is_err {A} (a : res A) : bool := match a with Ok _ => false | _ => true end.
(* Result::unwrap_err *)
Definition get_err {A} (a : res A) : res parse_error :=
  match a with Err e => Ok e | Ok _ => Crash CrashUnwrap | Crash c => Crash c end.
(* Result::unwrap *)
Definition no_err {A} (a : res A) : res A := match a with Err _ => Crash CrashUnwrap | r => r end.
(* Result::unwrap and Result::unwrap_err of a conversion *)
Definition conv_get {A} (a : res (conv A)) : res A :=
  match a with Ok (inl x) => Ok x | Ok (inr _) => Crash CrashUnwrap | Err e => Err e | Crash c => Crash c end.
(* Result::unwrap and Result::unwrap_err of a conversion *)
Definition conv_err {A} (a : res (conv A)) : res try_from_error :=
  match a with Ok (inr x) => Ok x | Ok (inl _) => Crash CrashUnwrap | Err e => Err e | Crash c => Crash c end.

(* fundu/src/custom/time_units.rs:383-391 CustomTimeUnits::lookup_mut, here as the lookup of the tests *)
Definition find_group (c : custom_units) (u : time_unit) (m : multiplier) : option (lookup_data * list (list Z)) :=
  find (fun e => time_unit_eqb (ld_unit (fst e)) u && mult_eqb (ld_mult (fst e)) m) (cu_units c).
(* a constructed time unit; the fallback is never used by the tests *)
Definition ctu_ok (r : res custom_time_unit) : custom_time_unit :=
  match r with Ok t => t | _ => ctu_with_default Second [] end.
(* the result of ReprParser::parse_whole and parse_fract: the range of the digits *)
Definition range_of (p : scanner * (nat * nat)) : Z * Z := (Z.of_nat (fst (snd p)), Z.of_nat (snd (snd p))).
(* the state after Bytes::parse_8_digits *)
Definition after8 (b : scanner) : scanner := match parse_8_digits b with Some (_, b') => b' | None => b end.

(* fundu-core/tests/test_parsing_numerals.rs:14-23 TwoNumerals *)
Definition two_numerals : numbers_like := fun s =>
  if str_eqb s (%"next") then Some (Mul 1 0) else if str_eqb s (%"three") then Some (Mul 3 0) else None.
(* fundu-core/tests/test_parsing_numerals.rs:25-38 TwoTimeUnits *)
Definition two_time_units : units_like := Units false (fun s =>
  if str_eqb s (%"second") then Some (Second, Mul 1 0) else if str_eqb s (%"minute") then Some (Minute, Mul 1 0) else None).
(* fundu-core/tests/test_parsing_numerals.rs:40-49 EmptyTimeUnits *)
Definition empty_time_units : units_like := Units true (fun _ => None).
(* fundu-core/tests/test_parsing_numerals.rs:51-65 TomorrowKeyword *)
Definition tomorrow_keyword : units_like := Units false (fun s =>
  if str_eqb s (%"tomorrow") then Some (Day, Mul 1 0) else None).
(* all the assertions of one test function *)
Definition all_pass (l : list bool) : bool := forallb (fun b => b) l.
