(** * Model of the remaining small public functions: messages of the errors, equality and hash of custom time units, defaults *)
From Verif Require Import Prelude Util Time Config Parse Standard Custom.

(** fundu-core/src/error.rs:44-66 Display for ParseError; `{column}` of a usize is [dec], [Overflow] etc. are fixed texts *)
Definition display_parse_error (e : parse_error) : str :=
  match e with
  | Syntax column reason => %"Syntax error: " ++ reason ++ %" at column " ++ dec (Z.of_nat column)
  | Overflow => %"Number overflow"
  | TimeUnitErr pos reason => %"Time unit error: " ++ reason ++ %" at column " ++ dec (Z.of_nat pos)
  | NegativeExponentOverflow => %"Negative exponent overflow: Minimum is -32768"
  | PositiveExponentOverflow => %"Positive exponent overflow: Maximum is +32767"
  | NegativeNumber => %"Number was negative"
  | InvalidInput reason => %"Invalid input: " ++ reason
  | Empty => %"Empty input"
  end.
(** fundu-core/src/error.rs:94-107 Display for TryFromDurationError (without padding flags) *)
Definition display_try_from_error (e : try_from_error) : str :=
  match e with
  | NegativeDuration => %"Error converting duration: value is negative"
  | PositiveOverflow => %"Error converting duration: value overflows the positive value range"
  | NegativeOverflow => %"Error converting duration: value overflows the negative value range"
  end.

(** fundu/src/custom/time_units.rs:256-260 PartialEq for CustomTimeUnit; the derived equality of TimeUnit compares the variants *)
Definition ctu_eqb (a b : custom_time_unit) : bool :=
  (Nat.eqb (unit_index (ctu_base a)) (unit_index (ctu_base b))) && mult_eqb (ctu_mult a) (ctu_mult b).
(** fundu/src/custom/time_units.rs:266-271 Hash for CustomTimeUnit: what is written to the hasher. The derived Hash of TimeUnit
    (fundu-core/src/time.rs:78) writes the discriminant, the one of Multiplier (374) the two fields. *)
Definition ctu_hash (a : custom_time_unit) : list Z :=
  [Z.of_nat (unit_index (ctu_base a)); coef (ctu_mult a); expo (ctu_mult a)].

(** fundu-core/src/time.rs:1314-1318 PartialOrd for Duration *)
Definition partial_cmp (a b : duration) : option comparison := Some (dcmp a b).
(** the provided methods of PartialOrd (lt, le, gt, ge): `a < b` etc., used by every user of Duration *)
(* fundu-core/src/time.rs:1314-1318 the provided methods *)
Definition dltb (a b : duration) : bool := match partial_cmp a b with Some Lt => true | _ => false end.
(* fundu-core/src/time.rs:1314-1318 the provided methods *)
Definition dleb (a b : duration) : bool := match partial_cmp a b with Some Lt | Some Eq => true | _ => false end.
(* fundu-core/src/time.rs:1320-1330 the provided methods Ord::max and Ord::clamp (max returns the second argument if both are equal) *)
Definition dmax (a b : duration) : duration := match dcmp a b with Gt => a | _ => b end.
(* fundu-core/src/time.rs:1320-1330 the provided method Ord::clamp: panics if min > max *)
Definition dclamp (x lo hi : duration) : res duration :=
  let* _ := rassert (dleb lo hi) in
  Ok (if dltb x lo then lo else if dltb hi x then hi else x).
