(** * Specification vocabulary for the parser: what is assumed of its parameters, and which errors are legal *)
From Verif Require Import Prelude Time Config.

(** a delimiter which only matches ASCII bytes *)
Definition ascii_delim (d : delimiter) : Prop := forall x, d x = true -> 0 <= x <= 127.

(** unit * multiplier does not overflow *)
Definition unit_fits (u : time_unit) (m : multiplier) : Prop :=
  multiplier_ok m /\ mul_checked_mul (unit_multiplier u) m <> None.
(** numeral * unit * multiplier does not overflow *)
Definition numeral_fits (n : multiplier) (u : time_unit) (m : multiplier) : Prop :=
  exists m1, mul_checked_mul n (unit_multiplier u) = Some m1 /\ mul_checked_mul m1 m <> None.

Definition units_fit (t : units_like) : Prop :=
  forall id u m, u_get t id = Some (u, m) -> unit_fits u m.

(** what the parser needs from its configuration and its tables:
    ASCII delimiters, conjunctions which are strings, products which do not overflow *)
Record env_ok (c : config) (time_units : units_like) (keywords : option units_like)
    (numerals : option numbers_like) : Prop := EnvOk {
  env_inner : ascii_delim (c_inner_delimiter c);
  env_outer : ascii_delim (c_outer_delimiter c);
  env_conjunctions : forall l w, c_conjunctions c = Some l -> In w l -> utf8 w = true;
  env_units : units_fit time_units;
  env_keywords : forall k, keywords = Some k -> units_fit k;
  env_numerals : forall f id n, numerals = Some f -> f id = Some n ->
     forall id' u m, u_get time_units id' = Some (u, m) ->
       numeral_fits n u m /\ (c_allow_ago c = true -> numeral_fits n u (mul_saturating_neg m))
}.

(** a byte position of the input at a character boundary *)
Definition pos_ok (s : str) (p : nat) : Prop := (p <= length s)%nat /\ utf8 (skipn p s) = true.

(** the errors which are possible for the input [s] *)
Definition err_ok (s : str) (e : parse_error) : Prop :=
  match e with
  | Syntax p _ | TimeUnitErr p _ => pos_ok s p
  | InvalidInput m => exists pre, s = pre ++ m
  | Empty => s = []
  | Overflow => False
  | NegativeExponentOverflow | PositiveExponentOverflow | NegativeNumber => True
  end.
