(** * Specification vocabulary for the systemd parser *)
From Verif Require Import Prelude Time Config SpecNum SpecSpelling.

(** posix white space: space, tab, line feed, vertical tab, form feed, carriage return *)
Definition white (x : byte) : Prop := x = 32 \/ 9 <= x <= 13.
Definition white_space (l : str) : Prop := forall x, In x l -> white x.
(** neither the first nor the last byte is white space *)
Definition trimmed (l : str) : Prop := (forall x r, l = x :: r -> ~ white x) /\ (forall x r, l = r ++ [x] -> ~ white x).

(** the documented identifiers of fundu-systemd (README, lib.rs:45-60); the third and fourth are mu (U+03BC) and
    the micro sign (U+00B5), followed by s *)
Definition systemd_units : list (time_unit * list str) :=
  [ (MicroSecond, [%"us"; [206; 188; 115]; [194; 181; 115]; %"usec"]);
    (MilliSecond, [%"ms"; %"msec"]);
    (Second, [%"s"; %"sec"; %"second"; %"seconds"]);
    (Minute, [%"m"; %"min"; %"minute"; %"minutes"]);
    (Hour, [%"h"; %"hr"; %"hour"; %"hours"]);
    (Day, [%"d"; %"day"; %"days"]);
    (Week, [%"w"; %"week"; %"weeks"]);
    (Month, [%"M"; %"month"; %"months"]);
    (Year, [%"y"; %"year"; %"years"]) ].
Definition systemd_nanos_units : list (time_unit * list str) := (NanoSecond, [%"ns"; %"nsec"]) :: systemd_units.

Definition denotes (table : list (time_unit * list str)) (w : str) (u : time_unit) : Prop :=
  exists ws, In (u, ws) table /\ In w ws.

(** the length of a time unit in nanoseconds *)
Definition unit_nanos (u : time_unit) : Z :=
  match u with
  | NanoSecond => 1 | MicroSecond => 1000 | MilliSecond => 1000000 | Second => 1000000000
  | Minute => 60 * 1000000000 | Hour => 3600 * 1000000000 | Day => 86400 * 1000000000
  | Week => 604800 * 1000000000 | Month => 2629800 * 1000000000 | Year => 31557600 * 1000000000
  end.

(** ** Time spans as they are documented *)
(** `+` may precede every part *)
Definition plus_text (sg : str) : Prop := sg = [] \/ sg = %"+".

(** One part of a time span and its length in nanoseconds (rounded down, at most 18 digits after the point). [has_unit] tells if it
    ends with a time unit. *)
Inductive part (default : time_unit) (table : list (time_unit * list str)) : str -> bool -> Z -> Prop :=
| part_number_unit sg W fr F gap w u : plus_text sg -> digit_string W -> fraction_text fr F -> W ++ F <> [] ->
    (length F <= 18)%nat -> white_space gap -> denotes table w u ->
    part default table (sg ++ W ++ fr ++ gap ++ w) true (unit_nanos u * dval (W ++ F) / 10 ^ Z.of_nat (length F))
| part_number sg W fr F : plus_text sg -> digit_string W -> fraction_text fr F -> W ++ F <> [] -> (length F <= 18)%nat ->
    part default table (sg ++ W ++ fr) false (unit_nanos default * dval (W ++ F) / 10 ^ Z.of_nat (length F))
| part_unit sg w u : plus_text sg -> denotes table w u -> part default table (sg ++ w) true (unit_nanos u).

(** parts with white space between them, which may be missing after a unit if a digit follows, and in front of a sign, and the sum
    of their lengths *)
Inductive time_span (default : time_unit) (table : list (time_unit * list str)) : str -> Z -> Prop :=
| span_last s b v : part default table s b v -> time_span default table s v
| span_more s b v sep x rest v' : part default table s b v -> white_space sep -> time_span default table (x :: rest) v' ->
    (b = true /\ sep <> []) \/ ((b = true \/ sep <> []) /\ 48 <= x <= 57) \/ x = 43 ->
    time_span default table (s ++ sep ++ x :: rest) (v + v').

(** ** All time spans, documented or not *)
(** the length in nanoseconds of the number W.F of the unit: the digits after the 18th decimal place are cut off, the rest is
    rounded down *)
Definition amount (u : time_unit) (W F : str) : Z :=
  let F' := firstn 18 F in unit_nanos u * dval (W ++ F') / 10 ^ Z.of_nat (length F').
(** less than 10^-18 of the unit, or of a second if the unit is shorter than a second *)
Definition decimals_below_second (u : time_unit) : Z :=
  match u with NanoSecond => 9 | MicroSecond => 6 | MilliSecond => 3 | _ => 0 end.
Definition tiny (u : time_unit) (W F : str) : Prop :=
  dval (W ++ F) * 10 ^ (18 - decimals_below_second u) < 10 ^ Z.of_nat (length F).

Definition has_point (fr : str) : bool := match fr with [] => false | _ => true end.
(** A part and its length. A minus sign is possible if the number is nearly nothing. The booleans tell if the part ends with a time
    unit, and if it has a decimal point. *)
Inductive any_part (default : time_unit) (table : list (time_unit * list str)) : str -> bool -> bool -> Z -> Prop :=
| any_number_unit sg n W fr F gap w u : sign_text sg n -> digit_string W -> fraction_text fr F -> W ++ F <> [] ->
    white_space gap -> denotes table w u -> (n = true -> tiny u W F) ->
    any_part default table (sg ++ W ++ fr ++ gap ++ w) true (has_point fr) (amount u W F)
| any_number sg n W fr F : sign_text sg n -> digit_string W -> fraction_text fr F -> W ++ F <> [] -> (n = true -> tiny default W F) ->
    any_part default table (sg ++ W ++ fr) false (has_point fr) (amount default W F)
| any_unit sg w u : plus_text sg -> denotes table w u -> any_part default table (sg ++ w) true false (unit_nanos u).

(** The byte [x] may start the next part, after the white space [sep]: a sign always; a digit if it is not the continuation of a number;
    anything after a unit and white space; a decimal point after a number without a unit if it is not the point of this number. *)
Definition may_follow (has_unit point : bool) (sep : str) (x : byte) : Prop :=
  x = 43 \/ x = 45 \/
  (48 <= x <= 57 /\ (has_unit = true \/ sep <> [])) \/
  (has_unit = true /\ sep <> []) \/
  (has_unit = false /\ x = 46 /\ (point = true \/ sep <> [])).

Inductive any_span (default : time_unit) (table : list (time_unit * list str)) : str -> Z -> Prop :=
| any_last s b p v : any_part default table s b p v -> any_span default table s v
| any_more s b p v sep x rest v' : any_part default table s b p v -> white_space sep -> any_span default table (x :: rest) v' ->
    may_follow b p sep x -> any_span default table (s ++ sep ++ x :: rest) (v + v').
