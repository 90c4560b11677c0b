(** * Specification of the proleptic Gregorian calendar

    Only the textbook rules: which years are leap years, how long the months are, and which day follows
    which. Julian day numbers count days from -4713-11-24; no closed formula is used. *)
From Verif Require Import Prelude Time SpecTime DateTime.

(** every fourth year, except the centuries that are not multiples of 400; year 0 is 1 BC *)
Definition leap (y : Z) : bool :=
  (y mod 4 =? 0) && (negb (y mod 100 =? 0) || (y mod 400 =? 0)).

Definition month_length (y m : Z) : Z :=
  match m with
  | 2 => if leap y then 29 else 28
  | 4 | 6 | 9 | 11 => 30
  | _ => 31
  end.

Definition date := (Z * Z * Z)%type. (* year, month, day *)

Definition valid_date (x : date) : Prop :=
  let '(y, m, d) := x in 1 <= m <= 12 /\ 1 <= d <= month_length y m.

Definition next_day (x : date) : date :=
  let '(y, m, d) := x in
  if d <? month_length y m then (y, m, d + 1)
  else if m <? 12 then (y, m + 1, 1) else (y + 1, 1, 1).

(** n days after x *)
Definition days_after (n : nat) (x : date) : date := Nat.iter n next_day x.

(** the reference day of Julian day numbers *)
Definition epoch : date := (-4713, 11, 24).

(** x is a date and n its Julian day number: n days after the reference day, or the reference day is -n days
    after x *)
Definition julian (x : date) (n : Z) : Prop :=
  valid_date x /\
  (0 <= n -> days_after (Z.to_nat n) epoch = x) /\
  (n <= 0 -> days_after (Z.to_nat (- n)) x = epoch).

Definition fits_i64 (n : Z) : Prop := - 2 ^ 63 <= n < 2 ^ 63.

(** the instant of a DateTime in nanoseconds since midnight of the reference day *)
Definition day_nanos : Z := 24 * 60 * 60 * 1000000000.
Definition instant (x : date_time) : Z := days x * day_nanos + time x.
