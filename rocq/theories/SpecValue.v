(** * Specification vocabulary: the duration denoted by a number, a unit or a numeral *)
From Verif Require Import Prelude Time SpecTime SpecNum.

Definition std_of_nanos (n : Z) : std_duration := Std (n / 1000000000) (n mod 1000000000).

(** |c| * V * 10^k seconds in nanoseconds, where V * 10^k is first cut to 18 decimal places, capped at the maximum *)
Definition magnitude (V k c : Z) : Z :=
  Z.min max_nanos (Z.abs c * floor_scale10 V (18 + k) / 1000000000).

(** the duration for the number V * 10^k, the sign and the coefficient c. A number which is cut to zero has no
    sign; otherwise the sign is kept, even if the magnitude in nanoseconds is zero. *)
Definition number_result (is_neg : bool) (V k c : Z) : duration :=
  if (floor_scale10 V (18 + k) =? 0) || (c =? 0) then ZERO else Dur is_neg (std_of_nanos (magnitude V k c)).

(** the duration for a multiplier c * 10^e (keywords, units without a number, numerals).
    This is what the code does; see [C19_large_exponent_refuted] and [C19_small_exponent_refuted] in PropNum.v for where it differs from the documentation. *)
Definition fixed_result (is_neg : bool) (c e : Z) : duration :=
  if c =? 0 then ZERO
  else if e <? -18 then ZERO
  else if 19 <? e then (if c <? 0 then MIN else MAX)
  else Dur (xorb (c <? 0) is_neg) (std_of_nanos (Z.min max_nanos (floor_scale10 (Z.abs c) (9 + e)))).

(** the length of a unit in seconds, as coefficient and power of ten: documented in the README of fundu-core and for
    [TimeUnit] (a year is 365.25 days, a month the twelfth part of it); [C46_unit_lengths] compares it with nanoseconds *)
Definition unit_length (u : time_unit) : multiplier :=
  match u with
  | NanoSecond => Mul 1 (-9) | MicroSecond => Mul 1 (-6) | MilliSecond => Mul 1 (-3)
  | Second => Mul 1 0 | Minute => Mul 60 0 | Hour => Mul 3600 0 | Day => Mul 86400 0
  | Week => Mul 604800 0 | Month => Mul 2629800 0 | Year => Mul 31557600 0
  end.

(** the digits W before and F after the decimal point, the exponent x, the unit u with multiplier m *)
Definition number_value (is_neg : bool) (W F : str) (x : Z) (u : time_unit) (m : multiplier) : duration :=
  let c := coef (unit_length u) * coef m in
  let e := expo (unit_length u) + expo m in
  number_result (xorb is_neg (c <? 0)) (dval (W ++ F)) (e + x - Z.of_nat (length F)) c.

(** a unit (keyword) without a number *)
Definition unit_value (is_neg : bool) (u : time_unit) (m : multiplier) : duration :=
  fixed_result is_neg (coef (unit_length u) * coef m) (expo (unit_length u) + expo m).

(** a numeral n and a unit *)
Definition numeral_value (is_neg : bool) (n : multiplier) (u : time_unit) (m : multiplier) : duration :=
  fixed_result is_neg (coef n * coef (unit_length u) * coef m) (expo n + expo (unit_length u) + expo m).

Definition infinity_value (is_neg : bool) : duration := if is_neg then MIN else MAX.
