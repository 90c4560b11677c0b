(** * Specification of the texts of durations for debugging *)
From Verif Require Import Prelude Time Config SpecTime SpecNum SpecSpelling PropText SpecExamples.

(** the units of std, in nanoseconds; the third is the micro sign followed by s *)
Definition debug_units : list (str * Z) := [(%"s", 1000000000); (%"ms", 1000000); ([194; 181; 115], 1000); (%"ns", 1)].
(** the longest unit which is not longer than [v] nanoseconds, or else `ns` *)
Definition debug_unit (v : Z) (id : str) (L : Z) : Prop :=
  In (id, L) debug_units /\ (L <= v \/ L = 1) /\ forall id' L', In (id', L') debug_units -> L' <= v -> L' <= L.
(** [v] nanoseconds as a decimal number in this unit: without superfluous zeros at either end, and without a point if there is nothing behind it *)
Definition debug_text (v : Z) (t : str) : Prop :=
  exists id L W fr F, debug_unit v id L /\ decimal (v / L) W /\ fraction_text fr F /\ fr <> %"." /\ (forall F', F <> F' ++ [48]) /\
    dval F * L = (v mod L) * 10 ^ Z.of_nat (length F) /\ t = W ++ fr ++ id.
(** a Duration of fundu: the sign and the number *)
Definition fundu_debug_text (negative : bool) (v : Z) (t : str) : Prop :=
  exists s, debug_text v s /\ t = %"Duration { is_negative: " ++ (if negative then %"true" else %"false") ++ %", inner: " ++ s ++ %" }".

(** an integer as it is written *)
Definition integer_text (x : Z) (t : str) : Prop := 0 <= x /\ decimal x t \/ x < 0 /\ exists s, decimal (- x) s /\ t = %"-" ++ s.

(** ** the output of the example chrono *)
(** the limits of chrono::Duration: 2^63 - 1 milliseconds *)
Definition chrono_limit : Z := (2 ^ 63 - 1) * 1000000.
(** the labels have a width of 42 characters *)
Definition chrono_line (label value line : str) : Prop := exists l, right_aligned 42 label l /\ line = l ++ %": " ++ value.
(** for a duration of [v] nanoseconds: the original text, the seconds cut at the limits of chrono, and the seconds or a message *)
Definition chrono_answer (input : str) (v : Z) (out : list str) : Prop :=
  exists o a b t u, out = [o; a; b] /\ chrono_line (%"Original") input o /\
    chrono_line (%"Seconds (saturating_into chrono::Duration)") t a /\ integer_text (Z.quot (clamp (- chrono_limit) chrono_limit v) 1000000000) t /\
    chrono_line (%"Seconds (try_into chrono::Duration)") u b /\
    (- chrono_limit <= v <= chrono_limit -> u = t) /\
    (v < - chrono_limit -> u = %"Error converting duration: value overflows the negative value range") /\
    (chrono_limit < v -> u = %"Error converting duration: value overflows the positive value range").

(** ** the output of the example convert *)
Definition in_words (e : try_from_error) : str :=
  match e with
  | NegativeDuration => %"Error converting duration: value is negative"
  | PositiveOverflow => %"Error converting duration: value overflows the positive value range"
  | NegativeOverflow => %"Error converting duration: value overflows the negative value range"
  end.
(** the two lines for one type [target] with the values from [lo] to [hi]; [shows] says which texts stand for a value. [below] is the error for values which are too small *)
Definition conversion (target : str) (lo hi : Z) (below : try_from_error) (shows : Z -> str -> Prop) (v : Z) (exact saturated : str) : Prop :=
  (lo <= v <= hi -> exists t, shows v t /\ exact = %"Conversion to " ++ target ++ %": " ++ t) /\
  (v < lo -> exact = %"Error converting to " ++ target ++ %": The original error message was: '" ++ in_words below ++ %"'") /\
  (hi < v -> exact = %"Error converting to " ++ target ++ %": The original error message was: '" ++ in_words PositiveOverflow ++ %"'") /\
  exists t, shows (clamp lo hi v) t /\ saturated = %"Saturating conversion with SaturatingInto::<" ++ target ++ %">: " ++ t.
Definition time_low : Z := - (2 ^ 63 * 1000000000 + 999999999).
Definition time_high : Z := (2 ^ 63 - 1) * 1000000000 + 999999999.

(** ** the standard parsers of the example programs: the default settings, one single duration, and all the units *)
Definition default_settings (negative : bool) : config := {|
  c_default_unit := Second; c_disable_exponent := false; c_disable_fraction := false; c_disable_infinity := false; c_number_is_optional := false;
  c_allow_multiple := false; c_conjunctions := None; c_allow_negative := negative;
  c_inner_delimiter := one_of [32; 9; 10; 12; 13]; c_outer_delimiter := one_of [32; 9; 10; 12; 13];
  c_allow_ago := false; c_allow_sign_delimiter := false; c_allow_time_unit_delimiter := false |}.
Definition default_words_read : word_table :=
  [(NanoSecond, Mul 1 0, [%"ns"]); (MicroSecond, Mul 1 0, [%"Ms"]); (MilliSecond, Mul 1 0, [%"ms"]); (Second, Mul 1 0, [%"s"]);
   (Minute, Mul 1 0, [%"m"]); (Hour, Mul 1 0, [%"h"]); (Day, Mul 1 0, [%"d"]); (Week, Mul 1 0, [%"w"])].
Definition all_words_read : word_table := default_words_read ++ [(Month, Mul 1 0, [%"M"]); (Year, Mul 1 0, [%"y"])].
