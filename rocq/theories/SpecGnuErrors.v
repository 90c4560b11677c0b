(** * Which error a relative time is rejected with (fundu-gnu)

    [s] is the whole text without the white space around it. *)
From Verif Require Import Prelude Time Config SpecTime SpecNum SpecSystemd SpecGnu.

Section GnuErrors.
Context (s : str).
(** the byte offset of the rest [l] of the text *)
Definition offset (l : str) : nat := (length s - length l)%nat.

(** [l] is what follows the sign of [t] and the white space after it; without a sign it is [t] *)
Definition after_sign (t l : str) : Prop :=
  exists sg n, t = sg ++ l /\ gnu_sign sg n /\ l <> [] /\ no_white_ahead l /\ (sg = [] -> forall x r, l = x :: r -> x <> 43 /\ x <> 45).

Definition no_digit_ahead (l : str) : Prop := forall x r, l = x :: r -> ~ 48 <= x <= 57.
(** digits with or without a decimal point, at least one digit *)
Inductive some_number : str -> Prop :=
| sn_whole W : digit_string W -> W <> [] -> some_number W
| sn_fraction W F : digit_string W -> digit_string F -> W ++ F <> [] -> some_number (W ++ 46 :: F).

Definition no_unit_ahead (l : str) : Prop := forall g ago r, ~ unit_phrase l g ago r.
(** the time unit which counts for a number in front of [l]: seconds if there is none *)
Definition unit_or_seconds (l : str) (g : gnu_unit) : Prop :=
  (exists ago r, unit_phrase l g ago r) \/ (no_white_ahead l /\ no_unit_ahead l /\ g = Seconds 1).

(** what is wrong with a number with a decimal point *)
Inductive bad_fraction : str -> str -> gnu_unit -> str -> Prop :=
| bf_unit W F g : g <> Seconds 1 -> bad_fraction W F g (%"Fraction only allowed together with seconds as time unit")
| bf_whole F : bad_fraction [] F (Seconds 1) (%"Fraction without a whole number")
| bf_fract W : W <> [] -> bad_fraction W [] (Seconds 1) (%"Fraction without a fractional number").

(** the component at the beginning of [t] is wrong *)
Inductive item_error (t : str) : parse_error -> Prop :=
| ie_sign x : t = [x] -> x = 43 \/ x = 45 -> item_error t (Syntax (length s) (%"Unexpected end of input. Sign without a number"))
| ie_point l : after_sign t (46 :: l) -> no_digit_ahead l ->
    item_error t (Syntax (offset (46 :: l)) (%"Either the whole number part or the fraction must be present"))
| ie_exponent num x l : after_sign t (num ++ x :: l) -> some_number num -> x = 101 \/ x = 69 ->
    item_error t (Syntax (offset (x :: l)) (%"No exponent allowed"))
| ie_fraction W F ds l g msg : after_sign t (W ++ 46 :: F ++ ds ++ l) -> digit_string W -> digit_string F -> W ++ F <> [] ->
    ends_fraction (ds ++ l) -> white_space ds -> unit_or_seconds l g -> bad_fraction W F g msg ->
    item_error t (InvalidInput msg)
| ie_unknown l : after_sign t l -> no_digit_ahead l -> (forall r, l <> 46 :: r) ->
    (forall w k r, l = w ++ r -> word_for gnu_keywords w k -> ~ ends_word r) -> no_unit_ahead l ->
    (forall w k x r, l = w ++ x :: r -> word_for gnu_numerals w k -> ~ white x) ->
    item_error t (InvalidInput l)
| ie_numeral w k ds l : after_sign t (w ++ ds ++ l) -> word_for gnu_numerals w k -> white_space ds -> ds <> [] -> no_white_ahead l ->
    no_unit_ahead l -> item_error t (TimeUnitErr (offset l) (%"Found numeral '" ++ w ++ %"' without a time unit")).

(** the first component which is wrong *)
Inductive relative_error : str -> parse_error -> Prop :=
| re_empty : relative_error [] Empty
| re_here t e : item_error t e -> relative_error t e
| re_later t a ds r e : gnu_item t a (ds ++ r) -> white_space ds -> no_white_ahead r -> r <> [] -> relative_error r e ->
    relative_error t e.
End GnuErrors.
