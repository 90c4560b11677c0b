(** * Specification vocabulary for the gnu parser *)
From Verif Require Import Prelude Time SpecTime SpecNum SpecSystemd SpecGrammar.

(** ** The documented words (fundu-gnu/README.md, fundu-gnu/src/lib.rs:20-50). Case is ignored. *)
(** what one time unit is worth: a number of seconds, or a month or year of the calendar *)
Inductive gnu_unit := Seconds (k : Z) | AMonth | AYear.
Definition gnu_units : list (gnu_unit * list str) :=
  [ (Seconds 1, [%"sec"; %"secs"; %"second"; %"seconds"]);
    (Seconds 60, [%"min"; %"mins"; %"minute"; %"minutes"]);
    (Seconds 3600, [%"hour"; %"hours"]);
    (Seconds 86400, [%"day"; %"days"]);
    (Seconds 604800, [%"week"; %"weeks"]);
    (Seconds 1209600, [%"fortnight"; %"fortnights"]);
    (AMonth, [%"month"; %"months"]);
    (AYear, [%"year"; %"years"]) ].
(** keywords, in days *)
Definition gnu_keywords : list (Z * list str) :=
  [ (0, [%"now"; %"today"]); (1, [%"tomorrow"]); (-1, [%"yesterday"]) ].
Definition gnu_numerals : list (Z * list str) :=
  [ (-1, [%"last"]); (0, [%"this"]); (1, [%"next"; %"first"]); (3, [%"third"]); (4, [%"fourth"]); (5, [%"fifth"]);
    (6, [%"sixth"]); (7, [%"seventh"]); (8, [%"eighth"]); (9, [%"ninth"]); (10, [%"tenth"]); (11, [%"eleventh"]);
    (12, [%"twelfth"]) ].

(** [w] is one of the words for [a], in any case *)
Definition word_for {A} (table : list (A * list str)) (w : str) (a : A) : Prop :=
  exists ws v, In (a, ws) table /\ In v ws /\ str_eq_nocase w v = true.

(** ** Relative times *)
(** what a component of the text adds: an exact time in nanoseconds, months, or years *)
Inductive amount := Nanos (v : Z) | Months (v : Z) | Years (v : Z).

(** the numbers are cut at the limits of the types of the result *)
Definition clamp_i64 (x : Z) : Z := clamp (- 2 ^ 63) (2 ^ 63 - 1) x.
(** [v] times the unit *)
Definition times (v : Z) (g : gnu_unit) : amount :=
  match g with
  | Seconds k => Nanos (clamp_nanos (v * k * 1000000000))
  | AMonth => Months (clamp_i64 v)
  | AYear => Years (clamp_i64 v)
  end.
Definition with_sign (negative : bool) (v : Z) : Z := if negative then - v else v.

(** the bytes which end a unit or keyword: white space, a digit, or a sign; so does the end of the text *)
Definition ends_word (l : str) : Prop := forall x r, l = x :: r -> white x \/ 48 <= x <= 57 \/ x = 43 \/ x = 45.
Definition no_white_ahead (l : str) : Prop := forall x r, l = x :: r -> ~ white x.

(** an optional sign, which may be followed by white space. [negative] tells if it is a minus, [r] is what follows. *)
Inductive gnu_sign : str -> bool -> Prop :=
| gs_none : gnu_sign [] false
| gs_plus ds : white_space ds -> gnu_sign (43 :: ds) false
| gs_minus ds : white_space ds -> gnu_sign (45 :: ds) true.

(** what may follow the digits of a number: not another digit, no point, and no e or E (there are no exponents) *)
Definition ends_digits (r : str) : Prop :=
  forall x r', r = x :: r' -> ~ 48 <= x <= 57 /\ x <> 46 /\ x <> 101 /\ x <> 69.
(** a decimal fraction may be followed by a point, which then starts something else *)
Definition ends_fraction (r : str) : Prop := forall x r', r = x :: r' -> ~ 48 <= x <= 57 /\ x <> 101 /\ x <> 69.

(** a number in front of [r]: the digits of the whole part, and those after the decimal point, if any *)
Inductive gnu_number (r : str) : str -> str -> str -> Prop :=
| gn_whole W : digit_string W -> W <> [] -> ends_digits r -> gnu_number r W W []
| gn_fraction W F : digit_string W -> W <> [] -> digit_string F -> F <> [] -> ends_fraction r ->
    gnu_number r (W ++ 46 :: F) W F.

(** `ago` after a time unit, in front of [r] *)
Definition ago_follows (l r : str) : Prop :=
  exists ds a, l = ds ++ a ++ r /\ ds <> [] /\ white_space ds /\ str_eq_nocase a (%"ago") = true /\ ends_word r.
(** a time unit in front of [r]; the flag tells if it is counted backwards (`ago`) *)
Inductive unit_phrase : str -> gnu_unit -> bool -> str -> Prop :=
| up_plain w g r : word_for gnu_units w g -> ends_word r -> (forall r', ~ ago_follows r r') -> unit_phrase (w ++ r) g false r
| up_ago w g l r : word_for gnu_units w g -> ago_follows l r -> unit_phrase (w ++ l) g true r.

(** the value of the number with the digits W before and F after the point, times the unit: only seconds may have a fraction *)
Inductive number_amount (negative : bool) (W : str) : str -> gnu_unit -> amount -> Prop :=
| na_whole g : number_amount negative W [] g (times (with_sign negative (dval W)) g)
| na_fraction F : F <> [] ->
    number_amount negative W F (Seconds 1)
      (Nanos (clamp_nanos (with_sign negative (dval (W ++ F) * 1000000000 / 10 ^ Z.of_nat (length F))))).

(** the text starts with a component, which adds an amount; the last argument is what follows *)
Inductive gnu_item : str -> amount -> str -> Prop :=
| gi_number_unit sg n num W F ds l g ago r a : gnu_sign sg n -> gnu_number (ds ++ l) num W F -> white_space ds ->
    unit_phrase l g ago r -> number_amount (xorb n ago) W F g a ->
    gnu_item (sg ++ num ++ ds ++ l) a r
| gi_number sg n num W F ds r a : gnu_sign sg n -> gnu_number (ds ++ r) num W F -> white_space ds -> no_white_ahead r ->
    (ds = [] \/ r <> []) -> (forall g ago r', ~ unit_phrase r g ago r') -> number_amount n W F (Seconds 1) a ->
    gnu_item (sg ++ num ++ ds ++ r) a r
| gi_unit sg n l g ago r : gnu_sign sg n -> unit_phrase l g ago r -> gnu_item (sg ++ l) (times (with_sign (xorb n ago) 1) g) r
| gi_numeral sg n w k ds l g ago r : gnu_sign sg n -> word_for gnu_numerals w k -> white_space ds -> ds <> [] ->
    unit_phrase l g ago r -> gnu_item (sg ++ w ++ ds ++ l) (times (with_sign (xorb n ago) k) g) r
| gi_keyword sg n w k r : gnu_sign sg n -> word_for gnu_keywords w k -> ends_word r ->
    gnu_item (sg ++ w ++ r) (times (with_sign n k) (Seconds 86400)) r.

(** a relative time: components, possibly with white space between them *)
Inductive relative_time : str -> list amount -> Prop :=
| rt_last l a : gnu_item l a [] -> relative_time l [a]
| rt_more l a ds r rs : gnu_item l a (ds ++ r) -> white_space ds -> no_white_ahead r -> relative_time r rs ->
    relative_time l (a :: rs).

(** the sums, from left to right, cut at the limits of the types after every step *)
Definition sum_years (l : list amount) : Z :=
  fold_left (fun t a => match a with Years v => clamp_i64 (t + v) | _ => t end) l 0.
Definition sum_months (l : list amount) : Z :=
  fold_left (fun t a => match a with Months v => clamp_i64 (t + v) | _ => t end) l 0.
Definition sum_nanos (l : list amount) : Z :=
  fold_left (fun t a => match a with Nanos v => clamp_nanos (t + v) | _ => t end) l 0.
