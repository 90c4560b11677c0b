(** * Specification of the example programs: white space, the layout of the output *)
From Verif Require Import Prelude Time Config SpecTime SpecNum PropText.

(** ** white space at the ends of the argument: the 25 characters with the Unicode property White_Space, in UTF-8 *)
Definition white_characters : list str :=
  [[9]; [10]; [11]; [12]; [13]; [32]; [194; 133]; [194; 160]; [225; 154; 128];
   [226; 128; 128]; [226; 128; 129]; [226; 128; 130]; [226; 128; 131]; [226; 128; 132]; [226; 128; 133]; [226; 128; 134]; [226; 128; 135];
   [226; 128; 136]; [226; 128; 137]; [226; 128; 138]; [226; 128; 168]; [226; 128; 169]; [226; 128; 175]; [226; 129; 159]; [227; 128; 128]].
Inductive white_text : str -> Prop :=
| wt_none : white_text []
| wt_more ch s : In ch white_characters -> white_text s -> white_text (ch ++ s).
(** [t] is [s] without the white space at its ends *)
Definition trims (s t : str) : Prop :=
  exists w1 w2, s = w1 ++ t ++ w2 /\ white_text w1 /\ white_text w2 /\
    forall ch r, In ch white_characters -> t <> ch ++ r /\ t <> r ++ ch.

(** ** numbers and words, largest units first: [written] of C63 with other words *)
Inductive written_with (word : time_unit -> Z -> str) (negative : bool) : list (Z * time_unit) -> str -> Prop :=
| ww_one v u s : decimal v s -> written_with word negative [(v, u)] ((if negative then %"-" else []) ++ s ++ word u v)
| ww_more v u s l t : decimal v s -> written_with word negative l t ->
    written_with word negative ((v, u) :: l) (((if negative then %"-" else []) ++ s ++ word u v) ++ %" " ++ t).
(** the words of the example systemd, and of the example gnu with `s` for the plural *)
Definition systemd_word (u : time_unit) (v : Z) : str :=
  match u with
  | NanoSecond => %"ns" | MicroSecond => %"us" | MilliSecond => %"ms" | Second => %"s" | Minute => %"min" | Hour => %"h"
  | Day => %"d" | Week => %"w" | Month => %"month" | Year => %"y"
  end.
Definition gnu_word (u : time_unit) (v : Z) : str :=
  (match u with
   | Minute => %"min" | Hour => %"hour" | Day => %"day" | Week => %"week" | Month => %"month" | Year => %"year" | _ => %"sec"
   end) ++ (if v =? 1 then [] else %"s").

(** ** the table of the example custom *)
(** the number of characters of a UTF-8 text *)
Definition follows (x : byte) : Prop := 128 <= x <= 191.
Inductive characters : str -> Z -> Prop :=
| ch_none : characters [] 0
| ch_one x s n : 0 <= x <= 127 -> characters s n -> characters (x :: s) (n + 1)
| ch_two x a s n : 192 <= x <= 223 -> follows a -> characters s n -> characters (x :: a :: s) (n + 1)
| ch_three x a b s n : 224 <= x <= 239 -> follows a -> follows b -> characters s n -> characters (x :: a :: b :: s) (n + 1)
| ch_four x a b c s n : 240 <= x <= 247 -> follows a -> follows b -> follows c -> characters s n -> characters (x :: a :: b :: c :: s) (n + 1).
(** [t] is [s] after as many blanks as are needed for a width of [w] characters *)
Definition right_aligned (w : Z) (s t : str) : Prop :=
  exists n k, characters s n /\ t = repeat 32 k ++ s /\ Z.of_nat k = Z.max 0 (w - n).
(** the row for the input and [v] nanoseconds: the input with at least 20 characters, `|`, the seconds with at least 21, and nine digits after the decimal point *)
Definition calculator_row (input : str) (v : Z) (row : str) : Prop :=
  exists a m b f, right_aligned 20 input a /\ decimal (v / 1000000000) m /\ right_aligned 21 m b /\ digit_string f /\ length f = 9%nat /\ dval f = v mod 1000000000 /\
    row = a ++ %"|" ++ b ++ %"." ++ f.
(** the units, in nanoseconds: months and years are sidereal *)
Definition calculator_units : list (Z * list str) :=
  [(1, [%"ns"; %"nano"; %"nanos"]);
   (1000, [[194; 181; 115]; %"Ms"; %"micro"; %"micros"]);
   (1000000, [%"ms"; %"milli"; %"millis"]);
   (1000000000, [%"s"; %"sec"; %"secs"; %"second"; %"seconds"]);
   (60 * 1000000000, [%"m"; %"min"; %"mins"; %"minutes"]);
   (3600 * 1000000000, [%"h"; %"hr"; %"hrs"; %"hour"; %"hours"]);
   (86400 * 1000000000, [%"d"; %"day"; %"days"]);
   (7 * 86400 * 1000000000, [%"w"; %"week"; %"weeks"]);
   (14 * 86400 * 1000000000, [%"f"; %"fortnight"; %"fortnights"]);
   (2360591510000000, [%"M"; %"mon"; %"month"; %"months"]);
   (31558149760000000, [%"y"; %"yr"; %"year"; %"years"])].

(** ** what the programs read: settings and words, to be used with the regular expressions of SpecTexts.v and SpecManyTexts.v *)
(** tables of words: the entry which has the word in its list *)
Definition word_table := list (time_unit * multiplier * list str).
Definition look_up (t : word_table) (id : str) : option (time_unit * multiplier) :=
  match find (fun p => existsb (fun w => str_eqb w id) (snd p)) t with Some p => Some (fst p) | None => None end.
Definition table_words (t : word_table) : units_like := Units (match t with [] => true | _ => false end) (look_up t).
Definition one_of (l : list byte) (x : byte) : bool := existsb (fun y => y =? x) l.

(** systemd: several numbers with their units; no exponents, no infinity *)
Definition systemd_settings : config := {|
  c_default_unit := Second; c_disable_exponent := true; c_disable_fraction := false; c_disable_infinity := true; c_number_is_optional := false;
  c_allow_multiple := true; c_conjunctions := None; c_allow_negative := false;
  c_inner_delimiter := one_of [32; 9; 10; 13]; c_outer_delimiter := one_of [32; 9; 10; 13];
  c_allow_ago := false; c_allow_sign_delimiter := false; c_allow_time_unit_delimiter := true |}.
Definition systemd_words_read : word_table :=
  [(NanoSecond, Mul 1 0, [%"ns"; %"nsec"]); (MicroSecond, Mul 1 0, [%"us"; [194; 181; 115]; %"usec"]); (MilliSecond, Mul 1 0, [%"ms"; %"msec"]);
   (Second, Mul 1 0, [%"s"; %"sec"; %"second"; %"seconds"]); (Minute, Mul 1 0, [%"m"; %"min"; %"minute"; %"minutes"]); (Hour, Mul 1 0, [%"h"; %"hr"; %"hour"; %"hours"]);
   (Day, Mul 1 0, [%"d"; %"day"; %"days"]); (Week, Mul 1 0, [%"w"; %"week"; %"weeks"]); (Month, Mul 1 0, [%"M"; %"month"; %"months"]); (Year, Mul 1 0, [%"y"; %"year"; %"years"])].
(** gnu: several integers with their units, in both directions (`-`, `ago`), units without a number, and the keywords. White space is that of POSIX *)
Definition gnu_settings : config := {|
  c_default_unit := Second; c_disable_exponent := true; c_disable_fraction := true; c_disable_infinity := true; c_number_is_optional := true;
  c_allow_multiple := true; c_conjunctions := None; c_allow_negative := true;
  c_inner_delimiter := one_of [32; 9; 10; 11; 12; 13]; c_outer_delimiter := one_of [32; 9; 10; 11; 12; 13];
  c_allow_ago := true; c_allow_sign_delimiter := false; c_allow_time_unit_delimiter := true |}.
Definition gnu_words_read : word_table :=
  [(Second, Mul 1 0, [%"sec"; %"secs"; %"second"; %"seconds"]); (Minute, Mul 1 0, [%"min"; %"mins"; %"minute"; %"minutes"]); (Hour, Mul 1 0, [%"hour"; %"hours"]);
   (Day, Mul 1 0, [%"day"; %"days"]); (Week, Mul 1 0, [%"week"; %"weeks"]); (Week, Mul 2 0, [%"fortnight"; %"fortnights"]);
   (Month, Mul 1 0, [%"month"; %"months"]); (Year, Mul 1 0, [%"year"; %"years"])].
Definition gnu_keywords_read : word_table := [(Day, Mul (-1) 0, [%"yesterday"]); (Day, Mul 1 0, [%"tomorrow"]); (Day, Mul 0 0, [%"now"; %"today"])].
(** custom: one number with or without a unit, or infinity *)
Definition calculator_settings : config := {|
  c_default_unit := NanoSecond; c_disable_exponent := true; c_disable_fraction := false; c_disable_infinity := false; c_number_is_optional := false;
  c_allow_multiple := false; c_conjunctions := None; c_allow_negative := false;
  c_inner_delimiter := one_of [32; 9; 10; 13]; c_outer_delimiter := one_of [32; 9; 10; 12; 13];
  c_allow_ago := false; c_allow_sign_delimiter := false; c_allow_time_unit_delimiter := true |}.
Definition calculator_words_read : word_table :=
  [(NanoSecond, Mul 1 0, [%"ns"; %"nano"; %"nanos"]); (MicroSecond, Mul 1 0, [[194; 181; 115]; %"Ms"; %"micro"; %"micros"]); (MilliSecond, Mul 1 0, [%"ms"; %"milli"; %"millis"]);
   (Second, Mul 1 0, [%"s"; %"sec"; %"secs"; %"second"; %"seconds"]); (Minute, Mul 1 0, [%"m"; %"min"; %"mins"; %"minutes"]); (Hour, Mul 1 0, [%"h"; %"hr"; %"hrs"; %"hour"; %"hours"]);
   (Day, Mul 1 0, [%"d"; %"day"; %"days"]); (Week, Mul 1 0, [%"w"; %"week"; %"weeks"]); (Week, Mul 2 0, [%"f"; %"fortnight"; %"fortnights"]);
   (Second, Mul 236059151 (-2), [%"M"; %"mon"; %"month"; %"months"]); (Second, Mul 3155814976 (-2), [%"y"; %"yr"; %"year"; %"years"])].
