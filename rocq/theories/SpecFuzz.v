(** * The fuzz target fundu/fuzz/fuzz_targets/parse_single.rs: its regular expression and what it expects of the parser *)
From Verif Require Import Prelude Time Config Parse Custom SpecNum SpecGrammar PropTexts SpecRegex.

(** ** the regular expression, as text: parse_single.rs:43-51, 76-126 *)
Definition keyword_source (k : keywords_choice) : str :=
  match k with
  | NoKeywords => []
  | Positive => %"(tomorrow)|"
  | PositiveNegative => %"(yesterday|tomorrow)|"
  | PositiveNegativeZero => %"(yesterday|tomorrow|today)|"
  end.
(** parse_single.rs:76-126 generate_regex *)
Definition regex_source (f : fuzzing) : str :=
  let sign :=
    if f_allow_negative f || f_allow_ago f then
      if f_allow_sign_delimiter f then %"([+-][ \t\n\x0c\r\x0b]*)?" else %"[+-]?"
    else if f_allow_sign_delimiter f then %"([+][ \t\n\x0c\r\x0b]*)?" else %"[+]?" in
  let delimiter := if f_allow_time_unit_delimiter f then %"[ \t\n\x0c\r\x0b]+" else [] in
  let infinity := if f_disable_infinity f then [] else %"([iI][nN][fF])|([iI][nN][fF][iI][nN][iI][tT][yY])|" in
  let base := if f_disable_fraction f then %"(?P<base>[[:digit:]]+)"
    else %"(?P<base>([[:digit:]]+)|([[:digit:]]+\.[[:digit:]]*)|([[:digit:]]*\.[[:digit:]]+))" in
  let exponent := if f_disable_exponent f then [] else %"([eE](?P<exponent>[+-]?[[:digit:]]+))?" in
  let number := if f_number_is_optional f then %"(" ++ base ++ exponent ++ %")?" else base ++ exponent in
  let ago := if f_allow_ago f then %"([ \t\n\x0c\r\x0b]+[aA][gG][oO])?" else [] in
  let keyword := keyword_source (f_keyword f) in
  let time_unit := %"(w|d|h|m|s|ms|Ms|ns)" in
  let regex := infinity ++ keyword ++ %"(" ++ number ++ %"((" ++ delimiter ++ time_unit ++ ago ++ %")|(" ++ time_unit ++ ago ++ %"))?)" in
  %"^(?P<sign>" ++ sign ++ %")(" ++ regex ++ %")$".

(** ** the same, in parts *)
Definition delim : regex := Class (%"[ \t\n\x0c\r\x0b]") fuzz_delimiter.
Definition digit : regex := Class (%"[[:digit:]]") is_digit.
Definition point : regex := Class (%"\.") (fun x => x =? 46).
Definition sign_class : regex := Class (%"[+-]") is_sign.
(** a small letter or its capital letter *)
Definition letter (x : byte) : regex := Class (%"[" ++ [x; x - 32] ++ %"]") (fun y => (y =? x) || (y =? x - 32)).
Fixpoint letters (w : str) : regex := match w with [] => Nothing | [x] => letter x | x :: w => Then (letter x) (letters w) end.
Fixpoint one_of (ws : list str) : regex := match ws with [] => Nothing | [w] => Text w | w :: ws => Or (Text w) (one_of ws) end.

Definition sign_regex (f : fuzzing) : regex :=
  let sign := if f_allow_negative f || f_allow_ago f then sign_class else Class (%"[+]") (fun x => x =? 43) in
  if f_allow_sign_delimiter f then Maybe (Group (Then sign (Many delim))) else Maybe sign.
Definition base_regex (f : fuzzing) : regex :=
  Named (%"base")
    (if f_disable_fraction f then Some_ digit
     else Or (Group (Some_ digit)) (Or (Group (Then (Some_ digit) (Then point (Many digit)))) (Group (Then (Many digit) (Then point (Some_ digit)))))).
Definition exponent_regex (f : fuzzing) : regex :=
  if f_disable_exponent f then Nothing
  else Maybe (Group (Then (Class (%"[eE]") is_e) (Named (%"exponent") (Then (Maybe sign_class) (Some_ digit))))).
Definition number_regex (f : fuzzing) : regex :=
  let number := Then (base_regex f) (exponent_regex f) in if f_number_is_optional f then Maybe (Group number) else number.
Definition unit_regex (f : fuzzing) : regex :=
  let ago := if f_allow_ago f then Maybe (Group (Then (Some_ delim) (letters (%"ago")))) else Nothing in
  Then (Group (one_of [%"w"; %"d"; %"h"; %"m"; %"s"; %"ms"; %"Ms"; %"ns"])) ago.
Definition main_regex (f : fuzzing) : regex :=
  let delimiter := if f_allow_time_unit_delimiter f then Some_ delim else Nothing in
  Group (Then (number_regex f) (Maybe (Group (Or (Group (Then delimiter (unit_regex f))) (Group (unit_regex f)))))).
Definition keyword_regex (f : fuzzing) (r : regex) : regex :=
  match f_keyword f with
  | NoKeywords => r
  | Positive => Or (Group (Text (%"tomorrow"))) r
  | PositiveNegative => Or (Group (one_of [%"yesterday"; %"tomorrow"])) r
  | PositiveNegativeZero => Or (Group (one_of [%"yesterday"; %"tomorrow"; %"today"])) r
  end.
Definition infinity_regex (f : fuzzing) (r : regex) : regex :=
  if f_disable_infinity f then r else Or (Group (letters (%"inf"))) (Or (Group (letters (%"infinity"))) r).
Definition fuzz_regex (f : fuzzing) : regex :=
  Then (Named (%"sign") (sign_regex f)) (Group (infinity_regex f (keyword_regex f (main_regex f)))).

(** ** the check: parse_single.rs:148-214 *)
(** str::parse::<i16> of a sign and digits *)
Definition i16_of (t : str) : option Z :=
  let value := match t with [] => 0 | x :: ds => if x =? 45 then - dval ds else if x =? 43 then dval ds else dval t end in
  if (-32768 <=? value) && (value <=? 32767) then Some value else None.
Definition starts_with_delimiter (s : str) : Prop := exists x r, s = x :: r /\ fuzz_delimiter x = true.
Definition ends_with_delimiter (s : str) : Prop := exists r x, s = r ++ [x] /\ fuzz_delimiter x = true.
Definition has_yesterday (f : fuzzing) : Prop := f_keyword f = PositiveNegative \/ f_keyword f = PositiveNegativeZero.

(** parse_single.rs:166-210 an error, although the input matches, with the captures [k] *)
Definition error_expected (f : fuzzing) (s : str) (k : list (str * str)) (e : parse_error) : Prop :=
  match e with
  | NegativeExponentOverflow | PositiveExponentOverflow => exists t, captured k (%"exponent") = Some t /\ i16_of t = None
  | Empty => s = []
  | NegativeNumber => f_allow_negative f = false /\ f_allow_ago f = false /\ has_yesterday f /\ (s = %"yesterday" \/ s = %"+yesterday")
  | Syntax _ _ => s = %"+" \/ s = %"-" \/ starts_with_delimiter s \/ f_allow_sign_delimiter f = true /\ ends_with_delimiter s
  | InvalidInput _ | TimeUnitErr _ _ =>
      f_allow_sign_delimiter f = false /\ (exists x r, s = x :: r /\ is_sign x = true /\ starts_with_delimiter r) \/ starts_with_delimiter s
  | Overflow => False
  end.
(** parse_single.rs:148-214 the target does not panic *)
Definition target_passes (f : fuzzing) (s : str) : Prop :=
  match cp_parse (fuzz_parser f) s with
  | Ok d => (exists k, matches (fuzz_regex f) s k) \/ is_zero d = true /\ (exists r, s = 45 :: r) \/ has_yesterday f /\ s = %"-yesterday"
  | Err e => forall k, matches (fuzz_regex f) s k -> error_expected f s k e
  | _ => False
  end.
