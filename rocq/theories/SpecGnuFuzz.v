(** * The fuzz target fundu-gnu/fuzz/fuzz_targets/parsing.rs: its regular expressions, and which inputs it expects to be accepted

    The comparison of the value with the one which the target computes with a fourth expression (parsing.rs:66-78, 87-271) is in SpecGnuExtract.v. *)
From Verif Require Import Prelude Time Gnu SpecRegex SpecFuzz.

(** ** the expressions, as texts: parsing.rs:13-64 *)
(* parsing.rs:13-19 *)
Definition DELIMITER := %"[ \t\n\x0c\r\x0b]".
Definition NUMERAL := %"(last|this|next|first|third|fourth|fifth|sixth|seventh|eighth|ninth|tenth|eleventh|twelfth)".
Definition TIME_UNIT := %"(seconds|second|secs|sec|minutes|minute|mins|min|hours|hour|days|day|weeks|week|fortnights|fortnight|months|month|years|year)".
Definition TIME_UNIT_NOT_SEC := %"(minutes|minute|mins|min|hours|hour|days|day|weeks|week|fortnights|fortnight|months|month|years|year)".
Definition KEYWORD := %"(yesterday|today|now|tomorrow)".
Definition AGO := %"[aA][gG][oO]".
(** parsing.rs:22-40 generate_regex *)
Definition main_source : str :=
  let duration := %"([+-]" ++ DELIMITER ++ %"*)?(" ++ KEYWORD ++ %"|(" ++ NUMERAL ++ DELIMITER ++ %"+" ++ TIME_UNIT ++ %"(" ++ DELIMITER ++ %"+" ++ AGO ++ %")?)|(" ++ TIME_UNIT ++ %"(" ++ DELIMITER ++ %"+" ++ AGO ++ %")?)|([[:digit:]]+" ++ DELIMITER ++ %"*" ++ TIME_UNIT ++ %"(" ++ DELIMITER ++ %"+" ++ AGO ++ %")?)|([[:digit:]]+\.[[:digit:]]+" ++ DELIMITER ++ %"*" ++ TIME_UNIT ++ %"(" ++ DELIMITER ++ %"+" ++ AGO ++ %")?)|([[:digit:]]+\.[[:digit:]]+)|([[:digit:]]+))" in
  let duration_sign := %"([+-]" ++ DELIMITER ++ %"*)(" ++ KEYWORD ++ %"|(" ++ NUMERAL ++ DELIMITER ++ %"+" ++ TIME_UNIT ++ %"(" ++ DELIMITER ++ %"+" ++ AGO ++ %")?)|(" ++ TIME_UNIT ++ %"(" ++ DELIMITER ++ %"+" ++ AGO ++ %")?)|([[:digit:]]+" ++ DELIMITER ++ %"*" ++ TIME_UNIT ++ %"(" ++ DELIMITER ++ %"+" ++ AGO ++ %")?)|([[:digit:]]+\.[[:digit:]]+" ++ DELIMITER ++ %"*" ++ TIME_UNIT ++ %"(" ++ DELIMITER ++ %"+" ++ AGO ++ %")?)|([[:digit:]]+\.[[:digit:]]+)|([[:digit:]]+))" in
  let duration_digit := %"(([[:digit:]]+" ++ DELIMITER ++ %"*" ++ TIME_UNIT ++ %"(" ++ DELIMITER ++ %"+" ++ AGO ++ %")?)|([[:digit:]]+\.[[:digit:]]+" ++ DELIMITER ++ %"*" ++ TIME_UNIT ++ %"(" ++ DELIMITER ++ %"+" ++ AGO ++ %")?)|([[:digit:]]+\.[[:digit:]]+)|([[:digit:]]+))" in
  %"^((" ++ duration ++ %")((" ++ duration_digit ++ %")|(" ++ duration_sign ++ %")|(" ++ DELIMITER ++ %"+(" ++ duration ++ %")))*?)$".
(** parsing.rs:43-52 generate_control_regex (the class after the point is written without its second colon) *)
Definition control_source : str :=
  %"(([[:digit:]]+|[[:digit:]]+\.[[:digit]]+)((" ++ NUMERAL ++ DELIMITER ++ %"+" ++ TIME_UNIT ++ %")|" ++ KEYWORD ++ %")(" ++ DELIMITER ++ %"+" ++ AGO ++ %")?)".
(** parsing.rs:55-63 generate_fraction_control_regex *)
Definition fraction_control_source : str :=
  %"(([[:digit:]]+\.[[:digit:]]+)(\.|(" ++ DELIMITER ++ %"*" ++ TIME_UNIT_NOT_SEC ++ %")))".

(** ** the same, in parts *)
Definition not_sec_words : list str :=
  [ %"minutes"; %"minute"; %"mins"; %"min"; %"hours"; %"hour"; %"days"; %"day"; %"weeks"; %"week"; %"fortnights"; %"fortnight";
    %"months"; %"month"; %"years"; %"year" ].
Definition unit_words : list str := [%"seconds"; %"second"; %"secs"; %"sec"] ++ not_sec_words.
Definition numeral_words : list str :=
  [ %"last"; %"this"; %"next"; %"first"; %"third"; %"fourth"; %"fifth"; %"sixth"; %"seventh"; %"eighth"; %"ninth"; %"tenth"; %"eleventh";
    %"twelfth" ].
Definition keyword_words : list str := [%"yesterday"; %"today"; %"now"; %"tomorrow"].

Definition words (l : list str) : regex := Group (one_of l).
Definition ago_regex : regex := Maybe (Group (Then (Some_ delim) (SpecFuzz.letters (%"ago")))).
Definition unit_ago : regex := Then (words unit_words) ago_regex.
Definition fraction : regex := Then (Some_ digit) (Then point (Some_ digit)).
Definition number_alternatives : regex :=
  Or (Group (Then (Some_ digit) (Then (Many delim) unit_ago)))
     (Or (Group (Then fraction (Then (Many delim) unit_ago))) (Or (Group fraction) (Group (Some_ digit)))).
Definition alternatives : regex :=
  Or (words keyword_words)
     (Or (Group (Then (words numeral_words) (Then (Some_ delim) unit_ago))) (Or (Group unit_ago) number_alternatives)).
Definition signed : regex := Group (Then sign_class (Many delim)).
Definition duration_regex : regex := Then (Maybe signed) (Group alternatives).
Definition main_gnu : regex :=
  Group (Then (Group duration_regex)
    (Lazily (Group (Or (Group (Group number_alternatives))
      (Or (Group (Then signed (Group alternatives))) (Group (Then (Some_ delim) (Group duration_regex)))))))).
(** a colon or one of the letters d, i, g, t *)
Definition odd_class : regex := Class (%"[[:digit]]") (fun x => existsb (Z.eqb x) [58; 100; 105; 103; 116]).
Definition control_regex : regex :=
  Group (Then (Group (Or (Some_ digit) (Then (Some_ digit) (Then point (Some_ odd_class)))))
    (Then (Group (Or (Group (Then (words numeral_words) (Then (Some_ delim) (words unit_words)))) (words keyword_words))) ago_regex)).
Definition fraction_control : regex :=
  Group (Then (Group fraction) (Group (Or point (Group (Then (Many delim) (words not_sec_words)))))).

(** `.unicode(false).case_insensitive(true)`: parsing.rs:34-39, 47-51, 59-63 (the words are in small letters) *)
Definition other_case (x : byte) : byte :=
  if (97 <=? x) && (x <=? 122) then x - 32 else if (65 <=? x) && (x <=? 90) then x + 32 else x.
Fixpoint caseless (r : regex) : regex :=
  match r with
  | Nothing => Nothing
  | Class t p => Class t (fun x => p x || p (other_case x))
  | Text w => SpecFuzz.letters w
  | Then a b => Then (caseless a) (caseless b)
  | Or a b => Or (caseless a) (caseless b)
  | Maybe r => Maybe (caseless r)
  | Many r => Many (caseless r)
  | Lazily r => Lazily (caseless r)
  | Some_ r => Some_ (caseless r)
  | Group r => Group (caseless r)
  | Named n r => Named n (caseless r)
  end.
(** is_match: of the whole text, and of a part of it *)
Definition matched (r : regex) (s : str) : Prop := exists k, matches (caseless r) s k.
Definition found (r : regex) (s : str) : Prop := exists a b c, s = a ++ b ++ c /\ matched r b.

(** ** the check: parsing.rs:273-311. [now] is what the system clock says *)
Definition gnu_target_passes (now : std_duration + std_duration) (s : str) : Prop :=
  match gnu_parse gnu_new now s with
  | Ok _ =>
      (matched main_gnu s -> exists x, gnu_parse_fuzzy gnu_new s = Ok x) /\
      (matched main_gnu s \/ starts_with_delimiter s \/ ends_with_delimiter s \/ found control_regex s)
  | Err e =>
      matched main_gnu s ->
      (exists msg, e = InvalidInput msg /\
         (msg = %"Fraction without a whole number" \/ msg = %"Fraction only allowed together with seconds as time unit") /\
         found fraction_control s) \/
      e = Overflow
  | _ => False
  end.
