(** * The second half of the fuzz target fundu-gnu/fuzz/fuzz_targets/parsing.rs: the value it expects

    It is computed from the captures of a fourth regular expression. So here the order of the alternatives matters: the crate regex takes, of all
    matches which start at the leftmost possible position, the one which a backtracking matcher finds first. *)
From Verif Require Import Prelude Time Gnu SpecNum SpecRegex SpecFuzz PropTexts SpecGnuFuzz.

(** ** the first match *)
(** try the ways in which the beginning of [s] matches [r] one after the other, in the order of a backtracking matcher, until [go] succeeds on
    what has been captured and the rest *)
Fixpoint first_match {A} (r : regex) (s : str) (go : list (str * str) -> str -> option A) {struct r} : option A :=
  match r with
  | Nothing => go [] s
  | Class _ p => match s with x :: s' => if p x then go [] s' else None | [] => None end
  | Text w => if str_eqb (firstn (length w) s) w then go [] (skipn (length w) s) else None
  | Then a b => first_match a s (fun k1 s1 => first_match b s1 (fun k2 s2 => go (k1 ++ k2) s2))
  | Or a b => match first_match a s go with Some x => Some x | None => first_match b s go end
  | Maybe r => match first_match r s go with Some x => Some x | None => go [] s end
  | Many r =>
      (fix star (n : nat) (k : list (str * str)) (s : str) : option A :=
         match n with
         | O => go k s
         | S n =>
             match first_match r s (fun k' s' => if (length s' <? length s)%nat then star n (k ++ k') s' else None) with
             | Some x => Some x
             | None => go k s
             end
         end) (length s) [] s
  | Lazily r =>
      (fix star (n : nat) (k : list (str * str)) (s : str) : option A :=
         match go k s with
         | Some x => Some x
         | None =>
             match n with
             | O => None
             | S n => first_match r s (fun k' s' => if (length s' <? length s)%nat then star n (k ++ k') s' else None)
             end
         end) (length s) [] s
  | Some_ r =>
      first_match r s (fun k1 s1 =>
        (fix star (n : nat) (k : list (str * str)) (s : str) : option A :=
           match n with
           | O => go k s
           | S n =>
               match first_match r s (fun k' s' => if (length s' <? length s)%nat then star n (k ++ k') s' else None) with
               | Some x => Some x
               | None => go k s
               end
           end) (length s1) k1 s1)
  | Group r => first_match r s go
  | Named n r => first_match r s (fun k s' => go ((n, firstn (length s - length s') s) :: k) s')
  end.
(** the first match at the beginning of [s]: the captures and the rest *)
Definition match_here (r : regex) (s : str) : option (list (str * str) * str) := first_match (caseless r) s (fun k s' => Some (k, s')).
(** captures_iter: one match after the other. An empty match directly after a match does not count ([after]); after an empty match, the search goes
    on one character later (here: one byte later; the expression of the target matches at every position) *)
Fixpoint captures_iter (n : nat) (r : regex) (after : bool) (s : str) : list (list (str * str)) :=
  match n with
  | O => []
  | S n =>
      let next := match s with [] => [] | _ :: s' => captures_iter n r false s' end in
      match match_here r s with
      | Some (k, s') =>
          if (length s' <? length s)%nat then k :: captures_iter n r true s'
          else (if after then [] else [k]) ++ next
      | None => next
      end
  end.
Definition captures_of (r : regex) (s : str) : list (list (str * str)) := captures_iter (2 * length s + 2) r false s.

(** ** the expression: parsing.rs:66-78 generate_extraction_regex *)
Definition extraction_source : str :=
  %"(?P<duration>((?P<sign>[+-])" ++ DELIMITER ++ %"*)?((?P<keyword>" ++ KEYWORD ++ %")|(?P<numeral>(?P<numeral_value>" ++ NUMERAL ++ %")" ++ DELIMITER ++ %"*(?P<numeral_time_unit>" ++ TIME_UNIT ++ %"))|((?P<digits>((?P<whole>[[:digit:]]+)\.(?P<fract>[[:digit:]]+))|(?P<number>[[:digit:]]+))?" ++ DELIMITER ++ %"*(?P<time_unit>" ++ TIME_UNIT ++ %")?))?" ++ DELIMITER ++ %"*(?P<ago>" ++ AGO ++ %")?)".
Definition sign_part : regex := Group (Then (Named (%"sign") sign_class) (Many delim)).
Definition keyword_part : regex := Named (%"keyword") (words keyword_words).
Definition numeral_part : regex :=
  Named (%"numeral") (Then (Named (%"numeral_value") (words numeral_words)) (Then (Many delim) (Named (%"numeral_time_unit") (words unit_words)))).
Definition digits_part : regex :=
  Named (%"digits") (Or (Group (Then (Named (%"whole") (Some_ digit)) (Then point (Named (%"fract") (Some_ digit))))) (Named (%"number") (Some_ digit))).
Definition number_part : regex := Group (Then (Maybe digits_part) (Then (Many delim) (Maybe (Named (%"time_unit") (words unit_words))))).
Definition extraction : regex :=
  Named (%"duration") (Then (Maybe sign_part)
    (Then (Maybe (Group (Or keyword_part (Or numeral_part number_part)))) (Then (Many delim) (Maybe (Named (%"ago") (SpecFuzz.letters (%"ago"))))))).

(** ** the value: parsing.rs:87-271 extract *)
(** `match x.to_ascii_lowercase().as_str()` *)
Definition by_name {A} (table : list (str * A)) (t : str) : res A :=
  match find (fun e => str_eq_nocase t (fst e)) table with Some e => Ok (snd e) | None => Crash CrashUnreachable end.
(* parsing.rs:94-112 parse_numeral *)
Definition parse_numeral : str -> res Z :=
  by_name [(%"last", -1); (%"this", 0); (%"next", 1); (%"first", 1); (%"third", 3); (%"fourth", 4); (%"fifth", 5); (%"sixth", 6); (%"seventh", 7);
          (%"eighth", 8); (%"ninth", 9); (%"tenth", 10); (%"eleventh", 11); (%"twelfth", 12)].
(* parsing.rs:114-133 parse_time_unit *)
Inductive parsed_unit := Regular (m : Z) | FuzzyMonth | FuzzyYear.
Definition parse_time_unit : str -> res parsed_unit :=
  by_name [(%"sec", Regular 1); (%"secs", Regular 1); (%"second", Regular 1); (%"seconds", Regular 1);
          (%"min", Regular 60); (%"mins", Regular 60); (%"minute", Regular 60); (%"minutes", Regular 60);
          (%"hour", Regular (60 * 60)); (%"hours", Regular (60 * 60)); (%"day", Regular (24 * 60 * 60)); (%"days", Regular (24 * 60 * 60));
          (%"week", Regular (7 * 24 * 60 * 60)); (%"weeks", Regular (7 * 24 * 60 * 60));
          (%"fortnight", Regular (2 * 7 * 24 * 60 * 60)); (%"fortnights", Regular (2 * 7 * 24 * 60 * 60));
          (%"month", FuzzyMonth); (%"months", FuzzyMonth); (%"year", FuzzyYear); (%"years", FuzzyYear)].
(* parsing.rs:135-142 parse_keyword *)
Definition parse_keyword : str -> res Z :=
  by_name [(%"yesterday", -86400); (%"tomorrow", 86400); (%"now", 0); (%"today", 0)].
(* parsing.rs:144-152 parse_fract *)
Fixpoint fract_loop (nanos multi : Z) (l : str) : Z :=
  match l with [] => nanos | d :: l => fract_loop (nanos + (d - 48) * multi) (multi / 10) l end.
Definition parse_fract (f : str) : Z := fract_loop 0 100000000 (firstn (Nat.min (length f) 9) f).
(** str::parse::<u64> of digits *)
Definition parse_u64 (t : str) : option Z := if dval t <=? u64_max then Some (dval t) else None.
Definition saturating_sub_i64 (a b : Z) : Z := Z.max i64_min (Z.min i64_max (a - b)).

(** parsing.rs:154-268 one match. The variables are is_negative, whole_number, fract_number *)
Definition extract_item (acc : Z * Z * duration) (item : list (str * str)) : res (Z * Z * duration) :=
  let '(years, months, d) := acc in
  (* 156-160 *)
  if match captured item (%"duration") with Some t => forallb fuzz_delimiter t | None => false end then Ok acc else
  (* 166-171 *)
  let negative := match captured item (%"sign") with Some t => str_eqb t (%"-") | None => false end in
  let negative := match captured item (%"ago") with Some _ => negb negative | None => negative end in
  (* 173-184 *)
  let '(whole, fract) :=
    match captured item (%"whole"), captured item (%"fract") with
    | Some w, Some f => match parse_u64 w with Some x => (x, parse_fract f) | None => (u64_max, 999999999) end
    | _, _ => (1, 0)
    end in
  (* 185-193 *)
  let '(whole, fract) :=
    match captured item (%"number") with
    | Some w => match parse_u64 w with Some x => (x, fract) | None => (u64_max, 999999999) end
    | None => (whole, fract)
    end in
  (* 194-222 *)
  let* x :=
    match captured item (%"numeral_value"), captured item (%"numeral_time_unit") with
    | Some v, Some u =>
        let* value := parse_numeral v in
        let* u := parse_time_unit u in
        match u with
        | Regular m => Ok (xorb negative (value <? 0), m * Z.abs value, fract, years, months)
        | FuzzyMonth => Ok (negative, 0, 0, years, if negative then saturating_sub_i64 months value else i64_saturating_add months value)
        | FuzzyYear => Ok (negative, 0, 0, (if negative then saturating_sub_i64 years value else i64_saturating_add years value), months)
        end
    | _, _ => Ok (negative, whole, fract, years, months)
    end in
  let '(negative, whole, fract, years, months) := x in
  (* 223-260 *)
  let amount := if negative then (if 9223372036854775808 <=? whole then i64_min else - whole) else (if whole <=? i64_max then whole else i64_max) in
  let* x :=
    match captured item (%"time_unit") with
    | Some u =>
        let* u := parse_time_unit u in
        match u with
        | Regular m => if whole * m <=? u64_max then Ok (whole * m, fract, years, months) else Ok (u64_max, 999999999, years, months)
        | FuzzyMonth => Ok (0, 0, years, i64_saturating_add months amount)
        | FuzzyYear => Ok (0, 0, i64_saturating_add years amount, months)
        end
    | None => Ok (whole, fract, years, months)
    end in
  let '(whole, fract, years, months) := x in
  (* 261-265 *)
  let* x :=
    match captured item (%"keyword") with
    | Some w => let* s := parse_keyword w in Ok (xorb negative (s <? 0), Z.abs s)
    | None => Ok (negative, whole)
    end in
  let '(negative, whole) := x in
  (* 266-269 *)
  let* d := saturating_add d (from_std negative (Std whole fract)) in
  Ok (years, months, d).
Fixpoint extract_items (acc : Z * Z * duration) (items : list (list (str * str))) : res (Z * Z * duration) :=
  match items with
  | [] => Ok acc
  | k :: items => let* acc := extract_item acc k in extract_items acc items
  end.
Definition extract (input : str) : res (Z * Z * duration) := extract_items (0, 0, ZERO) (captures_of extraction input).

(** parsing.rs:273-289 the value of an accepted input which matches the main expression is the expected one *)
Definition gnu_value_passes (s : str) : Prop :=
  match gnu_parse_fuzzy gnu_new s, extract s with
  | Ok (years, months, d), Ok (years', months', d') => years = years' /\ months = months' /\ deqb d d' = true
  | _, _ => False
  end.
