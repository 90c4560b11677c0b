(** * The parser: fundu-core/src/parse.rs:96-239 (Parser) and 906-1770 (the ReprParser structs) *)
From Verif Require Import Prelude Util Time Config Bytes Repr.

(** ** trait ReprParserTemplate, fundu-core/src/parse.rs:906-942: the methods an implementation provides.
    [O] is the associated type Output. `&mut self` is the scanner passed and returned. *)
Record template (O : Type) : Type := Template {
  t_make_output : scanner -> repr -> O;
  t_parse_infinity_remainder : scanner -> repr -> config -> res O;
  t_parse_keyword : scanner -> option units_like -> config
                    -> res (scanner * option (time_unit * multiplier));
  t_parse_time_unit : scanner -> config -> units_like
                      -> res (scanner * option (time_unit * multiplier));
  t_parse_number_time_unit : scanner -> repr -> config -> units_like -> res (scanner * repr * bool);
  t_finalize : scanner -> repr -> config -> res O
}.
Arguments t_make_output {O}. Arguments t_parse_infinity_remainder {O}.
Arguments t_parse_keyword {O}. Arguments t_parse_time_unit {O}.
Arguments t_parse_number_time_unit {O}. Arguments t_finalize {O}.

(** assignments to fields of the DurationRepr *)
(* assignment to a field of DurationRepr, fundu-core/src/parse.rs:422-433 *)
Definition set_unit (r : repr) (um : time_unit * multiplier) : repr :=
  Repr (r_default_unit r) (Some (fst um)) (r_is_negative r) (r_is_infinite r) (r_whole r) (r_fract r)
       (r_input r) (r_exponent r) (snd um) (r_numeral r).
(* assignment to a field of DurationRepr, fundu-core/src/parse.rs:422-433 *)
Definition set_numeral (r : repr) (m : multiplier) : repr :=
  Repr (r_default_unit r) (r_unit r) (r_is_negative r) (r_is_infinite r) (r_whole r) (r_fract r)
       (r_input r) (r_exponent r) (r_multiplier r) (Some m).
(* assignment to a field of DurationRepr, fundu-core/src/parse.rs:422-433 *)
Definition set_negative (r : repr) (b : bool) : repr :=
  Repr (r_default_unit r) (r_unit r) (Some b) (r_is_infinite r) (r_whole r) (r_fract r)
       (r_input r) (r_exponent r) (r_multiplier r) (r_numeral r).
(* assignment to a field of DurationRepr, fundu-core/src/parse.rs:422-433 *)
Definition set_infinite (r : repr) : repr :=
  Repr (r_default_unit r) (r_unit r) (r_is_negative r) true (r_whole r) (r_fract r)
       (r_input r) (r_exponent r) (r_multiplier r) (r_numeral r).
(* assignment to a field of DurationRepr, fundu-core/src/parse.rs:422-433 *)
Definition set_whole (r : repr) (w : nat * nat) : repr :=
  Repr (r_default_unit r) (r_unit r) (r_is_negative r) (r_is_infinite r) (Some w) (r_fract r)
       (r_input r) (r_exponent r) (r_multiplier r) (r_numeral r).
(* assignment to a field of DurationRepr, fundu-core/src/parse.rs:422-433 *)
Definition set_fract (r : repr) (f : nat * nat) : repr :=
  Repr (r_default_unit r) (r_unit r) (r_is_negative r) (r_is_infinite r) (r_whole r) (Some f)
       (r_input r) (r_exponent r) (r_multiplier r) (r_numeral r).
(* assignment to a field of DurationRepr, fundu-core/src/parse.rs:422-433 *)
Definition set_exponent (r : repr) (e : Z) : repr :=
  Repr (r_default_unit r) (r_unit r) (r_is_negative r) (r_is_infinite r) (r_whole r) (r_fract r)
       (r_input r) e (r_multiplier r) (r_numeral r).

(** ** Provided methods of the trait *)

(** fundu-core/src/parse.rs:944-948 parse_whole *)
Definition parse_whole (b : scanner) : res (scanner * (nat * nat)) := parse_digits_strip_zeros b.

(** fundu-core/src/parse.rs:950-986 parse_numeral *)
Definition parse_numeral (b : scanner) (numerals : option numbers_like) (c : config)
  : res (scanner * option (str * multiplier)) :=
  match numerals with
  | None => Ok (b, None)
  | Some numerals =>
      let start := pos b in
      let* r := buffered_advance_to (c_inner_delimiter c) b in
      let '(b, buf) := r in
      if is_empty buf then Ok (b, None)
      else
        let* string := str_unchecked buf in
        match numerals string with
        | None => Ok (reset b start, None)
        | Some m =>
            match cur b with
            | Some x =>
                if c_inner_delimiter c x then
                  let* b := try_consume_delimiter (c_inner_delimiter c) b in
                  Ok (b, Some (string, m))
                else Ok (reset b start, None)
            | None => Ok (reset b start, None)
            end
        end
  end.

(** fundu-core/src/parse.rs:1102-1120 parse_sign_is_negative *)
Definition parse_sign_is_negative (b : scanner) : res (scanner * option bool) :=
  match cur b with
  | Some x =>
      if x =? 43 then Ok (advance b, Some false)
      else if x =? 45 then Ok (advance b, Some true)
      else Ok (b, None)
  | None => Err (Syntax (pos b) (%"Unexpected end of input"))
  end.

(** fundu-core/src/parse.rs:1122-1145 parse_number_sign *)
Definition parse_number_sign (b : scanner) (r : repr) (c : config) : res (scanner * repr) :=
  let* s := parse_sign_is_negative b in
  let '(b, o) := s in
  match o with
  | None => Ok (b, r)
  | Some is_neg =>
      let r := set_negative r is_neg in
      match cur b with
      | Some x =>
          if c_allow_sign_delimiter c && c_inner_delimiter c x then
            let* b := try_consume_delimiter (c_inner_delimiter c) b in Ok (b, r)
          else Ok (b, r)
      | None => Err (Syntax (pos b) (%"Unexpected end of input. Sign without a number"))
      end
  end.

(** fundu-core/src/parse.rs:1147-1151 parse_fract *)
Definition parse_fract (b : scanner) : res (scanner * (nat * nat)) := parse_digits b.

(** fundu-core/src/parse.rs:1153-1190 parse_number_fraction *)
Definition parse_number_fraction (b : scanner) (r : repr) (disable_fraction : bool)
  : res (scanner * repr * bool) :=
  match cur b with
  | Some x =>
      if (x =? 46) && negb disable_fraction then
        let b := advance b in
        let no_whole := match r_whole r with None => true | Some _ => false end in
        match cur b with
        | Some y =>
            if is_digit y then
              let* f := parse_fract b in
              let '(b, f) := f in Ok (b, set_fract r f, true)
            else if no_whole then
              let* p := sub_usize (pos b) 1 in
              Err (Syntax p (%"Either the whole number part or the fraction must be present"))
            else Ok (b, set_fract r (pos b, pos b), true)
        | None =>
            if no_whole then
              let* p := sub_usize (pos b) 1 in
              Err (Syntax p (%"Either the whole number part or the fraction must be present"))
            else Ok (b, set_fract r (pos b, pos b), false)
        end
      else if x =? 46 then Err (Syntax (pos b) (%"No fraction allowed"))
      else Ok (b, r, true)
  | None => Ok (b, r, false)
  end.

(** fundu-core/src/parse.rs:1198-1224 the digit loop of parse_exponent *)
Fixpoint exponent_loop (fuel : nat) (is_neg : bool) (exponent : Z) (b : scanner) : res (scanner * Z) :=
  match fuel with
  | O => Crash CrashFuel
  | S f =>
    match cur b with
    | Some x =>
        let digit := wrap_u8 (x - 48) in
        if digit <? 10 then
          if is_neg then
            match (let? e := chk is_i16 (exponent * 10) in chk is_i16 (e - digit)) with
            | Some e => exponent_loop f is_neg e (advance b)
            | None => Err NegativeExponentOverflow
            end
          else
            match (let? e := chk is_i16 (exponent * 10) in chk is_i16 (e + digit)) with
            | Some e => exponent_loop f is_neg e (advance b)
            | None => Err PositiveExponentOverflow
            end
        else Ok (b, exponent)
    | None => Ok (b, exponent)
    end
  end.

(** fundu-core/src/parse.rs:1192-1237 parse_exponent *)
Definition parse_exponent (b : scanner) : res (scanner * Z) :=
  let* s := parse_sign_is_negative b in
  let '(b, o) := s in
  let is_neg := neg_or_default o in
  let start := pos b in
  let* r := exponent_loop (loop_fuel b) is_neg 0 b in
  let '(b, exponent) := r in
  let* n := sub_usize (pos b) start in
  if (0 <? n)%nat then Ok (b, exponent)
  else if is_end_of_input b then
    Err (Syntax (pos b) (%"Expected exponent but reached end of input"))
  else Err (Syntax (pos b) (%"The exponent must have at least one digit")).

(** fundu-core/src/parse.rs:1239-1258 parse_number_exponent *)
Definition parse_number_exponent (b : scanner) (r : repr) (disable_exponent : bool)
  : res (scanner * repr * bool) :=
  match cur b with
  | Some x =>
      if eq_nocase x 101 && negb disable_exponent then
        let* e := parse_exponent (advance b) in
        let '(b, e) := e in Ok (b, set_exponent r e, true)
      else if eq_nocase x 101 then Err (Syntax (pos b) (%"No exponent allowed"))
      else Ok (b, r, true)
  | None => Ok (b, r, false)
  end.

(** fundu-core/src/parse.rs:1260-1273 parse_number_delimiter *)
Definition parse_number_delimiter (b : scanner) (d : option delimiter) : res (scanner * bool) :=
  match cur b, d with
  | Some x, Some d =>
      if d x then let* b := try_consume_delimiter d b in Ok (b, true) else Ok (b, true)
  | Some _, None => Ok (b, true)
  | None, _ => Ok (b, false)
  end.

Section Template.
Context {O : Type} (T : template O).

(** fundu-core/src/parse.rs:1078-1099: the part of `parse` after the whole number *)
Definition template_number (b : scanner) (r : repr) (c : config) (time_units : units_like) : res O :=
  let* x := parse_number_fraction b r (c_disable_fraction c) in
  let '(b, r, go) := x in
  if negb go then Ok (t_make_output T b r) else
  let* x := parse_number_exponent b r (c_disable_exponent c) in
  let '(b, r, go) := x in
  if negb go then Ok (t_make_output T b r) else
  let* x := parse_number_delimiter b
              (if c_allow_time_unit_delimiter c then Some (c_inner_delimiter c) else None) in
  let '(b, go) := x in
  if negb go then Ok (t_make_output T b r) else
  let* x := t_parse_number_time_unit T b r c time_units in
  let '(b, r, go) := x in
  if negb go then Ok (t_make_output T b r) else
  t_finalize T b r c.

(** fundu-core/src/parse.rs:1040-1061: the numeral part of `parse` *)
Definition template_numeral (b : scanner) (r : repr) (c : config) (time_units : units_like)
    (numerals : option numbers_like) : res O :=
  let* x := parse_numeral b numerals c in
  let '(b, o) := x in
  match o with
  | Some (id, numeral) =>
      let* x := t_parse_time_unit T b c time_units in
      let '(b, o) := x in
      match o with
      | Some um => t_finalize T b (set_unit (set_numeral r numeral) um) c
      | None =>
          if u_is_empty time_units then
            Err (TimeUnitErr (pos b)
                   (%"Found numeral '" ++ id ++ %"' without time units being defined"))
          else
            Err (TimeUnitErr (pos b) (%"Found numeral '" ++ id ++ %"' without a time unit"))
      end
  | None => let* remainder := get_remainder_str b in Err (InvalidInput remainder)
  end.

(** fundu-core/src/parse.rs:1020-1066: keyword, unit without number, numeral *)
Definition template_word (b : scanner) (r : repr) (c : config) (time_units : units_like)
    (keywords : option units_like) (numerals : option numbers_like) : res O :=
  let* x := t_parse_keyword T b keywords c in
  let '(b, o) := x in
  match o with
  | Some um => t_finalize T b (set_unit r um) c
  | None =>
      if c_number_is_optional c then
        let start := pos b in
        let* x := t_parse_time_unit T b c time_units in
        let '(b, o) := x in
        match o with
        | Some um => t_finalize T b (set_unit r um) c
        | None => template_numeral (reset b start) r c time_units numerals
        end
      else template_numeral b r c time_units numerals
  end.

(** fundu-core/src/parse.rs:998-1002: DurationRepr { default_unit, input, ..Default::default() } *)
Definition repr_init (c : config) (b : scanner) : repr :=
  Repr (c_default_unit c) None None false None None (input b) 0 default_multiplier None.

(** fundu-core/src/parse.rs:988-1100 parse *)
Definition template_parse (b : scanner) (c : config) (time_units : units_like)
    (keywords : option units_like) (numerals : option numbers_like) : res O :=
  match cur b with
  | None => Err Empty
  | Some _ =>
      let* x := parse_number_sign b (repr_init c b) c in
      let '(b, r) := x in
      match cur b with
      | Some byte =>
          if is_digit byte then
            let* x := parse_whole b in
            let '(b, w) := x in
            template_number b (set_whole r w) c time_units
          else if byte =? 46 then template_number b r c time_units
          else if negb (c_disable_infinity c) && next_is_ignore_ascii_case b (%"inf") then
            t_parse_infinity_remainder T (advance_by b 3) r c
          else template_word b r c time_units keywords numerals
      | None => Err (Syntax (pos b) (%"Unexpected end of input"))
      end
  end.
End Template.

(** ** ReprParserSingle, fundu-core/src/parse.rs:1276-1467 *)

(** fundu-core/src/parse.rs:1313-1334: the loop over b"inity" *)
Fixpoint infinity_loop_single (expected : str) (b : scanner) : res scanner :=
  match expected with
  | [] => Ok b
  | e :: expected' =>
      match cur b with
      | Some x =>
          if eq_nocase x e then infinity_loop_single expected' (advance b)
          else Err (Syntax (pos b)
                 (%"Error parsing infinity: Invalid character '" ++ char_of_byte x ++ %"'"))
      | None => Err (Syntax (pos b) (%"Error parsing infinity: Premature end of input"))
      end
  end.

(** fundu-core/src/parse.rs:1301-1338 *)
Definition single_infinity_remainder (b : scanner) (r : repr) (c : config) : res repr :=
  if is_end_of_input b then Ok (set_infinite r)
  else
    let* b := infinity_loop_single (%"inity") b in
    let* _ := check_end_of_input b in
    Ok (set_infinite r).

(** fundu-core/src/parse.rs:1340-1358 *)
Definition single_keyword (b : scanner) (keywords : option units_like) (c : config)
  : res (scanner * option (time_unit * multiplier)) :=
  match keywords with
  | None => Ok (b, None)
  | Some keywords =>
      let* keyword := get_remainder_str_unchecked b in
      match u_get keywords keyword with
      | None => Ok (b, None)
      | Some um => Ok (finish b, Some um)
      end
  end.

(** fundu-core/src/parse.rs:1360-1420 *)
Definition single_time_unit (b : scanner) (c : config) (time_units : units_like)
  : res (scanner * option (time_unit * multiplier)) :=
  let* _ := debug_assert (negb (is_end_of_input b)) in
  if c_allow_ago c then
    let start := pos b in
    let* x := advance_to (c_inner_delimiter c) b in
    let '(b, s) := x in
    let* string := str_unchecked s in
    if is_empty string then Ok (b, None)
    else
      match u_get time_units string with
      | None => Ok (reset b start, None)
      | Some (time_unit, multiplier) =>
          match cur b with
          | Some _ =>
              let* b := try_consume_delimiter (c_inner_delimiter c) b in
              if next_is_ignore_ascii_case b (%"ago") then
                Ok (advance_by b 3, Some (time_unit, mul_saturating_neg multiplier))
              else Ok (reset b start, None)
          | None => Ok (b, Some (time_unit, multiplier))
          end
      end
  else
    let* string := get_remainder_str_unchecked b in
    match u_get time_units string with
    | None => Ok (b, None)
    | Some um => Ok (finish b, Some um)
    end.

(** fundu-core/src/parse.rs:1422-1457 *)
Definition single_number_time_unit (b : scanner) (r : repr) (c : config) (time_units : units_like)
  : res (scanner * repr * bool) :=
  match cur b with
  | Some _ =>
      if negb (u_is_empty time_units) then
        let* x := single_time_unit b c time_units in
        let '(b, o) := x in
        match o with
        | Some um => Ok (b, set_unit r um, true)
        | None =>
            let* remainder := get_remainder_str b in
            Err (TimeUnitErr (pos b) (%"Invalid time unit: '" ++ remainder ++ %"'"))
        end
      else
        let* remainder := get_remainder_str_unchecked b in
        Err (TimeUnitErr (pos b) (%"No time units allowed but found: '" ++ remainder ++ %"'"))
  | None => Ok (b, r, false)
  end.

(** fundu-core/src/parse.rs:1459-1466 *)
Definition single_finalize (b : scanner) (r : repr) (c : config) : res repr :=
  let* _ := check_end_of_input b in Ok r.

(* fundu-core/src/parse.rs:1288-1466 impl ReprParserTemplate for ReprParserSingle *)
Definition single : template repr := {|
  t_make_output := fun _ r => r;               (* parse.rs:1296-1299 *)
  t_parse_infinity_remainder := single_infinity_remainder;
  t_parse_keyword := single_keyword;
  t_parse_time_unit := single_time_unit;
  t_parse_number_time_unit := single_number_time_unit;
  t_finalize := single_finalize
|}.

(** ** ReprParserMultiple, fundu-core/src/parse.rs:1469-1770 *)

(** fundu-core/src/parse.rs:1480-1483 *)
Definition is_next_duration (x : byte) : bool := is_digit x || (x =? 43) || (x =? 45).

(** fundu-core/src/parse.rs:1495-1526: the loop over the conjunctions *)
Fixpoint conjunction_loop (d : delimiter) (start : nat) (ws : list str) (b : scanner) : res scanner :=
  match ws with
  | [] => Ok b
  | word :: ws' =>
      if next_is_ignore_ascii_case b word then
        let b := advance_by b (length word) in
        match cur b with
        | Some x =>
            if d x then try_consume_delimiter d b
            else if is_next_duration x then Ok b
            else Err (Syntax (pos b)
                   (%"A conjunction must be separated by a delimiter, sign or digit but found: '"
                      ++ char_of_byte x ++ %"'"))
        | None =>
            Err (Syntax start (%"Input may not end with a conjunction but found: '" ++ word ++ %"'"))
        end
      else conjunction_loop d start ws' b
  end.

(** fundu-core/src/parse.rs:1485-1528 try_consume_connection *)
Definition try_consume_connection (d : delimiter) (conjunctions : list str) (b : scanner) : res scanner :=
  let* x := unwrap (cur b) in
  let* _ := debug_assert (d x) in
  let* b := try_consume_delimiter d b in
  conjunction_loop d (pos b) conjunctions b.

(* fundu-core/src/parse.rs:1553, 1598, 1644, 1727, 1768 `conjunctions.unwrap_or_default()` *)
Definition conjunctions_or_default (c : config) : list str :=
  match c_conjunctions c with Some l => l | None => [] end.

(* fundu-core/src/parse.rs:1551-1554, 1596-1599, 1642-1645, 1725-1728, 1766-1769 the calls of try_consume_connection *)
Definition connect (c : config) (b : scanner) : res scanner :=
  try_consume_connection (c_outer_delimiter c) (conjunctions_or_default c) b.

(* fundu-core/src/parse.rs:1529 type Output *)
Definition multi_output : Type := (repr * option scanner)%type.

(** fundu-core/src/parse.rs:1536-1539 make_output *)
Definition multi_make_output (b : scanner) (r : repr) : multi_output :=
  (r, match cur b with Some _ => Some b | None => None end).

(** fundu-core/src/parse.rs:1563-1590: the loop over "inity" *)
Fixpoint infinity_loop_multi (start : nat) (expected : str) (b : scanner) : res scanner :=
  match expected with
  | [] => Ok b
  | e :: expected' =>
      match cur b with
      | Some x =>
          if eq_nocase x e then infinity_loop_multi start expected' (advance b)
          else Err (Syntax (pos b)
                 (%"Error parsing infinity: Invalid character '" ++ char_of_byte x ++ %"'"))
      | None =>
          let* p := sub_usize start 3 in
          let* s := get_current_str_unwrap b start in
          Err (Syntax p (%"Error parsing infinity: 'inf" ++ s
                           ++ %"' is an invalid identifier for infinity"))
      end
  end.

(** fundu-core/src/parse.rs:1541-1611 *)
Definition multi_infinity_remainder (b : scanner) (r : repr) (c : config) : res multi_output :=
  let go_on :=
    let start := pos b in
    let* b := infinity_loop_multi start (%"inity") b in
    match cur b with
    | Some x =>
        if c_outer_delimiter c x then
          let* b := connect c b in Ok (set_infinite r, Some b)
        else Err (Syntax (pos b)
               (%"Error parsing infinity: Expected a delimiter but found '" ++ char_of_byte x ++ %"'"))
    | None => Ok (set_infinite r, None)
    end in
  match cur b with
  | Some x =>
      if c_outer_delimiter c x then
        let* b := connect c b in Ok (set_infinite r, Some b)
      else go_on
  | None => Ok (set_infinite r, None)
  end.

(** fundu-core/src/parse.rs:1613-1654 *)
Definition multi_keyword (b : scanner) (keywords : option units_like) (c : config)
  : res (scanner * option (time_unit * multiplier)) :=
  match keywords with
  | None => Ok (b, None)
  | Some keywords =>
      let start := pos b in
      let* x := buffered_advance_to (fun x => c_outer_delimiter c x || is_next_duration x) b in
      let '(b, buf) := x in
      if is_empty buf then Ok (b, None)
      else
        let* string := str_unchecked buf in
        match u_get keywords string with
        | None => Ok (reset b start, None)
        | Some um =>
            let* b := match cur b with
                      | Some x => if c_outer_delimiter c x then connect c b else Ok b
                      | None => Ok b
                      end in
            Ok (b, Some um)
        end
  end.

(** fundu-core/src/parse.rs:1656-1735 *)
Definition multi_time_unit (b : scanner) (c : config) (time_units : units_like)
  : res (scanner * option (time_unit * multiplier)) :=
  let* _ := debug_assert (negb (is_end_of_input b)) in
  let start := pos b in
  let* x := (if c_allow_ago c then
               buffered_advance_to
                 (fun x => c_inner_delimiter c x || c_outer_delimiter c x || is_next_duration x) b
             else buffered_advance_to (fun x => c_outer_delimiter c x || is_next_duration x) b) in
  let '(b, buf) := x in
  if is_empty buf then Ok (b, None)
  else
    let* string := str_unchecked buf in
    match u_get time_units string with
    | None => Ok (reset b start, None)
    | Some (time_unit, multiplier) =>
        let* y :=
          match cur b with
          | Some x =>
              if c_allow_ago c && c_inner_delimiter c x then
                let start := pos b in
                let* b := try_consume_delimiter (c_inner_delimiter c) b in
                if next_is_ignore_ascii_case b (%"ago") then
                  let b := advance_by b 3 in
                  match cur b with
                  | Some y =>
                      if c_outer_delimiter c y || is_next_duration y
                      then Ok (b, mul_saturating_neg multiplier)
                      else Ok (reset b start, multiplier)
                  | None => Ok (b, mul_saturating_neg multiplier)
                  end
                else Ok (reset b start, multiplier)
              else Ok (b, multiplier)
          | None => Ok (b, multiplier)
          end in
        let '(b, multiplier) := y in
        let* b := match cur b with
                  | Some x => if c_outer_delimiter c x then connect c b else Ok b
                  | None => Ok b
                  end in
        Ok (b, Some (time_unit, multiplier))
    end.

(** fundu-core/src/parse.rs:1737-1758 *)
Definition multi_number_time_unit (b : scanner) (r : repr) (c : config) (time_units : units_like)
  : res (scanner * repr * bool) :=
  match cur b with
  | Some _ =>
      if negb (u_is_empty time_units) then
        let* x := multi_time_unit b c time_units in
        let '(b, o) := x in
        match o with
        | Some um => Ok (b, set_unit r um, true)
        | None => Ok (b, r, true)
        end
      else Ok (b, r, true)
  | None => Ok (b, r, false)
  end.

(** fundu-core/src/parse.rs:1760-1777 *)
Definition multi_finalize (b : scanner) (r : repr) (c : config) : res multi_output :=
  match cur b with
  | Some x =>
      if c_outer_delimiter c x then let* b := connect c b in Ok (r, Some b)
      else Ok (r, Some b)
  | None => Ok (r, None)
  end.

(* fundu-core/src/parse.rs:1528-1775 impl ReprParserTemplate for ReprParserMultiple *)
Definition multi : template multi_output := {|
  t_make_output := multi_make_output;
  t_parse_infinity_remainder := multi_infinity_remainder;
  t_parse_keyword := multi_keyword;
  t_parse_time_unit := multi_time_unit;
  t_parse_number_time_unit := multi_number_time_unit;
  t_finalize := multi_finalize
|}.

(** ** Parser *)

(** fundu-core/src/parse.rs:120-138: the loop of parse_multiple *)
Fixpoint multiple_loop (fuel : nat) (c : config) (time_units : units_like)
    (keywords : option units_like) (numerals : option numbers_like)
    (d : duration) (b : scanner) : res duration :=
  match fuel with
  | O => Crash CrashFuel
  | S f =>
    let* x := template_parse multi b c time_units keywords numerals in
    let '(r, maybe_parser) := x in
    let* parsed := repr_parse r in
    let* d :=
      (if negb (c_allow_negative c) && is_negative parsed then Err NegativeNumber
       else if is_zero parsed then Ok d
       else if is_zero d then Ok parsed
       else saturating_add d parsed) in
    match maybe_parser with
    | Some b => multiple_loop f c time_units keywords numerals d b
    | None => Ok d
    end
  end.

(** fundu-core/src/parse.rs:109-139 parse_multiple *)
Definition parse_multiple (c : config) (source : str) (time_units : units_like)
    (keywords : option units_like) (numerals : option numbers_like) : res duration :=
  multiple_loop (S (length source)) c time_units keywords numerals ZERO (bytes_new source).

(** fundu-core/src/parse.rs:140-160 parse_single *)
Definition parse_single (c : config) (source : str) (time_units : units_like)
    (keywords : option units_like) (numerals : option numbers_like) : res duration :=
  let* r := template_parse single (bytes_new source) c time_units keywords numerals in
  let* d := repr_parse r in
  if negb (c_allow_negative c) && is_negative d then Err NegativeNumber else Ok d.

(** fundu-core/src/parse.rs:222-234 Parser::parse *)
Definition parse (c : config) (source : str) (time_units : units_like)
    (keywords : option units_like) (numerals : option numbers_like) : res duration :=
  if c_allow_multiple c then parse_multiple c source time_units keywords numerals
  else parse_single c source time_units keywords numerals.
