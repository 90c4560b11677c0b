(** * The parser without the look-ahead buffer (specification for C29)

    The definitions of Parse.v which collect a word, with [advance_to] (fundu-core/src/parse.rs:687-699) in place
    of [buffered_advance_to] (701-732). Nothing else is changed; the functions which do not collect words are those of Parse.v.
    The scanner still has the field for the buffer, but it stays None. *)
From Verif Require Import Prelude Util Time Config Bytes Repr Parse.

(** parse.rs:950-986 *)
Definition nb_parse_numeral (b : scanner) (numerals : option numbers_like) (c : config)
  : res (scanner * option (str * multiplier)) :=
  match numerals with
  | None => Ok (b, None)
  | Some numerals =>
      let start := pos b in
      let* r := advance_to (c_inner_delimiter c) b in
      let '(b, buf) := r in
      if is_empty buf then Ok (b, None)
      else
        let* string := str_unchecked buf in
        match numerals string with
        | None => Ok (reset b start, None)
        | Some m =>
            match cur b with
            | Some x =>
                if c_inner_delimiter c x then
                  let* b := try_consume_delimiter (c_inner_delimiter c) b in
                  Ok (b, Some (string, m))
                else Ok (reset b start, None)
            | None => Ok (reset b start, None)
            end
        end
  end.

Section Template.
Context {O : Type} (T : template O).
(** parse.rs:1040-1061 *)
Definition nb_template_numeral (b : scanner) (r : repr) (c : config) (time_units : units_like)
    (numerals : option numbers_like) : res O :=
  let* x := nb_parse_numeral b numerals c in
  let '(b, o) := x in
  match o with
  | Some (id, numeral) =>
      let* x := t_parse_time_unit T b c time_units in
      let '(b, o) := x in
      match o with
      | Some um => t_finalize T b (set_unit (set_numeral r numeral) um) c
      | None =>
          if u_is_empty time_units then
            Err (TimeUnitErr (pos b)
                   (%"Found numeral '" ++ id ++ %"' without time units being defined"))
          else
            Err (TimeUnitErr (pos b) (%"Found numeral '" ++ id ++ %"' without a time unit"))
      end
  | None => let* remainder := get_remainder_str b in Err (InvalidInput remainder)
  end.

(** parse.rs:1020-1066 *)
Definition nb_template_word (b : scanner) (r : repr) (c : config) (time_units : units_like)
    (keywords : option units_like) (numerals : option numbers_like) : res O :=
  let* x := t_parse_keyword T b keywords c in
  let '(b, o) := x in
  match o with
  | Some um => t_finalize T b (set_unit r um) c
  | None =>
      if c_number_is_optional c then
        let start := pos b in
        let* x := t_parse_time_unit T b c time_units in
        let '(b, o) := x in
        match o with
        | Some um => t_finalize T b (set_unit r um) c
        | None => nb_template_numeral (reset b start) r c time_units numerals
        end
      else nb_template_numeral b r c time_units numerals
  end.

(** parse.rs:988-1100 *)
Definition nb_template_parse (b : scanner) (c : config) (time_units : units_like)
    (keywords : option units_like) (numerals : option numbers_like) : res O :=
  match cur b with
  | None => Err Empty
  | Some _ =>
      let* x := parse_number_sign b (repr_init c b) c in
      let '(b, r) := x in
      match cur b with
      | Some byte =>
          if is_digit byte then
            let* x := parse_whole b in
            let '(b, w) := x in
            template_number T b (set_whole r w) c time_units
          else if byte =? 46 then template_number T b r c time_units
          else if negb (c_disable_infinity c) && next_is_ignore_ascii_case b (%"inf") then
            t_parse_infinity_remainder T (advance_by b 3) r c
          else nb_template_word b r c time_units keywords numerals
      | None => Err (Syntax (pos b) (%"Unexpected end of input"))
      end
  end.
End Template.

(** parse.rs:1613-1654 *)
Definition nb_multi_keyword (b : scanner) (keywords : option units_like) (c : config)
  : res (scanner * option (time_unit * multiplier)) :=
  match keywords with
  | None => Ok (b, None)
  | Some keywords =>
      let start := pos b in
      let* x := advance_to (fun x => c_outer_delimiter c x || is_next_duration x) b in
      let '(b, buf) := x in
      if is_empty buf then Ok (b, None)
      else
        let* string := str_unchecked buf in
        match u_get keywords string with
        | None => Ok (reset b start, None)
        | Some um =>
            let* b := match cur b with
                      | Some x => if c_outer_delimiter c x then connect c b else Ok b
                      | None => Ok b
                      end in
            Ok (b, Some um)
        end
  end.

(** parse.rs:1656-1735 *)
Definition nb_multi_time_unit (b : scanner) (c : config) (time_units : units_like)
  : res (scanner * option (time_unit * multiplier)) :=
  let* _ := debug_assert (negb (is_end_of_input b)) in
  let start := pos b in
  let* x := (if c_allow_ago c then
               advance_to
                 (fun x => c_inner_delimiter c x || c_outer_delimiter c x || is_next_duration x) b
             else advance_to (fun x => c_outer_delimiter c x || is_next_duration x) b) in
  let '(b, buf) := x in
  if is_empty buf then Ok (b, None)
  else
    let* string := str_unchecked buf in
    match u_get time_units string with
    | None => Ok (reset b start, None)
    | Some (time_unit, multiplier) =>
        let* y :=
          match cur b with
          | Some x =>
              if c_allow_ago c && c_inner_delimiter c x then
                let start := pos b in
                let* b := try_consume_delimiter (c_inner_delimiter c) b in
                if next_is_ignore_ascii_case b (%"ago") then
                  let b := advance_by b 3 in
                  match cur b with
                  | Some y =>
                      if c_outer_delimiter c y || is_next_duration y
                      then Ok (b, mul_saturating_neg multiplier)
                      else Ok (reset b start, multiplier)
                  | None => Ok (b, mul_saturating_neg multiplier)
                  end
                else Ok (reset b start, multiplier)
              else Ok (b, multiplier)
          | None => Ok (b, multiplier)
          end in
        let '(b, multiplier) := y in
        let* b := match cur b with
                  | Some x => if c_outer_delimiter c x then connect c b else Ok b
                  | None => Ok b
                  end in
        Ok (b, Some (time_unit, multiplier))
    end.

(** parse.rs:1737-1758 *)
Definition nb_multi_number_time_unit (b : scanner) (r : repr) (c : config) (time_units : units_like)
  : res (scanner * repr * bool) :=
  match cur b with
  | Some _ =>
      if negb (u_is_empty time_units) then
        let* x := nb_multi_time_unit b c time_units in
        let '(b, o) := x in
        match o with
        | Some um => Ok (b, set_unit r um, true)
        | None => Ok (b, r, true)
        end
      else Ok (b, r, true)
  | None => Ok (b, r, false)
  end.

Definition nb_multi : template multi_output := {|
  t_make_output := multi_make_output;
  t_parse_infinity_remainder := multi_infinity_remainder;
  t_parse_keyword := nb_multi_keyword;
  t_parse_time_unit := nb_multi_time_unit;
  t_parse_number_time_unit := nb_multi_number_time_unit;
  t_finalize := multi_finalize
|}.

(** parse.rs:120-138 *)
Fixpoint nb_multiple_loop (fuel : nat) (c : config) (time_units : units_like)
    (keywords : option units_like) (numerals : option numbers_like)
    (d : duration) (b : scanner) : res duration :=
  match fuel with
  | O => Crash CrashFuel
  | S f =>
    let* x := nb_template_parse nb_multi b c time_units keywords numerals in
    let '(r, maybe_parser) := x in
    let* parsed := repr_parse r in
    let* d :=
      (if negb (c_allow_negative c) && is_negative parsed then Err NegativeNumber
       else if is_zero parsed then Ok d
       else if is_zero d then Ok parsed
       else saturating_add d parsed) in
    match maybe_parser with
    | Some b => nb_multiple_loop f c time_units keywords numerals d b
    | None => Ok d
    end
  end.

(** parse.rs:109-160, 222-234 *)
Definition nb_parse_single (c : config) (source : str) (time_units : units_like)
    (keywords : option units_like) (numerals : option numbers_like) : res duration :=
  let* r := nb_template_parse single (bytes_new source) c time_units keywords numerals in
  let* d := repr_parse r in
  if negb (c_allow_negative c) && is_negative d then Err NegativeNumber else Ok d.
Definition nb_parse (c : config) (source : str) (time_units : units_like)
    (keywords : option units_like) (numerals : option numbers_like) : res duration :=
  if c_allow_multiple c
  then nb_multiple_loop (S (length source)) c time_units keywords numerals ZERO (bytes_new source)
  else nb_parse_single c source time_units keywords numerals.
