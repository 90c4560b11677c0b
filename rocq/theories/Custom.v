(** * The custom parser: fundu/src/custom *)
From Verif Require Import Prelude Time Config Parse Standard.

(** ** fundu/src/custom/time_units.rs *)

(** fundu/src/custom/time_units.rs:61-67 struct LookupData. usize lengths are [Z] here, usize::MAX = 2^64-1 *)
Record lookup_data : Type := Lookup { ld_min : Z; ld_max : Z; ld_unit : time_unit; ld_mult : multiplier }.
(* integers of the language: no line of /repo *)
Definition usize_max : Z := u64_max.
(* str::len: no line of /repo *)
Definition len (s : str) : Z := Z.of_nat (length s).

(** fundu/src/custom/time_units.rs:70-77 LookupData::new *)
Definition ld_new (u : time_unit) (m : multiplier) : lookup_data := Lookup usize_max 0 u m.

(** fundu/src/custom/time_units.rs:79-87 LookupData::update *)
Definition ld_update (d : lookup_data) (identifier : str) : lookup_data :=
  let l := len identifier in
  let mn := if l <? ld_min d then l else ld_min d in
  let mx := if ld_max d <? l then l else ld_max d in
  Lookup mn mx (ld_unit d) (ld_mult d).

(** fundu/src/custom/time_units.rs:89-92 LookupData::check *)
Definition ld_check (d : lookup_data) (identifier : str) : bool :=
  (ld_min d <=? len identifier) && (len identifier <=? ld_max d).

(** fundu/src/custom/time_units.rs:183-187 struct CustomTimeUnit *)
Record custom_time_unit : Type := CTU { ctu_base : time_unit; ctu_mult : multiplier; ctu_ids : list str }.

(** fundu/src/custom/time_units.rs:210-230 CustomTimeUnit::new, with the assert! *)
Definition ctu_new (base_unit : time_unit) (identifiers : list str) (m : option multiplier) : res custom_time_unit :=
  match m with
  | Some m =>
      let* _ := rassert (match mul_checked_mul (unit_multiplier base_unit) m with Some _ => true | None => false end) in
      Ok (CTU base_unit m identifiers)
  | None => Ok (CTU base_unit (Mul 1 0) identifiers)
  end.

(** fundu/src/custom/time_units.rs:248-250 with_default (here as the resulting value) *)
Definition ctu_with_default (base_unit : time_unit) (identifiers : list str) : custom_time_unit :=
  CTU base_unit (Mul 1 0) identifiers.

(** fundu/src/custom/time_units.rs:274-278 struct CustomTimeUnits *)
Record custom_units : Type := CUnits { cu_min : Z; cu_max : Z; cu_units : list (lookup_data * list str) }.

(** fundu/src/custom/time_units.rs:281-283, 301-307 new, with_capacity (the capacity is not modelled) *)
Definition cu_new : custom_units := CUnits usize_max 0 [].

(** derived PartialEq of Multiplier *)
(* fundu-core/src/time.rs:374 derived PartialEq of Multiplier *)
Definition mult_eqb (a b : multiplier) : bool := (coef a =? coef b) && (expo a =? expo b).

(** fundu/src/custom/time_units.rs:320-323 and 328-331: push the non-empty identifiers and update the lengths *)
Definition push_ids (st : lookup_data * list str) (identifiers : list str) : lookup_data * list str :=
  fold_left (fun st id => (ld_update (fst st) id, snd st ++ [id]))
    (filter (fun id => match id with [] => false | _ => true end) identifiers) st.

(** fundu/src/custom/time_units.rs:342-350 lookup_mut, and the update of the entry it returns (lines 319-324):
    the new vector and the new lengths of the entry, or None if there is no entry *)
Fixpoint lookup_update (units : list (lookup_data * list str)) (u : time_unit) (m : multiplier) (identifiers : list str)
  : option (list (lookup_data * list str) * (Z * Z)) :=
  match units with
  | [] => None
  | e :: units' =>
      if time_unit_eqb (ld_unit (fst e)) u && mult_eqb (ld_mult (fst e)) m then
        let e' := push_ids e identifiers in
        Some (e' :: units', (ld_min (fst e'), ld_max (fst e')))
      else
        let? (r, ls) := lookup_update units' u m identifiers in
        Some (e :: r, ls)
  end.

(** fundu/src/custom/time_units.rs:369-376 update_lengths *)
Definition update_lengths (c : custom_units) (mn mx : Z) : custom_units :=
  CUnits (if mn <? cu_min c then mn else cu_min c) (if cu_max c <? mx then mx else cu_max c) (cu_units c).

(** fundu/src/custom/time_units.rs:309-340 add_custom_time_unit *)
Definition add_custom_time_unit (c : custom_units) (t : custom_time_unit) : custom_units :=
  match ctu_ids t with
  | [] => c
  | _ =>
      match lookup_update (cu_units c) (ctu_base t) (ctu_mult t) (ctu_ids t) with
      | Some (units, (mn, mx)) => update_lengths (CUnits (cu_min c) (cu_max c) units) mn mx
      | None =>
          let '(data, ids) := push_ids (ld_new (ctu_base t) (ctu_mult t), []) (ctu_ids t) in
          match ids with
          | [] => c
          | _ => update_lengths (CUnits (cu_min c) (cu_max c) (cu_units c ++ [(data, ids)])) (ld_min data) (ld_max data)
          end
      end
  end.

(** fundu/src/custom/time_units.rs:285-291 with_time_units *)
Definition cu_with_time_units (l : list custom_time_unit) : custom_units := fold_left add_custom_time_unit l cu_new.

(** fundu/src/custom/time_units.rs:363-367 find_id *)
Fixpoint find_id (units : list (lookup_data * list str)) (id : str) : option (time_unit * multiplier) :=
  match units with
  | [] => None
  | (data, v) :: units' =>
      if ld_check data id && existsb (fun x => str_eqb x id) v then Some (ld_unit data, ld_mult data)
      else find_id units' id
  end.

(** fundu/src/custom/time_units.rs:381-383 is_empty *)
Definition cu_is_empty (c : custom_units) : bool := match cu_units c with [] => true | _ => false end.

(** fundu/src/custom/time_units.rs:386-392 get *)
Definition cu_get (c : custom_units) (identifier : str) : option (time_unit * multiplier) :=
  if (len identifier <? cu_min c) || (cu_max c <? len identifier) then None
  else find_id (cu_units c) identifier.

(** impl TimeUnitsLike for CustomTimeUnits *)
(* fundu/src/custom/time_units.rs:379-399 impl TimeUnitsLike *)
Definition custom_like (c : custom_units) : units_like := Units (cu_is_empty c) (cu_get c).

(** fundu/src/custom/time_units.rs:429-449 struct TimeKeyword wraps a CustomTimeUnit; keywords are [custom_time_unit] here *)

(** ** fundu/src/custom/mod.rs *)
(** fundu/src/custom/mod.rs:43-46 *)
Record numeral : Type := Numeral { nu_ids : list str; nu_mult : multiplier }.
(** fundu/src/custom/mod.rs:85-94 Numerals::get *)
Fixpoint numerals_get (data : list numeral) (input : str) : option multiplier :=
  match data with
  | [] => None
  | n :: data' => if existsb (fun id => str_eqb id input) (nu_ids n) then Some (nu_mult n) else numerals_get data' input
  end.

(** ** fundu/src/custom/parser.rs *)
(** fundu/src/custom/parser.rs:34-39 *)
Record custom_parser : Type := CParser {
  cp_units : custom_units; cp_keywords : custom_units; cp_numerals : list numeral; cp_config : config
}.

(** fundu/src/custom/parser.rs:57-64, 112-119 *)
Definition cp_new : custom_parser := CParser cu_new cu_new [] config_new.
(* fundu/src/custom/parser.rs:112-119 *)
Definition cp_with_time_units (l : list custom_time_unit) : custom_parser :=
  CParser (cu_with_time_units l) cu_new [] config_new.

(** fundu/src/custom/parser.rs:398-405 parse *)
Definition cp_parse (p : custom_parser) (source : str) : res duration :=
  parse (cp_config p) source (custom_like (cp_units p))
    (if negb (cu_is_empty (cp_keywords p)) then Some (custom_like (cp_keywords p)) else None)
    (match cp_numerals p with [] => None | l => Some (numerals_get l) end).

(** fundu/src/custom/parser.rs:426-812 the setters of the configuration *)
Definition cp_set_config (c : config) (s : setting) : config :=
  match s with
  | Set_default_unit u => set_default_unit c u                                   (* 426-429 *)
  | Set_allow_time_unit_delimiter v => set_allow_time_unit_delimiter c v         (* 457-460 *)
  | Set_allow_sign_delimiter v => set_allow_sign_delimiter c v                   (* 481-484 *)
  | Set_allow_negative v => set_allow_negative c v                               (* 518-521 *)
  | Set_allow_ago v =>                                                           (* 591-597 *)
      let c := set_allow_ago_only c v in
      if v then set_allow_negative c true else c
  | Set_disable_exponent v => set_disable_exponent c v                           (* 615-618 *)
  | Set_disable_fraction v => set_disable_fraction c v                           (* 646-649 *)
  | Set_disable_infinity v => set_disable_infinity c v                           (* 676-679 *)
  | Set_number_is_optional v => set_number_is_optional c v                       (* 697-700 *)
  | Set_parse_multiple v cj => set_allow_multiple c v cj                         (* 733-741 *)
  | Set_inner_delimiter d => set_inner_delimiter c d                             (* 771-774 *)
  | Set_outer_delimiter d => set_outer_delimiter c d                             (* 809-812 *)
  end.

(** all the methods taking &mut self *)
(* fundu/src/custom/parser.rs:216-812 the methods with &mut self *)
Inductive custom_call : Type :=
| C_time_unit (t : custom_time_unit) | C_time_units (l : list custom_time_unit)
| C_keyword (t : custom_time_unit) | C_keywords (l : list custom_time_unit)
| C_numeral (n : numeral) | C_numerals (l : list numeral)
| C_set (s : setting).

(** fundu/src/custom/parser.rs:216-219, 284-288, 339-342: time_unit, keyword, numeral *)
Definition cp_time_unit (p : custom_parser) (t : custom_time_unit) : custom_parser :=
  CParser (add_custom_time_unit (cp_units p) t) (cp_keywords p) (cp_numerals p) (cp_config p).
(* fundu/src/custom/parser.rs:284-287 *)
Definition cp_keyword (p : custom_parser) (t : custom_time_unit) : custom_parser :=
  CParser (cp_units p) (add_custom_time_unit (cp_keywords p) t) (cp_numerals p) (cp_config p).
(* fundu/src/custom/parser.rs:339-342 *)
Definition cp_numeral (p : custom_parser) (n : numeral) : custom_parser :=
  CParser (cp_units p) (cp_keywords p) (cp_numerals p ++ [n]) (cp_config p).

(** fundu/src/custom/parser.rs:244-249, 313-318, 372-377: the loops; and the setters *)
Definition cp_call (p : custom_parser) (o : custom_call) : custom_parser :=
  match o with
  | C_time_unit t => cp_time_unit p t
  | C_time_units l => fold_left cp_time_unit l p
  | C_keyword t => cp_keyword p t
  | C_keywords l => fold_left cp_keyword l p
  | C_numeral n => cp_numeral p n
  | C_numerals l => fold_left cp_numeral l p
  | C_set s => CParser (cp_units p) (cp_keywords p) (cp_numerals p) (cp_set_config (cp_config p) s)
  end.

(** fundu/src/custom/parser.rs:836-838, 850-852 *)
Definition cp_get_time_unit_by_id (p : custom_parser) (id : str) : option (time_unit * multiplier) := cu_get (cp_units p) id.
(* fundu/src/custom/parser.rs:850-852 *)
Definition cp_is_empty (p : custom_parser) : bool := cu_is_empty (cp_units p).

(** ** fundu/src/custom/builder.rs *)
(** fundu/src/custom/builder.rs:43-48 *)
Record custom_builder : Type := CBuilder {
  cb_config : config; cb_units : list custom_time_unit; cb_keywords : list custom_time_unit; cb_numerals : list numeral
}.
(** fundu/src/custom/builder.rs:73-80 *)
Definition cb_new : custom_builder := CBuilder config_new [] [] [].

(* fundu/src/custom/builder.rs:104-668 the methods of the builder *)
Inductive custom_builder_call : Type :=
| CB_time_unit (t : custom_time_unit) | CB_time_units (l : list custom_time_unit)
| CB_keyword (t : custom_time_unit) | CB_keywords (l : list custom_time_unit)
| CB_numeral (n : numeral) | CB_numerals (l : list numeral)
| CB_default_unit (u : time_unit)
| CB_allow_time_unit_delimiter | CB_allow_sign_delimiter | CB_allow_negative | CB_allow_ago
| CB_disable_exponent | CB_disable_fraction | CB_disable_infinity | CB_number_is_optional
| CB_parse_multiple (conjunctions : option (list str))
| CB_outer_delimiter (d : delimiter) | CB_inner_delimiter (d : delimiter).

(** fundu/src/custom/builder.rs:104-668 *)
Definition cb_call (b : custom_builder) (o : custom_builder_call) : custom_builder :=
  let c := cb_config b in
  let cfg c := CBuilder c (cb_units b) (cb_keywords b) (cb_numerals b) in
  match o with
  | CB_time_unit t => CBuilder c (cb_units b ++ [t]) (cb_keywords b) (cb_numerals b)           (* 104-107 *)
  | CB_time_units l => CBuilder c (cb_units b ++ l) (cb_keywords b) (cb_numerals b)            (* 131-138 *)
  | CB_keyword t => CBuilder c (cb_units b) (cb_keywords b ++ [t]) (cb_numerals b)             (* 172-175 *)
  | CB_keywords l => CBuilder c (cb_units b) (cb_keywords b ++ l) (cb_numerals b)              (* 204-211 *)
  | CB_numeral n => CBuilder c (cb_units b) (cb_keywords b) (cb_numerals b ++ [n])             (* 233-236 *)
  | CB_numerals l => CBuilder c (cb_units b) (cb_keywords b) (cb_numerals b ++ l)              (* 265-270 *)
  | CB_default_unit u => cfg (set_default_unit c u)                                            (* 291-294 *)
  | CB_allow_time_unit_delimiter => cfg (set_allow_time_unit_delimiter c true)                 (* 315-318 *)
  | CB_allow_sign_delimiter => cfg (set_allow_sign_delimiter c true)                           (* 340-343 *)
  | CB_allow_negative => cfg (set_allow_negative c true)                                       (* 375-378 *)
  | CB_allow_ago => cfg (set_allow_negative (set_allow_ago_only c true) true)                  (* 448-452 *)
  | CB_disable_exponent => cfg (set_disable_exponent c true)                                   (* 471-474 *)
  | CB_disable_fraction => cfg (set_disable_fraction c true)                                   (* 502-505 *)
  | CB_disable_infinity => cfg (set_disable_infinity c true)                                   (* 533-536 *)
  | CB_number_is_optional => cfg (set_number_is_optional c true)                               (* 556-559 *)
  | CB_parse_multiple cj => cfg (set_allow_multiple c true cj)                                 (* 596-600 *)
  | CB_outer_delimiter d => cfg (set_outer_delimiter c d)                                      (* 634-637 *)
  | CB_inner_delimiter d => cfg (set_inner_delimiter c d)                                      (* 665-668 *)
  end.

(** fundu/src/custom/builder.rs:696-703 build; with_keywords (time_units.rs:293-299) is the same loop as with_time_units *)
Definition cb_build (b : custom_builder) : custom_parser :=
  CParser (cu_with_time_units (cb_units b)) (cu_with_time_units (cb_keywords b)) (cb_numerals b) (cb_config b).

(** ** the predefined tables, fundu/src/custom/time_units.rs:19-57 *)
Definition SYSTEMD_TIME_UNITS : list custom_time_unit := [
  ctu_with_default NanoSecond [%"ns"; %"nsec"];
  ctu_with_default MicroSecond [%"us"; [194; 181; 115]; %"usec"];   (* "us", "µs", "usec" *)
  ctu_with_default MilliSecond [%"ms"; %"msec"];
  ctu_with_default Second [%"s"; %"sec"; %"second"; %"seconds"];
  ctu_with_default Minute [%"m"; %"min"; %"minute"; %"minutes"];
  ctu_with_default Hour [%"h"; %"hr"; %"hour"; %"hours"];
  ctu_with_default Day [%"d"; %"day"; %"days"];
  ctu_with_default Week [%"w"; %"week"; %"weeks"];
  ctu_with_default Month [%"M"; %"month"; %"months"];
  ctu_with_default Year [%"y"; %"year"; %"years"] ].
(* fundu/src/custom/time_units.rs:34-43 *)
Definition CUSTOM_DEFAULT_TIME_UNITS : list custom_time_unit := [
  ctu_with_default NanoSecond [%"ns"]; ctu_with_default MicroSecond [%"Ms"]; ctu_with_default MilliSecond [%"ms"];
  ctu_with_default Second [%"s"]; ctu_with_default Minute [%"m"]; ctu_with_default Hour [%"h"];
  ctu_with_default Day [%"d"]; ctu_with_default Week [%"w"] ].
(* fundu/src/custom/time_units.rs:46-57 *)
Definition DEFAULT_ALL_TIME_UNITS : list custom_time_unit := [
  ctu_with_default NanoSecond [%"ns"]; ctu_with_default MicroSecond [%"Ms"]; ctu_with_default MilliSecond [%"ms"];
  ctu_with_default Second [%"s"]; ctu_with_default Minute [%"m"]; ctu_with_default Hour [%"h"];
  ctu_with_default Day [%"d"]; ctu_with_default Week [%"w"]; ctu_with_default Month [%"M"]; ctu_with_default Year [%"y"] ].
