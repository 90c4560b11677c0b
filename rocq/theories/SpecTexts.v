(** * The texts of single durations, written down from left to right

    A regular expression: how to *write* a text. (SpecGrammar.v says how a given text is *read*.) It follows the regular expression of the fuzz
    target fundu/fuzz/fuzz_targets/parse_single.rs. Only data types of the model are used. *)
From Verif Require Import Prelude Time Config SpecTime SpecNum SpecValue SpecSpelling.

Section Texts.
Context (c : config) (tu : units_like) (kw : option units_like) (nums : option numbers_like).

Definition delimiters (ds : str) : Prop := forall x, In x ds -> c_inner_delimiter c x = true.

(** sign: nothing or one of `+`, `-`, with allow_sign_delimiter followed by any number of delimiters *)
Inductive sign_part : str -> bool -> Prop :=
| sp_none : sign_part [] false
| sp_sign sg n ds : sg <> [] -> sign_text sg n -> delimiters ds -> (ds <> [] -> c_allow_sign_delimiter c = true) ->
    sign_part (sg ++ ds) n.

(** number: digits with at most one point (at least one digit), then nothing or `e`/`E`, an optional sign and digits; the exponent fits 16 bits *)
Inductive number_part : str -> str -> str -> Z -> Prop :=
| np W fr F ex x : digit_string W -> fraction_text fr F -> W ++ F <> [] -> exponent_text ex x ->
    (fr <> [] -> c_disable_fraction c = false) -> (ex <> [] -> c_disable_exponent c = false) ->
    number_part (W ++ fr ++ ex) W F x.

(** time unit: an identifier, with allow_ago perhaps followed by delimiters (at least one) and `ago` in any letter case *)
Inductive unit_part : str -> time_unit -> multiplier -> Prop :=
| up_plain id u m : u_get tu id = Some (u, m) -> unit_part id u m
| up_ago id u m ds a : u_get tu id = Some (u, m) -> c_allow_ago c = true -> ds <> [] -> delimiters ds ->
    str_eq_nocase a (%"ago") = true -> unit_part (id ++ ds ++ a) u (mul_saturating_neg m).

Inductive duration_text : str -> duration -> Prop :=
| dt_number sg n p W F x : sign_part sg n -> number_part p W F x ->
    duration_text (sg ++ p) (number_value n W F x (c_default_unit c) default_multiplier)
| dt_number_unit sg n p W F x ds q u m : sign_part sg n -> number_part p W F x ->
    delimiters ds -> (ds <> [] -> c_allow_time_unit_delimiter c = true) -> unit_part q u m ->
    duration_text (sg ++ p ++ ds ++ q) (number_value n W F x u m)
| dt_infinity sg n v : sign_part sg n -> c_disable_infinity c = false ->
    str_eq_nocase v (%"inf") = true \/ str_eq_nocase v (%"infinity") = true ->
    duration_text (sg ++ v) (infinity_value n)
| dt_keyword sg n k id u m : sign_part sg n -> kw = Some k -> u_get k id = Some (u, m) ->
    duration_text (sg ++ id) (unit_value n u m)
| dt_unit sg n q u m : sign_part sg n -> c_number_is_optional c = true -> unit_part q u m ->
    duration_text (sg ++ q) (unit_value n u m)
| dt_numeral sg n f id num ds q u m : sign_part sg n -> nums = Some f -> f id = Some num -> ds <> [] -> delimiters ds ->
    unit_part q u m -> duration_text (sg ++ id ++ ds ++ q) (numeral_value n num u m).

(** identifiers and delimiters which cannot be mistaken for each other or for a part of a number *)
Definition plain_start (id : str) : Prop :=
  match id with
  | [] => False
  | x :: _ => ~ 48 <= x <= 57 /\ x <> 46 /\ x <> 43 /\ x <> 45
  end /\ forall x y z r, id = x :: y :: z :: r -> c_disable_infinity c = false -> str_eq_nocase [x; y; z] (%"inf") = false.
Definition plain_word (id : str) : Prop := plain_start id /\ forall x, In x id -> c_inner_delimiter c x = false.

Record plain_env : Prop := PlainEnv {
  pe_delimiter : forall x, c_inner_delimiter c x = true ->
     ~ 48 <= x <= 57 /\ x <> 46 /\ x <> 43 /\ x <> 45 /\ ~ 65 <= x <= 90 /\ ~ 97 <= x <= 122;
  pe_units : forall id, u_get tu id <> None -> u_is_empty tu = false /\ plain_word id /\ hd 0 id <> 101 /\ hd 0 id <> 69;
  pe_keywords : forall k id, kw = Some k -> u_get k id <> None -> plain_word id /\ u_get tu id = None;
  pe_numerals : forall f id, nums = Some f -> f id <> None -> plain_word id /\ u_get tu id = None
}.
End Texts.
