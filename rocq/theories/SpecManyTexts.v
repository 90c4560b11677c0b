(** * The texts of multiple durations, written down from left to right

    A sequence of single durations as in SpecTexts.v, with delimiters or conjunctions between them. This is how to *write* a text; SpecGrammar.v says how a
    given text is *read*, looking ahead. Only data types of the model are used. *)
From Verif Require Import Prelude Time Config SpecTime SpecNum SpecValue SpecSpelling SpecTexts.

Section ManyTexts.
Context (c : config) (tu : units_like) (kw : option units_like) (nums : option numbers_like).

(** what a duration ends with: a number (and which one), a word (time unit, `ago`, keyword), or infinity *)
Inductive ending := AfterNumber (p : str) | AfterWord | AfterInfinity.

(** One duration, like [duration_text]. The boolean tells if it is a time unit alone, without sign and number. *)
Inductive one_duration : str -> bool -> ending -> duration -> Prop :=
| od_number sg n p W F x : sign_part c sg n -> number_part c p W F x ->
    one_duration (sg ++ p) false (AfterNumber p) (number_value n W F x (c_default_unit c) default_multiplier)
| od_number_unit sg n p W F x ds q u m : sign_part c sg n -> number_part c p W F x ->
    delimiters c ds -> (ds <> [] -> c_allow_time_unit_delimiter c = true) -> unit_part c tu q u m ->
    one_duration (sg ++ p ++ ds ++ q) false AfterWord (number_value n W F x u m)
| od_infinity sg n v : sign_part c sg n -> c_disable_infinity c = false ->
    str_eq_nocase v (%"inf") = true \/ str_eq_nocase v (%"infinity") = true ->
    one_duration (sg ++ v) false AfterInfinity (infinity_value n)
| od_keyword sg n k id u m : sign_part c sg n -> kw = Some k -> u_get k id = Some (u, m) ->
    one_duration (sg ++ id) false AfterWord (unit_value n u m)
| od_unit sg n q u m : sign_part c sg n -> c_number_is_optional c = true -> unit_part c tu q u m ->
    one_duration (sg ++ q) (match sg with [] => true | _ => false end) AfterWord (unit_value n u m)
| od_numeral sg n f id num ds q u m : sign_part c sg n -> nums = Some f -> f id = Some num -> ds <> [] -> delimiters c ds ->
    unit_part c tu q u m -> one_duration (sg ++ id ++ ds ++ q) false AfterWord (numeral_value n num u m).

Definition words : list str := match c_conjunctions c with Some l => l | None => [] end.
Definition digit_or_sign (x : byte) : Prop := 48 <= x <= 57 \/ x = 43 \/ x = 45.
Definition has_exponent (p : str) : Prop := In 101 p \/ In 69 p.

(** What may be between a duration with this ending and the next one, which starts with [x] and is a time unit alone or not ([bare]):
    - nothing after a number, if [x] neither continues the number nor starts a time unit for it;
    - nothing after a word in front of a digit or sign;
    - delimiters; but a time unit alone belongs to the number in front of it if allow_time_unit_delimiter is set;
    - delimiters, a conjunction in any letter case, and delimiters, of which the latter may be missing in front of a digit or sign; but not after
      a number without time unit if allow_time_unit_delimiter is set. *)
Inductive between : ending -> str -> bool -> byte -> Prop :=
| b_number p x : ~ 48 <= x <= 57 -> (x = 46 -> In 46 p \/ has_exponent p) -> (x = 101 \/ x = 69 -> has_exponent p) ->
    between (AfterNumber p) [] false x
| b_word bare x : digit_or_sign x -> between AfterWord [] bare x
| b_delimiters e ds bare x : ds <> [] -> delimiters c ds ->
    (forall p, e = AfterNumber p -> c_allow_time_unit_delimiter c = true -> bare = false) -> between e ds bare x
| b_conjunction e ds1 v w ds2 bare x : ds1 <> [] -> delimiters c ds1 -> In w words -> str_eq_nocase v w = true -> delimiters c ds2 ->
    (ds2 = [] -> digit_or_sign x) -> (forall p, e = AfterNumber p -> c_allow_time_unit_delimiter c = false) ->
    between e (ds1 ++ v ++ ds2) bare x.

Inductive durations_text : str -> bool -> list duration -> Prop :=
| dts_last p bare e d : one_duration p bare e d -> durations_text p bare [d]
| dts_more p bare e d sep x r bare' ds : one_duration p bare e d -> between e sep bare' x -> durations_text (x :: r) bare' ds ->
    durations_text (p ++ sep ++ x :: r) bare (d :: ds).

Definition identifier (id : str) : Prop :=
  u_get tu id <> None \/ (exists k, kw = Some k /\ u_get k id <> None) \/ (exists f, nums = Some f /\ f id <> None).
(** [w] in any letter case is the beginning of [l] *)
Definition starts_like (w l : str) : Prop := exists v r, l = v ++ r /\ str_eq_nocase v w = true.

(** identifiers, delimiters and conjunctions which cannot be mistaken for each other or for a part of a number, and one set of delimiters *)
Record plain_many : Prop := PlainMany {
  pm_plain : plain_env c tu kw nums;
  pm_delimiters : forall x, c_outer_delimiter c x = c_inner_delimiter c x;
  pm_identifiers : forall id, identifier id -> forall x, In x id -> ~ digit_or_sign x;
  pm_tables : forall k f id, kw = Some k -> nums = Some f -> u_get k id <> None -> f id = None;
  pm_conjunctions : forall w, In w words -> w <> [] /\ hd 0 w <> 46 /\ forall x, In x w -> ~ digit_or_sign x /\ c_inner_delimiter c x = false;
  pm_no_conjunction : forall w id, In w words -> identifier id \/ c_disable_infinity c = false /\ id = %"infinity" -> ~ starts_like w id;
  pm_one_conjunction : forall w w', In w words -> In w' words -> starts_like w w' -> length w = length w';
  pm_ago : forall id, identifier id \/ In id words -> c_allow_ago c = true -> str_eq_nocase id (%"ago") = false
}.
End ManyTexts.
