(** * Which error an input is rejected with, as a relation on texts

    [s] is the whole input. A text in front of the reader is a suffix of [s], and its position in [s] is [here].
    Every rule says: the input has this shape, up to there everything is fine, and this is what is wrong. *)
From Verif Require Import Prelude Time Config SpecTime SpecNum SpecValue SpecGrammar.

Section Errors.
Context (c : config) (tu : units_like) (kw : option units_like) (nums : option numbers_like) (s : str).

(** the byte offset of the rest [l] of the input *)
Definition here (l : str) : nat := (length s - length l)%nat.

(** nothing but delimiters up to the end of the input *)
Definition trailing (d : delimiter) (l : str) (e : parse_error) : Prop :=
  l <> [] /\ (forall x, In x l -> d x = true) /\ e = Syntax (here l) (%"Input may not end with a delimiter").
Definition unexpected (l : str) (e : parse_error) : Prop :=
  l <> [] /\ e = Syntax (here l) (%"Expected end of input but found: '" ++ l ++ %"'").

(** ** Sign and number *)
Inductive sign_error : str -> parse_error -> Prop :=
| se_end x : is_sign x = true ->
    sign_error [x] (Syntax (here []) (%"Unexpected end of input. Sign without a number"))
| se_delimiters x l e : is_sign x = true -> c_allow_sign_delimiter c = true ->
    trailing (c_inner_delimiter c) l e -> sign_error (x :: l) e.

(** [W] are the digits in front *)
Inductive fraction_error (W : str) : str -> parse_error -> Prop :=
| fe_disabled l : c_disable_fraction c = true ->
    fraction_error W (46 :: l) (Syntax (here (46 :: l)) (%"No fraction allowed"))
| fe_no_digits l : c_disable_fraction c = false -> W = [] -> starts_not is_digit l ->
    fraction_error W (46 :: l)
      (Syntax (here (46 :: l)) (%"Either the whole number part or the fraction must be present")).

Inductive exponent_error : str -> parse_error -> Prop :=
| xe_disabled x l : is_e x = true -> c_disable_exponent c = true ->
    exponent_error (x :: l) (Syntax (here (x :: l)) (%"No exponent allowed"))
| xe_end x : is_e x = true -> c_disable_exponent c = false ->
    exponent_error [x] (Syntax (here []) (%"Unexpected end of input"))
| xe_sign_end x y : is_e x = true -> c_disable_exponent c = false -> is_sign y = true ->
    exponent_error [x; y] (Syntax (here []) (%"Expected exponent but reached end of input"))
| xe_no_digit x sg n y l : is_e x = true -> c_disable_exponent c = false -> exponent_sign sg n ->
    is_digit y = false -> (sg = [] -> is_sign y = false) ->
    exponent_error (x :: sg ++ y :: l) (Syntax (here (y :: l)) (%"The exponent must have at least one digit"))
| xe_negative x l ds r : is_e x = true -> c_disable_exponent c = false -> span is_digit l ds r ->
    dval ds > 32768 -> exponent_error (x :: 45 :: l) NegativeExponentOverflow
| xe_positive x sg l ds r : is_e x = true -> c_disable_exponent c = false -> exponent_sign sg false ->
    span is_digit l ds r -> dval ds > 32767 -> exponent_error (x :: sg ++ l) PositiveExponentOverflow.

Inductive number_error (l : str) (e : parse_error) : Prop :=
| ne_fraction W l1 : span is_digit l W l1 -> fraction_error W l1 e -> number_error l e
| ne_exponent W l1 F l2 : span is_digit l W l1 -> fraction c l1 F l2 -> W ++ F <> [] ->
    exponent_error l2 e -> number_error l e
| ne_delimiters W l1 F l2 x l3 : span is_digit l W l1 -> fraction c l1 F l2 -> W ++ F <> [] ->
    exponent c l2 x l3 -> c_allow_time_unit_delimiter c = true -> trailing (c_inner_delimiter c) l3 e ->
    number_error l e.

(** ** Numerals *)
Definition no_numeral (l : str) : Prop :=
  forall f w l1, nums = Some f -> until (c_inner_delimiter c) l w l1 -> w <> [] -> l1 <> [] -> f w = None.
Definition numeral_end (l : str) (e : parse_error) : Prop :=
  exists f w l1, nums = Some f /\ until (c_inner_delimiter c) l w l1 /\ w <> [] /\ f w <> None /\
    trailing (c_inner_delimiter c) l1 e.
Definition numeral_word (l w r : str) : Prop :=
  exists f l1 ds, nums = Some f /\ until (c_inner_delimiter c) l w l1 /\ w <> [] /\ f w <> None /\
    span (c_inner_delimiter c) l1 ds r /\ ds <> [] /\ r <> [].
Definition numeral_unit_error (w r : str) (e : parse_error) : Prop :=
  e = TimeUnitErr (here r)
        (if u_is_empty tu then %"Found numeral '" ++ w ++ %"' without time units being defined"
         else %"Found numeral '" ++ w ++ %"' without a time unit").

(** ** Single durations *)
(** a known time unit, then something wrong *)
Inductive single_unit_error (l : str) (e : parse_error) : Prop :=
| sue_end w l1 : c_allow_ago c = true -> until (c_inner_delimiter c) l w l1 -> w <> [] -> u_get tu w <> None ->
    trailing (c_inner_delimiter c) l1 e -> single_unit_error l e
| sue_ago w l1 ds a r : c_allow_ago c = true -> until (c_inner_delimiter c) l w l1 -> w <> [] -> u_get tu w <> None ->
    span (c_inner_delimiter c) l1 ds a -> word_prefix (%"ago") a r -> unexpected r e -> single_unit_error l e.
Definition no_single_unit (l : str) : Prop :=
  ~ single_unit_like c tu l /\ ~ exists e, single_unit_error l e.

(** [l] is what follows `inf`, [w] what is still expected *)
Inductive single_infinity_error : str -> str -> parse_error -> Prop :=
| sie_next x y w l e : eq_nocase x y = true -> single_infinity_error w l e ->
    single_infinity_error (y :: w) (x :: l) e
| sie_end y w : single_infinity_error (y :: w) [] (Syntax (here []) (%"Error parsing infinity: Premature end of input"))
| sie_wrong x y w l : eq_nocase x y = false ->
    single_infinity_error (y :: w) (x :: l)
      (Syntax (here (x :: l)) (%"Error parsing infinity: Invalid character '" ++ char_of_byte x ++ %"'"))
| sie_more l e : unexpected l e -> single_infinity_error [] l e.

Inductive single_error : parse_error -> Prop :=
| s_empty : s = [] -> single_error Empty
| s_sign e : sign_error s e -> single_error e
| s_number n l e : signed c s n l -> number_error l e -> single_error e
| s_no_units n l W F x r : signed c s n l -> number c l W F x r -> r <> [] -> u_is_empty tu = true ->
    single_error (TimeUnitErr (here r) (%"No time units allowed but found: '" ++ r ++ %"'"))
| s_bad_unit n l W F x r : signed c s n l -> number c l W F x r -> r <> [] -> u_is_empty tu = false ->
    no_single_unit r -> single_error (TimeUnitErr (here r) (%"Invalid time unit: '" ++ r ++ %"'"))
| s_unit n l W F x r e : signed c s n l -> number c l W F x r -> r <> [] -> u_is_empty tu = false ->
    single_unit_error r e -> single_error e
| s_infinity n l r e : signed c s n l -> c_disable_infinity c = false -> word_prefix (%"inf") l r -> r <> [] ->
    single_infinity_error (%"inity") r e -> single_error e
| s_word_unit n l e : signed c s n l -> word c l -> (forall u m, ~ single_keyword_is kw l u m) ->
    c_number_is_optional c = true -> single_unit_error l e -> single_error e
| s_unknown n l : signed c s n l -> word c l -> (forall u m, ~ single_keyword_is kw l u m) ->
    (c_number_is_optional c = true -> no_single_unit l) -> no_numeral l -> single_error (InvalidInput l)
| s_numeral_end n l e : signed c s n l -> word c l -> (forall u m, ~ single_keyword_is kw l u m) ->
    (c_number_is_optional c = true -> no_single_unit l) -> numeral_end l e -> single_error e
| s_numeral_unit n l w r e : signed c s n l -> word c l -> (forall u m, ~ single_keyword_is kw l u m) ->
    (c_number_is_optional c = true -> no_single_unit l) -> numeral_word l w r -> single_unit_error r e ->
    single_error e
| s_numeral_no_unit n l w r e : signed c s n l -> word c l -> (forall u m, ~ single_keyword_is kw l u m) ->
    (c_number_is_optional c = true -> no_single_unit l) -> numeral_word l w r -> no_single_unit r ->
    numeral_unit_error w r e -> single_error e
| s_negative d : single_duration c tu kw nums s d -> c_allow_negative c = false -> is_negative d = true ->
    single_error NegativeNumber.

(** ** Multiple durations *)
(** the first conjunction which matches is not followed by another component *)
Inductive conjunction_error (y : str) (e : parse_error) : Prop :=
| ce ws1 w ws2 z : conjunctions c = ws1 ++ w :: ws2 -> (forall v, In v ws1 -> ~ exists r, word_prefix v y r) ->
    word_prefix w y z ->
    (z = [] /\ e = Syntax (here y) (%"Input may not end with a conjunction but found: '" ++ w ++ %"'") \/
     trailing (c_outer_delimiter c) z e \/
     exists x z', z = x :: z' /\ c_outer_delimiter c x = false /\ starts_duration x = false /\
       e = Syntax (here z) (%"A conjunction must be separated by a delimiter, sign or digit but found: '"
                              ++ char_of_byte x ++ %"'")) ->
    conjunction_error y e.
(** delimiters, after which there is no other component *)
Inductive next_error (l : str) (e : parse_error) : Prop :=
| nx_end : trailing (c_outer_delimiter c) l e -> next_error l e
| nx_conjunction ds y : span (c_outer_delimiter c) l ds y -> ds <> [] -> y <> [] ->
    conjunction_error y e -> next_error l e.

Inductive multi_unit_error (l : str) (e : parse_error) : Prop :=
| mue_ago w l1 : until (unit_end c) l w l1 -> w <> [] -> u_get tu w <> None -> c_allow_ago c = true ->
    trailing (c_inner_delimiter c) l1 e -> multi_unit_error l e
| mue_next w l1 : until (unit_end c) l w l1 -> w <> [] -> u_get tu w <> None ->
    (forall r, ~ ago c l1 r) -> (c_allow_ago c = true -> ~ (l1 <> [] /\ span (c_inner_delimiter c) l1 l1 [])) ->
    next_error l1 e -> multi_unit_error l e
| mue_ago_next w l1 l2 : until (unit_end c) l w l1 -> w <> [] -> u_get tu w <> None ->
    ago c l1 l2 -> next_error l2 e -> multi_unit_error l e.

(** [l0] is what follows `inf`, [l] what is left of it, [w] what is still expected *)
Inductive multi_infinity_error (l0 : str) : str -> str -> parse_error -> Prop :=
| mie_next x y w l e : eq_nocase x y = true -> multi_infinity_error l0 w l e ->
    multi_infinity_error l0 (y :: w) (x :: l) e
| mie_end y w : multi_infinity_error l0 (y :: w) []
    (Syntax (here l0 - 3) (%"Error parsing infinity: 'inf" ++ l0 ++ %"' is an invalid identifier for infinity"))
| mie_wrong x y w l : eq_nocase x y = false ->
    multi_infinity_error l0 (y :: w) (x :: l)
      (Syntax (here (x :: l)) (%"Error parsing infinity: Invalid character '" ++ char_of_byte x ++ %"'"))
| mie_more x l : c_outer_delimiter c x = false ->
    multi_infinity_error l0 [] (x :: l)
      (Syntax (here (x :: l)) (%"Error parsing infinity: Expected a delimiter but found '" ++ char_of_byte x ++ %"'"))
| mie_delimiter l e : next_error l e -> multi_infinity_error l0 [] l e.

(** the first component of [t] is wrong *)
Inductive component_error (t : str) : parse_error -> Prop :=
| m_empty : t = [] -> component_error t Empty
| m_sign e : sign_error t e -> component_error t e
| m_number n l e : signed c t n l -> number_error l e -> component_error t e
| m_number_next n l W F x r e : signed c t n l -> number c l W F x r ->
    (u_is_empty tu = true \/ ~ multi_unit_like c tu r) -> next_error r e -> component_error t e
| m_unit n l W F x r e : signed c t n l -> number c l W F x r -> u_is_empty tu = false ->
    multi_unit_error r e -> component_error t e
| m_inf n l r e : signed c t n l -> c_disable_infinity c = false -> word_prefix (%"inf") l r ->
    next_error r e -> component_error t e
| m_infinity n l r e : signed c t n l -> c_disable_infinity c = false -> word_prefix (%"inf") l r ->
    ~ ends_or_delimited c r -> multi_infinity_error r (%"inity") r e -> component_error t e
| m_keyword n l u m l1 e : signed c t n l -> word c l -> multi_keyword_is c kw l u m l1 ->
    next_error l1 e -> component_error t e
| m_word_unit n l e : signed c t n l -> word c l -> (forall u m r, ~ multi_keyword_is c kw l u m r) ->
    c_number_is_optional c = true -> multi_unit_error l e -> component_error t e
| m_unknown n l : signed c t n l -> word c l -> (forall u m r, ~ multi_keyword_is c kw l u m r) ->
    (c_number_is_optional c = true -> ~ multi_unit_like c tu l) -> no_numeral l ->
    component_error t (InvalidInput l)
| m_numeral_end n l e : signed c t n l -> word c l -> (forall u m r, ~ multi_keyword_is c kw l u m r) ->
    (c_number_is_optional c = true -> ~ multi_unit_like c tu l) -> numeral_end l e -> component_error t e
| m_numeral_unit n l w r e : signed c t n l -> word c l -> (forall u m r, ~ multi_keyword_is c kw l u m r) ->
    (c_number_is_optional c = true -> ~ multi_unit_like c tu l) -> numeral_word l w r -> multi_unit_error r e ->
    component_error t e
| m_numeral_no_unit n l w r e : signed c t n l -> word c l -> (forall u m r, ~ multi_keyword_is c kw l u m r) ->
    (c_number_is_optional c = true -> ~ multi_unit_like c tu l) -> numeral_word l w r -> ~ multi_unit_like c tu r ->
    numeral_unit_error w r e -> component_error t e.

(** the first component which is wrong, or negative without permission *)
Inductive components_error : str -> parse_error -> Prop :=
| c_wrong t e : component_error t e -> components_error t e
| c_negative t d r : component c tu kw nums t d r -> c_allow_negative c = false -> is_negative d = true ->
    components_error t NegativeNumber
| c_later t d r e : component c tu kw nums t d r -> sign_allowed c d -> r <> [] -> components_error r e ->
    components_error t e.
End Errors.
