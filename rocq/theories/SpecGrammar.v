(** * The grammar of durations, as a relation on texts

    Everything here is about plain byte lists: no scanner, no positions, no buffer, no error values. The first
    argument of every relation is the text in front of the reader, the last one (if it is a text) what is left. *)
From Verif Require Import Prelude Time Config SpecTime SpecNum SpecValue.

Definition starts_not (p : byte -> bool) (l : str) : Prop := match l with [] => True | x :: _ => p x = false end.
Definition starts_with (p : byte -> bool) (l : str) : Prop := match l with [] => False | x :: _ => p x = true end.
(** [a] is the longest prefix of [l] whose bytes satisfy [p], [b] is the rest *)
Definition span (p : byte -> bool) (l a b : str) : Prop :=
  l = a ++ b /\ (forall x, In x a -> p x = true) /\ starts_not p b.
Definition until (p : byte -> bool) (l a b : str) : Prop := span (fun x => negb (p x)) l a b.
(** [l] is the word [w] in any ASCII letter case followed by [r] *)
Definition word_prefix (w l r : str) : Prop := exists v, l = v ++ r /\ str_eq_nocase v w = true.

Definition is_sign (x : byte) : bool := (x =? 43) || (x =? 45).
Definition is_dot (x : byte) : bool := x =? 46.
Definition is_e (x : byte) : bool := (x =? 101) || (x =? 69).
Definition starts_duration (x : byte) : bool := is_digit x || is_sign x.

Section Grammar.
Context (c : config) (tu : units_like) (kw : option units_like) (nums : option numbers_like).

(** an optional sign, with delimiters after it if configured, in front of something *)
Inductive signed : str -> bool -> str -> Prop :=
| unsigned l : starts_not is_sign l -> l <> [] -> signed l false l
| with_sign x l r : is_sign x = true -> c_allow_sign_delimiter c = false -> l = r -> r <> [] ->
    signed (x :: l) (x =? 45) r
| with_sign_delimiter x l ds r : is_sign x = true -> c_allow_sign_delimiter c = true ->
    span (c_inner_delimiter c) l ds r -> r <> [] -> signed (x :: l) (x =? 45) r.

Inductive fraction : str -> str -> str -> Prop :=
| no_fraction l : starts_not is_dot l -> fraction l [] l
| some_fraction l F r : c_disable_fraction c = false -> span is_digit l F r -> fraction (46 :: l) F r.

Inductive exponent_sign : str -> bool -> Prop :=
| exp_none : exponent_sign [] false
| exp_plus : exponent_sign [43] false
| exp_minus : exponent_sign [45] true.

Inductive exponent : str -> Z -> str -> Prop :=
| no_exponent l : starts_not is_e l -> exponent l 0 l
| some_exponent x sg n l ds r e : is_e x = true -> c_disable_exponent c = false -> exponent_sign sg n ->
    span is_digit l ds r -> ds <> [] -> e = (if n then - dval ds else dval ds) -> -32768 <= e <= 32767 ->
    exponent (x :: sg ++ l) e r.

Inductive unit_delimiter : str -> str -> Prop :=
| no_unit_delimiter l : c_allow_time_unit_delimiter c = false -> unit_delimiter l l
| some_unit_delimiter l ds r : c_allow_time_unit_delimiter c = true -> span (c_inner_delimiter c) l ds r ->
    (ds = [] \/ r <> []) -> unit_delimiter l r.

(** a number: digits W, fraction digits F (at least one digit in total), exponent x *)
Definition number (l W F : str) (x : Z) (r : str) : Prop :=
  exists l1 l2 l3, span is_digit l W l1 /\ fraction l1 F l2 /\ exponent l2 x l3 /\ unit_delimiter l3 r /\ W ++ F <> [].

(** neither a number nor infinity *)
Definition word (l : str) : Prop :=
  starts_not is_digit l /\ starts_not is_dot l /\
  (c_disable_infinity c = false -> ~ exists r, word_prefix (%"inf") l r).

(** ** Single durations *)

(** the whole text is a time unit, or a time unit followed by `ago` *)
Inductive single_unit : str -> time_unit -> multiplier -> Prop :=
| su_plain l u m : c_allow_ago c = false -> u_get tu l = Some (u, m) -> single_unit l u m
| su_no_ago l u m : c_allow_ago c = true -> l <> [] -> until (c_inner_delimiter c) l l [] ->
    u_get tu l = Some (u, m) -> single_unit l u m
| su_ago l w l1 ds a u m : c_allow_ago c = true -> until (c_inner_delimiter c) l w l1 -> w <> [] ->
    u_get tu w = Some (u, m) -> span (c_inner_delimiter c) l1 ds a -> str_eq_nocase a (%"ago") = true ->
    single_unit l u (mul_saturating_neg m).

(** the text starts like a time unit, so that it is not tried as a numeral any more *)
Inductive single_unit_like : str -> Prop :=
| sul_plain l : c_allow_ago c = false -> u_get tu l <> None -> single_unit_like l
| sul_no_ago l : c_allow_ago c = true -> l <> [] -> until (c_inner_delimiter c) l l [] -> u_get tu l <> None -> single_unit_like l
| sul_ago l w l1 ds a r : c_allow_ago c = true -> until (c_inner_delimiter c) l w l1 -> w <> [] -> u_get tu w <> None ->
    span (c_inner_delimiter c) l1 ds a -> word_prefix (%"ago") a r -> single_unit_like l.

Definition single_keyword_is (l : str) (u : time_unit) (m : multiplier) : Prop :=
  exists k, kw = Some k /\ u_get k l = Some (u, m).

(** a numeral followed by delimiters and something else *)
Definition numeral_prefix (l : str) (n : multiplier) (r : str) : Prop :=
  exists f w l1 ds, nums = Some f /\ until (c_inner_delimiter c) l w l1 /\ w <> [] /\ f w = Some n /\
    span (c_inner_delimiter c) l1 ds r /\ ds <> [] /\ r <> [].

Inductive single_duration : str -> duration -> Prop :=
| sd_number s n l W F x : signed s n l -> number l W F x [] ->
    single_duration s (number_value n W F x (c_default_unit c) default_multiplier)
| sd_number_unit s n l W F x r u m : signed s n l -> number l W F x r -> r <> [] -> u_is_empty tu = false ->
    single_unit r u m -> single_duration s (number_value n W F x u m)
| sd_infinity s n l : signed s n l -> c_disable_infinity c = false ->
    (str_eq_nocase l (%"inf") = true \/ str_eq_nocase l (%"infinity") = true) ->
    single_duration s (infinity_value n)
| sd_keyword s n l u m : signed s n l -> word l -> single_keyword_is l u m ->
    single_duration s (unit_value n u m)
| sd_unit s n l u m : signed s n l -> word l -> (forall u m, ~ single_keyword_is l u m) ->
    c_number_is_optional c = true -> single_unit l u m ->
    single_duration s (unit_value n u m)
| sd_numeral s n l num r u m : signed s n l -> word l -> (forall u m, ~ single_keyword_is l u m) ->
    (c_number_is_optional c = true -> ~ single_unit_like l) ->
    numeral_prefix l num r -> single_unit r u m ->
    single_duration s (numeral_value n num u m).

(** ** Multiple durations *)

(** what ends a keyword, and what ends a time unit *)
Definition keyword_end (x : byte) : bool := c_outer_delimiter c x || starts_duration x.
Definition unit_end (x : byte) : bool :=
  keyword_end x || (c_allow_ago c && c_inner_delimiter c x).

Definition conjunctions : list str := match c_conjunctions c with Some l => l | None => [] end.

(** delimiters, and the first of the conjunctions which matches, in front of another component *)
Inductive connection : str -> str -> Prop :=
| con_delimiter l ds r : span (c_outer_delimiter c) l ds r -> ds <> [] -> r <> [] ->
    (forall w, In w conjunctions -> ~ exists r', word_prefix w r r') -> connection l r
| con_word l ds y ws1 w ws2 z r : span (c_outer_delimiter c) l ds y -> ds <> [] -> y <> [] ->
    conjunctions = ws1 ++ w :: ws2 -> (forall v, In v ws1 -> ~ exists r', word_prefix v y r') ->
    word_prefix w y z ->
    (starts_not (c_outer_delimiter c) z /\ starts_with starts_duration z /\ r = z \/
     exists ds2, span (c_outer_delimiter c) z ds2 r /\ ds2 <> [] /\ r <> []) -> connection l r.

(** from the end of one component to the start of the next one (or the end of the input) *)
Inductive next_component : str -> str -> Prop :=
| nc_adjacent l : starts_not (c_outer_delimiter c) l -> next_component l l
| nc_connection l r : connection l r -> next_component l r.

(** `ago` after a time unit *)
Definition ago (l r : str) : Prop :=
  c_allow_ago c = true /\ exists ds a, span (c_inner_delimiter c) l ds a /\ ds <> [] /\
    word_prefix (%"ago") a r /\ (r = [] \/ starts_with keyword_end r).

Inductive multi_unit : str -> time_unit -> multiplier -> str -> Prop :=
| mu_plain l w l1 u m r : until unit_end l w l1 -> w <> [] -> u_get tu w = Some (u, m) ->
    (forall r', ~ ago l1 r') ->
    (c_allow_ago c = true -> ~ (l1 <> [] /\ span (c_inner_delimiter c) l1 l1 [])) ->
    next_component l1 r -> multi_unit l u m r
| mu_ago l w l1 l2 u m r : until unit_end l w l1 -> w <> [] -> u_get tu w = Some (u, m) ->
    ago l1 l2 -> next_component l2 r -> multi_unit l u (mul_saturating_neg m) r.

(** the text starts with the identifier of a time unit *)
Definition multi_unit_like (l : str) : Prop :=
  exists w l1, until unit_end l w l1 /\ w <> [] /\ u_get tu w <> None.

Definition multi_keyword_is (l : str) (u : time_unit) (m : multiplier) (r : str) : Prop :=
  exists k w, kw = Some k /\ until keyword_end l w r /\ w <> [] /\ u_get k w = Some (u, m).

Definition ends_or_delimited (l : str) : Prop := l = [] \/ starts_with (c_outer_delimiter c) l.

Inductive component : str -> duration -> str -> Prop :=
| co_number s n l W F x r l1 : signed s n l -> number l W F x l1 ->
    (u_is_empty tu = true \/ ~ multi_unit_like l1) -> next_component l1 r ->
    component s (number_value n W F x (c_default_unit c) default_multiplier) r
| co_number_unit s n l W F x l1 u m r : signed s n l -> number l W F x l1 -> u_is_empty tu = false ->
    multi_unit l1 u m r -> component s (number_value n W F x u m) r
| co_inf s n l l1 r : signed s n l -> c_disable_infinity c = false -> word_prefix (%"inf") l l1 ->
    ends_or_delimited l1 -> next_component l1 r -> component s (infinity_value n) r
| co_infinity s n l l0 l1 r : signed s n l -> c_disable_infinity c = false -> word_prefix (%"inf") l l0 ->
    ~ ends_or_delimited l0 -> word_prefix (%"inity") l0 l1 -> ends_or_delimited l1 -> next_component l1 r ->
    component s (infinity_value n) r
| co_keyword s n l u m l1 r : signed s n l -> word l -> multi_keyword_is l u m l1 -> next_component l1 r ->
    component s (unit_value n u m) r
| co_unit s n l u m r : signed s n l -> word l -> (forall u m r, ~ multi_keyword_is l u m r) ->
    c_number_is_optional c = true -> multi_unit l u m r -> component s (unit_value n u m) r
| co_numeral s n l num l1 u m r : signed s n l -> word l -> (forall u m r, ~ multi_keyword_is l u m r) ->
    (c_number_is_optional c = true -> ~ multi_unit_like l) ->
    numeral_prefix l num l1 -> multi_unit l1 u m r -> component s (numeral_value n num u m) r.

(** the whole input is a non-empty sequence of components *)
Inductive components : str -> list duration -> Prop :=
| cs_last s d : component s d [] -> components s [d]
| cs_more s d r ds : component s d r -> r <> [] -> components r ds -> components s (d :: ds).
End Grammar.

(** negative durations must be allowed *)
Definition sign_allowed (c : config) (d : duration) : Prop := c_allow_negative c = true \/ is_negative d = false.
(** the saturating sum, from left to right *)
Definition saturating_sum (ds : list duration) : Z := fold_left (fun a d => clamp_nanos (a + nanos d)) ds 0.
