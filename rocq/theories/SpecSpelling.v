(** * Spellings of a number, as concrete texts *)
From Verif Require Import Prelude Config SpecNum SpecGrammar.

(** the empty text, `+` or `-` *)
Inductive sign_text : str -> bool -> Prop :=
| st_none : sign_text [] false
| st_plus : sign_text (%"+") false
| st_minus : sign_text (%"-") true.

(** nothing, or a point followed by the digits [F] *)
Inductive fraction_text : str -> str -> Prop :=
| ft_none : fraction_text [] []
| ft_some F : digit_string F -> fraction_text (%"." ++ F) F.

(** nothing, or `e`/`E`, a sign and at least one digit, denoting an exponent which fits 16 bits *)
Inductive exponent_text : str -> Z -> Prop :=
| et_none : exponent_text [] 0
| et_some x sg n ds e : x = 101 \/ x = 69 -> sign_text sg n -> digit_string ds -> ds <> [] ->
    e = (if n then - dval ds else dval ds) -> -32768 <= e <= 32767 ->
    exponent_text (x :: sg ++ ds) e.

(** [rest] neither continues the digits of a number, nor its fraction, nor its exponent *)
Definition ends_number (rest : str) : Prop :=
  starts_not is_digit rest /\ starts_not is_dot rest /\ starts_not is_e rest.

(** [ds] are delimiters between a number and its unit [rest], if they are allowed there *)
Definition unit_gap (c : config) (ds rest : str) : Prop :=
  (forall x, In x ds -> c_inner_delimiter c x = true) /\ starts_not (c_inner_delimiter c) rest /\
  (c_allow_time_unit_delimiter c = false -> ds = []) /\ (ds = [] \/ rest <> []).

(** [s] starts with a sign, the number W.F (the point may be missing if F is empty), followed by [rest], which
    does not continue it. If delimiters are allowed after a sign, the number does not start with a delimiter. *)
Inductive starts_number (c : config) (n : bool) (W F rest : str) : str -> Prop :=
| StartsNumber sg fr :
    sign_text sg n -> digit_string W -> fraction_text fr F -> W ++ F <> [] ->
    (fr <> [] -> c_disable_fraction c = false) ->
    (sg <> [] -> c_allow_sign_delimiter c = true -> starts_not (c_inner_delimiter c) (W ++ fr)) ->
    starts_not is_digit rest -> (fr = [] -> starts_not is_dot rest) ->
    starts_number c n W F rest (sg ++ W ++ fr ++ rest).

(** the decimal numbers W1.F1 and W2.F2 are equal *)
Definition same_number (W1 F1 W2 F2 : str) : Prop :=
  dval (W1 ++ F1) * 10 ^ Z.of_nat (length F2) = dval (W2 ++ F2) * 10 ^ Z.of_nat (length F1).

(** inner delimiters do not occur inside of words: each of them is an outer delimiter, a digit or a sign *)
Definition delims_strict (c : config) : Prop := forall x, c_inner_delimiter c x = true -> keyword_end c x = true.
(** For multiple durations this is needed with keywords if `ago` is allowed, and with numerals if `ago` is not allowed, see
    finding 3 in DESIGN.md. The standard parser and the systemd parser have neither keywords nor numerals, so that this is true
    for every configuration of them *)
Definition delims_ok (c : config) (kw : option units_like) (nums : option numbers_like) : Prop :=
  c_allow_multiple c = true ->
  (kw <> None -> c_allow_ago c = true -> delims_strict c) /\
  (nums <> None -> c_allow_ago c = false -> delims_strict c).
Lemma delims_strict_ok c kw nums : (c_allow_multiple c = true -> delims_strict c) -> delims_ok c kw nums.
Proof. intros H M. split; intros _ _; exact (H M). Qed.
Lemma delims_none_ok c : delims_ok c None None.
Proof. intros _. split; intros H; now destruct H. Qed.

(** the same configuration with fractions and exponents / infinity allowed *)
Definition relax (c : config) : config := set_disable_fraction (set_disable_exponent c false) false.
Definition enable_infinity (c : config) : config := set_disable_infinity c false.
