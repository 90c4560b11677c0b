(** * Property C51: which error an input is rejected with *)
From Verif Require Import Prelude Util Time Config Bytes Repr Parse SpecTime SpecNum SpecValue SpecParse SpecGrammar SpecErrors
  RefGrammar SpecSpelling FitProofs ErrorProofs PropParse ExEnv.

(** C51: the kind of the error, its byte position and its message, for single durations *)
Theorem C51_single_errors : forall c tu kw nums s e, env_ok c tu kw nums -> utf8 s = true -> c_allow_multiple c = false ->
  parse c s tu kw nums = Err e <-> single_error c tu kw nums s e.
Proof. intros c tu kw nums s e He Hs Hm. unfold parse. rewrite Hm. now apply single_errors. Qed.
Print Assumptions C51_single_errors.
Example C51_single_errors_example : let E s e := single_error ex_single ex_units (Some ex_keywords) (Some ex_numerals) (%s) e in
  E "-"%string (Syntax 1 (%"Unexpected end of input. Sign without a number")) /\
  E "- 1.5 weeks"%string (TimeUnitErr 6 (%"Invalid time unit: 'weeks'")) /\
  E "1e-32769s"%string NegativeExponentOverflow /\
  E "half min agog"%string (Syntax 12 (%"Expected end of input but found: 'g'")) /\
  E "infinite"%string (Syntax 7 (%"Error parsing infinity: Invalid character 'e'")).
Proof.
  repeat split; apply C51_single_errors; try exact ex_env_single; reflexivity.
Qed.
(** one of them derived by hand from the rules *)
Example C51_single_errors_rule_example : single_error ex_strict ex_units None None (%"-1.5s") (Syntax 2 (%"No fraction allowed")).
Proof.
  apply s_number with true (%"1.5s").
  - apply with_sign; [reflexivity|reflexivity|reflexivity|discriminate].
  - apply ne_fraction with (%"1") (%".5s").
    + split; [reflexivity|]. split; [each|reflexivity].
    + apply (fe_disabled ex_strict (%"-1.5s") (%"1") (%"5s")). reflexivity.
Qed.

(** ... and for multiple durations: the first component which is wrong decides *)
Theorem C51_multiple_errors : forall c tu kw nums s e, env_ok c tu kw nums -> delims_ok c kw nums -> utf8 s = true -> c_allow_multiple c = true ->
  parse c s tu kw nums = Err e <-> components_error c tu kw nums s s e.
Proof. intros c tu kw nums s e He Hd Hs Hm. unfold parse. rewrite Hm. apply (fit_errors c tu kw nums He Hd Hm); auto. Qed.
Print Assumptions C51_multiple_errors.
Example C51_multiple_errors_example : let E s e := components_error ex_multi ex_units (Some ex_keywords) (Some ex_numerals) (%s) (%s) e in
  E "1s and"%string (Syntax 3 (%"Input may not end with a conjunction but found: 'and'")) /\
  E "1s andy 2s"%string (Syntax 6 (%"A conjunction must be separated by a delimiter, sign or digit but found: 'y'")) /\
  E "1s 2min "%string (Syntax 7 (%"Input may not end with a delimiter")) /\
  E "tomorrow next day"%string (TimeUnitErr 14 (%"Found numeral 'next' without a time unit")) /\
  E "1s infin"%string (Syntax 3 (%"Error parsing infinity: 'infin' is an invalid identifier for infinity")) /\
  E "1s .s 2e"%string (Syntax 3 (%"Either the whole number part or the fraction must be present")).
Proof.
  repeat split; apply C51_multiple_errors; try exact ex_env_multi; try exact ex_delims_multi; reflexivity.
Qed.
(** a rule applied by hand: the first component is fine, the second one is not *)
Example C51_multiple_errors_rule_example :
  components_error config_new ex_units None None (%"1s-") (%"1s-") (Syntax 3 (%"Unexpected end of input. Sign without a number")).
Proof.
  apply c_later with (number_value false (%"1") [] 0 Second (Mul 1 0)) (%"-"); [|right; reflexivity|discriminate|].
  - apply (co_number_unit _ _ _ _ _ false (%"1s-") _ _ _ (%"s-")); try reflexivity.
    + apply unsigned; [reflexivity|discriminate].
    + exists (%"s-"), (%"s-"), (%"s-"). split; [split; [reflexivity|]; split; [each|reflexivity]|]. split; [now apply no_fraction|].
      split; [now apply no_exponent|]. split; [now apply no_unit_delimiter|discriminate].
    + apply (mu_plain _ _ _ (%"s") (%"-")); try reflexivity; try discriminate.
      * split; [reflexivity|]. split; [each|reflexivity].
      * intros r' [H _]. discriminate H.
      * apply nc_adjacent. reflexivity.
  - apply c_wrong. apply m_sign. apply (se_end config_new (%"1s-") 45). reflexivity.
Qed.

(** the rules do not overlap: one error at most, and none for an accepted input *)
Theorem C51_one_error : forall c tu kw nums s e1 e2, env_ok c tu kw nums -> utf8 s = true ->
  (single_error c tu kw nums s e1 -> single_error c tu kw nums s e2 -> e1 = e2) /\
  ((forall x, c_inner_delimiter c x = true -> keyword_end c x = true) ->
   components_error c tu kw nums s s e1 -> components_error c tu kw nums s s e2 -> e1 = e2).
Proof.
  intros c tu kw nums s e1 e2 He Hs. split.
  - intros H1 H2. apply single_errors in H1; auto. apply single_errors in H2; auto. congruence.
  - intros Hd H1 H2. apply multiple_errors in H1; auto. apply multiple_errors in H2; auto. congruence.
Qed.
Print Assumptions C51_one_error.
Example C51_one_error_example : forall e, single_error ex_single ex_units (Some ex_keywords) (Some ex_numerals) (%"-") e ->
  e = Syntax 1 (%"Unexpected end of input. Sign without a number").
Proof.
  intros e H. refine (proj1 (C51_one_error _ _ _ _ (%"-") e _ ex_env_single eq_refl) H _). apply C51_single_errors_example.
Qed.

(** ... and together with the grammar they cover every input *)
Theorem C51_grammar_or_error : forall c tu kw nums s, env_ok c tu kw nums -> delims_ok c kw nums -> utf8 s = true ->
  (c_allow_multiple c = false ->
     (exists d, single_duration c tu kw nums s d /\ sign_allowed c d) \/ (exists e, single_error c tu kw nums s e)) /\
  (c_allow_multiple c = true ->
     (exists ds, components c tu kw nums s ds /\ forall d, In d ds -> sign_allowed c d) \/
     (exists e, components_error c tu kw nums s s e)).
Proof.
  intros c tu kw nums s He Hd Hs. destruct (C20_never_crashes c tu kw nums s He Hs) as [(d & H & _)|(e & H)]; split; intros Hm.
  - left. exists d. now apply C22_single_grammar.
  - left. destruct (C23_multiple_sound c tu kw nums s d He Hd Hs Hm H) as (ds & H1 & H2 & _). now exists ds.
  - right. exists e. now apply C51_single_errors.
  - right. exists e. now apply C51_multiple_errors.
Qed.
Print Assumptions C51_grammar_or_error.
Example C51_grammar_or_error_example :
  (exists d, single_duration ex_single ex_units None None (%"1.5 min ago") d /\ sign_allowed ex_single d) \/
  (exists e, single_error ex_single ex_units None None (%"1.5 min ago") e).
Proof. apply (C51_grammar_or_error ex_single); try reflexivity; [apply ex_env; auto|now apply ex_delims]. Qed.
