(** * Property C29: the look-ahead buffer is unobservable *)
From Verif Require Import Prelude Util Time Config Bytes Repr Parse SpecGrammar SpecSpelling SpecParse Unbuffered BufferProofs
  Standard StandardProofs ExEnv.

(** For every input, configuration and tables, valid or not: same duration, same error with the same position, same panic.
    [delims_ok] concerns only parsers for multiple durations that have keywords or numerals. *)
Theorem C29_buffer_unobservable : forall c s tu kw nums, delims_ok c kw nums ->
  parse c s tu kw nums = nb_parse c s tu kw nums.
Proof. exact parse_unbuffered. Qed.
Print Assumptions C29_buffer_unobservable.

(** in particular if the inner delimiters are also outer delimiters, as in the default configuration *)
Theorem C29_inner_is_outer : forall c s tu kw nums,
  (forall x, c_inner_delimiter c x = true -> c_outer_delimiter c x = true) ->
  parse c s tu kw nums = nb_parse c s tu kw nums.
Proof. intros c s tu kw nums H. apply parse_unbuffered, delims_strict_ok. intros _ x Hx. unfold keyword_end. now rewrite (H x Hx). Qed.
Print Assumptions C29_inner_is_outer.
Example C29_example : (forall x, c_inner_delimiter ex_multi x = true -> c_outer_delimiter ex_multi x = true) /\
  parse ex_multi (%"year ago and 3 min") ex_units (Some ex_keywords) None = nb_parse ex_multi (%"year ago and 3 min") ex_units (Some ex_keywords) None.
Proof. split; [auto|reflexivity]. Qed.

Theorem C29_single : forall c s tu kw nums, c_allow_multiple c = false ->
  parse c s tu kw nums = nb_parse c s tu kw nums.
Proof. intros c s tu kw nums H. apply parse_unbuffered. intros E. congruence. Qed.
Print Assumptions C29_single.

(** and for a parser without keywords and numerals, whatever its delimiters *)
Theorem C29_time_units_only : forall c s tu, parse c s tu None None = nb_parse c s tu None None.
Proof. intros c s tu. apply parse_unbuffered, delims_none_ok. Qed.
Print Assumptions C29_time_units_only.

(** the hypothesis is needed (finding 3 in DESIGN.md): here a space is an inner delimiter only, and the presence of
    an unrelated keyword makes the parser reject "year ago" *)
Definition c29_config : config :=
  set_outer_delimiter (set_inner_delimiter (config_build [CO_parse_multiple None; CO_allow_ago; CO_number_is_optional])
    (fun x => x =? 32)) (fun x => x =? 44).
Definition c29_units : units_like := Units false (fun s => if str_eqb s (%"year") then Some (Year, default_multiplier) else None).
Definition c29_keywords : units_like := Units false (fun s => if str_eqb s (%"now") then Some (Second, Mul 0 0) else None).

Theorem C29_without_hypothesis_refuted : exists c s tu kw d e,
  env_ok c tu (Some kw) None /\ utf8 s = true /\ (forall id u m, u_get kw id = Some (u, m) -> id <> s) /\
  nb_parse c s tu (Some kw) None = Ok d /\ parse c s tu (Some kw) None = Err e /\ parse c s tu None None = Ok d.
Proof.
  exists c29_config, (%"year ago"), c29_units, c29_keywords, (Dur true (Std 31557600 0)).
  eexists. split; [|split; [reflexivity|split; [|split; [vm_compute; reflexivity|split; [vm_compute; reflexivity|vm_compute; reflexivity]]]]].
  - constructor; cbn; try discriminate.
    + intros x. lia.
    + intros x. lia.
    + intros id u m. cbn. destruct (str_eqb id _); [|discriminate]. intros H. injection H as <- <-. apply unit_default_fits.
    + intros k E id u m. injection E as <-. unfold c29_keywords. cbn [u_get]. destruct (str_eqb id _); [|intros H; discriminate H]. intros H. injection H as <- <-.
      split; [split; reflexivity|discriminate].
  - intros id u m H ->. discriminate H.
Qed.
Print Assumptions C29_without_hypothesis_refuted.

(** the same with numerals, if `ago` is not allowed: since the number may be left out, the parser looks for a time unit first, and
    then takes "two year" as the numeral *)
Definition c29_config_numerals : config := set_allow_ago_only c29_config false.
Definition c29_numerals : numbers_like := fun s => if str_eqb s (%"two") then Some (Mul 2 0) else None.
Theorem C29_numerals_refuted : exists c s tu nums d e,
  env_ok c tu None (Some nums) /\ utf8 s = true /\ c_number_is_optional c = true /\
  nb_parse c s tu None (Some nums) = Ok d /\ parse c s tu None (Some nums) = Err e /\
  parse (set_number_is_optional c false) s tu None (Some nums) = Ok d.
Proof.
  exists c29_config_numerals, (%"two year"), c29_units, c29_numerals, (Dur false (Std 63115200 0)).
  eexists. split; [|split; [reflexivity|split; [reflexivity|split; [vm_compute; reflexivity|split; [vm_compute; reflexivity|vm_compute; reflexivity]]]]].
  constructor; cbn; try discriminate.
  - intros x. lia.
  - intros x. lia.
  - intros id u m. cbn. destruct (str_eqb id _); [|discriminate]. intros H. injection H as <- <-. apply unit_default_fits.
  - intros f id n E. injection E as <-. unfold c29_numerals. destruct (str_eqb id _); [|intros H; discriminate H]. intros H. injection H as <-.
    intros id' u m. destruct (str_eqb id' _); [|discriminate]. intros H. injection H as <- <-. split; [|discriminate]. exists (Mul 63115200 0). split; [reflexivity|discriminate].
Qed.
Print Assumptions C29_numerals_refuted.
