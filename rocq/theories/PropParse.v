(** * Properties C20-C30: the parser *)
From Verif Require Import Prelude Util Time Config Bytes Repr Parse SpecTime SpecNum SpecValue SpecParse SpecGrammar SpecSpelling FitProofs
  TimeProofs NumProofs ReprProofs Utf8Proofs BytesProofs SafeProofs RefParse RefProofs RefSingle RefMulti RefGrammar
  ValueProofs SpellProofs SwitchProofs ExpProofs ExEnv.

(** C20: never a panic, an overflow, an index out of bounds, invalid UTF-8 or an endless loop: all of them are [Crash] *)
Theorem C20_never_crashes : forall c tu kw nums s, env_ok c tu kw nums -> utf8 s = true ->
  (exists d, parse c s tu kw nums = Ok d /\ duration_ok d) \/ (exists e, parse c s tu kw nums = Err e).
Proof.
  intros c tu kw nums s He Hs. pose proof (hoare_parse c tu kw nums s He Hs) as H.
  destruct (parse c s tu kw nums) as [d|e|x]; [|right; now exists e|contradiction].
  left. exists d. split; [reflexivity|apply H].
Qed.
Print Assumptions C20_never_crashes.
Example C20_example : let f s := parse ex_multi s ex_units (Some ex_keywords) (Some ex_numerals) in
  f (%"next y ago and -1.5e+3ms tomorrow") = Ok (Dur true (Std 31471201 500000000)) /\
  f (%"1s and and 2s") = Err (InvalidInput (%"and 2s")) /\ utf8 [49; 194; 181; 115] = true /\
  exists e, f [49; 194; 181; 115] = Err e.
Proof. split; [reflexivity|]. split; [reflexivity|]. split; [reflexivity|]. eexists. reflexivity. Qed.

(** C21 *)
Theorem C21_not_negative : forall c tu kw nums s d, env_ok c tu kw nums -> utf8 s = true ->
  c_allow_negative c = false -> parse c s tu kw nums = Ok d -> is_negative d = false /\ 0 <= nanos d.
Proof.
  intros c tu kw nums s d He Hs Hn E. pose proof (hoare_parse c tu kw nums s He Hs) as H. rewrite E in H.
  destruct H as [[H1 H2] H]. specialize (H Hn). split; [exact H|].
  unfold nanos, is_negative in *. rewrite H. unfold is_u64, inb in *. lia.
Qed.
Print Assumptions C21_not_negative.
Example C21_example : c_allow_negative config_new = false /\
  parse config_new (%"1.5s") ex_units None None = Ok (Dur false (Std 1 500000000)) /\
  parse config_new (%"-1.5s") ex_units None None = Err NegativeNumber /\ parse config_new (%"1back") ex_units None None = Err NegativeNumber.
Proof. repeat split. Qed.

(** C22: a single duration is accepted if and only if it is in the grammar and its sign is allowed *)
Theorem C22_single_grammar : forall c tu kw nums s d, env_ok c tu kw nums -> utf8 s = true -> c_allow_multiple c = false ->
  parse c s tu kw nums = Ok d <-> single_duration c tu kw nums s d /\ sign_allowed c d.
Proof. intros c tu kw nums s d He Hs Hm. unfold parse. rewrite Hm. now apply parse_single_grammar. Qed.
Print Assumptions C22_single_grammar.
Example C22_example : c_allow_multiple ex_single = false /\
  single_duration ex_single ex_units (Some ex_keywords) (Some ex_numerals) (%"- half back ago") (Dur true (Std 5400 0)) /\
  sign_allowed ex_single (Dur true (Std 5400 0)) /\
  ~ single_duration ex_single ex_units (Some ex_keywords) (Some ex_numerals) (%"1s 2s") (Dur false (Std 3 0)).
Proof.
  split; [reflexivity|]. split.
  { apply (C22_single_grammar ex_single ex_units (Some ex_keywords) (Some ex_numerals) (%"- half back ago") _ ex_env_single); reflexivity. }
  split; [now left|]. intros H.
  assert (P : parse ex_single (%"1s 2s") ex_units (Some ex_keywords) (Some ex_numerals) = Ok (Dur false (Std 3 0))).
  { apply C22_single_grammar; [exact ex_env_single|reflexivity|reflexivity|]. split; [exact H|now left]. }
  discriminate P.
Qed.

Theorem C22_meaning_is_unique : forall c tu kw nums s d1 d2, env_ok c tu kw nums -> utf8 s = true ->
  single_duration c tu kw nums s d1 -> single_duration c tu kw nums s d2 -> d1 = d2.
Proof.
  intros c tu kw nums s d1 d2 He Hs H1 H2.
  assert (F : f_template c nums (rsingle c tu kw) s = Some (d1, [])) by (apply f_single_iff; auto).
  assert (G : f_template c nums (rsingle c tu kw) s = Some (d2, [])) by (apply f_single_iff; auto).
  congruence.
Qed.
Print Assumptions C22_meaning_is_unique.
(** built by hand from the rules of the grammar *)
Example C22_meaning_example : single_duration ex_single ex_units None None (%"1.5 min ago") (number_value false (%"1") (%"5") 0 Minute (Mul (-1) 0)).
Proof.
  apply (sd_number_unit _ _ _ _ _ false (%"1.5 min ago") (%"1") (%"5") 0 (%"min ago")); try reflexivity; try discriminate.
  - apply unsigned; [reflexivity|discriminate].
  - exists (%".5 min ago"), (%" min ago"), (%" min ago"). split; [|split; [|split; [|split; [|discriminate]]]].
    + split; [reflexivity|]. split; [each|reflexivity].
    + apply some_fraction; [reflexivity|]. split; [reflexivity|]. split; [each|reflexivity].
    + apply no_exponent. reflexivity.
    + apply (some_unit_delimiter _ (%" min ago") (%" ")); [reflexivity| |right; discriminate]. split; [reflexivity|]. split; [each|reflexivity].
  - apply (su_ago _ _ (%"min ago") (%"min") (%" ago") (%" ") (%"ago") Minute (Mul 1 0)); try reflexivity; try discriminate.
    + split; [reflexivity|]. split; [each|reflexivity].
    + split; [reflexivity|]. split; [each|reflexivity].
Qed.

(** C23 *)
Theorem C23_multiple_sound : forall c tu kw nums s D, env_ok c tu kw nums -> delims_ok c kw nums -> utf8 s = true ->
  c_allow_multiple c = true -> parse c s tu kw nums = Ok D ->
  exists ds, components c tu kw nums s ds /\ (forall d, In d ds -> sign_allowed c d) /\
    duration_ok D /\ nanos D = saturating_sum ds.
Proof.
  intros c tu kw nums s D He Hd Hs Hm E. unfold parse in E. rewrite Hm in E.
  destruct (fit_grammar c tu kw nums He Hd Hm s D Hs E) as (H1 & ds & H2 & H3 & H4). now exists ds.
Qed.
Print Assumptions C23_multiple_sound.
Example C23_multiple_sound_example : exists ds,
  components ex_multi ex_units (Some ex_keywords) (Some ex_numerals) (%"next y ago and -1.5e+3ms tomorrow") ds /\
  saturating_sum ds = -31471201500000000.
Proof.
  destruct (C23_multiple_sound ex_multi ex_units (Some ex_keywords) (Some ex_numerals) (%"next y ago and -1.5e+3ms tomorrow") _
    ex_env_multi ex_delims_multi eq_refl eq_refl (eq_refl : _ = Ok (Dur true (Std 31471201 500000000)))) as (ds & H1 & _ & _ & H2).
  exists ds. split; [exact H1|]. now rewrite <- H2.
Qed.

Theorem C23_multiple_complete : forall c tu kw nums s ds, env_ok c tu kw nums -> delims_ok c kw nums -> utf8 s = true ->
  c_allow_multiple c = true -> components c tu kw nums s ds -> (forall d, In d ds -> sign_allowed c d) ->
  exists D, parse c s tu kw nums = Ok D /\ duration_ok D /\ nanos D = saturating_sum ds.
Proof. intros c tu kw nums s ds He Hd Hs Hm H1 H2. unfold parse. rewrite Hm. apply (fit_complete c tu kw nums He Hd Hm); auto. Qed.
Print Assumptions C23_multiple_complete.
(** two components without a delimiter between them, built by hand *)
Example C23_multiple_complete_example :
  components config_new ex_units None None (%"1s2") [number_value false (%"1") [] 0 Second (Mul 1 0); number_value false (%"2") [] 0 (c_default_unit config_new) default_multiplier].
Proof.
  apply (cs_more _ _ _ _ _ _ (%"2")); [|discriminate|apply cs_last].
  - apply (co_number_unit _ _ _ _ _ false (%"1s2") _ _ _ (%"s2")); try reflexivity.
    + apply unsigned; [reflexivity|discriminate].
    + exists (%"s2"), (%"s2"), (%"s2"). split; [split; [reflexivity|]; split; [each|reflexivity]|]. split; [now apply no_fraction|].
      split; [now apply no_exponent|]. split; [now apply no_unit_delimiter|discriminate].
    + apply (mu_plain _ _ _ (%"s") (%"2")); try reflexivity; try discriminate.
      * split; [reflexivity|]. split; [each|reflexivity].
      * intros r' [H _]. discriminate H.
      * apply nc_adjacent. reflexivity.
  - apply (co_number _ _ _ _ _ false (%"2") _ _ _ _ []).
    + apply unsigned; [reflexivity|discriminate].
    + exists [], [], []. split; [split; [reflexivity|]; split; [each|reflexivity]|]. split; [now apply no_fraction|].
      split; [now apply no_exponent|]. split; [now apply no_unit_delimiter|discriminate].
    + right. intros (w & l1 & (E & _) & N & _). symmetry in E. apply app_eq_nil in E. destruct E. contradiction.
    + apply nc_adjacent. exact I.
Qed.

Theorem C23_components_unique : forall c tu kw nums s ds1 ds2,
  components c tu kw nums s ds1 -> components c tu kw nums s ds2 -> ds1 = ds2.
Proof. exact components_unique. Qed.
Print Assumptions C23_components_unique.

(** no gap and no overlap: every component starts where the one before it (with its connection) ended *)
Theorem C23_left_to_right : forall c tu kw nums s d r, component c tu kw nums s d r -> exists a, s = a ++ r.
Proof. intros c tu kw nums s d r H. exact (component_suffix c tu kw nums s d r H). Qed.
Print Assumptions C23_left_to_right.

(** C24 *)
Theorem C24_error_positions : forall c tu kw nums s p msg, env_ok c tu kw nums -> utf8 s = true ->
  parse c s tu kw nums = Err (Syntax p msg) \/ parse c s tu kw nums = Err (TimeUnitErr p msg) ->
  (p <= length s)%nat /\ utf8 (skipn p s) = true.
Proof.
  intros c tu kw nums s p msg He Hs H. pose proof (hoare_parse c tu kw nums s He Hs) as G.
  destruct H as [H|H]; rewrite H in G; exact G.
Qed.
Print Assumptions C24_error_positions.
(** the identifier starts with a character of two bytes *)
Example C24_error_positions_example :
  utf8 [49; 46; 50; 194; 181] = true /\ parse config_new [49; 46; 50; 194; 181] ex_units None None = Err (TimeUnitErr 3 (%"Invalid time unit: '" ++ [194; 181] ++ %"'")).
Proof. split; reflexivity. Qed.

(** InvalidInput carries the unparsed rest of the input *)
Theorem C24_invalid_input : forall c tu kw nums s msg, env_ok c tu kw nums -> utf8 s = true ->
  parse c s tu kw nums = Err (InvalidInput msg) -> exists pre, s = pre ++ msg.
Proof.
  intros c tu kw nums s msg He Hs H. pose proof (hoare_parse c tu kw nums s He Hs) as G. rewrite H in G. exact G.
Qed.
Print Assumptions C24_invalid_input.
Example C24_invalid_input_example : parse ex_multi (%"1s and and 2s") ex_units (Some ex_keywords) (Some ex_numerals) = Err (InvalidInput (%"and 2s")).
Proof. reflexivity. Qed.

(** C25, for single and multiple durations *)
Theorem C25_empty_input : forall c tu kw nums, parse c [] tu kw nums = Err Empty.
Proof. intros c tu kw nums. unfold parse. destruct (c_allow_multiple c); reflexivity. Qed.
Print Assumptions C25_empty_input.
Theorem C25_empty_only : forall c tu kw nums s, env_ok c tu kw nums -> utf8 s = true ->
  parse c s tu kw nums = Err Empty -> s = [].
Proof.
  intros c tu kw nums s He Hs H. pose proof (hoare_parse c tu kw nums s He Hs) as G. rewrite H in G. exact G.
Qed.
Print Assumptions C25_empty_only.

(** C26 *)
Theorem C26_infinity : forall c tu kw nums sg n v,
  env_ok c tu kw nums -> c_allow_multiple c = false -> c_disable_infinity c = false ->
  sign_text sg n -> str_eq_nocase v (%"inf") = true \/ str_eq_nocase v (%"infinity") = true ->
  (sg <> [] -> c_allow_sign_delimiter c = true -> starts_not (c_inner_delimiter c) v) ->
  (n = true -> c_allow_negative c = true) ->
  parse c (sg ++ v) tu kw nums = Ok (if n then MIN else MAX).
Proof. exact single_infinity_text. Qed.
Print Assumptions C26_infinity.
Example C26_infinity_example : parse ex_single (%"-inFiniTY") ex_units None None = Ok MIN.
Proof.
  apply (C26_infinity ex_single ex_units None None (%"-") true (%"inFiniTY")); try reflexivity; [apply ex_env; auto|constructor|now right].
Qed.

Theorem C26_nothing_else_starts_with_inf : forall c tu kw nums s n l r d,
  env_ok c tu kw nums -> c_allow_multiple c = false -> c_disable_infinity c = false -> utf8 s = true ->
  signed c s n l -> word_prefix (%"inf") l r -> parse c s tu kw nums = Ok d ->
  (str_eq_nocase l (%"inf") = true \/ str_eq_nocase l (%"infinity") = true) /\ d = (if n then MIN else MAX).
Proof. exact single_infinity_only. Qed.
Print Assumptions C26_nothing_else_starts_with_inf.
Example C26_nothing_else_example : signed ex_single (%"+inf") false (%"inf") /\ word_prefix (%"inf") (%"inf") [] /\
  parse ex_single (%"+inf") ex_units None None = Ok MAX /\ exists e, parse ex_single (%"+infi") ex_units None None = Err e.
Proof.
  split.
  { apply (with_sign_delimiter _ 43 (%"inf") []); [reflexivity|reflexivity| |discriminate]. split; [reflexivity|]. split; [each|reflexivity]. }
  split; [exists (%"inf"); now split|]. split; [reflexivity|]. eexists. reflexivity.
Qed.

(** C27 (single and multiple durations) *)
Theorem C27_fraction_exponent_only_restrict : forall c tu kw nums s d,
  env_ok c tu kw nums -> delims_ok c kw nums -> utf8 s = true -> parse c s tu kw nums = Ok d ->
  exists d', parse (set_disable_fraction (set_disable_exponent c false) false) s tu kw nums = Ok d' /\
    duration_ok d' /\ nanos d' = nanos d.
Proof. exact parse_relax. Qed.
Print Assumptions C27_fraction_exponent_only_restrict.
Example C27_only_restrict_example : env_ok ex_strict ex_units (Some ex_keywords) (Some ex_numerals) /\ delims_ok ex_strict (Some ex_keywords) (Some ex_numerals) /\
  parse ex_strict (%"10min") ex_units (Some ex_keywords) (Some ex_numerals) = Ok (Dur false (Std 600 0)).
Proof. split; [exact ex_env_strict|]. split; [now apply ex_delims|reflexivity]. Qed.

Theorem C27_infinity_only_restricts : forall c tu kw nums s d,
  env_ok c tu kw nums -> delims_ok c kw nums -> utf8 s = true ->
  (forall a l r, s = a ++ l -> ~ word_prefix (%"inf") l r) -> parse c s tu kw nums = Ok d ->
  exists d', parse (set_disable_infinity c false) s tu kw nums = Ok d' /\ duration_ok d' /\ nanos d' = nanos d.
Proof. exact parse_enable_infinity. Qed.
Print Assumptions C27_infinity_only_restricts.
Example C27_infinity_example : (forall a l r, %"10min" = a ++ l -> ~ word_prefix (%"inf") l r).
Proof.
  intros a l r E. apply not_prefix. change (%"10min") with [49; 48; 109; 105; 110] in E.
  do 6 (destruct a as [|? a]; [cbn [app] in E; subst l; reflexivity|cbn [app] in E; first [discriminate E|injection E as _ E]]).
Qed.

Theorem C27_no_point : forall c tu kw nums sg n W r,
  env_ok c tu kw nums -> delims_ok c kw nums -> c_disable_fraction c = true -> utf8 r = true ->
  sign_text sg n -> digit_string W ->
  (sg <> [] -> c_allow_sign_delimiter c = true -> starts_not (c_inner_delimiter c) (W ++ %"." ++ r)) ->
  forall d, parse c (sg ++ W ++ %"." ++ r) tu kw nums <> Ok d.
Proof. exact parse_point_disabled. Qed.
Print Assumptions C27_no_point.
Example C27_no_point_example : forall d, parse ex_strict (%"+1.5s") ex_units (Some ex_keywords) (Some ex_numerals) <> Ok d.
Proof.
  apply (C27_no_point ex_strict ex_units (Some ex_keywords) (Some ex_numerals) (%"+") false (%"1") (%"5s")); try reflexivity.
  - exact ex_env_strict.
  - now apply ex_delims.
  - constructor.
  - each.
Qed.

Theorem C27_no_exponent : forall c tu kw nums sg n W fr F x r,
  env_ok c tu kw nums -> delims_ok c kw nums -> c_disable_exponent c = true -> utf8 r = true ->
  sign_text sg n -> digit_string W -> fraction_text fr F -> W ++ F <> [] -> x = 101 \/ x = 69 ->
  (sg <> [] -> c_allow_sign_delimiter c = true -> starts_not (c_inner_delimiter c) (W ++ fr)) ->
  forall d, parse c (sg ++ W ++ fr ++ x :: r) tu kw nums <> Ok d.
Proof. exact parse_exponent_disabled. Qed.
Print Assumptions C27_no_exponent.
Example C27_no_exponent_example : forall d, parse ex_strict (%"1E5s") ex_units (Some ex_keywords) (Some ex_numerals) <> Ok d.
Proof.
  refine (C27_no_exponent ex_strict ex_units (Some ex_keywords) (Some ex_numerals) [] false (%"1") [] [] 69 (%"5s")
    ex_env_strict (ex_delims ex_strict eq_refl) eq_refl eq_refl st_none _ ft_none _ (or_intror eq_refl) _); [each|discriminate|].
  intros H. now destruct H.
Qed.

(** C28: the value of an exponent in range is part of C17; out of range it is an overflow error *)
Theorem C28_exponent_overflow : forall c tu kw nums s n W F (en : bool) x sg ds rest,
  env_ok c tu kw nums -> utf8 rest = true ->
  starts_number c n W F (x :: sg ++ ds ++ rest) s ->
  x = 101 \/ x = 69 -> c_disable_exponent c = false -> sign_text sg en ->
  digit_string ds -> ds <> [] -> starts_not is_digit rest ->
  ~ (-32768 <= (if en then - dval ds else dval ds) <= 32767) ->
  parse c s tu kw nums = Err (if en then NegativeExponentOverflow else PositiveExponentOverflow).
Proof. exact parse_exponent_overflow. Qed.
Print Assumptions C28_exponent_overflow.
Example C28_example : parse ex_multi (%"-1.5e-0000032769 s") ex_units None None = Err NegativeExponentOverflow /\
  parse ex_multi (%"-1.5e32768") ex_units None None = Err PositiveExponentOverflow /\
  starts_number ex_multi true (%"1") (%"5") (%"e-0000032769 s") (%"-1.5e-0000032769 s") /\ ~ (-32768 <= - dval (%"0000032769") <= 32767).
Proof.
  split; [reflexivity|]. split; [reflexivity|]. split; [|vm_compute; intros [H _]; now apply H].
  refine (StartsNumber ex_multi true (%"1") (%"5") (%"e-0000032769 s") (%"-") (%".5") st_minus _ (ft_some (%"5") _) _ _ _ _ _); try each; try discriminate; reflexivity.
Qed.

(** C30: two spellings of the same decimal number (leading zeros, trailing zeros, plus sign), followed by the same rest *)
Theorem C30_equivalent_spellings : forall c tu kw nums s1 s2 n W1 F1 W2 F2 rest d,
  env_ok c tu kw nums -> delims_ok c kw nums -> utf8 rest = true ->
  starts_number c n W1 F1 rest s1 -> starts_number c n W2 F2 rest s2 -> same_number W1 F1 W2 F2 ->
  parse c s1 tu kw nums = Ok d ->
  exists d', parse c s2 tu kw nums = Ok d' /\ duration_ok d' /\ nanos d' = nanos d.
Proof. exact parse_same_number. Qed.
Print Assumptions C30_equivalent_spellings.
Example C30_example : same_number (%"1") (%"5") (%"0001") (%"500000000000000000000000") /\
  starts_number ex_multi false (%"1") (%"5") (%"e2 min") (%"1.5e2 min") /\
  starts_number ex_multi false (%"0001") (%"500000000000000000000000") (%"e2 min") (%"+0001.500000000000000000000000e2 min") /\
  parse ex_multi (%"1.5e2 min") ex_units None None = Ok (Dur false (Std 9000 0)).
Proof.
  split; [reflexivity|]. split; [|split; [|reflexivity]].
  - refine (StartsNumber ex_multi false (%"1") (%"5") (%"e2 min") [] (%".5") st_none _ (ft_some (%"5") _) _ _ _ _ _); try each; try discriminate; reflexivity.
  - refine (StartsNumber ex_multi false (%"0001") (%"500000000000000000000000") (%"e2 min") (%"+") (%".500000000000000000000000")
      st_plus _ (ft_some (%"500000000000000000000000") _) _ _ _ _ _); try each; try discriminate; reflexivity.
Qed.

Theorem C30_zeros_are_the_same_number : forall W F i j,
  same_number W F (repeat 48 i ++ W) (F ++ repeat 48 j).
Proof.
  intros W F i j. unfold same_number.
  replace (dval ((repeat 48 i ++ W) ++ F ++ repeat 48 j)) with (dval (W ++ F) * 10 ^ Z.of_nat j).
  2:{ replace ((repeat 48 i ++ W) ++ F ++ repeat 48 j) with (repeat 48 i ++ (W ++ F) ++ repeat 48 j) by now rewrite <- !app_assoc.
      rewrite (dval_app' (repeat 48 i)), (dval_app' (W ++ F)), !ValueProofs.dval_zeros, repeat_length. lia. }
  rewrite app_length, repeat_length, Nat2Z.inj_add, Z.pow_add_r by lia. ring.
Qed.
Print Assumptions C30_zeros_are_the_same_number.
