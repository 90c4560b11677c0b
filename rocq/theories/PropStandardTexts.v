(** * Properties C84, C95, C97: exactly the texts which the standard parser reads *)
From Verif Require Import Prelude Util Time Config Bytes Repr Parse SpecTime SpecNum SpecValue SpecParse SpecGrammar SpecSpelling SpecTexts SpecExamples SpecDebug
  Utf8Proofs Standard StandardProofs DelimProofs PropParse PropStandard PropSettings PropTexts PropPrefix Misc Examples ExamplesMore.

Lemma unit_part_ext c t t' q u m : (forall id, u_get t id = u_get t' id) -> unit_part c t q u m -> unit_part c t' q u m.
Proof. intros H [id u0 m0 E|id u0 m0 ds a E A N D G]; rewrite H in E; [now constructor|now constructor]. Qed.
Lemma duration_text_ext c t t' s d : (forall id, u_get t id = u_get t' id) -> duration_text c t None None s d -> duration_text c t' None None s d.
Proof.
  intros H [sg n q W F x H1 H2|sg n q W F x ds r u m H1 H2 H3 H4 H5|sg n v H1 H2 H3|sg n k id u m H1 H2 H3|sg n q u m H1 H2 H3|sg n f id num ds q u m H1 H2 H3 H4 H5 H6]; try discriminate.
  - now apply dt_number.
  - apply dt_number_unit; auto. now apply (unit_part_ext c t).
  - now apply dt_infinity.
  - apply dt_unit; auto. now apply (unit_part_ext c t).
Qed.

(** the standard parser, with any of the time units and any settings for single durations *)
Theorem C84_standard : forall l ss table s d, let p := fold_left dp_set ss (dp_with_time_units l) in let c := dp_config p in
  config_ok c -> c_allow_multiple c = false -> utf8 s = true -> default_table l table ->
  (forall x, c_inner_delimiter c x = true -> ~ 48 <= x <= 57 /\ x <> 46 /\ x <> 43 /\ x <> 45 /\ ~ 65 <= x <= 90 /\ ~ 97 <= x <= 122) ->
  dp_parse p s = Ok d <-> duration_text c table None None s d /\ sign_allowed c d.
Proof.
  intros l ss table s d p c. subst c. unfold p. rewrite std_fold. unfold dp_parse. cbn [dp_config dp_units]. generalize (fold_left dp_set_config ss config_new). intros c HC Hm U T HD.
  rewrite (C84_written_texts c (std_units (units_with l)) None None s d (std_set_env l c HC) (plain_standard l c HC HD) Hm U).
  destruct (default_table_ext l table T) as [T1 _]. split; intros [H A]; (split; [|exact A]).
  - exact (duration_text_ext c _ _ s d T1 H).
  - refine (duration_text_ext c _ _ s d _ H). intros id. now rewrite T1.
Qed.
Print Assumptions C84_standard.
(** in particular no text is read in two ways, and the value does not depend on the units which are not used *)
Example C84_standard_example : let p := fold_left dp_set [Set_allow_ago true; Set_number_is_optional true] (dp_with_time_units [Hour; Minute]) in
  config_ok (dp_config p) /\ dp_parse p (%"h AGO") = Ok (Dur true (Std 3600 0)) /\ dp_parse p (%"1.5e1h") = Ok (Dur false (Std 54000 0)) /\ exists e, dp_parse p (%"1s") = Err e.
Proof.
  cbv zeta. split; [split; [exact ExEnv.ws_ascii|]; split; [exact ExEnv.ws_ascii|discriminate]|]. split; [vm_compute; reflexivity|]. split; [vm_compute; reflexivity|]. eexists. vm_compute. reflexivity.
Qed.

(** ** the default parser and the parser of the example convert *)
Definition default_units : list time_unit := [NanoSecond; MicroSecond; MilliSecond; Second; Minute; Hour; Day; Week].
Definition spelled (negative : bool) (l : list time_unit) : duration_parser :=
  fold_left dp_set [Set_inner_delimiter (one_of [32; 9; 10; 12; 13]); Set_outer_delimiter (one_of [32; 9; 10; 12; 13]); Set_allow_negative negative] (dp_with_time_units l).
Lemma white_same x : is_ascii_whitespace x = one_of [32; 9; 10; 12; 13] x.
Proof. unfold is_ascii_whitespace, one_of. cbn [existsb]. lia. Qed.
Lemma default_spelled s : dp_parse dp_new s = dp_parse (spelled false default_units) s.
Proof.
  unfold dp_parse. assert (E : dp_units dp_new = dp_units (spelled false default_units)) by (vm_compute; reflexivity). rewrite E. apply parse_same_settings.
  repeat (split; [first [reflexivity|exact white_same]|]). reflexivity.
Qed.
Lemma convert_spelled s : dp_parse convert_parser s = dp_parse (spelled true (default_units ++ [Month; Year])) s.
Proof.
  unfold dp_parse. assert (E : dp_units convert_parser = dp_units (spelled true (default_units ++ [Month; Year]))) by (vm_compute; reflexivity). rewrite E. apply parse_same_settings.
  repeat (split; [first [reflexivity|exact white_same]|]). reflexivity.
Qed.
Lemma look_up_default t l : (forall id u m, look_up t id = Some (u, m) <-> In u l /\ id = default_identifier u /\ m = Mul 1 0) -> (t = [] <-> l = []) -> default_table l (table_words t).
Proof. intros H E. split; [exact H|]. cbn. rewrite <- E. destruct t; split; congruence. Qed.
Lemma words_look (t : word_table) (l : list time_unit) : t = map (fun u => (u, Mul 1 0, [default_identifier u])) l ->
  forall id u m, look_up t id = Some (u, m) <-> In u l /\ id = default_identifier u /\ m = Mul 1 0.
Proof.
  intros -> id u m. unfold look_up. induction l as [|v l IH]; cbn [map find].
  - split; [discriminate|]. intros ([] & _).
  - cbn [snd existsb]. rewrite orb_false_r. destruct (str_eqb (default_identifier v) id) eqn:E.
    + apply str_eqb_iff in E. cbn [fst]. split.
      * intros [= <- <-]. split; [now left|]. split; [now symmetry|reflexivity].
      * intros (_ & -> & ->). f_equal. f_equal. destruct u, v; try reflexivity; discriminate E.
    + rewrite IH. split; intros (I & Q & M); (split; [|auto]).
      * now right.
      * destruct I as [<-|I]; [|exact I]. rewrite Q in E. rewrite (proj2 (str_eqb_iff _ _) eq_refl) in E. discriminate E.
Qed.
Lemma spelled_texts negative t l s d : utf8 s = true -> t = map (fun u => (u, Mul 1 0, [default_identifier u])) l ->
  dp_parse (spelled negative l) s = Ok d <-> duration_text (default_settings negative) (table_words t) None None s d /\ sign_allowed (default_settings negative) d.
Proof.
  intros U E. assert (C : dp_config (spelled negative l) = default_settings negative) by reflexivity. unfold spelled in *.
  rewrite (C84_standard l _ (table_words t) s d); [rewrite C; reflexivity| |rewrite C; reflexivity|exact U| |].
  - rewrite C. assert (W : ascii_delim (one_of [32; 9; 10; 12; 13])) by (intros x; unfold one_of; cbn [existsb]; lia). split; [exact W|]. split; [exact W|discriminate].
  - apply look_up_default; [now apply words_look|]. subst t. destruct l; split; (reflexivity || discriminate).
  - rewrite C. intros x. change (one_of [32; 9; 10; 12; 13] x = true -> ~ 48 <= x <= 57 /\ x <> 46 /\ x <> 43 /\ x <> 45 /\ ~ 65 <= x <= 90 /\ ~ 97 <= x <= 122). unfold one_of. cbn [existsb]. lia.
Qed.
(** what clap_derive and clap_builder read *)
Theorem C95_texts : forall s d, utf8 s = true ->
  dp_parse dp_new s = Ok d <-> duration_text (default_settings false) (table_words default_words_read) None None s d /\ is_negative d = false.
Proof.
  intros s d U. rewrite default_spelled, (spelled_texts false default_words_read default_units s d U eq_refl).
  unfold sign_allowed. cbn [default_settings c_allow_negative c_allow_ago]. intuition congruence.
Qed.
Print Assumptions C95_texts.
(** what convert reads *)
Theorem C97_texts : forall s d, utf8 s = true -> dp_parse convert_parser s = Ok d <-> duration_text (default_settings true) (table_words all_words_read) None None s d.
Proof.
  intros s d U. rewrite convert_spelled, (spelled_texts true all_words_read (default_units ++ [Month; Year]) s d U eq_refl).
  unfold sign_allowed. cbn [default_settings c_allow_negative]. intuition.
Qed.
Print Assumptions C97_texts.
Example C97_texts_example : dp_parse convert_parser (%"-1.5e-1M") = Ok (Dur true (Std 394470 0)) /\ dp_parse convert_parser (%"-INF") = Ok MIN /\ exists e, dp_parse convert_parser (%"1 s") = Err e.
Proof. split; [vm_compute; reflexivity|]. split; [vm_compute; reflexivity|]. eexists. vm_compute. reflexivity. Qed.
