(** * Properties C31-C33: the standard parser *)
From Verif Require Import Prelude Util Time Config Bytes Repr Parse SpecTime SpecNum SpecValue SpecParse SpecGrammar SpecSpelling
  TimeProofs NumProofs ValueProofs RefGrammar SpellProofs SwitchProofs SafeProofs Standard StandardProofs PropNum PropParse ExEnv.

(** C31: the lookup of a parser made from a list of time units *)
Theorem C31_lookup : forall l id u m,
  u_get (std_units (units_with l)) id = Some (u, m) <->
  In u l /\ id = default_identifier u /\ m = default_multiplier.
Proof.
  intros l id u m. cbn [u_get std_units]. rewrite units_with_data, su_get_data, memb_iff. reflexivity.
Qed.
Print Assumptions C31_lookup.

Theorem C31_is_empty : forall l, u_is_empty (std_units (units_with l)) = true <-> l = [].
Proof.
  intros l. cbn [u_is_empty std_units]. rewrite units_with_data, su_is_empty_data. split.
  - intros H. destruct l as [|u l]; [reflexivity|]. specialize (H u).
    assert (memb u (u :: l) = true) by (apply memb_iff; now left). congruence.
  - intros -> u. reflexivity.
Qed.
Print Assumptions C31_is_empty.

(** the other constructors: all time units, the ones up to weeks, none *)
Theorem C31_other_constructors :
  (forall id u m, u_get (std_units (dp_units dp_with_all_time_units)) id = Some (u, m) <->
     id = default_identifier u /\ m = default_multiplier) /\
  (forall id u m, u_get (std_units (dp_units dp_new)) id = Some (u, m) <->
     u <> Month /\ u <> Year /\ id = default_identifier u /\ m = default_multiplier) /\
  (forall id, u_get (std_units (dp_units dp_without_time_units)) id = None) /\
  u_is_empty (std_units (dp_units dp_without_time_units)) = true.
Proof.
  split; [|split; [|split]].
  - intros id u m. change (su_get units_all id = Some (u, m) <-> id = default_identifier u /\ m = default_multiplier).
    rewrite units_all_data, su_get_data. tauto.
  - intros id u m. change (su_get units_default id = Some (u, m) <->
       u <> Month /\ u <> Year /\ id = default_identifier u /\ m = default_multiplier).
    rewrite units_default_data, su_get_data. split.
    + intros (F & -> & ->). repeat split; destruct u; congruence.
    + intros (H1 & H2 & -> & ->). split; [destruct u; congruence|auto].
  - intros id. change (su_get units_new id = None). destruct (su_get units_new id) as [[u m]|] eqn:E; [|reflexivity].
    rewrite units_new_data in E. apply su_get_data in E. destruct E; discriminate.
  - reflexivity.
Qed.
Print Assumptions C31_other_constructors.

(** observable: digits followed by an identifier. In the default configuration they are accepted, with the
    length of the unit, if the identifier is the one of a configured unit ... *)
Lemma std_env l : env_ok config_new (std_units (units_with l)) None None.
Proof.
  apply (std_env_ok (dp_with_time_units l)); [exists (fun u => memb u l); apply units_with_data|exact config_new_ok].
Qed.

Theorem C31_configured_unit : forall l u W, In u l -> digit_string W -> W <> [] ->
  exists d, dp_parse (dp_with_time_units l) (W ++ default_identifier u) = Ok d /\ duration_ok d /\
    nanos d = Z.min max_nanos (floor_scale10 (coef (unit_length u) * dval W) (9 + expo (unit_length u))).
Proof.
  intros l u W Hu HW NW.
  assert (Cp : 0 < coef (unit_length u)) by (destruct u; cbn; lia).
  destruct (C17_number_with_unit config_new (std_units (units_with l)) None None [] false W [] [] [] 0 []
              (default_identifier u) u default_multiplier) as (d & H1 & H2 & H3); auto.
  - apply std_env.
  - constructor.
  - constructor.
  - constructor.
  - rewrite app_nil_r. exact NW.
  - intros H; now elim H.
  - repeat split; auto; try (intros x []); destruct u; reflexivity.
  - destruct u; repeat split; reflexivity.
  - destruct u; discriminate.
  - destruct u; reflexivity.
  - intros x. destruct u; cbn; intros H; repeat destruct H as [<-|H]; try reflexivity; contradiction.
  - destruct (u_is_empty _) eqn:E; [|reflexivity]. apply C31_is_empty in E. subst. contradiction.
  - apply C31_lookup. auto.
  - cbn [coef default_multiplier]. rewrite Z.mul_1_r. replace (coef (unit_length u) <? 0) with false by lia. discriminate.
  - exists d. split; [exact H1|]. split; [exact H2|]. rewrite H3. cbn [coef expo default_multiplier length].
    rewrite Z.mul_1_r. replace (coef (unit_length u) <? 0) with false by lia. cbn [xorb signed_nanos].
    rewrite !app_nil_r. cbn [Z.of_nat]. rewrite C17_exact by (left; destruct u; cbn; lia).
    rewrite Z.abs_eq by lia. f_equal. f_equal. lia.
Qed.
Print Assumptions C31_configured_unit.
Example C31_configured_example : In Month [Month; Minute] /\ dp_parse (dp_with_time_units [Month; Minute]) (%"12M") = Ok (Dur false (Std 31557600 0)).
Proof. split; [now left|reflexivity]. Qed.

(** ... and rejected if it is not *)
Theorem C31_other_identifier : forall l id W, digit_string W -> W <> [] -> id <> [] -> utf8 id = true ->
  ends_number id -> (forall u, In u l -> id <> default_identifier u) ->
  exists e, dp_parse (dp_with_time_units l) (W ++ id) = Err e.
Proof.
  intros l id W HW NW Ni Hi (E1 & E2 & E3) Hu.
  assert (U : utf8 (W ++ id) = true) by now rewrite utf8_digits.
  pose proof (std_env l) as He.
  destruct (C20_never_crashes _ _ _ _ _ He U) as [(d & P & _)|P]; [|exact P]. exfalso.
  apply C22_single_grammar in P; [|exact He|exact U|reflexivity]. destruct P as [P _].
  assert (SN : starts_number config_new false W [] id (W ++ id)).
  { apply (StartsNumber config_new false W [] id [] []); auto using st_none, ft_none; try congruence.
    rewrite app_nil_r. exact NW. }
  destruct (starts_number_signed _ _ _ _ _ _ SN) as (l0 & S & Hd & N).
  destruct (digit_head_not_word config_new l0 Hd) as [Nw Ninf].
  assert (X : forall x l3, exponent config_new id x l3 -> l3 = id).
  { intros x l3 H. inversion H as [|y sg n' l' ds r e Hy]; subst; [reflexivity|]. cbn in E3. congruence. }
  assert (R : forall W' F' x r, number config_new l0 W' F' x r -> r = id).
  { intros W' F' x r H. apply N in H. destruct H as (_ & _ & l3 & H1 & H2). apply X in H1. subst l3.
    inversion H2 as [|l' ds r' Ha]; subst; [reflexivity|discriminate Ha]. }
  inversion P as [s n l1 W' F x H1 H2|s n l1 W' F x r u m H1 H2 H3 H4 H5|s n l1 H1 H2 H3|s n l1 u m H1 H2|s n l1 u m H1 H2|s n l1 num r u m H1 H2];
    subst; destruct (signed_fun _ _ _ _ _ _ H1 S) as [_ ->]; try contradiction.
  - apply R in H2. congruence.
  - apply R in H2. subst r. inversion H5 as [l' u' m' Ha G|l' u' m' Ha|l' w l1' ds a u' m' Ha]; subst; try discriminate Ha.
    apply C31_lookup in G. destruct G as (G1 & G2 & _). exact (Hu _ G1 G2).
  - assert (T : word_prefix (%"inf") l0 (skipn 3 l0)).
    { apply word_prefix_iff. split; [|reflexivity]. unfold BytesProofs.starts_nocase. cbn [length bytes_of].
      destruct H3 as [H3|H3]; destruct l0 as [|a [|b [|c0 l0]]]; cbn in H3 |- *; rewrite ?andb_false_r in H3; try discriminate H3;
        repeat (apply andb_true_iff in H3; destruct H3 as [? H3]); repeat (apply andb_true_iff; split; auto). }
    exact (Ninf _ T).
Qed.
Print Assumptions C31_other_identifier.
Example C31_other_example : ends_number (%"ns") /\ (forall u, In u [Month; Minute] -> %"ns" <> default_identifier u) /\
  exists e, dp_parse (dp_with_time_units [Month; Minute]) (%"12ns") = Err e.
Proof. split; [repeat split|]. split; [intros u [<-|[<-|[]]]; discriminate|]. eexists. reflexivity. Qed.

(** get_current_time_units returns exactly the configured units *)
Theorem C31_current_time_units : forall l u,
  In u (dp_get_current_time_units (dp_with_time_units l)) <-> In u l.
Proof.
  intros l u. unfold dp_get_current_time_units. cbn [dp_units dp_with_time_units].
  now rewrite units_with_data, get_time_units_data, memb_iff.
Qed.
Print Assumptions C31_current_time_units.
Example C31_current_example : dp_get_current_time_units (dp_with_time_units [Year; Second; Year]) = [Second; Year].
Proof. reflexivity. Qed.

(** C32: every parser which the builder can make, whatever is called on it *)
Theorem C32_parse_never_crashes : forall b ss s,
  let p := fold_left dp_set ss (dpb_build b) in
  config_ok (dp_config p) -> utf8 s = true ->
  (exists d, dp_parse p s = Ok d /\ duration_ok d) \/ (exists e, dp_parse p s = Err e).
Proof.
  intros b ss s p Hc Hs. apply C20_never_crashes; [|exact Hs]. apply std_env_ok; [|exact Hc].
  assert (G : forall ss q, dp_units (fold_left dp_set ss q) = dp_units q).
  { clear. induction ss as [|x ss IH]; intros q; [reflexivity|]. cbn [fold_left]. now rewrite IH. }
  subst p. rewrite G. apply build_data.
Qed.
Print Assumptions C32_parse_never_crashes.

(** if negatives are not allowed the result always converts into a std duration of the same value *)
Theorem C32_conversion_cannot_fail : forall b ss s d,
  let p := fold_left dp_set ss (dpb_build b) in
  config_ok (dp_config p) -> utf8 s = true -> c_allow_negative (dp_config p) = false -> dp_parse p s = Ok d ->
  exists x, try_into_std d = inl x /\ std_ok x /\ std_nanos x = nanos d.
Proof.
  intros b ss s d p Hc Hs Hn E.
  assert (He : env_ok (dp_config p) (std_units (dp_units p)) None None).
  { apply std_env_ok; [|exact Hc].
    assert (G : forall ss q, dp_units (fold_left dp_set ss q) = dp_units q).
    { clear. induction ss as [|x ss IH]; intros q; [reflexivity|]. cbn [fold_left]. now rewrite IH. }
    subst p. rewrite G. apply build_data. }
  destruct (C21_not_negative _ _ _ _ _ _ He Hs Hn E) as [Hg _].
  destruct (C20_never_crashes _ _ _ _ _ He Hs) as [(d' & E' & Hd)|(e & E')]; [|unfold dp_parse in E; congruence].
  unfold dp_parse in E. rewrite E in E'. injection E' as <-.
  exists (inner d). unfold try_into_std, is_negative in *. rewrite Hg, andb_false_r. repeat split; try apply Hd.
  unfold nanos, std_nanos. now rewrite Hg.
Qed.
Print Assumptions C32_conversion_cannot_fail.
Example C32_example : config_ok (dp_config dp_new) /\ c_allow_negative (dp_config dp_new) = false /\
  dp_parse dp_new (%"1.5h") = Ok (Dur false (Std 5400 0)).
Proof. split; [|split; reflexivity]. split; [exact ws_ascii|]. split; [exact ws_ascii|]. discriminate. Qed.

Theorem C32_parse_duration : forall s, utf8 s = true ->
  (exists d x, dp_parse dp_new s = Ok d /\ parse_duration s = Ok x /\ std_ok x /\ std_nanos x = nanos d) \/
  (exists e, dp_parse dp_new s = Err e /\ parse_duration s = Err e).
Proof.
  intros s Hs. unfold parse_duration.
  destruct (C32_parse_never_crashes (DBuilder ChoiceDefault config_new) [] s config_new_ok Hs) as [(d & E & _)|(e & E)];
    cbn [fold_left] in E; change (dpb_build (DBuilder ChoiceDefault config_new)) with dp_new in E.
  - left. destruct (C32_conversion_cannot_fail (DBuilder ChoiceDefault config_new) [] s d config_new_ok Hs eq_refl E) as (x & X1 & X2 & X3).
    exists d, x. rewrite E. cbn [bind]. rewrite X1. auto.
  - right. exists e. rewrite E. auto.
Qed.
Print Assumptions C32_parse_duration.
Example C32_parse_duration_example : parse_duration (%"1.5h") = Ok (Std 5400 0) /\ parse_duration (%"-1s") = Err NegativeNumber.
Proof. split; reflexivity. Qed.

(** C33: the setter corresponding to a call of the builder, and the constructor corresponding to a choice of units *)
Definition setting_of (o : builder_call) : list setting :=
  match o with
  | B_default_time_units | B_all_time_units | B_time_units _ => []
  | B_default_unit u => [Set_default_unit u]
  | B_allow_time_unit_delimiter => [Set_allow_time_unit_delimiter true]
  | B_allow_sign_delimiter => [Set_allow_sign_delimiter true]
  | B_allow_negative => [Set_allow_negative true]
  | B_allow_ago => [Set_allow_ago true]
  | B_disable_exponent => [Set_disable_exponent true]
  | B_disable_fraction => [Set_disable_fraction true]
  | B_disable_infinity => [Set_disable_infinity true]
  | B_number_is_optional => [Set_number_is_optional true]
  | B_parse_multiple cj => [Set_parse_multiple true cj]
  | B_inner_delimiter d => [Set_inner_delimiter d]
  | B_outer_delimiter d => [Set_outer_delimiter d]
  end.
Definition constructor_of (p : duration_parser) (o : builder_call) : duration_parser :=
  match o with
  | B_default_time_units => dp_new
  | B_all_time_units => dp_with_all_time_units
  | B_time_units l => dp_with_time_units l
  | _ => p
  end.

Theorem C33_builder_equals_setters : forall os,
  dpb_build (fold_left dpb_call os dpb_new) =
  fold_left dp_set (flat_map setting_of os) (fold_left constructor_of os dp_without_time_units).
Proof.
  assert (U : forall ss p, fold_left dp_set ss p = DParser (dp_units p) (fold_left dp_set_config ss (dp_config p))).
  { induction ss as [|x ss IH]; intros p; [now destruct p|]. cbn [fold_left]. rewrite IH. reflexivity. }
  assert (K : forall os b, dpb_config (fold_left dpb_call os b) = fold_left dp_set_config (flat_map setting_of os) (dpb_config b)).
  { induction os as [|o os IH]; intros b; [reflexivity|]. cbn [fold_left flat_map]. rewrite IH, fold_left_app.
    f_equal. destruct o; reflexivity. }
  assert (V : forall os b p, dp_units (dpb_build b) = dp_units p -> dp_config p = config_new ->
            dp_units (dpb_build (fold_left dpb_call os b)) = dp_units (fold_left constructor_of os p) /\
            dp_config (fold_left constructor_of os p) = config_new).
  { induction os as [|o os IH]; intros b p H1 H2; [auto|]. cbn [fold_left]. apply IH; [|now destruct o]. destruct b as [[]]; destruct o; cbn in *; auto. }
  intros os. rewrite U. destruct (V os dpb_new dp_without_time_units eq_refl eq_refl) as [V1 V2].
  rewrite V2, <- V1. specialize (K os dpb_new). change (dpb_config dpb_new) with config_new in K. rewrite <- K.
  destruct (fold_left dpb_call os dpb_new) as [[]]; reflexivity.
Qed.
Print Assumptions C33_builder_equals_setters.
