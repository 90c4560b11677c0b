(** * Properties C33-C36: the custom parser *)
From Verif Require Import Prelude Util Time Config Bytes Repr Parse SpecTime SpecNum SpecValue SpecParse SpecGrammar SpecSpelling
  TimeProofs NumProofs ValueProofs RefGrammar SpellProofs SwitchProofs SafeProofs Standard StandardProofs PropNum PropParse
  Custom SpecCustom CustomProofs ExEnv.

(** ** C34 *)

(** an identifier is found if and only if it was registered, with a unit and multiplier it was registered with *)
Theorem C34_found_iff_registered : forall us id,
  (exists u m, cu_get (cu_with_time_units us) id = Some (u, m)) <-> (exists u m, registered us id u m).
Proof.
  intros us id. pose proof (cu_get_spec us id) as S. split.
  - intros (u & m & E). rewrite E in S. destruct S as (a & b & _ & H & _). apply in_group in H. cbn in H. eauto.
  - intros (u & m & H). destruct (cu_get _ _) as [[u' m']|]; [eauto|]. elim (S (u, m)). now apply in_group.
Qed.
Print Assumptions C34_found_iff_registered.

(** which one, if the identifier was registered more than once: the pair of unit and multiplier introduced first *)
Theorem C34_lookup : forall us id u m,
  cu_get (cu_with_time_units us) id = Some (u, m) <->
  registered us id u m /\
  forall u' m', registered us id u' m' -> (u', m') <> (u, m) -> introduced_before us (u, m) (u', m').
Proof.
  assert (F : forall us id u m, cu_get (cu_with_time_units us) id = Some (u, m) -> registered us id u m /\
     forall u' m', registered us id u' m' -> (u', m') <> (u, m) -> introduced_before us (u, m) (u', m')).
  { intros us id u m E. pose proof (cu_get_spec us id) as S. rewrite E in S. destruct S as (a & b & E1 & H1 & H2).
    split; [now apply in_group in H1|]. intros u' m' H3 N. pose proof (inv_all_units us) as I.
    apply (inv_order _ _ I a _ b); [exact E1|]. rewrite in_app_iff. intros [G|[G|[]]]; [|congruence].
    apply (H2 _ G). now apply in_group. }
  intros us id u m. split; [apply F|]. intros [H1 H2].
  destruct (proj2 (C34_found_iff_registered us id)) as (u0 & m0 & E); [eauto|].
  destruct (F _ _ _ _ E) as [G1 G2]. destruct (pair_dec (u0, m0) (u, m)) as [Y|N]; [congruence|].
  elim N. eapply introduced_asym; [apply G2; auto|apply H2; auto].
Qed.
Print Assumptions C34_lookup.
(** "x" belongs to two pairs; the one introduced first wins *)
Example C34_lookup_example :
  let us := [CTU Second (Mul 1 0) [%"sec"]; CTU Minute (Mul 1 0) [%"x"; %"min"]; CTU Second (Mul 1 0) [%"x"; []]] in
  registered us (%"x") Second (Mul 1 0) /\ registered us (%"x") Minute (Mul 1 0) /\ cu_get (cu_with_time_units us) (%"x") = Some (Second, Mul 1 0) /\
  cu_get (cu_with_time_units us) [] = None.
Proof.
  split; [|split; [|split; reflexivity]]; (split; [discriminate|]).
  - exists (CTU Second (Mul 1 0) [%"x"; []]). split; [now right; right; left|]. split; [reflexivity|now left].
  - exists (CTU Minute (Mul 1 0) [%"x"; %"min"]). split; [now right; left|]. split; [reflexivity|now left].
Qed.

(** an identifier which was registered with a single pair of unit and multiplier has this meaning *)
Theorem C34_unambiguous : forall us id u m, registered us id u m ->
  (forall u' m', registered us id u' m' -> (u', m') = (u, m)) ->
  cu_get (cu_with_time_units us) id = Some (u, m).
Proof. intros us id u m H1 H2. apply C34_lookup. split; [exact H1|]. intros u' m' H3 H4. elim H4. auto. Qed.
Print Assumptions C34_unambiguous.
Example C34_unambiguous_example :
  let us := [CTU Second (Mul 1 0) [%"sec"]; CTU Minute (Mul 1 0) [%"x"; %"min"]; CTU Second (Mul 1 0) [%"x"]] in
  registered us (%"min") Minute (Mul 1 0) /\ (forall u m, registered us (%"min") u m -> (u, m) = (Minute, Mul 1 0)).
Proof.
  cbv zeta. split.
  - split; [discriminate|]. exists (CTU Minute (Mul 1 0) [%"x"; %"min"]). split; [now right; left|]. split; [reflexivity|now right; left].
  - intros u m (_ & t & H1 & H2 & H3). destruct H1 as [<-|[<-|[<-|[]]]].
    + destruct H3 as [H3|[]]. discriminate H3.
    + now injection H2 as <- <-.
    + destruct H3 as [H3|[]]. discriminate H3.
Qed.

(** but "the unit which registered an identifier first wins" is not true in general *)
Theorem C34_first_registration_wins_refuted : exists us1 t us2 id,
  id <> [] /\ In id (ctu_ids t) /\ (forall t', In t' us1 -> ~ In id (ctu_ids t')) /\
  cu_get (cu_with_time_units (us1 ++ t :: us2)) id <> Some (key t).
Proof.
  exists [ctu_with_default Second [%"a"]], (ctu_with_default Minute [%"x"]), [ctu_with_default Second [%"x"]], (%"x").
  split; [discriminate|]. split; [now left|]. split; [|vm_compute; discriminate].
  intros t' [<-|[]] [H|[]]. discriminate.
Qed.
Print Assumptions C34_first_registration_wins_refuted.

Theorem C34_is_empty : forall us, cu_is_empty (cu_with_time_units us) = true <-> forall t, In t us -> ~ usable t.
Proof.
  intros us. pose proof (inv_all_units us) as [I1 I2 I3 I4 I5]. unfold cu_is_empty. split.
  - destruct (cu_units _) as [|e l]; [|discriminate]. intros _ t Ht Ut. exact (I4 t Ht Ut).
  - intros H. destruct (cu_units _) as [|e l]; [reflexivity|]. exfalso. destruct (I1 e (or_introl eq_refl)) as [E1 E2].
    destruct (snd e) as [|i r]; [contradiction|]. assert (G : In i (group_ids us (ekey e))) by (rewrite <- E1; now left).
    apply in_group in G. destruct G as (G1 & t & G2 & G3 & G4). apply (H t G2). exists i. auto.
Qed.
Print Assumptions C34_is_empty.
Example C34_is_empty_example : cu_is_empty (cu_with_time_units [CTU Second (Mul 1 0) [[]]]) = true /\ cu_is_empty (cu_with_time_units [CTU Second (Mul 1 0) [[]; %"s"]]) = false.
Proof. split; reflexivity. Qed.

(** the same for a parser, whatever was called on it, in any order *)
Theorem C34_parser_lookup : forall os,
  let p := fold_left cp_call os cp_new in
  (forall id, cp_get_time_unit_by_id p id = cu_get (cu_with_time_units (units_of os)) id) /\
  (forall id, u_get (custom_like (cp_keywords p)) id = cu_get (cu_with_time_units (keywords_of os)) id) /\
  cp_is_empty p = cu_is_empty (cu_with_time_units (units_of os)).
Proof. intros os p. subst p. rewrite cp_calls. repeat split; reflexivity. Qed.
Print Assumptions C34_parser_lookup.
Example C34_parser_lookup_example :
  let p := fold_left cp_call [C_keyword (CTU Day (Mul 1 0) [%"tomorrow"]); C_time_unit (CTU Second (Mul 1 0) [%"sec"]);
     C_time_units [CTU Week (Mul 2 0) [%"fortnight"]]; C_numeral (Numeral [%"next"] (Mul 1 0))] cp_new in
  cp_get_time_unit_by_id p (%"fortnight") = Some (Week, Mul 2 0) /\ cp_get_time_unit_by_id p (%"tomorrow") = None /\
  u_get (custom_like (cp_keywords p)) (%"tomorrow") = Some (Day, Mul 1 0).
Proof. repeat split. Qed.

(** observable by parsing: digits followed by an identifier *)
Lemma custom_units_fit us : (forall t, In t us -> constructed t) -> units_fit (custom_like (cu_with_time_units us)).
Proof.
  intros H id u m G. cbn [u_get custom_like] in G. apply C34_lookup in G. destruct G as [(_ & t & G1 & G2 & _) _].
  injection G2 as <- <-. apply constructed_fits, H, G1.
Qed.
Lemma custom_env us : (forall t, In t us -> constructed t) -> env_ok config_new (custom_like (cu_with_time_units us)) None None.
Proof.
  intros H. destruct config_new_ok as (H1 & H2 & H3). constructor; auto; try discriminate. now apply custom_units_fit.
Qed.

Theorem C34_registered_identifier : forall us W id u m, (forall t, In t us -> constructed t) ->
  digit_string W -> W <> [] -> id <> [] -> utf8 id = true -> ends_number id -> starts_not is_ascii_whitespace id ->
  (forall x, In x id -> is_ascii_whitespace x = false) ->
  cu_get (cu_with_time_units us) id = Some (u, m) -> 0 <= coef m ->
  exists d, cp_parse (cp_with_time_units us) (W ++ id) = Ok d /\ duration_ok d /\
    nanos d = Z.min max_nanos (coef (unit_length u) * coef m *
        floor_scale10 (dval W) (18 + expo (unit_length u) + expo m) / 10 ^ 9).
Proof.
  intros us W id u m Hc HW NW Ni Ui Ei Si Di G Pm.
  assert (Cp : 0 < coef (unit_length u)) by (destruct u; cbn; lia).
  destruct (C17_number_with_unit config_new (custom_like (cu_with_time_units us)) None None [] false W [] [] [] 0 []
              id u m) as (d & H1 & H2 & H3); auto.
  - now apply custom_env.
  - constructor.
  - constructor.
  - constructor.
  - now rewrite app_nil_r.
  - intros H; now elim H.
  - split; [intros x []|]. split; [exact Si|]. split; [reflexivity|now left].
  - cbn [u_is_empty custom_like]. destruct (cu_is_empty _) eqn:E; [|reflexivity]. exfalso.
    apply C34_lookup in G. destruct G as [(_ & t & G1 & _ & G3) _]. apply (proj1 (C34_is_empty us) E t G1). exists id. auto.
  - replace (coef (unit_length u) * coef m <? 0) with false by nia. discriminate.
  - exists d. split; [exact H1|]. split; [exact H2|]. rewrite H3.
    replace (coef (unit_length u) * coef m <? 0) with false by nia. cbn [xorb signed_nanos length].
    rewrite app_nil_r, Z.abs_eq by nia.
    replace (18 + (expo (unit_length u) + expo m + 0 - Z.of_nat 0)) with (18 + expo (unit_length u) + expo m) by lia. reflexivity.
Qed.
Print Assumptions C34_registered_identifier.
Example C34_registered_example : let us := [CTU Week (Mul 2 0) [%"fortnight"]] in
  (forall t, In t us -> constructed t) /\ ends_number (%"fortnight") /\ cu_get (cu_with_time_units us) (%"fortnight") = Some (Week, Mul 2 0) /\
  cp_parse (cp_with_time_units us) (%"3fortnight") = Ok (Dur false (Std 3628800 0)).
Proof.
  split; [|repeat split]. intros t [<-|[]]. exists Week, [%"fortnight"], (Some (Mul 2 0)). split; [reflexivity|]. intros x [= <-]. split; reflexivity.
Qed.

Theorem C34_other_identifier : forall us W id, (forall t, In t us -> constructed t) ->
  digit_string W -> W <> [] -> id <> [] -> utf8 id = true -> ends_number id ->
  (forall u m, ~ registered us id u m) -> exists e, cp_parse (cp_with_time_units us) (W ++ id) = Err e.
Proof.
  intros us W id Hc HW NW Ni Hi (E1 & E2 & E3) Hu.
  assert (U : utf8 (W ++ id) = true) by now rewrite utf8_digits.
  pose proof (custom_env us Hc) as He.
  destruct (C20_never_crashes _ _ _ _ _ He U) as [(d & P & _)|P]; [|exact P]. exfalso.
  apply C22_single_grammar in P; [|exact He|exact U|reflexivity]. destruct P as [P _].
  assert (SN : starts_number config_new false W [] id (W ++ id)).
  { apply (StartsNumber config_new false W [] id [] []); auto using st_none, ft_none; try congruence.
    rewrite app_nil_r. exact NW. }
  destruct (starts_number_signed _ _ _ _ _ _ SN) as (l0 & S & Hd & N).
  destruct (digit_head_not_word config_new l0 Hd) as [Nw Ninf].
  assert (X : forall x l3, exponent config_new id x l3 -> l3 = id).
  { intros x l3 H. inversion H as [|y sg n' l' ds r e Hy]; subst; [reflexivity|]. cbn in E3. congruence. }
  assert (R : forall W' F' x r, number config_new l0 W' F' x r -> r = id).
  { intros W' F' x r H. apply N in H. destruct H as (_ & _ & l3 & H1 & H2). apply X in H1. subst l3.
    inversion H2 as [|l' ds r' Ha]; subst; [reflexivity|discriminate Ha]. }
  inversion P as [s n l1 W' F x H1 H2|s n l1 W' F x r u m H1 H2 H3 H4 H5|s n l1 H1 H2 H3|s n l1 u m H1 H2|s n l1 u m H1 H2|s n l1 num r u m H1 H2];
    subst; destruct (signed_fun _ _ _ _ _ _ H1 S) as [_ ->]; try contradiction.
  - apply R in H2. congruence.
  - apply R in H2. subst r. inversion H5 as [l' u' m' Ha G|l' u' m' Ha|l' w l1' ds a u' m' Ha]; subst; try discriminate Ha.
    cbn [u_get custom_like] in G. apply C34_lookup in G. exact (Hu _ _ (proj1 G)).
  - assert (T : word_prefix (%"inf") l0 (skipn 3 l0)).
    { apply word_prefix_iff. split; [|reflexivity]. unfold BytesProofs.starts_nocase. cbn [length bytes_of].
      destruct H3 as [H3|H3]; destruct l0 as [|a [|b [|c0 l0]]]; cbn in H3 |- *; rewrite ?andb_false_r in H3; try discriminate H3;
        repeat (apply andb_true_iff in H3; destruct H3 as [? H3]); repeat (apply andb_true_iff; split; auto). }
    exact (Ninf _ T).
Qed.
Print Assumptions C34_other_identifier.
Example C34_other_example : let us := [CTU Week (Mul 2 0) [%"fortnight"]] in
  (forall u m, ~ registered us (%"fortnigh") u m) /\ exists e, cp_parse (cp_with_time_units us) (%"3fortnigh") = Err e.
Proof. split; [|eexists; reflexivity]. intros u m (_ & t & [<-|[]] & _ & [H|[]]). discriminate H. Qed.

(** ** C35 *)
Theorem C35_never_crashes_without_numerals : forall os s,
  let p := fold_left cp_call os cp_new in
  (forall t, In t (units_of os) -> constructed t) -> (forall t, In t (keywords_of os) -> constructed t) ->
  numerals_of os = [] -> config_ok (cp_config p) -> utf8 s = true ->
  (exists d, cp_parse p s = Ok d /\ duration_ok d) \/ (exists e, cp_parse p s = Err e).
Proof.
  intros os s p Hu Hk Hn Hc Hs. apply C20_never_crashes; [|exact Hs]. subst p. rewrite cp_calls in *.
  cbn [cp_units cp_keywords cp_numerals cp_config cp_new app] in *. rewrite Hn.
  destruct Hc as (H1 & H2 & H3). constructor; auto; try discriminate.
  - exact (custom_units_fit _ Hu).
  - intros k E. destruct (negb _); [|discriminate]. injection E as <-. exact (custom_units_fit _ Hk).
Qed.
Print Assumptions C35_never_crashes_without_numerals.

(** with numerals the product of the numeral, the unit and its multiplier has to fit as well *)
Theorem C35_never_crashes_with_numerals : forall os s,
  let p := fold_left cp_call os cp_new in
  (forall t, In t (units_of os) -> constructed t) -> (forall t, In t (keywords_of os) -> constructed t) ->
  (forall n t, In n (numerals_of os) -> In t (units_of os) ->
     numeral_fits (nu_mult n) (ctu_base t) (ctu_mult t) /\
     (c_allow_ago (cp_config p) = true -> numeral_fits (nu_mult n) (ctu_base t) (mul_saturating_neg (ctu_mult t)))) ->
  config_ok (cp_config p) -> utf8 s = true ->
  (exists d, cp_parse p s = Ok d /\ duration_ok d) \/ (exists e, cp_parse p s = Err e).
Proof.
  intros os s p Hu Hk Hn Hc Hs. apply C20_never_crashes; [|exact Hs]. subst p. rewrite cp_calls in *.
  cbn [cp_units cp_keywords cp_numerals cp_config cp_new app] in *.
  destruct Hc as (H1 & H2 & H3). constructor; auto.
  - exact (custom_units_fit _ Hu).
  - intros k E. destruct (negb _); [|discriminate]. injection E as <-. exact (custom_units_fit _ Hk).
  - intros f id n E F id' u m G. cbn [u_get custom_like] in G. apply C34_lookup in G.
    destruct G as [(_ & t & G1 & G2 & _) _]. injection G2 as <- <-.
    assert (T : exists nu, In nu (numerals_of os) /\ nu_mult nu = n).
    { destruct (numerals_of os) as [|n0 l]; [discriminate|]. injection E as <-. revert F. change (numerals_get (n0 :: l) id = Some n -> exists nu, In nu (n0 :: l) /\ nu_mult nu = n).
      generalize (n0 :: l). clear. intros k.
      induction k as [|x k IH]; cbn [numerals_get]; [discriminate|]. destruct (existsb _ _).
      - intros H. injection H as <-. exists x. split; [now left|reflexivity].
      - intros H. destruct (IH H) as (nu & H1 & H2). exists nu. split; [now right|exact H2]. }
    destruct T as (nu & T1 & <-). exact (Hn _ _ T1 G1).
Qed.
Print Assumptions C35_never_crashes_with_numerals.
(** a negative multiplier next to the limit, `ago` negates it; the numeral still fits *)
Example C35_with_numerals_example : let os := [C_time_unit (CTU Second (Mul (-4611686018427387904) 0) [%"big"]); C_numeral (Numeral [%"second"] (Mul 2 0))] in
  let p := fold_left cp_call os cp_new in
  (forall n t, In n (numerals_of os) -> In t (units_of os) -> numeral_fits (nu_mult n) (ctu_base t) (ctu_mult t)) /\
  (forall t, In t (units_of os) -> constructed t) /\ config_ok (cp_config p) /\ cp_parse p (%"second big") = Err NegativeNumber.
Proof.
  split; [|split; [|split; [|reflexivity]]].
  - intros n t [<-|[]] [<-|[]]. eexists. split; [reflexivity|discriminate].
  - intros t [<-|[]]. exists Second, [%"big"], (Some (Mul (-4611686018427387904) 0)). split; [reflexivity|]. intros x [= <-]. split; reflexivity.
  - split; [exact ws_ascii|]. split; [exact ws_ascii|]. discriminate.
Qed.

(** without this hypothesis the parser can panic although every unit was accepted: finding 7 in DESIGN.md *)
Theorem C35_numerals_never_crash_refuted : exists os s,
  let p := fold_left cp_call os cp_new in
  (forall t, In t (units_of os) -> constructed t) /\ (forall t, In t (keywords_of os) -> constructed t) /\
  (forall n, In n (numerals_of os) -> multiplier_ok (nu_mult n)) /\
  config_ok (cp_config p) /\ utf8 s = true /\ exists cr, cp_parse p s = Crash cr.
Proof.
  exists [C_time_unit (ctu_with_default Minute [%"min"]); C_numeral (Numeral [%"lots"] (Mul i64_max 0))], (%"lots min").
  cbn zeta. split; [|split; [|split; [|split; [|split]]]].
  - intros t [<-|[]]. exists Minute, [%"min"], None. split; [reflexivity|intros x H; discriminate H].
  - intros t [].
  - intros n [<-|[]]. split; reflexivity.
  - exact config_new_ok.
  - reflexivity.
  - exists CrashUnwrap. vm_compute. reflexivity.
Qed.
Print Assumptions C35_numerals_never_crash_refuted.

(** the constructor accepts exactly the multipliers whose product with the unit fits *)
Theorem C35_constructor : forall base ids m, multiplier_ok m ->
  (ctu_new base ids (Some m) = Ok (CTU base m ids) <-> unit_fits base m) /\
  ctu_new base ids None = Ok (CTU base default_multiplier ids).
Proof.
  intros base ids m Hm. split; [|reflexivity]. unfold unit_fits. cbn [ctu_new].
  destruct (mul_checked_mul _ _); cbn; split; intros H; try discriminate; auto.
  - split; [auto|discriminate].
  - destruct H as [_ H]. now elim H.
Qed.
Print Assumptions C35_constructor.
Example C35_constructor_example : unit_fits Week (Mul 2 0) /\ ~ unit_fits Year (Mul 9223372036854775807 0) /\
  ctu_new Year [%"x"] (Some (Mul 9223372036854775807 0)) = Crash CrashUnwrap.
Proof. split; [repeat split; discriminate|]. split; [|reflexivity]. intros [_ H]. now apply H. Qed.

(** ** C36 *)
Theorem C36_lookup : forall l id m,
  numerals_get l id = Some m <->
  exists l1 n l2, l = l1 ++ n :: l2 /\ In id (nu_ids n) /\ nu_mult n = m /\ forall n', In n' l1 -> ~ In id (nu_ids n').
Proof.
  intros l id m. split.
  - induction l as [|n l IH]; cbn [numerals_get]; [discriminate|].
    destruct (existsb _ _) eqn:E.
    + intros H. injection H as <-. apply existsb_in in E. exists [], n, l. repeat split; auto.
    + intros H. destruct (IH H) as (l1 & n' & l2 & -> & H1 & H2 & H3). exists (n :: l1), n', l2. repeat split; auto.
      intros x [<-|Hx]; [|auto]. intros G. apply existsb_in in G. congruence.
  - intros (l1 & n & l2 & -> & H1 & <- & H2). induction l1 as [|x l1 IH]; cbn [numerals_get app].
    + apply existsb_in in H1. now rewrite H1.
    + destruct (existsb _ _) eqn:E; [apply existsb_in in E; elim (H2 x); [now left|exact E]|].
      apply IH. intros n' H. apply H2. now right.
Qed.
Print Assumptions C36_lookup.
Example C36_example : numerals_get [Numeral [%"first"; %"next"] (Mul 1 0); Numeral [%"next"; %"second"] (Mul 2 0)] (%"next") = Some (Mul 1 0) /\
  numerals_get [Numeral [%"first"; %"next"] (Mul 1 0); Numeral [%"next"; %"second"] (Mul 2 0)] (%"second") = Some (Mul 2 0).
Proof. split; reflexivity. Qed.

Theorem C36_parser : forall os, cp_numerals (fold_left cp_call os cp_new) = numerals_of os.
Proof. intros os. now rewrite cp_calls. Qed.
Print Assumptions C36_parser.

(** ** C33: the calls on the parser corresponding to a call on the builder *)
Definition call_of (o : custom_builder_call) : custom_call :=
  match o with
  | CB_time_unit t => C_time_unit t
  | CB_time_units l => C_time_units l
  | CB_keyword t => C_keyword t
  | CB_keywords l => C_keywords l
  | CB_numeral n => C_numeral n
  | CB_numerals l => C_numerals l
  | CB_default_unit u => C_set (Set_default_unit u)
  | CB_allow_time_unit_delimiter => C_set (Set_allow_time_unit_delimiter true)
  | CB_allow_sign_delimiter => C_set (Set_allow_sign_delimiter true)
  | CB_allow_negative => C_set (Set_allow_negative true)
  | CB_allow_ago => C_set (Set_allow_ago true)
  | CB_disable_exponent => C_set (Set_disable_exponent true)
  | CB_disable_fraction => C_set (Set_disable_fraction true)
  | CB_disable_infinity => C_set (Set_disable_infinity true)
  | CB_number_is_optional => C_set (Set_number_is_optional true)
  | CB_parse_multiple cj => C_set (Set_parse_multiple true cj)
  | CB_inner_delimiter d => C_set (Set_inner_delimiter d)
  | CB_outer_delimiter d => C_set (Set_outer_delimiter d)
  end.

Theorem C33_custom_builder_equals_setters : forall os,
  cb_build (fold_left cb_call os cb_new) = fold_left cp_call (map call_of os) cp_new.
Proof.
  assert (K : forall os b, fold_left cb_call os b =
     CBuilder (fold_left cp_set_config (flat_map (fun o => match o with C_set s => [s] | _ => [] end) (map call_of os)) (cb_config b))
       (cb_units b ++ units_of (map call_of os)) (cb_keywords b ++ keywords_of (map call_of os))
       (cb_numerals b ++ numerals_of (map call_of os))).
  { induction os as [|o os IH]; intros b; [cbn; rewrite !app_nil_r; now destruct b|]. cbn [fold_left]. rewrite IH.
    unfold units_of, keywords_of, numerals_of. cbn [map flat_map]. rewrite fold_left_app.
    destruct o; cbn; rewrite <- ?app_assoc; reflexivity. }
  intros os. rewrite K, cp_calls. reflexivity.
Qed.
Print Assumptions C33_custom_builder_equals_setters.
