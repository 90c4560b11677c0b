(** * Property C71: every setting is set by its own method, and the last call wins; C31 observed by parsing *)
From Verif Require Import Prelude Util Time Config Bytes Repr Parse SpecTime SpecNum SpecValue SpecParse SpecGrammar SpecSpelling Standard StandardProofs PropStandard
  Custom SpecCustom CustomProofs PropParse PropCustom PropTables PropCustomText ExEnv.

(** ** specification: which option a setting sets, and to what *)
(** the value of an option after the settings [ss]: what the last of the settings concerning it says, or else the value from before *)
Definition last_value {A : Type} (says : setting -> option A) (before : A) (ss : list setting) (v : A) : Prop :=
  (exists ss1 s ss2, ss = ss1 ++ s :: ss2 /\ says s = Some v /\ forall t, In t ss2 -> says t = None) \/
  ((forall t, In t ss -> says t = None) /\ v = before).

Definition says_default_unit s := match s with Set_default_unit u => Some u | _ => None end.
Definition says_disable_exponent s := match s with Set_disable_exponent v => Some v | _ => None end.
Definition says_disable_fraction s := match s with Set_disable_fraction v => Some v | _ => None end.
Definition says_disable_infinity s := match s with Set_disable_infinity v => Some v | _ => None end.
Definition says_number_is_optional s := match s with Set_number_is_optional v => Some v | _ => None end.
Definition says_multiple s := match s with Set_parse_multiple v _ => Some v | _ => None end.
Definition says_conjunctions s := match s with Set_parse_multiple _ cj => Some cj | _ => None end.
(** allow_ago(true) allows negative durations, too; allow_ago(false) does not forbid them *)
Definition says_allow_negative s := match s with Set_allow_negative v => Some v | Set_allow_ago true => Some true | _ => None end.
Definition says_allow_ago s := match s with Set_allow_ago v => Some v | _ => None end.
Definition says_inner_delimiter s := match s with Set_inner_delimiter d => Some d | _ => None end.
Definition says_outer_delimiter s := match s with Set_outer_delimiter d => Some d | _ => None end.
Definition says_allow_sign_delimiter s := match s with Set_allow_sign_delimiter v => Some v | _ => None end.
Definition says_allow_time_unit_delimiter s := match s with Set_allow_time_unit_delimiter v => Some v | _ => None end.

Record configured (before : config) (ss : list setting) (after : config) : Prop := {
  cf_default_unit : last_value says_default_unit (c_default_unit before) ss (c_default_unit after);
  cf_disable_exponent : last_value says_disable_exponent (c_disable_exponent before) ss (c_disable_exponent after);
  cf_disable_fraction : last_value says_disable_fraction (c_disable_fraction before) ss (c_disable_fraction after);
  cf_disable_infinity : last_value says_disable_infinity (c_disable_infinity before) ss (c_disable_infinity after);
  cf_number_is_optional : last_value says_number_is_optional (c_number_is_optional before) ss (c_number_is_optional after);
  cf_multiple : last_value says_multiple (c_allow_multiple before) ss (c_allow_multiple after);
  cf_conjunctions : last_value says_conjunctions (c_conjunctions before) ss (c_conjunctions after);
  cf_allow_negative : last_value says_allow_negative (c_allow_negative before) ss (c_allow_negative after);
  cf_allow_ago : last_value says_allow_ago (c_allow_ago before) ss (c_allow_ago after);
  cf_inner_delimiter : last_value says_inner_delimiter (c_inner_delimiter before) ss (c_inner_delimiter after);
  cf_outer_delimiter : last_value says_outer_delimiter (c_outer_delimiter before) ss (c_outer_delimiter after);
  cf_allow_sign_delimiter : last_value says_allow_sign_delimiter (c_allow_sign_delimiter before) ss (c_allow_sign_delimiter after);
  cf_allow_time_unit_delimiter : last_value says_allow_time_unit_delimiter (c_allow_time_unit_delimiter before) ss (c_allow_time_unit_delimiter after)
}.
(** the documented default: all options off, seconds, ascii white space *)
Definition plain : config := Config Second false false false false false None false is_ascii_whitespace is_ascii_whitespace false false false.

(** ** proofs *)
Lemma last_value_step {A} (says : setting -> option A) (get : config -> A) (step : config -> setting -> config) :
  (forall c s, get (step c s) = match says s with Some v => v | None => get c end) ->
  forall ss c, last_value says (get c) ss (get (fold_left step ss c)).
Proof.
  intros H ss. induction ss as [|s ss IH] using rev_ind; intros c.
  - right. split; [intros t []|reflexivity].
  - rewrite fold_left_app. cbn [fold_left]. rewrite H. destruct (says s) as [v|] eqn:E.
    + left. exists ss, s, []. split; [reflexivity|]. split; [exact E|intros t []].
    + destruct (IH c) as [(s1 & t & s2 & -> & H2 & H3)|[H1 H2]].
      * left. exists s1, t, (s2 ++ [s]). rewrite <- app_assoc. split; [reflexivity|]. split; [exact H2|]. intros x Hx. apply in_app_iff in Hx. destruct Hx as [Hx|[<-|[]]]; auto.
      * right. split; [|exact H2]. intros t Ht. apply in_app_iff in Ht. destruct Ht as [Ht|[<-|[]]]; auto.
Qed.
Lemma last_value_fun {A} (says : setting -> option A) b ss v v' : last_value says b ss v -> last_value says b ss v' -> v = v'.
Proof.
  revert v v'. induction ss as [|s ss IH] using rev_ind; intros v v' H H'.
  - destruct H as [(s1 & s & s2 & E & _)|[_ ->]]; [now destruct s1|]. destruct H' as [(s1 & s & s2 & E & _)|[_ ->]]; [now destruct s1|reflexivity].
  - assert (K : forall w, last_value says b (ss ++ [s]) w -> says s = Some w \/ says s = None /\ last_value says b ss w).
    { clear. intros w [(s1 & t & s2 & E & H2 & H3)|[H1 H2]].
      - destruct s2 as [|x s2 _] using rev_ind.
        + apply app_inj_tail in E. destruct E as [_ ->]. now left.
        + rewrite app_comm_cons, app_assoc in E. apply app_inj_tail in E. destruct E as [-> ->]. right. split; [apply H3, in_app_iff; right; now left|].
          left. exists s1, t, s2. split; [reflexivity|]. split; [exact H2|]. intros y Hy. apply H3, in_app_iff. now left.
      - right. split; [apply H1, in_app_iff; right; now left|]. right. split; [|exact H2]. intros t Ht. apply H1, in_app_iff. now left. }
    destruct (K _ H) as [E|[E K1]], (K _ H') as [E'|[E' K2]]; try congruence. now apply IH.
Qed.
Lemma configured_of (step : config -> setting -> config) :
  (forall c s, configured c [s] (step c s)) -> forall ss c, configured c ss (fold_left step ss c).
Proof.
  intros H ss c.
  assert (K : forall A (says : setting -> option A) b s v, last_value says b [s] v -> v = match says s with Some v => v | None => b end).
  { clear. intros A says b s v [(s1 & t & s2 & E & H2 & H3)|[H1 H2]].
    - destruct s1 as [|x s1]; [injection E as -> <-; now rewrite H2|]. injection E as _ E. now destruct s1.
    - rewrite H1; [exact H2|now left]. }
  constructor; apply last_value_step; intros c0 s; apply K; apply H.
Qed.
Ltac one_setting :=
  constructor; cbn;
  ((left; eexists [], _, []; split; [reflexivity|]; split; [reflexivity|intros ? []]) ||
   (right; split; [intros t [<-|[]]; reflexivity|reflexivity])).
Lemma dp_step c s : configured c [s] (dp_set_config c s).
Proof. destruct s as [u|v|v|v|[]|v|v|v|v|v cj|d|d]; one_setting. Qed.
Lemma cp_step c s : configured c [s] (cp_set_config c s).
Proof. destruct s as [u|v|v|v|[]|v|v|v|v|v cj|d|d]; one_setting. Qed.
Lemma configured_fun b ss c c' : configured b ss c -> configured b ss c' -> c = c'.
Proof.
  intros [] []. destruct c, c'; cbn in *; f_equal; eapply last_value_fun; eassumption.
Qed.

(** ** C71 *)
(** the setters of the standard parser *)
Theorem C71_standard_setters : forall p ss, let q := fold_left dp_set ss p in
  configured (dp_config p) ss (dp_config q) /\ (forall u, In u (dp_get_current_time_units q) <-> In u (dp_get_current_time_units p)).
Proof.
  intros p ss q.
  assert (U : q = DParser (dp_units p) (fold_left dp_set_config ss (dp_config p))).
  { subst q. revert p. induction ss as [|x ss IH]; intros p; [now destruct p|]. cbn [fold_left]. rewrite IH. reflexivity. }
  rewrite U. split; [|reflexivity]. apply configured_of, dp_step.
Qed.
Print Assumptions C71_standard_setters.
(** its constructors *)
Theorem C71_standard_defaults : forall l,
  dp_config dp_new = plain /\ dp_config dp_with_all_time_units = plain /\ dp_config dp_without_time_units = plain /\ dp_config (dp_with_time_units l) = plain.
Proof. intros l. repeat split; reflexivity. Qed.
Print Assumptions C71_standard_defaults.
(** the custom parser, whatever is called in between *)
Definition settings_among (os : list custom_call) : list setting := flat_map (fun o => match o with C_set s => [s] | _ => [] end) os.
Theorem C71_custom_setters : forall os, configured plain (settings_among os) (cp_config (fold_left cp_call os cp_new)).
Proof. intros os. rewrite cp_calls. cbn [cp_config]. exact (configured_of _ cp_step _ config_new). Qed.
Print Assumptions C71_custom_setters.
(** the builders: their methods correspond to setters *)
Theorem C71_standard_builder : forall os, configured plain (flat_map setting_of os) (dp_config (dpb_build (fold_left dpb_call os dpb_new))).
Proof.
  intros os. rewrite C33_builder_equals_setters.
  replace plain with (dp_config (fold_left constructor_of os dp_without_time_units)); [apply C71_standard_setters|].
  assert (H : forall p, dp_config p = plain -> dp_config (fold_left constructor_of os p) = plain); [|now apply H].
  induction os as [|o os IH]; intros p H; [exact H|]. cbn [fold_left]. apply IH. now destruct o.
Qed.
Print Assumptions C71_standard_builder.
Theorem C71_custom_builder : forall os, configured plain (settings_among (map call_of os)) (cp_config (cb_build (fold_left cb_call os cb_new))).
Proof. intros os. rewrite C33_custom_builder_equals_setters. apply C71_custom_setters. Qed.
Print Assumptions C71_custom_builder.
(** the builder of configurations for the core parser *)
Definition core_setting (o : config_option) : setting :=
  match o with
  | CO_allow_time_unit_delimiter => Set_allow_time_unit_delimiter true
  | CO_default_unit u => Set_default_unit u
  | CO_disable_exponent => Set_disable_exponent true
  | CO_disable_fraction => Set_disable_fraction true
  | CO_disable_infinity => Set_disable_infinity true
  | CO_number_is_optional => Set_number_is_optional true
  | CO_allow_negative => Set_allow_negative true
  | CO_parse_multiple cj => Set_parse_multiple true cj
  | CO_allow_ago => Set_allow_ago true
  | CO_allow_sign_delimiter => Set_allow_sign_delimiter true
  | CO_inner_delimiter d => Set_inner_delimiter d
  | CO_outer_delimiter d => Set_outer_delimiter d
  end.
Theorem C71_core_builder : forall os, configured plain (map core_setting os) (config_build os).
Proof.
  intros os. unfold config_build.
  replace (fold_left config_apply os config_new) with (fold_left cp_set_config (map core_setting os) config_new); [exact (configured_of _ cp_step _ config_new)|].
  generalize config_new. induction os as [|o os IH]; intros c; [reflexivity|]. cbn [fold_left map]. rewrite IH. f_equal. destruct o; reflexivity.
Qed.
Print Assumptions C71_core_builder.
(** so nothing else matters: settings which agree on the last value of every option make the same parser, in particular the order of
    settings of different options does not matter, and neither does a setting which a later one overrides *)
Theorem C71_only_last_values_matter : forall p ss1 ss2, (forall c, configured (dp_config p) ss1 c <-> configured (dp_config p) ss2 c) ->
  fold_left dp_set ss1 p = fold_left dp_set ss2 p.
Proof.
  intros p ss1 ss2 H.
  assert (U : forall ss p, fold_left dp_set ss p = DParser (dp_units p) (fold_left dp_set_config ss (dp_config p))).
  { clear. induction ss as [|x ss IH]; intros p; [now destruct p|]. cbn [fold_left]. rewrite IH. reflexivity. }
  rewrite !U. f_equal. apply (configured_fun (dp_config p) ss2); [|apply configured_of, dp_step]. apply H. apply configured_of, dp_step.
Qed.
Print Assumptions C71_only_last_values_matter.
(** the options which a setting concerns *)
Definition concerns (s : setting) : list nat :=
  match s with
  | Set_default_unit _ => [0] | Set_allow_time_unit_delimiter _ => [1] | Set_allow_sign_delimiter _ => [2] | Set_allow_negative _ => [3]
  | Set_allow_ago _ => [3; 4] | Set_disable_exponent _ => [5] | Set_disable_fraction _ => [6] | Set_disable_infinity _ => [7]
  | Set_number_is_optional _ => [8] | Set_parse_multiple _ _ => [9] | Set_inner_delimiter _ => [10] | Set_outer_delimiter _ => [11]
  end%nat.
Theorem C71_order_does_not_matter : forall p ss1 s t ss2, (forall i, In i (concerns s) -> ~ In i (concerns t)) ->
  fold_left dp_set (ss1 ++ s :: t :: ss2) p = fold_left dp_set (ss1 ++ t :: s :: ss2) p.
Proof.
  intros p ss1 s t ss2 H. rewrite !fold_left_app. cbn [fold_left]. f_equal. generalize (fold_left dp_set ss1 p). intros q. unfold dp_set. f_equal.
  cbn [dp_config]. generalize (dp_config q). intros c.
  destruct s as [u|v|v|v|[]|v|v|v|v|v cj|d|d], t as [u'|v'|v'|v'|[]|v'|v'|v'|v'|v' cj'|d'|d'];
    try reflexivity; exfalso; (apply (H 0%nat); cbn; tauto) || (apply (H 1%nat); cbn; tauto) || (apply (H 2%nat); cbn; tauto) || (apply (H 3%nat); cbn; tauto) ||
      (apply (H 5%nat); cbn; tauto) || (apply (H 6%nat); cbn; tauto) || (apply (H 7%nat); cbn; tauto) || (apply (H 8%nat); cbn; tauto) ||
      (apply (H 9%nat); cbn; tauto) || (apply (H 10%nat); cbn; tauto) || (apply (H 11%nat); cbn; tauto).
Qed.
Print Assumptions C71_order_does_not_matter.
Example C71_example : let p := fold_left dp_set [Set_allow_ago true; Set_parse_multiple true (Some [%"and"]); Set_allow_negative false; Set_parse_multiple false None; Set_allow_ago false] dp_new in
  dp_config p = plain /\
  c_allow_negative (dp_config (fold_left dp_set [Set_allow_ago true; Set_allow_ago false] dp_new)) = true /\
  (forall i, In i (concerns (Set_allow_ago true)) -> ~ In i (concerns (Set_disable_fraction true))) /\
  fold_left dp_set [Set_allow_negative false; Set_allow_ago true] dp_new <> fold_left dp_set [Set_allow_ago true; Set_allow_negative false] dp_new.
Proof.
  split; [reflexivity|]. split; [reflexivity|]. split; [intros i [<-|[<-|[]]] [K|[]]; discriminate|]. intros E. apply (f_equal (fun p => c_allow_negative (dp_config p))) in E. discriminate.
Qed.

(** ** C31 observed by parsing: the words of a standard parser are the default identifiers of its units *)
Definition default_table (l : list time_unit) (t : units_like) : Prop :=
  (forall id u m, u_get t id = Some (u, m) <-> In u l /\ id = default_identifier u /\ m = Mul 1 0) /\ (u_is_empty t = true <-> l = []).
Lemma default_table_ext l t : default_table l t ->
  (forall id, u_get (std_units (units_with l)) id = u_get t id) /\ u_is_empty (std_units (units_with l)) = u_is_empty t.
Proof.
  intros [T1 T2]. split.
  - intros id. destruct (u_get (std_units (units_with l)) id) as [[u m]|] eqn:E.
    + apply C31_lookup in E. symmetry. now apply T1.
    + destruct (u_get t id) as [[u m]|] eqn:F; [|reflexivity]. apply T1 in F. apply (proj2 (C31_lookup l id u m)) in F. congruence.
  - pose proof (C31_is_empty l) as E. destruct (u_is_empty (std_units (units_with l))), (u_is_empty t); try reflexivity.
    + symmetry. apply T2. now apply E.
    + apply E. now apply T2.
Qed.
Lemma std_fold ss l : fold_left dp_set ss (dp_with_time_units l) = DParser (units_with l) (fold_left dp_set_config ss config_new).
Proof.
  change (DParser (units_with l) (fold_left dp_set_config ss config_new)) with
    (DParser (dp_units (dp_with_time_units l)) (fold_left dp_set_config ss (dp_config (dp_with_time_units l)))). generalize (dp_with_time_units l).
  induction ss as [|x ss IH]; intros p; [now destruct p|]. cbn [fold_left]. rewrite IH. reflexivity.
Qed.
Lemma std_set_env l c : config_ok c -> env_ok c (std_units (units_with l)) None None.
Proof. intros H. apply (std_env_ok (DParser (units_with l) c)); [exists (fun u => memb u l); apply units_with_data|exact H]. Qed.
Theorem C31_single_durations : forall l ss table s d, let p := fold_left dp_set ss (dp_with_time_units l) in
  config_ok (dp_config p) -> utf8 s = true -> c_allow_multiple (dp_config p) = false -> default_table l table ->
  dp_parse p s = Ok d <-> single_duration (dp_config p) table None None s d /\ sign_allowed (dp_config p) d.
Proof.
  intros l ss table s d p. subst p. rewrite std_fold. unfold dp_parse. cbn [dp_config dp_units]. generalize (fold_left dp_set_config ss config_new). intros c HC U Hm T.
  destruct (default_table_ext l table T) as [E1 E2]. rewrite C22_single_grammar; [|now apply std_set_env|exact U|exact Hm].
  split; intros [H1 H2]; (split; [|exact H2]); revert H1; apply ext_single; auto; reflexivity.
Qed.
Print Assumptions C31_single_durations.
Theorem C31_multiple_durations : forall l ss table s, let p := fold_left dp_set ss (dp_with_time_units l) in
  config_ok (dp_config p) -> utf8 s = true -> c_allow_multiple (dp_config p) = true -> default_table l table ->
  (forall D, dp_parse p s = Ok D -> exists ds, components (dp_config p) table None None s ds /\ (forall d, In d ds -> sign_allowed (dp_config p) d) /\
     duration_ok D /\ nanos D = saturating_sum ds) /\
  (forall ds, components (dp_config p) table None None s ds -> (forall d, In d ds -> sign_allowed (dp_config p) d) ->
     exists D, dp_parse p s = Ok D /\ duration_ok D /\ nanos D = saturating_sum ds).
Proof.
  intros l ss table s p. subst p. rewrite std_fold. unfold dp_parse. cbn [dp_config dp_units]. generalize (fold_left dp_set_config ss config_new). intros c HC U Hm T. pose proof (delims_none_ok c) as HD.
  destruct (default_table_ext l table T) as [E1 E2]. split.
  - intros D P. apply C23_multiple_sound in P; auto; [|now apply std_set_env]. destruct P as (ds & H1 & H2). exists ds. split; [|exact H2].
    revert H1. apply ext_components; auto; reflexivity.
  - intros ds H1 H2. apply C23_multiple_complete; auto; [now apply std_set_env|]. revert H1. apply ext_components; auto; reflexivity.
Qed.
Print Assumptions C31_multiple_durations.
(** such a table *)
Lemma default_table_example : default_table [Minute; Month]
  (Units false (table [(%"m", (Minute, Mul 1 0)); (%"M", (Month, Mul 1 0))])).
Proof.
  split; [|split; discriminate]. intros id u m. cbn [u_get]. unfold table. cbn [find fst]. split.
  - destruct (str_eqb id (%"m")) eqn:E1; [apply str_eqb_iff in E1; subst id; intros [= <- <-]; split; [now left|split; reflexivity]|].
    destruct (str_eqb id (%"M")) eqn:E2; [apply str_eqb_iff in E2; subst id; intros [= <- <-]; split; [right; now left|split; reflexivity]|]. discriminate.
  - intros ([<-|[<-|[]]] & -> & ->); reflexivity.
Qed.
(** delimiters within a duration which are none between durations *)
Example C31_different_delimiters_example :
  let p := fold_left dp_set [Set_parse_multiple true None; Set_allow_ago true; Set_allow_time_unit_delimiter true;
    Set_inner_delimiter (fun x => x =? 32); Set_outer_delimiter (fun x => x =? 44)] (dp_with_time_units [Minute; Month]) in
  config_ok (dp_config p) /\ c_allow_multiple (dp_config p) = true /\ dp_parse p (%"1 M ago,2 m,3") = Ok (Dur true (Std 2629677 0)) /\
  exists e, dp_parse p (%"1 M 2 m") = Err e.
Proof.
  intros p. split; [|split; [reflexivity|split; [reflexivity|eexists; reflexivity]]].
  split; [intros x; cbn; lia|]. split; [intros x; cbn; lia|discriminate].
Qed.
Example C31_durations_example : let p := fold_left dp_set [Set_allow_time_unit_delimiter true] (dp_with_time_units [Minute; Month]) in
  let q := fold_left dp_set [Set_allow_ago true; Set_parse_multiple true None] (dp_with_time_units [Minute; Month]) in
  config_ok (dp_config p) /\ config_ok (dp_config q) /\
  dp_parse p (%"1.5 m") = Ok (Dur false (Std 90 0)) /\ dp_parse q (%"1M 2m ago") = Ok (Dur false (Std 2629680 0)) /\ exists e, dp_parse q (%"1M 1s") = Err e.
Proof.
  split; [split; [exact ws_ascii|split; [exact ws_ascii|discriminate]]|]. split; [split; [exact ws_ascii|split; [exact ws_ascii|discriminate]]|].
  split; [reflexivity|]. split; [reflexivity|]. eexists. reflexivity.
Qed.
