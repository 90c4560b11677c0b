(** * Property C64: what a parser does depends only on what its identifiers mean *)
From Coq Require Import Permutation.
From Verif Require Import Prelude Util Time Config Bytes Repr Parse SpecTime Standard StandardProofs PropStandard
  Custom SpecCustom CustomProofs PropCustom ExtProofs.

(** no identifier was registered with two different pairs of time unit and multiplier *)
Definition unambiguous (us : list custom_time_unit) : Prop :=
  forall id u m u' m', registered us id u m -> registered us id u' m' -> (u, m) = (u', m').
(** the same identifiers were registered, with the same meaning *)
Definition same_meaning (us vs : list custom_time_unit) : Prop :=
  forall id u m, registered us id u m <-> registered vs id u m.

(** the same for numerals *)
Definition numeral_registered (l : list numeral) (id : str) (m : multiplier) : Prop :=
  exists n, In n l /\ In id (nu_ids n) /\ nu_mult n = m.
Definition numerals_unambiguous (l : list numeral) : Prop :=
  forall id m m', numeral_registered l id m -> numeral_registered l id m' -> m = m'.
Definition numerals_same_meaning (l k : list numeral) : Prop :=
  forall id m, numeral_registered l id m <-> numeral_registered k id m.

(** the settings among the calls, in order *)
Definition settings_of (os : list custom_call) : list setting :=
  flat_map (fun o => match o with C_set s => [s] | _ => [] end) os.

Lemma same_get us vs : unambiguous us -> same_meaning us vs -> same_answers (custom_like (cu_with_time_units us)) (custom_like (cu_with_time_units vs)).
Proof.
  intros A S. split; cbn [u_is_empty u_get custom_like].
  - assert (K : forall us vs, same_meaning us vs -> cu_is_empty (cu_with_time_units us) = true -> cu_is_empty (cu_with_time_units vs) = true).
    { clear. intros us vs S H. rewrite C34_is_empty in H |- *. intros t Ht (id & I1 & I2).
      assert (R : registered vs id (ctu_base t) (ctu_mult t)) by (split; [exact I2|]; exists t; auto).
      apply S in R. destruct R as (_ & t' & T1 & _ & T2). apply (H t' T1). exists id. auto. }
    assert (S' : same_meaning vs us) by (intros id u m; symmetry; apply S).
    destruct (cu_is_empty (cu_with_time_units us)) eqn:E; [symmetry; now apply (K us vs)|].
    destruct (cu_is_empty (cu_with_time_units vs)) eqn:F; [|reflexivity]. apply (K vs us) in F; [congruence|exact S'].
  - intros id. destruct (cu_get (cu_with_time_units us) id) as [[u m]|] eqn:E.
    + symmetry. apply C34_lookup in E. destruct E as [E _]. apply C34_unambiguous; [now apply S|].
      intros u' m' R. symmetry. apply (A id); [exact E|now apply S].
    + destruct (cu_get (cu_with_time_units vs) id) as [[u m]|] eqn:F; [|reflexivity]. apply C34_lookup in F. destruct F as [F _].
      apply S in F. destruct (proj2 (C34_found_iff_registered us id)) as (u' & m' & G); [eauto|congruence].
Qed.

Lemma same_numeral l k id : numerals_unambiguous l -> numerals_same_meaning l k -> numerals_get l id = numerals_get k id.
Proof.
  intros A S.
  assert (K : forall l m, numerals_get l id = Some m -> numeral_registered l id m).
  { clear. intros l m H. apply C36_lookup in H. destruct H as (l1 & n & l2 & -> & H1 & H2 & _). exists n. split; [|auto].
    apply in_app_iff. right. now left. }
  assert (F : forall l m, numeral_registered l id m -> numerals_get l id <> None).
  { clear. intros l m (n & H1 & H2 & _). induction l as [|x l IH]; [contradiction|]. cbn [numerals_get].
    destruct (existsb _ _) eqn:E; [discriminate|]. destruct H1 as [->|H1]; [|auto].
    assert (existsb (fun i => str_eqb i id) (nu_ids n) = true) by now apply existsb_in. congruence. }
  destruct (numerals_get l id) as [m|] eqn:E.
  - apply K in E. destruct (numerals_get k id) as [m'|] eqn:G.
    + f_equal. apply (A id); [exact E|]. apply S. now apply K.
    + elim (F k m); [now apply S|exact G].
  - destruct (numerals_get k id) as [m'|] eqn:G; [|reflexivity]. elim (F l m'); [|exact E]. apply S. now apply K.
Qed.

(** two histories of calls: the same settings, the same meaning of the identifiers, however they were registered *)
Theorem C64_meaning_is_enough : forall os os' s,
  settings_of os = settings_of os' ->
  same_meaning (units_of os) (units_of os') -> unambiguous (units_of os) ->
  same_meaning (keywords_of os) (keywords_of os') -> unambiguous (keywords_of os) ->
  numerals_same_meaning (numerals_of os) (numerals_of os') -> numerals_unambiguous (numerals_of os) ->
  (numerals_of os = [] <-> numerals_of os' = []) ->
  cp_parse (fold_left cp_call os cp_new) s = cp_parse (fold_left cp_call os' cp_new) s.
Proof.
  intros os os' s HS U1 U2 K1 K2 N1 N2 N3. rewrite !cp_calls. unfold cp_parse.
  cbn [cp_units cp_keywords cp_numerals cp_config cp_new app]. unfold settings_of in HS. rewrite HS.
  apply parse_ext.
  - now apply (same_get (units_of os) (units_of os')).
  - pose proof (same_get (keywords_of os) (keywords_of os') K2 K1) as S. pose proof (proj1 S) as E.
    cbn [u_is_empty custom_like] in E. fold (cu_with_time_units (keywords_of os)). fold (cu_with_time_units (keywords_of os')).
    rewrite <- E. destruct (cu_is_empty _); cbn [negb]; [exact I|exact S].
  - destruct (numerals_of os) as [|n l] eqn:En.
    + destruct N3 as [N3 _]. now rewrite N3.
    + destruct (numerals_of os') as [|n' l'] eqn:En'; [destruct N3 as [_ N3]; discriminate N3; reflexivity|].
      intros id. now apply same_numeral.
Qed.
Print Assumptions C64_meaning_is_enough.

(** in particular the order of the registrations does not matter *)
Theorem C64_order_of_registration : forall us us' ss s,
  Permutation us us' -> unambiguous us ->
  cp_parse (fold_left cp_call (map C_set ss) (cp_with_time_units us)) s =
  cp_parse (fold_left cp_call (map C_set ss) (cp_with_time_units us')) s.
Proof.
  intros us us' ss s P A. rewrite !cp_calls. unfold cp_parse. cbn [cp_units cp_keywords cp_numerals cp_config cp_with_time_units].
  assert (Eu : units_of (map C_set ss) = []) by (unfold units_of; induction ss; auto).
  assert (Ek : keywords_of (map C_set ss) = []) by (unfold keywords_of; induction ss; auto).
  rewrite Eu, Ek. cbn [fold_left]. apply parse_ext; [|exact I|now destruct (_ ++ _)].
  apply same_get; [exact A|]. intros id u m. unfold registered.
  split; intros (H1 & t & H2 & H3); (split; [exact H1|]); exists t; (split; [|exact H3]).
  - now apply (Permutation_in _ P).
  - now apply (Permutation_in _ (Permutation_sym P)).
Qed.
Print Assumptions C64_order_of_registration.

(** for two meanings of one identifier it does *)
Theorem C64_ambiguous_order_refuted : exists us us' s, Permutation us us' /\
  cp_parse (cp_with_time_units us) s <> cp_parse (cp_with_time_units us') s.
Proof.
  exists [ctu_with_default Minute [%"m"]; ctu_with_default Month [%"m"]], [ctu_with_default Month [%"m"]; ctu_with_default Minute [%"m"]], (%"1m").
  split; [apply perm_swap|]. vm_compute. discriminate.
Qed.
Print Assumptions C64_ambiguous_order_refuted.

(** a custom parser which has the time units with their default identifiers is the standard parser *)
Definition as_custom (u : time_unit) : custom_time_unit := ctu_with_default u [default_identifier u].

Lemma default_ids u v : default_identifier u = default_identifier v -> u = v.
Proof. destruct u, v; cbn; intros H; reflexivity || discriminate H. Qed.
Lemma as_custom_registered l id u m : registered (map as_custom l) id u m <-> In u l /\ id = default_identifier u /\ m = default_multiplier.
Proof.
  unfold registered. split.
  - intros (_ & t & H1 & H2 & H3). apply in_map_iff in H1. destruct H1 as (v & <- & Hv). injection H2 as <- <-.
    destruct H3 as [<-|[]]. auto.
  - intros (H1 & -> & ->). split; [now destruct u|]. exists (as_custom u). split; [now apply in_map|]. split; [reflexivity|now left].
Qed.

Lemma standard_like (D : units_data) us : 
  (forall id u m, u_get (std_units D) id = Some (u, m) <-> registered us id u m) ->
  (u_is_empty (std_units D) = true <-> us = []) -> (forall t, In t us -> usable t) -> unambiguous us ->
  same_answers (std_units D) (custom_like (cu_with_time_units us)).
Proof.
  intros H E F A. split.
  - cbn [u_is_empty custom_like]. destruct us as [|t us].
    + now rewrite (proj2 E).
    + assert (u_is_empty (std_units D) = false) as -> by (destruct (u_is_empty _); [destruct E as [E _]; discriminate E; reflexivity|reflexivity]).
      destruct (cu_is_empty _) eqn:G; [|reflexivity]. rewrite C34_is_empty in G. elim (G t); [now left|]. apply F. now left.
  - intros id. destruct (u_get (std_units D) id) as [[u m]|] eqn:G; cbn [u_get custom_like].
    + symmetry. apply H in G. apply C34_unambiguous; [exact G|]. intros u' m' R. apply (A id); auto.
    + destruct (cu_get _ id) as [[u m]|] eqn:K; [|reflexivity]. apply C34_lookup in K. destruct K as [K _]. apply H in K. congruence.
Qed.
Lemma as_custom_unambiguous l : unambiguous (map as_custom l).
Proof.
  intros id u m u' m' H1 H2. apply as_custom_registered in H1, H2. destruct H1 as (_ & -> & ->), H2 as (_ & E & ->). f_equal. now apply default_ids.
Qed.
Lemma as_custom_usable l t : In t (map as_custom l) -> usable t.
Proof. intros H. apply in_map_iff in H. destruct H as (u & <- & _). exists (default_identifier u). split; [now left|now destruct u]. Qed.

Lemma settings_parse (p : duration_parser) us ss s :
  dp_config p = config_new -> same_answers (std_units (dp_units p)) (custom_like (cu_with_time_units us)) ->
  dp_parse (fold_left dp_set ss p) s = cp_parse (fold_left cp_call (map C_set ss) (cp_with_time_units us)) s.
Proof.
  intros Hc Ha.
  assert (K : forall ss p, fold_left dp_set ss p = DParser (dp_units p) (fold_left dp_set_config ss (dp_config p))).
  { clear. induction ss as [|x ss IH]; intros p; [now destruct p|]. cbn [fold_left]. rewrite IH. reflexivity. }
  assert (J : forall ss c, fold_left dp_set_config ss c = fold_left cp_set_config (settings_of (map C_set ss)) c).
  { clear. unfold settings_of. induction ss as [|x ss IH]; intros c; [reflexivity|]. cbn [fold_left map flat_map app]. rewrite IH. f_equal; now destruct x. }
  rewrite K, cp_calls. unfold dp_parse, cp_parse. cbn [cp_units cp_keywords cp_numerals cp_config cp_with_time_units dp_units dp_config].
  assert (Eu : units_of (map C_set ss) = []) by (clear; unfold units_of; induction ss; auto).
  assert (Ek : keywords_of (map C_set ss) = []) by (clear; unfold keywords_of; induction ss; auto).
  assert (En : numerals_of (map C_set ss) = []) by (clear; unfold numerals_of; induction ss; auto).
  rewrite Eu, Ek, En, Hc, J. cbn [fold_left app]. fold (settings_of (map C_set ss)). apply parse_ext; [exact Ha|exact I|exact I].
Qed.

Theorem C64_standard_parser : forall l ss s,
  dp_parse (fold_left dp_set ss (dp_with_time_units l)) s =
  cp_parse (fold_left cp_call (map C_set ss) (cp_with_time_units (map as_custom l))) s.
Proof.
  intros l ss s. apply settings_parse; [reflexivity|]. apply standard_like.
  - intros id u m. rewrite as_custom_registered. apply C31_lookup.
  - change (dp_units (dp_with_time_units l)) with (units_with l). rewrite C31_is_empty. split; [now intros ->|apply map_eq_nil].
  - apply as_custom_usable.
  - apply as_custom_unambiguous.
Qed.
Print Assumptions C64_standard_parser.

(** the tables the crate exports are those of the standard parser's constructors *)
Theorem C64_exported_tables : forall ss s,
  dp_parse (fold_left dp_set ss dp_new) s =
    cp_parse (fold_left cp_call (map C_set ss) (cp_with_time_units CUSTOM_DEFAULT_TIME_UNITS)) s /\
  dp_parse (fold_left dp_set ss dp_with_all_time_units) s =
    cp_parse (fold_left cp_call (map C_set ss) (cp_with_time_units DEFAULT_ALL_TIME_UNITS)) s /\
  dp_parse (fold_left dp_set ss dp_without_time_units) s =
    cp_parse (fold_left cp_call (map C_set ss) cp_new) s.
Proof.
  intros ss s. destruct C31_other_constructors as (L1 & L2 & L3 & L4). split; [|split].
  - apply settings_parse; [reflexivity|].
    change CUSTOM_DEFAULT_TIME_UNITS with (map as_custom [NanoSecond; MicroSecond; MilliSecond; Second; Minute; Hour; Day; Week]).
    apply standard_like; [|split; discriminate|apply as_custom_usable|apply as_custom_unambiguous].
    intros id u m. rewrite as_custom_registered, L2. split.
    + intros (H1 & H2 & H3). split; [|exact H3]. destruct u; cbn; tauto.
    + intros (H1 & H2). split; [|split; [|exact H2]]; intros ->; cbn in H1; intuition discriminate.
  - apply settings_parse; [reflexivity|].
    change DEFAULT_ALL_TIME_UNITS with (map as_custom [NanoSecond; MicroSecond; MilliSecond; Second; Minute; Hour; Day; Week; Month; Year]).
    apply standard_like; [|split; discriminate|apply as_custom_usable|apply as_custom_unambiguous].
    intros id u m. rewrite as_custom_registered, L1. split; [|tauto]. intros H. split; [|exact H]. destruct u; cbn; tauto.
  - change cp_new with (cp_with_time_units (map as_custom [])). apply settings_parse; [reflexivity|].
    apply standard_like; [|split; [reflexivity|intros _; exact L4]|intros t []|apply as_custom_unambiguous].
    intros id u m. rewrite L3. split; [discriminate|]. intros (_ & t & [] & _).
Qed.
Print Assumptions C64_exported_tables.

(** registering seconds and minutes in two orders, split and merged, with an unusable empty identifier *)
Example C64_example :
  let os := [C_time_unit (ctu_with_default Second [%"s"; %"sec"]); C_set (Set_allow_negative true); C_time_unit (ctu_with_default Minute [%"min"]);
             C_numerals [Numeral [%"two"] (Mul 2 0); Numeral [%"three"] (Mul 3 0)]] in
  let os' := [C_numeral (Numeral [%"three"] (Mul 3 0)); C_time_units [ctu_with_default Minute [[]; %"min"]; ctu_with_default Second [%"sec"]]; C_numeral (Numeral [%"two"] (Mul 2 0));
              C_time_unit (ctu_with_default Second [%"s"]); C_set (Set_allow_negative true)] in
  settings_of os = settings_of os' /\ same_meaning (units_of os) (units_of os') /\ unambiguous (units_of os) /\
  numerals_same_meaning (numerals_of os) (numerals_of os') /\ numerals_unambiguous (numerals_of os) /\
  cp_parse (fold_left cp_call os' cp_new) (%"two min") = Ok (Dur false (Std 120 0)).
Proof.
  cbv zeta. split; [reflexivity|]. split; [|split; [|split; [|split; [|reflexivity]]]].
  - intros id u m. unfold registered. cbn. split; intros (N & t & H1 & H2 & H3); (split; [exact N|]).
    + destruct H1 as [<-|[<-|[]]]; injection H2 as <- <-; cbn in H3.
      * destruct H3 as [<-|[<-|[]]].
        -- exists (ctu_with_default Second [%"s"]). cbn. tauto.
        -- exists (ctu_with_default Second [%"sec"]). cbn. tauto.
      * destruct H3 as [<-|[]]. exists (ctu_with_default Minute [[]; %"min"]). cbn. tauto.
    + destruct H1 as [<-|[<-|[<-|[]]]]; injection H2 as <- <-; cbn in H3.
      * destruct H3 as [<-|[<-|[]]]; [now elim N|]. exists (ctu_with_default Minute [%"min"]). cbn. tauto.
      * destruct H3 as [<-|[]]. exists (ctu_with_default Second [%"s"; %"sec"]). cbn. tauto.
      * destruct H3 as [<-|[]]. exists (ctu_with_default Second [%"s"; %"sec"]). cbn. tauto.
  - intros id u m u' m' (_ & t & H1 & H2 & H3) (_ & t' & H1' & H2' & H3').
    destruct H1 as [<-|[<-|[]]], H1' as [<-|[<-|[]]]; injection H2 as <- <-; injection H2' as <- <-; try reflexivity; exfalso; cbn in H3, H3';
      destruct H3 as [<-|H3]; intuition (try discriminate); subst; intuition discriminate.
  - intros id m. unfold numeral_registered. cbn. split; intros (n & H1 & H2 & H3); exists n; (split; [|auto]); tauto.
  - intros id m m' (n & H1 & H2 & <-) (n' & H1' & H2' & <-).
    destruct H1 as [<-|[<-|[]]], H1' as [<-|[<-|[]]]; try reflexivity; exfalso; cbn in H2, H2'; destruct H2 as [<-|[]], H2' as [H|[]]; discriminate H.
Qed.
