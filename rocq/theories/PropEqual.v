(** * Property C75: equal parsers parse equally *)
From Verif Require Import Prelude Util Time Config Bytes Repr Parse SpecTime Standard StandardProofs Custom Systemd Misc Equal ExtProofs DelimProofs.

(** functions at the same address are the same function *)
Definition sound_addresses (addr : delimiter -> delimiter -> Prop) : Prop := forall d d', addr d d' -> forall x, d x = d' x.
(** what comparing addresses guarantees beyond that *)
Definition equivalence {A} (e : A -> A -> Prop) : Prop :=
  (forall a, e a a) /\ (forall a b, e a b -> e b a) /\ (forall a b c, e a b -> e b c -> e a c).
(** an equality which holds only for identical values *)
Definition exact_eq {A} (e : A -> A -> bool) : Prop := forall a b, e a b = true <-> a = b.

Lemma exact_equivalence {A} (e : A -> A -> bool) : exact_eq e -> equivalence (fun a b => e a b = true).
Proof.
  intros H. split; [|split].
  - intros a. now apply H.
  - intros a b E. apply H in E. apply H. now symmetry.
  - intros a b c E F. apply H in E, F. apply H. congruence.
Qed.
Lemma list_exact {A} (e : A -> A -> bool) : exact_eq e -> exact_eq (list_eqb e).
Proof.
  intros H a. induction a as [|x a IH]; intros [|y b]; cbn [list_eqb]; try (split; [discriminate|discriminate || reflexivity]); [tauto|].
  rewrite andb_true_iff, (H x y), IH. split; [intros [-> ->]; reflexivity|intros E; injection E; auto].
Qed.
Lemma opt_exact {A} (e : A -> A -> bool) : exact_eq e -> exact_eq (opt_eqb e).
Proof.
  intros H [x|] [y|]; cbn [opt_eqb]; try (split; [discriminate|discriminate]); [|tauto]. rewrite (H x y). split; [now intros ->|intros E; now injection E].
Qed.
Lemma unit_exact : exact_eq unit_eqb.
Proof. intros a b. unfold unit_eqb. rewrite Nat.eqb_eq. split; [destruct a, b; cbn; intros E; reflexivity || discriminate E|now intros ->]. Qed.
Lemma str_exact : exact_eq str_eqb.
Proof. intros a b. apply str_eqb_iff. Qed.
Lemma mult_exact : exact_eq mult_eqb.
Proof. intros [a x] [b y]. unfold mult_eqb. cbn [coef expo]. rewrite andb_true_iff, !Z.eqb_eq. split; [intros [-> ->]; reflexivity|intros E; injection E; auto]. Qed.
Lemma ld_exact : exact_eq ld_eqb.
Proof.
  intros [a b u m] [a' b' u' m']. unfold ld_eqb. cbn [ld_min ld_max ld_unit ld_mult].
  rewrite !andb_true_iff, !Z.eqb_eq, (unit_exact u u'), (mult_exact m m'). split; [intros [[[-> ->] ->] ->]; reflexivity|intros E; injection E; auto].
Qed.
Lemma cu_exact : exact_eq cu_eqb.
Proof.
  intros [a b l] [a' b' l']. unfold cu_eqb. cbn [cu_min cu_max cu_units]. 
  assert (K : exact_eq (fun x y : lookup_data * list str => ld_eqb (fst x) (fst y) && list_eqb str_eqb (snd x) (snd y))).
  { intros [x i] [y j]. cbn [fst snd]. rewrite andb_true_iff, (ld_exact x y), (list_exact _ str_exact i j). split; [intros [-> ->]; reflexivity|intros E; injection E; auto]. }
  rewrite !andb_true_iff, !Z.eqb_eq, (list_exact _ K l l'). split; [intros [[-> ->] ->]; reflexivity|intros E; injection E; auto].
Qed.
Lemma numeral_exact : exact_eq numeral_eqb.
Proof.
  intros [i m] [j n]. unfold numeral_eqb. cbn [nu_ids nu_mult]. rewrite andb_true_iff, (list_exact _ str_exact i j), (mult_exact m n).
  split; [intros [-> ->]; reflexivity|intros E; injection E; auto].
Qed.
Lemma choice_exact : exact_eq choice_eqb.
Proof.
  intros [| | |l] [| | |k]; cbn [choice_eqb]; try (split; discriminate || reflexivity). rewrite (list_exact _ unit_exact l k).
  split; [now intros ->|intros E; now injection E].
Qed.

Lemma config_eq_iff addr a b : config_eq addr a b <->
  c_default_unit a = c_default_unit b /\ c_disable_exponent a = c_disable_exponent b /\ c_disable_fraction a = c_disable_fraction b /\
  c_disable_infinity a = c_disable_infinity b /\ c_number_is_optional a = c_number_is_optional b /\
  c_allow_multiple a = c_allow_multiple b /\ c_conjunctions a = c_conjunctions b /\ c_allow_negative a = c_allow_negative b /\
  addr (c_inner_delimiter a) (c_inner_delimiter b) /\ addr (c_outer_delimiter a) (c_outer_delimiter b) /\
  c_allow_ago a = c_allow_ago b /\ c_allow_sign_delimiter a = c_allow_sign_delimiter b /\
  c_allow_time_unit_delimiter a = c_allow_time_unit_delimiter b.
Proof.
  unfold config_eq. rewrite !andb_true_iff, !eqb_true_iff, (unit_exact _ _), (opt_exact _ (list_exact _ str_exact) _ _). tauto.
Qed.
Lemma config_same addr a b : sound_addresses addr -> config_eq addr a b -> same_settings a b.
Proof.
  intros S H. apply config_eq_iff in H. unfold same_settings. intuition; now apply S.
Qed.
Lemma config_equivalence addr : equivalence addr -> equivalence (config_eq addr).
Proof.
  intros (R & S & T). split; [|split].
  - intros a. apply config_eq_iff. repeat split; auto.
  - intros a b H. apply config_eq_iff in H. apply config_eq_iff. intuition.
  - intros a b c H K. apply config_eq_iff in H, K. apply config_eq_iff. decompose [and] H. decompose [and] K.
    repeat split; try congruence; eauto.
Qed.

Lemma dp_eq_iff addr p q : dp_eq addr p q <-> dp_units p = dp_units q /\ config_eq addr (dp_config p) (dp_config q).
Proof. unfold dp_eq. now rewrite (list_exact _ (opt_exact _ unit_exact) _ _). Qed.
Lemma cp_eq_iff addr p q : cp_eq addr p q <->
  cp_units p = cp_units q /\ cp_keywords p = cp_keywords q /\ cp_numerals p = cp_numerals q /\ config_eq addr (cp_config p) (cp_config q).
Proof. unfold cp_eq. rewrite !andb_true_iff, !(cu_exact _ _), (list_exact _ numeral_exact _ _). tauto. Qed.
Lemma dpb_eq_iff addr p q : dpb_eq addr p q <-> dpb_choice p = dpb_choice q /\ config_eq addr (dpb_config p) (dpb_config q).
Proof. unfold dpb_eq. now rewrite (choice_exact _ _). Qed.

(** ** equal parsers give equal results, for every input *)
Theorem C75_standard : forall addr p q, sound_addresses addr -> dp_eq addr p q ->
  (forall s, dp_parse p s = dp_parse q s) /\ dp_get_current_time_units p = dp_get_current_time_units q.
Proof.
  intros addr [u c] [v d] S H. apply dp_eq_iff in H. cbn [dp_units dp_config] in H. destruct H as [-> H].
  split; [|reflexivity]. intros s. unfold dp_parse. cbn [dp_units dp_config]. apply parse_same_settings. now apply (config_same addr).
Qed.
Print Assumptions C75_standard.

Theorem C75_custom : forall addr p q, sound_addresses addr -> cp_eq addr p q ->
  (forall s, cp_parse p s = cp_parse q s) /\ (forall id, cp_get_time_unit_by_id p id = cp_get_time_unit_by_id q id) /\ cp_is_empty p = cp_is_empty q.
Proof.
  intros addr [u k n c] [v l m d] S H. apply cp_eq_iff in H. cbn [cp_units cp_keywords cp_numerals cp_config] in H. destruct H as (-> & -> & -> & H).
  split; [|split; reflexivity]. intros s. unfold cp_parse. cbn [cp_units cp_keywords cp_numerals cp_config]. apply parse_same_settings. now apply (config_same addr).
Qed.
Print Assumptions C75_custom.

Theorem C75_systemd : forall addr p q, sound_addresses addr -> sd_eq addr p q ->
  forall s max, sd_parse_with_max p s max = sd_parse_with_max q s max /\ sd_parse_nanos_with_max p s max = sd_parse_nanos_with_max q s max /\
    sd_parse p s = sd_parse q s /\ sd_parse_nanos p s = sd_parse_nanos q s.
Proof.
  intros addr p q S H s max.
  assert (E : forall s tu, parse p s tu None None = parse q s tu None None).
  { intros s' tu. apply parse_same_settings. now apply (config_same addr). }
  assert (E1 : forall s max, sd_parse_with_max p s max = sd_parse_with_max q s max).
  { intros s' m. unfold sd_parse_with_max. apply bind_ext. intros _. apply bind_ext. intros t. now rewrite E. }
  assert (E2 : forall s max, sd_parse_nanos_with_max p s max = sd_parse_nanos_with_max q s max).
  { intros s' m. unfold sd_parse_nanos_with_max. apply bind_ext. intros _. apply bind_ext. intros t. now rewrite E. }
  split; [apply E1|]. split; [apply E2|]. split; [unfold sd_parse|unfold sd_parse_nanos]; apply bind_ext; intros m; auto.
Qed.
Print Assumptions C75_systemd.

(** equal builders of the standard parser build equal parsers *)
Theorem C75_standard_builder : forall addr a b, dpb_eq addr a b -> dp_eq addr (dpb_build a) (dpb_build b).
Proof.
  intros addr [u c] [v d] H. apply dpb_eq_iff in H. cbn [dpb_choice dpb_config] in H. destruct H as [-> H].
  apply dp_eq_iff. destruct v; auto.
Qed.
Print Assumptions C75_standard_builder.

(** For the custom builder this is wrong: its equality ignores the identifiers *)
Theorem C75_custom_builder_refuted : exists a b s, (forall addr, equivalence addr -> cb_eq addr a b) /\
  (exists d, cp_parse (cb_build a) s = Ok d) /\ (exists e, cp_parse (cb_build b) s = Err e).
Proof.
  exists (cb_call cb_new (CB_time_unit (ctu_with_default Second [%"s"]))), (cb_call cb_new (CB_time_unit (ctu_with_default Second [%"sec"]))), (%"1s").
  split; [|split; eexists; vm_compute; reflexivity].
  intros addr (R & _). split; [|reflexivity]. apply config_eq_iff. repeat split; apply R.
Qed.
Print Assumptions C75_custom_builder_refuted.
(** it holds if the identifiers are the same, too *)
Theorem C75_custom_builder : forall addr a b, cb_eq addr a b ->
  map ctu_ids (cb_units a) = map ctu_ids (cb_units b) -> map ctu_ids (cb_keywords a) = map ctu_ids (cb_keywords b) ->
  cp_eq addr (cb_build a) (cb_build b).
Proof.
  intros addr [c u k n] [d v l m] H Hu Hk. unfold cb_eq in H. cbn [cb_config cb_units cb_keywords cb_numerals] in *.
  rewrite !andb_true_iff, (list_exact _ numeral_exact _ _) in H. destruct H as (H1 & (H2 & H3) & ->).
  assert (K : forall u v, list_eqb ctu_eqb u v = true -> map ctu_ids u = map ctu_ids v -> u = v).
  { clear. induction u as [|[a x i] u IH]; intros [|[b y j] v] H E; try discriminate H; [reflexivity|].
    cbn [list_eqb] in H. apply andb_true_iff in H. destruct H as [H1 H2]. unfold ctu_eqb in H1. cbn [ctu_base ctu_mult] in H1.
    apply andb_true_iff in H1. destruct H1 as [H1 H3]. apply (unit_exact a b) in H1. apply (mult_exact x y) in H3. injection E as E1 E2. 
    cbn [ctu_ids] in E1. f_equal; [congruence|now apply IH]. }
  apply K in H2; [|exact Hu]. apply K in H3; [|exact Hk]. subst.
  apply cp_eq_iff. cbn [cb_build cp_units cp_keywords cp_numerals cp_config cb_units cb_keywords cb_numerals cb_config]. auto.
Qed.
Print Assumptions C75_custom_builder.

(** ** `==` is an equivalence relation on parsers and builders (trait Eq) *)
Theorem C75_equivalence : forall addr, equivalence addr ->
  equivalence (config_eq addr) /\ equivalence (dp_eq addr) /\ equivalence (cp_eq addr) /\ equivalence (dpb_eq addr) /\
  equivalence (cb_eq addr) /\ equivalence (sd_eq addr).
Proof.
  intros addr A. pose proof (config_equivalence addr A) as C. pose proof C as (C1 & C2 & C3).
  split; [exact C|]. split; [|split; [|split; [|split; [|exact C]]]].
  - split; [|split]; [intros a|intros a b H|intros a b c H K]; rewrite ?dp_eq_iff in *; intuition (eauto || congruence).
  - split; [|split]; [intros a|intros a b H|intros a b c H K]; rewrite ?cp_eq_iff in *; intuition (eauto || congruence).
  - split; [|split]; [intros a|intros a b H|intros a b c H K]; rewrite ?dpb_eq_iff in *; intuition (eauto || congruence).
  - assert (U : equivalence (fun a b => ctu_eqb a b = true)).
    { unfold ctu_eqb. split; [|split]; [intros a|intros a b|intros a b c]; rewrite ?andb_true_iff, ?Nat.eqb_eq, ?(mult_exact _ _); intuition congruence. }
    assert (L : equivalence (fun a b => list_eqb ctu_eqb a b = true)).
    { destruct U as (U1 & U2 & U3). split; [|split].
      - intros a. induction a; cbn [list_eqb]; [reflexivity|]. now rewrite U1.
      - induction a as [|x a IH]; intros [|y b] H; try discriminate H; [reflexivity|]. cbn [list_eqb] in *. apply andb_true_iff in H.
        apply andb_true_iff. destruct H; auto.
      - induction a as [|x a IH]; intros [|y b] [|z c] H K; try discriminate H; try discriminate K; [reflexivity|]. cbn [list_eqb] in *.
        apply andb_true_iff in H, K. apply andb_true_iff. destruct H, K. split; eauto. }
    destruct L as (L1 & L2 & L3). destruct (exact_equivalence _ (list_exact _ numeral_exact)) as (N1 & N2 & N3).
    unfold cb_eq. split; [|split]; [intros a|intros a b|intros a b c]; rewrite !andb_true_iff; intuition eauto.
Qed.
Print Assumptions C75_equivalence.

(** Two parsers configured in a different order; functions which answer equally are taken to be at the same address *)
Example C75_example :
  let addr := fun d d' : delimiter => forall x, d x = d' x in
  let p := dp_set (dp_set dp_new (Set_allow_negative true)) (Set_default_unit Minute) in
  let q := dp_set (dp_set dp_new (Set_default_unit Minute)) (Set_allow_negative true) in
  sound_addresses addr /\ equivalence addr /\ dp_eq addr p q /\ ~ dp_eq addr p dp_new /\
  dp_parse p (%"-1") = Ok (Dur true (Std 60 0)) /\ dp_parse q (%"-1") = Ok (Dur true (Std 60 0)) /\
  dpb_eq addr (dpb_call (dpb_call dpb_new B_allow_negative) B_all_time_units) (dpb_call (dpb_call dpb_new B_all_time_units) B_allow_negative).
Proof.
  cbv zeta. split; [intros d d' H; exact H|]. split; [|split; [|split; [|split; [|split]]]]; try (vm_compute; reflexivity).
  - split; [|split]; [intros a x|intros a b H x|intros a b c H K x]; [reflexivity|now rewrite H|now rewrite H, K].
  - apply dp_eq_iff. split; [reflexivity|]. apply config_eq_iff. repeat split.
  - intros H. apply dp_eq_iff in H. destruct H as [_ H]. apply config_eq_iff in H. destruct H as [H _]. discriminate H.
  - apply dpb_eq_iff. split; [reflexivity|]. apply config_eq_iff. repeat split.
Qed.
