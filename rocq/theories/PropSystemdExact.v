(** * Properties C73, C74: exactly which texts the systemd parser accepts, and what the maximum does *)
From Verif Require Import Prelude Time Config Parse SpecTime SpecNum SpecParse SpecValue SpecGrammar SpecSpelling SpecSystemd
  Utf8Proofs TimeProofs NumProofs SafeProofs RefGrammar StandardProofs Systemd SystemdProofs SystemdSpan SystemdExact PropParse PropSystemd ExEnv.

(** what is parsed: a time span of length [v] (in nanoseconds), of which at most [max] is returned; or the word infinity *)
Definition means (u : time_unit) (table : list (time_unit * list str)) (max : duration) (s : str) (d : duration) : Prop :=
  exists ws1 t ws2, s = ws1 ++ t ++ ws2 /\ white_space ws1 /\ white_space ws2 /\
    ((t = %"infinity" /\ d = max) \/
     (exists v, any_span u table t v /\ duration_ok d /\ is_negative d = false /\ nanos d = Z.min (nanos max) v)).

Section Common.
Context (u : time_unit) (tu : units_like) (table : list (time_unit * list str)).
Hypothesis Henv : env_ok (sd_with_default_unit u) tu None None.
Hypothesis Hget : forall id u m, u_get tu id = Some (u, m) <-> m = Mul 1 0 /\ denotes table id u.
Hypothesis Hemp : u_is_empty tu = false.
Hypothesis Hword : forall w u, denotes table w u -> w <> [] /\ starts_not is_e w /\ utf8 w = true /\
  forall x, In x w -> ~ white x /\ is_digit x = false /\ is_sign x = false /\ is_dot x = false.
Hypothesis Hinf : u_get tu (%"infinity") = None.

Lemma infinity_rejected : forall d, parse (sd_with_default_unit u) (%"infinity") tu None None <> Ok d.
Proof.
  intros d P. destruct (C23_multiple_sound _ _ _ _ _ _ Henv (sd_delims_ok u) (eq_refl : utf8 (%"infinity") = true) eq_refl P) as (ds & C & _).
  assert (Cx : exists d' r', component (sd_with_default_unit u) tu None None (%"infinity") d' r') by (inversion C; subst; eauto).
  destruct Cx as (d' & r' & Cx). destruct (component_head u tu _ _ _ _ Cx) as [E|[E|[E|E]]]; try discriminate E.
  destruct E as (w & l1 & U & N & G).
  assert (w = %"infinity").
  { destruct (until_fun _ _ _ _ (%"infinity") [] U) as [-> _]; [|reflexivity].
    split; [reflexivity|]. split; [|exact I]. intros x Hx. cbn in Hx. intuition (subst; reflexivity). }
  subst w. now apply G.
Qed.

Lemma common_means s max d : utf8 s = true -> duration_ok max -> is_negative max = false ->
  common u tu s max = Ok d <-> means u table max s d.
Proof.
  intros Hs Hm Hn. split.
  - intros H. destruct (common_range u tu Henv s max Hs Hm Hn) as [(d' & E & R1 & R2 & _)|(e & E)]; [|congruence].
    assert (d' = d) by congruence. subst d'.
    destruct (common_sound u tu Henv s max d Hs Hm Hn H) as (ws1 & t & ws2 & Es & W1 & W2 & T & R).
    exists ws1, t, ws2. repeat (split; [assumption|]). destruct R as [R|(ds & C & Hd & N)]; [now left|right].
    destruct (components_span u tu table Hget Hemp Hword t ds C Hd) as (v & Sp & V0 & Hds & V).
    exists v. repeat (split; [assumption|]). rewrite N. unfold saturating_sum. rewrite sum_fold; auto; [|unfold max_nanos; lia].
    rewrite V. assert (nanos max <= max_nanos); [|lia]. apply nanos_range in Hm. destruct Hm. assumption.
  - intros (ws1 & t & ws2 & -> & W1 & W2 & R). destruct R as [[-> ->]|(v & Sp & D1 & D2 & D3)]; [now apply common_infinity|].
    rewrite common_around by assumption. rewrite white_utf8, utf8_white_end in Hs by assumption.
    destruct (any_span_components u tu table Hget Hemp Hword t v Sp) as (ds & C & Hd & V & E).
    assert (Ni : t <> %"infinity").
    { intros ->. destruct (C23_multiple_complete _ _ _ _ _ _ Henv (sd_delims_ok u) Hs eq_refl C) as (D' & P & _).
      { intros x Hx. right. now apply Hd. }
      exact (infinity_rejected _ P). }
    destruct (common_complete u tu Henv t ds max Hs (any_span_trimmed u tu table Hget Hword t v Sp) Ni Hm Hn C) as (d' & P & G1 & G2).
    { intros x Hx. now apply Hd. }
    rewrite P. f_equal.
    assert (Nn : neg d' = false).
    { destruct (common_range u tu Henv t max Hs Hm Hn) as [(d2 & E2 & _ & R2 & _)|(e & E2)]; [|congruence]. assert (d2 = d') by congruence. now subst d2. }
    apply nanos_eq_pos; auto. rewrite G2, D3. unfold saturating_sum. rewrite sum_fold.
    + rewrite E. assert (nanos max <= max_nanos); [|lia]. apply nanos_range in Hm. destruct Hm. assumption.
    + unfold max_nanos. lia.
    + intros x Hx. now apply Hd.
Qed.
End Common.

(** C73: a text is accepted if and only if it is a time span surrounded by white space, or infinity, and the result is its length or
    the maximum *)
Theorem C73_exactly_time_spans : forall p u s max d, made p u -> utf8 s = true -> duration_ok max -> is_negative max = false ->
  (sd_parse_with_max p s max = Ok d <-> means u systemd_units max s d).
Proof.
  intros p u s max d ->%made_is Hs Hm Hn. rewrite with_max_common.
  apply common_means; auto; [apply sd_env_ok|exact sd_get_spec|exact systemd_words_ok].
Qed.
Print Assumptions C73_exactly_time_spans.
Theorem C73_exactly_time_spans_nanos : forall p u s max d, made p u -> utf8 s = true -> duration_ok max -> is_negative max = false ->
  (sd_parse_nanos_with_max p s max = Ok d <-> means u systemd_nanos_units max s d).
Proof.
  intros p u s max d ->%made_is Hs Hm Hn. rewrite nanos_with_max_common.
  apply common_means; auto; [apply sd_env_nanos_ok|exact sd_get_nanos_spec|exact systemd_nanos_words_ok].
Qed.
Print Assumptions C73_exactly_time_spans_nanos.

(** with the default maxima: 2^64 - 1 micro seconds and 2^64 - 1 nano seconds *)
Theorem C73_default_maximum : forall p u s d, made p u -> utf8 s = true ->
  (sd_parse p s = Ok d <-> exists max, nanos max = (2 ^ 64 - 1) * 1000 /\ duration_ok max /\ is_negative max = false /\ means u systemd_units max s d) /\
  (sd_parse_nanos p s = Ok d <-> exists max, nanos max = 2 ^ 64 - 1 /\ duration_ok max /\ is_negative max = false /\ means u systemd_nanos_units max s d).
Proof.
  intros p u s d Hp Hs. destruct C37_maxima as (a & b & Ea & Eb & Oa & Ob & Na & Nb & Va & Vb).
  unfold sd_parse, sd_parse_nanos. rewrite Ea, Eb. cbn [bind]. split; split.
  - intros H. exists a. repeat (split; [assumption|]). now apply (C73_exactly_time_spans p u s a d Hp Hs Oa Na).
  - intros (max & V & O & N & M). assert (max = a) by (apply nanos_eq_pos; auto; congruence). subst max.
    now apply (C73_exactly_time_spans p u s a d Hp Hs Oa Na).
  - intros H. exists b. repeat (split; [assumption|]). now apply (C73_exactly_time_spans_nanos p u s b d Hp Hs Ob Nb).
  - intros (max & V & O & N & M). assert (max = b) by (apply nanos_eq_pos; auto; congruence). subst max.
    now apply (C73_exactly_time_spans_nanos p u s b d Hp Hs Ob Nb).
Qed.
Print Assumptions C73_default_maximum.

(** the documented time spans of C47 are among them *)
Theorem C73_documented : forall u table s v, time_span u table s v -> any_span u table s v.
Proof.
  assert (P : forall u table s b v, part u table s b v -> exists pt, any_part u table s b pt v).
  { intros u table s b v [sg W fr F gap w u' H1 H2 H3 H4 H5 H6 H7|sg W fr F H1 H2 H3 H4 H5|sg w u' H1 H2].
    - exists (has_point fr). replace (unit_nanos u' * dval (W ++ F) / 10 ^ Z.of_nat (length F)) with (amount u' W F)
        by (unfold amount; cbv zeta; now rewrite firstn_all2).
      apply (any_number_unit _ _ sg false); auto; [|discriminate]. destruct H1 as [-> | ->]; constructor.
    - exists (has_point fr). replace (unit_nanos u * dval (W ++ F) / 10 ^ Z.of_nat (length F)) with (amount u W F)
        by (unfold amount; cbv zeta; now rewrite firstn_all2).
      apply (any_number _ _ sg false); auto; [|discriminate]. destruct H1 as [-> | ->]; constructor.
    - exists false. now apply any_unit. }
  intros u table s v. induction 1 as [s b v H|s b v sep x r v' H Hs Hr IH Hc]; destruct (P _ _ _ _ _ H) as (pt & H').
  - eapply any_last; eauto.
  - eapply any_more; eauto. unfold may_follow. intuition auto.
Qed.
Print Assumptions C73_documented.

(** examples. The last but one is not what one expects: a number with two decimal points is read as two numbers (finding 14 in DESIGN.md) *)
Example C73_examples :
  sd_parse sd_new (%" 1h 2.5min -0") = Ok (Dur false (Std 3750 0)) /\
  sd_parse sd_new (%"1.5h min") = Ok (Dur false (Std 5460 0)) /\
  sd_parse sd_new (%"1.5.5s") = Ok (Dur false (Std 2 0)) /\
  sd_parse sd_new (%"1s.5s") = Err (InvalidInput (%"s.5s")).
Proof. vm_compute. repeat split. Qed.
Theorem C73_one_decimal_point_refuted : ~ (forall s d, sd_parse sd_new s = Ok d ->
  forall a b c, s = a ++ %"." ++ b ++ %"." ++ c -> exists x, In x b /\ is_digit x = false).
Proof.
  intros H. destruct (H (%"1.5.5s") (Dur false (Std 2 0)) ltac:(vm_compute; reflexivity) (%"1") (%"5") (%"5s") eq_refl) as (x & [<-|[]] & E).
  discriminate E.
Qed.
Print Assumptions C73_one_decimal_point_refuted.
(** the hypotheses are met: a text which is a time span in the sense of [any_span] *)
Example C73_span_example : any_span Second systemd_units (%"1.5.5s") (15 * 10 ^ 8 + 5 * 10 ^ 8).
Proof.
  refine (any_more _ _ (%"1.5") false true (15 * 10 ^ 8) [] 46 (%"5s") (5 * 10 ^ 8) _ _ _ _).
  - refine (any_number _ _ [] false (%"1") (%".5") (%"5") _ _ _ _ _); [constructor|each|apply (ft_some (%"5")); each|discriminate|discriminate].
  - intros x [].
  - eapply any_last. refine (any_number_unit _ _ [] false [] (%".5") (%"5") [] (%"s") Second _ _ _ _ _ _ _);
      [constructor|intros x []|apply (ft_some (%"5")); each|discriminate|intros x []| |discriminate].
    apply (C37_units (%"s") Second (Mul 1 0)). reflexivity.
  - unfold may_follow. tauto.
Qed.

(** C74: the maximum only caps the result. Errors do not depend on it, and a lower maximum gives the lesser of it and what a higher one gives *)
Lemma common_maxima u tu s m1 m2 : env_ok (sd_with_default_unit u) tu None None ->
  utf8 s = true -> duration_ok m1 -> duration_ok m2 -> is_negative m1 = false -> is_negative m2 = false ->
  (forall e, common u tu s m1 = Err e <-> common u tu s m2 = Err e) /\
  (nanos m1 <= nanos m2 -> forall d2, common u tu s m2 = Ok d2 ->
     exists d1, common u tu s m1 = Ok d1 /\ nanos d1 = Z.min (nanos m1) (nanos d2)).
Proof.
  intros Henv Hs H1 H2 N1 N2. rewrite !common_unfold by assumption. cbv zeta. set (t := trim_end (trim_start s)).
  destruct (str_eqb t (%"infinity")).
  - split; [intros e; split; discriminate|]. intros L d2 E. injection E as <-. exists m1. split; [reflexivity|lia].
  - assert (Ht : utf8 t = true) by now apply trim_utf8.
    destruct (C20_never_crashes _ _ _ _ _ Henv Ht) as [(D & P & HD)|(e & P)]; rewrite P; cbn [map_res bind].
    + split; [intros e; split; discriminate|]. intros L d2 E. injection E as <-. exists (dmin D m1). split; [reflexivity|].
      destruct (dmin_spec D m1 HD H1) as [_ ->]. destruct (dmin_spec D m2 HD H2) as [_ ->]. lia.
    + split; [intros e'; split; auto|]. intros _ d2 E. discriminate E.
Qed.
Theorem C74_maximum_only_caps : forall p u s m1 m2, made p u -> utf8 s = true ->
  duration_ok m1 -> duration_ok m2 -> is_negative m1 = false -> is_negative m2 = false ->
  (forall e, sd_parse_with_max p s m1 = Err e <-> sd_parse_with_max p s m2 = Err e) /\
  (nanos m1 <= nanos m2 -> forall d2, sd_parse_with_max p s m2 = Ok d2 ->
     exists d1, sd_parse_with_max p s m1 = Ok d1 /\ nanos d1 = Z.min (nanos m1) (nanos d2)).
Proof. intros p u s m1 m2 ->%made_is. rewrite !with_max_common. intros. apply common_maxima; auto. apply sd_env_ok. Qed.
Print Assumptions C74_maximum_only_caps.
Theorem C74_maximum_only_caps_nanos : forall p u s m1 m2, made p u -> utf8 s = true ->
  duration_ok m1 -> duration_ok m2 -> is_negative m1 = false -> is_negative m2 = false ->
  (forall e, sd_parse_nanos_with_max p s m1 = Err e <-> sd_parse_nanos_with_max p s m2 = Err e) /\
  (nanos m1 <= nanos m2 -> forall d2, sd_parse_nanos_with_max p s m2 = Ok d2 ->
     exists d1, sd_parse_nanos_with_max p s m1 = Ok d1 /\ nanos d1 = Z.min (nanos m1) (nanos d2)).
Proof. intros p u s m1 m2 ->%made_is. rewrite !nanos_with_max_common. intros. apply common_maxima; auto. apply sd_env_nanos_ok. Qed.
Print Assumptions C74_maximum_only_caps_nanos.
(** hence a longer maximum never gives a shorter duration, and the result is the same as soon as the maximum is not reached *)
Theorem C74_not_reached : forall p u s m1 m2 d, made p u -> utf8 s = true ->
  duration_ok m1 -> duration_ok m2 -> is_negative m1 = false -> is_negative m2 = false ->
  nanos m1 <= nanos m2 -> nanos d < nanos m1 ->
  (sd_parse_with_max p s m1 = Ok d <-> sd_parse_with_max p s m2 = Ok d) /\
  (sd_parse_nanos_with_max p s m1 = Ok d <-> sd_parse_nanos_with_max p s m2 = Ok d).
Proof.
  intros p u s m1 m2 d ->%made_is Hs H1 H2 N1 N2 L Hd. rewrite !with_max_common, !nanos_with_max_common.
  assert (G : forall tu, env_ok (sd_with_default_unit u) tu None None -> common u tu s m1 = Ok d <-> common u tu s m2 = Ok d).
  { intros tu Henv. destruct (common_maxima u tu s m1 m2 Henv Hs H1 H2 N1 N2) as [E1 E2]. specialize (E2 L).
    destruct (common_range u tu Henv s m1 Hs H1 N1) as [(a & Ea & Oa & Na & _)|(e & Ea)];
    destruct (common_range u tu Henv s m2 Hs H2 N2) as [(b & Eb & Ob & Nb & _)|(e' & Eb)].
    - destruct (E2 b Eb) as (a' & Ea' & V). assert (a' = a) by congruence. subst a'. rewrite Ea, Eb. split; intros K; f_equal; injection K as ->.
      + apply nanos_eq_pos; auto. lia.
      + apply nanos_eq_pos; auto. lia.
    - apply E1 in Eb. congruence.
    - apply E1 in Ea. congruence.
    - rewrite Ea, Eb. split; discriminate. }
  split; apply G; [apply sd_env_ok|apply sd_env_nanos_ok].
Qed.
Print Assumptions C74_not_reached.
Example C74_example : exists d1, sd_parse_with_max sd_new (%"5min") (Dur false (Std 200 0)) = Ok d1 /\ nanos d1 = Z.min (200 * 10 ^ 9) (300 * 10 ^ 9).
Proof.
  destruct (C74_maximum_only_caps sd_new Second (%"5min") (Dur false (Std 200 0)) MAX made_new eq_refl) as [_ H]; try (split; reflexivity); try reflexivity.
  apply (H ltac:(vm_compute; discriminate) (Dur false (Std 300 0))). vm_compute. reflexivity.
Qed.
