(** * Property C81: the default time unit is the unit of a number without a unit, and matters for nothing else *)
From Verif Require Import Prelude Util Time Config Bytes Repr Parse SpecTime SpecNum SpecValue SpecParse SpecGrammar SpecErrors SpecSpelling SpecSystemd
  TimeProofs NumProofs Utf8Proofs ValueProofs RefGrammar SpellProofs SwitchProofs SafeProofs Systemd
  ExEnv PropTime PropNum PropParse PropErrors PropSigns PropSystemd.

(** ** Specification *)
(** the text of a number: a sign, the digits W, the fraction, the exponent, as far as they are allowed *)
Inductive number_text (c : config) (n : bool) (W F : str) (e : Z) : str -> Prop :=
| NumberText sg fr ex : sign_text sg n -> digit_string W -> fraction_text fr F -> exponent_text ex e -> W ++ F <> [] ->
    (fr <> [] -> c_disable_fraction c = false) -> (ex <> [] -> c_disable_exponent c = false) ->
    (sg <> [] -> c_allow_sign_delimiter c = true -> starts_not (c_inner_delimiter c) (W ++ fr)) ->
    number_text c n W F e (sg ++ W ++ fr ++ ex).
(** the default time unit, as it can be written behind a number: delimiters if allowed, an identifier of the unit *)
Definition default_unit_text (c : config) (tu : units_like) (w : str) : Prop :=
  exists ds id, w = ds ++ id /\ unit_gap c ds id /\ ends_number w /\ id <> [] /\ utf8 id = true /\
    (forall x, In x id -> unit_end c x = false /\ c_inner_delimiter c x = false) /\
    u_is_empty tu = false /\ u_get tu id = Some (c_default_unit c, default_multiplier).

(** ** Helpers *)
Lemma du_signed c u s n l : signed c s n l -> signed (set_default_unit c u) s n l.
Proof. destruct 1; [apply unsigned|eapply with_sign|eapply with_sign_delimiter]; eassumption. Qed.
Lemma du_fraction c u l F r : fraction c l F r -> fraction (set_default_unit c u) l F r.
Proof. destruct 1; [apply no_fraction|apply some_fraction]; assumption. Qed.
Lemma du_exponent c u l x r : exponent c l x r -> exponent (set_default_unit c u) l x r.
Proof. destruct 1; [apply no_exponent|eapply some_exponent]; eassumption. Qed.
Lemma du_delimiter c u l r : unit_delimiter c l r -> unit_delimiter (set_default_unit c u) l r.
Proof. destruct 1; [apply no_unit_delimiter|eapply some_unit_delimiter]; eassumption. Qed.
Lemma du_number c u l W F x r : number c l W F x r -> number (set_default_unit c u) l W F x r.
Proof.
  intros (l1 & l2 & l3 & H1 & H2 & H3 & H4 & H5). exists l1, l2, l3. split; [exact H1|]. split; [now apply du_fraction|].
  split; [now apply du_exponent|]. split; [now apply du_delimiter|exact H5].
Qed.
Lemma du_unit c u tu l v m : single_unit c tu l v m -> single_unit (set_default_unit c u) tu l v m.
Proof. destruct 1; [apply su_plain|apply su_no_ago|eapply su_ago]; eassumption. Qed.
Lemma du_unit_like c u tu l : single_unit_like (set_default_unit c u) tu l -> single_unit_like c tu l.
Proof. destruct 1; [apply sul_plain|apply sul_no_ago|eapply sul_ago]; eassumption. Qed.
Lemma du_env c u tu kw nums : env_ok c tu kw nums -> env_ok (set_default_unit c u) tu kw nums.
Proof. intros []; constructor; assumption. Qed.

Lemma an_eta c : set_allow_negative c (c_allow_negative c) = c.
Proof. destruct c; reflexivity. Qed.
Lemma number_text_utf8 c n W F e s r : number_text c n W F e s -> utf8 (s ++ r) = utf8 r.
Proof.
  intros [sg fr ex H1 H2 H3 H4 _ _ _ _]. rewrite <- !app_assoc, (utf8_sign sg n), utf8_digits, (utf8_fraction fr F), (utf8_exponent ex e) by assumption.
  reflexivity.
Qed.
Lemma gap_utf8 c ds id : ascii_delim (c_inner_delimiter c) -> unit_gap c ds id -> utf8 (ds ++ id) = utf8 id.
Proof.
  intros Ha (Hds & _). apply utf8_app. clear - Hds Ha.
  induction ds as [|x ds IH]; [reflexivity|]. cbn [utf8]. pose proof (Ha x (Hds x (or_introl eq_refl))) as Hx.
  replace (inb 0 127 x) with true by (unfold inb; lia). apply IH. intros y Hy. apply Hds. now right.
Qed.

(** ** C81 *)
(** a number means the same with the default unit written behind it: also which error it gives, if it is negative and must not be *)
Theorem C81_same_as_written : forall c tu kw nums n W F e s w, env_ok c tu kw nums -> c_allow_multiple c = false ->
  number_text c n W F e s -> default_unit_text c tu w ->
  parse c (s ++ w) tu kw nums = parse c s tu kw nums.
Proof.
  intros c tu kw nums n W F e s w HE Hm Hs Hw.
  assert (U1 : utf8 s = true) by (rewrite <- (app_nil_r s), (number_text_utf8 _ _ _ _ _ _ _ Hs); reflexivity).
  assert (U2 : utf8 (s ++ w) = true).
  { rewrite (number_text_utf8 _ _ _ _ _ _ _ Hs). destruct Hw as (ds & id & -> & G & _ & _ & Ui & _).
    rewrite (gap_utf8 c); auto. apply HE. }
  assert (E : parse (set_allow_negative c true) (s ++ w) tu kw nums = parse (set_allow_negative c true) s tu kw nums).
  { set (c' := set_allow_negative c true). assert (HE' : env_ok c' tu kw nums) by (destruct HE; constructor; assumption).
    destruct Hs as [sg fr ex H1 H2 H3 H4 H5 H6 H7 H8]. destruct Hw as (ds & id & -> & G & En & Ni & Ui & Hi & Eu & Eg).
    rewrite <- !app_assoc.
    rewrite (single_number_text c' tu kw nums sg n W fr F ex e ds id (c_default_unit c) default_multiplier); auto.
    - rewrite (single_number_text_default c' tu kw nums sg n W fr F ex e); auto. now left.
    - intros x Hx. now apply Hi.
    - now left. }
  destruct (c_allow_negative c) eqn:En.
  - rewrite <- (an_eta c), En. exact E.
  - rewrite <- (an_eta c), En, !C53_single_switch, E; auto.
Qed.
Print Assumptions C81_same_as_written.

(** a number is one duration, with or without the default unit behind it *)
Lemma default_component c tu kw nums n W F e s w : number_text c n W F e s -> default_unit_text c tu w ->
  let v := number_value n W F e (c_default_unit c) default_multiplier in component c tu kw nums s v [] /\ component c tu kw nums (s ++ w) v [].
Proof.
  intros Hs Hw v.
  destruct Hs as [sg fr ex H1 H2 H3 H4 H5 H6 H7 H8]. destruct Hw as (ds & id & -> & G & En & Ni & Ui & Hi & Eu & Eg).
  assert (Sg : forall r, signed c (sg ++ W ++ fr ++ ex ++ r) n (W ++ fr ++ ex ++ r)).
  { intros r. destruct (number_text_head W fr F (ex ++ r) H2 H3 H5) as (N1 & N2). apply signed_text; auto. intros S1 S2. specialize (H8 S1 S2).
    rewrite app_assoc. apply starts_not_app; [exact H8|]. intros E. apply app_eq_nil in E. destruct E as [-> ->]. apply fraction_text_nil in H3. subst F. now destruct H5. }
  assert (C1 : component c tu kw nums (sg ++ W ++ fr ++ ex) v []).
  { apply (co_number c tu kw nums _ n (W ++ fr ++ ex) W F e [] []).
    - specialize (Sg []). now rewrite app_nil_r in Sg.
    - pose proof (number_of_text c W fr F ex e [] [] H2 H3 H4 H5 H6 H7) as H. cbn [app] in H. rewrite !app_nil_r in H. apply H; repeat split; auto.
    - right. intros (a & b & [Ha _] & Hb & _). symmetry in Ha. apply app_eq_nil in Ha. destruct Ha. contradiction.
    - constructor. exact Logic.I. }
  assert (C2 : component c tu kw nums (sg ++ W ++ fr ++ ex ++ ds ++ id) v []).
  { apply (co_number_unit c tu kw nums _ n (W ++ fr ++ ex ++ ds ++ id) W F e id).
    - apply Sg.
    - now apply number_of_text.
    - exact Eu.
    - apply (mu_plain c tu id id []).
      + split; [now rewrite app_nil_r|]. split; [|exact Logic.I]. intros x Hx. destruct (Hi x Hx) as [Hx' _]. now rewrite Hx'.
      + exact Ni.
      + exact Eg.
      + intros r' (_ & dd & a & (Q1 & _) & Q2 & _). symmetry in Q1. apply app_eq_nil in Q1. destruct Q1. contradiction.
      + intros _ [Q _]. now apply Q.
      + constructor. exact Logic.I. }
  rewrite <- !app_assoc. split; [exact C1|exact C2].
Qed.
(** the same if several durations are allowed *)
Theorem C81_same_as_written_multiple : forall c tu kw nums n W F e s w, env_ok c tu kw nums -> delims_ok c kw nums -> c_allow_multiple c = true ->
  number_text c n W F e s -> default_unit_text c tu w ->
  (exists d d', parse c (s ++ w) tu kw nums = Ok d /\ parse c s tu kw nums = Ok d' /\ nanos d = nanos d') \/
  (parse c (s ++ w) tu kw nums = Err NegativeNumber /\ parse c s tu kw nums = Err NegativeNumber /\ n = true /\ c_allow_negative c = false).
Proof.
  intros c tu kw nums n W F e s w HE HD Hm Hs Hw.
  assert (U1 : utf8 s = true) by (rewrite <- (app_nil_r s), (number_text_utf8 _ _ _ _ _ _ _ Hs); reflexivity).
  assert (U2 : utf8 (s ++ w) = true).
  { rewrite (number_text_utf8 _ _ _ _ _ _ _ Hs). destruct Hw as (ds & id & -> & G & _ & _ & Ui & _).
    rewrite (gap_utf8 c); auto. apply HE. }
  destruct (default_component c tu kw nums n W F e s w Hs Hw) as [C1 C2]. set (v := number_value n W F e (c_default_unit c) default_multiplier) in *.
  assert (Al : (n = true -> c_allow_negative c = true) -> sign_allowed c v).
  { intros Hn. apply number_value_allowed. replace (coef (unit_length (c_default_unit c)) * coef default_multiplier <? 0) with false by (destruct (c_default_unit c); reflexivity).
    now rewrite xorb_false_r. }
  assert (A : sign_allowed c v \/ c_allow_negative c = false /\ is_negative v = true).
  { unfold sign_allowed. destruct (c_allow_negative c), (is_negative v); auto. }
  destruct A as [A|[A1 A2]]; [left|right].
  - destruct (C23_multiple_complete c tu kw nums _ _ HE HD U2 Hm (cs_last _ _ _ _ _ _ C2)) as (d & E1 & _ & E3); [intros x [<-|[]]; exact A|].
    destruct (C23_multiple_complete c tu kw nums _ _ HE HD U1 Hm (cs_last _ _ _ _ _ _ C1)) as (d' & E1' & _ & E3'); [intros x [<-|[]]; exact A|].
    exists d, d'. split; [exact E1|]. split; [exact E1'|]. congruence.
  - split; [|split; [|split; [|exact A1]]].
    + apply C51_multiple_errors; auto. now apply (c_negative c tu kw nums _ _ v []).
    + apply C51_multiple_errors; auto. now apply (c_negative c tu kw nums _ _ v []).
    + destruct n; [reflexivity|]. destruct Al as [Al|Al]; [discriminate|congruence|congruence].
Qed.
Print Assumptions C81_same_as_written_multiple.

(** two parsers which differ in the default unit only: they accept the same and with the same result, but for numbers without a unit *)
Theorem C81_only_bare_numbers : forall c u tu kw nums s, env_ok c tu kw nums -> utf8 s = true -> c_allow_multiple c = false ->
  (exists n l W F e, signed c s n l /\ number c l W F e []) \/
  (forall d, parse (set_default_unit c u) s tu kw nums = Ok d <-> parse c s tu kw nums = Ok d).
Proof.
  intros c u tu kw nums s HE U Hm.
  assert (HE' := du_env c u tu kw nums HE).
  assert (Half : forall c u d, env_ok c tu kw nums -> c_allow_multiple c = false -> parse c s tu kw nums = Ok d ->
     (exists n l W F e, signed c s n l /\ number c l W F e []) \/ parse (set_default_unit c u) s tu kw nums = Ok d).
  { clear - U. intros c u d HE Hm H. apply (C22_single_grammar c tu kw nums s d HE U Hm) in H. destruct H as [H A].
    assert (B : (exists n l W F e, signed c s n l /\ number c l W F e []) \/ single_duration (set_default_unit c u) tu kw nums s d).
    { destruct H as [s n l W F x H1 H2|s n l W F x r v m H1 H2 H3 H4 H5|s n l H1 H2 H3|s n l v m H1 H2 H3|s n l v m H1 H2 H3 H4 H5|s n l num r v m H1 H2 H3 H4 H5 H6].
      - left. now exists n, l, W, F, x.
      - right. eapply SpecGrammar.sd_number_unit; [apply du_signed; eassumption|apply du_number; eassumption|assumption|assumption|now apply du_unit].
      - right. eapply SpecGrammar.sd_infinity; [apply du_signed; eassumption|exact H2|assumption].
      - right. eapply SpecGrammar.sd_keyword; [apply du_signed; eassumption|exact H2|exact H3].
      - right. eapply SpecGrammar.sd_unit; [apply du_signed; eassumption|exact H2|exact H3|exact H4|now apply du_unit].
      - right. eapply SpecGrammar.sd_numeral; [apply du_signed; eassumption|exact H2|exact H3| |exact H5|now apply du_unit].
        intros Q1 Q2. apply (H4 Q1). now apply du_unit_like in Q2. }
    destruct B as [B|B]; [left; exact B|right].
    apply (C22_single_grammar (set_default_unit c u) tu kw nums s d (du_env c u tu kw nums HE) U Hm). split; [exact B|exact A]. }
  destruct (parse c s tu kw nums) as [d1|e1|k1] eqn:E1.
  - destruct (Half c u d1 HE Hm E1) as [B|B]; [left; exact B|right]. intros d. rewrite B. reflexivity.
  - destruct (parse (set_default_unit c u) s tu kw nums) as [d2|e2|k2] eqn:E2; [|right; intros d; split; discriminate|right; intros d; split; discriminate].
    destruct (Half (set_default_unit c u) (c_default_unit c) d2 HE' Hm E2) as [B|B].
    + left. destruct B as (n & l & W & F & e & B1 & B2). exists n, l, W, F, e.
      apply (du_signed _ (c_default_unit c)) in B1. apply (du_number _ (c_default_unit c)) in B2. destruct c; auto.
    + exfalso. assert (Q : set_default_unit (set_default_unit c u) (c_default_unit c) = c) by (destruct c; reflexivity). rewrite Q in B. congruence.
  - exfalso. destruct (C20_never_crashes c tu kw nums s HE U) as [(d & Q & _)|(e & Q)]; congruence.
Qed.
Print Assumptions C81_only_bare_numbers.

(** *** Errors *)
Section SameErrors.
Context (c : config) (u : time_unit) (tu : units_like) (kw : option units_like) (nums : option numbers_like) (s : str).
Notation c' := (set_default_unit c u).
Lemma du_sign_error l e : sign_error c s l e -> sign_error c' s l e.
Proof. destruct 1; [now apply se_end|now apply se_delimiters]. Qed.
Lemma du_fraction_error W l e : fraction_error c s W l e -> fraction_error c' s W l e.
Proof. destruct 1; [now apply fe_disabled|now apply fe_no_digits]. Qed.
Lemma du_exponent_error l e : exponent_error c s l e -> exponent_error c' s l e.
Proof. destruct 1; [now apply xe_disabled|now apply xe_end|now apply xe_sign_end|eapply xe_no_digit; eassumption|eapply xe_negative; eassumption|eapply xe_positive; eassumption]. Qed.
Lemma du_number_error l e : number_error c s l e -> number_error c' s l e.
Proof.
  destruct 1; [eapply ne_fraction; [eassumption|now apply du_fraction_error]
              |eapply ne_exponent; [eassumption|apply du_fraction; eassumption|assumption|now apply du_exponent_error]
              |eapply ne_delimiters; [eassumption|apply du_fraction; eassumption|assumption|apply du_exponent; eassumption|assumption|assumption]].
Qed.
Lemma du_single_unit_error l e : single_unit_error c tu s l e -> single_unit_error c' tu s l e.
Proof. destruct 1; [eapply sue_end; eassumption|eapply sue_ago; eassumption]. Qed.
Lemma du_connection l r : connection c l r -> connection c' l r.
Proof. destruct 1; [eapply con_delimiter; eassumption|eapply con_word; eassumption]. Qed.
Lemma du_next l r : next_component c l r -> next_component c' l r.
Proof. destruct 1; [now apply nc_adjacent|apply nc_connection; now apply du_connection]. Qed.
Lemma du_multi_unit l v m r : multi_unit c tu l v m r -> multi_unit c' tu l v m r.
Proof. destruct 1; [eapply mu_plain; [eassumption|assumption|eassumption|assumption|assumption|now apply du_next]|eapply mu_ago; [eassumption|assumption|eassumption|eassumption|now apply du_next]]. Qed.
Lemma du_next_error l e : next_error c s l e -> next_error c' s l e.
Proof. destruct 1 as [|ds y H1 H2 H3 [ws1 w ws2 z G1 G2 G3 G4]]; [now apply nx_end|eapply nx_conjunction; [eassumption|assumption|assumption|econstructor; eassumption]]. Qed.
Lemma du_multi_unit_error l e : multi_unit_error c tu s l e -> multi_unit_error c' tu s l e.
Proof.
  destruct 1; [eapply mue_ago; eassumption|eapply mue_next; [eassumption|assumption|assumption|assumption|assumption|now apply du_next_error]
              |eapply mue_ago_next; [eassumption|assumption|assumption|eassumption|now apply du_next_error]].
Qed.
Lemma du_multi_infinity l0 w l e : multi_infinity_error c s l0 w l e -> multi_infinity_error c' s l0 w l e.
Proof. induction 1; [now apply mie_next|apply mie_end|now apply mie_wrong|now apply mie_more|apply mie_delimiter; now apply du_next_error]. Qed.
End SameErrors.
Lemma du_back c u : set_default_unit (set_default_unit c u) (c_default_unit c) = c.
Proof. destruct c; reflexivity. Qed.
Section SameErrors2.
Context (c : config) (u : time_unit) (tu : units_like) (kw : option units_like) (nums : option numbers_like) (s : str).
Notation c' := (set_default_unit c u).
Lemma du_no_single_unit l : no_single_unit c tu s l -> no_single_unit c' tu s l.
Proof.
  intros [H1 H2]. split.
  - intros H. apply H1. now apply (du_unit_like c u).
  - intros [e H]. apply H2. exists e. apply (du_single_unit_error _ (c_default_unit c)) in H. now rewrite du_back in H.
Qed.
Lemma du_single_error e : c_allow_negative c = true -> single_error c tu kw nums s e -> single_error c' tu kw nums s e.
Proof.
  intros Hn H. destruct H.
  - now apply s_empty.
  - apply s_sign. now apply du_sign_error.
  - eapply s_number; [apply du_signed; eassumption|now apply du_number_error].
  - eapply s_no_units; [eapply du_signed; eassumption|apply du_number; eassumption|assumption|assumption].
  - eapply s_bad_unit; [eapply du_signed; eassumption|apply du_number; eassumption|assumption|assumption|now apply du_no_single_unit].
  - eapply s_unit; [eapply du_signed; eassumption|apply du_number; eassumption|assumption|assumption|now apply du_single_unit_error].
  - eapply s_infinity; [eapply du_signed; eassumption|assumption|eassumption|assumption|eassumption].
  - eapply s_word_unit; [eapply du_signed; eassumption|assumption|assumption|assumption|now apply du_single_unit_error].
  - eapply s_unknown; [eapply du_signed; eassumption|assumption|assumption|intros Q; apply du_no_single_unit; auto|assumption].
  - eapply s_numeral_end; [eapply du_signed; eassumption|eassumption|assumption|intros Q; apply du_no_single_unit; auto|assumption].
  - eapply s_numeral_unit; [eapply du_signed; eassumption|eassumption|assumption|intros Q; apply du_no_single_unit; auto|eassumption|now apply du_single_unit_error].
  - eapply s_numeral_no_unit; [eapply du_signed; eassumption|eassumption|assumption|intros Q; apply du_no_single_unit; auto|eassumption|now apply du_no_single_unit|assumption].
  - congruence.
Qed.
Lemma du_component t d r : component c tu kw nums t d r -> exists d', component c' tu kw nums t d' r.
Proof.
  destruct 1.
  - eexists. eapply co_number; [apply du_signed; eassumption|apply du_number; eassumption|assumption|now apply du_next].
  - eexists. eapply co_number_unit; [apply du_signed; eassumption|apply du_number; eassumption|assumption|apply du_multi_unit; eassumption].
  - eexists. eapply co_inf; [apply du_signed; eassumption|assumption|eassumption|assumption|now apply du_next].
  - eexists. eapply co_infinity; [apply du_signed; eassumption|assumption|eassumption|assumption|eassumption|assumption|now apply du_next].
  - eexists. eapply co_keyword; [apply du_signed; eassumption|assumption|eassumption|now apply du_next].
  - eexists. eapply co_unit; [apply du_signed; eassumption|assumption|eassumption|assumption|apply du_multi_unit; eassumption].
  - eexists. eapply co_numeral; [apply du_signed; eassumption|eassumption|assumption|assumption|eassumption|apply du_multi_unit; eassumption].
Qed.
Lemma du_component_error t e : component_error c tu kw nums s t e -> component_error c' tu kw nums s t e.
Proof.
  destruct 1.
  - now apply m_empty.
  - apply m_sign. now apply du_sign_error.
  - eapply m_number; [apply du_signed; eassumption|now apply du_number_error].
  - eapply m_number_next; [apply du_signed; eassumption|apply du_number; eassumption|assumption|now apply du_next_error].
  - eapply m_unit; [apply du_signed; eassumption|apply du_number; eassumption|assumption|now apply du_multi_unit_error].
  - eapply m_inf; [apply du_signed; eassumption|assumption|eassumption|now apply du_next_error].
  - eapply m_infinity; [apply du_signed; eassumption|assumption|eassumption|assumption|now apply du_multi_infinity].
  - eapply m_keyword; [apply du_signed; eassumption|assumption|eassumption|now apply du_next_error].
  - eapply m_word_unit; [apply du_signed; eassumption|assumption|assumption|assumption|now apply du_multi_unit_error].
  - eapply m_unknown; [apply du_signed; eassumption|assumption|assumption|assumption|assumption].
  - eapply m_numeral_end; [apply du_signed; eassumption|eassumption|assumption|assumption|assumption].
  - eapply m_numeral_unit; [apply du_signed; eassumption|eassumption|assumption|assumption|eassumption|now apply du_multi_unit_error].
  - eapply m_numeral_no_unit; [apply du_signed; eassumption|eassumption|assumption|assumption|eassumption|assumption|assumption].
Qed.
Lemma du_components_error t e : c_allow_negative c = true -> components_error c tu kw nums s t e -> components_error c' tu kw nums s t e.
Proof.
  intros Hn. induction 1.
  - apply c_wrong. now apply du_component_error.
  - congruence.
  - destruct (du_component _ _ _ H) as [d' H']. eapply c_later; [exact H'|now left|assumption|assumption].
Qed.
End SameErrors2.
(** the default unit has no influence on what is accepted, and on which error it is otherwise *)
Theorem C81_same_errors : forall c u tu kw nums s e, env_ok c tu kw nums -> delims_ok c kw nums -> utf8 s = true ->
  c_allow_negative c = true ->
  (parse (set_default_unit c u) s tu kw nums = Err e <-> parse c s tu kw nums = Err e).
Proof.
  assert (Half : forall c u tu kw nums s e, env_ok c tu kw nums -> delims_ok c kw nums -> utf8 s = true ->
    c_allow_negative c = true -> parse c s tu kw nums = Err e -> parse (set_default_unit c u) s tu kw nums = Err e).
  { intros c u tu kw nums s e HE HD U Hn H. pose proof (du_env c u tu kw nums HE) as HE'.
    destruct (c_allow_multiple c) eqn:Hm.
    - apply C51_multiple_errors; auto. apply du_components_error; [exact Hn|]. apply C51_multiple_errors; auto.
    - apply C51_single_errors; auto. apply du_single_error; [exact Hn|]. apply C51_single_errors; auto. }
  intros c u tu kw nums s e HE HD U Hn. split; intros H; [|now apply Half].
  rewrite <- (du_back c u). apply Half; auto. now apply du_env.
Qed.
Print Assumptions C81_same_errors.

(** systemd: the default unit is the one given to the parser *)
Theorem C81_systemd : forall p u W fr F gap w max, made p u -> digit_string W -> fraction_text fr F -> W ++ F <> [] -> (length F <= 18)%nat ->
  white_space gap -> denotes systemd_units w u -> duration_ok max -> is_negative max = false ->
  exists d d', sd_parse_with_max p (W ++ fr) max = Ok d /\ sd_parse_with_max p (W ++ fr ++ gap ++ w) max = Ok d' /\ nanos d = nanos d'.
Proof.
  intros p u W fr F gap w max Hp H1 H2 H3 H4 H5 H6 H7 H8.
  assert (Wn : white_space []) by (intros x []).
  assert (Pn : plus_text []) by now left.
  destruct (C47_time_spans p u [] _ [] _ max Hp (span_last _ _ _ _ _ (part_number u systemd_units [] W fr F Pn H1 H2 H3 H4)) Wn Wn H7 H8) as (d & E1 & _ & E3).
  destruct (C47_time_spans p u [] _ [] _ max Hp (span_last _ _ _ _ _ (part_number_unit u systemd_units [] W fr F gap w u Pn H1 H2 H3 H4 H5 H6)) Wn Wn H7 H8) as (d' & E1' & _ & E3').
  cbn [app] in *. rewrite app_nil_r in *. exists d, d'. split; [exact E1|]. split; [exact E1'|]. congruence.
Qed.
Print Assumptions C81_systemd.

(** ** Examples *)
Definition ex_minutes : config := set_default_unit ex_single Minute.
Example C81_hypotheses : env_ok ex_minutes ex_units (Some ex_keywords) (Some ex_numerals) /\
  number_text ex_minutes true (%"1") (%"5") 1 (%"-1.5e1") /\ default_unit_text ex_minutes ex_units (%" min").
Proof.
  split; [apply ex_env; auto|]. split.
  - apply (NumberText ex_minutes true (%"1") (%"5") 1 (%"-") (%".5") (%"e1")); try reflexivity; try discriminate.
    + constructor.
    + each.
    + apply (ft_some (%"5")). each.
    + apply (et_some 101 [] false (%"1")); try reflexivity; try discriminate; [now left|apply st_none|each|split; discriminate].
  - exists (%" "), (%"min"). split; [reflexivity|]. split; [|split; [|split; [discriminate|split; [reflexivity|split; [|split; reflexivity]]]]].
    + split; [each|]. split; [reflexivity|]. split; [discriminate|]. right. discriminate.
    + repeat split.
    + intros x Hx. cbn in Hx. destruct Hx as [<-|[<-|[<-|[]]]]; split; reflexivity.
Qed.
Example C81_example : parse ex_minutes (%"-1.5e1 min") ex_units (Some ex_keywords) (Some ex_numerals) = Ok (Dur true (Std 900 0)) /\
  parse ex_minutes (%"-1.5e1") ex_units (Some ex_keywords) (Some ex_numerals) = Ok (Dur true (Std 900 0)) /\
  parse ex_single (%"-1.5e1") ex_units (Some ex_keywords) (Some ex_numerals) = Ok (Dur true (Std 15 0)) /\
  parse ex_single (%"next fortnight") ex_units (Some ex_keywords) (Some ex_numerals) = parse ex_minutes (%"next fortnight") ex_units (Some ex_keywords) (Some ex_numerals).
Proof. repeat split; reflexivity. Qed.
