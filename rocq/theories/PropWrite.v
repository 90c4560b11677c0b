(** * Property C80: every duration can be written down *)
From Verif Require Import Prelude Util Time Config Bytes Repr Parse SpecTime SpecNum SpecValue SpecParse SpecGrammar SpecSpelling SpecSystemd SpecGnu
  TimeProofs NumProofs Utf8Proofs ValueProofs RefGrammar SpellProofs SwitchProofs SafeProofs Standard StandardProofs Systemd DateTime Gnu
  ExEnv PropTime PropNum PropParse PropStandard PropDisplay PropSystemd PropGnu PropGnuText.

(** ** Specification *)
(** a number of nanoseconds, written in seconds with nine decimal places: `-1.500000000` for -1500000000 *)
Inductive seconds_text : Z -> str -> Prop :=
| SecondsText v sg W F : sg = (if v <? 0 then %"-" else []) -> W <> [] -> digit_string W -> digit_string F -> length F = 9%nat ->
    dval (W ++ F) = Z.abs v -> seconds_text v (sg ++ W ++ %"." ++ F).

(** ** Helpers *)
(** the digits of a number, with as many places as wanted *)
Fixpoint places (k : nat) (x : Z) : str := match k with O => [] | S k => places k (x / 10) ++ [48 + x mod 10] end.
Lemma places_spec k : forall x, 0 <= x < 10 ^ Z.of_nat k -> digit_string (places k x) /\ length (places k x) = k /\ dval (places k x) = x.
Proof.
  induction k as [|k IH]; intros x Hx.
  - split; [intros b []|]. split; [reflexivity|]. change (10 ^ Z.of_nat 0) with 1 in Hx. cbn. lia.
  - rewrite Nat2Z.inj_succ, Z.pow_succ_r in Hx by lia. pose proof (Z.mod_pos_bound x 10). pose proof (Z.div_mod x 10).
    destruct (IH (x / 10)) as (H1 & H2 & H3). { split; [apply Z.div_pos; lia|apply Z.div_lt_upper_bound; lia]. }
    cbn [places]. split; [|split].
    + apply digit_string_app. split; [exact H1|]. intros b [<-|[]]. lia.
    + rewrite app_length, H2. cbn. lia.
    + rewrite dval_app, H3, dval_digit. cbn [length]. change (10 ^ Z.of_nat 1) with 10. lia.
Qed.
Lemma value_text n W F : digit_string W -> digit_string F -> length F = 9%nat -> dval (W ++ F) <= max_nanos ->
  nanos (number_value n W F 0 Second default_multiplier) = signed_nanos n (dval (W ++ F)).
Proof.
  intros HW HF HL Hm. rewrite (number_value_nanos n W F 0 Second default_multiplier HW HF). cbv zeta. cbn [unit_length coef expo default_multiplier].
  rewrite HL. change (1 * 1 <? 0) with false. rewrite xorb_false_r. f_equal. unfold magnitude.
  change (18 + (0 + 0 + 0 - Z.of_nat 9)) with 9. unfold floor_scale10. change (0 <=? 9) with true. cbv iota.
  change (Z.abs (1 * 1)) with 1. rewrite Z.mul_1_l. change 1000000000 with (10 ^ 9). rewrite Z.div_mul by lia. lia.
Qed.
Lemma abs_signed v : signed_nanos (v <? 0) (Z.abs v) = v.
Proof. unfold signed_nanos. destruct (v <? 0) eqn:E; lia. Qed.
Lemma sign_text_of v : sign_text (if v <? 0 then %"-" else []) (v <? 0).
Proof. destruct (v <? 0); constructor. Qed.
Lemma text_utf8 v s : seconds_text v s -> utf8 s = true.
Proof.
  intros [w sg W F -> H1 H2 H3 _ _]. rewrite (utf8_sign _ _ _ (sign_text_of w)), utf8_digits by exact H2.
  rewrite <- (app_nil_r F), (app_assoc (%".")), (utf8_fraction _ _ _ (ft_some F H3)). reflexivity.
Qed.

(** ** C80 *)
(** every duration has such a text, which depends on nothing but its value *)
Theorem C80_has_a_text : forall v, representable v -> exists s, seconds_text v s.
Proof.
  intros v Hv. unfold representable in Hv. destruct (places_spec 29 (Z.abs v)) as (H1 & H2 & H3).
  { assert (max_nanos < 10 ^ Z.of_nat 29) by reflexivity. lia. }
  exists ((if v <? 0 then %"-" else []) ++ firstn 20 (places 29 (Z.abs v)) ++ %"." ++ skipn 20 (places 29 (Z.abs v))).
  apply SecondsText.
  - reflexivity.
  - intros E. apply (f_equal (@length Z)) in E. rewrite firstn_length, H2 in E. discriminate.
  - intros b Hb. apply H1. rewrite <- (firstn_skipn 20). apply in_or_app. now left.
  - intros b Hb. apply H1. rewrite <- (firstn_skipn 20). apply in_or_app. now right.
  - rewrite skipn_length, H2. reflexivity.
  - rewrite firstn_skipn. exact H3.
Qed.
Print Assumptions C80_has_a_text.

(** every parser whose default unit is the second, with fractions, reads it back: whatever its other settings, time units, keywords and
    numerals are *)
Theorem C80_single : forall c tu kw nums v s, env_ok c tu kw nums -> c_allow_multiple c = false ->
  c_default_unit c = Second -> c_disable_fraction c = false -> (v < 0 -> c_allow_negative c = true) ->
  (c_allow_sign_delimiter c = true -> forall x, 48 <= x <= 57 -> c_inner_delimiter c x = false) ->
  representable v -> seconds_text v s ->
  exists d, parse c s tu kw nums = Ok d /\ duration_ok d /\ nanos d = v.
Proof.
  intros c tu kw nums v s HE Hm Hu Hf Hn Hd Hv Hs. unfold representable in Hv. destruct Hs as [w sg W F Esg H1 H2 H3 H4 H5].
  exists (number_value (w <? 0) W F 0 Second default_multiplier).
  split; [|split; [now apply number_value_ok|rewrite value_text by (auto; lia); rewrite H5; apply abs_signed]].
  rewrite <- (app_nil_r (%"." ++ F)). rewrite <- Hu. subst sg.
  apply single_number_text_default; auto.
  - apply sign_text_of.
  - now constructor.
  - constructor.
  - intros E. apply app_eq_nil in E. destruct E. contradiction.
  - intros E. now elim E.
  - intros _ Hs. destruct W as [|x W]; [contradiction|]. apply Hd; [exact Hs|]. apply H2. now left.
  - apply number_value_allowed. rewrite Hu. change (coef (unit_length Second) * coef default_multiplier <? 0) with false. rewrite xorb_false_r.
    intros E. apply Hn. lia.
Qed.
Print Assumptions C80_single.

(** the same if several durations are allowed *)
Theorem C80_multiple : forall c tu kw nums v s, env_ok c tu kw nums -> delims_ok c kw nums -> c_allow_multiple c = true ->
  c_default_unit c = Second -> c_disable_fraction c = false -> (v < 0 -> c_allow_negative c = true) ->
  (c_allow_sign_delimiter c = true -> forall x, 48 <= x <= 57 -> c_inner_delimiter c x = false) ->
  representable v -> seconds_text v s ->
  exists d, parse c s tu kw nums = Ok d /\ duration_ok d /\ nanos d = v.
Proof.
  intros c tu kw nums v s HE HD Hm Hu Hf Hn Hd Hv Hs. pose proof (text_utf8 _ _ Hs) as U. unfold representable in Hv.
  destruct Hs as [w sg W F Esg H1 H2 H3 H4 H5].
  set (d := number_value (w <? 0) W F 0 Second default_multiplier).
  assert (Nd : nanos d = w) by (unfold d; rewrite value_text by (auto; lia); rewrite H5; apply abs_signed).
  assert (Ne : W ++ F <> []) by (intros E; apply app_eq_nil in E; destruct E; contradiction).
  assert (C : component c tu kw nums (sg ++ W ++ %"." ++ F) d []).
  { unfold d. rewrite <- Hu. subst sg.
    apply (co_number c tu kw nums _ (w <? 0) (W ++ %"." ++ F) W F 0 [] []).
    - apply signed_text; [apply sign_text_of|destruct W; [contradiction|discriminate]| |].
      + destruct W as [|x W]; [contradiction|]. cbn. assert (48 <= x <= 57) by (apply H2; now left). unfold is_sign. lia.
      + intros _ Hsd. destruct W as [|x W]; [contradiction|]. apply Hd; [exact Hsd|]. apply H2. now left.
    - pose proof (number_of_text c W (%"." ++ F) F [] 0 [] [] H2 (ft_some F H3) et_none Ne) as H. cbn [app] in H. rewrite !app_nil_r in H. apply H.
      + auto.
      + intros E. now elim E.
      + repeat split; auto.
      + repeat split.
    - right. intros (a & b & [Ha _] & Hb & _). symmetry in Ha. apply app_eq_nil in Ha. destruct Ha. contradiction.
    - constructor. exact Logic.I. }
  destruct (C23_multiple_complete c tu kw nums _ _ HE HD U Hm (cs_last _ _ _ _ _ _ C)) as (D & E1 & E2 & E3).
  - intros x [<-|[]]. unfold d. apply number_value_allowed.
    change (coef (unit_length Second) * coef default_multiplier <? 0) with false. rewrite xorb_false_r. intros E. apply Hn. lia.
  - exists D. split; [exact E1|]. split; [exact E2|]. rewrite E3. unfold saturating_sum. cbn [fold_left]. rewrite Nd.
    unfold clamp_nanos, clamp. lia.
Qed.
Print Assumptions C80_multiple.

(** the systemd parsers, for durations which are not negative and not beyond the maximum *)
Theorem C80_systemd : forall p s v max, made p Second -> duration_ok max -> is_negative max = false ->
  0 <= v <= nanos max -> seconds_text v s ->
  (exists d, sd_parse_with_max p s max = Ok d /\ duration_ok d /\ nanos d = v) /\
  (exists d, sd_parse_nanos_with_max p s max = Ok d /\ duration_ok d /\ nanos d = v).
Proof.
  intros p s v max Hp Hm Hn Hv Hs. destruct Hs as [w sg W F -> H1 H2 H3 H4 H5]. replace (w <? 0) with false by lia. cbn [app].
  assert (Ne : W ++ F <> []) by (intros E; apply app_eq_nil in E; destruct E; contradiction).
  assert (T : forall table, time_span Second table (W ++ %"." ++ F) w).
  { intros table. apply (span_last _ _ _ false).
    replace w with (unit_nanos Second * dval (W ++ F) / 10 ^ Z.of_nat (length F)).
    - apply (part_number Second table [] W (%"." ++ F) F); auto; [now left|now constructor|]. rewrite H4. repeat constructor.
    - rewrite H4, H5. cbn [unit_nanos]. change (10 ^ Z.of_nat 9) with 1000000000. rewrite Z.mul_comm, Z.div_mul by lia. lia. }
  assert (Wn : white_space []) by (intros x []).
  destruct (C47_time_spans p Second [] _ [] w max Hp (T _) Wn Wn Hm Hn) as (d & E1 & E2 & E3).
  destruct (C47_time_spans_with_nanos p Second [] _ [] w max Hp (T _) Wn Wn Hm Hn) as (d' & E1' & E2' & E3').
  cbn [app] in *. rewrite app_nil_r in *. split; [exists d|exists d']; repeat split; try assumption; lia || apply E2 || apply E2'.
Qed.
Print Assumptions C80_systemd.

(** the gnu parser, seen from any date *)
Theorem C80_gnu : forall s v now date, representable v -> seconds_text v s ->
  exists d, gnu_parse_with_date gnu_new now s date = Ok d /\ duration_ok d /\ nanos d = v.
Proof.
  intros s v now date Hv Hs. pose proof (text_utf8 _ _ Hs) as U. unfold representable in Hv.
  destruct Hs as [w sg W F Esg H1 H2 H3 H4 H5].
  assert (NF : F <> []) by (destruct F; [discriminate|discriminate]).
  assert (A : gnu_item (sg ++ (W ++ 46 :: F) ++ [] ++ []) (Nanos (clamp_nanos (with_sign (w <? 0) (dval (W ++ F) * 1000000000 / 10 ^ Z.of_nat (length F))))) []).
  { apply (gi_number sg (w <? 0) (W ++ 46 :: F) W F [] []).
    - subst sg. destruct (w <? 0); [apply (gs_minus [])|apply gs_none]. intros x [].
    - apply gn_fraction; auto. intros x r E. discriminate.
    - intros x [].
    - intros x r E. discriminate.
    - now left.
    - intros g ago r' G. inversion G as [w0 g0 r0 I0 _ _ E|w0 g0 l0 r0 I0 _ E]; subst.
      all: apply app_eq_nil in E; destruct E as [-> _]; apply unit_letters in I0; destruct I0; contradiction.
    - now apply na_fraction. }
  set (a := Nanos _) in A. cbn [app] in A. rewrite app_nil_r in A. change (46 :: F) with (%"." ++ F) in A.
  assert (T : trimmed (sg ++ W ++ %"." ++ F)).
  { split.
    - intros x r E. destruct (sg ++ W ++ %"." ++ F) as [|y l] eqn:E2; [discriminate|]. injection E as -> ->.
      subst sg. destruct (w <? 0); cbn [app] in E2; [injection E2 as <- _; intros [H|H]; lia|].
      destruct W as [|y W]; [contradiction|]. injection E2 as -> _. assert (48 <= x <= 57) by (apply H2; now left). intros [H0|H0]; lia.
    - intros x r E. destruct (exists_last NF) as (F' & y & EF). rewrite EF, !app_assoc in E. apply app_inj_tail in E. destruct E as [_ ->].
      assert (48 <= x <= 57) by (apply H3; rewrite EF; apply in_or_app; right; now left). intros [H0|H0]; lia. }
  assert (Wn : white_space []) by (intros x []).
  destruct (C44_fuzzy_complete [] _ [] [a] U Wn Wn T (rt_last _ _ A)) as (d & E1 & E2 & E3). cbn [app] in E1. rewrite app_nil_r in E1.
  exists d. split; [apply C44_date_is_irrelevant, E1|]. split; [exact E2|]. rewrite E3. unfold sum_nanos, a. cbn [fold_left].
  rewrite H4, H5. change (10 ^ Z.of_nat 9) with 1000000000. rewrite Z.div_mul by lia. pose proof (abs_signed w) as As.
  unfold signed_nanos in As. unfold with_sign, clamp_nanos, clamp. destruct (w <? 0); lia.
Qed.
Print Assumptions C80_gnu.

(** the parsers of fundu, as they are constructed *)
Theorem C80_standard : forall v s, 0 <= v <= max_nanos -> seconds_text v s ->
  forall p, p = dp_new \/ p = dp_without_time_units \/ p = dp_with_all_time_units \/ (exists l, p = dp_with_time_units l) ->
  exists d, dp_parse p s = Ok d /\ duration_ok d /\ nanos d = v.
Proof.
  intros v s Hv Hs p Hp.
  assert (Hc : dp_config p = config_new) by (destruct Hp as [->|[->|[->|[l ->]]]]; reflexivity).
  assert (Hr : reachable_data (dp_units p)).
  { destruct Hp as [->|[->|[->|[l ->]]]].
    - eexists. apply units_default_data.
    - eexists. apply units_new_data.
    - eexists. apply units_all_data.
    - eexists. apply units_with_data. }
  unfold dp_parse. assert (He : env_ok (dp_config p) (std_units (dp_units p)) None None).
  { apply std_env_ok; [exact Hr|]. rewrite Hc. exact config_new_ok. }
  rewrite Hc in *. apply C80_single; try reflexivity; auto; try discriminate; try lia. unfold representable. lia.
Qed.
Print Assumptions C80_standard.
(** `fundu::parse_duration` gives the std duration *)
Theorem C80_parse_duration : forall v s, 0 <= v <= max_nanos -> seconds_text v s ->
  exists x, parse_duration s = Ok x /\ std_ok x /\ std_nanos x = v.
Proof.
  intros v s Hv Hs. destruct (C80_standard v s Hv Hs dp_new) as (d & E & _ & N); [now left|].
  destruct (C32_parse_duration s (text_utf8 _ _ Hs)) as [(d' & x & E1 & E2 & E3 & E4)|(e & E1 & _)]; [|congruence].
  exists x. rewrite E in E1. injection E1 as <-. rewrite N in E4. auto.
Qed.
Print Assumptions C80_parse_duration.

(** ** Examples *)
Example C80_text_example : seconds_text (-1500000001) (%"-1.500000001") /\ seconds_text max_nanos (%"18446744073709551615.999999999").
Proof.
  split.
  - apply (SecondsText (-1500000001) (%"-") (%"1") (%"500000001")); try reflexivity; try discriminate; each.
  - apply (SecondsText max_nanos [] (%"18446744073709551615") (%"999999999")); try reflexivity; try discriminate; each.
Qed.
Example C80_example : exists d, parse ex_multi (%"-1.500000001") ex_units (Some ex_keywords) (Some ex_numerals) = Ok d /\ nanos d = -1500000001.
Proof.
  destruct (C80_multiple ex_multi ex_units (Some ex_keywords) (Some ex_numerals) (-1500000001) (%"-1.500000001")) as (d & E & _ & N);
    try reflexivity; try exact ex_env_multi; try exact ex_delims_multi; try apply C80_text_example.
  - intros _ x Hx. cbn. unfold is_ascii_whitespace. lia.
  - unfold representable, max_nanos. lia.
  - exists d. auto.
Qed.
Example C80_gnu_example : forall now, gnu_parse_with_date gnu_new now (%"-1.500000001") None = Ok (Dur true (Std 1 500000001)).
Proof. intros now. reflexivity. Qed.
Example C80_systemd_example : sd_parse sd_new (%"1.500000001") = Ok (Dur false (Std 1 500000001)).
Proof. reflexivity. Qed.
