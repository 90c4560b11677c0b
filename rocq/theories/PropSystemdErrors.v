(** * Property C78: which error the systemd parser rejects a text with *)
From Verif Require Import Prelude Time Config Parse SpecTime SpecNum SpecParse SpecValue SpecGrammar SpecErrors SpecSpelling SpecSystemd SpecSystemdErrors
  Utf8Proofs TimeProofs NumProofs SafeProofs RefGrammar ErrorProofs StandardProofs Systemd SystemdProofs SystemdSpan SystemdExact SystemdErrors
  PropParse PropErrors PropSystemd PropSystemdExact ExEnv.

Section Common.
Context (u : time_unit) (tu : units_like) (table : list (time_unit * list str)).
Hypothesis Henv : env_ok (sd_with_default_unit u) tu None None.
Hypothesis Hget : forall id u m, u_get tu id = Some (u, m) <-> m = Mul 1 0 /\ denotes table id u.
Hypothesis Hemp : u_is_empty tu = false.
Hypothesis Hword : forall w u, denotes table w u -> w <> [] /\ starts_not is_e w /\ utf8 w = true /\
  forall x, In x w -> ~ white x /\ is_digit x = false /\ is_sign x = false /\ is_dot x = false.

Lemma common_text_errors t e max : utf8 t = true -> trimmed t -> is_negative max = false ->
  (common u tu t max = Err e <-> (t = [] /\ e = Empty) \/ (t <> [] /\ t <> %"infinity" /\ span_error u table t t e)).
Proof.
  intros U T Hm. rewrite common_unfold by assumption. cbv zeta.
  assert (Et : trim_end (trim_start t) = t).
  { pose proof (trim_unique [] t []) as X. rewrite app_nil_r in X. apply X; auto; try (intros x []). exact (utf8_bytes t U). }
  rewrite Et. destruct (str_eqb t (%"infinity")) eqn:Ei.
  - apply str_eqb_iff in Ei. split; [discriminate|]. intros [[-> _]|(_ & N & _)]; [discriminate|congruence].
  - assert (Ni : t <> %"infinity"). { intros ->. vm_compute in Ei. discriminate. }
    assert (M : forall r : res duration, map_res (fun d => dmin d max) r = Err e <-> r = Err e) by (intros [d|e'|cr]; cbn; split; congruence).
    rewrite M, (C51_multiple_errors _ _ _ _ _ _ Henv (sd_delims_ok u) U eq_refl). destruct t as [|x t0] eqn:E.
    + split.
      * intros H. left. split; [reflexivity|]. apply (C51_multiple_errors _ _ _ _ _ _ Henv (sd_delims_ok u) U eq_refl) in H. vm_compute in H. congruence.
      * intros [[_ ->]|(N & _)]; [|congruence]. apply c_wrong. now apply m_empty.
    + rewrite <- E in *. assert (N : t <> []) by (rewrite E; discriminate). clear E.
      rewrite (sd_errors_iff u tu table Hget Hemp Hword t (proj2 T) t e) by (auto; now exists []). split; [auto|]. intros [[H _]|(_ & _ & H)]; [contradiction|exact H].
Qed.
Lemma common_errors s e max : utf8 s = true -> is_negative max = false -> (common u tu s max = Err e <-> rejected u table s e).
Proof.
  intros Hs Hm. split.
  - intros H. destruct (trim_split s (utf8_bytes s Hs)) as (ws1 & ws2 & Es & H1 & H2 & H3). exists ws1, (trim_end (trim_start s)), ws2. do 4 (split; [assumption|]).
    apply (common_text_errors _ e max); auto; [now apply trim_utf8|]. rewrite Es, common_around in H by assumption. exact H.
  - intros (ws1 & t & ws2 & -> & H1 & H2 & H3 & H). rewrite common_around by assumption. rewrite white_utf8, utf8_white_end in Hs by assumption. now apply common_text_errors.
Qed.
End Common.

(** the kind of the error, its position and its message, whatever the maximum *)
Theorem C78_errors : forall p u s max e, made p u -> utf8 s = true -> is_negative max = false ->
  (sd_parse_with_max p s max = Err e <-> rejected u systemd_units s e).
Proof.
  intros p u s max e ->%made_is Hs Hm. rewrite with_max_common. apply common_errors; auto; [apply sd_env_ok|exact sd_get_spec|exact systemd_words_ok].
Qed.
Print Assumptions C78_errors.
Theorem C78_nanos_errors : forall p u s max e, made p u -> utf8 s = true -> is_negative max = false ->
  (sd_parse_nanos_with_max p s max = Err e <-> rejected u systemd_nanos_units s e).
Proof.
  intros p u s max e ->%made_is Hs Hm. rewrite nanos_with_max_common. apply common_errors; auto; [apply sd_env_nanos_ok|exact sd_get_nanos_spec|exact systemd_nanos_words_ok].
Qed.
Print Assumptions C78_nanos_errors.
Theorem C78_default_errors : forall p u s e, made p u -> utf8 s = true ->
  (sd_parse p s = Err e <-> rejected u systemd_units s e) /\ (sd_parse_nanos p s = Err e <-> rejected u systemd_nanos_units s e).
Proof.
  intros p u s e Hp Hs. destruct C37_maxima as (a & b & Ea & Eb & Oa & Ob & Na & Nb & _). unfold sd_parse, sd_parse_nanos. rewrite Ea, Eb. cbn [bind].
  split; [now apply C78_errors|now apply C78_nanos_errors].
Qed.
Print Assumptions C78_default_errors.
Example C78_errors_example : let E s e := sd_parse sd_new (%s) = Err e in
  E " "%string Empty /\
  E "1min +"%string (Syntax 6 (%"Unexpected end of input. Sign without a number")) /\
  E "1 h .m"%string (Syntax 4 (%"Either the whole number part or the fraction must be present")) /\
  E "1.5e3s"%string (Syntax 3 (%"No exponent allowed")) /\
  E "2h 1 minutes ago"%string (InvalidInput (%"ago")) /\
  E "+ 1"%string (InvalidInput (%" 1")) /\
  E "1ns"%string (InvalidInput (%"ns")) /\ sd_parse_nanos sd_new (%"1ns") = Ok (Dur false (Std 0 1)) /\
  E "1min-1s"%string NegativeNumber /\ E "-infinity"%string (InvalidInput (%"infinity")) /\ E "-s"%string NegativeNumber.
Proof. repeat split. Qed.
(** derived by hand from the rules: the first part is fine, the second one is negative *)
Example C78_errors_rule_example : rejected Hour systemd_units (%" 1.5 -2 s foo") NegativeNumber.
Proof.
  assert (D : forall x : byte, In x (%"152") -> 48 <= x <= 57) by (intros x [<-|[<-|[<-|[]]]]; split; vm_compute; discriminate).
  exists (%" "), (%"1.5 -2 s foo"), []. split; [reflexivity|]. split; [intros x [<-|[]]; now left|]. split; [intros x []|].
  split. { split; [intros x r [= <- _]; unfold white; lia|]. intros x r E. apply (f_equal (@rev Z)) in E. rewrite rev_app_distr in E. injection E as <- _. unfold white. lia. }
  right. split; [discriminate|]. split; [discriminate|].
  assert (W : white_space (%" ")) by (intros x [<-|[]]; now left).
  apply (sp_later Hour systemd_units _ _ false Hour (%"1") (%"5") (%"-2 s foo")); [|discriminate|discriminate|].
  - refine (pc_number Hour systemd_units [] false (%"1") (%".5") (%"5") (%" ") (%"-2 s foo") st_none _ (ft_some _ _) _ _ W _ _).
    + intros x [<-|[]]. apply D. now left.
    + intros x [<-|[]]. apply D. right. now left.
    + discriminate.
    + intros x r [= <- _]. unfold digit. lia.
    + intros x r [= <- _]. unfold white. lia.
    + intros (w & v & r & E & (ws & Hw & Hi) & _). destruct w as [|y w].
      * cbn in Hw. intuition (try congruence); match goal with H : (_, _) = (_, _) |- _ => injection H as <- <- end; cbn in Hi; intuition discriminate.
      * injection E as <- _. cbn in Hw. intuition (try congruence); match goal with H : (_, _) = (_, _) |- _ => injection H as <- <- end; cbn in Hi; intuition discriminate.
  - apply sp_here. refine (pe_negative Hour systemd_units _ _ Second (%"2") [] (%"foo") _ _).
    + refine (pc_number_unit Hour systemd_units (%"-") true (%"2") [] [] (%" ") (%"s") Second (%" ") (%"foo") st_minus _ ft_none _ W _ _ W _).
      * intros x [<-|[]]. apply D. right. right. now left.
      * discriminate.
      * exists [%"s"; %"sec"; %"second"; %"seconds"]. split; [cbn; tauto|now left].
      * intros x r [= <- _]. left. now left.
      * intros x r [= <- _]. unfold white. lia.
    + vm_compute. discriminate.
Qed.

(** the rules do not overlap *)
Theorem C78_one_error : forall u s e1 e2, utf8 s = true ->
  (rejected u systemd_units s e1 -> rejected u systemd_units s e2 -> e1 = e2) /\
  (rejected u systemd_nanos_units s e1 -> rejected u systemd_nanos_units s e2 -> e1 = e2).
Proof.
  intros u s e1 e2 Hs. destruct (C78_default_errors _ u s e1 (made_with u) Hs) as [A1 A2]. destruct (C78_default_errors _ u s e2 (made_with u) Hs) as [B1 B2].
  split; intros H1 H2; [apply A1 in H1; apply B1 in H2|apply A2 in H1; apply B2 in H2]; congruence.
Qed.
Print Assumptions C78_one_error.
Example C78_one_error_example : forall e, rejected Hour systemd_units (%" 1.5 -2 s foo") e -> e = NegativeNumber.
Proof. intros e H. exact (proj1 (C78_one_error Hour (%" 1.5 -2 s foo") e NegativeNumber eq_refl) H C78_errors_rule_example). Qed.

(** every text is either a time span (or infinity) or rejected, never both *)
Theorem C78_span_or_error : forall u s max, utf8 s = true -> duration_ok max -> is_negative max = false ->
  ((exists d, means u systemd_units max s d) /\ (forall e, ~ rejected u systemd_units s e)) \/
  ((exists e, rejected u systemd_units s e) /\ (forall d, ~ means u systemd_units max s d)).
Proof.
  intros u s max Hs Hm Hn. pose proof (C37_within_max _ u s max (made_with u) Hs Hm Hn) as C.
  pose proof (fun d => C73_exactly_time_spans _ u s max d (made_with u) Hs Hm Hn) as M. pose proof (fun e => C78_errors _ u s max e (made_with u) Hs Hn) as R.
  destruct C as [(d & E & _)|(e & E)].
  - left. split; [exists d; now apply M|]. intros e H. apply R in H. congruence.
  - right. split; [exists e; now apply R|]. intros d H. apply M in H. congruence.
Qed.
Print Assumptions C78_span_or_error.
Theorem C78_span_or_error_nanos : forall u s max, utf8 s = true -> duration_ok max -> is_negative max = false ->
  ((exists d, means u systemd_nanos_units max s d) /\ (forall e, ~ rejected u systemd_nanos_units s e)) \/
  ((exists e, rejected u systemd_nanos_units s e) /\ (forall d, ~ means u systemd_nanos_units max s d)).
Proof.
  intros u s max Hs Hm Hn. pose proof (C37_nanos_within_max _ u s max (made_with u) Hs Hm Hn) as C.
  pose proof (fun d => C73_exactly_time_spans_nanos _ u s max d (made_with u) Hs Hm Hn) as M. pose proof (fun e => C78_nanos_errors _ u s max e (made_with u) Hs Hn) as R.
  destruct C as [(d & E & _)|(e & E)].
  - left. split; [exists d; now apply M|]. intros e H. apply R in H. congruence.
  - right. split; [exists e; now apply R|]. intros d H. apply M in H. congruence.
Qed.
Print Assumptions C78_span_or_error_nanos.
Example C78_span_or_error_example : (exists d, sd_parse sd_new (%"1min 2") = Ok d) /\ (exists e, rejected Hour systemd_units (%" 1.5 -2 s foo") e).
Proof. split; [eexists; reflexivity|eexists; exact C78_errors_rule_example]. Qed.

(** the position is counted in the text without the white space in front, not in the given input *)
Theorem C78_position_in_input_refuted :
  ~ (forall s p msg, utf8 s = true -> sd_parse sd_new s = Err (Syntax p msg) -> msg = %"No exponent allowed" ->
      exists pre x l, s = pre ++ x :: l /\ length pre = p /\ (x = 101 \/ x = 69)).
Proof.
  intros H. destruct (H (%" 1e") 1%nat _ eq_refl eq_refl eq_refl) as (pre & x & l & E & L & Hx).
  destruct pre as [|a [|b pre]]; try discriminate L. injection E as _ <- _. lia.
Qed.
Print Assumptions C78_position_in_input_refuted.
