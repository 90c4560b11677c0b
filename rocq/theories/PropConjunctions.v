(** * C88: a conjunction between two durations says the same as delimiters *)
From Verif Require Import Prelude Time Config Parse SpecTime SpecNum SpecParse SpecValue SpecGrammar SpecSpelling SpecTexts SpecManyTexts.
From Verif Require Import TimeProofs NumProofs ValueProofs SpellProofs Utf8Proofs RefGrammar RefMulti PropNum PropParse PropTexts PropPrefix PropManyTexts Standard StandardProofs PropStandard PropSettings PropModes PropGnuText ExEnv.

(** the last byte of a text is neither a digit nor a point: it does not end with a number without time unit *)
Definition ends_in_word (s : str) : Prop := exists r x, s = r ++ [x] /\ ~ 48 <= x <= 57 /\ x <> 46.

Section Append.
Context (c : config) (tu : units_like) (kw : option units_like) (nums : option numbers_like).
Notation texts := (durations_text c tu kw nums).

Lemma digits_last W : digit_string W -> W <> [] -> exists r x, W = r ++ [x] /\ 48 <= x <= 57.
Proof.
  intros H N. destruct (exists_last N) as (r & x & ->). exists r, x. split; [reflexivity|]. apply H. apply in_or_app. right. now left.
Qed.
Lemma number_last p W F x : number_part c p W F x -> exists r y, p = r ++ [y] /\ (48 <= y <= 57 \/ y = 46).
Proof.
  intros [W0 fr F0 ex x0 HW Hf N He _ _]. destruct He as [|e sg n' X x1 He Hs HX NX Hx Hr].
  - rewrite app_nil_r. destruct Hf as [|F1 HF].
    + rewrite app_nil_r in *. destruct (digits_last W0 HW N) as (r & y & -> & Hy). eauto.
    + destruct F1 as [|z F1].
      * exists W0, 46. split; [reflexivity|now right].
      * destruct (digits_last (z :: F1) HF) as (r & y & E & Hy); [discriminate|]. exists (W0 ++ 46 :: r), y. rewrite E. split; [now rewrite <- app_assoc|now left].
  - destruct (digits_last X HX NX) as (r & y & -> & Hy). exists (W0 ++ fr ++ e :: sg ++ r), y. split; [now rewrite <- !app_assoc; cbn [app]; rewrite <- !app_assoc|now left].
Qed.
Lemma number_ends s bare p d : one_duration c tu kw nums s bare (AfterNumber p) d -> ~ ends_in_word s.
Proof.
  intros H (r & x & E & Hx1 & Hx2). remember (AfterNumber p) as e eqn:Ee. destruct H as [sg n q W F y Hs Hn| | | | |]; try discriminate. injection Ee as ->.
  destruct (number_last p W F y Hn) as (r' & z & -> & Hz). rewrite app_assoc in E. apply app_inj_tail in E. destruct E as [_ ->]. lia.
Qed.

(** [t] can stand behind [s] if it can stand behind the last duration of [s] *)
Lemma append_texts s b1 ds1 sep x r b2 ds2 : texts s b1 ds1 ->
  (forall p bare e d, one_duration c tu kw nums p bare e d -> (exists q, s = q ++ p) -> between c e sep b2 x) -> texts (x :: r) b2 ds2 ->
  texts (s ++ sep ++ x :: r) b1 (ds1 ++ ds2).
Proof.
  intros H G T. induction H as [p bare e d H|p bare e d sep1 x1 r1 bare1 ds H B H1 IH].
  - cbn [app]. apply (dts_more c tu kw nums p bare e d sep x r b2 ds2 H); [|exact T]. apply (G p bare e d H). now exists [].
  - rewrite <- !app_assoc. cbn [app]. apply (dts_more c tu kw nums p bare e d sep1 x1 (r1 ++ sep ++ x :: r) bare1 (ds ++ ds2) H B).
    apply IH. intros p0 bare0 e0 d0 H0 (q & E). apply (G p0 bare0 e0 d0 H0). exists (p ++ sep1 ++ q). rewrite E, <- !app_assoc. reflexivity.
Qed.
End Append.

Theorem C88_conjunctions : forall c tu kw nums s t w v dl dl1 dl2 D1 D2, env_ok c tu kw nums -> delims_ok c kw nums -> plain_many c tu kw nums ->
  c_allow_multiple c = true -> utf8 s = true -> utf8 t = true ->
  parse c s tu kw nums = Ok D1 -> parse c t tu kw nums = Ok D2 ->
  In w (words c) -> str_eq_nocase v w = true ->
  (forall x, In x (dl ++ dl1 ++ dl2) -> c_inner_delimiter c x = true) -> dl <> [] -> dl1 <> [] -> (dl2 = [] -> starts_with starts_duration t) ->
  c_allow_time_unit_delimiter c = false \/ ends_in_word s ->
  exists D D', parse c (s ++ dl ++ t) tu kw nums = Ok D /\ parse c (s ++ dl1 ++ v ++ dl2 ++ t) tu kw nums = Ok D' /\ nanos D' = nanos D.
Proof.
  intros c tu kw nums s t w v dl dl1 dl2 D1 D2 HE HD PM Hm Us Ut P1 P2 Hw Hv HL N N1 N2 HN.
  destruct (C87_written_texts c tu kw nums s HE HD PM Hm Us) as (G1 & _). destruct (G1 D1 P1) as (b1 & ds1 & T1 & A1 & _).
  destruct (C87_written_texts c tu kw nums t HE HD PM Hm Ut) as (G2 & _). destruct (G2 D2 P2) as (b2 & ds2 & T2 & A2 & _).
  assert (Hd : delimiters c dl) by (intros x Hx; apply HL, in_or_app; now left).
  assert (Hd1 : delimiters c dl1) by (intros x Hx; apply HL, in_or_app; right; apply in_or_app; now left).
  assert (Hd2 : delimiters c dl2) by (intros x Hx; apply HL, in_or_app; right; apply in_or_app; now right).
  assert (Uv : utf8 v = true).
  { unfold words in Hw. destruct (c_conjunctions c) as [l|] eqn:El; [|destruct Hw]. apply (utf8_nocase w v); [now apply PropGnuText.str_nocase_sym|]. exact (env_conjunctions _ _ _ _ HE l w El Hw). }
  destruct t as [|x r].
  { exfalso. rewrite C25_empty_input in P2; discriminate. }
  assert (NW : forall p bare e d, one_duration c tu kw nums p bare e d -> (exists q, s = q ++ p) -> forall p', e = AfterNumber p' -> c_allow_time_unit_delimiter c = false).
  { intros p bare e d H (q & E) p' ->. destruct HN as [HN|(r0 & y & E0 & Hy)]; [exact HN|]. exfalso. apply (number_ends c tu kw nums p bare p' d H).
    remember (AfterNumber p') as e eqn:Ee. destruct H as [sg n q0 W F z Hs Hn| | | | |]; try discriminate. injection Ee as ->. destruct (number_last c p' W F z Hn) as (r' & z' & -> & Hz).
    rewrite E0, !app_assoc in E. apply app_inj_tail in E. destruct E as [_ ->]. exists (sg ++ r'), z'. now rewrite <- app_assoc. }
  assert (T : durations_text c tu kw nums (s ++ dl ++ x :: r) b1 (ds1 ++ ds2)).
  { apply (append_texts c tu kw nums s b1 ds1 dl x r b2 ds2 T1); [|exact T2]. intros p bare e d H E. apply b_delimiters; auto. intros p' Ee Ha.
    rewrite (NW p bare e d H E p' Ee) in Ha. discriminate. }
  assert (T' : durations_text c tu kw nums (s ++ (dl1 ++ v ++ dl2) ++ x :: r) b1 (ds1 ++ ds2)).
  { apply (append_texts c tu kw nums s b1 ds1 (dl1 ++ v ++ dl2) x r b2 ds2 T1); [|exact T2]. intros p bare e d H E. apply (b_conjunction c e dl1 v w dl2); auto.
    - intros E2. specialize (N2 E2). cbn in N2. unfold starts_duration, is_digit, is_sign in N2. unfold digit_or_sign. lia.
    - exact (NW p bare e d H E). }
  assert (A : forall d, In d (ds1 ++ ds2) -> sign_allowed c d) by (intros d Hx; apply in_app_or in Hx; destruct Hx; auto).
  assert (UD : forall ds l, delimiters c ds -> utf8 (ds ++ l) = utf8 l) by (intros ds l H; apply utf8_app; now apply (delims_utf8 c tu kw nums HE)).
  assert (U : utf8 (s ++ dl ++ x :: r) = true) by (rewrite utf8_app by exact Us; now rewrite UD).
  assert (U' : utf8 (s ++ (dl1 ++ v ++ dl2) ++ x :: r) = true) by (rewrite utf8_app, <- !app_assoc, UD, utf8_app, UD by assumption; exact Ut).
  destruct (C87_written_texts c tu kw nums _ HE HD PM Hm U) as (_ & R). destruct (R _ _ T A) as (D & P & _ & V).
  destruct (C87_written_texts c tu kw nums _ HE HD PM Hm U') as (_ & R'). destruct (R' _ _ T' A) as (D' & P' & _ & V').
  exists D, D'. rewrite <- !app_assoc in P'. split; [exact P|]. split; [exact P'|]. now rewrite V, V'.
Qed.
Print Assumptions C88_conjunctions.

(** the standard parser, with any of the time units, any settings and any conjunctions of letters which are not mistaken for something else *)
Theorem C88_standard : forall l ss s t w v dl dl1 dl2 D1 D2, let p := fold_left dp_set ss (dp_with_time_units l) in let c := dp_config p in
  config_ok c -> c_allow_multiple c = true -> utf8 s = true -> utf8 t = true ->
  (forall x, c_inner_delimiter c x = true -> ~ 48 <= x <= 57 /\ x <> 46 /\ x <> 43 /\ x <> 45 /\ ~ 65 <= x <= 90 /\ ~ 97 <= x <= 122) ->
  (forall x, c_outer_delimiter c x = c_inner_delimiter c x) ->
  (forall w, In w (words c) -> w <> [] /\ (forall x, In x w -> 65 <= x <= 90 \/ 97 <= x <= 122) /\ str_eq_nocase w (%"ago") = false /\
     (forall u, ~ starts_like w (default_identifier u)) /\ (c_disable_infinity c = false -> ~ starts_like w (%"infinity")) /\
     (forall w', In w' (words c) -> starts_like w w' -> length w = length w')) ->
  dp_parse p s = Ok D1 -> dp_parse p t = Ok D2 -> In w (words c) -> str_eq_nocase v w = true ->
  (forall x, In x (dl ++ dl1 ++ dl2) -> c_inner_delimiter c x = true) -> dl <> [] -> dl1 <> [] -> (dl2 = [] -> starts_with starts_duration t) ->
  c_allow_time_unit_delimiter c = false \/ ends_in_word s ->
  exists D D', dp_parse p (s ++ dl ++ t) = Ok D /\ dp_parse p (s ++ dl1 ++ v ++ dl2 ++ t) = Ok D' /\ nanos D' = nanos D.
Proof.
  intros l ss s t w v dl dl1 dl2 D1 D2 p c. subst c. unfold p. rewrite std_fold. unfold dp_parse. cbn [dp_config dp_units]. generalize (fold_left dp_set_config ss config_new).
  intros c HC Hm Us Ut HI HO HW P1 P2 Hw Hv HL N N1 N2 HN.
  apply (C88_conjunctions c (std_units (units_with l)) None None s t w v dl dl1 dl2 D1 D2); auto; [now apply std_set_env| |].
  - apply delims_none_ok.
  - apply (plain_many_standard l); auto. split; [exact (C31_lookup l)|exact (C31_is_empty l)].
Qed.
Print Assumptions C88_standard.

(** `1h AND -30m` and `1h and-30m` are `1h -30m`, but `1 and 30m` is an error although `1 30m` is none if delimiters in front of time units are allowed:
    finding 12, C68_unit_delimiter_refuted *)
Example C88_example : let p := fold_left dp_set [Set_parse_multiple true (Some [%"and"]); Set_allow_negative true; Set_allow_time_unit_delimiter true] (dp_with_time_units [Hour; Minute; Second]) in
  (forall dl2, dl2 = %" " \/ dl2 = [] -> exists D D', dp_parse p (%"1h" ++ %"  " ++ %"-30m") = Ok D /\ dp_parse p (%"1h" ++ %" " ++ %"AND" ++ dl2 ++ %"-30m") = Ok D' /\ nanos D' = nanos D) /\
  dp_parse p (%"1h AND-30m") = Ok (Dur false (Std 1800 0)) /\
  dp_parse p (%"1 30m") = Ok (Dur false (Std 1801 0)) /\ (forall D, dp_parse p (%"1 and 30m") <> Ok D).
Proof.
  intros p. split; [|split; [reflexivity|split; [reflexivity|discriminate]]]. intros dl2 Hd.
  set (l := [Hour; Minute; Second]) in *. set (ss := [Set_parse_multiple true (Some [%"and"]); Set_allow_negative true; Set_allow_time_unit_delimiter true]) in *.
  assert (W : forall x, In x (%"  " ++ %" " ++ dl2) -> is_ascii_whitespace x = true).
  { intros x Hx. destruct Hd; subst dl2; cbn in Hx; repeat (destruct Hx as [<-|Hx]; [reflexivity|]); destruct Hx. }
  apply (C88_standard l ss (%"1h") (%"-30m") (%"and") (%"AND") (%"  ") (%" ") dl2 (Dur false (Std 3600 0)) (Dur true (Std 1800 0))); try reflexivity; try discriminate.
  - split; [exact ws_ascii|]. split; [exact ws_ascii|]. intros c w E H. injection E as <-. destruct H as [<-|[]]. reflexivity.
  - intros x H. change (is_ascii_whitespace x = true) in H. unfold is_ascii_whitespace in H. lia.
  - intros w [<-|[]]. split; [discriminate|]. split; [each|]. split; [reflexivity|].
    assert (G : forall t, str_eq_nocase (firstn 3 t) (%"and") = false -> ~ starts_like (%"and") t).
    { intros t F (v & r & -> & Hv). pose proof (str_eq_nocase_length _ _ Hv) as L. destruct v as [|x [|y [|z [|]]]]; try discriminate L. cbn [app firstn] in F. congruence. }
    split; [intros u; apply G; destruct u; reflexivity|]. split; [intros _; apply G; reflexivity|]. intros w' [<-|[]] _. reflexivity.
  - now left.
  - exact W.
  - right. exists (%"1"), 104. split; [reflexivity|]. split; [vm_compute; intros [_ H]; now apply H|discriminate].
Qed.
