(** * Single durations: the model computes what the reference parser computes *)
From Verif Require Import Prelude Util Time Config Bytes Repr Parse SpecTime SpecNum SpecValue SpecParse SpecGrammar
  TimeProofs NumProofs ReprProofs Utf8Proofs BytesProofs SafeProofs RefParse RefProofs.

Lemma starts_nocase_nil l : starts_nocase [] l = true. Proof. reflexivity. Qed.
Lemma starts_nocase_cons e w x l : starts_nocase (e :: w) (x :: l) = eq_nocase x e && starts_nocase w l.
Proof. reflexivity. Qed.
Lemma starts_nocase_all w l : starts_nocase w l = true -> skipn (length w) l = [] -> str_eq_nocase l w = true.
Proof.
  unfold starts_nocase. intros H E. rewrite <- (firstn_skipn (length w) l), E, app_nil_r. exact H.
Qed.
Lemma str_eq_starts w l : str_eq_nocase l w = true -> starts_nocase w l = true /\ skipn (length w) l = [].
Proof.
  intros H. pose proof (str_eq_nocase_length _ _ H) as L. unfold starts_nocase. rewrite <- L, firstn_all, skipn_all. auto.
Qed.

Definition ascii_word (w : str) : Prop := forall x, In x w -> 0 <= x <= 127.
Lemma eq_nocase_ascii' x y : eq_nocase x y = true -> 0 <= y <= 127 -> 0 <= x <= 127.
Proof. apply eq_nocase_ascii. Qed.

Section SingleSim.
Context (c : config) (tu : units_like) (kw : option units_like) (nums : option numbers_like) (s : str).
Hypothesis HE : env_ok c tu kw nums.
Notation K := (fun _ : byte => true).
Notation SC := (SC K s).

Definition single_out (r : repr) (x : duration * str) : Prop := repr_parse r = Ok (fst x) /\ snd x = [].

Lemma sim_infinity_single w : ascii_word w -> forall b l, SC b l ->
  sim (fun b' r => SC b' r) (infinity_loop_single w b) (if starts_nocase w l then Some (skipn (length w) l) else None).
Proof.
  induction w as [|e w IH]; intros Hw b l H; [exact H|].
  cbn [infinity_loop_single length]. rewrite (SC_cur _ _ _ _ H). destruct l as [|x l]; cbn [hd_opt skipn]; [exact I|].
  rewrite starts_nocase_cons. destruct (eq_nocase x e) eqn:Ex; cbn [andb]; [|exact I].
  apply IH; [intros y Hy; apply Hw; now right|]. apply (SC_advance K s b x l H). apply (eq_nocase_ascii x e Ex), Hw. now left.
Qed.

Lemma check_end b l : SC b l -> (l = [] -> check_end_of_input b = Ok tt) /\
   (l <> [] -> exists e, check_end_of_input b = Err e).
Proof.
  intros H. unfold check_end_of_input. rewrite (SC_cur _ _ _ _ H). split; [intros ->; reflexivity|].
  intros N. destruct l as [|x l]; [congruence|]. cbn [hd_opt]. destruct (SC_remainder K s b _ H) as [-> _]. cbn [bind]. eauto.
Qed.

Lemma SC_finish b l : SC b l -> SC (finish b) [].
Proof.
  intros [pre buf -> E U C]. rewrite finish_at. econstructor; [reflexivity| | |].
  - now rewrite app_nil_r.
  - reflexivity.
  - now apply clean_app.
Qed.
Lemma finish_pos b l : SC b l -> l <> [] -> (0 < pos (finish b))%nat.
Proof.
  intros H N. pose proof (SC_pos _ _ _ _ H). unfold finish; cbn [pos]. rewrite (SC_input _ _ _ _ H).
  destruct l; [congruence|cbn [length] in *; lia].
Qed.

Lemma sim_single_time_unit b l : SC b l -> l <> [] ->
  sim (unit_sim K s (fun um => found_unit c tu (fst um) (snd um)) (fun b' => SC (reset b' (pos b)) l /\ SC b' l))
    (single_time_unit b c tu) (fs_tu c tu l).
Proof.
  intros H N. unfold single_time_unit, fs_tu. pose proof (env_inner _ _ _ _ HE) as Hd.
  assert (Ee : is_end_of_input b = false).
  { unfold is_end_of_input. rewrite (SC_cur _ _ _ _ H). destruct l; [congruence|reflexivity]. }
  rewrite Ee. cbn [negb debug_assert bind].
  pose proof (SC_remainder K s b l H) as [_ Er].
  assert (R0 : forall b', (exists pre r, b' = at_ pre r (buffer b) /\ s = pre ++ r) -> SC (reset b' (pos b)) l).
  { intros b' (pre' & r & -> & E'). destruct H as [pre buf -> E U C]. unfold reset; cbn [at_ input pos buffer].
    assert (En : nth_error (pre' ++ r) (length pre) = hd_opt l) by (rewrite <- E', E; apply nth_error_app_hd).
    rewrite En, <- E'. apply (SC_at K s _ l pre buf); auto. unfold at_. now rewrite <- E. }
  destruct (c_allow_ago c) eqn:Ea.
  2:{ rewrite Er. cbn [bind]. destruct (u_get tu l) as [[u m]|] eqn:Eg; cbn [sim unit_sim fst snd].
      - split; [reflexivity|]. split; [exists l, m; auto|]. split; [now apply (SC_finish b l)|now apply (finish_pos b l)].
      - split; [|eauto]. apply R0. destruct H as [pre buf -> E U C]. cbn [at_ buffer]. eauto. }
  pose proof (utf8_drop_stop _ l Hd (SC_utf8 _ _ _ _ H)) as [U1 U2].
  destruct H as [pre buf Eb E U C]. rewrite Eb at 1. rewrite advance_to_at. cbn [bind].
  pose proof (take_drop_while (fun x => negb (c_inner_delimiter c x)) l) as TD.
  pose proof (drop_while_head (fun x => negb (c_inner_delimiter c x)) l) as DH.
  set (w := take_while _ l) in *. set (r := drop_while _ l) in *.
  unfold str_unchecked. rewrite U1. cbn [bind].
  assert (S1 : SC (at_ (pre ++ w) r buf) r).
  { econstructor; [reflexivity| |exact U2|now apply clean_app]. now rewrite <- app_assoc, TD. }
  assert (R1 : SC (reset (at_ (pre ++ w) r buf) (pos b)) l).
  { apply R0. exists (pre ++ w), r. rewrite Eb. cbn [at_ buffer]. split; [reflexivity|]. now rewrite <- app_assoc, TD. }
  destruct w as [|x w0] eqn:Ew; [cbn [is_empty sim unit_sim fst snd]; cbn [app] in TD; split; [exact R1|]; rewrite TD in S1 |- *; exact S1|]. cbn [is_empty]. rewrite <- Ew in *.
  assert (R2 : forall b', SC (reset b' (pos b)) l -> sim (unit_sim K s (fun um => found_unit c tu (fst um) (snd um)) (fun b' => SC (reset b' (pos b)) l /\ SC b' l)) (Ok (reset b' (pos b), None)) (Some None)).
  { intros b' Hb'. cbn [sim unit_sim fst snd]. split; [|eauto].
    unfold reset at 1. cbn [input buffer pos]. exact Hb'. }
  destruct (u_get tu w) as [[u m]|] eqn:Eg; [|now apply R2].
  rewrite (SC_cur _ _ _ _ S1). destruct r as [|y r'] eqn:Er'; cbn [hd_opt].
  { cbn [sim unit_sim fst snd]. split; [reflexivity|]. split; [exists w, m; auto|]. split; [assumption|].
    cbn [at_ pos]. rewrite Ew, app_length. cbn [length]. lia. }
  specialize (DH y r' eq_refl). apply negb_false_iff in DH. rewrite <- Er' in *.
  assert (P1 : (0 < length (pre ++ w))%nat) by (rewrite Ew, app_length; cbn [length]; lia).
  rewrite Er'. rewrite Er' in S1.
  pose proof (sim_delimiter K s _ _ y r' Hd S1 DH P1) as SD.
  assert (Bu : forall b', try_consume_delimiter (c_inner_delimiter c) (at_ (pre ++ w) (y :: r') buf) = Ok b' ->
     exists pre' r'', b' = at_ pre' r'' (buffer b) /\ s = pre' ++ r'').
  { intros b'. rewrite try_consume_delimiter_at; [|exact DH|rewrite Ew; now destruct pre].
    pose proof (take_drop_while (c_inner_delimiter c) r') as TD2.
    destruct (drop_while (c_inner_delimiter c) r') as [|z q] eqn:Eq; [discriminate|]. intros [= <-].
    rewrite Eb. cbn [at_ buffer]. eexists _, _. split; [reflexivity|]. rewrite E, <- TD, Er', <- !app_assoc. cbn [app]. now rewrite TD2. }
  destruct (nonempty (drop_while (c_inner_delimiter c) (y :: r'))) as [a|].
  2:{ match goal with |- context[try_consume_delimiter ?d ?x] => destruct (try_consume_delimiter d x) as [b2|e|?] end; [contradiction|exact I|contradiction]. }
  match goal with |- context[try_consume_delimiter ?d ?x] => destruct (try_consume_delimiter d x) as [b2|e|?] end; [|contradiction|contradiction].
  cbn [sim] in SD. destruct SD as (S2 & N2 & L2). specialize (Bu b2 eq_refl). cbn [bind obind].
  rewrite (SC_next_is K s b2 a _ S2). destruct (starts_nocase (%"ago") a) eqn:Eago.
  - cbn [sim unit_sim fst snd]. split; [reflexivity|]. split; [exists w, m; auto|].
    split; [exact (SC_word K s b2 (%"ago") a S2 Eago eq_refl)|]. unfold advance_by; cbn [pos]. lia.
  - apply R2, R0, Bu.
Qed.

Lemma tsim_single : tsim single (rsingle c tu kw) single_out c tu kw K s.
Proof.
  split; cbn [single rsingle t_make_output t_parse_infinity_remainder t_parse_keyword t_parse_time_unit
    t_parse_number_time_unit t_finalize rt_inf rt_kw rt_tu rt_ntu rt_fin].
  - intros b r d _ Hr. split; [exact Hr|reflexivity].
  - intros b l n r H P Hr. unfold single_infinity_remainder, fs_inf, is_end_of_input. rewrite (SC_cur _ _ _ _ H).
    destruct l as [|x l]; cbn [hd_opt is_empty orb].
    { cbn [sim]. split; [exact (sgn_r_infinite c s n r Hr)|reflexivity]. }
    assert (HW : ascii_word (%"inity")).
    { intros y Hy. cbn in Hy. lia. }
    pose proof (sim_infinity_single (%"inity") HW b (x :: l) H) as S0.
    destruct (starts_nocase (%"inity") (x :: l)) eqn:Es.
    + destruct (infinity_loop_single _ _) as [b1|?|?]; [|contradiction|contradiction]. cbn [sim bind] in *.
      destruct (check_end _ _ S0) as [C1 C2].
      destruct (str_eq_nocase (x :: l) (%"inity")) eqn:Eq.
      * destruct (str_eq_starts _ _ Eq) as [_ Ek]. rewrite (C1 Ek). cbn [bind sim].
        split; [exact (sgn_r_infinite c s n r Hr)|reflexivity].
      * assert (Nk : skipn (length (%"inity")) (x :: l) <> []).
        { intros Ek. pose proof (starts_nocase_all _ _ Es Ek). congruence. }
        destruct (C2 Nk) as [e ->]. exact I.
    + destruct (infinity_loop_single _ _) as [b1|?|?]; [contradiction| |contradiction]. cbn [bind].
      destruct (str_eq_nocase (x :: l) (%"inity")) eqn:Eq; [|exact I].
      destruct (str_eq_starts _ _ Eq) as [Es' _]. congruence.
  - intros b l H N. unfold single_keyword, fs_kw. case_eq kw; [intros k Ek|intros _; cbn [sim unit_sim fst snd]; auto].
    destruct (SC_remainder K s b l H) as [_ ->]. cbn [bind].
    destruct (u_get k l) as [[u m]|] eqn:Eg; cbn [sim unit_sim fst snd]; [|exact H].
    split; [reflexivity|]. split; [exact (env_keywords _ _ _ _ HE k Ek l u m Eg)|].
    split; [now apply (SC_finish b l)|now apply (finish_pos b l)].
  - intros b l H N. eapply sim_weaken; [apply (sim_single_time_unit b l H N)|].
    intros [b' [um|]] [[um' r]|]; cbn [unit_sim fst snd]; try tauto.
  - intros b l n W F x r H N P Hr. unfold single_number_time_unit, fs_ntu. rewrite (SC_cur _ _ _ _ H).
    destruct l as [|x0 l0] eqn:El; [congruence|]. cbn [hd_opt]. rewrite <- El in *.
    destruct (u_is_empty tu); cbn [negb].
    { destruct (SC_remainder K s b l H) as [_ ->]. exact I. }
    eapply sim_bind; [apply (sim_single_time_unit b l H N)|].
    intros [b' [[u m]|]] [[[u' m'] r']|]; cbn [unit_sim fst snd]; try contradiction.
    + intros (E & FU & S1 & P1). injection E as <- <-. cbn [sim fst snd]. split; [reflexivity|]. split; [exact S1|].
      split; [exact P1|]. apply (num_r_unit c s); [exact Hr|]. exact (found_unit_fits c tu kw nums HE u m FU).
    + intros [_ S1]. destruct (SC_remainder K s _ _ S1) as [-> _]. exact I.
  - intros b l r d H P Hr. unfold single_finalize, fs_fin. destruct (check_end _ _ H) as [C1 C2].
    destruct l as [|x l]; [rewrite (C1 eq_refl); split; auto|]. destruct (C2 ltac:(discriminate)) as [e ->]. exact I.
Qed.
End SingleSim.

Lemma SC_init K s : utf8 s = true -> SC K s (bytes_new s) s.
Proof. intros U. rewrite bytes_new_at. econstructor; [reflexivity|reflexivity|exact U|exact I]. Qed.

Theorem sim_parse_single c tu kw nums s : env_ok c tu kw nums -> utf8 s = true ->
  sim (fun d x => d = fst x) (parse_single c s tu kw nums)
    (let? (d, r) := f_template c nums (rsingle c tu kw) s in
     if negb (c_allow_negative c) && is_negative d then None else Some (d, r)).
Proof.
  intros HE U. unfold parse_single.
  eapply sim_bind; [apply (sim_template single (rsingle c tu kw) single_out c tu kw nums (fun _ => true) s HE (fun _ _ _ => eq_refl)
      (tsim_single c tu kw nums s HE) _ s (SC_init _ s U))|].
  intros r [d rest] [Hr Hn]. cbn [fst snd] in *. rewrite Hr. cbn [bind].
  destruct (negb (c_allow_negative c) && is_negative d); [exact I|reflexivity].
Qed.
