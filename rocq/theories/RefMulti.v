(** * Multiple durations: the model computes what the reference parser computes *)
From Verif Require Import Prelude Util Time Config Bytes Repr Parse SpecTime SpecNum SpecValue SpecParse SpecGrammar
  TimeProofs NumProofs ReprProofs Utf8Proofs BytesProofs SafeProofs RefParse RefProofs RefSingle.

Lemma SC_reset_buf K s b l b2 : SC K s b l -> buffer b2 = buffer b -> input b2 = s -> SC K s (reset b2 (pos b)) l.
Proof.
  intros [pre buf -> E U C] Eb Ei. cbn [at_ buffer] in Eb. unfold reset. rewrite Ei, Eb. cbn [at_ pos].
  apply (SC_at K s _ l pre buf); auto. unfold at_. rewrite <- E. rewrite E at 1. now rewrite nth_error_app_hd.
Qed.
Lemma skip_until_buffer stop fuel : forall b b', skip_until fuel stop b = Ok b' -> buffer b' = buffer b /\ input b' = input b.
Proof.
  induction fuel as [|f IH]; intros b b'; cbn [skip_until]; [discriminate|].
  destruct (cur b) as [x|]; [destruct (stop x)|]; try (intros [= <-]; auto). intros H. exact (IH _ _ H).
Qed.
Lemma try_consume_buffer d b b' : try_consume_delimiter d b = Ok b' -> buffer b' = buffer b /\ input b' = input b.
Proof.
  unfold try_consume_delimiter. destruct (unwrap (cur b)) as [x| |]; cbn [bind]; try discriminate.
  destruct (debug_assert (d x)); cbn [bind]; try discriminate. destruct (pos b =? 0)%nat; [discriminate|].
  destruct (skip_until _ _ _) as [b1| |] eqn:E; cbn [bind]; try discriminate.
  destruct (cur b1); [|discriminate]. intros [= <-]. exact (skip_until_buffer _ _ _ _ E).
Qed.

(** [K]: where the two ways to collect a word, as a keyword and as a time unit, and the collecting of a numeral agree.
    Needed because the collected word is kept in a buffer and not collected again *)
Record kfit (c : config) (kw : option units_like) (nums : option numbers_like) (K : byte -> bool) : Prop := KFit {
  fit_unit : forall x, K x = unit_end c x;
  fit_keyword : kw <> None -> forall x, K x = keyword_end c x;
  fit_numeral : nums <> None -> forall x, c_inner_delimiter c x = true -> K x = true
}.
Arguments fit_unit {c kw nums K}. Arguments fit_keyword {c kw nums K}. Arguments fit_numeral {c kw nums K}.
Lemma unit_end_eq c (HD : forall x, c_inner_delimiter c x = true -> keyword_end c x = true) x : unit_end c x = keyword_end c x.
Proof.
  unfold unit_end. destruct (keyword_end c x) eqn:E; [reflexivity|]. cbn [orb].
  destruct (c_inner_delimiter c x) eqn:Ei; [rewrite (HD x Ei) in E; discriminate|]. apply andb_false_r.
Qed.
Lemma kfit_all c kw nums : (forall x, c_inner_delimiter c x = true -> keyword_end c x = true) -> kfit c kw nums (keyword_end c).
Proof. intros HD. split; [intros x; symmetry; now apply unit_end_eq|reflexivity|intros _; exact HD]. Qed.

Section MultiSim.
Context (c : config) (tu : units_like) (kw : option units_like) (nums : option numbers_like) (s : str).
Context (K : byte -> bool).
Hypothesis HE : env_ok c tu kw nums.
Hypothesis HF : kfit c kw nums K.
Notation SC := (SC K s).

Definition multi_rel (o : multi_output) (x : duration * str) : Prop :=
  repr_parse (fst o) = Ok (fst x) /\
  match snd o with None => snd x = [] | Some b => snd x <> [] /\ SC b (snd x) end.

Lemma conj_utf8' w : In w (conjunctions c) -> utf8 w = true.
Proof.
  unfold conjunctions. destruct (c_conjunctions c) as [l|] eqn:E; [|contradiction]. exact (env_conjunctions _ _ _ _ HE l w E).
Qed.

Lemma sim_conjunctions start : forall ws b l, (forall w, In w ws -> utf8 w = true) -> SC b l -> l <> [] -> (0 < pos b)%nat ->
  sim (fun b' r => SC b' r /\ r <> [] /\ (0 < pos b')%nat) (conjunction_loop (c_outer_delimiter c) start ws b) (f_conjunction c ws l).
Proof.
  induction ws as [|w ws IH]; intros b l Hw H N P; cbn [conjunction_loop f_conjunction]; [cbn [sim]; auto|].
  rewrite (SC_next_is K s b l w H). destruct (starts_nocase w l) eqn:Es.
  2:{ apply IH; auto. intros v Hv. apply Hw. now right. }
  pose proof (SC_word K s b w l H Es (Hw w (or_introl eq_refl))) as S1. rewrite (SC_cur _ _ _ _ S1).
  assert (P1 : (0 < pos (advance_by b (length w)))%nat) by (unfold advance_by; cbn [pos]; lia).
  destruct (skipn (length w) l) as [|x z] eqn:Ek; cbn [hd_opt]; [exact I|].
  destruct (c_outer_delimiter c x) eqn:Ex.
  - pose proof (sim_delimiter K s _ _ x z (env_outer _ _ _ _ HE) S1 Ex P1) as S0.
    cbn [drop_while] in S0. rewrite Ex in S0. eapply sim_weaken; [exact S0|].
    intros b2 r2 (S2 & N2 & L2). split; [assumption|]. split; [assumption|].
    pose proof (SC_pos _ _ _ _ S1). pose proof (SC_pos _ _ _ _ S2). cbn [length] in *. lia.
  - rewrite starts_duration_eq. destruct (starts_duration x); [|exact I]. cbn [sim]. split; [assumption|]. split; [discriminate|assumption].
Qed.

Lemma sim_connect b x l : SC b (x :: l) -> c_outer_delimiter c x = true -> (0 < pos b)%nat ->
  sim (fun b' r => SC b' r /\ r <> [] /\ (0 < pos b')%nat) (connect c b) (f_connect c (x :: l)).
Proof.
  intros H Hx P. unfold connect, try_consume_connection, f_connect. rewrite (SC_cur _ _ _ _ H). cbn [hd_opt unwrap bind].
  rewrite Hx. cbn [debug_assert bind].
  eapply sim_bind; [apply (sim_delimiter K s _ b x l (env_outer _ _ _ _ HE) H Hx P)|].
  intros b1 r1 (S1 & N1 & L1). apply sim_conjunctions; auto.
  - apply conj_utf8'.
  - pose proof (SC_pos _ _ _ _ H). pose proof (SC_pos _ _ _ _ S1). cbn [length] in *. lia.
Qed.

Lemma sim_maybe_connect b l : SC b l -> (0 < pos b)%nat ->
  sim (fun b' r => SC b' r /\ (0 < pos b')%nat)
    (match cur b with Some x => if c_outer_delimiter c x then connect c b else Ok b | None => Ok b end) (f_next c l).
Proof.
  intros H P. unfold f_next. rewrite (SC_cur _ _ _ _ H). destruct l as [|x l]; cbn [hd_opt]; [cbn [sim]; auto|].
  destruct (c_outer_delimiter c x) eqn:Ex; [|cbn [sim]; auto].
  eapply sim_weaken; [apply (sim_connect b x l H Ex P)|]. intros b1 r1 (A1 & A2 & A3); auto.
Qed.

(** `finalize`, and the end of infinity *)
Lemma sim_multi_finalize b l r d : SC b l -> (0 < pos b)%nat -> repr_parse r = Ok d ->
  sim multi_rel (multi_finalize b r c) (fm_fin c d l).
Proof.
  intros H P Hr. unfold multi_finalize, fm_fin, f_next. rewrite (SC_cur _ _ _ _ H).
  destruct l as [|x l]; cbn [hd_opt obind]; [split; [exact Hr|reflexivity]|].
  destruct (c_outer_delimiter c x) eqn:Ex.
  - eapply sim_bind; [apply (sim_connect b x l H Ex P)|]. intros b1 r1 (S1 & N1 & _). split; [exact Hr|]. cbn [snd]. auto.
  - cbn [obind sim]. split; [exact Hr|]. cbn [snd]. split; [discriminate|exact H].
Qed.

Lemma sim_infinity_multi w : ascii_word w -> forall pre0 v buf l, SC (at_ (pre0 ++ v) l buf) l -> utf8 v = true -> (3 <= length pre0)%nat ->
  sim (fun b' r => SC b' r /\ (0 < pos b')%nat) (infinity_loop_multi (length pre0) w (at_ (pre0 ++ v) l buf))
    (if starts_nocase w l then Some (skipn (length w) l) else None).
Proof.
  induction w as [|e w IH]; intros Hw pre0 v buf l H Uv P.
  { split; [exact H|]. cbn [at_ pos]. rewrite app_length. lia. }
  cbn [infinity_loop_multi length]. rewrite (SC_cur _ _ _ _ H). destruct l as [|x l]; cbn [hd_opt skipn].
  { unfold sub_usize. destruct (Nat.leb_spec 3 (length pre0)); [|lia]. cbn [bind].
    unfold get_current_str_unwrap, at_; cbn [input pos]. rewrite <- app_assoc, slice_at. cbn [bind]. rewrite Uv. exact I. }
  rewrite starts_nocase_cons. destruct (eq_nocase x e) eqn:Ex; cbn [andb]; [|exact I].
  assert (Ax : 0 <= x <= 127) by (apply (eq_nocase_ascii x e Ex), Hw; now left).
  pose proof (SC_advance K s _ x l H Ax) as A. rewrite advance_at in *. rewrite <- app_assoc in *.
  apply IH; auto; [intros y Hy; apply Hw; now right|]. rewrite utf8_app by assumption. now rewrite utf8_cons_ascii.
Qed.

Lemma word_delim_ascii : ascii_delim K.
Proof.
  intros x. rewrite (fit_unit HF). unfold unit_end, keyword_end. rewrite !orb_true_iff. intros [[H|H]|H].
  - exact (env_outer _ _ _ _ HE x H).
  - unfold starts_duration, is_sign in H. rewrite !orb_true_iff in H. rewrite is_digit_iff in H. lia.
  - apply andb_true_iff in H. exact (env_inner _ _ _ _ HE x (proj2 H)).
Qed.

(** collecting a keyword or a time unit *)
Lemma sim_collect d b l : (forall x, d x = K x) -> SC b l ->
  exists b', buffered_advance_to d b = Ok (b', take_while (fun x => negb (K x)) l) /\
    SC b' (drop_while (fun x => negb (K x)) l) /\ SC (reset b' (pos b)) l /\
    pos b' = (pos b + length (take_while (fun x => negb (K x)) l))%nat /\
    str_unchecked (take_while (fun x => negb (K x)) l) = Ok (take_while (fun x => negb (K x)) l).
Proof.
  intros Hd H. assert (Ad : ascii_delim d) by (intros x Hx; rewrite Hd in Hx; exact (word_delim_ascii x Hx)).
  destruct (buffered_SC K s d b l Ad) as (b' & E & _ & S2 & _ & P); [intros x; now rewrite Hd|exact H|].
  assert (E1 : take_while (fun x => negb (d x)) l = take_while (fun x => negb (K x)) l).
  { apply take_while_ext. intros x _. now rewrite Hd. }
  assert (E2 : drop_while (fun x => negb (d x)) l = drop_while (fun x => negb (K x)) l).
  { apply drop_while_ext. intros x _. now rewrite Hd. }
  rewrite E1 in *. rewrite E2 in *. destruct S2 as [S2 S3]; [intros x; now rewrite Hd|].
  exists b'. split; [assumption|]. split; [assumption|]. split; [assumption|]. split; [assumption|].
  unfold str_unchecked. destruct (utf8_drop_stop _ l word_delim_ascii (SC_utf8 _ _ _ _ H)) as [-> _]. reflexivity.
Qed.

Lemma sim_ago b l m : SC b l -> (0 < pos b)%nat ->
  sim (fun x y => SC (fst x) (snd y) /\ snd x = fst y /\ (0 < pos (fst x))%nat /\
                  (snd x = m \/ c_allow_ago c = true /\ snd x = mul_saturating_neg m))
    (match cur b with
     | Some x =>
         if c_allow_ago c && c_inner_delimiter c x then
           let start := pos b in
           let* b := try_consume_delimiter (c_inner_delimiter c) b in
           if next_is_ignore_ascii_case b (%"ago") then
             let b := advance_by b 3 in
             match cur b with
             | Some y =>
                 if c_outer_delimiter c y || is_next_duration y
                 then Ok (b, mul_saturating_neg m)
                 else Ok (reset b start, m)
             | None => Ok (b, mul_saturating_neg m)
             end
           else Ok (reset b start, m)
         else Ok (b, m)
     | None => Ok (b, m)
     end) (f_ago c m l).
Proof.
  intros H P. unfold f_ago. rewrite (SC_cur _ _ _ _ H). destruct l as [|x l]; cbn [hd_opt]; [cbn [sim fst snd]; auto|].
  destruct (c_allow_ago c) eqn:Ea; cbn [andb]; [|cbn [sim fst snd]; auto].
  destruct (c_inner_delimiter c x) eqn:Ex; [|cbn [sim fst snd]; auto].
  cbv zeta. pose proof (sim_delimiter K s _ b x l (env_inner _ _ _ _ HE) H Ex P) as S0.
  destruct (nonempty (drop_while (c_inner_delimiter c) (x :: l))) as [a|].
  2:{ destruct (try_consume_delimiter _ _); [contradiction|exact I|contradiction]. }
  destruct (try_consume_delimiter (c_inner_delimiter c) b) as [b1|?|?] eqn:Et; [|contradiction|contradiction].
  cbn [sim bind obind] in *. destruct S0 as (S1 & N1 & L1). destruct (try_consume_buffer _ _ _ Et) as [B1 B2].
  rewrite (SC_input _ _ _ _ H) in B2.
  rewrite (SC_next_is K s b1 a _ S1).
  destruct (starts_nocase (%"ago") a) eqn:Eg.
  2:{ cbn [sim fst snd]. split; [now apply (SC_reset_buf K s b _ b1 H)|]. split; [reflexivity|]. split; [exact P|auto]. }
  pose proof (SC_word K s b1 (%"ago") a S1 Eg eq_refl) as S2. change (length (%"ago")) with 3%nat in S2.
  rewrite (SC_cur _ _ _ _ S2). assert (P2 : (0 < pos (advance_by b1 3))%nat) by (unfold advance_by; cbn [pos]; lia).
  destruct (skipn 3 a) as [|y r]; cbn [hd_opt]; [cbn [sim fst snd]; auto 8|].
  rewrite starts_duration_eq. fold (keyword_end c y). destruct (keyword_end c y); cbn [sim fst snd]; [auto 8|].
  split; [|split; [reflexivity|split; [exact P|auto]]]. apply (SC_reset_buf K s b _ _ H); [exact B1|exact B2].
Qed.

Lemma sim_multi_time_unit b l : SC b l -> l <> [] ->
  sim (unit_sim K s (fun um => found_unit c tu (fst um) (snd um)) (fun b' => SC (reset b' (pos b)) l /\ SC b' l))
    (multi_time_unit b c tu) (fm_tu c tu l).
Proof.
  intros H N. unfold multi_time_unit, fm_tu.
  assert (Ee : is_end_of_input b = false).
  { unfold is_end_of_input. rewrite (SC_cur _ _ _ _ H). destruct l; [congruence|reflexivity]. }
  rewrite Ee. cbn [negb debug_assert bind].
  replace (take_while (fun x => negb (unit_end c x)) l) with (take_while (fun x => negb (K x)) l)
    by (apply take_while_ext; intros x _; now rewrite (fit_unit HF)).
  replace (drop_while (fun x => negb (unit_end c x)) l) with (drop_while (fun x => negb (K x)) l)
    by (apply drop_while_ext; intros x _; now rewrite (fit_unit HF)).
  set (d := if c_allow_ago c then (fun x => c_inner_delimiter c x || c_outer_delimiter c x || is_next_duration x)
            else (fun x => c_outer_delimiter c x || is_next_duration x)).
  assert (Ed : (if c_allow_ago c then
               buffered_advance_to
                 (fun x => c_inner_delimiter c x || c_outer_delimiter c x || is_next_duration x) b
             else buffered_advance_to (fun x => c_outer_delimiter c x || is_next_duration x) b) = buffered_advance_to d b)
    by (unfold d; now destruct (c_allow_ago c)).
  rewrite Ed. clear Ed.
  assert (Hd : forall x, d x = K x).
  { intros x. rewrite (fit_unit HF). unfold d, unit_end, keyword_end. destruct (c_allow_ago c); rewrite starts_duration_eq; cbn [andb].
    - rewrite <- orb_assoc. apply orb_comm.
    - symmetry. apply orb_false_r. }
  destruct (sim_collect d b l Hd H) as (b1 & -> & S1 & R1 & P1 & U1). cbn [bind].
  pose proof (take_drop_while (fun x => negb (K x)) l) as TD.
  destruct (take_while (fun x => negb (K x)) l) as [|x w] eqn:Ew.
  { cbn [is_empty sim unit_sim fst snd]. split; [exact R1|]. cbn [app] in TD. now rewrite TD in S1. }
  cbn [is_empty]. rewrite U1. cbn [bind].
  destruct (u_get tu (x :: w)) as [[u m]|] eqn:Eg.
  2:{ cbn [sim unit_sim fst snd]. auto. }
  assert (P0 : (0 < pos b1)%nat) by (rewrite P1; cbn [length]; lia).
  eapply sim_bind; [apply (sim_ago b1 _ m S1 P0)|]. intros [b2 m2] [m2' r2] (S2 & E2 & P2 & Hm). cbn [fst snd] in *.
  eapply sim_bind; [apply (sim_maybe_connect b2 r2 S2 P2)|]. intros b3 r3 (S3 & P3). cbn [sim unit_sim fst snd].
  subst m2'. split; [reflexivity|]. split; [|auto]. exists (x :: w), m. auto.
Qed.

Lemma tsim_multi : tsim multi (rmulti c tu kw) multi_rel c tu kw K s.
Proof.
  split; cbn [multi rmulti t_make_output t_parse_infinity_remainder t_parse_keyword t_parse_time_unit
    t_parse_number_time_unit t_finalize rt_inf rt_kw rt_tu rt_ntu rt_fin].
  - intros b r d H Hr. unfold multi_make_output. rewrite (SC_cur _ _ _ _ H). split; [exact Hr|reflexivity].
  - intros b l n r H P Hr. unfold multi_infinity_remainder, fm_inf, f_ends.
    assert (Con : forall b1 l1, SC b1 l1 -> (0 < pos b1)%nat -> 
      (match l1 with [] => true | x :: _ => c_outer_delimiter c x end) = true ->
      sim multi_rel (match cur b1 with
                     | Some x => if c_outer_delimiter c x then let* b0 := connect c b1 in Ok (set_infinite r, Some b0)
                                 else Err Empty
                     | None => Ok (set_infinite r, None)
                     end) (fm_fin c (infinity_value n) l1)).
    { intros b1 l1 S1 P1 Hl1. pose proof (sim_multi_finalize b1 l1 (set_infinite r) (infinity_value n) S1 P1 (sgn_r_infinite c s n r Hr)) as F.
      unfold multi_finalize in F. rewrite (SC_cur _ _ _ _ S1) in *. destruct l1 as [|x l1]; cbn [hd_opt] in *; [exact F|].
      rewrite Hl1 in *. exact F. }
    assert (P0 : (0 < pos b)%nat) by lia.
    destruct (match l with [] => true | x :: _ => c_outer_delimiter c x end) eqn:El.
    { specialize (Con b l H P0 El). rewrite (SC_cur _ _ _ _ H) in *. destruct l as [|x l]; cbn [hd_opt] in *; [exact Con|].
      rewrite El in *. exact Con. }
    cbv zeta. destruct (SC_destruct _ _ _ _ H) as (pre & buf & Eb & Es).
    assert (HW : ascii_word (%"inity")) by (intros y Hy; cbn in Hy; lia).
    assert (S0 : sim (fun b' r => SC b' r /\ (0 < pos b')%nat) (infinity_loop_multi (pos b) (%"inity") b)
       (if starts_nocase (%"inity") l then Some (skipn 5 l) else None)).
    { assert (Hb : b = at_ (pre ++ []) l buf) by (rewrite app_nil_r; exact Eb).
      pose proof (sim_infinity_multi (%"inity") HW pre [] buf l) as S0. rewrite <- Hb in S0.
      change (length (%"inity")) with 5%nat in S0. rewrite Eb in P. cbn [at_ pos] in P.
      assert (Ep : pos b = length pre) by (rewrite Eb; reflexivity). rewrite Ep. apply S0; auto. }
    rewrite (SC_cur _ _ _ _ H). destruct l as [|x l0] eqn:El'; [discriminate|]. cbn [hd_opt]. rewrite El. rewrite <- El' in *.
    destruct (starts_nocase (%"inity") l) eqn:Est; cbn [andb].
    2:{ destruct (infinity_loop_multi _ _ _); [contradiction|exact I|contradiction]. }
    destruct (infinity_loop_multi _ _ _) as [b1|?|?]; [|contradiction|contradiction]. cbn [sim bind] in *.
    destruct S0 as [S1 P1].
    destruct (match skipn 5 l with [] => true | x :: _ => c_outer_delimiter c x end) eqn:Es5.
    + specialize (Con b1 _ S1 P1 Es5). rewrite (SC_cur _ _ _ _ S1) in *. destruct (skipn 5 l); cbn [hd_opt] in *; [exact Con|].
      rewrite Es5 in *. exact Con.
    + rewrite (SC_cur _ _ _ _ S1). destruct (skipn 5 l); [discriminate|]. cbn [hd_opt]. rewrite Es5. exact I.
  - intros b l H N. unfold multi_keyword, fm_kw. case_eq kw; [intros k Ek|intros _; cbn [sim unit_sim fst snd]; auto].
    cbv zeta.
    assert (Kk : forall x, K x = keyword_end c x) by (apply (fit_keyword HF); rewrite Ek; discriminate).
    destruct (sim_collect (fun x => c_outer_delimiter c x || is_next_duration x) b l) as (b1 & -> & S1 & R1 & P1 & U1);
      [intros x; rewrite Kk, starts_duration_eq; reflexivity|exact H|]. cbn [bind].
    rewrite ?(take_while_ext (fun x => negb (K x)) (fun x => negb (keyword_end c x))), ?(drop_while_ext (fun x => negb (K x)) (fun x => negb (keyword_end c x))) in * by (intros ? _; now rewrite Kk).
    pose proof (take_drop_while (fun x => negb (keyword_end c x)) l) as TD.
    destruct (take_while (fun x => negb (keyword_end c x)) l) as [|x w] eqn:Ew.
    { cbn [is_empty sim unit_sim fst snd]. cbn [app] in TD. now rewrite TD in S1. }
    cbn [is_empty]. rewrite U1. cbn [bind].
    destruct (u_get k (x :: w)) as [[u m]|] eqn:Eg; [|cbn [sim unit_sim fst snd]; exact R1].
    assert (P0 : (0 < pos b1)%nat) by (rewrite P1; cbn [length]; lia).
    eapply sim_bind; [apply (sim_maybe_connect b1 _ S1 P0)|]. intros b3 r3 (S3 & P3). cbn [sim unit_sim fst snd].
    split; [reflexivity|]. split; [exact (env_keywords _ _ _ _ HE k Ek _ u m Eg)|auto].
  - intros b l H N. eapply sim_weaken; [apply (sim_multi_time_unit b l H N)|].
    intros [b' [um|]] [[um' r]|]; cbn [unit_sim fst snd]; try tauto.
  - intros b l n W F x r H N P Hr. unfold multi_number_time_unit, fm_ntu. rewrite (SC_cur _ _ _ _ H).
    destruct l as [|x0 l0] eqn:El; [congruence|]. cbn [hd_opt]. rewrite <- El in *.
    destruct (u_is_empty tu); cbn [negb].
    { cbn [sim fst snd]. split; [reflexivity|]. split; [exact H|]. split; [exact P|]. exact (num_r_value c s n W F x r Hr). }
    eapply sim_bind; [apply (sim_multi_time_unit b l H N)|].
    intros [b' [[u m]|]] [[[u' m'] r']|]; cbn [unit_sim fst snd]; try contradiction.
    + intros (E & FU & S1 & P1). injection E as <- <-. cbn [sim fst snd]. split; [reflexivity|]. split; [exact S1|].
      split; [exact P1|]. apply (num_r_unit c s); [exact Hr|]. exact (found_unit_fits c tu kw nums HE u m FU).
    + intros [_ S1]. cbn [sim fst snd]. split; [reflexivity|]. split; [exact S1|]. split; [|exact (num_r_value c s n W F x r Hr)].
      pose proof (SC_pos _ _ _ _ H). pose proof (SC_pos _ _ _ _ S1). lia.
  - intros b l r d H P Hr. now apply sim_multi_finalize.
Qed.
End MultiSim.

(** a component is not empty *)
Lemma f_template_progress_fit c tu kw nums K l d r : env_ok c tu kw nums -> kfit c kw nums K -> utf8 l = true ->
  f_template c nums (rmulti c tu kw) l = Some (d, r) -> (length r < length l)%nat /\ duration_ok d /\ utf8 r = true.
Proof.
  intros HE HF U E.
  pose proof (sim_template multi (rmulti c tu kw) (multi_rel l K) c tu kw nums K l HE (fit_numeral HF)
      (tsim_multi c tu kw nums l K HE HF) _ l (SC_init _ l U)) as S0. rewrite E in S0.
  pose proof (hoare_template_parse multi c tu kw nums l (multi_out l) (fun n m o => multi_out_mono l n m o)
     (multi_ok c tu kw nums l HE) HE 0 _ (inv_new l U) (bytes_new_end l)) as H0.
  destruct (template_parse multi (bytes_new l) c tu kw nums) as [[rp mp]|?|?]; [|contradiction|contradiction].
  cbn [sim hoare] in *. destruct S0 as [V0 S0]. destruct H0 as [(d' & V1 & O1) H0]. cbn [fst snd] in *.
  rewrite V0 in V1. injection V1 as <-. destruct l as [|x l]; [discriminate|].
  destruct mp as [b|]; [|subst r; split; [cbn [length]; lia|auto]].
  destruct H0 as [H0 _]. destruct S0 as [_ S0]. pose proof (SC_pos _ _ _ _ S0). pose proof (inv_le _ _ _ H0).
  split; [lia|]. split; [assumption|exact (SC_utf8 _ _ _ _ S0)].
Qed.

Lemma f_template_progress c tu kw nums l d r : env_ok c tu kw nums ->
  (forall x, c_inner_delimiter c x = true -> keyword_end c x = true) -> utf8 l = true ->
  f_template c nums (rmulti c tu kw) l = Some (d, r) -> (length r < length l)%nat /\ duration_ok d /\ utf8 r = true.
Proof. intros HE HD. apply (f_template_progress_fit c tu kw nums _ l d r HE (kfit_all c kw nums HD)). Qed.

Fixpoint f_multiple (fuel : nat) (c : config) (tu : units_like) (kw : option units_like) (nums : option numbers_like)
    (l : str) : option (list duration) :=
  match fuel with
  | O => None
  | S f =>
      let? (d, r) := f_template c nums (rmulti c tu kw) l in
      if negb (c_allow_negative c) && is_negative d then None else
      match r with
      | [] => Some [d]
      | _ => let? ds := f_multiple f c tu kw nums r in Some (d :: ds)
      end
  end.

Lemma clamp_zero_l x : - max_nanos <= x <= max_nanos -> clamp_nanos (0 + x) = x.
Proof. intros H. unfold clamp_nanos, clamp. lia. Qed.
Lemma clamp_zero_r x : - max_nanos <= x <= max_nanos -> clamp_nanos (x + 0) = x.
Proof. intros H. unfold clamp_nanos, clamp. lia. Qed.

Lemma sim_multiple_loop c tu kw nums K s : env_ok c tu kw nums -> kfit c kw nums K ->
  forall fuel b l d0, SC K s b l -> (length l < fuel)%nat -> duration_ok d0 ->
  sim (fun D ds => duration_ok D /\ nanos D = fold_left (fun a d => clamp_nanos (a + nanos d)) ds (nanos d0))
    (multiple_loop fuel c tu kw nums d0 b) (f_multiple fuel c tu kw nums l).
Proof.
  intros HE HF. induction fuel as [|f IH]; intros b l d0 H L O0; [lia|]. cbn [multiple_loop f_multiple].
  pose proof (sim_template multi (rmulti c tu kw) (multi_rel s K) c tu kw nums K s HE (fit_numeral HF)
      (tsim_multi c tu kw nums s K HE HF) b l H) as S0.
  pose proof (fun d r => f_template_progress_fit c tu kw nums K l d r HE HF (SC_utf8 _ _ _ _ H)) as Pr.
  destruct (f_template c nums (rmulti c tu kw) l) as [[d r]|].
  2:{ destruct (template_parse _ _ _ _ _ _); [contradiction|exact I|contradiction]. }
  destruct (template_parse multi b c tu kw nums) as [[rp mp]|?|?]; [|contradiction|contradiction].
  cbn [sim bind obind] in *. destruct S0 as [V0 S0]. cbn [fst snd] in *. rewrite V0. cbn [bind].
  specialize (Pr d r eq_refl). destruct Pr as (Pl & Od & Ur).
  destruct (negb (c_allow_negative c) && is_negative d); [exact I|].
  assert (A : exists d1, (if is_zero d then Ok d0 else if is_zero d0 then Ok d else saturating_add d0 d) = Ok d1 /\
     duration_ok d1 /\ nanos d1 = clamp_nanos (nanos d0 + nanos d)).
  { destruct (is_zero d) eqn:Z1.
    - apply is_zero_iff in Z1; [|assumption]. exists d0. rewrite Z1. split; [reflexivity|]. split; [assumption|].
      symmetry. apply clamp_zero_r, nanos_range, O0.
    - destruct (is_zero d0) eqn:Z2; [|now apply saturating_add_spec].
      apply is_zero_iff in Z2; [|assumption]. exists d. rewrite Z2. split; [reflexivity|]. split; [assumption|].
      symmetry. apply clamp_zero_l, nanos_range, Od. }
  destruct A as (d1 & -> & O1 & N1). cbn [bind].
  destruct mp as [b1|].
  - destruct S0 as [Nr S1]. destruct r as [|x r0] eqn:Er; [congruence|]. rewrite <- Er in *.
    assert (Lf : (length r < f)%nat) by lia. specialize (IH b1 r d1 S1 Lf O1). rewrite Er at 1. rewrite <- Er.
    destruct (f_multiple f c tu kw nums r) as [ds|].
    + destruct (multiple_loop f c tu kw nums d1 b1); [|contradiction|contradiction]. cbn [sim obind fold_left] in *.
      rewrite <- N1. exact IH.
    + destruct (multiple_loop f c tu kw nums d1 b1); [contradiction|exact I|contradiction].
  - subst r. cbn [sim fold_left]. auto.
Qed.

Theorem sim_parse_multiple c tu kw nums K s : env_ok c tu kw nums -> kfit c kw nums K -> utf8 s = true ->
  sim (fun D ds => duration_ok D /\ nanos D = saturating_sum ds) (parse_multiple c s tu kw nums)
    (f_multiple (S (length s)) c tu kw nums s).
Proof.
  intros HE HF U. unfold parse_multiple, saturating_sum. rewrite <- nanos_ZERO.
  apply (sim_multiple_loop c tu kw nums K s HE HF); [now apply SC_init|lia|apply ZERO_ok].
Qed.
