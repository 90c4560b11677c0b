(** * Properties C84, C86, C87, C88 and C89 of custom parsers, in terms of the identifiers given to them *)
From Verif Require Import Prelude Time Config Parse SpecTime SpecNum SpecParse SpecValue SpecGrammar SpecSpelling SpecErrors SpecTexts SpecManyTexts.
From Verif Require Import Utf8Proofs Standard StandardProofs PropStandard Custom SpecCustom CustomProofs PropParse PropCustom PropTables ExEnv PropCustomText
  PropTexts PropPrefix PropManyTexts PropManyPrefix PropConjunctions PropCase.

(** the identifiers of the time units, keywords and numerals given to the methods of a parser *)
Definition unit_id (os : list custom_call) (id : str) : Prop := exists u m, registered (units_of os) id u m.
Definition keyword_id (os : list custom_call) (id : str) : Prop := exists u m, registered (keywords_of os) id u m.
Definition numeral_id (os : list custom_call) (id : str) : Prop := exists m, numeral_registered (numerals_of os) id m.

(** identifiers and delimiters which cannot be mistaken for each other or for a part of a number *)
Record plain_calls (os : list custom_call) (c : config) : Prop := PlainCalls {
  pc_delimiter : forall x, c_inner_delimiter c x = true ->
     ~ 48 <= x <= 57 /\ x <> 46 /\ x <> 43 /\ x <> 45 /\ ~ 65 <= x <= 90 /\ ~ 97 <= x <= 122;
  pc_units : forall id, unit_id os id -> plain_word c id /\ hd 0 id <> 101 /\ hd 0 id <> 69;
  pc_keywords : forall id, keyword_id os id -> plain_word c id /\ ~ unit_id os id;
  pc_numerals : forall id, numeral_id os id -> plain_word c id /\ ~ unit_id os id
}.
(** and conjunctions, for multiple durations *)
Record plain_calls_many (os : list custom_call) (c : config) : Prop := PlainCallsMany {
  pcm_plain : plain_calls os c;
  pcm_delimiters : forall x, c_outer_delimiter c x = c_inner_delimiter c x;
  pcm_identifiers : forall id, unit_id os id \/ keyword_id os id \/ numeral_id os id -> forall x, In x id -> ~ digit_or_sign x;
  pcm_tables : forall id, keyword_id os id -> ~ numeral_id os id;
  pcm_conjunctions : forall w, In w (words c) -> w <> [] /\ hd 0 w <> 46 /\ forall x, In x w -> ~ digit_or_sign x /\ c_inner_delimiter c x = false;
  pcm_no_conjunction : forall w id, In w (words c) -> unit_id os id \/ keyword_id os id \/ numeral_id os id \/ c_disable_infinity c = false /\ id = %"infinity" -> ~ starts_like w id;
  pcm_one_conjunction : forall w w', In w (words c) -> In w' (words c) -> starts_like w w' -> length w = length w';
  pcm_ago : forall id, unit_id os id \/ keyword_id os id \/ numeral_id os id \/ In id (words c) -> c_allow_ago c = true -> str_eq_nocase id (%"ago") = false
}.

Section Custom.
Context (os : list custom_call).
Notation p := (fold_left cp_call os cp_new).
Notation c := (cp_config p).
Definition own_units : units_like := custom_like (cu_with_time_units (units_of os)).
Definition own_keywords : option units_like :=
  if negb (cu_is_empty (cu_with_time_units (keywords_of os))) then Some (custom_like (cu_with_time_units (keywords_of os))) else None.
Definition own_numerals : option numbers_like := match numerals_of os with [] => None | l => Some (numerals_get l) end.

Lemma custom_parse s : cp_parse p s = parse c s own_units own_keywords own_numerals.
Proof. exact (cp_parse_calls os s). Qed.
Lemma own_env : calls_fit os -> env_ok c own_units own_keywords own_numerals.
Proof. exact (custom_env_ok os). Qed.
Lemma own_unit id : u_get own_units id <> None <-> unit_id os id.
Proof.
  unfold unit_id. rewrite <- C34_found_iff_registered. unfold own_units. cbn [u_get custom_like]. destruct (cu_get _ id) as [[u m]|]; split; try congruence.
  - intros _. eauto.
  - intros (u & m & H). discriminate.
Qed.
Lemma own_keyword id : (exists k, own_keywords = Some k /\ u_get k id <> None) <-> keyword_id os id.
Proof.
  unfold keyword_id. rewrite <- C34_found_iff_registered. unfold own_keywords. destruct (cu_is_empty (cu_with_time_units (keywords_of os))) eqn:E; cbn [negb].
  - split; [intros (k & H & _); discriminate|]. intros H. apply C34_found_iff_registered in H. destruct H as (u & m & N & t & T1 & _ & T2).
    destruct (proj1 (C34_is_empty _) E t T1). exists id. auto.
  - split.
    + intros (k & [= <-] & H). cbn [u_get custom_like] in H. destruct (cu_get _ id) as [[u m]|]; [eauto|congruence].
    + intros (u & m & H). eexists. split; [reflexivity|]. cbn [u_get custom_like]. congruence.
Qed.
Lemma own_numeral id : (exists f, own_numerals = Some f /\ f id <> None) <-> numeral_id os id.
Proof.
  assert (A : forall l, numerals_get l id <> None <-> exists m, numeral_registered l id m).
  { intros l. split.
    - intros H. destruct (numerals_get l id) as [m|] eqn:E; [|congruence]. apply C36_lookup in E. destruct E as (l1 & n & l2 & -> & H1 & H2 & _). exists m, n.
      split; [|auto]. apply in_app_iff. right. now left.
    - intros (m & n & H1 & H2 & _). induction l as [|x l IH]; [contradiction|]. cbn [numerals_get].
      destruct (existsb _ _) eqn:E; [discriminate|]. destruct H1 as [->|H1]; [|auto].
      assert (existsb (fun i => str_eqb i id) (nu_ids n) = true) by now apply existsb_in. congruence. }
  unfold numeral_id. rewrite <- A. unfold own_numerals. destruct (numerals_of os) as [|n l].
  - split; [intros (f & H & _); discriminate|]. intros H. now elim H.
  - split; [intros (f & [= <-] & H); exact H|]. intros H. eexists. split; [reflexivity|exact H].
Qed.
Lemma own_not_empty id : unit_id os id -> u_is_empty own_units = false.
Proof.
  intros (u & m & N & t & T1 & _ & T2). destruct (u_is_empty own_units) eqn:E; [|reflexivity].
  destruct (proj1 (C34_is_empty _) E t T1). exists id. auto.
Qed.
Lemma own_plain : plain_calls os c -> plain_env c own_units own_keywords own_numerals.
Proof.
  intros [H1 H2 H3 H4]. constructor; [exact H1|..].
  - intros id H. apply own_unit in H. split; [now apply (own_not_empty id)|]. now apply H2.
  - intros k id Ek H. destruct (H3 id) as [G1 G2]; [apply own_keyword; eauto|]. split; [exact G1|]. destruct (u_get own_units id) eqn:E; [|reflexivity].
    elim G2. apply own_unit. congruence.
  - intros f id Ef H. destruct (H4 id) as [G1 G2]; [apply own_numeral; eauto|]. split; [exact G1|]. destruct (u_get own_units id) eqn:E; [|reflexivity].
    elim G2. apply own_unit. congruence.
Qed.
Lemma own_identifier id : identifier own_units own_keywords own_numerals id <-> unit_id os id \/ keyword_id os id \/ numeral_id os id.
Proof. unfold identifier. rewrite own_unit, own_keyword, own_numeral. tauto. Qed.
Lemma own_plain_many : plain_calls_many os c -> plain_many c own_units own_keywords own_numerals.
Proof.
  intros [H1 H2 H3 H4 H5 H6 H7 H8]. constructor; auto.
  - now apply own_plain.
  - intros id H. apply own_identifier in H. now apply H3.
  - intros k f id Ek Ef H. destruct (f id) eqn:E; [|reflexivity]. elim (H4 id); [apply own_keyword; eauto|]. apply own_numeral. exists f. split; [exact Ef|congruence].
  - intros w id Hw [H|H]; apply (H6 w id Hw); [apply own_identifier in H; tauto|tauto].
  - intros id [H|H]; apply H8; [apply own_identifier in H; tauto|tauto].
Qed.

(** other tables with the same words *)
Context (units keywords : units_like) (numerals : numbers_like).
Context (TU : PropCustomText.table_of (units_of os) units) (TK : PropCustomText.table_of (keywords_of os) keywords) (TN : numeral_table_of (numerals_of os) numerals).
Lemma units_same id : u_get own_units id = u_get units id.
Proof. now apply table_get. Qed.
Lemma keywords_same id u m : (exists k, own_keywords = Some k /\ u_get k id = Some (u, m)) <-> u_get keywords id = Some (u, m).
Proof. pose proof (keywords_words _ _ TK id u m) as H. unfold words_of in H. unfold own_keywords. rewrite H. split; [intros (k & [= <-] & G); exact G|eauto]. Qed.
Lemma numerals_same id m : (exists f, own_numerals = Some f /\ f id = Some m) <-> numerals id = Some m.
Proof. pose proof (numerals_words _ _ TN id m) as H. unfold numbers_of in H. unfold own_numerals. rewrite H. split; [intros (k & [= <-] & G); exact G|eauto]. Qed.
Lemma unit_part_same q u m : unit_part c own_units q u m <-> unit_part c units q u m.
Proof. split; intros [id u0 m0 H|id u0 m0 ds a H H1 H2 H3 H4]; (rewrite units_same in H || rewrite <- units_same in H); [now apply up_plain|now apply up_ago|now apply up_plain|now apply up_ago]. Qed.
Lemma duration_text_same s d : duration_text c own_units own_keywords own_numerals s d <-> duration_text c units (Some keywords) (Some numerals) s d.
Proof.
  split; intros [sg n q W F x H1 H2|sg n q W F x ds r u m H1 H2 H3 H4 H5|sg n v H1 H2 H3|sg n k id u m H1 H2 H3|sg n q u m H1 H2 H3|sg n f id num ds q u m H1 H2 H3 H4 H5 H6].
  - now apply dt_number.
  - apply dt_number_unit; auto. now apply unit_part_same.
  - now apply dt_infinity.
  - apply dt_keyword with keywords; auto. apply keywords_same. eauto.
  - apply dt_unit; auto. now apply unit_part_same.
  - apply dt_numeral with numerals; auto; [|now apply unit_part_same]. apply numerals_same. eauto.
  - now apply dt_number.
  - apply dt_number_unit; auto. now apply unit_part_same.
  - now apply dt_infinity.
  - injection H2 as <-. apply keywords_same in H3. destruct H3 as (k & E & H3). now apply dt_keyword with k.
  - apply dt_unit; auto. now apply unit_part_same.
  - injection H2 as <-. apply numerals_same in H3. destruct H3 as (f & E & H3). apply dt_numeral with f; auto. now apply unit_part_same.
Qed.
Lemma one_duration_same s b e d : one_duration c own_units own_keywords own_numerals s b e d <-> one_duration c units (Some keywords) (Some numerals) s b e d.
Proof.
  split; intros [sg n q W F x H1 H2|sg n q W F x ds r u m H1 H2 H3 H4 H5|sg n v H1 H2 H3|sg n k id u m H1 H2 H3|sg n q u m H1 H2 H3|sg n f id num ds q u m H1 H2 H3 H4 H5 H6].
  - now apply od_number.
  - apply od_number_unit; auto. now apply unit_part_same.
  - now apply od_infinity.
  - apply od_keyword with keywords; auto. apply keywords_same. eauto.
  - apply od_unit; auto. now apply unit_part_same.
  - apply od_numeral with numerals; auto; [|now apply unit_part_same]. apply numerals_same. eauto.
  - now apply od_number.
  - apply od_number_unit; auto. now apply unit_part_same.
  - now apply od_infinity.
  - injection H2 as <-. apply keywords_same in H3. destruct H3 as (k & E & H3). now apply od_keyword with k.
  - apply od_unit; auto. now apply unit_part_same.
  - injection H2 as <-. apply numerals_same in H3. destruct H3 as (f & E & H3). apply od_numeral with f; auto. now apply unit_part_same.
Qed.
Lemma durations_text_same s b ds : durations_text c own_units own_keywords own_numerals s b ds <-> durations_text c units (Some keywords) (Some numerals) s b ds.
Proof.
  split; induction 1 as [q b e d H|q b e d sep x r b' ds H H1 H2 IH].
  - apply dts_last with e. now apply one_duration_same.
  - apply dts_more with e b'; auto. now apply one_duration_same.
  - apply dts_last with e. now apply one_duration_same.
  - apply dts_more with e b'; auto. now apply one_duration_same.
Qed.
End Custom.

(** C84: a custom parser for single durations accepts exactly the texts of the regular expression with its identifiers *)
Theorem C84_custom : forall os units keywords numerals s d, let p := fold_left cp_call os cp_new in let c := cp_config p in
  calls_fit os -> plain_calls os c -> utf8 s = true -> c_allow_multiple c = false ->
  PropCustomText.table_of (units_of os) units -> PropCustomText.table_of (keywords_of os) keywords -> numeral_table_of (numerals_of os) numerals ->
  cp_parse p s = Ok d <-> duration_text c units (Some keywords) (Some numerals) s d /\ sign_allowed c d.
Proof.
  intros os units keywords numerals s d p c HF PC U Hm TU TK TN. subst p. rewrite custom_parse, C84_written_texts; auto using own_env, own_plain.
  subst c. now rewrite (duration_text_same os units keywords numerals TU TK TN).
Qed.
Print Assumptions C84_custom.

(** C87: the same for multiple durations *)
Theorem C87_custom : forall os units keywords numerals s, let p := fold_left cp_call os cp_new in let c := cp_config p in
  calls_fit os -> plain_calls_many os c -> utf8 s = true -> c_allow_multiple c = true ->
  PropCustomText.table_of (units_of os) units -> PropCustomText.table_of (keywords_of os) keywords -> numeral_table_of (numerals_of os) numerals ->
  (forall D, cp_parse p s = Ok D -> exists bare ds, durations_text c units (Some keywords) (Some numerals) s bare ds /\ (forall d, In d ds -> sign_allowed c d) /\
     duration_ok D /\ nanos D = saturating_sum ds) /\
  (forall bare ds, durations_text c units (Some keywords) (Some numerals) s bare ds -> (forall d, In d ds -> sign_allowed c d) ->
     exists D, cp_parse p s = Ok D /\ duration_ok D /\ nanos D = saturating_sum ds).
Proof.
  intros os units keywords numerals s p c HF PC U Hm TU TK TN.
  assert (HD : delims_ok c (own_keywords os) (own_numerals os)) by (apply delims_strict_ok; intros _ x Hx; unfold keyword_end; rewrite (pcm_delimiters _ _ PC), Hx; reflexivity).
  destruct (C87_written_texts c (own_units os) (own_keywords os) (own_numerals os) s (own_env os HF) HD (own_plain_many os PC) Hm U) as [A B]. subst p. rewrite custom_parse. split.
  - intros D P. destruct (A D P) as (bare & ds & T & R). exists bare, ds. split; [|exact R]. now apply (durations_text_same os units keywords numerals TU TK TN).
  - intros bare ds T. apply (B bare). now apply (durations_text_same os units keywords numerals TU TK TN).
Qed.
Print Assumptions C87_custom.

(** C86: everything in front of the position of an error is the beginning of an acceptable text *)
Theorem C86_custom : forall os s, let p := fold_left cp_call os cp_new in let c := cp_config p in
  calls_fit os -> utf8 s = true ->
  (exists id, utf8 id = true /\ unit_id os id) \/ (numerals_of os = [] /\ (c_allow_multiple c = true \/ c_allow_time_unit_delimiter c = false)) ->
  (if c_allow_multiple c then plain_calls_many os c else plain_calls os c) ->
  (forall i m, cp_parse p s = Err (Syntax i m) \/ cp_parse p s = Err (TimeUnitErr i m) -> (i <= length s)%nat /\ beginning (cp_parse p) (firstn i s)) /\
  (forall r, cp_parse p s = Err (InvalidInput r) -> exists pre, s = pre ++ r /\ beginning (cp_parse p) pre).
Proof.
  intros os s p c HF U HN PC.
  assert (X : forall f g pre, (forall t, f t = g t) -> beginning f pre -> beginning g pre).
  { intros f g pre E (r & Ur & H). exists r. split; [exact Ur|]. now rewrite <- (E (pre ++ r)). }
  assert (E : forall t, parse c t (own_units os) (own_keywords os) (own_numerals os) = cp_parse p t) by (intros t; symmetry; apply custom_parse).
  assert (G : let run := fun text => parse c text (own_units os) (own_keywords os) (own_numerals os) in
    (forall p m, run s = Err (Syntax p m) \/ run s = Err (TimeUnitErr p m) -> (p <= length s)%nat /\ beginning run (firstn p s)) /\
    (forall l, run s = Err (InvalidInput l) -> exists pre, s = pre ++ l /\ beginning run pre)).
  { destruct (c_allow_multiple c) eqn:Hm.
    - apply (C86_multiple c _ _ _ s (own_env os HF)); auto; [| exact (own_plain_many os PC)|].
      + apply delims_strict_ok. intros _ x Hx. unfold keyword_end. now rewrite (pcm_delimiters _ _ PC), Hx.
      + destruct HN as [(id & H1 & H2)|[H _]]; [left; exists id; split; [exact H1|now apply own_unit]|right]. unfold own_numerals. now rewrite H.
    - apply (C86_in_front_of_errors c _ _ _ s (own_env os HF) (own_plain os PC)); auto.
      destruct HN as [(id & H1 & H2)|[H [H2|H2]]]; [left; exists id; split; [exact H1|now apply own_unit]|discriminate|right]. unfold own_numerals. now rewrite H. }
  destruct G as [G1 G2]. split.
  - intros i m H. rewrite <- E in H. destruct (G1 i m H) as [L B]. split; [exact L|]. revert B. now apply X.
  - intros r H. rewrite <- E in H. destruct (G2 r H) as (pre & L & B). exists pre. split; [exact L|]. revert B. now apply X.
Qed.
Print Assumptions C86_custom.

(** C88: conjunctions say the same as delimiters *)
Theorem C88_custom : forall os s t w v dl dl1 dl2 D1 D2, let p := fold_left cp_call os cp_new in let c := cp_config p in
  calls_fit os -> plain_calls_many os c -> c_allow_multiple c = true -> utf8 s = true -> utf8 t = true ->
  cp_parse p s = Ok D1 -> cp_parse p t = Ok D2 -> In w (words c) -> str_eq_nocase v w = true ->
  (forall x, In x (dl ++ dl1 ++ dl2) -> c_inner_delimiter c x = true) -> dl <> [] -> dl1 <> [] -> (dl2 = [] -> starts_with starts_duration t) ->
  c_allow_time_unit_delimiter c = false \/ ends_in_word s ->
  exists D D', cp_parse p (s ++ dl ++ t) = Ok D /\ cp_parse p (s ++ dl1 ++ v ++ dl2 ++ t) = Ok D' /\ nanos D' = nanos D.
Proof.
  intros os s t w v dl dl1 dl2 D1 D2 p c HF PC Hm Us Ut P1 P2 Hw Hv HL N N1 N2 HN. subst p. rewrite custom_parse in P1, P2.
  destruct (C88_conjunctions c (own_units os) (own_keywords os) (own_numerals os) s t w v dl dl1 dl2 D1 D2 (own_env os HF)) as (D & D' & R); auto; [|exact (own_plain_many os PC)|].
  - apply delims_strict_ok. intros _ x Hx. unfold keyword_end. now rewrite (pcm_delimiters _ _ PC), Hx.
  - exists D, D'. now rewrite !custom_parse.
Qed.
Print Assumptions C88_custom.

(** C89: the texts may differ in the case of letters which are no part of an identifier *)
Theorem C89_custom : forall os s s' n, let p := fold_left cp_call os cp_new in let c := cp_config p in
  calls_fit os -> calls_delims os -> utf8 s = true -> case_delimiters c -> str_eq_nocase s s' = true ->
  (forall id a r, unit_id os id \/ keyword_id os id \/ numeral_id os id -> s = a ++ id ++ r -> cut c a (id ++ r) -> cut c (a ++ id) r ->
     exists a' r', s' = a' ++ id ++ r' /\ length a' = length a) ->
  (forall id a r, unit_id os id \/ keyword_id os id \/ numeral_id os id -> s' = a ++ id ++ r -> cut c a (id ++ r) -> cut c (a ++ id) r ->
     exists a' r', s = a' ++ id ++ r' /\ length a' = length a) ->
  ((exists d, cp_parse p s = Ok d /\ nanos d = n) <-> (exists d, cp_parse p s' = Ok d /\ nanos d = n)).
Proof.
  intros os s s' n p c HF HD U CD N H1 H2. apply calls_delims_ok in HD. change (delims_ok c (own_keywords os) (own_numerals os)) in HD.
  assert (W : same_words c (own_units os) (own_keywords os) (own_numerals os) s s').
  { intros a id r a' id' r' E1 E2 L1 L2 C1 C2. rewrite E1, E2 in N. pose proof N as N1. apply nocase_split in N1; [|exact L1]. destruct N1 as [N1 N2].
    pose proof N2 as N3. apply nocase_split in N3; [|exact L2]. destruct N3 as [N3 N4].
    pose proof (cut_sym c CD _ _ _ _ N1 N2 C1) as C1'. pose proof (cut_sym c CD _ _ _ _ (nocase_app _ _ _ _ N1 N3) N4 C2) as C2'.
    assert (K : unit_id os id \/ keyword_id os id \/ numeral_id os id \/ unit_id os id' \/ keyword_id os id' \/ numeral_id os id' -> id = id').
    { intros K. assert (K' : (unit_id os id \/ keyword_id os id \/ numeral_id os id) \/ (unit_id os id' \/ keyword_id os id' \/ numeral_id os id')) by tauto.
      destruct K' as [K'|K'].
      - destruct (H1 id a r K' E1 C1 C2) as (b & q & Eb & Lb). rewrite E2 in Eb. apply split_same in Eb; [|congruence]. destruct Eb as [_ Eb]. apply split_same in Eb; [|congruence]. now destruct Eb.
      - destruct (H2 id' a' r' K' E2 C1' C2') as (b & q & Eb & Lb). rewrite E1 in Eb. apply split_same in Eb; [|congruence]. destruct Eb as [_ Eb]. apply split_same in Eb; [|congruence]. now destruct Eb. }
    split; [|split].
    - destruct (u_get (own_units os) id) eqn:G.
      + rewrite <- G. rewrite K; [reflexivity|]. left. apply own_unit. congruence.
      + destruct (u_get (own_units os) id') eqn:G'; [|reflexivity]. rewrite <- G, <- G'. rewrite K; [reflexivity|]. do 3 right. left. apply own_unit. congruence.
    - intros k Ek. destruct (u_get k id) eqn:G.
      + rewrite <- G. rewrite K; [reflexivity|]. right. left. apply own_keyword. exists k. split; [exact Ek|congruence].
      + destruct (u_get k id') eqn:G'; [|reflexivity]. rewrite <- G, <- G'. rewrite K; [reflexivity|]. do 4 right. left. apply own_keyword. exists k. split; [exact Ek|congruence].
    - intros f Ef. destruct (f id) eqn:G.
      + rewrite <- G. rewrite K; [reflexivity|]. right. right. left. apply own_numeral. exists f. split; [exact Ef|congruence].
      + destruct (f id') eqn:G'; [|reflexivity]. rewrite <- G, <- G'. rewrite K; [reflexivity|]. do 5 right. apply own_numeral. exists f. split; [exact Ef|congruence]. }
  subst p. rewrite !custom_parse. destruct (c_allow_multiple c) eqn:Hm; [apply (C89_multiple c _ _ _ s s' n (own_env os HF)); auto|].
  split; intros (d & P & Hn); exists d; (split; [|exact Hn]); apply (C89_single c (own_units os) (own_keywords os) (own_numerals os) s s' d (own_env os HF)); auto.
Qed.
Print Assumptions C89_custom.

(** ** Examples: `tomorrow`, `morrow`; `sec`, `s`, `fortnight(s)`; `next`, `one` *)
Definition many_calls : list custom_call := ex_calls ++ [C_set (Set_parse_multiple true (Some [%"and"])); C_set (Set_allow_ago true); C_set (Set_allow_negative true)].
Lemma ex_unit_ids os id : units_of os = units_of ex_calls -> unit_id os id -> In id [%"sec"; %"fortnight"; %"fortnights"; %"s"].
Proof. intros E (u & m & _ & t & T & _ & H). rewrite E in T. cbn in T. repeat destruct T as [<-|T]; try contradiction; cbn in H |- *; tauto. Qed.
Lemma ex_keyword_ids os id : keywords_of os = keywords_of ex_calls -> keyword_id os id -> In id [%"tomorrow"; %"morrow"].
Proof. intros E (u & m & _ & t & T & _ & H). rewrite E in T. cbn in T. repeat destruct T as [<-|T]; try contradiction; exact H. Qed.
Lemma ex_numeral_ids os id : numerals_of os = numerals_of ex_calls -> numeral_id os id -> In id [%"next"; %"one"].
Proof. intros E (m & t & T & H & _). rewrite E in T. cbn in T. repeat destruct T as [<-|T]; try contradiction; exact H. Qed.

Definition ex_words : list str := [%"sec"; %"fortnight"; %"fortnights"; %"s"; %"tomorrow"; %"morrow"; %"next"; %"one"].
Lemma ex_plain_word c id : (forall x, c_inner_delimiter c x = is_ascii_whitespace x) -> In id ex_words -> plain_word c id.
Proof.
  intros D H. unfold ex_words in H. repeat destruct H as [<-|H]; try contradiction; (split; [split; [vm_compute; intuition discriminate|]|]);
    try (intros x y z r E _; injection E as <- <- <- _; reflexivity); try discriminate;
    intros x Hx; rewrite D; cbn in Hx; repeat destruct Hx as [<-|Hx]; try contradiction; reflexivity.
Qed.
Lemma ex_plain_calls os : units_of os = units_of ex_calls -> keywords_of os = keywords_of ex_calls -> numerals_of os = numerals_of ex_calls ->
  (forall x, c_inner_delimiter (cp_config (fold_left cp_call os cp_new)) x = is_ascii_whitespace x) -> plain_calls os (cp_config (fold_left cp_call os cp_new)).
Proof.
  intros EU EK EN D. assert (W : forall id, unit_id os id \/ keyword_id os id \/ numeral_id os id -> In id ex_words).
  { intros id [H|[H|H]]; [apply ex_unit_ids in H; auto|apply ex_keyword_ids in H; auto|apply ex_numeral_ids in H; auto]; cbn in H |- *; tauto. }
  constructor.
  - intros x Hx. rewrite D in Hx. unfold is_ascii_whitespace in Hx. lia.
  - intros id H. split; [apply ex_plain_word; auto|]. apply ex_unit_ids in H; [|exact EU]. repeat destruct H as [<-|H]; try contradiction; vm_compute; split; discriminate.
  - intros id H. split; [apply ex_plain_word; auto|]. intros G. apply ex_keyword_ids in H; [|exact EK]. apply ex_unit_ids in G; [|exact EU].
    repeat destruct H as [<-|H]; try contradiction; repeat destruct G as [G|G]; try contradiction; discriminate G.
  - intros id H. split; [apply ex_plain_word; auto|]. intros G. apply ex_numeral_ids in H; [|exact EN]. apply ex_unit_ids in G; [|exact EU].
    repeat destruct H as [<-|H]; try contradiction; repeat destruct G as [G|G]; try contradiction; discriminate G.
Qed.
Lemma ex_plain_calls_many : plain_calls_many many_calls (cp_config (fold_left cp_call many_calls cp_new)).
Proof.
  assert (W : forall id, unit_id many_calls id \/ keyword_id many_calls id \/ numeral_id many_calls id -> In id ex_words).
  { intros id [H|[H|H]]; [apply ex_unit_ids in H; auto|apply ex_keyword_ids in H; auto|apply ex_numeral_ids in H; auto]; cbn in H |- *; tauto. }
  constructor.
  - apply ex_plain_calls; reflexivity.
  - intros x. reflexivity.
  - intros id H x Hx. apply W in H. unfold digit_or_sign. unfold ex_words in H. repeat destruct H as [<-|H]; try contradiction; cbn in Hx; repeat destruct Hx as [<-|Hx]; try contradiction; lia.
  - intros id H G. apply ex_keyword_ids in H; [|reflexivity]. apply ex_numeral_ids in G; [|reflexivity].
    repeat destruct H as [<-|H]; try contradiction; repeat destruct G as [G|G]; try contradiction; discriminate G.
  - intros w [<-|[]]. split; [discriminate|]. split; [discriminate|]. intros x Hx. cbn in Hx. unfold digit_or_sign. repeat destruct Hx as [<-|Hx]; try contradiction; (split; [lia|reflexivity]).
  - intros w id [<-|[]] H (v & r & E & Hv). pose proof (str_eq_nocase_length _ _ Hv) as L. destruct v as [|x [|y [|z [|]]]]; try discriminate L.
    assert (G : In id (ex_words ++ [%"infinity"])). { apply in_app_iff. destruct H as [H|[H|[H|[_ ->]]]]; auto. right. now left. }
    unfold ex_words in G. cbn [app] in G. repeat destruct G as [<-|G]; try contradiction; first [discriminate E|injection E as <- <- <- _; discriminate Hv].
  - intros w w' [<-|[]] [<-|[]] _. reflexivity.
  - intros id H _. assert (G : In id (ex_words ++ [%"and"])). { apply in_app_iff. destruct H as [H|[H|[H|[<-|[]]]]]; auto. right. now left. }
    unfold ex_words in G. cbn [app] in G. repeat destruct G as [<-|G]; try contradiction; reflexivity.
Qed.
Lemma many_calls_fit : calls_fit many_calls.
Proof.
  destruct ex_calls_fit as [H1 H2 H3 H4]. constructor; [exact H1|exact H2| |].
  - intros n t G1 G2. cbn in G1, G2. repeat destruct G1 as [<-|G1]; try contradiction; repeat destruct G2 as [<-|G2]; try contradiction;
      (split; [|intros _]; eexists; (split; [reflexivity|discriminate])).
  - split; [exact ws_ascii|]. split; [exact ws_ascii|]. intros c w E H. injection E as <-. destruct H as [<-|[]]. reflexivity.
Qed.

(** the hypotheses of C84_custom and C87_custom hold of these parsers, and some texts they read *)
Example C84_custom_example : let p := fold_left cp_call ex_calls cp_new in
  calls_fit ex_calls /\ plain_calls ex_calls (cp_config p) /\ c_allow_multiple (cp_config p) = false /\
  duration_text (cp_config p) (custom_like (cu_with_time_units (units_of ex_calls))) (Some (custom_like (cu_with_time_units (keywords_of ex_calls))))
    (Some (ExEnv.table [(%"next", Mul 1 0); (%"one", Mul 1 0)])) (%"next  fortnight") (Dur false (Std 1209600 0)) /\
  cp_parse p (%"next  fortnight") = Ok (Dur false (Std 1209600 0)).
Proof.
  intros p. assert (PC : plain_calls ex_calls (cp_config p)) by (apply ex_plain_calls; reflexivity). split; [exact ex_calls_fit|]. split; [exact PC|]. split; [reflexivity|].
  destruct ex_calls_unambiguous as [A1 A2].
  assert (P : cp_parse p (%"next  fortnight") = Ok (Dur false (Std 1209600 0))) by reflexivity. split; [|exact P].
  apply (C84_custom ex_calls (custom_like (cu_with_time_units (units_of ex_calls))) (custom_like (cu_with_time_units (keywords_of ex_calls)))
    (ExEnv.table [(%"next", Mul 1 0); (%"one", Mul 1 0)])) in P; [now destruct P|exact ex_calls_fit|exact PC|reflexivity|reflexivity|now apply own_table|now apply own_table|exact ex_numeral_table].
Qed.
Example C87_custom_example : let p := fold_left cp_call many_calls cp_new in
  calls_fit many_calls /\ plain_calls_many many_calls (cp_config p) /\ c_allow_multiple (cp_config p) = true /\
  cp_parse p (%"2sec AND next fortnight tomorrow 3 s ago") = Ok (Dur false (Std 1295999 0)).
Proof. split; [exact many_calls_fit|]. split; [exact ex_plain_calls_many|]. split; reflexivity. Qed.
(** `2sec 1morning`: everything in front of the unknown word is the beginning of an acceptable text *)
Example C86_custom_example : let p := fold_left cp_call many_calls cp_new in
  cp_parse p (%"2sec 1morning") = Err (InvalidInput (%"morning")) /\ exists pre, %"2sec 1morning" = pre ++ %"morning" /\ beginning (cp_parse p) pre.
Proof.
  intros p. assert (P : cp_parse p (%"2sec 1morning") = Err (InvalidInput (%"morning"))) by reflexivity. split; [exact P|].
  refine (proj2 (C86_custom many_calls (%"2sec 1morning") many_calls_fit eq_refl _ ex_plain_calls_many) (%"morning") P).
  left. exists (%"sec"). split; [reflexivity|]. exists Second, default_multiplier. split; [discriminate|]. exists (CTU Second (Mul 1 0) [%"sec"]). split; [now left|]. split; [reflexivity|now left].
Qed.
Example C88_custom_example : let p := fold_left cp_call many_calls cp_new in
  exists D D', cp_parse p (%"2sec tomorrow") = Ok D /\ cp_parse p (%"2sec And tomorrow") = Ok D' /\ nanos D' = nanos D.
Proof.
  intros p. apply (C88_custom many_calls (%"2sec") (%"tomorrow") (%"and") (%"And") (%" ") (%" ") (%" ") (Dur false (Std 2 0)) (Dur false (Std 86400 0)));
    try reflexivity; try discriminate; [exact many_calls_fit|exact ex_plain_calls_many|now left|intros x Hx; repeat destruct Hx as [<-|Hx]; try contradiction; reflexivity|].
  right. exists (%"2se"), 99. split; [reflexivity|]. split; [lia|discriminate].
Qed.
Example C89_custom_example : let p := fold_left cp_call many_calls cp_new in
  (forall n, (exists d, cp_parse p (%"2E1sec AND morrow") = Ok d /\ nanos d = n) <-> (exists d, cp_parse p (%"2e1sec and morrow") = Ok d /\ nanos d = n)) /\
  cp_parse p (%"2E1sec AND morrow") = Ok (Dur false (Std 86420 0)).
Proof.
  intros p. split; [|reflexivity]. intros n.
  assert (W : forall id, unit_id many_calls id \/ keyword_id many_calls id \/ numeral_id many_calls id -> In id ex_words).
  { intros id [H|[H|H]]; [apply ex_unit_ids in H; auto|apply ex_keyword_ids in H; auto|apply ex_numeral_ids in H; auto]; cbn in H |- *; tauto. }
  apply (C89_custom many_calls (%"2E1sec AND morrow") (%"2e1sec and morrow") n).
  - exact many_calls_fit.
  - apply calls_strict_delims. intros x H. exact (eq_trans (f_equal (fun b => b || starts_duration x) H) eq_refl).
  - reflexivity.
  - intros x y E. change (is_ascii_whitespace x = is_ascii_whitespace y /\ is_ascii_whitespace x = is_ascii_whitespace y).
    assert (is_ascii_whitespace x = is_ascii_whitespace y); [|auto]. apply blind_other; [|exact E]. intros z. unfold is_ascii_whitespace, PropCase.is_letter. lia.
  - reflexivity.
  - intros id a r H E C1 C2. apply W in H. unfold ex_words in H. repeat (destruct H as [<-|H]; [|]); [..|contradiction];
      repeat (destruct a as [|? a]; [first [discriminate E|injection E as <-; solve [exists (%"2e1"), (%" and morrow"); split; reflexivity|exists (%"2e1sec and "), (@nil byte); split; reflexivity]|
        exfalso; injection E as <-; first [apply (cut_edges _ (%"2E1")) in C2; destruct C2; discriminate]]|]; injection E as <- E); destruct a; discriminate E.
  - intros id a r H E C1 C2. apply W in H. unfold ex_words in H. repeat (destruct H as [<-|H]; [|]); [..|contradiction];
      repeat (destruct a as [|? a]; [first [discriminate E|injection E as <-; solve [exists (%"2E1"), (%" AND morrow"); split; reflexivity|exists (%"2E1sec AND "), (@nil byte); split; reflexivity]|
        exfalso; injection E as <-; first [apply (cut_edges _ (%"2e1")) in C2; destruct C2; discriminate]]|]; injection E as <- E); destruct a; discriminate E.
Qed.
