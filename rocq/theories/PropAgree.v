(** * Property C82: the parsers agree on the texts they have in common *)
From Verif Require Import Prelude Util Time Config Bytes Repr Parse Standard SpecTime SpecNum SpecValue SpecParse SpecGrammar SpecSpelling SpecSystemd
  TimeProofs NumProofs Utf8Proofs BytesProofs ReprProofs ValueProofs SafeProofs RefParse RefProofs RefSingle RefMulti RefGrammar SpellProofs SwitchProofs
  StandardProofs PropParse PropStandard PropModes PropGrow PropOptions PropSettings Systemd SystemdProofs PropSystemd ExEnv.

(** ** The standard parser and the systemd parser *)
(** the identifiers of both *)
Definition both_get (id : str) : option (time_unit * multiplier) :=
  match sd_get_nanos id with Some x => Some x | None => if str_eqb id (%"Ms") then Some (MicroSecond, Mul 1 0) else None end.
Definition both_units : units_like := Units false both_get.

Lemma both_default_multiplier id u m : both_get id = Some (u, m) -> m = Mul 1 0 /\ (denotes systemd_nanos_units id u \/ id = %"Ms").
Proof.
  unfold both_get. destruct (sd_get_nanos id) as [[v k]|] eqn:E.
  - intros [= <- <-]. apply sd_get_nanos_spec in E. tauto.
  - destruct (str_eqb id (%"Ms")) eqn:F; [|discriminate]. intros [= <- <-]. apply str_eqb_iff in F. auto.
Qed.
Lemma both_word (P : str -> Prop) : P (%"Ms") -> (forall us id, In us systemd_nanos_units -> In id (snd us) -> P id) ->
  forall id, both_get id <> None -> P id.
Proof.
  intros H1 H2 id H. destruct (both_get id) as [[u m]|] eqn:E; [|congruence]. apply both_default_multiplier in E.
  destruct E as [_ [(ws & D1 & D2)| ->]]; [|exact H1]. exact (H2 (u, ws) id D1 D2).
Qed.
Lemma both_env c : c_inner_delimiter c = sd_delimiter -> c_outer_delimiter c = sd_delimiter -> c_conjunctions c = None -> env_ok c both_units None None.
Proof.
  intros H1 H2 H3. constructor; try discriminate; try (rewrite ?H1, ?H2; exact sd_delim_ascii).
  - rewrite H3. discriminate.
  - intros id u m H. apply both_default_multiplier in H. destruct H as [-> _]. apply unit_default_fits.
Qed.
Lemma standard_more l : more_units (std_units (units_with l)) both_units.
Proof.
  split; [|reflexivity]. intros id [u m] H. apply C31_lookup in H. destruct H as (_ & -> & ->). destruct u; reflexivity.
Qed.
Lemma systemd_more : more_units sd_TIME_UNITS_WITH_NANOS both_units.
Proof. split; [|reflexivity]. intros id x H. cbn [u_get both_units sd_TIME_UNITS_WITH_NANOS] in *. unfold both_get. now rewrite H. Qed.

(** configurations: one duration, and everything which one of the two parsers allows *)
Definition one (u : time_unit) : config := set_outer_delimiter (set_inner_delimiter (set_default_unit config_new u) sd_delimiter) sd_delimiter.
Definition one_more (u : time_unit) : config := set_number_is_optional (set_allow_time_unit_delimiter (one u) true) true.
Definition everything (u : time_unit) : config := set_allow_multiple (one_more u) true None.

Definition fine_word (id : str) : bool :=
  match id with [] => false | x :: _ => negb (eq_nocase x 105) end && negb (str_eq_nocase id (%"ago")) &&
  forallb (fun x => negb (sd_delimiter x) && negb (starts_duration x) && negb (is_dot x)) id.
Lemma both_fine id : both_get id <> None -> fine_word id = true.
Proof.
  apply (both_word (fun id => fine_word id = true)); [vm_compute; reflexivity|]. intros us i H1 H2.
  assert (A : forallb (fun us => forallb fine_word (snd us)) systemd_nanos_units = true) by (vm_compute; reflexivity).
  rewrite forallb_forall in A. specialize (A us H1). rewrite forallb_forall in A. now apply A.
Qed.
Lemma fine_spec id : fine_word id = true -> id <> [] /\ starts_not is_dot id /\ (forall r r', ~ word_prefix (%"inf") (id ++ r) r') /\ str_eq_nocase id (%"ago") = false /\
  (forall x, In x id -> sd_delimiter x = false /\ starts_duration x = false).
Proof.
  unfold fine_word. rewrite !andb_true_iff, !negb_true_iff, forallb_forall. intros [[H1 H3] H4].
  assert (H5 : forall x, In x id -> sd_delimiter x = false /\ starts_duration x = false /\ is_dot x = false).
  { intros x Hx. specialize (H4 x Hx). rewrite !andb_true_iff, !negb_true_iff in H4. tauto. }
  split; [destruct id; congruence|]. split; [destruct id as [|x id]; [exact I|apply (H5 x (or_introl eq_refl))]|].
  split; [|split; [exact H3|intros x Hx; split; apply (H5 x Hx)]].
  intros r r' (v & E & Hv). destruct id as [|x id]; [discriminate|]. destruct v as [|y v]; [discriminate|]. cbn [app] in E. injection E as <- _.
  change (eq_nocase x 105 && str_eq_nocase v (%"nf") = true) in Hv. apply andb_true_iff in Hv. rewrite negb_true_iff in H1. destruct Hv. congruence.
Qed.
Lemma both_ordinary c : c_inner_delimiter c = sd_delimiter -> c_outer_delimiter c = sd_delimiter -> c_conjunctions c = None ->
  ordinary_words c both_units None None.
Proof.
  intros H1 H2 H3. constructor.
  - constructor; try discriminate.
    + intros id H. apply both_fine, fine_spec in H. destruct H as (N & _ & _ & _ & H). split; [exact N|]. intros x Hx. rewrite H1, H2.
      destruct (H x Hx). auto.
    + rewrite H2. now split.
  - split; [|unfold conjunctions; rewrite H3; intros w []]. rewrite H1, H2. intros x Hx.
    enough (sd_delimiter x = false) by auto. destruct (sd_delimiter x) eqn:E; [|reflexivity]. apply sd_delimiter_iff in E.
    unfold plain_byte, is_letter, is_digit, is_sign, is_dot, white in *. lia.
  - intros id [H|[(k & E & _)|(f & E & _)]]; try discriminate. apply both_fine, fine_spec in H. destruct H as (_ & D & I & A & _). split; [exact D|]. split; [|exact A].
    intros r. specialize (I []). rewrite app_nil_r in I. apply I.
  - unfold conjunctions; rewrite H3; intros w [].
Qed.

(** without delimiters it does not matter what they are *)
Lemma delimiters_unused u tu s d : single_duration (set_default_unit config_new u) tu None None s d -> single_duration (one u) tu None None s d.
Proof.
  assert (SG : forall s n l, signed (set_default_unit config_new u) s n l -> signed (one u) s n l).
  { intros s0 n l [l0 A B|x l0 r A B C D|x l0 ds r A B]; [now constructor|now apply with_sign|discriminate]. }
  assert (FR : forall l F r, fraction (set_default_unit config_new u) l F r -> fraction (one u) l F r).
  { intros l F r [A B|A B C D E]; [now constructor|now apply some_fraction]. }
  assert (EX : forall l F r, exponent (set_default_unit config_new u) l F r -> exponent (one u) l F r).
  { intros l F r [A B|x sg n l0 ds r0 e A B C D E G H]; [now constructor|now apply some_exponent with n ds]. }
  assert (NU : forall l W F x r, number (set_default_unit config_new u) l W F x r -> number (one u) l W F x r).
  { intros l W F x r (l1 & l2 & l3 & A & B & C & D & E). exists l1, l2, l3. repeat (split; auto). destruct D; [now constructor|discriminate]. }
  assert (UN : forall l v m, single_unit (set_default_unit config_new u) tu l v m -> single_unit (one u) tu l v m).
  { intros l v m [A B|A B|A B]; try discriminate. now apply su_plain. }
  intros [s0 n l W F x A B|s0 n l W F x r v m A B C D E|s0 n l A B C|s0 n l v m A B (k & K & _)|s0 n l v m A B C D|s0 n l num r v m A B C D (f & w & l1 & ds & E & _)];
    try discriminate.
  - apply (sd_number (one u) tu None None s0 n l W F x); auto.
  - apply sd_number_unit with l r; auto.
  - apply sd_infinity with l; auto.
Qed.

Lemma digits_not_white l : (forall x, In x l -> is_digit x = true) -> forall x, In x l -> ~ white x.
Proof. intros H x Hx. specialize (H x Hx). unfold is_digit, white in *. lia. Qed.
Lemma nocase_not_white w v : str_eq_nocase v w = true -> (forall x, In x w -> is_letter x = true) -> forall x, In x v -> ~ white x.
Proof.
  revert v. induction w as [|b w IH]; intros [|a v] H Hw; try discriminate; [intros x []|]. cbn in H. apply andb_true_iff in H. destruct H as [Ha H].
  intros x [<-|Hx]; [|apply (IH v); auto; intros y Hy; apply Hw; now right]. apply nocase_letter in Ha; [|apply Hw; now left].
  unfold is_letter, white in *. lia.
Qed.
(** the texts of the standard parser contain no white space *)
Lemma no_white_inside u tu s d : (forall id, u_get tu id <> None -> forall x, In x id -> ~ white x) ->
  single_duration (set_default_unit config_new u) tu None None s d -> forall x, In x s -> ~ white x.
Proof.
  intros HT.
  assert (SG : forall s n l, signed (set_default_unit config_new u) s n l -> (forall x, In x l -> ~ white x) -> forall x, In x s -> ~ white x).
  { intros s0 n l [l0 A B|x l0 r A B C D|x l0 ds r A B C D] H; [exact H| |discriminate]. subst r. intros y [<-|Hy]; [unfold is_sign, white in *; lia|now apply H]. }
  assert (NU : forall l W F x r, number (set_default_unit config_new u) l W F x r -> (forall x, In x r -> ~ white x) -> forall x, In x l -> ~ white x).
  { intros l W F e r (l1 & l2 & l3 & (-> & A & _) & B & C & D & _) H x Hx. apply in_app_iff in Hx. destruct Hx as [Hx|Hx]; [now apply (digits_not_white W A x)|].
    destruct D as [l3 D|]; [|discriminate].
    assert (H2 : forall x, In x l2 -> ~ white x).
    { destruct C as [l2 C|y sg n l2 ds r e C1 C2 C3 (-> & C4 & _) C5 C6 C7]; [exact H|]. intros z [<-|Hz]; [unfold is_e, white in *; lia|].
      apply in_app_iff in Hz. destruct Hz as [Hz|Hz]; [destruct C3; cbn in Hz; unfold white; intuition lia|].
      apply in_app_iff in Hz. destruct Hz as [Hz|Hz]; [now apply (digits_not_white ds C4 z)|now apply H]. }
    destruct B as [l1 B|l1 F r _ (-> & B & _)]; [now apply H2|]. destruct Hx as [<-|Hx]; [unfold white; lia|].
    apply in_app_iff in Hx. destruct Hx as [Hx|Hx]; [now apply (digits_not_white F B x)|now apply H2]. }
  intros [s0 n l W F x A B|s0 n l W F x r v m A B C D E|s0 n l A B C|s0 n l v m A B (k & K & _)|s0 n l v m A B C D|s0 n l num r v m A B C D (f & w & l1 & ds & E & _)];
    try discriminate; apply (SG _ _ _ A).
  - apply (NU _ _ _ _ _ B). intros y [].
  - apply (NU _ _ _ _ _ B). destruct E as [l' v' m' _ E|l' v' m' E|l' w l1 ds a v' m' E]; try discriminate. apply HT. congruence.
  - destruct C as [C|C]; apply (nocase_not_white _ _ C); each.
Qed.

Lemma bytes_of_white_ends s ws1 t ws2 : s = ws1 ++ t ++ ws2 -> white_space ws1 -> white_space ws2 -> (forall x, In x s -> ~ white x) -> t = s.
Proof.
  intros -> H1 H2 H. destruct ws1 as [|x ws1]; [|elim (H x (or_introl eq_refl)); apply H1; now left].
  destruct ws2 as [|x ws2]; [cbn; now rewrite app_nil_r|]. elim (H x); [apply in_or_app; right; apply in_or_app; right; now left|apply H2; now left].
Qed.

(** a text which both the standard parser and the systemd parser (with the same default unit) accept is the same duration for both,
    but for the maximum of the systemd parser *)
Theorem C82_standard_and_systemd_nanos : forall l u p s max d d', made p u -> utf8 s = true -> duration_ok max -> is_negative max = false ->
  dp_parse (dp_set (dp_with_time_units l) (Set_default_unit u)) s = Ok d -> sd_parse_nanos_with_max p s max = Ok d' ->
  nanos d' = Z.min (nanos max) (nanos d).
Proof.
  intros l u p s max d d' Hp U Hm Hn P1 P2. apply made_is in Hp. subst p.
  assert (P0 : parse (set_default_unit config_new u) s (std_units (units_with l)) None None = Ok d) by exact P1. clear P1.
  assert (E0 : env_ok (set_default_unit config_new u) (std_units (units_with l)) None None) by (apply (std_set_env l (set_default_unit config_new u)); exact config_new_ok).
  assert (G0 := P0). apply C22_single_grammar in G0; [|exact E0|exact U|reflexivity]. destruct G0 as [G0 GN].
  assert (E1 : env_ok (one u) (std_units (units_with l)) None None) by (apply (std_set_env l (one u)); split; [exact sd_delim_ascii|split; [exact sd_delim_ascii|discriminate]]).
  assert (Q1 : parse (one u) s (std_units (units_with l)) None None = Ok d).
  { apply C22_single_grammar; auto. split; [now apply delimiters_unused|]. destruct GN; [discriminate|now right]. }
  assert (Q2 : parse (one u) s both_units None None = Ok d) by (apply C60_more_units_single with (std_units (units_with l)); auto; [now apply both_env|apply standard_more]).
  assert (Q3 : parse (one_more u) s both_units None None = Ok d).
  { apply C68_more_options_single with (one u); auto; try (now apply both_env); [constructor; auto; discriminate|now apply both_ordinary]. }
  destruct (C55_single_within_multiple (one_more u) both_units None None s d None) as (D & Q4 & _ & VD); auto; try discriminate; try (now apply both_env).
  { exact (ow_tables _ _ _ _ (both_ordinary (one_more u) eq_refl eq_refl eq_refl)). }
  { intros x Hx. unfold keyword_end. cbn [one_more c_outer_delimiter c_inner_delimiter] in *. change (c_inner_delimiter (one_more u) x) with (sd_delimiter x) in Hx.
    change (c_outer_delimiter (one_more u) x) with (sd_delimiter x). now rewrite Hx. }
  destruct (common_sound u sd_TIME_UNITS_WITH_NANOS (sd_env_nanos_ok u) s max d' U Hm Hn P2) as (ws1 & t & ws2 & Es & W1 & W2 & T & R).
  assert (t = s).
  { apply (bytes_of_white_ends s ws1 t ws2 Es W1 W2). apply (no_white_inside u (std_units (units_with l)) s d); [|exact G0].
    intros id Hid x Hx Wx. destruct (u_get (std_units (units_with l)) id) as [[v m]|] eqn:Ei; [|congruence].
    pose proof (proj1 (standard_more l) id _ Ei) as Hb. assert (Hf : both_get id <> None) by (change (u_get both_units id <> None); congruence).
    apply both_fine, fine_spec in Hf. destruct Hf as (_ & _ & _ & _ & Hf). destruct (Hf x Hx) as [F _]. apply sd_delimiter_iff in Wx. congruence. }
  subst t. destruct R as [[Ei ->]|(ds & C & Hd & N)].
  - subst s. assert (Ed : parse (set_default_unit config_new u) (%"infinity") (std_units (units_with l)) None None = Ok MAX) by reflexivity.
    assert (d = MAX) by congruence. subst d. pose proof (nanos_range max Hm) as Hr. change (nanos MAX) with max_nanos. lia.
  - destruct (C23_multiple_complete (sd_with_default_unit u) sd_TIME_UNITS_WITH_NANOS None None s ds) as (D2 & Q5 & _ & V5); auto;
      [apply sd_env_nanos_ok|apply sd_delims_ok|intros x Hx; right; now apply Hd|].
    destruct (C60_more_units_multiple (sd_with_default_unit u) sd_TIME_UNITS_WITH_NANOS both_units s D2) as (D3 & Q6 & V6); auto;
      [apply sd_env_nanos_ok|now apply both_env|exact systemd_more|discriminate| |].
    { intros id Hi. apply both_fine, fine_spec in Hi. destruct Hi as (_ & A & B & _). auto. }
    destruct (C68_more_options_multiple (sd_with_default_unit u) (everything u) both_units None None s D3) as (D4 & Q7 & V7); auto;
      try (now apply both_env); [exact (sd_delims_strict u)|constructor; auto; discriminate|now apply both_ordinary|].
    assert (D4 = D) by (change (parse (everything u) s both_units None None = Ok D) in Q4; congruence). subst D4.
    rewrite N, <- V5, <- V6, <- V7, VD. reflexivity.
Qed.
Print Assumptions C82_standard_and_systemd_nanos.
(** the same without nanoseconds as time unit *)
Theorem C82_standard_and_systemd : forall l u p s max d d', made p u -> utf8 s = true -> duration_ok max -> is_negative max = false ->
  dp_parse (dp_set (dp_with_time_units l) (Set_default_unit u)) s = Ok d -> sd_parse_with_max p s max = Ok d' ->
  nanos d' = Z.min (nanos max) (nanos d).
Proof.
  intros l u p s max d d' Hp U Hm Hn P1 P2. apply (C82_standard_and_systemd_nanos l u p s max d d'); auto.
  now apply (C39_nanos_extends p u s max d').
Qed.
Print Assumptions C82_standard_and_systemd.
(** with the default maxima *)
Theorem C82_standard_and_systemd_default : forall l s d d', utf8 s = true -> dp_parse (dp_with_time_units l) s = Ok d ->
  (sd_parse sd_new s = Ok d' -> nanos d' = Z.min ((2 ^ 64 - 1) * 1000) (nanos d)) /\
  (sd_parse_nanos sd_new s = Ok d' -> nanos d' = Z.min (2 ^ 64 - 1) (nanos d)).
Proof.
  intros l s d d' U P. destruct C37_maxima as (a & b & Ea & Eb & Oa & Ob & Na & Nb & Va & Vb). unfold sd_parse, sd_parse_nanos. rewrite Ea, Eb. cbn [bind].
  rewrite <- Va, <- Vb. split; intros H.
  - apply (C82_standard_and_systemd l Second sd_new s a d d'); auto. apply made_new.
  - apply (C82_standard_and_systemd_nanos l Second sd_new s b d d'); auto. apply made_new.
Qed.
Print Assumptions C82_standard_and_systemd_default.
(** texts both accept, and texts only one of them accepts *)
Example C82_standard_and_systemd_example :
  dp_parse dp_with_all_time_units (%"+1.5d") = Ok (Dur false (Std 129600 0)) /\ sd_parse sd_new (%"+1.5d") = Ok (Dur false (Std 129600 0)) /\
  dp_parse dp_with_all_time_units (%"infinity") = Ok (Dur false (Std 18446744073709551615 999999999)) /\
  sd_parse sd_new (%"infinity") = Ok (Dur false (Std 18446744073709 551615000)) /\
  dp_parse dp_with_all_time_units (%"1e3s") = Ok (Dur false (Std 1000 0)) /\ (exists e, sd_parse sd_new (%"1e3s") = Err e) /\
  (exists e, dp_parse dp_with_all_time_units (%"1 day") = Err e) /\ sd_parse sd_new (%"1 day") = Ok (Dur false (Std 86400 0)).
Proof. vm_compute. repeat split; eexists; reflexivity. Qed.
