(** * Properties C37-C39, C47: the systemd parser *)
From Verif Require Import Prelude Time Config Parse SpecTime SpecNum SpecParse SpecValue SpecGrammar SpecSpelling SpecSystemd
  Utf8Proofs TimeProofs NumProofs SafeProofs RefGrammar StandardProofs Systemd SystemdProofs SystemdSpan PropParse ExEnv.

(** every TimeSpanParser: made by one of the constructors, with any number of calls of set_default_unit. The second
    argument is the default unit one expects. *)
Inductive made : span_parser -> time_unit -> Prop :=
| made_new : made sd_new Second
| made_with u : made (sd_with_default_unit u) u
| made_set p u v : made p u -> made (sd_set_default_unit p v) v.

Lemma made_is p u : made p u -> p = sd_with_default_unit u.
Proof. induction 1 as [| |p u v _ ->]; reflexivity. Qed.

(** C37: the maxima are 2^64 - 1 micro seconds and 2^64 - 1 nano seconds *)
Theorem C37_maxima : exists a b,
  SYSTEMD_MAX_MICRO_DURATION = Ok a /\ SYSTEMD_MAX_NANOS_DURATION = Ok b /\
  duration_ok a /\ duration_ok b /\ is_negative a = false /\ is_negative b = false /\
  nanos a = (2 ^ 64 - 1) * 1000 /\ nanos b = 2 ^ 64 - 1.
Proof. do 2 eexists. repeat split. Qed.
Print Assumptions C37_maxima.

(** the common part of parse_with_max and parse_nanos_with_max *)
Section Common.
Context (u : time_unit) (tu : units_like).
Hypothesis Henv : env_ok (sd_with_default_unit u) tu None None.

Definition common (s : str) (max : duration) : res duration :=
  let* _ := rassert (is_positive max) in
  let* trimmed := sd_trim_whitespace s in
  match sd_parse_infinity trimmed max with
  | Some d => Ok d
  | None => map_res (fun d => dmin d max) (parse (sd_with_default_unit u) trimmed tu None None)
  end.

Lemma common_unfold s max : utf8 s = true -> is_negative max = false ->
  common s max = let t := trim_end (trim_start s) in
    if str_eqb t (%"infinity") then Ok max else map_res (fun d => dmin d max) (parse (sd_with_default_unit u) t tu None None).
Proof.
  intros Hs Hm. unfold common, is_positive, is_negative in *. rewrite Hm. cbn [negb rassert bind].
  unfold sd_trim_whitespace, str_unchecked. rewrite trim_utf8 by exact Hs. cbn [bind].
  unfold sd_parse_infinity. cbv zeta. destruct (str_eqb _ _); reflexivity.
Qed.

Lemma dmin_pos a b : is_negative a = false -> is_negative b = false -> is_negative (dmin a b) = false.
Proof. intros H1 H2. unfold dmin. destruct (dcmp a b); assumption. Qed.

Lemma common_range s max : utf8 s = true -> duration_ok max -> is_negative max = false ->
  (exists d, common s max = Ok d /\ duration_ok d /\ is_negative d = false /\ 0 <= nanos d <= nanos max) \/
  (exists e, common s max = Err e).
Proof.
  intros Hs Hm Hn. rewrite common_unfold by assumption. cbv zeta.
  assert (Hp : 0 <= nanos max) by (unfold nanos, is_negative in *; rewrite Hn; destruct Hm; unfold is_u64, inb in *; lia).
  destruct (str_eqb _ _).
  { left. exists max. repeat split; try apply Hm; try exact Hn; lia. }
  pose proof (trim_utf8 s Hs) as Ht.
  destruct (C20_never_crashes _ _ _ _ _ Henv Ht) as [(d & E & Hd)|(e & E)]; rewrite E; [left|right; now exists e].
  destruct (C21_not_negative _ _ _ _ _ _ Henv Ht eq_refl E) as [H1 H2].
  destruct (dmin_spec d max Hd Hm) as [H3 H4]. exists (dmin d max). cbn [map_res bind].
  split; [reflexivity|]. split; [exact H3|]. split; [now apply dmin_pos|]. rewrite H4. lia.
Qed.

Lemma common_infinity ws1 ws2 max : white_space ws1 -> white_space ws2 -> is_negative max = false ->
  common (ws1 ++ %"infinity" ++ ws2) max = Ok max.
Proof.
  intros H1 H2 Hm. rewrite common_unfold; [|rewrite white_utf8, utf8_white_end by assumption; reflexivity|exact Hm].
  cbv zeta. rewrite trim_around by assumption. reflexivity.
Qed.

Lemma common_around ws1 s ws2 max : white_space ws1 -> white_space ws2 ->
  common (ws1 ++ s ++ ws2) max = common s max.
Proof. intros H1 H2. unfold common, sd_trim_whitespace. now rewrite trim_around. Qed.

Lemma common_empty ws max : white_space ws -> is_negative max = false -> common ws max = Err Empty.
Proof.
  intros H Hm. assert (E : common ws max = common [] max).
  { rewrite <- (common_around ws [] [] max H) by (intros x []). now rewrite !app_nil_r. }
  rewrite E, common_unfold; auto.
Qed.

(** the only other results are those of the grammar *)
Lemma common_sound s max d : utf8 s = true -> duration_ok max -> is_negative max = false -> common s max = Ok d ->
  exists ws1 t ws2, s = ws1 ++ t ++ ws2 /\ white_space ws1 /\ white_space ws2 /\ trimmed t /\
    ((t = %"infinity" /\ d = max) \/
     (exists ds, components (sd_with_default_unit u) tu None None t ds /\ (forall x, In x ds -> is_negative x = false) /\
        nanos d = Z.min (nanos max) (saturating_sum ds))).
Proof.
  intros Hs Hm Hn. rewrite common_unfold by assumption. cbv zeta. pose proof (trim_utf8 s Hs) as Ht.
  destruct (trim_split s (utf8_bytes s Hs)) as (ws1 & ws2 & E & H1 & H2 & H3).
  set (t := trim_end (trim_start s)) in *. intros H. exists ws1, t, ws2. repeat (split; [assumption|]).
  destruct (str_eqb t (%"infinity")) eqn:Ei.
  - apply str_eqb_iff in Ei. injection H as <-. now left.
  - right. destruct (parse _ t tu None None) as [D|e|x] eqn:P; cbn in H; try discriminate. injection H as <-.
    destruct (C23_multiple_sound _ _ _ _ _ _ Henv (sd_delims_ok u) Ht eq_refl P) as (ds & G1 & G2 & G3 & G4).
    exists ds. split; [exact G1|]. split.
    + intros x Hx. destruct (G2 x Hx) as [G|G]; [discriminate G|exact G].
    + destruct (dmin_spec D max G3 Hm) as [_ ->]. rewrite G4. lia.
Qed.

Lemma common_complete t ds max : utf8 t = true -> trimmed t -> t <> %"infinity" -> duration_ok max -> is_negative max = false ->
  components (sd_with_default_unit u) tu None None t ds -> (forall x, In x ds -> is_negative x = false) ->
  exists d, common t max = Ok d /\ duration_ok d /\ nanos d = Z.min (nanos max) (saturating_sum ds).
Proof.
  intros Hs Ht Ni Hm Hn C Hd. rewrite common_unfold by assumption. cbv zeta.
  assert (E : trim_end (trim_start t) = t).
  { pose proof (trim_unique [] t []) as U. rewrite app_nil_r in U. apply U; auto; try (intros x []). exact (utf8_bytes t Hs). }
  rewrite E. destruct (str_eqb t (%"infinity")) eqn:Ei; [apply str_eqb_iff in Ei; contradiction|].
  destruct (C23_multiple_complete _ _ _ _ _ _ Henv (sd_delims_ok u) Hs eq_refl C) as (D & P & G1 & G2).
  { intros x Hx. right. auto. }
  rewrite P. exists (dmin D max). destruct (dmin_spec D max G1 Hm) as [G3 G4].
  split; [reflexivity|]. split; [exact G3|]. rewrite G4, G2. lia.
Qed.
End Common.

Lemma with_max_common u s max : sd_parse_with_max (sd_with_default_unit u) s max = common u sd_TIME_UNITS s max.
Proof. reflexivity. Qed.
Lemma nanos_with_max_common u s max : sd_parse_nanos_with_max (sd_with_default_unit u) s max = common u sd_TIME_UNITS_WITH_NANOS s max.
Proof. reflexivity. Qed.

Theorem C37_within_max : forall p u s max, made p u -> utf8 s = true -> duration_ok max -> is_negative max = false ->
  (exists d, sd_parse_with_max p s max = Ok d /\ duration_ok d /\ is_negative d = false /\ 0 <= nanos d <= nanos max) \/
  (exists e, sd_parse_with_max p s max = Err e).
Proof. intros p u s max ->%made_is. rewrite with_max_common. apply common_range, sd_env_ok. Qed.
Print Assumptions C37_within_max.
Theorem C37_nanos_within_max : forall p u s max, made p u -> utf8 s = true -> duration_ok max -> is_negative max = false ->
  (exists d, sd_parse_nanos_with_max p s max = Ok d /\ duration_ok d /\ is_negative d = false /\ 0 <= nanos d <= nanos max) \/
  (exists e, sd_parse_nanos_with_max p s max = Err e).
Proof. intros p u s max ->%made_is. rewrite nanos_with_max_common. apply common_range, sd_env_nanos_ok. Qed.
Print Assumptions C37_nanos_within_max.

(** parse and parse_nanos, with their own maxima *)
Theorem C37_within_default_max : forall p u s, made p u -> utf8 s = true ->
  ((exists d, sd_parse p s = Ok d /\ duration_ok d /\ is_negative d = false /\ 0 <= nanos d <= (2 ^ 64 - 1) * 1000) \/
   (exists e, sd_parse p s = Err e)) /\
  ((exists d, sd_parse_nanos p s = Ok d /\ duration_ok d /\ is_negative d = false /\ 0 <= nanos d <= 2 ^ 64 - 1) \/
   (exists e, sd_parse_nanos p s = Err e)).
Proof.
  intros p u s Hp Hs. destruct C37_maxima as (a & b & Ea & Eb & Ha & Hb & Na & Nb & Va & Vb).
  unfold sd_parse, sd_parse_nanos. rewrite Ea, Eb, <- Va, <- Vb. cbn [bind]. split.
  - now apply (C37_within_max p u).
  - now apply (C37_nanos_within_max p u).
Qed.
Print Assumptions C37_within_default_max.
Example C37_maximum_example : made (sd_set_default_unit sd_new Minute) Minute /\
  sd_parse_with_max sd_new (%"2y 1s") (Dur false (Std 100 0)) = Ok (Dur false (Std 100 0)) /\
  sd_parse sd_new (%"585000 years") = Ok (Dur false (Std 18446744073709 551615000)) /\
  sd_parse_nanos sd_new (%"584 years 7 months") = Ok (Dur false (Std 18446744073 709551615)).
Proof. split; [exact (made_set _ _ _ made_new)|]. repeat split. Qed.

Theorem C37_infinity_is_max : forall p u ws1 ws2 max, made p u -> white_space ws1 -> white_space ws2 -> is_negative max = false ->
  sd_parse_with_max p (ws1 ++ %"infinity" ++ ws2) max = Ok max /\
  sd_parse_nanos_with_max p (ws1 ++ %"infinity" ++ ws2) max = Ok max.
Proof.
  intros p u ws1 ws2 max ->%made_is H1 H2 H3. rewrite with_max_common, nanos_with_max_common.
  split; now apply common_infinity.
Qed.
Print Assumptions C37_infinity_is_max.
Example C37_infinity_example : sd_parse_with_max sd_new (%"  infinity ") MAX = Ok MAX.
Proof. reflexivity. Qed.

(** what else is accepted: exactly the non-negative sequences of the grammar of C23 with the units of the table, and
    the result is the saturating sum, cut at the maximum *)
Theorem C37_units : forall id u m,
  (u_get sd_TIME_UNITS id = Some (u, m) <-> m = Mul 1 0 /\ denotes systemd_units id u) /\
  (u_get sd_TIME_UNITS_WITH_NANOS id = Some (u, m) <-> m = Mul 1 0 /\ denotes systemd_nanos_units id u).
Proof. intros id u m. split; [apply sd_get_spec|apply sd_get_nanos_spec]. Qed.
Print Assumptions C37_units.
Example C37_units_example : u_get sd_TIME_UNITS (%"usec") = Some (MicroSecond, Mul 1 0) /\ denotes systemd_units (%"usec") MicroSecond /\
  u_get sd_TIME_UNITS (%"nsec") = None /\ u_get sd_TIME_UNITS_WITH_NANOS (%"nsec") = Some (NanoSecond, Mul 1 0).
Proof. split; [reflexivity|]. split; [apply (C37_units (%"usec") MicroSecond (Mul 1 0)); reflexivity|]. split; reflexivity. Qed.

Theorem C37_value_sound : forall p u s max d, made p u -> utf8 s = true -> duration_ok max -> is_negative max = false ->
  sd_parse_with_max p s max = Ok d ->
  exists ws1 t ws2, s = ws1 ++ t ++ ws2 /\ white_space ws1 /\ white_space ws2 /\ trimmed t /\
    ((t = %"infinity" /\ d = max) \/
     (exists ds, components p sd_TIME_UNITS None None t ds /\ (forall x, In x ds -> is_negative x = false) /\
        nanos d = Z.min (nanos max) (saturating_sum ds))).
Proof. intros p u s max d ->%made_is. rewrite with_max_common. apply common_sound, sd_env_ok. Qed.
Print Assumptions C37_value_sound.
Example C37_value_example : exists ws1 t ws2 ds, %" 2h30min " = ws1 ++ t ++ ws2 /\ trimmed t /\
  components sd_new sd_TIME_UNITS None None t ds /\ Z.min (nanos MAX) (saturating_sum ds) = 9000 * 10 ^ 9.
Proof.
  destruct (C37_value_sound sd_new Second (%" 2h30min ") MAX (Dur false (Std 9000 0)) made_new eq_refl (conj eq_refl eq_refl) eq_refl eq_refl)
    as (ws1 & t & ws2 & E & _ & _ & T & [[-> D]|(ds & C & _ & N)]); [discriminate D|].
  exists ws1, t, ws2, ds. repeat (split; [assumption|]). now rewrite <- N.
Qed.
Theorem C37_value_complete : forall p u t ds max, made p u -> utf8 t = true -> trimmed t -> t <> %"infinity" ->
  duration_ok max -> is_negative max = false ->
  components p sd_TIME_UNITS None None t ds -> (forall x, In x ds -> is_negative x = false) ->
  exists d, sd_parse_with_max p t max = Ok d /\ duration_ok d /\ nanos d = Z.min (nanos max) (saturating_sum ds).
Proof. intros p u t ds max ->%made_is. rewrite with_max_common. apply common_complete, sd_env_ok. Qed.
Print Assumptions C37_value_complete.
Theorem C37_nanos_value_sound : forall p u s max d, made p u -> utf8 s = true -> duration_ok max -> is_negative max = false ->
  sd_parse_nanos_with_max p s max = Ok d ->
  exists ws1 t ws2, s = ws1 ++ t ++ ws2 /\ white_space ws1 /\ white_space ws2 /\ trimmed t /\
    ((t = %"infinity" /\ d = max) \/
     (exists ds, components p sd_TIME_UNITS_WITH_NANOS None None t ds /\ (forall x, In x ds -> is_negative x = false) /\
        nanos d = Z.min (nanos max) (saturating_sum ds))).
Proof. intros p u s max d ->%made_is. rewrite nanos_with_max_common. apply common_sound, sd_env_nanos_ok. Qed.
Print Assumptions C37_nanos_value_sound.
Theorem C37_nanos_value_complete : forall p u t ds max, made p u -> utf8 t = true -> trimmed t -> t <> %"infinity" ->
  duration_ok max -> is_negative max = false ->
  components p sd_TIME_UNITS_WITH_NANOS None None t ds -> (forall x, In x ds -> is_negative x = false) ->
  exists d, sd_parse_nanos_with_max p t max = Ok d /\ duration_ok d /\ nanos d = Z.min (nanos max) (saturating_sum ds).
Proof. intros p u t ds max ->%made_is. rewrite nanos_with_max_common. apply common_complete, sd_env_nanos_ok. Qed.
Print Assumptions C37_nanos_value_complete.

(** a negative maximum is a programming error: the assertion panics *)
Theorem C37_negative_max_panics : forall p s max, is_negative max = true ->
  sd_parse_with_max p s max = Crash CrashUnwrap /\ sd_parse_nanos_with_max p s max = Crash CrashUnwrap.
Proof.
  intros p s max H. unfold sd_parse_with_max, sd_parse_nanos_with_max, is_positive, is_negative in *. rewrite H. split; reflexivity.
Qed.
Print Assumptions C37_negative_max_panics.

(** C38 *)
Theorem C38_surrounding_white_space : forall p ws1 s ws2 max, white_space ws1 -> white_space ws2 ->
  sd_parse_with_max p (ws1 ++ s ++ ws2) max = sd_parse_with_max p s max /\
  sd_parse_nanos_with_max p (ws1 ++ s ++ ws2) max = sd_parse_nanos_with_max p s max /\
  sd_parse p (ws1 ++ s ++ ws2) = sd_parse p s /\ sd_parse_nanos p (ws1 ++ s ++ ws2) = sd_parse_nanos p s.
Proof.
  intros p ws1 s ws2 max H1 H2.
  assert (A : forall max, sd_parse_with_max p (ws1 ++ s ++ ws2) max = sd_parse_with_max p s max)
    by (intros M; unfold sd_parse_with_max, sd_trim_whitespace; now rewrite trim_around).
  assert (B : forall max, sd_parse_nanos_with_max p (ws1 ++ s ++ ws2) max = sd_parse_nanos_with_max p s max)
    by (intros M; unfold sd_parse_nanos_with_max, sd_trim_whitespace; now rewrite trim_around).
  split; [apply A|]. split; [apply B|]. unfold sd_parse, sd_parse_nanos. split.
  - destruct SYSTEMD_MAX_MICRO_DURATION; cbn [bind]; [apply A|reflexivity|reflexivity].
  - destruct SYSTEMD_MAX_NANOS_DURATION; cbn [bind]; [apply B|reflexivity|reflexivity].
Qed.
Print Assumptions C38_surrounding_white_space.
Example C38_example : white_space [32; 9; 11; 12; 13; 10] /\ sd_parse sd_new ([32; 9; 11; 12; 13; 10] ++ %"1m" ++ [10]) = Ok (Dur false (Std 60 0)).
Proof. split; [|reflexivity]. intros x H. cbn in H. unfold white. repeat destruct H as [<-|H]; try lia; contradiction. Qed.

Theorem C38_only_white_space_is_empty : forall p u ws max, made p u -> white_space ws -> is_negative max = false ->
  sd_parse_with_max p ws max = Err Empty /\ sd_parse_nanos_with_max p ws max = Err Empty.
Proof.
  intros p u ws max ->%made_is H1 H2. rewrite with_max_common, nanos_with_max_common. split; now apply common_empty.
Qed.
Print Assumptions C38_only_white_space_is_empty.

(** C39: the global functions are the methods of a parser with that default unit *)
Theorem C39_global_functions : forall s unit max,
  let p := match unit with None => sd_new | Some u => sd_with_default_unit u end in
  sd_global_parse s unit max = match max with None => sd_parse p s | Some m => sd_parse_with_max p s m end /\
  sd_global_parse_nanos s unit max = match max with None => sd_parse_nanos p s | Some m => sd_parse_nanos_with_max p s m end.
Proof.
  intros s unit max p. unfold sd_global_parse, sd_global_parse_nanos, sd_parse, sd_parse_nanos.
  destruct C37_maxima as (a & b & -> & -> & _). cbn [bind].
  destruct max as [m|]; cbn [unwrap_or]; subst p; destruct unit as [[]|]; split; reflexivity.
Qed.
Print Assumptions C39_global_functions.
Example C39_global_example : sd_global_parse (%"3") (Some Hour) None = Ok (Dur false (Std 10800 0)) /\
  sd_global_parse_nanos (%"3ns") None (Some (Dur false (Std 0 2))) = Ok (Dur false (Std 0 2)).
Proof. split; reflexivity. Qed.

(** Two parsers with the same default unit are the same parser *)
Theorem C39_same_default_unit : forall p q u, made p u -> made q u -> p = q.
Proof. intros p q u ->%made_is ->%made_is. reflexivity. Qed.
Print Assumptions C39_same_default_unit.

Lemma nanos_extends w x : u_get sd_TIME_UNITS w = Some x -> u_get sd_TIME_UNITS_WITH_NANOS w = Some x.
Proof.
  destruct x as [u m]. intros H. apply sd_get_spec in H. apply sd_get_nanos_spec.
  destruct H as (-> & ws & H1 & H2). split; [reflexivity|]. exists ws. split; [now right|exact H2].
Qed.
Lemma nanos_more_components u s ds : components (sd_with_default_unit u) sd_TIME_UNITS None None s ds ->
  components (sd_with_default_unit u) sd_TIME_UNITS_WITH_NANOS None None s ds.
Proof.
  apply more_components; try reflexivity.
  - exact nanos_extends.
  - intros w H _. destruct (u_get sd_TIME_UNITS_WITH_NANOS w) as [[v m]|] eqn:E; [|congruence].
    apply sd_get_nanos_spec in E. destruct E as (_ & E). apply systemd_nanos_words_ok in E.
    destruct E as (N & _ & _ & E). destruct w as [|y w]; [congruence|]. apply (E y). now left.
Qed.

(** whatever parse_with_max accepts, parse_nanos_with_max accepts with the same result *)
Theorem C39_nanos_extends : forall p u s max d, made p u -> utf8 s = true -> duration_ok max ->
  sd_parse_with_max p s max = Ok d -> sd_parse_nanos_with_max p s max = Ok d.
Proof.
  intros p u s max d Hp Hs Hm E.
  assert (Hn : is_negative max = false).
  { destruct (is_negative max) eqn:Hn; [|reflexivity]. apply (C37_negative_max_panics p s) in Hn. destruct Hn; congruence. }
  apply made_is in Hp. subst p. rewrite with_max_common in E. rewrite nanos_with_max_common.
  rewrite common_unfold in * by assumption. cbv zeta in *. pose proof (trim_utf8 s Hs) as Ht.
  set (t := trim_end (trim_start s)) in *. destruct (str_eqb t (%"infinity")); [exact E|].
  destruct (parse _ t sd_TIME_UNITS None None) as [D|e|x] eqn:P; cbn in E; try discriminate. injection E as <-.
  destruct (C23_multiple_sound _ _ _ _ _ _ (sd_env_ok u) (sd_delims_ok u) Ht eq_refl P) as (ds & G1 & G2 & G3 & G4).
  apply nanos_more_components in G1.
  destruct (C23_multiple_complete _ _ _ _ _ _ (sd_env_nanos_ok u) (sd_delims_ok u) Ht eq_refl G1 G2) as (D' & P' & G5 & G6).
  rewrite P'. cbn [map_res bind]. replace D' with D; [reflexivity|].
  destruct (C21_not_negative _ _ _ _ _ _ (sd_env_ok u) Ht eq_refl P) as [N1 _].
  destruct (C21_not_negative _ _ _ _ _ _ (sd_env_nanos_ok u) Ht eq_refl P') as [N2 _].
  apply nanos_eq_pos; auto. congruence.
Qed.
Print Assumptions C39_nanos_extends.
Example C39_nanos_example : sd_parse_with_max sd_new (%"1 min 3us") MAX = Ok (Dur false (Std 60 3000)) /\
  sd_parse_nanos_with_max sd_new (%"1 min 3us") MAX = Ok (Dur false (Std 60 3000)) /\ (exists e, sd_parse_with_max sd_new (%"3ns") MAX = Err e).
Proof. split; [reflexivity|]. split; [reflexivity|]. eexists. reflexivity. Qed.

(** the methods with their own maxima: the value of parse_nanos is the one of parse, cut at 2^64 - 1 nanoseconds *)
Theorem C39_nanos_extends_default : forall p u s d, made p u -> utf8 s = true -> sd_parse p s = Ok d ->
  exists d', sd_parse_nanos p s = Ok d' /\ duration_ok d' /\ nanos d' = Z.min (2 ^ 64 - 1) (nanos d).
Proof.
  intros p u s d Hp Hs E. destruct C37_maxima as (a & b & Ea & Eb & Ha & Hb & Na & Nb & Va & Vb).
  unfold sd_parse, sd_parse_nanos in *. rewrite Ea in E. rewrite Eb. cbn [bind] in *.
  apply (C39_nanos_extends p u) in E; auto. apply made_is in Hp. subst p. rewrite nanos_with_max_common in *.
  rewrite common_unfold in * by assumption. cbv zeta in *. pose proof (trim_utf8 s Hs) as Ht.
  set (t := trim_end (trim_start s)) in *. destruct (str_eqb t (%"infinity")).
  { exists b. injection E as <-. split; [reflexivity|]. split; [exact Hb|]. rewrite Va, Vb. reflexivity. }
  destruct (parse _ t sd_TIME_UNITS_WITH_NANOS None None) as [D|e|x] eqn:P; cbn in E; try discriminate. injection E as <-.
  destruct (C20_never_crashes _ _ _ _ _ (sd_env_nanos_ok u) Ht) as [(D' & E' & HD)|(e & E')]; [|congruence].
  assert (D' = D) by congruence. subst D'.
  exists (dmin D b). cbn [map_res bind]. split; [reflexivity|].
  destruct (dmin_spec D b HD Hb) as [H1 H2]. destruct (dmin_spec D a HD Ha) as [H3 H4]. split; [exact H1|].
  rewrite H2, H4, Va, Vb. lia.
Qed.
Print Assumptions C39_nanos_extends_default.

(** C47: documented time spans denote the sum of their parts *)
Theorem C47_time_spans : forall p u ws1 s ws2 v max, made p u -> time_span u systemd_units s v ->
  white_space ws1 -> white_space ws2 -> duration_ok max -> is_negative max = false ->
  exists d, sd_parse_with_max p (ws1 ++ s ++ ws2) max = Ok d /\ duration_ok d /\ nanos d = Z.min (nanos max) v.
Proof.
  intros p u ws1 s ws2 v max Hp Hv H1 H2 Hm Hn. destruct (C38_surrounding_white_space p ws1 s ws2 max H1 H2) as [-> _].
  apply made_is in Hp. subst p. pose proof systemd_words_ok as W.
  destruct (span_components u sd_TIME_UNITS systemd_units sd_get_spec eq_refl W s v Hv) as (ds & C & D & V & E).
  destruct (common_complete u sd_TIME_UNITS (sd_env_ok u) s ds max) as (d & P & G1 & G2); auto.
  - apply (span_utf8 u sd_TIME_UNITS systemd_units sd_get_spec W s v Hv).
  - apply (span_trimmed u sd_TIME_UNITS systemd_units sd_get_spec W s v Hv).
  - intros ->.
    destruct (C23_multiple_complete _ _ _ _ _ _ (sd_env_ok u) (sd_delims_ok u) (eq_refl : utf8 (%"infinity") = true) eq_refl C) as (D' & P & _).
    { intros x Hx. right. now apply D. }
    destruct u; vm_compute in P; discriminate P.
  - intros x Hx. now apply D.
  - exists d. split; [exact P|]. split; [exact G1|]. rewrite G2. unfold saturating_sum. rewrite sum_fold.
    + rewrite E. assert (nanos max <= max_nanos); [|lia]. apply nanos_range in Hm. destruct Hm. assumption.
    + unfold max_nanos. lia.
    + intros x Hx. now apply D.
Qed.
Print Assumptions C47_time_spans.
(** "1.5 hours+2 3min": 5400 + 2 + 180 seconds *)
Example C47_example : exists d, sd_parse_with_max sd_new (%"1.5 hours+2 3min") MAX = Ok d /\ nanos d = 5582 * 10 ^ 9.
Proof.
  assert (W : white_space (%" ")) by (intros x [<-|[]]; now left).
  assert (P : time_span Second systemd_units (%"1.5 hours+2 3min") (5400 * 10 ^ 9 + (2 * 10 ^ 9 + 180 * 10 ^ 9))).
  { refine (span_more _ _ (%"1.5 hours") true _ [] 43 (%"2 3min") _ (part_number_unit _ _ [] (%"1") (%".5") (%"5") (%" ") (%"hours") Hour _ _ _ _ _ W _) _ _ _).
    - now left.
    - each.
    - apply (ft_some (%"5")). each.
    - discriminate.
    - apply Nat.leb_le; reflexivity.
    - apply (C37_units (%"hours") Hour (Mul 1 0)). reflexivity.
    - intros x [].
    - refine (span_more _ _ (%"+2") false (2 * 10 ^ 9) (%" ") 51 (%"min") (180 * 10 ^ 9) _ W _ _).
      + refine (part_number _ _ (%"+") (%"2") [] [] _ _ _ _ _); [now right|each|constructor|discriminate|apply Nat.leb_le; reflexivity].
      + apply (span_last _ _ (%"3min") true). refine (part_number_unit _ _ [] (%"3") [] [] [] (%"min") Minute _ _ _ _ _ _ _);
          [now left|each|constructor|discriminate|apply Nat.leb_le; reflexivity|intros x []|]. apply (C37_units (%"min") Minute (Mul 1 0)). reflexivity.
      + right. left. split; [right; discriminate|lia].
    - right. right. reflexivity. }
  destruct (C47_time_spans sd_new Second [] _ [] _ MAX made_new P) as (d & E & _ & N); try (intros x []); [split; reflexivity|reflexivity|].
  rewrite app_nil_r in E. exists d. split; [exact E|]. rewrite N. reflexivity.
Qed.
Theorem C47_time_spans_with_nanos : forall p u ws1 s ws2 v max, made p u -> time_span u systemd_nanos_units s v ->
  white_space ws1 -> white_space ws2 -> duration_ok max -> is_negative max = false ->
  exists d, sd_parse_nanos_with_max p (ws1 ++ s ++ ws2) max = Ok d /\ duration_ok d /\ nanos d = Z.min (nanos max) v.
Proof.
  intros p u ws1 s ws2 v max Hp Hv H1 H2 Hm Hn. destruct (C38_surrounding_white_space p ws1 s ws2 max H1 H2) as (_ & -> & _).
  apply made_is in Hp. subst p. pose proof systemd_nanos_words_ok as W.
  destruct (span_components u sd_TIME_UNITS_WITH_NANOS systemd_nanos_units sd_get_nanos_spec eq_refl W s v Hv) as (ds & C & D & V & E).
  destruct (common_complete u sd_TIME_UNITS_WITH_NANOS (sd_env_nanos_ok u) s ds max) as (d & P & G1 & G2); auto.
  - apply (span_utf8 u sd_TIME_UNITS_WITH_NANOS systemd_nanos_units sd_get_nanos_spec W s v Hv).
  - apply (span_trimmed u sd_TIME_UNITS_WITH_NANOS systemd_nanos_units sd_get_nanos_spec W s v Hv).
  - intros ->.
    destruct (C23_multiple_complete _ _ _ _ _ _ (sd_env_nanos_ok u) (sd_delims_ok u) (eq_refl : utf8 (%"infinity") = true) eq_refl C) as (D' & P & _).
    { intros x Hx. right. now apply D. }
    destruct u; vm_compute in P; discriminate P.
  - intros x Hx. now apply D.
  - exists d. split; [exact P|]. split; [exact G1|]. rewrite G2. unfold saturating_sum. rewrite sum_fold.
    + rewrite E. assert (nanos max <= max_nanos); [|lia]. apply nanos_range in Hm. destruct Hm. assumption.
    + unfold max_nanos. lia.
    + intros x Hx. now apply D.
Qed.
Print Assumptions C47_time_spans_with_nanos.
