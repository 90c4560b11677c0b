(** * Property C91: the example program systemd *)
From Verif Require ExEnv.
From Verif Require Import Prelude Util Time Config Bytes Repr Parse SpecTime SpecNum SpecValue SpecParse SpecGrammar SpecSpelling SpecManyTexts SpecCustom SpecSystemd
  TimeProofs NumProofs Utf8Proofs ValueProofs Standard StandardProofs PropTime PropNum PropParse PropStandard PropDisplay PropText PropReadBack
  Custom CustomProofs PropCustom PropCustomText PropCustomTexts Misc Systemd SystemdProofs PropSystemd SystemdExact PropSystemdExact
  Examples SpecExamples ExampleTrim ExampleProofs.

(** ** the specification of the third line *)
(** zero is written `0`, all other durations with the longest units which fit *)
Definition systemd_human (v : Z) (h : str) : Prop :=
  v = 0 /\ h = %"0" \/ v <> 0 /\ exists l, written_with systemd_word false l h /\ greedy l /\ sum_of_parts l = v.

(** ** proofs *)
(** the texts neither begin nor end with white space *)
Lemma no_white t : (forall x r, t = x :: r -> text_byte x) -> (forall x r, t = r ++ [x] -> text_byte x) -> trims t t.
Proof.
  intros H1 H2. exists [], []. rewrite app_nil_r. split; [reflexivity|]. split; [constructor|]. split; [constructor|]. intros ch r H. split.
  - intros ->. destruct ch as [|x ch]; [cbn in H; intuition discriminate|]. specialize (H1 x (ch ++ r) eq_refl). revert H1. clear - H. unfold text_byte.
    repeat (destruct H as [H|H]; [injection H as <- _; lia|]). contradiction.
  - intros ->. destruct ch as [|x ch _] using rev_ind; [cbn in H; intuition discriminate|]. specialize (H2 x (r ++ ch)). rewrite app_assoc in H2. specialize (H2 eq_refl). revert H2. clear - H. unfold text_byte.
    assert (E : x = last (ch ++ [x]) 0) by (rewrite last_last; reflexivity). rewrite E. generalize dependent (ch ++ [x]). intros l H _.
    repeat (destruct H as [<-|H]; [cbn; lia|]). contradiction.
Qed.
Section Ends.
Context (word : time_unit -> Z -> str) (ng : bool).
Context (WT : forall u v, word u v <> [] /\ forall x, In x (word u v) -> text_byte x).
Lemma written_trims l h : written_with word ng l h -> trims h h.
Proof.
  assert (D : forall v s, decimal v s -> s <> [] /\ forall x, In x s -> text_byte x).
  { intros v s (D1 & _ & D2). split; [intros ->; contradiction|]. intros x Hx. left. now apply D1. }
  assert (F : forall v u s r, decimal v s -> exists x q, (if ng then %"-" else []) ++ s ++ word u v ++ r = x :: q /\ text_byte x).
  { intros v u s r H. destruct (D v s H) as [N T]. destruct ng; [eexists; eexists; split; [reflexivity|right; left; reflexivity]|]. destruct s as [|x s]; [contradiction|]. exists x, (s ++ word u v ++ r). split; [reflexivity|]. apply T. now left. }
  assert (L : forall u v a, exists x q, a ++ word u v = q ++ [x] /\ text_byte x).
  { intros u v a. destruct (WT u v) as [N T]. destruct (word u v) as [|x w _] using rev_ind; [contradiction|]. exists x, (a ++ w). split; [now rewrite app_assoc|]. apply T. apply in_app_iff. right. now left. }
  intros W. assert (G : (exists x q, h = x :: q /\ text_byte x) /\ exists x q, h = q ++ [x] /\ text_byte x).
  { induction W as [v u s H|v u s l t H W [_ (x & q & -> & T)]].
    - split; [destruct (F v u s [] H) as (x & q & E & T); rewrite app_nil_r in E; eauto|]. rewrite app_assoc. apply L.
    - split; [destruct (F v u s (%" " ++ q ++ [x]) H) as (y & z & E & T'); exists y, z; split; [rewrite <- E, <- !app_assoc; reflexivity|exact T']|].
      exists x, (((if ng then %"-" else []) ++ s ++ word u v) ++ %" " ++ q). split; [now rewrite <- !app_assoc|exact T]. }
  destruct G as [(x & q & E1 & T1) (y & z & E2 & T2)]. apply no_white.
  - intros x' r E. congruence.
  - intros x' r E. rewrite E in E2. apply app_inj_tail in E2. destruct E2 as [_ ->]. exact T2.
Qed.
Lemma written_utf8 l h : written_with word ng l h -> utf8 h = true.
Proof.
  assert (A : forall s, (forall x, In x s -> text_byte x) -> utf8 s = true).
  { induction s as [|x s IH]; intros H; [reflexivity|]. assert (text_byte x) by (apply H; now left). rewrite utf8_cons_ascii by (unfold text_byte in *; lia). apply IH. intros y Hy. apply H. now right. }
  assert (P : forall v u s, decimal v s -> utf8 ((if ng then %"-" else []) ++ s ++ word u v) = true).
  { intros v u s (D1 & _). apply A. intros x Hx. apply in_app_iff in Hx. destruct Hx as [Hx|Hx]; [destruct ng; [destruct Hx as [<-|[]]; right; left; reflexivity|contradiction]|].
    apply in_app_iff in Hx. destruct Hx as [Hx|Hx]; [left; now apply D1|now apply WT in Hx]. }
  induction 1 as [v u s H|v u s l t H _ IH]; [now apply P|]. rewrite utf8_app by now apply P. exact IH.
Qed.
End Ends.
(** with the words of both programs *)
Lemma systemd_words u v : systemd_word u v <> [] /\ forall x, In x (systemd_word u v) -> text_byte x.
Proof. split; [destruct u; discriminate|]. unfold text_byte. intros x H. destruct u; cbn in H; repeat destruct H as [<-|H]; try contradiction; lia. Qed.

(** ** the parser as a parser with calls *)
Definition sx_os : list custom_call :=
  [C_time_units SYSTEMD_TIME_UNITS; C_set (Set_disable_exponent true); C_set (Set_disable_infinity true); C_set (Set_allow_time_unit_delimiter true);
   C_set (Set_parse_multiple true None); C_set (Set_inner_delimiter sx_delimiter); C_set (Set_outer_delimiter sx_delimiter)].
Lemma sx_is : sx_parser = fold_left cp_call sx_os cp_new.
Proof. vm_compute. reflexivity. Qed.
Notation sxc := (cp_config (fold_left cp_call sx_os cp_new)).
Lemma sx_fit : calls_fit sx_os.
Proof.
  constructor.
  - intros t H. cbn in H. repeat (destruct H as [<-|H]; [eexists; eexists; exists None; (split; [reflexivity|discriminate])|]). contradiction.
  - intros t [].
  - intros n t [].
  - assert (A : ascii_delim sx_delimiter) by (intros x; unfold sx_delimiter; lia). split; [exact A|]. split; [exact A|]. discriminate.
Qed.
Lemma sx_delims {kw nums} : delims_ok sxc kw nums.
Proof. apply delims_strict_ok. intros _ x H. exact (eq_trans (f_equal (fun b => b || starts_duration x) H) eq_refl). Qed.
Lemma sx_reads : reads_texts sxc.
Proof.
  assert (A : forall x, text_byte x -> sx_delimiter x = false) by (intros x; unfold text_byte, sx_delimiter; lia).
  constructor; [reflexivity|reflexivity|exact A|exact A|intros w []].
Qed.
Lemma sx_known u v : u_get (own_units sx_os) (systemd_word u v) = Some (u, Mul 1 0).
Proof. destruct u; reflexivity. Qed.
Lemma words_fit u v : systemd_word u v <> [] /\ (forall x, In x (systemd_word u v) -> text_byte x /\ starts_duration x = false) /\
  forall r, starts_not is_digit (systemd_word u v ++ r) /\ starts_not is_dot (systemd_word u v ++ r) /\ starts_not is_e (systemd_word u v ++ r).
Proof.
  split; [destruct u; discriminate|]. split.
  - intros x. unfold text_byte. destruct u; cbn; intros H; repeat destruct H as [<-|H]; try contradiction; (split; [lia|reflexivity]).
  - intros r. destruct u; repeat split; reflexivity.
Qed.

(** the text of a duration other than zero *)
Lemma sx_human_parts d : std_ok d -> std_nanos d <> 0 ->
  exists l, sx_make_human d = sign_of false ++ join (32 :: sign_of false) (map (etext systemd_word) l) /\ l <> [] /\ Forall part_ok l /\ fits l 0 /\ total l = std_nanos d.
Proof.
  intros Hd Nz. assert (Z0 : std_is_zero d = false). { unfold std_is_zero. unfold std_nanos in Nz. destruct Hd as [H1 H2]. unfold is_u64, inb in *. lia. }
  unfold sx_make_human. rewrite Z0. destruct Hd as [H1 H2]. unfold is_u64, inb in *. set (s0 := secs d) in *. set (n0 := subsec d) in *.
  change sx_word with systemd_word.
  destruct (human_secs_fits systemd_word s0 n0) as (l & E & F & T & G & _); [lia|lia|]. rewrite E.
  assert (K : exists l', (if 0 <? n0 then
      let st := human_part 1000000 (systemd_word MilliSecond) (map (etext systemd_word) l, n0) in
      let '(result, n) := human_part 1000 (systemd_word MicroSecond) st in if 1 <=? n then result ++ [dec n ++ systemd_word NanoSecond n] else result
    else map (etext systemd_word) l) = map (etext systemd_word) l' /\ Forall part_ok l' /\ fits l' 0 /\ total l' = std_nanos d).
  { unfold std_nanos. fold s0 n0. destruct (0 <? n0) eqn:E0; [|exists l; assert (n0 = 0) as Z by lia; rewrite Z in *; split; [reflexivity|]; split; [exact F|]; split; [exact G|lia]]. cbn zeta.
    assert (Bu : 0 <= n0 <= u64_max) by (unfold u64_max; lia).
    destruct (human_part_fits systemd_word 1000000 MilliSecond l n0 1 0) as (l1 & s1 & E1 & B1 & F1 & G1 & T1 & L1 & _); [lia|lia|exact Bu|lia|reflexivity|exact F|replace (n0 * 1 + 0) with n0 by lia; exact G|step_below|].
    rewrite E1.
    destruct (human_part_fits systemd_word 1000 MicroSecond l1 s1 1 0) as (l2 & s2 & E2 & B2 & F2 & G2 & T2 & L2 & _); [lia|lia|lia|lia|reflexivity|exact F1|exact G1|step_below|].
    rewrite E2. destruct (1 <=? s2) eqn:E7.
    - exists (l2 ++ [(s2, NanoSecond)]). rewrite map_app. split; [reflexivity|]. split; [|split].
      + apply Forall_app. split; [exact F2|]. constructor; [unfold part_ok; cbn; lia|constructor].
      + apply fits_app with (s2 * 1 + 0); [change (unit_ns NanoSecond) with 1; lia|exact G2|lia|step_below|change (unit_ns NanoSecond) with 1; lia].
      + rewrite total_app. unfold total at 2. cbn [fold_right]. unfold part_ns. cbn [fst snd]. change (unit_ns NanoSecond) with 1. lia.
    - exists l2. split; [reflexivity|]. split; [exact F2|]. assert (s2 = 0) by lia. subst s2. split; [exact G2|lia]. }
  destruct K as (l' & K & F' & G' & T'). cbv zeta in K |- *. rewrite K. exists l'. split; [reflexivity|]. split; [|auto].
  intros ->. apply Nz. rewrite <- T'. reflexivity.
Qed.
Lemma sx_human_spec d : std_ok d -> systemd_human (std_nanos d) (sx_make_human d).
Proof.
  intros Hd. destruct (Z.eq_dec (std_nanos d) 0) as [E|N].
  - left. split; [exact E|]. assert (Z0 : std_is_zero d = true). { unfold std_is_zero. unfold std_nanos in E. destruct Hd as [H1 H2]. unfold is_u64, inb in *. lia. } unfold sx_make_human. now rewrite Z0.
  - right. split; [exact N|]. destruct (sx_human_parts d Hd N) as (l & -> & L & F & G & T). exists l. split; [now apply written_join_with|]. split; [now apply fits_zero|]. now rewrite sum_total.
Qed.
(** the text as a sequence of components for every parser which knows the words *)
Lemma sx_human_components c tu kw nums d : reads_texts c -> u_is_empty tu = false -> (forall u v, 1 <= v -> needs (std_nanos d) u -> u_get tu (systemd_word u v) = Some (u, Mul 1 0)) -> std_ok d -> std_nanos d <> 0 ->
  exists ds, components c tu kw nums (sx_make_human d) ds /\ saturating_sum ds = std_nanos d /\ (forall x, In x ds -> is_negative x = false).
Proof.
  intros RT NE K Hd N. destruct (sx_human_parts d Hd N) as (l & -> & L & F & G & T).
  assert (Gr : greedy l) by now apply fits_zero.
  assert (V : forall v u, In (v, u) l -> 1 <= v).
  { clear - Gr. induction l as [|[v u] l IH]; intros v' u' H; [contradiction|]. destruct Gr as (G1 & _ & _ & G2). destruct H as [H|H]; [congruence|eauto]. }
  destruct (the_components systemd_word c tu kw nums RT NE (fun _ => True) (fun u v _ => words_fit u v) false l L F) as [C _].
  { intros [v u] Hp. split; [|exact Logic.I]. apply K; [cbn [fst]; eapply V; exact Hp|]. pose proof (greedy_needs l Gr v u Hp) as Q. rewrite sum_total, T in Q. exact Q. }
  exists (map (value false) l). split; [exact C|]. destruct (std_nanos_nonneg d Hd) as [B1 B2]. split.
  - pose proof (sum_parts false l F 0 ltac:(lia) ltac:(lia)) as S. change (signed_nanos false 0) with 0 in S. unfold saturating_sum. rewrite S, T. unfold signed_nanos. lia.
  - intros x Hx. apply in_map_iff in Hx. destruct Hx as (q & <- & Hq). destruct (is_negative (value false q)) eqn:En2; [|reflexivity]. exfalso.
    revert En2. unfold value, number_value, number_result. replace (coef (unit_length (snd q)) * coef default_multiplier <? 0) with false by (destruct (snd q); reflexivity).
    destruct (_ || _); discriminate.
Qed.
Lemma sx_parse_human d : std_ok d -> exists D, cp_parse sx_parser (sx_make_human d) = Ok D /\ duration_ok D /\ nanos D = std_nanos d.
Proof.
  intros Hd. destruct (sx_human_spec d Hd) as [[E ->]|(N & l & W & _)].
  - exists ZERO. split; [vm_compute; reflexivity|]. split; [split; reflexivity|]. now rewrite E.
  - rewrite sx_is, custom_parse.
    destruct (sx_human_components sxc (own_units sx_os) (own_keywords sx_os) (own_numerals sx_os) d sx_reads eq_refl (fun u v _ _ => sx_known u v) Hd N) as (ds & C & S & P).
    destruct (C23_multiple_complete _ _ _ _ _ _ (own_env sx_os sx_fit) sx_delims (written_utf8 systemd_word false systemd_words l _ W) eq_refl C) as (D & E1 & E2 & E3).
    + intros x Hx. right. now apply P.
    + exists D. split; [exact E1|]. split; [exact E2|]. congruence.
Qed.
Lemma human_trims v h : systemd_human v h -> trims h h /\ utf8 h = true.
Proof.
  intros [[_ ->]|(_ & l & W & _)].
  - split; [|reflexivity]. apply no_white; intros x r E.
    + injection E as <- _. unfold text_byte. lia.
    + destruct r as [|? [|? ?]]; try discriminate. injection E as <-. unfold text_byte. lia.
  - split; [exact (written_trims systemd_word false systemd_words l h W)|exact (written_utf8 systemd_word false systemd_words l h W)].
Qed.
Lemma dec_big x : 0 <= x < 10 ^ 40 -> decimal x (dec x).
Proof.
  intros H. destruct (dec_fuel_spec 39 x H) as (H1 & H2 & H3). split; [exact H2|]. split; [exact H3|]. exact (dec_fuel_head 39 x H).
Qed.
Lemma std_micros d : std_ok d -> secs d * 1000000 + subsec d / 1000 = std_nanos d / 1000.
Proof. intros _. unfold std_nanos. replace (secs d * 1000000000 + subsec d) with (subsec d + secs d * 1000000 * 1000) by lia. rewrite Z.div_add by lia. lia. Qed.

(** ** C91 *)
(** for every argument, the program prints three lines or a complaint, and never panics. The lines: the argument, the whole micro seconds, the text above *)
Theorem C91_systemd_example : forall input, utf8 input = true -> exists t, trims input t /\
  ((exists d m h, cp_parse sx_parser t = Ok d /\ duration_ok d /\ 0 <= nanos d /\ decimal (nanos d / 1000) m /\ systemd_human (nanos d) h /\
      sx_main input = Ok (Lines [%"Original: " ++ input; %"      " ++ [206; 188] ++ %"s: " ++ m; %"   Human: " ++ h])) \/
   (exists e, cp_parse sx_parser t = Err e /\
      sx_main input = Ok (Complaint (%"Failed to parse time span '" ++ input ++ %"': " ++ display_parse_error e)))).
Proof.
  intros input U. exists (str_trim input). split; [apply trims_str_trim|]. pose proof (str_trim_utf8 input U) as Ut. unfold sx_main. rewrite sx_is, custom_parse.
  destruct (C20_never_crashes _ _ _ _ (str_trim input) (own_env sx_os sx_fit) Ut) as [(d & E & Hd)|(e & E)]; rewrite E; [left|right; exists e; auto].
  destruct (C21_not_negative _ _ _ _ _ d (own_env sx_os sx_fit) Ut eq_refl E) as [_ P]. destruct (proj1 (C08_try_into_std d Hd) P) as (s & -> & Hs & V). cbn [bind].
  exists d, (dec (secs s * 1000000 + subsec s / 1000)), (sx_make_human s). split; [reflexivity|]. split; [exact Hd|]. split; [exact P|]. rewrite <- V. split; [|split; [now apply sx_human_spec|reflexivity]].
  rewrite <- std_micros by exact Hs. apply dec_big. destruct Hs as [H1 H2]. unfold is_u64, inb, u64_max in *. assert (0 <= secs s <= 18446744073709551615 /\ 0 <= subsec s <= 999999999) by lia. clear H1 H2. assert (0 <= subsec s / 1000) by (apply Z.div_pos; lia). assert (subsec s / 1000 <= 1000000) by (apply Z.div_le_upper_bound; lia).
  set (q := subsec s / 1000) in *. clearbody q. change (10 ^ 40) with 10000000000000000000000000000000000000000. lia.
Qed.
Print Assumptions C91_systemd_example.
(** the argument may be surrounded by white space *)
Theorem C91_white_space : forall w1 w2 t, utf8 t = true -> trims t t -> white_text w1 -> white_text w2 ->
  (forall ls, sx_main t = Ok (Lines ls) -> sx_main (w1 ++ t ++ w2) = Ok (Lines ((%"Original: " ++ w1 ++ t ++ w2) :: tl ls))) /\
  (forall m, sx_main t = Ok (Complaint m) -> exists m', sx_main (w1 ++ t ++ w2) = Ok (Complaint m')).
Proof.
  intros w1 w2 t U T W1 W2. assert (U' : utf8 (w1 ++ t ++ w2) = true) by (rewrite (utf8_app w1) by (now apply utf8_white); rewrite (utf8_app t) by (exact U); now apply utf8_white).
  assert (E : str_trim (w1 ++ t ++ w2) = str_trim t).
  { rewrite <- (trims_is t t U T). symmetry. apply trims_is; [exact U'|]. destruct T as (_ & _ & _ & _ & _ & N). exists w1, w2. auto. }
  unfold sx_main. rewrite E. destruct (cp_parse sx_parser (str_trim t)) as [d|e|x].
  - destruct (match try_into_std d with inl x => Ok x | inr _ => Crash CrashUnwrap end) as [s|e|x]; cbn [bind]; [|split; intros ? H; discriminate H|split; intros ? H; discriminate H].
    split; [|intros m H; discriminate H]. intros ls H. injection H as <-. reflexivity.
  - split; [intros ls H; discriminate H|]. intros m _. eauto.
  - split; intros ? H; discriminate H.
Qed.
Print Assumptions C91_white_space.
(** the text in the third line is read back by the program, which says the same about it *)
Theorem C91_again : forall input o m h, utf8 input = true -> sx_main input = Ok (Lines [o; m; %"   Human: " ++ h]) ->
  sx_main h = Ok (Lines [%"Original: " ++ h; m; %"   Human: " ++ h]).
Proof.
  intros input o m h U E. unfold sx_main in E. pose proof (str_trim_utf8 input U) as Ut. rewrite sx_is, custom_parse in E.
  destruct (C20_never_crashes _ _ _ _ (str_trim input) (own_env sx_os sx_fit) Ut) as [(d & Ep & Hd)|(e & Ep)]; rewrite Ep in E; [|discriminate E].
  destruct (C21_not_negative _ _ _ _ _ d (own_env sx_os sx_fit) Ut eq_refl Ep) as [_ P]. destruct (proj1 (C08_try_into_std d Hd) P) as (s & Es & Hs & V). rewrite Es in E. cbn [bind] in E.
  assert (Eh : h = sx_make_human s /\ m = pad 8 2 [206; 188; 115] ++ %": " ++ dec (secs s * 1000000 + subsec s / 1000)).
  { assert (G : forall a b, %"   Human: " ++ a = pad 8 5 (%"Human") ++ %": " ++ b -> a = b) by (intros a b H; exact (app_inv_head (%"   Human: ") a b H)).
    injection E as _ <- Eh. split; [|reflexivity]. symmetry. apply G. symmetry. rewrite <- Eh. reflexivity. }
  destruct Eh as [-> ->]. pose proof (sx_human_spec s Hs) as Sp. destruct (human_trims _ _ Sp) as [T Uh]. unfold sx_main at 1. rewrite <- (trims_is _ _ Uh T).
  destruct (sx_parse_human s Hs) as (D & -> & HD & VD). destruct (std_nanos_nonneg s Hs) as [B _]. destruct (proj1 (C08_try_into_std D HD)) as (s' & -> & Hs' & V'); [lia|]. cbn [bind].
  assert (s' = s) as -> by (apply std_nanos_inj; auto; congruence). reflexivity.
Qed.
Print Assumptions C91_again.

(** fundu-systemd reads the text in the third line as the same duration, up to its maximum; with [sd_parse_with_max], which has no nano seconds, if there are none in it *)
Lemma trims_trimmed t : trims t t -> trimmed t.
Proof.
  intros (_ & _ & _ & _ & _ & N).
  assert (A : forall x, white x -> In [x] white_characters).
  { intros x H. apply white1_in. unfold white in H. unfold white1, inb. lia. }
  split; intros x r E G; [exact (proj1 (N [x] r (A x G)) E)|exact (proj2 (N [x] r (A x G)) E)].
Qed.
Lemma human_not_infinity l h : written_with systemd_word false l h -> h <> %"infinity".
Proof.
  assert (A : forall v s r, decimal v s -> s ++ r <> %"infinity").
  { intros v s r (D1 & _ & D2) E. destruct s as [|x s]; [contradiction|]. assert (48 <= x <= 57) by (apply D1; now left). injection E as -> _. revert H. vm_compute. intuition discriminate. }
  intros [v u s H|v u s l' t H _]; cbn [app]; [now apply (A v)|]. rewrite <- app_assoc. now apply (A v).
Qed.
Lemma sd_reads_words u : reads_texts (sd_with_default_unit u).
Proof. exact (sd_reads_texts u sd_TIME_UNITS systemd_units (fun u => proj1 (sd_get_documented u))). Qed.
Lemma sd_knows_words u v : u_get sd_TIME_UNITS_WITH_NANOS (systemd_word u v) = Some (u, Mul 1 0) /\ (u <> NanoSecond -> u_get sd_TIME_UNITS (systemd_word u v) = Some (u, Mul 1 0)).
Proof. split; [destruct u; reflexivity|]. intros N. destruct u; try contradiction; reflexivity. Qed.
Lemma sd_zero u tu max : (tu = sd_TIME_UNITS \/ tu = sd_TIME_UNITS_WITH_NANOS) -> duration_ok max -> is_negative max = false ->
  exists d', common u tu (%"0") max = Ok d' /\ nanos d' = Z.min (nanos max) 0.
Proof.
  intros Ht Hm Hn. rewrite common_unfold by auto. cbv zeta.
  assert (P : exists z, parse (sd_with_default_unit u) (%"0") tu None None = Ok z /\ duration_ok z /\ nanos z = 0).
  { exists ZERO. split; [|split; [split; reflexivity|reflexivity]]. destruct Ht as [->| ->]; destruct u; vm_compute; reflexivity. }
  destruct P as (z & Ez & Hz & Vz). change (trim_end (trim_start (%"0"))) with (%"0"). rewrite Ez. cbn [str_eqb]. change (str_eqb (%"0") (%"infinity")) with false. cbn [map_res bind].
  exists (dmin z max). split; [reflexivity|]. rewrite (proj2 (dmin_spec z max Hz Hm)), Vz. lia.
Qed.
Theorem C91_systemd_reads_it : forall p u input o m h max, made p u -> duration_ok max -> is_negative max = false ->
  utf8 input = true -> sx_main input = Ok (Lines [o; m; %"   Human: " ++ h]) ->
  exists t d, trims input t /\ cp_parse sx_parser t = Ok d /\
    (exists d', sd_parse_nanos_with_max p h max = Ok d' /\ nanos d' = Z.min (nanos max) (nanos d)) /\
    (nanos d = 0 \/ ~ needs (nanos d) NanoSecond -> exists d', sd_parse_with_max p h max = Ok d' /\ nanos d' = Z.min (nanos max) (nanos d)).
Proof.
  intros p u input o m h max M Hm Hn U E. unfold sx_main in E. pose proof (str_trim_utf8 input U) as Ut. rewrite sx_is, custom_parse in E.
  exists (str_trim input). destruct (C20_never_crashes _ _ _ _ (str_trim input) (own_env sx_os sx_fit) Ut) as [(d & Ep & Hd)|(e & Ep)]; rewrite Ep in E; [|discriminate E].
  destruct (C21_not_negative _ _ _ _ _ d (own_env sx_os sx_fit) Ut eq_refl Ep) as [_ P]. destruct (proj1 (C08_try_into_std d Hd) P) as (s & Es & Hs & V). rewrite Es in E. cbn [bind] in E.
  assert (Eh : h = sx_make_human s).
  { assert (G : forall a b, %"   Human: " ++ a = pad 8 5 (%"Human") ++ %": " ++ b -> a = b) by (intros a b H; exact (app_inv_head (%"   Human: ") a b H)).
    injection E as _ _ Eh. symmetry. apply G. symmetry. rewrite <- Eh. reflexivity. }
  subst h. exists d. split; [apply trims_str_trim|]. split; [rewrite sx_is, custom_parse; exact Ep|]. rewrite <- V. apply made_is in M. subst p. rewrite with_max_common, nanos_with_max_common.
  destruct (sx_human_spec s Hs) as [[E0 ->]|(N & l & W & Q)].
  - rewrite E0. split; [apply sd_zero; auto|]. intros _. apply sd_zero; auto.
  - pose proof (written_trims systemd_word false systemd_words l _ W) as T. pose proof (written_utf8 systemd_word false systemd_words l _ W) as Uh.
    assert (K : forall tu, env_ok (sd_with_default_unit u) tu None None -> u_is_empty tu = false -> (forall u v, 1 <= v -> needs (std_nanos s) u -> u_get tu (systemd_word u v) = Some (u, Mul 1 0)) ->
      exists d', common u tu (sx_make_human s) max = Ok d' /\ nanos d' = Z.min (nanos max) (std_nanos s)).
    { intros tu HE NE K. destruct (sx_human_components (sd_with_default_unit u) tu None None s (sd_reads_words u) NE K Hs N) as (ds & C & S & Pd).
      destruct (common_complete u tu HE _ ds max Uh (trims_trimmed _ T) (human_not_infinity l _ W) Hm Hn C Pd) as (D & E1 & _ & E3). exists D. split; [exact E1|]. congruence. }
    split; [apply K; [apply sd_env_nanos_ok|reflexivity|intros x v _ _; apply sd_knows_words]|].
    intros [Z0|Nn]; [contradiction|]. apply K; [apply sd_env_ok|reflexivity|]. intros x v _ Hx. apply sd_knows_words. intros ->. contradiction.
Qed.
Print Assumptions C91_systemd_reads_it.

(** ** Examples *)
(** the example of the README, and one with all units *)
Example C91_example : utf8 (%"300ms20s 5day") = true /\ trims (%"300ms20s 5day") (%"300ms20s 5day") /\
  sx_main (%"300ms20s 5day") = Ok (Lines [%"Original: 300ms20s 5day"; %"      " ++ [206; 188] ++ %"s: 432020300000"; %"   Human: 5d 20s 300ms"]) /\
  white_text [227; 128; 128; 32] /\ sx_main ([227; 128; 128; 32] ++ %"1.5us") = Ok (Lines [%"Original: " ++ [227; 128; 128; 32] ++ %"1.5us"; %"      " ++ [206; 188] ++ %"s: 1"; %"   Human: 1us 500ns"]) /\
  sx_main (%"1y 1month 1w 1d 1h 1min 1s 1ms 1us 1ns") = Ok (Lines [%"Original: 1y 1month 1w 1d 1h 1min 1s 1ms 1us 1ns"; %"      " ++ [206; 188] ++ %"s: 34882261001001"; %"   Human: 1y 1month 1w 1d 1h 1min 1s 1ms 1us 1ns"]) /\
  sx_main (%"-1s") = Ok (Complaint (%"Failed to parse time span '-1s': Number was negative")) /\
  sd_parse_nanos sd_new (%"1us 500ns") = Ok (Dur false (Std 0 1500)) /\ needs 1500 NanoSecond /\ exists e, sd_parse sd_new (%"1us 500ns") = Err e.
Proof.
  split; [reflexivity|]. split; [apply no_white; [intros x r [= <- _]; unfold text_byte; lia|]|].
  { intros x r E. assert (X : x = 121) by (apply (f_equal (fun l => last l 0)) in E; rewrite last_last in E; now rewrite <- E). subst x. unfold text_byte. lia. }
  split; [vm_compute; reflexivity|]. split; [apply (wt_more [227; 128; 128] [32]); [cbn; tauto|apply (wt_more [32] []); [cbn; tauto|constructor]]|].
  split; [vm_compute; reflexivity|]. split; [vm_compute; reflexivity|]. split; [vm_compute; reflexivity|]. split; [vm_compute; reflexivity|].
  split; [left; vm_compute; discriminate|]. eexists. vm_compute. reflexivity.
Qed.
