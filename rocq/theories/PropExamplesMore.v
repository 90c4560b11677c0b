(** * Properties C95-C97: the example programs clap_derive, clap_builder, simple, chrono and convert *)
From Verif Require Import Prelude Util Time Config Bytes Repr Parse SpecTime SpecNum SpecParse SpecDate SpecGnu SpecDebug SpecExamples
  TimeProofs NumProofs Utf8Proofs DateTime DateTimeProofs Standard StandardProofs PropTime PropParse PropStandard PropDate PropDisplay PropText Gnu PropGnu Misc Examples ExampleTrim ExampleProofs ExamplesMore PropDebug.
From Verif Require PropExampleCustom DateProofs ExEnv.
Open Scope Z_scope.

(** ** C95: clap_derive and clap_builder *)
(** what is known about one argument: a valid text is read as some duration, or else there is an error *)
Definition reads (p : duration_parser) (s : str) (v : Z) : Prop := exists d, dp_parse p s = Ok d /\ duration_ok d /\ nanos d = v.
Definition rejects (p : duration_parser) (s : str) : Prop := exists e, dp_parse p s = Err e.

Lemma default_cases s : utf8 s = true -> (exists d, dp_parse dp_new s = Ok d /\ duration_ok d) \/ exists e, dp_parse dp_new s = Err e.
Proof. intros H. exact (C32_parse_never_crashes (DBuilder ChoiceDefault config_new) [] s config_new_ok H). Qed.
Lemma default_positive s d : utf8 s = true -> dp_parse dp_new s = Ok d -> duration_ok d /\ neg d = false /\ std_nanos (inner d) = nanos d.
Proof.
  intros H E. destruct (default_cases s H) as [(d' & E' & Hd)|(e & E')]; [|congruence]. rewrite E in E'. injection E' as <-. split; [exact Hd|].
  assert (G : is_negative d = false).
  { refine (proj1 (C21_not_negative (dp_config dp_new) (std_units (dp_units dp_new)) None None s d _ H eq_refl E)).
    apply (std_env_ok dp_new); [exact (build_data (DBuilder ChoiceDefault config_new))|exact config_new_ok]. }
  unfold is_negative in G. split; [exact G|]. unfold nanos, std_nanos. now rewrite G.
Qed.
Lemma debug_positive d : duration_ok d -> neg d = false -> fundu_debug_text false (nanos d) (debug d).
Proof. intros Hd G. pose proof (C94_debug d Hd) as T. rewrite G in T. replace (std_nanos (inner d)) with (nanos d) in T; [exact T|]. unfold nanos, std_nanos. now rewrite G. Qed.

Theorem C95_every_argument : forall a, utf8 a = true -> (exists v, 0 <= v <= max_nanos /\ reads dp_new a v) \/ rejects dp_new a.
Proof.
  intros a H. destruct (default_cases a H) as [(d & E & Hd)|(e & E)]; [left|right; now exists e].
  destruct (default_positive a d H E) as (_ & G & V). exists (nanos d). split; [|now exists d]. rewrite <- V. exact (std_nanos_nonneg _ Hd).
Qed.
Print Assumptions C95_every_argument.

Theorem C95_one_duration : forall a, utf8 a = true ->
  (forall v, reads dp_new a v -> exists t, fundu_debug_text false v t /\ clap_derive_main a None = Ok (Lines [%"The duration is: " ++ t])) /\
  (rejects dp_new a -> clap_derive_main a None = Crash CrashUnwrap).
Proof.
  intros a H. split.
  - intros v (d & E & Hd & <-). destruct (default_positive a d H E) as (_ & G & V). exists (debug d). split; [now apply debug_positive|]. unfold clap_derive_main. now rewrite E.
  - intros (e & E). unfold clap_derive_main. now rewrite E.
Qed.
Print Assumptions C95_one_duration.

Theorem C95_sum : forall a b, utf8 a = true -> utf8 b = true ->
  (forall v w, reads dp_new a v -> reads dp_new b w ->
     exists t, fundu_debug_text false (Z.min max_nanos (v + w)) t /\ clap_derive_main a (Some b) = Ok (Lines [%"The sum of the two durations: " ++ t])) /\
  (rejects dp_new a \/ rejects dp_new b -> clap_derive_main a (Some b) = Crash CrashUnwrap).
Proof.
  intros a b Ha Hb. split.
  - intros v w (d & E & Hd & <-) (d' & E' & Hd' & <-). destruct (default_positive a d Ha E) as (_ & G & V). destruct (default_positive b d' Hb E') as (_ & G' & V').
    destruct (C02_saturating_add_clamps d d' Hd Hd') as (c & Ec & Hc & Nc). exists (debug c).
    assert (P : neg c = false).
    { unfold saturating_add, checked_add in Ec. rewrite G, G' in Ec. cbn [bind] in Ec. destruct (std_checked_add (inner d) (inner d')); cbn [option_map] in Ec; injection Ec as <-; reflexivity. }
    split; [|unfold clap_derive_main; rewrite E, E'; cbn [unwrap_ok bind]; now rewrite Ec].
    replace (Z.min max_nanos (nanos d + nanos d')) with (nanos c); [now apply debug_positive|]. rewrite Nc. unfold clamp_nanos, clamp.
    pose proof (std_nanos_nonneg _ Hd). pose proof (std_nanos_nonneg _ Hd'). lia.
  - intros R. unfold clap_derive_main. destruct (default_cases a Ha) as [(d & E & _)|(e & E)]; rewrite E; cbn [unwrap_ok bind]; [|reflexivity].
    destruct R as [(e & R)|(e & R)]; [congruence|]. now rewrite R.
Qed.
Print Assumptions C95_sum.
(** both programs are the same, but the arguments are optional for the second one, which panics without them *)
Theorem C95_builder : forall a b, clap_builder_main (Some a) b = clap_derive_main a b /\ clap_builder_main None b = Crash CrashUnwrap.
Proof. intros a [b|]; unfold clap_builder_main, clap_derive_main; cbn [unwrap bind]; split; reflexivity. Qed.
Print Assumptions C95_builder.
Example C95_example : clap_derive_main (%"1.5m") (Some (%"+2e-4s")) = Ok (Lines [%"The sum of the two durations: Duration { is_negative: false, inner: 90.0002s }"]) /\
  clap_derive_main (%"infinity") (Some (%"1")) = Ok (Lines [%"The sum of the two durations: Duration { is_negative: false, inner: 18446744073709551615.999999999s }"]) /\
  clap_builder_main (Some (%"20ms")) None = Ok (Lines [%"The duration is: Duration { is_negative: false, inner: 20ms }"]) /\
  clap_derive_main (%"-1") None = Crash CrashUnwrap /\ clap_derive_main (%"1s") (Some (%"1month")) = Crash CrashUnwrap /\
  reads dp_new (%"1.5m") 90000000000 /\ rejects dp_new (%"1month").
Proof.
  do 5 (split; [vm_compute; reflexivity|]). split; [|eexists; vm_compute; reflexivity].
  exists (Dur false (Std 90 0)). split; [vm_compute; reflexivity|]. split; [vm_compute; split; reflexivity|vm_compute; reflexivity].
Qed.
(** the program simple ends without a panic *)
Theorem C95_simple : simple_main = Ok tt.
Proof. vm_compute. reflexivity. Qed.
Print Assumptions C95_simple.

(** ** C96: the program chrono of fundu-gnu *)
Definition clock_ok (now : std_duration + std_duration) : Prop := std_ok (match now with inl d | inr d => d end).
(** `parse` of fundu-gnu never panics: the day of C41_to_gregorian_total_refuted cannot be reached from any time of the clock *)
Theorem C44_parse_never_crashes : forall now s, clock_ok now -> utf8 s = true ->
  (exists d, gnu_global_parse now s = Ok d /\ duration_ok d) \/ (exists e, gnu_global_parse now s = Err e).
Proof.
  intros now s Hn Hs. destruct (C44_fuzzy_never_crashes s Hs) as [(years & months & d & E & Hd & _)|(e & E)].
  2:{ right. exists e. unfold gnu_global_parse, gnu_parse, gnu_parse_with_date. now rewrite E. }
  assert (D : (years = 0 /\ months = 0) \/ ~ (years = 0 /\ months = 0)) by lia. destruct D as [[-> ->]|NZ].
  { left. exists d. split; [|exact Hd]. unfold gnu_global_parse, gnu_parse, gnu_parse_with_date. now rewrite E. }
  destruct (C42_now_utc_exact now Hn) as (x & ep & Ex & Eep & Hx & Ix). destruct (C44_current_time gnu_new now s x Ex) as [C1 C2].
  unfold gnu_global_parse. rewrite C2, C1. destruct julian_bijection as [B1 B2].
  destruct (B2 ((instant x + nanos d) / day_nanos)) as (((y & m) & dd) & J & _). set (k := 12 * (y + years) + (m - 1) + months).
  assert (V : valid_date (k / 12, k mod 12 + 1, 1)).
  { cbn. pose proof (Z.mod_pos_bound k 12). pose proof (DateProofs.month_length_range (k / 12) (k mod 12 + 1)). lia. }
  destruct (B1 _ V) as (j & Hj & _).
  destruct (C44_calendar now s x years months d Hx Hs E NZ y m dd (k / 12) (k mod 12 + 1) j J) as (K1 & K2 & _); [unfold k; pose proof (Z.div_mod k 12); fold k; lia|pose proof (Z.mod_pos_bound k 12); lia|exact Hj|].
  match type of K1 with ?P -> _ => assert (D : P \/ ~ P) end.
  { match goal with |- (?A /\ fits_i64 ?n /\ ?R) \/ _ => assert (DA : A \/ ~ A) by lia; assert (DR : R \/ ~ R) by (unfold representable; lia); destruct (fits_i64_dec n) as [F|F] end; tauto. }
  destruct D as [D|D]; [left|right].
  - destruct (K1 D) as (D' & ED & HD & _). now exists D'.
  - exists Overflow. apply (K2 D). intros Z.
    assert (IE : instant ep = 2440588 * day_nanos) by (change UNIX_EPOCH with (Ok (DT 2440588 0)) in Eep; injection Eep as <-; vm_compute; reflexivity).
    assert (N1 : - max_nanos <= nanos d).
    { pose proof (std_nanos_nonneg _ Hd) as B. unfold nanos. change (secs (inner d) * 1000000000 + subsec (inner d)) with (std_nanos (inner d)). destruct (neg d); lia. }
    assert (N2 : instant x >= instant ep - max_nanos) by (rewrite Ix; destruct now as [q|q]; pose proof (std_nanos_nonneg q Hn); lia).
    rewrite IE in N2. change max_nanos with 18446744073709551615999999999 in N1, N2. unfold day_nanos in *. clear - Z N1 N2. Z.to_euclidean_division_equations; lia.
Qed.
Print Assumptions C44_parse_never_crashes.

Lemma chrono_limits : c_value C_MIN = - chrono_limit /\ c_value C_MAX = chrono_limit.
Proof. split; vm_compute; reflexivity. Qed.
Lemma truncated s n : 0 <= n <= 999999999 -> (if (s <? 0) && (0 <? n) then s + 1 else s) = Z.quot (s * 1000000000 + n) 1000000000.
Proof. intros Hn. destruct ((s <? 0) && (0 <? n)) eqn:E; Z.to_euclidean_division_equations; lia. Qed.
Lemma bounded v L : 0 <= L -> - (L * 1000000) <= v <= L * 1000000 -> - L <= Z.quot v 1000000000 <= L.
Proof. intros H B. Z.to_euclidean_division_equations; lia. Qed.
Lemma written_integer x : Z.abs x <= u64_max -> integer_text x (signed_dec x).
Proof.
  intros B. unfold integer_text, signed_dec. destruct (x <? 0) eqn:E; [right|left].
  - split; [lia|]. exists (dec (- x)). split; [apply dec_decimal; lia|reflexivity].
  - split; [lia|]. apply dec_decimal. lia.
Qed.
Lemma in_range_is c : c_inrange c = (c_value C_MIN <=? c_value c) && (c_value c <=? c_value C_MAX).
Proof. unfold c_inrange. reflexivity. Qed.
Lemma in_limits c : c_inrange c = true -> - chrono_limit <= c_value c <= chrono_limit.
Proof.
  rewrite in_range_is. destruct chrono_limits as [L1 L2]. rewrite L1, L2. clear. generalize chrono_limit (c_value c). intros k v H. apply andb_prop in H.
  destruct H as [H1 H2]. apply Z.leb_le in H1, H2. split; assumption.
Qed.
Lemma seconds_of c : chrono_ok c -> integer_text (Z.quot (c_value c) 1000000000) (signed_dec (c_num_seconds c)) /\ c_num_seconds c = Z.quot (c_value c) 1000000000.
Proof.
  intros [Hn Hr]. assert (V : c_num_seconds c = Z.quot (c_value c) 1000000000) by (unfold c_num_seconds, c_value; apply truncated; unfold inb in Hn; lia).
  split; [|exact V]. rewrite <- V. apply written_integer. rewrite V. clear V Hn. pose proof (in_limits c Hr) as B. clear Hr.
  assert (L : 2 ^ 63 - 1 <= u64_max) by (vm_compute; congruence). assert (P : 0 <= 2 ^ 63 - 1) by (vm_compute; congruence).
  unfold chrono_limit in B. revert L P B. generalize u64_max (2 ^ 63 - 1) (c_value c). intros m k v L P B. pose proof (bounded v k P B). lia.
Qed.
Lemma label_line n s v : utf8 s = true -> char_count s = n -> chrono_line s v (pad 42 n s ++ %": " ++ v).
Proof. intros U <-. exists (pad 42 (char_count s) s). split; [exact (PropExampleCustom.aligned_text s 42 U)|reflexivity]. Qed.
Theorem C96_chrono : forall now input, clock_ok now -> utf8 input = true ->
  (forall d, gnu_global_parse now input = Ok d -> exists out, chrono_main now input = Ok (Lines out) /\ chrono_answer input (nanos d) out) /\
  (forall e, gnu_global_parse now input = Err e -> chrono_main now input = Ok (Complaint (%"Failed to parse relative time '" ++ input ++ %"': " ++ display_parse_error e))).
Proof.
  intros now input Hn Hs. split.
  - intros d E. assert (Hd : duration_ok d).
    { destruct (C44_parse_never_crashes now input Hn Hs) as [(d' & E' & Hd)|(e & E')]; rewrite E in E'; [injection E' as <-; exact Hd|discriminate E']. }
    unfold chrono_main. rewrite E. destruct (C09_saturating_into_chrono d Hd) as (c & -> & Hc & Vc). destruct (C09_try_into_chrono d Hd) as (T1 & T2 & T3).
    destruct chrono_limits as [L1 L2]. rewrite L1, L2 in *. cbn [bind]. destruct (seconds_of c Hc) as [S1 _]. rewrite Vc in S1.
    assert (P : 0 <= chrono_limit) by (vm_compute; congruence).
    assert (K : forall r u, try_into_chrono d = Ok r -> u = match r with inl c => signed_dec (c_num_seconds c) | inr e => display_try_from_error e end ->
      (- chrono_limit <= nanos d <= chrono_limit -> u = signed_dec (c_num_seconds c)) /\
      (nanos d < - chrono_limit -> u = %"Error converting duration: value overflows the negative value range") /\
      (chrono_limit < nanos d -> u = %"Error converting duration: value overflows the positive value range")).
    { intros r u R ->. split; [|split]; intros B.
      - destruct (T1 B) as (c' & R' & Hc' & Vc'). rewrite R in R'. injection R' as ->. f_equal. rewrite (proj2 (seconds_of c' Hc')), (proj2 (seconds_of c Hc)), Vc, Vc'. f_equal. unfold clamp. lia.
      - rewrite (T2 B) in R. injection R as <-. reflexivity.
      - rewrite (T3 B) in R. injection R as <-. reflexivity. }
    assert (R : exists r, try_into_chrono d = Ok r).
    { assert (D : - chrono_limit <= nanos d <= chrono_limit \/ nanos d < - chrono_limit \/ chrono_limit < nanos d) by lia.
      destruct D as [D|[D|D]]; [destruct (T1 D) as (c' & R & _); now exists (inl c')|exists (inr NegativeOverflow); exact (T2 D)|exists (inr PositiveOverflow); exact (T3 D)]. }
    destruct R as (r & R). rewrite R. cbn [bind]. eexists. split; [reflexivity|]. do 5 eexists. split; [reflexivity|].
    split; [now apply label_line|]. split; [now apply label_line|]. split; [exact S1|]. split; [now apply label_line|]. exact (K r _ R eq_refl).
  - intros e E. unfold chrono_main. now rewrite E.
Qed.
Print Assumptions C96_chrono.
Theorem C96_never_panics : forall now input, clock_ok now -> utf8 input = true -> exists p, chrono_main now input = Ok p.
Proof.
  intros now input Hn Hs. destruct (C96_chrono now input Hn Hs) as [A B]. destruct (C44_parse_never_crashes now input Hn Hs) as [(d & E & _)|(e & E)].
  - destruct (A d E) as (out & F & _). now exists (Lines out).
  - rewrite (B e E). eauto.
Qed.
Print Assumptions C96_never_panics.
Example C96_example : clock_ok (inl (Std 0 0)) /\
  chrono_main (inl (Std 0 0)) (%"1 month -3 days ago") = Ok (Lines [%"                                  Original: 1 month -3 days ago";
    %"Seconds (saturating_into chrono::Duration): 2937600"; %"       Seconds (try_into chrono::Duration): 2937600"]) /\
  chrono_main (inl (Std 0 0)) (%"-9223372036854776 sec") = Ok (Lines [%"                                  Original: -9223372036854776 sec";
    %"Seconds (saturating_into chrono::Duration): -9223372036854775";
    %"       Seconds (try_into chrono::Duration): Error converting duration: value overflows the negative value range"]).
Proof.
  split; [vm_compute; split; reflexivity|]. split; vm_compute; reflexivity.
Qed.

(** ** C97: the program convert *)
Lemma time_limits : time_nanos TIME_MIN = time_low /\ time_nanos TIME_MAX = time_high.
Proof. split; vm_compute; reflexivity. Qed.
Lemma convert_cases s : utf8 s = true -> (exists d, dp_parse convert_parser s = Ok d /\ duration_ok d) \/ exists e, dp_parse convert_parser s = Err e.
Proof.
  intros H. refine (C32_parse_never_crashes (fold_left dpb_call [B_all_time_units; B_allow_negative] dpb_new) [] s _ H).
  split; [exact ExEnv.ws_ascii|]. split; [exact ExEnv.ws_ascii|]. discriminate.
Qed.
Theorem C97_convert : forall dc dt input, utf8 input = true -> exists text, trims input text /\
  (forall d, dp_parse convert_parser text = Ok d -> duration_ok d /\ exists t s1 s2 c1 c2 t1 t2,
     convert_main dc dt input = Ok (Lines [%"Input was: '" ++ input ++ %"'"; %"fundu::Duration: " ++ t; %"fundu::Duration as human readable string: " ++ display d; [];
                                           s1; s2; []; c1; c2; []; t1; t2]) /\
     fundu_debug_text (is_negative d) (Z.abs (nanos d)) t /\
     conversion (%"std::time::Duration") 0 max_nanos NegativeDuration debug_text (nanos d) s1 s2 /\
     conversion (%"chrono::Duration") (- chrono_limit) chrono_limit NegativeOverflow (fun v t => exists c, chrono_ok c /\ c_value c = v /\ t = dc c) (nanos d) c1 c2 /\
     conversion (%"time::Duration") time_low time_high NegativeOverflow (fun v t => exists c, time_ok c /\ time_nanos c = v /\ t = dt c) (nanos d) t1 t2) /\
  (forall e, dp_parse convert_parser text = Err e -> convert_main dc dt input = Ok (Lines [%"Error parsing duration '" ++ input ++ %"': " ++ display_parse_error e])) /\
  ((exists d, dp_parse convert_parser text = Ok d) \/ exists e, dp_parse convert_parser text = Err e).
Proof.
  intros dc dt input U. exists (str_trim input). pose proof (trims_str_trim input) as T. pose proof (trims_utf8 _ _ U T) as Ut. split; [exact T|].
  pose proof (convert_cases _ Ut) as C. split; [|split].
  - intros d E. assert (Hd : duration_ok d) by (destruct C as [(d' & E' & Hd)|(e & E')]; rewrite E in E'; [injection E' as <-; exact Hd|discriminate E']). split; [exact Hd|].
    pose proof (std_nanos_nonneg _ Hd) as NN. assert (AB : Z.abs (nanos d) = std_nanos (inner d)).
    { unfold nanos. change (secs (inner d) * 1000000000 + subsec (inner d)) with (std_nanos (inner d)). destruct (neg d); lia. }
    assert (MX : nanos d <= max_nanos) by lia.
    destruct (C08_try_into_std d Hd) as (S1 & S2). destruct (C08_saturating_into_std d Hd) as (s & Es & Hs & Vs).
    destruct (C09_try_into_chrono d Hd) as (K1 & K2 & K3). destruct (C09_saturating_into_chrono d Hd) as (c & Ec & Hc & Vc).
    destruct (C09_try_into_time d Hd) as (M1 & M2 & M3). destruct (C09_saturating_into_time d Hd) as (m & Em & Hm & Vm).
    destruct chrono_limits as [L1 L2]. rewrite L1, L2 in K1, Vc. rewrite L1 in K2. rewrite L2 in K3. destruct time_limits as [L3 L4]. rewrite L3, L4 in M1, Vm. rewrite L3 in M2. rewrite L4 in M3.
    assert (RC : exists r, try_into_chrono d = Ok r).
    { assert (D : - chrono_limit <= nanos d <= chrono_limit \/ nanos d < - chrono_limit \/ chrono_limit < nanos d) by (generalize chrono_limit; intros; lia).
      destruct D as [D|[D|D]]; [destruct (K1 D) as (c' & R & _); now exists (inl c')|exists (inr NegativeOverflow); exact (K2 D)|exists (inr PositiveOverflow); exact (K3 D)]. }
    assert (RT : exists r, try_into_time d = Ok r).
    { assert (D : time_low <= nanos d <= time_high \/ nanos d < time_low \/ time_high < nanos d) by (generalize time_low time_high; intros; lia).
      destruct D as [D|[D|D]]; [destruct (M1 D) as (c' & R & _); now exists (inl c')|exists (inr NegativeOverflow); exact (M2 D)|exists (inr PositiveOverflow); exact (M3 D)]. }
    destruct RC as (rc & RC). destruct RT as (rt & RT). unfold convert_main. rewrite E, Es, RC, Ec, RT, Em. cbn [bind].
    do 7 eexists. split; [reflexivity|]. split; [rewrite AB; exact (C94_debug d Hd)|]. split; [|split].
    + split; [|split; [|split]].
      * intros [B _]. destruct (S1 B) as (x & -> & Hx & Vx). exists (std_debug x). split; [rewrite <- Vx; exact (C94_std_debug x Hx)|reflexivity].
      * intros B. rewrite (S2 B). reflexivity.
      * intros B. exfalso. revert MX B. generalize (nanos d) max_nanos. intros; lia.
      * exists (std_debug s). split; [|reflexivity]. replace (clamp 0 max_nanos (nanos d)) with (std_nanos s); [exact (C94_std_debug s Hs)|]. rewrite Vs. unfold clamp. revert MX. generalize (nanos d) max_nanos. intros; lia.
    + split; [|split; [|split]].
      * intros B. destruct (K1 B) as (x & R & Hx & Vx). rewrite RC in R. injection R as ->. exists (dc x). split; [exists x; auto|reflexivity].
      * intros B. rewrite (K2 B) in RC. injection RC as <-. reflexivity.
      * intros B. rewrite (K3 B) in RC. injection RC as <-. reflexivity.
      * exists (dc c). split; [exists c; auto|reflexivity].
    + split; [|split; [|split]].
      * intros B. destruct (M1 B) as (x & R & Hx & Vx). rewrite RT in R. injection R as ->. exists (dt x). split; [exists x; auto|reflexivity].
      * intros B. rewrite (M2 B) in RT. injection RT as <-. reflexivity.
      * intros B. rewrite (M3 B) in RT. injection RT as <-. reflexivity.
      * exists (dt m). split; [exists m; auto|reflexivity].
  - intros e E. unfold convert_main. now rewrite E.
  - destruct C as [(d & E & _)|C]; [left; now exists d|right; exact C].
Qed.
Print Assumptions C97_convert.
Example C97_example : convert_main (fun _ => %"C") (fun _ => %"T") (%" -1.5m ") =
  Ok (Lines [%"Input was: ' -1.5m '"; %"fundu::Duration: Duration { is_negative: true, inner: 90s }"; %"fundu::Duration as human readable string: -1m -30s"; [];
             %"Error converting to std::time::Duration: The original error message was: 'Error converting duration: value is negative'";
             %"Saturating conversion with SaturatingInto::<std::time::Duration>: 0ns"; [];
             %"Conversion to chrono::Duration: C"; %"Saturating conversion with SaturatingInto::<chrono::Duration>: C"; [];
             %"Conversion to time::Duration: T"; %"Saturating conversion with SaturatingInto::<time::Duration>: T"]).
Proof. vm_compute. reflexivity. Qed.
