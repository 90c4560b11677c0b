(** * Properties C40, C44: the gnu parser *)
From Verif Require Import Prelude Util Time Config Bytes Repr Parse Systemd DateTime Gnu SpecTime SpecNum SpecGrammar SpecSystemd SpecGnu
  SpecDate Utf8Proofs TimeProofs SafeProofs RefProofs SystemdProofs DateProofs DateTimeProofs GnuWords GnuRef GnuEval GnuGrammar.

(** ** C40 *)
(** the unit [u] with the multiplier [m] is the documented one *)
Definition counts (u : time_unit) (m : multiplier) (g : gnu_unit) : Prop :=
  match g with
  | Seconds k => u <> Month /\ u <> Year /\ expo (unit_multiplier u) = 0 /\ expo m = 0 /\ coef (unit_multiplier u) * coef m = k
  | AMonth => u = Month /\ m = Mul 1 0
  | AYear => u = Year /\ m = Mul 1 0
  end.

Lemma counts_worth l u m : gnu_unit_get l = Some (u, m) -> counts u m (worth (u, m)).
Proof.
  intros E. destruct (unit_values l u m E) as (H1 & _ & H3 & _ & H5 & _).
  unfold worth, counts. cbn [fst snd]. destruct u; try (split; [reflexivity|now auto]); (split; [discriminate|]); (split; [discriminate|]); auto.
Qed.

(** a string of bytes is a time unit iff it is one of the documented words, in any case, and it counts as documented *)
Theorem C40_units : forall l, (forall x, In x l -> 0 <= x <= 255) ->
  (forall u m, u_get gnu_TIME_UNITS l = Some (u, m) -> exists g, word_for gnu_units l g /\ counts u m g) /\
  (forall g, word_for gnu_units l g -> exists u m, u_get gnu_TIME_UNITS l = Some (u, m) /\ counts u m g).
Proof.
  intros l Hb. cbn [u_get gnu_TIME_UNITS]. split.
  - intros u m E. exists (worth (u, m)). split; [now apply unit_words|exact (counts_worth _ _ _ E)].
  - intros g H. destruct (unit_words_complete l g Hb H) as ([u m] & E & <-). exists u, m. split; [exact E|exact (counts_worth _ _ _ E)].
Qed.
Print Assumptions C40_units.
(** words of up to ten letters in any case; a byte which differs from a letter by the case bit only is not a letter *)
Example C40_units_example : u_get gnu_TIME_UNITS (%"ForTNighTS") = Some (Week, Mul 2 0) /\ word_for gnu_units (%"ForTNighTS") (Seconds 1209600) /\
  u_get gnu_TIME_UNITS (%"mont") = None /\ u_get gnu_TIME_UNITS [90; 69; 65; 82] = None /\ u_get gnu_TIME_UNITS [68; 65; 153] = None.
Proof.
  split; [reflexivity|]. split; [|repeat split]. exists [%"fortnight"; %"fortnights"], (%"fortnights").
  split; [now do 5 right; left|]. split; [now right; left|reflexivity].
Qed.

Theorem C40_units_rejected : forall l, (forall x, In x l -> 0 <= x <= 255) ->
  (u_get gnu_TIME_UNITS l = None <-> forall g, ~ word_for gnu_units l g).
Proof.
  intros l Hb. destruct (C40_units l Hb) as [H1 H2]. split.
  - intros E g Hg. destruct (H2 g Hg) as (u & m & E' & _). congruence.
  - intros N. destruct (u_get gnu_TIME_UNITS l) as [[u m]|]; [|reflexivity]. destruct (H1 u m eq_refl) as (g & Hg & _). destruct (N g Hg).
Qed.
Print Assumptions C40_units_rejected.

(** the keywords are multiples of one day *)
Theorem C40_keywords : forall l, (forall x, In x l -> 0 <= x <= 255) -> forall u m,
  u_get gnu_TIME_KEYWORDS l = Some (u, m) <-> exists k, word_for gnu_keywords l k /\ u = Day /\ m = Mul k 0.
Proof.
  intros l Hb u m. cbn [u_get gnu_TIME_KEYWORDS]. split.
  - intros E. destruct (keyword_words l _ Hb E) as (H1 & H2 & H3). cbn [fst snd] in *. destruct m as [c e]. cbn [coef expo] in *. exists c. subst. auto.
  - intros (k & H & -> & ->). now apply keyword_words_complete.
Qed.
Print Assumptions C40_keywords.
Example C40_keywords_example : u_get gnu_TIME_KEYWORDS (%"YESTERDAY") = Some (Day, Mul (-1) 0) /\ word_for gnu_keywords (%"YESTERDAY") (-1).
Proof. split; [reflexivity|]. exists [%"yesterday"], (%"yesterday"). split; [now right; right; left|]. split; [now left|reflexivity]. Qed.

Theorem C40_numerals : forall l, (forall x, In x l -> 0 <= x <= 255) -> forall m,
  gnu_NUMERALS l = Some m <-> exists k, word_for gnu_numerals l k /\ m = Mul k 0.
Proof.
  intros l Hb m. unfold gnu_NUMERALS. split.
  - intros E. destruct (numeral_words l _ Hb E) as (H1 & H2). destruct m as [c e]. cbn [coef expo] in *. exists c. subst. auto.
  - intros (k & H & ->). now apply numeral_words_complete.
Qed.
Print Assumptions C40_numerals.
Example C40_numerals_example : gnu_NUMERALS (%"Eleventh") = Some (Mul 11 0) /\ gnu_NUMERALS (%"second") = None.
Proof. split; reflexivity. Qed.

(** the documentation gives every word one meaning *)
Theorem C40_words_are_unambiguous : forall l, (forall x, In x l -> 0 <= x <= 255) ->
  (forall a b, word_for gnu_units l a -> word_for gnu_units l b -> a = b) /\
  (forall a b, word_for gnu_keywords l a -> word_for gnu_keywords l b -> a = b) /\
  (forall a b, word_for gnu_numerals l a -> word_for gnu_numerals l b -> a = b) /\
  (forall a b, word_for gnu_units l a -> ~ word_for gnu_keywords l b) /\
  (forall a b, word_for gnu_units l a -> ~ word_for gnu_numerals l b) /\
  (forall a b, word_for gnu_keywords l a -> ~ word_for gnu_numerals l b).
Proof.
  intros l Hb.
  assert (D : forall A B (T : list (A * list str)) (T' : list (B * list str)) a b,
    forallb (fun e => forallb (fun v => forallb (fun e' => forallb (fun v' => negb (str_eq_nocase v v')) (snd e')) T') (snd e)) T = true ->
    word_for T l a -> word_for T' l b -> False).
  { intros A B T T' a b F (ws & v & I & J & E) (ws' & v' & I' & J' & E').
    rewrite forallb_forall in F. specialize (F _ I). cbn [snd] in F. rewrite forallb_forall in F. specialize (F _ J).
    rewrite forallb_forall in F. specialize (F _ I'). cbn [snd] in F. rewrite forallb_forall in F. specialize (F _ J').
    rewrite <- (nocase_same l v v' E), E' in F. discriminate F. }
  repeat split.
  - intros a b Ha H2. destruct (unit_words_complete l a Hb Ha) as (um & E & <-). destruct (unit_words_complete l b Hb H2) as (um' & E' & <-). congruence.
  - intros a b Ha H2. pose proof (keyword_words_complete l a Hb Ha). pose proof (keyword_words_complete l b Hb H2). congruence.
  - intros a b Ha H2. pose proof (numeral_words_complete l a Hb Ha). pose proof (numeral_words_complete l b Hb H2). congruence.
  - intros a b H1 H2. refine (D _ _ gnu_units gnu_keywords a b _ H1 H2). vm_compute. reflexivity.
  - intros a b H1 H2. refine (D _ _ gnu_units gnu_numerals a b _ H1 H2). vm_compute. reflexivity.
  - intros a b H1 H2. refine (D _ _ gnu_keywords gnu_numerals a b _ H1 H2). vm_compute. reflexivity.
Qed.
Print Assumptions C40_words_are_unambiguous.

(** ** C44: parse_fuzzy *)
Lemma fuzzy_unfold s : utf8 s = true ->
  gnu_parse_fuzzy gnu_new s = let t := trim_end (trim_start s) in gnu_fuzzy_loop (S (length t)) gnu_new 0 0 ZERO (bytes_new t).
Proof. intros Hs. unfold gnu_parse_fuzzy, gnu_trim_whitespace, str_unchecked. now rewrite trim_utf8. Qed.

Lemma fuzzy_cases s : utf8 s = true -> let t := trim_end (trim_start s) in
  (exists as_ d, relative_time t as_ /\ gnu_parse_fuzzy gnu_new s = Ok (sum_years as_, sum_months as_, d) /\ duration_ok d /\ nanos d = sum_nanos as_) \/
  ((forall as_, ~ relative_time t as_) /\ exists e, gnu_parse_fuzzy gnu_new s = Err e).
Proof.
  intros Hs t. pose proof (trim_utf8 s Hs) as Ht. fold t in Ht. pose proof (sim_fuzzy t Ht) as HS.
  pose proof (fun as_ => g_items_iff (S (length t)) t as_ Ht ltac:(lia)) as G. rewrite fuzzy_unfold by exact Hs. cbv zeta. fold t.
  destruct (gnu_fuzzy_loop _ _ _ _ _ _) as [[[y m] d]|e|c], (g_items (S (length t)) t) as [as_|]; cbn [sim] in HS; try contradiction.
  - left. exists as_, d. destruct HS as (H1 & -> & -> & H4). split; [now apply G|auto].
  - right. split; [|eauto]. intros as_ H%G. discriminate H.
Qed.

Lemma trim_self t : utf8 t = true -> trimmed t -> trim_end (trim_start t) = t.
Proof.
  intros Hs Ht. pose proof (trim_unique [] t []) as U. rewrite app_nil_r in U. apply U; auto; try (intros x []). exact (utf8_bytes t Hs).
Qed.

(** what is accepted is a relative time, possibly surrounded by white space, and the result is the sum of its components *)
Theorem C44_fuzzy_sound : forall s years months d, utf8 s = true -> gnu_parse_fuzzy gnu_new s = Ok (years, months, d) ->
  exists ws1 t ws2 as_, s = ws1 ++ t ++ ws2 /\ white_space ws1 /\ white_space ws2 /\ trimmed t /\ relative_time t as_ /\
    years = sum_years as_ /\ months = sum_months as_ /\ duration_ok d /\ nanos d = sum_nanos as_.
Proof.
  intros s years months d Hs E. destruct (trim_split s (utf8_bytes s Hs)) as (ws1 & ws2 & Es & H1 & H2 & H3).
  destruct (fuzzy_cases s Hs) as [(as_ & d' & HR & E' & HD & HN)|(_ & e & E')]; [|congruence].
  rewrite E in E'. injection E' as -> -> <-. exists ws1, (trim_end (trim_start s)), ws2, as_. auto 10.
Qed.
Print Assumptions C44_fuzzy_sound.
Example C44_fuzzy_example :
  gnu_parse_fuzzy gnu_new (%" 1 month 2years - 3 Days ago next week+1.5") = Ok (2, 1, Dur false (Std 864001 500000000)) /\
  gnu_parse_fuzzy gnu_new (%"last year 12 months") = Ok (-1, 12, ZERO) /\
  gnu_parse_fuzzy gnu_new (%"1.5 days") = Err fraction_error.
Proof. repeat split. Qed.

Theorem C44_fuzzy_complete : forall ws1 t ws2 as_, utf8 t = true -> white_space ws1 -> white_space ws2 -> trimmed t -> relative_time t as_ ->
  exists d, gnu_parse_fuzzy gnu_new (ws1 ++ t ++ ws2) = Ok (sum_years as_, sum_months as_, d) /\ duration_ok d /\ nanos d = sum_nanos as_.
Proof.
  intros ws1 t ws2 as_ U W1 W2 T R.
  assert (Hs : utf8 (ws1 ++ t ++ ws2) = true) by (rewrite white_utf8, utf8_white_end by assumption; exact U).
  pose proof (fuzzy_cases _ Hs) as FC. cbv zeta in FC. rewrite trim_unique in FC; [|assumption|assumption|exact (utf8_bytes t U)|assumption].
  destruct FC as [(as' & d & HR & E & HD & HN)|(N & _)]; [|destruct (N _ R)].
  assert (as' = as_) as ->.
  { pose proof (fun a => g_items_iff (S (length t)) t a U ltac:(lia)) as G. apply G in R. apply G in HR. congruence. }
  eauto.
Qed.
Print Assumptions C44_fuzzy_complete.
(** the last month, a day ago: built from the rules *)
Example C44_relative_time_example : relative_time (%"last month-1DAY ago") [Months (-1); Nanos (86400 * 10 ^ 9)].
Proof.
  assert (W : white_space (%" ")) by (intros x [<-|[]]; now left).
  assert (NW : ~ white 45) by (unfold white; lia).
  assert (NA : forall l r, no_white_ahead l -> ~ ago_follows l r).
  { intros l r N (ds & a & -> & H1 & H2 & _). destruct ds as [|x ds]; [congruence|]. apply (N x (ds ++ a ++ r) eq_refl). apply H2. now left. }
  refine (rt_more (%"last month-1DAY ago") _ [] (%"-1DAY ago") _ _ _ _ (rt_last _ _ _)).
  - refine (gi_numeral [] false (%"last") (-1) (%" ") (%"month-1DAY ago") AMonth false (%"-1DAY ago") gs_none _ W _ _); [|discriminate|].
    + exists [%"last"], (%"last"). split; [now left|]. split; [now left|reflexivity].
    + apply (up_plain (%"month") AMonth (%"-1DAY ago")).
      * exists [%"month"; %"months"], (%"month"). split; [now do 6 right; left|]. split; [now left|reflexivity].
      * intros x r [= <- _]. right. right. now right.
      * intros r'. apply NA. intros x r [= <- _]. exact NW.
  - intros x [].
  - intros x r [= <- _]. exact NW.
  - refine (gi_number_unit (%"-") true (%"1") (%"1") [] [] (%"DAY ago") (Seconds 86400) true [] _ (gs_minus [] _) (gn_whole _ _ _ _ _) _ _ (na_whole _ _ _));
      try (now intros x []).
    + intros x [<-|[]]. split; vm_compute; discriminate.
    + discriminate.
    + intros x r [= <- _]. change (~ 48 <= 68 <= 57 /\ 68 <> 46 /\ 68 <> 101 /\ 68 <> 69). lia.
    + apply (up_ago (%"DAY") (Seconds 86400) (%" ago") []).
      * exists [%"day"; %"days"], (%"day"). split; [now do 3 right; left|]. split; [now left|reflexivity].
      * exists (%" "), (%"ago"). split; [reflexivity|]. split; [discriminate|]. split; [exact W|]. split; [reflexivity|]. intros x r [=].
Qed.

(** a text reads in one way only *)
Theorem C44_one_reading : forall t as_ as', utf8 t = true -> relative_time t as_ -> relative_time t as' -> as_ = as'.
Proof.
  intros t as_ as' U R R'. pose proof (fun a => g_items_iff (S (length t)) t a U ltac:(lia)) as G. apply G in R, R'. congruence.
Qed.
Print Assumptions C44_one_reading.

(** everything else is an error, and parse_fuzzy never panics *)
Theorem C44_fuzzy_never_crashes : forall s, utf8 s = true ->
  (exists years months d, gnu_parse_fuzzy gnu_new s = Ok (years, months, d) /\ duration_ok d /\ fits_i64 years /\ fits_i64 months) \/
  (exists e, gnu_parse_fuzzy gnu_new s = Err e).
Proof.
  intros s Hs. destruct (fuzzy_cases s Hs) as [(as_ & d & _ & E & HD & _)|(_ & e & E)]; [left|eauto].
  exists (sum_years as_), (sum_months as_), d. split; [exact E|]. split; [exact HD|].
  assert (C : forall x, fits_i64 (clamp_i64 x)) by (intros x; unfold fits_i64, clamp_i64, clamp; lia).
  assert (F : forall (f : Z -> amount -> Z) l, (forall t a, fits_i64 t -> fits_i64 (f t a)) -> forall t, fits_i64 t -> fits_i64 (fold_left f l t)).
  { intros f l Hf. induction l as [|a l IH]; intros t Ht; cbn [fold_left]; auto. }
  split; apply F; try (unfold fits_i64; lia); intros t [| |]; auto.
Qed.
Print Assumptions C44_fuzzy_never_crashes.

Theorem C44_white_space : forall p ws1 s ws2 now date, white_space ws1 -> white_space ws2 ->
  gnu_parse_fuzzy p (ws1 ++ s ++ ws2) = gnu_parse_fuzzy p s /\
  gnu_parse_with_date p now (ws1 ++ s ++ ws2) date = gnu_parse_with_date p now s date /\
  gnu_parse p now (ws1 ++ s ++ ws2) = gnu_parse p now s.
Proof.
  intros p ws1 s ws2 now date H1 H2.
  assert (A : gnu_parse_fuzzy p (ws1 ++ s ++ ws2) = gnu_parse_fuzzy p s) by (unfold gnu_parse_fuzzy, gnu_trim_whitespace; now rewrite trim_around).
  split; [exact A|]. unfold gnu_parse, gnu_parse_with_date. now rewrite A.
Qed.
Print Assumptions C44_white_space.

Theorem C44_only_white_space_is_empty : forall ws now date, white_space ws ->
  gnu_parse_fuzzy gnu_new ws = Err Empty /\ gnu_parse_with_date gnu_new now ws date = Err Empty /\ gnu_parse gnu_new now ws = Err Empty.
Proof.
  intros ws now date H. destruct (C44_white_space gnu_new ws [] [] now date H) as (A & B & C); [intros x []|].
  rewrite !app_nil_r in A, B, C. rewrite A, B, C. split; [reflexivity|split; reflexivity].
Qed.
Print Assumptions C44_only_white_space_is_empty.

(** ** C44: parse_with_date *)
(** without years and months (or if they cancel out) the date does not matter; errors are those of parse_fuzzy *)
Theorem C44_date_is_irrelevant : forall p now s date,
  (forall d, gnu_parse_fuzzy p s = Ok (0, 0, d) -> gnu_parse_with_date p now s date = Ok d) /\
  (forall e, gnu_parse_fuzzy p s = Err e -> gnu_parse_with_date p now s date = Err e).
Proof. intros p now s date. unfold gnu_parse_with_date. split; intros x ->; reflexivity. Qed.
Print Assumptions C44_date_is_irrelevant.
Example C44_date_is_irrelevant_example : gnu_parse_with_date gnu_new (inl (Std 0 0)) (%"tomorrow 3 hours ago") None = Ok (Dur false (Std 75600 0)).
Proof. reflexivity. Qed.

(** without a date, the current time is used *)
Theorem C44_current_time : forall p now s x,
  now_utc_with_system_time now = Ok x ->
  gnu_parse_with_date p now s None = gnu_parse_with_date p now s (Some x) /\ gnu_parse p now s = gnu_parse_with_date p now s None.
Proof. intros p now s x E. unfold gnu_parse, gnu_parse_with_date. rewrite E. now split. Qed.
Print Assumptions C44_current_time.

(** the exact part is added to the date first. If the day reached is dd.m.y, then the years and months are counted from it by
    the calendar, keeping the day (which is counted on from the first of the month) and the time of day. The result is the time between
    the given date and the date reached, if it is representable, or else the error Overflow. (The day of C41_to_gregorian_total_refuted
    panics here too.) *)
Theorem C44_calendar : forall now s x years months d, date_time_ok x -> utf8 s = true ->
  gnu_parse_fuzzy gnu_new s = Ok (years, months, d) -> ~ (years = 0 /\ months = 0) ->
  let reached := instant x + nanos d in
  forall y m dd y' m' j,
  julian (y, m, dd) (reached / day_nanos) ->
  12 * y' + (m' - 1) = 12 * (y + years) + (m - 1) + months -> 1 <= m' <= 12 -> julian (y', m', 1) j ->
  let day := j + (dd - 1) in
  let result := day * day_nanos + reached mod day_nanos - instant x in
  let possible := -92231826450597304 <= reached / day_nanos <= 92231826454039543 /\ fits_i64 day /\ representable result in
  (possible -> exists D, gnu_parse_with_date gnu_new now s (Some x) = Ok D /\ duration_ok D /\ nanos D = result) /\
  (~ possible -> reached / day_nanos <> -92233720366826639 -> gnu_parse_with_date gnu_new now s (Some x) = Err Overflow) /\
  (reached / day_nanos = -92233720366826639 -> gnu_parse_with_date gnu_new now s (Some x) = Crash CrashArith).
Proof.
  intros now s x years months d Hx Hs E NZ reached y m dd y' m' j HJ HT Hm' Hj day result possible.
  destruct (C44_fuzzy_never_crashes s Hs) as [(Y & M & d' & E' & Hd & HY & HM)|(e & E')]; [|congruence].
  rewrite E in E'. injection E' as <- <- <-.
  assert (y' = (12 * (y + years) + (m - 1) + months) / 12 /\ m' = (12 * (y + years) + (m - 1) + months) mod 12 + 1) as [-> ->] by lia.
  assert (U : gnu_parse_with_date gnu_new now s (Some x) =
    let* o := checked_add_duration x d in
    match o with
    | None => Err Overflow
    | Some date =>
        let* o := checked_add_gregorian date years months 0 in
        match o with
        | None => Err Overflow
        | Some date =>
            let* o := duration_since date x in
            match o with Some d => Ok d | None => Err Overflow end
        end
    end).
  { unfold gnu_parse_with_date. rewrite E. cbn [bind].
    destruct ((years =? 0) && (months =? 0)) eqn:Z; [exfalso; apply NZ; lia|reflexivity]. }
  rewrite U. clear U. destruct (add_duration_spec x d Hx Hd) as [A1 A2]. fold reached in A1, A2.
  destruct (fits_i64_dec (reached / day_nanos)) as [F|F].
  2:{ rewrite (A2 F). cbn [bind]. unfold fits_i64 in F. split; [intros [P _]; lia|]. split; [reflexivity|]. intros P. rewrite P in F. lia. }
  destruct (A1 F) as (z & -> & Hz & Iz). cbn [bind].
  destruct (instant_day z Hz) as [Dz Tz]. rewrite Iz in Dz, Tz. fold reached in Iz.
  destruct (to_gregorian_cases (days z)) as [(R & g & G & Jg)|[(R & NB & G)|(R & G)]]; [now apply fits_iff; rewrite <- Dz| | |].
  - assert (g = (y, m, dd)) as ->.
    { destruct julian_bijection as [_ B]. destruct (B (days z)) as (g0 & _ & Ug). rewrite Dz in HJ.
      now rewrite <- (Ug _ Jg), <- (Ug _ HJ). }
    pose proof (add_gregorian_spec z y m dd years months 0 j Hz HY HM ltac:(unfold fits_i64; lia) G Hj) as K.
    rewrite K. clear K. cbn [bind]. fold day. unfold jd_min, jd_max in R.
    destruct (fits_i64_dec day) as [Fd|Fd].
    2:{ rewrite chk_not_fits by exact Fd. cbn [obind]. split; [intros (_ & P & _); contradiction|]. split; [reflexivity|lia]. }
    rewrite chk_fits by exact Fd. cbn [obind]. rewrite Z.add_0_r, chk_fits by exact Fd. cbn [obind].
    assert (Hw : date_time_ok (DT day (time z))).
    { apply date_time_ok_iff. cbn [days time]. split; [exact Fd|]. apply date_time_ok_iff in Hz. apply Hz. }
    destruct (duration_since_spec (DT day (time z)) x Hw Hx) as [S1 S2].
    replace (instant (DT day (time z)) - instant x) with result in S1, S2 by (unfold result, instant at 2; cbn [days time]; rewrite <- Tz; reflexivity).
    split; [|split].
    + intros (_ & _ & P). destruct (S1 P) as (D & -> & HD & ND). exists D. auto.
    + intros P _. rewrite S2; [reflexivity|]. intros P'. apply P. split; [rewrite Dz; exact R|]. auto.
    + lia.
  - assert (K : checked_add_gregorian z years months 0 = Ok None) by (unfold checked_add_gregorian; now rewrite G).
    rewrite K. unfold jd_min, jd_max, jd_crash in *. rewrite Dz. split; [intros [P _]; rewrite Dz in P; lia|]. split; [reflexivity|lia].
  - assert (K : checked_add_gregorian z years months 0 = Crash CrashArith) by (unfold checked_add_gregorian; now rewrite G).
    rewrite K. unfold jd_crash in R. rewrite Dz. split; [intros [P _]; rewrite Dz in P; lia|]. split; [congruence|reflexivity].
Qed.
Print Assumptions C44_calendar.
(** 31 January 2000 and a month: 31 days later (2 March); one day more: 31 January + 1 day = 1 February, a month later is 1 March *)
Example C44_calendar_example : to_gregorian_date (DT 2451575 7) = Ok (Some (2000, 1, 31)) /\
  gnu_parse_with_date gnu_new (inl (Std 0 0)) (%"1 month") (Some (DT 2451575 7)) = Ok (Dur false (Std (31 * 86400) 0)) /\
  gnu_parse_with_date gnu_new (inl (Std 0 0)) (%"1 day 1 month") (Some (DT 2451575 7)) = Ok (Dur false (Std (30 * 86400) 0)) /\
  gnu_parse_with_date gnu_new (inl (Std 0 0)) (%"last year") (Some (DT 2451575 7)) = Ok (Dur true (Std (365 * 86400) 0)) /\
  gnu_parse_with_date gnu_new (inl (Std 0 0)) (%"999999999999 years") (Some (DT 2451575 7)) = Err Overflow.
Proof. repeat split. Qed.

(** together: the relative time [t], seen from [x] *)
Theorem C44_with_date : forall now ws1 t ws2 as_ x, date_time_ok x -> utf8 t = true -> white_space ws1 -> white_space ws2 -> trimmed t ->
  relative_time t as_ -> sum_years as_ = 0 -> sum_months as_ = 0 ->
  exists D, gnu_parse_with_date gnu_new now (ws1 ++ t ++ ws2) (Some x) = Ok D /\ gnu_parse gnu_new now (ws1 ++ t ++ ws2) = Ok D /\
    duration_ok D /\ nanos D = sum_nanos as_.
Proof.
  intros now ws1 t ws2 as_ x Hx U W1 W2 T R Ey Em.
  destruct (C44_fuzzy_complete ws1 t ws2 as_ U W1 W2 T R) as (d & E & Hd & Nd). rewrite Ey, Em in E.
  exists d. split; [now apply C44_date_is_irrelevant|]. split; [now apply C44_date_is_irrelevant|]. auto.
Qed.
Print Assumptions C44_with_date.

(** the calendar, seen from the text *)
Theorem C44_with_date_calendar : forall now ws1 t ws2 as_ x, date_time_ok x -> utf8 t = true -> white_space ws1 -> white_space ws2 -> trimmed t ->
  relative_time t as_ -> ~ (sum_years as_ = 0 /\ sum_months as_ = 0) ->
  let reached := instant x + sum_nanos as_ in
  forall y m dd y' m' j,
  julian (y, m, dd) (reached / day_nanos) ->
  12 * y' + (m' - 1) = 12 * (y + sum_years as_) + (m - 1) + sum_months as_ -> 1 <= m' <= 12 -> julian (y', m', 1) j ->
  let day := j + (dd - 1) in
  let result := day * day_nanos + reached mod day_nanos - instant x in
  let possible := -92231826450597304 <= reached / day_nanos <= 92231826454039543 /\ fits_i64 day /\ representable result in
  let parsed := gnu_parse_with_date gnu_new now (ws1 ++ t ++ ws2) (Some x) in
  (possible -> exists D, parsed = Ok D /\ duration_ok D /\ nanos D = result) /\
  (~ possible -> reached / day_nanos <> -92233720366826639 -> parsed = Err Overflow) /\
  (reached / day_nanos = -92233720366826639 -> parsed = Crash CrashArith).
Proof.
  intros now ws1 t ws2 as_ x Hx U W1 W2 T R NZ. destruct (C44_fuzzy_complete ws1 t ws2 as_ U W1 W2 T R) as (d & E & Hd & Nd).
  assert (Hs : utf8 (ws1 ++ t ++ ws2) = true) by (rewrite white_utf8, utf8_white_end by assumption; exact U).
  pose proof (C44_calendar now _ x _ _ d Hx Hs E NZ) as K. rewrite Nd in K. exact K.
Qed.
Print Assumptions C44_with_date_calendar.
