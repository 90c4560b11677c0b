(** * Property C98: how long months and years are *)
From Verif Require Import Prelude Util Time SpecTime SpecDate SpecGnu TimeProofs DateProofs DateTime DateTimeProofs PropDate Gnu PropGnu.
Open Scope Z_scope.

(** ** the first days of the months, numbered through *)
Definition first_day (i : Z) : Z := Jd (i / 12, i mod 12 + 1, 1).
Lemma first_valid i : valid_date (i / 12, i mod 12 + 1, 1).
Proof. cbn. pose proof (Z.mod_pos_bound i 12). pose proof (month_length_range (i / 12) (i mod 12 + 1)). lia. Qed.
Lemma first_julian i : julian (i / 12, i mod 12 + 1, 1) (first_day i).
Proof. apply julian_iff. split; [apply first_valid|reflexivity]. Qed.
Lemma A_period y k : A (y + 400 * k) = A y + 146097 * k.
Proof. unfold A. Z.to_euclidean_division_equations; lia. Qed.
Lemma first_period i k : first_day (i + 4800 * k) = first_day i + 146097 * k.
Proof.
  unfold first_day. assert (E1 : (i + 4800 * k) / 12 = i / 12 + 400 * k) by (Z.to_euclidean_division_equations; lia).
  assert (E2 : (i + 4800 * k) mod 12 = i mod 12) by (Z.to_euclidean_division_equations; lia). rewrite E1, E2. unfold Jd, J, my.
  destruct (i mod 12 + 1 <? 3); [replace (i / 12 + 400 * k - 1) with (i / 12 - 1 + 400 * k) by lia|]; rewrite A_period; lia.
Qed.
Definition months_check (n : nat) : bool :=
  let i := Z.of_nat n in let dev := 4800 * (first_day i - JD_BASE) - 146097 * i in
  let len := first_day (i + 1) - first_day i in let year := first_day (i + 12) - first_day i in
  (-294486 <=? dev) && (dev <=? -273405) && (28 <=? len) && (len <=? 31) && (365 <=? year) && (year <=? 366).
Lemma months_checked : forallb months_check (seq 0 4800) = true.
Proof. vm_compute. reflexivity. Qed.
Lemma month_facts i : -294486 <= 4800 * (first_day i - JD_BASE) - 146097 * i <= -273405 /\ 28 <= first_day (i + 1) - first_day i <= 31 /\ 365 <= first_day (i + 12) - first_day i <= 366.
Proof.
  set (r := i mod 4800). set (q := i / 4800). assert (E : i = r + 4800 * q) by (unfold r, q; pose proof (Z.div_mod i 4800); lia). assert (B : 0 <= r < 4800) by (apply Z.mod_pos_bound; lia).
  clearbody r q. subst i. replace (r + 4800 * q + 1) with (r + 1 + 4800 * q) by lia. replace (r + 4800 * q + 12) with (r + 12 + 4800 * q) by lia. rewrite !first_period.
  pose proof months_checked as K. rewrite forallb_forall in K. specialize (K (Z.to_nat r)). unfold months_check in K. rewrite Z2Nat.id in K by lia.
  cbv zeta in K. specialize (K ltac:(apply in_seq; lia)). rewrite !andb_true_iff, !Z.leb_le in K. lia.
Qed.
Lemma many_months i n : 0 <= n -> 28 * n <= first_day (i + n) - first_day i <= 31 * n.
Proof.
  intros H. pattern n. apply natlike_ind; [rewrite Z.add_0_r; lia| |exact H]. intros k Hk IH. destruct (month_facts (i + k)) as (_ & M & _).
  replace (i + Z.succ k) with (i + k + 1) by lia. lia.
Qed.
Lemma many_years i n : 0 <= n -> 365 * n <= first_day (i + 12 * n) - first_day i <= 366 * n.
Proof.
  intros H. pattern n. apply natlike_ind; [rewrite Z.mul_0_r, Z.add_0_r; lia| |exact H]. intros k Hk IH. destruct (month_facts (i + 12 * k)) as (_ & _ & M).
  replace (i + 12 * Z.succ k) with (i + 12 * k + 12) by lia. lia.
Qed.
(** ** the result of fundu-gnu *)
(** the number of the month in which the instant lies *)
Definition in_month (t i : Z) : Prop := exists dd, julian (i / 12, i mod 12 + 1, dd) (t / day_nanos).
Lemma some_month t : exists i, in_month t i.
Proof.
  destruct julian_bijection as [_ B]. destruct (B (t / day_nanos)) as (((y & m) & dd) & J0 & _). exists (12 * y + (m - 1)), dd.
  pose proof J0 as J1. apply julian_iff in J1. destruct J1 as [[V _] _].
  replace ((12 * y + (m - 1)) / 12) with y by (Z.to_euclidean_division_equations; lia). replace ((12 * y + (m - 1)) mod 12 + 1) with m by (Z.to_euclidean_division_equations; lia). exact J0.
Qed.
Lemma result_days now s x years months d D i : date_time_ok x -> utf8 s = true -> gnu_parse_fuzzy gnu_new s = Ok (years, months, d) -> gnu_parse_with_date gnu_new now s (Some x) = Ok D ->
  in_month (instant x + nanos d) i -> nanos D = nanos d + (first_day (i + (12 * years + months)) - first_day i) * day_nanos.
Proof.
  intros Hx Hs E R (dd & J0). set (n := 12 * years + months).
  assert (C : (years = 0 /\ months = 0) \/ ~ (years = 0 /\ months = 0)) by lia. destruct C as [[-> ->]|NZ].
  { unfold gnu_parse_with_date in R. rewrite E in R. cbn [bind Z.eqb andb] in R. injection R as <-. subst n. rewrite Z.add_0_r. lia. }
  destruct (C44_calendar now s x years months d Hx Hs E NZ (i / 12) (i mod 12 + 1) dd ((i + n) / 12) ((i + n) mod 12 + 1) (first_day (i + n)) J0) as (K1 & K2 & K3).
  - subst n. Z.to_euclidean_division_equations; lia.
  - pose proof (Z.mod_pos_bound (i + n) 12). lia.
  - apply first_julian.
  - destruct (Z.eq_dec ((instant x + nanos d) / day_nanos) (-92233720366826639)) as [Ed|Ed]; [rewrite (K3 Ed) in R; discriminate R|].
    match type of K1 with ?P -> _ => assert (DP : P \/ ~ P) end.
    { match goal with |- (?A /\ fits_i64 ?n /\ ?R) \/ _ => assert (DA : A \/ ~ A) by lia; assert (DR : R \/ ~ R) by (unfold representable; lia); destruct (fits_i64_dec n) as [F|F] end; tauto. }
    destruct DP as [DP|DP]; [|rewrite (K2 DP Ed) in R; discriminate R].
    destruct (K1 DP) as (D' & R' & _ & N'). rewrite R in R'. injection R' as <-. rewrite N'. clear DP K1 K2 K3 R N'.
    apply julian_iff in J0. destruct J0 as [_ J0]. assert (E0 : (instant x + nanos d) / day_nanos = first_day i + dd - 1) by (rewrite <- J0; unfold first_day, Jd, J; lia).
    pose proof (Z.div_mod (instant x + nanos d) day_nanos ltac:(vm_compute; congruence)) as DM. rewrite E0 in DM. revert DM. generalize day_nanos ((instant x + nanos d) mod day_nanos). intros a b DM. lia.
Qed.

(** ** what is claimed of the days which stand for [n] months: near the average of 146097 days in 4800 months (the deviation is less than 4.4 days), months of 28 to 31 days,
    years of 365 or 366 days, and 400 years are always 146097 days *)
Definition months_in_days (n days : Z) : Prop :=
  Z.abs (4800 * days - 146097 * n) <= 21081 /\
  (0 <= n -> 28 * n <= days <= 31 * n) /\ (n <= 0 -> 31 * n <= days <= 28 * n) /\
  (forall k, n = 12 * k -> 0 <= k -> 365 * k <= days <= 366 * k) /\ (forall k, n = 12 * k -> k <= 0 -> 366 * k <= days <= 365 * k) /\
  (forall k, n = 4800 * k -> days = 146097 * k).
(** n months are n times the average length of a month (146097 days in 4800 months), with a deviation of less than 4.4 days, whatever the date and the text are *)
Theorem C98_how_long : forall now s x years months d D, date_time_ok x -> utf8 s = true ->
  gnu_parse_fuzzy gnu_new s = Ok (years, months, d) -> gnu_parse_with_date gnu_new now s (Some x) = Ok D ->
  let n := 12 * years + months in
  exists days, nanos D = nanos d + days * day_nanos /\ months_in_days n days.
Proof.
  intros now s x years months d D Hx Hs E R n. destruct (some_month (instant x + nanos d)) as (i & Hi).
  exists (first_day (i + n) - first_day i). split; [exact (result_days now s x years months d D i Hx Hs E R Hi)|]. clearbody n. clear. unfold months_in_days.
  destruct (month_facts i) as (M1 & _). destruct (month_facts (i + n)) as (M2 & _). split; [lia|].
  split; [apply many_months|]. split; [|split; [|split]].
  - intros H. pose proof (many_months (i + n) (- n) ltac:(lia)) as M. replace (i + n + - n) with i in M by lia. lia.
  - intros k -> H. now apply many_years.
  - intros k -> H. pose proof (many_years (i + 12 * k) (- k) ltac:(lia)) as M. replace (i + 12 * k + 12 * - k) with i in M by lia. lia.
  - intros k ->. rewrite first_period. lia.
Qed.
Print Assumptions C98_how_long.

(** the same for the current time of any clock *)
Theorem C98_from_now : forall now s years months d D, std_ok (match now with inl t | inr t => t end) -> utf8 s = true ->
  gnu_parse_fuzzy gnu_new s = Ok (years, months, d) -> gnu_parse gnu_new now s = Ok D ->
  exists days, nanos D = nanos d + days * day_nanos /\ months_in_days (12 * years + months) days.
Proof.
  intros now s years months d D Hn Hs E R. destruct (C42_now_utc_exact now Hn) as (x & _ & Ex & _ & Hx & _). destruct (C44_current_time gnu_new now s x Ex) as [C1 C2].
  rewrite C2, C1 in R. exact (C98_how_long now s x years months d D Hx Hs E R).
Qed.
Print Assumptions C98_from_now.
(** the date is only relevant modulo 400 years *)
Theorem C98_four_centuries : forall now now' s x x' k D D', date_time_ok x -> date_time_ok x' -> utf8 s = true -> instant x' = instant x + 146097 * k * day_nanos ->
  gnu_parse_with_date gnu_new now s (Some x) = Ok D -> gnu_parse_with_date gnu_new now' s (Some x') = Ok D' -> nanos D' = nanos D.
Proof.
  intros now now' s x x' k D D' Hx Hx' Hs I R R'. destruct (C44_fuzzy_never_crashes s Hs) as [(years & months & d & E & _)|(e & E)].
  2:{ unfold gnu_parse_with_date in R. rewrite E in R. discriminate R. }
  destruct (some_month (instant x + nanos d)) as (i & Hi). assert (Hi' : in_month (instant x' + nanos d) (i + 4800 * k)).
  { destruct Hi as (dd & J0). exists dd. rewrite I. replace (instant x + 146097 * k * day_nanos + nanos d) with (instant x + nanos d + 146097 * k * day_nanos) by lia.
    rewrite Z.div_add by (vm_compute; congruence). apply julian_iff in J0. destruct J0 as [[V1 V2] J0]. apply julian_iff.
    replace ((i + 4800 * k) / 12) with (i / 12 + 400 * k) by (Z.to_euclidean_division_equations; lia). replace ((i + 4800 * k) mod 12) with (i mod 12) by (Z.to_euclidean_division_equations; lia).
    split.
    - split; [exact V1|]. replace (month_length (i / 12 + 400 * k) (i mod 12 + 1)) with (month_length (i / 12) (i mod 12 + 1)); [exact V2|].
      unfold month_length. destruct (i mod 12 + 1) as [|[[?|?|]|[?|?|]|]|]; try reflexivity. unfold leap.
      replace ((i / 12 + 400 * k) mod 4) with (i / 12 mod 4) by (generalize (i / 12); intros; Z.to_euclidean_division_equations; lia).
      replace ((i / 12 + 400 * k) mod 100) with (i / 12 mod 100) by (generalize (i / 12); intros; Z.to_euclidean_division_equations; lia).
      replace ((i / 12 + 400 * k) mod 400) with (i / 12 mod 400) by (generalize (i / 12); intros; Z.to_euclidean_division_equations; lia). reflexivity.
    - rewrite <- J0. unfold Jd, J, my. destruct (i mod 12 + 1 <? 3); [replace (i / 12 + 400 * k - 1) with (i / 12 - 1 + 400 * k) by lia|]; rewrite A_period; lia. }
  rewrite (result_days now s x years months d D i Hx Hs E R Hi), (result_days now' s x' years months d D' _ Hx' Hs E R' Hi').
  replace (i + 4800 * k + (12 * years + months)) with (i + (12 * years + months) + 4800 * k) by lia. rewrite !first_period. lia.
Qed.
Print Assumptions C98_four_centuries.

(** more months are longer: at least 28 and at most 31 days each *)
Theorem C98_more_months : forall now now' s s' x y1 m1 d1 y2 m2 d2 D1 D2, date_time_ok x -> utf8 s = true -> utf8 s' = true ->
  gnu_parse_fuzzy gnu_new s = Ok (y1, m1, d1) -> gnu_parse_fuzzy gnu_new s' = Ok (y2, m2, d2) -> nanos d1 = nanos d2 ->
  gnu_parse_with_date gnu_new now s (Some x) = Ok D1 -> gnu_parse_with_date gnu_new now' s' (Some x) = Ok D2 ->
  let more := 12 * y2 + m2 - (12 * y1 + m1) in
  0 <= more -> 28 * more * day_nanos <= nanos D2 - nanos D1 <= 31 * more * day_nanos.
Proof.
  intros now now' s s' x y1 m1 d1 y2 m2 d2 D1 D2 Hx Hs Hs' E E' N R R' more H. destruct (some_month (instant x + nanos d1)) as (i & Hi).
  rewrite (result_days now s x y1 m1 d1 D1 i Hx Hs E R Hi). rewrite N in Hi. rewrite (result_days now' s' x y2 m2 d2 D2 i Hx Hs' E' R' Hi), N.
  pose proof (many_months (i + (12 * y1 + m1)) more H) as M. replace (i + (12 * y1 + m1) + more) with (i + (12 * y2 + m2)) in M by (unfold more; lia).
  unfold day_nanos. lia.
Qed.
Print Assumptions C98_more_months.
(** the bounds are reached: from 1 March 1903 to 1 February 2097; a month from 1 February and from 1 March; the same date 400 years later *)
Example C98_example : let at_ (x : date_time) (s : str) := gnu_parse_with_date gnu_new (inl (Std 0 0)) s (Some x) in
  to_gregorian_date (DT 2416175 0) = Ok (Some (1903, 3, 1)) /\
  at_ (DT 2416175 0) (%"2327 months") = Ok (Dur false (Std (70831 * 86400) 0)) /\ 4800 * 70831 - 146097 * 2327 = 21081 /\
  at_ (DT 2416175 0) (%"month") = Ok (Dur false (Std (31 * 86400) 0)) /\ at_ (DT 2416147 0) (%"month") = Ok (Dur false (Std (28 * 86400) 0)) /\
  at_ (DT (2416147 + 146097) 0) (%"month") = Ok (Dur false (Std (28 * 86400) 0)) /\
  at_ (DT 2416147 0) (%"-4800 months") = Ok (Dur true (Std (146097 * 86400) 0)) /\ at_ (DT 2416147 0) (%"4 years") = Ok (Dur false (Std (1461 * 86400) 0)).
Proof. repeat (split; [vm_compute; reflexivity|]). vm_compute. reflexivity. Qed.
