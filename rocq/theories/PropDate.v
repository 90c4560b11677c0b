(** * Properties C41-C43, C48-C50: dates, DateTime arithmetic *)
From Verif Require Import Prelude Time SpecTime TimeProofs DateTime SpecDate DateProofs DateTimeProofs.

(** ** C41 *)
(** the specification: Julian day numbers number the dates one by one *)
Theorem C41_julian_is_bijective :
  (forall x, valid_date x -> exists! n, julian x n) /\ (forall n, exists! x, julian x n).
Proof. exact julian_bijection. Qed.
Print Assumptions C41_julian_is_bijective.

Theorem C41_from_gregorian_exact_or_none : forall y m d n, fits_i64 y -> julian (y, m, d) n ->
  (fits_i64 n -> try_from_gregorian y m d = Ok (Some n) /\ from_gregorian y m d = Ok n) /\
  (~ fits_i64 n -> try_from_gregorian y m d = Ok None /\ from_gregorian y m d = Crash CrashUnwrap).
Proof.
  intros y m d n Hy Hj. unfold from_gregorian. rewrite (try_from_julian y m d n Hy Hj).
  split; intros H; [rewrite chk_fits by exact H|rewrite chk_not_fits by exact H]; split; reflexivity.
Qed.
Print Assumptions C41_from_gregorian_exact_or_none.
(** leap days; the first day after the calendar reform of 1582 (the calendar is proleptic) *)
Example C41_example : valid_date (2000, 2, 29) /\ ~ valid_date (1900, 2, 29) /\ try_from_gregorian 2000 2 29 = Ok (Some 2451604) /\
  try_from_gregorian 1582 10 15 = Ok (Some 2299161) /\ try_from_gregorian 1582 10 14 = Ok (Some 2299160) /\ to_gregorian 2299160 = Ok (Some (1582, 10, 14)) /\
  try_from_gregorian 9223372036854775807 1 1 = Ok None.
Proof. split; [vm_compute; repeat split; congruence|]. split; [vm_compute; intros (_ & _ & H); now apply H|]. repeat split. Qed.

(** a day past the end of the month (up to 31) is counted on into the next month *)
Theorem C41_day_rolls_over : forall y m d n, fits_i64 y -> julian (y, m, 1) n -> 1 <= d <= 31 ->
  (fits_i64 (n + (d - 1)) -> try_from_gregorian y m d = Ok (Some (n + (d - 1)))) /\
  (~ fits_i64 (n + (d - 1)) -> try_from_gregorian y m d = Ok None).
Proof.
  intros y m d n Hy Hj Hd. rewrite (try_from_rollover y m d n Hy Hj Hd).
  split; intros H; [now rewrite chk_fits|now rewrite chk_not_fits].
Qed.
Print Assumptions C41_day_rolls_over.
Example C41_rolls_over_example : try_from_gregorian 1900 2 31 = try_from_gregorian 1900 3 3.
Proof. reflexivity. Qed.

(** the documented panics *)
Theorem C41_invalid_month_or_day_panics : forall y m d, ~ (1 <= m <= 12 /\ 1 <= d <= 31) ->
  try_from_gregorian y m d = Crash CrashUnwrap /\ from_gregorian y m d = Crash CrashUnwrap.
Proof.
  intros y m d H. assert (E : try_from_gregorian y m d = Crash CrashUnwrap).
  { unfold try_from_gregorian, validate. destruct ((m <? 1) || (12 <? m)) eqn:E; [reflexivity|]. cbn [bind].
    destruct ((d <? 1) || (31 <? d)) eqn:E'; [reflexivity|]. exfalso. apply H. lia. }
  split; [exact E|]. unfold from_gregorian. now rewrite E.
Qed.
Print Assumptions C41_invalid_month_or_day_panics.

(** the converse conversion, for every i64: exactly the days of this range have a date, all others give None,
    except the one day of the refutation below *)
Theorem C41_to_gregorian : forall jd, fits_i64 jd ->
  (-92231826450597304 <= jd <= 92231826454039543 ->
     exists x, to_gregorian jd = Ok (Some x) /\ julian x jd) /\
  (~ (-92231826450597304 <= jd <= 92231826454039543) -> jd <> -92233720366826639 ->
     to_gregorian jd = Ok None).
Proof.
  intros jd Hi. rewrite fits_iff in Hi. split; intros H.
  - apply to_gregorian_julian. exact H.
  - intros Hc. apply to_gregorian_out; [exact Hi| |exact Hc]. unfold jd_min, jd_max. lia.
Qed.
Print Assumptions C41_to_gregorian.

(** "returns None if an overflow occurred" fails for one day: the subtraction overflows *)
Theorem C41_to_gregorian_total_refuted :
  ~ (forall jd, fits_i64 jd -> exists r, to_gregorian jd = Ok r) /\
  to_gregorian (-92233720366826639) = Crash CrashArith.
Proof.
  split; [|reflexivity]. intros H. destruct (H (-92233720366826639)) as [r E]; [unfold fits_i64; lia|].
  vm_compute in E. discriminate E.
Qed.
Print Assumptions C41_to_gregorian_total_refuted.

Theorem C41_round_trip_from_date : forall y m d n x, fits_i64 y -> valid_date (y, m, d) ->
  try_from_gregorian y m d = Ok (Some n) -> to_gregorian n = Ok (Some x) -> x = (y, m, d).
Proof.
  intros y m d n x Hy V E1 E2.
  rewrite (try_from_julian y m d (Jd (y, m, d))) in E1; [|exact Hy|now apply julian_iff].
  destruct (chk_spec is_i64 (Jd (y, m, d))) as [[Hi E]|[Hi E]]; rewrite E in E1; [|discriminate].
  injection E1 as <-.
  apply to_gregorian_Some in E2; [|exact Hi]. destruct E2 as [[V' E2]%julian_iff _].
  apply Jd_inj; assumption.
Qed.
Print Assumptions C41_round_trip_from_date.

Theorem C41_round_trip_from_day : forall jd y m d, fits_i64 jd ->
  to_gregorian jd = Ok (Some (y, m, d)) ->
  valid_date (y, m, d) /\ try_from_gregorian y m d = Ok (Some jd).
Proof.
  intros jd y m d Hi E. apply to_gregorian_Some in E; [|now apply fits_iff]. destruct E as [Hj _].
  split; [exact (julian_valid _ _ Hj)|].
  rewrite (try_from_julian y m d jd); [now rewrite chk_fits|exact (julian_year_fits _ _ _ _ Hj Hi)|exact Hj].
Qed.
Print Assumptions C41_round_trip_from_day.

(** the documented ranges of years: conversion to a day works up to +-25_200_470_046_046_596, and both ways up
    to +-583_344_214_028 *)
Theorem C41_documented_year_ranges : forall y m d, valid_date (y, m, d) ->
  (Z.abs y <= 25200470046046596 -> exists n, try_from_gregorian y m d = Ok (Some n)) /\
  (Z.abs y <= 583344214028 ->
     exists n, try_from_gregorian y m d = Ok (Some n) /\ to_gregorian n = Ok (Some (y, m, d))).
Proof.
  intros y m d V. pose proof (Jd_year _ _ _ V) as HJ. unfold JD_BASE in HJ.
  assert (K : Z.abs y <= 25200470046046596 -> try_from_gregorian y m d = Ok (Some (Jd (y, m, d)))).
  { intros H. rewrite (try_from_julian y m d (Jd (y, m, d))); [|unfold fits_i64; lia|now apply julian_iff].
    f_equal. apply chk_fits. set (j := Jd _) in *. unfold fits_i64. lia. }
  split; intros H; [eexists; apply K; exact H|].
  exists (Jd (y, m, d)). split; [apply K; lia|].
  destruct (to_gregorian_julian (Jd (y, m, d))) as (x & -> & [V' E]%julian_iff).
  - set (j := Jd _) in *. unfold jd_min, jd_max. lia.
  - f_equal. f_equal. now apply Jd_inj.
Qed.
Print Assumptions C41_documented_year_ranges.

Theorem C41_consecutive_days : forall y m d y' m' d' n n', fits_i64 y -> fits_i64 y' -> valid_date (y, m, d) ->
  next_day (y, m, d) = (y', m', d') ->
  try_from_gregorian y m d = Ok (Some n) -> try_from_gregorian y' m' d' = Ok (Some n') -> n' = n + 1.
Proof.
  intros y m d y' m' d' n n' Hy Hy' V N E E'.
  assert (Hj : julian (y, m, d) (Jd (y, m, d))) by now apply julian_iff.
  pose proof (julian_next _ _ Hj) as Hj'. rewrite N in Hj'.
  rewrite (try_from_julian _ _ _ _ Hy Hj) in E. rewrite (try_from_julian _ _ _ _ Hy' Hj') in E'.
  destruct (chk is_i64 (Jd (y, m, d))) eqn:C; [|discriminate].
  destruct (chk is_i64 (Jd (y, m, d) + 1)) eqn:C'; [|discriminate].
  apply chk_Some in C, C'. destruct C as [_ ->], C' as [_ ->]. congruence.
Qed.
Print Assumptions C41_consecutive_days.

Theorem C41_day_arithmetic : forall a b,
  (fits_i64 (a + b) -> jd_checked_add a b = Some (a + b)) /\ (~ fits_i64 (a + b) -> jd_checked_add a b = None) /\
  (fits_i64 (a - b) -> jd_checked_sub a b = Some (a - b)) /\ (~ fits_i64 (a - b) -> jd_checked_sub a b = None).
Proof.
  intros a b. repeat split; intros H; first [now apply chk_fits|now apply chk_not_fits].
Qed.
Print Assumptions C41_day_arithmetic.

(** ** C42 *)
Theorem C42_add_duration_exact_or_none : forall x d, date_time_ok x -> duration_ok d ->
  (fits_i64 ((instant x + nanos d) / day_nanos) ->
     exists y, checked_add_duration x d = Ok (Some y) /\ date_time_ok y /\ instant y = instant x + nanos d) /\
  (~ fits_i64 ((instant x + nanos d) / day_nanos) -> checked_add_duration x d = Ok None).
Proof. exact add_duration_spec. Qed.
Print Assumptions C42_add_duration_exact_or_none.

Theorem C42_sub_duration_exact_or_none : forall x d, date_time_ok x -> duration_ok d ->
  (fits_i64 ((instant x - nanos d) / day_nanos) ->
     exists y, checked_sub_duration x d = Ok (Some y) /\ date_time_ok y /\ instant y = instant x - nanos d) /\
  (~ fits_i64 ((instant x - nanos d) / day_nanos) -> checked_sub_duration x d = Ok None).
Proof. exact sub_duration_spec. Qed.
Print Assumptions C42_sub_duration_exact_or_none.

Theorem C42_duration_since_exact_or_none : forall x y, date_time_ok x -> date_time_ok y ->
  (representable (instant x - instant y) ->
     exists d, duration_since x y = Ok (Some d) /\ duration_ok d /\ nanos d = instant x - instant y) /\
  (~ representable (instant x - instant y) -> duration_since x y = Ok None).
Proof. exact duration_since_spec. Qed.
Print Assumptions C42_duration_since_exact_or_none.

(** (x + d) - x == d *)
Theorem C42_add_then_since : forall x y d, date_time_ok x -> duration_ok d ->
  checked_add_duration x d = Ok (Some y) ->
  exists d', duration_since y x = Ok (Some d') /\ deqb d' d = true.
Proof.
  intros x y d Hx Hd E. destruct (add_duration_spec x d Hx Hd) as [H1 H2].
  destruct (fits_i64_dec ((instant x + nanos d) / day_nanos)) as [HF|HF].
  2:{ rewrite (H2 HF) in E. discriminate E. }
  destruct (H1 HF) as (y' & E' & Hy & Ey). rewrite E in E'. injection E' as <-.
  destruct (duration_since_spec y x Hy Hx) as [H3 _].
  replace (instant y - instant x) with (nanos d) in H3 by lia.
  destruct (H3 (nanos_range d Hd)) as (d' & E' & Hd' & En). exists d'. split; [exact E'|].
  apply deqb_iff; assumption.
Qed.
Print Assumptions C42_add_then_since.

(** x + (y - x) == y, and y - (y - x) == x *)
Theorem C42_since_then_add : forall x y d, date_time_ok x -> date_time_ok y ->
  duration_since y x = Ok (Some d) ->
  checked_add_duration x d = Ok (Some y) /\ checked_sub_duration y d = Ok (Some x).
Proof.
  intros x y d Hx Hy E. destruct (duration_since_spec y x Hy Hx) as [H1 H2].
  assert (HR : representable (instant y - instant x)).
  { unfold representable in *. destruct (Z_le_dec (- max_nanos) (instant y - instant x));
      [destruct (Z_le_dec (instant y - instant x) max_nanos)|];
      [split; assumption| |]; rewrite H2 in E by lia; discriminate E. }
  destruct (H1 HR) as (d' & E' & Hd & En). rewrite E in E'. injection E' as <-.
  destruct (instant_day x Hx) as [Dx _], (instant_day y Hy) as [Dy _].
  assert (fits_i64 (days x) /\ fits_i64 (days y)) as [Fx Fy] by (destruct Hx, Hy; split; now apply fits_iff).
  split.
  - destruct (add_duration_spec x d Hx Hd) as [K _].
    replace (instant x + nanos d) with (instant y) in K by lia. rewrite Dy in K.
    destruct (K Fy) as (z & -> & Hz & Ez). now rewrite (instant_inj z y Hz Hy Ez).
  - destruct (sub_duration_spec y d Hy Hd) as [K _].
    replace (instant y - nanos d) with (instant x) in K by lia. rewrite Dx in K.
    destruct (K Fx) as (z & -> & Hz & Ez). now rewrite (instant_inj z x Hz Hx Ez).
Qed.
Print Assumptions C42_since_then_add.
Example C42_example :
  date_time_ok (DT 2440588 86399999999999) /\ duration_ok (Dur true (Std 1 0)) /\
  checked_add_duration (DT 2440588 86399999999999) (Dur false (Std 0 1)) = Ok (Some (DT 2440589 0)) /\
  checked_add_duration (DT 2440588 0) (Dur true (Std 0 1)) = Ok (Some (DT 2440587 86399999999999)) /\
  duration_since (DT 2440588 0) (DT 2440589 1) = Ok (Some (Dur true (Std 86400 1))) /\
  checked_add_duration (DT 9223372036854775807 86399999999999) (Dur false (Std 0 1)) = Ok None /\
  duration_since (DT 9223372036854775807 0) (DT (-1) 0) = Ok None.
Proof. vm_compute. repeat split; congruence. Qed.

Theorem C42_now_utc_exact : forall now, std_ok (match now with inl d | inr d => d end) ->
  exists x e, now_utc_with_system_time now = Ok x /\ UNIX_EPOCH = Ok e /\ date_time_ok x /\
    instant x = instant e + (match now with inl d => std_nanos d | inr d => - std_nanos d end).
Proof.
  intros now H. destruct (now_spec now H) as (x & E & Hx & I). exists x, (DT 2440588 0).
  split; [exact E|]. split; [reflexivity|]. split; [exact Hx|]. rewrite I. unfold instant. cbn [days time]. lia.
Qed.
Print Assumptions C42_now_utc_exact.
Example C42_now_example : now_utc_with_system_time (inl (Std 86400 5)) = Ok (DT 2440589 5) /\ now_utc_with_system_time (inr (Std 0 1)) = Ok (DT 2440587 86399999999999).
Proof. split; reflexivity. Qed.

(** ** C43: months are counted on a line of 12 per year; the day is kept and counted on from the first of the
    resulting month, the days are added last, the time of day is kept. Both the day reached before and after
    adding the days have to fit in an i64, else None. *)
Theorem C43_add_gregorian : forall x y m d years months dd, date_time_ok x ->
  fits_i64 years -> fits_i64 months -> fits_i64 dd ->
  to_gregorian_date x = Ok (Some (y, m, d)) ->
  forall total y' m' j,
  total = 12 * (y + years) + (m - 1) + months -> 1 <= m' <= 12 -> total = 12 * y' + (m' - 1) ->
  julian (y', m', 1) j ->
  (fits_i64 (j + (d - 1)) -> fits_i64 (j + (d - 1) + dd) ->
     exists z, checked_add_gregorian x years months dd = Ok (Some z) /\ date_time_ok z /\
       as_julian_day z = j + (d - 1) + dd /\ as_hmsn z = as_hmsn x) /\
  (~ (fits_i64 (j + (d - 1)) /\ fits_i64 (j + (d - 1) + dd)) ->
     checked_add_gregorian x years months dd = Ok None).
Proof.
  intros x y m d years months dd Hx Hy Hm Hd E total y' m' j HT Hm' HT' Hj.
  assert (y' = total / 12 /\ m' = total mod 12 + 1) as [-> ->] by lia. rewrite HT in Hj.
  pose proof (add_gregorian_spec x y m d years months dd j Hx Hy Hm Hd E Hj) as K. split.
  - intros F1 F2. rewrite K, chk_fits by exact F1. cbn [obind]. rewrite chk_fits by exact F2. cbn [obind].
    eexists. split; [reflexivity|]. rewrite date_time_ok_iff in *. cbn [days time].
    split; [split; [exact F2|apply Hx]|]. split; reflexivity.
  - intros F. rewrite K. destruct (fits_i64_dec (j + (d - 1))) as [F1|F1].
    + rewrite chk_fits by exact F1. cbn [obind]. rewrite chk_not_fits; [reflexivity|]. intros F2. apply F. now split.
    + now rewrite chk_not_fits.
Qed.
Print Assumptions C43_add_gregorian.
(** 31 January 2000 and one month: 2 March 2000 (2000 is a leap year, 29 days in February); and minus 13 months *)
Example C43_example :
  to_gregorian_date (DT 2451575 7) = Ok (Some (2000, 1, 31)) /\ checked_add_gregorian (DT 2451575 7) 0 1 0 = Ok (Some (DT 2451606 7)) /\
  to_gregorian_date (DT 2451606 7) = Ok (Some (2000, 3, 2)) /\
  checked_add_gregorian (DT 2451575 7) 0 (-13) 0 = Ok (Some (DT 2451179 7)) /\ to_gregorian_date (DT 2451179 7) = Ok (Some (1998, 12, 31)).
Proof. repeat split. Qed.

(** the date has to be computable; outside of the range of C41_to_gregorian the result is None (or the overflow
    of that one day) *)
Theorem C43_add_gregorian_no_date : forall x years months dd,
  (to_gregorian_date x = Ok None -> checked_add_gregorian x years months dd = Ok None) /\
  (forall c, to_gregorian_date x = Crash c -> checked_add_gregorian x years months dd = Crash c).
Proof.
  intros x years months dd. unfold to_gregorian_date, checked_add_gregorian.
  split; [intros ->; reflexivity|intros c ->; reflexivity].
Qed.
Print Assumptions C43_add_gregorian_no_date.

(** ** C48: the order of DateTimes is chronological, and equality is that of the instants *)
Theorem C48_order_is_chronological : forall x y, date_time_ok x -> date_time_ok y ->
  dt_cmp x y = Z.compare (instant x) (instant y) /\
  (dt_eqb x y = true <-> instant x = instant y) /\ (instant x = instant y -> x = y).
Proof.
  intros x y Hx Hy. split; [now apply dt_cmp_spec|]. split; [now apply dt_eqb_spec|now apply instant_inj].
Qed.
Print Assumptions C48_order_is_chronological.

Theorem C48_order_agrees_with_duration_since : forall x y d, date_time_ok x -> date_time_ok y ->
  duration_since x y = Ok (Some d) -> dt_cmp x y = dcmp d ZERO.
Proof.
  intros x y d Hx Hy E. rewrite dt_cmp_spec by assumption.
  destruct (duration_since_spec x y Hx Hy) as [H1 H2].
  assert (HR : representable (instant x - instant y)).
  { unfold representable in *. destruct (Z_le_dec (- max_nanos) (instant x - instant y));
      [destruct (Z_le_dec (instant x - instant y) max_nanos)|];
      [split; assumption| |]; rewrite H2 in E by lia; discriminate E. }
  destruct (H1 HR) as (d' & E' & Hd & En). rewrite E in E'. injection E' as <-.
  rewrite dcmp_spec by (assumption || exact ZERO_ok). rewrite En. change (nanos ZERO) with 0.
  destruct (Z.compare_spec (instant x) (instant y)); symmetry;
    [apply Z.compare_eq_iff|apply Z.compare_lt_iff|apply Z.compare_gt_iff]; lia.
Qed.
Print Assumptions C48_order_agrees_with_duration_since.
Example C48_example : dt_cmp (DT 1 5) (DT 2 0) = Lt /\ duration_since (DT 1 5) (DT 2 0) = Ok (Some (Dur true (Std 86399 999999995))).
Proof. split; reflexivity. Qed.

(** ** C49: building a DateTime from its fields and reading them back *)
Theorem C49_fields_round_trip : forall y mo d h mi s n, valid_date (y, mo, d) ->
  Z.abs y <= 583344214028 -> 0 <= h <= 23 -> 0 <= mi <= 59 -> 0 <= s <= 59 -> 0 <= n <= 999999999 ->
  exists x, from_gregorian_date_time y mo d h mi s n = Ok x /\ date_time_ok x /\
    to_gregorian_date_time x = Ok (Some ((y, mo, d), (h, mi, s, n))) /\
    to_gregorian_date x = Ok (Some (y, mo, d)) /\ as_hmsn x = (h, mi, s, n) /\
    from_gregorian y mo d = Ok (as_julian_day x).
Proof.
  intros y mo d h mi s n V Hy Hh Hmi Hs Hn.
  destruct (valid_day_31 _ _ _ V) as [Hmo Hd].
  assert (Fy : fits_i64 y) by (unfold fits_i64; lia).
  assert (V1 : valid_date (y, mo, 1)).
  { split; [exact Hmo|]. pose proof (month_length_range y mo). lia. }
  pose proof (Jd_year _ _ _ V1) as HJ. unfold JD_BASE in HJ.
  assert (HJd : Jd (y, mo, d) = Jd (y, mo, 1) + (d - 1)) by (unfold Jd, J; lia).
  destruct (C41_documented_year_ranges y mo d V) as [_ K]. destruct (K Hy) as (j & E1 & E2). clear K.
  destruct (from_gdt_spec y mo d h mi s n (Jd (y, mo, 1))) as (x & E & Hx & Ed & Et);
    [exact Fy|now apply julian_iff|exact Hd|exact Hh|exact Hmi|exact Hs|exact Hn| |].
  { set (k := Jd _) in *. unfold fits_i64. lia. }
  exists x. split; [exact E|]. split; [exact Hx|].
  assert (j = days x) as ->.
  { rewrite (try_from_julian y mo d (Jd (y, mo, d)) Fy) in E1 by now apply julian_iff.
    destruct (chk_spec is_i64 (Jd (y, mo, d))) as [[_ C]|[_ C]]; rewrite C in E1; [|discriminate].
    injection E1 as E1. rewrite <- E1. symmetry. exact (eq_trans Ed (eq_sym HJd)). }
  assert (Eh : as_hmsn x = (h, mi, s, n)).
  { destruct (as_hmsn_spec x Hx) as (h' & mi' & s' & n' & -> & R1 & R2 & R3 & R4 & Et').
    rewrite Et in Et'. destruct (as_hmsn_unique _ _ _ _ _ _ _ _ Hmi Hs Hn R2 R3 R4 Et') as (-> & -> & -> & ->).
    reflexivity. }
  unfold to_gregorian_date_time, to_gregorian_date, as_julian_day, from_gregorian. rewrite E1, E2, Eh.
  cbn [bind unwrap]. repeat split; reflexivity.
Qed.
Print Assumptions C49_fields_round_trip.

(** reading the fields of any DateTime and building it again *)
Theorem C49_rebuild : forall x y mo d h mi s n, date_time_ok x ->
  to_gregorian_date_time x = Ok (Some ((y, mo, d), (h, mi, s, n))) ->
  valid_date (y, mo, d) /\ 0 <= h <= 23 /\ 0 <= mi <= 59 /\ 0 <= s <= 59 /\ 0 <= n <= 999999999 /\
  from_gregorian_date_time y mo d h mi s n = Ok x.
Proof.
  intros x y mo d h mi s n Hx E. unfold to_gregorian_date_time in E.
  destruct (to_gregorian (days x)) as [[p|]| |] eqn:G; cbn [bind] in E; try discriminate.
  assert (p = (y, mo, d)) by congruence. assert (Eh : as_hmsn x = (h, mi, s, n)) by congruence. subst p.
  destruct (as_hmsn_spec x Hx) as (h' & mi' & s' & n' & Eh' & R1 & R2 & R3 & R4 & Et).
  rewrite Eh in Eh'. injection Eh' as <- <- <- <-.
  assert (Hi : is_i64 (days x) = true) by apply Hx.
  destruct (to_gregorian_Some _ _ Hi G) as [Hj Rj].
  pose proof (julian_valid _ _ Hj) as V. destruct (valid_day_31 _ _ _ V) as [Hmo Hd].
  assert (Fd : fits_i64 (days x)) by now apply fits_iff.
  assert (V1 : valid_date (y, mo, 1)).
  { split; [exact Hmo|]. pose proof (month_length_range y mo). lia. }
  assert (HJd : Jd (y, mo, d) = Jd (y, mo, 1) + (d - 1)) by (unfold Jd, J; lia).
  pose proof (julian_Jd _ _ Hj) as Ej.
  destruct (from_gdt_spec y mo d h mi s n (Jd (y, mo, 1))) as (z & Ez & Hz & Ed & Et');
    [exact (julian_year_fits _ _ _ _ Hj Fd)|now apply julian_iff|exact Hd|exact R1|exact R2|exact R3|exact R4| |].
  { rewrite <- HJd, Ej. exact Fd. }
  repeat (split; [assumption|]). rewrite Ez. f_equal. apply instant_inj; [exact Hz|exact Hx|].
  unfold instant. rewrite Et', <- Et, Ed, <- HJd, Ej. reflexivity.
Qed.
Print Assumptions C49_rebuild.
Example C49_example : from_gregorian_date_time 2000 2 29 23 59 59 999999999 = Ok (DT 2451604 86399999999999) /\
  to_gregorian_date_time (DT 2451604 86399999999999) = Ok (Some ((2000, 2, 29), (23, 59, 59, 999999999))).
Proof. split; reflexivity. Qed.

(** the documented panics of from_gregorian_date_time *)
Theorem C49_invalid_fields_panic : forall y mo d h mi s n,
  ~ (1 <= mo <= 12 /\ 1 <= d <= 31 /\ 0 <= h <= 23 /\ 0 <= mi <= 59 /\ 0 <= s <= 59 /\ 0 <= n <= 999999999) ->
  from_gregorian_date_time y mo d h mi s n = Crash CrashUnwrap.
Proof.
  intros y mo d h mi s n H. unfold from_gregorian_date_time, validate at 1.
  destruct ((h <? 0) || (23 <? h)) eqn:E1; [reflexivity|]. cbn [bind]. unfold validate at 1.
  destruct ((mi <? 0) || (59 <? mi)) eqn:E2; [reflexivity|]. cbn [bind]. unfold validate at 1.
  destruct ((s <? 0) || (59 <? s)) eqn:E3; [reflexivity|]. cbn [bind]. unfold validate at 1.
  destruct ((n <? 0) || (999999999 <? n)) eqn:E4; [reflexivity|]. cbn [bind].
  destruct (C41_invalid_month_or_day_panics y mo d) as [_ ->]; [|reflexivity]. intros K. apply H. lia.
Qed.
Print Assumptions C49_invalid_fields_panic.

(** ** C50: conversions from the calendar types of the crates time and chrono keep the fields *)
Theorem C50_from_calendar : forall v, valid_date (cal_y v, cal_mo v, cal_d v) ->
  -2147483648 <= cal_y v <= 2147483647 ->
  0 <= cal_h v <= 23 -> 0 <= cal_mi v <= 59 -> 0 <= cal_s v <= 59 -> 0 <= cal_n v <= 999999999 ->
  exists x, from_time_calendar v = Ok x /\ from_chrono_calendar v = Ok x /\ date_time_ok x /\
    to_gregorian_date_time x =
      Ok (Some ((cal_y v, cal_mo v, cal_d v), (cal_h v, cal_mi v, cal_s v, cal_n v))).
Proof.
  intros v V Hy Hh Hmi Hs Hn.
  destruct (C49_fields_round_trip (cal_y v) (cal_mo v) (cal_d v) (cal_h v) (cal_mi v) (cal_s v) (cal_n v) V
    ltac:(lia) Hh Hmi Hs Hn) as (x & E & Hx & E' & _).
  destruct (valid_day_31 _ _ _ V) as [Hmo Hd].
  exists x. split; [exact E|]. split; [|now split].
  unfold from_chrono_calendar.
  rewrite chk_true by (rewrite is_u8_iff; lia). cbn [unwrap bind].
  rewrite chk_true by (rewrite is_u8_iff; lia). cbn [unwrap bind].
  rewrite chk_true by (rewrite is_u8_iff; lia). cbn [unwrap bind].
  rewrite chk_true by (rewrite is_u8_iff; lia). cbn [unwrap bind].
  rewrite chk_true by (rewrite is_u8_iff; lia). cbn [unwrap bind]. exact E.
Qed.
Print Assumptions C50_from_calendar.
Example C50_example : from_chrono_calendar (Cal (-2147483648) 2 29 23 59 59 999999999) = from_time_calendar (Cal (-2147483648) 2 29 23 59 59 999999999) /\
  valid_date (-2147483648, 2, 29).
Proof. split; [reflexivity|]. vm_compute. repeat split; congruence. Qed.

(** chrono represents a leap second by 10^9 <= nanosecond < 2 * 10^9: every such value panics *)
Theorem C50_chrono_leap_second_refuted : forall v, valid_date (cal_y v, cal_mo v, cal_d v) ->
  0 <= cal_h v <= 23 -> 0 <= cal_mi v <= 59 -> 0 <= cal_s v <= 59 -> 1000000000 <= cal_n v < 2000000000 ->
  from_chrono_calendar v = Crash CrashUnwrap.
Proof.
  intros v V Hh Hmi Hs Hn. destruct (valid_day_31 _ _ _ V) as [Hmo Hd].
  unfold from_chrono_calendar.
  rewrite chk_true by (rewrite is_u8_iff; lia). cbn [unwrap bind].
  rewrite chk_true by (rewrite is_u8_iff; lia). cbn [unwrap bind].
  rewrite chk_true by (rewrite is_u8_iff; lia). cbn [unwrap bind].
  rewrite chk_true by (rewrite is_u8_iff; lia). cbn [unwrap bind].
  rewrite chk_true by (rewrite is_u8_iff; lia). cbn [unwrap bind].
  apply C49_invalid_fields_panic. lia.
Qed.
Print Assumptions C50_chrono_leap_second_refuted.
