(** * Properties C69 and C70: laws of the calendar, DateTimes and Durations *)
From Verif Require Import Prelude Util Time Config Bytes Repr Parse DateTime Gnu SpecTime SpecDate SpecGnu
  TimeProofs DateProofs DateTimeProofs PropDate PropGnu.

(** ** the first days of the months, counted on a line of 12 per year *)
Definition first_day (t : Z) : Z := Jd (t / 12, t mod 12 + 1, 1).
Lemma first_valid t : valid_date (t / 12, t mod 12 + 1, 1).
Proof. pose proof (Z.mod_pos_bound t 12). pose proof (month_length_range (t / 12) (t mod 12 + 1)). cbn. lia. Qed.
Lemma first_julian t : julian (t / 12, t mod 12 + 1, 1) (first_day t).
Proof. apply julian_iff. split; [apply first_valid|reflexivity]. Qed.
Lemma Jd_day y m d : Jd (y, m, d) = Jd (y, m, 1) + (d - 1).
Proof. cbn. unfold J. lia. Qed.
Lemma month_of y m : 1 <= m <= 12 -> (12 * y + (m - 1)) / 12 = y /\ (12 * y + (m - 1)) mod 12 + 1 = m.
Proof. lia. Qed.
Lemma Jd_first y m d : 1 <= m <= 12 -> Jd (y, m, d) = first_day (12 * y + (m - 1)) + (d - 1).
Proof. intros H. rewrite Jd_day. unfold first_day. destruct (month_of y m H) as [-> ->]. reflexivity. Qed.
Lemma first_step t : first_day t + 28 <= first_day (t + 1) <= first_day t + 31.
Proof.
  set (y := t / 12). set (m := t mod 12 + 1). assert (Hm : 1 <= m <= 12) by (unfold m; lia).
  assert (Et : t = 12 * y + (m - 1)) by (unfold y, m; lia).
  pose proof (month_length_range y m) as R.
  assert (V : valid_date (y, m, month_length y m)) by (cbn; lia).
  destruct (J_next' _ V) as [_ E]. unfold next_day in E. rewrite Z.ltb_irrefl in E. rewrite (Jd_first y m) in E by exact Hm. rewrite <- Et in E.
  destruct (m <? 12) eqn:L.
  - rewrite (Jd_first y (m + 1)) in E by lia. replace (12 * y + (m + 1 - 1)) with (t + 1) in E by lia. lia.
  - rewrite (Jd_first (y + 1) 1) in E by lia. replace (12 * (y + 1) + (1 - 1)) with (t + 1) in E by lia. lia.
Qed.
Lemma first_lt t t' : t < t' -> first_day t + 28 <= first_day t'.
Proof.
  intros H. assert (G : forall n, first_day t + 28 <= first_day (t + 1 + Z.of_nat n)).
  { induction n as [|n IH]; [rewrite Z.add_0_r; apply first_step|]. pose proof (first_step (t + 1 + Z.of_nat n)).
    replace (t + 1 + Z.of_nat (S n)) with (t + 1 + Z.of_nat n + 1) by lia. lia. }
  specialize (G (Z.to_nat (t' - t - 1))). now replace (t + 1 + Z.of_nat (Z.to_nat (t' - t - 1))) with t' in G by lia.
Qed.
(** what checked_add_gregorian computes *)
Lemma add_gregorian x y m d years months dd : date_time_ok x -> fits_i64 years -> fits_i64 months -> fits_i64 dd ->
  to_gregorian_date x = Ok (Some (y, m, d)) ->
  checked_add_gregorian x years months dd =
    Ok (let? a := chk is_i64 (first_day (12 * y + (m - 1) + (12 * years + months)) + (d - 1)) in let? b := chk is_i64 (a + dd) in Some (DT b (time x))).
Proof.
  intros Hx Hy Hm Hd E. pose proof (first_julian (12 * (y + years) + (m - 1) + months)) as J.
  rewrite (add_gregorian_spec x y m d years months dd _ Hx Hy Hm Hd E J). now replace (12 * (y + years) + (m - 1) + months) with (12 * y + (m - 1) + (12 * years + months)) by lia.
Qed.
Lemma date_of x y m d : date_time_ok x -> to_gregorian_date x = Ok (Some (y, m, d)) -> valid_date (y, m, d) /\ 1 <= m <= 12 /\ 1 <= d <= 31 /\
  days x = first_day (12 * y + (m - 1)) + (d - 1) /\ fits_i64 y.
Proof.
  intros Hx E. apply date_time_ok_iff in Hx. apply to_gregorian_Some in E; [|now apply fits_iff]. destruct E as [Hj _].
  pose proof (julian_valid _ _ Hj) as V. destruct (valid_day_31 _ _ _ V). split; [exact V|]. split; [assumption|]. split; [assumption|].
  split; [rewrite <- Jd_first by assumption; symmetry; now apply julian_Jd|]. apply (julian_year_fits _ _ _ _ Hj). apply Hx.
Qed.

(** ** C69: twelve months are a year *)
Theorem C69_twelve_months_are_a_year : forall x y1 m1 y2 m2 dd, date_time_ok x ->
  fits_i64 y1 -> fits_i64 m1 -> fits_i64 y2 -> fits_i64 m2 -> fits_i64 dd -> 12 * y1 + m1 = 12 * y2 + m2 ->
  checked_add_gregorian x y1 m1 dd = checked_add_gregorian x y2 m2 dd.
Proof.
  intros x y1 m1 y2 m2 dd Hx F1 F2 F3 F4 Fd E. destruct (to_gregorian_date x) as [[[[y m] d]|]|e|c] eqn:G.
  - now rewrite !(add_gregorian x y m d) by assumption; rewrite E.
  - now rewrite !(proj1 (C43_add_gregorian_no_date x _ _ dd) G).
  - exfalso. unfold to_gregorian_date in G. apply date_time_ok_iff in Hx. destruct Hx as [Hx _]. apply fits_iff in Hx.
    destruct (to_gregorian_cases _ Hx) as [(_ & ? & K & _)|[(_ & _ & K)|(_ & K)]]; congruence.
  - now rewrite !(proj2 (C43_add_gregorian_no_date x _ _ dd) c G).
Qed.
Print Assumptions C69_twelve_months_are_a_year.
Example C69_twelve_months_are_a_year_example : checked_add_gregorian (DT 2451575 7) 3 (-25) 1 = checked_add_gregorian (DT 2451575 7) 0 11 1 /\
  exists z, checked_add_gregorian (DT 2451575 7) 3 (-25) 1 = Ok (Some z) /\ to_gregorian_date z = Ok (Some (2001, 1, 1)).
Proof. split; [reflexivity|]. eexists. split; reflexivity. Qed.

Theorem C69_nothing_added : forall x date, date_time_ok x -> to_gregorian_date x = Ok (Some date) -> checked_add_gregorian x 0 0 0 = Ok (Some x).
Proof.
  intros x [[y m] d] Hx E. destruct (date_of x y m d Hx E) as (V & Hm & Hd & Ed & _). assert (F0 : fits_i64 0) by (unfold fits_i64; lia).
  rewrite (add_gregorian x y m d) by assumption. rewrite Z.add_0_r, <- Ed. apply date_time_ok_iff in Hx. rewrite chk_fits by apply Hx. cbn [obind].
  rewrite Z.add_0_r, chk_fits by apply Hx. cbn [obind]. now destruct x.
Qed.
Print Assumptions C69_nothing_added.

(** the day of the month is kept if the month reached has it, as every month has for the days up to the 28th *)
Theorem C69_day_is_kept : forall x y m d years months z, date_time_ok x -> fits_i64 years -> fits_i64 months ->
  to_gregorian_date x = Ok (Some (y, m, d)) -> checked_add_gregorian x years months 0 = Ok (Some z) ->
  forall y' m', 12 * y' + (m' - 1) = 12 * (y + years) + (m - 1) + months -> 1 <= m' <= 12 -> d <= 28 \/ d <= month_length y' m' ->
  date_time_ok z /\ julian (y', m', d) (as_julian_day z) /\ as_hmsn z = as_hmsn x.
Proof.
  intros x y m d years months z Hx Hy Hm E A y' m' ET Hm' HD. destruct (date_of x y m d Hx E) as (V & _ & Hd & _). assert (F0 : fits_i64 0) by (unfold fits_i64; lia).
  pose proof (month_length_range y' m') as R.
  rewrite (add_gregorian x y m d) in A by assumption.
  replace (12 * y + (m - 1) + (12 * years + months)) with (12 * y' + (m' - 1)) in A by lia. rewrite <- (Jd_first y' m' d Hm') in A.
  destruct (fits_i64_dec (Jd (y', m', d))) as [F|F]; [|rewrite chk_not_fits in A by exact F; discriminate]. rewrite chk_fits in A by exact F. cbn [obind] in A.
  rewrite Z.add_0_r, chk_fits in A by exact F. cbn [obind] in A. injection A as <-. apply date_time_ok_iff in Hx.
  split; [apply date_time_ok_iff; cbn [days time]; split; [exact F|apply Hx]|]. split; [|reflexivity]. apply julian_iff. split; [cbn; lia|reflexivity].
Qed.
Print Assumptions C69_day_is_kept.

(** in two steps, if the day was kept in between *)
Theorem C69_step_by_step : forall x z y m d y' m' y1 m1 y2 m2 dd, date_time_ok x ->
  fits_i64 y1 -> fits_i64 m1 -> fits_i64 y2 -> fits_i64 m2 -> fits_i64 (y1 + y2) -> fits_i64 (m1 + m2) -> fits_i64 dd ->
  to_gregorian_date x = Ok (Some (y, m, d)) -> checked_add_gregorian x y1 m1 0 = Ok (Some z) -> to_gregorian_date z = Ok (Some (y', m', d)) ->
  checked_add_gregorian z y2 m2 dd = checked_add_gregorian x (y1 + y2) (m1 + m2) dd.
Proof.
  intros x z y m d y' m' y1 m1 y2 m2 dd Hx F1 F2 F3 F4 F5 F6 F7 E A E'. assert (F0 : fits_i64 0) by (unfold fits_i64; lia).
  rewrite (add_gregorian x y m d) in A by assumption.
  set (t := 12 * y + (m - 1) + (12 * y1 + m1)) in *.
  destruct (fits_i64_dec (first_day t + (d - 1))) as [F|F]; [|rewrite chk_not_fits in A by exact F; discriminate]. rewrite chk_fits in A by exact F. cbn [obind] in A.
  rewrite Z.add_0_r, chk_fits in A by exact F. cbn [obind] in A. injection A as <-. pose proof Hx as Hx'. apply date_time_ok_iff in Hx'.
  assert (Hz : date_time_ok (DT (first_day t + (d - 1)) (time x))) by (apply date_time_ok_iff; cbn [days time]; split; [exact F|apply Hx']).
  destruct (date_of _ _ _ _ Hz E') as (V' & Hm' & _ & Ed & _). cbn [days] in Ed.
  assert (T : 12 * y' + (m' - 1) = t).
  { destruct (Z.lt_trichotomy t (12 * y' + (m' - 1))) as [L|[L|L]]; [apply first_lt in L; lia|now symmetry|apply first_lt in L; lia]. }
  rewrite (add_gregorian _ y' m' d) by assumption. rewrite (add_gregorian x y m d) by assumption. cbn [time]. rewrite T.
  now replace (12 * y + (m - 1) + (12 * (y1 + y2) + (m1 + m2))) with (t + (12 * y2 + m2)) by (unfold t; lia).
Qed.
Print Assumptions C69_step_by_step.

(** and back *)
Theorem C69_there_and_back : forall x z y m d y' m' years months, date_time_ok x -> fits_i64 years -> fits_i64 months -> fits_i64 (- years) -> fits_i64 (- months) ->
  to_gregorian_date x = Ok (Some (y, m, d)) -> checked_add_gregorian x years months 0 = Ok (Some z) -> to_gregorian_date z = Ok (Some (y', m', d)) ->
  checked_add_gregorian z (- years) (- months) 0 = Ok (Some x).
Proof.
  intros x z y m d y' m' years months Hx F1 F2 F3 F4 E A E'. assert (F0 : fits_i64 0) by (unfold fits_i64; lia).
  rewrite (C69_step_by_step x z y m d y' m' years months (- years) (- months) 0) by (assumption || (rewrite Z.add_opp_diag_r; exact F0)).
  rewrite !Z.add_opp_diag_r. now apply C69_nothing_added with (y, m, d).
Qed.
Print Assumptions C69_there_and_back.
Example C69_there_and_back_example : exists z, checked_add_gregorian (DT 2451575 7) 1 (-6) 0 = Ok (Some z) /\ to_gregorian_date (DT 2451575 7) = Ok (Some (2000, 1, 31)) /\
  to_gregorian_date z = Ok (Some (2000, 7, 31)) /\ checked_add_gregorian z (-1) 6 0 = Ok (Some (DT 2451575 7)) /\ checked_add_gregorian z 0 1 3 = checked_add_gregorian (DT 2451575 7) 1 (-5) 3.
Proof. exists (DT 2451757 7). split; [vm_compute; reflexivity|]. split; [vm_compute; reflexivity|]. split; [vm_compute; reflexivity|]. split; vm_compute; reflexivity. Qed.
(** the day is not kept in February *)
Theorem C69_steps_refuted : exists x z w, date_time_ok x /\ checked_add_gregorian x 0 1 0 = Ok (Some z) /\ checked_add_gregorian z 0 1 0 = Ok (Some w) /\
  checked_add_gregorian x 0 2 0 <> Ok (Some w) /\ checked_add_gregorian z 0 (-1) 0 <> Ok (Some x).
Proof.
  exists (DT 2451575 7), (DT 2451606 7), (DT 2451637 7). split; [now split|]. split; [vm_compute; reflexivity|]. split; [vm_compute; reflexivity|]. split; vm_compute; discriminate.
Qed.
Print Assumptions C69_steps_refuted.

(** the later date stays later *)
Theorem C69_order_is_kept : forall x1 x2 y1 m1 d1 y2 m2 d2 years months dd z1 z2, date_time_ok x1 -> date_time_ok x2 ->
  fits_i64 years -> fits_i64 months -> fits_i64 dd ->
  to_gregorian_date x1 = Ok (Some (y1, m1, d1)) -> to_gregorian_date x2 = Ok (Some (y2, m2, d2)) -> d1 <= 28 \/ y1 = y2 /\ m1 = m2 ->
  checked_add_gregorian x1 years months dd = Ok (Some z1) -> checked_add_gregorian x2 years months dd = Ok (Some z2) ->
  (instant x1 < instant x2 -> instant z1 < instant z2) /\ (instant x1 <= instant x2 -> instant z1 <= instant z2).
Proof.
  intros x1 x2 y1 m1 d1 y2 m2 d2 years months dd z1 z2 H1 H2 Fy Fm Fd E1 E2 HD A1 A2.
  destruct (date_of _ _ _ _ H1 E1) as (_ & M1 & D1 & J1 & _). destruct (date_of _ _ _ _ H2 E2) as (_ & M2 & D2 & J2 & _).
  rewrite (add_gregorian _ y1 m1 d1) in A1 by assumption. rewrite (add_gregorian _ y2 m2 d2) in A2 by assumption.
  apply date_time_ok_iff in H1, H2. set (k := 12 * years + months) in *. set (t1 := 12 * y1 + (m1 - 1)) in *. set (t2 := 12 * y2 + (m2 - 1)) in *.
  assert (K : forall t d x z, Ok (let? a := chk is_i64 (first_day (t + k) + (d - 1)) in let? b := chk is_i64 (a + dd) in Some (DT b (time x))) = Ok (Some z) ->
    days z = first_day (t + k) + (d - 1) + dd /\ time z = time x).
  { clear. intros t d x z A. destruct (fits_i64_dec (first_day (t + k) + (d - 1))) as [F|F]; [|rewrite chk_not_fits in A by exact F; discriminate]. rewrite chk_fits in A by exact F. cbn [obind] in A.
    destruct (fits_i64_dec (first_day (t + k) + (d - 1) + dd)) as [G|G]; [|rewrite chk_not_fits in A by exact G; discriminate]. rewrite chk_fits in A by exact G. cbn [obind] in A. injection A as <-. auto. }
  destruct (K _ _ _ _ A1) as [Z1 W1]. destruct (K _ _ _ _ A2) as [Z2 W2].
  assert (Q : days x1 <= days x2 -> days z1 - days z2 <= 0 /\ (days x1 < days x2 -> days z1 < days z2) /\ (days x1 = days x2 -> days z1 = days z2)).
  { intros L. destruct (Z.lt_trichotomy t1 t2) as [T|[T|T]].
    - assert (Hd : d1 <= 28) by (destruct HD as [HD|[-> ->]]; [exact HD|unfold t1, t2 in T; lia]).
      pose proof (first_lt (t1 + k) (t2 + k) ltac:(lia)). pose proof (first_lt t1 t2 T). lia.
    - rewrite T in *. lia.
    - exfalso. pose proof (first_lt t2 t1 T) as G. assert (d2 - 1 > d1 + 27 - 1) by lia.
      assert (G' : first_day (t2 + 1) <= first_day t1).
      { destruct (Z.eq_dec (t2 + 1) t1) as [<-|N]; [lia|]. pose proof (first_lt (t2 + 1) t1 ltac:(lia)). lia. }
      assert (R : first_day t2 + month_length y2 m2 = first_day (t2 + 1)).
      { pose proof (month_length_range y2 m2) as R. assert (V : valid_date (y2, m2, month_length y2 m2)) by (cbn; lia).
        destruct (J_next' _ V) as [_ E]. unfold next_day in E. rewrite Z.ltb_irrefl in E. rewrite (Jd_first y2 m2) in E by exact M2. fold t2 in E.
        destruct (m2 <? 12) eqn:LL.
        - rewrite (Jd_first y2 (m2 + 1)) in E by lia. replace (12 * y2 + (m2 + 1 - 1)) with (t2 + 1) in E by (unfold t2; lia). lia.
        - rewrite (Jd_first (y2 + 1) 1) in E by lia. replace (12 * (y2 + 1) + (1 - 1)) with (t2 + 1) in E by (unfold t2; lia). lia. }
      apply to_gregorian_Some in E2; [|apply fits_iff, H2]. destruct E2 as [E2 _]. apply julian_valid in E2. cbn in E2. lia. }
  assert (I : forall a b, 0 <= time a < 86400000000000 -> 0 <= time b < 86400000000000 -> (instant a < instant b <-> days a < days b \/ days a = days b /\ time a < time b)).
  { clear. intros a b Ha Hb. unfold instant, day_nanos. lia. }
  assert (I' : forall a b, 0 <= time a < 86400000000000 -> 0 <= time b < 86400000000000 -> (instant a <= instant b <-> days a < days b \/ days a = days b /\ time a <= time b)).
  { clear. intros a b Ha Hb. unfold instant, day_nanos. lia. }
  rewrite !I, !I' by (rewrite ?W1, ?W2; apply H1 || apply H2). rewrite W1, W2. split; intros H; lia.
Qed.
Print Assumptions C69_order_is_kept.
Theorem C69_order_refuted : exists x1 x2 z1 z2, date_time_ok x1 /\ date_time_ok x2 /\ instant x1 < instant x2 /\
  checked_add_gregorian x1 0 1 0 = Ok (Some z1) /\ checked_add_gregorian x2 0 1 0 = Ok (Some z2) /\ instant z2 < instant z1.
Proof.
  exists (DT 2451575 7), (DT 2451576 7), (DT 2451606 7), (DT 2451605 7). split; [now split|]. split; [now split|]. split; [reflexivity|].
  split; [vm_compute; reflexivity|]. split; vm_compute; reflexivity.
Qed.
Print Assumptions C69_order_refuted.

(** days of the calendar are durations of 24 hours *)
Theorem C69_days_are_durations : forall x date dd d, date_time_ok x -> to_gregorian_date x = Ok (Some date) -> fits_i64 dd -> duration_ok d ->
  nanos d = dd * day_nanos -> checked_add_gregorian x 0 0 dd = checked_add_duration x d.
Proof.
  intros x [[y m] dm] dd d Hx E Fd Hd Hn. destruct (date_of x y m dm Hx E) as (_ & Hm & _ & Ed & _). assert (F0 : fits_i64 0) by (unfold fits_i64; lia).
  rewrite (add_gregorian x y m dm) by assumption. rewrite Z.add_0_r, <- Ed. pose proof Hx as Hx'. apply date_time_ok_iff in Hx'. rewrite chk_fits by apply Hx'. cbn [obind].
  destruct (add_duration_spec x d Hx Hd) as [A1 A2]. rewrite Hn in *. assert (Q : (instant x + dd * day_nanos) / day_nanos = days x + dd).
  { rewrite Z.div_add by discriminate. f_equal. now apply instant_day. }
  rewrite Q in *. destruct (fits_i64_dec (days x + dd)) as [F|F].
  - rewrite chk_fits by exact F. cbn [obind]. destruct (A1 F) as (z & -> & Hz & Iz). do 2 f_equal. apply instant_inj; [|exact Hz|].
    + apply date_time_ok_iff. cbn [days time]. split; [exact F|apply Hx'].
    + rewrite Iz. unfold instant. cbn [days time]. lia.
  - rewrite chk_not_fits by exact F. cbn [obind]. now rewrite A2.
Qed.
Print Assumptions C69_days_are_durations.
Example C69_days_are_durations_example : checked_add_gregorian (DT 2451575 7) 0 0 (-31) = checked_add_duration (DT 2451575 7) (Dur true (Std 2678400 0)) /\
  checked_add_gregorian (DT 2451575 7) 0 0 (-31) = Ok (Some (DT 2451544 7)).
Proof. split; reflexivity. Qed.

(** relative times of the same number of months give the same result seen from any date *)
Lemma same_nanos_added x d1 d2 : date_time_ok x -> duration_ok d1 -> duration_ok d2 -> nanos d1 = nanos d2 -> checked_add_duration x d1 = checked_add_duration x d2.
Proof.
  intros Hx H1 H2 E. destruct (add_duration_spec x d1 Hx H1) as [A1 A2]. destruct (add_duration_spec x d2 Hx H2) as [B1 B2]. rewrite E in *.
  destruct (fits_i64_dec ((instant x + nanos d2) / day_nanos)) as [F|F].
  - destruct (A1 F) as (z1 & -> & Z1 & I1). destruct (B1 F) as (z2 & -> & Z2 & I2). do 2 f_equal. apply instant_inj; congruence.
  - now rewrite A2, B2.
Qed.
Theorem C69_gnu_months_and_years : forall now s1 s2 y1 m1 d1 y2 m2 d2 x, utf8 s1 = true -> utf8 s2 = true -> date_time_ok x ->
  gnu_parse_fuzzy gnu_new s1 = Ok (y1, m1, d1) -> gnu_parse_fuzzy gnu_new s2 = Ok (y2, m2, d2) ->
  12 * y1 + m1 = 12 * y2 + m2 -> 12 * y1 + m1 <> 0 -> nanos d1 = nanos d2 ->
  gnu_parse_with_date gnu_new now s1 (Some x) = gnu_parse_with_date gnu_new now s2 (Some x).
Proof.
  intros now s1 s2 y1 m1 d1 y2 m2 d2 x U1 U2 Hx P1 P2 ET N En.
  destruct (C44_fuzzy_never_crashes s1 U1) as [(a & b & c & K & O1 & F1 & F2)|(e & K)]; rewrite P1 in K; [injection K as <- <- <-|discriminate].
  destruct (C44_fuzzy_never_crashes s2 U2) as [(a & b & c & K & O2 & F3 & F4)|(e & K)]; rewrite P2 in K; [injection K as <- <- <-|discriminate].
  unfold gnu_parse_with_date. rewrite P1, P2. cbn [bind].
  replace ((y1 =? 0) && (m1 =? 0)) with false by lia. replace ((y2 =? 0) && (m2 =? 0)) with false by lia.
  rewrite (same_nanos_added x d1 d2 Hx O1 O2 En). destruct (checked_add_duration x d2) as [[z|]| |] eqn:A; cbn [bind]; try reflexivity.
  assert (Hz : date_time_ok z).
  { destruct (add_duration_spec x d2 Hx O2) as [A1 A2]. destruct (fits_i64_dec ((instant x + nanos d2) / day_nanos)) as [F|F]; [|rewrite A2 in A by exact F; discriminate].
    destruct (A1 F) as (z' & E & Hz & _). congruence. }
  rewrite (C69_twelve_months_are_a_year z y1 m1 y2 m2 0); try assumption; [reflexivity|]. unfold fits_i64. lia.
Qed.
Print Assumptions C69_gnu_months_and_years.
Example C69_gnu_months_and_years_example : gnu_parse_fuzzy gnu_new (%"1 year ago next month 3 days") = Ok (-1, 1, Dur false (Std 259200 0)) /\
  gnu_parse_fuzzy gnu_new (%"72 hours -11 months") = Ok (0, -11, Dur false (Std 259200 0)) /\
  gnu_parse_with_date gnu_new (inl (Std 0 0)) (%"72 hours -11 months") (Some (DT 2451575 7)) = Ok (Dur true (Std (86400 * 334) 0)).
Proof. repeat split. Qed.

(** ** C70: DateTimes and Durations are like points and vectors *)
Lemma added x d z : date_time_ok x -> duration_ok d -> checked_add_duration x d = Ok (Some z) -> date_time_ok z /\ instant z = instant x + nanos d.
Proof.
  intros Hx Hd E. destruct (add_duration_spec x d Hx Hd) as [A1 A2]. destruct (fits_i64_dec ((instant x + nanos d) / day_nanos)) as [F|F]; [|rewrite A2 in E by exact F; discriminate].
  destruct (A1 F) as (z' & E' & Hz & I). rewrite E in E'. injection E' as <-. auto.
Qed.
Lemma add_to x d z : date_time_ok x -> duration_ok d -> date_time_ok z -> instant z = instant x + nanos d -> checked_add_duration x d = Ok (Some z).
Proof.
  intros Hx Hd Hz I. destruct (add_duration_spec x d Hx Hd) as [A1 _]. rewrite <- I in A1. pose proof (proj1 (instant_day z Hz)) as D. rewrite D in A1.
  destruct A1 as (z' & E & Hz' & I'); [now apply date_time_ok_iff|]. rewrite E. do 2 f_equal. apply instant_inj; congruence.
Qed.
Lemma since x y d : date_time_ok x -> date_time_ok y -> duration_since x y = Ok (Some d) -> duration_ok d /\ nanos d = instant x - instant y.
Proof.
  intros Hx Hy E. destruct (duration_since_spec x y Hx Hy) as [H1 H2].
  assert (HR : representable (instant x - instant y)).
  { unfold representable in *. destruct (Z_le_dec (- max_nanos) (instant x - instant y)); [destruct (Z_le_dec (instant x - instant y) max_nanos)|];
      [split; assumption| |]; rewrite H2 in E by lia; discriminate E. }
  destruct (H1 HR) as (d' & E' & Hd & En). rewrite E in E'. injection E' as <-. auto.
Qed.
(** one duration after the other is their sum *)
Theorem C70_two_durations : forall x y z d1 d2 d, date_time_ok x -> duration_ok d1 -> duration_ok d2 -> duration_ok d ->
  checked_add_duration x d1 = Ok (Some y) -> checked_add_duration y d2 = Ok (Some z) -> nanos d = nanos d1 + nanos d2 ->
  checked_add_duration x d = Ok (Some z).
Proof.
  intros x y z d1 d2 d Hx H1 H2 Hd E1 E2 En. destruct (added _ _ _ Hx H1 E1) as [Hy I1]. destruct (added _ _ _ Hy H2 E2) as [Hz I2]. apply add_to; auto. lia.
Qed.
Print Assumptions C70_two_durations.
(** so the order does not matter *)
Theorem C70_durations_commute : forall x y1 y2 z1 d1 d2, date_time_ok x -> duration_ok d1 -> duration_ok d2 ->
  checked_add_duration x d1 = Ok (Some y1) -> checked_add_duration y1 d2 = Ok (Some z1) -> checked_add_duration x d2 = Ok (Some y2) ->
  checked_add_duration y2 d1 = Ok (Some z1).
Proof.
  intros x y1 y2 z1 d1 d2 Hx H1 H2 E1 E2 E3. destruct (added _ _ _ Hx H1 E1) as [Hy1 I1]. destruct (added _ _ _ Hy1 H2 E2) as [Hz I2].
  destruct (added _ _ _ Hx H2 E3) as [Hy2 I3]. apply add_to; auto. lia.
Qed.
Print Assumptions C70_durations_commute.
(** subtracting is adding the negative and takes back adding *)
Theorem C70_subtraction : forall x z d, date_time_ok x -> date_time_ok z -> duration_ok d ->
  (checked_add_duration x d = Ok (Some z) <-> checked_sub_duration z d = Ok (Some x)) /\
  checked_sub_duration x d = checked_add_duration x (dneg d).
Proof.
  intros x z d Hx Hz Hd. split; [|reflexivity].
  assert (Hn : duration_ok (dneg d) /\ nanos (dneg d) = - nanos d) by (destruct d as [[] i]; cbn in *; split; auto; unfold nanos; cbn; lia). destruct Hn as [Hn En].
  split; intros E.
  - destruct (added _ _ _ Hx Hd E) as [_ I]. unfold checked_sub_duration. apply add_to; auto. lia.
  - unfold checked_sub_duration in E. destruct (added _ _ _ Hz Hn E) as [_ I]. apply add_to; auto. lia.
Qed.
Print Assumptions C70_subtraction.
(** the durations between three DateTimes *)
Theorem C70_triangle : forall x y z a b c, date_time_ok x -> date_time_ok y -> date_time_ok z ->
  duration_since y x = Ok (Some a) -> duration_since z y = Ok (Some b) -> duration_since z x = Ok (Some c) -> nanos c = nanos a + nanos b.
Proof.
  intros x y z a b c Hx Hy Hz E1 E2 E3. apply since in E1, E2, E3; auto. lia.
Qed.
Print Assumptions C70_triangle.
Theorem C70_direction : forall x y d, date_time_ok x -> date_time_ok y -> duration_since x y = Ok (Some d) ->
  exists d', duration_since y x = Ok (Some d') /\ nanos d' = - nanos d.
Proof.
  intros x y d Hx Hy E. destruct (since _ _ _ Hx Hy E) as [Hd I]. destruct (duration_since_spec y x Hy Hx) as [H1 _].
  destruct H1 as (d' & E' & _ & I'); [|exists d'; split; [exact E'|lia]].
  assert (R : - max_nanos <= nanos d <= max_nanos) by (apply (proj1 (representable_iff_between (nanos d))); eauto). unfold representable. lia.
Qed.
Print Assumptions C70_direction.
(** later points and longer durations lead to later points *)
Theorem C70_monotone : forall x1 x2 d1 d2 z1 z2, date_time_ok x1 -> date_time_ok x2 -> duration_ok d1 -> duration_ok d2 ->
  checked_add_duration x1 d1 = Ok (Some z1) -> checked_add_duration x2 d2 = Ok (Some z2) ->
  dt_cmp x1 x2 <> Gt -> dcmp d1 d2 <> Gt -> dt_cmp z1 z2 <> Gt /\ ((dt_cmp x1 x2 = Lt \/ dcmp d1 d2 = Lt) -> dt_cmp z1 z2 = Lt).
Proof.
  intros x1 x2 d1 d2 z1 z2 H1 H2 O1 O2 E1 E2 C1 C2. destruct (added _ _ _ H1 O1 E1) as [Z1 I1]. destruct (added _ _ _ H2 O2 E2) as [Z2 I2].
  rewrite dt_cmp_spec in C1 by assumption. rewrite !dt_cmp_spec by assumption. rewrite dcmp_spec in C2 by assumption. rewrite dcmp_spec by assumption. rewrite I1, I2.
  revert C1 C2. destruct (Z.compare_spec (instant x1) (instant x2)); intros C1; try congruence; destruct (Z.compare_spec (nanos d1) (nanos d2)); intros C2; try congruence;
    (split; [intros G; apply Z.compare_gt_iff in G; lia|intros [H'|H']; try discriminate H'; apply Z.compare_lt_iff; lia]).
Qed.
Print Assumptions C70_monotone.
Example C70_example : checked_add_duration (DT 10 5) (Dur false (Std 100000 0)) = Ok (Some (DT 11 13600000000005)) /\
  checked_add_duration (DT 11 13600000000005) (Dur true (Std 200000 5)) = Ok (Some (DT 8 72800000000000)) /\
  checked_add_duration (DT 10 5) (Dur true (Std 100000 5)) = Ok (Some (DT 8 72800000000000)) /\
  duration_since (DT 8 72800000000000) (DT 10 5) = Ok (Some (Dur true (Std 100000 5))) /\ dt_cmp (DT 8 72800000000000) (DT 10 5) = Lt.
Proof. repeat split. Qed.
