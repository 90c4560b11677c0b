(** * Proofs about DateTime *)
From Verif Require Import Prelude Time SpecTime TimeProofs DateTime SpecDate DateProofs.

Lemma fits_iff n : fits_i64 n <-> is_i64 n = true.
Proof. rewrite is_i64_iff. unfold fits_i64. lia. Qed.

Lemma chk_fits n : fits_i64 n -> chk is_i64 n = Some n.
Proof. intros H. apply chk_true. now apply fits_iff. Qed.
Lemma chk_not_fits n : ~ fits_i64 n -> chk is_i64 n = None.
Proof. intros H. apply chk_false. apply not_true_is_false. now rewrite <- fits_iff. Qed.

Lemma fits_i64_dec n : {fits_i64 n} + {~ fits_i64 n}.
Proof. destruct (is_i64 n) eqn:E; [left|right]; rewrite fits_iff; congruence. Defined.

(** ** Dates *)
Lemma julian_Jd x n : julian x n -> Jd x = n.
Proof. now intros ?%julian_iff. Qed.
Lemma julian_valid x n : julian x n -> valid_date x.
Proof. now intros ?%julian_iff. Qed.

Lemma julian_bijection :
  (forall x, valid_date x -> exists! n, julian x n) /\ (forall n, exists! x, julian x n).
Proof.
  split.
  - intros x V. exists (Jd x). split; [now apply julian_iff|]. intros n H. now apply julian_Jd.
  - intros n. destruct (date_exists n) as (x & V & E). exists x. split; [now apply julian_iff|].
    intros x' [V' E']%julian_iff. apply Jd_inj; [exact V|exact V'|congruence].
Qed.

Lemma julian_next x n : julian x n -> julian (next_day x) (n + 1).
Proof. intros [V <-]%julian_iff. apply julian_iff. now apply J_next'. Qed.

Lemma try_from_rollover y m d n : fits_i64 y -> julian (y, m, 1) n -> 1 <= d <= 31 ->
  try_from_gregorian y m d = Ok (chk is_i64 (n + (d - 1))).
Proof.
  intros Hy [[Hm _] <-]%julian_iff Hd. rewrite try_from_spec; [|now apply fits_iff|exact Hm|exact Hd].
  f_equal. f_equal. unfold Jd, J. lia.
Qed.

Lemma valid_day_31 y m d : valid_date (y, m, d) -> 1 <= m <= 12 /\ 1 <= d <= 31.
Proof. intros [H H0]. pose proof (month_length_range y m). lia. Qed.

Lemma try_from_julian y m d n : fits_i64 y -> julian (y, m, d) n ->
  try_from_gregorian y m d = Ok (chk is_i64 n).
Proof.
  intros Hy [V <-]%julian_iff. destruct (valid_day_31 _ _ _ V).
  rewrite try_from_spec; [reflexivity|now apply fits_iff|lia|lia].
Qed.

Lemma to_gregorian_julian jd : jd_min <= jd <= jd_max ->
  exists x, to_gregorian jd = Ok (Some x) /\ julian x jd.
Proof.
  intros H. destruct (to_gregorian_in jd H) as (x & E & V & J). exists x. split; [exact E|].
  now apply julian_iff.
Qed.

Lemma to_gregorian_cases jd : is_i64 jd = true ->
  (jd_min <= jd <= jd_max /\ exists x, to_gregorian jd = Ok (Some x) /\ julian x jd) \/
  ((jd < jd_min \/ jd_max < jd) /\ jd <> jd_crash /\ to_gregorian jd = Ok None) \/
  (jd = jd_crash /\ to_gregorian jd = Crash CrashArith).
Proof.
  intros Hi. destruct (Z.eq_dec jd jd_crash) as [->|]; [right; right; split; reflexivity|].
  assert (jd_min <= jd <= jd_max \/ (jd < jd_min \/ jd_max < jd)) as [H|H] by lia.
  - left. split; [exact H|]. now apply to_gregorian_julian.
  - right; left. split; [exact H|]. split; [assumption|]. now apply to_gregorian_out.
Qed.

Lemma to_gregorian_Some jd x : is_i64 jd = true -> to_gregorian jd = Ok (Some x) ->
  julian x jd /\ jd_min <= jd <= jd_max.
Proof.
  intros Hi E. destruct (to_gregorian_cases jd Hi) as [(? & x' & E' & ?)|[(? & ? & E')|(? & E')]];
    rewrite E in E'; try discriminate. injection E' as <-. now split.
Qed.

Lemma Jd_year y m d : valid_date (y, m, d) -> 365 * y - 400 + y / 4 - y / 100 + y / 400 + JD_BASE <= Jd (y, m, d)
  <= 365 * y + 400 + y / 4 - y / 100 + y / 400 + JD_BASE.
Proof.
  intros V. pose proof (ordinal_range _ _ _ V) as O. unfold L in O. unfold Jd, J.
  assert (my y m = y - 1 \/ my y m = y) as [E|E] by (unfold my; destruct (_ <? _); lia); rewrite E in *;
    unfold A; destruct (leap _); lia.
Qed.

Lemma julian_year_fits y m d n : julian (y, m, d) n -> fits_i64 n -> fits_i64 y.
Proof.
  intros [V <-]%julian_iff. pose proof (Jd_year _ _ _ V) as H. unfold JD_BASE in H. unfold fits_i64. lia.
Qed.

Lemma julian_to_gregorian_year y m d n : julian (y, m, d) n -> jd_min <= n <= jd_max ->
  -260000000000000 <= y <= 260000000000000.
Proof.
  intros [V <-]%julian_iff. pose proof (Jd_year _ _ _ V) as H. unfold JD_BASE in H. unfold jd_min, jd_max. lia.
Qed.

(** ** Time of day *)
Lemma day_nanos_val : day_nanos = NANOS_PER_DAY. Proof. reflexivity. Qed.

Lemma date_time_ok_iff x : date_time_ok x <-> fits_i64 (days x) /\ 0 <= time x < 86400000000000.
Proof. unfold date_time_ok. now rewrite fits_iff. Qed.

Lemma instant_day x : date_time_ok x -> instant x / day_nanos = days x /\ instant x mod day_nanos = time x.
Proof.
  intros [_ H]%date_time_ok_iff. unfold instant, day_nanos.
  split; [symmetry; apply Z.div_unique with (r := time x)|symmetry; apply Z.mod_unique with (q := days x)]; lia.
Qed.

Lemma instant_inj x y : date_time_ok x -> date_time_ok y -> instant x = instant y -> x = y.
Proof.
  intros Hx Hy E. destruct (instant_day x Hx), (instant_day y Hy). destruct x, y; cbn in *.
  rewrite E in *. congruence.
Qed.

Lemma dt_cmp_spec x y : date_time_ok x -> date_time_ok y -> dt_cmp x y = Z.compare (instant x) (instant y).
Proof.
  intros [_ Hx]%date_time_ok_iff [_ Hy]%date_time_ok_iff. unfold dt_cmp, instant, day_nanos.
  destruct (Z.compare_spec (days x) (days y)).
  - destruct (Z.compare_spec (time x) (time y)); symmetry;
      [apply Z.compare_eq_iff|apply Z.compare_lt_iff|apply Z.compare_gt_iff]; lia.
  - symmetry. apply Z.compare_lt_iff. lia.
  - symmetry. apply Z.compare_gt_iff. lia.
Qed.

Lemma dt_eqb_spec x y : date_time_ok x -> date_time_ok y -> dt_eqb x y = true <-> instant x = instant y.
Proof.
  intros Hx Hy. unfold dt_eqb. rewrite andb_true_iff, !Z.eqb_eq. split.
  - intros [E1 E2]. unfold instant. congruence.
  - intros E. rewrite (instant_inj x y Hx Hy E). now split.
Qed.

Lemma add_duration_spec x d : date_time_ok x -> duration_ok d ->
  (fits_i64 ((instant x + nanos d) / day_nanos) ->
     exists y, checked_add_duration x d = Ok (Some y) /\ date_time_ok y /\ instant y = instant x + nanos d) /\
  (~ fits_i64 ((instant x + nanos d) / day_nanos) -> checked_add_duration x d = Ok None).
Proof.
  intros Hx Hd. pose proof Hx as [Hxd Hxt]%date_time_ok_iff.
  destruct (extract_i64_spec d 86400 Hd ltac:(lia)) as (n & rest & E & Hr & En & Es & Hb & _).
  unfold checked_add_duration, extract_days, SECS_PER_DAY. rewrite E. cbn [bind].
  pose proof (as_nanos_spec rest Hr) as Hn. set (r := nanos rest) in *. clearbody r.
  set (v := nanos d) in *.
  assert (Hsign : (0 <= v -> 0 <= n /\ 0 <= r) /\ (v <= 0 -> n <= 0 /\ r <= 0)).
  { subst n. clear - Es Hb. clearbody v.
    pose proof (Z.quot_rem' v (86400 * 1000000000)) as Q.
    set (k := 86400 * 1000000000) in *.
    assert (0 < k) by reflexivity.
    assert (r = Z.rem v k) by lia. subst r. split; intros.
    - split; [apply Z.quot_pos; lia|apply Z.rem_bound_pos; lia].
    - split. { pose proof (Z.quot_pos (- v) k ltac:(lia) ltac:(lia)) as Q2.
               rewrite Z.quot_opp_l in Q2 by lia. lia. }
      pose proof (Z.rem_bound_pos (- v) k ltac:(lia) ltac:(lia)) as Q2. rewrite Z.rem_opp_l in Q2 by lia. lia. }
  clear En. unfold instant. rewrite Es. clear E Hd. clearbody v.
  set (D := (days x * day_nanos + time x + (n * (86400 * 1000000000) + r)) / day_nanos).
  assert (HD : D = days x + n + (if time x + r <? 0 then -1 else if time x + r <? NANOS_PER_DAY then 0 else 1)).
  { unfold D, day_nanos, NANOS_PER_DAY in *.
    destruct (time x + r <? 0) eqn:E1; [|destruct (time x + r <? 86400000000000) eqn:E2]; symmetry.
    - apply Z.div_unique with (r := time x + r + 86400000000000); lia.
    - apply Z.div_unique with (r := time x + r); lia.
    - apply Z.div_unique with (r := time x + r - 86400000000000); lia. }
  unfold jd_checked_add.
  destruct (chk_spec is_i64 (days x + n)) as [[H1 ->]|[H1 ->]].
  2:{ split; [|reflexivity]. intros HF. exfalso. rewrite HD in HF. unfold fits_i64 in *.
      assert (~ fits_i64 (days x + n)) as HN by (rewrite fits_iff; congruence).
      unfold fits_i64, NANOS_PER_DAY in *.
      destruct (time x + r <? 0) eqn:E1; [|destruct (time x + r <? 86400000000000) eqn:E2]; lia. }
  rewrite Hn. cbn [bind]. unfold NANOS_PER_DAY in *.
  assert (-86400000000000 < r < 86400000000000) by lia.
  rewrite chk_true by (rewrite is_i64_iff; lia). cbn [unwrap bind].
  rewrite chk_true by (rewrite is_i64_iff; lia). cbn [unwrap bind].
  rewrite arith_ok by (rewrite is_i64_iff; lia). cbn [bind].
  destruct (time x + r <? 0) eqn:E1; [|destruct (time x + r <? 86400000000000) eqn:E2].
  - replace (days x + n + -1) with D by lia. split; intros HF.
    + rewrite chk_fits by exact HF. rewrite arith_ok by (rewrite is_i64_iff; lia). cbn [bind].
      rewrite chk_true by (rewrite is_u64_iff; lia). cbn [unwrap bind].
      eexists. split; [reflexivity|]. rewrite date_time_ok_iff. unfold instant. cbn [days time].
      split; [split; [exact HF|lia]|]. unfold day_nanos in *. lia.
    + now rewrite chk_not_fits by exact HF.
  - replace (days x + n) with D by lia. split; intros HF.
    + rewrite chk_true by (rewrite is_u64_iff; lia). cbn [unwrap bind].
      eexists. split; [reflexivity|]. rewrite date_time_ok_iff. unfold instant. cbn [days time].
      split; [split; [exact HF|lia]|]. unfold day_nanos in *. lia.
    + exfalso. apply HF. rewrite fits_iff. rewrite HD. now rewrite Z.add_0_r.
  - replace (days x + n + 1) with D by lia. split; intros HF.
    + rewrite chk_fits by exact HF. rewrite arith_ok by (rewrite is_i64_iff; lia). cbn [bind].
      rewrite chk_true by (rewrite is_u64_iff; lia). cbn [unwrap bind].
      eexists. split; [reflexivity|]. rewrite date_time_ok_iff. unfold instant. cbn [days time].
      split; [split; [exact HF|lia]|]. unfold day_nanos in *. lia.
    + now rewrite chk_not_fits by exact HF.
Qed.

Lemma sub_duration_spec x d : date_time_ok x -> duration_ok d ->
  (fits_i64 ((instant x - nanos d) / day_nanos) ->
     exists y, checked_sub_duration x d = Ok (Some y) /\ date_time_ok y /\ instant y = instant x - nanos d) /\
  (~ fits_i64 ((instant x - nanos d) / day_nanos) -> checked_sub_duration x d = Ok None).
Proof.
  intros Hx Hd. pose proof (add_duration_spec x (dneg d) Hx (dneg_ok _ Hd)) as H.
  rewrite nanos_dneg in H. exact H.
Qed.

Lemma duration_since_spec x y : date_time_ok x -> date_time_ok y ->
  (representable (instant x - instant y) ->
     exists d, duration_since x y = Ok (Some d) /\ duration_ok d /\ nanos d = instant x - instant y) /\
  (~ representable (instant x - instant y) -> duration_since x y = Ok None).
Proof.
  intros [Hx Hxt]%date_time_ok_iff [Hy Hyt]%date_time_ok_iff.
  unfold duration_since, jd_checked_sub, representable. rewrite max_nanos_val. unfold instant, day_nanos.
  destruct (chk_spec is_i64 (days x - days y)) as [[H1 ->]|[H1 ->]].
  2:{ split; [|reflexivity]. intros R. exfalso. 
      assert (~ fits_i64 (days x - days y)) as HN by (rewrite fits_iff; congruence).
      unfold fits_i64 in *. lia. }
  rewrite is_i64_iff in H1. unfold fits_i64 in *.
  rewrite chk_true by (rewrite is_i64_iff; lia). cbn [unwrap bind].
  rewrite chk_true by (rewrite is_i64_iff; lia). cbn [unwrap bind].
  rewrite chk_true by (rewrite is_i64_iff; lia).
  unfold NANOS_PER_DAY, NANOS_PER_SEC. rewrite chk_true by (rewrite is_i128_iff; lia). cbn [obind].
  rewrite chk_true by (rewrite is_i128_iff; lia).
  set (t := (days x - days y) * 86400000000000 + (time x - time y)).
  replace (days x * (24 * 60 * 60 * 1000000000) + time x - (days y * (24 * 60 * 60 * 1000000000) + time y))
    with t by (unfold t; lia). clearbody t.
  destruct (chk_spec is_u64 (Z.abs t / 1000000000)) as [[H2 ->]|[H2 ->]].
  - rewrite is_u64_iff in H2. rewrite chk_true by (rewrite is_u32_iff; lia). cbn [unwrap bind].
    rewrite std_new_ok by lia. cbn [bind]. split; [intros R|lia].
    eexists. split; [reflexivity|]. split.
    + rewrite duration_ok_iff. cbn. lia.
    + rewrite nanos_from_std. unfold std_nanos. cbn [secs subsec]. destruct (t <? 0) eqn:E; lia.
  - split; [|reflexivity]. intros R. exfalso.
    assert (~ 0 <= Z.abs t / 1000000000 <= 18446744073709551615) by (rewrite <- is_u64_iff; congruence). lia.
Qed.

(** ** from_gregorian_date_time, as_hmsn *)
Lemma validate_ok x lo hi : lo <= x <= hi -> validate x lo hi = Ok tt.
Proof. intros. unfold validate. destruct (_ || _) eqn:E; [lia|reflexivity]. Qed.
Lemma validate_bad x lo hi : ~ lo <= x <= hi -> validate x lo hi = Crash CrashUnwrap.
Proof. intros. unfold validate. destruct (_ || _) eqn:E; [reflexivity|lia]. Qed.

Lemma from_gdt_spec y mo d h mi s n j : fits_i64 y -> julian (y, mo, 1) j -> 1 <= d <= 31 ->
  0 <= h <= 23 -> 0 <= mi <= 59 -> 0 <= s <= 59 -> 0 <= n <= 999999999 -> fits_i64 (j + (d - 1)) ->
  exists x, from_gregorian_date_time y mo d h mi s n = Ok x /\ date_time_ok x /\
    days x = j + (d - 1) /\ time x = ((h * 60 + mi) * 60 + s) * 1000000000 + n.
Proof.
  intros Hy Hj Hd Hh Hmi Hs Hn HF. unfold from_gregorian_date_time, NANOS_PER_SEC.
  rewrite !validate_ok by lia. cbn [bind].
  unfold from_gregorian. rewrite (try_from_rollover y mo d j Hy Hj Hd).
  rewrite chk_fits by exact HF. cbn [bind unwrap].
  rewrite arith_ok by (rewrite is_u64_iff; lia). cbn [bind].
  rewrite arith_ok by (rewrite is_u64_iff; lia). cbn [bind].
  rewrite arith_ok by (rewrite is_u64_iff; lia). cbn [bind].
  rewrite arith_ok by (rewrite is_u64_iff; lia). cbn [bind].
  rewrite arith_ok by (rewrite is_u64_iff; lia). cbn [bind].
  rewrite arith_ok by (rewrite is_u64_iff; lia). cbn [bind].
  eexists. split; [reflexivity|]. rewrite date_time_ok_iff. cbn [days time].
  split; [split; [exact HF|lia]|]. split; [reflexivity|lia].
Qed.

Lemma as_hmsn_spec x : date_time_ok x ->
  exists h mi s n, as_hmsn x = (h, mi, s, n) /\ 0 <= h <= 23 /\ 0 <= mi <= 59 /\ 0 <= s <= 59 /\
    0 <= n <= 999999999 /\ time x = ((h * 60 + mi) * 60 + s) * 1000000000 + n.
Proof.
  intros [_ Ht]%date_time_ok_iff. unfold as_hmsn, NANOS_PER_SEC, wrap_u8, wrap_u32.
  set (t := time x) in *. clearbody t. change (2 ^ 32) with 4294967296.
  do 4 eexists. split; [reflexivity|].
  assert (0 <= t / 1000000000 <= 86399) by lia. set (q := t / 1000000000) in *.
  assert (0 <= t mod 1000000000 <= 999999999) by lia.
  rewrite (Z.mod_small (t mod 1000000000)) by lia.
  assert (0 <= q / 3600 <= 23) by lia. assert (0 <= q mod 3600 <= 3599) by lia.
  rewrite (Z.mod_small (q / 3600)) by lia.
  assert (0 <= q mod 3600 / 60 <= 59) by lia.
  rewrite (Z.mod_small (q mod 3600 / 60)) by lia.
  assert (0 <= (q mod 3600) mod 60 <= 59) by lia.
  rewrite (Z.mod_small ((q mod 3600) mod 60)) by lia.
  repeat (split; [lia|]). unfold q. lia.
Qed.

Lemma as_hmsn_unique h mi s n h' mi' s' n' :
  0 <= mi <= 59 -> 0 <= s <= 59 -> 0 <= n <= 999999999 ->
  0 <= mi' <= 59 -> 0 <= s' <= 59 -> 0 <= n' <= 999999999 ->
  ((h * 60 + mi) * 60 + s) * 1000000000 + n = ((h' * 60 + mi') * 60 + s') * 1000000000 + n' ->
  h = h' /\ mi = mi' /\ s = s' /\ n = n'.
Proof. lia. Qed.

Lemma UNIX_EPOCH_val : UNIX_EPOCH = Ok (DT 2440588 0).
Proof. reflexivity. Qed.

Lemma now_spec now : std_ok (match now with inl d | inr d => d end) ->
  exists x, now_utc_with_system_time now = Ok x /\ date_time_ok x /\
    instant x = 2440588 * day_nanos + (match now with inl d => std_nanos d | inr d => - std_nanos d end).
Proof.
  intros H. unfold now_utc_with_system_time. rewrite UNIX_EPOCH_val. cbn [bind].
  assert (He : date_time_ok (DT 2440588 0)).
  { rewrite date_time_ok_iff. unfold fits_i64. cbn [days time]. lia. }
  assert (K : forall d, duration_ok d ->
     exists x, (let* r := checked_add_duration (DT 2440588 0) d in unwrap r) = Ok x /\ date_time_ok x /\
       instant x = 2440588 * day_nanos + nanos d).
  { intros d Hd. destruct (add_duration_spec _ d He Hd) as [K _].
    pose proof (nanos_range d Hd) as R. rewrite max_nanos_val in R.
    destruct K as (y & -> & Hy & Ey).
    { unfold instant, day_nanos, fits_i64. cbn [days time]. lia. }
    exists y. split; [reflexivity|]. split; [exact Hy|]. rewrite Ey. unfold instant. cbn [days time]. lia. }
  destruct now as [s|s].
  - destruct (K (of_std s) H) as (x & -> & Hx & E). exists x. split; [reflexivity|]. now split.
  - destruct (K (from_std true s) H) as (x & -> & Hx & E). exists x. split; [reflexivity|]. now split.
Qed.

(** ** checked_add_gregorian *)
Lemma add_gregorian_spec x y m d years months dd j :
  date_time_ok x -> fits_i64 years -> fits_i64 months -> fits_i64 dd ->
  to_gregorian (days x) = Ok (Some (y, m, d)) ->
  julian ((12 * (y + years) + (m - 1) + months) / 12, (12 * (y + years) + (m - 1) + months) mod 12 + 1, 1) j ->
  checked_add_gregorian x years months dd =
    Ok (let? a := chk is_i64 (j + (d - 1)) in let? b := chk is_i64 (a + dd) in Some (DT b (time x))).
Proof.
  intros [Hx _]%date_time_ok_iff Hys Hms Hdd E Hj.
  apply to_gregorian_Some in E as E'; [|now apply fits_iff]. destruct E' as [Jx Rx].
  pose proof (julian_to_gregorian_year _ _ _ _ Jx Rx) as Hy.
  pose proof (valid_day_31 _ _ _ (julian_valid _ _ Jx)) as [Hm Hd].
  set (N := 12 * (y + years) + (m - 1) + months) in *.
  unfold checked_add_gregorian. rewrite E. cbn [bind].
  pose proof (Z.quot_rem' months 12) as Q.
  assert (Rb : (0 <= months -> 0 <= Z.rem months 12 < 12) /\ (months <= 0 -> -12 < Z.rem months 12 <= 0)).
  { split; intros; [apply Z.rem_bound_pos; lia|].
    pose proof (Z.rem_bound_pos (- months) 12 ltac:(lia) ltac:(lia)) as R.
    rewrite Z.rem_opp_l in R by lia. lia. }
  set (q := Z.quot months 12) in *. set (r := Z.rem months 12) in *.
  assert (Hr : -12 < r < 12) by lia.
  assert (HN : N / 12 = y + years + q + (if r + m - 1 <? 0 then -1 else if r + m - 1 <? 12 then 0 else 1) /\
               N mod 12 = r + m - 1 - 12 * (if r + m - 1 <? 0 then -1 else if r + m - 1 <? 12 then 0 else 1)).
  { destruct (r + m - 1 <? 0) eqn:E1; [|destruct (r + m - 1 <? 12) eqn:E2]; unfold N; lia. }
  destruct HN as [HN1 HN2]. set (c := if r + m - 1 <? 0 then -1 else if r + m - 1 <? 12 then 0 else 1) in *.
  assert (Hc : -1 <= c <= 1) by (unfold c; destruct (_ <? 0); [|destruct (_ <? 12)]; lia).
  assert (HB : ~ fits_i64 (years + q + c) \/ ~ fits_i64 (years + q) -> ~ fits_i64 (j + (d - 1))).
  { intros HB HF. assert (HJ : -2 ^ 63 - 100 <= j <= 2 ^ 63 + 100) by (unfold fits_i64 in HF; lia).
    apply julian_iff in Hj. destruct Hj as [V <-].
    pose proof (Jd_year _ _ _ V) as Y. unfold JD_BASE in Y. rewrite HN1 in Y, HJ.
    set (J1 := Jd _) in *. clearbody J1. clear V. unfold fits_i64 in *. lia. }
  assert (Hout : forall z, ~ fits_i64 z -> (let? a := chk is_i64 z in let? b := chk is_i64 (a + dd) in Some (DT b (time x))) = None).
  { intros z Hz. now rewrite chk_not_fits. }
  destruct (chk_spec is_i64 (years + q)) as [[H1 ->]|[H1 ->]].
  2:{ rewrite Hout; [reflexivity|]. apply HB. right. rewrite fits_iff. congruence. }
  assert (I8 : forall z, -128 <= z <= 127 -> is_i8 z = true) by (intros; unfold is_i8, inb; lia).
  rewrite chk_true by (apply I8; lia). cbn [unwrap bind].
  rewrite chk_true by (apply I8; lia). cbn [unwrap bind].
  rewrite arith_ok by (apply I8; lia). cbn [bind].
  rewrite arith_ok by (apply I8; lia). cbn [bind].
  assert (HM : 1 <= N mod 12 + 1 <= 12) by lia.
  set (K := fun p : option (Z * Z) =>
      match p with
      | None => Ok None
      | Some (month, years) =>
        match chk is_i64 (y + years) with
        | None => Ok None
        | Some year =>
          let* month := arith is_u8 (month + 1) in
          let* r := try_from_gregorian year month d in
          match r with
          | None => Ok None
          | Some jd =>
            match jd_checked_add jd dd with
            | None => Ok None
            | Some jd => Ok (Some (DT jd (time x)))
            end
          end
        end
      end).
  match goal with |- bind ?p _ = _ => change (bind p K = Ok (let? a := chk is_i64 (j + (d - 1)) in let? b := chk is_i64 (a + dd) in Some (DT b (time x)))) end.
  assert (HK : fits_i64 (years + q + c) -> K (Some (N mod 12, years + q + c)) =
      Ok (let? a := chk is_i64 (j + (d - 1)) in let? b := chk is_i64 (a + dd) in Some (DT b (time x)))).
  { intros HF. unfold K. replace (y + (years + q + c)) with (N / 12) by lia.
    destruct (chk_spec is_i64 (N / 12)) as [[H2 ->]|[H2 ->]].
    - rewrite arith_ok by (rewrite is_u8_iff; lia). cbn [bind].
      rewrite (try_from_rollover _ _ d j) by (try rewrite fits_iff; assumption). cbn [bind].
      destruct (chk is_i64 (j + (d - 1))) as [a|]; [|reflexivity]. cbn [obind]. unfold jd_checked_add.
      destruct (chk is_i64 (a + dd)); reflexivity.
    - rewrite Hout; [reflexivity|].
      assert (HN' : ~ fits_i64 (N / 12)) by (rewrite fits_iff; congruence).
      intros HF'. assert (HJ : -2 ^ 63 - 100 <= j <= 2 ^ 63 + 100) by (unfold fits_i64 in HF'; lia).
      apply julian_iff in Hj. destruct Hj as [V <-].
      pose proof (Jd_year _ _ _ V) as Y. unfold JD_BASE in Y.
      set (J1 := Jd _) in *. clearbody J1. clear V. unfold fits_i64 in *. lia. }
  destruct (fits_i64_dec (years + q + c)) as [HF|HF].
  - unfold c in HK, HF, HN2. destruct (r + m - 1 <? 0) eqn:E1; [|destruct (r + m - 1 <? 12) eqn:E2].
    + replace (years + q - 1) with (years + q + -1) by lia. rewrite chk_fits by exact HF.
      rewrite arith_ok by (apply I8; lia). cbn [bind].
      rewrite chk_true by (rewrite is_u8_iff; lia). cbn [unwrap bind].
      replace (r + m - 1 + 12) with (N mod 12) by lia. apply HK. exact HF.
    + rewrite chk_true by (rewrite is_u8_iff; lia). cbn [unwrap bind].
      rewrite <- (HK HF). f_equal. f_equal. f_equal; lia.
    + rewrite chk_fits by exact HF. rewrite arith_ok by (apply I8; lia). cbn [bind].
      rewrite chk_true by (rewrite is_u8_iff; lia). cbn [unwrap bind].
      rewrite <- (HK HF). f_equal. f_equal. f_equal; lia.
  - rewrite Hout by (apply HB; now left).
    unfold c in HF. destruct (r + m - 1 <? 0) eqn:E1; [|destruct (r + m - 1 <? 12) eqn:E2].
    + rewrite chk_not_fits by exact HF. reflexivity.
    + exfalso. apply HF. rewrite Z.add_0_r. now apply fits_iff.
    + rewrite chk_not_fits by exact HF. reflexivity.
Qed.
