(** * Property C50, with the offsets of the crates time and chrono: which instant a converted value denotes *)
From Verif Require Import Prelude Time SpecTime DateTime SpecDate DateProofs DateTimeProofs PropDate.

(** the date and the time of day [v] of the instant [i] (nanoseconds since midnight of the reference day) *)
Definition shows (i : Z) (v : calendar) : Prop :=
  0 <= cal_h v <= 23 /\ 0 <= cal_mi v <= 59 /\ 0 <= cal_s v <= 59 /\ 0 <= cal_n v <= 999999999 /\
  exists j, julian (cal_y v, cal_mo v, cal_d v) j /\
    i = j * day_nanos + ((cal_h v * 60 + cal_mi v) * 60 + cal_s v) * 1000000000 + cal_n v.
(** the years of these crates are i32 *)
Definition year_i32 (v : calendar) : Prop := -2147483648 <= cal_y v <= 2147483647.
(** an instant in UTC, with the offset of a time zone in nanoseconds: the values of time::OffsetDateTime and chrono::DateTime<T>. Two of them
    are equal in these crates if their instants are *)
Record zoned := Zoned { z_utc : Z; z_offset : Z }.

(** fundu-gnu/src/datetime.rs:785-789 From<chrono::DateTime<T>>: the date and time of `naive_utc()`, which are those of UTC *)
Definition from_chrono (z : zoned) (r : res date_time) : Prop := exists v, shows (z_utc z) v /\ r = from_chrono_calendar v.
(** fundu-gnu/src/datetime.rs:769-775 From<OffsetDateTime>: the date and time of `to_calendar_date()` and `to_hms_nano()`, which are those of the clock
    at the offset *)
Definition from_offset (z : zoned) (r : res date_time) : Prop := exists v, shows (z_utc z + z_offset z) v /\ r = from_time_calendar v.

(** every instant has exactly one date and time of day *)
Lemma shows_once i : exists! v, shows i v.
Proof.
  set (t := i mod day_nanos). assert (Ht : 0 <= t < day_nanos) by (apply Z.mod_pos_bound; reflexivity). unfold day_nanos in Ht.
  destruct (proj2 C41_julian_is_bijective (i / day_nanos)) as ([[y m] d] & J & JU).
  exists (Cal y m d (t / 3600000000000) (t / 60000000000 mod 60) (t / 1000000000 mod 60) (t mod 1000000000)). split.
  - unfold shows. cbn [cal_y cal_mo cal_d cal_h cal_mi cal_s cal_n].
    assert (E : t = ((t / 3600000000000 * 60 + t / 60000000000 mod 60) * 60 + t / 1000000000 mod 60) * 1000000000 + t mod 1000000000).
    { replace (t / 3600000000000) with (t / 60000000000 / 60) by (rewrite Z.div_div by lia; reflexivity).
      replace (t / 60000000000) with (t / 1000000000 / 60) by (rewrite Z.div_div by lia; reflexivity).
      pose proof (Z.div_mod (t / 1000000000 / 60) 60). pose proof (Z.div_mod (t / 1000000000) 60). pose proof (Z.div_mod t 1000000000). lia. }
    split; [split; [apply Z.div_pos; lia|apply Z.lt_succ_r; apply Z.div_lt_upper_bound; lia]|].
    split; [pose proof (Z.mod_pos_bound (t / 60000000000) 60); lia|]. split; [pose proof (Z.mod_pos_bound (t / 1000000000) 60); lia|].
    split; [pose proof (Z.mod_pos_bound t 1000000000); lia|]. exists (i / day_nanos). split; [exact J|]. rewrite <- Z.add_assoc, <- E.
    unfold t. pose proof (Z.div_mod i day_nanos). unfold day_nanos in *. lia.
  - intros [y' m' d' h mi s n] (H1 & H2 & H3 & H4 & j & J' & E). cbn [cal_y cal_mo cal_d cal_h cal_mi cal_s cal_n] in *.
    assert (B : 0 <= ((h * 60 + mi) * 60 + s) * 1000000000 + n < day_nanos) by (unfold day_nanos; lia). rewrite <- Z.add_assoc in E.
    assert (D : i / day_nanos = j) by (symmetry; apply Z.div_unique with (((h * 60 + mi) * 60 + s) * 1000000000 + n); lia).
    assert (M : t = ((h * 60 + mi) * 60 + s) * 1000000000 + n) by (unfold t; symmetry; apply Z.mod_unique with j; lia).
    rewrite D in JU. specialize (JU _ J'). injection JU as -> -> ->. clear - M H1 H2 H3 H4.
    assert (S1 : t / 1000000000 = (h * 60 + mi) * 60 + s) by (symmetry; apply Z.div_unique with n; lia).
    assert (S2 : t / 60000000000 = h * 60 + mi) by (symmetry; apply Z.div_unique with (s * 1000000000 + n); lia).
    f_equal.
    + symmetry. apply Z.div_unique with ((mi * 60 + s) * 1000000000 + n); lia.
    + rewrite S2. symmetry. apply Z.mod_unique with h; lia.
    + rewrite S1. symmetry. apply Z.mod_unique with (h * 60 + mi); lia.
    + symmetry. apply Z.mod_unique with ((h * 60 + mi) * 60 + s); lia.
Qed.
Lemma shown_instant i v : shows i v -> year_i32 v -> exists x, from_time_calendar v = Ok x /\ from_chrono_calendar v = Ok x /\ date_time_ok x /\ instant x = i.
Proof.
  intros (H1 & H2 & H3 & H4 & j & J & E) Y. pose proof (proj1 J) as V. unfold year_i32 in Y.
  destruct (C50_from_calendar v V Y H1 H2 H3 H4) as (x & E1 & E2 & HX & E3). exists x. split; [exact E1|]. split; [exact E2|]. split; [exact HX|].
  destruct (C49_fields_round_trip (cal_y v) (cal_mo v) (cal_d v) (cal_h v) (cal_mi v) (cal_s v) (cal_n v) V) as (x' & E1' & _ & _ & _ & F & G); try lia.
  unfold from_time_calendar in E1. rewrite E1 in E1'. injection E1' as <-. unfold as_julian_day in G.
  assert (D : days x = j).
  { destruct (C41_from_gregorian_exact_or_none (cal_y v) (cal_mo v) (cal_d v) j) as [A B]; [unfold fits_i64; lia|exact J|].
    assert (Fd : fits_i64 j \/ ~ fits_i64 j) by (unfold fits_i64; lia). destruct Fd as [Fd|Fd]; [apply A in Fd; destruct Fd as [_ Fd]; congruence|apply B in Fd; destruct Fd as [_ Fd]; congruence]. }
  unfold instant. rewrite D, E. rewrite <- Z.add_assoc. f_equal. destruct HX as [_ HX]. revert F HX. clear. intros F HX. unfold as_hmsn in F. injection F as F1 F2 F3 F4.
  unfold NANOS_PER_SEC, NANOS_PER_DAY in *. set (t := time x) in *. clearbody t.
  assert (0 <= t / 1000000000 < 86400) by (split; [apply Z.div_pos; lia|apply Z.div_lt_upper_bound; lia]). set (q := t / 1000000000) in *.
  assert (0 <= q / 3600 < 24) by (split; [apply Z.div_pos; lia|apply Z.div_lt_upper_bound; lia]).
  assert (0 <= q mod 3600 < 3600) by (apply Z.mod_pos_bound; lia). set (r := q mod 3600) in *.
  assert (0 <= r / 60 < 60) by (split; [apply Z.div_pos; lia|apply Z.div_lt_upper_bound; lia]).
  assert (0 <= r mod 60 < 60) by (apply Z.mod_pos_bound; lia). assert (0 <= t mod 1000000000 < 1000000000) by (apply Z.mod_pos_bound; lia).
  unfold wrap_u8, wrap_u32 in *. rewrite Z.mod_small in F1, F2, F3, F4 by lia.
  pose proof (Z.div_mod t 1000000000). pose proof (Z.div_mod q 3600). pose proof (Z.div_mod r 60). unfold q, r in *. lia.
Qed.

(** a date and time of chrono is converted to the DateTime of the same instant, whatever its time zone *)
Theorem C50_chrono_instant : forall z r, from_chrono z r -> (forall v, shows (z_utc z) v -> year_i32 v) ->
  exists x, r = Ok x /\ date_time_ok x /\ instant x = z_utc z.
Proof.
  intros z r (v & H & ->) Y. destruct (shown_instant _ v H (Y v H)) as (x & _ & E & HX & I). eauto.
Qed.
Print Assumptions C50_chrono_instant.
(** a date and time of the crate time is converted to the DateTime with the same date and time of day, which is the same instant only at offset 0 *)
Theorem C50_time_offset : forall z r, from_offset z r -> (forall v, shows (z_utc z + z_offset z) v -> year_i32 v) ->
  exists x, r = Ok x /\ date_time_ok x /\ instant x = z_utc z + z_offset z.
Proof.
  intros z r (v & H & ->) Y. destruct (shown_instant _ v H (Y v H)) as (x & E & _ & HX & I). eauto.
Qed.
Print Assumptions C50_time_offset.
(** so that equal values of the crate time (the same instant at different offsets) become different DateTimes, as many nanoseconds apart as the offsets *)
Theorem C50_time_instant_refuted : forall z1 z2 r1 r2, z_utc z1 = z_utc z2 -> from_offset z1 r1 -> from_offset z2 r2 ->
  (forall v, shows (z_utc z1 + z_offset z1) v \/ shows (z_utc z2 + z_offset z2) v -> year_i32 v) ->
  exists x1 x2, r1 = Ok x1 /\ r2 = Ok x2 /\ instant x2 - instant x1 = z_offset z2 - z_offset z1 /\ (x1 = x2 <-> z_offset z1 = z_offset z2).
Proof.
  intros z1 z2 r1 r2 E H1 H2 Y. destruct (C50_time_offset z1 r1 H1) as (x1 & -> & O1 & I1); [auto|]. destruct (C50_time_offset z2 r2 H2) as (x2 & -> & O2 & I2); [auto|].
  exists x1, x2. split; [reflexivity|]. split; [reflexivity|]. split; [lia|]. split; [intros ->; lia|]. intros O.
  assert (I : instant x1 = instant x2) by lia. destruct O1 as [_ O1], O2 as [_ O2]. destruct x1 as [d1 t1], x2 as [d2 t2]. unfold instant, day_nanos, NANOS_PER_DAY in *. cbn [days time] in *.
  assert (d1 = d2) by lia. subst. f_equal. lia.
Qed.
Print Assumptions C50_time_instant_refuted.
(** both conversions have a result for every instant *)
Theorem C50_every_instant : forall z, (exists! r, from_chrono z r) /\ (exists! r, from_offset z r).
Proof.
  intros z. split.
  - destruct (shows_once (z_utc z)) as (v & S & U). exists (from_chrono_calendar v). split; [now exists v|]. intros r (v' & S' & ->). now rewrite (U v' S').
  - destruct (shows_once (z_utc z + z_offset z)) as (v & S & U). exists (from_time_calendar v). split; [now exists v|]. intros r (v' & S' & ->). now rewrite (U v' S').
Qed.
Print Assumptions C50_every_instant.
(** the examples of the documentation (fundu-gnu/src/datetime.rs:343-385): 2000-12-31 23:59:59 at +2 hours in chrono, and the same instant at -2 hours in time *)
Example C50_offset_example : let utc := Cal 2000 12 31 21 59 59 0 in let local := Cal 2000 12 31 23 59 59 0 in
  let i := 2451910 * day_nanos + 79199 * 1000000000 in
  shows i utc /\ shows (i + 7200 * 1000000000) local /\
  from_chrono (Zoned i (7200 * 1000000000)) (from_gregorian_date_time 2000 12 31 21 59 59 0) /\
  from_offset (Zoned i (7200 * 1000000000)) (from_gregorian_date_time 2000 12 31 23 59 59 0).
Proof.
  intros utc local i.
  assert (J : julian (2000, 12, 31) 2451910).
  { destruct (C41_julian_is_bijective) as [A _]. assert (V : valid_date (2000, 12, 31)) by (vm_compute; repeat split; discriminate). destruct (A _ V) as (n & Hn & _).
    destruct (C41_from_gregorian_exact_or_none 2000 12 31 n) as [B C]; [unfold fits_i64; lia|exact Hn|].
    assert (Fd : fits_i64 n \/ ~ fits_i64 n) by (unfold fits_i64; lia). destruct Fd as [Fd|Fd].
    - apply B in Fd. destruct Fd as [Fd _]. vm_compute in Fd. injection Fd as <-. exact Hn.
    - apply C in Fd. destruct Fd as [Fd _]. vm_compute in Fd. discriminate. }
  assert (S1 : shows i utc) by (unfold shows, utc; cbn [cal_y cal_mo cal_d cal_h cal_mi cal_s cal_n]; do 4 (split; [lia|]); exists 2451910; split; [exact J|reflexivity]).
  assert (S2 : shows (i + 7200 * 1000000000) local) by (unfold shows, local; cbn [cal_y cal_mo cal_d cal_h cal_mi cal_s cal_n]; do 4 (split; [lia|]); exists 2451910; split; [exact J|reflexivity]).
  split; [exact S1|]. split; [exact S2|]. split; [exists utc; split; [exact S1|reflexivity]|exists local; split; [exact S2|reflexivity]].
Qed.
