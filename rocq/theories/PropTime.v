(** * Properties C01-C09, C11, C46: the Duration type, its conversions, multipliers and time units *)
From Verif Require Import Prelude Time SpecTime TimeProofs.

(** C01 *)
Theorem C01_checked_add_exact_or_none : forall a b, duration_ok a -> duration_ok b ->
  (representable (nanos a + nanos b) ->
     exists c, checked_add a b = Ok (Some c) /\ duration_ok c /\ nanos c = nanos a + nanos b) /\
  (~ representable (nanos a + nanos b) -> checked_add a b = Ok None).
Proof. exact checked_add_iff. Qed.
Print Assumptions C01_checked_add_exact_or_none.
(** both cases occur: -1.5s + 0.25s, and MAX + 1ns *)
Example C01_checked_add_example :
  duration_ok (Dur true (Std 1 500000000)) /\ duration_ok (Dur false (Std 0 250000000)) /\ duration_ok MAX /\
  representable (nanos (Dur true (Std 1 500000000)) + nanos (Dur false (Std 0 250000000))) /\
  checked_add (Dur true (Std 1 500000000)) (Dur false (Std 0 250000000)) = Ok (Some (Dur true (Std 1 250000000))) /\
  ~ representable (nanos MAX + nanos (Dur false (Std 0 1))) /\ checked_add MAX (Dur false (Std 0 1)) = Ok None.
Proof. repeat split; try (vm_compute; congruence). intros [_ H]. vm_compute in H. now apply H. Qed.

Theorem C01_checked_sub_exact_or_none : forall a b, duration_ok a -> duration_ok b ->
  (representable (nanos a - nanos b) ->
     exists c, checked_sub a b = Ok (Some c) /\ duration_ok c /\ nanos c = nanos a - nanos b) /\
  (~ representable (nanos a - nanos b) -> checked_sub a b = Ok None).
Proof. exact checked_sub_iff. Qed.
Print Assumptions C01_checked_sub_exact_or_none.
Example C01_checked_sub_example :
  representable (nanos (Dur true (Std 1 500000000)) - nanos (Dur false (Std 0 750000000))) /\
  checked_sub (Dur true (Std 1 500000000)) (Dur false (Std 0 750000000)) = Ok (Some (Dur true (Std 2 250000000))) /\
  ~ representable (nanos MIN - nanos (Dur false (Std 0 1))) /\ checked_sub MIN (Dur false (Std 0 1)) = Ok None.
Proof. repeat split; try (vm_compute; congruence). intros [H _]. vm_compute in H. now apply H. Qed.

(** the bounds really are Duration::MIN and Duration::MAX, and every value between them is a Duration *)
Theorem C01_representable_iff : forall x,
  (exists d, duration_ok d /\ nanos d = x) <-> nanos MIN <= x <= nanos MAX.
Proof. exact representable_iff_between. Qed.
Print Assumptions C01_representable_iff.
Example C01_representable_example : nanos MIN <= -1500000000 <= nanos MAX /\ nanos (Dur true (Std 1 500000000)) = -1500000000.
Proof. vm_compute. repeat split; congruence. Qed.

(** C02 *)
Theorem C02_saturating_add_clamps : forall a b, duration_ok a -> duration_ok b ->
  exists c, saturating_add a b = Ok c /\ duration_ok c /\ nanos c = clamp_nanos (nanos a + nanos b).
Proof. exact saturating_add_spec. Qed.
Print Assumptions C02_saturating_add_clamps.

Theorem C02_saturating_sub_clamps : forall a b, duration_ok a -> duration_ok b ->
  exists c, saturating_sub a b = Ok c /\ duration_ok c /\ nanos c = clamp_nanos (nanos a - nanos b).
Proof. exact saturating_sub_spec. Qed.
Print Assumptions C02_saturating_sub_clamps.
Example C02_saturating_example :
  duration_ok MAX /\ duration_ok MIN /\ saturating_add MAX (Dur false (Std 1 0)) = Ok MAX /\ saturating_add MIN (Dur true (Std 0 1)) = Ok MIN /\
  saturating_sub MIN MAX = Ok MIN /\ saturating_sub (Dur false (Std 5 1)) (Dur false (Std 7 0)) = Ok (Dur true (Std 1 999999999)).
Proof. vm_compute. repeat split; congruence. Qed.

Theorem C02_add_operator : forall a b, duration_ok a -> duration_ok b ->
  (representable (nanos a + nanos b) ->
     exists c, dadd a b = Ok c /\ duration_ok c /\ nanos c = nanos a + nanos b) /\
  (~ representable (nanos a + nanos b) -> dadd a b = Crash CrashUnwrap).
Proof. exact dadd_iff. Qed.
Print Assumptions C02_add_operator.

Theorem C02_sub_operator : forall a b, duration_ok a -> duration_ok b ->
  (representable (nanos a - nanos b) ->
     exists c, dsub a b = Ok c /\ duration_ok c /\ nanos c = nanos a - nanos b) /\
  (~ representable (nanos a - nanos b) -> dsub a b = Crash CrashUnwrap).
Proof. exact dsub_iff. Qed.
Print Assumptions C02_sub_operator.
Example C02_operators_example :
  dadd (Dur false (Std 1 600000000)) (Dur false (Std 1 600000000)) = Ok (Dur false (Std 3 200000000)) /\
  dadd MAX MAX = Crash CrashUnwrap /\ ~ representable (nanos MAX + nanos MAX) /\
  dsub (Dur false (Std 1 0)) (Dur false (Std 1 1)) = Ok (Dur true (Std 0 1)) /\
  dsub MIN MAX = Crash CrashUnwrap /\ ~ representable (nanos MIN - nanos MAX).
Proof.
  split; [reflexivity|]. split; [reflexivity|]. split; [intros [_ H]; vm_compute in H; now apply H|].
  split; [reflexivity|]. split; [reflexivity|]. intros [H _]; vm_compute in H; now apply H.
Qed.

(** C03 *)
Theorem C03_cmp_is_value_order : forall a b, duration_ok a -> duration_ok b ->
  dcmp a b = Z.compare (nanos a) (nanos b).
Proof. exact dcmp_spec. Qed.
Print Assumptions C03_cmp_is_value_order.

Theorem C03_eq_is_value_equality : forall a b, duration_ok a -> duration_ok b ->
  deqb a b = true <-> nanos a = nanos b.
Proof. exact deqb_iff. Qed.
Print Assumptions C03_eq_is_value_equality.

Theorem C03_eq_iff_cmp_equal : forall a b, duration_ok a -> duration_ok b ->
  deqb a b = true <-> dcmp a b = Eq.
Proof. exact deqb_iff_cmp. Qed.
Print Assumptions C03_eq_iff_cmp_equal.

Theorem C03_min_is_value_minimum : forall a b, duration_ok a -> duration_ok b ->
  duration_ok (dmin a b) /\ nanos (dmin a b) = Z.min (nanos a) (nanos b).
Proof. exact dmin_spec. Qed.
Print Assumptions C03_min_is_value_minimum.
Example C03_example :
  dcmp (Dur true (Std 2 0)) (Dur true (Std 1 999999999)) = Lt /\ dcmp (Dur true (Std 0 0)) ZERO = Eq /\
  deqb (Dur true (Std 0 0)) ZERO = true /\ deqb (Dur true (Std 0 1)) (Dur false (Std 0 1)) = false /\
  dmin (Dur true (Std 2 0)) (Dur false (Std 1 0)) = Dur true (Std 2 0).
Proof. repeat split. Qed.

(** C04 *)
Theorem C04_hash_iff_equal : forall a b, duration_ok a -> duration_ok b ->
  (dhash a = dhash b <-> deqb a b = true).
Proof. exact dhash_iff_eq. Qed.
Print Assumptions C04_hash_iff_equal.
(** the two zeros are equal, so they hash equally *)
Example C04_example : dhash (Dur true (Std 0 0)) = dhash ZERO /\ dhash (Dur true (Std 1 0)) <> dhash (Dur false (Std 1 0)).
Proof. split; [reflexivity|discriminate]. Qed.

(** C05 *)
Theorem C05_neg : forall d, duration_ok d ->
  duration_ok (dneg d) /\ nanos (dneg d) = - nanos d /\ dneg (dneg d) = d.
Proof. exact dneg_all. Qed.
Print Assumptions C05_neg.

Theorem C05_abs : forall d, duration_ok d ->
  duration_ok (abs d) /\ nanos (abs d) = Z.abs (nanos d) /\ is_negative (abs d) = false.
Proof. exact abs_all. Qed.
Print Assumptions C05_abs.
(** the signs: a duration is either negative or positive, also zero, which can be both *)
Theorem C05_signs : forall d, duration_ok d ->
  (is_zero d = true <-> nanos d = 0) /\ is_positive d = negb (is_negative d) /\
  (nanos d < 0 <-> is_negative d = true /\ is_zero d = false) /\ (0 < nanos d <-> is_positive d = true /\ is_zero d = false) /\
  nanos (Dur true (Std 0 0)) = 0 /\ is_negative (Dur true (Std 0 0)) = true.
Proof.
  intros [n [se na]] H. unfold duration_ok, std_ok in H. cbn [inner neg secs subsec] in H.
  unfold is_zero, std_is_zero, is_positive, is_negative, nanos, std_nanos, is_u64, is_u32 in *. cbn [inner neg secs subsec] in *.
  unfold inb in H. cbv zeta. rewrite andb_true_iff, andb_false_iff, !Z.eqb_eq, !Z.eqb_neq. destruct n; cbn [negb]; repeat split; intros; try congruence; lia.
Qed.
Print Assumptions C05_signs.
Example C05_example : nanos (dneg (Dur true (Std 1 5))) = 1000000005 /\ nanos (abs (Dur true (Std 1 5))) = 1000000005 /\ dneg MIN = MAX.
Proof. repeat split. Qed.

(** C06 *)
Theorem C06_as_units_truncate : forall d, duration_ok d ->
  as_weeks d = Ok (Z.quot (nanos d) (604800 * 1000000000)) /\
  as_days d = Ok (Z.quot (nanos d) (86400 * 1000000000)) /\
  as_hours d = Ok (Z.quot (nanos d) (3600 * 1000000000)) /\
  as_minutes d = Ok (Z.quot (nanos d) (60 * 1000000000)) /\
  as_seconds d = Z.quot (nanos d) 1000000000 /\
  as_millis d = Ok (Z.quot (nanos d) 1000000) /\
  as_micros d = Ok (Z.quot (nanos d) 1000) /\
  as_nanos d = Ok (nanos d).
Proof. exact as_units_all. Qed.
Print Assumptions C06_as_units_truncate.

Theorem C06_subsec_truncate : forall d, duration_ok d ->
  subsec_millis d = Ok (Z.quot (Z.rem (nanos d) 1000000000) 1000000) /\
  subsec_micros d = Ok (Z.quot (Z.rem (nanos d) 1000000000) 1000) /\
  subsec_nanos d = Ok (Z.rem (nanos d) 1000000000).
Proof. exact subsec_all. Qed.
Print Assumptions C06_subsec_truncate.
Example C06_example :
  duration_ok (Dur true (Std 864001 999999999)) /\ as_days (Dur true (Std 864001 999999999)) = Ok (-10) /\
  as_millis (Dur true (Std 864001 999999999)) = Ok (-864001999) /\ subsec_micros (Dur true (Std 864001 999999999)) = Ok (-999999).
Proof. vm_compute. repeat split; congruence. Qed.

(** C07: [splits_off X d r]: r is the result (n, remainder) of extracting the unit of X nanoseconds from d *)
Definition splits_off (X : Z) (d : duration) (r : res (Z * duration)) : Prop :=
  exists n rest, r = Ok (n, rest) /\ duration_ok rest /\
    n = Z.quot (nanos d) X /\ nanos d = n * X + nanos rest /\
    Z.abs (nanos rest) < X /\ is_negative rest = is_negative d.

Theorem C07_extract_splits : forall d, duration_ok d ->
  splits_off (604800 * 1000000000) d (extract_weeks d) /\
  splits_off (86400 * 1000000000) d (extract_days d) /\
  splits_off (3600 * 1000000000) d (extract_hours d) /\
  splits_off (60 * 1000000000) d (extract_minutes d) /\
  splits_off 1000000000 d (extract_seconds d).
Proof. exact extract_all. Qed.
Print Assumptions C07_extract_splits.
Example C07_example : extract_days (Dur true (Std 864001 999999999)) = Ok (-10, Dur true (Std 1 999999999)).
Proof. reflexivity. Qed.

(** C08 *)
Theorem C08_from_std_exact : forall s, std_ok s -> duration_ok (of_std s) /\ nanos (of_std s) = std_nanos s.
Proof. exact of_std_spec. Qed.
Print Assumptions C08_from_std_exact.

Theorem C08_try_into_std : forall d, duration_ok d ->
  (0 <= nanos d -> exists s, try_into_std d = inl s /\ std_ok s /\ std_nanos s = nanos d) /\
  (nanos d < 0 -> try_into_std d = inr NegativeDuration).
Proof. exact try_into_std_spec. Qed.
Print Assumptions C08_try_into_std.

Theorem C08_saturating_into_std : forall d, duration_ok d ->
  exists s, saturating_into_std d = Ok s /\ std_ok s /\ std_nanos s = Z.max 0 (nanos d).
Proof. exact saturating_into_std_spec. Qed.
Print Assumptions C08_saturating_into_std.
Example C08_example :
  std_ok (Std u64_max 999999999) /\ try_into_std (Dur false (Std 7 8)) = inl (Std 7 8) /\
  nanos (Dur true (Std 7 8)) < 0 /\ try_into_std (Dur true (Std 7 8)) = inr NegativeDuration /\
  saturating_into_std (Dur true (Std 7 8)) = Ok STD_ZERO /\ try_into_std (Dur true (Std 0 0)) = inl STD_ZERO.
Proof. repeat split. Qed.

(** C09: the bounds of time::Duration are [TIME_MIN, TIME_MAX], those of chrono::Duration [C_MIN, C_MAX] *)
Theorem C09_try_into_time : forall d, duration_ok d ->
  (time_nanos TIME_MIN <= nanos d <= time_nanos TIME_MAX ->
     exists t, try_into_time d = Ok (inl t) /\ time_ok t /\ time_nanos t = nanos d) /\
  (nanos d < time_nanos TIME_MIN -> try_into_time d = Ok (inr NegativeOverflow)) /\
  (time_nanos TIME_MAX < nanos d -> try_into_time d = Ok (inr PositiveOverflow)).
Proof. exact try_into_time_spec. Qed.
Print Assumptions C09_try_into_time.

Theorem C09_saturating_into_time : forall d, duration_ok d ->
  exists t, saturating_into_time d = Ok t /\ time_ok t /\
    time_nanos t = clamp (time_nanos TIME_MIN) (time_nanos TIME_MAX) (nanos d).
Proof. exact saturating_into_time_spec. Qed.
Print Assumptions C09_saturating_into_time.

Theorem C09_from_time_exact : forall t, time_ok t ->
  exists d, of_time t = Ok d /\ duration_ok d /\ nanos d = time_nanos t.
Proof. exact of_time_spec. Qed.
Print Assumptions C09_from_time_exact.
Example C09_time_example :
  try_into_time (Dur true (Std 9223372036854775808 999999999)) = Ok (inl TIME_MIN) /\
  try_into_time (Dur true (Std 9223372036854775809 0)) = Ok (inr NegativeOverflow) /\ nanos (Dur true (Std 9223372036854775809 0)) < time_nanos TIME_MIN /\
  try_into_time (Dur false (Std 9223372036854775808 0)) = Ok (inr PositiveOverflow) /\
  saturating_into_time MAX = Ok TIME_MAX /\ time_ok (Tdur (-1) (-500000000)) /\ of_time (Tdur (-1) (-500000000)) = Ok (Dur true (Std 1 500000000)).
Proof. vm_compute. repeat split; try congruence; intros; discriminate. Qed.

Theorem C09_try_into_chrono : forall d, duration_ok d ->
  (c_value C_MIN <= nanos d <= c_value C_MAX ->
     exists c, try_into_chrono d = Ok (inl c) /\ chrono_ok c /\ c_value c = nanos d) /\
  (nanos d < c_value C_MIN -> try_into_chrono d = Ok (inr NegativeOverflow)) /\
  (c_value C_MAX < nanos d -> try_into_chrono d = Ok (inr PositiveOverflow)).
Proof. exact try_into_chrono_spec. Qed.
Print Assumptions C09_try_into_chrono.

Theorem C09_saturating_into_chrono : forall d, duration_ok d ->
  exists c, saturating_into_chrono d = Ok c /\ chrono_ok c /\
    c_value c = clamp (c_value C_MIN) (c_value C_MAX) (nanos d).
Proof. exact saturating_into_chrono_spec. Qed.
Print Assumptions C09_saturating_into_chrono.

Theorem C09_from_chrono_exact : forall c, chrono_ok c ->
  exists d, of_chrono c = Ok d /\ duration_ok d /\ nanos d = c_value c.
Proof. exact of_chrono_spec. Qed.
Print Assumptions C09_from_chrono_exact.
Example C09_chrono_example :
  try_into_chrono (Dur true (Std 1 500000000)) = Ok (inl (Cdur (-2) 500000000)) /\
  try_into_chrono MIN = Ok (inr NegativeOverflow) /\ nanos MIN < c_value C_MIN /\ try_into_chrono MAX = Ok (inr PositiveOverflow) /\
  saturating_into_chrono MIN = Ok C_MIN /\ chrono_ok (Cdur (-2) 500000000) /\ of_chrono (Cdur (-2) 500000000) = Ok (Dur true (Std 1 500000000)).
Proof. vm_compute. repeat split; congruence. Qed.

(** C11 *)
Theorem C11_checked_mul_exact_or_none : forall a b,
  (- 2 ^ 63 <= coef a * coef b < 2 ^ 63 /\ - 2 ^ 15 <= expo a + expo b < 2 ^ 15 ->
     mul_checked_mul a b = Some (Mul (coef a * coef b) (expo a + expo b))) /\
  (~ (- 2 ^ 63 <= coef a * coef b < 2 ^ 63 /\ - 2 ^ 15 <= expo a + expo b < 2 ^ 15) ->
     mul_checked_mul a b = None).
Proof. exact mul_checked_mul_bounds. Qed.
Print Assumptions C11_checked_mul_exact_or_none.

Theorem C11_mul_operator : forall a b,
  match mul_checked_mul a b with Some m => mul_mul a b = Ok m | None => mul_mul a b = Crash CrashUnwrap end.
Proof. exact mul_mul_spec. Qed.
Print Assumptions C11_mul_operator.

Theorem C11_saturating_neg : forall m, multiplier_ok m ->
  multiplier_ok (mul_saturating_neg m) /\ expo (mul_saturating_neg m) = expo m /\
  coef (mul_saturating_neg m) = Z.min (2 ^ 63 - 1) (- coef m).
Proof. exact mul_saturating_neg_spec. Qed.
Print Assumptions C11_saturating_neg.
(** the sign of a multiplier is the one of its coefficient, 0 counts as positive *)
Theorem C11_signs : forall m, (mul_is_positive m = true <-> 0 <= coef m) /\ (mul_is_negative m = true <-> coef m < 0).
Proof. intros [c e]. unfold mul_is_negative, mul_is_positive. cbn [coef]. rewrite negb_true_iff, orb_true_iff, orb_false_iff, Z.eqb_eq, Z.eqb_neq, Z.ltb_lt, Z.ltb_ge. lia. Qed.
Print Assumptions C11_signs.
Example C11_signs_example : mul_is_positive (Mul 0 (-3)) = true /\ mul_is_negative (Mul (-1) 5) = true.
Proof. split; reflexivity. Qed.
Example C11_example :
  mul_checked_mul (Mul 3 (-2)) (Mul (-4) 5) = Some (Mul (-12) 3) /\ mul_checked_mul (Mul i64_min 0) (Mul (-1) 0) = None /\
  mul_checked_mul (Mul 1 32767) (Mul 1 1) = None /\ mul_saturating_neg (Mul i64_min 3) = Mul i64_max 3 /\ multiplier_ok (Mul i64_min 3).
Proof. repeat split. Qed.

(** C46: the documented lengths, in nanoseconds; a year is 365.25 days, a month a twelfth of it *)
Definition documented_nanos (u : time_unit) : Z :=
  match u with
  | NanoSecond => 1
  | MicroSecond => 1000
  | MilliSecond => 1000 * 1000
  | Second => 1000 * 1000 * 1000
  | Minute => 60 * (1000 * 1000 * 1000)
  | Hour => 60 * 60 * (1000 * 1000 * 1000)
  | Day => 24 * 60 * 60 * (1000 * 1000 * 1000)
  | Week => 7 * 24 * 60 * 60 * (1000 * 1000 * 1000)
  | Month => 36525 * 24 * 60 * 60 * (1000 * 1000 * 10) / 12
  | Year => 36525 * 24 * 60 * 60 * (1000 * 1000 * 10)
  end.

Theorem C46_unit_lengths : forall u,
  -9 <= expo (unit_multiplier u) <= 0 /\
  coef (unit_multiplier u) * 10 ^ (9 + expo (unit_multiplier u)) = documented_nanos u /\
  12 * documented_nanos Month = documented_nanos Year.
Proof. intros []; vm_compute; repeat split; discriminate. Qed.
Print Assumptions C46_unit_lengths.

Theorem C46_default_identifiers_unique : forall u v,
  default_identifier u = default_identifier v -> u = v.
Proof. intros [] [] H; try reflexivity; vm_compute in H; discriminate. Qed.
Print Assumptions C46_default_identifiers_unique.
Example C46_example : documented_nanos Month = 2629800 * 1000000000 /\ default_identifier Month <> default_identifier Minute.
Proof. split; [reflexivity|discriminate]. Qed.
