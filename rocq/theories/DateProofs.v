(** * Proofs about fundu-gnu/src/datetime.rs *)
From Verif Require Import Prelude Time SpecTime TimeProofs DateTime SpecDate.

Lemma floor_div_spec a b : is_i64 a = true -> 1 < b -> floor_div a b = Ok (a / b).
Proof.
  intros Ha Hb. rewrite is_i64_iff in Ha. unfold floor_div.
  pose proof (Z.quot_rem' a b) as Q. pose proof (Z.div_mod a b ltac:(lia)) as D.
  pose proof (Z.mod_pos_bound a b ltac:(lia)) as M.
  assert (R : (0 <= a -> 0 <= Z.rem a b < b) /\ (a <= 0 -> - b < Z.rem a b <= 0)).
  { split; intros; [apply Z.rem_bound_pos; lia|].
    pose proof (Z.rem_bound_pos (- a) b ltac:(lia) ltac:(lia)) as R.
    rewrite Z.rem_opp_l in R by lia. lia. }
  destruct (b =? 0) eqn:E; [lia|]. clear E.
  rewrite arith_ok. 2:{ rewrite is_i64_iff. nia. }
  cbn [bind].
  destruct (((0 <? Z.rem a b) && (b <? 0)) || ((Z.rem a b <? 0) && (0 <? b))) eqn:E.
  - assert (Z.rem a b < 0) by lia.
    assert (a / b = Z.quot a b - 1) by (symmetry; apply Z.div_unique with (r := Z.rem a b + b); lia).
    rewrite arith_ok; [f_equal; lia|]. rewrite is_i64_iff.
    assert (a < 0) by nia. nia.
  - assert (0 <= Z.rem a b) by lia.
    f_equal. apply Z.div_unique with (r := Z.rem a b); lia.
Qed.

Lemma month_length_range y m : 28 <= month_length y m <= 31.
Proof.
  unfold month_length. repeat match goal with |- context [match ?x with _ => _ end] => destruct x end; lia.
Qed.

(** ** The March-based calendar *)
(** days before 1 March of year y, up to a constant *)
Definition A (y : Z) : Z := 365 * y + y / 4 - y / 100 + y / 400.
Definition L (y : Z) : Z := if leap (y + 1) then 366 else 365.

Lemma A_step y : A (y + 1) = A y + L y.
Proof.
  unfold A, L, leap.
  destruct (((y + 1) mod 4 =? 0) && (negb ((y + 1) mod 100 =? 0) || ((y + 1) mod 400 =? 0))) eqn:E; lia.
Qed.

(** the closed form of the Julian day number *)
Definition P (m : Z) : Z :=
  match m with
  | 1 => 306 | 2 => 337 | 3 => 0 | 4 => 31 | 5 => 61 | 6 => 92 | 7 => 122 | 8 => 153 | 9 => 184 | 10 => 214
  | 11 => 245 | _ => 275
  end.
Definition my (y m : Z) : Z := if m <? 3 then y - 1 else y.
Definition J (y m d : Z) : Z := A (my y m) + P m + d + JD_BASE.

Ltac months m H :=
  let E := fresh in
  assert (E : m = 1 \/ m = 2 \/ m = 3 \/ m = 4 \/ m = 5 \/ m = 6 \/ m = 7 \/ m = 8 \/ m = 9 \/ m = 10 \/
          m = 11 \/ m = 12) by lia; clear H;
  destruct E as [->|[->|[->|[->|[->|[->|[->|[->|[->|[->|[->| ->]]]]]]]]]]].

Lemma ordinal_range y m d : valid_date (y, m, d) -> 1 <= P m + d <= L (my y m).
Proof.
  intros [Hm Hd]. months m Hm; unfold P, my, L in *; cbn - [leap Z.add Z.sub] in *;
  try (replace (y - 1 + 1) with y by lia); try destruct (leap _); lia.
Qed.

Lemma J_next x : valid_date x ->
  valid_date (next_day x) /\
  (let '(y, m, d) := next_day x in J y m d) = (let '(y, m, d) := x in J y m d) + 1.
Proof.
  destruct x as [[y m] d]. intros [Hm Hd]. unfold next_day.
  destruct (d <? month_length y m) eqn:E.
  - unfold J. split; [split; lia|lia].
  - assert (d = month_length y m) by lia. subst d. clear E Hd.
    months m Hm; cbn - [leap Z.add Z.sub A J];
    repeat match goal with |- context [Zpos ?p + 1] =>
      let v := eval compute in (Zpos p + 1) in change (Zpos p + 1) with v end;
    unfold J, P, my; cbn - [leap Z.add Z.sub A];
    (split; [split; try lia; cbn - [leap]; try destruct (leap _); lia|]);
    try (pose proof (A_step (y - 1)) as S; unfold L in S; replace (y - 1 + 1) with y in S by lia;
         destruct (leap y)); try (replace (y + 1 - 1) with y by lia); lia.
Qed.

Definition Jd (x : date) : Z := let '(y, m, d) := x in J y m d.
Lemma J_next' x : valid_date x -> valid_date (next_day x) /\ Jd (next_day x) = Jd x + 1.
Proof. exact (J_next x). Qed.

Lemma J_iter n x : valid_date x -> valid_date (days_after n x) /\ Jd (days_after n x) = Jd x + Z.of_nat n.
Proof.
  intros V. induction n as [|n [IHv IHj]]; [split; [exact V|cbn; lia]|].
  change (days_after (S n) x) with (next_day (days_after n x)).
  destruct (J_next' _ IHv) as [H1 H2]. split; [exact H1|]. lia.
Qed.

Lemma J_epoch : valid_date epoch /\ Jd epoch = 0.
Proof. split; [split; cbn; lia|reflexivity]. Qed.

Lemma A_mono y z : y < z -> A y + 365 <= A z.
Proof. unfold A. lia. Qed.

Lemma A_locate y z o p : A y + o = A z + p -> 1 <= o <= L y -> 1 <= p <= L z -> y = z /\ o = p.
Proof.
  intros E Ho Hp.
  assert (y = z); [|subst; lia].
  destruct (Z.lt_trichotomy y z) as [H|[H|H]]; [|exact H|].
  - assert (A (y + 1) <= A z).
    { destruct (Z.eq_dec (y + 1) z) as [->|]; [lia|]. pose proof (A_mono (y + 1) z). lia. }
    pose proof (A_step y). lia.
  - assert (A (z + 1) <= A y).
    { destruct (Z.eq_dec (z + 1) y) as [->|]; [lia|]. pose proof (A_mono (z + 1) y). lia. }
    pose proof (A_step z). lia.
Qed.

Lemma Jd_inj x x' : valid_date x -> valid_date x' -> Jd x = Jd x' -> x = x'.
Proof.
  destruct x as [[y m] d], x' as [[y' m'] d']. intros V V' E.
  pose proof (ordinal_range _ _ _ V) as O. pose proof (ordinal_range _ _ _ V') as O'.
  unfold Jd, J in E.
  destruct (A_locate (my y m) (my y' m') (P m + d) (P m' + d')) as [Ey Eo]; [lia|lia|lia|].
  destruct V as [Hm Hd], V' as [Hm' Hd'].
  clear E O O'. unfold P, my in *.
  months m Hm; months m' Hm'; cbn - [leap Z.add Z.sub] in *;
  repeat match goal with H : context [leap ?a] |- _ => destruct (leap a) end;
  first [exfalso; lia | f_equal; [f_equal|]; lia].
Qed.

(** ** try_from_gregorian *)
Lemma index_P m : 1 <= m <= 12 -> index DAYS_IN_PREVIOUS_MONTH (m - 1) = Ok (P m).
Proof. intros H. months m H; reflexivity. Qed.

Lemma P_range m : 0 <= P m <= 337.
Proof. unfold P. repeat (match goal with |- context [match ?x with _ => _ end] => destruct x end); lia. Qed.

Lemma try_from_spec y m d : is_i64 y = true -> 1 <= m <= 12 -> 1 <= d <= 31 ->
  try_from_gregorian y m d = Ok (chk is_i64 (J y m d)).
Proof.
  intros Hy Hm Hd. unfold try_from_gregorian, validate.
  destruct ((m <? 1) || (12 <? m)) eqn:E; [lia|]. clear E.
  destruct ((d <? 1) || (31 <? d)) eqn:E; [lia|]. clear E.
  cbn [bind]. pose proof (P_range m) as HP. rewrite is_i64_iff in Hy.
  assert (Hb : (if m <? 3 then chk is_i64 (y - 1) else Some y) = chk is_i64 (my y m)).
  { unfold my. destruct (m <? 3); [reflexivity|]. symmetry. apply chk_true. now apply is_i64_iff. }
  rewrite Hb. clear Hb.
  assert (Hmy : y - 1 <= my y m <= y) by (unfold my; destruct (m <? 3); lia).
  unfold J. set (z := my y m) in *.
  destruct (chk_spec is_i64 z) as [[Hz ->]|[Hz ->]].
  2:{ f_equal. symmetry. apply chk_false. apply not_true_is_false. rewrite is_i64_iff.
      assert (~ (-9223372036854775808 <= z <= 9223372036854775807)) by (rewrite <- is_i64_iff; congruence).
      unfold A, JD_BASE. lia. }
  rewrite is_i64_iff in Hz.
  destruct (chk_spec is_i64 (z * 365)) as [[H365 ->]|[H365 ->]].
  2:{ f_equal. symmetry. apply chk_false. apply not_true_is_false. rewrite is_i64_iff.
      assert (~ (-9223372036854775808 <= z * 365 <= 9223372036854775807))
        by (rewrite <- is_i64_iff; congruence).
      unfold A, JD_BASE. lia. }
  rewrite is_i64_iff in H365.
  rewrite arith_ok by (rewrite is_u8_iff; lia). cbn [bind].
  rewrite index_P by exact Hm. cbn [bind].
  rewrite arith_ok by (rewrite is_i64_iff; lia). cbn [bind].
  rewrite floor_div_spec by (try rewrite is_i64_iff; lia). cbn [bind].
  rewrite arith_ok by (rewrite is_i64_iff; lia). cbn [bind].
  rewrite floor_div_spec by (try rewrite is_i64_iff; lia). cbn [bind].
  rewrite arith_ok by (rewrite is_i64_iff; lia). cbn [bind].
  rewrite floor_div_spec by (try rewrite is_i64_iff; lia). cbn [bind].
  rewrite arith_ok by (rewrite is_i64_iff; lia). cbn [bind].
  unfold JD_BASE. rewrite arith_ok by (rewrite is_i64_iff; lia). cbn [bind].
  f_equal. f_equal. unfold A. lia.
Qed.

(** ** to_gregorian *)
Definition fc (z : Z) : Z := (100 * z - 25) / 3652425.
Definition dc (z : Z) : Z := fc z - fc z / 4.
Definition yr (z : Z) : Z := (100 * dc z + (100 * z - 25)) / 36525.

(** the year and ordinal are recovered *)
Lemma L_cases y : L y = 365 \/ L y = 366 /\ (y + 1) mod 4 = 0 /\ ((y + 1) mod 100 <> 0 \/ (y + 1) mod 400 = 0).
Proof. unfold L, leap. destruct (_ && _) eqn:E; lia. Qed.

Lemma fc_spec y o : 1 <= o <= L y -> fc (A y + o) = y / 100.
Proof.
  intros Ho. unfold fc, A.
  pose proof (L_cases y) as HL.
  symmetry. apply Z.div_unique with (r := 100 * (365 * y + y / 4 - y / 100 + y / 400 + o) - 25 - 3652425 * (y / 100)); [left|lia].
  lia.
Qed.

Lemma yr_spec y o : 1 <= o <= L y -> yr (A y + o) = y /\ dc (A y + o) = y / 100 - y / 400.
Proof.
  intros Ho. assert (D : dc (A y + o) = y / 100 - y / 400).
  { unfold dc. rewrite fc_spec by exact Ho. rewrite Z.div_div by lia. reflexivity. }
  split; [|exact D]. unfold yr. rewrite D. unfold A. pose proof (L_cases y) as HL.
  symmetry. apply Z.div_unique with (r := 100 * (365 * y + y / 4 + o) - 25 - 36525 * y); [left|lia].
  lia.
Qed.

(** conversely every day lies in some year *)
Lemma L_pos y : 365 <= L y.
Proof. unfold L. destruct (leap _); lia. Qed.

Lemma in_some_year z : exists y o, z = A y + o /\ 1 <= o <= L y.
Proof.
  revert z. apply Z.bi_induction.
  - intros a b ->. reflexivity.
  - exists (-1), 366. split; [reflexivity|]. cbn. lia.
  - intros z. unfold Z.succ. split; intros (y & o & E & Ho).
    + destruct (Z.eq_dec o (L y)) as [->|].
      * exists (y + 1), 1. pose proof (A_step y). pose proof (L_pos (y + 1)). lia.
      * exists y, (o + 1). lia.
    + destruct (Z.eq_dec o 1) as [->|].
      * exists (y - 1), (L (y - 1)). pose proof (A_step (y - 1)) as S. pose proof (L_pos (y - 1)).
        replace (y - 1 + 1) with y in S by lia. lia.
      * exists y, (o - 1). lia.
Qed.

(** the two tables are inverse to each other *)
Definition month_at (o : Z) : Z := nth (Z.to_nat (o - 1)) ORDINAL_TO_MONTH 0.
Definition ordinal_check (n : nat) : bool :=
  let o := Z.of_nat n + 1 in
  let m := month_at o in
  inb 1 12 m && inb 1 (match m with 2 => if o =? 366 then 29 else 28 | 4 | 6 | 9 | 11 => 30 | _ => 31 end)
                   (o - P m).
Lemma ordinal_checked : forallb ordinal_check (seq 0 366) = true.
Proof. vm_compute. reflexivity. Qed.

Lemma month_at_spec y o : 1 <= o <= L y ->
  1 <= month_at o <= 12 /\ valid_date ((if month_at o <? 3 then y + 1 else y), month_at o, o - P (month_at o)).
Proof.
  intros Ho. pose proof ordinal_checked as K. rewrite forallb_forall in K.
  assert (L y <= 366) by (unfold L; destruct (leap _); lia).
  specialize (K (Z.to_nat (o - 1))). rewrite in_seq in K. specialize (K ltac:(lia)).
  unfold ordinal_check in K. rewrite Z2Nat.id in K by lia. replace (o - 1 + 1) with o in K by lia.
  set (m := month_at o) in *. unfold inb in K. apply andb_prop in K. destruct K as [K1 K2].
  assert (Hm : 1 <= m <= 12) by lia. split; [exact Hm|]. split; [exact Hm|].
  clear K1. revert K2. clearbody m. unfold L in *. months m Hm; cbn - [leap Z.add Z.sub];
  try lia. destruct (leap (y + 1)); [destruct (o =? 366); lia|]. destruct (o =? 366) eqn:E; lia.
Qed.

Lemma index_month o : 1 <= o <= 366 -> index ORDINAL_TO_MONTH (o - 1) = Ok (month_at o).
Proof.
  intros H. unfold index, month_at. destruct (o - 1 <? 0) eqn:E; [lia|].
  rewrite (nth_error_nth' _ 0); [reflexivity|].
  change (length ORDINAL_TO_MONTH) with 366%nat. lia.
Qed.

(** the date of a Julian day, without bounds *)
Lemma date_exists n : exists x, valid_date x /\ Jd x = n.
Proof.
  destruct (in_some_year (n - JD_BASE)) as (y & o & E & Ho).
  destruct (month_at_spec y o Ho) as [Hm V].
  eexists. split; [exact V|]. unfold Jd, J, my. set (m := month_at o) in *.
  destruct (m <? 3); [replace (y + 1 - 1) with y by lia|]; lia.
Qed.

Lemma julian_iff x n : julian x n <-> valid_date x /\ Jd x = n.
Proof.
  destruct J_epoch as [Ve Je]. split.
  - intros (V & H1 & H2). split; [exact V|].
    destruct (Z.le_gt_cases 0 n).
    + destruct (J_iter (Z.to_nat n) epoch Ve) as [_ K]. rewrite H1, Je in K by lia. lia.
    + destruct (J_iter (Z.to_nat (- n)) x V) as [_ K]. rewrite H2, Je in K by lia. lia.
  - intros [V <-]. split; [exact V|]. split; intros H.
    + destruct (J_iter (Z.to_nat (Jd x)) epoch Ve) as [V' K]. apply Jd_inj; [exact V'|exact V|]. lia.
    + destruct (J_iter (Z.to_nat (- Jd x)) x V) as [V' K]. apply Jd_inj; [exact V'|exact Ve|]. lia.
Qed.

(** the greatest and least Julian day with a date, and the one for which the code overflows *)
Definition jd_min : Z := -92231826450597304.
Definition jd_max : Z := 92231826454039543.
Definition jd_crash : Z := -92233720366826639.

Lemma to_gregorian_in jd : jd_min <= jd <= jd_max ->
  exists x, to_gregorian jd = Ok (Some x) /\ valid_date x /\ Jd x = jd.
Proof.
  intros H. unfold jd_min, jd_max in H. unfold to_gregorian, JD_BASE.
  rewrite chk_true by (rewrite is_i64_iff; lia).
  rewrite chk_true by (rewrite is_i64_iff; lia).
  rewrite arith_ok by (rewrite is_i64_iff; lia). cbn [bind].
  destruct (in_some_year (jd - 1721119)) as (y & o & E & Ho).
  destruct (yr_spec y o Ho) as [Y D]. rewrite <- E in Y, D.
  set (zero := jd - 1721119) in *.
  rewrite floor_div_spec by (try rewrite is_i64_iff; lia). cbn [bind].
  replace ((zero * 100 - 25) / 3652425) with (fc zero) by (unfold fc; f_equal; lia).
  assert (F : -3000000000000 <= fc zero <= 3000000000000) by (unfold fc; lia).
  rewrite floor_div_spec by (try rewrite is_i64_iff; lia). cbn [bind].
  rewrite arith_ok by (rewrite is_i64_iff; lia). cbn [bind].
  rewrite arith_ok by (rewrite is_i64_iff; lia). cbn [bind].
  change (fc zero - fc zero / 4) with (dc zero).
  rewrite chk_true.
  2:{ rewrite is_i64_iff. unfold dc, fc. lia. }
  assert (Hn : is_i64 (100 * dc zero + (zero * 100 - 25)) = true).
  { rewrite is_i64_iff. unfold dc, fc. lia. }
  rewrite floor_div_spec by (first [exact Hn|lia]). cbn [bind].
  replace (100 * dc zero + (zero * 100 - 25)) with (100 * dc zero + (100 * zero - 25)) by lia.
  change ((100 * dc zero + (100 * zero - 25)) / 36525) with (yr zero). rewrite Y, D.
  assert (Hy : -300000000000000 <= y <= 300000000000000).
  { unfold A in E. pose proof (L_cases y). lia. }
  pose proof (L_cases y) as HL.
  rewrite arith_ok by (rewrite is_i64_iff; lia). cbn [bind].
  rewrite arith_ok by (rewrite is_i64_iff; lia). cbn [bind].
  assert (A y = 365 * y + y / 4 - y / 100 + y / 400) as HA by reflexivity.
  rewrite arith_ok by (rewrite is_i64_iff; lia). cbn [bind].
  rewrite floor_div_spec by (try rewrite is_i64_iff; lia). cbn [bind].
  rewrite arith_ok by (rewrite is_i64_iff; lia). cbn [bind].
  replace (y / 100 - y / 400 + zero - 365 * y - y / 4) with o by lia.
  rewrite chk_true by (unfold is_u16, inb; lia). cbn [unwrap bind].
  rewrite arith_ok by (unfold is_u16, inb; lia). cbn [bind].
  rewrite index_month by lia. cbn [bind].
  destruct (month_at_spec y o Ho) as [Hm V]. set (m := month_at o) in *.
  rewrite arith_ok by (rewrite is_u8_iff; lia). cbn [bind].
  rewrite index_P by exact Hm. cbn [bind].
  assert (Hd : 1 <= o - P m <= 31).
  { destruct V as [_ V]. split; [lia|]. transitivity (month_length (if m <? 3 then y + 1 else y) m); [lia|].
    apply month_length_range. }
  rewrite arith_ok by (unfold is_u16, inb; lia). cbn [bind].
  rewrite chk_true by (rewrite is_u8_iff; lia). cbn [unwrap bind].
  assert (HJ : Jd ((if m <? 3 then y + 1 else y), m, o - P m) = jd).
  { unfold Jd, J, my, JD_BASE. destruct (m <? 3); [replace (y + 1 - 1) with y by lia|]; lia. }
  destruct (m <? 3).
  - rewrite arith_ok by (rewrite is_i64_iff; lia). cbn [bind]. eexists. split; [reflexivity|]. now split.
  - eexists. split; [reflexivity|]. now split.
Qed.

Lemma to_gregorian_out jd : is_i64 jd = true -> jd < jd_min \/ jd_max < jd -> jd <> jd_crash ->
  to_gregorian jd = Ok None.
Proof.
  intros Hi H Hc. unfold jd_min, jd_max, jd_crash in *. unfold to_gregorian, JD_BASE.
  destruct (chk_spec is_i64 (jd - 1721119)) as [[H1 ->]|[H1 ->]]; [|reflexivity].
  destruct (chk_spec is_i64 ((jd - 1721119) * 100)) as [[H2 ->]|[H2 ->]]; [|reflexivity].
  rewrite is_i64_iff in *.
  rewrite arith_ok by (rewrite is_i64_iff; lia). cbn [bind].
  rewrite floor_div_spec by (try rewrite is_i64_iff; lia). cbn [bind].
  rewrite floor_div_spec by (try rewrite is_i64_iff; lia). cbn [bind].
  rewrite arith_ok by (rewrite is_i64_iff; lia). cbn [bind].
  rewrite arith_ok by (rewrite is_i64_iff; lia). cbn [bind].
  rewrite chk_false; [reflexivity|]. apply not_true_is_false. rewrite is_i64_iff. lia.
Qed.

Lemma to_gregorian_crash : to_gregorian jd_crash = Crash CrashArith.
Proof. reflexivity. Qed.
