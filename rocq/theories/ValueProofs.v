(** * How exact is the value of a number? (C17, C18, C19, C30) *)
From Verif Require Import Prelude Time SpecTime SpecNum SpecValue TimeProofs NumProofs ReprProofs.

Lemma pow10_gt0 k : 0 <= k -> 0 < 10 ^ k.
Proof. intros. apply Z.pow_pos_nonneg; lia. Qed.

Lemma fs_nonneg_k V k : 0 <= k -> floor_scale10 V k = V * 10 ^ k.
Proof. intros H. unfold floor_scale10. destruct (Z.leb_spec 0 k); [reflexivity|lia]. Qed.
Lemma fs_neg_k V k : k <= 0 -> floor_scale10 V k = V / 10 ^ (- k).
Proof.
  intros H. unfold floor_scale10. destruct (Z.leb_spec 0 k); [|reflexivity].
  assert (k = 0) by lia. subst. cbn. now rewrite Z.div_1_r, Z.mul_1_r.
Qed.

(** splitting the scale: floor (V * 10^(18+k)) with 18+k >= 0 and a further division by 10^9 *)
Lemma scale_split V k : 0 <= 18 + k -> V * 10 ^ (18 + k) / 1000000000 = floor_scale10 V (9 + k).
Proof.
  intros H. destruct (Z_lt_le_dec (9 + k) 0) as [L|L].
  - rewrite fs_neg_k by lia.
    replace 1000000000 with (10 ^ (18 + k) * 10 ^ (- (9 + k))).
    + rewrite <- Z.div_div; [|pose proof (pow10_gt0 (18 + k)); lia|apply pow10_gt0; lia].
      rewrite Z.div_mul; [reflexivity|]. pose proof (pow10_gt0 (18 + k)). lia.
    + rewrite <- Z.pow_add_r by lia. replace (18 + k + - (9 + k)) with 9 by lia. reflexivity.
  - rewrite fs_nonneg_k by lia.
    replace (10 ^ (18 + k)) with (10 ^ (9 + k) * 1000000000).
    + rewrite Z.mul_assoc, Z.div_mul; lia.
    + change 1000000000 with (10 ^ 9). rewrite <- Z.pow_add_r by lia. f_equal. lia.
Qed.

(** at most 18 decimal places (after scaling): exact *)
Lemma magnitude_exact V k c : 0 <= 18 + k ->
  magnitude V k c = Z.min max_nanos (floor_scale10 (Z.abs c * V) (9 + k)).
Proof.
  intros H. unfold magnitude. f_equal. rewrite fs_nonneg_k by lia. rewrite Z.mul_assoc. now apply scale_split.
Qed.

(** a coefficient of 1 (seconds and smaller units): always exact *)
Lemma magnitude_exact_1 V k c : Z.abs c = 1 -> magnitude V k c = Z.min max_nanos (floor_scale10 V (9 + k)).
Proof.
  intros H. destruct (Z_lt_le_dec (18 + k) 0) as [L|L]; [|rewrite magnitude_exact by lia; now rewrite H, Z.mul_1_l].
  unfold magnitude. rewrite H, Z.mul_1_l. f_equal. rewrite !fs_neg_k by lia.
  rewrite Z.div_div; [|pose proof (pow10_gt0 (- (18 + k))); lia|lia]. f_equal.
  change 1000000000 with (10 ^ 9). rewrite <- Z.pow_add_r by lia. f_equal. lia.
Qed.

(** always: never above the exact value, and below it by less than 1ns + |c| * 10^-18 s.
    Both sides multiplied by 10^n, where n = -k is the number of decimal places *)
Lemma attos_bounds V k c : 0 <= V -> k < 0 ->
  let A := Z.abs c * floor_scale10 V (18 + k) / 1000000000 in
  A * 10 ^ (- k) <= Z.abs c * V * 10 ^ 9 /\
  Z.abs c * V * 10 ^ 18 < ((A + 1) * 10 ^ 9 + Z.abs c) * 10 ^ (- k) \/ c = 0.
Proof.
  intros HV Hk A. destruct (Z.eq_dec c 0) as [|Nc]; [now right|left].
  set (a := Z.abs c) in *. assert (Ha : 0 < a) by lia. set (B := floor_scale10 V (18 + k)) in *.
  assert (P : 0 < 10 ^ (- k)) by (apply pow10_gt0; lia).
  assert (HB : B * 10 ^ (- k) <= V * 10 ^ 18 < (B + 1) * 10 ^ (- k)).
  { subst B. destruct (Z_lt_le_dec (18 + k) 0) as [L|L].
    - rewrite fs_neg_k by lia. pose proof (pow10_gt0 (- (18 + k)) ltac:(lia)) as P2.
      pose proof (Z.div_mod V (10 ^ (- (18 + k))) ltac:(lia)) as E. pose proof (Z.mod_pos_bound V _ P2) as M.
      set (q := V / 10 ^ (- (18 + k))) in *. set (r := V mod 10 ^ (- (18 + k))) in *.
      replace (10 ^ (- k)) with (10 ^ (- (18 + k)) * 10 ^ 18) by (rewrite <- Z.pow_add_r by lia; f_equal; lia).
      nia.
    - rewrite fs_nonneg_k by lia.
      replace (10 ^ 18) with (10 ^ (18 + k) * 10 ^ (- k)) by (rewrite <- Z.pow_add_r by lia; f_equal; lia). nia. }
  assert (HA : A * 10 ^ 9 <= a * B < (A + 1) * 10 ^ 9).
  { subst A. change (10 ^ 9) with 1000000000. pose proof (Z.div_mod (a * B) 1000000000 ltac:(lia)).
    pose proof (Z.mod_pos_bound (a * B) 1000000000 ltac:(lia)). lia. }
  change (10 ^ 18) with (10 ^ 9 * 10 ^ 9) in *. set (T := 10 ^ 9) in *. assert (0 < T) by (subst T; lia).
  set (N := 10 ^ (- k)) in *. destruct HA as [HA1 HA2]. destruct HB as [HB1 HB2]. split.
  - assert (A * T * N <= a * B * N) by nia. assert (a * (B * N) <= a * (V * (T * T))) by nia. nia.
  - assert (a * (V * (T * T)) < a * ((B + 1) * N)) by nia.
    assert (a * B * N <= ((A + 1) * T) * N) by nia. nia.
Qed.

Lemma dval_from_lin l : forall a, dval_from a l = a * 10 ^ Z.of_nat (length l) + dval l.
Proof.
  unfold dval. induction l as [|x l IH]; intros a; [cbn; lia|]. cbn [dval_from length].
  rewrite IH, (IH (0 * 10 + (x - 48))). rewrite Nat2Z.inj_succ, Z.pow_succ_r by lia. ring.
Qed.
Lemma dval_app' a b : dval (a ++ b) = dval a * 10 ^ Z.of_nat (length b) + dval b.
Proof. apply dval_app. Qed.
Lemma dval_zeros n : dval (repeat 48 n) = 0.
Proof. induction n as [|n IH]; [reflexivity|]. unfold dval in *. cbn [repeat dval_from]. exact IH. Qed.

(** the sign does not hide the value *)
Lemma number_result_nanos n V k c : 0 <= V ->
  nanos (number_result n V k c) = if n then - magnitude V k c else magnitude V k c.
Proof.
  intros HV. unfold number_result. pose proof (floor_scale10_nonneg V (18 + k) HV) as HB.
  assert (HM : 0 <= magnitude V k c <= max_nanos).
  { unfold magnitude. pose proof (Z.div_pos (Z.abs c * floor_scale10 V (18 + k)) 1000000000 ltac:(nia) ltac:(lia)).
    rewrite max_nanos_val. lia. }
  destruct (Z.eqb_spec (floor_scale10 V (18 + k)) 0) as [E|E]; [|destruct (Z.eqb_spec c 0) as [->|Nc]]; cbn [orb].
  - replace (magnitude V k c) with 0. { now destruct n. } unfold magnitude. rewrite E, Z.mul_0_r. reflexivity.
  - replace (magnitude V k 0) with 0. { now destruct n. } reflexivity.
  - rewrite nanos_unfold. cbn [neg inner]. rewrite (proj2 (std_of_nanos_ok _ HM)). reflexivity.
Qed.

(** appending zeros to the fraction, prepending zeros to the whole part *)
Lemma fs_shift V k j : 0 <= j -> floor_scale10 (V * 10 ^ j) (k - j) = floor_scale10 V k.
Proof.
  intros Hj. pose proof (pow10_gt0 j Hj) as P. destruct (Z_lt_le_dec k 0) as [L|L].
  - rewrite !fs_neg_k by lia. replace (- (k - j)) with (- k + j) by lia. rewrite Z.pow_add_r by lia.
    apply Z.div_mul_cancel_r; pose proof (pow10_gt0 (- k)); lia.
  - rewrite (fs_nonneg_k V k) by lia. destruct (Z_lt_le_dec (k - j) 0) as [L2|L2].
    + rewrite fs_neg_k by lia. replace (10 ^ j) with (10 ^ k * 10 ^ (- (k - j))) by (rewrite <- Z.pow_add_r by lia; f_equal; lia).
      rewrite Z.mul_assoc, Z.div_mul; [reflexivity|]. pose proof (pow10_gt0 (- (k - j))). lia.
    + rewrite fs_nonneg_k by lia. rewrite <- Z.mul_assoc, <- Z.pow_add_r by lia. do 2 f_equal. lia.
Qed.
Lemma number_result_shift n V k j c : 0 <= j ->
  number_result n (V * 10 ^ j) (k - j) c = number_result n V k c.
Proof.
  intros Hj. unfold number_result, magnitude. replace (18 + (k - j)) with (18 + k - j) by lia. now rewrite fs_shift.
Qed.
Lemma number_value_leading_zeros n W F x u m j :
  number_value n (repeat 48 j ++ W) F x u m = number_value n W F x u m.
Proof.
  unfold number_value. rewrite <- app_assoc. rewrite dval_app', dval_zeros. now rewrite Z.mul_0_l, Z.add_0_l.
Qed.
Lemma number_value_trailing_zeros n W F x u m j :
  number_value n W (F ++ repeat 48 j) x u m = number_value n W F x u m.
Proof.
  unfold number_value. rewrite app_assoc, (dval_app' (W ++ F)), dval_zeros, Z.add_0_r.
  rewrite app_length, repeat_length.
  replace (_ + x - Z.of_nat (length F + j)) with (expo (unit_length u) + expo m + x - Z.of_nat (length F) - Z.of_nat j) by lia.
  apply number_result_shift. lia.
Qed.

(** ** multipliers without a number *)
Lemma fixed_result_nanos n c e : -18 <= e <= 19 ->
  nanos (fixed_result n c e) =
  (let M := Z.min max_nanos (floor_scale10 (Z.abs c) (9 + e)) in if xorb (c <? 0) n then - M else M).
Proof.
  intros He. unfold fixed_result. destruct (Z.eqb_spec c 0) as [->|Nc].
  - replace (floor_scale10 (Z.abs 0) (9 + e)) with 0.
    + cbn. now destruct n.
    + symmetry. unfold floor_scale10. cbn [Z.abs]. destruct (Z.leb_spec 0 (9 + e)); [reflexivity|]. apply Z.div_0_l.
      pose proof (pow10_gt0 (- (9 + e))). lia.
  - destruct (Z.ltb_spec e (-18)); [lia|]. destruct (Z.ltb_spec 19 e); [lia|].
    rewrite nanos_unfold. cbn [neg inner]. pose proof (floor_scale10_nonneg (Z.abs c) (9 + e) ltac:(lia)).
    rewrite (proj2 (std_of_nanos_ok (Z.min max_nanos (floor_scale10 (Z.abs c) (9 + e))) ltac:(rewrite max_nanos_val; lia))). reflexivity.
Qed.

(** ** saturation *)
Lemma magnitude_saturates V k c : 0 <= V -> -18 <= k \/ Z.abs c <= 10 ^ 9 ->
  2 ^ 64 <= floor_scale10 (Z.abs c * V) k -> magnitude V k c = max_nanos.
Proof.
  intros HV Hk HS. destruct (Z_le_gt_dec (-18) k) as [L|L].
  - rewrite magnitude_exact by lia. apply Z.min_l.
    assert (E : 2 ^ 64 * 10 ^ 9 <= floor_scale10 (Z.abs c * V) (9 + k)).
    { set (v := Z.abs c * V) in *. destruct (Z_lt_le_dec (9 + k) 0) as [A|A].
      - rewrite fs_neg_k in * by lia. apply Z.div_le_lower_bound; [apply pow10_gt0; lia|].
        pose proof (pow10_gt0 (- k) ltac:(lia)). assert (2 ^ 64 * 10 ^ (- k) <= v).
        { pose proof (Z.mul_div_le v (10 ^ (- k)) ltac:(lia)). nia. }
        replace (10 ^ (- k)) with (10 ^ 9 * 10 ^ (- (9 + k))) in * by (rewrite <- Z.pow_add_r by lia; f_equal; lia). lia.
      - rewrite (fs_nonneg_k _ (9 + k)) by lia. destruct (Z_lt_le_dec k 0) as [B|B].
        + rewrite fs_neg_k in HS by lia. pose proof (pow10_gt0 (- k) ltac:(lia)). assert (2 ^ 64 * 10 ^ (- k) <= v).
          { pose proof (Z.mul_div_le v (10 ^ (- k)) ltac:(lia)). nia. }
          replace (10 ^ 9) with (10 ^ (- k) * 10 ^ (9 + k)) by (rewrite <- Z.pow_add_r by lia; f_equal; lia).
          pose proof (pow10_gt0 (9 + k) ltac:(lia)). nia.
        + rewrite fs_nonneg_k in HS by lia. rewrite Z.add_comm, Z.pow_add_r by lia. nia. }
    rewrite max_nanos_val. lia.
  - destruct Hk as [Hk|Hk]; [lia|]. unfold magnitude. apply Z.min_l.
    destruct (attos_bounds V k c HV ltac:(lia)) as [[_ B]|E].
    2:{ subst c. cbn [Z.abs] in HS. rewrite Z.mul_0_l in HS. rewrite fs_neg_k in HS by lia.
        rewrite Z.div_0_l in HS; [lia|]. pose proof (pow10_gt0 (- k)). lia. }
    cbv zeta in B. set (A := Z.abs c * floor_scale10 V (18 + k) / 1000000000) in *.
    rewrite fs_neg_k in HS by lia. pose proof (pow10_gt0 (- k) ltac:(lia)) as P.
    assert (HS' : 2 ^ 64 * 10 ^ (- k) <= Z.abs c * V).
    { pose proof (Z.mul_div_le (Z.abs c * V) (10 ^ (- k)) ltac:(lia)). nia. }
    assert (2 ^ 64 * 10 ^ 18 < (A + 1) * 10 ^ 9 + Z.abs c).
    { assert (2 ^ 64 * 10 ^ (- k) * 10 ^ 18 < ((A + 1) * 10 ^ 9 + Z.abs c) * 10 ^ (- k)) by nia. nia. }
    rewrite max_nanos_val. lia.
Qed.
Lemma magnitude_max_only V k c : 0 <= V -> magnitude V k c = max_nanos ->
  max_nanos <= floor_scale10 (Z.abs c * V) (9 + k).
Proof.
  intros HV H. destruct (Z_le_gt_dec (-18) k) as [L|L].
  - rewrite magnitude_exact in H by lia. lia.
  - unfold magnitude in H. destruct (attos_bounds V k c HV ltac:(lia)) as [[B _]|E].
    + cbv zeta in B. set (A := Z.abs c * floor_scale10 V (18 + k) / 1000000000) in *. assert (max_nanos <= A) by lia.
      rewrite fs_neg_k by lia. apply Z.div_le_lower_bound; [apply pow10_gt0; lia|].
      pose proof (pow10_gt0 (- (9 + k)) ltac:(lia)).
      replace (10 ^ (- k)) with (10 ^ 9 * 10 ^ (- (9 + k))) in B by (rewrite <- Z.pow_add_r by lia; f_equal; lia). nia.
    + subst c. cbn in H. discriminate.
Qed.
Lemma magnitude_range' V k c : 0 <= V -> 0 <= magnitude V k c <= max_nanos.
Proof.
  intros HV. unfold magnitude. pose proof (floor_scale10_nonneg V (18 + k) HV).
  pose proof (Z.div_pos (Z.abs c * floor_scale10 V (18 + k)) 1000000000 ltac:(nia) ltac:(lia)).
  rewrite max_nanos_val. lia.
Qed.
