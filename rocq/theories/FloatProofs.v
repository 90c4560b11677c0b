(** * Doubles: how far the nearest double is away *)
From Coq Require Import QArith Qabs Qround Qpower Lqa Lia ZArith.
From Verif Require Import Prelude SpecTime SpecNum SpecFloat.
Local Open Scope Q_scope.

Lemma inject_mult a b : inject_Z (a * b) == inject_Z a * inject_Z b.
Proof. reflexivity. Qed.
Lemma ten_power n : (0 <= n)%Z -> inject_Z (10 ^ n) == (10 # 1) ^ n.
Proof. intros H. exact (Zpower_Qpower 10 n H). Qed.
Lemma two_power n : (0 <= n)%Z -> inject_Z (2 ^ n) == (2 # 1) ^ n.
Proof. intros H. exact (Zpower_Qpower 2 n H). Qed.

Lemma floor_scaled V k : (0 <= V)%Z ->
  inject_Z (floor_scale10 V k) <= inject_Z V * (10 # 1) ^ k < inject_Z (floor_scale10 V k + 1).
Proof.
  intros HV. unfold floor_scale10. destruct (Z.leb_spec 0 k) as [H|H].
  - rewrite <- ten_power by exact H. rewrite <- inject_mult. split; [apply Qle_refl|]. rewrite <- Zlt_Qlt. lia.
  - set (n := (- k)%Z). assert (Hn : (0 < n)%Z) by lia. replace k with (- n)%Z by lia. rewrite Qpower_opp, <- ten_power by lia.
    assert (P : (0 < 10 ^ n)%Z) by (apply Z.pow_pos_nonneg; lia).
    assert (P' : 0 < inject_Z (10 ^ n)) by (rewrite (Zlt_Qlt 0) in P; exact P).
    replace (- - n)%Z with n by lia.
    pose proof (Z.div_mod V (10 ^ n) ltac:(lia)) as D. pose proof (Z.mod_pos_bound V (10 ^ n) P) as M.
    change (inject_Z V * / inject_Z (10 ^ n)) with (inject_Z V / inject_Z (10 ^ n)). split.
    + apply Qle_shift_div_l; [exact P'|]. rewrite <- inject_mult, <- Zle_Qle. nia.
    + apply Qlt_shift_div_r; [exact P'|]. rewrite <- inject_mult, <- Zlt_Qlt. nia.
Qed.

Lemma double_int m : (0 <= m <= 2 ^ 53)%Z -> is_double (inject_Z m).
Proof.
  intros H. destruct (Z.eq_dec m (2 ^ 53)) as [->|N].
  - exists (2 ^ 52)%Z, 1%Z. split; [vm_compute; split; congruence|]. split; [lia|]. reflexivity.
  - exists m, 0%Z. split; [lia|]. split; [lia|]. cbn. ring.
Qed.
Lemma double_grid m : (0 <= m <= 2 ^ 53)%Z -> is_double (inject_Z (2048 * m)).
Proof.
  intros H. destruct (Z.eq_dec m (2 ^ 53)) as [->|N].
  - exists (2 ^ 52)%Z, 12%Z. split; [vm_compute; split; congruence|]. split; [lia|]. reflexivity.
  - exists m, 11%Z. split; [lia|]. split; [lia|]. rewrite inject_mult. change ((2#1)^11) with (inject_Z 2048). ring.
Qed.

(** a double from 2^53 on is an integer *)
Lemma double_large q : is_double q -> inject_Z (2 ^ 53) <= q -> exists z, q == inject_Z z.
Proof.
  intros (m & e & Hm & He & E) L. destruct (Z.leb_spec 0 e) as [H|H].
  - exists (m * 2 ^ e)%Z. rewrite E, inject_mult, two_power by exact H. reflexivity.
  - exfalso. revert L. apply Qlt_not_le. rewrite E.
    assert (B : (2 # 1) ^ e <= 1).
    { replace e with (- (- e))%Z by lia. rewrite Qpower_opp, <- two_power by lia.
      assert (P : (0 < 2 ^ (- e))%Z) by (apply Z.pow_pos_nonneg; lia).
      assert (P' : 0 < inject_Z (2 ^ (- e))) by (rewrite (Zlt_Qlt 0) in P; exact P).
      setoid_replace (/ inject_Z (2 ^ (- e))) with (1 / inject_Z (2 ^ (- e))) by (unfold Qdiv; ring).
      apply Qle_shift_div_r; [exact P'|]. rewrite Qmult_1_l. change 1 with (inject_Z 1). rewrite <- Zle_Qle. lia. }
    apply Qle_lt_trans with (inject_Z m * 1).
    + rewrite (Qmult_comm _ 1), (Qmult_comm (inject_Z m)). apply Qmult_le_compat_r; [exact B|]. change 0 with (inject_Z 0). rewrite <- Zle_Qle. lia.
    + rewrite Qmult_1_r, <- Zlt_Qlt. lia.
Qed.

Definition nearest (v q : Q) : Prop := forall q', is_double q' -> Qabs (v - q) <= Qabs (v - q').

Lemma nearest_at v q q' e : nearest v q -> is_double q' -> Qabs (v - q') <= e -> - e <= v - q <= e.
Proof. intros N D H. apply Qabs_Qle_condition. eapply Qle_trans; [exact (N q' D)|exact H]. Qed.

Definition two53 : Q := 9007199254740992 # 1.
Definition two64 : Q := 18446744073709551616 # 1.

Lemma nearest_grid v q : 0 <= v -> v <= two64 -> nearest v q -> - (1024 # 1) <= v - q <= (1024 # 1).
Proof.
  intros H0 H1 N. set (w := (v + (1024 # 1)) / (2048 # 1)). set (m := Qfloor w).
  pose proof (Qfloor_le w) as L. pose proof (Qlt_floor w) as U. fold m in L, U.
  assert (W : w * (2048 # 1) == v + (1024 # 1)) by (unfold w; field).
  rewrite inject_Z_plus in U. change (inject_Z 1) with 1 in U.
  assert (M0 : (0 <= m)%Z).
  { assert (inject_Z (-1) < inject_Z m). { change (inject_Z (-1)) with (-1 # 1). lra. } rewrite <- Zlt_Qlt in H. lia. }
  assert (M1 : (m <= 2 ^ 53)%Z).
  { assert (H : inject_Z m < inject_Z (2 ^ 53 + 1)). { change (inject_Z (2 ^ 53 + 1)) with (9007199254740993 # 1). unfold two64 in *. lra. }
    rewrite <- Zlt_Qlt in H. lia. }
  apply (nearest_at v q _ (1024 # 1) N (double_grid m (conj M0 M1))).
  rewrite inject_mult. change (inject_Z 2048) with (2048 # 1). apply Qabs_Qle_condition. split; lra.
Qed.

Lemma nearest_int v q : 0 <= v -> v <= two53 -> nearest v q -> - 1 <= v - q <= 1.
Proof.
  intros H0 H1 N. set (m := Qfloor v). pose proof (Qfloor_le v) as L. pose proof (Qlt_floor v) as U. fold m in L, U.
  rewrite inject_Z_plus in U. change (inject_Z 1) with 1 in U.
  assert (M0 : (0 <= m)%Z).
  { assert (inject_Z (-1) < inject_Z m). { change (inject_Z (-1)) with (-1 # 1). lra. } rewrite <- Zlt_Qlt in H. lia. }
  assert (M1 : (m <= 2 ^ 53)%Z).
  { assert (H : inject_Z m <= inject_Z (2 ^ 53)). { change (inject_Z (2 ^ 53)) with two53. lra. } rewrite <- Zle_Qle in H. lia. }
  apply (nearest_at v q _ 1 N (double_int m (conj M0 M1))). apply Qabs_Qle_condition. split; lra.
Qed.

Lemma nearest_above v q z : nearest v q -> is_double z -> z <= v -> z <= q.
Proof.
  intros N D H. apply Qnot_lt_le. intros L. pose proof (N z D) as B.
  rewrite !Qabs_pos in B by lra. lra.
Qed.

Local Notation N9 := (1000000000 # 1).

(** t is v in nanoseconds, rounded down and capped, r what comes out by way of the nearest double *)
Lemma near_double v q t r : 0 <= v -> (q = None \/ exists q', q = Some q' /\ nearest v q' /\ is_double q') ->
  (q = None -> two64 <= v) -> inject_Z t <= v * N9 < inject_Z (t + 1) -> std_from_double q r ->
  (Z.abs (Z.min max_nanos t - r) <= 1024 * 10 ^ 9)%Z.
Proof.
  intros Hv Hq Hn [T1 T2] Hr. rewrite inject_Z_plus in T2. change (inject_Z 1) with 1 in T2.
  assert (Big : two64 <= v -> (max_nanos <= t)%Z).
  { intros B. assert (H : inject_Z max_nanos < inject_Z t + 1).
    { change (inject_Z max_nanos) with (18446744073709551615999999999 # 1). unfold two64 in B. lra. }
    change 1 with (inject_Z 1) in H. rewrite <- inject_Z_plus, <- Zlt_Qlt in H. lia. }
  assert (E : max_nanos = 18446744073709551615999999999%Z) by reflexivity.
  destruct Hr as [|q L|q r L R].
  - specialize (Big (Hn eq_refl)). lia.
  - change (inject_Z (2 ^ 64)) with two64 in L. destruct Hq as [Hq|(q' & Hq & N & D)]; [discriminate|]. injection Hq as <-.
    destruct (Qlt_le_dec v two64) as [S|S]; [|specialize (Big S); lia].
    pose proof (nearest_grid v q Hv (Qlt_le_weak _ _ S) N) as [G1 G2].
    assert (H : inject_Z (max_nanos - 1024 * 10 ^ 9) < inject_Z t + 1).
    { change (inject_Z (max_nanos - 1024 * 10 ^ 9)) with (18446744073709550591999999999 # 1). unfold two64 in *. lra. }
    change 1 with (inject_Z 1) in H. rewrite <- inject_Z_plus, <- Zlt_Qlt in H. lia.
  - destruct Hq as [Hq|(q' & Hq & N & D)]; [discriminate|]. injection Hq as <-.
    change (inject_Z (2 ^ 64)) with two64 in L. change (inject_Z (10 ^ 9)) with N9 in R. apply Qabs_Qle_condition in R. destruct R as [R1 R2].
    assert (S : v < two64).
    { apply Qnot_le_lt. intros S. apply (Qlt_not_le _ _ L). eapply nearest_above; [exact N| |exact S].
      exact (double_grid (2 ^ 53) ltac:(split; [|]; vm_compute; congruence)). }
    assert (T : (t <= max_nanos)%Z).
    { assert (H : inject_Z t < inject_Z (max_nanos + 1)).
      { change (inject_Z (max_nanos + 1)) with (18446744073709551616000000000 # 1). unfold two64 in S. lra. }
      rewrite <- Zlt_Qlt in H. lia. }
    rewrite Z.min_r by exact T.
    destruct (Qlt_le_dec v two53) as [Sv|Sv].
    + pose proof (nearest_int v q Hv (Qlt_le_weak _ _ Sv) N) as [G1 G2].
      assert (H1 : inject_Z (t - r) < inject_Z (1024 * 10 ^ 9)).
      { unfold Z.sub. rewrite inject_Z_plus, inject_Z_opp. change (inject_Z (1024 * 10 ^ 9)) with (1024000000000 # 1). lra. }
      assert (H2 : inject_Z (r - t) < inject_Z (1024 * 10 ^ 9)).
      { unfold Z.sub. rewrite inject_Z_plus, inject_Z_opp. change (inject_Z (1024 * 10 ^ 9)) with (1024000000000 # 1). lra. }
      rewrite <- Zlt_Qlt in H1, H2. lia.
    + assert (Lq : two53 <= q) by (eapply nearest_above; [exact N| |exact Sv]; exact (double_int (2 ^ 53) ltac:(split; vm_compute; congruence))).
      destruct (double_large q D Lq) as (z & Ez).
      pose proof (nearest_grid v q Hv (Qlt_le_weak _ _ S) N) as [G1 G2]. rewrite Ez in *.
      assert (Er : r = (z * 10 ^ 9)%Z).
      { assert (H1 : inject_Z r < inject_Z (z * 10 ^ 9 + 1)).
        { rewrite inject_Z_plus, inject_mult. change (inject_Z (10 ^ 9)) with N9. change (inject_Z 1) with 1. lra. }
        assert (H2 : inject_Z (z * 10 ^ 9) < inject_Z (r + 1)).
        { rewrite inject_Z_plus, inject_mult. change (inject_Z (10 ^ 9)) with N9. change (inject_Z 1) with 1. lra. }
        rewrite <- Zlt_Qlt in H1, H2. lia. }
      subst r.
      assert (H1 : inject_Z t <= inject_Z (z * 10 ^ 9 + 1024 * 10 ^ 9)).
      { rewrite inject_Z_plus, inject_mult. change (inject_Z (10 ^ 9)) with N9. change (inject_Z (1024 * 10 ^ 9)) with (1024000000000 # 1). lra. }
      assert (H2 : inject_Z (z * 10 ^ 9 - 1024 * 10 ^ 9) < inject_Z (t + 1)).
      { unfold Z.sub. rewrite !inject_Z_plus, inject_Z_opp, inject_mult. change (inject_Z (10 ^ 9)) with N9. change (inject_Z (1024 * 10 ^ 9)) with (1024000000000 # 1).
        change (inject_Z 1) with 1. lra. }
      rewrite <- Zle_Qle in H1. rewrite <- Zlt_Qlt in H2. lia.
Qed.

Lemma double_between q : is_double q -> inject_Z (2 ^ 63) < q -> inject_Z (2 ^ 63 + 2048) <= q.
Proof.
  intros (m & e & Hm & He & E) L. rewrite E in *.
  assert (Mp : (0 < m)%Z).
  { destruct (Z.eq_dec m 0) as [->|]; [|lia]. exfalso. revert L. apply Qle_not_lt. rewrite Qmult_0_l. vm_compute. discriminate. }
  destruct (Z.leb_spec 11 e) as [H|H].
  - assert (X : inject_Z m * (2 # 1) ^ e == inject_Z (2048 * (m * 2 ^ (e - 11)))).
    { rewrite !inject_mult, two_power by lia. change (inject_Z 2048) with ((2 # 1) ^ 11). replace e with (11 + (e - 11))%Z at 1 by lia.
      rewrite Qpower_plus by discriminate. ring. }
    rewrite X in *. rewrite <- Zlt_Qlt in L. rewrite <- Zle_Qle. lia.
  - exfalso. revert L. apply Qle_not_lt.
    apply Qle_trans with (inject_Z (2 ^ 53) * (2 # 1) ^ 10); [|vm_compute; discriminate].
    apply Qle_trans with (inject_Z (2 ^ 53) * (2 # 1) ^ e).
    + apply Qmult_le_compat_r; [rewrite <- Zle_Qle; lia|]. apply Qpower_pos. discriminate.
    + rewrite !(Qmult_comm (inject_Z (2 ^ 53))). apply Qmult_le_compat_r; [|discriminate].
      apply Qpower_le_compat_l; [lia|discriminate].
Qed.

