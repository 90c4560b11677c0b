(** * Property C104: the check of the fuzz target for f64 like inputs, for every input *)
From Coq Require Import QArith Qabs Qpower Lqa Lia ZArith.
From Verif Require Import Prelude Time Config Parse Standard SpecTime SpecNum SpecParse SpecValue SpecGrammar SpecSpelling SpecFloat.
From Verif Require Import NumProofs ValueProofs SpellProofs Utf8Proofs StandardProofs PropNum PropParse PropStandard ReprProofs FloatProofs PropFloat SpecFloatFuzz.
Open Scope Z_scope.

(** ** Every literal has a value *)
Lemma least (f : nat -> Q) n : exists i, (i <= n)%nat /\ forall j, (j <= n)%nat -> (f i <= f j)%Q.
Proof.
  induction n as [|n (i & Hi & IH)].
  - exists 0%nat. split; [lia|]. intros j Hj. replace j with 0%nat by lia. apply Qle_refl.
  - destruct (Qlt_le_dec (f (S n)) (f i)) as [L|L].
    + exists (S n). split; [lia|]. intros j Hj. destruct (Nat.eq_dec j (S n)) as [->|]; [apply Qle_refl|]. apply Qle_trans with (f i); [now apply Qlt_le_weak|apply IH; lia].
    + exists i. split; [lia|]. intros j Hj. destruct (Nat.eq_dec j (S n)) as [->|]; [exact L|apply IH; lia].
Qed.
Lemma least2 (f : nat -> nat -> Q) n m : exists i k, (i <= n)%nat /\ (k <= m)%nat /\ forall j l, (j <= n)%nat -> (l <= m)%nat -> (f i k <= f j l)%Q.
Proof.
  induction n as [|n (i & k & Hi & Hk & IH)].
  - destruct (least (f 0%nat) m) as (k & Hk & H). exists 0%nat, k. split; [lia|]. split; [exact Hk|]. intros j l Hj Hl. replace j with 0%nat by lia. now apply H.
  - destruct (least (f (S n)) m) as (k' & Hk' & H). destruct (Qlt_le_dec (f (S n) k') (f i k)) as [L|L].
    + exists (S n), k'. split; [lia|]. split; [exact Hk'|]. intros j l Hj Hl. destruct (Nat.eq_dec j (S n)) as [->|]; [now apply H|].
      apply Qle_trans with (f i k); [now apply Qlt_le_weak|apply IH; lia].
    + exists i, k. split; [lia|]. split; [exact Hk|]. intros j l Hj Hl. destruct (Nat.eq_dec j (S n)) as [->|]; [|apply IH; lia].
      apply Qle_trans with (f (S n) k'); [exact L|now apply H].
Qed.
Lemma read_exists v : exists q, read_double v q.
Proof.
  destruct (Qlt_le_dec v (inject_Z (2 ^ 1024 - 2 ^ 970))) as [L|L]; [|exists None; now constructor].
  set (g := fun i k : nat => (inject_Z (Z.of_nat i) * (2 # 1) ^ (Z.of_nat k - 1074))%Q). remember (2 ^ 53 - 1) as M eqn:EM.
  assert (HM : 0 <= M /\ forall m, m <= M <-> m < 2 ^ 53) by (split; [|intros m]; lia). clear EM.
  destruct (least2 (fun i k => Qabs (v - g i k)) (Z.to_nat M) (Z.to_nat 2045)) as (i & k & Hi & Hk & H).
  exists (Some (g i k)). constructor; [exact L| |].
  - exists (Z.of_nat i), (Z.of_nat k - 1074). split; [split; [lia|apply HM; lia]|]. split; [lia|reflexivity].
  - intros q (m & e & Hm & He & E). specialize (H (Z.to_nat m) (Z.to_nat (e + 1074))). cbv beta in H. unfold g at 2 in H.
    rewrite !Z2Nat.id in H by lia. replace (e + 1074 - 1074) with e in H by lia. rewrite E. apply H; [|lia]. apply Z2Nat.inj_le; [lia|lia|]. apply HM. lia.
Qed.

(** ** The double next to 10^-18 *)
Local Open Scope Q_scope.
Lemma tiny_is : tiny == 5192296858534828 # (2 ^ 112)%positive.
Proof. vm_compute. reflexivity. Qed.
Lemma tiny_double : is_double tiny.
Proof. exists 5192296858534828%Z, (-112)%Z. split; [split; [discriminate|reflexivity]|]. split; [split; discriminate|]. reflexivity. Qed.
Lemma pow2_pos e : 0 < (2 # 1) ^ e.
Proof. apply Qpower_0_lt. reflexivity. Qed.
(** there is no double between *)
Lemma below_tiny q : is_double q -> q < tiny -> q <= 5192296858534827 # (2 ^ 112)%positive.
Proof.
  intros (m & e & Hm & He & E) L. destruct (Z_le_dec (-112) e) as [G|G].
  - assert (E' : q == inject_Z (m * 2 ^ (e + 112)) * (1 # (2 ^ 112)%positive)).
    { rewrite E. replace e with ((e + 112) + -112)%Z at 1 by lia. rewrite Qpower_plus by discriminate. rewrite inject_mult, two_power by lia.
      change ((2 # 1) ^ (-112)) with (1 # (2 ^ 112)%positive). ring. }
    rewrite E' in L |- *. rewrite tiny_is in L. set (z := (m * 2 ^ (e + 112))%Z) in *.
    assert (z < 5192296858534828)%Z by (unfold Qlt in L; cbn [Qnum Qden inject_Z Qmult] in L; lia).
    unfold Qle. cbn [Qnum Qden inject_Z Qmult]. lia.
  - rewrite E. apply Qle_trans with ((inject_Z (2 ^ 53)) * (2 # 1) ^ (-113)); [|vm_compute; discriminate].
    apply Qle_trans with (inject_Z (2 ^ 53) * (2 # 1) ^ e).
    + apply Qmult_le_compat_r; [rewrite <- Zle_Qle; lia|]. apply Qlt_le_weak, pow2_pos.
    + rewrite !(Qmult_comm (inject_Z (2 ^ 53))). apply Qmult_le_compat_r; [|vm_compute; discriminate].
      replace (-113)%Z with ((-113 - e) + e)%Z by lia. rewrite Qpower_plus by discriminate. rewrite <- (two_power (-113 - e)) by lia.
      rewrite <- (Qmult_1_l ((2 # 1) ^ e)) at 1. apply Qmult_le_compat_r; [|apply Qlt_le_weak, pow2_pos]. change 1 with (inject_Z 1). rewrite <- Zle_Qle.
      pose proof (Z.pow_pos_nonneg 2 (-113 - e)). lia.
Qed.
Lemma read_less v q : read_double v (Some q) -> q < tiny -> v < 1 # (10 ^ 18)%positive.
Proof.
  intros H L. inversion H as [q' _ D N|]; subst. pose proof (below_tiny q D L) as B. specialize (N tiny tiny_double). rewrite tiny_is in N, L.
  destruct (Qlt_le_dec v (1 # 10 ^ 18)) as [G|G]; [exact G|]. exfalso.
  assert (U : (5192296858534827 # 2 ^ 112) < 1 # 10 ^ 18) by reflexivity.
  assert (U2 : (5192296858534828 # 2 ^ 112) + (5192296858534827 # 2 ^ 112) < (1 # 10 ^ 18) + (1 # 10 ^ 18)) by reflexivity.
  set (t1 := 5192296858534827 # 2 ^ 112) in *. set (t2 := 5192296858534828 # 2 ^ 112) in *. set (o := 1 # 10 ^ 18) in *. clearbody t1 t2 o.
  rewrite (Qabs_pos (v - q)) in N by lra. destruct (Qlt_le_dec v t2) as [K|K].
  - rewrite (Qabs_neg (v - t2)) in N by lra. lra.
  - rewrite (Qabs_pos (v - t2)) in N by lra. lra.
Qed.
Lemma read_greater v q : 0 <= v -> read_double v (Some q) -> tiny < q -> 1 # (10 ^ 18)%positive <= v.
Proof.
  intros V H L. inversion H as [q' _ D N|]; subst. specialize (N tiny tiny_double). rewrite tiny_is in N, L.
  destruct (Qlt_le_dec v (1 # 10 ^ 18)) as [G|G]; [|exact G]. exfalso.
  assert (U : (1 # 10 ^ 18) < 5192296858534828 # 2 ^ 112) by reflexivity.
  set (t2 := 5192296858534828 # 2 ^ 112) in *. set (o := 1 # 10 ^ 18) in *. clearbody t2 o.
  rewrite (Qabs_neg (v - q)), (Qabs_neg (v - t2)) in N by lra. lra.
Qed.
Lemma read_zero v q : read_double v (Some q) -> q == 0 -> v < 1 # (10 ^ 18)%positive.
Proof. intros H E. apply (read_less v q H). rewrite E. reflexivity. Qed.

(** ** The check *)
Local Open Scope Z_scope.
Lemma scaled_zero V k : 0 <= V -> floor_scale10 V (18 + k) = 0 <-> (inject_Z V * (10 # 1) ^ k < 1 # (10 ^ 18)%positive)%Q.
Proof.
  intros HV. pose proof (floor_scaled V (18 + k) HV) as [B1 B2]. pose proof (floor_scale10_nonneg V (18 + k) HV) as P. set (z := floor_scale10 V (18 + k)) in *.
  rewrite Qpower_plus in B1, B2 by discriminate. change ((10 # 1) ^ 18)%Q with (inject_Z (10 ^ 18)) in B1, B2.
  set (w := (inject_Z V * (10 # 1) ^ k)%Q) in *.
  assert (W : (inject_Z V * (inject_Z (10 ^ 18) * (10 # 1) ^ k) == w * inject_Z (10 ^ 18))%Q) by (unfold w; ring). rewrite W in B1, B2. clear W. clearbody w.
  change (inject_Z (10 ^ 18)) with (1000000000000000000 # 1)%Q in *. change (1 # 10 ^ 18)%Q with (1 # 1000000000000000000)%Q. split.
  - intros E. rewrite E in B2. change (inject_Z (0 + 1)) with 1%Q in B2. lra.
  - intros L. destruct (Z.eq_dec z 0) as [|N]; [assumption|exfalso]. assert (H : (1 <= inject_Z z)%Q) by (change 1%Q with (inject_Z 1); rewrite <- Zle_Qle; lia). lra.
Qed.
Lemma first_e s n W F x : float_text s (Decimal n W F x) -> ~ -32768 <= x <= 32767 -> overflow_is_right s.
Proof.
  intros H R. inversion H as [sg n' W' fr F' ex x' Hs HW HF N He E1| |]; subst. clear H. revert R. destruct He as [|e sg' n'' ds He Hs' Hd Nd]; intros R; [lia|].
  exists (sg ++ W ++ fr), e, sg', n'', ds. split; [now rewrite <- !app_assoc|]. split; [exact He|]. split; [|auto].
  intros y Hy. apply in_app_or in Hy. destruct Hy as [Hy|Hy]; [destruct Hs; cbn in Hy; repeat destruct Hy as [<-|Hy]; lia || contradiction|]. apply in_app_or in Hy. destruct Hy as [Hy|Hy]; [specialize (HW y Hy); lia|].
  destruct HF as [|F HF]; [destruct Hy|]. cbn in Hy. destruct Hy as [<-|Hy]; [lia|]. specialize (HF y Hy). lia.
Qed.
Lemma overflows s n W F x : float_text s (Decimal n W F x) -> ~ -32768 <= x <= 32767 -> exponent_overflow s.
Proof.
  intros H R. destruct (C83_float_errors _ _ H) as (E1 & E2 & _). destruct (Z_lt_dec 32767 x) as [L|L].
  - exists PositiveExponentOverflow. split; [now apply E1|]. split; [now right|]. now apply (first_e s n W F x).
  - exists NegativeExponentOverflow. split; [apply E2; lia|]. split; [now left|]. now apply (first_e s n W F x).
Qed.
Lemma value_pos W F x : digit_string W -> digit_string F -> (0 <= decimal_value W F x)%Q.
Proof.
  intros HW HF. unfold decimal_value. pose proof (dval_pos W F HW HF). apply Qmult_le_0_compat; [change 0%Q with (inject_Z 0); now rewrite <- Zle_Qle|]. apply Qpower_pos. discriminate.
Qed.

(** C104 *)
Theorem C104_float_target : forall s, utf8 s = true -> float_target_passes s.
Proof.
  intros s Us. split.
  - intros v Hv. destruct Hv as [s n W F x q Ht Hq|s n Ht|s n Ht].
    + assert (D : digit_string W /\ digit_string F).
      { inversion Ht; subst. split; [assumption|]. eapply fraction_text_digits; eassumption. }
      destruct D as [HW HF]. pose proof (value_pos W F x HW HF) as V0. pose proof (dval_pos W F HW HF) as VP.
      assert (Z0 : floor_scale10 (dval (W ++ F)) (18 + x - Z.of_nat (length F)) = 0 <-> (decimal_value W F x < 1 # (10 ^ 18)%positive)%Q).
      { replace (18 + x - Z.of_nat (length F)) with (18 + (x - Z.of_nat (length F))) by lia. now apply scaled_zero. }
      assert (R : -32768 <= x <= 32767 \/ ~ -32768 <= x <= 32767) by lia.
      assert (Tn : n = true -> -32768 <= x <= 32767 -> (decimal_value W F x < 1 # (10 ^ 18)%positive)%Q -> dp_parse dp_without_time_units s = Ok ZERO).
      { intros -> Rx L. apply C83_float_texts; [exact Us|]. exists (Decimal true W F x). split; [exact Ht|]. constructor; [exact Rx|now apply Z0]. }
      assert (Ng : n = true -> ~ (decimal_value W F x < 1 # (10 ^ 18)%positive)%Q -> exists e, dp_parse dp_without_time_units s = Err e).
      { intros -> L. destruct R as [R|R]; [|destruct (overflows _ _ _ _ _ Ht R) as (e & E & _); eauto]. exists NegativeNumber.
        destruct (C83_float_errors _ _ Ht) as (_ & _ & E). apply E; [reflexivity|exact R|]. rewrite <- Z0 in L. pose proof (floor_scale10_nonneg (dval (W ++ F)) (18 + x - Z.of_nat (length F)) VP). lia. }
      destruct q as [a|].
      * assert (P : value_passes s (Float n (Some a)) = value_passes s (Float n (Some a))) by reflexivity. unfold value_passes at 2 in P. rewrite P. clear P.
        assert (Oth : n = false \/ (exists a0, Some a = Some a0 /\ (a0 == 0)%Q) -> exponent_overflow s \/
          exists d t, dp_parse dp_without_time_units s = Ok d /\ try_into_std d = inl t /\ forall r, std_from_double (Some a) r -> Z.abs (std_nanos t - r) <= 1024 * 10 ^ 9).
        { intros Hc. destruct R as [R|R]; [right|left; now apply (overflows _ _ _ _ _ Ht)]. destruct n.
          - destruct Hc as [Hc|(a0 & Ea & Z)]; [discriminate|]. injection Ea as <-. exists ZERO, STD_ZERO. split; [apply Tn; [reflexivity|exact R|now apply (read_zero _ a)]|].
            split; [reflexivity|]. intros r Hr. inversion Hr as [|q' L|q' r' L B]; subst.
            + exfalso. rewrite Z in L. vm_compute in L. now apply L.
            + rewrite Z in B. assert (r = 0) as ->; [|vm_compute; discriminate].
              setoid_replace (0 * inject_Z (10 ^ 9) - inject_Z r)%Q with (- inject_Z r)%Q in B by ring. rewrite Qabs_opp in B.
              destruct (Z_lt_ge_dec r 0) as [Lr|Lr].
              * rewrite Qabs_neg in B; [|change 0%Q with (inject_Z 0); rewrite <- Zle_Qle; lia]. assert (H : (inject_Z r <= inject_Z (-1))%Q) by (rewrite <- Zle_Qle; lia).
                change (inject_Z (-1)) with (-1)%Q in H. lra.
              * destruct (Z.eq_dec r 0) as [|Nr]; [assumption|]. rewrite Qabs_pos in B; [|change 0%Q with (inject_Z 0); rewrite <- Zle_Qle; lia].
                assert (H : (inject_Z 1 <= inject_Z r)%Q) by (rewrite <- Zle_Qle; lia). change (inject_Z 1) with 1%Q in H. lra.
          - pose (d := number_value false W F x Second default_multiplier).
            assert (D : float_duration (Decimal false W F x) d).
            { unfold d. constructor; [exact R|now apply number_value_ok| |].
              - rewrite seconds_value by assumption. unfold number_result. now destruct (_ || _).
              - rewrite seconds_value, result_pos by assumption. do 2 f_equal. lia. }
            pose proof (proj2 (C83_float_texts s d Us) (ex_intro _ _ (conj Ht D))) as E.
            assert (Nd : neg d = false) by (inversion D; assumption). clearbody d.
            exists d, (inner d). split; [exact E|]. split; [unfold try_into_std; now rewrite Nd, andb_false_r|].
            intros r Hr. replace (std_nanos (inner d)) with (nanos d) by (destruct d as [n' t]; cbn in Nd; subst n'; reflexivity).
            now apply (C83_near_f64 s W F x d (Some a) r). }
        destruct n; (split; [|exact Oth]).
        -- intros _ Nz. split; intros L.
           ++ destruct R as [R|R]; [left; exists ZERO; apply Tn; auto; now apply (read_less _ a)|right; now apply (overflows _ _ _ _ _ Ht)].
           ++ apply Ng; [reflexivity|]. pose proof (read_greater _ a V0 Hq L). now apply Qle_not_lt.
        -- discriminate.
      * inversion Hq as [|L]. destruct n.
        -- cbn. apply Ng; [reflexivity|]. apply Qle_not_lt. apply Qle_trans with (2 := L). vm_compute. discriminate.
        -- split; [exact I|]. intros _. destruct R as [R|R]; [right|left; now apply (overflows _ _ _ _ _ Ht)].
           pose (d := number_value false W F x Second default_multiplier).
           assert (D : float_duration (Decimal false W F x) d).
           { unfold d. constructor; [exact R|now apply number_value_ok| |].
             - rewrite seconds_value by assumption. unfold number_result. now destruct (_ || _).
             - rewrite seconds_value, result_pos by assumption. do 2 f_equal. lia. }
           pose proof (proj2 (C83_float_texts s d Us) (ex_intro _ _ (conj Ht D))) as E.
           assert (Nd : neg d = false) by (inversion D; assumption). clearbody d.
           exists d, (inner d). split; [exact E|]. split; [unfold try_into_std; now rewrite Nd, andb_false_r|].
           intros r Hr. replace (std_nanos (inner d)) with (nanos d) by (destruct d as [n' t]; cbn in Nd; subst n'; reflexivity).
           now apply (C83_near_f64 s W F x d None r).
    + destruct n.
      * exists NegativeNumber. now apply (C83_float_errors _ _ Ht).
      * split; [exact I|]. intros _. right. exists MAX, (inner MAX). split; [apply C83_float_texts; [exact Us|]; exists (Infinite false); split; [exact Ht|constructor]|].
        split; [reflexivity|]. intros r Hr. inversion Hr; subst. vm_compute. discriminate.
    + exact (C83_float_errors _ _ Ht).
  - intros N. destruct (C20_never_crashes _ _ _ _ s without_env Us) as [(d & E & _)|(e & E)]; [|exists e; exact E]. exfalso.
    apply (C83_float_texts s d Us) in E. destruct E as (l & Ht & _). exact (N l Ht).
Qed.
Print Assumptions C104_float_target.

(** every literal has a value to be checked with *)
Theorem C104_every_literal_is_read : forall s l, float_text s l -> exists v, reads s v.
Proof.
  intros s [n W F x|n|n] H.
  - destruct (read_exists (decimal_value W F x)) as (q & Hq). exists (Float n q). now apply (reads_decimal s n W F x).
  - exists (Float n None). now constructor.
  - exists NaN. now apply (reads_nan s n).
Qed.
Print Assumptions C104_every_literal_is_read.

(** `-1e-99999` is below 10^-18 and rejected for its exponent, as the target expects *)
Example C104_float_target_example : exponent_overflow (%"-1e-99999") /\ float_target_passes (%"-1e-99999") /\ exists v, reads (%"-1e-99999") v.
Proof.
  assert (T : float_text (%"-1e-99999") (Decimal true (%"1") [] (-99999))).
  { apply (float_decimal (%"-") true (%"1") [] [] (%"e-99999") (-99999)); [constructor| |constructor|discriminate|].
    - intros y Hy. cbn in Hy. repeat destruct Hy as [<-|Hy]; lia || contradiction.
    - apply (fe_some 101 (%"-") true (%"99999")); [now left|constructor| |discriminate]. intros y Hy. cbn in Hy. repeat destruct Hy as [<-|Hy]; lia || contradiction. }
  split; [apply (overflows _ _ _ _ _ T); lia|]. split; [now apply C104_float_target|]. eapply C104_every_literal_is_read. exact T.
Qed.
