(** * Proofs about the number conversions (Repr.v up to Fract) and the SWAR tricks *)
From Verif Require Import Prelude Util Time Bytes Repr SpecNum TimeProofs.

(** ** little endian numbers and bitwise and *)
Definition is_byte (b : Z) : Prop := 0 <= b <= 255.
Definition bytes_ok (l : str) : Prop := forall b, In b l -> is_byte b.

Lemma bytes_ok_cons x l : bytes_ok (x :: l) <-> is_byte x /\ bytes_ok l.
Proof.
  unfold bytes_ok. split.
  - intros H. split; [apply H; now left|]. intros b Hb. apply H. now right.
  - intros [H1 H2] b [->|Hb]; auto.
Qed.

Lemma digit_string_cons x l : digit_string (x :: l) <-> 48 <= x <= 57 /\ digit_string l.
Proof.
  unfold digit_string. split.
  - intros H. split; [apply H; now left|]. intros b Hb. apply H. now right.
  - intros [H1 H2] b [->|Hb]; auto.
Qed.
Lemma digit_string_nil : digit_string [].
Proof. intros b []. Qed.
Lemma digit_string_app a b : digit_string (a ++ b) <-> digit_string a /\ digit_string b.
Proof.
  unfold digit_string. split.
  - intros H. split; intros x Hx; apply H, in_or_app; auto.
  - intros [H1 H2] x Hx. apply in_app_or in Hx. destruct Hx; auto.
Qed.
Lemma digit_string_firstn n l : digit_string l -> digit_string (firstn n l).
Proof. intros H. rewrite <- (firstn_skipn n l), digit_string_app in H. tauto. Qed.
Lemma digit_string_skipn n l : digit_string l -> digit_string (skipn n l).
Proof. intros H. rewrite <- (firstn_skipn n l), digit_string_app in H. tauto. Qed.
Lemma is_digit_iff b : is_digit b = true <-> 48 <= b <= 57.
Proof. unfold is_digit. lia. Qed.
Lemma digit_string_forallb l : digit_string l <-> forallb is_digit l = true.
Proof.
  rewrite forallb_forall. unfold digit_string. split; intros H b Hb; specialize (H b Hb).
  - now apply is_digit_iff.
  - now apply is_digit_iff.
Qed.
Lemma digit_string_bytes l : digit_string l -> bytes_ok l.
Proof. intros H b Hb. specialize (H b Hb). unfold is_byte. lia. Qed.

Lemma land_byte a x m y : 0 <= a < 256 -> 0 <= m < 256 -> 0 <= x -> 0 <= y ->
  Z.land (a + 256 * x) (m + 256 * y) = Z.land a m + 256 * Z.land x y.
Proof.
  intros Ha Hm Hx Hy.
  assert (L : 0 <= Z.land a m < 256).
  { split; [apply Z.land_nonneg; lia|].
    destruct (Z.eq_dec (Z.land a m) 0) as [->|N]; [lia|].
    assert (0 < Z.land a m) by (pose proof (proj2 (Z.land_nonneg a m)); lia).
    change 256 with (2 ^ 8). apply Z.log2_lt_pow2; [assumption|].
    eapply Z.le_lt_trans; [apply Z.log2_land; lia|].
    assert (B : forall z, 0 <= z < 256 -> Z.log2 z < 8).
    { intros z Hz. destruct (Z.eq_dec z 0) as [->|]; [reflexivity|]. apply Z.log2_lt_pow2; [lia|exact (proj2 Hz)]. }
    pose proof (B a Ha). lia. }
  apply Z.bits_inj'. intros n Hn.
  assert (G : forall a x, 0 <= a < 256 -> 0 <= x ->
    Z.testbit (a + 256 * x) n = if n <? 8 then Z.testbit a n else Z.testbit x (n - 8)).
  { clear - Hn. intros a x Ha Hx. destruct (Z.ltb_spec n 8).
    - rewrite <- (Z.mod_pow2_bits_low (a + 256 * x) 8 n) by lia.
      change (2 ^ 8) with 256. rewrite (Z.mul_comm 256), Z.mod_add by lia.
      rewrite Z.mod_small by lia. reflexivity.
    - replace n with ((n - 8) + 8) at 1 by lia. rewrite <- Z.div_pow2_bits by lia.
      change (2 ^ 8) with 256. rewrite (Z.mul_comm 256), Z.div_add by lia.
      rewrite Z.div_small by lia. reflexivity. }
  rewrite (G (Z.land a m)) by (try apply Z.land_nonneg; lia).
  rewrite Z.land_spec, !G by lia.
  destruct (n <? 8); now rewrite Z.land_spec.
Qed.

Lemma le_num_nonneg l : bytes_ok l -> 0 <= le_num l.
Proof.
  induction l as [|x l IH]; [cbn; lia|]. rewrite bytes_ok_cons. intros [H1 H2]. cbn [le_num].
  specialize (IH H2). unfold is_byte in H1. lia.
Qed.
Lemma le_num_bound l : bytes_ok l -> le_num l < 256 ^ Z.of_nat (length l).
Proof.
  induction l as [|x l IH]; [cbn; lia|]. rewrite bytes_ok_cons. intros [H1 H2]. cbn [le_num length].
  specialize (IH H2). rewrite Nat2Z.inj_succ, Z.pow_succ_r by lia. unfold is_byte in H1. lia.
Qed.
Lemma le_num_inj l l' : bytes_ok l -> bytes_ok l' -> length l = length l' ->
  le_num l = le_num l' -> l = l'.
Proof.
  revert l'. induction l as [|x l IH]; intros [|y l'] H H' L E; try discriminate; [reflexivity|].
  rewrite bytes_ok_cons in *. destruct H as [H1 H2], H' as [H1' H2']. cbn [le_num] in E.
  unfold is_byte in *. pose proof (le_num_nonneg l H2). pose proof (le_num_nonneg l' H2').
  assert (x = y) by lia. subst y. f_equal. apply IH; try assumption; [now injection L|lia].
Qed.

Fixpoint zip_land (a b : str) : str :=
  match a, b with x :: a', y :: b' => Z.land x y :: zip_land a' b' | _, _ => [] end.
Lemma land_byte_range a m : 0 <= a -> 0 <= m < 256 -> 0 <= Z.land a m < 256.
Proof.
  intros Ha Hm. split; [apply Z.land_nonneg; lia|].
  destruct (Z.eq_dec (Z.land a m) 0) as [->|N]; [lia|].
  assert (0 < Z.land a m) by (pose proof (proj2 (Z.land_nonneg a m)); lia).
  change 256 with (2 ^ 8). apply Z.log2_lt_pow2; [assumption|].
  eapply Z.le_lt_trans; [apply Z.log2_land; lia|].
  assert (Z.log2 m < 8).
  { destruct (Z.eq_dec m 0) as [->|]; [reflexivity|]. apply Z.log2_lt_pow2; [lia|exact (proj2 Hm)]. }
  lia.
Qed.
Lemma zip_land_ok a b : bytes_ok a -> bytes_ok b -> bytes_ok (zip_land a b).
Proof.
  revert b. induction a as [|x a IH]; intros [|y b] Ha Hb; cbn [zip_land]; try (intros ? H; destruct H; fail).
  apply bytes_ok_cons in Ha. apply bytes_ok_cons in Hb. apply bytes_ok_cons. destruct Ha, Hb.
  split; [|now apply IH]. unfold is_byte in *. pose proof (land_byte_range x y). lia.
Qed.
Lemma zip_land_length a b : length a = length b -> length (zip_land a b) = length a.
Proof. revert b. induction a; intros [|y b] L; try discriminate; cbn; [reflexivity|]. now rewrite IHa by (now injection L). Qed.
Lemma le_num_land a b : bytes_ok a -> bytes_ok b -> length a = length b ->
  Z.land (le_num a) (le_num b) = le_num (zip_land a b).
Proof.
  revert b. induction a as [|x a IH]; intros [|y b] Ha Hb L; try discriminate; [reflexivity|].
  apply bytes_ok_cons in Ha. apply bytes_ok_cons in Hb. destruct Ha, Hb. cbn [le_num zip_land].
  unfold is_byte in *.
  rewrite land_byte; try lia; try (now apply le_num_nonneg).
  rewrite IH; try assumption; [reflexivity|now injection L].
Qed.

(** ** the digit test (C13) *)
Fixpoint add6 (l : str) (c : Z) : str :=
  match l with [] => [] | x :: l' => (x + 6 + c) mod 256 :: add6 l' ((x + 6 + c) / 256) end.

Lemma add6_ok l c : bytes_ok (add6 l c).
Proof.
  revert c. induction l as [|x l IH]; intros c; cbn; [intros ? []|].
  apply bytes_ok_cons. split; [|apply IH]. pose proof (Z.mod_pos_bound (x + 6 + c) 256). unfold is_byte. lia.
Qed.
Lemma add6_length l c : length (add6 l c) = length l.
Proof. revert c. induction l; intros; cbn; auto. Qed.

Lemma add6_num l c : bytes_ok l -> 0 <= c <= 1 ->
  (le_num l + le_num (repeat 6 (length l)) + c) mod 256 ^ Z.of_nat (length l) = le_num (add6 l c).
Proof.
  revert c. induction l as [|x l IH]; intros c H Hc.
  - cbn. now rewrite Z.mod_1_r.
  - apply bytes_ok_cons in H. destruct H as [Hx Hl]. unfold is_byte in Hx.
    cbn [length repeat le_num add6]. rewrite Nat2Z.inj_succ, Z.pow_succ_r by lia.
    assert (Hc' : 0 <= (x + 6 + c) / 256 <= 1) by lia.
    rewrite <- (IH _ Hl Hc').
    set (A := le_num l). set (B := le_num (repeat 6 (length l))).
    set (M := 256 ^ Z.of_nat (length l)).
    assert (HM : 0 < M) by (apply Z.pow_pos_nonneg; lia).
    rewrite Z.rem_mul_r by lia.
    replace (x + 256 * A + (6 + 256 * B) + c) with ((x + 6 + c) + (A + B) * 256) by lia.
    rewrite Z.mod_add, Z.div_add by lia. f_equal. f_equal. f_equal. lia.
Qed.

Definition byte_test (x c : Z) : Z := Z.land (Z.land x ((x + 6 + c) mod 256)) 0xf0.
Definition all_bytes : list Z := map Z.of_nat (seq 0 256).
Lemma all_bytes_In b : is_byte b -> In b all_bytes.
Proof.
  intros H. unfold all_bytes. apply in_map_iff. exists (Z.to_nat b). unfold is_byte in H.
  split; [lia|]. apply in_seq. lia.
Qed.
Lemma byte_test_sweep : forallb (fun b => Bool.eqb (byte_test b 0 =? 0x30) (is_digit b)) all_bytes = true.
Proof. vm_compute. reflexivity. Qed.
Lemma byte_test_spec b : is_byte b -> (byte_test b 0 =? 0x30) = is_digit b.
Proof.
  intros H. pose proof byte_test_sweep as S. rewrite forallb_forall in S.
  apply Bool.eqb_prop, S, all_bytes_In, H.
Qed.

Lemma digit_test_list l : bytes_ok l ->
  zip_land (zip_land l (add6 l 0)) (repeat 0xf0 (length l)) = repeat 0x30 (length l)
  <-> forallb is_digit l = true.
Proof.
  induction l as [|x l IH]; [intros _; cbn; tauto|].
  intros H. apply bytes_ok_cons in H. destruct H as [Hx Hl].
  cbn [add6 zip_land repeat length forallb].
  change (Z.land (Z.land x ((x + 6 + 0) mod 256)) 240) with (byte_test x 0).
  pose proof (byte_test_spec x Hx) as T.
  rewrite andb_true_iff, <- T, <- (IH Hl). rewrite Z.eqb_eq.
  destruct (Z.eqb_spec (byte_test x 0) 48) as [E|E].
  - (* a digit: no carry *)
    symmetry in T. apply is_digit_iff in T.
    replace ((x + 6 + 0) / 256) with 0 by (symmetry; apply Z.div_small; lia).
    rewrite E. split; [intros X; injection X; auto|intros [_ X]; now rewrite X].
  - split; [intros X; injection X; congruence|intros [X _]; congruence].
Qed.

Lemma eight_digits_test_spec l : length l = 8%nat -> bytes_ok l ->
  eight_digits_test (le_num l) = forallb is_digit l.
Proof.
  intros L H. unfold eight_digits_test, wrap_u64.
  pose proof (add6_num l 0 H ltac:(lia)) as A. rewrite Z.add_0_r, L in A.
  change (256 ^ Z.of_nat 8) with (2 ^ 64) in A.
  change (le_num (repeat 6 8)) with 0x0606060606060606 in A. rewrite A.
  rewrite (le_num_land l (add6 l 0)); [|assumption|apply add6_ok|now rewrite add6_length].
  change 0xf0f0f0f0f0f0f0f0 with (le_num (repeat 0xf0 8)).
  assert (R : forall n b, is_byte b -> bytes_ok (repeat b n)).
  { intros n b Hb x Hx. apply repeat_spec in Hx. now subst. }
  assert (L1 : length (zip_land l (add6 l 0)) = 8%nat) by (rewrite zip_land_length; [exact L|now rewrite add6_length]).
  rewrite le_num_land; [|apply zip_land_ok; [exact H|apply add6_ok]|apply R; unfold is_byte; lia|rewrite L1; reflexivity].
  apply eq_true_iff_eq. rewrite Z.eqb_eq, <- (digit_test_list l H), L.
  change 0x3030303030303030 with (le_num (repeat 0x30 8)). split.
  - intros E. apply le_num_inj; try assumption.
    + apply zip_land_ok; [apply zip_land_ok; [exact H|apply add6_ok]|apply R; unfold is_byte; lia].
    + apply R. unfold is_byte; lia.
    + rewrite zip_land_length; [rewrite L1; reflexivity|rewrite L1; reflexivity].
  - now intros ->.
Qed.

(** ** the 8 digit conversion (C12) *)
Lemma swar_arith d0 d1 d2 d3 d4 d5 d6 d7 :
  0 <= d0 <= 9 -> 0 <= d1 <= 9 -> 0 <= d2 <= 9 -> 0 <= d3 <= 9 ->
  0 <= d4 <= 9 -> 0 <= d5 <= 9 -> 0 <= d6 <= 9 -> 0 <= d7 <= 9 ->
  swar_8_digits [48 + d0; 48 + d1; 48 + d2; 48 + d3; 48 + d4; 48 + d5; 48 + d6; 48 + d7] =
  Ok (d0 * 10000000 + d1 * 1000000 + d2 * 100000 + d3 * 10000 + d4 * 1000 + d5 * 100 + d6 * 10 + d7).
Proof.
  intros H0 H1 H2 H3 H4 H5 H6 H7. unfold swar_8_digits.
  change (debug_assert _) with (@Ok unit tt). cbn [bind].
  set (l := firstn 8 _).
  assert (Low : forall d, 0 <= d <= 9 -> Z.land (48 + d) 15 = d).
  { intros d Hd. change 15 with (Z.ones 4). rewrite Z.land_ones by lia. change (2 ^ 4) with 16. lia. }
  assert (R : forall n b, is_byte b -> bytes_ok (repeat b n)).
  { intros n b Hb x Hx. apply repeat_spec in Hx. now subst. }
  assert (S1 : Z.land (le_num l) 0x0F0F0F0F0F0F0F0F = le_num [d0; d1; d2; d3; d4; d5; d6; d7]).
  { change 0x0F0F0F0F0F0F0F0F with (le_num (repeat 15 8)).
    rewrite le_num_land; [|subst l; unfold bytes_ok, is_byte; cbn [firstn In]; intuition lia|apply R; unfold is_byte; lia|reflexivity].
    subst l. cbn [firstn zip_land repeat]. now rewrite !Low by assumption. }
  rewrite S1. clear S1 l Low.
  assert (F255 : forall c, 0 <= c <= 255 -> Z.land c 255 = c).
  { intros c Hc. change 255 with (Z.ones 8). rewrite Z.land_ones by lia. change (2 ^ 8) with 256. lia. }
  (* stage 1 *)
  assert (E1 : Z.shiftr (wrap_u64 (le_num [d0; d1; d2; d3; d4; d5; d6; d7] * 2561)) 8
     = le_num [10 * d0 + d1; 10 * d1 + d2; 10 * d2 + d3; 10 * d3 + d4; 10 * d4 + d5; 10 * d5 + d6; 10 * d6 + d7; 0]).
  { rewrite Z.shiftr_div_pow2 by lia. unfold wrap_u64. cbn [le_num].
    change (2 ^ 64) with 18446744073709551616. change (2 ^ 8) with 256.
    match goal with |- (?a mod ?m) / _ = ?b => assert (E : a mod m = d0 + 256 * b) end.
    { symmetry. apply (Z.mod_unique_pos _ _ (10 * d7)); lia. }
    rewrite E. symmetry. apply (Z.div_unique_pos _ _ _ d0); lia. }
  rewrite E1. clear E1.
  assert (S2 : Z.land (le_num [10 * d0 + d1; 10 * d1 + d2; 10 * d2 + d3; 10 * d3 + d4; 10 * d4 + d5; 10 * d5 + d6; 10 * d6 + d7; 0])
                 0x00FF00FF00FF00FF = le_num [10 * d0 + d1; 0; 10 * d2 + d3; 0; 10 * d4 + d5; 0; 10 * d6 + d7; 0]).
  { change 0x00FF00FF00FF00FF with (le_num [255; 0; 255; 0; 255; 0; 255; 0]).
    rewrite le_num_land; [|unfold bytes_ok, is_byte; cbn [In]; intuition lia|unfold bytes_ok, is_byte; cbn [In]; intuition lia|reflexivity].
    cbn [zip_land]. rewrite !Z.land_0_r, !F255 by lia. reflexivity. }
  rewrite S2. clear S2.
  set (p0 := 10 * d0 + d1). set (p1 := 10 * d2 + d3). set (p2 := 10 * d4 + d5). set (p3 := 10 * d6 + d7).
  assert (P0 : 0 <= p0 <= 99) by (subst p0; lia). assert (P1 : 0 <= p1 <= 99) by (subst p1; lia).
  assert (P2 : 0 <= p2 <= 99) by (subst p2; lia). assert (P3 : 0 <= p3 <= 99) by (subst p3; lia).
  (* stage 2: 6553601 = 100 * 65536 + 1 *)
  assert (E2 : Z.shiftr (wrap_u64 (le_num [p0; 0; p1; 0; p2; 0; p3; 0] * 6553601)) 16
     = (100 * p0 + p1) + 65536 * ((100 * p1 + p2) + 65536 * (100 * p2 + p3))).
  { rewrite Z.shiftr_div_pow2 by lia. unfold wrap_u64. cbn [le_num].
    change (2 ^ 64) with 18446744073709551616. change (2 ^ 16) with 65536.
    match goal with |- (?a mod ?m) / _ = ?b => assert (E : a mod m = p0 + 65536 * b) end.
    { symmetry. apply (Z.mod_unique_pos _ _ (100 * p3)); lia. }
    rewrite E. symmetry. apply (Z.div_unique_pos _ _ _ p0); lia. }
  rewrite E2. clear E2.
  set (q0 := 100 * p0 + p1). set (q1 := 100 * p1 + p2). set (q2 := 100 * p2 + p3).
  assert (Q0 : 0 <= q0 <= 9999) by (subst q0; lia). assert (Q1 : 0 <= q1 <= 9999) by (subst q1; lia).
  assert (Q2 : 0 <= q2 <= 9999) by (subst q2; lia).
  assert (S3 : Z.land (q0 + 65536 * (q1 + 65536 * q2)) 0x0000FFFF0000FFFF = q0 + 4294967296 * q2).
  { replace (q0 + 65536 * (q1 + 65536 * q2)) with
      (le_num [q0 mod 256; q0 / 256; q1 mod 256; q1 / 256; q2 mod 256; q2 / 256; 0; 0]).
    2:{ cbn [le_num]. pose proof (Z.div_mod q0 256). pose proof (Z.div_mod q1 256). pose proof (Z.div_mod q2 256). lia. }
    change 0x0000FFFF0000FFFF with (le_num [255; 255; 0; 0; 255; 255; 0; 0]).
    assert (B : forall q, 0 <= q <= 9999 -> 0 <= q mod 256 <= 255 /\ 0 <= q / 256 <= 255) by (intros; lia).
    pose proof (B q0 Q0). pose proof (B q1 Q1). pose proof (B q2 Q2).
    rewrite le_num_land; [|unfold bytes_ok, is_byte; cbn [In]; intuition lia|unfold bytes_ok, is_byte; cbn [In]; intuition lia|reflexivity].
    cbn [zip_land]. rewrite !Z.land_0_r, !F255 by lia. cbn [le_num].
    pose proof (Z.div_mod q0 256). pose proof (Z.div_mod q2 256). lia. }
  rewrite S3. clear S3.
  (* stage 3: 42949672960001 = 10000 * 2^32 + 1 *)
  assert (E3 : Z.shiftr (wrap_u64 ((q0 + 4294967296 * q2) * 42949672960001)) 32 = 10000 * q0 + q2).
  { rewrite Z.shiftr_div_pow2 by lia. unfold wrap_u64.
    change (2 ^ 64) with 18446744073709551616. change (2 ^ 32) with 4294967296.
    match goal with |- (?a mod ?m) / _ = ?b => assert (E : a mod m = q0 + 4294967296 * b) end.
    { symmetry. apply (Z.mod_unique_pos _ _ (10000 * q2)); lia. }
    rewrite E. symmetry. apply (Z.div_unique_pos _ _ _ q0); lia. }
  rewrite E3. f_equal. subst q0 q2 p0 p1 p2 p3. lia.
Qed.

Lemma dval_from_app acc a b : dval_from acc (a ++ b) = dval_from (dval_from acc a) b.
Proof. revert acc. induction a as [|x a IH]; intros acc; cbn; auto. Qed.
Lemma dval_from_acc l : forall acc, dval_from acc l = acc * 10 ^ Z.of_nat (length l) + dval l.
Proof.
  unfold dval. induction l as [|x l IH]; intros acc; cbn [dval_from length]; [cbn; lia|].
  rewrite IH, (IH (0 * 10 + _)). rewrite Nat2Z.inj_succ, Z.pow_succ_r by lia. ring.
Qed.
Lemma dval_app a b : dval (a ++ b) = dval a * 10 ^ Z.of_nat (length b) + dval b.
Proof. unfold dval at 1. rewrite dval_from_app. apply dval_from_acc. Qed.
Lemma dval_nonneg l : digit_string l -> 0 <= dval l.
Proof.
  induction l as [|x l IH]; [unfold dval; cbn; lia|]. rewrite digit_string_cons. intros [H1 H2].
  change (x :: l) with ([x] ++ l). rewrite dval_app. specialize (IH H2).
  assert (0 < 10 ^ Z.of_nat (length l)) by (apply Z.pow_pos_nonneg; lia).
  unfold dval at 1; cbn [dval_from]. nia.
Qed.
Lemma dval_bound l : digit_string l -> dval l < 10 ^ Z.of_nat (length l).
Proof.
  induction l as [|x l IH]; [unfold dval; cbn; lia|]. rewrite digit_string_cons. intros [H1 H2].
  change (x :: l) with ([x] ++ l). rewrite dval_app. specialize (IH H2).
  cbn [app length]. rewrite Nat2Z.inj_succ, Z.pow_succ_r by lia.
  assert (0 < 10 ^ Z.of_nat (length l)) by (apply Z.pow_pos_nonneg; lia).
  unfold dval at 1; cbn [dval_from]. nia.
Qed.

Lemma swar_8_digits_spec l : length l = 8%nat -> digit_string l -> swar_8_digits l = Ok (dval l).
Proof.
  intros L H. do 8 (destruct l as [|? l]; [discriminate|]). destruct l; [|discriminate].
  repeat rewrite digit_string_cons in H. decompose [and] H. clear H.
  match goal with |- swar_8_digits [?a; ?b; ?c; ?d; ?e; ?f; ?g; ?h] = _ =>
    pose proof (swar_arith (a - 48) (b - 48) (c - 48) (d - 48) (e - 48) (f - 48) (g - 48) (h - 48)) as S
  end.
  repeat match type of S with _ -> _ => specialize (S ltac:(lia)) end.
  repeat match type of S with context [48 + (?x - 48)] => replace (48 + (x - 48)) with x in S by lia end.
  rewrite S. f_equal. unfold dval. cbn [dval_from]. lia.
Qed.

(** ** chunks *)
Lemma list_ind8 (P : str -> Prop) :
  (forall l, (length l < 8)%nat -> P l) ->
  (forall a b c d e f g h t, P t -> P (a :: b :: c :: d :: e :: f :: g :: h :: t)) ->
  forall l, P l.
Proof.
  intros H1 H2 l. remember (length l) as n eqn:E. revert l E.
  induction n as [n IH] using lt_wf_ind. intros l E.
  destruct (Nat.lt_ge_cases (length l) 8) as [L|L]; [now apply H1|].
  do 8 (destruct l as [|? l]; [cbn in L; lia|]).
  apply H2. apply (IH (length l)); [cbn in E; lia|reflexivity].
Qed.

Lemma chunks_short l : (length l < 8)%nat -> chunks_exact8 l = ([], l).
Proof. intros L. do 8 (destruct l as [|? l]; [reflexivity|]). cbn in L. lia. Qed.

Definition opt_chk (s : Z) (l : str) : res (option Z) :=
  Ok (chk is_u64 (s * 10 ^ Z.of_nat (length l) + dval l)).

Lemma pow10_pos (n : nat) : 0 < 10 ^ Z.of_nat n.
Proof. apply Z.pow_pos_nonneg; lia. Qed.
Lemma pow10_S (n : nat) : 10 ^ Z.of_nat (S n) = 10 * 10 ^ Z.of_nat n.
Proof. rewrite Nat2Z.inj_succ, Z.pow_succ_r by lia. reflexivity. Qed.
Lemma pow10_add (n m : nat) : 10 ^ Z.of_nat (n + m) = 10 ^ Z.of_nat n * 10 ^ Z.of_nat m.
Proof. rewrite Nat2Z.inj_add, Z.pow_add_r by lia. reflexivity. Qed.

Lemma dval_cons x l : dval (x :: l) = (x - 48) * 10 ^ Z.of_nat (length l) + dval l.
Proof. change (x :: l) with ([x] ++ l). rewrite dval_app. unfold dval at 1; cbn [dval_from]. lia. Qed.

Lemma whole_digits_spec l : forall s, digit_string l -> 0 <= s <= u64_max ->
  whole_digits s l = opt_chk s l.
Proof.
  unfold opt_chk.
  induction l as [|x l IH]; intros s H Hs.
  - cbn [whole_digits length]. unfold dval; cbn [dval_from]. cbn [Z.of_nat]. rewrite Z.pow_0_r, Z.mul_1_r, Z.add_0_r.
    rewrite chk_true; [reflexivity|]. unfold u64_max in Hs. apply is_u64_iff. lia.
  - rewrite digit_string_cons in H. destruct H as [Hx Hl]. cbn [whole_digits].
    pose proof (dval_nonneg l Hl) as Dn. pose proof (pow10_pos (length l)) as Pp.
    assert (E : s * 10 ^ Z.of_nat (length (x :: l)) + dval (x :: l)
                = (s * 10 + (x - 48)) * 10 ^ Z.of_nat (length l) + dval l).
    { cbn [length]. rewrite pow10_S, dval_cons. ring. }
    rewrite E.
    assert (Big : u64_max < s * 10 + (x - 48) ->
      chk is_u64 ((s * 10 + (x - 48)) * 10 ^ Z.of_nat (length l) + dval l) = None).
    { intros B. apply chk_false. apply not_true_iff_false. rewrite is_u64_iff. unfold u64_max in *. nia. }
    destruct (chk_spec is_u64 (s * 10)) as [[H1 E1]|[H1 E1]]; rewrite E1.
    + rewrite arith_ok by (apply is_u8_iff; lia). cbn [bind].
      destruct (chk_spec is_u64 (s * 10 + (x - 48))) as [[H2 E2]|[H2 E2]]; rewrite E2.
      * apply is_u64_iff in H2. rewrite IH by (try assumption; unfold u64_max; lia). reflexivity.
      * rewrite Big; [reflexivity|]. rewrite <- not_true_iff_false, is_u64_iff in H2. unfold u64_max in *. lia.
    + rewrite Big; [reflexivity|]. rewrite <- not_true_iff_false, is_u64_iff in H1. unfold u64_max in *. lia.
Qed.

Lemma whole_slice_chunks l : forall s, digit_string l -> 0 <= s <= u64_max ->
  (let '(cs, r) := chunks_exact8 l in
   let* o := whole_chunks s cs in
   match o with Some s => whole_digits s r | None => Ok None end) = opt_chk s l.
Proof.
  induction l as [l L|x0 x1 x2 x3 x4 x5 x6 x7 t IH] using list_ind8; intros s H Hs.
  - rewrite (chunks_short l L). cbn [whole_chunks bind]. now apply whole_digits_spec.
  - set (c := [x0; x1; x2; x3; x4; x5; x6; x7]).
    change (x0 :: x1 :: x2 :: x3 :: x4 :: x5 :: x6 :: x7 :: t) with (c ++ t) in *.
    rewrite digit_string_app in H. destruct H as [Hc Ht].
    assert (Ec : chunks_exact8 (c ++ t) = let '(cs, r) := chunks_exact8 t in (c :: cs, r)) by reflexivity.
    rewrite Ec. destruct (chunks_exact8 t) as [cs r] eqn:Et. cbn [whole_chunks].
    rewrite (swar_8_digits_spec c eq_refl Hc). cbn [bind].
    pose proof (dval_nonneg c Hc) as Dc. pose proof (dval_nonneg t Ht) as Dt.
    pose proof (pow10_pos (length t)) as Pp.
    unfold opt_chk in *.
    assert (E : s * 10 ^ Z.of_nat (length (c ++ t)) + dval (c ++ t)
                = (s * 100000000 + dval c) * 10 ^ Z.of_nat (length t) + dval t).
    { rewrite app_length, pow10_add, dval_app. change (10 ^ Z.of_nat (length c)) with 100000000. ring. }
    rewrite E.
    assert (Big : u64_max < s * 100000000 + dval c ->
      chk is_u64 ((s * 100000000 + dval c) * 10 ^ Z.of_nat (length t) + dval t) = None).
    { intros B. apply chk_false. apply not_true_iff_false. rewrite is_u64_iff. unfold u64_max in *. nia. }
    destruct (chk_spec is_u64 (s * 100000000)) as [[H1 E1]|[H1 E1]]; rewrite E1.
    + destruct (chk_spec is_u64 (s * 100000000 + dval c)) as [[H2 E2]|[H2 E2]]; rewrite E2.
      * apply is_u64_iff in H2.
        apply (IH (s * 100000000 + dval c) Ht). unfold u64_max; lia.
      * rewrite Big; [reflexivity|]. rewrite <- not_true_iff_false, is_u64_iff in H2. unfold u64_max in *. lia.
    + rewrite Big; [reflexivity|]. rewrite <- not_true_iff_false, is_u64_iff in H1. unfold u64_max in *. lia.
Qed.

Lemma whole_parse_slice_spec s l : digit_string l -> 0 <= s <= u64_max ->
  whole_parse_slice s l = opt_chk s l.
Proof.
  intros H Hs. unfold whole_parse_slice. destruct (8 <=? length l)%nat.
  - now apply whole_slice_chunks.
  - now apply whole_digits_spec.
Qed.

Definition opt_str (o : option str) : str := match o with Some l => l | None => [] end.
Definition opt_nat (o : option nat) : nat := match o with Some n => n | None => 0%nat end.

Lemma POW10_nth n : (n < 20)%nat -> nth_error POW10 n = Some (10 ^ Z.of_nat n).
Proof. intros H. do 20 (destruct n as [|n]; [reflexivity|]). lia. Qed.
Lemma POW10_none n : (20 <= n)%nat -> nth_error POW10 n = None.
Proof. intros H. apply nth_error_None. cbn. lia. Qed.
Lemma pow10_ok n : (n < 20)%nat -> pow10 n = Ok (10 ^ Z.of_nat n).
Proof. intros H. unfold pow10. now rewrite (POW10_nth n H). Qed.

(** C15 *)
Lemma whole_parse_spec digits append zeros :
  digit_string digits -> digit_string (opt_str append) ->
  whole_parse digits append zeros =
    Ok (chk is_u64 (dval (digits ++ opt_str append) * 10 ^ Z.of_nat (opt_nat zeros))).
Proof.
  intros Hd Ha. unfold whole_parse.
  destruct (is_empty digits && none_or_empty append) eqn:E0.
  { apply andb_true_iff in E0. destruct E0 as [E1 E2].
    destruct digits; [|discriminate]. destruct append as [[|? ?]|]; try discriminate; reflexivity. }
  rewrite whole_parse_slice_spec by (try assumption; unfold u64_max; lia). unfold opt_chk. cbn [bind].
  rewrite Z.mul_0_l, Z.add_0_l. rewrite dval_app.
  pose proof (dval_nonneg _ Hd) as Dd. pose proof (dval_nonneg _ Ha) as Da.
  pose proof (pow10_pos (length (opt_str append))) as P1. pose proof (pow10_pos (opt_nat zeros)) as P2.
  destruct (chk_spec is_u64 (dval digits)) as [[H1 E1]|[H1 E1]]; rewrite E1.
  2:{ rewrite chk_false; [reflexivity|]. apply not_true_iff_false.
      rewrite <- not_true_iff_false in H1. rewrite is_u64_iff in *. nia. }
  apply is_u64_iff in H1.
  assert (Eapp : match append with None => Ok (Some (dval digits)) | Some a => whole_parse_slice (dval digits) a end
                 = Ok (chk is_u64 (dval digits * 10 ^ Z.of_nat (length (opt_str append)) + dval (opt_str append)))).
  { destruct append as [a|]; cbn [opt_str] in *.
    - rewrite whole_parse_slice_spec by (try assumption; unfold u64_max; lia). reflexivity.
    - cbn [length Z.of_nat]. rewrite Z.pow_0_r, Z.mul_1_r. unfold dval at 3; cbn [dval_from]. rewrite Z.add_0_r.
      rewrite chk_true; [reflexivity|]. apply is_u64_iff; lia. }
  rewrite Eapp. cbn [bind].
  set (v := dval digits * _ + _) in *. assert (Hv : 0 <= v) by (subst v; nia). clearbody v.
  destruct (chk_spec is_u64 v) as [[H2 E2]|[H2 E2]]; rewrite E2.
  2:{ rewrite chk_false; [reflexivity|]. apply not_true_iff_false.
      rewrite <- not_true_iff_false in H2. rewrite is_u64_iff in *. nia. }
  destruct (Z.eqb_spec v 0) as [->|N]; [reflexivity|].
  destruct zeros as [z|]; cbn [opt_nat] in *.
  - destruct (Nat.ltb_spec 0 z) as [L|L].
    + destruct (Nat.lt_ge_cases z 20) as [L2|L2].
      * rewrite (POW10_nth z L2). reflexivity.
      * rewrite (POW10_none z L2). rewrite chk_false; [reflexivity|]. apply not_true_iff_false.
        rewrite is_u64_iff.
        assert (10 ^ 20 <= 10 ^ Z.of_nat z) by (apply Z.pow_le_mono_r; lia).
        change (10 ^ 20) with 100000000000000000000 in H. nia.
    + replace z with 0%nat by lia. cbn [Z.of_nat]. rewrite Z.pow_0_r, Z.mul_1_r, E2. reflexivity.
  - cbn [Z.of_nat]. rewrite Z.pow_0_r, Z.mul_1_r, E2. reflexivity.
Qed.

(** ** Fract *)
Lemma fract_digits_spec l : forall a, digit_string l -> 0 <= a ->
  a * 10 ^ Z.of_nat (length l) + dval l <= u64_max ->
  fract_digits a l = Ok (a * 10 ^ Z.of_nat (length l) + dval l).
Proof.
  induction l as [|x l IH]; intros a H Ha Hb.
  - cbn [fract_digits length Z.of_nat]. unfold dval; cbn [dval_from]. now rewrite Z.pow_0_r, Z.mul_1_r, Z.add_0_r.
  - rewrite digit_string_cons in H. destruct H as [Hx Hl].
    cbn [length] in *. rewrite pow10_S, dval_cons in *.
    pose proof (dval_nonneg l Hl) as D. pose proof (pow10_pos (length l)) as P.
    unfold u64_max in *.
    assert (E : a * (10 * 10 ^ Z.of_nat (length l)) + ((x - 48) * 10 ^ Z.of_nat (length l) + dval l)
                = (a * 10 + (x - 48)) * 10 ^ Z.of_nat (length l) + dval l) by ring.
    rewrite E in *. cbn [fract_digits].
    rewrite (arith_ok is_u64 (a * 10)) by (apply is_u64_iff; nia). cbn [bind].
    rewrite (arith_ok is_u8) by (apply is_u8_iff; lia). cbn [bind].
    rewrite arith_ok by (apply is_u64_iff; nia). cbn [bind].
    apply IH; [assumption|lia|exact Hb].
Qed.

Lemma fract_slice_chunks l : forall a, digit_string l -> 0 <= a ->
  a * 10 ^ Z.of_nat (length l) + dval l <= u64_max ->
  (let '(cs, r) := chunks_exact8 l in
   let* a := fract_chunks a cs in fract_digits a r)
  = Ok (a * 10 ^ Z.of_nat (length l) + dval l).
Proof.
  induction l as [l L|x0 x1 x2 x3 x4 x5 x6 x7 t IH] using list_ind8; intros a H Ha Hb.
  - rewrite (chunks_short l L). cbn [fract_chunks bind]. now apply fract_digits_spec.
  - set (c := [x0; x1; x2; x3; x4; x5; x6; x7]) in *.
    change (x0 :: x1 :: x2 :: x3 :: x4 :: x5 :: x6 :: x7 :: t) with (c ++ t) in *.
    rewrite digit_string_app in H. destruct H as [Hc Ht].
    assert (Ec : chunks_exact8 (c ++ t) = let '(cs, r) := chunks_exact8 t in (c :: cs, r)) by reflexivity.
    rewrite Ec. destruct (chunks_exact8 t) as [cs r] eqn:Et. cbn [fract_chunks].
    rewrite (swar_8_digits_spec c eq_refl Hc). cbn [bind].
    pose proof (dval_nonneg c Hc) as Dc. pose proof (dval_nonneg t Ht) as Dt.
    pose proof (pow10_pos (length t)) as Pp.
    assert (E : a * 10 ^ Z.of_nat (length (c ++ t)) + dval (c ++ t)
                = (a * 100000000 + dval c) * 10 ^ Z.of_nat (length t) + dval t).
    { rewrite app_length, pow10_add, dval_app. change (10 ^ Z.of_nat (length c)) with 100000000. ring. }
    rewrite E in *. unfold u64_max in *.
    rewrite arith_ok by (apply is_u64_iff; nia). cbn [bind].
    rewrite arith_ok by (apply is_u64_iff; nia). cbn [bind].
    apply (IH (a * 100000000 + dval c) Ht); [lia|exact Hb].
Qed.

Lemma slice_prefix l n : (n <= length l)%nat -> slice l 0 n = Ok (firstn n l).
Proof.
  intros H. unfold slice. replace ((0 <=? n)%nat && (n <=? length l)%nat) with true
    by (symmetry; apply andb_true_iff; split; apply Nat.leb_le; lia).
  now rewrite Nat.sub_0_r.
Qed.

Lemma fract_parse_slice_spec a m l : digit_string l -> (m <= 18)%nat ->
  0 <= a < 10 ^ Z.of_nat (18 - m) ->
  let k := Nat.min (length l) m in
  fract_parse_slice a m l = Ok (a * 10 ^ Z.of_nat k + dval (firstn k l), (m - k)%nat) /\
  0 <= a * 10 ^ Z.of_nat k + dval (firstn k l) < 10 ^ Z.of_nat (18 - (m - k)).
Proof.
  intros H Hm Ha k. unfold fract_parse_slice. fold k.
  assert (Hk : (k <= length l)%nat /\ (k <= m)%nat) by (subst k; lia). destruct Hk as [Hk1 Hk2].
  rewrite (slice_prefix l k Hk1). cbn [bind].
  pose proof (digit_string_firstn k l H) as Hf.
  assert (Lf : length (firstn k l) = k) by (apply firstn_length_le; exact Hk1).
  pose proof (dval_nonneg _ Hf) as D. pose proof (dval_bound _ Hf) as B. rewrite Lf in B.
  pose proof (pow10_pos k) as Pk.
  assert (R : 0 <= a * 10 ^ Z.of_nat k + dval (firstn k l) < 10 ^ Z.of_nat (18 - (m - k))).
  { replace (18 - (m - k))%nat with (18 - m + k)%nat by lia. rewrite pow10_add. nia. }
  split; [|exact R].
  assert (Bd : a * 10 ^ Z.of_nat (length (firstn k l)) + dval (firstn k l) <= u64_max).
  { rewrite Lf. assert (10 ^ Z.of_nat (18 - (m - k)) <= 10 ^ 18) by (apply Z.pow_le_mono_r; lia).
    change (10 ^ 18) with 1000000000000000000 in H0. unfold u64_max. lia. }
  destruct (8 <=? k)%nat.
  - pose proof (fract_slice_chunks (firstn k l) a Hf ltac:(lia) Bd) as F.
    destruct (chunks_exact8 (firstn k l)) as [cs r]. rewrite F. cbn [bind]. now rewrite Lf.
  - rewrite (fract_digits_spec (firstn k l) a Hf ltac:(lia) Bd). cbn [bind]. now rewrite Lf.
Qed.

Lemma mul_pow10_spec a m : (m <= 18)%nat -> 0 <= a < 10 ^ Z.of_nat (18 - m) ->
  mul_pow10 a m = Ok (a * 10 ^ Z.of_nat m).
Proof.
  intros Hm Ha. unfold mul_pow10. rewrite pow10_ok by lia. cbn [bind]. apply arith_ok, is_u64_iff.
  pose proof (pow10_pos m).
  assert (a * 10 ^ Z.of_nat m < 10 ^ 18).
  { replace (10 ^ 18) with (10 ^ Z.of_nat (18 - m) * 10 ^ Z.of_nat m); [nia|].
    rewrite <- pow10_add. f_equal. lia. }
  change (10 ^ 18) with 1000000000000000000 in *. nia.
Qed.

(** truncation to the first [m] digits is a division *)
Lemma dval_firstn l m : digit_string l -> (m <= length l)%nat ->
  dval (firstn m l) = dval l / 10 ^ Z.of_nat (length l - m).
Proof.
  intros H L. rewrite <- (firstn_skipn m l) at 2. rewrite dval_app, skipn_length.
  pose proof (dval_nonneg _ (digit_string_skipn m l H)). pose proof (dval_bound _ (digit_string_skipn m l H)) as B.
  rewrite skipn_length in B.
  rewrite Z.div_add_l by (pose proof (pow10_pos (length l - m)); lia).
  rewrite Z.div_small by lia. lia.
Qed.

(** floor(0.l * 10^18) where l are the digits after z zeros, and m = 18 - z *)
Lemma fract_value l m : digit_string l -> (m <= 18)%nat ->
  let k := Nat.min (length l) m in
  dval (firstn k l) * 10 ^ Z.of_nat (m - k)
  = dval l * 10 ^ 18 / 10 ^ Z.of_nat (18 - m + length l).
Proof.
  intros H Hm k. subst k.
  assert (P18 : 10 ^ 18 = 10 ^ Z.of_nat (18 - m) * 10 ^ Z.of_nat m).
  { rewrite <- pow10_add. f_equal. lia. }
  rewrite P18, pow10_add.
  pose proof (pow10_pos (18 - m)) as P1.
  destruct (Nat.le_gt_cases (length l) m) as [L|L].
  - rewrite Nat.min_l by lia. rewrite firstn_all.
    assert (P2 : 10 ^ Z.of_nat m = 10 ^ Z.of_nat (m - length l) * 10 ^ Z.of_nat (length l)).
    { rewrite <- pow10_add. f_equal. lia. }
    rewrite P2. pose proof (pow10_pos (length l)).
    replace (dval l * (10 ^ Z.of_nat (18 - m) * (10 ^ Z.of_nat (m - length l) * 10 ^ Z.of_nat (length l))))
      with (dval l * 10 ^ Z.of_nat (m - length l) * (10 ^ Z.of_nat (18 - m) * 10 ^ Z.of_nat (length l))) by ring.
    rewrite Z.div_mul; [reflexivity|nia].
  - rewrite Nat.min_r by lia. rewrite Nat.sub_diag. cbn [Z.of_nat]. rewrite Z.pow_0_r, Z.mul_1_r.
    rewrite dval_firstn by (try assumption; lia).
    assert (P2 : 10 ^ Z.of_nat (length l) = 10 ^ Z.of_nat (length l - m) * 10 ^ Z.of_nat m).
    { rewrite <- pow10_add. f_equal. lia. }
    rewrite P2. pose proof (pow10_pos m). pose proof (pow10_pos (length l - m)).
    replace (dval l * (10 ^ Z.of_nat (18 - m) * 10 ^ Z.of_nat m))
      with (dval l * (10 ^ Z.of_nat (18 - m) * 10 ^ Z.of_nat m)) by ring.
    replace (10 ^ Z.of_nat (18 - m) * (10 ^ Z.of_nat (length l - m) * 10 ^ Z.of_nat m))
      with (10 ^ Z.of_nat (length l - m) * (10 ^ Z.of_nat (18 - m) * 10 ^ Z.of_nat m)) by ring.
    rewrite Z.div_mul_cancel_r by nia. reflexivity.
Qed.

(** C16 *)
Lemma fract_parse_spec digits prepend zeros :
  digit_string digits -> digit_string (opt_str prepend) ->
  let all := opt_str prepend ++ digits in
  fract_parse digits prepend zeros =
    Ok (dval all * 10 ^ 18 / 10 ^ Z.of_nat (opt_nat zeros + length all)).
Proof.
  intros Hd Hp all. unfold fract_parse.
  assert (Hall : digit_string all) by (apply digit_string_app; auto).
  destruct (is_empty digits && none_or_empty prepend) eqn:E0.
  { apply andb_true_iff in E0. destruct E0 as [E1 E2].
    destruct digits; [|discriminate]. subst all.
    destruct prepend as [[|? ?]|]; try discriminate; cbn [opt_str app length];
      unfold dval; cbn [dval_from]; rewrite Z.mul_0_l, Z.div_0_l; try reflexivity;
      (pose proof (pow10_pos (opt_nat zeros + 0)); lia). }
  clear E0.
  destruct (match zeros with Some z => if (18 <? z)%nat then None else Some (18 - z)%nat | None => Some 18%nat end)
    as [m|] eqn:Em.
  2:{ destruct zeros as [z|]; [|discriminate]. destruct (Nat.ltb_spec 18 z) as [L|L]; [|discriminate].
      cbn [opt_nat]. pose proof (dval_bound _ Hall) as B. pose proof (dval_nonneg _ Hall) as N.
      rewrite Z.div_small; [reflexivity|]. split; [nia|]. rewrite pow10_add.
      assert (10 ^ 18 <= 10 ^ Z.of_nat z) by (apply Z.pow_le_mono_r; lia).
      pose proof (pow10_pos (length all)). nia. }
  assert (Hm : (m <= 18)%nat /\ opt_nat zeros = (18 - m)%nat).
  { destruct zeros as [z|]; cbn [opt_nat].
    - destruct (Nat.ltb_spec 18 z) as [L|L]; [discriminate|]. assert (Em' : m = (18 - z)%nat) by congruence. clear Em. clear - L Em'. lia.
    - assert (Em' : m = 18%nat) by congruence. clear Em. clear - Em'. lia. }
  destruct Hm as [Hm Hz]. rewrite Hz. clear Em Hz.
  rewrite <- (fract_value all m Hall Hm).
  (* the plain branch *)
  assert (Plain : forall l, digit_string l ->
    (let* r := fract_parse_slice 0 m l in
     let '(attos, remainder) := r in
     if (0 <? remainder)%nat then mul_pow10 attos remainder else Ok attos)
    = Ok (dval (firstn (Nat.min (length l) m) l) * 10 ^ Z.of_nat (m - Nat.min (length l) m))).
  { intros l Hl. destruct (fract_parse_slice_spec 0 m l Hl Hm) as [E R].
    { pose proof (pow10_pos (18 - m)) as P18. revert P18. clear. lia. }
    rewrite Z.mul_0_l, Z.add_0_l in *. rewrite E. cbn [bind].
    destruct (Nat.ltb_spec 0 (m - Nat.min (length l) m)) as [L|L].
    - apply mul_pow10_spec; [lia|exact R].
    - replace (m - Nat.min (length l) m)%nat with 0%nat by (clear - L; lia).
      cbn [Z.of_nat]. now rewrite Z.pow_0_r, Z.mul_1_r. }
  destruct prepend as [p|]; cbn [opt_str] in *.
  2:{ apply Plain. exact Hd. }
  destruct p as [|p0 p']; cbn [is_empty negb].
  { apply Plain. exact Hd. }
  set (p := p0 :: p') in *.
  destruct (fract_parse_slice_spec 0 m p Hp Hm) as [E R].
  { pose proof (pow10_pos (18 - m)). lia. }
  rewrite Z.mul_0_l, Z.add_0_l in *. rewrite E. cbn [bind]. clear E.
  set (k := Nat.min (length p) m) in *.
  assert (Hk : (k <= m)%nat) by (subst k; lia).
  destruct (Nat.eqb_spec (m - k) 0) as [E0|E0].
  - assert (k = m /\ (m <= length p)%nat) as [-> Lm] by (subst k; lia).
    assert (Ea : Nat.min (length all) m = m) by (subst all; rewrite app_length; lia).
    rewrite Ea, Nat.sub_diag. cbn [Z.of_nat]. rewrite Z.pow_0_r, Z.mul_1_r.
    subst all. rewrite firstn_app. replace (m - length p)%nat with 0%nat by lia.
    cbn [firstn]. now rewrite app_nil_r.
  - assert (Hkl : k = length p /\ (length p < m)%nat) by (subst k; lia). destruct Hkl as [Hkl Lm].
    rewrite Hkl in *. rewrite firstn_all in *.
    destruct digits as [|q0 q']; cbn [is_empty].
    + subst all. rewrite app_nil_r. rewrite Nat.min_l by lia. rewrite firstn_all.
      apply mul_pow10_spec; [lia|exact R].
    + set (q := q0 :: q') in *.
      destruct (fract_parse_slice_spec (dval p) (m - length p) q Hd ltac:(lia) R) as [E R2].
      rewrite E. cbn [bind]. clear E.
      set (k2 := Nat.min (length q) (m - length p)) in *.
      assert (Ea : Nat.min (length all) m = (length p + k2)%nat).
      { subst all k2. rewrite app_length. lia. }
      rewrite Ea.
      assert (Ef : firstn (length p + k2) all = p ++ firstn k2 q).
      { subst all. rewrite firstn_app_2. reflexivity. }
      assert (Lk : length (firstn k2 q) = k2) by (apply firstn_length_le; subst k2; lia).
      rewrite Ef, dval_app, Lk.
      replace (m - length p - k2)%nat with (m - (length p + k2))%nat in * by lia.
      destruct (Nat.ltb_spec 0 (m - (length p + k2))) as [L|L].
      * apply mul_pow10_spec; [lia|exact R2].
      * replace (m - (length p + k2))%nat with 0%nat by lia. cbn [Z.of_nat]. now rewrite Z.pow_0_r, Z.mul_1_r.
Qed.
