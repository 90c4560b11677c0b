(** * Proofs about the model of fundu-core/src/time.rs *)
From Verif Require Import Prelude Time SpecTime.

Ltac Zify.zify_post_hook ::= Z.div_mod_to_equations.

Ltac unfold_ranges :=
  unfold is_u8, is_u32, is_u64, is_u128, is_i16, is_i32, is_i64, is_i128, inb,
         u64_max, u32_max, u128_max, i64_min, i64_max, i32_min, i32_max, i16_min, i16_max,
         i128_min, i128_max in *.

Lemma is_u64_iff x : is_u64 x = true <-> 0 <= x <= 18446744073709551615.
Proof. unfold_ranges. lia. Qed.
Lemma is_u32_iff x : is_u32 x = true <-> 0 <= x <= 4294967295.
Proof. unfold_ranges. lia. Qed.
Lemma is_u8_iff x : is_u8 x = true <-> 0 <= x <= 255.
Proof. unfold_ranges. lia. Qed.
Lemma is_i64_iff x : is_i64 x = true <-> -9223372036854775808 <= x <= 9223372036854775807.
Proof. unfold_ranges. lia. Qed.
Lemma is_i32_iff x : is_i32 x = true <-> -2147483648 <= x <= 2147483647.
Proof. unfold_ranges. lia. Qed.
Lemma is_i16_iff x : is_i16 x = true <-> -32768 <= x <= 32767.
Proof. unfold_ranges. lia. Qed.
Lemma is_i128_iff x : is_i128 x = true <->
  -170141183460469231731687303715884105728 <= x <= 170141183460469231731687303715884105727.
Proof. unfold is_i128, inb, i128_min, i128_max. change (2^127) with 170141183460469231731687303715884105728. lia. Qed.
Lemma is_u128_iff x : is_u128 x = true <-> 0 <= x <= 340282366920938463463374607431768211455.
Proof. unfold is_u128, inb, u128_max. change (2^128) with 340282366920938463463374607431768211456. lia. Qed.

Lemma chk_spec p x : (p x = true /\ chk p x = Some x) \/ (p x = false /\ chk p x = None).
Proof. unfold chk. destruct (p x) eqn:E; auto. Qed.
Lemma chk_true p x : p x = true -> chk p x = Some x.
Proof. unfold chk. now intros ->. Qed.
Lemma chk_false p x : p x = false -> chk p x = None.
Proof. unfold chk. now intros ->. Qed.
Lemma chk_Some p x y : chk p x = Some y -> p x = true /\ y = x.
Proof. unfold chk. destruct (p x); [now intros [= <-]|discriminate]. Qed.
Lemma chk_None p x : chk p x = None -> p x = false.
Proof. unfold chk. now destruct (p x). Qed.
Lemma arith_ok p x : p x = true -> arith p x = Ok x.
Proof. unfold arith. now intros ->. Qed.

Lemma std_ok_iff d : std_ok d <-> 0 <= secs d <= 18446744073709551615 /\ 0 <= subsec d <= 999999999.
Proof. unfold std_ok. rewrite is_u64_iff. unfold inb. lia. Qed.

Lemma duration_ok_iff d :
  duration_ok d <-> 0 <= secs (inner d) <= 18446744073709551615 /\ 0 <= subsec (inner d) <= 999999999.
Proof. apply std_ok_iff. Qed.

Lemma std_new_ok s n : 0 <= n <= 999999999 -> std_new s n = Ok (Std s n).
Proof. intros H. unfold std_new. destruct (Z.ltb_spec n 1000000000); [reflexivity|lia]. Qed.

Lemma max_nanos_val : max_nanos = 18446744073709551615999999999.
Proof. reflexivity. Qed.

Lemma nanos_range d : duration_ok d -> - max_nanos <= nanos d <= max_nanos.
Proof.
  rewrite duration_ok_iff, max_nanos_val. intros [H1 H2]. unfold nanos. destruct (neg d); lia.
Qed.

Lemma nanos_MAX : nanos MAX = max_nanos. Proof. reflexivity. Qed.
Lemma nanos_MIN : nanos MIN = - max_nanos. Proof. reflexivity. Qed.
Lemma nanos_ZERO : nanos ZERO = 0. Proof. reflexivity. Qed.
Lemma MAX_ok : duration_ok MAX. Proof. split; reflexivity. Qed.
Lemma MIN_ok : duration_ok MIN. Proof. split; reflexivity. Qed.
Lemma ZERO_ok : duration_ok ZERO. Proof. split; reflexivity. Qed.

Lemma std_cmp_spec a b : std_ok a -> std_ok b ->
  std_cmp a b = Z.compare (std_nanos a) (std_nanos b).
Proof.
  rewrite !std_ok_iff. intros Ha Hb. unfold std_cmp, std_nanos.
  destruct (Z.compare_spec (secs a) (secs b)) as [E|E|E].
  - rewrite E. destruct (Z.compare_spec (subsec a) (subsec b)); symmetry.
    + apply Z.compare_eq_iff; lia.
    + apply Z.compare_lt_iff; lia.
    + apply Z.compare_gt_iff; lia.
  - symmetry. apply Z.compare_lt_iff. lia.
  - symmetry. apply Z.compare_gt_iff. lia.
Qed.

Lemma std_checked_add_spec a b : std_ok a -> std_ok b ->
  match std_checked_add a b with
  | Some c => std_ok c /\ std_nanos c = std_nanos a + std_nanos b
  | None => max_nanos < std_nanos a + std_nanos b
  end.
Proof.
  rewrite !std_ok_iff, max_nanos_val. intros Ha Hb. unfold std_checked_add, std_nanos.
  destruct (chk_spec is_u64 (secs a + secs b)) as [[H1 E1]|[H1 E1]]; rewrite E1; cbn [obind].
  - apply is_u64_iff in H1.
    destruct (Z.leb_spec 1000000000 (subsec a + subsec b)).
    + destruct (chk_spec is_u64 (secs a + secs b + 1)) as [[H2 E2]|[H2 E2]]; rewrite E2; cbn [obind secs subsec].
      * apply is_u64_iff in H2. rewrite std_ok_iff. cbn [secs subsec]. lia.
      * rewrite <- not_true_iff_false, is_u64_iff in H2. lia.
    + rewrite std_ok_iff. cbn [secs subsec]. lia.
  - rewrite <- not_true_iff_false, is_u64_iff in H1. lia.
Qed.

Lemma std_sub_spec a b : std_ok a -> std_ok b -> std_nanos b <= std_nanos a ->
  exists c, std_sub a b = Ok c /\ std_ok c /\ std_nanos c = std_nanos a - std_nanos b.
Proof.
  rewrite !std_ok_iff. unfold std_nanos. intros Ha Hb Hle. unfold std_sub, std_checked_sub.
  rewrite (chk_true is_u64 (secs a - secs b)) by (apply is_u64_iff; lia). cbn [obind].
  destruct (Z.leb_spec (subsec b) (subsec a)).
  - eexists. split; [reflexivity|]. rewrite std_ok_iff. cbn [secs subsec]. lia.
  - rewrite (chk_true is_u64 (secs a - secs b - 1)) by (apply is_u64_iff; lia). cbn [obind].
    eexists. split; [reflexivity|]. rewrite std_ok_iff. cbn [secs subsec]. lia.
Qed.

Lemma nanos_from_std b i : nanos (from_std b i) = if b then - std_nanos i else std_nanos i.
Proof. reflexivity. Qed.
Lemma nanos_unfold d : nanos d = if neg d then - std_nanos (inner d) else std_nanos (inner d).
Proof. reflexivity. Qed.
Lemma std_nanos_nonneg i : std_ok i -> 0 <= std_nanos i <= max_nanos.
Proof. rewrite std_ok_iff, max_nanos_val. unfold std_nanos. lia. Qed.

(** checked_add: exact, or None exactly on overflow *)
Lemma checked_add_spec a b : duration_ok a -> duration_ok b ->
  exists r, checked_add a b = Ok r /\
  match r with
  | Some c => duration_ok c /\ nanos c = nanos a + nanos b
  | None => ~ representable (nanos a + nanos b) /\ neg a = neg b
  end.
Proof.
  intros Ha Hb. unfold checked_add, duration_ok, representable in *.
  pose proof (std_nanos_nonneg _ Ha) as Ra. pose proof (std_nanos_nonneg _ Hb) as Rb.
  rewrite (nanos_unfold a), (nanos_unfold b).
  rewrite (std_cmp_spec _ _ Ha Hb).
  pose proof (std_checked_add_spec _ _ Ha Hb) as Hadd.
  destruct (neg a), (neg b).
  - eexists; split; [reflexivity|]. destruct (std_checked_add _ _) as [c|]; cbn [option_map].
    + destruct Hadd as [Hc1 Hc2]. split; [exact Hc1|]. rewrite nanos_from_std. lia.
    + split; [lia|reflexivity].
  - destruct (Z.compare_spec (std_nanos (inner a)) (std_nanos (inner b))) as [E|E|E].
    + eexists; split; [reflexivity|]. split; [apply ZERO_ok|]. rewrite nanos_ZERO. lia.
    + destruct (std_sub_spec _ _ Hb Ha ltac:(lia)) as (c & Hc & Hok & Hv). rewrite Hc. cbn [bind].
      eexists; split; [reflexivity|]. split; [exact Hok|]. rewrite nanos_from_std. lia.
    + destruct (std_sub_spec _ _ Ha Hb ltac:(lia)) as (c & Hc & Hok & Hv). rewrite Hc. cbn [bind].
      eexists; split; [reflexivity|]. split; [exact Hok|]. rewrite nanos_from_std. lia.
  - destruct (Z.compare_spec (std_nanos (inner a)) (std_nanos (inner b))) as [E|E|E].
    + eexists; split; [reflexivity|]. split; [apply ZERO_ok|]. rewrite nanos_ZERO. lia.
    + destruct (std_sub_spec _ _ Hb Ha ltac:(lia)) as (c & Hc & Hok & Hv). rewrite Hc. cbn [bind].
      eexists; split; [reflexivity|]. split; [exact Hok|]. rewrite nanos_from_std. lia.
    + destruct (std_sub_spec _ _ Ha Hb ltac:(lia)) as (c & Hc & Hok & Hv). rewrite Hc. cbn [bind].
      eexists; split; [reflexivity|]. split; [exact Hok|]. rewrite nanos_from_std. lia.
  - eexists; split; [reflexivity|]. destruct (std_checked_add _ _) as [c|]; cbn [option_map].
    + destruct Hadd as [Hc1 Hc2]. split; [exact Hc1|]. rewrite nanos_from_std. lia.
    + split; [lia|reflexivity].
Qed.

Lemma checked_add_iff a b : duration_ok a -> duration_ok b ->
  (representable (nanos a + nanos b) ->
     exists c, checked_add a b = Ok (Some c) /\ duration_ok c /\ nanos c = nanos a + nanos b) /\
  (~ representable (nanos a + nanos b) -> checked_add a b = Ok None).
Proof.
  intros Ha Hb. destruct (checked_add_spec a b Ha Hb) as (r & Hr & Hs).
  split; intros H.
  - destruct r as [c|]; [eauto|]. destruct Hs. contradiction.
  - destruct r as [c|]; [|exact Hr]. destruct Hs as [Hc Hv]. exfalso. apply H.
    rewrite <- Hv. apply nanos_range, Hc.
Qed.

Lemma dneg_ok d : duration_ok d -> duration_ok (dneg d).
Proof. intros H; exact H. Qed.
Lemma nanos_dneg d : nanos (dneg d) = - nanos d.
Proof. unfold nanos, dneg; cbn [neg inner]. destruct (neg d); cbn; lia. Qed.
Lemma dneg_involutive d : dneg (dneg d) = d.
Proof. destruct d as [[] i]; reflexivity. Qed.

Lemma checked_sub_iff a b : duration_ok a -> duration_ok b ->
  (representable (nanos a - nanos b) ->
     exists c, checked_sub a b = Ok (Some c) /\ duration_ok c /\ nanos c = nanos a - nanos b) /\
  (~ representable (nanos a - nanos b) -> checked_sub a b = Ok None).
Proof.
  intros Ha Hb. unfold checked_sub.
  replace (nanos a - nanos b) with (nanos a + nanos (dneg b)) by (rewrite nanos_dneg; lia).
  apply checked_add_iff; [exact Ha|apply dneg_ok, Hb].
Qed.

Lemma saturating_add_spec a b : duration_ok a -> duration_ok b ->
  exists c, saturating_add a b = Ok c /\ duration_ok c /\ nanos c = clamp_nanos (nanos a + nanos b).
Proof.
  intros Ha Hb. unfold saturating_add.
  pose proof (nanos_range a Ha) as Ra. pose proof (nanos_range b Hb) as Rb.
  destruct (checked_add_spec a b Ha Hb) as (r & Hr & Hs). rewrite Hr. cbn [bind].
  destruct r as [c|].
  - destruct Hs as [Hc Hv]. exists c. split; [reflexivity|]. split; [exact Hc|].
    pose proof (nanos_range c Hc). unfold clamp_nanos, clamp. lia.
  - destruct Hs as [Hn Hs]. unfold representable in Hn.
    assert (Hmp : 0 < max_nanos) by reflexivity.
    eexists. split; [reflexivity|].
    assert (Sa : neg a = true -> nanos a <= 0).
    { intros E. rewrite nanos_unfold, E. pose proof (std_nanos_nonneg _ Ha). lia. }
    assert (Sa' : neg a = false -> 0 <= nanos a).
    { intros E. rewrite nanos_unfold, E. pose proof (std_nanos_nonneg _ Ha). lia. }
    destruct (neg a).
    + split; [apply MIN_ok|]. rewrite nanos_MIN. unfold clamp_nanos, clamp. lia.
    + split; [apply MAX_ok|]. rewrite nanos_MAX. unfold clamp_nanos, clamp. lia.
Qed.

Lemma saturating_sub_spec a b : duration_ok a -> duration_ok b ->
  exists c, saturating_sub a b = Ok c /\ duration_ok c /\ nanos c = clamp_nanos (nanos a - nanos b).
Proof.
  intros Ha Hb. unfold saturating_sub.
  replace (nanos a - nanos b) with (nanos a + nanos (dneg b)) by (rewrite nanos_dneg; lia).
  apply saturating_add_spec; [exact Ha|apply dneg_ok, Hb].
Qed.

Lemma dadd_iff a b : duration_ok a -> duration_ok b ->
  (representable (nanos a + nanos b) ->
     exists c, dadd a b = Ok c /\ duration_ok c /\ nanos c = nanos a + nanos b) /\
  (~ representable (nanos a + nanos b) -> dadd a b = Crash CrashUnwrap).
Proof.
  intros Ha Hb. destruct (checked_add_iff a b Ha Hb) as [H1 H2]. unfold dadd. split; intros H.
  - destruct (H1 H) as (c & E & Hc). exists c. rewrite E. split; [reflexivity|exact Hc].
  - rewrite (H2 H). reflexivity.
Qed.
Lemma dsub_iff a b : duration_ok a -> duration_ok b ->
  (representable (nanos a - nanos b) ->
     exists c, dsub a b = Ok c /\ duration_ok c /\ nanos c = nanos a - nanos b) /\
  (~ representable (nanos a - nanos b) -> dsub a b = Crash CrashUnwrap).
Proof.
  intros Ha Hb. destruct (checked_sub_iff a b Ha Hb) as [H1 H2]. unfold dsub. split; intros H.
  - destruct (H1 H) as (c & E & Hc). exists c. rewrite E. split; [reflexivity|exact Hc].
  - rewrite (H2 H). reflexivity.
Qed.

(** ** zero, order, equality, hash *)
Lemma std_is_zero_iff i : std_ok i -> std_is_zero i = true <-> std_nanos i = 0.
Proof.
  rewrite std_ok_iff. unfold std_is_zero, std_nanos. intros H. rewrite andb_true_iff, !Z.eqb_eq. lia.
Qed.
Lemma is_zero_iff d : duration_ok d -> is_zero d = true <-> nanos d = 0.
Proof.
  intros H. unfold is_zero. rewrite (std_is_zero_iff _ H), nanos_unfold. destruct (neg d); lia.
Qed.

Lemma dcmp_spec a b : duration_ok a -> duration_ok b -> dcmp a b = Z.compare (nanos a) (nanos b).
Proof.
  intros Ha Hb. unfold dcmp.
  pose proof (is_zero_iff a Ha) as Za. pose proof (is_zero_iff b Hb) as Zb.
  rewrite nanos_unfold in *. rewrite (nanos_unfold b) in *.
  pose proof (std_nanos_nonneg _ Ha). pose proof (std_nanos_nonneg _ Hb).
  destruct (neg a), (neg b).
  - rewrite (std_cmp_spec _ _ Hb Ha). now rewrite Z.compare_opp.
  - destruct (is_zero a && is_zero b) eqn:E.
    + symmetry. apply Z.compare_eq_iff. apply andb_true_iff in E. rewrite Za, Zb in E. lia.
    + symmetry. apply Z.compare_lt_iff. apply andb_false_iff in E.
      rewrite <- !not_true_iff_false, Za, Zb in E. lia.
  - destruct (is_zero a && is_zero b) eqn:E.
    + symmetry. apply Z.compare_eq_iff. apply andb_true_iff in E. rewrite Za, Zb in E. lia.
    + symmetry. apply Z.compare_gt_iff. apply andb_false_iff in E.
      rewrite <- !not_true_iff_false, Za, Zb in E. lia.
  - apply (std_cmp_spec _ _ Ha Hb).
Qed.

Lemma std_nanos_inj a b : std_ok a -> std_ok b -> std_nanos a = std_nanos b -> a = b.
Proof.
  rewrite !std_ok_iff. unfold std_nanos. intros Ha Hb E.
  destruct a as [s n], b as [s' n']. cbn [secs subsec] in *. assert (s = s') by lia. subst.
  f_equal. lia.
Qed.

Lemma deqb_spec a b : duration_ok a -> duration_ok b -> deqb a b = (nanos a =? nanos b).
Proof.
  intros Ha Hb. unfold deqb.
  pose proof (is_zero_iff a Ha) as Za. pose proof (is_zero_iff b Hb) as Zb.
  rewrite (nanos_unfold a), (nanos_unfold b) in *.
  pose proof (std_nanos_nonneg _ Ha) as Ra. pose proof (std_nanos_nonneg _ Hb) as Rb.
  assert (Se : std_eqb (inner a) (inner b) = (std_nanos (inner a) =? std_nanos (inner b))).
  { apply eq_true_iff_eq. rewrite Z.eqb_eq. unfold std_eqb. rewrite andb_true_iff, !Z.eqb_eq.
    pose proof (std_nanos_inj _ _ Ha Hb) as I. split.
    - intros [E1 E2]. unfold std_nanos. now rewrite E1, E2.
    - intros E. now rewrite (I E). }
  rewrite Se. apply eq_true_iff_eq. rewrite Z.eqb_eq, orb_true_iff, !andb_true_iff, Za, Zb, Z.eqb_eq.
  destruct (neg a), (neg b); cbn; intuition (try lia; try discriminate).
Qed.

Lemma dhash_spec a b : duration_ok a -> duration_ok b -> dhash a = dhash b <-> nanos a = nanos b.
Proof.
  intros Ha Hb. unfold dhash.
  pose proof (is_zero_iff a Ha) as Za. pose proof (is_zero_iff b Hb) as Zb.
  pose proof (std_nanos_nonneg _ Ha) as Ra. pose proof (std_nanos_nonneg _ Hb) as Rb.
  split.
  - intros E. injection E as E1 E2 E3.
    assert (I : inner a = inner b). { destruct (inner a), (inner b); cbn in *; congruence. }
    rewrite (nanos_unfold a), (nanos_unfold b) in *. rewrite I in *.
    destruct (is_zero a) eqn:E4, (is_zero b) eqn:E5; destruct (neg a), (neg b);
      try congruence; try lia;
      try (destruct Za as [Za _]; specialize (Za eq_refl); lia);
      try (destruct Zb as [Zb _]; specialize (Zb eq_refl); lia).
  - intros E.
    assert (Zeq : is_zero a = is_zero b). { apply eq_true_iff_eq. rewrite Za, Zb, E. tauto. }
    assert (I : inner a = inner b).
    { apply std_nanos_inj; try assumption. rewrite (nanos_unfold a), (nanos_unfold b) in E.
      destruct (neg a), (neg b); lia. }
    rewrite Zeq, I. destruct (is_zero b) eqn:Eb; [reflexivity|].
    assert (Nb : nanos b <> 0) by (rewrite <- Zb; discriminate).
    f_equal. rewrite (nanos_unfold a), (nanos_unfold b) in *. rewrite I in *.
    destruct (neg a), (neg b); try reflexivity; lia.
Qed.

Lemma nanos_abs d : duration_ok d -> nanos (abs d) = Z.abs (nanos d) /\ neg (abs d) = false.
Proof.
  intros H. pose proof (std_nanos_nonneg _ H). unfold abs. rewrite nanos_from_std, nanos_unfold.
  split; [|reflexivity]. destruct (neg d); lia.
Qed.

(** ** accessors *)
Lemma wrap_i64_id x : is_i64 x = true -> wrap_i64 x = x.
Proof.
  rewrite is_i64_iff. intros H. unfold wrap_i64. change (2^63) with 9223372036854775808.
  change (2^64) with 18446744073709551616. rewrite Z.mod_small by lia. lia.
Qed.
Lemma wrap_i32_id x : is_i32 x = true -> wrap_i32 x = x.
Proof.
  rewrite is_i32_iff. intros H. unfold wrap_i32. change (2^31) with 2147483648.
  change (2^32) with 4294967296. rewrite Z.mod_small by lia. lia.
Qed.
Lemma wrap_u32_id x : is_u32 x = true -> wrap_u32 x = x.
Proof.
  rewrite is_u32_iff. intros H. unfold wrap_u32. change (2^32) with 4294967296.
  apply Z.mod_small. lia.
Qed.

Lemma quot_of_neg x k : 0 < k -> Z.quot (- x) k = - Z.quot x k.
Proof. intros. apply Z.quot_opp_l. lia. Qed.

Lemma as_whole_spec d f : duration_ok d -> 2 <= f ->
  as_whole d f = Ok (Z.quot (nanos d) (f * 1000000000)).
Proof.
  rewrite duration_ok_iff. intros [H1 H2] Hf. unfold as_whole, debug_assert.
  replace (1 <? f) with true by lia. cbn [bind].
  assert (R : is_i64 (secs (inner d) / f) = true).
  { apply is_i64_iff. split.
    - pose proof (Z.div_pos (secs (inner d)) f ltac:(lia) ltac:(lia)). lia.
    - assert (secs (inner d) / f <= secs (inner d) / 2) by (apply Z.div_le_compat_l; lia).
      lia. }
  rewrite (wrap_i64_id _ R).
  assert (Q : Z.quot (secs (inner d) * 1000000000 + subsec (inner d)) (f * 1000000000)
              = secs (inner d) / f).
  { rewrite Z.quot_div_nonneg by lia. rewrite (Z.mul_comm f), <- Z.div_div by lia.
    f_equal. rewrite Z.div_add_l by lia. rewrite (Z.div_small (subsec _)) by lia. lia. }
  unfold nanos. destruct (neg d).
  - rewrite arith_ok.
    + rewrite Z.quot_opp_l by lia. now rewrite Q.
    + apply is_i64_iff in R. apply is_i64_iff.
      pose proof (Z.div_pos (secs (inner d)) f ltac:(lia) ltac:(lia)). lia.
  - now rewrite Q.
Qed.

Lemma subsec_nanos_spec d : duration_ok d ->
  subsec_nanos d = Ok (Z.rem (nanos d) 1000000000).
Proof.
  rewrite duration_ok_iff. intros [H1 H2]. unfold subsec_nanos.
  rewrite wrap_i32_id by (apply is_i32_iff; lia).
  assert (Q : Z.rem (secs (inner d) * 1000000000 + subsec (inner d)) 1000000000 = subsec (inner d)).
  { rewrite Z.rem_mod_nonneg by lia. rewrite Z.add_comm, Z.mod_add by lia. apply Z.mod_small. lia. }
  unfold nanos. destruct (neg d).
  - rewrite arith_ok by (apply is_i32_iff; lia). rewrite Z.rem_opp_l by lia. now rewrite Q.
  - now rewrite Q.
Qed.

Lemma as_seconds_spec d : duration_ok d -> as_seconds d = Z.quot (nanos d) 1000000000.
Proof.
  rewrite duration_ok_iff. intros [H1 H2]. unfold as_seconds, nanos.
  assert (Q : Z.quot (secs (inner d) * 1000000000 + subsec (inner d)) 1000000000 = secs (inner d)).
  { rewrite Z.quot_div_nonneg by lia. rewrite Z.div_add_l by lia. rewrite Z.div_small by lia. lia. }
  destruct (neg d); [rewrite Z.quot_opp_l by lia|]; now rewrite Q.
Qed.

Lemma subsec_millis_spec d : duration_ok d ->
  subsec_millis d = Ok (Z.quot (Z.rem (nanos d) 1000000000) 1000000).
Proof. intros H. unfold subsec_millis. now rewrite (subsec_nanos_spec d H). Qed.
Lemma subsec_micros_spec d : duration_ok d ->
  subsec_micros d = Ok (Z.quot (Z.rem (nanos d) 1000000000) 1000).
Proof. intros H. unfold subsec_micros. now rewrite (subsec_nanos_spec d H). Qed.

Lemma quot_split x k m : 0 < k -> 0 < m -> forall y, y = x \/ y = - x -> 0 <= x ->
  Z.quot y (k * m) * k + Z.quot (Z.rem y (k * m)) m = Z.quot y m.
Proof.
  intros Hk Hm y Hy Hx.
  assert (G : Z.quot x (k * m) * k + Z.quot (Z.rem x (k * m)) m = Z.quot x m).
  { assert (Hkm : 0 < k * m) by nia.
    pose proof (Z.mod_pos_bound x (k*m) Hkm) as MB.
    rewrite Z.rem_mod_nonneg by lia.
    rewrite (Z.quot_div_nonneg x (k * m)), (Z.quot_div_nonneg x m),
      (Z.quot_div_nonneg (x mod (k * m)) m) by lia.
    rewrite (Z.div_mod x (k * m)) at 3 by lia.
    replace (k * m * (x / (k * m))) with ((x / (k * m)) * k * m) by ring.
    rewrite Z.div_add_l by lia. lia. }
  destruct Hy as [->| ->]; [exact G|].
  rewrite Z.rem_opp_l, !Z.quot_opp_l by nia. lia.
Qed.

Lemma as_sub_spec d k : duration_ok d -> (k = 1000 \/ k = 1000000 \/ k = 1000000000) ->
  forall m, m = 1000000000 / k ->
  is_i128 (as_seconds d * k) = true /\
  is_i128 (as_seconds d * k + Z.quot (Z.rem (nanos d) 1000000000) m) = true /\
  as_seconds d * k + Z.quot (Z.rem (nanos d) 1000000000) m = Z.quot (nanos d) m.
Proof.
  intros H Hk m Hm.
  assert (E : as_seconds d * k + Z.quot (Z.rem (nanos d) 1000000000) m = Z.quot (nanos d) m).
  { rewrite (as_seconds_spec d H). pose proof (std_nanos_nonneg _ H) as R.
    assert (Hy : nanos d = std_nanos (inner d) \/ nanos d = - std_nanos (inner d)).
    { rewrite nanos_unfold. destruct (neg d); auto. }
    destruct Hk as [-> | [-> | ->]]; subst m.
    - change (1000000000 / 1000) with 1000000. change 1000000000 with (1000 * 1000000) at 1 2.
      apply quot_split with (x := std_nanos (inner d)); try lia; assumption.
    - change (1000000000 / 1000000) with 1000. change 1000000000 with (1000000 * 1000) at 1 2.
      apply quot_split with (x := std_nanos (inner d)); try lia; assumption.
    - change (1000000000 / 1000000000) with 1. change 1000000000 with (1000000000 * 1) at 1 3.
      apply quot_split with (x := std_nanos (inner d)); try lia; assumption. }
  rewrite E. split; [|split]; [| |reflexivity].
  - clear E Hm. apply is_i128_iff. apply duration_ok_iff in H. unfold as_seconds.
    destruct (neg d), Hk as [-> | [-> | ->]]; lia.
  - apply is_i128_iff. pose proof (nanos_range d H) as R. rewrite max_nanos_val in R.
    assert (Hm0 : 1 <= m) by (destruct Hk as [-> | [-> | ->]]; subst m; compute; discriminate).
    clear E Hm Hk H.
    assert (A : Z.abs (Z.quot (nanos d) m) <= Z.abs (nanos d)).
    { rewrite <- Z.quot_abs by lia. rewrite Z.quot_div_nonneg by lia.
      rewrite (Z.abs_eq m) by lia. apply Z.div_le_upper_bound; nia. }
    revert A. generalize (Z.quot (nanos d) m). intros q A. lia.
Qed.

Lemma as_millis_spec d : duration_ok d -> as_millis d = Ok (Z.quot (nanos d) 1000000).
Proof.
  intros H. unfold as_millis. destruct (as_sub_spec d 1000 H ltac:(auto) 1000000 eq_refl) as (A & B & C).
  rewrite (arith_ok _ _ A), (subsec_millis_spec d H). cbn [bind]. now rewrite (arith_ok _ _ B), C.
Qed.
Lemma as_micros_spec d : duration_ok d -> as_micros d = Ok (Z.quot (nanos d) 1000).
Proof.
  intros H. unfold as_micros. destruct (as_sub_spec d 1000000 H ltac:(auto) 1000 eq_refl) as (A & B & C).
  rewrite (arith_ok _ _ A), (subsec_micros_spec d H). cbn [bind]. now rewrite (arith_ok _ _ B), C.
Qed.
Lemma as_nanos_spec d : duration_ok d -> as_nanos d = Ok (nanos d).
Proof.
  intros H. unfold as_nanos. destruct (as_sub_spec d 1000000000 H ltac:(auto) 1 eq_refl) as (A & B & C).
  rewrite !Z.quot_1_r in *.
  rewrite (arith_ok _ _ A), (subsec_nanos_spec d H). cbn [bind].
  now rewrite (arith_ok _ _ B), C.
Qed.

(** ** extract *)
Lemma extract_i64_spec d f : duration_ok d -> 2 <= f <= 10000000 ->
  exists n r, extract_i64 d f = Ok (n, r) /\ duration_ok r /\
    n = Z.quot (nanos d) (f * 1000000000) /\ nanos d = n * (f * 1000000000) + nanos r /\
    Z.abs (nanos r) < f * 1000000000 /\ neg r = neg d.
Proof.
  intros Hd Hf. pose proof (as_whole_spec d f Hd ltac:(lia)) as W.
  unfold as_whole, debug_assert in W. unfold extract_i64, debug_assert.
  replace (1 <? f) with true in * by lia. cbn [bind] in *.
  pose proof Hd as Hd'. apply duration_ok_iff in Hd'. destruct Hd' as [H1 H2].
  pose proof (Z.div_pos (secs (inner d)) f ltac:(lia) ltac:(lia)) as P.
  assert (R : is_i64 (secs (inner d) / f) = true).
  { apply is_i64_iff. split; [lia|].
    assert (secs (inner d) / f <= secs (inner d) / 2) by (apply Z.div_le_compat_l; lia). lia. }
  rewrite (wrap_i64_id _ R) in W. rewrite (chk_true _ _ R). cbn [unwrap bind].
  pose proof (Z.div_mod (secs (inner d)) f ltac:(lia)) as DM.
  pose proof (Z.mod_pos_bound (secs (inner d)) f ltac:(lia)) as MB.
  assert (Rn : is_i64 (- (secs (inner d) / f)) = true)
    by (apply is_i64_iff in R; apply is_i64_iff; lia).
  destruct (Z.ltb_spec 0 (secs (inner d) / f)) as [L|L].
  - rewrite std_new_ok by lia. cbn [bind].
    assert (W' : (if neg d then arith is_i64 (- (secs (inner d) / f)) else Ok (secs (inner d) / f))
                 = Ok (Z.quot (nanos d) (f * 1000000000))) by exact W.
    rewrite W'. cbn [bind]. do 2 eexists. split; [reflexivity|].
    split; [apply duration_ok_iff; cbn [inner secs subsec]; lia|].
    split; [reflexivity|].
    rewrite arith_ok in W' by exact Rn.
    assert (V : Z.quot (nanos d) (f * 1000000000) = if neg d then - (secs (inner d) / f) else secs (inner d) / f)
      by (destruct (neg d); congruence).
    rewrite V. unfold nanos. cbn [neg inner secs subsec]. destruct (neg d); repeat split; nia.
  - assert (Z0 : secs (inner d) / f = 0) by lia. rewrite Z0 in *.
    do 2 eexists. split; [reflexivity|]. split; [exact Hd|].
    assert (V : Z.quot (nanos d) (f * 1000000000) = 0).
    { destruct (neg d); [rewrite arith_ok in W by exact Rn|]; cbn in W; congruence. }
    split; [now rewrite V|]. split; [lia|]. split; [|reflexivity].
    unfold nanos. destruct (neg d); nia.
Qed.

Lemma extract_seconds_spec d : duration_ok d ->
  exists n r, extract_seconds d = Ok (n, r) /\ duration_ok r /\
    n = Z.quot (nanos d) 1000000000 /\ nanos d = n * 1000000000 + nanos r /\
    Z.abs (nanos r) < 1000000000 /\ neg r = neg d.
Proof.
  intros Hd. unfold extract_seconds. rewrite <- (as_seconds_spec d Hd).
  pose proof Hd as H. apply duration_ok_iff in H. destruct H as [H1 H2].
  destruct (Z.eqb_spec (as_seconds d) 0) as [E|E].
  - do 2 eexists. split; [reflexivity|]. rewrite E. split; [exact Hd|]. split; [reflexivity|].
    split; [lia|]. split; [|reflexivity]. unfold as_seconds in E. unfold nanos. destruct (neg d); lia.
  - rewrite std_new_ok by lia. cbn [bind]. do 2 eexists. split; [reflexivity|].
    split; [apply duration_ok_iff; cbn [inner secs subsec]; lia|]. split; [reflexivity|].
    unfold nanos, as_seconds. cbn [neg inner secs subsec]. destruct (neg d); lia.
Qed.

(** ** conversions *)
Lemma try_into_std_spec d : duration_ok d ->
  (0 <= nanos d -> exists s, try_into_std d = inl s /\ std_ok s /\ std_nanos s = nanos d) /\
  (nanos d < 0 -> try_into_std d = inr NegativeDuration).
Proof.
  intros Hd. pose proof (is_zero_iff d Hd) as Z0. pose proof (std_nanos_nonneg _ Hd) as R.
  unfold try_into_std. rewrite nanos_unfold in *. split; intros H.
  - exists (inner d). split; [|split; [exact Hd|]].
    + destruct (negb (is_zero d) && neg d) eqn:E; [|reflexivity].
      apply andb_true_iff in E. destruct E as [E1 E2]. rewrite E2 in *.
      apply negb_true_iff in E1. rewrite <- not_true_iff_false, Z0 in E1. lia.
    + destruct (neg d); lia.
  - destruct (negb (is_zero d) && neg d) eqn:E; [reflexivity|].
    apply andb_false_iff in E. rewrite negb_false_iff, Z0 in E. destruct (neg d); destruct E; try lia; discriminate.
Qed.

Lemma saturating_into_std_spec d : duration_ok d ->
  exists s, saturating_into_std d = Ok s /\ std_ok s /\ std_nanos s = Z.max 0 (nanos d).
Proof.
  intros Hd. destruct (try_into_std_spec d Hd) as [A B]. unfold saturating_into_std.
  destruct (Z_lt_le_dec (nanos d) 0) as [L|L].
  - rewrite (B L). eexists; split; [reflexivity|]. split; [split; reflexivity|]. cbn. lia.
  - destruct (A L) as (s & E & Hs & V). rewrite E. eexists; split; [reflexivity|]. split; [exact Hs|lia].
Qed.

Lemma of_std_spec s : std_ok s -> duration_ok (of_std s) /\ nanos (of_std s) = std_nanos s.
Proof. intros H; split; [exact H|reflexivity]. Qed.

(** time::Duration *)

Lemma time_ok_iff t : time_ok t <->
  -9223372036854775808 <= t_secs t <= 9223372036854775807 /\ -999999999 <= t_nanos t <= 999999999 /\
  (0 < t_secs t -> 0 <= t_nanos t) /\ (t_secs t < 0 -> t_nanos t <= 0).
Proof. unfold time_ok. rewrite is_i64_iff. unfold inb. lia. Qed.

Lemma of_time_spec t : time_ok t ->
  exists d, of_time t = Ok d /\ duration_ok d /\ nanos d = time_nanos t.
Proof.
  rewrite time_ok_iff. intros H. unfold of_time. rewrite std_new_ok by lia. cbn [bind].
  eexists; split; [reflexivity|]. split; [apply duration_ok_iff; cbn [inner secs subsec]; lia|].
  unfold nanos, time_nanos. cbn [neg inner secs subsec].
  destruct (Z.ltb_spec (t_secs t) 0), (Z.ltb_spec (t_nanos t) 0); cbn [orb]; lia.
Qed.

Lemma time_new_ok s n :
  -9223372036854775808 <= s <= 9223372036854775807 -> -999999999 <= n <= 999999999 ->
  (0 < s -> 0 <= n) -> (s < 0 -> n <= 0) -> time_new s n = Ok (Tdur s n).
Proof.
  intros Hs Hn A B. unfold time_new.
  assert (Q : Z.quot n 1000000000 = 0).
  { rewrite Z.quot_small_iff by lia. lia. }
  assert (Rm : Z.rem n 1000000000 = n).
  { rewrite Z.rem_small_iff by lia. lia. }
  rewrite Q, Rm, Z.add_0_r, (chk_true is_i64 s) by (apply is_i64_iff; lia). cbn [unwrap bind].
  destruct (Z.ltb_spec 0 s), (Z.ltb_spec n 0); cbn [andb]; try lia;
  destruct (Z.ltb_spec s 0), (Z.ltb_spec 0 n); cbn [andb]; try lia; reflexivity.
Qed.

Lemma wrap_neg_u64 s : 0 <= s <= 9223372036854775808 -> wrap_i64 (wrap_u64 (- s)) = - s.
Proof.
  intros H. unfold wrap_i64, wrap_u64. change (2^63) with 9223372036854775808.
  change (2^64) with 18446744073709551616.
  destruct (Z.eq_dec s 0) as [->|N]; [reflexivity|].
  assert (E : - s mod 18446744073709551616 = 18446744073709551616 - s).
  { symmetry. apply (Z.mod_unique_pos _ _ (-1)); lia. }
  rewrite E. replace (18446744073709551616 - s + 9223372036854775808)
    with ((9223372036854775808 - s) + 1 * 18446744073709551616) by lia.
  rewrite Z.mod_add, Z.mod_small by lia. lia.
Qed.

Lemma try_into_time_spec d : duration_ok d ->
  (time_nanos TIME_MIN <= nanos d <= time_nanos TIME_MAX ->
     exists t, try_into_time d = Ok (inl t) /\ time_ok t /\ time_nanos t = nanos d) /\
  (nanos d < time_nanos TIME_MIN -> try_into_time d = Ok (inr NegativeOverflow)) /\
  (time_nanos TIME_MAX < nanos d -> try_into_time d = Ok (inr PositiveOverflow)).
Proof.
  intros Hd. apply duration_ok_iff in Hd. destruct Hd as [H1 H2].
  unfold try_into_time.
  change (Z.abs i64_min) with 9223372036854775808. change i64_max with 9223372036854775807.
  change (time_nanos TIME_MIN) with (-9223372036854775808999999999).
  change (time_nanos TIME_MAX) with 9223372036854775807999999999.
  unfold nanos. destruct (neg d).
  - destruct (Z.ltb_spec 9223372036854775808 (secs (inner d))) as [L|L].
    + repeat split; intros; try lia; reflexivity.
    + rewrite wrap_neg_u64, wrap_i32_id by (try apply is_i32_iff; lia).
      rewrite time_new_ok by lia. cbn [bind]. split; [|split; intros; lia].
      intros _. eexists; split; [reflexivity|]. rewrite time_ok_iff. unfold time_nanos.
      cbn [t_secs t_nanos]. lia.
  - destruct (Z.ltb_spec 9223372036854775807 (secs (inner d))) as [L|L].
    + repeat split; intros; try lia; reflexivity.
    + rewrite wrap_i64_id, wrap_i32_id by (try apply is_i64_iff; try apply is_i32_iff; lia).
      rewrite time_new_ok by lia. cbn [bind]. split; [|split; intros; lia].
      intros _. eexists; split; [reflexivity|]. rewrite time_ok_iff. unfold time_nanos.
      cbn [t_secs t_nanos]. lia.
Qed.

Lemma TIME_MIN_ok : time_ok TIME_MIN.
Proof. apply time_ok_iff. unfold TIME_MIN, i64_min; cbn [t_secs t_nanos]. lia. Qed.
Lemma TIME_MAX_ok : time_ok TIME_MAX.
Proof. apply time_ok_iff. unfold TIME_MAX, i64_max; cbn [t_secs t_nanos]. lia. Qed.

Lemma saturating_into_time_spec d : duration_ok d ->
  exists t, saturating_into_time d = Ok t /\ time_ok t /\
    time_nanos t = clamp (time_nanos TIME_MIN) (time_nanos TIME_MAX) (nanos d).
Proof.
  intros Hd. destruct (try_into_time_spec d Hd) as (A & B & C). unfold saturating_into_time.
  assert (LE : time_nanos TIME_MIN <= time_nanos TIME_MAX) by (compute; discriminate).
  destruct (Z_lt_le_dec (nanos d) (time_nanos TIME_MIN)) as [L|L];
    [|destruct (Z_lt_le_dec (time_nanos TIME_MAX) (nanos d)) as [L'|L']].
  - rewrite (B L). eexists; split; [reflexivity|]. split; [apply TIME_MIN_ok|]. unfold clamp. lia.
  - rewrite (C L'). eexists; split; [reflexivity|]. split; [apply TIME_MAX_ok|]. unfold clamp. lia.
  - destruct (A (conj L L')) as (t & E & Ht & V). rewrite E. eexists; split; [reflexivity|].
    split; [exact Ht|]. unfold clamp. lia.
Qed.

(** chrono::Duration *)
Lemma chrono_ok_iff c : chrono_ok c <->
  0 <= c_nanos c <= 999999999 /\ -9223372036854775807000000 <= c_value c <= 9223372036854775807000000.
Proof.
  unfold chrono_ok, c_inrange, inb.
  change (c_value C_MIN) with (-9223372036854775807000000).
  change (c_value C_MAX) with 9223372036854775807000000. lia.
Qed.

Lemma of_chrono_spec c : chrono_ok c ->
  exists d, of_chrono c = Ok d /\ duration_ok d /\ nanos d = c_value c.
Proof.
  rewrite chrono_ok_iff. unfold c_value. intros [H1 H2]. unfold of_chrono, c_to_std.
  destruct (Z.ltb_spec (c_secs c) 0) as [L|L].
  - unfold c_abs. replace (c_secs c <? 0) with true by lia. cbn [andb].
    destruct (Z.eqb_spec (c_nanos c) 0) as [E|E]; cbn [negb c_secs c_nanos].
    + destruct (Z.ltb_spec (Z.abs (c_secs c)) 0); [lia|]. cbn [unwrap bind].
      eexists; split; [reflexivity|].
      split; [apply duration_ok_iff; cbn [inner secs subsec]; lia|]. unfold nanos; cbn [neg inner secs subsec]. lia.
    + destruct (Z.ltb_spec (Z.abs (c_secs c + 1)) 0); [lia|]. cbn [unwrap bind].
      eexists; split; [reflexivity|].
      split; [apply duration_ok_iff; cbn [inner secs subsec]; lia|]. unfold nanos; cbn [neg inner secs subsec]. lia.
  - eexists; split; [reflexivity|].
    split; [apply duration_ok_iff; cbn [inner secs subsec]; lia|]. unfold nanos; cbn [neg inner secs subsec]. lia.
Qed.

Lemma c_checked_add_spec a b : 0 <= c_nanos a <= 999999999 -> 0 <= c_nanos b <= 999999999 ->
  match c_checked_add a b with
  | Some c => chrono_ok c /\ c_value c = c_value a + c_value b
  | None => ~ (-9223372036854775807000000 <= c_value a + c_value b <= 9223372036854775807000000)
  end.
Proof.
  intros Ha Hb. unfold c_checked_add.
  set (c := if 1000000000 <=? c_nanos a + c_nanos b then _ else _).
  assert (V : c_value c = c_value a + c_value b /\ 0 <= c_nanos c <= 999999999).
  { subst c. unfold c_value. destruct (Z.leb_spec 1000000000 (c_nanos a + c_nanos b)); cbn [c_secs c_nanos]; lia. }
  destruct V as [V N]. destruct (c_inrange c) eqn:E.
  - split; [|exact V]. split; [unfold inb; lia|exact E].
  - rewrite <- V. intros H. apply not_true_iff_false in E. apply E.
    unfold c_inrange. change (c_value C_MIN) with (-9223372036854775807000000).
    change (c_value C_MAX) with 9223372036854775807000000. lia.
Qed.

Lemma try_into_chrono_spec d : duration_ok d ->
  (c_value C_MIN <= nanos d <= c_value C_MAX ->
     exists c, try_into_chrono d = Ok (inl c) /\ chrono_ok c /\ c_value c = nanos d) /\
  (nanos d < c_value C_MIN -> try_into_chrono d = Ok (inr NegativeOverflow)) /\
  (c_value C_MAX < nanos d -> try_into_chrono d = Ok (inr PositiveOverflow)).
Proof.
  intros Hd. apply duration_ok_iff in Hd. destruct Hd as [H1 H2].
  unfold try_into_chrono.
  change (Z.abs (c_num_seconds C_MIN)) with 9223372036854775.
  change (Z.abs (c_num_seconds C_MAX)) with 9223372036854775.
  change (c_value C_MIN) with (-9223372036854775807000000).
  change (c_value C_MAX) with 9223372036854775807000000.
  unfold nanos. destruct (neg d).
  - destruct (Z.ltb_spec 9223372036854775 (secs (inner d))) as [L|L].
    + repeat split; intros; try lia; reflexivity.
    + rewrite wrap_i64_id by (apply is_i64_iff; lia).
      rewrite arith_ok by (apply is_i64_iff; lia). cbn [bind].
      unfold c_seconds.
      assert (R : c_inrange (Cdur (- secs (inner d)) 0) = true).
      { unfold c_inrange. change (c_value C_MIN) with (-9223372036854775807000000).
        change (c_value C_MAX) with 9223372036854775807000000. unfold c_value; cbn [c_secs c_nanos]. lia. }
      rewrite R. cbn [bind].
      pose proof (c_checked_add_spec (Cdur (- secs (inner d)) 0) (c_nanoseconds (- subsec (inner d)))) as S.
      assert (V : c_value (Cdur (- secs (inner d)) 0) + c_value (c_nanoseconds (- subsec (inner d)))
                  = - (secs (inner d) * 1000000000 + subsec (inner d))).
      { unfold c_value, c_nanoseconds; cbn [c_secs c_nanos]. lia. }
      rewrite V in S.
      specialize (S ltac:(cbn [c_nanos]; lia) ltac:(unfold c_nanoseconds; cbn [c_nanos]; lia)).
      destruct (c_checked_add _ _) as [c|].
      * split; [intros _; exists c; tauto|]. destruct S as [S1 S2]. apply chrono_ok_iff in S1. lia.
      * split; [lia|]. split; [reflexivity|lia].
  - destruct (Z.ltb_spec 9223372036854775 (secs (inner d))) as [L|L].
    + repeat split; intros; try lia; reflexivity.
    + rewrite wrap_i64_id by (apply is_i64_iff; lia).
      unfold c_seconds.
      assert (R : c_inrange (Cdur (secs (inner d)) 0) = true).
      { unfold c_inrange. change (c_value C_MIN) with (-9223372036854775807000000).
        change (c_value C_MAX) with 9223372036854775807000000. unfold c_value; cbn [c_secs c_nanos]. lia. }
      rewrite R. cbn [bind].
      pose proof (c_checked_add_spec (Cdur (secs (inner d)) 0) (c_nanoseconds (subsec (inner d)))) as S.
      assert (V : c_value (Cdur (secs (inner d)) 0) + c_value (c_nanoseconds (subsec (inner d)))
                  = secs (inner d) * 1000000000 + subsec (inner d)).
      { unfold c_value, c_nanoseconds; cbn [c_secs c_nanos]. lia. }
      rewrite V in S.
      specialize (S ltac:(cbn [c_nanos]; lia) ltac:(unfold c_nanoseconds; cbn [c_nanos]; lia)).
      destruct (c_checked_add _ _) as [c|].
      * split; [intros _; exists c; tauto|]. destruct S as [S1 S2]. apply chrono_ok_iff in S1. lia.
      * split; [lia|]. split; [lia|reflexivity].
Qed.

Lemma saturating_into_chrono_spec d : duration_ok d ->
  exists c, saturating_into_chrono d = Ok c /\ chrono_ok c /\
    c_value c = clamp (c_value C_MIN) (c_value C_MAX) (nanos d).
Proof.
  intros Hd. destruct (try_into_chrono_spec d Hd) as (A & B & C). unfold saturating_into_chrono.
  assert (LE : c_value C_MIN <= c_value C_MAX) by (compute; discriminate).
  destruct (Z_lt_le_dec (nanos d) (c_value C_MIN)) as [L|L];
    [|destruct (Z_lt_le_dec (c_value C_MAX) (nanos d)) as [L'|L']].
  - rewrite (B L). eexists; split; [reflexivity|]. split; [split; reflexivity|]. unfold clamp. lia.
  - rewrite (C L'). eexists; split; [reflexivity|]. split; [split; reflexivity|]. unfold clamp. lia.
  - destruct (A (conj L L')) as (t & E & Ht & V). rewrite E. eexists; split; [reflexivity|].
    split; [exact Ht|]. unfold clamp. lia.
Qed.

(** ** Multiplier *)
Lemma mul_checked_mul_spec a b :
  (is_i64 (coef a * coef b) = true /\ is_i16 (expo a + expo b) = true ->
     mul_checked_mul a b = Some (Mul (coef a * coef b) (expo a + expo b))) /\
  (~ (is_i64 (coef a * coef b) = true /\ is_i16 (expo a + expo b) = true) -> mul_checked_mul a b = None).
Proof.
  unfold mul_checked_mul, chk. destruct (is_i64 _), (is_i16 _); cbn [obind]; split; intros H;
    try reflexivity; try (destruct H; discriminate); exfalso; apply H; auto.
Qed.

(** ** summaries used by PropTime *)
Lemma representable_iff_between x : (exists d, duration_ok d /\ nanos d = x) <-> nanos MIN <= x <= nanos MAX.
Proof.
  rewrite nanos_MIN, nanos_MAX. split.
  - intros (d & Hd & <-). now apply nanos_range.
  - rewrite max_nanos_val. intros H.
    exists (Dur (x <? 0) (Std (Z.abs x / 1000000000) (Z.abs x mod 1000000000))).
    rewrite duration_ok_iff. unfold nanos. cbn [neg inner secs subsec].
    pose proof (Z.div_mod (Z.abs x) 1000000000 ltac:(lia)) as E.
    pose proof (Z.mod_pos_bound (Z.abs x) 1000000000 ltac:(lia)).
    split; [lia|]. destruct (Z.ltb_spec x 0); lia.
Qed.
Lemma deqb_iff a b : duration_ok a -> duration_ok b -> deqb a b = true <-> nanos a = nanos b.
Proof. intros Ha Hb. rewrite deqb_spec by assumption. apply Z.eqb_eq. Qed.
Lemma deqb_iff_cmp a b : duration_ok a -> duration_ok b -> deqb a b = true <-> dcmp a b = Eq.
Proof. intros Ha Hb. rewrite deqb_iff, dcmp_spec by assumption. symmetry. apply Z.compare_eq_iff. Qed.
Lemma dmin_spec a b : duration_ok a -> duration_ok b ->
  duration_ok (dmin a b) /\ nanos (dmin a b) = Z.min (nanos a) (nanos b).
Proof.
  intros Ha Hb. unfold dmin. rewrite dcmp_spec by assumption.
  destruct (Z.compare_spec (nanos a) (nanos b)); split; auto; lia.
Qed.
Lemma dhash_iff_eq a b : duration_ok a -> duration_ok b -> (dhash a = dhash b <-> deqb a b = true).
Proof. intros Ha Hb. rewrite deqb_iff by assumption. now apply dhash_spec. Qed.
Lemma dneg_all d : duration_ok d -> duration_ok (dneg d) /\ nanos (dneg d) = - nanos d /\ dneg (dneg d) = d.
Proof. intros H. split; [apply dneg_ok, H|]. split; [apply nanos_dneg|apply dneg_involutive]. Qed.
Lemma abs_all d : duration_ok d ->
  duration_ok (abs d) /\ nanos (abs d) = Z.abs (nanos d) /\ is_negative (abs d) = false.
Proof. intros H. split; [exact H|]. now apply nanos_abs. Qed.
Lemma as_units_all d : duration_ok d ->
  as_weeks d = Ok (Z.quot (nanos d) (604800 * 1000000000)) /\
  as_days d = Ok (Z.quot (nanos d) (86400 * 1000000000)) /\
  as_hours d = Ok (Z.quot (nanos d) (3600 * 1000000000)) /\
  as_minutes d = Ok (Z.quot (nanos d) (60 * 1000000000)) /\
  as_seconds d = Z.quot (nanos d) 1000000000 /\
  as_millis d = Ok (Z.quot (nanos d) 1000000) /\
  as_micros d = Ok (Z.quot (nanos d) 1000) /\
  as_nanos d = Ok (nanos d).
Proof.
  intros H. unfold as_weeks, as_days, as_hours, as_minutes, SECS_PER_WEEK, SECS_PER_DAY, SECS_PER_HOUR, SECS_PER_MINUTE.
  rewrite !as_whole_spec by (exact H || lia).
  rewrite as_seconds_spec, as_millis_spec, as_micros_spec, as_nanos_spec by exact H. auto 10.
Qed.
Lemma subsec_all d : duration_ok d ->
  subsec_millis d = Ok (Z.quot (Z.rem (nanos d) 1000000000) 1000000) /\
  subsec_micros d = Ok (Z.quot (Z.rem (nanos d) 1000000000) 1000) /\
  subsec_nanos d = Ok (Z.rem (nanos d) 1000000000).
Proof. intros H. rewrite subsec_millis_spec, subsec_micros_spec, subsec_nanos_spec by exact H. auto. Qed.
Lemma extract_all d : duration_ok d ->
  let P X r := exists n rest, r = Ok (n, rest) /\ duration_ok rest /\
    n = Z.quot (nanos d) X /\ nanos d = n * X + nanos rest /\
    Z.abs (nanos rest) < X /\ is_negative rest = is_negative d in
  P (604800 * 1000000000) (extract_weeks d) /\
  P (86400 * 1000000000) (extract_days d) /\
  P (3600 * 1000000000) (extract_hours d) /\
  P (60 * 1000000000) (extract_minutes d) /\
  P 1000000000 (extract_seconds d).
Proof.
  intros H P. subst P. unfold extract_weeks, extract_days, extract_hours, extract_minutes.
  split; [apply (extract_i64_spec d SECS_PER_WEEK H ltac:(unfold SECS_PER_WEEK; lia))|].
  split; [apply (extract_i64_spec d SECS_PER_DAY H ltac:(unfold SECS_PER_DAY; lia))|].
  split; [apply (extract_i64_spec d SECS_PER_HOUR H ltac:(unfold SECS_PER_HOUR; lia))|].
  split; [apply (extract_i64_spec d SECS_PER_MINUTE H ltac:(unfold SECS_PER_MINUTE; lia))|].
  apply (extract_seconds_spec d H).
Qed.
Lemma mul_checked_mul_bounds a b :
  (- 2 ^ 63 <= coef a * coef b < 2 ^ 63 /\ - 2 ^ 15 <= expo a + expo b < 2 ^ 15 ->
     mul_checked_mul a b = Some (Mul (coef a * coef b) (expo a + expo b))) /\
  (~ (- 2 ^ 63 <= coef a * coef b < 2 ^ 63 /\ - 2 ^ 15 <= expo a + expo b < 2 ^ 15) ->
     mul_checked_mul a b = None).
Proof.
  destruct (mul_checked_mul_spec a b) as [A B]. rewrite is_i64_iff, is_i16_iff in *.
  split; intros H; [apply A|apply B]; [split; lia|]. intros [H1 H2]. apply H. split; lia.
Qed.
Lemma mul_mul_spec a b :
  match mul_checked_mul a b with Some m => mul_mul a b = Ok m | None => mul_mul a b = Crash CrashUnwrap end.
Proof. unfold mul_mul. now destruct (mul_checked_mul a b). Qed.
Lemma mul_saturating_neg_spec m : multiplier_ok m ->
  multiplier_ok (mul_saturating_neg m) /\ expo (mul_saturating_neg m) = expo m /\
  coef (mul_saturating_neg m) = Z.min (2 ^ 63 - 1) (- coef m).
Proof.
  unfold multiplier_ok, mul_saturating_neg. rewrite !is_i64_iff. intros [H1 H2]. cbn [coef expo].
  change (2 ^ 63 - 1) with 9223372036854775807. unfold i64_min, i64_max.
  destruct (Z.eqb_spec (coef m) (-9223372036854775808)); split; try split; try split; try lia; auto.
Qed.
