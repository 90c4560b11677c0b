(** * Proofs about DurationRepr: the value computed from a number, a unit and a multiplier *)
From Verif Require Import Prelude Util Time Bytes Repr SpecTime SpecNum SpecValue TimeProofs NumProofs.

(** a std duration from its number of nanoseconds *)

Lemma std_of_nanos_ok n : 0 <= n <= max_nanos -> std_ok (std_of_nanos n) /\ std_nanos (std_of_nanos n) = n.
Proof.
  rewrite max_nanos_val. intros H. rewrite std_ok_iff. unfold std_nanos, std_of_nanos; cbn [secs subsec].
  pose proof (Z.div_mod n 1000000000 ltac:(lia)). pose proof (Z.mod_pos_bound n 1000000000 ltac:(lia)). 
  split; [split|]; lia.
Qed.

Lemma fs_eq V n : 0 <= V -> floor_scale10 V (18 - Z.of_nat n) = V * 10 ^ 18 / 10 ^ Z.of_nat n.
Proof.
  intros HV. unfold floor_scale10. destruct (Z.leb_spec 0 (18 - Z.of_nat n)) as [L|L].
  - pose proof (pow10_pos n). replace (10 ^ 18) with (10 ^ (18 - Z.of_nat n) * 10 ^ Z.of_nat n).
    + rewrite Z.mul_assoc, Z.div_mul; lia.
    + rewrite <- Z.pow_add_r by lia. f_equal. lia.
  - replace (10 ^ Z.of_nat n) with (10 ^ (- (18 - Z.of_nat n)) * 10 ^ 18).
    + rewrite Z.div_mul_cancel_r; [reflexivity| |].
      * pose proof (Z.pow_pos_nonneg 10 (- (18 - Z.of_nat n))). lia.
      * lia.
    + rewrite <- Z.pow_add_r by lia. f_equal. lia.
Qed.

Lemma fs_split w f n : 0 <= w -> 0 <= f < 10 ^ Z.of_nat n ->
  let A := floor_scale10 (w * 10 ^ Z.of_nat n + f) (18 - Z.of_nat n) in
  A / 10 ^ 18 = w /\ A mod 10 ^ 18 = f * 10 ^ 18 / 10 ^ Z.of_nat n.
Proof.
  intros Hw Hf A. subst A. pose proof (pow10_pos n) as P.
  rewrite fs_eq by nia.
  replace ((w * 10 ^ Z.of_nat n + f) * 10 ^ 18) with (w * 10 ^ 18 * 10 ^ Z.of_nat n + f * 10 ^ 18) by ring.
  rewrite Z.div_add_l by lia.
  assert (B : 0 <= f * 10 ^ 18 / 10 ^ Z.of_nat n < 10 ^ 18).
  { split; [apply Z.div_pos; lia|]. apply Z.div_lt_upper_bound; [lia|]. nia. }
  set (x := f * 10 ^ 18 / 10 ^ Z.of_nat n) in *. clearbody x.
  replace (w * 10 ^ 18 + x) with (x + w * 10 ^ 18) by ring.
  rewrite Z.div_add, Z.mod_add by lia.
  rewrite Z.div_small, Z.mod_small by lia. lia.
Qed.

Lemma slice_ok l a b s : slice l a b = Ok s -> (a <= b <= length l)%nat /\ s = firstn (b - a) (skipn a l) /\ length s = (b - a)%nat.
Proof.
  unfold slice. destruct ((a <=? b)%nat && (b <=? length l)%nat) eqn:E; [|discriminate].
  apply andb_true_iff in E. destruct E as [E1%Nat.leb_le E2%Nat.leb_le]. intros H. injection H as <-.
  repeat split; try assumption. rewrite firstn_length, skipn_length. lia.
Qed.
Lemma slice_is l a b : (a <= b <= length l)%nat -> slice l a b = Ok (firstn (b - a) (skipn a l)).
Proof.
  intros [H1 H2]. unfold slice. apply Nat.leb_le in H1, H2. now rewrite H1, H2.
Qed.
Lemma skipn_skipn' {A} (x y : nat) (l : list A) : skipn x (skipn y l) = skipn (y + x) l.
Proof. revert l. induction y as [|y IH]; intros [|a l]; cbn; try rewrite skipn_nil; auto. Qed.
Lemma slice_split l a m b s : slice l a b = Ok s -> (a <= m <= b)%nat ->
  slice l a m = Ok (firstn (m - a) s) /\ slice l m b = Ok (skipn (m - a) s).
Proof.
  intros H Hm. apply slice_ok in H. destruct H as (H1 & -> & _).
  rewrite !slice_is by lia. split; f_equal.
  - rewrite firstn_firstn. f_equal. lia.
  - rewrite skipn_firstn_comm, skipn_skipn'. f_equal; [lia|]. f_equal. lia.
Qed.

Lemma opt_slice_len digits o s : opt_slice digits o = Ok s -> opt_len o = Ok (length s).
Proof.
  destruct o as [[a b]|]; cbn.
  - unfold range_slice, range_len, sub_usize; cbn [fst snd]. intros H%slice_ok. destruct H as (H1 & _ & ->).
    destruct (Nat.leb_spec a b); [reflexivity|lia].
  - now intros [= <-].
Qed.

Lemma range_empty digits w s : range_slice digits w = Ok s -> range_is_empty w = is_empty s.
Proof.
  destruct w as [a b]. unfold range_slice, range_is_empty; cbn [fst snd]. intros H%slice_ok.
  destruct H as (H1 & _ & L). destruct s; cbn in *; [apply Nat.eqb_eq; lia|apply Nat.eqb_neq; lia].
Qed.
Lemma range_len_ok digits w s : range_slice digits w = Ok s -> range_len w = Ok (length s).
Proof. intros H. exact (opt_slice_len digits (Some w) s H). Qed.

Lemma chk_u64_leb x : 0 <= x -> chk is_u64 x = if x <=? u64_max then Some x else None.
Proof.
  intros H. unfold chk. replace (is_u64 x) with (x <=? u64_max); [reflexivity|].
  apply eq_true_iff_eq. rewrite is_u64_iff. unfold u64_max. lia.
Qed.

(** what the big match of DurationRepr::parse computes: the number W.F * 10^exponent cut after 18 fractional
    digits, split into seconds and attoseconds *)
Definition split_spec (W F : str) (exponent : Z) : option (Z * Z) :=
  let A := floor_scale10 (dval (W ++ F)) (18 + exponent - Z.of_nat (length F)) in
  if A / 10 ^ 18 <=? u64_max then Some (A / 10 ^ 18, A mod 10 ^ 18) else None.

(* combine a whole number w and a fraction f with n digits *)
Lemma split_spec_of W F e w f n :
  dval (W ++ F) = w * 10 ^ Z.of_nat n + f -> 0 <= w -> 0 <= f < 10 ^ Z.of_nat n ->
  e - Z.of_nat (length F) = - Z.of_nat n ->
  split_spec W F e = if w <=? u64_max then Some (w, f * 10 ^ 18 / 10 ^ Z.of_nat n) else None.
Proof.
  intros E Hw Hf En. unfold split_spec. rewrite E.
  replace (18 + e - Z.of_nat (length F)) with (18 - Z.of_nat n) by lia.
  destruct (fs_split w f n Hw Hf) as [-> ->]. reflexivity.
Qed.

Lemma split_number_spec digits exponent whole fract W F :
  opt_slice digits whole = Ok W -> opt_slice digits fract = Ok F ->
  digit_string W -> digit_string F ->
  split_number digits exponent whole fract = Ok (split_spec W F exponent).
Proof.
  intros HW HF DW DF. unfold split_number.
  set (ea := Z.to_nat (Z.abs exponent)).
  pose proof (opt_slice_len _ _ _ HW) as LW. pose proof (opt_slice_len _ _ _ HF) as LF.
  destruct (Z.compare_spec exponent 0) as [E0|E0|E0].
  - (* exponent = 0 *)
    subst exponent. 
    assert (S : split_spec W F 0 = if dval W <=? u64_max then Some (dval W, dval F * 10 ^ 18 / 10 ^ Z.of_nat (length F)) else None).
    { apply split_spec_of; [apply dval_app|now apply dval_nonneg|split; [now apply dval_nonneg|now apply dval_bound]|lia]. }
    rewrite S.
    assert (Ew : match whole with None => Ok (Some 0) | Some w => let* ds := range_slice digits w in whole_parse ds None None end
                 = Ok (chk is_u64 (dval W))).
    { destruct whole as [w|]; cbn in HW.
      - rewrite HW. cbn [bind]. rewrite whole_parse_spec; [|assumption|apply digit_string_nil].
        cbn [opt_str opt_nat]. rewrite app_nil_r. cbn [Z.of_nat]. now rewrite Z.pow_0_r, Z.mul_1_r.
      - injection HW as <-. reflexivity. }
    rewrite Ew. cbn [bind]. rewrite chk_u64_leb by now apply dval_nonneg.
    destruct (dval W <=? u64_max); [|reflexivity].
    assert (Ef : match fract with None => Ok 0 | Some f => let* fd := range_slice digits f in fract_parse fd None None end
                 = Ok (dval F * 10 ^ 18 / 10 ^ Z.of_nat (length F))).
    { destruct fract as [f|]; cbn in HF.
      - rewrite HF. cbn [bind]. rewrite fract_parse_spec; [|assumption|apply digit_string_nil]. reflexivity.
      - injection HF as <-. reflexivity. }
    rewrite Ef. reflexivity.
  - (* exponent < 0 *)
    assert (Ee : exponent = - Z.of_nat ea) by (subst ea; lia).
    assert (Efb : match whole with Some w => let* l := range_len w in Ok (ea <? l)%nat | None => Ok false end
                  = Ok (ea <? length W)%nat).
    { destruct whole as [w|]; cbn in HW, LW.
      - rewrite LW. reflexivity.
      - injection HW as <-. cbn. f_equal. }
    rewrite Efb. cbn [bind].
    destruct (Nat.ltb_spec ea (length W)) as [L|L].
    + destruct whole as [w|]; [|cbn in HW; injection HW as <-; cbn in L; lia].
      destruct w as [wa wb]. cbn in HW. unfold range_slice in HW; cbn [fst snd] in *.
      pose proof (slice_ok _ _ _ _ HW) as (Hr & _ & Lw).
      unfold sub_usize. destruct (Nat.leb_spec ea wb) as [_|?]; [|lia]. cbn [bind].
      destruct (slice_split _ _ (wb - ea) _ _ HW ltac:(lia)) as [S1 S2].
      rewrite S1. cbn [bind].
      set (k := (wb - ea - wa)%nat) in *.
      assert (D1 : digit_string (firstn k W)) by now apply digit_string_firstn.
      assert (D2 : digit_string (skipn k W)) by now apply digit_string_skipn.
      rewrite whole_parse_spec; [|assumption|apply digit_string_nil].
      cbn [opt_str opt_nat bind Z.of_nat]. rewrite app_nil_r, Z.pow_0_r, Z.mul_1_r.
      rewrite chk_u64_leb by now apply dval_nonneg.
      assert (D3 : digit_string (skipn k W ++ F)) by (apply digit_string_app; auto).
      assert (Lk : length (skipn k W) = ea) by (rewrite skipn_length; lia).
      rewrite (split_spec_of W F exponent (dval (firstn k W)) (dval (skipn k W ++ F)) (length (skipn k W ++ F))).
      * destruct (dval (firstn k W) <=? u64_max); [|reflexivity].
        rewrite HF, S2. cbn [bind].
        rewrite fract_parse_spec by assumption. reflexivity.
      * rewrite <- dval_app, app_assoc, firstn_skipn. reflexivity.
      * now apply dval_nonneg.
      * split; [now apply dval_nonneg|now apply dval_bound].
      * rewrite app_length, Lk. lia.
    + assert (S : split_spec W F exponent = Some (0, dval (W ++ F) * 10 ^ 18 / 10 ^ Z.of_nat (ea - length W + length (W ++ F)))).
      { rewrite (split_spec_of W F exponent 0 (dval (W ++ F)) (ea - length W + length (W ++ F))); [reflexivity|lia|lia| |].
        - assert (D : digit_string (W ++ F)) by (apply digit_string_app; auto).
          split; [now apply dval_nonneg|]. pose proof (dval_bound _ D). rewrite pow10_add.
          pose proof (pow10_pos (ea - length W)). pose proof (pow10_pos (length (W ++ F))). nia.
        - rewrite app_length. lia. }
      rewrite S. clear S. 
      assert (Z1 : sub_usize ea (length W) = Ok (ea - length W)%nat).
      { unfold sub_usize. destruct (Nat.leb_spec (length W) ea); [reflexivity|lia]. }
      assert (B1 : (let* wd := opt_slice digits whole in let* l := opt_len whole in
                    let* z := sub_usize ea l in fract_parse wd None (Some z))
                   = Ok (dval W * 10 ^ 18 / 10 ^ Z.of_nat (ea - length W + length W))).
      { rewrite HW, LW. cbn [bind]. rewrite Z1. cbn [bind].
        rewrite fract_parse_spec; [reflexivity|assumption|apply digit_string_nil]. }
      match goal with |- (match whole with Some _ => _ | None => _ end) = _ => idtac | _ => idtac end.
      destruct fract as [f|].
      * cbn in HF. rewrite (range_empty _ _ _ HF).
        destruct F as [|f0 F']; cbn [is_empty].
        -- rewrite app_nil_r. destruct whole; rewrite B1; reflexivity.
        -- set (F := f0 :: F') in *. 
           assert (B2 : (let* fd := range_slice digits f in
             let* pd := match whole with
                        | Some w => if range_is_empty w then Ok None else let* s := range_slice digits w in Ok (Some s)
                        | None => Ok None
                        end in
             let* l := opt_len whole in let* z := sub_usize ea l in fract_parse fd pd (Some z))
             = Ok (dval (W ++ F) * 10 ^ 18 / 10 ^ Z.of_nat (ea - length W + length (W ++ F)))).
           { rewrite HF, LW. cbn [bind].
             assert (P : exists o, match whole with
                        | Some w => if range_is_empty w then Ok None else let* s := range_slice digits w in Ok (Some s)
                        | None => Ok None
                        end = Ok o /\ opt_str o = W).
             { destruct whole as [w|]; cbn in HW.
               - rewrite (range_empty _ _ _ HW), HW. destruct W; cbn; eauto.
               - injection HW as <-. exists None. auto. }
             destruct P as (o & -> & Eo). cbn [bind]. rewrite Z1. cbn [bind].
             rewrite fract_parse_spec; [|assumption|now rewrite Eo]. rewrite Eo. reflexivity. }
           destruct whole; rewrite B2; reflexivity.
      * cbn in HF. injection HF as <-. rewrite app_nil_r. destruct whole; rewrite B1; reflexivity.
  - (* exponent > 0 *)
    assert (Ee : exponent = Z.of_nat ea) by (subst ea; lia).
    assert (Efb : match fract with Some f => let* l := range_len f in Ok (ea <? l)%nat | None => Ok false end
                  = Ok (ea <? length F)%nat).
    { destruct fract as [f|]; cbn in HF, LF.
      - rewrite LF. reflexivity.
      - injection HF as <-. cbn. f_equal. }
    rewrite Efb. cbn [bind].
    destruct (Nat.ltb_spec ea (length F)) as [L|L].
    + destruct fract as [f|]; [|cbn in HF; injection HF as <-; cbn in L; lia].
      destruct f as [fa fb]. cbn in HF. unfold range_slice in HF; cbn [fst snd] in *.
      pose proof (slice_ok _ _ _ _ HF) as (Hr & _ & Lf).
      destruct (slice_split _ _ (fa + ea) _ _ HF ltac:(lia)) as [S1 S2].
      replace (fa + ea - fa)%nat with ea in * by lia.
      rewrite HW, S1. cbn [bind].
      assert (D1 : digit_string (firstn ea F)) by now apply digit_string_firstn.
      assert (D2 : digit_string (skipn ea F)) by now apply digit_string_skipn.
      rewrite whole_parse_spec by assumption.
      cbn [opt_str opt_nat bind Z.of_nat]. rewrite Z.pow_0_r, Z.mul_1_r.
      assert (D3 : digit_string (W ++ firstn ea F)) by (apply digit_string_app; auto).
      rewrite chk_u64_leb by now apply dval_nonneg.
      rewrite (split_spec_of W F exponent (dval (W ++ firstn ea F)) (dval (skipn ea F)) (length (skipn ea F))).
      * destruct (dval (W ++ firstn ea F) <=? u64_max); [|reflexivity].
        rewrite S2. cbn [bind].
        rewrite fract_parse_spec; [reflexivity|assumption|apply digit_string_nil].
      * rewrite <- dval_app, <- app_assoc, firstn_skipn. reflexivity.
      * now apply dval_nonneg.
      * split; [now apply dval_nonneg|now apply dval_bound].
      * rewrite skipn_length. lia.
    + assert (B : (let* wd := opt_slice digits whole in
          let* ad := match fract with
                     | None => Ok None
                     | Some f => let* s := range_slice digits f in Ok (Some s)
                     end in
          let* l := opt_len fract in
          let* z := sub_usize ea l in
          let* o := whole_parse wd ad (Some z) in
          match o with
          | None => Ok None
          | Some seconds => Ok (Some (seconds, 0))
          end) = Ok (split_spec W F exponent)).
      { rewrite HW, LF. cbn [bind].
        assert (P : exists o, match fract with
                     | None => Ok None
                     | Some f => let* s := range_slice digits f in Ok (Some s)
                     end = Ok o /\ opt_str o = F).
        { destruct fract as [f|]; cbn in HF.
          - rewrite HF. cbn. eauto.
          - injection HF as <-. exists None. auto. }
        destruct P as (o & -> & Eo). cbn [bind].
        unfold sub_usize. destruct (Nat.leb_spec (length F) ea); [|lia]. cbn [bind].
        rewrite whole_parse_spec; [|assumption|now rewrite Eo]. rewrite Eo. cbn [bind opt_nat].
        assert (D : digit_string (W ++ F)) by (apply digit_string_app; auto).
        pose proof (dval_nonneg _ D) as N. pose proof (pow10_pos (ea - length F)) as P.
        rewrite chk_u64_leb by nia.
        unfold split_spec, floor_scale10.
        replace (18 + exponent - Z.of_nat (length F)) with (18 + Z.of_nat (ea - length F)) by lia.
        destruct (Z.leb_spec 0 (18 + Z.of_nat (ea - length F))) as [_|?]; [|lia].
        rewrite Z.pow_add_r by lia.
        replace (dval (W ++ F) * (10 ^ 18 * 10 ^ Z.of_nat (ea - length F)))
          with (dval (W ++ F) * 10 ^ Z.of_nat (ea - length F) * 10 ^ 18) by ring.
        rewrite Z.div_mul, Z.mod_mul by lia.
        destruct (_ <=? u64_max); reflexivity. }
      destruct fract; exact B.
Qed.

(** ** calculate_duration *)
Lemma calculate_duration_spec is_neg s a c :
  0 <= s <= u64_max -> 0 <= a < 10 ^ 18 -> is_i64 c = true -> c <> 0 ->
  let A := s * 10 ^ 18 + a in
  calculate_duration is_neg s a c =
    Ok (if A =? 0 then ZERO
        else Dur is_neg (std_of_nanos (Z.min max_nanos (Z.abs c * A / 1000000000)))).
Proof.
  intros Hs Ha Hc Nc A. subst A. unfold u64_max in Hs. apply is_i64_iff in Hc.
  change (10 ^ 18) with 1000000000000000000 in *.
  set (A := s * 1000000000000000000 + a). unfold calculate_duration, min_or_max, from_std.
  destruct (Z.eqb_spec c 0); [lia|]. rewrite orb_false_r.
  destruct ((s =? 0) && (a =? 0)) eqn:E0.
  { replace A with 0 by (subst A; lia). reflexivity. }
  destruct (Z.eqb_spec A 0) as [EA|NA]; [subst A; lia|].
  set (uc := Z.abs c). assert (Huc : 1 <= uc <= 9223372036854775808) by (subst uc; lia).
  set (N := uc * A / 1000000000).
  (* the value in terms of seconds and nanoseconds *)
  assert (HN : forall t r, uc * a = t * 1000000000 + r -> 0 <= r < 1000000000 ->
            N = uc * s * 1000000000 + t).
  { intros t r Et Hr. subst N. symmetry. apply (Z.div_unique_pos _ _ _ r); [lia|]. subst A. lia. }
  assert (Over : 18446744073709551616 * 1000000000 <= N -> Z.min max_nanos N = max_nanos)
    by (rewrite max_nanos_val; lia).
  assert (Under : N < 18446744073709551616 * 1000000000 -> Z.min max_nanos N = N)
    by (rewrite max_nanos_val; lia).
  assert (MX : Dur is_neg (std_of_nanos max_nanos) = if is_neg then MIN else MAX) by (destruct is_neg; reflexivity).
  assert (Fin : forall x y, 0 <= x <= 18446744073709551615 -> 0 <= y < 1000000000 -> N = x * 1000000000 + y ->
     Dur is_neg (Std x y) = Dur is_neg (std_of_nanos (Z.min max_nanos N))).
  { intros x y Hx Hy EN. rewrite Under by lia. unfold std_of_nanos. f_equal.
    assert (N / 1000000000 = x) by (symmetry; apply (Z.div_unique_pos _ _ _ y); lia).
    assert (N mod 1000000000 = y) by (symmetry; apply (Z.mod_unique_pos _ _ x); lia). congruence. }
  assert (Sat : 18446744073709551616 * 1000000000 <= N ->
     (if is_neg then MIN else MAX) = Dur is_neg (std_of_nanos (Z.min max_nanos N))).
  { intros H. now rewrite Over, MX. }
  clearbody N. clear Over Under MX.
  destruct (Z.eqb_spec a 0) as [->|Na].
  - specialize (HN 0 0 ltac:(lia) ltac:(lia)).
    destruct (chk_spec is_u64 (s * uc)) as [[H E]|[H E]]; rewrite E.
    + apply is_u64_iff in H. rewrite std_new_ok by lia. cbn [bind]. f_equal. apply Fin; lia.
    + rewrite <- not_true_iff_false, is_u64_iff in H. f_equal. apply Sat. nia.
  - unfold ATTOS_PER_NANO, ATTOS_PER_SEC, NANOS_PER_SEC.
    destruct ((c =? 1) || (c =? -1)) eqn:E1.
    + assert (uc = 1) by (subst uc; lia).
      pose proof (Z.div_mod a 1000000000 ltac:(lia)) as Hd. pose proof (Z.mod_pos_bound a 1000000000 ltac:(lia)) as Hm.
      specialize (HN (a / 1000000000) (a mod 1000000000) ltac:(nia) ltac:(lia)).
      assert (0 <= a / 1000000000 <= 999999999) by lia.
      rewrite chk_true by (apply is_u32_iff; lia). cbn [unwrap bind].
      rewrite std_new_ok by lia. cbn [bind]. f_equal. apply Fin; nia.
    + set (x := uc * a).
      assert (Hx : 0 < x < 9223372036854775808 * 1000000000000000000) by (subst x; nia).
      pose proof (Z.div_mod x 1000000000 ltac:(lia)) as Hd. pose proof (Z.mod_pos_bound x 1000000000 ltac:(lia)) as Hm.
      specialize (HN (x / 1000000000) (x mod 1000000000) ltac:(subst x; lia) ltac:(lia)).
      remember (x / 1000000000) as t eqn:Et9.
      assert (Et : x / 1000000000000000000 = t / 1000000000).
      { rewrite Et9. rewrite Z.div_div by lia. reflexivity. }
      pose proof (Z.div_mod t 1000000000 ltac:(lia)) as Hd2. pose proof (Z.mod_pos_bound t 1000000000 ltac:(lia)) as Hm2.
      assert (Ht : 0 <= t < 9223372036854775808 * 1000000000) by lia.
      assert (Hq : 0 <= t / 1000000000 < 9223372036854775808) by lia.
      assert (Ew : wrap_u32 (t mod 1000000000) = t mod 1000000000) by (apply wrap_u32_id, is_u32_iff; lia).
      rewrite (Z.mul_comm a uc). fold x.
      remember (t / 1000000000) as q eqn:Eq. remember (t mod 1000000000) as m eqn:Em. symmetry in Et9, Em.
      clear Eq.
      assert (Key : (let? s0 := chk is_u64 (s * uc) in chk is_u64 (s0 + q)) =
                    if uc * s + q <=? 18446744073709551615 then Some (uc * s + q) else None).
      { destruct (chk_spec is_u64 (s * uc)) as [[H E]|[H E]]; rewrite E; cbn [obind].
        - rewrite chk_u64_leb by nia. rewrite (Z.mul_comm s uc). reflexivity.
        - rewrite <- not_true_iff_false, is_u64_iff in H.
          destruct (Z.leb_spec (uc * s + q) 18446744073709551615); [nia|reflexivity]. }
      assert (Big : 18446744073709551615 < uc * s + q -> 18446744073709551616 * 1000000000 <= N) by lia.
      clearbody x. clear Hd Hm.
      destruct (chk_spec is_u64 x) as [[H E]|[H E]]; rewrite E.
      * rewrite Et, Key. destruct (Z.leb_spec (uc * s + q) 18446744073709551615) as [L|L].
        -- rewrite Et9, Em, Ew, std_new_ok by lia. cbn [bind]. f_equal. apply Fin; nia.
        -- f_equal. apply Sat. lia.
      * destruct (chk_spec is_u64 (s * uc)) as [[H2 E2]|[H2 E2]]; rewrite E2 in *; cbn [obind] in Key.
        -- rewrite arith_ok by (apply is_u128_iff; lia). cbn [bind].
           rewrite Et. rewrite chk_true by (apply is_u64_iff; lia). cbn [unwrap bind].
           rewrite Key. destruct (Z.leb_spec (uc * s + q) 18446744073709551615) as [L|L].
           ++ rewrite Et9, Em, Ew, std_new_ok by lia. cbn [bind]. f_equal. apply Fin; nia.
           ++ f_equal. apply Sat. lia.
        -- f_equal. apply Sat. rewrite <- not_true_iff_false, is_u64_iff in H2. nia.
Qed.

(** ** DurationRepr::parse *)

Lemma floor_scale10_nonneg V k : 0 <= V -> 0 <= floor_scale10 V k.
Proof.
  intros H. unfold floor_scale10. destruct (Z.leb_spec 0 k).
  - pose proof (Z.pow_pos_nonneg 10 k). nia.
  - apply Z.div_pos; [lia|]. pose proof (Z.pow_pos_nonneg 10 (- k)). lia.
Qed.

Lemma finish_number_spec is_neg c W F e : digit_string W -> digit_string F -> is_i64 c = true -> c <> 0 ->
  finish_number is_neg c (split_spec W F e) =
  Ok (number_result is_neg (dval (W ++ F)) (e - Z.of_nat (length F)) c).
Proof.
  intros DW DF Hc Nc. unfold split_spec, number_result, magnitude.
  replace (18 + (e - Z.of_nat (length F))) with (18 + e - Z.of_nat (length F)) by lia.
  assert (D : digit_string (W ++ F)) by (apply digit_string_app; auto).
  pose proof (floor_scale10_nonneg _ (18 + e - Z.of_nat (length F)) (dval_nonneg _ D)) as HA.
  set (A := floor_scale10 _ _) in *. clearbody A. clear - HA Hc Nc.
  destruct (Z.eqb_spec c 0); [lia|]. rewrite orb_false_r.
  pose proof (Z.div_mod A (10 ^ 18) ltac:(lia)) as Hd. pose proof (Z.mod_pos_bound A (10 ^ 18) ltac:(lia)) as Hm.
  assert (0 <= A / 10 ^ 18) by (apply Z.div_pos; lia).
  destruct (Z.leb_spec (A / 10 ^ 18) u64_max) as [L|L]; cbn [finish_number].
  - rewrite calculate_duration_spec by (try assumption; lia).
    replace (A / 10 ^ 18 * 10 ^ 18 + A mod 10 ^ 18) with A by lia. reflexivity.
  - destruct (Z.eqb_spec A 0) as [->|NA]; [cbn in L; unfold u64_max in L; lia|].
    rewrite Z.min_l.
    + unfold min_or_max. destruct is_neg; reflexivity.
    + apply Z.div_le_lower_bound; [lia|]. unfold u64_max in L. rewrite max_nanos_val.
      set (q := A / 10 ^ 18) in *. clearbody q. change (10 ^ 18) with 1000000000000000000 in *. nia.
Qed.

Definition opt_unit (r : repr) : time_unit := match r_unit r with Some u => u | None => r_default_unit r end.

Lemma mul_checked_mul_Some a b c e : mul_checked_mul a b = Some (Mul c e) ->
  c = coef a * coef b /\ e = expo a + expo b /\ is_i64 c = true /\ is_i16 e = true.
Proof.
  unfold mul_checked_mul. destruct (chk_spec is_i64 (coef a * coef b)) as [[H E]|[H E]]; rewrite E; [|discriminate].
  cbn [obind]. destruct (chk_spec is_i16 (expo a + expo b)) as [[H2 E2]|[H2 E2]]; rewrite E2; [|discriminate].
  cbn [obind]. intros [= <- <-]. auto.
Qed.

(** a repr holding a number *)
Lemma repr_parse_number r W F c e :
  r_is_infinite r = false ->
  (r_whole r <> None \/ r_fract r <> None) ->
  opt_slice (r_input r) (r_whole r) = Ok W -> opt_slice (r_input r) (r_fract r) = Ok F ->
  digit_string W -> digit_string F ->
  mul_checked_mul (unit_multiplier (opt_unit r)) (r_multiplier r) = Some (Mul c e) ->
  is_i16 (r_exponent r) = true ->
  repr_parse r = Ok (number_result (xorb (neg_or_default (r_is_negative r)) (c <? 0))
                        (dval (W ++ F)) (e + r_exponent r - Z.of_nat (length F)) c).
Proof.
  intros Hi Hn HW HF DW DF Hm He. unfold repr_parse. rewrite Hi.
  pose proof (mul_checked_mul_Some _ _ _ _ Hm) as (_ & _ & Hc & He').
  match goal with |- match r_whole r with _ => _ end = ?rhs =>
    assert (G : (let* m := mul_mul (unit_multiplier (opt_unit r)) (r_multiplier r) in
        let coefficient := coef m in
        if coefficient =? 0 then Ok ZERO
        else
          let* exponent := arith is_i32 (expo m + r_exponent r) in
          let is_neg := xorb (neg_or_default (r_is_negative r)) (coefficient <? 0) in
          let* o := split_number (r_input r) exponent (r_whole r) (r_fract r) in
          finish_number is_neg coefficient o) = rhs) end.
  { unfold mul_mul. rewrite Hm. cbn [unwrap bind coef expo].
    destruct (Z.eqb_spec c 0) as [->|Nc].
    - unfold number_result. cbn [Z.eqb]. now rewrite orb_true_r.
    - apply is_i16_iff in He, He'.
      rewrite arith_ok by (apply is_i32_iff; lia). cbn [bind].
      rewrite (split_number_spec _ _ _ _ W F) by assumption. cbn [bind].
      now rewrite finish_number_spec. }
  destruct (r_whole r) as [w|], (r_fract r) as [f|]; try exact G.
  destruct Hn; congruence.
Qed.

Lemma repr_parse_infinite r : r_is_infinite r = true ->
  repr_parse r = Ok (if neg_or_default (r_is_negative r) then MIN else MAX).
Proof. intros H. unfold repr_parse. rewrite H. unfold from_std. destruct (neg_or_default _); reflexivity. Qed.

(** keywords, units without a number, numerals *)
Lemma fixed_number_spec r c e : is_i64 c = true ->
  parse_duration_with_fixed_number r c e = Ok (fixed_result (neg_or_default (r_is_negative r)) c e).
Proof.
  intros Hc. unfold parse_duration_with_fixed_number, fixed_result.
  destruct (Z.eqb_spec c 0) as [->|Nc]; [reflexivity|].
  pose proof Hc as Hc'. apply is_i64_iff in Hc'.
  destruct (Z.compare_spec e 0) as [->|L|L].
  - change (0 <? -18) with false. change (19 <? 0) with false. cbn [Z.add].
    rewrite std_new_ok by lia. cbn [bind]. f_equal. unfold from_std. f_equal.
    unfold floor_scale10. change (0 <=? 9) with true. cbn iota. change (10 ^ 9) with 1000000000.
    rewrite Z.min_r by (rewrite max_nanos_val; lia).
    unfold std_of_nanos. rewrite Z.div_mul, Z.mod_mul by lia. reflexivity.
  - destruct (Z.ltb_spec 19 e); [lia|].
    destruct (Z.ltb_spec e (-18)); [reflexivity|].
    rewrite arith_ok by (apply is_i16_iff; lia). cbn [bind]. rewrite pow10_ok by lia. cbn [bind].
    rewrite Z2Nat.id by lia.
    assert (P : 0 < 10 ^ (18 + e) < 10 ^ 18).
    { split; [apply Z.pow_pos_nonneg; lia|apply Z.pow_lt_mono_r; lia]. }
    rewrite calculate_duration_spec by (try assumption; unfold u64_max; lia).
    rewrite Z.mul_0_l, Z.add_0_l. destruct (Z.eqb_spec (10 ^ (18 + e)) 0); [lia|].
    f_equal. f_equal. f_equal. f_equal. unfold floor_scale10.
    destruct (Z.leb_spec 0 (9 + e)) as [K|K].
    + replace (10 ^ (18 + e)) with (10 ^ (9 + e) * 1000000000).
      * rewrite Z.mul_assoc, Z.div_mul; lia.
      * change 1000000000 with (10 ^ 9). rewrite <- Z.pow_add_r by lia. f_equal. lia.
    + replace 1000000000 with (10 ^ (- (9 + e)) * 10 ^ (18 + e)).
      * rewrite Z.div_mul_cancel_r; [reflexivity| |lia].
        pose proof (Z.pow_pos_nonneg 10 (- (9 + e))). lia.
      * rewrite <- Z.pow_add_r by lia. replace (- (9 + e) + (18 + e)) with 9 by lia. reflexivity.
  - destruct (Z.ltb_spec e (-18)); [lia|].
    destruct (Z.ltb_spec 19 e); [reflexivity|].
    rewrite pow10_ok by lia. cbn [bind]. rewrite Z2Nat.id by lia.
    assert (P : 0 < 10 ^ e <= 10 ^ 19).
    { split; [apply Z.pow_pos_nonneg; lia|apply Z.pow_le_mono_r; lia]. }
    rewrite calculate_duration_spec by (try assumption; unfold u64_max; lia).
    rewrite Z.add_0_r. destruct (Z.eqb_spec (10 ^ e * 10 ^ 18) 0); [lia|].
    f_equal. f_equal. f_equal. f_equal. unfold floor_scale10.
    destruct (Z.leb_spec 0 (9 + e)) as [K|K]; [|lia].
    replace (Z.abs c * (10 ^ e * 10 ^ 18)) with (Z.abs c * 10 ^ (9 + e) * 1000000000).
    + rewrite Z.div_mul; lia.
    + rewrite Z.pow_add_r by lia. change (10 ^ 18) with (10 ^ 9 * 1000000000). ring.
Qed.

Lemma repr_parse_unit r u c e :
  r_is_infinite r = false -> r_whole r = None -> r_fract r = None -> r_numeral r = None ->
  r_unit r = Some u ->
  mul_checked_mul (unit_multiplier u) (r_multiplier r) = Some (Mul c e) ->
  repr_parse r = Ok (fixed_result (neg_or_default (r_is_negative r)) c e).
Proof.
  intros H1 H2 H3 H4 H5 Hm. unfold repr_parse. rewrite H1, H2, H3, H4, H5. unfold mul_mul. rewrite Hm.
  cbn [unwrap bind coef expo]. apply fixed_number_spec. apply mul_checked_mul_Some in Hm. tauto.
Qed.

Lemma repr_parse_numeral r u n m1 c e :
  r_is_infinite r = false -> r_whole r = None -> r_fract r = None -> r_numeral r = Some n ->
  r_unit r = Some u ->
  mul_checked_mul n (unit_multiplier u) = Some m1 ->
  mul_checked_mul m1 (r_multiplier r) = Some (Mul c e) ->
  repr_parse r = Ok (fixed_result (neg_or_default (r_is_negative r)) c e).
Proof.
  intros H1 H2 H3 H4 H5 Hm1 Hm. unfold repr_parse. rewrite H1, H2, H3, H4, H5. cbn [unwrap bind]. unfold mul_mul. rewrite Hm1.
  cbn [unwrap bind]. rewrite Hm.
  cbn [unwrap bind coef expo]. apply fixed_number_spec. apply mul_checked_mul_Some in Hm. tauto.
Qed.
