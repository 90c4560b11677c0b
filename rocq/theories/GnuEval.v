(** * The gnu parser: evaluating the components, and the loop over them *)
From Verif Require Import Prelude Util Time Config Bytes Repr Parse SpecTime SpecNum SpecValue SpecParse SpecGrammar SpecSystemd
  TimeProofs NumProofs ReprProofs Utf8Proofs BytesProofs SafeProofs RefParse RefProofs RefSingle RefMulti Systemd SystemdProofs
  SpecGnu Gnu GnuWords GnuRef.

Definition item_base (it : item) : Z :=
  match i_whole it with Some W => dval W | None => match i_numeral it with Some k => coef k | None => 1 end end.
Definition item_um (it : item) : time_unit * multiplier := match i_unit it with Some um => um | None => (Second, Mul 1 0) end.
Definition item_amount (it : item) : option amount :=
  let '(u, m) := item_um it in
  match i_fract it with
  | None =>
      let v := with_sign (i_neg it) (item_base it * coef m) in
      Some (match u with
            | Month => Months (clamp_i64 v)
            | Year => Years (clamp_i64 v)
            | _ => Nanos (clamp_nanos (v * coef (unit_multiplier u) * 1000000000))
            end)
  | Some F =>
      match i_whole it with
      | Some W =>
          if time_unit_eqb u Second && negb (is_empty F)
          then Some (Nanos (clamp_nanos (with_sign (i_neg it) (dval (W ++ F) * 1000000000 / 10 ^ Z.of_nat (length F) * coef m))))
          else None
      | None => None
      end
  end.

Definition output_is (o : fuzzy_output) (a : amount) : Prop :=
  match o, a with
  | FDuration d, Nanos v => duration_ok d /\ nanos d = v
  | FMonths x, Months v => x = v
  | FYears x, Years v => x = v
  | _, _ => False
  end.

Lemma mul_mul_small a b : Z.abs (coef a) <= 10 ^ 9 -> Z.abs (coef b) <= 10 ^ 9 -> expo a = 0 -> expo b = 0 ->
  mul_mul a b = Ok (Mul (coef a * coef b) 0).
Proof. intros. unfold mul_mul. now rewrite small_fits. Qed.


Lemma dur_clamp n N : 0 <= N ->
  let d := Dur n (std_of_nanos (Z.min max_nanos N)) in duration_ok d /\ nanos d = clamp_nanos (with_sign n N).
Proof.
  intros HN d. pose proof max_nanos_val as MV.
  destruct (std_of_nanos_ok (Z.min max_nanos N)) as [O E]; [lia|].
  split; [exact O|]. unfold d, nanos. cbn [neg inner]. unfold std_nanos in E. rewrite E.
  unfold clamp_nanos, clamp, with_sign. destruct n; lia.
Qed.
Lemma sign_mul n c N : with_sign (xorb n (c <? 0)) (Z.abs c * N) = with_sign n (c * N).
Proof. unfold with_sign. destruct (Z.ltb_spec c 0), n; cbn [xorb]; lia. Qed.

Lemma gnu_calc_spec n V f c : 0 <= V -> 0 <= f < 10 ^ 18 -> is_i64 c = true -> c <> 0 -> f = 0 \/ c = 1 \/ c = -1 ->
  exists d, gnu_calculate (xorb n (c <? 0)) (chk is_u64 V) (Ok f) c = Ok d /\ duration_ok d /\
    nanos d = clamp_nanos (with_sign n (c * ((V * 10 ^ 18 + f) / 1000000000))).
Proof.
  intros HV Hf Hc Nc Hs. unfold gnu_calculate, chk. destruct (is_u64 V) eqn:EV.
  - apply is_u64_iff in EV. cbn [bind]. eexists. split; [apply calculate_duration_spec; auto; unfold u64_max; lia|].
    set (A := V * 10 ^ 18 + f). assert (HA : 0 <= A) by (unfold A; nia).
    assert (EN : Z.abs c * A / 1000000000 = Z.abs c * (A / 1000000000)).
    { destruct Hs as [->|Hs].
      - unfold A. rewrite Z.add_0_r. replace (10 ^ 18) with (10 ^ 9 * 1000000000) by reflexivity.
        rewrite !Z.mul_assoc. rewrite !Z.div_mul by lia. lia.
      - replace (Z.abs c) with 1 by lia. now rewrite !Z.mul_1_l. }
    destruct (Z.eqb_spec A 0) as [E0|N0].
    + split; [apply ZERO_ok|]. rewrite nanos_ZERO, E0, Z.div_0_l, Z.mul_0_r by lia. unfold with_sign. now destruct n.
    + rewrite <- sign_mul, EN. apply dur_clamp. apply Z.mul_nonneg_nonneg; [lia|]. apply Z.div_pos; lia.
  - assert (HV' : 2 ^ 64 <= V).
    { destruct (Z_lt_le_dec V (2 ^ 64)) as [L|L]; [|exact L]. assert (is_u64 V = true) by (apply is_u64_iff; lia). congruence. }
    eexists. split; [reflexivity|].
    assert (HB : 2 ^ 64 * 1000000000 <= (V * 10 ^ 18 + f) / 1000000000).
    { apply Z.div_le_lower_bound; lia. }
    rewrite <- sign_mul. set (N := (V * 10 ^ 18 + f) / 1000000000) in *.
    assert (HC : max_nanos <= Z.abs c * N) by (unfold max_nanos; nia).
    unfold min_or_max, with_sign. destruct (xorb n (c <? 0)).
    + split; [apply MIN_ok|]. rewrite nanos_MIN. unfold clamp_nanos, clamp. unfold max_nanos in *. lia.
    + split; [apply MAX_ok|]. rewrite nanos_MAX. unfold clamp_nanos, clamp. unfold max_nanos in *. lia.
Qed.

Lemma um_default_small : um_small (Second, Mul 1 0).
Proof. constructor; cbn; auto; lia. Qed.
Lemma dval_ge0 l : digit_string l -> 0 <= dval l.
Proof. intros H. unfold dval. apply dval_from_ge; [exact H|lia]. Qed.

Lemma item_um_small it : item_ok it -> um_small (item_um it) /\ (i_whole it <> None -> coef (snd (item_um it)) <> 0).
Proof.
  intros []. unfold item_um. destruct (i_unit it) as [um|]; [now apply io_unit|]. split; [apply um_default_small|]. cbn. lia.
Qed.

(** the value of months and years *)
Lemma fuzzy_value_spec s it r : item_ok it -> item_repr s it r -> i_fract it = None ->
  coef (snd (item_um it)) = 1 \/ coef (snd (item_um it)) = -1 ->
  gnu_fuzzy_value r = Ok (clamp_i64 (with_sign (i_neg it) (item_base it * coef (snd (item_um it))))).
Proof.
  intros Hok [Ein Ed En Ew Ef Enu Eu Em] Hf Hc. unfold gnu_fuzzy_value, item_base.
  assert (EM : r_multiplier r = snd (item_um it)) by (rewrite Em; unfold item_um; now destruct (i_unit it)).
  rewrite EM. set (m := snd (item_um it)) in *. rewrite En.
  assert (Hneg : mul_is_negative m = (coef m <? 0)).
  { unfold mul_is_negative, mul_is_positive. destruct Hc as [-> | ->]; reflexivity. }
  rewrite Hneg.
  assert (Se : expo m = 0) by (destruct (item_um_small it Hok) as [[] _]; assumption).
  destruct Hok as [_ On _ [DW _]].
  destruct (i_whole it) as [W|].
  - destruct Ew as (w & W0 & z & -> & Sl & D0 & -> & Hz). rewrite Ein, Sl. cbn [bind].
    rewrite whole_parse_spec by (try assumption; apply digit_string_nil). cbn [opt_str opt_nat Z.of_nat bind].
    rewrite app_nil_r, Z.pow_0_r, Z.mul_1_r, dval_zeros_app by assumption.
    pose proof (dval_ge0 W0 D0) as P0. set (v := dval W0) in *. unfold chk.
    assert (E : (let? v0 := if is_u64 v then Some v else None in if is_i64 v0 then Some v0 else None) = if is_i64 v then Some v else None).
    { destruct (is_u64 v) eqn:E1; [reflexivity|]. destruct (is_i64 v) eqn:E2; [|reflexivity].
      apply is_i64_iff in E2. assert (is_u64 v = true) by (apply is_u64_iff; lia). congruence. }
    rewrite E. clear E. destruct (is_i64 v) eqn:E2.
    + apply is_i64_iff in E2. unfold with_sign, clamp_i64, clamp, arith.
      destruct Hc as [-> | ->]; destruct (i_neg it); cbn [xorb Z.ltb Z.compare];
        try (replace (is_i64 (- v)) with true by (symmetry; apply is_i64_iff; lia)); f_equal; lia.
    + assert (HV : 2 ^ 63 <= v).
      { destruct (Z_lt_le_dec v (2 ^ 63)) as [L|L]; [|exact L]. assert (is_i64 v = true) by (apply is_i64_iff; lia). congruence. }
      unfold with_sign, clamp_i64, clamp, i64_min, i64_max.
      destruct Hc as [-> | ->]; destruct (i_neg it); cbn [xorb Z.ltb Z.compare]; f_equal; lia.
  - rewrite Ew, Enu. destruct (i_numeral it) as [k|].
    + destruct (On k eq_refl) as (K1 & K2 & _). rewrite mul_mul_small by lia. cbn [bind coef].
      unfold with_sign, clamp_i64, clamp, i64_min, i64_max.
      destruct (i_neg it); [|f_equal; lia]. destruct (Z.eqb_spec (coef k * coef m) (-9223372036854775808)); f_equal; lia.
    + unfold with_sign, clamp_i64, clamp. destruct Hc as [-> | ->]; destruct (i_neg it); cbn [xorb Z.ltb Z.compare]; f_equal; lia.
Qed.

Lemma fraction_nanos W F : digit_string W -> digit_string F ->
  (dval W * 10 ^ 18 + dval F * 10 ^ 18 / 10 ^ Z.of_nat (length F)) / 1000000000 =
  dval (W ++ F) * 1000000000 / 10 ^ Z.of_nat (length F).
Proof.
  intros DW DF. rewrite dval_app. set (p := 10 ^ Z.of_nat (length F)).
  assert (Hp : 0 < p) by (apply Z.pow_pos_nonneg; lia).
  rewrite <- Z.div_add_l by lia. rewrite Z.div_div by lia.
  replace (dval W * 10 ^ 18 * p + dval F * 10 ^ 18) with ((dval W * p + dval F) * 1000000000 * 1000000000) by lia.
  now rewrite Z.div_mul_cancel_r by lia.
Qed.

Lemma neg_cases it : i_neg it = true \/ i_neg it = false. Proof. destruct (i_neg it); auto. Qed.

(** durations *)
Lemma repr_parse_spec s it r : item_ok it -> item_repr s it r ->
  fst (item_um it) <> Month -> fst (item_um it) <> Year ->
  sim (fun d a => duration_ok d /\ a = Nanos (nanos d)) (gnu_repr_parse r) (item_amount it).
Proof.
  intros Hok [Ein Ed En Ew Ef Enu Eu Em] NM NY. unfold gnu_repr_parse, item_amount, item_base.
  assert (EM : r_multiplier r = snd (item_um it)) by (rewrite Em; unfold item_um; now destruct (i_unit it)).
  assert (EU : match r_unit r with Some u => u | None => r_default_unit r end = fst (item_um it)).
  { rewrite Eu, Ed. unfold item_um. now destruct (i_unit it). }
  rewrite EU, EM, En, Ein. clear EU. destruct (item_um_small it Hok) as [[S1 S2 S3 S4 S5] S6].
  pose proof Hok as [_ On Os [DW DF]].
  destruct (item_um it) as [u m] eqn:Eum. cbn [fst snd] in *.
  assert (MU : mul_mul (unit_multiplier u) m = Ok (Mul (coef (unit_multiplier u) * coef m) 0)) by (apply mul_mul_small; lia || assumption).
  set (cu := coef (unit_multiplier u)) in *.
  assert (IC : is_i64 (cu * coef m) = true) by (apply is_i64_iff; nia).
  assert (SG : forall n, xorb n (cu * coef m <? 0) = xorb n (coef m <? 0)).
  { intros n. f_equal. destruct (Z.ltb_spec (cu * coef m) 0), (Z.ltb_spec (coef m) 0); try reflexivity; nia. }
  assert (OUT : forall v d, duration_ok d -> nanos d = clamp_nanos (with_sign (i_neg it) (cu * coef m * (v * 10 ^ 18 / 1000000000))) ->
     sim (fun d a => duration_ok d /\ a = Nanos (nanos d)) (Ok d)
       (Some (match u with
            | Month => Months (clamp_i64 (with_sign (i_neg it) (v * coef m)))
            | Year => Years (clamp_i64 (with_sign (i_neg it) (v * coef m)))
            | _ => Nanos (clamp_nanos (with_sign (i_neg it) (v * coef m) * cu * 1000000000))
            end))).
  { intros v d Od Ev. cbn [sim]. split; [exact Od|]. rewrite Ev. replace (v * 10 ^ 18) with (v * 1000000000 * 1000000000) by lia.
    rewrite Z.div_mul by lia.
    assert (EE : with_sign (i_neg it) (v * coef m) * cu * 1000000000 = with_sign (i_neg it) (cu * coef m * (v * 1000000000))).
    { unfold with_sign. destruct (i_neg it); lia. }
    rewrite EE. destruct u; congruence. }
  destruct (i_whole it) as [W|] eqn:EWh.
  - destruct Ew as (w & W0 & z & -> & Sl & D0 & -> & Hz). specialize (DW _ eq_refl).
    assert (NC : coef m <> 0) by (apply S6; discriminate).
    assert (NC' : cu * coef m <> 0) by nia.
    assert (WP : whole_parse W0 None None = Ok (chk is_u64 (dval (z ++ W0)))).
    { rewrite whole_parse_spec by (try assumption; apply digit_string_nil). cbn [opt_str opt_nat Z.of_nat].
      now rewrite app_nil_r, Z.pow_0_r, Z.mul_1_r, dval_zeros_app by assumption. }
    pose proof (dval_ge0 _ DW) as PV. set (V := dval (z ++ W0)) in *.
    destruct (i_fract it) as [F|].
    + destruct Ef as (f & -> & Slf & DF'). destruct (time_unit_eqb u Second) eqn:Eu2; cbn [andb]; [|exact I].
      assert (u = Second) by (destruct u; congruence || discriminate). subst u.
      assert (RE : range_is_empty f = is_empty F).
      { revert Slf. unfold range_slice, range_is_empty. destruct f as [a b]. cbn [fst snd]. intros Slf.
        apply slice_ok in Slf. destruct Slf as (L1 & _ & L2). destruct F; cbn [length is_empty] in *; [apply Nat.eqb_eq|apply Nat.eqb_neq]; lia. }
      rewrite RE. destruct F as [|y F']; cbn [is_empty negb]; [exact I|]. set (F := y :: F') in *.
      rewrite MU. cbn [bind]. rewrite Sl. cbn [bind]. rewrite WP. cbn [bind coef]. rewrite Slf. cbn [bind].
      rewrite fract_parse_spec by (try assumption; apply digit_string_nil). cbn [opt_str opt_nat app Nat.add].
      assert (HF : 0 <= dval F * 10 ^ 18 / 10 ^ Z.of_nat (length F) < 10 ^ 18).
      { pose proof (dval_ge0 F DF') as P1. pose proof (dval_bound F DF') as P2. assert (0 < 10 ^ Z.of_nat (length F)) by (apply Z.pow_pos_nonneg; lia).
        split; [apply Z.div_pos; nia|]. apply Z.div_lt_upper_bound; nia. }
      destruct (gnu_calc_spec (i_neg it) V (dval F * 10 ^ 18 / 10 ^ Z.of_nat (length F)) (cu * coef m)) as (d & -> & Od & Ev); auto.
      { right. assert (cu = 1) by reflexivity. destruct (S5 (or_intror (or_intror eq_refl))); lia. }
      cbn [sim]. split; [exact Od|]. rewrite Ev. unfold V. rewrite fraction_nanos by assumption. do 3 f_equal.
      assert (cu = 1) by reflexivity. rewrite Z.mul_comm. f_equal. lia.
    + rewrite Ef, MU. cbn [bind]. rewrite Sl. cbn [bind]. rewrite WP. cbn [bind coef].
      destruct (gnu_calc_spec (i_neg it) V 0 (cu * coef m)) as (d & -> & Od & Ev); auto; [lia|].
      rewrite Z.add_0_r in Ev. now apply OUT.
  - rewrite Ew. destruct (i_fract it) as [F|].
    + destruct Ef as (f & -> & _). destruct (time_unit_eqb u Second); exact I.
    + rewrite Ef, Enu. destruct (i_numeral it) as [k|].
      * destruct (On k eq_refl) as (K1 & K2 & _). rewrite mul_mul_small by lia. cbn [bind].
        fold cu. assert (HK : -31557600 <= coef k * cu <= 378691200) by nia.
        rewrite mul_mul_small; cbn [coef expo]; try lia. cbn [bind coef expo].
        assert (IC2 : is_i64 (coef k * cu * coef m) = true) by (apply is_i64_iff; nia).
        rewrite fixed_number_spec by exact IC2. rewrite En. unfold fixed_result. cbn [Z.ltb Z.compare Z.add].
        destruct (Z.eqb_spec (coef k * cu * coef m) 0) as [E0|N0].
        { apply (OUT (coef k)); [apply ZERO_ok|]. rewrite nanos_ZERO.
          replace (coef k * 10 ^ 18) with (coef k * 10 ^ 9 * 1000000000) by lia. rewrite Z.div_mul by lia.
          replace (cu * coef m * (coef k * 10 ^ 9)) with 0 by lia. unfold with_sign. now destruct (i_neg it). }
        unfold floor_scale10. change (0 <=? 9) with true. cbv iota.
        rewrite xorb_comm. destruct (dur_clamp (xorb (i_neg it) (coef k * cu * coef m <? 0)) (Z.abs (coef k * cu * coef m) * 10 ^ 9)) as [Od Ev]; [lia|].
        apply (OUT (coef k)); [exact Od|]. rewrite Ev, sign_mul.
        replace (coef k * 10 ^ 18) with (coef k * 10 ^ 9 * 1000000000) by lia. rewrite Z.div_mul by lia. do 2 f_equal. lia.
      * specialize (Os eq_refl eq_refl). rewrite Eu. destruct (i_unit it) as [um|] eqn:EI; [|congruence]. cbn [option_map].
        rewrite MU. cbn [bind coef].
        destruct (Z.eqb_spec (cu * coef m) 0) as [E0|N0].
        { unfold calculate_duration. rewrite E0. cbn [Z.eqb orb andb]. apply (OUT 1); [apply ZERO_ok|].
          rewrite nanos_ZERO, E0. unfold with_sign. now destruct (i_neg it). }
        destruct (gnu_calc_spec (i_neg it) 1 0 (cu * coef m)) as (d & Ec & Od & Ev); auto; [lia|lia|].
        unfold gnu_calculate, chk in Ec. cbn [is_u64 bind] in Ec. change (is_u64 1) with true in Ec. cbn iota in Ec. rewrite Ec.
        apply (OUT 1); auto.
Qed.

(** parse_fuzzy of one component *)
Lemma eval_item s it r : item_ok it -> item_repr s it r ->
  sim output_is (gnu_repr_parse_fuzzy r) (item_amount it).
Proof.
  intros Hok Hr. unfold gnu_repr_parse_fuzzy.
  pose proof (fuzzy_value_spec s it r Hok Hr) as HF. pose proof (repr_parse_spec s it r Hok Hr) as HP.
  destruct Hr as [_ Ed _ _ Ef _ Eu _].
  destruct (item_um_small it Hok) as [[_ _ _ _ S5] _].
  assert (E0 : r_unit r = None \/ r_unit r = Some (fst (item_um it))).
  { rewrite Eu. unfold item_um. destruct (i_unit it); cbn; auto. }
  assert (E1 : r_unit r = None -> fst (item_um it) = Second).
  { rewrite Eu. unfold item_um. destruct (i_unit it); [discriminate|reflexivity]. }
  assert (D : forall (Nm : fst (item_um it) <> Month) (Ny : fst (item_um it) <> Year),
    sim output_is (let* d := gnu_repr_parse r in Ok (FDuration d)) (item_amount it)).
  { intros Nm Ny. specialize (HP Nm Ny). destruct (gnu_repr_parse r), (item_amount it); try exact HP.
    cbn [sim bind] in *. destruct HP as [O ->]. cbn. auto. }
  destruct E0 as [E0|E0].
  { rewrite E0. apply D; rewrite (E1 E0); discriminate. }
  rewrite E0. destruct (fst (item_um it)) eqn:Eu'; try (apply D; discriminate); clear D HP;
    unfold item_amount; destruct (item_um it) as [u m] eqn:Eum; cbn [fst snd] in *; subst u; destruct (i_fract it) as [F|].
  all: try (destruct Ef as (f & -> & _); destruct (i_whole it); exact I).
  all: rewrite Ef, HF by auto; cbn [bind sim output_is]; reflexivity.
Qed.

(** ** the loop *)
Lemma g_item_progress l it r : utf8 l = true -> g_item l = Some (it, r) -> (length r < length l)%nat /\ utf8 r = true.
Proof.
  intros U E. pose proof gnu_env_ok as HE.
  pose proof (sim_item l _ l (SC_init _ l U)) as S0. rewrite E in S0.
  pose proof (hoare_template_parse multi gc gu gk gn l (multi_out l) (fun n m o => multi_out_mono l n m o)
     (multi_ok gc gu gk gn l HE) HE 0 _ (inv_new l U) (bytes_new_end l)) as H0.
  destruct (template_parse multi (bytes_new l) gc gu gk gn) as [[rp mp]|?|?]; [|contradiction|contradiction].
  cbn [sim hoare] in *. destruct S0 as [_ [_ S0]]. destruct H0 as [_ H0]. cbn [fst snd] in *.
  destruct l as [|x l]; [discriminate|].
  destruct mp as [b|]; [|subst r; split; [cbn [length]; lia|reflexivity]].
  destruct H0 as [H0 _]. destruct S0 as [_ S0]. pose proof (SC_pos _ _ _ _ S0). pose proof (inv_le _ _ _ H0).
  split; [lia|exact (SC_utf8 _ _ _ _ S0)].
Qed.

Fixpoint g_items (fuel : nat) (l : str) : option (list amount) :=
  match fuel with
  | O => None
  | S f =>
      let? (it, r) := g_item l in
      let? a := item_amount it in
      match r with
      | [] => Some [a]
      | _ => let? l := g_items f r in Some (a :: l)
      end
  end.

Definition sums_from (y m n : Z) (l : list amount) : Z * Z * Z :=
  (fold_left (fun t a => match a with Years v => clamp_i64 (t + v) | _ => t end) l y,
   fold_left (fun t a => match a with Months v => clamp_i64 (t + v) | _ => t end) l m,
   fold_left (fun t a => match a with Nanos v => clamp_nanos (t + v) | _ => t end) l n).

Lemma saturating_clamp a b : i64_saturating_add a b = clamp_i64 (a + b). Proof. reflexivity. Qed.

Lemma sim_fuzzy_loop s : forall fuel b l y m d, SC (keyword_end gc) s b l -> (length l < fuel)%nat -> duration_ok d ->
  sim (fun x as_ => let '(y', m', d') := x in duration_ok d' /\ (y', m', nanos d') = sums_from y m (nanos d) as_)
    (gnu_fuzzy_loop fuel gc y m d b) (g_items fuel l).
Proof.
  induction fuel as [|f IH]; intros b l y m d H L O0; [lia|]. cbn [gnu_fuzzy_loop g_items].
  pose proof (sim_item s b l H) as S0.
  pose proof (fun it r => g_item_progress l it r (SC_utf8 _ _ _ _ H)) as Pr.
  destruct (g_item l) as [[it r]|].
  2:{ destruct (template_parse _ _ _ _ _ _); [contradiction|exact I|contradiction]. }
  destruct (template_parse multi b gc gu gk gn) as [[rp mp]|?|?]; [|contradiction|contradiction].
  cbn [sim bind obind] in *. destruct S0 as [Hok [Hr S0]]. cbn [fst snd] in *.
  specialize (Pr it r eq_refl). destruct Pr as (Pl & Ur).
  pose proof (eval_item s it rp Hok Hr) as SE.
  destruct (item_amount it) as [a|].
  2:{ destruct (gnu_repr_parse_fuzzy rp); [contradiction|exact I|contradiction]. }
  destruct (gnu_repr_parse_fuzzy rp) as [out|?|?]; [|contradiction|contradiction]. cbn [sim bind obind] in *.
  assert (A : exists y1 m1 d1,
     match out with
      | FDuration parsed =>
          if is_zero d then Ok (y, m, parsed)
          else if is_zero parsed then Ok (y, m, d)
          else let* d := saturating_add d parsed in Ok (y, m, d)
      | FMonths v => Ok (y, i64_saturating_add m v, d)
      | FYears v => Ok (i64_saturating_add y v, m, d)
      end = Ok (y1, m1, d1) /\ duration_ok d1 /\ forall as_, sums_from y m (nanos d) (a :: as_) = sums_from y1 m1 (nanos d1) as_).
  { destruct out as [p|v|v], a as [w|w|w]; cbn [output_is] in SE; try contradiction.
    - destruct SE as [Op Ep]. subst w.
      assert (A : exists d1, (if is_zero d then Ok p else if is_zero p then Ok d else saturating_add d p) = Ok d1 /\
        duration_ok d1 /\ nanos d1 = clamp_nanos (nanos d + nanos p)).
      { destruct (is_zero d) eqn:Z2.
        - apply is_zero_iff in Z2; [|assumption]. exists p. rewrite Z2. split; [reflexivity|]. split; [assumption|].
          symmetry. apply clamp_zero_l, nanos_range, Op.
        - destruct (is_zero p) eqn:Z1; [|now apply saturating_add_spec].
          apply is_zero_iff in Z1; [|assumption]. exists d. rewrite Z1. split; [reflexivity|]. split; [assumption|].
          symmetry. apply clamp_zero_r, nanos_range, O0. }
      destruct A as (d1 & E1 & O1 & N1). exists y, m, d1. split; [|split; [exact O1|]].
      + destruct (is_zero d); [congruence|]. destruct (is_zero p); [congruence|]. rewrite E1. reflexivity.
      + intros as_. unfold sums_from. cbn [fold_left]. now rewrite N1.
    - subst w. do 3 eexists. split; [reflexivity|]. split; [exact O0|]. intros as_. reflexivity.
    - subst w. do 3 eexists. split; [reflexivity|]. split; [exact O0|]. intros as_. reflexivity. }
  destruct A as (y1 & m1 & d1 & -> & O1 & N1). cbn [bind].
  destruct mp as [b1|].
  - destruct S0 as [Nr S1]. destruct r as [|x r0] eqn:Er; [congruence|]. rewrite <- Er in *.
    assert (Lf : (length r < f)%nat) by lia. specialize (IH b1 r y1 m1 d1 S1 Lf O1).
    destruct (g_items f r) as [ds|].
    + destruct (gnu_fuzzy_loop f gc y1 m1 d1 b1) as [[[y2 m2] d2]|?|?]; [|contradiction|contradiction]. cbn [sim obind] in *.
      rewrite N1. exact IH.
    + destruct (gnu_fuzzy_loop f gc y1 m1 d1 b1); [contradiction|exact I|contradiction].
  - subst r. cbn [sim]. split; [exact O1|]. rewrite N1. reflexivity.
Qed.

Lemma sim_fuzzy t : utf8 t = true ->
  sim (fun x as_ => let '(y, m, d) := x in duration_ok d /\ y = sum_years as_ /\ m = sum_months as_ /\ nanos d = sum_nanos as_)
    (gnu_fuzzy_loop (S (length t)) gnu_new 0 0 ZERO (bytes_new t)) (g_items (S (length t)) t).
Proof.
  intros U. eapply sim_weaken; [apply (sim_fuzzy_loop t); [now apply SC_init|lia|apply ZERO_ok]|].
  intros [[y m] d] as_ [O E]. rewrite nanos_ZERO in E. unfold sums_from in E. injection E as -> -> E3. auto.
Qed.
