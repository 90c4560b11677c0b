(** * Property C57: greater numbers are greater durations, equal amounts are equal durations *)
From Verif Require Import Prelude Util Time Config Bytes Repr Parse SpecTime SpecNum SpecValue SpecParse SpecGrammar SpecSpelling
  TimeProofs NumProofs ReprProofs ValueProofs SafeProofs RefGrammar SwitchProofs PropParse PropNum ExEnv.

(** the text [s] is the number W.F * 10^e without a sign or with a plus, followed by [r] *)
Definition written (c : config) (s W F : str) (e : Z) (r : str) : Prop := exists l, signed c s false l /\ number c l W F e r.
(** what follows the number is nothing, for the default unit, or a time unit; [m] multiplies the length of [u] *)
Definition amount_unit (c : config) (tu : units_like) (r : str) (u : time_unit) (m : multiplier) : Prop :=
  (r = [] /\ u = c_default_unit c /\ m = Mul 1 0) \/ (r <> [] /\ u_is_empty tu = false /\ single_unit c tu r u m).
(** W.F * 10^e seconds times the unit, as an integer times a power of ten *)
Definition amount_digits (W F : str) (u : time_unit) (m : multiplier) : Z := dval (W ++ F) * (coef (unit_length u) * coef m).
Definition amount_power (F : str) (e : Z) (u : time_unit) (m : multiplier) : Z := expo (unit_length u) + expo m + e - Z.of_nat (length F).
(** V1 * 10^k1 <= V2 * 10^k2 *)
Definition decimal_le (V1 k1 V2 k2 : Z) : Prop := let k := Z.min k1 k2 in V1 * 10 ^ (k1 - k) <= V2 * 10 ^ (k2 - k).
Definition decimal_eq (V1 k1 V2 k2 : Z) : Prop := let k := Z.min k1 k2 in V1 * 10 ^ (k1 - k) = V2 * 10 ^ (k2 - k).

Lemma written_digits c s W F e r : written c s W F e r -> digit_string W /\ digit_string F.
Proof.
  intros (l & _ & l1 & l2 & l3 & (_ & H & _) & Hf & _). 
  assert (D : forall w, (forall x, In x w -> is_digit x = true) -> digit_string w) by (intros w Hw x Hx; specialize (Hw x Hx); unfold is_digit in Hw; lia).
  split; [now apply D|]. destruct Hf as [|l0 F0 r0 _ (_ & H2 & _)]; [intros x []|now apply D].
Qed.
Lemma written_parses c tu kw nums s W F e r u m : env_ok c tu kw nums -> utf8 s = true -> c_allow_multiple c = false ->
  written c s W F e r -> amount_unit c tu r u m -> (coef m < 0 -> c_allow_negative c = true) ->
  parse c s tu kw nums = Ok (number_value false W F e u m).
Proof.
  intros HE U Hm (l & Hs & Hn) Hu Ha. apply C22_single_grammar; auto. split.
  - destruct Hu as [(-> & -> & ->)|(N & Eu & Hu)].
    + now apply sd_number with l.
    + now apply sd_number_unit with l r.
  - apply number_value_allowed. rewrite xorb_false_l. intros H. apply Z.ltb_lt in H. apply Ha. assert (0 < coef (unit_length u)) by (destruct u; cbn; lia). nia.
Qed.
Lemma floor_scale_mono V1 k1 V2 k2 j : 0 <= V1 -> 0 <= V2 -> decimal_le V1 k1 V2 k2 -> floor_scale10 V1 (j + k1) <= floor_scale10 V2 (j + k2).
Proof.
  unfold decimal_le. cbv zeta. intros H1 H2 H. set (k := Z.min k1 k2) in *.
  assert (K1 : 0 <= k1 - k) by lia. assert (K2 : 0 <= k2 - k) by lia.
  assert (G : forall V i, 0 <= V -> 0 <= i -> floor_scale10 V (j + (k + i)) = floor_scale10 (V * 10 ^ i) (j + k)).
  { intros V i HV Hi. replace (j + (k + i)) with (i + (j + k)) by lia. generalize (j + k) as y. intros y.
    unfold floor_scale10. destruct (Z.leb_spec 0 y) as [Y|Y].
    - replace (0 <=? i + y) with true by lia. rewrite Z.pow_add_r by lia. lia.
    - destruct (Z.leb_spec 0 (i + y)).
      + replace (V * 10 ^ i) with (V * 10 ^ (i + y) * 10 ^ (- y)); [now rewrite Z.div_mul by (apply Z.pow_nonzero; lia)|].
        rewrite <- Z.mul_assoc, <- Z.pow_add_r by lia. f_equal. f_equal. lia.
      + replace (- y) with (- (i + y) + i) by lia. rewrite Z.pow_add_r by lia. rewrite Z.div_mul_cancel_r; [reflexivity|apply Z.pow_nonzero; lia..]. }
  replace k1 with (k + (k1 - k)) by lia. replace k2 with (k + (k2 - k)) by lia. rewrite !G by assumption.
  replace (k + (k1 - k) - k) with (k1 - k) in H by lia.
  unfold floor_scale10. destruct (0 <=? j + k) eqn:E.
  - apply Z.mul_le_mono_nonneg_r; [apply Z.pow_nonneg; lia|exact H].
  - apply Z.div_le_mono; [apply Z.pow_pos_nonneg; lia|exact H].
Qed.

Theorem C57_monotone : forall c tu kw nums s1 W1 F1 e1 s2 W2 F2 e2 r u m, env_ok c tu kw nums -> utf8 s1 = true -> utf8 s2 = true ->
  c_allow_multiple c = false -> amount_unit c tu r u m -> 0 <= coef m ->
  written c s1 W1 F1 e1 r -> written c s2 W2 F2 e2 r ->
  decimal_le (dval (W1 ++ F1)) (e1 - Z.of_nat (length F1)) (dval (W2 ++ F2)) (e2 - Z.of_nat (length F2)) ->
  exists d1 d2, parse c s1 tu kw nums = Ok d1 /\ parse c s2 tu kw nums = Ok d2 /\ nanos d1 <= nanos d2.
Proof.
  intros c tu kw nums s1 W1 F1 e1 s2 W2 F2 e2 r u m HE U1 U2 Hm Hu Hc H1 H2 Hle.
  exists (number_value false W1 F1 e1 u m), (number_value false W2 F2 e2 u m).
  split; [apply (written_parses c tu kw nums s1 W1 F1 e1 r); auto; lia|]. split; [apply (written_parses c tu kw nums s2 W2 F2 e2 r); auto; lia|].
  destruct (written_digits _ _ _ _ _ _ H1) as [DW1 DF1]. destruct (written_digits _ _ _ _ _ _ H2) as [DW2 DF2].
  rewrite !number_value_nanos by assumption. cbv zeta. assert (0 < coef (unit_length u)) by (destruct u; cbn; lia).
  replace (coef (unit_length u) * coef m <? 0) with false by nia. cbn [xorb signed_nanos]. unfold magnitude.
  apply Z.min_le_compat_l. apply Z.div_le_mono; [lia|]. apply Z.mul_le_mono_nonneg_l; [lia|].
  set (x := expo (unit_length u) + expo m).
  replace (18 + (x + e1 - Z.of_nat (length F1))) with ((18 + x) + (e1 - Z.of_nat (length F1))) by lia.
  replace (18 + (x + e2 - Z.of_nat (length F2))) with ((18 + x) + (e2 - Z.of_nat (length F2))) by lia.
  apply floor_scale_mono; auto; apply dval_nonneg, digit_string_app; auto.
Qed.
Print Assumptions C57_monotone.
Example C57_monotone_example : amount_unit ex_single ex_units (%"min") Minute (Mul 1 0) /\
  written ex_single (%"1.9999min") (%"1") (%"9999") 0 (%"min") /\ written ex_single (%"+0.2e1 min") (%"0") (%"2") 1 (%"min") /\
  decimal_le (dval (%"19999")) (0 - 4) (dval (%"02")) (1 - 1) /\
  parse ex_single (%"1.9999min") ex_units None None = Ok (Dur false (Std 119 994000000)) /\
  parse ex_single (%"+0.2e1 min") ex_units None None = Ok (Dur false (Std 120 0)).
Proof.
  split; [right; split; [discriminate|split; [reflexivity|]]; apply su_no_ago; [reflexivity|discriminate| |reflexivity]; split; [reflexivity|split; [each|exact I]]|].
  split; [|split; [|split; [vm_compute; discriminate|split; reflexivity]]].
  - exists (%"1.9999min"). split; [apply unsigned; [reflexivity|discriminate]|]. exists (%".9999min"), (%"min"), (%"min"). split; [split; [reflexivity|split; [each|reflexivity]]|].
    split; [apply some_fraction; [reflexivity|split; [reflexivity|split; [each|reflexivity]]]|]. split; [now apply no_exponent|]. split; [|discriminate].
    apply some_unit_delimiter with []; [reflexivity|split; [reflexivity|split; [intros x []|reflexivity]]|now left].
  - exists (%"0.2e1 min"). split; [apply (with_sign_delimiter _ 43 (%"0.2e1 min") []); [reflexivity..| |discriminate]; split; [reflexivity|split; [intros x []|reflexivity]]|].
    exists (%".2e1 min"), (%"e1 min"), (%" min"). split; [split; [reflexivity|split; [each|reflexivity]]|].
    split; [apply some_fraction; [reflexivity|split; [reflexivity|split; [each|reflexivity]]]|].
    split; [apply (some_exponent _ 101 [] false (%"1 min") (%"1") (%" min")); [reflexivity|reflexivity|constructor| |discriminate|reflexivity|lia]; split; [reflexivity|split; [each|reflexivity]]|].
    split; [|discriminate]. apply some_unit_delimiter with (%" "); [reflexivity|split; [reflexivity|split; [each|reflexivity]]|right; discriminate].
Qed.

(** the same amount of time in another unit (or another spelling) is the same duration, if no more than 18 decimal places are needed *)
Theorem C57_same_amount : forall c tu kw nums s1 W1 F1 e1 r1 u1 m1 s2 W2 F2 e2 r2 u2 m2, env_ok c tu kw nums -> utf8 s1 = true -> utf8 s2 = true ->
  c_allow_multiple c = false -> amount_unit c tu r1 u1 m1 -> amount_unit c tu r2 u2 m2 -> 0 <= coef m1 -> 0 <= coef m2 ->
  written c s1 W1 F1 e1 r1 -> written c s2 W2 F2 e2 r2 ->
  -18 <= amount_power F1 e1 u1 m1 -> -18 <= amount_power F2 e2 u2 m2 ->
  decimal_eq (amount_digits W1 F1 u1 m1) (amount_power F1 e1 u1 m1) (amount_digits W2 F2 u2 m2) (amount_power F2 e2 u2 m2) ->
  exists d1 d2, parse c s1 tu kw nums = Ok d1 /\ parse c s2 tu kw nums = Ok d2 /\ nanos d1 = nanos d2.
Proof.
  intros c tu kw nums s1 W1 F1 e1 r1 u1 m1 s2 W2 F2 e2 r2 u2 m2 HE U1 U2 Hm Hu1 Hu2 Hc1 Hc2 H1 H2 P1 P2 Heq.
  exists (number_value false W1 F1 e1 u1 m1), (number_value false W2 F2 e2 u2 m2).
  split; [apply (written_parses c tu kw nums s1 W1 F1 e1 r1); auto; lia|]. split; [apply (written_parses c tu kw nums s2 W2 F2 e2 r2); auto; lia|].
  destruct (written_digits _ _ _ _ _ _ H1) as [DW1 DF1]. destruct (written_digits _ _ _ _ _ _ H2) as [DW2 DF2].
  rewrite !number_value_nanos by assumption. cbv zeta.
  assert (0 < coef (unit_length u1)) by (destruct u1; cbn; lia). assert (0 < coef (unit_length u2)) by (destruct u2; cbn; lia).
  replace (coef (unit_length u1) * coef m1 <? 0) with false by nia. replace (coef (unit_length u2) * coef m2 <? 0) with false by nia.
  cbn [xorb signed_nanos]. unfold magnitude. fold (amount_power F1 e1 u1 m1) (amount_power F2 e2 u2 m2). f_equal. f_equal.
  rewrite !Z.abs_eq by nia. rewrite !fs_nonneg_k by lia. unfold decimal_eq in Heq. cbv zeta in Heq. unfold amount_digits in Heq.
  set (k1 := amount_power F1 e1 u1 m1) in *. set (k2 := amount_power F2 e2 u2 m2) in *. set (k := Z.min k1 k2) in *.
  replace (18 + k1) with ((k1 - k) + (18 + k)) by lia. replace (18 + k2) with ((k2 - k) + (18 + k)) by lia. rewrite (Z.pow_add_r 10 (k1 - k)), (Z.pow_add_r 10 (k2 - k)) by lia.
  set (A := 10 ^ (18 + k)). set (p1 := 10 ^ (k1 - k)) in *. set (p2 := 10 ^ (k2 - k)) in *.
  transitivity (dval (W1 ++ F1) * (coef (unit_length u1) * coef m1) * p1 * A); [ring|]. rewrite Heq. ring.
Qed.
Print Assumptions C57_same_amount.
Example C57_same_amount_example :
  decimal_eq (amount_digits (%"1") (%"5") Minute (Mul 1 0)) (amount_power (%"5") 0 Minute (Mul 1 0))
             (amount_digits (%"90") [] Second (Mul 1 0)) (amount_power [] 0 Second (Mul 1 0)) /\
  decimal_eq (amount_digits (%"1") (%"5") Minute (Mul 1 0)) (amount_power (%"5") 0 Minute (Mul 1 0))
             (amount_digits (%"9") [] MilliSecond (Mul 1 0)) (amount_power [] 4 MilliSecond (Mul 1 0)) /\
  parse ex_single (%"1.5min") ex_units None None = Ok (Dur false (Std 90 0)) /\ parse ex_single (%"90") ex_units None None = Ok (Dur false (Std 90 0)) /\
  parse ex_single (%"9e4ms") ex_units None None = Ok (Dur false (Std 90 0)).
Proof. repeat split. Qed.
(** with more than 18 decimal places two spellings of the same amount (here one nanosecond) may differ *)
Definition power_units : units_like := Units false (table [(%"s", (Second, Mul 1 0)); (%"ks", (Second, Mul 1048576 0))]).
Theorem C57_beyond_18_places_refuted : exists d1 d2,
  decimal_eq (amount_digits (%"0") (%"00000000000000095367431640625") Second (Mul 1048576 0)) (amount_power (%"00000000000000095367431640625") 0 Second (Mul 1048576 0))
             (amount_digits (%"0") (%"000000001") Second (Mul 1 0)) (amount_power (%"000000001") 0 Second (Mul 1 0)) /\
  parse ex_single (%"0.00000000000000095367431640625ks") power_units None None = Ok d1 /\
  parse ex_single (%"0.000000001s") power_units None None = Ok d2 /\ nanos d1 <> nanos d2.
Proof. eexists _, _. split; [reflexivity|]. split; [reflexivity|]. split; [reflexivity|]. vm_compute. discriminate. Qed.
Print Assumptions C57_beyond_18_places_refuted.
