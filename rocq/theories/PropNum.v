(** * Properties C12-C19, C45: digits, numbers and their values *)
From Verif Require Import Prelude Util Time Config Bytes Repr Parse SpecTime SpecNum SpecValue SpecParse SpecGrammar SpecSpelling
  TimeProofs NumProofs ReprProofs Utf8Proofs BytesProofs SafeProofs RefParse RefProofs RefSingle RefMulti RefGrammar
  ValueProofs SpellProofs UtilProofs ExEnv.

(** C12 *)
Theorem C12_eight_digits_value : forall l, length l = 8%nat -> digit_string l -> swar_8_digits l = Ok (dval l).
Proof. exact swar_8_digits_spec. Qed.
Print Assumptions C12_eight_digits_value.
Example C12_example : length (%"01234567") = 8%nat /\ digit_string (%"01234567") /\ swar_8_digits (%"01234567") = Ok 1234567.
Proof. split; [reflexivity|]. split; [each|reflexivity]. Qed.

(** C13: eight arbitrary bytes, read as a little endian number *)
Theorem C13_eight_digits_detection : forall l, length l = 8%nat -> (forall b, In b l -> 0 <= b <= 255) ->
  eight_digits_test (le_num l) = true <-> digit_string l.
Proof.
  intros l Hl Hb. rewrite (eight_digits_test_spec l Hl Hb). symmetry. apply digit_string_forallb.
Qed.
Print Assumptions C13_eight_digits_detection.
(** the neighbours of the digits in ASCII, and a byte above 127 *)
Example C13_example : eight_digits_test (le_num (%"98765432")) = true /\ eight_digits_test (le_num (%"9876543:")) = false /\
  eight_digits_test (le_num (%"9876/432")) = false /\ eight_digits_test (le_num [57; 57; 57; 57; 57; 57; 57; 185]) = false.
Proof. repeat split. Qed.

(** C14: the scanner stands behind [pre] in front of the digits [ds] (a maximal run) and [rest]. The whole number
    part is the range without the leading zeros [zs], the fraction the whole range; both end up behind the digits. *)
Theorem C14_scan_fraction : forall pre l ds rest buf,
  (forall b, In b l -> 0 <= b <= 255) -> span is_digit l ds rest -> ds <> [] ->
  parse_digits (Scan (length pre) (nth_error (pre ++ l) (length pre)) buf (pre ++ l)) =
  Ok (Scan (length pre + length ds) (nth_error (pre ++ l) (length pre + length ds)) buf (pre ++ l),
      (length pre, length pre + length ds)%nat).
Proof.
  intros pre l ds rest buf Hb Hs Hn. apply span_iff in Hs. destruct Hs as [-> ->].
  assert (E : forall p q, Scan (length p) (nth_error (p ++ q) (length p)) buf (p ++ q) = at_ p q buf).
  { intros p q. unfold at_. now rewrite nth_error_app_hd. }
  rewrite E, parse_digits_at; [|exact Hb|destruct l as [|x l]; cbn in *; [congruence|destruct (is_digit x); congruence]].
  rewrite <- E. rewrite app_length. rewrite <- app_assoc, take_drop_while. reflexivity.
Qed.
Print Assumptions C14_scan_fraction.
Example C14_scan_fraction_example : span is_digit (%"1234567890s") (%"1234567890") (%"s") /\
  parse_digits (Scan 2 (Some 49) None (%"0.1234567890s")) = Ok (Scan 12 (Some 115) None (%"0.1234567890s"), (2, 12)%nat).
Proof. split; [|reflexivity]. split; [reflexivity|]. split; [each|reflexivity]. Qed.

Theorem C14_scan_whole : forall pre l zs ds rest buf,
  (forall b, In b l -> 0 <= b <= 255) -> span is_digit l (zs ++ ds) rest -> zs ++ ds <> [] ->
  span (fun x => x =? 48) (zs ++ ds) zs ds ->
  parse_digits_strip_zeros (Scan (length pre) (nth_error (pre ++ l) (length pre)) buf (pre ++ l)) =
  Ok (Scan (length pre + length (zs ++ ds)) (nth_error (pre ++ l) (length pre + length (zs ++ ds))) buf (pre ++ l),
      (length pre + length zs, length pre + length (zs ++ ds))%nat).
Proof.
  intros pre l zs ds rest buf Hb Hs Hn Hz. apply span_iff in Hs. destruct Hs as [Ht ->].
  apply span_iff in Hz. destruct Hz as [Hz _]. rewrite Ht in *. clear Ht.
  assert (E : forall p q, Scan (length p) (nth_error (p ++ q) (length p)) buf (p ++ q) = at_ p q buf).
  { intros p q. unfold at_. now rewrite nth_error_app_hd. }
  assert (Hh : match l with x :: _ => is_digit x = true | [] => False end)
    by (destruct l as [|x l]; cbn in *; [congruence|destruct (is_digit x); congruence]).
  rewrite E, parse_digits_strip_zeros_at by assumption.
  rewrite <- E. rewrite app_length. rewrite <- app_assoc, take_drop_while. unfold zeros.
  replace (take_while is_zero_digit (take_while is_digit l)) with zs by exact Hz. reflexivity.
Qed.
Print Assumptions C14_scan_whole.
Example C14_scan_whole_example : span is_digit (%"000000000012345678.") (%"0000000000" ++ %"12345678") (%".") /\
  span (fun x => x =? 48) (%"0000000000" ++ %"12345678") (%"0000000000") (%"12345678") /\
  parse_digits_strip_zeros (Scan 1 (Some 48) None (%"+000000000012345678.")) = Ok (Scan 19 (Some 46) None (%"+000000000012345678."), (11, 19)%nat).
Proof. split; [|split; [|reflexivity]]; (split; [reflexivity|]; split; [each|reflexivity]). Qed.

(** C15: the digits, digits appended to them, and a number of zeros appended to both *)
Theorem C15_whole_exact_or_overflow : forall digits append zeros,
  digit_string digits -> digit_string (opt_str append) ->
  let v := dval (digits ++ opt_str append) * 10 ^ Z.of_nat (opt_nat zeros) in
  (v < 2 ^ 64 -> whole_parse digits append zeros = Ok (Some v)) /\
  (2 ^ 64 <= v -> whole_parse digits append zeros = Ok None).
Proof.
  intros digits append zeros H1 H2 v. rewrite whole_parse_spec by assumption. fold v.
  assert (0 <= v) by (subst v; apply Z.mul_nonneg_nonneg; [apply dval_nonneg, digit_string_app; now split|apply Z.lt_le_incl, pow10_pos]).
  unfold chk, is_u64, inb, u64_max. split; intros; [replace (_ && _) with true by lia|replace (_ && _) with false by lia]; reflexivity.
Qed.
Print Assumptions C15_whole_exact_or_overflow.
Example C15_example : digit_string (%"18446744073") /\ digit_string (opt_str (Some (%"70955161"))) /\
  whole_parse (%"18446744073") (Some (%"70955161")) (Some 0%nat) = Ok (Some 1844674407370955161) /\
  whole_parse (%"18446744073") (Some (%"70955161")) (Some 1%nat) = Ok (Some 18446744073709551610) /\
  whole_parse (%"18446744073") (Some (%"70955161")) (Some 2%nat) = Ok None /\
  whole_parse (%"18446744073709551616") None None = Ok None.
Proof. split; [each|]. split; [each|]. repeat split. Qed.

(** C16: 0.(zeros)(prepended digits)(digits) * 10^18, rounded down *)
Theorem C16_fraction_truncated : forall digits prepend zeros,
  digit_string digits -> digit_string (opt_str prepend) ->
  let all := opt_str prepend ++ digits in
  fract_parse digits prepend zeros = Ok (dval all * 10 ^ 18 / 10 ^ Z.of_nat (opt_nat zeros + length all)).
Proof. exact fract_parse_spec. Qed.
Print Assumptions C16_fraction_truncated.
Example C16_example : digit_string (%"123456789012") /\ digit_string (opt_str (Some (%"98765432"))) /\
  fract_parse (%"123456789012") (Some (%"98765432")) (Some 2%nat) = Ok 9876543212345678 /\
  fract_parse (%"5") None None = Ok 500000000000000000.
Proof. split; [each|]. split; [each|]. repeat split. Qed.

(** C17: end to end. A text consisting of a sign, the digits W, a fraction with the digits F, an exponent e,
    delimiters and the identifier of a time unit. *)
Definition signed_nanos (negative : bool) (x : Z) : Z := if negative then - x else x.

Lemma number_value_allowed c n W F e u m :
  (xorb n (coef (unit_length u) * coef m <? 0) = true -> c_allow_negative c = true) ->
  sign_allowed c (number_value n W F e u m).
Proof.
  intros H. unfold sign_allowed, number_value, number_result. destruct (_ || _); [right; reflexivity|].
  destruct (xorb n _); [left; auto|right; reflexivity].
Qed.

Lemma number_value_nanos n W F e u m : digit_string W -> digit_string F ->
  let cf := coef (unit_length u) * coef m in
  let k := expo (unit_length u) + expo m + e - Z.of_nat (length F) in
  nanos (number_value n W F e u m) = signed_nanos (xorb n (cf <? 0)) (magnitude (dval (W ++ F)) k cf).
Proof.
  intros HW HF cf k. unfold number_value. fold cf. unfold signed_nanos.
  replace (expo (unit_length u) + expo m + e - Z.of_nat (length F)) with k by reflexivity.
  apply number_result_nanos. apply dval_nonneg, digit_string_app. now split.
Qed.

Lemma number_value_ok n W F e u m : digit_string W -> digit_string F -> duration_ok (number_value n W F e u m).
Proof.
  intros HW HF. unfold number_value, number_result. destruct (_ || _); [split; reflexivity|].
  pose proof (magnitude_range' (dval (W ++ F)) (expo (unit_length u) + expo m + e - Z.of_nat (length F)) (coef (unit_length u) * coef m)) as R.
  specialize (R ltac:(apply dval_nonneg, digit_string_app; now split)).
  set (M := magnitude _ _ _) in *. unfold duration_ok, std_ok, std_of_nanos. cbn [inner secs subsec].
  assert (0 <= M / 1000000000 <= u64_max).
  { unfold max_nanos, u64_max in *. split; [apply Z.div_pos; lia|]. apply Z.lt_succ_r. apply Z.div_lt_upper_bound; lia. }
  pose proof (Z.mod_pos_bound M 1000000000). unfold is_u64, inb. lia.
Qed.

Lemma fraction_text_digits fr F : fraction_text fr F -> digit_string F.
Proof. intros []; [intros b []|assumption]. Qed.

Theorem C17_number_with_unit : forall c tu kw nums sg n W fr F ex e ds id u m,
  env_ok c tu kw nums -> c_allow_multiple c = false ->
  sign_text sg n -> digit_string W -> fraction_text fr F -> exponent_text ex e -> W ++ F <> [] ->
  (fr <> [] -> c_disable_fraction c = false) -> (ex <> [] -> c_disable_exponent c = false) ->
  (sg <> [] -> c_allow_sign_delimiter c = true -> starts_not (c_inner_delimiter c) (W ++ fr)) ->
  unit_gap c ds id -> ends_number (ds ++ id) ->
  id <> [] -> utf8 id = true -> (forall x, In x id -> c_inner_delimiter c x = false) ->
  u_is_empty tu = false -> u_get tu id = Some (u, m) ->
  let cf := coef (unit_length u) * coef m in
  let k := expo (unit_length u) + expo m + e - Z.of_nat (length F) in
  (xorb n (cf <? 0) = true -> c_allow_negative c = true) ->
  exists d, parse c (sg ++ W ++ fr ++ ex ++ ds ++ id) tu kw nums = Ok d /\ duration_ok d /\
    nanos d = signed_nanos (xorb n (cf <? 0))
      (Z.min max_nanos (Z.abs cf * floor_scale10 (dval (W ++ F)) (18 + k) / 10 ^ 9)).
Proof.
  intros c tu kw nums sg n W fr F ex e ds id u m H1 H2 H3 H4 H5 H6 H7 H8 H9 H10 H11 H12 H13 H14 H15 H16 H17 cf k H18.
  exists (number_value n W F e u m). pose proof (fraction_text_digits _ _ H5) as HF.
  split; [|split; [now apply number_value_ok|apply (number_value_nanos n W F e u m H4 HF)]].
  eapply single_number_text; eauto. now apply number_value_allowed.
Qed.
Print Assumptions C17_number_with_unit.
(** "-12.5e1 fortnight" is not below the maximum; every hypothesis holds *)
Example C17_number_with_unit_example :
  exists d, parse ex_single (%"-12.5e1 fortnight") ex_units (Some ex_keywords) (Some ex_numerals) = Ok d /\ nanos d = -125 * 1209600 * 10 ^ 9.
Proof.
  destruct (C17_number_with_unit ex_single ex_units (Some ex_keywords) (Some ex_numerals)
    (%"-") true (%"12") (%".5") (%"5") (%"e1") 1 (%" ") (%"fortnight") Week (Mul 2 0)) as (d & E & _ & N); try reflexivity.
  - exact ex_env_single.
  - constructor.
  - each.
  - apply (ft_some (%"5")). each.
  - apply (et_some 101 [] false (%"1") 1); [now left|constructor|each|discriminate|reflexivity|lia].
  - discriminate.
  - split; [each|]. split; [reflexivity|]. split; [discriminate|right; discriminate].
  - repeat split.
  - discriminate.
  - each.
  - exists d. split; [exact E|]. rewrite N. reflexivity.
Qed.

(** without a time unit the default unit of the configuration is used *)
Theorem C17_number_without_unit : forall c tu kw nums sg n W fr F ex e,
  env_ok c tu kw nums -> c_allow_multiple c = false ->
  sign_text sg n -> digit_string W -> fraction_text fr F -> exponent_text ex e -> W ++ F <> [] ->
  (fr <> [] -> c_disable_fraction c = false) -> (ex <> [] -> c_disable_exponent c = false) ->
  (sg <> [] -> c_allow_sign_delimiter c = true -> starts_not (c_inner_delimiter c) (W ++ fr)) ->
  let u := c_default_unit c in
  let k := expo (unit_length u) + e - Z.of_nat (length F) in
  (n = true -> c_allow_negative c = true) ->
  exists d, parse c (sg ++ W ++ fr ++ ex) tu kw nums = Ok d /\ duration_ok d /\
    nanos d = signed_nanos n
      (Z.min max_nanos (coef (unit_length u) * floor_scale10 (dval (W ++ F)) (18 + k) / 10 ^ 9)).
Proof.
  intros c tu kw nums sg n W fr F ex e H1 H2 H3 H4 H5 H6 H7 H8 H9 H10 u k H11.
  pose proof (fraction_text_digits _ _ H5) as HF.
  assert (Cf : coef (unit_length u) * coef default_multiplier = coef (unit_length u)) by (cbn [coef default_multiplier]; lia).
  assert (Cp : 0 < coef (unit_length u)) by (destruct u; cbn; lia).
  exists (number_value n W F e u default_multiplier).
  split; [|split; [now apply number_value_ok|]].
  - eapply single_number_text_default; eauto. apply number_value_allowed. fold u. rewrite Cf.
    replace (coef (unit_length u) <? 0) with false by lia. destruct n; cbn; auto.
  - rewrite (number_value_nanos n W F e u default_multiplier H4 HF). cbv zeta. rewrite Cf.
    replace (coef (unit_length u) <? 0) with false by lia.
    replace (xorb n false) with n by now destruct n. unfold magnitude. rewrite (Z.abs_eq (coef _)) by lia.
    cbn [expo default_multiplier]. replace (expo (unit_length u) + 0) with (expo (unit_length u)) by lia.
    fold k. reflexivity.
Qed.
Print Assumptions C17_number_without_unit.
Example C17_number_without_unit_example :
  exists d, parse ex_single (%"+.000000001999") ex_units None None = Ok d /\ nanos d = 1.
Proof.
  destruct (C17_number_without_unit ex_single ex_units None None (%"+") false [] (%".000000001999") (%"000000001999") [] 0) as (d & E & _ & N);
    try reflexivity; try discriminate.
  - apply ex_env; auto.
  - constructor.
  - each.
  - apply (ft_some (%"000000001999")). each.
  - constructor.
  - exists d. split; [exact E|]. rewrite N. reflexivity.
Qed.

(** What the formula means. V * 10^k seconds times |c|: with at most 18 decimal places the result is the exact
    value rounded down to nanoseconds; also if the unit is a power of ten. *)
Theorem C17_exact : forall V k c, -18 <= k \/ Z.abs c = 1 ->
  Z.min max_nanos (Z.abs c * floor_scale10 V (18 + k) / 10 ^ 9) = Z.min max_nanos (floor_scale10 (Z.abs c * V) (9 + k)).
Proof.
  intros V k c [H|H].
  - apply (magnitude_exact V k c). lia.
  - pose proof (magnitude_exact_1 V k c H) as E. unfold magnitude in E. change (10 ^ 9) with 1000000000. rewrite E.
    now rewrite H, Z.mul_1_l.
Qed.
Print Assumptions C17_exact.

(** otherwise (k < -18, here for all negative k) the result A is not above the exact value |c|*V*10^(9+k) ns and
    less than 1 + |c|*10^-9 nanoseconds below it (both sides multiplied with 10^-k and 10^9) *)
Theorem C17_error_bound : forall V k c, 0 <= V -> k < 0 -> c <> 0 ->
  let A := Z.abs c * floor_scale10 V (18 + k) / 10 ^ 9 in
  A * 10 ^ (- k) <= Z.abs c * V * 10 ^ 9 /\
  Z.abs c * V * 10 ^ 18 < ((A + 1) * 10 ^ 9 + Z.abs c) * 10 ^ (- k).
Proof. intros V k c HV Hk Hc. destruct (attos_bounds V k c HV Hk) as [H|H]; [exact H|contradiction]. Qed.
Print Assumptions C17_error_bound.

(** the loss is real: 0.0000000000000000317 years are more than 1ns, but the result is zero *)
Theorem C17_always_exact_refuted :
  let c := 31557600 in let V := 317 in let k := -19 in
  1 <= floor_scale10 (Z.abs c * V) (9 + k) /\ Z.abs c * floor_scale10 V (18 + k) / 10 ^ 9 = 0.
Proof. vm_compute. split; [discriminate|reflexivity]. Qed.
Print Assumptions C17_always_exact_refuted.

(** C18: [magnitude] of C17 is at the maximum if the exact value is at least 2^64 seconds, for at most 18 decimal places or
    |c| at most 10^9 (all time units without a custom multiplier) ... *)
Theorem C18_saturates : forall n W F x u m, digit_string W -> digit_string F ->
  let cf := coef (unit_length u) * coef m in
  let k := expo (unit_length u) + expo m + x - Z.of_nat (length F) in
  -18 <= k \/ Z.abs cf <= 10 ^ 9 ->
  2 ^ 64 <= floor_scale10 (Z.abs cf * dval (W ++ F)) k ->
  nanos (number_value n W F x u m) = nanos (if xorb n (cf <? 0) then MIN else MAX).
Proof.
  intros n W F x u m HW HF cf k Hk H. rewrite (number_value_nanos n W F x u m HW HF). cbv zeta.
  fold cf k. rewrite magnitude_saturates; [|apply dval_nonneg, digit_string_app; now split|exact Hk|exact H].
  destruct (xorb n _); reflexivity.
Qed.
Print Assumptions C18_saturates.
(** 584542046091 years are more than 2^64 seconds, 584542046090 years are less *)
Example C18_saturates_example :
  2 ^ 64 <= floor_scale10 (Z.abs 31557600 * dval (%"584542046091")) 0 /\
  number_value true (%"584542046091") [] 0 Year (Mul 1 0) = MIN /\
  floor_scale10 (Z.abs 31557600 * dval (%"584542046090")) 0 < 2 ^ 64 /\
  nanos (number_value true (%"584542046090") [] 0 Year (Mul 1 0)) = - 584542046090 * 31557600 * 10 ^ 9.
Proof. repeat split; vm_compute; reflexivity || discriminate. Qed.

(** the same for any multiplier and any number of decimal places: |c| * 10^-18 seconds above 2^64 seconds (both sides
    multiplied with 10^-k and 10^18) *)
Theorem C18_saturates_any : forall n W F x u m, digit_string W -> digit_string F ->
  let cf := coef (unit_length u) * coef m in
  let k := expo (unit_length u) + expo m + x - Z.of_nat (length F) in
  k < 0 -> (2 ^ 64 * 10 ^ 18 + Z.abs cf) * 10 ^ (- k) <= Z.abs cf * dval (W ++ F) * 10 ^ 18 ->
  nanos (number_value n W F x u m) = nanos (if xorb n (cf <? 0) then MIN else MAX).
Proof.
  intros n W F x u m HW HF cf k Hk H. rewrite (number_value_nanos n W F x u m HW HF). cbv zeta. fold cf k.
  assert (V : 0 <= dval (W ++ F)) by (apply dval_nonneg, digit_string_app; now split).
  assert (P : 0 < 10 ^ (- k)) by (apply Z.pow_pos_nonneg; lia).
  assert (C : cf <> 0) by (intros C; rewrite C in H; cbn [Z.abs] in H; nia).
  pose proof (C17_error_bound (dval (W ++ F)) k cf V Hk C) as [_ B]. cbv zeta in B.
  assert (E : magnitude (dval (W ++ F)) k cf = max_nanos).
  { unfold magnitude. change 1000000000 with (10 ^ 9). apply Z.min_l. rewrite max_nanos_val.
    set (A := Z.abs cf * floor_scale10 (dval (W ++ F)) (18 + k) / 10 ^ 9) in *.
    assert (2 ^ 64 * 10 ^ 18 + Z.abs cf < (A + 1) * 10 ^ 9 + Z.abs cf) by nia. lia. }
  rewrite E. destruct (xorb n _); reflexivity.
Qed.
Print Assumptions C18_saturates_any.
(** 2.0000000000000000003 of a unit of i64::MAX seconds *)
Example C18_saturates_any_example : let m := Mul i64_max 0 in let F := %"0000000000000000032" in
  (2 ^ 64 * 10 ^ 18 + i64_max) * 10 ^ 19 <= i64_max * dval (%"2" ++ F) * 10 ^ 18 /\
  number_value true (%"2") F 0 Second m = MIN.
Proof. vm_compute. split; [discriminate|reflexivity]. Qed.

(** ... and only if it is not below the maximum *)
Theorem C18_saturates_only : forall n W F x u m, digit_string W -> digit_string F ->
  let cf := coef (unit_length u) * coef m in
  let k := expo (unit_length u) + expo m + x - Z.of_nat (length F) in
  Z.abs (nanos (number_value n W F x u m)) = max_nanos ->
  max_nanos <= floor_scale10 (Z.abs cf * dval (W ++ F)) (9 + k).
Proof.
  intros n W F x u m HW HF cf k. rewrite (number_value_nanos n W F x u m HW HF). cbv zeta. fold cf k.
  assert (V : 0 <= dval (W ++ F)) by (apply dval_nonneg, digit_string_app; now split).
  pose proof (magnitude_range' (dval (W ++ F)) k cf V) as R. intros H.
  apply magnitude_max_only; [exact V|]. unfold signed_nanos in H. destruct (xorb _ _); lia.
Qed.
Print Assumptions C18_saturates_only.
Example C18_saturates_only_example : Z.abs (nanos (number_value true (%"1") [] 20 Second (Mul 1 0))) = max_nanos.
Proof. reflexivity. Qed.

(** the sign is never lost and nothing wraps: the result is between MIN and MAX on the side of its sign *)
Theorem C18_never_wraps : forall n W F x u m, digit_string W -> digit_string F ->
  let cf := coef (unit_length u) * coef m in
  if xorb n (cf <? 0) then - max_nanos <= nanos (number_value n W F x u m) <= 0
  else 0 <= nanos (number_value n W F x u m) <= max_nanos.
Proof.
  intros n W F x u m HW HF cf. rewrite (number_value_nanos n W F x u m HW HF). cbv zeta. fold cf.
  assert (V : 0 <= dval (W ++ F)) by (apply dval_nonneg, digit_string_app; now split).
  pose proof (magnitude_range' (dval (W ++ F)) (expo (unit_length u) + expo m + x - Z.of_nat (length F)) cf V) as R.
  unfold signed_nanos. destruct (xorb _ _); lia.
Qed.
Print Assumptions C18_never_wraps.

Lemma nanos_inj_nonzero a b : duration_ok a -> duration_ok b -> nanos a = nanos b -> nanos b <> 0 -> a = b.
Proof.
  intros Ha Hb E N. pose proof (std_nanos_nonneg (inner a) Ha). pose proof (std_nanos_nonneg (inner b) Hb).
  rewrite (nanos_unfold a), (nanos_unfold b) in E. rewrite (nanos_unfold b) in N.
  destruct a as [[] i], b as [[] j]; cbn [neg inner] in *; try lia; f_equal; apply std_nanos_inj; auto; lia.
Qed.

(** end to end: the text of C17. It is never an error or wrapped, and it is MAX or MIN if the exact value (V * 10^k * |cf| seconds)
    is at least 2^64 seconds, and only if it is not below the maximum *)
Theorem C18_text : forall c tu kw nums sg n W fr F ex e ds id u m,
  env_ok c tu kw nums -> c_allow_multiple c = false ->
  sign_text sg n -> digit_string W -> fraction_text fr F -> exponent_text ex e -> W ++ F <> [] ->
  (fr <> [] -> c_disable_fraction c = false) -> (ex <> [] -> c_disable_exponent c = false) ->
  (sg <> [] -> c_allow_sign_delimiter c = true -> starts_not (c_inner_delimiter c) (W ++ fr)) ->
  unit_gap c ds id -> ends_number (ds ++ id) ->
  id <> [] -> utf8 id = true -> (forall x, In x id -> c_inner_delimiter c x = false) ->
  u_is_empty tu = false -> u_get tu id = Some (u, m) ->
  let cf := coef (unit_length u) * coef m in
  let k := expo (unit_length u) + expo m + e - Z.of_nat (length F) in
  let extreme := if xorb n (cf <? 0) then MIN else MAX in
  (xorb n (cf <? 0) = true -> c_allow_negative c = true) ->
  exists d, parse c (sg ++ W ++ fr ++ ex ++ ds ++ id) tu kw nums = Ok d /\ duration_ok d /\
    (-18 <= k \/ Z.abs cf <= 10 ^ 9 -> 2 ^ 64 <= floor_scale10 (Z.abs cf * dval (W ++ F)) k -> d = extreme) /\
    (d = extreme -> max_nanos <= floor_scale10 (Z.abs cf * dval (W ++ F)) (9 + k)) /\
    (if xorb n (cf <? 0) then nanos MIN <= nanos d <= 0 else 0 <= nanos d <= nanos MAX).
Proof.
  intros c tu kw nums sg n W fr F ex e ds id u m H1 H2 H3 H4 H5 H6 H7 H8 H9 H10 H11 H12 H13 H14 H15 H16 H17 cf k extreme H18.
  exists (number_value n W F e u m). pose proof (fraction_text_digits _ _ H5) as HF.
  pose proof (number_value_ok n W F e u m H4 HF) as Od.
  split; [eapply single_number_text; eauto; now apply number_value_allowed|]. split; [exact Od|]. split; [|split].
  - intros A B. pose proof (C18_saturates n W F e u m H4 HF A B) as E. fold cf in E. fold extreme in E.
    apply nanos_inj_nonzero; [exact Od|unfold extreme; destruct (xorb _ _); split; reflexivity|exact E|].
    unfold extreme. destruct (xorb _ _); discriminate.
  - intros E. apply (C18_saturates_only n W F e u m H4 HF). rewrite E. unfold extreme. destruct (xorb _ _); reflexivity.
  - pose proof (C18_never_wraps n W F e u m H4 HF) as E. cbv zeta in E. fold cf in E. exact E.
Qed.
Print Assumptions C18_text.
Example C18_text_example :
  parse ex_single (%"-584542046091.e0 y") ex_units None None = Ok MIN /\ parse ex_single (%"15250284452472 fortnight") ex_units None None = Ok MAX /\
  u_get ex_units (%"y") = Some (Year, Mul 1 0).
Proof. repeat split. Qed.

(** with a huge custom multiplier and more than 18 decimal places, a value of at least 2^64 seconds need not
    saturate: 2.00000000000000000022 of a unit of i64::MAX seconds *)
Theorem C18_large_multiplier_refuted :
  let m := Mul i64_max 0 in let F := %"00000000000000000022" in
  2 ^ 64 <= floor_scale10 (i64_max * dval (%"2" ++ F)) (- 20) /\
  nanos (number_value false (%"2") F 0 Second m) < max_nanos.
Proof. vm_compute. split; [discriminate|reflexivity]. Qed.
Print Assumptions C18_large_multiplier_refuted.

(** C19 *)
Definition fixed_nanos (negative : bool) (c e : Z) : Z :=
  signed_nanos (xorb (c <? 0) negative) (Z.min max_nanos (floor_scale10 (Z.abs c) (9 + e))).

Theorem C19_unit_value : forall n u m,
  let e := expo (unit_length u) + expo m in
  -18 <= e <= 19 ->
  nanos (unit_value n u m) = fixed_nanos n (coef (unit_length u) * coef m) e.
Proof. intros n u m e He. apply fixed_result_nanos. exact He. Qed.
Print Assumptions C19_unit_value.
Example C19_unit_value_example : nanos (unit_value true Week (Mul 2 (-1))) = -120960 * 10 ^ 9.
Proof. reflexivity. Qed.

Theorem C19_numeral_value : forall n num u m,
  let e := expo num + expo (unit_length u) + expo m in
  -18 <= e <= 19 ->
  nanos (numeral_value n num u m) = fixed_nanos n (coef num * coef (unit_length u) * coef m) e.
Proof. intros n num u m e He. apply fixed_result_nanos. exact He. Qed.
Print Assumptions C19_numeral_value.
Example C19_numeral_value_example : nanos (numeral_value false (Mul 5 (-1)) Hour (Mul (-3) 0)) = -5400 * 10 ^ 9.
Proof. reflexivity. Qed.

(** outside of these exponents, completely: below, the value vanishes; above, it saturates by the sign of the coefficient, a minus
    sign in the input is ignored *)
Theorem C19_other_exponents : forall n num u m,
  let cu := coef (unit_length u) * coef m in let eu := expo (unit_length u) + expo m in
  let cn := coef num * coef (unit_length u) * coef m in let en := expo num + expo (unit_length u) + expo m in
  (eu < -18 -> nanos (unit_value n u m) = 0) /\
  (19 < eu -> nanos (unit_value n u m) = Z.sgn cu * max_nanos) /\
  (en < -18 -> nanos (numeral_value n num u m) = 0) /\
  (19 < en -> nanos (numeral_value n num u m) = Z.sgn cn * max_nanos).
Proof.
  assert (A : forall n c e, e < -18 -> nanos (fixed_result n c e) = 0).
  { intros n c e H. unfold fixed_result. destruct (c =? 0); [reflexivity|]. replace (e <? -18) with true by lia. reflexivity. }
  assert (B : forall n c e, 19 < e -> nanos (fixed_result n c e) = Z.sgn c * max_nanos).
  { intros n c e H. unfold fixed_result. destruct (Z.eqb_spec c 0) as [->|N]; [reflexivity|].
    replace (e <? -18) with false by lia. replace (19 <? e) with true by lia.
    destruct (Z.ltb_spec c 0); [rewrite Z.sgn_neg by lia|rewrite Z.sgn_pos by lia]; reflexivity. }
  intros n num u m cu eu cn en. repeat split; intros H; [apply A|apply B|apply A|apply B]; exact H.
Qed.
Print Assumptions C19_other_exponents.
Example C19_other_exponents_example : nanos (unit_value true Second (Mul (-7) 20)) = - max_nanos /\ nanos (unit_value true Minute (Mul 5 (-19))) = 0.
Proof. split; reflexivity. Qed.

(** a unit without a number is like the number 1 with this unit (value for value; the exception is a minus sign with an exponent above 19) *)
Theorem C19_unit_is_one_unit : forall n u m,
  expo (unit_length u) + expo m <= 19 \/ n = false ->
  nanos (unit_value n u m) = nanos (number_value n (%"1") [] 0 u m).
Proof.
  intros n u m H. rewrite (number_value_nanos n (%"1") [] 0 u m) by each. cbv zeta. cbn [length Z.of_nat].
  rewrite Z.add_0_r, Z.sub_0_r. change (dval (%"1" ++ [])) with 1.
  set (e := expo (unit_length u) + expo m) in *. set (c := coef (unit_length u) * coef m).
  destruct (Z_lt_le_dec e (-18)) as [L|L].
  - rewrite (proj1 (C19_other_exponents n default_multiplier u m)) by exact L.
    replace (magnitude 1 e c) with 0; [now destruct (xorb _ _)|]. unfold magnitude, floor_scale10.
    replace (0 <=? 18 + e) with false by lia. rewrite (Z.div_small 1) by (split; [lia|]; apply Z.pow_gt_1; lia). rewrite Z.mul_0_r. reflexivity.
  - destruct (Z_le_gt_dec e 19) as [G|G].
    + rewrite C19_unit_value by (unfold e in *; lia). fold e c. unfold fixed_nanos. rewrite xorb_comm. f_equal.
      rewrite magnitude_exact by lia. now rewrite Z.mul_1_r.
    + destruct H as [H| ->]; [lia|]. rewrite (proj1 (proj2 (C19_other_exponents false default_multiplier u m))) by (fold e; lia).
      fold c. cbn [xorb]. destruct (Z.eq_dec c 0) as [->|N]; [reflexivity|].
      assert (E : magnitude 1 e c = max_nanos).
      { rewrite magnitude_exact by lia. apply Z.min_l. rewrite Z.mul_1_r. unfold floor_scale10. replace (0 <=? 9 + e) with true by lia.
        pose proof (Z.pow_le_mono_r 10 29 (9 + e) ltac:(lia) ltac:(lia)). rewrite max_nanos_val.
        assert (1 <= Z.abs c) by lia. set (P := 10 ^ (9 + e)) in *. assert (10 ^ 29 <= Z.abs c * P) by nia. lia. }
      rewrite E. destruct (Z.ltb_spec c 0); unfold signed_nanos; [rewrite Z.sgn_neg by lia|rewrite Z.sgn_pos by lia]; lia.
Qed.
Print Assumptions C19_unit_is_one_unit.
Example C19_unit_is_one_unit_example : nanos (unit_value true Hour (Mul (-3) (-2))) = nanos (number_value true (%"1") [] 0 Hour (Mul (-3) (-2))) /\
  nanos (unit_value true Hour (Mul (-3) (-2))) = 108 * 10 ^ 9.
Proof. split; reflexivity. Qed.

(** a numeral c * 10^e is like the number with the digits of c and the exponent e *)
Theorem C19_numeral_is_number : forall n num u m W, digit_string W -> dval W = coef num ->
  let e := expo num + expo (unit_length u) + expo m in
  -18 <= e <= 19 ->
  nanos (numeral_value n num u m) = nanos (number_value n W [] (expo num) u m).
Proof.
  intros n num u m W HW HV e He. rewrite (number_value_nanos n W [] (expo num) u m) by (exact HW || each). cbv zeta. cbn [length Z.of_nat].
  rewrite C19_numeral_value by exact He. rewrite Z.sub_0_r. unfold fixed_nanos. rewrite app_nil_r, HV.
  replace (expo (unit_length u) + expo m + expo num) with e by (unfold e; lia).
  pose proof (dval_nonneg W HW) as P. rewrite HV in P. fold e. rewrite xorb_comm.
  rewrite magnitude_exact by lia.
  replace (coef num * coef (unit_length u) * coef m) with (coef num * (coef (unit_length u) * coef m)) by ring.
  set (c := coef (unit_length u) * coef m). rewrite Z.abs_mul, (Z.abs_eq (coef num)) by lia. rewrite (Z.mul_comm (Z.abs c)).
  destruct (Z.eq_dec (coef num) 0) as [E|E].
  - rewrite E, !Z.mul_0_l. unfold signed_nanos, floor_scale10. rewrite Z.mul_0_l, Zdiv_0_l. destruct (0 <=? 9 + e), (xorb n (0 <? 0)), (xorb n (c <? 0)); reflexivity.
  - replace (coef num * c <? 0) with (c <? 0); [reflexivity|]. destruct (Z.ltb_spec c 0), (Z.ltb_spec (coef num * c) 0); try reflexivity; nia.
Qed.
Print Assumptions C19_numeral_is_number.
Example C19_numeral_is_number_example : nanos (numeral_value false (Mul 25 (-1)) Hour (Mul 1 0)) = nanos (number_value false (%"025") [] (-1) Hour (Mul 1 0)).
Proof. reflexivity. Qed.

(** outside of these exponents the property is false of the code: the sign of the input is ignored for large
    exponents, and large coefficients vanish for small ones *)
Theorem C19_large_exponent_refuted :
  nanos (unit_value true Second (Mul 1 20)) = max_nanos /\ fixed_nanos true 1 20 = - max_nanos.
Proof. vm_compute. split; reflexivity. Qed.
Print Assumptions C19_large_exponent_refuted.
Theorem C19_small_exponent_refuted :
  nanos (unit_value false Second (Mul (10 ^ 18) (-19))) = 0 /\ fixed_nanos false (10 ^ 18) (-19) = 10 ^ 8.
Proof. vm_compute. split; reflexivity. Qed.
Print Assumptions C19_small_exponent_refuted.

(** end to end (single durations): a sign and a keyword; a sign and a time unit; a numeral and a time unit *)
Theorem C19_keyword_text : forall c tu kw nums k s n l u m,
  env_ok c tu kw nums -> c_allow_multiple c = false -> utf8 s = true ->
  signed c s n l -> word c l -> kw = Some k -> u_get k l = Some (u, m) ->
  sign_allowed c (unit_value n u m) -> parse c s tu kw nums = Ok (unit_value n u m).
Proof.
  intros c tu kw nums k s n l u m He Hm Hs H1 H2 H3 H4 H5. unfold parse. rewrite Hm.
  apply parse_single_grammar; [exact He|exact Hs|]. split; [|exact H5]. eapply sd_keyword; eauto. now exists k.
Qed.
Print Assumptions C19_keyword_text.
Example C19_keyword_text_example : parse ex_single (%"- yesterday") ex_units (Some ex_keywords) (Some ex_numerals) = Ok (unit_value true Day (Mul (-1) 0)).
Proof.
  apply (C19_keyword_text ex_single ex_units (Some ex_keywords) (Some ex_numerals) ex_keywords (%"- yesterday") true (%"yesterday"));
    try reflexivity; try exact ex_env_single; try (now left).
  - apply (with_sign_delimiter _ 45 (%" yesterday") (%" ")); [reflexivity|reflexivity| |discriminate]. split; [reflexivity|]. split; [each|reflexivity].
  - apply a_word; reflexivity.
Qed.

Theorem C19_unit_text : forall c tu kw nums s n l u m,
  env_ok c tu kw nums -> c_allow_multiple c = false -> utf8 s = true ->
  signed c s n l -> word c l -> (forall k, kw = Some k -> u_get k l = None) -> c_number_is_optional c = true ->
  (forall x, In x l -> c_inner_delimiter c x = false) -> u_get tu l = Some (u, m) ->
  sign_allowed c (unit_value n u m) -> parse c s tu kw nums = Ok (unit_value n u m).
Proof.
  intros c tu kw nums s n l u m He Hm Hs H1 H2 H3 H4 H5 H6 H7. unfold parse. rewrite Hm.
  apply parse_single_grammar; [exact He|exact Hs|]. split; [|exact H7]. eapply sd_unit; eauto.
  - intros u' m' (k & Hk & E). rewrite (H3 k Hk) in E. discriminate.
  - apply single_unit_word; auto. intros ->. inversion H1; subst; congruence.
Qed.
Print Assumptions C19_unit_text.
Example C19_unit_text_example :
  parse (set_number_is_optional ex_single true) (%"back") ex_units (Some ex_keywords) (Some ex_numerals) = Ok (unit_value false Hour (Mul (-3) 0)).
Proof.
  apply (C19_unit_text (set_number_is_optional ex_single true) ex_units (Some ex_keywords) (Some ex_numerals) (%"back") false (%"back"));
    try reflexivity; try (now left); try (now apply ex_env; auto).
  - constructor; [reflexivity|discriminate].
  - apply a_word; reflexivity.
  - intros k [= <-]. reflexivity.
  - each.
Qed.

(** end to end: "[sign]unit" is accepted if and only if "[sign]1unit" is, with the same value *)
Theorem C19_unit_like_one_text : forall c tu kw nums sg n id u m,
  env_ok c tu kw nums -> c_allow_multiple c = false -> c_number_is_optional c = true ->
  sign_text sg n -> utf8 id = true -> id <> [] -> word c id -> starts_not is_sign id -> starts_not is_e id ->
  (forall x, In x id -> c_inner_delimiter c x = false) -> c_inner_delimiter c 49 = false ->
  (forall k, kw = Some k -> u_get k id = None) -> u_is_empty tu = false -> u_get tu id = Some (u, m) ->
  expo (unit_length u) + expo m <= 19 \/ n = false ->
  (xorb n (coef (unit_length u) * coef m <? 0) = true -> c_allow_negative c = true) ->
  exists d1 d2, parse c (sg ++ id) tu kw nums = Ok d1 /\ parse c (sg ++ %"1" ++ id) tu kw nums = Ok d2 /\ nanos d1 = nanos d2.
Proof.
  intros c tu kw nums sg n id u m He Hm Ho Hsg Hu Hid Hw Hs Hee Hd H1 Hk Ht Hg Hx Ha.
  assert (Hsa : sign_allowed c (unit_value n u m)).
  { unfold sign_allowed, unit_value, fixed_result. destruct (c_allow_negative c); [now left|right].
    destruct (_ =? 0); [reflexivity|]. destruct (_ <? -18); [reflexivity|].
    destruct (xorb n _) eqn:X; [discriminate (Ha eq_refl)|]. rewrite xorb_comm in X.
    destruct (Z.ltb_spec 19 (expo (unit_length u) + expo m)).
    - destruct Hx as [Hx| ->]; [lia|]. rewrite xorb_false_r in X. rewrite X. reflexivity.
    - cbn [is_negative neg]. exact X. }
  exists (unit_value n u m), (number_value n (%"1") [] 0 u m).
  split; [|split; [|now apply C19_unit_is_one_unit]].
  - eapply (C19_unit_text c tu kw nums (sg ++ id) n id u m); eauto.
    + destruct Hsg; [exact Hu| |]; exact Hu.
    + destruct Hsg; cbn [app].
      * constructor; [exact Hs|exact Hid].
      * destruct (c_allow_sign_delimiter c) eqn:D.
        -- apply (with_sign_delimiter c 43 id [] id); [reflexivity|exact D| |exact Hid]. split; [reflexivity|]. split; [intros x []|].
           destruct id; [exact I|]. apply Hd. now left.
        -- apply (with_sign c 43 id id); auto.
      * destruct (c_allow_sign_delimiter c) eqn:D.
        -- apply (with_sign_delimiter c 45 id [] id); [reflexivity|exact D| |exact Hid]. split; [reflexivity|]. split; [intros x []|].
           destruct id; [exact I|]. apply Hd. now left.
        -- apply (with_sign c 45 id id); auto.
  - pose proof (single_number_text c tu kw nums sg n (%"1") [] [] [] 0 [] id u m) as S. cbn [app] in S. cbn [app]. apply S; auto; clear S.
    + each.
    + constructor.
    + constructor.
    + discriminate.
    + intros []; reflexivity.
    + intros []; reflexivity.
    + split; [intros x []|]. split; [destruct id; [exact I|apply Hd; now left]|]. split; [reflexivity|now left].
    + destruct Hw as (W1 & W2 & _). now split; [|split].
    + apply number_value_allowed. exact Ha.
Qed.
Print Assumptions C19_unit_like_one_text.
Example C19_unit_like_one_text_example : let c := set_number_is_optional ex_single true in
  parse c (%"-back") ex_units None None = parse c (%"-1back") ex_units None None /\ parse c (%"-back") ex_units None None = Ok (Dur false (Std 10800 0)).
Proof. split; reflexivity. Qed.

Theorem C19_numeral_text : forall c tu kw nums f s n w ds l num u m,
  env_ok c tu kw nums -> c_allow_multiple c = false -> utf8 s = true ->
  signed c s n (w ++ ds ++ l) -> word c (w ++ ds ++ l) ->
  (forall k, kw = Some k -> u_get k (w ++ ds ++ l) = None) -> c_number_is_optional c = false ->
  nums = Some f -> f w = Some num -> w <> [] -> ds <> [] -> l <> [] ->
  (forall x, In x w \/ In x l -> c_inner_delimiter c x = false) -> (forall x, In x ds -> c_inner_delimiter c x = true) ->
  u_get tu l = Some (u, m) ->
  sign_allowed c (numeral_value n num u m) -> parse c s tu kw nums = Ok (numeral_value n num u m).
Proof.
  intros c tu kw nums f s n w ds l num u m He Hm Hs H1 H2 H3 H4 Hf Hw Nw Nd Nl Hx Hd Hu Ha. unfold parse. rewrite Hm.
  apply parse_single_grammar; [exact He|exact Hs|]. split; [|exact Ha]. eapply sd_numeral; eauto.
  - intros u' m' (k & Hk & E). rewrite (H3 k Hk) in E. discriminate.
  - rewrite H4. discriminate.
  - exists f, w, (ds ++ l), ds. split; [exact Hf|]. split.
    { split; [reflexivity|]. split; [intros x Hi; rewrite (Hx x) by auto; reflexivity|].
      destruct ds as [|y ds]; [congruence|]. cbn. rewrite (Hd y) by (left; reflexivity). reflexivity. }
    repeat split; auto. destruct l as [|y l]; [congruence|]. cbn. apply Hx. right. left. reflexivity.
  - apply single_unit_word; auto.
Qed.
Print Assumptions C19_numeral_text.
Example C19_numeral_text_example :
  parse ex_single (%"+dozen min") ex_units (Some ex_keywords) (Some ex_numerals) = Ok (numeral_value false (Mul 12 0) Minute (Mul 1 0)).
Proof.
  apply (C19_numeral_text ex_single ex_units (Some ex_keywords) (Some ex_numerals) ex_numerals (%"+dozen min") false (%"dozen") (%" ") (%"min"));
    try reflexivity; try exact ex_env_single; try (now left); try discriminate.
  - apply (with_sign_delimiter _ 43 (%"dozen min") []); [reflexivity|reflexivity| |discriminate]. split; [reflexivity|]. split; [each|reflexivity].
  - apply a_word; reflexivity.
  - intros k [= <-]. reflexivity.
  - intros x [H|H]; revert x H; each.
  - each.
Qed.

(** C45 *)
Theorem C45_floor_log10 : forall x, 1 <= x < 2 ^ 64 ->
  exists k, floor_log10 x = Ok k /\ 0 <= k /\ 10 ^ k <= x < 10 ^ (k + 1).
Proof. intros x H. apply floor_log10_spec. unfold u64_max. lia. Qed.
Print Assumptions C45_floor_log10.
Theorem C45_floor_log2 : forall x, 1 <= x < 2 ^ 64 ->
  exists k, floor_log2 x = Ok k /\ 0 <= k /\ 2 ^ k <= x < 2 ^ (k + 1).
Proof.
  intros x H. exists (Z.log2 x). split; [apply floor_log2_spec; unfold u64_max; lia|].
  split; [apply Z.log2_nonneg|]. apply (Z.log2_spec x). lia.
Qed.
Print Assumptions C45_floor_log2.
Example C45_example : floor_log10 18446744073709551615 = Ok 19 /\ floor_log10 9999999999 = Ok 9 /\ floor_log2 18446744073709551615 = Ok 63.
Proof. repeat split. Qed.
