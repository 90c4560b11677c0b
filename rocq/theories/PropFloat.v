(** * C83: the parser without time units reads what f64 reads *)
From Coq Require Import QArith Qabs Qpower Lqa Lia ZArith.
From Verif Require Import Prelude Time Config Parse Standard SpecTime SpecNum SpecParse SpecValue SpecGrammar SpecSpelling SpecFloat.
From Verif Require Import NumProofs ValueProofs SpellProofs Utf8Proofs StandardProofs PropNum PropParse PropStandard PropSigns SystemdProofs FloatProofs ExEnv.
Open Scope Z_scope.

(** what the parser makes of a literal: exponents of 16 bits, and no negative number unless it is below 10^-18 *)
Inductive float_duration : float_literal -> duration -> Prop :=
| fd_decimal W F x d : -32768 <= x <= 32767 -> duration_ok d -> is_negative d = false ->
    nanos d = Z.min max_nanos (floor_scale10 (dval (W ++ F)) (9 + x - Z.of_nat (length F))) ->
    float_duration (Decimal false W F x) d
| fd_tiny W F x : -32768 <= x <= 32767 -> floor_scale10 (dval (W ++ F)) (18 + x - Z.of_nat (length F)) = 0 ->
    float_duration (Decimal true W F x) ZERO
| fd_infinity : float_duration (Infinite false) MAX.

Lemma without_env : env_ok config_new (std_units units_new) None None.
Proof. apply (std_env []). Qed.

Lemma float_utf8 s l : float_text s l -> utf8 s = true.
Proof.
  intros H. destruct H as [sg n W fr F ex x Hsg HW Hf N He|sg n v Hsg Hv|sg n v Hsg Hv].
  - rewrite (utf8_sign sg n), utf8_digits, (utf8_fraction fr F) by assumption. destruct He as [|e sg' n' ds He Hs Hd Nd]; [reflexivity|].
    assert (E : utf8 (sg' ++ ds ++ []) = true). { rewrite (utf8_sign sg' n'), utf8_digits by assumption. reflexivity. }
    rewrite app_nil_r in E. cbn. destruct He as [->| ->]; exact E.
  - rewrite (utf8_sign sg n) by assumption.
    destruct Hv as [Hv|Hv]; (eapply nocase_utf8; [|exact Hv]); cbn; intros y Hy; repeat destruct Hy as [<-|Hy]; lia || contradiction.
  - rewrite (utf8_sign sg n) by assumption. (eapply nocase_utf8; [|exact Hv]); cbn; intros y Hy; repeat destruct Hy as [<-|Hy]; lia || contradiction.
Qed.

Lemma seconds_value n W F x : digit_string W -> digit_string F ->
  number_value n W F x Second default_multiplier = number_result n (dval (W ++ F)) (x - Z.of_nat (length F)) 1.
Proof. intros HW HF. unfold number_value. cbn. now destruct n. Qed.

Lemma float_exponent_range ex x : float_exponent ex x -> -32768 <= x <= 32767 -> exponent_text ex x.
Proof. intros [|e sg n ds He Hs Hd Nd] R; [constructor|]. now apply (et_some e sg n ds). Qed.

Lemma signed_plain s n l : signed config_new s n l -> exists sg, sign_text sg n /\ s = sg ++ l.
Proof.
  intros [l' H1 H2|x l' r Hx _ -> H2|x l' ds r _ H _ _]; [|destruct (Z.eqb_spec x 45) as [->|]| discriminate].
  - exists []. split; [constructor|reflexivity].
  - exists (%"-"). split; [constructor|reflexivity].
  - assert (x = 43) as -> by (unfold is_sign in Hx; lia). exists (%"+"). split; [constructor|reflexivity].
Qed.

Lemma digits_iff W : (forall x, In x W -> is_digit x = true) -> digit_string W.
Proof. intros H. now apply digit_string_is_digit. Qed.

Lemma number_plain l W F x : number config_new l W F x [] ->
  digit_string W /\ W ++ F <> [] /\ (-32768 <= x <= 32767) /\ exists fr ex, fraction_text fr F /\ float_exponent ex x /\ l = W ++ fr ++ ex.
Proof.
  intros (l1 & l2 & l3 & (E1 & H1 & _) & Hf & He & Hu & N).
  assert (l3 = []) as -> by (inversion Hu; [reflexivity|discriminate]).
  split; [now apply digits_iff|]. split; [exact N|].
  assert (Ex : exists ex, float_exponent ex x /\ l2 = ex /\ -32768 <= x <= 32767).
  { inversion He as [l' H|y sg n l' ds r e Hy _ Hs (E2 & H2 & _) Nd E3 R]; subst.
    - exists []. split; [constructor|split; [reflexivity|lia]].
    - rewrite app_nil_r in *. exists (y :: sg ++ ds). split; [|split; [reflexivity|exact R]]. constructor; auto.
      + unfold is_e in Hy. lia.
      + destruct Hs; constructor.
      + now apply digits_iff. }
  destruct Ex as (ex & Hx & -> & R). split; [exact R|].
  inversion Hf as [l' H|l' F' r _ (E2 & H2 & _)]; subst.
  - exists [], ex. split; [constructor|]. split; [exact Hx|reflexivity].
  - exists (%"." ++ F), ex. split; [constructor; now apply digits_iff|]. split; [exact Hx|reflexivity].
Qed.

Lemma without_empty : u_is_empty (std_units units_new) = true. Proof. reflexivity. Qed.

Lemma result_pos V k : 0 <= V -> nanos (number_result false V k 1) = Z.min max_nanos (floor_scale10 V (9 + k)).
Proof.
  intros HV. rewrite number_result_nanos by exact HV. unfold magnitude.
  pose proof (C17_exact V k 1 (or_intror eq_refl)) as E. change (10 ^ 9) with 1000000000 in E. rewrite E. now rewrite Z.mul_1_l.
Qed.

Lemma dval_pos W F : digit_string W -> digit_string F -> 0 <= dval (W ++ F).
Proof. intros. apply dval_nonneg, digit_string_app. now split. Qed.

(** ** Exactly the literals of f64 are accepted (except `nan`), with the exact value rounded down to nanoseconds *)
Theorem C83_float_texts : forall s d, utf8 s = true ->
  dp_parse dp_without_time_units s = Ok d <-> exists l, float_text s l /\ float_duration l d.
Proof.
  intros s d Us. unfold dp_parse. cbn [dp_config dp_units dp_without_time_units].
  rewrite (C22_single_grammar config_new (std_units units_new) None None s d without_env Us eq_refl). split.
  - intros [H A]. unfold sign_allowed in A. destruct A as [A|A]; [discriminate|].
    destruct H as [s n l W F x H1 H2|s n l W F x r u m H1 H2 H3 H4 H5|s n l H1 H2 H3|s n l u m H1 H2 H3|s n l u m H1 H2 H3 H4 H5|s n l num r u m H1 H2 H3 H4 H5 H6].
    + destruct (signed_plain _ _ _ H1) as (sg & Hs & ->).
      destruct (number_plain _ _ _ _ H2) as (HW & N & R & fr & ex & Hf & He & ->). pose proof (fraction_text_digits _ _ Hf) as HF.
      exists (Decimal n W F x). split; [now constructor|]. cbn [c_default_unit config_new] in *.
      rewrite seconds_value in * by assumption. pose proof (dval_pos W F HW HF) as HV. destruct n.
      * unfold number_result in A |- *. destruct (floor_scale10 _ _ =? 0) eqn:E; cbn [orb] in *.
        -- replace (18 + (x - Z.of_nat (length F))) with (18 + x - Z.of_nat (length F)) in E by lia. apply Z.eqb_eq in E. now constructor.
        -- discriminate A.
      * constructor; [exact R| |exact A|].
        -- rewrite <- seconds_value by assumption. now apply number_value_ok.
        -- rewrite result_pos by assumption. do 2 f_equal. lia.
    + rewrite without_empty in H4. discriminate.
    + destruct (signed_plain _ _ _ H1) as (sg & Hs & ->). destruct n; [discriminate A|].
      exists (Infinite false). split; [now constructor|constructor].
    + destruct H3 as (k & E & _). discriminate.
    + discriminate.
    + destruct H5 as (f & w & l1 & ds & E & _). discriminate.
  - intros (l & Ht & Hd). rewrite <- (C22_single_grammar config_new (std_units units_new) None None s d without_env Us eq_refl).
    destruct Ht as [sg n W fr F ex x Hsg HW Hf N He|sg n v Hsg Hv|sg n v Hsg Hv].
    + pose proof (fraction_text_digits _ _ Hf) as HF. pose proof (dval_pos W F HW HF) as HV.
      assert (R : -32768 <= x <= 32767) by (inversion Hd; assumption).
      assert (G : sign_allowed config_new (number_value n W F x Second default_multiplier) /\ number_value n W F x Second default_multiplier = d).
      { rewrite seconds_value by assumption. inversion Hd as [W' F' x' d' R' Dok Neg E|W' F' x' R' E|]; subst.
        - unfold sign_allowed. assert (P : is_negative (number_result false (dval (W ++ F)) (x - Z.of_nat (length F)) 1) = false).
          { unfold number_result. now destruct (_ || _). }
          split; [now right|]. apply nanos_eq_pos; try assumption.
          + rewrite <- seconds_value by assumption. now apply number_value_ok.
          + rewrite result_pos by assumption. rewrite E. do 2 f_equal. lia.
        - unfold number_result. replace (18 + (x - Z.of_nat (length F))) with (18 + x - Z.of_nat (length F)) by lia. rewrite E. cbn [Z.eqb orb].
          split; [now right|reflexivity]. }
      destruct G as [G <-].
      apply (single_number_text_default config_new (std_units units_new) None None sg n W fr F ex x without_env eq_refl); auto.
      * now apply float_exponent_range.
      * discriminate.
    + inversion Hd; subst. apply (single_infinity_text config_new (std_units units_new) None None sg false v without_env eq_refl); auto; discriminate.
    + inversion Hd.
Qed.
Print Assumptions C83_float_texts.

(** `+12.5e-3` is 12.5 milliseconds, `-.000000000000000000999` is zero *)
Example C83_float_texts_example :
  dp_parse dp_without_time_units (%"+12.5e-3") = Ok (Dur false (Std 0 12500000)) /\
  dp_parse dp_without_time_units (%"-.000000000000000000999") = Ok ZERO.
Proof.
  split; (apply C83_float_texts; [reflexivity|]).
  - exists (Decimal false (%"12") (%"5") (-3)). split.
    + apply (float_decimal (%"+") false (%"12") (%".5") (%"5") (%"e-3") (-3)); [constructor|each| |discriminate|].
      * apply (ft_some (%"5")). each.
      * apply (fe_some 101 (%"-") true (%"3")); [now left|constructor|each|discriminate].
    + constructor; [lia|split; reflexivity|reflexivity|reflexivity].
  - exists (Decimal true [] (%"000000000000000000999") 0). split.
    + apply (float_decimal (%"-") true [] (%".000000000000000000999") (%"000000000000000000999") [] 0); [constructor|each| |discriminate|constructor].
      apply (ft_some (%"000000000000000000999")). each.
    + constructor; [lia|reflexivity].
Qed.

Lemma negative_refused s d : utf8 s = true -> parse (set_allow_negative config_new true) s (std_units units_new) None None = Ok d ->
  is_negative d = true -> dp_parse dp_without_time_units s = Err NegativeNumber.
Proof.
  intros Us E N. unfold dp_parse. cbn [dp_config dp_units dp_without_time_units].
  change config_new with (set_allow_negative config_new false) at 1.
  rewrite (C53_single_switch config_new (std_units units_new) None None s without_env Us eq_refl), E, N. reflexivity.
Qed.

Lemma negative_env : env_ok (set_allow_negative config_new true) (std_units units_new) None None.
Proof. destruct without_env. constructor; assumption. Qed.

(** ** and the others are rejected for their exponent or their sign *)
Theorem C83_float_errors : forall s l, float_text s l ->
  match l with
  | Decimal n W F x =>
      (32767 < x -> dp_parse dp_without_time_units s = Err PositiveExponentOverflow) /\
      (x < -32768 -> dp_parse dp_without_time_units s = Err NegativeExponentOverflow) /\
      (n = true -> -32768 <= x <= 32767 -> 0 < floor_scale10 (dval (W ++ F)) (18 + x - Z.of_nat (length F)) ->
         dp_parse dp_without_time_units s = Err NegativeNumber)
  | Infinite n => n = true -> dp_parse dp_without_time_units s = Err NegativeNumber
  | NotANumber _ => exists e, dp_parse dp_without_time_units s = Err e
  end.
Proof.
  intros s l H. pose proof (float_utf8 s l H) as Us.
  destruct H as [sg n W fr F ex x Hsg HW Hf N He|sg n v Hsg Hv|sg n v Hsg Hv].
  - pose proof (fraction_text_digits _ _ Hf) as HF. pose proof (dval_pos W F HW HF) as HV.
    assert (O : ~ (-32768 <= x <= 32767) -> dp_parse dp_without_time_units (sg ++ W ++ fr ++ ex) =
                Err (if x <? 0 then NegativeExponentOverflow else PositiveExponentOverflow)).
    { intros R. destruct He as [|e sg' n' ds He Hs Hd Nd]; [lia|]. pose proof (dval_nonneg ds Hd) as Dp.
      unfold dp_parse. cbn [dp_config dp_units dp_without_time_units].
      rewrite (C28_exponent_overflow config_new (std_units units_new) None None (sg ++ W ++ fr ++ e :: sg' ++ ds) n W F n' e sg' ds []); auto using without_env.
      - do 2 f_equal. destruct n'; destruct (Z.ltb_spec (if true then - dval ds else dval ds) 0); try lia; cbn in *; destruct (Z.ltb_spec (dval ds) 0); try lia; reflexivity.
      - rewrite app_nil_r. constructor; auto; try discriminate.
        + cbn. unfold is_digit. lia.
        + intros _. cbn. unfold is_dot. lia.
      - exact I. }
    split; [|split].
    + intros R. rewrite O by lia. now replace (x <? 0) with false by lia.
    + intros R. rewrite O by lia. now replace (x <? 0) with true by lia.
    + intros -> R P. eapply negative_refused; [exact Us| |].
      * apply (single_number_text_default (set_allow_negative config_new true) (std_units units_new) None None sg true W fr F ex x negative_env eq_refl); auto.
        -- now apply float_exponent_range.
        -- discriminate.
        -- now left.
      * cbn [c_default_unit set_allow_negative config_new]. rewrite seconds_value by assumption. unfold number_result.
        replace (18 + (x - Z.of_nat (length F))) with (18 + x - Z.of_nat (length F)) by lia.
        replace (floor_scale10 _ _ =? 0) with false by lia. reflexivity.
  - intros ->. eapply negative_refused; [exact Us| |].
    + apply (single_infinity_text (set_allow_negative config_new true) (std_units units_new) None None sg true v negative_env eq_refl); auto. discriminate.
    + reflexivity.
  - destruct (C20_never_crashes config_new (std_units units_new) None None (sg ++ v) without_env Us) as [(d & E & _)|(e & E)]; [|exists e; exact E].
    exfalso. pose proof (proj1 (C83_float_texts (sg ++ v) d Us) E) as (l & Ht & Hd).
    assert (Nv : exists a b c, v = [a; b; c] /\ (a = 110 \/ a = 78)).
    { pose proof (str_eq_nocase_length _ _ Hv) as L. destruct v as [|a [|b [|c [|]]]]; try discriminate L.
      exists a, b, c. split; [reflexivity|]. cbn in Hv. apply andb_true_iff in Hv. destruct Hv as [Hv _]. apply nocase_letter in Hv; lia. }
    destruct Nv as (a & b & c & -> & Ha).
    assert (Sg : forall sg' m w, sign_text sg' m -> sg ++ [a; b; c] = sg' ++ w -> starts_not is_sign w -> w = [a; b; c]).
    { intros sg' m w Hs E2 Hw. destruct Hsg, Hs; cbn in E2; try (injection E2; intros; subst; try reflexivity; try lia);
        subst w; cbn in Hw; unfold is_sign in Hw; try lia; reflexivity. }
    inversion Ht as [sg' n' W fr F ex x Hsg' HW Hf N He E1 E2|sg' n' w Hsg' Hw E1 E2|sg' n' w Hsg' Hw E1 E2]; subst.
    + destruct (number_text_head W fr F ex HW Hf N) as (N1 & N2). specialize (Sg sg' n' (W ++ fr ++ ex) Hsg' (eq_sym E1) N2).
      destruct W as [|w W].
      * destruct Hf as [|F HF]; [now destruct N|]. cbn in Sg. injection Sg. lia.
      * cbn in Sg. injection Sg. intros _ E3. specialize (HW w (or_introl eq_refl)). lia.
    + assert (Hi : exists y w', w = y :: w' /\ (y = 105 \/ y = 73)).
      { destruct w as [|y w']; [destruct Hw; discriminate|]. exists y, w'. split; [reflexivity|].
        destruct Hw as [Hw|Hw]; cbn in Hw; apply andb_true_iff in Hw; destruct Hw as [Hw _]; apply nocase_letter in Hw; lia. }
      destruct Hi as (y & w' & -> & Hy).
      specialize (Sg sg' n' (y :: w') Hsg' (eq_sym E1)). cbn in Sg. unfold is_sign in Sg. specialize (Sg ltac:(lia)). injection Sg. lia.
    + inversion Hd.
Qed.
Print Assumptions C83_float_errors.

Example C83_float_errors_example :
  dp_parse dp_without_time_units (%"1e32768") = Err PositiveExponentOverflow /\
  dp_parse dp_without_time_units (%"1E-32769") = Err NegativeExponentOverflow /\
  dp_parse dp_without_time_units (%"-1e-18") = Err NegativeNumber /\
  dp_parse dp_without_time_units (%"-inf") = Err NegativeNumber.
Proof.
  split; [|split; [|split]].
  - apply (C83_float_errors (%"1e32768") (Decimal false (%"1") [] 32768)); [|lia].
    apply (float_decimal [] false (%"1") [] [] (%"e32768") 32768); [constructor|each|constructor|discriminate|].
    apply (fe_some 101 [] false (%"32768")); [now left|constructor|each|discriminate].
  - apply (C83_float_errors (%"1E-32769") (Decimal false (%"1") [] (-32769))); [|lia].
    apply (float_decimal [] false (%"1") [] [] (%"E-32769") (-32769)); [constructor|each|constructor|discriminate|].
    apply (fe_some 69 (%"-") true (%"32769")); [now right|constructor|each|discriminate].
  - apply (C83_float_errors (%"-1e-18") (Decimal true (%"1") [] (-18))); [|reflexivity|lia|reflexivity].
    apply (float_decimal (%"-") true (%"1") [] [] (%"e-18") (-18)); [constructor|each|constructor|discriminate|].
    apply (fe_some 101 (%"-") true (%"18")); [now left|constructor|each|discriminate].
  - apply (C83_float_errors (%"-inf") (Infinite true)); [|reflexivity].
    apply (float_infinite (%"-") true (%"inf")); [constructor|now left].
Qed.

Local Open Scope Q_scope.
(** The contract of the fuzz target fundu/fuzz/fuzz_targets/f64_like_input.rs: what comes out by way of f64 differs by at most 1024 seconds
    (there the bound is "backed by a lot of random runs") *)
Theorem C83_near_f64 : forall s W F x d f r,
  float_text s (Decimal false W F x) -> dp_parse dp_without_time_units s = Ok d ->
  read_double (decimal_value W F x) f -> std_from_double f r ->
  (Z.abs (nanos d - r) <= 1024 * 10 ^ 9)%Z.
Proof.
  intros s W F x d f r Ht E Hf Hr. pose proof (float_utf8 _ _ Ht) as Us.
  assert (D : digit_string W /\ digit_string F).
  { inversion Ht; subst. split; [assumption|]. eapply fraction_text_digits; eassumption. }
  destruct D as [HW HF]. pose proof (dval_pos W F HW HF) as HV.
  assert (R : (-32768 <= x <= 32767)%Z).
  { destruct (C83_float_errors _ _ Ht) as (E1 & E2 & _).
    destruct (Z.leb_spec x 32767) as [?|L]; [|rewrite (E1 L) in E; discriminate].
    destruct (Z.leb_spec (-32768) x) as [?|L]; [|rewrite (E2 L) in E; discriminate]. lia. }
  set (d0 := number_value false W F x Second default_multiplier).
  assert (D0 : float_duration (Decimal false W F x) d0).
  { unfold d0. constructor; [exact R|now apply number_value_ok| |].
    - rewrite seconds_value by assumption. unfold number_result. now destruct (_ || _).
    - rewrite seconds_value, result_pos by assumption. do 2 f_equal. lia. }
  pose proof (proj2 (C83_float_texts s d0 Us) (ex_intro _ _ (conj Ht D0))) as E0. rewrite E in E0. injection E0 as ->.
  inversion D0 as [W' F' x' d' R' Dok Neg N| |]; subst W' F' x' d'. rewrite N.
  pose proof (floor_scaled (dval (W ++ F)) (9 + x - Z.of_nat (length F)) HV) as B.
  set (v := decimal_value W F x) in *.
  assert (Ev : inject_Z (dval (W ++ F)) * (10 # 1) ^ (9 + x - Z.of_nat (length F)) == v * (1000000000 # 1)).
  { unfold v, decimal_value. replace (9 + x - Z.of_nat (length F))%Z with ((x - Z.of_nat (length F)) + 9)%Z by lia.
    rewrite Qpower_plus by discriminate. change ((10 # 1) ^ 9) with (1000000000 # 1). ring. }
  rewrite Ev in B.
  assert (V0 : 0 <= v).
  { unfold v, decimal_value. apply Qmult_le_0_compat; [change 0 with (inject_Z 0); now rewrite <- Zle_Qle|]. apply Qpower_pos. discriminate. }
  apply (near_double v f); [exact V0| | |exact B|exact Hr].
  - destruct Hf as [q _ Dq Nq|_]; [right|now left]. exists q. repeat split; assumption.
  - intros ->. inversion Hf as [|L]. eapply Qle_trans; [|exact L]. vm_compute. discriminate.
Qed.
Print Assumptions C83_near_f64.

(** and the bound is reached: 9223372036854776832 (2^63 + 1024) lies in the middle between two doubles *)
Theorem C83_bound_is_reached :
  let s := %"9223372036854776832" in
  exists d q r, float_text s (Decimal false s [] 0) /\ dp_parse dp_without_time_units s = Ok d /\
    read_double (decimal_value s [] 0) (Some q) /\ std_from_double (Some q) r /\ (nanos d - r = 1024 * 10 ^ 9)%Z.
Proof.
  cbv zeta. exists (Dur false (Std 9223372036854776832 0)), (inject_Z (2 ^ 63)), (2 ^ 63 * 10 ^ 9)%Z. split; [|split; [reflexivity|split; [|split; [|reflexivity]]]].
  - change (%"9223372036854776832") with ([] ++ (%"9223372036854776832") ++ [] ++ []) at 1. constructor.
    + constructor.
    + each.
    + constructor.
    + discriminate.
    + constructor.
  - apply rd_finite; [reflexivity|apply (double_grid (2 ^ 52)); split; vm_compute; congruence|].
    intros q' D. destruct (Qlt_le_dec (inject_Z (2 ^ 63)) q') as [L|L].
    + pose proof (double_between q' D L) as B. change (inject_Z (2 ^ 63 + 2048)) with (9223372036854777856 # 1) in B.
      setoid_replace (decimal_value (%"9223372036854776832") [] 0) with (9223372036854776832 # 1) by (vm_compute; reflexivity).
      change (inject_Z (2 ^ 63)) with (9223372036854775808 # 1).
      change (Qabs ((9223372036854776832 # 1) - (9223372036854775808 # 1))) with (1024 # 1).
      rewrite Qabs_neg by lra. lra.
    + setoid_replace (decimal_value (%"9223372036854776832") [] 0) with (9223372036854776832 # 1) by (vm_compute; reflexivity).
      change (inject_Z (2 ^ 63)) with (9223372036854775808 # 1) in *. rewrite !Qabs_pos by lra. lra.
  - apply fd_finite; [reflexivity|]. vm_compute. discriminate.
Qed.
Print Assumptions C83_bound_is_reached.
