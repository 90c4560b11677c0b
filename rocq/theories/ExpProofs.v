(** * An exponent which does not fit 16 bits is reported as such (C28) *)
From Verif Require Import Prelude Util Time Config Bytes Repr Parse SpecTime SpecNum SpecValue SpecParse SpecGrammar SpecSpelling
  TimeProofs NumProofs ReprProofs Utf8Proofs BytesProofs SafeProofs RefParse RefProofs RefSingle RefMulti RefGrammar ValueProofs SpellProofs SwitchProofs.

Lemma starts_number_inv c n W F rest s : starts_number c n W F rest s ->
  exists sg fr, s = sg ++ W ++ fr ++ rest /\ sign_text sg n /\ digit_string W /\ fraction_text fr F /\ W ++ F <> [] /\
    (fr <> [] -> c_disable_fraction c = false) /\
    (sg <> [] -> c_allow_sign_delimiter c = true -> starts_not (c_inner_delimiter c) (W ++ fr)) /\
    starts_not is_digit rest /\ (fr = [] -> starts_not is_dot rest).
Proof. intros [sg fr]. exists sg, fr. auto 10. Qed.

Section Exp.
Context (c : config) (tu : units_like) (kw : option units_like) (nums : option numbers_like) {O : Type} (T : template O).
Notation K := (keyword_end c).

Lemma number_exponent_overflow s b r (en : bool) x sg ds rest : SC K s b (x :: sg ++ ds ++ rest) -> utf8 (x :: sg ++ ds ++ rest) = true ->
  x = 101 \/ x = 69 -> c_disable_exponent c = false -> sign_text sg en -> digit_string ds -> ds <> [] -> starts_not is_digit rest ->
  ~ (-32768 <= (if en then - dval ds else dval ds) <= 32767) ->
  parse_number_exponent b r (c_disable_exponent c) = Err (if en then NegativeExponentOverflow else PositiveExponentOverflow).
Proof.
  intros H U Hx Hd Hsg HD Nd Hr Ho. unfold parse_number_exponent. rewrite (SC_cur _ _ _ _ H). cbn [hd_opt].
  rewrite is_e_eq. replace (is_e x) with true by (unfold is_e; lia). rewrite Hd. cbn [negb andb].
  assert (Hxa : 0 <= x <= 127) by lia.
  pose proof (SC_advance _ _ _ _ _ H Hxa) as H1.
  assert (Done : forall b1 : scanner, SC K s b1 (ds ++ rest) ->
    (let* r0 := exponent_loop (loop_fuel b1) en 0 b1 in
     let '(b2, exponent) := r0 in
     let* n := sub_usize (pos b2) (pos b1) in
     if (0 <? n)%nat then Ok (b2, exponent)
     else if is_end_of_input b2 then Err (Syntax (pos b2) (%"Expected exponent but reached end of input"))
     else Err (Syntax (pos b2) (%"The exponent must have at least one digit")))
    = Err (if en then NegativeExponentOverflow else PositiveExponentOverflow)).
  { intros b1 S1. destruct (SC_destruct _ _ _ _ S1) as (pre & buf & -> & _).
    rewrite exponent_digits_at by (eapply SC_bytes; eauto).
    destruct (take_while_app_stop is_digit ds rest) as [-> _]; [now apply digit_string_is_digit|exact Hr|].
    cbv zeta. replace (is_i16 (RefProofs.sg en (dval ds))) with false; [reflexivity|].
    symmetry. apply not_true_is_false. rewrite RefProofs.is_i16_iff. unfold RefProofs.sg. exact Ho. }
  unfold parse_exponent, parse_sign_is_negative. rewrite (SC_cur _ _ _ _ H1).
  destruct Hsg; cbn [bytes_of app hd_opt] in *.
  - destruct ds as [|y ds]; [congruence|]. cbn [app hd_opt]. apply digit_string_cons in HD as HD'. destruct HD' as [Hy _].
    replace (y =? 43) with false by lia. replace (y =? 45) with false by lia. cbn [bind neg_or_default].
    specialize (Done _ H1). cbn [app] in Done. cbn [neg_or_default] in Done. rewrite Done. reflexivity.
  - change (Z.of_nat (nat_of_ascii "+")) with 43 in *. cbn [Z.eqb Pos.eqb bind neg_or_default].
    pose proof (SC_advance _ _ _ _ _ H1 ltac:(lia)) as H2. rewrite (Done _ H2). reflexivity.
  - change (Z.of_nat (nat_of_ascii "-")) with 45 in *. cbn [Z.eqb Pos.eqb bind neg_or_default].
    pose proof (SC_advance _ _ _ _ _ H1 ltac:(lia)) as H2. rewrite (Done _ H2). reflexivity.
Qed.

Lemma template_exponent_overflow s n W F (en : bool) x sg ds rest :
  env_ok c tu kw nums -> utf8 rest = true ->
  starts_number c n W F (x :: sg ++ ds ++ rest) s ->
  x = 101 \/ x = 69 -> c_disable_exponent c = false -> sign_text sg en -> digit_string ds -> ds <> [] -> starts_not is_digit rest ->
  ~ (-32768 <= (if en then - dval ds else dval ds) <= 32767) ->
  template_parse T (bytes_new s) c tu kw nums = Err (if en then NegativeExponentOverflow else PositiveExponentOverflow).
Proof.
  intros HE U Hst Hx Hd Hsg HD Nd Hr Ho.
  assert (Ue : utf8 (x :: sg ++ ds ++ rest) = true).
  { cbn [utf8]. replace (inb 0 127 x) with true by (unfold inb; lia). now rewrite (utf8_sign sg en), utf8_digits. }
  pose proof (starts_number_signed _ _ _ _ _ _ Hst) as (l & Hs & Hh & _).
  assert (Us : utf8 s = true).
  { destruct Hst as [sg0 fr Hsg0 HW Hf _ _ _ _ _]. now rewrite (utf8_sign sg0 n), utf8_digits, (utf8_fraction fr F) by assumption. }
  assert (Ns : s <> []). { intros ->. inversion Hs; congruence. }
  pose proof (SC_init K s Us) as H0. unfold template_parse. rewrite (SC_cur _ _ _ _ H0).
  destruct s as [|y0 s0]; [congruence|]. cbn [hd_opt]. set (s := y0 :: s0) in *.
  pose proof (sim_signed c K s _ _ (env_inner _ _ _ _ HE) H0 Ns) as S1. rewrite (proj1 (signed_iff c s n l) Hs) in S1.
  destruct (parse_number_sign _ _ _) as [[b1 r1]|?|?]; [|contradiction|contradiction]. cbn [sim fst snd] in S1.
  destruct S1 as (S1 & R1 & Nl & _). cbn [bind]. rewrite (SC_cur _ _ _ _ S1).
  destruct l as [|y l]; [contradiction|]. cbn [hd_opt].
  (* the fraction *)
  assert (Frac : forall b2 r2 W2 l2, SC K s b2 l2 -> before_fraction c s n W2 l2 r2 -> f_fraction c l2 = Some (F, x :: sg ++ ds ++ rest) -> W2 = W ->
    template_number T b2 r2 c tu = Err (if en then NegativeExponentOverflow else PositiveExponentOverflow)).
  { intros b2 r2 W2 l2 S2 B2 E2 ->. unfold template_number. pose proof (sim_fraction c K s _ _ _ _ _ S2 B2) as S3. rewrite E2 in S3.
    destruct (is_empty (W ++ F)) eqn:Ee.
    { apply is_empty_iff in Ee. destruct Hst as [? ? _ _ _ NE _ _ _ _]. congruence. }
    cbn [obind] in S3. rewrite Ee in S3.
    destruct (parse_number_fraction _ _ _) as [[[b3 r3] go]|?|?]; [|contradiction|contradiction]. cbn [sim fst snd] in S3.
    destruct S3 as (S3 & R3 & _ & _ & Hgo). destruct go; [|specialize (Hgo eq_refl); discriminate]. cbn [bind negb].
    rewrite (number_exponent_overflow s b3 r3 en x sg ds rest); auto. }
  destruct (starts_number_inv _ _ _ _ _ _ Hst) as (sg0 & fr & Es & Hsg0 & HW & Hf & NE & Df & Ddel & Hrd & Hrdot).
  assert (El : y :: l = W ++ fr ++ x :: sg ++ ds ++ rest).
  { destruct (number_text_head W fr F (x :: sg ++ ds ++ rest) HW Hf NE) as [N1 N2].
    rewrite Es in Hs. eapply sign_text_signed in Hs; eauto; [apply Hs|]. intros A B. rewrite app_assoc. apply starts_not_app; [auto|].
    intros E. apply app_eq_nil in E. destruct E as [-> ->]. apply fraction_text_nil in Hf. subst F. now destruct NE. }
  assert (Efr : f_fraction c (fr ++ x :: sg ++ ds ++ rest) = Some (F, x :: sg ++ ds ++ rest)).
  { apply fraction_iff. destruct Hf as [|F HF]; [apply no_fraction; auto|]. cbn [app bytes_of].
    apply some_fraction; [apply Df; discriminate|]. now apply span_digits. }
  destruct (is_digit y) eqn:Ey.
  - destruct (sim_whole c K s b1 y l n r1 S1 Ey R1) as (b2 & w & E2 & S2 & R2). rewrite E2. cbn [bind].
    destruct (take_while_app_stop is_digit W (fr ++ x :: sg ++ ds ++ rest)) as [T1 T2].
    { now apply digit_string_is_digit. }
    { apply starts_not_app; [eapply fraction_text_head; eauto|auto]. }
    rewrite El in S2, R2. rewrite T2 in S2. rewrite T1 in R2.
    assert (NW : W <> []). { intros ->. cbn [app] in El. destruct Hf as [|F HF]; [now destruct NE|]. cbn in El. injection El as -> _. discriminate. }
    apply (Frac _ _ W _ S2); [|exact Efr|reflexivity]. left. split; [|exact NW]. split; [exact R2|discriminate].
  - assert (W = []). { destruct W as [|z W]; [reflexivity|]. cbn in El. injection El as -> _. apply digit_string_cons in HW. unfold is_digit in Ey. lia. }
    subst W. cbn [app] in *. assert (y = 46) by (destruct Hf as [|F HF]; [now destruct NE|]; cbn in El; now injection El as -> _).
    subst y. rewrite Z.eqb_refl. rewrite El in S1. apply (Frac _ _ [] _ S1); [|exact Efr|reflexivity]. right. split; [reflexivity|]. split; [exact R1|].
    destruct Hf as [|F HF]; [now destruct NE|]. reflexivity.
Qed.
End Exp.

Lemma parse_exponent_overflow c tu kw nums s n W F (en : bool) x sg ds rest :
  env_ok c tu kw nums -> utf8 rest = true ->
  starts_number c n W F (x :: sg ++ ds ++ rest) s ->
  x = 101 \/ x = 69 -> c_disable_exponent c = false -> sign_text sg en -> digit_string ds -> ds <> [] -> starts_not is_digit rest ->
  ~ (-32768 <= (if en then - dval ds else dval ds) <= 32767) ->
  parse c s tu kw nums = Err (if en then NegativeExponentOverflow else PositiveExponentOverflow).
Proof.
  intros HE U Hst Hx Hd Hsg HD Nd Hr Ho. unfold parse, parse_multiple, parse_single. destruct (c_allow_multiple c).
  - cbn [multiple_loop]. erewrite template_exponent_overflow; eauto. reflexivity.
  - erewrite template_exponent_overflow; eauto. reflexivity.
Qed.
