(** * Property C28: exponents in range are read exactly *)
From Verif Require Import Prelude Time Config Parse SpecTime SpecNum SpecParse SpecValue SpecGrammar SpecSpelling NumProofs SpellProofs Utf8Proofs PropParse PropNum ExEnv.

(** The number W.F with an exponent which fits 16 bits is the duration W.F * 10^exponent of the default unit (seconds), rounded down to
    nanoseconds, at most the greatest duration. (Out of this range it is an error: C28_exponent_overflow.) *)
Theorem C28_exponent_exact : forall c tu kw nums sg n W fr F x (es : str) (en : bool) ds,
  env_ok c tu kw nums -> c_allow_multiple c = false -> c_default_unit c = Second ->
  sign_text sg n -> digit_string W -> fraction_text fr F -> W ++ F <> [] -> (fr <> [] -> c_disable_fraction c = false) ->
  (sg <> [] -> c_allow_sign_delimiter c = true -> starts_not (c_inner_delimiter c) (W ++ fr)) -> (n = true -> c_allow_negative c = true) ->
  c_disable_exponent c = false -> x = 101 \/ x = 69 -> sign_text es en -> digit_string ds -> ds <> [] ->
  let e := if en then - dval ds else dval ds in -32768 <= e <= 32767 ->
  exists d, parse c (sg ++ W ++ fr ++ x :: es ++ ds) tu kw nums = Ok d /\ duration_ok d /\
    nanos d = (if n then Z.opp else id) (Z.min max_nanos (floor_scale10 (dval (W ++ F)) (9 + e - Z.of_nat (length F)))).
Proof.
  intros c tu kw nums sg n W fr F x es en ds H1 H2 H3 H4 H5 H6 H7 H8 H9 H10 H11 H12 H13 H14 H15 e H16.
  destruct (C17_number_without_unit c tu kw nums sg n W fr F (x :: es ++ ds) e) as (d & E & O & N); auto.
  - apply et_some with en; auto.
  - exists d. split; [exact E|]. split; [exact O|]. rewrite N, H3. cbn [unit_length coef expo].
    replace (0 + e - Z.of_nat (length F)) with (e - Z.of_nat (length F)) by lia.
    pose proof (C17_exact (dval (W ++ F)) (e - Z.of_nat (length F)) 1 (or_intror eq_refl)) as X. change (Z.abs 1) with 1 in X. rewrite X, Z.mul_1_l.
    replace (9 + (e - Z.of_nat (length F))) with (9 + e - Z.of_nat (length F)) by lia. destruct n; reflexivity.
Qed.
Print Assumptions C28_exponent_exact.
Example C28_exponent_exact_example :
  exists d, parse ex_single (%"12.5E-0000000010") ex_units None None = Ok d /\ nanos d = 1.
Proof.
  destruct (C28_exponent_exact ex_single ex_units None None [] false (%"12") (%".5") (%"5") 69 (%"-") true (%"0000000010")) as (d & E & _ & N).
  - apply ex_env; auto.
  - reflexivity.
  - reflexivity.
  - constructor.
  - each.
  - apply (ft_some (%"5")). each.
  - discriminate.
  - reflexivity.
  - intros H. now elim H.
  - discriminate.
  - reflexivity.
  - now right.
  - constructor.
  - each.
  - discriminate.
  - vm_compute. split; discriminate.
  - exists d. split; [exact E|]. rewrite N. vm_compute. reflexivity.
Qed.
