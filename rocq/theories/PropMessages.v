(** * Properties C58 and C59: messages of the errors, equality, hash and order of the small types *)
From Verif Require Import Prelude Util Time Config Bytes Repr Parse Standard Custom Misc SpecTime SpecNum SpecParse SpecGrammar
  TimeProofs NumProofs SafeProofs PropDisplay PropParse PropTime ExEnv.

(** ** C58 *)
(** positions are usize values (64 bit) *)
Definition position_ok (e : parse_error) : Prop :=
  match e with Syntax p _ | TimeUnitErr p _ => Z.of_nat p <= u64_max | _ => True end.

Lemma split_at_last_space : forall a b d1 d2, (forall x, In x d1 -> x <> 32) -> (forall x, In x d2 -> x <> 32) ->
  a ++ 32 :: d1 = b ++ 32 :: d2 -> a = b /\ d1 = d2.
Proof.
  induction a as [|x a IH]; intros [|y b] d1 d2 H1 H2 E; cbn [app] in E.
  - injection E as E. auto.
  - injection E as _ E. exfalso. apply (H1 32); [|reflexivity]. rewrite E. apply in_or_app. right. now left.
  - injection E as _ E. exfalso. apply (H2 32); [|reflexivity]. rewrite <- E. apply in_or_app. right. now left.
  - injection E as <- E. destruct (IH b d1 d2 H1 H2 E) as [-> ->]. auto.
Qed.
Lemma dec_no_space x : 0 <= x <= u64_max -> forall y, In y (dec x) -> y <> 32.
Proof. intros H y Hy. destruct (dec_spec x H) as (_ & D & _). specialize (D y Hy). lia. Qed.
Lemma column_inj r1 r2 p1 p2 : Z.of_nat p1 <= u64_max -> Z.of_nat p2 <= u64_max ->
  r1 ++ %" at column " ++ dec (Z.of_nat p1) = r2 ++ %" at column " ++ dec (Z.of_nat p2) -> p1 = p2 /\ r1 = r2.
Proof.
  intros H1 H2 E. change (%" at column ") with ((%" at column") ++ [32]) in E. rewrite <- !app_assoc in E. cbn [app] in E. rewrite !(app_assoc _ (%" at column")) in E.
  apply split_at_last_space in E; [|apply dec_no_space; lia..]. destruct E as [E1 E2]. split.
  - apply Nat2Z.inj. rewrite <- (proj2 (proj2 (dec_spec (Z.of_nat p1) ltac:(lia)))), E2. apply dec_spec. lia.
  - now apply app_inv_tail in E1.
Qed.

(** no two different errors have the same message *)
Theorem C58_messages_differ : forall e1 e2, position_ok e1 -> position_ok e2 -> display_parse_error e1 = display_parse_error e2 -> e1 = e2.
Proof.
  intros e1 e2 H1 H2 E.
  destruct e1 as [|p1 r1| |p1 r1| | | |r1], e2 as [|p2 r2| |p2 r2| | | |r2]; try reflexivity; try discriminate E; cbn [display_parse_error position_ok] in *.
  - apply app_inv_head in E. destruct (column_inj _ _ _ _ H1 H2 E) as [-> ->]. reflexivity.
  - apply app_inv_head in E. destruct (column_inj _ _ _ _ H1 H2 E) as [-> ->]. reflexivity.
  - apply app_inv_head in E. now subst.
Qed.
Print Assumptions C58_messages_differ.
(** the message of a syntax error at column 12 with a reason which looks like a position, and the one of an error at column 2 *)
Example C58_messages_differ_example :
  display_parse_error (Syntax 12 (%"x at column 3")) = %"Syntax error: x at column 3 at column 12" /\
  display_parse_error (TimeUnitErr 0 (%"Invalid time unit: 'y'")) = %"Time unit error: Invalid time unit: 'y' at column 0" /\
  display_parse_error (Syntax 12 (%"x at column 3")) <> display_parse_error (Syntax 3 (%"x")).
Proof. split; [reflexivity|]. split; [reflexivity|]. vm_compute. discriminate. Qed.

(** the position in the message of an error of the parser is a position of the input *)
Theorem C58_message_shows_position : forall c tu kw nums s e p r, env_ok c tu kw nums -> utf8 s = true -> Z.of_nat (length s) <= u64_max ->
  parse c s tu kw nums = Err e -> e = Syntax p r \/ e = TimeUnitErr p r ->
  exists kind digits, display_parse_error e = kind ++ r ++ %" at column " ++ digits /\ digits <> [] /\ digit_string digits /\
    dval digits = Z.of_nat p /\ dval digits <= Z.of_nat (length s).
Proof.
  intros c tu kw nums s e p r HE U L H He.
  assert (P : (p <= length s)%nat) by (apply (C24_error_positions c tu kw nums s p r HE U); destruct He as [->| ->]; auto).
  destruct (dec_spec (Z.of_nat p)) as (N & D & V); [lia|].
  exists (match e with Syntax _ _ => %"Syntax error: " | _ => %"Time unit error: " end), (dec (Z.of_nat p)).
  split; [destruct He as [->| ->]; reflexivity|]. split; [exact N|]. split; [exact D|]. rewrite V. split; [reflexivity|lia].
Qed.
Print Assumptions C58_message_shows_position.
Example C58_message_shows_position_example :
  parse config_new (%"1.5x") ex_units None None = Err (TimeUnitErr 3 (%"Invalid time unit: 'x'")) /\
  display_parse_error (TimeUnitErr 3 (%"Invalid time unit: 'x'")) = %"Time unit error: Invalid time unit: 'x' at column 3".
Proof. split; reflexivity. Qed.

(** the errors of conversions *)
Theorem C58_conversion_errors : forall a b, display_try_from_error a = display_try_from_error b -> a = b.
Proof. intros [] [] E; try reflexivity; vm_compute in E; discriminate. Qed.
Print Assumptions C58_conversion_errors.
Theorem C58_conversion_error_as_parse_error : forall e,
  (parse_error_of e = NegativeNumber <-> e = NegativeDuration) /\ (parse_error_of e = Overflow <-> e <> NegativeDuration) /\
  display_parse_error (parse_error_of e) <> display_try_from_error e.
Proof. intros []; (split; [split; cbn; congruence|]; split; [split; cbn; congruence|vm_compute; discriminate]). Qed.
Print Assumptions C58_conversion_error_as_parse_error.

(** ** C59 *)
(** custom time units are equal if and only if their base unit and their multiplier are; the identifiers do not matter *)
Theorem C59_custom_unit_equality : forall a b,
  (ctu_eqb a b = true <-> ctu_base a = ctu_base b /\ ctu_mult a = ctu_mult b) /\
  (ctu_eqb a b = true <-> ctu_hash a = ctu_hash b) /\
  (forall ids, ctu_eqb a (CTU (ctu_base a) (ctu_mult a) ids) = true) /\
  ctu_eqb a b = ctu_eqb b a /\ forall c, ctu_eqb a b = true -> ctu_eqb b c = true -> ctu_eqb a c = true.
Proof.
  assert (I : forall u v, unit_index u = unit_index v -> u = v) by (intros [] []; cbn; congruence).
  assert (E : forall a b, ctu_eqb a b = true <-> ctu_base a = ctu_base b /\ ctu_mult a = ctu_mult b).
  { intros [u [c1 e1] i] [v [c2 e2] j]. unfold ctu_eqb, mult_eqb. cbn [ctu_base ctu_mult coef expo]. rewrite !andb_true_iff, Nat.eqb_eq, !Z.eqb_eq. split.
    - intros (H1 & -> & ->). apply I in H1. subst. auto.
    - intros [-> [= -> ->]]. auto. }
  intros a b. split; [apply E|]. split; [|split; [|split]].
  - rewrite E. unfold ctu_hash. destruct a as [u [c1 e1] i], b as [v [c2 e2] j]; cbn [ctu_base ctu_mult coef expo]. split.
    + intros [-> [= -> ->]]. reflexivity.
    + intros H. injection H as H1 -> ->. apply Nat2Z.inj, I in H1. subst. auto.
  - intros ids. apply E. auto.
  - destruct (ctu_eqb a b) eqn:E1, (ctu_eqb b a) eqn:E2; auto.
    + apply E in E1. symmetry. rewrite <- E2. apply E. destruct E1. auto.
    + apply E in E2. rewrite <- E1. apply E. destruct E2. auto.
  - intros c H1 H2. apply E in H1, H2. apply E. destruct H1, H2. split; congruence.
Qed.
Print Assumptions C59_custom_unit_equality.
(** the same length with another multiplier is another unit *)
Example C59_custom_unit_equality_example :
  ctu_eqb (CTU Second (Mul 10 0) [%"a"]) (CTU Second (Mul 10 0) [%"b"; %"c"]) = true /\
  ctu_eqb (CTU Second (Mul 10 0) [%"a"]) (CTU Second (Mul 1 1) [%"a"]) = false.
Proof. split; reflexivity. Qed.

(** <, <=, max and clamp are the ones of the numbers of nanoseconds *)
Theorem C59_order_methods : forall a b, duration_ok a -> duration_ok b ->
  (dltb a b = true <-> nanos a < nanos b) /\ (dleb a b = true <-> nanos a <= nanos b) /\
  partial_cmp a b <> None /\ (dmax a b = a \/ dmax a b = b) /\ nanos (dmax a b) = Z.max (nanos a) (nanos b).
Proof.
  intros a b Ha Hb. unfold dltb, dleb, dmax, partial_cmp. rewrite dcmp_spec by assumption.
  destruct (Z.compare_spec (nanos a) (nanos b)) as [H|H|H]; (split; [split; [try discriminate|]; try reflexivity; lia|]); (split; [split; [try discriminate|]; try reflexivity; lia|]);
    (split; [discriminate|]); (split; [auto|lia]).
Qed.
Print Assumptions C59_order_methods.
Theorem C59_clamp : forall x lo hi, duration_ok x -> duration_ok lo -> duration_ok hi ->
  (nanos lo <= nanos hi -> exists d, dclamp x lo hi = Ok d /\ (d = x \/ d = lo \/ d = hi) /\ nanos d = Z.max (nanos lo) (Z.min (nanos hi) (nanos x))) /\
  (nanos hi < nanos lo -> dclamp x lo hi = Crash CrashUnwrap).
Proof.
  intros x lo hi Hx Hl Hh. unfold dclamp. destruct (C59_order_methods lo hi Hl Hh) as (_ & L & _). destruct (C59_order_methods x lo Hx Hl) as (L1 & _). destruct (C59_order_methods hi x Hh Hx) as (L2 & _).
  split; intros H.
  - rewrite (proj2 L H). cbn [rassert bind]. destruct (dltb x lo) eqn:E1.
    + exists lo. split; [reflexivity|]. split; [auto|]. pose proof (proj1 L1 eq_refl). lia.
    + assert (~ nanos x < nanos lo) by (intros X; apply L1 in X; congruence). destruct (dltb hi x) eqn:E2.
      * exists hi. split; [reflexivity|]. split; [auto|]. pose proof (proj1 L2 eq_refl). lia.
      * exists x. split; [reflexivity|]. split; [auto|]. assert (~ nanos hi < nanos x) by (intros X; apply L2 in X; congruence). lia.
  - destruct (dleb lo hi) eqn:E; [pose proof (proj1 L eq_refl); lia|]. reflexivity.
Qed.
Print Assumptions C59_clamp.
Example C59_clamp_example :
  dclamp (Dur true (Std 5 0)) (Dur true (Std 2 0)) (Dur false (Std 3 0)) = Ok (Dur true (Std 2 0)) /\ dmax (Dur true (Std 5 0)) (Dur true (Std 2 0)) = Dur true (Std 2 0) /\
  dltb (Dur true (Std 0 0)) (Dur false (Std 0 0)) = false.
Proof. repeat split. Qed.
