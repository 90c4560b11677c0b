(** * Concrete spellings: completeness of the grammar for numbers, infinity, switches, zeros (C17, C26, C27, C30) *)
From Verif Require Import Prelude Util Time Config Bytes Repr Parse SpecTime SpecNum SpecValue SpecParse SpecGrammar SpecSpelling
  TimeProofs NumProofs ReprProofs Utf8Proofs BytesProofs SafeProofs RefParse RefProofs RefSingle RefMulti RefGrammar ValueProofs.

(** ** UTF-8 of digit strings *)
Lemma utf8_digits ds r : digit_string ds -> utf8 (ds ++ r) = utf8 r.
Proof.
  induction ds as [|x ds IH]; intros H; [reflexivity|]. apply digit_string_cons in H. destruct H as [Hx H].
  cbn [app utf8]. replace (inb 0 127 x) with true by (unfold inb; lia). now apply IH.
Qed.
Lemma utf8_sign sg n r : sign_text sg n -> utf8 (sg ++ r) = utf8 r.
Proof. intros []; reflexivity. Qed.
Lemma utf8_fraction fr F r : fraction_text fr F -> utf8 (fr ++ r) = utf8 r.
Proof. intros [|F' H]; [reflexivity|]. cbn. now apply utf8_digits. Qed.
Lemma utf8_exponent ex e r : exponent_text ex e -> utf8 (ex ++ r) = utf8 r.
Proof.
  intros [|x sg n ds e' Hx Hs Hd _ _ _]; [reflexivity|]. cbn [app utf8].
  replace (inb 0 127 x) with true by (unfold inb; lia). rewrite <- app_assoc.
  rewrite (utf8_sign sg n) by assumption. now apply utf8_digits.
Qed.

(** ** the pieces of a number *)
Lemma digit_string_is_digit ds : digit_string ds <-> forall x, In x ds -> is_digit x = true.
Proof. split; intros H x Hx; specialize (H x Hx); unfold is_digit in *; lia. Qed.

Lemma starts_not_app p a b : starts_not p a -> (a = [] -> starts_not p b) -> starts_not p (a ++ b).
Proof. destruct a; cbn; auto. Qed.

Lemma span_digits ds r : digit_string ds -> starts_not is_digit r -> span is_digit (ds ++ r) ds r.
Proof. intros H N. split; [reflexivity|]. split; [now apply digit_string_is_digit|exact N]. Qed.

Section Spell.
Context (c : config) (tu : units_like) (kw : option units_like) (nums : option numbers_like).
Notation inner := (c_inner_delimiter c).

Lemma signed_text sg n l : sign_text sg n -> l <> [] -> starts_not is_sign l ->
  (sg <> [] -> c_allow_sign_delimiter c = true -> starts_not inner l) -> signed c (sg ++ l) n l.
Proof.
  intros Hs Nl Ns Hd. destruct Hs; cbn [app bytes_of nat_of_ascii]; [now apply unsigned| |];
    (destruct (c_allow_sign_delimiter c) eqn:E;
     [match goal with |- signed _ (?x :: _) ?b _ => change b with (x =? 45); eapply (with_sign_delimiter c x l []) end;
       [reflexivity|exact E| |exact Nl]; split; [reflexivity|]; split; [intros ? []|apply Hd; [discriminate|reflexivity]]
     |match goal with |- signed _ (?x :: _) ?b _ => change b with (x =? 45); eapply (with_sign c x l) end; auto]).
Qed.

Lemma fraction_of_text fr F r : fraction_text fr F -> (fr <> [] -> c_disable_fraction c = false) ->
  starts_not is_digit r -> starts_not is_dot r -> fraction c (fr ++ r) F r.
Proof.
  intros Hf Hd N1 N2. destruct Hf as [|F H]; [now apply no_fraction|]. cbn [app bytes_of].
  apply some_fraction; [apply Hd; discriminate|]. now apply span_digits.
Qed.
Lemma sign_text_exponent sg n : sign_text sg n -> exponent_sign sg n.
Proof. intros []; constructor. Qed.
Lemma exponent_of_text ex e r : exponent_text ex e -> (ex <> [] -> c_disable_exponent c = false) ->
  starts_not is_digit r -> starts_not is_e r -> exponent c (ex ++ r) e r.
Proof.
  intros He Hd N1 N2. destruct He as [|x sg n ds e Hx Hs H N Ee Hr]; [now apply no_exponent|].
  cbn [app]. rewrite <- app_assoc. eapply some_exponent; eauto.
  - unfold is_e. lia.
  - apply Hd. discriminate.
  - now apply sign_text_exponent.
  - now apply span_digits.
Qed.

Lemma exponent_text_head ex e : exponent_text ex e -> starts_not is_digit ex /\ starts_not is_dot ex.
Proof. intros [|x ? ? ? ? Hx ? ? ? ? ?]; cbn; auto. split; [unfold is_digit|unfold is_dot]; lia. Qed.
Lemma fraction_text_head fr F : fraction_text fr F -> starts_not is_digit fr.
Proof. intros [|? ?]; cbn; reflexivity || exact I. Qed.
Lemma fraction_text_nil F : fraction_text [] F -> F = [].
Proof. inversion 1; reflexivity. Qed.

(** delimiters [ds] between the number and the rest *)
Local Notation unit_gap := (SpecSpelling.unit_gap c).
Lemma unit_gap_delimiter ds rest : unit_gap ds rest -> unit_delimiter c (ds ++ rest) rest.
Proof.
  intros (H1 & H2 & H3 & H4). destruct (c_allow_time_unit_delimiter c) eqn:E.
  - apply some_unit_delimiter with ds; [exact E| |exact H4]. split; [reflexivity|]. auto.
  - rewrite H3 by reflexivity. now apply no_unit_delimiter.
Qed.

Lemma number_of_text W fr F ex e ds rest :
  digit_string W -> fraction_text fr F -> exponent_text ex e -> W ++ F <> [] ->
  (fr <> [] -> c_disable_fraction c = false) -> (ex <> [] -> c_disable_exponent c = false) ->
  unit_gap ds rest -> ends_number (ds ++ rest) ->
  number c (W ++ fr ++ ex ++ ds ++ rest) W F e rest.
Proof.
  intros HW Hf He N Df De Hg (E1 & E2 & E3).
  pose proof (exponent_text_head _ _ He) as [X1 X2].
  assert (Y1 : starts_not is_digit (ex ++ ds ++ rest)) by (apply starts_not_app; auto).
  assert (Y2 : starts_not is_dot (ex ++ ds ++ rest)) by (apply starts_not_app; auto).
  exists (fr ++ ex ++ ds ++ rest), (ex ++ ds ++ rest), (ds ++ rest).
  split; [apply span_digits; [assumption|]; apply starts_not_app; [eapply fraction_text_head; eauto|auto]|].
  split; [now apply fraction_of_text|]. split; [now apply exponent_of_text|].
  split; [now apply unit_gap_delimiter|exact N].
Qed.

Lemma number_text_head W fr F rest : digit_string W -> fraction_text fr F -> W ++ F <> [] ->
  let l := W ++ fr ++ rest in l <> [] /\ starts_not is_sign l.
Proof.
  intros HW Hf N. destruct W as [|x W].
  - destruct Hf as [|F H]; [now destruct N|]. cbn. split; [discriminate|]. reflexivity.
  - apply digit_string_cons in HW. destruct HW as [Hx HW]. cbn. split; [discriminate|]. unfold is_sign; lia.
Qed.

Lemma signed_fun s n1 l1 n2 l2 : signed c s n1 l1 -> signed c s n2 l2 -> n1 = n2 /\ l1 = l2.
Proof. rewrite !signed_iff. intros A B. rewrite A in B. injection B as -> ->. auto. Qed.

Lemma single_unit_word id u m : id <> [] -> (forall x, In x id -> inner x = false) -> u_get tu id = Some (u, m) ->
  single_unit c tu id u m.
Proof.
  intros N H E. destruct (c_allow_ago c) eqn:Ea; [|now apply su_plain].
  apply su_no_ago; auto. split; [now rewrite app_nil_r|]. split; [|exact I]. intros x Hx. now rewrite H.
Qed.

(** the text of a number with a unit *)
Lemma single_number_text sg n W fr F ex e ds id u m :
  env_ok c tu kw nums -> c_allow_multiple c = false ->
  sign_text sg n -> digit_string W -> fraction_text fr F -> exponent_text ex e -> W ++ F <> [] ->
  (fr <> [] -> c_disable_fraction c = false) -> (ex <> [] -> c_disable_exponent c = false) ->
  (sg <> [] -> c_allow_sign_delimiter c = true -> starts_not inner (W ++ fr)) ->
  unit_gap ds id -> ends_number (ds ++ id) ->
  id <> [] -> utf8 id = true -> (forall x, In x id -> inner x = false) ->
  u_is_empty tu = false -> u_get tu id = Some (u, m) ->
  sign_allowed c (number_value n W F e u m) ->
  parse c (sg ++ W ++ fr ++ ex ++ ds ++ id) tu kw nums = Ok (number_value n W F e u m).
Proof.
  intros HE Hm Hsg HW Hf He N Df De Hd Hg En Ni Ui Hi Eu Eg Hal. unfold parse. rewrite Hm.
  assert (Uds : utf8 (ds ++ id) = true).
  { rewrite utf8_app; [exact Ui|]. destruct Hg as (Hds & _). pose proof (env_inner _ _ _ _ HE) as Ha. clear - Hds Ha.
    induction ds as [|x ds IH]; [reflexivity|]. cbn [utf8]. pose proof (Ha x (Hds x (or_introl eq_refl))) as Hx.
    replace (inb 0 127 x) with true by (unfold inb; lia). apply IH. intros y Hy. apply Hds. now right. }
  apply parse_single_grammar; [assumption| |].
  { rewrite (utf8_sign sg n), utf8_digits, (utf8_fraction fr F), (utf8_exponent ex e) by assumption. exact Uds. }
  split; [|exact Hal].
  destruct (number_text_head W fr F (ex ++ ds ++ id) HW Hf N) as (N1 & N2).
  eapply sd_number_unit; [apply signed_text; eauto| |exact Ni|exact Eu|now apply single_unit_word].
  - intros S1 S2. specialize (Hd S1 S2). rewrite app_assoc.
    apply starts_not_app; [exact Hd|]. intros E. apply app_eq_nil in E. destruct E as [-> ->]. apply fraction_text_nil in Hf. subst F. now destruct N.
  - now apply number_of_text.
Qed.

(** the text of a number without a unit *)
Lemma single_number_text_default sg n W fr F ex e :
  env_ok c tu kw nums -> c_allow_multiple c = false ->
  sign_text sg n -> digit_string W -> fraction_text fr F -> exponent_text ex e -> W ++ F <> [] ->
  (fr <> [] -> c_disable_fraction c = false) -> (ex <> [] -> c_disable_exponent c = false) ->
  (sg <> [] -> c_allow_sign_delimiter c = true -> starts_not inner (W ++ fr)) ->
  sign_allowed c (number_value n W F e (c_default_unit c) default_multiplier) ->
  parse c (sg ++ W ++ fr ++ ex) tu kw nums = Ok (number_value n W F e (c_default_unit c) default_multiplier).
Proof.
  intros HE Hm Hsg HW Hf He N Df De Hd Hal. unfold parse. rewrite Hm.
  apply parse_single_grammar; [assumption| |].
  { rewrite <- (app_nil_r ex). rewrite (utf8_sign sg n), utf8_digits, (utf8_fraction fr F), (utf8_exponent ex e) by assumption. reflexivity. }
  split; [|exact Hal].
  destruct (number_text_head W fr F ex HW Hf N) as (N1 & N2).
  eapply sd_number; [apply signed_text; eauto|].
  - intros S1 S2. specialize (Hd S1 S2). rewrite app_assoc.
    apply starts_not_app; [exact Hd|]. intros E. apply app_eq_nil in E. destruct E as [-> ->]. apply fraction_text_nil in Hf. subst F. now destruct N.
  - pose proof (number_of_text W fr F ex e [] [] HW Hf He N Df De) as H. cbn [app] in H. rewrite !app_nil_r in H. apply H.
    + repeat split; auto.
    + repeat split.
Qed.

(** ** infinity *)
Lemma nocase_letter x y : 97 <= y <= 122 -> eq_nocase x y = true -> x = y \/ x = y - 32.
Proof.
  intros Hy. unfold eq_nocase, to_lower. replace ((65 <=? y) && (y <=? 90)) with false by lia.
  destruct ((65 <=? x) && (x <=? 90)) eqn:E; lia.
Qed.
Lemma nocase_utf8 w : (forall y, In y w -> 97 <= y <= 122) -> forall v, str_eq_nocase v w = true -> utf8 v = true.
Proof.
  intros H. induction w as [|y w IH]; intros [|x v] E; try discriminate; [reflexivity|]. cbn in E. apply andb_true_iff in E.
  destruct E as [E1 E2]. pose proof (H y (or_introl eq_refl)) as Hy. apply nocase_letter in E1; [|exact Hy]. cbn [utf8].
  replace (inb 0 127 x) with true by (unfold inb; lia). apply IH; [|exact E2]. intros z Hz. apply H. now right.
Qed.

Lemma single_infinity_text sg n v :
  env_ok c tu kw nums -> c_allow_multiple c = false -> c_disable_infinity c = false ->
  sign_text sg n -> str_eq_nocase v (%"inf") = true \/ str_eq_nocase v (%"infinity") = true ->
  (sg <> [] -> c_allow_sign_delimiter c = true -> starts_not inner v) ->
  (n = true -> c_allow_negative c = true) ->
  parse c (sg ++ v) tu kw nums = Ok (infinity_value n).
Proof.
  intros HE Hm Hi Hsg Hv Hd Hn. unfold parse. rewrite Hm.
  assert (U : utf8 v = true).
  { destruct Hv as [Hv|Hv]; (eapply nocase_utf8; [|exact Hv]); cbn; intros y Hy; repeat destruct Hy as [<-|Hy]; lia || contradiction. }
  apply parse_single_grammar; [assumption|now rewrite (utf8_sign sg n)|]. split.
  - eapply sd_infinity; eauto. destruct v as [|x v]; [destruct Hv; discriminate|].
    assert (Hx : x = 105 \/ x = 73).
    { destruct Hv as [Hv|Hv]; cbn in Hv; apply andb_true_iff in Hv; destruct Hv as [Hv _]; apply nocase_letter in Hv; lia. }
    apply signed_text; auto; [discriminate|]. cbn. unfold is_sign. lia.
  - unfold sign_allowed. destruct n; [left; auto|right; reflexivity].
Qed.

Lemma inf_not_number l W F x r r' : word_prefix (%"inf") l r -> ~ number c l W F x r'.
Proof.
  intros H%word_prefix_iff N. destruct H as [H _]. apply inf_head in H. destruct H as (y & l' & -> & H1 & H2).
  apply number_head in N. destruct N; congruence.
Qed.

Lemma single_infinity_only s n l r d :
  env_ok c tu kw nums -> c_allow_multiple c = false -> c_disable_infinity c = false -> utf8 s = true ->
  signed c s n l -> word_prefix (%"inf") l r -> parse c s tu kw nums = Ok d ->
  (str_eq_nocase l (%"inf") = true \/ str_eq_nocase l (%"infinity") = true) /\ d = infinity_value n.
Proof.
  intros HE Hm Hi U Hs Hp. unfold parse. rewrite Hm. intros H. apply parse_single_grammar in H; [|assumption|assumption].
  destruct H as [H _].
  destruct H as [s n0 l0 W F x Hs0 Hn|s n0 l0 W F x r0 u m Hs0 Hn|s n0 l0 Hs0 Hd Hv|s n0 l0 u m Hs0 Hw|s n0 l0 u m Hs0 Hw|s n0 l0 num r0 u m Hs0 Hw];
    destruct (signed_fun _ _ _ _ _ Hs Hs0) as [<- <-].
  - destruct (inf_not_number _ _ _ _ _ _ Hp Hn).
  - destruct (inf_not_number _ _ _ _ _ _ Hp Hn).
  - auto.
  - destruct Hw as (_ & _ & Hw). destruct (Hw Hi); eauto.
  - destruct Hw as (_ & _ & Hw). destruct (Hw Hi); eauto.
  - destruct Hw as (_ & _ & Hw). destruct (Hw Hi); eauto.
Qed.
End Spell.
