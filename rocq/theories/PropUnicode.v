(** * Property C101: texts are sequences of Unicode characters *)
From Verif Require Import Prelude Util Time Config SpecTime SpecNum SpecParse SpecValue SpecGrammar SpecErrors SpecSpelling SpecUnicode Utf8Proofs TimeProofs NumProofs Parse Standard StandardProofs Custom
  SpecCustom Systemd Gnu Misc SpecSystemd SpecSystemdErrors SpecGnu SpecGnuErrors PropSystemd PropSystemdErrors PropGnuErrors ExEnv
  PropParse PropErrors PropStandard PropSettings PropCustomText PropCustomTexts PropText PropTextLength PropMessageLength PropPrefix SystemdSpan.

Ltac dm := Z.to_euclidean_division_equations.
Lemma encode_uchar cp : scalar cp -> uchar (encode cp) = true.
Proof.
  unfold scalar, encode. intros H. destruct (cp <? 128) eqn:E1; [|destruct (cp <? 2048) eqn:E2; [|destruct (cp <? 65536) eqn:E3]]; cbn [uchar]; unfold cont, inb.
  - lia.
  - dm. lia.
  - dm. lia.
  - dm. lia.
Qed.
Lemma uchar_encode ch : uchar ch = true -> exists cp, scalar cp /\ ch = encode cp.
Proof.
  destruct ch as [|b0 [|b1 [|b2 [|b3 [|b4 t]]]]]; try discriminate; cbn [uchar]; unfold cont, inb; intros H.
  - exists b0. split; [unfold scalar; lia|]. unfold encode. replace (b0 <? 128) with true by lia. reflexivity.
  - exists ((b0 - 192) * 64 + (b1 - 128)). split; [unfold scalar; lia|]. unfold encode.
    replace (_ <? 128) with false by lia. replace (_ <? 2048) with true by lia. f_equal; [|f_equal]; dm; lia.
  - exists ((b0 - 224) * 4096 + (b1 - 128) * 64 + (b2 - 128)). split; [unfold scalar; lia|]. unfold encode.
    replace (_ <? 128) with false by lia. replace (_ <? 2048) with false by lia. replace (_ <? 65536) with true by lia. f_equal; [|f_equal; [|f_equal]]; dm; lia.
  - exists ((b0 - 240) * 262144 + (b1 - 128) * 4096 + (b2 - 128) * 64 + (b3 - 128)). split; [unfold scalar; lia|]. unfold encode.
    replace (_ <? 128) with false by lia. replace (_ <? 2048) with false by lia. replace (_ <? 65536) with false by lia.
    f_equal; [|f_equal; [|f_equal; [|f_equal]]]; dm; lia.
Qed.
Lemma text_utf8 cps : characters cps -> utf8 (text cps) = true.
Proof. induction cps as [|cp cps IH]; [reflexivity|]. intros H. cbn [text]. rewrite uchar_app by (apply encode_uchar, H; now left). apply IH. intros x Hx. apply H. now right. Qed.

(** the byte strings which the model accepts as `str` are exactly the encodings of characters *)
Theorem C101_strings_are_texts : forall l, utf8 l = true <-> exists cps, characters cps /\ l = text cps.
Proof.
  intros l. split; [|intros (cps & H & ->); now apply text_utf8].
  revert l. apply (utf8_ind (fun l => exists cps, characters cps /\ l = text cps)).
  - exists []. split; [intros x []|reflexivity].
  - intros ch rest H1 H2 (cps & H & ->). destruct (uchar_encode ch H1) as (cp & S & ->). exists (cp :: cps). split; [|reflexivity].
    intros x [<-|Hx]; auto.
Qed.
Print Assumptions C101_strings_are_texts.

(** a text has only one sequence of characters *)
Lemma cons_eq (a b : Z) (l m : str) : a :: l = b :: m -> a = b /\ l = m.
Proof. intros H. now injection H. Qed.
Lemma encode_head x y r r' : scalar x -> scalar y -> encode x ++ r = encode y ++ r' -> x = y /\ r = r'.
Proof.
  unfold scalar, encode. intros Hx Hy.
  destruct (Z.ltb_spec x 128) as [E1|E1]; [|destruct (Z.ltb_spec x 2048) as [E2|E2]; [|destruct (Z.ltb_spec x 65536) as [E3|E3]]];
    (destruct (Z.ltb_spec y 128) as [F1|F1]; [|destruct (Z.ltb_spec y 2048) as [F2|F2]; [|destruct (Z.ltb_spec y 65536) as [F3|F3]]]); cbn [app]; intros H;
    apply cons_eq in H; destruct H as [H1 H]; try (exfalso; clear H; dm; lia);
    repeat (apply cons_eq in H; let K := fresh in destruct H as [K H]); (split; [clear H; dm; lia|exact H]).
Qed.
Lemma encode_nonempty x : encode x <> [].
Proof. unfold encode. destruct (x <? 128); [|destruct (x <? 2048); [|destruct (x <? 65536)]]; discriminate. Qed.
Theorem C101_one_reading : forall a b, characters a -> characters b -> text a = text b -> a = b.
Proof.
  induction a as [|x a IH]; intros [|y b] Ha Hb E; cbn [text] in E; [reflexivity| | |].
  - symmetry in E. apply app_eq_nil in E. destruct E as [E _]. now destruct (encode_nonempty y).
  - apply app_eq_nil in E. destruct E as [E _]. now destruct (encode_nonempty x).
  - apply encode_head in E; [|apply Ha; now left|apply Hb; now left]. destruct E as [-> E]. f_equal.
    apply IH; [intros z Hz; apply Ha; now right|intros z Hz; apply Hb; now right|exact E].
Qed.
Print Assumptions C101_one_reading.
(** 1µs: four bytes, three characters *)
Example C101_texts_example : text [49; 181; 115] = [49; 194; 181; 115] /\ characters [49; 181; 115] /\ utf8 [49; 194; 181; 115] = true /\ utf8 [49; 181; 115] = false /\
  text [8364; 128512] = [226; 130; 172; 240; 159; 152; 128].
Proof. split; [reflexivity|]. split; [|now split]. intros x [<-|[<-|[<-|[]]]]; unfold scalar; lia. Qed.

Lemma text_app a b : text (a ++ b) = text a ++ text b.
Proof. induction a as [|x a IH]; [reflexivity|]. cbn [app text]. now rewrite IH, app_assoc. Qed.
(** where the rest is a text, one lies between two characters *)
Lemma between cps p : characters cps -> (p <= length (text cps))%nat -> utf8 (skipn p (text cps)) = true ->
  exists a b, cps = a ++ b /\ p = length (text a).
Proof.
  intros H L U. pose proof (text_utf8 cps H) as T. rewrite <- (firstn_skipn p (text cps)) in T. pose proof (utf8_front _ _ T U) as V.
  apply C101_strings_are_texts in U. destruct U as (b & Hb & Eb). apply C101_strings_are_texts in V. destruct V as (a & Ha & Ea).
  exists a, b. split.
  - apply C101_one_reading; [exact H| |].
    + intros x Hx. apply in_app_or in Hx. destruct Hx; auto.
    + rewrite text_app, <- Ea, <- Eb. symmetry. apply firstn_skipn.
  - rewrite <- Ea. rewrite firstn_length. lia.
Qed.
(** the position of an error never lies inside of a character *)
Theorem C101_positions : forall c tu kw nums cps p msg, env_ok c tu kw nums -> characters cps ->
  parse c (text cps) tu kw nums = Err (Syntax p msg) \/ parse c (text cps) tu kw nums = Err (TimeUnitErr p msg) ->
  exists a b, cps = a ++ b /\ p = length (text a).
Proof.
  intros c tu kw nums cps p msg He H E. destruct (C24_error_positions c tu kw nums _ p msg He (text_utf8 cps H) E) as [L U]. now apply between.
Qed.
Print Assumptions C101_positions.
(** 1µx: the position is behind the digit, in front of a character of two bytes; with a blank and a euro sign as time unit it is 2 *)
Example C101_positions_example : characters [49; 181; 120] /\ env_ok config_new ex_units None None /\
  parse config_new (text [49; 181; 120]) ex_units None None = Err (TimeUnitErr 1 (text [73; 110; 118; 97; 108; 105; 100; 32; 116; 105; 109; 101; 32; 117; 110; 105; 116; 58; 32; 39; 181; 120; 39])).
Proof. split; [|split; [|reflexivity]]. - intros x [<-|[<-|[<-|[]]]]; unfold scalar; lia. - apply ex_env; auto. Qed.

(** what an error says is a text again *)
Lemma utf8_all_ascii a b : (forall x, In x a -> 0 <= x <= 127) -> utf8 (a ++ b) = utf8 b.
Proof. induction a as [|x a IH]; intros H; [reflexivity|]. cbn [app]. rewrite utf8_cons_ascii by (apply H; now left). apply IH. intros y Hy. apply H. now right. Qed.
Lemma utf8_join a b : utf8 a = true -> utf8 b = true -> utf8 (a ++ b) = true.
Proof. intros A B. now rewrite utf8_app. Qed.
Lemma char_text x : 0 <= x <= 255 -> utf8 (char_of_byte x) = true.
Proof.
  intros H. apply C101_strings_are_texts. exists [x]. split; [intros y [<-|[]]; unfold scalar; lia|]. unfold char_of_byte, text, encode. rewrite app_nil_r.
  destruct (x <? 128); [reflexivity|]. now replace (x <? 2048) with true by lia.
Qed.
Lemma span_text p l a b : (forall x, p x = true -> 0 <= x <= 127) -> span p l a b -> utf8 l = true -> utf8 b = true.
Proof. intros P (-> & H & _) U. rewrite utf8_all_ascii in U; auto. Qed.
Lemma until_text p l a b : (forall x, p x = true -> 0 <= x <= 127) -> until p l a b -> utf8 l = true -> utf8 a = true /\ utf8 b = true.
Proof.
  intros P (-> & _ & H) U. destruct b as [|x b]; [rewrite app_nil_r in U; auto|]. cbn in H. apply negb_false_iff in H. now apply (utf8_cut a x b U), P.
Qed.
Lemma nocase_sym a : forall b, str_eq_nocase a b = true -> str_eq_nocase b a = true.
Proof.
  induction a as [|x a IH]; intros [|y b] H; try discriminate H; [reflexivity|]. cbn in *. apply andb_true_iff in H. destruct H as [H1 H2].
  rewrite (IH b H2), andb_true_r. unfold eq_nocase in *. lia.
Qed.
Lemma word_text w l r : utf8 w = true -> word_prefix w l r -> utf8 l = true -> utf8 r = true.
Proof. intros W (v & -> & H) U. rewrite utf8_app in U; [exact U|]. apply (utf8_nocase w v); [now apply nocase_sym|exact W]. Qed.
Lemma digit_ascii x : is_digit x = true -> 0 <= x <= 127.
Proof. unfold is_digit. lia. Qed.
Lemma sign_ascii x : is_sign x = true -> 0 <= x <= 127.
Proof. unfold is_sign. lia. Qed.
Lemma e_ascii x : is_e x = true -> 0 <= x <= 127.
Proof. unfold is_e. lia. Qed.
Lemma starts_ascii x : starts_duration x = true -> 0 <= x <= 127.
Proof. unfold starts_duration, is_sign, is_digit. lia. Qed.
Lemma tail_text x l : 0 <= x <= 127 -> utf8 (x :: l) = true -> utf8 l = true.
Proof. intros H U. now rewrite utf8_cons_ascii in U. Qed.
Lemma nocase_ascii x y : eq_nocase x y = true -> 0 <= y <= 127 -> 0 <= x <= 127.
Proof. intros H. unfold eq_nocase in H. apply Z.eqb_eq in H. apply to_lower_ascii in H. lia. Qed.

Section Texts.
Context (c : config) (tu : units_like) (kw : option units_like) (nums : option numbers_like) (s : str).
Hypothesis He : env_ok c tu kw nums.
Let HI : forall x, c_inner_delimiter c x = true -> 0 <= x <= 127 := env_inner _ _ _ _ He.
Let HO : forall x, c_outer_delimiter c x = true -> 0 <= x <= 127 := env_outer _ _ _ _ He.

Lemma keyword_end_ascii x : keyword_end c x = true -> 0 <= x <= 127.
Proof. unfold keyword_end. intros H. apply orb_true_iff in H. destruct H as [H|H]; [now apply HO|now apply starts_ascii]. Qed.
Lemma unit_end_ascii x : unit_end c x = true -> 0 <= x <= 127.
Proof. unfold unit_end. intros H. apply orb_true_iff in H. destruct H as [H|H]; [now apply keyword_end_ascii|]. apply andb_true_iff in H. now apply HI. Qed.
Lemma conj_text w : In w (conjunctions c) -> utf8 w = true.
Proof. unfold conjunctions. destruct (c_conjunctions c) as [l|] eqn:E; [|intros []]. intros H. exact (env_conjunctions _ _ _ _ He l w E H). Qed.

Definition tt (l : str) : Prop := utf8 l = true.
Lemma signed_text t n l : signed c t n l -> tt t -> tt l.
Proof.
  intros [? ? ?|x ? ? Hx _ -> _|x ? ? ? Hx _ D _] U; [exact U|eapply tail_text; [apply sign_ascii, Hx|exact U]|].
  eapply span_text; [exact HI|exact D|]. eapply tail_text; [apply sign_ascii, Hx|exact U].
Qed.
Lemma fraction_text' l F r : fraction c l F r -> tt l -> tt r.
Proof. intros [? ?|? ? ? _ D] U; [exact U|]. eapply span_text; [exact digit_ascii|exact D|]. eapply tail_text; [|exact U]. lia. Qed.
Lemma exponent_text l x r : exponent c l x r -> tt l -> tt r.
Proof.
  intros [? ?|x' sg n l' ds r' e Hx _ Hs D _ _ _] U; [exact U|]. eapply span_text; [exact digit_ascii|exact D|]. apply tail_text in U; [|now apply e_ascii].
  destruct Hs; cbn [app] in U; [exact U| |]; (eapply tail_text; [|exact U]; lia).
Qed.
Lemma delimiter_text l r : unit_delimiter c l r -> tt l -> tt r.
Proof. intros [? ?|? ? ? _ D _] U; [exact U|]. eapply span_text; [exact HI|exact D|exact U]. Qed.
Lemma number_text l W F x r : number c l W F x r -> tt l -> tt r.
Proof.
  intros (l1 & l2 & l3 & H1 & H2 & H3 & H4 & _) U. eapply delimiter_text; [exact H4|]. eapply exponent_text; [exact H3|]. eapply fraction_text'; [exact H2|].
  eapply span_text; [exact digit_ascii|exact H1|exact U].
Qed.
Lemma next_text l r : next_component c l r -> tt l -> tt r.
Proof.
  intros [?|? ? H] U; [exact U|]. destruct H as [? ? ? H|? ? y ? w ? z ? H1 H2 H3 H4 H5 H6 H7]; [eapply span_text; [|eassumption|]; [first [exact HI|exact HO]|eassumption]|].
  assert (tt z). { eapply word_text; [|exact H6|eapply span_text; [exact HO|exact H1|exact U]]. apply conj_text. rewrite H4. apply in_or_app. right. now left. }
  destruct H7 as [(_ & _ & ->)|(ds2 & H8 & _)]; [assumption|]. eapply span_text; [|eassumption|]; [first [exact HI|exact HO]|eassumption].
Qed.
Lemma ago_text l r : ago c l r -> tt l -> tt r.
Proof. intros (_ & ds & a & H1 & _ & H2 & _) U. eapply word_text; [|exact H2|]; [reflexivity|]. eapply span_text; [|eassumption|]; [first [exact HI|exact HO]|eassumption]. Qed.
Lemma multi_unit_text l u m r : multi_unit c tu l u m r -> tt l -> tt r.
Proof.
  intros [? ? ? ? ? ? H _ _ _ _ K|? ? ? ? ? ? ? H _ _ A K] U; apply (until_text _ _ _ _ unit_end_ascii) in H; try exact U; destruct H as [_ H];
    (eapply next_text; [exact K|]); [exact H|eapply ago_text; eauto].
Qed.
Lemma component_text t d r : component c tu kw nums t d r -> tt t -> tt r.
Proof.
  intros H U. destruct H as [? ? ? ? ? ? ? ? S N _ K|? ? ? ? ? ? ? ? ? ? S N _ K|? ? ? ? ? S _ W _ K|? ? ? ? ? ? S _ W _ W2 _ K|? ? ? ? ? ? ? S _ (k & w & _ & V & _) K|? ? ? ? ? ? S _ _ _ K|? ? ? ? ? ? ? ? S _ _ _ (f & w & l1' & ds & _ & V & _ & _ & D & _) K];
    apply signed_text in S; try exact U; try (apply number_text in N; [|exact S]).
  - eapply next_text; eauto.
  - eapply multi_unit_text; eauto.
  - eapply next_text; [exact K|]. eapply word_text; [|exact W|exact S]. reflexivity.
  - eapply next_text; [exact K|]. eapply word_text; [|exact W2|]; [reflexivity|]. eapply word_text; [|exact W|exact S]. reflexivity.
  - eapply next_text; [exact K|]. apply (until_text _ _ _ _ keyword_end_ascii) in V; [apply V|exact S].
  - eapply multi_unit_text; eauto.
  - eapply multi_unit_text; [exact K|]. eapply span_text; [exact HI|exact D|]. apply (until_text _ _ _ _ HI) in V; [apply V|exact S].
Qed.

Definition says_text (e : parse_error) : Prop := utf8 (reason e) = true.
Ltac ascii := first [assumption|reflexivity].
Ltac say := unfold says_text; cbn [reason]; repeat apply utf8_join; try reflexivity; try assumption.
Lemma first_char x l : tt (x :: l) -> utf8 (char_of_byte x) = true.
Proof. intros U. apply char_text. apply (utf8_bytes _ U). now left. Qed.
Lemma trailing_says d l e : trailing s d l e -> says_text e.
Proof. intros (_ & _ & ->). say. Qed.
Lemma unexpected_says l e : unexpected s l e -> tt l -> says_text e.
Proof. intros (_ & ->) U. say. Qed.
Lemma sign_says l e : sign_error c s l e -> says_text e.
Proof. intros [x H|x l' e' H A T]; [say|now apply trailing_says in T]. Qed.
Lemma number_says l e : number_error c s l e -> says_text e.
Proof.
  intros [W l1 H1 H2|W l1 F l2 H1 H2 _ H3|W l1 F l2 x l3 H1 H2 _ H3 _ H4].
  - destruct H2; say.
  - destruct H3; say.
  - now apply trailing_says in H4.
Qed.
Lemma numeral_end_says l e : numeral_end c nums s l e -> says_text e.
Proof. intros (f & w & l1 & _ & H & _ & _ & T). now apply trailing_says in T. Qed.
Lemma numeral_word_text l w r : numeral_word c nums l w r -> tt l -> tt w /\ tt r.
Proof. intros (f & l1 & ds & _ & H & _ & _ & D & _) U. apply (until_text _ _ _ _ HI) in H; [|exact U]. destruct H as [H1 H2]. split; [exact H1|]. eapply span_text; [|eassumption|]; [first [exact HI|exact HO]|eassumption]. Qed.
Lemma numeral_unit_says w r e : numeral_unit_error tu s w r e -> tt w -> says_text e.
Proof. intros -> U. destruct (u_is_empty tu); say. Qed.
Lemma single_unit_says l e : single_unit_error c tu s l e -> tt l -> says_text e.
Proof.
  intros [w l1 _ H _ _ T|w l1 ds a r _ H _ _ D A X] U; [now apply trailing_says in T|].
  eapply unexpected_says; [exact X|]. eapply word_text; [|exact A|]; [reflexivity|]. eapply span_text; [exact HI|exact D|]. now apply (until_text _ _ _ _ HI H).
Qed.
Lemma single_infinity_says w l e : single_infinity_error s w l e -> (forall y, In y w -> 0 <= y <= 127) -> tt l -> says_text e.
Proof.
  intros H. induction H as [? ? ? ? ? E _ IH|?|x y w l E|l e X]; intros A U.
  - apply IH; [intros z Hz; apply A; now right|]. eapply tail_text; [|exact U]. eapply nocase_ascii; [exact E|]. apply A. now left.
  - say.
  - say. now apply (first_char _ _ U).
  - now apply unexpected_says in X.
Qed.
Lemma inity_ascii : forall y, In y (%"inity") -> 0 <= y <= 127.
Proof. intros y. cbn. intuition lia. Qed.
Lemma single_says e : single_error c tu kw nums s e -> tt s -> says_text e.
Proof.
  intros H U. destruct H as [?|e H|n l e S H|n l W F x r S N _ _|n l W F x r S N _ _ _|n l W F x r e S N _ _ H|n l r e S _ W _ H|n l e S _ _ _ H|n l S _ _ _ _|n l e S _ _ _ H|n l w r e S _ _ _ N H|n l w r e S _ _ _ N _ H|?];
    try (apply signed_text in S; [|exact U]); try (apply number_text in N; [|exact S]); try (apply numeral_word_text in N; [|exact S]; destruct N as [N1 N2]).
  - say.
  - now apply sign_says in H.
  - now apply number_says in H.
  - say.
  - say.
  - now apply single_unit_says in H.
  - apply single_infinity_says in H; [exact H|exact inity_ascii|]. eapply word_text; [|exact W|exact S]. reflexivity.
  - now apply single_unit_says in H.
  - say.
  - now apply numeral_end_says in H.
  - now apply single_unit_says in H.
  - now apply numeral_unit_says in H.
  - say.
Qed.
Lemma next_says l e : next_error c s l e -> tt l -> says_text e.
Proof.
  intros [T|ds y D _ _ C] U; [now apply trailing_says in T|]. apply (span_text _ _ _ _ HO) in D; [|exact U]. destruct C as [ws1 w ws2 z E _ W H].
  assert (Uw : utf8 w = true). { apply conj_text. rewrite E. apply in_or_app. right. now left. } pose proof (word_text _ _ _ Uw W D) as Uz.
  destruct H as [(-> & ->)|[T|(x & z' & -> & _ & _ & ->)]].
  - say.
  - now apply trailing_says in T.
  - say. now apply (first_char _ _ Uz).
Qed.
Lemma multi_unit_says l e : multi_unit_error c tu s l e -> tt l -> says_text e.
Proof.
  intros [w l1 H _ _ _ T|w l1 H _ _ _ _ T|w l1 l2 H _ _ A T] U; apply (until_text _ _ _ _ unit_end_ascii) in H; try exact U; destruct H as [_ H].
  - now apply trailing_says in T.
  - now apply next_says in T.
  - eapply next_says; [exact T|]. eapply ago_text; eauto.
Qed.
Lemma multi_infinity_says l0 w l e : multi_infinity_error c s l0 w l e -> (forall y, In y w -> 0 <= y <= 127) -> tt l0 -> tt l -> says_text e.
Proof.
  intros H. induction H as [? ? ? ? ? E _ IH|?|x y w l E|x l E|l e X]; intros A U0 U.
  - apply IH; [intros z Hz; apply A; now right|exact U0|]. eapply tail_text; [|exact U]. eapply nocase_ascii; [exact E|]. apply A. now left.
  - say.
  - say. now apply (first_char _ _ U).
  - say. now apply (first_char _ _ U).
  - now apply next_says in X.
Qed.
Lemma component_says t e : component_error c tu kw nums s t e -> tt t -> says_text e.
Proof.
  intros H U. destruct H as [?|e H|n l e S H|n l W F x r e S N _ H|n l W F x r e S N _ H|n l r e S _ W H|n l r e S _ W _ H|n l u m l1 e S _ (k & w & _ & W & _) H|n l e S _ _ _ H|n l S _ _ _ _|n l e S _ _ _ H|n l w r e S _ _ _ N H|n l w r e S _ _ _ N _ H];
    try (apply signed_text in S; [|exact U]); try (apply number_text in N; [|exact S]); try (apply numeral_word_text in N; [|exact S]; destruct N as [N1 N2]).
  - say.
  - now apply sign_says in H.
  - now apply number_says in H.
  - now apply next_says in H.
  - now apply multi_unit_says in H.
  - eapply next_says; [exact H|]. eapply word_text; [|exact W|exact S]. reflexivity.
  - apply (word_text (%"inf")) in W; [|reflexivity|exact S]. apply multi_infinity_says in H; auto. exact inity_ascii.
  - eapply next_says; [exact H|]. apply (until_text _ _ _ _ keyword_end_ascii) in W; [apply W|exact S].
  - now apply multi_unit_says in H.
  - say.
  - now apply numeral_end_says in H.
  - now apply multi_unit_says in H.
  - now apply numeral_unit_says in H.
Qed.
Lemma components_says t e : components_error c tu kw nums s t e -> tt t -> says_text e.
Proof.
  intros H. induction H as [t e H|t d r _ _ _|t d r e C _ _ _ IH]; intros U; [now apply component_says in H|say|]. apply IH. eapply component_text; eauto.
Qed.
End Texts.

Lemma ascii_utf8 a : (forall x, In x a -> 0 <= x <= 127) -> utf8 a = true.
Proof. intros H. rewrite <- (app_nil_r a). now rewrite utf8_all_ascii. Qed.
Lemma dec_fuel_ascii n : forall v, 0 <= v -> forall x, In x (dec_fuel n v) -> 0 <= x <= 127.
Proof.
  induction n as [|n IH]; intros v Hv x Hx; cbn [dec_fuel] in Hx; [destruct Hx|]. destruct (Z.ltb_spec v 10) as [L|L].
  - destruct Hx as [<-|[]]. lia.
  - apply in_app_or in Hx. destruct Hx as [Hx|[<-|[]]]; [|dm; lia]. apply (IH (v / 10)); [dm; lia|exact Hx].
Qed.
Lemma dec_utf8 n : 0 <= n -> utf8 (dec n) = true.
Proof. intros H. apply ascii_utf8. apply dec_fuel_ascii. exact H. Qed.
Lemma message_utf8 e : says_text e -> utf8 (display_parse_error e) = true.
Proof.
  unfold says_text. destruct e; cbn [display_parse_error reason]; intros H; repeat apply utf8_join; try reflexivity; try assumption; apply dec_utf8; lia.
Qed.
(** the message shown for an error, and the text inside it, are sequences of characters *)
Theorem C101_messages : forall c tu kw nums cps e, env_ok c tu kw nums -> delims_ok c kw nums -> characters cps -> parse c (text cps) tu kw nums = Err e ->
  (exists a, characters a /\ reason e = text a) /\ (exists a, characters a /\ display_parse_error e = text a).
Proof.
  intros c tu kw nums cps e He Hd H E. pose proof (text_utf8 cps H) as U.
  assert (S : says_text e).
  { destruct (c_allow_multiple c) eqn:M.
    - apply C51_multiple_errors in E; auto. eapply components_says; eauto.
    - apply C51_single_errors in E; auto. eapply single_says; eauto. }
  split; apply C101_strings_are_texts; [exact S|now apply message_utf8].
Qed.
Print Assumptions C101_messages.
Example C101_messages_example :
  parse ex_multi (text [49; 115; 32; 97; 110; 100; 233]) ex_units (Some ex_keywords) (Some ex_numerals) =
    Err (Syntax 6 (%"A conjunction must be separated by a delimiter, sign or digit but found: '" ++ text [195] ++ %"'")) /\
  characters [49; 115; 32; 97; 110; 100; 233] /\ env_ok ex_multi ex_units (Some ex_keywords) (Some ex_numerals) /\ delims_ok ex_multi (Some ex_keywords) (Some ex_numerals).
Proof. split; [vm_compute; reflexivity|]. split; [|split; [exact ex_env_multi|exact ex_delims_multi]]. intros x Hx. cbn in Hx. unfold scalar. intuition lia. Qed.
(** the character shown is not always the one at the position: only the first byte of it is looked at, so that Ã is shown instead of é *)
Theorem C101_shown_character_refuted : ~ (forall c tu kw nums cps p x, env_ok c tu kw nums -> delims_ok c kw nums -> characters cps -> scalar x ->
  parse c (text cps) tu kw nums = Err (Syntax p (%"Error parsing infinity: Invalid character '" ++ text [x] ++ %"'")) -> In x cps).
Proof.
  intros H. specialize (H config_new ex_units None None [105; 110; 102; 233] 3%nat 195).
  assert (In 195 [105; 110; 102; 233]); [|cbn in *; intuition lia].
  apply H; [apply ex_env; auto|apply delims_none_ok| |unfold scalar; lia|vm_compute; reflexivity]. intros x Hx. cbn in Hx. unfold scalar. intuition lia.
Qed.
Print Assumptions C101_shown_character_refuted.

(** the standard parser with any settings *)
Theorem C101_standard : forall l ss cps e, let p := fold_left dp_set ss (dp_with_time_units l) in config_ok (dp_config p) -> characters cps ->
  dp_parse p (text cps) = Err e ->
  (exists a, characters a /\ display_parse_error e = text a) /\
  (forall i m, e = Syntax i m \/ e = TimeUnitErr i m -> exists a b, cps = a ++ b /\ i = length (text a)).
Proof.
  intros l ss cps e p. unfold p. rewrite std_fold. unfold dp_parse. cbn [dp_config dp_units]. generalize (fold_left dp_set_config ss config_new). intros c HC U E. pose proof (delims_none_ok c) as HD.
  assert (He : env_ok c (std_units (units_with l)) None None) by now apply std_set_env.
  split; [exact (proj2 (C101_messages c _ None None cps e He HD U E))|]. intros i m K. apply (C101_positions c (std_units (units_with l)) None None cps i m He U). destruct K as [<-|<-]; auto.
Qed.
Print Assumptions C101_standard.
(** custom parsers after any calls *)
Theorem C101_custom : forall os cps e, let p := fold_left cp_call os cp_new in calls_fit os -> calls_delims os -> characters cps ->
  cp_parse p (text cps) = Err e ->
  (exists a, characters a /\ display_parse_error e = text a) /\
  (forall i m, e = Syntax i m \/ e = TimeUnitErr i m -> exists a b, cps = a ++ b /\ i = length (text a)).
Proof.
  intros os cps e p HF HD U E. apply calls_delims_ok in HD. unfold p in E. rewrite custom_parse in E. pose proof (own_env os HF) as He.
  split; [exact (proj2 (C101_messages _ _ _ _ cps e He HD U E))|]. intros i m K. eapply C101_positions; [exact He|exact U|]. destruct K as [<-|<-]; eauto.
Qed.
Print Assumptions C101_custom.

(** ** fundu-systemd and fundu-gnu *)
Lemma white_ascii l : white_space l -> forall x, In x l -> 0 <= x <= 127.
Proof. intros H x Hx. specialize (H x Hx). unfold white in H. lia. Qed.
Lemma digits_ascii l : digit_string l -> forall x, In x l -> 0 <= x <= 127.
Proof. intros H x Hx. specialize (H x Hx). lia. Qed.
Lemma sign_text_ascii l n : SpecSpelling.sign_text l n -> forall x, In x l -> 0 <= x <= 127.
Proof. intros [| |] x Hx; cbn in Hx; intuition lia. Qed.
Lemma frac_ascii l F : SpecSpelling.fraction_text l F -> forall x, In x l -> 0 <= x <= 127.
Proof. intros [|G H] x Hx; [destruct Hx|]. apply in_app_or in Hx. destruct Hx as [Hx|Hx]; [cbn in Hx; intuition lia|]. now apply (digits_ascii G). Qed.
Lemma ascii_rest a b : (forall x, In x a -> 0 <= x <= 127) -> utf8 (a ++ b) = true -> utf8 b = true.
Proof. intros H U. now rewrite utf8_all_ascii in U. Qed.
Lemma ascii_text a : (forall x, In x a -> 0 <= x <= 127) -> text a = a /\ characters a.
Proof.
  induction a as [|x a IH]; intros H; [split; [reflexivity|intros x []]|]. destruct IH as [I1 I2]; [intros y Hy; apply H; now right|].
  assert (B : 0 <= x <= 127) by (apply H; now left). split.
  - cbn [text]. unfold encode. replace (x <? 128) with true by lia. cbn [app]. now rewrite I1.
  - intros y [<-|Hy]; [unfold scalar; lia|now apply I2].
Qed.

(** the text of the error is well-formed, and its position in [s] lies in front of a well-formed text *)
Definition in_place (s : str) (e : parse_error) : Prop :=
  says_text e /\ forall i m, e = Syntax i m \/ e = TimeUnitErr i m -> exists a b, s = a ++ b /\ utf8 b = true /\ i = length a.
Lemma in_place_here s pre l m : s = pre ++ l -> utf8 l = true -> utf8 m = true -> in_place s (Syntax (length s - length l) m) /\ in_place s (TimeUnitErr (length s - length l) m).
Proof.
  intros -> U V. split; (split; [exact V|]); intros i m' [K|K]; try discriminate K; injection K as <- _; exists pre, l; rewrite app_length; repeat split; auto; lia.
Qed.
Lemma in_place_end s m : utf8 m = true -> in_place s (Syntax (length s) m).
Proof. intros V. split; [exact V|]. intros i m' [K|K]; try discriminate K. injection K as <- _. exists s, []. rewrite app_nil_r. auto. Qed.
Lemma in_place_other s e : says_text e -> (forall i m, e <> Syntax i m /\ e <> TimeUnitErr i m) -> in_place s e.
Proof. intros S N. split; [exact S|]. intros i m [K|K]; destruct (N i m); contradiction. Qed.

(** what the texts look like from outside *)
Lemma outside cps ws1 t ws2 e : characters cps -> text cps = ws1 ++ t ++ ws2 -> white_space ws1 -> white_space ws2 -> trimmed t ->
  (utf8 t = true -> in_place t e) ->
  (exists a, characters a /\ display_parse_error e = text a) /\
  (forall i m, e = Syntax i m \/ e = TimeUnitErr i m -> exists w a b, cps = w ++ a ++ b /\ white_space w /\ i = length (text a)).
Proof.
  intros H E W1 W2 T P. pose proof (text_utf8 cps H) as U. rewrite E in U. apply (ascii_rest ws1) in U; [|now apply white_ascii].
  assert (Ut : utf8 t = true) by (apply (utf8_front t ws2); [exact U|]; apply ascii_utf8, white_ascii, W2).
  destruct (P Ut) as [S Q]. split; [apply C101_strings_are_texts, message_utf8, S|]. intros i m K. destruct (Q i m K) as (a & b & -> & Ub & ->).
  pose proof (utf8_front a b Ut Ub) as Ua. apply C101_strings_are_texts in Ua. destruct Ua as (ca & Ca & ->). apply C101_strings_are_texts in Ub. destruct Ub as (cb & Cb & ->).
  destruct (ascii_text ws1 (white_ascii ws1 W1)) as [E1 C1]. destruct (ascii_text ws2 (white_ascii ws2 W2)) as [E2 C2].
  exists ws1, ca, (cb ++ ws2). split; [|split; [exact W1|reflexivity]]. apply C101_one_reading; [exact H| |].
  - intros x Hx. rewrite !in_app_iff in Hx. destruct Hx as [Hx|[Hx|[Hx|Hx]]]; auto.
  - rewrite E, !text_app, E1, E2, <- !app_assoc. reflexivity.
Qed.

Section Span.
Context (u : time_unit) (T : list (time_unit * list str)) (s : str).
Hypothesis Hword : forall w u, denotes T w u -> utf8 w = true.
Lemma piece_text t n v W F r : piece u T t n v W F r -> tt t -> (exists pre, t = pre ++ r) /\ tt r.
Proof.
  unfold tt. intros [sg n' W' fr F' gap w v' sep r' Hs HW HF _ Hg Hw _ Hp _|sg n' W' fr F' sep r' Hs HW HF _ _ Hp _ _|sg n' w v' sep r' Hs Hw _ Hp _] U;
    (split; [rewrite ?app_assoc; eauto|]); apply (ascii_rest _ _ (sign_text_ascii _ _ Hs)) in U.
  - apply (ascii_rest _ _ (digits_ascii _ HW)) in U. apply (ascii_rest _ _ (frac_ascii _ _ HF)) in U. apply (ascii_rest _ _ (white_ascii _ Hg)) in U.
    rewrite utf8_app in U by (eapply Hword; eauto). now apply (ascii_rest _ _ (white_ascii _ Hp)) in U.
  - apply (ascii_rest _ _ (digits_ascii _ HW)) in U. apply (ascii_rest _ _ (frac_ascii _ _ HF)) in U. now apply (ascii_rest _ _ (white_ascii _ Hp)) in U.
  - rewrite utf8_app in U by (eapply Hword; eauto). now apply (ascii_rest _ _ (white_ascii _ Hp)) in U.
Qed.
Lemma behind_text t l : behind_sign t l -> tt t -> (exists pre, t = pre ++ l) /\ tt l.
Proof. intros (sg & n & -> & Hs & _) U. split; [eauto|]. now apply (ascii_rest _ _ (sign_text_ascii _ _ Hs)) in U. Qed.
Lemma piece_says t e : piece_error u T s t e -> tt t -> (exists pre, s = pre ++ t) -> in_place s e.
Proof.
  intros H U (pre & ->). destruct H as [x -> _|l H _|W fr F x l H HW HF _ Hx|l H _ _ _|v W F r _ _].
  - now apply in_place_end.
  - apply behind_text in H; [|exact U]. destruct H as [(q & ->) Ul]. eapply in_place_here; [apply app_assoc|exact Ul|reflexivity].
  - apply behind_text in H; [|exact U]. destruct H as [(q & ->) Ul]. apply (ascii_rest _ _ (digits_ascii _ HW)) in Ul. apply (ascii_rest _ _ (frac_ascii _ _ HF)) in Ul.
    eapply (in_place_here _ (pre ++ q ++ W ++ fr)); [rewrite <- !app_assoc; reflexivity|exact Ul|reflexivity].
  - apply behind_text in H; [|exact U]. destruct H as [_ Ul]. apply in_place_other; [exact Ul|split; discriminate].
  - apply in_place_other; [reflexivity|split; discriminate].
Qed.
Lemma span_says t e : span_error u T s t e -> tt t -> (exists pre, s = pre ++ t) -> in_place s e.
Proof.
  intros H. induction H as [t e H|t n v W F r e P _ _ _ IH]; intros U (pre & E); [eapply piece_says; eauto|].
  apply piece_text in P; [|exact U]. destruct P as [(q & ->) Ur]. apply IH; [exact Ur|]. exists (pre ++ q). now rewrite <- app_assoc.
Qed.
End Span.
(** positions are counted from behind the white space in front *)
Theorem C101_systemd : forall p u max cps e, made p u -> characters cps -> is_negative max = false ->
  sd_parse_with_max p (text cps) max = Err e \/ sd_parse_nanos_with_max p (text cps) max = Err e ->
  (exists a, characters a /\ display_parse_error e = text a) /\
  (forall i m, e = Syntax i m \/ e = TimeUnitErr i m -> exists w a b, cps = w ++ a ++ b /\ white_space w /\ i = length (text a)).
Proof.
  intros p u max cps e Hp H M E. pose proof (text_utf8 cps H) as U.
  assert (R : exists T, (T = systemd_units \/ T = systemd_nanos_units) /\ rejected u T (text cps) e).
  { destruct E as [E|E]; [apply (C78_errors p u _ max e Hp U M) in E|apply (C78_nanos_errors p u _ max e Hp U M) in E]; eauto. }
  destruct R as (T & HT & ws1 & t & ws2 & Es & W1 & W2 & Tr & R). eapply outside; eauto. intros Ut.
  destruct R as [[_ ->]|(_ & _ & R)]; [apply in_place_other; [reflexivity|split; discriminate]|].
  eapply span_says; [|exact R|exact Ut|now exists []]. intros w v Hw. destruct HT as [-> | ->]; [apply (systemd_words_ok w v Hw)|apply (systemd_nanos_words_ok w v Hw)].
Qed.
Print Assumptions C101_systemd.

Lemma gnu_sign_ascii sg n : gnu_sign sg n -> forall x, In x sg -> 0 <= x <= 127.
Proof. intros [|ds H|ds H] x Hx; [destruct Hx| |]; (destruct Hx as [<-|Hx]; [lia|now apply (white_ascii ds)]). Qed.
Lemma word_for_utf8 {A} (table : list (A * list str)) w a : forallb (fun x => forallb utf8 (snd x)) table = true -> word_for table w a -> utf8 w = true.
Proof.
  intros K (ws & v & H1 & H2 & H3). rewrite forallb_forall in K. specialize (K _ H1). rewrite forallb_forall in K. specialize (K _ H2). apply (utf8_nocase v w); [now apply nocase_sym|exact K].
Qed.
Lemma phrase_text l g a r : unit_phrase l g a r -> tt l -> (exists pre, l = pre ++ r) /\ tt r.
Proof.
  unfold tt. intros [w g' r' Hw _ _|w g' l' r' Hw (ds & a' & -> & _ & Hd & Ha & _)] U; (rewrite utf8_app in U by (eapply (word_for_utf8 gnu_units); [reflexivity|exact Hw])).
  - split; [eauto|exact U].
  - split; [rewrite !app_assoc; eauto|]. apply (ascii_rest _ _ (white_ascii _ Hd)) in U. rewrite utf8_app in U; [exact U|]. apply (utf8_nocase (%"ago")); [now apply nocase_sym|reflexivity].
Qed.
Lemma number_ascii r num W F : gnu_number r num W F -> forall x, In x num -> 0 <= x <= 127.
Proof.
  intros [W' H _ _|W' F' H _ H2 _ _] x Hx; [now apply (digits_ascii W')|]. apply in_app_or in Hx. destruct Hx as [Hx|[<-|Hx]]; [now apply (digits_ascii W')|lia|now apply (digits_ascii F')].
Qed.
Lemma item_text t a r : gnu_item t a r -> tt t -> (exists pre, t = pre ++ r) /\ tt r.
Proof.
  unfold tt. intros [sg n num W F ds l g ago r' a' Hs Hn Hd Hp _|sg n num W F ds r' a' Hs Hn Hd _ _ _ _|sg n l g ago r' Hs Hp|sg n w k ds l g ago r' Hs Hw Hd _ Hp|sg n w k r' Hs Hw _] U;
    apply (ascii_rest _ _ (gnu_sign_ascii _ _ Hs)) in U.
  - apply (ascii_rest _ _ (number_ascii _ _ _ _ Hn)) in U. apply (ascii_rest _ _ (white_ascii _ Hd)) in U. apply phrase_text in Hp; [|exact U]. destruct Hp as [(q & ->) V].
    split; [rewrite !app_assoc; eauto|exact V].
  - apply (ascii_rest _ _ (number_ascii _ _ _ _ Hn)) in U. apply (ascii_rest _ _ (white_ascii _ Hd)) in U. split; [rewrite !app_assoc; eauto|exact U].
  - apply phrase_text in Hp; [|exact U]. destruct Hp as [(q & ->) V]. split; [rewrite !app_assoc; eauto|exact V].
  - rewrite utf8_app in U by (eapply (word_for_utf8 gnu_numerals); [reflexivity|exact Hw]). apply (ascii_rest _ _ (white_ascii _ Hd)) in U.
    apply phrase_text in Hp; [|exact U]. destruct Hp as [(q & ->) V]. split; [rewrite !app_assoc; eauto|exact V].
  - rewrite utf8_app in U by (eapply (word_for_utf8 gnu_keywords); [reflexivity|exact Hw]). split; [rewrite !app_assoc; eauto|exact U].
Qed.
Lemma after_text t l : after_sign t l -> tt t -> (exists pre, t = pre ++ l) /\ tt l.
Proof. intros (sg & n & -> & Hs & _) U. split; [eauto|]. now apply (ascii_rest _ _ (gnu_sign_ascii _ _ Hs)) in U. Qed.
Lemma some_number_ascii num : some_number num -> forall x, In x num -> 0 <= x <= 127.
Proof.
  intros [W H _|W F H H2 _] x Hx; [now apply (digits_ascii W)|]. apply in_app_or in Hx. destruct Hx as [Hx|[<-|Hx]]; [now apply (digits_ascii W)|lia|now apply (digits_ascii F)].
Qed.
Lemma item_says s t e : item_error s t e -> tt t -> (exists pre, s = pre ++ t) -> in_place s e.
Proof.
  intros H U (pre & ->). destruct H as [x -> _|l H _|num x l H Hn Hx|W F ds l g msg H _ _ _ _ _ _ M|l H _ _ _ _ _|w k ds l H Hw Hd _ _ _].
  - now apply in_place_end.
  - apply after_text in H; [|exact U]. destruct H as [(q & ->) Ul]. eapply in_place_here; [apply app_assoc|exact Ul|reflexivity].
  - apply after_text in H; [|exact U]. destruct H as [(q & ->) Ul]. apply (ascii_rest _ _ (some_number_ascii _ Hn)) in Ul.
    eapply (in_place_here _ (pre ++ q ++ num)); [rewrite <- !app_assoc; reflexivity|exact Ul|reflexivity].
  - apply in_place_other; [|split; discriminate]. destruct M; reflexivity.
  - apply after_text in H; [|exact U]. destruct H as [_ Ul]. apply in_place_other; [exact Ul|split; discriminate].
  - apply after_text in H; [|exact U]. destruct H as [(q & ->) Ul]. assert (Uw : utf8 w = true) by (eapply (word_for_utf8 gnu_numerals); [reflexivity|exact Hw]).
    unfold tt in Ul. rewrite utf8_app in Ul by exact Uw. apply (ascii_rest _ _ (white_ascii _ Hd)) in Ul.
    eapply (in_place_here _ (pre ++ q ++ w ++ ds)); [rewrite <- !app_assoc; reflexivity|exact Ul|]. apply utf8_join; [reflexivity|]. now apply utf8_join.
Qed.
Lemma relative_says s t e : relative_error s t e -> tt t -> (exists pre, s = pre ++ t) -> in_place s e.
Proof.
  intros H. induction H as [|t e H|t a ds r e P Hd _ _ _ IH]; intros U (pre & E); [apply in_place_other; [reflexivity|split; discriminate]|eapply item_says; eauto|].
  apply item_text in P; [|exact U]. destruct P as [(q & ->) Ur]. apply (ascii_rest _ _ (white_ascii _ Hd)) in Ur. apply IH; [exact Ur|]. exists (pre ++ q ++ ds). now rewrite <- !app_assoc.
Qed.
Theorem C101_gnu : forall now cps date e, characters cps -> std_ok (match now with inl d | inr d => d end) -> (forall x, date = Some x -> DateTime.date_time_ok x) ->
  gnu_parse_with_date gnu_new now (text cps) date = Err e ->
  (exists a, characters a /\ display_parse_error e = text a) /\
  (forall i m, e = Syntax i m \/ e = TimeUnitErr i m -> exists w a b, cps = w ++ a ++ b /\ white_space w /\ i = length (text a)).
Proof.
  intros now cps date e H HN HD E. pose proof (text_utf8 cps H) as U. destruct (C77_with_date now (text cps) date e U HN HD) as [_ W]. destruct (W E) as [F|(-> & _)].
  - apply (C77_errors _ e U) in F. destruct F as (ws1 & t & ws2 & Es & W1 & W2 & T & R). eapply outside; eauto. intros Ut. eapply relative_says; [exact R|exact Ut|now exists []].
  - split; [apply C101_strings_are_texts; reflexivity|]. intros i m [K|K]; discriminate K.
Qed.
Print Assumptions C101_gnu.
(** a blank, then 1µs and 1é in systemd; a Greek word in the middle of a relative time *)
Example C101_others_example :
  sd_parse_with_max sd_new (text [32; 49; 181; 115; 32; 49; 101]) MAX = Err (Syntax 6 (%"No exponent allowed")) /\
  gnu_parse_with_date gnu_new (inl (Std 0 0)) (text [32; 100; 97; 121; 32; 955; 955]) None = Err (InvalidInput (text [955; 955])) /\ made sd_new Second.
Proof. split; [vm_compute; reflexivity|]. split; [vm_compute; reflexivity|]. constructor. Qed.

(** `eq_ignore_ascii_case`, which identifiers of infinity, `ago`, conjunctions and the words of fundu-gnu are compared with: the same characters but for
    the case of ASCII letters *)
Lemma lower_same x y : eq_nocase x y = true <-> same_letter x y.
Proof. unfold eq_nocase, to_lower, same_letter. destruct ((65 <=? x) && (x <=? 90)) eqn:E1, ((65 <=? y) && (y <=? 90)) eqn:E2; lia. Qed.
Lemma nocase_bytes a : forall b, str_eq_nocase a b = true <-> Forall2 same_letter a b.
Proof.
  induction a as [|x a IH]; intros [|y b]; cbn [str_eq_nocase]; (split; [intros H|intros H; inversion H; subst]); try discriminate; auto.
  - apply andb_true_iff in H. destruct H as [H1 H2]. constructor; [now apply lower_same|now apply IH].
  - apply andb_true_iff. split; [now apply lower_same|now apply IH].
Qed.
Lemma same_encode x y : scalar x -> scalar y -> same_letter x y -> Forall2 same_letter (encode x) (encode y).
Proof.
  intros Hx Hy [->|H]; [generalize (encode y); intros l; induction l; constructor; auto; now left|].
  assert (x < 128 /\ y < 128) by lia. unfold encode. replace (x <? 128) with true by lia. replace (y <? 128) with true by lia. constructor; [now right|constructor].
Qed.
Lemma encode_shape x : scalar x -> (0 <= x < 128 /\ encode x = [x]) \/ (128 <= x /\ exists b r, encode x = b :: r /\ 192 <= b /\ forall z, In z (b :: r) -> 128 <= z).
Proof.
  unfold scalar, encode. intros H. destruct (Z.ltb_spec x 128); [left; split; [lia|reflexivity]|right; split; [lia|]].
  assert (G : forall l, (forall z, In z l -> 128 <= z) -> match l with [] => False | b :: _ => 192 <= b end -> exists b r, l = b :: r /\ 192 <= b /\ forall z, In z (b :: r) -> 128 <= z).
  { intros [|b r] A B; [destruct B|]. exists b, r. auto. }
  destruct (Z.ltb_spec x 2048); [|destruct (Z.ltb_spec x 65536)]; apply G; try (dm; lia); intros z Hz; cbn [In] in Hz; dm; lia.
Qed.
Lemma same_high l : forall m, Forall2 same_letter l m -> (forall z, In z l -> 128 <= z) -> m = l.
Proof.
  induction l as [|x l IH]; intros m H A; inversion H as [|? y ? m' S F]; subst; [reflexivity|]. assert (128 <= x) by (apply A; now left).
  f_equal; [unfold same_letter in S; lia|]. apply IH; [exact F|]. intros z Hz. apply A. now right.
Qed.
Theorem C101_letter_case : forall a b, characters a -> characters b -> str_eq_nocase (text a) (text b) = true <-> Forall2 same_letter a b.
Proof.
  induction a as [|x a IH]; intros b Ha Hb.
  - destruct b as [|y b]; [split; intros _; [constructor|reflexivity]|]. split; [|intros H; inversion H]. cbn [text]. intros H. apply nocase_bytes in H.
    destruct (encode y) eqn:E; [now destruct (encode_nonempty y)|inversion H].
  - assert (Sx : scalar x) by (apply Ha; now left). assert (Ca : characters a) by (intros z Hz; apply Ha; now right).
    destruct b as [|y b].
    { split; [|intros H; inversion H]. cbn [text]. intros H. apply nocase_bytes in H. destruct (encode x) eqn:E; [now destruct (encode_nonempty x)|inversion H]. }
    assert (Sy : scalar y) by (apply Hb; now left). assert (Cb : characters b) by (intros z Hz; apply Hb; now right). cbn [text]. rewrite nocase_bytes. split.
    + intros H. destruct (encode_shape x Sx) as [(Lx & Ex)|(Lx & bx & rx & Ex & Gx & Hx)].
      * rewrite Ex in H. cbn [app] in H. destruct (encode_shape y Sy) as [(Ly & Ey)|(Ly & by_ & ry & Ey & Gy & Hy)]; rewrite Ey in H; cbn [app] in H; inversion H as [|? ? ? ? S F]; subst.
        -- constructor; [exact S|]. apply IH; auto. now apply nocase_bytes.
        -- exfalso. unfold same_letter in S. lia.
      * apply Forall2_app_inv_l in H. destruct H as (l1 & l2 & F1 & F2 & E). rewrite Ex in F1. apply same_high in F1; [|exact Hx]. subst l1. rewrite <- Ex in E.
        symmetry in E. apply encode_head in E; auto. destruct E as [<- ->]. constructor; [now left|]. apply IH; auto. now apply nocase_bytes.
    + intros H. inversion H as [|? ? ? ? S F]; subst. apply Forall2_app; [now apply same_encode|]. apply nocase_bytes. now apply IH.
Qed.
Print Assumptions C101_letter_case.
Example C101_letter_case_example : str_eq_nocase (text [73; 110; 70]) (text [105; 78; 102]) = true /\ str_eq_nocase (text [193]) (text [225]) = false /\
  str_eq_nocase (text [74]) (text [105]) = false.
Proof. split; [reflexivity|]. split; reflexivity. Qed.
