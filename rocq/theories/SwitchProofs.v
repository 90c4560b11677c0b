(** * Relations between runs of the parser: switches, zeros, plus signs (C27, C30) *)
From Verif Require Import Prelude Util Time Config Bytes Repr Parse SpecTime SpecNum SpecValue SpecParse SpecGrammar SpecSpelling
  TimeProofs NumProofs ReprProofs Utf8Proofs BytesProofs SafeProofs RefParse RefProofs RefSingle RefMulti RefGrammar FitProofs ValueProofs SpellProofs.

(** ** what is left over is a suffix *)
Definition suffix (r l : str) : Prop := exists a, l = a ++ r.
Lemma suffix_refl l : suffix l l. Proof. now exists []. Qed.
Lemma suffix_trans a b c : suffix a b -> suffix b c -> suffix a c.
Proof. intros [x ->] [y ->]. exists (y ++ x). now rewrite app_assoc. Qed.
Lemma suffix_cons x a b : suffix a b -> suffix a (x :: b).
Proof. intros [y ->]. now exists (x :: y). Qed.
Lemma suffix_nil l : suffix [] l. Proof. exists l. now rewrite app_nil_r. Qed.
Lemma span_suffix p l a b : span p l a b -> suffix b l. Proof. intros (-> & _). now exists a. Qed.
Lemma until_suffix p l a b : until p l a b -> suffix b l. Proof. apply span_suffix. Qed.
Lemma word_prefix_suffix w l r : word_prefix w l r -> suffix r l. Proof. intros (v & -> & _). now exists v. Qed.

Section Suffix.
Context (c : config) (tu : units_like) (kw : option units_like) (nums : option numbers_like).
Lemma signed_suffix s n l : signed c s n l -> suffix l s.
Proof.
  intros [l0 _ _|x l0 r _ _ -> _|x l0 ds r _ _ H _]; [apply suffix_refl|apply suffix_cons, suffix_refl|].
  apply suffix_cons. eapply span_suffix; eauto.
Qed.
Lemma fraction_suffix l F r : fraction c l F r -> suffix r l.
Proof. intros [l0 _|l0 F0 r0 _ H]; [apply suffix_refl|]. apply suffix_cons. eapply span_suffix; eauto. Qed.
Lemma exponent_suffix l e r : exponent c l e r -> suffix r l.
Proof.
  intros [l0 _|x sg n l0 ds r0 e0 _ _ _ H _ _ _]; [apply suffix_refl|]. apply suffix_cons.
  eapply suffix_trans; [eapply span_suffix; eauto|now exists sg].
Qed.
Lemma unit_delimiter_suffix l r : unit_delimiter c l r -> suffix r l.
Proof. intros [l0 _|l0 ds r0 _ H _]; [apply suffix_refl|]. eapply span_suffix; eauto. Qed.
Lemma number_suffix l W F x r : number c l W F x r -> suffix r l.
Proof.
  intros (l1 & l2 & l3 & H1 & H2 & H3 & H4 & _).
  eapply suffix_trans; [eapply unit_delimiter_suffix; eauto|]. eapply suffix_trans; [eapply exponent_suffix; eauto|].
  eapply suffix_trans; [eapply fraction_suffix; eauto|]. eapply span_suffix; eauto.
Qed.
Lemma connection_suffix l r : connection c l r -> suffix r l.
Proof.
  intros [l0 ds r0 H _ _ _|l0 ds y ws1 w ws2 z r0 H _ _ _ _ Hw Hz]; [eapply span_suffix; eauto|].
  eapply suffix_trans; [|eapply span_suffix; eauto]. eapply suffix_trans; [|eapply word_prefix_suffix; eauto].
  destruct Hz as [(_ & _ & ->)|(ds2 & Hs & _)]; [apply suffix_refl|eapply span_suffix; eauto].
Qed.
Lemma next_component_suffix l r : next_component c l r -> suffix r l.
Proof. intros [l0 _|l0 r0 H]; [apply suffix_refl|now apply connection_suffix]. Qed.
Lemma ago_suffix l r : ago c l r -> suffix r l.
Proof.
  intros (_ & ds & a & H1 & _ & H2 & _). eapply suffix_trans; [eapply word_prefix_suffix; eauto|]. eapply span_suffix; eauto.
Qed.
Lemma multi_unit_suffix l u m r : multi_unit c tu l u m r -> suffix r l.
Proof.
  intros [l0 w l1 u0 m0 r0 H _ _ _ _ Hn|l0 w l1 l2 u0 m0 r0 H _ _ Ha Hn].
  - eapply suffix_trans; [apply next_component_suffix; eauto|eapply until_suffix; eauto].
  - eapply suffix_trans; [apply next_component_suffix; eauto|]. eapply suffix_trans; [apply ago_suffix; eauto|eapply until_suffix; eauto].
Qed.
Lemma numeral_prefix_suffix l n r : numeral_prefix c nums l n r -> suffix r l.
Proof.
  intros (f & w & l1 & ds & _ & H & _ & _ & H2 & _). eapply suffix_trans; [eapply span_suffix; eauto|eapply until_suffix; eauto].
Qed.
Lemma component_suffix s d r : component c tu kw nums s d r -> suffix r s.
Proof.
  intros H; destruct H; (eapply suffix_trans; [|eapply signed_suffix; eauto]);
    repeat match goal with
    | H : number _ _ _ _ _ ?r |- suffix ?r _ => eapply number_suffix; exact H
    | H : multi_unit _ _ _ _ _ ?r |- suffix ?r _ => eapply suffix_trans; [eapply multi_unit_suffix; exact H|]
    | H : numeral_prefix _ _ _ _ ?r |- suffix ?r _ => eapply numeral_prefix_suffix; exact H
    | H : word_prefix _ ?l ?r |- suffix ?r ?l => eapply word_prefix_suffix; exact H
    | H : word_prefix _ _ ?r |- suffix ?r _ => eapply suffix_trans; [eapply word_prefix_suffix; exact H|]
    | H : multi_keyword_is _ _ _ _ _ ?r |- suffix ?r _ => destruct H as (? & ? & _ & H & _); eapply until_suffix; exact H
    | H : next_component _ _ ?r |- suffix ?r _ => eapply suffix_trans; [eapply next_component_suffix; exact H|]; clear H
    | |- suffix ?l ?l => apply suffix_refl
    end.
Qed.
End Suffix.

(** ** from grammars to parsers *)
Lemma parse_result_ok c tu kw nums s d : env_ok c tu kw nums -> utf8 s = true -> parse c s tu kw nums = Ok d -> duration_ok d.
Proof. intros HE U H. pose proof (hoare_parse c tu kw nums s HE U) as P. rewrite H in P. apply P. Qed.

Lemma parse_transfer c c' tu kw nums s s' D :
  env_ok c tu kw nums -> env_ok c' tu kw nums -> delims_ok c kw nums -> delims_ok c' kw nums ->
  utf8 s = true -> utf8 s' = true ->
  c_allow_multiple c' = c_allow_multiple c -> c_allow_negative c' = c_allow_negative c ->
  (c_allow_multiple c = false -> forall d, single_duration c tu kw nums s d -> single_duration c' tu kw nums s' d) ->
  (c_allow_multiple c = true -> forall ds, components c tu kw nums s ds -> components c' tu kw nums s' ds) ->
  parse c s tu kw nums = Ok D ->
  exists D', parse c' s' tu kw nums = Ok D' /\ duration_ok D' /\ nanos D' = nanos D.
Proof.
  intros HE HE' Hd Hd' U U' Em En H1 H2 H. pose proof (parse_result_ok _ _ _ _ _ _ HE U H) as HO.
  unfold parse in *. rewrite Em in *. destruct (c_allow_multiple c) eqn:M.
  - apply fit_grammar in H; auto. destruct H as (_ & ds & Hc & Hs & V). rewrite V.
    apply (fit_complete c'); auto. intros d Hin. specialize (Hs d Hin). unfold sign_allowed in *. now rewrite En.
  - apply parse_single_grammar in H; [|assumption|assumption]. destruct H as [Hsd Hs]. exists D. split; [|auto].
    apply parse_single_grammar; auto. split; [auto|]. unfold sign_allowed in *. now rewrite En.
Qed.

Lemma components_mono c c' tu kw nums :
  (forall s d r, component c tu kw nums s d r -> component c' tu kw nums s d r) ->
  forall s ds, components c tu kw nums s ds -> components c' tu kw nums s ds.
Proof. intros H s ds Hc. induction Hc as [s d Hc|s d r ds Hc N _ IH]; [apply cs_last; auto|eapply cs_more; eauto]. Qed.
Lemma components_mono_suffix c c' tu kw nums s0 :
  (forall s d r, suffix s s0 -> component c tu kw nums s d r -> component c' tu kw nums s d r) ->
  forall s ds, suffix s s0 -> components c tu kw nums s ds -> components c' tu kw nums s ds.
Proof.
  intros H s ds Hs Hc. induction Hc as [s d Hc|s d r ds Hc N _ IH]; [apply cs_last; auto|].
  eapply cs_more; eauto. apply IH. eapply suffix_trans; [eapply component_suffix; eauto|exact Hs].
Qed.

(** ** disable_fraction, disable_exponent *)
Lemma f_fraction_relax c l o : f_fraction c l = Some o -> f_fraction (relax c) l = Some o.
Proof.
  unfold f_fraction. destruct l as [|x l]; [auto|]. destruct (is_dot x); [|auto]. cbn [relax set_disable_fraction c_disable_fraction].
  destruct (c_disable_fraction c); [discriminate|auto].
Qed.
Lemma f_exponent_relax c l o : f_exponent c l = Some o -> f_exponent (relax c) l = Some o.
Proof.
  unfold f_exponent. destruct l as [|x l]; [auto|]. destruct (is_e x); [|auto].
  cbn [relax set_disable_fraction set_disable_exponent c_disable_exponent].
  destruct (c_disable_exponent c); [discriminate|auto].
Qed.
Lemma f_number_relax c T n W l o : f_number c T n W l = Some o -> f_number (relax c) T n W l = Some o.
Proof.
  unfold f_number. rewrite !obind_Some. intros ([F l1] & H1 & H). exists (F, l1). split; [now apply f_fraction_relax|].
  destruct (is_empty (W ++ F)); [discriminate|]. rewrite obind_Some in *. destruct H as ([x l2] & H2 & H).
  exists (x, l2). split; [now apply f_exponent_relax|]. exact H.
Qed.
Lemma f_template_relax c nums T s o : f_template c nums T s = Some o -> f_template (relax c) nums T s = Some o.
Proof.
  unfold f_template. rewrite !obind_Some. intros ([n l] & H1 & H). exists (n, l). split; [exact H1|].
  destruct l as [|x l]; [discriminate|]. destruct (is_digit x); [now apply f_number_relax|].
  destruct (is_dot x); [now apply f_number_relax|]. exact H.
Qed.
Lemma env_relax c tu kw nums : env_ok c tu kw nums -> env_ok (relax c) tu kw nums.
Proof. intros []. now constructor. Qed.

Lemma parse_relax c tu kw nums s D : env_ok c tu kw nums -> delims_ok c kw nums -> utf8 s = true ->
  parse c s tu kw nums = Ok D -> exists D', parse (relax c) s tu kw nums = Ok D' /\ duration_ok D' /\ nanos D' = nanos D.
Proof.
  intros HE Hd U. apply parse_transfer; auto; [now apply env_relax| |].
  - intros _ d H. pose proof (proj2 (f_single_iff c tu kw nums s d []) (conj eq_refl H)) as E.
    apply f_template_relax in E. apply (f_single_iff (relax c) tu kw nums s d []) in E. apply E.
  - intros _. apply components_mono. intros l d r H. apply f_multi_iff in H. apply f_template_relax in H.
    now apply (f_multi_iff (relax c) tu kw nums l d r) in H.
Qed.

(** a point / an exponent in a number is an error if disabled *)
Lemma sign_text_signed c sg n l n' l' : sign_text sg n -> l <> [] -> starts_not is_sign l ->
  (sg <> [] -> c_allow_sign_delimiter c = true -> starts_not (c_inner_delimiter c) l) ->
  signed c (sg ++ l) n' l' -> n' = n /\ l' = l.
Proof. intros H1 H2 H3 H4 H. eapply signed_fun; [exact H|]. now apply signed_text. Qed.

Definition no_number (c : config) (l : str) : Prop := forall W F x r, ~ number c l W F x r.

Lemma no_number_not_ok c tu kw nums s n l :
  env_ok c tu kw nums -> delims_ok c kw nums -> utf8 s = true -> signed c s n l ->
  match l with [] => False | y :: _ => is_digit y = true \/ is_dot y = true end -> no_number c l ->
  forall D, parse c s tu kw nums <> Ok D.
Proof.
  intros HE Hd U Hs Hh Hn D H. unfold parse in *.
  assert (NI : forall r, ~ word_prefix (%"inf") l r).
  { intros r H0%word_prefix_iff. destruct H0 as [H0 _]. apply inf_head in H0. destruct H0 as (y & l' & -> & E1 & E2).
    destruct Hh; congruence. }
  assert (NW : ~ word c l). { intros (A & B & _). destruct l; [contradiction|]. cbn in *. destruct Hh; congruence. }
  destruct (c_allow_multiple c) eqn:M.
  - apply fit_grammar in H; auto. destruct H as (_ & ds & Hc & _).
    assert (C : exists d r, component c tu kw nums s d r) by (destruct Hc; eauto). destruct C as (d & r & C).
    destruct C; match goal with H1 : signed _ _ _ _, H2 : signed _ _ _ _ |- _ => destruct (signed_fun _ _ _ _ _ _ H1 H2) as [-> ->] end;
      try contradiction; try (eapply Hn; eassumption); try (eapply NI; eassumption).
  - apply parse_single_grammar in H; [|assumption|assumption]. destruct H as [C _].
    destruct C as [s n1 l1 W F x Hs1 Hn1|s n1 l1 W F x r u m Hs1 Hn1|s n1 l1 Hs1 Hi Hv|s n1 l1 u m Hs1|s n1 l1 u m Hs1|s n1 l1 num r u m Hs1];
    destruct (signed_fun _ _ _ _ _ _ Hs Hs1) as [<- <-];
      try contradiction; try (eapply Hn; eassumption).
    destruct Hv as [Hv|Hv].
    + apply (NI []). exists l. split; [now rewrite app_nil_r|exact Hv].
    + apply (NI (skipn 3 l)). rewrite <- (firstn_skipn 3 l) in Hv. change (%"infinity") with (%"inf" ++ %"inity") in Hv.
      exists (firstn 3 l). split; [now rewrite firstn_skipn|].
      pose proof (str_eq_nocase_length _ _ Hv) as L. rewrite firstn_skipn in L.
      rewrite str_eq_nocase_app' in Hv by (rewrite firstn_length, L; reflexivity). apply andb_true_iff in Hv. apply Hv.
Qed.

Lemma parse_point_disabled c tu kw nums sg n W r :
  env_ok c tu kw nums -> delims_ok c kw nums -> c_disable_fraction c = true -> utf8 r = true ->
  sign_text sg n -> digit_string W ->
  (sg <> [] -> c_allow_sign_delimiter c = true -> starts_not (c_inner_delimiter c) (W ++ %"." ++ r)) ->
  forall D, parse c (sg ++ W ++ %"." ++ r) tu kw nums <> Ok D.
Proof.
  intros HE Hd Hf U Hsg HW Hdel.
  assert (Hh : match W ++ %"." ++ r with [] => False | y :: _ => is_digit y = true \/ is_dot y = true end).
  { destruct W as [|y W]; cbn; [now right|]. apply digit_string_cons in HW. left. unfold is_digit. lia. }
  apply (no_number_not_ok c tu kw nums _ n (W ++ %"." ++ r)); auto.
  - rewrite (utf8_sign sg n), utf8_digits by assumption. exact U.
  - apply signed_text; auto.
    + intros E. rewrite E in Hh. exact Hh.
    + destruct (W ++ %"." ++ r) as [|y ?]; [exact I|]. cbn. unfold is_sign, is_digit, is_dot in *. destruct Hh; lia.
  - intros W' F x r' (l1 & l2 & l3 & H1 & H2 & _). apply span_iff in H1.
    destruct (take_while_app_stop is_digit W (%"." ++ r)) as [E1 E2]; [now apply digit_string_is_digit|reflexivity|].
    rewrite E1, E2 in H1. destruct H1 as [-> ->]. apply fraction_iff in H2. cbn in H2. now rewrite Hf in H2.
Qed.

Lemma parse_exponent_disabled c tu kw nums sg n W fr F x r :
  env_ok c tu kw nums -> delims_ok c kw nums -> c_disable_exponent c = true -> utf8 r = true ->
  sign_text sg n -> digit_string W -> fraction_text fr F -> W ++ F <> [] -> x = 101 \/ x = 69 ->
  (sg <> [] -> c_allow_sign_delimiter c = true -> starts_not (c_inner_delimiter c) (W ++ fr)) ->
  forall D, parse c (sg ++ W ++ fr ++ x :: r) tu kw nums <> Ok D.
Proof.
  intros HE Hd Hf U Hsg HW Hfr N Hx Hdel.
  destruct (number_text_head W fr F (x :: r) HW Hfr N) as [N1 N2].
  assert (Ux : utf8 (x :: r) = true) by (cbn [utf8]; replace (inb 0 127 x) with true by (unfold inb; lia); exact U).
  apply (no_number_not_ok c tu kw nums _ n (W ++ fr ++ x :: r)); auto.
  - rewrite (utf8_sign sg n), utf8_digits, (utf8_fraction fr F) by assumption. exact Ux.
  - apply signed_text; auto. intros S1 S2. rewrite app_assoc. apply starts_not_app; [auto|].
    intros E. apply app_eq_nil in E. destruct E as [-> ->]. apply fraction_text_nil in Hfr. subst F. now destruct N.
  - destruct W as [|y W]; [destruct Hfr as [|F' ?]; [now destruct N|cbn; now right]|].
    apply digit_string_cons in HW. left. unfold is_digit. lia.
  - intros W' F' e r' (l1 & l2 & l3 & H1 & H2 & H3 & _). apply span_iff in H1.
    assert (Hxd : is_digit x = false) by (unfold is_digit; lia).
    destruct (take_while_app_stop is_digit W (fr ++ x :: r)) as [E1 E2]; [now apply digit_string_is_digit| |].
    { apply starts_not_app; [eapply fraction_text_head; eauto|]. intros _. exact Hxd. }
    rewrite E1, E2 in H1. destruct H1 as [-> ->].
    assert (L2 : l2 = x :: r).
    { apply fraction_iff in H2. destruct Hfr as [|F0 HF0]; cbn in H2.
      - replace (is_dot x) with false in H2 by (unfold is_dot; lia). now injection H2 as <- <-.
      - destruct (c_disable_fraction c); [discriminate|]. injection H2 as <- <-.
        apply take_while_app_stop; [now apply digit_string_is_digit|exact Hxd]. }
    subst l2. apply exponent_iff in H3. cbn in H3. replace (is_e x) with true in H3 by (unfold is_e; lia). now rewrite Hf in H3.
Qed.

(** ** disable_infinity *)
Lemma env_enable c tu kw nums : env_ok c tu kw nums -> env_ok (enable_infinity c) tu kw nums.
Proof. intros []. now constructor. Qed.
Lemma f_template_enable c nums T s o :
  (forall n l r, signed c s n l -> ~ word_prefix (%"inf") l r) ->
  f_template c nums T s = Some o -> f_template (enable_infinity c) nums T s = Some o.
Proof.
  intros Hp. unfold f_template. rewrite !obind_Some. intros ([n l] & H1 & H). exists (n, l). split; [exact H1|].
  destruct l as [|x l]; [discriminate|]. destruct (is_digit x); [exact H|].
  destruct (is_dot x); [exact H|].
  assert (E : starts_nocase (%"inf") (x :: l) = false).
  { apply no_word_prefix_iff. intros [r Hr]. apply signed_iff in H1. exact (Hp _ _ _ H1 Hr). }
  rewrite E in *. rewrite !andb_false_r in *. exact H.
Qed.
Lemma parse_enable_infinity c tu kw nums s D : env_ok c tu kw nums -> delims_ok c kw nums -> utf8 s = true ->
  (forall a l r, s = a ++ l -> ~ word_prefix (%"inf") l r) ->
  parse c s tu kw nums = Ok D -> exists D', parse (enable_infinity c) s tu kw nums = Ok D' /\ duration_ok D' /\ nanos D' = nanos D.
Proof.
  intros HE Hd U Hp. apply parse_transfer; auto; [now apply env_enable| |].
  - intros _ d H. pose proof (proj2 (f_single_iff c tu kw nums s d []) (conj eq_refl H)) as E.
    apply f_template_enable in E; [apply (f_single_iff (enable_infinity c) tu kw nums s d []) in E; apply E|].
    intros n l r Hs. apply signed_suffix in Hs. destruct Hs as [a Ha]. eapply Hp; eauto.
  - intros _ ds H. eapply components_mono_suffix; [|apply suffix_refl|exact H]. intros l d r Hl Hc. apply f_multi_iff in Hc.
    apply f_template_enable in Hc; [now apply (f_multi_iff (enable_infinity c) tu kw nums l d r) in Hc|].
    intros n l' r' Hs. apply signed_suffix in Hs. destruct (suffix_trans _ _ _ Hs Hl) as [a Ha]. eapply Hp; eauto.
Qed.

(** ** spellings of the same number *)
Lemma number_value_same n W1 F1 W2 F2 x u m :
  same_number W1 F1 W2 F2 ->
  number_value n W1 F1 x u m = number_value n W2 F2 x u m.
Proof.
  intros E. unfold number_value. set (e := expo (unit_length u) + expo m). set (k := coef (unit_length u) * coef m).
  rewrite <- (number_result_shift _ (dval (W1 ++ F1)) _ (Z.of_nat (length F2))) by lia.
  rewrite <- (number_result_shift _ (dval (W2 ++ F2)) _ (Z.of_nat (length F1))) by lia.
  unfold same_number in E. rewrite E. f_equal. lia.
Qed.

Lemma starts_number_signed c s n W F rest : starts_number c n W F rest s ->
  exists l, signed c s n l /\
   (match l with [] => False | y :: _ => is_digit y = true \/ is_dot y = true end) /\
   forall W' F' x r, number c l W' F' x r <->
     W' = W /\ F' = F /\ exists l3, exponent c rest x l3 /\ unit_delimiter c l3 r.
Proof.
  intros [sg fr Hsg HW Hf N De Hdel Hr Hrd]. destruct (number_text_head W fr F rest HW Hf N) as [N1 N2].
  exists (W ++ fr ++ rest). split; [|split].
  - apply signed_text; auto. intros S1 S2. rewrite app_assoc. apply starts_not_app; [auto|].
    intros E. apply app_eq_nil in E. destruct E as [-> ->]. apply fraction_text_nil in Hf. subst F. now destruct N.
  - destruct W as [|y W]; [destruct Hf as [|F' ?]; [now destruct N|cbn; now right]|].
    apply digit_string_cons in HW. left. unfold is_digit. lia.
  - assert (Hs : span is_digit (W ++ fr ++ rest) W (fr ++ rest)).
    { apply span_digits; [assumption|]. apply starts_not_app; [eapply fraction_text_head; eauto|auto]. }
    assert (Hfr : fraction c (fr ++ rest) F rest).
    { destruct Hf as [|F HF]; [apply no_fraction; auto|]. cbn [app bytes_of]. apply some_fraction; [apply De; discriminate|]. now apply span_digits. }
    intros W' F' x r. split.
    + intros (l1 & l2 & l3 & H1 & H2 & H3 & H4 & _). apply span_iff in H1, Hs. destruct Hs as [Hs1 Hs2].
      rewrite <- Hs1, <- Hs2 in H1. destruct H1 as [-> ->]. apply fraction_iff in H2, Hfr. rewrite Hfr in H2. injection H2 as <- <-. eauto.
    + intros (-> & -> & l3 & H3 & H4). exists (fr ++ rest), rest, l3. auto.
Qed.

Lemma digit_head_not_word c l : match l with [] => False | y :: _ => is_digit y = true \/ is_dot y = true end ->
  ~ word c l /\ forall r, ~ word_prefix (%"inf") l r.
Proof.
  intros Hh. split.
  - intros (A & B & _). destruct l; [contradiction|]. cbn in *. destruct Hh; congruence.
  - intros r H0%word_prefix_iff. destruct H0 as [H0 _]. apply inf_head in H0. destruct H0 as (y & l' & -> & E1 & E2).
    destruct Hh; congruence.
Qed.

Lemma f_template_same c nums T s1 s2 n W1 F1 W2 F2 rest :
  starts_number c n W1 F1 rest s1 -> starts_number c n W2 F2 rest s2 ->
  same_number W1 F1 W2 F2 ->
  forall o, f_template c nums T s1 = Some o -> f_template c nums T s2 = Some o.
Proof.
  intros H1 H2 E o Ho. apply starts_number_signed in H1, H2. destruct H1 as (l1 & S1 & Hh & N1). destruct H2 as (l2 & S2 & _ & N2).
  apply digit_head_not_word with (c := c) in Hh. destruct Hh as [Hw Hi].
  apply f_template_iff in Ho. destruct Ho as (n0 & l & Hs & Ho).
  destruct (signed_fun _ _ _ _ _ _ S1 Hs) as [<- <-]. apply f_template_iff. exists n, l2. split; [exact S2|].
  destruct Ho as [(W & F & x & r & Hn & Ho)|[(_ & r & Ho & _)|[Ho _]]]; [|now destruct (Hi r)|contradiction].
  left. apply N1 in Hn. destruct Hn as (-> & -> & Hl). exists W2, F2, x, r. split; [apply N2; auto|].
  rewrite <- Ho. unfold after_number.
  assert (V : forall u m, number_value n W1 F1 x u m = number_value n W2 F2 x u m) by (intros; now apply number_value_same).
  destruct r as [|y r]; [now rewrite V|]. destruct (rt_ntu T (y :: r)) as [[[[u m]|] r']|]; cbn [obind]; [now rewrite V|now rewrite V|reflexivity].
Qed.

Lemma parse_same_number c tu kw nums s1 s2 n W1 F1 W2 F2 rest D :
  env_ok c tu kw nums -> delims_ok c kw nums -> utf8 rest = true ->
  starts_number c n W1 F1 rest s1 -> starts_number c n W2 F2 rest s2 ->
  same_number W1 F1 W2 F2 ->
  parse c s1 tu kw nums = Ok D -> exists D', parse c s2 tu kw nums = Ok D' /\ duration_ok D' /\ nanos D' = nanos D.
Proof.
  intros HE Hd U H1 H2 E.
  assert (Us : forall s W F, starts_number c n W F rest s -> utf8 s = true).
  { intros s W F [sg fr Hsg HW Hf _ _ _ _ _]. now rewrite (utf8_sign sg n), utf8_digits, (utf8_fraction fr F) by assumption. }
  apply parse_transfer; auto; eauto.
  - intros _ d H. pose proof (proj2 (f_single_iff c tu kw nums s1 d []) (conj eq_refl H)) as G.
    eapply f_template_same in G; eauto. apply f_single_iff in G. apply G.
  - intros _ ds H. assert (C : forall d r, component c tu kw nums s1 d r -> component c tu kw nums s2 d r).
    { intros d r C. apply f_multi_iff in C. apply f_multi_iff. eapply f_template_same in C; eauto. }
    destruct H as [s1 d H|s1 d r ds H N H3]; [apply cs_last; auto|eapply cs_more; eauto].
Qed.
