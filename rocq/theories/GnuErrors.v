(** * The gnu parser rejects exactly the texts, and with exactly the errors, of SpecGnuErrors *)
From Verif Require Import Prelude Util Time Config Bytes Repr Parse SpecTime SpecNum SpecValue SpecParse SpecGrammar SpecErrors SpecSystemd
  TimeProofs NumProofs ReprProofs Utf8Proofs BytesProofs SafeProofs RefParse RefProofs RefSingle RefMulti RefGrammar RefErrors ErrorProofs
  Systemd SystemdProofs SpecGnu SpecGnuErrors Gnu GnuWords GnuRef GnuEval GnuGrammar.

Notation grt := (rmulti gc gu gk).

(** ** evaluation *)
Definition item_fails (it : item) : option parse_error :=
  match i_fract it with
  | None => None
  | Some F =>
      if time_unit_eqb (fst (item_um it)) Second then
        match i_whole it with
        | None => Some (InvalidInput (%"Fraction without a whole number"))
        | Some _ => if is_empty F then Some (InvalidInput (%"Fraction without a fractional number")) else None
        end
      else Some fraction_error
  end.
Lemma fails_iff it : item_amount it = None <-> item_fails it <> None.
Proof.
  unfold item_amount, item_fails. destruct (item_um it) as [u m]. cbn [fst]. destruct (i_fract it) as [F|]; [|split; [discriminate|congruence]].
  destruct (time_unit_eqb u Second), (i_whole it) as [W|], (is_empty F); cbn [andb negb]; split; congruence.
Qed.
Lemma eval_fails s it r e : item_ok it -> item_repr s it r -> gnu_repr_parse_fuzzy r = Err e -> item_fails it = Some e.
Proof.
  intros Hok Hr E. pose proof (eval_item s it r Hok Hr) as SE. rewrite E in SE. 
  destruct (item_amount it) as [a|] eqn:Ea; [contradiction|]. clear SE. apply fails_iff in Ea. revert Ea E.
  destruct Hr as [_ Ed _ Ew Ef _ Eu _]. unfold item_fails, gnu_repr_parse_fuzzy, gnu_repr_parse, item_um. rewrite Eu, Ed.
  destruct (i_fract it) as [F|]; [|congruence]. destruct Ef as (f & -> & Ef & _).
  rewrite (range_empty _ _ _ Ef).
  destruct (i_unit it) as [[u m]|]; cbn [option_map fst].
  - intros N. destruct u; cbn [time_unit_eqb]; try congruence; destruct (i_whole it) as [W|].
    all: try (rewrite Ew; cbn [bind]; congruence).
    all: try (destruct Ew as (w & W0 & z & -> & _); cbn [bind]; congruence).
    destruct Ew as (w & W0 & z & -> & _). cbn [time_unit_eqb] in *. destruct (is_empty F); [cbn [bind]; congruence|]. cbn [time_unit_eqb] in N. congruence.
  - intros N. cbn [time_unit_eqb] in *. destruct (i_whole it) as [W|].
    + destruct Ew as (w & W0 & z & -> & _). destruct (is_empty F); [cbn [bind]; congruence|congruence].
    + rewrite Ew. cbn [bind]. congruence.
Qed.

(** ** the errors of the core, with the configuration of gnu and a text which does not end with white space *)
Section Text.
Context (s : str).
Hypothesis Bs : bytes s.
Hypothesis Tr : forall x r, s = r ++ [x] -> ~ white x.
Definition suffix (l : str) : Prop := exists p, s = p ++ l.
Lemma suffix_app a b : suffix (a ++ b) -> suffix b.
Proof. intros (p & E). exists (p ++ a). now rewrite <- app_assoc. Qed.
Lemma suffix_cons x b : suffix (x :: b) -> suffix b.
Proof. exact (suffix_app [x] b). Qed.
Lemma suffix_bytes l : suffix l -> bytes l.
Proof. intros (p & E) x Hx. apply Bs. rewrite E. apply in_or_app. now right. Qed.
Lemma no_trailing l e : suffix l -> ~ trailing s wh l e.
Proof.
  intros (p & E) (N & H & _). destruct (exists_last N) as (r & x & ->). apply (Tr x (p ++ r)); [now rewrite E, app_assoc|].
  apply gnu_delimiter_iff, H. apply in_or_app. right. now left.
Qed.
Lemma no_next l e : suffix l -> ~ next_error gc s l e.
Proof.
  intros S [H|ds y _ _ _ [ws1 w ws2 z E _ _ _]]; [now apply (no_trailing l e)|]. destruct ws1; discriminate.
Qed.
Lemma ago_suffix l r : ago gc l r -> exists p, l = p ++ r.
Proof. intros (_ & ds & a & (-> & _) & _ & (v & -> & _) & _). exists (ds ++ v). now rewrite <- app_assoc. Qed.
Lemma no_unit_error l e : suffix l -> ~ multi_unit_error gc gu s l e.
Proof.
  intros S [w l1 (-> & _) _ _ _ H|w l1 (-> & _) _ _ _ _ H|w l1 l2 (-> & _) _ _ Ha H].
  - apply suffix_app in S. now apply (no_trailing l1 e).
  - apply suffix_app in S. now apply (no_next l1 e).
  - apply suffix_app in S. destruct (ago_suffix _ _ Ha) as (p & ->). apply suffix_app in S. now apply (no_next l2 e).
Qed.

Lemma starts_not_white l : starts_not wh l <-> no_white_ahead l.
Proof.
  unfold no_white_ahead. destruct l as [|x l]; cbn [starts_not]; [split; [intros _ x r H; discriminate|trivial]|]. split.
  - intros H y r [= <- <-] W. apply gnu_delimiter_iff in W. congruence.
  - intros H. apply wh_false. exact (H x l eq_refl).
Qed.
Lemma starts_not_digit l : starts_not is_digit l <-> no_digit_ahead l.
Proof.
  unfold no_digit_ahead. destruct l as [|x l]; cbn [starts_not]; [split; [intros _ x r H; discriminate|trivial]|]. split.
  - intros H y r [= <- <-]. now apply digit_of.
  - intros H. apply not_digit. exact (H x l eq_refl).
Qed.
Lemma after_sign_iff t l : no_white_ahead t -> (after_sign t l <-> exists n, signed gc t n l).
Proof.
  intros Wt. split.
  - intros (sg & n & -> & Hs & Nl & Wl & Ns). exists n. apply signed_iff. destruct l as [|x l]; [congruence|]. destruct sg as [|y sg].
    + inversion Hs. subst n. cbn [app f_signed]. destruct (Ns eq_refl x l eq_refl). unfold is_sign. destruct (Z.eqb_spec x 43), (Z.eqb_spec x 45); try congruence. reflexivity.
    + assert (D : forall ds, white_space ds -> drop_while wh (ds ++ x :: l) = x :: l) by (intros ds Hd; apply wh_span; auto).
      inversion Hs; subst; cbn [app f_signed]; change (c_allow_sign_delimiter gc) with true; change (c_inner_delimiter gc) with wh; cbn [is_sign Z.eqb orb]; rewrite D by assumption; reflexivity.
  - intros (n & H). pose proof H as H0. apply signed_iff in H0. apply sign_sound in H0. destruct H0 as (sg & -> & Hs). exists sg, n.
    split; [reflexivity|]. split; [exact Hs|].
    remember (sg ++ l) as t eqn:Et. destruct H as [l0 Ns Nl|x l0 r Hx Hc _ _|x l0 ds r Hx Hc Hd Nr].
    + split; [exact Nl|]. split; [exact Wt|]. intros _ x r ->. cbn [starts_not] in Ns. unfold is_sign in Ns. lia.
    + discriminate.
    + split; [exact Nr|]. destruct Hd as (-> & _ & Hd). split; [now apply starts_not_white|]. intros ->. exfalso. cbn [app] in Et.
      apply (f_equal (@length byte)) in Et. cbn [length] in Et. rewrite app_length in Et. lia.
Qed.
Lemma no_unit_iff l : suffix l -> (no_unit_ahead l <-> ~ multi_unit_like gc gu l).
Proof.
  intros S. rewrite <- fm_tu_none. destruct (fm_tu_spec l (suffix_bytes l S)) as [(g & ago & r & um & HP & _ & ->)|[NU ->]].
  - split; [intros H; now elim (H _ _ _ HP)|]. destruct (f_next gc r); discriminate.
  - split; [reflexivity|]. intros _. exact NU.
Qed.
Lemma no_keyword_iff l : suffix l -> ((forall w k r, l = w ++ r -> word_for gnu_keywords w k -> ~ ends_word r) <-> forall u m r, ~ multi_keyword_is gc gk l u m r).
Proof.
  intros S. apply suffix_bytes in S. split.
  - intros H u m r (k & w & [= <-] & Hu & Nw & Hg). cbn [u_get gnu_TIME_KEYWORDS] in Hg. destruct Hu as (-> & _ & Hu).
    apply keyword_words in Hg; [|intros x Hx; apply S, in_or_app; now left]. destruct Hg as [Hg _]. apply (H w _ r eq_refl Hg). apply ends_word_iff. destruct r; [trivial|exact Hu].
  - intros H w k r -> Hw He. apply (H Day (Mul k 0) r). exists gnu_TIME_KEYWORDS, w. split; [reflexivity|]. pose proof (keyword_letters _ _ Hw) as L.
    destruct (word_span w r L He) as [E1 E2]. split; [apply until_iff; split; congruence|]. split; [exact (proj1 L)|]. apply keyword_words_complete; auto. now apply letters_bytes.
Qed.
Lemma no_numeral_gnu l : suffix l -> ((forall w k x r, l = w ++ x :: r -> word_for gnu_numerals w k -> ~ white x) <-> no_numeral gc gn l).
Proof.
  intros S. apply suffix_bytes in S. split.
  - intros H f w l1 [= <-] (-> & _ & Hu) Nw N1. destruct l1 as [|x r]; [congruence|]. cbn in Hu. apply negb_false_iff in Hu. apply gnu_delimiter_iff in Hu.
    destruct (gnu_NUMERALS w) as [m|] eqn:E; [|reflexivity]. apply numeral_words in E; [|intros y Hy; apply S, in_or_app; now left]. elim (H w _ x r eq_refl (proj1 E) Hu).
  - intros H w k x r -> Hw Hx. pose proof (numeral_letters _ _ Hw) as L. apply gnu_delimiter_iff in Hx.
    assert (E : gnu_NUMERALS w = None); [|rewrite (numeral_words_complete w k (letters_bytes _ L) Hw : gnu_NUMERALS w = _) in E; discriminate].
    apply (H gnu_NUMERALS w (x :: r) eq_refl); [|exact (proj1 L)|discriminate]. split; [reflexivity|].
    split; [intros y Hy; change (negb (wh y) = true); now rewrite (letters_wh w y L Hy)|]. change (negb (wh x) = false). now rewrite Hx.
Qed.
Lemma numeral_word_gnu l w r : suffix l -> (numeral_word gc gn l w r <-> exists k ds, l = w ++ ds ++ r /\ word_for gnu_numerals w k /\ white_space ds /\ ds <> [] /\ no_white_ahead r /\ r <> []).
Proof.
  intros S. pose proof (suffix_bytes _ S) as B. split.
  - intros (f & l1 & ds & [= <-] & (E & _ & Hu) & Nw & Hf & (E1 & Hd & Hr) & Nd & Nr). subst l1 l. destruct (gnu_NUMERALS w) as [m|] eqn:Em; [|congruence].
    apply numeral_words in Em; [|intros y Hy; apply B, in_or_app; now left]. exists (coef m), ds. split; [reflexivity|]. split; [apply Em|].
    split; [intros x Hx; apply gnu_delimiter_iff; now apply Hd|]. split; [exact Nd|]. split; [now apply starts_not_white|exact Nr].
  - intros (k & ds & -> & Hw & Hd & Nd & Hr & Nr). pose proof (numeral_letters _ _ Hw) as L. exists gnu_NUMERALS, (ds ++ r), ds. split; [reflexivity|].
    assert (D : forall x, In x ds -> wh x = true) by (intros x Hx; apply gnu_delimiter_iff; now apply Hd).
    split. { split; [reflexivity|]. split; [intros y Hy; change (negb (wh y) = true); now rewrite (letters_wh w y L Hy)|].
      destruct ds as [|x ds]; [congruence|]. cbn [app starts_not]. change (negb (wh x) = false). now rewrite (D x (or_introl eq_refl)). }
    split; [exact (proj1 L)|]. split. { rewrite (numeral_words_complete w k (letters_bytes _ L) Hw : gnu_NUMERALS w = _). discriminate. }
    split; [|auto]. split; [reflexivity|]. split; [exact D|]. now apply starts_not_white.
Qed.

(** digits with or without a point *)
Lemma some_number_iff num r : (forall x r', r = x :: r' -> ~ 48 <= x <= 57 /\ x <> 46) -> (some_number num <-> exists W l1 F, span is_digit (num ++ r) W l1 /\ fraction gc l1 F r /\ W ++ F <> []).
Proof.
  intros Hr.
  assert (DS : forall W, digit_string W -> forall x, In x W -> is_digit x = true) by (intros W D x Hx; apply is_digit_iff; exact (D x Hx)).
  assert (SD : forall W, (forall x, In x W -> is_digit x = true) -> digit_string W) by (intros W D x Hx; apply is_digit_iff; now apply D).
  assert (SN : starts_not is_digit r) by (apply starts_not_digit; intros x r' E; now apply (Hr x r')).
  split.
  - intros [W D N|W F D DF N].
    + exists W, r, []. split; [split; [reflexivity|]; split; [now apply DS|exact SN]|]. split; [|now rewrite app_nil_r].
      apply no_fraction. destruct r as [|x r]; [exact I|]. cbn. destruct (Hr x r eq_refl) as [_ H]. unfold is_dot. now apply Z.eqb_neq.
    + exists W, (46 :: F ++ r), F. rewrite <- app_assoc. split; [split; [reflexivity|]; split; [now apply DS|reflexivity]|]. split; [|exact N].
      apply some_fraction; [reflexivity|]. split; [reflexivity|]. split; [now apply DS|exact SN].
  - intros (W & l1 & F & (E & HW & _) & HF & N). apply SD in HW. destruct HF as [l1 Hd|l1 F r _ (-> & HF & _)].
    + apply app_inv_tail in E. subst num. rewrite app_nil_r in N. now apply sn_whole.
    + change (46 :: F ++ r) with ([46] ++ F ++ r) in E. rewrite !app_assoc in E. apply app_inv_tail in E. subst num. rewrite <- app_assoc. apply SD in HF. now apply sn_fraction.
Qed.

Lemma number_suffix l W F x r : number gc l W F x r -> exists p, l = p ++ r.
Proof.
  intros (l1 & l2 & l3 & (-> & _) & HF & HX & HU & _).
  assert (E2 : exists p, l1 = p ++ l2) by (destruct HF as [l1 _|l1 F r1 _ (-> & _)]; [now exists []|exists (46 :: F); reflexivity]).
  assert (E3 : l2 = l3) by (destruct HX as [l2 _|? ? ? ? ? ? ? ? Hc]; [reflexivity|discriminate]).
  assert (E4 : exists p, l3 = p ++ r) by (destruct HU as [l3 _|l3 ds r _ (-> & _) _]; [now exists []|now exists ds]).
  destruct E2 as (p2 & ->), E4 as (p4 & ->). subst l2. exists (W ++ p2 ++ p4). now rewrite !app_assoc.
Qed.
Lemma is_e_iff x : is_e x = true <-> x = 101 \/ x = 69.
Proof. unfold is_e. rewrite orb_true_iff, !Z.eqb_eq. tauto. Qed.
Lemma core_error t e : suffix t -> t <> [] -> no_white_ahead t -> component_error gc gu gk gn s t e -> item_error s t e.
Proof.
  intros S Nt Wt H.
  assert (AS : forall n l, signed gc t n l -> after_sign t l /\ suffix l).
  { intros n l Hs. assert (A : after_sign t l) by (apply (after_sign_iff t l Wt); eauto). split; [exact A|]. destruct A as (sg & n' & -> & _). now apply suffix_app in S. }
  destruct H as [H|e H|n l e Hs H|n l W F x r e Hs Hn Hu He|n l W F x r e Hs Hn Eu He|n l r e Hs Hd Hw He|n l r e Hs Hd Hw Hne He
      |n l u m l1 e Hs Hw Hk He|n l e Hs Hw Hk Ho He|n l Hs Hw Hk Ho Hn|n l e Hs Hw Hk Ho Hn|n l w r e Hs Hw Hk Ho Hn He|n l w r e Hs Hw Hk Ho Hn Hu He].
  - contradiction.
  - destruct H as [x Hx|x l e Hx _ Ht].
    + unfold here. cbn [length]. rewrite Nat.sub_0_r. apply ie_sign with x; [reflexivity|]. unfold is_sign in Hx. lia.
    + elim (no_trailing l e); [now apply suffix_cons in S|exact Ht].
  - destruct (AS n l Hs) as [A Sl]. destruct H as [W l1 HW H|W l1 F l2 HW HF N H|W l1 F l2 x l3 HW HF N Hx _ Ht].
    + destruct H as [l2 Hd|l2 _ EW H]; [discriminate|]. subst W. destruct HW as (El & _ & _). cbn [app] in El. subst l. apply ie_point; [exact A|now apply starts_not_digit].
    + assert (E : exists y r, l2 = y :: r /\ is_e y = true /\ e = Syntax (here s (y :: r)) (%"No exponent allowed")) by (inversion H; subst; try discriminate; eauto).
      destruct E as (y & r & -> & Ey & ->). 
      assert (Ey' : forall x r', y :: r = x :: r' -> ~ 48 <= x <= 57 /\ x <> 46) by (intros x r' [= <- <-]; apply is_e_iff in Ey; lia).
      assert (El : exists num, l = num ++ y :: r).
      { destruct HW as (-> & _). destruct HF as [l1 _|l1 F r1 _ (-> & _)]; [eauto|]. exists (W ++ 46 :: F). now rewrite <- app_assoc. }
      destruct El as (num & ->). apply ie_exponent with num; [exact A| |now apply is_e_iff]. apply (some_number_iff num (y :: r) Ey'). exists W, l1, F. auto.
    + elim (no_trailing l3 e); [|exact Ht]. destruct HW as (-> & _). apply suffix_app in Sl.
      assert (S2 : suffix l2) by (destruct HF as [l1 _|l1 F r1 _ (-> & _)]; [exact Sl|now apply suffix_cons, suffix_app in Sl]).
      destruct Hx as [l2 _|? ? ? ? ? ? ? ? Hc]; [exact S2|discriminate].
  - destruct (AS n l Hs) as [A Sl]. elim (no_next r e); [|exact He]. destruct (number_suffix l W F x r Hn) as (p & ->). now apply suffix_app in Sl.
  - destruct (AS n l Hs) as [A Sl]. elim (no_unit_error r e); [|exact He]. destruct (number_suffix l W F x r Hn) as (p & ->). now apply suffix_app in Sl.
  - discriminate.
  - discriminate.
  - destruct (AS n l Hs) as [A Sl]. destruct Hk as (k & w & _ & (-> & _) & _). apply suffix_app in Sl. elim (no_next l1 e Sl He).
  - destruct (AS n l Hs) as [A Sl]. elim (no_unit_error l e Sl He).
  - destruct (AS n l Hs) as [A Sl]. apply ie_unknown; auto.
    + apply starts_not_digit. apply Hw.
    + intros r ->. destruct Hw as (_ & Hw & _). discriminate.
    + now apply no_keyword_iff.
    + apply no_unit_iff; auto.
    + now apply no_numeral_gnu.
  - destruct (AS n l Hs) as [A Sl]. destruct Hn as (f & w & l1 & _ & (-> & _) & _ & _ & Ht). apply suffix_app in Sl. elim (no_trailing l1 e Sl Ht).
  - destruct (AS n l Hs) as [A Sl]. destruct Hn as (f & l1 & ds & _ & (-> & _) & _ & _ & (-> & _) & _). apply suffix_app, suffix_app in Sl. elim (no_unit_error r e Sl He).
  - destruct (AS n l Hs) as [A Sl]. apply numeral_word_gnu in Hn; [|exact Sl]. destruct Hn as (k & ds & -> & Hk' & Hd & Nd & Hr & Nr). rewrite He.
    apply ie_numeral with k ds; auto. apply no_unit_iff; [now apply suffix_app, suffix_app in Sl|exact Hu].
Qed.
Lemma core_error_back t e : suffix t -> t <> [] -> no_white_ahead t -> item_error s t e ->
  component_error gc gu gk gn s t e \/ exists W F ds l g msg, after_sign t (W ++ 46 :: F ++ ds ++ l) /\ digit_string W /\ digit_string F /\ W ++ F <> [] /\
    ends_fraction (ds ++ l) /\ white_space ds /\ unit_or_seconds l g /\ bad_fraction W F g msg /\ e = InvalidInput msg.
Proof.
  intros S Nt Wt H.
  assert (AS : forall l, after_sign t l -> (exists n, signed gc t n l) /\ suffix l).
  { intros l A. split; [now apply after_sign_iff|]. destruct A as (sg & n' & -> & _). now apply suffix_app in S. }
  destruct H as [x -> Hx|l A Hd|num x l A Hn Hx|W F ds l g msg A DW DF N He Hd Hu Hb|l A Nd Np Nk Nu Nn|w k ds l A Hw Hd Nd Hl Hu]; [| | |right|left|left].
  - left. apply m_sign. replace (length s) with (here s []) by (unfold here; cbn [length]; lia). apply se_end. unfold is_sign. lia.
  - left. destruct (AS _ A) as [(n & Hs) _]. apply m_number with n (46 :: l); [exact Hs|]. apply ne_fraction with [] (46 :: l).
    + split; [reflexivity|]. split; [intros x []|reflexivity].
    + apply fe_no_digits; auto. now apply starts_not_digit.
  - left. destruct (AS _ A) as [(n & Hs) _]. apply m_number with n (num ++ x :: l); [exact Hs|].
    assert (Ey' : forall y r', x :: l = y :: r' -> ~ 48 <= y <= 57 /\ y <> 46) by (intros y r' [= <- <-]; lia).
    apply (some_number_iff num (x :: l) Ey') in Hn. destruct Hn as (W & l1 & F & H1 & H2 & H3). apply ne_exponent with W l1 F (x :: l); auto.
    apply xe_disabled; [now apply is_e_iff|reflexivity].
  - exists W, F, ds, l, g, msg. auto 12.
  - destruct (AS _ A) as [(n & Hs) Sl]. apply m_unknown with n.
    + exact Hs.
    + split; [now apply starts_not_digit|]. split; [|discriminate]. destruct l as [|x l]; [exact I|]. cbn. unfold is_dot. apply Z.eqb_neq. intros ->. now apply (Np l).
    + now apply no_keyword_iff.
    + intros _. now apply no_unit_iff.
    + now apply no_numeral_gnu.
  - destruct (AS _ A) as [(n & Hs) Sl]. pose proof (numeral_letters _ _ Hw) as L. destruct (letters_head w (ds ++ l) L) as (x & l' & El & D1 & D2 & D3 & D4).
    assert (E1 : ends_word (ds ++ l)) by now apply white_ends.
    assert (Nl : l <> []).
    { intros ->. destruct (suffix_app w _ Sl) as (p & Ep). rewrite app_nil_r in Ep. destruct (exists_last Nd) as (r & y & ->). apply (Tr y (p ++ r)); [now rewrite Ep, app_assoc|]. apply Hd. apply in_or_app. right. now left. }
    apply m_numeral_no_unit with n (w ++ ds ++ l) w l.
    + exact Hs.
    + rewrite El. split; [exact D1|]. split; [exact D2|discriminate].
    + intros u m r. apply (no_keyword_iff (w ++ ds ++ l) Sl). intros w' k' r' E Hk' He. pose proof (keyword_letters _ _ Hk') as L'.
      apply word_unique in E; auto. destruct E as [<- _]. pose proof (numeral_no_keyword w k Hw) as X. rewrite (keyword_words_complete w k' (letters_bytes _ L) Hk') in X. discriminate.
    + intros _. apply no_unit_iff; [exact Sl|]. intros g ago r HP. destruct (phrase_word _ _ _ _ HP) as (w' & l0 & E & Hw' & He & _).
      apply word_unique in E; eauto using unit_letters. destruct E as [<- _]. pose proof (numeral_no_unit w k Hw) as X.
      destruct (unit_words_complete w g (letters_bytes _ L) Hw') as (um & E & _). congruence.
    + apply numeral_word_gnu; [exact Sl|]. exists k, ds. auto 8.
    + apply no_unit_iff; [|exact Hu]. now apply suffix_app, suffix_app in Sl.
    + reflexivity.
Qed.

(** ** numbers with a decimal point *)
Definition unit_found (l : str) (o : option (time_unit * multiplier)) : Prop :=
  (exists g ago r um, unit_phrase l g ago r /\ o = Some um /\ um_is um g ago) \/ (no_unit_ahead l /\ o = None).
Lemma next_total l : suffix l -> exists r, f_next gc l = Some r.
Proof.
  intros S. destruct (f_next gc l) as [r|] eqn:E; [eauto|]. exfalso. apply (no_next l (em_next gc s l) S). apply next_error_iff. auto.
Qed.
Lemma phrase_suffix l g ago r : unit_phrase l g ago r -> exists p, l = p ++ r.
Proof. intros [w g0 r0 _ _ _|w g0 l0 r0 _ (ds & a & -> & _)]; [now exists w|]. exists (w ++ ds ++ a). now rewrite !app_assoc. Qed.
Lemma ntu_total l : suffix l -> no_white_ahead l -> exists o r, unit_found l o /\ fm_ntu gc gu l = Some (o, r) /\ f_next gc r = Some r.
Proof.
  intros S W. unfold fm_ntu. change (u_is_empty gu) with false. cbv iota.
  destruct (fm_tu_spec l (suffix_bytes l S)) as [(g & ago & r & um & HP & HU & ->)|[NU ->]].
  - destruct (phrase_suffix _ _ _ _ HP) as (p & E). destruct (next_total r) as (r' & Er); [rewrite E in S; now apply suffix_app in S|]. rewrite Er. cbn [obind].
    exists (Some um), r'. split; [left; exists g, ago, r, um; auto|]. split; [reflexivity|]. apply next_refl, (next_ahead _ _ Er).
  - cbn [obind]. exists None, l. split; [right; auto|]. split; [reflexivity|]. now apply next_refl.
Qed.
Lemma found_det l o o' : unit_found l o -> unit_found l o' -> forall um um', o = Some um -> o' = Some um' -> (fst um = Second <-> fst um' = Second).
Proof.
  intros [(g & ago & r & um0 & HP & -> & HU)|[_ ->]] [(g' & ago' & r' & um0' & HP' & -> & HU')|[_ ->]]; try discriminate.
  intros um um' [= <-] [= <-]. destruct (phrase_unique _ _ _ _ _ _ _ HP HP') as (<- & _). rewrite (um_is_second _ _ _ HU), (um_is_second _ _ _ HU'). reflexivity.
Qed.
Lemma g_number_total n W F ds l : suffix (46 :: F ++ ds ++ l) -> digit_string F -> W ++ F <> [] -> ends_fraction (ds ++ l) -> white_space ds -> no_white_ahead l ->
  exists o r, unit_found l o /\ g_number n W (46 :: F ++ ds ++ l) = Some (Item n (nonempty W) (Some F) None o, r).
Proof.
  intros S DF N He Hd Hl. unfold g_number. cbn [g_fraction]. change (is_dot 46) with true. cbv iota.
  destruct (digit_take F (ds ++ l) DF) as [-> ->]. { intros x r' E. apply not_digit. now apply (He x r'). }
  cbn [opt_text]. destruct (W ++ F) as [|y z] eqn:E; [congruence|]. rewrite <- E. cbn [is_empty].
  assert (Ee : match ds ++ l with x :: _ => is_e x | [] => false end = false).
  { destruct (ds ++ l) as [|x r'] eqn:E'; [reflexivity|]. apply no_e_iff. now apply (He x r'). }
  rewrite E. cbn [is_empty]. rewrite Ee, unit_delimiter_next. apply suffix_cons, suffix_app in S.
  destruct (next_total (ds ++ l) S) as (l3 & E3). rewrite E3. cbn [obind].
  assert (l3 = l) as ->. { apply f_next_iff in E3. destruct E3 as (ds' & E4 & Hd' & Hl' & _). destruct (wh_span ds l Hd Hl) as [_ <-]. destruct (wh_span ds' l3 Hd' Hl') as [_ <-]. now rewrite E4. }
  apply suffix_app in S. destruct (ntu_total l S Hl) as (o & r & HF & En & Er). destruct l as [|x l].
  - exists None, []. split; [|reflexivity]. right. split; [|reflexivity]. intros g ago r0 HP. destruct (phrase_ahead _ _ _ _ HP). congruence.
  - exists o, r. split; [exact HF|]. rewrite En. cbn [obind]. unfold g_fin. rewrite Er. reflexivity.
Qed.
Lemma g_number_fract n W l' it r F : suffix l' -> g_number n W l' = Some (it, r) -> i_fract it = Some F ->
  exists ds l o, l' = 46 :: F ++ ds ++ l /\ digit_string F /\ W ++ F <> [] /\ ends_fraction (ds ++ l) /\ white_space ds /\ no_white_ahead l /\
    unit_found l o /\ it = Item n (nonempty W) (Some F) None o.
Proof.
  intros S H EF. revert H. unfold g_number. destruct (g_fraction l') as [F' l2] eqn:G. destruct (is_empty (W ++ opt_text F')) eqn:NE; [discriminate|].
  destruct (match l2 with x :: _ => is_e x | [] => false end) eqn:Ee; [discriminate|]. rewrite unit_delimiter_next.
  destruct (f_next gc l2) as [l3|] eqn:En; [|discriminate]. cbn [obind]. intros H.
  assert (EI : exists o, it = Item n (nonempty W) F' None o).
  { destruct l3 as [|y l3]; [injection H as <- <-; eauto|]. destruct (fm_ntu gc gu (y :: l3)) as [[o l4]|]; [|discriminate]. cbn [obind] in H. unfold g_fin in H.
    destruct (f_next gc l4); [|discriminate]. injection H as <- <-. eauto. }
  destruct EI as (o0 & ->). cbn [i_fract] in EF. subst F'.
  destruct l' as [|x l0]; [discriminate|]. cbn [g_fraction] in G. destruct (is_dot x) eqn:Ex; [|discriminate]. injection G as <- <-.
  unfold is_dot in Ex. apply Z.eqb_eq in Ex. subst x. set (F := take_while is_digit l0) in *. set (l2 := drop_while is_digit l0) in *.
  pose proof (take_drop_while is_digit l0) as TD. fold F l2 in TD. cbn [opt_text] in NE.
  apply f_next_iff in En. destruct En as (ds & E2 & Hd & Hl & _).
  assert (EF : ends_fraction (ds ++ l3)).
  { rewrite <- E2. intros x r0 E. split; [apply digit_of; exact (drop_while_head _ _ _ _ E)|]. rewrite E in Ee. now apply no_e_iff. }
  assert (DF : digit_string F) by apply take_digits_string.
  assert (NF : W ++ F <> []) by (destruct (W ++ F); [discriminate|discriminate]).
  assert (El : 46 :: l0 = 46 :: F ++ ds ++ l3) by now rewrite <- E2, TD.
  exists ds, l3. 
  destruct (g_number_total n W F ds l3) as (o & r' & HF & Eg); auto. { now rewrite <- El. }
  exists o. split; [exact El|]. do 6 (split; [auto|]).
  assert (EE : g_number n W (46 :: F ++ ds ++ l3) = Some (Item n (nonempty W) (Some F) None o0, r)).
  { rewrite <- El. unfold g_number. cbn [g_fraction]. change (is_dot 46) with true. cbv iota. fold F l2. cbn [opt_text]. rewrite NE, Ee, unit_delimiter_next.
    replace (f_next gc l2) with (Some l3); [exact H|]. symmetry. apply f_next_iff. exists ds. split; [exact E2|]. split; [exact Hd|]. split; [exact Hl|].
    destruct ds as [|z ds]; [now left|]. right. intros ->. apply (no_trailing (z :: ds) (e_delims s (z :: ds))).
    - apply suffix_cons in S. rewrite <- TD in S. apply suffix_app in S. rewrite E2, app_nil_r in S. exact S.
    - split; [discriminate|]. split; [|reflexivity]. intros x Hx. apply gnu_delimiter_iff. now apply Hd. }
  congruence.
Qed.
Lemma fails_bad n W F o l e : unit_found l o -> no_white_ahead l ->
  (item_fails (Item n (nonempty W) (Some F) None o) = Some e <-> exists g msg, unit_or_seconds l g /\ bad_fraction W F g msg /\ e = InvalidInput msg).
Proof.
  intros HF Hl.
  assert (K : forall g, unit_or_seconds l g -> (time_unit_eqb (fst (item_um (Item n (nonempty W) (Some F) None o))) Second = true <-> g = Seconds 1)).
  { intros g Hg. unfold item_um. cbn [i_unit]. destruct HF as [(g0 & ago & r & um & HP & -> & HU)|[NU ->]].
    - destruct Hg as [(ago' & r' & HP')|(_ & NU & _)]; [|now elim (NU _ _ _ HP)]. destruct (phrase_unique _ _ _ _ _ _ _ HP HP') as (<- & _).
      rewrite <- (um_is_second _ _ _ HU). destruct (fst um); cbn; split; congruence.
    - destruct Hg as [(ago' & r' & HP')|(_ & _ & ->)]; [now elim (NU _ _ _ HP')|]. cbn. tauto. }
  assert (Ex : exists g, unit_or_seconds l g).
  { destruct HF as [(g0 & ago & r & um & HP & _)|[NU _]]; [exists g0; left; eauto|]. exists (Seconds 1). right. auto. }
  destruct Ex as (g & Hg). specialize (K g Hg) as Kg. unfold item_fails. cbn [i_fract i_whole]. split.
  - destruct (time_unit_eqb _ Second) eqn:E.
    + assert (Eg : g = Seconds 1) by now apply Kg. subst g. destruct W as [|y W]; cbn [nonempty].
      * intros [= <-]. exists (Seconds 1). eexists. split; [exact Hg|]. split; [apply bf_whole|reflexivity].
      * destruct F; cbn [is_empty]; [|discriminate]. intros [= <-]. exists (Seconds 1). eexists. split; [exact Hg|]. split; [apply bf_fract; discriminate|reflexivity].
    + intros [= <-]. exists g. eexists. split; [exact Hg|]. split; [apply bf_unit|reflexivity]. intros ->. assert (false = true) by now apply Kg. discriminate.
  - intros (g' & msg & Hg' & Hb & ->). specialize (K g' Hg'). destruct Hb as [W F g' Ng|F|W Nw].
    + destruct (time_unit_eqb _ Second); [elim Ng; now apply K|reflexivity].
    + rewrite (proj2 K eq_refl). reflexivity.
    + rewrite (proj2 K eq_refl). destruct W; [congruence|]. reflexivity.
Qed.
Lemma g_word_fract n l it r : g_word n l = Some (it, r) -> i_fract it = None.
Proof.
  unfold g_word, g_numeral, g_fin. intros H.
  repeat match type of H with
  | (let? _ := ?x in _) = _ => destruct x; cbn [obind] in H; [|discriminate]
  | match ?x with _ => _ end = _ => destruct x; cbn [obind] in H; try discriminate
  end; injection H as <- <-; reflexivity.
Qed.
Lemma fraction_errors t e : suffix t -> no_white_ahead t ->
  ((exists it r, g_item t = Some (it, r) /\ item_fails it = Some e) <->
   exists W F ds l g msg, after_sign t (W ++ 46 :: F ++ ds ++ l) /\ digit_string W /\ digit_string F /\ W ++ F <> [] /\
    ends_fraction (ds ++ l) /\ white_space ds /\ unit_or_seconds l g /\ bad_fraction W F g msg /\ e = InvalidInput msg).
Proof.
  intros S Wt. split.
  - intros (it & r & H & Hf). unfold g_item in H. destruct (f_signed gc t) as [[n l]|] eqn:Es; [|discriminate]. cbn [obind] in H. apply signed_iff in Es.
    assert (A : after_sign t l) by (apply (after_sign_iff t l Wt); eauto).
    assert (Sl : suffix l) by (destruct A as (sg & n' & -> & _); now apply suffix_app in S).
    assert (HF : exists F, i_fract it = Some F) by (unfold item_fails in Hf; destruct (i_fract it); [eauto|discriminate]). destruct HF as (F & EF).
    destruct l as [|x l0]; [discriminate|]. set (l := x :: l0) in *.
    assert (G : exists W l', l = W ++ l' /\ digit_string W /\ g_number n W l' = Some (it, r)).
    { destruct (is_digit x).
      - exists (take_while is_digit l), (drop_while is_digit l). split; [symmetry; apply take_drop_while|]. split; [apply take_digits_string|exact H].
      - destruct (is_dot x); [exists [], l; split; [reflexivity|]; split; [apply digit_string_nil|exact H]|]. apply g_word_fract in H. congruence. }
    destruct G as (W & l' & El & DW & G). rewrite El in A, Sl.
    destruct (g_number_fract n W l' it r F) as (ds & l3 & o & -> & DF & N & He & Hd & Hl & Ho & ->); auto; [now apply suffix_app in Sl|].
    apply (fails_bad n W F o l3 e Ho Hl) in Hf. destruct Hf as (g & msg & Hg & Hb & ->). exists W, F, ds, l3, g, msg. auto 12.
  - intros (W & F & ds & l & g & msg & A & DW & DF & N & He & Hd & Hu & Hb & ->).
    assert (Hl : no_white_ahead l) by (destruct Hu as [(ago & r & HP)|(H & _)]; [apply (phrase_ahead _ _ _ _ HP)|exact H]).
    assert (Sl : suffix (W ++ 46 :: F ++ ds ++ l)) by (destruct A as (sg & n' & -> & _); now apply suffix_app in S).
    pose proof A as A0. apply after_sign_iff in A; [|exact Wt]. destruct A as (n & Hs). apply signed_iff in Hs.
    destruct (g_number_total n W F ds l) as (o & r & Ho & G); auto; [now apply suffix_app in Sl|].
    exists (Item n (nonempty W) (Some F) None o), r. split.
    + unfold g_item. rewrite Hs. cbn [obind]. destruct W as [|y W].
      * cbn [app]. change (is_digit 46) with false. change (is_dot 46) with true. cbv iota. exact G.
      * cbn [app]. replace (is_digit y) with true by (symmetry; apply is_digit_iff; apply (DW y); now left).
        change (y :: W ++ 46 :: F ++ ds ++ l) with ((y :: W) ++ 46 :: F ++ ds ++ l).
        destruct (digit_take (y :: W) (46 :: F ++ ds ++ l) DW) as [-> ->]; [intros x r' [= <- _]; reflexivity|exact G].
    + apply (fails_bad n W F o l _ Ho Hl). exists g, msg. auto.
Qed.

(** ** the loop *)
Fixpoint e_items (fuel : nat) (l : str) : option parse_error :=
  match fuel with
  | O => None
  | S f =>
      match g_item l with
      | None => Some (e_template gc gu gn s grt (emulti gc s) l)
      | Some (it, r) =>
          match item_fails it with
          | Some e => Some e
          | None => match r with [] => None | _ => e_items f r end
          end
      end
  end.
Lemma template_none t : utf8 t = true -> (f_template gc gn grt t = None <-> g_item t = None).
Proof.
  intros U. pose proof (sim_item t _ t (SC_init _ t U)) as S1.
  pose proof (sim_template multi grt (multi_rel t (keyword_end gc)) gc gu gk gn (keyword_end gc) t gnu_env_ok (fun _ => gnu_delims)
      (tsim_multi gc gu gk gn t (keyword_end gc) gnu_env_ok gnu_fit) _ t (SC_init _ t U)) as S2.
  destruct (template_parse multi (bytes_new t) gc gu gk gn), (f_template gc gn grt t), (g_item t); cbn [sim] in *; try contradiction; split; congruence.
Qed.
Lemma loop_error : forall fuel b l y m d, SC (keyword_end gc) s b l -> (length l < fuel)%nat -> duration_ok d ->
  forall e, gnu_fuzzy_loop fuel gc y m d b = Err e -> e_items fuel l = Some e.
Proof.
  induction fuel as [|f IH]; intros b l y m d H L O0 e; [lia|]. cbn [gnu_fuzzy_loop e_items].
  pose proof (sim_item s b l H) as S0.
  pose proof (errs_template multi grt (multi_rel s (keyword_end gc)) gc gu gk gn (keyword_end gc) s (emulti gc s) gnu_env_ok (fun _ => gnu_delims)
      (tsim_multi gc gu gk gn s (keyword_end gc) gnu_env_ok gnu_fit) (terrs_multi gc gu gk gn s (keyword_end gc) gnu_env_ok gnu_fit) b l H) as E0.
  pose proof (fun it r => g_item_progress l it r (SC_utf8 _ _ _ _ H)) as Pr.
  destruct (g_item l) as [[it r]|].
  2:{ destruct (template_parse multi b gc gu gk gn) as [|e1|]; [contradiction| |contradiction]. cbn [bind]. intros [= <-]. now rewrite (E0 e1 eq_refl). }
  destruct (template_parse multi b gc gu gk gn) as [[rp mp]|?|?]; [|contradiction|contradiction].
  cbn [sim bind obind] in *. destruct S0 as [Hok [Hr S0]]. cbn [fst snd] in *. specialize (Pr it r eq_refl). destruct Pr as (Pl & Ur).
  pose proof (eval_item s it rp Hok Hr) as SE. pose proof (fun e => eval_fails s it rp e Hok Hr) as EF. pose proof (fails_iff it) as FI.
  destruct (gnu_repr_parse_fuzzy rp) as [out|e1|?].
  3:{ destruct (item_amount it); contradiction. }
  2:{ cbn [bind]. intros [= <-]. now rewrite (EF e1 eq_refl). }
  cbn [bind]. destruct (item_amount it) as [a|]; [|contradiction]. destruct (item_fails it) as [e1|].
  { assert (X : Some a = None) by (apply FI; discriminate). discriminate X. }
  assert (A : forall x, match out with
      | FDuration parsed =>
          if is_zero d then Ok (y, m, parsed)
          else if is_zero parsed then Ok (y, m, d)
          else let* d := saturating_add d parsed in Ok (y, m, d)
      | FMonths v => Ok (y, i64_saturating_add m v, d)
      | FYears v => Ok (i64_saturating_add y v, m, d)
      end = x -> exists y1 m1 d1, x = Ok (y1, m1, d1) /\ duration_ok d1).
  { intros x <-. destruct out as [p|v|v], a as [w|w|w]; cbn [output_is] in SE; try contradiction; eauto.
    destruct SE as [Op _]. destruct (is_zero d); [eauto|]. destruct (is_zero p); [eauto|]. destruct (saturating_add_spec d p O0 Op) as (d1 & -> & O1 & _). cbn [bind]. eauto. }
  destruct (A _ eq_refl) as (y1 & m1 & d1 & -> & O1). cbn [bind]. destruct mp as [b1|]; [|discriminate].
  destruct S0 as [Nr S1]. destruct r as [|x0 r0]; [congruence|]. intros Ee. apply (IH b1 (x0 :: r0) y1 m1 d1 S1); [lia|exact O1|exact Ee].
Qed.

Lemma item_nonempty e : item_error s [] e -> False.
Proof.
  assert (N : forall l, ~ after_sign [] l). { intros l (sg & n & E & _ & Nl & _). symmetry in E. apply app_eq_nil in E. now destruct E. }
  intros H. inversion H; subst; try discriminate; try (eapply N; eassumption).
Qed.
Lemma g_item_suffix t it r : utf8 t = true -> suffix t -> g_item t = Some (it, r) -> item_fails it = None -> suffix r /\ no_white_ahead r /\ exists a r0, gnu_item t a r0 /\ next_is r0 r.
Proof.
  intros U S E F. pose proof (fun a r' => g_item_iff t a r' (utf8_bytes t U)) as GI. unfold amount_of in GI. rewrite E in GI. cbn [obind] in GI.
  destruct (item_amount it) as [a|] eqn:Ea; [|apply fails_iff in Ea; congruence]. cbn [obind] in GI. destruct (proj1 (GI a r) eq_refl) as (r0 & HI & Hn). apply f_next_iff in Hn.
  assert (P : forall l a r, gnu_item l a r -> exists p, l = p ++ r).
  { clear. intros l a r H. destruct H; try match goal with H : unit_phrase _ _ _ _ |- _ => destruct (phrase_suffix _ _ _ _ H) as (p & ->) end;
      rewrite ?app_assoc; eauto. }
  pose proof Hn as (ds & E0 & Hd & Hr & _). destruct (P _ _ _ HI) as (p & Ep). split; [|split; [exact Hr|eauto]].
  rewrite Ep, E0 in S. now apply suffix_app, suffix_app in S.
Qed.
Theorem e_items_iff e : forall fuel t, (length t < fuel)%nat -> utf8 t = true -> suffix t -> no_white_ahead t -> t <> [] ->
  (e_items fuel t = Some e <-> relative_error s t e).
Proof.
  induction fuel as [|f IH]; intros t L U S W N; [lia|]. cbn [e_items].
  pose proof (template_none t U) as TN. pose proof (component_error_iff gc gu gk gn s t) as CE.
  pose proof (fun e => fraction_errors t e S W) as FE. pose proof (fun it r => g_item_progress t it r U) as Pr.
  pose proof (fun it r => g_item_suffix t it r U S) as GS.
  assert (Later : forall a ds r, gnu_item t a (ds ++ r) -> white_space ds -> no_white_ahead r -> r <> [] -> exists it, g_item t = Some (it, r) /\ item_fails it = None).
  { intros a ds r HI Hd Hr Nr. pose proof (g_item_iff t a r (utf8_bytes t U)) as GI. unfold amount_of in GI.
    assert (X : exists r0, gnu_item t a r0 /\ f_next gc r0 = Some r) by (exists (ds ++ r); split; [exact HI|]; apply f_next_iff; exists ds; auto).
    apply GI in X. destruct (g_item t) as [[it r']|]; [|discriminate]. cbn [obind] in X. pose proof (fails_iff it) as FI.
    destruct (item_amount it) as [a'|]; [|discriminate]. cbn [obind] in X. injection X as -> ->. exists it. split; [reflexivity|].
    destruct (item_fails it); [|reflexivity]. assert (Z : Some a = None) by (apply FI; discriminate). discriminate Z. }
  split.
  - destruct (g_item t) as [[it r]|] eqn:E.
    + destruct (item_fails it) as [e1|] eqn:Ef.
      * intros [= <-]. destruct (proj1 (FE e1)) as (W0 & F & ds & l & g & msg & H1 & H2 & H3 & H4 & H5 & H6 & H7 & H8 & ->); [eauto|].
        apply re_here. eapply ie_fraction; eauto.
      * destruct r as [|x r]; [discriminate|]. intros H. destruct (GS it _ eq_refl Ef) as (Sr & Wr & a & r0 & HI & ds & E0 & Hd & _ & _). destruct (Pr it _ eq_refl) as [Pl Ur].
        rewrite E0 in HI. apply re_later with a ds (x :: r); auto; [discriminate|]. apply IH; auto; [lia|discriminate].
    + intros [= <-]. apply re_here. apply core_error; auto. apply CE. split; [now apply TN|reflexivity].
  - intros H. inversion H as [E|t' e' HE|t' a ds r e' HI Hd Hr Nr HE]; subst.
    + congruence.
    + destruct (core_error_back t e S N W HE) as [C|C].
      * apply CE in C. destruct C as [C1 C2]. apply TN in C1. rewrite C1. now rewrite C2.
      * apply FE in C. destruct C as (it & r & -> & ->). reflexivity.
    + destruct (Later a ds r HI Hd Hr Nr) as (it & Eg & Ef). rewrite Eg in *. rewrite Ef. destruct (GS it r eq_refl Ef) as (Sr & _). destruct (Pr it r eq_refl) as [Pl Ur].
      destruct r as [|x r]; [congruence|]. apply IH; auto. lia.
Qed.
Lemma e_items_none : forall fuel t, (length t < fuel)%nat -> utf8 t = true -> (e_items fuel t = None <-> g_items fuel t <> None).
Proof.
  induction fuel as [|f IH]; intros t L U; [lia|]. cbn [e_items g_items]. pose proof (fun it r => g_item_progress t it r U) as Pr.
  destruct (g_item t) as [[it r]|]; cbn [obind]; [|split; congruence]. pose proof (fails_iff it) as FI. destruct (Pr it r eq_refl) as [Pl Ur].
  destruct (item_amount it) as [a|]; cbn [obind].
  - assert (Ef : item_fails it = None). { destruct (item_fails it); [|reflexivity]. assert (Z : Some a = None) by (apply FI; discriminate). discriminate Z. }
    rewrite Ef. destruct r as [|x r]; [split; congruence|]. rewrite IH by (assumption || lia). destruct (g_items f (x :: r)); cbn [obind]; split; congruence.
  - destruct (item_fails it); [split; congruence|]. exfalso. now apply (proj1 FI).
Qed.
End Text.

(** the whole text, without white space around it *)
Theorem fuzzy_error_iff t e : utf8 t = true -> trimmed t ->
  (gnu_fuzzy_loop (S (length t)) gnu_new 0 0 ZERO (bytes_new t) = Err e <-> relative_error t t e).
Proof.
  intros U [T1 T2]. pose proof (sim_fuzzy t U) as HS. pose proof (utf8_bytes t U) as B.
  destruct t as [|x0 t0] eqn:Et.
  { split.
    - intros E. vm_compute in E. injection E as <-. constructor.
    - intros H. inversion H as [E|t' e' HE|t' a ds r e' HI Hd Hr Nr HE]; subst; [reflexivity|now apply item_nonempty in HE|].
      exfalso. apply (g_item_iff [] a r) in B. destruct B as [_ B]. assert (X : amount_of (g_item []) = Some (a, r)); [|discriminate X].
      apply B. exists (ds ++ r). split; [exact HI|]. apply f_next_iff. exists ds. auto. }
  rewrite <- Et in *. assert (N : t <> []) by (rewrite Et; discriminate). clear Et.
  assert (S0 : suffix t t) by now exists [].
  rewrite <- (e_items_iff t B T2 e (S (length t)) t ltac:(lia) U S0 T1 N).
  pose proof (e_items_none t T2 (S (length t)) t ltac:(lia) U) as EN.
  pose proof (loop_error t T2 (S (length t)) (bytes_new t) t 0 0 ZERO (SC_init _ t U) ltac:(lia) ZERO_ok) as LE.
  change (gnu_new) with gc in *.
  destruct (gnu_fuzzy_loop (S (length t)) gc 0 0 ZERO (bytes_new t)) as [z|e'|?], (g_items (S (length t)) t) as [as_|]; cbn [sim] in HS; try contradiction.
  - split; [discriminate|]. intros H. assert (X : Some as_ <> None) by discriminate. apply EN in X. congruence.
  - specialize (LE e' eq_refl). rewrite LE. split; congruence.
Qed.
