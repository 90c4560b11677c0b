(** * Property C61: how many delimiters are in a row does not matter *)
From Verif Require Import Prelude Util Time Config Bytes Repr Parse Standard SpecTime SpecNum SpecValue SpecParse SpecGrammar SpecSpelling
  TimeProofs NumProofs Utf8Proofs BytesProofs ReprProofs ValueProofs SafeProofs RefParse RefProofs RefSingle RefMulti RefGrammar SpellProofs SwitchProofs StandardProofs PropParse PropStandard PropModes ExEnv.

(** the texts are the same, except that where the one has delimiters (one or more) the other one has delimiters (one or more) *)
Inductive respaced (D : delimiter) : str -> str -> Prop :=
| rs_nil : respaced D [] []
| rs_same x l l' : D x = false -> respaced D l l' -> respaced D (x :: l) (x :: l')
| rs_run ds ds' l l' : ds <> [] -> ds' <> [] -> (forall x, In x ds -> D x = true) -> (forall x, In x ds' -> D x = true) ->
    starts_not D l -> starts_not D l' -> respaced D l l' -> respaced D (ds ++ l) (ds' ++ l').

(** no letter, no digit, no sign and no decimal point is a delimiter *)
Definition is_letter (x : byte) : bool := (65 <=? x) && (x <=? 90) || (97 <=? x) && (x <=? 122).
Definition separator (D : delimiter) : Prop :=
  forall x, D x = true -> is_digit x = false /\ is_letter x = false /\ is_sign x = false /\ is_dot x = false.
Definition no_delimiter_in (D : delimiter) (w : str) : Prop := forall x, In x w -> D x = false.

Section Spaces.
Context (D : delimiter).
Hypothesis Sep : separator D.

Lemma respaced_sym l l' : respaced D l l' -> respaced D l' l.
Proof. induction 1; [apply rs_nil|now apply rs_same|now apply rs_run]. Qed.
Lemma respaced_nil l : respaced D [] l -> l = [].
Proof.
  intros H. remember [] as e eqn:E. destruct H as [|x l0 l' _ _|ds ds' l0 l' N _ _ _ _ _ _]; [reflexivity|discriminate|].
  apply app_eq_nil in E. now destruct E.
Qed.
Lemma respaced_not_nil l l' : respaced D l l' -> l <> [] -> l' <> [].
Proof. intros H N ->. apply N. apply (respaced_nil l), respaced_sym, H. Qed.
(** the first byte, if it is no delimiter *)
Lemma respaced_cons x l l' : D x = false -> respaced D (x :: l) l' -> exists l0, l' = x :: l0 /\ respaced D l l0.
Proof.
  intros Hx H. remember (x :: l) as e eqn:E. destruct H as [|y l0 l' _ H|ds ds' l0 l' N _ H _ _ _ _]; [discriminate| |].
  - injection E as -> ->. exists l'. auto.
  - destruct ds as [|y ds]; [congruence|]. cbn in E. injection E as -> _. rewrite H in Hx by now left. discriminate.
Qed.
(** the first byte satisfies p in the one if in the other, where p is about no delimiter *)
Lemma respaced_starts_not p l l' : (forall x, p x = true -> D x = false) -> respaced D l l' -> starts_not p l -> starts_not p l'.
Proof.
  intros Hp H. destruct H as [|x l l' _ H|ds ds' l l' N N' H1 H2 _ _ _]; auto.
  intros _. destruct ds' as [|y ds']; [congruence|]. cbn. destruct (p y) eqn:E; [|reflexivity]. apply Hp in E. rewrite H2 in E by now left. discriminate.
Qed.
Lemma respaced_starts_not_D l l' : respaced D l l' -> starts_not D l -> starts_not D l'.
Proof.
  intros H. destruct H as [|x l l' Hx H|ds ds' l l' N N' H1 H2 _ _ _]; auto.
  intros E. destruct ds as [|y ds]; [congruence|]. cbn in E. rewrite H1 in E by now left. discriminate.
Qed.
Lemma respaced_starts_with_D l l' : respaced D l l' -> starts_with D l -> starts_with D l'.
Proof.
  intros H. destruct H as [|x l l' Hx H|ds ds' l l' N N' H1 H2 _ _ _]; auto.
  intros _. destruct ds' as [|y ds']; [congruence|]. cbn. apply H2. now left.
Qed.
Lemma respaced_starts_with p l l' : (forall x, p x = true -> D x = false) -> respaced D l l' -> starts_with p l -> starts_with p l'.
Proof.
  intros Hp H. destruct H as [|x l l' _ H|ds ds' l l' N N' H1 H2 _ _ _]; auto.
  intros E. destruct ds as [|y ds]; [congruence|]. cbn in E. apply Hp in E. rewrite H1 in E by now left. discriminate.
Qed.
Lemma respaced_prefix a : forall l r, (forall x, In x a -> D x = false) -> respaced D (a ++ r) l -> exists r', l = a ++ r' /\ respaced D r r'.
Proof.
  induction a as [|x a IH]; intros l r Ha H; [exists l; auto|].
  cbn [app] in H. apply respaced_cons in H; [|apply Ha; now left]. destruct H as (l0 & -> & H).
  apply IH in H; [|intros y Hy; apply Ha; now right]. destruct H as (r' & -> & H). exists r'. auto.
Qed.
Lemma respaced_whole a l : (forall x, In x a -> D x = false) -> respaced D a l -> l = a.
Proof.
  intros Ha H. destruct (respaced_prefix a l [] Ha) as (r' & -> & Hr); [now rewrite app_nil_r|]. apply respaced_nil in Hr. subst. now rewrite app_nil_r.
Qed.
Lemma respaced_span p l l' a b : (forall x, p x = true -> D x = false) -> respaced D l l' -> span p l a b -> exists b', span p l' a b' /\ respaced D b b'.
Proof.
  intros Hp H (-> & Ha & Hb). destruct (respaced_prefix a l' b) as (b' & -> & Hb'); auto.
  exists b'. split; [|exact Hb']. split; [reflexivity|]. split; [exact Ha|]. now apply (respaced_starts_not p b b').
Qed.
Lemma respaced_span_D l l' ds r : respaced D l l' -> span D l ds r -> exists ds' r', span D l' ds' r' /\ respaced D r r' /\ (ds = [] <-> ds' = []).
Proof.
  intros H (E & Hd & Hr). destruct H as [|x l l' Hx H|ds1 ds2 l l' N N' H1 H2 S S' H].
  - symmetry in E. apply app_eq_nil in E. destruct E as [-> ->]. exists [], []. split; [now split|]. split; [apply rs_nil|tauto].
  - destruct ds as [|y ds]; [|cbn in E; injection E as -> _; rewrite Hd in Hx by (now left); discriminate].
    cbn in E. subst r. exists [], (x :: l'). split; [|split; [now apply rs_same|tauto]]. split; [reflexivity|]. split; [intros y []|exact Hx].
  - assert (G : ds = ds1 /\ r = l).
    { clear N N' H2 S' H ds2 l'. revert ds E Hd. induction ds1 as [|y ds1 IH]; intros ds E Hd.
      - destruct ds as [|z ds]; [auto|]. cbn in E. subst l. cbn in S. rewrite Hd in S by now left. discriminate.
      - destruct ds as [|z ds]; cbn in E.
        + subst r. cbn in Hr. rewrite H1 in Hr by now left. discriminate.
        + injection E as <- E. destruct (IH (fun x Hx => H1 x (or_intror Hx)) ds E (fun x Hx => Hd x (or_intror Hx))) as [-> ->]. auto. }
    destruct G as [-> ->]. exists ds2, l'. split; [|split; [exact H|tauto]]. split; [reflexivity|]. auto.
Qed.
Lemma nocase_letter x y : eq_nocase x y = true -> x = y \/ is_letter x = true.
Proof. unfold eq_nocase, to_lower, is_letter. destruct ((65 <=? x) && (x <=? 90)) eqn:E1, ((65 <=? y) && (y <=? 90)) eqn:E2; lia. Qed.
Lemma nocase_no_delimiter v : forall w, no_delimiter_in D w -> str_eq_nocase v w = true -> no_delimiter_in D v.
Proof.
  induction v as [|x v IH]; intros [|y w] Hw H; try discriminate; [intros z []|].
  cbn [str_eq_nocase] in H. apply andb_true_iff in H. destruct H as [H1 H2]. intros z [<-|Hz].
  - destruct (nocase_letter x y H1) as [->|L]; [apply Hw; now left|]. destruct (D x) eqn:E; [|reflexivity]. destruct (Sep x E) as (_ & L' & _). congruence.
  - apply (IH w); auto. intros a Ha. apply Hw. now right.
Qed.
Lemma respaced_word w l l' r : no_delimiter_in D w -> respaced D l l' -> word_prefix w l r -> exists r', word_prefix w l' r' /\ respaced D r r'.
Proof.
  intros Hw H (v & -> & E). destruct (respaced_prefix v l' r) as (r' & -> & Hr); [now apply (nocase_no_delimiter v w)|exact H|].
  exists r'. split; [|exact Hr]. exists v. auto.
Qed.
Lemma respaced_no_word w l l' : no_delimiter_in D w -> respaced D l l' -> ~ (exists r, word_prefix w l r) -> ~ exists r, word_prefix w l' r.
Proof. intros Hw H N (r & Hr). apply N. destruct (respaced_word w l' l r Hw (respaced_sym _ _ H) Hr) as (r' & Hr' & _). now exists r'. Qed.
Lemma letters_no_delimiter w : (forall x, In x w -> is_letter x = true) -> no_delimiter_in D w.
Proof. intros H x Hx. destruct (D x) eqn:E; [|reflexivity]. destruct (Sep x E) as (_ & L & _). rewrite H in L; auto. Qed.
Lemma inf_free : no_delimiter_in D (%"inf").
Proof. apply letters_no_delimiter. each. Qed.
Lemma inity_free : no_delimiter_in D (%"inity").
Proof. apply letters_no_delimiter. each. Qed.
Lemma infinity_free : no_delimiter_in D (%"infinity").
Proof. apply letters_no_delimiter. each. Qed.
Lemma ago_free : no_delimiter_in D (%"ago").
Proof. apply letters_no_delimiter. each. Qed.
Lemma digit_free x : is_digit x = true -> D x = false.
Proof. intros H. destruct (D x) eqn:E; [|reflexivity]. destruct (Sep x E) as (L & _). congruence. Qed.
Lemma sign_free x : is_sign x = true -> D x = false.
Proof. intros H. destruct (D x) eqn:E; [|reflexivity]. destruct (Sep x E) as (_ & _ & L & _). congruence. Qed.
Lemma dot_free x : is_dot x = true -> D x = false.
Proof. intros H. destruct (D x) eqn:E; [|reflexivity]. destruct (Sep x E) as (_ & _ & _ & L). congruence. Qed.
Lemma e_free x : is_e x = true -> D x = false.
Proof. intros H. destruct (D x) eqn:E; [|reflexivity]. destruct (Sep x E) as (_ & L & _). revert H L. unfold is_e, is_letter. lia. Qed.

Context (c : config) (tu : units_like) (kw : option units_like) (nums : option numbers_like).
Hypothesis Inner : forall x, c_inner_delimiter c x = D x.

Lemma inner_span l a b : span (c_inner_delimiter c) l a b <-> span D l a b.
Proof.
  unfold span. split; intros (E & H1 & H2).
  - split; [exact E|]. split; [intros x Hx; rewrite <- Inner; auto|]. destruct b; cbn in *; congruence.
  - split; [exact E|]. split; [intros x Hx; rewrite Inner; auto|]. destruct b; cbn in *; congruence.
Qed.
Lemma sp_signed s s' n l : respaced D s s' -> signed c s n l -> exists l', signed c s' n l' /\ respaced D l l'.
Proof.
  intros H K0. revert H. destruct K0 as [l0 H1 H2|x l0 r Hx Ha <- N|x l0 ds r Hx Ha Hs N]; intros H.
  - exists s'. split; [|exact H]. apply unsigned; [|now apply (respaced_not_nil _ _ H)]. apply (respaced_starts_not is_sign l0); auto using sign_free.
  - apply respaced_cons in H; [|now apply sign_free]. destruct H as (l1 & -> & H). exists l1. split; [|exact H].
    apply with_sign with (r := l1); auto. now apply (respaced_not_nil _ _ H).
  - apply respaced_cons in H; [|now apply sign_free]. destruct H as (l1 & -> & H). apply inner_span in Hs.
    destruct (respaced_span_D l0 l1 ds r H Hs) as (ds' & r' & Hs' & Hr & _). exists r'. split; [|exact Hr].
    apply with_sign_delimiter with ds'; auto; [now apply inner_span|]. now apply (respaced_not_nil _ _ Hr).
Qed.
Lemma sp_fraction l l' F r : respaced D l l' -> fraction c l F r -> exists r', fraction c l' F r' /\ respaced D r r'.
Proof.
  intros H K0. revert H. destruct K0 as [l0 H1|l0 F' r' Hd Hs]; intros H.
  - exists l'. split; [|exact H]. apply no_fraction. apply (respaced_starts_not is_dot l0); auto using dot_free.
  - apply respaced_cons in H; [|now apply dot_free]. destruct H as (l1 & -> & H). destruct (respaced_span is_digit l0 l1 F' r') as (b & Hb & Hr); auto using digit_free.
    exists b. split; [|exact Hr]. now apply some_fraction.
Qed.
Lemma sp_exponent l l' x r : respaced D l l' -> exponent c l x r -> exists r', exponent c l' x r' /\ respaced D r r'.
Proof.
  intros H K0. revert H. destruct K0 as [l0 H1|y sg n l0 ds r' e Hy Hd Hsg Hs Nd He Hb]; intros H.
  - exists l'. split; [|exact H]. apply no_exponent. apply (respaced_starts_not is_e l0); auto using e_free.
  - apply respaced_cons in H; [|now apply e_free]. destruct H as (l1 & -> & H). apply respaced_prefix in H.
    + destruct H as (l2 & -> & H). destruct (respaced_span is_digit l0 l2 ds r') as (b & Hb' & Hr); auto using digit_free.
      exists b. split; [|exact Hr]. now apply some_exponent with (n := n) (ds := ds).
    + intros z Hz. apply sign_free. destruct Hsg; cbn in Hz; [contradiction|destruct Hz as [<-|[]]; reflexivity..].
Qed.
Lemma sp_delimiter l l' r : respaced D l l' -> unit_delimiter c l r -> exists r', unit_delimiter c l' r' /\ respaced D r r'.
Proof.
  intros H K0. revert H. destruct K0 as [l0 Ha|l0 ds r0 Ha Hs Hn]; intros H.
  - exists l'. split; [|exact H]. now apply no_unit_delimiter.
  - apply inner_span in Hs. destruct (respaced_span_D l0 l' ds r0 H Hs) as (ds' & r' & Hs' & Hr & He). exists r'. split; [|exact Hr].
    apply some_unit_delimiter with ds'; auto; [now apply inner_span|]. destruct Hn as [Hn|Hn]; [left; tauto|right]. now apply (respaced_not_nil _ _ Hr).
Qed.
Lemma sp_number l l' W F x r : respaced D l l' -> number c l W F x r -> exists r', number c l' W F x r' /\ respaced D r r'.
Proof.
  intros H (l1 & l2 & l3 & H1 & H2 & H3 & H4 & N).
  destruct (respaced_span is_digit l l' W l1) as (l1' & H1' & R1); auto using digit_free.
  destruct (sp_fraction l1 l1' F l2 R1 H2) as (l2' & H2' & R2). destruct (sp_exponent l2 l2' x l3 R2 H3) as (l3' & H3' & R3).
  destruct (sp_delimiter l3 l3' r R3 H4) as (r' & H4' & R4). exists r'. split; [|exact R4]. exists l1', l2', l3'. auto.
Qed.
Lemma sp_word l l' : respaced D l l' -> word c l -> word c l'.
Proof.
  intros H (H1 & H2 & H3). split; [apply (respaced_starts_not is_digit l); auto using digit_free|].
  split; [apply (respaced_starts_not is_dot l); auto using dot_free|]. intros Hd. apply (respaced_no_word _ l); auto using inf_free.
Qed.
Lemma sp_until l l' w r : respaced D l l' -> until (c_inner_delimiter c) l w r -> exists r', until (c_inner_delimiter c) l' w r' /\ respaced D r r'.
Proof.
  intros H Hu. apply (respaced_span _ l); auto. intros x Hx. rewrite Inner in Hx. now apply negb_true_iff.
Qed.
Lemma sp_numeral l l' n r : respaced D l l' -> numeral_prefix c nums l n r -> exists r', numeral_prefix c nums l' n r' /\ respaced D r r'.
Proof.
  intros H (f & w & l1 & ds & Ef & Hu & Nw & Hf & Hs & Nd & Nr). destruct (sp_until l l' w l1 H Hu) as (l1' & Hu' & R1).
  apply inner_span in Hs. destruct (respaced_span_D l1 l1' ds r R1 Hs) as (ds' & r' & Hs' & R2 & He).
  exists r'. split; [|exact R2]. exists f, w, l1', ds'. do 4 (split; [assumption|]). split; [now apply inner_span|]. split; [tauto|]. now apply (respaced_not_nil _ _ R2).
Qed.

(** ** single durations *)
Definition free_tables : Prop :=
  (forall id, u_get tu id <> None -> no_delimiter_in D id) /\ (forall k id, kw = Some k -> u_get k id <> None -> no_delimiter_in D id).

Lemma sp_single_unit l l' u m : free_tables -> respaced D l l' -> single_unit c tu l u m -> single_unit c tu l' u m.
Proof.
  intros [FT _] H K0. revert H. destruct K0 as [l0 u' m' Ha Hg|l0 u' m' Ha Hn Hu Hg|l0 w l1 ds a u' m' Ha Hu Nw Hg Hs He]; intros H.
  - apply respaced_whole in H; [subst; now apply su_plain|]. apply FT. congruence.
  - apply respaced_whole in H; [subst; now apply su_no_ago|]. apply FT. congruence.
  - destruct (sp_until l0 l' w l1 H Hu) as (l1' & Hu' & R1). apply inner_span in Hs. destruct (respaced_span_D l1 l1' ds a R1 Hs) as (ds' & a' & Hs' & R2 & _).
    apply respaced_whole in R2; [|now apply (nocase_no_delimiter a (%"ago") ago_free)]. subst a'. apply su_ago with w l1' ds' a; auto. now apply inner_span.
Qed.
Lemma sp_single_unit_like l l' : free_tables -> respaced D l l' -> single_unit_like c tu l -> single_unit_like c tu l'.
Proof.
  intros [FT _] H K0. revert H. destruct K0 as [l0 Ha Hg|l0 Ha Hn Hu Hg|l0 w l1 ds a r Ha Hu Nw Hg Hs Hp]; intros H.
  - apply respaced_whole in H; [subst; now apply sul_plain|]. now apply FT.
  - apply respaced_whole in H; [subst; now apply sul_no_ago|]. now apply FT.
  - destruct (sp_until l0 l' w l1 H Hu) as (l1' & Hu' & R1). apply inner_span in Hs. destruct (respaced_span_D l1 l1' ds a R1 Hs) as (ds' & a' & Hs' & R2 & _).
    destruct (respaced_word (%"ago") a a' r ago_free R2 Hp) as (r' & Hp' & _). apply sul_ago with w l1' ds' a' r'; auto. now apply inner_span.
Qed.
Lemma sp_single_keyword l l' u m : free_tables -> respaced D l l' -> single_keyword_is kw l u m -> single_keyword_is kw l' u m.
Proof.
  intros [_ FT] H (k & Ek & Hg). apply respaced_whole in H; [subst; now exists k|]. apply (FT k); auto. congruence.
Qed.
Lemma sp_single s s' d : free_tables -> respaced D s s' -> single_duration c tu kw nums s d -> single_duration c tu kw nums s' d.
Proof.
  intros FT H Hd. revert H.
  destruct Hd as [s0 n l W F x Hs Hn|s0 n l W F x r u m Hs Hn Nr Eu Hu|s0 n l Hs Hd Hi|s0 n l u m Hs Hw Hk|s0 n l u m Hs Hw Hk Ho Hu|s0 n l num r u m Hs Hw Hk Ho Hp Hu]; intros H;
    destruct (sp_signed _ _ _ _ H Hs) as (l' & Hs' & R).
  - destruct (sp_number _ _ _ _ _ _ R Hn) as (r' & Hn' & R'). apply respaced_nil in R'. subst r'. now apply sd_number with l'.
  - destruct (sp_number _ _ _ _ _ _ R Hn) as (r' & Hn' & R'). apply sd_number_unit with l' r'; auto; [now apply (respaced_not_nil _ _ R')|]. now apply (sp_single_unit r).
  - apply sd_infinity with l; auto. replace l with l'; [exact Hs'|]. apply respaced_whole in R; [exact R|].
    destruct Hi as [Hi|Hi]; [now apply (nocase_no_delimiter l _ inf_free)|now apply (nocase_no_delimiter l _ infinity_free)].
  - apply sd_keyword with l'; auto; [now apply (sp_word l)|now apply (sp_single_keyword l)].
  - apply sd_unit with l'; auto; [now apply (sp_word l)| |now apply (sp_single_unit l)].
    intros u' m' K. apply (Hk u' m'). apply (sp_single_keyword l'); auto. now apply respaced_sym.
  - destruct (sp_numeral _ _ _ _ R Hp) as (r' & Hp' & R'). apply sd_numeral with l' r'; auto; [now apply (sp_word l)| | |now apply (sp_single_unit r)].
    + intros u' m' K. apply (Hk u' m'). apply (sp_single_keyword l'); auto. now apply respaced_sym.
    + intros O K. apply (Ho O). apply (sp_single_unit_like l'); auto. now apply respaced_sym.
Qed.

(** ** multiple durations *)
Hypothesis Outer : forall x, c_outer_delimiter c x = D x.
Hypothesis Conj : forall w, In w (conjunctions c) -> no_delimiter_in D w.

Lemma outer_span l a b : span (c_outer_delimiter c) l a b <-> span D l a b.
Proof.
  unfold span. split; intros (E & H1 & H2).
  - split; [exact E|]. split; [intros x Hx; rewrite <- Outer; auto|]. destruct b; cbn in *; congruence.
  - split; [exact E|]. split; [intros x Hx; rewrite Outer; auto|]. destruct b; cbn in *; congruence.
Qed.
Lemma outer_starts_not l : starts_not (c_outer_delimiter c) l <-> starts_not D l.
Proof. destruct l; cbn; [tauto|]. now rewrite Outer. Qed.
Lemma outer_starts_with l : starts_with (c_outer_delimiter c) l <-> starts_with D l.
Proof. destruct l; cbn; [tauto|]. now rewrite Outer. Qed.
Lemma start_free x : starts_duration x = true -> D x = false.
Proof. unfold starts_duration. intros H. apply orb_true_iff in H. destruct H; auto using digit_free, sign_free. Qed.
Lemma sp_connection l l' r : respaced D l l' -> connection c l r -> exists r', connection c l' r' /\ respaced D r r'.
Proof.
  intros H K0. revert H. destruct K0 as [l0 ds r0 Hs Nd Nr Hn|l0 ds y ws1 w ws2 z r0 Hs Nd Ny Ec Hn Hw Hz]; intros H; apply outer_span in Hs; destruct (respaced_span_D _ _ _ _ H Hs) as (ds' & r' & Hs' & R & He).
  - exists r'. split; [|exact R]. apply con_delimiter with ds'; [now apply outer_span|tauto|now apply (respaced_not_nil _ _ R)|].
    intros w Hw. apply (respaced_no_word w r0); auto.
  - assert (Iw : In w (conjunctions c)) by (rewrite Ec; apply in_or_app; right; now left).
    destruct (respaced_word w y r' z (Conj w Iw) R Hw) as (z' & Hw' & Rz).
    assert (B : exists r1, respaced D r0 r1 /\ (starts_not (c_outer_delimiter c) z' /\ starts_with starts_duration z' /\ r1 = z' \/
      exists ds2, span (c_outer_delimiter c) z' ds2 r1 /\ ds2 <> [] /\ r1 <> [])).
    { destruct Hz as [(Z1 & Z2 & ->)|(ds2 & Z1 & Z2 & Z3)].
      - exists z'. split; [exact Rz|]. left. split; [|split; [|reflexivity]].
        + apply outer_starts_not. apply outer_starts_not in Z1. now apply (respaced_starts_not_D z).
        + apply (respaced_starts_with starts_duration z); auto using start_free.
      - apply outer_span in Z1. destruct (respaced_span_D _ _ _ _ Rz Z1) as (ds3 & r3 & Z1' & R3 & E3). exists r3. split; [exact R3|]. right.
        exists ds3. split; [now apply outer_span|]. split; [tauto|]. now apply (respaced_not_nil _ _ R3). }
    destruct B as (r1 & Rr & B). exists r1. split; [|exact Rr]. apply con_word with ds' r' ws1 w ws2 z'; auto; [now apply outer_span|tauto|now apply (respaced_not_nil _ _ R)|].
    intros v Hv. apply (respaced_no_word v y); auto. apply Conj. rewrite Ec. apply in_or_app. now left.
Qed.
Lemma sp_next l l' r : respaced D l l' -> next_component c l r -> exists r', next_component c l' r' /\ respaced D r r'.
Proof.
  intros H K0. revert H. destruct K0 as [l0 Hn|l0 r0 Hc]; intros H.
  - exists l'. split; [|exact H]. apply nc_adjacent. apply outer_starts_not. apply outer_starts_not in Hn. now apply (respaced_starts_not_D l0).
  - destruct (sp_connection _ _ _ H Hc) as (r' & Hc' & R). exists r'. split; [now apply nc_connection|exact R].
Qed.
Lemma keyword_end_cases x : keyword_end c x = D x || starts_duration x.
Proof. unfold keyword_end. now rewrite Outer. Qed.
Lemma unit_end_free x : negb (unit_end c x) = true -> D x = false.
Proof. unfold unit_end. rewrite keyword_end_cases. destruct (D x); [discriminate|reflexivity]. Qed.
Lemma keyword_end_free x : negb (keyword_end c x) = true -> D x = false.
Proof. rewrite keyword_end_cases. destruct (D x); [discriminate|reflexivity]. Qed.
Lemma sp_starts_keyword_end l l' : respaced D l l' -> starts_with (keyword_end c) l -> starts_with (keyword_end c) l'.
Proof.
  intros H. destruct H as [|x l l' _ H|ds ds' l l' N N' H1 H2 _ _ _]; auto.
  intros _. destruct ds' as [|y ds']; [congruence|]. cbn. rewrite keyword_end_cases, H2 by (now left). reflexivity.
Qed.
Lemma sp_ago l l' r : respaced D l l' -> ago c l r -> exists r', ago c l' r' /\ respaced D r r'.
Proof.
  intros H (Ha & ds & a & Hs & Nd & Hp & He). apply inner_span in Hs. destruct (respaced_span_D _ _ _ _ H Hs) as (ds' & a' & Hs' & R & E).
  destruct (respaced_word (%"ago") a a' r ago_free R Hp) as (r' & Hp' & R'). exists r'. split; [|exact R']. split; [exact Ha|].
  exists ds', a'. split; [now apply inner_span|]. split; [tauto|]. split; [exact Hp'|].
  destruct He as [->|He]; [left; now apply respaced_nil|right; now apply (sp_starts_keyword_end r)].
Qed.
Lemma sp_multi_unit l l' u m r : respaced D l l' -> multi_unit c tu l u m r -> exists r', multi_unit c tu l' u m r' /\ respaced D r r'.
Proof.
  intros H K0. revert H. destruct K0 as [l0 w l1 u' m' r0 Hu Nw Hg Na Nd Hc|l0 w l1 l2 u' m' r0 Hu Nw Hg Ha Hc]; intros H;
    destruct (respaced_span _ _ _ _ _ unit_end_free H Hu) as (l1' & Hu' & R1).
  - destruct (sp_next _ _ _ R1 Hc) as (r' & Hc' & R). exists r'. split; [|exact R]. apply mu_plain with w l1'; auto.
    + intros r1 A. destruct (sp_ago l1' l1 r1 (respaced_sym _ _ R1) A) as (r2 & A' & _). exact (Na r2 A').
    + intros Ea [N1 N2]. apply (Nd Ea). split; [now apply (respaced_not_nil l1'); [apply respaced_sym|]|].
      apply inner_span in N2. destruct (respaced_span_D l1' l1 l1' [] (respaced_sym _ _ R1) N2) as (ds' & r2 & S2 & R2 & _).
      apply respaced_nil in R2. subst r2. apply inner_span. destruct S2 as (E & S2). rewrite app_nil_r in E. subst ds'. split; [now rewrite app_nil_r|exact S2].
  - destruct (sp_ago _ _ _ R1 Ha) as (l2' & Ha' & R2). destruct (sp_next _ _ _ R2 Hc) as (r' & Hc' & R). exists r'. split; [|exact R]. now apply mu_ago with w l1' l2'.
Qed.
Lemma sp_multi_unit_like l l' : respaced D l l' -> multi_unit_like c tu l -> multi_unit_like c tu l'.
Proof.
  intros H (w & l1 & Hu & Nw & Hg). destruct (respaced_span _ _ _ _ _ unit_end_free H Hu) as (l1' & Hu' & R1). exists w, l1'. auto.
Qed.
Lemma sp_multi_keyword l l' u m r : respaced D l l' -> multi_keyword_is c kw l u m r -> exists r', multi_keyword_is c kw l' u m r' /\ respaced D r r'.
Proof.
  intros H (k & w & Ek & Hu & Nw & Hg). destruct (respaced_span _ _ _ _ _ keyword_end_free H Hu) as (r' & Hu' & R1). exists r'. split; [|exact R1]. exists k, w. auto.
Qed.
Lemma sp_ends l l' : respaced D l l' -> ends_or_delimited c l -> ends_or_delimited c l'.
Proof.
  intros H K0. revert H. destruct K0 as [->|He]; intros H; [left; now apply respaced_nil|right]. apply outer_starts_with. apply outer_starts_with in He. now apply (respaced_starts_with_D l).
Qed.
Lemma sp_component s s' d r : respaced D s s' -> component c tu kw nums s d r -> exists r', component c tu kw nums s' d r' /\ respaced D r r'.
Proof.
  intros H Hd. revert H.
  destruct Hd as [s0 n l W F x r0 l1 Hs Hn Hu Hc|s0 n l W F x l1 u m r0 Hs Hn Eu Hu|s0 n l l1 r0 Hs Hd Hi He Hc|s0 n l l0 l1 r0 Hs Hd Hi He Hi2 He2 Hc
    |s0 n l u m l1 r0 Hs Hw Hk Hc|s0 n l u m r0 Hs Hw Hk Ho Hu|s0 n l num l1 u m r0 Hs Hw Hk Ho Hp Hu]; intros H;
    destruct (sp_signed _ _ _ _ H Hs) as (l' & Hs' & R).
  - destruct (sp_number _ _ _ _ _ _ R Hn) as (l1' & Hn' & R1). destruct (sp_next _ _ _ R1 Hc) as (r' & Hc' & R'). exists r'. split; [|exact R'].
    apply co_number with l' l1'; auto. destruct Hu as [Hu|Hu]; [now left|right]. intros K. apply Hu. apply (sp_multi_unit_like l1'); auto. now apply respaced_sym.
  - destruct (sp_number _ _ _ _ _ _ R Hn) as (l1' & Hn' & R1). destruct (sp_multi_unit _ _ _ _ _ R1 Hu) as (r' & Hu' & R'). exists r'. split; [|exact R'].
    now apply co_number_unit with l' l1'.
  - destruct (respaced_word _ _ _ _ inf_free R Hi) as (l1' & Hi' & R1). destruct (sp_next _ _ _ R1 Hc) as (r' & Hc' & R'). exists r'. split; [|exact R'].
    apply co_inf with l' l1'; auto. now apply (sp_ends l1).
  - destruct (respaced_word _ _ _ _ inf_free R Hi) as (l0' & Hi' & R0). destruct (respaced_word _ _ _ _ inity_free R0 Hi2) as (l1' & Hi2' & R1).
    destruct (sp_next _ _ _ R1 Hc) as (r' & Hc' & R'). exists r'. split; [|exact R'].
    apply co_infinity with l' l0' l1'; auto; [|now apply (sp_ends l1)]. intros K. apply He. apply (sp_ends l0'); auto. now apply respaced_sym.
  - destruct (sp_multi_keyword _ _ _ _ _ R Hk) as (l1' & Hk' & R1). destruct (sp_next _ _ _ R1 Hc) as (r' & Hc' & R'). exists r'. split; [|exact R'].
    apply co_keyword with l' l1'; auto. now apply (sp_word l).
  - destruct (sp_multi_unit _ _ _ _ _ R Hu) as (r' & Hu' & R'). exists r'. split; [|exact R']. apply co_unit with l'; auto; [now apply (sp_word l)|].
    intros u' m' r1 K. destruct (sp_multi_keyword _ _ _ _ _ (respaced_sym _ _ R) K) as (r2 & K' & _). exact (Hk _ _ _ K').
  - destruct (sp_numeral _ _ _ _ R Hp) as (l1' & Hp' & R1). destruct (sp_multi_unit _ _ _ _ _ R1 Hu) as (r' & Hu' & R'). exists r'. split; [|exact R'].
    apply co_numeral with l' l1'; auto; [now apply (sp_word l)| |].
    + intros u' m' r1 K. destruct (sp_multi_keyword _ _ _ _ _ (respaced_sym _ _ R) K) as (r2 & K' & _). exact (Hk _ _ _ K').
    + intros O K. apply (Ho O). apply (sp_multi_unit_like l'); auto. now apply respaced_sym.
Qed.
Lemma sp_components s ds : components c tu kw nums s ds -> forall s', respaced D s s' -> components c tu kw nums s' ds.
Proof.
  induction 1 as [s d H|s d r ds H N Hr IH]; intros s' R; destruct (sp_component _ _ _ _ R H) as (r' & H' & R').
  - apply cs_last. apply respaced_nil in R'. now subst r'.
  - apply cs_more with r'; auto. now apply (respaced_not_nil r).
Qed.
End Spaces.

Theorem C61_delimiters_single : forall c tu kw nums s s' d, env_ok c tu kw nums -> utf8 s = true -> utf8 s' = true -> c_allow_multiple c = false ->
  separator (c_inner_delimiter c) -> free_tables (c_inner_delimiter c) tu kw -> respaced (c_inner_delimiter c) s s' ->
  parse c s tu kw nums = Ok d -> parse c s' tu kw nums = Ok d.
Proof.
  intros c tu kw nums s s' d HE U U' Hm Sep FT R P. apply C22_single_grammar in P; auto. destruct P as [P1 P2].
  apply C22_single_grammar; auto. split; [|exact P2]. now apply (sp_single (c_inner_delimiter c) Sep c tu kw nums (fun x => eq_refl) s s').
Qed.
Print Assumptions C61_delimiters_single.

Theorem C61_delimiters_multiple : forall c tu kw nums s s' d, env_ok c tu kw nums -> utf8 s = true -> utf8 s' = true -> c_allow_multiple c = true ->
  separator (c_outer_delimiter c) -> (forall x, c_inner_delimiter c x = c_outer_delimiter c x) ->
  (forall w, In w (conjunctions c) -> no_delimiter_in (c_outer_delimiter c) w) -> respaced (c_outer_delimiter c) s s' ->
  parse c s tu kw nums = Ok d -> exists d', parse c s' tu kw nums = Ok d' /\ nanos d' = nanos d.
Proof.
  intros c tu kw nums s s' d HE U U' Hm Sep HI HC R P.
  assert (HD : delims_ok c kw nums) by (apply delims_strict_ok; intros _ x Hx; unfold keyword_end; rewrite <- HI, Hx; reflexivity).
  apply C23_multiple_sound in P; auto. destruct P as (ds & P & Hs & _ & V).
  destruct (C23_multiple_complete c tu kw nums s' ds) as (E & PE & _ & VE); auto.
  - now apply (sp_components (c_outer_delimiter c) Sep c tu kw nums HI (fun x => eq_refl) HC s).
  - exists E. split; [exact PE|]. now rewrite VE, V.
Qed.
Print Assumptions C61_delimiters_multiple.

Lemma ws_separator : separator is_ascii_whitespace.
Proof. intros x. unfold is_ascii_whitespace, is_digit, is_letter, is_sign, is_dot. lia. Qed.
Ltac spaced := repeat first [apply rs_nil | apply rs_same; [reflexivity|]].
Lemma ex_free : free_tables is_ascii_whitespace ex_units (Some ex_keywords).
Proof.
  split.
  - intros id H x Hx. apply (pt_units _ _ _ _ ex_plain id H). exact Hx.
  - intros k id Ek H x Hx. apply (pt_keywords _ _ _ _ ex_plain k id Ek H). exact Hx.
Qed.
Example C61_delimiters_single_example : separator (c_inner_delimiter ex_single) /\ free_tables (c_inner_delimiter ex_single) ex_units (Some ex_keywords) /\
  respaced (c_inner_delimiter ex_single) (%"- half y ago") (%"-  half " ++ [9; 32] ++ %"y   ago") /\
  parse ex_single (%"- half y ago") ex_units (Some ex_keywords) (Some ex_numerals) = Ok (Dur false (Std 15778800 0)) /\
  parse ex_single (%"-  half " ++ [9; 32] ++ %"y   ago") ex_units (Some ex_keywords) (Some ex_numerals) = Ok (Dur false (Std 15778800 0)).
Proof.
  split; [exact ws_separator|]. split; [exact ex_free|]. split; [|split; reflexivity].
  apply (rs_same _ 45); [reflexivity|]. apply (rs_run _ (%" ") (%"  ") (%"half y ago") (%"half " ++ [9; 32] ++ %"y   ago")); try discriminate; try reflexivity; [each|each|].
  spaced. apply (rs_run _ (%" ") [32; 9; 32] (%"y ago") (%"y   ago")); try discriminate; try reflexivity; [each|each|].
  spaced. apply (rs_run _ (%" ") (%"   ") (%"ago") (%"ago")); try discriminate; try reflexivity; [each|each|]. spaced.
Qed.
Example C61_delimiters_multiple_example : separator (c_outer_delimiter ex_multi) /\
  (forall w, In w (conjunctions ex_multi) -> no_delimiter_in (c_outer_delimiter ex_multi) w) /\
  respaced (c_outer_delimiter ex_multi) (%"1s and 2y") (%"1s    and  2y") /\
  parse ex_multi (%"1s and 2y") ex_units (Some ex_keywords) (Some ex_numerals) = Ok (Dur false (Std 63115201 0)) /\
  parse ex_multi (%"1s    and  2y") ex_units (Some ex_keywords) (Some ex_numerals) = Ok (Dur false (Std 63115201 0)).
Proof.
  split; [exact ws_separator|]. split; [intros w [<-|[]]; each|]. split; [|split; reflexivity].
  spaced. apply (rs_run _ (%" ") (%"    ") (%"and 2y") (%"and  2y")); try discriminate; try reflexivity; [each|each|].
  spaced. apply (rs_run _ (%" ") (%"  ") (%"2y") (%"2y")); try discriminate; try reflexivity; [each|each|]. spaced.
Qed.
(** none and one are not the same, and a unit whose identifier has a delimiter is found by exactly this identifier *)
Definition spaced_units : units_like := Units false (table [(%"light year", (Year, Mul 1 0))]).
Theorem C61_delimiter_in_identifier_refuted : exists d e,
  parse config_new (%"1light year") spaced_units None None = Ok d /\ parse config_new (%"1light  year") spaced_units None None = Err e.
Proof. eexists _, _. split; reflexivity. Qed.
Print Assumptions C61_delimiter_in_identifier_refuted.

(** the standard parser: its identifiers are all fine *)
Theorem C61_standard_parser : forall l ss s s' d,
  let p := fold_left dp_set ss (dp_with_time_units l) in
  let c := dp_config p in
  config_ok c -> separator (c_inner_delimiter c) -> utf8 s = true -> utf8 s' = true -> respaced (c_inner_delimiter c) s s' ->
  (c_allow_multiple c = true -> (forall x, c_inner_delimiter c x = c_outer_delimiter c x) /\ forall w, In w (conjunctions c) -> no_delimiter_in (c_inner_delimiter c) w) ->
  dp_parse p s = Ok d -> exists d', dp_parse p s' = Ok d' /\ nanos d' = nanos d.
Proof.
  intros l ss s s' d p c HC Sep U U' R HM P.
  assert (K : forall ss p, fold_left dp_set ss p = DParser (dp_units p) (fold_left dp_set_config ss (dp_config p))).
  { clear. induction ss as [|x ss IH]; intros p; [now destruct p|]. cbn [fold_left]. rewrite IH. reflexivity. }
  assert (Ep : p = DParser (units_with l) c) by (subst p c; now rewrite K).
  assert (E : env_ok c (std_units (units_with l)) None None) by (apply (std_env_ok (DParser (units_with l) c)); [exists (fun u => memb u l); apply units_with_data|exact HC]).
  rewrite Ep in *. unfold dp_parse in *. cbn [dp_config dp_units] in *.
  destruct (c_allow_multiple c) eqn:Em.
  - destruct (HM eq_refl) as [HI HW].
    assert (X : forall a b, respaced (c_inner_delimiter c) a b -> respaced (c_outer_delimiter c) a b).
    { induction 1 as [|x a b Hx _ IH|ds ds' a b N N' H1 H2 S S' _ IH]; [apply rs_nil|apply rs_same; auto; now rewrite <- HI|].
      apply rs_run; auto; try (intros x Hx; rewrite <- HI; auto).
      - destruct a; cbn in *; congruence.
      - destruct b; cbn in *; congruence. }
    apply (C61_delimiters_multiple c _ None None s s'); auto.
    + intros x Hx. rewrite <- HI in Hx. now apply Sep.
    + intros w Hw x Hx. rewrite <- HI. now apply (HW w).
  - exists d. split; [|reflexivity]. apply (C61_delimiters_single c _ None None s s'); auto.
    split; [|discriminate]. intros id H. destruct (u_get _ id) as [[u m]|] eqn:G; [|congruence]. apply C31_lookup in G. destruct G as (_ & -> & _).
    apply letters_no_delimiter; auto. destruct u; each.
Qed.
Print Assumptions C61_standard_parser.
Example C61_standard_parser_example :
  let p := fold_left dp_set [Set_allow_time_unit_delimiter true] (dp_with_time_units [Second]) in
  config_ok (dp_config p) /\ respaced (c_inner_delimiter (dp_config p)) (%"1 s") (%"1   s") /\
  dp_parse p (%"1 s") = Ok (Dur false (Std 1 0)) /\ dp_parse p (%"1   s") = Ok (Dur false (Std 1 0)).
Proof.
  split; [split; [exact ws_ascii|split; [exact ws_ascii|discriminate]]|]. split; [|split; reflexivity].
  spaced. apply (rs_run _ (%" ") (%"   ") (%"s") (%"s")); try discriminate; try reflexivity; [each|each|]. spaced.
Qed.
