(** * C85: the relative times, written down piece by piece *)
From Verif Require Import Prelude Util Time Config Bytes Repr Parse SpecTime SpecNum SpecGrammar SpecSystemd
  Utf8Proofs SystemdProofs SpellProofs SpecGnu Gnu GnuWords GnuGrammar PropGnu PropGnuOrder SpecGnuTexts.

(** ** what pieces start and end with *)
Definition inside (x : Z) : Prop := 48 <= x <= 57 \/ 97 <= x <= 122 \/ 65 <= x <= 90.
Definition ends_inside (t : str) : Prop := exists r x, t = r ++ [x] /\ inside x.
Definition plain (t : str) : Prop := forall x, In x t -> 0 <= x <= 127.

Lemma plain_app a b : plain a -> plain b -> plain (a ++ b).
Proof. intros H1 H2 x Hx. apply in_app_or in Hx. destruct Hx; auto. Qed.
Lemma plain_white a : white_space a -> plain a.
Proof. intros H x Hx. specialize (H x Hx). unfold white in H. lia. Qed.
Lemma plain_letters a : letters a -> plain a.
Proof. intros [_ H] x Hx. specialize (H x Hx). lia. Qed.
Lemma plain_digits a : digit_string a -> plain a.
Proof. intros H x Hx. specialize (H x Hx). lia. Qed.
Lemma plain_sign sg n : gnu_sign sg n -> plain sg.
Proof. intros [|ds Hd|ds Hd] x Hx; [destruct Hx| |]; (destruct Hx as [<-|Hx]; [lia|]); exact (plain_white ds Hd x Hx). Qed.
Lemma plain_utf8 t : plain t -> utf8 t = true.
Proof.
  induction t as [|x t IH]; intros H; [reflexivity|]. rewrite utf8_cons_ascii by (apply H; now left). apply IH. intros y Hy. apply H. now right.
Qed.
Lemma ends_app a b : ends_inside b -> ends_inside (a ++ b).
Proof. intros (r & x & -> & H). exists (a ++ r), x. split; [apply app_assoc|exact H]. Qed.
Lemma ends_each a : a <> [] -> (forall x, In x a -> inside x) -> ends_inside a.
Proof.
  intros N H. destruct (exists_last N) as (r & x & ->). exists r, x. split; [reflexivity|]. apply H. apply in_or_app. right. now left.
Qed.
Lemma ends_letters a : letters a -> ends_inside a.
Proof. intros [N H]. apply ends_each; [exact N|]. intros x Hx. specialize (H x Hx). unfold inside. lia. Qed.
Lemma ends_digits_of a : digit_string a -> a <> [] -> ends_inside a.
Proof. intros H N. apply ends_each; [exact N|]. intros x Hx. specialize (H x Hx). unfold inside. lia. Qed.

(** words which do not start with a, as all words but `ago` *)
Lemma nocase_first (bad : Z) w v : 97 <= bad <= 122 -> lower v = true -> match v with x :: _ => negb (x =? bad) | [] => false end = true ->
  str_eq_nocase w v = true -> exists x w', w = x :: w' /\ x <> bad /\ x <> bad - 32.
Proof.
  intros Hb Hl Hv E. destruct v as [|y v]; [discriminate|]. destruct w as [|x w]; [discriminate|].
  unfold lower in Hl. cbn [is_empty negb forallb andb] in Hl. apply andb_true_iff in Hl. destruct Hl as [Hl _].
  cbn [str_eq_nocase] in E. apply andb_true_iff in E. destruct E as [E _].
  exists x, w. split; [reflexivity|]. assert (Hy : 97 <= y <= 122) by lia. destruct (nocase_letter x y Hy E); subst; lia.
Qed.
Lemma table_first {A} (t : list (A * list str)) (bad : Z) : 97 <= bad <= 122 ->
  forallb (fun e => forallb (fun v => lower v && match v with x :: _ => negb (x =? bad) | [] => false end) (snd e)) t = true ->
  forall w a, word_for t w a -> exists x w', w = x :: w' /\ x <> bad /\ x <> bad - 32.
Proof.
  intros Hb H w a (ws & v & I1 & I2 & E). rewrite forallb_forall in H. specialize (H _ I1). cbn [snd] in H.
  rewrite forallb_forall in H. specialize (H v I2). apply andb_true_iff in H. destruct H as [H1 H2].
  exact (nocase_first bad w v Hb H1 H2 E).
Qed.
Lemma unit_not_a w g : word_for gnu_units w g -> exists x w', w = x :: w' /\ x <> 97 /\ x <> 65.
Proof. apply (table_first gnu_units 97); [lia|reflexivity]. Qed.
Lemma unit_not_e w g : word_for gnu_units w g -> exists x w', w = x :: w' /\ x <> 101 /\ x <> 69.
Proof. apply (table_first gnu_units 101); [lia|reflexivity]. Qed.
Lemma numeral_not_a w g : word_for gnu_numerals w g -> exists x w', w = x :: w' /\ x <> 97 /\ x <> 65.
Proof. apply (table_first gnu_numerals 97); [lia|reflexivity]. Qed.
Lemma keyword_not_a w g : word_for gnu_keywords w g -> exists x w', w = x :: w' /\ x <> 97 /\ x <> 65.
Proof. apply (table_first gnu_keywords 97); [lia|reflexivity]. Qed.

(** ** the start of a piece *)
Definition start (x : Z) : Prop := 48 <= x <= 57 \/ x = 43 \/ x = 45 \/ ((97 <= x <= 122 \/ 65 <= x <= 90) /\ x <> 97 /\ x <> 65).
Definition starts (t : str) : Prop := exists x r, t = x :: r /\ start x.
Lemma starts_app a b : starts a -> starts (a ++ b).
Proof. intros (x & r & -> & H). now exists x, (r ++ b). Qed.
Lemma starts_sign sg n b : gnu_sign sg n -> starts b -> starts (sg ++ b).
Proof.
  intros [|ds Hd|ds Hd] H; [exact H| |]; cbn [app]; eexists; eexists; (split; [reflexivity|]); unfold start; lia.
Qed.
Lemma starts_word w : letters w -> (exists x w', w = x :: w' /\ x <> 97 /\ x <> 65) -> starts w.
Proof. intros [_ L] (x & w' & -> & H1 & H2). exists x, w'. split; [reflexivity|]. specialize (L x (or_introl eq_refl)). unfold start. tauto. Qed.
Lemma starts_number num W F : number_text num W F -> exists x r, num = x :: r /\ 48 <= x <= 57.
Proof.
  intros [W0 D N|W0 F0 D N _ _]; (destruct W0 as [|x W1]; [congruence|]); [exists x, W1|exists x, (W1 ++ 46 :: F0)];
    (split; [reflexivity|]); apply D; now left.
Qed.
Lemma starts_digit num W F : number_text num W F -> starts num.
Proof. intros H. destruct (starts_number _ _ _ H) as (x & r & -> & D). exists x, r. split; [reflexivity|]. now left. Qed.
Lemma unit_text_word q g ago : unit_text q g ago -> exists w r, q = w ++ r /\ word_for gnu_units w g /\ plain r /\ (r = [] \/ ends_inside r) /\ ends_word r.
Proof.
  intros [w g0 H|w g0 ds a H Hd N Ha].
  - exists w, []. split; [now rewrite app_nil_r|]. split; [exact H|]. split; [intros x []|]. split; [now left|]. intros x r; discriminate.
  - exists w, (ds ++ a). split; [reflexivity|]. split; [exact H|]. split; [apply plain_app; [now apply plain_white|apply plain_letters, GnuGrammar.ago_letters, Ha]|].
    split; [right; apply ends_app, ends_letters, GnuGrammar.ago_letters, Ha|]. now apply white_ends.
Qed.
Lemma unit_text_ok q g ago : unit_text q g ago -> starts q /\ ends_inside q /\ plain q.
Proof.
  intros H. destruct (unit_text_word q g ago H) as (w & r & -> & Hw & Hp & He & _). pose proof (unit_letters w g Hw) as L.
  split; [apply starts_app, starts_word; [exact L|exact (unit_not_a w g Hw)]|].
  split; [|apply plain_app; [now apply plain_letters|exact Hp]].
  destruct He as [->|He]; [rewrite app_nil_r; now apply ends_letters|now apply ends_app].
Qed.
Lemma number_ok num W F : number_text num W F -> plain num /\ ends_inside num.
Proof.
  intros [W0 D N|W0 F0 D N D1 N1].
  - split; [now apply plain_digits|now apply ends_digits_of].
  - split; [|change (46 :: F0) with ([46] ++ F0); apply ends_app, ends_app; now apply ends_digits_of].
    apply plain_app; [now apply plain_digits|]. intros x [<-|Hx]; [lia|]. exact (plain_digits F0 D1 x Hx).
Qed.
Lemma piece_ok p a e u : piece p a e u -> starts p /\ ends_inside p /\ plain p.
Proof.
  intros [sg n num W F ds q g ago a0 Hs Hn Hd Hq _|sg n num W F a0 Hs Hn _|q g ago Hq|sg n q g ago Hs _ Hq|sg n w k ds q g ago Hs Hw Hd _ Hq|sg n w k Hs Hw].
  - destruct (unit_text_ok q g ago Hq) as (_ & Q2 & Q3). destruct (number_ok _ _ _ Hn) as [N1 _].
    split; [apply (starts_sign sg n _ Hs), starts_app, (starts_digit _ _ _ Hn)|]. split; [now apply ends_app, ends_app, ends_app|].
    apply plain_app; [exact (plain_sign sg n Hs)|]. apply plain_app; [exact N1|]. apply plain_app; [now apply plain_white|exact Q3].
  - destruct (number_ok _ _ _ Hn) as [N1 N2]. split; [apply (starts_sign sg n _ Hs), (starts_digit _ _ _ Hn)|]. split; [now apply ends_app|].
    apply plain_app; [exact (plain_sign sg n Hs)|exact N1].
  - exact (unit_text_ok q g ago Hq).
  - destruct (unit_text_ok q g ago Hq) as (Q1 & Q2 & Q3). split; [now apply (starts_sign sg n)|]. split; [now apply ends_app|].
    apply plain_app; [exact (plain_sign sg n Hs)|exact Q3].
  - destruct (unit_text_ok q g ago Hq) as (_ & Q2 & Q3). pose proof (numeral_letters w k Hw) as L.
    split; [apply (starts_sign sg n _ Hs), starts_app, starts_word; [exact L|exact (numeral_not_a w k Hw)]|].
    split; [now apply ends_app, ends_app, ends_app|].
    apply plain_app; [exact (plain_sign sg n Hs)|]. apply plain_app; [now apply plain_letters|]. apply plain_app; [now apply plain_white|exact Q3].
  - pose proof (keyword_letters w k Hw) as L. split; [apply (starts_sign sg n _ Hs), starts_word; [exact L|exact (keyword_not_a w k Hw)]|].
    split; [now apply ends_app, ends_letters|]. apply plain_app; [exact (plain_sign sg n Hs)|now apply plain_letters].
Qed.
Lemma written_ok t as_ u : written t as_ u -> starts t /\ ends_inside t /\ plain t.
Proof.
  intros H. induction H as [p a e u H|p a e u sep r rs u' H W _ (I1 & I2 & I3) _]; [exact (piece_ok p a e u H)|].
  destruct (piece_ok p a e u H) as (P1 & P2 & P3). split; [now apply starts_app|]. split; [now apply ends_app, ends_app|].
  apply plain_app; [exact P3|]. apply plain_app; [now apply plain_white|exact I3].
Qed.
Lemma written_trimmed t as_ u : written t as_ u -> trimmed t.
Proof.
  intros H. destruct (written_ok t as_ u H) as ((x & r & E1 & S) & (r' & y & E2 & I) & _). split.
  - intros z r0 E. rewrite E1 in E. injection E as <- _. unfold white, start in *. lia.
  - intros z r0 E. rewrite E2 in E. apply app_inj_tail in E. destruct E as [_ <-]. unfold white, inside in *. lia.
Qed.

(** ** what follows a piece *)
Lemma starts_dark t : starts t -> no_white_ahead t.
Proof. intros (x & r & -> & H) y r0 [= <- _]. unfold white, start in *. lia. Qed.
Lemma starts_no_ago sep t : white_space sep -> starts t -> forall r, ~ ago_follows (sep ++ t) r.
Proof.
  intros W S r (ds & a & E & _ & Wd & Ha & _).
  destruct (letters_head a r (GnuGrammar.ago_letters a Ha)) as (x & w' & Ex & _ & _ & _ & NW).
  apply white_split in E; try assumption; [|now apply starts_dark|rewrite Ex; intros y r0 [= <- _]; exact NW].
  destruct E as [_ E]. destruct S as (y & r0 & -> & S).
  destruct a as [|z a]; [discriminate|]. cbn [app] in E. injection E as <- _.
  cbn [str_eq_nocase] in Ha. apply andb_true_iff in Ha. destruct Ha as [Ha _].
  assert (H97 : 97 <= 97 <= 122) by lia. destruct (nocase_letter y 97 H97 Ha); subst; unfold start in S; lia.
Qed.
Lemma joins_ends sep r u : white_space sep -> joins EndsWithWord sep r u -> ends_word (sep ++ r).
Proof.
  intros W [N|(x & r0 & -> & D)]; [now apply white_ends|]. destruct sep as [|y sep]; cbn [app]; intros z r1 [= <- _]; [lia|].
  left. apply W. now left.
Qed.
Lemma no_ago_nil r : ~ ago_follows [] r.
Proof. intros (ds & a & E & N & _). destruct ds; [congruence|discriminate]. Qed.
Lemma phrase q g ago rest : unit_text q g ago -> ends_word rest -> (forall r, ~ ago_follows rest r) -> unit_phrase (q ++ rest) g ago rest.
Proof.
  intros [w g0 H|w g0 ds a H Hd N Ha] E NA; [now apply up_plain|].
  replace ((w ++ ds ++ a) ++ rest) with (w ++ ds ++ a ++ rest) by now rewrite !app_assoc.
  apply up_ago; [exact H|]. exists ds, a. auto.
Qed.

(** a piece that ends with a word *)
Lemma item_word p a u rest : piece p a EndsWithWord u -> ends_word rest -> (forall r, ~ ago_follows rest r) -> gnu_item (p ++ rest) a rest.
Proof.
  intros H E NA. inversion H; subst; clear H.
  - replace ((sg ++ num ++ ds ++ q) ++ rest) with (sg ++ num ++ ds ++ (q ++ rest)) by now rewrite !app_assoc.
    apply (gi_number_unit sg n num W F ds (q ++ rest) g ago rest a); try assumption; [|now apply phrase].
    assert (K : forall x r, ds ++ q ++ rest = x :: r -> ~ 48 <= x <= 57 /\ x <> 46 /\ x <> 101 /\ x <> 69).
    { intros x r Ex. destruct ds as [|y ds]; cbn [app] in Ex.
      - destruct (unit_text_word q g ago H3) as (w & r1 & -> & Hw & _). destruct (unit_not_e w g Hw) as (z & w' & Ew & Z1 & Z2).
        pose proof (unit_letters w g Hw) as [_ L]. subst w. specialize (L z (or_introl eq_refl)). cbn [app] in Ex. injection Ex as <- _. lia.
      - injection Ex as <- _. specialize (H2 y (or_introl eq_refl)). unfold white in H2. lia. }
    destruct H1 as [W D N|W F D N D1 N1]; [apply gn_whole|apply gn_fraction]; try assumption.
    intros x r Ex. destruct (K x r Ex) as (K1 & _ & K2 & K3). auto.
  - pose proof (gi_unit [] false (p ++ rest) g ago rest gs_none (phrase p g ago rest H0 E NA)) as G. rewrite xorb_false_l in G. exact G.
  - rewrite <- app_assoc. apply (gi_unit sg n (q ++ rest) g ago rest); [assumption|]. now apply phrase.
  - replace ((sg ++ w ++ ds ++ q) ++ rest) with (sg ++ w ++ ds ++ (q ++ rest)) by now rewrite !app_assoc.
    apply (gi_numeral sg n w k ds (q ++ rest) g ago rest); try assumption. now apply phrase.
  - replace ((sg ++ w) ++ rest) with (sg ++ w ++ rest) by now rewrite !app_assoc. now apply gi_keyword.
Qed.

(** the unit of a text which starts with one *)
Lemma signed_no_phrase sg n l g ago r : gnu_sign sg n -> sg <> [] -> ~ unit_phrase (sg ++ l) g ago r.
Proof.
  intros Hs N H. destruct (phrase_word _ _ _ _ H) as (w & l' & E & Hw & _).
  destruct (letters_head w l' (unit_letters w g Hw)) as (x & w' & Ex & _ & _ & Sx & _). rewrite Ex in E.
  destruct Hs; [congruence| |]; cbn [app] in E; injection E as <- _; discriminate.
Qed.
Lemma digit_no_phrase l g ago r : (exists x l', l = x :: l' /\ 48 <= x <= 57) -> ~ unit_phrase l g ago r.
Proof.
  intros (x & l' & -> & D) H. destruct (phrase_word _ _ _ _ H) as (w & l0 & E & Hw & _).
  destruct w as [|y w]; [destruct (proj1 (unit_letters _ _ Hw)); reflexivity|]. injection E as <- _.
  pose proof (proj2 (unit_letters _ _ Hw) x (or_introl eq_refl)). lia.
Qed.
Lemma word_no_phrase w l g ago r : letters w -> (forall g, ~ word_for gnu_units w g) -> ends_word l -> ~ unit_phrase (w ++ l) g ago r.
Proof.
  intros L N E H. destruct (phrase_word _ _ _ _ H) as (w1 & l1 & E1 & Hw & E2 & _).
  apply word_unique in E1; auto; [|exact (unit_letters _ _ Hw)]. destruct E1 as [-> _]. exact (N g Hw).
Qed.
Lemma numeral_word w k : word_for gnu_numerals w k -> forall g, ~ word_for gnu_units w g.
Proof.
  intros H g Hg. destruct (C40_words_are_unambiguous w) as (_ & _ & _ & _ & A & _); [exact (letters_bytes w (numeral_letters w k H))|]. exact (A g k Hg H).
Qed.
Lemma keyword_word w k : word_for gnu_keywords w k -> forall g, ~ word_for gnu_units w g.
Proof.
  intros H g Hg. destruct (C40_words_are_unambiguous w) as (_ & _ & _ & A & _); [exact (letters_bytes w (keyword_letters w k H))|]. exact (A g k Hg H).
Qed.
Lemma piece_no_phrase p a e rest : piece p a e false -> (e = EndsWithWord -> ends_word rest) -> forall g ago r, ~ unit_phrase (p ++ rest) g ago r.
Proof.
  intros H E g1 ago1 r1. inversion H; subst; clear H.
  - destruct (starts_number _ _ _ H1) as (x & l & -> & D). destruct H0; [|intros K; rewrite <- app_assoc in K; revert K; eapply signed_no_phrase; [econstructor; eassumption|discriminate]..].
    apply digit_no_phrase. cbn [app]. eauto.
  - destruct (starts_number _ _ _ H1) as (x & l & -> & D). destruct H0; [|intros K; rewrite <- app_assoc in K; revert K; eapply signed_no_phrase; [econstructor; eassumption|discriminate]..].
    apply digit_no_phrase. cbn [app]. eauto.
  - rewrite <- app_assoc. now apply (signed_no_phrase sg n).
  - replace ((sg ++ w ++ ds ++ q) ++ rest) with (sg ++ w ++ ds ++ (q ++ rest)) by now rewrite !app_assoc.
    destruct H0; [|eapply signed_no_phrase; [econstructor; eassumption|discriminate]..].
    cbn [app]. apply word_no_phrase; [exact (numeral_letters w k H1)|exact (numeral_word w k H1)|now apply white_ends].
  - rewrite <- app_assoc. destruct H0; [|eapply signed_no_phrase; [econstructor; eassumption|discriminate]..].
    cbn [app]. apply word_no_phrase; [exact (keyword_letters w k H1)|exact (keyword_word w k H1)|now apply E].
Qed.
Lemma written_no_phrase t as_ : written t as_ false -> forall g ago r, ~ unit_phrase t g ago r.
Proof.
  intros H. inversion H; subst; clear H.
  - rewrite <- (app_nil_r t). eapply piece_no_phrase; [eassumption|]. intros _ x r; discriminate.
  - eapply piece_no_phrase; [eassumption|]. intros ->. eapply joins_ends; eassumption.
Qed.
Lemma written_phrase t as_ : written t as_ true -> exists g ago r, unit_phrase t g ago r.
Proof.
  intros H. inversion H; subst; clear H.
  - inversion H0; subst. exists g, ago, []. rewrite <- (app_nil_r t). apply phrase; [assumption|intros x r; discriminate|exact no_ago_nil].
  - inversion H0; subst. exists g, ago, (sep ++ r). apply phrase; [assumption|eapply joins_ends; eassumption|].
    apply starts_no_ago; [assumption|]. eapply written_ok. eassumption.
Qed.

(** a piece that is a number *)
Lemma number_piece p a u : piece p a EndsWithNumber u ->
  exists sg n num W F, p = sg ++ num /\ gnu_sign sg n /\ number_text num W F /\ number_amount n W F (Seconds 1) a.
Proof. intros H. inversion H; subst. exists sg, n, num, W, F. auto. Qed.
Lemma number_in_front num W F rest : number_text num W F -> (forall x r, rest = x :: r -> ~ 48 <= x <= 57 /\ x <> 46 /\ x <> 101 /\ x <> 69) -> gnu_number rest num W F.
Proof.
  intros [W0 D N|W0 F0 D N D1 N1] K; [apply gn_whole|apply gn_fraction]; try assumption.
  intros x r Ex. destruct (K x r Ex) as (K1 & _ & K2 & K3). auto.
Qed.

(** ** written texts are relative times *)
Lemma written_sound t as_ u : written t as_ u -> relative_time t as_.
Proof.
  intros H. induction H as [p a e u H|p a e u sep r rs u' H W HR IH J].
  - apply rt_last. rewrite <- (app_nil_r p). destruct e.
    + apply (item_word p a u []); [exact H|intros x r; discriminate|exact no_ago_nil].
    + destruct (number_piece _ _ _ H) as (sg & n & num & W & F & -> & Hs & Hn & Ha).
      rewrite <- app_assoc. refine (gi_number sg n num W F [] [] a Hs (number_in_front _ _ _ _ Hn _) _ _ (or_introl eq_refl) _ Ha);
        try (intros x r; discriminate); [intros x []|]. intros g ago r' K. destruct (phrase_word _ _ _ _ K) as (w & l & E & Hw & _).
      destruct w; [destruct (proj1 (unit_letters _ _ Hw)); reflexivity|discriminate].
  - destruct (written_ok _ _ _ HR) as (S & _ & _). pose proof (starts_dark r S) as Nr.
    destruct e.
    + apply (rt_more (p ++ sep ++ r) a sep r rs); try assumption. apply (item_word p a u); [exact H|now apply (joins_ends sep r u')|].
      now apply starts_no_ago.
    + destruct (number_piece _ _ _ H) as (sg & n & num & W0 & F & -> & Hs & Hn & Ha). destruct J as [-> J].
      apply (rt_more _ a [] r rs); [|intros x []|exact Nr|exact IH]. rewrite <- app_assoc. cbn [app].
      refine (gi_number sg n num W0 F sep r a Hs (number_in_front _ _ _ _ Hn _) W Nr _ _ Ha).
      * intros x r0 E. destruct sep as [|y sep]; cbn [app] in E.
        -- destruct J as [J|J]; [congruence|]. destruct (J x r0 E) as (J1 & J2 & J3). destruct S as (z & r1 & -> & S). injection E as -> _.
           unfold start in S. lia.
        -- injection E as <- _. specialize (W y (or_introl eq_refl)). unfold white in W. lia.
      * right. destruct S as (z & r1 & -> & _). discriminate.
      * exact (written_no_phrase r rs HR).
Qed.

(** ** relative times can be written *)
Lemma phrase_text l g ago r : unit_phrase l g ago r -> exists q, l = q ++ r /\ unit_text q g ago /\ ends_word r.
Proof.
  intros [w g0 r0 Hw He _|w g0 l0 r0 Hw (ds & a & -> & N & W & Ha & He)].
  - exists w. split; [reflexivity|]. split; [now apply ut_plain|exact He].
  - exists (w ++ ds ++ a). split; [now rewrite !app_assoc|]. split; [now apply ut_ago|exact He].
Qed.
Lemma number_text_of r num W F : gnu_number r num W F -> number_text num W F.
Proof. intros [W0 D N E|W0 F0 D N D1 N1 E]; now constructor. Qed.
Lemma number_after r num W F : gnu_number r num W F -> forall x r', r = x :: r' -> ~ 48 <= x <= 57 /\ x <> 101 /\ x <> 69.
Proof. intros [W0 D N E|W0 F0 D N D1 N1 E] x r' Ex; specialize (E x r' Ex); tauto. Qed.
(** a component is a piece, with white space after it only if it is a number *)
Lemma item_piece l a r : gnu_item l a r ->
  (exists p u, l = p ++ r /\ piece p a EndsWithWord u /\ ends_word r) \/
  (exists p ds, l = p ++ ds ++ r /\ piece p a EndsWithNumber false /\ white_space ds /\ no_white_ahead r /\ (ds = [] \/ r <> []) /\
     (forall g ago r', ~ unit_phrase r g ago r') /\ (ds = [] -> forall x r', r = x :: r' -> ~ 48 <= x <= 57 /\ x <> 101 /\ x <> 69)).
Proof.
  intros [sg n num W F ds l0 g ago r0 a0 Hs Hn Hd Hp Ha|sg n num W F ds r0 a0 Hs Hn Hd Nr He Np Ha|sg n l0 g ago r0 Hs Hp|sg n w k ds l0 g ago r0 Hs Hw Hd Nd Hp|sg n w k r0 Hs Hw He].
  - left. destruct (phrase_text _ _ _ _ Hp) as (q & -> & Hq & He). exists (sg ++ num ++ ds ++ q), false.
    split; [now rewrite !app_assoc|]. split; [|exact He]. eapply pc_number_unit; eauto using number_text_of.
  - right. exists (sg ++ num), ds. split; [now rewrite !app_assoc|]. split; [eapply pc_number; eauto using number_text_of|].
    split; [exact Hd|]. split; [exact Nr|]. split; [exact He|]. split; [exact Np|]. intros -> x r' Ex. exact (number_after _ _ _ _ Hn x r' Ex).
  - left. destruct (phrase_text _ _ _ _ Hp) as (q & -> & Hq & He). destruct sg as [|z sg].
    + exists q, true. split; [reflexivity|]. split; [|exact He]. inversion Hs; subst. rewrite xorb_false_l. exact (pc_unit q g ago Hq).
    + exists ((z :: sg) ++ q), false. split; [now rewrite !app_assoc|]. split; [|exact He]. apply pc_signed_unit; [exact Hs|discriminate|exact Hq].
  - left. destruct (phrase_text _ _ _ _ Hp) as (q & -> & Hq & He). exists (sg ++ w ++ ds ++ q), false.
    split; [now rewrite !app_assoc|]. split; [|exact He]. now apply pc_numeral.
  - left. exists (sg ++ w), false. split; [now rewrite !app_assoc|]. split; [now apply pc_keyword|exact He].
Qed.
Lemma written_complete t as_ : relative_time t as_ -> exists u, written t as_ u.
Proof.
  intros H. induction H as [l a H|l a ds r rs H W N HR (u' & IH)].
  - destruct (item_piece _ _ _ H) as [(p & u & -> & Hp & _)|(p & ds & -> & Hp & _ & _ & [->|E] & _)]; [| |congruence];
      rewrite ?app_nil_r; eexists; eapply wr_one; eassumption.
  - pose proof (relative_nonempty _ _ HR) as Nr.
    destruct (item_piece _ _ _ H) as [(p & u & -> & Hp & E)|(p & ds' & -> & Hp & Wd & Nd & Hd & Np & K)].
    + exists u. apply (wr_more p a EndsWithWord u ds r rs u' Hp W IH). cbn [joins].
      destruct ds as [|x ds]; [right|left; discriminate]. destruct r as [|x r]; [congruence|]. exists x, r. split; [reflexivity|].
      destruct (E x r eq_refl) as [Wx|Dx]; [destruct (N x r eq_refl Wx)|lia].
    + assert (ds = []) as ->. { destruct ds as [|x ds]; [reflexivity|]. destruct (Nd x (ds ++ r) eq_refl). apply W. now left. }
      cbn [app] in *. exists false. apply (wr_more p a EndsWithNumber false ds' r rs u' Hp Wd IH). split.
      * destruct u'; [|reflexivity]. destruct (written_phrase _ _ IH) as (g & ago & r' & P). destruct (Np _ _ _ P).
      * destruct ds' as [|x ds']; [right|left; discriminate]. exact (K eq_refl).
Qed.

(** ** C85 *)
(** reading and writing are the same *)
Theorem C85_reading_and_writing : forall t as_, relative_time t as_ <-> exists u, written t as_ u.
Proof. intros t as_. split; [apply written_complete|]. intros (u & H). exact (written_sound t as_ u H). Qed.
Print Assumptions C85_reading_and_writing.

(** parse_fuzzy accepts the written texts, with white space around them, and nothing else *)
Theorem C85_written_texts : forall s years months v, utf8 s = true ->
  ((exists d, gnu_parse_fuzzy gnu_new s = Ok (years, months, d) /\ duration_ok d /\ nanos d = v) <->
   exists ws1 t ws2 as_ u, s = ws1 ++ t ++ ws2 /\ white_space ws1 /\ white_space ws2 /\ written t as_ u /\
     years = sum_years as_ /\ months = sum_months as_ /\ v = sum_nanos as_).
Proof.
  intros s years months v Hs. split.
  - intros (d & E & D0 & <-). destruct (C44_fuzzy_sound s years months d Hs E) as (ws1 & t & ws2 & as_ & E1 & W1 & W2 & _ & R & Y & M & D & N).
    destruct (written_complete t as_ R) as (u & HW). exists ws1, t, ws2, as_, u. auto 10.
  - intros (ws1 & t & ws2 & as_ & u & -> & W1 & W2 & HW & -> & -> & ->).
    exact (C44_fuzzy_complete ws1 t ws2 as_ (plain_utf8 t (proj2 (proj2 (written_ok t as_ u HW)))) W1 W2 (written_trimmed t as_ u HW) (written_sound t as_ u HW)).
Qed.
Print Assumptions C85_written_texts.

(** the text determines what is written *)
Theorem C85_one_way : forall t as_ u as' u', written t as_ u -> written t as' u' -> as_ = as' /\ u = u'.
Proof.
  intros t as_ u as' u' H H'. split.
  - apply (C44_one_reading t); [exact (plain_utf8 t (proj2 (proj2 (written_ok t as_ u H))))|exact (written_sound _ _ _ H)|exact (written_sound _ _ _ H')].
  - destruct u, u'; try reflexivity.
    + destruct (written_phrase _ _ H) as (g & ago & r & P). destruct (written_no_phrase _ _ H' g ago r P).
    + destruct (written_phrase _ _ H') as (g & ago & r & P). destruct (written_no_phrase _ _ H g ago r P).
Qed.
Print Assumptions C85_one_way.

(** "+ last month-1Day ago2.50 next week", piece by piece *)
Example C85_example :
  written (%"+ last month-1Day ago2.50 next week") [Months (-1); Nanos (86400 * 10 ^ 9); Nanos 2500000000; Nanos (604800 * 10 ^ 9)] false /\
  gnu_parse_fuzzy gnu_new (%"+ last month-1Day ago2.50 next week") = Ok (0, -1, Dur false (Std 691202 500000000)) /\
  (forall as_ u, ~ written (%"2 day sweek") as_ u).
Proof.
  assert (W : white_space (%" ")) by (intros x [<-|[]]; now left).
  split; [|split; [reflexivity|]].
  - refine (wr_more (%"+ last month") _ EndsWithWord false [] (%"-1Day ago2.50 next week") _ false _ _ (wr_more (%"-1Day ago") _ EndsWithWord false [] (%"2.50 next week") _ false _ _
      (wr_more (%"2.50") _ EndsWithNumber false (%" ") (%"next week") _ false _ W (wr_one (%"next week") _ EndsWithWord false _) _) _) _); try (intros x []).
    + apply (pc_numeral (%"+ ") false (%"last") (-1) (%" ") (%"month") AMonth false); [now apply gs_plus| |exact W|discriminate|].
      * exists [%"last"], (%"last"). split; [now left|]. split; [now left|reflexivity].
      * apply ut_plain. exists [%"month"; %"months"], (%"month"). split; [now do 6 right; left|]. split; [now left|reflexivity].
    + apply (pc_number_unit (%"-") true (%"1") (%"1") [] [] (%"Day ago") (Seconds 86400) true); [apply gs_minus; intros x []| |intros x []| |apply (na_whole false (%"1"))].
      * apply nt_whole; [intros x [<-|[]]; vm_compute; split; discriminate|discriminate].
      * apply (ut_ago (%"Day") _ (%" ") (%"ago")); [|exact W|discriminate|reflexivity].
        exists [%"day"; %"days"], (%"day"). split; [now do 3 right; left|]. split; [now left|reflexivity].
    + apply (pc_number [] false (%"2.50") (%"2") (%"50")); [constructor| |].
      * apply (nt_fraction (%"2") (%"50")); try discriminate; intros x Hx; repeat (destruct Hx as [<-|Hx]; [vm_compute; split; discriminate|]); destruct Hx.
      * apply (na_fraction false (%"2") (%"50")). discriminate.
    + apply (pc_numeral [] false (%"next") 1 (%" ") (%"week") (Seconds 604800) false); [constructor| |exact W|discriminate|].
      * exists [%"next"; %"first"], (%"next"). split; [now do 2 right; left|]. split; [now left|reflexivity].
      * apply ut_plain. exists [%"week"; %"weeks"], (%"week"). split; [now do 4 right; left|]. split; [now left|reflexivity].
    + split; [reflexivity|left; discriminate].
    + right. exists 50, (%".50 next week"). split; [reflexivity|]. left. lia.
    + right. exists 45, (%"1Day ago2.50 next week"). split; [reflexivity|]. right. now right.
  - intros as_ u H. destruct (C44_fuzzy_complete [] (%"2 day sweek") [] as_) as (d & E & _); try (intros x []); try reflexivity;
      [exact (written_trimmed _ _ _ H)|exact (written_sound _ _ _ H)|]. vm_compute in E. discriminate.
Qed.
