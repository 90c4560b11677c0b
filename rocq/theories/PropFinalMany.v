(** * C100 for multiple durations: an error in an exponent does not depend on what follows *)
From Verif Require Import Prelude Util Time Config Bytes Repr Parse SpecTime SpecNum SpecParse SpecValue SpecGrammar SpecErrors SpecSpelling SpecTexts.
From Verif Require Import SpellProofs SafeProofs RefProofs Standard StandardProofs Custom PropModes PropErrors PropTexts PropPrefix PropStandard PropSettings PropCustomText PropCustomTexts ExEnv PropFinal PropFinalWords.

(** the texts are the same up to and including a digit *)
Definition agree (l l' : str) : Prop := exists u k v v', l = u ++ k :: v /\ l' = u ++ k :: v' /\ is_digit k = true.
Lemma agree_sym l l' : agree l l' -> agree l' l.
Proof. intros (u & k & v & v' & A & B & C). exists u, k, v', v. auto. Qed.
Lemma agree_app a l l' : agree l l' -> agree (a ++ l) (a ++ l').
Proof. intros (u & k & v & v' & -> & -> & C). exists (a ++ u), k, v, v'. split; [apply app_assoc|]. split; [apply app_assoc|exact C]. Qed.
Lemma agree_head l l' : agree l l' -> same_head l l'.
Proof. intros (u & k & v & v' & -> & -> & C). apply head_app. Qed.
Lemma agree_ne l l' : agree l l' -> l' <> [].
Proof. intros H%agree_head. now apply head_ne in H. Qed.
Lemma agree_not p l l' : agree l l' -> starts_not p l -> starts_not p l'.
Proof. intros H%agree_head. now apply head_not. Qed.
Lemma agree_with p l l' : agree l l' -> starts_with p l -> starts_with p l'.
Proof. intros H%agree_head. destruct l, l'; cbn in *; try tauto. now subst. Qed.
(** a part without digits is in front of the common digit *)
Lemma agree_part l l' a r : agree l l' -> l = a ++ r -> (forall x, In x a -> is_digit x = false) -> exists r', l' = a ++ r' /\ agree r r'.
Proof.
  intros (u & k & v & v' & El & El' & K) E A. revert u l l' El El' E. induction a as [|x a IH]; intros u l l' -> -> E.
  - cbn [app] in E. exists (u ++ k :: v'). split; [reflexivity|]. exists u, k, v, v'. auto.
  - destruct u as [|y u]; cbn [app] in E; injection E as -> E; [rewrite (A x (or_introl eq_refl)) in K; discriminate|].
    destruct (IH (fun z Hz => A z (or_intror Hz)) u _ _ eq_refl eq_refl E) as (r' & Er & G). exists r'. split; [cbn [app]; now rewrite Er|exact G].
Qed.
Lemma agree_span p l l' a r : (forall x, p x = true -> is_digit x = false) -> agree l l' -> span p l a r -> exists r', span p l' a r' /\ agree r r'.
Proof.
  intros P H (E & A & B). destruct (agree_part l l' a r H E) as (r' & E' & H'); [auto|]. exists r'. split; [|exact H'].
  split; [exact E'|]. split; [exact A|]. now apply (agree_not p r).
Qed.
Lemma nocase_digit x y : eq_nocase x y = true -> is_digit x = is_digit y.
Proof. unfold eq_nocase, to_lower, is_digit. intros H. destruct ((65 <=? x) && (x <=? 90)) eqn:X, ((65 <=? y) && (y <=? 90)) eqn:Y; lia. Qed.
Lemma nocase_no_digit v w : str_eq_nocase v w = true -> (forall x, In x w -> is_digit x = false) -> forall x, In x v -> is_digit x = false.
Proof.
  revert w. induction v as [|a v IH]; intros [|b w]; cbn; try discriminate; [tauto|]. intros H A x [<-|I]; apply andb_true_iff in H; destruct H as [H1 H2].
  - rewrite (nocase_digit _ _ H1). apply A. now left.
  - apply (IH w H2); auto.
Qed.
Lemma agree_word w l l' r : (forall x, In x w -> is_digit x = false) -> agree l l' -> word_prefix w l r -> exists r', word_prefix w l' r' /\ agree r r'.
Proof.
  intros A H (v & E & V). destruct (agree_part l l' v r H E (nocase_no_digit v w V A)) as (r' & E' & H'). exists r'. split; [|exact H']. exists v. auto.
Qed.

Section Many.
Context (c : config) (tu : units_like) (kw : option units_like) (nums : option numbers_like).
Hypothesis HD : forall x, 48 <= x <= 57 -> c_inner_delimiter c x = false /\ c_outer_delimiter c x = false.
Hypothesis HC : forall w x, In w (conjunctions c) -> In x w -> ~ 48 <= x <= 57.

Lemma inner_digit x : c_inner_delimiter c x = true -> is_digit x = false.
Proof. intros H. destruct (is_digit x) eqn:E; [|reflexivity]. assert (48 <= x <= 57) by (unfold is_digit in E; lia). destruct (HD x); congruence. Qed.
Lemma outer_digit x : c_outer_delimiter c x = true -> is_digit x = false.
Proof. intros H. destruct (is_digit x) eqn:E; [|reflexivity]. assert (48 <= x <= 57) by (unfold is_digit in E; lia). destruct (HD x); congruence. Qed.
Lemma conjunction_digit w x : In w (conjunctions c) -> In x w -> is_digit x = false.
Proof. intros A B. pose proof (HC w x A B). unfold is_digit. lia. Qed.
Lemma keyword_end_digit x : negb (keyword_end c x) = true -> is_digit x = false.
Proof. unfold keyword_end, starts_duration. destruct (is_digit x); [|reflexivity]. destruct (c_outer_delimiter c x); discriminate. Qed.
Lemma unit_end_digit x : negb (unit_end c x) = true -> is_digit x = false.
Proof. unfold unit_end. intros H. apply keyword_end_digit. destruct (keyword_end c x); [discriminate|reflexivity]. Qed.

(** *** what is read in front of the common digit is the same *)
Lemma agree_unit_like l l' : agree l l' -> multi_unit_like c tu l -> multi_unit_like c tu l'.
Proof. intros H (w & l1 & U & N & G). destruct (agree_span _ _ _ _ _ unit_end_digit H U) as (l1' & U' & _). exists w, l1'. auto. Qed.
Lemma agree_keyword l l' u m r : agree l l' -> multi_keyword_is c kw l u m r -> exists r', multi_keyword_is c kw l' u m r' /\ agree r r'.
Proof. intros H (k & w & E & U & N & G). destruct (agree_span _ _ _ _ _ keyword_end_digit H U) as (r' & U' & H'). exists r'. split; [|exact H']. exists k, w. auto. Qed.
Lemma agree_ago l l' r : agree l l' -> ago c l r -> exists r', ago c l' r'.
Proof.
  intros H (A & ds & a & S & N & W & E). destruct (agree_span _ _ _ _ _ inner_digit H S) as (a' & S' & H').
  destruct (agree_word (%"ago") a a' r) as (r' & W' & H2); [intros x [<-|[<-|[<-|[]]]]; reflexivity|exact H'|exact W|].
  exists r'. split; [exact A|]. exists ds, a'. split; [exact S'|]. split; [exact N|]. split; [exact W'|].
  destruct E as [->|E]; [apply agree_sym, agree_ne in H2; congruence|right; now apply (agree_with _ r)].
Qed.
Lemma agree_no_conjunction l l' w : In w (conjunctions c) -> agree l l' -> (~ exists r, word_prefix w l r) -> ~ exists r, word_prefix w l' r.
Proof. intros I H N (r & W). apply N. destruct (agree_word w l' l r) as (r' & W' & _); eauto using conjunction_digit, agree_sym. Qed.
Lemma agree_word_start l l' : agree l l' -> word c l -> word c l'.
Proof.
  intros H (A & B & C). split; [now apply (agree_not _ l)|]. split; [now apply (agree_not _ l)|]. intros D (r & W). apply (C D).
  destruct (agree_word (%"inf") l' l r) as (r' & W' & _); [intros x [<-|[<-|[<-|[]]]]; reflexivity|now apply agree_sym|exact W|]. now exists r'.
Qed.

(** *** other continuations behind a common digit *)
Definition lifts (P : str -> str -> Prop) (l r : str) : Prop := exists a, l = a ++ r /\ forall r', agree r r' -> P (a ++ r') r'.
Lemma lift_span p l a r : span p l a r -> forall r', agree r r' -> span p (a ++ r') a r'.
Proof. intros H r' G. apply (span_swap _ _ _ _ _ H). now apply agree_head. Qed.
Lemma lift_connection l r : connection c l r -> lifts (connection c) l r.
Proof.
  destruct 1 as [l ds r S N Nr C|l ds y ws1 w ws2 z r S N Ny E1 E2 (v & Ev & V) K].
  - exists ds. split; [destruct S; auto|]. intros r' G. apply (con_delimiter c _ ds r'); [now apply (lift_span _ l ds r)|exact N|now apply agree_ne in G|].
    intros w I. apply (agree_no_conjunction r r' w I G). now apply C.
  - assert (Iw : In w (conjunctions c)) by (rewrite E1; apply in_or_app; right; now left).
    assert (I1 : forall v, In v ws1 -> In v (conjunctions c)) by (intros v' I; rewrite E1; apply in_or_app; now left).
    assert (F : forall z', agree z z' -> (starts_not (c_outer_delimiter c) z' /\ starts_with starts_duration z' /\ False \/ True) ->
                span (c_outer_delimiter c) (ds ++ v ++ z') ds (v ++ z') /\ (v ++ z' <> []) /\ (forall w', In w' ws1 -> ~ exists r', word_prefix w' (v ++ z') r') /\ word_prefix w (v ++ z') z').
    { intros z' G _. assert (Gy : agree y (v ++ z')) by (rewrite Ev; now apply agree_app). split; [now apply (lift_span _ l ds y)|]. split; [now apply agree_ne in Gy|].
      split; [intros w' I; apply (agree_no_conjunction y _ w' (I1 w' I) Gy); now apply E2|]. exists v. auto. }
    destruct K as [(K1 & K2 & ->)|(ds2 & K1 & K2 & K3)].
    + exists (ds ++ v). split; [destruct S as (-> & _); rewrite Ev; apply app_assoc|]. intros r' G. rewrite <- app_assoc.
      destruct (F r' G (or_intror I)) as (F1 & F2 & F3 & F4). apply (con_word c _ ds (v ++ r') ws1 w ws2 r' r'); auto.
      left. split; [now apply (agree_not _ z)|]. split; [now apply (agree_with _ z)|reflexivity].
    + exists (ds ++ v ++ ds2). split; [destruct S as (-> & _), K1 as (-> & _); rewrite Ev, <- !app_assoc; reflexivity|]. intros r' G. rewrite <- !app_assoc.
      pose proof K1 as (Ez & _). assert (Gz : agree z (ds2 ++ r')) by (rewrite Ez; now apply agree_app).
      destruct (F _ Gz (or_intror I)) as (F1 & F2 & F3 & F4). apply (con_word c _ ds (v ++ ds2 ++ r') ws1 w ws2 (ds2 ++ r') r'); auto.
      right. exists ds2. split; [now apply (lift_span _ z ds2 r)|]. split; [exact K2|now apply agree_ne in G].
Qed.
Lemma lift_next l r : next_component c l r -> lifts (next_component c) l r.
Proof.
  destruct 1 as [l A|l r H].
  - exists []. split; [reflexivity|]. intros r' G. apply nc_adjacent. now apply (agree_not _ l).
  - destruct (lift_connection l r H) as (a & E & F). exists a. split; [exact E|]. intros r' G. apply nc_connection. auto.
Qed.
Lemma no_trailing_digit l l' : agree l l' -> ~ (l' <> [] /\ span (c_inner_delimiter c) l' l' []).
Proof.
  intros (u & k & v & v' & _ & -> & K) (_ & _ & A & _). rewrite (inner_digit k) in K; [discriminate|]. apply A. apply in_or_app. right. now left.
Qed.
Lemma lift_unit l u m r : multi_unit c tu l u m r -> lifts (fun t r' => multi_unit c tu t u m r') l r.
Proof.
  destruct 1 as [l w l1 u m r U N G A T X|l w l1 l2 u m r U N G A X].
  - destruct (lift_next l1 r X) as (a & -> & F). exists (w ++ a). split; [destruct U as (-> & _); now rewrite <- app_assoc|]. intros r' K. rewrite <- app_assoc.
    assert (K1 : agree (a ++ r) (a ++ r')) by now apply agree_app.
    apply (mu_plain c tu _ w (a ++ r')); auto.
    + now apply (lift_span _ l w (a ++ r)).
    + intros r1 Q. destruct (agree_ago _ _ _ (agree_sym _ _ K1) Q) as (r2 & Q2). exact (A r2 Q2).
    + intros _. now apply (no_trailing_digit (a ++ r)).
  - destruct (lift_next l2 r X) as (a & -> & F). destruct A as (A1 & ds & o & S & Nd & (v & -> & V) & B). pose proof S as (-> & _).
    exists (w ++ ds ++ v ++ a). split; [destruct U as (-> & _); now rewrite <- !app_assoc|]. intros r' K. rewrite <- !app_assoc.
    assert (K1 : agree (a ++ r) (a ++ r')) by now apply agree_app.
    assert (K2 : agree (v ++ a ++ r) (v ++ a ++ r')) by now apply agree_app.
    apply (mu_ago c tu _ w (ds ++ v ++ a ++ r') (a ++ r')); auto.
    + apply (lift_span _ l w (ds ++ v ++ a ++ r)); [exact U|now apply agree_app].
    + split; [exact A1|]. exists ds, (v ++ a ++ r'). split; [now apply (lift_span _ (ds ++ v ++ a ++ r) ds (v ++ a ++ r))|]. split; [exact Nd|].
      split; [exists v; auto|]. destruct B as [B|B]; [apply agree_sym, agree_ne in K1; congruence|right; now apply (agree_with _ (a ++ r))].
Qed.
Lemma lift_signed s n l : signed c s n l -> lifts (fun t r' => signed c t n r') s l.
Proof. intros H. destruct (signed_swap c s n l H) as (a & E & F). exists a. split; [exact E|]. intros r' G. apply F. now apply agree_head. Qed.

(** a component and another continuation *)
Lemma lift_component s d r : component c tu kw nums s d r -> r <> [] -> lifts (fun t r' => component c tu kw nums t d r') s r.
Proof.
  intros H Nr. destruct H as [s n l W F x r l1 S Nu U X|s n l W F x l1 u m r S Nu U X|s n l l1 r S D Q B X|s n l l0 l1 r S D Q B Q2 B2 X|s n l u m l1 r S Q K X
    |s n l u m r S Q K O X|s n l num l1 u m r S Q K O P X]; destruct (lift_signed _ _ _ S) as (sg & -> & HS).
  - destruct (lift_next _ _ X) as (a & -> & HX). assert (Na : a ++ r <> []) by (intros K; apply app_eq_nil in K; tauto).
    destruct (number_swap c l W F x (a ++ r) Na Nu) as (b & -> & HN). exists (sg ++ b ++ a). split; [now rewrite <- !app_assoc|]. intros r' G. rewrite <- !app_assoc.
    assert (G1 : agree (a ++ r) (a ++ r')) by now apply agree_app.
    apply (co_number c tu kw nums _ n (b ++ a ++ r') W F x r' (a ++ r')); auto.
    + apply HS. now apply agree_app.
    + apply HN. now apply agree_head.
    + destruct U as [U|U]; [now left|right]. intros K. apply U. now apply (agree_unit_like (a ++ r')), K; apply agree_sym.
  - destruct (lift_unit _ _ _ _ X) as (a & -> & HX). assert (Na : a ++ r <> []) by (intros K; apply app_eq_nil in K; tauto).
    destruct (number_swap c l W F x (a ++ r) Na Nu) as (b & -> & HN). exists (sg ++ b ++ a). split; [now rewrite <- !app_assoc|]. intros r' G. rewrite <- !app_assoc.
    assert (G1 : agree (a ++ r) (a ++ r')) by now apply agree_app.
    apply (co_number_unit c tu kw nums _ n (b ++ a ++ r') W F x (a ++ r')); auto.
    + apply HS. now apply agree_app.
    + apply HN. now apply agree_head.
  - destruct (lift_next _ _ X) as (a & -> & HX). destruct Q as (v & -> & V). exists (sg ++ v ++ a). split; [now rewrite <- !app_assoc|]. intros r' G. rewrite <- !app_assoc.
    assert (G1 : agree (a ++ r) (a ++ r')) by now apply agree_app.
    apply (co_inf c tu kw nums _ n (v ++ a ++ r') (a ++ r')); auto.
    + apply HS. now apply agree_app.
    + exists v. auto.
    + destruct B as [B|B]; [apply agree_sym, agree_ne in G1; congruence|right; now apply (agree_with _ (a ++ r))].
  - destruct (lift_next _ _ X) as (a & -> & HX). destruct Q as (v & -> & V). destruct Q2 as (v2 & -> & V2). exists (sg ++ v ++ v2 ++ a). split; [now rewrite <- !app_assoc|].
    intros r' G. rewrite <- !app_assoc. assert (G1 : agree (a ++ r) (a ++ r')) by now apply agree_app.
    apply (co_infinity c tu kw nums _ n (v ++ v2 ++ a ++ r') (v2 ++ a ++ r') (a ++ r')); auto.
    + apply HS. now repeat apply agree_app.
    + exists v. auto.
    + assert (G2 : agree (v2 ++ a ++ r) (v2 ++ a ++ r')) by now apply agree_app. intros [K|K]; [apply agree_ne in G2; congruence|].
      apply B. right. apply (agree_with _ (v2 ++ a ++ r')); [now apply agree_sym|exact K].
    + exists v2. auto.
    + destruct B2 as [K|K]; [apply agree_sym, agree_ne in G1; congruence|right; now apply (agree_with _ (a ++ r))].
  - destruct (lift_next _ _ X) as (a & -> & HX). destruct K as (k & w & Ek & U & Nw & Gw). pose proof U as (-> & _). exists (sg ++ w ++ a). split; [now rewrite <- !app_assoc|].
    intros r' G. rewrite <- !app_assoc. assert (G1 : agree (a ++ r) (a ++ r')) by now apply agree_app. assert (G2 : agree (w ++ a ++ r) (w ++ a ++ r')) by now apply agree_app.
    apply (co_keyword c tu kw nums _ n (w ++ a ++ r') u m (a ++ r')); auto.
    + now apply (agree_word_start (w ++ a ++ r)).
    + exists k, w. split; [exact Ek|]. split; [now apply (lift_span _ (w ++ a ++ r) w (a ++ r))|]. auto.
  - destruct (lift_unit _ _ _ _ X) as (a & -> & HX). exists (sg ++ a). split; [now rewrite <- !app_assoc|]. intros r' G. rewrite <- !app_assoc.
    assert (G1 : agree (a ++ r) (a ++ r')) by now apply agree_app.
    apply (co_unit c tu kw nums _ n (a ++ r')); auto.
    + now apply (agree_word_start (a ++ r)).
    + intros u' m' q K'. destruct (agree_keyword _ _ _ _ _ (agree_sym _ _ G1) K') as (q' & K2 & _). exact (K _ _ _ K2).
  - destruct (lift_unit _ _ _ _ X) as (a & -> & HX). destruct P as (f & w & l2 & ds & Ef & U & Nw & Gw & Sd & Nd & Nl). pose proof Sd as (-> & _). pose proof U as (-> & _).
    exists (sg ++ w ++ ds ++ a). split; [now rewrite <- !app_assoc|]. intros r' G. rewrite <- !app_assoc.
    assert (G1 : agree (a ++ r) (a ++ r')) by now apply agree_app. assert (G2 : agree (ds ++ a ++ r) (ds ++ a ++ r')) by now apply agree_app.
    assert (G3 : agree (w ++ ds ++ a ++ r) (w ++ ds ++ a ++ r')) by now apply agree_app.
    apply (co_numeral c tu kw nums _ n (w ++ ds ++ a ++ r') num (a ++ r')); auto.
    + now apply (agree_word_start (w ++ ds ++ a ++ r)).
    + intros u' m' q K'. destruct (agree_keyword _ _ _ _ _ (agree_sym _ _ G3) K') as (q' & K2 & _). exact (K _ _ _ K2).
    + intros O1 K'. apply (O O1). apply (agree_unit_like (w ++ ds ++ a ++ r')); [now apply agree_sym|exact K'].
    + exists f, w, (ds ++ a ++ r'), ds. split; [exact Ef|]. split; [now apply (lift_span _ (w ++ ds ++ a ++ r) w (ds ++ a ++ r))|]. split; [exact Nw|]. split; [exact Gw|].
      split; [now apply (lift_span _ (ds ++ a ++ r) ds (a ++ r))|]. split; [exact Nd|now apply agree_ne in G1].
Qed.

(** *** errors in an exponent *)
Definition exponent_message (m : str) : Prop := m = %"No exponent allowed" \/ m = %"The exponent must have at least one digit".
Definition about_exponent (e : parse_error) : Prop := exponent_overflow e \/ exists p m, e = Syntax p m /\ exponent_message m.
Ltac other H := let K := fresh "K" in destruct H as [[K|K]|(? & ? & K & [?|?])]; subst; discriminate K.
Lemma trailing_other s d l e : trailing s d l e -> ~ about_exponent e.
Proof. intros (_ & _ & ->) H. other H. Qed.
Lemma next_other s l e : next_error c s l e -> ~ about_exponent e.
Proof.
  intros [T|ds y _ _ _ [ws1 w ws2 z _ _ _ [[_ ->]|[T|(x & z' & _ & _ & _ & ->)]]]]; [now apply trailing_other in T| |now apply trailing_other in T|]; intros H; other H.
Qed.
Lemma unit_other s l e : multi_unit_error c tu s l e -> ~ about_exponent e.
Proof. intros [w l1 _ _ _ _ T|w l1 _ _ _ _ _ T|w l1 l2 _ _ _ _ T]; [now apply trailing_other in T|now apply next_other in T..]. Qed.
Lemma infinity_other s l0 w l e : multi_infinity_error c s l0 w l e -> ~ about_exponent e.
Proof. induction 1 as [| | | |l e T]; [assumption|let Q := fresh in intros Q; other Q..|now apply next_other in T]. Qed.

(** the number in front of the exponent [l2] contains a digit *)
Lemma number_exponent s l e : number_error c s l e -> about_exponent e ->
  exists a l2, l = a ++ l2 /\ (exists k, In k a /\ is_digit k = true) /\ l2 <> [] /\ exponent_error c s l2 e /\
    forall t l2' e', same_head l2 l2' -> exponent_error c t l2' e' -> number_error c t (a ++ l2') e'.
Proof.
  intros H A. destruct H as [W l1 S B|W l1 F l2 S B N X|W l1 F l2 x l3 S B N X D T].
  - exfalso. destruct B; other A.
  - pose proof S as (El & SW & _). destruct (fraction_swap c l1 F l2 B) as (f & Ef & G). exists (W ++ f), l2. split; [subst; now rewrite <- app_assoc|]. split.
    { destruct W as [|k W]; [|exists k; split; [now left|apply SW; now left]]. destruct F as [|k F]; [now elim N|].
      inversion B as [|l3 F0 r0 B1 B2 B3 B4]; subst. destruct B2 as (-> & BF & _). replace f with (46 :: k :: F).
      - exists k. split; [cbn [app]; right; now left|apply BF; now left].
      - change (46 :: (k :: F) ++ l2) with ((46 :: k :: F) ++ l2) in B3. now apply app_inv_tail in B3. }
    split; [destruct X; discriminate|]. split; [exact X|]. intros t l2' e' SH X'. rewrite <- app_assoc.
    apply (ne_exponent c t _ e' W (f ++ l2') F l2'); auto. subst. apply (span_swap _ _ _ _ _ S). now apply head_app2.
  - exfalso. now apply trailing_other in T.
Qed.
Lemma exponent_same a l p m : exponent_error c (a ++ l) l (Syntax p m) -> exponent_message m ->
  exists b x r, l = b ++ x :: r /\ p = length (a ++ b) /\ forall r', exponent_error c (a ++ b ++ x :: r') (b ++ x :: r') (Syntax p m).
Proof.
  intros H M. inversion H as [x l0 A B|x A B|x y A B C|x sg n y l0 A B C D E| |]; subst; try (destruct M; discriminate).
  - exists [], x, l0. rewrite here_app, app_nil_r. split; [reflexivity|]. split; [reflexivity|]. intros r'. cbn [app]. rewrite <- (here_app a (x :: r')). now apply xe_disabled.
  - exists (x :: sg), y, l0. split; [reflexivity|]. replace (a ++ x :: sg ++ y :: l0) with ((a ++ x :: sg) ++ y :: l0) by now rewrite <- app_assoc.
    rewrite here_app. split; [reflexivity|]. intros r'. rewrite <- (here_app (a ++ x :: sg) (y :: r')). rewrite <- app_assoc. cbn [app]. now apply (xe_no_digit c _ x sg n).
Qed.

(** the error is behind a number, and the other rules give other errors *)
Lemma component_number s t e : component_error c tu kw nums s t e -> about_exponent e -> exists n l, signed c t n l /\ number_error c s l e.
Proof.
  intros H A. destruct H; try (exfalso; other A); eauto; exfalso;
    repeat match goal with
    | H : next_error _ _ _ _ |- _ => apply next_other in H; contradiction
    | H : multi_unit_error _ _ _ _ _ |- _ => apply unit_other in H; contradiction
    | H : multi_infinity_error _ _ _ _ _ _ |- _ => apply infinity_other in H; contradiction
    end.
  - destruct H as [x B|x l e B D T]; [other A|]. now apply trailing_other in T.
  - destruct H3 as (f & w & l1 & _ & _ & _ & _ & T). now apply trailing_other in T.
  - unfold numeral_unit_error in H5. subst e. other A.
Qed.
Lemma digit_agree b x r r' : (exists k, In k b /\ is_digit k = true) -> agree (b ++ x :: r) (b ++ x :: r').
Proof. intros (k & I & K). apply in_split in I. destruct I as (u & v & ->). exists u, k, (v ++ x :: r), (v ++ x :: r'). rewrite <- !app_assoc. auto. Qed.

Definition many_final (before t : str) (p : nat) (m : str) : Prop :=
  exists b x r, t = b ++ x :: r /\ p = length (before ++ b) /\ (exists k, In k b /\ is_digit k = true) /\
    forall s r', s = before ++ b ++ x :: r' -> components_error c tu kw nums s (b ++ x :: r') (Syntax p m).
Lemma errors_final s t p m : components_error c tu kw nums s t (Syntax p m) -> exponent_message m -> forall before, s = before ++ t -> many_final before t p m.
Proof.
  intros H M. remember (Syntax p m) as e eqn:Ee. induction H as [t e H|t d r _ _ _|t d r e X SA Nr H IH]; [|discriminate|].
  - intros before Es. assert (A : about_exponent e) by (right; eauto). destruct (component_number _ _ _ H A) as (n & l & S & NE). subst e.
    apply signed_swap in S. destruct S as (sg & -> & S). destruct (number_exponent _ _ _ NE A) as (a & l2 & -> & (k & Ik & K) & N2 & XE & G).
    rewrite Es in XE. replace (before ++ sg ++ a ++ l2) with ((before ++ sg ++ a) ++ l2) in XE by now rewrite <- !app_assoc.
    destruct (exponent_same _ _ _ _ XE M) as (b & x & r & -> & -> & XF). exists (sg ++ a ++ b), x, r. split; [now rewrite <- !app_assoc|].
    split; [now rewrite <- !app_assoc|]. split; [exists k; split; [rewrite !in_app_iff; tauto|exact K]|].
    intros s' r' ->. apply c_wrong. rewrite <- !app_assoc. specialize (XF r'). rewrite <- !app_assoc in XF.
    apply (m_number c tu kw nums _ _ n (a ++ b ++ x :: r')); [apply S; apply head_app2, head_app|]. apply G; [apply head_app|]. exact XF.
  - intros before Es. specialize (IH Ee). destruct (lift_component _ _ _ X Nr) as (q & -> & L).
    destruct (IH (before ++ q)) as (b & x & r0 & -> & -> & K & F); [now rewrite Es, <- app_assoc|].
    exists (q ++ b), x, r0. split; [now rewrite <- app_assoc|]. split; [now rewrite <- app_assoc|]. split; [destruct K as (k & I & K); exists k; split; [apply in_or_app; now right|exact K]|].
    intros s' r' ->. rewrite <- app_assoc. apply (c_later c tu kw nums _ _ d (b ++ x :: r')); [apply L; now apply digit_agree|exact SA|destruct b; discriminate|].
    apply F. now rewrite <- !app_assoc.
Qed.
Lemma overflow_final s t e : components_error c tu kw nums s t e -> exponent_overflow e ->
  (exists k, In k t /\ is_digit k = true) /\ forall s' q, components_error c tu kw nums s' (t ++ q) e.
Proof.
  induction 1 as [t e H|t d r _ _ _|t d r e X SA Nr H IH]; intros E.
  - assert (A : about_exponent e) by now left. destruct (component_number _ _ _ H A) as (n & l & S & NE).
    assert (Nl : l <> []) by (destruct S; auto). apply signed_swap in S. destruct S as (sg & -> & S). destruct (number_exponent _ _ _ NE A) as (a & l2 & -> & (k & Ik & K) & _).
    split; [exists k; split; [rewrite !in_app_iff; tauto|exact K]|]. intros s' q. apply c_wrong. rewrite <- app_assoc.
    apply (m_number c tu kw nums _ _ n ((a ++ l2) ++ q)); [apply S; now apply head_more|]. now apply (number_stays c s).
  - destruct E; discriminate.
  - destruct (IH E) as ((k & I & K) & F). destruct (lift_component _ _ _ X Nr) as (a & -> & L). split; [exists k; split; [apply in_or_app; now right|exact K]|].
    intros s' q. rewrite <- app_assoc. apply (c_later c tu kw nums _ _ d (r ++ q)); [|exact SA|destruct r; [congruence|discriminate]|apply F].
    apply L. apply in_split in I. destruct I as (u & v & ->). exists u, k, v, (v ++ q). rewrite <- app_assoc. auto.
Qed.
End Many.

(** Multiple durations: an error in an exponent is the same error for every text which is the same up to and including the byte of the error. Delimiters
    and conjunctions must not contain digits. *)
Theorem C100_multiple : forall c tu kw nums s t p m, env_ok c tu kw nums -> delims_ok c kw nums -> c_allow_multiple c = true ->
  (forall x, 48 <= x <= 57 -> c_inner_delimiter c x = false /\ c_outer_delimiter c x = false) ->
  (forall l w x, c_conjunctions c = Some l -> In w l -> In x w -> ~ 48 <= x <= 57) -> utf8 s = true -> utf8 t = true ->
  parse c s tu kw nums = Err (Syntax p m) -> m = %"No exponent allowed" \/ m = %"The exponent must have at least one digit" ->
  firstn (S p) t = firstn (S p) s -> parse c t tu kw nums = Err (Syntax p m).
Proof.
  intros c tu kw nums s t p m HE DO Hm HD HC Us Ut P M T. apply C51_multiple_errors in P; auto.
  assert (HC' : forall w x, In w (conjunctions c) -> In x w -> ~ 48 <= x <= 57).
  { unfold conjunctions. destruct (c_conjunctions c) as [l|]; [|intros w x []]. intros w x. now apply HC. }
  destruct (errors_final c tu kw nums HD HC' s s p m P M [] eq_refl) as (b & x & r & -> & -> & _ & F). cbn [app] in *.
  destruct (same_start b x r t T) as (r' & ->). apply C51_multiple_errors; auto.
Qed.
Print Assumptions C100_multiple.
Theorem C100_multiple_exponent_overflow : forall c tu kw nums s r e, env_ok c tu kw nums -> delims_ok c kw nums -> c_allow_multiple c = true ->
  (forall x, 48 <= x <= 57 -> c_inner_delimiter c x = false /\ c_outer_delimiter c x = false) ->
  (forall l w x, c_conjunctions c = Some l -> In w l -> In x w -> ~ 48 <= x <= 57) -> utf8 s = true -> utf8 (s ++ r) = true ->
  e = NegativeExponentOverflow \/ e = PositiveExponentOverflow -> parse c s tu kw nums = Err e -> parse c (s ++ r) tu kw nums = Err e.
Proof.
  intros c tu kw nums s r e HE DO Hm HD HC Us Ur E P. apply C51_multiple_errors in P; auto.
  assert (HC' : forall w x, In w (conjunctions c) -> In x w -> ~ 48 <= x <= 57).
  { unfold conjunctions. destruct (c_conjunctions c) as [l|]; [|intros w x []]. intros w x. now apply HC. }
  apply C51_multiple_errors; auto. now apply (overflow_final c tu kw nums HD HC' s s e P E).
Qed.
Print Assumptions C100_multiple_exponent_overflow.

(** the standard parser, with any time units and settings *)
Theorem C100_multiple_standard : forall l ss s t p m, let q := fold_left dp_set ss (dp_with_time_units l) in let c := dp_config q in
  config_ok c -> c_allow_multiple c = true ->
  (forall x, 48 <= x <= 57 -> c_inner_delimiter c x = false /\ c_outer_delimiter c x = false) ->
  (forall l w x, c_conjunctions c = Some l -> In w l -> In x w -> ~ 48 <= x <= 57) -> utf8 s = true -> utf8 t = true ->
  dp_parse q s = Err (Syntax p m) -> m = %"No exponent allowed" \/ m = %"The exponent must have at least one digit" ->
  firstn (S p) t = firstn (S p) s -> dp_parse q t = Err (Syntax p m).
Proof.
  intros l ss s t p m q. unfold q. rewrite std_fold. unfold dp_parse. cbn [dp_config dp_units]. generalize (fold_left dp_set_config ss config_new).
  intros c HC Hm. apply C100_multiple; auto; [now apply std_set_env|apply delims_none_ok].
Qed.
Print Assumptions C100_multiple_standard.
Definition many_settings : list setting := [Set_parse_multiple true (Some [%"and"])].
Example C100_multiple_standard_example : let q := fold_left dp_set many_settings dp_new in let c := dp_config q in
  config_ok c /\ c_allow_multiple c = true /\
  (forall x, 48 <= x <= 57 -> c_inner_delimiter c x = false /\ c_outer_delimiter c x = false) /\
  (forall l w x, c_conjunctions c = Some l -> In w l -> In x w -> ~ 48 <= x <= 57) /\
  dp_parse q (%"1s and 2e+x") = Err (Syntax 10 (%"The exponent must have at least one digit")) /\
  dp_parse q (%"1s and 2e+x5s and") = Err (Syntax 10 (%"The exponent must have at least one digit")) /\
  dp_parse q (%"1s and 2e+5s") = Ok (Dur false (Std 200001 0)) /\
  dp_parse q (%"1s and 2e40000") = Err PositiveExponentOverflow /\ dp_parse q (%"1s and 2e40000s and") = Err PositiveExponentOverflow.
Proof.
  intros q c. split; [|split; [reflexivity|split; [|split; [|split; [|split; [|split; [|split]]]; reflexivity]]]].
  - split; [exact ws_ascii|]. split; [exact ws_ascii|]. intros l w [= <-] [<-|[]]. reflexivity.
  - intros x Hx. change (is_ascii_whitespace x = false /\ is_ascii_whitespace x = false). unfold is_ascii_whitespace. lia.
  - intros l w x [= <-] [<-|[]]. cbn. lia.
Qed.

(** custom parsers *)
Theorem C100_multiple_custom : forall os s t p m, let q := fold_left cp_call os cp_new in let c := cp_config q in
  calls_fit os -> calls_delims os -> c_allow_multiple c = true ->
  (forall x, 48 <= x <= 57 -> c_inner_delimiter c x = false /\ c_outer_delimiter c x = false) ->
  (forall l w x, c_conjunctions c = Some l -> In w l -> In x w -> ~ 48 <= x <= 57) -> utf8 s = true -> utf8 t = true ->
  cp_parse q s = Err (Syntax p m) -> m = %"No exponent allowed" \/ m = %"The exponent must have at least one digit" ->
  firstn (S p) t = firstn (S p) s -> cp_parse q t = Err (Syntax p m).
Proof.
  intros os s t p m q c HF HDl Hm HD HC Us Ut P M T. apply calls_delims_ok in HDl. change (delims_ok c (own_keywords os) (own_numerals os)) in HDl.
  unfold q in *. rewrite custom_parse in *. apply (C100_multiple c (own_units os) (own_keywords os) (own_numerals os) s t p m); auto. now apply own_env.
Qed.
Print Assumptions C100_multiple_custom.
Example C100_multiple_custom_example : let os := ex_calls ++ [C_set (Set_parse_multiple true None)] in let q := fold_left cp_call os cp_new in
  cp_parse q (%"next sec 1ey") = Err (Syntax 11 (%"The exponent must have at least one digit")) /\
  cp_parse q (%"next sec 1ey next sec") = Err (Syntax 11 (%"The exponent must have at least one digit")) /\
  cp_parse q (%"next sec 1e1") = Ok (Dur false (Std 11 0)).
Proof. intros os q. split; [|split]; reflexivity. Qed.

(** conjunctions with digits are excepted: here `2exy` is a conjunction *)
Theorem C100_multiple_conjunctions_refuted : exists ss s t p d, let q := fold_left dp_set ss dp_new in
  config_ok (dp_config q) /\ dp_parse q s = Err (Syntax p (%"The exponent must have at least one digit")) /\ firstn (S p) t = firstn (S p) s /\ dp_parse q t = Ok d.
Proof.
  exists [Set_parse_multiple true (Some [%"2exy"])], (%"1s 2ex"), (%"1s 2exy 3s"), 5%nat, (Dur false (Std 4 0)). cbv zeta.
  split; [|split; [reflexivity|split; reflexivity]]. split; [exact ws_ascii|]. split; [exact ws_ascii|]. intros l w [= <-] [<-|[]]. reflexivity.
Qed.
Print Assumptions C100_multiple_conjunctions_refuted.
