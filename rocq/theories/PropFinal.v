(** * Property C100: a syntax error does not depend on what follows *)
From Verif Require Import Prelude Util Time Config Bytes Repr Parse SpecTime SpecNum SpecParse SpecValue SpecGrammar SpecErrors SpecSpelling SpecTexts.
From Verif Require Import SpellProofs SafeProofs RefProofs Standard StandardProofs Custom PropModes PropErrors PropTexts PropPrefix PropStandard PropSettings PropCustomText PropCustomTexts ExEnv.

(** [a] and [b] start with the same byte *)
Definition same_head (a b : str) : Prop := match a, b with x :: _, y :: _ => x = y | _, _ => False end.

Lemma head_app a x r r' : same_head (a ++ x :: r) (a ++ x :: r').
Proof. destruct a; reflexivity. Qed.
Lemma head_app2 a r r' : same_head r r' -> same_head (a ++ r) (a ++ r').
Proof. destruct a; [auto|reflexivity]. Qed.
Lemma head_not p a b : same_head a b -> starts_not p a -> starts_not p b.
Proof. destruct a, b; cbn; try tauto. now intros ->. Qed.
Lemma head_ne a b : same_head a b -> b <> [].
Proof. destruct a, b; cbn; try tauto. discriminate. Qed.
Lemma span_swap p l a r r' : span p l a r -> same_head r r' -> span p (a ++ r') a r'.
Proof. intros (_ & A & B) H. split; [reflexivity|]. split; [exact A|]. now apply (head_not p r). Qed.

Section Final.
Context (c : config) (tu : units_like) (kw : option units_like) (nums : option numbers_like).

Lemma signed_swap s n l : signed c s n l -> exists a, s = a ++ l /\ forall l', same_head l l' -> signed c (a ++ l') n l'.
Proof.
  destruct 1 as [l A B|x l r A B C D|x l ds r A B C D].
  - exists []. split; [reflexivity|]. intros l' H. apply unsigned; [now apply (head_not _ l)|now apply head_ne in H].
  - exists [x]. subst l. split; [reflexivity|]. intros l' H. apply (with_sign c x l' l'); auto. now apply head_ne in H.
  - exists (x :: ds). split; [destruct C as (-> & _); reflexivity|]. intros l' H. apply (with_sign_delimiter c x (ds ++ l') ds l'); auto; [|now apply head_ne in H].
    now apply (span_swap _ _ _ _ _ C).
Qed.
Lemma fraction_swap l F r : fraction c l F r -> exists a, l = a ++ r /\ forall r', same_head r r' -> fraction c (a ++ r') F r'.
Proof.
  destruct 1 as [l A|l F r A B].
  - exists []. split; [reflexivity|]. intros r' H. apply no_fraction. now apply (head_not _ l).
  - exists (46 :: F). split; [destruct B as (-> & _); reflexivity|]. intros r' H. apply (some_fraction c (F ++ r')); auto. now apply (span_swap _ _ _ _ _ B).
Qed.
Lemma exponent_swap l x r : exponent c l x r -> exists a, l = a ++ r /\ forall r', same_head r r' -> exponent c (a ++ r') x r'.
Proof.
  destruct 1 as [l A|y sg n l ds r e A B C D E F G].
  - exists []. split; [reflexivity|]. intros r' H. apply no_exponent. now apply (head_not _ l).
  - exists (y :: sg ++ ds). split; [destruct D as (-> & _); cbn; now rewrite <- app_assoc|]. intros r' H. cbn. rewrite <- app_assoc.
    apply (some_exponent c y sg n (ds ++ r') ds r' e); auto. now apply (span_swap _ _ _ _ _ D).
Qed.
Lemma delimiter_swap l r : r <> [] -> unit_delimiter c l r -> exists a, l = a ++ r /\ forall r', same_head r r' -> unit_delimiter c (a ++ r') r'.
Proof.
  intros N. destruct 1 as [l A|l ds r A B C].
  - exists []. split; [reflexivity|]. intros r' H. now apply no_unit_delimiter.
  - exists ds. split; [destruct B as (-> & _); reflexivity|]. intros r' H. apply (some_unit_delimiter c (ds ++ r') ds r'); auto; [now apply (span_swap _ _ _ _ _ B)|].
    right. now apply head_ne in H.
Qed.
Lemma number_swap l W F x r : r <> [] -> number c l W F x r -> exists a, l = a ++ r /\ forall r', same_head r r' -> number c (a ++ r') W F x r'.
Proof.
  intros N (l1 & l2 & l3 & A & B & C & D & E).
  apply (delimiter_swap l3 r N) in D. destruct D as (a4 & -> & D). apply exponent_swap in C. destruct C as (a3 & -> & C).
  apply fraction_swap in B. destruct B as (a2 & -> & B). pose proof A as (-> & _).
  exists (W ++ a2 ++ a3 ++ a4). split; [now rewrite <- !app_assoc|]. intros r' H. rewrite <- !app_assoc.
  exists (a2 ++ a3 ++ a4 ++ r'), (a3 ++ a4 ++ r'), (a4 ++ r'). split; [apply (span_swap _ _ _ _ _ A); now repeat apply head_app2|].
  split; [apply B; now repeat apply head_app2|]. split; [apply C; now apply head_app2|]. split; [now apply D|exact E].
Qed.

(** the two messages which do depend on what follows the position of the error *)
Definition looks_ahead (m : str) : Prop :=
  m = %"Input may not end with a delimiter" \/ m = %"Either the whole number part or the fraction must be present".

Lemma here_app a l : here (a ++ l) l = length a.
Proof. unfold here. rewrite app_length. lia. Qed.
Lemma here_end s : here s [] = length s.
Proof. unfold here. cbn. lia. Qed.

(** the error [E] of the text [a ++ l] in [l] is at a byte [x] of [l], and does not depend on what follows *)
Definition fixed (E : str -> str -> parse_error -> Prop) (a l : str) (p : nat) : Prop :=
  exists b x r, l = b ++ x :: r /\ p = length (a ++ b) /\ forall r', exists m', E (a ++ b ++ x :: r') (b ++ x :: r') (Syntax p m').

Ltac no_look H := exfalso; apply H; unfold looks_ahead; auto.
Lemma trailing_looks s d l p m : trailing s d l (Syntax p m) -> looks_ahead m.
Proof. intros (_ & _ & [= _ ->]). now left. Qed.

Lemma fraction_fixed W a l p m : fraction_error c (a ++ l) W l (Syntax p m) -> ~ looks_ahead m -> fixed (fun s => fraction_error c s W) a l p.
Proof.
  intros H N. inversion H as [l0 A B C|l0 A A1 B C D]; subst; [|exfalso; apply N; now right].
  exists [], 46, l0. rewrite here_app, app_nil_r. split; [reflexivity|]. split; [reflexivity|]. intros r'. cbn [app].
  exists (%"No fraction allowed"). rewrite <- (here_app a (46 :: r')). now apply fe_disabled.
Qed.
Lemma exponent_fixed a l p m : exponent_error c (a ++ l) l (Syntax p m) -> (p < length (a ++ l))%nat -> fixed (exponent_error c) a l p.
Proof.
  intros H L. inversion H; subst; try (rewrite here_end in L; lia).
  - exists [], x, l0. rewrite here_app, app_nil_r. split; [reflexivity|]. split; [reflexivity|]. intros r'. cbn [app].
    exists (%"No exponent allowed"). rewrite <- (here_app a (x :: r')). now apply xe_disabled.
  - exists (x :: sg), y, l0. split; [reflexivity|]. replace (a ++ x :: sg ++ y :: l0) with ((a ++ x :: sg) ++ y :: l0) by now rewrite <- app_assoc.
    rewrite here_app. split; [reflexivity|]. intros r'. exists (%"The exponent must have at least one digit").
    rewrite <- (here_app (a ++ x :: sg) (y :: r')). rewrite <- app_assoc. cbn [app]. now apply (xe_no_digit c _ x sg n).
Qed.
Lemma number_fixed a l p m : number_error c (a ++ l) l (Syntax p m) -> (p < length (a ++ l))%nat -> ~ looks_ahead m -> fixed (number_error c) a l p.
Proof.
  intros H L N. destruct H as [W l1 A B|W l1 F l2 A B C D|W l1 F l2 x l3 A B C D E F0].
  - pose proof A as (-> & _). rewrite app_assoc in B. apply fraction_fixed in B; [|exact N]. destruct B as (b & x & r & -> & -> & B).
    exists (W ++ b), x, r. split; [now rewrite <- app_assoc|]. split; [now rewrite app_assoc|]. intros r'. destruct (B r') as (m' & B'). exists m'.
    rewrite <- !app_assoc in *. apply (ne_fraction c _ _ _ W (b ++ x :: r')); [|exact B']. apply (span_swap _ _ _ _ _ A), head_app.
  - pose proof A as (-> & _). apply fraction_swap in B. destruct B as (f & -> & B).
    replace (a ++ W ++ f ++ l2) with ((a ++ W ++ f) ++ l2) in D by now rewrite <- !app_assoc. apply exponent_fixed in D; [|now rewrite <- !app_assoc].
    destruct D as (b & x & r & -> & -> & D). exists (W ++ f ++ b), x, r. split; [now rewrite <- !app_assoc|]. split; [now rewrite <- !app_assoc|].
    intros r'. destruct (D r') as (m' & D'). exists m'. rewrite <- !app_assoc in *.
    apply (ne_exponent c _ _ _ W (f ++ b ++ x :: r') F (b ++ x :: r')); auto; [|apply B, head_app].
    apply (span_swap _ _ _ _ _ A). apply head_app2, head_app.
  - apply trailing_looks in F0. contradiction.
Qed.
Lemma infinity_fixed w : forall a l p m, single_infinity_error (a ++ l) w l (Syntax p m) -> (p < length (a ++ l))%nat -> fixed (fun s => single_infinity_error s w) a l p.
Proof.
  induction w as [|y w IH]; intros a l p m H L; inversion H as [x0 y0 w0 l0 e0 Q1 Q2 K1 K2 K3|y0 w0 K1 K2|x0 y0 w0 l0 Q1 K1 K2|l0 e0 Q1 K1 K2]; subst.
  - destruct Q1 as [N E]. destruct l as [|x l]; [congruence|]. injection E as -> _. exists [], x, l. rewrite here_app, app_nil_r.
    split; [reflexivity|]. split; [reflexivity|]. intros r'. eexists. apply sie_more. split; [discriminate|]. cbn [app]. now rewrite here_app.
  - replace (a ++ x0 :: l0) with ((a ++ [x0]) ++ l0) in * by now rewrite <- app_assoc.
    destruct (IH _ _ _ _ Q2 L) as (b & z & r & -> & -> & G). exists (x0 :: b), z, r. split; [reflexivity|]. split; [rewrite !app_length; cbn; lia|].
    intros r'. destruct (G r') as (m' & G'). exists m'. cbn [app]. apply sie_next; [exact Q1|].
    replace (a ++ x0 :: b ++ z :: r') with ((a ++ [x0]) ++ b ++ z :: r') by now rewrite <- app_assoc. exact G'.
  - rewrite here_end in L. lia.
  - exists [], x0, l0. rewrite here_app, app_nil_r. split; [reflexivity|]. split; [reflexivity|]. intros r'. eexists. cbn [app].
    rewrite <- (here_app a (x0 :: r')). now apply sie_wrong.
Qed.

(** keywords are words: the inner delimiters do not occur in them *)
Definition keywords_are_words : Prop :=
  forall k id x, kw = Some k -> u_get k id <> None -> In x id -> c_inner_delimiter c x = false.

(** the text behind a time unit and `ago` *)
Lemma unit_fixed a l p m : single_unit_error c tu (a ++ l) l (Syntax p m) -> ~ looks_ahead m ->
  exists b x r, l = b ++ x :: r /\ p = length (a ++ b) /\ (exists y, In y b /\ c_inner_delimiter c y = true) /\ (3 <= length b)%nat /\ c_allow_ago c = true /\
  forall r', exists m', single_unit_error c tu (a ++ b ++ x :: r') (b ++ x :: r') (Syntax p m').
Proof.
  intros H N. destruct H as [w l1 A B C D E|w l1 ds o r A B C D E G K]; [apply trailing_looks in E; contradiction|].
  pose proof B as (-> & _ & B3). pose proof E as (-> & E2 & E3). destruct G as (v & -> & Gv). destruct K as [K1 K2].
  destruct r as [|x r]; [congruence|]. exists (w ++ ds ++ v), x, r. split; [now rewrite <- !app_assoc|].
  replace (a ++ w ++ ds ++ v ++ x :: r) with ((a ++ w ++ ds ++ v) ++ x :: r) in K2 by now rewrite <- !app_assoc.
  rewrite here_app in K2. injection K2 as -> _. split; [reflexivity|].
  assert (V : v <> []) by (intros ->; discriminate Gv).
  assert (Hd : ds <> []). { intros ->. cbn [app] in B3, E3. destruct v as [|v0 v]; [congruence|]. cbn in B3, E3. rewrite E3 in B3. discriminate. }
  split. { destruct ds as [|y ds]; [congruence|]. exists y. split; [|apply E2; now left]. rewrite !in_app_iff. right. left. now left. }
  split. { apply nocase_len in Gv. change (length (%"ago")) with 3%nat in Gv. rewrite !app_length. lia. }
  split; [exact A|].
  intros r'. eexists. rewrite <- !app_assoc. apply (sue_ago c tu _ _ _ w (ds ++ v ++ x :: r') ds (v ++ x :: r') (x :: r')); auto.
  - apply (span_swap _ _ _ _ _ B). apply head_app2, head_app.
  - apply (span_swap _ _ _ _ _ E). apply head_app.
  - exists v. auto.
  - split; [discriminate|]. rewrite <- (here_app (a ++ w ++ ds ++ v) (x :: r')). now rewrite <- !app_assoc.
Qed.

(** no time unit (with or without `ago`) in front of the delimiters [ds]: this is clear from the three bytes behind them *)
Lemma no_unit_swap s t w ds b x r r' : c_allow_ago c = true ->
  until (c_inner_delimiter c) (w ++ ds ++ b ++ x :: r) w (ds ++ b ++ x :: r) -> w <> [] ->
  span (c_inner_delimiter c) (ds ++ b ++ x :: r) ds (b ++ x :: r) -> ds <> [] -> (3 <= length b)%nat ->
  no_single_unit c tu s (w ++ ds ++ b ++ x :: r) -> no_single_unit c tu t (w ++ ds ++ b ++ x :: r').
Proof.
  intros HA A W B D L [N _].
  assert (A' : until (c_inner_delimiter c) (w ++ ds ++ b ++ x :: r') w (ds ++ b ++ x :: r')) by (apply (span_swap _ _ _ _ _ A), head_app2, head_app).
  assert (B' : span (c_inner_delimiter c) (ds ++ b ++ x :: r') ds (b ++ x :: r')) by (apply (span_swap _ _ _ _ _ B), head_app).
  assert (K : forall w1 l1 ds1 o q, until (c_inner_delimiter c) (w ++ ds ++ b ++ x :: r') w1 l1 -> u_get tu w1 <> None -> span (c_inner_delimiter c) l1 ds1 o ->
    word_prefix (%"ago") o q -> False).
  { intros w1 l1 ds1 o q H1 H2 H3 (v & H4 & H5). destruct (span_det _ _ _ _ _ _ A' H1) as [<- <-]. destruct (span_det _ _ _ _ _ _ B' H3) as [<- <-].
    apply N. apply (sul_ago c tu _ w (ds ++ b ++ x :: r) ds (b ++ x :: r) (skipn 3 b ++ x :: r)); auto.
    exists v. split; [|exact H5]. apply nocase_len in H5. change (length (%"ago")) with 3%nat in H5.
    assert (E : v = firstn 3 b).
    { apply (f_equal (firstn 3)) in H4. rewrite !firstn_app, (proj2 (Nat.sub_0_le 3 (length b)) L), H5, Nat.sub_diag, !firstn_O, !app_nil_r in H4.
      rewrite (firstn_all2 v) in H4 by lia. now symmetry. }
    subst v. now rewrite app_assoc, firstn_skipn. }
  split.
  - intros H. inversion H as [l Q|l Q Q1 Q2|l w1 l1 ds1 o q Q Q1 Q2 Q3 Q4 Q5]; subst; [congruence| |now apply (K w1 l1 ds1 o q)].
    destruct Q2 as (_ & Q2 & _). destruct ds as [|y ds]; [congruence|]. destruct B as (_ & B & _). specialize (Q2 y). rewrite (B y (or_introl eq_refl)) in Q2.
    discriminate Q2. apply in_or_app. right. now left.
  - intros (e & H). destruct H as [w1 l1 Q Q1 Q2 Q3 Q4|w1 l1 ds1 o q Q Q1 Q2 Q3 Q4 Q5 Q6]; [|now apply (K w1 l1 ds1 o q)].
    destruct (span_det _ _ _ _ _ _ A' Q1) as [<- <-]. destruct Q4 as (_ & Q4 & _). destruct B' as (_ & _ & B'). destruct b as [|y b]; [cbn in L; lia|]. cbn in B'.
    rewrite (Q4 y) in B'; [discriminate|]. apply in_or_app. right. now left.
Qed.

Lemma not_keyword l x : keywords_are_words -> In x l -> c_inner_delimiter c x = true -> forall u m, ~ single_keyword_is kw l u m.
Proof. intros K I D u m (k & E & G). rewrite (K k l x E) in D; [discriminate| |exact I]. congruence. Qed.

Lemma word_swap b x r r' : (3 <= length b)%nat -> word c (b ++ x :: r) -> word c (b ++ x :: r').
Proof.
  intros L (A & B & C). pose proof (head_app b x r r') as H. split; [now apply (head_not _ _ _ H)|]. split; [now apply (head_not _ _ _ H)|].
  intros D (q & v & E & Ev). apply (C D). exists (skipn 3 b ++ x :: r), v. split; [|exact Ev].
  apply nocase_len in Ev. change (length (%"inf")) with 3%nat in Ev.
  assert (G : v = firstn 3 b).
  { apply (f_equal (firstn 3)) in E. rewrite !firstn_app, (proj2 (Nat.sub_0_le 3 (length b)) L), Ev, Nat.sub_diag, !firstn_O, !app_nil_r in E.
    rewrite (firstn_all2 v) in E by lia. now symmetry. }
  subst v. now rewrite app_assoc, firstn_skipn.
Qed.

Lemma single_fixed s p m : keywords_are_words -> single_error c tu kw nums s (Syntax p m) -> (p < length s)%nat -> ~ looks_ahead m ->
  exists a x r, s = a ++ x :: r /\ p = length a /\ forall r', exists m', single_error c tu kw nums (a ++ x :: r') (Syntax p m').
Proof.
  intros KW H L N. inversion H; subst.
  - inversion H0; subst; [rewrite here_end in L; lia|]. match goal with X : trailing _ _ _ _ |- _ => apply trailing_looks in X end. contradiction.
  - apply signed_swap in H0. destruct H0 as (a & -> & S). apply number_fixed in H1; auto. destruct H1 as (b & x & r & -> & -> & G).
    exists (a ++ b), x, r. split; [now rewrite <- app_assoc|]. split; [reflexivity|]. intros r'. destruct (G r') as (m' & G'). exists m'.
    rewrite <- app_assoc. apply (s_number c tu kw nums _ n (b ++ x :: r')); [|exact G']. apply S, head_app.
  - apply signed_swap in H0. destruct H0 as (a & -> & S). apply number_swap in H1; [|exact H2]. destruct H1 as (a2 & -> & Nu).
    rewrite app_assoc in H4. apply unit_fixed in H4; [|exact N]. destruct H4 as (b & y & q & -> & -> & _ & _ & _ & G).
    exists (a ++ a2 ++ b), y, q. split; [now rewrite <- !app_assoc|]. split; [now rewrite <- !app_assoc|]. intros r'. destruct (G r') as (m' & G'). exists m'.
    rewrite <- !app_assoc in *. apply (s_unit c tu kw nums _ n (a2 ++ b ++ y :: r') W F x (b ++ y :: r')); auto.
    + apply S, head_app2, head_app.
    + apply Nu, head_app.
    + destruct b; discriminate.
  - apply signed_swap in H0. destruct H0 as (a & -> & S). destruct H2 as (v & -> & Hv). rewrite app_assoc in H4, L.
    apply infinity_fixed in H4; [|exact L]. destruct H4 as (b & x & q & -> & -> & G). exists (a ++ v ++ b), x, q.
    split; [now rewrite <- !app_assoc|]. split; [now rewrite <- !app_assoc|]. intros r'. destruct (G r') as (m' & G'). exists m'.
    rewrite <- !app_assoc in *. apply (s_infinity c tu kw nums _ n (v ++ b ++ x :: r') (b ++ x :: r')); auto.
    + apply S, head_app2, head_app.
    + now exists v.
    + destruct b; discriminate.
  - apply signed_swap in H0. destruct H0 as (a & -> & S). apply unit_fixed in H4; [|exact N]. destruct H4 as (b & x & q & -> & -> & (y & I & D) & L3 & _ & G).
    exists (a ++ b), x, q. split; [now rewrite <- app_assoc|]. split; [reflexivity|]. intros r'. destruct (G r') as (m' & G'). exists m'.
    rewrite <- app_assoc. apply (s_word_unit c tu kw nums _ n (b ++ x :: r')); auto.
    + apply S, head_app.
    + now apply (word_swap b x q).
    + apply (not_keyword _ y KW); auto. apply in_or_app. now left.
  - destruct H4 as (f & w & l1 & _ & _ & _ & _ & T). apply trailing_looks in T. contradiction.
  - apply signed_swap in H0. destruct H0 as (a & -> & S). destruct H4 as (f & l1 & ds & Q1 & Q2 & Q3 & Q4 & Q5 & Q6 & Q7).
    pose proof Q2 as (-> & _). pose proof Q5 as (-> & _). replace (a ++ w ++ ds ++ r) with ((a ++ w ++ ds) ++ r) in H5 by now rewrite <- !app_assoc.
    apply unit_fixed in H5; [|exact N]. destruct H5 as (b & x & q & -> & -> & (y & I & D) & L3 & HA & G).
    exists (a ++ w ++ ds ++ b), x, q. split; [now rewrite <- !app_assoc|]. split; [now rewrite <- !app_assoc|]. intros r'. destruct (G r') as (m' & G'). exists m'.
    rewrite <- !app_assoc in *. apply (s_numeral_unit c tu kw nums _ n (w ++ ds ++ b ++ x :: r') w (b ++ x :: r')); auto.
    + apply S, head_app2, head_app2, head_app.
    + replace (w ++ ds ++ b ++ x :: r') with ((w ++ ds ++ b) ++ x :: r') by now rewrite <- !app_assoc. apply (word_swap _ x q); [rewrite !app_length; lia|now rewrite <- !app_assoc].
    + apply (not_keyword _ y KW); auto. rewrite !in_app_iff. auto.
    + intros O. specialize (H3 O). revert H3. now apply no_unit_swap.
    + exists f, (ds ++ b ++ x :: r'), ds. split; [exact Q1|]. split; [apply (span_swap _ _ _ _ _ Q2), head_app2, head_app|]. split; [exact Q3|]. split; [exact Q4|].
      split; [apply (span_swap _ _ _ _ _ Q5), head_app|]. split; [exact Q6|]. destruct b; discriminate.
  - destruct H5 as [? ?]; discriminate.
Qed.

Lemma more_digits l ds q r : span is_digit l ds q -> exists ds' q', span is_digit (l ++ r) ds' q' /\ dval ds <= dval ds'.
Proof.
  intros (-> & A & B). destruct q as [|y q].
  - destruct (span_exists is_digit r) as (d2 & q2 & (-> & C & D)). exists (ds ++ d2), q2. rewrite app_nil_r. split.
    + split; [now rewrite app_assoc|]. split; [|exact D]. intros x Hx. apply in_app_iff in Hx. destruct Hx; auto.
    + assert (G : forall l, (forall x, In x l -> is_digit x = true) -> digit_string l) by (intros l K x Hx; specialize (K x Hx); unfold is_digit in K; lia).
      rewrite NumProofs.dval_app. pose proof (NumProofs.dval_nonneg ds (G ds A)). pose proof (NumProofs.dval_nonneg d2 (G d2 C)). nia.
  - exists ds, (y :: q ++ r). split; [|lia]. split; [now rewrite <- app_assoc|]. split; [exact A|exact B].
Qed.
Definition exponent_overflow (e : parse_error) : Prop := e = NegativeExponentOverflow \/ e = PositiveExponentOverflow.
Lemma exponent_stays s t l e r : exponent_error c s l e -> exponent_overflow e -> l <> [] /\ exponent_error c t (l ++ r) e.
Proof.
  intros H [->| ->]; inversion H as [| | | |x l0 ds q A B C D|x sg l0 ds q A B B1 C D]; subst; (split; [discriminate|]);
    destruct (more_digits _ _ _ r C) as (ds' & q' & C' & D'); cbn [app].
  - apply (xe_negative c t x (l0 ++ r) ds' q'); auto. lia.
  - rewrite <- app_assoc. apply (xe_positive c t x sg (l0 ++ r) ds' q'); auto. lia.
Qed.
Lemma head_more l r : l <> [] -> same_head l (l ++ r).
Proof. destruct l; [congruence|reflexivity]. Qed.
Lemma number_stays s t l e r : number_error c s l e -> exponent_overflow e -> number_error c t (l ++ r) e.
Proof.
  intros H E. destruct H as [W l1 A B|W l1 F l2 A B C D|W l1 F l2 x l3 A B C D X T].
  - inversion B; subst; destruct E; discriminate.
  - destruct (exponent_stays s t _ _ r D E) as [NE D']. apply fraction_swap in B. destruct B as (f & -> & B). pose proof A as (-> & _).
    rewrite <- !app_assoc. apply (ne_exponent c t _ e W (f ++ l2 ++ r) F (l2 ++ r)); auto.
    + apply (span_swap _ _ _ _ _ A). apply head_app2. now apply head_more.
    + apply B. now apply head_more.
  - destruct T as (_ & _ & ->). destruct E; discriminate.
Qed.
Lemma unit_error_syntax s l e : single_unit_error c tu s l e -> exponent_overflow e -> False.
Proof. intros [w l1 A B C D (_ & _ & ->)|w l1 ds o q A B C D X Y (_ & ->)] [K|K]; discriminate. Qed.
Lemma infinity_error_syntax s w : forall l e, single_infinity_error s w l e -> exponent_overflow e -> False.
Proof. induction 1 as [| | |l e (_ & ->)]; auto; intros [K|K]; discriminate. Qed.

Lemma overflow_stays s e r : single_error c tu kw nums s e -> exponent_overflow e -> single_error c tu kw nums (s ++ r) e.
Proof.
  intros H E. destruct H; try (destruct E; discriminate).
  - destruct H as [x A|x l e A B (_ & _ & ->)]; destruct E; discriminate.
  - assert (Nl : l <> []) by (destruct H; auto). apply signed_swap in H. destruct H as (a & -> & S).
    rewrite <- app_assoc. apply (s_number c tu kw nums _ n (l ++ r)); [apply S; now apply head_more|]. now apply (number_stays (a ++ l)).
  - exfalso. eauto using unit_error_syntax.
  - exfalso. eauto using infinity_error_syntax.
  - exfalso. eauto using unit_error_syntax.
  - destruct H3 as (f & w & l1 & _ & _ & _ & _ & _ & _ & ->). destruct E; discriminate.
  - exfalso. eauto using unit_error_syntax.
  - unfold numeral_unit_error in H5. subst e. destruct E; discriminate.
Qed.
End Final.

(** ** The theorems *)
(** If the parser of a single duration reports a syntax error at a byte of the input, then it reports a syntax error at this byte for every text which
    is the same up to and including this byte. Excepted are the two messages of [looks_ahead]. *)
Theorem C100_what_follows_does_not_matter : forall c tu kw nums s t p m, env_ok c tu kw nums -> c_allow_multiple c = false -> keywords_are_words c kw ->
  utf8 s = true -> utf8 t = true -> parse c s tu kw nums = Err (Syntax p m) -> (p < length s)%nat ->
  m <> %"Input may not end with a delimiter" -> m <> %"Either the whole number part or the fraction must be present" ->
  firstn (S p) t = firstn (S p) s -> exists m', parse c t tu kw nums = Err (Syntax p m').
Proof.
  intros c tu kw nums s t p m HE Hm KW Us Ut P L M1 M2 T. apply C51_single_errors in P; auto.
  assert (N : ~ looks_ahead m) by (intros [K|K]; auto). destruct (single_fixed c tu kw nums s p m KW P L N) as (a & x & r & -> & -> & G).
  replace (a ++ x :: r) with ((a ++ [x]) ++ r) in T by now rewrite <- app_assoc.
  replace (S (length a)) with (length (a ++ [x])) in T by (rewrite app_length; cbn; lia).
  rewrite (firstn_app (length (a ++ [x])) (a ++ [x])), Nat.sub_diag, firstn_O, app_nil_r, firstn_all in T.
  destruct (G (skipn (length (a ++ [x])) t)) as (m' & G'). exists m'. apply C51_single_errors; auto.
  rewrite <- (firstn_skipn (length (a ++ [x])) t), T, <- app_assoc. exact G'.
Qed.
Print Assumptions C100_what_follows_does_not_matter.

(** An exponent which is too large stays too large *)
Theorem C100_exponent_overflow_is_final : forall c tu kw nums s r e, env_ok c tu kw nums -> c_allow_multiple c = false -> utf8 s = true -> utf8 (s ++ r) = true ->
  e = NegativeExponentOverflow \/ e = PositiveExponentOverflow -> parse c s tu kw nums = Err e -> parse c (s ++ r) tu kw nums = Err e.
Proof.
  intros c tu kw nums s r e HE Hm Us Ur E P. apply C51_single_errors; auto. apply C51_single_errors in P; auto. now apply overflow_stays.
Qed.
Print Assumptions C100_exponent_overflow_is_final.

Lemma plain_keywords c tu kw nums : plain_env c tu kw nums -> keywords_are_words c kw.
Proof. intros PE k id x Ek Gk I. destruct (pe_keywords _ _ _ _ PE k id Ek Gk) as [P _]. unfold plain_word in P. destruct P as [_ P]. now apply P. Qed.
(** With C86: the position of such an error is the length of the longest part of the input which can be continued to an acceptable text *)
Theorem C100_longest_beginning : forall c tu kw nums s p m, env_ok c tu kw nums -> plain_env c tu kw nums -> c_allow_multiple c = false ->
  utf8 s = true -> (exists id, utf8 id = true /\ u_get tu id <> None) \/ (c_allow_time_unit_delimiter c = false /\ nums = None) ->
  let run := fun text => parse c text tu kw nums in
  run s = Err (Syntax p m) -> (p < length s)%nat ->
  m <> %"Input may not end with a delimiter" -> m <> %"Either the whole number part or the fraction must be present" ->
  forall k, (k <= length s)%nat -> beginning run (firstn k s) <-> (k <= p)%nat.
Proof.
  intros c tu kw nums s p m HE PE Hm U UN run P L M1 M2 k Hk. pose proof (plain_keywords c tu kw nums PE) as KW. split.
  - intros (r & Ur & H). destruct (Nat.le_gt_cases k p) as [Q|Q]; [exact Q|exfalso].
    destruct (C100_what_follows_does_not_matter c tu kw nums s (firstn k s ++ r) p m) as (m' & E); auto.
    + rewrite firstn_app, firstn_firstn, firstn_length. replace (Nat.min (S p) k) with (S p) by lia. replace (S p - Nat.min k (length s))%nat with 0%nat by lia.
      now rewrite firstn_O, app_nil_r.
    + unfold run in H. rewrite E in H. destruct H as [(d & H)|H]; discriminate.
  - intros Q. destruct (C86_in_front_of_errors c tu kw nums s HE PE Hm U UN) as [A _]. destruct (A p m (or_introl P)) as [_ (r & Ur & H)].
    exists (skipn k (firstn p s) ++ r).
    assert (E : firstn k s ++ skipn k (firstn p s) ++ r = firstn p s ++ r).
    { rewrite app_assoc. f_equal. rewrite <- (firstn_skipn k (firstn p s)) at 2. f_equal. rewrite firstn_firstn. f_equal. lia. }
    rewrite E. split; [exact Ur|exact H].
Qed.
Print Assumptions C100_longest_beginning.

(** the standard parser, with any time units and settings *)
Theorem C100_standard : forall l ss s t p m, let q := fold_left dp_set ss (dp_with_time_units l) in
  config_ok (dp_config q) -> c_allow_multiple (dp_config q) = false -> utf8 s = true -> utf8 t = true ->
  dp_parse q s = Err (Syntax p m) -> (p < length s)%nat ->
  m <> %"Input may not end with a delimiter" -> m <> %"Either the whole number part or the fraction must be present" ->
  firstn (S p) t = firstn (S p) s -> exists m', dp_parse q t = Err (Syntax p m').
Proof.
  intros l ss s t p m q. unfold q. rewrite std_fold. unfold dp_parse. cbn [dp_config dp_units]. generalize (fold_left dp_set_config ss config_new).
  intros c HC Hm. apply C100_what_follows_does_not_matter; auto; [now apply std_set_env|discriminate].
Qed.
Print Assumptions C100_standard.
(** `1.5e+x` and everything which starts with it, whatever time units there are *)
Example C100_standard_example : dp_parse dp_new (%"1.5e+xs") = Err (Syntax 5 (%"The exponent must have at least one digit")) /\
  dp_parse dp_new (%"1.5e+x20ms") = Err (Syntax 5 (%"The exponent must have at least one digit")) /\
  dp_parse dp_new (%"infinityx") = Err (Syntax 8 (%"Expected end of input but found: 'x'")) /\
  dp_parse dp_new (%"infinityxyz") = Err (Syntax 8 (%"Expected end of input but found: 'xyz'")) /\
  dp_parse dp_new (%"1e40000") = Err PositiveExponentOverflow /\ dp_parse dp_new (%"1e40000s") = Err PositiveExponentOverflow.
Proof. split; [|split; [|split; [|split; [|split]]]]; reflexivity. Qed.
(** the two messages which are excepted *)
Example C100_looks_ahead_example : let p := dp_set dp_new (Set_allow_time_unit_delimiter true) in
  dp_parse p (%".x") = Err (Syntax 0 (%"Either the whole number part or the fraction must be present")) /\ dp_parse p (%".5s") = Ok (Dur false (Std 0 500000000)) /\
  dp_parse p (%"1 ") = Err (Syntax 1 (%"Input may not end with a delimiter")) /\ dp_parse p (%"1 s") = Ok (Dur false (Std 1 0)).
Proof. intros p. split; [|split; [|split]]; reflexivity. Qed.

(** custom parsers *)
Theorem C100_custom : forall os s t p m, let q := fold_left cp_call os cp_new in let c := cp_config q in
  calls_fit os -> c_allow_multiple c = false -> (forall id x, keyword_id os id -> In x id -> c_inner_delimiter c x = false) ->
  utf8 s = true -> utf8 t = true -> cp_parse q s = Err (Syntax p m) -> (p < length s)%nat ->
  m <> %"Input may not end with a delimiter" -> m <> %"Either the whole number part or the fraction must be present" ->
  firstn (S p) t = firstn (S p) s -> exists m', cp_parse q t = Err (Syntax p m').
Proof.
  intros os s t p m q c HF Hm KW Us Ut P L M1 M2 T. unfold q in *. rewrite custom_parse in *.
  apply (C100_what_follows_does_not_matter c (own_units os) (own_keywords os) (own_numerals os) s t p m); auto; [now apply own_env|].
  intros k id x E G I. apply (KW id x); [|exact I]. apply own_keyword. exists k. split; [exact E|]. exact G.
Qed.
Print Assumptions C100_custom.

(** the keywords must be words: here the keyword `s agox` makes a text acceptable at whose beginning an error is reported *)
Theorem C100_keywords_refuted : exists os s t p m d, let q := fold_left cp_call os cp_new in
  calls_fit os /\ cp_parse q s = Err (Syntax p m) /\ firstn (S p) t = firstn (S p) s /\ (p < length s)%nat /\
  m = (%"Expected end of input but found: 'x'") /\ cp_parse q t = Ok d.
Proof.
  exists [C_time_unit (CTU Second (Mul 1 0) [%"s"]); C_keyword (CTU Day (Mul 1 0) [%"s agoxy"]); C_set (Set_allow_ago true); C_set (Set_number_is_optional true)],
    (%"s agox"), (%"s agoxy"), 5%nat, (%"Expected end of input but found: 'x'"), (Dur false (Std 86400 0)).
  cbv zeta. split; [|split; [reflexivity|split; [reflexivity|split; [cbn; lia|split; reflexivity]]]]. constructor.
  - intros t H. cbn in H. destruct H as [<-|[]]. exists Second, [%"s"], None. split; [reflexivity|discriminate].
  - intros t H. cbn in H. destruct H as [<-|[]]. exists Day, [%"s agoxy"], None. split; [reflexivity|discriminate].
  - intros n u [].
  - split; [exact ws_ascii|]. split; [exact ws_ascii|discriminate].
Qed.
Print Assumptions C100_keywords_refuted.
Example C100_custom_example : let os := ex_calls ++ [C_set (Set_allow_ago true)] in let q := fold_left cp_call os cp_new in
  (forall id x, keyword_id os id -> In x id -> c_inner_delimiter (cp_config q) x = false) /\
  cp_parse q (%"next sec ago!") = Err (Syntax 12 (%"Expected end of input but found: '!'")) /\
  cp_parse q (%"next sec ago!1") = Err (Syntax 12 (%"Expected end of input but found: '!1'")) /\
  cp_parse q (%"next sec ago") = Ok (Dur true (Std 1 0)).
Proof.
  intros os q. split; [|split; [|split]; reflexivity].
  intros id x (u & m & _ & k & K1 & _ & K2) I. cbn in K1. destruct K1 as [<-|[]]. cbn in K2. destruct K2 as [<-|[<-|[]]]; revert x I; each.
Qed.
Example C100_longest_beginning_example : forall k, (k <= 6)%nat ->
  beginning (dp_parse (dp_with_time_units [Second; Minute])) (firstn k (%"1.5e+x")) <-> (k <= 5)%nat.
Proof.
  intros k. change (dp_parse (dp_with_time_units [Second; Minute])) with (fun text => parse config_new text (std_units (units_with [Second; Minute])) None None).
  apply (C100_longest_beginning config_new (std_units (units_with [Second; Minute])) None None (%"1.5e+x") 5 (%"The exponent must have at least one digit")).
  - apply std_set_env. exact config_new_ok.
  - apply plain_standard; [exact config_new_ok|]. intros x H. change (is_ascii_whitespace x = true) in H. unfold is_ascii_whitespace in H. lia.
  - reflexivity.
  - reflexivity.
  - left. exists (%"s"). split; [reflexivity|discriminate].
  - reflexivity.
  - cbn. lia.
  - discriminate.
  - discriminate.
Qed.
