(** * str::trim *)
From Verif Require Import Prelude Time SpecTime SpecNum PropText Utf8Proofs Examples SpecExamples.

Lemma white_cases ch : In ch white_characters ->
  (exists x, ch = [x] /\ white1 x = true) \/ (exists x y, ch = [x; y] /\ white2 x y = true) \/ (exists x y z, ch = [x; y; z] /\ white3 x y z = true).
Proof.
  intros H. repeat (destruct H as [<-|H]; [eauto 10|]); [..|contradiction]; try (left; eexists; split; reflexivity);
    try (right; left; eexists; eexists; split; reflexivity); right; right; eexists; eexists; eexists; split; reflexivity.
Qed.
Lemma white1_in x : white1 x = true -> In [x] white_characters.
Proof.
  unfold white1, inb. intros H. assert (D : x = 32 \/ x = 9 \/ x = 10 \/ x = 11 \/ x = 12 \/ x = 13) by lia.
  repeat destruct D as [->|D]; try subst x; cbn; tauto.
Qed.
Lemma white2_in x y : white2 x y = true -> In [x; y] white_characters.
Proof. unfold white2. intros H. assert (D : x = 194 /\ (y = 133 \/ y = 160)) by lia. destruct D as [-> [->| ->]]; cbn; tauto. Qed.
Lemma white3_in x y z : white3 x y z = true -> In [x; y; z] white_characters.
Proof.
  unfold white3, inb. intros H.
  assert (D : x = 225 /\ y = 154 /\ z = 128 \/ x = 226 /\ y = 128 /\ (z = 128 \/ z = 129 \/ z = 130 \/ z = 131 \/ z = 132 \/ z = 133 \/ z = 134 \/ z = 135 \/ z = 136 \/ z = 137 \/ z = 138 \/ z = 168 \/ z = 169 \/ z = 175)
    \/ x = 226 /\ y = 129 /\ z = 159 \/ x = 227 /\ y = 128 /\ z = 128) by lia.
  destruct D as [(-> & -> & ->)|[(-> & -> & D)|[(-> & -> & ->)|(-> & -> & ->)]]]; [cbn; tauto| |cbn; tauto|cbn; tauto].
  repeat destruct D as [->|D]; try subst z; cbn; tauto.
Qed.
Lemma white_disjoint : (forall x y, white1 x = true -> white2 x y = false) /\ (forall x y z, white1 x = true -> white3 x y z = false) /\ (forall x y z, white2 x y = true -> white3 x y z = false) /\
  (forall x y, white1 y = true -> white2 x y = false) /\ (forall x y z, white1 z = true -> white3 x y z = false) /\ (forall x y z, white2 y z = true -> white3 x y z = false).
Proof. unfold white1, white2, white3, inb. repeat split; lia. Qed.

(** an induction over one, two and three bytes *)
Lemma three_ind (P : str -> Prop) : P [] -> (forall x l, P l -> (forall y l', l = y :: l' -> P l') -> (forall y z l', l = y :: z :: l' -> P l') -> P (x :: l)) -> forall l, P l.
Proof.
  intros H0 H1 l. enough (P l /\ (forall y l', l = y :: l' -> P l') /\ (forall y z l', l = y :: z :: l' -> P l')) by tauto.
  induction l as [|x l (I1 & I2 & I3)]; [repeat split; try discriminate; exact H0|].
  split; [now apply H1|]. split; [intros y l' [= -> ->]; exact I1|]. intros y z l' [= -> E]. eapply I2; eauto.
Qed.
Lemma start_none l : (forall ch r, In ch white_characters -> l <> ch ++ r) -> str_trim_start l = l.
Proof.
  intros H. destruct l as [|x l]; [reflexivity|]. cbn [str_trim_start].
  destruct (white1 x) eqn:E1; [destruct (H [x] l (white1_in x E1)); reflexivity|]. destruct l as [|y l]; [reflexivity|].
  destruct (white2 x y) eqn:E2; [destruct (H [x; y] l (white2_in x y E2)); reflexivity|]. destruct l as [|z l]; [reflexivity|].
  destruct (white3 x y z) eqn:E3; [destruct (H [x; y; z] l (white3_in x y z E3)); reflexivity|reflexivity].
Qed.
Lemma start_char ch l : In ch white_characters -> str_trim_start (ch ++ l) = str_trim_start l.
Proof.
  intros H. destruct (white_cases ch H) as [(x & -> & E)|[(x & y & -> & E)|(x & y & z & -> & E)]]; cbn [app str_trim_start].
  - now rewrite E.
  - destruct (white1 x) eqn:E1; [rewrite (proj1 white_disjoint x y E1) in E; discriminate|]. now rewrite E.
  - destruct (white1 x) eqn:E1; [rewrite (proj1 (proj2 white_disjoint) x y z E1) in E; discriminate|].
    destruct (white2 x y) eqn:E2; [rewrite (proj1 (proj2 (proj2 white_disjoint)) x y z E2) in E; discriminate|]. now rewrite E.
Qed.
Lemma start_text w l : white_text w -> str_trim_start (w ++ l) = str_trim_start l.
Proof. induction 1 as [|ch w H _ IH]; [reflexivity|]. now rewrite <- app_assoc, start_char. Qed.
Lemma start_split l : exists w, white_text w /\ l = w ++ str_trim_start l /\ forall ch r, In ch white_characters -> str_trim_start l <> ch ++ r.
Proof.
  revert l. apply three_ind.
  - exists []. split; [constructor|]. split; [reflexivity|]. intros ch r H E. symmetry in E. apply app_eq_nil in E. destruct E as [-> _]. cbn in H. intuition discriminate.
  - intros x l I1 I2 I3. cbn [str_trim_start]. destruct (white1 x) eqn:E1.
    { destruct I1 as (w & W & E & N). exists ([x] ++ w). split; [constructor; [now apply white1_in|exact W]|]. split; [cbn; congruence|exact N]. }
    assert (K : forall ll, ll = x :: l -> (forall y l', l = y :: l' -> white2 x y = false) -> (forall y z l', l = y :: z :: l' -> white3 x y z = false) ->
      exists w, white_text w /\ x :: l = w ++ ll /\ forall ch r, In ch white_characters -> ll <> ch ++ r).
    { intros ll -> G2 G3. exists []. split; [constructor|]. split; [reflexivity|]. intros ch r H E.
      destruct (white_cases ch H) as [(a & -> & E')|[(a & b & -> & E')|(a & b & d & -> & E')]]; cbn in E; injection E as -> E.
      - congruence.
      - rewrite (G2 b r) in E' by exact E. discriminate.
      - rewrite (G3 b d r) in E' by exact E. discriminate. }
    destruct l as [|y l]; [apply K; [reflexivity|discriminate|discriminate]|].
    destruct (white2 x y) eqn:E2.
    { destruct (I2 y l eq_refl) as (w & W & E & N). exists ([x; y] ++ w). split; [constructor; [now apply white2_in|exact W]|]. split; [cbn; congruence|exact N]. }
    destruct l as [|z l]; [apply K; [reflexivity|intros ? ? [= -> _]; exact E2|discriminate]|].
    destruct (white3 x y z) eqn:E3.
    { destruct (I3 y z l eq_refl) as (w & W & E & N). exists ([x; y; z] ++ w). split; [constructor; [now apply white3_in|exact W]|]. split; [cbn; congruence|exact N]. }
    apply K; [reflexivity|intros ? ? [= -> _]; exact E2|intros ? ? ? [= -> -> _]; exact E3].
Qed.

(** the other end *)
Lemma white_text_app a b : white_text a -> white_text b -> white_text (a ++ b).
Proof. induction 1 as [|ch s H _ IH]; intros W; [exact W|]. rewrite <- app_assoc. constructor; auto. Qed.
Lemma white_one ch : In ch white_characters -> white_text ch.
Proof. intros H. rewrite <- (app_nil_r ch). constructor; [exact H|constructor]. Qed.
Lemma rev_none l : (forall ch r, In ch white_characters -> l <> r ++ ch) -> rev (rev_trim_start (rev l)) = l.
Proof.
  intros H. rewrite <- (rev_involutive l) in H |- * at 2. generalize dependent (rev l). clear l. intros l H. f_equal.
  destruct l as [|x l]; [reflexivity|]. cbn [rev_trim_start].
  destruct (white1 x) eqn:E1; [destruct (H [x] (rev l) (white1_in x E1)); reflexivity|]. destruct l as [|y l]; [reflexivity|].
  destruct (white2 y x) eqn:E2; [destruct (H [y; x] (rev l) (white2_in y x E2)); cbn [rev]; now rewrite <- app_assoc|]. destruct l as [|z l]; [reflexivity|].
  destruct (white3 z y x) eqn:E3; [destruct (H [z; y; x] (rev l) (white3_in z y x E3)); cbn [rev]; now rewrite <- !app_assoc|reflexivity].
Qed.
Lemma rev_split l : exists w, white_text w /\ l = rev (rev_trim_start (rev l)) ++ w /\ forall ch r, In ch white_characters -> rev (rev_trim_start (rev l)) <> r ++ ch.
Proof.
  rewrite <- (rev_involutive l). generalize (rev l). clear l. intros l. rewrite rev_involutive. revert l. apply three_ind.
  - exists []. split; [constructor|]. split; [reflexivity|]. intros ch r H E. symmetry in E. apply app_eq_nil in E. destruct E as [_ ->]. cbn in H. intuition discriminate.
  - intros x l I1 I2 I3. cbn [rev_trim_start]. destruct (white1 x) eqn:E1.
    { destruct I1 as (w & W & E & N). exists (w ++ [x]). split; [apply white_text_app; [exact W|now apply white_one, white1_in]|]. split; [|exact N]. cbn [rev]. now rewrite E, <- app_assoc at 1. }
    assert (K : forall ll, ll = x :: l -> (forall y l', l = y :: l' -> white2 y x = false) -> (forall y z l', l = y :: z :: l' -> white3 z y x = false) ->
      exists w, white_text w /\ rev (x :: l) = rev ll ++ w /\ forall ch r, In ch white_characters -> rev ll <> r ++ ch).
    { intros ll -> G2 G3. exists []. split; [constructor|]. split; [now rewrite app_nil_r|]. intros ch r H E. apply (f_equal (@rev byte)) in E. rewrite rev_involutive, rev_app_distr in E.
      destruct (white_cases ch H) as [(a & -> & E')|[(a & b & -> & E')|(a & b & d & -> & E')]]; cbn in E; injection E as -> E.
      - congruence.
      - rewrite (G2 a (rev r)) in E' by exact E. discriminate.
      - rewrite (G3 b a (rev r)) in E' by exact E. discriminate. }
    destruct l as [|y l]; [apply K; [reflexivity|discriminate|discriminate]|].
    destruct (white2 y x) eqn:E2.
    { destruct (I2 y l eq_refl) as (w & W & E & N). exists (w ++ [y; x]). split; [apply white_text_app; [exact W|now apply white_one, white2_in]|]. split; [|exact N]. cbn [rev]. now rewrite E, <- !app_assoc at 1. }
    destruct l as [|z l]; [apply K; [reflexivity|intros ? ? [= -> _]; exact E2|discriminate]|].
    destruct (white3 z y x) eqn:E3.
    { destruct (I3 y z l eq_refl) as (w & W & E & N). exists (w ++ [z; y; x]). split; [apply white_text_app; [exact W|now apply white_one, white3_in]|]. split; [|exact N]. cbn [rev]. now rewrite E, <- !app_assoc at 1. }
    apply K; [reflexivity|intros ? ? [= -> _]; exact E2|intros ? ? ? [= -> -> _]; exact E3].
Qed.

Lemma trims_str_trim s : trims s (str_trim s).
Proof.
  destruct (start_split s) as (w1 & W1 & E1 & N1). unfold str_trim. set (t := str_trim_start s) in *. destruct (rev_split t) as (w2 & W2 & E2 & N2).
  set (t' := rev (rev_trim_start (rev t))) in *. exists w1, w2. split; [congruence|]. split; [exact W1|]. split; [exact W2|]. intros ch r H. split; [|now apply N2].
  intros E. apply (N1 ch (r ++ w2) H). rewrite E2, E, <- app_assoc. reflexivity.
Qed.
(** a text has only one trimmed text if it is valid UTF-8 *)
Lemma utf8_cut_lead a x b : utf8 (a ++ x :: b) = true -> cont x = false -> utf8 a = true /\ utf8 (x :: b) = true.
Proof.
  intros H Hx. remember (a ++ x :: b) as l eqn:E. revert a E.
  apply (utf8_ind (fun l => forall a, l = a ++ x :: b -> utf8 a = true /\ utf8 (x :: b) = true)) with (l := l); [| |exact H].
  - intros [|? ?] E; discriminate.
  - clear l H. intros ch rest H1 H2 IH a E. destruct a as [|y a].
    + split; [reflexivity|]. cbn in E. rewrite <- E, uchar_app by exact H1. exact H2.
    + assert (T : forall z r, ch = z :: r -> forall q, In q r -> cont q = true).
      { unfold uchar, cont, inb in H1. intros z r -> q Hq. destruct r as [|r1 [|r2 [|r3 [|? ?]]]]; try discriminate; cbn in Hq; unfold cont, inb; repeat destruct Hq as [<-|Hq]; try contradiction; lia. }
      destruct ch as [|z ch]; [discriminate|]. injection E as <- E. specialize (T z ch eq_refl).
      assert (P : exists a', a = ch ++ a' /\ rest = a' ++ x :: b).
      { clear - E T Hx. revert a E. induction ch as [|c ch IH]; intros a E; cbn in E; [exists a; auto|].
        destruct a as [|c' a]; cbn in E; injection E as E1 E2.
        - subst c. rewrite (T x (or_introl eq_refl)) in Hx. discriminate.
        - subst c'. destruct (IH (fun y Hy => T y (or_intror Hy)) a E2) as (a' & -> & ->). exists a'. auto. }
      destruct P as (a' & -> & E'). destruct (IH a' E') as [I1 I2]. split; [|exact I2].
      change (z :: ch ++ a') with ((z :: ch) ++ a'). now rewrite uchar_app.
Qed.
Lemma white_lead ch : In ch white_characters -> uchar ch = true /\ exists x r, ch = x :: r /\ cont x = false.
Proof. intros H. repeat (destruct H as [<-|H]; [split; [reflexivity|eexists; eexists; split; reflexivity]|]). contradiction. Qed.
Lemma utf8_white w : white_text w -> utf8 w = true.
Proof. induction 1 as [|ch w H _ IH]; [reflexivity|]. rewrite uchar_app; [exact IH|]. now apply white_lead. Qed.
Lemma utf8_strip_end a w : white_text w -> utf8 (a ++ w) = true -> utf8 a = true.
Proof.
  intros [|ch w' H _] U; [now rewrite app_nil_r in U|]. destruct (white_lead ch H) as (_ & x & r & -> & C). exact (proj1 (utf8_cut_lead a x (r ++ w') U C)).
Qed.
Lemma trims_utf8 s t : utf8 s = true -> trims s t -> utf8 t = true.
Proof.
  intros U (w1 & w2 & -> & W1 & W2 & _). rewrite utf8_app in U by now apply utf8_white. exact (utf8_strip_end t w2 W2 U).
Qed.
Lemma str_trim_utf8 s : utf8 s = true -> utf8 (str_trim s) = true.
Proof. intros U. exact (trims_utf8 s _ U (trims_str_trim s)). Qed.

(** white space in front of it, behind it *)
Lemma rev_text l w : white_text w -> utf8 l = true -> rev_trim_start (rev (l ++ w)) = rev_trim_start (rev l).
Proof.
  intros W. revert l. induction W as [|ch w H _ IH]; intros l U; [now rewrite app_nil_r|]. rewrite app_assoc, IH by (rewrite utf8_app by exact U; rewrite <- (app_nil_r ch), uchar_app; [reflexivity|now apply white_lead]).
  rewrite rev_app_distr. destruct (white_cases ch H) as [(x & -> & E)|[(x & y & -> & E)|(x & y & z & -> & E)]]; cbn [rev app rev_trim_start].
  - now rewrite E.
  - destruct (white1 y) eqn:E1; [rewrite (proj1 (proj2 (proj2 (proj2 white_disjoint))) x y E1) in E; discriminate|]. now rewrite E.
  - destruct (white1 z) eqn:E1; [rewrite (proj1 (proj2 (proj2 (proj2 (proj2 white_disjoint)))) x y z E1) in E; discriminate|].
    destruct (white2 y z) eqn:E2; [rewrite (proj2 (proj2 (proj2 (proj2 (proj2 white_disjoint)))) x y z E2) in E; discriminate|]. now rewrite E.
Qed.
Lemma trims_is s t : utf8 s = true -> trims s t -> t = str_trim s.
Proof.
  intros U T. pose proof (trims_utf8 s t U T) as Ut. destruct T as (w1 & w2 & -> & W1 & W2 & N). unfold str_trim. rewrite start_text by exact W1.
  destruct t as [|x t].
  - cbn [app]. rewrite <- (app_nil_r w2), start_text by exact W2. reflexivity.
  - assert (Eq : str_trim_start ((x :: t) ++ w2) = (x :: t) ++ w2).
    { apply start_none. intros ch r H E. symmetry in E. apply app_eq_app in E. destruct E as (l & [[E1 E2]|[E1 E2]]).
      - destruct (white_lead ch H) as (Uc & y & q & -> & C). destruct l as [|z l]; [rewrite app_nil_r in E1; apply (proj1 (N (y :: q) [] H)); rewrite app_nil_r; congruence|].
        (* the white space behind begins within the character *)
        assert (Cz : cont z = true).
        { cbn [app] in E1. injection E1 as <- E1. subst q. unfold uchar, cont, inb in Uc. clear - Uc. destruct t as [|t1 [|t2 [|t3 [|? ?]]]]; destruct l as [|l1 [|l2 [|l3 ?]]]; cbn [app] in Uc; try discriminate; unfold cont, inb; lia. }
        destruct W2 as [|c2 w2 H2 _]; [destruct r; discriminate|]. destruct (white_lead c2 H2) as (_ & x2 & r2 & -> & C2). cbn [app] in E2. injection E2 as -> _. congruence.
      - apply (proj1 (N ch l H)). exact E1. }
    rewrite Eq, rev_text by auto. symmetry. apply rev_none. intros ch r H. now apply N.
Qed.
