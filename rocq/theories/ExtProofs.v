(** * Parsing depends on the tables of units, keywords and numerals only through what they answer *)
From Verif Require Import Prelude Util Time Config Bytes Repr Parse.

Definition same_answers (a b : units_like) : Prop := u_is_empty a = u_is_empty b /\ forall id, u_get a id = u_get b id.
Definition same_answers_opt (a b : option units_like) : Prop :=
  match a, b with Some a, Some b => same_answers a b | None, None => True | _, _ => False end.
Definition same_numbers_opt (a b : option numbers_like) : Prop :=
  match a, b with Some a, Some b => forall id, a id = b id | None, None => True | _, _ => False end.

Lemma bind_ext {A B} (m : res A) (f g : A -> res B) : (forall x, f x = g x) -> bind m f = bind m g.
Proof. intros H. destruct m; cbn; auto. Qed.

Ltac ext_step := first
  [ reflexivity
  | apply bind_ext; intros
  | match goal with |- context [match ?x with _ => _ end] => destruct x; try reflexivity end ].

Section Ext.
Variables (c : config) (tu tu' : units_like) (kw kw' : option units_like) (nu nu' : option numbers_like).
Hypothesis Hu : same_answers tu tu'.
Hypothesis Hk : same_answers_opt kw kw'.
Hypothesis Hn : same_numbers_opt nu nu'.

Lemma single_unit_ext b : single_time_unit b c tu = single_time_unit b c tu'.
Proof.
  destruct Hu as [_ G]. unfold single_time_unit. apply bind_ext. intros _. destruct (c_allow_ago c).
  - apply bind_ext. intros [b1 s]. apply bind_ext. intros id. now rewrite G.
  - apply bind_ext. intros id. now rewrite G.
Qed.
Lemma multi_unit_ext b : multi_time_unit b c tu = multi_time_unit b c tu'.
Proof.
  destruct Hu as [_ G]. unfold multi_time_unit. apply bind_ext. intros _. apply bind_ext. intros [b1 s].
  destruct (is_empty s); [reflexivity|]. apply bind_ext. intros id. now rewrite G.
Qed.
Lemma single_number_unit_ext b r : single_number_time_unit b r c tu = single_number_time_unit b r c tu'.
Proof. unfold single_number_time_unit. destruct Hu as [E _]. now rewrite E, single_unit_ext. Qed.
Lemma multi_number_unit_ext b r : multi_number_time_unit b r c tu = multi_number_time_unit b r c tu'.
Proof. unfold multi_number_time_unit. destruct Hu as [E _]. now rewrite E, multi_unit_ext. Qed.
Lemma single_keyword_ext b : single_keyword b kw c = single_keyword b kw' c.
Proof.
  unfold single_keyword. destruct kw as [k|], kw' as [k'|]; try contradiction Hk; [|reflexivity].
  destruct Hk as [_ G]. apply bind_ext. intros id. now rewrite G.
Qed.
Lemma multi_keyword_ext b : multi_keyword b kw c = multi_keyword b kw' c.
Proof.
  unfold multi_keyword. destruct kw as [k|], kw' as [k'|]; try contradiction Hk; [|reflexivity].
  destruct Hk as [_ G]. apply bind_ext. intros [b1 s]. destruct (is_empty s); [reflexivity|]. apply bind_ext. intros id. now rewrite G.
Qed.
Lemma numeral_ext b : parse_numeral b nu c = parse_numeral b nu' c.
Proof.
  unfold parse_numeral. destruct nu as [k|], nu' as [k'|]; try contradiction Hn; [|reflexivity].
  cbv beta in Hn. repeat (first [rewrite Hn | ext_step]).
Qed.

Lemma template_ext {O} (T : template O) b :
  (forall b, t_parse_time_unit T b c tu = t_parse_time_unit T b c tu') ->
  (forall b r, t_parse_number_time_unit T b r c tu = t_parse_number_time_unit T b r c tu') ->
  (forall b, t_parse_keyword T b kw c = t_parse_keyword T b kw' c) ->
  template_parse T b c tu kw nu = template_parse T b c tu' kw' nu'.
Proof.
  intros H1 H2 H3.
  assert (N : forall b r, template_number T b r c tu = template_number T b r c tu').
  { intros b0 r. unfold template_number. apply bind_ext. intros [[b1 r1] g]. destruct (negb g); [reflexivity|].
    apply bind_ext. intros [[b2 r2] g2]. destruct (negb g2); [reflexivity|].
    apply bind_ext. intros [b3 g3]. destruct (negb g3); [reflexivity|]. now rewrite H2. }
  assert (M : forall b r, template_numeral T b r c tu nu = template_numeral T b r c tu' nu').
  { intros b0 r. unfold template_numeral. rewrite numeral_ext. apply bind_ext. intros [b1 [[id n]|]]; [|reflexivity].
    rewrite H1. destruct Hu as [E _]. now rewrite E. }
  unfold template_parse. destruct (cur b) as [x|]; [|reflexivity]. apply bind_ext. intros [b1 r1].
  destruct (cur b1) as [y|]; [|reflexivity]. destruct (is_digit y).
  - apply bind_ext. intros [b2 w]. apply N.
  - destruct (y =? 46); [apply N|]. destruct (negb _ && _); [reflexivity|].
    unfold template_word. rewrite H3. apply bind_ext. intros [b2 [um|]]; [reflexivity|].
    destruct (c_number_is_optional c); [|apply M]. rewrite H1. apply bind_ext. intros [b3 [um|]]; [reflexivity|apply M].
Qed.

Theorem parse_ext s : parse c s tu kw nu = parse c s tu' kw' nu'.
Proof.
  unfold parse. destruct (c_allow_multiple c).
  - unfold parse_multiple. generalize (S (length s)) as f, ZERO as d, (bytes_new s) as b.
    induction f as [|f IH]; intros d b; [reflexivity|]. cbn [multiple_loop].
    rewrite (template_ext multi b multi_unit_ext multi_number_unit_ext multi_keyword_ext).
    apply bind_ext. intros [r o]. apply bind_ext. intros p. apply bind_ext. intros d'. destruct o; [apply IH|reflexivity].
  - unfold parse_single. now rewrite (template_ext single _ single_unit_ext single_number_unit_ext single_keyword_ext).
Qed.
End Ext.
