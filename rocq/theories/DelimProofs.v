(** * Parsing depends on the delimiter functions only through what they answer *)
From Verif Require Import Prelude Util Time Config Bytes Repr Parse ExtProofs.

(** two configurations with the same fields; the delimiters give the same answer for every byte *)
Definition same_settings (c c' : config) : Prop :=
  c_default_unit c = c_default_unit c' /\ c_disable_exponent c = c_disable_exponent c' /\ c_disable_fraction c = c_disable_fraction c' /\
  c_disable_infinity c = c_disable_infinity c' /\ c_number_is_optional c = c_number_is_optional c' /\
  c_allow_multiple c = c_allow_multiple c' /\ c_conjunctions c = c_conjunctions c' /\ c_allow_negative c = c_allow_negative c' /\
  (forall x, c_inner_delimiter c x = c_inner_delimiter c' x) /\ (forall x, c_outer_delimiter c x = c_outer_delimiter c' x) /\
  c_allow_ago c = c_allow_ago c' /\ c_allow_sign_delimiter c = c_allow_sign_delimiter c' /\
  c_allow_time_unit_delimiter c = c_allow_time_unit_delimiter c'.

Lemma skip_until_ext (d d' : delimiter) : (forall x, d x = d' x) -> forall f b, skip_until f d b = skip_until f d' b.
Proof.
  intros H. induction f as [|f IH]; intros b; [reflexivity|]. cbn [skip_until].
  destruct (cur b) as [x|]; [|reflexivity]. rewrite H. destruct (d' x); [reflexivity|apply IH].
Qed.
Lemma advance_to_ext (d d' : delimiter) : (forall x, d x = d' x) -> forall b, advance_to d b = advance_to d' b.
Proof. intros H b. unfold advance_to. now rewrite (skip_until_ext d d' H). Qed.
Lemma buffered_advance_to_ext (d d' : delimiter) : (forall x, d x = d' x) -> forall b, buffered_advance_to d b = buffered_advance_to d' b.
Proof.
  intros H b. unfold buffered_advance_to. cbv zeta. rewrite (skip_until_ext d d' H).
  destruct (buffer b) as [[[p buf] [next|]]|]; [now rewrite H|reflexivity|reflexivity].
Qed.
Lemma try_consume_delimiter_ext (d d' : delimiter) : (forall x, d x = d' x) -> forall b, try_consume_delimiter d b = try_consume_delimiter d' b.
Proof.
  intros H b. unfold try_consume_delimiter. apply bind_ext. intros x. rewrite H. apply bind_ext. intros _.
  destruct (pos b =? 0)%nat; [reflexivity|].
  now rewrite (skip_until_ext (fun x => negb (d x)) (fun x => negb (d' x))) by (intros y; now rewrite H).
Qed.
Lemma conjunction_loop_ext (d d' : delimiter) : (forall x, d x = d' x) -> forall s ws b, conjunction_loop d s ws b = conjunction_loop d' s ws b.
Proof.
  intros H s. induction ws as [|w ws IH]; intros b; [reflexivity|]. cbn [conjunction_loop].
  destruct (next_is_ignore_ascii_case b w); [|apply IH]. cbv zeta. destruct (cur _) as [x|]; [|reflexivity].
  rewrite H, (try_consume_delimiter_ext d d' H). reflexivity.
Qed.
Lemma try_consume_connection_ext (d d' : delimiter) : (forall x, d x = d' x) -> forall ws b, try_consume_connection d ws b = try_consume_connection d' ws b.
Proof.
  intros H ws b. unfold try_consume_connection. apply bind_ext. intros x. rewrite H. apply bind_ext. intros _.
  rewrite (try_consume_delimiter_ext d d' H). apply bind_ext. intros b1. now apply conjunction_loop_ext.
Qed.

Lemma bind_ext2 {A B} (m m' : res A) (f g : A -> res B) : m = m' -> (forall x, f x = g x) -> bind m f = bind m' g.
Proof. intros <-. apply bind_ext. Qed.

Section Ext.
Variables (c c' : config).

Hypothesis Hi : forall x, c_inner_delimiter c x = c_inner_delimiter c' x.
Hypothesis Ho : forall x, c_outer_delimiter c x = c_outer_delimiter c' x.
Hypothesis Hu : c_default_unit c = c_default_unit c'.
Hypothesis He : c_disable_exponent c = c_disable_exponent c'.
Hypothesis Hf : c_disable_fraction c = c_disable_fraction c'.
Hypothesis Hy : c_disable_infinity c = c_disable_infinity c'.
Hypothesis Hno : c_number_is_optional c = c_number_is_optional c'.
Hypothesis Hm : c_allow_multiple c = c_allow_multiple c'.
Hypothesis Hc : c_conjunctions c = c_conjunctions c'.
Hypothesis Hn : c_allow_negative c = c_allow_negative c'.
Hypothesis Ha : c_allow_ago c = c_allow_ago c'.
Hypothesis Hs : c_allow_sign_delimiter c = c_allow_sign_delimiter c'.
Hypothesis Ht : c_allow_time_unit_delimiter c = c_allow_time_unit_delimiter c'.

Lemma consume_i b : try_consume_delimiter (c_inner_delimiter c) b = try_consume_delimiter (c_inner_delimiter c') b.
Proof. exact (try_consume_delimiter_ext _ _ Hi b). Qed.
Lemma advance_i b : advance_to (c_inner_delimiter c) b = advance_to (c_inner_delimiter c') b.
Proof. exact (advance_to_ext _ _ Hi b). Qed.
Lemma buffered_i b : buffered_advance_to (c_inner_delimiter c) b = buffered_advance_to (c_inner_delimiter c') b.
Proof. exact (buffered_advance_to_ext _ _ Hi b). Qed.
Lemma word_o b : buffered_advance_to (fun x => c_outer_delimiter c x || is_next_duration x) b = 
               buffered_advance_to (fun x => c_outer_delimiter c' x || is_next_duration x) b.
Proof. apply buffered_advance_to_ext. intros x. now rewrite Ho. Qed.
Lemma word_io b : buffered_advance_to (fun x => c_inner_delimiter c x || c_outer_delimiter c x || is_next_duration x) b = 
                buffered_advance_to (fun x => c_inner_delimiter c' x || c_outer_delimiter c' x || is_next_duration x) b.
Proof. apply buffered_advance_to_ext. intros x. now rewrite Hi, Ho. Qed.
Lemma connect_o b : connect c b = connect c' b.
Proof. unfold connect, conjunctions_or_default. rewrite Hc. apply try_consume_connection_ext, Ho. Qed.
Lemma number_delim b : parse_number_delimiter b (if c_allow_time_unit_delimiter c then Some (c_inner_delimiter c) else None) =
                     parse_number_delimiter b (if c_allow_time_unit_delimiter c' then Some (c_inner_delimiter c') else None).
Proof. rewrite Ht. destruct (c_allow_time_unit_delimiter c'); [|reflexivity]. unfold parse_number_delimiter. destruct (cur b); [|reflexivity]. now rewrite Hi, consume_i. Qed.

Ltac go := repeat first
  [ reflexivity
  | progress rewrite ?Hi, ?Ho, ?Hu, ?He, ?Hf, ?Hy, ?Hno, ?Hm, ?Hn, ?Ha, ?Hs, ?consume_i, ?advance_i, ?buffered_i, ?word_o, ?word_io, ?connect_o, ?number_delim
  | apply bind_ext2; intros
  | match goal with |- context [match ?x with _ => _ end] => destruct x; try reflexivity end ].

Lemma numeral_d b nu : parse_numeral b nu c = parse_numeral b nu c'.
Proof. unfold parse_numeral. go. Qed.
Lemma sign_d b r : parse_number_sign b r c = parse_number_sign b r c'.
Proof. unfold parse_number_sign. go. Qed.
Lemma single_unit_d b tu : single_time_unit b c tu = single_time_unit b c' tu.
Proof. unfold single_time_unit. cbv zeta. go. Qed.
Lemma single_number_unit_d b r tu : single_number_time_unit b r c tu = single_number_time_unit b r c' tu.
Proof. unfold single_number_time_unit. now rewrite single_unit_d. Qed.
Lemma multi_unit_d b tu : multi_time_unit b c tu = multi_time_unit b c' tu.
Proof. unfold multi_time_unit. cbv zeta. go. Qed.
Lemma multi_number_unit_d b r tu : multi_number_time_unit b r c tu = multi_number_time_unit b r c' tu.
Proof. unfold multi_number_time_unit. now rewrite multi_unit_d. Qed.
Lemma multi_keyword_d b kw : multi_keyword b kw c = multi_keyword b kw c'.
Proof. unfold multi_keyword. cbv zeta. go. Qed.
Lemma multi_infinity_d b r : multi_infinity_remainder b r c = multi_infinity_remainder b r c'.
Proof. unfold multi_infinity_remainder. cbv zeta. go. Qed.
Lemma multi_finalize_d b r : multi_finalize b r c = multi_finalize b r c'.
Proof. unfold multi_finalize. go. Qed.

Lemma template_d {O} (T : template O) b tu kw nu :
  (forall b, t_parse_time_unit T b c tu = t_parse_time_unit T b c' tu) ->
  (forall b r, t_parse_number_time_unit T b r c tu = t_parse_number_time_unit T b r c' tu) ->
  (forall b, t_parse_keyword T b kw c = t_parse_keyword T b kw c') ->
  (forall b r, t_parse_infinity_remainder T b r c = t_parse_infinity_remainder T b r c') ->
  (forall b r, t_finalize T b r c = t_finalize T b r c') ->
  template_parse T b c tu kw nu = template_parse T b c' tu kw nu.
Proof.
  intros H1 H2 H3 H4 H5.
  assert (N : forall b r, template_number T b r c tu = template_number T b r c' tu).
  { intros b0 r. unfold template_number. rewrite Hf. apply bind_ext. intros [[b1 r1] g]. destruct (negb g); [reflexivity|].
    rewrite He. apply bind_ext. intros [[b2 r2] g2]. destruct (negb g2); [reflexivity|].
    rewrite number_delim. apply bind_ext. intros [b3 g3]. destruct (negb g3); [reflexivity|]. rewrite H2.
    apply bind_ext. intros [[b4 r4] g4]. destruct (negb g4); [reflexivity|]. apply H5. }
  assert (M : forall b r, template_numeral T b r c tu nu = template_numeral T b r c' tu nu).
  { intros b0 r. unfold template_numeral. rewrite numeral_d. apply bind_ext. intros [b1 [[id n]|]]; [|reflexivity].
    rewrite H1. apply bind_ext. intros [b2 [um|]]; [apply H5|reflexivity]. }
  unfold template_parse. destruct (cur b) as [x|]; [|reflexivity]. 
  assert (R : repr_init c b = repr_init c' b) by (unfold repr_init; now rewrite Hu).
  rewrite R, sign_d. apply bind_ext. intros [b1 r1].
  destruct (cur b1) as [y|]; [|reflexivity]. destruct (is_digit y).
  - apply bind_ext. intros [b2 w]. apply N.
  - destruct (y =? 46); [apply N|]. rewrite Hy. destruct (negb _ && _); [apply H4|].
    unfold template_word. rewrite H3. apply bind_ext. intros [b2 [um|]]; [apply H5|]. rewrite Hno.
    destruct (c_number_is_optional c'); [|apply M]. rewrite H1. apply bind_ext. intros [b3 [um|]]; [apply H5|apply M].
Qed.

Lemma parse_same_fields s tu kw nu : parse c s tu kw nu = parse c' s tu kw nu.
Proof.
  unfold parse. rewrite Hm. destruct (c_allow_multiple c').
  - unfold parse_multiple. generalize (S (length s)) as f, ZERO as d, (bytes_new s) as b.
    induction f as [|f IH]; intros d b; [reflexivity|]. cbn [multiple_loop].
    rewrite (template_d multi b tu kw nu); try (intros; cbn [t_parse_time_unit t_parse_number_time_unit t_parse_keyword t_parse_infinity_remainder t_finalize multi]).
    + apply bind_ext. intros [r o]. apply bind_ext. intros p. rewrite Hn. apply bind_ext. intros d'. destruct o; [apply IH|reflexivity].
    + apply multi_unit_d.
    + apply multi_number_unit_d.
    + apply multi_keyword_d.
    + apply multi_infinity_d.
    + apply multi_finalize_d.
  - unfold parse_single. rewrite (template_d single _ tu kw nu), Hn; intros; [reflexivity|..]; cbn [t_parse_time_unit t_parse_number_time_unit t_parse_keyword t_parse_infinity_remainder t_finalize single];
    [apply single_unit_d|apply single_number_unit_d|reflexivity|reflexivity|reflexivity].
Qed.
End Ext.

Theorem parse_same_settings c c' s tu kw nu : same_settings c c' -> parse c s tu kw nu = parse c' s tu kw nu.
Proof. intros H. apply parse_same_fields; apply H. Qed.
