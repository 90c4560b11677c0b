(** * The timed parser computes what the parser computes *)
From Verif Require Import Prelude Util Time Config Bytes Repr Parse Cost.

Lemma er_bind {A B} (m : timed A) (f : A -> timed B) r g :
  snd m = r -> (forall a, snd (f a) = g a) -> snd (tbind m f) = bind r g.
Proof. intros <- H. unfold tbind. destruct (snd m); cbn; auto. Qed.
Lemma er_steps {A} n (m : timed A) r : snd m = r -> snd (steps n m) = r.
Proof. exact (fun H => H). Qed.
(** a step of the code which the timed parser takes in a [let^] *)
Lemma er_pure {A B} (m : timed A) (f : A -> timed B) a r :
  snd m = Ok a -> snd (f a) = r -> snd (tbind m f) = r.
Proof. intros H1 H2. unfold tbind. rewrite H1. exact H2. Qed.

Create HintDb er.
Ltac er1 :=
  lazymatch goal with
  | |- snd (now ?r) = ?r' => reflexivity
  | |- snd (steps _ _) = _ => apply er_steps
  | |- snd (tbind (next_is_t ?b ?w) ?f) = _ =>
      apply (@er_pure _ _ _ _ (next_is_ignore_ascii_case b w)); [reflexivity|cbn beta]
  | |- snd (tbind (u_get_t ?b ?w) ?f) = _ => apply (@er_pure _ _ _ _ (u_get b w)); [reflexivity|cbn beta]
  | |- snd (tbind (numeral_get_t ?b ?w) ?f) = _ => apply (@er_pure _ _ _ _ (b w)); [reflexivity|cbn beta]
  | |- snd (tbind ?m ?f) = bind ?r ?g => apply er_bind; [|intros ?]
  | |- snd (match ?x with _ => _ end) = match ?x with _ => _ end => destruct x eqn:?
  | |- snd (if ?x then _ else _) = if ?x then _ else _ => destruct x eqn:?
  end.
Ltac er := repeat (cbn beta iota zeta; first [er1 | solve [eauto with er nocore]]).

Lemma skip_until_er stop fuel : forall b, snd (skip_until_t fuel stop b) = skip_until fuel stop b.
Proof. induction fuel; intros; cbn [skip_until_t skip_until]; er. Qed.
#[local] Hint Resolve skip_until_er : er.
Lemma advance_to_er d b : snd (advance_to_t d b) = advance_to d b.
Proof. unfold advance_to_t, advance_to. er. Qed.
Lemma buffered_er d b : snd (buffered_advance_to_t d b) = buffered_advance_to d b.
Proof. unfold buffered_advance_to_t, buffered_advance_to. er. Qed.
Lemma get_remainder_er b : snd (get_remainder_str_t b) = get_remainder_str b.
Proof. reflexivity. Qed.
Lemma get_remainder_copy_er b : snd (get_remainder_copy_t b) = get_remainder_str_unchecked b.
Proof. reflexivity. Qed.
#[local] Hint Resolve advance_to_er buffered_er get_remainder_er get_remainder_copy_er : er.
Lemma strip_loop8_er fuel : forall st sp b, snd (strip_loop8_t fuel st sp b) = strip_loop8 fuel st sp b.
Proof. induction fuel; intros; cbn [strip_loop8_t strip_loop8]; er. Qed.
Lemma strip_loop1_er fuel : forall st sp b, snd (strip_loop1_t fuel st sp b) = strip_loop1 fuel st sp b.
Proof. induction fuel; intros; cbn [strip_loop1_t strip_loop1]; er. Qed.
Lemma digits_loop8_er fuel : forall b, snd (digits_loop8_t fuel b) = digits_loop8 fuel b.
Proof. induction fuel; intros; cbn [digits_loop8_t digits_loop8]; er. Qed.
Lemma digits_loop1_er fuel : forall b, snd (digits_loop1_t fuel b) = digits_loop1 fuel b.
Proof. induction fuel; intros; cbn [digits_loop1_t digits_loop1]; er. Qed.
#[local] Hint Resolve strip_loop8_er strip_loop1_er digits_loop8_er digits_loop1_er : er.
Lemma strip_zeros_er b : snd (parse_digits_strip_zeros_t b) = parse_digits_strip_zeros b.
Proof. unfold parse_digits_strip_zeros_t, parse_digits_strip_zeros. er. Qed.
Lemma parse_digits_er b : snd (parse_digits_t b) = parse_digits b.
Proof. unfold parse_digits_t, parse_digits. er. Qed.
Lemma check_end_er b : snd (check_end_of_input_t b) = check_end_of_input b.
Proof. unfold check_end_of_input_t, check_end_of_input. er. Qed.
Lemma consume_er d b : snd (try_consume_delimiter_t d b) = try_consume_delimiter d b.
Proof. unfold try_consume_delimiter_t, try_consume_delimiter. er. Qed.
#[local] Hint Resolve strip_zeros_er parse_digits_er check_end_er consume_er : er.

Lemma whole_chunks_er cs : forall s, snd (whole_chunks_t s cs) = whole_chunks s cs.
Proof. induction cs; intros; cbn [whole_chunks_t whole_chunks]; er. Qed.
Lemma whole_digits_er cs : forall s, snd (whole_digits_t s cs) = whole_digits s cs.
Proof. induction cs; intros; cbn [whole_digits_t whole_digits]; er. Qed.
#[local] Hint Resolve whole_chunks_er whole_digits_er : er.
Lemma whole_slice_er s d : snd (whole_parse_slice_t s d) = whole_parse_slice s d.
Proof. unfold whole_parse_slice_t, whole_parse_slice. er. Qed.
#[local] Hint Resolve whole_slice_er : er.
Lemma whole_parse_er d a z : snd (whole_parse_t d a z) = whole_parse d a z.
Proof. unfold whole_parse_t, whole_parse. er. Qed.
Lemma fract_chunks_er cs : forall s, snd (fract_chunks_t s cs) = fract_chunks s cs.
Proof. induction cs; intros; cbn [fract_chunks_t fract_chunks]; er. Qed.
Lemma fract_digits_er cs : forall s, snd (fract_digits_t s cs) = fract_digits s cs.
Proof. induction cs; intros; cbn [fract_digits_t fract_digits]; er. Qed.
#[local] Hint Resolve whole_parse_er fract_chunks_er fract_digits_er : er.
Lemma fract_slice_er a m d : snd (fract_parse_slice_t a m d) = fract_parse_slice a m d.
Proof. unfold fract_parse_slice_t, fract_parse_slice. er. Qed.
#[local] Hint Resolve fract_slice_er : er.
Lemma fract_parse_er d p z : snd (fract_parse_t d p z) = fract_parse d p z.
Proof. unfold fract_parse_t, fract_parse. er. Qed.
#[local] Hint Resolve fract_parse_er : er.
Lemma split_number_er d e w f : snd (split_number_t d e w f) = split_number d e w f.
Proof. unfold split_number_t, split_number. er. Qed.
#[local] Hint Resolve split_number_er : er.
Lemma repr_parse_er r : snd (repr_parse_t r) = repr_parse r.
Proof. unfold repr_parse_t, repr_parse. er. Qed.
#[local] Hint Resolve repr_parse_er : er.

Lemma parse_numeral_er b n c : snd (parse_numeral_t b n c) = parse_numeral b n c.
Proof. unfold parse_numeral_t, parse_numeral. er. Qed.
Lemma number_sign_er b r c : snd (parse_number_sign_t b r c) = parse_number_sign b r c.
Proof. unfold parse_number_sign_t, parse_number_sign. er. Qed.
Lemma fraction_er b r d : snd (parse_number_fraction_t b r d) = parse_number_fraction b r d.
Proof. unfold parse_number_fraction_t, parse_number_fraction, parse_fract. er. Qed.
Lemma exponent_loop_er fuel : forall n e b, snd (exponent_loop_t fuel n e b) = exponent_loop fuel n e b.
Proof. induction fuel; intros; cbn [exponent_loop_t exponent_loop]; er. Qed.
#[local] Hint Resolve exponent_loop_er : er.
Lemma parse_exponent_er b : snd (parse_exponent_t b) = parse_exponent b.
Proof. unfold parse_exponent_t, parse_exponent. er. Qed.
#[local] Hint Resolve parse_exponent_er : er.
Lemma number_exponent_er b r d : snd (parse_number_exponent_t b r d) = parse_number_exponent b r d.
Proof. unfold parse_number_exponent_t, parse_number_exponent. er. Qed.
Lemma number_delimiter_er b d : snd (parse_number_delimiter_t b d) = parse_number_delimiter b d.
Proof. unfold parse_number_delimiter_t, parse_number_delimiter. er. Qed.
#[local] Hint Resolve parse_numeral_er number_sign_er fraction_er number_exponent_er number_delimiter_er : er.

(** the methods of the two implementations *)
Definition same_template {O} (T : template_t O) (T' : template O) : Prop :=
  (forall b r, tt_make_output T b r = t_make_output T' b r) /\
  (forall b r c, snd (tt_parse_infinity_remainder T b r c) = t_parse_infinity_remainder T' b r c) /\
  (forall b k c, snd (tt_parse_keyword T b k c) = t_parse_keyword T' b k c) /\
  (forall b c u, snd (tt_parse_time_unit T b c u) = t_parse_time_unit T' b c u) /\
  (forall b r c u, snd (tt_parse_number_time_unit T b r c u) = t_parse_number_time_unit T' b r c u) /\
  (forall b r c, snd (tt_finalize T b r c) = t_finalize T' b r c).
Lemma template_number_er {O} T T' b r c u : @same_template O T T' ->
  snd (template_number_t T b r c u) = template_number T' b r c u.
Proof.
  intros (Ha & Hb & Hc & Hd & He & Hf). unfold template_number_t, template_number.
  repeat (cbn beta iota zeta; first [er1 | rewrite Ha; reflexivity | solve [eauto with er nocore]]).
Qed.
Lemma template_numeral_er {O} T T' b r c u n : @same_template O T T' ->
  snd (template_numeral_t T b r c u n) = template_numeral T' b r c u n.
Proof. intros (Ha & Hb & Hc & Hd & He & Hf). unfold template_numeral_t, template_numeral. er. Qed.
Lemma template_word_er {O} T T' b r c u k n : @same_template O T T' ->
  snd (template_word_t T b r c u k n) = template_word T' b r c u k n.
Proof.
  intros H. pose proof (fun b r => template_numeral_er T T' b r c u n H). destruct H as (Ha & Hb & Hc & Hd & He & Hf).
  unfold template_word_t, template_word. er.
Qed.
Lemma template_er {O} T T' b c u k n : @same_template O T T' ->
  snd (template_parse_t T b c u k n) = template_parse T' b c u k n.
Proof.
  intros H. pose proof (fun b r => template_word_er T T' b r c u k n H).
  pose proof (fun b r => template_number_er T T' b r c u H). destruct H as (Ha & Hb & Hc & Hd & He & Hf).
  unfold template_parse_t, template_parse, parse_whole. er.
  destruct (negb (c_disable_infinity c)); cbn [andb].
  - er.
  - apply (@er_pure _ _ _ _ false); [reflexivity|]. er.
Qed.

Lemma infinity_single_er w : forall b, snd (infinity_loop_single_t w b) = infinity_loop_single w b.
Proof. induction w; intros; cbn [infinity_loop_single_t infinity_loop_single]; er. Qed.
#[local] Hint Resolve infinity_single_er : er.
Lemma single_time_unit_er b c u : snd (single_time_unit_t b c u) = single_time_unit b c u.
Proof. unfold single_time_unit_t, single_time_unit. er. Qed.
#[local] Hint Resolve single_time_unit_er : er.
Lemma single_same : same_template single_t single.
Proof.
  repeat split; intros; cbn [single_t single tt_make_output tt_parse_infinity_remainder tt_parse_keyword
    tt_parse_time_unit tt_parse_number_time_unit tt_finalize t_make_output t_parse_infinity_remainder t_parse_keyword
    t_parse_time_unit t_parse_number_time_unit t_finalize].
  - unfold single_infinity_remainder_t, single_infinity_remainder. er.
  - unfold single_keyword_t, single_keyword. er.
  - er.
  - unfold single_number_time_unit_t, single_number_time_unit. er.
  - unfold single_finalize_t, single_finalize. er.
Qed.

Lemma conjunction_er d st ws : forall b, snd (conjunction_loop_t d st ws b) = conjunction_loop d st ws b.
Proof. induction ws; intros; cbn [conjunction_loop_t conjunction_loop]; er. Qed.
#[local] Hint Resolve conjunction_er : er.
Lemma connect_er c b : snd (connect_t c b) = connect c b.
Proof. unfold connect_t, connect, try_consume_connection_t, try_consume_connection. er. Qed.
#[local] Hint Resolve connect_er : er.
Lemma infinity_multi_er st w : forall b, snd (infinity_loop_multi_t st w b) = infinity_loop_multi st w b.
Proof. induction w; intros; cbn [infinity_loop_multi_t infinity_loop_multi]; er. Qed.
#[local] Hint Resolve infinity_multi_er : er.
Lemma multi_time_unit_er b c u : snd (multi_time_unit_t b c u) = multi_time_unit b c u.
Proof. unfold multi_time_unit_t, multi_time_unit. er. Qed.
#[local] Hint Resolve multi_time_unit_er : er.
Lemma multi_same : same_template multi_t multi.
Proof.
  repeat split; intros; cbn [multi_t multi tt_make_output tt_parse_infinity_remainder tt_parse_keyword
    tt_parse_time_unit tt_parse_number_time_unit tt_finalize t_make_output t_parse_infinity_remainder t_parse_keyword
    t_parse_time_unit t_parse_number_time_unit t_finalize].
  - unfold multi_infinity_remainder_t, multi_infinity_remainder. er.
  - unfold multi_keyword_t, multi_keyword. er.
  - er.
  - unfold multi_number_time_unit_t, multi_number_time_unit. er.
  - unfold multi_finalize_t, multi_finalize. er.
Qed.
Lemma multiple_loop_er c u k n fuel : forall d b,
  snd (multiple_loop_t fuel c u k n d b) = multiple_loop fuel c u k n d b.
Proof.
  induction fuel; intros; cbn [multiple_loop_t multiple_loop]; er.
  apply template_er, multi_same.
Qed.
Theorem parse_t_result c s u k n : snd (parse_t c s u k n) = parse c s u k n.
Proof.
  unfold parse_t, parse, parse_multiple_t, parse_multiple, parse_single_t, parse_single. er.
  - apply multiple_loop_er.
  - apply template_er, single_same.
Qed.
