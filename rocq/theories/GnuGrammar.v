(** * The gnu parser: the reference parser accepts the relative times, and computes their amounts *)
From Verif Require Import Prelude Util Time Config Bytes Repr Parse SpecTime SpecNum SpecValue SpecParse SpecGrammar SpecSystemd
  TimeProofs NumProofs ReprProofs Utf8Proofs BytesProofs SafeProofs RefParse RefProofs RefSingle RefMulti SpellProofs Systemd SystemdProofs
  SpecGnu Gnu GnuWords GnuRef GnuEval.

Notation K := (keyword_end gc).
Notation wh := gnu_delimiter.

Lemma K_iff x : K x = true <-> white x \/ 48 <= x <= 57 \/ x = 43 \/ x = 45.
Proof.
  unfold keyword_end, starts_duration, is_sign. change (c_outer_delimiter gc) with wh.
  rewrite !orb_true_iff, gnu_delimiter_iff, is_digit_iff, !Z.eqb_eq. tauto.
Qed.
Lemma wh_false x : ~ white x -> wh x = false.
Proof. intros H. destruct (wh x) eqn:E; [|reflexivity]. apply gnu_delimiter_iff in E. contradiction. Qed.

(** ** the words *)
Definition letters (w : str) : Prop := w <> [] /\ forall x, In x w -> 97 <= x <= 122 \/ 65 <= x <= 90.
Definition lower (v : str) : bool := negb (is_empty v) && forallb (fun x => (97 <=? x) && (x <=? 122)) v.
Lemma nocase_letters v : lower v = true -> forall w, str_eq_nocase w v = true -> letters w.
Proof.
  unfold lower. intros H. apply andb_true_iff in H. destruct H as [H0 H]. rewrite forallb_forall in H.
  intros w E. split.
  - intros ->. destruct v; discriminate.
  - clear H0. revert w E. induction v as [|y v IH]; intros [|x w] E; try discriminate; [intros z []|].
    cbn [str_eq_nocase] in E. apply andb_true_iff in E. destruct E as [E1 E2].
    intros z [<-|Hz]; [|apply (IH (fun z Hz => H z (or_intror Hz)) w E2 z Hz)].
    specialize (H y (or_introl eq_refl)). assert (H1 : 97 <= y <= 122) by lia.
    destruct (nocase_letter x y H1 E1); lia.
Qed.
Lemma table_letters {A} (t : list (A * list str)) : forallb (fun e => forallb lower (snd e)) t = true ->
  forall w a, word_for t w a -> letters w.
Proof.
  intros H w a (ws & v & I1 & I2 & E). rewrite forallb_forall in H. specialize (H _ I1). cbn [snd] in H.
  rewrite forallb_forall in H. exact (nocase_letters v (H v I2) w E).
Qed.
Lemma unit_letters w g : word_for gnu_units w g -> letters w.
Proof. apply table_letters. reflexivity. Qed.
Lemma keyword_letters w g : word_for gnu_keywords w g -> letters w.
Proof. apply table_letters. reflexivity. Qed.
Lemma numeral_letters w g : word_for gnu_numerals w g -> letters w.
Proof. apply table_letters. reflexivity. Qed.
Lemma ago_letters w : str_eq_nocase w (%"ago") = true -> letters w.
Proof. apply nocase_letters. reflexivity. Qed.
Lemma letters_bytes w : letters w -> bytes w.
Proof. intros [_ H] x Hx. specialize (H x Hx). lia. Qed.
Lemma letters_K w x : letters w -> In x w -> K x = false.
Proof.
  intros [_ H] Hx. specialize (H x Hx). destruct (K x) eqn:E; [|reflexivity]. apply K_iff in E. unfold white in E. lia.
Qed.
Lemma letters_wh w x : letters w -> In x w -> wh x = false.
Proof. intros [_ H] Hx. specialize (H x Hx). apply wh_false. unfold white. lia. Qed.
Lemma letters_head w r : letters w -> exists x w', w ++ r = x :: w' /\ is_digit x = false /\ is_dot x = false /\ is_sign x = false /\ ~ white x.
Proof.
  intros [N H]. destruct w as [|x w]; [congruence|]. exists x, (w ++ r). specialize (H x (or_introl eq_refl)).
  split; [reflexivity|]. unfold is_dot, is_sign, white.
  split; [destruct (is_digit x) eqn:E; [apply is_digit_iff in E; lia|reflexivity]|]. lia.
Qed.

(** a word belongs to one table *)
Lemma disjoint {A B} (t : list (A * list str)) (f : str -> option B) (t' : list (str * B)) :
  (forall l, bytes l -> f l = lookup t' l) ->
  forallb (fun e => forallb (fun v => match lookup t' v with None => true | Some _ => false end) (snd e)) t = true ->
  forall w a, bytes w -> word_for t w a -> f w = None.
Proof.
  intros Hf H w a Hb (ws & v & I1 & I2 & E). rewrite Hf by assumption. rewrite (lookup_same t' w v E).
  rewrite forallb_forall in H. specialize (H _ I1). cbn [snd] in H. rewrite forallb_forall in H. specialize (H v I2).
  destruct (lookup t' v); [discriminate|reflexivity].
Qed.
Lemma unit_no_keyword w g : word_for gnu_units w g -> gnu_keyword_get w = None.
Proof.
  intros H. refine (disjoint gnu_units _ _ keyword_get_lookup _ w g (letters_bytes w (unit_letters w g H)) H). vm_compute. reflexivity.
Qed.
Lemma numeral_no_keyword w g : word_for gnu_numerals w g -> gnu_keyword_get w = None.
Proof.
  intros H. refine (disjoint gnu_numerals _ _ keyword_get_lookup _ w g (letters_bytes w (numeral_letters w g H)) H). vm_compute. reflexivity.
Qed.
Lemma numeral_no_unit w g : word_for gnu_numerals w g -> gnu_unit_get w = None.
Proof.
  intros H. refine (disjoint gnu_numerals _ _ unit_get_lookup _ w g (letters_bytes w (numeral_letters w g H)) H). vm_compute. reflexivity.
Qed.

(** ** where words end *)
Lemma ends_word_iff r : ends_word r <-> match r with [] => True | x :: _ => negb (K x) = false end.
Proof.
  unfold ends_word. destruct r as [|x r]; [split; [trivial|discriminate]|]. rewrite negb_false_iff, K_iff.
  split; [intros H; exact (H x r eq_refl)|]. intros H y r' [= <- <-]. exact H.
Qed.
Lemma word_span w r : letters w -> ends_word r ->
  take_while (fun x => negb (K x)) (w ++ r) = w /\ drop_while (fun x => negb (K x)) (w ++ r) = r.
Proof.
  intros Hw Hr. apply take_while_app_stop; [|now apply ends_word_iff].
  intros x Hx. now rewrite (letters_K w x Hw Hx).
Qed.
Lemma span_ends l : ends_word (drop_while (fun x => negb (K x)) l).
Proof. apply ends_word_iff. destruct (drop_while _ l) as [|x r] eqn:E; [trivial|]. exact (drop_while_head _ _ _ _ E). Qed.

(** ** white space *)
Lemma wh_span ds r : white_space ds -> no_white_ahead r -> take_while wh (ds ++ r) = ds /\ drop_while wh (ds ++ r) = r.
Proof.
  intros H Hr. apply take_while_app_stop; [intros x Hx; apply gnu_delimiter_iff; auto|].
  destruct r as [|x r]; [trivial|]. apply wh_false. exact (Hr x r eq_refl).
Qed.
Lemma wh_take l : white_space (take_while wh l).
Proof. intros x Hx. apply take_while_all in Hx. now apply gnu_delimiter_iff. Qed.
Lemma wh_drop l : no_white_ahead (drop_while wh l).
Proof. intros x r E W. apply drop_while_head in E. apply gnu_delimiter_iff in W. congruence. Qed.

(** [r'] is what is left of [r] after the white space between two components *)
Definition next_is (r r' : str) : Prop :=
  exists ds, r = ds ++ r' /\ white_space ds /\ no_white_ahead r' /\ (ds = [] \/ r' <> []).
Lemma f_next_iff r r' : f_next gc r = Some r' <-> next_is r r'.
Proof.
  unfold f_next, f_connect. change (c_outer_delimiter gc) with wh. change (conjunctions gc) with (@nil str). cbn [f_conjunction].
  split.
  - destruct r as [|x r]; [intros [= <-]; exists []; split; [reflexivity|]; split; [intros x []|]; split; [intros x r H; discriminate|auto]|].
    destruct (wh x) eqn:Ex.
    + destruct (nonempty (drop_while wh (x :: r))) as [r0|] eqn:En; [|discriminate]. intros [= <-].
      apply nonempty_Some in En. destruct En as [En Nn]. exists (take_while wh (x :: r)). rewrite <- En at 1.
      split; [symmetry; apply take_drop_while|]. split; [apply wh_take|]. split; [|auto]. rewrite <- En. apply wh_drop.
    + intros [= <-]. exists []. split; [reflexivity|]. split; [intros y []|]. split; [|auto].
      intros y r0 [= <- <-] W. apply gnu_delimiter_iff in W. congruence.
  - intros (ds & -> & Hd & Hr & Hn). destruct ds as [|x ds].
    + cbn [app]. destruct r' as [|x r]; [reflexivity|]. rewrite wh_false by exact (Hr x r eq_refl). reflexivity.
    + destruct Hn as [Hn|Hn]; [discriminate|]. cbn [app]. replace (wh x) with true by (symmetry; apply gnu_delimiter_iff, Hd; now left).
      change (x :: ds ++ r') with ((x :: ds) ++ r'). rewrite (proj2 (wh_span (x :: ds) r' Hd Hr)).
      destruct r'; [congruence|reflexivity].
Qed.
Lemma next_refl r : no_white_ahead r -> f_next gc r = Some r.
Proof. intros H. apply f_next_iff. exists []. split; [reflexivity|]. split; [intros x []|]. auto. Qed.
Lemma next_ahead r r' : f_next gc r = Some r' -> no_white_ahead r'.
Proof. intros H. apply f_next_iff in H. destruct H as (ds & _ & _ & H & _). exact H. Qed.

(** ** ago and units *)
Lemma ago_spec m l : ends_word l ->
  (exists r, ago_follows l r /\ f_ago gc m l = Some (mul_saturating_neg m, r)) \/
  ((forall r, ~ ago_follows l r) /\ (f_ago gc m l = Some (m, l) \/ f_ago gc m l = None /\ f_next gc l = None)).
Proof.
  intros He. unfold f_ago. change (c_allow_ago gc) with true. change (c_inner_delimiter gc) with wh. cbn [andb].
  assert (NoAgo : forall r, ago_follows l r -> exists a, drop_while wh l = a ++ r /\ str_eq_nocase a (%"ago") = true /\ ends_word r /\
     exists x l', l = x :: l' /\ wh x = true).
  { intros r (ds & a & -> & N & W & Ea & Er). exists a.
    assert (NW : no_white_ahead (a ++ r)).
    { destruct (letters_head a r (ago_letters a Ea)) as (x & w' & -> & _ & _ & _ & NW). intros y r0 [= <- <-]. exact NW. }
    rewrite (proj2 (wh_span ds (a ++ r) W NW)). split; [reflexivity|]. split; [exact Ea|]. split; [exact Er|].
    destruct ds as [|x ds]; [congruence|]. exists x, (ds ++ a ++ r). split; [reflexivity|]. apply gnu_delimiter_iff, W. now left. }
  destruct l as [|x l0] eqn:El.
  { right. split; [|auto]. intros r H. destruct (NoAgo r H) as (_ & _ & _ & _ & x & l' & H1 & _). discriminate. }
  rewrite <- El in *. destruct (wh x) eqn:Ex.
  2:{ right. split; [|auto]. intros r H. destruct (NoAgo r H) as (_ & _ & _ & _ & x' & l' & H1 & H2). congruence. }
  destruct (nonempty (drop_while wh l)) as [a|] eqn:En.
  2:{ right. destruct (drop_while wh l) eqn:Ed; [|discriminate]. split.
      - intros r H. destruct (NoAgo r H) as (a & E1 & E2 & _). destruct a; [discriminate|discriminate].
      - right. split; [reflexivity|]. unfold f_next, f_connect. change (c_outer_delimiter gc) with wh. rewrite El, Ex, <- El, Ed. reflexivity. }
  cbn [obind]. apply nonempty_Some in En. destruct En as [En Nn].
  destruct (starts_nocase (%"ago") a) eqn:Es.
  2:{ right. split; [|auto]. intros r H. destruct (NoAgo r H) as (v & E1 & E2 & _).
      rewrite En in E1. rewrite E1 in Es. rewrite (starts_nocase_app v r _ E2) in Es. discriminate. }
  assert (E3 : exists v r, a = v ++ r /\ str_eq_nocase v (%"ago") = true /\ skipn 3 a = r).
  { exists (firstn 3 a), (skipn 3 a). split; [symmetry; apply firstn_skipn|]. split; [|reflexivity].
    unfold starts_nocase in Es. exact Es. }
  destruct E3 as (v & r & Ea & Ev & Er). rewrite Er.
  assert (AF : ends_word r -> ago_follows l r).
  { intros Her. exists (take_while wh l), v. split; [rewrite <- Ea, <- En; symmetry; apply take_drop_while|].
    split; [rewrite El; cbn [take_while]; rewrite Ex; discriminate|]. split; [apply wh_take|auto]. }
  destruct r as [|y r0] eqn:Er0.
  - left. exists []. split; [apply AF; intros y r1 H; discriminate|reflexivity].
  - rewrite <- Er0 in *. destruct (K y) eqn:Ey.
    + left. exists r. split; [|now subst]. apply AF. apply ends_word_iff. rewrite Er0. now rewrite Ey.
    + right. split; [|auto]. intros r1 H. destruct (NoAgo r1 H) as (v1 & E1 & E2 & E4 & _).
      rewrite En, Ea in E1. assert (L : length v = length v1).
      { apply str_eq_nocase_length in E2, Ev. congruence. }
      apply app_same_length in E1; [|exact L]. destruct E1 as [_ E1]. subst r1. rewrite Er0 in E4. apply ends_word_iff in E4. rewrite Ey in E4. discriminate.
Qed.

Definition um_is (um : time_unit * multiplier) (g : gnu_unit) (ago : bool) : Prop :=
  exists w m0, gnu_unit_get w = Some (fst um, m0) /\ worth (fst um, m0) = g /\ snd um = if ago then mul_saturating_neg m0 else m0.

Lemma unit_end_K : forall x, unit_end gc x = K x.
Proof. exact (unit_end_eq gc gnu_delims). Qed.
Lemma fm_tu_alt l : fm_tu gc gu l =
  match take_while (fun x => negb (K x)) l with
  | [] => Some None
  | w => match gnu_unit_get w with
         | None => Some None
         | Some (u, m) =>
             let? (m, r) := f_ago gc m (drop_while (fun x => negb (K x)) l) in
             let? r := f_next gc r in
             Some (Some ((u, m), r))
         end
  end.
Proof.
  unfold fm_tu. rewrite (take_while_ext (fun x => negb (unit_end gc x)) (fun x => negb (K x))) by (intros x _; now rewrite unit_end_K).
  rewrite (drop_while_ext (fun x => negb (unit_end gc x)) (fun x => negb (K x))) by (intros x _; now rewrite unit_end_K). reflexivity.
Qed.

Lemma word_unique w1 w2 r1 r2 : letters w1 -> letters w2 -> ends_word r1 -> ends_word r2 -> w1 ++ r1 = w2 ++ r2 -> w1 = w2 /\ r1 = r2.
Proof.
  intros L1 L2 E1 E2 E. destruct (word_span w1 r1 L1 E1) as [A B]. destruct (word_span w2 r2 L2 E2) as [C D].
  rewrite E in A, B. split; congruence.
Qed.
Lemma ago_ends l r : ago_follows l r -> ends_word l.
Proof.
  intros (ds & a & -> & N & W & _). destruct ds as [|x ds]; [congruence|]. intros y r0 [= <- _]. left. apply W. now left.
Qed.
Lemma ago_unique l r1 r2 : ago_follows l r1 -> ago_follows l r2 -> r1 = r2.
Proof.
  intros (ds1 & a1 & -> & N1 & W1 & A1 & E1) (ds2 & a2 & E & N2 & W2 & A2 & E2).
  assert (H : forall a r, str_eq_nocase a (%"ago") = true -> no_white_ahead (a ++ r)).
  { intros a r Ha. destruct (letters_head a r (ago_letters a Ha)) as (x & w' & -> & _ & _ & _ & NW). intros y r0 [= <- <-]. exact NW. }
  destruct (wh_span ds1 (a1 ++ r1) W1 (H _ _ A1)) as [_ B1]. destruct (wh_span ds2 (a2 ++ r2) W2 (H _ _ A2)) as [_ B2].
  rewrite E in B1. rewrite B1 in B2.
  apply (word_unique a1 a2 r1 r2); auto using ago_letters.
Qed.
Lemma phrase_word l g ago r : unit_phrase l g ago r -> exists w l', l = w ++ l' /\ word_for gnu_units w g /\ ends_word l' /\
  if ago then ago_follows l' r else r = l' /\ forall r', ~ ago_follows r r'.
Proof.
  intros [w g0 r0 Hw He Hn|w g0 l0 r0 Hw Ha].
  - exists w, r0. auto.
  - exists w, l0. split; [reflexivity|]. split; [exact Hw|]. split; [exact (ago_ends _ _ Ha)|exact Ha].
Qed.
Lemma phrase_unique l g1 ago1 r1 g2 ago2 r2 : unit_phrase l g1 ago1 r1 -> unit_phrase l g2 ago2 r2 -> g1 = g2 /\ ago1 = ago2 /\ r1 = r2.
Proof.
  intros H1 H2. destruct (phrase_word _ _ _ _ H1) as (w1 & l1 & E1 & W1 & N1 & A1). destruct (phrase_word _ _ _ _ H2) as (w2 & l2 & E2 & W2 & N2 & A2).
  rewrite E1 in E2. apply word_unique in E2; eauto using unit_letters. destruct E2 as [<- <-].
  assert (g1 = g2).
  { symmetry. exact (word_for_fun g1 w1 g1 g2 (letters_bytes _ (unit_letters _ _ W1)) W1 W2 eq_refl). }
  split; [assumption|]. destruct ago1, ago2.
  - split; [reflexivity|]. exact (ago_unique _ _ _ A1 A2).
  - destruct A2 as [-> A2]. destruct (A2 _ A1).
  - destruct A1 as [-> A1]. destruct (A1 _ A2).
  - destruct A1, A2. split; [reflexivity|congruence].
Qed.

Lemma fm_tu_spec l : bytes l ->
  (exists g ago r um, unit_phrase l g ago r /\ um_is um g ago /\
     fm_tu gc gu l = (let? r' := f_next gc r in Some (Some (um, r')))) \/
  ((forall g ago r, ~ unit_phrase l g ago r) /\ fm_tu gc gu l = Some None).
Proof.
  intros Hb. rewrite fm_tu_alt. pose proof (take_drop_while (fun x => negb (K x)) l) as TD. pose proof (span_ends l) as SE.
  assert (NP : gnu_unit_get (take_while (fun x => negb (K x)) l) = None -> forall g ago r, ~ unit_phrase l g ago r).
  { intros E g ago r H. destruct (phrase_word _ _ _ _ H) as (w1 & l1 & E1 & W1 & N1 & A1). rewrite E1 in E.
    rewrite (proj1 (word_span w1 l1 (unit_letters _ _ W1) N1)) in E.
    destruct (unit_words_complete w1 g (letters_bytes _ (unit_letters _ _ W1)) W1) as (um & E2 & _). congruence. }
  assert (Bw : bytes (take_while (fun x => negb (K x)) l)).
  { intros x Hx. apply Hb. rewrite <- TD. apply in_or_app. now left. }
  set (w := take_while (fun x => negb (K x)) l) in *. set (r := drop_while (fun x => negb (K x)) l) in *.
  destruct w as [|x w0] eqn:Ew.
  { right. split; [|reflexivity]. apply NP. reflexivity. }
  rewrite <- Ew in *. destruct (gnu_unit_get w) as [[u m]|] eqn:Eg; [|right; split; [now apply NP|reflexivity]].
  left. pose proof (unit_words w (u, m) Bw Eg) as Hw. cbv beta iota.
  destruct (ago_spec m r SE) as [(r' & Ha & ->)|[Hn Ef]].
  - exists (worth (u, m)), true, r', (u, mul_saturating_neg m). split; [|split; [|reflexivity]].
    + rewrite <- TD. now apply up_ago.
    + exists w, m. auto.
  - exists (worth (u, m)), false, r, (u, m). split; [|split].
    + rewrite <- TD. now apply up_plain.
    + exists w, m. auto.
    + destruct Ef as [->|[-> ->]]; reflexivity.
Qed.

(** ** the amounts *)
Lemma um_is_times um g ago : um_is um g ago -> forall n v,
  let x := with_sign n (v * coef (snd um)) in
  match fst um with
  | Month => Months (clamp_i64 x)
  | Year => Years (clamp_i64 x)
  | _ => Nanos (clamp_nanos (x * coef (unit_multiplier (fst um)) * 1000000000))
  end = times (with_sign (xorb n ago) v) g.
Proof.
  intros (w & m0 & Hg & Hw & Hm) n v. cbv zeta. destruct um as [u m]. cbn [fst snd] in *. subst g m.
  destruct (unit_values w u m0 Hg) as (E1 & E2 & E3 & E4 & E5 & E6).
  assert (A : coef (if ago then mul_saturating_neg m0 else m0) = if ago then - coef m0 else coef m0).
  { destruct ago; [|reflexivity]. rewrite neg_small by lia. reflexivity. }
  rewrite A. unfold worth. cbn [fst snd].
  assert (S1 : with_sign n (v * (if ago then - coef m0 else coef m0)) = with_sign (xorb n ago) v * coef m0).
  { unfold with_sign. destruct n, ago; cbn [xorb]; lia. }
  rewrite S1.
  destruct u; cbn [times]; try (f_equal; f_equal; lia).
  - rewrite E5 by auto. cbn [coef]. f_equal. f_equal. lia.
  - rewrite E5 by auto. cbn [coef]. f_equal. f_equal. lia.
Qed.
Lemma um_is_second um g ago : um_is um g ago -> (fst um = Second <-> g = Seconds 1).
Proof.
  intros (w & m0 & Hg & Hw & Hm). destruct um as [u m]. cbn [fst snd] in *. subst g m.
  destruct (unit_values w u m0 Hg) as (E1 & E2 & E3 & E4 & E5 & E6). unfold worth. cbn [fst snd]. split.
  - intros ->. rewrite E6 by reflexivity. reflexivity.
  - destruct u; try discriminate; try reflexivity; cbn [unit_multiplier coef expo] in *; try discriminate;
      intros E; apply (f_equal (fun g => match g with Seconds k => k | _ => 0 end)) in E; cbv beta iota in E; lia.
Qed.
Lemma amount_unit n W k um g ago : um_is um g ago ->
  item_amount (Item n W None k (Some um)) = Some (times (with_sign (xorb n ago) (item_base (Item n W None k (Some um)))) g).
Proof.
  intros H. unfold item_amount. cbn [item_um i_unit i_fract i_neg]. destruct um as [u m]. f_equal. exact (um_is_times (u, m) g ago H n _).
Qed.
Lemma amount_fraction n W F um g ago a : um_is um g ago -> W <> [] ->
  (item_amount (Item n (nonempty W) (Some F) None (Some um)) = Some a <-> F <> [] /\ number_amount (xorb n ago) W F g a).
Proof.
  intros H NW. pose proof (um_is_second um g ago H) as HS. unfold item_amount. cbn [item_um i_unit i_fract i_neg i_whole]. destruct um as [u m]. cbn [fst] in HS.
  destruct W as [|x W0]; [congruence|]. cbn [nonempty]. set (W := x :: W0) in *.
  destruct F as [|y F0]; cbn [is_empty negb].
  { rewrite andb_false_r. split; [discriminate|]. intros [N _]. congruence. }
  set (F := y :: F0) in *. rewrite andb_true_r.
  assert (NF : F <> []) by discriminate.
  destruct (time_unit_eqb u Second) eqn:Eu.
  - assert (u = Second) by (destruct u; congruence || discriminate). rewrite (proj1 HS H0). subst u.
    assert (E : with_sign n (dval (W ++ F) * 1000000000 / 10 ^ Z.of_nat (length F) * coef m) =
                with_sign (xorb n ago) (dval (W ++ F) * 1000000000 / 10 ^ Z.of_nat (length F))).
    { destruct H as (w & m0 & Hg & Hw & Hm). cbn [fst snd] in *. destruct (unit_values w _ m0 Hg) as (_ & _ & _ & _ & _ & E6).
      rewrite (E6 eq_refl) in Hm. subst m. unfold with_sign. destruct n, ago; cbn [xorb]; try rewrite neg_small by (cbn [coef]; lia); cbn [coef]; lia. }
    rewrite E. split.
    + intros [= <-]. split; [exact NF|]. now apply na_fraction.
    + intros [_ HA]. inversion HA; subst. reflexivity.
  - split; [discriminate|]. intros [_ HA]. inversion HA; subst.
    assert (u = Second) by now apply HS. subst u. discriminate.
Qed.

Lemma amount_number n W F um g ago a : um_is um g ago -> W <> [] ->
  (item_amount (Item n (nonempty W) F None (Some um)) = Some a <-> F <> Some [] /\ number_amount (xorb n ago) W (opt_text F) g a).
Proof.
  intros H NW. destruct F as [F|].
  - rewrite (amount_fraction n W F um g ago a H NW). cbn [opt_text]. split; intros [H1 H2]; split; congruence.
  - rewrite (amount_unit n (nonempty W) None um g ago H). unfold item_base. cbn [i_whole opt_text].
    destruct W as [|x W0]; [congruence|]. cbn [nonempty]. split.
    + intros [= <-]. split; [discriminate|]. apply na_whole.
    + intros [_ HA]. inversion HA; subst; [reflexivity|congruence].
Qed.
Lemma second_is : um_is (Second, Mul 1 0) (Seconds 1) false.
Proof. exists (%"sec"), (Mul 1 0). repeat split. Qed.
Lemma amount_second n W F a : W <> [] ->
  (item_amount (Item n (nonempty W) F None None) = Some a <-> F <> Some [] /\ number_amount n W (opt_text F) (Seconds 1) a).
Proof.
  intros NW. pose proof (amount_number n W F _ _ _ a second_is NW) as H. rewrite xorb_false_r in H. exact H.
Qed.

Definition amount_of (o : option (item * str)) : option (amount * str) :=
  let? (it, r) := o in let? a := item_amount it in Some (a, r).

(** ** signs *)
Lemma sign_complete sg n x l : gnu_sign sg n -> is_sign x = false -> ~ white x -> f_signed gc (sg ++ x :: l) = Some (n, x :: l).
Proof.
  assert (D : forall ds, white_space ds -> ~ white x -> drop_while wh (ds ++ x :: l) = x :: l).
  { intros ds Hd Nx. apply wh_span; [exact Hd|]. intros y r [= <- <-]. exact Nx. }
  intros [|ds Hd|ds Hd] Hx Nx; cbn [app f_signed]; [now rewrite Hx| |];
    change (c_allow_sign_delimiter gc) with true; change (c_inner_delimiter gc) with wh; cbn [is_sign Z.eqb orb]; rewrite D by assumption; reflexivity.
Qed.
Lemma sign_sound l n l1 : f_signed gc l = Some (n, l1) -> exists sg, l = sg ++ l1 /\ gnu_sign sg n.
Proof.
  destruct l as [|x l]; cbn [f_signed]; [discriminate|]. destruct (is_sign x) eqn:Es.
  - change (c_allow_sign_delimiter gc) with true. change (c_inner_delimiter gc) with wh. cbv iota.
    destruct (nonempty (drop_while wh l)) as [r|] eqn:En; [|discriminate]. intros [= <- <-].
    apply nonempty_Some in En. destruct En as [En _]. exists (x :: take_while wh l). split.
    + cbn [app]. rewrite <- En. now rewrite take_drop_while.
    + pose proof (wh_take l). unfold is_sign in Es. apply orb_true_iff in Es. rewrite !Z.eqb_eq in Es.
      destruct Es as [-> | ->]; [apply gs_plus|apply gs_minus]; assumption.
  - intros [= <- <-]. exists []. split; [reflexivity|constructor].
Qed.

(** ** numbers *)
Lemma digit_take W r : digit_string W -> (forall x r', r = x :: r' -> is_digit x = false) ->
  take_while is_digit (W ++ r) = W /\ drop_while is_digit (W ++ r) = r.
Proof.
  intros H Hr. apply take_while_app_stop.
  - intros x Hx. apply is_digit_iff. exact (H x Hx).
  - destruct r as [|x r]; [trivial|]. exact (Hr x r eq_refl).
Qed.
Definition no_e (l : str) : Prop := match l with x :: _ => is_e x | [] => false end = false.
Lemma no_e_iff x : is_e x = false <-> x <> 101 /\ x <> 69.
Proof. unfold is_e. rewrite orb_false_iff, !Z.eqb_neq. tauto. Qed.
Lemma not_digit x : ~ 48 <= x <= 57 -> is_digit x = false.
Proof. intros H. destruct (is_digit x) eqn:E; [|reflexivity]. apply is_digit_iff in E. lia. Qed.
Lemma number_inv r num W F : gnu_number r num W F ->
  take_while is_digit (num ++ r) = W /\
  g_fraction (drop_while is_digit (num ++ r)) = ((match F with [] => None | _ => Some F end), r) /\ no_e r /\ W <> [] /\
  exists x l, num ++ r = x :: l /\ is_digit x = true.
Proof.
  intros [W0 D0 N0 E0|W0 F0 D0 N0 D1 N1 E0].
  - assert (HD : forall x r', r = x :: r' -> is_digit x = false) by (intros x r' E; apply not_digit, (E0 x r' E)).
    destruct (digit_take W0 r D0 HD) as [A B]. split; [exact A|]. rewrite B. split; [|split; [|split; [exact N0|]]].
    + unfold g_fraction. destruct r as [|x r']; [reflexivity|]. destruct (E0 x r' eq_refl) as (_ & N & _).
      unfold is_dot. destruct (Z.eqb_spec x 46); [contradiction|reflexivity].
    + unfold no_e. destruct r as [|x r']; [reflexivity|]. apply no_e_iff. exact (proj2 (proj2 (E0 x r' eq_refl))).
    + destruct W0 as [|x W1]; [congruence|]. exists x, (W1 ++ r). split; [reflexivity|]. apply is_digit_iff, D0. now left.
  - rewrite <- app_assoc. cbn [app]. destruct (digit_take W0 (46 :: F0 ++ r) D0) as [A B]; [intros x r' [= <- _]; reflexivity|].
    assert (HD : forall x r', r = x :: r' -> is_digit x = false) by (intros x r' E; apply not_digit, (E0 x r' E)).
    destruct (digit_take F0 r D1 HD) as [A1 B1].
    split; [exact A|]. rewrite B. split; [|split; [|split; [exact N0|]]].
    + unfold g_fraction. change (is_dot 46) with true. cbv iota. rewrite A1, B1. destruct F0; [congruence|reflexivity].
    + unfold no_e. destruct r as [|x r']; [reflexivity|]. apply no_e_iff. exact (proj2 (E0 x r' eq_refl)).
    + destruct W0 as [|x W1]; [congruence|]. exists x, (W1 ++ 46 :: F0 ++ r). split; [reflexivity|]. apply is_digit_iff, D0. now left.
Qed.
Lemma digit_of x : is_digit x = false -> ~ 48 <= x <= 57.
Proof. intros H A. apply is_digit_iff in A. congruence. Qed.
Lemma number_sound l F r : take_while is_digit l <> [] -> g_fraction (drop_while is_digit l) = (F, r) -> no_e r -> F <> Some [] ->
  exists num, l = num ++ r /\ gnu_number r num (take_while is_digit l) (opt_text F).
Proof.
  intros NW G NE NF. pose proof (take_drop_while is_digit l) as TD. pose proof (take_digits_string l) as DW.
  pose proof (fun x l' => drop_while_head is_digit l x l') as DH.
  destruct (drop_while is_digit l) as [|x l0]; cbn [g_fraction] in G.
  - injection G as <- <-. exists (take_while is_digit l). split; [now symmetry|]. apply gn_whole; auto. intros x r H; discriminate.
  - destruct (is_dot x) eqn:Ex.
    + injection G as <- <-. unfold is_dot in Ex. apply Z.eqb_eq in Ex. subst x.
      exists (take_while is_digit l ++ 46 :: take_while is_digit l0). split.
      * rewrite <- app_assoc. cbn [app]. rewrite take_drop_while. now symmetry.
      * cbn [opt_text]. apply gn_fraction; auto; [apply take_digits_string|congruence|].
        intros y r' E. split; [apply digit_of, (drop_while_head _ _ _ _ E)|]. unfold no_e in NE. rewrite E in NE. now apply no_e_iff.
    + injection G as <- <-. exists (take_while is_digit l). split; [now symmetry|]. apply gn_whole; auto.
      intros y r' [= <- <-]. split; [exact (digit_of _ (DH x l0 eq_refl))|]. unfold is_dot in Ex. apply Z.eqb_neq in Ex.
      split; [exact Ex|]. unfold no_e in NE. now apply no_e_iff.
Qed.

Lemma unit_delimiter_next l : f_unit_delimiter gc l = f_next gc l.
Proof.
  unfold f_unit_delimiter, f_next, f_connect. change (c_allow_time_unit_delimiter gc) with true. change (c_inner_delimiter gc) with wh.
  change (c_outer_delimiter gc) with wh. change (conjunctions gc) with (@nil str). cbn [f_conjunction andb].
  destruct l as [|x l]; [reflexivity|]. destruct (wh x) eqn:E; [|reflexivity]. cbn [drop_while]. rewrite E.
  destruct (nonempty (drop_while wh l)); reflexivity.
Qed.
Lemma g_fin_next it r : no_white_ahead r -> g_fin it r = Some (it, r).
Proof. intros H. unfold g_fin. now rewrite next_refl. Qed.
Lemma phrase_ahead l g ago r : unit_phrase l g ago r -> no_white_ahead l /\ l <> [].
Proof.
  intros H. destruct (phrase_word _ _ _ _ H) as (w & l' & -> & W & _). destruct (letters_head w l' (unit_letters _ _ W)) as (x & w' & -> & _ & _ & _ & N).
  split; [|discriminate]. intros y r0 [= <- <-]. exact N.
Qed.

(** a number with or without a unit, after the sign *)
Definition number_item (n : bool) (l : str) (a : amount) (r : str) : Prop :=
  exists num W F ds l1, l = num ++ ds ++ l1 /\ gnu_number (ds ++ l1) num W F /\ white_space ds /\
   ((exists g ago, unit_phrase l1 g ago r /\ number_amount (xorb n ago) W F g a) \/
    r = l1 /\ no_white_ahead r /\ (ds = [] \/ r <> []) /\ (forall g ago r', ~ unit_phrase r g ago r') /\ number_amount n W F (Seconds 1) a).

Lemma g_number_iff n l a r' : bytes l -> take_while is_digit l <> [] ->
  (amount_of (g_number n (take_while is_digit l) (drop_while is_digit l)) = Some (a, r') <->
   exists r, number_item n l a r /\ f_next gc r = Some r').
Proof.
  intros Hb NW. set (W := take_while is_digit l) in *. unfold g_number.
  destruct (g_fraction (drop_while is_digit l)) as [F l2] eqn:EF.
  assert (NE : is_empty (W ++ opt_text F) = false) by (destruct W; [congruence|reflexivity]). rewrite NE.
  (* the number of the specification is that of the parser *)
  assert (UNI : forall num W' F' r, l = num ++ r -> gnu_number r num W' F' -> W' = W /\ F' = opt_text F /\ r = l2 /\ F <> Some [] /\ no_e l2).
  { intros num W' F' r -> HN. destruct (number_inv r num W' F' HN) as (E1 & E2 & E3 & E4 & _). rewrite E2 in EF.
    injection EF as EF1 EF2. subst r. split; [symmetry; exact E1|]. rewrite <- EF1. destruct F'; cbn; repeat split; auto; discriminate. }
  rewrite unit_delimiter_next.
  destruct (match l2 with x :: _ => is_e x | [] => false end) eqn:Ee.
  { split; [discriminate|]. intros (r & (num & W' & F' & ds & l1 & El & HN & _) & _).
    destruct (UNI num W' F' (ds ++ l1) El HN) as (_ & _ & _ & _ & E). unfold no_e in E. congruence. }
  assert (B2 : bytes l2).
  { intros x Hx. apply Hb. rewrite <- (take_drop_while is_digit l). apply in_or_app. right.
    destruct (drop_while is_digit l) as [|y l0]; cbn [g_fraction] in EF; [injection EF as _ <-; exact Hx|].
    destruct (is_dot y); injection EF as _ <-; [|exact Hx]. right. rewrite <- (take_drop_while is_digit l0). apply in_or_app. now right. }
  assert (SND : F <> Some [] -> exists num, l = num ++ l2 /\ gnu_number l2 num W (opt_text F)).
  { intros NF. exact (number_sound l F l2 NW EF Ee NF). }
  destruct (f_next gc l2) as [l3|] eqn:En; cbn [obind].
  2:{ split; [discriminate|]. intros (r & (num & W' & F' & ds & l1 & El & HN & Hd & HC) & _).
      destruct (UNI num W' F' (ds ++ l1) El HN) as (_ & _ & E & _ & _).
      assert (f_next gc l2 = Some l1); [|congruence]. apply f_next_iff. exists ds. split; [congruence|]. split; [exact Hd|].
      destruct HC as [(g & ago & HP & _)|(-> & H1 & H2 & _)]; [|auto]. destruct (phrase_ahead _ _ _ _ HP). auto. }
  pose proof En as En'. apply f_next_iff in En'. destruct En' as (ds & E2 & Hd & Ha & Hn).
  assert (UNI2 : forall num W' F' ds' l1, l = num ++ ds' ++ l1 -> gnu_number (ds' ++ l1) num W' F' -> white_space ds' -> no_white_ahead l1 ->
     W' = W /\ F' = opt_text F /\ l1 = l3 /\ F <> Some []).
  { intros num W' F' ds' l1 El HN Hd' Ha'. destruct (UNI num W' F' (ds' ++ l1) El HN) as (-> & -> & E & E' & _).
    repeat split; auto. destruct (wh_span ds' l1 Hd' Ha') as [_ <-]. destruct (wh_span ds l3 Hd Ha) as [_ <-]. congruence. }
  assert (B3 : bytes l3) by (intros x Hx; apply B2; rewrite E2; apply in_or_app; now right).
  (* without a unit *)
  assert (PLAIN : (forall g ago r, ~ unit_phrase l3 g ago r) ->
    (amount_of (Some (Item n (nonempty W) F None None, l3)) = Some (a, r') <->
     exists r, number_item n l a r /\ f_next gc r = Some r')).
  { intros NU. unfold amount_of. cbn [obind]. split.
    - destruct (item_amount _) as [a'|] eqn:EA; [|discriminate]. intros [= <- <-]. apply amount_second in EA; [|exact NW].
      destruct EA as [NF EA]. destruct (SND NF) as (num & El & HN). exists l3. split; [|now apply next_refl].
      exists num, W, (opt_text F), ds, l3. rewrite <- E2. repeat split; auto. right. repeat split; auto.
    - intros (r & (num & W' & F' & ds' & l1 & El & HN & Hd' & HC) & Er).
      destruct HC as [(g & ago & HP & HA)|(-> & H1 & H2 & H3 & H4)].
      + destruct (phrase_ahead _ _ _ _ HP) as [A1 _]. destruct (UNI2 num W' F' ds' l1 El HN Hd' A1) as (_ & _ & -> & _). destruct (NU _ _ _ HP).
      + destruct (UNI2 num W' F' ds' l1 El HN Hd' H1) as (-> & -> & -> & NF). rewrite next_refl in Er by exact H1. injection Er as <-.
        assert (EA : item_amount (Item n (nonempty W) F None None) = Some a) by (apply amount_second; auto). now rewrite EA. }
  destruct l3 as [|y l4] eqn:E3.
  { apply PLAIN. intros g ago r H. destruct (phrase_ahead _ _ _ _ H). congruence. }
  rewrite <- E3 in *. unfold fm_ntu. change (u_is_empty gu) with false. cbv iota.
  destruct (fm_tu_spec l3 B3) as [(g & ago & r & um & HP & HU & ->)|[NU ->]]; cbn [obind].
  2:{ rewrite g_fin_next by exact Ha. now apply PLAIN. }
  destruct (f_next gc r) as [r1|] eqn:Er; cbn [obind].
  2:{ split; [discriminate|]. intros (r0 & (num & W' & F' & ds' & l1 & El & HN & Hd' & HC) & Er0).
      destruct HC as [(g' & ago' & HP' & HA)|(-> & H1 & H2 & H3 & H4)].
      - destruct (phrase_ahead _ _ _ _ HP') as [A1 _]. destruct (UNI2 num W' F' ds' l1 El HN Hd' A1) as (_ & _ & -> & _).
        destruct (phrase_unique _ _ _ _ _ _ _ HP HP') as (_ & _ & ->). congruence.
      - destruct (UNI2 num W' F' ds' l1 El HN Hd' H1) as (_ & _ & -> & _). destruct (H3 _ _ _ HP). }
  rewrite g_fin_next by exact (next_ahead _ _ Er). unfold amount_of. cbn [obind]. split.
  - destruct (item_amount _) as [a'|] eqn:EA; [|discriminate]. intros [= <- <-].
    apply (amount_number n W F um g ago a' HU NW) in EA. destruct EA as [NF EA]. destruct (SND NF) as (num & El & HN).
    exists r. split; [|exact Er]. exists num, W, (opt_text F), ds, l3. rewrite <- E2. repeat split; auto. left. eauto.
  - intros (r0 & (num & W' & F' & ds' & l1 & El & HN & Hd' & HC) & Er0).
    destruct HC as [(g' & ago' & HP' & HA)|(-> & H1 & H2 & H3 & H4)].
    + destruct (phrase_ahead _ _ _ _ HP') as [A1 _]. destruct (UNI2 num W' F' ds' l1 El HN Hd' A1) as (-> & -> & -> & NF).
      destruct (phrase_unique _ _ _ _ _ _ _ HP HP') as (<- & <- & <-). rewrite Er in Er0. injection Er0 as <-.
      assert (EA : item_amount (Item n (nonempty W) F None (Some um)) = Some a) by (apply (amount_number n W F um g ago a HU NW); auto).
      now rewrite EA.
    + destruct (UNI2 num W' F' ds' l1 El HN Hd' H1) as (_ & _ & -> & _). destruct (H3 _ _ _ HP).
Qed.

(** ** words *)
Definition keyword_item (n : bool) (l : str) (a : amount) (r : str) : Prop :=
  exists w k, l = w ++ r /\ word_for gnu_keywords w k /\ ends_word r /\ a = times (with_sign n k) (Seconds 86400).
Definition unit_item (n : bool) (l : str) (a : amount) (r : str) : Prop :=
  exists g ago, unit_phrase l g ago r /\ a = times (with_sign (xorb n ago) 1) g.
Definition numeral_item (n : bool) (l : str) (a : amount) (r : str) : Prop :=
  exists w k ds l1 g ago, l = w ++ ds ++ l1 /\ word_for gnu_numerals w k /\ white_space ds /\ ds <> [] /\
    unit_phrase l1 g ago r /\ a = times (with_sign (xorb n ago) k) g.

Lemma white_ends ds l : white_space ds -> ds <> [] -> ends_word (ds ++ l).
Proof. intros W N. destruct ds as [|x ds]; [congruence|]. intros y r [= <- _]. left. apply W. now left. Qed.

(** the first word of the three kinds *)
Lemma first_word n l a r :
  (keyword_item n l a r -> exists w l' k, l = w ++ l' /\ letters w /\ ends_word l' /\ word_for gnu_keywords w k) /\
  (unit_item n l a r -> exists w l' k, l = w ++ l' /\ letters w /\ ends_word l' /\ word_for gnu_units w k) /\
  (numeral_item n l a r -> exists w l' k, l = w ++ l' /\ letters w /\ ends_word l' /\ word_for gnu_numerals w k).
Proof.
  split; [|split].
  - intros (w & k & -> & Hw & He & _). exists w, r, k. split; [reflexivity|]. split; [exact (keyword_letters _ _ Hw)|auto].
  - intros (g & ago & HP & _). destruct (phrase_word _ _ _ _ HP) as (w & l' & -> & Hw & He & _). exists w, l', g. split; [reflexivity|]. split; [exact (unit_letters _ _ Hw)|auto].
  - intros (w & k & ds & l1 & g & ago & -> & Hw & Hd & Nd & _). exists w, (ds ++ l1), k. split; [reflexivity|]. split; [exact (numeral_letters _ _ Hw)|]. split; [now apply white_ends|exact Hw].
Qed.
Lemma lookup_first {B} (f : str -> option B) w l' v : letters w -> ends_word l' -> f w = v -> f (take_while (fun x => negb (K x)) (w ++ l')) = v.
Proof. intros Lw He <-. now rewrite (proj1 (word_span w l' Lw He)). Qed.

Lemma g_numeral_iff n l a r' : bytes l ->
  (amount_of (g_numeral n l) = Some (a, r') <-> exists r, numeral_item n l a r /\ f_next gc r = Some r').
Proof.
  intros Hb. unfold g_numeral, f_numeral_prefix. change (c_inner_delimiter gc) with wh.
  set (w := take_while (fun x => negb (wh x)) l). set (r := drop_while (fun x => negb (wh x)) l).
  pose proof (take_drop_while (fun x => negb (wh x)) l) as TD. fold w r in TD.
  assert (UNI : forall w' ds l1 k, l = w' ++ ds ++ l1 -> word_for gnu_numerals w' k -> white_space ds -> ds <> [] -> w' = w /\ r = ds ++ l1).
  { intros w' ds l1 k -> Hw Hd Nd. unfold w, r.
    destruct (take_while_app_stop (fun x => negb (wh x)) w' (ds ++ l1)) as [-> ->]; [| |auto].
    - intros x Hx. now rewrite (letters_wh w' x (numeral_letters _ _ Hw) Hx).
    - destruct ds as [|x ds]; [congruence|]. cbn [app]. apply negb_false_iff, gnu_delimiter_iff, Hd. now left. }
  assert (Bw : bytes w) by (intros x Hx; apply Hb; rewrite <- TD; apply in_or_app; now left).
  assert (Br : bytes r) by (intros x Hx; apply Hb; rewrite <- TD; apply in_or_app; now right).
  assert (FAIL : (forall k, ~ word_for gnu_numerals w k) \/ r = [] \/ nonempty (drop_while wh r) = None ->
     ~ exists r0, numeral_item n l a r0 /\ f_next gc r0 = Some r').
  { intros HF (r0 & (w' & k & ds & l1 & g & ago & El & Hw & Hd & Nd & HP & _) & _). destruct (UNI w' ds l1 k El Hw Hd Nd) as [-> Er].
    destruct HF as [HF|[HF|HF]]; [exact (HF k Hw)| |].
    - rewrite HF in Er. destruct ds; [congruence|discriminate].
    - rewrite Er in HF. destruct (phrase_ahead _ _ _ _ HP) as [A N]. rewrite (proj2 (wh_span ds l1 Hd A)) in HF. destruct l1; [congruence|discriminate]. }
  assert (DH : forall y r0, r = y :: r0 -> wh y = true).
  { intros y r0 E. apply negb_false_iff. exact (drop_while_head (fun x => negb (wh x)) l y r0 E). }
  assert (NOT : gnu_numeral_get w = None -> forall k, ~ word_for gnu_numerals w k).
  { intros E k H. rewrite (numeral_words_complete w k Bw H) in E. discriminate. }
  destruct w as [|x w0] eqn:Ew.
  { cbn [obind]. split; [discriminate|]. intros H. elim FAIL; [|exact H]. left. now apply NOT. }
  rewrite <- Ew in *. change (gnu_NUMERALS w) with (gnu_numeral_get w).
  destruct (gnu_numeral_get w) as [m|] eqn:Eg.
  2:{ cbn [obind]. split; [discriminate|]. intros H. elim FAIL; [|exact H]. left. now apply NOT. }
  destruct (numeral_words w m Bw Eg) as [Hw Hx].
  destruct r as [|y r0] eqn:Er0.
  { cbn [obind]. split; [discriminate|]. intros H. elim FAIL; [|exact H]. auto. }
  rewrite <- Er0 in *.
  destruct (nonempty (drop_while wh r)) as [l1|] eqn:En; cbn [obind].
  2:{ split; [discriminate|]. intros H. elim FAIL; [|exact H]. auto. }
  apply nonempty_Some in En. destruct En as [En Nl].
  assert (Nd : take_while wh r <> []).
  { rewrite Er0. cbn [take_while]. rewrite (DH y r0 Er0). discriminate. }
  assert (B1 : bytes l1) by (intros z Hz; apply Br; rewrite <- (take_drop_while wh r); apply in_or_app; right; now rewrite En).
  assert (EL : l = w ++ take_while wh r ++ l1) by (rewrite <- En, take_drop_while; now symmetry).
  assert (UNI3 : forall w' ds l2 k, l = w' ++ ds ++ l2 -> word_for gnu_numerals w' k -> white_space ds -> ds <> [] -> no_white_ahead l2 -> w' = w /\ l2 = l1).
  { intros w' ds l2 k El Hw' Hd Nd' A. destruct (UNI w' ds l2 k El Hw' Hd Nd') as [-> E]. split; [reflexivity|].
    rewrite <- En, E. symmetry. now apply wh_span. }
  destruct (fm_tu_spec l1 B1) as [(g & ago & r1 & um & HP & HU & ->)|[NU ->]]; cbn [obind].
  2:{ split; [discriminate|]. intros (r1 & (w' & k & ds & l2 & g & ago & El & Hw' & Hd & Nd' & HP & _) & _).
      destruct (UNI3 w' ds l2 k El Hw' Hd Nd' (proj1 (phrase_ahead _ _ _ _ HP))) as [_ ->]. destruct (NU _ _ _ HP). }
  assert (EK : forall k, word_for gnu_numerals w k -> k = coef m).
  { intros k Hk. pose proof (numeral_words_complete w k Bw Hk) as E. rewrite Eg in E. injection E as ->. reflexivity. }
  destruct (f_next gc r1) as [r2|] eqn:Er1; cbn [obind].
  2:{ split; [discriminate|]. intros (r3 & (w' & k & ds & l2 & g' & ago' & El & Hw' & Hd & Nd' & HP' & _) & E).
      destruct (UNI3 w' ds l2 k El Hw' Hd Nd' (proj1 (phrase_ahead _ _ _ _ HP'))) as [_ ->].
      destruct (phrase_unique _ _ _ _ _ _ _ HP HP') as (_ & _ & <-). congruence. }
  rewrite g_fin_next by exact (next_ahead _ _ Er1). unfold amount_of. cbn [obind].
  rewrite (amount_unit n None (Some m) um g ago HU). unfold item_base. cbn [i_whole i_numeral obind]. split.
  - intros [= <- <-]. exists r1. split; [|exact Er1]. exists w, (coef m), (take_while wh r), l1, g, ago.
    repeat split; auto. apply wh_take.
  - intros (r3 & (w' & k & ds & l2 & g' & ago' & El & Hw' & Hd & Nd' & HP' & ->) & E).
    destruct (UNI3 w' ds l2 k El Hw' Hd Nd' (proj1 (phrase_ahead _ _ _ _ HP'))) as [-> ->].
    destruct (phrase_unique _ _ _ _ _ _ _ HP HP') as (<- & <- & <-). rewrite (EK k Hw'). congruence.
Qed.

Lemma g_word_iff n l a r' : bytes l ->
  (amount_of (g_word n l) = Some (a, r') <->
   exists r, (keyword_item n l a r \/ unit_item n l a r \/ numeral_item n l a r) /\ f_next gc r = Some r').
Proof.
  intros Hb. unfold g_word, fm_kw.
  pose proof (take_drop_while (fun x => negb (K x)) l) as TD. pose proof (span_ends l) as SE.
  set (w := take_while (fun x => negb (K x)) l) in *. set (r := drop_while (fun x => negb (K x)) l) in *.
  assert (Bw : bytes w) by (intros x Hx; apply Hb; rewrite <- TD; apply in_or_app; now left).
  (* the first word is w *)
  assert (FW : forall w' l', l = w' ++ l' -> letters w' -> ends_word l' -> w' = w /\ l' = r).
  { intros w' l' -> L E. unfold w, r. destruct (word_span w' l' L E) as [-> ->]. auto. }
  assert (REST : gnu_keyword_get w = None ->
     (amount_of (let? o := fm_tu gc gu l in
        match o with Some (um, l) => g_fin (Item n None None None (Some um)) l | None => g_numeral n l end) = Some (a, r') <->
      exists r, (keyword_item n l a r \/ unit_item n l a r \/ numeral_item n l a r) /\ f_next gc r = Some r')).
  { intros NK.
    assert (NKI : forall r0, ~ keyword_item n l a r0).
    { intros r0 (w' & k & El & Hw & He & _). destruct (FW w' r0 El (keyword_letters _ _ Hw) He) as [-> ->].
      rewrite (keyword_words_complete w k Bw Hw) in NK. discriminate. }
    destruct (fm_tu_spec l Hb) as [(g & ago & r1 & um & HP & HU & ->)|[NU ->]]; cbn [obind].
    - assert (NN : forall r0, ~ numeral_item n l a r0).
      { intros r0 HN. destruct (proj2 (proj2 (first_word n l a r0)) HN) as (w' & l' & k & El & L & E & Hw).
        destruct (FW w' l' El L E) as [-> ->]. destruct (phrase_word _ _ _ _ HP) as (w2 & l2 & El2 & Hw2 & He2 & _).
        destruct (FW w2 l2 El2 (unit_letters _ _ Hw2) He2) as [-> ->].
        destruct (unit_words_complete w g Bw Hw2) as (um' & Eu & _). rewrite (numeral_no_unit w k Hw) in Eu. discriminate. }
      destruct (f_next gc r1) as [r2|] eqn:Er1; cbn [obind].
      + rewrite g_fin_next by exact (next_ahead _ _ Er1). unfold amount_of. cbn [obind].
        rewrite (amount_unit n None None um g ago HU). unfold item_base. cbn [i_whole i_numeral obind]. split.
        * intros [= <- <-]. exists r1. split; [|exact Er1]. right. left. exists g, ago. auto.
        * intros (r3 & [H|[(g' & ago' & HP' & ->)|H]] & E); [destruct (NKI _ H)| |destruct (NN _ H)].
          destruct (phrase_unique _ _ _ _ _ _ _ HP HP') as (<- & <- & <-). congruence.
      + split; [discriminate|]. intros (r3 & [H|[(g' & ago' & HP' & ->)|H]] & E); [destruct (NKI _ H)| |destruct (NN _ H)].
        destruct (phrase_unique _ _ _ _ _ _ _ HP HP') as (<- & <- & <-). congruence.
    - rewrite g_numeral_iff by exact Hb. split.
      + intros (r3 & H & E). eauto.
      + intros (r3 & [H|[(g' & ago' & HP' & ->)|H]] & E); [destruct (NKI _ H)|destruct (NU _ _ _ HP')|eauto]. }
  destruct w as [|x w0] eqn:Ew.
  { cbn [obind]. apply REST. reflexivity. }
  rewrite <- Ew in *. change (u_get gnu_TIME_KEYWORDS w) with (gnu_keyword_get w).
  destruct (gnu_keyword_get w) as [um|] eqn:Eg; [|cbn [obind]; now apply REST].
  clear REST. destruct (keyword_words w um Bw Eg) as (Hw & E1 & E2). destruct um as [u [k e]]. cbn [fst snd coef expo] in *. subst u e.
  assert (NU : forall r0, ~ unit_item n l a r0).
  { intros r0 HN. destruct (proj1 (proj2 (first_word n l a r0)) HN) as (w' & l' & g & El & L & E & Hw').
    destruct (FW w' l' El L E) as [-> ->]. rewrite (unit_no_keyword w g Hw') in Eg. discriminate. }
  assert (NN : forall r0, ~ numeral_item n l a r0).
  { intros r0 HN. destruct (proj2 (proj2 (first_word n l a r0)) HN) as (w' & l' & g & El & L & E & Hw').
    destruct (FW w' l' El L E) as [-> ->]. rewrite (numeral_no_keyword w g Hw') in Eg. discriminate. }
  assert (EA : item_amount (Item n None None None (Some (Day, Mul k 0))) = Some (times (with_sign n k) (Seconds 86400))).
  { unfold item_amount. cbn [item_um i_unit i_fract i_neg item_base i_whole i_numeral coef times unit_multiplier].
    rewrite Z.mul_1_l. reflexivity. }
  assert (KI : keyword_item n l (times (with_sign n k) (Seconds 86400)) r).
  { exists w, k. rewrite TD. auto. }
  assert (KU : forall r0, keyword_item n l a r0 -> r0 = r /\ a = times (with_sign n k) (Seconds 86400)).
  { intros r0 (w' & k' & El & Hw' & He & ->). destruct (FW w' r0 El (keyword_letters _ _ Hw') He) as [-> ->].
    rewrite (keyword_words_complete w k' Bw Hw') in Eg. injection Eg as ->. auto. }
  destruct (f_next gc r) as [r2|] eqn:Er; cbn [obind].
  - rewrite g_fin_next by exact (next_ahead _ _ Er). unfold amount_of. cbn [obind]. rewrite EA. cbn [obind]. split.
    + intros [= <- <-]. eauto.
    + intros (r0 & [H|[H|H]] & E); [|destruct (NU _ H)|destruct (NN _ H)]. destruct (KU r0 H) as [-> ->]. congruence.
  - split; [discriminate|]. intros (r0 & [H|[H|H]] & E); [|destruct (NU _ H)|destruct (NN _ H)]. destruct (KU r0 H) as [-> ->]. congruence.
Qed.

(** ** components *)
Theorem g_item_iff l a r' : bytes l ->
  (amount_of (g_item l) = Some (a, r') <-> exists r, gnu_item l a r /\ f_next gc r = Some r').
Proof.
  intros Hb. unfold g_item.
  assert (SB : forall sg l1, l = sg ++ l1 -> bytes l1).
  { intros sg l1 E x Hx. apply Hb. rewrite E. apply in_or_app. now right. }
  split.
  - destruct (f_signed gc l) as [[n l1]|] eqn:Es; [|discriminate]. cbn [obind].
    destruct (sign_sound l n l1 Es) as (sg & El & Hs). pose proof (SB sg l1 El) as B1.
    destruct l1 as [|x l2] eqn:E1; [discriminate|]. rewrite <- E1 in *.
    destruct (is_digit x) eqn:Ed.
    + intros H. apply g_number_iff in H; [|exact B1|rewrite E1; cbn [take_while]; rewrite Ed; discriminate].
      destruct H as (r & (num & W & F & ds & l3 & -> & HN & Hd & HC) & Er). exists r. split; [|exact Er]. rewrite El.
      destruct HC as [(g & ago & HP & HA)|(-> & H1 & H2 & H3 & H4)].
      * exact (gi_number_unit sg n num W F ds l3 g ago r a Hs HN Hd HP HA).
      * exact (gi_number sg n num W F ds l3 a Hs HN Hd H1 H2 H3 H4).
    + destruct (is_dot x) eqn:Ex.
      * intros H. exfalso. revert H. unfold g_number, amount_of.
        assert (EF : exists F l4, g_fraction l1 = (Some F, l4)).
        { rewrite E1. cbn [g_fraction]. rewrite Ex. eauto. }
        destruct EF as (F & l4 & ->). destruct (is_empty ([] ++ opt_text (Some F))); [discriminate|].
        destruct (match l4 with x :: _ => is_e x | [] => false end); [discriminate|].
        destruct (f_unit_delimiter gc l4) as [l5|]; [|discriminate]. cbn [obind].
        assert (NA : forall o, item_amount (Item n (nonempty []) (Some F) None o) = None).
        { intros o. unfold item_amount. destruct (item_um _); reflexivity. }
        destruct l5 as [|y l5]; [cbn [obind]; rewrite NA; discriminate|].
        destruct (fm_ntu gc gu (y :: l5)) as [[o l6]|]; [|discriminate]. cbn [obind]. unfold g_fin.
        destruct (f_next gc l6); [|discriminate]. cbn [obind]. rewrite NA. discriminate.
      * intros H. apply g_word_iff in H; [|exact B1]. destruct H as (r & HC & Er). exists r. split; [|exact Er]. rewrite El.
        destruct HC as [(w & k & -> & Hw & He & ->)|[(g & ago & HP & ->)|(w & k & ds & l3 & g & ago & -> & Hw & Hd & Nd & HP & ->)]].
        -- now apply gi_keyword.
        -- now apply gi_unit.
        -- exact (gi_numeral sg n w k ds l3 g ago r Hs Hw Hd Nd HP).
  - intros (r & HI & Er).
    assert (DG : forall sg n num ds l1 W F, gnu_sign sg n -> gnu_number (ds ++ l1) num W F -> l = sg ++ num ++ ds ++ l1 ->
       number_item n (num ++ ds ++ l1) a r -> 
       amount_of (let? (n, l1) := f_signed gc l in
          match l1 with
          | [] => None
          | x :: _ => if is_digit x then g_number n (take_while is_digit l1) (drop_while is_digit l1)
                      else if is_dot x then g_number n [] l1 else g_word n l1
          end) = Some (a, r')).
    { intros sg n num ds l1 W F Hs HN El HI'. destruct (number_inv _ _ _ _ HN) as (E1 & _ & _ & NW & x & l2 & E2 & Ed).
      pose proof (SB _ _ El) as B1. rewrite E2 in *. rewrite El. rewrite (sign_complete sg n x l2 Hs).
      - cbn [obind]. rewrite Ed. apply g_number_iff; [exact B1|rewrite E1; exact NW|]. exists r. auto.
      - apply is_digit_iff in Ed. unfold is_sign. lia.
      - apply is_digit_iff in Ed. unfold white. lia. }
    assert (DW : forall sg n l1, gnu_sign sg n -> l = sg ++ l1 ->
       keyword_item n l1 a r \/ unit_item n l1 a r \/ numeral_item n l1 a r ->
       amount_of (let? (n, l1) := f_signed gc l in
          match l1 with
          | [] => None
          | x :: _ => if is_digit x then g_number n (take_while is_digit l1) (drop_while is_digit l1)
                      else if is_dot x then g_number n [] l1 else g_word n l1
          end) = Some (a, r')).
    { intros sg n l1 Hs El HC. pose proof (SB _ _ El) as B1.
      assert (HL : exists w l', l1 = w ++ l' /\ letters w).
      { destruct (first_word n l1 a r) as (F1 & F2 & F3). destruct HC as [H|[H|H]]; [destruct (F1 H) as (w & l' & k & E & L & _)|
         destruct (F2 H) as (w & l' & k & E & L & _)|destruct (F3 H) as (w & l' & k & E & L & _)]; eauto. }
      destruct HL as (w & l' & E1 & L). destruct (letters_head w l' L) as (x & l2 & E2 & D1 & D2 & D3 & D4).
      rewrite E1, E2 in El. rewrite El. rewrite (sign_complete sg n x l2 Hs D3 D4). cbn [obind]. rewrite D1, D2.
      rewrite <- E2, <- E1. apply g_word_iff; [exact B1|]. exists r. auto. }
    inversion HI; subst.
    + apply (DG sg n num ds l0 W F); auto. exists num, W, F, ds, l0. repeat split; auto. left. eauto.
    + apply (DG sg n num ds r W F); auto. exists num, W, F, ds, r. repeat split; auto. right. repeat split; auto.
    + apply (DW sg n l0); auto. right. left. exists g, ago. auto.
    + apply (DW sg n (w ++ ds ++ l0)); auto. right. right. exists w, k, ds, l0, g, ago. auto 8.
    + apply (DW sg n (w ++ r)); auto. left. exists w, k. auto.
Qed.

(** ** relative times *)
Lemma relative_nonempty l as_ : relative_time l as_ -> l <> [].
Proof.
  assert (H : forall l a r, gnu_item l a r -> l <> []).
  { intros l0 a r HI ->. assert (B : bytes []) by (intros x []).
    inversion HI; subst; repeat match goal with H : [] = _ |- _ => symmetry in H | H : _ ++ _ = [] |- _ => apply app_eq_nil in H; destruct H end; subst.
    all: try match goal with H : gnu_number _ [] _ _ |- _ => destruct (number_inv _ _ _ _ H) as (_ & _ & _ & NW & _); inversion H; subst end.
    all: try congruence.
    all: try match goal with H : _ ++ _ :: _ = [] |- _ => apply app_eq_nil in H; destruct H; discriminate end.
    all: try match goal with H : unit_phrase [] _ _ _ |- _ => destruct (phrase_ahead _ _ _ _ H); congruence end.
    all: match goal with H : word_for _ [] _ |- _ => apply keyword_letters in H; destruct H; congruence end. }
  intros [l0 a HI|l0 a ds r rs HI _ _ _]; eauto.
Qed.

Theorem g_items_iff : forall fuel l as_, utf8 l = true -> (length l < fuel)%nat ->
  (g_items fuel l = Some as_ <-> relative_time l as_).
Proof.
  induction fuel as [|f IH]; intros l as_ U L; [lia|]. cbn [g_items].
  pose proof (fun a r' => g_item_iff l a r' (utf8_bytes l U)) as GI. unfold amount_of in GI.
  pose proof (fun it r => g_item_progress l it r U) as Pr.
  split.
  - destruct (g_item l) as [[it r]|]; [|discriminate]. cbn [obind] in *. destruct (item_amount it) as [a|]; [|discriminate]. cbn [obind] in *.
    destruct (Pr it r eq_refl) as [Lr Ur]. destruct (proj1 (GI a r) eq_refl) as (r0 & HI & Er). apply f_next_iff in Er.
    destruct Er as (ds & E0 & Hd & Ha & Hn).
    destruct r as [|x r1] eqn:E1.
    + intros [= <-]. destruct Hn as [->|Hn]; [|congruence]. subst r0. now apply rt_last.
    + rewrite <- E1 in *. destruct (g_items f r) as [rs|] eqn:Eg; [|discriminate].
      cbn [obind]. intros [= <-].
      rewrite E0 in HI. apply (rt_more l a ds r rs HI Hd Ha). apply IH; auto. lia.
  - intros HR. inversion HR; subst.
    + assert (E : f_next gc [] = Some []) by reflexivity.
      assert (G : exists r, gnu_item l a r /\ f_next gc r = Some []) by eauto. apply GI in G.
      destruct (g_item l) as [[it r]|]; [|discriminate]. cbn [obind] in *. destruct (item_amount it); [|discriminate]. cbn [obind] in *.
      injection G as -> ->. reflexivity.
    + pose proof (relative_nonempty _ _ H2) as Nr.
      assert (G : exists r0, gnu_item l a r0 /\ f_next gc r0 = Some r).
      { exists (ds ++ r). split; [assumption|]. apply f_next_iff. exists ds. auto. }
      apply GI in G.
      destruct (g_item l) as [[it r0]|]; [|discriminate]. cbn [obind] in *. destruct (item_amount it); [|discriminate]. cbn [obind] in *.
      injection G as -> ->. destruct (Pr it r eq_refl) as [Lr Ur].
      destruct r as [|x r1] eqn:E1; [congruence|]. rewrite <- E1 in *.
      rewrite (proj2 (IH r rs Ur ltac:(lia)) H2). reflexivity.
Qed.
