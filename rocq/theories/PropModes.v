(** * Properties C55 and C56: single and multiple durations *)
From Verif Require Import Prelude Util Time Config Bytes Repr Parse SpecTime SpecNum SpecValue SpecParse SpecGrammar SpecSpelling
  TimeProofs NumProofs Utf8Proofs BytesProofs ReprProofs ValueProofs SafeProofs RefParse RefProofs RefSingle RefMulti RefGrammar SpellProofs SwitchProofs StandardProofs FitProofs PropParse ExEnv.

(** ** C55: what is accepted as a single duration is accepted as the only one of several *)

(** identifiers of time units, keywords and numerals are not empty, are made of other bytes than delimiters, digits and
    signs, and no two of the tables have one in common; the letter i is no delimiter *)
Definition plain_identifier (c : config) (id : str) : Prop :=
  id <> [] /\ forall x, In x id -> c_inner_delimiter c x = false /\ c_outer_delimiter c x = false /\ starts_duration x = false.
Record plain_tables (c : config) (tu : units_like) (kw : option units_like) (nums : option numbers_like) : Prop := {
  pt_units : forall id, u_get tu id <> None -> plain_identifier c id;
  pt_keywords : forall k id, kw = Some k -> u_get k id <> None -> plain_identifier c id;
  pt_numerals : forall f id, nums = Some f -> f id <> None -> plain_identifier c id;
  pt_units_keywords : forall k id, kw = Some k -> u_get k id <> None -> u_get tu id = None;
  pt_units_numerals : forall f id, nums = Some f -> f id <> None -> u_get tu id = None;
  pt_keywords_numerals : forall k f id, kw = Some k -> nums = Some f -> f id <> None -> u_get k id = None;
  pt_letter : c_outer_delimiter c 105 = false /\ c_outer_delimiter c 73 = false
}.

Section SingleIsComponent.
Context (c : config) (tu : units_like) (kw : option units_like) (nums : option numbers_like).
Hypothesis PT : plain_tables c tu kw nums.

Lemma plain_not_end id : plain_identifier c id -> forall x, In x id -> unit_end c x = false /\ keyword_end c x = false.
Proof. intros [_ H] x Hx. destruct (H x Hx) as (H1 & H2 & H3). unfold unit_end, keyword_end. rewrite H1, H2, H3. now rewrite andb_false_r. Qed.
Lemma until_all p l : (forall x, In x l -> p x = false) -> until p l l [].
Proof. intros H. split; [now rewrite app_nil_r|]. split; [|exact I]. intros x Hx. now rewrite H. Qed.
Lemma next_nil : next_component c [] [].
Proof. now apply nc_adjacent. Qed.
Lemma no_ago_nil r : ~ ago c [] r.
Proof. intros (_ & ds & a & (E & _) & N & _). symmetry in E. apply app_eq_nil in E. destruct E. congruence. Qed.
Lemma until_stop p l w r x y : l = w ++ x :: y -> (forall z, In z w -> p z = false) -> p x = true -> until p l w r -> r = x :: y.
Proof. intros -> Hw Hx (E & _ & _). now apply app_inv_head in E. Qed.
(** the longest prefix without a byte of p, which has no byte of q, of w followed by a byte of q *)
Lemma until_other p q w x y w0 r0 : (forall z, In z w -> p z = false) -> q x = true -> (forall z, In z w0 -> q z = false) ->
  (forall z, In z w -> q z = false) -> until p (w ++ x :: y) w0 r0 -> w0 = w.
Proof.
  revert w0. induction w as [|v w IH]; intros w0 Hw Hx Hq Hqw (E & H1 & H2); cbn [app] in E.
  - destruct w0 as [|v0 w0]; [reflexivity|]. cbn in E. injection E as <- _. rewrite Hq in Hx by now left. discriminate.
  - destruct w0 as [|v0 w0]; cbn in E.
    + subst r0. cbn in H2. rewrite Hw in H2 by now left. discriminate.
    + injection E as <- E. f_equal. apply IH; auto.
      * intros z Hz. apply Hw. now right.
      * intros z Hz. apply Hq. now right.
      * intros z Hz. apply Hqw. now right.
      * split; [exact E|]. split; [|exact H2]. intros z Hz. apply H1. now right.
Qed.
Lemma until_whole p w w0 r0 : (forall z, In z w -> p z = false) -> until p w w0 r0 -> w0 = w /\ r0 = [].
Proof.
  intros H (E & _ & Hr). destruct r0 as [|x r0]; [rewrite app_nil_r in E; auto|]. cbn in Hr. rewrite H in Hr; [discriminate|]. rewrite E. apply in_or_app. right. now left.
Qed.

(** a unit which may be followed by ago: its identifier and what follows *)
Lemma single_unit_id l u m : single_unit c tu l u m -> exists id m0, u_get tu id = Some (u, m0) /\
  ((l = id /\ m = m0) \/ exists x ds a, c_allow_ago c = true /\ l = id ++ x :: ds ++ a /\ c_inner_delimiter c x = true /\
     (forall y, In y ds -> c_inner_delimiter c y = true) /\ starts_not (c_inner_delimiter c) a /\ str_eq_nocase a (%"ago") = true /\ m = mul_saturating_neg m0).
Proof.
  intros [l' u' m' _ Hg|l' u' m' _ _ _ Hg|l' w l1 ds a u' m' Ha (-> & Hw & Hl) Nw Hg (-> & Hd & Hn) He].
  - exists l', m'. auto.
  - exists l', m'. auto.
  - exists w, m'. split; [exact Hg|]. right. destruct ds as [|x ds].
    + destruct a as [|y a]; [discriminate|]. cbn in Hl, Hn. rewrite Hn in Hl. discriminate.
    + exists x, ds, a. split; [exact Ha|]. split; [reflexivity|]. split; [apply Hd; now left|]. split; [intros y Hy; apply Hd; now right|]. auto.
Qed.
Lemma some_get {A B} (o : option (A * B)) a b : o = Some (a, b) -> o <> None.
Proof. congruence. Qed.
Lemma single_unit_multi l u m : single_unit c tu l u m -> multi_unit c tu l u m [].
Proof.
  intros H. destruct (single_unit_id l u m H) as (id & m0 & Hg & [[-> ->]|(x & ds & a & Ha & -> & Hx & Hds & Hn & He & ->)]).
  - pose proof (pt_units _ _ _ _ PT id (some_get _ _ _ Hg)) as P. apply mu_plain with id []; auto.
    + apply until_all. intros x Hx. now apply (plain_not_end id P).
    + apply P.
    + intros r'. apply no_ago_nil.
    + intros _ [N _]. now apply N.
    + apply next_nil.
  - pose proof (pt_units _ _ _ _ PT id (some_get _ _ _ Hg)) as P. apply mu_ago with id (x :: ds ++ a) []; auto.
    + split; [reflexivity|]. split; [intros y Hy; apply negb_true_iff; now apply (plain_not_end id P)|].
      cbn. unfold unit_end. rewrite Ha, Hx. now rewrite orb_true_r.
    + apply P.
    + split; [exact Ha|]. exists (x :: ds), a. split; [|split; [discriminate|split; [|now left]]].
      * split; [reflexivity|]. split; [|exact Hn]. intros y [<-|Hy]; auto.
      * exists a. split; [now rewrite app_nil_r|exact He].
    + apply next_nil.
Qed.
(** no keyword is in front of a unit or a numeral *)
Lemma no_keyword_unit l u0 m0 : single_unit c tu l u0 m0 -> (forall u m, ~ single_keyword_is kw l u m) -> forall u m r, ~ multi_keyword_is c kw l u m r.
Proof.
  intros H N u m r (k & w & Ek & Hu & Nw & Hg). pose proof (pt_keywords _ _ _ _ PT k w Ek (some_get _ _ _ Hg)) as Pk.
  destruct (single_unit_id l u0 m0 H) as (id & m1 & Hi & [[-> ->]|(x & ds & a & Ha & -> & Hx & _)]);
    pose proof (pt_units _ _ _ _ PT id (some_get _ _ _ Hi)) as P.
  - destruct (until_whole _ _ _ _ (fun z Hz => proj2 (plain_not_end id P z Hz)) Hu) as [-> _]. apply (N u m). exists k. auto.
  - assert (w = id) as ->.
    { apply (until_other (keyword_end c) (c_inner_delimiter c) id x (ds ++ a) w r); auto.
      - intros z Hz. now apply (plain_not_end id P).
      - intros z Hz. now apply Pk.
      - intros z Hz. now apply P. }
    rewrite (pt_units_keywords _ _ _ _ PT k id Ek (some_get _ _ _ Hg)) in Hi. discriminate.
Qed.
Lemma numeral_id l n r : numeral_prefix c nums l n r -> exists f id x y, nums = Some f /\ f id = Some n /\ l = id ++ x :: y /\ c_inner_delimiter c x = true.
Proof.
  intros (f & w & l1 & ds & Ef & (-> & _ & _) & Nw & Hw & (-> & Hd & _) & Nd & _). destruct ds as [|x ds]; [congruence|].
  exists f, w, x, (ds ++ r). split; [exact Ef|]. split; [exact Hw|]. split; [reflexivity|]. apply Hd. now left.
Qed.
Lemma no_keyword_numeral l n r0 : numeral_prefix c nums l n r0 -> forall u m r, ~ multi_keyword_is c kw l u m r.
Proof.
  intros H u m r (k & w & Ek & Hu & Nw & Hg). pose proof (pt_keywords _ _ _ _ PT k w Ek (some_get _ _ _ Hg)) as Pk.
  destruct (numeral_id l n r0 H) as (f & id & x & y & Ef & Hi & -> & Hx). assert (Ni : f id <> None) by congruence.
  pose proof (pt_numerals _ _ _ _ PT f id Ef Ni) as P.
  assert (w = id) as ->.
  { apply (until_other (keyword_end c) (c_inner_delimiter c) id x y w r); auto.
    - intros z Hz. now apply (plain_not_end id P).
    - intros z Hz. now apply Pk.
    - intros z Hz. now apply P. }
  rewrite (pt_keywords_numerals _ _ _ _ PT k f id Ek Ef Ni) in Hg. discriminate.
Qed.
Lemma no_unit_numeral l n r0 : numeral_prefix c nums l n r0 -> ~ multi_unit_like c tu l.
Proof.
  intros H (w & l1 & Hu & Nw & Hg). pose proof (pt_units _ _ _ _ PT w Hg) as Pu.
  destruct (numeral_id l n r0 H) as (f & id & x & y & Ef & Hi & -> & Hx). assert (Ni : f id <> None) by congruence.
  pose proof (pt_numerals _ _ _ _ PT f id Ef Ni) as P.
  assert (w = id) as ->.
  { apply (until_other (unit_end c) (c_inner_delimiter c) id x y w l1); auto.
    - intros z Hz. now apply (plain_not_end id P).
    - intros z Hz. now apply Pu.
    - intros z Hz. now apply P. }
  now apply Hg, (pt_units_numerals _ _ _ _ PT f id).
Qed.

Lemma nocase_split l : forall a b, str_eq_nocase l (a ++ b) = true -> exists v r, l = v ++ r /\ str_eq_nocase v a = true /\ str_eq_nocase r b = true.
Proof.
  induction l as [|x l IH]; intros [|y a] b H; try (exists [], []; cbn in *; auto; fail); try discriminate.
  - exists [], (x :: l). auto.
  - cbn [app str_eq_nocase] in H. apply andb_true_iff in H. destruct H as [H1 H2]. destruct (IH a b H2) as (v & r & -> & E1 & E2).
    exists (x :: v), r. split; [reflexivity|]. split; [|exact E2]. cbn [str_eq_nocase]. now rewrite H1.
Qed.
Lemma single_component s d : single_duration c tu kw nums s d -> component c tu kw nums s d [].
Proof.
  intros [s0 n l W F x Hs Hn|s0 n l W F x r u m Hs Hn Nr Eu Hu|s0 n l Hs Hd Hi|s0 n l u m Hs Hw Hk|s0 n l u m Hs Hw Hk Ho Hu|s0 n l num r u m Hs Hw Hk Ho Hp Hu].
  - apply co_number with l []; auto; [|apply next_nil]. right. intros (w & l1 & (E & _) & N & _). symmetry in E. apply app_eq_nil in E. now destruct E.
  - apply co_number_unit with l r; auto. now apply single_unit_multi.
  - destruct Hi as [Hi|Hi].
    + apply co_inf with l []; auto; [|now left|apply next_nil]. exists l. split; [now rewrite app_nil_r|exact Hi].
    + change (%"infinity") with ((%"inf") ++ (%"inity")) in Hi. destruct (nocase_split l _ _ Hi) as (v & l0 & -> & H1 & H2).
      apply co_infinity with (v ++ l0) l0 []; auto; [| | |now left|apply next_nil].
      * exists v. auto.
      * intros [->|Hl]; [discriminate|]. destruct l0 as [|y l0]; [destruct Hl|]. cbn in Hl.
        change (%"inity") with (105 :: %"nity") in H2. cbn [str_eq_nocase] in H2.
        apply andb_true_iff in H2. destruct H2 as [Hy _]. destruct (pt_letter _ _ _ _ PT) as [P1 P2].
        assert (y = 105 \/ y = 73) as [->| ->] by (revert Hy; unfold eq_nocase; change (to_lower 105) with 105; unfold to_lower; destruct ((65 <=? y) && (y <=? 90)); lia); congruence.
      * exists l0. split; [now rewrite app_nil_r|exact H2].
  - destruct Hk as (k & Ek & Hg). pose proof (pt_keywords _ _ _ _ PT k l Ek (some_get _ _ _ Hg)) as P.
    apply co_keyword with l []; auto; [|apply next_nil]. exists k, l. split; [exact Ek|]. split; [|split; [apply P|exact Hg]].
    apply until_all. intros y Hy. now apply (plain_not_end l P).
  - apply co_unit with l; auto; [|now apply single_unit_multi]. now apply (no_keyword_unit l u m).
  - apply co_numeral with l r; auto; [| |now apply single_unit_multi].
    + now apply (no_keyword_numeral l num r).
    + intros _. now apply (no_unit_numeral l num r).
Qed.
End SingleIsComponent.

Theorem C55_single_within_multiple : forall c tu kw nums s d cj, env_ok c tu kw nums -> utf8 s = true -> c_allow_multiple c = false ->
  plain_tables c tu kw nums ->
  (forall x, c_inner_delimiter c x = true -> keyword_end c x = true) -> (forall l w, cj = Some l -> In w l -> utf8 w = true) ->
  parse c s tu kw nums = Ok d ->
  exists D, parse (set_allow_multiple c true cj) s tu kw nums = Ok D /\ duration_ok D /\ nanos D = nanos d.
Proof.
  intros c tu kw nums s d cj HE U Hm PT HI HC H. pose proof (parse_result_ok _ _ _ _ _ _ HE U H) as O.
  set (c' := set_allow_multiple c true cj).
  assert (HE' : env_ok c' tu kw nums) by (destruct HE; constructor; auto).
  assert (PT' : plain_tables c' tu kw nums) by (destruct PT; constructor; auto).
  assert (H' : parse_single c' s tu kw nums = Ok d).
  { unfold parse in H. rewrite Hm in H. exact H. }
  apply (parse_single_grammar c' tu kw nums s d HE' U) in H'. destruct H' as [H1 H2].
  apply (single_component c' tu kw nums PT') in H1.
  destruct (C23_multiple_complete c' tu kw nums s [d] HE') as (D & P & OD & V); auto.
  - apply delims_strict_ok. intros _ x Hx. exact (HI x Hx).
  - now apply cs_last.
  - intros y [<-|[]]. exact H2.
  - exists D. split; [exact P|]. split; [exact OD|]. rewrite V. unfold saturating_sum. cbn [fold_left]. unfold clamp_nanos, clamp.
    assert (R : nanos MIN <= nanos d <= nanos MAX) by (apply representable_iff_between; eauto). change (nanos MIN) with (- max_nanos) in R. change (nanos MAX) with max_nanos in R. lia.
Qed.
Print Assumptions C55_single_within_multiple.
Lemma ex_plain : plain_tables ex_single ex_units (Some ex_keywords) (Some ex_numerals).
Proof.
  assert (T : forall A (l : list (str * A)) id, table l id <> None -> In id (map fst l)).
  { intros A l id. unfold table. destruct (find _ l) as [e|] eqn:E; [|congruence]. intros _. apply find_some in E. destruct E as [Hi He].
    apply str_eqb_iff in He. subst id. now apply in_map. }
  constructor.
  - intros id H. apply T in H. cbn in H. repeat destruct H as [<-|H]; try contradiction; (split; [discriminate|each; auto]).
  - intros k id [= <-] H. apply T in H. cbn in H. repeat destruct H as [<-|H]; try contradiction; (split; [discriminate|each; auto]).
  - intros f id [= <-] H. apply T in H. cbn in H. repeat destruct H as [<-|H]; try contradiction; (split; [discriminate|each; auto]).
  - intros k id [= <-] H. apply T in H. cbn in H. repeat destruct H as [<-|H]; try contradiction; reflexivity.
  - intros f id [= <-] H. apply T in H. cbn in H. repeat destruct H as [<-|H]; try contradiction; reflexivity.
  - intros k f id [= <-] [= <-] H. apply T in H. cbn in H. repeat destruct H as [<-|H]; try contradiction; reflexivity.
  - split; reflexivity.
Qed.
Example C55_single_within_multiple_example : plain_tables ex_single ex_units (Some ex_keywords) (Some ex_numerals) /\
  (forall x, c_inner_delimiter ex_single x = true -> keyword_end ex_single x = true) /\
  parse ex_single (%"- half y ago") ex_units (Some ex_keywords) (Some ex_numerals) = Ok (Dur false (Std 15778800 0)) /\
  parse (set_allow_multiple ex_single true (Some [%"and"])) (%"- half y ago") ex_units (Some ex_keywords) (Some ex_numerals) = Ok (Dur false (Std 15778800 0)).
Proof. split; [exact ex_plain|]. split; [intros x H; unfold keyword_end; cbn in *; now rewrite H|]. split; reflexivity. Qed.
(** with a digit in an identifier the modes read the same text differently *)
Definition digit_units : units_like := Units false (table [(%"m2", (Minute, Mul 1 0)); (%"m", (Hour, Mul 1 0))]).
Theorem C55_identifiers_with_digits_refuted : exists s d D,
  parse config_new s digit_units None None = Ok d /\ parse (set_allow_multiple config_new true None) s digit_units None None = Ok D /\ deqb d D = false.
Proof. exists (%"1m2"). eexists _, _. split; [reflexivity|]. split; reflexivity. Qed.
Print Assumptions C55_identifiers_with_digits_refuted.

(** ** C56: two accepted inputs with delimiters between them *)

(** delimiters are no letters, digits, signs or points; conjunctions are words without delimiters which do not start like a number *)
Definition is_letter (x : byte) : bool := ((65 <=? x) && (x <=? 90)) || ((97 <=? x) && (x <=? 122)).
Definition plain_byte (x : byte) : bool := is_letter x || is_digit x || is_sign x || is_dot x.
Definition plain_delimiters (c : config) : Prop :=
  (forall x, plain_byte x = true -> c_inner_delimiter c x = false /\ c_outer_delimiter c x = false) /\
  (forall w, In w (conjunctions c) -> starts_with (fun x => negb (starts_duration x)) w /\ forall x, In x w -> c_outer_delimiter c x = false).

Section Concatenation.
Context (c : config) (tu : units_like) (kw : option units_like) (nums : option numbers_like).
Hypothesis PD : plain_delimiters c.
Context (dl t : str).
Hypothesis Nd : dl <> [].
Hypothesis Hdl : forall x, In x dl -> c_inner_delimiter c x = true /\ c_outer_delimiter c x = true.
Hypothesis Ht : starts_with starts_duration t.
Let z : str := dl ++ t.
Let ext (r : str) : str := match r with [] => t | _ => r ++ z end.

Lemma ext_cons r : r <> [] -> ext r = r ++ z.
Proof. now destruct r. Qed.
Lemma z_head : exists x y, z = x :: y /\ c_inner_delimiter c x = true /\ c_outer_delimiter c x = true.
Proof. unfold z. destruct dl as [|x d]; [congruence|]. destruct (Hdl x) as [H1 H2]; [now left|]. exists x, (d ++ t). auto. Qed.
Lemma z_nil : z <> [].
Proof. destruct z_head as (x & y & E & _). rewrite E. discriminate. Qed.
Lemma t_nil : t <> [].
Proof. now destruct t. Qed.
Lemma delim_not_plain x : c_inner_delimiter c x = true \/ c_outer_delimiter c x = true -> plain_byte x = false.
Proof. intros H. destruct (plain_byte x) eqn:E; [|reflexivity]. destruct (proj1 PD x E). destruct H; congruence. Qed.
Lemma t_not_delim : starts_not (c_inner_delimiter c) t /\ starts_not (c_outer_delimiter c) t.
Proof.
  destruct t as [|x t']; [destruct Ht|]. cbn in *. apply (proj1 PD). unfold starts_duration in Ht. unfold plain_byte. apply orb_true_iff in Ht.
  destruct Ht as [-> | ->]; now rewrite ?orb_true_r.
Qed.
Lemma snot_app (p : byte -> bool) b : b <> [] -> starts_not p b -> starts_not p (b ++ z).
Proof. now destruct b. Qed.
Lemma snot_app_z (p : byte -> bool) b : starts_not p b -> (forall x, c_inner_delimiter c x = true -> c_outer_delimiter c x = true -> p x = false) -> starts_not p (b ++ z).
Proof. intros H Hp. destruct b; [|exact H]. destruct z_head as (x & y & E & H1 & H2). cbn [app]. rewrite E. cbn. auto. Qed.
Lemma span_ext p l a b : span p l a b -> b <> [] -> span p (l ++ z) a (b ++ z).
Proof. intros (-> & H & Hb) N. split; [now rewrite app_assoc|]. split; [exact H|]. now destruct b. Qed.
Lemma span_ext_z p l a b : span p l a b -> (forall x, c_inner_delimiter c x = true -> c_outer_delimiter c x = true -> p x = false) -> span p (l ++ z) a (b ++ z).
Proof. intros (-> & H & Hb) Hp. split; [now rewrite app_assoc|]. split; [exact H|]. now apply snot_app_z. Qed.
Lemma until_ext p l a b : until p l a b -> (forall x, c_inner_delimiter c x = true -> c_outer_delimiter c x = true -> p x = true) -> until p (l ++ z) a (b ++ z).
Proof. intros H Hp. apply span_ext_z; [exact H|]. intros x H1 H2. now rewrite Hp. Qed.
Lemma span_det p l : forall a b a' b', span p l a b -> span p l a' b' -> a = a' /\ b = b'.
Proof.
  induction l as [|x l IH]; intros a b a' b' (E & H1 & H2) (E' & H1' & H2').
  - symmetry in E, E'. apply app_eq_nil in E, E'. destruct E, E'. subst. auto.
  - destruct a as [|y a], a' as [|y' a']; cbn in E, E'.
    + subst. auto.
    + injection E' as <- E'. subst b. cbn in H2. rewrite (H1' x) in H2 by now left. discriminate.
    + injection E as <- E. subst b'. cbn in H2'. rewrite (H1 x) in H2' by now left. discriminate.
    + injection E as <- E. injection E' as <- E'. destruct (IH a b a' b') as [-> ->]; [split; [exact E|]; split; [|exact H2]; intros v Hv; apply H1; now right|
        split; [exact E'|]; split; [|exact H2']; intros v Hv; apply H1'; now right|]. auto.
Qed.
Lemma span_exists p l : exists a b, span p l a b.
Proof.
  induction l as [|x l (a & b & E & H1 & H2)]; [exists [], []; split; [reflexivity|split; [intros x []|exact I]]|].
  destruct (p x) eqn:Ex.
  - exists (x :: a), b. split; [now rewrite E|]. split; [intros y [<-|Hy]; auto|exact H2].
  - exists [], (x :: l). split; [reflexivity|]. split; [intros y []|exact Ex].
Qed.
(** the other direction *)
Lemma until_ext_inv p l a b : until p (l ++ z) a b -> (forall x, c_inner_delimiter c x = true -> c_outer_delimiter c x = true -> p x = true) -> exists b0, until p l a b0.
Proof.
  intros H Hp. destruct (span_exists (fun x => negb (p x)) l) as (a0 & b0 & H0). exists b0.
  destruct (span_det _ _ _ _ _ _ H (until_ext p l a0 b0 H0 Hp)) as [-> _]. exact H0.
Qed.
Lemma nocase_delim x y : eq_nocase x y = true -> plain_byte x = false -> x = y.
Proof.
  unfold eq_nocase, to_lower, plain_byte, is_letter. intros H P. apply orb_false_iff in P. destruct P as [P _]. apply orb_false_iff in P. destruct P as [P _].
  apply orb_false_iff in P. destruct P as [P _]. apply orb_false_iff in P. destruct P as [P1 P2]. rewrite P1 in H.
  destruct ((65 <=? y) && (y <=? 90)) eqn:E; lia.
Qed.
Lemma word_prefix_ext w l r : word_prefix w l r -> word_prefix w (l ++ z) (r ++ z).
Proof. intros (v & -> & H). exists v. split; [now rewrite app_assoc|exact H]. Qed.
Lemma word_prefix_ext_inv w l r : (forall x, In x w -> c_outer_delimiter c x = false) -> word_prefix w (l ++ z) r -> exists r0, word_prefix w l r0 /\ r = r0 ++ z.
Proof.
  revert w. induction l as [|x l IH]; intros w Hw (v & E & H).
  - destruct v as [|y v]; cbn [app] in E; [exists []; split; [exists []; auto|auto]|].
    destruct w as [|y' w]; [discriminate|]. cbn [str_eq_nocase] in H. apply andb_true_iff in H. destruct H as [H _].
    destruct z_head as (x & y2 & Ez & H1 & H2). rewrite Ez in E. injection E as <- _.
    rewrite (nocase_delim x y' H) in H2 by (apply delim_not_plain; auto). rewrite Hw in H2 by now left. discriminate.
  - destruct v as [|y v]; cbn [app] in E.
    + exists (x :: l). split; [exists []; auto|auto].
    + injection E as <- E. destruct w as [|y' w]; [discriminate|]. cbn [str_eq_nocase] in H. apply andb_true_iff in H. destruct H as [Hy H].
      destruct (IH w) as (r0 & (v0 & -> & E0) & ->); [intros a Ha; apply Hw; now right|exists v; auto|].
      exists r0. split; [|reflexivity]. exists (x :: v0). split; [reflexivity|]. cbn [str_eq_nocase]. now rewrite Hy.
Qed.
Lemma letters_no_delim w : (forall x, In x w -> is_letter x = true) -> forall x, In x w -> c_outer_delimiter c x = false.
Proof. intros H x Hx. apply (proj1 PD). unfold plain_byte. now rewrite H. Qed.
Lemma ke x : c_inner_delimiter c x = true -> c_outer_delimiter c x = true -> keyword_end c x = true.
Proof. intros _ H. unfold keyword_end. now rewrite H. Qed.
Lemma ue x : c_inner_delimiter c x = true -> c_outer_delimiter c x = true -> unit_end c x = true.
Proof. intros H1 H2. unfold unit_end. now rewrite ke. Qed.
Lemma span_z_inner : span (c_inner_delimiter c) z dl t.
Proof. split; [reflexivity|]. split; [intros x Hx; now apply Hdl|apply t_not_delim]. Qed.
Lemma span_z_outer : span (c_outer_delimiter c) z dl t.
Proof. split; [reflexivity|]. split; [intros x Hx; now apply Hdl|apply t_not_delim]. Qed.
Lemma z_next : next_component c z t.
Proof.
  apply nc_connection. apply con_delimiter with dl; auto using span_z_outer, t_nil. intros w Hw (r' & v & E & H).
  destruct (proj2 PD w Hw) as [H1 _]. destruct w as [|y w]; [destruct H1|]. destruct v as [|x v]; [discriminate|]. cbn in H1. cbn [str_eq_nocase] in H.
  apply andb_true_iff in H. destruct H as [H _]. destruct t as [|x' t']; [destruct Ht|]. cbn in E. injection E as <- _. cbn in Ht.
  assert (x' = y) as <-; [|now rewrite Ht in H1].
  revert H Ht. unfold eq_nocase, to_lower, starts_duration, is_digit, is_sign. destruct ((65 <=? x') && (x' <=? 90)) eqn:E1, ((65 <=? y) && (y <=? 90)) eqn:E2; lia.
Qed.
Lemma next_ext l r : next_component c l r -> next_component c (l ++ z) (ext r).
Proof.
  intros [l' H|l' r' H].
  - destruct l' as [|x l']; [exact z_next|]. rewrite ext_cons by discriminate. apply nc_adjacent. exact H.
  - clear l r. destruct H as [l ds r H1 N1 N2 H2|l ds y ws1 w ws2 z0 r H1 N1 N2 Ec H2 H3 H4].
    + rewrite ext_cons by assumption. apply nc_connection. apply con_delimiter with ds; auto using span_ext.
      * now destruct r.
      * intros w Hw (r' & Hr). apply word_prefix_ext_inv in Hr; [|now apply (proj2 PD)]. destruct Hr as (r0 & Hr & _). apply (H2 w Hw). eauto.
    + assert (Nr : r <> []) by (destruct H4 as [(_ & S & ->)|(_ & _ & _ & N)]; [now destruct z0|exact N]).
      rewrite ext_cons by assumption. apply nc_connection. apply con_word with ds (y ++ z) ws1 w ws2 (z0 ++ z); auto using span_ext, word_prefix_ext.
      * now destruct y.
      * intros v Hv (r' & Hr). apply word_prefix_ext_inv in Hr; [|apply (proj2 PD); rewrite Ec; apply in_or_app; now left].
        destruct Hr as (r0 & Hr & _). apply (H2 v Hv). eauto.
      * destruct H4 as [(S1 & S2 & ->)|(ds2 & S & N3 & N4)].
        -- left. destruct z0; [destruct S2|]. auto.
        -- right. exists ds2. split; [now apply span_ext|]. split; [exact N3|]. now destruct r.
Qed.
Lemma ago_letters x : In x (%"ago") -> is_letter x = true.
Proof. intros [<-|[<-|[<-|[]]]]; reflexivity. Qed.
Lemma inf_letters x : In x (%"inf") -> is_letter x = true.
Proof. intros [<-|[<-|[<-|[]]]]; reflexivity. Qed.
Lemma ago_ext l r : ago c l r -> ago c (l ++ z) (r ++ z).
Proof.
  intros (Ha & ds & a & H1 & N & H2 & H3). split; [exact Ha|]. exists ds, (a ++ z).
  assert (Na : a <> []) by (destruct H2 as (v & -> & H2); destruct v; discriminate).
  split; [now apply span_ext|]. split; [exact N|]. split; [now apply word_prefix_ext|]. right.
  destruct H3 as [->|H3]; [|now destruct r]. destruct z_head as (x & y & E & I1 & I2). cbn [app]. rewrite E. cbn. now apply ke.
Qed.
Lemma ago_ext_inv l r : (c_allow_ago c = true -> ~ (l <> [] /\ span (c_inner_delimiter c) l l [])) -> ago c (l ++ z) r -> exists r0, ago c l r0.
Proof.
  intros H5 (Ha & ds & a & H1 & N & H2 & H3). specialize (H5 Ha).
  destruct (span_exists (c_inner_delimiter c) l) as (d0 & a0 & H0).
  destruct a0 as [|y a0].
  - destruct l as [|x l].
    + cbn [app] in H1. destruct (span_det _ _ _ _ _ _ H1 span_z_inner) as [-> ->].
      destruct H2 as (v & E & H2). destruct v as [|x v]; [discriminate|]. change (%"ago") with (97 :: %"go") in H2. cbn [str_eq_nocase] in H2.
      apply andb_true_iff in H2. destruct H2 as [H2 _]. destruct t as [|x' t']; [destruct Ht|]. injection E as -> _. cbn in Ht.
      revert Ht H2. unfold eq_nocase, to_lower, starts_duration, is_digit, is_sign. change ((65 <=? 97) && (97 <=? 90)) with false. destruct ((65 <=? x) && (x <=? 90)) eqn:E1; lia.
    + destruct H5. split; [discriminate|]. destruct H0 as (E & H0 & _). rewrite app_nil_r in E. rewrite <- E in H0. split; [now rewrite app_nil_r|]. split; [exact H0|exact I].
  - destruct (span_det _ _ _ _ _ _ H1 (span_ext _ _ _ _ H0 ltac:(discriminate))) as [-> ->].
    apply word_prefix_ext_inv in H2; [|apply letters_no_delim, ago_letters]. destruct H2 as (r0 & H2 & ->).
    exists r0. split; [exact Ha|]. exists d0, (y :: a0). split; [exact H0|]. split; [exact N|]. split; [exact H2|].
    destruct r0 as [|x r0]; [now left|]. right. destruct H3 as [H3|H3]; [discriminate|exact H3].
Qed.
Lemma multi_unit_ext l u m r : multi_unit c tu l u m r -> multi_unit c tu (l ++ z) u m (ext r).
Proof.
  intros [l' w l1 u' m' r' H1 N H2 H3 H4 H5|l' w l1 l2 u' m' r' H1 N H2 H3 H4].
  - apply mu_plain with w (l1 ++ z); auto using next_ext.
    + apply until_ext; [exact H1|exact ue].
    + intros r0 Hr. destruct (ago_ext_inv l1 r0 H4 Hr) as (r1 & Hr1). now apply (H3 r1).
    + intros _ [_ (_ & HA & _)]. assert (T : exists x, In x t /\ c_inner_delimiter c x = false).
      { pose proof (proj1 t_not_delim) as T. clear - T Ht. destruct t as [|x t']; [destruct Ht|]. exists x. split; [now left|exact T]. }
      destruct T as (x & T1 & T2). rewrite HA in T2; [discriminate|]. apply in_or_app. right. unfold z. apply in_or_app. now right.
  - apply mu_ago with w (l1 ++ z) (l2 ++ z); auto using next_ext, ago_ext. apply until_ext; [exact H1|exact ue].
Qed.
Lemma unit_like_ext l : multi_unit_like c tu (l ++ z) -> multi_unit_like c tu l.
Proof. intros (w & l1 & H & N & G). destruct (until_ext_inv _ _ _ _ H ue) as (l0 & H0). exists w, l0. auto. Qed.
Lemma keyword_ext_inv l u m r : multi_keyword_is c kw (l ++ z) u m r -> exists r0, multi_keyword_is c kw l u m r0.
Proof. intros (k & w & E & H & N & G). destruct (until_ext_inv _ _ _ _ H ke) as (l0 & H0). exists l0, k, w. auto. Qed.
Lemma numeral_ext l n r : numeral_prefix c nums l n r -> numeral_prefix c nums (l ++ z) n (r ++ z).
Proof.
  intros (f & w & l1 & ds & E & H1 & N & Hf & H2 & N2 & N3). exists f, w, (l1 ++ z), ds. split; [exact E|]. split; [|split; [exact N|split; [exact Hf|split; [now apply span_ext|split; [exact N2|now destruct r]]]]].
  apply until_ext; auto.
Qed.
Lemma word_ext l : l <> [] -> word c l -> word c (l ++ z).
Proof.
  intros N (H1 & H2 & H3). split; [now apply snot_app|]. split; [now apply snot_app|]. intros Hi (r & Hr). apply (H3 Hi).
  apply word_prefix_ext_inv in Hr; [|apply letters_no_delim, inf_letters]. destruct Hr as (r0 & Hr & _). eauto.
Qed.
Lemma signed_ext s n l : signed c s n l -> signed c (s ++ z) n (l ++ z) /\ l <> [].
Proof.
  intros [l0 H N|y l0 r Hy Hd -> N|y l0 ds0 r Hy Hd H N]; split; auto.
  - apply unsigned; [now apply snot_app|]. now destruct l0.
  - apply with_sign; auto. now destruct r.
  - apply with_sign_delimiter with ds0; auto; [now apply span_ext|]. now destruct r.
Qed.
Lemma number_ext l W F x r : number c l W F x r ->
  exists r', number c (l ++ z) W F x r' /\ ((r <> [] /\ r' = r ++ z) \/ (r = [] /\ (r' = t \/ r' = z))).
Proof.
  intros (l1 & l2 & l3 & Hs & Hf & He & Hu & N).
  assert (NP : forall (p : byte -> bool), (forall x, p x = true -> plain_byte x = true) -> forall x, c_inner_delimiter c x = true -> c_outer_delimiter c x = true -> p x = false).
  { intros p Hp y H1 _. destruct (p y) eqn:E; [|reflexivity]. apply Hp in E. rewrite delim_not_plain in E by auto. discriminate. }
  assert (ND : forall x, c_inner_delimiter c x = true -> c_outer_delimiter c x = true -> is_digit x = false).
  { apply NP. intros y H. unfold plain_byte. rewrite H. now rewrite ?orb_true_r. }
  assert (NO : forall x, c_inner_delimiter c x = true -> c_outer_delimiter c x = true -> is_dot x = false).
  { apply NP. intros y H. unfold plain_byte. rewrite H. now rewrite ?orb_true_r. }
  assert (NE : forall x, c_inner_delimiter c x = true -> c_outer_delimiter c x = true -> is_e x = false).
  { apply NP. intros y H. unfold plain_byte, is_letter. unfold is_e in H. replace (_ || _) with true by lia. reflexivity. }
  assert (U : exists r', unit_delimiter c (l3 ++ z) r' /\ ((r <> [] /\ r' = r ++ z) \/ (r = [] /\ (r' = t \/ r' = z)))).
  { destruct Hu as [l0 Ha|l0 ds r0 Ha H Hn].
    - exists (l0 ++ z). split; [now apply no_unit_delimiter|]. destruct l0; [right; auto|left; split; [discriminate|reflexivity]].
    - destruct r0 as [|y r0].
      + destruct Hn as [->|Hn]; [|congruence]. destruct H as (-> & _). cbn [app]. exists t. split; [|right; auto].
        apply some_unit_delimiter with dl; auto using span_z_inner. right. exact t_nil.
      + exists ((y :: r0) ++ z). split; [|left; split; [discriminate|reflexivity]]. apply some_unit_delimiter with ds; auto; [apply span_ext; [exact H|discriminate]|].
        right. discriminate. }
  destruct U as (r' & Hu' & Hc). exists r'. split; [|exact Hc].
  exists (l1 ++ z), (l2 ++ z), (l3 ++ z). split; [now apply span_ext_z|]. split; [|split; [|split; [exact Hu'|exact N]]].
  - destruct Hf as [l0 H|l0 F0 r0 Hd H]; [apply no_fraction; now apply snot_app_z|]. apply some_fraction; [exact Hd|now apply span_ext_z].
  - destruct He as [l0 H|y sg n l0 ds r0 e Hy Hd Hsg H Nds Ee Er]; [apply no_exponent; now apply snot_app_z|].
    cbn [app]. rewrite <- app_assoc. apply some_exponent with n ds; auto. now apply span_ext_z.
Qed.
Lemma ends_ext l : ends_or_delimited c l -> ends_or_delimited c (l ++ z).
Proof. intros [->|H]; right; [|now destruct l]. destruct z_head as (x & y & E & H1 & H2). cbn [app]. rewrite E. exact H2. Qed.
Lemma ends_ext_inv l : ends_or_delimited c (l ++ z) -> ends_or_delimited c l.
Proof.
  destruct l as [|x l]; [now left|]. intros [H|H]; [discriminate|]. right. exact H.
Qed.
Lemma component_ext s d r : component c tu kw nums s d r -> component c tu kw nums (s ++ z) d (ext r).
Proof.
  intros [s0 n l W F x r0 l1 Hs Hn Hu Hr|s0 n l W F x l1 u m r0 Hs Hn Eu Hu|s0 n l l1 r0 Hs Hd Hi He Hr|s0 n l l0 l1 r0 Hs Hd Hi He0 Hi2 He Hr
      |s0 n l u m l1 r0 Hs Hw Hk Hr|s0 n l u m r0 Hs Hw Hk Ho Hu|s0 n l num l1 u m r0 Hs Hw Hk Ho Hp Hu];
    destruct (signed_ext s0 n l Hs) as [Hs' Nl].
  - destruct (number_ext l W F x l1 Hn) as (r' & Hn' & [[N ->]|[-> Hr']]).
    + apply co_number with (l ++ z) (l1 ++ z); auto using next_ext. destruct Hu as [Hu|Hu]; [now left|]. right. intros H. now apply Hu, unit_like_ext.
    + assert (r0 = []) as ->.
      { inversion Hr as [l2 H E1 E2|l2 r2 H E1 E2]; subst; [reflexivity|].
        inversion H as [l3 ds3 r3 (E & _) N1 _ _|l3 ds3 y3 ws1 w ws2 z0 r3 (E & _) N1 _ _ _ _ _]; subst; symmetry in E; apply app_eq_nil in E; now destruct E. }
      cbn [ext]. apply co_number with (l ++ z) r'; auto.
      * right. intros (w & l2 & (E & H & _) & Nw & _). destruct w as [|y w]; [congruence|]. specialize (H y (or_introl eq_refl)).
        destruct Hr' as [->| ->].
        -- destruct t as [|x' t']; [destruct Ht|]. injection E as <- _. unfold unit_end, keyword_end in H. cbn in Ht. rewrite Ht, orb_true_r in H. discriminate.
        -- destruct z_head as (x' & y' & Ez & I1 & I2). rewrite Ez in E. injection E as <- _. rewrite ue in H by assumption. discriminate.
      * destruct Hr' as [->| ->]; [|exact z_next]. apply nc_adjacent. apply t_not_delim.
  - destruct (number_ext l W F x l1 Hn) as (r' & Hn' & [[N ->]|[-> Hr']]).
    + apply co_number_unit with (l ++ z) (l1 ++ z); auto using multi_unit_ext.
    + exfalso. assert (Q : forall w l2, until (unit_end c) [] w l2 -> w = []) by (intros w l2 (E & _); symmetry in E; apply app_eq_nil in E; now destruct E).
      inversion Hu as [? w l1 ? ? ? H1 N|? w l1 l2 ? ? ? H1 N]; subst; apply N, (Q _ _ H1).
  - apply co_inf with (l ++ z) (l1 ++ z); auto using next_ext, word_prefix_ext, ends_ext.
  - apply co_infinity with (l ++ z) (l0 ++ z) (l1 ++ z); auto using next_ext, word_prefix_ext, ends_ext. intros H. now apply He0, ends_ext_inv.
  - apply co_keyword with (l ++ z) (l1 ++ z); auto using next_ext, word_ext. destruct Hk as (k & w & E & H & N & G). exists k, w. split; [exact E|].
    split; [apply until_ext; [exact H|exact ke]|auto].
  - apply co_unit with (l ++ z); auto using multi_unit_ext, word_ext. intros u0 m0 r1 H. destruct (keyword_ext_inv _ _ _ _ H) as (r2 & H'). now apply (Hk u0 m0 r2).
  - apply co_numeral with (l ++ z) (l1 ++ z); auto using multi_unit_ext, word_ext, numeral_ext.
    + intros u0 m0 r1 H. destruct (keyword_ext_inv _ _ _ _ H) as (r2 & H'). now apply (Hk u0 m0 r2).
    + intros Hopt H. now apply (Ho Hopt), unit_like_ext.
Qed.
Lemma components_ext s ds1 ds2 : components c tu kw nums s ds1 -> components c tu kw nums t ds2 -> components c tu kw nums (s ++ z) (ds1 ++ ds2).
Proof.
  intros H H2. induction H as [s d H|s d r ds H N H0 IH].
  - cbn [app]. apply cs_more with t; [exact (component_ext s d [] H)|exact t_nil|exact H2].
  - cbn [app]. apply cs_more with (r ++ z); [|now destruct r|exact IH]. pose proof (component_ext s d r H) as G. rewrite (ext_cons r N) in G. exact G.
Qed.
End Concatenation.

Lemma components_ok c tu kw nums : env_ok c tu kw nums -> delims_ok c kw nums -> c_allow_multiple c = true ->
  forall s ds, utf8 s = true -> components c tu kw nums s ds -> forall d, In d ds -> duration_ok d.
Proof.
  intros HE HD Hm s ds U H. induction H as [s d0 H|s d0 r ds H N H0 IH]; intros d Hd; apply f_multi_iff in H; destruct (fit_progress c tu kw nums HE HD Hm s _ _ U H) as (_ & O & U').
  - destruct Hd as [<-|[]]. exact O.
  - destruct Hd as [<-|Hd]; [exact O|]. now apply IH.
Qed.
Lemma not_negative_nanos d : duration_ok d -> is_negative d = false -> 0 <= nanos d.
Proof. intros [H1 H2] H. unfold nanos, is_negative in *. rewrite H. unfold is_u64, inb in *. lia. Qed.
Theorem C56_concatenation : forall c tu kw nums s t dl D1 D2, env_ok c tu kw nums -> delims_ok c kw nums -> plain_delimiters c ->
  c_allow_multiple c = true -> utf8 s = true -> utf8 t = true ->
  dl <> [] -> (forall x, In x dl -> c_inner_delimiter c x = true /\ c_outer_delimiter c x = true) ->
  starts_with starts_duration t ->
  parse c s tu kw nums = Ok D1 -> parse c t tu kw nums = Ok D2 ->
  exists D ds2, parse c (s ++ dl ++ t) tu kw nums = Ok D /\ duration_ok D /\
    components c tu kw nums t ds2 /\ nanos D2 = fold_left (fun a d => clamp_nanos (a + nanos d)) ds2 0 /\
    nanos D = fold_left (fun a d => clamp_nanos (a + nanos d)) ds2 (nanos D1) /\
    (c_allow_negative c = false -> nanos D = Z.min max_nanos (nanos D1 + nanos D2)).
Proof.
  intros c tu kw nums s t dl D1 D2 HE HD PD Hm Us Ut Nd Hdl Ht P1 P2.
  destruct (C23_multiple_sound c tu kw nums s D1 HE HD Us Hm P1) as (ds1 & H1 & S1 & O1 & V1).
  destruct (C23_multiple_sound c tu kw nums t D2 HE HD Ut Hm P2) as (ds2 & H2 & S2 & O2 & V2).
  pose proof (components_ext c tu kw nums PD dl t Nd Hdl Ht s ds1 ds2 H1 H2) as H.
  assert (U : utf8 (s ++ dl ++ t) = true).
  { rewrite utf8_app by exact Us. clear -Hdl HE Ut. induction dl as [|x dl IH]; [exact Ut|]. cbn [app]. rewrite utf8_cons_ascii.
    - apply IH. intros y Hy. apply Hdl. now right.
    - apply (env_inner _ _ _ _ HE). apply Hdl. now left. }
  destruct (C23_multiple_complete c tu kw nums (s ++ dl ++ t) (ds1 ++ ds2) HE HD U Hm H) as (D & P & O & V).
  { intros d Hd. apply in_app_or in Hd. destruct Hd; auto. }
  assert (V' : nanos D = fold_left (fun a d => clamp_nanos (a + nanos d)) ds2 (nanos D1)).
  { rewrite V, V1. unfold saturating_sum. now rewrite fold_left_app. }
  exists D, ds2. split; [exact P|]. split; [exact O|]. split; [exact H2|]. split; [exact V2|]. split; [exact V'|].
  intros Ha. rewrite V', V2. clear V' V. unfold saturating_sum.
  assert (N1 : 0 <= nanos D1 <= max_nanos).
  { split; [apply (C21_not_negative c tu kw nums s D1 HE Us Ha P1)|apply (proj1 (representable_iff_between (nanos D1))); eauto]. }
  assert (N2 : forall d, In d ds2 -> 0 <= nanos d).
  { intros d Hd. apply (not_negative_nanos d); [|destruct (S2 d Hd); [congruence|assumption]].
    apply (components_ok c tu kw nums HE HD Hm t ds2 Ut H2 d Hd). }
  clear -N1 N2.
  assert (G : forall ds a b, (forall d, In d ds -> 0 <= nanos d) -> 0 <= a <= max_nanos -> 0 <= b <= max_nanos ->
    fold_left (fun a d => clamp_nanos (a + nanos d)) ds (Z.min max_nanos (a + b)) = Z.min max_nanos (a + fold_left (fun a d => clamp_nanos (a + nanos d)) ds b)).
  { induction ds as [|d ds IH]; intros a b Hn Ha Hb; [reflexivity|]. cbn [fold_left].
    assert (Hd : 0 <= nanos d) by (apply Hn; now left). assert (M : 0 <= max_nanos) by (vm_compute; discriminate).
    replace (clamp_nanos (Z.min max_nanos (a + b) + nanos d)) with (Z.min max_nanos (a + clamp_nanos (b + nanos d))) by (unfold clamp_nanos, clamp; lia).
    apply IH; auto; [intros y Hy; apply Hn; now right|]. unfold clamp_nanos, clamp. lia. }
  rewrite <- (G ds2 (nanos D1) 0 N2 N1); [f_equal; lia|]. vm_compute. split; discriminate.
Qed.
Print Assumptions C56_concatenation.
Example C56_concatenation_example : (forall kw nums, delims_ok ex_multi kw nums) /\ plain_delimiters ex_multi /\ starts_with starts_duration (%"-2s and 3s") /\
  parse ex_multi (%"1min 5 fortnight ago") ex_units (Some ex_keywords) (Some ex_numerals) = Ok (Dur true (Std 6047940 0)) /\
  parse ex_multi (%"-2s and 3s") ex_units (Some ex_keywords) (Some ex_numerals) = Ok (Dur false (Std 1 0)) /\
  parse ex_multi (%"1min 5 fortnight ago  -2s and 3s") ex_units (Some ex_keywords) (Some ex_numerals) = Ok (Dur true (Std 6047939 0)).
Proof.
  split; [intros kw nums; exact ex_delims_multi|]. split; [|repeat split]. split.
  - intros x. unfold plain_byte, is_letter, is_digit, is_sign, is_dot. cbn. unfold is_ascii_whitespace. intros H. split; lia.
  - intros w [<-|[]]. split; [reflexivity|]. each.
Qed.
(** without a number in front the second input can be taken for the time unit of the first one *)
Theorem C56_second_without_number_refuted : exists s t D1 D2 D,
  parse ex_multi s ex_units None None = Ok D1 /\ parse ex_multi t ex_units None None = Ok D2 /\
  parse ex_multi (s ++ 32 :: t) ex_units None None = Ok D /\ nanos D <> nanos D1 + nanos D2.
Proof. exists (%"2"), (%"min"). eexists _, _, _. split; [reflexivity|]. split; [reflexivity|]. split; [reflexivity|]. vm_compute. discriminate. Qed.
Print Assumptions C56_second_without_number_refuted.
