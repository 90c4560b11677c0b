(** * C86 for relative times: the text in front of an error is all right *)
From Verif Require Import Prelude Util Time Config Bytes Repr Parse SpecTime SpecNum SpecGrammar SpecSystemd
  Utf8Proofs SystemdProofs SpellProofs SpecGnu Gnu GnuWords GnuGrammar PropGnu PropGnuOrder SpecGnuTexts PropGnuTexts SpecGnuErrors PropGnuErrors PropPrefix.

Lemma item_piece' l a r : gnu_item l a r ->
  (exists p u, l = p ++ r /\ piece p a EndsWithWord u /\ ends_word r /\ (u = true -> exists g ago r', unit_phrase l g ago r')) \/
  (exists p ds, l = p ++ ds ++ r /\ piece p a EndsWithNumber false /\ white_space ds /\ no_white_ahead r /\ (ds = [] \/ r <> []) /\
     (forall g ago r', ~ unit_phrase r g ago r') /\ (ds = [] -> forall x r', r = x :: r' -> ~ 48 <= x <= 57 /\ x <> 101 /\ x <> 69) /\
     forall r', no_white_ahead r' -> r' <> [] -> (ds = [] -> exists x a b, r = x :: a /\ r' = x :: b) -> (forall g ago r0, ~ unit_phrase r' g ago r0) -> gnu_item (p ++ ds ++ r') a r').
Proof.
  intros [sg n num W F ds l0 g ago r0 a0 Hs Hn Hd Hp Ha|sg n num W F ds r0 a0 Hs Hn Hd Nr He Np Ha|sg n l0 g ago r0 Hs Hp|sg n w k ds l0 g ago r0 Hs Hw Hd Nd Hp|sg n w k r0 Hs Hw He].
  - left. destruct (phrase_text _ _ _ _ Hp) as (q & -> & Hq & He). exists (sg ++ num ++ ds ++ q), false.
    split; [now rewrite !app_assoc|]. split; [|split; [exact He|discriminate]]. eapply pc_number_unit; eauto using number_text_of.
  - right. exists (sg ++ num), ds. split; [now rewrite !app_assoc|]. split; [eapply pc_number; eauto using number_text_of|].
    split; [exact Hd|]. split; [exact Nr|]. split; [exact He|]. split; [exact Np|].
    split; [intros -> x r' Ex; exact (number_after _ _ _ _ Hn x r' Ex)|].
    intros r' W' N' H1 Np'. rewrite <- app_assoc. apply gi_number with n W F; auto.
    assert (Hx : forall x b, ds ++ r' = x :: b -> exists b', ds ++ r0 = x :: b').
    { intros x b E. destruct ds as [|y ds]; cbn [app] in *; [|injection E as <- _; eexists; reflexivity].
      destruct (H1 eq_refl) as (z & a1 & b1 & -> & ->). injection E as <- _. eexists; reflexivity. }
    destruct Hn as [W D N E|W F D N D1 N1 E]; [apply gn_whole|apply gn_fraction]; auto; intros x b Ex; destruct (Hx x b Ex) as (b' & Eb); exact (E x b' Eb).
  - left. destruct (phrase_text _ _ _ _ Hp) as (q & El & Hq & He). destruct sg as [|z sg].
    + exists q, true. split; [exact El|]. split; [inversion Hs; subst; rewrite xorb_false_l; exact (pc_unit q g ago Hq)|]. split; [exact He|]. intros _. cbn [app]. eauto.
    + exists ((z :: sg) ++ q), false. split; [rewrite El; now rewrite !app_assoc|]. split; [|split; [exact He|discriminate]]. apply pc_signed_unit; [exact Hs|discriminate|exact Hq].
  - left. destruct (phrase_text _ _ _ _ Hp) as (q & -> & Hq & He). exists (sg ++ w ++ ds ++ q), false.
    split; [now rewrite !app_assoc|]. split; [|split; [exact He|discriminate]]. now apply pc_numeral.
  - left. exists (sg ++ w), false. split; [now rewrite !app_assoc|]. split; [now apply pc_keyword|split; [exact He|discriminate]].
Qed.

Definition no_whole : parse_error := InvalidInput (%"Fraction without a whole number").
Definition has_unit (l : str) : Prop := exists g ago r, unit_phrase l g ago r.
Definition goes_on (l pre : str) : Prop :=
  exists t as_ u, utf8 t = true /\ written (pre ++ t) as_ u /\ (u = true -> has_unit l).
(** [pre] is a beginning of [l]: nothing, or it can be continued, or something is wrong with it already *)
Definition kept (l pre : str) : Prop :=
  (exists r, l = pre ++ r) /\
  (pre = [] \/ goes_on l pre \/
   ((forall s, relative_error s pre no_whole) /\ (has_unit pre -> has_unit l) /\ ends_inside pre /\ exists x r, pre = x :: r /\ ~ white x /\ x <> 97 /\ x <> 65)).

Definition one_amount : amount := times (with_sign false (dval (%"1"))) (Seconds 1).
Lemma one_text : number_text (%"1") (%"1") [].
Proof. apply nt_whole; [intros x [<-|[]]; vm_compute; split; discriminate|discriminate]. Qed.
Lemma one_written sg n : gnu_sign sg n -> exists as_, written (sg ++ %"1") as_ false.
Proof. intros H. eexists. eapply wr_one. eapply pc_number; [exact H|exact one_text|apply na_whole]. Qed.

Lemma item_kept s t e : item_error s t e -> forall m,
  match e with
  | Syntax p _ | TimeUnitErr p _ => forall before, s = before ++ t -> exists pre, p = length (before ++ pre) /\ kept t pre
  | InvalidInput l => l = m -> (exists W F g, bad_fraction W F g m) \/ exists pre, t = pre ++ m /\ kept t pre
  | _ => True
  end.
Proof.
  assert (SG : forall sg n l, gnu_sign sg n -> kept (sg ++ l) sg).
  { intros sg n l H. split; [now exists l|]. destruct sg as [|x sg]; [now left|right; left]. destruct (one_written _ _ H) as (as_ & W).
    exists (%"1"), as_, false. split; [reflexivity|]. split; [exact W|discriminate]. }
  assert (OF : forall before sg l : str, length (before ++ sg) = (length (before ++ sg ++ l) - length l)%nat) by (intros; rewrite !app_length; lia).
  intros [x E Hx|l (sg & n & E & Hs & _) Hl|num x l (sg & n & E & Hs & _ & Nw & Sn) Hn Hx|W F ds l g msg HA HW HF N HE Hd HU HB|l (sg & n & E & Hs & _) _ _ _ _ _|w k ds l (sg & n & E & Hs & _) Hw Hd Nd Nl Nu] m.
  - intros before Es. exists t. split; [now rewrite Es|]. subst t. split; [exists []; now rewrite app_nil_r|]. right; left.
    destruct Hx as [-> | ->].
    + destruct (one_written [43] false (gs_plus [] (fun x F => match F with end))) as (as_ & W). exists (%"1"), as_, false. split; [reflexivity|]. split; [exact W|discriminate].
    + destruct (one_written [45] true (gs_minus [] (fun x F => match F with end))) as (as_ & W). exists (%"1"), as_, false. split; [reflexivity|]. split; [exact W|discriminate].
  - intros before Es. exists sg. subst t. split; [unfold offset; rewrite Es; symmetry; apply OF|]. now apply (SG sg n).
  - intros before Es. exists (sg ++ num). subst t. split; [unfold offset; rewrite Es; rewrite (app_assoc sg); symmetry; apply OF|]. split; [exists (x :: l); now rewrite <- app_assoc|].
    right. destruct Hn as [W HW N|W F HW HF N].
    + left. exists [], [times (with_sign n (dval W)) (Seconds 1)], false. split; [reflexivity|]. split; [|discriminate]. rewrite app_nil_r. eapply wr_one.
      eapply pc_number; [exact Hs|now apply nt_whole|apply na_whole].
    + destruct W as [|y W].
      * right. cbn [app] in *. split; [|split; [|split; [change (46 :: F) with ([46] ++ F); apply ends_app, ends_app; now apply ends_digits_of|]]].
        -- intros s'. apply re_here. apply (ie_fraction s' _ [] F [] [] (Seconds 1)); [|intros z Hz; destruct Hz|exact HF|exact N| |intros z Hz; destruct Hz| |].
           ++ exists sg, n. split; [now rewrite !app_nil_r|]. split; [exact Hs|]. split; [discriminate|]. split; [intros z r Ez; injection Ez as <- _; unfold white; lia|].
              intros Eg z r Ez. injection Ez as <- _. lia.
           ++ intros z r Ez; discriminate.
           ++ right. split; [intros z r Ez; discriminate|]. split; [|reflexivity]. intros g ago r P. destruct (phrase_word _ _ _ _ P) as (w & l' & Ew & Hw & _).
              destruct w; [destruct (proj1 (unit_letters _ _ Hw)); reflexivity|discriminate].
           ++ apply bf_whole.
        -- intros (g & ago & r & P). destruct (phrase_word _ _ _ _ P) as (w & l' & Ew & Hw & _). exfalso.
           destruct w as [|z w]; [destruct (proj1 (unit_letters _ _ Hw)); reflexivity|]. pose proof (proj2 (unit_letters _ _ Hw) z (or_introl eq_refl)) as L.
           destruct Hs; cbn [app] in Ew; injection Ew as <- _; lia.
        -- destruct Hs; cbn [app]; eexists; eexists; (split; [reflexivity|]); unfold white; lia.
      * left. assert (HW' : y :: W <> []) by discriminate. destruct F as [|z F].
        -- exists (%"5"). eexists. exists false. split; [reflexivity|]. split; [|discriminate]. rewrite <- !app_assoc. eapply wr_one. eapply pc_number; [exact Hs|apply (nt_fraction (y :: W) (%"5")); auto|].
           ++ intros v [<-|[]]. vm_compute. split; discriminate.
           ++ discriminate.
           ++ apply na_fraction. discriminate.
        -- exists []. eexists. exists false. split; [reflexivity|]. split; [|discriminate]. rewrite app_nil_r. eapply wr_one. eapply pc_number; [exact Hs|apply (nt_fraction (y :: W) (z :: F)); auto; discriminate|].
           apply na_fraction. discriminate.
  - intros <-. left. eauto.
  - intros <-. right. exists sg. split; [exact E|]. subst t. now apply (SG sg n).
  - intros before Es. exists (sg ++ w ++ ds). subst t. split; [unfold offset; rewrite Es; replace (sg ++ w ++ ds ++ l) with ((sg ++ w ++ ds) ++ l) by (now rewrite <- !app_assoc); symmetry; apply OF|].
    split; [exists l; now rewrite <- !app_assoc|]. right; left. exists (%"day"). eexists. exists false. split; [reflexivity|]. split; [|discriminate]. rewrite <- !app_assoc. eapply wr_one.
    eapply pc_numeral; eauto. apply ut_plain. exists [%"day"; %"days"], (%"day"). split; [now do 3 right; left|]. split; [now left|reflexivity].
Qed.

(** after a component *)
Lemma kept_later t a ds r pre : gnu_item t a (ds ++ r) -> white_space ds -> no_white_ahead r -> r <> [] -> kept r pre -> exists p, t = p ++ r /\ kept t (p ++ pre).
Proof.
  intros HI Hd Nr Nn ((r0 & Er) & K).
  destruct (item_piece' _ _ _ HI) as [(p & u & -> & Hp & He & Hu)|(p & sep & -> & Hp & Hs & Nd & _ & Np & Hx & HG)].
  - exists (p ++ ds). split; [now rewrite <- app_assoc|]. split; [exists r0; rewrite Er, <- !app_assoc; reflexivity|]. right.
    assert (P0 : pre = [] -> goes_on (p ++ ds ++ r) ((p ++ ds) ++ pre)).
    { intros ->. destruct ds as [|y ds].
      - exists [], [a], u. split; [reflexivity|]. rewrite !app_nil_r. split; [eapply wr_one; exact Hp|exact Hu].
      - destruct (one_written [] false gs_none) as (as_ & HW). exists (%"1"), (a :: as_), u. split; [reflexivity|]. split; [|exact Hu].
        rewrite app_nil_r, <- app_assoc. eapply wr_more; [exact Hp|exact Hd|exact HW|left; discriminate]. }
    destruct pre as [|x b]; [left; now apply P0|]. clear P0.
    destruct K as [K|[(t' & as_ & u' & Ut & HW & HU)|(HR & HU & EI & x0 & b0 & Ex & Nx & Na & NA)]]; [discriminate| |].
    + left. exists t', (a :: as_), u. split; [exact Ut|]. split; [|exact Hu]. rewrite <- !app_assoc. eapply wr_more; [exact Hp|exact Hd|exact HW|].
      cbn [joins]. destruct ds as [|y ds]; [right|left; discriminate]. exists x, (b ++ t'). split; [reflexivity|].
      destruct (He x (b ++ r0) Er) as [Wx|Dx]; [destruct (Nr x (b ++ r0) Er Wx)|lia].
    + right. injection Ex as <- <-.
      split; [|split; [|split; [now apply ends_app|]]].
      * intros s. apply (re_later s _ a ds (x :: b)); [|exact Hd|intros z c Ez; injection Ez as <- _; exact Nx|discriminate|apply HR].
        rewrite <- app_assoc. apply (item_word p a u); [exact Hp| |].
        -- intros z c Ez. destruct ds as [|y ds]; cbn [app] in Ez; [|injection Ez as <- _; left; apply Hd; now left].
           injection Ez as <- _. exact (He x (b ++ r0) Er).
        -- intros r1 (ds1 & v & E & _ & W1 & Hv & _).
           destruct (letters_head v r1 (GnuGrammar.ago_letters v Hv)) as (y & w' & Ey & _ & _ & _ & NW).
           apply white_split in E; try assumption; [|intros z c Ez; injection Ez as <- _; exact Nx|rewrite Ey; intros z c Ez; injection Ez as <- _; exact NW].
           destruct E as [_ E]. destruct v as [|z v]; [discriminate|]. cbn [app] in E. injection E as <- _.
           cbn [str_eq_nocase] in Hv. apply andb_true_iff in Hv. destruct Hv as [Hv _].
           assert (H97 : 97 <= 97 <= 122) by lia. destruct (nocase_letter x 97 H97 Hv); subst; lia.
      * intros (g & ago & r1 & P). destruct u; [exact (Hu eq_refl)|]. rewrite <- app_assoc in P. exfalso. revert P. eapply piece_no_phrase; [exact Hp|]. intros _.
        intros z c Ez. destruct ds as [|y ds]; cbn [app] in Ez; [|injection Ez as <- _; left; apply Hd; now left].
        injection Ez as <- _. exact (He x (b ++ r0) Er).
      * destruct (piece_ok _ _ _ _ Hp) as ((z & c & -> & Sz) & _). exists z, (c ++ ds ++ x :: b). split; [cbn [app]; now rewrite <- app_assoc|]. unfold start, white in *. lia.
  - assert (ds = []) as ->. { destruct ds as [|x ds]; [reflexivity|]. destruct (Nd x (ds ++ r) eq_refl). apply Hd. now left. }
    cbn [app] in *. exists (p ++ sep). split; [now rewrite <- app_assoc|]. split; [exists r0; rewrite Er, <- !app_assoc; reflexivity|]. right.
    assert (P0 : pre = [] -> goes_on (p ++ sep ++ r) ((p ++ sep) ++ pre)).
    { intros ->. destruct sep as [|y sep].
      - exists [], [a], false. split; [reflexivity|]. rewrite !app_nil_r. split; [eapply wr_one; exact Hp|discriminate].
      - destruct (one_written [] false gs_none) as (as_ & HW). exists (%"1"), (a :: as_), false. split; [reflexivity|]. split; [|discriminate].
        rewrite app_nil_r, <- app_assoc. eapply wr_more; [exact Hp|exact Hs|exact HW|]. split; [reflexivity|left; discriminate]. }
    destruct pre as [|x b]; [left; now apply P0|]. clear P0.
    destruct K as [K|[(t' & as_ & u' & Ut & HW & HU)|(HR & HU & EI & x0 & b0 & Ex & Nx & Na & NA)]]; [discriminate| |].
    + left. exists t', (a :: as_), false. split; [exact Ut|]. split; [|discriminate]. rewrite <- !app_assoc. eapply wr_more; [exact Hp|exact Hs|exact HW|].
      split.
      * destruct u'; [|reflexivity]. destruct (HU eq_refl) as (g & ago & r1 & P). destruct (Np _ _ _ P).
      * destruct sep as [|y sep]; [right|left; discriminate]. intros z c Ez. injection Ez as <- _. exact (Hx eq_refl x (b ++ r0) Er).
    + right. injection Ex as <- <-. split; [|split; [|split; [now apply ends_app|]]].
      * intros s. apply (re_later s _ a [] (x :: b)); [|intros z []|intros z c Ez; injection Ez as <- _; exact Nx|discriminate|apply HR].
        rewrite <- app_assoc. apply HG; [intros z c Ez; injection Ez as <- _; exact Nx|discriminate|intros _; exists x, (b ++ r0), b; auto|].
        intros g ago r1 P. destruct (HU (ex_intro _ g (ex_intro _ ago (ex_intro _ r1 P)))) as (g' & ago' & r1' & P'). exact (Np _ _ _ P').
      * intros (g & ago & r1 & P). rewrite <- app_assoc in P. exfalso. revert P. eapply piece_no_phrase; [exact Hp|discriminate].
      * destruct (piece_ok _ _ _ _ Hp) as ((z & c & -> & Sz) & _). exists z, (c ++ sep ++ x :: b). split; [cbn [app]; now rewrite <- app_assoc|]. unfold start, white in *. lia.
Qed.

Lemma error_kept s t e : relative_error s t e -> forall m,
  match e with
  | Syntax p _ | TimeUnitErr p _ => forall before, s = before ++ t -> exists pre, p = length (before ++ pre) /\ kept t pre
  | InvalidInput l => l = m -> (exists W F g, bad_fraction W F g m) \/ exists pre, t = pre ++ m /\ kept t pre
  | _ => True
  end.
Proof.
  intros H. induction H as [|t e H|t a ds r e HI Hd Nr Nn H IH]; intros m; [exact I|exact (item_kept s t e H m)|]. specialize (IH m).
  assert (G : forall p', (forall before, s = before ++ r -> exists pre, p' = length (before ++ pre) /\ kept r pre) ->
              forall before, s = before ++ t -> exists pre, p' = length (before ++ pre) /\ kept t pre).
  { intros p' G before Es. destruct (item_piece' _ _ _ HI) as [(p & u & E & _)|(p & sep & E & _)].
    - destruct (G (before ++ p ++ ds)) as (pre & E1 & K); [rewrite Es, E, <- !app_assoc; reflexivity|].
      destruct (kept_later _ _ _ _ _ HI Hd Nr Nn K) as (p1 & E2 & K1). exists (p1 ++ pre). split; [|exact K1].
      rewrite E1. rewrite E in E2. rewrite app_assoc in E2. apply app_inv_tail in E2. now rewrite E2, <- app_assoc.
    - destruct (G (before ++ p ++ sep ++ ds)) as (pre & E1 & K); [rewrite Es, E, <- !app_assoc; reflexivity|].
      destruct (kept_later _ _ _ _ _ HI Hd Nr Nn K) as (p1 & E2 & K1). exists (p1 ++ pre). split; [|exact K1].
      rewrite E1. rewrite E in E2. replace (p ++ sep ++ ds ++ r) with ((p ++ sep ++ ds) ++ r) in E2 by now rewrite <- !app_assoc.
      apply app_inv_tail in E2. now rewrite E2, <- app_assoc. }
  destruct e; try exact I; try (apply G; exact IH).
  intros E. destruct (IH E) as [B|(pre & E1 & K)]; [now left|right]. destruct (kept_later _ _ _ _ _ HI Hd Nr Nn K) as (p1 & E2 & K1).
  exists (p1 ++ pre). split; [|exact K1]. rewrite E2, E1. apply app_assoc.
Qed.

Lemma kept_parses t pre : utf8 t = true -> kept t pre ->
  (exists r x, utf8 r = true /\ gnu_parse_fuzzy gnu_new (pre ++ r) = Ok x) \/ gnu_parse_fuzzy gnu_new pre = Err no_whole.
Proof.
  intros U ((r0 & Er) & K).
  assert (P : forall r as_ u, utf8 r = true -> written (pre ++ r) as_ u -> exists r x, utf8 r = true /\ gnu_parse_fuzzy gnu_new (pre ++ r) = Ok x).
  { intros r as_ u Ur HW. destruct (C44_fuzzy_complete [] (pre ++ r) [] as_) as (d & E & _); try (intros x []);
      [exact (plain_utf8 _ (proj2 (proj2 (written_ok _ _ _ HW))))|exact (written_trimmed _ _ _ HW)|exact (written_sound _ _ _ HW)|].
    cbn [app] in E. rewrite app_nil_r in E. eauto. }
  destruct K as [->|[(r & as_ & u & Ur & HW & _)|(HR & _ & (a & y & Ea & Iy) & x & b & Ex & Nx & _)]].
  - left. destruct (one_written [] false gs_none) as (as_ & HW). exact (P (%"1") as_ false eq_refl HW).
  - left. exact (P r as_ u Ur HW).
  - right. assert (Ay : 0 <= y <= 127) by (unfold inside in Iy; lia).
    assert (Up : utf8 pre = true).
    { rewrite Ea in *. rewrite Er, <- app_assoc in U. destruct (utf8_cut a y r0 U Ay) as [U1 _]. rewrite utf8_app by exact U1. rewrite utf8_cons_ascii by exact Ay. reflexivity. }
    apply C77_errors; [exact Up|]. exists [], pre, []. split; [now rewrite app_nil_r|]. split; [intros z []|]. split; [intros z []|]. split; [|apply HR]. split.
    + intros z c Ez. rewrite Ex in Ez. injection Ez as <- _. exact Nx.
    + intros z c Ez. rewrite Ea in Ez. apply app_inj_tail in Ez. destruct Ez as [_ <-]. unfold inside, white in *. lia.
Qed.

(** ** C86: relative times. [t] is the text without the white space around it, which positions refer to (C77_position_in_input_refuted). What is in
    front of an error is the beginning of an acceptable text, or a number without digits in front of its decimal point, which is an error
    itself, found later. *)
Theorem C86_gnu : forall ws1 t ws2, utf8 t = true -> white_space ws1 -> white_space ws2 -> trimmed t ->
  let run := gnu_parse_fuzzy gnu_new in let s := ws1 ++ t ++ ws2 in
  let all_right := fun pre => (exists r x, utf8 r = true /\ run (pre ++ r) = Ok x) \/ run pre = Err (InvalidInput (%"Fraction without a whole number")) in
  (forall p m, run s = Err (Syntax p m) \/ run s = Err (TimeUnitErr p m) -> (p <= length t)%nat /\ all_right (firstn p t)) /\
  (forall l, run s = Err (InvalidInput l) -> (exists W F g, bad_fraction W F g l) \/ exists pre, t = pre ++ l /\ all_right pre).
Proof.
  intros ws1 t ws2 U W1 W2 T run s all_right.
  assert (Us : utf8 s = true) by (unfold s; rewrite white_utf8, utf8_white_end by assumption; exact U).
  assert (E : forall e, run s = Err e -> relative_error t t e).
  { intros e H. apply C77_errors in H; [|exact Us]. destruct H as (w1 & t' & w2 & Es & A1 & A2 & T' & R).
    assert (t' = t); [|now subst].
    pose proof (trim_unique ws1 t ws2 W1 W2 (utf8_bytes t U) T) as X1. fold s in X1. rewrite Es in X1.
    assert (Us' : utf8 t' = true) by (pose proof Us as Us'; rewrite Es, white_utf8, utf8_white_end in Us' by assumption; exact Us').
    rewrite (trim_unique w1 t' w2 A1 A2 (utf8_bytes t' Us') T') in X1. exact X1. }
  split.
  - intros p m H. assert (K : exists pre, p = length pre /\ kept t pre).
    { destruct H as [H|H]; apply E in H; pose proof (error_kept _ _ _ H [] [] eq_refl) as (pre & E1 & K); exists pre; auto. }
    destruct K as (pre & -> & K). pose proof K as ((r0 & Er) & _). split; [rewrite Er, app_length; lia|].
    assert (firstn (length pre) t = pre) as -> by (rewrite Er, firstn_app, firstn_all, Nat.sub_diag, firstn_O; apply app_nil_r).
    exact (kept_parses t pre U K).
  - intros l H. apply E in H. destruct (error_kept _ _ _ H l eq_refl) as [B|(pre & E1 & K)]; [now left|right]. exists pre. split; [exact E1|].
    exact (kept_parses t pre U K).
Qed.
Print Assumptions C86_gnu.
Example C86_gnu_example :
  gnu_parse_fuzzy gnu_new (%"3 days next  e") = Err (TimeUnitErr 13 (%"Found numeral 'next' without a time unit")) /\
  gnu_parse_fuzzy gnu_new (%"3 days next  " ++ %"month") = Ok (0, 1, Dur false (Std 259200 0)) /\
  gnu_parse_fuzzy gnu_new (%"1 day .5e1") = Err (Syntax 8 (%"No exponent allowed")) /\
  gnu_parse_fuzzy gnu_new (%"1 day .5") = Err (InvalidInput (%"Fraction without a whole number")).
Proof. repeat split. Qed.
