(** * C86 for multiple durations: the text in front of an error is the beginning of an acceptable text *)
From Verif Require Import Prelude Time Config Parse SpecTime SpecNum SpecParse SpecValue SpecGrammar SpecSpelling SpecErrors SpecTexts SpecManyTexts.
From Verif Require Import NumProofs ValueProofs SpellProofs Utf8Proofs RefGrammar RefMulti PropNum PropParse PropErrors PropTexts PropPrefix PropManyTexts Standard StandardProofs PropStandard PropSettings PropModes FitProofs ExEnv.

Section ManyPrefix.
Context (c : config) (tu : units_like) (kw : option units_like) (nums : option numbers_like).
Context (HE : env_ok c tu kw nums) (PM : plain_many c tu kw nums).
Context (UN : (exists id, utf8 id = true /\ u_get tu id <> None) \/ nums = None).
Context (s : str).
Notation inner := (c_inner_delimiter c).
Notation outer := (c_outer_delimiter c).
Let PE := pm_plain _ _ _ _ PM.

(** the beginning [q] of the text [t] can be continued, without [q] becoming a time unit alone if [t] is none *)
Definition goes_on_in (t q : str) : Prop := exists v bare ds, utf8 v = true /\ durations_text c tu kw nums (q ++ v) bare ds /\ (bare = true -> multi_unit_like c tu t).
Definition fine_in (t : str) (e : parse_error) : Prop :=
  match e with
  | Syntax p _ | TimeUnitErr p _ => exists q l, t = q ++ l /\ p = here s l /\ goes_on_in t q
  | InvalidInput l => exists q, t = q ++ l /\ utf8 l = true /\ goes_on_in t q
  | _ => True
  end.

Lemma whole t q bare e d : one_duration c tu kw nums q bare e d -> (bare = true -> multi_unit_like c tu t) -> goes_on_in t q.
Proof. intros H L. exists [], bare, [d]. split; [reflexivity|]. rewrite app_nil_r. split; [now apply (dts_last c tu kw nums q bare e)|exact L]. Qed.
Lemma whole_with t q v bare e d : utf8 v = true -> one_duration c tu kw nums (q ++ v) bare e d -> (bare = true -> multi_unit_like c tu t) -> goes_on_in t q.
Proof. intros U H L. exists v, bare, [d]. split; [exact U|]. split; [now apply (dts_last c tu kw nums _ bare e)|exact L]. Qed.
Lemma the_one : durations_text c tu kw nums (%"1") false [number_value false (%"1") [] 0 (c_default_unit c) default_multiplier].
Proof. apply (dts_last c tu kw nums (%"1") false (AfterNumber (%"1"))). apply (od_number c tu kw nums [] false (%"1")); [constructor|exact (one c)]. Qed.
Lemma then_one t p sep bare e d : one_duration c tu kw nums p bare e d -> between c e sep false 49 -> (bare = true -> multi_unit_like c tu t) -> goes_on_in t (p ++ sep).
Proof.
  intros H B L. exists (%"1"), bare. eexists. split; [reflexivity|]. rewrite <- app_assoc. split; [|exact L].
  exact (dts_more c tu kw nums p bare e d sep 49 [] false _ H B the_one).
Qed.
Lemma sign_one t sg n : sign_part c sg n -> goes_on_in t sg.
Proof. intros H. apply (whole_with t sg (%"1") false (AfterNumber (%"1")) (number_value n (%"1") [] 0 (c_default_unit c) default_multiplier)); [reflexivity| |discriminate]. apply od_number; [exact H|exact (one c)]. Qed.
Lemma number_whole t sg n p W F x : sign_part c sg n -> number_part c p W F x -> goes_on_in t (sg ++ p).
Proof. intros H1 H2. eapply whole; [eapply od_number; eassumption|discriminate]. Qed.
Lemma outer_delimiters ds : (forall x, In x ds -> outer x = true) -> delimiters c ds.
Proof. intros H x Hx. rewrite <- (pm_delimiters _ _ _ _ PM). now apply H. Qed.

(** ** Sign and number *)
Lemma in_sign t e : sign_error c s t e -> fine_in t e.
Proof.
  assert (G : forall t x, is_sign x = true -> goes_on_in t [x]).
  { intros t0 x Hx. unfold is_sign in Hx. assert (C : x = 45 \/ x = 43) by lia. destruct C as [C|C]; rewrite C; clear x Hx C.
    - apply (sign_one t0 [45] true). apply (sp_sign c [45] true []); [discriminate|constructor|intros ? []|congruence].
    - apply (sign_one t0 [43] false). apply (sp_sign c [43] false []); [discriminate|constructor|intros ? []|congruence]. }
  intros H. inversion H as [x Hx E1 E2|x l e' Hx Ha (_ & _ & Ee) E1 E2]; subst.
  - exists [x], []. split; [reflexivity|]. split; [reflexivity|]. now apply G.
  - exists [x], l. split; [reflexivity|]. split; [reflexivity|]. now apply G.
Qed.
Lemma open_exponent_in t sg n W fr F x es n' : sign_part c sg n -> digit_string W -> fraction_text fr F -> W ++ F <> [] ->
  (fr <> [] -> c_disable_fraction c = false) -> is_e x = true -> c_disable_exponent c = false -> exponent_sign es n' ->
  goes_on_in t (sg ++ W ++ fr ++ x :: es).
Proof.
  intros Hs HW Hf N Df Hx De He. eapply (whole_with t _ (%"1") false); [reflexivity| |discriminate]. rewrite <- !app_assoc. cbn [app]. eapply od_number; [exact Hs|].
  refine (np c W fr F (x :: es ++ %"1") (if n' then - dval (%"1") else dval (%"1")) HW Hf N _ Df (fun _ => De)). apply (et_some x es n' (%"1")).
  - unfold is_e in Hx. lia.
  - destruct He; constructor.
  - intros y [<-|[]]. vm_compute. split; discriminate.
  - discriminate.
  - reflexivity.
  - destruct n'; vm_compute; split; discriminate.
Qed.
Lemma in_number t n l e : signed c t n l -> number_error c s l e -> fine_in t e.
Proof.
  intros Hs. destruct (signed_sign_part c t n l Hs) as (sg & Es & Hsg).
  assert (NF : forall W, digit_string W -> W <> [] -> number_part c W W [] 0).
  { intros W HW N. pose proof (np c W [] [] [] 0 HW) as G. rewrite !app_nil_r in G. apply G; try constructor; congruence. }
  intros [W l1 (-> & HW & _) H|W l1 F l2 (-> & HW & _) Hf N H|W l1 F l2 x l3 (-> & HW & _) Hf N Hx Ha H].
  - assert (G : goes_on_in t (sg ++ W)).
    { destruct W as [|w W]; [rewrite app_nil_r; now apply (sign_one t sg n)|]. eapply number_whole; [exact Hsg|]. apply NF; [|discriminate].
      now apply digit_string_is_digit. }
    rewrite app_assoc in Es. destruct H as [l|l]; (exists (sg ++ W), (46 :: l); split; [exact Es|split; [reflexivity|exact G]]).
  - destruct (fraction_is _ _ _ _ Hf) as (fr & -> & Hfr & Df). assert (HW' : digit_string W) by now apply digit_string_is_digit.
    assert (G : goes_on_in t (sg ++ W ++ fr)).
    { eapply number_whole; [exact Hsg|]. pose proof (np c W fr F [] 0 HW' Hfr N) as G. rewrite !app_nil_r in G. apply G; [constructor|exact Df|congruence]. }
    inversion H as [x l Hx De E1 E2|x Hx De E1 E2|x y Hx De Hy E1 E2|x es n' y l Hx De He Hy Hn E1 E2| |]; subst l2 e; try exact Logic.I.
    + exists (sg ++ W ++ fr), (x :: l). split; [rewrite Es, !app_assoc; reflexivity|]. split; [reflexivity|exact G].
    + exists t, []. split; [now rewrite app_nil_r|]. split; [reflexivity|]. rewrite Es at 2. eapply (open_exponent_in t sg n W fr F x [] false); eauto. constructor.
    + exists t, []. split; [now rewrite app_nil_r|]. split; [reflexivity|]. rewrite Es at 2.
      unfold is_sign in Hy. destruct (Z.eqb_spec y 45) as [->|Ny]; [|assert (y = 43) as -> by lia];
        (eapply (open_exponent_in t sg n W fr F x); eauto; constructor).
    + exists (sg ++ W ++ fr ++ x :: es), (y :: l). split; [rewrite Es, <- !app_assoc; reflexivity|]. split; [reflexivity|].
      eapply (open_exponent_in t sg n W fr F x es n'); eauto.
  - destruct (fraction_is _ _ _ _ Hf) as (fr & -> & Hfr & Df). destruct (exponent_is _ _ _ _ Hx) as (ex & -> & Hex & De). destruct H as (_ & _ & ->).
    exists (sg ++ W ++ fr ++ ex), l3. split; [rewrite Es, <- !app_assoc; reflexivity|]. split; [reflexivity|].
    eapply number_whole; [exact Hsg|]. apply np; eauto. now apply digit_string_is_digit.
Qed.

(** ** Behind a duration *)
Lemma in_next t p bare en d tail e : t = p ++ tail -> one_duration c tu kw nums p bare en d -> (bare = true -> multi_unit_like c tu t) ->
  (forall p', en = AfterNumber p' -> c_allow_time_unit_delimiter c = false) -> next_error c s tail e -> fine_in t e.
Proof.
  intros Et H L Hn [(_ & _ & ->)|ds y (-> & Hd & _) Nd Ny [ws1 w ws2 z Ew Hw1 (v & -> & Hv) Hz]].
  - exists p, tail. split; [exact Et|]. split; [reflexivity|]. now apply (whole t p bare en d).
  - assert (Iw : In w (words c)) by (change (In w (conjunctions c)); rewrite Ew; apply in_or_app; right; now left).
    pose proof (outer_delimiters ds Hd) as Hd'.
    assert (Conj : goes_on_in t (p ++ ds ++ v)).
    { apply (then_one t p (ds ++ v) bare en d H); [|exact L]. rewrite <- (app_nil_r v). apply (b_conjunction c en ds v w []); auto; [intros ? []|]. intros _. left. lia. }
    destruct Hz as [(-> & ->)|[(Nz & Hz & ->)|(x & z' & -> & _ & _ & ->)]].
    + exists (p ++ ds), v. rewrite app_nil_r in *. split; [now rewrite <- app_assoc|]. split; [reflexivity|].
      apply (then_one t p ds bare en d H); [|exact L]. apply b_delimiters; auto.
    + exists (p ++ ds ++ v), z. split; [now rewrite <- !app_assoc|]. split; [reflexivity|exact Conj].
    + exists (p ++ ds ++ v), (x :: z'). split; [now rewrite <- !app_assoc|]. split; [reflexivity|exact Conj].
Qed.
Lemma in_unit t pre r e : t = pre ++ r ->
  (forall q u m r', unit_part c tu q u m -> r = q ++ r' -> exists bare d, one_duration c tu kw nums (pre ++ q) bare AfterWord d /\ (bare = true -> multi_unit_like c tu t)) ->
  multi_unit_error c tu s r e -> fine_in t e.
Proof.
  intros E G [w l1 U Nw Ew Ha Ht|w l1 U Nw Ew _ _ H|w l1 l2 U Nw Ew (Ha & ds & a & (El1 & Hd & _) & Nd & (v & -> & Hv) & Hr) H];
    destruct (until_stops c tu kw nums PM _ _ _ U) as (-> & St); (destruct (u_get tu w) as [[u m]|] eqn:Eu; [|congruence]).
  - destruct (G w u m l1 (up_plain c tu w u m Eu) eq_refl) as (bare & d & H & L). destruct Ht as (_ & _ & ->). exists (pre ++ w), l1.
    split; [now rewrite <- app_assoc|]. split; [reflexivity|]. now apply (whole t _ bare AfterWord d).
  - destruct (G w u m l1 (up_plain c tu w u m Eu) eq_refl) as (bare & d & H0 & L). apply (in_next t (pre ++ w) bare AfterWord d l1 e); auto; [now rewrite <- app_assoc|discriminate].
  - subst l1. destruct (G (w ++ ds ++ v) u (mul_saturating_neg m) l2) as (bare & d & H0 & L); [now apply up_ago|now rewrite <- !app_assoc|].
    apply (in_next t (pre ++ w ++ ds ++ v) bare AfterWord d l2 e); auto; [now rewrite E, <- !app_assoc|discriminate].
Qed.
Lemma next_error_outer l e : next_error c s l e -> starts_with outer l.
Proof.
  intros [(N & H & _)|ds y (-> & H & _) N _ _].
  - destruct l as [|x l]; [contradiction|]. apply H. now left.
  - destruct ds as [|x ds]; [contradiction|]. apply H. now left.
Qed.

(** ** Infinity *)
Lemma in_infinity t sg n v0 l0 : sign_part c sg n -> c_disable_infinity c = false -> t = sg ++ v0 ++ l0 -> str_eq_nocase v0 (%"inf") = true ->
  forall w l e, multi_infinity_error c s l0 w l e ->
  forall v v', str_eq_nocase v v' = true -> v' ++ w = %"infinity" -> t = sg ++ v ++ l -> fine_in t e.
Proof.
  intros Hs Hi Et Hv0 w l e H.
  assert (G : forall w v v', str_eq_nocase v v' = true -> v' ++ w = %"infinity" -> utf8 w = true -> goes_on_in t (sg ++ v)).
  { intros w0 v v' E1 E2 Uw. eapply (whole_with t _ w0 false AfterInfinity); [exact Uw| |discriminate]. rewrite <- app_assoc.
    apply (od_infinity c tu kw nums sg n); auto. right. rewrite <- E2. apply nocase_app; [exact E1|apply nocase_refl]. }
  assert (Uw : forall v' w, v' ++ w = %"infinity" -> utf8 w = true).
  { intros v' w0 E. destruct w0 as [|x w0]; [reflexivity|]. assert (U : utf8 (v' ++ x :: w0) = true) by (rewrite E; reflexivity).
    apply (utf8_cut v' x w0 U). assert (I : In x (%"infinity")) by (rewrite <- E; apply in_or_app; right; now left).
    vm_compute in I. repeat (destruct I as [<-|I]; [lia|]). destruct I. }
  induction H as [x y w l e Exy H IH|y w|x y w l Exy|x l Hx|l e H]; intros v v' E1 E2 Es.
  - apply (IH (v ++ [x]) (v' ++ [y])); [|rewrite <- app_assoc; exact E2|rewrite <- app_assoc; exact Es].
    apply nocase_app; [exact E1|]. cbn. now rewrite Exy.
  - exists sg, (v0 ++ l0). split; [exact Et|]. split; [|now apply (sign_one t sg n)]. unfold here. rewrite app_length.
    assert (L : length v0 = 3%nat) by (rewrite (str_eq_nocase_length _ _ Hv0); reflexivity). lia.
  - exists (sg ++ v), (x :: l). split; [now rewrite <- app_assoc|]. split; [reflexivity|]. eapply G; eauto.
  - exists (sg ++ v), (x :: l). split; [now rewrite <- app_assoc|]. split; [reflexivity|]. eapply G; eauto.
  - rewrite app_nil_r in E2. subst v'. apply (in_next t (sg ++ v) false AfterInfinity (infinity_value n) l e); auto; try discriminate; [now rewrite <- app_assoc|].
    apply od_infinity; auto.
Qed.

(** ** One duration *)
Lemma unit0_in : (exists id u m, utf8 id = true /\ unit_part c tu id u m) \/ nums = None.
Proof.
  destruct UN as [(id & U & E)|E]; [left|now right]. destruct (u_get tu id) as [[u m]|] eqn:E1; [|congruence].
  exists id, u, m. split; [exact U|now constructor].
Qed.
Lemma numeral_in t sg n f w num ds : sign_part c sg n -> nums = Some f -> f w = Some num -> ds <> [] -> delimiters c ds ->
  goes_on_in t (sg ++ w ++ ds) /\ goes_on_in t (sg ++ w).
Proof.
  intros H1 H2 H3 H4 H5. destruct unit0_in as [(id & u & m & U & Hu)|E]; [|congruence].
  assert (H : one_duration c tu kw nums (sg ++ w ++ ds ++ id) false AfterWord (numeral_value n num u m)) by (eapply od_numeral; eassumption).
  split; [eapply (whole_with t _ id false); [exact U| |discriminate]|eapply (whole_with t _ (ds ++ id) false); [| |discriminate]].
  - rewrite <- !app_assoc. exact H.
  - rewrite utf8_app; [exact U|]. now apply (delims_utf8 c tu kw nums HE).
  - rewrite <- !app_assoc. exact H.
Qed.
Lemma sign_ascii sg n : sign_part c sg n -> utf8 sg = true.
Proof.
  intros [|sg' n' ds N Hs Hd _]; [reflexivity|]. destruct Hs; [contradiction| |]; 
    (rewrite utf8_app; [now apply (delims_utf8 c tu kw nums HE)|reflexivity]).
Qed.
Lemma in_component t e : utf8 t = true -> component_error c tu kw nums s t e -> fine_in t e.
Proof.
  assert (NW : forall n l w r, signed c t n l -> numeral_word c nums l w r -> exists pre, t = pre ++ r /\ goes_on_in t pre /\
     forall q u m, unit_part c tu q u m -> exists d, one_duration c tu kw nums (pre ++ q) false AfterWord d).
  { intros n l w r Hs (f & l1 & ds & Hf & (-> & Hw & _) & Nw & Ew & (-> & Hd & _) & Nd & Nr).
    destruct (signed_sign_part c t n _ Hs) as (sg & Es & Hsg). destruct (f w) as [num|] eqn:Ef; [|congruence]. exists (sg ++ w ++ ds).
    split; [rewrite Es, <- !app_assoc; reflexivity|]. split; [now apply (numeral_in t sg n f w num ds)|].
    intros q u m Hq. eexists. rewrite <- !app_assoc. eapply od_numeral; eassumption. }
  intros U [E|e0 H|n l e0 Hs H|n l W F x r e0 Hs Hn Hl H|n l W F x r e0 Hs Hn Et H|n l r e0 Hs Hi (v & -> & Hv) H|n l r e0 Hs Hi (v & -> & Hv) Ne H|n l u m l1 e0 Hs Hw (k & w & Ek & (-> & _ & _) & Nw & G) H|
    n l e0 Hs Hw Hk Ho H|n l Hs Hw Hk Ho H|n l e0 Hs Hw Hk Ho H|n l w r e0 Hs Hw Hk Ho Hn H|n l w r e0 Hs Hw Hk Ho Hn H1 H2].
  - exact Logic.I.
  - now apply in_sign.
  - now apply (in_number t n l).
  - destruct (signed_sign_part c t n l Hs) as (sg & Es & Hsg). destruct (number_written c _ _ _ _ _ Hn) as (p & tl & -> & Hp & He & Hu).
    pose proof (next_error_outer _ _ H) as Ho. destruct Hu as [l0 Et|l0 ds r Et (_ & _ & Sd) _].
    + apply (in_next t (sg ++ p) false (AfterNumber p) (number_value n W F x (c_default_unit c) default_multiplier) l0 e0); auto; try discriminate; [now rewrite <- app_assoc|]. now apply od_number.
    + exfalso. now apply (outer_not_inner c tu kw nums PM _ Ho) in Sd.
  - destruct (signed_sign_part c t n l Hs) as (sg & Es & Hsg). destruct (number_number_part c l W F x r Hn) as (p & ds & -> & Hp & Hd & Ha & _).
    apply (in_unit t (sg ++ p ++ ds) r e0); [now rewrite <- !app_assoc| |exact H]. intros q u m r' Hq _. exists false. eexists. split; [|discriminate].
    rewrite <- !app_assoc. eapply od_number_unit; eassumption.
  - destruct (signed_sign_part c t n _ Hs) as (sg & Es & Hsg). apply (in_next t (sg ++ v) false AfterInfinity (infinity_value n) r e0); auto; try discriminate; [now rewrite <- app_assoc|].
    apply od_infinity; auto.
  - destruct (signed_sign_part c t n _ Hs) as (sg & Es & Hsg). exact (in_infinity t sg n v r Hsg Hi Es Hv _ _ _ H v (%"inf") Hv eq_refl Es).
  - destruct (signed_sign_part c t n _ Hs) as (sg & Es & Hsg). apply (in_next t (sg ++ w) false AfterWord (unit_value n u m) l1 e0); auto; try discriminate; [now rewrite <- app_assoc|].
    now apply (od_keyword c tu kw nums sg n k).
  - destruct (signed_sign_part c t n _ Hs) as (sg & Es & Hsg). apply (in_unit t sg l e0 Es); [|exact H].
    intros q u m r' Hq El. eexists _, _. split; [apply (od_unit c tu kw nums sg n q u m); auto|]. destruct sg as [|y sg]; [|discriminate]. intros _.
    cbn [app] in Es. subst t. inversion H as [w l1 U1 N1 G1|w l1 U1 N1 G1|w l1 l2 U1 N1 G1]; now exists w, l1.
  - destruct (signed_sign_part c t n _ Hs) as (sg & Es & Hsg). exists sg. split; [exact Es|]. split; [|now apply (sign_one t sg n)].
    rewrite Es, utf8_app in U; [exact U|now apply (sign_ascii sg n)].
  - destruct (signed_sign_part c t n _ Hs) as (sg & Es & Hsg). destruct H as (f & w & l1 & Hf & (-> & _ & _) & Nw & Ew & (Nl & Hl & ->)).
    destruct (f w) as [num|] eqn:Ef; [|congruence]. exists (sg ++ w), l1. split; [now rewrite <- app_assoc|]. split; [reflexivity|].
    now apply (numeral_in t sg n f w num l1).
  - destruct (NW _ _ _ _ Hs Hn) as (pre & E & _ & G). apply (in_unit t pre r e0 E); [|exact H]. intros q u m r' Hq _. destruct (G q u m Hq) as (d & Hd). exists false, d. split; [exact Hd|discriminate].
  - destruct (NW _ _ _ _ Hs Hn) as (pre & E & G & _). rewrite H2. exists pre, r. split; [exact E|]. split; [reflexivity|exact G].
Qed.

(** ** All durations *)
Lemma later_in t d x r q l : component c tu kw nums t d (x :: r) -> x :: r = q ++ l -> goes_on_in (x :: r) q ->
  exists q', t = q' ++ l /\ goes_on_in t q'.
Proof.
  intros H Eq (v & bare' & ds & Uv & D & L'). destruct (component_read c tu kw nums PM t d (x :: r) H) as (p & bare & e & tail & Et & Hp & L & Hf).
  destruct q as [|y q].
  - destruct (follows_between c tu kw nums PM e tail x r false Hf) as (sep & -> & B); [discriminate|]. cbn [app] in Eq. subst l.
    exists (p ++ sep). split; [now rewrite <- app_assoc|]. destruct sep as [|z sep].
    + rewrite app_nil_r. apply (whole t p bare e d Hp L).
    + apply (then_one t p (z :: sep) bare e d Hp); [|exact L]. inversion B as [| |e' ds' bare0 x0 Nd Hd Hb|e' ds1 v0 w ds2 bare0 x0 Nd Hd Iw Hv Hd2 Hx Hb]; subst.
      * now apply b_delimiters.
      * apply (b_conjunction c e ds1 v0 w ds2); auto. intros _. left. lia.
  - injection Eq as <- ->. destruct (follows_between c tu kw nums PM e tail x (q ++ l) bare' Hf L') as (sep & -> & B).
    exists (p ++ sep ++ x :: q). split; [now rewrite Et, <- !app_assoc|]. exists v, bare. eexists. split; [exact Uv|]. split; [|exact L].
    rewrite <- !app_assoc. exact (dts_more c tu kw nums p bare e d sep x (q ++ v) bare' ds Hp B D).
Qed.
Lemma in_components t e : delims_ok c kw nums -> c_allow_multiple c = true -> utf8 t = true -> components_error c tu kw nums s t e -> fine_in t e.
Proof.
  intros HD Hm U H. induction H as [t e H|t d r H Hn Hg|t d r e H Ha Nr Hr IH].
  - now apply in_component.
  - exact Logic.I.
  - assert (Ur : utf8 r = true).
    { apply (f_multi_iff c tu kw nums) in H. apply (fit_progress c tu kw nums HE HD Hm t d r U H). }
    specialize (IH Ur). destruct r as [|x r]; [contradiction|].
    destruct e as [|p m| |p m| | | |m]; try exact Logic.I; cbn [fine_in] in *.
    + destruct IH as (q & l & Eq & Ep & G). destruct (later_in t d x r q l H Eq G) as (q' & E' & G'). now exists q', l.
    + destruct IH as (q & l & Eq & Ep & G). destruct (later_in t d x r q l H Eq G) as (q' & E' & G'). now exists q', l.
    + destruct IH as (q & Eq & Um & G). destruct (later_in t d x r q m H Eq G) as (q' & E' & G'). now exists q'.
Qed.
End ManyPrefix.

(** a text of durations is accepted, but perhaps for a sign *)
Lemma written_accepted c tu kw nums s bare ds : env_ok c tu kw nums -> delims_ok c kw nums -> plain_many c tu kw nums -> c_allow_multiple c = true -> utf8 s = true ->
  durations_text c tu kw nums s bare ds -> (exists D, parse c s tu kw nums = Ok D) \/ parse c s tu kw nums = Err NegativeNumber.
Proof.
  intros HE HD PM Hm U H. destruct (written_components c tu kw nums PM s bare ds H) as (Hc & _).
  assert (A : (forall d, In d ds -> sign_allowed c d) \/ components_error c tu kw nums s s NegativeNumber).
  { clear H U. assert (G : forall s0, (forall d, In d ds -> sign_allowed c d) \/ components_error c tu kw nums s0 s NegativeNumber); [|apply G]. intros s0. induction Hc as [t d Hd|t d r ds Hd Nr Hr IH].
    - destruct (c_allow_negative c) eqn:En; [left; intros x _; now left|]. destruct (is_negative d) eqn:Ed.
      + right. now apply (c_negative c tu kw nums s0 t d []).
      + left. intros ? [<-|[]]. now right.
    - destruct (c_allow_negative c) eqn:En; [left; intros x _; now left|]. destruct (is_negative d) eqn:Ed.
      + right. now apply (c_negative c tu kw nums s0 t d r).
      + destruct IH as [IH|IH].
        * left. intros ? [<-|Hx]; [now right|now apply IH].
        * right. apply (c_later c tu kw nums s0 t d r); auto. now right. }
  destruct A as [A|A].
  - left. destruct (C87_written_texts c tu kw nums s HE HD PM Hm U) as (_ & G). destruct (G bare ds H A) as (D & E & _). now exists D.
  - right. now apply C51_multiple_errors.
Qed.

(** ** C86 *)
Theorem C86_multiple : forall c tu kw nums s, env_ok c tu kw nums -> delims_ok c kw nums -> plain_many c tu kw nums -> c_allow_multiple c = true -> utf8 s = true ->
  (exists id, utf8 id = true /\ u_get tu id <> None) \/ nums = None ->
  let run := fun text => parse c text tu kw nums in
  (forall p m, run s = Err (Syntax p m) \/ run s = Err (TimeUnitErr p m) -> (p <= length s)%nat /\ beginning run (firstn p s)) /\
  (forall l, run s = Err (InvalidInput l) -> exists pre, s = pre ++ l /\ beginning run pre).
Proof.
  intros c tu kw nums s HE HD PM Hm U UN run.
  assert (B : forall pre, utf8 pre = true -> goes_on_in c tu kw nums s pre -> beginning run pre).
  { intros pre Up (t & bare & ds & Ut & H & _). exists t. assert (U1 : utf8 (pre ++ t) = true) by now rewrite utf8_app. split; [exact U1|].
    now apply (written_accepted c tu kw nums (pre ++ t) bare ds). }
  assert (F : forall e, run s = Err e -> fine_in c tu kw nums s s e).
  { intros e E. apply in_components; auto. now apply C51_multiple_errors. }
  split.
  - intros p m H. destruct (C24_error_positions c tu kw nums s p m HE U H) as [L U2]. split; [exact L|].
    assert (G : exists q l, s = q ++ l /\ p = here s l /\ goes_on_in c tu kw nums s q) by (destruct H as [H|H]; exact (F _ H)).
    destruct G as (q & l & Es & Ep & G). assert (Eq : firstn p s = q).
    { rewrite Ep. unfold here. rewrite Es, app_length. replace (length q + length l - length l)%nat with (length q) by lia.
      rewrite firstn_app, firstn_all, Nat.sub_diag, firstn_O, app_nil_r. reflexivity. }
    apply B; [|now rewrite Eq]. apply (utf8_front (firstn p s) (skipn p s)); [now rewrite firstn_skipn|exact U2].
  - intros l H. destruct (F _ H) as (pre & E & Ul & G). exists pre. split; [exact E|]. apply B; [|exact G]. rewrite E in U. now apply (utf8_front pre l).
Qed.
Print Assumptions C86_multiple.

(** the standard parser, with any of the time units, any settings and any conjunctions of letters which are not mistaken for something else *)
Theorem C86_multiple_standard : forall l ss s, let p := fold_left dp_set ss (dp_with_time_units l) in let c := dp_config p in
  config_ok c -> utf8 s = true -> c_allow_multiple c = true ->
  (forall x, c_inner_delimiter c x = true -> ~ 48 <= x <= 57 /\ x <> 46 /\ x <> 43 /\ x <> 45 /\ ~ 65 <= x <= 90 /\ ~ 97 <= x <= 122) ->
  (forall x, c_outer_delimiter c x = c_inner_delimiter c x) ->
  (forall w, In w (words c) -> w <> [] /\ (forall x, In x w -> 65 <= x <= 90 \/ 97 <= x <= 122) /\ str_eq_nocase w (%"ago") = false /\
     (forall u, ~ starts_like w (default_identifier u)) /\ (c_disable_infinity c = false -> ~ starts_like w (%"infinity")) /\
     (forall w', In w' (words c) -> starts_like w w' -> length w = length w')) ->
  (forall i m, dp_parse p s = Err (Syntax i m) \/ dp_parse p s = Err (TimeUnitErr i m) -> (i <= length s)%nat /\ beginning (dp_parse p) (firstn i s)) /\
  (forall r, dp_parse p s = Err (InvalidInput r) -> exists pre, s = pre ++ r /\ beginning (dp_parse p) pre).
Proof.
  intros l ss s p c. subst c. unfold p. rewrite std_fold. unfold dp_parse. cbn [dp_config dp_units]. generalize (fold_left dp_set_config ss config_new).
  intros c HC U Hm HI HO HW.
  apply (C86_multiple c (std_units (units_with l)) None None s); auto; [now apply std_set_env| |].
  - apply delims_none_ok.
  - apply (plain_many_standard l); auto. split; [exact (C31_lookup l)|exact (C31_is_empty l)].
Qed.
Print Assumptions C86_multiple_standard.

(** errors in a sequence of durations, with the conjunction `and`: behind a unit, within `infinity`, behind the conjunction, for a missing exponent;
    the beginning of the text in front of each is continued to an acceptable text *)
Example C86_multiple_standard_example : let p := fold_left dp_set [Set_parse_multiple true (Some [%"and"]); Set_allow_negative true] (dp_with_time_units [Hour; Minute; Second]) in
  dp_parse p (%"1h and ") = Err (Syntax 6 (%"Input may not end with a delimiter")) /\
  dp_parse p (%"1h and" ++ %" 2s") = Ok (Dur false (Std 3602 0)) /\
  dp_parse p (%"1h +infinxty") = Err (Syntax 9 (%"Error parsing infinity: Invalid character 'x'")) /\
  dp_parse p (%"1h +infin" ++ %"ity") = Ok MAX /\
  dp_parse p (%"2m andx") = Err (Syntax 6 (%"A conjunction must be separated by a delimiter, sign or digit but found: 'x'")) /\
  dp_parse p (%"2m and" ++ %"1") = Ok (Dur false (Std 121 0)) /\
  dp_parse p (%"2m seven") = Err (InvalidInput (%"seven")) /\
  beginning (dp_parse p) (%"2m and") /\ beginning (dp_parse p) (%"2m ").
Proof.
  intros p. do 2 (split; [reflexivity|]). do 2 (split; [reflexivity|]). do 3 (split; [reflexivity|]).
  set (l := [Hour; Minute; Second]) in *. set (ss := [Set_parse_multiple true (Some [%"and"]); Set_allow_negative true]) in *.
  assert (G : forall s, utf8 s = true -> (forall i m, dp_parse p s = Err (Syntax i m) \/ dp_parse p s = Err (TimeUnitErr i m) -> (i <= length s)%nat /\ beginning (dp_parse p) (firstn i s)) /\
    (forall r, dp_parse p s = Err (InvalidInput r) -> exists pre, s = pre ++ r /\ beginning (dp_parse p) pre)).
  { intros s U. apply (C86_multiple_standard l ss s); auto.
    - split; [exact ws_ascii|]. split; [exact ws_ascii|]. intros c w E H. injection E as <-. destruct H as [<-|[]]. reflexivity.
    - intros x H. change (is_ascii_whitespace x = true) in H. unfold is_ascii_whitespace in H. lia.
    - intros w [<-|[]]. split; [discriminate|]. split; [each|]. split; [reflexivity|].
      assert (G : forall t, str_eq_nocase (firstn 3 t) (%"and") = false -> ~ starts_like (%"and") t).
      { intros t F (v & r & -> & Hv). pose proof (str_eq_nocase_length _ _ Hv) as L. destruct v as [|x [|y [|z [|]]]]; try discriminate L. cbn [app firstn] in F. congruence. }
      split; [intros u; apply G; destruct u; reflexivity|]. split; [intros _; apply G; reflexivity|]. intros w' [<-|[]] _. reflexivity. }
  split.
  - destruct (G (%"2m andx") eq_refl) as (H & _). exact (proj2 (H 6%nat _ (or_introl eq_refl))).
  - destruct (G (%"2m seven") eq_refl) as (_ & H). destruct (H _ eq_refl) as (pre & E & B). assert (pre = %"2m ") as <-; [|exact B].
    change (%"2m seven") with (%"2m " ++ %"seven") in E. now apply app_inv_tail in E.
Qed.
