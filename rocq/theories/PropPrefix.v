(** * C86: the text in front of an error is all right *)
From Verif Require Import Prelude Time Config Parse SpecTime SpecNum SpecParse SpecValue SpecGrammar SpecSpelling SpecErrors SpecTexts.
From Verif Require Import NumProofs ValueProofs SpellProofs Utf8Proofs RefGrammar PropNum PropParse PropErrors PropTexts Standard StandardProofs PropStandard PropSettings PropModes ExEnv.

(** a valid string whose end is valid has a valid beginning *)
Lemma utf8_front a b : utf8 (a ++ b) = true -> utf8 b = true -> utf8 a = true.
Proof.
  intros H Hb. remember (a ++ b) as l eqn:E. revert a E.
  apply (utf8_ind (fun l => forall a, l = a ++ b -> utf8 a = true)) with (l := l); [| |exact H].
  - intros a E. symmetry in E. apply app_eq_nil in E. now destruct E as [-> _].
  - clear l H. intros ch rest H1 H2 IH a E.
    assert (L : (length ch <= length a)%nat \/ a = [] \/ exists k, a ++ k = ch /\ k <> [] /\ a <> [] /\ b = k ++ rest).
    { destruct (le_lt_dec (length ch) (length a)) as [|L]; [now left|]. right. destruct a as [|x a]; [now left|]. right.
      exists (skipn (length (x :: a)) ch). assert (E1 : x :: a = firstn (length (x :: a)) ch).
      { apply (f_equal (firstn (length (x :: a)))) in E. rewrite !firstn_app, firstn_all, Nat.sub_diag in E.
        replace (length (x :: a) - length ch)%nat with 0%nat in E by lia. rewrite !firstn_O, !app_nil_r in E. now symmetry. }
      assert (E2 : (x :: a) ++ skipn (length (x :: a)) ch = ch) by (rewrite E1 at 1; apply firstn_skipn).
      split; [exact E2|]. split; [|split; [discriminate|]].
      - intros K. apply (f_equal (@length Z)) in K. rewrite skipn_length in K. cbn [length] in *. lia.
      - apply (app_inv_head (x :: a)). rewrite <- E, app_assoc, E2. reflexivity. }
    destruct L as [L|[->|(k & E1 & Nk & Na & ->)]]; [|reflexivity|].
    + assert (E1 : exists a', a = ch ++ a').
      { exists (skipn (length ch) a). apply (f_equal (firstn (length ch))) in E. rewrite !firstn_app, firstn_all, Nat.sub_diag in E.
        replace (length ch - length a)%nat with 0%nat in E by lia. rewrite !firstn_O, !app_nil_r in E. rewrite E at 1. symmetry. apply firstn_skipn. }
      destruct E1 as (a' & ->). rewrite <- app_assoc in E. apply app_inv_head in E. rewrite uchar_app by assumption. exact (IH a' E).
    + exfalso. clear IH H2 E. subst ch. destruct a as [|x a]; [congruence|]. destruct k as [|y k]; [congruence|].
      assert (C : cont y = true).
      { clear Hb. destruct a as [|x1 [|x2 [|x3 a]]]; cbn [app uchar] in H1.
        - destruct k as [|k1 [|k2 [|]]]; cbn [uchar] in H1; unfold cont, inb in *; try discriminate; lia.
        - destruct k as [|k1 [|]]; cbn [uchar] in H1; unfold cont, inb in *; try discriminate; lia.
        - destruct k as [|]; cbn [uchar] in H1; unfold cont, inb in *; try discriminate; lia.
        - destruct a; discriminate. }
      apply utf8_step in Hb. destruct Hb as [Hb|(ch & r & Hb & U & _)]; [discriminate|].
      destruct ch as [|z ch]; [discriminate|]. injection Hb as <- _. unfold cont, inb in C.
      destruct ch as [|c1 [|c2 [|c3 [|]]]]; cbn [uchar] in U; try discriminate; unfold cont, inb in U; lia.
Qed.

Section Prefix.
Context (c : config) (tu : units_like) (kw : option units_like) (nums : option numbers_like).
Context (HE : env_ok c tu kw nums) (PE : plain_env c tu kw nums).
Context (UN : (exists id, utf8 id = true /\ u_get tu id <> None) \/ c_allow_time_unit_delimiter c = false /\ nums = None).
Context (s : str).
Notation inner := (c_inner_delimiter c).

Definition goes_on (pre : str) : Prop := exists t d, utf8 t = true /\ duration_text c tu kw nums (pre ++ t) d.
Definition fine (e : parse_error) : Prop :=
  match e with
  | Syntax p _ | TimeUnitErr p _ => goes_on (firstn p s)
  | InvalidInput l => exists pre, s = pre ++ l /\ (forall x, In x pre -> 0 <= x <= 127) /\ goes_on pre
  | _ => True
  end.

Lemma at_here pre l : s = pre ++ l -> goes_on pre -> goes_on (firstn (here s l) s).
Proof.
  intros E H. unfold here. rewrite E, app_length. replace (length pre + length l - length l)%nat with (length pre) by lia.
  rewrite firstn_app, firstn_all, Nat.sub_diag, firstn_O, app_nil_r. exact H.
Qed.
Lemma at_trailing d pre l e : s = pre ++ l -> goes_on pre -> trailing s d l e -> fine e.
Proof. intros E H (_ & _ & ->). exact (at_here pre l E H). Qed.

Lemma one : number_part c (%"1") (%"1") [] 0.
Proof.
  apply (np c (%"1") [] [] [] 0); [intros x [<-|[]]; vm_compute; split; discriminate|constructor|discriminate|constructor|congruence..].
Qed.
Lemma sign_goes_on sg n : sign_part c sg n -> goes_on sg.
Proof. intros H. exists (%"1"). eexists. split; [reflexivity|]. eapply dt_number; [exact H|exact one]. Qed.
Lemma number_goes_on sg n p W F x : sign_part c sg n -> number_part c p W F x -> goes_on (sg ++ p).
Proof. intros H1 H2. exists []. eexists. split; [reflexivity|]. rewrite app_nil_r. eapply dt_number; eassumption. Qed.
Lemma unit0 : (exists id u m, utf8 id = true /\ unit_part c tu id u m) \/ c_allow_time_unit_delimiter c = false /\ nums = None.
Proof.
  destruct UN as [(id & U & E)|E]; [left|now right]. destruct (u_get tu id) as [[u m]|] eqn:E1; [|congruence].
  exists id, u, m. split; [exact U|now constructor].
Qed.
Lemma number_unit_goes_on sg n p W F x ds : sign_part c sg n -> number_part c p W F x -> delimiters c ds ->
  (ds <> [] -> c_allow_time_unit_delimiter c = true) -> goes_on (sg ++ p ++ ds).
Proof.
  intros H1 H2 H3 H4. destruct unit0 as [(id & u & m & U & Hu)|[E _]].
  - exists id. eexists. split; [exact U|]. rewrite <- !app_assoc. eapply dt_number_unit; eassumption.
  - destruct ds as [|y ds]; [|discriminate (eq_trans (eq_sym (H4 ltac:(discriminate))) E)]. rewrite app_nil_r. eapply number_goes_on; eassumption.
Qed.
Lemma numeral_goes_on sg n f w num ds : sign_part c sg n -> nums = Some f -> f w = Some num -> ds <> [] -> delimiters c ds -> goes_on (sg ++ w ++ ds).
Proof.
  intros H1 H2 H3 H4 H5. destruct unit0 as [(id & u & m & U & Hu)|[_ E]]; [|congruence].
  exists id. eexists. split; [exact U|]. rewrite <- !app_assoc. eapply dt_numeral; eassumption.
Qed.
Lemma delims_utf8 ds : delimiters c ds -> utf8 ds = true.
Proof.
  intros H. induction ds as [|x ds IH]; [reflexivity|]. rewrite utf8_cons_ascii; [apply IH; intros y Hy; apply H; now right|].
  apply (env_inner _ _ _ _ HE). apply H. now left.
Qed.
Lemma numeral_word_goes_on sg n f w num ds : sign_part c sg n -> nums = Some f -> f w = Some num -> ds <> [] -> delimiters c ds -> goes_on (sg ++ w).
Proof.
  intros H1 H2 H3 H4 H5. destruct (numeral_goes_on sg n f w num ds H1 H2 H3 H4 H5) as (t & d & U & H). exists (ds ++ t), d.
  split; [now rewrite utf8_app by now apply delims_utf8|]. rewrite <- !app_assoc in *. exact H.
Qed.

(** ** Sign and number *)
Lemma fine_sign e : sign_error c s s e -> fine e.
Proof.
  assert (G : forall x l, is_sign x = true -> s = x :: l -> goes_on [x]).
  { intros x l Hx E. unfold is_sign in Hx. destruct (Z.eqb_spec x 45) as [->|N].
    - apply (sign_goes_on [45] true). apply (sp_sign c [45] true []); [discriminate|constructor|intros ? []|congruence].
    - assert (x = 43) as -> by lia. apply (sign_goes_on [43] false). apply (sp_sign c [43] false []); [discriminate|constructor|intros ? []|congruence]. }
  intros H. inversion H as [x Hx E1 E2|x l e' Hx Ha Ht E1 E2].
  - rewrite E1. refine (at_here s [] _ _); [now rewrite app_nil_r|]. rewrite <- E1. exact (G x [] Hx (eq_sym E1)).
  - rewrite E1 in Ht. exact (at_trailing _ [x] l e (eq_sym E1) (G x l Hx (eq_sym E1)) Ht).
Qed.
Lemma fraction_is l F r : fraction c l F r -> exists fr, l = fr ++ r /\ fraction_text fr F /\ (fr <> [] -> c_disable_fraction c = false).
Proof.
  intros [l' H|l' F' r' Df (E2 & H2 & _)].
  - exists []. repeat split; [constructor|congruence].
  - exists (46 :: F'). split; [now rewrite E2|]. split; [apply ft_some; now apply digit_string_is_digit|auto].
Qed.
Lemma exponent_is l x r : exponent c l x r -> exists ex, l = ex ++ r /\ exponent_text ex x /\ (ex <> [] -> c_disable_exponent c = false).
Proof.
  intros [l' H|y sg n l' es r' e Hy De Hs (E2 & H2 & _) Nd E3 R].
  - exists []. repeat split; [constructor|congruence].
  - exists (y :: sg ++ es). split; [rewrite E2; cbn; now rewrite <- app_assoc|]. split; [|auto]. rewrite E3. apply (et_some y sg n es); auto.
    + unfold is_e in Hy. lia.
    + destruct Hs; constructor.
    + now apply digit_string_is_digit.
    + now rewrite <- E3.
Qed.
(** `1e`, `1e+` *)
Lemma open_exponent_goes_on sg n W fr F x es n' : sign_part c sg n -> digit_string W -> fraction_text fr F -> W ++ F <> [] ->
  (fr <> [] -> c_disable_fraction c = false) -> is_e x = true -> c_disable_exponent c = false -> exponent_sign es n' ->
  goes_on (sg ++ W ++ fr ++ x :: es).
Proof.
  intros Hs HW Hf N Df Hx De He. exists (%"1"). eexists. split; [reflexivity|]. rewrite <- !app_assoc. cbn [app]. eapply dt_number; [exact Hs|].
  refine (np c W fr F (x :: es ++ %"1") (if n' then - dval (%"1") else dval (%"1")) HW Hf N _ Df (fun _ => De)). apply (et_some x es n' (%"1")).
  - unfold is_e in Hx. lia.
  - destruct He; constructor.
  - intros y [<-|[]]. vm_compute. split; discriminate.
  - discriminate.
  - reflexivity.
  - destruct n'; vm_compute; split; discriminate.
Qed.
Lemma fine_number n l e : signed c s n l -> number_error c s l e -> fine e.
Proof.
  intros Hs. destruct (signed_sign_part c s n l Hs) as (sg & Es & Hsg).
  assert (NF : forall W, digit_string W -> W <> [] -> number_part c W W [] 0).
  { intros W HW N. pose proof (np c W [] [] [] 0 HW) as G. rewrite !app_nil_r in G. apply G; try constructor; congruence. }
  intros [W l1 (-> & HW & _) H|W l1 F l2 (-> & HW & _) Hf N H|W l1 F l2 x l3 (-> & HW & _) Hf N Hx Ha H].
  - assert (G : goes_on (sg ++ W)).
    { destruct W as [|w W]; [rewrite app_nil_r; now apply (sign_goes_on sg n)|]. eapply number_goes_on; [exact Hsg|]. apply NF; [|discriminate].
      now apply digit_string_is_digit. }
    rewrite app_assoc in Es. destruct H; exact (at_here _ _ Es G).
  - destruct (fraction_is _ _ _ Hf) as (fr & -> & Hfr & Df). assert (HW' : digit_string W) by now apply digit_string_is_digit.
    assert (G : goes_on (sg ++ W ++ fr)).
    { eapply number_goes_on; [exact Hsg|]. pose proof (np c W fr F [] 0 HW' Hfr N) as G. rewrite !app_nil_r in G. apply G; [constructor|exact Df|congruence]. }
    inversion H as [x l Hx De E1 E2|x Hx De E1 E2|x y Hx De Hy E1 E2|x es n' y l Hx De He Hy Hn E1 E2| |]; subst l2 e; try exact I.
    + exact (at_here (sg ++ W ++ fr) (x :: l) ltac:(rewrite Es, !app_assoc; reflexivity) G).
    + refine (at_here s [] ltac:(now rewrite app_nil_r) _). rewrite Es. eapply (open_exponent_goes_on sg n W fr F x [] false); eauto. constructor.
    + refine (at_here s [] ltac:(now rewrite app_nil_r) _). rewrite Es.
      unfold is_sign in Hy. destruct (Z.eqb_spec y 45) as [->|Ny]; [|assert (y = 43) as -> by lia];
        (eapply (open_exponent_goes_on sg n W fr F x); eauto; constructor).
    + refine (at_here (sg ++ W ++ fr ++ x :: es) (y :: l) ltac:(rewrite Es, <- !app_assoc; reflexivity) _).
      eapply (open_exponent_goes_on sg n W fr F x es n'); eauto.
  - destruct (fraction_is _ _ _ Hf) as (fr & -> & Hfr & Df). destruct (exponent_is _ _ _ Hx) as (ex & -> & Hex & De).
    refine (at_trailing _ (sg ++ W ++ fr ++ ex) l3 e ltac:(rewrite Es, <- !app_assoc; reflexivity) _ H).
    eapply number_goes_on; [exact Hsg|]. apply np; eauto. now apply digit_string_is_digit.
Qed.

(** ** Time units *)
Lemma fine_unit pre r e : s = pre ++ r -> (forall q u m, unit_part c tu q u m -> goes_on (pre ++ q)) ->
  single_unit_error c tu s r e -> fine e.
Proof.
  intros E G [w l1 Ha (-> & Hw & _) Nw Ew Ht|w l1 ds a r' Ha (-> & Hw & S) Nw Ew (-> & Hd & S2) (v & -> & Hv) [Nr ->]].
  - destruct (u_get tu w) as [[u m]|] eqn:Eu; [|congruence]. rewrite app_assoc in E.
    exact (at_trailing _ _ _ _ E (G w u m (up_plain c tu w u m Eu)) Ht).
  - destruct (u_get tu w) as [[u m]|] eqn:Eu; [|congruence].
    refine (at_here (pre ++ w ++ ds ++ v) r' ltac:(rewrite E, <- !app_assoc; reflexivity) _).
    apply (G _ u (mul_saturating_neg m)). apply up_ago; auto. intros ->. cbn [app] in S.
    destruct v as [|x v]; [discriminate|]. cbn in S, Hv. apply andb_true_iff in Hv.
    destruct Hv as [Hx _]. apply nocase_letter in Hx; [|lia]. pose proof (pe_delimiter _ _ _ _ PE x). destruct (inner x); [|discriminate]. lia.
Qed.

(** ** Infinity *)
Lemma nocase_refl l : str_eq_nocase l l = true.
Proof. induction l as [|x l IH]; [reflexivity|]. cbn. unfold eq_nocase. now rewrite IH, Z.eqb_refl. Qed.
Lemma nocase_app a a' b b' : str_eq_nocase a a' = true -> str_eq_nocase b b' = true -> str_eq_nocase (a ++ b) (a' ++ b') = true.
Proof.
  revert a'. induction a as [|x a IH]; intros [|y a'] H1 H2; try discriminate; [exact H2|]. cbn in *. apply andb_true_iff in H1. destruct H1 as [H0 H1].
  rewrite H0. now apply IH.
Qed.
Lemma fine_infinity sg n : sign_part c sg n -> c_disable_infinity c = false -> forall w l e, single_infinity_error s w l e ->
  forall v v', str_eq_nocase v v' = true -> v' ++ w = %"infinity" -> s = sg ++ v ++ l -> fine e.
Proof.
  intros Hs Hi w l e H. 
  assert (G : forall w v v', str_eq_nocase v v' = true -> v' ++ w = %"infinity" -> utf8 w = true -> goes_on (sg ++ v)).
  { intros w0 v v' E1 E2 Uw. exists w0. eexists. split; [exact Uw|]. rewrite <- app_assoc. apply dt_infinity with (n := n); auto. right. rewrite <- E2. apply nocase_app; [exact E1|apply nocase_refl]. }
  assert (Uw : forall v' w, v' ++ w = %"infinity" -> utf8 w = true).
  { intros v' w0 E. destruct w0 as [|x w0]; [reflexivity|]. assert (U : utf8 (v' ++ x :: w0) = true) by (rewrite E; reflexivity).
    apply (utf8_cut v' x w0 U). assert (I : In x (%"infinity")) by (rewrite <- E; apply in_or_app; right; now left).
    vm_compute in I. repeat (destruct I as [<-|I]; [lia|]). destruct I. }
  induction H as [x y w l e Exy H IH|y w|x y w l Exy|l e [N ->]]; intros v v' E1 E2 Es.
  - apply (IH (v ++ [x]) (v' ++ [y])); [|rewrite <- app_assoc; exact E2|rewrite <- app_assoc; exact Es].
    apply nocase_app; [exact E1|]. cbn. now rewrite Exy.
  - rewrite app_nil_r in Es. refine (at_here s [] ltac:(now rewrite app_nil_r) _). rewrite Es. eapply G; eauto.
  - rewrite app_assoc in Es. exact (at_here _ _ Es (G _ _ _ E1 E2 (Uw _ _ E2))).
  - rewrite app_assoc in Es. exact (at_here _ _ Es (G _ _ _ E1 E2 (Uw _ _ E2))).
Qed.

Lemma fine_single e : single_error c tu kw nums s e -> fine e.
Proof.
  assert (NU : forall n l W F x r, signed c s n l -> number c l W F x r -> exists pre, s = pre ++ r /\ goes_on pre /\ forall q u m, unit_part c tu q u m -> goes_on (pre ++ q)).
  { intros n l W F x r Hs Hn. destruct (signed_sign_part c s n l Hs) as (sg & Es & Hsg).
    destruct (number_number_part c l W F x r Hn) as (p & ds & -> & Hp & Hd & Ha & _). exists (sg ++ p ++ ds).
    split; [rewrite Es, <- !app_assoc; reflexivity|]. split; [eapply number_unit_goes_on; eassumption|].
    intros q u m Hq. exists []. eexists. split; [reflexivity|]. rewrite app_nil_r, <- !app_assoc. eapply dt_number_unit; eassumption. }
  assert (NW : forall n l w r, signed c s n l -> numeral_word c nums l w r -> exists pre, s = pre ++ r /\ goes_on pre /\ forall q u m, unit_part c tu q u m -> goes_on (pre ++ q)).
  { intros n l w r Hs (f & l1 & ds & Hf & (-> & Hw & _) & Nw & Ew & (-> & Hd & _) & Nd & Nr).
    destruct (signed_sign_part c s n _ Hs) as (sg & Es & Hsg). destruct (f w) as [num|] eqn:Ef; [|congruence]. exists (sg ++ w ++ ds).
    split; [rewrite Es, <- !app_assoc; reflexivity|]. split; [eapply numeral_goes_on; eassumption|].
    intros q u m Hq. exists []. eexists. split; [reflexivity|]. rewrite app_nil_r, <- !app_assoc. eapply dt_numeral; eassumption. }
  intros [E|e0 H|n l e0 Hs H|n l W F x r Hs Hn Nr Et|n l W F x r Hs Hn Nr Et H|n l W F x r e0 Hs Hn Nr Et H|n l r e0 Hs Hi (v & -> & Hv) Nr H|n l e0 Hs Hw Hk Ho H|n l Hs Hw Hk Ho H|
    n l e0 Hs Hw Hk Ho H|n l w r e0 Hs Hw Hk Ho Hn H|n l w r e0 Hs Hw Hk Ho Hn H1 H2|d Hd Hn1 Hn2].
  - exact I.
  - now apply fine_sign.
  - now apply (fine_number n l).
  - destruct (NU _ _ _ _ _ _ Hs Hn) as (pre & E & G & _). exact (at_here pre r E G).
  - destruct (NU _ _ _ _ _ _ Hs Hn) as (pre & E & G & _). exact (at_here pre r E G).
  - destruct (NU _ _ _ _ _ _ Hs Hn) as (pre & E & _ & G). exact (fine_unit pre r e0 E G H).
  - destruct (signed_sign_part c s n _ Hs) as (sg & Es & Hsg). exact (fine_infinity sg n Hsg Hi _ _ _ H v (%"inf") Hv eq_refl Es).
  - destruct (signed_sign_part c s n _ Hs) as (sg & Es & Hsg). apply (fine_unit sg l e0 Es); [|exact H].
    intros q u m Hq. exists []. eexists. split; [reflexivity|]. rewrite app_nil_r. eapply dt_unit; eassumption.
  - destruct (signed_sign_part c s n _ Hs) as (sg & Es & Hsg). exists sg. split; [exact Es|]. split; [|exact (sign_goes_on sg n Hsg)].
    destruct Hsg as [|sg n ds N Hs1 Hd _]; [intros x []|]. intros x Hx. apply in_app_or in Hx. destruct Hx as [Hx|Hx].
    + destruct Hs1; [destruct Hx|..]; (destruct Hx as [<-|[]]; vm_compute; split; discriminate).
    + apply (env_inner _ _ _ _ HE). now apply Hd.
  - destruct (signed_sign_part c s n _ Hs) as (sg & Es & Hsg). destruct H as (f & w & l1 & Hf & (-> & _ & _) & Nw & Ew & Ht).
    destruct (f w) as [num|] eqn:Ef; [|congruence]. rewrite app_assoc in Es. refine (at_trailing _ _ _ _ Es _ Ht).
    destruct Ht as (Nl & Hl & _). eapply numeral_word_goes_on; eassumption.
  - destruct (NW _ _ _ _ Hs Hn) as (pre & E & _ & G). exact (fine_unit pre r e0 E G H).
  - destruct (NW _ _ _ _ Hs Hn) as (pre & E & G & _). rewrite H2. exact (at_here pre r E G).
  - exact I.
Qed.
End Prefix.

(** ** C86 *)
(** a text which can be continued to one the parser accepts, but for its sign *)
Definition beginning (run : str -> res duration) (pre : str) : Prop :=
  exists t, utf8 (pre ++ t) = true /\ ((exists d, run (pre ++ t) = Ok d) \/ run (pre ++ t) = Err NegativeNumber).

(** The byte position of an error: everything in front of it is the beginning of an acceptable text. The text InvalidInput carries is the rest of
    the input, and everything in front of it is the beginning of an acceptable text, too. *)
Theorem C86_in_front_of_errors : forall c tu kw nums s, env_ok c tu kw nums -> plain_env c tu kw nums -> c_allow_multiple c = false -> utf8 s = true ->
  (exists id, utf8 id = true /\ u_get tu id <> None) \/ (c_allow_time_unit_delimiter c = false /\ nums = None) ->
  let run := fun text => parse c text tu kw nums in
  (forall p m, run s = Err (Syntax p m) \/ run s = Err (TimeUnitErr p m) -> (p <= length s)%nat /\ beginning run (firstn p s)) /\
  (forall l, run s = Err (InvalidInput l) -> exists pre, s = pre ++ l /\ beginning run pre).
Proof.
  intros c tu kw nums s HE PE Hm U UN run.
  assert (B : forall pre, utf8 pre = true -> goes_on c tu kw nums pre -> beginning run pre).
  { intros pre Up (t & d & Ut & H). exists t. assert (U1 : utf8 (pre ++ t) = true) by now rewrite utf8_app. split; [exact U1|].
    destruct (c_allow_negative c) eqn:En; [|destruct (is_negative d) eqn:Ed].
    - left. exists d. apply (C84_written_texts c tu kw nums _ d HE PE Hm U1). split; [exact H|now left].
    - right. apply C51_single_errors; auto. apply s_negative with d; auto. now apply (written_is_read c tu kw nums PE).
    - left. exists d. apply (C84_written_texts c tu kw nums _ d HE PE Hm U1). split; [exact H|now right]. }
  assert (F : forall e, run s = Err e -> fine c tu kw nums s e).
  { intros e E. apply fine_single; auto. now apply C51_single_errors. }
  split.
  - intros p m H. destruct (C24_error_positions c tu kw nums s p m HE U H) as [L U2]. split; [exact L|]. apply B.
    + apply (utf8_front (firstn p s) (skipn p s)); [now rewrite firstn_skipn|exact U2].
    + destruct H as [H|H]; exact (F _ H).
  - intros l H. destruct (F _ H) as (pre & E & A & G). exists pre. split; [exact E|]. apply B; [|exact G].
    clear - A. induction pre as [|x pre IH]; [reflexivity|]. rewrite utf8_cons_ascii by (apply A; now left). apply IH. intros y Hy. apply A. now right.
Qed.
Print Assumptions C86_in_front_of_errors.

Lemma plain_standard l c : config_ok c ->
  (forall x, c_inner_delimiter c x = true -> ~ 48 <= x <= 57 /\ x <> 46 /\ x <> 43 /\ x <> 45 /\ ~ 65 <= x <= 90 /\ ~ 97 <= x <= 122) ->
  plain_env c (std_units (units_with l)) None None.
Proof.
  intros HC HD. constructor; try discriminate; [exact HD|]. intros id E.
  destruct (u_get (std_units (units_with l)) id) as [[u m]|] eqn:E1; [|congruence]. apply C31_lookup in E1. destruct E1 as (I & -> & ->).
  assert (NE : u_is_empty (std_units (units_with l)) = false).
  { destruct (u_is_empty _) eqn:Ee; [|reflexivity]. apply C31_is_empty in Ee. subst l. destruct I. }
  split; [exact NE|].
  assert (W : forall x, In x (default_identifier u) -> 65 <= x <= 90 \/ 97 <= x <= 122).
  { intros x Hx. destruct u; vm_compute in Hx; repeat (destruct Hx as [<-|Hx]; [lia|]); destruct Hx. }
  split; [split; [split|]|].
  - destruct u; vm_compute; repeat split; try discriminate; intros [H1 H2]; (now apply H1) || now apply H2.
  - intros x y z r Ez. destruct u; discriminate.
  - intros x Hx. destruct (c_inner_delimiter c x) eqn:Ed; [|reflexivity]. specialize (HD x Ed). specialize (W x Hx). lia.
  - destruct u; vm_compute; split; discriminate.
Qed.
(** the standard parser, with any of the time units and any settings for single durations. Without time units, no delimiters in front of them. *)
Theorem C86_standard : forall l ss s, let p := fold_left dp_set ss (dp_with_time_units l) in let c := dp_config p in
  config_ok c -> c_allow_multiple c = false -> utf8 s = true -> l <> [] \/ c_allow_time_unit_delimiter c = false ->
  (forall x, c_inner_delimiter c x = true -> ~ 48 <= x <= 57 /\ x <> 46 /\ x <> 43 /\ x <> 45 /\ ~ 65 <= x <= 90 /\ ~ 97 <= x <= 122) ->
  (forall i m, dp_parse p s = Err (Syntax i m) \/ dp_parse p s = Err (TimeUnitErr i m) -> (i <= length s)%nat /\ beginning (dp_parse p) (firstn i s)) /\
  (forall r, dp_parse p s = Err (InvalidInput r) -> exists pre, s = pre ++ r /\ beginning (dp_parse p) pre).
Proof.
  intros l ss s p c. subst c. unfold p. rewrite std_fold. unfold dp_parse. cbn [dp_config dp_units]. generalize (fold_left dp_set_config ss config_new). intros c HC Hm U UN HD.
  apply (C86_in_front_of_errors c (std_units (units_with l)) None None s); auto using plain_standard; [now apply std_set_env|].
  destruct UN as [N|N]; [left|right; auto]. destruct l as [|u l]; [congruence|]. exists (default_identifier u). split; [destruct u; reflexivity|].
  assert (E : u_get (std_units (units_with (u :: l))) (default_identifier u) = Some (u, default_multiplier)) by (apply C31_lookup; split; [now left|auto]).
  congruence.
Qed.
Print Assumptions C86_standard.
Example C86_standard_example :
  dp_parse dp_new (%"1.5e+x") = Err (Syntax 5 (%"The exponent must have at least one digit")) /\
  dp_parse dp_new (%"1.5e+" ++ %"1ms") = Ok (Dur false (Std 0 15000000)) /\
  dp_parse dp_new (%"+infinlty") = Err (Syntax 6 (%"Error parsing infinity: Invalid character 'l'")) /\
  dp_parse dp_new (%"+infin" ++ %"ity") = Ok MAX /\
  dp_parse dp_new (%"12 s") = Err (TimeUnitErr 2 (%"Invalid time unit: ' s'")) /\
  dp_parse dp_new (%"-seven") = Err (InvalidInput (%"seven")).
Proof. repeat split. Qed.

(** without time units, but with delimiters in front of them, it is not so: `1 ` cannot be continued *)
Theorem C86_without_units_refuted : let p := dp_set dp_without_time_units (Set_allow_time_unit_delimiter true) in
  dp_parse p (%"1 x") = Err (TimeUnitErr 2 (%"No time units allowed but found: 'x'")) /\ ~ beginning (dp_parse p) (%"1 ").
Proof.
  intros p. split; [reflexivity|]. intros (t & U & H).
  set (c := set_allow_time_unit_delimiter config_new true). set (tu := std_units (units_with [])). set (s := %"1 " ++ t) in *.
  assert (HE : env_ok c tu None None) by (apply std_set_env; exact config_new_ok).
  change (dp_parse p) with (fun x => parse c x tu None None) in H. cbv beta in H.
  assert (E : exists e, parse c s tu None None = Err e /\ e <> NegativeNumber); [|destruct E as (e & E & N); rewrite E in H; destruct H as [(d & H)|H]; congruence].
  assert (S : signed c s false s) by (apply unsigned; [reflexivity|discriminate]).
  assert (S1 : span is_digit s (%"1") (%" " ++ t)) by (split; [reflexivity|split; [intros x [<-|[]]; reflexivity|reflexivity]]).
  assert (F : fraction c (%" " ++ t) [] (%" " ++ t)) by (apply no_fraction; reflexivity).
  assert (X : exponent c (%" " ++ t) 0 (%" " ++ t)) by (apply no_exponent; reflexivity).
  destruct (span_exists (c_inner_delimiter c) (%" " ++ t)) as (ds & r & D).
  destruct r as [|y r].
  - eexists. split; [apply (C51_single_errors c tu None None); auto; apply (s_number c tu None None s false s); [exact S|]|].
    + eapply (ne_delimiters c s s); [exact S1|exact F|discriminate|exact X|reflexivity|]. destruct D as (E & Hd & _). rewrite app_nil_r in E.
      split; [intros K; discriminate K|]. split; [rewrite E; exact Hd|reflexivity].
    + discriminate.
  - eexists. split; [apply (C51_single_errors c tu None None); auto; apply (s_no_units c tu None None s false s (%"1") [] 0 (y :: r)); [exact S| |discriminate|reflexivity]|].
    + exists (%" " ++ t), (%" " ++ t), (%" " ++ t). split; [exact S1|]. split; [exact F|]. split; [exact X|]. split; [|discriminate].
      apply (some_unit_delimiter c _ ds); [reflexivity|exact D|right; discriminate].
    + discriminate.
Qed.
Print Assumptions C86_without_units_refuted.
