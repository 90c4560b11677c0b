(** * The reference parser accepts exactly the grammar *)
From Verif Require Import Prelude Util Time Config Bytes Repr Parse SpecTime SpecNum SpecValue SpecParse SpecGrammar
  TimeProofs NumProofs ReprProofs Utf8Proofs BytesProofs SafeProofs RefParse RefProofs RefSingle RefMulti.

Lemma span_take p l : span p l (take_while p l) (drop_while p l).
Proof.
  split; [symmetry; apply take_drop_while|]. split; [apply take_while_all|].
  pose proof (drop_while_head p l) as H. destruct (drop_while p l) as [|x r]; [exact I|]. exact (H x r eq_refl).
Qed.
Lemma span_iff p l a b : span p l a b <-> a = take_while p l /\ b = drop_while p l.
Proof.
  split; [|intros [-> ->]; apply span_take].
  intros (-> & Ha & Hb). destruct (take_while_app_stop p a b Ha) as [E1 E2]; auto.
Qed.
Lemma until_iff p l a b : until p l a b <-> a = take_while (fun x => negb (p x)) l /\ b = drop_while (fun x => negb (p x)) l.
Proof. apply span_iff. Qed.

Lemma word_prefix_iff w l r : word_prefix w l r <-> starts_nocase w l = true /\ r = skipn (length w) l.
Proof.
  split.
  - intros (v & -> & E). split; [now apply starts_nocase_app|].
    rewrite <- (str_eq_nocase_length _ _ E), skipn_app, skipn_all, Nat.sub_diag. reflexivity.
  - intros [H ->]. exists (firstn (length w) l). split; [symmetry; apply firstn_skipn|exact H].
Qed.
Lemma no_word_prefix_iff w l : (~ exists r, word_prefix w l r) <-> starts_nocase w l = false.
Proof.
  split.
  - intros H. destruct (starts_nocase w l) eqn:E; [|reflexivity]. destruct H. eexists. apply word_prefix_iff. eauto.
  - intros H [r Hr]. apply word_prefix_iff in Hr. destruct Hr. congruence.
Qed.
Lemma nonempty_iff l r : nonempty l = Some r <-> r = l /\ r <> [].
Proof. split; [intros H; apply nonempty_Some in H; destruct H; auto|]. intros [-> H]. now destruct l. Qed.

Lemma obind_Some {A B} (o : option A) (f : A -> option B) y : obind o f = Some y <-> exists x, o = Some x /\ f x = Some y.
Proof. destruct o as [a|]; cbn; split; try discriminate; eauto; intros (x & E & F); congruence. Qed.

Lemma str_eq_nocase_app' a1 a2 b1 b2 : length a1 = length b1 ->
  str_eq_nocase (a1 ++ a2) (b1 ++ b2) = str_eq_nocase a1 b1 && str_eq_nocase a2 b2.
Proof.
  revert b1; induction a1 as [|x a1 IH]; intros [|y b1] L; try discriminate; [reflexivity|]. cbn.
  injection L as L. now rewrite IH, andb_assoc.
Qed.

Section Gram.
Context (c : config) (tu : units_like) (kw : option units_like) (nums : option numbers_like).
Notation inner := (c_inner_delimiter c).
Notation outer := (c_outer_delimiter c).

Lemma signed_iff s n l : signed c s n l <-> f_signed c s = Some (n, l).
Proof.
  split.
  - intros [l0 H N|x l0 r Hx Ha El N|x l0 ds r Hx Ha Hs N]; unfold f_signed.
    + destruct l0 as [|x l0]; [congruence|]. cbn in H. now rewrite H.
    + rewrite Hx, Ha. subst l0. destruct r; [congruence|]. reflexivity.
    + rewrite Hx, Ha. apply span_iff in Hs. destruct Hs as [-> ->].
      destruct (drop_while inner l0); [congruence|reflexivity].
  - destruct s as [|x s]; cbn [f_signed]; [discriminate|]. destruct (is_sign x) eqn:Hx.
    + intros H. apply obind_Some in H. destruct H as (r & H & E). injection E as <- <-.
      apply nonempty_iff in H. destruct H as [-> N]. destruct (c_allow_sign_delimiter c) eqn:Ha.
      * apply with_sign_delimiter with (ds := take_while inner s); auto. apply span_take.
      * now apply with_sign.
    + intros [= <- <-]. apply unsigned; [exact Hx|discriminate].
Qed.

Lemma fraction_iff l F r : fraction c l F r <-> f_fraction c l = Some (F, r).
Proof.
  split.
  - intros [l0 H|l0 F0 r0 Hd Hs].
    + destruct l0 as [|x l0]; [reflexivity|]. cbn in H |- *. now rewrite H.
    + cbn [f_fraction is_dot]. replace (is_dot 46) with true by reflexivity. rewrite Hd.
      apply span_iff in Hs. destruct Hs as [-> ->]. reflexivity.
  - destruct l as [|x l]; cbn [f_fraction]; [intros [= <- <-]; now apply no_fraction|].
    destruct (is_dot x) eqn:Hx.
    + destruct (c_disable_fraction c) eqn:Hd; [discriminate|]. intros [= <- <-]. unfold is_dot in Hx. apply Z.eqb_eq in Hx. subst x.
      apply some_fraction; [assumption|apply span_take].
    + intros [= <- <-]. apply no_fraction. exact Hx.
Qed.

Lemma exponent_digits_iff n l e r :
  f_exponent_digits n l = Some (e, r) <->
  exists ds, span is_digit l ds r /\ ds <> [] /\ e = (if n then - dval ds else dval ds) /\ -32768 <= e <= 32767.
Proof.
  unfold f_exponent_digits. split.
  - destruct (take_while is_digit l) as [|y ds] eqn:Et; [discriminate|]. cbv zeta.
    destruct (is_i16 _) eqn:Ei; [|discriminate]. intros [= <- <-]. apply is_i16_iff in Ei.
    exists (y :: ds). split; [apply span_iff; auto|]. split; [discriminate|]. auto.
  - intros (ds & Hs & Nd & -> & Hr). apply span_iff in Hs. destruct Hs as [<- ->]. destruct ds as [|y ds]; [congruence|].
    cbv zeta. apply is_i16_iff in Hr. now rewrite Hr.
Qed.

Lemma span_digit_head l ds r : span is_digit l ds r -> ds <> [] -> exists x l', l = x :: l' /\ is_digit x = true.
Proof.
  intros (-> & H & _) N. destruct ds as [|x ds]; [congruence|]. cbn. eexists _, _. split; [reflexivity|]. apply H. now left.
Qed.

Lemma exponent_iff l e r : exponent c l e r <-> f_exponent c l = Some (e, r).
Proof.
  split.
  - intros [l0 H|x sg n l0 ds r0 e0 Hx Hd Hsg Hs Nd He Hr].
    + destruct l0 as [|x l0]; [reflexivity|]. cbn in H |- *. now rewrite H.
    + cbn [f_exponent]. rewrite Hx, Hd.
      assert (G : f_exponent_digits n l0 = Some (e0, r0)) by (apply exponent_digits_iff; eauto 6).
      destruct Hsg; cbn [app]; [|exact G|exact G].
      destruct (span_digit_head _ _ _ Hs Nd) as (y & l' & -> & Hy). apply is_digit_iff in Hy.
      replace (y =? 43) with false by lia. replace (y =? 45) with false by lia. exact G.
  - destruct l as [|x l]; cbn [f_exponent]; [intros [= <- <-]; now apply no_exponent|].
    destruct (is_e x) eqn:Hx; [|intros [= <- <-]; now apply no_exponent].
    destruct (c_disable_exponent c) eqn:Hd; [discriminate|]. destruct l as [|y l]; [discriminate|].
    destruct (Z.eqb_spec y 43) as [->|N1]; [|destruct (Z.eqb_spec y 45) as [->|N2]];
      intros H; apply exponent_digits_iff in H; destruct H as (ds & Hs & Nd & He & Hr).
    + apply (some_exponent c x [43] false l ds); auto. constructor.
    + apply (some_exponent c x [45] true l ds); auto. constructor.
    + apply (some_exponent c x [] false (y :: l) ds); auto. constructor.
Qed.

Lemma unit_delimiter_iff l r : unit_delimiter c l r <-> f_unit_delimiter c l = Some r.
Proof.
  split.
  - intros [l0 H|l0 ds r0 H Hs Hn].
    + destruct l0 as [|x l0]; [reflexivity|]. cbn. now rewrite H.
    + apply span_iff in Hs. destruct Hs as [-> ->]. destruct l0 as [|x l0]; [reflexivity|].
      cbn [f_unit_delimiter take_while drop_while] in *. rewrite H. destruct (inner x); cbn [andb]; [|reflexivity].
      destruct Hn as [Hn|Hn]; [discriminate|]. now apply nonempty_iff.
  - destruct (c_allow_time_unit_delimiter c) eqn:Ha.
    + destruct l as [|x l]; cbn [f_unit_delimiter].
      { intros [= <-]. apply some_unit_delimiter with (ds := []); auto. apply (span_take inner []). }
      rewrite Ha. cbn [andb]. destruct (inner x) eqn:Hx.
      * intros H. apply nonempty_iff in H. destruct H as [-> N]. apply some_unit_delimiter with (ds := take_while inner (x :: l)); auto.
        apply span_iff. split; [reflexivity|]. cbn [drop_while]. now rewrite Hx.
      * intros [= <-]. apply some_unit_delimiter with (ds := []); auto. apply span_iff. cbn [take_while drop_while]. rewrite Hx. auto.
    + intros H. assert (r = l) as -> by (destruct l; cbn in H; rewrite ?Ha in H; cbn in H; congruence).
      now apply no_unit_delimiter.
Qed.

Lemma is_empty_iff (l : str) : is_empty l = true <-> l = [].
Proof. destruct l; cbn; split; congruence. Qed.
Lemma is_empty_false (l : str) : is_empty l = false <-> l <> [].
Proof. destruct l; cbn; split; congruence. Qed.

(** what the template does after the number *)
Definition after_number (T : rtemplate) (n : bool) (W F : str) (x : Z) (l : str) : option (duration * str) :=
  match l with
  | [] => Some (number_value n W F x (c_default_unit c) default_multiplier, [])
  | _ => let? (o, l) := rt_ntu T l in
         match o with
         | Some (u, m) => rt_fin T (number_value n W F x u m) l
         | None => rt_fin T (number_value n W F x (c_default_unit c) default_multiplier) l
         end
  end.

Lemma f_number_iff T n l o :
  f_number c T n (take_while is_digit l) (drop_while is_digit l) = Some o <->
  exists W F x r, number c l W F x r /\ after_number T n W F x r = Some o.
Proof.
  unfold f_number. split.
  - intros H. apply obind_Some in H. destruct H as ([F l1] & Hf & H). destruct (is_empty _) eqn:Ee; [discriminate|].
    apply obind_Some in H. destruct H as ([x l2] & He & H). apply obind_Some in H. destruct H as (l3 & Hu & H).
    exists (take_while is_digit l), F, x, l3. split; [|exact H]. exists (drop_while is_digit l), l1, l2.
    split; [apply span_take|]. split; [now apply fraction_iff|]. split; [now apply exponent_iff|].
    split; [now apply unit_delimiter_iff|now apply is_empty_false].
  - intros (W & F & x & r & (l1 & l2 & l3 & Hs & Hf & He & Hu & N) & H). apply span_iff in Hs. destruct Hs as [-> ->].
    apply fraction_iff in Hf. rewrite Hf. cbn [obind]. apply is_empty_false in N. rewrite N.
    apply exponent_iff in He. rewrite He. cbn [obind]. apply unit_delimiter_iff in Hu. rewrite Hu. exact H.
Qed.

Lemma number_head l W F x r : number c l W F x r ->
  match l with [] => False | y :: _ => is_digit y = true \/ is_dot y = true end.
Proof.
  intros (l1 & l2 & l3 & Hs & Hf & _ & _ & N). apply span_iff in Hs. destruct Hs as [-> ->]. apply fraction_iff in Hf.
  destruct l as [|y l]; cbn [take_while drop_while] in *.
  - cbn in Hf. injection Hf as <- <-. now apply N.
  - destruct (is_digit y) eqn:Hy; [auto|]. cbn [f_fraction] in Hf. destruct (is_dot y); [auto|].
    injection Hf as <- <-. now destruct N.
Qed.
Lemma digit_not_dot y : is_digit y = true -> is_dot y = false.
Proof. rewrite is_digit_iff. unfold is_dot. lia. Qed.
Lemma inf_head l : starts_nocase (%"inf") l = true -> exists y l', l = y :: l' /\ is_digit y = false /\ is_dot y = false.
Proof.
  destruct l as [|y l]; [discriminate|]. change (%"inf") with (105 :: %"nf"). rewrite starts_nocase_cons, andb_true_iff. intros [H _].
  eexists _, _. split; [reflexivity|]. unfold eq_nocase, to_lower in H.
  destruct ((65 <=? y) && (y <=? 90)) eqn:E; unfold is_dot;
    (split; [destruct (is_digit y) eqn:D; [apply is_digit_iff in D|reflexivity]|]); cbn in H; lia.
Qed.

Lemma word_iff l : l <> [] -> word c l <->
  (match l with [] => False | y :: _ => is_digit y = false /\ is_dot y = false end) /\
  negb (c_disable_infinity c) && starts_nocase (%"inf") l = false.
Proof.
  intros N. destruct l as [|y l]; [congruence|]. unfold word, starts_not. split.
  - intros (H1 & H2 & H3). split; [auto|]. destruct (c_disable_infinity c); [reflexivity|]. cbn [negb andb].
    apply no_word_prefix_iff. now apply H3.
  - intros [[H1 H2] H3]. split; [assumption|]. split; [assumption|]. intros Hd. rewrite Hd in H3. cbn [negb andb] in H3.
    now apply no_word_prefix_iff.
Qed.

Lemma f_template_iff T s o :
  f_template c nums T s = Some o <->
  exists n l, signed c s n l /\
    ((exists W F x r, number c l W F x r /\ after_number T n W F x r = Some o) \/
     (c_disable_infinity c = false /\ exists r, word_prefix (%"inf") l r /\ rt_inf T n r = Some o) \/
     (word c l /\ f_word c nums T n l = Some o)).
Proof.
  unfold f_template. split.
  - intros H. apply obind_Some in H. destruct H as ([n l] & Hs & H). exists n, l.
    split; [now apply signed_iff|]. destruct l as [|x l]; [discriminate|].
    destruct (is_digit x) eqn:Hd.
    { left. now apply f_number_iff. }
    destruct (is_dot x) eqn:Hdot.
    { left. apply f_number_iff. cbn [take_while drop_while]. rewrite Hd. exact H. }
    destruct (negb (c_disable_infinity c) && starts_nocase (%"inf") (x :: l)) eqn:Hi.
    { right. left. apply andb_true_iff in Hi. destruct Hi as [Hi1 Hi2]. apply negb_true_iff in Hi1. split; [assumption|].
      exists (skipn 3 (x :: l)). split; [now apply word_prefix_iff|exact H]. }
    right. right. split; [|exact H]. apply word_iff; [discriminate|]. auto.
  - intros (n & l & Hs & H). apply signed_iff in Hs. rewrite Hs. cbn [obind].
    destruct H as [H|[H|H]].
    + pose proof H as H'. destruct H' as (W & F & x & r & Hn & _). apply number_head in Hn. apply f_number_iff in H.
      destruct l as [|y l]; [contradiction|]. destruct (is_digit y) eqn:Hd; [exact H|].
      destruct Hn as [Hn|Hn]; [discriminate|]. rewrite Hn. cbn [take_while drop_while] in H. rewrite Hd in H. exact H.
    + destruct H as (Hd & r & Hw & H). apply word_prefix_iff in Hw. destruct Hw as [Hw ->].
      destruct (inf_head l Hw) as (y & l' & -> & D1 & D2). rewrite D1, D2, Hd, Hw. exact H.
    + destruct H as (Hw & H). assert (N : l <> []).
      { apply signed_iff in Hs. destruct Hs; assumption. }
      apply word_iff in Hw; [|exact N]. destruct l as [|y l]; [congruence|]. destruct Hw as [[D1 D2] Hi]. now rewrite D1, D2, Hi.
Qed.

Lemma numeral_prefix_iff l n r : numeral_prefix c nums l n r <-> f_numeral_prefix c nums l = Some (Some (n, r)).
Proof.
  unfold numeral_prefix, f_numeral_prefix. split.
  - intros (f & w & l1 & ds & Ef & Hu & Nw & Ew & Hs & Nd & Nr). rewrite Ef.
    apply until_iff in Hu. destruct Hu as [Hw Hl1]. rewrite <- Hw, <- Hl1.
    destruct w as [|x w]; [congruence|]. rewrite Ew. apply span_iff in Hs. destruct Hs as [Hds Hr].
    destruct l1 as [|y l1]; [subst ds; destruct (Nd eq_refl)|]. rewrite <- Hr. destruct r; [congruence|reflexivity].
  - intros H. destruct nums as [f|]; [|discriminate]. 
    set (w := take_while (fun x => negb (inner x)) l) in *. set (l1 := drop_while (fun x => negb (inner x)) l) in *.
    destruct w as [|x w0] eqn:Ew; [discriminate|]. destruct (f (x :: w0)) as [m|] eqn:Ef; [|discriminate].
    destruct l1 as [|y l1'] eqn:El1; [discriminate|]. apply obind_Some in H. destruct H as (r' & H & E). injection E as -> <-.
    apply nonempty_iff in H. destruct H as [-> N].
    pose proof (drop_while_head (fun x => negb (inner x)) l y l1' El1) as Hy. apply negb_false_iff in Hy.
    exists f, (x :: w0), (y :: l1'), (take_while inner (y :: l1')). split; [reflexivity|].
    split; [apply until_iff; auto|]. split; [discriminate|]. split; [assumption|]. split; [apply span_take|].
    split; [|exact N]. cbn [take_while]. rewrite Hy. discriminate.
Qed.
(** "not a numeral" and "delimiter at the end": no numeral *)
Lemma f_numeral_iff T n l o : f_numeral c nums T n l = Some o <->
  exists num r um r2, numeral_prefix c nums l num r /\ rt_tu T r = Some (Some (um, r2)) /\
     rt_fin T (numeral_value n num (fst um) (snd um)) r2 = Some o.
Proof.
  unfold f_numeral. split.
  - intros H. apply obind_Some in H. destruct H as ([[num r]|] & Hp & H); [|discriminate].
    apply obind_Some in H. destruct H as ([[[u m] r2]|] & Ht & H); [|discriminate].
    exists num, r, (u, m), r2. split; [now apply numeral_prefix_iff|auto].
  - intros (num & r & [u m] & r2 & Hp & Ht & H). apply numeral_prefix_iff in Hp. rewrite Hp. cbn [obind]. rewrite Ht. exact H.
Qed.

(** ** Single *)
Lemma fs_kw_iff l um r : fs_kw kw l = Some (Some (um, r)) <-> single_keyword_is kw l (fst um) (snd um) /\ r = [].
Proof.
  unfold fs_kw, single_keyword_is. destruct um as [u m]; cbn [fst snd]. split.
  - destruct kw as [k|]; [|discriminate]. destruct (u_get k l) as [um'|] eqn:E; [|discriminate]. intros [= -> <-]. eauto.
  - intros ((k & Ek & E) & ->). rewrite Ek, E. reflexivity.
Qed.
Lemma fs_kw_none l : fs_kw kw l = Some None <-> forall u m, ~ single_keyword_is kw l u m.
Proof.
  unfold fs_kw, single_keyword_is. split.
  - intros H u m (k & Ek & E). rewrite Ek, E in H. discriminate.
  - intros H. destruct kw as [k|]; [|reflexivity]. destruct (u_get k l) as [[u m]|] eqn:E; [|reflexivity].
    destruct (H u m). eauto.
Qed.
Lemma fs_kw_total l : fs_kw kw l <> None.
Proof. unfold fs_kw. destruct kw as [k|]; [|discriminate]. destruct (u_get k l); discriminate. Qed.

(** the result is used up by fs_fin *)
Lemma fs_tu_iff l um : l <> [] -> fs_tu c tu l = Some (Some (um, [])) <-> single_unit c tu l (fst um) (snd um).
Proof.
  intros Nl. unfold fs_tu. destruct um as [u m]; cbn [fst snd]. split.
  - destruct (c_allow_ago c) eqn:Ea.
    + pose proof (span_take (fun x => negb (inner x)) l) as Hsp.
      set (w := take_while (fun x => negb (inner x)) l) in *. set (l1 := drop_while (fun x => negb (inner x)) l) in *.
      destruct w as [|x w0] eqn:Ew; [discriminate|]. rewrite <- Ew in *. destruct (u_get tu w) as [[u0 m0]|] eqn:Eg; [|discriminate].
      destruct l1 as [|y l1'] eqn:El1.
      * intros [= -> ->]. assert (E : w = l) by (destruct Hsp as [E _]; rewrite app_nil_r in E; congruence).
        apply su_no_ago; auto; [unfold until; now rewrite E in Hsp|congruence].
      * rewrite <- El1 in *. intros H. apply obind_Some in H. destruct H as (a & H & E). apply nonempty_iff in H. destruct H as [-> N].
        destruct (starts_nocase (%"ago") (drop_while inner l1)) eqn:Eago; [|discriminate]. injection E as -> <- E3.
        apply su_ago with (w := w) (l1 := l1) (ds := take_while inner l1) (a := drop_while inner l1); auto.
        -- rewrite Ew. discriminate.
        -- apply span_take.
        -- apply starts_nocase_all; [exact Eago|exact E3].
    + destruct (u_get tu l) as [um'|] eqn:Eg; [|discriminate]. intros [= ->]. now apply su_plain.
  - intros [l0 u0 m0 Ha Eg|l0 u0 m0 Ha N Hu Eg|l0 w l1 ds a u0 m0 Ha Hu Nw Eg Hs Ea]; rewrite Ha.
    + now rewrite Eg.
    + apply until_iff in Hu. destruct Hu as [<- <-]. destruct l0 as [|x l0]; [congruence|]. now rewrite Eg.
    + apply until_iff in Hu. destruct Hu as [<- <-]. destruct w as [|x w]; [congruence|]. rewrite Eg.
      apply span_iff in Hs. destruct Hs as [-> ->]. destruct (str_eq_starts _ _ Ea) as [E1 E2].
      assert (N : drop_while inner l1 <> []) by (intros E; rewrite E in E1; discriminate).
      destruct l1 as [|y l1]; [now destruct N|].
      destruct (nonempty (drop_while inner (y :: l1))) eqn:En.
      * apply nonempty_iff in En. destruct En as [-> _]. cbn [obind]. rewrite E1.
        change 3%nat with (length (%"ago")). now rewrite E2.
      * destruct (drop_while inner (y :: l1)); [congruence|discriminate].
Qed.
Lemma fs_tu_none l : l <> [] -> fs_tu c tu l = Some None -> ~ single_unit_like c tu l.
Proof.
  intros Nl H HL. unfold fs_tu in H. destruct HL as [l0 Ha Eg|l0 Ha N Hu Eg|l0 w l1 ds a r Ha Hu Nw Eg Hs Ea]; rewrite Ha in H.
  - destruct (u_get tu l0); [discriminate|congruence].
  - apply until_iff in Hu. destruct Hu as [<- <-] in H. destruct l0 as [|x l0]; [congruence|].
    destruct (u_get tu (x :: l0)) as [[]|]; [discriminate|congruence].
  - apply until_iff in Hu. destruct Hu as [<- <-] in H. destruct w as [|x w]; [congruence|].
    destruct (u_get tu (x :: w)) as [[u m]|]; [|congruence].
    apply span_iff in Hs. destruct Hs as [-> ->]. apply word_prefix_iff in Ea. destruct Ea as [Ea ->].
    destruct l1 as [|y l1]; [discriminate|].
    apply obind_Some in H. destruct H as (a & H & E). apply nonempty_iff in H. destruct H as [-> _]. rewrite Ea in E. discriminate.
Qed.
Lemma fs_tu_like l : l <> [] -> ~ single_unit_like c tu l -> fs_tu c tu l = Some None \/ (fs_tu c tu l = None /\ f_numeral_prefix c nums l = None) \/
   (fs_tu c tu l = None /\ f_numeral_prefix c nums l = Some None).
Proof.
  intros Nl H. unfold fs_tu. destruct (c_allow_ago c) eqn:Ha.
  - pose proof (span_take (fun x => negb (inner x)) l) as Hsp. unfold f_numeral_prefix.
    set (w := take_while (fun x => negb (inner x)) l) in *. set (l1 := drop_while (fun x => negb (inner x)) l) in *.
    destruct w as [|x w0] eqn:Ew; [auto|]. rewrite <- Ew in *. destruct (u_get tu w) as [[u0 m0]|] eqn:Eg; [|auto].
    destruct l1 as [|y l1'] eqn:El1.
    + destruct H. assert (E : w = l) by (destruct Hsp as [E _]; rewrite app_nil_r in E; congruence).
      rewrite E in *. apply sul_no_ago; auto. congruence.
    + rewrite <- El1 in *. destruct (nonempty (drop_while inner l1)) as [a|] eqn:En.
      * apply nonempty_iff in En. destruct En as [-> N]. cbn [obind].
        destruct (starts_nocase (%"ago") (drop_while inner l1)) eqn:Eago; [|auto].
        destruct H. apply sul_ago with (w := w) (l1 := l1) (ds := take_while inner l1) (a := drop_while inner l1) (r := skipn 3 (drop_while inner l1)); auto.
        -- rewrite Ew. discriminate. -- congruence. -- apply span_take. -- now apply word_prefix_iff.
      * cbn [obind]. rewrite Ew. destruct nums as [f|]; [|auto].
        rewrite <- Ew. destruct (f w); auto.
  - destruct (u_get tu l) eqn:Eg; [|auto]. destruct H. apply sul_plain; [assumption|congruence].
Qed.

Lemma fs_fin_iff d l o : fs_fin d l = Some o <-> l = [] /\ o = (d, []).
Proof. destruct l; cbn; split; [intros [= <-]; auto|intros [_ ->]; auto|discriminate|intros [F _]; discriminate]. Qed.

Lemma after_number_cons T n W F x l : l <> [] -> after_number T n W F x l =
  let? (o, l) := rt_ntu T l in
  match o with
  | Some (u, m) => rt_fin T (number_value n W F x u m) l
  | None => rt_fin T (number_value n W F x (c_default_unit c) default_multiplier) l
  end.
Proof. destruct l; [congruence|reflexivity]. Qed.

Lemma numeral_prefix_nonempty l num r : numeral_prefix c nums l num r -> r <> [].
Proof. intros (f & w & l1 & ds & H). tauto. Qed.

Lemma f_numeral_single n l d r : f_numeral c nums (rsingle c tu kw) n l = Some (d, r) <->
  r = [] /\ exists num r1 u m, numeral_prefix c nums l num r1 /\ single_unit c tu r1 u m /\ d = numeral_value n num u m.
Proof.
  rewrite f_numeral_iff. cbn [rsingle rt_tu rt_fin]. split.
  - intros (num & r1 & [u m] & r2 & Hp & Ht & H). cbn [fst snd] in *. apply fs_fin_iff in H. destruct H as [-> E]. injection E as -> ->.
    split; [reflexivity|]. exists num, r1, u, m. split; [assumption|]. split; [|reflexivity].
    apply (fs_tu_iff r1 (u, m)); [exact (numeral_prefix_nonempty _ _ _ Hp)|exact Ht].
  - intros (-> & num & r1 & u & m & Hp & Hu & ->). exists num, r1, (u, m), []. split; [assumption|]. split; [|reflexivity].
    apply fs_tu_iff; [exact (numeral_prefix_nonempty _ _ _ Hp)|exact Hu].
Qed.

Lemma f_single_iff s d r : f_template c nums (rsingle c tu kw) s = Some (d, r) <-> r = [] /\ single_duration c tu kw nums s d.
Proof.
  rewrite f_template_iff. split.
  - intros (n & l & Hs & H). assert (N : l <> []) by (destruct Hs; assumption). destruct H as [H|[H|H]].
    + destruct H as (W & F & x & r1 & Hn & H). destruct (list_eq_dec Z.eq_dec r1 []) as [->|N1].
      * injection H as <- <-. split; [reflexivity|]. eapply sd_number; eassumption.
      * rewrite after_number_cons in H by exact N1. cbn [rsingle rt_ntu rt_fin] in H. unfold fs_ntu in H.
        destruct (u_is_empty tu) eqn:Eu; [discriminate|]. destruct (fs_tu c tu r1) as [[[[u m] r2]|]|] eqn:Et; try discriminate.
        cbn [obind] in H. apply fs_fin_iff in H. destruct H as [-> E]. injection E as -> ->. split; [reflexivity|].
        eapply sd_number_unit; eauto. exact (proj1 (fs_tu_iff r1 (u, m) N1) Et).
    + destruct H as (Hd & r1 & Hw & H). apply word_prefix_iff in Hw. destruct Hw as [Hw ->].
      cbn [rsingle rt_inf] in H. unfold fs_inf in H. change (length (%"inf")) with 3%nat in H.
      destruct (is_empty (skipn 3 l) || str_eq_nocase (skipn 3 l) (%"inity")) eqn:Ei; [|discriminate]. injection H as <- <-.
      split; [reflexivity|]. eapply sd_infinity; eauto. apply orb_true_iff in Ei. destruct Ei as [Ei|Ei].
      * left. apply starts_nocase_all; [exact Hw|]. now apply is_empty_iff.
      * right. rewrite <- (firstn_skipn 3 l). unfold starts_nocase in Hw. change (length (%"inf")) with 3%nat in Hw.
        change (%"infinity") with (%"inf" ++ %"inity"). rewrite str_eq_nocase_app' by now apply str_eq_nocase_length. now rewrite Hw, Ei.
    + destruct H as (Hw & H). unfold f_word in H. cbn [rsingle rt_kw rt_tu rt_fin] in H.
      destruct (fs_kw kw l) as [[[[u m] r2]|]|] eqn:Ek; cbn [obind] in H; [| |discriminate].
      { apply fs_fin_iff in H. destruct H as [-> E]. injection E as -> ->. split; [reflexivity|].
        apply fs_kw_iff in Ek. destruct Ek as [Ek _]. eapply sd_keyword; eauto. }
      pose proof (proj1 (fs_kw_none l) Ek) as Nk.
      assert (Num : f_numeral c nums (rsingle c tu kw) n l = Some (d, r) -> (c_number_is_optional c = true -> ~ single_unit_like c tu l) ->
         r = [] /\ single_duration c tu kw nums s d).
      { intros Hf Hl. apply f_numeral_single in Hf. destruct Hf as (-> & num & r1 & u & m & Hp & Hu & ->). split; [reflexivity|].
        eapply sd_numeral; eauto. }
      destruct (c_number_is_optional c) eqn:Eo; [|apply Num; [exact H|discriminate]].
      destruct (fs_tu c tu l) as [[[[u m] r2]|]|] eqn:Et; cbn [obind] in H; [| |discriminate].
      * apply fs_fin_iff in H. destruct H as [-> E]. injection E as -> ->. split; [reflexivity|].
        eapply sd_unit; eauto. exact (proj1 (fs_tu_iff l (u, m) N) Et).
      * apply Num; [exact H|]. intros _. exact (fs_tu_none l N Et).
  - intros (-> & H).
    destruct H as [s n l W F x Hs Hn|s n l W F x r u m Hs Hn Nr Eu Hu|s n l Hs Hd Hi|s n l u m Hs Hw Hk|s n l u m Hs Hw Hk Ho Hu|s n l num r u m Hs Hw Hk Ho Hp Hu];
      exists n, l; (split; [exact Hs|]); assert (N : l <> []) by (destruct Hs; assumption).
    + left. exists W, F, x, []. split; [exact Hn|reflexivity].
    + left. exists W, F, x, r. split; [exact Hn|]. rewrite after_number_cons by exact Nr. cbn [rsingle rt_ntu rt_fin]. unfold fs_ntu.
      rewrite Eu. apply (fs_tu_iff r (u, m) Nr) in Hu. rewrite Hu. reflexivity.
    + right. left. split; [exact Hd|]. exists (skipn 3 l). cbn [rsingle rt_inf]. unfold fs_inf.
      destruct Hi as [Hi|Hi].
      * destruct (str_eq_starts _ _ Hi) as [E1 E2]. split; [now apply word_prefix_iff|].
        change (length (%"inf")) with 3%nat in E2. now rewrite E2.
      * assert (E : str_eq_nocase (firstn 3 l) (%"inf") = true /\ str_eq_nocase (skipn 3 l) (%"inity") = true).
        { pose proof (str_eq_nocase_length _ _ Hi) as L. change (length (%"infinity")) with 8%nat in L.
          rewrite <- (firstn_skipn 3 l) in Hi. change (%"infinity") with (%"inf" ++ %"inity") in Hi.
          rewrite str_eq_nocase_app' in Hi; [now apply andb_true_iff in Hi|]. rewrite firstn_length. cbn [length]. change (length (%"inf")) with 3%nat. lia. }
        destruct E as [E1 E2]. split; [apply word_prefix_iff; auto|]. now rewrite E2, orb_true_r.
    + right. right. split; [exact Hw|]. unfold f_word. cbn [rsingle rt_kw rt_tu rt_fin].
      rewrite (proj2 (fs_kw_iff l (u, m) []) (conj Hk eq_refl)). reflexivity.
    + right. right. split; [exact Hw|]. unfold f_word. cbn [rsingle rt_kw rt_tu rt_fin].
      rewrite (proj2 (fs_kw_none l) Hk). cbn [obind]. rewrite Ho. rewrite (proj2 (fs_tu_iff l (u, m) N) Hu). reflexivity.
    + right. right. split; [exact Hw|]. unfold f_word. cbn [rsingle rt_kw rt_tu rt_fin].
      rewrite (proj2 (fs_kw_none l) Hk). cbn [obind].
      assert (Hf : f_numeral c nums (rsingle c tu kw) n l = Some (numeral_value n num u m, [])).
      { apply f_numeral_single. split; [reflexivity|]. exists num, r, u, m. auto. }
      destruct (c_number_is_optional c); [|exact Hf].
      apply numeral_prefix_iff in Hp.
      destruct (fs_tu_like l N (Ho eq_refl)) as [->|[[_ E]|[_ E]]]; [exact Hf|congruence|congruence].
Qed.

(** ** Multiple *)
Lemma f_conjunction_iff ws l r : f_conjunction c ws l = Some r <->
  ((forall w, In w ws -> ~ exists r', word_prefix w l r') /\ r = l) \/
  (exists ws1 w ws2 z, ws = ws1 ++ w :: ws2 /\ (forall v, In v ws1 -> ~ exists r', word_prefix v l r') /\ word_prefix w l z /\
     (starts_not outer z /\ starts_with starts_duration z /\ r = z \/
      exists ds2, span outer z ds2 r /\ ds2 <> [] /\ r <> [])).
Proof.
  induction ws as [|w ws IH]; cbn [f_conjunction].
  { split; [intros [= <-]; left; split; [intros w []|reflexivity]|]. intros [[_ ->]|(ws1 & w & ws2 & z & E & _)]; [reflexivity|].
    destruct ws1; discriminate. }
  destruct (starts_nocase w l) eqn:Es.
  - assert (P : forall z, word_prefix w l z <-> z = skipn (length w) l).
    { intros z. rewrite word_prefix_iff. tauto. }
    assert (Q : (match skipn (length w) l with
        | [] => None
        | x :: z => if outer x then nonempty (drop_while outer z)
                    else if starts_duration x then Some (x :: z) else None
        end) = Some r <-> exists z, word_prefix w l z /\ (starts_not outer z /\ starts_with starts_duration z /\ r = z \/
      exists ds2, span outer z ds2 r /\ ds2 <> [] /\ r <> [])).
    { destruct (skipn (length w) l) as [|x z].
      - split; [discriminate|]. intros (z & Hz & H). apply P in Hz. subst z. destruct H as [(_ & [] & _)|(ds2 & Hs & Nd & _)].
        apply span_iff in Hs. destruct Hs as [-> _]. now destruct Nd.
      - split.
        + intros H. exists (x :: z). split; [now apply P|]. destruct (outer x) eqn:Ex.
          * right. apply nonempty_iff in H. destruct H as [-> N]. exists (take_while outer (x :: z)).
            split; [apply span_iff; split; [reflexivity|cbn [drop_while]; now rewrite Ex]|]. split; [cbn [take_while]; rewrite Ex; discriminate|assumption].
          * left. destruct (starts_duration x) eqn:Ed; [|discriminate]. injection H as <-. cbn. auto.
        + intros (z0 & Hz & H). apply P in Hz. subst z0. destruct H as [(H1 & H2 & ->)|(ds2 & Hs & Nd & Nr)].
          * cbn in H1, H2. now rewrite H1, H2.
          * apply span_iff in Hs. destruct Hs as [-> ->]. cbn [take_while drop_while] in *. destruct (outer x) eqn:Ex; [|now destruct Nd].
            now apply nonempty_iff. }
    rewrite Q. split.
    + intros (z & Hz & H). right. exists [], w, ws, z. split; [reflexivity|]. split; [intros v []|auto].
    + intros [[H _]|(ws1 & w1 & ws2 & z & E & H1 & Hz & H)].
      * destruct (H w (or_introl eq_refl)). eexists. apply P. reflexivity.
      * destruct ws1 as [|v ws1]; injection E as <- ->; [eauto|].
        destruct (H1 w (or_introl eq_refl)). eexists. apply P. reflexivity.
  - rewrite IH. split.
    + intros [[H ->]|(ws1 & w1 & ws2 & z & -> & H1 & H)].
      * left. split; [|reflexivity]. intros v [<-|Hv]; [now apply no_word_prefix_iff|now apply H].
      * right. exists (w :: ws1), w1, ws2, z. split; [reflexivity|]. split; [|exact H].
        intros v [<-|Hv]; [now apply no_word_prefix_iff|now apply H1].
    + intros [[H ->]|(ws1 & w1 & ws2 & z & E & H1 & Hz & H)].
      * left. split; [|reflexivity]. intros v Hv. apply H. now right.
      * destruct ws1 as [|v ws1]; injection E as <- ->.
        -- apply word_prefix_iff in Hz. destruct Hz. congruence.
        -- right. exists ws1, w1, ws2, z. split; [reflexivity|]. split; [|auto]. intros u Hu. apply H1. now right.
Qed.

Lemma connection_iff x l r : outer x = true -> connection c (x :: l) r <-> f_connect c (x :: l) = Some r.
Proof.
  intros Hx. unfold f_connect. rewrite obind_Some.
  assert (Nt : take_while outer (x :: l) <> []) by (cbn [take_while]; rewrite Hx; discriminate).
  split.
  - intros [l0 ds r0 Hs Nd Nr H|l0 ds y ws1 w ws2 z r0 Hs Nd Ny Ec H1 Hz H]; apply span_iff in Hs; destruct Hs as [-> ->].
    + exists (drop_while outer l0). split; [now apply nonempty_iff|]. apply f_conjunction_iff. left. auto.
    + exists (drop_while outer l0). split; [now apply nonempty_iff|]. apply f_conjunction_iff. right. exists ws1, w, ws2, z. auto.
  - intros (y & Hy & H). apply nonempty_iff in Hy. destruct Hy as [-> Ny]. apply f_conjunction_iff in H.
    destruct H as [[H ->]|(ws1 & w & ws2 & z & E & H1 & Hz & H)].
    + apply con_delimiter with (ds := take_while outer (x :: l)); auto. apply span_take.
    + eapply con_word with (ds := take_while outer (x :: l)); eauto. apply span_take.
Qed.
Lemma connection_head l r : connection c l r -> starts_with outer l.
Proof.
  assert (P : forall l ds y, span outer l ds y -> ds <> [] -> starts_with outer l).
  { intros l0 ds y (-> & H & _) N. destruct ds as [|x ds]; [congruence|]. cbn. apply H. now left. }
  intros []; eauto.
Qed.
Lemma next_component_iff l r : next_component c l r <-> f_next c l = Some r.
Proof.
  split.
  - intros [l0 H|l0 r0 H].
    + destruct l0 as [|x l0]; [reflexivity|]. cbn in H |- *. now rewrite H.
    + pose proof (connection_head _ _ H) as Hx. destruct l0 as [|x l0]; [contradiction|]. cbn in Hx. cbn [f_next]. rewrite Hx.
      now apply connection_iff.
  - destruct l as [|x l]; cbn [f_next]; [intros [= <-]; now apply nc_adjacent|]. destruct (outer x) eqn:Hx.
    + intros H. apply nc_connection. now apply connection_iff.
    + intros [= <-]. now apply nc_adjacent.
Qed.
(** the next component does not start with a delimiter *)
Lemma f_next_idem l r : f_next c l = Some r -> f_next c r = Some r.
Proof.
  intros H. assert (S : starts_not outer r).
  { apply next_component_iff in H. destruct H as [l0 H|l0 r0 H]; [assumption|].
    destruct H as [l0 ds r0 (_ & _ & H) Nd Nr _|l0 ds y ws1 w ws2 z r0 Hs Nd Ny Ec H1 Hz H]; [exact H|].
    destruct H as [(H & _ & ->)|(ds2 & (_ & _ & H) & _)]; exact H. }
  destruct r as [|x r]; [reflexivity|]. cbn in S |- *. now rewrite S.
Qed.

Lemma ago_iff m l m' r : f_ago c m l = Some (m', r) <->
  (ago c l r /\ m' = mul_saturating_neg m) \/
  ((forall r', ~ ago c l r') /\ (c_allow_ago c = true -> ~ (l <> [] /\ span inner l l [])) /\ m' = m /\ r = l).
Proof.
  assert (A : forall r', ago c l r' <-> c_allow_ago c = true /\ take_while inner l <> [] /\ starts_nocase (%"ago") (drop_while inner l) = true /\
     r' = skipn 3 (drop_while inner l) /\ (r' = [] \/ starts_with (keyword_end c) r')).
  { intros r'. unfold ago. split.
    - intros (Ha & ds & a & Hs & Nd & Hw & Hk). apply span_iff in Hs. destruct Hs as [-> ->]. apply word_prefix_iff in Hw. tauto.
    - intros (Ha & Nd & Hw & Er & Hk). split; [assumption|]. exists (take_while inner l), (drop_while inner l).
      split; [apply span_take|]. split; [assumption|]. split; [now apply word_prefix_iff|assumption]. }
  assert (B : span inner l l [] <-> drop_while inner l = []).
  { rewrite span_iff. split; [intros [_ E]; now rewrite <- E|]. intros E. split; [|now rewrite E]. rewrite <- (take_drop_while inner l) at 1. rewrite E. apply app_nil_r. }
  unfold f_ago. destruct l as [|x l].
  { split.
    - intros [= <- <-]. right. split; [|split; [|auto]].
      + intros r' Hr. apply A in Hr. destruct Hr as (_ & N & _). now apply N.
      + intros _ [N _]. now apply N.
    - intros [[Ha _]|(_ & _ & -> & ->)]; [|reflexivity]. apply A in Ha. destruct Ha as (_ & N & _). now destruct N. }
  destruct (c_allow_ago c) eqn:Ea; cbn [andb].
  2:{ split.
      - intros [= <- <-]. right. split; [|split; [discriminate|auto]]. intros r' Hr. apply A in Hr. destruct Hr as (F & _). discriminate.
      - intros [[Ha _]|(_ & _ & -> & ->)]; [|reflexivity]. apply A in Ha. destruct Ha as (F & _). discriminate. }
  destruct (inner x) eqn:Hx.
  2:{ assert (Na : forall r', ~ ago c (x :: l) r').
      { intros r' Hr. apply A in Hr. destruct Hr as (_ & N & _). cbn [take_while] in N. rewrite Hx in N. now apply N. }
      split.
      - intros [= <- <-]. right. split; [exact Na|]. split; [|auto]. intros _ [_ F]. apply B in F. cbn [drop_while] in F. rewrite Hx in F. discriminate.
      - intros [[Ha _]|(_ & _ & -> & ->)]; [|reflexivity]. now apply Na in Ha. }
  assert (Nt : take_while inner (x :: l) <> []) by (cbn [take_while]; rewrite Hx; discriminate).
  destruct (drop_while inner (x :: l)) as [|y a] eqn:Ed; cbn [nonempty obind].
  { split; [discriminate|]. intros [[Ha _]|(_ & F & _)].
    - apply A in Ha. destruct Ha as (_ & _ & F & _). discriminate.
    - destruct (F eq_refl). split; [discriminate|now apply B]. }
  assert (Nb : true = true -> ~ (x :: l <> [] /\ span inner (x :: l) (x :: l) [])).
  { intros _ [_ F]. apply B in F. discriminate. }
  destruct (starts_nocase (%"ago") (y :: a)) eqn:Es.
  2:{ assert (Na : forall r', ~ ago c (x :: l) r').
      { intros r' Hr. apply A in Hr. destruct Hr as (_ & _ & F & _). discriminate. }
      split; [intros [= <- <-]; right; auto|]. intros [[Ha _]|(_ & _ & -> & ->)]; [|reflexivity]. now apply Na in Ha. }
  destruct (skipn 3 (y :: a)) as [|z q] eqn:E3.
  - split.
    + intros [= <- <-]. left. split; [|reflexivity]. apply A. auto 6.
    + intros [[Ha ->]|(Ha & _)]; [apply A in Ha; destruct Ha as (_ & _ & _ & -> & _); reflexivity|].
      destruct (Ha []). apply A. auto 6.
  - destruct (keyword_end c z) eqn:Ez.
    + split.
      * intros [= <- <-]. left. split; [|reflexivity]. apply A. auto 7.
      * intros [[Ha ->]|(Ha & _)]; [apply A in Ha; destruct Ha as (_ & _ & _ & -> & _); reflexivity|].
        destruct (Ha (z :: q)). apply A. auto 7.
    + assert (Na : forall r', ~ ago c (x :: l) r').
      { intros r' Hr. apply A in Hr. destruct Hr as (_ & _ & _ & -> & [F|F]); [discriminate|]. cbn in F. congruence. }
      split; [intros [= <- <-]; right; auto|]. intros [[Ha _]|(_ & _ & -> & ->)]; [|reflexivity]. now apply Na in Ha.
Qed.

Lemma fm_tu_iff l um r : fm_tu c tu l = Some (Some (um, r)) <-> multi_unit c tu l (fst um) (snd um) r.
Proof.
  destruct um as [u m]; cbn [fst snd]. unfold fm_tu. split.
  - pose proof (span_take (fun x => negb (unit_end c x)) l) as Hsp.
    destruct (take_while (fun x => negb (unit_end c x)) l) as [|x w]; [discriminate|].
    destruct (u_get tu (x :: w)) as [[u0 m0]|] eqn:Eg; [|discriminate]. intros H.
    apply obind_Some in H. destruct H as ([m1 r1] & Ha & H). apply obind_Some in H. destruct H as (r2 & Hn & H). injection H as <- <- <-.
    apply next_component_iff in Hn. apply ago_iff in Ha. destruct Ha as [[Ha ->]|(Ha & Hb & -> & ->)].
    + eapply mu_ago; eauto. discriminate.
    + eapply mu_plain; eauto. discriminate.
  - intros [l0 w l1 u0 m0 r0 Hu Nw Eg Ha Hb Hn|l0 w l1 l2 u0 m0 r0 Hu Nw Eg Ha Hn]; apply until_iff in Hu; destruct Hu as [<- <-];
      (destruct w as [|x w]; [congruence|]); rewrite Eg; apply next_component_iff in Hn.
    + assert (E : f_ago c m0 l1 = Some (m0, l1)) by (apply ago_iff; right; auto). rewrite E. cbn [obind]. rewrite Hn. reflexivity.
    + assert (E : f_ago c m0 l1 = Some (mul_saturating_neg m0, l2)) by (apply ago_iff; left; auto). rewrite E. cbn [obind]. rewrite Hn. reflexivity.
Qed.
Lemma fm_tu_none l : fm_tu c tu l = Some None <-> ~ multi_unit_like c tu l.
Proof.
  unfold fm_tu, multi_unit_like. split.
  - intros H (w & l1 & Hu & Nw & Eg). apply until_iff in Hu. destruct Hu as [-> ->].
    destruct (take_while (fun x => negb (unit_end c x)) l) as [|x w]; [congruence|].
    destruct (u_get tu (x :: w)) as [[u m]|]; [|congruence].
    apply obind_Some in H. destruct H as ([? ?] & _ & H). apply obind_Some in H. destruct H as (? & _ & H). discriminate.
  - intros H. pose proof (span_take (fun x => negb (unit_end c x)) l) as Hsp.
    destruct (take_while (fun x => negb (unit_end c x)) l) as [|x w]; [reflexivity|].
    destruct (u_get tu (x :: w)) as [[u m]|] eqn:Eg; [|reflexivity].
    destruct H. exists (x :: w), (drop_while (fun x => negb (unit_end c x)) l). split; [exact Hsp|]. split; [discriminate|congruence].
Qed.
Lemma multi_unit_next l u m r : multi_unit c tu l u m r -> f_next c r = Some r.
Proof. intros []; eapply f_next_idem; apply next_component_iff; eassumption. Qed.
Lemma multi_unit_is_like l u m r : multi_unit c tu l u m r -> multi_unit_like c tu l.
Proof. intros []; (eexists _, _; split; [eassumption|]; split; [assumption|congruence]). Qed.

Lemma fm_kw_iff l um r : fm_kw c kw l = Some (Some (um, r)) <->
  exists l1, multi_keyword_is c kw l (fst um) (snd um) l1 /\ next_component c l1 r.
Proof.
  destruct um as [u m]; cbn [fst snd]. unfold fm_kw, multi_keyword_is. split.
  - destruct kw as [k|]; [|discriminate]. pose proof (span_take (fun x => negb (keyword_end c x)) l) as Hsp.
    destruct (take_while (fun x => negb (keyword_end c x)) l) as [|x w]; [discriminate|].
    destruct (u_get k (x :: w)) as [um|] eqn:Eg; [|discriminate]. intros H. apply obind_Some in H. destruct H as (r2 & Hn & H). injection H as -> <-.
    apply next_component_iff in Hn. eexists. split; [|exact Hn]. exists k, (x :: w). split; [reflexivity|]. split; [exact Hsp|]. split; [discriminate|exact Eg].
  - intros (l1 & (k & w & Ek & Hu & Nw & Eg) & Hn). rewrite Ek. apply until_iff in Hu. destruct Hu as [<- <-].
    destruct w as [|x w]; [congruence|]. rewrite Eg. apply next_component_iff in Hn. rewrite Hn. reflexivity.
Qed.
Lemma fm_kw_none l : fm_kw c kw l = Some None <-> forall u m r, ~ multi_keyword_is c kw l u m r.
Proof.
  unfold fm_kw, multi_keyword_is. split.
  - intros H u m r (k & w & Ek & Hu & Nw & Eg). rewrite Ek in H. apply until_iff in Hu. destruct Hu as [<- _] in H.
    destruct w as [|x w]; [congruence|]. rewrite Eg in H. apply obind_Some in H. destruct H as (? & _ & H). discriminate.
  - intros H. destruct kw as [k|]; [|reflexivity]. pose proof (span_take (fun x => negb (keyword_end c x)) l) as Hsp.
    destruct (take_while (fun x => negb (keyword_end c x)) l) as [|x w]; [reflexivity|].
    destruct (u_get k (x :: w)) as [[u m]|] eqn:Eg; [|reflexivity].
    destruct (H u m (drop_while (fun x => negb (keyword_end c x)) l)). exists k, (x :: w). split; [reflexivity|]. split; [exact Hsp|]. split; [discriminate|exact Eg].
Qed.

Lemma fm_fin_iff d l d' r : fm_fin c d l = Some (d', r) <-> d' = d /\ next_component c l r.
Proof.
  unfold fm_fin. rewrite next_component_iff, obind_Some. split.
  - intros (x & H & E). injection E as <- <-. auto.
  - intros [-> H]. eauto.
Qed.
Lemma next_component_fix l r : f_next c l = Some l -> next_component c l r <-> r = l.
Proof. intros H. rewrite next_component_iff. split; [congruence|intros ->; assumption]. Qed.

Lemma ends_iff l : f_ends c l = true <-> ends_or_delimited c l.
Proof. unfold f_ends, ends_or_delimited. destruct l as [|x l]; cbn; split; auto; intros [H|H]; auto; discriminate. Qed.

Lemma f_numeral_multi n l d r : f_numeral c nums (rmulti c tu kw) n l = Some (d, r) <->
  exists num r1 u m, numeral_prefix c nums l num r1 /\ multi_unit c tu r1 u m r /\ d = numeral_value n num u m.
Proof.
  rewrite f_numeral_iff. cbn [rmulti rt_tu rt_fin]. split.
  - intros (num & r1 & [u m] & r2 & Hp & Ht & H). apply fm_tu_iff in Ht. cbn [fst snd] in *. apply fm_fin_iff in H. destruct H as [-> H].
    apply next_component_fix in H; [|exact (multi_unit_next _ _ _ _ Ht)]. subst r. exists num, r1, u, m. auto.
  - intros (num & r1 & u & m & Hp & Hu & ->). exists num, r1, (u, m), r. split; [assumption|]. split; [now apply fm_tu_iff|].
    apply fm_fin_iff. split; [reflexivity|]. apply next_component_fix; [exact (multi_unit_next _ _ _ _ Hu)|reflexivity].
Qed.

Lemma f_multi_iff s d r : f_template c nums (rmulti c tu kw) s = Some (d, r) <-> component c tu kw nums s d r.
Proof.
  rewrite f_template_iff. split.
  - intros (n & l & Hs & H). destruct H as [H|[H|H]].
    + destruct H as (W & F & x & r1 & Hn & H). destruct (list_eq_dec Z.eq_dec r1 []) as [->|N1].
      * injection H as <- <-. eapply co_number; eauto.
        -- right. intros (w & l1 & Hu & Nw & _). apply until_iff in Hu. destruct Hu as [-> _]. now apply Nw.
        -- now apply nc_adjacent.
      * rewrite after_number_cons in H by exact N1. cbn [rmulti rt_ntu rt_fin] in H. unfold fm_ntu in H.
        destruct (u_is_empty tu) eqn:Eu.
        { cbn [obind] in H. apply fm_fin_iff in H. destruct H as [-> H]. eapply co_number; eauto. }
        destruct (fm_tu c tu r1) as [[[[u m] r2]|]|] eqn:Et; try discriminate; cbn [obind] in H; apply fm_fin_iff in H; destruct H as [-> H].
        -- apply fm_tu_iff in Et. cbn [fst snd] in Et. apply next_component_fix in H; [|exact (multi_unit_next _ _ _ _ Et)]. subst r.
           eapply co_number_unit; eauto.
        -- apply fm_tu_none in Et. eapply co_number; eauto.
    + destruct H as (Hd & r1 & Hw & H). cbn [rmulti rt_inf] in H. unfold fm_inf in H.
      destruct (f_ends c r1) eqn:E1.
      * apply ends_iff in E1. apply fm_fin_iff in H. destruct H as [-> H]. eapply co_inf; eauto.
      * destruct (starts_nocase (%"inity") r1 && f_ends c (skipn 5 r1)) eqn:E2; [|discriminate]. apply andb_true_iff in E2. destruct E2 as [E2 E3].
        apply ends_iff in E3. apply fm_fin_iff in H. destruct H as [-> H]. eapply co_infinity; eauto.
        -- intros F. apply ends_iff in F. congruence.
        -- now apply word_prefix_iff.
    + destruct H as (Hw & H). unfold f_word in H. cbn [rmulti rt_kw rt_tu rt_fin] in H.
      destruct (fm_kw c kw l) as [[[[u m] r2]|]|] eqn:Ek; cbn [obind] in H; [| |discriminate].
      { apply fm_kw_iff in Ek. destruct Ek as (l1 & Hk & Hn). cbn [fst snd] in Hk. apply fm_fin_iff in H. destruct H as [-> H].
        apply next_component_iff in Hn. apply next_component_fix in H; [|exact (f_next_idem _ _ Hn)]. subst r2.
        eapply co_keyword; eauto. now apply next_component_iff. }
      pose proof (proj1 (fm_kw_none l) Ek) as Nk.
      assert (Num : f_numeral c nums (rmulti c tu kw) n l = Some (d, r) -> (c_number_is_optional c = true -> ~ multi_unit_like c tu l) ->
         component c tu kw nums s d r).
      { intros Hf Hl. apply f_numeral_multi in Hf. destruct Hf as (num & r1 & u & m & Hp & Hu & ->). eapply co_numeral; eauto. }
      destruct (c_number_is_optional c) eqn:Eo; [|apply Num; [exact H|discriminate]].
      destruct (fm_tu c tu l) as [[[[u m] r2]|]|] eqn:Et; cbn [obind] in H; [| |discriminate].
      * apply fm_tu_iff in Et. cbn [fst snd] in Et. apply fm_fin_iff in H. destruct H as [-> H].
        apply next_component_fix in H; [|exact (multi_unit_next _ _ _ _ Et)]. subst r2. eapply co_unit; eauto.
      * apply Num; [exact H|]. intros _. now apply fm_tu_none.
  - intros H.
    destruct H as [s n l W F x r l1 Hs Hn Hu Hr|s n l W F x l1 u m r Hs Hn Eu Hu|s n l l1 r Hs Hd Hi He Hr|s n l l0 l1 r Hs Hd Hi He0 Hi2 He Hr
      |s n l u m l1 r Hs Hw Hk Hr|s n l u m r Hs Hw Hk Ho Hu|s n l num l1 u m r Hs Hw Hk Ho Hp Hu];
      exists n, l; (split; [exact Hs|]).
    + left. exists W, F, x, l1. split; [exact Hn|]. destruct (list_eq_dec Z.eq_dec l1 []) as [->|N1].
      { apply next_component_iff in Hr. cbn in Hr. injection Hr as <-. reflexivity. }
      rewrite after_number_cons by exact N1. cbn [rmulti rt_ntu rt_fin]. unfold fm_ntu.
      destruct (u_is_empty tu) eqn:Eu; [cbn [obind]; now apply fm_fin_iff|].
      destruct Hu as [Hu|Hu]; [congruence|]. apply fm_tu_none in Hu. rewrite Hu. cbn [obind]. now apply fm_fin_iff.
    + left. exists W, F, x, l1. split; [exact Hn|]. rewrite after_number_cons.
      2:{ intros ->. apply multi_unit_is_like in Hu. destruct Hu as (w & l2 & Hu & Nw & _). apply until_iff in Hu. destruct Hu as [-> _]. now apply Nw. }
      cbn [rmulti rt_ntu rt_fin]. unfold fm_ntu. rewrite Eu. rewrite (proj2 (fm_tu_iff l1 (u, m) r) Hu). cbn [obind].
      apply fm_fin_iff. split; [reflexivity|]. apply next_component_fix; [exact (multi_unit_next _ _ _ _ Hu)|reflexivity].
    + right. left. split; [exact Hd|]. exists l1. split; [exact Hi|]. cbn [rmulti rt_inf]. unfold fm_inf. apply ends_iff in He. rewrite He.
      now apply fm_fin_iff.
    + right. left. split; [exact Hd|]. exists l0. split; [exact Hi|]. cbn [rmulti rt_inf]. unfold fm_inf.
      destruct (f_ends c l0) eqn:E; [destruct He0; now apply ends_iff|]. apply word_prefix_iff in Hi2. destruct Hi2 as [-> ->].
      change (length (%"inity")) with 5%nat in *. apply ends_iff in He. rewrite He. cbn [andb]. now apply fm_fin_iff.
    + right. right. split; [exact Hw|]. unfold f_word. cbn [rmulti rt_kw rt_tu rt_fin].
      rewrite (proj2 (fm_kw_iff l (u, m) r)); [|eauto]. cbn [obind]. apply fm_fin_iff. split; [reflexivity|].
      apply next_component_iff in Hr. apply next_component_fix; [exact (f_next_idem _ _ Hr)|reflexivity].
    + right. right. split; [exact Hw|]. unfold f_word. cbn [rmulti rt_kw rt_tu rt_fin].
      rewrite (proj2 (fm_kw_none l) Hk). cbn [obind]. rewrite Ho. rewrite (proj2 (fm_tu_iff l (u, m) r) Hu). cbn [obind].
      apply fm_fin_iff. split; [reflexivity|]. apply next_component_fix; [exact (multi_unit_next _ _ _ _ Hu)|reflexivity].
    + right. right. split; [exact Hw|]. unfold f_word. cbn [rmulti rt_kw rt_tu rt_fin].
      rewrite (proj2 (fm_kw_none l) Hk). cbn [obind].
      assert (Hf : f_numeral c nums (rmulti c tu kw) n l = Some (numeral_value n num u m, r)).
      { apply f_numeral_multi. exists num, l1, u, m. auto. }
      destruct (c_number_is_optional c); [|exact Hf]. rewrite (proj2 (fm_tu_none l) (Ho eq_refl)). exact Hf.
Qed.
End Gram.

(** ** The parser *)
Lemma sign_allowed_iff c d : negb (c_allow_negative c) && is_negative d = false <-> sign_allowed c d.
Proof. unfold sign_allowed. destruct (c_allow_negative c), (is_negative d); cbn; split; auto; intros []; congruence. Qed.

Theorem parse_single_grammar c tu kw nums s d : env_ok c tu kw nums -> utf8 s = true ->
  parse_single c s tu kw nums = Ok d <-> single_duration c tu kw nums s d /\ sign_allowed c d.
Proof.
  intros HE U. pose proof (sim_parse_single c tu kw nums s HE U) as S0.
  pose proof (f_single_iff c tu kw nums s) as G.
  destruct (f_template c nums (rsingle c tu kw) s) as [[d0 r0]|]; cbn [obind] in S0.
  - destruct (proj1 (G d0 r0) eq_refl) as [-> G0].
    assert (Un : forall d', single_duration c tu kw nums s d' -> d' = d0).
    { intros d' H. pose proof (proj2 (G d' []) (conj eq_refl H)). congruence. }
    destruct (negb (c_allow_negative c) && is_negative d0) eqn:En.
    + destruct (parse_single c s tu kw nums); [contradiction| |contradiction]. split; [discriminate|].
      intros [H Hs]. apply Un in H. subst d0. apply sign_allowed_iff in Hs. congruence.
    + destruct (parse_single c s tu kw nums) as [d1|?|?]; [|contradiction|contradiction]. cbn [sim fst] in S0. subst d1. split.
      * intros [= <-]. split; [assumption|now apply sign_allowed_iff].
      * intros [H _]. f_equal. symmetry. now apply Un.
  - destruct (parse_single c s tu kw nums); [contradiction| |contradiction]. split; [discriminate|].
    intros [H _]. pose proof (proj2 (G d []) (conj eq_refl H)). discriminate.
Qed.

Lemma f_multiple_iff c tu kw nums K : env_ok c tu kw nums -> kfit c kw nums K ->
  forall fuel l ds, utf8 l = true -> (length l < fuel)%nat ->
  f_multiple fuel c tu kw nums l = Some ds <-> components c tu kw nums l ds /\ (forall d, In d ds -> sign_allowed c d).
Proof.
  intros HE HF. induction fuel as [|f IH]; intros l ds U L; [lia|]. cbn [f_multiple].
  pose proof (f_multi_iff c tu kw nums l) as G.
  pose proof (fun d r => f_template_progress_fit c tu kw nums K l d r HE HF U) as Pr.
  destruct (f_template c nums (rmulti c tu kw) l) as [[d0 r0]|]; cbn [obind].
  - pose proof (proj1 (G d0 r0) eq_refl) as G0. destruct (Pr d0 r0 eq_refl) as (Pl & _ & Ur).
    assert (Un : forall d' r', component c tu kw nums l d' r' -> d' = d0 /\ r' = r0).
    { intros d' r' H. pose proof (proj2 (G d' r') H) as E. injection E as -> ->. auto. }
    destruct (negb (c_allow_negative c) && is_negative d0) eqn:En.
    { split; [discriminate|]. intros [H Hs].
      assert (In d0 ds) by (destruct H as [s d H|s d r ds H _ _]; apply Un in H; destruct H as [-> _]; now left).
      specialize (Hs d0 H0). apply sign_allowed_iff in Hs. congruence. }
    apply sign_allowed_iff in En.
    destruct (list_eq_dec Z.eq_dec r0 []) as [->|Nr].
    + split.
      * intros [= <-]. split; [now apply cs_last|]. intros d [<-|[]]. exact En.
      * intros [H _]. destruct H as [s d H|s d r ds H N _]; apply Un in H; destruct H as [-> E]; [reflexivity|congruence].
    + replace (match r0 with [] => Some [d0] | _ :: _ => let? ds0 := f_multiple f c tu kw nums r0 in Some (d0 :: ds0) end)
        with (let? ds0 := f_multiple f c tu kw nums r0 in Some (d0 :: ds0)) by (destruct r0; [congruence|reflexivity]).
      rewrite obind_Some. split.
      * intros (ds0 & H & E). injection E as <-. apply IH in H; [|assumption|lia]. destruct H as [H Hs]. split; [eapply cs_more; eauto|].
        intros d [<-|Hd]; auto.
      * intros [H Hs]. destruct H as [s d H|s d r ds H N H2].
        -- apply Un in H. destruct H as [_ E]. congruence.
        -- apply Un in H. destruct H as [-> ->]. exists ds. split; [|reflexivity]. apply IH; [assumption|lia|]. split; [assumption|].
           intros d Hd. apply Hs. now right.
  - split; [discriminate|]. intros [H _]. destruct H as [s d H|s d r ds H _ _]; apply G in H; discriminate.
Qed.

Theorem parse_multiple_grammar_fit c tu kw nums K s D : env_ok c tu kw nums -> kfit c kw nums K -> utf8 s = true ->
  parse_multiple c s tu kw nums = Ok D ->
  duration_ok D /\ exists ds, components c tu kw nums s ds /\ (forall d, In d ds -> sign_allowed c d) /\ nanos D = saturating_sum ds.
Proof.
  intros HE HF U H. pose proof (sim_parse_multiple c tu kw nums K s HE HF U) as S0. rewrite H in S0.
  destruct (f_multiple _ _ _ _ _ _) as [ds|] eqn:E; [|contradiction]. cbn [sim] in S0. destruct S0 as [S1 S2].
  apply (f_multiple_iff c tu kw nums K HE HF) in E; [|assumption|lia]. split; [assumption|]. exists ds. tauto.
Qed.
Theorem parse_multiple_complete_fit c tu kw nums K s ds : env_ok c tu kw nums -> kfit c kw nums K -> utf8 s = true ->
  components c tu kw nums s ds -> (forall d, In d ds -> sign_allowed c d) ->
  exists D, parse_multiple c s tu kw nums = Ok D /\ duration_ok D /\ nanos D = saturating_sum ds.
Proof.
  intros HE HF U H Hs. pose proof (sim_parse_multiple c tu kw nums K s HE HF U) as S0.
  assert (E : f_multiple (S (length s)) c tu kw nums s = Some ds) by (apply (f_multiple_iff c tu kw nums K HE HF); auto).
  rewrite E in S0. destruct (parse_multiple c s tu kw nums) as [D|?|?]; [|contradiction|contradiction]. exists D. auto.
Qed.
Theorem parse_multiple_grammar c tu kw nums s D : env_ok c tu kw nums ->
  (forall x, c_inner_delimiter c x = true -> keyword_end c x = true) -> utf8 s = true ->
  parse_multiple c s tu kw nums = Ok D ->
  duration_ok D /\ exists ds, components c tu kw nums s ds /\ (forall d, In d ds -> sign_allowed c d) /\ nanos D = saturating_sum ds.
Proof. intros HE HD. exact (parse_multiple_grammar_fit c tu kw nums _ s D HE (kfit_all c kw nums HD)). Qed.
Theorem parse_multiple_complete c tu kw nums s ds : env_ok c tu kw nums ->
  (forall x, c_inner_delimiter c x = true -> keyword_end c x = true) -> utf8 s = true ->
  components c tu kw nums s ds -> (forall d, In d ds -> sign_allowed c d) ->
  exists D, parse_multiple c s tu kw nums = Ok D /\ duration_ok D /\ nanos D = saturating_sum ds.
Proof. intros HE HD. exact (parse_multiple_complete_fit c tu kw nums _ s ds HE (kfit_all c kw nums HD)). Qed.
(** the list of components is unique *)
Theorem components_unique c tu kw nums s ds1 ds2 :
  components c tu kw nums s ds1 -> components c tu kw nums s ds2 -> ds1 = ds2.
Proof.
  intros H. revert ds2. induction H as [s d H|s d r ds H N _ IH]; intros ds2 H2; destruct H2 as [s d2 H2|s d2 r2 ds2 H2 N2 H3];
    apply f_multi_iff in H; apply f_multi_iff in H2; rewrite H in H2; injection H2 as <-; try congruence.
  subst r2. f_equal. now apply IH.
Qed.
