(** * The model rejects exactly the inputs, and with exactly the errors, of SpecErrors *)
From Verif Require Import Prelude Util Time Config Bytes Repr Parse SpecTime SpecNum SpecValue SpecParse SpecGrammar SpecErrors
  TimeProofs NumProofs ReprProofs Utf8Proofs BytesProofs SafeProofs RefParse RefProofs RefSingle RefMulti RefGrammar RefErrors.

Section Shared.
Context (c : config) (tu : units_like) (kw : option units_like) (nums : option numbers_like) (s : str).
Notation inner := (c_inner_delimiter c).
Notation outer := (c_outer_delimiter c).

Lemma drop_nil_iff d (l : str) : drop_while d l = [] <-> forall x, In x l -> d x = true.
Proof.
  induction l as [|y l IH]; cbn [drop_while]; [split; [intros _ x []|reflexivity]|]. split.
  - destruct (d y) eqn:Ey; [|discriminate]. intros H x [<-|Hx]; [exact Ey|]. now apply IH.
  - intros H. rewrite (H y (or_introl eq_refl)). apply IH. intros x Hx. apply H. now right.
Qed.
Lemma trailing_iff d l e : trailing s d l e <-> l <> [] /\ drop_while d l = [] /\ e = e_delims s l.
Proof. unfold trailing. rewrite drop_nil_iff. reflexivity. Qed.
Lemma nonempty_None l : nonempty l = None <-> l = [].
Proof. destruct l; cbn; split; congruence. Qed.

Lemma sign_error_iff l e : sign_error c s l e <-> l <> [] /\ f_signed c l = None /\ e = e_signed s l.
Proof.
  split.
  - intros [x Hx|x l' e' Hx Ha Ht].
    + split; [discriminate|]. cbn [f_signed]. rewrite Hx. cbn. destruct (c_allow_sign_delimiter c); auto.
    + apply trailing_iff in Ht. destruct Ht as (N & D & ->). split; [discriminate|]. cbn [f_signed]. rewrite Hx, Ha, D. cbn [nonempty obind].
      split; [reflexivity|]. destruct l'; [congruence|reflexivity].
  - intros (N & H & ->). destruct l as [|x l]; [congruence|]. cbn [f_signed] in H. destruct (is_sign x) eqn:Hx; [|discriminate].
    destruct (nonempty _) eqn:E in H; [discriminate|]. apply nonempty_None in E.
    destruct l as [|y l]; [now apply se_end|]. destruct (c_allow_sign_delimiter c) eqn:Ha; [|discriminate].
    apply se_delimiters; auto. apply trailing_iff. split; [discriminate|]. auto.
Qed.

Definition f_frac (W l : str) : option (str * str) :=
  let? (F, l) := f_fraction c l in if is_empty (W ++ F) then None else Some (F, l).
Lemma take_nil_iff p (l : str) : take_while p l = [] <-> starts_not p l.
Proof. destruct l as [|x l]; cbn; [tauto|]. destruct (p x); split; congruence. Qed.
Lemma fraction_error_iff W l e : fraction_error c s W l e <-> starts_with is_dot l /\ f_frac W l = None /\ e = e_fraction c s l.
Proof.
  unfold f_frac, e_fraction. split.
  - intros [l' Hd|l' Hd -> Hl]; (split; [reflexivity|]); cbn [f_fraction]; change (is_dot 46) with true; cbn iota; rewrite Hd; cbn [obind].
    + auto.
    + apply take_nil_iff in Hl. rewrite Hl. auto.
  - intros (Hs & H & ->). destruct l as [|x l]; [contradiction|]. cbn [f_fraction] in H. cbn [starts_with] in Hs. rewrite Hs in H.
    unfold is_dot in Hs. apply Z.eqb_eq in Hs. subst x. destruct (c_disable_fraction c) eqn:Hd.
    + now apply fe_disabled.
    + cbn [obind] in H. destruct (is_empty _) eqn:E in H; [|discriminate]. apply is_empty_iff in E. apply app_eq_nil in E. destruct E as [-> E].
      apply fe_no_digits; auto. now apply take_nil_iff.
Qed.

Lemma exponent_digits_none (n : bool) (l : str) : f_exponent_digits n l = None ->
  (l = [] /\ e_exponent_digits s n l = Syntax (here s []) (%"Expected exponent but reached end of input")) \/
  (exists y l', l = y :: l' /\ is_digit y = false /\ e_exponent_digits s n l = Syntax (here s l) (%"The exponent must have at least one digit")) \/
  (exists ds r, span is_digit l ds r /\ (if n then dval ds > 32768 else dval ds > 32767) /\
     e_exponent_digits s n l = if n then NegativeExponentOverflow else PositiveExponentOverflow).
Proof.
  unfold f_exponent_digits, e_exponent_digits. intros H. pose proof (span_take is_digit l) as Hsp.
  pose proof (dval_nonneg (take_while is_digit l) (take_digits_string l)) as Hv.
  destruct (take_while is_digit l) as [|y ds] eqn:Et.
  - destruct l as [|y l]; [auto|]. right. left. exists y, l. split; [reflexivity|]. split; [|reflexivity].
    cbn [take_while] in Et. destruct (is_digit y); [discriminate|reflexivity].
  - right. right. exists (y :: ds), (drop_while is_digit l). split; [exact Hsp|]. cbv zeta in H. destruct (is_i16 _) eqn:Ei; [discriminate|].
    split; [|reflexivity]. destruct n.
    + destruct (Z.le_gt_cases (dval (y :: ds)) 32768); [|lia]. assert (is_i16 (- dval (y :: ds)) = true) by (apply is_i16_iff; lia). congruence.
    + destruct (Z.le_gt_cases (dval (y :: ds)) 32767); [|lia]. assert (is_i16 (dval (y :: ds)) = true) by (apply is_i16_iff; lia). congruence.
Qed.
Lemma exponent_digits_over (n : bool) (l ds r : str) : span is_digit l ds r -> (if n then dval ds > 32768 else dval ds > 32767) ->
  f_exponent_digits n l = None /\ e_exponent_digits s n l = if n then NegativeExponentOverflow else PositiveExponentOverflow.
Proof.
  intros Hs Hv. apply span_iff in Hs. destruct Hs as [Hd _]. unfold f_exponent_digits, e_exponent_digits. rewrite <- Hd.
  destruct ds as [|y ds]; [destruct n; cbn in Hv; lia|]. split; [|reflexivity]. cbv zeta.
  destruct (is_i16 _) eqn:Ei; [|reflexivity]. apply is_i16_iff in Ei. destruct n; lia.
Qed.

Lemma is_sign_digit y : is_sign y = true -> is_digit y = false.
Proof. unfold is_sign. intros H. destruct (is_digit y) eqn:E; [|reflexivity]. apply is_digit_iff in E. lia. Qed.

Lemma exponent_error_iff l e : exponent_error c s l e <-> f_exponent c l = None /\ e = e_exponent c s l.
Proof.
  unfold e_exponent. split.
  - intros [x l' Hx Hd|x Hx Hd|x y Hx Hd Hy|x sg n y l' Hx Hd Hsg Hy Hn|x l' ds r Hx Hd Hs Hv|x sg l' ds r Hx Hd Hsg Hs Hv];
      cbn [f_exponent tl]; rewrite Hx, Hd; auto.
    + unfold is_sign in Hy. destruct (Z.eqb_spec y 43) as [->|N1]; [auto|]. destruct (Z.eqb_spec y 45) as [->|N2]; [auto|]. discriminate.
    + assert (G : f_exponent_digits n (y :: l') = None /\
        Syntax (here s (y :: l')) (%"The exponent must have at least one digit") = e_exponent_digits s n (y :: l')).
      { unfold f_exponent_digits, e_exponent_digits. cbn [take_while]. rewrite Hy. auto. }
      destruct Hsg; cbn [app]; [|exact G|exact G].
      specialize (Hn eq_refl). unfold is_sign in Hn. apply orb_false_iff in Hn. destruct Hn as [-> ->]. exact G.
    + pose proof (exponent_digits_over true l' ds r Hs Hv) as [G1 G2]. rewrite G1, G2. auto.
    + pose proof (exponent_digits_over false l' ds r Hs Hv) as [G1 G2].
      remember false as n eqn:En in Hsg. destruct Hsg; try discriminate; cbn [app]; [|rewrite G1, G2; auto].
      assert (Nd : ds <> []) by (intros ->; cbn in Hv; lia).
      destruct (span_digit_head _ _ _ Hs Nd) as (y & l2 & -> & Hy). apply is_digit_iff in Hy.
      replace (y =? 43) with false by lia. replace (y =? 45) with false by lia. rewrite G1, G2. auto.
  - intros [H ->]. destruct l as [|x l]; [discriminate|]. cbn [f_exponent tl] in *. destruct (is_e x) eqn:Hx; [|discriminate].
    destruct (c_disable_exponent c) eqn:Hd; [now apply xe_disabled|]. destruct l as [|y l]; [now apply xe_end|].
    destruct (Z.eqb_spec y 43) as [->|N1]; [|destruct (Z.eqb_spec y 45) as [->|N2]];
      destruct (exponent_digits_none _ _ H) as [(E & ->)|[(z & l' & E & Hz & ->)|(ds & r & Hs & Hv & ->)]]; try subst l; try discriminate.
    + now apply xe_sign_end.
    + apply (xe_no_digit c s x [43] false z l'); auto; [constructor|discriminate].
    + apply (xe_positive c s x [43] l ds r); auto. constructor.
    + now apply xe_sign_end.
    + apply (xe_no_digit c s x [45] true z l'); auto; [constructor|discriminate].
    + now apply (xe_negative c s x l ds r).
    + injection E as <- <-. apply (xe_no_digit c s x [] false y l); auto; [constructor|]. intros _. unfold is_sign. lia.
    + apply (xe_positive c s x [] (y :: l) ds r); auto. constructor.
Qed.

Lemma unit_delimiter_none l : f_unit_delimiter c l = None <-> c_allow_time_unit_delimiter c = true /\ l <> [] /\ drop_while inner l = [].
Proof.
  destruct l as [|x l]; cbn [f_unit_delimiter drop_while]; [split; [discriminate|intros (_ & N & _); now destruct N]|].
  destruct (c_allow_time_unit_delimiter c); cbn [andb]; [|split; [discriminate|intros (F & _); discriminate]].
  destruct (inner x).
  - rewrite nonempty_None. split; [intros ->; repeat split; discriminate|now intros (_ & _ & H)].
  - split; [discriminate|]. intros (_ & _ & F). discriminate.
Qed.

Lemma f_frac_iff W l F l2 : f_frac W l = Some (F, l2) <-> fraction c l F l2 /\ W ++ F <> [].
Proof.
  unfold f_frac. rewrite obind_Some. split.
  - intros ([F0 l0] & Hf & H). destruct (is_empty (W ++ F0)) eqn:E; [discriminate|]. injection H as <- <-. split; [now apply fraction_iff|now apply is_empty_false].
  - intros [Hf N]. exists (F, l2). split; [now apply fraction_iff|]. apply is_empty_false in N. now rewrite N.
Qed.

(** numbers *)
Definition number_head_ok (l : str) : Prop := match l with [] => False | y :: _ => is_digit y = true \/ is_dot y = true end.
Section Generic.
Context (RT : rtemplate) (ET : etemplate).
Notation eN n l := (e_number c s RT ET n (take_while is_digit l) (drop_while is_digit l)).
Notation fN n l := (f_number c RT n (take_while is_digit l) (drop_while is_digit l)).

Lemma number_ok n l W F x r : number c l W F x r ->
  fN n l = after_number c RT n W F x r /\
  eN n l = match rt_ntu RT r with None => et_ntu ET r | Some (_, l4) => et_fin ET l4 end.
Proof.
  intros (l1 & l2 & l3 & Hs & Hf & He & Hu & N). apply span_iff in Hs. destruct Hs as [-> ->].
  assert (Hfr : f_frac (take_while is_digit l) (drop_while is_digit l) = Some (F, l2)) by (apply f_frac_iff; auto).
  apply fraction_iff in Hf. apply exponent_iff in He. apply unit_delimiter_iff in Hu. split.
  - unfold f_number. rewrite Hf. cbn [obind]. apply is_empty_false in N. rewrite N, He. cbn [obind]. rewrite Hu. reflexivity.
  - unfold e_number. change (let? (F, l) := f_fraction c (drop_while is_digit l) in _) with (f_frac (take_while is_digit l) (drop_while is_digit l)).
    now rewrite Hfr, He, Hu.
Qed.
Lemma number_err n l e : number_error c s l e -> fN n l = None /\ eN n l = e /\ number_head_ok l.
Proof.
  assert (Hd : forall W l1 F l2, span is_digit l W l1 -> (starts_with is_dot l1 \/ fraction c l1 F l2 /\ W ++ F <> []) -> number_head_ok l).
  { intros W l1 F l2 Hs H. apply span_iff in Hs. destruct Hs as [-> ->]. destruct l as [|y l]; cbn [take_while drop_while] in *.
    - destruct H as [[]|[H N]]. apply fraction_iff in H. injection H as <- <-. now apply N.
    - cbn. destruct (is_digit y) eqn:Hy; [auto|]. destruct H as [H|[H N]]; [now right|]. right. apply fraction_iff in H. cbn [f_fraction] in H.
      destruct (is_dot y); [reflexivity|]. injection H as <- <-. now destruct N. }
  intros [W l1 Hs Hf|W l1 F l2 Hs Hf N He|W l1 F l2 x l3 Hs Hf N He Ha Ht].
  - pose proof Hf as Hf'. apply fraction_error_iff in Hf'. destruct Hf' as (Hdot & H & ->).
    split; [|split; [|apply (Hd W l1 [] []); auto]]; apply span_iff in Hs; destruct Hs as [-> ->].
    + unfold f_number. unfold f_frac in H. destruct (f_fraction c _) as [[F l1]|]; [|reflexivity]. cbn [obind] in *. destruct (is_empty _); [reflexivity|discriminate].
    + unfold e_number. change (let? (F, l) := f_fraction c (drop_while is_digit l) in _) with (f_frac (take_while is_digit l) (drop_while is_digit l)). now rewrite H.
  - assert (Hfr : f_frac W l1 = Some (F, l2)) by (apply f_frac_iff; auto).
    apply exponent_error_iff in He. destruct He as [He ->].
    split; [|split; [|apply (Hd W l1 F l2); auto]]; apply span_iff in Hs; destruct Hs as [-> ->].
    + unfold f_number. apply fraction_iff in Hf. rewrite Hf. cbn [obind]. apply is_empty_false in N. now rewrite N, He.
    + unfold e_number. change (let? (F, l) := f_fraction c (drop_while is_digit l) in _) with (f_frac (take_while is_digit l) (drop_while is_digit l)). now rewrite Hfr, He.
  - assert (Hfr : f_frac W l1 = Some (F, l2)) by (apply f_frac_iff; auto).
    apply exponent_iff in He. apply trailing_iff in Ht. destruct Ht as (N3 & D3 & ->).
    assert (Hu : f_unit_delimiter c l3 = None) by (apply unit_delimiter_none; auto).
    split; [|split; [|apply (Hd W l1 F l2); auto]]; apply span_iff in Hs; destruct Hs as [-> ->].
    + unfold f_number. apply fraction_iff in Hf. rewrite Hf. cbn [obind]. apply is_empty_false in N. rewrite N, He. cbn [obind]. now rewrite Hu.
    + unfold e_number. change (let? (F, l) := f_fraction c (drop_while is_digit l) in _) with (f_frac (take_while is_digit l) (drop_while is_digit l)). now rewrite Hfr, He, Hu.
Qed.
Lemma number_total l : number_head_ok l -> (exists e, number_error c s l e) \/ exists W F x r, number c l W F x r.
Proof.
  intros Hh. pose proof (span_take is_digit l) as Hs. set (W := take_while is_digit l) in *. set (l1 := drop_while is_digit l) in *.
  destruct (f_frac W l1) as [[F l2]|] eqn:Ef.
  2:{ left. exists (e_fraction c s l1). apply ne_fraction with W l1; [exact Hs|]. apply fraction_error_iff. split; [|auto].
      unfold f_frac in Ef. destruct l as [|y l]; [contradiction|]. cbn [take_while drop_while] in *.
      destruct l1 as [|z l1'] eqn:El.
      - cbn [f_fraction obind] in Ef. rewrite app_nil_r in Ef. destruct (is_empty W) eqn:EW; [|discriminate]. apply is_empty_iff in EW.
        destruct Hs as [Hs _]. rewrite EW in Hs. discriminate.
      - cbn. cbn [f_fraction] in Ef. destruct (is_dot z) eqn:Ez; [reflexivity|]. cbn [obind] in Ef. rewrite app_nil_r in Ef.
        destruct (is_empty W) eqn:EW; [|discriminate]. apply is_empty_iff in EW. destruct Hs as [Hs _]. rewrite EW in Hs. injection Hs as <- <-.
        destruct Hh as [Hh|Hh]; [|congruence]. unfold W in EW. rewrite Hh in EW. discriminate. }
  apply f_frac_iff in Ef. destruct Ef as [Hf N].
  destruct (f_exponent c l2) as [[x l3]|] eqn:Ee.
  2:{ left. exists (e_exponent c s l2). apply ne_exponent with W l1 F l2; auto. apply exponent_error_iff. auto. }
  apply exponent_iff in Ee.
  destruct (f_unit_delimiter c l3) as [r|] eqn:Eu.
  - right. exists W, F, x, r. exists l1, l2, l3. apply unit_delimiter_iff in Eu. auto.
  - left. exists (e_delims s l3). apply unit_delimiter_none in Eu. destruct Eu as (Ha & N3 & D3). apply ne_delimiters with W l1 F l2 x l3; auto.
    apply trailing_iff. auto.
Qed.

Notation fT := (f_template c nums RT).
Notation eT := (e_template c tu nums s RT ET).

Lemma signed_nonempty t n l : signed c t n l -> t <> [] /\ l <> [].
Proof. intros []; split; auto; discriminate. Qed.

Lemma template_number_eq t n l : signed c t n l -> number_head_ok l -> fT t = fN n l /\ eT t = eN n l.
Proof.
  intros Hs Hh. pose proof (signed_nonempty _ _ _ Hs) as [Nt _]. apply signed_iff in Hs. unfold f_template, e_template.
  destruct t as [|t0 t]; [congruence|]. rewrite Hs. cbn [obind]. destruct l as [|y l]; [contradiction|]. cbn in Hh.
  destruct (is_digit y) eqn:Hy; [auto|]. destruct Hh as [Hh|Hh]; [discriminate|]. rewrite Hh. cbn [take_while drop_while]. rewrite Hy. auto.
Qed.
Lemma template_inf_eq t n l r : signed c t n l -> c_disable_infinity c = false -> word_prefix (%"inf") l r ->
  fT t = rt_inf RT n r /\ eT t = et_inf ET r.
Proof.
  intros Hs Hd Hw. pose proof (signed_nonempty _ _ _ Hs) as [Nt _]. apply signed_iff in Hs. unfold f_template, e_template.
  destruct t as [|t0 t]; [congruence|]. rewrite Hs. cbn [obind]. apply word_prefix_iff in Hw. destruct Hw as [Hw ->].
  destruct (inf_head l Hw) as (y & l' & -> & D1 & D2). rewrite D1, D2, Hd, Hw. auto.
Qed.
Lemma template_word_eq t n l : signed c t n l -> word c l -> fT t = f_word c nums RT n l /\ eT t = e_word c tu nums s RT ET l.
Proof.
  intros Hs Hw. pose proof (signed_nonempty _ _ _ Hs) as [Nt N]. apply signed_iff in Hs. unfold f_template, e_template.
  destruct t as [|t0 t]; [congruence|]. rewrite Hs. cbn [obind]. apply word_iff in Hw; [|exact N]. destruct l as [|y l]; [congruence|].
  destruct Hw as [[D1 D2] Hi]. rewrite D1, D2, Hi. auto.
Qed.
Lemma template_sign_eq t e : sign_error c s t e -> fT t = None /\ eT t = e.
Proof.
  intros H. apply sign_error_iff in H. destruct H as (N & H & ->). unfold f_template, e_template. rewrite H. destruct t; [congruence|]. auto.
Qed.
Lemma template_cases t : t = [] \/ (exists e, sign_error c s t e) \/ exists n l, signed c t n l /\
  (number_head_ok l \/ (c_disable_infinity c = false /\ exists r, word_prefix (%"inf") l r) \/ word c l).
Proof.
  destruct t as [|x0 t0] eqn:Et; [auto|]. rewrite <- Et in *. assert (Nt : t <> []) by (rewrite Et; discriminate). clear x0 t0 Et. right.
  destruct (f_signed c t) as [[n l]|] eqn:Es.
  2:{ left. exists (e_signed s t). apply sign_error_iff. auto. }
  right. apply signed_iff in Es. exists n, l. split; [exact Es|]. pose proof (signed_nonempty _ _ _ Es) as [_ N].
  destruct l as [|y l]; [congruence|].
  destruct (is_digit y) eqn:Hd; [left; cbn; auto|]. destruct (is_dot y) eqn:Hdot; [left; cbn; auto|]. right.
  destruct (negb (c_disable_infinity c) && starts_nocase (%"inf") (y :: l)) eqn:Hi.
  - left. apply andb_true_iff in Hi. destruct Hi as [Hi1 Hi2]. apply negb_true_iff in Hi1. split; [exact Hi1|]. eexists. apply word_prefix_iff. eauto.
  - right. apply word_iff; [discriminate|]. auto.
Qed.
End Generic.

(** numerals *)
Lemma no_numeral_iff l : no_numeral c nums l <-> f_numeral_prefix c nums l = Some None.
Proof.
  unfold no_numeral, f_numeral_prefix. split.
  - intros H. destruct nums as [f|]; [|reflexivity]. pose proof (span_take (fun x => negb (inner x)) l) as Hs.
    destruct (take_while (fun x => negb (inner x)) l) as [|x w] eqn:Ew; [reflexivity|].
    destruct (f (x :: w)) eqn:Ef; [|reflexivity]. destruct (drop_while (fun x => negb (inner x)) l) as [|y r] eqn:Er; [reflexivity|].
    specialize (H f (x :: w) (y :: r) eq_refl Hs ltac:(discriminate) ltac:(discriminate)). congruence.
  - intros H f w l1 Ef Hu Nw N1. rewrite Ef in H. apply until_iff in Hu. destruct Hu as [<- <-] in H.
    destruct w as [|x w]; [congruence|]. destruct (f (x :: w)) as [m|]; [|reflexivity]. destruct l1 as [|y l1]; [congruence|].
    destruct (nonempty _); discriminate.
Qed.
Lemma numeral_end_iff l e : numeral_end c nums s l e <-> f_numeral_prefix c nums l = None /\ e = e_delims s (after_word c l).
Proof.
  unfold numeral_end, f_numeral_prefix, after_word. split.
  - intros (f & w & l1 & Ef & Hu & Nw & Fw & Ht). rewrite Ef. apply until_iff in Hu. destruct Hu as [<- <-].
    apply trailing_iff in Ht. destruct Ht as (N1 & D1 & ->). destruct w as [|x w]; [congruence|]. destruct (f (x :: w)); [|congruence].
    destruct l1 as [|y l1]; [congruence|]. rewrite D1. auto.
  - intros [H ->]. destruct nums as [f|]; [|discriminate]. pose proof (span_take (fun x => negb (inner x)) l) as Hs.
    destruct (take_while (fun x => negb (inner x)) l) as [|x w] eqn:Ew; [discriminate|].
    destruct (f (x :: w)) eqn:Ef; [|discriminate]. destruct (drop_while (fun x => negb (inner x)) l) as [|y r] eqn:Er; [discriminate|].
    destruct (nonempty _) eqn:En in H; [discriminate|]. apply nonempty_None in En.
    exists f, (x :: w), (y :: r). split; [reflexivity|]. split; [exact Hs|]. split; [discriminate|]. split; [congruence|].
    apply trailing_iff. split; [discriminate|auto].
Qed.
Lemma numeral_word_iff l w r : numeral_word c nums l w r <->
  w = take_while (fun x => negb (inner x)) l /\ exists m, f_numeral_prefix c nums l = Some (Some (m, r)).
Proof.
  split.
  - intros (f & l1 & ds & Ef & Hu & Nw & Fw & Hs & Nd & Nr). split; [apply until_iff in Hu; tauto|].
    destruct (f w) as [m|] eqn:E; [|congruence]. exists m. apply numeral_prefix_iff. exists f, w, l1, ds. auto 8.
  - intros (-> & m & H). apply numeral_prefix_iff in H. destruct H as (f & w & l1 & ds & Ef & Hu & Nw & Fw & H).
    pose proof Hu as Hu'. apply until_iff in Hu'. destruct Hu' as [Ew _]. rewrite <- Ew. exists f, l1, ds. split; [assumption|]. split; [assumption|].
    split; [assumption|]. split; [congruence|exact H].
Qed.
Lemma numeral_cases l : no_numeral c nums l \/ (exists e, numeral_end c nums s l e) \/ (exists w r, numeral_word c nums l w r /\ r <> []).
Proof.
  destruct (f_numeral_prefix c nums l) as [[[m r]|]|] eqn:E.
  - right. right. eexists _, r. split; [apply numeral_word_iff; eauto|]. apply numeral_prefix_iff in E. exact (numeral_prefix_nonempty _ _ _ _ _ E).
  - left. now apply no_numeral_iff.
  - right. left. eexists. apply numeral_end_iff. eauto.
Qed.

(** the template, for both kinds of durations *)
Section GenericIff.
Context (RT : rtemplate) (ET : etemplate) (fin_fails : str -> Prop).
Hypothesis HF : forall d l, rt_fin RT d l = None <-> fin_fails l.
Notation fT := (f_template c nums RT).
Notation eT := (e_template c tu nums s RT ET).

Definition unit_fails (r : str) (e : parse_error) : Prop :=
  (rt_tu RT r = None /\ e = et_tu ET r) \/
  exists um r2, rt_tu RT r = Some (Some (um, r2)) /\ fin_fails r2 /\ e = et_fin ET r2.
Definition keyword_fails (r : str) (e : parse_error) : Prop :=
  (rt_kw RT r = None /\ e = et_kw ET r) \/
  exists um r2, rt_kw RT r = Some (Some (um, r2)) /\ fin_fails r2 /\ e = et_fin ET r2.
Definition numeral_fails (l : str) (e : parse_error) : Prop :=
  (no_numeral c nums l /\ e = InvalidInput l) \/ numeral_end c nums s l e \/
  exists w r, numeral_word c nums l w r /\ (unit_fails r e \/ (rt_tu RT r = Some None /\ numeral_unit_error tu s w r e)).

Lemma numeral_fails_iff n l e : numeral_fails l e <-> f_numeral c nums RT n l = None /\ e_numeral c tu nums s RT ET l = e.
Proof.
  unfold numeral_fails, f_numeral, e_numeral. split.
  - intros [[H ->]|[H|(w & r & Hw & H)]].
    + apply no_numeral_iff in H. rewrite H. auto.
    + apply numeral_end_iff in H. destruct H as [-> ->]. auto.
    + apply numeral_word_iff in Hw. destruct Hw as (-> & m & Hw). rewrite Hw. cbn [obind].
      destruct H as [[[H ->]|([u m'] & r2 & H & Hf & ->)]|[H ->]]; rewrite H; cbn [obind]; auto.
      split; [now apply HF|reflexivity].
  - intros [H <-]. destruct (f_numeral_prefix c nums l) as [[[m r]|]|] eqn:E; cbn [obind] in H.
    + right. right. eexists _, r. split; [apply numeral_word_iff; eauto|]. unfold unit_fails.
      destruct (rt_tu RT r) as [[[[u m'] r2]|]|] eqn:Et; cbn [obind] in H; [|right; split; reflexivity|auto].
      left. right. exists (u, m'), r2. split; [reflexivity|]. split; [now apply HF in H|reflexivity].
    + left. split; [now apply no_numeral_iff|reflexivity].
    + right. left. now apply numeral_end_iff.
Qed.
Lemma word_fails_iff n l e : f_word c nums RT n l = None /\ e_word c tu nums s RT ET l = e <->
  keyword_fails l e \/
  (rt_kw RT l = Some None /\
   ((c_number_is_optional c = true /\ unit_fails l e) \/
    ((c_number_is_optional c = true -> rt_tu RT l = Some None) /\ numeral_fails l e))).
Proof.
  unfold f_word, e_word, keyword_fails, unit_fails. destruct (rt_kw RT l) as [[[[u m] l1]|]|] eqn:Ek; cbn [obind].
  - rewrite HF. split.
    + intros [H <-]. left. right. exists (u, m), l1. auto.
    + intros [[[F _]|(um & r2 & E & H & ->)]|[F _]]; try discriminate. injection E as _ <-. auto.
  - destruct (c_number_is_optional c) eqn:Eo.
    + destruct (rt_tu RT l) as [[[[u m] l1]|]|] eqn:Et; cbn [obind].
      * rewrite HF. split.
        -- intros [H <-]. right. split; [reflexivity|]. left. split; [reflexivity|]. right. exists (u, m), l1. auto.
        -- intros [[[F _]|(um & r2 & F & _)]|[_ [[_ [[F _]|(um & r2 & E & H & ->)]]|[F _]]]]; try discriminate; [|specialize (F eq_refl); discriminate].
           injection E as _ <-. auto.
      * rewrite <- numeral_fails_iff. split.
        -- intros H. right. split; [reflexivity|]. right. auto.
        -- intros [[[F _]|(um & r2 & F & _)]|[_ [[_ [[F _]|(um & r2 & F & _)]]|[_ H]]]]; try discriminate. exact H.
      * split.
        -- intros [_ <-]. right. split; [reflexivity|]. left. split; [reflexivity|]. auto.
        -- intros [[[F _]|(um & r2 & F & _)]|[_ [[_ [[_ ->]|(um & r2 & F & _)]]|[F _]]]]; try discriminate; [auto|specialize (F eq_refl); discriminate].
    + rewrite <- numeral_fails_iff. split.
      * intros H. right. split; [reflexivity|]. right. split; [discriminate|exact H].
      * intros [[[F _]|(um & r2 & F & _)]|[_ [[F _]|[_ H]]]]; try discriminate. exact H.
  - split.
    + intros [_ <-]. auto.
    + intros [[[_ ->]|(um & r2 & F & _)]|[F _]]; try discriminate. auto.
Qed.
Definition ntu_error (r : str) : parse_error := match rt_ntu RT r with None => et_ntu ET r | Some (_, l4) => et_fin ET l4 end.
Lemma template_fails_iff t e : fT t = None /\ eT t = e <->
  (t = [] /\ e = Empty) \/ sign_error c s t e \/ exists n l, signed c t n l /\
   (number_error c s l e \/
    (exists W F x r, number c l W F x r /\ after_number c RT n W F x r = None /\ e = ntu_error r) \/
    (c_disable_infinity c = false /\ exists r, word_prefix (%"inf") l r /\ rt_inf RT n r = None /\ e = et_inf ET r) \/
    (word c l /\ f_word c nums RT n l = None /\ e_word c tu nums s RT ET l = e)).
Proof.
  split.
  - intros [H <-]. destruct (template_cases t) as [->|[(e & He)|(n & l & Hs & Hc)]]; [auto| |].
    + right. left. pose proof (template_sign_eq RT ET t e He) as [_ <-]. exact He.
    + right. right. exists n, l. split; [exact Hs|]. destruct Hc as [Hc|[(Hd & r & Hw)|Hw]].
      * destruct (template_number_eq RT ET t n l Hs Hc) as [E1 E2]. rewrite E1 in H. rewrite E2.
        destruct (number_total l Hc) as [(e & He)|(W & F & x & r & Hn)].
        -- left. pose proof (number_err RT ET n l e He) as (_ & -> & _). exact He.
        -- right. left. destruct (number_ok RT ET n l W F x r Hn) as [E3 E4]. exists W, F, x, r. split; [exact Hn|]. split; [congruence|exact E4].
      * destruct (template_inf_eq RT ET t n l r Hs Hd Hw) as [E1 E2]. right. right. left. split; [exact Hd|]. exists r. split; [exact Hw|]. split; congruence.
      * destruct (template_word_eq RT ET t n l Hs Hw) as [E1 E2]. right. right. right. split; [exact Hw|]. split; congruence.
  - intros [[-> ->]|[H|(n & l & Hs & H)]].
    + auto.
    + now apply template_sign_eq.
    + destruct H as [H|[(W & F & x & r & Hn & Ha & ->)|[(Hd & r & Hw & Hi & ->)|(Hw & H1 & H2)]]].
      * destruct (number_err RT ET n l e H) as (E3 & E4 & Hh). destruct (template_number_eq RT ET t n l Hs Hh) as [E1 E2]. split; congruence.
      * destruct (number_ok RT ET n l W F x r Hn) as [E3 E4]. destruct (template_number_eq RT ET t n l Hs (number_head c l W F x r Hn)) as [E1 E2].
        split; [congruence|]. rewrite E2, E4. reflexivity.
      * destruct (template_inf_eq RT ET t n l r Hs Hd Hw) as [E1 E2]. split; congruence.
      * destruct (template_word_eq RT ET t n l Hs Hw) as [E1 E2]. split; congruence.
Qed.
End GenericIff.
End Shared.

(** ** Single durations *)
Section Single.
Context (c : config) (tu : units_like) (kw : option units_like) (nums : option numbers_like) (s : str).
Notation inner := (c_inner_delimiter c).
Notation RT := (rsingle c tu kw).
Notation ET := (esingle c tu s).

Lemma single_infinity_error_iff w l e : single_infinity_error s w l e <-> str_eq_nocase l w = false /\ e = es_inity s w l.
Proof.
  split.
  - induction 1 as [x y w l e He H [IH ->]|y w|x y w l He|l e [N ->]]; cbn [str_eq_nocase es_inity].
    + rewrite He. auto.
    + auto.
    + rewrite He. auto.
    + destruct l; [congruence|]. auto.
  - revert l. induction w as [|y w IH]; intros l [H ->]; destruct l as [|x l]; cbn [str_eq_nocase es_inity] in *; try discriminate.
    + apply sie_more. split; [discriminate|reflexivity].
    + apply sie_end.
    + destruct (eq_nocase x y) eqn:E; [apply sie_next; auto|now apply sie_wrong].
Qed.

Lemma single_unit_error_iff l e : single_unit_error c tu s l e <-> unit_fails RT ET (fun r => r <> []) l e.
Proof.
  unfold unit_fails. cbn [rt_tu et_tu et_fin rsingle esingle]. unfold fs_tu, es_tu, after_word. split.
  - intros [w l1 Ha Hu Nw Eg Ht|w l1 ds a r Ha Hu Nw Eg Hs Hp [Nr ->]]; rewrite Ha; apply until_iff in Hu; destruct Hu as [<- <-];
      (destruct w as [|x w]; [congruence|]); (destruct (u_get tu (x :: w)) as [[u m]|]; [|congruence]).
    + apply trailing_iff in Ht. destruct Ht as (N1 & D1 & ->). left. rewrite D1. destruct l1; [congruence|]. auto.
    + right. apply span_iff in Hs. destruct Hs as [-> ->]. apply word_prefix_iff in Hp. destruct Hp as [Hp ->].
      exists (u, mul_saturating_neg m), (skipn (length (%"ago")) (drop_while inner l1)). split; [|auto].
      destruct l1 as [|y l1]; [discriminate|]. destruct (drop_while inner (y :: l1)) as [|z a]; [discriminate|]. cbn [nonempty obind]. rewrite Hp. reflexivity.
  - destruct (c_allow_ago c) eqn:Ha.
    2:{ destruct (u_get tu l) as [um|]; intros [[F _]|(um' & r & F & N & _)]; try discriminate. injection F as _ <-. now destruct N. }
    pose proof (span_take (fun x => negb (inner x)) l) as Hsp.
    destruct (take_while (fun x => negb (inner x)) l) as [|x w]; [intros [[F _]|(um' & r & F & _)]; discriminate|].
    destruct (u_get tu (x :: w)) as [[u m]|] eqn:Eg; [|intros [[F _]|(um' & r & F & _)]; discriminate].
    destruct (drop_while (fun x => negb (inner x)) l) as [|y l1].
    { intros [[F _]|(um' & r & F & N & _)]; [discriminate|]. injection F as _ <-. now destruct N. }
    destruct (nonempty (drop_while inner (y :: l1))) as [a|] eqn:En; cbn [obind].
    + apply nonempty_iff in En. destruct En as [-> Na].
      destruct (starts_nocase (%"ago") (drop_while inner (y :: l1))) eqn:Es; [|intros [[F _]|(um' & r & F & _)]; discriminate].
      intros [[F _]|(um' & r & F & N & ->)]; [discriminate|]. injection F as _ <-.
      apply (sue_ago c tu s l _ (x :: w) (y :: l1) (take_while inner (y :: l1)) (drop_while inner (y :: l1)) (skipn 3 (drop_while inner (y :: l1)))); auto.
      * discriminate. * congruence. * apply span_take. * now apply word_prefix_iff. * split; [exact N|reflexivity].
    + apply nonempty_None in En. intros [[_ ->]|(um' & r & F & _)]; [|discriminate].
      apply (sue_end c tu s l _ (x :: w) (y :: l1)); auto; [discriminate|congruence|]. apply trailing_iff. split; [discriminate|auto].
Qed.
Lemma single_unit_is_like l u m : single_unit c tu l u m -> single_unit_like c tu l.
Proof.
  intros [l0 u0 m0 Ha Eg|l0 u0 m0 Ha N Hu Eg|l0 w l1 ds a u0 m0 Ha Hu Nw Eg Hs Ea].
  - apply sul_plain; congruence.
  - apply sul_no_ago; congruence.
  - apply (sul_ago c tu l0 w l1 ds a []); auto; [congruence|]. exists a. now rewrite app_nil_r.
Qed.
Lemma no_single_unit_iff l : l <> [] -> no_single_unit c tu s l <-> fs_tu c tu l = Some None.
Proof.
  intros N. unfold no_single_unit. split.
  - intros [H1 H2]. destruct (fs_tu c tu l) as [[[um [|x r]]|]|] eqn:E; [| |reflexivity|].
    + destruct H1. apply fs_tu_iff in E; [|exact N]. exact (single_unit_is_like _ _ _ E).
    + destruct H2. eexists. apply single_unit_error_iff. right. exists um, (x :: r). split; [exact E|]. split; [discriminate|reflexivity].
    + destruct H2. eexists. apply single_unit_error_iff. left. split; [exact E|reflexivity].
  - intros H. split; [exact (fs_tu_none c tu l N H)|]. intros [e He]. apply single_unit_error_iff in He.
    destruct He as [[F _]|(um & r & F & _)]; cbn [rt_tu rsingle] in F; congruence.
Qed.

Lemma fs_fin_fails d l : rt_fin RT d l = None <-> l <> [].
Proof. cbn. destruct l; cbn; split; congruence. Qed.

Lemma after_number_single n W F x r e : after_number c RT n W F x r = None /\ e = ntu_error RT ET r <->
  r <> [] /\
  ((u_is_empty tu = true /\ e = TimeUnitErr (here s r) (%"No time units allowed but found: '" ++ r ++ %"'")) \/
   (u_is_empty tu = false /\ no_single_unit c tu s r /\ e = TimeUnitErr (here s r) (%"Invalid time unit: '" ++ r ++ %"'")) \/
   (u_is_empty tu = false /\ single_unit_error c tu s r e)).
Proof.
  destruct (list_eq_dec Z.eq_dec r []) as [->|N].
  { split; [intros [F' _]; discriminate|]. intros [N _]. now destruct N. }
  rewrite after_number_cons by exact N. unfold ntu_error. cbn [rsingle esingle rt_ntu rt_fin et_ntu et_fin]. unfold fs_ntu, es_ntu.
  rewrite no_single_unit_iff by exact N. rewrite single_unit_error_iff. unfold unit_fails. cbn [rt_tu et_tu et_fin rsingle esingle].
  destruct (u_is_empty tu); cbn [obind].
  - split; [intros [_ ->]; auto|]. intros (_ & [[_ ->]|[[F' _]|[F' _]]]); try discriminate. auto.
  - destruct (fs_tu c tu r) as [[[[u m] r2]|]|] eqn:Et; cbn [obind].
    + split.
      * intros [H ->]. split; [exact N|]. right. right. split; [reflexivity|]. right. exists (u, m), r2. split; [reflexivity|]. split; [now apply fs_fin_fails in H|reflexivity].
      * intros (_ & [[F' _]|[(_ & F' & _)|(_ & [[F' _]|(um & r3 & E & Nr & ->)])]]); try discriminate. injection E as _ <-.
        split; [|reflexivity]. now apply (fs_fin_fails (number_value n W F x u m) r2).
    + split.
      * intros [_ ->]. split; [exact N|]. auto 6.
      * intros (_ & [[F' _]|[(_ & _ & ->)|(_ & [[F' _]|(um & r3 & E & Nr & ->)])]]); try discriminate. auto.
    + split.
      * intros [_ ->]. split; [exact N|]. auto 6.
      * intros (_ & [[F' _]|[(_ & F' & _)|(_ & [[_ ->]|(um & r3 & E & Nr & ->)])]]); try discriminate. auto.
Qed.

Lemma keyword_fails_single l e : ~ keyword_fails RT ET (fun r => r <> []) l e.
Proof.
  intros [[H _]|(um & r2 & H & N & _)]; cbn [rt_kw rsingle] in H.
  - now apply fs_kw_total in H.
  - apply fs_kw_iff in H. now destruct H.
Qed.

Theorem single_error_iff e : single_error c tu kw nums s e <->
  match f_template c nums RT s with
  | None => e = e_template c tu nums s RT ET s
  | Some (d, _) => c_allow_negative c = false /\ is_negative d = true /\ e = NegativeNumber
  end.
Proof.
  assert (A : single_error c tu kw nums s e <-> (f_template c nums RT s = None /\ e_template c tu nums s RT ET s = e) \/
     exists d, single_duration c tu kw nums s d /\ c_allow_negative c = false /\ is_negative d = true /\ e = NegativeNumber).
  { rewrite (template_fails_iff c tu nums s RT ET).
    assert (NW : forall n l, signed c s n l -> l <> []) by (intros n l Hs; exact (proj2 (signed_nonempty _ _ _ _ Hs))).
    assert (TU : forall l, l <> [] -> rt_tu RT l = Some None <-> no_single_unit c tu s l) by (intros l N; symmetry; now apply no_single_unit_iff).
    assert (NR : forall l w r, numeral_word c nums l w r -> r <> []) by (intros l w r (f & l1 & ds & H); tauto).
    split.
    - intros H. destruct H as [H|e H|n l e Hs H|n l W F x r Hs Hn Nr Eu|n l W F x r Hs Hn Nr Eu Hu|n l W F x r e Hs Hn Nr Eu Hu|n l r e Hs Hd Hw Nr Hi
        |n l e Hs Hw Hk Ho Hu|n l Hs Hw Hk Ho Hn|n l e Hs Hw Hk Ho Hn|n l w r e Hs Hw Hk Ho Hn Hu|n l w r e Hs Hw Hk Ho Hn Hnu He|d Hd Ha Hn];
        [| | | | | | | | | | | |right; exists d; auto]; left; [auto|auto| | | | | | | | | |]; right; right; exists n, l; (split; [exact Hs|]).
      + auto.
      + right. left. exists W, F, x, r. split; [exact Hn|]. apply after_number_single. auto.
      + right. left. exists W, F, x, r. split; [exact Hn|]. apply after_number_single. auto 6.
      + right. left. exists W, F, x, r. split; [exact Hn|]. apply after_number_single. auto 6.
      + right. right. left. split; [exact Hd|]. exists r. split; [exact Hw|]. cbn [rt_inf rsingle et_inf esingle]. unfold fs_inf.
        apply single_infinity_error_iff in Hi. destruct Hi as [-> ->]. apply is_empty_false in Nr. rewrite Nr. auto.
      + right. right. right. split; [exact Hw|]. apply (word_fails_iff c tu nums s RT ET (fun r => r <> []) fs_fin_fails). right.
        split; [now apply fs_kw_none|]. left. split; [exact Ho|now apply single_unit_error_iff].
      + right. right. right. split; [exact Hw|]. apply (word_fails_iff c tu nums s RT ET (fun r => r <> []) fs_fin_fails). right.
        split; [now apply fs_kw_none|]. right. split; [intros O; apply TU; eauto|]. left. auto.
      + right. right. right. split; [exact Hw|]. apply (word_fails_iff c tu nums s RT ET (fun r => r <> []) fs_fin_fails). right.
        split; [now apply fs_kw_none|]. right. split; [intros O; apply TU; eauto|]. right. left. auto.
      + right. right. right. split; [exact Hw|]. apply (word_fails_iff c tu nums s RT ET (fun r => r <> []) fs_fin_fails). right.
        split; [now apply fs_kw_none|]. right. split; [intros O; apply TU; eauto|]. right. right. exists w, r. split; [exact Hn|]. left. now apply single_unit_error_iff.
      + right. right. right. split; [exact Hw|]. apply (word_fails_iff c tu nums s RT ET (fun r => r <> []) fs_fin_fails). right.
        split; [now apply fs_kw_none|]. right. split; [intros O; apply TU; eauto|]. right. right. exists w, r. split; [exact Hn|]. right. split; [apply TU; eauto|exact He].
    - intros [[[-> ->]|[H|(n & l & Hs & H)]]|(d & Hd & Ha & Hn & ->)].
      + now apply s_empty.
      + now apply s_sign.
      + destruct H as [H|[(W & F & x & r & Hn & H)|[(Hd & r & Hw & Hi & ->)|(Hw & H)]]].
        * now apply s_number with n l.
        * apply after_number_single in H. destruct H as (Nr & [[Eu ->]|[(Eu & Hu & ->)|(Eu & Hu)]]).
          -- now apply s_no_units with n l W F x.
          -- now apply s_bad_unit with n l W F x.
          -- now apply s_unit with n l W F x r.
        * cbn [rt_inf rsingle et_inf esingle] in *. unfold fs_inf in Hi. destruct (is_empty r) eqn:Er; [discriminate|]. apply is_empty_false in Er.
          cbn [orb] in Hi. destruct (str_eq_nocase r (%"inity")) eqn:Ei; [discriminate|].
          apply s_infinity with n l r; auto. now apply single_infinity_error_iff.
        * apply (word_fails_iff c tu nums s RT ET (fun r => r <> []) fs_fin_fails) in H.
          destruct H as [H|(Hk & H)]; [now apply keyword_fails_single in H|]. pose proof (proj1 (fs_kw_none kw l) Hk) as Hk0; clear Hk; rename Hk0 into Hk.
          destruct H as [[Ho Hu]|[Ho H]].
          -- apply single_unit_error_iff in Hu. now apply s_word_unit with n l.
          -- assert (Ho' : c_number_is_optional c = true -> no_single_unit c tu s l) by (intros O; apply TU; eauto).
             destruct H as [[Hn ->]|[Hn|(w & r & Hn & [Hu|[Hu He]])]].
             ++ now apply s_unknown with n.
             ++ now apply s_numeral_end with n l.
             ++ apply single_unit_error_iff in Hu. now apply s_numeral_unit with n l w r.
             ++ apply TU in Hu; [|eauto]. now apply s_numeral_no_unit with n l w r.
      + now apply s_negative with d. }
  rewrite A. pose proof (f_single_iff c tu kw nums s) as FI.
  destruct (f_template c nums RT s) as [[d r]|] eqn:E.
  - destruct (proj1 (FI d r) eq_refl) as [-> Hd]. split.
    + intros [[F _]|(d' & Hd' & H)]; [discriminate|]. assert (d' = d) as <-; [|exact H].
      pose proof (proj2 (FI d' []) (conj eq_refl Hd')) as H2. congruence.
    + intros H. right. exists d. auto.
  - split.
    + intros [[_ H]|(d' & Hd' & _)]; [now symmetry|]. pose proof (proj2 (FI d' []) (conj eq_refl Hd')) as H2. discriminate.
    + intros ->. auto.
Qed.
End Single.

(** ** Multiple durations *)
Section Multi.
Context (c : config) (tu : units_like) (kw : option units_like) (nums : option numbers_like) (s : str).
Notation inner := (c_inner_delimiter c).
Notation outer := (c_outer_delimiter c).
Notation RT := (rmulti c tu kw).
Notation ET := (emulti c s).
Notation stop := (fun l => f_next c l = None).

Definition after_conjunction (y w z : str) (e : parse_error) : Prop :=
  z = [] /\ e = Syntax (here s y) (%"Input may not end with a conjunction but found: '" ++ w ++ %"'") \/
  trailing s outer z e \/
  exists x z', z = x :: z' /\ outer x = false /\ starts_duration x = false /\
    e = Syntax (here s z) (%"A conjunction must be separated by a delimiter, sign or digit but found: '" ++ char_of_byte x ++ %"'").

Lemma after_conjunction_iff y w z e : after_conjunction y w z e <->
  (match z with
   | [] => None
   | x :: z' => if outer x then nonempty (drop_while outer z') else if starts_duration x then Some (x :: z') else None
   end) = None /\
  e = match z with
      | [] => e_conj_end s y w
      | x :: z' => if outer x then e_delims s (x :: z') else e_conj_sep s x (x :: z')
      end.
Proof.
  unfold after_conjunction. rewrite trailing_iff. destruct z as [|x z].
  - split; [|intros [_ ->]; auto]. intros [[_ ->]|[(N & _)|(x & z' & F & _)]]; [auto|now destruct N|discriminate].
  - cbn [drop_while]. destruct (outer x) eqn:Ex; split.
    + intros [[F _]|[(_ & D & ->)|(x' & z' & E & F & _)]]; [discriminate| |]; [|injection E as <- <-; congruence].
      split; [now apply nonempty_None|reflexivity].
    + intros [H ->]. apply nonempty_None in H. right. left. split; [discriminate|auto].
    + intros [[F _]|[(_ & F & _)|(x' & z' & E & _ & H & ->)]]; try discriminate. injection E as <- <-. rewrite H. auto.
    + intros [H ->]. destruct (starts_duration x) eqn:Ed; [discriminate|]. right. right. exists x, z. auto.
Qed.
Lemma conjunction_words ws y e :
  (exists ws1 w ws2 z, ws = ws1 ++ w :: ws2 /\ (forall v, In v ws1 -> ~ exists r, word_prefix v y r) /\ word_prefix w y z /\ after_conjunction y w z e)
  <-> f_conjunction c ws y = None /\ e = em_conjunction c s ws y.
Proof.
  induction ws as [|w ws IH]; cbn [f_conjunction em_conjunction].
  { split; [|intros [F _]; discriminate]. intros (ws1 & w & ws2 & z & F & _). destruct ws1; discriminate. }
  destruct (starts_nocase w y) eqn:Es.
  - assert (P : forall z, word_prefix w y z <-> z = skipn (length w) y).
    { intros z. rewrite word_prefix_iff. tauto. }
    rewrite <- (after_conjunction_iff y w (skipn (length w) y) e). split.
    + intros (ws1 & w1 & ws2 & z & E & H1 & Hz & H). destruct ws1 as [|v ws1]; injection E as <- ->.
      * apply P in Hz. now subst z.
      * destruct (H1 w (or_introl eq_refl)). eexists. apply P. reflexivity.
    + intros H. exists [], w, ws, (skipn (length w) y). split; [reflexivity|]. split; [intros v []|]. split; [now apply P|exact H].
  - rewrite <- IH. split.
    + intros (ws1 & w1 & ws2 & z & E & H1 & Hz & H). destruct ws1 as [|v ws1]; injection E as <- ->.
      * apply word_prefix_iff in Hz. destruct Hz. congruence.
      * exists ws1, w1, ws2, z. split; [reflexivity|]. split; [|auto]. intros u Hu. apply H1. now right.
    + intros (ws1 & w1 & ws2 & z & -> & H1 & H). exists (w :: ws1), w1, ws2, z. split; [reflexivity|]. split; [|exact H].
      intros v [<-|Hv]; [now apply no_word_prefix_iff|now apply H1].
Qed.
Lemma conjunction_error_iff y e : conjunction_error c s y e <->
  f_conjunction c (conjunctions c) y = None /\ e = em_conjunction c s (conjunctions c) y.
Proof.
  rewrite <- conjunction_words. split.
  - intros [ws1 w ws2 z E H1 Hz H]. exists ws1, w, ws2, z. auto.
  - intros (ws1 & w & ws2 & z & E & H1 & Hz & H). now apply ce with ws1 w ws2 z.
Qed.

Lemma next_error_iff l e : next_error c s l e <-> f_next c l = None /\ e = em_next c s l.
Proof.
  assert (Hn : forall x l', outer x = true -> f_next c (x :: l') = f_connect c (x :: l')) by (intros x l' Hx; cbn [f_next]; now rewrite Hx).
  unfold em_next. split.
  - intros [H|ds y Hs Nd Ny H].
    + apply trailing_iff in H. destruct H as (N & D & ->). destruct l as [|x l]; [congruence|].
      assert (Hx : outer x = true) by (cbn [drop_while] in D; destruct (outer x); [reflexivity|discriminate]).
      rewrite Hn by exact Hx. unfold f_connect. rewrite D. auto.
    + apply span_iff in Hs. destruct Hs as [-> ->]. destruct l as [|x l]; [now destruct Nd|].
      assert (Hx : outer x = true) by (cbn [take_while] in Nd; destruct (outer x); [reflexivity|now destruct Nd]).
      rewrite Hn by exact Hx. unfold f_connect. apply conjunction_error_iff in H. destruct H as [H ->].
      destruct (drop_while outer (x :: l)) as [|z r]; [congruence|]. cbn [nonempty obind]. auto.
  - intros [H ->]. destruct l as [|x l]; [discriminate|]. destruct (outer x) eqn:Hx; [|cbn [f_next] in H; rewrite Hx in H; discriminate].
    rewrite Hn in H by exact Hx. unfold f_connect in H. destruct (nonempty (drop_while outer (x :: l))) as [y|] eqn:En; cbn [obind] in H.
    + apply nonempty_iff in En. destruct En as [-> Ny]. apply (nx_conjunction c s (x :: l) _ (take_while outer (x :: l)) (drop_while outer (x :: l))); auto.
      * apply span_take. * cbn [take_while]. rewrite Hx. discriminate. * now apply conjunction_error_iff.
    + apply nonempty_None in En. apply nx_end. apply trailing_iff. split; [discriminate|auto].
Qed.

Lemma f_ago_none m l : f_ago c m l = None <-> c_allow_ago c = true /\ l <> [] /\ drop_while inner l = [].
Proof.
  unfold f_ago. destruct l as [|x l]; [split; [discriminate|intros (_ & N & _); now destruct N]|].
  destruct (c_allow_ago c); cbn [andb]; [|split; [discriminate|intros (F & _); discriminate]].
  destruct (inner x) eqn:Hx.
  - destruct (nonempty (drop_while inner (x :: l))) as [a|] eqn:En; cbn [obind].
    + apply nonempty_iff in En. destruct En as [-> Na]. split; [|intros (_ & _ & F); congruence].
      destruct (starts_nocase _ _); [|discriminate]. destruct (skipn 3 _) as [|y r]; [discriminate|]. destruct (keyword_end c y); discriminate.
    + apply nonempty_None in En. split; [|reflexivity]. intros _. split; [reflexivity|]. split; [discriminate|exact En].
  - split; [discriminate|]. intros (_ & _ & F). cbn [drop_while] in F. rewrite Hx in F. discriminate.
Qed.

Lemma multi_unit_error_iff' l e : multi_unit_error c tu s l e <-> fm_tu c tu l = None /\ e = em_tu c s l.
Proof.
  unfold fm_tu, em_tu. split.
  - intros [w l1 Hu Nw Eg Ha Ht|w l1 Hu Nw Eg Ha Hb Hn|w l1 l2 Hu Nw Eg Ha Hn]; apply until_iff in Hu; destruct Hu as [<- <-];
      (destruct w as [|x w]; [congruence|]); (destruct (u_get tu (x :: w)) as [[u m]|]; [|congruence]).
    + apply trailing_iff in Ht. destruct Ht as (N & D & ->).
      assert (G : forall m, f_ago c m l1 = None) by (intros m'; apply f_ago_none; auto). rewrite !G. auto.
    + assert (G : forall m, f_ago c m l1 = Some (m, l1)) by (intros m'; apply ago_iff; right; auto). rewrite !G. cbn [obind].
      apply next_error_iff in Hn. destruct Hn as [-> ->]. auto.
    + assert (G : forall m, f_ago c m l1 = Some (mul_saturating_neg m, l2)) by (intros m'; apply ago_iff; left; auto). rewrite !G. cbn [obind].
      apply next_error_iff in Hn. destruct Hn as [-> ->]. auto.
  - pose proof (span_take (fun x => negb (unit_end c x)) l) as Hsp.
    destruct (take_while (fun x => negb (unit_end c x)) l) as [|x w]; [intros [F _]; discriminate|].
    destruct (u_get tu (x :: w)) as [[u m]|] eqn:Eg; [|intros [F _]; discriminate].
    set (l1 := drop_while (fun x => negb (unit_end c x)) l) in *. intros [H ->].
    destruct (f_ago c m l1) as [[m' r]|] eqn:Ea; cbn [obind] in H.
    + destruct (f_next c r) eqn:En; [discriminate|]. apply ago_iff in Ea. destruct Ea as [[Ha ->]|(Ha & Hb & -> & ->)].
      * assert (G : f_ago c default_multiplier l1 = Some (mul_saturating_neg default_multiplier, r)) by (apply ago_iff; left; auto). rewrite G.
        apply (mue_ago_next c tu s l _ (x :: w) l1 r); auto; [discriminate|congruence|]. now apply next_error_iff.
      * assert (G : f_ago c default_multiplier l1 = Some (default_multiplier, l1)) by (apply ago_iff; right; auto). rewrite G.
        apply (mue_next c tu s l _ (x :: w) l1); auto; [discriminate|congruence|]. now apply next_error_iff.
    + apply f_ago_none in Ea. assert (G : f_ago c default_multiplier l1 = None) by now apply f_ago_none. rewrite G.
      destruct Ea as (Ha & N & D). apply (mue_ago c tu s l _ (x :: w) l1); auto; [discriminate|congruence|]. apply trailing_iff. auto.
Qed.
Lemma multi_unit_error_iff l e : multi_unit_error c tu s l e <-> unit_fails RT ET stop l e.
Proof.
  rewrite multi_unit_error_iff'. unfold unit_fails. cbn [rt_tu et_tu et_fin rmulti emulti]. split; [auto|].
  intros [H|(um & r & H & F & _)]; [exact H|]. apply fm_tu_iff in H. apply multi_unit_next in H. congruence.
Qed.
Lemma multi_keyword_error_iff l e : keyword_fails RT ET stop l e <-> exists u m l1, multi_keyword_is c kw l u m l1 /\ next_error c s l1 e.
Proof.
  unfold keyword_fails. cbn [rt_kw et_kw et_fin rmulti emulti]. split.
  - intros [[H ->]|(um & r & H & F & _)].
    + unfold fm_kw in H. unfold em_kw. destruct kw as [k|] eqn:Ekw; [|discriminate]. pose proof (span_take (fun x => negb (keyword_end c x)) l) as Hsp.
      destruct (take_while (fun x => negb (keyword_end c x)) l) as [|x w]; [discriminate|].
      destruct (u_get k (x :: w)) as [[u m]|] eqn:Eg; [|discriminate].
      destruct (f_next c _) eqn:En in H; [discriminate|].
      exists u, m, (drop_while (fun x => negb (keyword_end c x)) l). split; [|now apply next_error_iff].
      exists k, (x :: w). split; [reflexivity|]. split; [exact Hsp|]. split; [discriminate|exact Eg].
    + apply fm_kw_iff in H. destruct H as (l1 & _ & H). apply next_component_iff in H. apply f_next_idem in H. congruence.
  - intros (u & m & l1 & (k & w & Ek & Hu & Nw & Eg) & Hn). left. unfold fm_kw, em_kw. rewrite Ek. apply until_iff in Hu. destruct Hu as [<- <-].
    destruct w as [|x w]; [congruence|]. rewrite Eg. apply next_error_iff in Hn. destruct Hn as [-> ->]. auto.
Qed.

Definition fm_inity (w l : str) : option str :=
  if starts_nocase w l && f_ends c (skipn (length w) l) then f_next c (skipn (length w) l) else None.
Lemma multi_infinity_error_iff l0 w l e : multi_infinity_error c s l0 w l e <-> fm_inity w l = None /\ e = em_inity c s l0 w l.
Proof.
  unfold fm_inity. split.
  - induction 1 as [x y w l e He H [IH ->]|y w|x y w l He|x l Hx|l e H]; cbn [em_inity].
    + rewrite starts_nocase_cons, He. cbn [andb length skipn]. auto.
    + auto.
    + rewrite starts_nocase_cons, He. auto.
    + cbn [starts_nocase]. unfold starts_nocase. cbn [length firstn str_eq_nocase skipn andb f_ends]. rewrite Hx. auto.
    + apply next_error_iff in H. destruct H as [H ->]. destruct l as [|x l]; [discriminate|].
      assert (Hx : outer x = true) by (cbn [f_next] in H; destruct (outer x); [reflexivity|discriminate]).
      unfold starts_nocase. cbn [length firstn str_eq_nocase skipn andb f_ends]. rewrite Hx. auto.
  - revert l e. induction w as [|y w IH]; intros l e [H ->].
    + unfold starts_nocase in H. cbn [length firstn str_eq_nocase skipn andb] in H. destruct l as [|x l]; [discriminate|]. cbn [f_ends em_inity] in *.
      destruct (outer x) eqn:Hx; [|now apply mie_more]. apply mie_delimiter. now apply next_error_iff.
    + destruct l as [|x l]; cbn [em_inity]; [apply mie_end|]. rewrite starts_nocase_cons in H. destruct (eq_nocase x y) eqn:He; [|now apply mie_wrong].
      apply mie_next; [exact He|]. apply IH. cbn [andb length skipn] in H. auto.
Qed.
Lemma fm_fin_fails d l : rt_fin RT d l = None <-> f_next c l = None.
Proof. cbn [rt_fin rmulti]. unfold fm_fin. destruct (f_next c l); cbn [obind]; split; congruence. Qed.

Lemma multi_inf_fails n l e : rt_inf RT n l = None /\ e = et_inf ET l <->
  next_error c s l e \/ (~ ends_or_delimited c l /\ multi_infinity_error c s l (%"inity") l e).
Proof.
  cbn [rt_inf et_inf rmulti emulti]. unfold fm_inf, em_inf. rewrite <- ends_iff, next_error_iff, multi_infinity_error_iff.
  unfold fm_inity. change (length (%"inity")) with 5%nat. destruct (f_ends c l) eqn:Ee.
  - pose proof (fm_fin_fails (infinity_value n) l) as F. cbn [rt_fin rmulti] in F. rewrite F. tauto.
  - assert (Nx : f_next c l <> None).
    { destruct l as [|x l]; [discriminate|]. cbn in Ee |- *. rewrite Ee. discriminate. }
    destruct (starts_nocase (%"inity") l && f_ends c (skipn 5 l)).
    + pose proof (fm_fin_fails (infinity_value n) (skipn 5 l)) as F. cbn [rt_fin rmulti] in F. rewrite F. intuition congruence.
    + intuition congruence.
Qed.

Lemma after_number_multi n W F x r e : after_number c RT n W F x r = None /\ e = ntu_error RT ET r <->
  ((u_is_empty tu = true \/ ~ multi_unit_like c tu r) /\ next_error c s r e) \/ (u_is_empty tu = false /\ multi_unit_error c tu s r e).
Proof.
  rewrite next_error_iff, multi_unit_error_iff', <- fm_tu_none.
  destruct (list_eq_dec Z.eq_dec r []) as [->|N].
  { split; [intros [F' _]; discriminate|]. intros [(_ & F' & _)|(_ & F' & _)]; discriminate. }
  rewrite after_number_cons by exact N. unfold ntu_error. cbn [rmulti emulti rt_ntu rt_fin et_ntu et_fin]. unfold fm_ntu.
  pose proof (fun d l => fm_fin_fails d l) as FF. cbn [rt_fin rmulti] in FF.
  destruct (u_is_empty tu); cbn [obind].
  - rewrite FF. intuition congruence.
  - destruct (fm_tu c tu r) as [[[[u m] r2]|]|] eqn:Et; cbn [obind].
    + rewrite FF. apply fm_tu_iff in Et. apply multi_unit_next in Et. rewrite Et. intuition congruence.
    + rewrite FF. intuition congruence.
    + intuition congruence.
Qed.

Theorem component_error_iff t e : component_error c tu kw nums s t e <->
  f_template c nums RT t = None /\ e_template c tu nums s RT ET t = e.
Proof.
  rewrite (template_fails_iff c tu nums s RT ET).
  assert (TU : forall l, rt_tu RT l = Some None <-> ~ multi_unit_like c tu l) by (intros l; cbn [rt_tu rmulti]; apply fm_tu_none).
  assert (KW : forall l, rt_kw RT l = Some None <-> forall u m r, ~ multi_keyword_is c kw l u m r) by (intros l; cbn [rt_kw rmulti]; apply fm_kw_none).
  split.
  - intros H. destruct H as [H|e H|n l e Hs H|n l W F x r e Hs Hn Hu He|n l W F x r e Hs Hn Eu He|n l r e Hs Hd Hw He|n l r e Hs Hd Hw Hne He
      |n l u m l1 e Hs Hw Hk He|n l e Hs Hw Hk Ho He|n l Hs Hw Hk Ho Hn|n l e Hs Hw Hk Ho Hn|n l w r e Hs Hw Hk Ho Hn He|n l w r e Hs Hw Hk Ho Hn Hu He];
      [auto|auto| | | | | | | | | | |]; right; right; exists n, l; (split; [exact Hs|]).
    + auto.
    + right. left. exists W, F, x, r. split; [exact Hn|]. apply after_number_multi. auto.
    + right. left. exists W, F, x, r. split; [exact Hn|]. apply after_number_multi. auto.
    + right. right. left. split; [exact Hd|]. exists r. split; [exact Hw|]. apply multi_inf_fails. auto.
    + right. right. left. split; [exact Hd|]. exists r. split; [exact Hw|]. apply multi_inf_fails. auto.
    + right. right. right. split; [exact Hw|]. apply (word_fails_iff c tu nums s RT ET stop fm_fin_fails). left. apply multi_keyword_error_iff. eauto.
    + right. right. right. split; [exact Hw|]. apply (word_fails_iff c tu nums s RT ET stop fm_fin_fails). right. split; [now apply KW|].
      left. split; [exact Ho|now apply multi_unit_error_iff].
    + right. right. right. split; [exact Hw|]. apply (word_fails_iff c tu nums s RT ET stop fm_fin_fails). right. split; [now apply KW|].
      right. split; [intros O; apply TU; auto|]. left. auto.
    + right. right. right. split; [exact Hw|]. apply (word_fails_iff c tu nums s RT ET stop fm_fin_fails). right. split; [now apply KW|].
      right. split; [intros O; apply TU; auto|]. right. left. auto.
    + right. right. right. split; [exact Hw|]. apply (word_fails_iff c tu nums s RT ET stop fm_fin_fails). right. split; [now apply KW|].
      right. split; [intros O; apply TU; auto|]. right. right. exists w, r. split; [exact Hn|]. left. now apply multi_unit_error_iff.
    + right. right. right. split; [exact Hw|]. apply (word_fails_iff c tu nums s RT ET stop fm_fin_fails). right. split; [now apply KW|].
      right. split; [intros O; apply TU; auto|]. right. right. exists w, r. split; [exact Hn|]. right. split; [now apply TU|exact He].
  - intros [[-> ->]|[H|(n & l & Hs & H)]].
    + now apply m_empty.
    + now apply m_sign.
    + destruct H as [H|[(W & F & x & r & Hn & H)|[(Hd & r & Hw & H)|(Hw & H)]]].
      * now apply m_number with n l.
      * apply after_number_multi in H. destruct H as [[Hu He]|[Eu He]].
        -- now apply m_number_next with n l W F x r.
        -- now apply m_unit with n l W F x r.
      * apply multi_inf_fails in H. destruct H as [H|[H1 H2]].
        -- now apply m_inf with n l r.
        -- now apply m_infinity with n l r.
      * apply (word_fails_iff c tu nums s RT ET stop fm_fin_fails) in H. destruct H as [H|(Hk & H)].
        -- apply multi_keyword_error_iff in H. destruct H as (u & m & l1 & Hk & He). now apply m_keyword with n l u m l1.
        -- pose proof (proj1 (KW l) Hk) as Hk'. clear Hk. destruct H as [[Ho Hu]|[Ho H]].
           ++ apply multi_unit_error_iff in Hu. now apply m_word_unit with n l.
           ++ assert (Ho' : c_number_is_optional c = true -> ~ multi_unit_like c tu l) by (intros O; apply TU; auto).
              destruct H as [[Hn ->]|[Hn|(w & r & Hn & [Hu|[Hu He]])]].
              ** now apply m_unknown with n.
              ** now apply m_numeral_end with n l.
              ** apply multi_unit_error_iff in Hu. now apply m_numeral_unit with n l w r.
              ** apply (proj1 (TU r)) in Hu. now apply m_numeral_no_unit with n l w r.
Qed.

Context (K : byte -> bool).
Hypothesis HE : env_ok c tu kw nums.
Hypothesis HF : kfit c kw nums K.

Lemma components_error_iff e : forall fuel t, (length t < fuel)%nat -> utf8 t = true ->
  components_error c tu kw nums s t e <-> e_multiple fuel c tu kw nums s t = Some e.
Proof.
  induction fuel as [|fuel IH]; intros t L U; [lia|]. cbn [e_multiple].
  pose proof (fun d r => f_template_progress_fit c tu kw nums K t d r HE HF U) as Pr.
  pose proof (f_multi_iff c tu kw nums t) as FI. pose proof (component_error_iff t) as CE.
  destruct (f_template c nums RT t) as [[d r]|] eqn:Ef.
  - specialize (Pr d r eq_refl). destruct Pr as (Pl & Od & Ur).
    pose proof (proj1 (FI d r) eq_refl) as Hc.
    assert (Un : forall d' r', component c tu kw nums t d' r' -> d' = d /\ r' = r).
    { intros d' r' H. apply FI in H. now injection H as <- <-. }
    split.
    + intros H. inversion H as [t0 e0 H0|t0 d0 r0 H0 Hn Hg|t0 d0 r0 e0 H0 Ha Nr H1]; subst.
      * apply CE in H0. destruct H0; discriminate.
      * apply Un in H0. destruct H0 as [-> ->]. rewrite Hn, Hg. reflexivity.
      * apply Un in H0. destruct H0 as [-> ->].
        assert (E : negb (c_allow_negative c) && is_negative d = false).
        { destruct Ha as [Ha|Ha]; rewrite Ha; [reflexivity|]. now destruct (c_allow_negative c). }
        rewrite E. destruct r as [|x r0] eqn:Er; [congruence|]. rewrite <- Er in *. apply IH; [lia|exact Ur|exact H1].
    + destruct (negb (c_allow_negative c) && is_negative d) eqn:E.
      * intros [= <-]. apply andb_true_iff in E. destruct E as [E1 E2]. apply negb_true_iff in E1. now apply c_negative with d r.
      * destruct r as [|x r0] eqn:Er; [discriminate|]. rewrite <- Er in *. intros H.
        apply c_later with d r; [exact Hc| |rewrite Er; discriminate|].
        -- unfold sign_allowed. destruct (c_allow_negative c); [auto|]. destruct (is_negative d); [discriminate|auto].
        -- apply (IH r); [lia|exact Ur|exact H].
  - split.
    + intros H. inversion H as [t0 e0 H0|t0 d0 r0 H0 Hn Hg|t0 d0 r0 e0 H0 Ha Nr H1]; subst.
      * apply CE in H0. destruct H0 as [_ <-]. reflexivity.
      * apply FI in H0. discriminate.
      * apply FI in H0. discriminate.
    + intros [= <-]. apply c_wrong. apply CE. auto.
Qed.
End Multi.

(** ** The parsers *)
Theorem single_errors c tu kw nums s e : env_ok c tu kw nums -> utf8 s = true ->
  parse_single c s tu kw nums = Err e <-> single_error c tu kw nums s e.
Proof. intros HE U. rewrite (parse_single_error c tu kw nums s e HE U). symmetry. apply single_error_iff. Qed.
Theorem multiple_errors_fit c tu kw nums K s e : env_ok c tu kw nums -> kfit c kw nums K -> utf8 s = true ->
  parse_multiple c s tu kw nums = Err e <-> components_error c tu kw nums s s e.
Proof. intros HE HF U. rewrite (parse_multiple_error c tu kw nums K s e HE HF U). symmetry. apply (components_error_iff c tu kw nums s K HE HF); auto. Qed.
Theorem multiple_errors c tu kw nums s e : env_ok c tu kw nums ->
  (forall x, c_inner_delimiter c x = true -> keyword_end c x = true) -> utf8 s = true ->
  parse_multiple c s tu kw nums = Err e <-> components_error c tu kw nums s s e.
Proof. intros HE HD. exact (multiple_errors_fit c tu kw nums _ s e HE (kfit_all c kw nums HD)). Qed.
