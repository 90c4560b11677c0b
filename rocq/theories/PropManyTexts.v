(** * C87: multiple durations are accepted if and only if they are written like the regular expression of SpecManyTexts.v says *)
From Verif Require Import Prelude Time Config Parse SpecTime SpecNum SpecParse SpecValue SpecGrammar SpecSpelling SpecTexts SpecManyTexts.
From Verif Require Import NumProofs ValueProofs SpellProofs Utf8Proofs RefGrammar PropNum PropParse PropGnuText PropModes PropOptions PropPrefix PropTexts ExEnv GnuWords BytesProofs PropGrow Standard StandardProofs PropStandard PropSettings.

Section ManyTexts.
Context (c : config) (tu : units_like) (kw : option units_like) (nums : option numbers_like).
Context (PM : plain_many c tu kw nums).
Notation inner := (c_inner_delimiter c).
Notation outer := (c_outer_delimiter c).
Notation kend := (keyword_end c).
Let PE := pm_plain _ _ _ _ PM.

Definition stops (l : str) : Prop := l = [] \/ starts_with kend l.
Definition no_ago (l : str) : Prop := (forall r, ~ ago c l r) /\ (c_allow_ago c = true -> ~ (l <> [] /\ span inner l l [])).
Definition next_ok (t : str) : Prop := t <> [] /\ starts_not inner t /\ (forall w, In w (words c) -> ~ exists r, word_prefix w t r) /\
  (c_allow_ago c = true -> forall r, word_prefix (%"ago") t r -> ~ stops r).

Lemma ends_same x : unit_end c x = kend x.
Proof. unfold unit_end, keyword_end. rewrite (pm_delimiters _ _ _ _ PM). destruct (inner x), (starts_duration x), (c_allow_ago c); reflexivity. Qed.
Lemma kend_iff x : kend x = true <-> inner x = true \/ digit_or_sign x.
Proof.
  unfold keyword_end, starts_duration, digit_or_sign, is_digit, is_sign. rewrite (pm_delimiters _ _ _ _ PM). destruct (inner x); cbn [orb]; [tauto|]. split; [intros H; right; lia|intros [H|H]; [discriminate|lia]].
Qed.
Lemma kend_not x : kend x = false <-> inner x = false /\ ~ digit_or_sign x.
Proof. pose proof (kend_iff x). destruct (kend x), (inner x); intuition congruence. Qed.
Lemma kend_letter x : kend x = true -> ~ 65 <= x <= 90 /\ ~ 97 <= x <= 122.
Proof. rewrite kend_iff. intros [H|H]; [apply (pe_delimiter _ _ _ _ PE) in H|unfold digit_or_sign in H]; lia. Qed.
Lemma unit_until l a b : until (unit_end c) l a b <-> until kend l a b.
Proof. split; apply until_same; intros x; [|symmetry]; apply ends_same. Qed.

Lemma id_word id : identifier tu kw nums id -> plain_word c id /\ forall x, In x id -> kend x = false.
Proof.
  intros H. assert (P : plain_word c id).
  { destruct H as [H|[(k & Ek & H)|(f & Ef & H)]]; [apply (pe_units _ _ _ _ PE id H)|apply (pe_keywords _ _ _ _ PE k id Ek H)|apply (pe_numerals _ _ _ _ PE f id Ef H)]. }
  split; [exact P|]. intros x Hx. rewrite kend_not. split; [now apply P|]. now apply (pm_identifiers _ _ _ _ PM id H).
Qed.
Lemma until_kend v tail : (forall x, In x v -> kend x = false) -> stops tail -> until kend (v ++ tail) v tail.
Proof.
  intros Hv Ht. split; [reflexivity|]. split; [intros x Hx; now rewrite Hv|]. destruct Ht as [->|Ht]; [exact I|]. destruct tail; [exact I|]. cbn in *. now rewrite Ht.
Qed.
Lemma plain_app_stops a b : plain_word c a -> stops b -> plain_start c (a ++ b).
Proof.
  intros [[H1 H2] H3] Hb. split.
  - destruct a as [|x a]; [contradiction|exact H1].
  - intros x y z r E Hi. destruct a as [|a1 [|a2 [|a3 a]]]; [contradiction| | |].
    + destruct b as [|b1 b]; [discriminate|]. destruct Hb as [Hb|Hb]; [discriminate|]. injection E as -> -> ->.
      pose proof (kend_letter y Hb) as D. change (eq_nocase x 105 && (eq_nocase y 110 && (eq_nocase z 102 && true)) = false).
      rewrite (not_letter y 110) by lia. cbn [andb]. now rewrite andb_false_r.
    + destruct b as [|b1 b]; [discriminate|]. destruct Hb as [Hb|Hb]; [discriminate|]. injection E as -> -> -> ->.
      pose proof (kend_letter z Hb) as D. change (eq_nocase x 105 && (eq_nocase y 110 && (eq_nocase z 102 && true)) = false).
      rewrite (not_letter z 102) by lia. cbn [andb]. now rewrite !andb_false_r.
    + injection E as -> -> -> E. exact (H2 x y z a eq_refl Hi).
Qed.
Lemma like_id id tail : (forall x, In x id -> kend x = false) -> stops tail -> multi_unit_like c tu (id ++ tail) -> u_get tu id <> None.
Proof.
  intros Hi Ht (w & l1 & U & _ & G). apply unit_until in U. destruct (until_word kend id tail w l1 Hi Ht U) as [-> _]. exact G.
Qed.
Lemma like_filled l : multi_unit_like c tu l -> u_is_empty tu = false.
Proof. intros (w & l1 & _ & _ & G). now apply (pe_units _ _ _ _ PE w). Qed.
Lemma like_stop x l : kend x = true -> ~ multi_unit_like c tu (x :: l).
Proof.
  intros H (w & l1 & U & N & _). apply unit_until in U. destruct U as (E & Hw & _). destruct w as [|y w]; [contradiction|]. injection E as <- E.
  specialize (Hw x (or_introl eq_refl)). cbn in Hw. now rewrite H in Hw.
Qed.

(** ** numbers *)
Definition ends_for (p l : str) : Prop := starts_not is_digit l /\ (starts_with is_dot l -> In 46 p \/ has_exponent p) /\ (starts_with is_e l -> has_exponent p).
Lemma digits_plain W x : digit_string W -> In x W -> x <> 46 /\ x <> 101 /\ x <> 69.
Proof. intros H Hx. specialize (H x Hx). lia. Qed.
Lemma number_read p W F x l r : number_part c p W F x -> ends_for p l -> unit_delimiter c l r -> number c (p ++ l) W F x r.
Proof.
  intros [W' fr F' ex x' HW Hf N He Df De] (E1 & E2 & E3) U. rewrite <- !app_assoc.
  pose proof (proj1 (digit_string_is_digit W') HW) as HW'.
  assert (X1 : starts_not is_digit (ex ++ l)) by (destruct He as [|y sg n ds e [->| ->]]; [exact E1|reflexivity|reflexivity]).
  exists (fr ++ ex ++ l), (ex ++ l), l. split; [|split; [|split; [|split; [exact U|exact N]]]].
  - split; [reflexivity|]. split; [exact HW'|]. destruct Hf; [exact X1|reflexivity].
  - destruct Hf as [|F' HF]; cbn [app].
    + constructor. destruct He as [|y sg n ds e [->| ->]]; [|reflexivity|reflexivity]. cbn [app] in *. rewrite app_nil_r in *.
      destruct l as [|y l]; [exact I|]. cbn in *. destruct (is_dot y); [|reflexivity]. exfalso.
      destruct (E2 eq_refl) as [H|[H|H]]; apply (digits_plain W') in H; auto; lia.
    + change (fraction c (46 :: F' ++ ex ++ l) F' (ex ++ l)). constructor; [apply Df; discriminate|]. split; [reflexivity|]. split; [now apply digit_string_is_digit|exact X1].
  - assert (ND : forall y, In y (W' ++ fr) -> y <> 101 /\ y <> 69).
    { intros y Hy. apply in_app_or in Hy. destruct Hy as [Hy|Hy]; [apply (digits_plain W') in Hy; auto; lia|].
      destruct Hf as [|F' HF]; [destruct Hy|]. destruct Hy as [<-|Hy]; [split; discriminate|]. apply (digits_plain F') in Hy; auto; lia. }
    destruct He as [|y sg n ds e Hy Hs Hd Nd Ee R]; cbn [app] in *.
    + constructor. rewrite app_nil_r in E3. destruct l as [|y l]; [exact I|]. cbn in *. destruct (is_e y); [|reflexivity]. exfalso.
      destruct (E3 eq_refl) as [H|H]; apply ND in H; lia.
    + rewrite <- app_assoc. apply (some_exponent c y sg n (ds ++ l) ds l e); auto.
      * unfold is_e. lia.
      * apply De. discriminate.
      * destruct Hs; constructor.
      * split; [reflexivity|]. split; [now apply digit_string_is_digit|exact E1].
Qed.
Lemma number_written l W F x r : number c l W F x r -> exists p t, l = p ++ t /\ number_part c p W F x /\ ends_for p t /\ unit_delimiter c t r.
Proof.
  intros (l1 & l2 & l3 & (-> & HW & S1) & Hf & He & Hu & N).
  apply digit_string_is_digit in HW.
  assert (X : exists ex, l2 = ex ++ l3 /\ exponent_text ex x /\ (ex <> [] -> c_disable_exponent c = false) /\
    (ex = [] \/ In 101 ex \/ In 69 ex) /\ (ex = [] -> starts_not is_e l3) /\ (ex <> [] -> starts_not is_digit l3)).
  { inversion He as [l' H|y sg n l' es r' e Hy De Hs (E2 & H2 & S2) Nd E3 R]; subst.
    - exists []. split; [reflexivity|]. split; [constructor|]. split; [congruence|]. split; [now left|]. split; [auto|congruence].
    - exists (y :: sg ++ es). split; [cbn; now rewrite <- app_assoc|]. split; [|split; [auto|split; [|split; [discriminate|auto]]]].
      + apply (et_some y sg n es); auto; [unfold is_e in Hy; lia|destruct Hs; constructor|now apply digit_string_is_digit].
      + right. unfold is_e in Hy. destruct (Z.eqb_spec y 101) as [->|]; [left; now left|right; left; lia]. }
  destruct X as (ex & -> & X1 & X2 & X3 & X4 & X5).
  assert (Y : exists fr, l1 = fr ++ ex ++ l3 /\ fraction_text fr F /\ (fr <> [] -> c_disable_fraction c = false) /\
    (fr = [] \/ In 46 fr) /\ (fr = [] -> starts_not is_dot (ex ++ l3)) /\ (fr <> [] -> starts_not is_digit (ex ++ l3))).
  { inversion Hf as [l' H|l' F' r' Df (E2 & H2 & S2)]; subst.
    - exists []. split; [reflexivity|]. split; [constructor|]. split; [congruence|]. split; [now left|]. split; [auto|congruence].
    - exists (%"." ++ F). split; [reflexivity|]. split; [constructor; now apply digit_string_is_digit|]. split; [auto|]. split; [right; now left|]. split; [discriminate|auto]. }
  destruct Y as (fr & -> & Y1 & Y2 & Y3 & Y4 & Y5).
  exists (W ++ fr ++ ex), l3. split; [now rewrite <- !app_assoc|]. split; [now constructor|]. split; [|exact Hu]. split; [|split].
  - destruct ex as [|y ex]; [|apply X5; discriminate]. destruct fr as [|y fr]; [exact S1|apply Y5; discriminate].
  - intros H. destruct ex as [|y ex].
    + destruct fr as [|y fr].
      * specialize (Y4 eq_refl). cbn in Y4. destruct l3 as [|z l3]; [destruct H|]. cbn in *. congruence.
      * left. destruct Y3 as [Y3|Y3]; [discriminate|]. apply in_or_app. right. apply in_or_app. now left.
    + right. destruct X3 as [X3|[X3|X3]]; [discriminate| |]; [left|right]; apply in_or_app; right; apply in_or_app; now right.
  - intros H. destruct ex as [|y ex].
    + specialize (X4 eq_refl). destruct l3 as [|z l3]; [destruct H|]. cbn in *. congruence.
    + destruct X3 as [X3|[X3|X3]]; [discriminate| |]; [left|right]; apply in_or_app; right; apply in_or_app; now right.
Qed.

(** ** what a duration starts with *)
Lemma word_conjunction v tail w r : (forall x, In x v -> kend x = false) -> stops tail -> In w (words c) -> word_prefix w (v ++ tail) r -> exists r0, word_prefix w v r0.
Proof.
  intros Hv Ht Hw H. destruct tail as [|x y]; [rewrite app_nil_r in H; now exists r|]. destruct Ht as [Ht|Ht]; [discriminate|]. cbn in Ht.
  apply (word_prefix_stop w x y) with (r := r); [|exact H]. intros b Hb. destruct (eq_nocase x b) eqn:E; [|reflexivity]. exfalso.
  pose proof (kend_letter x Ht) as L. apply nocase_other in E; [|unfold letter; lia]. subst b.
  destruct (pm_conjunctions _ _ _ _ PM w Hw) as (_ & _ & H'). specialize (H' x Hb). apply kend_iff in Ht. destruct H' as [H1 H2], Ht as [Ht|Ht]; [congruence|contradiction].
Qed.
Lemma ago_bytes a : str_eq_nocase a (%"ago") = true -> forall x, In x a -> kend x = false.
Proof.
  intros H x Hx. destruct a as [|a1 [|a2 [|a3 [|]]]]; cbn in H; rewrite ?andb_false_r in H; try discriminate.
  apply andb_true_iff in H. destruct H as [H1 H]. apply andb_true_iff in H. destruct H as [H2 H]. apply andb_true_iff in H. destruct H as [H3 _].
  destruct (kend x) eqn:E; [|reflexivity]. apply kend_letter in E.
  destruct Hx as [<-|[<-|[<-|[]]]]; [apply SpellProofs.nocase_letter in H1|apply SpellProofs.nocase_letter in H2|apply SpellProofs.nocase_letter in H3]; lia.
Qed.
Lemma ago_word v tail r : (forall x, In x v -> kend x = false) -> stops tail -> word_prefix (%"ago") (v ++ tail) r -> stops r -> str_eq_nocase v (%"ago") = true.
Proof.
  intros Hv Ht (a & E & Ha) Hr. pose proof (until_kend a r (ago_bytes a Ha) Hr) as U. rewrite <- E in U.
  destruct (until_word kend v tail a r Hv Ht U) as [-> _]. exact Ha.
Qed.
Lemma next_id id tail : identifier tu kw nums id -> stops tail -> next_ok (id ++ tail).
Proof.
  intros Hi Ht. destruct (id_word id Hi) as (PW & Hk). split; [|split; [|split]].
  - destruct PW as [[S _] _]. destruct id; [contradiction|discriminate].
  - destruct PW as [[S _] PW]. destruct id as [|x id]; [contradiction|]. apply PW. now left.
  - intros w Hw (r & H). destruct (word_conjunction id tail w r Hk Ht Hw H) as (r0 & v & E & Hv).
    apply (pm_no_conjunction _ _ _ _ PM w id Hw (or_introl Hi)). exists v, r0. auto.
  - intros Ha r H Hr. pose proof (ago_word id tail r Hk Ht H Hr) as E. rewrite (pm_ago _ _ _ _ PM id) in E; [discriminate|now left|exact Ha].
Qed.
Lemma next_head x t : digit_or_sign x \/ x = 46 -> next_ok (x :: t).
Proof.
  intros Hx. assert (L : ~ letter x) by (unfold letter, digit_or_sign in *; lia). split; [discriminate|]. split; [|split].
  - cbn. destruct (inner x) eqn:I; [|reflexivity]. pose proof (pe_delimiter _ _ _ _ PE x I). unfold digit_or_sign in Hx. lia.
  - intros w Hw (r & v & E & Hv). destruct (pm_conjunctions _ _ _ _ PM w Hw) as (N & N1 & N2). destruct w as [|y w]; [contradiction|].
    destruct v as [|z v]; [discriminate|]. injection E as <- E. cbn in Hv. apply andb_true_iff in Hv. destruct Hv as [Hv _].
    apply nocase_other in Hv; [|exact L]. subst y. destruct Hx as [Hx| ->]; [|now apply N1]. now apply (N2 x (or_introl eq_refl)).
  - intros _ r (v & E & Hv) _. destruct v as [|z v]; [discriminate|]. injection E as <- E. cbn in Hv. apply andb_true_iff in Hv. destruct Hv as [Hv _].
    apply nocase_other in Hv; [|exact L]. subst x. apply L. unfold letter. lia.
Qed.
Lemma like_point t : ~ multi_unit_like c tu (46 :: t).
Proof.
  intros (w & l1 & U & N & G). destruct (pe_units _ _ _ _ PE w G) as (_ & [[S _] _] & _). destruct U as (E & _). destruct w as [|y w]; [contradiction|].
  injection E as <- E. lia.
Qed.
Lemma like_head_number x t : digit_or_sign x \/ x = 46 -> ~ multi_unit_like c tu (x :: t).
Proof. intros [H| ->]; [|apply like_point]. apply like_stop. apply kend_iff. now right. Qed.
Definition inf_word (v : str) : Prop := str_eq_nocase v (%"inf") = true \/ str_eq_nocase v (%"infinity") = true.
Lemma nocase_bytes v : forall w, str_eq_nocase v w = true -> (forall y, In y w -> 97 <= y <= 122) -> forall x, In x v -> 65 <= x <= 90 \/ 97 <= x <= 122.
Proof.
  induction v as [|a v IH]; intros [|b w] H Hw x Hx; try discriminate; [destruct Hx|]. cbn [str_eq_nocase] in H. apply andb_true_iff in H. destruct H as [H1 H2].
  specialize (Hw b (or_introl eq_refl)) as Hb. destruct Hx as [<-|Hx]; [apply SpellProofs.nocase_letter in H1; [lia|exact Hb]|]. apply (IH w H2); auto. intros y Hy. apply Hw. now right.
Qed.
Lemma inf_bytes v : inf_word v -> forall x, In x v -> kend x = false.
Proof.
  intros H x Hx. assert (L : 65 <= x <= 90 \/ 97 <= x <= 122).
  { destruct H as [H|H]; apply (nocase_bytes v _ H); auto; each. }
  destruct (kend x) eqn:E; [|reflexivity]. apply kend_letter in E. lia.
Qed.
Lemma inf_start v : inf_word v -> exists x y z r, v = x :: y :: z :: r /\ str_eq_nocase [x; y; z] (%"inf") = true.
Proof.
  assert (G : forall x y z (b : bool), (eq_nocase x 105 && (eq_nocase y 110 && (eq_nocase z 102 && b)))%bool = true -> str_eq_nocase [x; y; z] (%"inf") = true).
  { intros x y z b H. change (eq_nocase x 105 && (eq_nocase y 110 && (eq_nocase z 102 && true))%bool = true).
    apply andb_true_iff in H. destruct H as [-> H]. apply andb_true_iff in H. destruct H as [-> H]. apply andb_true_iff in H. destruct H as [-> _]. reflexivity. }
  intros [H|H]; pose proof (str_eq_nocase_length _ _ H) as L; destruct v as [|x [|y [|z v]]]; try discriminate L; exists x, y, z, v; (split; [reflexivity|]).
  - exact (G x y z _ H).
  - exact (G x y z _ H).
Qed.
Lemma delimited_stops l : ends_or_delimited c l -> stops l.
Proof.
  intros [->|H]; [now left|]. right. destruct l as [|x l]; [destruct H|]. cbn in *. apply kend_iff. left. now rewrite <- (pm_delimiters _ _ _ _ PM).
Qed.
Lemma next_inf v tail : c_disable_infinity c = false -> inf_word v -> stops tail -> next_ok (v ++ tail) /\ ~ multi_unit_like c tu (v ++ tail).
Proof.
  intros Hi Hv Ht. pose proof (inf_bytes v Hv) as Hk. destruct (inf_start v Hv) as (x & y & z & r & -> & E). split.
  - split; [discriminate|]. split; [|split].
    + cbn. now apply (proj1 (kend_not x)), Hk; left.
    + intros w Hw (r' & H). destruct (word_conjunction _ tail w r' Hk Ht Hw H) as (r0 & a & E1 & Ha).
      apply (pm_no_conjunction _ _ _ _ PM w (%"infinity") Hw); [now right|].
      assert (G : exists b, str_eq_nocase ((x :: y :: z :: r) ++ b) (%"infinity") = true).
      { destruct Hv as [Hv|Hv]; [|exists []; now rewrite app_nil_r]. exists (%"inity"). exact (nocase_app _ (%"inf") (%"inity") (%"inity") Hv eq_refl). }
      destruct G as (b & G). rewrite E1, <- app_assoc in G. apply str_nocase_sym in G.
      destruct (nocase_split (%"infinity") a (r0 ++ b) G) as (v1 & v2 & Q1 & Q2 & _). exists v1, v2. split; [exact Q1|]. now apply (str_nocase_trans v1 a).
    + intros _ r' (a & E1 & Ha) _. destruct a as [|a0 a]; [discriminate|]. injection E1 as <- _. cbn in Ha, E.
      apply andb_true_iff in Ha. apply andb_true_iff in E. destruct Ha as [Ha _], E as [E _]. apply SpellProofs.nocase_letter in Ha; [|lia]. apply SpellProofs.nocase_letter in E; lia.
  - intros H. apply (like_id _ tail Hk Ht) in H. destruct (pe_units _ _ _ _ PE _ H) as (_ & [[_ S] _] & _). rewrite (S x y z r eq_refl Hi) in E. discriminate.
Qed.

(** ** writing is reading *)
Definition follows (e : ending) (tail r : str) : Prop :=
  match e with
  | AfterNumber p => ends_for p tail /\ exists l1, unit_delimiter c tail l1 /\ ~ multi_unit_like c tu l1 /\ next_component c l1 r
  | AfterWord => stops tail /\ next_component c tail r
  | AfterInfinity => ends_or_delimited c tail /\ next_component c tail r
  end.
Lemma sign_head sg n : sign_part c sg n -> sg <> [] -> exists x r, sg = x :: r /\ digit_or_sign x.
Proof.
  intros [|sg' n' ds N Hs Hd Ha] Ns; [contradiction|]. destruct Hs; [contradiction| |]; eexists _, _; (split; [reflexivity|]); right; ((left; reflexivity) || (right; reflexivity)).
Qed.
Lemma number_head p W F x l : number_part c p W F x -> exists y r, p ++ l = y :: r /\ (digit_or_sign y \/ y = 46) /\ is_sign y = false.
Proof.
  intros [W' fr F' ex x' HW Hf N He Df De]. destruct W' as [|y W'].
  - destruct Hf as [|F' HF]; [now destruct N|]. eexists _, _. split; [reflexivity|]. split; [now right|reflexivity].
  - eexists _, _. split; [reflexivity|]. specialize (HW y (or_introl eq_refl)). unfold digit_or_sign, is_sign. split; [left; left; exact HW|lia].
Qed.
Lemma unit_part_id q u m tail : unit_part c tu q u m -> stops tail ->
  exists id t, q ++ tail = id ++ t /\ u_get tu id <> None /\ stops t.
Proof.
  intros [id u' m' E|id u' m' ds a E Ha N Hd Hago] Ht.
  - exists id, tail. split; [reflexivity|]. split; [congruence|exact Ht].
  - exists id, ((ds ++ a) ++ tail). rewrite <- !app_assoc. split; [reflexivity|]. split; [congruence|]. right. destruct ds as [|x ds]; [contradiction|]. cbn. apply kend_iff. left. apply Hd. now left.
Qed.
Lemma delim_stops ds t : ds <> [] -> delimiters c ds -> stops (ds ++ t).
Proof. intros N H. right. destruct ds as [|x ds]; [contradiction|]. cbn. apply kend_iff. left. apply H. now left. Qed.
Definition after (e : ending) (tail : str) : Prop := match e with AfterNumber _ => True | _ => stops tail end.
Lemma od_next p bare e d tail : one_duration c tu kw nums p bare e d -> after e tail -> next_ok (p ++ tail) /\ (bare = false -> ~ multi_unit_like c tu (p ++ tail)).
Proof.
  intros H Ht.
  assert (Signed : forall sg n t, sign_part c sg n -> sg <> [] -> next_ok (sg ++ t) /\ ~ multi_unit_like c tu (sg ++ t)).
  { intros sg n t Hs Ns. destruct (sign_head sg n Hs Ns) as (y & r & -> & Hy). cbn [app]. split; [apply next_head|apply like_head_number]; now left. }
  assert (Num : forall p' W F x t, number_part c p' W F x -> next_ok (p' ++ t) /\ ~ multi_unit_like c tu (p' ++ t)).
  { intros p' W F x t Hp. destruct (number_head p' W F x t Hp) as (y & r & -> & Hy & _). split; [now apply next_head|now apply like_head_number]. }
  assert (S : forall sg n t, sign_part c sg n -> next_ok t /\ ~ multi_unit_like c tu t -> next_ok (sg ++ t) /\ ~ multi_unit_like c tu (sg ++ t)).
  { intros sg n t Hs Hr. destruct sg as [|y sg]; [exact Hr|]. apply (Signed _ n); [exact Hs|discriminate]. }
  assert (Other : forall id t, identifier tu kw nums id -> u_get tu id = None -> stops t -> next_ok (id ++ t) /\ ~ multi_unit_like c tu (id ++ t)).
  { intros id t Hi Nu Hst. split; [now apply next_id|]. intros L. apply like_id in L; [contradiction|apply id_word, Hi|exact Hst]. }
  assert (W : forall (A B : Prop), A /\ B -> A /\ (bare = false -> B)) by tauto.
  destruct H as [sg n p W' F x Hs Hp|sg n p W' F x ds q u m Hs Hp Hd Ha Hq|sg n v Hs Hi Hv|sg n k id u m Hs Hk E|sg n q u m Hs Ho Hq|sg n f id num ds q u m Hs Hf E Nd Hd Hq];
    cbn [after] in Ht; rewrite <- ?app_assoc.
  - apply W, (S _ n); eauto.
  - apply W, (S _ n); eauto.
  - apply W, (S _ n); [exact Hs|]. now apply next_inf.
  - apply W, (S _ n); [exact Hs|]. apply Other; [right; left; exists k; split; [exact Hk|congruence]| |exact Ht]. apply (pe_keywords _ _ _ _ PE k id Hk). congruence.
  - destruct sg as [|y sg]; [|apply W, (Signed _ n); [exact Hs|discriminate]]. cbn [app]. split; [|discriminate].
    destruct (unit_part_id q u m tail Hq Ht) as (id & t & -> & Hi & Hst). apply next_id; [now left|exact Hst].
  - apply W, (S _ n); [exact Hs|]. apply Other; [right; right; exists f; split; [exact Hf|congruence]| |now apply delim_stops]. apply (pe_numerals _ _ _ _ PE f id Hf). congruence.
Qed.

Lemma span_delims ds t : delimiters c ds -> starts_not inner t -> span inner (ds ++ t) ds t.
Proof. intros H1 H2. split; [reflexivity|]. split; [exact H1|exact H2]. Qed.
Lemma span_outer ds t : delimiters c ds -> starts_not inner t -> span outer (ds ++ t) ds t.
Proof.
  intros H1 H2. split; [reflexivity|]. split; [intros x Hx; rewrite (pm_delimiters _ _ _ _ PM); now apply H1|].
  destruct t; [exact I|]. cbn in *. now rewrite (pm_delimiters _ _ _ _ PM).
Qed.
Lemma not_outer t : starts_not inner t -> starts_not outer t.
Proof. destruct t; [auto|]. cbn. now rewrite (pm_delimiters _ _ _ _ PM). Qed.
Lemma not_all_delimiters sep x r : inner x = false -> ~ span inner (sep ++ x :: r) (sep ++ x :: r) [].
Proof. intros Hx (_ & H & _). rewrite H in Hx; [discriminate|]. apply in_or_app. right. now left. Qed.
Lemma conj_bytes v w : In w (words c) -> str_eq_nocase v w = true -> v <> [] /\ forall x, In x v -> kend x = false.
Proof.
  intros Hw Hv. destruct (pm_conjunctions _ _ _ _ PM w Hw) as (N & _ & Hb). split; [destruct v, w; try discriminate; contradiction|].
  clear N Hw. revert w Hb Hv. induction v as [|a v IH]; intros w Hb Hv x Hx; [destruct Hx|]. destruct w as [|b w]; [discriminate|].
  cbn in Hv. apply andb_true_iff in Hv. destruct Hv as [H1 H2]. destruct Hx as [<-|Hx].
  - destruct (kend a) eqn:E; [|reflexivity]. pose proof (kend_letter a E) as L. apply nocase_other in H1; [|unfold letter; lia]. subst b.
    destruct (Hb a (or_introl eq_refl)) as [Q1 Q2]. apply kend_iff in E. destruct E; [congruence|contradiction].
  - apply (IH w); auto. intros z Hz. apply Hb. now right.
Qed.
Lemma first_conjunction y w : In w (words c) -> (exists r, word_prefix w y r) ->
  exists ws1 w0 ws2 r0, conjunctions c = ws1 ++ w0 :: ws2 /\ (forall v, In v ws1 -> ~ exists r', word_prefix v y r') /\ word_prefix w0 y r0.
Proof.
  unfold words, conjunctions. generalize (match c_conjunctions c with Some l => l | None => [] end). intros l. induction l as [|a l IH]; intros Hw Hp; [destruct Hw|].
  destruct (starts_nocase a y) eqn:E.
  - exists [], a, l, (skipn (length a) y). split; [reflexivity|]. split; [intros v []|]. apply word_prefix_iff. auto.
  - destruct Hw as [->|Hw].
    + destruct Hp as (r & Hr). apply word_prefix_iff in Hr. destruct Hr. congruence.
    + destruct (IH Hw Hp) as (ws1 & w0 & ws2 & r0 & -> & H1 & H2). exists (a :: ws1), w0, ws2, r0. split; [reflexivity|]. split; [|exact H2].
      intros v [<-|Hv]; [|now apply H1]. intros (r' & Hr). apply word_prefix_iff in Hr. destruct Hr. congruence.
Qed.
Lemma prefix_like a b ra rb y w w' : y = a ++ ra -> y = b ++ rb -> str_eq_nocase a w = true -> str_eq_nocase b w' = true -> (length a <= length b)%nat -> starts_like w w'.
Proof.
  intros E1 E2 Ha Hb L. rewrite E1 in E2. clear E1 y.
  assert (G : exists t, b = a ++ t).
  { clear - E2 L. revert b E2 L. induction a as [|x a IH]; intros b E L; [now exists b|]. destruct b as [|z b]; [cbn in L; lia|]. injection E as <- E.
    destruct (IH b E) as (t & ->); [cbn in L; lia|]. now exists t. }
  destruct G as (t & ->). apply str_nocase_sym in Hb. destruct (nocase_split w' a t Hb) as (v1 & v2 & Q1 & Q2 & _). exists v1, v2. split; [exact Q1|]. now apply (str_nocase_trans v1 a).
Qed.
Lemma same_length w w' y r r' : In w (words c) -> In w' (words c) -> word_prefix w y r -> word_prefix w' y r' -> r = r'.
Proof.
  intros Hw Hw' (v & E & Hv) (v' & E' & Hv').
  assert (L : length v = length v').
  { rewrite (str_eq_nocase_length _ _ Hv), (str_eq_nocase_length _ _ Hv'). destruct (le_ge_dec (length v) (length v')) as [L|L].
    - apply (pm_one_conjunction _ _ _ _ PM); auto. now apply (prefix_like v v' r r' y).
    - symmetry. apply (pm_one_conjunction _ _ _ _ PM); auto. now apply (prefix_like v' v r' r y). }
  rewrite E in E'. clear - E' L. revert v' E' L. induction v as [|x v IH]; intros [|x' v'] E L; try discriminate; [exact E|]. injection E as <- E. apply (IH v'); auto.
Qed.
Lemma inner_ends p ds t : ds <> [] -> delimiters c ds -> ends_for p (ds ++ t).
Proof.
  intros N H. destruct ds as [|x ds]; [contradiction|]. pose proof (pe_delimiter _ _ _ _ PE x (H x (or_introl eq_refl))) as D. cbn.
  split; [cbn; unfold is_digit; lia|]. split; cbn; unfold is_dot, is_e; intros; exfalso; lia.
Qed.
Lemma between_connection e sep bare x r : between c e sep bare x -> sep <> [] -> next_ok (x :: r) ->
  (forall p, e = AfterNumber p -> c_allow_time_unit_delimiter c = false) -> connection c (sep ++ x :: r) (x :: r).
Proof.
  intros H Ns (_ & N1 & N2 & _) Ht. destruct H as [p x _ _ _|bare x _|e ds bare x Nd Hd _|e ds1 v w ds2 bare x Nd Hd Hw Hv Hd2 Hx _]; [contradiction|contradiction| |].
  - apply (con_delimiter c (ds ++ x :: r) ds (x :: r)); [now apply span_outer|exact Nd|discriminate|exact N2].
  - rewrite <- !app_assoc. set (y := v ++ ds2 ++ x :: r). destruct (conj_bytes v w Hw Hv) as (Nv & Kv).
    assert (Py : word_prefix w y (ds2 ++ x :: r)) by (exists v; auto).
    destruct (first_conjunction y w Hw (ex_intro _ _ Py)) as (ws1 & w0 & ws2 & r0 & Ew & H1 & H2).
    assert (r0 = ds2 ++ x :: r).
    { apply (same_length w0 w y); auto. fold (conjunctions c) in Hw. change (In w0 (conjunctions c)). rewrite Ew. apply in_or_app. right. now left. }
    subst r0. apply (con_word c (ds1 ++ y) ds1 y ws1 w0 ws2 (ds2 ++ x :: r)); auto.
    + apply span_outer; [exact Hd|]. unfold y. destruct v as [|a v]; [contradiction|]. cbn. apply kend_not. apply Kv. now left.
    + unfold y. destruct v; [contradiction|discriminate].
    + destruct ds2 as [|z ds2].
      * left. cbn [app]. split; [now apply not_outer|]. split; [|reflexivity]. cbn. specialize (Hx eq_refl). unfold digit_or_sign in Hx.
        unfold starts_duration, is_digit, is_sign. lia.
      * right. exists (z :: ds2). split; [now apply span_outer|]. split; discriminate.
Qed.
Lemma between_stops e sep bare x r : between c e sep bare x -> sep <> [] -> starts_with outer (sep ++ x :: r).
Proof.
  assert (G : forall ds t, ds <> [] -> delimiters c ds -> starts_with outer (ds ++ t)).
  { intros [|y ds] t N H; [contradiction|]. cbn. rewrite (pm_delimiters _ _ _ _ PM). apply H. now left. }
  intros H Ns. destruct H as [p x _ _ _|bare x _|e ds bare x Nd Hd _|e ds1 v w ds2 bare x Nd Hd Hw Hv Hd2 Hx _]; [contradiction|contradiction| |]; rewrite <- ?app_assoc; now apply G.
Qed.
Lemma no_ago_next ds t : delimiters c ds -> next_ok t -> no_ago (ds ++ t).
Proof.
  intros Hd (N0 & N1 & _ & N2). split.
  - intros r (Ha & ds' & a & Sp & Nd & Hw & Hr). destruct (span_det inner _ _ _ _ _ Sp (span_delims ds t Hd N1)) as [-> ->]. apply (N2 Ha r Hw). exact Hr.
  - intros _ [_ H]. destruct t as [|x t]; [contradiction|]. now apply not_all_delimiters in H.
Qed.
Lemma between_nil e bare x : between c e [] bare x -> match e with AfterNumber p => True | AfterWord => digit_or_sign x | AfterInfinity => False end.
Proof.
  intros H. remember ([] : str) as sep eqn:E. destruct H as [p x A B C|bare x Hx|e ds bare x Nd Hd Hb|e ds1 v w ds2 bare x Nd Hd Hw Hv Hd2 Hx Hb].
  - exact I.
  - exact Hx.
  - contradiction.
  - destruct ds1; [contradiction|discriminate].
Qed.
Lemma connect e sep bare x r : between c e sep bare x -> next_ok (x :: r) -> (bare = false -> ~ multi_unit_like c tu (x :: r)) ->
  follows e (sep ++ x :: r) (x :: r) /\ (e = AfterWord -> no_ago (sep ++ x :: r)).
Proof.
  intros H NO L. pose proof NO as (N0 & N1 & N2 & N3).
  assert (Adj : next_component c (x :: r) (x :: r)) by (apply nc_adjacent; now apply not_outer).
  assert (K : sep <> [] -> e <> AfterInfinity \/ True) by tauto. clear K.
  assert (Con : sep <> [] -> (forall p, e = AfterNumber p -> c_allow_time_unit_delimiter c = false) -> next_component c (sep ++ x :: r) (x :: r)).
  { intros Ns Ht. apply nc_connection. now apply (between_connection e sep bare). }
  assert (St : sep <> [] -> ends_or_delimited c (sep ++ x :: r)) by (intros Ns; right; now apply (between_stops e sep bare)).
  assert (NA : e = AfterWord -> no_ago (sep ++ x :: r)).
  { intros Ee. destruct H as [p x A B C|bare x Hx|e ds bare x Nd Hd Hb|e ds1 v w ds2 bare x Nd Hd Hw Hv Hd2 Hx Hb].
    - discriminate.
    - apply (no_ago_next [] (x :: r)); [intros ? []|exact NO].
    - now apply no_ago_next.
    - rewrite <- !app_assoc. destruct (conj_bytes v w Hw Hv) as (Nv & Kv). set (y := v ++ ds2 ++ x :: r).
      assert (Sv : starts_not inner y) by (unfold y; destruct v as [|a v]; [contradiction|]; cbn; apply kend_not, Kv; now left).
      assert (S2 : stops (ds2 ++ x :: r)).
      { destruct ds2 as [|z ds2]; [right; cbn; apply kend_iff; right; now apply Hx|]. apply delim_stops; [discriminate|exact Hd2]. }
      split.
      + intros r' (Ha & ds' & a & Sp & Nd' & Hag & Hr). destruct (span_det inner _ _ _ _ _ Sp (span_delims ds1 y Hd Sv)) as [-> ->].
        pose proof (ago_word v (ds2 ++ x :: r) r' Kv S2 Hag Hr) as Ev. rewrite (GnuWords.nocase_same v w) in Ev by exact Hv.
        rewrite (pm_ago _ _ _ _ PM w) in Ev; [discriminate|now right|exact Ha].
      + intros _ [_ Q]. unfold y in Q. rewrite !app_assoc in Q. now apply not_all_delimiters in Q. }
  split; [|exact NA]. destruct e as [p| |].
  - assert (Un : forall ds, delimiters c ds -> c_allow_time_unit_delimiter c = true -> unit_delimiter c (ds ++ x :: r) (x :: r)).
    { intros ds Hd Ht. apply (some_unit_delimiter c _ ds); [exact Ht|now apply span_delims|right; discriminate]. }
    inversion H as [p' x' A B C|bare' x' Hx|e ds bare' x' Nd Hd Hb|e ds1 v w ds2 bare' x' Nd Hd Hw Hv Hd2 Hx Hb]; subst.
    + split.
      * cbn. split; [cbn; unfold is_digit; lia|]. split; cbn; unfold is_dot, is_e; intros; [apply B|apply C]; lia.
      * exists (x :: r). split; [|split; [now apply L|exact Adj]]. destruct (c_allow_time_unit_delimiter c) eqn:Ht; [now apply (Un []); [intros ? []|]|now constructor].
    + split; [now apply inner_ends|]. destruct (c_allow_time_unit_delimiter c) eqn:Ht.
      * exists (x :: r). split; [now apply Un|]. split; [apply L; now apply (Hb p)|exact Adj].
      * exists (sep ++ x :: r). split; [now constructor|]. split; [|now apply Con].
        destruct sep as [|y sep]; [contradiction|]. apply like_stop. apply kend_iff. left. apply Hd. now left.
    + rewrite <- app_assoc. split; [now apply inner_ends|]. exists (ds1 ++ (v ++ ds2) ++ x :: r). split; [constructor; now apply (Hb p)|]. split.
      * destruct ds1 as [|y ds1]; [contradiction|]. apply like_stop. apply kend_iff. left. apply Hd. now left.
      * rewrite app_assoc. apply Con; [destruct ds1; [contradiction|discriminate]|exact Hb].
  - destruct sep as [|y sep].
    + cbn [app]. split; [|exact Adj]. right; cbn; apply kend_iff; right. now apply between_nil in H.
    + split; [|apply Con; discriminate]. apply delimited_stops. apply St. discriminate.
  - assert (Ns : sep <> []).
    { intros ->. now apply between_nil in H. }
    split; [now apply St|]. apply Con; [exact Ns|discriminate].
Qed.

Lemma word_facts id tail : identifier tu kw nums id -> stops tail ->
  id ++ tail <> [] /\ starts_not is_sign (id ++ tail) /\ starts_not inner (id ++ tail) /\ word c (id ++ tail) /\ until kend (id ++ tail) id tail /\ id <> [].
Proof.
  intros Hi Ht. destruct (id_word id Hi) as (PW & Hk). pose proof (plain_app_stops id tail PW Ht) as S. destruct (plain_head c _ S) as (P1 & P2 & P3 & P4).
  split; [exact P1|]. split; [exact P4|]. split; [now apply next_id|]. split; [now apply plain_word_of|]. split; [now apply until_kend|].
  destruct PW as [[PS _] _]. destruct id; [contradiction|discriminate].
Qed.
Lemma unit_id id u m : u_get tu id = Some (u, m) -> identifier tu kw nums id.
Proof. intros E. left. congruence. Qed.
Lemma unit_written q u m tail r : unit_part c tu q u m -> follows AfterWord tail r -> no_ago tail -> multi_unit c tu (q ++ tail) u m r.
Proof.
  intros Hq (Ht & Hn) (A1 & A2). destruct Hq as [id u' m' E|id u' m' ds a E Ha Nd Hd Hago].
  - destruct (word_facts id tail (unit_id _ _ _ E) Ht) as (_ & _ & _ & _ & U & N).
    apply (mu_plain c tu (id ++ tail) id tail u' m' r); auto. now apply unit_until.
  - rewrite <- !app_assoc. pose proof (delim_stops ds (a ++ tail) Nd Hd) as St.
    destruct (word_facts id (ds ++ a ++ tail) (unit_id _ _ _ E) St) as (_ & _ & _ & _ & U & N).
    apply (mu_ago c tu (id ++ ds ++ a ++ tail) id (ds ++ a ++ tail) tail u' m' r); auto; [now apply unit_until|].
    split; [exact Ha|]. exists ds, (a ++ tail). split; [apply span_delims; [exact Hd|]|].
    + destruct a as [|x a]; [discriminate|]. cbn. apply kend_not. apply (ago_bytes (x :: a) Hago). now left.
    + split; [exact Nd|]. split; [now exists a|exact Ht].
Qed.
Lemma multi_keyword_none id tail : stops tail -> identifier tu kw nums id -> (forall k, kw = Some k -> u_get k id = None) -> forall u m r, ~ multi_keyword_is c kw (id ++ tail) u m r.
Proof.
  intros Ht Hi H u m r (k & w & Ek & U & N & G). destruct (word_facts id tail Hi Ht) as (_ & _ & _ & _ & U2 & _).
  destruct (span_det _ _ _ _ _ _ U U2) as [-> ->]. rewrite (H k Ek) in G. discriminate.
Qed.
Lemma od_component p bare e d tail r : one_duration c tu kw nums p bare e d -> follows e tail r -> (e = AfterWord -> no_ago tail) ->
  component c tu kw nums (p ++ tail) d r.
Proof.
  intros H Hf Hn.
  assert (NumS : forall sg n p' W F x t, sign_part c sg n -> number_part c p' W F x -> signed c (sg ++ p' ++ t) n (p' ++ t)).
  { intros sg n p' W F x t Hs Hp. destruct (number_head p' W F x t Hp) as (y & l & -> & Hy & Hs'). apply sign_part_signed; auto; [discriminate|].
    destruct (next_head y l Hy) as (_ & N1 & _). exact N1. }
  destruct H as [sg n p W F x Hs Hp|sg n p W F x ds q u m Hs Hp Hd Ha Hq|sg n v Hs Hi Hv|sg n k id u m Hs Hk E|sg n q u m Hs Ho Hq|sg n f id num ds q u m Hs Hfn E Nd Hd Hq];
    rewrite <- ?app_assoc.
  - destruct Hf as (He & l1 & Hu & NL & Hc). apply (co_number c tu kw nums _ n (p ++ tail) W F x r l1); auto; [eapply NumS; eauto|now apply number_read].
  - specialize (Hn eq_refl). pose proof (unit_written q u m tail r Hq Hf Hn) as MU. destruct Hf as (Ht & Hc).
    destruct (unit_part_id q u m tail Hq Ht) as (id & t & Eq & Hi & Hst). 
    destruct (word_facts id t (or_introl Hi) Hst) as (F1 & F2 & F3 & F4 & F5 & F6). destruct (pe_units _ _ _ _ PE id Hi) as (F7 & ((F8 & _) & _) & F9).
    apply (co_number_unit c tu kw nums _ n (p ++ ds ++ q ++ tail) W F x (q ++ tail) u m r); [eapply NumS; eauto| |exact F7|exact MU].
    apply number_read; [exact Hp| |].
    + destruct ds as [|y ds]; [|apply inner_ends; [discriminate|exact Hd]]. cbn [app]. rewrite Eq. destruct id as [|y id]; [contradiction|]. cbn in F8, F9 |- *.
      split; [cbn; unfold is_digit; lia|]. split; cbn; unfold is_dot, is_e; intros; exfalso; lia.
    + rewrite Eq. destruct (c_allow_time_unit_delimiter c) eqn:Et.
      * apply (some_unit_delimiter c _ ds); [exact Et|now apply span_delims|now right].
      * assert (ds = []) as -> by (destruct ds; [reflexivity|discriminate (Ha ltac:(discriminate))]). now constructor.
  - destruct Hf as (Ht & Hc). destruct (next_inf v tail Hi Hv (delimited_stops tail Ht)) as ((N0 & N1 & _) & _).
    assert (Sg : signed c (sg ++ v ++ tail) n (v ++ tail)).
    { apply sign_part_signed; auto. destruct (inf_start v Hv) as (x & y & z & l & -> & _). pose proof (inf_bytes _ Hv x (or_introl eq_refl)) as K.
      apply kend_not in K. destruct K as [_ K]. cbn. unfold digit_or_sign in K. unfold is_sign. lia. }
    destruct Hv as [Hv|Hv].
    + apply (co_inf c tu kw nums _ n (v ++ tail) tail r); auto. now exists v.
    + destruct (nocase_split v (%"inf") (%"inity") Hv) as (v1 & v2 & -> & Q1 & Q2). rewrite <- app_assoc in *.
      apply (co_infinity c tu kw nums _ n (v1 ++ v2 ++ tail) (v2 ++ tail) tail r); auto; [now exists v1| |now exists v2].
      intros [B|B]; (destruct v2 as [|y v2]; [discriminate|]); [discriminate|]. cbn in B.
      assert (K : kend y = false) by (apply (inf_bytes (v1 ++ y :: v2)); [now right|]; apply in_or_app; right; now left).
      apply kend_not in K. rewrite (pm_delimiters _ _ _ _ PM) in B. destruct K. congruence.
  - destruct Hf as (Ht & Hc). assert (Hi : identifier tu kw nums id) by (right; left; exists k; split; [exact Hk|congruence]).
    destruct (word_facts id tail Hi Ht) as (F1 & F2 & F3 & F4 & F5 & F6).
    apply (co_keyword c tu kw nums _ n (id ++ tail) u m tail r); auto; [now apply sign_part_signed|]. exists k, id. auto.
  - specialize (Hn eq_refl). pose proof (unit_written q u m tail r Hq Hf Hn) as MU. destruct Hf as (Ht & Hc).
    destruct (unit_part_id q u m tail Hq Ht) as (id & t & Eq & Hi & Hst). rewrite Eq in *.
    destruct (word_facts id t (or_introl Hi) Hst) as (F1 & F2 & F3 & F4 & F5 & F6).
    apply (co_unit c tu kw nums _ n (id ++ t) u m r); auto; [now apply sign_part_signed|].
    apply multi_keyword_none; [exact Hst|now left|]. intros k Ek. destruct (u_get k id) eqn:G; [|reflexivity]. exfalso. apply Hi.
    apply (pe_keywords _ _ _ _ PE k id Ek). congruence.
  - specialize (Hn eq_refl). pose proof (unit_written q u m tail r Hq Hf Hn) as MU. destruct Hf as (Ht & Hc).
    destruct (unit_part_id q u m tail Hq Ht) as (idu & t & Eq & Hu & Hst).
    destruct (word_facts idu t (or_introl Hu) Hst) as (G1 & G2 & G3 & G4 & G5 & G6). rewrite Eq in *.
    assert (Hi : identifier tu kw nums id) by (right; right; exists f; split; [exact Hfn|congruence]).
    pose proof (delim_stops ds (idu ++ t) Nd Hd) as St. destruct (word_facts id (ds ++ idu ++ t) Hi St) as (F1 & F2 & F3 & F4 & F5 & F6).
    destruct (pe_numerals _ _ _ _ PE f id Hfn ltac:(congruence)) as ((_ & PW) & Nu).
    apply (co_numeral c tu kw nums _ n (id ++ ds ++ idu ++ t) num (idu ++ t) u m r); auto; [now apply sign_part_signed| | |].
    + apply multi_keyword_none; [exact St|exact Hi|]. intros k Ek. destruct (u_get k id) eqn:G; [|reflexivity].
      rewrite (pm_tables _ _ _ _ PM k f id Ek Hfn) in E; [discriminate|congruence].
    + intros _ L. apply like_id in L; [contradiction|apply id_word, Hi|exact St].
    + exists f, id, (ds ++ idu ++ t), ds. split; [exact Hfn|]. split; [|split; [exact F6|split; [exact E|split; [now apply span_delims|split; [exact Nd|exact G1]]]]].
      split; [reflexivity|]. split; [intros x Hx; now rewrite PW|]. destruct ds as [|x ds]; [contradiction|]. cbn. now rewrite (Hd x (or_introl eq_refl)).
Qed.
Lemma follows_end e : follows e [] [].
Proof.
  assert (N : next_component c [] []) by (apply nc_adjacent; exact I).
  destruct e as [p| |]; [|split; [now left|exact N]|split; [now left|exact N]]. split.
  - split; [exact I|]. split; intros [].
  - exists []. split; [|split; [|exact N]].
    + destruct (c_allow_time_unit_delimiter c) eqn:E; [|now constructor]. apply (some_unit_delimiter c _ []); auto. split; [reflexivity|]. split; [intros x []|exact I].
    + intros (w & l1 & (E & _) & Nw & _). destruct w; [contradiction|discriminate].
Qed.
Lemma no_ago_nil : no_ago [].
Proof.
  split; [|intros _ [H _]; contradiction]. intros r (_ & ds & a & (E & _) & N & _). destruct ds; [contradiction|discriminate].
Qed.
Lemma follows_after e tail r : follows e tail r -> after e tail.
Proof. destruct e as [p| |]; [intros _; exact I|intros [H _]; exact H|intros [H _]; now apply delimited_stops]. Qed.
Lemma written_components s bare ds : durations_text c tu kw nums s bare ds ->
  components c tu kw nums s ds /\ next_ok s /\ (bare = false -> ~ multi_unit_like c tu s).
Proof.
  induction 1 as [p bare e d H|p bare e d sep x r bare' ds H Hb Hr (IH1 & IH2 & IH3)].
  - pose proof (od_component p bare e d [] [] H (follows_end e) (fun _ => no_ago_nil)) as Hc.
    pose proof (od_next p bare e d [] H (follows_after e [] [] (follows_end e))) as Hn. rewrite app_nil_r in Hc, Hn. split; [now constructor|exact Hn].
  - destruct (connect e sep bare' x r Hb IH2 IH3) as (Hf & Ha). split.
    + apply (cs_more c tu kw nums _ d (x :: r) ds); [now apply (od_component p bare e)|discriminate|exact IH1].
    + apply (od_next p bare e d); [exact H|now apply follows_after in Hf].
Qed.

(** ** reading is writing *)
Lemma until_stops l w r : until (unit_end c) l w r -> l = w ++ r /\ stops r.
Proof.
  intros H. apply unit_until in H. destruct H as (-> & _ & H). split; [reflexivity|]. destruct r as [|x r]; [now left|]. right. cbn in *. now apply negb_false_iff.
Qed.
Lemma unit_read l u m r : multi_unit c tu l u m r -> exists q tail, l = q ++ tail /\ unit_part c tu q u m /\ follows AfterWord tail r.
Proof.
  intros [l' w l1 u' m' r' U N G A1 A2 Hn|l' w l1 l2 u' m' r' U N G (Ha & ds & a & (-> & Hd & _) & Nd & (v & -> & Hv) & Hr) Hn]; destruct (until_stops _ _ _ U) as (-> & St).
  - exists w, l1. split; [reflexivity|]. split; [now constructor|]. now split.
  - exists (w ++ ds ++ v), l2. rewrite <- !app_assoc. split; [reflexivity|]. split; [|split; [exact Hr|exact Hn]]. now constructor.
Qed.
Lemma component_read s d r : component c tu kw nums s d r ->
  exists p bare e tail, s = p ++ tail /\ one_duration c tu kw nums p bare e d /\ (bare = true -> multi_unit_like c tu s) /\ follows e tail r.
Proof.
  intros [s' n l W F x r' l1 H1 H2 H3 H4|s' n l W F x l1 u m r' H1 H2 H3 H4|s' n l l1 r' H1 H2 (v & -> & H3) H4 H5|s' n l l0 l1 r' H1 H2 (v & -> & H3) H4 (v2 & -> & H5) H6 H7
    |s' n l u m l1 r' H1 H2 (k & w & Ek & U & Nw & G) H4|s' n l u m r' H1 H2 H3 H4 H5|s' n l num l1 u m r' H1 H2 H3 H4 H5 H6];
    destruct (signed_sign_part _ _ _ _ H1) as (sg & -> & Hs).
  - destruct (number_written _ _ _ _ _ H2) as (p & t & -> & Hp & He & Hu). exists (sg ++ p), false, (AfterNumber p), t. rewrite <- app_assoc.
    split; [reflexivity|]. split; [now constructor|]. split; [discriminate|]. split; [exact He|]. exists l1. split; [exact Hu|]. split; [|exact H4].
    destruct H3 as [H3|H3]; [|exact H3]. intros L. apply like_filled in L. congruence.
  - destruct (number_number_part _ _ _ _ _ _ H2) as (p & ds & -> & Hp & Hd & Ha & _). destruct (unit_read _ _ _ _ H4) as (q & tail & -> & Hq & Hf).
    exists (sg ++ p ++ ds ++ q), false, AfterWord, tail. rewrite <- !app_assoc. split; [reflexivity|]. split; [now constructor|]. split; [discriminate|exact Hf].
  - exists (sg ++ v), false, AfterInfinity, l1. rewrite <- app_assoc. split; [reflexivity|]. split; [constructor; auto|]. split; [discriminate|]. now split.
  - exists (sg ++ v ++ v2), false, AfterInfinity, l1. rewrite <- !app_assoc. split; [reflexivity|]. split; [|split; [discriminate|now split]].
    constructor; auto. right. exact (nocase_app v (%"inf") v2 (%"inity") H3 H5).
  - destruct U as (-> & _ & Hr). exists (sg ++ w), false, AfterWord, l1. rewrite <- app_assoc. split; [reflexivity|]. split; [now apply (od_keyword c tu kw nums sg n k)|].
    split; [discriminate|]. split; [|exact H4]. destruct l1 as [|x l1]; [now left|]. right. cbn in *. now apply negb_false_iff.
  - pose proof H5 as L. apply multi_unit_is_like in L. destruct (unit_read _ _ _ _ H5) as (q & tail & -> & Hq & Hf).
    exists (sg ++ q), (match sg with [] => true | _ => false end), AfterWord, tail. rewrite <- app_assoc. split; [reflexivity|]. split; [now constructor|]. split; [|exact Hf].
    destruct sg; [intros _; exact L|discriminate].
  - destruct H5 as (f & w & l2 & ds & Ef & (-> & _ & _) & Nw & E & (-> & Hd & _) & Nd & Nr). destruct (unit_read _ _ _ _ H6) as (q & tail & -> & Hq & Hf).
    exists (sg ++ w ++ ds ++ q), false, AfterWord, tail. rewrite <- !app_assoc. split; [reflexivity|]. split; [now apply (od_numeral c tu kw nums sg n f)|]. split; [discriminate|exact Hf].
Qed.
Lemma connection_between e l x r bare : connection c l (x :: r) -> (forall p, e = AfterNumber p -> c_allow_time_unit_delimiter c = false) ->
  exists sep, l = sep ++ x :: r /\ between c e sep bare x.
Proof.
  assert (D : forall ds, (forall y, In y ds -> outer y = true) -> delimiters c ds) by (intros ds H y Hy; rewrite <- (pm_delimiters _ _ _ _ PM); auto).
  intros H Ht. inversion H as [l' ds r' (E & Hd & _) Nd Nr Nw|l' ds y ws1 w ws2 z r' (E & Hd & _) Nd Ny Ew Hw1 (v & Ey & Hv) Hz]; subst.
  - exists ds. split; [reflexivity|]. apply b_delimiters; auto. intros p Ee Et. rewrite (Ht p Ee) in Et. discriminate.
  - assert (Iw : In w (words c)) by (change (In w (conjunctions c)); rewrite Ew; apply in_or_app; right; now left).
    destruct Hz as [(Z1 & Z2 & Z3)|(ds2 & (Z1 & Z2 & _) & Z3 & Z4)]; subst z.
    + exists (ds ++ v ++ []). split; [now rewrite app_nil_r, <- app_assoc|]. apply (b_conjunction c e ds v w []); [exact Nd|now apply D|exact Iw|exact Hv|intros ? []| |exact Ht].
      intros _. cbn in Z2. unfold starts_duration, is_digit, is_sign in Z2. unfold digit_or_sign. lia.
    + exists (ds ++ v ++ ds2). rewrite <- !app_assoc. split; [reflexivity|]. apply (b_conjunction c e ds v w ds2); auto. intros ->. contradiction.
Qed.
Lemma connection_outer l r : connection c l r -> starts_with outer l.
Proof.
  intros [l' ds r' (-> & Hd & _) Nd Nr Nw|l' ds y ws1 w ws2 z r' (-> & Hd & _) Nd Ny Ew Hw1 Hv Hz]; (destruct ds as [|x ds]; [contradiction|]); apply Hd; now left.
Qed.
Lemma outer_not_inner l : starts_with outer l -> starts_not inner l -> False.
Proof. destruct l; [intros []|]. cbn. rewrite (pm_delimiters _ _ _ _ PM). congruence. Qed.
Lemma connection_not_nil l : ~ connection c l [].
Proof. intros H. inversion H as [l' ds r' _ _ Nr _|l' ds y ws1 w ws2 z r' _ _ _ _ _ _ Hz]; subst; [contradiction|]. destruct Hz as [(_ & Z2 & Z3)|(ds2 & _ & _ & Z4)]; [subst z; destruct Z2|contradiction]. Qed.
Lemma next_nil l : next_component c l [] -> l = [].
Proof. intros H. inversion H as [l' S|l' r' C]; subst; [reflexivity|]. now apply connection_not_nil in C. Qed.
Lemma follows_nil e tail : follows e tail [] -> tail = [].
Proof.
  destruct e as [p| |]; [|intros [_ H]; now apply next_nil|intros [_ H]; now apply next_nil]. intros (_ & l1 & Hu & _ & Hn). apply next_nil in Hn. subst l1.
  inversion Hu as [l E|l ds r E (E1 & _) O]; subst; [reflexivity|]. destruct O as [->|O]; [reflexivity|contradiction].
Qed.
Lemma follows_between e tail x r bare : follows e tail (x :: r) -> (bare = true -> multi_unit_like c tu (x :: r)) -> exists sep, tail = sep ++ x :: r /\ between c e sep bare x.
Proof.
  intros Hf Hl. destruct e as [p| |].
  - destruct Hf as ((E1 & E2 & E3) & l1 & Hu & NL & Hn).
    assert (Bn : l1 = x :: r -> bare = false) by (intros ->; destruct bare; [destruct NL; auto|reflexivity]).
    assert (Num : tail = x :: r -> bare = false -> exists sep, tail = sep ++ x :: r /\ between c (AfterNumber p) sep bare x).
    { intros -> ->. exists []. split; [reflexivity|]. cbn in E1, E2, E3. unfold is_digit, is_dot, is_e in *. constructor; [lia|intros; apply E2; lia|intros; apply E3; lia]. }
    inversion Hu as [l Et|l ds r' Et (E & Hd & Sd) O]; subst.
    + inversion Hn as [l' S|l' r' C]; subst; [apply Num; auto|]. apply connection_between; [exact C|auto].
    + inversion Hn as [l' S|l' r' C]; subst.
      * destruct ds as [|y ds]; [now apply Num; [|apply Bn]|]. exists (y :: ds). split; [reflexivity|]. apply b_delimiters; [discriminate|exact Hd|]. intros; now apply Bn.
      * exfalso. apply connection_outer in C. now apply (outer_not_inner _ C) in Sd.
  - destruct Hf as (Ht & Hn). inversion Hn as [l' S|l' r' C]; subst; [|apply connection_between; [exact C|discriminate]].
    exists []. split; [reflexivity|]. constructor. destruct Ht as [Ht|Ht]; [discriminate|]. cbn in Ht, S. apply kend_iff in Ht. rewrite (pm_delimiters _ _ _ _ PM) in S. destruct Ht; [congruence|assumption].
  - destruct Hf as (Ht & Hn). inversion Hn as [l' S|l' r' C]; subst; [|apply connection_between; [exact C|discriminate]].
    exfalso. destruct Ht as [Ht|Ht]; [discriminate|]. cbn in *. congruence.
Qed.
Lemma components_written s ds : components c tu kw nums s ds ->
  exists bare, durations_text c tu kw nums s bare ds /\ (bare = true -> multi_unit_like c tu s).
Proof.
  induction 1 as [s d H|s d r ds H Nr Hr (bare' & IH1 & IH2)]; destruct (component_read _ _ _ H) as (p & bare & e & tail & -> & Hp & Hl & Hf).
  - apply follows_nil in Hf. subst tail. exists bare. rewrite app_nil_r in *. split; [now apply (dts_last c tu kw nums p bare e)|exact Hl].
  - destruct r as [|x r]; [contradiction|]. destruct (follows_between e tail x r bare' Hf IH2) as (sep & -> & Hb). exists bare.
    split; [now apply (dts_more c tu kw nums p bare e d sep x r bare' ds)|exact Hl].
Qed.
End ManyTexts.

(** C87 *)
Theorem C87_written_texts : forall c tu kw nums s, env_ok c tu kw nums -> delims_ok c kw nums -> plain_many c tu kw nums -> c_allow_multiple c = true -> utf8 s = true ->
  (forall D, parse c s tu kw nums = Ok D -> exists bare ds, durations_text c tu kw nums s bare ds /\ (forall d, In d ds -> sign_allowed c d) /\
     duration_ok D /\ nanos D = saturating_sum ds) /\
  (forall bare ds, durations_text c tu kw nums s bare ds -> (forall d, In d ds -> sign_allowed c d) ->
     exists D, parse c s tu kw nums = Ok D /\ duration_ok D /\ nanos D = saturating_sum ds).
Proof.
  intros c tu kw nums s HE HD PM Hm Us. split.
  - intros D P. destruct (C23_multiple_sound c tu kw nums s D HE HD Us Hm P) as (ds & H & R). destruct (components_written c tu kw nums PM s ds H) as (bare & Hw & _). now exists bare, ds.
  - intros bare ds Hw A. apply C23_multiple_complete; auto. now apply (written_components c tu kw nums PM s bare ds).
Qed.
Print Assumptions C87_written_texts.

(** a text is written in one way only *)
Theorem C87_unique : forall c tu kw nums s b1 ds1 b2 ds2, plain_many c tu kw nums ->
  durations_text c tu kw nums s b1 ds1 -> durations_text c tu kw nums s b2 ds2 -> ds1 = ds2.
Proof.
  intros c tu kw nums s b1 ds1 b2 ds2 PM H1 H2. apply (C23_components_unique c tu kw nums s).
  - now apply (written_components c tu kw nums PM s b1).
  - now apply (written_components c tu kw nums PM s b2).
Qed.
Print Assumptions C87_unique.

(** ** the environment of the examples *)
Lemma ex_in {A} (l : list (str * A)) id : table l id <> None -> In id (map fst l).
Proof.
  unfold table. destruct (find _ l) as [e|] eqn:E; [|congruence]. intros _. apply find_some in E. destruct E as [E1 E2]. apply str_eqb_iff in E2. subst id. now apply in_map.
Qed.
Definition lower (id : str) : Prop := forall x, In x id -> 97 <= x <= 122.
Lemma lower_plain c id : (forall x, c_inner_delimiter c x = is_ascii_whitespace x) -> lower id -> id <> [] -> str_eq_nocase (firstn 3 id) (%"inf") = false -> plain_word c id.
Proof.
  intros HD L N F. split; [split|].
  - destruct id as [|x id]; [contradiction|]. specialize (L x (or_introl eq_refl)). lia.
  - intros x y z r -> _. exact F.
  - intros x Hx. specialize (L x Hx). rewrite HD. unfold is_ascii_whitespace. lia.
Qed.
Definition ex_ids : list str := map fst ex_unit_list ++ map fst ex_keyword_list ++ map fst ex_numeral_list.
Lemma ex_ids_lower id : In id ex_ids -> lower id /\ id <> [] /\ str_eq_nocase (firstn 3 id) (%"inf") = false /\ ~ starts_like (%"and") id /\ str_eq_nocase id (%"ago") = false /\ hd 0 id <> 101.
Proof.
  assert (G : forall i, (forallb (fun x => (97 <=? x) && (x <=? 122)) i && negb (str_eqb i []) && negb (str_eq_nocase (firstn 3 i) (%"inf")) && negb (str_eq_nocase (firstn 3 i) (%"and"))
     && negb (str_eq_nocase i (%"ago")) && negb (hd 0 i =? 101))%bool = true ->
     lower i /\ i <> [] /\ str_eq_nocase (firstn 3 i) (%"inf") = false /\ ~ starts_like (%"and") i /\ str_eq_nocase i (%"ago") = false /\ hd 0 i <> 101).
  { intros i H. repeat (apply andb_true_iff in H; destruct H as [H ?]). rewrite negb_true_iff in *. rewrite forallb_forall in H.
    split; [intros x Hx; specialize (H x Hx); lia|]. split; [intros ->; discriminate|]. split; [assumption|]. split; [|split; [assumption|lia]].
    intros (v & r & -> & Hv). pose proof (str_eq_nocase_length _ _ Hv) as L. destruct v as [|x [|y [|z [|]]]]; try discriminate L. cbn [app firstn] in *. congruence. }
  intros H. apply G. revert id H. assert (A : forallb (fun i => forallb (fun x => (97 <=? x) && (x <=? 122)) i && negb (str_eqb i []) && negb (str_eq_nocase (firstn 3 i) (%"inf")) && negb (str_eq_nocase (firstn 3 i) (%"and"))
     && negb (str_eq_nocase i (%"ago")) && negb (hd 0 i =? 101))%bool ex_ids = true) by (vm_compute; reflexivity).
  rewrite forallb_forall in A. exact A.
Qed.
Lemma ex_plain_many : plain_many ex_multi ex_units (Some ex_keywords) (Some ex_numerals).
Proof.
  assert (U : forall id, u_get ex_units id <> None -> In id (map fst ex_unit_list)) by (intros id; apply (ex_in ex_unit_list)).
  assert (K : forall k id, Some ex_keywords = Some k -> u_get k id <> None -> In id (map fst ex_keyword_list)) by (intros k id [= <-]; apply (ex_in ex_keyword_list)).
  assert (N : forall f id, Some ex_numerals = Some f -> f id <> None -> In id (map fst ex_numeral_list)) by (intros f id [= <-]; apply (ex_in ex_numeral_list)).
  assert (I : forall id, identifier ex_units (Some ex_keywords) (Some ex_numerals) id -> In id ex_ids).
  { intros id [H|[(k & E & H)|(f & E & H)]]; unfold ex_ids; rewrite !in_app_iff; [left; now apply U|right; left; now apply (K k)|right; right; now apply (N f)]. }
  assert (P : forall id, In id ex_ids -> plain_word ex_multi id) by (intros id H; apply ex_ids_lower in H; now apply lower_plain).
  constructor.
  - constructor.
    + intros x H. change (is_ascii_whitespace x = true) in H. unfold is_ascii_whitespace in H. lia.
    + intros id H. split; [reflexivity|]. assert (J : In id ex_ids) by (apply I; now left). split; [now apply P|]. pose proof (ex_ids_lower id J) as (L & L1 & _ & _ & _ & L2).
      split; [exact L2|]. destruct id as [|x id]; [contradiction|]. specialize (L x (or_introl eq_refl)). cbn. lia.
    + intros k id E H. split; [apply P, I; right; left; eauto|]. apply (K k id E) in H. cbn in H. repeat destruct H as [<-|H]; try contradiction; reflexivity.
    + intros f id E H. split; [apply P, I; right; right; eauto|]. apply (N f id E) in H. cbn in H. repeat destruct H as [<-|H]; try contradiction; reflexivity.
  - reflexivity.
  - intros id H x Hx. apply I, ex_ids_lower in H. destruct H as (L & _). specialize (L x Hx). unfold digit_or_sign. lia.
  - intros k f id Ek Ef H. apply (K k id Ek) in H. injection Ef as <-. cbn in H. repeat destruct H as [<-|H]; try contradiction; reflexivity.
  - intros w [<-|[]]. split; [discriminate|]. split; [discriminate|]. intros x Hx. cbn in Hx. unfold digit_or_sign. repeat destruct Hx as [<-|Hx]; try contradiction; (split; [lia|reflexivity]).
  - intros w id [<-|[]] [H|[_ ->]]; [now apply I, ex_ids_lower in H|]. intros (v & r & E & Hv). pose proof (str_eq_nocase_length _ _ Hv) as L.
    destruct v as [|x [|y [|z [|]]]]; try discriminate L. injection E as <- <- <- _. discriminate Hv.
  - intros w w' [<-|[]] [<-|[]] _. reflexivity.
  - intros id [H|[<-|[]]] _; [now apply I, ex_ids_lower in H|reflexivity].
Qed.
(** `2min AGO AND next s3 yesterday`: -120s, 1s, 3s, -86400s *)
Example C87_written_texts_example : exists D, parse ex_multi (%"2min AGO AND next s3 yesterday") ex_units (Some ex_keywords) (Some ex_numerals) = Ok D /\
  duration_ok D /\ nanos D = -86516000000000.
Proof.
  set (E := durations_text ex_multi ex_units (Some ex_keywords) (Some ex_numerals)).
  assert (D : delimiters ex_multi (%" ")) by (intros x; cbn; intros [<-|[]]; reflexivity).
  assert (N : forall x, 48 <= x <= 57 -> number_part ex_multi [x] [x] [] 0).
  { intros x Hx. apply (np ex_multi [x] [] [] [] 0); [intros y [<-|[]]; exact Hx|constructor|discriminate|constructor|congruence|congruence]. }
  assert (E1 : E (%"yesterday") false [unit_value false Day (Mul (-1) 0)]).
  { apply (dts_last _ _ _ _ (%"yesterday") false AfterWord). apply (od_keyword _ _ _ _ [] false ex_keywords (%"yesterday")); [constructor|reflexivity|reflexivity]. }
  assert (E2 : E (%"3 yesterday") false [number_value false (%"3") [] 0 Second default_multiplier; unit_value false Day (Mul (-1) 0)]).
  { apply (dts_more ex_multi ex_units (Some ex_keywords) (Some ex_numerals) (%"3") false (AfterNumber (%"3")) (number_value false (%"3") [] 0 Second default_multiplier) (%" ") 121 (%"esterday") false); [|now apply b_delimiters|exact E1].
    apply (od_number ex_multi ex_units (Some ex_keywords) (Some ex_numerals) [] false (%"3")); [constructor|]. apply N. vm_compute. split; discriminate. }
  assert (E3 : E (%"next s3 yesterday") false [numeral_value false (Mul 1 0) Second (Mul 1 0); number_value false (%"3") [] 0 Second default_multiplier; unit_value false Day (Mul (-1) 0)]).
  { apply (dts_more ex_multi ex_units (Some ex_keywords) (Some ex_numerals) (%"next s") false AfterWord (numeral_value false (Mul 1 0) Second (Mul 1 0)) [] 51 (%" yesterday") false); [|constructor; unfold digit_or_sign; lia|exact E2].
    apply (od_numeral ex_multi ex_units (Some ex_keywords) (Some ex_numerals) [] false ex_numerals (%"next") (Mul 1 0) (%" ") (%"s")); [constructor|reflexivity|reflexivity|discriminate|exact D|]. now constructor. }
  assert (E4 : E (%"2min AGO AND next s3 yesterday") false [number_value false (%"2") [] 0 Minute (mul_saturating_neg (Mul 1 0)); numeral_value false (Mul 1 0) Second (Mul 1 0); number_value false (%"3") [] 0 Second default_multiplier; unit_value false Day (Mul (-1) 0)]).
  { apply (dts_more ex_multi ex_units (Some ex_keywords) (Some ex_numerals) (%"2min AGO") false AfterWord (number_value false (%"2") [] 0 Minute (mul_saturating_neg (Mul 1 0))) (%" AND ") 110 (%"ext s3 yesterday") false); [| |exact E3].
    - apply (od_number_unit ex_multi ex_units (Some ex_keywords) (Some ex_numerals) [] false (%"2") (%"2") [] 0 [] (%"min AGO")); [constructor|apply N; vm_compute; split; discriminate|intros x []|congruence|].
      apply (up_ago ex_multi ex_units (%"min") Minute (Mul 1 0) (%" ") (%"AGO")); [reflexivity|reflexivity|discriminate|exact D|reflexivity].
    - apply (b_conjunction ex_multi AfterWord (%" ") (%"AND") (%"and") (%" ") false 110); [discriminate|exact D|now left|reflexivity|exact D|discriminate|discriminate]. }
  destruct (C87_written_texts ex_multi ex_units (Some ex_keywords) (Some ex_numerals) (%"2min AGO AND next s3 yesterday") ex_env_multi ex_delims_multi ex_plain_many eq_refl eq_refl) as (_ & H).
  destruct (H _ _ E4) as (R & H1 & H2 & H3); [intros d _; now left|]. exists R. split; [exact H1|]. split; [exact H2|]. rewrite H3. reflexivity.
Qed.

Lemma plain_many_standard l c table : config_ok c -> default_table l table ->
  (forall x, c_inner_delimiter c x = true -> ~ 48 <= x <= 57 /\ x <> 46 /\ x <> 43 /\ x <> 45 /\ ~ 65 <= x <= 90 /\ ~ 97 <= x <= 122) ->
  (forall x, c_outer_delimiter c x = c_inner_delimiter c x) ->
  (forall w, In w (words c) -> w <> [] /\ (forall x, In x w -> 65 <= x <= 90 \/ 97 <= x <= 122) /\ str_eq_nocase w (%"ago") = false /\
     (forall u, ~ starts_like w (default_identifier u)) /\ (c_disable_infinity c = false -> ~ starts_like w (%"infinity")) /\
     (forall w', In w' (words c) -> starts_like w w' -> length w = length w')) ->
  plain_many c table None None.
Proof.
  intros HC T HI HO HW.
  destruct (default_table_ext l table T) as [T1 T2].
  assert (Id : forall id, u_get table id <> None -> exists u, id = default_identifier u).
  { intros id H. destruct (u_get table id) as [[u m]|] eqn:E; [|congruence]. apply (proj1 T) in E. exists u. apply E. }
  assert (L : forall u x, In x (default_identifier u) -> 65 <= x <= 90 \/ 97 <= x <= 122).
  { intros u x Hx. destruct u; vm_compute in Hx; repeat (destruct Hx as [<-|Hx]; [lia|]); destruct Hx. }
  constructor; try discriminate; auto.
    - destruct (plain_standard l c HC HI) as [Q1 Q2 Q3 Q4]. constructor; try discriminate; [exact Q1|]. intros id H. rewrite <- T2. apply Q2. now rewrite T1.
    - intros id [H|[(k & E & _)|(f & E & _)]] x Hx; try discriminate. destruct (Id id H) as (u & ->). apply L in Hx. unfold digit_or_sign. lia.
    - intros w Hw. destruct (HW w Hw) as (W1 & W2 & _). split; [exact W1|]. split.
      + destruct w as [|x w]; [contradiction|]. specialize (W2 x (or_introl eq_refl)). cbn. lia.
      + intros x Hx. specialize (W2 x Hx). unfold digit_or_sign. split; [lia|]. destruct (c_inner_delimiter c x) eqn:E; [|reflexivity]. specialize (HI x E). lia.
    - intros w id Hw H. destruct (HW w Hw) as (W1 & W2 & W3 & W4 & W5 & W6). destruct H as [[H|[(k & E & _)|(f & E & _)]]|(E & ->)]; try discriminate; [|auto].
      destruct (Id id H) as (u & ->). apply W4.
    - intros w w' H1 H2. now apply (HW w H1).
    - intros id [[H|[(k & E & _)|(f & E & _)]]|H] _; try discriminate; [|now apply HW]. destruct (Id id H) as (u & ->). destruct u; reflexivity.
Qed.
(** ** the standard parser, with any of the time units, any settings and any conjunctions of letters which are not mistaken for something else *)
Theorem C87_standard : forall l ss table s, let p := fold_left dp_set ss (dp_with_time_units l) in let c := dp_config p in
  config_ok c -> utf8 s = true -> c_allow_multiple c = true -> default_table l table ->
  (forall x, c_inner_delimiter c x = true -> ~ 48 <= x <= 57 /\ x <> 46 /\ x <> 43 /\ x <> 45 /\ ~ 65 <= x <= 90 /\ ~ 97 <= x <= 122) ->
  (forall x, c_outer_delimiter c x = c_inner_delimiter c x) ->
  (forall w, In w (words c) -> w <> [] /\ (forall x, In x w -> 65 <= x <= 90 \/ 97 <= x <= 122) /\ str_eq_nocase w (%"ago") = false /\
     (forall u, ~ starts_like w (default_identifier u)) /\ (c_disable_infinity c = false -> ~ starts_like w (%"infinity")) /\
     (forall w', In w' (words c) -> starts_like w w' -> length w = length w')) ->
  (forall D, dp_parse p s = Ok D -> exists bare ds, durations_text c table None None s bare ds /\ (forall d, In d ds -> sign_allowed c d) /\
     duration_ok D /\ nanos D = saturating_sum ds) /\
  (forall bare ds, durations_text c table None None s bare ds -> (forall d, In d ds -> sign_allowed c d) ->
     exists D, dp_parse p s = Ok D /\ duration_ok D /\ nanos D = saturating_sum ds).
Proof.
  intros l ss table s p c HC U Hm T HI HO HW.
  pose proof (plain_many_standard l c table HC T HI HO HW) as PM.
  destruct (C31_multiple_durations l ss table s HC U Hm T) as (S1 & S2). split.
  - intros D P. destruct (S1 D P) as (ds & H & R). destruct (components_written c table None None PM s ds H) as (bare & Hw & _). now exists bare, ds.
  - intros bare ds Hw A. apply S2; auto. now apply (written_components c table None None PM s bare ds).
Qed.
Print Assumptions C87_standard.
(** two texts which are accepted with the conjunction `and`, and the theorem applied to the first one *)
Example C87_standard_example : let p := fold_left dp_set [Set_parse_multiple true (Some [%"and"]); Set_allow_negative true] (dp_with_time_units [Hour; Minute; Second]) in
  dp_parse p (%"1h and -30m") = Ok (Dur false (Std 1800 0)) /\ dp_parse p (%"1h And30m2s 1") = Ok (Dur false (Std 5403 0)) /\
  exists bare ds, durations_text (dp_config p) (std_units (units_with [Hour; Minute; Second])) None None (%"1h and -30m") bare ds /\ saturating_sum ds = 1800000000000.
Proof.
  intros p. assert (P : dp_parse p (%"1h and -30m") = Ok (Dur false (Std 1800 0))) by reflexivity. split; [exact P|]. split; [reflexivity|].
  set (l := [Hour; Minute; Second]) in *. set (ss := [Set_parse_multiple true (Some [%"and"]); Set_allow_negative true]) in *.
  destruct (C87_standard l ss (std_units (units_with l)) (%"1h and -30m")) as (H & _).
  - split; [exact ws_ascii|]. split; [exact ws_ascii|]. intros c w E H. injection E as <-. destruct H as [<-|[]]. reflexivity.
  - reflexivity.
  - reflexivity.
  - split; [exact (C31_lookup l)|exact (C31_is_empty l)].
  - intros x H. change (is_ascii_whitespace x = true) in H. unfold is_ascii_whitespace in H. lia.
  - reflexivity.
  - intros w [<-|[]]. split; [discriminate|]. split; [each|]. split; [reflexivity|].
    assert (G : forall t, str_eq_nocase (firstn 3 t) (%"and") = false -> ~ starts_like (%"and") t).
    { intros t F (v & r & -> & Hv). pose proof (str_eq_nocase_length _ _ Hv) as L. destruct v as [|x [|y [|z [|]]]]; try discriminate L. cbn [app firstn] in F. congruence. }
    split; [intros u; apply G; destruct u; reflexivity|]. split; [intros _; apply G; reflexivity|]. intros w' [<-|[]] _. reflexivity.
  - destruct (H _ P) as (bare & ds & H1 & _ & _ & H2). exists bare, ds. split; [exact H1|]. rewrite <- H2. reflexivity.
Qed.
