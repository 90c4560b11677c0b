(** * Property C105: the check of the fuzz target for relative times, for every input *)
From Verif Require Import Prelude Util Time Config Bytes Repr Parse SpecTime SpecNum SpecGrammar SpecSystemd
  Utf8Proofs SystemdProofs SpellProofs SpecGnu Gnu GnuWords GnuGrammar PropGnu PropGnuOrder SpecGnuErrors PropGnuErrors
  PropTexts SpecRegex SpecFuzz PropFuzz SpecGnuTexts PropGnuTexts PropExamplesMore SpecGnuFuzz.

(** the expressions in parts have the source texts of the target *)
Theorem C105_source : %"^" ++ source main_gnu ++ %"$" = main_source /\ source control_regex = control_source /\ source fraction_control = fraction_control_source.
Proof. split; [|split]; vm_compute; reflexivity. Qed.
Print Assumptions C105_source.

(** ** what the parts match *)
Definition captures_nothing (r : regex) (P : str -> Prop) : Prop := forall s k, matches (caseless r) s k <-> P s /\ k = [].

Lemma cn_group r P : captures_nothing r P -> captures_nothing (Group r) P.
Proof. intros H s k. exact (H s k). Qed.
Lemma cn_or a b P Q : captures_nothing a P -> captures_nothing b Q -> captures_nothing (Or a b) (fun s => P s \/ Q s).
Proof. intros A B s k. cbn [caseless matches]. rewrite (A s k), (B s k). tauto. Qed.
Lemma cn_then a b P Q : captures_nothing a P -> captures_nothing b Q ->
  captures_nothing (Then a b) (fun s => exists s1 s2, s = s1 ++ s2 /\ P s1 /\ Q s2).
Proof.
  intros A B s k. cbn [caseless matches]. split.
  - intros (s1 & s2 & k1 & k2 & -> & -> & H1 & H2). apply A in H1. apply B in H2. destruct H1 as [H1 ->], H2 as [H2 ->]. split; [|reflexivity]. eauto.
  - intros [(s1 & s2 & -> & H1 & H2) ->]. exists s1, s2, [], []. split; [reflexivity|]. split; [reflexivity|]. split; [now apply A|now apply B].
Qed.
Lemma cn_maybe r P : captures_nothing r P -> captures_nothing (Maybe r) (fun s => s = [] \/ P s).
Proof. intros H s k. cbn [caseless matches]. rewrite (H s k). tauto. Qed.
Lemma cn_ext r P Q : captures_nothing r P -> (forall s, P s <-> Q s) -> captures_nothing r Q.
Proof. intros H E s k. rewrite (H s k), (E s). tauto. Qed.
Lemma cn_class t p (q : Z -> Prop) : (forall x, p x || p (other_case x) = true <-> q x) ->
  captures_nothing (Class t p) (fun s => exists x, s = [x] /\ q x) /\
  captures_nothing (Many (Class t p)) (fun s => forall x, In x s -> q x) /\
  captures_nothing (Some_ (Class t p)) (fun s => s <> [] /\ forall x, In x s -> q x).
Proof.
  intros H. split; [|split]; intros s k.
  - cbn [caseless matches]. split; intros [(x & -> & Hx) ->]; (split; [|reflexivity]); exists x; (split; [reflexivity|now apply H]).
  - change (matches (caseless (Many (Class t p))) s k) with (matches (Many (Class t (fun x => p x || p (other_case x)))) s k). rewrite many_class.
    split; intros [K ->]; (split; [|reflexivity]); intros x Hx; apply H, K, Hx.
  - change (matches (caseless (Some_ (Class t p))) s k) with (matches (Some_ (Class t (fun x => p x || p (other_case x)))) s k). rewrite some_class.
    split; [intros (N & K & ->)|intros [[N K] ->]]; repeat split; try assumption; intros x Hx; apply H, K, Hx.
Qed.
Lemma other_case_out x : ~ 97 <= x <= 122 -> ~ 65 <= x <= 90 -> other_case x = x.
Proof. intros H1 H2. unfold other_case. destruct ((97 <=? x) && (x <=? 122)) eqn:E; [lia|]. destruct ((65 <=? x) && (x <=? 90)) eqn:E2; [lia|reflexivity]. Qed.
Lemma other_case_in x : 97 <= x <= 122 \/ 65 <= x <= 90 -> 97 <= other_case x <= 122 \/ 65 <= other_case x <= 90.
Proof. intros H. unfold other_case. destruct ((97 <=? x) && (x <=? 122)) eqn:E; [lia|]. destruct ((65 <=? x) && (x <=? 90)) eqn:E2; lia. Qed.
Lemma folded p (q : Z -> Prop) : (forall x, p x = true <-> q x) -> (forall x, q x -> ~ 97 <= x <= 122 /\ ~ 65 <= x <= 90) ->
  forall x, p x || p (other_case x) = true <-> q x.
Proof.
  intros H N x. rewrite orb_true_iff, !H. split; [|tauto]. intros [K|K]; [exact K|]. destruct (N _ K) as [N1 N2].
  assert (97 <= x <= 122 \/ 65 <= x <= 90 \/ (~ 97 <= x <= 122 /\ ~ 65 <= x <= 90)) as [D|[D|[D1 D2]]] by lia.
  - destruct (other_case_in x (or_introl D)); lia.
  - destruct (other_case_in x (or_intror D)); lia.
  - now rewrite (other_case_out x D1 D2) in K.
Qed.
Definition a_digit (x : Z) : Prop := 48 <= x <= 57.
Lemma digit_cases : forall x, is_digit x || is_digit (other_case x) = true <-> a_digit x.
Proof. apply folded; unfold a_digit; intros x; [unfold is_digit; lia|lia]. Qed.
Lemma delim_cases : forall x, fuzz_delimiter x || fuzz_delimiter (other_case x) = true <-> white x.
Proof. apply folded; unfold white; intros x; [unfold fuzz_delimiter; lia|lia]. Qed.
Lemma sign_cases : forall x, is_sign x || is_sign (other_case x) = true <-> (x = 43 \/ x = 45).
Proof. apply (folded is_sign (fun x => x = 43 \/ x = 45)); intros x; [unfold is_sign; lia|lia]. Qed.
Lemma point_cases : forall x, (x =? 46) || (other_case x =? 46) = true <-> x = 46.
Proof. apply (folded (fun x => x =? 46) (fun x => x = 46)); intros x; lia. Qed.

Lemma cn_words ws : ws <> [] -> forallb small ws = true -> captures_nothing (words ws) (fun s => exists v, In v ws /\ str_eq_nocase s v = true).
Proof.
  unfold words. intros N S. apply cn_group. induction ws as [|w ws IH]; [contradiction|]. cbn [forallb] in S. apply andb_true_iff in S. destruct S as [Sw S].
  destruct ws as [|v ws].
  - intros s k. cbn [one_of caseless]. rewrite (letters_match w Sw). split.
    + intros [H ->]. split; [|reflexivity]. exists w. split; [now left|exact H].
    + intros [(v & [<-|[]] & H) ->]. tauto.
  - change (captures_nothing (Or (Text w) (one_of (v :: ws))) (fun s => exists v0, In v0 (w :: v :: ws) /\ str_eq_nocase s v0 = true)).
    specialize (IH ltac:(discriminate) S). eapply cn_ext; [apply cn_or; [|exact IH]; intros s k; cbn [caseless]; exact (letters_match w Sw s k)|].
    intros s. cbn beta. split.
    + intros [H|(x & I & H)]; [exists w; split; [now left|exact H]|exists x; split; [now right|exact H]].
    + intros (x & [<-|I] & H); [now left|right; eauto].
Qed.
Lemma listed (l l' : list str) : forallb (fun v => existsb (str_eqb v) l') l = true -> incl l l'.
Proof.
  intros H v I. rewrite forallb_forall in H. specialize (H v I). apply existsb_exists in H. destruct H as (w & Iw & E). apply str_eqb_eq in E. now subst.
Qed.
Lemma table_words {A} (t : list (A * list str)) (l : list str) (s : str) : incl l (List.concat (map snd t)) -> incl (List.concat (map snd t)) l ->
  (exists v, In v l /\ str_eq_nocase s v = true) <-> exists a, word_for t s a.
Proof.
  intros H1 H2. split.
  - intros (v & I & E). apply H1 in I. apply in_concat in I. destruct I as (ws & I & Iv). apply in_map_iff in I. destruct I as ([a ws'] & <- & I).
    exists a, ws', v. auto.
  - intros (a & ws & v & I & Iv & E). exists v. split; [|exact E]. apply H2, in_concat. exists ws. split; [|exact Iv]. apply in_map_iff. exists (a, ws). auto.
Qed.
Ltac by_list := apply table_words; apply listed; vm_compute; reflexivity.
Lemma cn_units : captures_nothing (words unit_words) (fun s => exists g, word_for gnu_units s g).
Proof. eapply cn_ext; [apply cn_words; [discriminate|reflexivity]|]. intros s. by_list. Qed.
Lemma cn_numerals : captures_nothing (words numeral_words) (fun s => exists k, word_for gnu_numerals s k).
Proof. eapply cn_ext; [apply cn_words; [discriminate|reflexivity]|]. intros s. by_list. Qed.
Lemma cn_keywords : captures_nothing (words keyword_words) (fun s => exists k, word_for gnu_keywords s k).
Proof. eapply cn_ext; [apply cn_words; [discriminate|reflexivity]|]. intros s. by_list. Qed.
Lemma cn_not_sec : captures_nothing (words not_sec_words) (fun s => exists g, word_for gnu_units s g /\ g <> Seconds 1).
Proof.
  eapply cn_ext; [apply cn_words; [discriminate|reflexivity]|]. intros s.
  assert (T : (exists v, In v not_sec_words /\ str_eq_nocase s v = true) <-> exists g, word_for (tl gnu_units) s g) by by_list. rewrite T. clear T.
  assert (N : forall a ws, In (a, ws) (tl gnu_units) -> a <> Seconds 1).
  { intros a ws I. cbn in I. repeat (destruct I as [[= <- _]|I]; [discriminate|]). destruct I. }
  split.
  - intros (g & ws & v & I & Iv & E). exists g. split; [exists ws, v; split; [now right|auto]|exact (N g ws I)].
  - intros (g & (ws & v & [[= <- _]|I] & Iv & E) & Ng); [contradiction|]. exists g, ws, v. auto.
Qed.
Lemma cn_delims : captures_nothing (Many delim) white_space /\ captures_nothing (Some_ delim) (fun s => s <> [] /\ white_space s).
Proof. exact (proj2 (cn_class _ _ _ delim_cases)). Qed.
Lemma cn_digits : captures_nothing (Some_ digit) (fun s => s <> [] /\ digit_string s).
Proof. exact (proj2 (proj2 (cn_class _ _ _ digit_cases))). Qed.
Lemma cn_point : captures_nothing point (fun s => s = [46]).
Proof. eapply cn_ext; [exact (proj1 (cn_class _ _ _ point_cases))|]. intros s. split; [intros (x & -> & ->); reflexivity|intros ->; now exists 46]. Qed.
Lemma cn_sign : captures_nothing sign_class (fun s => s = [43] \/ s = [45]).
Proof.
  eapply cn_ext; [exact (proj1 (cn_class _ _ _ sign_cases))|]. intros s. split; [intros (x & -> & [->| ->]); tauto|].
  intros [->| ->]; eexists; (split; [reflexivity|tauto]).
Qed.
Lemma cn_signed : captures_nothing signed (fun s => s <> [] /\ exists n, gnu_sign s n).
Proof.
  apply cn_group. eapply cn_ext; [exact (cn_then _ _ _ _ cn_sign (proj1 cn_delims))|]. intros s. split.
  - intros (s1 & s2 & -> & [->| ->] & W); (split; [discriminate|]); [exists false|exists true]; now constructor.
  - intros (N & n & H). destruct H as [|ds W|ds W]; [contradiction|exists [43], ds|exists [45], ds]; auto.
Qed.
Lemma cn_letter x : 97 <= x <= 122 -> captures_nothing (letter x) (fun s => exists y, s = [y] /\ eq_nocase y x = true).
Proof.
  intros Hx. refine (proj1 (cn_class _ _ (fun y => eq_nocase y x = true) _)). intros y. pose proof (letter_nocase_iff x y Hx) as E0. rewrite orb_true_iff, <- E0. clear E0. split; [|tauto]. intros [H|H]; [exact H|]. unfold other_case in H.
  destruct ((97 <=? y) && (y <=? 122)) eqn:E; [lia|]. destruct ((65 <=? y) && (y <=? 90)) eqn:E2; lia.
Qed.
Lemma cn_ago : captures_nothing (SpecFuzz.letters (%"ago")) (fun s => str_eq_nocase s (%"ago") = true).
Proof.
  change (SpecFuzz.letters (%"ago")) with (Then (letter 97) (Then (letter 103) (letter 111))).
  eapply cn_ext; [apply cn_then; [apply cn_letter; lia|apply cn_then; apply cn_letter; lia]|]. intros s. cbn beta. split.
  - intros (? & ? & -> & (x & -> & X) & ? & ? & -> & (y & -> & Y) & (z & -> & Z0)). change (eq_nocase x 97 && (eq_nocase y 103 && (eq_nocase z 111 && true)) = true).
    now rewrite X, Y, Z0.
  - intros H. destruct s as [|x [|y [|z [|u s]]]]; change (%"ago") with [97; 103; 111] in H; cbn [str_eq_nocase] in H; rewrite ?andb_false_r in H; try discriminate H.
    apply andb_true_iff in H. destruct H as [X H]. apply andb_true_iff in H. destruct H as [Y H]. rewrite andb_true_r in H.
    exists [x], [y; z]. split; [reflexivity|]. split; [eauto|]. exists [y], [z]. split; [reflexivity|]. split; eauto.
Qed.
Definition some_ago (s : str) : Prop := exists ds a, s = ds ++ a /\ (ds <> [] /\ white_space ds) /\ str_eq_nocase a (%"ago") = true.
Lemma cn_ago_regex : captures_nothing ago_regex (fun s => s = [] \/ some_ago s).
Proof. apply cn_maybe, cn_group. exact (cn_then _ _ _ _ (proj2 cn_delims) cn_ago). Qed.
Lemma cn_unit_ago : captures_nothing unit_ago (fun s => exists g ago, unit_text s g ago).
Proof.
  eapply cn_ext; [exact (cn_then _ _ _ _ cn_units cn_ago_regex)|]. intros s. split.
  - intros (w & s2 & -> & (g & Hw) & [->|(ds & a & -> & [N W] & A)]).
    + rewrite app_nil_r. exists g, false. now constructor.
    + exists g, true. now constructor.
  - intros (g & ago & [w g0 Hw|w g0 ds a Hw W N A]).
    + exists w, []. rewrite app_nil_r. split; [reflexivity|]. split; [eauto|now left].
    + exists w, (ds ++ a). split; [reflexivity|]. split; [eauto|]. right. exists ds, a. auto.
Qed.
Lemma cn_fraction : captures_nothing fraction (fun s => exists W F, s = W ++ 46 :: F /\ (W <> [] /\ digit_string W) /\ F <> [] /\ digit_string F).
Proof.
  eapply cn_ext; [exact (cn_then _ _ _ _ cn_digits (cn_then _ _ _ _ cn_point cn_digits))|]. intros s. split.
  - intros (W & s2 & -> & HW & p & F & -> & -> & HF). exists W, F. auto.
  - intros (W & F & -> & HW & HF). exists W, (46 :: F). split; [reflexivity|]. split; [exact HW|]. exists [46], F. auto.
Qed.
(** a number, or a number and a time unit *)
Definition number_core (s : str) : Prop :=
  exists num W F, number_text num W F /\ (s = num \/ exists ds q g ago, s = num ++ ds ++ q /\ white_space ds /\ unit_text q g ago).
Lemma cn_numbers : captures_nothing number_alternatives number_core.
Proof.
  eapply cn_ext.
  { apply cn_or; [apply cn_group; exact (cn_then _ _ _ _ cn_digits (cn_then _ _ _ _ (proj1 cn_delims) cn_unit_ago))|].
    apply cn_or; [apply cn_group; exact (cn_then _ _ _ _ cn_fraction (cn_then _ _ _ _ (proj1 cn_delims) cn_unit_ago))|].
    apply cn_or; [apply cn_group, cn_fraction|apply cn_group, cn_digits]. }
  intros s. cbn beta. split.
  - intros [(W & ? & -> & [N D] & ds & q & -> & H & g & ago & Q)|[(? & ? & -> & (W & F & -> & [N D] & N' & D') & ds & q & -> & H & g & ago & Q)|[(W & F & -> & [N D] & N' & D')|[N D]]]].
    + exists W, W, []. split; [now constructor|]. right. exists ds, q, g, ago. auto.
    + exists (W ++ 46 :: F), W, F. split; [now constructor|]. right. exists ds, q, g, ago. auto.
    + exists (W ++ 46 :: F), W, F. split; [now constructor|]. now left.
    + exists s, s, []. split; [now constructor|]. now left.
  - intros (num & W & F & H & [->|(ds & q & g & ago & -> & Hd & Q)]); destruct H as [W D N|W F D N D' N'].
    + right. right. now right.
    + right. right. left. exists W, F. auto.
    + left. exists W, (ds ++ q). split; [reflexivity|]. split; [auto|]. exists ds, q. eauto.
    + right. left. exists (W ++ 46 :: F), (ds ++ q). split; [reflexivity|]. split; [exists W, F; auto|]. exists ds, q. eauto.
Qed.
(** what may follow a sign *)
Inductive core : str -> Prop :=
| co_keyword w k : word_for gnu_keywords w k -> core w
| co_numeral w k ds q g ago : word_for gnu_numerals w k -> white_space ds -> ds <> [] -> unit_text q g ago -> core (w ++ ds ++ q)
| co_unit q g ago : unit_text q g ago -> core q
| co_number c : number_core c -> core c.
Lemma cn_core : captures_nothing alternatives core.
Proof.
  eapply cn_ext.
  { apply cn_or; [exact cn_keywords|]. apply cn_or; [apply cn_group; exact (cn_then _ _ _ _ cn_numerals (cn_then _ _ _ _ (proj2 cn_delims) cn_unit_ago))|].
    apply cn_or; [apply cn_group, cn_unit_ago|exact cn_numbers]. }
  intros s. cbn beta. split.
  - intros [(k & H)|[(w & ? & -> & (k & H) & ds & q & -> & [N D] & g & ago & Q)|[(g & ago & Q)|H]]].
    + now apply (co_keyword s k). + now apply (co_numeral w k ds q g ago). + now apply (co_unit s g ago). + now apply co_number.
  - intros [w k H|w k ds q g ago H D N Q|q g ago Q|c H]; [left; eauto| |right; right; left; eauto|right; right; now right].
    right. left. exists w, (ds ++ q). split; [reflexivity|]. split; [eauto|]. exists ds, q.
    split; [reflexivity|]. split; [auto|]. exists g, ago. exact Q.
Qed.
Lemma cn_duration : captures_nothing duration_regex (fun s => exists sg c n, s = sg ++ c /\ gnu_sign sg n /\ core c).
Proof.
  eapply cn_ext; [exact (cn_then _ _ _ _ (cn_maybe _ _ cn_signed) (cn_group _ _ cn_core))|]. intros s. split.
  - intros (sg & c & -> & [->|(N & n & H)] & C); [exists [], c, false|exists sg, c, n]; (split; [reflexivity|]); split; try exact C; [constructor|exact H].
  - intros (sg & c & n & -> & H & C). exists sg, c. split; [reflexivity|]. split; [|exact C]. destruct sg; [now left|right; split; [discriminate|eauto]].
Qed.
(** a further component: digits, a sign or white space separate it *)
Inductive further : str -> Prop :=
| fu_digit c : number_core c -> further c
| fu_sign sg n c : gnu_sign sg n -> sg <> [] -> core c -> further (sg ++ c)
| fu_white ds sg n c : white_space ds -> ds <> [] -> gnu_sign sg n -> core c -> further (ds ++ sg ++ c).
Inductive furthers : str -> Prop :=
| fs_none : furthers []
| fs_more a b : further a -> furthers b -> furthers (a ++ b).
Lemma cn_main : captures_nothing main_gnu (fun s => exists sg n c r, s = sg ++ c ++ r /\ gnu_sign sg n /\ core c /\ furthers r).
Proof.
  assert (T : captures_nothing (Group (Or (Group (Group number_alternatives)) (Or (Group (Then signed (Group alternatives))) (Group (Then (Some_ delim) (Group duration_regex)))))) further).
  { eapply cn_ext.
    { apply cn_group, cn_or; [apply cn_group, cn_group, cn_numbers|].
      apply cn_or; [apply cn_group; exact (cn_then _ _ _ _ cn_signed (cn_group _ _ cn_core))|apply cn_group; exact (cn_then _ _ _ _ (proj2 cn_delims) (cn_group _ _ cn_duration))]. }
    intros s. cbn beta. split.
    - intros [H|[(sg & c & -> & (N & n & H) & C)|(ds & ? & -> & [N D] & sg & c & n & -> & H & C)]].
      + now constructor. + now apply (fu_sign sg n). + now apply (fu_white ds sg n).
    - intros [c H|sg n c H N C|ds sg n c D N H C]; [now left|right; left; exists sg, c; eauto|].
      right. right. exists ds, (sg ++ c). split; [reflexivity|]. split; [auto|]. exists sg, c, n. auto. }
  set (R := Group (Or (Group (Group number_alternatives)) (Or (Group (Then signed (Group alternatives))) (Group (Then (Some_ delim) (Group duration_regex)))))) in T.
  assert (L : captures_nothing (Lazily R) furthers).
  { intros s k. change (repeated (matches (caseless R)) s k <-> furthers s /\ k = []). split.
    - induction 1 as [|s k s' k' H HR [IH ->]]; [split; constructor|]. apply T in H. destruct H as [H ->]. split; [now constructor|reflexivity].
    - intros [H ->]. induction H as [|a b A B IH]; [constructor|]. change (@nil (str * str)) with (@nil (str * str) ++ []). constructor; [now apply T|exact IH]. }
  apply cn_group. eapply cn_ext; [exact (cn_then _ _ _ _ (cn_group _ _ cn_duration) L)|]. intros s. split.
  - intros (s1 & r & -> & (sg & c & n & -> & H & C) & F). exists sg, n, c, r. rewrite <- app_assoc. auto.
  - intros (sg & n & c & r & -> & H & C & F). exists (sg ++ c), r. rewrite <- app_assoc. split; [reflexivity|]. split; [|exact F]. exists sg, c, n. auto.
Qed.
Lemma main_iff s : matched main_gnu s <-> exists sg n c r, s = sg ++ c ++ r /\ gnu_sign sg n /\ core c /\ furthers r.
Proof. unfold matched. split; [intros (k & H); now apply cn_main in H|intros H; exists []; now apply cn_main]. Qed.

(** ** the texts of the main expression, with joined digits and with units belonging to the numbers in front of them *)
Inductive digit_groups : str -> Prop :=
| dg_one W : W <> [] -> digit_string W -> digit_groups W
| dg_more W l : W <> [] -> digit_string W -> digit_groups l -> digit_groups (W ++ 46 :: l).
Lemma digits_app a b : digit_string a -> digit_string b -> digit_string (a ++ b).
Proof. intros A B x Hx. apply in_app_or in Hx. destruct Hx; auto. Qed.
Lemma groups_app a b : digit_groups a -> digit_groups b -> digit_groups (a ++ b).
Proof.
  intros A B. induction A as [W N D|W l N D _ IH].
  - destruct B as [W' N' D'|W' l' N' D' B].
    + constructor; [destruct W; [contradiction|discriminate]|now apply digits_app].
    + rewrite app_assoc. constructor; [destruct W; [contradiction|discriminate]|now apply digits_app|exact B].
  - rewrite <- app_assoc. cbn [app]. now constructor.
Qed.
Lemma groups_number num W F : number_text num W F -> digit_groups num.
Proof. intros [W0 D N|W0 F0 D N D1 N1]; [now apply dg_one|]. apply dg_more; try assumption. now apply dg_one. Qed.
Lemma groups_start num : digit_groups num -> exists x r, num = x :: r /\ 48 <= x <= 57.
Proof.
  intros [W N D|W l N D _]; (destruct W as [|x W]; [contradiction|]); [exists x, W|exists x, (W ++ 46 :: l)]; (split; [reflexivity|]); apply D; now left.
Qed.
Inductive word_core : str -> Prop :=
| wc_keyword w k : word_for gnu_keywords w k -> word_core w
| wc_numeral w k ds q g ago : word_for gnu_numerals w k -> white_space ds -> ds <> [] -> unit_text q g ago -> word_core (w ++ ds ++ q)
| wc_unit q g ago : unit_text q g ago -> word_core q
| wc_number num ds q g ago : digit_groups num -> white_space ds -> unit_text q g ago -> word_core (num ++ ds ++ q).
Lemma word_core_starts c : word_core c -> starts c.
Proof.
  intros [w k H|w k ds q g ago H _ _ _|q g ago H|num ds q g ago H _ _].
  - apply starts_word; [exact (keyword_letters w k H)|exact (keyword_not_a w k H)].
  - apply starts_app, starts_word; [exact (numeral_letters w k H)|exact (numeral_not_a w k H)].
  - exact (proj1 (unit_text_ok q g ago H)).
  - apply starts_app. destruct (groups_start num H) as (x & r & -> & D). exists x, r. split; [reflexivity|now left].
Qed.
Lemma letters_no_digit w rest : GnuGrammar.letters w -> ~ exists x r, w ++ rest = x :: r /\ 48 <= x <= 57.
Proof. intros [N L] (x & r & E & D). destruct w as [|y w]; [contradiction|]. injection E as -> _. specialize (L x (or_introl eq_refl)). lia. Qed.
Lemma word_core_digit c rest : word_core c -> (exists x r, c ++ rest = x :: r /\ 48 <= x <= 57) ->
  exists num ds q g ago, c = num ++ ds ++ q /\ digit_groups num /\ white_space ds /\ unit_text q g ago.
Proof.
  intros [w k H|w k ds q g ago H _ _ _|q g ago H|num ds q g ago H W Q] D.
  - destruct (letters_no_digit w rest (keyword_letters w k H) D).
  - rewrite <- app_assoc in D. destruct (letters_no_digit w _ (numeral_letters w k H) D).
  - destruct (unit_text_word q g ago H) as (w & r & -> & Hw & _). rewrite <- app_assoc in D. destruct (letters_no_digit w _ (unit_letters w g Hw) D).
  - exists num, ds, q, g, ago. auto.
Qed.
Definition after (word : bool) (sep l : str) : Prop := sep <> [] \/ exists x r, l = x :: r /\ (x = 43 \/ x = 45 \/ word = true /\ 48 <= x <= 57).

Inductive loose : str -> Prop :=
| lo_word_end sg n c : gnu_sign sg n -> word_core c -> loose (sg ++ c)
| lo_word sg n c sep l : gnu_sign sg n -> word_core c -> white_space sep -> after true sep l -> loose l -> loose (sg ++ c ++ sep ++ l)
| lo_number_end sg n num : gnu_sign sg n -> digit_groups num -> loose (sg ++ num)
| lo_number sg n num sep l : gnu_sign sg n -> digit_groups num -> white_space sep -> after false sep l ->
    (forall g ago r, ~ unit_phrase l g ago r) -> loose l -> loose (sg ++ num ++ sep ++ l).
Lemma groups_starts num : digit_groups num -> starts num.
Proof. intros H. destruct (groups_start num H) as (x & r & -> & D). exists x, r. split; [reflexivity|now left]. Qed.
Lemma loose_starts t : loose t -> starts t.
Proof.
  intros [sg n c Hs C|sg n c sep l Hs C _ _ _|sg n num Hs N|sg n num sep l Hs N _ _ _ _]; apply (starts_sign sg n _ Hs); auto using starts_app, word_core_starts, groups_starts.
Qed.
Lemma after_ends sep l : white_space sep -> after true sep l -> ends_word (sep ++ l).
Proof.
  intros W [N|(x & r0 & -> & D)]; [now apply white_ends|]. destruct sep as [|y sep]; cbn [app]; intros z r1 [= <- _]; [lia|]. left. apply W. now left.
Qed.
Lemma sign_digit sg n c : gnu_sign sg n -> (exists x r, sg ++ c = x :: r /\ 48 <= x <= 57) -> sg = [].
Proof. intros H (x & r & E & D). destruct H; [reflexivity| |]; injection E as <- _; lia. Qed.

Lemma merge sg n num l : gnu_sign sg n -> digit_groups num -> loose l -> (exists x r, l = x :: r /\ 48 <= x <= 57) -> loose (sg ++ num ++ l).
Proof.
  intros Hs N L D. destruct L as [sg' n' c Hs' C|sg' n' c sep l Hs' C W A L|sg' n' num' Hs' N'|sg' n' num' sep l Hs' N' W A P L]; rewrite (sign_digit _ _ _ Hs' D) in D |- *; cbn [app] in D |- *.
  - destruct (word_core_digit c [] C ltac:(now rewrite app_nil_r)) as (num' & ds & q & g & ago & -> & N' & W & Q). rewrite app_assoc with (l := num).
    apply (lo_word_end sg n _ Hs). apply (wc_number _ ds q g ago); auto using groups_app.
  - destruct (word_core_digit c _ C D) as (num' & ds & q & g & ago & -> & N' & W' & Q).
    replace (num ++ (num' ++ ds ++ q) ++ sep ++ l) with (((num ++ num') ++ ds ++ q) ++ sep ++ l) by now rewrite <- !app_assoc.
    apply (lo_word sg n); try assumption. apply (wc_number _ ds q g ago); auto using groups_app.
  - apply (lo_number_end sg n); auto using groups_app.
  - rewrite app_assoc with (l := num). apply (lo_number sg n); auto using groups_app.
Qed.
Lemma word_core_phrase c : word_core c -> (exists g ago, unit_text c g ago) \/ (forall rest, ends_word rest -> forall g ago r, ~ unit_phrase (c ++ rest) g ago r).
Proof.
  intros [w k H|w k ds q g ago H W N _|q g ago H|num ds q g ago H W Q]; [right|right|left; eauto|right]; intros rest E g0 ago0 r.
  - exact (word_no_phrase w rest _ _ _ (keyword_letters w k H) (keyword_word w k H) E).
  - rewrite <- app_assoc. apply (word_no_phrase w _ _ _ _ (numeral_letters w k H) (numeral_word w k H)). rewrite <- app_assoc. now apply white_ends.
  - apply digit_no_phrase. destruct (groups_start num H) as (x & l & -> & D). eexists x, _. split; [reflexivity|exact D].
Qed.
Lemma nil_ends : ends_word [].
Proof. intros x r; discriminate. Qed.
Lemma number_then sg n num sep l : gnu_sign sg n -> digit_groups num -> white_space sep -> after false sep l -> loose l -> loose (sg ++ num ++ sep ++ l).
Proof.
  intros Hs N W A L.
  assert (S : forall sg' n' rest, gnu_sign sg' n' -> sg' = [] \/ forall g ago r, ~ unit_phrase (sg' ++ rest) g ago r).
  { intros sg' n' rest H. destruct sg' as [|x sg']; [now left|right]. intros g ago r. now apply (signed_no_phrase (x :: sg') n'). }
  assert (D : forall num' rest, digit_groups num' -> forall g ago r, ~ unit_phrase (num' ++ rest) g ago r).
  { intros num' rest H g ago r. apply digit_no_phrase. destruct (groups_start num' H) as (x & l' & -> & D). eexists x, _. split; [reflexivity|exact D]. }
  destruct L as [sg' n' c Hs' C|sg' n' c sep' l Hs' C W' A' L|sg' n' num' Hs' N'|sg' n' num' sep' l Hs' N' W' A' P L].
  - destruct (S sg' n' c Hs') as [->|P]; [|apply (lo_number sg n); auto; now apply (lo_word_end sg' n')]. cbn [app] in *.
    destruct (word_core_phrase c C) as [(g & ago & Q)|P].
    + apply (lo_word_end sg n); [exact Hs|]. now apply (wc_number num sep c g ago).
    + apply (lo_number sg n); auto; [|now apply (lo_word_end [] n' c)]. specialize (P [] nil_ends). now rewrite app_nil_r in P.
  - destruct (S sg' n' (c ++ sep' ++ l) Hs') as [->|P]; [|apply (lo_number sg n); auto; now apply (lo_word sg' n')]. cbn [app] in *.
    destruct (word_core_phrase c C) as [(g & ago & Q)|P].
    + replace (num ++ sep ++ c ++ sep' ++ l) with ((num ++ sep ++ c) ++ sep' ++ l) by now rewrite <- !app_assoc.
      apply (lo_word sg n); auto. now apply (wc_number num sep c g ago).
    + apply (lo_number sg n); auto; [|now apply (lo_word [] n' c)]. apply P. now apply after_ends.
  - apply (lo_number sg n); auto; [|now apply (lo_number_end sg' n')]. destruct (S sg' n' num' Hs') as [->|P]; [|exact P].
    cbn [app]. pose proof (D num' [] N') as D'. now rewrite app_nil_r in D'.
  - apply (lo_number sg n); auto; [|now apply (lo_number sg' n')]. destruct (S sg' n' (num' ++ sep' ++ l) Hs') as [->|Q]; [|exact Q]. cbn [app]. now apply D.
Qed.
Definition loose_tail (r : str) : Prop := r = [] \/ exists sep l, r = sep ++ l /\ white_space sep /\ after true sep l /\ loose l.
Lemma core_then sg n c r : gnu_sign sg n -> core c -> loose_tail r -> loose (sg ++ c ++ r).
Proof.
  intros Hs C T.
  assert (K : word_core c \/ digit_groups c).
  { destruct C as [w k H|w k ds q g ago H W N Q|q g ago Q|c (num & W & F & H & [->|(ds & q & g & ago & -> & D & Q)])].
    - left. now apply (wc_keyword w k).
    - left. now apply (wc_numeral w k ds q g ago).
    - left. now apply (wc_unit q g ago).
    - right. exact (groups_number _ _ _ H).
    - left. apply (wc_number num ds q g ago); auto. exact (groups_number _ _ _ H). }
  destruct T as [->|(sep & l & -> & W & A & L)]; [rewrite app_nil_r|]; destruct K as [K|K].
  - now apply (lo_word_end sg n). - now apply (lo_number_end sg n). - now apply (lo_word sg n).
  - destruct A as [A|(x & r & E & A)]; [apply (number_then sg n); auto; now left|]. destruct sep as [|y sep]; [|apply (number_then sg n); auto; left; discriminate].
    destruct A as [A|[A|[_ A]]]; [apply (number_then sg n); auto; right; exists x, r; auto|apply (number_then sg n); auto; right; exists x, r; auto|].
    cbn [app]. apply (merge sg n); auto. now exists x, r.
Qed.
Lemma furthers_tail r : furthers r -> loose_tail r.
Proof.
  induction 1 as [|a b A _ IH]; [now left|]. right. destruct A as [c C|sg n c Hs N C|ds sg n c W N Hs C].
  - exists [], (c ++ b). split; [reflexivity|]. split; [intros x []|]. split; [|exact (core_then [] false c b gs_none (co_number c C) IH)].
    right. destruct C as (num & W & F & H & [->|(ds & q & g & ago & -> & _)]); destruct (groups_start num (groups_number _ _ _ H)) as (x & l & -> & D);
      eexists x, _; (split; [reflexivity|]); auto.
  - exists [], ((sg ++ c) ++ b). split; [reflexivity|]. split; [intros x []|]. rewrite <- app_assoc. split; [|exact (core_then sg n c b Hs C IH)].
    right. destruct Hs; [contradiction| |]; eexists _, _; (split; [reflexivity|]); auto.
  - exists ds, (sg ++ c ++ b). split; [now rewrite <- !app_assoc|]. split; [exact W|]. split; [now left|exact (core_then sg n c b Hs C IH)].
Qed.
Lemma main_loose s : matched main_gnu s -> loose s.
Proof. intros H. apply main_iff in H. destruct H as (sg & n & c & r & -> & Hs & C & F). exact (core_then sg n c r Hs C (furthers_tail r F)). Qed.

(** the last byte is no white space *)
Lemma loose_last t : loose t -> ends_inside t.
Proof.
  assert (G : forall num, digit_groups num -> ends_inside num).
  { intros num H. induction H as [W N D|W l N D _ IH]; [now apply ends_digits_of|]. change (46 :: l) with ([46] ++ l). now apply ends_app, ends_app. }
  assert (C : forall c, word_core c -> ends_inside c).
  { intros c [w k H|w k ds q g ago H W N Q|q g ago Q|num ds q g ago H W Q]; [exact (ends_letters w (keyword_letters w k H))|apply ends_app, ends_app|idtac|apply ends_app, ends_app];
      exact (proj1 (proj2 (unit_text_ok q g ago Q))). }
  intros H. induction H; auto using ends_app.
Qed.
Lemma loose_trimmed t : loose t -> forall x r, t = r ++ [x] -> ~ white x.
Proof.
  intros L x r E. destruct (loose_last t L) as (r' & y & E' & I). rewrite E' in E. apply app_inj_tail in E. destruct E as [_ <-]. unfold white, inside in *. lia.
Qed.

(** ** they are relative times, or have the wrong fraction which the third expression finds *)
Definition fraction_message (e : parse_error) : Prop :=
  e = InvalidInput (%"Fraction without a whole number") \/ e = InvalidInput (%"Fraction only allowed together with seconds as time unit").
Definition fraction_found (t : str) : Prop :=
  exists a W F b c, t = a ++ (W ++ 46 :: F ++ b) ++ c /\ (W <> [] /\ digit_string W) /\ (F <> [] /\ digit_string F) /\
    (b = [46] \/ exists ds w g, b = ds ++ w /\ white_space ds /\ word_for gnu_units w g /\ g <> Seconds 1).
Lemma fraction_found_app p t : fraction_found t -> fraction_found (p ++ t).
Proof. intros (a & W & F & b & c & -> & H). exists (p ++ a), W, F, b, c. split; [apply app_assoc|exact H]. Qed.
Lemma fraction_found_matches t : fraction_found t -> found fraction_control t.
Proof.
  intros (a & W & F & b & c & -> & HW & HF & B). exists a, (W ++ 46 :: F ++ b), c. split; [reflexivity|]. exists [].
  assert (H : captures_nothing fraction_control (fun s => exists s1 s2, s = s1 ++ s2 /\ (exists W F, s1 = W ++ 46 :: F /\ (W <> [] /\ digit_string W) /\ F <> [] /\ digit_string F) /\
     (s2 = [46] \/ exists ds w, s2 = ds ++ w /\ white_space ds /\ exists g, word_for gnu_units w g /\ g <> Seconds 1)))
    by exact (cn_then _ _ _ _ (cn_group _ _ cn_fraction) (cn_group _ _ (cn_or _ _ _ _ cn_point (cn_group _ _ (cn_then _ _ _ _ (proj1 cn_delims) cn_not_sec))))).
  apply H. split; [|reflexivity]. exists (W ++ 46 :: F), b. split; [now rewrite <- app_assoc|]. split; [exists W, F; auto|].
  destruct B as [->|(ds & w & g & -> & D & Hw & Ng)]; [now left|right]. exists ds, w. eauto.
Qed.

Definition unit_tail (ds l : str) (g : gnu_unit) : Prop :=
  white_space ds /\ (forall x r, ds ++ l = x :: r -> ~ 48 <= x <= 57 /\ x <> 46 /\ x <> 101 /\ x <> 69) /\ unit_or_seconds l g.
Lemma seconds_dec g : g = Seconds 1 \/ g <> Seconds 1.
Proof. destruct g as [k| |]; [destruct (Z.eq_dec k 1) as [->|]; [now left|right; congruence]|right; discriminate|right; discriminate]. Qed.
Lemma no_phrase_at x l : ~ (97 <= x <= 122 \/ 65 <= x <= 90) -> no_unit_ahead (x :: l).
Proof.
  intros H g ago r P. destruct (phrase_word _ _ _ _ P) as (w & l' & E & Hw & _). destruct (unit_letters w g Hw) as [N L].
  destruct w as [|y w]; [contradiction|]. injection E as -> _. exact (H (L y (or_introl eq_refl))).
Qed.
Lemma point_error s l1 ds l g : digit_groups l1 -> unit_tail ds l g -> exists e, fraction_message e /\ item_error s (46 :: l1 ++ ds ++ l) e.
Proof.
  intros G (W & K & U).
  assert (A : forall rest, after_sign (46 :: rest) (46 :: rest)).
  { intros rest. exists [], false. split; [reflexivity|]. split; [constructor|]. split; [discriminate|]. split.
    - intros x r [= <- _]. unfold white. lia.
    - intros _ x r [= <- _]. lia. }
  destruct G as [F N D|F l2 N D G].
  - destruct (seconds_dec g) as [->|Ng].
    + eexists. split; [left; reflexivity|]. apply (ie_fraction s _ [] F ds l (Seconds 1)); auto; [apply A|intros x []|intros x r E; specialize (K x r E); tauto|constructor].
    + eexists. split; [right; reflexivity|]. apply (ie_fraction s _ [] F ds l g); auto; [apply A|intros x []|intros x r E; specialize (K x r E); tauto|now constructor].
  - eexists. split; [left; reflexivity|]. rewrite <- app_assoc. cbn [app]. apply (ie_fraction s _ [] F [] (46 :: l2 ++ ds ++ l) (Seconds 1)); auto.
    + apply A. + intros x []. + intros x r [= <- _]. lia. + intros x [].
    + right. split; [intros x r [= <- _]; unfold white; lia|]. split; [apply no_phrase_at; lia|reflexivity].
    + constructor.
Qed.
Lemma number_reads s sg n num ds l g : gnu_sign sg n -> digit_groups num -> unit_tail ds l g ->
  (exists W F, number_text num W F /\ (F = [] \/ g = Seconds 1)) \/
  (exists e, fraction_message e /\ relative_error s (sg ++ num ++ ds ++ l) e /\ fraction_found (sg ++ num ++ ds ++ l)).
Proof.
  intros Hs G T. pose proof T as (W0 & K & U). destruct G as [W N D|W l0 N D G].
  { left. exists W, []. split; [now constructor|now left]. }
  assert (A : forall rest, after_sign (sg ++ W ++ rest) (W ++ rest)).
  { intros rest. destruct W as [|x W]; [contradiction|]. pose proof (D x (or_introl eq_refl)) as Dx. exists sg, n. split; [reflexivity|]. split; [exact Hs|].
    split; [discriminate|]. split; [intros y r [= <- _]; unfold white; lia|intros _ y r [= <- _]; lia]. }
  destruct G as [F NF DF|F l1 NF DF G].
  - destruct (seconds_dec g) as [->|Ng]; [left; exists W, F; split; [now constructor|now right]|]. right.
    eexists. split; [right; reflexivity|]. rewrite <- app_assoc. cbn [app]. split.
    + apply re_here. apply (ie_fraction s _ W F ds l g); auto; [destruct W; [contradiction|discriminate]|intros x r E; specialize (K x r E); tauto|now constructor].
    + destruct U as [(ago & r & P)|(_ & _ & ->)]; [|contradiction]. destruct (phrase_word _ _ _ _ P) as (w & l' & -> & Hw & _).
      exists sg, W, F, (ds ++ w), l'. split; [rewrite <- !app_assoc; cbn [app]; now rewrite <- !app_assoc|]. split; [auto|]. split; [auto|]. right. exists ds, w, g. auto.
  - right. destruct (point_error s l1 ds l g G T) as (e & M & E). exists e. split; [exact M|]. rewrite <- !app_assoc. cbn [app]. rewrite <- !app_assoc. cbn [app]. split.
    + apply (re_later s _ (Nanos (clamp_nanos (with_sign n (dval (W ++ F) * 1000000000 / 10 ^ Z.of_nat (length F))))) [] (46 :: l1 ++ ds ++ l) e);
        [|intros x []|intros x r [= <- _]; unfold white; lia|discriminate|now apply re_here].
      cbn [app]. replace (sg ++ W ++ 46 :: F ++ 46 :: l1 ++ ds ++ l) with (sg ++ (W ++ 46 :: F) ++ [] ++ 46 :: l1 ++ ds ++ l) by (rewrite <- !app_assoc; reflexivity).
      apply (gi_number sg n (W ++ 46 :: F) W F); [exact Hs| |intros x []|intros x r [= <- _]; unfold white; lia|now left|apply no_phrase_at; lia|now constructor].
      apply gn_fraction; auto. intros x r [= <- _]. lia.
    + exists sg, W, F, [46], (l1 ++ ds ++ l). split; [rewrite <- !app_assoc; cbn [app]; rewrite <- !app_assoc; reflexivity|]. auto.
Qed.

Lemma core_reads s sg n c rest : gnu_sign sg n -> word_core c -> ends_word rest -> (forall r, ~ ago_follows rest r) ->
  (exists a, gnu_item (sg ++ c ++ rest) a rest) \/
  (exists e, fraction_message e /\ relative_error s (sg ++ c ++ rest) e /\ fraction_found (sg ++ c ++ rest)).
Proof.
  intros Hs C E A. destruct C as [w k H|w k ds q g ago H W N Q|q g ago Q|num ds q g ago H W Q].
  - left. eexists. exact (gi_keyword sg n w k rest Hs H E).
  - left. eexists. rewrite <- !app_assoc. apply (gi_numeral sg n w k ds (q ++ rest) g ago rest); auto. now apply phrase.
  - left. eexists. apply (gi_unit sg n (q ++ rest) g ago rest Hs). now apply phrase.
  - rewrite <- !app_assoc. pose proof (phrase q g ago rest Q E A) as P.
    assert (K : forall x r, ds ++ q ++ rest = x :: r -> ~ 48 <= x <= 57 /\ x <> 46 /\ x <> 101 /\ x <> 69).
    { intros x r Ex. destruct ds as [|y ds]; cbn [app] in Ex.
      - destruct (unit_text_word q g ago Q) as (w & r1 & -> & Hw & _). destruct (unit_not_e w g Hw) as (z & w' & Ew & Z1 & Z2).
        pose proof (unit_letters w g Hw) as [_ L]. subst w. specialize (L z (or_introl eq_refl)). cbn [app] in Ex. injection Ex as <- _. lia.
      - injection Ex as <- _. specialize (W y (or_introl eq_refl)). unfold white in W. lia. }
    destruct (number_reads s sg n num ds (q ++ rest) g Hs H) as [(W' & F & T & V)|R]; [|left|now right].
    + split; [exact W|]. split; [exact K|]. left. exists ago, rest. exact P.
    + assert (exists a, number_amount (xorb n ago) W' F g a) as (a & Ha).
      { destruct F as [|f F]; [eexists; constructor|]. destruct V as [V| ->]; [discriminate|]. eexists. now apply na_fraction. }
      exists a. apply (gi_number_unit sg n num W' F ds (q ++ rest) g ago rest a); auto. now apply number_in_front.
Qed.
Lemma loose_reads s t : loose t -> (exists as_, relative_time t as_) \/ (exists e, fraction_message e /\ relative_error s t e /\ fraction_found t).
Proof.
  assert (M : forall t a sep l, gnu_item t a (sep ++ l) -> white_space sep -> loose l ->
     (exists as_, relative_time l as_) \/ (exists e, fraction_message e /\ relative_error s l e /\ fraction_found l) -> (exists p, t = p ++ l) ->
     (exists as_, relative_time t as_) \/ (exists e, fraction_message e /\ relative_error s t e /\ fraction_found t)).
  { intros t0 a sep l G W L IH (p & E0). pose proof (loose_starts l L) as St. pose proof (starts_dark l St) as Nl. destruct IH as [(as_ & R)|(e & Me & Er & Fo)].
    - left. exists (a :: as_). exact (rt_more t0 a sep l as_ G W Nl R).
    - right. exists e. split; [exact Me|]. split; [|rewrite E0; now apply fraction_found_app].
      apply (re_later s t0 a sep l e G W Nl); [destruct St as (x & r & -> & _); discriminate|exact Er]. }
  intros H. induction H as [sg n c Hs C|sg n c sep l Hs C W A L IH|sg n num Hs N|sg n num sep l Hs N W A P L IH].
  - destruct (core_reads s sg n c [] Hs C nil_ends no_ago_nil) as [(a & G)|R]; rewrite app_nil_r in *; [left|now right]. exists [a]. now constructor.
  - pose proof (loose_starts l L) as St.
    destruct (core_reads s sg n c (sep ++ l) Hs C (after_ends sep l W A) (starts_no_ago sep l W St)) as [(a & G)|R]; [|now right].
    apply (M _ a sep l G W L IH). exists (sg ++ c ++ sep). now rewrite <- !app_assoc.
  - assert (NP : no_unit_ahead []).
    { intros g ago r P. destruct (phrase_word _ _ _ _ P) as (w & l & E & Hw & _). destruct w; [destruct (proj1 (unit_letters _ _ Hw)); reflexivity|discriminate]. }
    assert (T : unit_tail [] [] (Seconds 1)).
    { split; [intros x []|]. split; [intros x r; discriminate|]. right. split; [intros x r; discriminate|]. split; [exact NP|reflexivity]. }
    destruct (number_reads s sg n num [] [] (Seconds 1) Hs N T) as [(W' & F & Tx & _)|R]; cbn [app] in *; rewrite ?app_nil_r in *; [left|now right].
    assert (exists a, number_amount n W' F (Seconds 1) a) as (a & Ha) by (destruct F as [|f F]; [eexists; constructor|eexists; now apply na_fraction]).
    exists [a]. apply rt_last. replace (sg ++ num) with (sg ++ num ++ [] ++ []) by now rewrite !app_nil_r.
    apply (gi_number sg n num W' F [] [] a); auto; try (intros x r; discriminate); [|intros x []].
    apply number_in_front; [exact Tx|intros x r; discriminate].
  - pose proof (loose_starts l L) as St. pose proof (starts_dark l St) as Nl.
    assert (K : forall x r, sep ++ l = x :: r -> ~ 48 <= x <= 57 /\ x <> 46 /\ x <> 101 /\ x <> 69).
    { intros x r Ex. destruct sep as [|y sep]; cbn [app] in Ex.
      - destruct A as [A|(z & r1 & -> & A)]; [contradiction|]. injection Ex as <- _. destruct A as [->|[->|[A _]]]; [lia|lia|discriminate].
      - injection Ex as <- _. specialize (W y (or_introl eq_refl)). unfold white in W. lia. }
    destruct (number_reads s sg n num sep l (Seconds 1) Hs N) as [(W' & F & Tx & _)|R]; [| |now right].
    + split; [exact W|]. split; [exact K|]. right. split; [exact Nl|]. split; [exact P|reflexivity].
    + assert (exists a, number_amount n W' F (Seconds 1) a) as (a & Ha) by (destruct F as [|f F]; [eexists; constructor|eexists; now apply na_fraction]).
      apply (M _ a [] l); [|intros x []|exact L|exact IH|exists (sg ++ num ++ sep); now rewrite <- !app_assoc]. cbn [app].
      apply (gi_number sg n num W' F sep l a); auto; [now apply number_in_front|]. right. destruct St as (x & r & -> & _). discriminate.
Qed.

(** ** what is accepted and does not match the main expression *)
Lemma found_app p t : found control_regex t -> found control_regex (p ++ t).
Proof. intros (a & b & c & -> & M). exists (p ++ a), b, c. split; [apply app_assoc|exact M]. Qed.
Lemma found_control a d x c : d <> [] -> digit_string d ->
  ((exists k, word_for gnu_keywords x k) \/ (exists w k ds u g, x = w ++ ds ++ u /\ word_for gnu_numerals w k /\ ds <> [] /\ white_space ds /\ word_for gnu_units u g)) ->
  found control_regex (a ++ (d ++ x) ++ c).
Proof.
  intros N D H. exists a, (d ++ x), c. split; [reflexivity|]. exists [].
  assert (C : exists P, captures_nothing (Then (Some_ digit) (Then point (Some_ odd_class))) P).
  { eexists. refine (cn_then _ _ _ _ cn_digits (cn_then _ _ _ _ cn_point _)). 
    exact (proj2 (proj2 (cn_class (%"[[:digit]]") (fun x => existsb (Z.eqb x) [58; 100; 105; 103; 116])
      (fun y => existsb (Z.eqb y) [58; 100; 105; 103; 116] || existsb (Z.eqb (other_case y)) [58; 100; 105; 103; 116] = true) (fun y => iff_refl _)))). }
  destruct C as (P & C).
  pose proof (cn_group _ _ (cn_then _ _ _ _ (cn_group _ _ (cn_or _ _ _ _ cn_digits C))
    (cn_then _ _ _ _ (cn_group _ _ (cn_or _ _ _ _ (cn_group _ _ (cn_then _ _ _ _ cn_numerals (cn_then _ _ _ _ (proj2 cn_delims) cn_units))) cn_keywords)) cn_ago_regex))) as T.
  change control_regex with (Group (Then (Group (Or (Some_ digit) (Then (Some_ digit) (Then point (Some_ odd_class)))))
    (Then (Group (Or (Group (Then (words numeral_words) (Then (Some_ delim) (words unit_words)))) (words keyword_words))) ago_regex))).
  apply T. split; [|reflexivity]. exists d, x. split; [reflexivity|]. split; [left; auto|]. exists x, []. rewrite app_nil_r. split; [reflexivity|]. split; [|now left].
  destruct H as [(k & H)|(w & k & ds & u & g & -> & Hw & Nd & Wd & Hu)]; [right; eauto|left]. exists w, (ds ++ u). split; [reflexivity|]. split; [eauto|]. exists ds, u. eauto.
Qed.
Lemma piece_core p a e u : piece p a e u -> exists sg n c, p = sg ++ c /\ gnu_sign sg n /\ core c.
Proof.
  intros [sg n num W F ds q g ago a0 Hs Hn Hd Hq _|sg n num W F a0 Hs Hn _|q g ago Hq|sg n q g ago Hs _ Hq|sg n w k ds q g ago Hs Hw Hd Nd Hq|sg n w k Hs Hw].
  - exists sg, n, (num ++ ds ++ q). split; [reflexivity|]. split; [exact Hs|]. apply co_number. exists num, W, F. split; [exact Hn|]. right. exists ds, q, g, ago. auto.
  - exists sg, n, num. split; [reflexivity|]. split; [exact Hs|]. apply co_number. exists num, W, F. auto.
  - exists [], false, q. split; [reflexivity|]. split; [constructor|now apply (co_unit q g ago)].
  - exists sg, n, q. split; [reflexivity|]. split; [exact Hs|now apply (co_unit q g ago)].
  - exists sg, n, (w ++ ds ++ q). split; [reflexivity|]. split; [exact Hs|now apply (co_numeral w k ds q g ago)].
  - exists sg, n, w. split; [reflexivity|]. split; [exact Hs|now apply (co_keyword w k)].
Qed.
Lemma last_digits num W F : number_text num W F -> exists a d, num = a ++ d /\ d <> [] /\ digit_string d.
Proof.
  intros [W0 D N|W0 F0 D N D1 N1]; [exists [], W0; auto|]. exists (W0 ++ [46]), F0. rewrite <- app_assoc. auto.
Qed.
Lemma written_matches t as_ u : written t as_ u -> (exists sg n c r, t = sg ++ c ++ r /\ gnu_sign sg n /\ core c /\ furthers r) \/ found control_regex t.
Proof.
  intros H. induction H as [p a e u H|p a e u sep r rs u' H W HR IH J].
  - left. destruct (piece_core _ _ _ _ H) as (sg & n & c & -> & Hs & C). exists sg, n, c, []. rewrite app_nil_r. split; [reflexivity|]. split; [exact Hs|]. split; [exact C|constructor].
  - destruct IH as [(sg' & n' & c' & r' & E & Hs' & C' & F')|IH]; [|right; now apply found_app, found_app].
    destruct (piece_core _ _ _ _ H) as (sg & n & c & Ep & Hs & C).
    assert (Go : further (sep ++ sg' ++ c') -> (exists sg n c r0, p ++ sep ++ r = sg ++ c ++ r0 /\ gnu_sign sg n /\ core c /\ furthers r0) \/ found control_regex (p ++ sep ++ r)).
    { intros Fu. left. exists sg, n, c, ((sep ++ sg' ++ c') ++ r'). split; [subst; now rewrite <- !app_assoc|]. split; [exact Hs|]. split; [exact C|now constructor]. }
    destruct sep as [|y sep]; [|apply Go; apply (fu_white (y :: sep) sg' n' c'); auto; discriminate].
    destruct sg' as [|y sg']; [|apply Go; apply (fu_sign (y :: sg') n' c'); auto; discriminate]. cbn [app] in *.
    destruct e.
    + apply Go. apply fu_digit. destruct J as [J|(x & r0 & -> & J)]; [contradiction|].
      assert (L : forall w rest, GnuGrammar.letters w -> x :: r0 <> w ++ rest).
      { intros w rest [N L] Ex. destruct w as [|z w]; [contradiction|]. injection Ex as -> _. specialize (L z (or_introl eq_refl)). lia. }
      destruct C' as [w k Hw|w k ds q g ago Hw Hd Nd Q|q g ago Q|c' Nc].
      * destruct (L w r' (keyword_letters w k Hw) E).
      * rewrite <- app_assoc in E. destruct (L w _ (numeral_letters w k Hw) E).
      * destruct (unit_text_word q g ago Q) as (w & r1 & -> & Hw & _). rewrite <- app_assoc in E. destruct (L w _ (unit_letters w g Hw) E).
      * exact Nc.
    + destruct J as [-> J]. destruct J as [J|J]; [contradiction|]. destruct (number_piece _ _ _ H) as (sg1 & n1 & num & W1 & F1 & -> & Hs1 & Hn1 & _).
      destruct (last_digits num W1 F1 Hn1) as (a1 & d & -> & Nd1 & Dd).
      destruct C' as [w k Hw|w k ds q g ago Hw Hd Nd Q|q g ago Q|c' Nc].
      * right. rewrite E. replace ((sg1 ++ a1 ++ d) ++ w ++ r') with ((sg1 ++ a1) ++ (d ++ w) ++ r') by now rewrite <- !app_assoc. apply found_control; auto. left. eauto.
      * right. destruct (unit_text_word q g ago Q) as (v & r1 & -> & Hv & _). rewrite E.
        replace ((sg1 ++ a1 ++ d) ++ (w ++ ds ++ v ++ r1) ++ r') with ((sg1 ++ a1) ++ (d ++ w ++ ds ++ v) ++ r1 ++ r') by now rewrite <- !app_assoc.
        apply found_control; auto. right. exists w, k, ds, v, g. auto 6.
      * exfalso. apply (written_no_phrase r rs HR g ago r'). rewrite E. apply phrase; [exact Q| |].
        -- destruct (furthers_tail r' F') as [->|(sep & l & -> & Ws & A & _)]; [exact nil_ends|now apply after_ends].
        -- destruct (furthers_tail r' F') as [->|(sep & l & -> & Ws & A & L)]; [exact no_ago_nil|apply (starts_no_ago sep l Ws (loose_starts l L))].
      * exfalso. destruct Nc as (num & W0 & F0 & Hn & [->|(ds & q & g & ago & -> & _)]); destruct (starts_number _ _ _ Hn) as (x & l & -> & D);
          cbn [app] in E; destruct (J x _ E) as (J1 & _); contradiction.
Qed.

(** ** C105 *)
(** an input which matches the main expression is a relative time, or has a fraction which the third expression finds and one of the two errors,
    with any clock *)
Theorem C105_matching_inputs : forall now s, clock_ok now -> utf8 s = true -> matched main_gnu s ->
  (exists x, gnu_parse_fuzzy gnu_new s = Ok x /\ forall e, gnu_parse gnu_new now s = Err e -> e = Overflow) \/
  (exists e, fraction_message e /\ gnu_parse_fuzzy gnu_new s = Err e /\ gnu_parse gnu_new now s = Err e /\ found fraction_control s).
Proof.
  intros now s N U M. pose proof (main_loose s M) as L. apply main_iff in M. destruct M as (sg & n & c & r & Es & Hs & C & F).
  assert (Tr : (exists as_, relative_time s as_) -> exists x, gnu_parse_fuzzy gnu_new s = Ok x).
  { intros (as_ & R). destruct (written_complete s as_ R) as (u & W).
    destruct (proj2 (C85_written_texts s (sum_years as_) (sum_months as_) (sum_nanos as_) U)) as (d & E & _); [|eauto].
    exists [], s, [], as_, u. rewrite app_nil_r. split; [reflexivity|]. split; [intros x []|]. split; [intros x []|]. auto. }
  destruct (C77_with_date now s None (match gnu_parse gnu_new now s with Err e => e | _ => Overflow end) U N ltac:(discriminate)) as [_ K].
  destruct (loose_reads s s L) as [R|(e & Me & Er & Fo)].
  - left. destruct (Tr R) as (x & E). exists x. split; [exact E|]. intros e Ee. rewrite Ee in K. destruct (K Ee) as [K'|[K' _]]; [congruence|exact K'].
  - right. exists e. split; [exact Me|].
    assert (E : gnu_parse_fuzzy gnu_new s = Err e).
    { apply (C77_errors s e U).
      assert (T : trimmed s).
      { split; [exact (starts_dark s (loose_starts s L))|]. exact (loose_trimmed s L). }
      exists [], s, []. rewrite app_nil_r. split; [reflexivity|]. split; [intros x []|]. split; [intros x []|]. auto. }
    split; [exact E|]. split; [|now apply fraction_found_matches].
    destruct (C77_with_date now s None e U N ltac:(discriminate)) as [H _]. exact (proj2 (H E)).
Qed.
Print Assumptions C105_matching_inputs.

(** an accepted input matches the main expression, starts or ends with white space, or matches the control expression *)
Theorem C105_accepted_inputs : forall s x, utf8 s = true -> gnu_parse_fuzzy gnu_new s = Ok x ->
  matched main_gnu s \/ starts_with_delimiter s \/ ends_with_delimiter s \/ found control_regex s.
Proof.
  intros s [[years months] d] U E. destruct (C44_fuzzy_sound s years months d U E) as (ws1 & t & ws2 & as_ & -> & W1 & W2 & _ & R & _).
  assert (D : forall y, white y -> fuzz_delimiter y = true) by (intros y Hy; unfold white, fuzz_delimiter in *; lia).
  destruct ws1 as [|y ws1].
  2:{ right. left. eexists y, _. split; [reflexivity|]. apply D, W1. now left. }
  destruct ws2 as [|z ws2].
  2:{ right. right. left. destruct (@exists_last _ (z :: ws2) ltac:(discriminate)) as (l & y & El). rewrite El in *. exists (([] ++ t) ++ l), y.
      split; [now rewrite !app_assoc|]. apply D, W2, in_or_app. right. now left. }
  cbn [app]. rewrite app_nil_r. destruct (written_complete t as_ R) as (u & W). destruct (written_matches t as_ u W) as [M|M]; [left; now apply main_iff|auto].
Qed.
Print Assumptions C105_accepted_inputs.

(** whatever the clock says and whatever the input is, the target never panics because an input is accepted or rejected *)
Theorem C105_fuzz_target : forall now s, clock_ok now -> utf8 s = true -> gnu_target_passes now s.
Proof.
  intros now s N U. unfold gnu_target_passes. destruct (C44_parse_never_crashes now s N U) as [(d & E & _)|(e & E)]; unfold gnu_global_parse in E; rewrite E.
  - destruct (C44_fuzzy_never_crashes s U) as [(Y & M & d' & E' & _)|(e & E')].
    + split; [eauto|]. exact (C105_accepted_inputs s _ U E').
    + destruct (C77_with_date now s None e U N ltac:(discriminate)) as [H _]. destruct (H E') as [_ H']. congruence.
  - intros M. destruct (C105_matching_inputs now s N U M) as [(x & _ & O)|(e' & [-> | ->] & _ & E' & Fo)]; [right; now apply O| |];
      rewrite E' in E; injection E as <-; left; eexists; (split; [reflexivity|]); auto.
Qed.
Print Assumptions C105_fuzz_target.

(** the control expressions are needed: these inputs match the main expression and are rejected; and this one is accepted although it does not
    match (a number can be followed by a sign, a digit or white space in it, not by a letter which is not a unit) *)
Theorem C105_controls_are_needed :
  (matched main_gnu (%"1.5 minutes") /\ gnu_parse_fuzzy gnu_new (%"1.5 minutes") = Err (InvalidInput (%"Fraction only allowed together with seconds as time unit"))) /\
  (matched main_gnu (%"1.51.5") /\ gnu_parse_fuzzy gnu_new (%"1.51.5") = Err (InvalidInput (%"Fraction without a whole number"))) /\
  (~ matched main_gnu (%"5now") /\ gnu_parse_fuzzy gnu_new (%"5now") = Ok (0, 0, Dur false (Std 5 0))) /\
  (~ matched main_gnu (%" 5") /\ gnu_parse_fuzzy gnu_new (%" 5") = Ok (0, 0, Dur false (Std 5 0))).
Proof.
  assert (One : forall d, 48 <= d <= 57 -> digit_string [d] /\ [d] <> []) by (intros d H; split; [intros x [<-|[]]; exact H|discriminate]).
  split; [split; [|vm_compute; reflexivity]|split; [split; [|vm_compute; reflexivity]|split; (split; [|vm_compute; reflexivity])]].
  - apply main_iff. exists [], false, (%"1.5 minutes"), []. split; [reflexivity|]. split; [constructor|]. split; [|constructor].
    apply co_number. exists (%"1.5"), (%"1"), (%"5"). split.
    + destruct (One 49 ltac:(lia)), (One 53 ltac:(lia)). now apply (nt_fraction (%"1") (%"5")).
    + right. exists (%" "), (%"minutes"), (Seconds 60), false. split; [reflexivity|]. split; [intros x [<-|[]]; now left|]. constructor.
      exists [%"min"; %"mins"; %"minute"; %"minutes"], (%"minutes"). split; [right; now left|]. split; [cbn; tauto|reflexivity].
  - apply main_iff. exists [], false, (%"1.5"), (%"1.5"). split; [reflexivity|]. split; [constructor|].
    assert (N : number_core (%"1.5")).
    { exists (%"1.5"), (%"1"), (%"5"). split; [|now left]. destruct (One 49 ltac:(lia)), (One 53 ltac:(lia)). now apply (nt_fraction (%"1") (%"5")). }
    split; [now apply co_number|]. rewrite <- (app_nil_r (%"1.5")). constructor; [now constructor|constructor].
  - intros M. assert (C : forall t, loose t -> t <> %"5now"); [|exact (C _ (main_loose _ M) eq_refl)].
    intros t L E.
    assert (S : forall sg n c, gnu_sign sg n -> sg ++ c = %"5now" -> sg = []) by (intros sg n c [|ds _|ds _] Q; [reflexivity|discriminate|discriminate]).
    assert (G : forall num rest, digit_groups num -> num ++ rest = %"5now" -> num = %"5").
    { assert (W1 : forall W rest, W <> [] -> digit_string W -> W ++ rest = %"5now" -> W = %"5").
      { intros W rest N D Q. destruct W as [|a [|b W]]; [contradiction| |].
        - now injection Q as -> _.
        - injection Q as _ -> _. specialize (D 110 ltac:(right; now left)). lia. }
      intros num rest [W N D|W l N D _] Q; [exact (W1 W rest N D Q)|]. rewrite <- app_assoc in Q. cbn [app] in Q. pose proof (W1 W _ N D Q) as ->. discriminate. }
    assert (K : forall c rest, word_core c -> c ++ rest <> %"5now").
    { intros c rest C Q. destruct (word_core_digit c rest C) as (num & ds & q & g & ago & -> & N & W & U).
      - rewrite Q. exists 53, (%"now"). split; [reflexivity|lia].
      - rewrite <- !app_assoc in Q. pose proof (G num _ N Q) as ->. injection Q as Q. destruct ds as [|y ds].
        + destruct (unit_text_word q g ago U) as (w & r & -> & (ws & v & I & Iv & Ev) & _ & _ & _). cbn [app] in Q. rewrite <- app_assoc in Q.
          destruct w as [|y w]; [destruct (proj1 (unit_letters [] g (ex_intro _ ws (ex_intro _ v (conj I (conj Iv Ev)))))); reflexivity|]. injection Q as -> _.
          cbn in I. repeat (destruct I as [[= <- <-]|I]; [cbn in Iv; repeat (destruct Iv as [<-|Iv]; [discriminate Ev|]); destruct Iv|]). destruct I.
        + injection Q as -> _. specialize (W 110 (or_introl eq_refl)). unfold white in W. lia. }
    destruct L as [sg n c Hs C|sg n c sep l Hs C W A L|sg n num Hs N|sg n num sep l Hs N W A P L]; pose proof (S _ _ _ Hs E) as ->; cbn [app] in E.
    + apply (K c [] C). now rewrite app_nil_r.
    + exact (K c _ C E).
    + pose proof (G num [] N ltac:(now rewrite app_nil_r)) as ->. discriminate.
    + pose proof (G num _ N E) as ->. injection E as E. destruct sep as [|y sep].
      * destruct A as [A|(x & r & -> & A)]; [contradiction|]. injection E as -> _. destruct A as [A|[A|[A _]]]; discriminate.
      * injection E as -> _. specialize (W 110 (or_introl eq_refl)). unfold white in W. lia.
  - intros M. destruct (loose_starts _ (main_loose _ M)) as (x & r & E & H). injection E as <- _. unfold start in H. lia.
Qed.
Print Assumptions C105_controls_are_needed.
