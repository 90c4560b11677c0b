(** * Property C68: switching an option on only adds *)
From Verif Require Import Prelude Util Time Config Bytes Repr Parse Standard SpecTime SpecNum SpecValue SpecParse SpecGrammar SpecSpelling
  TimeProofs NumProofs Utf8Proofs BytesProofs ReprProofs ValueProofs SafeProofs RefParse RefProofs RefSingle RefMulti RefGrammar SpellProofs SwitchProofs StandardProofs PropParse PropStandard PropModes PropGrow ExEnv.

(** the second configuration allows everything the first one allows, and is the same otherwise *)
Record more_options (c1 c2 : config) : Prop := {
  mo_unit : c_default_unit c1 = c_default_unit c2;
  mo_multiple : c_allow_multiple c1 = c_allow_multiple c2;
  mo_conjunctions : c_conjunctions c1 = c_conjunctions c2;
  mo_inner : c_inner_delimiter c1 = c_inner_delimiter c2;
  mo_outer : c_outer_delimiter c1 = c_outer_delimiter c2;
  mo_exponent : c_disable_exponent c1 = false -> c_disable_exponent c2 = false;
  mo_fraction : c_disable_fraction c1 = false -> c_disable_fraction c2 = false;
  mo_infinity : c_disable_infinity c1 = false -> c_disable_infinity c2 = false;
  mo_optional : c_number_is_optional c1 = true -> c_number_is_optional c2 = true;
  mo_negative : c_allow_negative c1 = true -> c_allow_negative c2 = true;
  mo_ago : c_allow_ago c1 = true -> c_allow_ago c2 = true;
  mo_sign_delimiter : c_allow_sign_delimiter c1 = true -> c_allow_sign_delimiter c2 = true;
  mo_unit_delimiter : c_allow_time_unit_delimiter c1 = true -> c_allow_time_unit_delimiter c2 = true
}.

(** an identifier of one of the tables *)
Definition is_identifier (tu : units_like) (kw : option units_like) (nums : option numbers_like) (id : str) : Prop :=
  u_get tu id <> None \/ (exists k, kw = Some k /\ u_get k id <> None) \/ (exists f, nums = Some f /\ f id <> None).
(** identifiers are words of their own: without delimiters, digits and signs, they do not start with a point or with
    `inf`, they are not `ago` in any letter case, and no two tables share one; a conjunction and `ago` are not
    the beginning of each other *)
Record ordinary_words (c : config) (tu : units_like) (kw : option units_like) (nums : option numbers_like) : Prop := {
  ow_tables : plain_tables c tu kw nums;
  ow_delimiters : plain_delimiters c;
  ow_words : forall id, is_identifier tu kw nums id ->
    starts_not is_dot id /\ (forall r, ~ word_prefix (%"inf") id r) /\ str_eq_nocase id (%"ago") = false;
  ow_conjunctions : forall w, In w (conjunctions c) -> forall r, ~ word_prefix w (%"ago") r /\ ~ word_prefix (%"ago") w r
}.

(** a word at the beginning of another one which is followed by a byte the word does not have *)
Lemma word_prefix_stop w x y : (forall b, In b w -> eq_nocase x b = false) -> forall id r, word_prefix w (id ++ x :: y) r -> exists r0, word_prefix w id r0.
Proof.
  induction w as [|b w IH]; intros Hw id r (v & E & H).
  - exists id, []. auto.
  - destruct v as [|a v]; [discriminate|]. cbn [str_eq_nocase] in H. apply andb_true_iff in H. destruct H as [Hb H].
    destruct id as [|i id]; cbn [app] in E; injection E as <- E.
    + rewrite Hw in Hb by now left. discriminate.
    + destruct (IH (fun b' Hb' => Hw b' (or_intror Hb')) id r) as (r0 & v0 & -> & H0); [exists v; auto|].
      exists r0, (i :: v0). split; [reflexivity|]. cbn [str_eq_nocase]. now rewrite Hb, H0.
Qed.
Lemma nocase_letter x b : eq_nocase x b = true -> is_letter b = true -> is_letter x = true.
Proof.
  unfold eq_nocase, to_lower, is_letter. intros H L. destruct ((65 <=? x) && (x <=? 90)) eqn:E1; [reflexivity|].
  destruct ((65 <=? b) && (b <=? 90)) eqn:E2; lia.
Qed.

Section Options.
Context (c1 c2 : config) (tu : units_like) (kw : option units_like) (nums : option numbers_like).
Hypothesis MO : more_options c1 c2.
Hypothesis OW : ordinary_words c1 tu kw nums.
Let inner := c_inner_delimiter c1.
Let outer := c_outer_delimiter c1.

Lemma delim_no_letter x : is_letter x = true -> inner x = false /\ outer x = false.
Proof. intros H. apply (ow_delimiters _ _ _ _ OW). unfold plain_byte. now rewrite H. Qed.
Lemma delim_no_digit x : is_digit x = true -> inner x = false /\ outer x = false.
Proof. intros H. apply (ow_delimiters _ _ _ _ OW). unfold plain_byte. rewrite H. now rewrite ?orb_true_r. Qed.
Lemma delim_no_dot x : is_dot x = true -> inner x = false /\ outer x = false.
Proof. intros H. apply (ow_delimiters _ _ _ _ OW). unfold plain_byte. rewrite H. now rewrite ?orb_true_r. Qed.
Lemma delim_no_sign x : is_sign x = true -> inner x = false /\ outer x = false.
Proof. intros H. apply (ow_delimiters _ _ _ _ OW). unfold plain_byte. rewrite H. now rewrite ?orb_true_r. Qed.
Lemma inner_stop_letter x b : inner x = true -> is_letter b = true -> eq_nocase x b = false.
Proof. intros Hx Hb. destruct (eq_nocase x b) eqn:E; [|reflexivity]. apply nocase_letter in E; [|exact Hb]. apply delim_no_letter in E. destruct E. congruence. Qed.
Lemma inf_letter b : In b (%"inf") -> is_letter b = true.
Proof. revert b. each. Qed.
Lemma ago_letter b : In b (%"ago") -> is_letter b = true.
Proof. revert b. each. Qed.

Lemma id_unit id u m : u_get tu id = Some (u, m) -> is_identifier tu kw nums id.
Proof. left. congruence. Qed.
Lemma id_keyword k id u m : kw = Some k -> u_get k id = Some (u, m) -> is_identifier tu kw nums id.
Proof. intros E H. right. left. exists k. split; congruence. Qed.
Lemma id_numeral f id n : nums = Some f -> f id = Some n -> is_identifier tu kw nums id.
Proof. intros E H. right. right. exists f. split; congruence. Qed.
Lemma id_plain id : is_identifier tu kw nums id -> plain_identifier c1 id.
Proof. destruct OW as [PT _ _ _]. intros [H|[(k & E & H)|(f & E & H)]]; [apply (pt_units _ _ _ _ PT id H)|apply (pt_keywords _ _ _ _ PT k id E H)|apply (pt_numerals _ _ _ _ PT f id E H)]. Qed.
Lemma id_start id r : is_identifier tu kw nums id -> starts_not inner (id ++ r) /\ starts_not outer (id ++ r) /\ starts_not is_dot (id ++ r).
Proof.
  intros H. destruct (id_plain id H) as [N P]. destruct (ow_words _ _ _ _ OW id H) as [D _]. destruct id as [|x id]; [congruence|]. cbn in *.
  destruct (P x (or_introl eq_refl)) as (P1 & P2 & _). auto.
Qed.
Lemma id_no_inf id r : is_identifier tu kw nums id -> starts_not (fun x => negb (inner x)) r -> forall r', ~ word_prefix (%"inf") (id ++ r) r'.
Proof.
  intros H Hr r' Hp. destruct (ow_words _ _ _ _ OW id H) as (_ & D & _). destruct r as [|x r].
  - rewrite app_nil_r in Hp. exact (D r' Hp).
  - cbn in Hr. apply negb_false_iff in Hr. destruct (word_prefix_stop (%"inf") x r) with (id := id) (r := r') as (r0 & H0); [|exact Hp|exact (D r0 H0)].
    intros b Hb. apply inner_stop_letter; [exact Hr|now apply inf_letter].
Qed.

Lemma opt_signed s n l : signed c1 s n l -> starts_not inner l -> signed c2 s n l.
Proof.
  intros [l' H1 H2|x l' r H1 H2 H3 H4|x l' ds r H1 H2 H3 H4] Hl.
  - now apply unsigned.
  - subst l'. destruct (c_allow_sign_delimiter c2) eqn:E; [|now apply with_sign].
    apply with_sign_delimiter with []; auto. split; [reflexivity|]. split; [intros y []|]. rewrite <- (mo_inner _ _ MO). exact Hl.
  - apply with_sign_delimiter with ds; auto; [now apply (mo_sign_delimiter _ _ MO)|]. now rewrite <- (mo_inner _ _ MO).
Qed.
Lemma opt_number l W F x r : number c1 l W F x r -> starts_not inner r -> number c2 l W F x r.
Proof.
  intros (l1 & l2 & l3 & H1 & H2 & H3 & H4 & H5) Hr. exists l1, l2, l3. split; [exact H1|]. split; [|split; [|split; [|exact H5]]].
  - destruct H2 as [l0 H|l0 F' r0 H H']; [now apply no_fraction|]. apply some_fraction; auto. now apply (mo_fraction _ _ MO).
  - destruct H3 as [l0 H|y sg n l0 ds r0 e Hy He Hs Hd Hn Ee Hb]; [now apply no_exponent|]. apply some_exponent with n ds; auto. now apply (mo_exponent _ _ MO).
  - destruct H4 as [l0 H|l0 ds r0 H Hd Hn].
    + destruct (c_allow_time_unit_delimiter c2) eqn:E; [|now apply no_unit_delimiter].
      apply some_unit_delimiter with []; auto. split; [reflexivity|]. split; [intros y []|]. rewrite <- (mo_inner _ _ MO). exact Hr.
    + apply some_unit_delimiter with ds; auto; [now apply (mo_unit_delimiter _ _ MO)|]. now rewrite <- (mo_inner _ _ MO).
Qed.
Lemma number_start l W F x r : number c1 l W F x r -> starts_not inner l.
Proof.
  intros H. apply number_head in H. destruct l as [|y l]; [destruct H|]. cbn in *. apply orb_true_iff in H. destruct H as [H|H]; [now apply delim_no_digit|now apply delim_no_dot].
Qed.
Lemma opt_word l : word c1 l -> (forall r, ~ word_prefix (%"inf") l r) -> word c2 l.
Proof. intros (H1 & H2 & _) H. split; [exact H1|]. split; [exact H2|]. intros _ (r & Hr). exact (H r Hr). Qed.
Lemma inf_start l : str_eq_nocase l (%"inf") = true \/ str_eq_nocase l (%"infinity") = true -> starts_not inner l.
Proof.
  intros H. destruct l as [|x l]; [exact I|]. cbn.
  assert (E : eq_nocase x 105 = true) by (destruct H as [H|H]; cbn [str_eq_nocase] in H; apply andb_true_iff in H; apply H).
  apply nocase_letter in E; [|reflexivity]. now apply delim_no_letter.
Qed.
(** a time unit of a single duration: an identifier and delimiters *)
Lemma single_unit_start l u m : single_unit c1 tu l u m -> exists id r, is_identifier tu kw nums id /\ l = id ++ r /\ starts_not (fun x => negb (inner x)) r.
Proof.
  intros [l' u' m' Ha Hg|l' u' m' Ha Hn Hu Hg|l' w l1 ds a u' m' Ha (-> & Hw & Hl) Nw Hg Hs He].
  - exists l', []. split; [eapply id_unit; eauto|]. split; [now rewrite app_nil_r|exact I].
  - exists l', []. split; [eapply id_unit; eauto|]. split; [now rewrite app_nil_r|exact I].
  - exists w, l1. split; [eapply id_unit; eauto|]. split; [reflexivity|exact Hl].
Qed.
Lemma opt_single_unit l u m : single_unit c1 tu l u m -> single_unit c2 tu l u m.
Proof.
  intros [l' u' m' Ha Hg|l' u' m' Ha Hn Hu Hg|l' w l1 ds a u' m' Ha Hu Nw Hg Hs He].
  - destruct (c_allow_ago c2) eqn:E; [|now apply su_plain]. destruct (id_plain l' (id_unit _ _ _ Hg)) as [N P]. apply su_no_ago; auto.
    apply until_all. intros x Hx. rewrite <- (mo_inner _ _ MO). now apply P.
  - apply su_no_ago; auto; [now apply (mo_ago _ _ MO)|now rewrite <- (mo_inner _ _ MO)].
  - apply su_ago with w l1 ds a; auto; [now apply (mo_ago _ _ MO)|now rewrite <- (mo_inner _ _ MO)|now rewrite <- (mo_inner _ _ MO)].
Qed.
Lemma opt_numeral l n r : numeral_prefix c1 nums l n r -> numeral_prefix c2 nums l n r.
Proof. unfold numeral_prefix. now rewrite (mo_inner _ _ MO). Qed.
Lemma numeral_start l n r : numeral_prefix c1 nums l n r -> exists id x y, is_identifier tu kw nums id /\ l = id ++ x :: y /\ inner x = true /\ u_get tu id = None /\
  (forall z, In z id -> inner z = false).
Proof.
  intros (f & w & l1 & ds & Ef & (-> & Hw & Hl) & Nw & Hf & (-> & Hd & _) & Nd & _). destruct ds as [|x ds]; [congruence|].
  exists w, x, (ds ++ r). split; [eapply id_numeral; eauto|]. split; [reflexivity|]. split; [apply Hd; now left|].
  split; [apply (pt_units_numerals _ _ _ _ (ow_tables _ _ _ _ OW) f w Ef); congruence|].
  intros z Hz. apply negb_true_iff. now apply Hw.
Qed.
Lemma numeral_not_single l n r c : c_inner_delimiter c = inner -> numeral_prefix c1 nums l n r -> ~ single_unit_like c tu l.
Proof.
  intros Ec H. destruct (numeral_start l n r H) as (id & x & y & Hi & -> & Hx & Hu & Hn).
  assert (W : forall id', u_get tu id' <> None -> id' <> id ++ x :: y).
  { intros id' G ->. destruct (pt_units _ _ _ _ (ow_tables _ _ _ _ OW) _ G) as [_ P].
    destruct (P x) as [P1 _]; [apply in_or_app; right; now left|]. unfold inner in Hx. congruence. }
  intros K. inversion K as [l' _ G|l' _ _ _ G|l' w l1 ds a r' _ Hw Nw G _ _]; subst; try (now apply (W _ G)).
  rewrite Ec in Hw. assert (w = id) as ->.
  { apply (until_other inner inner id x y w l1); auto. intros z Hz. destruct Hw as (_ & Hw & _). apply negb_true_iff. now apply Hw. }
  congruence.
Qed.

Lemma opt_single s d : single_duration c1 tu kw nums s d -> single_duration c2 tu kw nums s d.
Proof.
  intros [s0 n l W F x Hs Hn|s0 n l W F x r u m Hs Hn Nr Eu Hu|s0 n l Hs Hd Hi|s0 n l u m Hs Hw Hk|s0 n l u m Hs Hw Hk Ho Hu|s0 n l num r u m Hs Hw Hk Ho Hp Hu].
  - rewrite (mo_unit _ _ MO). apply sd_number with l; [eapply opt_signed; eauto using number_start|]. now apply opt_number.
  - apply sd_number_unit with l r; auto; [eapply opt_signed; eauto using number_start| |now apply opt_single_unit].
    apply opt_number; auto. destruct (single_unit_start r u m Hu) as (id & r0 & Hi & -> & _). now apply id_start.
  - apply sd_infinity with l; auto; [apply opt_signed; auto; now apply inf_start|now apply (mo_infinity _ _ MO)].
  - destruct Hk as (k & Ek & Hk). pose proof (id_keyword _ _ _ _ Ek Hk) as Hi.
    destruct (id_start l [] Hi) as (S1 & S2 & _). rewrite app_nil_r in *. apply sd_keyword with l; [now apply opt_signed| |now exists k].
    apply opt_word; [exact Hw|]. intros r Hr. apply (id_no_inf l [] Hi I r). now rewrite app_nil_r.
  - destruct (single_unit_start l u m Hu) as (id & r0 & Hi & -> & Hr0).
    apply sd_unit with (id ++ r0); auto; [apply opt_signed; auto; now apply id_start| |now apply (mo_optional _ _ MO)|now apply opt_single_unit].
    apply opt_word; [exact Hw|]. now apply id_no_inf.
  - destruct (numeral_start l num r Hp) as (id & x & y & Hi & El & Hx & Hu' & Hn).
    apply sd_numeral with l r; auto.
    + subst l. apply opt_signed; auto. now apply id_start.
    + apply opt_word; [exact Hw|]. subst l. apply id_no_inf; auto. cbn. now rewrite Hx.
    + intros _. apply (numeral_not_single l num r); [now rewrite <- (mo_inner _ _ MO)|exact Hp].
    + now apply opt_numeral.
    + now apply opt_single_unit.
Qed.
End Options.

Theorem C68_more_options_single : forall c1 c2 tu kw nums s d, env_ok c1 tu kw nums -> env_ok c2 tu kw nums -> utf8 s = true ->
  c_allow_multiple c1 = false -> more_options c1 c2 -> ordinary_words c1 tu kw nums ->
  parse c1 s tu kw nums = Ok d -> parse c2 s tu kw nums = Ok d.
Proof.
  intros c1 c2 tu kw nums s d H1 H2 U Hm MO OW P. apply C22_single_grammar in P; auto. destruct P as [P1 P2].
  apply C22_single_grammar; auto; [now rewrite <- (mo_multiple _ _ MO)|]. split; [now apply (opt_single c1 c2)|].
  destruct P2 as [P2|P2]; [left; now apply (mo_negative _ _ MO)|now right].
Qed.
Print Assumptions C68_more_options_single.

(** ** several durations *)
Section OptionsMulti.
Context (c1 c2 : config) (tu : units_like) (kw : option units_like) (nums : option numbers_like).
Hypothesis MO : more_options c1 c2.
Hypothesis OW : ordinary_words c1 tu kw nums.
Hypothesis IK : forall x, c_inner_delimiter c1 x = true -> keyword_end c1 x = true.
(** delimiters in front of the time unit are only switched on without conjunctions and optional numbers *)
Hypothesis UD : c_allow_time_unit_delimiter c1 = false -> c_allow_time_unit_delimiter c2 = true ->
  conjunctions c1 = [] /\ c_number_is_optional c1 = false.

Lemma inner_outer x : c_inner_delimiter c1 x = true -> c_outer_delimiter c1 x = true.
Proof.
  intros H. pose proof (IK x H) as K. unfold keyword_end in K. apply orb_true_iff in K. destruct K as [K|K]; [exact K|]. exfalso.
  unfold starts_duration in K. apply orb_true_iff in K. destruct K as [K|K].
  - destruct (delim_no_digit c1 tu kw nums OW x K). congruence.
  - destruct (delim_no_sign c1 tu kw nums OW x K). congruence.
Qed.
Lemma same_keyword_end x : keyword_end c2 x = keyword_end c1 x.
Proof. unfold keyword_end. now rewrite (mo_outer _ _ MO). Qed.
Lemma unit_end_1 x : unit_end c1 x = keyword_end c1 x.
Proof.
  unfold unit_end. destruct (c_inner_delimiter c1 x) eqn:E; [|now rewrite andb_false_r, orb_false_r]. now rewrite (IK x E).
Qed.
Lemma unit_end_2 x : unit_end c2 x = keyword_end c1 x.
Proof.
  unfold unit_end. rewrite same_keyword_end, <- (mo_inner _ _ MO). destruct (c_inner_delimiter c1 x) eqn:E; [|now rewrite andb_false_r, orb_false_r]. now rewrite (IK x E).
Qed.
Lemma until_same p q l a b : (forall x, p x = q x) -> until p l a b -> until q l a b.
Proof.
  intros E (H1 & H2 & H3). split; [exact H1|]. split; [intros x Hx; rewrite <- E; now apply H2|]. destruct b as [|x b]; [exact I|]. cbn in *. now rewrite <- E.
Qed.
Lemma until_units l a b : until (unit_end c1) l a b <-> until (unit_end c2) l a b.
Proof. split; apply until_same; intros x; now rewrite unit_end_1, unit_end_2. Qed.
Lemma until_keyword_unit l a b : until (keyword_end c1) l a b <-> until (unit_end c2) l a b.
Proof. split; apply until_same; intros x; now rewrite unit_end_2. Qed.
Lemma like_same l : multi_unit_like c1 tu l <-> multi_unit_like c2 tu l.
Proof. split; intros (w & l1 & H & N & G); exists w, l1; (split; [now apply until_units|auto]). Qed.
Lemma opt_conjunctions : conjunctions c2 = conjunctions c1.
Proof. unfold conjunctions. now rewrite (mo_conjunctions _ _ MO). Qed.
Lemma opt_connection l r : connection c1 l r -> connection c2 l r.
Proof.
  intros [l' ds r' H1 H2 H3 H4|l' ds y ws1 w ws2 z r' H1 H2 H3 H4 H5 H6 H7].
  - apply con_delimiter with ds; auto; [now rewrite <- (mo_outer _ _ MO)|]. now rewrite opt_conjunctions.
  - apply con_word with ds y ws1 w ws2 z; auto; [now rewrite <- (mo_outer _ _ MO)|now rewrite opt_conjunctions|]. now rewrite <- (mo_outer _ _ MO).
Qed.
Lemma opt_next l r : next_component c1 l r -> next_component c2 l r.
Proof. intros [l' H|l' r' H]; [apply nc_adjacent; now rewrite <- (mo_outer _ _ MO)|apply nc_connection; now apply opt_connection]. Qed.
Lemma opt_ago l r : c_allow_ago c2 = true -> ago c2 l r -> exists ds a, span (c_inner_delimiter c1) l ds a /\ ds <> [] /\ word_prefix (%"ago") a r /\ (r = [] \/ starts_with (keyword_end c1) r).
Proof.
  intros _ (_ & ds & a & H1 & H2 & H3 & H4). exists ds, a. rewrite (mo_inner _ _ MO). split; [exact H1|]. split; [exact H2|]. split; [exact H3|].
  destruct H4 as [H4|H4]; [now left|]. right. destruct r as [|x r]; [exact H4|]. cbn in *. now rewrite same_keyword_end in H4.
Qed.

(** the identifier at the beginning of a component which starts with a letter *)
Lemma word_nocase_eq v w : str_eq_nocase v w = true -> (forall x, In x w -> is_letter x = true) -> forall x, In x v -> is_letter x = true.
Proof.
  revert w. induction v as [|y v IH]; intros [|b w] H L x Hx; try discriminate; [destruct Hx|]. cbn [str_eq_nocase] in H. apply andb_true_iff in H. destruct H as [Hb H].
  destruct Hx as [<-|Hx]; [apply (nocase_letter y b Hb); apply L; now left|]. apply (IH w H); auto. intros z Hz. apply L. now right.
Qed.
Lemma letter_not_end x : is_letter x = true -> keyword_end c1 x = false.
Proof.
  intros H. unfold keyword_end. rewrite (proj2 (delim_no_letter c1 tu kw nums OW x H)). cbn.
  unfold is_letter in H. unfold starts_duration, is_digit, is_sign. lia.
Qed.
Lemma letter_no_number x : is_letter x = true -> is_sign x = false /\ is_digit x = false /\ is_dot x = false.
Proof. unfold is_letter, is_sign, is_digit, is_dot. lia. Qed.
Lemma plain_keyword_end id : plain_identifier c1 id -> forall x, In x id -> keyword_end c1 x = false.
Proof. intros P x Hx. now apply (plain_not_end c1 id P). Qed.
(** until the end of a word *)
Lemma until_word p v r w b : (forall x, In x v -> p x = false) -> r = [] \/ starts_with p r -> until p (v ++ r) w b -> w = v /\ b = r.
Proof.
  intros Hv Hr H. apply (span_det (fun x => negb (p x)) (v ++ r)); [exact H|]. split; [reflexivity|]. split; [intros x Hx; now rewrite Hv|].
  destruct Hr as [->|Hr]; [exact I|]. destruct r as [|x r]; [exact I|]. cbn in *. now rewrite Hr.
Qed.

(** no component of the first configuration starts with the word `ago` *)
Lemma no_ago_component v r d r' : str_eq_nocase v (%"ago") = true -> r = [] \/ starts_with (keyword_end c1) r -> ~ component c1 tu kw nums (v ++ r) d r'.
Proof.
  intros Hv Hr H. pose proof (word_nocase_eq v _ Hv ago_letter) as L.
  assert (VE : forall x, In x v -> keyword_end c1 x = false) by (intros x Hx; now apply letter_not_end, L).
  assert (V0 : exists x v', v = x :: v' /\ is_letter x = true /\ eq_nocase x 97 = true).
  { destruct v as [|x v]; [discriminate|]. exists x, v. split; [reflexivity|]. split; [apply L; now left|]. cbn [str_eq_nocase] in Hv. apply andb_true_iff in Hv. apply Hv. }
  destruct V0 as (x & v' & Ev & Lx & Hx). destruct (letter_no_number x Lx) as (S1 & S2 & S3).
  assert (SG : forall n l, signed c1 (v ++ r) n l -> l = v ++ r).
  { intros n l Hs. destruct (signed_head_or c1 _ _ _ Hs) as [(y & s' & E & Hy)|E]; [|auto]. subst v. cbn in E. injection E as <- _. congruence. }
  assert (ID : forall w l1, until (keyword_end c1) (v ++ r) w l1 -> is_identifier tu kw nums w -> False).
  { intros w l1 Hu Hi. destruct (until_word _ v r w l1 VE Hr Hu) as [-> _]. destruct (ow_words _ _ _ _ OW v Hi) as (_ & _ & Ha). congruence. }
  assert (NI : forall q, ~ word_prefix (%"inf") (v ++ r) q).
  { intros q (w & E & Hw). subst v. destruct w as [|y w]; [discriminate|]. injection E as <- _. cbn [str_eq_nocase] in Hw. apply andb_true_iff in Hw. destruct Hw as [Hw _].
    unfold eq_nocase in Hx, Hw. apply Z.eqb_eq in Hx, Hw. rewrite Hx in Hw. discriminate. }
  inversion H as [s0 n l W F e r0 l1 Hs Hn Hu Hc|s0 n l W F e l1 u m r0 Hs Hn Eu Hu|s0 n l l1 r0 Hs Hd Hi He Hc|s0 n l l0 l1 r0 Hs Hd Hi He Hi2 He2 Hc
    |s0 n l u m l1 r0 Hs Hw Hk Hc|s0 n l u m r0 Hs Hw Hk Ho Hu|s0 n l num l1 u m r0 Hs Hw Hk Ho Hp Hu]; subst s0 r0 d; pose proof (SG _ _ Hs) as ->.
  - apply number_head in Hn. subst v. cbn in Hn. rewrite S2, S3 in Hn. discriminate.
  - apply number_head in Hn. subst v. cbn in Hn. rewrite S2, S3 in Hn. discriminate.
  - now apply (NI l1).
  - now apply (NI l0).
  - destruct Hk as (k & w & Ek & Hk & Nw & G). apply (ID w l1 Hk). eapply id_keyword; eauto.
  - assert (K : exists w l1 u m, until (unit_end c1) (v ++ r) w l1 /\ u_get tu w = Some (u, m)) by (inversion Hu; subst; eauto 8).
    destruct K as (w & l1 & u0 & m0 & K & G). apply (ID w l1); [|eapply id_unit; eauto]. now apply until_keyword_unit, until_units.
  - destruct (numeral_start c1 tu kw nums OW _ _ _ Hp) as (id & x0 & y & Hi & E & Hx0 & _ & _).
    apply (ID id (x0 :: y)); [|exact Hi]. rewrite E. split; [reflexivity|]. pose proof (plain_keyword_end id (id_plain c1 tu kw nums OW id Hi)) as P.
    split; [intros z Hz; now rewrite P|]. cbn. now rewrite (IK x0 Hx0).
Qed.

(** two different words at the beginning of the same text *)
Lemma prefix_two a : forall b l r1 r2, word_prefix a l r1 -> word_prefix b l r2 -> (exists r, word_prefix a b r) \/ (exists r, word_prefix b a r).
Proof.
  induction a as [|x a IH]; intros b l r1 r2 (v1 & E1 & H1) (v2 & E2 & H2).
  - left. exists b, []. auto.
  - destruct b as [|y b]; [right; exists (x :: a), []; auto|].
    destruct v1 as [|z1 v1]; [discriminate|]. destruct v2 as [|z2 v2]; [discriminate|]. cbn [str_eq_nocase] in H1, H2.
    apply andb_true_iff in H1, H2. destruct H1 as [Q1 H1], H2 as [Q2 H2]. subst l. cbn [app] in E2. injection E2 as <- E2.
    assert (Q : eq_nocase y x = true /\ eq_nocase x y = true) by (revert Q1 Q2; unfold eq_nocase; lia). destruct Q as [Q3 Q4].
    destruct (IH b (v1 ++ r1) r1 r2) as [(r & v & -> & H)|(r & v & -> & H)]; [exists v1; auto|exists v2; auto| |].
    + left. exists r, (y :: v). split; [reflexivity|]. cbn [str_eq_nocase]. now rewrite Q3, H.
    + right. exists r, (x :: v). split; [reflexivity|]. cbn [str_eq_nocase]. now rewrite Q4, H.
Qed.

Definition continued (r : str) : Prop := r = [] \/ exists d' r', component c1 tu kw nums r d' r'.

Lemma no_ago_next l r : next_component c1 l r -> continued r -> c_allow_ago c2 = true -> forall r', ~ ago c2 l r'.
Proof.
  intros Hc HR Ha r' H. destruct (opt_ago l r' Ha H) as (ds & a & Hs & Nd & Hp & He).
  destruct Hp as (v & -> & Hv). pose proof (word_nocase_eq v _ Hv ago_letter) as L.
  assert (Ho : span (c_outer_delimiter c1) l ds (v ++ r')).
  { destruct Hs as (E & Hs & _). split; [exact E|]. split; [intros x Hx; now apply inner_outer, Hs|].
    destruct v as [|x v]; [discriminate|]. cbn. apply (delim_no_letter c1 tu kw nums OW x). apply L. now left. }
  destruct Hc as [l Hc|l r Hc].
  - destruct Hs as (-> & Hs & _). destruct ds as [|x ds]; [congruence|]. cbn in Hc. rewrite (inner_outer x) in Hc; [discriminate|]. apply Hs. now left.
  - destruct Hc as [l ds0 r H1 H2 H3 H4|l ds0 y ws1 w ws2 z r H1 H2 H3 H4 H5 H6 H7].
    + destruct (span_det _ _ _ _ _ _ H1 Ho) as [-> ->]. destruct HR as [HR|(d' & r2 & HR)]; [congruence|]. exact (no_ago_component v r' d' r2 Hv He HR).
    + destruct (span_det _ _ _ _ _ _ H1 Ho) as [-> ->].
      assert (Hw : In w (conjunctions c1)) by (rewrite H4; apply in_or_app; right; now left).
      destruct (prefix_two w (%"ago") (v ++ r') z r' H6) as [(q & Q)|(q & Q)]; [now exists v| |]; now apply (ow_conjunctions _ _ _ _ OW w Hw q) in Q.
Qed.
Lemma opt_multi_unit l u m r : continued r -> multi_unit c1 tu l u m r -> multi_unit c2 tu l u m r.
Proof.
  intros HR H. revert HR. destruct H as [l' w l1 u' m' r' Hu Nw Hg Na Nd Hc|l' w l1 l2 u' m' r' Hu Nw Hg Ha Hc]; intros HR.
  - apply mu_plain with w l1; auto; [now apply until_units| | |now apply opt_next].
    + intros r0 H0. pose proof H0 as [Ha _]. exact (no_ago_next l1 r' Hc HR Ha r0 H0).
    + intros _ [N H]. rewrite <- (mo_inner _ _ MO) in H. destruct H as (_ & H & _).
      destruct l1 as [|x l1]; [congruence|]. pose proof (inner_outer x (H x (or_introl eq_refl))) as X.
      inversion Hc as [l0 H0|l0 r0 H0]; subst; [cbn in H0; congruence|].
      assert (S : span (c_outer_delimiter c1) (x :: l1) (x :: l1) []).
      { split; [now rewrite app_nil_r|]. split; [|exact I]. intros z Hz. now apply inner_outer, H. }
      inversion H0 as [l2 ds r2 S1 S2 S3 S4|l2 ds y ws1 w0 ws2 z r2 S1 S2 S3 S4 S5 S6 S7]; subst; destruct (span_det _ _ _ _ _ _ S1 S) as [_ E]; congruence.
  - apply mu_ago with w l1 l2; auto; [now apply until_units| |now apply opt_next].
    destruct Ha as (Ha & ds & a & H1 & H2 & H3 & H4). split; [now apply (mo_ago _ _ MO)|]. exists ds, a. rewrite <- (mo_inner _ _ MO).
    split; [exact H1|]. split; [exact H2|]. split; [exact H3|]. destruct H4 as [H4|H4]; [now left|]. right. destruct l2 as [|x l2]; [exact H4|]. cbn in *. now rewrite same_keyword_end.
Qed.
Lemma multi_unit_start l u m r : multi_unit c1 tu l u m r -> exists id l1, is_identifier tu kw nums id /\ until (keyword_end c1) l id l1.
Proof.
  intros [l' w l1 u' m' r' Hu Nw Hg Na Nd Hc|l' w l1 l2 u' m' r' Hu Nw Hg Ha Hc]; exists w, l1; (split; [eapply id_unit; eauto|now apply until_keyword_unit, until_units]).
Qed.
Lemma word_no_inf l id l1 : is_identifier tu kw nums id -> until (keyword_end c1) l id l1 -> forall r, ~ word_prefix (%"inf") l r.
Proof.
  intros Hi (-> & _ & Hl) r Hp. destruct (ow_words _ _ _ _ OW id Hi) as (_ & D & _). destruct l1 as [|x l1]; [rewrite app_nil_r in Hp; exact (D r Hp)|].
  cbn in Hl. apply negb_false_iff in Hl. destruct (word_prefix_stop (%"inf") x l1) with (id := id) (r := r) as (r0 & H0); [|exact Hp|exact (D r0 H0)].
  intros b Hb. destruct (eq_nocase x b) eqn:E; [|reflexivity]. apply nocase_letter in E; [|now apply inf_letter]. rewrite letter_not_end in Hl by exact E. discriminate.
Qed.
Lemma word_start l id l1 : is_identifier tu kw nums id -> until (keyword_end c1) l id l1 -> starts_not (c_inner_delimiter c1) l.
Proof. intros Hi (-> & _ & _). now apply (id_start c1 tu kw nums OW). Qed.
Lemma numeral_until l n r : numeral_prefix c1 nums l n r -> exists id l1, is_identifier tu kw nums id /\ until (keyword_end c1) l id l1 /\ u_get tu id = None.
Proof.
  intros Hp. destruct (numeral_start c1 tu kw nums OW _ _ _ Hp) as (id & x0 & y & Hi & -> & Hx0 & Hu & _). exists id, (x0 :: y). split; [exact Hi|]. split; [|exact Hu].
  split; [reflexivity|]. pose proof (plain_keyword_end id (id_plain c1 tu kw nums OW id Hi)) as P. split; [intros z Hz; now rewrite P|]. cbn. now rewrite (IK x0 Hx0).
Qed.
Lemma numeral_not_multi l n r : numeral_prefix c1 nums l n r -> ~ multi_unit_like c2 tu l.
Proof.
  intros Hp (w & l1 & Hw & _ & G). destruct (numeral_until l n r Hp) as (id & l2 & Hi & Hu & Gn). apply until_keyword_unit in Hu.
  destruct (span_det _ _ _ _ _ _ Hw Hu) as [-> _]. congruence.
Qed.
Lemma signed_nonempty c s n l : signed c s n l -> l <> [].
Proof. now intros [l' H1 H2|x l' r H1 H2 H3 H4|x l' ds r H1 H2 H3 H4]. Qed.
(** without optional numbers a component does not start with a time unit *)
Lemma component_not_like s d r : c_number_is_optional c1 = false -> component c1 tu kw nums s d r -> ~ multi_unit_like c2 tu s.
Proof.
  intros NO H L. destruct L as (w & l1 & Hw & Nw & G). assert (Hi : is_identifier tu kw nums w) by now left.
  apply until_keyword_unit in Hw.
  assert (SG : forall n l, signed c1 s n l -> l = s).
  { intros n l Hs. destruct (signed_head_or c1 _ _ _ Hs) as [(y & s' & -> & Hy)|E]; [|auto]. destruct Hw as (E & Hw & _). destruct w as [|z w]; [congruence|]. injection E as <- _.
    specialize (Hw y (or_introl eq_refl)). unfold keyword_end, starts_duration in Hw. rewrite Hy in Hw. rewrite !orb_true_r in Hw. discriminate. }
  assert (NN : forall W F x r0, ~ number c1 s W F x r0).
  { intros W F x r0 Hn. apply number_head in Hn. destruct Hw as (E & Hw & _). destruct w as [|z w]; [congruence|]. subst s. cbn in Hn.
    specialize (Hw z (or_introl eq_refl)). destruct (ow_words _ _ _ _ OW _ Hi) as (D & _). cbn in D. rewrite D, orb_false_r in Hn.
    unfold keyword_end, starts_duration in Hw. rewrite Hn in Hw. cbn in Hw. rewrite orb_true_r in Hw. discriminate. }
  destruct H as [s0 n l W F e r0 l2 Hs Hn Hu Hc|s0 n l W F e l2 u m r0 Hs Hn Eu Hu|s0 n l l2 r0 Hs Hd Hi' He Hc|s0 n l l0 l2 r0 Hs Hd Hi' He Hi2 He2 Hc
    |s0 n l u m l2 r0 Hs Hw' Hk Hc|s0 n l u m r0 Hs Hw' Hk Ho Hu|s0 n l num l2 u m r0 Hs Hw' Hk Ho Hp Hu]; pose proof (SG _ _ Hs) as ->.
  - now apply NN in Hn.
  - now apply NN in Hn.
  - exact (word_no_inf s0 w l1 Hi Hw _ Hi').
  - exact (word_no_inf s0 w l1 Hi Hw _ Hi').
  - destruct Hk as (k & w' & Ek & Hk & _ & Gk). destruct (span_det _ _ _ _ _ _ Hk Hw) as [-> _].
    rewrite (pt_units_keywords _ _ _ _ (ow_tables _ _ _ _ OW) k w Ek) in G; congruence.
  - congruence.
  - destruct (numeral_until s0 num l2 Hp) as (id & l3 & Hid & Hu3 & Gn). destruct (span_det _ _ _ _ _ _ Hu3 Hw) as [-> _]. congruence.
Qed.
(** a number without a unit, and what follows *)
Lemma opt_number_next l W F x l1 r : number c1 l W F x l1 -> (u_is_empty tu = true \/ ~ multi_unit_like c1 tu l1) -> next_component c1 l1 r -> continued r ->
  exists l1', number c2 l W F x l1' /\ (u_is_empty tu = true \/ ~ multi_unit_like c2 tu l1') /\ next_component c2 l1' r.
Proof.
  intros Hn Hu Hc HR.
  destruct (span_exists (c_inner_delimiter c1) l1) as (ds & l1' & Hs).
  destruct ds as [|y ds].
  - assert (l1' = l1) as -> by (destruct Hs as (E & _); symmetry; exact E). exists l1. split; [apply (opt_number c1 c2); [exact MO|exact Hn|apply Hs]|].
    split; [|now apply opt_next]. destruct Hu as [Hu|Hu]; [now left|]. right. now rewrite <- like_same.
  - assert (Hy : c_inner_delimiter c1 y = true) by (apply Hs; now left).
    assert (El : l1 = y :: ds ++ l1') by apply Hs.
    destruct (c_allow_time_unit_delimiter c2) eqn:D2.
    + destruct Hn as (p1 & p2 & p3 & N1 & N2 & N3 & N4 & N5).
      assert (D1 : c_allow_time_unit_delimiter c1 = false /\ p3 = l1).
      { inversion N4 as [p D1 E1 E2|p ds1 p' D1 S1 S2 E1 E2]; [now subst|]. exfalso. destruct S1 as (_ & _ & S1). subst p'. rewrite El in S1. cbn in S1. congruence. }
      destruct D1 as [D1 ->].
      destruct (UD D1 eq_refl) as [NC NO].
      inversion Hc as [q Hq E1 E2|q q' Hq E1 E2]; subst q.
      { rewrite <- E2, El in Hq. cbn in Hq. rewrite (inner_outer y Hy) in Hq. discriminate. }
      subst q'. inversion Hq as [q ds2 q' S1 S2 S3 S4 E1 E2|q ds2 y2 ws1 w ws2 z q' S1 S2 S3 S4 S5 S6 S7 E1 E2]; subst q q'; [|rewrite NC in S4; now destruct ws1].
      destruct HR as [HR|(d' & r' & HR)]; [congruence|].
      assert (EX : exists ds3, l1' = ds3 ++ r /\ (forall z, In z ds3 -> c_outer_delimiter c1 z = true)).
      { destruct Hs as (E & Hs & _). destruct S1 as (E' & S1 & S1'). rewrite E in E'.
        revert E' S1 S1' Hs. clear -IK OW. generalize (y :: ds). intros a. revert ds2. induction a as [|b a IH]; intros ds2 E S1 S1' Hs.
        - exists ds2. auto.
        - destruct ds2 as [|b2 ds2]; cbn in E.
          + subst r. cbn in S1'. rewrite (inner_outer b) in S1'; [discriminate|]. apply Hs. now left.
          + injection E as <- E. apply (IH ds2 E); auto; intros v Hv; [apply S1|apply Hs]; now right. }
      destruct EX as (ds3 & -> & H3).
      assert (NR : starts_not (c_outer_delimiter c1) r) by apply S1.
      exists (ds3 ++ r). split; [|split].
      * exists p1, p2, l1. split; [exact N1|]. split; [|split; [|split; [|exact N5]]].
        -- destruct N2 as [l0 H|l0 F' r0 H H']; [now apply no_fraction|]. apply some_fraction; auto. now apply (mo_fraction _ _ MO).
        -- destruct N3 as [l0 H|y0 sg n l0 ds0 r0 e Hy0 He Hsg Hd Hn0 Ee Hb]; [now apply no_exponent|]. apply some_exponent with n ds0; auto. now apply (mo_exponent _ _ MO).
        -- apply some_unit_delimiter with (y :: ds); auto; [now rewrite <- (mo_inner _ _ MO)|]. right. destruct ds3; [exact S3|discriminate].
      * right. destruct ds3 as [|v ds3]; [now apply (component_not_like r d' r')|]. intros (w & l2 & Hw & Nw & G). apply until_keyword_unit in Hw. destruct Hw as (E & Hw & _).
        destruct w as [|v' w]; [congruence|]. injection E as <- _. specialize (Hw v (or_introl eq_refl)). unfold keyword_end in Hw. rewrite H3 in Hw by now left. discriminate.
      * destruct ds3 as [|v ds3].
        -- apply nc_adjacent. now rewrite <- (mo_outer _ _ MO).
        -- apply nc_connection. apply con_delimiter with (v :: ds3); auto; [|discriminate|].
           ++ split; [reflexivity|]. rewrite <- (mo_outer _ _ MO). auto.
           ++ rewrite opt_conjunctions, NC. intros w [].
    + exists l1. split; [|split; [destruct Hu as [Hu|Hu]; [now left|]; right; now rewrite <- like_same|now apply opt_next]].
      destruct Hn as (p1 & p2 & p3 & N1 & N2 & N3 & N4 & N5). exists p1, p2, p3. split; [exact N1|]. split; [|split; [|split; [|exact N5]]].
      * destruct N2 as [l0 H|l0 F' r0 H H']; [now apply no_fraction|]. apply some_fraction; auto. now apply (mo_fraction _ _ MO).
      * destruct N3 as [l0 H|y0 sg n l0 ds0 r0 e Hy0 He Hsg Hd Hn0 Ee Hb]; [now apply no_exponent|]. apply some_exponent with n ds0; auto. now apply (mo_exponent _ _ MO).
      * destruct N4 as [p D1|p ds1 p' D1 S1 S2]; [now apply no_unit_delimiter|]. apply (mo_unit_delimiter _ _ MO) in D1. congruence.
Qed.
Lemma opt_ends l : ends_or_delimited c1 l <-> ends_or_delimited c2 l.
Proof. unfold ends_or_delimited. now rewrite (mo_outer _ _ MO). Qed.
Lemma opt_keyword l u m r : multi_keyword_is c2 kw l u m r <-> multi_keyword_is c1 kw l u m r.
Proof. split; intros (k & w & E & H & N & G); exists k, w; (split; [exact E|]; split; [|auto]); (eapply until_same; [|exact H]; intros x; cbn; now rewrite same_keyword_end). Qed.
Lemma inf_prefix_start l r : word_prefix (%"inf") l r -> starts_not (c_inner_delimiter c1) l.
Proof.
  intros (v & -> & H). destruct v as [|x v]; [discriminate|]. cbn [str_eq_nocase] in H. apply andb_true_iff in H. destruct H as [H _].
  apply nocase_letter in H; [|reflexivity]. cbn. now apply (delim_no_letter c1 tu kw nums OW).
Qed.
Lemma opt_component s d r : component c1 tu kw nums s d r -> continued r -> component c2 tu kw nums s d r.
Proof.
  intros [s0 n l W F x r0 l1 Hs Hn Hu Hc|s0 n l W F x l1 u m r0 Hs Hn Eu Hu|s0 n l l1 r0 Hs Hd Hi He Hc|s0 n l l0 l1 r0 Hs Hd Hi He Hi2 He2 Hc
    |s0 n l u m l1 r0 Hs Hw Hk Hc|s0 n l u m r0 Hs Hw Hk Ho Hu|s0 n l num l1 u m r0 Hs Hw Hk Ho Hp Hu] HR.
  - rewrite (mo_unit _ _ MO). destruct (opt_number_next l W F x l1 r0 Hn Hu Hc HR) as (l1' & H1 & H2 & H3). apply co_number with l l1'; auto.
    apply (opt_signed c1 c2 MO); [exact Hs|]. eapply number_start; eauto.
  - destruct (multi_unit_start _ _ _ _ Hu) as (id & l2 & Hi & Hl). apply co_number_unit with l l1; auto.
    + apply (opt_signed c1 c2 MO); [exact Hs|]. eapply number_start; eauto.
    + apply (opt_number c1 c2); [exact MO|exact Hn|]. eapply word_start; eauto.
    + now apply opt_multi_unit.
  - apply co_inf with l l1; auto; [apply (opt_signed c1 c2 MO); eauto using inf_prefix_start|now apply (mo_infinity _ _ MO)|now apply opt_ends|now apply opt_next].
  - apply co_infinity with l l0 l1; auto; [apply (opt_signed c1 c2 MO); eauto using inf_prefix_start|now apply (mo_infinity _ _ MO)|now rewrite <- opt_ends|now apply opt_ends|now apply opt_next].
  - pose proof Hk as (k & w & Ek & Hk' & Nw & G). pose proof (id_keyword tu kw nums _ _ _ _ Ek G) as Hi.
    apply co_keyword with l l1; [apply (opt_signed c1 c2 MO); eauto using word_start| |now apply opt_keyword|now apply opt_next].
    apply (opt_word c1 c2); [exact Hw|]. eapply word_no_inf; eauto.
  - destruct (multi_unit_start _ _ _ _ Hu) as (id & l2 & Hi & Hl).
    apply co_unit with l; [apply (opt_signed c1 c2 MO); eauto using word_start| | |now apply (mo_optional _ _ MO)|now apply opt_multi_unit].
    + apply (opt_word c1 c2); [exact Hw|]. eapply word_no_inf; eauto.
    + intros u0 m0 r1 H. apply opt_keyword in H. now apply (Hk u0 m0 r1).
  - destruct (numeral_until _ _ _ Hp) as (id & l2 & Hi & Hl & _).
    apply co_numeral with l l1; [apply (opt_signed c1 c2 MO); eauto using word_start| | | |now apply (opt_numeral c1 c2)|now apply opt_multi_unit].
    + apply (opt_word c1 c2); [exact Hw|]. eapply word_no_inf; eauto.
    + intros u0 m0 r1 H. apply opt_keyword in H. now apply (Hk u0 m0 r1).
    + intros _. now apply (numeral_not_multi l num l1).
Qed.
Lemma opt_components s ds : components c1 tu kw nums s ds -> components c2 tu kw nums s ds.
Proof.
  induction 1 as [s d H|s d r ds H N Hr IH].
  - apply cs_last. apply opt_component; [exact H|now left].
  - apply cs_more with r; auto. apply opt_component; [exact H|]. right. destruct Hr as [s0 d0 H0|s0 d0 r0 ds0 H0 _ _]; eauto.
Qed.
End OptionsMulti.

Theorem C68_more_options_multiple : forall c1 c2 tu kw nums s d, env_ok c1 tu kw nums -> env_ok c2 tu kw nums -> utf8 s = true -> delims_strict c1 ->
  c_allow_multiple c1 = true -> more_options c1 c2 -> ordinary_words c1 tu kw nums ->
  (c_allow_time_unit_delimiter c1 = false -> c_allow_time_unit_delimiter c2 = true -> conjunctions c1 = [] /\ c_number_is_optional c1 = false) ->
  parse c1 s tu kw nums = Ok d -> exists d', parse c2 s tu kw nums = Ok d' /\ nanos d' = nanos d.
Proof.
  intros c1 c2 tu kw nums s d H1 H2 U HD Hm MO OW UD P. pose proof Hm as Hm2. rewrite (mo_multiple _ _ MO) in Hm2.
  apply C23_multiple_sound in P; auto; [|now apply delims_strict_ok]. destruct P as (ds & P & Hs & _ & V).
  destruct (C23_multiple_complete c2 tu kw nums s ds) as (D & PD & _ & VD); auto.
  - apply delims_strict_ok. intros _ x Hx. rewrite (same_keyword_end c1 c2 MO). apply HD. now rewrite (mo_inner _ _ MO).
  - now apply (opt_components c1 c2 tu kw nums MO OW HD UD).
  - intros y Hy. destruct (Hs y Hy) as [N|N]; [left; now apply (mo_negative _ _ MO)|now right].
  - exists D. split; [exact PD|]. now rewrite VD, V.
Qed.
Print Assumptions C68_more_options_multiple.

(** the tables of the examples *)
Lemma ex_table_in A (l : list (str * A)) id : table l id <> None -> In id (map fst l).
Proof.
  unfold table. destruct (find _ l) as [e|] eqn:E; [|congruence]. intros _. apply find_some in E. destruct E as [Hi He]. apply str_eqb_iff in He. subst id. now apply in_map.
Qed.
Lemma ex_ordinary c : c_inner_delimiter c = is_ascii_whitespace -> c_outer_delimiter c = is_ascii_whitespace -> (conjunctions c = [] \/ conjunctions c = [%"and"]) ->
  ordinary_words c ex_units (Some ex_keywords) (Some ex_numerals).
Proof.
  intros E1 E2 E3. constructor.
  - destruct ex_plain as [P1 P2 P3 P4 P5 P6 P7]. unfold plain_identifier in *. constructor; unfold plain_identifier; rewrite ?E1, ?E2; auto.
  - split.
    + intros x. rewrite E1, E2. unfold plain_byte, is_letter, is_digit, is_sign, is_dot, is_ascii_whitespace. intros H. split; lia.
    + intros w Hw. rewrite E2. destruct E3 as [E3|E3]; rewrite E3 in Hw; [destruct Hw|]. destruct Hw as [<-|[]]. split; [reflexivity|]. each.
  - intros id [H|[(k & [= <-] & H)|(f & [= <-] & H)]]; apply ex_table_in in H; cbn in H;
      repeat destruct H as [<-|H]; try contradiction; (split; [reflexivity|]); (split; [|reflexivity]); intros r; now apply not_prefix.
  - intros w Hw r. destruct E3 as [E3|E3]; rewrite E3 in Hw; [destruct Hw|]. destruct Hw as [<-|[]]. split; now apply not_prefix.
Qed.
(** nothing but numbers with a time unit / everything *)
Definition opt_all : config := set_number_is_optional ex_single true.
Example C68_more_options_single_example : more_options ex_strict opt_all /\ ordinary_words ex_strict ex_units (Some ex_keywords) (Some ex_numerals) /\
  env_ok ex_strict ex_units (Some ex_keywords) (Some ex_numerals) /\ env_ok opt_all ex_units (Some ex_keywords) (Some ex_numerals) /\
  parse ex_strict (%"+half fortnight") ex_units (Some ex_keywords) (Some ex_numerals) = Ok (Dur false (Std 604800 0)) /\
  parse opt_all (%"+half fortnight") ex_units (Some ex_keywords) (Some ex_numerals) = Ok (Dur false (Std 604800 0)) /\
  (exists e, parse ex_strict (%"- 1.5e1 fortnight ago") ex_units (Some ex_keywords) (Some ex_numerals) = Err e) /\
  parse opt_all (%"- 1.5e1 fortnight ago") ex_units (Some ex_keywords) (Some ex_numerals) = Ok (Dur false (Std 18144000 0)).
Proof.
  split; [constructor; reflexivity || (intros; reflexivity) || discriminate|]. split; [apply ex_ordinary; auto|]. split; [exact ex_env_strict|]. split; [apply ex_env; auto|].
  split; [reflexivity|]. split; [reflexivity|]. split; [eexists; reflexivity|reflexivity].
Qed.
Definition opt_multi : config := set_allow_multiple ex_strict true (Some [%"and"]).
Definition opt_multi_more : config := set_allow_time_unit_delimiter ex_multi false.
Example C68_more_options_multiple_example : more_options opt_multi opt_multi_more /\ ordinary_words opt_multi ex_units (Some ex_keywords) (Some ex_numerals) /\
  env_ok opt_multi ex_units (Some ex_keywords) (Some ex_numerals) /\ env_ok opt_multi_more ex_units (Some ex_keywords) (Some ex_numerals) /\ delims_strict opt_multi /\
  parse opt_multi (%"1 and half min+2s tomorrow") ex_units (Some ex_keywords) (Some ex_numerals) = Ok (Dur false (Std 86433 0)) /\
  parse opt_multi_more (%"1 and half min+2s tomorrow") ex_units (Some ex_keywords) (Some ex_numerals) = Ok (Dur false (Std 86433 0)).
Proof.
  split; [constructor; reflexivity || (intros; reflexivity) || discriminate|]. split; [apply ex_ordinary; auto|]. split; [apply ex_env; auto|]. split; [apply ex_env; auto|].
  split; [intros x H; exact (eq_trans (f_equal (fun b => b || starts_duration x) H) eq_refl)|]. split; reflexivity.
Qed.
(** delimiters in front of the time unit, with optional numbers: another value, with conjunctions: an error *)
Theorem C68_unit_delimiter_refuted : exists c, c_allow_multiple c = true /\ ordinary_words c ex_units (Some ex_keywords) (Some ex_numerals) /\
  (exists s d d', parse c s ex_units None None = Ok d /\ parse (set_allow_time_unit_delimiter c true) s ex_units None None = Ok d' /\ nanos d <> nanos d') /\
  (exists s d e, parse c s ex_units None None = Ok d /\ parse (set_allow_time_unit_delimiter c true) s ex_units None None = Err e).
Proof.
  exists opt_multi_more. split; [reflexivity|]. split; [apply ex_ordinary; auto|]. split.
  - exists (%"1 min"). eexists _, _. split; [reflexivity|]. split; [reflexivity|discriminate].
  - exists (%"1 and 2s"). eexists _, _. split; reflexivity.
Qed.
Print Assumptions C68_unit_delimiter_refuted.
(** identifiers which start with `inf`, or a conjunction `ago` *)
Definition info_keywords : units_like := Units false (table [(%"info", (Day, Mul 1 0))]).
Theorem C68_words_refuted :
  (exists c s d e, c_disable_infinity c = true /\ parse c s ex_units (Some info_keywords) None = Ok d /\
    parse (set_disable_infinity c false) s ex_units (Some info_keywords) None = Err e) /\
  (exists c s d d', c_allow_ago c = false /\ c_conjunctions c = Some [%"ago"] /\ parse c s ex_units None None = Ok d /\
    parse (set_allow_ago_only c true) s ex_units None None = Ok d' /\ nanos d <> nanos d').
Proof.
  split.
  - exists (set_disable_infinity config_new true), (%"info"). eexists _, _. split; [reflexivity|]. split; reflexivity.
  - exists (set_allow_negative (set_allow_multiple config_new true (Some [%"ago"])) true), (%"1min ago 2s"). eexists _, _. split; [reflexivity|]. split; [reflexivity|]. split; [reflexivity|]. split; [reflexivity|discriminate].
Qed.
Print Assumptions C68_words_refuted.
