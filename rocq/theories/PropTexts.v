(** * C84: a single duration is accepted if and only if it is written like the regular expression of the fuzz target says *)
From Verif Require Import Prelude Time Config Parse SpecTime SpecNum SpecParse SpecValue SpecGrammar SpecSpelling SpecTexts.
From Verif Require Import NumProofs ValueProofs SpellProofs Utf8Proofs RefGrammar PropNum PropParse Standard StandardProofs Custom SpecCustom PropCustom ExEnv.

Section Texts.
Context (c : config) (tu : units_like) (kw : option units_like) (nums : option numbers_like).
Context (PE : plain_env c tu kw nums).
Notation inner := (c_inner_delimiter c).

Lemma not_letter x y : 97 <= y <= 122 -> ~ 65 <= x <= 90 /\ ~ 97 <= x <= 122 -> eq_nocase x y = false.
Proof. intros Hy Hx. destruct (eq_nocase x y) eqn:E; [|reflexivity]. apply nocase_letter in E; lia. Qed.
Lemma no_prefix_inf l r : plain_start c l -> c_disable_infinity c = false -> ~ word_prefix (%"inf") l r.
Proof.
  intros [_ H] Hi (v & E & Hv). pose proof (str_eq_nocase_length _ _ Hv) as L. destruct v as [|x [|y [|z [|]]]]; try discriminate L.
  cbn in E. specialize (H x y z r E Hi). congruence.
Qed.
Lemma plain_head l : plain_start c l -> l <> [] /\ starts_not is_digit l /\ starts_not is_dot l /\ starts_not is_sign l.
Proof.
  intros [H _]. destruct l as [|x l]; [contradiction|]. cbn. unfold is_digit, is_dot, is_sign. repeat split; [discriminate|lia..].
Qed.
Lemma plain_word_of l : plain_start c l -> word c l.
Proof. intros H. destruct (plain_head l H) as (_ & H1 & H2 & _). split; [exact H1|]. split; [exact H2|]. intros Hi (r & Hr). exact (no_prefix_inf l r H Hi Hr). Qed.
Lemma plain_app a b : plain_word c a -> (b = [] \/ starts_with inner b) -> plain_start c (a ++ b).
Proof.
  intros [[H1 H2] H3] Hb. split.
  - destruct a as [|x a]; [contradiction|exact H1].
  - intros x y z r E Hi. destruct a as [|a1 [|a2 [|a3 a]]]; [contradiction| | |].
    + destruct b as [|b1 b]; [discriminate|]. destruct Hb as [Hb|Hb]; [discriminate|]. injection E as -> -> ->.
      pose proof (pe_delimiter _ _ _ _ PE y Hb) as D. change (eq_nocase x 105 && (eq_nocase y 110 && (eq_nocase z 102 && true)) = false).
      rewrite (not_letter y 110) by lia. cbn [andb]. now rewrite andb_false_r.
    + destruct b as [|b1 b]; [discriminate|]. destruct Hb as [Hb|Hb]; [discriminate|]. injection E as -> -> -> ->.
      pose proof (pe_delimiter _ _ _ _ PE z Hb) as D. change (eq_nocase x 105 && (eq_nocase y 110 && (eq_nocase z 102 && true)) = false).
      rewrite (not_letter z 102) by lia. cbn [andb]. now rewrite !andb_false_r.
    + injection E as -> -> -> E. exact (H2 x y z a eq_refl Hi).
Qed.

Lemma delim_head ds r : ds <> [] -> delimiters c ds -> starts_with inner (ds ++ r).
Proof. intros N H. destruct ds as [|x ds]; [contradiction|]. apply H. now left. Qed.
Lemma not_inner_head p l : (forall x, p x = true -> inner x = false) -> starts_with p l -> starts_not inner l.
Proof. intros H. destruct l; [intros []|apply H]. Qed.

(** ** writing is reading *)
Lemma sign_part_signed sg n l : sign_part c sg n -> l <> [] -> starts_not is_sign l -> starts_not inner l -> signed c (sg ++ l) n l.
Proof.
  intros [|sg' n' ds N Hs Hd Ha] Nl Ns Ni; [now apply unsigned|]. rewrite <- app_assoc.
  assert (G : forall x, is_sign x = true -> signed c (x :: ds ++ l) (x =? 45) l).
  { intros x Hx. destruct (c_allow_sign_delimiter c) eqn:E.
    - apply (with_sign_delimiter c x (ds ++ l) ds); auto. split; [reflexivity|]. split; [exact Hd|exact Ni].
    - assert (ds = []) as -> by (destruct ds; [reflexivity|discriminate (Ha ltac:(discriminate))]). apply (with_sign c x l l); auto. }
  destruct Hs; [contradiction|exact (G 43 eq_refl)|exact (G 45 eq_refl)].
Qed.

Lemma unit_part_single q u m : unit_part c tu q u m -> single_unit c tu q u m.
Proof.
  intros [id u' m' E|id u' m' ds a E Ha N Hd Hago].
  - destruct (pe_units _ _ _ _ PE id ltac:(congruence)) as (_ & [S W] & _). apply single_unit_word; [apply plain_head; exact S|exact W|exact E].
  - destruct (pe_units _ _ _ _ PE id ltac:(congruence)) as (_ & [S W] & _).
    assert (Sa : starts_not inner a).
    { destruct a as [|x a]; [exact I|]. cbn in Hago |- *. apply andb_true_iff in Hago. destruct Hago as [Hx _].
      apply nocase_letter in Hx; [|lia]. destruct (inner x) eqn:I; [|reflexivity]. pose proof (pe_delimiter _ _ _ _ PE x I). lia. }
    apply (su_ago c tu (id ++ ds ++ a) id (ds ++ a) ds a u' m' Ha); auto.
    + split; [reflexivity|]. split; [intros x Hx; now rewrite W|]. pose proof (delim_head ds a N Hd) as H. destruct (ds ++ a); [exact I|]. cbn in *. now rewrite H.
    + apply plain_head. exact S.
    + split; [reflexivity|]. split; [exact Hd|exact Sa].
Qed.

Lemma unit_part_start q u m : unit_part c tu q u m ->
  plain_start c q /\ starts_not inner q /\ starts_not is_e q /\ u_is_empty tu = false.
Proof.
  assert (G : forall id b, u_get tu id <> None -> (b = [] \/ starts_with inner b) ->
     plain_start c (id ++ b) /\ starts_not inner (id ++ b) /\ starts_not is_e (id ++ b) /\ u_is_empty tu = false).
  { intros id b E Hb. destruct (pe_units _ _ _ _ PE id E) as (E0 & PW & N1 & N2). split; [now apply plain_app|].
    destruct PW as [S W]. destruct id as [|x id]; [destruct S; contradiction|]. cbn in *. repeat split; [apply W; now left| |exact E0]. unfold is_e. lia. }
  intros [id u' m' E|id u' m' ds a E Ha N Hd Hago].
  - rewrite <- (app_nil_r id). apply G; [congruence|now left].
  - apply G; [congruence|right; now apply delim_head].
Qed.

Lemma unit_part_not_keyword q u m u' m' : unit_part c tu q u m -> ~ single_keyword_is kw q u' m'.
Proof.
  intros H (k & Ek & E). destruct (pe_keywords _ _ _ _ PE k q Ek ltac:(congruence)) as ([_ W] & N).
  destruct H as [id u1 m1 E1|id u1 m1 ds a E1 Ha Nd Hd Hago]; [congruence|].
  destruct ds as [|x ds]; [contradiction|]. specialize (Hd x (or_introl eq_refl)).
  rewrite (W x) in Hd; [discriminate|]. apply in_or_app. right. now left.
Qed.

Lemma number_start W fr F r : digit_string W -> fraction_text fr F -> W ++ F <> [] -> starts_not inner (W ++ fr ++ r).
Proof.
  intros HW Hf N.
  assert (G : forall x, 48 <= x <= 57 \/ x = 46 -> inner x = false).
  { intros x Hx. destruct (inner x) eqn:I; [|reflexivity]. pose proof (pe_delimiter _ _ _ _ PE x I). lia. }
  destruct W as [|x W]; [destruct Hf as [|F HF]; [now destruct N|]; cbn; apply G; lia|]. cbn. apply G. left. apply HW. now left.
Qed.

Lemma ends_with_delimiters ds r : delimiters c ds -> ends_number r -> ends_number (ds ++ r).
Proof.
  intros Hd Hr. destruct ds as [|x ds]; [exact Hr|]. pose proof (pe_delimiter _ _ _ _ PE x (Hd x (or_introl eq_refl))) as D.
  cbn. unfold ends_number; cbn. unfold is_digit, is_dot, is_e. repeat split; lia.
Qed.

Lemma written_is_read s d : duration_text c tu kw nums s d -> single_duration c tu kw nums s d.
Proof.
  intros [sg n p W F x Hs Hp|sg n p W F x ds q u m Hs Hp Hd Ha Hq|sg n v Hs Hi Hv|sg n k id u m Hs Hk E|sg n q u m Hs Ho Hq|sg n f id num ds q u m Hs Hf E Nd Hd Hq].
  - destruct Hp as [W fr F ex x HW Hf N He Df De]. destruct (number_text_head W fr F ex HW Hf N) as (N1 & N2).
    eapply sd_number; [apply sign_part_signed; eauto using number_start|].
    pose proof (number_of_text c W fr F ex x [] [] HW Hf He N Df De) as H. cbn [app] in H. rewrite !app_nil_r in H. apply H; repeat split; auto.
  - destruct Hp as [W fr F ex x HW Hf N He Df De]. destruct (unit_part_start q u m Hq) as (S & S1 & S2 & S3).
    destruct (plain_head q S) as (P1 & P2 & P3 & P4).
    rewrite <- !app_assoc. destruct (number_text_head W fr F (ex ++ ds ++ q) HW Hf N) as (N1 & N2).
    eapply sd_number_unit; [apply sign_part_signed; eauto using number_start| |exact P1|exact S3|now apply unit_part_single].
    apply number_of_text; auto.
    + split; [exact Hd|]. split; [exact S1|]. split; [|now right]. intros Ef. destruct ds; [reflexivity|]. rewrite Ha in Ef; discriminate.
    + apply ends_with_delimiters; [exact Hd|]. repeat split; assumption.
  - eapply sd_infinity; eauto. destruct v as [|x v]; [destruct Hv; discriminate|].
    assert (Hx : x = 105 \/ x = 73).
    { destruct Hv as [Hv|Hv]; cbn in Hv; apply andb_true_iff in Hv; destruct Hv as [Hv _]; apply nocase_letter in Hv; lia. }
    apply sign_part_signed; auto; [discriminate|cbn; unfold is_sign; lia|]. cbn. destruct (inner x) eqn:I; [|reflexivity].
    pose proof (pe_delimiter _ _ _ _ PE x I). lia.
  - destruct (pe_keywords _ _ _ _ PE k id Hk ltac:(congruence)) as ([S W] & _). destruct (plain_head id S) as (P1 & P2 & P3 & P4).
    eapply sd_keyword; [apply sign_part_signed; eauto|now apply plain_word_of|exists k; auto].
    destruct id as [|x id]; [exact I|]. apply W. now left.
  - destruct (unit_part_start q u m Hq) as (S & S1 & S2 & S3). destruct (plain_head q S) as (P1 & P2 & P3 & P4).
    eapply sd_unit; [apply sign_part_signed; eauto|now apply plain_word_of| |exact Ho|now apply unit_part_single].
    intros u' m'. now apply (unit_part_not_keyword q u m).
  - destruct (unit_part_start q u m Hq) as (S & S1 & S2 & S3). destruct (plain_head q S) as (P1 & P2 & P3 & P4).
    destruct (pe_numerals _ _ _ _ PE f id Hf ltac:(congruence)) as (PW & Nu). pose proof PW as [Si Wi].
    assert (Hb : starts_with inner (ds ++ q)) by now apply delim_head.
    pose proof (plain_app id (ds ++ q) PW (or_intror Hb)) as Sl. destruct (plain_head _ Sl) as (L1 & L2 & L3 & L4).
    assert (X : exists y ds', ds = y :: ds' /\ inner y = true).
    { destruct ds as [|y ds']; [contradiction|]. exists y, ds'. split; [reflexivity|]. apply Hd. now left. }
    destruct X as (y & ds' & -> & Hy).
    assert (NK : forall t, (forall i, u_get t i <> None -> plain_word c i) -> u_get t (id ++ (y :: ds') ++ q) = None).
    { intros t H. destruct (u_get t _) eqn:G; [|reflexivity]. exfalso. destruct (H (id ++ (y :: ds') ++ q) ltac:(congruence)) as [_ W2].
      rewrite (W2 y) in Hy; [discriminate|]. apply in_or_app. right. now left. }
    assert (Un : until inner (id ++ (y :: ds') ++ q) id ((y :: ds') ++ q)).
    { split; [reflexivity|]. split; [intros z Hz; now rewrite Wi|]. cbn. now rewrite Hy. }
    eapply sd_numeral; [apply sign_part_signed; eauto| | | | |].
    + destruct id as [|z id]; [destruct Si; contradiction|]. apply Wi. now left.
    + now apply plain_word_of.
    + intros u' m' (k & Ek & G). rewrite NK in G; [discriminate|]. intros i Hi'. now apply (pe_keywords _ _ _ _ PE k i).
    + intros _ Hl. destruct Hl as [l Ea G|l Ea Nl U2 G|l w l1 ds2 a r Ea U2 Nw G Sp Pf].
      * apply G. apply NK. intros i Hi'. now apply (pe_units _ _ _ _ PE i).
      * apply G. apply NK. intros i Hi'. now apply (pe_units _ _ _ _ PE i).
      * assert (w = id).
        { unfold until in U2, Un. rewrite span_iff in U2, Un. destruct U2, Un. congruence. }
        subst w. contradiction.
    + exists f, id, ((y :: ds') ++ q), (y :: ds'). split; [exact Hf|]. split; [exact Un|]. split; [apply plain_head; exact Si|].
      split; [exact E|]. split; [|split; [discriminate|exact P1]]. split; [reflexivity|]. split; [exact Hd|exact S1].
    + now apply unit_part_single.
Qed.

(** ** reading is writing *)
Lemma signed_sign_part s n l : signed c s n l -> exists sg, s = sg ++ l /\ sign_part c sg n.
Proof.
  assert (T : forall x, is_sign x = true -> sign_text [x] (x =? 45)).
  { intros x Hx. unfold is_sign in Hx. destruct (Z.eqb_spec x 45) as [Ex|Ex]; [subst x; constructor|]. replace x with 43 by lia. constructor. }
  intros [l' H1 H2|x l' r Hx E -> H2|x l' ds r Hx E (-> & Hd & _) H2].
  - exists []. split; [reflexivity|constructor].
  - exists [x]. split; [reflexivity|]. apply (sp_sign c [x] (x =? 45) []); [discriminate|now apply T|intros ? []|congruence].
  - exists (x :: ds). split; [reflexivity|]. apply (sp_sign c [x] (x =? 45) ds); [discriminate|now apply T|exact Hd|auto].
Qed.

Lemma number_number_part l W F x r : number c l W F x r ->
  exists p ds, l = p ++ ds ++ r /\ number_part c p W F x /\ delimiters c ds /\ (ds <> [] -> c_allow_time_unit_delimiter c = true) /\ (r = [] -> ds = []).
Proof.
  intros (l1 & l2 & l3 & (-> & HW & _) & Hf & He & Hu & N).
  assert (U : exists ds, l3 = ds ++ r /\ delimiters c ds /\ (ds <> [] -> c_allow_time_unit_delimiter c = true) /\ (r = [] -> ds = [])).
  { destruct Hu as [l E|l ds r E (-> & Hd & _) O].
    - exists []. repeat split; [intros ? []|congruence].
    - exists ds. repeat split; auto. intros ->. destruct O as [O|O]; [exact O|contradiction]. }
  destruct U as (ds & -> & U1 & U2 & U3).
  assert (X : exists ex, l2 = ex ++ ds ++ r /\ exponent_text ex x /\ (ex <> [] -> c_disable_exponent c = false)).
  { inversion He as [l' H|y sg n l' es r' e Hy De Hs (E2 & H2 & _) Nd E3 R]; subst.
    - exists []. repeat split; [constructor|congruence].
    - exists (y :: sg ++ es). split; [cbn; now rewrite <- app_assoc|]. split; [|auto]. apply (et_some y sg n es); auto.
      + unfold is_e in Hy. lia.
      + destruct Hs; constructor.
      + now apply digit_string_is_digit. }
  destruct X as (ex & -> & X1 & X2).
  assert (Y : exists fr, l1 = fr ++ ex ++ ds ++ r /\ fraction_text fr F /\ (fr <> [] -> c_disable_fraction c = false)).
  { inversion Hf as [l' H|l' F' r' Df (E2 & H2 & _)]; subst.
    - exists []. repeat split; [constructor|congruence].
    - exists (%"." ++ F). split; [reflexivity|]. split; [constructor; now apply digit_string_is_digit|auto]. }
  destruct Y as (fr & -> & Y1 & Y2).
  exists (W ++ fr ++ ex), ds. split; [now rewrite <- !app_assoc|]. split; [|auto]. constructor; auto. now apply digit_string_is_digit.
Qed.

Lemma single_unit_part q u m : single_unit c tu q u m -> unit_part c tu q u m.
Proof.
  intros [l u' m' Ea E|l u' m' Ea Nl U E|l w l1 ds a u' m' Ea (-> & _ & S) Nw E (-> & Hd & _) Hago]; [now constructor|now constructor|].
  apply up_ago; auto. intros ->. cbn in S. destruct a as [|x a]; [discriminate|]. cbn in S, Hago. apply andb_true_iff in Hago.
  destruct Hago as [Hx _]. apply nocase_letter in Hx; [|lia]. pose proof (pe_delimiter _ _ _ _ PE x). destruct (inner x); [|discriminate]. lia.
Qed.

Lemma read_is_written s d : single_duration c tu kw nums s d -> duration_text c tu kw nums s d.
Proof.
  intros [s' n l W F x H1 H2|s' n l W F x r u m H1 H2 H3 H4 H5|s' n l H1 H2 H3|s' n l u m H1 H2 H3|s' n l u m H1 H2 H3 H4 H5|s' n l num r u m H1 H2 H3 H4 H5 H6];
    destruct (signed_sign_part _ _ _ H1) as (sg & -> & Hs).
  - destruct (number_number_part _ _ _ _ _ H2) as (p & ds & -> & Hp & _ & _ & N). rewrite (N eq_refl), app_nil_r. now constructor.
  - destruct (number_number_part _ _ _ _ _ H2) as (p & ds & -> & Hp & Hd & Ha & _). apply dt_number_unit; auto. now apply single_unit_part.
  - now constructor.
  - destruct H3 as (k & Ek & E). now apply (dt_keyword c tu kw nums sg n k l u m).
  - apply dt_unit; auto. now apply single_unit_part.
  - destruct H5 as (f & w & l1 & ds & Ef & (-> & _ & _) & Nw & E & (-> & Hd & _) & Nd & Nr).
    apply (dt_numeral c tu kw nums sg n f w num ds r u m); auto. now apply single_unit_part.
Qed.
End Texts.

(** C84 *)
Theorem C84_written_texts : forall c tu kw nums s d,
  env_ok c tu kw nums -> plain_env c tu kw nums -> c_allow_multiple c = false -> utf8 s = true ->
  parse c s tu kw nums = Ok d <-> duration_text c tu kw nums s d /\ sign_allowed c d.
Proof.
  intros c tu kw nums s d HE PE Hm Us. rewrite (C22_single_grammar c tu kw nums s d HE Us Hm). split; intros [H A]; (split; [|exact A]).
  - now apply read_is_written.
  - now apply written_is_read.
Qed.
Print Assumptions C84_written_texts.

(** ** The fuzz target fundu/fuzz/fuzz_targets/parse_single.rs: its parser, for all of its settings *)
Definition table (l : list (str * (time_unit * multiplier))) (id : str) : option (time_unit * multiplier) :=
  match find (fun e => str_eqb (fst e) id) l with Some e => Some (snd e) | None => None end.

(** parse_single.rs:122 `(w|d|h|m|s|ms|Ms|ns)` *)
Definition fuzz_units : list (str * (time_unit * multiplier)) :=
  [(%"w", (Week, Mul 1 0)); (%"d", (Day, Mul 1 0)); (%"h", (Hour, Mul 1 0)); (%"m", (Minute, Mul 1 0)); (%"s", (Second, Mul 1 0));
   (%"ms", (MilliSecond, Mul 1 0)); (%"Ms", (MicroSecond, Mul 1 0)); (%"ns", (NanoSecond, Mul 1 0))].

(** parse_single.rs:32-73 the choices of keywords, and the tables for the regular expression *)
Inductive keywords_choice := NoKeywords | Positive | PositiveNegative | PositiveNegativeZero.
Definition fuzz_keywords (k : keywords_choice) : list (str * (time_unit * multiplier)) :=
  match k with
  | NoKeywords => []
  | Positive => [(%"tomorrow", (Day, Mul 1 0))]
  | PositiveNegative => [(%"yesterday", (Day, Mul (-1) 0)); (%"tomorrow", (Day, Mul 1 0))]
  | PositiveNegativeZero => [(%"yesterday", (Day, Mul (-1) 0)); (%"tomorrow", (Day, Mul 1 0)); (%"today", (Second, Mul 0 0))]
  end.
Definition fuzz_keyword_units (k : keywords_choice) : list custom_time_unit :=
  match k with
  | NoKeywords => []
  | Positive => [CTU Day (Mul 1 0) [%"tomorrow"]]
  | PositiveNegative => [CTU Day (Mul (-1) 0) [%"yesterday"]; CTU Day (Mul 1 0) [%"tomorrow"]]
  | PositiveNegativeZero => [CTU Day (Mul (-1) 0) [%"yesterday"]; CTU Day (Mul 1 0) [%"tomorrow"]; CTU Second (Mul 0 0) [%"today"]]
  end.

(** parse_single.rs:13-14 *)
Definition fuzz_delimiter (b : byte) : bool := (b =? 32) || (b =? 9) || (b =? 10) || (b =? 12) || (b =? 13) || (b =? 11).

(** parse_single.rs:17-29, 129-146 *)
Record fuzzing := Fuzzing {
  f_allow_negative : bool; f_allow_time_unit_delimiter : bool; f_disable_infinity : bool; f_disable_exponent : bool; f_disable_fraction : bool;
  f_number_is_optional : bool; f_allow_ago : bool; f_keyword : keywords_choice; f_allow_sign_delimiter : bool }.
Definition fuzz_calls (f : fuzzing) : list custom_call :=
  [ C_set (Set_allow_negative (f_allow_negative f)); C_set (Set_disable_infinity (f_disable_infinity f));
    C_set (Set_disable_fraction (f_disable_fraction f)); C_set (Set_disable_exponent (f_disable_exponent f));
    C_set (Set_number_is_optional (f_number_is_optional f)); C_set (Set_allow_sign_delimiter (f_allow_sign_delimiter f));
    C_set (Set_allow_time_unit_delimiter (f_allow_time_unit_delimiter f)); C_set (Set_allow_ago (f_allow_ago f));
    C_set (Set_inner_delimiter fuzz_delimiter); C_set (Set_outer_delimiter fuzz_delimiter) ] ++
  match f_keyword f with NoKeywords => [] | k => [C_keywords (fuzz_keyword_units k)] end.
Definition fuzz_parser (f : fuzzing) : custom_parser := fold_left cp_call (fuzz_calls f) (cp_with_time_units CUSTOM_DEFAULT_TIME_UNITS).

Definition fuzz_config (f : fuzzing) : config := {|
  c_default_unit := Second; c_disable_exponent := f_disable_exponent f; c_disable_fraction := f_disable_fraction f;
  c_disable_infinity := f_disable_infinity f; c_number_is_optional := f_number_is_optional f; c_allow_multiple := false;
  c_conjunctions := None; c_allow_negative := f_allow_negative f || f_allow_ago f; c_inner_delimiter := fuzz_delimiter;
  c_outer_delimiter := fuzz_delimiter; c_allow_ago := f_allow_ago f; c_allow_sign_delimiter := f_allow_sign_delimiter f;
  c_allow_time_unit_delimiter := f_allow_time_unit_delimiter f |}.

Lemma fuzz_config_is f : cp_config (fuzz_parser f) = fuzz_config f.
Proof. destruct f as [an tud di de df no [] [] sd]; unfold fuzz_config; cbn; rewrite ?orb_true_r, ?orb_false_r; reflexivity. Qed.
Lemma fuzz_units_are f : cp_units (fuzz_parser f) = cu_with_time_units CUSTOM_DEFAULT_TIME_UNITS.
Proof. destruct f as [an tud di de df no [] [] sd]; reflexivity. Qed.
Lemma fuzz_keywords_are f : cp_keywords (fuzz_parser f) = cu_with_time_units (fuzz_keyword_units (f_keyword f)).
Proof. destruct f as [an tud di de df no [] [] sd]; reflexivity. Qed.
Lemma fuzz_numerals_are f : cp_numerals (fuzz_parser f) = [].
Proof. destruct f as [an tud di de df no [] [] sd]; reflexivity. Qed.

Lemma table_of us l : (forall id, (exists u m, registered us id u m) -> In id (map fst l)) ->
  (forall id, In id (map fst l) -> cu_get (cu_with_time_units us) id = table l id) ->
  forall id, cu_get (cu_with_time_units us) id = table l id.
Proof.
  intros H1 H2 id. destruct (in_dec (list_eq_dec Z.eq_dec) id (map fst l)) as [I|I]; [now apply H2|].
  assert (cu_get (cu_with_time_units us) id = None) as ->.
  { destruct (cu_get _ _) as [[u m]|] eqn:E; [|reflexivity]. exfalso. apply I, H1. apply C34_found_iff_registered. eauto. }
  unfold table. destruct (find _ l) as [e|] eqn:E; [|reflexivity]. exfalso. apply I. apply find_some in E. destruct E as [E1 E2].
  apply str_eqb_iff in E2. subst id. now apply in_map.
Qed.
Ltac finite := cbn; repeat match goal with |- _ -> _ => intros | H : _ \/ _ |- _ => destruct H | H : False |- _ => destruct H end.
Lemma fuzz_units_table id : cu_get (cu_with_time_units CUSTOM_DEFAULT_TIME_UNITS) id = table fuzz_units id.
Proof.
  apply table_of.
  - intros i (u & m & _ & t & Ht & _ & Hi). cbn in Ht. repeat destruct Ht as [<-|Ht]; try contradiction; cbn in Hi; destruct Hi as [<-|[]]; vm_compute; tauto.
  - intros i Hi. cbn in Hi. repeat destruct Hi as [<-|Hi]; try contradiction; reflexivity.
Qed.
Lemma fuzz_keywords_table k id : cu_get (cu_with_time_units (fuzz_keyword_units k)) id = table (fuzz_keywords k) id.
Proof.
  apply table_of; destruct k.
  all: try (intros i (u & m & _ & t & Ht & _ & Hi); cbn in Ht; repeat destruct Ht as [<-|Ht]; try contradiction; cbn in Hi; destruct Hi as [<-|[]]; vm_compute; tauto).
  all: intros i Hi; cbn in Hi; repeat destruct Hi as [<-|Hi]; try contradiction; reflexivity.
Qed.

Lemma ext_text c tu tu' kw kw' nums s d : (forall id, u_get tu id = u_get tu' id) ->
  (forall k id e, kw = Some k -> u_get k id = Some e -> exists k', kw' = Some k' /\ u_get k' id = Some e) ->
  duration_text c tu kw nums s d -> duration_text c tu' kw' nums s d.
Proof.
  intros Hu Hk.
  assert (P : forall q u m, unit_part c tu q u m -> unit_part c tu' q u m).
  { intros q u m [id u' m' E|id u' m' ds a E Ea N Hd Ha]; rewrite Hu in E; now constructor. }
  intros [sg n p W F x Hs Hp|sg n p W F x ds q u m Hs Hp Hd Ha Hq|sg n v Hs Hi Hv|sg n k id u m Hs Ek E|sg n q u m Hs Ho Hq|sg n f id num ds q u m Hs Hf E Nd Hd Hq].
  - now constructor.
  - apply dt_number_unit; auto.
  - now constructor.
  - destruct (Hk k id _ Ek E) as (k' & Ek' & E'). now apply (dt_keyword c tu' kw' nums sg n k' id).
  - apply dt_unit; auto.
  - apply (dt_numeral c tu' kw' nums sg n f id); auto.
Qed.

Lemma constructed_ctu b m l : unit_fits b m -> constructed (CTU b m l).
Proof.
  intros H. exists b, l, (Some m). split; [apply (proj1 (C35_constructor b l m (proj1 H))); exact H|]. intros x Hx. injection Hx as <-. apply H.
Qed.
Lemma fuzz_env f : env_ok (fuzz_config f) (custom_like (cu_with_time_units CUSTOM_DEFAULT_TIME_UNITS))
  (Some (custom_like (cu_with_time_units (fuzz_keyword_units (f_keyword f))))) None.
Proof.
  assert (A : ascii_delim fuzz_delimiter) by (intros x; unfold fuzz_delimiter; lia).
  constructor; try exact A; try discriminate.
  - apply custom_units_fit. intros t Ht. cbn in Ht. repeat destruct Ht as [<-|Ht]; try contradiction;
      (eexists _, _, None; split; [reflexivity|discriminate]).
  - intros k Hk. injection Hk as <-. apply custom_units_fit. intros t Ht.
    destruct (f_keyword f); cbn in Ht; repeat destruct Ht as [<-|Ht]; try contradiction;
      (apply constructed_ctu; split; [split; reflexivity|discriminate]).
Qed.

Lemma in_table l id : table l id <> None -> In id (map fst l).
Proof.
  unfold table. destruct (find _ l) as [e|] eqn:E; [|congruence]. intros _. apply find_some in E. destruct E as [E1 E2].
  apply str_eqb_iff in E2. subst id. now apply in_map.
Qed.

Lemma fuzz_plain f : plain_env (fuzz_config f) (custom_like (cu_with_time_units CUSTOM_DEFAULT_TIME_UNITS))
  (Some (custom_like (cu_with_time_units (fuzz_keyword_units (f_keyword f))))) None.
Proof.
  assert (PW : forall id, In id (map fst fuzz_units) \/ In id (map fst (fuzz_keywords PositiveNegativeZero)) -> plain_word (fuzz_config f) id).
  { intros id [H|H]; cbn in H; repeat destruct H as [<-|H]; try contradiction;
      (split; [split; [cbn; lia|intros x y z r E _; try discriminate E; injection E as <- <- <- <-; reflexivity]|intros x; cbn; intros Hx;
        repeat destruct Hx as [<-|Hx]; try contradiction; reflexivity]). }
  constructor.
  - intros x Hx. cbn in Hx. unfold fuzz_delimiter in Hx. lia.
  - intros id H. cbn [u_get custom_like] in H. rewrite fuzz_units_table in H. apply in_table in H. split; [reflexivity|]. split; [apply PW; now left|].
    cbn in H. repeat destruct H as [<-|H]; try contradiction; cbn; lia.
  - intros k id Hk H. injection Hk as <-. cbn [u_get custom_like] in *. rewrite fuzz_keywords_table in H. rewrite fuzz_units_table. apply in_table in H.
    assert (In id (map fst (fuzz_keywords PositiveNegativeZero))) as I by (destruct (f_keyword f); cbn in *; tauto).
    split; [apply PW; now right|]. cbn in I. repeat destruct I as [<-|I]; try contradiction; reflexivity.
  - discriminate.
Qed.

Lemma fuzz_parse f s : cp_parse (fuzz_parser f) s =
  parse (fuzz_config f) s (custom_like (cu_with_time_units CUSTOM_DEFAULT_TIME_UNITS))
    (match f_keyword f with NoKeywords => None | k => Some (custom_like (cu_with_time_units (fuzz_keyword_units k))) end) None.
Proof.
  unfold cp_parse. rewrite fuzz_config_is, fuzz_units_are, fuzz_keywords_are, fuzz_numerals_are. now destruct (f_keyword f).
Qed.

(** its parser accepts exactly the texts of its regular expression (with the exceptions listed there: the sign of negative durations) *)
Theorem C84_fuzz_target : forall f s d, utf8 s = true ->
  cp_parse (fuzz_parser f) s = Ok d <->
  duration_text (fuzz_config f) (Units false (table fuzz_units)) (Some (Units false (table (fuzz_keywords (f_keyword f))))) None s d /\
  (f_allow_negative f = true \/ f_allow_ago f = true \/ is_negative d = false).
Proof.
  intros f s d Us. rewrite fuzz_parse.
  assert (HE : env_ok (fuzz_config f) (custom_like (cu_with_time_units CUSTOM_DEFAULT_TIME_UNITS))
     (match f_keyword f with NoKeywords => None | k => Some (custom_like (cu_with_time_units (fuzz_keyword_units k))) end) None).
  { destruct (fuzz_env f) as [E1 E2 E3 E4 E5 E6]. constructor; auto. intros k Hk. destruct (f_keyword f); try discriminate; now apply E5. }
  assert (HP : plain_env (fuzz_config f) (custom_like (cu_with_time_units CUSTOM_DEFAULT_TIME_UNITS))
     (match f_keyword f with NoKeywords => None | k => Some (custom_like (cu_with_time_units (fuzz_keyword_units k))) end) None).
  { destruct (fuzz_plain f) as [E1 E2 E3 E4]. constructor; auto. intros k id Hk. destruct (f_keyword f); try discriminate; now apply E3. }
  rewrite (C84_written_texts _ _ _ _ s d HE HP eq_refl Us).
  assert (A : sign_allowed (fuzz_config f) d <-> f_allow_negative f = true \/ f_allow_ago f = true \/ is_negative d = false).
  { unfold sign_allowed. cbn [c_allow_negative fuzz_config]. rewrite orb_true_iff. tauto. }
  rewrite A. split; intros [H B]; (split; [|exact B]); revert H; apply ext_text.
  - intros id. cbn [u_get custom_like]. apply fuzz_units_table.
  - intros k id e Hk E. eexists. split; [reflexivity|]. cbn [u_get].
    destruct (f_keyword f); try discriminate; injection Hk as <-; rewrite <- fuzz_keywords_table; exact E.
  - intros id. cbn [u_get custom_like]. now rewrite fuzz_units_table.
  - intros k id e Hk E. injection Hk as <-. cbn [u_get] in E.
    destruct (f_keyword f) eqn:K; [discriminate E| | |]; (eexists; split; [reflexivity|]; rewrite <- fuzz_keywords_table in E; exact E).
Qed.
Print Assumptions C84_fuzz_target.

(** `- 1.5e1 ms AGO` with everything allowed, and `-yesterday` with nothing allowed *)
Example C84_fuzz_target_example :
  cp_parse (fuzz_parser (Fuzzing true true false false false true true PositiveNegative true)) (%"- 1.5e1 ms AGO") = Ok (Dur false (Std 0 15000000)) /\
  cp_parse (fuzz_parser (Fuzzing false false false false false false false PositiveNegative false)) (%"-yesterday") = Ok (Dur false (Std 86400 0)).
Proof.
  split; (apply C84_fuzz_target; [reflexivity|]).
  - split; [|now left].
    set (c := fuzz_config _). set (tu := Units false (table fuzz_units)).
    assert (D : delimiters c (%" ")) by (intros x; cbn; intros [<-|[]]; reflexivity).
    pose proof (dt_number_unit c tu (Some (Units false (table (fuzz_keywords PositiveNegative)))) None (%"- ") true (%"1.5e1") (%"1") (%"5") 1 (%" ")
      (%"ms AGO") MilliSecond (Mul (-1) 0)) as H. apply H; clear H.
    + apply (sp_sign c (%"-") true (%" ")); [discriminate|constructor|exact D|reflexivity].
    + apply (np c (%"1") (%".5") (%"5") (%"e1") 1); [each|apply (ft_some (%"5")); each|discriminate| |reflexivity|reflexivity].
      apply (et_some 101 [] false (%"1") 1); [now left|constructor|each|discriminate|reflexivity|lia].
    + exact D.
    + reflexivity.
    + apply (up_ago c tu (%"ms") MilliSecond (Mul 1 0) (%" ") (%"AGO")); [reflexivity|reflexivity|discriminate|exact D|reflexivity].
  - split; [|right; right; reflexivity].
    apply (dt_keyword (fuzz_config (Fuzzing false false false false false false false PositiveNegative false)) (Units false (table fuzz_units))
      (Some (Units false (table (fuzz_keywords PositiveNegative)))) None (%"-") true (Units false (table (fuzz_keywords PositiveNegative))) (%"yesterday") Day (Mul (-1) 0)); try reflexivity.
    rewrite <- (app_nil_r (%"-")). apply sp_sign; [discriminate|constructor|intros x []|congruence].
Qed.
