(** * Properties C91, C92, C93: which texts the example programs read *)
From Verif Require Import Prelude Util Time Config Bytes Repr Parse SpecTime SpecNum SpecValue SpecParse SpecGrammar SpecSpelling SpecTexts SpecManyTexts SpecCustom
  Utf8Proofs StandardProofs DelimProofs Standard PropParse PropTexts PropManyTexts Custom CustomProofs PropCustom PropCustomText PropCustomTexts Misc
  Examples SpecExamples ExampleTrim PropExampleSystemd PropExampleGnu PropExampleCustom.

(** ** the tables *)
Definition sound_table (t : word_table) : bool :=
  forallb (fun p => forallb (fun id => negb (str_eqb id []) && match look_up t id with Some k => time_unit_eqb (fst k) (fst (fst p)) && (coef (snd k) =? coef (snd (fst p))) && (expo (snd k) =? expo (snd (fst p))) | None => false end) (snd p)) t.
Lemma table_words_of us t : us = map (fun p => CTU (fst (fst p)) (snd (fst p)) (snd p)) t -> sound_table t = true ->
  (t = [] \/ exists p id, In p t /\ In id (snd p)) -> PropCustomText.table_of us (table_words t).
Proof.
  intros -> C NE. unfold sound_table in C. rewrite forallb_forall in C.
  assert (K : forall p id, In p t -> In id (snd p) -> id <> [] /\ look_up t id = Some (fst p)).
  { intros p id Hp Hi. specialize (C p Hp). rewrite forallb_forall in C. specialize (C id Hi). apply andb_true_iff in C. destruct C as [C1 C2]. split; [intros ->; discriminate C1|].
    destruct (look_up t id) as [[u [a b]]|]; [|discriminate C2]. destruct p as [[u' [a' b']] ids]. cbn [fst snd coef expo] in *.
    assert (u = u') by (destruct u, u'; try reflexivity; discriminate C2). assert (a = a') by lia. assert (b = b') by lia. congruence. }
  assert (R : forall id u m, registered (map (fun p => CTU (fst (fst p)) (snd (fst p)) (snd p)) t) id u m <-> exists p, In p t /\ In id (snd p) /\ fst p = (u, m)).
  { intros id u m. split.
    - intros (_ & x & Hx & Ek & Hi). apply in_map_iff in Hx. destruct Hx as (p & <- & Hp). exists p. cbn in *. split; [exact Hp|]. split; [exact Hi|]. unfold key in Ek. cbn in Ek. destruct (fst p). exact Ek.
    - intros (p & Hp & Hi & E). split; [now apply (K p id)|]. exists (CTU (fst (fst p)) (snd (fst p)) (snd p)). split; [apply in_map_iff; eauto|]. split; [unfold key; cbn; rewrite E; reflexivity|exact Hi]. }
  split.
  - intros id u m. rewrite R. cbn [table_words u_get]. split.
    + intros E. unfold look_up in E. destruct (find _ t) as [p|] eqn:F; [|discriminate E]. injection E as E. apply find_some in F. destruct F as [F1 F2]. exists p. split; [exact F1|]. split; [|exact E].
      apply existsb_exists in F2. destruct F2 as (w & W1 & W2). apply str_eqb_iff in W2. now subst w.
    + intros (p & Hp & Hi & E). rewrite <- E. now apply K.
  - cbn [table_words u_is_empty]. destruct NE as [->|(p & id & Hp & Hi)].
    + split; [|reflexivity]. intros _ id u m H. apply R in H. destruct H as (p & [] & _).
    + destruct t as [|q t]; [contradiction|]. split; [discriminate|]. intros N. exfalso. apply (N id (fst (fst p)) (snd (fst p))). apply R. exists p. split; [exact Hp|]. split; [exact Hi|]. now destruct (fst p).
Qed.
(** ** words which cannot be mistaken *)
Definition fine_word (c : config) (id : str) : bool :=
  match id with [] => false | x :: _ => negb (is_digit x) && negb (x =? 46) && negb (x =? 43) && negb (x =? 45) && negb (x =? 101) && negb (x =? 69) end &&
  negb (str_eq_nocase (firstn 3 id) (%"inf")) && forallb (fun x => negb (c_inner_delimiter c x)) id &&
  forallb (fun x => negb (is_digit x) && negb (x =? 43) && negb (x =? 45)) id && negb (str_eq_nocase id (%"ago")).
Definition fine_list (c : config) (us : list custom_time_unit) : bool := forallb (fun t => forallb (fine_word c) (ctu_ids t)) us.
Lemma fine_plain c id : fine_word c id = true -> plain_word c id /\ hd 0 id <> 101 /\ hd 0 id <> 69 /\ (forall x, In x id -> ~ digit_or_sign x) /\ str_eq_nocase id (%"ago") = false.
Proof.
  intros H. unfold fine_word in H. rewrite !andb_true_iff in H. destruct H as [[[[H1 H2] H3] H4] H5].
  assert (A : forall x, In x id -> c_inner_delimiter c x = false) by (rewrite forallb_forall in H3; intros x Hx; specialize (H3 x Hx); now destruct (c_inner_delimiter c x)).
  assert (B : forall x, In x id -> ~ digit_or_sign x) by (rewrite forallb_forall in H4; intros x Hx; specialize (H4 x Hx); unfold digit_or_sign, is_digit in *; lia).
  destruct id as [|x r]; [discriminate|]. unfold is_digit in H1. split; [split; [split|exact A]|]; [lia| |].
  - intros a b d r' E _. rewrite E in H2. cbn [firstn] in H2. now destruct (str_eq_nocase [a; b; d] (%"inf")).
  - cbn [hd]. split; [lia|]. split; [lia|]. split; [exact B|]. now destruct (str_eq_nocase (x :: r) (%"ago")).
Qed.
Lemma fine_ids c us id u m : fine_list c us = true -> registered us id u m -> fine_word c id = true.
Proof. intros F (_ & t & H1 & _ & H2). unfold fine_list in F. rewrite forallb_forall in F. specialize (F t H1). rewrite forallb_forall in F. now apply F. Qed.
Lemma plain_one_by_check os c : let us := units_of os in let ks := keywords_of os in
  (forall x, c_inner_delimiter c x = true -> ~ 48 <= x <= 57 /\ x <> 46 /\ x <> 43 /\ x <> 45 /\ ~ 65 <= x <= 90 /\ ~ 97 <= x <= 122) -> numerals_of os = [] ->
  fine_list c us = true -> fine_list c ks = true ->
  forallb (fun t => forallb (fun id => forallb (fun t' => forallb (fun id' => negb (str_eqb id id')) (ctu_ids t')) us) (ctu_ids t)) ks = true -> plain_calls os c.
Proof.
  intros us ks D1 NN FU FK DJ.
  assert (U : forall id, unit_id os id -> fine_word c id = true) by (intros id (u & m & H); exact (fine_ids c us id u m FU H)).
  assert (K : forall id, keyword_id os id -> fine_word c id = true) by (intros id (u & m & H); exact (fine_ids c ks id u m FK H)).
  constructor; [exact D1| | |].
  - intros id H. destruct (fine_plain c id (U id H)) as (P1 & P2 & P3 & _). auto.
  - intros id H. split; [now apply fine_plain, K|]. intros (u & m & _ & t' & G1 & _ & G2). destruct H as (u0 & m0 & _ & t & H1 & _ & H2).
    rewrite forallb_forall in DJ. specialize (DJ t H1). rewrite forallb_forall in DJ. specialize (DJ id H2). rewrite forallb_forall in DJ. specialize (DJ t' G1). rewrite forallb_forall in DJ. specialize (DJ id G2).
    rewrite (proj2 (str_eqb_iff id id) eq_refl) in DJ. discriminate DJ.
  - intros id (m & n & H & _). rewrite NN in H. contradiction.
Qed.
Lemma plain_by_check os c : let us := units_of os in let ks := keywords_of os in
  (forall x, c_inner_delimiter c x = true -> ~ 48 <= x <= 57 /\ x <> 46 /\ x <> 43 /\ x <> 45 /\ ~ 65 <= x <= 90 /\ ~ 97 <= x <= 122) ->
  (forall x, c_outer_delimiter c x = c_inner_delimiter c x) -> c_conjunctions c = None -> numerals_of os = [] ->
  fine_list c us = true -> fine_list c ks = true ->
  forallb (fun t => forallb (fun id => forallb (fun t' => forallb (fun id' => negb (str_eqb id id')) (ctu_ids t')) us) (ctu_ids t)) ks = true -> plain_calls_many os c.
Proof.
  intros us ks D1 D2 CJ NN FU FK DJ.
  assert (U : forall id, unit_id os id -> fine_word c id = true) by (intros id (u & m & H); exact (fine_ids c us id u m FU H)).
  assert (K : forall id, keyword_id os id -> fine_word c id = true) by (intros id (u & m & H); exact (fine_ids c ks id u m FK H)).
  assert (N : forall id, ~ numeral_id os id) by (intros id (m & n & H & _); rewrite NN in H; contradiction).
  assert (W : words c = []) by (unfold words; now rewrite CJ).
  assert (X : forall id, unit_id os id \/ keyword_id os id \/ numeral_id os id -> fine_word c id = true) by (intros id [H|[H|H]]; [auto|auto|elim (N id H)]).
  constructor.
  - now apply plain_one_by_check.
  - exact D2.
  - intros id H x Hx. destruct (fine_plain c id (X id H)) as (_ & _ & _ & P & _). now apply P.
  - intros id _. apply N.
  - intros w H. rewrite W in H. contradiction.
  - intros w id H. rewrite W in H. contradiction.
  - intros w w' H. rewrite W in H. contradiction.
  - intros id H _. rewrite W in H. assert (F : fine_word c id = true) by (destruct H as [H|[H|[H|[]]]]; apply X; auto). now apply fine_plain in F.
Qed.
(** parsers which differ only in the way their delimiters are written *)
Lemma same_calls os os' s : units_of os = units_of os' -> keywords_of os = keywords_of os' -> numerals_of os = numerals_of os' ->
  same_settings (cp_config (fold_left cp_call os cp_new)) (cp_config (fold_left cp_call os' cp_new)) ->
  cp_parse (fold_left cp_call os cp_new) s = cp_parse (fold_left cp_call os' cp_new) s.
Proof.
  intros E1 E2 E3 S. rewrite !custom_parse. unfold own_units, own_keywords, own_numerals. rewrite E1, E2, E3. now apply parse_same_settings.
Qed.
Lemma no_numerals : numeral_table_of [] (fun _ => None).
Proof. intros id m. split; [discriminate|]. intros (n & [] & _). Qed.
Lemma no_words : PropCustomText.table_of [] (table_words []).
Proof. apply table_words_of; [reflexivity|reflexivity|now left]. Qed.

(** ** systemd *)
Definition sx_os' : list custom_call :=
  [C_time_units SYSTEMD_TIME_UNITS; C_set (Set_disable_exponent true); C_set (Set_disable_infinity true); C_set (Set_allow_time_unit_delimiter true);
   C_set (Set_parse_multiple true None); C_set (Set_inner_delimiter (one_of [32; 9; 10; 13])); C_set (Set_outer_delimiter (one_of [32; 9; 10; 13]))].
Lemma sx_same s : cp_parse sx_parser s = cp_parse (fold_left cp_call sx_os' cp_new) s.
Proof.
  rewrite sx_is. apply same_calls; [reflexivity|reflexivity|reflexivity|].
  assert (D : forall x, sx_delimiter x = one_of [32; 9; 10; 13] x) by (intros x; unfold sx_delimiter, one_of; cbn [existsb]; lia).
  repeat (split; [first [reflexivity|exact D]|]). reflexivity.
Qed.
Lemma sx_settings : cp_config (fold_left cp_call sx_os' cp_new) = systemd_settings.
Proof. reflexivity. Qed.
Lemma sx_fit' : calls_fit sx_os'.
Proof.
  destruct sx_fit as [A B C D]. constructor; [exact A|exact B|exact C|].
  assert (E : ascii_delim (one_of [32; 9; 10; 13])) by (intros x; unfold one_of; cbn [existsb]; lia). split; [exact E|]. split; [exact E|discriminate].
Qed.
Theorem C91_texts : forall s, utf8 s = true ->
  (forall D, cp_parse sx_parser s = Ok D ->
     exists bare ds, durations_text systemd_settings (table_words systemd_words_read) (Some (table_words [])) (Some (fun _ => None)) s bare ds /\
       (forall d, In d ds -> sign_allowed systemd_settings d) /\ duration_ok D /\ nanos D = saturating_sum ds) /\
  (forall bare ds, durations_text systemd_settings (table_words systemd_words_read) (Some (table_words [])) (Some (fun _ => None)) s bare ds ->
     (forall d, In d ds -> sign_allowed systemd_settings d) -> exists D, cp_parse sx_parser s = Ok D /\ duration_ok D /\ nanos D = saturating_sum ds).
Proof.
  intros s U. rewrite sx_same, <- sx_settings. apply (C87_custom sx_os' (table_words systemd_words_read) (table_words []) (fun _ => None) s).
  - exact sx_fit'.
  - apply plain_by_check; try reflexivity; try (vm_compute; reflexivity). intros x. change (one_of [32; 9; 10; 13] x = true -> ~ 48 <= x <= 57 /\ x <> 46 /\ x <> 43 /\ x <> 45 /\ ~ 65 <= x <= 90 /\ ~ 97 <= x <= 122). unfold one_of. cbn [existsb]. lia.
  - exact U.
  - reflexivity.
  - apply table_words_of; [reflexivity|vm_compute; reflexivity|]. right. eexists. eexists. split; [left; reflexivity|left; reflexivity].
  - exact no_words.
  - exact no_numerals.
Qed.
Print Assumptions C91_texts.

(** ** gnu *)
Definition gx_os' : list custom_call :=
  [C_set (Set_allow_ago true); C_set (Set_allow_time_unit_delimiter true); C_set (Set_allow_negative true); C_set (Set_disable_exponent true); C_set (Set_disable_fraction true); C_set (Set_disable_infinity true);
   C_set (Set_number_is_optional true); C_set (Set_inner_delimiter (one_of [32; 9; 10; 11; 12; 13])); C_set (Set_outer_delimiter (one_of [32; 9; 10; 11; 12; 13])); C_set (Set_parse_multiple true None);
   C_time_units gx_units; C_keywords gx_words].
Definition with_delimiters (i o : delimiter) (c : config) : config := {|
  c_default_unit := c_default_unit c; c_disable_exponent := c_disable_exponent c; c_disable_fraction := c_disable_fraction c; c_disable_infinity := c_disable_infinity c;
  c_number_is_optional := c_number_is_optional c; c_allow_multiple := c_allow_multiple c; c_conjunctions := c_conjunctions c; c_allow_negative := c_allow_negative c;
  c_inner_delimiter := i; c_outer_delimiter := o; c_allow_ago := c_allow_ago c; c_allow_sign_delimiter := c_allow_sign_delimiter c; c_allow_time_unit_delimiter := c_allow_time_unit_delimiter c |}.
Lemma with_delimiters_same i o c : (forall x, i x = c_inner_delimiter c x) -> (forall x, o x = c_outer_delimiter c x) -> same_settings (with_delimiters i o c) c.
Proof. intros H1 H2. unfold same_settings. cbn. repeat split; assumption || reflexivity. Qed.
Lemma gx_config : gxc = with_delimiters gx_delimiter gx_delimiter gnu_settings.
Proof. vm_compute. reflexivity. Qed.
Lemma gx_settings : cp_config (fold_left cp_call gx_os' cp_new) = gnu_settings.
Proof. vm_compute. reflexivity. Qed.
Lemma gx_same s : cp_parse gxp s = cp_parse (fold_left cp_call gx_os' cp_new) s.
Proof.
  apply same_calls; [reflexivity|reflexivity|reflexivity|]. rewrite gx_config, gx_settings.
  assert (D : forall x, gx_delimiter x = one_of [32; 9; 10; 11; 12; 13] x) by (intros x; unfold gx_delimiter, one_of; cbn [existsb]; lia). apply with_delimiters_same; exact D.
Qed.
Lemma gx_fit' : calls_fit gx_os'.
Proof.
  destruct gx_fit as [A B C D]. constructor; [exact A|exact B|intros n t []|].
  assert (E : ascii_delim (one_of [32; 9; 10; 11; 12; 13])) by (intros x; unfold one_of; cbn [existsb]; lia). split; [exact E|]. split; [exact E|discriminate].
Qed.
Theorem C92_texts : forall s, utf8 s = true -> exists p, gx_parser = Ok p /\
  (forall D, cp_parse p s = Ok D ->
     exists bare ds, durations_text gnu_settings (table_words gnu_words_read) (Some (table_words gnu_keywords_read)) (Some (fun _ => None)) s bare ds /\
       duration_ok D /\ nanos D = saturating_sum ds) /\
  (forall bare ds, durations_text gnu_settings (table_words gnu_words_read) (Some (table_words gnu_keywords_read)) (Some (fun _ => None)) s bare ds ->
     exists D, cp_parse p s = Ok D /\ duration_ok D /\ nanos D = saturating_sum ds).
Proof.
  intros s U. exists gxp. split; [exact gx_is|]. rewrite gx_same, <- gx_settings.
  destruct (C87_custom gx_os' (table_words gnu_words_read) (table_words gnu_keywords_read) (fun _ => None) s) as [A B].
  - exact gx_fit'.
  - apply plain_by_check; try reflexivity; try (vm_compute; reflexivity). intros x.
    change (one_of [32; 9; 10; 11; 12; 13] x = true -> ~ 48 <= x <= 57 /\ x <> 46 /\ x <> 43 /\ x <> 45 /\ ~ 65 <= x <= 90 /\ ~ 97 <= x <= 122). unfold one_of. cbn [existsb]. lia.
  - exact U.
  - reflexivity.
  - apply table_words_of; [reflexivity|vm_compute; reflexivity|]. right. eexists. eexists. split; [left; reflexivity|left; reflexivity].
  - apply table_words_of; [reflexivity|vm_compute; reflexivity|]. right. eexists. eexists. split; [left; reflexivity|left; reflexivity].
  - exact no_numerals.
  - split.
    + intros D E. destruct (A D E) as (bare & ds & T & _ & R). exists bare, ds. auto.
    + intros bare ds T. apply (B bare ds T). intros d _. now left.
Qed.
Print Assumptions C92_texts.

(** ** custom *)
Definition kx_os' : list custom_call :=
  [C_time_units kx_units; C_set (Set_default_unit NanoSecond); C_set (Set_disable_exponent true); C_set (Set_allow_time_unit_delimiter true); C_set (Set_inner_delimiter (one_of [32; 9; 10; 13]));
   C_set (Set_outer_delimiter (one_of [32; 9; 10; 12; 13]))].
Lemma kx_same s : cp_parse kxp s = cp_parse (fold_left cp_call kx_os' cp_new) s.
Proof.
  apply same_calls; [reflexivity|reflexivity|reflexivity|].
  assert (D : forall x, kx_delimiter x = one_of [32; 9; 10; 13] x) by (intros x; unfold kx_delimiter, one_of; cbn [existsb]; lia).
  assert (D' : forall x, is_ascii_whitespace x = one_of [32; 9; 10; 12; 13] x) by (intros x; unfold is_ascii_whitespace, one_of; cbn [existsb]; lia).
  repeat (split; [first [reflexivity|exact D|exact D']|]). reflexivity.
Qed.
Lemma kx_settings : cp_config (fold_left cp_call kx_os' cp_new) = calculator_settings.
Proof. reflexivity. Qed.
Lemma kx_fit' : calls_fit kx_os'.
Proof.
  destruct kx_fit as [A B C D]. constructor; [exact A|exact B|intros n t []|].
  assert (E : ascii_delim (one_of [32; 9; 10; 13])) by (intros x; unfold one_of; cbn [existsb]; lia).
  assert (E' : ascii_delim (one_of [32; 9; 10; 12; 13])) by (intros x; unfold one_of; cbn [existsb]; lia). split; [exact E|]. split; [exact E'|discriminate].
Qed.
Theorem C93_texts : forall s, utf8 s = true -> exists p, kx_parser = Ok p /\
  forall d, cp_parse p s = Ok d <->
    duration_text calculator_settings (table_words calculator_words_read) (Some (table_words [])) (Some (fun _ => None)) s d /\ sign_allowed calculator_settings d.
Proof.
  intros s U. exists kxp. split; [exact kx_is|]. intros d. rewrite kx_same, <- kx_settings.
  apply (C84_custom kx_os' (table_words calculator_words_read) (table_words []) (fun _ => None) s d).
  - exact kx_fit'.
  - apply plain_one_by_check; try reflexivity; try (vm_compute; reflexivity). intros x.
    change (one_of [32; 9; 10; 13] x = true -> ~ 48 <= x <= 57 /\ x <> 46 /\ x <> 43 /\ x <> 45 /\ ~ 65 <= x <= 90 /\ ~ 97 <= x <= 122). unfold one_of. cbn [existsb]. lia.
  - exact U.
  - reflexivity.
  - apply table_words_of; [reflexivity|vm_compute; reflexivity|]. right. eexists. eexists. split; [left; reflexivity|left; reflexivity].
  - exact no_words.
  - exact no_numerals.
Qed.
Print Assumptions C93_texts.

Lemma ok_inj {A} (a b : A) : Ok a = Ok b -> b = a.
Proof. now intros [= ->]. Qed.
(** ** instances: texts which are read, and texts which are not *)
Example C91_texts_example :
  (utf8 (%"1.5 h 3min") = true /\ exists D, cp_parse sx_parser (%"1.5 h 3min") = Ok D /\ nanos D = 5580 * 1000000000) /\
  (forall bare ds, (forall d, In d ds -> sign_allowed systemd_settings d) ->
     ~ durations_text systemd_settings (table_words systemd_words_read) (Some (table_words [])) (Some (fun _ => None)) (%"1e3 h") bare ds).
Proof.
  split; [split; [reflexivity|eexists; split; vm_compute; reflexivity]|]. intros bare ds S T. destruct (proj2 (C91_texts (%"1e3 h") eq_refl) bare ds T S) as (D & E & _). vm_compute in E. discriminate E.
Qed.
Example C92_texts_example :
  (utf8 (%"2 fortnights ago tomorrow") = true /\ exists p D, gx_parser = Ok p /\ cp_parse p (%"2 fortnights ago tomorrow") = Ok D /\ nanos D = - 27 * 86400 * 1000000000) /\
  (forall bare ds, ~ durations_text gnu_settings (table_words gnu_words_read) (Some (table_words gnu_keywords_read)) (Some (fun _ => None)) (%"1.5 hours") bare ds).
Proof.
  split; [split; [reflexivity|eexists; eexists; split; [exact gx_is|split; vm_compute; reflexivity]]|]. intros bare ds T. destruct (C92_texts (%"1.5 hours") eq_refl) as (p & Ep & _ & B). rewrite gx_is in Ep. apply ok_inj in Ep. subst p.
  destruct (B bare ds T) as (D & E & _). vm_compute in E. discriminate E.
Qed.
Example C93_texts_example :
  (utf8 (%"1.25 months") = true /\ exists p D, kx_parser = Ok p /\ cp_parse p (%"1.25 months") = Ok D /\ nanos D = 2950739387500000) /\
  (forall d, sign_allowed calculator_settings d -> ~ duration_text calculator_settings (table_words calculator_words_read) (Some (table_words [])) (Some (fun _ => None)) (%"1h 2m") d).
Proof.
  split; [split; [reflexivity|eexists; eexists; split; [exact kx_is|split; vm_compute; reflexivity]]|]. intros d S T. destruct (C93_texts (%"1h 2m") eq_refl) as (p & Ep & B). rewrite kx_is in Ep. apply ok_inj in Ep. subst p.
  pose proof (proj2 (B d) (conj T S)) as E. vm_compute in E. discriminate E.
Qed.
