(** * Property C76: more numerals and more keywords only add *)
From Verif Require Import Prelude Util Time Config Bytes Repr Parse Standard SpecTime SpecNum SpecValue SpecParse SpecGrammar SpecSpelling
  TimeProofs Utf8Proofs SafeProofs RefParse RefGrammar StandardProofs PropParse PropStandard
  Custom SpecCustom CustomProofs PropCustom PropTables PropCustomText PropModes ExEnv.

(** ** numerals *)
(** every numeral of the first table has the same value in the second one *)
Definition more_numbers (n1 n2 : option numbers_like) : Prop :=
  match n1 with
  | None => True
  | Some f => exists g, n2 = Some g /\ forall id x, f id = Some x -> g id = Some x
  end.

Definition ok_le {A} (m m' : res A) : Prop := forall x, m = Ok x -> m' = Ok x.
Lemma ok_refl {A} (m : res A) : ok_le m m. Proof. intros x H. exact H. Qed.
Lemma ok_bind {A B} (m : res A) (f g : A -> res B) : (forall x, ok_le (f x) (g x)) -> ok_le (bind m f) (bind m g).
Proof. intros H. destruct m; cbn [bind]; [apply H|apply ok_refl|apply ok_refl]. Qed.
Lemma ok_bind2 {A B} (m m' : res A) (f g : A -> res B) : ok_le m m' -> (forall x, ok_le (f x) (g x)) -> ok_le (bind m f) (bind m' g).
Proof. intros M H x. destruct m as [a|e|k] eqn:E; cbn [bind]; try discriminate. rewrite (M a eq_refl). cbn [bind]. apply H. Qed.

Section Numerals.
Context (c : config) (n1 n2 : option numbers_like).
Hypothesis More : more_numbers n1 n2.

Lemma grow_numeral {O} (T : template O) b r tu : ok_le (template_numeral T b r c tu n1) (template_numeral T b r c tu n2).
Proof.
  intros o. unfold template_numeral, parse_numeral. destruct n1 as [f|]; cbn [more_numbers] in More.
  2:{ cbn [bind]. destruct (get_remainder_str b); cbn [bind]; discriminate. }
  destruct More as (g & -> & H). cbv zeta. destruct (buffered_advance_to _ _) as [[b1 buf]|e|k]; cbn [bind]; try discriminate.
  assert (No : forall b (o : O), bind (get_remainder_str b) (fun remainder => @Err O (InvalidInput remainder)) <> Ok o).
  { intros b0 o0. destruct (get_remainder_str b0); cbn [bind]; discriminate. }
  destruct (is_empty buf); cbn [bind]; [intros E; now elim (No _ _ E)|].
  destruct (str_unchecked buf) as [w|e|k]; cbn [bind]; try discriminate.
  destruct (f w) as [m|] eqn:E; [|cbn [bind]; intros F; now elim (No _ _ F)].
  rewrite (H _ _ E). auto.
Qed.
Lemma grow_template {O} (T : template O) b tu kw : ok_le (template_parse T b c tu kw n1) (template_parse T b c tu kw n2).
Proof.
  unfold template_parse. destruct (cur b); [|apply ok_refl]. apply ok_bind. intros [b1 r1]. destruct (cur b1); [|apply ok_refl].
  destruct (is_digit _); [apply ok_refl|]. destruct (_ =? 46); [apply ok_refl|]. destruct (_ && _); [apply ok_refl|].
  unfold template_word. apply ok_bind. intros [b2 [um|]]; [apply ok_refl|]. destruct (c_number_is_optional c); [|apply grow_numeral].
  apply ok_bind. intros [b3 [um|]]; [apply ok_refl|apply grow_numeral].
Qed.
End Numerals.

(** without any condition: what is accepted stays accepted, with the same result *)
Theorem C76_more_numerals : forall c tu kw n1 n2 s d, more_numbers n1 n2 ->
  parse c s tu kw n1 = Ok d -> parse c s tu kw n2 = Ok d.
Proof.
  intros c tu kw n1 n2 s d H. revert d.
  change (ok_le (parse c s tu kw n1) (parse c s tu kw n2)). unfold parse. destruct (c_allow_multiple c).
  - unfold parse_multiple. generalize (S (length s)) as f, ZERO as d0, (bytes_new s) as b.
    induction f as [|f IH]; intros d0 b; [apply ok_refl|]. cbn [multiple_loop].
    apply ok_bind2; [now apply grow_template|]. intros [r o]. apply ok_bind. intros p. apply ok_bind. intros d'. destruct o; [apply IH|apply ok_refl].
  - unfold parse_single. apply ok_bind2; [now apply grow_template|]. intros r. apply ok_refl.
Qed.
Print Assumptions C76_more_numerals.

Lemma numerals_get_app l k id m : numerals_get l id = Some m -> numerals_get (l ++ k) id = Some m.
Proof. induction l as [|n l IH]; [discriminate|]. cbn [numerals_get app]. destruct (existsb _ _); auto. Qed.
(** registering numerals, with any parser *)
Theorem C76_custom_numerals : forall p ns s d,
  cp_parse p s = Ok d -> cp_parse (cp_call p (C_numerals ns)) s = Ok d.
Proof.
  assert (K : forall p n s d, cp_parse p s = Ok d -> cp_parse (cp_numeral p n) s = Ok d).
  { intros p n s d. unfold cp_parse. cbn [cp_numeral cp_units cp_keywords cp_numerals cp_config]. apply C76_more_numerals.
    destruct (cp_numerals p) as [|a l]; cbn [more_numbers app]; [exact I|]. eexists. split; [reflexivity|]. intros id x H.
    exact (numerals_get_app (a :: l) [n] id x H). }
  intros p ns s d. cbn [cp_call]. revert p. induction ns as [|n ns IH]; intros p H; [exact H|]. cbn [fold_left]. apply IH. now apply K.
Qed.
Print Assumptions C76_custom_numerals.
(** "two s" becomes possible, "1s" and "one s" stay as they were *)
Example C76_numerals_example :
  let p := cp_call (cp_with_time_units SYSTEMD_TIME_UNITS) (C_numeral (Numeral [%"one"] (Mul 1 0))) in
  let q := cp_call p (C_numerals [Numeral [%"two"; %"one"] (Mul 2 0)]) in
  cp_parse p (%"one s") = Ok (Dur false (Std 1 0)) /\ cp_parse q (%"one s") = Ok (Dur false (Std 1 0)) /\
  (exists e, cp_parse p (%"two s") = Err e) /\ cp_parse q (%"two s") = Ok (Dur false (Std 2 0)).
Proof. split; [vm_compute; reflexivity|]. split; [vm_compute; reflexivity|]. split; [eexists; vm_compute; reflexivity|vm_compute; reflexivity]. Qed.

(** ** keywords *)
Definition keyword_get (k : option units_like) (id : str) : option (time_unit * multiplier) :=
  match k with Some k => u_get k id | None => None end.
(** every keyword of the first table has the same meaning in the second one; a new one is no time unit, has no inner delimiter in it,
    and no numeral starts with it *)
Definition more_keywords (c : config) (tu : units_like) (nums : option numbers_like) (k1 k2 : option units_like) : Prop :=
  (forall id x, keyword_get k1 id = Some x -> keyword_get k2 id = Some x) /\
  (forall id, keyword_get k1 id = None -> keyword_get k2 id <> None ->
     u_get tu id = None /\ (forall x, In x id -> c_inner_delimiter c x = false) /\
     (forall f r, nums = Some f -> f (id ++ r) = None)).

Lemma until_longer p q l : (forall x, q x = true -> p x = true) -> forall w r w' r', until p l w r -> until q l w' r' ->
  w' = w \/ exists x v, w' = w ++ x :: v /\ p x = true.
Proof.
  intros Hpq. induction l as [|y l IH]; intros w r w' r' (E & H1 & H2) (E' & H1' & H2').
  - symmetry in E, E'. apply app_eq_nil in E, E'. destruct E as [-> _], E' as [-> _]. now left.
  - destruct w' as [|y' w'].
    + cbn in E'. subst r'. cbn in H2'. apply negb_false_iff in H2'. apply Hpq in H2'. destruct w as [|z w]; [now left|].
      injection E as <- _. specialize (H1 y (or_introl eq_refl)). rewrite H2' in H1. discriminate.
    + injection E' as <- E'. destruct w as [|z w].
      * cbn in E. subst r. cbn in H2. apply negb_false_iff in H2. right. exists y, w'. auto.
      * injection E as <- E. destruct (IH w r w' r') as [->|(x & v & -> & Hx)].
        -- repeat split; auto. intros x Hx. apply H1. now right.
        -- repeat split; auto. intros x Hx. apply H1'. now right.
        -- now left.
        -- right. exists x, v. auto.
Qed.

Section Keywords.
Context (c : config) (tu : units_like) (nums : option numbers_like) (k1 k2 : option units_like).
Hypothesis More : more_keywords c tu nums k1 k2.

Lemma single_is k l u m : single_keyword_is k l u m <-> keyword_get k l = Some (u, m).
Proof. unfold single_keyword_is, keyword_get. destruct k as [k|]; split; [intros (x & [= <-] & H); exact H|intros H; now exists k|intros (x & H & _); discriminate|discriminate]. Qed.
Lemma multi_is k l u m r : multi_keyword_is c k l u m r <-> exists w, until (keyword_end c) l w r /\ w <> [] /\ keyword_get k w = Some (u, m).
Proof.
  unfold multi_keyword_is, keyword_get. split.
  - intros (x & w & -> & H). exists w. exact H.
  - intros (w & H1 & H2 & H3). destruct k as [k|]; [|discriminate]. exists k, w. auto.
Qed.
(** a text which contains an inner delimiter, or is the identifier of a time unit, is no new keyword *)
Lemma not_new_delim id x : keyword_get k1 id = None -> In x id -> c_inner_delimiter c x = true -> keyword_get k2 id = None.
Proof. intros H Hx Hd. destruct (keyword_get k2 id) eqn:E; [|reflexivity]. destruct (proj2 More id H) as (_ & H2 & _); [congruence|]. rewrite H2 in Hd by exact Hx. discriminate. Qed.
Lemma not_new_unit id : keyword_get k1 id = None -> u_get tu id <> None -> keyword_get k2 id = None.
Proof. intros H Hu. destruct (keyword_get k2 id) eqn:E; [|reflexivity]. destruct (proj2 More id H) as (H2 & _); [congruence|]. congruence. Qed.
Lemma not_new_numeral id f r : keyword_get k1 id = None -> nums = Some f -> f (id ++ r) <> None -> keyword_get k2 id = None.
Proof. intros H Hf Hu. destruct (keyword_get k2 id) eqn:E; [|reflexivity]. destruct (proj2 More id H) as (_ & _ & H2); [congruence|]. elim Hu. now apply H2. Qed.

Lemma single_unit_no_keyword l u m : single_unit c tu l u m -> keyword_get k1 l = None -> keyword_get k2 l = None.
Proof.
  intros [l' u' m' Ha Hg|l' u' m' Ha Hn Hu Hg|l' w l1 ds a u' m' Ha Hu Nw Hg Hs He] N.
  - apply not_new_unit; congruence.
  - apply not_new_unit; congruence.
  - destruct Hu as (-> & _ & Hu). destruct Hs as (-> & Hd & Hs). destruct ds as [|x ds].
    + destruct a as [|x a]; [discriminate He|]. cbn in Hu, Hs. apply negb_false_iff in Hu. congruence.
    + apply (not_new_delim _ x); [exact N| |apply Hd; now left]. apply in_app_iff. right. now left.
Qed.
Lemma single_numeral_no_keyword l n r : numeral_prefix c nums l n r -> keyword_get k1 l = None -> keyword_get k2 l = None.
Proof.
  intros (f & w & l1 & ds & Ef & (-> & _) & Nw & Hf & (-> & Hd & _) & Nd & Nr) N. destruct ds as [|x ds]; [congruence|].
  apply (not_new_delim _ x); [exact N| |apply Hd; now left]. apply in_app_iff. right. now left.
Qed.
Lemma grow_kw_single s d : single_duration c tu k1 nums s d -> single_duration c tu k2 nums s d.
Proof.
  assert (N : forall k l, (forall u m, ~ single_keyword_is k l u m) <-> keyword_get k l = None).
  { intros k l. split; intros H.
    - destruct (keyword_get k l) as [[u m]|] eqn:E; [|reflexivity]. elim (H u m). now apply single_is.
    - intros u m E. apply single_is in E. congruence. }
  intros [s0 n l W F x Hs Hn|s0 n l W F x r u m Hs Hn Nr Eu Hu|s0 n l Hs Hd Hi|s0 n l u m Hs Hw Hk|s0 n l u m Hs Hw Hk Ho Hu|s0 n l num r u m Hs Hw Hk Ho Hp Hu].
  - apply sd_number with l; auto.
  - apply sd_number_unit with l r; auto.
  - apply sd_infinity with l; auto.
  - apply sd_keyword with l; auto. apply single_is. apply single_is in Hk. now apply More.
  - apply sd_unit with l; auto. apply N. apply N in Hk. now apply (single_unit_no_keyword l u m).
  - apply sd_numeral with l r; auto. apply N. apply N in Hk. now apply (single_numeral_no_keyword l num r).
Qed.

Hypothesis HD : forall x, c_inner_delimiter c x = true -> keyword_end c x = true.
Lemma unit_keyword_end x : unit_end c x = keyword_end c x.
Proof. unfold unit_end. destruct (c_allow_ago c); cbn [andb]; [|now rewrite orb_false_r]. destruct (c_inner_delimiter c x) eqn:E; [rewrite (HD x E); reflexivity|now rewrite orb_false_r]. Qed.
Lemma no_multi k l : (forall u m r, ~ multi_keyword_is c k l u m r) <-> forall w r, until (keyword_end c) l w r -> w <> [] -> keyword_get k w = None.
Proof.
  split; intros H.
  - intros w r Hu Nw. destruct (keyword_get k w) as [[u m]|] eqn:E; [|reflexivity]. elim (H u m r). apply multi_is. eauto.
  - intros u m r E. apply multi_is in E. destruct E as (w & E1 & E2 & E3). rewrite (H w r E1 E2) in E3. discriminate.
Qed.
Lemma multi_unit_word l u m r : multi_unit c tu l u m r -> exists w l1, until (keyword_end c) l w l1 /\ u_get tu w <> None.
Proof.
  assert (K : forall l w l1, until (unit_end c) l w l1 -> until (keyword_end c) l w l1).
  { clear l. intros l w l1 (H1 & H2 & H3). split; [exact H1|]. split; [intros x Hx; rewrite <- unit_keyword_end; now apply H2|].
    destruct l1; [exact I|]. cbn in *. now rewrite <- unit_keyword_end. }
  intros [l' w l1 u' m' r' Hu Nw Hg|l' w l1 l2 u' m' r' Hu Nw Hg]; exists w, l1; (split; [now apply K|congruence]).
Qed.
Lemma grow_kw_component s d r : component c tu k1 nums s d r -> component c tu k2 nums s d r.
Proof.
  intros H.
  inversion H as [s0 n l W F x r0 l1 Hs Hn Hu Hc|s0 n l W F x l1 u m r0 Hs Hn Eu Hu|s0 n l l1 r0 Hs Hd Hi He Hc|s0 n l l0 l1 r0 Hs Hd Hi He Hi2 He2 Hc
    |s0 n l u m l1 r0 Hs Hw Hk Hc|s0 n l u m r0 Hs Hw Hk Ho Hu|s0 n l num l1 u m r0 Hs Hw Hk Ho Hp Hu]; subst.
  - apply co_number with l l1; auto.
  - apply co_number_unit with l l1; auto.
  - apply co_inf with l l1; auto.
  - apply co_infinity with l l0 l1; auto.
  - apply co_keyword with l l1; auto. apply multi_is in Hk. apply multi_is. destruct Hk as (w & K1 & K2 & K3). exists w. split; [exact K1|]. split; [exact K2|]. now apply More.
  - apply co_unit with l; auto. rewrite no_multi in Hk. apply no_multi. intros w r' Hr Nw. destruct (multi_unit_word l u m r Hu) as (w' & l1 & U1 & U2).
    destruct (span_det _ _ _ _ _ _ Hr U1) as [-> _]. apply not_new_unit; [now apply (Hk w' l1)|exact U2].
  - apply co_numeral with l l1; auto. rewrite no_multi in Hk. apply no_multi. intros w r' Hr Nw. pose proof (Hk w r' Hr Nw) as N1.
    destruct Hp as (f & v & l2 & ds & Ef & Hv & Nv & Hf & _).
    (* the numeral ends at an inner delimiter, which ends a keyword as well: the keyword is a prefix of the numeral *)
    destruct (until_longer (keyword_end c) (c_inner_delimiter c) l HD w r' v l2 Hr Hv) as [->|(x & v' & -> & _)].
    + apply (not_new_numeral w f []); auto. rewrite app_nil_r. congruence.
    + apply (not_new_numeral w f (x :: v')); auto. congruence.
Qed.
Lemma grow_kw_components s ds : components c tu k1 nums s ds -> components c tu k2 nums s ds.
Proof.
  induction 1 as [s d H|s d r ds H N Hr IH].
  - apply cs_last. now apply grow_kw_component.
  - apply cs_more with r; auto. now apply grow_kw_component.
Qed.
End Keywords.

Theorem C76_more_keywords : forall c tu k1 k2 nums s d, env_ok c tu k1 nums -> env_ok c tu k2 nums -> (c_allow_multiple c = true -> delims_strict c) -> utf8 s = true ->
  more_keywords c tu nums k1 k2 ->
  parse c s tu k1 nums = Ok d -> exists d', parse c s tu k2 nums = Ok d' /\ nanos d' = nanos d.
Proof.
  intros c tu k1 k2 nums s d H1 H2 HD U HM P. destruct (c_allow_multiple c) eqn:Hm.
  - apply C23_multiple_sound in P; auto; [|apply delims_strict_ok; auto]. destruct P as (ds & P & Hs & _ & V).
    destruct (C23_multiple_complete c tu k2 nums s ds) as (D & PD & _ & VD); auto; [apply delims_strict_ok; auto| |].
    { apply (grow_kw_components c tu nums k1 k2 HM); [|exact P]. intros x. now apply HD. }
    exists D. split; [exact PD|]. now rewrite VD, V.
  - exists d. split; [|reflexivity]. apply C22_single_grammar in P; auto. destruct P as [P1 P2].
    apply C22_single_grammar; auto. split; [|exact P2]. now apply (grow_kw_single c tu nums k1 k2 HM).
Qed.
Print Assumptions C76_more_keywords.
(** "soon" as a new keyword *)
Definition ex_keywords2 : units_like := Units false (table ((%"soon", (Minute, Mul 5 0)) :: ex_keyword_list)).
Lemma ex_more_keywords : more_keywords ex_multi ex_units (Some ex_numerals) (Some ex_keywords) (Some ex_keywords2).
Proof.
  assert (S : forall id, id <> %"soon" -> u_get ex_keywords2 id = u_get ex_keywords id).
  { intros id N. cbn [u_get ex_keywords2 ex_keywords]. unfold table. cbn [find fst]. destruct (str_eqb id (%"soon")) eqn:E; [|reflexivity]. apply str_eqb_iff in E. contradiction. }
  split; cbn [keyword_get].
  - intros id x H. rewrite S; [exact H|]. intros ->. discriminate.
  - intros id H N. destruct (list_eq_dec Z.eq_dec id (%"soon")) as [->|E]; [|rewrite (S id E), H in N; contradiction].
    split; [reflexivity|]. split; [each|]. intros f r [= <-]. destruct (ex_numerals (%"soon" ++ r)) as [n|] eqn:F; [|reflexivity]. exfalso.
    unfold ex_numerals, table in F. destruct (find _ _) as [[w y]|] eqn:G; [|discriminate]. apply find_some in G. destruct G as [G1 G2]. cbn [fst] in G2.
    apply str_eqb_iff in G2. cbn in G1. repeat destruct G1 as [[= <- <-]|G1]; try contradiction; discriminate.
Qed.
Example C76_keywords_example : exists s d, env_ok ex_multi ex_units (Some ex_keywords) (Some ex_numerals) /\ env_ok ex_multi ex_units (Some ex_keywords2) (Some ex_numerals) /\
  delims_strict ex_multi /\ utf8 s = true /\ more_keywords ex_multi ex_units (Some ex_numerals) (Some ex_keywords) (Some ex_keywords2) /\
  parse ex_multi s ex_units (Some ex_keywords) (Some ex_numerals) = Ok d /\ nanos d <> 0.
Proof.
  eexists (%"tomorrow dozen min and 2s"), _. split; [exact ex_env_multi|]. split.
  { pose proof ex_env_multi as [A B C D E F]. constructor; auto. intros k [= <-] id u m H. cbn [u_get ex_keywords2] in H. apply table_in in H. cbn in H. repeat destruct H as [[= <- <-]|H]; try contradiction; repeat split; discriminate. }
  split; [exact ex_strict_multi|]. split; [reflexivity|]. split; [exact ex_more_keywords|]. split; [vm_compute; reflexivity|vm_compute; discriminate].
Qed.
(** the condition on the time units is needed: a keyword which is the identifier of a time unit takes its place when numbers are optional *)
Theorem C76_keyword_like_unit_refuted : exists os k s d d',
  cp_parse (fold_left cp_call os cp_new) s = Ok d /\ cp_parse (cp_call (fold_left cp_call os cp_new) (C_keyword k)) s = Ok d' /\ nanos d' <> nanos d.
Proof.
  exists [C_time_unit (CTU Second (Mul 1 0) [%"s"]); C_set (Set_number_is_optional true)], (CTU Minute (Mul 1 0) [%"s"]), (%"s"). do 2 eexists.
  split; [vm_compute; reflexivity|]. split; [vm_compute; reflexivity|]. vm_compute. discriminate.
Qed.
Print Assumptions C76_keyword_like_unit_refuted.

Lemma keywords_config ks : forall p, cp_config (fold_left cp_keyword ks p) = cp_config p.
Proof. induction ks as [|k ks IH]; intros p; [reflexivity|]. cbn [fold_left]. now rewrite IH. Qed.
(** registering keywords *)
Theorem C76_custom_keywords : forall os ks s d, let p := fold_left cp_call os cp_new in
  calls_fit os -> calls_fit (os ++ [C_keywords ks]) -> (c_allow_multiple (cp_config p) = true -> delims_strict (cp_config p)) -> utf8 s = true -> unambiguous (keywords_of os ++ ks) ->
  (forall k id, In k ks -> In id (ctu_ids k) -> id <> [] ->
     (forall u m, ~ registered (units_of os) id u m) /\ (forall x, In x id -> c_inner_delimiter (cp_config p) x = false) /\
     (forall n r, In n (numerals_of os) -> ~ In (id ++ r) (nu_ids n))) ->
  cp_parse p s = Ok d -> exists d', cp_parse (cp_call p (C_keywords ks)) s = Ok d' /\ nanos d' = nanos d.
Proof.
  intros os ks s d p F1 F2 HD U HU New.
  assert (E : cp_call p (C_keywords ks) = fold_left cp_call (os ++ [C_keywords ks]) cp_new) by (rewrite fold_left_app; reflexivity).
  assert (EK : keywords_of (os ++ [C_keywords ks]) = keywords_of os ++ ks) by (unfold keywords_of; rewrite flat_map_app; cbn [flat_map]; now rewrite app_nil_r).
  assert (EU : units_of (os ++ [C_keywords ks]) = units_of os) by (unfold units_of; rewrite flat_map_app; cbn [flat_map]; now rewrite app_nil_r).
  assert (EN : numerals_of (os ++ [C_keywords ks]) = numerals_of os) by (unfold numerals_of; rewrite flat_map_app; cbn [flat_map]; now rewrite app_nil_r).
  assert (EC : cp_config (fold_left cp_call (os ++ [C_keywords ks]) cp_new) = cp_config p).
  { rewrite fold_left_app. apply keywords_config. }
  pose proof (custom_env_ok _ F1) as V1. pose proof (custom_env_ok _ F2) as V2. cbv zeta in V1, V2. fold p in V1.
  rewrite E. subst p. rewrite !cp_parse_calls. cbv zeta. rewrite EC, EK, EU, EN in *.
  apply C76_more_keywords; auto.
  set (p := fold_left cp_call os cp_new) in *.
  assert (KG : forall us id, keyword_get (if negb (cu_is_empty (cu_with_time_units us)) then Some (custom_like (cu_with_time_units us)) else None) id = cu_get (cu_with_time_units us) id).
  { intros us id. destruct (cu_is_empty (cu_with_time_units us)) eqn:Em; cbn [negb keyword_get]; [|reflexivity].
    destruct (cu_get (cu_with_time_units us) id) as [[u m]|] eqn:G; [|reflexivity]. apply C34_lookup in G. destruct G as [(N & t & T1 & _ & T2) _].
    elim (proj1 (C34_is_empty us) Em t T1). exists id. auto. }
  split.
  - intros id [u m] H. rewrite KG in *. apply C34_lookup in H. destruct H as [(N & t & T1 & T2) _].
    assert (R : registered (keywords_of os ++ ks) id u m) by (split; [exact N|]; exists t; split; [apply in_app_iff; now left|exact T2]).
    apply C34_unambiguous; [exact R|]. intros u' m' R'. exact (HU id u' m' u m R' R).
  - intros id H1 H2. rewrite !KG in *. destruct (cu_get (cu_with_time_units (keywords_of os ++ ks)) id) as [[u m]|] eqn:G; [|contradiction].
    apply C34_lookup in G. destruct G as [(N & t & T1 & T2 & T3) _]. apply in_app_iff in T1. destruct T1 as [T1|T1].
    + exfalso. destruct (proj2 (C34_found_iff_registered (keywords_of os) id)) as (u' & m' & G); [|congruence]. exists u, m. split; [exact N|]. now exists t.
    + destruct (New t id T1 T3 N) as (N1 & N2 & N3). split; [|split; [exact N2|]].
      * cbn [u_get custom_like]. destruct (cu_get (cu_with_time_units (units_of os)) id) as [[u' m']|] eqn:G; [|reflexivity]. apply C34_lookup in G. destruct G as [G _]. elim (N1 u' m' G).
      * intros f r Ef. assert (Ef' : f = numerals_get (numerals_of os)) by (destruct (numerals_of os); [discriminate|congruence]). subst f.
        destruct (numerals_get (numerals_of os) (id ++ r)) as [n|] eqn:G; [|reflexivity]. apply C36_lookup in G. destruct G as (l1 & n1 & l2 & E1 & E2 & _).
        elim (N3 n1 r); [|exact E2]. rewrite E1. apply in_app_iff. right. now left.
Qed.
Print Assumptions C76_custom_keywords.
(** a parser with units, keywords and numerals, to which the keywords "soon" and "later" are added *)
Example C76_custom_keywords_example :
  let ks := [CTU Minute (Mul 5 0) [%"soon"]; CTU Hour (Mul 1 0) [%"later"]] in let p := fold_left cp_call ex_calls cp_new in
  calls_fit ex_calls /\ calls_fit (ex_calls ++ [C_keywords ks]) /\ delims_strict (cp_config p) /\ unambiguous (keywords_of ex_calls ++ ks) /\
  (forall k id, In k ks -> In id (ctu_ids k) -> id <> [] ->
     (forall u m, ~ registered (units_of ex_calls) id u m) /\ (forall x, In x id -> c_inner_delimiter (cp_config p) x = false) /\
     (forall n r, In n (numerals_of ex_calls) -> ~ In (id ++ r) (nu_ids n))) /\
  cp_parse p (%"morrow") = Ok (Dur false (Std 86400 0)) /\
  (exists e, cp_parse p (%"soon") = Err e) /\ cp_parse (cp_call p (C_keywords ks)) (%"soon") = Ok (Dur false (Std 300 0)).
Proof.
  cbv zeta. split; [exact ex_calls_fit|]. split; [|split; [|split; [|split; [|split; [|split]]]]].
  - destruct ex_calls_fit as [A B C D]. constructor; auto.
    intros t H. cbn in H. repeat destruct H as [<-|H]; try contradiction.
    + exists Day, [%"tomorrow"; %"morrow"], None. split; [reflexivity|discriminate].
    + exists Minute, [%"soon"], (Some (Mul 5 0)). split; [reflexivity|]. intros x [= <-]. split; reflexivity.
    + exists Hour, [%"later"], None. split; [reflexivity|discriminate].
  - intros x H. exact (eq_trans (f_equal (fun b => b || starts_duration x) H) eq_refl).
  - intros id u m u' m' (_ & t & T1 & T2 & T3) (_ & t' & T1' & T2' & T3'); cbn in T1, T1';
    repeat destruct T1 as [<-|T1]; try contradiction; repeat destruct T1' as [<-|T1']; try contradiction;
    cbn in T2, T2', T3, T3'; try congruence; exfalso; repeat destruct T3 as [<-|T3]; try contradiction; repeat destruct T3' as [T3'|T3']; try discriminate; try contradiction.
  - intros k id K1 K2 _. cbn in K1. repeat destruct K1 as [<-|K1]; try contradiction; cbn in K2; destruct K2 as [<-|[]]; (split; [|split]).
    all: try (intros x Hx; cbn in Hx; repeat (destruct Hx as [<-|Hx]; [reflexivity|]); contradiction).
    all: try (intros u m (_ & t & T1 & _ & T3); cbn in T1; repeat destruct T1 as [<-|T1]; try contradiction; cbn in T3; repeat destruct T3 as [T3|T3]; try discriminate; contradiction).
    all: intros n r N1 N2; cbn in N1; destruct N1 as [<-|[]]; cbn in N2; repeat destruct N2 as [N2|N2]; try discriminate; contradiction.
  - reflexivity.
  - eexists. reflexivity.
  - reflexivity.
Qed.
