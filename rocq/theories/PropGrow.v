(** * Property C60: more time units only add *)
From Verif Require Import Prelude Util Time Config Bytes Repr Parse Standard SpecTime SpecNum SpecValue SpecParse SpecGrammar SpecSpelling
  TimeProofs NumProofs Utf8Proofs BytesProofs ReprProofs ValueProofs SafeProofs RefParse RefProofs RefSingle RefMulti RefGrammar SpellProofs SwitchProofs StandardProofs PropParse PropStandard PropModes ExEnv.

(** every identifier of the first table has the same meaning in the second one *)
Definition more_units (t1 t2 : units_like) : Prop :=
  (forall id x, u_get t1 id = Some x -> u_get t2 id = Some x) /\ (u_is_empty t1 = false -> u_is_empty t2 = false).

Section Grow.
Context (c : config) (t1 t2 : units_like).
Hypothesis More : more_units t1 t2.

Lemma grow_single_unit l u m : single_unit c t1 l u m -> single_unit c t2 l u m.
Proof.
  destruct More as [M _]. intros [l' u' m' Ha Hg|l' u' m' Ha Hn Hu Hg|l' w l1 ds a u' m' Ha Hu Nw Hg Hs He].
  - apply su_plain; auto.
  - apply su_no_ago; auto.
  - apply su_ago with w l1 ds a; auto.
Qed.
Lemma grow_single kw nums s d : (c_number_is_optional c = true -> nums = None) ->
  single_duration c t1 kw nums s d -> single_duration c t2 kw nums s d.
Proof.
  intros HN [s0 n l W F x Hs Hn|s0 n l W F x r u m Hs Hn Nr Eu Hu|s0 n l Hs Hd Hi|s0 n l u m Hs Hw Hk|s0 n l u m Hs Hw Hk Ho Hu|s0 n l num r u m Hs Hw Hk Ho Hp Hu].
  - apply sd_number with l; auto.
  - apply sd_number_unit with l r; auto; [now apply More|now apply grow_single_unit].
  - apply sd_infinity with l; auto.
  - apply sd_keyword with l; auto.
  - apply sd_unit with l; auto. now apply grow_single_unit.
  - apply sd_numeral with l r; auto; [|now apply grow_single_unit]. intros O. destruct Hp as (f & w & l1 & ds & Ef & _). rewrite (HN O) in Ef. discriminate.
Qed.

(** no text which starts with an identifier of the larger table starts with a decimal point or with `inf` *)
Definition not_like_a_number (t : units_like) : Prop :=
  forall id, u_get t id <> None -> starts_not is_dot id /\ forall r r', ~ word_prefix (%"inf") (id ++ r) r'.
Hypothesis Honest : u_is_empty t1 = true -> forall id, u_get t1 id = None.
Hypothesis NL : not_like_a_number t2.

Lemma grow_multi_unit l u m r : multi_unit c t1 l u m r -> multi_unit c t2 l u m r.
Proof.
  destruct More as [M _]. intros [l' w l1 u' m' r' Hu Nw Hg Na Nd Hc|l' w l1 l2 u' m' r' Hu Nw Hg Ha Hc].
  - apply mu_plain with w l1; auto.
  - apply mu_ago with w l1 l2; auto.
Qed.
Lemma multi_unit_is_like t l u m r : multi_unit c t l u m r -> multi_unit_like c t l.
Proof. intros [l' w l1 u' m' r' Hu Nw Hg|l' w l1 l2 u' m' r' Hu Nw Hg]; exists w, l1; split; auto; split; auto; congruence. Qed.
Lemma like_head t l : multi_unit_like c t l -> starts_not (unit_end c) l.
Proof. intros (w & l1 & (-> & Hw & _) & Nw & _). destruct w as [|x w]; [congruence|]. cbn. apply negb_true_iff. apply Hw. now left. Qed.
(** after a number without a unit, another component (or the end) does not start with a unit of the larger table *)
Lemma signed_head_or s n l : signed c s n l -> (exists x s', s = x :: s' /\ is_sign x = true) \/ s = l.
Proof. intros [l' H1 H2|x l' r H1 H2 H3 H4|x l' ds r H1 H2 H3 H4]; [now right|left; eauto|left; eauto]. Qed.
Lemma sign_end x : is_sign x = true -> unit_end c x = true.
Proof. intros H. unfold unit_end, keyword_end, starts_duration. rewrite H. now rewrite !orb_true_r. Qed.
Lemma digit_end x : is_digit x = true -> unit_end c x = true.
Proof. intros H. unfold unit_end, keyword_end, starts_duration. rewrite H. cbn. now rewrite !orb_true_r. Qed.
Lemma inf_no_unit l r : word_prefix (%"inf") l r -> ~ multi_unit_like c t2 l.
Proof. intros Hv (w & l1 & (-> & _ & _) & Nw & Hg). destruct (NL w Hg) as [_ Hn]. exact (Hn _ _ Hv). Qed.
Lemma number_head l W F x r : number c l W F x r -> starts_with (fun y => is_digit y || is_dot y) l.
Proof.
  intros (l1 & l2 & l3 & (-> & HW & _) & HF & _ & _ & N). destruct W as [|y W].
  - inversion HF as [l0 H|l0 F' r' H1 H2]; subst; [now elim N|]. reflexivity.
  - cbn. rewrite HW by now left. reflexivity.
Qed.
Lemma component_no_new s d r : component c t1 None None s d r -> ~ multi_unit_like c t1 s -> ~ multi_unit_like c t2 s.
Proof.
  intros H N1 H2. pose proof (like_head _ _ H2) as Hh.
  assert (SG : forall n l, signed c s n l -> s = l).
  { intros n l Hs. destruct (signed_head_or s n l Hs) as [(x & s' & -> & Hx)| ->]; [|reflexivity]. cbn in Hh. rewrite (sign_end x Hx) in Hh. discriminate. }
  inversion H as [s0 n l W F x r0 l1 Hs Hn Hu Hc|s0 n l W F x l1 u m r0 Hs Hn Eu Hu|s0 n l l1 r0 Hs Hd Hi He Hc|s0 n l l0 l1 r0 Hs Hd Hi He Hi2 He2 Hc
    |s0 n l u m l1 r0 Hs Hw Hk Hc|s0 n l u m r0 Hs Hw Hk Ho Hu|s0 n l num l1 u m r0 Hs Hw Hk Ho Hp Hu]; subst; pose proof (SG _ _ Hs) as <-.
  - apply number_head in Hn. destruct s as [|y s]; [destruct Hn|]. cbn in Hn, Hh. apply orb_true_iff in Hn. destruct Hn as [Hn|Hn]; [rewrite (digit_end y Hn) in Hh; discriminate|].
    destruct H2 as (w & l2 & (E & _) & Nw & Hg). destruct w as [|z w]; [congruence|]. cbn in E. injection E as <- _. destruct (NL _ Hg) as [Hd _]. cbn in Hd. congruence.
  - apply number_head in Hn. destruct s as [|y s]; [destruct Hn|]. cbn in Hn, Hh. apply orb_true_iff in Hn. destruct Hn as [Hn|Hn]; [rewrite (digit_end y Hn) in Hh; discriminate|].
    destruct H2 as (w & l2 & (E & _) & Nw & Hg). destruct w as [|z w]; [congruence|]. cbn in E. injection E as <- _. destruct (NL _ Hg) as [Hd _]. cbn in Hd. congruence.
  - now apply (inf_no_unit s l1 Hi).
  - now apply (inf_no_unit s l0 Hi).
  - destruct Hk as (k & w & Ek & _). discriminate.
  - apply N1. now apply multi_unit_is_like in Hu.
  - destruct Hp as (f & w & l2 & ds & Ef & _). discriminate.
Qed.
Lemma connection_head l r : connection c l r -> ~ multi_unit_like c t2 l.
Proof.
  intros H L. apply like_head in L.
  assert (K : exists x l', l = x :: l' /\ c_outer_delimiter c x = true).
  { destruct H as [l ds r (-> & Hd & _) Nd|l ds y ws1 w ws2 z r (-> & Hd & _) Nd]; (destruct ds as [|x ds]; [congruence|]); eexists _, _; (split; [reflexivity|]); apply Hd; now left. }
  destruct K as (x & l' & -> & Hx). cbn in L. unfold unit_end, keyword_end in L. rewrite Hx in L. discriminate.
Qed.
Lemma grow_component s d r : component c t1 None None s d r ->
  (r = [] \/ exists d' r', component c t1 None None r d' r') -> component c t2 None None s d r.
Proof.
  intros H HR.
  inversion H as [s0 n l W F x r0 l1 Hs Hn Hu Hc|s0 n l W F x l1 u m r0 Hs Hn Eu Hu|s0 n l l1 r0 Hs Hd Hi He Hc|s0 n l l0 l1 r0 Hs Hd Hi He Hi2 He2 Hc
    |s0 n l u m l1 r0 Hs Hw Hk Hc|s0 n l u m r0 Hs Hw Hk Ho Hu|s0 n l num l1 u m r0 Hs Hw Hk Ho Hp Hu]; subst.
  - apply co_number with l l1; auto. destruct Hc as [l1 Hc|l1 r Hc].
    + destruct HR as [->|(d' & r' & HR)].
      * right. intros (w & l2 & (E & _) & Nw & _). symmetry in E. apply app_eq_nil in E. now destruct E.
      * destruct Hu as [Hu|Hu]; [|right; now apply (component_no_new l1 d' r' HR)].
        right. apply (component_no_new l1 d' r' HR). intros (w & l2 & _ & _ & Hg). now rewrite Honest in Hg.
    + right. now apply (connection_head l1 r).
  - apply co_number_unit with l l1; auto; [now apply More|now apply grow_multi_unit].
  - apply co_inf with l l1; auto.
  - apply co_infinity with l l0 l1; auto.
  - destruct Hk as (k & w & Ek & _). discriminate.
  - apply co_unit with l; auto. now apply grow_multi_unit.
  - destruct Hp as (f & w & l2 & ds & Ef & _). discriminate.
Qed.
Lemma components_head s ds : components c t1 None None s ds -> exists d r, component c t1 None None s d r.
Proof. intros [s0 d H|s0 d r ds' H _ _]; eauto. Qed.
Lemma grow_components s ds : components c t1 None None s ds -> components c t2 None None s ds.
Proof.
  induction 1 as [s d H|s d r ds H N Hr IH].
  - apply cs_last. apply grow_component; auto.
  - apply cs_more with r; auto. apply grow_component; auto. right. eapply components_head. exact Hr.
Qed.
End Grow.

(** ** C60: what is accepted with some time units is accepted with more of them, with the same value *)
Theorem C60_more_units_single : forall c t1 t2 kw nums s d, env_ok c t1 kw nums -> env_ok c t2 kw nums -> utf8 s = true ->
  c_allow_multiple c = false -> more_units t1 t2 -> (c_number_is_optional c = true -> nums = None) ->
  parse c s t1 kw nums = Ok d -> parse c s t2 kw nums = Ok d.
Proof.
  intros c t1 t2 kw nums s d H1 H2 U Hm HM HN P. apply C22_single_grammar in P; auto. destruct P as [P1 P2].
  apply C22_single_grammar; auto. split; [|exact P2]. now apply (grow_single c t1 t2 HM).
Qed.
Print Assumptions C60_more_units_single.
(** the time units of the examples and three more *)
Definition ex_more : units_like := Units false (table (ex_unit_list ++ [(%"h", (Hour, Mul 1 0)); (%"m", (Minute, Mul 1 0)); (%"sec", (Second, Mul 1 0))])).
Lemma ex_more_units : more_units ex_units ex_more.
Proof.
  split; [|auto]. intros id x. cbn [ex_units ex_more u_get]. unfold table.
  assert (G : forall (l1 l2 : list (str * (time_unit * multiplier))) e, find (fun e => str_eqb id (fst e)) l1 = Some e -> find (fun e => str_eqb id (fst e)) (l1 ++ l2) = Some e).
  { induction l1 as [|a l1 IH]; intros l2 e; [discriminate|]. cbn [find app]. destruct (str_eqb id (fst a)); auto. }
  destruct (find _ ex_unit_list) as [e|] eqn:E; [|discriminate]. now rewrite (G _ _ _ E).
Qed.
Lemma ex_more_env c : c_inner_delimiter c = is_ascii_whitespace -> c_outer_delimiter c = is_ascii_whitespace -> c_conjunctions c = None -> env_ok c ex_more None None.
Proof.
  intros E1 E2 E3. constructor; try discriminate.
  - rewrite E1. exact ws_ascii.
  - rewrite E2. exact ws_ascii.
  - rewrite E3. discriminate.
  - intros id u m H. cbn [u_get ex_more] in H. apply table_in in H. cbn in H. repeat destruct H as [[= <- <-]|H]; try contradiction; repeat split; discriminate.
Qed.
Example C60_more_units_single_example : more_units ex_units ex_more /\ env_ok config_new ex_units None None /\ env_ok config_new ex_more None None /\
  parse config_new (%"1.5min") ex_units None None = Ok (Dur false (Std 90 0)) /\ parse config_new (%"1.5min") ex_more None None = Ok (Dur false (Std 90 0)) /\
  (exists e, parse config_new (%"1h") ex_units None None = Err e) /\ parse config_new (%"1h") ex_more None None = Ok (Dur false (Std 3600 0)).
Proof. split; [exact ex_more_units|]. split; [exact ex_env_default|]. split; [now apply ex_more_env|]. split; [reflexivity|]. split; [reflexivity|]. split; [eexists; reflexivity|reflexivity]. Qed.
(** with numerals and optional numbers a new unit may hide a numeral *)
Definition hiding_units : units_like := Units false (table [(%"s", (Second, Mul 1 0)); (%"half s", (Minute, Mul 30 0))]).
Definition hiding_before : units_like := Units false (table [(%"s", (Second, Mul 1 0))]).
Theorem C60_optional_numbers_refuted : exists c s d d', more_units hiding_before hiding_units /\ c_allow_multiple c = false /\
  parse c s hiding_before None (Some ex_numerals) = Ok d /\ parse c s hiding_units None (Some ex_numerals) = Ok d' /\ nanos d <> nanos d'.
Proof.
  exists (set_number_is_optional config_new true), (%"half s"). eexists _, _. split.
  - split; [|auto]. intros id x H. cbn [hiding_before u_get] in H. unfold table in H. cbn [find fst] in H.
    destruct (str_eqb id (%"s")) eqn:E; [|discriminate]. apply str_eqb_iff in E. subst id. exact H.
  - split; [reflexivity|]. split; [reflexivity|]. split; [reflexivity|discriminate].
Qed.
Print Assumptions C60_optional_numbers_refuted.

Theorem C60_more_units_multiple : forall c t1 t2 s d, env_ok c t1 None None -> env_ok c t2 None None -> utf8 s = true ->
  c_allow_multiple c = true -> more_units t1 t2 -> (u_is_empty t1 = true -> forall id, u_get t1 id = None) ->
  not_like_a_number t2 ->
  parse c s t1 None None = Ok d -> exists d', parse c s t2 None None = Ok d' /\ nanos d' = nanos d.
Proof.
  intros c t1 t2 s d H1 H2 U Hm HM HO NL P. pose proof (delims_none_ok c) as HD. apply C23_multiple_sound in P; auto. destruct P as (ds & P & Hs & _ & V).
  destruct (C23_multiple_complete c t2 None None s ds) as (D & PD & _ & VD); auto; [now apply (grow_components c t1 t2)|].
  exists D. split; [exact PD|]. now rewrite VD, V.
Qed.
Print Assumptions C60_more_units_multiple.
Lemma ex_more_not_like : not_like_a_number ex_more.
Proof.
  assert (T : forall A (l : list (str * A)) id, table l id <> None -> In id (map fst l)).
  { intros A l id. unfold table. destruct (find _ l) as [e|] eqn:E; [|congruence]. intros _. apply find_some in E. destruct E as [Hi He].
    apply str_eqb_iff in He. subst id. now apply in_map. }
  intros id H. apply T in H. cbn in H.
  repeat destruct H as [<-|H]; try contradiction; (split; [reflexivity|]); intros r r' (v & E & Hv);
    (destruct v as [|a v]; [discriminate Hv|]); cbn [app] in E; injection E as <- _; discriminate Hv.
Qed.
Definition more_multi : config := set_allow_multiple config_new true None.
Example C60_more_units_multiple_example : env_ok more_multi ex_units None None /\ env_ok more_multi ex_more None None /\ not_like_a_number ex_more /\
  parse more_multi (%"1min 2 .5ms3") ex_units None None = Ok (Dur false (Std 65 500000)) /\ parse more_multi (%"1min 2 .5ms3") ex_more None None = Ok (Dur false (Std 65 500000)).
Proof.
  split; [now apply ex_env; auto|]. split; [now apply ex_more_env|]. split; [exact ex_more_not_like|]. split; reflexivity.
Qed.
(** a keyword after a number without a unit: the new unit of the same name is taken for the unit of the number *)
Theorem C60_keywords_refuted : exists s d d', more_units ex_units (Units false (table (ex_unit_list ++ [(%"tomorrow", (Hour, Mul 1 0))]))) /\
  parse more_multi s ex_units (Some ex_keywords) None = Ok d /\
  parse more_multi s (Units false (table (ex_unit_list ++ [(%"tomorrow", (Hour, Mul 1 0))]))) (Some ex_keywords) None = Ok d' /\ nanos d <> nanos d'.
Proof.
  exists (%"1tomorrow"). eexists _, _. split.
  - split; [|auto]. intros id x. cbn [ex_units u_get]. unfold table.
    assert (G : forall (l1 l2 : list (str * (time_unit * multiplier))) e, find (fun e => str_eqb id (fst e)) l1 = Some e -> find (fun e => str_eqb id (fst e)) (l1 ++ l2) = Some e).
    { induction l1 as [|a l1 IH]; intros l2 e; [discriminate|]. cbn [find app]. destruct (str_eqb id (fst a)); auto. }
    destruct (find _ ex_unit_list) as [e|] eqn:E; [|discriminate]. now rewrite (G _ _ _ E).
  - split; [reflexivity|]. split; [reflexivity|discriminate].
Qed.
Print Assumptions C60_keywords_refuted.

(** the standard parser, with any settings: more time units never change what an accepted input means *)
Theorem C60_standard_parser : forall l1 l2 ss s d,
  let p1 := fold_left dp_set ss (dp_with_time_units l1) in
  let p2 := fold_left dp_set ss (dp_with_time_units l2) in
  (forall u, In u l1 -> In u l2) -> config_ok (dp_config p1) -> utf8 s = true ->
  dp_parse p1 s = Ok d -> exists d', dp_parse p2 s = Ok d' /\ nanos d' = nanos d.
Proof.
  intros l1 l2 ss s d p1 p2 HL HC U P.
  assert (K : forall ss p, fold_left dp_set ss p = DParser (dp_units p) (fold_left dp_set_config ss (dp_config p))).
  { clear. induction ss as [|x ss IH]; intros p; [now destruct p|]. cbn [fold_left]. rewrite IH. reflexivity. }
  subst p1 p2. rewrite !K in *. cbn [dp_with_time_units dp_units dp_config] in *. set (c := fold_left dp_set_config ss config_new) in *.
  assert (E1 : env_ok c (std_units (units_with l1)) None None) by (apply (std_env_ok (DParser (units_with l1) c)); [exists (fun u => memb u l1); apply units_with_data|exact HC]).
  assert (E2 : env_ok c (std_units (units_with l2)) None None) by (apply (std_env_ok (DParser (units_with l2) c)); [exists (fun u => memb u l2); apply units_with_data|exact HC]).
  assert (M : more_units (std_units (units_with l1)) (std_units (units_with l2))).
  { split.
    - intros id [u m] H. apply C31_lookup in H. apply C31_lookup. destruct H as (H1 & H2). auto.
    - destruct (u_is_empty (std_units (units_with l2))) eqn:E; [|auto]. apply C31_is_empty in E. subst l2. intros N.
      destruct l1 as [|u l1]; [discriminate N|]. destruct (HL u (or_introl eq_refl)). }
  unfold dp_parse in *. cbn [dp_config dp_units] in *.
  destruct (c_allow_multiple c) eqn:Em.
  - apply (C60_more_units_multiple c (std_units (units_with l1)) (std_units (units_with l2))); auto.
    + intros E id. apply C31_is_empty in E. destruct (u_get _ id) as [[u m]|] eqn:G; [|reflexivity]. apply C31_lookup in G. subst l1. destruct G as [[] _].
    + intros id H. destruct (u_get _ id) as [[u m]|] eqn:G; [|congruence]. apply C31_lookup in G. destruct G as (_ & -> & _).
      split; [destruct u; reflexivity|]. intros r r' (v & E & Hv). destruct v as [|a v]; [discriminate Hv|].
      destruct u; cbn in E; injection E as <- _; discriminate Hv.
  - exists d. split; [|reflexivity]. now apply (C60_more_units_single c (std_units (units_with l1)) (std_units (units_with l2))).
Qed.
Print Assumptions C60_standard_parser.
Example C60_standard_parser_example :
  let ss := [Set_parse_multiple true None; Set_allow_ago true; Set_default_unit Minute] in
  let p l := fold_left dp_set ss (dp_with_time_units l) in
  config_ok (dp_config (p [Second])) /\ 
  dp_parse (p [Second]) (%"1 2s ago 3.5") = Ok (Dur false (Std 268 0)) /\ dp_parse (p [Year; Second; Minute]) (%"1 2s ago 3.5") = Ok (Dur false (Std 268 0)).
Proof. split; [split; [exact ws_ascii|split; [exact ws_ascii|discriminate]]|]. split; reflexivity. Qed.
