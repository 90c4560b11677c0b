(** * Properties C34 and C36 observed by parsing: the identifiers given to a custom parser are the words of its grammar *)
From Verif Require Import Prelude Util Time Config Bytes Repr Parse SpecTime SpecNum SpecValue SpecParse SpecGrammar SpecSpelling Standard StandardProofs PropStandard
  Custom SpecCustom CustomProofs PropParse PropCustom PropTables ExEnv.

(** ** the grammar depends on the tables only through what they answer *)
Definition words_of (kw : option units_like) (id : str) (u : time_unit) (m : multiplier) : Prop := exists k, kw = Some k /\ u_get k id = Some (u, m).
Definition numbers_of (nums : option numbers_like) (id : str) (n : multiplier) : Prop := exists f, nums = Some f /\ f id = Some n.

Section GrammarExt.
Context (c : config) (tu tu' : units_like) (kw kw' : option units_like) (nums nums' : option numbers_like).
Hypothesis Hu : forall id, u_get tu id = u_get tu' id.
Hypothesis He : u_is_empty tu = u_is_empty tu'.
Hypothesis Hk : forall id u m, words_of kw id u m <-> words_of kw' id u m.
Hypothesis Hn : forall id n, numbers_of nums id n <-> numbers_of nums' id n.

Lemma ext_single_unit l u m : single_unit c tu l u m -> single_unit c tu' l u m.
Proof.
  intros [l' u' m' Ha Hg|l' u' m' Ha N Hl Hg|l' w l1 ds a u' m' Ha Hl Nw Hg Hs Hago]; rewrite Hu in Hg.
  - now apply su_plain.
  - now apply su_no_ago.
  - now apply su_ago with w l1 ds a.
Qed.
Lemma ext_single_like l : single_unit_like c tu' l -> single_unit_like c tu l.
Proof.
  intros [l' Ha Hg|l' Ha N Hl Hg|l' w l1 ds a r Ha Hl Nw Hg Hs Hago]; rewrite <- Hu in Hg.
  - now apply sul_plain.
  - now apply sul_no_ago.
  - now apply sul_ago with w l1 ds a r.
Qed.
Lemma ext_numeral l n r : numeral_prefix c nums l n r -> numeral_prefix c nums' l n r.
Proof.
  intros (f & w & l1 & ds & Ef & H1 & H2 & Hf & H3). destruct (proj1 (Hn w n)) as (f' & Ef' & Hf'); [now exists f|].
  exists f', w, l1, ds. auto.
Qed.
Lemma ext_single s d : single_duration c tu kw nums s d -> single_duration c tu' kw' nums' s d.
Proof.
  intros [s0 n l W F x Hs H|s0 n l W F x r u m Hs H Nr Eu H1|s0 n l Hs Hd Hi|s0 n l u m Hs Hw H|s0 n l u m Hs Hw H Ho H1|s0 n l num r u m Hs Hw H Ho Hp H1].
  - now apply sd_number with l.
  - apply sd_number_unit with l r; auto; [now rewrite <- He|now apply ext_single_unit].
  - now apply sd_infinity with l.
  - apply sd_keyword with l; auto. now apply Hk.
  - apply sd_unit with l; auto; [|now apply ext_single_unit]. intros u0 m0 K. apply (H u0 m0). now apply Hk.
  - apply sd_numeral with l r; auto; [| |now apply ext_numeral|now apply ext_single_unit].
    + intros u0 m0 K. apply (H u0 m0). now apply Hk.
    + intros O L. now apply (Ho O), ext_single_like.
Qed.
Lemma ext_multi_unit l u m r : multi_unit c tu l u m r -> multi_unit c tu' l u m r.
Proof.
  intros [l' w l1 u' m' r' Hl Nw Hg Na Nd Hc|l' w l1 l2 u' m' r' Hl Nw Hg Ha Hc]; rewrite Hu in Hg.
  - now apply mu_plain with w l1.
  - now apply mu_ago with w l1 l2.
Qed.
Lemma ext_multi_like l : multi_unit_like c tu' l -> multi_unit_like c tu l.
Proof. intros (w & l1 & H & N & G). exists w, l1. now rewrite Hu. Qed.
Lemma ext_multi_keyword l u m r : multi_keyword_is c kw l u m r -> multi_keyword_is c kw' l u m r.
Proof. intros (k & w & Ek & H & N & G). destruct (proj1 (Hk w u m)) as (k' & Ek' & G'); [now exists k|]. exists k', w. auto. Qed.
Lemma ext_multi_keyword' l u m r : multi_keyword_is c kw' l u m r -> multi_keyword_is c kw l u m r.
Proof. intros (k & w & Ek & H & N & G). destruct (proj2 (Hk w u m)) as (k' & Ek' & G'); [now exists k|]. exists k', w. auto. Qed.
Lemma ext_component s d r : component c tu kw nums s d r -> component c tu' kw' nums' s d r.
Proof.
  intros [s0 n l W F x r0 l1 Hs H Hu' Hc|s0 n l W F x l1 u m r0 Hs H Eu Hu'|s0 n l l1 r0 Hs Hd Hi He' Hc|s0 n l l0 l1 r0 Hs Hd Hi He' Hi2 He2 Hc
    |s0 n l u m l1 r0 Hs Hw H Hc|s0 n l u m r0 Hs Hw H Ho Hu'|s0 n l num l1 u m r0 Hs Hw H Ho Hp Hu'].
  - apply co_number with l l1; auto. destruct Hu' as [Hu'|Hu']; [left; now rewrite <- He|]. right. intros L. now apply Hu', ext_multi_like.
  - apply co_number_unit with l l1; auto; [now rewrite <- He|now apply ext_multi_unit].
  - now apply co_inf with l l1.
  - now apply co_infinity with l l0 l1.
  - apply co_keyword with l l1; auto. now apply ext_multi_keyword.
  - apply co_unit with l; auto; [|now apply ext_multi_unit]. intros u0 m0 r1 K. apply (H u0 m0 r1). now apply ext_multi_keyword'.
  - apply co_numeral with l l1; auto; [| |now apply ext_numeral|now apply ext_multi_unit].
    + intros u0 m0 r1 K. apply (H u0 m0 r1). now apply ext_multi_keyword'.
    + intros O L. now apply (Ho O), ext_multi_like.
Qed.
Lemma ext_components s ds : components c tu kw nums s ds -> components c tu' kw' nums' s ds.
Proof. induction 1 as [s d H|s d r ds H N Hr IH]; [apply cs_last; now apply ext_component|]. apply cs_more with r; auto. now apply ext_component. Qed.
End GrammarExt.

(** ** the tables of a custom parser *)
(** [t] is a table with exactly the registered identifiers (so none of them is ambiguous) *)
Definition table_of (us : list custom_time_unit) (t : units_like) : Prop :=
  (forall id u m, u_get t id = Some (u, m) <-> registered us id u m) /\ (u_is_empty t = true <-> forall id u m, ~ registered us id u m).
Definition numeral_table_of (l : list numeral) (f : numbers_like) : Prop := forall id m, f id = Some m <-> numeral_registered l id m.

Lemma table_unambiguous us t : table_of us t -> unambiguous us.
Proof. intros [H _] id u m u' m' R R'. apply H in R, R'. congruence. Qed.
Lemma table_get us t id : table_of us t -> u_get (custom_like (cu_with_time_units us)) id = u_get t id.
Proof.
  intros H. cbn [u_get custom_like]. destruct (cu_get (cu_with_time_units us) id) as [[u m]|] eqn:E.
  - apply C34_lookup in E. destruct E as [E _]. symmetry. now apply H.
  - destruct (u_get t id) as [[u m]|] eqn:F; [|reflexivity]. apply H in F. destruct (proj2 (C34_found_iff_registered us id)) as (u' & m' & G); [eauto|congruence].
Qed.
Lemma table_empty us t : table_of us t -> u_is_empty (custom_like (cu_with_time_units us)) = u_is_empty t.
Proof.
  intros [_ H]. cbn [u_is_empty custom_like].
  assert (K : cu_is_empty (cu_with_time_units us) = true <-> u_is_empty t = true).
  { rewrite H, C34_is_empty. split.
    - intros N id u m (Ni & t' & T1 & _ & T2). apply (N t' T1). exists id. auto.
    - intros N t' T1 (id & I1 & I2). apply (N id (ctu_base t') (ctu_mult t')). split; [exact I2|]. exists t'. auto. }
  destruct (cu_is_empty _), (u_is_empty t); try reflexivity; [symmetry; now apply K|now apply K].
Qed.
Lemma numerals_words l f : numeral_table_of l f -> forall id n, numbers_of (match l with [] => None | n0 :: l0 => Some (numerals_get (n0 :: l0)) end) id n <-> numbers_of (Some f) id n.
Proof.
  intros H id n.
  assert (A : forall l m, numerals_get l id = Some m -> numeral_registered l id m).
  { clear. intros l m H. apply C36_lookup in H. destruct H as (l1 & n & l2 & -> & H1 & H2 & _). exists n. split; [|auto]. apply in_app_iff. right. now left. }
  assert (B : forall l m, numeral_registered l id m -> numerals_get l id <> None).
  { clear. intros l m (n & H1 & H2 & _). induction l as [|x l IH]; [contradiction|]. cbn [numerals_get].
    destruct (existsb _ _) eqn:E; [discriminate|]. destruct H1 as [->|H1]; [|auto].
    assert (existsb (fun i => str_eqb i id) (nu_ids n) = true) by now apply existsb_in. congruence. }
  assert (C : numbers_of (match l with [] => None | n0 :: l0 => Some (numerals_get (n0 :: l0)) end) id n <-> numerals_get l id = Some n).
  { destruct l as [|x l]; [split; [intros (g & E & _); discriminate|discriminate]|]. split; [intros (g & E & G); injection E as <-; exact G|intros G; eexists; split; [reflexivity|exact G]]. }
  rewrite C. split.
  - intros G. apply A in G. exists f. split; [reflexivity|now apply H].
  - intros (g & [= <-] & G). apply H in G. destruct (numerals_get l id) as [m|] eqn:E; [|now elim (B l n G)]. apply A in E. apply H in E, G. congruence.
Qed.
Lemma keywords_words us k : table_of us k ->
  forall id u m, words_of (if negb (cu_is_empty (cu_with_time_units us)) then Some (custom_like (cu_with_time_units us)) else None) id u m <-> words_of (Some k) id u m.
Proof.
  intros H id u m. pose proof (table_empty us k H) as E. cbn [u_is_empty custom_like] in E. rewrite E. destruct (u_is_empty k) eqn:Ek; cbn [negb].
  - split; [intros (x & X & _); discriminate|]. intros (x & [= <-] & G). apply H in G. elim (proj1 (proj2 H) Ek id u m G).
  - split; intros (x & X & G); injection X as <-; (eexists; split; [reflexivity|]); [rewrite <- (table_get us k id H)|rewrite (table_get us k id H)]; exact G.
Qed.

(** what was given to the parser is accepted by the constructors and cannot overflow (C35) *)
Record calls_fit (os : list custom_call) : Prop := {
  cf_units : forall t, In t (units_of os) -> constructed t;
  cf_keywords : forall t, In t (keywords_of os) -> constructed t;
  cf_numerals : forall n t, In n (numerals_of os) -> In t (units_of os) ->
    numeral_fits (nu_mult n) (ctu_base t) (ctu_mult t) /\
    (c_allow_ago (cp_config (fold_left cp_call os cp_new)) = true -> numeral_fits (nu_mult n) (ctu_base t) (mul_saturating_neg (ctu_mult t)));
  cf_config : config_ok (cp_config (fold_left cp_call os cp_new))
}.
Lemma custom_env_ok os : calls_fit os -> let p := fold_left cp_call os cp_new in
  env_ok (cp_config p) (custom_like (cu_with_time_units (units_of os)))
    (if negb (cu_is_empty (cu_with_time_units (keywords_of os))) then Some (custom_like (cu_with_time_units (keywords_of os))) else None)
    (match numerals_of os with [] => None | l => Some (numerals_get l) end).
Proof.
  intros [Hu Hk Hn Hc] p. destruct Hc as (H1 & H2 & H3). constructor; auto.
  - exact (custom_units_fit _ Hu).
  - intros k E. destruct (negb _); [|discriminate]. injection E as <-. exact (custom_units_fit _ Hk).
  - intros f id n E F id' u m G. cbn [u_get custom_like] in G. apply C34_lookup in G.
    destruct G as [(_ & t & G1 & G2 & _) _]. injection G2 as <- <-.
    assert (T : exists nu, In nu (numerals_of os) /\ nu_mult nu = n).
    { destruct (numerals_of os) as [|n0 l]; [discriminate|]. injection E as <-. apply (proj1 (C36_lookup (n0 :: l) id n)) in F. destruct F as (l1 & n1 & l2 & -> & _ & <- & _). exists n1.
      split; [|reflexivity]. apply in_app_iff. right. now left. }
    destruct T as (nu & T1 & <-). exact (Hn _ _ T1 G1).
Qed.
Lemma cp_parse_calls os s : let p := fold_left cp_call os cp_new in
  cp_parse p s = parse (cp_config p) s (custom_like (cu_with_time_units (units_of os)))
    (if negb (cu_is_empty (cu_with_time_units (keywords_of os))) then Some (custom_like (cu_with_time_units (keywords_of os))) else None)
    (match numerals_of os with [] => None | l => Some (numerals_get l) end).
Proof. intros p. subst p. rewrite cp_calls. reflexivity. Qed.

(** [delims_ok] for a custom parser: it concerns only parsers with keywords or numerals, if multiple durations are allowed *)
Definition calls_delims (os : list custom_call) : Prop := let c := cp_config (fold_left cp_call os cp_new) in
  c_allow_multiple c = true ->
  (keywords_of os <> [] -> c_allow_ago c = true -> delims_strict c) /\ (numerals_of os <> [] -> c_allow_ago c = false -> delims_strict c).
Lemma calls_delims_ok os : calls_delims os -> delims_ok (cp_config (fold_left cp_call os cp_new))
    (if negb (cu_is_empty (cu_with_time_units (keywords_of os))) then Some (custom_like (cu_with_time_units (keywords_of os))) else None)
    (match numerals_of os with [] => None | l => Some (numerals_get l) end).
Proof.
  intros H M. destruct (H M) as [H1 H2]. split.
  - intros N. apply H1. intros E. rewrite E in N. now apply N.
  - intros N. apply H2. intros E. rewrite E in N. now apply N.
Qed.
Lemma calls_strict_delims os : delims_strict (cp_config (fold_left cp_call os cp_new)) -> calls_delims os.
Proof. intros H _. auto. Qed.

(** ** C34, C36: a custom parser accepts exactly the grammar of C22 and C23 with the registered identifiers as words *)
Theorem C34_single_durations : forall os units keywords numerals s d, let p := fold_left cp_call os cp_new in
  calls_fit os -> utf8 s = true -> c_allow_multiple (cp_config p) = false ->
  table_of (units_of os) units -> table_of (keywords_of os) keywords -> numeral_table_of (numerals_of os) numerals ->
  cp_parse p s = Ok d <-> single_duration (cp_config p) units (Some keywords) (Some numerals) s d /\ sign_allowed (cp_config p) d.
Proof.
  intros os units keywords numerals s d p HF U Hm TU TK TN. unfold p. rewrite cp_parse_calls. fold p. rewrite C22_single_grammar; [|apply custom_env_ok; exact HF|exact U|exact Hm].
  assert (E : forall id, u_get (custom_like (cu_with_time_units (units_of os))) id = u_get units id) by (intros id; now apply table_get).
  pose proof (table_empty _ _ TU) as Ee. pose proof (keywords_words _ _ TK) as EK. pose proof (numerals_words _ _ TN) as EN.
  split; intros [H1 H2]; (split; [|exact H2]).
  - revert H1. apply ext_single; auto.
  - revert H1. apply ext_single; auto; intros; symmetry; auto.
Qed.
Print Assumptions C34_single_durations.
Theorem C34_multiple_durations : forall os units keywords numerals s, let p := fold_left cp_call os cp_new in
  calls_fit os -> calls_delims os -> utf8 s = true -> c_allow_multiple (cp_config p) = true ->
  table_of (units_of os) units -> table_of (keywords_of os) keywords -> numeral_table_of (numerals_of os) numerals ->
  (forall D, cp_parse p s = Ok D -> exists ds, components (cp_config p) units (Some keywords) (Some numerals) s ds /\ (forall d, In d ds -> sign_allowed (cp_config p) d) /\
     duration_ok D /\ nanos D = saturating_sum ds) /\
  (forall ds, components (cp_config p) units (Some keywords) (Some numerals) s ds -> (forall d, In d ds -> sign_allowed (cp_config p) d) ->
     exists D, cp_parse p s = Ok D /\ duration_ok D /\ nanos D = saturating_sum ds).
Proof.
  intros os units keywords numerals s p HF HD U Hm TU TK TN. apply calls_delims_ok in HD. unfold p. rewrite cp_parse_calls. fold p.
  assert (E : forall id, u_get (custom_like (cu_with_time_units (units_of os))) id = u_get units id) by (intros id; now apply table_get).
  pose proof (table_empty _ _ TU) as Ee. pose proof (keywords_words _ _ TK) as EK. pose proof (numerals_words _ _ TN) as EN. split.
  - intros D P. apply C23_multiple_sound in P; auto; [|apply custom_env_ok; exact HF]. destruct P as (ds & H1 & H2). exists ds. split; [|exact H2].
    revert H1. apply ext_components; auto.
  - intros ds H1 H2. apply C23_multiple_complete; auto; [apply custom_env_ok; exact HF|]. revert H1. apply ext_components; auto; intros; symmetry; auto.
Qed.
Print Assumptions C34_multiple_durations.
(** such tables exist whenever no identifier is ambiguous *)
Lemma own_table us : unambiguous us -> table_of us (custom_like (cu_with_time_units us)).
Proof.
  intros A. split; cbn [u_get u_is_empty custom_like].
  - intros id u m. split; [intros H; now apply C34_lookup in H|]. intros R. apply C34_unambiguous; [exact R|]. intros u' m' R'. apply (A id); [exact R'|exact R].
  - rewrite C34_is_empty. split.
    + intros N id u m (Ni & t' & T1 & _ & T2). apply (N t' T1). exists id. auto.
    + intros N t' T1 (id & I1 & I2). apply (N id (ctu_base t') (ctu_mult t')). split; [exact I2|]. exists t'. auto.
Qed.
Definition ex_calls : list custom_call :=
  [ C_keyword (CTU Day (Mul 1 0) [%"tomorrow"; %"morrow"]); C_time_unit (CTU Second (Mul 1 0) [%"sec"]); C_set (Set_allow_time_unit_delimiter true);
    C_time_units [CTU Week (Mul 2 0) [%"fortnight"; %"fortnights"]; CTU Second (Mul 1 0) [%"s"]]; C_numeral (Numeral [%"next"; %"one"] (Mul 1 0)) ].
Lemma ex_calls_fit : calls_fit ex_calls.
Proof.
  constructor.
  - intros t H. cbn in H. repeat destruct H as [<-|H]; try contradiction.
    + exists Second, [%"sec"], None. split; [reflexivity|discriminate].
    + exists Week, [%"fortnight"; %"fortnights"], (Some (Mul 2 0)). split; [reflexivity|]. intros x [= <-]. split; reflexivity.
    + exists Second, [%"s"], None. split; [reflexivity|discriminate].
  - intros t H. cbn in H. repeat destruct H as [<-|H]; try contradiction. exists Day, [%"tomorrow"; %"morrow"], None. split; [reflexivity|discriminate].
  - intros n t H1 H2. cbn in H1, H2. repeat destruct H1 as [<-|H1]; try contradiction; repeat destruct H2 as [<-|H2]; try contradiction;
      (split; [|intros _]; eexists; (split; [reflexivity|discriminate])).
  - split; [exact ws_ascii|]. split; [exact ws_ascii|]. discriminate.
Qed.
Lemma ex_calls_unambiguous : unambiguous (units_of ex_calls) /\ unambiguous (keywords_of ex_calls).
Proof.
  split; intros id u m u' m' (_ & t & T1 & T2 & T3) (_ & t' & T1' & T2' & T3'); cbn in T1, T1';
    repeat destruct T1 as [<-|T1]; try contradiction; repeat destruct T1' as [<-|T1']; try contradiction;
    cbn in T2, T2', T3, T3'; try congruence; exfalso; repeat destruct T3 as [<-|T3]; try contradiction; repeat destruct T3' as [T3'|T3']; try discriminate; try contradiction.
Qed.
Lemma ex_numeral_table : numeral_table_of (numerals_of ex_calls) (table [(%"next", Mul 1 0); (%"one", Mul 1 0)]).
Proof.
  intros id m. split.
  - intros H. unfold table in H. cbn [find fst] in H. destruct (str_eqb id (%"next")) eqn:E1; [apply str_eqb_iff in E1; subst id; injection H as <-; eexists; split; [now left|]; split; [now left|reflexivity]|].
    destruct (str_eqb id (%"one")) eqn:E2; [apply str_eqb_iff in E2; subst id; injection H as <-; eexists; split; [now left|]; split; [right; now left|reflexivity]|]. discriminate.
  - intros (n & N1 & N2 & <-). cbn in N1. destruct N1 as [<-|[]]. cbn in N2. repeat destruct N2 as [<-|N2]; try contradiction; reflexivity.
Qed.
Example C34_single_durations_example : let p := fold_left cp_call ex_calls cp_new in
  calls_fit ex_calls /\ c_allow_multiple (cp_config p) = false /\ table_of (units_of ex_calls) (custom_like (cu_with_time_units (units_of ex_calls))) /\
  table_of (keywords_of ex_calls) (custom_like (cu_with_time_units (keywords_of ex_calls))) /\
  cp_parse p (%"morrow") = Ok (Dur false (Std 86400 0)) /\ cp_parse p (%"next fortnight") = Ok (Dur false (Std 1209600 0)) /\ cp_parse p (%"2 s") = Ok (Dur false (Std 2 0)) /\
  exists e, cp_parse p (%"3tomorrow") = Err e.
Proof.
  destruct ex_calls_unambiguous as [A1 A2]. split; [exact ex_calls_fit|]. split; [reflexivity|]. split; [now apply own_table|]. split; [now apply own_table|].
  split; [reflexivity|]. split; [reflexivity|]. split; [reflexivity|]. eexists. reflexivity.
Qed.
Example C34_multiple_durations_example : let os := ex_calls ++ [C_set (Set_parse_multiple true None)] in let p := fold_left cp_call os cp_new in
  c_allow_multiple (cp_config p) = true /\ calls_delims os /\ cp_parse p (%"next fortnight tomorrow 2 s") = Ok (Dur false (Std 1296002 0)).
Proof. split; [reflexivity|]. split; [|reflexivity]. apply calls_strict_delims. intros x Hx. unfold keyword_end. cbn in Hx |- *. now rewrite Hx. Qed.
