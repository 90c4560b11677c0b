(** * Property C102: which kinds of errors there are *)
From Verif Require Import Prelude Util Time Config SpecTime SpecNum SpecParse SpecValue SpecGrammar SpecErrors SpecSpelling Utf8Proofs TimeProofs NumProofs Parse Standard StandardProofs Custom
  SpecCustom Systemd Gnu Misc SpecSystemd SpecSystemdErrors SpecGnu SpecGnuErrors PropSystemd PropSystemdErrors PropGnuErrors ExEnv
  PropParse PropErrors PropStandard PropSettings PropCustomText PropCustomTexts PropText PropTextLength PropMessageLength PropPrefix SystemdSpan.

(** an e or E, a sign, and digits which denote an exponent below -32768 or above 32767 *)
Definition exponent_beyond (negative : bool) (s : str) : Prop :=
  exists a x sg ds b, s = a ++ x :: sg ++ ds ++ b /\ (x = 101 \/ x = 69) /\ digit_string ds /\
    (if negative then sg = [45] /\ dval ds > 32768 else (sg = [] \/ sg = [43]) /\ dval ds > 32767).

(** what an error of the kind says about the input [s] and the settings *)
Definition kind_means (c : config) (tu : units_like) (nums : option numbers_like) (s : str) (e : parse_error) : Prop :=
  match e with
  | Empty => s = []
  | Overflow => False
  | NegativeNumber => c_allow_negative c = false
  | NegativeExponentOverflow => c_disable_exponent c = false /\ exponent_beyond true s
  | PositiveExponentOverflow => c_disable_exponent c = false /\ exponent_beyond false s
  | TimeUnitErr p _ => (p <= length s)%nat /\ (c_allow_multiple c = false \/ nums <> None)
  | InvalidInput l => exists pre, s = pre ++ l /\ l <> [] /\ forall x r, l = x :: r -> ~ 48 <= x <= 57 /\ x <> 46
  | Syntax p _ => (p <= length s)%nat /\ s <> []
  end.

Lemma long_front n a s : exponent_beyond n s -> exponent_beyond n (a ++ s).
Proof. intros (b & x & sg & ds & r & -> & H). exists (a ++ b), x, sg, ds, r. now rewrite <- app_assoc. Qed.

(** every rest is the end of the text *)
Definition ends (l r : str) : Prop := exists a, l = a ++ r.
Lemma ends_refl l : ends l l.
Proof. now exists []. Qed.
Lemma ends_trans a b c : ends a b -> ends b c -> ends a c.
Proof. intros (x & ->) (y & ->). exists (x ++ y). now rewrite <- app_assoc. Qed.
Lemma ends_cons x l r : ends l r -> ends (x :: l) r.
Proof. intros (a & ->). now exists (x :: a). Qed.
Lemma ends_app a l r : ends l r -> ends (a ++ l) r.
Proof. intros (b & ->). exists (a ++ b). now rewrite <- app_assoc. Qed.
Lemma span_ends p l a b : span p l a b -> ends l b.
Proof. intros (-> & _). now exists a. Qed.
Lemma until_ends p l a b : until p l a b -> ends l b.
Proof. apply span_ends. Qed.
Lemma word_ends_ w l r : word_prefix w l r -> ends l r.
Proof. intros (v & -> & _). now exists v. Qed.

Section Kinds.
Context (c : config) (tu : units_like) (kw : option units_like) (nums : option numbers_like) (s : str).
Lemma signed_ends t n l : signed c t n l -> ends t l.
Proof. intros [? ? ?|? ? ? _ _ -> _|? ? ? ? _ _ D _]; [apply ends_refl|apply ends_cons, ends_refl|apply ends_cons; now apply span_ends in D]. Qed.
Lemma signed_nonempty t n l : signed c t n l -> t <> [].
Proof. intros []; [assumption|discriminate|discriminate]. Qed.
Lemma fraction_ends l F r : fraction c l F r -> ends l r.
Proof. intros [? ?|? ? ? _ D]; [apply ends_refl|apply ends_cons; now apply span_ends in D]. Qed.
Lemma exponent_ends l x r : exponent c l x r -> ends l r.
Proof. intros [? ?|? ? ? ? ? ? ? _ _ _ D _ _ _]; [apply ends_refl|apply ends_cons, ends_app; now apply span_ends in D]. Qed.
Lemma number_ends_ l W F x r : number c l W F x r -> ends l r.
Proof.
  intros (l1 & l2 & l3 & H1 & H2 & H3 & H4 & _). apply span_ends in H1. apply fraction_ends in H2. apply exponent_ends in H3.
  assert (H5 : ends l3 r) by (destruct H4; [apply ends_refl|eapply span_ends; eauto]). eauto using ends_trans.
Qed.
Lemma next_ends l r : next_component c l r -> ends l r.
Proof.
  intros [?|? ? H]; [apply ends_refl|]. destruct H as [? ? ? H|? ? ? ? ? ? ? ? H1 H2 H3 H4 H5 H6 H7]; [now apply span_ends in H|].
  apply span_ends in H1. apply word_ends_ in H6. destruct H7 as [(_ & _ & ->)|(ds2 & H & _)]; [|apply span_ends in H]; eauto using ends_trans.
Qed.
Lemma ago_ends l r : ago c l r -> ends l r.
Proof. intros (_ & ds & a & H1 & _ & H2 & _). apply span_ends in H1. apply word_ends_ in H2. eauto using ends_trans. Qed.
Lemma multi_unit_ends l u m r : multi_unit c tu l u m r -> ends l r.
Proof. intros [? ? ? ? ? ? H _ _ _ _ K|? ? ? ? ? ? ? H _ _ A K]; apply next_ends in K; try apply ago_ends in A; apply until_ends in H; eauto using ends_trans. Qed.
Lemma component_ends t d r : component c tu kw nums t d r -> ends t r.
Proof.
  intros H. destruct H as [? ? ? ? ? ? ? ? S N _ K|? ? ? ? ? ? ? ? ? ? S N _ K|? ? ? ? ? S _ W _ K|? ? ? ? ? ? S _ W _ W2 _ K|? ? ? ? ? ? ? S _ (k & w & _ & U & _) K|? ? ? ? ? ? S _ _ _ K|? ? ? ? ? ? ? ? S _ _ _ (f & w & l1' & ds & _ & U & _ & _ & D & _) K];
    apply signed_ends in S; try apply number_ends_ in N; first [apply next_ends in K|apply multi_unit_ends in K]; try apply word_ends_ in W; try apply word_ends_ in W2; try apply until_ends in U; try apply span_ends in D; eauto using ends_trans.
Qed.

(** a syntax error is at a byte of the text or at its end *)
Definition syntax (e : parse_error) : Prop := exists p m, e = Syntax p m /\ (p <= length s)%nat.
Lemma here_le l : (here s l <= length s)%nat.
Proof. unfold here. lia. Qed.
Ltac syn := eexists; eexists; split; [reflexivity|]; try apply here_le; unfold here; lia.
Lemma trailing_syn d l e : trailing s d l e -> syntax e.
Proof. intros (_ & _ & ->). syn. Qed.
Lemma unexpected_syn l e : unexpected s l e -> syntax e.
Proof. intros (_ & ->). syn. Qed.
Lemma sign_syn l e : sign_error c s l e -> syntax e.
Proof. intros [x H|x l' e' H A T]; [syn|now apply trailing_syn in T]. Qed.
Lemma number_kind l e : number_error c s l e ->
  syntax e \/ (c_disable_exponent c = false /\ ((e = NegativeExponentOverflow /\ exponent_beyond true l) \/ (e = PositiveExponentOverflow /\ exponent_beyond false l))).
Proof.
  assert (E : forall x, is_e x = true -> x = 101 \/ x = 69) by (unfold is_e; intros; lia).
  assert (D : forall p ds r, span is_digit p ds r -> digit_string ds) by (intros p ds r (_ & H & _) y Hy; specialize (H y Hy); unfold is_digit in H; lia).
  intros [W l1 H1 H2|W l1 F l2 H1 H2 _ H3|W l1 F l2 x l3 H1 H2 _ H3 _ H4].
  - left. destruct H2; syn.
  - apply span_ends in H1. apply fraction_ends in H2. destruct (ends_trans _ _ _ H1 H2) as (a & ->).
    destruct H3 as [x l' Hx Hd|x Hx Hd|x y Hx Hd Hy|x sg n y l' Hx Hd Hs Hy _|x l' ds r Hx Hd Hs V|x sg l' ds r Hx Hd Hg Hs V]; try (left; syn); right.
    + split; [exact Hd|]. left. split; [reflexivity|]. apply long_front. pose proof (D _ _ _ Hs). destruct Hs as (-> & _). exists [], x, [45], ds, r. split; [reflexivity|]. split; [now apply E|]. split; [assumption|]. split; [reflexivity|lia].
    + split; [exact Hd|]. right. split; [reflexivity|]. apply long_front. pose proof (D _ _ _ Hs). destruct Hs as (-> & _). exists [], x, sg, ds, r. split; [reflexivity|]. split; [now apply E|].
      split; [assumption|]. split; [|lia]. inversion Hg; auto.
  - left. now apply trailing_syn in H4.
Qed.
Lemma numeral_end_syn l e : numeral_end c nums s l e -> syntax e.
Proof. intros (f & w & l1 & _ & H & _ & _ & T). now apply trailing_syn in T. Qed.
Lemma single_unit_syn l e : single_unit_error c tu s l e -> syntax e.
Proof. intros [w l1 _ H _ _ T|w l1 ds a r _ H _ _ D A U]; [now apply trailing_syn in T|now apply unexpected_syn in U]. Qed.
Lemma single_infinity_syn w l e : single_infinity_error s w l e -> syntax e.
Proof. intros H. induction H as [? ? ? ? ? _ _ IH|?|x y w l E|l e U]; [exact IH|syn|syn|now apply unexpected_syn in U]. Qed.
Lemma next_syn l e : next_error c s l e -> syntax e.
Proof.
  intros [T|ds y D _ _ C]; [now apply trailing_syn in T|]. destruct C as [ws1 w ws2 z _ _ W H].
  destruct H as [(-> & ->)|[T|(x & z' & -> & _ & _ & ->)]]; [syn|now apply trailing_syn in T|syn].
Qed.
Lemma multi_unit_syn l e : multi_unit_error c tu s l e -> syntax e.
Proof. intros [w l1 H _ _ _ T|w l1 H _ _ _ _ T|w l1 l2 H _ _ A T]; [now apply trailing_syn in T|now apply next_syn in T|now apply next_syn in T]. Qed.
Lemma multi_infinity_syn l0 w l e : multi_infinity_error c s l0 w l e -> syntax e.
Proof. intros H. induction H as [? ? ? ? ? _ _ IH|?|x y w l E|x l E|l e U]; [exact IH|syn|syn|syn|now apply next_syn in U]. Qed.

Lemma syntax_kind e : s <> [] -> syntax e -> kind_means c tu nums s e.
Proof. intros N (p & m & -> & L). cbn. auto. Qed.
Lemma number_means t n l e : s <> [] -> ends s t -> signed c t n l -> number_error c s l e -> kind_means c tu nums s e.
Proof.
  intros N E S H. apply number_kind in H. destruct H as [H|(D & [(-> & L)|(-> & L)])]; [now apply syntax_kind| |];
    (cbn; split; [exact D|]; destruct (ends_trans _ _ _ E (signed_ends _ _ _ S)) as (a & ->); now apply long_front).
Qed.
Lemma unknown_means t n l : ends s t -> signed c t n l -> word c l -> kind_means c tu nums s (InvalidInput l).
Proof.
  intros E S (W1 & W2 & _). cbn. destruct (ends_trans _ _ _ E (signed_ends _ _ _ S)) as (a & Ea). exists a. split; [exact Ea|].
  assert (L : l <> []) by (destruct S; assumption). split; [exact L|]. intros x r ->. cbn in W1, W2. unfold is_digit, is_dot in *. lia.
Qed.
Lemma single_kind e : c_allow_multiple c = false -> single_error c tu kw nums s e -> kind_means c tu nums s e.
Proof.
  intros M H. destruct H as [?|e H|n l e S H|n l W F x r S N _ _|n l W F x r S N _ _ _|n l W F x r e S N _ _ H|n l r e S _ W _ H|n l e S _ _ _ H|n l S W _ _ _|n l e S _ _ _ H|n l w r e S _ _ _ N H|n l w r e S _ _ _ N _ H|d D A Ng];
    try (assert (Ns : s <> []) by (eapply signed_nonempty; eauto)).
  - assumption.
  - apply syntax_kind; [|now apply sign_syn in H]. destruct H; discriminate.
  - eapply number_means; eauto using ends_refl.
  - cbn. split; [apply here_le|now left].
  - cbn. split; [apply here_le|now left].
  - apply syntax_kind; [exact Ns|]. now apply single_unit_syn in H.
  - apply syntax_kind; [exact Ns|]. now apply single_infinity_syn in H.
  - apply syntax_kind; [exact Ns|]. now apply single_unit_syn in H.
  - eapply unknown_means; eauto using ends_refl.
  - apply syntax_kind; [exact Ns|]. now apply numeral_end_syn in H.
  - apply syntax_kind; [exact Ns|]. now apply single_unit_syn in H.
  - rewrite H. cbn. split; [apply here_le|now left].
  - exact A.
Qed.
Lemma component_kind t e : ends s t -> t <> [] \/ t = s -> component_error c tu kw nums s t e -> kind_means c tu nums s e.
Proof.
  intros E Nt H. assert (NS : t <> [] -> s <> []) by (intros K ->; destruct E as (a & Ea); symmetry in Ea; apply app_eq_nil in Ea; now destruct Ea).
  destruct H as [?|e H|n l e S H|n l W F x r e S N _ H|n l W F x r e S N _ H|n l r e S _ W H|n l r e S _ W _ H|n l u m l1 e S _ (k & w & _ & W & _) H|n l e S _ _ _ H|n l S W _ _ _|n l e S _ _ _ H|n l w r e S _ _ _ N H|n l w r e S _ _ _ N _ H];
    try (assert (Ns : s <> []) by (apply NS; eapply signed_nonempty; eauto)).
  - cbn. destruct Nt as [Nt|Nt]; congruence.
  - apply syntax_kind; [|now apply sign_syn in H]. apply NS. destruct H; discriminate.
  - eapply number_means; eauto.
  - apply syntax_kind; [exact Ns|]. now apply next_syn in H.
  - apply syntax_kind; [exact Ns|]. now apply multi_unit_syn in H.
  - apply syntax_kind; [exact Ns|]. now apply next_syn in H.
  - apply syntax_kind; [exact Ns|]. now apply multi_infinity_syn in H.
  - apply syntax_kind; [exact Ns|]. now apply next_syn in H.
  - apply syntax_kind; [exact Ns|]. now apply multi_unit_syn in H.
  - eapply unknown_means; eauto.
  - apply syntax_kind; [exact Ns|]. now apply numeral_end_syn in H.
  - apply syntax_kind; [exact Ns|]. now apply multi_unit_syn in H.
  - rewrite H. cbn. split; [apply here_le|right]. destruct N as (f & l1 & ds & -> & _). discriminate.
Qed.
Lemma components_kind t e : ends s t -> t <> [] \/ t = s -> components_error c tu kw nums s t e -> kind_means c tu nums s e.
Proof.
  intros E Nt H. revert E Nt. induction H as [t e H|t d r _ A _|t d r e C _ N _ IH]; intros E Nt; [eapply component_kind; eauto|exact A|].
  apply IH; [|now left]. eapply ends_trans; [exact E|]. eapply component_ends; eauto.
Qed.
End Kinds.

(** [C102] *)
Theorem C102_kinds : forall c tu kw nums s e, env_ok c tu kw nums -> delims_ok c kw nums -> utf8 s = true -> parse c s tu kw nums = Err e -> kind_means c tu nums s e.
Proof.
  intros c tu kw nums s e He Hd Hs E. destruct (c_allow_multiple c) eqn:M.
  - apply C51_multiple_errors in E; auto. eapply components_kind; eauto using ends_refl.
  - apply C51_single_errors in E; auto. eapply single_kind; eauto.
Qed.
Print Assumptions C102_kinds.
(** every kind but Overflow occurs *)
Example C102_kinds_example : let run := fun s => parse ex_single s ex_units (Some ex_keywords) (Some ex_numerals) in
  env_ok ex_single ex_units (Some ex_keywords) (Some ex_numerals) /\ delims_ok ex_single (Some ex_keywords) (Some ex_numerals) /\
  run [] = Err Empty /\ run (%"1e32768") = Err PositiveExponentOverflow /\ run (%"1e-32769") = Err NegativeExponentOverflow /\
  run (%"1 xyz") = Err (TimeUnitErr 2 (%"Invalid time unit: 'xyz'")) /\ run (%"xyz") = Err (InvalidInput (%"xyz")) /\
  run (%"1.e") = Err (Syntax 3 (%"Unexpected end of input")) /\ parse config_new (%"-1s") ex_units None None = Err NegativeNumber.
Proof. intros run. split; [exact ex_env_single|]. split; [intros M; discriminate M|]. repeat (split; [vm_compute; reflexivity|]). vm_compute. reflexivity. Qed.

(** the standard parser with any settings: time unit errors only for single durations *)
Theorem C102_standard : forall l ss s e, let p := fold_left dp_set ss (dp_with_time_units l) in config_ok (dp_config p) -> utf8 s = true ->
  dp_parse p s = Err e -> kind_means (dp_config p) (std_units (dp_units p)) None s e.
Proof.
  intros l ss s e p. unfold p. rewrite std_fold. unfold dp_parse. cbn [dp_config dp_units]. generalize (fold_left dp_set_config ss config_new). intros c HC U E. pose proof (delims_none_ok c) as HD.
  apply (C102_kinds c _ None None s e); auto. now apply std_set_env.
Qed.
Print Assumptions C102_standard.
(** custom parsers after any calls *)
Theorem C102_custom : forall os s e, let p := fold_left cp_call os cp_new in calls_fit os -> calls_delims os -> utf8 s = true ->
  cp_parse p s = Err e ->
  kind_means (cp_config p) (custom_like (cu_with_time_units (units_of os))) (match numerals_of os with [] => None | l => Some (numerals_get l) end) s e.
Proof.
  intros os s e p HF HD U E. apply calls_delims_ok in HD. unfold p in E |- *. rewrite custom_parse in E. exact (C102_kinds _ _ _ _ s e (own_env os HF) HD U E).
Qed.
Print Assumptions C102_custom.
(** fundu-systemd: there are neither time unit errors nor exponents. Empty means that there is only white space *)
Theorem C102_systemd : forall p u max s e, made p u -> utf8 s = true -> is_negative max = false ->
  sd_parse_with_max p s max = Err e \/ sd_parse_nanos_with_max p s max = Err e ->
  match e with
  | Empty => white_space s
  | NegativeNumber => exists a b, s = a ++ 45 :: b
  | Syntax i _ => (i <= length s)%nat /\ ~ white_space s
  | InvalidInput l => exists a b, s = a ++ l ++ b /\ l <> [] /\ white_space b /\ forall x r, l = x :: r -> ~ 48 <= x <= 57 /\ x <> 46
  | _ => False
  end.
Proof.
  intros p u max s e Hp U M E.
  assert (R : exists T, rejected u T s e) by (destruct E as [E|E]; [apply (C78_errors p u _ max e Hp U M) in E|apply (C78_nanos_errors p u _ max e Hp U M) in E]; eauto).
  clear E. destruct R as (T & ws1 & t & ws2 & -> & W1 & W2 & Tr & R).
  destruct R as [[-> ->]|(Nt & _ & R)].
  { intros x Hx. apply in_app_or in Hx. destruct Hx as [Hx|Hx]; [now apply W1|now apply W2]. }
  assert (NW : ~ white_space (ws1 ++ t ++ ws2)).
  { intros K. destruct t as [|x t]; [now apply Nt|]. destruct Tr as [T1 _]. apply (T1 x t eq_refl). apply K. apply in_or_app. right. now left. }
  assert (G : forall e t', span_error u T t t' e -> ends t t' ->
    match e with
    | NegativeNumber => exists a b, t = a ++ 45 :: b
    | Syntax i _ => (i <= length t)%nat
    | InvalidInput l => ends t l /\ l <> [] /\ forall x r, l = x :: r -> ~ 48 <= x <= 57 /\ x <> 46
    | _ => False
    end).
  { intros e' t' H. induction H as [t' e' H|t' n v W F r e' P _ _ _ IH]; intros K.
    - destruct H as [x -> _|l H _|W fr F x l H _ _ _ _|l H D P _|v W F r P _].
      + lia.
      + unfold offset_of. lia.
      + unfold offset_of. lia.
      + destruct H as (sg & n & -> & _ & Nl & _). split; [eapply ends_trans; [exact K|]; now exists sg|]. split; [exact Nl|].
        intros x r El. split; [exact (D x r El)|]. intros ->. now apply (P 46 r El).
      + assert (S : exists b, t' = 45 :: b).
        { inversion P; subst; (match goal with H : sign_text _ true |- _ => inversion H; subst end); eexists; reflexivity. }
        destruct S as (b & ->). destruct K as (a & ->). eauto.
    - apply IH. eapply ends_trans; [exact K|]. destruct P; rewrite ?app_assoc; eexists; reflexivity. }
  specialize (G e t R (ends_refl t)). destruct e; try contradiction.
  - split; [|exact NW]. rewrite !app_length. lia.
  - destruct G as (a & b & ->). exists (ws1 ++ a), (b ++ ws2). now rewrite <- !app_assoc.
  - destruct G as ((a & Ea) & N & D). exists (ws1 ++ a), ws2. rewrite Ea. rewrite <- !app_assoc. auto.
Qed.
Print Assumptions C102_systemd.
Example C102_systemd_example : made sd_new Second /\ sd_parse_with_max sd_new (%"  ") MAX = Err Empty /\ sd_parse_with_max sd_new (%" -1s") MAX = Err NegativeNumber /\
  sd_parse_with_max sd_new (%" 1 fathom ") MAX = Err (InvalidInput (%"fathom")) /\ sd_parse_with_max sd_new (%"1e3") MAX = Err (Syntax 1 (%"No exponent allowed")).
Proof. split; [constructor|]. repeat (split; [vm_compute; reflexivity|]). vm_compute. reflexivity. Qed.
Lemma ascii_utf8_ a : (forall x, In x a -> 0 <= x <= 127) -> utf8 a = true.
Proof. induction a as [|x a IH]; intros H; [reflexivity|]. rewrite utf8_cons_ascii by (apply H; now left). apply IH. intros y Hy. apply H. now right. Qed.
Lemma word_nonempty {A} (table : list (A * list str)) w a : forallb (fun x => forallb (fun v => negb (length v =? 0)%nat) (snd x)) table = true -> word_for table w a -> w <> [].
Proof.
  intros K (ws & v & H1 & H2 & H3) ->. rewrite forallb_forall in K. specialize (K _ H1). rewrite forallb_forall in K. specialize (K _ H2). destruct v; [discriminate K|discriminate H3].
Qed.
Lemma item_nonempty t a r : gnu_item t a r -> t <> [].
Proof.
  assert (P : forall l g b r, unit_phrase l g b r -> l <> []).
  { intros l g b r' [w g' r0 Hw _ _|w g' l0 r0 Hw _]; apply (word_nonempty gnu_units w g') in Hw; try reflexivity; destruct w; try contradiction; discriminate. }
  intros H Et. destruct H as [sg n num W F ds l g ago r' a' _ _ _ Hp _|sg n num W F ds r' a' _ Hn _ _ _ _ _|sg n l g ago r' _ Hp|sg n w k ds l g ago r' _ Hw _ _ Hp|sg n w k r' _ Hw _];
    apply app_eq_nil in Et; destruct Et as [_ Et]; try (apply app_eq_nil in Et; destruct Et as [Et1 Et]).
  - apply app_eq_nil in Et. destruct Et as [_ Et]. exact (P _ _ _ _ Hp Et).
  - subst. inversion Hn as [W' _ N _|W' F' _ N _ _ _ Q]; subst; [now apply N|]. destruct W; discriminate.
  - exact (P _ _ _ _ Hp Et).
  - apply app_eq_nil in Et. destruct Et as [_ Et]. exact (P _ _ _ _ Hp Et).
  - subst. exact (word_nonempty gnu_keywords [] k eq_refl Hw eq_refl).
Qed.
(** fundu-gnu: Overflow needs a date; see C77_kinds for the others *)
Theorem C102_gnu : forall now s date e, utf8 s = true -> std_ok (match now with inl d | inr d => d end) -> (forall x, date = Some x -> DateTime.date_time_ok x) ->
  gnu_parse_with_date gnu_new now s date = Err e ->
  match e with
  | Empty => white_space s
  | Syntax i _ | TimeUnitErr i _ => (i <= length s)%nat /\ ~ white_space s
  | InvalidInput l => l <> [] /\ ~ white_space s
  | Overflow => ~ white_space s
  | _ => False
  end.
Proof.
  intros now s date e U HN HD E. destruct (C77_with_date now s date e U HN HD) as [_ W]. destruct (W E) as [F|(-> & y & m & d & F & _)].
  - pose proof F as F'. apply (C77_errors s e U) in F'. destruct F' as (ws1 & t & ws2 & Es & W1 & W2 & Tr & R).
    assert (Ut : utf8 t = true).
    { rewrite Es, utf8_app in U by (apply ascii_utf8_; intros x Hx; specialize (W1 x Hx); unfold white in W1; lia). apply (utf8_front t ws2 U). apply ascii_utf8_. intros x Hx. specialize (W2 x Hx). unfold white in W2. lia. }
    rewrite Es in F. pose proof (C77_kinds ws1 t ws2 e Ut W1 W2 Tr F) as K.
    assert (NW : t <> [] -> ~ white_space s).
    { intros N Ks. destruct t as [|x t]; [now apply N|]. destruct Tr as [T1 _]. apply (T1 x t eq_refl). apply Ks. rewrite Es. apply in_or_app. right. now left. }
    assert (NE : e <> Empty -> t <> []). { intros Ne ->. inversion R as [|? ? I|? ? ? ? ? I]; subst; [now apply Ne| |].
      - inversion I; subst; try discriminate; match goal with H : after_sign [] _ |- _ => destruct H as (sg & n & Eq & _ & N & _); symmetry in Eq; apply app_eq_nil in Eq; destruct Eq; subst; try discriminate; congruence end.
      - apply item_nonempty in I. now apply I. }
    destruct e; try contradiction.
    + rewrite K in Es. cbn [app] in Es. rewrite Es. intros x Hx. apply in_app_or in Hx. destruct Hx; auto.
    + destruct K as (pre & l & Et & L). split; [rewrite Es, Et, !app_length; lia|]. apply NW, NE. discriminate.
    + destruct K as (pre & l & Et & L). split; [rewrite Es, Et, !app_length; lia|]. apply NW, NE. discriminate.
    + split; [|apply NW, NE; discriminate]. destruct K as [(pre & _ & N)|(W' & F' & g & B)]; [exact N|]. destruct B; discriminate.
  - intros K. assert (F2 : gnu_parse_fuzzy gnu_new s = Err Empty); [|congruence]. apply C77_errors; [exact U|]. exists s, [], [].
    split; [cbn [app]; now rewrite app_nil_r|]. split; [exact K|]. split; [intros x []|]. split; [|constructor].
    split; [intros x r Q; discriminate Q|intros x [|? ?] Q; discriminate Q].
Qed.
Print Assumptions C102_gnu.
Example C102_gnu_example : gnu_parse_with_date gnu_new (inl (Std 0 0)) (%" ") None = Err Empty /\
  gnu_parse_with_date gnu_new (inl (Std 0 0)) (%"first of all") None = Err (TimeUnitErr 6 (%"Found numeral 'first' without a time unit")) /\
  gnu_parse_with_date gnu_new (inl (Std 0 0)) (%"999999999999 years") (Some (DateTime.DT 2451575 7)) = Err Overflow.
Proof. repeat (split; [vm_compute; reflexivity|]). vm_compute. reflexivity. Qed.
