(** * Properties C53 and C54: negative durations and signs *)
From Verif Require Import Prelude Util Time Config Bytes Repr Parse SpecTime SpecNum SpecValue SpecParse SpecGrammar SpecSpelling SpecErrors FitProofs
  TimeProofs NumProofs Utf8Proofs BytesProofs ReprProofs ValueProofs SafeProofs RefParse RefProofs RefSingle RefMulti RefGrammar RefErrors ErrorProofs SpellProofs SwitchProofs PropParse ExEnv.

Lemma env_set_negative c b tu kw nums : env_ok c tu kw nums -> env_ok (set_allow_negative c b) tu kw nums.
Proof. intros [H1 H2 H3 H4 H5 H6]. constructor; auto. Qed.
Lemma delims_set_negative c b kw nums : delims_ok c kw nums -> delims_ok (set_allow_negative c b) kw nums.
Proof. intros H. exact H. Qed.
Lemma f_single_set_negative c b tu kw nums s :
  f_template (set_allow_negative c b) nums (rsingle (set_allow_negative c b) tu kw) s = f_template c nums (rsingle c tu kw) s.
Proof. reflexivity. Qed.
Lemma f_multi_set_negative c b tu kw nums s :
  f_template (set_allow_negative c b) nums (rmulti (set_allow_negative c b) tu kw) s = f_template c nums (rmulti c tu kw) s.
Proof. reflexivity. Qed.
Lemma e_single_set_negative c b tu kw nums s t :
  e_template (set_allow_negative c b) tu nums s (rsingle (set_allow_negative c b) tu kw) (esingle (set_allow_negative c b) tu s) t
  = e_template c tu nums s (rsingle c tu kw) (esingle c tu s) t.
Proof. reflexivity. Qed.
Lemma e_multi_set_negative c b tu kw nums s t :
  e_template (set_allow_negative c b) tu nums s (rmulti (set_allow_negative c b) tu kw) (emulti (set_allow_negative c b) s) t
  = e_template c tu nums s (rmulti c tu kw) (emulti c s) t.
Proof. reflexivity. Qed.

(** C53: without permission a negative single duration is rejected, and nothing else changes *)
Theorem C53_single_switch : forall c tu kw nums s, env_ok c tu kw nums -> utf8 s = true -> c_allow_multiple c = false ->
  parse (set_allow_negative c false) s tu kw nums =
  match parse (set_allow_negative c true) s tu kw nums with
  | Ok d => if is_negative d then Err NegativeNumber else Ok d
  | r => r
  end.
Proof.
  intros c tu kw nums s HE U Hm. unfold parse. change (c_allow_multiple (set_allow_negative c ?b)) with (c_allow_multiple c). rewrite Hm.
  pose proof (parse_single_error (set_allow_negative c false) tu kw nums s) as E0. pose proof (parse_single_error (set_allow_negative c true) tu kw nums s) as E1.
  pose proof (parse_single_grammar (set_allow_negative c false) tu kw nums s) as G0. pose proof (parse_single_grammar (set_allow_negative c true) tu kw nums s) as G1.
  pose proof (fun d => f_single_iff (set_allow_negative c false) tu kw nums s d []) as F0.
  pose proof (fun d => f_single_iff (set_allow_negative c true) tu kw nums s d []) as F1.
  pose proof (f_single_iff c tu kw nums s) as F.
  rewrite e_single_set_negative in E0, E1. rewrite f_single_set_negative in *.
  assert (H0 := env_set_negative c false tu kw nums HE). assert (H1 := env_set_negative c true tu kw nums HE).
  destruct (f_template c nums (rsingle c tu kw) s) as [[d r]|] eqn:Ef.
  - assert (r = []) as -> by (apply (F d r); reflexivity).
    assert (P1 : parse_single (set_allow_negative c true) s tu kw nums = Ok d).
    { apply (G1 d H1 U). split; [now apply F1|now left]. }
    rewrite P1. destruct (is_negative d) eqn:En.
    + apply (E0 NegativeNumber H0 U). auto.
    + apply (G0 d H0 U). split; [now apply F0|now right].
  - rewrite (proj2 (E1 _ H1 U) eq_refl). apply (E0 _ H0 U). reflexivity.
Qed.
Print Assumptions C53_single_switch.
Example C53_single_switch_example : env_ok ex_single ex_units (Some ex_keywords) (Some ex_numerals) /\ c_allow_multiple ex_single = false /\
  parse (set_allow_negative ex_single true) (%"1min ago") ex_units None None = Ok (Dur true (Std 60 0)) /\
  parse (set_allow_negative ex_single false) (%"1min ago") ex_units None None = Err NegativeNumber /\
  parse (set_allow_negative ex_single false) (%"1x ago") ex_units None None = Err (TimeUnitErr 1 (%"Invalid time unit: 'x ago'")).
Proof. split; [exact ex_env_single|]. repeat split. Qed.

(** ... and for multiple durations *)
Theorem C53_multiple_switch : forall c tu kw nums s, env_ok c tu kw nums -> delims_ok c kw nums -> utf8 s = true -> c_allow_multiple c = true ->
  (forall D, parse (set_allow_negative c false) s tu kw nums = Ok D -> parse (set_allow_negative c true) s tu kw nums = Ok D) /\
  (forall D, parse (set_allow_negative c true) s tu kw nums = Ok D ->
     parse (set_allow_negative c false) s tu kw nums = Ok D \/ parse (set_allow_negative c false) s tu kw nums = Err NegativeNumber) /\
  (forall e, parse (set_allow_negative c true) s tu kw nums = Err e ->
     e <> NegativeNumber /\
     (parse (set_allow_negative c false) s tu kw nums = Err e \/ parse (set_allow_negative c false) s tu kw nums = Err NegativeNumber)).
Proof.
  intros c tu kw nums s HE HD U Hm. unfold parse. change (c_allow_multiple (set_allow_negative c ?b)) with (c_allow_multiple c). rewrite Hm.
  assert (L : forall fuel D b,
    match multiple_loop fuel (set_allow_negative c true) tu kw nums D b with
    | Ok D1 => multiple_loop fuel (set_allow_negative c false) tu kw nums D b = Ok D1 \/ multiple_loop fuel (set_allow_negative c false) tu kw nums D b = Err NegativeNumber
    | Err e => multiple_loop fuel (set_allow_negative c false) tu kw nums D b = Err e \/ multiple_loop fuel (set_allow_negative c false) tu kw nums D b = Err NegativeNumber
    | Crash x => True
    end).
  { induction fuel as [|fuel IH]; intros D b; [exact I|]. cbn [multiple_loop].
    change (template_parse multi b (set_allow_negative c true) tu kw nums) with (template_parse multi b c tu kw nums).
    change (template_parse multi b (set_allow_negative c false) tu kw nums) with (template_parse multi b c tu kw nums).
    destruct (template_parse multi b c tu kw nums) as [[rp mb]|e|x]; cbn [bind]; [|auto|exact I].
    destruct (repr_parse rp) as [d|e|x]; cbn [bind]; [|auto|exact I].
    change (c_allow_negative (set_allow_negative c true)) with true. change (c_allow_negative (set_allow_negative c false)) with false. cbn [negb andb].
    destruct (is_negative d).
    - match goal with |- match ?x with _ => _ end => destruct x; auto end.
    - destruct (if is_zero d then Ok D else if is_zero D then Ok d else saturating_add D d) as [D1|e|x]; cbn [bind]; [|auto|exact I].
      destruct mb as [b'|]; [apply IH|auto]. }
  unfold parse_multiple.
  match goal with |- context[multiple_loop ?f (set_allow_negative c true) tu kw nums ?D ?b] => specialize (L f D b) end.
  assert (H0 := env_set_negative c false tu kw nums HE). assert (H1 := env_set_negative c true tu kw nums HE).
  pose proof (hoare_parse (set_allow_negative c true) tu kw nums s H1 U) as P1.
  unfold parse in P1. change (c_allow_multiple (set_allow_negative c true)) with (c_allow_multiple c) in P1. rewrite Hm in P1. unfold parse_multiple in P1.
  destruct (multiple_loop _ (set_allow_negative c true) tu kw nums _ _) as [D1|e1|x1] eqn:E1; [| |contradiction].
  - split; [|split].
    + intros D E. destruct L as [L|L]; congruence.
    + intros D [= <-]. exact L.
    + discriminate.
  - split; [|split].
    + intros D E. destruct L as [L|L]; congruence.
    + discriminate.
    + intros e [= <-]. split; [|exact L]. intros ->.
      assert (X : parse (set_allow_negative c true) s tu kw nums = Err NegativeNumber).
      { unfold parse. change (c_allow_multiple (set_allow_negative c true)) with (c_allow_multiple c). rewrite Hm. exact E1. }
      unfold parse in X. change (c_allow_multiple (set_allow_negative c true)) with (c_allow_multiple c) in X. rewrite Hm in X.
      apply (fit_errors _ _ _ _ H1 (delims_set_negative c true kw nums HD) Hm _ _ U) in X.
      enough (G : forall t e, components_error (set_allow_negative c true) tu kw nums s t e -> e <> NegativeNumber) by (apply (G _ _ X); reflexivity).
      clear. induction 1 as [t e H|t d r H F|t d r e H Ha N H0 IH]; [|discriminate|exact IH].
      intros ->. remember NegativeNumber as e eqn:Ee. 
      assert (TR : forall d l e, trailing s d l e -> e <> NegativeNumber) by (intros d l e0 (_ & _ & ->); discriminate).
      assert (CE : forall y e, conjunction_error (set_allow_negative c true) s y e -> e <> NegativeNumber).
      { intros y e0 [ws1 w ws2 z _ _ _ [[_ ->]|[Ht|(x & z' & _ & _ & _ & ->)]]]; [discriminate|eauto|discriminate]. }
      assert (NE : forall l e, next_error (set_allow_negative c true) s l e -> e <> NegativeNumber) by (intros l e0 [Ht|ds y _ _ _ Hc]; eauto).
      assert (ME : forall l e, multi_unit_error (set_allow_negative c true) tu s l e -> e <> NegativeNumber) by (intros l e0 []; eauto).
      assert (SE : forall l e, sign_error (set_allow_negative c true) s l e -> e <> NegativeNumber) by (intros l e0 []; [discriminate|eauto]).
      assert (XE : forall l e, exponent_error (set_allow_negative c true) s l e -> e <> NegativeNumber) by (intros l e0 []; discriminate).
      assert (FE : forall W l e, fraction_error (set_allow_negative c true) s W l e -> e <> NegativeNumber) by (intros W l e0 []; discriminate).
      assert (UE : forall l e, number_error (set_allow_negative c true) s l e -> e <> NegativeNumber) by (intros l e0 []; eauto).
      assert (IE : forall l0 w l e, multi_infinity_error (set_allow_negative c true) s l0 w l e -> e <> NegativeNumber) by (induction 1; eauto; discriminate).
      destruct H; try discriminate; try (eapply SE; eauto; fail); try (eapply UE; eauto; fail); try (eapply NE; eauto; fail); try (eapply ME; eauto; fail); try (eapply IE; eauto; fail).
      * destruct H3 as (? & ? & ? & _ & _ & _ & _ & Ht). eapply TR; eauto.
      * unfold numeral_unit_error in H5. subst e. discriminate.
Qed.
Print Assumptions C53_multiple_switch.
Example C53_multiple_switch_example :
  parse (set_allow_negative ex_multi true) (%"1s -3s 5s") ex_units None None = Ok (Dur false (Std 3 0)) /\
  parse (set_allow_negative ex_multi false) (%"1s -3s 5s") ex_units None None = Err NegativeNumber /\
  parse (set_allow_negative ex_multi true) (%"1s -3s x") ex_units None None = Err (InvalidInput (%"x")) /\
  parse (set_allow_negative ex_multi false) (%"1s -3s x") ex_units None None = Err NegativeNumber /\
  parse (set_allow_negative ex_multi false) (%"1s x -3s") ex_units None None = Err (InvalidInput (%"x -3s")).
Proof. repeat split. Qed.

(** ** C54: signs *)
(** exponents of units, keywords and numerals for which the sign is respected: see [C19_large_exponent_refuted] *)
Definition moderate (tu : units_like) (kw : option units_like) (nums : option numbers_like) : Prop :=
  (forall id u m, u_get tu id = Some (u, m) -> expo (unit_length u) + expo m <= 19) /\
  (forall k id u m, kw = Some k -> u_get k id = Some (u, m) -> expo (unit_length u) + expo m <= 19) /\
  (forall f id n id' u m, nums = Some f -> f id = Some n -> u_get tu id' = Some (u, m) -> expo n + expo (unit_length u) + expo m <= 19).
(** [s] is a text without a sign, in front of which a sign may be written *)
Definition sign_fits (c : config) (s : str) : Prop :=
  s <> [] /\ starts_not is_sign s /\ (c_allow_sign_delimiter c = true -> starts_not (c_inner_delimiter c) s).

Lemma nanos_flip b i : nanos (Dur (negb b) i) = - nanos (Dur b i).
Proof. unfold nanos. cbn [neg inner]. destruct b; cbn [negb]; lia. Qed.
Lemma number_result_flip b V k c : nanos (number_result (negb b) V k c) = - nanos (number_result b V k c).
Proof. unfold number_result. destruct (_ || _); [reflexivity|]. apply nanos_flip. Qed.
Lemma number_value_flip n W F x u m : nanos (number_value (negb n) W F x u m) = - nanos (number_value n W F x u m).
Proof. unfold number_value. rewrite <- number_result_flip. f_equal. f_equal. now destruct n, (_ <? 0). Qed.
Lemma fixed_result_flip n c e : e <= 19 -> nanos (fixed_result (negb n) c e) = - nanos (fixed_result n c e).
Proof.
  intros H. unfold fixed_result. destruct (c =? 0); [reflexivity|]. destruct (e <? -18); [reflexivity|].
  destruct (Z.ltb_spec 19 e); [lia|]. rewrite <- nanos_flip. f_equal. f_equal. now destruct n, (c <? 0).
Qed.
Lemma infinity_value_flip n : nanos (infinity_value (negb n)) = - nanos (infinity_value n).
Proof. destruct n; reflexivity. Qed.
Lemma single_unit_table c tu l u m : single_unit c tu l u m -> exists id m0, u_get tu id = Some (u, m0) /\ expo m = expo m0.
Proof. intros []; eauto. Qed.
Lemma multi_unit_table c tu l u m r : multi_unit c tu l u m r -> exists id m0, u_get tu id = Some (u, m0) /\ expo m = expo m0.
Proof. intros []; eauto. Qed.
Lemma numeral_table c nums l n r : numeral_prefix c nums l n r -> exists f id, nums = Some f /\ f id = Some n.
Proof. intros (f & w & l1 & ds & E & _ & _ & Ew & _). eauto. Qed.

Lemma signed_plain c s n l : sign_fits c s -> signed c s n l -> n = false /\ l = s.
Proof. intros (N & H & _) Hs. apply (signed_fun c s n l false s Hs). now apply unsigned. Qed.
Lemma signed_sign c s x : sign_fits c s -> is_sign x = true -> signed c (x :: s) (x =? 45) s.
Proof.
  intros (N & _ & H) Hx. destruct (c_allow_sign_delimiter c) eqn:E.
  - apply with_sign_delimiter with []; auto. split; [reflexivity|]. split; [intros y []|auto].
  - now apply with_sign.
Qed.

(** the duration [d] with the sign of [x] *)
Definition signed_value (x : byte) (d : duration) : Z := if x =? 45 then - nanos d else nanos d.
Ltac flip x := unfold signed_value; destruct (x =? 45); [|reflexivity].
Lemma single_sign c tu kw nums s d x : moderate tu kw nums -> sign_fits c s -> is_sign x = true ->
  single_duration c tu kw nums s d -> exists d', single_duration c tu kw nums (x :: s) d' /\ nanos d' = signed_value x d.
Proof.
  intros (M1 & M2 & M3) Hf Hx H. pose proof (signed_sign c s x Hf Hx) as Sx.
  destruct H as [s n l W F e Hs Hn|s n l W F e r u m Hs Hn Nr Eu Hu|s n l Hs Hd Hi|s n l u m Hs Hw Hk|s n l u m Hs Hw Hk Ho Hu|s n l num r u m Hs Hw Hk Ho Hp Hu];
    destruct (signed_plain c s n l Hf Hs) as [-> ->].
  - eexists. split; [eapply sd_number; eauto|]. flip x. apply (number_value_flip false).
  - eexists. split; [eapply sd_number_unit; eauto|]. flip x. apply (number_value_flip false).
  - eexists. split; [eapply sd_infinity; eauto|]. flip x. apply (infinity_value_flip false).
  - eexists. split; [eapply sd_keyword; eauto|]. flip x. destruct Hk as (k & Ek & Eg). apply (fixed_result_flip false). eapply M2; eauto.
  - eexists. split; [eapply sd_unit; eauto|]. flip x. destruct (single_unit_table _ _ _ _ _ Hu) as (id & m0 & Eg & Ee). apply (fixed_result_flip false). rewrite Ee. eapply M1; eauto.
  - eexists. split; [eapply sd_numeral; eauto|]. flip x. destruct (single_unit_table _ _ _ _ _ Hu) as (id & m0 & Eg & Ee).
    destruct (numeral_table _ _ _ _ _ Hp) as (f & id' & Ef & Efn). apply (fixed_result_flip false). rewrite Ee. eapply M3; eauto.
Qed.
Lemma component_sign c tu kw nums s d r x : moderate tu kw nums -> sign_fits c s -> is_sign x = true ->
  component c tu kw nums s d r -> exists d', component c tu kw nums (x :: s) d' r /\ nanos d' = signed_value x d.
Proof.
  intros (M1 & M2 & M3) Hf Hx H. pose proof (signed_sign c s x Hf Hx) as Sx.
  destruct H as [s n l W F e r l1 Hs Hn Hu Hr|s n l W F e l1 u m r Hs Hn Eu Hu|s n l l1 r Hs Hd Hi He Hr|s n l l0 l1 r Hs Hd Hi He0 Hi2 He Hr
      |s n l u m l1 r Hs Hw Hk Hr|s n l u m r Hs Hw Hk Ho Hu|s n l num l1 u m r Hs Hw Hk Ho Hp Hu];
    destruct (signed_plain c s n l Hf Hs) as [-> ->].
  - eexists. split; [eapply co_number; eauto|]. flip x. apply (number_value_flip false).
  - eexists. split; [eapply co_number_unit; eauto|]. flip x. apply (number_value_flip false).
  - eexists. split; [eapply co_inf; eauto|]. flip x. apply (infinity_value_flip false).
  - eexists. split; [eapply co_infinity; eauto|]. flip x. apply (infinity_value_flip false).
  - eexists. split; [eapply co_keyword; eauto|]. flip x. destruct Hk as (k & w & Ek & _ & _ & Eg). apply (fixed_result_flip false). eapply M2; eauto.
  - eexists. split; [eapply co_unit; eauto|]. flip x. destruct (multi_unit_table _ _ _ _ _ _ Hu) as (id & m0 & Eg & Ee). apply (fixed_result_flip false). rewrite Ee. eapply M1; eauto.
  - eexists. split; [eapply co_numeral; eauto|]. flip x. destruct (multi_unit_table _ _ _ _ _ _ Hu) as (id & m0 & Eg & Ee).
    destruct (numeral_table _ _ _ _ _ Hp) as (f & id' & Ef & Efn). apply (fixed_result_flip false). rewrite Ee. eapply M3; eauto.
Qed.
Lemma sign_ascii x : is_sign x = true -> 0 <= x <= 127.
Proof. unfold is_sign. lia. Qed.

(** a minus in front negates the duration, a plus keeps it *)
Theorem C54_sign_single : forall c tu kw nums s d x, env_ok c tu kw nums -> utf8 s = true -> c_allow_multiple c = false ->
  c_allow_negative c = true -> moderate tu kw nums -> sign_fits c s -> is_sign x = true ->
  parse c s tu kw nums = Ok d ->
  exists d', parse c (x :: s) tu kw nums = Ok d' /\ duration_ok d' /\ nanos d' = signed_value x d.
Proof.
  intros c tu kw nums s d x HE U Hm Ha HM Hf Hx H. apply C22_single_grammar in H; auto. destruct H as [H _].
  destruct (single_sign c tu kw nums s d x HM Hf Hx H) as (d' & H' & V). exists d'.
  assert (U' : utf8 (x :: s) = true) by (rewrite utf8_cons_ascii by (now apply sign_ascii); exact U).
  assert (P : parse c (x :: s) tu kw nums = Ok d') by (apply C22_single_grammar; auto; split; [exact H'|now left]).
  split; [exact P|]. split; [|exact V]. exact (parse_result_ok _ _ _ _ _ _ HE U' P).
Qed.
Print Assumptions C54_sign_single.
Lemma ex_moderate : moderate ex_units (Some ex_keywords) (Some ex_numerals).
Proof.
  split; [|split].
  - intros id u m H. cbn [u_get ex_units] in H. apply table_in in H. cbn in H. repeat destruct H as [[= <- <-]|H]; try contradiction; vm_compute; discriminate.
  - intros k id u m [= <-] H. cbn [u_get ex_keywords] in H. apply table_in in H. cbn in H. repeat destruct H as [[= <- <-]|H]; try contradiction; vm_compute; discriminate.
  - intros f id n id' u m [= <-] H H'. apply table_in in H. cbn [u_get ex_units] in H'. apply table_in in H'. cbn in H, H'.
    repeat destruct H as [<-|H]; try contradiction; repeat destruct H' as [[= <- <-]|H']; try contradiction; vm_compute; discriminate.
Qed.
Example C54_sign_single_example : moderate ex_units (Some ex_keywords) (Some ex_numerals) /\ sign_fits ex_single (%"half y ago") /\
  parse ex_single (%"half y ago") ex_units (Some ex_keywords) (Some ex_numerals) = Ok (Dur true (Std 15778800 0)) /\
  parse ex_single (%"-half y ago") ex_units (Some ex_keywords) (Some ex_numerals) = Ok (Dur false (Std 15778800 0)) /\
  parse ex_single (%"+half y ago") ex_units (Some ex_keywords) (Some ex_numerals) = Ok (Dur true (Std 15778800 0)).
Proof. split; [exact ex_moderate|]. split; [split; [discriminate|split; reflexivity]|]. repeat split. Qed.

(** in front of several durations it belongs to the first one *)
Theorem C54_sign_multiple : forall c tu kw nums s D x, env_ok c tu kw nums -> delims_ok c kw nums -> utf8 s = true -> c_allow_multiple c = true ->
  c_allow_negative c = true -> moderate tu kw nums -> sign_fits c s -> is_sign x = true ->
  parse c s tu kw nums = Ok D ->
  exists d ds D', components c tu kw nums s (d :: ds) /\ nanos D = saturating_sum (d :: ds) /\
    parse c (x :: s) tu kw nums = Ok D' /\ duration_ok D' /\
    nanos D' = saturating_sum ((if x =? 45 then dneg d else d) :: ds).
Proof.
  intros c tu kw nums s D x HE HD U Hm Ha HM Hf Hx H.
  destruct (C23_multiple_sound c tu kw nums s D HE HD U Hm H) as (ds0 & Hc & Hs & _ & V).
  assert (U' : utf8 (x :: s) = true) by (rewrite utf8_cons_ascii by (now apply sign_ascii); exact U).
  assert (G : exists d ds d' , ds0 = d :: ds /\ components c tu kw nums (x :: s) (d' :: ds) /\ nanos d' = signed_value x d).
  { inversion Hc as [s0 d Hd E1 E2|s0 d r ds Hd N Hr E1 E2]; subst.
    - destruct (component_sign c tu kw nums s d [] x HM Hf Hx Hd) as (d' & H' & V'). exists d, [], d'. split; [reflexivity|]. split; [now apply cs_last|exact V'].
    - destruct (component_sign c tu kw nums s d r x HM Hf Hx Hd) as (d' & H' & V'). exists d, ds, d'. split; [reflexivity|]. split; [now apply cs_more with r|exact V']. }
  destruct G as (d & ds & d' & -> & Hc' & V'). exists d, ds.
  destruct (C23_multiple_complete c tu kw nums (x :: s) (d' :: ds) HE HD U' Hm Hc') as (D' & P & O & VD).
  { intros y _. now left. }
  exists D'. split; [exact Hc|]. split; [exact V|]. split; [exact P|]. split; [exact O|]. rewrite VD.
  unfold saturating_sum. cbn [fold_left]. f_equal. f_equal. f_equal. rewrite V'. unfold signed_value. destruct (x =? 45); [|reflexivity].
  destruct d as [b i]. symmetry. exact (nanos_flip b i).
Qed.
Print Assumptions C54_sign_multiple.
Example C54_sign_multiple_example : sign_fits ex_multi (%"1min 2s") /\
  parse ex_multi (%"1min 2s") ex_units (Some ex_keywords) (Some ex_numerals) = Ok (Dur false (Std 62 0)) /\
  parse ex_multi (%"-1min 2s") ex_units (Some ex_keywords) (Some ex_numerals) = Ok (Dur true (Std 58 0)).
Proof. split; [split; [discriminate|split; reflexivity]|]. split; reflexivity. Qed.

(** `ago` after a number with a unit negates it as well *)
Lemma span_app p l a b z : span p l a b -> b <> [] -> span p (l ++ z) a (b ++ z).
Proof. intros (-> & H & Hb) N. split; [now rewrite app_assoc|]. split; [exact H|]. now destruct b. Qed.
Lemma starts_not_app p b z : starts_not p b -> b <> [] -> starts_not p (b ++ z).
Proof. now destruct b. Qed.
Lemma number_app c l W F x r z : number c l W F x r -> r <> [] -> number c (l ++ z) W F x (r ++ z).
Proof.
  intros (l1 & l2 & l3 & Hs & Hf & He & Hu & N) Nr.
  assert (N3 : l3 <> []) by (intros ->; inversion Hu as [l0 H E1 E2|l0 ds r0 H (E & _) H2 E1 E2]; subst; [congruence|]; symmetry in E; apply app_eq_nil in E; destruct E; congruence).
  assert (N2 : l2 <> []) by (destruct He as [|]; [exact N3|discriminate]).
  assert (N1 : l1 <> []) by (destruct Hf as [|]; [exact N2|discriminate]).
  exists (l1 ++ z), (l2 ++ z), (l3 ++ z). split; [now apply span_app|]. split; [|split; [|split; [|exact N]]].
  - destruct Hf as [l0 H|l0 F0 r0 Hd H]; [apply no_fraction; now apply starts_not_app|]. apply some_fraction; [exact Hd|now apply span_app].
  - destruct He as [l0 H|y sg n l0 ds r0 e Hy Hd Hsg H Nd Ee Er]; [apply no_exponent; now apply starts_not_app|].
    cbn [app]. rewrite <- app_assoc. apply some_exponent with n ds; auto. now apply span_app.
  - destruct Hu as [l0 H|l0 ds r0 Ha H Hn]; [now apply no_unit_delimiter|]. apply some_unit_delimiter with ds; auto; [now apply span_app|].
    destruct Hn as [Hn|Hn]; [auto|]. right. now destruct r0.
Qed.
Lemma number_value_ago n W F x u m : coef m <> i64_min -> nanos (number_value n W F x u (mul_saturating_neg m)) = - nanos (number_value n W F x u m).
Proof.
  intros H. unfold number_value, mul_saturating_neg. cbn [coef expo]. destruct (Z.eqb_spec (coef m) i64_min) as [E|_]; [contradiction|].
  set (c := coef (unit_length u) * coef m). replace (coef (unit_length u) * - coef m) with (- c) by (unfold c; ring).
  destruct (Z.eq_dec c 0) as [->|Nc].
  - unfold number_result. change (- 0) with 0. rewrite Z.eqb_refl, orb_true_r. reflexivity.
  - rewrite <- number_result_flip. unfold number_result, magnitude. rewrite Z.abs_opp. replace (- c =? 0) with (c =? 0) by lia.
    replace (xorb n (- c <? 0)) with (negb (xorb n (c <? 0))); [reflexivity|]. destruct (Z.ltb_spec c 0), (Z.ltb_spec (- c) 0); try lia; now destruct n.
Qed.
Lemma nocase_word_ascii a : forall w, str_eq_nocase a w = true -> (forall y, In y w -> 0 <= y <= 127) -> forall y, In y a -> 0 <= y <= 127.
Proof.
  induction a as [|x a IH]; intros w H Hw y Hy; [destruct Hy|]. destruct w as [|v w]; [discriminate|]. cbn [str_eq_nocase] in H.
  apply andb_true_iff in H. destruct H as [H1 H2]. destruct Hy as [<-|Hy].
  - apply (eq_nocase_ascii x v H1), Hw. now left.
  - apply (IH w H2); [|exact Hy]. intros z Hz. apply Hw. now right.
Qed.
Theorem C54_ago_single : forall c tu kw nums s n l W F x id u m ds a, env_ok c tu kw nums -> utf8 s = true ->
  c_allow_multiple c = false -> c_allow_negative c = true -> c_allow_ago c = true -> u_is_empty tu = false ->
  signed c s n l -> number c l W F x id -> id <> [] -> (forall y, In y id -> c_inner_delimiter c y = false) ->
  u_get tu id = Some (u, m) -> coef m <> i64_min ->
  ds <> [] -> (forall y, In y ds -> c_inner_delimiter c y = true) -> starts_not (c_inner_delimiter c) a -> str_eq_nocase a (%"ago") = true ->
  exists d d', parse c s tu kw nums = Ok d /\ parse c (s ++ ds ++ a) tu kw nums = Ok d' /\ nanos d' = - nanos d.
Proof.
  intros c tu kw nums s n l W F x id u m ds a HE U Hm Ha Hago Eu Hs Hn Ni Hid Eg Hc Nd Hds Hna Haa.
  assert (Ad : forall z, (forall y, In y z -> 0 <= y <= 127) -> utf8 z = true).
  { induction z as [|y z IH]; intros H; [reflexivity|]. rewrite utf8_cons_ascii by (apply H; now left). apply IH. intros v Hv. apply H. now right. }
  assert (Aa : utf8 a = true).
  { apply Ad. apply (nocase_word_ascii a (%"ago") Haa). intros y [<-|[<-|[<-|[]]]]; vm_compute; split; discriminate. }
  assert (U' : utf8 (s ++ ds ++ a) = true).
  { rewrite utf8_app by exact U. rewrite utf8_app; [exact Aa|]. apply Ad. intros y Hy. apply (env_inner _ _ _ _ HE). now apply Hds. }
  exists (number_value n W F x u m), (number_value n W F x u (mul_saturating_neg m)). split; [|split].
  - apply C22_single_grammar; auto. split; [|now left]. apply sd_number_unit with l id; auto.
    apply su_no_ago; auto. split; [now rewrite app_nil_r|]. split; [|exact I]. intros y Hy. now rewrite Hid.
  - apply C22_single_grammar; auto. split; [|now left].
    assert (Na : ds ++ a <> []) by (destruct ds; [congruence|discriminate]).
    apply sd_number_unit with (l ++ ds ++ a) (id ++ ds ++ a); auto.
    + destruct Hs as [l0 H N|y l0 r Hy Hd -> N|y l0 ds0 r Hy Hd H N].
      * apply unsigned; [now apply starts_not_app|]. now destruct l0.
      * apply with_sign; auto. now destruct r.
      * apply with_sign_delimiter with ds0; auto; [now apply span_app|]. now destruct r.
    + now apply number_app.
    + now destruct id.
    + apply (su_ago c tu (id ++ ds ++ a) id (ds ++ a) ds a u m); auto.
      * split; [reflexivity|]. split; [intros y Hy; now rewrite Hid|]. destruct ds as [|y ds]; [congruence|]. cbn. rewrite (Hds y); [reflexivity|now left].
      * split; [reflexivity|]. auto.
  - now apply number_value_ago.
Qed.
Print Assumptions C54_ago_single.
Example C54_ago_single_example :
  parse ex_single (%"+1.5 fortnight") ex_units None None = Ok (Dur false (Std 1814400 0)) /\
  parse ex_single (%"+1.5 fortnight  AgO") ex_units None None = Ok (Dur true (Std 1814400 0)).
Proof. split; reflexivity. Qed.

(** the same for an input of a parser for multiple durations: with C56 and C65 (inputs one after the other add up) it holds at every
    place where a duration starts with a digit or sign *)
Theorem C54_ago_multiple : forall c tu kw nums s n l W F x id u m ds a, env_ok c tu kw nums -> delims_ok c kw nums -> utf8 s = true ->
  c_allow_multiple c = true -> c_allow_negative c = true -> c_allow_ago c = true -> u_is_empty tu = false ->
  signed c s n l -> number c l W F x id -> id <> [] -> (forall y, In y id -> unit_end c y = false) ->
  u_get tu id = Some (u, m) -> coef m <> i64_min ->
  ds <> [] -> (forall y, In y ds -> c_inner_delimiter c y = true) -> starts_not (c_inner_delimiter c) a -> str_eq_nocase a (%"ago") = true ->
  exists d d', parse c s tu kw nums = Ok d /\ parse c (s ++ ds ++ a) tu kw nums = Ok d' /\ nanos d' = - nanos d.
Proof.
  intros c tu kw nums s n l W F x id u m ds a HE HD U Hm Ha Hago Eu Hs Hn Ni Hid Eg Hc Nd Hds Hna Haa.
  assert (Ad : forall z, (forall y, In y z -> 0 <= y <= 127) -> utf8 z = true).
  { induction z as [|y z IH]; intros H; [reflexivity|]. rewrite utf8_cons_ascii by (apply H; now left). apply IH. intros v Hv. apply H. now right. }
  assert (Aa : utf8 a = true).
  { apply Ad. apply (nocase_word_ascii a (%"ago") Haa). intros y [<-|[<-|[<-|[]]]]; vm_compute; split; discriminate. }
  assert (U' : utf8 (s ++ ds ++ a) = true).
  { rewrite utf8_app by exact U. rewrite utf8_app; [exact Aa|]. apply Ad. intros y Hy. apply (env_inner _ _ _ _ HE). now apply Hds. }
  assert (Na : ds ++ a <> []) by (destruct ds; [congruence|discriminate]).
  assert (C1 : components c tu kw nums s [number_value n W F x u m]).
  { apply cs_last. apply co_number_unit with l id; auto. apply mu_plain with id []; auto.
    - split; [now rewrite app_nil_r|]. split; [|exact I]. intros y Hy. now rewrite Hid.
    - intros r' (_ & ds0 & a0 & (E & _) & N & _). symmetry in E. apply app_eq_nil in E. destruct E. congruence.
    - intros _ [N _]. congruence.
    - now apply nc_adjacent. }
  assert (C2 : components c tu kw nums (s ++ ds ++ a) [number_value n W F x u (mul_saturating_neg m)]).
  { apply cs_last. apply co_number_unit with (l ++ ds ++ a) (id ++ ds ++ a); auto.
    - destruct Hs as [l0 H N|y l0 r Hy Hd -> N|y l0 ds0 r Hy Hd H N].
      + apply unsigned; [now apply starts_not_app|]. now destruct l0.
      + apply with_sign; auto. now destruct r.
      + apply with_sign_delimiter with ds0; auto; [now apply span_app|]. now destruct r.
    - now apply number_app.
    - apply mu_ago with id (ds ++ a) []; auto.
      + split; [reflexivity|]. split; [intros y Hy; now rewrite Hid|]. destruct ds as [|y ds]; [congruence|]. cbn.
        unfold unit_end. rewrite Hago, (Hds y) by (now left). now rewrite orb_true_r.
      + split; [exact Hago|]. exists ds, a. split; [split; [reflexivity|auto]|]. split; [exact Nd|]. split; [|now left].
        exists a. rewrite app_nil_r. split; [reflexivity|exact Haa].
      + now apply nc_adjacent. }
  destruct (C23_multiple_complete c tu kw nums s _ HE HD U Hm C1) as (d & P & O & V); [intros y _; now left|].
  destruct (C23_multiple_complete c tu kw nums (s ++ ds ++ a) _ HE HD U' Hm C2) as (d' & P' & O' & V'); [intros y _; now left|].
  exists d, d'. split; [exact P|]. split; [exact P'|]. rewrite V, V'. unfold saturating_sum. cbn [fold_left].
  rewrite number_value_ago by exact Hc. unfold clamp_nanos, clamp, max_nanos. lia.
Qed.
Print Assumptions C54_ago_multiple.
Example C54_ago_multiple_example :
  parse ex_multi (%"1.5 min") ex_units None None = Ok (Dur false (Std 90 0)) /\
  parse ex_multi (%"1.5 min  AgO") ex_units None None = Ok (Dur true (Std 90 0)) /\
  parse ex_multi (%"1.5 min  AgO 2s") ex_units None None = Ok (Dur true (Std 88 0)).
Proof. repeat split. Qed.
