(** * Property C99: error messages are short *)
From Verif Require Import Prelude Util Time Config SpecTime SpecNum SpecParse SpecValue SpecGrammar SpecErrors SpecSpelling TimeProofs NumProofs Parse Standard StandardProofs Custom
  SpecCustom Systemd Gnu Misc SpecSystemd SpecSystemdErrors SpecGnu SpecGnuErrors PropSystemd PropSystemdErrors PropGnuErrors ExEnv
  PropParse PropErrors PropStandard PropSettings PropCustomText PropCustomTexts PropText PropTextLength.

(** the text carried by an error *)
Definition reason (e : parse_error) : str :=
  match e with Syntax _ r | TimeUnitErr _ r | InvalidInput r => r | _ => [] end.

Lemma span_len p l a b : span p l a b -> length l = (length a + length b)%nat.
Proof. intros (-> & _). apply app_length. Qed.
Lemma until_len p l a b : until p l a b -> length l = (length a + length b)%nat.
Proof. apply span_len. Qed.
Lemma nocase_len a : forall b, str_eq_nocase a b = true -> length a = length b.
Proof. induction a as [|x a IH]; intros [|y b] H; try discriminate H; [reflexivity|]. cbn in *. apply andb_true_iff in H. f_equal. now apply IH. Qed.
Lemma word_len w l r : word_prefix w l r -> length l = (length w + length r)%nat.
Proof. intros (v & -> & H). rewrite app_length. now rewrite (nocase_len v w H). Qed.
Lemma char_len x : (length (char_of_byte x) <= 2)%nat.
Proof. unfold char_of_byte. destruct (x <? 128); cbn; lia. Qed.

Ltac lens := repeat match goal with
  | H : span _ _ _ _ |- _ => apply span_len in H
  | H : until _ _ _ _ |- _ => apply until_len in H
  | H : word_prefix _ _ _ |- _ => apply word_len in H
  end.

Section Length.
Context (c : config) (tu : units_like) (kw : option units_like) (nums : option numbers_like) (s : str).

Lemma signed_len t n l : signed c t n l -> (length l <= length t)%nat.
Proof. intros H. destruct H; lens; subst; cbn [length] in *; lia. Qed.
Lemma number_len l W F x r : number c l W F x r -> (length r <= length l)%nat.
Proof.
  intros (l1 & l2 & l3 & H1 & H2 & H3 & H4 & _). apply span_len in H1.
  assert (length l2 <= length l1)%nat by (destruct H2; lens; cbn [length] in *; lia).
  assert (length l3 <= length l2)%nat by (destruct H3; lens; cbn [length] in *; rewrite ?app_length; lia).
  assert (length r <= length l3)%nat by (destruct H4; lens; cbn [length] in *; lia). lia.
Qed.
Lemma next_len l r : next_component c l r -> (length r <= length l)%nat.
Proof.
  intros [?|? ? H]; [lia|]. destruct H as [? ? ? H|? ? ? ? ? ? ? ? H1 H2 H3 H4 H5 H6 H7]; [lens; lia|].
  destruct H7 as [(_ & _ & ->)|(ds2 & H & _)]; lens; lia.
Qed.
Lemma ago_len l r : ago c l r -> (length r <= length l)%nat.
Proof. intros (_ & ds & a & H1 & _ & H2 & _). lens. lia. Qed.
Lemma multi_unit_len l u m r : multi_unit c tu l u m r -> (length r <= length l)%nat.
Proof. intros [? ? ? ? ? ? H _ _ _ _ K|? ? ? ? ? ? ? H _ _ A K]; apply next_len in K; try apply ago_len in A; lens; lia. Qed.
Lemma component_len t d r : component c tu kw nums t d r -> (length r <= length t)%nat.
Proof.
  intros H. destruct H as [? ? ? ? ? ? ? ? S N _ K|? ? ? ? ? ? ? ? ? ? S N _ K|? ? ? ? ? S _ W _ K|? ? ? ? ? ? S _ W _ W2 _ K|? ? ? ? ? ? ? S _ (k & w & _ & U & _) K|? ? ? ? ? ? S _ _ _ K|? ? ? ? ? ? ? ? S _ _ _ (f & w & l1' & ds & _ & U & _ & _ & D & _) K];
    apply signed_len in S; try apply number_len in N; first [apply next_len in K|apply multi_unit_len in K]; lens; lia.
Qed.

Definition small (t : str) (e : parse_error) : Prop := (length (reason e) <= length t + 78)%nat.
Ltac show := unfold small; cbn [reason]; rewrite ?app_length;
  repeat match goal with |- context [length (bytes_of ?x)] => let n := eval vm_compute in (length (bytes_of x)) in change (length (bytes_of x)) with n end; change (length (@nil Z)) with 0%nat.
Lemma small_le t t' e : (length t <= length t')%nat -> small t e -> small t' e.
Proof. unfold small. lia. Qed.
Lemma trailing_small d l e : trailing s d l e -> small l e.
Proof. intros (_ & _ & ->). show. lia. Qed.
Lemma unexpected_small l e : unexpected s l e -> small l e.
Proof. intros (_ & ->). show. lia. Qed.
Lemma sign_small l e : sign_error c s l e -> small l e.
Proof. intros [x H|x l' e' H A T]; [show; lia|]. apply trailing_small in T. eapply small_le; [|exact T]. cbn; lia. Qed.
Lemma number_small l e : number_error c s l e -> small l e.
Proof.
  intros [W l1 H1 H2|W l1 F l2 H1 H2 _ H3|W l1 F l2 x l3 H1 H2 _ H3 _ H4].
  - destruct H2; show; lia.
  - destruct H3; show; lia.
  - apply trailing_small in H4. eapply small_le; [|exact H4]. apply span_len in H1.
    assert (length l2 <= length l1)%nat by (destruct H2; lens; cbn [length] in *; lia).
    assert (length l3 <= length l2)%nat by (destruct H3; lens; cbn [length] in *; rewrite ?app_length; lia). lia.
Qed.
Lemma numeral_end_small l e : numeral_end c nums s l e -> small l e.
Proof. intros (f & w & l1 & _ & H & _ & _ & T). apply trailing_small in T. eapply small_le; [|exact T]. lens. lia. Qed.
Lemma numeral_word_len l w r : numeral_word c nums l w r -> (length w + length r <= length l)%nat.
Proof. intros (f & l1 & ds & _ & H & _ & _ & D & _). lens. lia. Qed.
Lemma numeral_unit_small w r e : numeral_unit_error tu s w r e -> small w e.
Proof. intros ->. destruct (u_is_empty tu); show; lia. Qed.
Lemma single_unit_small l e : single_unit_error c tu s l e -> small l e.
Proof.
  intros [w l1 _ H _ _ T|w l1 ds a r _ H _ _ D A U].
  - apply trailing_small in T. eapply small_le; [|exact T]. lens. lia.
  - apply unexpected_small in U. eapply small_le; [|exact U]. lens. lia.
Qed.
Lemma single_infinity_small w l e : single_infinity_error s w l e -> small l e.
Proof.
  intros H. induction H as [? ? ? ? ? _ _ IH|?|x y w l E|l e U].
  - eapply small_le; [|exact IH]. cbn; lia.
  - show. lia.
  - pose proof (char_len x). show. lia.
  - now apply unexpected_small.
Qed.
Lemma single_small e : single_error c tu kw nums s e -> small s e.
Proof.
  intros H. destruct H as [?|e H|n l e S H|n l W F x r S N _ _|n l W F x r S N _ _ _|n l W F x r e S N _ _ H|n l r e S _ W _ H|n l e S _ _ _ H|n l S _ _ _ _|n l e S _ _ _ H|n l w r e S _ _ _ N H|n l w r e S _ _ _ N _ H|?];
    try apply signed_len in S; try apply number_len in N; try apply numeral_word_len in N.
  - show. lia.
  - now apply sign_small in H.
  - apply number_small in H. eapply small_le; [|exact H]. lia.
  - show. lia.
  - show. lia.
  - apply single_unit_small in H. eapply small_le; [|exact H]. lia.
  - apply single_infinity_small in H. eapply small_le; [|exact H]. lens. lia.
  - apply single_unit_small in H. eapply small_le; [|exact H]. lia.
  - show. lia.
  - apply numeral_end_small in H. eapply small_le; [|exact H]. lia.
  - apply single_unit_small in H. eapply small_le; [|exact H]. lia.
  - apply numeral_unit_small in H. eapply small_le; [|exact H]. lia.
  - show. lia.
Qed.
Lemma next_small l e : next_error c s l e -> small l e.
Proof.
  intros [T|ds y D _ _ C]; [now apply trailing_small in T|]. apply span_len in D. destruct C as [ws1 w ws2 z _ _ W H]. apply word_len in W.
  destruct H as [(-> & ->)|[T|(x & z' & -> & _ & _ & ->)]].
  - show. lia.
  - apply trailing_small in T. eapply small_le; [|exact T]. lia.
  - pose proof (char_len x). show. lia.
Qed.
Lemma multi_unit_small l e : multi_unit_error c tu s l e -> small l e.
Proof.
  intros [w l1 H _ _ _ T|w l1 H _ _ _ _ T|w l1 l2 H _ _ A T].
  - apply trailing_small in T. eapply small_le; [|exact T]. lens. lia.
  - apply next_small in T. eapply small_le; [|exact T]. lens. lia.
  - apply next_small in T. apply ago_len in A. eapply small_le; [|exact T]. lens. lia.
Qed.
Lemma multi_infinity_small l0 w l e : multi_infinity_error c s l0 w l e -> (length l <= length l0)%nat -> small l0 e.
Proof.
  intros H. induction H as [? ? ? ? ? _ _ IH|?|x y w l E|x l E|l e U]; intros L.
  - apply IH. cbn in L. lia.
  - show. lia.
  - pose proof (char_len x). show. lia.
  - pose proof (char_len x). show. lia.
  - apply next_small in U. eapply small_le; [|exact U]. lia.
Qed.
Lemma component_small t e : component_error c tu kw nums s t e -> small t e.
Proof.
  intros H. destruct H as [?|e H|n l e S H|n l W F x r e S N _ H|n l W F x r e S N _ H|n l r e S _ W H|n l r e S _ W _ H|n l u m l1 e S _ (k & w & _ & W & _) H|n l e S _ _ _ H|n l S _ _ _ _|n l e S _ _ _ H|n l w r e S _ _ _ N H|n l w r e S _ _ _ N _ H];
    try apply signed_len in S; try apply number_len in N; try apply numeral_word_len in N; lens.
  - show. lia.
  - now apply sign_small in H.
  - apply number_small in H. eapply small_le; [|exact H]. lia.
  - apply next_small in H. eapply small_le; [|exact H]. lia.
  - apply multi_unit_small in H. eapply small_le; [|exact H]. lia.
  - apply next_small in H. eapply small_le; [|exact H]. lia.
  - apply multi_infinity_small in H; [|lia]. eapply small_le; [|exact H]. lia.
  - apply next_small in H. eapply small_le; [|exact H]. lia.
  - apply multi_unit_small in H. eapply small_le; [|exact H]. lia.
  - show. lia.
  - apply numeral_end_small in H. eapply small_le; [|exact H]. lia.
  - apply multi_unit_small in H. eapply small_le; [|exact H]. lia.
  - apply numeral_unit_small in H. eapply small_le; [|exact H]. lia.
Qed.
Lemma components_small t e : components_error c tu kw nums s t e -> small t e.
Proof.
  intros H. induction H as [t e H|t d r _ _ _|t d r e C _ _ _ IH]; [now apply component_small|show; lia|]. apply component_len in C. eapply small_le; [|exact IH]. lia.
Qed.
End Length.

(** the whole message, if the column is a 64 bit number *)
Lemma message_small n e : (length (reason e) <= n + 78)%nat ->
  (forall p m, e = Syntax p m \/ e = TimeUnitErr p m -> Z.of_nat p <= u64_max) -> (length (display_parse_error e) <= n + 126)%nat.
Proof.
  intros H P.
  assert (D : forall p m, e = Syntax p m \/ e = TimeUnitErr p m -> (length (dec (Z.of_nat p)) <= 20)%nat).
  { intros p m E. specialize (P p m E). destruct (decimal_length (Z.of_nat p) (dec (Z.of_nat p)) 19) as [_ L]; [apply dec_decimal; lia| |exact L].
    assert (u64_max < 10 ^ Z.of_nat 20) by reflexivity. lia. }
  destruct e as [|p m| |p m| | | |m]; cbn [display_parse_error reason] in *; rewrite ?app_length;
    repeat match goal with |- context [length (bytes_of ?x)] => let k := eval vm_compute in (length (bytes_of x)) in change (length (bytes_of x)) with k end;
    try lia; specialize (D p m); [specialize (D (or_introl eq_refl))|specialize (D (or_intror eq_refl))]; lia.
Qed.

(** [C99] what an error says is at most 78 bytes longer than the input, its message at most 126 bytes *)
Theorem C99_messages_are_short : forall c tu kw nums s e, env_ok c tu kw nums -> delims_ok c kw nums -> utf8 s = true -> parse c s tu kw nums = Err e ->
  (length (reason e) <= length s + 78)%nat /\ (Z.of_nat (length s) <= u64_max -> (length (display_parse_error e) <= length s + 126)%nat).
Proof.
  intros c tu kw nums s e He Hd Hs E.
  assert (R : (length (reason e) <= length s + 78)%nat).
  { destruct (c_allow_multiple c) eqn:M.
    - apply C51_multiple_errors in E; auto. exact (components_small c tu kw nums s s e E).
    - apply C51_single_errors in E; auto. exact (single_small c tu kw nums s e E). }
  split; [exact R|]. intros L. apply message_small; [exact R|]. intros p m Ee.
  destruct (C24_error_positions c tu kw nums s p m He Hs) as [B _]; [destruct Ee as [-> | ->]; auto|]. lia.
Qed.
Print Assumptions C99_messages_are_short.

Example C99_messages_example :
  parse ex_multi (%"1s andy 2s") ex_units (Some ex_keywords) (Some ex_numerals) =
    Err (Syntax 6 (%"A conjunction must be separated by a delimiter, sign or digit but found: 'y'")) /\
  env_ok ex_multi ex_units (Some ex_keywords) (Some ex_numerals) /\ delims_ok ex_multi (Some ex_keywords) (Some ex_numerals).
Proof. split; [vm_compute; reflexivity|]. split; [exact ex_env_multi|]. exact ex_delims_multi. Qed.

(** the standard parser with any settings *)
Theorem C99_standard : forall l ss s e, let p := fold_left dp_set ss (dp_with_time_units l) in config_ok (dp_config p) -> utf8 s = true ->
  Z.of_nat (length s) <= u64_max -> dp_parse p s = Err e ->
  (length (reason e) <= length s + 78)%nat /\ (length (display_parse_error e) <= length s + 126)%nat.
Proof.
  intros l ss s e p. unfold p. rewrite std_fold. unfold dp_parse. cbn [dp_config dp_units]. generalize (fold_left dp_set_config ss config_new). intros c HC U L E. pose proof (delims_none_ok c) as HD.
  destruct (C99_messages_are_short c (std_units (units_with l)) None None s e) as [A B]; auto; now apply std_set_env.
Qed.
Print Assumptions C99_standard.
(** custom parsers after any calls *)
Theorem C99_custom : forall os s e, let p := fold_left cp_call os cp_new in calls_fit os -> calls_delims os -> utf8 s = true ->
  Z.of_nat (length s) <= u64_max -> cp_parse p s = Err e ->
  (length (reason e) <= length s + 78)%nat /\ (length (display_parse_error e) <= length s + 126)%nat.
Proof.
  intros os s e p HF HD U L E. apply calls_delims_ok in HD. unfold p in E. rewrite custom_parse in E.
  destruct (C99_messages_are_short _ _ _ _ s e (own_env os HF) HD U E) as [A B]. auto.
Qed.
Print Assumptions C99_custom.

(** fundu-systemd *)
Lemma piece_len u T t n v W F r : piece u T t n v W F r -> (length r <= length t)%nat.
Proof. intros []; rewrite !app_length; lia. Qed.
Lemma span_small u T s t e : span_error u T s t e -> (length (reason e) <= length t + 78)%nat /\ forall p m, e = Syntax p m \/ e = TimeUnitErr p m -> (p <= length s)%nat.
Proof.
  assert (B : forall l t, behind_sign t l -> (length l <= length t)%nat) by (intros l t0 (sg & n & -> & _); rewrite app_length; lia).
  intros H. induction H as [t1 e H|t1 n v W F r e P _ _ _ IH].
  - destruct H as [x -> _|l H _|W fr F x l H _ _ _ _|l H _ _ _|v W F r _ _]; cbn [reason];
      try (apply B in H); (split; [repeat match goal with |- context [length (bytes_of ?x)] => let k := eval vm_compute in (length (bytes_of x)) in change (length (bytes_of x)) with k end; try change (length (@nil Z)) with 0%nat; lia|
      intros p m [K|K]; try discriminate K; injection K as <- _; unfold offset_of; lia]).
  - apply piece_len in P. destruct IH as [I1 I2]. split; [lia|exact I2].
Qed.
Lemma rejected_small u T s e : rejected u T s e -> Z.of_nat (length s) <= u64_max ->
  (length (reason e) <= length s + 78)%nat /\ (length (display_parse_error e) <= length s + 126)%nat.
Proof.
  intros (ws1 & t & ws2 & -> & _ & _ & _ & H) L. rewrite !app_length in *. destruct H as [[-> ->]|(_ & _ & H)]; [cbn; lia|].
  apply span_small in H. destruct H as [R P]. assert (length (reason e) <= length ws1 + (length t + length ws2) + 78)%nat by lia. split; [assumption|].
  apply message_small; [assumption|]. intros p m K. specialize (P p m K). lia.
Qed.
Theorem C99_systemd : forall p u max s e, made p u -> utf8 s = true -> is_negative max = false -> Z.of_nat (length s) <= u64_max ->
  sd_parse_with_max p s max = Err e \/ sd_parse_nanos_with_max p s max = Err e ->
  (length (reason e) <= length s + 78)%nat /\ (length (display_parse_error e) <= length s + 126)%nat.
Proof.
  intros p u max s e Hp U M L [E|E]; [apply (C78_errors p u s max e Hp U M) in E|apply (C78_nanos_errors p u s max e Hp U M) in E]; eapply rejected_small; eauto.
Qed.
Print Assumptions C99_systemd.

(** fundu-gnu *)
Lemma phrase_len l g a r : unit_phrase l g a r -> (length r <= length l)%nat.
Proof. intros [w g' r' _ _ _|w g' l' r' _ (ds & a' & -> & _)]; rewrite !app_length; lia. Qed.
Lemma item_len t a r : gnu_item t a r -> (length r <= length t)%nat.
Proof. intros []; rewrite !app_length; try match goal with H : unit_phrase _ _ _ _ |- _ => apply phrase_len in H end; lia. Qed.
Lemma relative_small s t e : relative_error s t e -> (length t <= length s)%nat -> (length (reason e) <= length t + 78)%nat /\ forall p m, e = Syntax p m \/ e = TimeUnitErr p m -> (p <= length s)%nat.
Proof.
  assert (B : forall l t, after_sign t l -> (length l <= length t)%nat) by (intros l t0 (sg & n & -> & _); rewrite app_length; lia).
  intros H. induction H as [|t1 e H|t1 a ds r e P _ _ _ _ IH]; intros L.
  - split; [cbn; lia|]. intros p m [K|K]; discriminate K.
  - destruct H as [x -> _|l H _|num x l H _ _|W F ds l g msg H _ _ _ _ _ _ M|l H _ _ _ _ _|w k ds l H _ _ _ _ _]; cbn [reason];
      try (apply B in H); (split; [|intros p m [K|K]; try discriminate K; injection K as <- _; unfold offset; lia]);
      try destruct M; rewrite ?app_length in *;
      repeat match goal with |- context [length (bytes_of ?x)] => let k := eval vm_compute in (length (bytes_of x)) in change (length (bytes_of x)) with k end; lia.
  - apply item_len in P. rewrite app_length in P. destruct (IH ltac:(lia)) as [I1 I2]. split; [lia|exact I2].
Qed.
Theorem C99_gnu : forall now s date e, utf8 s = true -> std_ok (match now with inl d | inr d => d end) -> (forall x, date = Some x -> DateTime.date_time_ok x) ->
  Z.of_nat (length s) <= u64_max -> gnu_parse_with_date gnu_new now s date = Err e ->
  (length (reason e) <= length s + 78)%nat /\ (length (display_parse_error e) <= length s + 126)%nat.
Proof.
  intros now s date e U HN HD L E. destruct (C77_with_date now s date e U HN HD) as [_ W]. destruct (W E) as [F|(-> & _)]; [|cbn; lia].
  apply (C77_errors s e U) in F. destruct F as (ws1 & t & ws2 & -> & _ & _ & _ & R). rewrite !app_length in *.
  apply relative_small in R; [|lia]. destruct R as [R P]. assert (length (reason e) <= length ws1 + (length t + length ws2) + 78)%nat by lia. split; [assumption|].
  apply message_small; [assumption|]. intros p m K. specialize (P p m K). lia.
Qed.
Print Assumptions C99_gnu.
Example C99_others_example :
  dp_parse dp_new (%"1x") = Err (TimeUnitErr 1 (%"Invalid time unit: 'x'")) /\
  sd_parse_with_max sd_new (%" 1 fathom ") MAX = Err (InvalidInput (%"fathom")) /\
  gnu_parse_with_date gnu_new (inl (Std 0 0)) (%"first of all") None = Err (TimeUnitErr 6 (%"Found numeral 'first' without a time unit")) /\ made sd_new Second.
Proof. split; [vm_compute; reflexivity|]. split; [vm_compute; reflexivity|]. split; [vm_compute; reflexivity|]. constructor. Qed.
