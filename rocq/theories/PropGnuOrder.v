(** * Property C67: gnu relative times one after the other add up, in every order *)
From Coq Require Import Permutation.
From Verif Require Import Prelude Util Time Config Bytes Repr Parse Systemd DateTime Gnu SpecTime SpecNum SpecSystemd SpecDate SpecGrammar SpecGnu
  TimeProofs NumProofs Utf8Proofs SystemdProofs GnuGrammar DateProofs DateTimeProofs PropDate PropGnu PropGnuText PropSpans ExEnv.

Lemma white_split a x b y : white_space a -> white_space b -> no_white_ahead x -> no_white_ahead y -> a ++ x = b ++ y -> a = b /\ x = y.
Proof.
  revert b. induction a as [|z a IH]; intros b Ha Hb Hx Hy E.
  - destruct b as [|w b]; [auto|]. cbn in E. destruct (Hx w (b ++ y) E). apply Hb. now left.
  - destruct b as [|w b]; cbn in E.
    + symmetry in E. destruct (Hy z (a ++ x) E). apply Ha. now left.
    + injection E as <- E. destruct (IH b) as [-> ->]; auto; intros q Hq; [apply Ha|apply Hb]; now right.
Qed.

Section Concat.
Variables (ws t : str).
Hypothesis Nw : ws <> [].
Hypothesis Hw : white_space ws.
Hypothesis Ht : exists x r, t = x :: r /\ (48 <= x <= 57 \/ x = 43 \/ x = 45).
Let z := ws ++ t.

Lemma t_dark : no_white_ahead t.
Proof. destruct Ht as (x & r & -> & H). intros y q [= <- _]. unfold white. lia. Qed.
Lemma t_no_letter x r : t = x :: r -> ~ letter x.
Proof. destruct Ht as (y & q & -> & H). intros [= <- _]. unfold letter. lia. Qed.
Lemma z_white x q : z = x :: q -> white x.
Proof. unfold z. destruct ws as [|y w]; [congruence|]. intros [= <- _]. apply Hw. now left. Qed.
Lemma head_ext (P : byte -> Prop) r : (forall x, white x -> P x) -> (forall x q, r = x :: q -> P x) -> forall x q, r ++ z = x :: q -> P x.
Proof.
  intros W H x q E. destruct r as [|y r]; cbn in E; [apply W; now apply (z_white x q)|]. injection E as <- _. now apply (H y r).
Qed.
Lemma ends_word_ext r : ends_word r -> ends_word (r ++ z).
Proof. refine (head_ext (fun x => white x \/ 48 <= x <= 57 \/ x = 43 \/ x = 45) r _). auto. Qed.
Lemma ends_word_back r : ends_word (r ++ z) -> ends_word r.
Proof. intros H x q ->. apply (H x (q ++ z)). reflexivity. Qed.
Lemma ends_digits_ext r : ends_digits r -> ends_digits (r ++ z).
Proof. refine (head_ext (fun x => ~ 48 <= x <= 57 /\ x <> 46 /\ x <> 101 /\ x <> 69) r _). unfold white. lia. Qed.
Lemma ends_fraction_ext r : ends_fraction r -> ends_fraction (r ++ z).
Proof. refine (head_ext (fun x => ~ 48 <= x <= 57 /\ x <> 101 /\ x <> 69) r _). unfold white. lia. Qed.
Lemma number_ext r num W F : gnu_number r num W F -> gnu_number (r ++ z) num W F.
Proof. apply number_follow; [apply ends_digits_ext|apply ends_fraction_ext]. Qed.

Lemma ago_ext l r : ago_follows l r -> ago_follows (l ++ z) (r ++ z).
Proof.
  intros (ds & a & -> & N & Hd & Ha & He). exists ds, a. split; [now rewrite <- !app_assoc|]. split; [exact N|]. split; [exact Hd|]. split; [exact Ha|]. now apply ends_word_ext.
Qed.
(** letters in front of [l ++ z] lie within [l] *)
Lemma letters_back w k q : w <> [] -> (forall x, In x w -> letter x) -> k ++ z = w ++ q -> (k = [] /\ False) \/ exists k2, k = w ++ k2 /\ q = k2 ++ z.
Proof.
  intros N L E. right. apply app_eq_app in E. destruct E as (m & [[E1 E2]|[E1 E2]]); [eauto|].
  destruct m as [|x m]; [|exfalso].
  - rewrite app_nil_r in E1. cbn in E2. subst. exists []. now rewrite app_nil_r.
  - apply (letter_not_white x); [apply L; rewrite E1; apply in_or_app; right; now left|]. now apply (z_white x (m ++ q)).
Qed.
Lemma ago_back l r' : ago_follows (l ++ z) r' -> exists r, ago_follows l r.
Proof.
  intros (ds & a & E & N & Hd & Ha & He). destruct (ago_ahead a r' Ha) as [A L].
  assert (Na : a <> []) by (intros ->; discriminate Ha).
  apply app_eq_app in E. destruct E as (k & [[E1 E2]|[E1 E2]]).
  - destruct (letters_back a k r' Na L (eq_sym E2)) as [[_ []]|(k2 & -> & ->)]. exists k2, ds, a.
    split; [exact E1|]. split; [exact N|]. split; [exact Hd|]. split; [exact Ha|]. now apply ends_word_back.
  - exfalso. unfold z in E2. destruct (white_split ws t k (a ++ r')) as [_ E3]; auto.
    + intros x Hx. apply Hd. rewrite E1. apply in_or_app. now right.
    + exact t_dark.
    + destruct a as [|x a]; [congruence|]. apply (t_no_letter x (a ++ r') E3). apply L. now left.
Qed.
Lemma unit_ext l g b r : unit_phrase l g b r -> unit_phrase (l ++ z) g b (r ++ z).
Proof.
  intros [w g' r0 H1 H2 H3|w g' l0 r0 H1 H2]; rewrite <- app_assoc.
  - apply up_plain; [exact H1|now apply ends_word_ext|]. intros r' H. destruct (ago_back r0 r' H) as (r1 & H'). exact (H3 _ H').
  - apply up_ago; [exact H1|now apply ago_ext].
Qed.
Lemma unit_back l g b r' : unit_phrase (l ++ z) g b r' -> exists r, unit_phrase l g b r.
Proof.
  intros H. remember (l ++ z) as e eqn:E. destruct H as [w g' r0 H1 H2 H3|w g' l0 r0 H1 H2]; symmetry in E; destruct (unit_letters w g' H1) as [N L];
    destruct (letters_back w l _ N L E) as [[_ []]|(k2 & -> & ->)].
  - exists k2. apply up_plain; [exact H1|now apply ends_word_back|]. intros r H. exact (H3 _ (ago_ext _ _ H)).
  - destruct (ago_back k2 _ H2) as (r & H). exists r. now apply up_ago.
Qed.
Lemma unit_not_t g b r : ~ unit_phrase t g b r.
Proof.
  assert (K : forall l, unit_phrase l g b r -> exists x q, l = x :: q /\ letter x).
  { intros l [w g' r0 H1 _ _|w g' l0 r0 H1 _]; destruct (unit_letters w g' H1) as [N L]; (destruct w as [|x w]; [congruence|]);
      eexists _, _; (split; [reflexivity|]); apply L; now left. }
  intros H. destruct (K t H) as (x & q & E & Lx). exact (t_no_letter x q E Lx).
Qed.

Lemma item_ext l a r : gnu_item l a r -> (r <> [] /\ gnu_item (l ++ z) a (r ++ z)) \/ (r = [] /\ exists ds, white_space ds /\ gnu_item (l ++ z) a (ds ++ t)).
Proof.
  assert (G : forall l a r, gnu_item (l ++ z) a (r ++ z) -> (r <> [] /\ gnu_item (l ++ z) a (r ++ z)) \/ (r = [] /\ exists ds, white_space ds /\ gnu_item (l ++ z) a (ds ++ t))).
  { clear l a r. intros l a r H. destruct r as [|x r]; [right; split; [reflexivity|]; now exists ws|left; split; [discriminate|exact H]]. }
  intros [sg n num W F ds l0 g ago r0 a0 Hsg Hn Hd Hu Ha|sg n num W F ds r0 a0 Hsg Hn Hd Hr Hdr Hu Ha|sg n l0 g ago r0 Hsg Hu|sg n w k ds l0 g ago r0 Hsg Hk Hd Nd Hu|sg n w k r0 Hsg Hk He].
  - apply G. rewrite <- !app_assoc. apply gi_number_unit with (n := n) (W := W) (F := F) (g := g) (ago := ago); auto; [|now apply unit_ext].
    rewrite app_assoc. now apply number_ext.
  - destruct r0 as [|x r0].
    + right. split; [reflexivity|]. exists []. split; [intros x []|]. destruct Hdr as [->|Hdr]; [|congruence]. cbn [app] in *.
      rewrite app_nil_r, <- !app_assoc. unfold z. apply gi_number with (n := n) (W := W) (F := F); auto.
      * now apply (number_ext []).
      * exact t_dark.
      * right. destruct Ht as (y & q & -> & _). discriminate.
      * exact unit_not_t.
    + apply G. rewrite <- !app_assoc. apply gi_number with (n := n) (W := W) (F := F); auto.
      * rewrite app_assoc. now apply number_ext.
      * intros y q [= <- _]. now apply (Hr x r0).
      * right. discriminate.
      * intros g b r' H. destruct (unit_back _ _ _ _ H) as (r1 & H'). exact (Hu _ _ _ H').
  - apply G. rewrite <- !app_assoc. apply gi_unit; auto. now apply unit_ext.
  - apply G. rewrite <- !app_assoc. apply gi_numeral; auto. now apply unit_ext.
  - apply G. rewrite <- !app_assoc. apply gi_keyword; auto. now apply ends_word_ext.
Qed.
Lemma relative_ext s as1 as2 : relative_time s as1 -> relative_time t as2 -> relative_time (s ++ z) (as1 ++ as2).
Proof.
  intros H R. induction H as [l a H|l a ds r rs H Hd Hr Hrs IH]; cbn [app].
  - destruct (item_ext _ _ _ H) as [[N _]|(_ & ds & Hd & K)]; [congruence|]. apply rt_more with ds t; auto. exact t_dark.
  - assert (N : r <> []) by now apply (relative_not_nil r rs).
    destruct (item_ext _ _ _ H) as [[_ K]|(E & _)]; [|apply app_eq_nil in E; destruct E; congruence].
    apply rt_more with ds (r ++ z); auto; [now rewrite app_assoc|]. intros x q E. destruct r as [|y r]; [congruence|]. injection E as <- _. now apply (Hr y r).
Qed.
End Concat.

Lemma spaced_relative ps s : spaced ps s -> (forall p, In p ps -> own_part p) -> forall ass, Forall2 relative_time ps ass -> relative_time s (List.concat ass).
Proof.
  induction 1 as [p|p ws ps t N W S IH]; intros H ass F; inversion F as [|q as_ ps' ass' R F']; subst.
  - inversion F'; subst. cbn [List.concat]. now rewrite app_nil_r.
  - cbn [List.concat]. assert (Ht : forall q, In q ps -> own_part q) by (intros q Hq; apply H; now right).
    destruct (spaced_trimmed ps t S Ht) as [_ O]. apply relative_ext; auto.
Qed.

(** the parts as relative times, all together: the sums of the amounts of all of them *)
Theorem C67_parts_add_up : forall ps ass s, (forall p, In p ps -> utf8 p = true /\ own_part p) ->
  Forall2 relative_time ps ass -> spaced ps s ->
  exists d, gnu_parse_fuzzy gnu_new s = Ok (sum_years (List.concat ass), sum_months (List.concat ass), d) /\ duration_ok d /\
    nanos d = sum_nanos (List.concat ass).
Proof.
  intros ps ass s H F S. assert (Ho : forall p, In p ps -> own_part p) by (intros p Hp; apply H, Hp).
  pose proof (spaced_relative ps s S Ho ass F) as R. destruct (spaced_trimmed ps s S Ho) as [T _].
  pose proof (spaced_utf8 ps s S (fun p Hp => proj1 (H p Hp))) as U.
  destruct (C44_fuzzy_complete [] s [] (List.concat ass) U) as (d & E & K); auto; try (intros x []).
  cbn [app] in E. rewrite app_nil_r in E. exists d. split; [exact E|exact K].
Qed.
Print Assumptions C67_parts_add_up.

(** the size of all the amounts: of the years, of the months and of the rest *)
Definition size_years (l : list amount) : Z := fold_right (fun a t => match a with Years v => Z.abs v + t | _ => t end) 0 l.
Definition size_months (l : list amount) : Z := fold_right (fun a t => match a with Months v => Z.abs v + t | _ => t end) 0 l.
Definition size_nanos (l : list amount) : Z := fold_right (fun a t => match a with Nanos v => Z.abs v + t | _ => t end) 0 l.
(** they are within the limits of the types of the result *)
Definition small (l : list amount) : Prop := size_years l <= 2 ^ 63 - 1 /\ size_months l <= 2 ^ 63 - 1 /\ size_nanos l <= max_nanos.

Definition all_years (l : list amount) : Z := fold_right (fun a t => match a with Years v => v + t | _ => t end) 0 l.
Definition all_months (l : list amount) : Z := fold_right (fun a t => match a with Months v => v + t | _ => t end) 0 l.
Definition all_nanos (l : list amount) : Z := fold_right (fun a t => match a with Nanos v => v + t | _ => t end) 0 l.

Lemma exact_sums l : small l -> sum_years l = all_years l /\ sum_months l = all_months l /\ sum_nanos l = all_nanos l.
Proof.
  assert (Py : forall l, 0 <= size_years l) by (induction l0 as [|[v|v|v] l0 IH]; cbn; unfold size_years in *; lia).
  assert (Pm : forall l, 0 <= size_months l) by (induction l0 as [|[v|v|v] l0 IH]; cbn; unfold size_months in *; lia).
  assert (Pn : forall l, 0 <= size_nanos l) by (induction l0 as [|[v|v|v] l0 IH]; cbn; unfold size_nanos in *; lia).
  intros (Hy & Hm & Hn). split; [|split].
  - enough (G : forall l a, Z.abs a + size_years l <= 2 ^ 63 - 1 -> fold_left (fun t a => match a with Years v => clamp_i64 (t + v) | _ => t end) l a = a + all_years l) by (apply G; change (Z.abs 0) with 0; lia).
    clear l Hy Hm Hn. induction l as [|[v|v|v] l IH]; intros a H; cbn [fold_left all_years size_years fold_right] in *; [lia|auto|auto|].
    fold (all_years l) (size_years l) in *. specialize (Py l). replace (clamp_i64 (a + v)) with (a + v) by (unfold clamp_i64, clamp; lia). rewrite IH by lia. lia.
  - enough (G : forall l a, Z.abs a + size_months l <= 2 ^ 63 - 1 -> fold_left (fun t a => match a with Months v => clamp_i64 (t + v) | _ => t end) l a = a + all_months l) by (apply G; change (Z.abs 0) with 0; lia).
    clear l Hy Hm Hn. induction l as [|[v|v|v] l IH]; intros a H; cbn [fold_left all_months size_months fold_right] in *; [lia|auto| |auto].
    fold (all_months l) (size_months l) in *. specialize (Pm l). replace (clamp_i64 (a + v)) with (a + v) by (unfold clamp_i64, clamp; lia). rewrite IH by lia. lia.
  - enough (G : forall l a, Z.abs a + size_nanos l <= max_nanos -> fold_left (fun t a => match a with Nanos v => clamp_nanos (t + v) | _ => t end) l a = a + all_nanos l) by (apply G; change (Z.abs 0) with 0; lia).
    clear l Hy Hm Hn. induction l as [|[v|v|v] l IH]; intros a H; cbn [fold_left all_nanos size_nanos fold_right] in *; [lia| |auto|auto].
    fold (all_nanos l) (size_nanos l) in *. specialize (Pn l). replace (clamp_nanos (a + v)) with (a + v) by (unfold clamp_nanos, clamp; lia). rewrite IH by lia. lia.
Qed.
Lemma all_perm l l' : Permutation l l' -> (small l -> small l') /\ all_years l = all_years l' /\ all_months l = all_months l' /\ all_nanos l = all_nanos l'.
Proof.
  intros P.
  assert (A : size_years l = size_years l' /\ size_months l = size_months l' /\ size_nanos l = size_nanos l').
  { induction P as [|[v|v|v] l l' P IH|[v|v|v] [w|w|w] l|l1 l2 l3 P1 IH1 P2 IH2]; cbn in *; unfold size_years, size_months, size_nanos in *; lia. }
  split; [unfold small; intros S; lia|]. clear A.
  induction P as [|[v|v|v] l l' P IH|[v|v|v] [w|w|w] l|l1 l2 l3 P1 IH1 P2 IH2]; cbn in *; unfold all_years, all_months, all_nanos in *; lia.
Qed.
Lemma all_app l l' : all_years (l ++ l') = all_years l + all_years l' /\ all_months (l ++ l') = all_months l + all_months l' /\ all_nanos (l ++ l') = all_nanos l + all_nanos l' /\
  size_years (l ++ l') = size_years l + size_years l' /\ size_months (l ++ l') = size_months l + size_months l' /\ size_nanos (l ++ l') = size_nanos l + size_nanos l'.
Proof. induction l as [|[v|v|v] l IH]; cbn; unfold all_years, all_months, all_nanos, size_years, size_months, size_nanos in *; lia. Qed.
Lemma size_pos l : 0 <= size_years l /\ 0 <= size_months l /\ 0 <= size_nanos l.
Proof. induction l as [|[v|v|v] l IH]; cbn; unfold size_years, size_months, size_nanos in *; lia. Qed.

(** two texts: the years, months and the durations are added *)
Theorem C67_two_texts : forall s t ws as1 as2 y1 m1 d1 y2 m2 d2,
  utf8 s = true -> utf8 t = true -> own_part s -> own_part t -> ws <> [] -> white_space ws ->
  relative_time s as1 -> relative_time t as2 -> small (as1 ++ as2) ->
  gnu_parse_fuzzy gnu_new s = Ok (y1, m1, d1) -> gnu_parse_fuzzy gnu_new t = Ok (y2, m2, d2) ->
  exists d, gnu_parse_fuzzy gnu_new (s ++ ws ++ t) = Ok (y1 + y2, m1 + m2, d) /\ duration_ok d /\ nanos d = nanos d1 + nanos d2.
Proof.
  intros s t ws as1 as2 y1 m1 d1 y2 m2 d2 U1 U2 O1 O2 N W R1 R2 S E1 E2.
  destruct (C67_parts_add_up [s; t] [as1; as2] (s ++ ws ++ t)) as (d & E & Hd & V).
  { intros p [<-|[<-|[]]]; auto. } { repeat constructor; auto. } { apply sp_more; auto. apply sp_one. }
  destruct (all_app as1 as2) as (A1 & A2 & A3 & A4 & A5 & A6). destruct (size_pos as1) as (P1 & P2 & P3), (size_pos as2) as (Q1 & Q2 & Q3).
  assert (K : forall l r y m d0, utf8 l = true -> own_part l -> relative_time l r -> small r -> gnu_parse_fuzzy gnu_new l = Ok (y, m, d0) ->
    y = all_years r /\ m = all_months r /\ nanos d0 = all_nanos r).
  { intros l r y m d0 U [T _] R Sr El. destruct (C44_fuzzy_complete [] l [] r U) as (d' & E' & _ & V'); auto; try (intros x []).
    cbn [app] in E'. rewrite app_nil_r, El in E'. injection E' as -> -> <-. destruct (exact_sums r Sr) as (X1 & X2 & X3). rewrite V'. auto. }
  assert (S1 : small as1) by (unfold small in *; lia). assert (S2 : small as2) by (unfold small in *; lia).
  destruct (K _ _ _ _ _ U1 O1 R1 S1 E1) as (-> & -> & ->). destruct (K _ _ _ _ _ U2 O2 R2 S2 E2) as (-> & -> & ->).
  cbn [List.concat] in E, V. rewrite app_nil_r in E, V. destruct (exact_sums _ S) as (X1 & X2 & X3). exists d. rewrite E, V. rewrite X1, X2, X3, A1, A2, A3. auto.
Qed.
Print Assumptions C67_two_texts.

(** any number of texts in two orders: the same years, months and duration, and the same result seen from a date *)
Theorem C67_order_of_parts : forall ps ps' ass s s', (forall p, In p ps -> utf8 p = true /\ own_part p) ->
  Forall2 relative_time ps ass -> small (List.concat ass) -> spaced ps s -> spaced ps' s' -> Permutation ps ps' ->
  exists y m d d', gnu_parse_fuzzy gnu_new s = Ok (y, m, d) /\ gnu_parse_fuzzy gnu_new s' = Ok (y, m, d') /\ nanos d' = nanos d /\
    forall now x, date_time_ok x ->
      (exists r r', gnu_parse_with_date gnu_new now s (Some x) = Ok r /\ gnu_parse_with_date gnu_new now s' (Some x) = Ok r' /\ nanos r = nanos r') \/
      gnu_parse_with_date gnu_new now s (Some x) = gnu_parse_with_date gnu_new now s' (Some x).
Proof.
  intros ps ps' ass s s' H F S J J' P. destruct (Permutation_Forall2 P F) as (ass' & P' & F').
  assert (H' : forall p, In p ps' -> utf8 p = true /\ own_part p) by (intros p Hp; apply H; now apply (Permutation_in _ (Permutation_sym P))).
  assert (Pc : Permutation (List.concat ass) (List.concat ass')).
  { clear -P'. induction P'; cbn; auto using Permutation_app_head; [|now transitivity (List.concat l')].
    rewrite !app_assoc. apply Permutation_app_tail, Permutation_app_comm. }
  destruct (all_perm _ _ Pc) as (S' & A1 & A2 & A3). specialize (S' S).
  destruct (C67_parts_add_up ps ass s H F J) as (d & E & Hd & V). destruct (C67_parts_add_up ps' ass' s' H' F' J') as (d' & E' & Hd' & V').
  destruct (exact_sums _ S) as (X1 & X2 & X3). destruct (exact_sums _ S') as (X1' & X2' & X3').
  rewrite X1, X2, X3 in *. rewrite X1', X2', X3' in *. rewrite <- A1, <- A2 in E'. rewrite <- A3 in V'.
  exists (all_years (List.concat ass)), (all_months (List.concat ass)), d, d'. split; [exact E|]. split; [exact E'|]. split; [congruence|].
  intros now x Hx. unfold gnu_parse_with_date. rewrite E, E'. cbn [bind]. destruct (_ && _).
  - left. exists d, d'. split; [reflexivity|]. split; [reflexivity|congruence].
  - right. cbn [bind]. now rewrite (add_duration_value x d d' Hx Hd Hd') by congruence.
Qed.
Print Assumptions C67_order_of_parts.

(** the second text has to start with a digit or a sign: otherwise it can be taken for the time unit of the first one *)
Theorem C67_without_number_refuted : exists s t d1 d2 d,
  gnu_parse_fuzzy gnu_new s = Ok (0, 0, d1) /\ gnu_parse_fuzzy gnu_new t = Ok (0, 0, d2) /\
  gnu_parse_fuzzy gnu_new (s ++ 32 :: t) = Ok (0, 0, d) /\ nanos d <> nanos d1 + nanos d2.
Proof. exists (%"2"), (%"hours"). eexists _, _, _. split; [reflexivity|]. split; [reflexivity|]. split; [reflexivity|]. vm_compute. discriminate. Qed.
Print Assumptions C67_without_number_refuted.
Example C67_example :
  let ps := [%"2 days"; %"-1 month"] in let ass := [[Nanos (172800 * 10 ^ 9)]; [Months (-1)]] in
  (forall p, In p ps -> utf8 p = true /\ own_part p) /\ Forall2 relative_time ps ass /\ small (List.concat ass) /\
  spaced ps (%"2 days  -1 month") /\ spaced [%"-1 month"; %"2 days"] (%"-1 month 2 days") /\
  Permutation ps [%"-1 month"; %"2 days"] /\
  gnu_parse_fuzzy gnu_new (%"2 days  -1 month") = Ok (0, -1, Dur false (Std 172800 0)) /\
  gnu_parse_fuzzy gnu_new (%"-1 month 2 days") = Ok (0, -1, Dur false (Std 172800 0)).
Proof.
  cbv zeta. split; [|split; [|split; [|split; [|split; [|split; [apply perm_swap|split; reflexivity]]]]]].
  - assert (G : forall p x q y q', p = x :: q -> p = q' ++ [y] -> (48 <= x <= 57 \/ x = 43 \/ x = 45) -> ~ white y -> own_part p).
    { intros p x q y q' -> E Hx Hy. split; [split|exists x, q; auto].
      - intros z r [= <- _]. unfold white. lia.
      - intros z r Er. rewrite Er in E. apply app_inj_tail in E. destruct E as [_ ->]. exact Hy. }
    intros p [<-|[<-|[]]]; (split; [reflexivity|]).
    + apply (G _ 50 (%" days") 115 (%"2 day")); try reflexivity; unfold white; lia.
    + apply (G _ 45 (%"1 month") 104 (%"-1 mont")); try reflexivity; unfold white; lia.
  - assert (W : white_space [32]) by (intros x [<-|[]]; now left).
    assert (E : forall l, ~ ago_follows [] l). { intros l (ds & a & H & N & _). destruct ds; [congruence|discriminate H]. }
    repeat constructor.
    + apply (gi_number_unit [] false (%"2") (%"2") [] [32] (%"days") (Seconds 86400) false [] (Nanos (172800 * 10 ^ 9))).
      * apply gs_none.
      * apply gn_whole; [intros x [<-|[]]; cbn; lia|discriminate|]. intros x r [= <- _]. lia.
      * exact W.
      * apply (up_plain (%"days")); [|intros x r [=]|exact E]. exists [%"day"; %"days"], (%"days"). split; [cbn; tauto|]. split; [cbn; tauto|reflexivity].
      * exact (na_whole false (%"2") (Seconds 86400)).
    + apply (gi_number_unit (%"-") true (%"1") (%"1") [] [32] (%"month") AMonth false [] (Months (-1))).
      * apply gs_minus. intros x [].
      * apply gn_whole; [intros x [<-|[]]; cbn; lia|discriminate|]. intros x r [= <- _]. lia.
      * exact W.
      * apply (up_plain (%"month")); [|intros x r [=]|exact E]. exists [%"month"; %"months"], (%"month"). split; [cbn; tauto|]. split; [cbn; tauto|reflexivity].
      * exact (na_whole true (%"1") AMonth).
  - repeat split; vm_compute; discriminate.
  - apply (sp_more (%"2 days") [32; 32]); [discriminate|each; now left|apply sp_one].
  - apply (sp_more (%"-1 month") [32]); [discriminate|each; now left|apply sp_one].
Qed.
