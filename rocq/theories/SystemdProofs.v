(** * Proofs about the systemd parser *)
From Verif Require Import Prelude Time Config Parse SpecTime SpecParse SpecValue SpecGrammar SpecSpelling SpecSystemd
  Utf8Proofs TimeProofs SafeProofs RefGrammar StandardProofs Systemd PropParse.

Lemma white_test x : 0 <= x <= 255 -> (x =? 32) || (wrap_u8 (x - 9) <? 5) = true <-> white x.
Proof.
  intros H. unfold white, wrap_u8. destruct (Z.ltb_spec x 9).
  - rewrite <- (Z.mod_unique (x - 9) 256 (-1) (x - 9 + 256)) by lia. lia.
  - rewrite Z.mod_small by lia. lia.
Qed.
Lemma white_byte x : white x -> 0 <= x <= 255.
Proof. unfold white. lia. Qed.
Lemma white_test' x : white x -> (x =? 32) || (wrap_u8 (x - 9) <? 5) = true.
Proof. intros H. apply white_test; [now apply white_byte|exact H]. Qed.
Lemma sd_delimiter_iff x : sd_delimiter x = true <-> white x.
Proof.
  unfold sd_delimiter. rewrite andb_true_iff. unfold is_u8. rewrite inb_iff. split.
  - intros [H1 H2]. now apply white_test.
  - intros H. split; [now apply white_byte|now apply white_test'].
Qed.

Lemma trim_start_app ws l : white_space ws -> trim_start (ws ++ l) = trim_start l.
Proof.
  induction ws as [|x ws IH]; intros H; [reflexivity|]. cbn [app trim_start].
  rewrite white_test' by (apply H; now left). apply IH. intros y Hy. apply H. now right.
Qed.
Lemma trim_start_split l : (forall x, In x l -> 0 <= x <= 255) -> exists ws, l = ws ++ trim_start l /\ white_space ws.
Proof.
  induction l as [|x l IH]; intros H.
  - exists []. split; [reflexivity|intros x []].
  - cbn [trim_start]. destruct ((x =? 32) || (wrap_u8 (x - 9) <? 5)) eqn:E.
    + destruct IH as (ws & E1 & Hw); [intros y Hy; apply H; now right|].
      exists (x :: ws). split; [cbn; congruence|]. intros y [<-|Hy]; [|auto]. apply white_test; [apply H; now left|exact E].
    + exists []. split; [reflexivity|intros y []].
Qed.
Lemma trim_start_head l : forall x r, trim_start l = x :: r -> ~ white x.
Proof.
  induction l as [|y l IH]; intros x r; cbn [trim_start]; [discriminate|].
  destruct ((y =? 32) || (wrap_u8 (y - 9) <? 5)) eqn:E; [apply IH|].
  intros H W. injection H as -> ->. apply white_test' in W. congruence.
Qed.

Lemma trim_start_keep l r : trim_start l <> [] -> trim_start (l ++ r) = trim_start l ++ r.
Proof.
  induction l as [|y l IH]; cbn [trim_start app]; [congruence|].
  destruct ((y =? 32) || (wrap_u8 (y - 9) <? 5)) eqn:E; [exact IH|reflexivity].
Qed.
Lemma trim_start_all l : white_space l -> trim_start l = [].
Proof. intros H. rewrite <- (app_nil_r l), trim_start_app by exact H. reflexivity. Qed.
Lemma trim_start_nil l : (forall x, In x l -> 0 <= x <= 255) -> trim_start l = [] -> white_space l.
Proof. intros H E. destruct (trim_start_split l H) as (ws & E1 & Hw). rewrite E, app_nil_r in E1. now subst. Qed.
Lemma white_rev l : white_space l -> white_space (rev l).
Proof. intros H x Hx. apply H. now apply in_rev. Qed.
Lemma trim_end_app ws l : white_space ws -> trim_end (l ++ ws) = trim_end l.
Proof. intros H. unfold trim_end. rewrite rev_app_distr, trim_start_app by now apply white_rev. reflexivity. Qed.


Definition bytes_ok (l : str) : Prop := forall x, In x l -> 0 <= x <= 255.
Lemma bytes_ok_app a b : bytes_ok (a ++ b) <-> bytes_ok a /\ bytes_ok b.
Proof.
  unfold bytes_ok. split.
  - intros H. split; intros x Hx; apply H, in_or_app; auto.
  - intros [H1 H2] x Hx. apply in_app_or in Hx. destruct Hx; auto.
Qed.

Lemma trim_start_trimmed l : bytes_ok l -> (forall x r, l = x :: r -> ~ white x) -> trim_start l = l.
Proof.
  intros B H. destruct l as [|x l]; [reflexivity|]. cbn [trim_start].
  destruct ((x =? 32) || (wrap_u8 (x - 9) <? 5)) eqn:E; [|reflexivity].
  exfalso. apply (H x l eq_refl). apply white_test; [apply B; now left|exact E].
Qed.

(** trimming removes exactly the white space around a trimmed text *)
Lemma trim_unique ws1 t ws2 : white_space ws1 -> white_space ws2 -> bytes_ok t -> trimmed t ->
  trim_end (trim_start (ws1 ++ t ++ ws2)) = t.
Proof.
  intros H1 H2 B [T1 T2]. rewrite trim_start_app by exact H1. destruct t as [|x t].
  - cbn [app]. now rewrite trim_start_all.
  - assert (N : trim_start ((x :: t) ++ ws2) = (x :: t) ++ ws2).
    { rewrite trim_start_keep; rewrite trim_start_trimmed; auto. discriminate. }
    rewrite N, trim_end_app by exact H2. unfold trim_end. rewrite trim_start_trimmed.
    + apply rev_involutive.
    + intros y Hy. apply B. now apply in_rev.
    + intros y r E. apply (T2 y (rev r)). now rewrite <- (rev_involutive (x :: t)), E.
Qed.

Lemma trim_split l : bytes_ok l -> exists ws1 ws2,
  l = ws1 ++ trim_end (trim_start l) ++ ws2 /\ white_space ws1 /\ white_space ws2 /\ trimmed (trim_end (trim_start l)).
Proof.
  intros B. destruct (trim_start_split l B) as (ws1 & E1 & H1).
  assert (B1 : bytes_ok (trim_start l)) by (rewrite E1 in B; now apply bytes_ok_app in B).
  assert (Br : bytes_ok (rev (trim_start l))) by (intros x Hx; apply B1; now apply in_rev).
  destruct (trim_start_split _ Br) as (ws2 & E2 & H2).
  assert (E3 : trim_start l = trim_end (trim_start l) ++ rev ws2).
  { transitivity (rev (rev (trim_start l))); [now rewrite rev_involutive|]. rewrite E2 at 1. apply rev_app_distr. }
  exists ws1, (rev ws2). split; [now rewrite <- E3|]. split; [exact H1|]. split; [now apply white_rev|]. split.
  - intros x r E. apply (trim_start_head l x (r ++ rev ws2)). rewrite E3, E. reflexivity.
  - intros x r E. apply (trim_start_head (rev (trim_start l)) x (rev r)).
    unfold trim_end in E. rewrite <- (rev_involutive (trim_start (rev (trim_start l)))), E, rev_app_distr. reflexivity.
Qed.

(** white space does not matter, without any condition *)
Lemma trim_around ws1 l ws2 : white_space ws1 -> white_space ws2 ->
  trim_end (trim_start (ws1 ++ l ++ ws2)) = trim_end (trim_start l).
Proof.
  intros H1 H2. rewrite trim_start_app by exact H1. destruct (trim_start l) as [|x t] eqn:E.
  - assert (G : trim_start (l ++ ws2) = []).
    { clear H1. revert E. induction l as [|y l IH]; cbn [trim_start app]; [intros _; now apply trim_start_all|].
      destruct ((y =? 32) || (wrap_u8 (y - 9) <? 5)); [exact IH|discriminate]. }
    now rewrite G.
  - rewrite trim_start_keep by (rewrite E; discriminate). rewrite E. now apply trim_end_app.
Qed.

Lemma white_utf8 ws l : white_space ws -> utf8 (ws ++ l) = utf8 l.
Proof.
  intros H. induction ws as [|x ws IH]; [reflexivity|]. cbn [app]. rewrite utf8_cons_ascii.
  - apply IH. intros y Hy. apply H. now right.
  - assert (white x) by (apply H; now left). unfold white in *. lia.
Qed.
Lemma utf8_white_end l ws : white_space ws -> utf8 (l ++ ws) = utf8 l.
Proof.
  intros H. destruct (utf8 l) eqn:E.
  - rewrite utf8_app by exact E. rewrite <- (app_nil_r ws), white_utf8 by exact H. reflexivity.
  - destruct ws as [|x ws]; [now rewrite app_nil_r|]. destruct (utf8 (l ++ x :: ws)) eqn:E2; [|reflexivity].
    apply utf8_cut in E2; [destruct E2; congruence|]. assert (white x) by (apply H; now left). unfold white in *. lia.
Qed.
Lemma trim_utf8 l : utf8 l = true -> utf8 (trim_end (trim_start l)) = true.
Proof.
  intros U. destruct (trim_split l (utf8_bytes l U)) as (ws1 & ws2 & E & H1 & H2 & _).
  rewrite E, white_utf8, utf8_white_end in U by assumption. exact U.
Qed.

(** ** the lookups *)
Lemma arm_iff ws id : arm ws id = true <-> In id ws.
Proof.
  unfold arm. rewrite existsb_exists. split.
  - intros (w & H & E). apply str_eqb_iff in E. now subst.
  - intros H. exists id. split; [exact H|now apply str_eqb_iff].
Qed.
Lemma table_get table f :
  (forall id u m, f id = Some (u, m) <-> m = Mul 1 0 /\ denotes table id u) ->
  forall ws u0, (forall id u, In id ws -> denotes table id u -> False) ->
  forall id u m, (if arm ws id then sd_unit u0 else f id) = Some (u, m) <-> m = Mul 1 0 /\ denotes ((u0, ws) :: table) id u.
Proof.
  intros Hf ws u0 D id u m. destruct (arm ws id) eqn:A.
  - apply arm_iff in A. unfold sd_unit. split.
    + intros E. injection E as <- <-. split; [reflexivity|]. exists ws. split; [now left|exact A].
    + intros (-> & ws' & [E|H] & Hi); [congruence|]. exfalso. apply (D id u A). now exists ws'.
  - assert (N : ~ In id ws) by (intros H; apply arm_iff in H; congruence). rewrite Hf. split; intros (-> & ws' & H1 & H2).
    + split; [reflexivity|]. exists ws'. split; [now right|exact H2].
    + split; [reflexivity|]. destruct H1 as [H1|H1]; [|now exists ws']. injection H1 as -> ->. contradiction.
Qed.
Ltac disjoint := intros id u H1 (ws & H2 & H3); cbn in H1, H2;
  repeat (destruct H1 as [H1|H1]; [subst id|]); try contradiction;
  repeat (destruct H2 as [H2|H2]; [injection H2 as <- <-; cbn in H3; repeat (destruct H3 as [H3|H3]; [discriminate H3|]); contradiction|]);
  contradiction.
Lemma sd_get_spec id u m : sd_get id = Some (u, m) <-> m = Mul 1 0 /\ denotes systemd_units id u.
Proof.
  revert id u m. unfold sd_get, systemd_units.
  repeat (apply table_get; [|disjoint]). intros id u m. split; [discriminate|]. intros (_ & ws & [] & _).
Qed.
Lemma sd_get_nanos_spec id u m : sd_get_nanos id = Some (u, m) <-> m = Mul 1 0 /\ denotes systemd_nanos_units id u.
Proof.
  revert id u m. unfold sd_get_nanos, systemd_nanos_units, systemd_units.
  repeat (apply table_get; [|disjoint]). intros id u m. split; [discriminate|]. intros (_ & ws & [] & _).
Qed.

(** ** every parser *)
Lemma sd_new_default : sd_new = sd_with_default_unit Second.
Proof. reflexivity. Qed.
Lemma sd_set_twice u v : sd_set_default_unit (sd_with_default_unit u) v = sd_with_default_unit v.
Proof. reflexivity. Qed.

Lemma sd_delim_ascii : ascii_delim sd_delimiter.
Proof. intros x H. apply sd_delimiter_iff in H. unfold white in H. lia. Qed.
Lemma sd_env_ok u : env_ok (sd_with_default_unit u) sd_TIME_UNITS None None.
Proof.
  constructor; try discriminate; try exact sd_delim_ascii.
  intros id v m H. apply sd_get_spec in H. destruct H as [-> _]. apply unit_default_fits.
Qed.
Lemma sd_env_nanos_ok u : env_ok (sd_with_default_unit u) sd_TIME_UNITS_WITH_NANOS None None.
Proof.
  constructor; try discriminate; try exact sd_delim_ascii.
  intros id v m H. apply sd_get_nanos_spec in H. destruct H as [-> _]. apply unit_default_fits.
Qed.
Lemma sd_delims_ok u : delims_ok (sd_with_default_unit u) None None.
Proof. apply delims_none_ok. Qed.
Lemma sd_delims_strict u : delims_strict (sd_with_default_unit u).
Proof. intros x H. unfold keyword_end. cbn in *. now rewrite H. Qed.

(** ** more units do not change what is accepted already *)
Section MoreUnits.
Context (c : config) (tu tu' : units_like).
Hypothesis Hinf : c_disable_infinity c = true.
Hypothesis Hemp : u_is_empty tu = false.
Hypothesis Hemp' : u_is_empty tu' = false.
Hypothesis Hmore : forall w x, u_get tu w = Some x -> u_get tu' w = Some x.
Hypothesis Hdot : forall w, u_get tu' w <> None -> u_get tu w = None -> starts_not is_dot w.

Lemma more_unit l u m r : multi_unit c tu l u m r -> multi_unit c tu' l u m r.
Proof. intros H. inversion H; subst; [eapply mu_plain|eapply mu_ago]; eauto. Qed.

Lemma until_fun p l a b a' b' : until p l a b -> until p l a' b' -> a = a' /\ b = b'.
Proof. intros H1 H2. apply until_iff in H1. apply until_iff in H2. destruct H1, H2. split; congruence. Qed.
Lemma until_head p x l a b : until p (x :: l) a b -> a <> [] -> p x = false /\ exists a', a = x :: a'.
Proof.
  intros (E & H & _) N. destruct a as [|y a]; [congruence|]. cbn in E. injection E as -> E. split; [|now exists a].
  specialize (H y (or_introl eq_refl)). cbn in H. now apply negb_true_iff.
Qed.

(** a word which is a unit of [tu'] only cannot start a component of [tu] *)
Lemma new_word_rejected l d r w l1 : component c tu None None l d r -> until (unit_end c) l w l1 -> w <> [] ->
  u_get tu' w <> None -> u_get tu w = None -> False.
Proof.
  intros H U Nw G' G. destruct l as [|x l].
  { destruct U as (E & _). symmetry in E. apply app_eq_nil in E. destruct E. congruence. }
  pose proof (Hdot w G' G) as Hd. destruct (until_head _ _ _ _ _ U Nw) as (Ex & w' & ->). cbn in Hd.
  unfold unit_end, keyword_end, starts_duration in Ex. rewrite !orb_false_iff in Ex. destruct Ex as [[_ [Xd Xs]] _].
  assert (S : forall n l', signed c (x :: l) n l' -> l' = x :: l).
  { intros n l' S. inversion S; subst; [reflexivity|congruence|congruence]. }
  assert (N : forall W F e r', ~ number c (x :: l) W F e r').
  { intros W F e r' (l1' & l2 & l3 & H1 & H2 & _ & _ & H5).
    destruct W as [|y W].
    - destruct H1 as (E & _ & _). cbn in E. subst l1'. inversion H2; subst; [now apply H5|discriminate Hd].
    - destruct H1 as (E & H1 & _). cbn in E. injection E as -> E. specialize (H1 y (or_introl eq_refl)). congruence. }
  assert (M : forall u m r', ~ multi_unit c tu (x :: l) u m r').
  { intros u m r' M. inversion M as [l' v l1' u' m' r'' U' _ G2|l' v l1' l2' u' m' r'' U' _ G2]; subst;
      destruct (until_fun _ _ _ _ _ _ U U') as [<- _]; congruence. }
  inversion H; subst; match goal with S0 : signed _ _ _ _ |- _ => apply S in S0; subst end.
  - eapply N; eauto.
  - eapply N; eauto.
  - congruence.
  - congruence.
  - match goal with K : multi_keyword_is _ None _ _ _ _ |- _ => destruct K as (k & v & K & _); discriminate K end.
  - eapply M; eauto.
  - match goal with K : numeral_prefix _ None _ _ _ |- _ => destruct K as (k & v & a & b & K & _); discriminate K end.
Qed.

Lemma new_word_next l r w l1 : next_component c l r -> until (unit_end c) l w l1 -> w <> [] -> r = l.
Proof.
  intros H U Nw. inversion H as [|l' r' Hc]; subst; [reflexivity|]. exfalso. apply connection_head in Hc.
  destruct l as [|x l]; [contradiction|]. cbn in Hc. destruct (until_head _ _ _ _ _ U Nw) as (Ex & _).
  unfold unit_end, keyword_end in Ex. rewrite !orb_false_iff in Ex. destruct Ex as [[Ex _] _]. congruence.
Qed.

Lemma more_component s d r : component c tu None None s d r ->
  (r <> [] -> exists d' r', component c tu None None r d' r') -> component c tu' None None s d r.
Proof.
  intros H Hr. inversion H; subst.
  - eapply co_number; eauto. right. intros (w & l2 & U & Nw & G').
    match goal with K : _ \/ _ |- _ => destruct K as [K|K]; [congruence|] end.
    assert (G : u_get tu w = None).
    { destruct (u_get tu w) eqn:G; [|reflexivity]. exfalso.
      match goal with K : ~ multi_unit_like _ _ _ |- _ => apply K end. exists w, l2.
      split; [exact U|]. split; [exact Nw|]. congruence. }
    match goal with K : next_component _ ?l _ |- _ => assert (r = l) by (eapply new_word_next; eauto); subst end.
    destruct Hr as (d' & r' & C).
    { intros ->. destruct U as (E & _). symmetry in E. apply app_eq_nil in E. destruct E. congruence. }
    eapply new_word_rejected; eauto.
  - eapply co_number_unit; eauto using more_unit.
  - congruence.
  - congruence.
  - match goal with K : multi_keyword_is _ None _ _ _ _ |- _ => destruct K as (k & v & K & _); discriminate K end.
  - eapply co_unit; eauto using more_unit.
  - match goal with K : numeral_prefix _ None _ _ _ |- _ => destruct K as (k & v & a & b & K & _); discriminate K end.
Qed.

Lemma more_components s ds : components c tu None None s ds -> components c tu' None None s ds.
Proof.
  induction 1 as [s d H|s d r ds H Nr Hs IH].
  - apply cs_last. apply more_component; [exact H|congruence].
  - eapply cs_more; eauto. apply more_component; [exact H|]. intros _.
    inversion Hs; subst; eauto.
Qed.
End MoreUnits.

Lemma nanos_eq_pos a b : duration_ok a -> duration_ok b -> neg a = false -> neg b = false -> nanos a = nanos b -> a = b.
Proof.
  destruct a as [na [sa fa]], b as [nb [sb fb]]. unfold duration_ok, std_ok, nanos, is_u64, inb. cbn.
  intros Ha Hb -> -> E. assert (sa = sb /\ fa = fb) as [-> ->] by lia. reflexivity.
Qed.
