(** * C100 for relative times (fundu-gnu) and time spans (fundu-systemd): an exponent stays an error, whatever follows it *)
From Verif Require Import Prelude Util Time Config Bytes Repr Parse SpecTime SpecNum SpecGrammar SpecSystemd Utf8Proofs SystemdProofs.
From Verif Require Import SpecGnu Gnu GnuWords GnuGrammar PropGnu PropGnuOrder SpecGnuTexts PropGnuTexts SpecGnuErrors PropGnuErrors PropGnuPrefix.
From Verif Require Import SpecSystemdErrors SystemdSpan Systemd PropSystemd PropSystemdErrors PropSystemdPrefix.

(** the text starts with the same bytes up to and including the byte [x] behind [b]; white space around it is removed *)
Lemma white_ahead_head x a b : no_white_ahead (x :: a) -> no_white_ahead (x :: b).
Proof. intros H y r E. injection E as <- _. exact (H x a eq_refl). Qed.
Lemma trim_nw l : utf8 l = true -> no_white_ahead l -> exists t w, l = t ++ w /\ white_space w /\ trimmed t.
Proof.
  intros U N. destruct (trim_split l (utf8_bytes l U)) as (w1 & w2 & E & A & B & T). set (t := trim_end (trim_start l)) in *.
  destruct w1 as [|x w1]; [exists t, w2; auto|]. exfalso. apply (N x (w1 ++ t ++ w2) E). apply A. now left.
Qed.
Lemma trim_same ws s w1 t w2 : white_space ws -> white_space w1 -> no_white_ahead s -> trimmed t -> t <> [] -> ws ++ s = w1 ++ t ++ w2 -> s = t ++ w2.
Proof.
  intros A B N [T _] Nt E. apply white_split in E; try assumption; [tauto|]. destruct t as [|x t]; [congruence|]. intros y r K. injection K as <- _. exact (T x t eq_refl).
Qed.
(** [t] without the white space behind it still starts with [b ++ [x]] *)
Lemma keeps_start (b : str) x l t w : ~ white x -> white_space w -> b ++ x :: l = t ++ w -> exists r, t = b ++ x :: r.
Proof.
  intros Nx W. revert t. induction b as [|y b IH]; intros t E.
  - destruct t as [|z t]; cbn [app] in E; [|injection E as <- _; exists t; reflexivity]. exfalso. apply Nx, W. rewrite <- E. now left.
  - destruct t as [|z t]; cbn [app] in E.
    + exfalso. apply Nx, W. rewrite <- E. right. apply in_or_app. right. now left.
    + injection E as <- E. destruct (IH t E) as (r & ->). exists r. reflexivity.
Qed.
Lemma same_start (b : str) x r t : firstn (S (length b)) t = firstn (S (length b)) (b ++ x :: r) -> exists r', t = b ++ x :: r'.
Proof.
  intros E. exists (skipn (S (length b)) t). rewrite <- (firstn_skipn (S (length b)) t) at 1. rewrite E.
  replace (b ++ x :: r) with ((b ++ [x]) ++ r) by now rewrite <- app_assoc.
  replace (S (length b)) with (length (b ++ [x])) by (rewrite app_length; cbn; lia).
  now rewrite firstn_app, Nat.sub_diag, firstn_O, app_nil_r, firstn_all, <- app_assoc.
Qed.
Lemma e_not_white x : x = 101 \/ x = 69 -> ~ white x.
Proof. unfold white. lia. Qed.

(** ** Relative times *)
Definition no_exponent_error (p : nat) : parse_error := Syntax p (%"No exponent allowed").
(** the exponent [x] behind [b] stays an error *)
Definition gnu_final (before t : str) (p : nat) : Prop :=
  exists b x r, t = b ++ x :: r /\ (x = 101 \/ x = 69) /\ p = length (before ++ b) /\
    (exists z c, b = z :: c /\ ~ white z /\ z <> 97 /\ z <> 65) /\
    (forall r', has_unit (b ++ x :: r') -> has_unit t) /\
    forall s r', s = before ++ b ++ x :: r' -> relative_error s (b ++ x :: r') (no_exponent_error p).
Lemma numeric_phrase x l : 48 <= x <= 57 \/ x = 43 \/ x = 45 \/ x = 46 -> ~ has_unit (x :: l).
Proof.
  intros H (g & ago & r & P). destruct (GnuGrammar.phrase_word _ _ _ _ P) as (w & l0 & E & Hw & _).
  destruct (letters_head w l0 (GnuGrammar.unit_letters w g Hw)) as (y & w' & Ey & A & B & C & _). rewrite <- E in Ey. injection Ey as <- _.
  unfold is_digit, is_dot, is_sign, inb in *. lia.
Qed.
Lemma item_final s t p : item_error s t (no_exponent_error p) -> forall before, s = before ++ t -> gnu_final before t p.
Proof.
  intros H before Es. inversion H as [x A B C|l A B C|num x l A B C D| | |]; subst.
  destruct A as (sg & n & E & Hs & Nl & Nw & Sn). subst t.
  assert (Nn : exists y q, num = y :: q /\ (48 <= y <= 57 \/ y = 46)).
  { destruct B as [[|y W] HW N|[|y W] F HW HF N]; cbn [app]; [congruence| | |]; (eexists; eexists; split; [reflexivity|]); try (right; reflexivity); left; apply HW; now left. }
  destruct Nn as (y & q & Eq & Hy).
  assert (Hd : exists z c, sg ++ num = z :: c /\ (48 <= z <= 57 \/ z = 43 \/ z = 45 \/ z = 46)).
  { destruct Hs; cbn [app]; [rewrite Eq|..]; (eexists; eexists; split; [reflexivity|lia]). }
  destruct Hd as (z & c & Hz & Hn).
  exists (sg ++ num), x, l. split; [now rewrite <- app_assoc|]. split; [exact C|]. split.
  { unfold offset. rewrite !app_length. cbn. lia. }
  split; [exists z, c; split; [exact Hz|]; unfold white; lia|].
  split. { intros r' K. exfalso. revert K. rewrite Hz. cbn [app]. now apply numeric_phrase. }
  intros s r' ->. apply re_here. rewrite <- app_assoc.
  assert (no_exponent_error (offset (before ++ sg ++ num ++ x :: l) (x :: l)) = no_exponent_error (offset (before ++ sg ++ num ++ x :: r') (x :: r'))) as ->.
  { unfold no_exponent_error, offset. f_equal. rewrite !app_length. cbn. lia. }
  unfold no_exponent_error. apply (ie_exponent _ _ num x r'); auto. exists sg, n. split; [reflexivity|]. split; [exact Hs|].
  split; [rewrite Eq; discriminate|]. rewrite Eq in *. cbn [app] in *. split; [now apply (white_ahead_head y (q ++ x :: l))|].
  intros E w r E2. injection E2 as <- _. exact (Sn E y (q ++ x :: l) eq_refl).
Qed.
Lemma error_final s t p : relative_error s t (no_exponent_error p) -> forall before, s = before ++ t -> gnu_final before t p.
Proof.
  intros H. remember (no_exponent_error p) as e eqn:Ee. induction H as [|t e H|t a ds r e HI Hd Nr Nn H IH]; [discriminate| |].
  - subst e. intros before Es. now apply (item_final s t p).
  - intros before Es. specialize (IH Ee). subst e.
    destruct (item_piece' _ _ _ HI) as [(q & u & Et & Hp & He & Hu)|(q & sep & Et & Hp & Hs & Nd & _ & Np & Hx & HG)].
    + destruct (IH (before ++ q ++ ds)) as (b & x & r0 & Er & Hx & Ep & (z & c & Ez & Nz & N97 & N65) & HU & HR); [now rewrite Es, Et, <- !app_assoc|].
      assert (EW : forall r', ends_word (ds ++ b ++ x :: r')).
      { intros r' y k Ey. rewrite Ez in Ey. destruct ds as [|d ds]; cbn [app] in Ey; injection Ey as <- _.
        - apply (He z (c ++ x :: r0)). cbn [app]. now rewrite Er, Ez.
        - left. apply Hd. now left. }
      exists (q ++ ds ++ b), x, r0. split; [now rewrite Et, Er, <- !app_assoc|]. split; [exact Hx|]. split; [now rewrite Ep, <- !app_assoc|].
      split. { destruct (piece_ok _ _ _ _ Hp) as ((y & k & -> & Sy) & _). exists y, (k ++ ds ++ b). split; [reflexivity|]. unfold start, white in *. lia. }
      split.
      { intros r' (g & ago & r1 & P). destruct u; [exact (Hu eq_refl)|]. exfalso. rewrite <- !app_assoc in P. revert P. eapply piece_no_phrase; [exact Hp|]. intros _. apply EW. }
      intros s' r' ->. rewrite <- !app_assoc. apply (re_later _ _ a ds (b ++ x :: r')); [|exact Hd| | |].
      * apply (item_word q a u); [exact Hp|apply EW|]. intros r1 (ds1 & v & E & _ & W1 & Hv & _).
        destruct (letters_head v r1 (GnuGrammar.ago_letters v Hv)) as (y & w' & Ey & _ & _ & _ & NW).
        apply white_split in E; try assumption; [|rewrite Ez; intros k l El; injection El as <- _; exact Nz|rewrite Ey; intros k l El; injection El as <- _; exact NW].
        destruct E as [_ E]. rewrite Ez in E. destruct v as [|y' v]; [discriminate|]. cbn [app] in E. injection E as <- _.
        cbn [str_eq_nocase] in Hv. apply andb_true_iff in Hv. destruct Hv as [Hv _].
        assert (H97 : 97 <= 97 <= 122) by lia. destruct (SpellProofs.nocase_letter z 97 H97 Hv); subst; lia.
      * rewrite Ez. intros k l El. injection El as <- _. exact Nz.
      * rewrite Ez. discriminate.
      * apply HR. now rewrite <- !app_assoc.
    + assert (ds = []) as ->. { destruct ds as [|x ds]; [reflexivity|]. destruct (Nd x (ds ++ r) eq_refl). apply Hd. now left. }
      cbn [app] in *.
      destruct (IH (before ++ q ++ sep)) as (b & x & r0 & Er & Hx' & Ep & (z & c & Ez & Nz & N97 & N65) & HU & HR); [now rewrite Es, Et, <- !app_assoc|].
      exists (q ++ sep ++ b), x, r0. split; [now rewrite Et, Er, <- !app_assoc|]. split; [exact Hx'|]. split; [now rewrite Ep, <- !app_assoc|].
      split. { destruct (piece_ok _ _ _ _ Hp) as ((y & k & -> & Sy) & _). exists y, (k ++ sep ++ b). split; [reflexivity|]. unfold start, white in *. lia. }
      split.
      { intros r' (g & ago & r1 & P). exfalso. rewrite <- !app_assoc in P. revert P. eapply piece_no_phrase; [exact Hp|discriminate]. }
      intros s' r' ->. rewrite <- !app_assoc. apply (re_later _ _ a [] (b ++ x :: r')); [|intros y []| | |].
      * apply HG; [rewrite Ez; intros k l El; injection El as <- _; exact Nz|rewrite Ez; discriminate| |].
        -- intros _. exists z, (c ++ x :: r0), (c ++ x :: r'). split; [now rewrite Er, Ez|now rewrite Ez].
        -- intros g ago r1 P. destruct (HU r') as (g' & ago' & r2 & P'); [exists g, ago, r1; exact P|]. exact (Np _ _ _ P').
      * rewrite Ez. intros k l El. injection El as <- _. exact Nz.
      * rewrite Ez. discriminate.
      * apply HR. now rewrite <- !app_assoc.
Qed.

(** An exponent in a relative time is an error at the same position, with the same message, for every text which is the same up to and including the
    letter e. White space in front does not count (C77_position_in_input_refuted). *)
Theorem C100_gnu : forall ws ws' s t p, white_space ws -> white_space ws' -> no_white_ahead s -> no_white_ahead t -> utf8 s = true -> utf8 t = true ->
  gnu_parse_fuzzy gnu_new (ws ++ s) = Err (Syntax p (%"No exponent allowed")) ->
  firstn (S p) t = firstn (S p) s -> gnu_parse_fuzzy gnu_new (ws' ++ t) = Err (Syntax p (%"No exponent allowed")).
Proof.
  intros ws ws' s t p W W' Ns Nt Us Ut H T. apply C77_errors in H; [|now rewrite white_utf8]. destruct H as (w1 & s0 & w2 & E & A1 & A2 & T0 & R).
  destruct (error_final s0 s0 p R [] eq_refl) as (b & x & r & E0 & Hx & Ep & _ & _ & F). cbn [app] in Ep, F.
  apply trim_same in E; try assumption; [|rewrite E0; destruct b; discriminate]. subst s p. rewrite E0, <- app_assoc in T. cbn [app] in T.
  destruct (same_start b x (r ++ w2) t T) as (r' & ->). destruct (trim_nw _ Ut Nt) as (t0 & w & Et & Ww & Tt).
  destruct (keeps_start b x r' t0 w (e_not_white x Hx) Ww Et) as (r1 & Et0). apply C77_errors; [now rewrite white_utf8|].
  exists ws', t0, w. split; [now rewrite Et|]. split; [exact W'|]. split; [exact Ww|]. split; [exact Tt|]. rewrite Et0. now apply F.
Qed.
Print Assumptions C100_gnu.
Example C100_gnu_example : gnu_parse_fuzzy gnu_new (%" 1day 2e") = Err (Syntax 6 (%"No exponent allowed")) /\
  gnu_parse_fuzzy gnu_new (%"1day 2eggs") = Err (Syntax 6 (%"No exponent allowed")) /\ gnu_parse_fuzzy gnu_new (%"1day 2") = Ok (0, 0, Dur false (Std 86402 0)).
Proof. split; [|split]; reflexivity. Qed.

(** ** Time spans *)
Section Spans.
Context (du : time_unit) (table : list (time_unit * list str)).
Hypothesis Hword : forall w u, denotes table w u -> w <> [] /\ starts_not is_e w /\ utf8 w = true /\
  forall x, In x w -> ~ white x /\ is_digit x = false /\ is_sign x = false /\ is_dot x = false.
Hypothesis Hinf : forall u, ~ denotes table (%"infinity") u.
Definition sd_final (before t : str) (p : nat) : Prop :=
  exists b x r, t = b ++ x :: r /\ (x = 101 \/ x = 69) /\ p = length (before ++ b) /\ b <> [] /\
    (forall r', numeric (b ++ x :: r') \/ unit_ahead table (b ++ x :: r') /\ unit_ahead table t) /\
    forall s r', s = before ++ b ++ x :: r' -> span_error du table s (b ++ x :: r') (no_exponent_error p).
Lemma piece_final s t p : piece_error du table s t (no_exponent_error p) -> forall before, s = before ++ t -> sd_final before t p.
Proof.
  intros H before Es. inversion H as [x A B C|l A B C|W fr F x l A B C D X Y| |]; subst.
  destruct A as (sg & n & E & Hs & Nl & Sn). subst t.
  assert (Nn : forall l', numeric (W ++ fr ++ l')) by (intros l'; now apply numeric_number with F).
  exists (sg ++ W ++ fr), x, l. split; [now rewrite <- !app_assoc|]. split; [exact X|]. split.
  { unfold offset_of. rewrite !app_length. cbn. lia. }
  split. { intros K. apply app_eq_nil in K. destruct K as [_ K]. destruct (Nn []) as (y & q & K2 & _). rewrite app_nil_r, K in K2. discriminate. }
  split. { intros r'. left. rewrite <- !app_assoc. destruct sg as [|y sg]; [apply Nn|]. apply numeric_sign with n; [exact Hs|discriminate]. }
  intros s r' ->. apply sp_here. rewrite <- !app_assoc.
  assert (no_exponent_error (offset_of (before ++ sg ++ W ++ fr ++ x :: l) (x :: l)) = no_exponent_error (offset_of (before ++ sg ++ W ++ fr ++ x :: r') (x :: r'))) as ->.
  { unfold no_exponent_error, offset_of. f_equal. rewrite !app_length. cbn. lia. }
  unfold no_exponent_error. apply (pe_exponent _ _ _ _ W fr F x r'); auto. exists sg, n. split; [reflexivity|]. split; [exact Hs|].
  split; [intros K; destruct (Nn (x :: r')) as (? & ? & K2 & _); rewrite K in K2; discriminate|].
  intros E y q Ey. destruct (Nn (x :: l)) as (z & k & Ez & _). apply (Sn E y k). rewrite Ez. f_equal.
  clear -Ey Ez C. destruct W as [|w W]; cbn [app] in *; [|now injection Ez; injection Ey; congruence].
  destruct fr as [|f fr]; cbn [app] in *; [now injection Ez; injection Ey; congruence|]. now injection Ez; injection Ey; congruence.
Qed.
Lemma span_final s t p : span_error du table s t (no_exponent_error p) -> forall before, s = before ++ t -> sd_final before t p.
Proof.
  intros H. remember (no_exponent_error p) as e eqn:Ee. induction H as [t e H|t n u W F r e P T N H IH].
  - subst e. intros before Es. now apply (piece_final s t p).
  - intros before Es. specialize (IH Ee). subst e. destruct (piece_cut _ _ Hword _ _ _ _ _ _ P T) as (q & bb & pt & v & sep & Et & A & Hsep & NN & C).
    destruct (IH (before ++ q ++ sep)) as (b & x & r0 & Er & Hx & Ep & Nb & HU & HR); [now rewrite Es, Et, <- !app_assoc|].
    assert (HD : forall r', exists y a, b ++ x :: r' = y :: a /\ (sign y \/ exists a', r = y :: a')).
    { intros r'. destruct b as [|y b]; [congruence|]. exists y, (b ++ x :: r'). split; [reflexivity|]. right. rewrite Er. cbn [app]. eauto. }
    exists (q ++ sep ++ b), x, r0. split; [now rewrite Et, Er, <- !app_assoc|]. split; [exact Hx|]. split; [now rewrite Ep, <- !app_assoc|].
    split. { intros K. apply app_eq_nil in K. destruct K as [_ K]. apply app_eq_nil in K. tauto. }
    split.
    { intros r'. destruct NN as [NN|NN]; [left; rewrite <- app_assoc; now apply numeric_app|]. right. split; [|exact NN].
      destruct (C _ (HD r') (HU r')) as (_ & CU & _). rewrite <- !app_assoc in *. now apply CU. }
    intros s' r' ->. destruct (C _ (HD r') (HU r')) as (CP & _). rewrite <- !app_assoc in *. eapply sp_later; [exact CP|exact T|destruct b; discriminate|].
    apply HR. now rewrite <- !app_assoc.
Qed.
Lemma rejected_final ws ws' s t p : white_space ws -> white_space ws' -> no_white_ahead s -> no_white_ahead t -> utf8 s = true -> utf8 t = true ->
  rejected du table (ws ++ s) (no_exponent_error p) -> firstn (S p) t = firstn (S p) s -> rejected du table (ws' ++ t) (no_exponent_error p).
Proof.
  intros W W' Ns Nt Us Ut (w1 & s0 & w2 & E & A1 & A2 & T0 & R) T. destruct R as [[_ R]|(_ & _ & R)]; [discriminate|].
  destruct (span_final s0 s0 p R [] eq_refl) as (b & x & r & E0 & Hx & Ep & Nb & HU & F). cbn [app] in Ep, F.
  apply trim_same in E; try assumption; [|rewrite E0; destruct b; discriminate]. subst s p. rewrite E0, <- app_assoc in T. cbn [app] in T.
  destruct (same_start b x (r ++ w2) t T) as (r' & ->). destruct (trim_nw _ Ut Nt) as (t0 & w & Et & Ww & Tt).
  destruct (keeps_start b x r' t0 w (e_not_white x Hx) Ww Et) as (r1 & Et0).
  exists ws', t0, w. split; [now rewrite Et|]. split; [exact W'|]. split; [exact Ww|]. split; [exact Tt|]. right. subst t0.
  split; [destruct b; discriminate|]. split; [|now apply F].
  intros K. destruct (HU r1) as [(y & k & E & Hy)|((v & u & q & E & Hv & He) & _)].
  - rewrite K in E. injection E as <- _. unfold sign, digit in Hy. lia.
  - rewrite K in E. destruct q as [|y q]; [rewrite app_nil_r in E; subst v; exact (Hinf u Hv)|].
    assert (I : In y (%"infinity")) by (rewrite E; apply in_or_app; right; now left). specialize (He y q eq_refl). unfold white, digit, sign in He.
    cbn in I. lia.
Qed.
End Spans.

Lemma no_infinity_unit u : ~ denotes systemd_units (%"infinity") u /\ ~ denotes systemd_nanos_units (%"infinity") u.
Proof.
  split; intros K; [assert (G : u_get sd_TIME_UNITS (%"infinity") = Some (u, Mul 1 0)) by (apply sd_get_spec; auto)
                   |assert (G : u_get sd_TIME_UNITS_WITH_NANOS (%"infinity") = Some (u, Mul 1 0)) by (apply sd_get_nanos_spec; auto)]; discriminate G.
Qed.
(** likewise for time spans, whatever the default unit and the maximum *)
Theorem C100_systemd : forall q u max ws ws' s t p, made q u -> is_negative max = false ->
  white_space ws -> white_space ws' -> no_white_ahead s -> no_white_ahead t -> utf8 s = true -> utf8 t = true -> firstn (S p) t = firstn (S p) s ->
  (sd_parse_with_max q (ws ++ s) max = Err (Syntax p (%"No exponent allowed")) -> sd_parse_with_max q (ws' ++ t) max = Err (Syntax p (%"No exponent allowed"))) /\
  (sd_parse_nanos_with_max q (ws ++ s) max = Err (Syntax p (%"No exponent allowed")) -> sd_parse_nanos_with_max q (ws' ++ t) max = Err (Syntax p (%"No exponent allowed"))).
Proof.
  intros q u max ws ws' s t p Hq Nm W W' Ns Nt Us Ut T. assert (Us' : utf8 (ws ++ s) = true) by now rewrite white_utf8. assert (Ut' : utf8 (ws' ++ t) = true) by now rewrite white_utf8.
  split; intros H.
  - apply (C78_errors q u) in H; auto. apply (C78_errors q u); auto. apply (rejected_final u systemd_units systemd_words_ok (fun v => proj1 (no_infinity_unit v)) ws ws' s t p); auto.
  - apply (C78_nanos_errors q u) in H; auto. apply (C78_nanos_errors q u); auto. apply (rejected_final u systemd_nanos_units systemd_nanos_words_ok (fun v => proj2 (no_infinity_unit v)) ws ws' s t p); auto.
Qed.
Print Assumptions C100_systemd.
Example C100_systemd_example : sd_parse sd_new (%"2h 3.5e") = Err (Syntax 6 (%"No exponent allowed")) /\ sd_parse sd_new (%" 2h 3.5e1 foo") = Err (Syntax 6 (%"No exponent allowed")) /\
  sd_parse sd_new (%"2h 3.5") = Ok (Dur false (Std 7203 500000000)).
Proof. split; [|split]; reflexivity. Qed.
