(** * C86: the text in front of an error is all right (fundu-systemd) *)
From Verif Require Import Prelude Time Config Parse SpecTime SpecNum SpecParse SpecValue SpecGrammar SpecErrors SpecSpelling SpecSystemd SpecSystemdErrors
  Utf8Proofs TimeProofs NumProofs SafeProofs RefGrammar ErrorProofs StandardProofs Systemd SystemdProofs SystemdSpan SystemdExact SystemdErrors
  PropParse PropErrors PropSystemd PropSystemdExact PropSystemdErrors PropGnuPrefix ExEnv.

Section Systemd.
Context (du : time_unit) (table : list (time_unit * list str)).
Hypothesis Hword : forall w u, denotes table w u -> w <> [] /\ starts_not is_e w /\ utf8 w = true /\
  forall x, In x w -> ~ white x /\ is_digit x = false /\ is_sign x = false /\ is_dot x = false.

Definition numeric (l : str) : Prop := exists x r, l = x :: r /\ (sign x \/ digit x \/ x = 46).
Lemma numeric_no_unit l : numeric l -> ~ unit_ahead table l.
Proof.
  intros (x & r & -> & H) (w & u & r' & E & Hw & _). destruct (Hword w u Hw) as (N & _ & _ & A). destruct w as [|y w]; [congruence|]. injection E as <- _.
  destruct (A x (or_introl eq_refl)) as (_ & A1 & A2 & A3). unfold sign, digit in H. unfold is_digit, is_sign, is_dot, inb in *. lia.
Qed.

Definition kept (t pre : str) : Prop :=
  (exists q, t = pre ++ q) /\
  (pre = [] \/
   (numeric pre \/ unit_ahead table pre /\ unit_ahead table t) /\
   ((exists r v, any_span du table (pre ++ r) v) \/
    (exists a y, pre = a ++ [y] /\ ~ white y) /\ (exists x l, t = pre ++ x :: l /\ 0 <= x <= 127) /\ forall S, span_error du table S pre NegativeNumber)).

Lemma numeric_sign sg n l : sign_text sg n -> sg <> [] -> numeric (sg ++ l).
Proof. intros [| |] N; [congruence| |]; cbn [app bytes_of]; eexists _, _; (split; [reflexivity|left; vm_compute; auto]). Qed.
Lemma numeric_number W fr F l : digit_string W -> fraction_text fr F -> W ++ F <> [] -> numeric (W ++ fr ++ l).
Proof.
  intros DW DF N. destruct W as [|x W]; [|exists x, (W ++ fr ++ l); split; [reflexivity|right; left; exact (DW x (or_introl eq_refl))]].
  destruct DF as [|F]; [now elim N|]. exists 46, (F ++ l). split; [reflexivity|now right; right].
Qed.
Lemma zero_tiny n u : n = true -> tiny u (%"0") [].
Proof. intros _. unfold tiny. destruct u; vm_compute; reflexivity. Qed.
Lemma zero_span sg n : sign_text sg n -> exists v, any_span du table (sg ++ %"0") v.
Proof.
  intros H. eexists. eapply any_last. apply (any_number du table sg n (%"0") [] []); auto.
  - intros x [<-|[]]. vm_compute. split; discriminate.
  - constructor.
  - discriminate.
  - apply zero_tiny.
Qed.
Lemma kept_sign t sg n l : t = sg ++ l -> sign_text sg n -> kept t sg.
Proof.
  intros E H. split; [now exists l|]. destruct sg as [|x sg]; [now left|right]. split.
  - left. rewrite <- (app_nil_r (x :: sg)). apply numeric_sign with n; [exact H|discriminate].
  - left. exists (%"0"). apply zero_span with n. exact H.
Qed.

Lemma piece_error_kept S t e : piece_error du table S t e -> (exists before, S = before ++ t) ->
  match e with
  | Syntax p _ | TimeUnitErr p _ => exists pre, (p + length t = length S + length pre)%nat /\ kept t pre
  | InvalidInput l => exists pre, t = pre ++ l /\ kept t pre
  | _ => True
  end.
Proof.
  intros H (b & ES).
  destruct H as [x -> Hx|l (sg & n & E & Hs & Nl & S0) Hd|W fr F x l (sg & n & E & Hs & Nl & S0) DW DF N Hx|l (sg & n & E & Hs & Nl & S0) Nd Np Nu|u W F r P T]; [| | | |exact I].
  - exists [x]. split; [lia|]. destruct Hx as [->| ->]; [apply (kept_sign _ (%"+") false [] eq_refl)|apply (kept_sign _ (%"-") true [] eq_refl)]; constructor.
  - exists sg. split; [|now apply kept_sign with n (46 :: l)]. unfold offset_of. subst. rewrite !app_length. lia.
  - exists (sg ++ W ++ fr). split. { unfold offset_of. subst. rewrite !app_length. lia. }
    split; [exists (x :: l); subst; now rewrite <- !app_assoc|right].
    assert (NN : numeric (sg ++ W ++ fr)).
    { destruct sg as [|y sg]; [|apply numeric_sign with n; [exact Hs|discriminate]]. cbn [app]. rewrite <- (app_nil_r fr). now apply numeric_number with F. }
    split; [now left|]. assert (D : tiny du W F \/ ~ tiny du W F) by (unfold tiny; lia).
    assert (D' : (n = true -> tiny du W F) \/ (n = true /\ ~ tiny du W F)) by (destruct D; [left; auto|destruct n; [right; auto|left; discriminate]]).
    destruct D' as [D'|[-> D']]; [left|right].
    + exists []. eexists. rewrite app_nil_r. eapply any_last. eapply any_number; eauto.
    + split; [|split; [exists x, l; split; [subst; now rewrite <- !app_assoc|lia]|]].
      * assert (L : sg ++ W ++ fr <> []) by (intros K; rewrite K in NN; destruct NN as (? & ? & NN & _); discriminate). destruct (exists_last L) as (a & y & Ey). exists a, y. split; [exact Ey|].
        assert (I : In y (W ++ fr)).
        { assert (L1 : W ++ fr <> []) by (destruct W; [destruct DF; [now elim N|discriminate]|discriminate]). destruct (exists_last L1) as (a' & y' & Ey'). rewrite Ey' in Ey. rewrite app_assoc in Ey.
          apply app_inj_tail in Ey. destruct Ey as [_ <-]. rewrite Ey'. apply in_or_app. right. now left. }
        apply in_app_or in I. destruct I as [I|I]; [apply DW in I; unfold white; lia|]. destruct DF as [|F HF]; [destruct I|]. cbn [app bytes_of] in I; destruct I as [<-|I]; [vm_compute; intros [K|[K1 K2]]; [discriminate|now elim K2]|apply HF in I; unfold white; lia].
      * intros S'. apply sp_here. apply (pe_negative _ _ _ _ du W F []); [|exact D']. pose proof (pc_number du table sg true W fr F [] []) as X. cbn [app] in X. rewrite app_nil_r in X.
        apply X; auto; try (intros ? ? K; discriminate). -- intros ? []. -- intros (w & u & r & Er & Hw & _). destruct (Hword w u Hw) as (Nw & _). destruct w; [congruence|discriminate].
  - exists sg. split; [exact E|]. now apply kept_sign with n l.
Qed.

(** a part without its end *)
Lemma piece_cut t n u W F r : piece du table t n u W F r -> (n = true -> tiny u W F) ->
  exists p b pt v sep, t = (p ++ sep) ++ r /\ any_part du table p b pt v /\ white_space sep /\
    (numeric p \/ unit_ahead table t) /\
    (forall r', (exists x a, r' = x :: a /\ (sign x \/ exists a', r = x :: a')) ->
       (numeric r' \/ unit_ahead table r' /\ unit_ahead table r) ->
       piece du table ((p ++ sep) ++ r') n u W F r' /\ (unit_ahead table t -> unit_ahead table ((p ++ sep) ++ r')) /\
       forall x a, r' = x :: a -> may_follow b pt sep x).
Proof.
  assert (SW : forall x (a r : str), starts_without white r -> sign x \/ (exists a', r = x :: a') -> starts_without white (x :: a)).
  { intros x a r0 S [H|(a' & ->)] y b [= <- <-]; [unfold sign, white in *; lia|exact (S x a' eq_refl)]. }
  assert (WE : forall x (a sep r : str), word_ends (sep ++ r) -> sign x \/ (exists a', r = x :: a') -> word_ends (sep ++ x :: a)).
  { intros x a sep r0 S H y b E. destruct sep as [|z sep]; cbn [app] in *.
    - injection E as <- <-. destruct H as [H|(a' & ->)]; [auto|exact (S x a' eq_refl)].
    - injection E as <- <-. exact (S z (sep ++ r0) eq_refl). }
  assert (MF : forall x (sep r : str), white_space sep -> starts_without white r -> word_ends (sep ++ r) -> sign x \/ (exists a', r = x :: a') -> forall pt, may_follow true pt sep x).
  { intros x sep r0 Ws Sw S H pt. unfold may_follow. destruct sep as [|z sep]; [|right; right; right; left; split; [reflexivity|discriminate]].
    destruct H as [H|(a' & ->)]; [unfold sign in H; tauto|]. destruct (S x a' eq_refl) as [K|[K|K]]; [elim (Sw x a' eq_refl K)| |unfold sign in K; tauto]. right. right. left. split; [exact K|now left]. }
  intros [sg m W0 fr F0 gap w u0 sep r0 Hs DW DF N Hg Hw He Hsep Hr|sg m W0 fr F0 sep r0 Hs DW DF N He Hsep Hr Nu|sg m w u0 sep r0 Hs Hw He Hsep Hr] T.
  - exists (sg ++ W0 ++ fr ++ gap ++ w). do 3 eexists. exists sep. split; [now rewrite <- !app_assoc|]. split; [eapply any_number_unit; eassumption|]. split; [exact Hsep|].
    assert (NN : numeric (sg ++ W0 ++ fr ++ gap ++ w)).
    { destruct sg as [|y sg]; [exact (numeric_number W0 fr F0 (gap ++ w) DW DF N)|apply numeric_sign with m; [exact Hs|discriminate]]. }
    split; [now left|].
    intros r' (x & a & -> & HX) _. split; [rewrite <- !app_assoc; econstructor; eauto|]. split.
    + intros K. exfalso. revert K. apply numeric_no_unit. destruct NN as (y & q & E & Hy). exists y, (q ++ sep ++ r0). split; [|exact Hy]. change (y :: q ++ sep ++ r0) with ((y :: q) ++ sep ++ r0). rewrite <- E, <- !app_assoc. reflexivity.
    + intros x' a' [= <- <-]. eapply MF; eauto.
  - exists (sg ++ W0 ++ fr). do 3 eexists. exists sep. split; [now rewrite <- !app_assoc|]. split; [eapply any_number; eassumption|]. split; [exact Hsep|].
    assert (NN : numeric (sg ++ W0 ++ fr)).
    { destruct sg as [|y sg]; [rewrite <- (app_nil_r fr); exact (numeric_number W0 fr F0 [] DW DF N)|apply numeric_sign with m; [exact Hs|discriminate]]. }
    split; [now left|].
    intros r' (x & a & -> & HX) HU. destruct HU as [HU|[_ HU]]; [|contradiction]. split.
    { rewrite <- !app_assoc. econstructor; eauto; [|now apply numeric_no_unit].
      intros y b E. destruct sep as [|z sep]; cbn [app] in *.
      - injection E as <- <-. destruct HX as [H|(a' & ->)]; [unfold sign, digit in *; lia|exact (He x a' eq_refl)].
      - injection E as <- <-. exact (He z (sep ++ r0) eq_refl). }
    split.
    + intros K. exfalso. revert K. apply numeric_no_unit. destruct NN as (y & q & E & Hy). exists y, (q ++ sep ++ r0). split; [|exact Hy]. change (y :: q ++ sep ++ r0) with ((y :: q) ++ sep ++ r0). rewrite <- E, <- !app_assoc. reflexivity.
    + intros x' a' [= <- <-]. destruct HU as (x' & a2 & [= <- <-] & HU). unfold may_follow. destruct HX as [H|(a' & ->)]; [unfold sign in H; tauto|].
      destruct HU as [H|[H|H]]; [unfold sign in H; tauto| |].
      * right. right. left. split; [exact H|]. right. intros ->. destruct (He x a' eq_refl) as (K & _). contradiction.
      * right. right. right. right. split; [reflexivity|]. split; [exact H|]. destruct sep as [|z sep]; [left|right; discriminate]. destruct (He x a' eq_refl) as (_ & _ & _ & K). destruct fr; [elim (K eq_refl H)|reflexivity].
  - assert (PT : plus_text sg /\ m = false).
    { destruct Hs; [split; [now left|reflexivity]|split; [now right|reflexivity]|]. exfalso. specialize (T eq_refl). revert T. unfold tiny. destruct u0; vm_compute; discriminate. }
    destruct PT as [PT ->].
    exists (sg ++ w). do 3 eexists. exists sep. split; [now rewrite <- !app_assoc|]. split; [exact (any_unit du table sg w u0 PT Hw)|]. split; [exact Hsep|].
    split. { destruct sg as [|y sg]; [right|left; apply numeric_sign with false; [exact Hs|discriminate]]. exists w, u0, (sep ++ r0). auto. }
    intros r' (x & a & -> & HX) _. split; [rewrite <- !app_assoc; econstructor; eauto|]. split.
    + intros K. destruct sg as [|y sg]; [|exfalso; revert K; apply numeric_no_unit; apply numeric_sign with false; [exact Hs|discriminate]].
      exists w, u0, (sep ++ x :: a). cbn [app]. rewrite <- app_assoc. split; [reflexivity|]. split; [exact Hw|]. eapply WE; eauto.
    + intros x' a' [= <- <-]. eapply MF; eauto.
Qed.

Lemma numeric_app a b : numeric a -> numeric (a ++ b).
Proof. intros (x & r & -> & H). exists x, (r ++ b). auto. Qed.
Lemma one_span : exists v, any_span du table (%"+0") v.
Proof. exact (zero_span (%"+") false st_plus). Qed.

Lemma kept_later t n u W F r pre : piece du table t n u W F r -> (n = true -> tiny u W F) -> kept r pre -> exists p, t = p ++ r /\ kept t (p ++ pre).
Proof.
  intros P T ((q & Er) & K). destruct (piece_cut _ _ _ _ _ _ P T) as (p & b & pt & v & sep & Et & A & Hsep & NN & C).
  exists (p ++ sep). split; [exact Et|]. split; [exists q; rewrite Et, Er; apply app_assoc|right].
  assert (Np : forall l, numeric p -> numeric ((p ++ sep) ++ l)) by (intros l H; rewrite <- app_assoc; now apply numeric_app).
  destruct K as [->|(K1 & K2)].
  - rewrite app_nil_r. destruct (C (%"+0")) as (_ & CU & CM).
    { exists 43, (%"0"). split; [reflexivity|]. left. now left. }
    { left. exists 43, (%"0"). split; [reflexivity|]. left. now left. }
    split.
    + destruct NN as [NN|NN]; [left; now apply numeric_app|right]. split; [|exact NN].
      (* the white space, or the end, ends the word *)
      specialize (CU NN). destruct CU as (w & u' & r' & E & Hw & He). destruct (Hword w u' Hw) as (_ & _ & _ & HA).
      destruct (app_eq_app _ _ _ _ E) as (k & [[E1 E2]|[E1 E2]]).
      * exists w, u', k. split; [exact E1|]. split; [exact Hw|]. intros x l ->. rewrite E2 in He. exact (He x (l ++ %"+0") eq_refl).
      * destruct k as [|x k]; [exists w, u', []; split; [rewrite app_nil_r in E1 |- *; congruence|split; [exact Hw|intros ? ? X; discriminate]]|].
        exfalso. injection E2 as <- _. destruct (HA 43) as (_ & _ & X & _); [rewrite E1; apply in_or_app; right; now left|]. discriminate.
    + left. destruct one_span as (v1 & O). exists (%"+0"). eexists. rewrite <- app_assoc. eapply any_more; [exact A|exact Hsep|exact O|]. now left.
  - assert (Hne : exists x a, pre = x :: a).
    { destruct pre as [|x a]; [|eauto]. exfalso. destruct K1 as [(x & r' & E & _)|[(w & u' & r' & E & Hw & _) _]]; [discriminate|]. destruct (Hword w u' Hw) as (Nw & _). destruct w; [congruence|discriminate]. }
    destruct Hne as (x & a & ->). destruct (C (x :: a)) as (CP & CU & CM).
    { exists x, a. split; [reflexivity|]. right. exists (a ++ q). exact Er. }
    { exact K1. }
    split; [destruct NN as [NN|NN]; [left; auto|right; auto]|].
    destruct K2 as [(r1 & v1 & K2)|((b1 & y & E1 & Hy) & (x1 & l1 & E2 & Hx1) & K2)]; [left|right].
    + exists r1. eexists. rewrite <- !app_assoc. cbn [app] in *. eapply any_more; [exact A|exact Hsep|exact K2|]. exact (CM x a eq_refl).
    + split; [exists ((p ++ sep) ++ b1), y; rewrite E1, <- !app_assoc; auto|]. split; [exists x1, l1; rewrite Et, E2, <- !app_assoc; auto|].
      intros S. apply sp_later with n u W F (x :: a); [exact CP|exact T|discriminate|apply K2].
Qed.

Lemma span_error_kept S t e : span_error du table S t e -> (exists before, S = before ++ t) ->
  match e with
  | Syntax p _ | TimeUnitErr p _ => exists pre, (p + length t = length S + length pre)%nat /\ kept t pre
  | InvalidInput l => exists pre, t = pre ++ l /\ kept t pre
  | _ => True
  end.
Proof.
  induction 1 as [t e H|t n u W F r e P T N H IH]; intros (b & ES); [apply piece_error_kept; eauto|].
  assert (E : exists p, t = p ++ r) by (destruct P; rewrite ?app_assoc; eauto). destruct E as (p0 & E).
  assert (G : forall p', (exists pre, (p' + length r = length S + length pre)%nat /\ kept r pre) -> exists pre, (p' + length t = length S + length pre)%nat /\ kept t pre).
  { intros p' (pre & L & K). destruct (kept_later _ _ _ _ _ _ _ P T K) as (p & E1 & K'). exists (p ++ pre). split; [|exact K']. rewrite E1, !app_length in *. lia. }
  assert (EB : exists before, S = before ++ r) by (exists (b ++ p0); rewrite ES, E; apply app_assoc). specialize (IH EB).
  destruct e; auto. destruct IH as (pre & E1 & K). destruct (kept_later _ _ _ _ _ _ _ P T K) as (p & E2 & K'). exists (p ++ pre). split; [|exact K']. rewrite E2, E1. apply app_assoc.
Qed.

Lemma any_part_utf8 l b pt v : any_part du table l b pt v -> utf8 l = true.
Proof.
  assert (A : forall sg n r, sign_text sg n -> utf8 r = true -> utf8 (sg ++ r) = true).
  { intros sg n r [| |] U; [exact U| |]; rewrite utf8_app by reflexivity; exact U. }
  assert (D : forall W r, digit_string W -> utf8 r = true -> utf8 (W ++ r) = true).
  { intros W r H U. induction W as [|x W IH]; [exact U|]. cbn [app]. rewrite utf8_cons_ascii; [apply IH; intros y Hy; apply H; now right|]. specialize (H x (or_introl eq_refl)). lia. }
  assert (Fr : forall fr F r, fraction_text fr F -> utf8 r = true -> utf8 (fr ++ r) = true).
  { intros fr F r [|F0 HF] U; [exact U|]. rewrite <- app_assoc. rewrite utf8_app by reflexivity. exact (D F0 r HF U). }
  destruct 1 as [sg n W fr F gap w u Hs DW DF N Hg Hw T|sg n W fr F Hs DW DF N T|sg w u Hp Hw].
  - apply A with n; auto. apply D; auto. apply Fr with F; auto. rewrite white_utf8 by assumption. apply (Hword w u Hw).
  - apply A with n; auto. apply D; auto. rewrite <- (app_nil_r fr). apply Fr with F; auto.
  - destruct Hp as [->| ->]; [exact (proj1 (proj2 (proj2 (Hword w u Hw))))|]. rewrite utf8_app by reflexivity. apply (Hword w u Hw).
Qed.
Lemma any_span_utf8 l v : any_span du table l v -> utf8 l = true.
Proof.
  induction 1 as [l b pt v P|l b pt v sep x rest v' P Hs H IH Hm]; [eapply any_part_utf8; eauto|].
  rewrite utf8_app by (eapply any_part_utf8; eauto). rewrite white_utf8 by assumption. exact IH.
Qed.
End Systemd.

(** the text can be continued to a time span, but for its sign *)
Lemma kept_continues u tu table max t pre : env_ok (sd_with_default_unit u) tu None None ->
  (forall id u m, u_get tu id = Some (u, m) <-> m = Mul 1 0 /\ denotes table id u) -> u_is_empty tu = false ->
  (forall w u, denotes table w u -> w <> [] /\ starts_not is_e w /\ utf8 w = true /\
    forall x, In x w -> ~ white x /\ is_digit x = false /\ is_sign x = false /\ is_dot x = false) ->
  u_get tu (%"infinity") = None -> duration_ok max -> is_negative max = false -> utf8 t = true -> trimmed t -> kept u table t pre ->
  exists r, utf8 (pre ++ r) = true /\ ((exists d, common u tu (pre ++ r) max = Ok d) \/ common u tu (pre ++ r) max = Err NegativeNumber).
Proof.
  intros Henv Hget Hemp Hword Hinf Om Nm U Tr ((q & Eq) & K).
  assert (A : forall r v, any_span u table (pre ++ r) v -> exists r, utf8 (pre ++ r) = true /\ ((exists d, common u tu (pre ++ r) max = Ok d) \/ common u tu (pre ++ r) max = Err NegativeNumber)).
  { intros r v H. exists r. pose proof (any_span_utf8 u table Hword _ _ H) as U1. split; [exact U1|left].
    destruct (any_span_components u tu table Hget Hemp Hword _ v H) as (ds & C & Hd & V & E).
    assert (Ni : pre ++ r <> %"infinity").
    { intros Ei. rewrite Ei in C. destruct (C23_multiple_complete _ _ _ _ _ _ Henv (sd_delims_ok u) (eq_refl : utf8 (%"infinity") = true) eq_refl C) as (D' & P & _).
      { intros x Hx. right. now apply Hd. }
      exact (infinity_rejected u tu Henv Hinf _ P). }
    destruct (common_complete u tu Henv _ ds max U1 (any_span_trimmed u tu table Hget Hword _ v H) Ni Om Nm C) as (d' & P & _).
    { intros x Hx. now apply Hd. }
    now exists d'. }
  destruct K as [->|(K1 & [(r & v & K2)|((a & y & Ey & Hy) & (x & l & Ex & Hx) & K2)])].
  - destruct (one_span u table) as (v & O). exact (A (%"+0") v O).
  - exact (A r v K2).
  - exists []. rewrite app_nil_r. rewrite Ex in U. destruct (utf8_cut _ _ _ U Hx) as [U1 _]. split; [exact U1|right].
    apply (common_errors u tu table Henv Hget Hemp Hword); auto. exists [], pre, []. split; [now rewrite app_nil_r|]. split; [intros z []|]. split; [intros z []|].
    assert (Np : pre <> []) by (rewrite Ey; now destruct a). split; [split|right].
    + intros z r Ez. destruct Tr as [T1 _]. apply (T1 z (r ++ q)). rewrite Eq, Ez. reflexivity.
    + intros z r Ez. rewrite Ey in Ez. apply app_inj_tail in Ez. destruct Ez as [_ <-]. exact Hy.
    + split; [exact Np|]. split; [|apply K2]. intros Ei. rewrite Ei in K1. destruct K1 as [(z & r & Ez & Hz)|[(w & u' & r & Ew & Hw & He) _]].
      * injection Ez as <- _. unfold sign, digit in Hz. lia.
      * assert (Eu : u_get tu w = Some (u', Mul 1 0)) by now apply Hget. destruct r as [|z r]; [rewrite app_nil_r in Ew; rewrite <- Ew in Eu; congruence|].
        assert (I : In z (%"infinity")) by (rewrite Ew; apply in_or_app; right; now left). destruct (He z r eq_refl) as [Hz|[Hz|Hz]]; cbn in I; unfold white, digit, sign in Hz; lia.
Qed.

(** ** C86: time spans. [t] is the text without the white space around it, which positions refer to (C78_position_in_input_refuted). *)
Definition in_front (run : str -> res duration) (t : str) (s : str) : Prop :=
  let all_right := fun pre => exists r, utf8 (pre ++ r) = true /\ ((exists d, run (pre ++ r) = Ok d) \/ run (pre ++ r) = Err NegativeNumber) in
  (forall p m, run s = Err (Syntax p m) \/ run s = Err (TimeUnitErr p m) -> (p <= length t)%nat /\ all_right (firstn p t)) /\
  (forall l, run s = Err (InvalidInput l) -> exists pre, t = pre ++ l /\ all_right pre).
Lemma common_in_front u tu table max ws1 t ws2 : env_ok (sd_with_default_unit u) tu None None ->
  (forall id u m, u_get tu id = Some (u, m) <-> m = Mul 1 0 /\ denotes table id u) -> u_is_empty tu = false ->
  (forall w u, denotes table w u -> w <> [] /\ starts_not is_e w /\ utf8 w = true /\
    forall x, In x w -> ~ white x /\ is_digit x = false /\ is_sign x = false /\ is_dot x = false) ->
  u_get tu (%"infinity") = None -> duration_ok max -> is_negative max = false -> utf8 t = true -> white_space ws1 -> white_space ws2 -> trimmed t ->
  in_front (fun s => common u tu s max) t (ws1 ++ t ++ ws2).
Proof.
  intros Henv Hget Hemp Hword Hinf Om Nm U W1 W2 T. unfold in_front. cbv zeta. rewrite common_around by assumption.
  assert (E : forall e, common u tu t max = Err e -> e = Empty \/ span_error u table t t e).
  { intros e H. apply (common_text_errors u tu table Henv Hget Hemp Hword) in H; auto. destruct H as [[_ ->]|(_ & _ & H)]; auto. }
  split.
  - intros p m H. assert (K : exists pre, (p + length t = length t + length pre)%nat /\ kept u table t pre).
    { destruct H as [H|H]; apply E in H; (destruct H as [H|H]; [discriminate|]); exact (span_error_kept u table Hword _ _ _ H (ex_intro _ [] eq_refl)). }
    destruct K as (pre & L & K). pose proof K as ((q & Eq) & _). assert (p = length pre) as -> by lia. split; [rewrite Eq, app_length; lia|].
    assert (firstn (length pre) t = pre) as -> by (rewrite Eq, firstn_app, firstn_all, Nat.sub_diag, firstn_O; apply app_nil_r).
    apply (kept_continues u tu table max t pre); assumption.
  - intros l H. apply E in H. destruct H as [H|H]; [discriminate|]. destruct (span_error_kept u table Hword _ _ _ H (ex_intro _ [] eq_refl)) as (pre & Eq & K).
    exists pre. split; [exact Eq|]. apply (kept_continues u tu table max t pre); assumption.
Qed.

Theorem C86_systemd : forall p u max ws1 t ws2, made p u -> duration_ok max -> is_negative max = false -> utf8 t = true ->
  white_space ws1 -> white_space ws2 -> trimmed t ->
  in_front (fun s => sd_parse_with_max p s max) t (ws1 ++ t ++ ws2) /\ in_front (fun s => sd_parse_nanos_with_max p s max) t (ws1 ++ t ++ ws2).
Proof.
  intros p u max ws1 t ws2 ->%made_is Om Nm U W1 W2 T. split.
  - apply (common_in_front u (sd_TIME_UNITS) systemd_units); auto; [apply sd_env_ok|exact sd_get_spec|exact systemd_words_ok].
  - apply (common_in_front u (sd_TIME_UNITS_WITH_NANOS) systemd_nanos_units); auto; [apply sd_env_nanos_ok|exact sd_get_nanos_spec|exact systemd_nanos_words_ok].
Qed.
Print Assumptions C86_systemd.
Theorem C86_systemd_default : forall p u ws1 t ws2, made p u -> utf8 t = true -> white_space ws1 -> white_space ws2 -> trimmed t ->
  in_front (sd_parse p) t (ws1 ++ t ++ ws2) /\ in_front (sd_parse_nanos p) t (ws1 ++ t ++ ws2).
Proof.
  intros p u ws1 t ws2 Hp U W1 W2 T. destruct C37_maxima as (a & b & Ea & Eb & Oa & Ob & Na & Nb & _).
  pose proof (proj1 (C86_systemd p u a ws1 t ws2 Hp Oa Na U W1 W2 T)) as X. pose proof (proj2 (C86_systemd p u b ws1 t ws2 Hp Ob Nb U W1 W2 T)) as Y.
  unfold sd_parse, sd_parse_nanos. rewrite Ea, Eb. cbn [bind]. split; assumption.
Qed.
Print Assumptions C86_systemd_default.
Example C86_systemd_example :
  sd_parse sd_new (%" 1day -5e1 ") = Err (Syntax 7 (%"No exponent allowed")) /\ sd_parse sd_new (%"1day -5") = Err NegativeNumber /\
  sd_parse sd_new (%"2 hours .x") = Err (Syntax 8 (%"Either the whole number part or the fraction must be present")) /\
  sd_parse sd_new (%"2 hours " ++ %"+0") = Ok (Dur false (Std 7200 0)) /\
  sd_parse sd_new (%"2 hours 3x") = Err (InvalidInput (%"x")) /\ sd_parse sd_new (%"2 hours 3") = Ok (Dur false (Std 7203 0)).
Proof. repeat split. Qed.
