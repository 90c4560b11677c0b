(** * Documented time spans are in the grammar of the systemd parser *)
From Verif Require Import Prelude Time Config Parse SpecTime SpecNum SpecParse SpecValue SpecGrammar SpecSpelling SpecSystemd
  Utf8Proofs TimeProofs NumProofs ValueProofs SafeProofs RefGrammar StandardProofs Systemd SystemdProofs PropNum PropParse.

Lemma sum_fold ds : forall a, 0 <= a <= max_nanos -> (forall d, In d ds -> 0 <= nanos d) ->
  fold_left (fun a d => clamp_nanos (a + nanos d)) ds a = Z.min max_nanos (fold_left (fun a d => a + nanos d) ds a).
Proof.
  induction ds as [|d ds IH]; intros a Ha Hd; cbn [fold_left]; [lia|].
  assert (Hn : 0 <= nanos d) by (apply Hd; now left).
  assert (M : forall ds b c, b <= c -> fold_left (fun a d => a + nanos d) ds b <= fold_left (fun a d => a + nanos d) ds c).
  { clear. induction ds as [|d ds IH]; intros b c H; cbn; [exact H|]. apply IH. lia. }
  assert (L : forall ds b, (forall d, In d ds -> 0 <= nanos d) -> b <= fold_left (fun a d => a + nanos d) ds b).
  { clear. induction ds as [|d ds IH]; intros b H; cbn; [lia|]. specialize (IH (b + nanos d)).
    assert (0 <= nanos d) by (apply H; now left). assert (b + nanos d <= fold_left (fun a d => a + nanos d) ds (b + nanos d)).
    { apply IH. intros x Hx. apply H. now right. } lia. }
  assert (Hd' : forall d, In d ds -> 0 <= nanos d) by (intros x Hx; apply Hd; now right).
  unfold clamp_nanos, clamp. destruct (Z.le_gt_cases (a + nanos d) max_nanos) as [G|G].
  - rewrite Z.min_r, Z.max_r by (unfold max_nanos in *; lia). apply IH; [lia|exact Hd'].
  - rewrite Z.min_l, Z.max_r by (unfold max_nanos in *; lia). rewrite IH by (unfold max_nanos in *; try lia; exact Hd').
    pose proof (L ds (a + nanos d) Hd'). pose proof (L ds max_nanos Hd'). lia.
Qed.
Lemma fold_shift ds : forall a, fold_left (fun a d => a + nanos d) ds a = a + fold_left (fun a d => a + nanos d) ds 0.
Proof.
  induction ds as [|d ds IH]; intros a; cbn [fold_left]; [lia|]. rewrite (IH (a + nanos d)), (IH (0 + nanos d)). lia.
Qed.

(** the values *)
Lemma number_nanos W F u : digit_string W -> digit_string F -> (length F <= 18)%nat ->
  nanos (number_value false W F 0 u (Mul 1 0)) = Z.min max_nanos (unit_nanos u * dval (W ++ F) / 10 ^ Z.of_nat (length F)).
Proof.
  intros HW HF L. rewrite (number_value_nanos false W F 0 u (Mul 1 0) HW HF). cbv zeta.
  assert (Cp : 0 < coef (unit_length u)) by (destruct u; cbn; lia).
  cbn [coef expo]. rewrite Z.mul_1_r. replace (coef (unit_length u) <? 0) with false by lia. cbn [xorb signed_nanos].
  unfold magnitude. change 1000000000 with (10 ^ 9). rewrite C17_exact.
  2:{ destruct u; cbn [unit_length coef expo]; lia. }
  f_equal. rewrite Z.abs_eq by lia. generalize (dval (W ++ F)) as V. intros V.
  set (L' := Z.of_nat (length F)) in *. assert (HL : 0 <= L') by lia.
  assert (E : unit_nanos u = coef (unit_length u) * 10 ^ (9 + expo (unit_length u))) by (destruct u; reflexivity).
  rewrite E. set (cf := coef (unit_length u)). set (e := expo (unit_length u)).
  assert (He : -9 <= e <= 0) by (subst e; destruct u; cbn; lia).
  replace (9 + (e + 0 + 0 - L')) with (9 + e - L') by lia. unfold floor_scale10.
  destruct (Z.leb_spec 0 (9 + e - L')) as [G|G].
  - replace (cf * 10 ^ (9 + e) * V) with (cf * V * 10 ^ (9 + e - L') * 10 ^ L').
    + now rewrite Z.div_mul by (apply Z.pow_nonzero; lia).
    + rewrite <- Z.mul_assoc, <- Z.pow_add_r by lia. replace (9 + e - L' + L') with (9 + e) by lia. ring.
  - replace (cf * 10 ^ (9 + e) * V) with (cf * V * 10 ^ (9 + e)) by ring.
    replace (10 ^ L') with (10 ^ (- (9 + e - L')) * 10 ^ (9 + e)).
    + now rewrite Z.div_mul_cancel_r by (apply Z.pow_nonzero; lia).
    + rewrite <- Z.pow_add_r by lia. f_equal. lia.
Qed.
Lemma unit_value_nanos u : nanos (unit_value false u (Mul 1 0)) = unit_nanos u.
Proof. destruct u; reflexivity. Qed.

Lemma number_value_pos W F u : is_negative (number_value false W F 0 u (Mul 1 0)) = false.
Proof. unfold number_value, number_result. destruct (_ || _); [reflexivity|]. destruct u; reflexivity. Qed.
Lemma unit_nanos_pos u : 0 < unit_nanos u <= max_nanos.
Proof. destruct u; cbn; unfold max_nanos; lia. Qed.

Lemma dval_nonneg' W F : digit_string W -> digit_string F -> 0 <= dval (W ++ F).
Proof. intros H1 H2. apply dval_nonneg, digit_string_app. now split. Qed.

Lemma digit_not_white x : 48 <= x <= 57 -> ~ white x.
Proof. unfold white. lia. Qed.

Lemma digits_head W fr F l : digit_string W -> fraction_text fr F -> W ++ F <> [] ->
  starts_not is_sign (W ++ fr ++ l) /\ W ++ fr ++ l <> [] /\ (forall x r, W ++ fr ++ l = x :: r -> ~ white x).
Proof.
  intros HW HF N. destruct W as [|x W].
  - inversion HF; subst; [now elim N|]. cbn. split; [reflexivity|]. split; [discriminate|].
    intros x r E. injection E as <- _. unfold white. lia.
  - assert (48 <= x <= 57) by (apply HW; now left). cbn. split; [unfold is_sign; lia|]. split; [discriminate|].
    intros y r E. injection E as <- _. unfold white. lia.
Qed.

Section Spans.
Context (du : time_unit) (tu : units_like) (table : list (time_unit * list str)).
Hypothesis Hget : forall id u m, u_get tu id = Some (u, m) <-> m = Mul 1 0 /\ denotes table id u.
Hypothesis Hemp : u_is_empty tu = false.
(** what the words look like: letters, at least one, no e in front *)
Hypothesis Hword : forall w u, denotes table w u -> w <> [] /\ starts_not is_e w /\ utf8 w = true /\
  forall x, In x w -> ~ white x /\ is_digit x = false /\ is_sign x = false /\ is_dot x = false.

Notation c := (sd_with_default_unit du).

Lemma unit_end_iff x : unit_end c x = true <-> white x \/ is_digit x = true \/ is_sign x = true.
Proof.
  unfold unit_end, keyword_end, starts_duration. cbn [c_allow_ago c_outer_delimiter sd_with_default_unit set_default_unit sd_CONFIG
    set_outer_delimiter set_inner_delimiter set_allow_multiple set_number_is_optional set_disable_infinity set_disable_exponent
    set_allow_time_unit_delimiter config_new andb]. rewrite orb_false_r, !orb_true_iff, sd_delimiter_iff. tauto.
Qed.
Lemma starts_white l : starts_not sd_delimiter l <-> forall x r, l = x :: r -> ~ white x.
Proof.
  destruct l as [|x l]; cbn; split; intros H.
  - intros x r E. discriminate E.
  - exact I.
  - intros y r E W. injection E as <- <-. apply sd_delimiter_iff in W. congruence.
  - destruct (sd_delimiter x) eqn:E; [|reflexivity]. apply sd_delimiter_iff in E. elim (H x l eq_refl E).
Qed.

(** what may follow a part: nothing, or white space, or a digit or a sign; and where the next part then starts *)
Definition follows (b : bool) (tail next : str) : Prop :=
  (tail = [] /\ next = []) \/
  (exists sep x r, next = x :: r /\ tail = sep ++ next /\ white_space sep /\ ~ white x /\
     ((b = true /\ sep <> []) \/ ((b = true \/ sep <> []) /\ 48 <= x <= 57) \/ x = 43)).

Lemma follows_next b tail next : follows b tail next -> b = true -> next_component c tail next.
Proof.
  intros [[-> ->]|(sep & x & r & -> & -> & Hs & Hx & H)] ->.
  - apply nc_adjacent. exact I.
  - destruct sep as [|y sep].
    + apply nc_adjacent. cbn [app]. apply (starts_white (x :: r)). intros z r' E. injection E as <- <-. exact Hx.
    + apply nc_connection. apply (con_delimiter c _ (y :: sep)); try discriminate.
      * split; [reflexivity|]. split; [intros z Hz; apply sd_delimiter_iff; auto|].
        apply (starts_white (x :: r)). intros z r' E. injection E as <- <-. exact Hx.
      * intros w [].
Qed.
Lemma follows_end b tail next : follows b tail next -> b = true -> starts_not (fun x => negb (unit_end c x)) tail.
Proof.
  intros [[-> ->]|(sep & x & r & -> & -> & Hs & Hx & H)] ->; [exact I|].
  destruct sep as [|y sep]; cbn [app starts_not]; apply negb_false_iff, unit_end_iff.
  - destruct H as [[_ H]|[[_ H]| ->]]; [congruence| |].
    + right; left. unfold is_digit. lia.
    + right; right. reflexivity.
  - left. apply Hs. now left.
Qed.

Lemma word_unit w u tail next : denotes table w u -> follows true tail next ->
  multi_unit c tu (w ++ tail) u (Mul 1 0) next.
Proof.
  intros Hw Hf. destruct (Hword w u Hw) as (N & _ & _ & Hx). eapply mu_plain.
  - split; [reflexivity|]. split; [|exact (follows_end _ _ _ Hf eq_refl)].
    intros x Hi. cbn. apply negb_true_iff. destruct (unit_end c x) eqn:E; [|reflexivity]. apply unit_end_iff in E.
    destruct (Hx x Hi) as (H1 & H2 & H3 & _). destruct E as [E|[E|E]]; congruence || contradiction.
  - exact N.
  - apply Hget. now split.
  - intros r' (A & _). discriminate A.
  - intros A. discriminate A.
  - exact (follows_next _ _ _ Hf eq_refl).
Qed.

Lemma plus_signed sg l : plus_text sg -> l <> [] -> starts_not is_sign l -> signed c (sg ++ l) false l.
Proof.
  intros [-> | ->] N S; cbn [app bytes_of].
  - now apply unsigned.
  - change false with (43 =? 45). apply with_sign; auto.
Qed.

Lemma white_no_number gap rest : white_space gap -> (gap <> [] \/ ends_number rest) -> ends_number (gap ++ rest).
Proof.
  intros Hg H. destruct gap as [|x gap]; [destruct H; [congruence|exact H]|].
  assert (W : white x) by (apply Hg; now left). unfold ends_number, starts_not, is_digit, is_dot, is_e, white in *. cbn. lia.
Qed.

Lemma the_number W fr F gap rest : digit_string W -> fraction_text fr F -> W ++ F <> [] -> white_space gap ->
  ends_number (gap ++ rest) -> (gap = [] \/ rest <> []) -> (forall x r, rest = x :: r -> ~ white x) ->
  number c (W ++ fr ++ gap ++ rest) W F 0 rest.
Proof.
  intros HW HF N Hg (E1 & E2 & E3) Hr Hn. exists (fr ++ gap ++ rest), (gap ++ rest), (gap ++ rest).
  split; [split; [reflexivity|split]|split; [|split; [|split; [|exact N]]]].
  - intros x Hx. specialize (HW x Hx). unfold is_digit. lia.
  - inversion HF; subst; [exact E1|reflexivity].
  - inversion HF; subst; cbn [app bytes_of]; [now apply no_fraction|].
    apply some_fraction; [reflexivity|]. split; [reflexivity|]. split; [|exact E1].
    intros x Hx. match goal with D : digit_string F |- _ => specialize (D x Hx) end. unfold is_digit. lia.
  - now apply no_exponent.
  - eapply some_unit_delimiter; [reflexivity| |exact Hr].
    split; [reflexivity|]. split; [intros x Hx; apply sd_delimiter_iff; auto|]. now apply starts_white.
Qed.

Definition good (d : duration) (v : Z) : Prop := is_negative d = false /\ 0 <= v /\ nanos d = Z.min max_nanos v.

Lemma part_component s b v tail next : part du table s b v -> follows b tail next ->
  exists d, component c tu None None (s ++ tail) d next /\ good d v.
Proof.
  intros P Hf. destruct P as [sg W fr F gap w u H1 H2 H3 H4 H5 H6 H7|sg W fr F H1 H2 H3 H4 H5|sg w u H1 H2].
  - pose proof (fraction_text_digits _ _ H3) as HF. exists (number_value false W F 0 u (Mul 1 0)). split.
    + destruct (Hword w u H7) as (Nw & We & _ & Wx). rewrite <- !app_assoc.
      destruct (digits_head W fr F (gap ++ w ++ tail) H2 H3 H4) as (D1 & D2 & _).
      destruct w as [|y w]; [congruence|]. destruct (Wx y (or_introl eq_refl)) as (Y1 & Y2 & Y3 & Y4).
      eapply co_number_unit; [now apply plus_signed| |exact Hemp|apply word_unit; eassumption].
      apply the_number; auto.
      * apply white_no_number; [assumption|]. right. repeat split; assumption.
      * right. discriminate.
      * intros x r E. injection E as <- _. exact Y1.
    + split; [apply number_value_pos|]. split; [|now apply number_nanos].
      apply Z.div_pos; [|apply Z.pow_pos_nonneg; lia]. pose proof (dval_nonneg' W F H2 HF). pose proof (unit_nanos_pos u). nia.
  - pose proof (fraction_text_digits _ _ H3) as HF. exists (number_value false W F 0 du (Mul 1 0)). split.
    + rewrite <- !app_assoc. destruct (digits_head W fr F tail H2 H3 H4) as (D1 & D2 & _).
      assert (E : exists gap, tail = gap ++ next /\ white_space gap /\ ends_number (gap ++ next) /\ (gap = [] \/ next <> []) /\
                 (forall x r, next = x :: r -> ~ white x) /\ (forall x r, next = x :: r -> is_digit x = true \/ is_sign x = true)).
      { destruct Hf as [[-> ->]|(sep & x & r & -> & -> & Hs & Hx & H)].
        - exists []. cbn. repeat split; auto; try discriminate. intros x [].
        - exists sep. repeat split; auto.
          + apply white_no_number; [exact Hs|]. destruct sep; [right|left; discriminate].
            destruct H as [[H _]|[[[H|H] _]| ->]]; try congruence. repeat split.
          + apply white_no_number; [exact Hs|]. destruct sep; [right|left; discriminate].
            destruct H as [[H _]|[[[H|H] _]| ->]]; try congruence. repeat split.
          + apply white_no_number; [exact Hs|]. destruct sep; [right|left; discriminate].
            destruct H as [[H _]|[[[H|H] _]| ->]]; try congruence. repeat split.
          + right. discriminate.
          + intros y r' E. injection E as <- _. exact Hx.
          + intros y r' E. injection E as <- _. destruct H as [[H _]|[[_ H]| ->]]; [discriminate| |now right].
            left. unfold is_digit. lia. }
      destruct E as (gap & -> & E1 & E2 & E3 & E4 & E5).
      eapply co_number.
      * now apply plus_signed.
      * now apply the_number.
      * right. intros (w & l1 & U & Nw & G). destruct next as [|x r].
        { destruct U as (E & _). symmetry in E. apply app_eq_nil in E. destruct E. congruence. }
        destruct (until_head _ _ _ _ _ U Nw) as (Ex & _). destruct (unit_end c x) eqn:Eu; [discriminate|].
        assert (unit_end c x = true); [|congruence]. apply unit_end_iff. right. apply (E5 x r eq_refl).
      * apply nc_adjacent. now apply starts_white.
    + split; [apply number_value_pos|]. split; [|now apply number_nanos].
      apply Z.div_pos; [|apply Z.pow_pos_nonneg; lia]. pose proof (dval_nonneg' W F H2 HF). pose proof (unit_nanos_pos du). nia.
  - exists (unit_value false u (Mul 1 0)). split.
    + destruct (Hword w u H2) as (Nw & We & _ & Wx). rewrite <- !app_assoc.
      destruct w as [|y w]; [congruence|]. destruct (Wx y (or_introl eq_refl)) as (Y1 & Y2 & Y3 & Y4).
      eapply co_unit.
      * apply plus_signed; [exact H1|discriminate|exact Y3].
      * split; [exact Y2|]. split; [exact Y4|]. discriminate.
      * intros u' m' r' (k & w' & K & _). discriminate K.
      * reflexivity.
      * now apply word_unit.
    + split; [destruct u; reflexivity|]. pose proof (unit_nanos_pos u). split; [lia|]. rewrite unit_value_nanos. lia.
Qed.

Lemma part_head s b v : part du table s b v -> exists x r, s = x :: r /\ ~ white x.
Proof.
  assert (G : forall sg l, plus_text sg -> (exists x r, l = x :: r /\ ~ white x) -> exists x r, sg ++ l = x :: r /\ ~ white x).
  { intros sg l [-> | ->] H; [exact H|]. exists 43, l. split; [reflexivity|]. unfold white. lia. }
  assert (N : forall W fr F l, digit_string W -> fraction_text fr F -> W ++ F <> [] ->
     exists x r, W ++ fr ++ l = x :: r /\ ~ white x).
  { intros W fr F l H1 H2 H3. destruct (digits_head W fr F l H1 H2 H3) as (_ & D & E).
    destruct (W ++ fr ++ l) as [|x r]; [congruence|]. exists x, r. split; [reflexivity|]. now apply (E x r). }
  intros [sg W fr F gap w u H1 H2 H3 H4 H5 H6 H7|sg W fr F H1 H2 H3 H4 H5|sg w u H1 H2]; apply G; auto.
  - eapply N; eauto.
  - specialize (N W fr F []). rewrite !app_nil_r in N. eapply N; eauto.
  - destruct (Hword w u H2) as (Nw & _ & _ & Wx). destruct w as [|y w]; [congruence|].
    exists y, w. split; [reflexivity|]. apply (Wx y (or_introl eq_refl)).
Qed.
Lemma span_head s v : time_span du table s v -> exists x r, s = x :: r /\ ~ white x.
Proof.
  destruct 1 as [s b v H|s b v sep x r v' H]; destruct (part_head _ _ _ H) as (y & r' & -> & Hy); [eauto|].
  exists y, (r' ++ sep ++ x :: r). split; [reflexivity|exact Hy].
Qed.

Lemma span_components s v : time_span du table s v -> exists ds, components c tu None None s ds /\
  (forall d, In d ds -> is_negative d = false /\ 0 <= nanos d) /\ 0 <= v /\
  Z.min max_nanos (fold_left (fun a d => a + nanos d) ds 0) = Z.min max_nanos v.
Proof.
  induction 1 as [s b v P|s b v sep x r v' P Hs Hr IH Hc].
  - destruct (part_component s b v [] [] P) as (d & C & G1 & G2 & G3); [left; auto|]. rewrite app_nil_r in C.
    exists [d]. split; [now apply cs_last|]. split; [|split; [exact G2|cbn [fold_left]; lia]].
    intros y [<-|[]]. split; [exact G1|]. rewrite G3. unfold max_nanos. lia.
  - destruct IH as (ds & C & D & V & E).
    assert (Hx : ~ white x) by (destruct (span_head _ _ Hr) as (y & r' & Ey & Hy); injection Ey as <- <-; exact Hy).
    destruct (part_component s b v (sep ++ x :: r) (x :: r) P) as (d & C1 & G1 & G2 & G3).
    { right. exists sep, x, r. auto. }
    exists (d :: ds). split; [eapply cs_more; eauto; discriminate|]. split; [|split; [lia|]].
    + intros y [<-|Hy]; [|auto]. split; [exact G1|]. rewrite G3. unfold max_nanos. lia.
    + cbn [fold_left]. rewrite fold_shift, G3. 
      assert (0 <= fold_left (fun a d => a + nanos d) ds 0).
      { assert (L : forall l a, (forall d, In d l -> 0 <= nanos d) -> a <= fold_left (fun a d => a + nanos d) l a).
        { clear. induction l as [|d l IH]; intros a H; cbn; [lia|]. assert (0 <= nanos d) by (apply H; now left).
          assert (a + nanos d <= fold_left (fun a d => a + nanos d) l (a + nanos d)); [|lia].
          apply IH. intros x Hx. apply H. now right. }
        apply L. intros y Hy. now apply D. }
      lia.
Qed.

Lemma part_utf8 s b v r : part du table s b v -> utf8 (s ++ r) = utf8 r.
Proof.
  assert (A : forall l r, (forall x, In x l -> 0 <= x <= 127) -> utf8 (l ++ r) = utf8 r).
  { clear. induction l as [|x l IH]; intros r H; [reflexivity|]. cbn [app]. rewrite utf8_cons_ascii by (apply H; now left).
    apply IH. intros y Hy. apply H. now right. }
  assert (Sg : forall sg x, plus_text sg -> In x sg -> 0 <= x <= 127).
  { intros sg x [-> | ->]; [intros []|]. intros [<-|[]]. cbn. lia. }
  assert (Wd : forall W x, digit_string W -> In x W -> 0 <= x <= 127) by (intros W x H Hx; specialize (H x Hx); lia).
  assert (Fd : forall fr F x, fraction_text fr F -> In x fr -> 0 <= x <= 127).
  { intros fr F x [|F' HF]; [intros []|]. cbn. intros [<-|Hx]; [lia|]. specialize (HF x Hx). lia. }
  intros [sg W fr F gap w u H1 H2 H3 H4 H5 H6 H7|sg W fr F H1 H2 H3 H4 H5|sg w u H1 H2]; rewrite <- !app_assoc.
  - rewrite A by eauto. rewrite A by eauto. rewrite A by eauto. rewrite white_utf8 by assumption.
    apply utf8_app. apply (Hword w u H7).
  - rewrite A by eauto. rewrite A by eauto. now rewrite A by eauto.
  - rewrite A by eauto. apply utf8_app. apply (Hword w u H2).
Qed.
Lemma span_utf8 s v : time_span du table s v -> utf8 s = true.
Proof.
  induction 1 as [s b v P|s b v sep x r v' P Hs Hr IH Hc].
  - rewrite <- (app_nil_r s), (part_utf8 _ _ _ _ P). reflexivity.
  - rewrite (part_utf8 _ _ _ _ P), white_utf8 by assumption. exact IH.
Qed.

(** the last byte is not white space *)
Lemma part_last s b v : part du table s b v -> exists r x, s = r ++ [x] /\ ~ white x.
Proof.
  assert (G : forall l1 l, (exists r x, l = r ++ [x] /\ ~ white x) -> exists r x, l1 ++ l = r ++ [x] /\ ~ white x).
  { intros l1 l (r & x & -> & H). exists (l1 ++ r), x. now rewrite <- app_assoc. }
  assert (Wl : forall w u, denotes table w u -> exists r x, w = r ++ [x] /\ ~ white x).
  { intros w u H. destruct (Hword w u H) as (Nw & _ & _ & Wx). destruct (exists_last Nw) as (r & x & ->).
    exists r, x. split; [reflexivity|]. apply (Wx x). apply in_or_app. right. now left. }
  intros [sg W fr F gap w u H1 H2 H3 H4 H5 H6 H7|sg W fr F H1 H2 H3 H4 H5|sg w u H1 H2]; apply G.
  - do 3 apply G. eauto.
  - assert (D : forall l, digit_string l -> l <> [] -> exists r x, l = r ++ [x] /\ ~ white x).
    { intros l Hl N. destruct (exists_last N) as (r & x & ->). exists r, x. split; [reflexivity|].
      apply digit_not_white, Hl, in_or_app. right. now left. }
    inversion H3; subst.
    + rewrite app_nil_r. apply D; auto. now rewrite app_nil_r in H4.
    + apply G. destruct F as [|y F].
      * exists [], 46. split; [reflexivity|]. unfold white. lia.
      * apply (G [46]). apply D; [assumption|discriminate].
  - eauto.
Qed.
Lemma span_trimmed s v : time_span du table s v -> trimmed s.
Proof.
  intros H. split.
  - destruct (span_head _ _ H) as (x & r & -> & Hx). intros y r' E. injection E as <- _. exact Hx.
  - assert (L : exists r x, s = r ++ [x] /\ ~ white x).
    { induction H as [s b v P|s b v sep x r v' P Hs Hr IH Hc]; [eapply part_last; eauto|].
      destruct IH as (r0 & y & E & Hy). exists (s ++ sep ++ r0), y. rewrite E, <- !app_assoc. auto. }
    destruct L as (r & x & -> & Hx). intros y r' E. apply app_inj_tail in E. destruct E as [_ <-]. exact Hx.
Qed.
End Spans.

Lemma words_ok (table : list (time_unit * list str)) :
  forallb (fun e => forallb (fun w => negb (match w with [] => true | x :: _ => is_e x end) && utf8 w &&
    forallb (fun x => negb (sd_delimiter x) && negb (is_digit x) && negb (is_sign x) && negb (is_dot x)) w) (snd e)) table = true ->
  forall w u, denotes table w u -> w <> [] /\ starts_not is_e w /\ utf8 w = true /\
    forall x, In x w -> ~ white x /\ is_digit x = false /\ is_sign x = false /\ is_dot x = false.
Proof.
  intros H w u (ws & H1 & H2). rewrite forallb_forall in H. specialize (H _ H1). cbn [snd] in H.
  rewrite forallb_forall in H. specialize (H _ H2). rewrite !andb_true_iff in H. destruct H as [[Ha Hb] Hc].
  destruct w as [|y w]; [discriminate|]. apply negb_true_iff in Ha. repeat split; auto; try discriminate;
    rewrite forallb_forall in Hc; specialize (Hc x H); rewrite !andb_true_iff, !negb_true_iff in Hc; try apply Hc.
  rewrite <- sd_delimiter_iff. destruct Hc as [[[-> _] _] _]. discriminate.
Qed.
Lemma systemd_words_ok : forall w u, denotes systemd_units w u -> w <> [] /\ starts_not is_e w /\ utf8 w = true /\
    forall x, In x w -> ~ white x /\ is_digit x = false /\ is_sign x = false /\ is_dot x = false.
Proof. apply words_ok. vm_compute. reflexivity. Qed.
Lemma systemd_nanos_words_ok : forall w u, denotes systemd_nanos_units w u -> w <> [] /\ starts_not is_e w /\ utf8 w = true /\
    forall x, In x w -> ~ white x /\ is_digit x = false /\ is_sign x = false /\ is_dot x = false.
Proof. apply words_ok. vm_compute. reflexivity. Qed.
