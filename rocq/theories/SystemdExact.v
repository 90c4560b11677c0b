(** * The texts accepted by the systemd parser are exactly the time spans of SpecSystemd.v *)
From Verif Require Import Prelude Time Config Parse SpecTime SpecNum SpecParse SpecValue SpecGrammar SpecSpelling SpecSystemd
  Utf8Proofs TimeProofs NumProofs ValueProofs SafeProofs RefGrammar StandardProofs Systemd SystemdProofs SystemdSpan PropNum PropParse.

(** ** Values: digits after the 18th do not matter *)
Lemma scale_cut W F j : digit_string W -> digit_string F -> j <= 18 ->
  floor_scale10 (dval (W ++ F)) (j - Z.of_nat (length F)) =
  floor_scale10 (dval (W ++ firstn 18 F)) (j - Z.of_nat (length (firstn 18 F))).
Proof.
  intros HW HF Hj. destruct (Nat.le_gt_cases (length F) 18) as [L|L]; [now rewrite firstn_all2|].
  rewrite firstn_length_le by lia. set (F' := firstn 18 F). set (G := skipn 18 F).
  assert (E : F = F' ++ G) by (symmetry; apply firstn_skipn).
  assert (HG : digit_string F' /\ digit_string G) by (apply digit_string_app; now rewrite <- E).
  assert (LF : length F' = 18%nat) by (subst F'; rewrite firstn_length_le; lia).
  assert (LG : Z.of_nat (length F) = 18 + Z.of_nat (length G)) by (rewrite E, app_length, LF; lia).
  rewrite LG. rewrite E, app_assoc, dval_app.
  pose proof (dval_nonneg G (proj2 HG)). pose proof (dval_bound G (proj2 HG)).
  assert (V : 0 <= dval (W ++ F')) by (apply dval_nonneg, digit_string_app; tauto).
  generalize dependent (dval (W ++ F')). intros V HV.
  assert (G0 : 0 < Z.of_nat (length G)) by lia.
  generalize dependent (Z.of_nat (length G)). intros g HD Hb Hg. generalize dependent (dval G). intros D H1 H2.
  unfold floor_scale10. change (Z.of_nat 18) with 18. replace (0 <=? j - (18 + g)) with false by lia.
  assert (P : 0 < 10 ^ g) by (apply Z.pow_pos_nonneg; lia).
  assert (Q : V = (V * 10 ^ g + D) / 10 ^ g) by (rewrite Z.div_add_l by lia; rewrite (Z.div_small D) by lia; lia).
  replace (- (j - (18 + g))) with (g + (18 - j)) by lia. rewrite Z.pow_add_r by lia.
  rewrite <- Z.div_div by (try apply Z.pow_pos_nonneg; lia). rewrite <- Q.
  destruct (Z.leb_spec 0 (j - 18)) as [K|K].
  - replace j with 18 by lia. cbn. now rewrite Z.div_1_r, Z.mul_1_r.
  - f_equal. f_equal. lia.
Qed.

Lemma number_value_cut n W F u : digit_string W -> digit_string F ->
  number_value n W F 0 u (Mul 1 0) = number_value n W (firstn 18 F) 0 u (Mul 1 0).
Proof.
  intros HW HF. unfold number_value, number_result, magnitude. cbn [coef expo].
  replace (18 + (expo (unit_length u) + 0 + 0 - Z.of_nat (length F))) with (18 + expo (unit_length u) - Z.of_nat (length F)) by lia.
  replace (18 + (expo (unit_length u) + 0 + 0 - Z.of_nat (length (firstn 18 F))))
    with (18 + expo (unit_length u) - Z.of_nat (length (firstn 18 F))) by lia.
  rewrite (scale_cut W F) by (assumption || (destruct u; cbn [unit_length expo]; lia)). reflexivity.
Qed.

Lemma firstn_digits k F : digit_string F -> digit_string (firstn k F).
Proof. intros H x Hx. apply H. rewrite <- (firstn_skipn k F). apply in_or_app. now left. Qed.

Lemma amount_nonneg u W F : digit_string W -> digit_string F -> 0 <= amount u W F.
Proof.
  intros HW HF. unfold amount. cbv zeta. apply Z.div_pos; [|apply Z.pow_pos_nonneg; lia].
  pose proof (dval_nonneg' W (firstn 18 F) HW (firstn_digits _ _ HF)). pose proof (unit_nanos_pos u).
  apply Z.mul_nonneg_nonneg; lia.
Qed.

Lemma tiny_iff u W F : digit_string W -> digit_string F ->
  tiny u W F <-> floor_scale10 (dval (W ++ F)) (18 + expo (unit_length u) - Z.of_nat (length F)) = 0.
Proof.
  intros HW HF. unfold tiny, floor_scale10.
  assert (E : 18 - decimals_below_second u = 18 + expo (unit_length u)) by (destruct u; reflexivity). rewrite E.
  set (j := 18 + expo (unit_length u)). assert (Hj : 9 <= j <= 18) by (subst j; destruct u; cbn [unit_length expo]; lia). clearbody j. clear E.
  pose proof (dval_nonneg' W F HW HF). generalize dependent (dval (W ++ F)). intros V HV.
  assert (HL : 0 <= Z.of_nat (length F)) by lia. generalize dependent (Z.of_nat (length F)). intros L HL.
  destruct (Z.leb_spec 0 (j - L)) as [K|K].
  - assert (P1 : 0 < 10 ^ (j - L)) by (apply Z.pow_pos_nonneg; lia). assert (P2 : 0 < 10 ^ L) by (apply Z.pow_pos_nonneg; lia).
    replace (10 ^ j) with (10 ^ (j - L) * 10 ^ L) by (rewrite <- Z.pow_add_r by lia; f_equal; lia). split; intros H; nia.
  - assert (P1 : 0 < 10 ^ j) by (apply Z.pow_pos_nonneg; lia). assert (P2 : 0 < 10 ^ (- (j - L))) by (apply Z.pow_pos_nonneg; lia).
    replace (10 ^ L) with (10 ^ (- (j - L)) * 10 ^ j) by (rewrite <- Z.pow_add_r by lia; f_equal; lia). split; intros H.
    + apply Z.div_small. nia.
    + apply Z.div_small_iff in H; nia.
Qed.

Lemma number_amount n W F u : digit_string W -> digit_string F -> (n = true -> tiny u W F) ->
  is_negative (number_value n W F 0 u (Mul 1 0)) = false /\ nanos (number_value n W F 0 u (Mul 1 0)) = Z.min max_nanos (amount u W F).
Proof.
  intros HW HF Ht.
  assert (E : number_value n W F 0 u (Mul 1 0) = number_value false W F 0 u (Mul 1 0)).
  { destruct n; [|reflexivity]. specialize (Ht eq_refl). apply tiny_iff in Ht; auto. unfold number_value, number_result. cbn [coef expo].
    replace (18 + (expo (unit_length u) + 0 + 0 - Z.of_nat (length F))) with (18 + expo (unit_length u) - Z.of_nat (length F)) by lia.
    now rewrite Ht. }
  rewrite E, number_value_cut by assumption. split; [apply number_value_pos|]. unfold amount. cbv zeta.
  apply number_nanos; auto using firstn_digits. rewrite firstn_length. lia.
Qed.
Lemma number_not_negative n W F u : digit_string W -> digit_string F ->
  is_negative (number_value n W F 0 u (Mul 1 0)) = false -> n = true -> tiny u W F.
Proof.
  intros HW HF H ->. apply tiny_iff; auto. unfold number_value, number_result in H. cbn [coef expo] in H.
  replace (18 + (expo (unit_length u) + 0 + 0 - Z.of_nat (length F))) with (18 + expo (unit_length u) - Z.of_nat (length F)) in H by lia.
  destruct (Z.eqb_spec (floor_scale10 (dval (W ++ F)) (18 + expo (unit_length u) - Z.of_nat (length F))) 0); [assumption|].
  destruct u; cbn in H; discriminate H.
Qed.

Section Exact.
Context (du : time_unit) (tu : units_like) (table : list (time_unit * list str)).
Hypothesis Hget : forall id u m, u_get tu id = Some (u, m) <-> m = Mul 1 0 /\ denotes table id u.
Hypothesis Hemp : u_is_empty tu = false.
Hypothesis Hword : forall w u, denotes table w u -> w <> [] /\ starts_not is_e w /\ utf8 w = true /\
  forall x, In x w -> ~ white x /\ is_digit x = false /\ is_sign x = false /\ is_dot x = false.

Notation c := (sd_with_default_unit du).

(** ** What the grammar accepts is a part *)
Lemma signed_text s n l : signed c s n l -> exists sg, sign_text sg n /\ s = sg ++ l /\ l <> [].
Proof.
  intros H. inversion H; subst.
  - exists []. repeat split; auto. constructor.
  - unfold is_sign in *. match goal with E : _ || _ = true |- _ => apply orb_true_iff in E; destruct E as [E|E]; apply Z.eqb_eq in E; subst end.
    + exists (%"+"). repeat split; auto. constructor.
    + exists (%"-"). repeat split; auto. constructor.
  - discriminate.
Qed.

Lemma number_text l W F x r : number c l W F x r ->
  exists fr gap, l = W ++ fr ++ gap ++ r /\ x = 0 /\ digit_string W /\ fraction_text fr F /\ W ++ F <> [] /\ white_space gap /\
    (gap = [] \/ r <> []) /\ starts_not sd_delimiter r /\
    (gap = [] -> starts_not is_digit r /\ (has_point fr = false -> starts_not is_dot r)).
Proof.
  intros (l1 & l2 & l3 & (-> & HW & S1) & HF & HE & HU & N).
  assert (DW : digit_string W) by (intros y Hy; specialize (HW y Hy); unfold is_digit in HW; lia).
  assert (E : exists fr, l1 = fr ++ l2 /\ fraction_text fr F /\ starts_not is_digit l2 /\ (has_point fr = false -> starts_not is_dot l2)).
  { inversion HF as [l0 D|l0 F0 r0 _ (-> & HF0 & S2)]; subst.
    - exists []. repeat split; auto. constructor.
    - exists (46 :: F). repeat split; auto; [|discriminate]. apply (ft_some F). intros y Hy. specialize (HF0 y Hy). unfold is_digit in HF0. lia. }
  destruct E as (fr & -> & FT & D2 & P2). inversion HE; subst; [|discriminate].
  inversion HU as [|l0 gap r0 _ (-> & HG & HN) Hr]; subst; [discriminate|].
  exists fr, gap. split; [reflexivity|]. repeat (split; [auto; fail|]). split; [|split; [exact Hr|]].
  - intros y Hy. apply sd_delimiter_iff. now apply HG.
  - split; [exact HN|]. intros ->. cbn [app] in *. auto.
Qed.

Lemma connection_text l r : connection c l r -> exists sep, l = sep ++ r /\ white_space sep /\ sep <> [] /\ r <> [].
Proof.
  intros H. inversion H as [l0 sep r0 (-> & H1 & H2) N1 N2 _|l0 ds y ws1 w ws2 z r0 _ _ _ E]; subst.
  - exists sep. repeat split; auto. intros y Hy. apply sd_delimiter_iff. now apply H1.
  - destruct ws1; discriminate E.
Qed.
Lemma next_text l r : next_component c l r -> exists sep, l = sep ++ r /\ white_space sep /\ (r = [] -> sep = []) /\ (sep = [] -> starts_not sd_delimiter r).
Proof.
  intros H. inversion H as [l0 S|l0 r0 C]; subst.
  - exists []. repeat split; auto. intros x [].
  - destruct (connection_text _ _ C) as (sep & -> & W & N & Nr). exists sep. repeat split; auto; congruence.
Qed.

Lemma unit_text l u m r : multi_unit c tu l u m r ->
  m = Mul 1 0 /\ exists w sep, l = w ++ sep ++ r /\ denotes table w u /\ white_space sep /\ (r = [] -> sep = []) /\
    (sep = [] -> starts_not (fun x => negb (starts_duration x)) r).
Proof.
  intros H. inversion H as [l0 w l1 u0 m0 r0 U Nw G _ _ C|l0 w l1 l2 u0 m0 r0 _ _ _ (A & _)]; subst; [|discriminate A].
  apply Hget in G. destruct G as [-> G]. split; [reflexivity|]. destruct (next_text _ _ C) as (sep & -> & W & N & S).
  exists w, sep. destruct U as (-> & _ & U). repeat split; auto. intros ->. specialize (S eq_refl). cbn [app] in U.
  destruct r as [|x r]; [exact I|]. cbn in *. apply negb_false_iff in U. apply (unit_end_iff du) in U. apply negb_false_iff.
  unfold starts_duration. destruct U as [U|[-> | ->]]; [|reflexivity|apply orb_true_r].
  apply sd_delimiter_iff in U. congruence.
Qed.

Lemma component_part s d r : component c tu None None s d r -> is_negative d = false ->
  exists t b pt v sep, s = t ++ sep ++ r /\ any_part du table t b pt v /\ white_space sep /\ (r = [] -> sep = []) /\
    nanos d = Z.min max_nanos v /\ 0 <= v /\
    (if b then sep = [] -> starts_not (fun x => negb (starts_duration x)) r
     else ~ multi_unit_like c tu r /\ (sep = [] -> starts_not is_digit r /\ (pt = false -> starts_not is_dot r))).
Proof.
  intros H Hn. inversion H as
    [s0 n l W F x r0 l1 HS HN HU HC|s0 n l W F x l1 u m r0 HS HN HE HU|s0 n l l1 r0 HS HI|s0 n l l0 l1 r0 HS HI
    |s0 n l u m l1 r0 HS HW HK HC|s0 n l u m r0 HS HW HK HO HU|s0 n l num l1 u m r0 HS HW HK HO HP]; subst.
  - destruct (signed_text _ _ _ HS) as (sg & ST & -> & _).
    destruct (number_text _ _ _ _ _ HN) as (fr & gap & -> & -> & DW & FT & N & WG & HG & SD & SG).
    destruct HU as [HU|HU]; [congruence|]. pose proof (fraction_text_digits _ _ FT) as DF.
    assert (r = l1).
    { destruct (next_text _ _ HC) as (sep & E & Ws & N1 & N2). destruct sep as [|y sep]; [symmetry; exact E|]. exfalso. subst l1.
      cbn in SD. assert (Wy : white y) by (apply Ws; now left). apply sd_delimiter_iff in Wy. congruence. }
    subst l1. change default_multiplier with (Mul 1 0) in *. change (c_default_unit c) with du in *.
    pose proof (number_not_negative n W F du DW DF Hn) as T. destruct (number_amount n W F du DW DF T) as [_ V].
    exists (sg ++ W ++ fr), false, (has_point fr), (amount du W F), gap. rewrite <- !app_assoc. split; [reflexivity|].
    split; [now apply (any_number _ _ sg n)|]. split; [exact WG|]. split; [intros ->; destruct HG; congruence|].
    split; [exact V|]. split; [now apply amount_nonneg|]. auto.
  - destruct (signed_text _ _ _ HS) as (sg & ST & -> & _).
    destruct (number_text _ _ _ _ _ HN) as (fr & gap & -> & -> & DW & FT & N & WG & HG & SD & SG).
    destruct (unit_text _ _ _ _ HU) as (-> & w & sep & -> & Dn & Ws & N1 & N2). pose proof (fraction_text_digits _ _ FT) as DF.
    pose proof (number_not_negative n W F u DW DF Hn) as T. destruct (number_amount n W F u DW DF T) as [_ V].
    exists (sg ++ W ++ fr ++ gap ++ w), true, (has_point fr), (amount u W F), sep. rewrite <- !app_assoc. split; [reflexivity|].
    split; [now apply (any_number_unit _ _ sg n)|]. split; [exact Ws|]. split; [exact N1|]. split; [exact V|].
    split; [now apply amount_nonneg|]. exact N2.
  - discriminate.
  - discriminate.
  - destruct HK as (k & w & K & _). discriminate K.
  - destruct (signed_text _ _ _ HS) as (sg & ST & -> & _). destruct (unit_text _ _ _ _ HU) as (-> & w & sep & -> & Dn & Ws & N1 & N2).
    assert (n = false) by (destruct n; [destruct u; discriminate Hn|reflexivity]). subst n.
    exists (sg ++ w), true, false, (unit_nanos u), sep. rewrite <- !app_assoc. split; [reflexivity|]. split.
    { apply any_unit; [|exact Dn]. inversion ST; [now left|now right]. }
    split; [exact Ws|]. split; [exact N1|]. pose proof (unit_nanos_pos u). split; [rewrite unit_value_nanos; lia|]. split; [lia|exact N2].
  - destruct HP as (f & w & a & b & K & _). discriminate K.
Qed.

(** a component which starts neither with a digit nor a sign nor a point starts with a time unit *)
Lemma component_head x l d r : component c tu None None (x :: l) d r ->
  is_sign x = true \/ is_digit x = true \/ is_dot x = true \/ multi_unit_like c tu (x :: l).
Proof.
  intros H. destruct (is_sign x) eqn:Es; [now left|]. destruct (is_digit x) eqn:Ed; [now right; left|].
  destruct (is_dot x) eqn:Ep; [now do 2 right; left|]. do 3 right.
  assert (S : forall n l', signed c (x :: l) n l' -> l' = x :: l).
  { intros n l' S. inversion S; subst; [reflexivity|congruence|congruence]. }
  assert (N : forall W F e r', ~ number c (x :: l) W F e r').
  { intros W F e r' (l1' & l2 & l3 & H1 & H2 & _ & _ & H5).
    destruct W as [|y W].
    - destruct H1 as (E & _ & _). cbn in E. subst l1'. inversion H2; subst; [now apply H5|discriminate Ep].
    - destruct H1 as (E & H1 & _). cbn in E. injection E as -> E. specialize (H1 y (or_introl eq_refl)). congruence. }
  inversion H; subst; match goal with S0 : signed _ _ _ _ |- _ => apply S in S0; subst end.
  - exfalso. eapply N; eauto.
  - exfalso. eapply N; eauto.
  - discriminate.
  - discriminate.
  - match goal with K : multi_keyword_is _ None _ _ _ _ |- _ => destruct K as (k & v & K & _); discriminate K end.
  - match goal with M : multi_unit _ _ _ _ _ _ |- _ => inversion M as [l' v l1' u' m' r'' U' NU G2|l' v l1' l2' u' m' r'' U' NU G2] end; subst;
      exists v, l1'; split; auto; split; auto; congruence.
  - match goal with K : numeral_prefix _ None _ _ _ |- _ => destruct K as (k & v & a & b & K & _); discriminate K end.
Qed.

Lemma nonneg_sum ds : (forall d, In d ds -> 0 <= nanos d) -> 0 <= fold_left (fun a d => a + nanos d) ds 0.
Proof.
  assert (L : forall l a, (forall d, In d l -> 0 <= nanos d) -> a <= fold_left (fun a d => a + nanos d) l a).
  { clear. induction l as [|d l IH]; intros a H; cbn; [lia|]. assert (0 <= nanos d) by (apply H; now left).
    assert (a + nanos d <= fold_left (fun a d => a + nanos d) l (a + nanos d)); [|lia].
    apply IH. intros x Hx. apply H. now right. }
  intros H. now apply L.
Qed.

Lemma components_span s ds : components c tu None None s ds -> (forall d, In d ds -> is_negative d = false) ->
  exists v, any_span du table s v /\ 0 <= v /\ (forall d, In d ds -> 0 <= nanos d) /\
    Z.min max_nanos (fold_left (fun a d => a + nanos d) ds 0) = Z.min max_nanos v.
Proof.
  induction 1 as [s d H|s d r ds H Nr Hs IH]; intros Hd.
  - destruct (component_part _ _ _ H (Hd d (or_introl eq_refl))) as (t & b & pt & v & sep & -> & P & Ws & N & V & V0 & _).
    rewrite (N eq_refl). cbn [app]. rewrite app_nil_r. exists v. split; [eapply any_last; eauto|]. split; [exact V0|].
    split; [intros y [<-|[]]; unfold max_nanos in *; lia|]. cbn [fold_left]. lia.
  - destruct (component_part _ _ _ H (Hd d (or_introl eq_refl))) as (t & b & pt & v & sep & -> & P & Ws & N & V & V0 & J).
    destruct IH as (v' & Sp & V0' & Hds & V'); [intros y Hy; apply Hd; now right|]. destruct r as [|x r]; [congruence|].
    assert (Cx : exists d' r', component c tu None None (x :: r) d' r') by (inversion Hs; subst; eauto).
    destruct Cx as (d' & r' & Cx). exists (v + v'). split; [|split; [lia|split]].
    + apply (any_more _ _ t b pt v sep x r v'); auto. unfold may_follow. destruct b.
      * destruct sep as [|y sep]; [|do 3 right; left; split; [reflexivity|discriminate]].
        specialize (J eq_refl). cbn in J. apply negb_false_iff in J. unfold starts_duration, is_digit, is_sign in J. lia.
      * destruct J as [J1 J2]. destruct (component_head _ _ _ _ Cx) as [E|[E|[E|E]]]; [| | |contradiction].
        -- unfold is_sign in E. lia.
        -- destruct sep as [|y sep]; [destruct (J2 eq_refl) as [J3 _]; cbn in J3; congruence|].
           unfold is_digit in E. do 2 right. left. split; [lia|right; discriminate].
        -- unfold is_dot in E. apply Z.eqb_eq in E. do 4 right. split; [reflexivity|]. split; [exact E|].
           destruct sep as [|y sep]; [left|right; discriminate]. destruct (J2 eq_refl) as [_ J3].
           destruct pt; [reflexivity|]. specialize (J3 eq_refl). cbn in J3. unfold is_dot in J3. lia.
    + intros y [<-|Hy]; [unfold max_nanos in *; lia|now apply Hds].
    + cbn [fold_left]. rewrite fold_shift. pose proof (nonneg_sum ds Hds). lia.
Qed.

(** ** A part is in the grammar *)
Definition follows_any (b pt : bool) (tail next : str) : Prop :=
  (tail = [] /\ next = []) \/
  (exists sep x r, next = x :: r /\ tail = sep ++ next /\ white_space sep /\ ~ white x /\ may_follow b pt sep x).

Lemma any_next b pt tail next : follows_any b pt tail next -> next_component c tail next.
Proof.
  intros [[-> ->]|(sep & x & r & -> & -> & Hs & Hx & H)].
  - apply nc_adjacent. exact I.
  - assert (S : starts_not sd_delimiter (x :: r)) by (apply starts_white; intros z r' E; injection E as <- <-; exact Hx).
    destruct sep as [|y sep]; [now apply nc_adjacent|].
    apply nc_connection. apply (con_delimiter c _ (y :: sep)); try discriminate.
    + split; [reflexivity|]. split; [intros z Hz; apply sd_delimiter_iff; auto|exact S].
    + intros w [].
Qed.
Lemma any_end pt tail next : follows_any true pt tail next -> starts_not (fun x => negb (unit_end c x)) tail.
Proof.
  intros [[-> ->]|(sep & x & r & -> & -> & Hs & Hx & H)]; [exact I|].
  destruct sep as [|y sep]; cbn [app starts_not]; apply negb_false_iff, unit_end_iff.
  - right. unfold is_digit, is_sign. destruct H as [H|[H|[[H _]|[[_ H]|[H _]]]]]; try congruence; lia.
  - left. apply Hs. now left.
Qed.
Lemma any_word_unit w u pt tail next : denotes table w u -> follows_any true pt tail next ->
  multi_unit c tu (w ++ tail) u (Mul 1 0) next.
Proof.
  intros Hw Hf. destruct (Hword w u Hw) as (N & _ & _ & Hx). eapply mu_plain.
  - split; [reflexivity|]. split; [|exact (any_end _ _ _ Hf)].
    intros x Hi. cbn. apply negb_true_iff. destruct (unit_end c x) eqn:E; [|reflexivity]. apply unit_end_iff in E.
    destruct (Hx x Hi) as (H1 & H2 & H3 & _). destruct E as [E|[E|E]]; congruence || contradiction.
  - exact N.
  - apply Hget. now split.
  - intros r' (A & _). discriminate A.
  - intros A. discriminate A.
  - exact (any_next _ _ _ _ Hf).
Qed.
Lemma text_signed sg n l : sign_text sg n -> l <> [] -> starts_not is_sign l -> signed c (sg ++ l) n l.
Proof.
  intros [| |] N S; cbn [app bytes_of].
  - now apply unsigned.
  - change false with (43 =? 45). apply with_sign; auto.
  - change true with (45 =? 45). apply with_sign; auto.
Qed.
Lemma any_the_number W fr F gap rest : digit_string W -> fraction_text fr F -> W ++ F <> [] -> white_space gap ->
  (gap = [] -> starts_not is_digit rest /\ starts_not is_e rest /\ (has_point fr = false -> starts_not is_dot rest)) ->
  (gap = [] \/ rest <> []) -> (forall x r, rest = x :: r -> ~ white x) ->
  number c (W ++ fr ++ gap ++ rest) W F 0 rest.
Proof.
  intros HW HF N Hg HE Hr Hn. exists (fr ++ gap ++ rest), (gap ++ rest), (gap ++ rest).
  assert (E : starts_not is_digit (gap ++ rest) /\ starts_not is_e (gap ++ rest) /\ (has_point fr = false -> starts_not is_dot (gap ++ rest))).
  { destruct gap as [|y gap]; [now apply HE|]. assert (W0 : white y) by (apply Hg; now left).
    cbn. unfold white, is_digit, is_e, is_dot in *. repeat split; lia. }
  destruct E as (E1 & E3 & E2).
  split; [split; [reflexivity|split]|split; [|split; [|split; [|exact N]]]].
  - intros x Hx. specialize (HW x Hx). unfold is_digit. lia.
  - inversion HF; subst; [exact E1|reflexivity].
  - inversion HF; subst; cbn [app bytes_of]; [apply no_fraction; now apply E2|].
    apply some_fraction; [reflexivity|]. split; [reflexivity|]. split; [|exact E1].
    intros x Hx. match goal with D : digit_string F |- _ => specialize (D x Hx) end. unfold is_digit. lia.
  - now apply no_exponent.
  - eapply some_unit_delimiter; [reflexivity| |exact Hr].
    split; [reflexivity|]. split; [intros x Hx; apply sd_delimiter_iff; auto|]. now apply starts_white.
Qed.

Lemma any_part_component s b pt v tail next : any_part du table s b pt v -> follows_any b pt tail next ->
  exists d, component c tu None None (s ++ tail) d next /\ good d v.
Proof.
  intros P Hf. destruct P as [sg n W fr F gap w u H1 H2 H3 H4 H6 H7 H5|sg n W fr F H1 H2 H3 H4 H5|sg w u H1 H2].
  - pose proof (fraction_text_digits _ _ H3) as HF. exists (number_value n W F 0 u (Mul 1 0)). split.
    + destruct (Hword w u H7) as (Nw & We & _ & Wx). rewrite <- !app_assoc.
      destruct (digits_head W fr F (gap ++ w ++ tail) H2 H3 H4) as (D1 & D2 & _).
      destruct w as [|y w]; [congruence|]. destruct (Wx y (or_introl eq_refl)) as (Y1 & Y2 & Y3 & Y4).
      eapply co_number_unit; [now apply text_signed| |exact Hemp|eapply any_word_unit; eassumption].
      apply any_the_number; auto.
      * right. discriminate.
      * intros x r E. injection E as <- _. exact Y1.
    + destruct (number_amount n W F u H2 HF H5) as [A1 A2]. split; [exact A1|]. split; [now apply amount_nonneg|exact A2].
  - pose proof (fraction_text_digits _ _ H3) as HF. exists (number_value n W F 0 du (Mul 1 0)). split.
    + rewrite <- !app_assoc. destruct (digits_head W fr F tail H2 H3 H4) as (D1 & D2 & _).
      assert (E : exists gap, tail = gap ++ next /\ white_space gap /\ (gap = [] \/ next <> []) /\
                 (gap = [] -> starts_not is_digit next /\ starts_not is_e next /\ (has_point fr = false -> starts_not is_dot next)) /\
                 (forall x r, next = x :: r -> ~ white x) /\
                 (forall x r, next = x :: r -> is_digit x = true \/ is_sign x = true \/ is_dot x = true)).
      { destruct Hf as [[-> ->]|(sep & x & r & -> & -> & Hs & Hx & H)].
        - exists []. cbn. repeat split; auto; try discriminate. intros x [].
        - assert (Hc : is_digit x = true \/ is_sign x = true \/ is_dot x = true).
          { unfold is_digit, is_sign, is_dot. destruct H as [H|[H|[[H _]|[[H _]|(_ & H & _)]]]]; try discriminate; lia. }
          exists sep. split; [reflexivity|]. split; [exact Hs|]. split; [right; discriminate|]. split; [|split].
          + intros ->. cbn. unfold is_digit, is_e, is_dot.
            destruct H as [H|[H|[[H [K|K]]|[[H K]|(_ & H & [K|K])]]]]; try congruence; subst; cbn; repeat split; try reflexivity.
            intros G. congruence.
          + intros y r' E. injection E as <- _. exact Hx.
          + intros y r' E. injection E as <- _. exact Hc. }
      destruct E as (gap & -> & E1 & E2 & E3 & E4 & E5).
      eapply co_number.
      * now apply text_signed.
      * now apply any_the_number.
      * right. intros (w & l1 & U & Nw & G). destruct next as [|x r].
        { destruct U as (E & _). symmetry in E. apply app_eq_nil in E. destruct E. congruence. }
        destruct (until_head _ _ _ _ _ U Nw) as (Ex & w' & ->). destruct (E5 x r eq_refl) as [E|[E|E]].
        -- assert (unit_end c x = true); [|congruence]. apply unit_end_iff. auto.
        -- assert (unit_end c x = true); [|congruence]. apply unit_end_iff. auto.
        -- destruct (u_get tu (x :: w')) as [[u m]|] eqn:Gu; [|congruence]. apply Hget in Gu. destruct Gu as [_ Gu].
           destruct (Hword _ _ Gu) as (_ & _ & _ & K). destruct (K x (or_introl eq_refl)) as (_ & _ & _ & K'). congruence.
      * apply nc_adjacent. now apply starts_white.
    + destruct (number_amount n W F du H2 HF H5) as [A1 A2]. split; [exact A1|]. split; [now apply amount_nonneg|exact A2].
  - exists (unit_value false u (Mul 1 0)). split.
    + destruct (Hword w u H2) as (Nw & We & _ & Wx). rewrite <- !app_assoc.
      destruct w as [|y w]; [congruence|]. destruct (Wx y (or_introl eq_refl)) as (Y1 & Y2 & Y3 & Y4).
      eapply co_unit.
      * apply plus_signed; [exact H1|discriminate|exact Y3].
      * split; [exact Y2|]. split; [exact Y4|]. discriminate.
      * intros u' m' r' (k & w' & K & _). discriminate K.
      * reflexivity.
      * eapply any_word_unit; eauto.
    + split; [destruct u; reflexivity|]. pose proof (unit_nanos_pos u). split; [lia|]. rewrite unit_value_nanos. lia.
Qed.

Lemma any_part_head s b pt v : any_part du table s b pt v -> exists x r, s = x :: r /\ ~ white x.
Proof.
  assert (G : forall sg n l, sign_text sg n -> (exists x r, l = x :: r /\ ~ white x) -> exists x r, sg ++ l = x :: r /\ ~ white x).
  { intros sg n l [| |] H; [exact H| |]; [exists 43, l|exists 45, l]; (split; [reflexivity|]); unfold white; lia. }
  assert (N : forall W fr F l, digit_string W -> fraction_text fr F -> W ++ F <> [] ->
     exists x r, W ++ fr ++ l = x :: r /\ ~ white x).
  { intros W fr F l H1 H2 H3. destruct (digits_head W fr F l H1 H2 H3) as (_ & D & E).
    destruct (W ++ fr ++ l) as [|x r]; [congruence|]. exists x, r. split; [reflexivity|]. now apply (E x r). }
  intros [sg n W fr F gap w u H1 H2 H3 H4 H6 H7 H5|sg n W fr F H1 H2 H3 H4 H5|sg w u H1 H2].
  - eapply G; eauto.
  - eapply G; eauto. specialize (N W fr F []). rewrite !app_nil_r in N. eapply N; eauto.
  - assert (S : sign_text sg false) by (destruct H1 as [-> | ->]; constructor). eapply G; eauto.
    destruct (Hword w u H2) as (Nw & _ & _ & Wx). destruct w as [|y w]; [congruence|].
    exists y, w. split; [reflexivity|]. apply (Wx y (or_introl eq_refl)).
Qed.
Lemma any_span_head s v : any_span du table s v -> exists x r, s = x :: r /\ ~ white x.
Proof.
  destruct 1 as [s b pt v H|s b pt v sep x r v' H]; destruct (any_part_head _ _ _ _ H) as (y & r' & -> & Hy); [eauto|].
  exists y, (r' ++ sep ++ x :: r). split; [reflexivity|exact Hy].
Qed.

Lemma any_span_components s v : any_span du table s v -> exists ds, components c tu None None s ds /\
  (forall d, In d ds -> is_negative d = false /\ 0 <= nanos d) /\ 0 <= v /\
  Z.min max_nanos (fold_left (fun a d => a + nanos d) ds 0) = Z.min max_nanos v.
Proof.
  induction 1 as [s b pt v P|s b pt v sep x r v' P Hs Hr IH Hc].
  - destruct (any_part_component s b pt v [] [] P) as (d & C & G1 & G2 & G3); [left; auto|]. rewrite app_nil_r in C.
    exists [d]. split; [now apply cs_last|]. split; [|split; [exact G2|cbn [fold_left]; lia]].
    intros y [<-|[]]. split; [exact G1|]. rewrite G3. unfold max_nanos. lia.
  - destruct IH as (ds & C & D & V & E).
    assert (Hx : ~ white x) by (destruct (any_span_head _ _ Hr) as (y & r' & Ey & Hy); injection Ey as <- <-; exact Hy).
    destruct (any_part_component s b pt v (sep ++ x :: r) (x :: r) P) as (d & C1 & G1 & G2 & G3).
    { right. exists sep, x, r. auto. }
    exists (d :: ds). split; [eapply cs_more; eauto; discriminate|]. split; [|split; [lia|]].
    + intros y [<-|Hy]; [|auto]. split; [exact G1|]. rewrite G3. unfold max_nanos. lia.
    + cbn [fold_left]. rewrite fold_shift, G3.
      pose proof (nonneg_sum ds (fun y Hy => proj2 (D y Hy))). lia.
Qed.

Lemma any_part_last s b pt v : any_part du table s b pt v -> exists r x, s = r ++ [x] /\ ~ white x.
Proof.
  assert (G : forall l1 l, (exists r x, l = r ++ [x] /\ ~ white x) -> exists r x, l1 ++ l = r ++ [x] /\ ~ white x).
  { intros l1 l (r & x & -> & H). exists (l1 ++ r), x. now rewrite <- app_assoc. }
  assert (Wl : forall w u, denotes table w u -> exists r x, w = r ++ [x] /\ ~ white x).
  { intros w u H. destruct (Hword w u H) as (Nw & _ & _ & Wx). destruct (exists_last Nw) as (r & x & ->).
    exists r, x. split; [reflexivity|]. apply (Wx x). apply in_or_app. right. now left. }
  intros [sg n W fr F gap w u H1 H2 H3 H4 H6 H7 H5|sg n W fr F H1 H2 H3 H4 H5|sg w u H1 H2]; apply G.
  - do 3 apply G. eauto.
  - assert (D : forall l, digit_string l -> l <> [] -> exists r x, l = r ++ [x] /\ ~ white x).
    { intros l Hl N. destruct (exists_last N) as (r & x & ->). exists r, x. split; [reflexivity|].
      apply digit_not_white, Hl, in_or_app. right. now left. }
    inversion H3; subst.
    + rewrite app_nil_r. apply D; auto. now rewrite app_nil_r in H4.
    + apply G. destruct F as [|y F].
      * exists [], 46. split; [reflexivity|]. unfold white. lia.
      * apply (G [46]). apply D; [assumption|discriminate].
  - eauto.
Qed.
Lemma any_span_trimmed s v : any_span du table s v -> trimmed s.
Proof.
  intros H. split.
  - destruct (any_span_head _ _ H) as (x & r & -> & Hx). intros y r' E. injection E as <- _. exact Hx.
  - assert (L : exists r x, s = r ++ [x] /\ ~ white x).
    { induction H as [s b pt v P|s b pt v sep x r v' P Hs Hr IH Hc]; [eapply any_part_last; eauto|].
      destruct IH as (r0 & y & E & Hy). exists (s ++ sep ++ r0), y. rewrite E, <- !app_assoc. auto. }
    destruct L as (r & x & -> & Hx). intros y r' E. apply app_inj_tail in E. destruct E as [_ <-]. exact Hx.
Qed.
End Exact.
