(** * Property C90: the text of a duration is read back by every parser for multiple durations which knows its time units *)
From Verif Require ExEnv.
From Verif Require Import Prelude Util Time Config Bytes Repr Parse SpecTime SpecNum SpecValue SpecParse SpecGrammar SpecSpelling SpecManyTexts SpecSystemd
  TimeProofs NumProofs Utf8Proofs ValueProofs RefGrammar SpellProofs SwitchProofs SafeProofs Standard StandardProofs PropTime PropNum PropParse PropStandard PropDisplay PropText PropSigns PropSettings Systemd SystemdProofs PropSystemd SystemdExact PropSystemdExact.

(** ** the specification *)
(** what is left of [v] nanoseconds when as much as possible is expressed in the time units longer than [u] *)
Fixpoint rest_of (v : Z) (longer : list time_unit) : Z :=
  match longer with [] => v | u :: l => rest_of (v mod nanos_of_unit u) l end.
Definition longer_units (u : time_unit) : list time_unit :=
  match u with
  | Year => [] | Month => [Year] | Week => [Year; Month] | Day => [Year; Month; Week] | Hour => [Year; Month; Week; Day]
  | Minute => [Year; Month; Week; Day; Hour] | Second => [Year; Month; Week; Day; Hour; Minute]
  | MilliSecond => [Year; Month; Week; Day; Hour; Minute; Second] | MicroSecond => [Year; Month; Week; Day; Hour; Minute; Second; MilliSecond]
  | NanoSecond => [Year; Month; Week; Day; Hour; Minute; Second; MilliSecond; MicroSecond]
  end.
(** the time units in the text of a duration of [v] nanoseconds *)
Definition needs (v : Z) (u : time_unit) : Prop :=
  nanos_of_unit u <= rest_of (Z.abs v) (longer_units u) \/ v = 0 /\ u = NanoSecond.
(** digits, the minus sign and the letters of the identifiers *)
Definition text_byte (x : byte) : Prop := 48 <= x <= 57 \/ x = 45 \/ 65 <= x <= 90 \/ 97 <= x <= 122.
(** a parser for multiple durations which takes a space for a delimiter, and nothing in the text of durations for a delimiter or conjunction *)
Record reads_texts (c : config) : Prop := ReadsTexts {
  rt_multiple : c_allow_multiple c = true;
  rt_space : c_outer_delimiter c 32 = true;
  rt_inner : forall x, text_byte x -> c_inner_delimiter c x = false;
  rt_outer : forall x, text_byte x -> c_outer_delimiter c x = false;
  rt_conjunctions : forall w, In w (words c) -> w <> [] /\ ~ digit_or_sign (hd 0 w)
}.

(** ** proofs *)
Lemma sum_nonneg l : greedy l -> 0 <= sum_of_parts l /\ (l <> [] -> 1 <= sum_of_parts l).
Proof.
  induction l as [|[v u] l IH]; cbn [greedy]; intros H; [split; [reflexivity|contradiction]|]. destruct H as (H1 & _ & _ & H4). destruct (IH H4) as [H5 _].
  assert (1 <= nanos_of_unit u) by (destruct u; cbn; lia). unfold sum_of_parts in *. cbn [fold_right fst snd]. split; [nia|]. intros _. nia.
Qed.
Lemma greedy_needs l : greedy l -> forall v u, In (v, u) l -> needs (sum_of_parts l) u.
Proof.
  induction l as [|[v u] l IH]; cbn [greedy]; intros H v' u' I'; [contradiction|]. destruct H as (H1 & H2 & H3 & H4). destruct (sum_nonneg l H4) as [P1 P2].
  assert (E : sum_of_parts ((v, u) :: l) = v * nanos_of_unit u + sum_of_parts l) by reflexivity. set (S := sum_of_parts ((v, u) :: l)) in *. set (t := sum_of_parts l) in *.
  assert (P : 0 < nanos_of_unit u) by (destruct u; reflexivity). assert (nanos_of_unit u <= S) by nia.
  assert (B : forall u', nanos_of_unit u < nanos_of_unit u' -> S < nanos_of_unit u').
  { intros x Hx. destruct (Z_lt_le_dec S (nanos_of_unit x)) as [L|L]; [exact L|]. apply H2 in L. lia. }
  assert (A : Z.abs S = S) by lia. left. rewrite A.
  assert (R : forall u', nanos_of_unit u < nanos_of_unit u' -> S mod nanos_of_unit u' = S) by (intros x Hx; apply Z.mod_small; specialize (B x Hx); lia).
  destruct I' as [I'|I'].
  - injection I' as <- <-. destruct u; cbn [longer_units rest_of]; rewrite ?R by reflexivity; lia.
  - assert (T : S mod nanos_of_unit u = t) by (symmetry; apply Z.mod_unique with v; lia). assert (1 <= t) by (apply P2; intros ->; contradiction).
    assert (R' : forall u', nanos_of_unit u <= nanos_of_unit u' -> t mod nanos_of_unit u' = t) by (intros x Hx; apply Z.mod_small; lia).
    destruct (IH H4 v' u' I') as [G|[G _]]; [|lia]. rewrite (Z.abs_eq t) in G by lia.
    assert (L : nanos_of_unit u' < nanos_of_unit u).
    { assert (Q : forall x y, 0 <= x -> rest_of x (longer_units y) <= x).
      { intros x y. generalize (longer_units y). intros lo. revert x. induction lo as [|z lo IHlo]; intros x Hx; [cbn; lia|]. cbn [rest_of].
        assert (0 < nanos_of_unit z) by (destruct z; reflexivity). pose proof (Z.mod_pos_bound x (nanos_of_unit z)). pose proof (Z.mod_le x (nanos_of_unit z)). specialize (IHlo (x mod nanos_of_unit z)). lia. }
      specialize (Q t u'). lia. }
    clearbody S t. clear H2 IH H3 B E P H1 H4. revert G. revert T R R'. destruct u; destruct u'; try discriminate L; clear L; intros T R R';
      cbn [longer_units rest_of]; rewrite ?R by reflexivity; rewrite ?T; rewrite ?R' by (vm_compute; discriminate); auto.
Qed.
(** some time unit is needed *)
Lemma needs_some v : exists u, needs v u.
Proof.
  pose proof (Z.abs_nonneg v) as H. unfold needs.
  destruct (Z_lt_le_dec (Z.abs v) (nanos_of_unit Year)) as [L1|L1]; [|exists Year; left; exact L1].
  destruct (Z_lt_le_dec (Z.abs v) (nanos_of_unit Month)) as [L2|L2]; [|exists Month; left; cbn [longer_units rest_of]; rewrite ?(Z.mod_small (Z.abs v)) by lia; exact L2].
  destruct (Z_lt_le_dec (Z.abs v) (nanos_of_unit Week)) as [L3|L3]; [|exists Week; left; cbn [longer_units rest_of]; rewrite ?(Z.mod_small (Z.abs v)) by lia; exact L3].
  destruct (Z_lt_le_dec (Z.abs v) (nanos_of_unit Day)) as [L4|L4]; [|exists Day; left; cbn [longer_units rest_of]; rewrite ?(Z.mod_small (Z.abs v)) by lia; exact L4].
  destruct (Z_lt_le_dec (Z.abs v) (nanos_of_unit Hour)) as [L5|L5]; [|exists Hour; left; cbn [longer_units rest_of]; rewrite ?(Z.mod_small (Z.abs v)) by lia; exact L5].
  destruct (Z_lt_le_dec (Z.abs v) (nanos_of_unit Minute)) as [L6|L6]; [|exists Minute; left; cbn [longer_units rest_of]; rewrite ?(Z.mod_small (Z.abs v)) by lia; exact L6].
  destruct (Z_lt_le_dec (Z.abs v) (nanos_of_unit Second)) as [L7|L7]; [|exists Second; left; cbn [longer_units rest_of]; rewrite ?(Z.mod_small (Z.abs v)) by lia; exact L7].
  destruct (Z_lt_le_dec (Z.abs v) (nanos_of_unit MilliSecond)) as [L8|L8]; [|exists MilliSecond; left; cbn [longer_units rest_of]; rewrite ?(Z.mod_small (Z.abs v)) by lia; exact L8].
  destruct (Z_lt_le_dec (Z.abs v) (nanos_of_unit MicroSecond)) as [L9|L9]; [|exists MicroSecond; left; cbn [longer_units rest_of]; rewrite ?(Z.mod_small (Z.abs v)) by lia; exact L9].
  exists NanoSecond. destruct (Z.eq_dec v 0) as [->|N]; [right; auto|]. left. cbn [longer_units rest_of]. rewrite ?(Z.mod_small (Z.abs v)) by lia. cbn. lia.
Qed.

Section ReadBack.
Context (c : config) (tu : units_like) (kw : option units_like) (nums : option numbers_like).
Context (RT : reads_texts c) (NE : u_is_empty tu = false).
Definition known (u : time_unit) : Prop := u_get tu (documented_identifier u) = Some (u, default_multiplier).

Lemma ids u : default_identifier u <> [] /\ (forall x, In x (default_identifier u) -> text_byte x /\ starts_duration x = false) /\
  forall r, starts_not is_digit (default_identifier u ++ r) /\ starts_not is_dot (default_identifier u ++ r) /\ starts_not is_e (default_identifier u ++ r).
Proof.
  split; [destruct u; discriminate|]. split.
  - intros x. unfold text_byte. destruct u; cbn; intros H; repeat destruct H as [<-|H]; try contradiction; (split; [lia|reflexivity]).
  - intros r. destruct u; repeat split; reflexivity.
Qed.
Lemma none_inner l : (forall x, In x l -> text_byte x) -> forall r, l <> [] -> span (c_inner_delimiter c) (l ++ r) [] (l ++ r).
Proof.
  intros H r N. split; [reflexivity|]. split; [intros x []|]. destruct l as [|x l]; [contradiction|]. cbn. apply (rt_inner c RT), H. now left.
Qed.
Lemma digits_text w : digit_string w -> forall x, In x w -> text_byte x.
Proof. intros H x Hx. apply H in Hx. left. exact Hx. Qed.
Lemma duration_text_byte x : starts_duration x = true -> x <> 43 -> text_byte x.
Proof. unfold starts_duration, is_digit, is_sign, text_byte. lia. Qed.

Lemma nocase_digit x y : eq_nocase x y = true -> starts_duration x = true -> x = y.
Proof.
  unfold eq_nocase, to_lower, starts_duration, is_digit, is_sign. intros H G. destruct ((65 <=? x) && (x <=? 90)) eqn:A; destruct ((65 <=? y) && (y <=? 90)) eqn:B; lia.
Qed.

Lemma a_component ng p rest r : part_ok p -> known (snd p) ->
  (rest = [] /\ r = []) \/ (rest = 32 :: r /\ exists y z, r = y :: z /\ starts_duration y = true /\ y <> 43) ->
  component c tu kw nums (sign_of ng ++ PropDisplay.text p ++ rest) (value ng p) r.
Proof.
  intros Hp Hk Hr. destruct p as [v u]. unfold part_ok in Hp. cbn [fst snd] in *. destruct (dec_spec v Hp) as (D1 & D2 & D3).
  unfold known in Hk. rewrite id_same in Hk.
  destruct (ids u) as (I1 & I2 & I3). destruct (I3 rest) as (I4 & I5 & I6).
  unfold PropDisplay.text, value. cbn [fst snd]. rewrite <- app_assoc.
  apply (co_number_unit c tu kw nums _ ng (dec v ++ default_identifier u ++ rest) (dec v) [] 0 (default_identifier u ++ rest)).
  - assert (N : dec v ++ default_identifier u ++ rest <> []) by (destruct (dec v); [contradiction|discriminate]).
    destruct ng; cbn [sign_of app].
    + destruct (c_allow_sign_delimiter c) eqn:Es; [|now apply (with_sign c 45)]. apply (with_sign_delimiter c 45 _ []); auto.
      apply none_inner; [|exact D1]. now apply digits_text.
    + apply unsigned; [|exact N]. destruct (dec v) as [|x w]; [contradiction|]. cbn.
      assert (48 <= x <= 57) by (apply D2; now left). unfold is_sign. lia.
  - exists (default_identifier u ++ rest), (default_identifier u ++ rest), (default_identifier u ++ rest).
    split; [|split; [|split; [|split]]].
    + split; [reflexivity|]. split; [|exact I4]. intros x Hx. apply D2 in Hx. unfold is_digit. lia.
    + now constructor.
    + now constructor.
    + destruct (c_allow_time_unit_delimiter c) eqn:Et; [|now constructor]. apply (some_unit_delimiter c _ []); auto. apply none_inner; [|exact I1]. intros x Hx. now apply I2.
    + rewrite app_nil_r. exact D1.
  - exact NE.
  - assert (Rr : rest = [] \/ exists y z, rest = 32 :: y :: z /\ starts_duration y = true /\ y <> 43).
    { destruct Hr as [[-> _]|(-> & y & z & -> & H)]; [now left|right]. exists y, z. auto. }
    apply (mu_plain c tu _ (default_identifier u) rest).
    + split; [reflexivity|]. split.
      * intros x Hx. destruct (I2 x Hx) as [T S]. unfold unit_end, keyword_end. rewrite (rt_outer c RT x T), S, (rt_inner c RT x T), andb_false_r. reflexivity.
      * destruct Rr as [->|(y & z & -> & _)]; [exact Logic.I|]. cbn. unfold unit_end, keyword_end. now rewrite (rt_space c RT).
    + exact I1.
    + exact Hk.
    + intros r' (_ & ds & a & S1 & S2 & (w & S3 & S4) & _). destruct S1 as (E & Hd & _). destruct Rr as [->|(y & z & -> & H1 & H2)].
      * destruct ds; [contradiction|discriminate].
      * destruct ds as [|d1 ds]; [contradiction|]. injection E as <- E. destruct ds as [|d2 ds].
        -- cbn [app] in E. subst a. pose proof (str_eq_nocase_length _ _ S4) as L. destruct w as [|w1 w]; [discriminate|]. injection S3 as <- _.
           apply andb_true_iff in S4. destruct S4 as [S4 _]. apply nocase_digit in S4; [|exact H1]. subst y. discriminate H1.
        -- injection E as <- _. specialize (Hd y (or_intror (or_introl eq_refl))). rewrite (rt_inner c RT) in Hd by now apply duration_text_byte. discriminate.
    + intros _ (N & S & H & _). destruct Rr as [->|(y & z & -> & H1 & H2)]; [contradiction|]. specialize (H y (or_intror (or_introl eq_refl))).
      rewrite (rt_inner c RT) in H by now apply duration_text_byte. discriminate.
    + destruct Hr as [[-> ->]|(-> & y & z & -> & H1 & H2)]; [constructor; exact Logic.I|].
      apply nc_connection, (con_delimiter c _ [32]).
      * split; [reflexivity|]. split; [intros x [<-|[]]; exact (rt_space c RT)|]. cbn. apply (rt_outer c RT). now apply duration_text_byte.
      * discriminate.
      * discriminate.
      * intros w Hw (r' & v' & E & Hv). destruct (rt_conjunctions c RT w Hw) as [W1 W2]. pose proof (str_eq_nocase_length _ _ Hv) as L.
        destruct w as [|w0 w]; [contradiction|]. destruct v' as [|v0 v']; [discriminate|]. injection E as -> _. cbn in W2. cbn in Hv. apply W2.
        apply andb_true_iff in Hv. destruct Hv as [Hv _]. apply nocase_digit in Hv; [|exact H1]. subst w0. revert H1. clear. unfold digit_or_sign, starts_duration, is_digit, is_sign. lia.
Qed.

Lemma the_components ng l : l <> [] -> Forall part_ok l -> (forall v u, In (v, u) l -> known u) ->
  components c tu kw nums (sign_of ng ++ join (32 :: sign_of ng) (map PropDisplay.text l)) (map (value ng) l) /\
  exists y z, sign_of ng ++ join (32 :: sign_of ng) (map PropDisplay.text l) = y :: z /\ starts_duration y = true /\ y <> 43.
Proof.
  assert (St : forall p r, part_ok p -> exists y z, sign_of ng ++ PropDisplay.text p ++ r = y :: z /\ starts_duration y = true /\ y <> 43).
  { intros [v u] r Hp. destruct ng; [eexists; eexists; split; [reflexivity|split; [reflexivity|discriminate]]|]. cbn [sign_of app]. unfold PropDisplay.text. cbn [fst snd]. destruct (dec_spec v Hp) as (D1 & D2 & _).
    destruct (dec v) as [|x w]; [contradiction|]. eexists. eexists. split; [reflexivity|]. assert (48 <= x <= 57) by (apply D2; now left). unfold starts_duration, is_digit. lia. }
  induction l as [|p l IH]; intros N F K; [contradiction|]. inversion F as [|? ? Hp Hl]; subst.
  assert (Kp : known (snd p)) by (destruct p as [v u]; apply (K v u); now left).
  destruct l as [|q l].
  - cbn [map join]. rewrite <- (app_nil_r (PropDisplay.text p)). split; [|apply St, Hp]. constructor. apply a_component; [exact Hp|exact Kp|now left].
  - destruct (IH ltac:(discriminate) Hl) as (C & S); [intros v u H; apply (K v u); now right|].
    change (join (32 :: sign_of ng) (map PropDisplay.text (p :: q :: l))) with (PropDisplay.text p ++ (32 :: sign_of ng) ++ join (32 :: sign_of ng) (map PropDisplay.text (q :: l))).
    set (r := sign_of ng ++ join (32 :: sign_of ng) (map PropDisplay.text (q :: l))) in *.
    replace ((32 :: sign_of ng) ++ join (32 :: sign_of ng) (map PropDisplay.text (q :: l))) with (32 :: r) by (unfold r; reflexivity).
    split; [|apply St, Hp].
    change (map (value ng) (p :: q :: l)) with (value ng p :: map (value ng) (q :: l)). apply (cs_more c tu kw nums _ _ r).
    + apply a_component; [exact Hp|exact Kp|]. right. split; [reflexivity|exact S].
    + destruct S as (y & z & -> & _). discriminate.
    + exact C.
Qed.
(** the text of a duration as a sequence of components *)
Lemma text_components d : duration_ok d -> (forall u, needs (nanos d) u -> known u) ->
  exists ds, components c tu kw nums (display d) ds /\ saturating_sum ds = nanos d /\ (0 <= nanos d -> forall x, In x ds -> is_negative x = false).
Proof.
  intros Hd K. unfold display. destruct (is_zero d) eqn:Z0.
  - assert (E0 : nanos d = 0) by (unfold is_zero, std_is_zero in Z0; unfold nanos; destruct d as [ng [s n]]; cbn in *; destruct ng; lia).
    exists [value false (0, NanoSecond)]. split.
    + constructor. change (%"0ns") with (sign_of false ++ PropDisplay.text (0, NanoSecond) ++ []). apply a_component; [unfold part_ok, u64_max; cbn; lia| |now left].
      apply K. right. auto.
    + split; [rewrite E0; reflexivity|]. intros _ x [<-|[]]. reflexivity.
  - assert (Nz : std_nanos (inner d) <> 0).
    { unfold is_zero, std_is_zero in Z0. unfold std_nanos. destruct Hd as [H1 H2]. unfold is_u64, inb in *. lia. }
    destruct (fmt_parts_fits d Hd) as (l & E & F & T & N). rewrite E. apply fits_zero in N.
    assert (L : l <> []) by (intros ->; apply Nz; rewrite <- T; reflexivity).
    set (ng := neg d).
    assert (X : (if is_negative d then %"-" ++ join (%" -") (map PropDisplay.text l) else join (%" ") (map PropDisplay.text l)) =
                sign_of ng ++ join (32 :: sign_of ng) (map PropDisplay.text l)).
    { unfold is_negative, ng. destruct (neg d); reflexivity. }
    rewrite X. assert (A : Z.abs (nanos d) = std_nanos (inner d)).
    { pose proof (total_pos l F). unfold nanos, std_nanos in *. destruct (neg d); lia. }
    assert (KK : forall v u, In (v, u) l -> known u).
    { intros v u H. apply K. pose proof (greedy_needs l N v u H) as G. rewrite sum_total, T, <- A in G. unfold needs in *. rewrite Z.abs_involutive in G.
      destruct G as [G|[G ->]]; [now left|right]. split; [lia|reflexivity]. }
    destruct (the_components ng l L F KK) as [C _]. exists (map (value ng) l). split; [exact C|].
    assert (B : 0 <= std_nanos (inner d) <= max_nanos).
    { unfold std_nanos, max_nanos. destruct Hd as [H1 H2]. unfold is_u64, inb, u64_max in *. lia. }
    pose proof (sum_parts ng l F 0 ltac:(lia) ltac:(lia)) as S.
    replace (signed_nanos ng 0) with 0 in S by (destruct ng; reflexivity). split.
    + unfold saturating_sum. rewrite S, T. unfold nanos, std_nanos, signed_nanos. unfold ng. destruct (neg d); lia.
    + intros P x Hx. apply in_map_iff in Hx. destruct Hx as (q & <- & Hq). unfold ng. destruct (neg d) eqn:En.
      * unfold nanos, std_nanos in *. rewrite En in P. lia.
      * destruct (is_negative (value false q)) eqn:En2; [|reflexivity]. exfalso.
        rewrite Forall_forall in F. pose proof (F q Hq) as Fq. assert (0 <= part_ns q) by (unfold part_ns, part_ok in *; pose proof (unit_pos (snd q)); nia).
        revert En2. unfold value, number_value, number_result. replace (coef (unit_length (snd q)) * coef default_multiplier <? 0) with false by (destruct (snd q); reflexivity).
        destruct (_ || _); discriminate.
Qed.
End ReadBack.

(** ** C90 *)
Theorem C90_read_back : forall c tu kw nums d, env_ok c tu kw nums -> delims_ok c kw nums -> reads_texts c -> u_is_empty tu = false -> duration_ok d ->
  (forall u, needs (nanos d) u -> u_get tu (documented_identifier u) = Some (u, Mul 1 0)) -> (nanos d < 0 -> c_allow_negative c = true) ->
  exists d', parse c (display d) tu kw nums = Ok d' /\ duration_ok d' /\ nanos d' = nanos d.
Proof.
  intros c tu kw nums d HE HD RT NE Hd K HN. destruct (text_components c tu kw nums RT NE d Hd K) as (ds & C & S & P).
  destruct (C23_multiple_complete c tu kw nums _ _ HE HD (C10_display_is_utf8 d Hd) (rt_multiple c RT) C) as (D & E1 & E2 & E3).
  - intros x Hx. destruct (Z_lt_le_dec (nanos d) 0) as [L|L]; [left; auto|right; auto].
  - exists D. split; [exact E1|]. split; [exact E2|]. congruence.
Qed.
Print Assumptions C90_read_back.
(** a negative duration, if negative durations are not allowed *)
Theorem C90_negative : forall c tu kw nums d, env_ok c tu kw nums -> delims_ok c kw nums -> reads_texts c -> u_is_empty tu = false -> duration_ok d ->
  (forall u, needs (nanos d) u -> u_get tu (documented_identifier u) = Some (u, Mul 1 0)) -> nanos d < 0 -> c_allow_negative c = false ->
  parse c (display d) tu kw nums = Err NegativeNumber.
Proof.
  intros c tu kw nums d HE HD RT NE Hd K HN Hc.
  assert (HE' : env_ok (set_allow_negative c true) tu kw nums) by now apply env_set_negative.
  assert (RT' : reads_texts (set_allow_negative c true)) by (destruct RT; constructor; auto).
  destruct (C90_read_back (set_allow_negative c true) tu kw nums d HE' HD RT' NE Hd K) as (D & P & HDk & N); [reflexivity|].
  destruct (C53_multiple_switch c tu kw nums (display d) HE HD (C10_display_is_utf8 d Hd) (rt_multiple c RT)) as (_ & A & _).
  assert (Ec : set_allow_negative c false = c) by (destruct c; cbn in Hc |- *; now rewrite Hc). rewrite Ec in A.
  destruct (A D P) as [G|G]; [|exact G]. destruct (C21_not_negative c tu kw nums (display d) D HE (C10_display_is_utf8 d Hd) Hc G) as [G1 _].
  exfalso. unfold nanos in N, HN. rewrite <- N in HN. unfold is_negative in G1. rewrite G1 in HN. destruct HDk as [B1 B2]. unfold is_u64, inb in *. unfold std_nanos in *. lia.
Qed.
Print Assumptions C90_negative.

(** the standard parser with any settings, if its time units include those in the text *)
Theorem C90_standard : forall l ss d, let p := fold_left dp_set ss (dp_with_time_units l) in let c := dp_config p in
  config_ok c -> reads_texts c -> duration_ok d -> (forall u, needs (nanos d) u -> In u l) -> (nanos d < 0 -> c_allow_negative c = true) ->
  exists d', dp_parse p (display d) = Ok d' /\ duration_ok d' /\ nanos d' = nanos d.
Proof.
  intros l ss d p c. subst c. unfold p. rewrite std_fold. unfold dp_parse. cbn [dp_config dp_units]. generalize (fold_left dp_set_config ss config_new). intros c HC RT Hd K HN. pose proof (delims_none_ok c) as HD.
  apply C90_read_back; auto; [now apply std_set_env| |].
  - destruct (u_is_empty _) eqn:Ee; [|reflexivity]. apply C31_is_empty in Ee. exfalso. subst l.
    destruct (needs_some (nanos d)) as [u Hu]. exact (K u Hu).
  - intros u H. rewrite id_same. apply C31_lookup. split; [now apply K|auto].
Qed.
Print Assumptions C90_standard.

(** ** Time spans of fundu-systemd *)
(** a byte of an identifier *)
Definition id_byte (x : byte) : Prop := 65 <= x <= 90 \/ 97 <= x <= 122 \/ 128 <= x.
(** [w] is written in [s], and is no part of a longer word *)
Definition run (s w : str) : Prop := exists a r, s = a ++ w ++ r /\ (forall x, In x w -> id_byte x) /\
  (forall a' x, a = a' ++ [x] -> ~ id_byte x) /\ (forall x r', r = x :: r' -> ~ id_byte x).
Definition junction (s1 s2 : str) : Prop := (forall a x y b, s1 = a ++ [x] -> s2 = y :: b -> ~ (id_byte x /\ id_byte y)).

Lemma run_app s1 s2 w : junction s1 s2 -> w <> [] -> run (s1 ++ s2) w -> run s1 w \/ run s2 w.
Proof.
  intros J N (a & r & E & H1 & H2 & H3). symmetry in E. apply app_eq_app in E. destruct E as (l & [[E1 E2]|[E1 E2]]).
  - (* s1 within a *) right. exists l, r. split; [exact E2|]. split; [exact H1|]. split; [|exact H3]. intros a' x ->. apply (H2 (s1 ++ a') x). now rewrite E1, app_assoc.
  - apply app_eq_app in E2. destruct E2 as (m & [[E2 E3]|[E2 E3]]).
    + (* w = l ++ m *) destruct m as [|y m].
      * left. rewrite app_nil_r in E2. subst l. cbn [app] in E3. exists a, []. rewrite app_nil_r. split; [exact E1|]. split; [exact H1|]. split; [exact H2|discriminate].
      * destruct l as [|x0 l0] using rev_ind.
        -- right. cbn [app] in E2. rewrite app_nil_r in E1. subst w. exists [], r. split; [exact E3|]. split; [exact H1|]. split; [intros [|? ?] ?; discriminate|exact H3].
        -- exfalso. apply (J (a ++ l0) x0 y (m ++ r)); [now rewrite E1, app_assoc|now rewrite E3|]. split; apply H1; rewrite E2; apply in_app_iff; [left; apply in_app_iff; right; now left|right; now left].
    + left. exists a, m. split; [now rewrite E1, E2|]. split; [exact H1|]. split; [exact H2|]. intros x r' ->. apply (H3 x (r' ++ s2)). now rewrite E3.
Qed.
Lemma run_none s w : (forall x, In x s -> ~ id_byte x) -> w <> [] -> ~ run s w.
Proof. intros H N (a & r & -> & H1 & _). destruct w as [|x w]; [contradiction|]. apply (H x); [apply in_app_iff; right; now left|]. apply H1. now left. Qed.
Lemma run_all s w : (forall x, In x s -> id_byte x) -> run s w -> w = s.
Proof.
  intros H (a & r & -> & _ & H2 & H3). destruct a as [|x a] using rev_ind.
  - destruct r as [|y r]; [now rewrite app_nil_r|]. exfalso. apply (H3 y r eq_refl), H. apply in_app_iff. right. apply in_app_iff. right. now left.
  - exfalso. apply (H2 a x eq_refl), H. apply in_app_iff. left. apply in_app_iff. right. now left.
Qed.
Lemma junction_left s1 s2 : (forall x, In x s1 -> ~ id_byte x) -> junction s1 s2.
Proof. intros H a x y b -> _ [G _]. apply (H x); [apply in_app_iff; right; now left|exact G]. Qed.
Lemma junction_right s1 s2 : (forall y b, s2 = y :: b -> ~ id_byte y) -> junction s1 s2.
Proof. intros H a x y b _ E [_ G]. now apply (H y b). Qed.

Definition id_table (table : list (time_unit * list str)) : Prop := forall w u, denotes table w u -> forall x, In x w -> id_byte x.
Lemma digits_no_id W : digit_string W -> forall x, In x W -> ~ id_byte x.
Proof. intros H x Hx. apply H in Hx. unfold id_byte. lia. Qed.
Lemma part_runs u0 table s b p v : id_table table -> any_part u0 table s b p v -> forall w, w <> [] -> run s w -> exists u, denotes table w u.
Proof.
  intros T H w N R.
  assert (Sg : forall sg n, sign_text sg n -> forall x, In x sg -> ~ id_byte x).
  { intros sg n G x Hx. destruct G; [contradiction|destruct Hx as [<-|[]]; vm_compute; intuition discriminate|destruct Hx as [<-|[]]; vm_compute; intuition discriminate]. }
  assert (Fr : forall fr F, fraction_text fr F -> forall x, In x fr -> ~ id_byte x).
  { intros fr F G x Hx. destruct G as [|F G]; [contradiction|]. apply in_app_iff in Hx. destruct Hx as [[<-|[]]|Hx]; [vm_compute; intuition discriminate|now apply (digits_no_id F)]. }
  assert (Wh : forall g, white_space g -> forall x, In x g -> ~ id_byte x).
  { intros g G x Hx. apply G in Hx. unfold white in Hx. unfold id_byte. lia. }
  assert (Q : forall pre id u, (forall x, In x pre -> ~ id_byte x) -> denotes table id u -> run (pre ++ id) w -> exists u, denotes table w u).
  { intros pre id u P D R'. apply run_app in R'; [|now apply junction_left|exact N]. destruct R' as [R'|R']; [now apply run_none in R'|]. apply run_all in R'; [subst; eauto|]. intros x Hx. exact (T id u D x Hx). }
  destruct H as [sg n W fr F gap id u H1 H2 H3 H4 H5 H6 H7|sg n W fr F H1 H2 H3 H4 H5|sg id u H1 H2].
  - apply (Q (sg ++ W ++ fr ++ gap) id u); [|exact H6|rewrite <- !app_assoc; exact R].
    intros x Hx. repeat (apply in_app_iff in Hx; destruct Hx as [Hx|Hx]); [now apply (Sg sg n)|now apply (digits_no_id W)|now apply (Fr fr F)|now apply (Wh gap)].
  - exfalso. revert R. apply run_none; [|exact N]. intros x Hx. repeat (apply in_app_iff in Hx; destruct Hx as [Hx|Hx]); [now apply (Sg sg n)|now apply (digits_no_id W)|now apply (Fr fr F)].
  - apply (Q sg id u); [|exact H2|exact R]. intros x Hx. destruct H1 as [->| ->]; [contradiction|]. destruct Hx as [<-|[]]. vm_compute; intuition discriminate.
Qed.
Lemma span_runs u0 table s v : id_table table -> any_span u0 table s v -> forall w, w <> [] -> run s w -> exists u, denotes table w u.
Proof.
  intros T. induction 1 as [s b p v H|s b p v sep x rest v' H H1 H2 IH H3]; intros w N R; [now apply (part_runs u0 table s b p v)|].
  assert (Wh : forall x, In x sep -> ~ id_byte x) by (intros y Hy; apply H1 in Hy; unfold white in Hy; unfold id_byte; lia).
  apply run_app in R; [| |exact N].
  - destruct R as [R|R]; [now apply (part_runs u0 table s b p v)|]. apply run_app in R; [|now apply junction_left|exact N]. destruct R as [R|R]; [now apply run_none in R|now apply IH].
  - apply junction_right. intros y q E. destruct sep as [|z sep]; [|injection E as <- _; apply Wh; now left]. injection E as <- _. unfold may_follow in H3. unfold id_byte.
    destruct H3 as [H3|[H3|[[H3 _]|[[_ H3]|(_ & H3 & _)]]]]; [lia|lia|lia|contradiction|lia].
Qed.

(** the words in the text of a duration *)
Lemma needed_part l : greedy l -> forall u, nanos_of_unit u <= rest_of (sum_of_parts l) (longer_units u) -> exists v, In (v, u) l.
Proof.
  induction l as [|[v u] l IH]; cbn [greedy]; intros H u' G.
  - exfalso. destruct u'; cbn in G; lia.
  - destruct H as (H1 & H2 & H3 & H4). destruct (sum_nonneg l H4) as [P1 P2].
    assert (E : sum_of_parts ((v, u) :: l) = v * nanos_of_unit u + sum_of_parts l) by reflexivity. set (S := sum_of_parts ((v, u) :: l)) in *. set (t := sum_of_parts l) in *.
    assert (P : 0 < nanos_of_unit u) by (destruct u; reflexivity). assert (nanos_of_unit u <= S) by nia.
    assert (B : forall u', nanos_of_unit u < nanos_of_unit u' -> S < nanos_of_unit u').
    { intros x Hx. destruct (Z_lt_le_dec S (nanos_of_unit x)) as [L|L]; [exact L|]. apply H2 in L. lia. }
    assert (Q : forall x y, 0 <= x -> rest_of x (longer_units y) <= x).
    { intros x y. generalize (longer_units y). intros lo. revert x. induction lo as [|z lo IHlo]; intros x Hx; [cbn; lia|]. cbn [rest_of].
      assert (0 < nanos_of_unit z) by (destruct z; reflexivity). pose proof (Z.mod_pos_bound x (nanos_of_unit z)). pose proof (Z.mod_le x (nanos_of_unit z)). specialize (IHlo (x mod nanos_of_unit z)). lia. }
    destruct (Z_lt_le_dec (nanos_of_unit u) (nanos_of_unit u')) as [L|L]; [specialize (B u' L); specialize (Q S u'); lia|].
    destruct (Z.eq_dec (nanos_of_unit u') (nanos_of_unit u)) as [L2|L2].
    + exists v. left. f_equal. revert L2. destruct u; destruct u'; try reflexivity; discriminate.
    + assert (L3 : nanos_of_unit u' < nanos_of_unit u) by lia. clear L L2.
      assert (R : forall u', nanos_of_unit u < nanos_of_unit u' -> S mod nanos_of_unit u' = S) by (intros x Hx; apply Z.mod_small; specialize (B x Hx); lia).
      assert (T : S mod nanos_of_unit u = t) by (symmetry; apply Z.mod_unique with v; lia).
      assert (R' : forall u', nanos_of_unit u <= nanos_of_unit u' -> t mod nanos_of_unit u' = t) by (intros x Hx; apply Z.mod_small; lia).
      destruct (IH H4 u') as [w Hw]; [|exists w; now right].
      clearbody S t. clear H2 IH H3 B E P H1 H4 Q. revert G. revert T R R'. destruct u; destruct u'; try discriminate L3; clear L3; intros T R R' G;
        cbn [longer_units rest_of] in *; rewrite ?R in G by reflexivity; rewrite ?T in G; rewrite ?R' by (vm_compute; discriminate); exact G.
Qed.
Lemma written_run ng l s : written ng l s -> forall v u, In (v, u) l -> run s (documented_identifier u).
Proof.
  assert (A : forall u x, In x (documented_identifier u) -> id_byte x).
  { intros u x H. unfold id_byte. destruct u; cbn in H; repeat destruct H as [<-|H]; try contradiction; lia. }
  assert (B : forall v s pre r u, decimal v s -> (forall x r', r = x :: r' -> ~ id_byte x) -> run ((pre ++ s ++ documented_identifier u) ++ r) (documented_identifier u)).
  { intros v s0 pre r u (D1 & _ & D2) Hr. exists (pre ++ s0), r. split; [now rewrite <- !app_assoc|]. split; [apply A|]. split; [|exact Hr]. intros a' x E.
    destruct s0 as [|y s0 _] using rev_ind; [contradiction|]. rewrite app_assoc in E. apply app_inj_tail in E. destruct E as [_ <-].
    apply (digits_no_id (s0 ++ [y]) D1). apply in_app_iff. right. now left. }
  induction 1 as [v u s H|v u s l t H H1 IH]; intros v' u' I'.
  - destruct I' as [I'|[]]. injection I' as <- <-. rewrite <- (app_nil_r (_ ++ _ ++ _)). apply (B v); [exact H|discriminate].
  - destruct I' as [I'|I'].
    + injection I' as <- <-. apply (B v); [exact H|]. intros x r' E. change (32 :: t = x :: r') in E. injection E as <- _. unfold id_byte. lia.
    + destruct (IH v' u' I') as (a & r & E & E1 & E2 & E3). set (pre := (if ng then %"-" else []) ++ s ++ documented_identifier u) in *.
      exists (pre ++ %" " ++ a), r. split; [rewrite E, <- !app_assoc; reflexivity|]. split; [exact E1|]. split; [|exact E3]. intros a' x Ea.
      destruct a as [|y a _] using rev_ind; [|apply (E2 a x); rewrite !app_assoc in Ea; apply app_inj_tail in Ea; destruct Ea as [_ <-]; reflexivity].
      rewrite app_nil_r in Ea. change (%" ") with [32] in Ea. apply app_inj_tail in Ea. destruct Ea as [_ <-]. unfold id_byte. lia.
Qed.
Lemma needed_run d u : duration_ok d -> needs (nanos d) u -> run (display d) (documented_identifier u).
Proof.
  intros Hd H. destruct (Z.eq_dec (nanos d) 0) as [E|E].
  - rewrite (proj1 (C63_zero d Hd) E). assert (u = NanoSecond) as ->.
    { destruct H as [H|[_ H]]; [|exact H]. rewrite E in H. exfalso. destruct u; cbn in H; lia. }
    exists (%"0"), []. split; [reflexivity|]. split; [intros x Hx; unfold id_byte; cbn in Hx; repeat destruct Hx as [<-|Hx]; try contradiction; lia|].
    split; [|discriminate]. intros [|? [|]] x Ex; [change ([48] = [x]) in Ex; injection Ex as <-; unfold id_byte; lia|discriminate|discriminate].
  - destruct H as [H|[H _]]; [|contradiction]. destruct (C63_canonical_text d Hd E) as (l & W & G & S). rewrite <- S in H. destruct (needed_part l G u H) as [v Hv].
    exact (written_run _ _ _ W v u Hv).
Qed.

Lemma needs_dec v u : {needs v u} + {~ needs v u}.
Proof.
  unfold needs. destruct (Z_le_dec (nanos_of_unit u) (rest_of (Z.abs v) (longer_units u))) as [H|H]; [left; now left|].
  destruct (Z.eq_dec v 0) as [E|E]; [destruct u; try (right; intros [G|[_ G]]; [contradiction|discriminate]); left; right; auto|right; intros [G|[G _]]; contradiction].
Qed.
Lemma written_ends ng l s : written ng l s -> trimmed s.
Proof.
  assert (F : forall v s r x q, decimal v s -> (if ng then %"-" else []) ++ s ++ r = x :: q -> ~ white x).
  { intros v s0 r x q (D1 & _ & D2) E. unfold white. destruct ng; [injection E as <- _; vm_compute; intuition discriminate|]. cbn [app] in E. destruct s0 as [|y s0]; [contradiction|].
    injection E as <- _. assert (48 <= y <= 57) by (apply D1; now left). lia. }
  assert (L : forall u x a r, a ++ documented_identifier u = r ++ [x] -> ~ white x).
  { intros u x a r E. assert (I' : In x (documented_identifier u)).
    { assert (N : documented_identifier u <> []) by (destruct u; discriminate). destruct (documented_identifier u) as [|y w _] using rev_ind; [contradiction|]. rewrite app_assoc in E. apply app_inj_tail in E. destruct E as [_ <-]. apply in_app_iff. right. now left. }
    unfold white. destruct u; cbn in I'; repeat destruct I' as [<-|I']; try contradiction; lia. }
  induction 1 as [v u s H|v u s l t H H1 [_ IH]]; split.
  - intros x r E. exact (F v s _ x r H E).
  - intros x r E. rewrite app_assoc in E. exact (L u x _ r E).
  - intros x r E. rewrite <- !app_assoc in E. exact (F v s _ x r H E).
  - intros x r E. destruct t as [|y t _] using rev_ind.
    + exfalso. inversion H1 as [v0 u0 s0 G Eq1 Eq2|v0 u0 s0 l0 t0 G G1 Eq1 Eq2].
      * destruct G as (_ & _ & G). destruct s0; [contradiction|]. destruct ng; discriminate.
      * apply (f_equal (@List.length byte)) in Eq2. rewrite !app_length in Eq2. cbn in Eq2. lia.
    + rewrite !app_assoc in E. apply app_inj_tail in E. destruct E as [_ <-]. apply (IH y t). reflexivity.
Qed.
Lemma display_trimmed d : duration_ok d -> trimmed (display d).
Proof.
  intros Hd. destruct (Z.eq_dec (nanos d) 0) as [E|E].
  - rewrite (proj1 (C63_zero d Hd) E). apply (written_ends false [(0, NanoSecond)]). apply (wr_one false 0 NanoSecond (%"0")). split; [intros x [<-|[]]; vm_compute; split; discriminate|]. split; [reflexivity|exact Logic.I].
  - destruct (C63_canonical_text d Hd E) as (l & W & _). exact (written_ends _ _ _ W).
Qed.

Lemma means_runs u0 table max s d w : id_table table -> means u0 table max s d -> w <> [] -> w <> %"infinity" -> run s w -> exists u, denotes table w u.
Proof.
  intros TT (ws1 & t & ws2 & -> & W1 & W2 & H) N NI R.
  assert (Wh : forall g, white_space g -> forall x, In x g -> ~ id_byte x).
  { intros g G x Hx. apply G in Hx. unfold white in Hx. unfold id_byte. lia. }
  apply run_app in R; [|apply junction_left; now apply Wh|exact N]. destruct R as [R|R]; [apply run_none in R; [contradiction|now apply Wh|exact N]|].
  apply run_app in R; [|apply junction_right; intros y b ->; apply (Wh (y :: b) W2); now left|exact N]. destruct R as [R|R]; [|apply run_none in R; [contradiction|now apply Wh|exact N]].
  destruct H as [[-> _]|(v & H & _)]; [|exact (span_runs u0 table t v TT H w N R)].
  apply run_all in R; [contradiction|]. intros x Hx. unfold id_byte. cbn in Hx. repeat destruct Hx as [<-|Hx]; try contradiction; lia.
Qed.
Lemma means_knows u0 table max d d' : id_table table -> duration_ok d -> means u0 table max (display d) d' -> forall u, needs (nanos d) u -> exists u', denotes table (documented_identifier u) u'.
Proof.
  intros TT Hd M u Hu. apply (means_runs u0 table max (display d) d'); auto; [destruct u; discriminate|destruct u; discriminate|]. now apply needed_run.
Qed.

Section Span.
Context (u0 : time_unit) (tu : units_like) (table : list (time_unit * list str)).
Context (HE : env_ok (sd_with_default_unit u0) tu None None) (NE : u_is_empty tu = false).
Context (HG : forall u, u_get tu (documented_identifier u) = Some (u, Mul 1 0) <-> denotes table (documented_identifier u) u).
Lemma sd_reads_texts : reads_texts (sd_with_default_unit u0).
Proof.
  assert (A : forall x, text_byte x -> sd_delimiter x = false).
  { intros x H. unfold text_byte in H. unfold sd_delimiter, wrap_u8. destruct (is_u8 x) eqn:E; [|reflexivity]. cbn [andb].
    rewrite Z.mod_small by lia. lia. }
  constructor; [reflexivity|reflexivity|exact A|exact A|intros w []].
Qed.
(** accepted if and only if all time units in the text are known *)
Lemma sd_accepts d max : duration_ok d -> duration_ok max -> is_negative max = false -> 0 <= nanos d -> (forall u, needs (nanos d) u -> denotes table (documented_identifier u) u) ->
  exists d', common u0 tu (display d) max = Ok d' /\ duration_ok d' /\ nanos d' = Z.min (nanos max) (nanos d).
Proof.
  intros Hd Hm Hn P K. destruct (text_components (sd_with_default_unit u0) tu None None sd_reads_texts NE d Hd) as (ds & C & S & Q).
  { intros u Hu. apply HG. now apply K. }
  destruct (common_complete u0 tu HE (display d) ds max) as (D & E1 & E2 & E3); auto.
  - now apply C10_display_is_utf8.
  - now apply display_trimmed.
  - intros E. destruct (needs_some (nanos d)) as [u Hu]. apply needed_run in Hu; [|exact Hd]. rewrite E in Hu. apply run_all in Hu; [destruct u; discriminate|].
    intros x Hx. unfold id_byte. cbn in Hx. repeat destruct Hx as [<-|Hx]; try contradiction; lia.
  - exists D. split; [exact E1|]. split; [exact E2|]. congruence.
Qed.

(** a negative duration is rejected *)
Lemma sd_negative d max : duration_ok d -> is_negative max = false -> nanos d < 0 -> (forall u, needs (nanos d) u -> denotes table (documented_identifier u) u) ->
  common u0 tu (display d) max = Err NegativeNumber.
Proof.
  intros Hd Hn P K. pose proof (C10_display_is_utf8 d Hd) as U. rewrite common_unfold by auto. cbv zeta.
  assert (E : trim_end (trim_start (display d)) = display d).
  { pose proof (trim_unique [] (display d) []) as T. rewrite app_nil_r in T. apply T; auto; try (intros x []); [exact (utf8_bytes (display d) U)|now apply display_trimmed]. }
  rewrite E. destruct (str_eqb (display d) (%"infinity")) eqn:Ei.
  - exfalso. apply str_eqb_iff in Ei. destruct (needs_some (nanos d)) as [u Hu]. apply needed_run in Hu; [|exact Hd]. rewrite Ei in Hu. apply run_all in Hu; [destruct u; discriminate|].
    intros x Hx. unfold id_byte. cbn in Hx. repeat destruct Hx as [<-|Hx]; try contradiction; lia.
  - rewrite (C90_negative (sd_with_default_unit u0) tu None None d HE (sd_delims_ok u0) sd_reads_texts NE Hd); auto. intros u Hu. apply HG. now apply K.
Qed.
End Span.

(** which of the identifiers of the texts fundu-systemd knows *)
Lemma sd_knows u u' : (denotes systemd_units (documented_identifier u) u' <-> u' = u /\ u <> MicroSecond /\ u <> NanoSecond) /\
  (denotes systemd_nanos_units (documented_identifier u) u' <-> u' = u /\ u <> MicroSecond).
Proof.
  assert (A : forall t, In t systemd_nanos_units -> In (documented_identifier u) (snd t) -> fst t = u /\ u <> MicroSecond).
  { intros t Ht H. cbn in Ht. repeat (destruct Ht as [<-|Ht]; [cbn [fst snd] in *; destruct u; repeat destruct H as [H|H]; try discriminate H; try contradiction; split; (reflexivity || discriminate)|]). contradiction. }
  split; split.
  - intros (ws & H1 & H2). destruct (A (u', ws)) as [E1 E2]; [now right|exact H2|]. cbn in E1. subst u'. split; [reflexivity|]. split; [exact E2|].
    intros ->. cbn in H1. repeat (destruct H1 as [H1|H1]; [discriminate H1|]). contradiction.
  - intros (-> & N1 & N2). destruct u; try contradiction; eexists; (split; [cbn; tauto || (repeat (try (left; reflexivity); right); fail)|]); cbn; tauto.
  - intros (ws & H1 & H2). destruct (A (u', ws)) as [E1 E2]; [exact H1|exact H2|]. cbn in E1. auto.
  - intros (-> & N1). destruct u; try contradiction; eexists; (split; [cbn; tauto || (repeat (try (left; reflexivity); right); fail)|]); cbn; tauto.
Qed.
Lemma sd_id_tables : id_table systemd_units /\ id_table systemd_nanos_units.
Proof.
  assert (A : id_table systemd_nanos_units).
  { intros w u (ws & H1 & H2) x Hx. unfold id_byte. cbn in H1. repeat (destruct H1 as [H1|H1]; [injection H1 as <- <-; repeat (destruct H2 as [<-|H2]; [cbn in Hx; repeat destruct Hx as [<-|Hx]; try contradiction; lia|]); contradiction|]). contradiction. }
  split; [|exact A]. intros w u (ws & H1 & H2). apply (A w u). exists ws. split; [now right|exact H2].
Qed.
Lemma sd_get_documented u : (u_get sd_TIME_UNITS (documented_identifier u) = Some (u, Mul 1 0) <-> denotes systemd_units (documented_identifier u) u) /\
  (u_get sd_TIME_UNITS_WITH_NANOS (documented_identifier u) = Some (u, Mul 1 0) <-> denotes systemd_nanos_units (documented_identifier u) u).
Proof.
  destruct (sd_knows u u) as [A B]. rewrite A, B. clear. destruct u; split; split; intros H;
    solve [reflexivity|discriminate H|split; [reflexivity|discriminate]|split; [reflexivity|split; discriminate]|exfalso; destruct H as (_ & H & G); now (apply H || apply G)|exfalso; destruct H as (_ & H); now apply H].
Qed.

(** fundu-systemd reads the text of a duration back, up to the maximum, unless there are micro seconds in it, which are written `Ms` and not `us`;
    without nano seconds as time unit there must not be nano seconds either, and `0ns` is none of its time spans *)
Theorem C90_systemd : forall p u d max, made p u -> duration_ok d -> duration_ok max -> is_negative max = false -> 0 <= nanos d ->
  (forall d', sd_parse_with_max p (display d) max = Ok d' -> nanos d' = Z.min (nanos max) (nanos d)) /\
  ((exists d', sd_parse_with_max p (display d) max = Ok d') <-> ~ needs (nanos d) MicroSecond /\ ~ needs (nanos d) NanoSecond).
Proof.
  intros p u d max M Hd Hm Hn P.
  assert (B : (exists d', sd_parse_with_max p (display d) max = Ok d') -> ~ needs (nanos d) MicroSecond /\ ~ needs (nanos d) NanoSecond).
  { intros (d' & H). apply (C73_exactly_time_spans p u _ max d' M (C10_display_is_utf8 d Hd) Hm Hn) in H.
    pose proof (means_knows u systemd_units max d d' (proj1 sd_id_tables) Hd H) as K. split; intros G; apply K in G; destruct G as [u' G]; apply sd_knows in G; tauto. }
  assert (A : ~ needs (nanos d) MicroSecond /\ ~ needs (nanos d) NanoSecond -> exists d', sd_parse_with_max p (display d) max = Ok d' /\ nanos d' = Z.min (nanos max) (nanos d)).
  { intros [N1 N2]. apply made_is in M. subst p. rewrite with_max_common.
    destruct (sd_accepts u sd_TIME_UNITS systemd_units (sd_env_ok u) eq_refl (fun u => proj1 (sd_get_documented u)) d max) as (d' & E1 & _ & E2); auto; [|eauto].
    intros x Hx. apply sd_knows. split; [reflexivity|]. split; intros ->; contradiction. }
  split; [|split; [exact B|intros H; destruct (A H) as (d' & E & _); eauto]].
  intros d' H. destruct (A (B (ex_intro _ d' H))) as (d2 & E & V). rewrite H in E. injection E as <-. exact V.
Qed.
Print Assumptions C90_systemd.
Theorem C90_systemd_nanos : forall p u d max, made p u -> duration_ok d -> duration_ok max -> is_negative max = false -> 0 <= nanos d ->
  (forall d', sd_parse_nanos_with_max p (display d) max = Ok d' -> nanos d' = Z.min (nanos max) (nanos d)) /\
  ((exists d', sd_parse_nanos_with_max p (display d) max = Ok d') <-> ~ needs (nanos d) MicroSecond).
Proof.
  intros p u d max M Hd Hm Hn P.
  assert (B : (exists d', sd_parse_nanos_with_max p (display d) max = Ok d') -> ~ needs (nanos d) MicroSecond).
  { intros (d' & H). apply (C73_exactly_time_spans_nanos p u _ max d' M (C10_display_is_utf8 d Hd) Hm Hn) in H.
    pose proof (means_knows u systemd_nanos_units max d d' (proj2 sd_id_tables) Hd H) as K. intros G; apply K in G; destruct G as [u' G]; apply sd_knows in G; tauto. }
  assert (A : ~ needs (nanos d) MicroSecond -> exists d', sd_parse_nanos_with_max p (display d) max = Ok d' /\ nanos d' = Z.min (nanos max) (nanos d)).
  { intros N1. apply made_is in M. subst p. rewrite nanos_with_max_common.
    destruct (sd_accepts u sd_TIME_UNITS_WITH_NANOS systemd_nanos_units (sd_env_nanos_ok u) eq_refl (fun u => proj2 (sd_get_documented u)) d max) as (d' & E1 & _ & E2); auto; [|eauto].
    intros x Hx. apply sd_knows. split; [reflexivity|]. intros ->; contradiction. }
  split; [|split; [exact B|intros H; destruct (A H) as (d' & E & _); eauto]].
  intros d' H. destruct (A (B (ex_intro _ d' H))) as (d2 & E & V). rewrite H in E. injection E as <-. exact V.
Qed.
Print Assumptions C90_systemd_nanos.
(** negative durations are rejected, as negative numbers if the time units are known *)
Theorem C90_systemd_negative : forall p u d max, made p u -> duration_ok d -> duration_ok max -> is_negative max = false -> nanos d < 0 ->
  ~ needs (nanos d) MicroSecond ->
  sd_parse_nanos_with_max p (display d) max = Err NegativeNumber /\ (~ needs (nanos d) NanoSecond -> sd_parse_with_max p (display d) max = Err NegativeNumber).
Proof.
  intros p u d max M Hd Hm Hn P N. apply made_is in M. subst p. rewrite with_max_common, nanos_with_max_common. split.
  - apply (sd_negative u sd_TIME_UNITS_WITH_NANOS systemd_nanos_units (sd_env_nanos_ok u) eq_refl (fun u => proj2 (sd_get_documented u))); auto.
    intros x Hx. apply sd_knows. split; [reflexivity|]. intros ->; contradiction.
  - intros N2. apply (sd_negative u sd_TIME_UNITS systemd_units (sd_env_ok u) eq_refl (fun u => proj1 (sd_get_documented u))); auto.
    intros x Hx. apply sd_knows. split; [reflexivity|]. split; intros ->; contradiction.
Qed.
Print Assumptions C90_systemd_negative.

(** ** Examples *)
(** 1 day, 1 second and 5 milliseconds; the standard parser with four time units and conjunctions *)
Example C90_standard_example : let l := [Week; Day; Second; MilliSecond] in let ss := [Set_parse_multiple true (Some [%"and"; %"und"]); Set_allow_ago true; Set_number_is_optional true] in
  let d := Dur false (Std 86401 5000000) in let p := fold_left dp_set ss (dp_with_time_units l) in
  config_ok (dp_config p) /\ reads_texts (dp_config p) /\ (forall u, needs (nanos d) u -> In u l) /\
  display d = %"1d 1s 5ms" /\ dp_parse p (%"1d 1s 5ms") = Ok d.
Proof.
  intros l ss d p. split; [|split; [|split; [|split; reflexivity]]].
  - split; [exact ExEnv.ws_ascii|]. split; [exact ExEnv.ws_ascii|]. intros c w E H. injection E as <-. destruct H as [<-|[<-|[]]]; reflexivity.
  - constructor; [reflexivity|reflexivity| | |].
    + intros x H. change (is_ascii_whitespace x = false). unfold text_byte in H. unfold is_ascii_whitespace. lia.
    + intros x H. change (is_ascii_whitespace x = false). unfold text_byte in H. unfold is_ascii_whitespace. lia.
    + intros w [<-|[<-|[]]]; (split; [discriminate|]); unfold digit_or_sign; cbn; lia.
  - intros u [H|[H _]]; [|discriminate H]. destruct u; vm_compute in H; try (exfalso; now apply H); cbn; tauto.
Qed.
(** fundu-systemd: half a second is read back, a micro second is not *)
Example C90_systemd_example : display (Dur false (Std 1 500000000)) = %"1s 500ms" /\ ~ needs 1500000000 MicroSecond /\ ~ needs 1500000000 NanoSecond /\
  sd_parse sd_new (%"1s 500ms") = Ok (Dur false (Std 1 500000000)) /\
  display (Dur false (Std 0 1000)) = %"1Ms" /\ needs 1000 MicroSecond /\ exists e, sd_parse sd_new (%"1Ms") = Err e.
Proof.
  split; [reflexivity|]. split; [intros [H|[H _]]; [vm_compute in H; now apply H|discriminate]|]. split; [intros [H|[H _]]; [vm_compute in H; now apply H|discriminate]|].
  split; [reflexivity|]. split; [reflexivity|]. split; [left; vm_compute; discriminate|]. eexists. reflexivity.
Qed.
