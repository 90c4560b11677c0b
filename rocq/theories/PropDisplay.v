(** * Property C10: the text of a duration is parsed back to the same duration *)
From Verif Require Import Prelude Util Time Config Bytes Repr Parse SpecTime SpecNum SpecValue SpecParse SpecGrammar SpecSpelling
  TimeProofs NumProofs Utf8Proofs ValueProofs RefGrammar SpellProofs SwitchProofs SafeProofs Standard StandardProofs PropTime PropNum PropParse PropStandard.

(** all default time units, multiple durations, negative durations *)
Definition display_parser : duration_parser :=
  dp_set (dp_set dp_with_all_time_units (Set_parse_multiple true None)) (Set_allow_negative true).

Lemma dval_digit x : dval [48 + x] = x.
Proof. unfold dval. cbn [dval_from]. lia. Qed.
Lemma dec_fuel_spec n : forall x, 0 <= x < 10 ^ Z.of_nat (S n) -> dec_fuel (S n) x <> [] /\ digit_string (dec_fuel (S n) x) /\ dval (dec_fuel (S n) x) = x.
Proof.
  induction n as [|n IH]; intros x H.
  - cbn [dec_fuel]. change (10 ^ Z.of_nat 1) with 10 in H. replace (x <? 10) with true by lia.
    split; [discriminate|]. split; [intros b [<-|[]]; lia|]. apply dval_digit.
  - cbn [dec_fuel]. destruct (x <? 10) eqn:E.
    + split; [discriminate|]. split; [intros b [<-|[]]; lia|]. apply dval_digit.
    + rewrite Nat2Z.inj_succ, Z.pow_succ_r in H by lia.
      destruct (IH (x / 10)) as (H1 & H2 & H3).
      { split; [apply Z.div_pos; lia|]. apply Z.div_lt_upper_bound; lia. }
      cbn [dec_fuel] in H1, H2, H3. split; [intros G; apply app_eq_nil in G; destruct G; discriminate|]. split.
      * apply digit_string_app. split; [exact H2|]. intros b [<-|[]]. pose proof (Z.mod_pos_bound x 10). lia.
      * rewrite dval_app, H3. cbn [length]. change (10 ^ Z.of_nat 1) with 10. pose proof (Z.div_mod x 10). rewrite dval_digit. lia.
Qed.
Lemma dec_spec x : 0 <= x <= u64_max -> dec x <> [] /\ digit_string (dec x) /\ dval (dec x) = x.
Proof. intros H. apply (dec_fuel_spec 39). assert (u64_max < 10 ^ Z.of_nat 40) by reflexivity. lia. Qed.

(** the parts of the text *)
Definition part : Type := (Z * time_unit)%type.
Definition text (p : part) : str := dec (fst p) ++ default_identifier (snd p).
Definition unit_ns (u : time_unit) : Z := coef (unit_length u) * 10 ^ (9 + expo (unit_length u)).
Definition part_ns (p : part) : Z := fst p * unit_ns (snd p).
Definition total (l : list part) : Z := fold_right (fun p a => part_ns p + a) 0 l.
Definition part_ok (p : part) : Prop := 0 <= fst p <= u64_max.

Lemma total_app a b : total (a ++ b) = total a + total b.
Proof. induction a as [|p a IH]; cbn; [reflexivity|]. unfold total in *. cbn. lia. Qed.

Lemma fmt_part_abs U u l s k : 0 < U -> 0 <= s <= u64_max -> unit_ns u = U * k -> Forall part_ok l ->
  exists l' s', fmt_part U (default_identifier u) (map text l, s) = (map text l', s') /\ 0 <= s' <= s /\ s' < U /\
    Forall part_ok l' /\ total l' + s' * k = total l + s * k /\ (l <> [] -> l' <> []) /\ (0 < s -> l' = l -> 0 < s').
Proof.
  intros HU Hs Hk Hl. unfold fmt_part. destruct (U <=? s) eqn:E.
  - pose proof (Z.mod_pos_bound s U HU). pose proof (Z.div_mod s U). pose proof (Z.mod_le s U).
    assert (s / U <= s) by (apply Z.div_le_upper_bound; nia).
    assert (0 <= s / U) by (apply Z.div_pos; lia).
    exists (l ++ [(s / U, u)]), (s mod U). rewrite map_app. split; [reflexivity|]. split; [lia|]. split; [lia|]. split; [|split; [|split]].
    + apply Forall_app. split; [exact Hl|]. constructor; [|constructor]. unfold part_ok. cbn. lia.
    + rewrite total_app. unfold total at 2. cbn [fold_right part_ns fst snd]. unfold part_ns. cbn [fst snd]. rewrite Hk. nia.
    + intros _ G. apply app_eq_nil in G. destruct G; discriminate.
    + intros _ G. apply (f_equal (@List.length part)) in G. rewrite app_length in G. cbn in G. lia.
  - exists l, s. split; [reflexivity|]. split; [lia|]. split; [lia|]. split; [exact Hl|]. split; [reflexivity|]. split; auto.
Qed.

Lemma fmt_parts_abs d : duration_ok d ->
  exists l, fmt_parts d = map text l /\ Forall part_ok l /\ total l = std_nanos (inner d) /\ (std_nanos (inner d) <> 0 -> l <> []).
Proof.
  intros [H1 H2]. unfold is_u64, inb in *. set (s0 := secs (inner d)) in *. set (n0 := subsec (inner d)) in *.
  assert (P1 : exists l, (if 0 <? s0 then
      let st := fmt_part 31557600 (%"y") ([], s0) in
      let st := fmt_part 2629800 (%"M") st in
      let st := fmt_part 604800 (%"w") st in
      let st := fmt_part 86400 (%"d") st in
      let st := fmt_part 3600 (%"h") st in
      let '(r, s) := fmt_part 60 (%"m") st in
      if 1 <=? s then r ++ [dec s ++ %"s"] else r
    else []) = map text l /\ Forall part_ok l /\ total l = s0 * 1000000000).
  { destruct (0 <? s0) eqn:E0; [|exists []; cbn; split; [reflexivity|split; [constructor|lia]]]. cbn zeta.
    destruct (fmt_part_abs 31557600 Year [] s0 1000000000) as (l1 & s1 & E1 & B1 & _ & F1 & T1 & _); [lia|lia|reflexivity|constructor|].
    cbn [map] in E1. change (%"y") with (default_identifier Year). rewrite E1.
    destruct (fmt_part_abs 2629800 Month l1 s1 1000000000) as (l2 & s2 & E2 & B2 & _ & F2 & T2 & _); [lia|lia|reflexivity|exact F1|].
    change (%"M") with (default_identifier Month). rewrite E2.
    destruct (fmt_part_abs 604800 Week l2 s2 1000000000) as (l3 & s3 & E3 & B3 & _ & F3 & T3 & _); [lia|lia|reflexivity|exact F2|].
    change (%"w") with (default_identifier Week). rewrite E3.
    destruct (fmt_part_abs 86400 Day l3 s3 1000000000) as (l4 & s4 & E4 & B4 & _ & F4 & T4 & _); [lia|lia|reflexivity|exact F3|].
    change (%"d") with (default_identifier Day). rewrite E4.
    destruct (fmt_part_abs 3600 Hour l4 s4 1000000000) as (l5 & s5 & E5 & B5 & _ & F5 & T5 & _); [lia|lia|reflexivity|exact F4|].
    change (%"h") with (default_identifier Hour). rewrite E5.
    destruct (fmt_part_abs 60 Minute l5 s5 1000000000) as (l6 & s6 & E6 & B6 & _ & F6 & T6 & _); [lia|lia|reflexivity|exact F5|].
    change (%"m") with (default_identifier Minute). rewrite E6.
    unfold total in T1 at 2. cbn [fold_right] in T1.
    destruct (1 <=? s6) eqn:E7.
    - exists (l6 ++ [(s6, Second)]). rewrite map_app. split; [reflexivity|]. split.
      + apply Forall_app. split; [exact F6|]. constructor; [unfold part_ok; cbn; lia|constructor].
      + rewrite total_app. unfold total at 2. cbn [fold_right]. unfold part_ns. cbn [fst snd]. change (unit_ns Second) with 1000000000. lia.
    - exists l6. split; [reflexivity|]. split; [exact F6|]. lia. }
  destruct P1 as (l & E & F & T).
  unfold fmt_parts. fold s0 n0. cbn zeta. cbn zeta in E. rewrite E. unfold std_nanos. fold s0 n0.
  assert (N : forall l', total l' = s0 * 1000000000 + n0 -> s0 * 1000000000 + n0 <> 0 -> l' <> []).
  { intros l' G1 G2 ->. apply G2. rewrite <- G1. reflexivity. }
  destruct (0 <? n0) eqn:E0; [|exists l; split; [reflexivity|]; split; [exact F|]; split; [lia|apply N; lia]].
  destruct (fmt_part_abs 1000000 MilliSecond l n0 1) as (l1 & s1 & E1 & B1 & _ & F1 & T1 & _); [lia| |reflexivity|exact F|].
  { unfold u64_max. lia. }
  change (%"ms") with (default_identifier MilliSecond). rewrite E1.
  destruct (fmt_part_abs 1000 MicroSecond l1 s1 1) as (l2 & s2 & E2 & B2 & _ & F2 & T2 & _); [lia| |reflexivity|exact F1|].
  { unfold u64_max. lia. }
  change (%"Ms") with (default_identifier MicroSecond). rewrite E2.
  destruct (1 <=? s2) eqn:E7.
  - exists (l2 ++ [(s2, NanoSecond)]). rewrite map_app. split; [reflexivity|].
    assert (G : total (l2 ++ [(s2, NanoSecond)]) = s0 * 1000000000 + n0).
    { rewrite total_app. unfold total at 2. cbn [fold_right]. unfold part_ns. cbn [fst snd]. change (unit_ns NanoSecond) with 1. lia. }
    split; [|split; [exact G|now apply N]]. apply Forall_app. split; [exact F2|]. constructor; [unfold part_ok, u64_max; cbn; lia|constructor].
  - exists l2. split; [reflexivity|]. assert (G : total l2 = s0 * 1000000000 + n0) by lia. split; [exact F2|]. split; [exact G|now apply N].
Qed.

(** one component *)
Definition sign_of (ng : bool) : str := if ng then %"-" else [].
Definition value (ng : bool) (p : part) : duration := number_value ng (dec (fst p)) [] 0 (snd p) default_multiplier.
Notation Cd := (dp_config display_parser).
Notation Ud := (std_units (dp_units display_parser)).

Lemma unit_pos u : 0 < unit_ns u.
Proof. destruct u; reflexivity. Qed.
Lemma total_pos l : Forall part_ok l -> 0 <= total l.
Proof.
  induction 1 as [|p l Hp Hl IH]; [reflexivity|]. unfold total in *. cbn [fold_right]. unfold part_ns, part_ok in *. pose proof (unit_pos (snd p)). nia.
Qed.

Lemma value_nanos ng p : part_ok p -> part_ns p <= max_nanos -> nanos (value ng p) = signed_nanos ng (part_ns p).
Proof.
  intros Hp Hm. destruct p as [v u]. unfold part_ok, part_ns in *. cbn [fst snd] in *. destruct (dec_spec v Hp) as (D1 & D2 & D3).
  unfold value. cbn [fst snd]. rewrite (number_value_nanos ng (dec v) [] 0 u default_multiplier D2 digit_string_nil).
  cbn [coef expo default_multiplier length]. rewrite app_nil_r, D3, Z.mul_1_r.
  replace (coef (unit_length u) <? 0) with false by (destruct u; reflexivity). rewrite xorb_false_r. f_equal.
  unfold magnitude. change 1000000000 with (10 ^ 9). rewrite C17_exact by (left; destruct u; cbn; lia).
  assert (E : floor_scale10 (Z.abs (coef (unit_length u)) * v) (9 + (expo (unit_length u) + 0 + 0 - Z.of_nat 0)) = v * unit_ns u).
  { unfold floor_scale10, unit_ns. replace (expo (unit_length u) + 0 + 0 - Z.of_nat 0) with (expo (unit_length u)) by lia.
    replace (0 <=? 9 + expo (unit_length u)) with true by (destruct u; reflexivity).
    rewrite Z.abs_eq by (destruct u; cbn; lia). ring. }
  rewrite E. lia.
Qed.

Lemma id_facts u : default_identifier u <> [] /\ (forall x, In x (default_identifier u) -> unit_end Cd x = false /\ 0 <= x <= 127) /\
  forall r, starts_not is_digit (default_identifier u ++ r) /\ starts_not is_dot (default_identifier u ++ r) /\ starts_not is_e (default_identifier u ++ r).
Proof.
  split; [destruct u; discriminate|]. split.
  - intros x. destruct u; cbn; intros H; repeat destruct H as [<-|H]; try contradiction; (split; [reflexivity|lia]).
  - intros r. destruct u; repeat split; reflexivity.
Qed.

Lemma one_component ng p rest r : part_ok p ->
  (rest = [] /\ r = []) \/ (rest = 32 :: r /\ starts_with starts_duration r) ->
  component Cd Ud None None (sign_of ng ++ text p ++ rest) (value ng p) r.
Proof.
  intros Hp Hr. destruct p as [v u]. unfold part_ok in Hp. cbn [fst] in Hp. destruct (dec_spec v Hp) as (D1 & D2 & D3).
  destruct (id_facts u) as (I1 & I2 & I3). destruct (I3 rest) as (I4 & I5 & I6).
  unfold text, value. cbn [fst snd]. rewrite <- app_assoc.
  apply (co_number_unit Cd Ud None None _ ng (dec v ++ default_identifier u ++ rest) (dec v) [] 0 (default_identifier u ++ rest)).
  - destruct ng; cbn [sign_of app].
    + apply (with_sign Cd 45); auto. destruct (dec v); [contradiction|discriminate].
    + apply unsigned; [|destruct (dec v); [contradiction|discriminate]]. destruct (dec v) as [|x w]; [contradiction|]. cbn.
      assert (48 <= x <= 57) by (apply D2; now left). unfold is_sign. lia.
  - exists (default_identifier u ++ rest), (default_identifier u ++ rest), (default_identifier u ++ rest).
    split; [|split; [|split; [|split]]].
    + split; [reflexivity|]. split; [|exact I4]. intros x Hx. apply D2 in Hx. unfold is_digit. lia.
    + now constructor.
    + now constructor.
    + now constructor.
    + rewrite app_nil_r. exact D1.
  - reflexivity.
  - apply (mu_plain Cd Ud _ (default_identifier u) rest).
    + split; [reflexivity|]. split; [intros x Hx; now rewrite (proj1 (I2 x Hx))|]. destruct Hr as [[-> _]|[-> _]]; [exact Logic.I|reflexivity].
    + exact I1.
    + apply (proj1 C31_other_constructors). auto.
    + intros r' (G & _). discriminate G.
    + discriminate.
    + destruct Hr as [[-> ->]|[-> Hs]]; [constructor; exact Logic.I|].
      destruct r as [|x r]; [contradiction|]. cbn in Hs.
      apply nc_connection, (con_delimiter Cd _ [32]).
      * split; [reflexivity|]. split; [intros y [<-|[]]; reflexivity|]. cbn. unfold starts_duration, is_sign, is_digit in Hs. unfold is_ascii_whitespace. lia.
      * discriminate.
      * discriminate.
      * intros w [].
Qed.

Lemma all_components ng l : l <> [] -> Forall part_ok l ->
  components Cd Ud None None (sign_of ng ++ join (32 :: sign_of ng) (map text l)) (map (value ng) l) /\
  starts_with starts_duration (sign_of ng ++ join (32 :: sign_of ng) (map text l)) /\
  utf8 (sign_of ng ++ join (32 :: sign_of ng) (map text l)) = true.
Proof.
  assert (T : forall p, part_ok p -> utf8 (text p) = true).
  { intros [v u] Hp. unfold text. cbn [fst snd]. destruct (dec_spec v Hp) as (_ & D2 & _). rewrite utf8_digits by exact D2. destruct u; reflexivity. }
  assert (St : forall p r, part_ok p -> starts_with starts_duration (sign_of ng ++ text p ++ r)).
  { intros [v u] r Hp. destruct ng; [reflexivity|]. cbn [sign_of app]. unfold text. cbn [fst snd]. destruct (dec_spec v Hp) as (D1 & D2 & _).
    destruct (dec v) as [|x w]; [contradiction|]. cbn. assert (48 <= x <= 57) by (apply D2; now left). unfold starts_duration, is_digit. lia. }
  assert (Us : forall x, utf8 (sign_of ng ++ x) = utf8 x) by (intros x; apply utf8_app; destruct ng; reflexivity).
  induction l as [|p l IH]; intros N F; [contradiction|]. inversion F as [|? ? Hp Hl]; subst.
  destruct l as [|q l].
  - cbn [map join]. rewrite <- (app_nil_r (text p)). split; [|split; [apply St, Hp|rewrite Us, app_nil_r; apply T, Hp]].
    constructor. apply one_component; [exact Hp|now left].
  - destruct (IH ltac:(discriminate) Hl) as (C & S & U).
    change (join (32 :: sign_of ng) (map text (p :: q :: l))) with (text p ++ (32 :: sign_of ng) ++ join (32 :: sign_of ng) (map text (q :: l))).
    set (r := sign_of ng ++ join (32 :: sign_of ng) (map text (q :: l))) in *.
    replace ((32 :: sign_of ng) ++ join (32 :: sign_of ng) (map text (q :: l))) with (32 :: r) by (unfold r; reflexivity).
    split; [|split; [apply St, Hp|]].
    + change (map (value ng) (p :: q :: l)) with (value ng p :: map (value ng) (q :: l)). apply (cs_more Cd Ud None None _ _ r).
      * apply one_component; [exact Hp|]. right. split; [reflexivity|exact S].
      * destruct r; [contradiction|discriminate].
      * exact C.
    + rewrite Us, utf8_app by apply T, Hp. rewrite utf8_cons_ascii by lia. exact U.
Qed.

Lemma sum_parts ng l : Forall part_ok l -> forall a, 0 <= a -> a + total l <= max_nanos ->
  fold_left (fun a d => clamp_nanos (a + nanos d)) (map (value ng) l) (signed_nanos ng a) = signed_nanos ng (a + total l).
Proof.
  induction 1 as [|p l Hp Hl IH]; intros a Ha Hm; cbn [map fold_left].
  - f_equal. cbn. lia.
  - pose proof (total_pos l Hl) as Tp. unfold total in *. cbn [fold_right] in *. fold (total l) in *.
    assert (Pp : 0 <= part_ns p) by (unfold part_ns, part_ok in *; pose proof (unit_pos (snd p)); nia).
    rewrite value_nanos by (auto; lia).
    replace (clamp_nanos (signed_nanos ng a + signed_nanos ng (part_ns p))) with (signed_nanos ng (a + part_ns p)).
    + rewrite IH by lia. f_equal. lia.
    + unfold clamp_nanos, clamp, signed_nanos. destruct ng; lia.
Qed.

Theorem C10_display_parses_back : forall d, duration_ok d ->
  exists d', dp_parse display_parser (display d) = Ok d' /\ duration_ok d' /\ nanos d' = nanos d /\ deqb d' d = true.
Proof.
  intros d Hd.
  assert (G : exists d', dp_parse display_parser (display d) = Ok d' /\ duration_ok d' /\ nanos d' = nanos d).
  { unfold display. destruct (is_zero d) eqn:Z0.
    - exists ZERO. split; [vm_compute; reflexivity|]. split; [split; reflexivity|].
      unfold is_zero, std_is_zero in Z0. unfold nanos at 2. cbn. destruct d as [ng [s n]]; cbn in *. destruct ng; lia.
    - assert (Nz : std_nanos (inner d) <> 0).
      { unfold is_zero, std_is_zero in Z0. unfold std_nanos. destruct Hd as [H1 H2]. unfold is_u64, inb in *. lia. }
      destruct (fmt_parts_abs d Hd) as (l & E & F & T & N). specialize (N Nz). rewrite E.
      set (ng := neg d).
      assert (X : (if is_negative d then %"-" ++ join (%" -") (map text l) else join (%" ") (map text l)) =
                  sign_of ng ++ join (32 :: sign_of ng) (map text l)).
      { unfold is_negative, ng. destruct (neg d); reflexivity. }
      rewrite X. destruct (all_components ng l N F) as (C & _ & U).
      assert (En : env_ok Cd Ud None None).
      { apply std_env_ok; [|exact (proj1 (conj config_new_ok Logic.I))]. exists (fun _ => true). apply units_all_data. }
      pose proof (delims_none_ok Cd) as Do.
      destruct (C23_multiple_complete Cd Ud None None _ _ En Do U eq_refl C) as (D & E1 & E2 & E3).
      + intros x _. now left.
      + exists D. split; [exact E1|]. split; [exact E2|]. rewrite E3. unfold saturating_sum.
        assert (B : 0 <= std_nanos (inner d) <= max_nanos).
        { unfold std_nanos, max_nanos. destruct Hd as [H1 H2]. unfold is_u64, inb, u64_max in *. lia. }
        pose proof (sum_parts ng l F 0 ltac:(lia) ltac:(lia)) as S.
        replace (signed_nanos ng 0) with 0 in S by (destruct ng; reflexivity). rewrite S, T. unfold nanos, std_nanos, signed_nanos. unfold ng. destruct (neg d); lia. }
  destruct G as (d' & E1 & E2 & E3). exists d'. repeat split; try apply E2; auto. now apply C03_eq_is_value_equality.
Qed.
Print Assumptions C10_display_parses_back.
(** a text of every part *)
Example C10_example : display (Dur true (Std 31557600 1002003)) = %"-1y -1ms -2Ms -3ns" /\
  dp_parse display_parser (%"-1y -1ms -2Ms -3ns") = Ok (Dur true (Std 31557600 1002003)).
Proof. split; reflexivity. Qed.

(** the text never leaves the ASCII range, so that it is valid UTF-8 *)
Theorem C10_display_is_utf8 : forall d, duration_ok d -> utf8 (display d) = true.
Proof.
  intros d Hd. unfold display. destruct (is_zero d) eqn:Z0; [reflexivity|].
  assert (Nz : std_nanos (inner d) <> 0).
  { unfold is_zero, std_is_zero in Z0. unfold std_nanos. destruct Hd as [H1 H2]. unfold is_u64, inb in *. lia. }
  destruct (fmt_parts_abs d Hd) as (l & E & F & T & N). specialize (N Nz). rewrite E.
  destruct (is_negative d); [apply (all_components true l N F)|apply (all_components false l N F)].
Qed.
Print Assumptions C10_display_is_utf8.
