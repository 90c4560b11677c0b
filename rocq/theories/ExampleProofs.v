(** * The texts of the example programs are read back: proofs *)
From Verif Require Import Prelude Util Time Config Bytes Repr Parse SpecTime SpecNum SpecValue SpecParse SpecGrammar SpecSpelling SpecManyTexts
  TimeProofs NumProofs Utf8Proofs ValueProofs RefGrammar SpellProofs SwitchProofs SafeProofs Standard StandardProofs PropTime PropNum PropParse PropStandard PropDisplay PropText PropReadBack
  Custom Misc Examples SpecExamples.

(** ** the parts of the texts *)
Section Word.
Context (word : time_unit -> Z -> str).
Definition etext (p : part) : str := dec (fst p) ++ word (snd p) (fst p).
Lemma human_part_fits U u l s k q : 0 < U -> 0 < k -> 0 <= s <= u64_max -> 0 <= q < k -> unit_ns u = U * k -> Forall part_ok l -> fits l (s * k + q) ->
  below u (s * k + q) ->
  exists l' s', human_part U (word u) (map etext l, s) = (map etext l', s') /\ 0 <= s' <= s /\ Forall part_ok l' /\
    fits l' (s' * k + q) /\ total l' + s' * k = total l + s * k /\ s' * k + q < unit_ns u /\ (forall p, In p l' -> In p l \/ snd p = u).
Proof.
  intros HU Hk Hs Hq Eu Hl Hf Hb. unfold human_part. destruct (U <=? s) eqn:E.
  - pose proof (Z.mod_pos_bound s U HU). pose proof (Z.div_mod s U). pose proof (Z.mod_le s U).
    assert (s / U <= s) by (apply Z.div_le_upper_bound; nia).
    assert (1 <= s / U) by (apply Z.div_le_lower_bound; lia).
    exists (l ++ [(s / U, u)]), (s mod U). rewrite map_app. split; [reflexivity|]. split; [lia|]. split; [|split; [|split; [|split]]].
    + apply Forall_app. split; [exact Hl|]. constructor; [|constructor]. unfold part_ok. cbn. lia.
    + apply fits_app with (s * k + q); auto; rewrite Eu; nia.
    + rewrite total_app. unfold total at 2. cbn [fold_right]. unfold part_ns. cbn [fst snd]. rewrite Eu. nia.
    + rewrite Eu. nia.
    + intros p Hp. apply in_app_iff in Hp. destruct Hp as [Hp|[<-|[]]]; auto.
  - exists l, s. split; [reflexivity|]. split; [lia|]. split; [exact Hl|]. split; [exact Hf|]. split; [reflexivity|]. split; [rewrite Eu; nia|auto].
Qed.
Definition large (u : time_unit) : Prop := nanos_of_unit Second <= nanos_of_unit u.
Lemma human_secs_fits s0 n0 : 0 <= s0 <= u64_max -> 0 <= n0 < 1000000000 ->
  exists l, human_secs word s0 = map etext l /\ Forall part_ok l /\ total l = s0 * 1000000000 /\ fits l n0 /\ (forall p, In p l -> large (snd p)).
Proof.
  intros H1 B0. unfold human_secs. destruct (0 <? s0) eqn:E0; [|exists []; cbn; split; [reflexivity|split; [constructor|split; [lia|split; [exact I|contradiction]]]]]. cbn zeta.
  change (ex_secs Year) with 31557600. change (ex_secs Month) with 2629800. change (ex_secs Week) with 604800. change (ex_secs Day) with 86400. change (ex_secs Hour) with 3600. change (ex_secs Minute) with 60.
  destruct (human_part_fits 31557600 Year [] s0 1000000000 n0) as (l1 & s1 & E1 & B1 & F1 & G1 & T1 & L1 & S1); [lia|lia|lia|lia|reflexivity|constructor|exact I|step_below|].
  cbn [map] in E1. rewrite E1.
  destruct (human_part_fits 2629800 Month l1 s1 1000000000 n0) as (l2 & s2 & E2 & B2 & F2 & G2 & T2 & L2 & S2); [lia|lia|lia|lia|reflexivity|exact F1|exact G1|step_below|]. rewrite E2.
  destruct (human_part_fits 604800 Week l2 s2 1000000000 n0) as (l3 & s3 & E3 & B3 & F3 & G3 & T3 & L3 & S3); [lia|lia|lia|lia|reflexivity|exact F2|exact G2|step_below|]. rewrite E3.
  destruct (human_part_fits 86400 Day l3 s3 1000000000 n0) as (l4 & s4 & E4 & B4 & F4 & G4 & T4 & L4 & S4); [lia|lia|lia|lia|reflexivity|exact F3|exact G3|step_below|]. rewrite E4.
  destruct (human_part_fits 3600 Hour l4 s4 1000000000 n0) as (l5 & s5 & E5 & B5 & F5 & G5 & T5 & L5 & S5); [lia|lia|lia|lia|reflexivity|exact F4|exact G4|step_below|]. rewrite E5.
  destruct (human_part_fits 60 Minute l5 s5 1000000000 n0) as (l6 & s6 & E6 & B6 & F6 & G6 & T6 & L6 & S6); [lia|lia|lia|lia|reflexivity|exact F5|exact G5|step_below|]. rewrite E6.
  unfold total in T1 at 2. cbn [fold_right] in T1.
  assert (LL : forall p, In p l6 -> large (snd p)).
  { intros p Hp. unfold large. apply S6 in Hp. destruct Hp as [Hp|Hp]; [|rewrite Hp; cbn; lia]. apply S5 in Hp. destruct Hp as [Hp|Hp]; [|rewrite Hp; cbn; lia].
    apply S4 in Hp. destruct Hp as [Hp|Hp]; [|rewrite Hp; cbn; lia]. apply S3 in Hp. destruct Hp as [Hp|Hp]; [|rewrite Hp; cbn; lia].
    apply S2 in Hp. destruct Hp as [Hp|Hp]; [|rewrite Hp; cbn; lia]. apply S1 in Hp. destruct Hp as [[]|Hp]; rewrite Hp; cbn; lia. }
  destruct (1 <=? s6) eqn:E7.
  - exists (l6 ++ [(s6, Second)]). rewrite map_app. split; [reflexivity|]. split; [|split; [|split]].
    + apply Forall_app. split; [exact F6|]. constructor; [unfold part_ok; cbn; lia|constructor].
    + rewrite total_app. unfold total at 2. cbn [fold_right]. unfold part_ns. cbn [fst snd]. change (unit_ns Second) with 1000000000. lia.
    + apply fits_app with (s6 * 1000000000 + n0); [change (unit_ns Second) with 1000000000; lia|exact G6|lia|step_below|change (unit_ns Second) with 1000000000; lia].
    + intros p Hp. apply in_app_iff in Hp. destruct Hp as [Hp|[<-|[]]]; [auto|]. unfold large. cbn. lia.
  - exists l6. split; [reflexivity|]. split; [exact F6|]. assert (s6 = 0) by lia. subst s6. split; [lia|]. split; [|exact LL]. replace (0 * 1000000000 + n0) with n0 in G6 by lia. exact G6.
Qed.
Lemma written_join_with ng l : l <> [] -> Forall part_ok l -> written_with word ng l (sign_of ng ++ join (32 :: sign_of ng) (map etext l)).
Proof.
  induction l as [|[v u] l IH]; intros N F; [congruence|]. inversion F as [|? ? Hp Hl]; subst. unfold part_ok in Hp. cbn [fst] in Hp. destruct l as [|q l].
  - cbn [map join]. unfold etext. cbn [fst snd]. exact (ww_one word ng v u (dec v) (dec_decimal v Hp)).
  - change (join (32 :: sign_of ng) (map etext ((v, u) :: q :: l))) with (etext (v, u) ++ (32 :: sign_of ng) ++ join (32 :: sign_of ng) (map etext (q :: l))).
    replace (sign_of ng ++ etext (v, u) ++ (32 :: sign_of ng) ++ join (32 :: sign_of ng) (map etext (q :: l)))
      with (((if ng then %"-" else []) ++ dec v ++ word u v) ++ %" " ++ (sign_of ng ++ join (32 :: sign_of ng) (map etext (q :: l)))).
    + apply ww_more; [now apply dec_decimal|]. apply IH; [discriminate|exact Hl].
    + unfold etext at 2. cbn [fst snd]. unfold sign_of. rewrite <- !app_assoc. reflexivity.
Qed.

(** ** how they are read *)
Section ReadBack.
Context (c : config) (tu : units_like) (kw : option units_like) (nums : option numbers_like).
Context (RT : reads_texts c) (NE : u_is_empty tu = false) (usable : time_unit -> Prop).
Context (WK : forall u v, usable u -> word u v <> [] /\ (forall x, In x (word u v) -> text_byte x /\ starts_duration x = false) /\
  forall r, starts_not is_digit (word u v ++ r) /\ starts_not is_dot (word u v ++ r) /\ starts_not is_e (word u v ++ r)).
Definition known (p : part) : Prop := u_get tu (word (snd p) (fst p)) = Some (snd p, default_multiplier).
Lemma none_inner l : (forall x, In x l -> text_byte x) -> forall r, l <> [] -> span (c_inner_delimiter c) (l ++ r) [] (l ++ r).
Proof.
  intros H r N. split; [reflexivity|]. split; [intros x []|]. destruct l as [|x l]; [contradiction|]. cbn. apply (rt_inner c RT), H. now left.
Qed.
Lemma digits_text w : digit_string w -> forall x, In x w -> text_byte x.
Proof. intros H x Hx. apply H in Hx. left. exact Hx. Qed.
Lemma duration_text_byte x : starts_duration x = true -> x <> 43 -> text_byte x.
Proof. unfold starts_duration, is_digit, is_sign, text_byte. lia. Qed.

Lemma nocase_digit x y : eq_nocase x y = true -> starts_duration x = true -> x = y.
Proof.
  unfold eq_nocase, to_lower, starts_duration, is_digit, is_sign. intros H G. destruct ((65 <=? x) && (x <=? 90)) eqn:A; destruct ((65 <=? y) && (y <=? 90)) eqn:B; lia.
Qed.

Lemma a_component ng p rest r : part_ok p -> known p -> (forall q, q = p -> usable (snd q)) ->
  (rest = [] /\ r = []) \/ (rest = 32 :: r /\ exists y z, r = y :: z /\ starts_duration y = true /\ y <> 43) ->
  component c tu kw nums (sign_of ng ++ etext p ++ rest) (value ng p) r.
Proof.
  intros Hp Hk Hw Hr. destruct p as [v u]. unfold part_ok in Hp. cbn [fst snd] in *. destruct (dec_spec v Hp) as (D1 & D2 & D3).
  unfold known in Hk. cbn [fst snd] in Hk.
  destruct (WK u v (Hw (v, u) eq_refl)) as (I1 & I2 & I3). destruct (I3 rest) as (I4 & I5 & I6).
  unfold etext, value. cbn [fst snd]. rewrite <- app_assoc.
  apply (co_number_unit c tu kw nums _ ng (dec v ++ word u v ++ rest) (dec v) [] 0 (word u v ++ rest)).
  - assert (N : dec v ++ word u v ++ rest <> []) by (destruct (dec v); [contradiction|discriminate]).
    destruct ng; cbn [sign_of app].
    + destruct (c_allow_sign_delimiter c) eqn:Es; [|now apply (with_sign c 45)]. apply (with_sign_delimiter c 45 _ []); auto.
      apply none_inner; [|exact D1]. now apply digits_text.
    + apply unsigned; [|exact N]. destruct (dec v) as [|x w]; [contradiction|]. cbn.
      assert (48 <= x <= 57) by (apply D2; now left). unfold is_sign. lia.
  - exists (word u v ++ rest), (word u v ++ rest), (word u v ++ rest).
    split; [|split; [|split; [|split]]].
    + split; [reflexivity|]. split; [|exact I4]. intros x Hx. apply D2 in Hx. unfold is_digit. lia.
    + now constructor.
    + now constructor.
    + destruct (c_allow_time_unit_delimiter c) eqn:Et; [|now constructor]. apply (some_unit_delimiter c _ []); auto. apply none_inner; [|exact I1]. intros x Hx. now apply I2.
    + rewrite app_nil_r. exact D1.
  - exact NE.
  - assert (Rr : rest = [] \/ exists y z, rest = 32 :: y :: z /\ starts_duration y = true /\ y <> 43).
    { destruct Hr as [[-> _]|(-> & y & z & -> & H)]; [now left|right]. exists y, z. auto. }
    apply (mu_plain c tu _ (word u v) rest).
    + split; [reflexivity|]. split.
      * intros x Hx. destruct (I2 x Hx) as [T S]. unfold unit_end, keyword_end. rewrite (rt_outer c RT x T), S, (rt_inner c RT x T), andb_false_r. reflexivity.
      * destruct Rr as [->|(y & z & -> & _)]; [exact Logic.I|]. cbn. unfold unit_end, keyword_end. now rewrite (rt_space c RT).
    + exact I1.
    + exact Hk.
    + intros r' (_ & ds & a & S1 & S2 & (w & S3 & S4) & _). destruct S1 as (E & Hd & _). destruct Rr as [->|(y & z & -> & H1 & H2)].
      * destruct ds; [contradiction|discriminate].
      * destruct ds as [|d1 ds]; [contradiction|]. injection E as <- E. destruct ds as [|d2 ds].
        -- cbn [app] in E. subst a. pose proof (str_eq_nocase_length _ _ S4) as L. destruct w as [|w1 w]; [discriminate|]. injection S3 as <- _.
           apply andb_true_iff in S4. destruct S4 as [S4 _]. apply nocase_digit in S4; [|exact H1]. subst y. discriminate H1.
        -- injection E as <- _. specialize (Hd y (or_intror (or_introl eq_refl))). rewrite (rt_inner c RT) in Hd by now apply duration_text_byte. discriminate.
    + intros _ (N & S & H & _). destruct Rr as [->|(y & z & -> & H1 & H2)]; [contradiction|]. specialize (H y (or_intror (or_introl eq_refl))).
      rewrite (rt_inner c RT) in H by now apply duration_text_byte. discriminate.
    + destruct Hr as [[-> ->]|(-> & y & z & -> & H1 & H2)]; [constructor; exact Logic.I|].
      apply nc_connection, (con_delimiter c _ [32]).
      * split; [reflexivity|]. split; [intros x [<-|[]]; exact (rt_space c RT)|]. cbn. apply (rt_outer c RT). now apply duration_text_byte.
      * discriminate.
      * discriminate.
      * intros w Hw2 (r' & v' & E & Hv). destruct (rt_conjunctions c RT w Hw2) as [W1 W2]. pose proof (str_eq_nocase_length _ _ Hv) as L.
        destruct w as [|w0 w]; [contradiction|]. destruct v' as [|v0 v']; [discriminate|]. injection E as -> _. cbn in W2. cbn in Hv. apply W2.
        apply andb_true_iff in Hv. destruct Hv as [Hv _]. apply nocase_digit in Hv; [|exact H1]. subst w0. revert H1. clear. unfold digit_or_sign, starts_duration, is_digit, is_sign. lia.
Qed.

Lemma the_components ng l : l <> [] -> Forall part_ok l -> (forall p, In p l -> known p /\ usable (snd p)) ->
  components c tu kw nums (sign_of ng ++ join (32 :: sign_of ng) (map etext l)) (map (value ng) l) /\
  exists y z, sign_of ng ++ join (32 :: sign_of ng) (map etext l) = y :: z /\ starts_duration y = true /\ y <> 43.
Proof.
  assert (St : forall p r, part_ok p -> exists y z, sign_of ng ++ etext p ++ r = y :: z /\ starts_duration y = true /\ y <> 43).
  { intros [v u] r Hp. destruct ng; [eexists; eexists; split; [reflexivity|split; [reflexivity|discriminate]]|]. cbn [sign_of app]. unfold etext. cbn [fst snd]. destruct (dec_spec v Hp) as (D1 & D2 & _).
    destruct (dec v) as [|x w]; [contradiction|]. eexists. eexists. split; [reflexivity|]. assert (48 <= x <= 57) by (apply D2; now left). unfold starts_duration, is_digit. lia. }
  induction l as [|p l IH]; intros N F K; [contradiction|]. inversion F as [|? ? Hp Hl]; subst.
  assert (Kp : known p /\ usable (snd p)) by (apply K; now left). destruct Kp as [Kp Up].
  destruct l as [|q l].
  - cbn [map join]. rewrite <- (app_nil_r (etext p)). split; [|apply St, Hp]. constructor. apply a_component; [exact Hp|exact Kp|intros ? ->; exact Up|now left].
  - destruct (IH ltac:(discriminate) Hl) as (C & S); [intros q0 H; apply K; now right|].
    change (join (32 :: sign_of ng) (map etext (p :: q :: l))) with (etext p ++ (32 :: sign_of ng) ++ join (32 :: sign_of ng) (map etext (q :: l))).
    set (r := sign_of ng ++ join (32 :: sign_of ng) (map etext (q :: l))) in *.
    replace ((32 :: sign_of ng) ++ join (32 :: sign_of ng) (map etext (q :: l))) with (32 :: r) by (unfold r; reflexivity).
    split; [|apply St, Hp].
    change (map (value ng) (p :: q :: l)) with (value ng p :: map (value ng) (q :: l)). apply (cs_more c tu kw nums _ _ r).
    + apply a_component; [exact Hp|exact Kp|intros ? ->; exact Up|]. right. split; [reflexivity|exact S].
    + destruct S as (y & z & -> & _). discriminate.
    + exact C.
Qed.
End ReadBack.
End Word.
