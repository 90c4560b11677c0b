(** * Property C94: the text of a duration for debugging, and how it is read *)
From Verif Require ExEnv.
From Verif Require Import Prelude Util Time Config Bytes Repr Parse SpecTime SpecNum SpecValue SpecParse SpecGrammar SpecSpelling SpecSystemd SpecDebug
  TimeProofs NumProofs Utf8Proofs BytesProofs ValueProofs RefGrammar SpellProofs SwitchProofs SafeProofs Standard StandardProofs PropTime PropNum PropParse PropStandard PropDisplay PropText Systemd SystemdProofs PropSystemd SystemdExact PropSystemdExact PropReadBack
  DateTime Gnu Misc Examples ExamplesMore.

(** ** the digits after the point *)
Lemma debug_digits_spec : forall n k r div, (k <= n)%nat -> 0 <= r < 10 ^ Z.of_nat k -> (r = 0 \/ div = 10 ^ (Z.of_nat k - 1)) ->
  let F := debug_digits n r div in
  digit_string F /\ (length F <= k)%nat /\ dval F * 10 ^ (Z.of_nat k - Z.of_nat (length F)) = r /\ forall F', F <> F' ++ [48].
Proof.
  induction n as [|n IH]; intros k r div Hk Hr Hd; cbn [debug_digits].
  - destruct k as [|k]; [|lia]. cbn. split; [intros x []|]. split; [lia|]. split; [cbn in Hr; lia|]. intros F' E. now destruct F'.
  - destruct (0 <? r) eqn:E0.
    + destruct Hd as [->|Hd]; [discriminate|]. destruct k as [|k]; [cbn in Hr; lia|]. replace (Z.of_nat (S k) - 1) with (Z.of_nat k) in Hd by lia.
      assert (P : 0 < div) by (subst div; apply Z.pow_pos_nonneg; lia). assert (T : 10 ^ Z.of_nat (S k) = 10 * div) by (subst div; rewrite Nat2Z.inj_succ, Z.pow_succ_r by lia; reflexivity). rewrite T in Hr.
      pose proof (Z.mod_pos_bound r div P) as M. pose proof (Z.div_mod r div ltac:(lia)) as DM. assert (Q : 0 <= r / div <= 9) by (split; [apply Z.div_pos; lia|assert (r / div < 10) by (apply Z.div_lt_upper_bound; lia); lia]).
      destruct (IH k (r mod div) (div / 10)) as (I1 & I2 & I3 & I4); [lia|rewrite <- Hd; lia| |].
      { destruct k as [|k]; [left; subst div; apply Z.mod_1_r|right]. subst div. rewrite Nat2Z.inj_succ, Z.pow_succ_r by lia. rewrite Z.mul_comm, Z.div_mul by lia. f_equal. lia. }
      set (G := debug_digits n (r mod div) (div / 10)) in *. split; [intros x [<-|Hx]; [lia|now apply I1]|]. split; [cbn; lia|]. split.
      * change (48 + r / div :: G) with ([48 + r / div] ++ G). rewrite dval_app. replace (dval [48 + r / div]) with (r / div) by (unfold dval; cbn [dval_from]; lia). rewrite app_length. cbn [length].
        replace (Z.of_nat (S k) - Z.of_nat (1 + length G)) with (Z.of_nat k - Z.of_nat (length G)) by lia. rewrite Z.mul_add_distr_r, I3, <- Z.mul_assoc, <- Z.pow_add_r by lia.
        replace (Z.of_nat (length G) + (Z.of_nat k - Z.of_nat (length G))) with (Z.of_nat k) by lia. rewrite <- Hd, (Z.mul_comm (r / div)). now symmetry.
      * intros F' E. destruct F' as [|y F']; [|injection E as _ E; exact (I4 F' E)]. pose proof (f_equal (hd 0) E) as E1. pose proof (f_equal (@tl Z) E) as E2. cbn [hd tl app] in E1, E2. rewrite E2 in I3. change (0 = r mod div) in I3. assert (Z0 : r / div = 0) by (clear - E1; lia). rewrite Z0, <- I3, Z.mul_0_r in DM. clear - DM E0. lia.
    + assert (r = 0) by lia. subst r. split; [intros x []|]. split; [cbn; lia|]. split; [reflexivity|]. intros F' E. now destruct F'.
Qed.
Lemma fmt_decimal_text v (k : nat) id div : (k <= 9)%nat -> 0 <= v -> v / 10 ^ Z.of_nat k <= 18446744073709551615 -> debug_unit v id (10 ^ Z.of_nat k) -> (k = 0%nat \/ div = 10 ^ (Z.of_nat k - 1)) ->
  debug_text v (fmt_decimal (v / 10 ^ Z.of_nat k) (v mod 10 ^ Z.of_nat k) div id).
Proof.
  intros Hk Hv Hm DU Hd. set (L := 10 ^ Z.of_nat k) in *. assert (P : 0 < L) by (apply Z.pow_pos_nonneg; lia). pose proof (Z.mod_pos_bound v L P) as M.
  destruct (debug_digits_spec 9 k (v mod L) div Hk M) as (I1 & I2 & I3 & I4); [destruct Hd as [->|Hd]; [left; unfold L; cbn; apply Z.mod_1_r|now right]|].
  unfold fmt_decimal. set (F := debug_digits 9 (v mod L) div) in *. exists id, L, (dec (v / L)), (match F with [] => [] | _ => %"." ++ F end), F.
  split; [exact DU|]. split; [apply dec_decimal; split; [apply Z.div_pos; lia|exact Hm]|]. split; [destruct F; [constructor|now constructor]|]. split; [destruct F; [discriminate|discriminate]|].
  split; [exact I4|]. split; [|reflexivity]. rewrite <- I3, <- Z.mul_assoc, <- Z.pow_add_r by lia. f_equal. unfold L. f_equal. lia.
Qed.
(** ** C94: what is printed *)
Theorem C94_std_debug : forall d, std_ok d -> debug_text (std_nanos d) (std_debug d).
Proof.
  intros [s n] [H1 H2]. unfold std_debug, std_nanos. cbn [secs subsec] in *. unfold is_u64, inb in *. change u64_max with 18446744073709551615 in *.
  assert (U : forall v id L, In (id, L) debug_units -> (L <= v \/ L = 1) -> (forall id' L', In (id', L') debug_units -> L' <= v -> L' <= L) -> debug_unit v id L) by (intros v id L A B C; split; [exact A|split; [exact B|exact C]]).
  assert (X : forall v L, (forall L', In L' [1000000000; 1000000; 1000; 1] -> L' <= v -> L' <= L) -> forall id' L', In (id', L') debug_units -> L' <= v -> L' <= L).
  { intros v L H id' L' H'. apply H. unfold debug_units in H'. cbn in H'. cbn. repeat destruct H' as [H'|H']; try (injection H' as _ <-; auto); contradiction. }
  destruct (0 <? s) eqn:E1; [|destruct (1000000 <=? n) eqn:E2; [|destruct (1000 <=? n) eqn:E3]].
  - assert (Q : (s * 1000000000 + n) / 10 ^ Z.of_nat 9 = s /\ (s * 1000000000 + n) mod 10 ^ Z.of_nat 9 = n) by (change (10 ^ Z.of_nat 9) with 1000000000; split; [symmetry; apply Z.div_unique with n|symmetry; apply Z.mod_unique with s]; lia).
    destruct Q as [Q1 Q2]. rewrite <- Q1 at 2. rewrite <- Q2 at 3. apply fmt_decimal_text; [lia|lia|rewrite Q1; lia| |right; reflexivity].
    change (10 ^ Z.of_nat 9) with 1000000000. apply U; [left; reflexivity|left; lia|]. apply X. cbn. intros L' H. lia.
  - assert (s = 0) by lia. subst s. change (0 * 1000000000 + n) with n. change 1000000 with (10 ^ Z.of_nat 6). apply fmt_decimal_text; [lia|lia| | |right; reflexivity].
    + change (10 ^ Z.of_nat 6) with 1000000. assert (n / 1000000 <= n) by (apply Z.div_le_upper_bound; lia). lia.
    + change (10 ^ Z.of_nat 6) with 1000000. apply U; [right; left; reflexivity|left; lia|]. apply X. cbn. intros L' H. lia.
  - assert (s = 0) by lia. subst s. change (0 * 1000000000 + n) with n. change 1000 with (10 ^ Z.of_nat 3). apply fmt_decimal_text; [lia|lia| | |right; reflexivity].
    + change (10 ^ Z.of_nat 3) with 1000. assert (n / 1000 <= n) by (apply Z.div_le_upper_bound; lia). lia.
    + change (10 ^ Z.of_nat 3) with 1000. apply U; [right; right; left; reflexivity|left; lia|]. apply X. cbn. intros L' H. lia.
  - assert (s = 0) by lia. subst s. change (0 * 1000000000 + n) with n. pose proof (fmt_decimal_text n 0 (%"ns") 1) as G. change (10 ^ Z.of_nat 0) with 1 in G. rewrite Z.div_1_r, Z.mod_1_r in G. apply G; [lia|lia|lia| |now left].
    apply U; [right; right; right; left; reflexivity|now right|]. apply X. cbn. intros L' H. lia.
Qed.
Print Assumptions C94_std_debug.
Theorem C94_debug : forall d, duration_ok d -> fundu_debug_text (neg d) (std_nanos (inner d)) (debug d).
Proof. intros d H. exists (std_debug (inner d)). split; [apply C94_std_debug; exact H|reflexivity]. Qed.
Print Assumptions C94_debug.

(** ** reading it back *)
Lemma debug_unit_fun v id L id' L' : debug_unit v id L -> debug_unit v id' L' -> id = id' /\ L = L'.
Proof.
  intros (A1 & A2 & A3) (B1 & B2 & B3). pose proof A1 as A1'. pose proof B1 as B1'. unfold debug_units in A1', B1'.
  assert (P : 1 <= L /\ 1 <= L') by (cbn in A1', B1'; repeat destruct A1' as [A1'|A1']; repeat destruct B1' as [B1'|B1']; try contradiction; injection A1' as _ <-; injection B1' as _ <-; lia).
  assert (E : L = L') by (destruct A2 as [A2| ->]; [pose proof (B3 id L A1 A2); destruct B2 as [B2| ->]; [pose proof (A3 id' L' B1 B2); lia|lia]|destruct B2 as [B2| ->]; [pose proof (A3 id' L' B1 B2); lia|reflexivity]]).
  split; [|exact E]. subst L'. cbn in A1', B1'. repeat destruct A1' as [A1'|A1']; repeat destruct B1' as [B1'|B1']; try contradiction; inversion A1'; subst id L; inversion B1'; reflexivity.
Qed.
(** the units *)
Lemma the_unit id L : In (id, L) debug_units -> id <> [] /\ utf8 id = true /\ ends_number id /\
  exists k : nat, (k <= 9)%nat /\ L = 10 ^ Z.of_nat k /\ forall u, unit_nanos u = L -> coef (unit_length u) = 1 /\ expo (unit_length u) = Z.of_nat k - 9.
Proof.
  intros H. unfold debug_units in H. cbn in H. repeat destruct H as [H|H]; try contradiction; injection H as <- <-; (split; [discriminate|]; split; [reflexivity|]; split; [repeat split|]).
  - exists 9%nat. split; [lia|]. split; [reflexivity|]. intros u. destruct u; try discriminate. intros _. split; reflexivity.
  - exists 6%nat. split; [lia|]. split; [reflexivity|]. intros u. destruct u; try discriminate. intros _. split; reflexivity.
  - exists 3%nat. split; [lia|]. split; [reflexivity|]. intros u. destruct u; try discriminate. intros _. split; reflexivity.
  - exists 0%nat. split; [lia|]. split; [reflexivity|]. intros u. destruct u; try discriminate. intros _. split; reflexivity.
Qed.
Lemma dval_nonneg F : digit_string F -> 0 <= dval F.
Proof.
  induction F as [|x F IH] using rev_ind; intros H; [discriminate|]. rewrite dval_app. assert (digit_string F) by (intros y Hy; apply H; apply in_or_app; now left). specialize (IH H0).
  assert (48 <= x <= 57) by (apply H; apply in_or_app; right; now left). replace (dval [x]) with (x - 48) by (unfold dval; cbn [dval_from]; lia). cbn [length]. change (10 ^ Z.of_nat 1) with 10. lia.
Qed.
(** not more digits than the unit has decimal places *)
Lemma debug_length F k r : digit_string F -> (forall F', F <> F' ++ [48]) -> dval F * 10 ^ Z.of_nat k = r * 10 ^ Z.of_nat (length F) -> (length F <= k)%nat.
Proof.
  intros D N E. destruct (le_lt_dec (length F) k) as [|L]; [assumption|exfalso].
  destruct (exists_last (l := F)) as (F0 & x & ->); [intros ->; cbn in L; lia|]. rewrite app_length in L. cbn [length] in L. rewrite dval_app, app_length in E. cbn [length] in E. change (10 ^ Z.of_nat 1) with 10 in E.
  replace (dval [x]) with (x - 48) in E by (unfold dval; cbn [dval_from]; lia). assert (B : 48 <= x <= 57) by (apply D, in_or_app; right; now left).
  replace (Z.of_nat (length F0 + 1)) with (1 + Z.of_nat (length F0 - k) + Z.of_nat k) in E by lia. rewrite !Z.pow_add_r, !Z.mul_assoc in E by lia. apply Z.mul_reg_r in E; [|apply Z.pow_nonzero; lia].
  change (10 ^ 1) with 10 in E. apply (N F0). f_equal. f_equal. assert (M : (dval F0 * 10 + (x - 48)) mod 10 = 0) by (rewrite E; replace (r * 10 * 10 ^ Z.of_nat (length F0 - k)) with (r * 10 ^ Z.of_nat (length F0 - k) * 10) by ring; apply Z.mod_mul; lia).
  rewrite Z.add_comm, Z.mod_add in M by lia. rewrite Z.mod_small in M by lia. lia.
Qed.
(** the number of the text *)
Lemma debug_number v t : 0 <= v -> debug_text v t -> exists id L W fr F, debug_unit v id L /\ digit_string W /\ W <> [] /\ fraction_text fr F /\ (length F <= 9)%nat /\
  dval (W ++ F) * L = v * 10 ^ Z.of_nat (length F) /\ t = W ++ fr ++ id.
Proof.
  intros Hv (id & L & W & fr & F & DU & (W1 & W2 & W3) & HF & _ & N & E & ->). exists id, L, W, fr, F. destruct (the_unit id L (proj1 DU)) as (_ & _ & _ & k & Hk & EL & _).
  assert (DF : digit_string F) by (destruct HF; [intros x []|assumption]). assert (P : 0 < L) by (rewrite EL; apply Z.pow_pos_nonneg; lia).
  split; [exact DU|]. split; [exact W1|]. split; [now destruct W|]. split; [exact HF|]. split.
  - rewrite EL in E. apply debug_length in E; [lia|exact DF|exact N].
  - split; [|reflexivity]. rewrite dval_app, W2, Z.mul_add_distr_r, E. pose proof (Z.div_mod v L ltac:(lia)) as DM. rewrite DM at 3. ring.
Qed.
(** C94: a parser for single durations which knows the unit of the text reads exactly the value *)
Theorem C94_read_back : forall c tu kw nums v t id u, env_ok c tu kw nums -> c_allow_multiple c = false -> c_disable_fraction c = false ->
  debug_text v t -> 0 <= v <= max_nanos -> debug_unit v id (unit_nanos u) -> (forall x, In x id -> c_inner_delimiter c x = false) ->
  u_is_empty tu = false -> u_get tu id = Some (u, Mul 1 0) ->
  exists d, parse c t tu kw nums = Ok d /\ duration_ok d /\ nanos d = v.
Proof.
  intros c tu kw nums v t id u HE Hm Hfr T Hv DU Hi Ne G. destruct (debug_number v t (proj1 Hv) T) as (id' & L & W & fr & F & DU' & DW & NW & HF & LF & E & ->).
  destruct (debug_unit_fun _ _ _ _ _ DU' DU) as [-> EL]. destruct (the_unit id L (proj1 DU')) as (I1 & I2 & I3 & k & Hk & EL' & I4). destruct (I4 u (eq_sym EL)) as [I5 I6].
  destruct (C17_number_with_unit c tu kw nums [] false W fr F [] 0 [] id u (Mul 1 0)) as (d & H1 & H2 & H3); auto.
  - constructor.
  - constructor.
  - destruct W; [contradiction|discriminate].
  - intros X. contradiction.
  - intros X. contradiction.
  - split; [intros x []|]. split; [destruct id as [|x id]; [contradiction|]; cbn; apply Hi; now left|]. split; [reflexivity|now left].
  - cbn [coef]. rewrite I5. discriminate.
  - exists d. split; [exact H1|]. split; [exact H2|]. rewrite H3. cbn [coef expo]. rewrite I5, I6. change (1 * 1 <? 0) with false. cbn [xorb signed_nanos]. unfold signed_nanos.
    set (n := Z.of_nat (length F)) in *. set (V := dval (W ++ F)) in *. unfold floor_scale10. replace (0 <=? 18 + (Z.of_nat k - 9 + 0 + 0 - n)) with true by lia.
    replace (18 + (Z.of_nat k - 9 + 0 + 0 - n)) with (Z.of_nat k + (9 - n)) by lia. rewrite Z.pow_add_r, (Z.mul_assoc V), <- EL', E, <- (Z.mul_assoc v), <- Z.pow_add_r by lia. replace (n + (9 - n)) with 9 by lia.
    change (Z.abs (1 * 1)) with 1. rewrite Z.mul_1_l, Z.div_mul by lia. lia.
Qed.
Print Assumptions C94_read_back.

(** ** the standard parser: everything but microseconds, whose identifier is `Ms` and not `µs` *)
Lemma unknown_unit_rejected tu W fr F id : env_ok config_new tu None None -> digit_string W -> W <> [] -> fraction_text fr F -> id <> [] -> utf8 id = true -> ends_number id ->
  u_get tu id = None -> exists e, parse config_new (W ++ fr ++ id) tu None None = Err e.
Proof.
  intros He HW NW HF Ni Hi (E1 & E2 & E3) Hu.
  assert (U : utf8 (W ++ fr ++ id) = true) by (rewrite utf8_digits by exact HW; destruct HF; [exact Hi|]; change (utf8 (46 :: F ++ id) = true); cbn [app utf8]; now rewrite utf8_digits).
  destruct (C20_never_crashes _ _ _ _ _ He U) as [(d & P & _)|P]; [|exact P]. exfalso.
  apply C22_single_grammar in P; [|exact He|exact U|reflexivity]. destruct P as [P _].
  assert (SN : starts_number config_new false W F id (W ++ fr ++ id)).
  { apply (StartsNumber config_new false W F id [] fr); auto using st_none; try congruence. destruct W; [contradiction|discriminate]. }
  destruct (starts_number_signed _ _ _ _ _ _ SN) as (l0 & S & Hd & N).
  destruct (digit_head_not_word config_new l0 Hd) as [Nw Ninf].
  assert (X : forall x l3, exponent config_new id x l3 -> l3 = id).
  { intros x l3 H. inversion H as [|y sg n' l' ds r e Hy]; subst; [reflexivity|]. cbn in E3. congruence. }
  assert (R : forall W' F' x r, number config_new l0 W' F' x r -> r = id).
  { intros W' F' x r H. apply N in H. destruct H as (_ & _ & l3 & H1 & H2). apply X in H1. subst l3.
    inversion H2 as [|l' ds r' Ha]; subst; [reflexivity|discriminate Ha]. }
  inversion P as [s n l1 W' F' x H1 H2|s n l1 W' F' x r u m H1 H2 H3 H4 H5|s n l1 H1 H2 H3|s n l1 u m H1 H2|s n l1 u m H1 H2|s n l1 num r u m H1 H2];
    subst; destruct (signed_fun _ _ _ _ _ _ H1 S) as [_ ->]; try contradiction.
  - apply R in H2. congruence.
  - apply R in H2. subst r. inversion H5 as [l' u' m' Ha G|l' u' m' Ha|l' w l1' ds a u' m' Ha]; subst; try discriminate Ha. congruence.
  - assert (T : word_prefix (%"inf") l0 (skipn 3 l0)).
    { apply word_prefix_iff. split; [|reflexivity]. unfold BytesProofs.starts_nocase. cbn [length bytes_of].
      destruct H3 as [H3|H3]; destruct l0 as [|a [|b [|c0 l0]]]; cbn in H3 |- *; rewrite ?andb_false_r in H3; try discriminate H3;
        repeat (apply andb_true_iff in H3; destruct H3 as [? H3]); repeat (apply andb_true_iff; split; auto). }
    exact (Ninf _ T).
Qed.
Definition debug_unit_of (v : Z) : time_unit := if 1000000000 <=? v then Second else if 1000000 <=? v then MilliSecond else if 1000 <=? v then MicroSecond else NanoSecond.
Lemma debug_unit_is v : 0 <= v -> debug_unit v (match debug_unit_of v with Second => %"s" | MilliSecond => %"ms" | MicroSecond => [194; 181; 115] | _ => %"ns" end) (unit_nanos (debug_unit_of v)).
Proof.
  intros Hv. unfold debug_unit_of.
  assert (X : forall L, (forall L', In L' [1000000000; 1000000; 1000; 1] -> L' <= v -> L' <= L) -> forall id' L', In (id', L') debug_units -> L' <= v -> L' <= L).
  { intros L H id' L' H'. apply H. unfold debug_units in H'. cbn in H'. cbn. repeat destruct H' as [H'|H']; try (injection H' as _ <-; auto); contradiction. }
  destruct (1000000000 <=? v) eqn:E1; [|destruct (1000000 <=? v) eqn:E2; [|destruct (1000 <=? v) eqn:E3]]; cbn [unit_nanos].
  - split; [left; reflexivity|]. split; [left; lia|]. apply X. cbn. intros L' H. lia.
  - split; [right; left; reflexivity|]. split; [left; lia|]. apply X. cbn. intros L' H. lia.
  - split; [right; right; left; reflexivity|]. split; [left; lia|]. apply X. cbn. intros L' H. lia.
  - split; [right; right; right; left; reflexivity|]. split; [now right|]. apply X. cbn. intros L' H. lia.
Qed.
Lemma ws_byte id L x : In (id, L) debug_units -> In x id -> c_inner_delimiter config_new x = false.
Proof. intros H Hx. unfold debug_units in H. cbn in H. repeat destruct H as [H|H]; try contradiction; injection H as <- _; cbn in Hx; repeat destruct Hx as [<-|Hx]; try contradiction; reflexivity. Qed.
Theorem C94_standard : forall l v t, In NanoSecond l -> In MilliSecond l -> In Second l -> 0 <= v <= max_nanos -> debug_text v t ->
  (~ 1000 <= v < 1000000 -> exists d, dp_parse (dp_with_time_units l) t = Ok d /\ duration_ok d /\ nanos d = v) /\
  (1000 <= v < 1000000 -> exists e, dp_parse (dp_with_time_units l) t = Err e).
Proof.
  intros l v t L1 L2 L3 Hv T. pose proof (debug_unit_is v (proj1 Hv)) as DU. split.
  - intros NM. apply (C94_read_back config_new (std_units (units_with l)) None None v t _ _ (std_env l) eq_refl eq_refl T Hv DU).
    + intros x Hx. exact (ws_byte _ _ x (proj1 DU) Hx).
    + destruct (u_is_empty _) eqn:E; [|reflexivity]. apply C31_is_empty in E. subst. contradiction.
    + apply C31_lookup. unfold debug_unit_of. destruct (1000000000 <=? v) eqn:E1; [auto|]. destruct (1000000 <=? v) eqn:E2; [auto|]. destruct (1000 <=? v) eqn:E3; [lia|auto].
  - intros M. destruct (debug_number v t (proj1 Hv) T) as (id' & L & W & fr & F & DU' & DW & NW & HF & _ & _ & ->). destruct (debug_unit_fun _ _ _ _ _ DU' DU) as [-> _].
    unfold debug_unit_of. replace (1000000000 <=? v) with false by lia. replace (1000000 <=? v) with false by lia. replace (1000 <=? v) with true by lia.
    apply (unknown_unit_rejected (std_units (units_with l)) W fr F); [apply std_env|exact DW|exact NW|exact HF|discriminate|reflexivity|repeat split|].
    destruct (u_get _ _) as [[u m]|] eqn:G; [|reflexivity]. apply C31_lookup in G. destruct G as (_ & G & _). destruct u; discriminate G.
Qed.
Print Assumptions C94_standard.
Lemma dp_new_is : dp_new = dp_with_time_units [NanoSecond; MicroSecond; MilliSecond; Second; Minute; Hour; Day; Week].
Proof. vm_compute. reflexivity. Qed.

(** ** fundu-systemd: always, if nanoseconds are allowed; otherwise from 1000 nanoseconds on. The result is cut at the maximum *)
Lemma debug_span u table v t : 0 <= v -> debug_text v t -> (forall id u', debug_unit v id (unit_nanos u') -> u' = debug_unit_of v -> denotes table id u') -> time_span u table t v.
Proof.
  intros Hv T K. destruct (debug_number v t Hv T) as (id & L & W & fr & F & DU & DW & NW & HF & LF & E & ->). pose proof (debug_unit_is v Hv) as DU'. destruct (debug_unit_fun _ _ _ _ _ DU DU') as [Ei El].
  rewrite <- Ei in DU'. specialize (K id (debug_unit_of v) DU' eq_refl). apply (span_last u table (W ++ fr ++ id) true).
  assert (V : v = unit_nanos (debug_unit_of v) * dval (W ++ F) / 10 ^ Z.of_nat (length F)) by (rewrite <- El, Z.mul_comm, E, Z.div_mul by (apply Z.pow_nonzero; lia); reflexivity). rewrite V at 1.
  apply (part_number_unit u table [] W fr F [] id (debug_unit_of v)); [now left|exact DW|exact HF|destruct W; [contradiction|discriminate]|lia|intros x []|exact K].
Qed.
Theorem C94_systemd : forall p u v t max, made p u -> 0 <= v -> debug_text v t -> duration_ok max -> is_negative max = false ->
  (exists d, sd_parse_nanos_with_max p t max = Ok d /\ duration_ok d /\ nanos d = Z.min (nanos max) v) /\
  (1000 <= v -> exists d, sd_parse_with_max p t max = Ok d /\ duration_ok d /\ nanos d = Z.min (nanos max) v) /\
  (v < 1000 -> exists e, sd_parse_with_max p t max = Err e).
Proof.
  intros p u v t max M Hv T Hm Hn. pose proof (debug_unit_is v Hv) as DU.
  assert (K : forall id u', debug_unit v id (unit_nanos u') -> u' = debug_unit_of v -> id = match debug_unit_of v with Second => %"s" | MilliSecond => %"ms" | MicroSecond => [194; 181; 115] | _ => %"ns" end).
  { intros id u' H ->. now apply (debug_unit_fun _ _ _ _ _ H DU). }
  split; [|split].
  - destruct (C47_time_spans_with_nanos p u [] t [] v max M) as (d & E & O & V); [|intros x []|intros x []|exact Hm|exact Hn|rewrite app_nil_r in E; eauto].
    apply debug_span; [exact Hv|exact T|]. intros id u' H Eu. rewrite (K id u' H Eu). subst u'. unfold debug_unit_of, denotes, systemd_nanos_units, systemd_units.
    destruct (1000000000 <=? v); [|destruct (1000000 <=? v); [|destruct (1000 <=? v)]]; eexists; (split; [cbn; auto 12|cbn; auto]).
  - intros L. destruct (C47_time_spans p u [] t [] v max M) as (d & E & O & V); [|intros x []|intros x []|exact Hm|exact Hn|rewrite app_nil_r in E; eauto].
    apply debug_span; [exact Hv|exact T|]. intros id u' H Eu. rewrite (K id u' H Eu). subst u'. unfold debug_unit_of, denotes, systemd_units. replace (1000 <=? v) with true by lia.
    destruct (1000000000 <=? v); [|destruct (1000000 <=? v)]; eexists; (split; [cbn; auto 12|cbn; auto]).
  - intros L. destruct (debug_number v t Hv T) as (id & L' & W & fr & F & DU' & DW & NW & HF & _ & _ & Et).
    destruct (debug_unit_fun _ _ _ _ _ DU' DU) as [Ei _]. unfold debug_unit_of in Ei. replace (1000000000 <=? v) with false in Ei by lia. replace (1000000 <=? v) with false in Ei by lia. replace (1000 <=? v) with false in Ei by lia. subst id.
    assert (DF : digit_string F) by (destruct HF; [intros x []|assumption]).
    assert (U : utf8 t = true) by (rewrite Et, utf8_digits by exact DW; destruct HF; [reflexivity|]; change (utf8 (46 :: F ++ %"ns") = true); cbn [app utf8]; now rewrite utf8_digits).
    destruct (C37_within_max p u t max M U Hm Hn) as [(d & E & _)|E]; [|exact E]. exfalso.
    apply (C73_exactly_time_spans p u t max d M U Hm Hn) in E.
    destruct (means_runs u systemd_units max t d (%"ns") (proj1 sd_id_tables) E) as [u' (ws & H1 & H2)]; [discriminate|discriminate| |].
    + exists (W ++ fr), []. split; [rewrite Et, app_nil_r, <- app_assoc; reflexivity|]. split; [intros x Hx; unfold id_byte; cbn in Hx; repeat destruct Hx as [<-|Hx]; try contradiction; lia|]. split; [|discriminate].
      intros a x Ea. assert (I' : In x (W ++ fr)) by (rewrite Ea; apply in_or_app; right; now left). unfold id_byte. apply in_app_or in I'. destruct I' as [I'|I']; [apply DW in I'; lia|].
      destruct HF as [|F HF]; [contradiction|]. change (46 = x \/ In x F) in I'. destruct I' as [<-|I']; [lia|]. apply DF in I'. lia.
    + unfold systemd_units in H1. cbn in H1. repeat destruct H1 as [H1|H1]; try contradiction; injection H1 as _ <-; cbn in H2; intuition discriminate.
Qed.
Print Assumptions C94_systemd.
(** ** different durations have different texts *)
Theorem C94_distinct : forall v v' t, 0 <= v <= max_nanos -> 0 <= v' <= max_nanos -> debug_text v t -> debug_text v' t -> v = v'.
Proof.
  intros v v' t Hv Hv' T T'. assert (Hm : duration_ok MAX) by (vm_compute; auto).
  destruct (C94_systemd sd_new Second v t MAX made_new (proj1 Hv) T Hm eq_refl) as [(d & E & _ & V) _]. destruct (C94_systemd sd_new Second v' t MAX made_new (proj1 Hv') T' Hm eq_refl) as [(d' & E' & _ & V') _].
  rewrite E in E'. injection E' as <-. change (nanos MAX) with max_nanos in *. lia.
Qed.
Print Assumptions C94_distinct.
Theorem C94_debug_distinct : forall d d', duration_ok d -> duration_ok d' -> debug d = debug d' -> d = d'.
Proof.
  intros [n s] [n' s'] H H' E. unfold debug in E. cbn [neg inner] in E.
  assert (X : n = n' /\ std_debug s ++ %" }" = std_debug s' ++ %" }") by (destruct n, n'; cbn [app bytes_of] in E; (discriminate E || (split; [reflexivity|]; repeat (injection E as E); exact E))).
  destruct X as [-> X]. f_equal. apply app_inv_tail in X. pose proof (C94_std_debug s H) as T. pose proof (C94_std_debug s' H') as T'. rewrite X in T.
  assert (B : forall s, std_ok s -> 0 <= std_nanos s <= max_nanos) by (intros [a b] [B1 B2]; unfold std_nanos; cbn [secs subsec] in *; unfold is_u64, inb in *; change u64_max with 18446744073709551615 in B1; change max_nanos with 18446744073709551615999999999; lia).
  pose proof (C94_distinct _ _ _ (B s H) (B s' H') T T') as V. destruct s as [a b], s' as [a' b']. destruct H as [_ H], H' as [_ H']. unfold std_nanos in V. cbn [secs subsec inner] in *. unfold inb in *. f_equal; lia.
Qed.
Print Assumptions C94_debug_distinct.

(** ** examples *)
Example C94_example :
  std_debug (Std 1 500000000) = %"1.5s" /\ std_debug (Std 0 100000000) = %"100ms" /\ std_debug (Std 0 1000001) = %"1.000001ms" /\ std_debug (Std 0 999500) = %"999.5" ++ [194; 181; 115] /\
  std_debug (Std 0 0) = %"0ns" /\ std_debug STD_MAX = %"18446744073709551615.999999999s" /\
  debug (Dur true (Std 3 40)) = %"Duration { is_negative: true, inner: 3.00000004s }".
Proof. repeat split; vm_compute; reflexivity. Qed.
(** the text of the longest duration is read back: all hypotheses of C94_standard hold *)
Example C94_standard_example : debug_text max_nanos (%"18446744073709551615.999999999s") /\ ~ 1000 <= max_nanos < 1000000 /\
  exists d, dp_parse dp_new (%"18446744073709551615.999999999s") = Ok d /\ nanos d = max_nanos.
Proof.
  assert (T : debug_text max_nanos (%"18446744073709551615.999999999s")) by (change (debug_text (std_nanos STD_MAX) (%"18446744073709551615.999999999s")); assert (O : std_ok STD_MAX) by (split; reflexivity); exact (C94_std_debug STD_MAX O)).
  split; [exact T|]. split; [vm_compute; intuition discriminate|]. rewrite dp_new_is. destruct (proj1 (C94_standard [NanoSecond; MicroSecond; MilliSecond; Second; Minute; Hour; Day; Week] max_nanos _ ltac:(cbn; tauto) ltac:(cbn; tauto) ltac:(cbn; tauto) ltac:(vm_compute; intuition discriminate) T)) as (d & E & _ & V); [vm_compute; intuition discriminate|]. eauto.
Qed.
