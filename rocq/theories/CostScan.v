(** * The number of steps of the parser: the scanner and the parts of a number *)
From Verif Require Import Prelude Util Time Config Bytes Repr Parse ReprProofs Cost CostErase CostProofs.
Open Scope nat_scope.

Section Scan.
Context (s : str).
Notation n := (length s).
Definition at_ok (b : scanner) : Prop := input b = s /\ cur b = nth_error s (pos b) /\ pos b <= n.
(** b' is b, moved forward *)
Definition moves (b b' : scanner) : Prop := at_ok b' /\ buffer b' = buffer b /\ pos b <= pos b'.

Lemma cur_some b x : at_ok b -> cur b = Some x -> pos b < n /\ nth_error s (pos b) = Some x.
Proof.
  intros (H1 & H2 & H3) H. rewrite H in H2. split; [|congruence].
  apply nth_error_Some. congruence.
Qed.
Lemma cur_none b : at_ok b -> cur b = None -> pos b = n.
Proof. intros (H1 & H2 & H3) H. rewrite H in H2. symmetry in H2. apply nth_error_None in H2. lia. Qed.
Lemma moves_refl b : at_ok b -> moves b b.
Proof. intros H. repeat split; try apply H; lia. Qed.
Lemma moves_trans a b d : moves a b -> moves b d -> moves a d.
Proof. intros (H1 & H2 & H3) (H4 & H5 & H6). repeat split; try apply H4; [congruence|lia]. Qed.
Lemma advance_by_moves b i : at_ok b -> pos b + i <= n -> moves b (advance_by b i).
Proof. intros (H1 & H2 & H3) H. repeat split; cbn; try congruence; lia. Qed.
Lemma advance_moves b x : at_ok b -> cur b = Some x -> moves b (advance b).
Proof. intros H H2. destruct (cur_some _ _ H H2). apply advance_by_moves; [auto|lia]. Qed.
Lemma reset_at b p : at_ok b -> p <= n -> at_ok (reset b p).
Proof. intros (H1 & H2 & H3) H. repeat split; cbn; congruence. Qed.
Lemma finish_at b : at_ok b -> moves b (finish b).
Proof.
  intros (H1 & H2 & H3). repeat split; cbn; try rewrite H1; auto.
  symmetry. apply nth_error_None. lia.
Qed.

Definition ends (stop : byte -> bool) (b : scanner) : Prop :=
  pos b = n \/ exists x, cur b = Some x /\ stop x = true.
Definition free (stop : byte -> bool) (p q : nat) : Prop :=
  forall i x, p <= i < q -> nth_error s i = Some x -> stop x = false.
Lemma skip_c stop fuel : forall b k E (Q : scanner -> nat -> Prop), at_ok b -> n - pos b < fuel ->
  (forall b', moves b b' -> ends stop b' -> free stop (pos b) (pos b') -> Q b' (k + (pos b' - pos b) + 1)) ->
  runs k (skip_until_t fuel stop b) E Q.
Proof.
  induction fuel as [|f IH]; intros b k E Q Hb Hf HQ; [lia|]. cbn [skip_until_t]. rr.
  destruct (cur b) as [x|] eqn:Ex.
  - destruct (stop x) eqn:Es.
    + rr. replace (k + 1) with (k + (pos b - pos b) + 1) by lia. apply HQ.
      * apply moves_refl; auto.
      * right. eauto.
      * intros i y Hi. lia.
    + destruct (cur_some _ _ Hb Ex) as [Hlt Hx]. pose proof (advance_moves _ _ Hb Ex) as Hm.
      apply IH; [apply Hm|cbn; lia|]. intros b' Hm' He Hfr. cbn [advance pos] in *. destruct Hm' as (Ha & Hbu & Hp).
      cbn [advance pos] in Hp. replace (k + 1 + (pos b' - (pos b + 1)) + 1) with (k + (pos b' - pos b) + 1) by lia.
      apply HQ; auto.
      * repeat split; try apply Ha; [exact Hbu|lia].
      * intros i y Hi Hy. destruct (Nat.eq_dec i (pos b)) as [->|Hn]; [congruence|]. apply (Hfr i y); [lia|auto].
  - rr. replace (k + 1) with (k + (pos b - pos b) + 1) by lia. apply HQ.
    + apply moves_refl; auto.
    + left. apply cur_none; auto.
    + intros i y Hi. lia.
Qed.

Lemma consume_c d b k E (Q : scanner -> nat -> Prop) : at_ok b -> k + (n - pos b) + 1 <= E ->
  (forall b' k' y, moves b b' -> pos b < pos b' -> cur b' = Some y -> d y = false ->
     (forall i x, pos b <= i < pos b' -> nth_error s i = Some x -> d x = true) ->
     k' <= k + (pos b' - pos b) + 1 -> Q b' k') ->
  runs k (try_consume_delimiter_t d b) E Q.
Proof.
  intros Hb HE HQ. unfold try_consume_delimiter_t. cbv zeta. rr. apply runs_now; [lia|]. intros c Hc.
  assert (Ec : cur b = Some c) by (unfold unwrap in Hc; destruct (cur b); [congruence|discriminate]).
  rr. apply runs_now; [lia|]. intros [] Hd. unfold debug_assert in Hd. destruct (d c) eqn:Edc; [|discriminate].
  destruct (pos b =? 0)%nat; [rr; lia|].
  destruct (cur_some _ _ Hb Ec) as [Hlt Hx]. pose proof (advance_moves _ _ Hb Ec) as Hm.
  rr. apply skip_c; [apply Hm|unfold loop_fuel; destruct Hb as [-> _]; cbn; lia|].
  intros b' (Ha & Hbu & Hp) He Hfr. cbn [advance pos] in *.
  assert (Hn : pos b' <= n) by apply Ha.
  destruct (cur b') as [y|] eqn:Ey; [|rr; lia]. rr.
  destruct He as [He|(y' & Hy' & He)].
  { destruct (cur_some _ _ Ha Ey). lia. }
  apply (HQ b' _ y); auto.
  - repeat split; try apply Ha; [exact Hbu|lia].
  - lia.
  - replace y with y' by congruence. destruct (d y'); [discriminate|reflexivity].
  - intros i x Hi Hxi. destruct (Nat.eq_dec i (pos b)) as [->|Hne]; [congruence|].
    assert (H := Hfr i x). cbn beta in H. destruct (d x); [reflexivity|]. discriminate H; [lia|auto].
  - lia.
Qed.

Lemma remainder_c b k E (Q : str -> nat -> Prop) : at_ok b -> k + 2 * (n - pos b) <= E ->
  (forall x, Q x (k + 2 * (n - pos b))) -> runs k (get_remainder_str_t b) E Q.
Proof.
  intros (H1 & _) HE HQ. unfold get_remainder_str_t. rewrite H1. rr. apply runs_now; [auto|]. intros. apply HQ.
Qed.
Lemma next_is_c b w k E (Q : bool -> nat -> Prop) : at_ok b ->
  (forall x, (x = true -> pos b + length w <= n) -> Q x (k + length w)) -> runs k (next_is_t b w) E Q.
Proof.
  intros (H1 & _) HQ. unfold next_is_t. rr. rr. apply HQ. intros H.
  unfold next_is_ignore_ascii_case, peek, slice_get in H. rewrite H1 in H.
  destruct (pos b <=? _)%nat; [|discriminate]. cbn [andb] in H.
  destruct (Nat.leb_spec (pos b + length w) n); [lia|discriminate].
Qed.

(** ** Digits *)
Lemma parse_8_moves b e b' : at_ok b -> parse_8_digits b = Some (e, b') -> moves b b' /\ pos b' = pos b + 8.
Proof.
  intros Hb H. unfold parse_8_digits, slice_get in H. destruct Hb as (H1 & H2 & H3). rewrite H1 in H.
  destruct (pos b <=? _)%nat; [|discriminate]. cbn [andb] in H.
  destruct (Nat.leb_spec (pos b + 8) n); [|discriminate]. destruct (eight_digits_test _); [|discriminate].
  injection H as _ <-. split; [|reflexivity]. apply advance_by_moves; [split; auto|lia].
Qed.
Lemma parse_digit_moves b e b' : at_ok b -> parse_digit b = Some (e, b') -> moves b b' /\ pos b' = pos b + 1.
Proof.
  intros Hb H. unfold parse_digit in H. destruct (cur b) eqn:Ec; [|discriminate].
  destruct (is_digit_wrapping _); [|discriminate]. injection H as _ <-. split; [|reflexivity].
  eapply advance_moves; eauto.
Qed.
Lemma strip8_c fuel : forall st sp b k E (Q : nat * bool * scanner -> nat -> Prop), at_ok b -> n - pos b < fuel ->
  k + (n - pos b) + 1 <= E ->
  (forall st' sp' b' k', moves b b' -> st <= st' -> k' <= k + (pos b' - pos b) + 1 -> Q (st', sp', b') k') ->
  runs k (strip_loop8_t fuel st sp b) E Q.
Proof.
  induction fuel as [|f IH]; intros st sp b k E Q Hb Hf HE HQ; [lia|]. cbn [strip_loop8_t]. rr.
  destruct (parse_8_digits b) as [[e b1]|] eqn:E8.
  - destruct (parse_8_moves _ _ _ Hb E8) as [Hm Hp].
    assert (Hmv : forall b', moves b1 b' -> moves b b') by (intros; eapply moves_trans; eauto).
    assert (Hn : pos b1 <= n) by apply Hm.
    assert (Hgo : forall st' sp', st <= st' -> runs (k + 1) (strip_loop8_t f st' sp' b1) E Q).
    { intros st' sp' Hst. apply IH; [apply Hm|lia|lia|]. intros st2 sp2 b' k' Hm' Hst' Hk.
      assert (pos b1 <= pos b') by apply Hm'. apply HQ; [auto|lia|lia]. }
    destruct sp.
    + destruct (_ =? _)%Z; [apply Hgo; lia|]. rr. apply runs_now; [lia|]. intros d _. apply Hgo. lia.
    + apply Hgo. lia.
  - rr. apply HQ; [apply moves_refl; auto|lia|lia].
Qed.
Lemma strip1_c fuel : forall st sp b k E (Q : nat * scanner -> nat -> Prop), at_ok b -> n - pos b < fuel ->
  (forall st' b' k', moves b b' -> st <= st' -> k' <= k + (pos b' - pos b) + 1 ->
     (forall x, cur b = Some x -> is_digit_wrapping x = true -> pos b < pos b') -> Q (st', b') k') ->
  runs k (strip_loop1_t fuel st sp b) E Q.
Proof.
  induction fuel as [|f IH]; intros st sp b k E Q Hb Hf HQ; [lia|]. cbn [strip_loop1_t]. rr.
  destruct (cur b) as [x|] eqn:Ex.
  - cbv zeta. change (wrap_u8 (x - 48) <? 10)%Z with (is_digit_wrapping x).
    destruct (is_digit_wrapping x) eqn:Ed.
    + destruct (cur_some _ _ Hb Ex) as [Hlt Hx]. pose proof (advance_moves _ _ Hb Ex) as Hm.
      assert (Hgo : forall st' sp', st <= st' -> runs (k + 1) (strip_loop1_t f st' sp' (advance b)) E Q).
      { intros st' sp' Hst. apply IH; [apply Hm|cbn; lia|]. intros st2 b' k' Hm' Hst' Hk _.
        assert (Hp : pos b + 1 <= pos b') by apply Hm'. cbn [advance pos] in Hk.
        apply HQ; [eapply moves_trans; eauto|lia|lia|lia]. }
      destruct sp; [destruct (_ =? _)%Z|]; apply Hgo; lia.
    + rr. apply HQ; [apply moves_refl; auto|lia|lia|]. intros y [= <-]. congruence.
  - rr. apply HQ; [apply moves_refl; auto|lia|lia|]. discriminate.
Qed.
Lemma is_digit_wrapping_digit x : is_digit x = true -> is_digit_wrapping x = true.
Proof.
  unfold is_digit, is_digit_wrapping, wrap_u8. intros H. apply Z.ltb_lt.
  apply andb_prop in H. destruct H as [H1 H2]. apply Z.leb_le in H1, H2. rewrite Z.mod_small; lia.
Qed.
Lemma whole_c b k E (Q : scanner * (nat * nat) -> nat -> Prop) : at_ok b -> k + (n - pos b) + 2 <= E ->
  (forall b' w k', moves b b' -> pos b < pos b' -> snd w - fst w <= pos b' - pos b -> k' <= k + (pos b' - pos b) + 2 ->
     Q (b', w) k') -> runs k (parse_digits_strip_zeros_t b) E Q.
Proof.
  intros Hb HE HQ. unfold parse_digits_strip_zeros_t. rr. apply runs_now; [lia|]. intros [] Hd.
  destruct (cur b) as [x|] eqn:Ex; [|discriminate]. unfold debug_assert in Hd.
  destruct (is_digit x) eqn:Edx; [|discriminate].
  assert (Hlf : n - pos b < loop_fuel b) by (unfold loop_fuel; destruct Hb as [-> _]; lia).
  rr. apply strip8_c; [auto|auto|lia|]. intros st sp b1 k1 Hm1 Hst Hk1.
  rr. assert (Hp1 : pos b <= pos b1 <= n) by (split; apply Hm1).
  apply strip1_c; [apply Hm1|lia|]. intros st' b2 k2 Hm2 Hst' Hk2 Hpr.
  rr. assert (Hp2 : pos b1 <= pos b2 <= n) by (split; apply Hm2).
  apply HQ; [eapply moves_trans; eauto| |cbn; lia|lia].
  destruct (Nat.eq_dec (pos b) (pos b1)) as [Heq|]; [|lia].
  assert (Hlt : pos b1 < pos b2); [|lia]. apply (Hpr x).
  - destruct Hm1 as ((_ & -> & _) & _). destruct Hb as (_ & Hc & _). congruence.
  - apply is_digit_wrapping_digit; auto.
Qed.
Lemma loop8_c fuel : forall b k E (Q : scanner -> nat -> Prop), at_ok b -> n - pos b < fuel ->
  (forall b' k', moves b b' -> k' <= k + (pos b' - pos b) + 1 -> Q b' k') ->
  runs k (digits_loop8_t fuel b) E Q.
Proof.
  induction fuel as [|f IH]; intros b k E Q Hb Hf HQ; [lia|]. cbn [digits_loop8_t]. rr.
  destruct (parse_8_digits b) as [[e b1]|] eqn:E8.
  - destruct (parse_8_moves _ _ _ Hb E8) as [Hm Hp]. assert (Hn : pos b1 <= n) by apply Hm.
    apply IH; [apply Hm|lia|]. intros b' k' Hm' Hk. assert (pos b1 <= pos b') by apply Hm'.
    apply HQ; [eapply moves_trans; eauto|lia].
  - rr. apply HQ; [apply moves_refl; auto|lia].
Qed.
Lemma loop1_c fuel : forall b k E (Q : scanner -> nat -> Prop), at_ok b -> n - pos b < fuel ->
  (forall b' k', moves b b' -> k' <= k + (pos b' - pos b) + 1 ->
     (forall x, cur b = Some x -> is_digit_wrapping x = true -> pos b < pos b') -> Q b' k') ->
  runs k (digits_loop1_t fuel b) E Q.
Proof.
  induction fuel as [|f IH]; intros b k E Q Hb Hf HQ; [lia|]. cbn [digits_loop1_t]. rr.
  destruct (parse_digit b) as [[e b1]|] eqn:E8.
  - destruct (parse_digit_moves _ _ _ Hb E8) as [Hm Hp]. assert (Hn : pos b1 <= n) by apply Hm.
    apply IH; [apply Hm|lia|]. intros b' k' Hm' Hk _. assert (pos b1 <= pos b') by apply Hm'.
    apply HQ; [eapply moves_trans; eauto|lia|lia].
  - rr. apply HQ; [apply moves_refl; auto|lia|]. intros x Hx Hd. unfold parse_digit in E8. rewrite Hx, Hd in E8.
    discriminate.
Qed.
Lemma digits_c b k E (Q : scanner * (nat * nat) -> nat -> Prop) : at_ok b -> k <= E ->
  (forall b' w k', moves b b' -> pos b < pos b' -> snd w - fst w <= pos b' - pos b -> k' <= k + (pos b' - pos b) + 2 ->
     Q (b', w) k') -> runs k (parse_digits_t b) E Q.
Proof.
  intros Hb HE HQ. unfold parse_digits_t. rr. apply runs_now; [lia|]. intros [] Hd.
  destruct (cur b) as [x|] eqn:Ex; [|discriminate]. unfold debug_assert in Hd.
  destruct (is_digit x) eqn:Edx; [|discriminate].
  assert (Hlf : n - pos b < loop_fuel b) by (unfold loop_fuel; destruct Hb as [-> _]; lia).
  cbv zeta. rr. apply loop8_c; [auto|auto|]. intros b1 k1 Hm1 Hk1.
  rr. assert (Hp1 : pos b <= pos b1 <= n) by (split; apply Hm1).
  apply loop1_c; [apply Hm1|lia|]. intros b2 k2 Hm2 Hk2 Hpr.
  rr. assert (Hp2 : pos b1 <= pos b2 <= n) by (split; apply Hm2).
  apply HQ; [eapply moves_trans; eauto| |cbn; lia|lia].
  destruct (Nat.eq_dec (pos b) (pos b1)) as [Heq|]; [|lia].
  assert (Hlt : pos b1 < pos b2); [|lia]. apply (Hpr x).
  - destruct Hm1 as ((_ & -> & _) & _). destruct Hb as (_ & Hc & _). congruence.
  - apply is_digit_wrapping_digit; auto.
Qed.

(** ** The parts of a number *)
Definition is_sign (b : scanner) : Prop := cur b = Some 43%Z \/ cur b = Some 45%Z.
Lemma sign_is_c b k E (Q : scanner * option bool -> nat -> Prop) : at_ok b -> k <= E ->
  (forall b' neg, moves b b' -> is_sign b -> pos b < pos b' -> Q (b', Some neg) k) -> Q (b, None) k ->
  runs k (now (parse_sign_is_negative b)) E Q.
Proof.
  intros Hb HE HQ HN. unfold parse_sign_is_negative. destruct (cur b) as [x|] eqn:Ex; [|rr; lia].
  destruct (Z.eqb_spec x 43) as [->|]; [|destruct (Z.eqb_spec x 45) as [->|]]; rr; auto; apply HQ;
    try (eapply advance_moves; eauto; fail); unfold is_sign; auto; cbn; lia.
Qed.
Lemma sign_c b r c k E (Q : scanner * repr -> nat -> Prop) : at_ok b -> k + (n - pos b) + 1 <= E ->
  (forall b' r' k', moves b b' -> (is_sign b /\ pos b < pos b' \/ b' = b) ->
     r_fract r' = r_fract r -> r_whole r' = r_whole r ->
     k' <= k + (pos b' - pos b) + 1 -> Q (b', r') k') ->
  runs k (parse_number_sign_t b r c) E Q.
Proof.
  intros Hb HE HQ. unfold parse_number_sign_t. rr. apply sign_is_c; [auto|lia| |].
  - intros b1 neg Hm Hs Hlt. assert (Hp : pos b1 <= n) by apply Hm.
    destruct (cur b1) as [x|] eqn:Ex; [|rr; lia]. destruct (_ && _).
    + rr. apply consume_c; [apply Hm|lia|]. intros b2 k2 y Hm2 Hp2 _ _ _ Hk2. rr.
      apply HQ; auto; [eapply moves_trans; eauto|left; split; [auto|lia]|lia].
    + rr. apply HQ; auto. lia.
  - rr. apply HQ; auto; [apply moves_refl; auto|lia].
Qed.
(** there is a digit after the point, or a whole number before it *)
Lemma fraction_c b r dis k E (Q : scanner * repr * bool -> nat -> Prop) : at_ok b -> k <= E -> r_fract r = None ->
  (forall b' r' go k', moves b b' -> rlen r' <= rlen r + (pos b' - pos b) ->
     (pos b' = pos b -> go = true -> cur b <> Some 46%Z) ->
     (r_whole r = None -> cur b = Some 46%Z -> exists x, nth_error s (pos b + 1) = Some x /\ is_digit x = true) ->
     (go = false -> pos b' = n) ->
     k' <= k + (pos b' - pos b) + 2 -> Q (b', r', go) k') ->
  runs k (parse_number_fraction_t b r dis) E Q.
Proof.
  intros Hb HE Hf HQ. unfold parse_number_fraction_t. destruct (cur b) as [x|] eqn:Ex.
  - destruct (Z.eqb_spec x 46) as [->|Hx]; cbn [andb].
    + destruct (negb dis); [|rr; lia]. cbv zeta.
      pose proof (advance_moves _ _ Hb Ex) as Hm. destruct (cur_some _ _ Hb Ex) as [Hlt Hx].
      destruct (cur (advance b)) as [y|] eqn:Ey.
      * assert (Hy : nth_error s (pos b + 1) = Some y).
        { destruct Hm as ((_ & H & _) & _). rewrite H in Ey. exact Ey. }
        destruct (is_digit y) eqn:Edy.
        -- rr. apply digits_c; [apply Hm|lia|]. intros b' w k' Hm' Hp Hw Hk. rr. cbn [advance pos] in *.
           apply HQ.
           ++ eapply moves_trans; eauto.
           ++ unfold rlen. cbn [set_fract r_whole r_fract rl]. rewrite Hf. cbn [rl]. lia.
           ++ lia.
           ++ intros _ _. eauto.
           ++ discriminate.
           ++ lia.
        -- destruct (match r_whole r with None => true | Some _ => false end) eqn:Enw.
           ++ rr. apply runs_now; [lia|]. intros p _. rr. lia.
           ++ rr. apply HQ.
              ** auto.
              ** unfold rlen. cbn [set_fract r_whole r_fract rl fst snd]. rewrite Hf. cbn [rl]. lia.
              ** cbn. lia.
              ** intros Hw. rewrite Hw in Enw. discriminate.
              ** discriminate.
              ** lia.
      * destruct (match r_whole r with None => true | Some _ => false end) eqn:Enw.
        -- rr. apply runs_now; [lia|]. intros p _. rr. lia.
        -- rr. apply HQ.
           ++ auto.
           ++ unfold rlen. cbn [set_fract r_whole r_fract rl fst snd]. rewrite Hf. cbn [rl]. lia.
           ++ cbn. lia.
           ++ intros Hw. rewrite Hw in Enw. discriminate.
           ++ intros _. apply cur_none; [apply Hm|auto].
           ++ lia.
    + rr. apply HQ.
      * apply moves_refl; auto.
      * lia.
      * intros _ _ [= ->]. auto.
      * intros _ [= ->]. congruence.
      * discriminate.
      * lia.
  - rr. apply HQ.
    + apply moves_refl; auto.
    + lia.
    + discriminate.
    + discriminate.
    + intros _. apply cur_none; auto.
    + lia.
Qed.
Lemma exponent_loop_c neg fuel : forall e b k E (Q : scanner * Z -> nat -> Prop), at_ok b -> n - pos b < fuel ->
  k + (n - pos b) + 1 <= E ->
  (forall b' e' k', moves b b' -> k' <= k + (pos b' - pos b) + 1 -> Q (b', e') k') ->
  runs k (exponent_loop_t fuel neg e b) E Q.
Proof.
  induction fuel as [|f IH]; intros e b k E Q Hb Hf HE HQ; [lia|]. cbn [exponent_loop_t]. rr.
  destruct (cur b) as [x|] eqn:Ex.
  - cbv zeta. destruct (_ <? 10)%Z.
    + destruct (cur_some _ _ Hb Ex) as [Hlt Hx]. pose proof (advance_moves _ _ Hb Ex) as Hm.
      assert (Hgo : forall e', runs (k + 1) (exponent_loop_t f neg e' (advance b)) E Q).
      { intros e'. apply IH; [apply Hm|cbn; lia|cbn; lia|]. intros b' e2 k' Hm' Hk.
        assert (Hp : pos b + 1 <= pos b') by apply Hm'. cbn [advance pos] in Hk.
        apply HQ; [eapply moves_trans; eauto|lia]. }
      destruct neg.
      * destruct (let? e0 := chk is_i16 (e * 10)%Z in _) as [z|]; [apply Hgo|rr; lia].
      * destruct (let? e0 := chk is_i16 (e * 10)%Z in _) as [z|]; [apply Hgo|rr; lia].
    + rr. apply HQ; [apply moves_refl; auto|lia].
  - rr. apply HQ; [apply moves_refl; auto|lia].
Qed.
Lemma parse_exponent_c b k E (Q : scanner * Z -> nat -> Prop) : at_ok b -> k + (n - pos b) + 1 <= E ->
  (forall b' e' k', moves b b' -> k' <= k + (pos b' - pos b) + 1 -> Q (b', e') k') ->
  runs k (parse_exponent_t b) E Q.
Proof.
  intros Hb HE HQ. unfold parse_exponent_t. rr.
  assert (H : forall b1 o, moves b b1 -> runs k (let is_neg := neg_or_default o in let start := pos b1 in
      let^ r := exponent_loop_t (loop_fuel b1) is_neg 0 b1 in
      let '(b, exponent) := r in
      let^ n0 := now (sub_usize (pos b) start) in
      if (0 <? n0)%nat then now (Ok (b, exponent))
      else if is_end_of_input b then
        now (Err (Syntax (pos b) (%"Expected exponent but reached end of input")))
      else now (Err (Syntax (pos b) (%"The exponent must have at least one digit")))) E Q).
  { intros b1 o Hm. assert (Hp : pos b <= pos b1 <= n) by (split; apply Hm). cbv zeta.
    rr. apply exponent_loop_c; [apply Hm| |lia|].
    - unfold loop_fuel. destruct Hm as ((-> & _) & _). lia.
    - intros b2 e' k' Hm2 Hk. assert (Hp2 : pos b1 <= pos b2 <= n) by (split; apply Hm2).
      rr. apply runs_now; [lia|]. intros i _. destruct (0 <? i)%nat.
      + rr. apply HQ; [eapply moves_trans; eauto|lia].
      + destruct (is_end_of_input b2); rr; lia. }
  apply sign_is_c; [auto|lia| |].
  - intros b1 neg Hm _ _. exact (H b1 (Some neg) Hm).
  - exact (H b None (moves_refl b Hb)).
Qed.
Lemma exponent_c b r dis k E (Q : scanner * repr * bool -> nat -> Prop) : at_ok b -> k + (n - pos b) + 1 <= E ->
  (forall b' r' go k', moves b b' -> rlen r' = rlen r -> (go = false -> pos b' = n) ->
     k' <= k + (pos b' - pos b) + 1 -> Q (b', r', go) k') ->
  runs k (parse_number_exponent_t b r dis) E Q.
Proof.
  intros Hb HE HQ. unfold parse_number_exponent_t. destruct (cur b) as [x|] eqn:Ex.
  - destruct (cur_some _ _ Hb Ex) as [Hlt Hx]. pose proof (advance_moves _ _ Hb Ex) as Hm.
    destruct (eq_nocase x 101); cbn [andb].
    + destruct (negb dis); [|rr; lia]. rr. apply parse_exponent_c; [apply Hm|cbn; lia|].
      intros b' e' k' Hm' Hk. rr. assert (Hp : pos b + 1 <= pos b') by apply Hm'. cbn [advance pos] in Hk.
      apply HQ; [eapply moves_trans; eauto|reflexivity|discriminate|lia].
    + rr. apply HQ; [apply moves_refl; auto|reflexivity|discriminate|lia].
  - rr. apply HQ; [apply moves_refl; auto|reflexivity|intros _; apply cur_none; auto|lia].
Qed.
Lemma delimiter_c b d k E (Q : scanner * bool -> nat -> Prop) : at_ok b -> k + (n - pos b) + 1 <= E ->
  (forall b' go k', moves b b' -> (go = false -> pos b' = n) ->
     k' <= k + (pos b' - pos b) + 1 -> Q (b', go) k') ->
  runs k (parse_number_delimiter_t b d) E Q.
Proof.
  intros Hb HE HQ. unfold parse_number_delimiter_t. destruct (cur b) as [x|] eqn:Ex.
  - destruct d as [d|].
    + destruct (d x).
      * rr. apply consume_c; [auto|lia|]. intros b2 k2 y Hm2 Hp2 _ _ _ Hk2. rr.
        apply HQ; [auto|discriminate|lia].
      * rr. apply HQ; [apply moves_refl; auto|discriminate|lia].
    + rr. apply HQ; [apply moves_refl; auto|discriminate|lia].
  - rr. apply HQ; [apply moves_refl; auto|intros _; apply cur_none; auto|lia].
Qed.
Lemma check_end_c b k E (Q : unit -> nat -> Prop) : at_ok b -> k + 2 * (n - pos b) <= E ->
  Q tt k -> runs k (check_end_of_input_t b) E Q.
Proof.
  intros Hb HE HQ. unfold check_end_of_input_t. destruct (cur b); [|rr; auto].
  rr. apply remainder_c; auto. intros x. rr. lia.
Qed.
End Scan.
