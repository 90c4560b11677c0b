(** * The number of steps of the parser for a single duration *)
From Verif Require Import Prelude Util Time Config Bytes Repr Parse ReprProofs Cost CostErase CostProofs CostScan.
Open Scope nat_scope.

Section Single.
Context (s : str).
Notation n := (length s).
Notation at_ok := (at_ok s).
Notation moves := (moves s).

Lemma remainder_unchecked_c b k E (Q : str -> nat -> Prop) : at_ok b -> k <= E ->
  (forall x, length x <= n - pos b -> Q x k) -> runs k (now (get_remainder_str_unchecked b)) E Q.
Proof.
  intros (H1 & _) HE HQ. apply runs_now; [auto|]. intros x Hx. apply HQ.
  unfold get_remainder_str_unchecked, get_remainder in Hx. rewrite H1 in Hx.
  destruct (slice s (pos b) n) as [y| |] eqn:Ey; try discriminate. apply slice_ok in Ey.
  cbn in Hx. unfold str_unchecked in Hx. destruct (utf8 y); [|discriminate]. injection Hx as <-. lia.
Qed.
Lemma buffered_c d b k E (Q : scanner * str -> nat -> Prop) : at_ok b -> buffer b = None -> k + n <= E ->
  (forall b' x k', at_ok b' -> pos b <= pos b' -> length x <= n -> k' <= k + n + 1 -> Q (b', x) k') ->
  runs k (buffered_advance_to_t d b) E Q.
Proof.
  intros Hb Hbu HE HQ. unfold buffered_advance_to_t. rewrite Hbu. cbv zeta. rr.
  apply (skip_c s); [auto|unfold loop_fuel; destruct Hb as [-> _]; lia|].
  intros b' Hm _ _. assert (Hp : pos b <= pos b' <= n) by (split; apply Hm). rr.
  replace (input b') with s by (symmetry; apply Hm).
  rewrite slice_is by lia. rr. rr. apply HQ; [|cbn; lia| |lia].
  - destruct Hm as ((H1 & H2 & H3) & _). repeat split; cbn; auto.
  - rewrite firstn_length, skipn_length. lia.
Qed.
Lemma infinity_loop_c w : forall b k E (Q : scanner -> nat -> Prop), at_ok b -> k + length w <= E ->
  (forall b', moves b b' -> Q b' (k + length w)) -> runs k (infinity_loop_single_t w b) E Q.
Proof.
  induction w as [|e w IH]; intros b k E Q Hb HE HQ; cbn [infinity_loop_single_t length] in *.
  - rr. replace k with (k + 0) by lia. apply HQ, moves_refl; auto.
  - rr. destruct (cur b) as [x|] eqn:Ex; [|rr; lia]. destruct (eq_nocase x e); [|rr; lia].
    pose proof (advance_moves _ _ _ Hb Ex) as Hm. apply IH; [apply Hm|lia|].
    intros b' Hm'. replace (k + 1 + length w) with (k + S (length w)) by lia. apply HQ.
    eapply moves_trans; eauto.
Qed.
Lemma time_unit_c b c u k E (Q : scanner * option (time_unit * multiplier) -> nat -> Prop) : at_ok b ->
  k + 3 * n + 10 <= E ->
  (forall b' o k', at_ok b' -> pos b <= pos b' -> buffer b' = buffer b -> k' <= k + 3 * n + 10 -> Q (b', o) k') ->
  runs k (single_time_unit_t b c u) E Q.
Proof.
  intros Hb HE HQ. unfold single_time_unit_t. cbv zeta. assert (Hpb : pos b <= n) by apply Hb.
  rr. apply runs_now; [lia|]. intros [] _. destruct (c_allow_ago c).
  - rr. unfold advance_to_t. cbv zeta. rr. apply (skip_c s); [auto|unfold loop_fuel; destruct Hb as [-> _]; lia|].
    intros b1 Hm1 _ _. assert (Hp1 : pos b <= pos b1 <= n) by (split; apply Hm1).
    assert (Hb1 : at_ok b1) by apply Hm1. assert (Hbu1 : buffer b1 = buffer b) by apply Hm1.
    rr. apply runs_now; [lia|]. intros x Hx. apply slice_ok in Hx. destruct Hx as (_ & _ & Hx).
    rr. rr. apply runs_now; [lia|]. intros y Hy. unfold str_unchecked in Hy. destruct (utf8 x); [|discriminate].
    injection Hy as <-. destruct (is_empty x); [rr; apply HQ; auto; lia|].
    rr. unfold u_get_t. rr. rr. destruct (u_get u x) as [[tu m]|].
    + destruct (cur b1) as [y1|] eqn:Ec1.
      * rr. apply (consume_c s); [auto|lia|]. intros b2 k2 y2 Hm2 Hp2 _ _ _ Hk2.
        assert (Hb2 : at_ok b2) by apply Hm2. assert (Hbu2 : buffer b2 = buffer b1) by apply Hm2.
        assert (Hn2 : pos b2 <= n) by apply Hm2.
        rr. apply (next_is_c s); [auto|]. intros [] Hyes.
        -- rr. specialize (Hyes eq_refl). pose proof (advance_by_moves _ _ _ Hb2 Hyes) as Hm3.
           apply HQ; [apply Hm3|cbn; lia|cbn; congruence|cbn; lia].
        -- rr. apply HQ; [apply reset_at; auto|cbn; lia|cbn; congruence|cbn; lia].
      * rr. apply HQ; auto; lia.
    + rr. apply HQ; [apply reset_at; auto|cbn; lia|cbn; congruence|cbn; lia].
  - rr. apply remainder_unchecked_c; [auto|lia|]. intros x Hx. rr. unfold u_get_t. rr. rr.
    destruct (u_get u x) as [um|]; rr.
    + pose proof (finish_at _ _ Hb) as Hm. apply HQ; [apply Hm|apply Hm|reflexivity|lia].
    + apply HQ; auto; lia.
Qed.
Lemma single_finalize_c b r c k E (Q : repr -> nat -> Prop) : at_ok b -> k + 2 * n <= E ->
  Q r k -> runs k (single_finalize_t b r c) E Q.
Proof.
  intros Hb HE HQ. unfold single_finalize_t. rr. apply (check_end_c s); [auto|lia|]. rr. auto.
Qed.
Lemma single_number_c b r c u k E (Q : repr -> nat -> Prop) : at_ok b -> r_fract r = None ->
  rlen r <= pos b -> k + 8 * n + 16 <= E ->
  (forall r' k', rlen r' <= n -> k' <= k + 4 * n + 16 -> Q r' k') ->
  runs k (template_number_t single_t b r c u) E Q.
Proof.
  intros Hb Hf Hr HE HQ. unfold template_number_t. assert (Hpb : pos b <= n) by apply Hb.
  rr. apply (fraction_c s); [auto|lia|auto|]. intros b1 r1 go k1 Hm1 Hr1 _ _ _ Hk1.
  assert (Hb1 : at_ok b1) by apply Hm1. assert (Hp1 : pos b <= pos b1 <= n) by (split; apply Hm1).
  destruct (negb go); [rr; cbn [single_t tt_make_output]; apply HQ; lia|].
  rr. apply (exponent_c s); [auto|lia|]. intros b2 r2 go2 k2 Hm2 Hr2 _ Hk2.
  assert (Hb2 : at_ok b2) by apply Hm2. assert (Hp2 : pos b1 <= pos b2 <= n) by (split; apply Hm2).
  destruct (negb go2); [rr; cbn [single_t tt_make_output]; apply HQ; lia|].
  rr. apply (delimiter_c s); [auto|lia|]. intros b3 go3 k3 Hm3 _ Hk3.
  assert (Hb3 : at_ok b3) by apply Hm3. assert (Hp3 : pos b2 <= pos b3 <= n) by (split; apply Hm3).
  destruct (negb go3); [rr; cbn [single_t tt_make_output]; apply HQ; lia|].
  rr. cbn [single_t tt_parse_number_time_unit]. unfold single_number_time_unit_t.
  destruct (cur b3) eqn:Ec3; [|rr; cbn [negb]; rr; cbn [single_t tt_make_output]; apply HQ; lia].
  destruct (negb (u_is_empty u)).
  - rr. apply time_unit_c; [auto|lia|]. intros b4 o k4 Hb4 Hp4 _ Hk4.
    destruct o as [um|].
    + rr. cbn [negb single_t tt_finalize]. apply single_finalize_c; [auto|lia|].
      apply HQ; [change (rlen (set_unit r2 um)) with (rlen r2)|]; lia.
    + rr. apply (remainder_c s); [auto|lia|]. intros x. rr. lia.
  - rr. unfold get_remainder_copy_t. destruct Hb3 as (Hi3 & _). rewrite Hi3. rr. apply runs_now; [lia|].
    intros x _. rr. lia.
Qed.
Lemma single_template_c b c u kw nu k E (Q : repr -> nat -> Prop) : at_ok b -> pos b = 0 -> buffer b = None ->
  k + 16 * n + 50 <= E ->
  (forall r' k', rlen r' <= n -> k' <= k + 14 * n + 50 -> Q r' k') ->
  runs k (template_parse_t single_t b c u kw nu) E Q.
Proof.
  intros Hb Hp0 Hbu HE HQ. unfold template_parse_t. destruct (cur b) eqn:Ec; [|rr; lia].
  rr. apply (sign_c s); [auto|lia|]. intros b1 r1 k1 Hm1 _ Hf1 Hw1 Hk1.
  assert (Hb1 : at_ok b1) by apply Hm1. assert (Hp1 : pos b <= pos b1 <= n) by (split; apply Hm1).
  assert (Hbu1 : buffer b1 = None) by (rewrite (proj1 (proj2 Hm1)); auto).
  cbn in Hf1, Hw1. assert (Hr1 : rlen r1 = 0) by (unfold rlen; rewrite Hf1, Hw1; reflexivity).
  destruct (cur b1) as [x|] eqn:Ec1; [|rr; lia]. destruct (is_digit x).
  - rr. apply (whole_c s); [auto|lia|]. intros b2 w k2 Hm2 Hp2 Hw Hk2.
    assert (Hb2 : at_ok b2) by apply Hm2. assert (Hn2 : pos b2 <= n) by apply Hm2.
    apply single_number_c; [auto|auto| |lia|].
    + unfold rlen. cbn [set_whole r_whole r_fract rl]. rewrite Hf1. cbn [rl]. lia.
    + intros; apply HQ; lia.
  - destruct (x =? 46)%Z.
    { apply single_number_c; [auto|auto|lia|lia|]. intros; apply HQ; lia. }
    assert (Hword : forall k2, k2 <= k1 + 3 -> runs k2 (template_word_t single_t b1 r1 c u kw nu) E Q).
    { intros k2 Hk2. unfold template_word_t. cbn [single_t tt_parse_keyword tt_finalize tt_parse_time_unit].
      rr. unfold single_keyword_t.
      assert (Hnum : forall b3 k3, at_ok b3 -> pos b3 <= n -> buffer b3 = None -> k3 <= k2 + 4 * n + 12 ->
        runs k3 (template_numeral_t single_t b3 r1 c u nu) E Q).
      { intros b3 k3 Hb3 Hp3 Hbu3 Hk3. unfold template_numeral_t. cbn [single_t tt_finalize tt_parse_time_unit].
        rr. unfold parse_numeral_t. destruct nu as [nu|].
        - cbv zeta. rr. apply buffered_c; [auto|auto|lia|]. intros b4 x4 k4 Hb4 Hp4 Hx4 Hk4.
          destruct (is_empty x4).
          + rr. rr. apply (remainder_c s); [auto|lia|]. intros ?. rr. lia.
          + rr. apply runs_now; [lia|]. intros y Hy. unfold str_unchecked in Hy. destruct (utf8 x4); [|discriminate].
            injection Hy as <-. rr. unfold numeral_get_t. rr. rr. assert (Hn4 : pos b4 <= n) by apply Hb4.
            assert (Herr : runs (k4 + S (length x4)) (now (Ok (reset b4 (pos b3), @None (str * multiplier)))) E
              (fun a k' => runs k' (let '(b5, o) := a in match o with
                | Some (id, numeral) => let^ x0 := single_time_unit_t b5 c u in
                     let '(b6, o0) := x0 in
                     match o0 with
                     | Some um => single_finalize_t b6 (set_unit (set_numeral r1 numeral) um) c
                     | None => steps (length id) (if u_is_empty u then now (Err (TimeUnitErr (pos b6)
                            (%"Found numeral '" ++ id ++ %"' without time units being defined")))
                         else now (Err (TimeUnitErr (pos b6) (%"Found numeral '" ++ id ++ %"' without a time unit"))))
                     end
                | None => let^ remainder := get_remainder_str_t b5 in now (Err (InvalidInput remainder)) end) E Q)).
            { rr. rr. apply (remainder_c s); [apply reset_at; auto|cbn; lia|]. intros ?. rr. cbn. lia. }
            destruct (nu x4) as [m|]; [|exact Herr].
            destruct (cur b4) as [y4|] eqn:Ec4; [|exact Herr]. destruct (c_inner_delimiter c y4); [|exact Herr]. clear Herr.
            rr. apply (consume_c s); [auto|lia|]. intros b5 k5 y Hm5 Hp5 _ _ _ Hk5. rr.
            assert (Hb5 : at_ok b5) by apply Hm5. assert (Hn5 : pos b5 <= n) by apply Hm5.
            rr. apply time_unit_c; [auto|lia|]. intros b6 o k6 Hb6 Hp6 _ Hk6. destruct o as [um|].
            * apply single_finalize_c; [auto|lia|]. apply HQ; [|lia].
              change (rlen (set_unit (set_numeral r1 m) um)) with (rlen r1). lia.
            * rr. destruct (u_is_empty u); rr; lia.
        - rr. rr. apply (remainder_c s); [auto|lia|]. intros ?. rr. lia. }
      assert (Hrest : forall k3, k3 <= k2 + n + 1 -> runs k3 (if c_number_is_optional c
              then let^ x0 := single_time_unit_t b1 c u in
                   let '(b0, o) := x0 in
                   match o with
                   | Some um => single_finalize_t b0 (set_unit r1 um) c
                   | None => template_numeral_t single_t (reset b0 (pos b1)) r1 c u nu
                   end
              else template_numeral_t single_t b1 r1 c u nu) E Q).
      { intros k3 Hk3. destruct (c_number_is_optional c).
        - rr. apply time_unit_c; [auto|lia|]. intros b4 o k4 Hb4 Hp4 Hbu4 Hk4. destruct o as [um|].
          + apply single_finalize_c; [auto|lia|]. apply HQ; [|lia].
            change (rlen (set_unit r1 um)) with (rlen r1). lia.
          + apply Hnum; [apply reset_at; [auto|lia]|cbn; lia|cbn; congruence|lia].
        - apply Hnum; auto; lia. }
      destruct kw as [kw|].
      - rr. apply remainder_unchecked_c; [auto|lia|]. intros x0 Hx0. rr. unfold u_get_t. rr. rr.
        destruct (u_get kw x0) as [um|]; rr.
        + apply single_finalize_c; [apply finish_at; auto|lia|]. apply HQ; [|lia].
          change (rlen (set_unit r1 um)) with (rlen r1). lia.
        + apply Hrest. lia.
      - rr. apply Hrest. lia. }
    rr. destruct (negb (c_disable_infinity c)).
    + apply (next_is_c s); [auto|]. intros [] Hyes.
      * specialize (Hyes eq_refl). cbn [length bytes_of] in *. change (length (%"inf")) with 3 in *.
        cbn [single_t tt_parse_infinity_remainder]. unfold single_infinity_remainder_t.
        pose proof (advance_by_moves _ _ _ Hb1 Hyes) as Hm3. destruct (is_end_of_input _).
        -- rr. apply HQ; [change (rlen (set_infinite r1)) with (rlen r1)|]; lia.
        -- rr. apply infinity_loop_c; [apply Hm3|change (length (%"inity")) with 5; lia|].
           intros b4 Hm4. change (length (%"inity")) with 5. rr. apply (check_end_c s); [apply Hm4|lia|].
           rr. apply HQ; [change (rlen (set_infinite r1)) with (rlen r1)|]; lia.
      * apply Hword. change (length (%"inf")) with 3. lia.
    + rr. apply Hword. lia.
Qed.

Lemma bytes_new_at : at_ok (bytes_new s).
Proof. repeat split; cbn; lia. Qed.
Theorem parse_single_c c u kw nu : fst (parse_single_t c s u kw nu) <= 16 * n + 50.
Proof.
  assert (H : runs 0 (parse_single_t c s u kw nu) (16 * n + 50) (fun _ k => k <= 16 * n + 50)).
  { unfold parse_single_t. rr. apply single_template_c; [apply bytes_new_at|reflexivity|reflexivity|lia|].
    intros r k Hr Hk. rr. apply repr_parse_c; [lia|]. intros d k' Hk'. destruct (_ && _); rr; lia. }
  unfold runs in H. destruct (snd (parse_single_t c s u kw nu)); lia.
Qed.
End Single.
