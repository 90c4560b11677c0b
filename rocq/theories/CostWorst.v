(** * The number of steps of the parser for several durations, whatever the delimiters: at most quadratic *)
From Verif Require Import Prelude Util Time Config Bytes Repr Parse ReprProofs Cost CostErase CostProofs CostScan CostMulti.
Open Scope nat_scope.

Section Worst.
Context (s : str) (c : config).
Notation n := (length s).
Notation at_ok := (at_ok s).
Notation moves := (moves s).
Notation outer := (c_outer_delimiter c).
Notation inner := (c_inner_delimiter c).
Notation kap := (conj_cost c).
Notation Inv := (Inv s c).
Notation e := (e s c).
Notation stop := (stop c).

Lemma unit_w b u k E (Q : scanner * option (time_unit * multiplier) -> nat -> Prop) : Inv b ->
  k + 6 * (n - pos b) + 10 + kap <= E ->
  (forall b' k', Inv b' -> pos b' = pos b -> k' <= k + 2 * (n - pos b) + 2 -> Q (b', None) k') ->
  (forall b' um k', Inv b' -> pos b < pos b' -> k' <= k + 5 * (n - pos b) + 10 + kap -> Q (b', Some um) k') ->
  runs k (multi_time_unit_t b c u) E Q.
Proof.
  intros Hb HE HN HS. unfold multi_time_unit_t. cbv zeta.
  assert (Hpn : pos b <= n) by apply Hb. pose proof (e_le s c _ Hpn) as Hen. pose proof (e_ge s c (pos b)) as Heg.
  rr. apply runs_now; [lia|]. intros [] _.
  set (d := if c_allow_ago c then (fun x => inner x || outer x || is_next_duration x) else stop).
  rr. replace (if c_allow_ago c then buffered_advance_to_t (fun x => inner x || outer x || is_next_duration x) b
    else buffered_advance_to_t (fun x => outer x || is_next_duration x) b) with (buffered_advance_to_t d b)
    by (unfold d; destruct (c_allow_ago c); reflexivity).
  assert (Hd : word_end c d).
  { unfold d. destruct (c_allow_ago c); [right|left; auto]. intros x. unfold CostMulti.stop. rewrite orb_assoc. auto. }
  apply (buffered_c s c); [auto|auto|lia|]. intros b1 w k1 Hb1 Hp1 Hk1 Hbu1 He1 Hg1.
  assert (Hn1 : pos b1 <= n) by apply Hb1.
  destruct (is_empty w) eqn:Ew.
  { rr. assert (Hw : w = []) by (destruct w; [auto|discriminate]). subst w. cbn in Hp1, Hk1. apply HN; [|lia|lia].
    split; [auto|]. intros p w' nx H. rewrite Hbu1 in H. injection H as <- <- <-. split; [lia|auto]. }
  assert (Hlw : 0 < length w) by (destruct w; [discriminate|cbn; lia]).
  assert (Hinv1 : Inv b1) by (eapply at_Inv; eauto; lia).
  rr. apply runs_now; [lia|]. intros x Hx. apply unchecked_ok in Hx. subst x.
  rr. unfold u_get_t. rr. rr. destruct (u_get u w) as [[tu m]|].
  2:{ rr. apply HN; [eapply reset_Inv; eauto|reflexivity|lia]. }
  assert (Hrest : forall b2 m2 k2, Inv b2 -> pos b1 <= pos b2 <= n -> k2 <= k1 + S (length w) + (n - pos b1) + 4 ->
     runs k2 (let^ b0 := match cur b2 with
                         | Some x => if outer x then connect_t c b2 else now (Ok b2)
                         | None => now (Ok b2)
                         end in now (Ok (b0, Some (tu, m2)))) E Q).
  { intros b2 m2 k2 Hb2 Hp2 Hk2. rr. apply (after_c s c); [apply Hb2|lia|].
    intros b3 k3 Hm3 _ _ Hk3. rr. assert (Hp3 : pos b2 <= pos b3 <= n) by (split; apply Hm3).
    apply HS; [eapply Inv_moves; eauto|lia|lia]. }
  assert (Hplain : forall m2, runs (k1 + S (length w)) (now (Ok (b1, m2))) E
      (fun a k' => runs k' (let '(b0, multiplier) := a in
         let^ b3 := match cur b0 with
                    | Some x => if outer x then connect_t c b0 else now (Ok b0)
                    | None => now (Ok b0)
                    end in now (Ok (b3, Some (tu, multiplier)))) E Q)).
  { intros m2. rr. apply (Hrest b1 m2 _ Hinv1); lia. }
  rr. destruct (cur b1) as [x|] eqn:Ex1; [|apply Hplain].
  destruct (cur_some _ _ _ Hb1 Ex1) as [Hlt1 Hx1].
  destruct (c_allow_ago c && inner x) eqn:Eai; [|apply Hplain].
  cbv zeta. rr. apply (consume_c s); [auto|lia|]. intros b2 k2 y Hm2 Hp2 Hy2 _ Hall Hk2.
  assert (Hb2 : at_ok b2) by apply Hm2. assert (Hn2 : pos b2 <= n) by apply Hm2.
  assert (Hback : runs (k2 + 3) (now (Ok (reset b2 (pos b1), m))) E
      (fun a k' => runs k' (let '(b0, multiplier) := a in
         let^ b3 := match cur b0 with
                    | Some x => if outer x then connect_t c b0 else now (Ok b0)
                    | None => now (Ok b0)
                    end in now (Ok (b3, Some (tu, multiplier)))) E Q)).
  { rr. assert (Hbu2 : buffer b2 = buffer b1) by apply Hm2.
    apply Hrest; cbn; try lia. eapply at_Inv; [apply reset_at; auto|cbn; rewrite Hbu2; eauto|cbn; lia]. }
  rr. apply (next_is_c s); [auto|]. change (length (%"ago")) with 3. intros [] Hyes; [|exact Hback].
  specialize (Hyes eq_refl). pose proof (advance_by_moves _ _ _ Hb2 Hyes) as Hm3.
  assert (Hinv3 : Inv (advance_by b2 3)) by (eapply Inv_moves; [exact Hinv1|eapply moves_trans; eauto]).
  assert (Hgo : runs (k2 + 3) (now (Ok (advance_by b2 3, mul_saturating_neg m))) E
      (fun a k' => runs k' (let '(b0, multiplier) := a in
         let^ b3 := match cur b0 with
                    | Some x => if outer x then connect_t c b0 else now (Ok b0)
                    | None => now (Ok b0)
                    end in now (Ok (b3, Some (tu, multiplier)))) E Q)).
  { rr. apply (Hrest (advance_by b2 3) _ _ Hinv3); cbn [advance_by pos]; lia. }
  destruct (cur (advance_by b2 3)) as [z|] eqn:Ez; [|exact Hgo].
  destruct (outer z || is_next_duration z); [exact Hgo|exact Hback].
Qed.

(** ** One duration *)
Notation A := 20.
Notation B := (B c).
Definition Worst (p k : nat) (o : multi_output) (k' : nat) : Prop :=
  k' <= k + A * (n - p) + B /\
  match snd o with
  | Some b' => Inv b' /\ p < pos b' /\ rlen (fst o) <= pos b' - p
  | None => rlen (fst o) <= n - p
  end.
Lemma out_worst p k o k' : Out s c p k o k' -> Worst p k o k'.
Proof.
  unfold Out, Worst. destruct (snd o) as [b'|]; [|tauto]. intros (H1 & H2 & _ & H3 & H4).
  assert (Hn : pos b' <= n) by apply H1. pose proof (e_le s c _ Hn). split; [lia|auto].
Qed.
Lemma finalize_w p k0 b r k E (Q : multi_output -> nat -> Prop) : Inv b -> p < pos b ->
  rlen r <= pos b - p -> k <= k0 + 18 * (n - p) + 40 + 3 * kap -> k0 + A * (n - p) + B <= E ->
  (forall o k', Worst p k0 o k' -> Q o k') -> runs k (multi_finalize_t b r c) E Q.
Proof.
  intros Hb Hp Hr Hk HE HQ. assert (Hn : pos b <= n) by apply Hb. unfold CostMulti.B in *.
  apply (finalize_c s c); [auto|lia| |].
  - intros b' k' Hb' Hp' _ Hk'. apply HQ. unfold Worst, CostMulti.B. cbn [fst snd]. assert (Hn' : pos b' <= n) by apply Hb'.
    split; [lia|]. split; [auto|]. lia.
  - intros Heq. apply HQ. unfold Worst, CostMulti.B. cbn [fst snd]. lia.
Qed.
Lemma number_w p k0 b r u k E (Q : multi_output -> nat -> Prop) : Inv b -> r_fract r = None -> rlen r <= pos b - p ->
  p <= pos b -> (p < pos b \/ p = pos b /\ cur b = Some 46%Z /\ r_whole r = None) ->
  k <= k0 + 2 * (pos b - p) + 8 -> k0 + A * (n - p) + B <= E ->
  (forall o k', Worst p k0 o k' -> Q o k') -> runs k (template_number_t multi_t b r c u) E Q.
Proof.
  intros Hb Hf Hr Hp Hcase Hk HE HQ. unfold template_number_t. assert (Hpn : pos b <= n) by apply Hb. unfold CostMulti.B in HE.
  assert (Hat : at_ok b) by apply Hb.
  rr. apply (fraction_c s); [auto|lia|auto|]. intros b1 r1 go k1 Hm1 Hr1 Hmoved Hdig Hgo Hk1.
  assert (Hb1 : Inv b1) by (eapply Inv_moves; eauto). assert (Hp1 : pos b <= pos b1 <= n) by (split; apply Hm1).
  assert (Hlt : p < pos b1).
  { destruct Hcase as [H1|(-> & Hc & Hw)]; [lia|]. destruct (cur_some _ _ _ Hat Hc) as [Hlt _].
    destruct (Nat.eq_dec (pos b1) (pos b)) as [Heq|]; [|lia]. destruct go; [|specialize (Hgo eq_refl); lia].
    exfalso. apply (Hmoved Heq eq_refl). auto. }
  assert (Hmake : forall b' r' k', Inv b' -> pos b1 <= pos b' -> rlen r' <= pos b' - p ->
    k' <= k0 + 3 * (pos b' - p) + 20 -> runs k' (now (Ok (tt_make_output multi_t b' r'))) E Q).
  { intros b' r' k' Hb' Hp' Hr' Hk'. assert (Hn' : pos b' <= n) by apply Hb'.
    rr. apply HQ. cbn [multi_t tt_make_output]. unfold multi_make_output, Worst, CostMulti.B.
    destruct (cur b'); cbn [fst snd]; [|lia]. split; [lia|]. split; [auto|]. lia. }
  destruct (negb go); [apply Hmake; [auto|lia|lia|lia]|].
  rr. apply (exponent_c s); [apply Hb1|lia|]. intros b2 r2 go2 k2 Hm2 Hr2 _ Hk2.
  assert (Hb2 : Inv b2) by (eapply Inv_moves; eauto). assert (Hp2 : pos b1 <= pos b2 <= n) by (split; apply Hm2).
  destruct (negb go2); [apply Hmake; [auto|lia|lia|lia]|].
  rr. apply (delimiter_c s); [apply Hb2|lia|]. intros b3 go3 k3 Hm3 _ Hk3.
  assert (Hb3 : Inv b3) by (eapply Inv_moves; eauto). assert (Hp3 : pos b2 <= pos b3 <= n) by (split; apply Hm3).
  destruct (negb go3); [apply Hmake; [auto|lia|lia|lia]|].
  rr. cbn [multi_t tt_parse_number_time_unit tt_finalize]. unfold multi_number_time_unit_t.
  assert (Hfinal : forall b4 r4 k4, Inv b4 -> pos b3 <= pos b4 -> rlen r4 <= pos b3 - p ->
    k4 <= k3 + 5 * (n - pos b3) + 10 + kap -> runs k4 (multi_finalize_t b4 r4 c) E Q).
  { intros b4 r4 k4 Hb4 Hp4 Hr4 Hk4. apply (finalize_w p k0); auto; try lia; unfold CostMulti.B; lia. }
  destruct (cur b3) eqn:Ec3.
  - destruct (negb (u_is_empty u)).
    + rr. apply unit_w; [auto|lia| |].
      * intros b4 k4 Hb4 Hp4 Hk4. rr. cbn [negb]. apply Hfinal; [auto|lia|lia|lia].
      * intros b4 um k4 Hb4 Hp4 Hk4. rr. cbn [negb]. apply Hfinal; [auto|lia| |lia].
        change (rlen (set_unit r2 um)) with (rlen r2). lia.
    + rr. cbn [negb]. apply Hfinal; [auto|lia|lia|lia].
  - rr. cbn [negb]. apply Hmake; [auto|lia|lia|lia].
Qed.
Lemma word_w p k0 b r u kw nu k E (Q : multi_output -> nat -> Prop) : Inv b -> rlen r = 0 -> p <= pos b ->
  k <= k0 + 2 * (pos b - p) + 8 -> k0 + A * (n - p) + B <= E ->
  (forall o k', Worst p k0 o k' -> Q o k') -> runs k (template_word_t multi_t b r c u kw nu) E Q.
Proof.
  intros Hb Hr Hp Hk HE HQ. assert (Hpn : pos b <= n) by apply Hb.
  pose proof (e_ge s c (pos b)) as Heg. pose proof (e_le s c _ Hpn) as Hen. unfold template_word_t, CostMulti.B in *.
  cbn [multi_t tt_parse_keyword tt_finalize tt_parse_time_unit].
  assert (Hfinal : forall b4 r4 k4, Inv b4 -> pos b < pos b4 -> rlen r4 = 0 ->
    k4 <= k0 + 18 * (n - p) + 40 + 3 * kap -> runs k4 (multi_finalize_t b4 r4 c) E Q).
  { intros b4 r4 k4 Hb4 Hp4 Hr4 Hk4. apply (finalize_w p k0); auto; unfold CostMulti.B; lia. }
  assert (Hnum : forall b3 k3, Inv b3 -> pos b3 = pos b -> k3 <= k + 4 * (n - pos b) + 4 ->
     runs k3 (template_numeral_t multi_t b3 r c u nu) E Q).
  { intros b3 k3 Hb3 Hp3 Hk3. unfold template_numeral_t. cbn [multi_t tt_finalize tt_parse_time_unit].
    rr. apply (numeral_c s c); [auto|lia| |].
    - intros b4 k4 Hb4 Hp4 Hk4. rr. apply (remainder_c s); [auto|lia|]. intros ?. rr. lia.
    - intros b4 id m k4 Hb4 Hp4 Hg4 Hid Hk4. assert (Hn4 : pos b4 <= n) by apply Hb4. rewrite Hp3 in *.
      rr. apply unit_w; [auto|lia| |].
      + intros b5 k5 Hb5 Hp5 Hk5. rr. destruct (u_is_empty u); rr; lia.
      + intros b5 um k5 Hb5 Hp5 Hk5. assert (Hn5 : pos b5 <= n) by apply Hb5.
        apply Hfinal; [auto|lia|exact Hr|lia]. }
  rr. apply (keyword_c s c); [auto|lia| |].
  - intros b1 k1 Hb1 Hp1 Hk1. destruct (c_number_is_optional c).
    + cbv zeta. rr. apply unit_w; [auto|rewrite Hp1; lia| |].
      * intros b2 k2 Hb2 Hp2 Hk2. apply Hnum.
        -- rewrite Hp1 in *. assert (Hrs : reset b2 (pos b) = b2).
           { destruct Hb2 as ((H1 & H2 & _) & _). rewrite <- Hp2. unfold reset. rewrite H1, <- H2, <- H1.
             destruct b2; reflexivity. }
           rewrite Hrs. auto.
        -- cbn. lia.
        -- rewrite Hp1 in *. lia.
      * intros b2 um k2 Hb2 Hp2 Hk2. rewrite Hp1 in *. assert (Hn2 : pos b2 <= n) by apply Hb2.
        apply Hfinal; [auto|lia|exact Hr|lia].
    + apply Hnum; [auto|auto|lia].
  - intros b1 um k1 Hb1 Hp1 Hf1 Hk1. assert (Hn1 : pos b1 <= n) by apply Hb1. apply Hfinal; [auto|lia|exact Hr|lia].
Qed.
Lemma template_w b u kw nu k E (Q : multi_output -> nat -> Prop) : Inv b -> k + A * (n - pos b) + B <= E ->
  (forall o k', Worst (pos b) k o k' -> Q o k') -> runs k (template_parse_t multi_t b c u kw nu) E Q.
Proof.
  intros Hb HE HQ. unfold template_parse_t. destruct (cur b) as [x0|] eqn:Ec; [|rr; lia].
  assert (Hpn : pos b <= n) by apply Hb. assert (Hat : at_ok b) by apply Hb. assert (HE' := HE). unfold CostMulti.B in HE'.
  rr. apply (sign_c s); [auto|lia|]. intros b1 r1 k1 Hm1 Hs Hf1 Hw1 Hk1.
  assert (Hb1 : Inv b1) by (eapply Inv_moves; eauto). assert (Hp1 : pos b <= pos b1 <= n) by (split; apply Hm1).
  cbn in Hf1, Hw1. assert (Hr1 : rlen r1 = 0) by (unfold rlen; rewrite Hf1, Hw1; reflexivity).
  assert (Hcase : pos b < pos b1 \/ pos b = pos b1) by (destruct Hs as [[_ H]| ->]; auto).
  destruct (cur b1) as [x|] eqn:Ec1; [|rr; lia]. destruct (cur_some _ _ _ (proj1 Hb1) Ec1) as [Hlt1 Hx1].
  destruct (is_digit x) eqn:Edx.
  - rr. apply (whole_c s); [apply Hb1|lia|]. intros b2 w k2 Hm2 Hp2 Hw Hk2.
    assert (Hb2 : Inv b2) by (eapply Inv_moves; eauto).
    apply (number_w (pos b) k); auto; try lia.
    unfold rlen. cbn [set_whole r_whole r_fract rl]. rewrite Hf1. cbn [rl]. lia.
  - destruct (Z.eqb_spec x 46) as [->|_].
    { apply (number_w (pos b) k); auto; try lia. destruct Hcase as [H|H]; [left; auto|right; auto]. }
    assert (Hword : forall k2, k2 <= k1 + 3 -> runs k2 (template_word_t multi_t b1 r1 c u kw nu) E Q).
    { intros k2 Hk2. apply (word_w (pos b) k); auto; lia. }
    rr. destruct (negb (c_disable_infinity c)).
    + apply (next_is_c s); [apply Hb1|]. change (length (%"inf")) with 3. intros [] Hyes.
      * specialize (Hyes eq_refl). pose proof (advance_by_moves _ _ _ (proj1 Hb1) Hyes) as Hm3.
        cbn [multi_t tt_parse_infinity_remainder]. apply (infinity_c s c (pos b) k); auto; cbn [advance_by pos]; try lia.
        -- eapply Inv_moves; eauto.
        -- intros o k' Ho. apply HQ, out_worst, Ho.
      * apply Hword. lia.
    + rr. apply Hword. lia.
Qed.

(** ** The loop *)
Definition round : nat := 21 * n + B + 1.
Lemma round_step p p' : p < p' -> p' <= n -> round * (n - p' + 1) + round <= round * (n - p + 1).
Proof. intros H1 H2. rewrite <- Nat.mul_succ_r. apply Nat.mul_le_mono_l. lia. Qed.
Lemma round_one p : p <= n -> round <= round * (n - p + 1).
Proof. intros H. rewrite <- (Nat.mul_1_r round) at 1. apply Nat.mul_le_mono_l. lia. Qed.
Lemma loop_w u kw nu fuel : forall d b k E, Inv b -> k + round * (n - pos b + 1) <= E ->
  runs k (multiple_loop_t fuel c u kw nu d b) E (fun _ k' => k' <= E).
Proof.
  induction fuel as [|f IH]; intros d b k E Hb HE.
  { cbn [multiple_loop_t]. rr. eapply Nat.le_trans; [apply Nat.le_add_r|exact HE]. }
  assert (Hn : pos b <= n) by apply Hb. pose proof (round_one _ Hn) as H1. assert (H2 : k + 21 * n + B + 1 <= E).
  { eapply Nat.le_trans; [|exact HE]. rewrite <- !Nat.add_assoc. apply Nat.add_le_mono_l. rewrite Nat.add_assoc. exact H1. }
  cbn [multiple_loop_t]. rr. rr. apply template_w; [auto|lia|].
  intros [r mb] k1 [Hk1 Hout]. cbn [fst snd] in Hout.
  assert (Hr : rlen r <= n - pos b). { destruct mb as [b'|]; [|auto]. destruct Hout as (Hb' & _ & H). assert (pos b' <= n) by apply Hb'. lia. }
  rr. apply repr_parse_c; [lia|]. intros parsed k2 Hk2.
  assert (Hrest : forall d', runs k2 match mb with
      | Some b0 => multiple_loop_t f c u kw nu d' b0
      | None => now (Ok d')
      end E (fun _ k' => k' <= E)).
  { intros d'. destruct mb as [b'|]; [|rr; lia]. destruct Hout as (Hb' & Hlt & _). apply IH; [auto|].
    assert (Hn' : pos b' <= n) by apply Hb'. pose proof (round_step _ _ Hlt Hn') as H3.
    assert (H4 : k2 <= k + round) by (unfold round; lia). clear - H3 H4 HE. lia. }
  rr. destruct (_ && _); [rr; lia|]. destruct (is_zero parsed); [rr; apply Hrest|].
  destruct (is_zero d); [rr; apply Hrest|]. apply runs_now; [lia|]. intros d' _. apply Hrest.
Qed.
Theorem parse_multiple_w u kw nu : fst (parse_multiple_t c s u kw nu) <= (21 * n + 61 + 4 * kap) * (n + 1).
Proof.
  assert (Hi : Inv (bytes_new s)) by (split; [repeat split; cbn; lia|discriminate]).
  pose proof (loop_w u kw nu) as H.
  assert (H0 : runs 0 (parse_multiple_t c s u kw nu) ((21 * n + 61 + 4 * kap) * (n + 1)) (fun _ k => k <= (21 * n + 61 + 4 * kap) * (n + 1))).
  { unfold parse_multiple_t. apply H; [auto|]. cbn [bytes_new pos]. unfold round, CostMulti.B. replace (n - 0) with n by lia.
    apply Nat.eq_le_incl. cbn [Nat.add]. f_equal. lia. }
  unfold runs in H0. destruct (snd (parse_multiple_t c s u kw nu)); lia.
Qed.
End Worst.
