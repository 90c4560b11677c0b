(** * The number of steps of the parser for several durations *)
From Verif Require Import Prelude Util Time Config Bytes Repr Parse ReprProofs Cost CostErase CostProofs CostScan.
Open Scope nat_scope.

(** ** The next position at which a word ends *)
Fixpoint nxt (stop : byte -> bool) (l : str) : nat :=
  match l with [] => 0 | x :: l' => if stop x then 0 else S (nxt stop l') end.
Lemma nxt_le stop l : nxt stop l <= length l.
Proof. induction l as [|x l IH]; cbn; [lia|]. destruct (stop x); lia. Qed.
Lemma nxt_stop stop l : forall i x, nth_error l i = Some x -> stop x = true -> nxt stop l <= i.
Proof.
  induction l as [|y l IH]; intros i x H Hs; [destruct i; discriminate|]. cbn. destruct (stop y) eqn:Ey; [lia|].
  destruct i as [|i]; [cbn in H; congruence|]. cbn in H. apply le_n_S. eapply IH; eauto.
Qed.
Lemma nxt_end stop l : nxt stop l = length l \/ exists x, nth_error l (nxt stop l) = Some x /\ stop x = true.
Proof.
  induction l as [|y l IH]; [left; reflexivity|]. cbn. destruct (stop y) eqn:Ey.
  - right. exists y. auto.
  - destruct IH as [->|(x & H & Hs)]; [left; reflexivity|right; exists x; auto].
Qed.
Lemma nth_error_skip {A} (l : list A) p i : nth_error (skipn p l) i = nth_error l (p + i).
Proof.
  revert l; induction p as [|p IH]; intros l; [reflexivity|]. destruct l; cbn.
  - destruct i; reflexivity.
  - apply IH.
Qed.

Section Multi.
Context (s : str) (c : config).
Notation n := (length s).
Notation at_ok := (at_ok s).
Notation moves := (moves s).
Notation outer := (c_outer_delimiter c).
Notation inner := (c_inner_delimiter c).
Definition stop (x : byte) : bool := outer x || is_next_duration x.
Definition e (p : nat) : nat := p + nxt stop (skipn p s).
Lemma e_ge p : p <= e p.
Proof. unfold e. lia. Qed.
Lemma e_le p : p <= n -> e p <= n.
Proof. intros H. unfold e. pose proof (nxt_le stop (skipn p s)) as Hl. rewrite skipn_length in Hl. lia. Qed.
Lemma e_stop p q x : p <= q -> nth_error s q = Some x -> stop x = true -> e p <= q.
Proof.
  intros H Hx Hs. unfold e. assert (H2 : nxt stop (skipn p s) <= q - p); [|lia].
  apply (nxt_stop stop _ _ x); auto. rewrite nth_error_skip. replace (p + (q - p)) with q by lia. auto.
Qed.
Lemma e_end p : p <= n -> e p = n \/ exists x, nth_error s (e p) = Some x /\ stop x = true.
Proof.
  intros H. unfold e. destruct (nxt_end stop (skipn p s)) as [->|(x & H1 & H2)].
  - left. rewrite skipn_length. lia.
  - right. exists x. rewrite nth_error_skip in H1. auto.
Qed.
Lemma free_e p q : p <= n -> q <= n -> free s stop p q -> q <= e p.
Proof.
  intros Hp Hq Hf. destruct (e_end p Hp) as [->|(x & H1 & H2)]; [auto|].
  destruct (Nat.le_gt_cases q (e p)) as [|Hlt]; [auto|]. exfalso.
  assert (H3 : stop x = false); [|congruence]. apply (Hf (e p) x); [|auto]. pose proof (e_ge p). lia.
Qed.
Lemma e_mono p q : p <= q -> q <= n -> e p <= e q.
Proof.
  intros H Hq. destruct (e_end q Hq) as [->|(x & H1 & H2)]; [apply e_le; lia|].
  eapply e_stop; eauto. pose proof (e_ge q). lia.
Qed.

Definition inn (p : nat) : Prop := exists x, nth_error s p = Some x /\ inner x = true.
Lemma inn_dec p : inn p \/ ~ inn p.
Proof.
  unfold inn. destruct (nth_error s p) as [x|]; [|right; intros (y & H & _); discriminate].
  destruct (inner x) eqn:E; [left; eauto|right]. intros (y & [= <-] & H). congruence.
Qed.
(** the words which the buffer holds *)
Definition good (p : nat) (w : str) (nx : option byte) : Prop :=
  nx = nth_error s (p + length w) /\ p + length w <= e p /\ (p + length w = e p \/ w = [] \/ ~ inn p).
Definition Inv (b : scanner) : Prop :=
  at_ok b /\ forall p w nx, buffer b = Some (p, w, nx) -> p <= pos b /\ (p = pos b -> good p w nx).
Lemma Inv_moves b b' : Inv b -> moves b b' -> Inv b'.
Proof.
  intros (H1 & H2) (H3 & H4 & H5). split; [auto|]. intros p w nx H. rewrite H4 in H.
  destruct (H2 _ _ _ H) as [H6 H7]. split; [lia|]. intros ->. apply H7. lia.
Qed.

Definition conj_cost : nat := fold_right (fun w a => 1 + 2 * length w + a) 0 (conjunctions_or_default c).
Notation kap := conj_cost.

Lemma conjunction_c start ws : forall b k E (Q : scanner -> nat -> Prop), at_ok b ->
  k + (n - pos b) + 1 + fold_right (fun w a => 1 + 2 * length w + a) 0 ws <= E ->
  (forall b' k', moves b b' -> k' <= k + (pos b' - pos b) + 1 + fold_right (fun w a => 1 + 2 * length w + a) 0 ws -> Q b' k') ->
  runs k (conjunction_loop_t outer start ws b) E Q.
Proof.
  induction ws as [|w ws IH]; intros b k E Q Hb HE HQ; cbn [conjunction_loop_t fold_right] in *.
  - rr. apply HQ; [apply moves_refl; auto|lia].
  - rr. rr. apply (next_is_c s); [auto|]. intros [] Hyes.
    + specialize (Hyes eq_refl). pose proof (advance_by_moves _ _ _ Hb Hyes) as Hm. cbv zeta.
      destruct (cur (advance_by b (length w))) as [x|] eqn:Ex.
      * destruct (outer x).
        -- apply (consume_c s); [apply Hm|cbn; lia|]. intros b2 k2 y Hm2 Hp2 _ _ _ Hk2. cbn in Hk2, Hp2.
           apply HQ; [eapply moves_trans; eauto|lia].
        -- destruct (is_next_duration x); rr; [|lia]. apply HQ; [auto|cbn; lia].
      * rr. rr. lia.
    + apply IH; [auto|lia|]. intros b' k' Hm Hk. apply HQ; [auto|lia].
Qed.
Lemma connect_c b k E (Q : scanner -> nat -> Prop) : at_ok b -> k + (n - pos b) + 2 + kap <= E ->
  (forall b' k', moves b b' -> pos b < pos b' ->
     (forall q, q <= n -> (forall i x, pos b <= i < q -> nth_error s i = Some x -> outer x = true) -> q <= pos b') ->
     k' <= k + (pos b' - pos b) + 2 + kap -> Q b' k') ->
  runs k (connect_t c b) E Q.
Proof.
  intros Hb HE HQ. unfold connect_t, try_consume_connection_t. unfold conj_cost in *.
  rr. apply runs_now; [lia|]. intros x Hx. rr. apply runs_now; [lia|]. intros [] _.
  rr. apply (consume_c s); [auto|lia|]. intros b1 k1 y Hm1 Hp1 Hy1 Hd1 _ Hk1.
  assert (Hn1 : pos b1 <= n) by apply Hm1.
  apply conjunction_c; [apply Hm1|lia|]. intros b2 k2 Hm2 Hk2.
  assert (Hp2 : pos b1 <= pos b2) by apply Hm2. apply HQ; [eapply moves_trans; eauto|lia| |lia].
  intros q Hq Hall. destruct (Nat.le_gt_cases q (pos b1)) as [|Hlt]; [lia|]. exfalso.
  assert (H : outer y = true); [|congruence]. apply (Hall (pos b1) y); [lia|].
  destruct Hm1 as ((_ & H & _) & _). congruence.
Qed.
(** consume the delimiter after a word, if there is one *)
Lemma after_c b k E (Q : scanner -> nat -> Prop) : at_ok b -> k + (n - pos b) + 2 + kap <= E ->
  (forall b' k', moves b b' -> (b' = b \/ e (pos b) = pos b /\ pos b < pos b') ->
     (forall q, q <= n -> (forall i x, pos b <= i < q -> nth_error s i = Some x -> outer x = true) -> q <= pos b') ->
     k' <= k + (pos b' - pos b) + 2 + kap -> Q b' k') ->
  runs k (match cur b with Some x => if outer x then connect_t c b else now (Ok b) | None => now (Ok b) end) E Q.
Proof.
  intros Hb HE HQ. assert (Hnb : pos b <= n) by apply Hb. destruct (cur b) as [x|] eqn:Ex.
  - destruct (cur_some _ _ _ Hb Ex) as [Hlt Hx]. destruct (outer x) eqn:Ed.
    + apply connect_c; auto. intros b' k' Hm Hp Hr Hk. apply HQ; auto. right. split; [|auto].
      pose proof (e_ge (pos b)). assert (e (pos b) <= pos b); [|lia]. eapply e_stop; eauto. unfold stop. rewrite Ed. auto.
    + rr. apply HQ; [apply moves_refl; auto|auto| |lia]. intros q Hq Hall.
      destruct (Nat.le_gt_cases q (pos b)) as [|Hlt2]; [auto|]. exfalso.
      assert (outer x = true); [|congruence]. apply (Hall (pos b) x); [lia|auto].
  - rr. apply HQ; [apply moves_refl; auto|auto| |lia]. intros q Hq _. rewrite (cur_none _ _ Hb Ex). auto.
Qed.

(** ** Words *)
Definition word_end (d : byte -> bool) : Prop := (forall x, d x = stop x) \/ (forall x, d x = inner x || stop x).
Lemma word_end_stop d x : word_end d -> stop x = true -> d x = true.
Proof. intros [H|H] Hs; rewrite H, Hs; auto. apply orb_true_r. Qed.
Lemma buffered_c d b k E (Q : scanner * str -> nat -> Prop) : Inv b -> word_end d -> k <= E ->
  (forall b' w k', at_ok b' -> pos b' = pos b + length w -> k' <= k + length w + 1 ->
     buffer b' = Some (pos b, w, nth_error s (pos b')) -> ends s d b' -> good (pos b) w (nth_error s (pos b')) ->
     Q (b', w) k') ->
  runs k (buffered_advance_to_t d b) E Q.
Proof.
  intros [Hb Hbuf] Hd HE HQ. unfold buffered_advance_to_t. assert (Hpn : pos b <= n) by apply Hb.
  set (fresh := let^ b' := skip_until_t (loop_fuel b) d b in
    let^ s0 := now (slice (input b') (pos b) (pos b')) in
    now (Ok (Scan (pos b') (cur b') (Some (pos b, s0, cur b')) (input b'), s0))).
  assert (Hfresh : runs k fresh E Q).
  { unfold fresh. rr. apply (skip_c s); [auto|unfold loop_fuel; destruct Hb as [-> _]; lia|].
    intros b' Hm He Hf. assert (Hp : pos b <= pos b' <= n) by (split; apply Hm). rr.
    replace (input b') with s by (symmetry; apply Hm).
    rewrite slice_is by lia. rr. rr.
    set (w := firstn (pos b' - pos b) (skipn (pos b) s)).
    assert (Hw : length w = pos b' - pos b) by (unfold w; rewrite firstn_length, skipn_length; lia).
    assert (Hc : cur b' = nth_error s (pos b')) by apply Hm.
    assert (Hfs : free s stop (pos b) (pos b')).
    { intros i x Hi Hx. specialize (Hf i x Hi Hx). destruct (stop x) eqn:Es; [|auto].
      rewrite (word_end_stop _ _ Hd Es) in Hf. discriminate. }
    pose proof (free_e _ _ Hpn (proj2 Hp) Hfs) as Hle. pose proof (e_le _ Hpn) as Hen.
    rewrite Hc. apply HQ.
    - destruct Hm as ((H1 & H2 & H3) & _). repeat split; cbn; auto.
    - cbn. lia.
    - lia.
    - reflexivity.
    - destruct He as [He|(x & Hx & He)]; [left; auto|right; exists x; cbn; rewrite <- Hc; auto].
    - cbn [pos]. unfold good. rewrite Hw. replace (pos b + (pos b' - pos b)) with (pos b') by lia. split; [|split].
      + reflexivity.
      + lia.
      + destruct He as [He|(x & Hx & He)]; [left; lia|]. destruct (stop x) eqn:Es.
        * left. assert (e (pos b) <= pos b'); [|lia]. rewrite Hc in Hx. eapply e_stop; eauto; lia.
        * destruct Hd as [Hd|Hd]; [rewrite Hd in He; congruence|].
          destruct (Nat.eq_dec (pos b) (pos b')) as [Heq|Hne]; [right; left|right; right].
          -- destruct w; [auto|cbn in Hw; lia].
          -- intros (y & Hy & Hi). assert (H := Hf (pos b) y). rewrite Hd, Hi in H. discriminate H; [lia|auto]. }
  destruct (buffer b) as [[[p w] nx]|] eqn:Ebuf; [|exact Hfresh].
  destruct (Hbuf _ _ _ eq_refl) as [Hple Hgood].
  assert (Huse : p = pos b -> ends s d (advance_by b (length w)) -> runs k (now (Ok (advance_by b (length w), w))) E Q).
  { intros -> He. specialize (Hgood eq_refl). destruct Hgood as (Hnx & Hle & Hor). pose proof (e_le _ Hpn) as Hen.
    pose proof (advance_by_moves s b (length w) Hb) as Hm. rr. apply HQ; auto.
    - apply Hm. lia.
    - lia.
    - cbn. rewrite Ebuf. f_equal. f_equal. auto.
    - split; [reflexivity|auto]. }
  destruct nx as [nx|].
  - destruct (Nat.eqb_spec p (pos b)) as [->|]; [|exact Hfresh]. destruct (d nx) eqn:Edn; [|exact Hfresh].
    apply Huse; auto. right. exists nx. split; [|auto]. cbn. destruct (Hgood eq_refl) as (-> & _).
    destruct Hb as (-> & _). reflexivity.
  - destruct (Nat.eqb_spec p (pos b)) as [->|]; [|exact Hfresh].
    apply Huse; auto. left. cbn. destruct (Hgood eq_refl) as (Hnx & Hle & _). pose proof (e_le _ Hpn).
    symmetry in Hnx. apply nth_error_None in Hnx. lia.
Qed.
(** the word before a numeral's delimiter may go further *)
Lemma buffered_numeral_c b k E (Q : scanner * str -> nat -> Prop) : Inv b -> k <= E ->
  (forall b' w k', at_ok b' -> pos b' = pos b + length w -> k' <= k + length w + 1 ->
     (exists nx, buffer b' = Some (pos b, w, nx)) -> (w = [] \/ ~ inn (pos b) \/ e (pos b) <= pos b') ->
     Q (b', w) k') ->
  runs k (buffered_advance_to_t inner b) E Q.
Proof.
  intros [Hb Hbuf] HE HQ. unfold buffered_advance_to_t. assert (Hpn : pos b <= n) by apply Hb.
  set (fresh := let^ b' := skip_until_t (loop_fuel b) inner b in
    let^ s0 := now (slice (input b') (pos b) (pos b')) in
    now (Ok (Scan (pos b') (cur b') (Some (pos b, s0, cur b')) (input b'), s0))).
  assert (Hfresh : runs k fresh E Q).
  { unfold fresh. rr. apply (skip_c s); [auto|unfold loop_fuel; destruct Hb as [-> _]; lia|].
    intros b' Hm He Hf. assert (Hp : pos b <= pos b' <= n) by (split; apply Hm). rr.
    replace (input b') with s by (symmetry; apply Hm).
    rewrite slice_is by lia. rr. rr.
    set (w := firstn (pos b' - pos b) (skipn (pos b) s)).
    assert (Hw : length w = pos b' - pos b) by (unfold w; rewrite firstn_length, skipn_length; lia).
    apply HQ.
    - destruct Hm as ((H1 & H2 & H3) & _). repeat split; cbn; auto.
    - cbn. lia.
    - lia.
    - cbn. eauto.
    - destruct w as [|a w'] eqn:Ew; [left; auto|right; left]. cbn in Hw.
      intros (y & Hy & Hi). assert (H := Hf (pos b) y). rewrite Hi in H. discriminate H; [lia|auto]. }
  destruct (buffer b) as [[[p w] nx]|] eqn:Ebuf; [|exact Hfresh].
  destruct (Hbuf _ _ _ eq_refl) as [Hple Hgood].
  assert (Huse : p = pos b -> runs k (now (Ok (advance_by b (length w), w))) E Q).
  { intros ->. specialize (Hgood eq_refl). destruct Hgood as (Hnx & Hle & Hor). pose proof (e_le _ Hpn) as Hen.
    pose proof (advance_by_moves s b (length w) Hb) as Hm. rr. apply HQ; auto.
    - apply Hm. lia.
    - lia.
    - cbn. rewrite Ebuf. eauto.
    - cbn. destruct Hor as [Hor|[Hor|Hor]]; auto. right; right; lia. }
  destruct nx as [nx|].
  - destruct (Nat.eqb_spec p (pos b)) as [->|]; [|exact Hfresh]. destruct (inner nx) eqn:Edn; [|exact Hfresh].
    apply Huse; auto.
  - destruct (Nat.eqb_spec p (pos b)) as [->|]; [|exact Hfresh]. apply Huse; auto.
Qed.

(** the end of a duration which starts at p *)
Definition fin (p p' : nat) : Prop := e p <= p' \/ inn p' /\ ~ inn p.

Lemma reset_Inv b p w nx : at_ok b -> p <= n -> buffer b = Some (p, w, nx) -> good p w nx -> Inv (reset b p).
Proof.
  intros Hb Hp Hbu Hg. split; [apply reset_at; auto|]. cbn. intros p' w' nx' H. rewrite Hbu in H.
  injection H as <- <- <-. auto.
Qed.
Lemma at_Inv b p w nx : at_ok b -> buffer b = Some (p, w, nx) -> p < pos b -> Inv b.
Proof.
  intros Hb Hbu Hp. split; [auto|]. intros p' w' nx' H. rewrite Hbu in H. injection H as <- <- <-. split; lia.
Qed.
Lemma unchecked_ok x y : str_unchecked x = Ok y -> y = x.
Proof. unfold str_unchecked. destruct (utf8 x); [|discriminate]. congruence. Qed.

Lemma keyword_c b kw k E (Q : scanner * option (time_unit * multiplier) -> nat -> Prop) : Inv b ->
  k + 3 * (n - pos b) + 5 + kap <= E ->
  (forall b' k', Inv b' -> pos b' = pos b -> k' <= k + 2 * (e (pos b) - pos b) + 2 -> Q (b', None) k') ->
  (forall b' um k', Inv b' -> pos b < pos b' -> e (pos b) <= pos b' -> k' <= k + 3 * (pos b' - pos b) + 5 + kap ->
     Q (b', Some um) k') ->
  runs k (multi_keyword_t b kw c) E Q.
Proof.
  intros Hb HE HN HS. unfold multi_keyword_t. destruct kw as [kw|]; [|rr; apply HN; auto; lia]. cbv zeta.
  assert (Hpn : pos b <= n) by apply Hb. pose proof (e_le _ Hpn) as Hen. pose proof (e_ge (pos b)) as Heg.
  rr. apply buffered_c; [auto|left; reflexivity|lia|]. intros b1 w k1 Hb1 Hp1 Hk1 Hbu1 He1 Hg1.
  assert (Hn1 : pos b1 <= n) by apply Hb1. assert (Hle1 : pos b1 <= e (pos b)) by (destruct Hg1 as (_ & H & _); lia).
  destruct (is_empty w) eqn:Ew.
  - rr. assert (Hw : w = []) by (destruct w; [auto|discriminate]). subst w. cbn in Hp1, Hk1. apply HN; [|lia|lia].
    split; [auto|]. intros p w' nx H. rewrite Hbu1 in H. injection H as <- <- <-. auto with arith.
    split; [lia|auto].
  - assert (Hlw : 0 < length w) by (destruct w; [discriminate|cbn; lia]).
    rr. apply runs_now; [lia|]. intros x Hx. apply unchecked_ok in Hx. subst x.
    rr. unfold u_get_t. rr. rr. destruct (u_get kw w) as [um|].
    + rr. apply after_c; [auto|lia|]. intros b2 k2 Hm2 _ _ Hk2. rr.
      assert (Hp2 : pos b1 <= pos b2 <= n) by (split; apply Hm2).
      apply HS; [|lia| |lia].
      * eapply Inv_moves; [eapply at_Inv; eauto; lia|auto].
      * destruct He1 as [He1|(y & Hy & He1)]; [lia|].
        assert (e (pos b) <= pos b1); [|lia]. destruct (cur_some _ _ _ Hb1 Hy) as [_ Hy1]. eapply e_stop; eauto. lia.
    + rr. apply HN; [eapply reset_Inv; eauto|reflexivity|lia].
Qed.

(** ** One duration *)
Notation A := 20.
Definition B : nat := 60 + 4 * kap.
(** the result of one duration which starts at p after k steps *)
Definition Out (p k : nat) (o : multi_output) (k' : nat) : Prop :=
  match snd o with
  | Some b' => Inv b' /\ p < pos b' /\ fin p (pos b') /\ k' <= k + A * (e (pos b') - p) + B /\ rlen (fst o) <= pos b' - p
  | None => k' <= k + A * (n - p) + B /\ rlen (fst o) <= n - p
  end.
Lemma finalize_c b r k E (Q : multi_output -> nat -> Prop) : Inv b -> k + (n - pos b) + 2 + kap <= E ->
  (forall b' k', Inv b' -> pos b <= pos b' -> (pos b' = pos b \/ e (pos b) = pos b) ->
     k' <= k + (pos b' - pos b) + 2 + kap -> Q (r, Some b') k') ->
  (pos b = n -> Q (r, None) k) ->
  runs k (multi_finalize_t b r c) E Q.
Proof.
  intros Hb HE HS HN. unfold multi_finalize_t. destruct (cur b) as [x|] eqn:Ex; [|rr; apply HN; apply cur_none; [apply Hb|auto]].
  destruct (outer x) eqn:Eo.
  - destruct (cur_some _ _ _ (proj1 Hb) Ex) as [Hlt Hx].
    rr. apply connect_c; [apply Hb|auto|]. intros b' k' Hm Hp _ Hk. rr. apply HS; [eapply Inv_moves; eauto|lia| |lia].
    right. pose proof (e_ge (pos b)). assert (e (pos b) <= pos b); [|lia]. eapply e_stop; eauto. unfold stop. rewrite Eo. auto.
  - rr. apply HS; auto. lia.
Qed.
(** [finalize] after a word *)
Lemma finalize_out p k0 b r k E (Q : multi_output -> nat -> Prop) : Inv b -> p < pos b -> fin p (pos b) ->
  rlen r <= pos b - p -> k <= k0 + 18 * (e (pos b) - p) + 40 + 3 * kap -> k0 + A * (n - p) + B <= E ->
  (forall o k', Out p k0 o k' -> Q o k') -> runs k (multi_finalize_t b r c) E Q.
Proof.
  intros Hb Hp Hf Hr Hk HE HQ. assert (Hn : pos b <= n) by apply Hb. unfold B in *.
  pose proof (e_le _ Hn) as Hen. pose proof (e_ge (pos b)) as Heg.
  apply finalize_c; [auto|lia| |].
  - intros b' k' Hb' Hp' Hor Hk'. apply HQ. unfold Out, B. cbn [fst snd]. assert (Hn' : pos b' <= n) by apply Hb'.
    pose proof (e_mono _ _ Hp' Hn') as Hmo. pose proof (e_ge (pos b')) as Heg'.
    split; [auto|]. split; [lia|]. split; [|split; lia].
    destruct Hor as [->|Hor]; [auto|]. left. pose proof (e_mono p (pos b)). lia.
  - intros Heq. apply HQ. unfold Out, B. cbn [fst snd]. lia.
Qed.
Lemma infinity_loop_c start w : forall b k E (Q : scanner -> nat -> Prop), at_ok b -> start <= pos b ->
  k + length w + 2 * (pos b - start + length w) <= E ->
  (forall b', moves b b' -> Q b' (k + length w)) -> runs k (infinity_loop_multi_t start w b) E Q.
Proof.
  induction w as [|x w IH]; intros b k E Q Hb Hst HE HQ; cbn [infinity_loop_multi_t length] in *.
  - rr. replace k with (k + 0) by lia. apply HQ, moves_refl; auto.
  - rr. destruct (cur b) as [y|] eqn:Ex.
    + destruct (eq_nocase y x); [|rr; lia].
      pose proof (advance_moves _ _ _ Hb Ex) as Hm. apply IH; [apply Hm|cbn; lia|cbn; lia|].
      intros b' Hm'. replace (k + 1 + length w) with (k + S (length w)) by lia. apply HQ.
      eapply moves_trans; eauto.
    + rr. rr. apply runs_now; [lia|]. intros ? _. rr. apply runs_now; [lia|]. intros ? _. rr. lia.
Qed.
(** a delimiter or the end of the input after b *)
Lemma connect_out p k0 b r k x E (Q : multi_output -> nat -> Prop) : Inv b -> p < pos b ->
  cur b = Some x -> outer x = true -> rlen r = 0 -> k <= k0 + 18 * (pos b - p) + 40 + 3 * kap -> k0 + A * (n - p) + B <= E ->
  (forall o k', Out p k0 o k' -> Q o k') -> runs k (let^ b := connect_t c b in now (Ok (set_infinite r, Some b))) E Q.
Proof.
  intros Hb Hp Ex Eo Hr Hk HE HQ. assert (Hn : pos b <= n) by apply Hb. unfold B in *.
  destruct (cur_some _ _ _ (proj1 Hb) Ex) as [Hlt Hx].
  rr. apply connect_c; [apply Hb|lia|]. intros b' k' Hm Hp' _ Hk'. rr. apply HQ. unfold Out, B. cbn [fst snd].
  pose proof (e_ge (pos b')) as Heg'. change (rlen (set_infinite r)) with (rlen r).
  split; [eapply Inv_moves; eauto|]. split; [lia|]. split; [|split; lia].
  left. assert (e p <= pos b); [|lia]. eapply e_stop; eauto; [lia|]. unfold stop. rewrite Eo. auto.
Qed.
Lemma infinity_c p k0 b r k E (Q : multi_output -> nat -> Prop) : Inv b -> p < pos b -> rlen r = 0 ->
  k <= k0 + 2 * (pos b - p) + 10 -> k0 + A * (n - p) + B <= E ->
  (forall o k', Out p k0 o k' -> Q o k') -> runs k (multi_infinity_remainder_t b r c) E Q.
Proof.
  intros Hb Hp Hr Hk HE HQ. assert (Hn : pos b <= n) by apply Hb. unfold multi_infinity_remainder_t. cbv zeta.
  assert (Hnone : forall k', k' <= k + 10 -> runs k' (now (Ok (set_infinite r, @None scanner))) E Q).
  { intros k' Hk'. rr. apply HQ. unfold Out, B. cbn [fst snd]. change (rlen (set_infinite r)) with (rlen r). lia. }
  destruct (cur b) as [x|] eqn:Ex; [|apply Hnone; lia].
  destruct (outer x) eqn:Eo; [apply (connect_out p k0 b r _ x); auto; lia|].
  rr. unfold B in HE. apply infinity_loop_c; [apply Hb|lia|change (length (%"inity")) with 5; lia|].
  change (length (%"inity")) with 5. intros b1 Hm1. assert (Hp1 : pos b <= pos b1 <= n) by (split; apply Hm1).
  destruct (cur b1) as [x1|] eqn:Ex1; [|apply Hnone; lia].
  destruct (outer x1) eqn:Eo1; [|rr; lia].
  apply (connect_out p k0 b1 r _ x1); auto; try (unfold B; lia). eapply Inv_moves; eauto.
Qed.
Lemma numeral_c b nu k E (Q : scanner * option (str * multiplier) -> nat -> Prop) : Inv b ->
  k + 3 * (n - pos b) + 4 <= E ->
  (forall b' k', at_ok b' -> pos b' = pos b -> k' <= k + 2 * (n - pos b) + 2 -> Q (b', None) k') ->
  (forall b' id m k', Inv b' -> pos b < pos b' -> (~ inn (pos b) \/ e (pos b) <= pos b') -> length id <= pos b' - pos b ->
     k' <= k + 3 * (pos b' - pos b) + 3 -> Q (b', Some (id, m)) k') ->
  runs k (parse_numeral_t b nu c) E Q.
Proof.
  intros Hb HE HN HS. unfold parse_numeral_t. destruct nu as [nu|]; [|rr; apply HN; [apply Hb|auto|lia]]. cbv zeta.
  assert (Hpn : pos b <= n) by apply Hb.
  rr. apply buffered_numeral_c; [auto|lia|]. intros b1 w k1 Hb1 Hp1 Hk1 [nx Hbu1] Hg1.
  assert (Hn1 : pos b1 <= n) by apply Hb1.
  destruct (is_empty w) eqn:Ew.
  { rr. destruct w; [|discriminate]. cbn in Hp1, Hk1. apply HN; [auto|lia|lia]. }
  assert (Hlw : 0 < length w) by (destruct w; [discriminate|cbn; lia]).
  rr. apply runs_now; [lia|]. intros x Hx. apply unchecked_ok in Hx. subst x.
  rr. unfold numeral_get_t. rr. rr.
  assert (Hback : runs (k1 + S (length w)) (now (Ok (reset b1 (pos b), @None (str * multiplier)))) E Q).
  { rr. apply HN; [apply reset_at; auto|reflexivity|lia]. }
  destruct (nu w) as [m|]; [|exact Hback].
  destruct (cur b1) as [y1|] eqn:Ex1; [|exact Hback]. destruct (inner y1); [|exact Hback].
  rr. apply (consume_c s); [auto|lia|]. intros b2 k2 y Hm2 Hp2 _ _ _ Hk2. rr. apply HS.
  - eapply Inv_moves; [eapply at_Inv; eauto; lia|auto].
  - lia.
  - destruct Hg1 as [->|[H|H]]; [cbn in Hlw; lia|auto|right; lia].
  - lia.
  - lia.
Qed.
Context (Hago : c_allow_ago c = true ->
  (forall x, inner x = true -> outer x = true) \/ (forall x, inner x = true -> stop x = false)).
Lemma unit_c b u k E (Q : scanner * option (time_unit * multiplier) -> nat -> Prop) : Inv b ->
  k + 6 * (n - pos b) + 10 + kap <= E ->
  (forall b' k', Inv b' -> pos b' = pos b -> k' <= k + 2 * (e (pos b) - pos b) + 2 -> Q (b', None) k') ->
  (forall b' um k', Inv b' -> pos b < pos b' -> fin (pos b) (pos b') ->
     k' <= k + 5 * (e (pos b') - pos b) + 10 + kap -> Q (b', Some um) k') ->
  runs k (multi_time_unit_t b c u) E Q.
Proof.
  intros Hb HE HN HS. unfold multi_time_unit_t. cbv zeta.
  assert (Hpn : pos b <= n) by apply Hb. pose proof (e_le _ Hpn) as Hen. pose proof (e_ge (pos b)) as Heg.
  rr. apply runs_now; [lia|]. intros [] _.
  set (d := if c_allow_ago c then (fun x => inner x || outer x || is_next_duration x) else stop).
  rr. replace (if c_allow_ago c then buffered_advance_to_t (fun x => inner x || outer x || is_next_duration x) b
    else buffered_advance_to_t (fun x => outer x || is_next_duration x) b) with (buffered_advance_to_t d b)
    by (unfold d; destruct (c_allow_ago c); reflexivity).
  assert (Hd : word_end d).
  { unfold d. destruct (c_allow_ago c); [right|left; auto]. intros x. unfold stop. rewrite orb_assoc. auto. }
  apply buffered_c; [auto|auto|lia|]. intros b1 w k1 Hb1 Hp1 Hk1 Hbu1 He1 Hg1.
  assert (Hn1 : pos b1 <= n) by apply Hb1. assert (Hle1 : pos b1 <= e (pos b)) by (destruct Hg1 as (_ & H & _); lia).
  destruct (is_empty w) eqn:Ew.
  { rr. assert (Hw : w = []) by (destruct w; [auto|discriminate]). subst w. cbn in Hp1, Hk1. apply HN; [|lia|lia].
    split; [auto|]. intros p w' nx H. rewrite Hbu1 in H. injection H as <- <- <-. split; [lia|auto]. }
  assert (Hlw : 0 < length w) by (destruct w; [discriminate|cbn; lia]).
  assert (Hfin1 : e (pos b) <= pos b1 \/ ~ inn (pos b)).
  { destruct Hg1 as (_ & _ & [H|[H|H]]); [left; lia|subst w; cbn in Hlw; lia|auto]. }
  assert (Hinv1 : Inv b1) by (eapply at_Inv; eauto; lia).
  rr. apply runs_now; [lia|]. intros x Hx. apply unchecked_ok in Hx. subst x.
  rr. unfold u_get_t. rr. rr. destruct (u_get u w) as [[tu m]|].
  2:{ rr. apply HN; [eapply reset_Inv; eauto|reflexivity|lia]. }
  (* the rest, after the word and perhaps "ago" *)
  assert (Hrest : forall b2 m2 k2, Inv b2 -> pos b1 <= pos b2 <= n -> fin (pos b) (pos b2) ->
     forall q, pos b2 <= q <= n ->
     (q <= e (pos b2) \/ (forall i x, pos b2 <= i < q -> nth_error s i = Some x -> outer x = true)) ->
     k2 <= k1 + S (length w) + (q - pos b1) + 4 ->
     runs k2 (let^ b0 := match cur b2 with
                         | Some x => if outer x then connect_t c b2 else now (Ok b2)
                         | None => now (Ok b2)
                         end in now (Ok (b0, Some (tu, m2)))) E Q).
  { intros b2 m2 k2 Hb2 Hp2 Hf2 q Hq Hor Hk2. rr. apply after_c; [apply Hb2|lia|].
    intros b3 k3 Hm3 Hsame Hrun Hk3. rr. assert (Hp3 : pos b2 <= pos b3 <= n) by (split; apply Hm3).
    pose proof (e_ge (pos b3)) as Heg3. pose proof (e_mono (pos b2) (pos b3)) as Hmo.
    apply HS; [eapply Inv_moves; eauto|lia| |].
    - destruct Hsame as [->|[He2 Hlt]]; [auto|]. left.
      destruct Hf2 as [Hf2|_]; [lia|]. pose proof (e_mono (pos b) (pos b2)). lia.
    - assert (Hqe : q <= e (pos b3)).
      { destruct Hor as [Hor|Hor]; [lia|]. assert (q <= pos b3); [apply Hrun; [lia|auto]|lia]. }
      lia. }
  assert (Hplain : forall m2, fin (pos b) (pos b1) -> runs (k1 + S (length w)) (now (Ok (b1, m2))) E
      (fun a k' => runs k' (let '(b0, multiplier) := a in
         let^ b3 := match cur b0 with
                    | Some x => if outer x then connect_t c b0 else now (Ok b0)
                    | None => now (Ok b0)
                    end in now (Ok (b3, Some (tu, multiplier)))) E Q)).
  { intros m2 Hf. rr. apply (Hrest b1 m2 _ Hinv1) with (q := pos b1); auto; try lia. left. apply e_ge. }
  rr. destruct (cur b1) as [x|] eqn:Ex1.
  2:{ apply Hplain. left. rewrite (cur_none _ _ Hb1 Ex1). lia. }
  destruct (cur_some _ _ _ Hb1 Ex1) as [Hlt1 Hx1].
  assert (Hdx : d x = true).
  { destruct He1 as [He1|(y & Hy & He1)]; [lia|congruence]. }
  destruct (c_allow_ago c && inner x) eqn:Eai.
  2:{ apply Hplain. left. eapply e_stop; eauto; [lia|]. unfold d in Hdx. destruct (c_allow_ago c); [|auto].
      cbn [andb] in Eai. rewrite Eai in Hdx. exact Hdx. }
  apply andb_prop in Eai. destruct Eai as [Ea Ei]. pose proof (Hago Ea) as Hag.
  cbv zeta. rr. apply (consume_c s); [auto|lia|]. intros b2 k2 y Hm2 Hp2 Hy2 _ Hall Hk2.
  assert (Hb2 : at_ok b2) by apply Hm2. assert (Hn2 : pos b2 <= n) by apply Hm2.
  assert (Hback : runs (k2 + 3) (now (Ok (reset b2 (pos b1), m))) E
      (fun a k' => runs k' (let '(b0, multiplier) := a in
         let^ b3 := match cur b0 with
                    | Some x => if outer x then connect_t c b0 else now (Ok b0)
                    | None => now (Ok b0)
                    end in now (Ok (b3, Some (tu, multiplier)))) E Q)).
  { rr. assert (Hbu2 : buffer b2 = buffer b1) by apply Hm2.
    assert (Hf : fin (pos b) (pos b1)).
    { destruct Hfin1 as [H|H]; [left; auto|right]. split; [exists x; auto|auto]. }
    apply Hrest with (q := pos b2); cbn; try lia; auto.
    - eapply at_Inv; [apply reset_at; auto|cbn; rewrite Hbu2; eauto|cbn; lia].
    - destruct Hag as [Ho|Hs].
      + right. intros i z Hi Hz. apply Ho. eapply Hall; eauto.
      + left. apply free_e; auto. intros i z Hi Hz. apply Hs. eapply Hall; eauto. }
  rr. apply (next_is_c s); [auto|]. change (length (%"ago")) with 3. intros [] Hyes; [|exact Hback].
  specialize (Hyes eq_refl). pose proof (advance_by_moves _ _ _ Hb2 Hyes) as Hm3.
  assert (Hinv3 : Inv (advance_by b2 3)) by (eapply Inv_moves; [exact Hinv1|eapply moves_trans; eauto]).
  assert (Hgo : e (pos b) <= pos b2 + 3 -> runs (k2 + 3) (now (Ok (advance_by b2 3, mul_saturating_neg m))) E
      (fun a k' => runs k' (let '(b0, multiplier) := a in
         let^ b3 := match cur b0 with
                    | Some x => if outer x then connect_t c b0 else now (Ok b0)
                    | None => now (Ok b0)
                    end in now (Ok (b3, Some (tu, multiplier)))) E Q)).
  { intros He3. rr. apply (Hrest (advance_by b2 3) _ _ Hinv3) with (q := pos b2 + 3); cbn [advance_by pos]; try lia.
    - left. auto.
    - left. apply e_ge. }
  destruct (cur (advance_by b2 3)) as [z|] eqn:Ez.
  - destruct (outer z || is_next_duration z) eqn:Es; [|exact Hback]. apply Hgo.
    eapply (e_stop _ _ z); [lia| |exact Es]. destruct Hm3 as ((_ & H & _) & _). rewrite H in Ez. exact Ez.
  - apply Hgo. rewrite <- (cur_none _ _ (proj1 Hm3) Ez) in Hen. exact Hen.
Qed.

Lemma number_c p k0 b r u k E (Q : multi_output -> nat -> Prop) : Inv b -> r_fract r = None -> rlen r <= pos b - p ->
  p <= pos b -> (p < pos b /\ e p <= pos b \/ p = pos b /\ cur b = Some 46%Z /\ r_whole r = None) ->
  k <= k0 + 2 * (pos b - p) + 8 -> k0 + A * (n - p) + B <= E ->
  (forall o k', Out p k0 o k' -> Q o k') -> runs k (template_number_t multi_t b r c u) E Q.
Proof.
  intros Hb Hf Hr Hp Hcase Hk HE HQ. unfold template_number_t. assert (Hpn : pos b <= n) by apply Hb. unfold B in HE.
  assert (Hat : at_ok b) by apply Hb.
  rr. apply (fraction_c s); [auto|lia|auto|]. intros b1 r1 go k1 Hm1 Hr1 Hmoved Hdig Hgo Hk1.
  assert (Hb1 : Inv b1) by (eapply Inv_moves; eauto). assert (Hp1 : pos b <= pos b1 <= n) by (split; apply Hm1).
  assert (Hpos : p < pos b1 /\ e p <= pos b1).
  { destruct Hcase as [[H1 H2]|(-> & Hc & Hw)]; [lia|].
    destruct (Hdig Hw Hc) as (x & Hx & Hd). destruct (cur_some _ _ _ Hat Hc) as [Hlt _].
    assert (Hgt : pos b < pos b1).
    { destruct (Nat.eq_dec (pos b1) (pos b)) as [Heq|]; [|lia]. destruct go; [|specialize (Hgo eq_refl); lia].
      exfalso. apply (Hmoved Heq eq_refl). auto. }
    split; [auto|]. assert (e (pos b) <= pos b + 1); [|lia]. eapply e_stop; eauto; [lia|].
    unfold stop, is_next_duration. rewrite Hd. cbn. apply orb_true_r. }
  destruct Hpos as [Hlt He].
  assert (Hmake : forall b' r' k', Inv b' -> pos b1 <= pos b' -> rlen r' <= pos b' - p ->
    k' <= k0 + 3 * (pos b' - p) + 20 -> runs k' (now (Ok (tt_make_output multi_t b' r'))) E Q).
  { intros b' r' k' Hb' Hp' Hr' Hk'. assert (Hn' : pos b' <= n) by apply Hb'. pose proof (e_ge (pos b')) as Heg'.
    rr. apply HQ. cbn [multi_t tt_make_output]. unfold multi_make_output, Out, B.
    destruct (cur b'); cbn [fst snd]; [|lia]. split; [auto|]. split; [lia|]. split; [left; lia|split; lia]. }
  destruct (negb go); [apply Hmake; [auto|lia|lia|lia]|].
  rr. apply (exponent_c s); [apply Hb1|lia|]. intros b2 r2 go2 k2 Hm2 Hr2 _ Hk2.
  assert (Hb2 : Inv b2) by (eapply Inv_moves; eauto). assert (Hp2 : pos b1 <= pos b2 <= n) by (split; apply Hm2).
  destruct (negb go2); [apply Hmake; [auto|lia|lia|lia]|].
  rr. apply (delimiter_c s); [apply Hb2|lia|]. intros b3 go3 k3 Hm3 _ Hk3.
  assert (Hb3 : Inv b3) by (eapply Inv_moves; eauto). assert (Hp3 : pos b2 <= pos b3 <= n) by (split; apply Hm3).
  destruct (negb go3); [apply Hmake; [auto|lia|lia|lia]|].
  rr. cbn [multi_t tt_parse_number_time_unit tt_finalize]. unfold multi_number_time_unit_t.
  pose proof (e_ge (pos b3)) as Heg3. pose proof (e_le (pos b3)) as Hel3.
  assert (Hfinal : forall b4 r4 k4, Inv b4 -> pos b3 <= pos b4 -> rlen r4 <= pos b3 - p ->
    k4 <= k3 + 5 * (e (pos b4) - pos b3) + 10 + kap -> runs k4 (multi_finalize_t b4 r4 c) E Q).
  { intros b4 r4 k4 Hb4 Hp4 Hr4 Hk4. pose proof (e_ge (pos b4)). apply (finalize_out p k0); auto; try lia; unfold B; try lia. left. lia. }
  destruct (cur b3) eqn:Ec3.
  - destruct (negb (u_is_empty u)).
    + rr. apply unit_c; [auto|lia| |].
      * intros b4 k4 Hb4 Hp4 Hk4. rr. cbn [negb]. apply Hfinal; [auto|lia|lia|rewrite Hp4; lia].
      * intros b4 um k4 Hb4 Hp4 _ Hk4. rr. cbn [negb]. apply Hfinal; [auto|lia| |lia].
        change (rlen (set_unit r2 um)) with (rlen r2). lia.
    + rr. cbn [negb]. apply Hfinal; [auto|lia|lia|lia].
  - rr. cbn [negb]. apply Hmake; [auto|lia|lia|lia].
Qed.
Lemma fin_trans p q p' : p < q -> q <= n -> (~ inn p \/ e p <= q) -> q <= p' -> fin q p' -> fin p p'.
Proof.
  intros H1 Hn H2 H3 [H4|[H4 H5]]; unfold fin.
  - left. pose proof (e_mono p q). lia.
  - destruct H2 as [H2|H2]; [right; auto|left; lia].
Qed.
(** a word; q is the start of the word, p the start of the duration (before a sign) *)
Lemma word_c p k0 b r u kw nu k E (Q : multi_output -> nat -> Prop) : Inv b -> rlen r = 0 ->
  (p < pos b /\ e p <= pos b \/ p = pos b) ->
  k <= k0 + 2 * (pos b - p) + 8 -> k0 + A * (n - p) + B <= E ->
  (forall o k', Out p k0 o k' -> Q o k') -> runs k (template_word_t multi_t b r c u kw nu) E Q.
Proof.
  intros Hb Hr Hcase Hk HE HQ. assert (Hpn : pos b <= n) by apply Hb. assert (Hp : p <= pos b) by lia.
  pose proof (e_ge (pos b)) as Heg. pose proof (e_le _ Hpn) as Hen. unfold template_word_t, B in *.
  cbn [multi_t tt_parse_keyword tt_finalize tt_parse_time_unit].
  assert (Hfp : forall p', pos b < p' -> fin (pos b) p' -> fin p p').
  { intros p' Hp' Hf. destruct Hcase as [[H1 H2]| ->]; [left; lia|auto]. }
  assert (Hfinal : forall b4 r4 k4, Inv b4 -> pos b < pos b4 -> fin (pos b) (pos b4) -> rlen r4 = 0 ->
    k4 <= k0 + 18 * (e (pos b4) - p) + 40 + 3 * kap -> runs k4 (multi_finalize_t b4 r4 c) E Q).
  { intros b4 r4 k4 Hb4 Hp4 Hf4 Hr4 Hk4. apply (finalize_out p k0); auto; unfold B; lia. }
  assert (Hnum : forall b3 k3, Inv b3 -> pos b3 = pos b -> k3 <= k + 4 * (e (pos b) - pos b) + 4 ->
     runs k3 (template_numeral_t multi_t b3 r c u nu) E Q).
  { intros b3 k3 Hb3 Hp3 Hk3. unfold template_numeral_t. cbn [multi_t tt_finalize tt_parse_time_unit].
    rr. apply numeral_c; [auto|lia| |].
    - intros b4 k4 Hb4 Hp4 Hk4. rr. apply (remainder_c s); [auto|lia|]. intros ?. rr. lia.
    - intros b4 id m k4 Hb4 Hp4 Hg4 Hid Hk4. assert (Hn4 : pos b4 <= n) by apply Hb4. rewrite Hp3 in *.
      pose proof (e_ge (pos b4)) as Heg4. pose proof (e_le _ Hn4) as Hel4.
      rr. apply unit_c; [auto|lia| |].
      + intros b5 k5 Hb5 Hp5 Hk5. rr. destruct (u_is_empty u); rr; lia.
      + intros b5 um k5 Hb5 Hp5 Hf5 Hk5. assert (Hn5 : pos b5 <= n) by apply Hb5.
        pose proof (e_ge (pos b5)) as Heg5. pose proof (e_mono (pos b) (pos b5)) as Hmo5.
        apply Hfinal; [auto|lia| |exact Hr|lia].
        apply (fin_trans (pos b) (pos b4)); auto; lia. }
  rr. apply keyword_c; [auto|lia| |].
  - intros b1 k1 Hb1 Hp1 Hk1. destruct (c_number_is_optional c).
    + cbv zeta. rr. apply unit_c; [auto|rewrite Hp1; lia| |].
      * intros b2 k2 Hb2 Hp2 Hk2. apply Hnum.
        -- rewrite Hp1 in *. assert (Hrs : reset b2 (pos b) = b2).
           { destruct Hb2 as ((H1 & H2 & _) & _). rewrite <- Hp2. unfold reset. rewrite H1, <- H2, <- H1.
             destruct b2; reflexivity. }
           rewrite Hrs. auto.
        -- cbn. lia.
        -- rewrite Hp1 in *. lia.
      * intros b2 um k2 Hb2 Hp2 Hf2 Hk2. rewrite Hp1 in *. assert (Hn2 : pos b2 <= n) by apply Hb2.
        pose proof (e_mono (pos b) (pos b2)) as Hmo. pose proof (e_ge (pos b2)) as Heg2.
        apply Hfinal; [auto|lia|auto|exact Hr|lia].
    + apply Hnum; [auto|auto|lia].
  - intros b1 um k1 Hb1 Hp1 Hf1 Hk1. pose proof (e_ge (pos b1)) as Heg1.
    apply Hfinal; [auto|lia|left; auto|exact Hr|lia].
Qed.
Lemma template_c b u kw nu k E (Q : multi_output -> nat -> Prop) : Inv b -> k + A * (n - pos b) + B <= E ->
  (forall o k', Out (pos b) k o k' -> Q o k') -> runs k (template_parse_t multi_t b c u kw nu) E Q.
Proof.
  intros Hb HE HQ. unfold template_parse_t. destruct (cur b) as [x0|] eqn:Ec; [|rr; lia].
  assert (Hpn : pos b <= n) by apply Hb. assert (Hat : at_ok b) by apply Hb. assert (HE' := HE). unfold B in HE'.
  rr. apply (sign_c s); [auto|lia|]. intros b1 r1 k1 Hm1 Hs Hf1 Hw1 Hk1.
  assert (Hb1 : Inv b1) by (eapply Inv_moves; eauto). assert (Hp1 : pos b <= pos b1 <= n) by (split; apply Hm1).
  cbn in Hf1, Hw1. assert (Hr1 : rlen r1 = 0) by (unfold rlen; rewrite Hf1, Hw1; reflexivity).
  assert (Hcase : pos b < pos b1 /\ e (pos b) <= pos b1 \/ pos b = pos b1).
  { destruct Hs as [[Hsg Hlt]| ->]; [left|right; auto]. split; [auto|].
    assert (e (pos b) <= pos b); [|lia].
    destruct Hsg as [Hsg|Hsg]; destruct (cur_some _ _ _ Hat Hsg) as [_ Hx]; (eapply e_stop; [|exact Hx|]); auto;
      unfold stop; apply orb_true_r. }
  destruct (cur b1) as [x|] eqn:Ec1; [|rr; lia]. destruct (cur_some _ _ _ (proj1 Hb1) Ec1) as [Hlt1 Hx1].
  destruct (is_digit x) eqn:Edx.
  - rr. apply (whole_c s); [apply Hb1|lia|]. intros b2 w k2 Hm2 Hp2 Hw Hk2.
    assert (Hb2 : Inv b2) by (eapply Inv_moves; eauto).
    apply (number_c (pos b) k); auto; try lia.
    + unfold rlen. cbn [set_whole r_whole r_fract rl]. rewrite Hf1. cbn [rl]. lia.
    + left. split; [lia|]. assert (e (pos b) <= pos b1); [|lia].
      eapply e_stop; eauto; [lia|]. unfold stop, is_next_duration. rewrite Edx. cbn. apply orb_true_r.
  - destruct (Z.eqb_spec x 46) as [->|_].
    { apply (number_c (pos b) k); auto; try lia. destruct Hcase as [H|H]; [left; auto|right; auto]. }
    assert (Hword : forall k2, k2 <= k1 + 3 -> runs k2 (template_word_t multi_t b1 r1 c u kw nu) E Q).
    { intros k2 Hk2. apply (word_c (pos b) k); auto; lia. }
    rr. destruct (negb (c_disable_infinity c)).
    + apply (next_is_c s); [apply Hb1|]. change (length (%"inf")) with 3. intros [] Hyes.
      * specialize (Hyes eq_refl). pose proof (advance_by_moves _ _ _ (proj1 Hb1) Hyes) as Hm3.
        cbn [multi_t tt_parse_infinity_remainder]. apply (infinity_c (pos b) k); auto; cbn [advance_by pos]; try lia.
        eapply Inv_moves; eauto.
      * apply Hword. lia.
    + rr. apply Hword. lia.
Qed.

(** ** The loop *)
Notation K := (A + 1).
Definition K' : nat := B + 1.
Definition big (p : nat) : nat := K * (2 * (n - p) + (n - e p)) + K' * (n - p + 1).
Definition small (p : nat) : nat := K * ((n - p) + 2 * (n - e p)) + K' * (n - p + 1).
Lemma K'_step p p' : p < p' -> p' <= n -> K' * (n - p' + 1) + K' <= K' * (n - p + 1).
Proof.
  intros H1 H2. rewrite <- Nat.mul_succ_r. apply Nat.mul_le_mono_l. lia.
Qed.
Lemma K'_one p : p <= n -> K' <= K' * (n - p + 1).
Proof. intros H. rewrite <- (Nat.mul_1_r K') at 1. apply Nat.mul_le_mono_l. lia. Qed.
(** what is left before a duration which starts at b *)
Definition left_ok (k : nat) (b : scanner) (E : nat) : Prop :=
  k + big (pos b) <= E \/ inn (pos b) /\ k + small (pos b) <= E.
Lemma left_template k b E : Inv b -> left_ok k b E -> k + 1 + A * (n - pos b) + B <= E.
Proof.
  intros Hb HE. assert (Hn : pos b <= n) by apply Hb.
  pose proof (e_le _ Hn) as Hen. pose proof (e_ge (pos b)) as Heg. pose proof (K'_one _ Hn) as HK1.
  assert (HK : K' = B + 1) by reflexivity. unfold left_ok, big, small in *. lia.
Qed.
Lemma left_repr k b E r mb k1 : Inv b -> left_ok k b E -> Out (pos b) (k + 1) (r, mb) k1 -> k1 + rlen r <= E.
Proof.
  intros Hb HE Hout. assert (Hn : pos b <= n) by apply Hb.
  pose proof (e_le _ Hn) as Hen. pose proof (e_ge (pos b)) as Heg. pose proof (K'_one _ Hn) as HK1.
  assert (HK : K' = B + 1) by reflexivity.
  assert (Hfuel : k + K * (n - pos b) + K' <= E) by (unfold left_ok, big, small in *; lia).
  unfold Out in Hout. cbn [fst snd] in Hout.
  destruct mb as [b'|]; [|lia]. destruct Hout as (Hb' & Hlt & _ & Hk1 & Hr). assert (Hn' : pos b' <= n) by apply Hb'.
  pose proof (e_le _ Hn'). lia.
Qed.
Lemma left_next k b E r b' k1 k2 : Inv b -> left_ok k b E -> Out (pos b) (k + 1) (r, Some b') k1 -> k2 <= k1 + rlen r ->
  Inv b' /\ left_ok k2 b' E.
Proof.
  intros Hb HE Hout Hk2. assert (Hn : pos b <= n) by apply Hb.
  pose proof (e_le _ Hn) as Hen. pose proof (e_ge (pos b)) as Heg. pose proof (K'_one _ Hn) as HK1.
  assert (HK : K' = B + 1) by reflexivity.
  unfold Out in Hout. cbn [fst snd] in Hout. destruct Hout as (Hb' & Hlt & Hf & Hk1 & Hrl).
  assert (Hn' : pos b' <= n) by apply Hb'. pose proof (e_le _ Hn') as Hen'. pose proof (e_ge (pos b')) as Heg'.
  pose proof (K'_step _ _ Hlt Hn') as HK2. split; [auto|]. unfold fin in Hf. unfold left_ok in *.
  destruct HE as [HE|[Hinn HE]].
  - destruct Hf as [Hf|[Hf _]].
    + left. unfold big in *. lia.
    + destruct (Nat.le_gt_cases (e (pos b)) (pos b')) as [Hle|Hgt].
      * left. unfold big in *. lia.
      * right. split; [auto|]. unfold big, small in *.
        assert (Hee : e (pos b') = e (pos b)).
        { pose proof (e_mono (pos b) (pos b')). assert (e (pos b') <= e (pos b)); [|lia].
          destruct (e_end _ Hn) as [->|(x & Hx & Hsx)]; [auto|]. eapply e_stop; eauto. lia. }
        lia.
  - left. destruct Hf as [Hf|[_ Hf]]; [|contradiction]. unfold big, small in *. lia.
Qed.
Lemma left_init E : (124 + 4 * kap) * (n + 1) <= E -> Inv (bytes_new s) /\ left_ok 0 (bytes_new s) E.
Proof.
  intros HE. split; [split; [repeat split; cbn; lia|discriminate]|].
  left. unfold big, K', B. cbn [bytes_new pos]. replace (n - 0) with n by lia.
  replace ((124 + 4 * kap) * (n + 1)) with (124 * (n + 1) + 4 * kap * (n + 1)) in HE by lia.
  replace ((60 + 4 * kap + 1) * (n + 1)) with (61 * (n + 1) + 4 * kap * (n + 1)) by lia. lia.
Qed.
Lemma left_le k b E : left_ok k b E -> k <= E.
Proof. intros [H|[_ H]]; lia. Qed.
Lemma loop_c u kw nu fuel : forall d b k E, Inv b -> left_ok k b E ->
  runs k (multiple_loop_t fuel c u kw nu d b) E (fun _ k' => k' <= E).
Proof.
  induction fuel as [|f IH]; intros d b k E Hb HE; pose proof (left_le _ _ _ HE) as Hle.
  { cbn [multiple_loop_t]. rr. lia. }
  cbn [multiple_loop_t]. rr. rr. apply template_c; [auto|apply left_template; auto|].
  intros [r mb] k1 Hout. pose proof (left_repr _ _ _ _ _ _ Hb HE Hout) as Hr.
  rr. apply repr_parse_c; [lia|]. intros parsed k2 Hk2.
  assert (Hrest : forall d', runs k2 match mb with
      | Some b0 => multiple_loop_t f c u kw nu d' b0
      | None => now (Ok d')
      end E (fun _ k' => k' <= E)).
  { intros d'. destruct mb as [b'|]; [|rr; lia]. destruct (left_next _ _ _ _ _ _ _ Hb HE Hout Hk2). apply IH; auto. }
  rr. destruct (_ && _); [rr; lia|]. destruct (is_zero parsed); [rr; apply Hrest|].
  destruct (is_zero d); [rr; apply Hrest|]. apply runs_now; [lia|]. intros d' _. apply Hrest.
Qed.
Theorem parse_multiple_c u kw nu : fst (parse_multiple_t c s u kw nu) <= (124 + 4 * kap) * (n + 1).
Proof.
  assert (H : runs 0 (parse_multiple_t c s u kw nu) ((124 + 4 * kap) * (n + 1)) (fun _ k => k <= (124 + 4 * kap) * (n + 1))).
  { unfold parse_multiple_t. destruct (left_init _ (le_n _)). apply loop_c; auto. }
  unfold runs in H. destruct (snd (parse_multiple_t c s u kw nu)); lia.
Qed.
End Multi.
