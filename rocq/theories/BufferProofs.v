(** * The look-ahead buffer is unobservable (C29) *)
From Verif Require Import Prelude Util Time Config Bytes Repr Parse BytesProofs SpecGrammar SpecSpelling Unbuffered.

Definition sim {A A'} (R : A -> A' -> Prop) (m : res A) (m' : res A') : Prop :=
  match m, m' with
  | Ok a, Ok a' => R a a'
  | Err e, Err e' => e = e'
  | Crash x, Crash x' => x = x'
  | _, _ => False
  end.
Lemma sim_bind {A A' B B'} (R : A -> A' -> Prop) (Q : B -> B' -> Prop) m m' f f' :
  sim R m m' -> (forall a a', R a a' -> sim Q (f a) (f' a')) -> sim Q (bind m f) (bind m' f').
Proof. destruct m, m'; cbn; try contradiction; auto; intros ->; auto. Qed.
Lemma sim_eq {A} (m m' : res A) : sim eq m m' -> m = m'.
Proof. destruct m, m'; cbn; try contradiction; congruence. Qed.
Lemma sim_refl {A} (m : res A) : sim eq m m.
Proof. destruct m; cbn; auto. Qed.

Definition clear (b : scanner) : scanner := Scan (pos b) (cur b) None (input b).

Section S.
Variable s : str.
Variable kend : byte -> bool.

(** the buffer holds the word at its position *)
Definition good (p : nat) (w : str) (nx : option byte) : Prop :=
  w = take_while (fun x => negb (kend x)) (skipn p s) /\ nx = nth_error s (p + length w).

(** invariant of the scanner; [n] is a bound below which the buffer is irrelevant *)
Definition I (n : nat) (b : scanner) : Prop :=
  input b = s /\ cur b = nth_error s (pos b) /\ (n <= pos b <= length s)%nat /\
  match buffer b with None => True | Some (p, w, nx) => (p < n)%nat \/ good p w nx end.
Definition R (n : nat) (b b' : scanner) : Prop := b' = clear b /\ I n b.
Definition R2 {A} (n : nat) (x x' : scanner * A) : Prop := R n (fst x) (fst x') /\ snd x = snd x'.

Lemma I_le n b : I n b -> (n <= pos b)%nat.
Proof. intros (_ & _ & H & _). lia. Qed.
Lemma I_raise n m b : I n b -> (n <= m <= pos b)%nat -> I m b.
Proof. intros (H1 & H2 & H3 & H4) L. repeat split; auto; try lia. destruct (buffer b) as [[[p w] nx]|]; [|exact H4]. destruct H4; [left; lia|auto]. Qed.
Lemma I_step n b b' : I n b -> input b' = input b -> buffer b' = buffer b -> cur b' = nth_error s (pos b') ->
  (n <= pos b' <= length s)%nat -> I n b'.
Proof. intros (H1 & H2 & H3 & H4) E1 E2 E3 L. unfold I. rewrite E1, E2. auto. Qed.
Lemma I_cur n b x : I n b -> cur b = Some x -> (pos b < length s)%nat.
Proof. intros (H1 & H2 & H3 & H4) E. apply nth_error_Some. congruence. Qed.

Lemma I_advance n b x : I n b -> cur b = Some x -> I n (advance b).
Proof.
  intros H E. pose proof (I_cur _ _ _ H E) as L. pose proof (I_le _ _ H). apply (I_step n b); auto; cbn; [|lia].
  destruct H as (-> & _). reflexivity.
Qed.
Lemma I_advance_by n b k : I n b -> (pos b + k <= length s)%nat -> I n (advance_by b k).
Proof.
  intros H E. pose proof (I_le _ _ H). apply (I_step n b); auto; cbn; [|lia]. destruct H as (-> & _). reflexivity.
Qed.
Lemma I_reset n b k : I n b -> (n <= k <= length s)%nat -> I n (reset b k).
Proof. intros H E. apply (I_step n b); auto; cbn. destruct H as (-> & _). reflexivity. Qed.
Lemma I_finish n b : I n b -> I n (finish b).
Proof.
  intros H. pose proof H as (H1 & _ & H3 & _). apply (I_step n b); auto; cbn; rewrite H1; [|lia].
  symmetry. now apply nth_error_None.
Qed.
Lemma I_next n b w : I n b -> next_is_ignore_ascii_case b w = true -> (pos b + length w <= length s)%nat.
Proof.
  intros (H1 & _) E. unfold next_is_ignore_ascii_case, peek, slice_get in E. rewrite H1 in E.
  destruct (_ && _) eqn:X; [lia|discriminate].
Qed.

Lemma skip_until_sim n stop fuel : forall b, I n b ->
  sim (fun b' c' => R n b' c' /\ (pos b <= pos b')%nat /\ buffer b' = buffer b) (skip_until fuel stop b) (skip_until fuel stop (clear b)).
Proof.
  induction fuel as [|f IH]; intros b H; cbn [skip_until]; [reflexivity|].
  cbn [cur clear]. destruct (cur b) as [x|] eqn:E; [|cbn; split; [split; auto|split; auto]].
  destruct (stop x); [cbn; split; [split; auto|split; auto]|].
  specialize (IH (advance b) (I_advance _ _ _ H E)). change (advance (clear b)) with (clear (advance b)).
  destruct (skip_until f stop (advance b)), (skip_until f stop (clear (advance b))); cbn in *; auto.
  destruct IH as (? & ? & ?). split; [auto|]. split; [lia|auto].
Qed.

Lemma try_consume_sim n d b : I n b -> sim (fun b' c' => R n b' c' /\ (pos b < pos b')%nat)
  (try_consume_delimiter d b) (try_consume_delimiter d (clear b)).
Proof.
  intros H. unfold try_consume_delimiter. cbn [cur clear]. destruct (cur b) as [x|] eqn:E; cbn [unwrap bind]; [|reflexivity].
  destruct (d x); cbn [debug_assert bind]; [|reflexivity]. cbn [pos clear]. destruct (_ =? 0)%nat; [reflexivity|].
  change (loop_fuel (clear b)) with (loop_fuel b). change (advance (clear b)) with (clear (advance b)).
  eapply sim_bind; [apply skip_until_sim, (I_advance _ _ _ H E)|]. intros b1 b1' ((-> & H1) & L & _). cbn [cur clear pos].
  destruct (cur b1); cbn; [|reflexivity]. split; [split; auto|]. cbn in L. lia.
Qed.

Lemma R_keep n b : I n b -> R n b (clear b).
Proof. split; auto. Qed.

(** one word with the buffer, and without *)
Lemma skip_until_word d n b : I n b -> exists b1,
  skip_until (loop_fuel b) d b = Ok b1 /\ buffer b1 = buffer b /\ I n b1 /\
  pos b1 = (pos b + length (take_while (fun x => negb (d x)) (skipn (pos b) s)))%nat /\
  slice (input b1) (pos b) (pos b1) = Ok (take_while (fun x => negb (d x)) (skipn (pos b) s)).
Proof.
  intros H. pose proof H as (H1 & H2 & H3 & H4).
  set (pre := firstn (pos b) s). set (post := skipn (pos b) s).
  assert (Es : s = pre ++ post) by (symmetry; apply firstn_skipn).
  assert (Lp : length pre = pos b) by (apply firstn_length_le; lia).
  assert (Eb : b = at_ pre post (buffer b)).
  { unfold at_. rewrite Lp, <- Es, <- H1. destruct b as [p cu bu i]; cbn [pos cur buffer input] in *. f_equal.
    rewrite H2, <- (nth_error_app_hd pre post), <- Es, Lp. reflexivity. }
  set (w := take_while (fun x => negb (d x)) post). set (r := drop_while (fun x => negb (d x)) post).
  assert (Ew : post = w ++ r) by (symmetry; apply take_drop_while).
  exists (at_ (pre ++ w) r (buffer b)).
  assert (E1 : skip_until (loop_fuel b) d b = Ok (at_ (pre ++ w) r (buffer b))).
  { rewrite Eb at 2. unfold loop_fuel. apply skip_until_at. rewrite H1, Es, app_length. lia. }
  split; [exact E1|]. split; [reflexivity|]. cbn [pos at_ input]. rewrite app_length, Lp.
  assert (Ei : (pre ++ w) ++ r = s) by (rewrite <- app_assoc, <- Ew; auto).
  split; [|split; [reflexivity|]].
  - apply (I_step n b); auto; cbn [pos at_ input cur]; rewrite ?Ei; auto.
    + rewrite <- Ei at 1. symmetry. apply nth_error_app_hd.
    + rewrite <- Ei, !app_length. lia.
  - rewrite <- app_assoc, <- Lp. replace (length pre + length w)%nat with (length (pre ++ w)) by apply app_length. apply slice_at.
Qed.

Lemma take_while_nth p l : match nth_error l (length (take_while p l)) with Some x => p x = false | None => True end.
Proof. induction l as [|x l IH]; cbn; [exact Logic.I|]. destruct (p x) eqn:E; cbn; [exact IH|exact E]. Qed.


Lemma fresh_word d n b : I n b ->
  exists b1 w, (let start := pos b in
    let* b' := skip_until (loop_fuel b) d b in
    let* s := slice (input b') start (pos b') in
    Ok (Scan (pos b') (cur b') (Some (start, s, cur b')) (input b'), s)) = Ok (b1, w) /\
    advance_to d (clear b) = Ok (clear b1, w) /\
    w = take_while (fun x => negb (d x)) (skipn (pos b) s) /\
    buffer b1 = Some (pos b, w, nth_error s (pos b + length w)) /\
    input b1 = s /\ cur b1 = nth_error s (pos b1) /\ pos b1 = (pos b + length w)%nat /\ (pos b1 <= length s)%nat.
Proof.
  intros H. destruct (skip_until_word d n b H) as (b1 & E1 & E2 & E3 & E4 & E5). cbn zeta. rewrite E1. cbn [bind]. rewrite E5. cbn [bind].
  destruct E3 as (F1 & F2 & F3 & F4).
  eexists _, _. split; [reflexivity|]. split; [|split; [reflexivity|]].
  - pose proof H as H'. unfold advance_to. cbn [pos clear].
    pose proof (skip_until_sim n d (loop_fuel b) b H) as S1. rewrite E1 in S1.
    change (loop_fuel (clear b)) with (loop_fuel b).
    destruct (skip_until (loop_fuel b) d (clear b)) as [c1| |]; cbn in S1; try contradiction.
    destruct S1 as ((-> & _) & _). cbn [bind input clear pos]. rewrite E5. cbn [bind]. reflexivity.
  - cbn [buffer input cur pos]. rewrite <- E4, <- F2. repeat split; auto. lia.
Qed.

Lemma cached_word d n b w nx : I n b -> good (pos b) w nx -> (forall x, d x = true -> kend x = true) ->
  match nx with Some x => d x = true | None => True end ->
  w = take_while (fun x => negb (d x)) (skipn (pos b) s) /\ (pos b + length w <= length s)%nat.
Proof.
  intros H (G1 & G2) Hd Hn.
  assert (E : w ++ drop_while (fun x => negb (kend x)) (skipn (pos b) s) = skipn (pos b) s) by (rewrite G1; apply take_drop_while).
  split.
  - rewrite <- E. symmetry. apply take_while_app_stop.
    + intros x Hx. rewrite G1 in Hx. apply take_while_all in Hx. destruct (d x) eqn:X; [|reflexivity]. apply Hd in X. rewrite X in Hx. discriminate.
    + destruct (drop_while _ _) as [|y r] eqn:Y; [exact Logic.I|].
      assert (nx = Some y).
      { rewrite G2. rewrite <- (firstn_skipn (pos b) s). assert (L : length (firstn (pos b) s) = pos b).
        { destruct H as (_ & _ & H & _). apply firstn_length_le. lia. }
        rewrite nth_error_app2 by lia. rewrite L. replace (pos b + length w - pos b)%nat with (length w) by lia.
        rewrite <- E. rewrite nth_error_app2, Nat.sub_diag by lia. reflexivity. }
      subst nx. rewrite H0 in Hn. now rewrite Hn.
  - assert (L := f_equal (@List.length Z) E). rewrite app_length, skipn_length in L. destruct H as (_ & _ & H & _). lia.
Qed.

(** words which end at [kend] leave the scanner in a good state *)
Lemma buffered_kend d n b : (forall x, d x = kend x) -> I n b ->
  exists b1 w, buffered_advance_to d b = Ok (b1, w) /\ advance_to d (clear b) = Ok (clear b1, w) /\
    I n b1 /\ pos b1 = (pos b + length w)%nat.
Proof.
  intros Hd H.
  assert (Ext : forall l, take_while (fun x => negb (d x)) l = take_while (fun x => negb (kend x)) l).
  { intros l. apply take_while_ext. intros x _. now rewrite Hd. }
  assert (Fresh : exists b1 w, (let start := pos b in
    let* b' := skip_until (loop_fuel b) d b in
    let* s := slice (input b') start (pos b') in
    Ok (Scan (pos b') (cur b') (Some (start, s, cur b')) (input b'), s)) = Ok (b1, w) /\ advance_to d (clear b) = Ok (clear b1, w) /\
    I n b1 /\ pos b1 = (pos b + length w)%nat).
  { destruct (fresh_word d n b H) as (b1 & w & E1 & E2 & E3 & E4 & E5 & E6 & E7 & E8). exists b1, w.
    split; [exact E1|]. split; [exact E2|]. split; [|exact E7]. unfold I. rewrite E4, E5. pose proof (I_le _ _ H).
    split; [reflexivity|]. split; [exact E6|]. split; [lia|]. right. split; [|reflexivity]. rewrite E3. apply Ext. }
  assert (Cached : forall w nx, buffer b = Some (pos b, w, nx) -> match nx with Some x => d x = true | None => True end ->
    exists b1 w', Ok (advance_by b (length w), w) = Ok (b1, w') /\ advance_to d (clear b) = Ok (clear b1, w') /\
    I n b1 /\ pos b1 = (pos b + length w')%nat).
  { intros w nx Eb Hn. pose proof H as (_ & _ & L & G). rewrite Eb in G. destruct G as [G|G]; [lia|].
    destruct (cached_word d n b w nx H G) as [W L']; [intros x; now rewrite Hd|exact Hn|].
    exists (advance_by b (length w)), w. split; [reflexivity|]. split; [|split; [now apply I_advance_by|reflexivity]].
    destruct (fresh_word d n b H) as (b1 & w1 & E1 & E2 & E3 & E4 & E5 & E6 & E7 & E8). rewrite E2, E3, <- W.
    f_equal. f_equal. unfold clear, advance_by. cbn [pos cur input]. rewrite <- W in E3. subst w1. rewrite E5, E6, E7.
    destruct H as (-> & _). reflexivity. }
  unfold buffered_advance_to. destruct (buffer b) as [[[p w] [nx|]]|] eqn:Eb; [| |exact Fresh].
  - destruct ((p =? pos b)%nat && d nx) eqn:E; [|exact Fresh]. apply andb_true_iff in E. destruct E as [E1 E2].
    apply Nat.eqb_eq in E1. subst p. now apply (Cached w (Some nx)).
  - destruct (p =? pos b)%nat eqn:E; [|exact Fresh]. apply Nat.eqb_eq in E. subst p. now apply (Cached w None).
Qed.

(** words which end at a subset of [kend]: the state is good after a non-empty word *)
Lemma buffered_sub d n b : (forall x, d x = true -> kend x = true) -> I n b ->
  exists b1 w, buffered_advance_to d b = Ok (b1, w) /\ advance_to d (clear b) = Ok (clear b1, w) /\
    (w <> [] -> I (S (pos b)) b1).
Proof.
  intros Hd H.
  assert (Fresh : exists b1 w, (let start := pos b in
    let* b' := skip_until (loop_fuel b) d b in
    let* s := slice (input b') start (pos b') in
    Ok (Scan (pos b') (cur b') (Some (start, s, cur b')) (input b'), s)) = Ok (b1, w) /\ advance_to d (clear b) = Ok (clear b1, w) /\
    (w <> [] -> I (S (pos b)) b1)).
  { destruct (fresh_word d n b H) as (b1 & w & E1 & E2 & E3 & E4 & E5 & E6 & E7 & E8). exists b1, w.
    split; [exact E1|]. split; [exact E2|]. intros N. unfold I. rewrite E4, E5. 
    split; [reflexivity|]. split; [exact E6|]. split; [destruct w; [contradiction|cbn in *; lia]|]. left. lia. }
  assert (Cached : forall w nx, buffer b = Some (pos b, w, nx) -> match nx with Some x => d x = true | None => True end ->
    exists b1 w', Ok (advance_by b (length w), w) = Ok (b1, w') /\ advance_to d (clear b) = Ok (clear b1, w') /\
    (w' <> [] -> I (S (pos b)) b1)).
  { intros w nx Eb Hn. pose proof H as (_ & _ & L & G). rewrite Eb in G. destruct G as [G|G]; [lia|].
    destruct (cached_word d n b w nx H G Hd Hn) as [W L'].
    exists (advance_by b (length w)), w. split; [reflexivity|]. split.
    - destruct (fresh_word d n b H) as (b1 & w1 & E1 & E2 & E3 & E4 & E5 & E6 & E7 & E8). rewrite E2, E3, <- W.
      f_equal. f_equal. unfold clear, advance_by. cbn [pos cur input]. rewrite <- W in E3. subst w1. rewrite E5, E6, E7.
      destruct H as (-> & _). reflexivity.
    - intros N. apply (I_raise n); [now apply I_advance_by|]. cbn. destruct w; [contradiction|cbn; lia]. }
  unfold buffered_advance_to. destruct (buffer b) as [[[p w] [nx|]]|] eqn:Eb; [| |exact Fresh].
  - destruct ((p =? pos b)%nat && d nx) eqn:E; [|exact Fresh]. apply andb_true_iff in E. destruct E as [E1 E2].
    apply Nat.eqb_eq in E1. subst p. now apply (Cached w (Some nx)).
  - destruct (p =? pos b)%nat eqn:E; [|exact Fresh]. apply Nat.eqb_eq in E. subst p. now apply (Cached w None).
Qed.

(** ** the functions which do not use the buffer *)
Ltac inv_sim := first [reflexivity | split; [split; [reflexivity|]|]; auto].

Lemma parse_8_sim n b : I n b ->
  match parse_8_digits b with
  | Some (e, b') => parse_8_digits (clear b) = Some (e, clear b') /\ I n b'
  | None => parse_8_digits (clear b) = None
  end.
Proof.
  intros H. unfold parse_8_digits. cbn [input pos clear]. destruct (slice_get _ _ _) eqn:E; [|reflexivity].
  destruct (eight_digits_test _); [|reflexivity]. split; [reflexivity|]. apply I_advance_by; [exact H|].
  unfold slice_get in E. destruct H as (H & _). rewrite H in E. destruct (_ && _) eqn:X; [lia|discriminate].
Qed.
Lemma strip8_sim n fuel : forall start strip b, I n b ->
  sim (fun x x' => fst x = fst x' /\ R n (snd x) (snd x')) (strip_loop8 fuel start strip b) (strip_loop8 fuel start strip (clear b)).
Proof.
  induction fuel as [|f IH]; intros start strip b H; cbn [strip_loop8]; [reflexivity|].
  pose proof (parse_8_sim n b H) as P. destruct (parse_8_digits b) as [[e b']|].
  - destruct P as [-> P]. destruct strip; [|auto]. destruct (_ =? _); [auto|].
    destruct (arith _ _); cbn; auto.
  - rewrite P. cbn. split; [reflexivity|now apply R_keep].
Qed.
Lemma strip1_sim n fuel : forall start strip b, I n b ->
  sim (fun x x' => fst x = fst x' /\ R n (snd x) (snd x')) (strip_loop1 fuel start strip b) (strip_loop1 fuel start strip (clear b)).
Proof.
  induction fuel as [|f IH]; intros start strip b H; cbn [strip_loop1]; [reflexivity|].
  cbn [cur clear]. destruct (cur b) as [x|] eqn:E; [|cbn; split; [reflexivity|now apply R_keep]].
  pose proof (I_advance _ _ _ H E) as H'. change (advance (clear b)) with (clear (advance b)).
  destruct (_ <? 10); [|cbn; split; [reflexivity|now apply R_keep]]. destruct strip; auto. destruct (_ =? 0); auto.
Qed.
Lemma whole_sim n b : I n b -> sim (R2 n) (parse_whole b) (parse_whole (clear b)).
Proof.
  intros H. unfold parse_whole, parse_digits_strip_zeros. cbn [cur clear pos]. change (loop_fuel (clear b)) with (loop_fuel b).
  apply (sim_bind eq); [apply sim_refl|]. intros _ _ _.
  eapply sim_bind; [now apply (strip8_sim n)|]. intros [[st sp] b1] [[st' sp'] b1'] [E (E' & H1)]. cbn [fst snd] in *. injection E as <- <-. subst b1'.
  eapply sim_bind; [now apply (strip1_sim n)|]. intros [st2 b2] [st2' b2'] [E (E' & H2)]. cbn [fst snd] in *. subst. cbn.
  split; [now apply R_keep|reflexivity].
Qed.
Lemma loop8_sim n fuel : forall b, I n b -> sim (R n) (digits_loop8 fuel b) (digits_loop8 fuel (clear b)).
Proof.
  induction fuel as [|f IH]; intros b H; cbn [digits_loop8]; [reflexivity|].
  pose proof (parse_8_sim n b H) as P. destruct (parse_8_digits b) as [[e b']|].
  - destruct P as [-> P]. auto.
  - rewrite P. cbn. now apply R_keep.
Qed.
Lemma loop1_sim n fuel : forall b, I n b -> sim (R n) (digits_loop1 fuel b) (digits_loop1 fuel (clear b)).
Proof.
  induction fuel as [|f IH]; intros b H; cbn [digits_loop1]; [reflexivity|].
  unfold parse_digit. cbn [cur clear]. destruct (cur b) as [x|] eqn:E; [|cbn; now apply R_keep].
  destruct (is_digit_wrapping x); [|cbn; now apply R_keep]. change (advance (clear b)) with (clear (advance b)). apply IH. now apply (I_advance n b x).
Qed.
Lemma fract_sim n b : I n b -> sim (R2 n) (parse_fract b) (parse_fract (clear b)).
Proof.
  intros H. unfold parse_fract, parse_digits. cbn [cur clear pos]. change (loop_fuel (clear b)) with (loop_fuel b).
  apply (sim_bind eq); [apply sim_refl|]. intros _ _ _.
  eapply sim_bind; [now apply (loop8_sim n)|]. intros b1 b1' (-> & H1).
  eapply sim_bind; [now apply (loop1_sim n)|]. intros b2 b2' (-> & H2). cbn. split; [now apply R_keep|reflexivity].
Qed.

Lemma sign_sim n b : I n b -> sim (R2 n) (parse_sign_is_negative b) (parse_sign_is_negative (clear b)).
Proof.
  intros H. unfold parse_sign_is_negative. cbn [cur clear pos]. destruct (cur b) as [x|] eqn:E; [|reflexivity].
  pose proof (I_advance _ _ _ H E) as H'.
  destruct (_ =? 43); [cbn; split; [now apply (R_keep n (advance b))|reflexivity]|].
  destruct (_ =? 45); [cbn; split; [now apply (R_keep n (advance b))|reflexivity]|]. cbn. split; [now apply R_keep|reflexivity].
Qed.
Lemma number_sign_sim n b r c : I n b -> sim (R2 n) (parse_number_sign b r c) (parse_number_sign (clear b) r c).
Proof.
  intros H. unfold parse_number_sign. eapply sim_bind; [now apply (sign_sim n)|]. intros [b1 o] [b1' o'] [(E & H1) E']. cbn [fst snd] in *. subst.
  destruct o' as [ng|]; [|cbn; split; [now apply R_keep|reflexivity]]. cbn [cur clear pos]. destruct (cur b1) as [x|]; [|reflexivity].
  destruct (_ && _); [|cbn; split; [now apply R_keep|reflexivity]].
  eapply sim_bind; [now apply (try_consume_sim n)|]. intros b2 b2' ((-> & H2) & _). cbn. split; [now apply R_keep|reflexivity].
Qed.
Definition R3 {A B} (n : nat) (x x' : scanner * A * B) : Prop :=
  R n (fst (fst x)) (fst (fst x')) /\ snd (fst x) = snd (fst x') /\ snd x = snd x'.
Lemma R3_ok {A B} n b (r : A) (g : B) : I n b -> R3 n (b, r, g) (clear b, r, g).
Proof. intros H. split; [now apply R_keep|auto]. Qed.
Lemma R2_ok {A} n b (r : A) : I n b -> R2 n (b, r) (clear b, r).
Proof. intros H. split; [now apply R_keep|auto]. Qed.

Lemma fraction_sim n b r ds : I n b -> sim (R3 n) (parse_number_fraction b r ds) (parse_number_fraction (clear b) r ds).
Proof.
  intros H. unfold parse_number_fraction. cbn [cur clear pos]. destruct (cur b) as [x|] eqn:E; [|now apply R3_ok].
  destruct (_ && _) eqn:X.
  - pose proof (I_advance _ _ _ H E) as H1. change (advance (clear b)) with (clear (advance b)). cbn [cur clear pos].
    change (nth_error (input b) (pos b + 1)) with (cur (advance b)).
    destruct (cur (advance b)) as [y|] eqn:E1.
    + destruct (is_digit y); [|destruct (r_whole r); [now apply (R3_ok n (advance b))|]].
      * eapply sim_bind; [now apply (fract_sim n)|]. intros [b2 f] [b2' f'] [(E2 & H2) E3]. cbn [fst snd] in *. subst. now apply R3_ok.
      * destruct (sub_usize _ _); cbn; auto.
    + destruct (r_whole r); [now apply (R3_ok n (advance b))|]. destruct (sub_usize _ _); cbn; auto.
  - destruct (x =? 46); [reflexivity|now apply R3_ok].
Qed.
Lemma exponent_loop_sim n ng fuel : forall e b, I n b -> sim (R2 n) (exponent_loop fuel ng e b) (exponent_loop fuel ng e (clear b)).
Proof.
  induction fuel as [|f IH]; intros e b H; cbn [exponent_loop]; [reflexivity|].
  cbn [cur clear]. destruct (cur b) as [x|] eqn:E; [|now apply R2_ok].
  pose proof (I_advance _ _ _ H E) as H'. change (advance (clear b)) with (clear (advance b)).
  destruct (_ <? 10); [|now apply R2_ok]. destruct ng; destruct (obind _ _); cbn; auto.
Qed.
Lemma parse_exponent_sim n b : I n b -> sim (R2 n) (parse_exponent b) (parse_exponent (clear b)).
Proof.
  intros H. unfold parse_exponent. eapply sim_bind; [now apply (sign_sim n)|].
  intros [b1 o] [b1' o'] [(E & H1) E']. cbn [fst snd] in *. subst. change (loop_fuel (clear b1)) with (loop_fuel b1).
  eapply sim_bind; [now apply (exponent_loop_sim n)|]. intros [b2 e] [b2' e'] [(E2 & H2) E3]. cbn [fst snd] in *. subst.
  cbn [pos clear]. apply (sim_bind eq); [apply sim_refl|]. intros k k' <-. destruct (0 <? k)%nat; [now apply R2_ok|].
  change (is_end_of_input (clear b2)) with (is_end_of_input b2). destruct (is_end_of_input b2); reflexivity.
Qed.
Lemma exponent_sim n b r ds : I n b -> sim (R3 n) (parse_number_exponent b r ds) (parse_number_exponent (clear b) r ds).
Proof.
  intros H. unfold parse_number_exponent. cbn [cur clear pos]. destruct (cur b) as [x|] eqn:E; [|now apply R3_ok].
  destruct (_ && _).
  - change (advance (clear b)) with (clear (advance b)). eapply sim_bind; [apply (parse_exponent_sim n); now apply (I_advance n b x)|].
    intros [b2 e] [b2' e'] [(E2 & H2) E3]. cbn [fst snd] in *. subst. now apply R3_ok.
  - destruct (eq_nocase _ _); [reflexivity|now apply R3_ok].
Qed.
Lemma number_delimiter_sim n b d : I n b -> sim (R2 n) (parse_number_delimiter b d) (parse_number_delimiter (clear b) d).
Proof.
  intros H. unfold parse_number_delimiter. cbn [cur clear]. destruct (cur b) as [x|]; [|now apply R2_ok].
  destruct d as [d|]; [|now apply R2_ok]. destruct (d x); [|now apply R2_ok].
  eapply sim_bind; [now apply (try_consume_sim n)|]. intros b2 b2' ((-> & H2) & _). now apply R2_ok.
Qed.
Lemma conjunction_sim n d st ws : forall b, I n b -> sim (R n) (conjunction_loop d st ws b) (conjunction_loop d st ws (clear b)).
Proof.
  induction ws as [|w ws IH]; intros b H; cbn [conjunction_loop]; [now apply R_keep|].
  change (next_is_ignore_ascii_case (clear b) w) with (next_is_ignore_ascii_case b w).
  destruct (next_is_ignore_ascii_case b w) eqn:E; [|auto].
  pose proof (I_advance_by n b _ H (I_next _ _ _ H E)) as H1. change (advance_by (clear b) (length w)) with (clear (advance_by b (length w))).
  change (cur (clear (advance_by b (length w)))) with (cur (advance_by b (length w))).
  change (pos (clear (advance_by b (length w)))) with (pos (advance_by b (length w))).
  destruct (cur (advance_by b (length w))) as [x|]; [|reflexivity]. destruct (d x).
  - pose proof (try_consume_sim n d _ H1) as T.
    destruct (try_consume_delimiter d (advance_by b (length w))), (try_consume_delimiter d (clear (advance_by b (length w)))); cbn in *; tauto.
  - destruct (is_next_duration x); [now apply R_keep|reflexivity].
Qed.
Lemma connect_sim n c b : I n b -> sim (R n) (connect c b) (connect c (clear b)).
Proof.
  intros H. unfold connect, try_consume_connection. cbn [cur clear]. apply (sim_bind eq); [apply sim_refl|]. intros x _ <-.
  apply (sim_bind eq); [apply sim_refl|]. intros _ _ _.
  eapply sim_bind; [now apply (try_consume_sim n)|]. intros b2 b2' ((-> & H2) & _). cbn [pos clear]. now apply conjunction_sim.
Qed.
Lemma maybe_connect_sim n c b : I n b ->
  sim (R n) (match cur b with Some x => if c_outer_delimiter c x then connect c b else Ok b | None => Ok b end)
            (match cur (clear b) with Some x => if c_outer_delimiter c x then connect c (clear b) else Ok (clear b) | None => Ok (clear b) end).
Proof.
  intros H. cbn [cur clear]. destruct (cur b) as [x|]; [|now apply R_keep]. destruct (c_outer_delimiter c x); [now apply connect_sim|now apply R_keep].
Qed.

(** ** templates *)
Section Template.
Context {O : Type} (T T' : template O) (RO : O -> O -> Prop) (c : config) (tu : units_like) (kw : option units_like) (nums : option numbers_like).
Hypothesis Hin : nums <> None -> forall x, c_inner_delimiter c x = true -> kend x = true.

Record tsim : Prop := TSim {
  ts_make : forall n b r, I n b -> RO (t_make_output T b r) (t_make_output T' (clear b) r);
  ts_inf : forall n b r, I n b -> sim RO (t_parse_infinity_remainder T b r c) (t_parse_infinity_remainder T' (clear b) r c);
  ts_kw : forall n b, I n b -> sim (R2 n) (t_parse_keyword T b kw c) (t_parse_keyword T' (clear b) kw c);
  ts_unit : forall n b, I n b -> sim (R2 n) (t_parse_time_unit T b c tu) (t_parse_time_unit T' (clear b) c tu);
  ts_nunit : forall n b r, I n b -> sim (R3 n) (t_parse_number_time_unit T b r c tu) (t_parse_number_time_unit T' (clear b) r c tu);
  ts_fin : forall n b r, I n b -> sim RO (t_finalize T b r c) (t_finalize T' (clear b) r c)
}.
Hypothesis TS : tsim.

Lemma template_number_sim n b r : I n b -> sim RO (template_number T b r c tu) (template_number T' (clear b) r c tu).
Proof.
  intros H. unfold template_number. eapply sim_bind; [now apply (fraction_sim n)|].
  intros [[b1 r1] g1] [[b1' r1'] g1'] ((E & H1) & E1 & E2). cbn [fst snd] in *. subst.
  destruct (negb g1'); [now apply (ts_make TS n)|].
  eapply sim_bind; [now apply (exponent_sim n)|].
  intros [[b2 r2] g2] [[b2' r2'] g2'] ((E & H2) & E1 & E2). cbn [fst snd] in *. subst.
  destruct (negb g2'); [now apply (ts_make TS n)|].
  eapply sim_bind; [now apply (number_delimiter_sim n)|].
  intros [b3 g3] [b3' g3'] ((E & H3) & E1). cbn [fst snd] in *. subst.
  destruct (negb g3'); [now apply (ts_make TS n)|].
  eapply sim_bind; [now apply (ts_nunit TS n)|].
  intros [[b4 r4] g4] [[b4' r4'] g4'] ((E & H4) & E1 & E2). cbn [fst snd] in *. subst.
  destruct (negb g4'); [now apply (ts_make TS n)|now apply (ts_fin TS n)].
Qed.

Lemma numeral_sim n b : I n b ->
  sim (fun x x' => fst x' = clear (fst x) /\ snd x = snd x' /\ (snd x <> None -> exists m, I m (fst x)))
    (parse_numeral b nums c) (nb_parse_numeral (clear b) nums c).
Proof.
  intros H. unfold parse_numeral, nb_parse_numeral. destruct nums as [f|]; [|cbn; split; [reflexivity|split; [reflexivity|now intros []]]].
  destruct (buffered_sub (c_inner_delimiter c) n b (Hin ltac:(discriminate)) H) as (b1 & w & E1 & E2 & E3). rewrite E1, E2. cbn [bind].
  destruct w as [|x w]; cbn [is_empty]; [cbn; split; [reflexivity|split; [reflexivity|now intros []]]|].
  specialize (E3 ltac:(discriminate)).
  apply (sim_bind eq); [apply sim_refl|]. intros st _ <-.
  destruct (f st) as [m|]; [|cbn; split; [reflexivity|split; [reflexivity|now intros []]]].
  cbn [cur clear pos]. destruct (cur b1) as [y|]; [|cbn; split; [reflexivity|split; [reflexivity|now intros []]]].
  destruct (c_inner_delimiter c y); [|cbn; split; [reflexivity|split; [reflexivity|now intros []]]].
  eapply sim_bind; [apply (try_consume_sim _ _ _ E3)|]. intros b2 b2' ((-> & H2) & _). cbn. split; [reflexivity|]. split; [reflexivity|]. eauto.
Qed.

Lemma template_numeral_sim n b r : I n b -> sim RO (template_numeral T b r c tu nums) (nb_template_numeral T' (clear b) r c tu nums).
Proof.
  intros H. unfold template_numeral, nb_template_numeral. eapply sim_bind; [now apply (numeral_sim n)|].
  intros [b1 o] [b1' o'] (E & E1 & E2). cbn [fst snd] in *. subst.
  destruct o' as [[id m]|].
  - destruct (E2 ltac:(discriminate)) as (k & H1). eapply sim_bind; [apply (ts_unit TS k _ H1)|].
    intros [b2 o2] [b2' o2'] ((E & H2) & E3). cbn [fst snd] in *. subst. destruct o2' as [um|]; [now apply (ts_fin TS k)|].
    destruct (u_is_empty tu); reflexivity.
  - change (get_remainder_str (clear b1)) with (get_remainder_str b1). apply (sim_bind eq); [apply sim_refl|]. intros ? ? ->. reflexivity.
Qed.

Lemma template_word_sim n b r : I n b -> sim RO (template_word T b r c tu kw nums) (nb_template_word T' (clear b) r c tu kw nums).
Proof.
  intros H. unfold template_word, nb_template_word. eapply sim_bind; [apply (ts_kw TS n _ H)|].
  intros [b1 o] [b1' o'] ((E & H1) & E1). cbn [fst snd] in *. subst.
  destruct o' as [um|]; [now apply (ts_fin TS n)|]. destruct (c_number_is_optional c); [|now apply (template_numeral_sim n)].
  pose proof (I_le _ _ H1) as L. pose proof H1 as (_ & _ & L2 & _).
  assert (H1' : I (pos b1) b1) by (apply (I_raise n); [exact H1|lia]).
  eapply sim_bind; [apply (ts_unit TS _ _ H1')|].
  intros [b2 o2] [b2' o2'] ((E & H2) & E3). cbn [fst snd] in *. subst. destruct o2' as [um|]; [now apply (ts_fin TS (pos b1))|].
  cbn [pos clear]. change (reset (clear b2) (pos b1)) with (clear (reset b2 (pos b1))). apply (template_numeral_sim (pos b1)). apply I_reset; [exact H2|lia].
Qed.

Lemma template_sim n b : I n b -> sim RO (template_parse T b c tu kw nums) (nb_template_parse T' (clear b) c tu kw nums).
Proof.
  intros H. unfold template_parse, nb_template_parse. cbn [cur clear]. destruct (cur b) as [x0|]; [|reflexivity].
  change (repr_init c (clear b)) with (repr_init c b).
  eapply sim_bind; [now apply (number_sign_sim n)|]. intros [b1 r1] [b1' r1'] ((E & H1) & E1). cbn [fst snd] in *. subst.
  cbn [cur clear pos]. destruct (cur b1) as [x|] eqn:Ex; [|reflexivity]. destruct (is_digit x).
  - eapply sim_bind; [now apply (whole_sim n)|]. intros [b2 w] [b2' w'] ((E & H2) & E2). cbn [fst snd] in *. subst. now apply (template_number_sim n).
  - destruct (x =? 46); [now apply (template_number_sim n)|].
    change (next_is_ignore_ascii_case (clear b1) (%"inf")) with (next_is_ignore_ascii_case b1 (%"inf")).
    destruct (_ && _) eqn:X; [|now apply (template_word_sim n)]. apply andb_true_iff in X. destruct X as [_ X].
    change (advance_by (clear b1) 3) with (clear (advance_by b1 3)). apply (ts_inf TS n). apply I_advance_by; [exact H1|].
    apply (I_next _ _ _ H1 X).
Qed.
End Template.

(** ** single *)
Lemma infinity_single_sim n w : forall b, I n b -> sim (R n) (infinity_loop_single w b) (infinity_loop_single w (clear b)).
Proof.
  induction w as [|e w IH]; intros b H; cbn [infinity_loop_single]; [now apply R_keep|]. cbn [cur clear pos].
  destruct (cur b) as [x|] eqn:E; [|reflexivity]. destruct (eq_nocase x e); [|reflexivity].
  change (advance (clear b)) with (clear (advance b)). apply IH. now apply (I_advance n b x).
Qed.
Lemma single_unit_sim n c tu b : I n b -> sim (R2 n) (single_time_unit b c tu) (single_time_unit (clear b) c tu).
Proof.
  intros H. unfold single_time_unit. change (is_end_of_input (clear b)) with (is_end_of_input b).
  apply (sim_bind eq); [apply sim_refl|]. intros _ _ _. destruct (c_allow_ago c).
  - unfold advance_to. cbn [pos clear]. change (loop_fuel (clear b)) with (loop_fuel b).
    destruct (skip_until_word (c_inner_delimiter c) n b H) as (b1 & E1 & E2 & E3 & E4 & E5).
    pose proof (skip_until_sim n (c_inner_delimiter c) (loop_fuel b) b H) as S1. rewrite E1 in *.
    destruct (skip_until (loop_fuel b) (c_inner_delimiter c) (clear b)) as [c1| |]; cbn in S1; try contradiction.
    destruct S1 as ((-> & _) & L & _). cbn [bind input clear pos]. rewrite E5. cbn [bind].
    apply (sim_bind eq); [apply sim_refl|]. intros st _ <-. destruct (is_empty st); [now apply R2_ok|].
    pose proof (I_le _ _ H) as L1. pose proof H as (_ & _ & L2 & _).
    destruct (u_get tu st) as [[u m]|]; [|apply (R2_ok n (reset b1 (pos b))); apply I_reset; [auto|lia]].
    cbn [cur clear]. destruct (cur b1) as [x|]; [|now apply R2_ok].
    eapply sim_bind; [apply (try_consume_sim n _ _ E3)|]. intros b2 b2' ((-> & H2) & _).
    change (next_is_ignore_ascii_case (clear b2) (%"ago")) with (next_is_ignore_ascii_case b2 (%"ago")).
    destruct (next_is_ignore_ascii_case b2 (%"ago")) eqn:X.
    + apply (R2_ok n (advance_by b2 3)). apply I_advance_by; [auto|]. apply (I_next _ _ _ H2 X).
    + apply (R2_ok n (reset b2 (pos b))). apply I_reset; [auto|lia].
  - change (get_remainder_str_unchecked (clear b)) with (get_remainder_str_unchecked b).
    apply (sim_bind eq); [apply sim_refl|]. intros st _ <-. destruct (u_get tu st); [|now apply R2_ok].
    apply (R2_ok n (finish b)). now apply I_finish.
Qed.
Lemma tsim_single c tu kw : tsim single single eq c tu kw.
Proof.
  constructor; cbn [single t_make_output t_parse_infinity_remainder t_parse_keyword t_parse_time_unit t_parse_number_time_unit t_finalize].
  - reflexivity.
  - intros n b r H. unfold single_infinity_remainder. change (is_end_of_input (clear b)) with (is_end_of_input b).
    destruct (is_end_of_input b); [reflexivity|]. eapply sim_bind; [now apply (infinity_single_sim n)|]. intros b1 b1' (-> & H1).
    change (check_end_of_input (clear b1)) with (check_end_of_input b1). apply (sim_bind eq); [apply sim_refl|]. reflexivity.
  - intros n b H. unfold single_keyword. destruct kw as [k|]; [|now apply R2_ok].
    change (get_remainder_str_unchecked (clear b)) with (get_remainder_str_unchecked b).
    apply (sim_bind eq); [apply sim_refl|]. intros st _ <-. destruct (u_get k st); [|now apply R2_ok].
    apply (R2_ok n (finish b)). now apply I_finish.
  - intros n b H. now apply single_unit_sim.
  - intros n b r H. unfold single_number_time_unit. cbn [cur clear]. destruct (cur b); [|now apply R3_ok].
    destruct (negb (u_is_empty tu)).
    + eapply sim_bind; [now apply (single_unit_sim n)|]. intros [b2 o2] [b2' o2'] ((E & H2) & E3). cbn [fst snd] in *. subst.
      destruct o2'; [now apply R3_ok|]. change (get_remainder_str (clear b2)) with (get_remainder_str b2).
      apply (sim_bind eq); [apply sim_refl|]. intros ? ? ->. reflexivity.
    + change (get_remainder_str_unchecked (clear b)) with (get_remainder_str_unchecked b).
      apply (sim_bind eq); [apply sim_refl|]. intros ? ? ->. reflexivity.
  - intros n b r H. unfold single_finalize. change (check_end_of_input (clear b)) with (check_end_of_input b).
    apply (sim_bind eq); [apply sim_refl|]. reflexivity.
Qed.

(** ** multiple *)
Definition RM (o o' : multi_output) : Prop := fst o = fst o' /\
  match snd o, snd o' with
  | None, None => True
  | Some b, Some b' => exists n, R n b b'
  | _, _ => False
  end.
Lemma infinity_multi_sim n st w : forall b, I n b -> sim (R n) (infinity_loop_multi st w b) (infinity_loop_multi st w (clear b)).
Proof.
  induction w as [|e w IH]; intros b H; cbn [infinity_loop_multi]; [now apply R_keep|]. cbn [cur clear pos].
  destruct (cur b) as [x|] eqn:E.
  - destruct (eq_nocase x e); [|reflexivity].
    change (advance (clear b)) with (clear (advance b)). apply IH. now apply (I_advance n b x).
  - apply (sim_bind eq); [apply sim_refl|]. intros p _ <-. 
    change (get_current_str_unwrap (clear b) st) with (get_current_str_unwrap b st).
    apply (sim_bind eq); [apply sim_refl|]. intros ? ? ->. reflexivity.
Qed.
(** [kend] is the set of bytes which end a time unit *)
Definition ends_units (c : config) : Prop := forall x, (c_allow_ago c && c_inner_delimiter c x) || (c_outer_delimiter c x || is_next_duration x) = kend x.
Lemma multi_unit_sim n c tu b : ends_units c -> I n b ->
  sim (R2 n) (multi_time_unit b c tu) (nb_multi_time_unit (clear b) c tu).
Proof.
  intros Hk H. unfold multi_time_unit, nb_multi_time_unit. change (is_end_of_input (clear b)) with (is_end_of_input b).
  apply (sim_bind eq); [apply sim_refl|]. intros _ _ _.
  assert (W : exists b1 w,
    (if c_allow_ago c then
               buffered_advance_to
                 (fun x => c_inner_delimiter c x || c_outer_delimiter c x || is_next_duration x) b
             else buffered_advance_to (fun x => c_outer_delimiter c x || is_next_duration x) b) = Ok (b1, w) /\
    (if c_allow_ago c then
               advance_to
                 (fun x => c_inner_delimiter c x || c_outer_delimiter c x || is_next_duration x) (clear b)
             else advance_to (fun x => c_outer_delimiter c x || is_next_duration x) (clear b)) = Ok (clear b1, w) /\
    I n b1 /\ pos b1 = (pos b + length w)%nat).
  { unfold ends_units in Hk. destruct (c_allow_ago c); (apply buffered_kend; [|exact H]); intros x; [rewrite <- orb_assoc|]; exact (Hk x). }
  destruct W as (b1 & w & -> & -> & H1 & E1). cbn [bind].
  destruct (is_empty w); [now apply R2_ok|]. apply (sim_bind eq); [apply sim_refl|]. intros st _ <-.
  pose proof (I_le _ _ H) as L1. pose proof H as (_ & _ & L2 & _). pose proof H1 as (_ & _ & L3 & _).
  destruct (u_get tu st) as [[u m]|]; [|apply (R2_ok n (reset b1 (pos b))); apply I_reset; [auto|lia]].
  apply (sim_bind (R2 n)).
  - cbn [cur clear pos]. destruct (cur b1) as [x|]; [|now apply R2_ok]. destruct (_ && _); [|now apply R2_ok].
    eapply sim_bind; [apply (try_consume_sim n _ _ H1)|]. intros b2 b2' ((-> & H2) & L).
    change (next_is_ignore_ascii_case (clear b2) (%"ago")) with (next_is_ignore_ascii_case b2 (%"ago")).
    change (reset (clear b2) (pos b1)) with (clear (reset b2 (pos b1))).
    assert (H3 : I n (reset b2 (pos b1))) by (apply I_reset; [auto|lia]).
    destruct (next_is_ignore_ascii_case b2 (%"ago")) eqn:X; [|now apply R2_ok].
    assert (H4 : I n (advance_by b2 3)) by (apply I_advance_by; [auto|apply (I_next _ _ _ H2 X)]).
    change (advance_by (clear b2) 3) with (clear (advance_by b2 3)).
    change (cur (clear (advance_by b2 3))) with (cur (advance_by b2 3)).
    change (reset (clear (advance_by b2 3)) (pos b1)) with (clear (reset (advance_by b2 3) (pos b1))).
    destruct (cur (advance_by b2 3)) as [y|]; [|now apply R2_ok]. destruct (_ || _); [now apply R2_ok|].
    apply R2_ok. apply I_reset; [auto|lia].
  - intros [b2 m2] [b2' m2'] ((E & H2) & E3). cbn [fst snd] in *. subst.
    eapply sim_bind; [now apply (maybe_connect_sim n)|]. intros b3 b3' (-> & H3). now apply R2_ok.
Qed.
Lemma tsim_multi c tu kw : ends_units c -> (kw <> None -> forall x, c_outer_delimiter c x || is_next_duration x = kend x) -> tsim multi nb_multi RM c tu kw.
Proof.
  intros Hu Hk.
  constructor; cbn [multi nb_multi t_make_output t_parse_infinity_remainder t_parse_keyword t_parse_time_unit t_parse_number_time_unit t_finalize].
  - intros n b r H. split; [reflexivity|]. unfold multi_make_output. cbn [snd cur clear]. destruct (cur b); [|exact Logic.I]. exists n. now apply R_keep.
  - intros n b r H. unfold multi_infinity_remainder. cbn [cur clear pos].
    assert (G : sim RM
     (let* b := infinity_loop_multi (pos b) (%"inity") b in
      match cur b with
      | Some x =>
          if c_outer_delimiter c x then let* b := connect c b in Ok (set_infinite r, Some b)
          else Err (Syntax (pos b) (%"Error parsing infinity: Expected a delimiter but found '" ++ char_of_byte x ++ %"'"))
      | None => Ok (set_infinite r, None) end)
     (let* b := infinity_loop_multi (pos b) (%"inity") (clear b) in
      match cur b with
      | Some x =>
          if c_outer_delimiter c x then let* b := connect c b in Ok (set_infinite r, Some b)
          else Err (Syntax (pos b) (%"Error parsing infinity: Expected a delimiter but found '" ++ char_of_byte x ++ %"'"))
      | None => Ok (set_infinite r, None) end)).
    { eapply sim_bind; [now apply (infinity_multi_sim n)|]. intros b1 b1' (-> & H1). cbn [cur clear pos].
      destruct (cur b1) as [x|]; [|cbn; split; auto; exact Logic.I]. destruct (c_outer_delimiter c x); [|reflexivity].
      eapply sim_bind; [now apply (connect_sim n)|]. intros b2 b2' H2. cbn. split; [reflexivity|]. eexists; exact H2. }
    destruct (cur b) as [x|]; [|cbn; split; auto; exact Logic.I]. destruct (c_outer_delimiter c x); [|exact G].
    eapply sim_bind; [now apply (connect_sim n)|]. intros b2 b2' H2. cbn. split; [reflexivity|]. eexists; exact H2.
  - intros n b H. unfold multi_keyword, nb_multi_keyword. destruct kw as [k|]; [|now apply R2_ok].
    destruct (buffered_kend (fun x => c_outer_delimiter c x || is_next_duration x) n b (Hk ltac:(discriminate)) H) as (b1 & w & -> & -> & H1 & E1). cbn [bind].
    destruct (is_empty w); [now apply R2_ok|]. apply (sim_bind eq); [apply sim_refl|]. intros st _ <-.
    pose proof (I_le _ _ H) as L1. pose proof H as (_ & _ & L2 & _).
    destruct (u_get k st) as [um|]; [|apply (R2_ok n (reset b1 (pos b))); apply I_reset; [auto|lia]].
    eapply sim_bind; [now apply (maybe_connect_sim n)|]. intros b3 b3' (-> & H3). now apply R2_ok.
  - intros n b H. now apply multi_unit_sim.
  - intros n b r H. unfold multi_number_time_unit, nb_multi_number_time_unit. cbn [cur clear]. destruct (cur b); [|now apply R3_ok].
    destruct (negb (u_is_empty tu)); [|now apply R3_ok].
    eapply sim_bind; [now apply (multi_unit_sim n)|]. intros [b2 o2] [b2' o2'] ((E & H2) & E3). cbn [fst snd] in *. subst.
    destruct o2'; now apply R3_ok.
  - intros n b r H. unfold multi_finalize. cbn [cur clear].
    assert (G : RM (r, Some b) (r, Some (clear b))) by (split; [reflexivity|exists n; now apply R_keep]).
    destruct (cur b) as [x|]; [|cbn; split; auto; exact Logic.I]. destruct (c_outer_delimiter c x); [|exact G].
    eapply sim_bind; [now apply (connect_sim n)|]. intros b2 b2' H2. cbn. split; [reflexivity|]. eexists; exact H2.
Qed.

Lemma multiple_loop_sim c tu kw nums fuel : ends_units c -> (kw <> None -> forall x, c_outer_delimiter c x || is_next_duration x = kend x) ->
  (nums <> None -> forall x, c_inner_delimiter c x = true -> kend x = true) -> forall n d b, I n b ->
  multiple_loop fuel c tu kw nums d b = nb_multiple_loop fuel c tu kw nums d (clear b).
Proof.
  intros Hu Hk Hin. induction fuel as [|f IH]; intros n d b H; cbn [multiple_loop nb_multiple_loop]; [reflexivity|].
  apply sim_eq. eapply sim_bind; [apply (template_sim multi nb_multi RM c tu kw nums Hin (tsim_multi c tu kw Hu Hk) n _ H)|].
  intros [r o] [r' o'] (E & G). cbn [fst snd] in *. subst r'.
  apply (sim_bind eq); [apply sim_refl|]. intros p _ <-. apply (sim_bind eq); [apply sim_refl|]. intros d' _ <-.
  destruct o as [b1|], o' as [b1'|]; try contradiction; [|reflexivity]. destruct G as (k & -> & H1). rewrite (IH k d' b1 H1). apply sim_refl.
Qed.
End S.

Lemma I_new s k : I s k 0 (bytes_new s).
Proof. split; [reflexivity|]. split; [reflexivity|]. split; [cbn; lia|exact Logic.I]. Qed.

Theorem parse_unbuffered c s tu kw nums : delims_ok c kw nums -> parse c s tu kw nums = nb_parse c s tu kw nums.
Proof.
  intros Hd. unfold parse, nb_parse. destruct (c_allow_multiple c) eqn:M.
  - unfold parse_multiple. change (bytes_new s) with (clear (bytes_new s)) at 2.
    assert (KE : forall x, c_outer_delimiter c x || is_next_duration x = keyword_end c x).
    { intros x. unfold keyword_end, starts_duration, is_sign, is_next_duration. destruct (c_outer_delimiter c x), (is_digit x), (x =? 43), (x =? 45); reflexivity. }
    destruct (Hd M) as [D1 D2].
    apply (multiple_loop_sim s (fun x => (c_allow_ago c && c_inner_delimiter c x) || (c_outer_delimiter c x || is_next_duration x))) with (n := 0%nat);
      [intros x; reflexivity| | |apply I_new].
    + intros Hkw x. destruct (c_allow_ago c) eqn:A; [|reflexivity]. cbn [andb]. rewrite KE. destruct (c_inner_delimiter c x) eqn:X; [|reflexivity].
      now rewrite (D1 Hkw eq_refl x X).
    + intros Hn x X. rewrite X. destruct (c_allow_ago c) eqn:A; [reflexivity|]. cbn [andb orb]. rewrite KE. exact (D2 Hn eq_refl x X).
  - unfold parse_single, nb_parse_single. apply sim_eq. eapply sim_bind.
    + change (bytes_new s) with (clear (bytes_new s)) at 2.
      apply (template_sim s (c_inner_delimiter c) single single eq c tu kw nums (fun _ x H => H) (tsim_single _ _ c tu kw) 0), I_new.
    + intros r r' <-. apply sim_refl.
Qed.
