(** * Delimiters for which the number of steps is not linear: the text "a,a, ... ,ax" *)
From Verif Require Import Prelude Util Time Config Bytes Repr Parse ReprProofs Cost CostMulti ExEnv.
Open Scope nat_scope.

Definition odd_inner (x : byte) : bool := ((x =? 97) || (x =? 44))%Z.
Definition odd_outer (x : byte) : bool := (x =? 44)%Z.
Definition odd_config : config := {|
  c_default_unit := Second; c_disable_exponent := false; c_disable_fraction := false; c_disable_infinity := false;
  c_number_is_optional := true; c_allow_multiple := true; c_conjunctions := None; c_allow_negative := false;
  c_inner_delimiter := odd_inner; c_outer_delimiter := odd_outer; c_allow_ago := true;
  c_allow_sign_delimiter := false; c_allow_time_unit_delimiter := false |}.
Definition odd_units : units_like := Units false (table [(%"a", (Second, Mul 0 0))]).
Definition odd_keywords : units_like := Units false (table [(%"never", (Second, Mul 1 0))]).
Fixpoint odd_rest (m : nat) : str := match m with O => [97; 120]%Z | S m => 97%Z :: 44%Z :: odd_rest m end.

Lemma odd_len m : length (odd_rest m) = 2 * m + 2.
Proof. induction m as [|m IH]; [reflexivity|]. cbn [odd_rest length]. rewrite IH. lia. Qed.

Lemma bind_at {A B} (m : timed A) (f : A -> timed B) k a k' r : m = (k, Ok a) -> f a = (k', r) -> tbind m f = (k + k', r).
Proof. intros -> E. unfold tbind. cbn [fst snd]. rewrite E. reflexivity. Qed.
Lemma steps_at {A} n (m : timed A) k r : m = (k, r) -> steps n m = (n + k, r).
Proof. intros ->. reflexivity. Qed.
Section Odd.
Variable s : str.
Lemma at_cons p x l : skipn p s = x :: l -> nth_error s p = Some x /\ skipn (p + 1) s = l.
Proof.
  intros H. split.
  - rewrite <- (Nat.add_0_r p), <- nth_error_skip, H. reflexivity.
  - rewrite <- skipn_skipn', H. reflexivity.
Qed.
(** the loop of the delimiter *)
Lemma odd_skip : forall m p f bf, skipn p s = odd_rest m -> 2 * m + 2 <= f ->
  exists b', skip_until_t f (fun x => negb (odd_inner x)) (Scan p (nth_error s p) bf s) = (2 * m + 2, Ok b') /\
    b' = Scan (p + 2 * m + 1) (Some 120%Z) bf s.
Proof.
  induction m as [|m IH]; intros p f bf Hs Hf.
  - destruct (at_cons _ _ _ Hs) as [H1 H2]. destruct (at_cons _ _ _ H2) as [H3 H4].
    destruct f as [|[|f]]; try lia. eexists; split; [|reflexivity]. cbn [skip_until_t cur]. rewrite H1. cbn [negb odd_inner].
    change (negb (odd_inner 97)) with false. cbn [advance cur pos input buffer]. rewrite H3. change (negb (odd_inner 120)) with true. unfold steps, now, advance. cbn [fst snd pos input buffer]. rewrite H3. replace (p + 2 * 0 + 1) with (p + 1) by lia. reflexivity.
  - cbn [odd_rest] in Hs.
    destruct (at_cons _ _ _ Hs) as [H1 H2]. destruct (at_cons _ _ _ H2) as [H3 H4].
    destruct f as [|[|f]]; try lia. replace (p + 1 + 1) with (p + 2) in H4 by lia.
    destruct (IH (p + 2) f bf H4) as (b' & E & E2); [lia|].
    exists b'. split; [|rewrite E2; f_equal; lia].
    change (skip_until_t (S (S f)) (fun x => negb (odd_inner x)) (Scan p (nth_error s p) bf s)) with
      (steps 1 match nth_error s p with Some x => if negb (odd_inner x) then now (Ok (Scan p (nth_error s p) bf s)) else
         steps 1 match nth_error s (p + 1) with Some x => if negb (odd_inner x) then now (Ok (Scan (p + 1) (nth_error s (p + 1)) bf s)) else
            skip_until_t f (fun x => negb (odd_inner x)) (Scan (p + 1 + 1) (nth_error s (p + 1 + 1)) bf s)
            | None => now (Ok (Scan (p + 1) (nth_error s (p + 1)) bf s)) end
          | None => now (Ok (Scan p (nth_error s p) bf s)) end).
    rewrite H1, H3. change (negb (odd_inner 97)) with false. change (negb (odd_inner 44)) with false. cbv iota.
    replace (p + 1 + 1) with (p + 2) by lia. rewrite E. unfold steps. cbn. f_equal. lia.
Qed.

Definition elsewhere (bf : option (nat * str * option byte)) (p : nat) : Prop := forall q w n, bf = Some (q, w, n) -> q <> p.
Lemma fresh_word bf p (d : delimiter) : elsewhere bf p -> nth_error s p = Some 97%Z -> nth_error s (p + 1) = Some 44%Z ->
  d 97%Z = false -> d 44%Z = true ->
  buffered_advance_to_t d (Scan p (Some 97%Z) bf s) =
    (2, Ok (Scan (p + 1) (Some 44%Z) (Some (p, [97%Z], Some 44%Z)) s, [97%Z])).
Proof.
  intros Hb H1 H2 D1 D2. unfold buffered_advance_to_t. cbv zeta. cbn [buffer pos cur input].
  assert (Hl : p + 1 < length s) by (apply nth_error_Some; congruence).
  assert (E : (let^ b' := skip_until_t (loop_fuel (Scan p (Some 97%Z) bf s)) d (Scan p (Some 97%Z) bf s) in
      let^ s0 := now (slice (input b') p (pos b')) in
      now (Ok (Scan (pos b') (cur b') (Some (p, s0, cur b')) (input b'), s0))) =
      (2, Ok (Scan (p + 1) (Some 44%Z) (Some (p, [97%Z], Some 44%Z)) s, [97%Z]))).
  { unfold loop_fuel. cbn [input]. destruct (length s) as [|[|n]] eqn:El; try lia.
    cbn [skip_until_t cur advance pos input buffer]. rewrite D1, H2, D2. unfold tbind, steps, now, advance. cbn [fst snd pos cur input buffer].
    unfold slice. rewrite El, H2. destruct (Nat.leb_spec p (p + 1)); [|lia]. destruct (Nat.leb_spec (p + 1) (S (S n))); [|lia].
    cbn [andb]. replace (p + 1 - p) with 1 by lia.
    destruct (skipn p s) as [|y l] eqn:Es.
    - rewrite <- (Nat.add_0_r p), <- nth_error_skip, Es in H1. discriminate.
    - destruct (at_cons _ _ _ Es) as [H7 _]. rewrite H1 in H7. injection H7 as <-. reflexivity. }
  destruct bf as [[[q w] [nx|]]|]; [| |exact E].
  - destruct (Nat.eqb_spec q p); [now elim (Hb _ _ _ eq_refl)|]. cbn [andb]. exact E.
  - destruct (Nat.eqb_spec q p); [now elim (Hb _ _ _ eq_refl)|]. exact E.
Qed.
Definition odd_repr (p : nat) (b : scanner) : repr := set_unit (repr_init odd_config b) (Second, Mul 0 0).
Lemma odd_round m p bf : skipn p s = odd_rest (S m) -> 1 <= p + 1 -> elsewhere bf p ->
  exists k bf', template_parse_t multi_t (Scan p (Some 97%Z) bf s) odd_config odd_units (Some odd_keywords) None =
    (k, Ok (odd_repr p (Scan p (Some 97%Z) bf s), Some (Scan (p + 2) (Some 97%Z) bf' s))) /\ elsewhere bf' (p + 2) /\ 2 * m + 2 <= k.
Proof.
  intros Hs _ Hb. change (odd_rest (S m)) with (97%Z :: 44%Z :: odd_rest m) in Hs.
  destruct (at_cons _ _ _ Hs) as [H1 H2]. destruct (at_cons _ _ _ H2) as [H3 H4].
  replace (p + 1 + 1) with (p + 2) in H4 by lia.
  assert (H5 : exists l, odd_rest m = 97%Z :: l) by (destruct m; eexists; reflexivity). destruct H5 as [l H5].
  assert (H6 : nth_error s (p + 2) = Some 97%Z) by (rewrite H5 in H4; apply (at_cons _ _ _ H4)).
  assert (Hlen : 2 * m + 2 <= length s).
  { rewrite <- (odd_len m), <- H4, skipn_length. lia. }
  set (B := Scan p (Some 97%Z) bf s).
  set (bf' := Some (p, [97%Z], Some 44%Z)).
  assert (Hki : next_is_ignore_ascii_case B (%"inf") = false).
  { unfold next_is_ignore_ascii_case, peek, B. cbn [pos input]. unfold slice_get. destruct (_ && _); [|reflexivity]. rewrite Hs.
    replace (p + length (%"inf") - p) with 3 by (cbn; lia). reflexivity. }
  assert (Hkw : multi_keyword_t B (Some odd_keywords) odd_config = (4, Ok (Scan p (Some 97%Z) bf' s, None))).
  { unfold multi_keyword_t. unfold B. rewrite fresh_word; auto. unfold tbind at 1. cbn [fst snd]. cbn. unfold reset. cbn. rewrite H1. reflexivity. }
  assert (Esk : try_consume_delimiter_t odd_inner (Scan (p + 1) (Some 44%Z) bf' s) =
     (2 * m + 2, Ok (Scan (p + 2 + 2 * m + 1) (Some 120%Z) bf' s))).
  { destruct (odd_skip m (p + 2) (S (length s)) bf' H4 ltac:(lia)) as (b' & Esk & Eb'). subst b'.
    unfold try_consume_delimiter_t. replace (2 * m + 2) with (0 + (0 + (2 * m + 2 + 0))) by lia.
    eapply (bind_at _ _ 0 _ (0 + (2 * m + 2 + 0))); [reflexivity|]. eapply (bind_at _ _ 0 _ (2 * m + 2 + 0)); [reflexivity|].
    cbn [pos]. destruct (Nat.eqb_spec (p + 1) 0); [lia|]. cbv zeta.
    apply (bind_at _ _ (2 * m + 2) (Scan (p + 2 + 2 * m + 1) (Some 120%Z) bf' s) 0); [|reflexivity]. unfold advance. cbn [pos input buffer]. replace (p + 1 + 1) with (p + 2) by lia. exact Esk. }
  assert (Eco : connect_t odd_config (Scan (p + 1) (Some 44%Z) bf' s) = (1, Ok (Scan (p + 2) (Some 97%Z) bf' s))).
  { unfold connect_t, try_consume_connection_t. eapply (bind_at _ _ 0); [reflexivity|]. eapply (bind_at _ _ 0); [reflexivity|].
    apply (bind_at _ _ 1 (Scan (p + 2) (Some 97%Z) bf' s) 0); [|reflexivity]. unfold try_consume_delimiter_t.
    eapply (bind_at _ _ 0); [reflexivity|]. eapply (bind_at _ _ 0); [reflexivity|].
    cbn [pos]. destruct (Nat.eqb_spec (p + 1) 0); [lia|]. cbv zeta. apply (bind_at _ _ 1 (Scan (p + 2) (Some 97%Z) bf' s) 0); [|reflexivity].
    unfold advance, loop_fuel. cbn [pos input buffer skip_until_t cur]. replace (p + 1 + 1) with (p + 2) by lia. rewrite H6. reflexivity. }
  assert (Ebu : buffered_advance_to_t (fun x => c_inner_delimiter odd_config x || c_outer_delimiter odd_config x || is_next_duration x)
     (Scan p (Some 97%Z) bf' s) = (0, Ok (Scan (p + 1) (Some 44%Z) bf' s, [97%Z]))).
  { unfold buffered_advance_to_t, bf'. cbn [buffer pos]. rewrite Nat.eqb_refl. unfold advance_by. cbn [pos input buffer length].
    rewrite H3. reflexivity. }
  assert (Hag : next_is_ignore_ascii_case (Scan (p + 2 + 2 * m + 1) (Some 120%Z) bf' s) (%"ago") = false).
  { unfold next_is_ignore_ascii_case, peek. cbn [pos input]. unfold slice_get.
    assert (El : length s = p + 2 + (2 * m + 2)).
    { assert (p + 2 < length s) by (apply nth_error_Some; congruence). rewrite <- (odd_len m), <- H4, skipn_length. lia. }
    rewrite El. change (length (%"ago")) with 3. destruct (Nat.leb_spec (p + 2 + 2 * m + 1 + 3) (p + 2 + (2 * m + 2))); [lia|].
    rewrite andb_false_r. reflexivity. }
  assert (Htu : exists k, multi_time_unit_t (Scan p (Some 97%Z) bf' s) odd_config odd_units =
     (k, Ok (Scan (p + 2) (Some 97%Z) bf' s, Some (Second, Mul 0 0))) /\ 2 * m + 2 <= k).
  { eexists. split.
    - unfold multi_time_unit_t. eapply (bind_at _ _ 0); [reflexivity|]. cbv zeta. cbn [pos].
      eapply bind_at; [exact Ebu|]. cbn [is_empty]. eapply (bind_at _ _ 0 [97%Z]); [reflexivity|].
      eapply (bind_at _ _ 2 (Some (Second, Mul 0 0))); [reflexivity|]. cbn beta iota.
      eapply (bind_at _ _ (2 * m + 2 + (3 + 0)) (Scan (p + 1) (Some 44%Z) bf' s, Mul 0 0)).
      + cbn [cur]. change (c_allow_ago odd_config && c_inner_delimiter odd_config 44%Z) with true. cbv iota.
        eapply bind_at; [exact Esk|]. eapply (bind_at _ _ 3 false).
        * unfold next_is_t. rewrite Hag. reflexivity.
        * cbv iota. unfold reset. cbn [pos input buffer]. rewrite H3. reflexivity.
      + cbn [cur]. change (c_outer_delimiter odd_config 44%Z) with true. cbv iota. eapply bind_at; [exact Eco|]. reflexivity.
    - lia. }
  destruct Htu as (k & Htu & Hk). exists (0 + (3 + (4 + (k + 0)))), bf'. split; [|split; [|lia]].
  - unfold template_parse_t. cbn [cur]. eapply (bind_at _ _ 0 (B, repr_init odd_config B)); [reflexivity|].
    cbn [cur B]. change (is_digit 97) with false. change ((97 =? 46)%Z) with false. cbv iota.
    eapply (bind_at _ _ 3 false); [unfold next_is_t; change (negb (c_disable_infinity odd_config)) with true; cbv iota; fold B; rewrite Hki; reflexivity|].
    cbv iota. unfold template_word_t. eapply bind_at; [exact Hkw|]. cbv iota.
    change (c_number_is_optional odd_config) with true. cbv iota zeta. eapply bind_at; [exact Htu|]. reflexivity.
  - intros q w nx [= <- <- <-]. lia.
Qed.
Lemma odd_loop : forall m p bf fuel, skipn p s = odd_rest m -> elsewhere bf p -> m <= fuel ->
  m * m <= fst (multiple_loop_t fuel odd_config odd_units (Some odd_keywords) None ZERO (Scan p (Some 97%Z) bf s)).
Proof.
  induction m as [|m IH]; intros p bf fuel Hs Hb Hf; [lia|].
  destruct fuel as [|fuel]; [lia|]. destruct (odd_round m p bf Hs ltac:(lia) Hb) as (k & bf' & E & Hb' & Hk).
  cbn [odd_rest] in Hs. destruct (at_cons _ _ _ Hs) as [H1 H2]. destruct (at_cons _ _ _ H2) as [H3 H4].
  replace (p + 1 + 1) with (p + 2) in H4 by lia.
  specialize (IH (p + 2) bf' fuel H4 Hb' ltac:(lia)).
  destruct (multiple_loop_t fuel odd_config odd_units (Some odd_keywords) None ZERO (Scan (p + 2) (Some 97%Z) bf' s)) as [k2 r2] eqn:E2.
  cbn [fst] in IH. cbn [multiple_loop_t].
  assert (E3 : (let^ (r, maybe_parser) := template_parse_t multi_t (Scan p (Some 97%Z) bf s) odd_config odd_units (Some odd_keywords) None in
    let^ parsed := repr_parse_t r in
    let^ d :=
      (if negb (c_allow_negative odd_config) && is_negative parsed then now (Err NegativeNumber)
       else if is_zero parsed then now (Ok ZERO)
       else if is_zero ZERO then now (Ok parsed)
       else now (saturating_add ZERO parsed)) in
    match maybe_parser with
    | Some b => multiple_loop_t fuel odd_config odd_units (Some odd_keywords) None d b
    | None => now (Ok d)
    end) = (k + (0 + (0 + k2)), r2)).
  { eapply bind_at; [exact E|]. cbv iota beta. eapply (bind_at _ _ 0 ZERO); [reflexivity|]. eapply (bind_at _ _ 0 ZERO); [reflexivity|]. exact E2. }
  rewrite E3. cbn [steps fst]. lia.
Qed.
End Odd.

Theorem odd_quadratic m : m * m <= fst (parse_t odd_config (odd_rest m) odd_units (Some odd_keywords) None).
Proof.
  unfold parse_t, parse_multiple_t. cbn [c_allow_multiple odd_config]. unfold bytes_new.
  replace (nth_error (odd_rest m) 0) with (Some 97%Z) by (destruct m; reflexivity).
  apply odd_loop; [reflexivity|discriminate|]. rewrite odd_len. lia.
Qed.
