(** * The number of steps of the parser *)
From Verif Require Import Prelude Util Time Config Bytes Repr Parse ReprProofs Cost CostErase.
Open Scope nat_scope.

(** [runs k m E Q]: started after k steps, m ends with [Ok a] after k' steps with [Q a k'], or with an error (or a
    crash) after at most E steps *)
Definition runs {A} (k : nat) (m : timed A) (E : nat) (Q : A -> nat -> Prop) : Prop :=
  match snd m with Ok a => Q a (k + fst m) | _ => k + fst m <= E end.
Lemma runs_bind {A B} k (m : timed A) (f : A -> timed B) E Q :
  runs k m E (fun a k' => runs k' (f a) E Q) -> runs k (tbind m f) E Q.
Proof.
  unfold runs, tbind. destruct (snd m); cbn; auto.
  destruct (snd (f a)); cbn; rewrite <- ?Nat.add_assoc; auto.
Qed.
Lemma runs_ok {A} k (a : A) E (Q : A -> nat -> Prop) : Q a k -> runs k (now (Ok a)) E Q.
Proof. unfold runs. cbn. rewrite Nat.add_0_r. auto. Qed.
Lemma runs_err {A} k e E (Q : A -> nat -> Prop) : k <= E -> runs k (now (Err e)) E Q.
Proof. unfold runs. cbn. rewrite Nat.add_0_r. auto. Qed.
Lemma runs_crash {A} k e E (Q : A -> nat -> Prop) : k <= E -> runs k (now (Crash e)) E Q.
Proof. unfold runs. cbn. rewrite Nat.add_0_r. auto. Qed.
Lemma runs_now {A} k (m : res A) E (Q : A -> nat -> Prop) :
  k <= E -> (forall a, m = Ok a -> Q a k) -> runs k (now m) E Q.
Proof. unfold runs. cbn. rewrite Nat.add_0_r. destruct m; auto. Qed.
Lemma runs_steps {A} k i (m : timed A) E Q : runs (k + i) m E Q -> runs k (steps i m) E Q.
Proof. unfold runs, steps. cbn. destruct (snd m); rewrite ?Nat.add_assoc; auto. Qed.
Lemma runs_mono {A} k (m : timed A) E E' (Q Q' : A -> nat -> Prop) :
  runs k m E Q -> E <= E' -> (forall a k', Q a k' -> Q' a k') -> runs k m E' Q'.
Proof. unfold runs. destruct (snd m); intros; auto; lia. Qed.

(** [R]: apply the rule for the head of the program *)
Ltac rr :=
  lazymatch goal with
  | |- runs _ (tbind _ _) _ _ => apply runs_bind
  | |- runs _ (steps _ _) _ _ => apply runs_steps
  | |- runs _ (now (Ok _)) _ _ => apply runs_ok
  | |- runs _ (now (Err _)) _ _ => apply runs_err
  | |- runs _ (now (Crash _)) _ _ => apply runs_crash
  end; cbn beta iota.

(** ** Numbers *)
Lemma whole_chunks_c cs : forall s k E (Q : option Z -> nat -> Prop), k + length cs <= E ->
  (forall o k', k' <= k + length cs -> Q o k') -> runs k (whole_chunks_t s cs) E Q.
Proof.
  induction cs as [|c cs IH]; intros s k E Q HE HQ; cbn [whole_chunks_t length] in *.
  - rr. apply HQ; lia.
  - rr. destruct (chk _ _); [|rr; apply HQ; lia]. rr. apply runs_now; [lia|]. intros v _.
    destruct (chk _ _); [|rr; apply HQ; lia]. apply IH; [lia|]. intros; apply HQ; lia.
Qed.
Lemma whole_digits_c cs : forall s k E (Q : option Z -> nat -> Prop), k + length cs <= E ->
  (forall o k', k' <= k + length cs -> Q o k') -> runs k (whole_digits_t s cs) E Q.
Proof.
  induction cs as [|c cs IH]; intros s k E Q HE HQ; cbn [whole_digits_t length] in *.
  - rr. apply HQ; lia.
  - rr. destruct (chk _ _); [|rr; apply HQ; lia]. rr. apply runs_now; [lia|]. intros v _.
    destruct (chk _ _); [|rr; apply HQ; lia]. apply IH; [lia|]. intros; apply HQ; lia.
Qed.
Lemma chunks_len m : forall l, length l <= m ->
  length (fst (chunks_exact8 l)) + length (snd (chunks_exact8 l)) <= length l.
Proof.
  induction m as [|m IH]; intros l H.
  - destruct l; [cbn; lia|cbn in H; lia].
  - destruct l as [|a [|b [|c [|d [|e [|f [|g [|h t]]]]]]]]; try (cbn; lia).
    cbn [chunks_exact8]. pose proof (IH t) as Ht. destruct (chunks_exact8 t) as [cs r]. cbn in *. lia.
Qed.
Lemma whole_slice_c s d k E (Q : option Z -> nat -> Prop) : k + length d <= E ->
  (forall o k', k' <= k + length d -> Q o k') -> runs k (whole_parse_slice_t s d) E Q.
Proof.
  intros HE HQ. unfold whole_parse_slice_t. destruct (8 <=? length d)%nat.
  - pose proof (chunks_len _ d (le_n _)) as Hl. destruct (chunks_exact8 d) as [cs r]. cbn in Hl.
    rr. apply whole_chunks_c; [lia|]. intros o k' Hk. destruct o; [|rr; apply HQ; lia].
    apply whole_digits_c; [lia|]. intros; apply HQ; lia.
  - apply whole_digits_c; auto.
Qed.
Definition olen (o : option str) : nat := match o with Some a => length a | None => 0 end.
Lemma whole_parse_c d a z k E (Q : option Z -> nat -> Prop) : k + length d + olen a <= E ->
  (forall o k', k' <= k + length d + olen a -> Q o k') -> runs k (whole_parse_t d a z) E Q.
Proof.
  intros HE HQ. unfold whole_parse_t. destruct (_ && _); [rr; apply HQ; lia|].
  rr. apply whole_slice_c; [lia|]. intros o k' Hk. destruct o; [|rr; apply HQ; lia].
  rr. assert (H : forall o k', k' <= k + length d + olen a -> runs k' match o with
      | Some seconds => if (seconds =? 0)%Z then now (Ok (Some 0%Z)) else match z with
        | Some num_zeros => if 0 <? num_zeros then match nth_error POW10 num_zeros with
          | Some pow => now (Ok (chk is_u64 (seconds * pow)%Z)) | None => now (Ok None) end else now (Ok (Some seconds))
        | None => now (Ok (Some seconds)) end
      | None => now (Ok None) end E Q).
  { intros o k2 Hk2. destruct o as [x|]; [|rr; apply HQ; lia]. destruct (x =? 0)%Z; [rr; apply HQ; lia|].
    destruct z as [z|]; [|rr; apply HQ; lia]. destruct (0 <? z)%nat; [|rr; apply HQ; lia].
    destruct (nth_error _ _); rr; apply HQ; lia. }
  destruct a as [a|]; cbn [olen] in *.
  - apply whole_slice_c; [lia|]. intros; apply H; lia.
  - rr. apply (H (Some _)); lia.
Qed.
Lemma fract_chunks_c cs : forall s k E (Q : Z -> nat -> Prop), k + length cs <= E ->
  (forall o k', k' <= k + length cs -> Q o k') -> runs k (fract_chunks_t s cs) E Q.
Proof.
  induction cs as [|c cs IH]; intros s k E Q HE HQ; cbn [fract_chunks_t length] in *.
  - rr. apply HQ; lia.
  - rr. rr. apply runs_now; [lia|]. intros ? _. rr. apply runs_now; [lia|]. intros ? _.
    rr. apply runs_now; [lia|]. intros ? _. apply IH; [lia|]. intros; apply HQ; lia.
Qed.
Lemma fract_digits_c cs : forall s k E (Q : Z -> nat -> Prop), k + length cs <= E ->
  (forall o k', k' <= k + length cs -> Q o k') -> runs k (fract_digits_t s cs) E Q.
Proof.
  induction cs as [|c cs IH]; intros s k E Q HE HQ; cbn [fract_digits_t length] in *.
  - rr. apply HQ; lia.
  - rr. rr. apply runs_now; [lia|]. intros ? _. rr. apply runs_now; [lia|]. intros ? _.
    rr. apply runs_now; [lia|]. intros ? _. apply IH; [lia|]. intros; apply HQ; lia.
Qed.
Lemma fract_slice_c a m d k E (Q : Z * nat -> nat -> Prop) : k + length d <= E ->
  (forall o k', k' <= k + length d -> Q o k') -> runs k (fract_parse_slice_t a m d) E Q.
Proof.
  intros HE HQ. unfold fract_parse_slice_t. cbv zeta. rr. apply runs_now; [lia|]. intros ds Hds.
  apply slice_ok in Hds. destruct Hds as (_ & _ & Hds).
  rr. destruct (8 <=? _)%nat.
  - pose proof (chunks_len _ ds (le_n _)) as Hl. destruct (chunks_exact8 ds) as [cs r]. cbn in Hl.
    rr. apply fract_chunks_c; [lia|]. intros o k' Hk.
    apply fract_digits_c; [lia|]. intros. rr. apply HQ; lia.
  - apply fract_digits_c; [lia|]. intros. rr. apply HQ; lia.
Qed.
Lemma fract_parse_c d p z k E (Q : Z -> nat -> Prop) : k + length d + olen p <= E ->
  (forall o k', k' <= k + length d + olen p -> Q o k') -> runs k (fract_parse_t d p z) E Q.
Proof.
  intros HE HQ. unfold fract_parse_t. destruct (_ && _); [rr; apply HQ; lia|].
  destruct (match z with Some z => _ | None => _ end) as [m|]; [|rr; apply HQ; lia].
  assert (Hp : runs k (let^ r := fract_parse_slice_t 0 m d in let '(attos, remainder) := r in
          if (0 <? remainder)%nat then now (mul_pow10 attos remainder) else now (Ok attos)) E Q).
  { rr. apply fract_slice_c; [lia|]. intros [x y] k' Hk. destruct (0 <? y)%nat.
    - apply runs_now; [lia|]. intros; apply HQ; lia.
    - rr. apply HQ; lia. }
  cbv zeta. destruct p as [p|]; [|exact Hp]. destruct (negb _); [|exact Hp]. cbn [olen] in *.
  rr. apply fract_slice_c; [lia|]. intros [x y] k' Hk. destruct (y =? 0)%nat; [rr; apply HQ; lia|].
  destruct (is_empty d); [apply runs_now; [lia|]; intros; apply HQ; lia|].
  rr. apply fract_slice_c; [lia|]. intros [x' y'] k2 Hk2. destruct (0 <? y')%nat.
  - apply runs_now; [lia|]. intros; apply HQ; lia.
  - rr. apply HQ; lia.
Qed.
(** the length of a range of digits *)
Definition rl (o : option (nat * nat)) : nat := match o with Some w => snd w - fst w | None => 0 end.
Lemma range_slice_l d w x : range_slice d w = Ok x -> length x = snd w - fst w.
Proof. intros H. apply slice_ok in H. apply H. Qed.
Lemma opt_slice_l d o x : opt_slice d o = Ok x -> length x = rl o.
Proof. destruct o as [w|]; cbn. - apply range_slice_l. - intros [= <-]. reflexivity. Qed.
Lemma split_number_c d e w f k E (Q : option (Z * Z) -> nat -> Prop) : k + rl w + rl f <= E ->
  (forall o k', k' <= k + rl w + rl f -> Q o k') -> runs k (split_number_t d e w f) E Q.
Proof.
  intros HE HQ. unfold split_number_t. cbv zeta. destruct (Z.compare e 0).
  - rr. assert (H : forall o k', k' <= k + rl w -> runs k' match o with None => now (Ok None)
      | Some seconds => let^ attos := match f with None => now (Ok 0%Z) | Some f => let^ fd := now (range_slice d f) in fract_parse_t fd None None
                        end in now (Ok (Some (seconds, attos))) end E Q).
    { intros o k' Hk. destruct o; [|rr; apply HQ; lia]. rr. destruct f as [f|]; cbn [rl] in *.
      - rr. apply runs_now; [lia|]. intros fd Hfd. apply range_slice_l in Hfd.
        apply fract_parse_c; cbn [olen]; [lia|]. intros; rr; apply HQ; lia.
      - rr. rr. apply HQ; lia. }
    destruct w as [w|]; cbn [rl] in *.
    + rr. apply runs_now; [lia|]. intros ds Hds. apply range_slice_l in Hds.
      apply whole_parse_c; cbn [olen]; [lia|]. intros; apply H; lia.
    + rr. apply (H (Some _)); lia.
  - rr.
    assert (H : forall fb, runs k match fb, w with
      | true, Some w =>
          let^ e0 := now (sub_usize (snd w) (Z.to_nat (Z.abs e))) in
          let^ ds := now (slice d (fst w) e0) in
          let^ o := whole_parse_t ds None None in
          match o with
          | None => now (Ok None)
          | Some seconds =>
              let^ fd := now (opt_slice d f) in
              let^ pd := now (slice d e0 (snd w)) in
              let^ attos := fract_parse_t fd (Some pd) None in
              now (Ok (Some (seconds, attos)))
          end
      | _, _ =>
          let^ attos :=
            match f with
            | Some f =>
                if range_is_empty f then
                  let^ wd := now (opt_slice d w) in
                  let^ l := now (opt_len w) in
                  let^ z := now (sub_usize (Z.to_nat (Z.abs e)) l) in
                  fract_parse_t wd None (Some z)
                else
                  let^ fd := now (range_slice d f) in
                  let^ pd := match w with
                             | Some w => if range_is_empty w then now (Ok None)
                                         else let^ s := now (range_slice d w) in now (Ok (Some s))
                             | None => now (Ok None)
                             end in
                  let^ l := now (opt_len w) in
                  let^ z := now (sub_usize (Z.to_nat (Z.abs e)) l) in
                  fract_parse_t fd pd (Some z)
            | None =>
                let^ wd := now (opt_slice d w) in
                let^ l := now (opt_len w) in
                let^ z := now (sub_usize (Z.to_nat (Z.abs e)) l) in
                fract_parse_t wd None (Some z)
            end in
          now (Ok (Some (0%Z, attos)))
      end E Q).
    { intros fb.
      assert (Hw : runs k (let^ wd := now (opt_slice d w) in
                  let^ l := now (opt_len w) in
                  let^ z := now (sub_usize (Z.to_nat (Z.abs e)) l) in
                  fract_parse_t wd None (Some z)) E (fun a k' => runs k' (now (Ok (Some (0%Z, a)))) E Q)).
      { rr. apply runs_now; [lia|]. intros wd Hwd. apply opt_slice_l in Hwd. rr. apply runs_now; [lia|]. intros l _.
        rr. apply runs_now; [lia|]. intros z _. apply fract_parse_c; cbn [olen]; [lia|]. intros; rr; apply HQ; lia. }
      assert (H0 : runs k (let^ attos :=
            match f with
            | Some f =>
                if range_is_empty f then
                  let^ wd := now (opt_slice d w) in
                  let^ l := now (opt_len w) in
                  let^ z := now (sub_usize (Z.to_nat (Z.abs e)) l) in
                  fract_parse_t wd None (Some z)
                else
                  let^ fd := now (range_slice d f) in
                  let^ pd := match w with
                             | Some w => if range_is_empty w then now (Ok None)
                                         else let^ s := now (range_slice d w) in now (Ok (Some s))
                             | None => now (Ok None)
                             end in
                  let^ l := now (opt_len w) in
                  let^ z := now (sub_usize (Z.to_nat (Z.abs e)) l) in
                  fract_parse_t fd pd (Some z)
            | None =>
                let^ wd := now (opt_slice d w) in
                let^ l := now (opt_len w) in
                let^ z := now (sub_usize (Z.to_nat (Z.abs e)) l) in
                fract_parse_t wd None (Some z)
            end in
          now (Ok (Some (0%Z, attos)))) E Q).
      { rr. destruct f as [f|]; [|exact Hw]. destruct (range_is_empty f); [exact Hw|].
        cbn [rl] in *. rr. apply runs_now; [lia|]. intros fd Hfd. apply range_slice_l in Hfd. rr.
        assert (Hr : forall pd, olen pd <= rl w -> runs k (let^ l := now (opt_len w) in
                  let^ z := now (sub_usize (Z.to_nat (Z.abs e)) l) in
                  fract_parse_t fd pd (Some z)) E (fun a k' => runs k' (now (Ok (Some (0%Z, a)))) E Q)).
        { intros pd Hpd. rr. apply runs_now; [lia|]. intros l _.
          rr. apply runs_now; [lia|]. intros z _. apply fract_parse_c; [lia|]. intros; rr; apply HQ; lia. }
        destruct w as [w|]; [|rr; apply Hr; cbn; lia]. destruct (range_is_empty w); [rr; apply Hr; cbn; lia|].
        rr. apply runs_now; [lia|]. intros x Hx. apply range_slice_l in Hx. rr. apply Hr. cbn [olen rl]. lia. }
      destruct fb; [|exact H0]. destruct w as [w|]; [|exact H0]. cbn [rl] in *.
      rr. apply runs_now; [lia|]. intros e0 He0. unfold sub_usize in He0.
      destruct (Z.to_nat (Z.abs e) <=? snd w)%nat; [|discriminate]. injection He0 as He0.
      rr. apply runs_now; [lia|]. intros ds Hds. apply slice_ok in Hds. destruct Hds as (Hb & _ & Hds).
      rr. apply whole_parse_c; cbn [olen]; [lia|]. intros o k' Hk. destruct o; [|rr; apply HQ; lia].
      rr. apply runs_now; [lia|]. intros fd Hfd. apply opt_slice_l in Hfd.
      rr. apply runs_now; [lia|]. intros pd Hpd. apply slice_ok in Hpd. destruct Hpd as (_ & _ & Hpd).
      rr. apply fract_parse_c; cbn [olen]; [lia|]. intros; rr; apply HQ; lia. }
    destruct w as [w|].
    + rr. apply runs_now; [lia|]. intros l _. rr. apply H.
    + rr. apply (H false).
  - rr.
    assert (H0 : runs k (let^ wd := now (opt_slice d w) in
          let^ ad := match f with
                     | None => now (Ok None)
                     | Some f => let^ s := now (range_slice d f) in now (Ok (Some s))
                     end in
          let^ l := now (opt_len f) in
          let^ z := now (sub_usize (Z.to_nat (Z.abs e)) l) in
          let^ o := whole_parse_t wd ad (Some z) in
          match o with
          | None => now (Ok None)
          | Some seconds => now (Ok (Some (seconds, 0%Z)))
          end) E Q).
    { rr. apply runs_now; [lia|]. intros wd Hwd. apply opt_slice_l in Hwd. rr.
      assert (Hr : forall ad, olen ad <= rl f -> runs k (let^ l := now (opt_len f) in
          let^ z := now (sub_usize (Z.to_nat (Z.abs e)) l) in
          let^ o := whole_parse_t wd ad (Some z) in
          match o with
          | None => now (Ok None)
          | Some seconds => now (Ok (Some (seconds, 0%Z)))
          end) E Q).
      { intros ad Had. rr. apply runs_now; [lia|]. intros l _. rr. apply runs_now; [lia|]. intros z _.
        rr. apply whole_parse_c; [lia|]. intros o k' Hk. destruct o; rr; apply HQ; lia. }
      destruct f as [f|]; [|rr; apply Hr; cbn; lia].
      rr. apply runs_now; [lia|]. intros x Hx. apply range_slice_l in Hx. rr. apply Hr. cbn [olen rl]. lia. }
    destruct f as [f|]; [|rr; exact H0].
    rr. apply runs_now; [lia|]. intros l Hl. unfold range_len, sub_usize in Hl.
    destruct (fst f <=? snd f)%nat; [|discriminate]. injection Hl as Hl.
    rr. destruct (Nat.ltb_spec (Z.to_nat (Z.abs e)) l) as [Hlt|_]; [|exact H0]. cbn [rl] in *.
    rr. apply runs_now; [lia|]. intros wd Hwd. apply opt_slice_l in Hwd.
    rr. apply runs_now; [lia|]. intros ad Had. apply slice_ok in Had. destruct Had as (_ & _ & Had).
    rr. apply whole_parse_c; cbn [olen]; [lia|]. intros o k' Hk. destruct o; [|rr; apply HQ; lia].
    rr. apply runs_now; [lia|]. intros fd Hfd. apply slice_ok in Hfd. destruct Hfd as (Hb & _ & Hfd).
    rr. apply fract_parse_c; cbn [olen]; [lia|]. intros; rr; apply HQ; lia.
Qed.
Definition rlen (r : repr) : nat := rl (r_whole r) + rl (r_fract r).
Lemma repr_parse_c r k E (Q : duration -> nat -> Prop) : k + rlen r <= E ->
  (forall d k', k' <= k + rlen r -> Q d k') -> runs k (repr_parse_t r) E Q.
Proof.
  intros HE HQ. unfold repr_parse_t. cbv zeta. destruct (r_is_infinite r); [rr; apply HQ; lia|].
  assert (H : runs k (let^ m := now (mul_mul (unit_multiplier match r_unit r with Some u => u | None => r_default_unit r end)
                       (r_multiplier r)) in
    if (coef m =? 0)%Z then now (Ok ZERO)
    else
     let^ exponent := now (arith is_i32 (expo m + r_exponent r)%Z) in
     let^ o := split_number_t (r_input r) exponent (r_whole r) (r_fract r) in
     now (finish_number (xorb (neg_or_default (r_is_negative r)) (coef m <? 0)%Z) (coef m) o)) E Q).
  { rr. apply runs_now; [lia|]. intros m _. destruct (_ =? _)%Z; [rr; apply HQ; lia|].
    rr. apply runs_now; [lia|]. intros e _. rr. unfold rlen in *.
    apply split_number_c; [lia|]. intros o k' Hk. apply runs_now; [lia|]. intros; apply HQ; lia. }
  destruct (r_whole r) eqn:Ew; [rewrite <- Ew in *; exact H|].
  destruct (r_fract r) eqn:Ef; [rewrite <- Ew, <- Ef in *; exact H|]. clear H.
  destruct (r_numeral r).
  - rr. apply runs_now; [lia|]. intros ? _. rr. apply runs_now; [lia|]. intros ? _. rr. apply runs_now; [lia|]. intros ? _.
    apply runs_now; [lia|]. intros; apply HQ; lia.
  - destruct (r_unit r); [|rr; lia]. rr. apply runs_now; [lia|]. intros ? _.
    apply runs_now; [lia|]. intros; apply HQ; lia.
Qed.
