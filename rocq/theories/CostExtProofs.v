(** * The timed public functions: their results and the number of their steps *)
From Verif Require Import Prelude Util Time Config Bytes Repr Parse Standard Custom Systemd DateTime Gnu
  ReprProofs Cost CostErase CostProofs CostScan CostSingle CostMulti CostExt.
Open Scope nat_scope.

Lemma trim_start_er l : snd (trim_start_t l) = Ok (trim_start l).
Proof. induction l as [|x l IH]; [reflexivity|]. cbn. destruct (_ || _)%bool; [exact IH|reflexivity]. Qed.
Lemma trim_er l : snd (trim_t l) = str_unchecked (trim_end (trim_start l)).
Proof.
  unfold trim_t. apply (er_pure _ _ (trim_start l)); [apply trim_start_er|].
  apply (er_pure _ _ (trim_start (rev (trim_start l)))); [apply trim_start_er|]. reflexivity.
Qed.
Lemma map_er {A B} (f : A -> B) m r : snd m = r -> snd (map_t f m) = map_res f r.
Proof. intros <-. reflexivity. Qed.
Theorem dp_parse_t_result p s : snd (dp_parse_t p s) = dp_parse p s.
Proof. apply parse_t_result. Qed.
Theorem cp_parse_t_result p s : snd (cp_parse_t p s) = cp_parse p s.
Proof. apply parse_t_result. Qed.
Theorem sd_parse_t_result p s m : snd (sd_parse_with_max_t p s m) = sd_parse_with_max p s m.
Proof.
  unfold sd_parse_with_max_t, sd_parse_with_max. apply er_bind; [reflexivity|intros _]. apply er_bind; [apply trim_er|intros t].
  apply er_steps. destruct (sd_parse_infinity t m); [reflexivity|]. apply map_er, parse_t_result.
Qed.
Theorem sd_parse_nanos_t_result p s m : snd (sd_parse_nanos_with_max_t p s m) = sd_parse_nanos_with_max p s m.
Proof.
  unfold sd_parse_nanos_with_max_t, sd_parse_nanos_with_max. apply er_bind; [reflexivity|intros _]. apply er_bind; [apply trim_er|intros t].
  apply er_steps. destruct (sd_parse_infinity t m); [reflexivity|]. apply map_er, parse_t_result.
Qed.
Lemma gnu_calculate_er n w f f' c : snd f = f' -> snd (gnu_calculate_t n w f c) = gnu_calculate n w f' c.
Proof. intros H. unfold gnu_calculate_t, gnu_calculate. destruct w; [|reflexivity]. apply er_bind; auto. Qed.
Lemma gnu_repr_er r : snd (gnu_repr_parse_t r) = gnu_repr_parse r.
Proof.
  unfold gnu_repr_parse_t, gnu_repr_parse.
  repeat (cbn beta iota zeta; first [er1 | apply whole_parse_er | apply fract_parse_er | apply gnu_calculate_er]).
Qed.
Lemma gnu_value_er r : snd (gnu_fuzzy_value_t r) = gnu_fuzzy_value r.
Proof.
  unfold gnu_fuzzy_value_t, gnu_fuzzy_value.
  repeat (cbn beta iota zeta; first [er1 | apply whole_parse_er]).
Qed.
Lemma gnu_repr_fuzzy_er r : snd (gnu_repr_parse_fuzzy_t r) = gnu_repr_parse_fuzzy r.
Proof.
  unfold gnu_repr_parse_fuzzy_t, gnu_repr_parse_fuzzy.
  repeat (cbn beta iota zeta; first [er1 | apply gnu_value_er | apply gnu_repr_er]).
Qed.
Lemma gnu_loop_er p fuel : forall y m d b, snd (gnu_fuzzy_loop_t fuel p y m d b) = gnu_fuzzy_loop fuel p y m d b.
Proof.
  induction fuel as [|f IH]; intros; cbn [gnu_fuzzy_loop_t gnu_fuzzy_loop]; [reflexivity|].
  repeat (cbn beta iota zeta; first [er1 | apply gnu_repr_fuzzy_er | apply IH | apply template_er, multi_same]).
Qed.
Lemma gnu_fuzzy_t_result p s : snd (gnu_parse_fuzzy_t p s) = gnu_parse_fuzzy p s.
Proof. unfold gnu_parse_fuzzy_t, gnu_parse_fuzzy. apply er_bind; [apply trim_er|]. intros; apply gnu_loop_er. Qed.
Theorem gnu_parse_t_result p clock s date : snd (gnu_parse_with_date_t p clock s date) = gnu_parse_with_date p clock s date.
Proof.
  unfold gnu_parse_with_date_t, gnu_parse_with_date. apply er_bind; [apply gnu_fuzzy_t_result|]. intros [[y m] d].
  repeat (cbn beta iota zeta; er1).
Qed.

(** ** Bounds *)
Lemma trim_start_c l : fst (trim_start_t l) + length (trim_start l) <= S (length l).
Proof. induction l as [|x l IH]; [cbn; lia|]. cbn. destruct (_ || _)%bool; cbn; lia. Qed.
Lemma trim_start_len l : length (trim_start l) <= length l.
Proof. induction l as [|x l IH]; [cbn; lia|]. cbn. destruct (_ || _)%bool; cbn; lia. Qed.
Lemma trim_c s k E (Q : str -> nat -> Prop) : k + length s + 2 <= E ->
  (forall t k', length t <= length s -> k' <= k + (length s - length t) + 2 -> Q t k') -> runs k (trim_t s) E Q.
Proof.
  intros HE HQ. unfold trim_t. rr. unfold runs at 1. rewrite trim_start_er.
  rr. unfold runs at 1. rewrite trim_start_er. pose proof (trim_start_c s) as H1. pose proof (trim_start_len s) as H1'.
  pose proof (trim_start_c (rev (trim_start s))) as H2. pose proof (trim_start_len (rev (trim_start s))) as H2'.
  rewrite rev_length in H2, H2'. apply runs_now; [lia|]. intros t Ht. apply unchecked_ok in Ht. subst t.
  apply HQ; rewrite rev_length; lia.
Qed.
Definition ago_ok (c : config) : Prop := c_allow_ago c = true ->
  (forall x, c_inner_delimiter c x = true -> c_outer_delimiter c x = true) \/
  (forall x, c_inner_delimiter c x = true -> stop c x = false).
Definition rate (c : config) : nat := 124 + 4 * conj_cost c.
Theorem parse_c c s u kw nu : ago_ok c -> fst (parse_t c s u kw nu) <= rate c * (length s + 1).
Proof.
  intros H. unfold parse_t, rate. destruct (c_allow_multiple c).
  - apply parse_multiple_c. exact H.
  - etransitivity; [apply parse_single_c|]. rewrite Nat.mul_add_distr_r. lia.
Qed.
Lemma map_t_c {A B} (f : A -> B) m k E (Q : B -> nat -> Prop) :
  runs k m E (fun a k' => Q (f a) k') -> runs k (map_t f m) E Q.
Proof. unfold runs, map_t. cbn. destruct (snd m); cbn; auto. Qed.
Lemma parse_runs c s u kw nu k E (Q : duration -> nat -> Prop) : ago_ok c -> k + rate c * (length s + 1) <= E ->
  (forall d k', k' <= k + rate c * (length s + 1) -> Q d k') -> runs k (parse_t c s u kw nu) E Q.
Proof.
  intros H HE HQ. pose proof (parse_c c s u kw nu H) as Hc. unfold runs.
  destruct (snd (parse_t c s u kw nu)); [apply HQ| |]; lia.
Qed.
Lemma runs_fst {A} (m : timed A) E (Q : A -> nat -> Prop) : runs 0 m E Q -> (forall a k, Q a k -> k <= E) -> fst m <= E.
Proof. unfold runs. intros H HQ. destruct (snd m); [apply (HQ a)|..]; auto. Qed.
Lemma sd_step c (s : str) : 1 <= rate c -> forall (t : str) k, length t <= length s -> k <= 0 + (length s - length t) + 2 ->
  k + 8 + rate c * (length t + 1) <= rate c * (length s + 1) + 10.
Proof.
  intros H1 t k Ht Hk.
  assert (H : rate c * (length t + 1) + (length s - length t) <= rate c * (length s + 1)); [|lia].
  replace (length s + 1) with ((length t + 1) + (length s - length t)) at 2 by lia. rewrite Nat.mul_add_distr_l. nia.
Qed.
Lemma sd_parse_c p s m : ago_ok p -> fst (sd_parse_with_max_t p s m) <= rate p * (length s + 1) + 10.
Proof.
  intros H. assert (H1 : 1 <= rate p) by (unfold rate; lia). pose proof (sd_step p s H1) as Hs.
  apply (runs_fst _ _ (fun _ k => k <= rate p * (length s + 1) + 10)); [|auto].
  unfold sd_parse_with_max_t. rr. apply runs_now; [lia|]. intros ? _. rr. apply trim_c; [nia|].
  intros t k Ht Hk. specialize (Hs t k Ht Hk). rr. destruct (sd_parse_infinity t m); [rr; lia|].
  apply map_t_c. apply parse_runs; [auto|lia|]. intros; lia.
Qed.
Lemma sd_parse_nanos_c p s m : ago_ok p -> fst (sd_parse_nanos_with_max_t p s m) <= rate p * (length s + 1) + 10.
Proof.
  intros H. assert (H1 : 1 <= rate p) by (unfold rate; lia). pose proof (sd_step p s H1) as Hs.
  apply (runs_fst _ _ (fun _ k => k <= rate p * (length s + 1) + 10)); [|auto].
  unfold sd_parse_nanos_with_max_t. rr. apply runs_now; [lia|]. intros ? _. rr. apply trim_c; [nia|].
  intros t k Ht Hk. specialize (Hs t k Ht Hk). rr. destruct (sd_parse_infinity t m); [rr; lia|].
  apply map_t_c. apply parse_runs; [auto|lia|]. intros; lia.
Qed.

Lemma gnu_calculate_c ng w f c k E (Q : duration -> nat -> Prop) : k <= E ->
  (forall z, runs k f E (fun a k' => runs k' (now (calculate_duration ng z a c)) E Q)) -> (forall d, Q d k) ->
  runs k (gnu_calculate_t ng w f c) E Q.
Proof. intros HE H HQ. unfold gnu_calculate_t. destruct w; [|rr; auto]. rr. apply H. Qed.
Lemma gnu_repr_c r k E (Q : duration -> nat -> Prop) : k + rlen r <= E ->
  (forall d k', k' <= k + rlen r -> Q d k') -> runs k (gnu_repr_parse_t r) E Q.
Proof.
  intros HE HQ. unfold gnu_repr_parse_t, rlen in *. cbv zeta. destruct (r_whole r) as [w|]; destruct (r_fract r) as [f|]; cbn [rl] in *.
  - destruct (time_unit_eqb _ _); [|rr; lia]. destruct (range_is_empty f); [rr; lia|].
    rr. apply runs_now; [lia|]. intros m _. rr. apply runs_now; [lia|]. intros x Hx. apply range_slice_l in Hx.
    rr. apply whole_parse_c; cbn [olen]; [lia|]. intros o k' Hk. apply gnu_calculate_c; [lia| |].
    + intros z. rr. apply runs_now; [lia|]. intros y Hy. apply range_slice_l in Hy.
      apply fract_parse_c; cbn [olen]; [lia|]. intros a k2 Hk2. apply runs_now; [lia|]. intros; apply HQ; lia.
    + intros; apply HQ; lia.
  - rr. apply runs_now; [lia|]. intros m _. rr. apply runs_now; [lia|]. intros x Hx. apply range_slice_l in Hx.
    rr. apply whole_parse_c; cbn [olen]; [lia|]. intros o k' Hk. apply gnu_calculate_c; [lia| |].
    + intros z. rr. apply runs_now; [lia|]. intros; apply HQ; lia.
    + intros; apply HQ; lia.
  - destruct (time_unit_eqb _ _); rr; lia.
  - destruct (r_numeral r).
    + rr. apply runs_now; [lia|]. intros ? _. rr. apply runs_now; [lia|]. intros ? _. apply runs_now; [lia|]. intros; apply HQ; lia.
    + destruct (r_unit r); [|rr; lia]. rr. apply runs_now; [lia|]. intros ? _. apply runs_now; [lia|]. intros; apply HQ; lia.
Qed.
Lemma gnu_value_c r k E (Q : Z -> nat -> Prop) : k + rlen r <= E ->
  (forall d k', k' <= k + rlen r -> Q d k') -> runs k (gnu_fuzzy_value_t r) E Q.
Proof.
  intros HE HQ. unfold gnu_fuzzy_value_t, rlen in *. cbv zeta. destruct (r_whole r) as [w|]; cbn [rl] in *.
  - rr. apply runs_now; [lia|]. intros x Hx. apply range_slice_l in Hx.
    rr. apply whole_parse_c; cbn [olen]; [lia|]. intros o k' Hk. destruct (obind o _) as [v|].
    + destruct (xorb _ _); [apply runs_now; [lia|]; intros|rr]; apply HQ; lia.
    + rr. apply HQ. lia.
  - destruct (r_numeral r); [|rr; apply HQ; lia]. rr. apply runs_now; [lia|]. intros ? _. rr. apply HQ. lia.
Qed.
Lemma gnu_repr_fuzzy_c r k E (Q : fuzzy_output -> nat -> Prop) : k + rlen r <= E ->
  (forall d k', k' <= k + rlen r -> Q d k') -> runs k (gnu_repr_parse_fuzzy_t r) E Q.
Proof.
  intros HE HQ. unfold gnu_repr_parse_fuzzy_t.
  assert (H1 : runs k (let^ d := gnu_repr_parse_t r in now (Ok (FDuration d))) E Q).
  { rr. apply gnu_repr_c; [lia|]. intros d k' Hk. rr. apply HQ. lia. }
  destruct (r_unit r) as [u|]; [|exact H1]. destruct u; try exact H1.
  - destruct (r_fract r); [rr; lia|]. rr. apply gnu_value_c; [lia|]. intros d k' Hk. rr. apply HQ. lia.
  - destruct (r_fract r); [rr; lia|]. rr. apply gnu_value_c; [lia|]. intros d k' Hk. rr. apply HQ. lia.
Qed.
Lemma gnu_loop_c t p fuel : ago_ok p -> forall y m d b k E, Inv t p b -> left_ok t p k b E ->
  runs k (gnu_fuzzy_loop_t fuel p y m d b) E (fun _ k' => k' <= E).
Proof.
  intros Hago. induction fuel as [|f IH]; intros y m d b k E Hb HE; pose proof (left_le t p Hago _ _ _ HE) as Hle.
  { cbn [gnu_fuzzy_loop_t]. rr. lia. }
  cbn [gnu_fuzzy_loop_t]. rr. rr. apply (template_c t p Hago); [auto|apply (left_template t p Hago); auto|].
  intros [r mb] k1 Hout. pose proof (left_repr t p Hago _ _ _ _ _ _ Hb HE Hout) as Hr.
  rr. apply gnu_repr_fuzzy_c; [lia|]. intros out k2 Hk2.
  assert (Hrest : forall y' m' d', runs k2 match mb with
      | Some b0 => gnu_fuzzy_loop_t f p y' m' d' b0
      | None => now (Ok (y', m', d'))
      end E (fun _ k' => k' <= E)).
  { intros y' m' d'. destruct mb as [b'|]; [|rr; lia]. destruct (left_next t p Hago _ _ _ _ _ _ _ Hb HE Hout Hk2). apply IH; auto. }
  rr. destruct out as [pd|v|v]; [|rr; apply Hrest|rr; apply Hrest].
  destruct (is_zero d); [rr; apply Hrest|]. destruct (is_zero pd); [rr; apply Hrest|].
  rr. apply runs_now; [lia|]. intros d' _. rr. apply Hrest.
Qed.
Lemma runs_more {A} k (m : timed A) E : runs 0 m E (fun _ k' => k' <= E) -> runs k m (k + E) (fun _ k' => k' <= k + E).
Proof. unfold runs. destruct (snd m); lia. Qed.
Lemma gnu_fuzzy_runs p s : ago_ok p -> runs 0 (gnu_parse_fuzzy_t p s) (rate p * (length s + 1) + 10) (fun _ k => k <= rate p * (length s + 1) + 10).
Proof.
  intros H. assert (H1 : 1 <= rate p) by (unfold rate; lia). pose proof (sd_step p s H1) as Hs.
  unfold gnu_parse_fuzzy_t. rr. apply trim_c; [nia|]. intros t k Ht Hk. specialize (Hs t k Ht Hk).
  destruct (left_init t p H _ (le_n _)) as [Hi Hl].
  pose proof (gnu_loop_c t p (S (length t)) H 0%Z 0%Z ZERO (bytes_new t) 0 _ Hi Hl) as Hr.
  apply (runs_more k) in Hr. unfold rate in *. eapply runs_mono; [exact Hr|lia|]. cbn beta. intros; lia.
Qed.
Theorem gnu_parse_c p clock s date : ago_ok p ->
  fst (gnu_parse_with_date_t p clock s date) <= rate p * (length s + 1) + 10.
Proof.
  intros H. apply (runs_fst _ _ (fun _ k => k <= rate p * (length s + 1) + 10)); [|auto].
  unfold gnu_parse_with_date_t. rr. eapply runs_mono; [apply (gnu_fuzzy_runs p s H)|lia|].
  intros [[y m] d] k Hk. cbn beta iota. destruct (_ && _)%bool; [rr; lia|]. rr.
  assert (Hrest : forall orig, runs k (let^ o := now (checked_add_duration orig d) in
    match o with
    | None => now (Err Overflow)
    | Some date =>
        let^ o := now (checked_add_gregorian date y m 0) in
        match o with
        | None => now (Err Overflow)
        | Some date =>
            let^ o := now (duration_since date orig) in
            match o with Some d => now (Ok d) | None => now (Err Overflow) end
        end
    end) (rate p * (length s + 1) + 10) (fun _ k => k <= rate p * (length s + 1) + 10)).
  { intros orig. rr. apply runs_now; [lia|]. intros [d1|] _; [|rr; lia]. rr. apply runs_now; [lia|]. intros [d2|] _; [|rr; lia].
    rr. apply runs_now; [lia|]. intros [d3|] _; rr; lia. }
  destruct date; [rr; apply Hrest|]. apply runs_now; [lia|]. intros; apply Hrest.
Qed.
