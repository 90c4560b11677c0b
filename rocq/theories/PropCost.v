(** * Property C79: parsing takes time linear in the length of the input

    What a step is, is said in Cost.v: an iteration of a loop, a byte read, compared, validated or copied by an operation
    of the standard library, a byte of an identifier looked up in a table. *)
From Verif Require Import Prelude Util Time Config Bytes Repr Parse Standard Custom Systemd DateTime Gnu
  Cost CostErase CostSingle CostMulti CostExt CostExtProofs CostQuad CostWorst ExEnv.
Open Scope nat_scope.

(** ** Specification *)
(** the bytes at which a time unit ends in the mode for multiple durations: a delimiter between durations, or the first
    byte of the next duration *)
Definition ends_duration (c : config) (x : byte) : Prop :=
  c_outer_delimiter c x = true \/ (48 <= x <= 57)%Z \/ x = 43%Z \/ x = 45%Z.
(** the two kinds of delimiters fit together, as far as "ago" is allowed: the inner ones are outer ones, or none of them
    ends a duration *)
Definition fitting_delimiters (c : config) : Prop :=
  c_allow_ago c = true ->
  (forall x, c_inner_delimiter c x = true -> c_outer_delimiter c x = true) \/
  (forall x, c_inner_delimiter c x = true -> ~ ends_duration c x).
(** the total length of the conjunctions *)
Fixpoint total (l : list str) : nat := match l with [] => 0 | w :: l => 1 + 2 * length w + total l end.
Definition conjunction_length (c : config) : nat := match c_conjunctions c with Some l => total l | None => 0 end.
(** the bound: a constant which depends on nothing but the conjunctions, times the length of the text *)
Definition linear (c : config) (s : str) : nat := (124 + 4 * conjunction_length c) * (length s + 1).

(** ** Helpers *)
Lemma conj_total c : conj_cost c = conjunction_length c.
Proof.
  unfold conj_cost, conjunction_length, conjunctions_or_default. destruct (c_conjunctions c) as [l|]; [|reflexivity].
  induction l as [|w l IH]; [reflexivity|]. cbn [fold_right total]. rewrite IH. reflexivity.
Qed.
Lemma rate_linear c s : rate c * (length s + 1) = linear c s.
Proof. unfold rate, linear. rewrite conj_total. reflexivity. Qed.
Lemma stop_ends c x : stop c x = true -> ends_duration c x.
Proof. unfold stop, ends_duration, is_next_duration, is_digit, inb. rewrite !orb_true_iff, !Z.eqb_eq. lia. Qed.
Lemma fitting_ago c : fitting_delimiters c -> ago_ok c.
Proof.
  intros H Ha. destruct (H Ha) as [H1|H1]; [left; exact H1|right]. intros x Hx. specialize (H1 x Hx).
  destruct (stop c x) eqn:E; [|reflexivity]. elim H1. now apply stop_ends.
Qed.
Lemma same_fitting c : c_inner_delimiter c = c_outer_delimiter c -> fitting_delimiters c.
Proof. intros E _. left. intros x. now rewrite E. Qed.

(** ** C79 *)
(** counting the steps does not change the results: these are the functions of the model *)
Theorem C79_same_result c s u kw nu : snd (parse_t c s u kw nu) = parse c s u kw nu.
Proof. apply parse_t_result. Qed.
Theorem C79_same_result_standard p s : snd (dp_parse_t p s) = dp_parse p s.
Proof. apply dp_parse_t_result. Qed.
Theorem C79_same_result_custom p s : snd (cp_parse_t p s) = cp_parse p s.
Proof. apply cp_parse_t_result. Qed.
Theorem C79_same_result_systemd p s m :
  snd (sd_parse_with_max_t p s m) = sd_parse_with_max p s m /\ snd (sd_parse_nanos_with_max_t p s m) = sd_parse_nanos_with_max p s m.
Proof. split; [apply sd_parse_t_result|apply sd_parse_nanos_t_result]. Qed.
Theorem C79_same_result_gnu p clock s date : snd (gnu_parse_with_date_t p clock s date) = gnu_parse_with_date p clock s date.
Proof. apply gnu_parse_t_result. Qed.

(** one duration: whatever the configuration, the tables and the bytes of the input *)
Theorem C79_single c s u kw nu : c_allow_multiple c = false -> fst (parse_t c s u kw nu) <= 16 * length s + 50.
Proof. intros E. unfold parse_t. rewrite E. apply parse_single_c. Qed.
(** one or many durations *)
Theorem C79_linear c s u kw nu : fitting_delimiters c -> fst (parse_t c s u kw nu) <= linear c s.
Proof. intros H. rewrite <- rate_linear. apply parse_c, fitting_ago, H. Qed.
Theorem C79_standard p s : fitting_delimiters (dp_config p) -> fst (dp_parse_t p s) <= linear (dp_config p) s.
Proof. apply C79_linear. Qed.
Theorem C79_custom p s : fitting_delimiters (cp_config p) -> fst (cp_parse_t p s) <= linear (cp_config p) s.
Proof. apply C79_linear. Qed.

(** the systemd parser, with any default unit, and the gnu parser *)
Theorem C79_systemd u s m :
  fst (sd_parse_with_max_t (sd_with_default_unit u) s m) <= 124 * length s + 134 /\
  fst (sd_parse_nanos_with_max_t (sd_with_default_unit u) s m) <= 124 * length s + 134.
Proof.
  assert (H : ago_ok (sd_with_default_unit u)) by (apply fitting_ago, same_fitting; reflexivity).
  assert (E : rate (sd_with_default_unit u) = 124) by reflexivity.
  pose proof (sd_parse_c _ s m H) as H1. pose proof (sd_parse_nanos_c _ s m H) as H2. rewrite E in *. lia.
Qed.
Theorem C79_gnu clock s date : fst (gnu_parse_with_date_t gnu_new clock s date) <= 124 * length s + 134.
Proof.
  assert (H : ago_ok gnu_new) by (apply fitting_ago, same_fitting; reflexivity).
  assert (E : rate gnu_new = 124) by reflexivity.
  pose proof (gnu_parse_c gnu_new clock s date H) as H1. rewrite E in *. lia.
Qed.

(** whatever the delimiters, the tables and the bytes of the input, the time is at most quadratic *)
Theorem C79_quadratic c s u kw nu :
  fst (parse_t c s u kw nu) <= (21 * length s + 61 + 4 * conjunction_length c) * (length s + 1).
Proof.
  unfold parse_t. destruct (c_allow_multiple c).
  - rewrite <- conj_total. apply parse_multiple_w.
  - pose proof (parse_single_c s c u kw nu) as H. nia.
Qed.

(** without fitting delimiters there is no linear bound: a fixed parser and, for every factor, a text which takes more *)
Theorem C79_delimiters_needed : exists c u kw, ~ fitting_delimiters c /\
  forall factor, exists s, fst (parse_t c s u kw None) > factor * (length s + 1).
Proof.
  exists odd_config, odd_units, (Some odd_keywords). split.
  - intros H. destruct (H eq_refl) as [H1|H1].
    + specialize (H1 97%Z eq_refl). discriminate.
    + apply (H1 44%Z eq_refl). left. reflexivity.
  - intros k. exists (odd_rest (2 * k + 4)). pose proof (odd_quadratic (2 * k + 4)) as H.
    assert (E : length (odd_rest (2 * k + 4)) = 2 * (2 * k + 4) + 2) by apply odd_len. rewrite E. nia.
Qed.

(** ** Examples *)
(** the hypothesis holds for the parsers of the examples, which allow "ago" and conjunctions *)
Example C79_fitting : c_allow_ago ex_multi = true /\ fitting_delimiters ex_multi /\ linear ex_multi [] = 152.
Proof. split; [reflexivity|]. split; [apply same_fitting; reflexivity|reflexivity]. Qed.
(** inner delimiters which are no outer ones: the second case of the hypothesis *)
Example C79_fitting_disjoint : fitting_delimiters (set_inner_delimiter (set_outer_delimiter ex_multi (fun x => (x =? 44)%Z)) (fun x => (x =? 32)%Z)).
Proof. intros _. right. intros x H [K|K]; cbn in H, K; lia. Qed.
Example C79_counted : fst (parse_t ex_multi (%"1 min and 1.5e2 s ago") ex_units (Some ex_keywords) (Some ex_numerals)) = 44 /\
  linear ex_multi (%"1 min and 1.5e2 s ago") = 3344.
Proof. vm_compute. split; reflexivity. Qed.
Example C79_odd_text : odd_rest 3 = %"a,a,a,ax" /\ odd_inner 97 = true /\ odd_inner 44 = true /\ odd_outer 44 = true /\ odd_outer 97 = false.
Proof. repeat split; reflexivity. Qed.

Print Assumptions C79_same_result.
Print Assumptions C79_same_result_standard.
Print Assumptions C79_same_result_custom.
Print Assumptions C79_same_result_systemd.
Print Assumptions C79_same_result_gnu.
Print Assumptions C79_single.
Print Assumptions C79_linear.
Print Assumptions C79_standard.
Print Assumptions C79_custom.
Print Assumptions C79_systemd.
Print Assumptions C79_gnu.
Print Assumptions C79_quadratic.
Print Assumptions C79_delimiters_needed.
