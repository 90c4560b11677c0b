(** * Property C66: systemd time spans one after the other add up, in every order *)
From Coq Require Import Permutation.
From Verif Require Import Prelude Util Time Config Bytes Repr Parse SpecTime SpecNum SpecValue SpecParse SpecGrammar SpecSpelling SpecSystemd
  TimeProofs NumProofs Utf8Proofs SafeProofs StandardProofs RefGrammar PropParse PropModes PropOrder Systemd SystemdProofs PropSystemd ExEnv.

(** the parts one after the other, with white space between them *)
Inductive spaced : list str -> str -> Prop :=
| sp_one p : spaced [p] p
| sp_more p ws ps t : ws <> [] -> white_space ws -> spaced ps t -> spaced (p :: ps) (p ++ ws ++ t).

(** the part starts with a digit or a sign, and there is no white space around it *)
Definition own_part (p : str) : Prop :=
  trimmed p /\ exists x r, p = x :: r /\ (48 <= x <= 57 \/ x = 43 \/ x = 45).

Lemma own_starts p : own_part p -> starts_with starts_duration p.
Proof.
  intros (_ & x & r & -> & H). cbn [starts_with]. unfold starts_duration, is_digit, is_sign.
  destruct H as [H|[->| ->]]; [|reflexivity|reflexivity]. replace (48 <=? x) with true by lia. replace (x <=? 57) with true by lia. reflexivity.
Qed.
Lemma own_not_infinity p : own_part p -> p <> %"infinity".
Proof. intros (_ & x & r & -> & H) E. injection E as -> _. lia. Qed.

Lemma sd_delim_white u x : white x -> c_inner_delimiter (sd_with_default_unit u) x = true /\ c_outer_delimiter (sd_with_default_unit u) x = true.
Proof.
  intros H. cbn. unfold sd_delimiter, is_u8, inb, wrap_u8. destruct H as [->|H]; [split; reflexivity|].
  rewrite Z.mod_small by lia. split; lia.
Qed.
Lemma spaced_joined u ps s : spaced ps s -> joined (sd_with_default_unit u) ps s.
Proof. induction 1; [apply j_one|apply j_more; auto]. intros x Hx. now apply sd_delim_white, H0. Qed.
Lemma sd_plain u : plain_delimiters (sd_with_default_unit u).
Proof.
  split; [|intros w []]. intros x. unfold plain_byte, is_letter, is_digit, is_sign, is_dot. cbn. unfold sd_delimiter, is_u8, inb, wrap_u8. intros H.
  destruct (x =? 32) eqn:E; [exfalso; apply Z.eqb_eq in E; subst; discriminate H|]. cbn [orb].
  destruct ((0 <=? x) && (x <=? 255)) eqn:R; [|split; reflexivity]. cbn [andb].
  assert (9 <= x) by lia. rewrite Z.mod_small by lia. split; lia.
Qed.
Lemma spaced_trimmed ps s : spaced ps s -> (forall p, In p ps -> own_part p) -> own_part s.
Proof.
  induction 1 as [p|p ws ps t N W S IH]; intros H; [apply H; now left|].
  destruct (H p (or_introl eq_refl)) as ([A _] & x & r & -> & Hx).
  assert (Ot : own_part t) by (apply IH; intros q Hq; apply H; now right). destruct Ot as ([_ B] & y & r' & -> & _).
  split; [|exists x, (r ++ ws ++ y :: r'); auto]. split.
  - intros z q E. apply (A z r). injection E as -> _. reflexivity.
  - intros z q E. rewrite app_assoc in E.
    assert (G : exists q0, y :: r' = q0 ++ [z]).
    { destruct (exists_last (l := y :: r') ltac:(discriminate)) as (q0 & w & E0). rewrite E0 in E |- *. rewrite app_assoc in E. apply app_inj_tail in E.
      destruct E as [_ ->]. now exists q0. }
    destruct G as (q0 & G). exact (B z q0 G).
Qed.
Lemma spaced_utf8 ps s : spaced ps s -> (forall p, In p ps -> utf8 p = true) -> utf8 s = true.
Proof.
  induction 1 as [p|p ws ps t N W S IH]; intros H; [apply H; now left|]. rewrite utf8_app by (apply H; now left).
  rewrite white_utf8 by exact W. apply IH. intros q Hq. apply H. now right.
Qed.

Section Spans.
Context (u : time_unit) (tu : units_like).
Hypothesis Henv : env_ok (sd_with_default_unit u) tu None None.

Lemma common_own p max d : utf8 p = true -> own_part p -> duration_ok max -> is_negative max = false -> common u tu p max = Ok d ->
  exists d0, parse (sd_with_default_unit u) p tu None None = Ok d0 /\ duration_ok d0 /\ 0 <= nanos d0 /\ nanos d = Z.min (nanos max) (nanos d0).
Proof.
  intros U O Hm Hn. rewrite common_unfold by assumption. cbv zeta. destruct O as [T O].
  assert (E : trim_end (trim_start p) = p).
  { pose proof (trim_unique [] p []) as K. rewrite app_nil_r in K. apply K; auto; try (intros x []). exact (utf8_bytes p U). }
  rewrite E. destruct (str_eqb p (%"infinity")) eqn:Ei; [apply str_eqb_iff in Ei; destruct (own_not_infinity p (conj T O) Ei)|].
  destruct (parse _ p tu None None) as [D|e|x] eqn:P; cbn; try discriminate. intros [= <-].
  destruct (C20_never_crashes _ _ _ _ _ Henv U) as [(D' & P' & Hd)|(e & P')]; rewrite P in P'; [injection P' as <-|discriminate].
  exists D. split; [reflexivity|]. split; [exact Hd|]. split; [apply (C21_not_negative _ _ _ _ _ _ Henv U eq_refl P)|].
  destruct (dmin_spec D max Hd Hm) as [_ ->]. lia.
Qed.
Lemma own_common p max D : utf8 p = true -> own_part p -> duration_ok max -> is_negative max = false ->
  parse (sd_with_default_unit u) p tu None None = Ok D -> duration_ok D ->
  exists d, common u tu p max = Ok d /\ duration_ok d /\ nanos d = Z.min (nanos max) (nanos D).
Proof.
  intros U O Hm Hn P Hd. rewrite common_unfold by assumption. cbv zeta. destruct O as [T O].
  assert (E : trim_end (trim_start p) = p).
  { pose proof (trim_unique [] p []) as K. rewrite app_nil_r in K. apply K; auto; try (intros x []). exact (utf8_bytes p U). }
  rewrite E. destruct (str_eqb p (%"infinity")) eqn:Ei; [apply str_eqb_iff in Ei; destruct (own_not_infinity p (conj T O) Ei)|].
  rewrite P. cbn. destruct (dmin_spec D max Hd Hm) as [A B]. exists (dmin D max). split; [reflexivity|]. split; [exact A|]. rewrite B. lia.
Qed.

Lemma common_sum ps ds s max : duration_ok max -> is_negative max = false ->
  (forall p, In p ps -> utf8 p = true /\ own_part p) -> Forall2 (fun p d => common u tu p max = Ok d) ps ds -> spaced ps s ->
  exists D, common u tu s max = Ok D /\ duration_ok D /\ nanos D = Z.min (nanos max) (total ds).
Proof.
  intros Hm Hn H F S.
  assert (M : 0 <= nanos max <= max_nanos).
  { split; [unfold nanos, is_negative in *; rewrite Hn; destruct Hm; unfold is_u64, inb in *; lia|].
    apply (proj1 (representable_iff_between (nanos max))). exists max. auto. }
  assert (X : exists ds0, Forall2 (fun p d => parse (sd_with_default_unit u) p tu None None = Ok d) ps ds0 /\
    0 <= total ds /\ 0 <= total ds0 /\ Z.min (nanos max) (total ds) = Z.min (nanos max) (total ds0)).
  { clear S s. induction F as [|p d ps ds E F IH]; [exists []; split; [constructor|]; split; [cbn; lia|]; split; [cbn; lia|reflexivity]|].
    destruct IH as (ds0 & F0 & A & B & C); [intros q Hq; apply H; now right|]. destruct (H p (or_introl eq_refl)) as [U O].
    destruct (common_own p max d U O Hm Hn E) as (d0 & E0 & _ & P0 & V0). exists (d0 :: ds0). split; [now constructor|].
    cbn [total fold_right]. fold (total ds) (total ds0). lia. }
  destruct X as (ds0 & F0 & A & B & C).
  destruct (C65_sum_of_parts (sd_with_default_unit u) tu None None ps ds0 s Henv (sd_delims_ok u) (sd_plain u) eq_refl eq_refl) as (D0 & P0 & O0 & V0); auto.
  { intros p Hp. split; [apply H, Hp|]. apply own_starts, H, Hp. }
  { now apply spaced_joined. }
  destruct (own_common s max D0) as (D & E & O & V); auto.
  - apply (spaced_utf8 ps s S). intros p Hp. apply H, Hp.
  - apply (spaced_trimmed ps s S). intros p Hp. apply H, Hp.
  - exists D. split; [exact E|]. split; [exact O|]. rewrite V, V0. lia.
Qed.
End Spans.

Theorem C66_sum_of_spans : forall p u ps ds s max, made p u -> duration_ok max -> is_negative max = false ->
  (forall q, In q ps -> utf8 q = true /\ own_part q) -> spaced ps s ->
  (Forall2 (fun q d => sd_parse_with_max p q max = Ok d) ps ds ->
   exists D, sd_parse_with_max p s max = Ok D /\ duration_ok D /\ nanos D = Z.min (nanos max) (total ds)) /\
  (Forall2 (fun q d => sd_parse_nanos_with_max p q max = Ok d) ps ds ->
   exists D, sd_parse_nanos_with_max p s max = Ok D /\ duration_ok D /\ nanos D = Z.min (nanos max) (total ds)).
Proof.
  intros p u ps ds s max ->%made_is Hm Hn H S. split; intros F.
  - change (exists D, common u sd_TIME_UNITS s max = Ok D /\ duration_ok D /\ nanos D = Z.min (nanos max) (total ds)).
    apply (common_sum u sd_TIME_UNITS (sd_env_ok u) ps ds s max); auto.
  - change (exists D, common u sd_TIME_UNITS_WITH_NANOS s max = Ok D /\ duration_ok D /\ nanos D = Z.min (nanos max) (total ds)).
    apply (common_sum u sd_TIME_UNITS_WITH_NANOS (sd_env_nanos_ok u) ps ds s max); auto.
Qed.
Print Assumptions C66_sum_of_spans.

Theorem C66_order_of_spans : forall p u ps ps' s s' max, made p u -> duration_ok max -> is_negative max = false ->
  (forall q, In q ps -> utf8 q = true /\ own_part q /\ exists d, sd_parse_with_max p q max = Ok d) ->
  spaced ps s -> spaced ps' s' -> Permutation ps ps' ->
  exists D D', sd_parse_with_max p s max = Ok D /\ sd_parse_with_max p s' max = Ok D' /\ nanos D = nanos D'.
Proof.
  intros p u ps ps' s s' max Hp Hm Hn H S S' P.
  assert (X : exists ds, Forall2 (fun q d => sd_parse_with_max p q max = Ok d) ps ds).
  { clear -H. induction ps as [|q ps IH]; [exists []; constructor|]. destruct IH as (ds & F); [intros x Hx; apply H; now right|].
    destruct (H q (or_introl eq_refl)) as (_ & _ & d & E). exists (d :: ds). now constructor. }
  destruct X as (ds & F). destruct (Permutation_Forall2 P F) as (ds' & P' & F').
  destruct (C66_sum_of_spans p u ps ds s max Hp Hm Hn) as [A _]; auto; [intros q Hq; split; apply H, Hq|].
  destruct (C66_sum_of_spans p u ps' ds' s' max Hp Hm Hn) as [B _]; auto.
  { intros q Hq. apply (Permutation_in _ (Permutation_sym P)) in Hq. split; apply H, Hq. }
  destruct (A F) as (D & E1 & _ & V1). destruct (B F') as (D' & E2 & _ & V2).
  exists D, D'. split; [exact E1|]. split; [exact E2|]. rewrite V1, V2. now rewrite (total_perm ds ds' P').
Qed.
Print Assumptions C66_order_of_spans.
Example C66_example :
  (forall q, In q [%"2h30"; %"5 min 20s"; %"+1.5d"] -> utf8 q = true /\ own_part q /\ exists d, sd_parse_with_max sd_new q MAX = Ok d) /\
  spaced [%"2h30"; %"5 min 20s"; %"+1.5d"] (%"2h30 5 min 20s  +1.5d") /\
  spaced [%"+1.5d"; %"2h30"; %"5 min 20s"] (%"+1.5d 2h30  5 min 20s") /\
  Permutation [%"2h30"; %"5 min 20s"; %"+1.5d"] [%"+1.5d"; %"2h30"; %"5 min 20s"] /\
  sd_parse_with_max sd_new (%"2h30 5 min 20s  +1.5d") MAX = Ok (Dur false (Std 137150 0)) /\
  sd_parse_with_max sd_new (%"2h30 5 min 20s  +1.5d") (Dur false (Std 100000 0)) = Ok (Dur false (Std 100000 0)).
Proof.
  split; [|split; [|split; [|split; [|split; reflexivity]]]].
  - assert (K : forall q, In q [%"2h30"; %"5 min 20s"; %"+1.5d"] -> own_part q).
    { assert (G : forall p x q y q', p = x :: q -> p = q' ++ [y] -> (48 <= x <= 57 \/ x = 43 \/ x = 45) -> ~ white y -> own_part p).
      { intros p x q y q' -> E Hx Hy. split; [split|exists x, q; auto].
        - intros z r [= <- _]. unfold white. lia.
        - intros z r Er. rewrite Er in E. apply app_inj_tail in E. destruct E as [_ ->]. exact Hy. }
      intros q [<-|[<-|[<-|[]]]].
      - apply (G _ 50 (%"h30") 48 (%"2h3")); try reflexivity; unfold white; lia.
      - apply (G _ 53 (%" min 20s") 115 (%"5 min 20")); try reflexivity; unfold white; lia.
      - apply (G _ 43 (%"1.5d") 100 (%"+1.5")); try reflexivity; unfold white; lia. }
    intros q Hq. split; [|split; [now apply K|]]; destruct Hq as [<-|[<-|[<-|[]]]]; try reflexivity; eexists; reflexivity.
  - apply (sp_more (%"2h30") [32]); [discriminate|each; now left|]. apply (sp_more (%"5 min 20s") [32; 32]); [discriminate|each; now left|apply sp_one].
  - apply (sp_more (%"+1.5d") [32]); [discriminate|each; now left|]. apply (sp_more (%"2h30") [32; 32]); [discriminate|each; now left|apply sp_one].
  - apply Permutation_sym. apply (Permutation_app_comm [%"+1.5d"] [%"2h30"; %"5 min 20s"]).
Qed.
