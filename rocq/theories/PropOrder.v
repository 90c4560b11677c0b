(** * Property C65: the order of the durations in an input does not matter *)
From Coq Require Import Permutation.
From Verif Require Import Prelude Util Time Config Bytes Repr Parse SpecTime SpecNum SpecValue SpecParse SpecGrammar SpecSpelling
  TimeProofs NumProofs Utf8Proofs BytesProofs ReprProofs ValueProofs SafeProofs RefParse RefProofs RefSingle RefMulti RefGrammar SpellProofs SwitchProofs StandardProofs PropParse PropModes ExEnv.

(** the parts of an input one after the other, with one or more delimiters between them *)
Inductive joined (c : config) : list str -> str -> Prop :=
| j_one p : joined c [p] p
| j_more p dl ps t : dl <> [] -> (forall x, In x dl -> c_inner_delimiter c x = true /\ c_outer_delimiter c x = true) ->
    joined c ps t -> joined c (p :: ps) (p ++ dl ++ t).

Definition total (ds : list duration) : Z := fold_right (fun d a => nanos d + a) 0 ds.
Definition total_size (ds : list duration) : Z := fold_right (fun d a => Z.abs (nanos d) + a) 0 ds.

Lemma total_perm ds ds' : Permutation ds ds' -> total ds = total ds'.
Proof. induction 1; cbn in *; unfold total in *; lia. Qed.

Section Order.
Variables (c : config) (tu : units_like) (kw : option units_like) (nums : option numbers_like).
Hypothesis HE : env_ok c tu kw nums.
Hypothesis HD : delims_ok c kw nums.
Hypothesis PD : plain_delimiters c.
Hypothesis Hm : c_allow_multiple c = true.

Lemma starts_app p l t : starts_with p l -> starts_with p (l ++ t).
Proof. now destruct l. Qed.

Lemma joined_starts ps s : joined c ps s -> (forall p, In p ps -> starts_with starts_duration p) -> starts_with starts_duration s.
Proof. intros J H. destruct J as [p|p dl ps t]; [apply H; now left|]. apply starts_app, H. now left. Qed.

Lemma joined_utf8 ps s : joined c ps s -> (forall p, In p ps -> utf8 p = true) -> utf8 s = true.
Proof.
  induction 1 as [p|p dl ps t Nd Hd J IH]; intros H; [apply H; now left|].
  rewrite utf8_app by (apply H; now left). assert (Ut : utf8 t = true) by (apply IH; intros q Hq; apply H; now right).
  clear -Hd HE Ut. induction dl as [|x dl IH]; [exact Ut|]. cbn [app]. rewrite utf8_cons_ascii.
  - apply IH. intros y Hy. apply Hd. now right.
  - apply (env_inner _ _ _ _ HE). apply Hd. now left.
Qed.

Lemma joined_components ps s : joined c ps s -> (forall p, In p ps -> starts_with starts_duration p) ->
  forall dss, Forall2 (components c tu kw nums) ps dss -> components c tu kw nums s (List.concat dss).
Proof.
  induction 1 as [p|p dl ps t Nd Hd J IH]; intros Hs dss F; inversion F as [|q ds ps' dss' C F']; subst.
  - inversion F'; subst. cbn [List.concat]. now rewrite app_nil_r.
  - cbn [List.concat]. apply (components_ext c tu kw nums PD dl t Nd Hd); auto.
    + apply (joined_starts _ _ J). intros q Hq. apply Hs. now right.
    + apply IH; auto. intros q Hq. apply Hs. now right.
Qed.
End Order.

Lemma sat_sum_nonneg ds : (forall d, In d ds -> 0 <= nanos d) -> saturating_sum ds = Z.min max_nanos (total ds).
Proof.
  assert (M : 0 <= max_nanos) by (vm_compute; discriminate).
  assert (G : forall ds a, (forall d, In d ds -> 0 <= nanos d) -> 0 <= a -> a <= max_nanos ->
    fold_left (fun a d => clamp_nanos (a + nanos d)) ds a = Z.min max_nanos (a + total ds) /\ 0 <= total ds).
  { clear ds. induction ds as [|d ds IH]; intros a Hn H1 H2; cbn [fold_left total fold_right]; [lia|]. fold (total ds).
    assert (Hd : 0 <= nanos d) by (apply Hn; now left).
    destruct (IH (clamp_nanos (a + nanos d))) as [E1 E2]; [intros y Hy; apply Hn; now right|unfold clamp_nanos, clamp; lia|unfold clamp_nanos, clamp; lia|].
    rewrite E1. unfold clamp_nanos, clamp. lia. }
  intros H. unfold saturating_sum. destruct (G ds 0 H) as [E _]; [lia|exact M|]. rewrite E. reflexivity.
Qed.
Lemma sat_sum_small ds : total_size ds <= max_nanos -> saturating_sum ds = total ds.
Proof.
  assert (N : forall ds, 0 <= total_size ds) by (induction ds0 as [|d ds0 IH]; cbn; [lia|]; unfold total_size in IH; lia).
  assert (G : forall ds a, Z.abs a + total_size ds <= max_nanos -> fold_left (fun a d => clamp_nanos (a + nanos d)) ds a = a + total ds).
  { clear ds. induction ds as [|d ds IH]; intros a H; cbn [fold_left total fold_right]; [lia|]. fold (total ds).
    cbn [total_size fold_right] in H. fold (total_size ds) in H. specialize (N ds).
    replace (clamp_nanos (a + nanos d)) with (a + nanos d) by (unfold clamp_nanos, clamp; lia).
    rewrite IH by lia. lia. }
  intros H. unfold saturating_sum. rewrite G; [reflexivity|]. change (Z.abs 0) with 0. lia.
Qed.

(** what the parts denote when they are parsed alone *)
Lemma parts_components c tu kw nums ps : env_ok c tu kw nums -> delims_ok c kw nums -> c_allow_multiple c = true ->
  (forall p, In p ps -> utf8 p = true) -> forall ds, Forall2 (fun p d => parse c p tu kw nums = Ok d) ps ds ->
  exists dss, Forall2 (components c tu kw nums) ps dss /\ (forall d, In d (List.concat dss) -> sign_allowed c d) /\
    (c_allow_negative c = false -> Z.min max_nanos (total (List.concat dss)) = Z.min max_nanos (total ds) /\ (forall d, In d (List.concat dss) -> 0 <= nanos d)) .
Proof.
  intros HE HD Hm. assert (M : 0 <= max_nanos) by (vm_compute; discriminate).
  induction ps as [|p ps IH]; intros U ds F; inversion F as [|q d ps' ds' P F']; subst.
  - exists []. split; [constructor|]. split; [intros d []|]. intros _. split; [reflexivity|intros d []].
  - destruct (IH (fun q Hq => U q (or_intror Hq)) ds' F') as (dss & C & S & T).
    destruct (C23_multiple_sound c tu kw nums p d HE HD (U p (or_introl eq_refl)) Hm P) as (es & C1 & S1 & O1 & V1).
    exists (es :: dss). split; [now constructor|]. cbn [List.concat]. split; [intros x Hx; apply in_app_or in Hx; destruct Hx; auto|].
    intros Ha. destruct (T Ha) as [T1 T2].
    assert (N : forall x, In x es -> 0 <= nanos x).
    { intros x Hx. apply (not_negative_nanos x); [|destruct (S1 x Hx); [congruence|assumption]].
      apply (components_ok c tu kw nums HE HD Hm p es (U p (or_introl eq_refl)) C1 x Hx). }
    split; [|intros x Hx; apply in_app_or in Hx; destruct Hx; auto].
    rewrite (sat_sum_nonneg es N) in V1. cbn [total fold_right]. fold (total ds').
    assert (A : total (es ++ List.concat dss) = total es + total (List.concat dss)).
    { clear. induction es as [|e es IH]; cbn; [reflexivity|]. fold (total (es ++ List.concat dss)). rewrite IH. unfold total. lia. }
    assert (P1 : 0 <= total es) by (clear -N; induction es as [|e es IH]; cbn; [lia|]; fold (total es); assert (0 <= nanos e) by (apply N; now left); assert (0 <= total es) by (apply IH; intros x Hx; apply N; now right); lia).
    assert (P2 : 0 <= total (List.concat dss)) by (clear -T2; induction (List.concat dss) as [|e l IH]; cbn; [lia|]; fold (total l); assert (0 <= nanos e) by (apply T2; now left); assert (0 <= total l) by (apply IH; intros x Hx; apply T2; now right); lia).
    rewrite A. lia.
Qed.

(** no negative durations: however large the parts are, the input is accepted in every order, with the same value,
    the sum of the values of the parts or the maximum *)
Theorem C65_sum_of_parts : forall c tu kw nums ps ds s, env_ok c tu kw nums -> delims_ok c kw nums -> plain_delimiters c ->
  c_allow_multiple c = true -> c_allow_negative c = false ->
  (forall p, In p ps -> utf8 p = true /\ starts_with starts_duration p) ->
  Forall2 (fun p d => parse c p tu kw nums = Ok d) ps ds -> joined c ps s ->
  exists D, parse c s tu kw nums = Ok D /\ duration_ok D /\ nanos D = Z.min max_nanos (total ds).
Proof.
  intros c tu kw nums ps ds s HE HD PD Hm Ha H F J.
  destruct (parts_components c tu kw nums ps HE HD Hm (fun p Hp => proj1 (H p Hp)) ds F) as (dss & C & S & T).
  destruct (T Ha) as [T1 T2].
  pose proof (joined_components c tu kw nums PD ps s J (fun p Hp => proj2 (H p Hp)) dss C) as K.
  pose proof (joined_utf8 c tu kw nums HE ps s J (fun p Hp => proj1 (H p Hp))) as U.
  destruct (C23_multiple_complete c tu kw nums s (List.concat dss) HE HD U Hm K S) as (D & P & O & V).
  exists D. split; [exact P|]. split; [exact O|]. rewrite V, (sat_sum_nonneg _ T2). exact T1.
Qed.
Print Assumptions C65_sum_of_parts.

Theorem C65_order_of_parts : forall c tu kw nums ps ps' s s', env_ok c tu kw nums -> delims_ok c kw nums -> plain_delimiters c ->
  c_allow_multiple c = true -> c_allow_negative c = false ->
  (forall p, In p ps -> utf8 p = true /\ starts_with starts_duration p /\ exists d, parse c p tu kw nums = Ok d) ->
  joined c ps s -> joined c ps' s' -> Permutation ps ps' ->
  exists D D', parse c s tu kw nums = Ok D /\ parse c s' tu kw nums = Ok D' /\ nanos D = nanos D'.
Proof.
  intros c tu kw nums ps ps' s s' HE HD PD Hm Ha H J J' P.
  assert (X : forall qs, (forall p, In p qs -> exists d, parse c p tu kw nums = Ok d) -> exists ds, Forall2 (fun p d => parse c p tu kw nums = Ok d) qs ds).
  { clear. induction qs as [|p qs IH]; intros H; [exists []; constructor|]. destruct IH as (ds & F); [intros q Hq; apply H; now right|].
    destruct (H p (or_introl eq_refl)) as (d & E). exists (d :: ds). now constructor. }
  destruct (X ps) as (ds & F); [intros p Hp; apply H, Hp|].
  assert (Y : exists ds', Forall2 (fun p d => parse c p tu kw nums = Ok d) ps' ds' /\ Permutation ds ds').
  { destruct (Permutation_Forall2 P F) as (ds' & P' & F'). eauto. }
  destruct Y as (ds' & F' & P').
  destruct (C65_sum_of_parts c tu kw nums ps ds s HE HD PD Hm Ha) as (D & E1 & _ & V1); auto; [intros p Hp; split; apply H, Hp|].
  destruct (C65_sum_of_parts c tu kw nums ps' ds' s' HE HD PD Hm Ha) as (D' & E2 & _ & V2); auto.
  { intros p Hp. apply (Permutation_in _ (Permutation_sym P)) in Hp. split; apply H, Hp. }
  exists D, D'. split; [exact E1|]. split; [exact E2|]. rewrite V1, V2. now rewrite (total_perm ds ds' P').
Qed.
Print Assumptions C65_order_of_parts.

(** greater parts never give a smaller result *)
Theorem C65_greater_parts : forall c tu kw nums ps qs ds es s t, env_ok c tu kw nums -> delims_ok c kw nums -> plain_delimiters c ->
  c_allow_multiple c = true -> c_allow_negative c = false ->
  (forall p, In p (ps ++ qs) -> utf8 p = true /\ starts_with starts_duration p) ->
  Forall2 (fun p d => parse c p tu kw nums = Ok d) ps ds -> Forall2 (fun q e => parse c q tu kw nums = Ok e) qs es ->
  Forall2 (fun d e => nanos d <= nanos e) ds es -> joined c ps s -> joined c qs t ->
  exists D E, parse c s tu kw nums = Ok D /\ parse c t tu kw nums = Ok E /\ nanos D <= nanos E.
Proof.
  intros c tu kw nums ps qs ds es s t HE HD PD Hm Ha H F G L J K.
  destruct (C65_sum_of_parts c tu kw nums ps ds s HE HD PD Hm Ha) as (D & E1 & _ & V1); auto; [intros p Hp; apply H, in_or_app; now left|].
  destruct (C65_sum_of_parts c tu kw nums qs es t HE HD PD Hm Ha) as (E & E2 & _ & V2); auto; [intros p Hp; apply H, in_or_app; now right|].
  exists D, E. split; [exact E1|]. split; [exact E2|]. rewrite V1, V2.
  assert (T : total ds <= total es) by (clear -L; induction L as [|d e ds es H L IH]; cbn; [lia|]; unfold total in *; lia). lia.
Qed.
Print Assumptions C65_greater_parts.

(** with negative durations the same, if the sizes of all the durations together do not exceed the maximum *)
Theorem C65_order_of_signed_parts : forall c tu kw nums ps ps' dss s s', env_ok c tu kw nums -> delims_ok c kw nums -> plain_delimiters c ->
  c_allow_multiple c = true -> c_allow_negative c = true ->
  (forall p, In p ps -> utf8 p = true /\ starts_with starts_duration p) ->
  Forall2 (components c tu kw nums) ps dss -> total_size (List.concat dss) <= max_nanos ->
  joined c ps s -> joined c ps' s' -> Permutation ps ps' ->
  exists D D', parse c s tu kw nums = Ok D /\ parse c s' tu kw nums = Ok D' /\ nanos D = total (List.concat dss) /\ nanos D' = total (List.concat dss).
Proof.
  intros c tu kw nums ps ps' dss s s' HE HD PD Hm Ha H F Hs J J' P.
  destruct (Permutation_Forall2 P F) as (dss' & P' & F').
  assert (Pc : Permutation (List.concat dss) (List.concat dss')).
  { clear -P'. induction P'; cbn; auto using Permutation_app_head; [|now transitivity (List.concat l')].
    rewrite !app_assoc. apply Permutation_app_tail, Permutation_app_comm. }
  assert (Ts : total_size (List.concat dss') = total_size (List.concat dss)).
  { clear -Pc. symmetry. induction Pc; cbn in *; unfold total_size in *; lia. }
  assert (H' : forall p, In p ps' -> utf8 p = true /\ starts_with starts_duration p).
  { intros p Hp. apply H. now apply (Permutation_in _ (Permutation_sym P)). }
  assert (R : forall qs es t, (forall p, In p qs -> utf8 p = true /\ starts_with starts_duration p) -> Forall2 (components c tu kw nums) qs es ->
    total_size (List.concat es) <= max_nanos -> joined c qs t -> exists D, parse c t tu kw nums = Ok D /\ nanos D = total (List.concat es)).
  { intros qs es t Hq C S K.
    destruct (C23_multiple_complete c tu kw nums t (List.concat es) HE HD (joined_utf8 c tu kw nums HE qs t K (fun p Hp => proj1 (Hq p Hp))) Hm
      (joined_components c tu kw nums PD qs t K (fun p Hp => proj2 (Hq p Hp)) es C)) as (D & E & _ & V).
    { intros d _. now left. }
    exists D. split; [exact E|]. rewrite V. now apply sat_sum_small. }
  destruct (R ps dss s H F Hs J) as (D & E1 & V1).
  destruct (R ps' dss' s' H' F') as (D' & E2 & V2); [lia|exact J'|].
  exists D, D'. rewrite V2. now rewrite <- (total_perm _ _ Pc).
Qed.
Print Assumptions C65_order_of_signed_parts.

(** but not if a sum on the way reaches the maximum *)
Theorem C65_saturation_in_between_refuted : exists s s' D D',
  parse ex_multi s ex_units None None = Ok D /\ parse ex_multi s' ex_units None None = Ok D' /\
  joined ex_multi [%"18446744073709551615s"; %"2s"; %"-1s"] s /\ joined ex_multi [%"18446744073709551615s"; %"-1s"; %"2s"] s' /\ nanos D <> nanos D'.
Proof.
  exists (%"18446744073709551615s 2s -1s"), (%"18446744073709551615s -1s 2s"). eexists _, _. split; [vm_compute; reflexivity|]. split; [vm_compute; reflexivity|].
  assert (K : forall x, In x [32] -> c_inner_delimiter ex_multi x = true /\ c_outer_delimiter ex_multi x = true) by (intros x [<-|[]]; split; reflexivity).
  split; [apply (j_more _ (%"18446744073709551615s") [32]); [discriminate|exact K|apply (j_more _ (%"2s") [32]); [discriminate|exact K|apply j_one]]|].
  split; [apply (j_more _ (%"18446744073709551615s") [32]); [discriminate|exact K|apply (j_more _ (%"-1s") [32]); [discriminate|exact K|apply j_one]]|].
  vm_compute. discriminate.
Qed.
Print Assumptions C65_saturation_in_between_refuted.

(** three parts in two orders, one of which is itself several durations *)
Definition ex_positive : config := set_allow_ago_only (set_allow_negative ex_multi false) false.
Example C65_example :
  env_ok ex_positive ex_units (Some ex_keywords) (Some ex_numerals) /\ delims_ok ex_positive (Some ex_keywords) (Some ex_numerals) /\ plain_delimiters ex_positive /\
  (forall p, In p [%"1.5min"; %"2s and 3s"; %"+1e3 y"] -> utf8 p = true /\ starts_with starts_duration p /\
     exists d, parse ex_positive p ex_units (Some ex_keywords) (Some ex_numerals) = Ok d) /\
  joined ex_positive [%"1.5min"; %"2s and 3s"; %"+1e3 y"] (%"1.5min  2s and 3s +1e3 y") /\
  joined ex_positive [%"+1e3 y"; %"1.5min"; %"2s and 3s"] (%"+1e3 y 1.5min   2s and 3s") /\
  Permutation [%"1.5min"; %"2s and 3s"; %"+1e3 y"] [%"+1e3 y"; %"1.5min"; %"2s and 3s"] /\
  parse ex_positive (%"+1e3 y 1.5min   2s and 3s") ex_units (Some ex_keywords) (Some ex_numerals) = Ok (Dur false (Std 31557600095 0)).
Proof.
  assert (K : forall d, (forall x, In x d -> x = 32) -> forall x, In x d -> c_inner_delimiter ex_positive x = true /\ c_outer_delimiter ex_positive x = true).
  { intros d H x Hx. rewrite (H x Hx). split; reflexivity. }
  split; [apply ex_env; auto|]. split; [now apply ex_delims|]. split; [|split; [|split; [|split; [|split; [|reflexivity]]]]].
  - split.
    + intros x. unfold plain_byte, is_letter, is_digit, is_sign, is_dot. cbn. unfold is_ascii_whitespace. intros H. split; lia.
    + intros w [<-|[]]. split; [reflexivity|]. each.
  - intros p [<-|[<-|[<-|[]]]]; (split; [reflexivity|]); (split; [reflexivity|]); eexists; reflexivity.
  - apply (j_more _ (%"1.5min") [32; 32]); [discriminate|apply K; each|].
    apply (j_more _ (%"2s and 3s") [32]); [discriminate|apply K; each|apply j_one].
  - apply (j_more _ (%"+1e3 y") [32]); [discriminate|apply K; each|].
    apply (j_more _ (%"1.5min") [32; 32; 32]); [discriminate|apply K; each|apply j_one].
  - apply Permutation_sym. apply (Permutation_app_comm [%"+1e3 y"] [%"1.5min"; %"2s and 3s"]).
Qed.
Example C65_greater_parts_example : let P s := parse ex_positive (%s) ex_units None None in
  joined ex_positive [%"1min"; %"2s"] (%"1min 2s") /\ joined ex_positive [%"90s"; %"3s"] (%"90s  3s") /\
  P "1min 2s"%string = Ok (Dur false (Std 62 0)) /\ P "90s  3s"%string = Ok (Dur false (Std 93 0)).
Proof.
  split; [apply (j_more ex_positive (%"1min") (%" ") [%"2s"]); [discriminate|each; split; reflexivity|apply j_one]|].
  split; [apply (j_more ex_positive (%"90s") (%"  ") [%"3s"]); [discriminate|each; split; reflexivity|apply j_one]|]. split; reflexivity.
Qed.
