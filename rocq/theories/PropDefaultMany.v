(** * Property C81, within a sequence of durations *)
From Verif Require Import Prelude Util Time Config Bytes Repr Parse SpecTime SpecNum SpecValue SpecParse SpecGrammar SpecSpelling
  TimeProofs Utf8Proofs ValueProofs RefGrammar SpellProofs SwitchProofs PropParse PropModes PropOrder PropDefault ExEnv.

(** the same part, or the same number with the default unit written behind it *)
Inductive unit_written (c : config) (tu : units_like) (p : str) : str -> Prop :=
| uw_same : unit_written c tu p p
| uw_written n W F e w : number_text c n W F e p -> default_unit_text c tu w -> unit_written c tu p (p ++ w).

(** in a sequence of durations the default unit may be written, or left out, behind each number: nothing changes.
    [ps] are the parts without, [ps'] the parts with some default units written, in any layout of delimiters *)
Theorem C81_in_a_sequence : forall c tu kw nums ps ps' s s', env_ok c tu kw nums -> delims_ok c kw nums -> plain_delimiters c ->
  c_allow_multiple c = true ->
  (forall p, In p ps -> utf8 p = true /\ starts_with starts_duration p /\ exists d, parse c p tu kw nums = Ok d) ->
  Forall2 (unit_written c tu) ps ps' -> joined c ps s -> joined c ps' s' ->
  exists D D', parse c s tu kw nums = Ok D /\ parse c s' tu kw nums = Ok D' /\ nanos D = nanos D'.
Proof.
  intros c tu kw nums ps ps' s s' HE HD PD Hm H F J J'.
  assert (X : exists dss, Forall2 (components c tu kw nums) ps dss /\ Forall2 (components c tu kw nums) ps' dss /\
     (forall d, In d (List.concat dss) -> sign_allowed c d) /\ (forall p, In p ps' -> utf8 p = true /\ starts_with starts_duration p)).
  { clear J J'. induction F as [|p p' ps ps' R F IH]; [exists []; split; [constructor|]; split; [constructor|]; split; intros ? []|].
    destruct IH as (dss & C & C' & S & K); [intros q Hq; apply H; now right|].
    destruct (H p (or_introl eq_refl)) as (U & St & d & P).
    destruct (C23_multiple_sound c tu kw nums p d HE HD U Hm P) as (es & C1 & S1 & _).
    assert (Y : components c tu kw nums p' es /\ utf8 p' = true /\ starts_with starts_duration p').
    { destruct R as [|n W F0 e w Hn Hw]; [auto|]. destruct (default_component c tu kw nums n W F0 e p w Hn Hw) as [D1 D2].
      rewrite (C23_components_unique _ _ _ _ _ _ _ C1 (cs_last _ _ _ _ _ _ D1)). split; [now apply cs_last|]. split; [|now apply starts_app].
      rewrite (number_text_utf8 _ _ _ _ _ _ _ Hn). destruct Hw as (ds & id & -> & G & _ & _ & Ui & _). rewrite (gap_utf8 c); auto. apply HE. }
    destruct Y as (C2 & Y). exists (es :: dss). split; [now constructor|]. split; [now constructor|]. cbn [List.concat]. split.
    - intros x Hx. apply in_app_or in Hx. destruct Hx; auto.
    - intros q [<-|Hq]; auto. }
  destruct X as (dss & C & C' & S & K).
  assert (G : forall qs t, joined c qs t -> (forall p, In p qs -> utf8 p = true /\ starts_with starts_duration p) ->
     Forall2 (components c tu kw nums) qs dss -> exists D, parse c t tu kw nums = Ok D /\ nanos D = saturating_sum (List.concat dss)).
  { intros qs t Q Hq Cq.
    destruct (C23_multiple_complete c tu kw nums t (List.concat dss) HE HD (joined_utf8 c tu kw nums HE qs t Q (fun p Hp => proj1 (Hq p Hp))) Hm
      (joined_components c tu kw nums PD qs t Q (fun p Hp => proj2 (Hq p Hp)) dss Cq) S) as (D & E & _ & V). eauto. }
  destruct (G ps s J) as (D & E & V); [intros p Hp; split; apply H, Hp|exact C|].
  destruct (G ps' s' J' K C') as (D' & E' & V'). exists D, D'. split; [exact E|]. split; [exact E'|]. congruence.
Qed.
Print Assumptions C81_in_a_sequence.

(** ** Example: [1.5 2min -3] is [1.5 s  2min -3 sec] *)
Example C81_sequence_example : let c := ex_multi in
  env_ok c ex_units (Some ex_keywords) (Some ex_numerals) /\ delims_ok c (Some ex_keywords) (Some ex_numerals) /\ plain_delimiters c /\
  (forall p, In p [%"1.5"; %"2min"; %"-3"] -> utf8 p = true /\ starts_with starts_duration p /\
     exists d, parse c p ex_units (Some ex_keywords) (Some ex_numerals) = Ok d) /\
  Forall2 (unit_written c ex_units) [%"1.5"; %"2min"; %"-3"] [%"1.5 s"; %"2min"; %"-3s"] /\
  joined c [%"1.5"; %"2min"; %"-3"] (%"1.5 2min -3") /\ joined c [%"1.5 s"; %"2min"; %"-3s"] (%"1.5 s  2min -3s") /\
  parse c (%"1.5 2min -3") ex_units (Some ex_keywords) (Some ex_numerals) = Ok (Dur false (Std 118 500000000)) /\
  parse c (%"1.5 s  2min -3s") ex_units (Some ex_keywords) (Some ex_numerals) = Ok (Dur false (Std 118 500000000)).
Proof.
  cbv zeta.
  assert (K : forall d, (forall x, In x d -> x = 32) -> forall x, In x d -> c_inner_delimiter ex_multi x = true /\ c_outer_delimiter ex_multi x = true).
  { intros d H x Hx. rewrite (H x Hx). split; reflexivity. }
  assert (Du : forall ds, ds = [] \/ ds = [32] -> default_unit_text ex_multi ex_units (ds ++ %"s")).
  { intros ds Hds. exists ds, (%"s"). split; [reflexivity|].
    split; [|split; [|split; [discriminate|split; [reflexivity|split; [|split; reflexivity]]]]].
    - destruct Hds as [->| ->]; (split; [each|]); (split; [reflexivity|]); (split; [try discriminate; auto|]).
      + now left.
      + right. discriminate.
    - destruct Hds as [->| ->]; repeat split.
    - intros x [<-|[]]; split; reflexivity. }
  split; [apply ex_env; auto|]. split; [now apply ex_delims|]. split; [|split; [|split; [|split; [|split; [|split; reflexivity]]]]].
  - split.
    + intros x. unfold plain_byte, is_letter, is_digit, is_sign, is_dot. cbn. unfold is_ascii_whitespace. intros H. split; lia.
    + intros w [<-|[]]. split; [reflexivity|]. each.
  - intros p [<-|[<-|[<-|[]]]]; (split; [reflexivity|]); (split; [reflexivity|]); eexists; reflexivity.
  - constructor; [|constructor; [|constructor; [|constructor]]].
    + apply (uw_written ex_multi ex_units (%"1.5") false (%"1") (%"5") 0 (%" s")); [|exact (Du [32] (or_intror eq_refl))].
      apply (NumberText ex_multi false (%"1") (%"5") 0 [] (%".5") []); try reflexivity; try discriminate; try now intros [].
      * constructor.
      * each.
      * apply (ft_some (%"5")). each.
      * constructor.
    + apply uw_same.
    + apply (uw_written ex_multi ex_units (%"-3") true (%"3") [] 0 (%"s")); [|exact (Du [] (or_introl eq_refl))].
      apply (NumberText ex_multi true (%"3") [] 0 (%"-") [] []); try reflexivity; try discriminate; try now intros [].
      * constructor.
      * each.
      * constructor.
      * constructor.
  - apply (j_more _ (%"1.5") [32]); [discriminate|apply K; each|]. apply (j_more _ (%"2min") [32]); [discriminate|apply K; each|apply j_one].
  - apply (j_more _ (%"1.5 s") [32; 32]); [discriminate|apply K; each|]. apply (j_more _ (%"2min") [32]); [discriminate|apply K; each|apply j_one].
Qed.
