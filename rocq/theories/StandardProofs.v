(** * Proofs about the standard parser *)
From Verif Require Import Prelude Time Config Parse SpecTime SpecParse Standard TimeProofs SafeProofs.

Definition all_units : list time_unit :=
  [NanoSecond; MicroSecond; MilliSecond; Second; Minute; Hour; Day; Week; Month; Year].

Definition memb (u : time_unit) (l : list time_unit) : bool := existsb (time_unit_eqb u) l.
Lemma time_unit_eqb_iff a b : time_unit_eqb a b = true <-> a = b.
Proof. destruct a, b; cbn; split; congruence. Qed.
Lemma memb_iff u l : memb u l = true <-> In u l.
Proof.
  unfold memb. rewrite existsb_exists. split.
  - intros (x & H & E). apply time_unit_eqb_iff in E. now subst.
  - intros H. exists u. split; [exact H|now apply time_unit_eqb_iff].
Qed.

Definition data_of (f : time_unit -> bool) : units_data := map (fun u => if f u then Some u else None) all_units.

Lemma set_data f u : set_nth (unit_index u) (Some u) (data_of f) = data_of (fun v => f v || time_unit_eqb v u).
Proof. destruct u; cbn; rewrite ?orb_false_r, ?orb_true_r; reflexivity. Qed.
Lemma data_of_ext f g : (forall u, f u = g u) -> data_of f = data_of g.
Proof. intros H. unfold data_of. apply map_ext. intros u. now rewrite H. Qed.
Lemma fold_units l : forall f, fold_left (fun data unit => set_nth (unit_index unit) (Some unit) data) l (data_of f)
  = data_of (fun u => f u || memb u l).
Proof.
  induction l as [|v l IH]; intros f; cbn [fold_left].
  - apply data_of_ext. intros u. cbn. now rewrite orb_false_r.
  - rewrite set_data, IH. apply data_of_ext. intros u. cbn [memb existsb]. now rewrite orb_assoc.
Qed.
Lemma units_with_data l : units_with l = data_of (fun u => memb u l).
Proof. unfold units_with. change units_new with (data_of (fun _ => false)). now rewrite fold_units. Qed.

Lemma str_eqb_iff a : forall b, str_eqb a b = true <-> a = b.
Proof.
  induction a as [|x a IH]; intros [|y b]; cbn; try (split; congruence).
  rewrite andb_true_iff, IH, Z.eqb_eq. split; [intros []; congruence|]. intros E. injection E. auto.
Qed.

Lemma find_unit_some l id u m : find_unit l id = Some (u, m) ->
  In (Some u) l /\ nth (unit_index u) DEFAULT_TIME_UNITS [] = id /\ m = default_multiplier.
Proof.
  induction l as [|[t|] l IH]; cbn; [discriminate| |].
  - destruct (str_eqb _ id) eqn:E.
    + intros H. injection H as <- <-. apply str_eqb_iff in E. auto.
    + intros H. destruct (IH H) as (H1 & H2 & H3). auto.
  - intros H. destruct (IH H) as (H1 & H2 & H3). auto.
Qed.
Lemma default_id_inj u v : default_identifier u = default_identifier v -> u = v.
Proof. destruct u, v; cbn; intros H; try reflexivity; discriminate. Qed.
Lemma table_id u : nth (unit_index u) DEFAULT_TIME_UNITS [] = default_identifier u.
Proof. destruct u; reflexivity. Qed.
Lemma find_unit_in l u : In (Some u) l -> find_unit l (default_identifier u) = Some (u, default_multiplier).
Proof.
  induction l as [|[t|] l IH]; cbn [In find_unit]; [contradiction| |].
  - intros H. rewrite table_id. destruct (str_eqb _ _) eqn:E.
    + apply str_eqb_iff, default_id_inj in E. now subst.
    + apply IH. destruct H as [H|H]; [|exact H]. injection H as ->.
      assert (str_eqb (default_identifier u) (default_identifier u) = true) by now apply str_eqb_iff. congruence.
  - intros [H|H]; [discriminate|auto].
Qed.

Lemma su_get_data f id u m : su_get (data_of f) id = Some (u, m) <->
  f u = true /\ id = default_identifier u /\ m = default_multiplier.
Proof.
  assert (G : forall v, In (Some v) (data_of f) <-> f v = true).
  { intros v. unfold data_of. rewrite in_map_iff. split.
    - intros (w & E & _). destruct (f w) eqn:F; [|discriminate]. congruence.
    - intros F. exists v. rewrite F. split; [reflexivity|]. destruct v; cbn; auto 12. }
  assert (L3 : forall v, In (Some v) (firstn 3 (data_of f)) -> In (Some v) (data_of f)).
  { intros v H. rewrite <- (firstn_skipn 3 (data_of f)). apply in_or_app. now left. }
  assert (R3 : forall v, In (Some v) (skipn 3 (data_of f)) -> In (Some v) (data_of f)).
  { intros v H. rewrite <- (firstn_skipn 3 (data_of f)). apply in_or_app. now right. }
  split.
  - unfold su_get. intros H.
    destruct (length id) as [|[|[|n]]]; try discriminate; apply find_unit_some in H; destruct H as (H1 & H2 & H3);
      rewrite table_id in H2; (split; [apply G; auto|]; split; [congruence|exact H3]).
  - intros (F & -> & ->). unfold su_get.
    assert (S : In (Some u) (if (length (default_identifier u) =? 1)%nat then skipn 3 (data_of f) else firstn 3 (data_of f))).
    { destruct u; cbn; rewrite F; auto 12. }
    destruct u; cbn [default_identifier length bytes_of Nat.eqb] in *; (apply (find_unit_in _ _) in S; exact S).
Qed.


Lemma in_all_units u : In u all_units.
Proof. destruct u; cbn; auto 12. Qed.
Lemma su_is_empty_data f : su_is_empty (data_of f) = true <-> forall u, f u = false.
Proof.
  unfold su_is_empty, data_of. rewrite forallb_forall. split.
  - intros H u. assert (G := H (if f u then Some u else None)). destruct (f u) eqn:E; [|reflexivity].
    symmetry. apply G. apply in_map_iff. exists u. rewrite E. split; [reflexivity|apply in_all_units].
  - intros H o Ho. apply in_map_iff in Ho. destruct Ho as (u & <- & _). now rewrite H.
Qed.

Lemma get_time_units_data f u : In u (get_time_units (data_of f)) <-> f u = true.
Proof.
  assert (G : forall l, In u (get_time_units l) <-> In (Some u) l).
  { induction l as [|[v|] l IH]; cbn; [tauto| |].
    - rewrite IH. split; intros [H|H]; auto; [left; congruence|left; congruence].
    - rewrite IH. split; [auto|]. intros [H|H]; [discriminate|exact H]. }
  rewrite G. unfold data_of. rewrite in_map_iff. split.
  - intros (v & E & _). destruct (f v) eqn:F; [|discriminate]. congruence.
  - intros F. exists u. rewrite F. split; [reflexivity|apply in_all_units].
Qed.

(** the data of every parser which can be constructed *)
Lemma units_default_data : units_default = data_of (fun u => match u with Month | Year => false | _ => true end).
Proof. reflexivity. Qed.
Lemma units_all_data : units_all = data_of (fun _ => true).
Proof. reflexivity. Qed.
Lemma units_new_data : units_new = data_of (fun _ => false).
Proof. reflexivity. Qed.

Definition reachable_data (data : units_data) : Prop := exists f, data = data_of f.
Lemma build_data b : reachable_data (dp_units (dpb_build b)).
Proof. destruct b as [[]]; cbn; [exists (fun u => match u with Month | Year => false | _ => true end)|exists (fun _ => true)|exists (fun _ => false)|exists (fun u => memb u l); apply units_with_data]; reflexivity. Qed.

Lemma unit_default_fits u : unit_fits u default_multiplier.
Proof. destruct u; (split; [split; reflexivity|discriminate]). Qed.

Definition config_ok (c : config) : Prop :=
  ascii_delim (c_inner_delimiter c) /\ ascii_delim (c_outer_delimiter c) /\
  forall l w, c_conjunctions c = Some l -> In w l -> utf8 w = true.

Lemma std_env_ok p : reachable_data (dp_units p) -> config_ok (dp_config p) ->
  env_ok (dp_config p) (std_units (dp_units p)) None None.
Proof.
  intros (f & E) (H1 & H2 & H3). constructor; auto; try discriminate.
  intros id u m G. cbn [u_get std_units] in G. rewrite E in G. apply su_get_data in G.
  destruct G as (_ & _ & ->). apply unit_default_fits.
Qed.

Lemma config_new_ok : config_ok config_new.
Proof.
  assert (ascii_delim is_ascii_whitespace) by (intros x; unfold is_ascii_whitespace; lia).
  repeat split; cbn; auto; try (apply H; assumption). discriminate.
Qed.
