(** * Proofs about the custom parser *)
From Verif Require Import Prelude Time Config Parse SpecTime SpecParse Standard Custom SpecCustom TimeProofs SafeProofs StandardProofs.

Definition ne (id : str) : bool := match id with [] => false | _ => true end.
Lemma ne_iff id : ne id = true <-> id <> [].
Proof. destruct id; cbn; split; congruence. Qed.

Lemma mult_eqb_iff a b : mult_eqb a b = true <-> a = b.
Proof. destruct a, b; unfold mult_eqb; cbn. rewrite andb_true_iff, !Z.eqb_eq. split; [intros []; congruence|intros E; injection E; auto]. Qed.

Definition keyb (t : custom_time_unit) (k : time_unit * multiplier) : bool :=
  time_unit_eqb (ctu_base t) (fst k) && mult_eqb (ctu_mult t) (snd k).
Lemma keyb_iff t k : keyb t k = true <-> key t = k.
Proof.
  unfold keyb, key. rewrite andb_true_iff, time_unit_eqb_iff, mult_eqb_iff. destruct k. cbn. split; [intros []; congruence|].
  intros E; injection E; auto.
Qed.

Definition group_ids (us : list custom_time_unit) (k : time_unit * multiplier) : list str :=
  flat_map (fun t => if keyb t k then filter ne (ctu_ids t) else []) us.

Lemma in_group us k id : In id (group_ids us k) <-> registered us id (fst k) (snd k).
Proof.
  unfold group_ids, registered. rewrite in_flat_map. split.
  - intros (t & H1 & H2). destruct (keyb t k) eqn:E; [|contradiction]. apply filter_In in H2. destruct H2 as [H2 H3].
    apply keyb_iff in E. rewrite <- surjective_pairing. split; [now apply ne_iff|]. exists t. auto.
  - intros (H1 & t & H2 & H3 & H4). rewrite <- surjective_pairing in H3. exists t. split; [exact H2|].
    apply keyb_iff in H3. rewrite H3. apply filter_In. split; [exact H4|now apply ne_iff].
Qed.
Lemma group_app us t k : group_ids (us ++ [t]) k = group_ids us k ++ (if keyb t k then filter ne (ctu_ids t) else []).
Proof. unfold group_ids. rewrite flat_map_app. cbn. now rewrite app_nil_r. Qed.

Definition ekey (e : lookup_data * list str) : time_unit * multiplier := (ld_unit (fst e), ld_mult (fst e)).
Definition bounds (e : lookup_data * list str) : Prop :=
  forall id, In id (snd e) -> ld_min (fst e) <= len id <= ld_max (fst e).

Lemma push_ids_spec ids : forall e, let e' := push_ids e ids in
  snd e' = snd e ++ filter ne ids /\ ekey e' = ekey e /\
  ld_min (fst e') <= ld_min (fst e) /\ ld_max (fst e) <= ld_max (fst e') /\ (bounds e -> bounds e').
Proof.
  unfold push_ids. change (fun id : list Z => match id with [] => false | _ => true end) with ne.
  generalize (filter ne ids). clear ids. intros ids.
  induction ids as [|i ids IH]; intros e; cbn [fold_left].
  - cbn. rewrite app_nil_r. split; [reflexivity|]. split; [reflexivity|]. split; [lia|]. split; [lia|auto].
  - destruct (IH (ld_update (fst e) i, snd e ++ [i])) as (H1 & H2 & H3 & H4 & H5).
    cbn [fst snd] in *. rewrite H1, <- app_assoc. unfold ld_update in *. cbn [ld_min ld_max] in *.
    split; [reflexivity|]. split; [exact H2|]. split; [|split].
    + revert H3. destruct (len i <? ld_min (fst e)) eqn:X; lia.
    + revert H4. destruct (ld_max (fst e) <? len i) eqn:X; lia.
    + intros H. apply H5; auto. intros j. cbn [fst snd]. rewrite in_app_iff. cbn [ld_min ld_max]. intros [Hj|[->|[]]].
      * specialize (H j Hj). destruct (len i <? ld_min (fst e)) eqn:X, (ld_max (fst e) <? len i) eqn:Y; lia.
      * destruct (len j <? ld_min (fst e)) eqn:X, (ld_max (fst e) <? len j) eqn:Y; lia.
Qed.

(** the state after adding the units [us] *)
Record inv (us : list custom_time_unit) (c : custom_units) : Prop := Inv {
  inv_ids : forall e, In e (cu_units c) -> snd e = group_ids us (ekey e) /\ snd e <> [];
  inv_bounds : forall e, In e (cu_units c) -> bounds e /\ cu_min c <= ld_min (fst e) /\ ld_max (fst e) <= cu_max c;
  inv_nodup : NoDup (map ekey (cu_units c));
  inv_all : forall t, In t us -> usable t -> In (key t) (map ekey (cu_units c));
  inv_order : forall l1 k l2 k', map ekey (cu_units c) = l1 ++ k :: l2 -> ~ In k' (l1 ++ [k]) -> introduced_before us k k'
}.

Lemma introduced_app us t k k' : introduced_before us k k' -> introduced_before (us ++ [t]) k k'.
Proof.
  intros (us1 & x & us2 & -> & H). exists us1, x, (us2 ++ [t]). rewrite <- app_assoc. auto.
Qed.

Lemma lookup_update_some units u m ids : forall units' mn mx,
  lookup_update units u m ids = Some (units', (mn, mx)) ->
  exists a e b, units = a ++ e :: b /\ units' = a ++ push_ids e ids :: b /\ ekey e = (u, m) /\
    ~ In (u, m) (map ekey a) /\ mn = ld_min (fst (push_ids e ids)) /\ mx = ld_max (fst (push_ids e ids)).
Proof.
  induction units as [|e units IH]; intros units' mn mx; cbn [lookup_update]; [discriminate|].
  destruct (_ && _) eqn:E.
  - intros H. injection H as <- <- <-. exists [], e, units. apply andb_true_iff in E. destruct E as [E1 E2].
    apply time_unit_eqb_iff in E1. apply mult_eqb_iff in E2. unfold ekey. rewrite E1, E2. cbn. auto 10.
  - destruct (lookup_update units u m ids) as [[r ls]|]; [|discriminate]. cbn [obind]. intros H. injection H as <- ->.
    destruct (IH _ _ _ eq_refl) as (a & e' & b & -> & -> & H1 & H2 & H3). exists (e :: a), e', b.
    split; [reflexivity|]. split; [reflexivity|]. split; [exact H1|]. split; [|exact H3].
    cbn. intros [H|H]; [|contradiction]. unfold ekey in H. injection H as <- <-.
    rewrite (proj2 (time_unit_eqb_iff _ _) eq_refl), (proj2 (mult_eqb_iff _ _) eq_refl) in E. discriminate.
Qed.
Lemma lookup_update_none units u m ids : lookup_update units u m ids = None -> ~ In (u, m) (map ekey units).
Proof.
  induction units as [|e units IH]; cbn [lookup_update map In]; [auto|].
  destruct (_ && _) eqn:E; [discriminate|]. destruct (lookup_update units u m ids) as [[r ls]|]; [discriminate|].
  intros _ [H|H]; [|now apply IH]. unfold ekey in H. injection H as <- <-.
  rewrite (proj2 (time_unit_eqb_iff _ _) eq_refl), (proj2 (mult_eqb_iff _ _) eq_refl) in E. discriminate.
Qed.

Lemma not_usable t : filter ne (ctu_ids t) = [] <-> ~ usable t.
Proof.
  split.
  - intros H (id & H1 & H2). assert (In id (filter ne (ctu_ids t))) by (apply filter_In; split; [exact H1|now apply ne_iff]).
    rewrite H in H0. contradiction.
  - intros H. destruct (filter ne (ctu_ids t)) as [|i l] eqn:E; [reflexivity|]. elim H. exists i.
    assert (G : In i (filter ne (ctu_ids t))) by (rewrite E; now left). apply filter_In in G. destruct G. split; [auto|now apply ne_iff].
Qed.

Lemma inv_noop us c t : inv us c -> ~ usable t -> inv (us ++ [t]) c.
Proof.
  intros [I1 I2 I3 I4 I5] N. constructor; auto.
  - intros e He. rewrite group_app. apply not_usable in N. rewrite N. destruct (keyb t (ekey e)); rewrite app_nil_r; auto.
  - intros x Hx Ux. apply in_app_or in Hx. destruct Hx as [Hx|[<-|[]]]; [auto|contradiction].
  - intros l1 k l2 k' E H. apply introduced_app. eauto.
Qed.

Lemma map_ekey_eq a e e' b : ekey e' = ekey e -> map ekey (a ++ e' :: b) = map ekey (a ++ e :: b).
Proof. intros E. rewrite !map_app. cbn. now rewrite E. Qed.

Lemma inv_update us c t : inv us c -> inv (us ++ [t]) (add_custom_time_unit c t).
Proof.
  intros I. unfold add_custom_time_unit.
  destruct (ctu_ids t) as [|i0 ids0] eqn:Ei.
  { apply inv_noop; [exact I|]. apply not_usable. now rewrite Ei. }
  rewrite <- Ei. clear i0 ids0 Ei.
  destruct (lookup_update _ _ _ _) as [[units' [mn mx]]|] eqn:L.
  - apply lookup_update_some in L. destruct L as (a & e & b & E1 & -> & Ek & Na & -> & ->).
    destruct (push_ids_spec (ctu_ids t) e) as (P1 & P2 & P3 & P4 & P5).
    destruct I as [I1 I2 I3 I4 I5]. rewrite E1 in *.
    assert (Nb : ~ In (ekey e) (map ekey (a ++ b))).
    { rewrite map_app in I3. cbn in I3. apply NoDup_remove_2 in I3. now rewrite map_app. }
    assert (Kt : keyb t (ekey e) = true) by (apply keyb_iff; now rewrite Ek).
    assert (Ot : forall x, In x (a ++ b) -> keyb t (ekey x) = false).
    { intros x Hx. destruct (keyb t (ekey x)) eqn:E; [|reflexivity]. apply keyb_iff in E, Kt. elim Nb.
      rewrite <- Kt, E. now apply in_map. }
    assert (M : forall x, In x (a ++ push_ids e (ctu_ids t) :: b) -> x = push_ids e (ctu_ids t) \/ In x (a ++ b)).
    { intros x. rewrite !in_app_iff. cbn. intros [H|[H|H]]; auto. }
    assert (M' : forall x, In x (a ++ b) -> In x (a ++ e :: b)) by (intros x; rewrite !in_app_iff; cbn; tauto).
    assert (Ee : In e (a ++ e :: b)) by (apply in_or_app; right; now left).
    constructor; unfold update_lengths; cbn [cu_units cu_min cu_max].
    + intros x Hx. rewrite group_app. apply M in Hx. destruct Hx as [->|Hx].
      * rewrite P2, Kt, P1. destruct (I1 e Ee) as [Q1 Q2]. rewrite <- Q1. split; [reflexivity|].
        destruct (snd e); [contradiction|discriminate].
      * rewrite (Ot x Hx), app_nil_r. auto.
    + intros x Hx. apply M in Hx. destruct Hx as [->|Hx].
      * destruct (I2 e Ee) as (Q1 & Q2 & Q3). split; [auto|].
        destruct (ld_min _ <? cu_min c) eqn:X, (cu_max c <? ld_max _) eqn:Y; lia.
      * destruct (I2 x (M' x Hx)) as (Q1 & Q2 & Q3). split; [auto|].
        destruct (ld_min _ <? cu_min c) eqn:X, (cu_max c <? ld_max _) eqn:Y; lia.
    + rewrite (map_ekey_eq _ _ _ _ P2). exact I3.
    + intros x Hx Ux. rewrite (map_ekey_eq _ _ _ _ P2). apply in_app_or in Hx. destruct Hx as [Hx|[<-|[]]]; [auto|].
      apply keyb_iff in Kt. rewrite Kt. now apply in_map.
    + intros l1 k l2 k'. rewrite (map_ekey_eq _ _ _ _ P2). intros E H. apply introduced_app. eauto.
  - apply lookup_update_none in L.
    destruct (push_ids_spec (ctu_ids t) (ld_new (ctu_base t) (ctu_mult t), [])) as (P1 & P2 & P3 & P4 & P5).
    destruct (push_ids _ _) as [data ids]. cbn [fst snd app] in *.
    destruct ids as [|i ids].
    { apply inv_noop; [exact I|]. now apply not_usable. }
    assert (Ut : usable t). { destruct (filter ne (ctu_ids t)) eqn:F; [discriminate|]. 
      assert (G : In l (filter ne (ctu_ids t))) by (rewrite F; now left). apply filter_In in G. destruct G as [G1 G2]. exists l. split; [auto|now apply ne_iff]. }
    assert (Ek : ekey (data, i :: ids) = key t) by exact P2.
    destruct I as [I1 I2 I3 I4 I5].
    assert (L' : forall x, In x (cu_units c) -> keyb t (ekey x) = false).
    { intros x Hx. destruct (keyb t (ekey x)) eqn:E; [|reflexivity]. apply keyb_iff in E. elim L.
      change (In (key t) (map ekey (cu_units c))). rewrite E. now apply in_map. }
    constructor; unfold update_lengths; cbn [cu_units cu_min cu_max].
    + intros x Hx. rewrite group_app. apply in_app_or in Hx. destruct Hx as [Hx|[<-|[]]].
      * rewrite (L' x Hx), app_nil_r. auto.
      * rewrite Ek, (proj2 (keyb_iff t (key t)) eq_refl). cbn [snd]. split; [|discriminate]. rewrite <- P1.
        assert (group_ids us (key t) = []) as ->; [|reflexivity].
        destruct (group_ids us (key t)) as [|j l] eqn:G; [reflexivity|]. elim L.
        assert (Hj : In j (group_ids us (key t))) by (rewrite G; now left). apply in_group in Hj.
        destruct Hj as (J1 & t' & J2 & J3 & J4). rewrite <- surjective_pairing in J3. fold (key t). rewrite <- J3. apply I4; [exact J2|].
        exists j. auto.
    + intros x Hx. apply in_app_or in Hx. destruct Hx as [Hx|[<-|[]]].
      * destruct (I2 x Hx) as (Q1 & Q2 & Q3). split; [auto|].
        destruct (ld_min _ <? cu_min c) eqn:X, (cu_max c <? ld_max _) eqn:Y; lia.
      * split; [apply P5; intros j []|]. cbn [fst]. 
        destruct (ld_min _ <? cu_min c) eqn:X, (cu_max c <? ld_max _) eqn:Y; lia.
    + rewrite map_app. cbn [map]. rewrite Ek. apply NoDup_rev in I3. rewrite <- (rev_involutive (_ ++ _)). apply NoDup_rev.
      rewrite rev_app_distr. cbn. constructor; [|exact I3]. rewrite <- in_rev. exact L.
    + intros x Hx Ux. rewrite map_app. apply in_or_app. apply in_app_or in Hx. destruct Hx as [Hx|[<-|[]]]; [left; auto|].
      right. cbn [map]. rewrite Ek. now left.
    + intros l1 k l2 k'. rewrite map_app. cbn [map]. rewrite Ek. intros E H.
      destruct l2 as [|z l2 _] using rev_ind.
      * apply app_inj_tail in E. destruct E as [E <-]. exists us, t, []. repeat split; auto. intros t' H1 H2 H3.
        apply H. apply in_or_app. left. rewrite <- E, <- H3. auto.
      * rewrite app_comm_cons, app_assoc in E. apply app_inj_tail in E. destruct E as [E _]. apply introduced_app. eauto.
Qed.

Lemma inv_fold us2 : forall us1 c, inv us1 c -> inv (us1 ++ us2) (fold_left add_custom_time_unit us2 c).
Proof.
  induction us2 as [|t us2 IH]; intros us1 c I; cbn [fold_left].
  - now rewrite app_nil_r.
  - replace (us1 ++ t :: us2) with ((us1 ++ [t]) ++ us2) by now rewrite <- app_assoc. apply IH, inv_update, I.
Qed.
Lemma inv_all_units us : inv us (cu_with_time_units us).
Proof.
  apply (inv_fold us []). constructor; cbn; try tauto; [constructor|]. intros [|] ? ? ? E; discriminate.
Qed.

Lemma existsb_in (v : list str) id : existsb (fun x => str_eqb x id) v = true <-> In id v.
Proof.
  rewrite existsb_exists. split.
  - intros (x & H & E). apply str_eqb_iff in E. now subst.
  - intros H. exists id. split; [exact H|now apply str_eqb_iff].
Qed.

Lemma find_id_spec us units id : (forall e, In e units -> snd e = group_ids us (ekey e) /\ bounds e) ->
  match find_id units id with
  | Some k => exists a b, map ekey units = a ++ k :: b /\ In id (group_ids us k) /\ forall k', In k' a -> ~ In id (group_ids us k')
  | None => forall k, In k (map ekey units) -> ~ In id (group_ids us k)
  end.
Proof.
  induction units as [|e units IH]; intros H; cbn [find_id]; [intros k []|]. destruct e as [d v].
  destruct (H (d, v) (or_introl eq_refl)) as [Hv Hb]. cbn [snd] in Hv.
  destruct (_ && _) eqn:E.
  - apply andb_true_iff in E. destruct E as [_ E]. apply existsb_in in E. exists [], (map ekey units).
    split; [reflexivity|]. split; [|intros k' []]. change (In id (group_ids us (ekey (d, v)))). now rewrite <- Hv.
  - assert (N : ~ In id (group_ids us (ekey (d, v)))).
    { intros G. rewrite <- Hv in G. specialize (Hb id G). cbn [fst] in Hb. apply existsb_in in G. rewrite G, andb_true_r in E.
      unfold ld_check in E. lia. }
    specialize (IH (fun e He => H e (or_intror He))). destruct (find_id units id) as [k|].
    + destruct IH as (a & b & E1 & E2 & E3). exists (ekey (d, v) :: a), b. cbn [map]. rewrite E1. split; [reflexivity|].
      split; [exact E2|]. intros k' [<-|Hk]; auto.
    + intros k [<-|Hk]; auto.
Qed.

Lemma cu_get_spec us id :
  match cu_get (cu_with_time_units us) id with
  | Some k => exists a b, map ekey (cu_units (cu_with_time_units us)) = a ++ k :: b /\ In id (group_ids us k) /\ forall k', In k' a -> ~ In id (group_ids us k')
  | None => forall k, ~ In id (group_ids us k)
  end.
Proof.
  pose proof (inv_all_units us) as I. set (c := cu_with_time_units us) in *. destruct I as [I1 I2 I3 I4 I5].
  assert (All : forall k, In id (group_ids us k) -> In k (map ekey (cu_units c))).
  { intros k Hk. apply in_group in Hk. destruct Hk as (H1 & t & H2 & H3 & H4). rewrite <- surjective_pairing in H3. rewrite <- H3.
    apply I4; [exact H2|]. exists id. auto. }
  assert (Spec := find_id_spec us (cu_units c) id (fun e He => conj (proj1 (I1 e He)) (proj1 (I2 e He)))).
  unfold cu_get. destruct (_ || _) eqn:E.
  - intros k Hk. pose proof (All k Hk) as G. apply in_map_iff in G. destruct G as (e & <- & He).
    destruct (I2 e He) as (Q1 & Q2 & Q3). rewrite <- (proj1 (I1 e He)) in Hk. specialize (Q1 id Hk). lia.
  - destruct (find_id _ _); [exact Spec|]. intros k Hk. exact (Spec k (All k Hk) Hk).
Qed.

Lemma introduced_asym us k k' : introduced_before us k k' -> introduced_before us k' k -> k = k'.
Proof.
  intros (a & t & b & E & U & K & H) (a' & t' & b' & E' & U' & K' & H'). subst us.
  destruct (Nat.lt_trichotomy (length a) (length a')) as [L|[L|L]].
  - elim (H' t); auto.
    assert (G : nth_error (a ++ t :: b) (length a) = Some t) by (rewrite nth_error_app2, Nat.sub_diag by lia; reflexivity).
    rewrite E' in G. rewrite nth_error_app1 in G by lia. eapply nth_error_In, G.
  - assert (G : nth_error (a ++ t :: b) (length a) = Some t) by (rewrite nth_error_app2, Nat.sub_diag by lia; reflexivity).
    rewrite E' in G. rewrite nth_error_app2 in G by lia. rewrite L, Nat.sub_diag in G. injection G as ->. congruence.
  - elim (H t'); auto.
    assert (G : nth_error (a' ++ t' :: b') (length a') = Some t') by (rewrite nth_error_app2, Nat.sub_diag by lia; reflexivity).
    rewrite <- E' in G. rewrite nth_error_app1 in G by lia. eapply nth_error_In, G.
Qed.

Lemma pair_dec (k k' : time_unit * multiplier) : {k = k'} + {k <> k'}.
Proof. repeat decide equality. Qed.

Lemma cp_calls os : forall p, fold_left cp_call os p =
  CParser (fold_left add_custom_time_unit (units_of os) (cp_units p))
    (fold_left add_custom_time_unit (keywords_of os) (cp_keywords p))
    (cp_numerals p ++ numerals_of os)
    (fold_left cp_set_config (flat_map (fun o => match o with C_set s => [s] | _ => [] end) os) (cp_config p)).
Proof.
  assert (A : forall l p, fold_left cp_time_unit l p =
      CParser (fold_left add_custom_time_unit l (cp_units p)) (cp_keywords p) (cp_numerals p) (cp_config p)).
  { induction l as [|t l IH]; intros p; [now destruct p|]. cbn [fold_left]. rewrite IH. reflexivity. }
  assert (B : forall l p, fold_left cp_keyword l p =
      CParser (cp_units p) (fold_left add_custom_time_unit l (cp_keywords p)) (cp_numerals p) (cp_config p)).
  { induction l as [|t l IH]; intros p; [now destruct p|]. cbn [fold_left]. rewrite IH. reflexivity. }
  assert (C : forall l p, fold_left cp_numeral l p =
      CParser (cp_units p) (cp_keywords p) (cp_numerals p ++ l) (cp_config p)).
  { induction l as [|t l IH]; intros p; [cbn; rewrite app_nil_r; now destruct p|]. cbn [fold_left]. rewrite IH. cbn. now rewrite <- app_assoc. }
  induction os as [|o os IH]; intros p; cbn [fold_left flat_map].
  - cbn. rewrite app_nil_r. now destruct p.
  - rewrite IH. unfold units_of, keywords_of, numerals_of. cbn [flat_map]. rewrite !fold_left_app.
    destruct o; cbn [cp_call]; rewrite ?A, ?B, ?C; cbn; rewrite <- ?app_assoc; reflexivity.
Qed.

Lemma constructed_fits t : constructed t -> unit_fits (ctu_base t) (ctu_mult t).
Proof.
  intros (base & ids & m & E & Hm). destruct m as [m|]; cbn [ctu_new] in E.
  - destruct (mul_checked_mul (unit_multiplier base) m) eqn:X; cbn in E; [|discriminate]. injection E as <-. cbn. split; [auto|congruence].
  - injection E as <-. cbn. apply unit_default_fits.
Qed.
