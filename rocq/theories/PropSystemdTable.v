(** * Property C64, continued: the exported table SYSTEMD_TIME_UNITS and the systemd parser built from it *)
From Verif Require Import Prelude Util Time Config Bytes Repr Parse SpecTime Standard
  Custom SpecCustom CustomProofs PropCustom ExtProofs PropTables StandardProofs Utf8Proofs SafeProofs TimeProofs PropParse SpecSystemd Systemd SystemdProofs PropSystemd.

(** "μs", written with the greek letter (U+03BC) *)
Definition greek_mu_s : str := [206; 188; 115].

Lemma systemd_registered id u m : registered SYSTEMD_TIME_UNITS id u m <->
  m = Mul 1 0 /\ denotes systemd_nanos_units id u /\ id <> greek_mu_s.
Proof.
  unfold registered, denotes. split.
  - intros (_ & t & H1 & H2 & H3).
    cbn [SYSTEMD_TIME_UNITS In] in H1.
    repeat match goal with H : _ \/ _ |- _ => destruct H as [<-|H] end; try contradiction;
      injection H2 as <- <-; (split; [reflexivity|]); cbn [ctu_ids ctu_with_default In] in H3;
      (split; [|intros ->; intuition discriminate]);
      (eexists; split; [cbn [systemd_nanos_units systemd_units In]; eauto 20|cbn; tauto]).
  - intros (-> & (ws & H1 & H2) & N). cbn [systemd_nanos_units systemd_units In] in H1.
    assert (K : forall t, In t SYSTEMD_TIME_UNITS -> key t = (u, Mul 1 0) -> In id (ctu_ids t) -> ~ In [] (ctu_ids t) ->
       id <> [] /\ exists t, In t SYSTEMD_TIME_UNITS /\ key t = (u, Mul 1 0) /\ In id (ctu_ids t)).
    { intros t A1 A2 A3 A4. split; [intros ->; contradiction|eauto]. }
    repeat match goal with H : _ \/ _ |- _ => destruct H as [H|H]; [injection H as <- <-|] end; try contradiction;
    match goal with |- context[key _ = (?u, _)] => 
      let rec go l := match l with ?t :: ?r => first [ (apply (K t); [cbn [SYSTEMD_TIME_UNITS In]; eauto 20|reflexivity|cbn in H2 |- *; unfold greek_mu_s in N; intuition congruence|cbn; intuition discriminate]) | go r] end in
      let l := eval unfold SYSTEMD_TIME_UNITS in SYSTEMD_TIME_UNITS in go l end.
Qed.

(** the table has the identifiers of the systemd parser (with nanoseconds), with the same meaning, but for "μs" with the greek letter *)
Theorem C64_systemd_table : forall id u m,
  cu_get (cu_with_time_units SYSTEMD_TIME_UNITS) id = Some (u, m) <->
  m = Mul 1 0 /\ denotes systemd_nanos_units id u /\ id <> greek_mu_s.
Proof.
  intros id u m. rewrite <- systemd_registered. split.
  - intros H. now apply C34_lookup in H.
  - intros H. apply C34_unambiguous; [exact H|]. intros u' m' H'. apply systemd_registered in H, H'.
    destruct H as (-> & D & _), H' as (-> & D' & _).
    assert (E : sd_get_nanos id = Some (u, Mul 1 0)) by (apply sd_get_nanos_spec; auto).
    assert (E' : sd_get_nanos id = Some (u', Mul 1 0)) by (apply sd_get_nanos_spec; auto). congruence.
Qed.
Print Assumptions C64_systemd_table.
(** two of its identifiers; the micro sign is in it, the greek letter is not *)
Example C64_systemd_table_example :
  denotes systemd_nanos_units (%"months") Month /\ cu_get (cu_with_time_units SYSTEMD_TIME_UNITS) (%"months") = Some (Month, Mul 1 0) /\
  cu_get (cu_with_time_units SYSTEMD_TIME_UNITS) micro_s = Some (MicroSecond, Mul 1 0) /\
  denotes systemd_nanos_units greek_mu_s MicroSecond /\ cu_get (cu_with_time_units SYSTEMD_TIME_UNITS) greek_mu_s = None.
Proof.
  split; [|split; [reflexivity|split; [reflexivity|split; [|reflexivity]]]].
  - exists [%"M"; %"month"; %"months"]. cbn; tauto.
  - exists [%"us"; [206; 188; 115]; [194; 181; 115]; %"usec"]. cbn; tauto.
Qed.

(** The settings of the systemd parser, as calls on a custom parser: *)
Definition systemd_settings (u : time_unit) : list setting :=
  [ Set_default_unit u; Set_allow_time_unit_delimiter true; Set_disable_exponent true; Set_disable_infinity true;
    Set_number_is_optional true; Set_parse_multiple true None; Set_inner_delimiter sd_delimiter; Set_outer_delimiter sd_delimiter ].
(** a custom parser with them, the exported table and "μs" *)
Definition custom_systemd (u : time_unit) : custom_parser :=
  fold_left cp_call (C_time_unit (ctu_with_default MicroSecond [greek_mu_s]) :: map C_set (systemd_settings u))
    (cp_with_time_units SYSTEMD_TIME_UNITS).

Lemma with_mu_registered id u m :
  registered (SYSTEMD_TIME_UNITS ++ [ctu_with_default MicroSecond [greek_mu_s]]) id u m <-> m = Mul 1 0 /\ denotes systemd_nanos_units id u.
Proof.
  split.
  - intros (N & t & H1 & H2 & H3). apply in_app_iff in H1. destruct H1 as [H1|[<-|[]]].
    + assert (R : registered SYSTEMD_TIME_UNITS id u m) by (split; eauto). apply systemd_registered in R. tauto.
    + injection H2 as <- <-. destruct H3 as [<-|[]]. split; [reflexivity|].
      exists [%"us"; [206; 188; 115]; [194; 181; 115]; %"usec"]. cbn; tauto.
  - intros (-> & D). destruct (str_eqb id greek_mu_s) eqn:E.
    + apply str_eqb_iff in E. subst id.
      assert (E : sd_get_nanos greek_mu_s = Some (u, Mul 1 0)) by (apply sd_get_nanos_spec; auto). injection E as <-.
      split; [discriminate|]. exists (ctu_with_default MicroSecond [greek_mu_s]). split; [apply in_app_iff; right; now left|]. split; [reflexivity|now left].
    + assert (N : id <> greek_mu_s) by (intros ->; discriminate E).
      destruct (proj2 (systemd_registered id u (Mul 1 0))) as (R1 & t & R2 & R3); [auto|]. split; [exact R1|]. exists t. split; [apply in_app_iff; now left|exact R3].
Qed.

Lemma custom_systemd_parse u s : cp_parse (custom_systemd u) s = parse (sd_with_default_unit u) s sd_TIME_UNITS_WITH_NANOS None None.
Proof.
  unfold custom_systemd. rewrite cp_calls. unfold cp_parse. cbn [cp_units cp_keywords cp_numerals cp_config cp_with_time_units].
  assert (Eu : units_of (C_time_unit (ctu_with_default MicroSecond [greek_mu_s]) :: map C_set (systemd_settings u)) =
               [ctu_with_default MicroSecond [greek_mu_s]]) by reflexivity.
  assert (Ek : keywords_of (C_time_unit (ctu_with_default MicroSecond [greek_mu_s]) :: map C_set (systemd_settings u)) = []) by reflexivity.
  assert (En : numerals_of (C_time_unit (ctu_with_default MicroSecond [greek_mu_s]) :: map C_set (systemd_settings u)) = []) by reflexivity.
  rewrite Eu, Ek, En. clear Eu Ek En.
  assert (Ea : fold_left add_custom_time_unit [ctu_with_default MicroSecond [greek_mu_s]] (cu_with_time_units SYSTEMD_TIME_UNITS) =
          cu_with_time_units (SYSTEMD_TIME_UNITS ++ [ctu_with_default MicroSecond [greek_mu_s]])).
  { unfold cu_with_time_units. now rewrite fold_left_app. }
  rewrite Ea. clear Ea.
  assert (Ec : fold_left cp_set_config (flat_map (fun o => match o with C_set s => [s] | _ => [] end)
    (C_time_unit (ctu_with_default MicroSecond [greek_mu_s]) :: map C_set (systemd_settings u))) config_new = sd_with_default_unit u) by reflexivity.
  rewrite Ec. clear Ec.
  apply (parse_ext (sd_with_default_unit u)); [|exact I|exact I]. split; cbn [u_is_empty u_get custom_like sd_TIME_UNITS_WITH_NANOS].
  - destruct (cu_is_empty _) eqn:E; [|reflexivity]. rewrite C34_is_empty in E. elim (E (ctu_with_default NanoSecond [%"ns"; %"nsec"])).
    + now left.
    + exists (%"ns"). split; [now left|discriminate].
  - intros id. destruct (sd_get_nanos id) as [[v m]|] eqn:E.
    + pose proof (proj1 (sd_get_nanos_spec _ _ _) E) as D. apply C34_unambiguous; [now apply with_mu_registered|].
      intros v' m' R. apply with_mu_registered in R. apply sd_get_nanos_spec in R. congruence.
    + destruct (cu_get _ id) as [[v m]|] eqn:F; [|reflexivity]. apply C34_lookup in F. destruct F as [F _].
      apply with_mu_registered in F. apply sd_get_nanos_spec in F. congruence.
Qed.

(** it reads what the systemd parser reads, for every text (without white space at its ends) other than "infinity"; the systemd
    parser only adds the limit *)
Theorem C64_systemd_parser : forall p u ws1 t ws2 max, made p u -> white_space ws1 -> white_space ws2 -> trimmed t -> utf8 t = true ->
  t <> %"infinity" -> duration_ok max -> is_negative max = false ->
  match cp_parse (custom_systemd u) t with
  | Ok d => exists d', sd_parse_nanos_with_max p (ws1 ++ t ++ ws2) max = Ok d' /\ duration_ok d' /\ nanos d' = Z.min (nanos d) (nanos max)
  | Err e => sd_parse_nanos_with_max p (ws1 ++ t ++ ws2) max = Err e
  | Crash _ => False
  end.
Proof.
  intros p u ws1 t ws2 max Hp H1 H2 Ht Hs Ni Hm Hn. apply made_is in Hp. subst p.
  change (sd_parse_nanos_with_max (sd_with_default_unit u)) with (common u sd_TIME_UNITS_WITH_NANOS).
  rewrite common_around, common_unfold by assumption. cbv zeta. rewrite custom_systemd_parse.
  assert (E : trim_end (trim_start t) = t).
  { pose proof (trim_unique [] t []) as U. rewrite app_nil_r in U. apply U; auto; try (intros x []). exact (utf8_bytes t Hs). }
  rewrite E. destruct (str_eqb t (%"infinity")) eqn:Ei; [apply str_eqb_iff in Ei; contradiction|].
  destruct (C20_never_crashes _ _ _ _ _ (sd_env_nanos_ok u) Hs) as [(d & P & Hd)|(e & P)]; rewrite P; cbn [map_res bind]; [|reflexivity].
  exists (dmin d max). destruct (dmin_spec d max Hd Hm). auto.
Qed.
Print Assumptions C64_systemd_parser.
(** a time span with three parts, cut to the limit *)
Example C64_systemd_parser_example :
  let t := [50; 206; 188; 115] ++ %" 1month3min" in
  trimmed t /\ utf8 t = true /\ t <> %"infinity" /\
  cp_parse (custom_systemd Second) t = Ok (Dur false (Std (2629800 + 180) 2000)) /\
  sd_parse_nanos_with_max sd_new (%" " ++ t ++ %" ") (Dur false (Std 7 0)) = Ok (Dur false (Std 7 0)).
Proof.
  cbv zeta. split; [|split; [reflexivity|split; [discriminate|split; vm_compute; reflexivity]]].
  split; [intros x r E; injection E as <- _; unfold white; lia|].
  intros x r E. apply (f_equal (fun l => last l 0)) in E. rewrite last_last in E. vm_compute in E. subst x. unfold white. lia.
Qed.
