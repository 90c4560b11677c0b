(** * Property C92: fundu-gnu reads what the example program gnu prints *)
From Verif Require Import Prelude Util Time Config Bytes Repr Parse SpecTime SpecNum SpecValue SpecParse SpecGrammar SpecCustom SpecSystemd SpecGnu
  TimeProofs NumProofs Utf8Proofs Standard PropTime PropDisplay PropText Custom Misc DateTime Gnu PropSpans PropGnu PropGnuOrder
  Examples SpecExamples ExampleTrim ExampleProofs PropExampleSystemd PropExampleGnu.

Definition unit_for (u : time_unit) : gnu_unit :=
  match u with Minute => Seconds 60 | Hour => Seconds 3600 | Day => Seconds 86400 | Week => Seconds 604800 | Month => AMonth | Year => AYear | _ => Seconds 1 end.
Definition amount_for (ng : bool) (p : Z * time_unit) : amount := times (SpecGnu.with_sign ng (fst p)) (unit_for (snd p)).
Lemma gnu_word_known u v : large u -> word_for gnu_units (gnu_word u v) (unit_for u).
Proof.
  intros L. unfold gnu_word. destruct (v =? 1); destruct u; try (exfalso; now apply L);
    match goal with |- word_for _ ?w _ => eexists; exists w; (split; [cbn [gnu_units unit_for In]; repeat (first [left; reflexivity|right])|split; [|reflexivity]; cbn; auto]) end.
Qed.
Lemma gnu_word_starts u v : ends_digits (gnu_word u v).
Proof.
  intros x r E. assert (X : x = 115 \/ x = 109 \/ x = 104 \/ x = 100 \/ x = 119 \/ x = 121); [|lia].
  unfold gnu_word in E. destruct u; cbn in E; injection E as <- _; auto 10.
Qed.
Lemma part_relative (ng : bool) v u s : decimal v s -> large u -> relative_time ((if ng then %"-" else []) ++ s ++ gnu_word u v) [amount_for ng (v, u)].
Proof.
  intros (D1 & D2 & D3) L. apply rt_last.
  assert (G : gnu_sign (if ng then %"-" else []) ng) by (destruct ng; [exact (gs_minus [] (fun x (H : In x []) => False_ind _ H))|exact gs_none]).
  assert (N : s <> []) by (intros ->; contradiction).
  refine (gi_number_unit _ ng s s [] [] (gnu_word u v) (unit_for u) false [] _ G _ _ _ _).
  - apply gn_whole; [exact D1|exact N|apply gnu_word_starts].
  - intros x [].
  - rewrite <- (app_nil_r (gnu_word u v)) at 1. apply up_plain; [now apply gnu_word_known|intros x r; discriminate|]. intros r' (ds & a & E & Nd & _). destruct ds; [contradiction|discriminate].
  - rewrite xorb_false_r. unfold amount_for. cbn [fst snd]. rewrite <- D2. apply na_whole.
Qed.
Lemma written_spaced (ng : bool) l h : written_with gnu_word ng l h -> (forall v u, In (v, u) l -> large u) ->
  exists ps, spaced ps h /\ (forall p, In p ps -> utf8 p = true /\ own_part p) /\ Forall2 relative_time ps (map (fun p => [amount_for ng p]) l).
Proof.
  assert (A : forall v u s, decimal v s -> large u -> let p := (if ng then %"-" else []) ++ s ++ gnu_word u v in utf8 p = true /\ own_part p).
  { intros v u s D L p. pose proof (ww_one gnu_word ng v u s D) as W. fold p in W. split; [exact (written_utf8 gnu_word ng gnu_words _ _ W)|].
    split; [exact (trims_trimmed _ (written_trims gnu_word ng gnu_words _ _ W))|]. unfold p. destruct D as (D1 & _ & D3).
    destruct ng; [eexists; eexists; split; [reflexivity|right; right; reflexivity]|]. destruct s as [|x s]; [contradiction|]. eexists. eexists. split; [reflexivity|]. left. apply D1. now left. }
  induction 1 as [v u s D|v u s l t D W IH]; intros H.
  - exists [(if ng then %"-" else []) ++ s ++ gnu_word u v]. assert (L : large u) by (apply (H v u); now left). split; [constructor|]. split.
    + intros p [<-|[]]. now apply A.
    + constructor; [now apply part_relative|constructor].
  - destruct IH as (ps & S & P & F); [intros v' u' G; apply (H v' u'); now right|]. assert (L : large u) by (apply (H v u); now left).
    exists (((if ng then %"-" else []) ++ s ++ gnu_word u v) :: ps). split; [apply sp_more; [discriminate|intros x [<-|[]]; now left|exact S]|]. split.
    + intros p [<-|G]; [now apply A|now apply P].
    + constructor; [now apply part_relative|exact F].
Qed.

(** ** the sums *)
Definition count (k : time_unit) (l : list (Z * time_unit)) : Z :=
  fold_right (fun p a => (match k, snd p with Year, Year | Month, Month => fst p | _, _ => 0 end) + a) 0 l.
Definition smaller (l : list (Z * time_unit)) : Z :=
  fold_right (fun p a => (match snd p with Year | Month => 0 | u => fst p * nanos_of_unit u end) + a) 0 l.
Lemma count_cons k v u l : count k ((v, u) :: l) = (match k, u with Year, Year | Month, Month => v | _, _ => 0 end) + count k l.
Proof. reflexivity. Qed.
Lemma smaller_cons v u l : smaller ((v, u) :: l) = (match u with Year | Month => 0 | u => v * nanos_of_unit u end) + smaller l.
Proof. destruct u; reflexivity. Qed.
Lemma sum_cons v u l : sum_of_parts ((v, u) :: l) = v * nanos_of_unit u + sum_of_parts l.
Proof. reflexivity. Qed.
Lemma sum_splits l : sum_of_parts l = count Year l * nanos_of_unit Year + count Month l * nanos_of_unit Month + smaller l.
Proof.
  induction l as [|[v u] l IH]; [reflexivity|]. rewrite sum_cons, !count_cons, smaller_cons, IH. destruct u; cbn [nanos_of_unit]; lia.
Qed.
Lemma parts_positive l : (forall v u, In (v, u) l -> 1 <= v) -> 0 <= count Year l /\ 0 <= count Month l /\ 0 <= smaller l.
Proof.
  induction l as [|[v u] l IH]; intros H; [cbn; lia|]. destruct IH as (A & B & C); [intros v' u' G; apply (H v' u'); now right|]. assert (1 <= v) by (apply (H v u); now left).
  rewrite !count_cons, smaller_cons. destruct u; cbn [nanos_of_unit]; lia.
Qed.
Lemma max_year : max_nanos < 2 ^ 63 * nanos_of_unit Month.
Proof. reflexivity. Qed.
Lemma sums_from ng l : (forall v u, In (v, u) l -> 1 <= v /\ large u) -> forall Y M N, 0 <= Y -> 0 <= M -> 0 <= N ->
  Y * nanos_of_unit Year + M * nanos_of_unit Month + N + sum_of_parts l <= max_nanos ->
  fold_left (fun t a => match a with Years v => clamp_i64 (t + v) | _ => t end) (map (amount_for ng) l) (SpecGnu.with_sign ng Y) = SpecGnu.with_sign ng (Y + count Year l) /\
  fold_left (fun t a => match a with Months v => clamp_i64 (t + v) | _ => t end) (map (amount_for ng) l) (SpecGnu.with_sign ng M) = SpecGnu.with_sign ng (M + count Month l) /\
  fold_left (fun t a => match a with Nanos v => clamp_nanos (t + v) | _ => t end) (map (amount_for ng) l) (SpecGnu.with_sign ng N) = SpecGnu.with_sign ng (N + smaller l).
Proof.
  assert (CI : forall a b, 0 <= a -> 0 <= b -> a + b < 2 ^ 63 -> clamp_i64 (SpecGnu.with_sign ng a + clamp_i64 (SpecGnu.with_sign ng b)) = SpecGnu.with_sign ng (a + b)).
  { intros a b Ha Hb Hab. unfold clamp_i64, clamp, SpecGnu.with_sign. destruct ng; lia. }
  assert (CN : forall a b k, 0 <= a -> 0 <= b -> 0 <= k -> a + b * k * 1000000000 <= max_nanos -> clamp_nanos (SpecGnu.with_sign ng a + clamp_nanos (SpecGnu.with_sign ng b * k * 1000000000)) = SpecGnu.with_sign ng (a + b * k * 1000000000)).
  { intros a b k Ha Hb Hk Hab. assert (P : 0 <= b * k) by nia. unfold clamp_nanos, clamp, SpecGnu.with_sign. generalize dependent max_nanos. intros mx. destruct ng; lia. }
  pose proof max_year as MY. induction l as [|[v u] l IH]; intros H Y M N HY HM HN B.
  - cbn [map fold_left]. unfold count, smaller. cbn [fold_right]. rewrite !Z.add_0_r. auto.
  - assert (HL : forall v u, In (v, u) l -> 1 <= v /\ large u) by (intros v' u' G; apply (H v' u'); now right). destruct (H v u (or_introl eq_refl)) as [Hv Lu].
    destruct (parts_positive l (fun v u G => proj1 (HL v u G))) as (P1 & P2 & P3).
    pose proof (sum_splits l) as SS. rewrite sum_cons in B.
    cbn [map fold_left]. rewrite !count_cons, smaller_cons.
    unfold amount_for at 2 4 6. cbn [fst snd].
    assert (T : forall A B C D : Z, A = B -> C = D -> A + C = B + D) by (intros; congruence).
    destruct u; cbn [unit_for times nanos_of_unit] in *; try (exfalso; now apply Lu).
    all: try (rewrite CN by lia; destruct (IH HL Y M (N + v * 1 * 1000000000)) as (E1 & E2 & E3); [lia|lia|lia|lia|rewrite E1, E2, E3; split; [|split]; f_equal; lia]).
    all: try (rewrite CN by lia; destruct (IH HL Y M (N + v * 60 * 1000000000)) as (E1 & E2 & E3); [lia|lia|lia|lia|rewrite E1, E2, E3; split; [|split]; f_equal; lia]).
    all: try (rewrite CN by lia; destruct (IH HL Y M (N + v * 3600 * 1000000000)) as (E1 & E2 & E3); [lia|lia|lia|lia|rewrite E1, E2, E3; split; [|split]; f_equal; lia]).
    all: try (rewrite CN by lia; destruct (IH HL Y M (N + v * 86400 * 1000000000)) as (E1 & E2 & E3); [lia|lia|lia|lia|rewrite E1, E2, E3; split; [|split]; f_equal; lia]).
    all: try (rewrite CN by lia; destruct (IH HL Y M (N + v * 604800 * 1000000000)) as (E1 & E2 & E3); [lia|lia|lia|lia|rewrite E1, E2, E3; split; [|split]; f_equal; lia]).
    + rewrite CI by lia. destruct (IH HL Y (M + v) N) as (E1 & E2 & E3); [lia|lia|lia|lia|]. rewrite E1, E2, E3. split; [|split]; f_equal; lia.
    + rewrite CI by lia. destruct (IH HL (Y + v) M N) as (E1 & E2 & E3); [lia|lia|lia|lia|]. rewrite E1, E2, E3. split; [|split]; f_equal; lia.
Qed.
(** the longest unit comes first *)
Lemma greedy_peel k l : greedy l -> (forall v u, In (v, u) l -> nanos_of_unit u <= nanos_of_unit k) -> k = Year \/ k = Month ->
  exists l', greedy l' /\ (forall v u, In (v, u) l' -> In (v, u) l /\ nanos_of_unit u < nanos_of_unit k) /\ sum_of_parts l' < nanos_of_unit k /\
    ((exists v, 1 <= v /\ l = (v, k) :: l') \/ l = l').
Proof.
  assert (C : forall k v u, greedy k -> In (v, u) k -> nanos_of_unit u <= sum_of_parts k).
  { clear. induction k as [|[v u] l IH]; intros v' u' G H; [contradiction|]. destruct G as (G1 & _ & _ & G2). rewrite sum_cons.
    assert (0 <= sum_of_parts l). { rewrite sum_splits. destruct (parts_positive l (greedy_positive l G2)) as (P1 & P2 & P3). cbn [nanos_of_unit]. lia. }
    assert (0 < nanos_of_unit u) by (destruct u; cbn; lia). destruct H as [H|H]; [injection H as <- <-; nia|]. specialize (IH v' u' G2 H). nia. }
  intros G H K. destruct (Z_lt_le_dec (sum_of_parts l) (nanos_of_unit k)) as [L|L].
  - exists l. split; [exact G|]. split; [|auto]. intros v u Hu. split; [exact Hu|]. specialize (C l v u G Hu). lia.
  - destruct l as [|[v u] l]; [exfalso; revert L; destruct K as [->| ->]; cbn; lia|]. pose proof G as (G1 & G2 & G3 & G4). specialize (G2 k L). pose proof (H v u (or_introl eq_refl)) as Hu.
    assert (u = k) by (destruct K as [->| ->]; destruct u; cbn in G2, Hu; try reflexivity; lia). subst u. exists l. split; [exact G4|]. split; [|split; [exact G3|left; eauto]].
    intros v' u' Hu'. split; [now right|]. specialize (C l v' u' G4 Hu'). lia.
Qed.
Lemma greedy_counts l : greedy l -> 0 <= count Year l /\ 0 <= count Month l /\ 0 <= smaller l < nanos_of_unit Month /\ count Month l * nanos_of_unit Month + smaller l < nanos_of_unit Year.
Proof.
  intros G. destruct (parts_positive l (greedy_positive l G)) as (P1 & P2 & P3).
  destruct (greedy_peel Year l G) as (l1 & G1 & H1 & S1 & E1); [intros v u _; destruct u; cbn; lia|auto|].
  destruct (greedy_peel Month l1 G1) as (l2 & G2 & H2 & S2 & E2); [intros v u Hu; apply H1 in Hu; destruct Hu as [_ Hu]; destruct u; cbn in *; lia|auto|].
  assert (Y1 : count Year l1 = 0).
  { assert (H1' : forall v u, In (v, u) l1 -> nanos_of_unit u < nanos_of_unit Year) by (intros v u Hu; now apply (H1 v u)). clear - H1'. induction l1 as [|[v u] l1 IH]; [reflexivity|]. rewrite count_cons, IH by (intros v' u' G; apply (H1' v' u'); now right).
    pose proof (H1' v u (or_introl eq_refl)) as K; destruct u; cbn in K; try reflexivity; lia. }
  assert (M2 : count Month l2 = 0).
  { assert (H2' : forall v u, In (v, u) l2 -> nanos_of_unit u < nanos_of_unit Month) by (intros v u Hu; now apply (H2 v u)). clear - H2'. induction l2 as [|[v u] l2 IH]; [reflexivity|]. rewrite count_cons, IH by (intros v' u' G; apply (H2' v' u'); now right).
    pose proof (H2' v u (or_introl eq_refl)) as K; destruct u; cbn in K; try reflexivity; lia. }
  assert (C1 : count Month l = count Month l1 /\ smaller l = smaller l1) by (destruct E1 as [(v & _ & ->)| ->]; split; reflexivity).
  assert (C2 : count Year l1 = count Year l2 /\ smaller l1 = smaller l2) by (destruct E2 as [(v & _ & ->)| ->]; split; reflexivity).
  pose proof (sum_splits l1) as SS1. pose proof (sum_splits l2) as SS2. destruct C1 as [C1 C1']. destruct C2 as [C2 C2']. rewrite Y1 in SS1. rewrite M2, <- C2, Y1 in SS2. lia.
Qed.

(** the seconds of the second line: years, months and seconds of the third *)
Theorem C92_gnu_reads_it : forall input o m h, utf8 input = true -> gx_main input = Ok (Lines [o; m; %"   Human: " ++ h]) ->
  exists parser t d, gx_parser = Ok parser /\ trims input t /\ cp_parse parser t = Ok d /\
    let s := Z.quot (nanos d) 1000000000 in
    (s <> 0 -> exists d', gnu_parse_fuzzy gnu_new h = Ok (Z.quot s 31557600, Z.quot (Z.rem s 31557600) 2629800, d') /\
      nanos d' = Z.rem (Z.rem s 31557600) 2629800 * 1000000000) /\
    (nanos d = 0 -> gnu_parse_fuzzy gnu_new h = Ok (0, 0, ZERO)).
Proof.
  intros input o m h U E. destruct (C92_gnu_example input U) as (q & t & Eq & T & [(d & mm & h' & Ep & Hd & _ & G & E2)|(e & _ & E2)]); [|rewrite E in E2; discriminate E2].
  exists q, t, d. split; [exact Eq|]. split; [exact T|]. split; [exact Ep|]. rewrite E in E2. apply lines3 in E2. destruct E2 as [_ E2]. apply (app_inv_head (%"   Human: ")) in E2. subst h'. clear E Ep Eq.
  cbv zeta. split.
  - intros N. assert (B : 1000000000 <= Z.abs (nanos d)).
    { destruct (Z_lt_le_dec (Z.abs (nanos d)) 1000000000) as [L|L]; [|exact L]. destruct N. apply Z.quot_small_iff; lia. }
    destruct G as [[G _]|[[G _]|(_ & l & W & Gr & L & S)]]; [lia|lia|].
    destruct (written_spaced _ l h W L) as (ps & Sp & P & F). destruct (C67_parts_add_up ps _ h P F Sp) as (d' & Ed & Hd' & Vd).
    assert (Ec : List.concat (map (fun p => [amount_for (nanos d <? 0) p]) l) = map (amount_for (nanos d <? 0)) l) by (clear; induction l as [|p l IH]; [reflexivity|]; cbn; now rewrite IH).
    rewrite Ec in Ed, Vd. set (ng := nanos d <? 0) in *.
    assert (Bn : Z.abs (nanos d) <= max_nanos). { destruct (abs_into_std d Hd) as (s & _ & _ & Hs & V). rewrite <- V. now apply std_nanos_nonneg. }
    set (K := Z.abs (nanos d) / 1000000000) in *. assert (PK : 0 <= K /\ K * 1000000000 <= Z.abs (nanos d)) by (split; [apply Z.div_pos; lia|unfold K; pose proof (Z.mul_div_le (Z.abs (nanos d)) 1000000000); lia]).
    destruct (sums_from ng l) with (Y := 0) (M := 0) (N := 0) as (S1 & S2 & S3); [intros v u Hu; split; [exact (greedy_positive l Gr v u Hu)|exact (L v u Hu)]|lia|lia|lia|rewrite S; cbn [nanos_of_unit]; lia|].
    replace (SpecGnu.with_sign ng 0) with 0 in S1, S2, S3 by (destruct ng; reflexivity). rewrite !Z.add_0_l in *.
    destruct (greedy_counts l Gr) as (C1 & C2 & C3 & C4). pose proof (sum_splits l) as SS. rewrite S in SS. cbn [nanos_of_unit] in C3, C4, SS.
    set (cy := count Year l) in *. set (cm := count Month l) in *. set (sm := smaller l) in *.
    assert (Es : Z.quot (nanos d) 1000000000 = SpecGnu.with_sign ng K).
    { unfold K, ng, SpecGnu.with_sign. destruct (nanos d <? 0) eqn:En.
      - replace (nanos d) with (- Z.abs (nanos d)) at 1 by lia. rewrite Z.quot_opp_l by lia. rewrite Z.quot_div_nonneg by lia. reflexivity.
      - replace (nanos d) with (Z.abs (nanos d)) at 1 by lia. rewrite Z.quot_div_nonneg by lia. reflexivity. }
    set (ss := K - cy * 31557600 - cm * 2629800). assert (Ess : sm = ss * 1000000000) by (unfold ss; lia).
    assert (Q1 : K / 31557600 = cy) by (symmetry; apply Z.div_unique with (cm * 2629800 + ss); unfold ss; lia).
    assert (R1 : K mod 31557600 = cm * 2629800 + ss) by (symmetry; apply Z.mod_unique with cy; unfold ss; lia).
    assert (Q2 : (cm * 2629800 + ss) / 2629800 = cm) by (symmetry; apply Z.div_unique with ss; lia).
    assert (R2 : (cm * 2629800 + ss) mod 2629800 = ss) by (symmetry; apply Z.mod_unique with cm; lia).
    assert (QQ : forall a b, 0 <= a -> 0 < b -> Z.quot (SpecGnu.with_sign ng a) b = SpecGnu.with_sign ng (a / b) /\ Z.rem (SpecGnu.with_sign ng a) b = SpecGnu.with_sign ng (a mod b)).
    { intros a b Ha Hb. destruct ng; cbn [SpecGnu.with_sign]; [rewrite Z.quot_opp_l, Z.rem_opp_l by lia|]; rewrite Z.quot_div_nonneg, Z.rem_mod_nonneg by lia; auto. }
    exists d'. rewrite Es. destruct (QQ K 31557600) as [A1 A2]; [lia|lia|]. rewrite A1, A2, Q1, R1. destruct (QQ (cm * 2629800 + ss) 2629800) as [A3 A4]; [lia|lia|]. rewrite A3, A4, Q2, R2.
    split.
    + rewrite Ed. unfold sum_years, sum_months. rewrite S1, S2. reflexivity.
    + rewrite Vd. unfold sum_nanos. rewrite S3, Ess. destruct ng; cbn [SpecGnu.with_sign]; lia.
  - intros N. destruct G as [[_ ->]|[[G _]|(G & _)]]; [vm_compute; reflexivity|lia|lia].
Qed.
Print Assumptions C92_gnu_reads_it.
Example C92_gnu_reads_example : gnu_parse_fuzzy gnu_new (%"-10months") = Ok (0, -10, ZERO) /\
  gx_main (%"1 year 40 days -30sec") = Ok (Lines [%"Original: 1 year 40 days -30sec"; %" Seconds: 35013570"; %"   Human: 1year 1month 1week 2days 13hours 29mins 30secs"]) /\
  Z.quot 35013570 31557600 = 1 /\ Z.quot (Z.rem 35013570 31557600) 2629800 = 1 /\
  gnu_parse_fuzzy gnu_new (%"1year 1month 1week 2days 13hours 29mins 30secs") = Ok (1, 1, Dur false (Std 826170 0)).
Proof. split; [vm_compute; reflexivity|]. split; [vm_compute; reflexivity|]. split; [reflexivity|]. split; [reflexivity|]. vm_compute; reflexivity. Qed.
