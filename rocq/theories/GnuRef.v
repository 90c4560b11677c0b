(** * The gnu parser: what the components of a text are, before they are evaluated *)
From Verif Require Import Prelude Util Time Config Bytes Repr Parse SpecTime SpecNum SpecValue SpecParse SpecGrammar SpecSystemd
  TimeProofs NumProofs ReprProofs Utf8Proofs BytesProofs SafeProofs RefParse RefProofs RefMulti Systemd SystemdProofs
  SpecGnu Gnu GnuWords.

Notation gc := gnu_CONFIG.
Notation gu := gnu_TIME_UNITS.
Notation gk := (Some gnu_TIME_KEYWORDS).
Notation gn := (Some gnu_NUMERALS).

Lemma gnu_delimiter_iff x : gnu_delimiter x = true <-> white x.
Proof. exact (sd_delimiter_iff x). Qed.
Lemma gnu_delim_ascii : ascii_delim gnu_delimiter.
Proof. exact sd_delim_ascii. Qed.

Lemma small_fits a b : Z.abs (coef a) <= 10 ^ 9 -> Z.abs (coef b) <= 10 ^ 9 -> expo a = 0 -> expo b = 0 ->
  mul_checked_mul a b = Some (Mul (coef a * coef b) 0).
Proof.
  intros H1 H2 E1 E2. unfold mul_checked_mul, chk. rewrite E1, E2.
  replace (is_i64 (coef a * coef b)) with true; [reflexivity|]. symmetry. apply is_i64_iff. nia.
Qed.
Lemma neg_small m : -2 <= coef m <= 2 -> mul_saturating_neg m = Mul (- coef m) (expo m).
Proof. intros H. unfold mul_saturating_neg, i64_min. destruct (Z.eqb_spec (coef m) (-9223372036854775808)); [lia|reflexivity]. Qed.

Lemma gnu_env_ok : env_ok gc gu gk gn.
Proof.
  constructor; try exact gnu_delim_ascii.
  - discriminate.
  - intros id u m H. cbn in H. destruct (unit_values id u m H) as (E1 & E2 & E3 & E4 & _).
    split.
    + unfold multiplier_ok. rewrite E1. split; [apply is_i64_iff; lia|reflexivity].
    + rewrite small_fits by (lia || assumption). discriminate.
  - intros k [= <-] id u m H. cbn in H. destruct (keyword_values id u m H) as (-> & E2 & E3). split.
    + unfold multiplier_ok. rewrite E3. split; [apply is_i64_iff; lia|reflexivity].
    + rewrite small_fits; cbn; try lia. discriminate.
  - intros f id n [= <-] Hn id' u m H. cbn in H. destruct (unit_values id' u m H) as (E1 & E2 & E3 & E4 & _).
    destruct (numeral_values id n Hn) as [N1 N2].
    assert (G : forall k, -2 <= coef k <= 2 -> expo k = 0 -> numeral_fits n u k).
    { intros k K1 K2. exists (Mul (coef n * coef (unit_multiplier u)) 0). split; [apply small_fits; lia || assumption|].
      rewrite small_fits; cbn [coef expo]; try lia; [discriminate|nia]. }
    split; [apply G; [lia|assumption]|]. intros _. apply G; rewrite neg_small by lia; cbn [coef expo]; [lia|exact E1].
Qed.
Lemma gnu_delims x : c_inner_delimiter gc x = true -> keyword_end gc x = true.
Proof. intros H. unfold keyword_end. cbn in *. now rewrite H. Qed.
Definition gnu_fit : kfit gc gk gn (keyword_end gc) := kfit_all gc gk gn gnu_delims.

(** ** items *)
Record item := Item {
  i_neg : bool; i_whole : option str; i_fract : option str; i_numeral : option multiplier; i_unit : option (time_unit * multiplier)
}.

Definition g_fraction (l : str) : option str * str :=
  match l with
  | x :: l' => if is_dot x then (Some (take_while is_digit l'), drop_while is_digit l') else (None, l)
  | [] => (None, [])
  end.
Definition opt_text (o : option str) : str := match o with Some l => l | None => [] end.
Definition g_fin (it : item) (l : str) : option (item * str) := let? l := f_next gc l in Some (it, l).
Definition g_number (n : bool) (W l : str) : option (item * str) :=
  let '(F, l) := g_fraction l in
  if is_empty (W ++ opt_text F) then None else
  if match l with x :: _ => is_e x | [] => false end then None else
  let? l := f_unit_delimiter gc l in
  match l with
  | [] => Some (Item n (nonempty W) F None None, [])
  | _ => let? (o, l) := fm_ntu gc gu l in g_fin (Item n (nonempty W) F None o) l
  end.
Definition g_numeral (n : bool) (l : str) : option (item * str) :=
  let? o := f_numeral_prefix gc gn l in
  match o with
  | None => None
  | Some (num, l) =>
      let? o := fm_tu gc gu l in
      match o with
      | None => None
      | Some (um, l) => g_fin (Item n None None (Some num) (Some um)) l
      end
  end.
Definition g_word (n : bool) (l : str) : option (item * str) :=
  let? o := fm_kw gc gk l in
  match o with
  | Some (um, l) => g_fin (Item n None None None (Some um)) l
  | None =>
      let? o := fm_tu gc gu l in
      match o with
      | Some (um, l) => g_fin (Item n None None None (Some um)) l
      | None => g_numeral n l
      end
  end.
Definition g_item (s : str) : option (item * str) :=
  let? (n, l) := f_signed gc s in
  match l with
  | [] => None
  | x :: _ =>
      if is_digit x then g_number n (take_while is_digit l) (drop_while is_digit l)
      else if is_dot x then g_number n [] l
      else g_word n l
  end.

Section ItemSim.
Context (s : str).
Notation K := (keyword_end gc).
Notation SC := (SC K s).
Notation num_r := (num_r gc s).
Notation sgn_r := (sgn_r gc s).
Let HE := gnu_env_ok.

Record item_repr (it : item) (r : repr) : Prop := ItemRepr {
  ir_input : r_input r = s;
  ir_default : r_default_unit r = Second;
  ir_neg : neg_or_default (r_is_negative r) = i_neg it;
  ir_whole : match i_whole it with
             | None => r_whole r = None
             | Some W => exists w W0 z, r_whole r = Some w /\ range_slice s w = Ok W0 /\ digit_string W0 /\ W = z ++ W0 /\ all_zeros z = true
             end;
  ir_fract : match i_fract it with
             | None => r_fract r = None
             | Some F => exists f, r_fract r = Some f /\ range_slice s f = Ok F /\ digit_string F
             end;
  ir_numeral : r_numeral r = i_numeral it;
  ir_unit : r_unit r = option_map fst (i_unit it);
  ir_multiplier : r_multiplier r = match i_unit it with Some um => snd um | None => default_multiplier end
}.

(** what the tables of the parser contain *)
Record um_small (um : time_unit * multiplier) : Prop := UmSmall {
  us_expo : expo (snd um) = 0;
  us_coef : -2 <= coef (snd um) <= 2;
  us_uexpo : expo (unit_multiplier (fst um)) = 0;
  us_ucoef : 1 <= coef (unit_multiplier (fst um)) <= 31557600;
  us_one : fst um = Month \/ fst um = Year \/ fst um = Second -> coef (snd um) = 1 \/ coef (snd um) = -1
}.
Record item_ok (it : item) : Prop := ItemOk {
  io_unit : forall um, i_unit it = Some um -> um_small um /\ (i_whole it <> None -> coef (snd um) <> 0);
  io_numeral : forall k, i_numeral it = Some k -> -1 <= coef k <= 12 /\ expo k = 0 /\ i_whole it = None /\ i_fract it = None;
  io_some : i_whole it = None -> i_fract it = None -> i_unit it <> None;
  io_digits : (forall W, i_whole it = Some W -> digit_string W) /\ (forall F, i_fract it = Some F -> digit_string F)
}.
Definition item_rel (o : multi_output) (x : item * str) : Prop :=
  item_ok (fst x) /\ item_repr (fst x) (fst o) /\
  match snd o with None => snd x = [] | Some b => snd x <> [] /\ SC b (snd x) end.

Lemma sim_item_finalize b l r it : SC b l -> (0 < pos b)%nat -> item_ok it -> item_repr it r ->
  sim item_rel (multi_finalize b r gc) (g_fin it l).
Proof.
  intros H P Hok Hr. unfold multi_finalize, g_fin, f_next. rewrite (SC_cur _ _ _ _ H).
  destruct l as [|x l]; cbn [hd_opt obind]; [split; [exact Hok|split; [exact Hr|reflexivity]]|].
  destruct (c_outer_delimiter gc x) eqn:Ex.
  - eapply sim_bind; [apply (sim_connect gc gu gk gn s (keyword_end gc) HE b x l H Ex P)|].
    intros b1 r1 (S1 & N1 & _). split; [exact Hok|]. split; [exact Hr|]. cbn [snd]. auto.
  - cbn [obind sim]. split; [exact Hok|]. split; [exact Hr|]. cbn [snd]. split; [discriminate|exact H].
Qed.

(** a number without a unit yet *)
Record num_item (n : bool) (W : str) (F : option str) (r : repr) : Prop := NumItem {
  ni_num : num_r n W (opt_text F) 0 r;
  ni_whole : r_whole r = None <-> W = [];
  ni_fract : r_fract r = None <-> F = None
}.
Lemma num_item_repr n W F r um : num_item n W F r -> 
  item_repr (Item n (nonempty W) F None um) (match um with Some um => set_unit r um | None => r end).
Proof.
  intros [[[] Hh Hd Hn (W0 & SW & DW & z & EW & Hz) [SF DF] Hx] NW NF].
  assert (A : match nonempty W with
             | None => r_whole r = None
             | Some W => exists w W0 z, r_whole r = Some w /\ range_slice s w = Ok W0 /\ digit_string W0 /\ W = z ++ W0 /\ all_zeros z = true
             end).
  { destruct W as [|x0 W1] eqn:EqW; cbn [nonempty]; [now apply NW|].
    destruct (r_whole r) as [w|]; [|discriminate (proj1 NW eq_refl)]. exists w, W0, z. auto. }
  assert (B : match F with
             | None => r_fract r = None
             | Some F => exists f, r_fract r = Some f /\ range_slice s f = Ok F /\ digit_string F
             end).
  { destruct F as [F|]; [|now apply NF]. cbn [opt_text] in *. destruct (r_fract r) as [f|]; [|discriminate (proj1 NF eq_refl)].
    exists f. auto. }
  destruct um as [um|]; constructor; cbn [i_neg i_whole i_fract i_numeral i_unit set_unit r_input r_default_unit r_is_negative r_whole
    r_fract r_numeral r_unit r_multiplier option_map]; auto.
Qed.

(** the fraction *)
Lemma fraction_fields b r b' r' go : parse_number_fraction b r false = Ok (b', r', go) ->
  r_whole r' = r_whole r /\
  ((exists x, cur b = Some x /\ is_dot x = true) /\ r_fract r' <> None \/
   (forall x, cur b = Some x -> is_dot x = false) /\ r' = r).
Proof.
  unfold parse_number_fraction. destruct (cur b) as [x|] eqn:E.
  2:{ intros [= <- <- <-]. split; [reflexivity|]. right. split; [discriminate|reflexivity]. }
  unfold is_dot. destruct (x =? 46) eqn:Ex; cbn [andb negb].
  2:{ intros [= <- <- <-]. split; [reflexivity|]. right. split; [|reflexivity]. intros y [= <-]. exact Ex. }
  assert (G : forall f, r_whole (set_fract r f) = r_whole r /\
    ((exists x0, Some x = Some x0 /\ (x0 =? 46) = true) /\ r_fract (set_fract r f) <> None \/
     (forall x0, Some x = Some x0 -> (x0 =? 46) = false) /\ set_fract r f = r)).
  { intros f. split; [reflexivity|]. left. split; [eauto|discriminate]. }
  destruct (cur (advance b)) as [y|].
  - destruct (is_digit y).
    + destruct (parse_fract (advance b)) as [[b2 f]| |]; cbn [bind]; try discriminate. intros [= <- <- <-]. apply G.
    + destruct (r_whole r) eqn:Er; cbn [bind].
      * intros [= <- <- <-]. apply G.
      * destruct (sub_usize _ _); discriminate.
  - destruct (r_whole r) eqn:Er; cbn [bind].
    + intros [= <- <- <-]. apply G.
    + destruct (sub_usize _ _); discriminate.
Qed.


Lemma found_small u m : found_unit gc gu u m -> um_small (u, m) /\ coef m <> 0.
Proof.
  intros (id & m0 & Hg & Hm). cbn [u_get gnu_TIME_UNITS] in Hg. destruct (unit_values id u m0 Hg) as (E1 & E2 & E3 & E4 & E5 & E6).
  assert (O : u = Month \/ u = Year \/ u = Second -> m0 = Mul 1 0) by (intros [->|[->| ->]]; auto).
  destruct Hm as [->|[_ ->]].
  - split; [|lia]. constructor; cbn [fst snd]; auto; [lia|]. intros Hu. rewrite (O Hu). now left.
  - rewrite neg_small by lia. cbn [coef]. split; [|lia]. constructor; cbn [fst snd coef expo]; auto; [lia|].
    intros Hu. rewrite (O Hu). now right.
Qed.
Lemma digits_ok n W F o (HW : digit_string W) (HF : digit_string (opt_text F)) (N : W ++ opt_text F <> [])
  (Ho : forall um, o = Some um -> um_small um /\ coef (snd um) <> 0) : item_ok (Item n (nonempty W) F None o).
Proof.
  constructor; cbn [i_unit i_whole i_fract i_numeral].
  - intros um E. destruct (Ho um E). auto.
  - discriminate.
  - intros E1 ->. destruct W; [|discriminate]. cbn [app opt_text] in N. congruence.
  - split.
    + intros W' E. destruct W; [discriminate|]. injection E as <-. exact HW.
    + intros F' ->. exact HF.
Qed.

Lemma sim_item_number b l n W r : SC b l -> before_fraction gc s n W l r -> r_fract r = None -> digit_string W ->
  ((0 < pos b)%nat \/ starts_with is_dot l) ->
  sim item_rel (template_number multi b r gc gu) (g_number n W l).
Proof.
  intros H Hr Hf0 DW Hp. unfold template_number.
  pose proof (SC_pos _ _ _ _ H) as P0.
  pose proof (sim_fraction gc K s b l n W r H Hr) as S0.
  change (c_disable_fraction gc) with false in *. change (c_disable_exponent gc) with true.
  assert (EF : (let? (F, l) := f_fraction gc l in if is_empty (W ++ F) then None else Some (F, l)) =
               (if is_empty (W ++ opt_text (fst (g_fraction l))) then None else Some (opt_text (fst (g_fraction l)), snd (g_fraction l)))).
  { unfold f_fraction, g_fraction. change (c_disable_fraction gc) with false. destruct l as [|x l0]; [reflexivity|]. destruct (is_dot x); reflexivity. }
  rewrite EF in S0. clear EF. unfold g_number.
  pose proof (fraction_fields b r) as FF. rewrite (SC_cur _ _ _ _ H) in FF.
  assert (ED : fst (g_fraction l) = None <-> ~ starts_with is_dot l).
  { unfold g_fraction. destruct l as [|x l0]; cbn; [tauto|]. destruct (is_dot x); cbn; split; intros; congruence || auto. }
  destruct (g_fraction l) as [F l1]. cbn [fst snd] in *.
  destruct (is_empty (W ++ opt_text F)) eqn:EE.
  { destruct (parse_number_fraction b r false) as [[[b1 r1] go1]|?|?]; [contradiction|exact I|contradiction]. }
  assert (NE : W ++ opt_text F <> []) by (destruct (W ++ opt_text F); discriminate).
  destruct (parse_number_fraction b r false) as [[[b1 r1] go1]|?|?]; [|contradiction|contradiction]. cbn [sim bind fst snd] in *.
  destruct S0 as (H1 & R1 & L1 & D1 & G1). destruct (FF b1 r1 go1 eq_refl) as (FW & FD).
  assert (NI : num_item n W F r1).
  { split; [exact R1| |].
    - rewrite FW. destruct Hr as [[[_ Hw] Nw]|(-> & [[_ [Hr _]] _ _ _] & _)]; [tauto|]. rewrite Hr. tauto.
    - rewrite ED. destruct FD as [((x & Ex & Dx) & NF)|[FD ->]].
      + destruct l as [|x0 l0]; [discriminate|]. cbn in Ex. injection Ex as <-. cbn. rewrite Dx. split; [contradiction|]. intros N. elim N; reflexivity.
      + assert (ND : ~ starts_with is_dot l).
        { destruct l as [|x0 l0]; cbn; [tauto|]. rewrite (FD x0 eq_refl). discriminate. }
        split; auto. }
  assert (DF : digit_string (opt_text F)) by (destruct R1; tauto).
  assert (Lt : (length l1 < length s)%nat) by (destruct Hp as [Hp|Hp]; [lia|specialize (D1 Hp); lia]).
  assert (OUT : forall b2, SC b2 [] -> item_rel (multi_make_output b2 r1) (Item n (nonempty W) F None None, [])).
  { intros b2 H2. unfold multi_make_output. rewrite (SC_cur _ _ _ _ H2). cbn [hd_opt]. split; [|split; [|reflexivity]].
    - apply digits_ok; auto. discriminate.
    - cbn [fst]. exact (num_item_repr n W F r1 None NI). }
  destruct go1; cbn [negb].
  2:{ rewrite (G1 eq_refl) in *. cbn [obind f_unit_delimiter]. apply OUT. exact H1. }
  unfold parse_number_exponent. rewrite (SC_cur _ _ _ _ H1).
  destruct l1 as [|x l1]; cbn [hd_opt].
  { cbn [bind negb obind f_unit_delimiter]. now apply OUT. }
  rewrite is_e_eq. destruct (is_e x); cbn [andb negb bind]; [exact I|].
  pose proof (SC_pos _ _ _ _ H1) as P2.
  eapply sim_bind; [apply (sim_unit_delimiter gc K s b1 (x :: l1) (env_inner _ _ _ _ HE) H1); cbn [length] in *; lia|].
  intros [b3 go3] l3 (H3 & L3 & G3). cbn [fst snd] in *.
  pose proof (SC_pos _ _ _ _ H3) as P3.
  destruct l3 as [|y l3].
  { destruct go3; cbn [negb]; [destruct (G3 eq_refl)|]. now apply OUT. }
  destruct go3; cbn [negb]; [|destruct (G3 eq_refl)].
  set (ll := y :: l3) in *.
  assert (Nl : ll <> []) by discriminate.
  unfold multi, t_parse_number_time_unit, multi_number_time_unit, fm_ntu. rewrite (SC_cur _ _ _ _ H3).
  unfold ll at 1. cbn [hd_opt]. fold ll. change (u_is_empty gu) with false. cbn [negb].
  pose proof (sim_multi_time_unit gc gu gk gn s (keyword_end gc) HE gnu_fit b3 ll H3 Nl) as SU.
  destruct (fm_tu gc gu ll) as [o|].
  2:{ destruct (multi_time_unit b3 gc gu); [contradiction|exact I|contradiction]. }
  destruct (multi_time_unit b3 gc gu) as [[b4 o']|?|?]; [|contradiction|contradiction]. cbn [sim bind obind] in *.
  destruct o' as [[u m]|], o as [[[u' m'] r']|]; cbn [unit_sim fst snd] in SU; try contradiction.
  - destruct SU as (E & FU & S4 & P4). injection E as <- <-. cbn [bind obind negb t_finalize].
    apply sim_item_finalize; auto.
    + apply digits_ok; auto. intros um [= <-]. exact (found_small u m FU).
    + exact (num_item_repr n W F r1 (Some (u, m)) NI).
  - destruct SU as [_ S4]. cbn [bind obind negb t_finalize]. apply sim_item_finalize; auto.
    + pose proof (SC_pos _ _ _ _ S4). lia.
    + apply digits_ok; auto. discriminate.
    + exact (num_item_repr n W F r1 None NI).
Qed.

Lemma sgn_item n r o um : sgn_r n r ->
  item_repr (Item n None None o (Some um)) (set_unit (match o with Some k => set_numeral r k | None => r end) um).
Proof.
  intros [([] & Hw & Hf) Hu Hn _]. destruct o as [k|]; constructor; cbn [i_neg i_whole i_fract i_numeral i_unit set_unit set_numeral r_input r_default_unit r_is_negative r_whole
    r_fract r_numeral r_unit r_multiplier option_map]; auto.
Qed.
Lemma sgn_ok n o um : um_small um -> (forall k, o = Some k -> -1 <= coef k <= 12 /\ expo k = 0) -> item_ok (Item n None None o (Some um)).
Proof.
  intros Hu Ho. constructor; cbn [i_unit i_whole i_fract i_numeral].
  - intros um' [= <-]. split; [assumption|congruence].
  - intros k E. destruct (Ho k E). auto.
  - discriminate.
  - split; discriminate.
Qed.

Notation TS := (tsim_multi gc gu gk gn s (keyword_end gc) HE gnu_fit).
Lemma sim_item_numeral b l n r : SC b l -> sgn_r n r ->
  sim item_rel (template_numeral multi b r gc gu gn) (g_numeral n l).
Proof.
  intros H Hr. unfold template_numeral, g_numeral.
  eapply sim_bind; [apply (sim_parse_numeral gc gu gk gn K s HE (fun _ => gnu_delims) b l H)|].
  intros [b1 [[id num]|]] [[m' r']|]; cbn [fst snd]; try contradiction.
  - intros (<- & S1 & N1 & P1 & (f & [= <-] & Fid) & _).
    eapply sim_bind; [apply (sim_multi_time_unit gc gu gk gn s (keyword_end gc) HE gnu_fit b1 r' S1 N1)|].
    intros [b2 [[u m]|]] [[[u' m'] r2]|]; cbn [unit_sim fst snd]; try contradiction.
    + intros (E & FU & S2 & P2). injection E as <- <-. apply sim_item_finalize; auto.
      * apply sgn_ok; [exact (proj1 (found_small u m FU))|]. intros k [= <-]. exact (numeral_values id num Fid).
      * exact (sgn_item n r (Some num) (u, m) Hr).
    + intros _. exact I.
  - intros (Hat & U). destruct (remainder_ok b1 l Hat U) as [-> _]. exact I.
Qed.

Lemma sim_kw b l : SC b l -> l <> [] ->
  sim (unit_sim K s (fun um => exists id, gnu_keyword_get id = Some um) (fun b' => SC b' l)) (multi_keyword b gk gc) (fm_kw gc gk l).
Proof.
  intros H N. unfold multi_keyword, fm_kw.
  cbv zeta.
  destruct (sim_collect gc gu gk gn s (keyword_end gc) HE gnu_fit (fun x => c_outer_delimiter gc x || is_next_duration x) b l) as (b1 & -> & S1 & R1 & P1 & U1);
    [intros x; rewrite starts_duration_eq; reflexivity|exact H|]. cbn [bind].
  pose proof (take_drop_while (fun x => negb (keyword_end gc x)) l) as TD.
  destruct (take_while (fun x => negb (keyword_end gc x)) l) as [|x w] eqn:Ew.
  { cbn [is_empty sim unit_sim fst snd]. cbn [app] in TD. now rewrite TD in S1. }
  cbn [is_empty]. rewrite U1. cbn [bind].
  destruct (u_get gnu_TIME_KEYWORDS (x :: w)) as [[u m]|] eqn:Eg; [|cbn [sim unit_sim fst snd]; exact R1].
  assert (P0 : (0 < pos b1)%nat) by (rewrite P1; cbn [length]; lia).
  eapply sim_bind; [apply (sim_maybe_connect gc gu gk gn s (keyword_end gc) HE b1 _ S1 P0)|]. intros b3 r3 (S3 & P3). cbn [sim unit_sim fst snd].
  split; [reflexivity|]. split; [exists (x :: w); exact Eg|auto].
Qed.

Lemma sim_item_word b l n r : SC b l -> l <> [] -> sgn_r n r ->
  sim item_rel (template_word multi b r gc gu gk gn) (g_word n l).
Proof.
  intros H Nl Hr. unfold template_word, g_word.
  eapply sim_bind; [apply (sim_kw b l H Nl)|].
  intros [b1 [[u m]|]] [[[u' m'] l1]|]; cbn [unit_sim fst snd]; try contradiction.
  - intros (E & (id & FU) & S1 & P1). injection E as <- <-. apply sim_item_finalize; auto.
    + apply sgn_ok; [|discriminate]. destruct (keyword_values id u m FU) as (-> & E2 & E3).
      constructor; cbn [fst snd unit_multiplier coef expo]; auto; try lia. intuition discriminate.
    + exact (sgn_item n r None (u, m) Hr).
  - intros S1. change (c_number_is_optional gc) with true. cbv iota zeta.
    eapply sim_bind; [apply (sim_multi_time_unit gc gu gk gn s (keyword_end gc) HE gnu_fit b1 l S1 Nl)|].
    intros [b2 [[u m]|]] [[[u' m'] l2]|]; cbn [unit_sim fst snd]; try contradiction.
    + intros (E & FU & S2 & P2). injection E as <- <-. apply sim_item_finalize; auto.
      * apply sgn_ok; [|discriminate]. exact (proj1 (found_small u m FU)).
      * exact (sgn_item n r None (u, m) Hr).
    + intros [S2 _]. now apply sim_item_numeral.
Qed.

Lemma sim_item b l : SC b l ->
  sim item_rel (template_parse multi b gc gu gk gn) (g_item l).
Proof.
  intros H. unfold template_parse, g_item. rewrite (SC_cur _ _ _ _ H).
  destruct l as [|x0 l0] eqn:El; [exact I|]. cbn [hd_opt]. rewrite <- El in *.
  assert (Nl : l <> []) by (rewrite El; discriminate). clear El x0 l0.
  eapply sim_bind; [apply (sim_signed gc K s b l (env_inner _ _ _ _ HE) H Nl)|].
  intros [b1 r1] [n l1] (S1 & R1 & N1 & L1). cbn [fst snd] in *.
  rewrite (SC_cur _ _ _ _ S1). destruct l1 as [|x l1]; [congruence|]. cbn [hd_opt].
  assert (F0 : r_fract r1 = None) by (destruct R1 as [(_ & _ & F0)]; exact F0).
  destruct (is_digit x) eqn:Ed.
  { destruct (sim_whole gc K s b1 x l1 n r1 S1 Ed R1) as (b2 & w & Ew & S2 & R2). rewrite Ew. cbn [bind].
    assert (Nt : take_while is_digit (x :: l1) <> []) by (cbn [take_while]; rewrite Ed; discriminate).
    apply sim_item_number; [exact S2| |exact F0|apply take_digits_string|].
    - left. split; [split; [exact R2|discriminate]|exact Nt].
    - left. pose proof (SC_pos _ _ _ _ S2). pose proof (SC_pos _ _ _ _ S1).
      pose proof (drop_while_nonempty_len is_digit (x :: l1)).
      destruct (take_while is_digit (x :: l1)); [congruence|cbn [length] in *; lia]. }
  fold (is_dot x). destruct (is_dot x) eqn:Edot.
  { apply sim_item_number; [exact S1| |exact F0|apply digit_string_nil|right; exact Edot]. right. split; [reflexivity|]. split; [assumption|exact Edot]. }
  change (c_disable_infinity gc) with true. cbn [negb andb].
  apply sim_item_word; auto.
Qed.
End ItemSim.
