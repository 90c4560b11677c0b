(** * Property C92: the example program gnu *)
From Verif Require ExEnv.
From Verif Require Import Prelude Util Time Config Bytes Repr Parse SpecTime SpecNum SpecValue SpecParse SpecGrammar SpecSpelling SpecManyTexts SpecCustom SpecSystemd SpecGnu
  TimeProofs NumProofs Utf8Proofs ValueProofs Standard StandardProofs PropTime PropNum PropParse PropStandard PropDisplay PropText PropReadBack
  Custom CustomProofs PropCustom PropCustomText PropCustomTexts Misc DateTime Gnu GnuWords GnuGrammar PropGnu
  Examples SpecExamples ExampleTrim ExampleProofs PropExampleSystemd.

(** ** the specification of the third line: zero is written `0sec`; all other durations without the part below a second, which may leave nothing but the sign *)
Definition gnu_human (v : Z) (h : str) : Prop :=
  v = 0 /\ h = %"0sec" \/
  0 < Z.abs v < 1000000000 /\ h = (if v <? 0 then %"-" else []) \/
  1000000000 <= Z.abs v /\ exists l, written_with gnu_word (v <? 0) l h /\ greedy l /\ (forall n u, In (n, u) l -> nanos_of_unit Second <= nanos_of_unit u) /\
    sum_of_parts l = Z.abs v / 1000000000 * 1000000000.

(** ** the parser as a parser with calls *)
Definition gx_units : list custom_time_unit :=
  [CTU Second (Mul 1 0) [%"sec"; %"secs"; %"second"; %"seconds"]; CTU Minute (Mul 1 0) [%"min"; %"mins"; %"minute"; %"minutes"]; CTU Hour (Mul 1 0) [%"hour"; %"hours"];
   CTU Day (Mul 1 0) [%"day"; %"days"]; CTU Week (Mul 1 0) [%"week"; %"weeks"]; CTU Week (Mul 2 0) [%"fortnight"; %"fortnights"]; CTU Month (Mul 1 0) [%"month"; %"months"]; CTU Year (Mul 1 0) [%"year"; %"years"]].
Definition gx_words : list custom_time_unit := [CTU Day (Mul (-1) 0) [%"yesterday"]; CTU Day (Mul 1 0) [%"tomorrow"]; CTU Day (Mul 0 0) [%"now"; %"today"]].
Definition gx_os : list custom_call :=
  [C_set (Set_allow_ago true); C_set (Set_allow_time_unit_delimiter true); C_set (Set_allow_negative true); C_set (Set_disable_exponent true); C_set (Set_disable_fraction true); C_set (Set_disable_infinity true);
   C_set (Set_number_is_optional true); C_set (Set_inner_delimiter gx_delimiter); C_set (Set_outer_delimiter gx_delimiter); C_set (Set_parse_multiple true None); C_time_units gx_units; C_keywords gx_words].
Lemma gx_is : gx_parser = Ok (fold_left cp_call gx_os cp_new).
Proof. vm_compute. reflexivity. Qed.
Notation gxp := (fold_left cp_call gx_os cp_new).
Notation gxc := (cp_config gxp).
Lemma gx_fit : calls_fit gx_os.
Proof.
  constructor.
  - intros t H. change (In t gx_units) in H. destruct H as [<-|[<-|[<-|[<-|[<-|[<-|[<-|[<-|[]]]]]]]]].
    6: { exists Week, [%"fortnight"; %"fortnights"], (Some (Mul 2 0)). split; [reflexivity|]. intros x [= <-]. split; reflexivity. }
    all: eexists _, _, None; (split; [reflexivity|discriminate]).
  - intros t H. change (In t gx_words) in H. destruct H as [<-|[<-|[<-|[]]]].
    + exists Day, [%"yesterday"], (Some (Mul (-1) 0)). split; [reflexivity|]. intros x [= <-]. split; reflexivity.
    + exists Day, [%"tomorrow"], (Some (Mul 1 0)). split; [reflexivity|]. intros x [= <-]. split; reflexivity.
    + exists Day, [%"now"; %"today"], (Some (Mul 0 0)). split; [reflexivity|]. intros x [= <-]. split; reflexivity.
  - intros n t [].
  - assert (A : ascii_delim gx_delimiter) by (intros x; unfold gx_delimiter; lia). split; [exact A|]. split; [exact A|]. discriminate.
Qed.
Lemma gx_delims {kw nums} : delims_ok gxc kw nums.
Proof. apply delims_strict_ok. intros _ x H. exact (eq_trans (f_equal (fun b => b || starts_duration x) H) eq_refl). Qed.
Lemma gx_reads : reads_texts gxc.
Proof.
  assert (A : forall x, text_byte x -> gx_delimiter x = false) by (intros x; unfold text_byte, gx_delimiter; lia).
  constructor; [reflexivity|reflexivity|exact A|exact A|intros w []].
Qed.
(** the words *)
Lemma gx_word_is u v : large u -> 1 <= v -> gx_word u v = gnu_word u v.
Proof.
  intros L V. unfold gx_word, gx_make_plural, gnu_word. assert (E : (1 <? v) = negb (v =? 1)) by lia. rewrite E. destruct (v =? 1); cbn [negb]; [rewrite app_nil_r|]; destruct u; reflexivity.
Qed.
Lemma gx_known u v : large u -> u_get (own_units gx_os) (gx_word u v) = Some (u, Mul 1 0).
Proof. intros L. unfold gx_word, gx_make_plural. destruct (1 <? v); destruct u; try (exfalso; now apply L); reflexivity. Qed.
Lemma gx_words_fit u v : gx_word u v <> [] /\ (forall x, In x (gx_word u v) -> text_byte x /\ starts_duration x = false) /\
  forall r, starts_not is_digit (gx_word u v ++ r) /\ starts_not is_dot (gx_word u v ++ r) /\ starts_not is_e (gx_word u v ++ r).
Proof.
  unfold gx_word, gx_make_plural. split; [destruct (1 <? v); destruct u; discriminate|]. split.
  - intros x. unfold text_byte. destruct (1 <? v); destruct u; cbn; intros H; repeat destruct H as [<-|H]; try contradiction; (split; [lia|reflexivity]).
  - intros r. destruct (1 <? v); destruct u; repeat split; reflexivity.
Qed.
Lemma written_change w1 w2 ng l h : (forall v u, In (v, u) l -> w1 u v = w2 u v) -> written_with w1 ng l h -> written_with w2 ng l h.
Proof.
  intros H W. induction W as [v u s D|v u s l t D W IH].
  - rewrite (H v u) by now left. now constructor.
  - rewrite (H v u) by now left. constructor; [exact D|]. apply IH. intros v' u' G. apply H. now right.
Qed.
Lemma greedy_positive l : greedy l -> forall v u, In (v, u) l -> 1 <= v.
Proof. induction l as [|[v u] l IH]; intros Gr v' u' H; [contradiction|]. destruct Gr as (G1 & _ & _ & G2). destruct H as [H|H]; [congruence|eauto]. Qed.

(** the part with the seconds *)
Lemma abs_into_std d : duration_ok d -> exists s, saturating_into_std (abs d) = Ok s /\ s = inner d /\ std_ok s /\ std_nanos s = Z.abs (nanos d).
Proof.
  intros Hd. exists (inner d). split; [|split; [reflexivity|]].
  - unfold saturating_into_std, try_into_std, abs, from_std. cbn [neg inner]. rewrite andb_false_r. reflexivity.
  - split; [exact Hd|]. unfold nanos, std_nanos. destruct Hd as [H1 H2]. unfold is_u64, inb in *. destruct (neg d); lia.
Qed.
Lemma secs_of d : std_ok d -> secs d = std_nanos d / 1000000000.
Proof. intros [H1 H2]. unfold is_u64, inb in *. unfold std_nanos. apply Z.div_unique with (subsec d); lia. Qed.
Lemma gx_human_parts d : duration_ok d -> 1000000000 <= Z.abs (nanos d) ->
  exists l, gx_make_human d = Ok (sign_of (neg d) ++ join (32 :: sign_of (neg d)) (map (etext gx_word) l)) /\ l <> [] /\ Forall part_ok l /\ fits l 0 /\
    total l = Z.abs (nanos d) / 1000000000 * 1000000000 /\ (forall p, In p l -> large (snd p)).
Proof.
  intros Hd B. destruct (abs_into_std d Hd) as (s & E1 & E2 & Hs & V). unfold gx_make_human.
  assert (Z0 : is_zero d = false). { unfold is_zero, std_is_zero. unfold nanos in B. destruct Hd as [H1 H2]. unfold is_u64, inb in *. destruct (neg d); lia. }
  rewrite Z0, E1. cbn [bind]. destruct Hs as [H1 H2]. unfold is_u64, inb in *.
  destruct (human_secs_fits gx_word (secs s) 0) as (l & -> & F & T & G & L); [lia|lia|]. exists l. split.
  - unfold is_negative. destruct (neg d); reflexivity.
  - rewrite <- V. rewrite <- secs_of by (split; unfold is_u64, inb; lia). split; [|auto].
    intros ->. unfold total in T. cbn [fold_right] in T. unfold std_nanos in V. lia.
Qed.
Lemma gx_human_spec d : duration_ok d -> exists h, gx_make_human d = Ok h /\ gnu_human (nanos d) h.
Proof.
  intros Hd. destruct (Z.eq_dec (nanos d) 0) as [E|N].
  - assert (Z0 : is_zero d = true). { unfold is_zero, std_is_zero. unfold nanos in E. destruct Hd as [H1 H2]. unfold is_u64, inb in *. destruct (neg d); lia. }
    exists (%"0sec"). unfold gx_make_human. rewrite Z0. split; [reflexivity|]. left. auto.
  - assert (Ng : neg d = (nanos d <? 0)). { unfold nanos in *. destruct Hd as [H1 H2]. unfold is_u64, inb in *. destruct (neg d); lia. }
    destruct (Z_lt_le_dec (Z.abs (nanos d)) 1000000000) as [L|L].
    + exists (if nanos d <? 0 then %"-" else []). split; [|right; left; split; [lia|reflexivity]].
      destruct (abs_into_std d Hd) as (s & E1 & E2 & Hs & V). unfold gx_make_human.
      assert (Z0 : is_zero d = false). { unfold is_zero, std_is_zero. unfold nanos in N. destruct Hd as [H1 H2]. unfold is_u64, inb in *. destruct (neg d); lia. }
      rewrite Z0, E1. cbn [bind]. assert (S0 : secs s = 0) by (rewrite secs_of by exact Hs; rewrite V; apply Z.div_small; lia). rewrite S0.
      change (human_secs gx_word 0) with (@nil str). unfold is_negative. rewrite <- Ng. destruct (neg d); reflexivity.
    + destruct (gx_human_parts d Hd L) as (l & -> & Nl & F & G & T & LL). eexists. split; [reflexivity|]. right. right. split; [exact L|]. exists l.
      assert (Gr : greedy l) by now apply fits_zero. split; [|split; [exact Gr|split; [intros n u H; exact (LL (n, u) H)|now rewrite sum_total]]].
      rewrite <- Ng. apply (written_change gx_word); [|now apply written_join_with]. intros v u H. apply gx_word_is; [exact (LL (v, u) H)|exact (greedy_positive l Gr v u H)].
Qed.
Lemma gnu_words u v : gnu_word u v <> [] /\ forall x, In x (gnu_word u v) -> text_byte x.
Proof.
  split; [unfold gnu_word; destruct u; discriminate|]. unfold text_byte, gnu_word. intros x H. apply in_app_iff in H. destruct H as [H|H].
  - destruct u; cbn in H; repeat destruct H as [<-|H]; try contradiction; lia.
  - destruct (v =? 1); [contradiction|]. destruct H as [<-|[]]. vm_compute. intuition discriminate.
Qed.
(** how the example reads it *)
Lemma gx_parse_human d : duration_ok d -> 1000000000 <= Z.abs (nanos d) ->
  exists h D, gx_make_human d = Ok h /\ trims h h /\ utf8 h = true /\ cp_parse gxp h = Ok D /\ duration_ok D /\ nanos D = Z.quot (nanos d) 1000000000 * 1000000000.
Proof.
  intros Hd B. destruct (gx_human_spec d Hd) as (h & Eh & [[E _]|[[E _]|(_ & l0 & W & _)]]); [lia|lia|].
  pose proof (written_trims gnu_word _ gnu_words l0 h W) as Tr. pose proof (written_utf8 gnu_word _ gnu_words l0 h W) as Uh.
  destruct (gx_human_parts d Hd B) as (l & E2 & Nl & F & G & T & LL). rewrite Eh in E2. injection E2 as E2. exists h.
  destruct (the_components gx_word gxc (own_units gx_os) (own_keywords gx_os) (own_numerals gx_os) gx_reads eq_refl large (fun u v _ => gx_words_fit u v) (neg d) l Nl F) as [C _].
  { intros [v u] Hp. pose proof (LL (v, u) Hp) as Lu. split; [now apply gx_known|exact Lu]. }
  rewrite <- E2 in C. destruct (C23_multiple_complete _ _ _ _ _ _ (own_env gx_os gx_fit) gx_delims Uh eq_refl C) as (D & E1 & HD & E3); [intros x _; now left|].
  exists D. split; [exact Eh|]. split; [exact Tr|]. split; [exact Uh|]. split; [rewrite custom_parse; exact E1|]. split; [exact HD|].
  assert (Bn : Z.abs (nanos d) <= max_nanos). { destruct (abs_into_std d Hd) as (s & _ & _ & Hs & V). rewrite <- V. now apply std_nanos_nonneg. }
  set (v := nanos d) in *. assert (P : 0 <= Z.abs v / 1000000000 * 1000000000 <= Z.abs v).
  { pose proof (Z.div_pos (Z.abs v) 1000000000). pose proof (Z.mul_div_le (Z.abs v) 1000000000). lia. }
  pose proof (sum_parts (neg d) l F 0 ltac:(lia) ltac:(lia)) as S. replace (signed_nanos (neg d) 0) with 0 in S by (destruct (neg d); reflexivity).
  rewrite E3. unfold saturating_sum. rewrite S, T. assert (Ng : neg d = (v <? 0)). { unfold v, nanos in *. destruct Hd as [H1 H2]. unfold is_u64, inb in *. destruct (neg d); lia. }
  rewrite Ng. unfold signed_nanos. destruct (v <? 0) eqn:En.
  - replace v with (- Z.abs v) at 2 by lia. rewrite Z.quot_opp_l by lia. rewrite Z.quot_div_nonneg by lia. lia.
  - replace v with (Z.abs v) at 2 by lia. rewrite Z.quot_div_nonneg by lia. lia.
Qed.

Lemma gx_main_eq input : gx_main input =
  match parse gxc (str_trim input) (own_units gx_os) (own_keywords gx_os) (own_numerals gx_os) with
  | Ok duration =>
      let* std := saturating_into_std (abs duration) in
      let* human := gx_make_human duration in
      Ok (Lines [%"Original: " ++ input; %" Seconds: " ++ (if is_negative duration then %"-" ++ dec (secs std) else dec (secs std)); %"   Human: " ++ human])
  | Err error => Ok (Complaint (%"Failed to parse relative time '" ++ input ++ %"': " ++ display_parse_error error))
  | Crash c => Crash c
  end.
Proof. unfold gx_main. rewrite gx_is. cbn [bind]. rewrite custom_parse. reflexivity. Qed.

(** ** C92 *)
(** for every argument, the program prints three lines or a complaint, and never panics. The lines: the argument, the whole seconds (toward zero), the text above *)
Theorem C92_gnu_example : forall input, utf8 input = true -> exists parser t, gx_parser = Ok parser /\ trims input t /\
  ((exists d m h, cp_parse parser t = Ok d /\ duration_ok d /\ decimal (Z.abs (nanos d) / 1000000000) m /\ gnu_human (nanos d) h /\
      gx_main input = Ok (Lines [%"Original: " ++ input; %" Seconds: " ++ (if is_negative d then %"-" else []) ++ m; %"   Human: " ++ h])) \/
   (exists e, cp_parse parser t = Err e /\
      gx_main input = Ok (Complaint (%"Failed to parse relative time '" ++ input ++ %"': " ++ display_parse_error e)))).
Proof.
  intros input U. exists gxp, (str_trim input). split; [exact gx_is|]. split; [apply trims_str_trim|]. pose proof (str_trim_utf8 input U) as Ut. unfold gx_main. rewrite gx_is. cbn [bind]. rewrite custom_parse.
  destruct (C20_never_crashes _ _ _ _ (str_trim input) (own_env gx_os gx_fit) Ut) as [(d & E & Hd)|(e & E)]; rewrite E; [left|right; exists e; auto].
  destruct (abs_into_std d Hd) as (s & -> & _ & Hs & V). destruct (gx_human_spec d Hd) as (h & -> & Sp). cbn [bind]. exists d, (dec (secs s)), h. split; [reflexivity|]. split; [exact Hd|]. split; [|split; [exact Sp|]].
  - rewrite <- V, <- secs_of by exact Hs. apply dec_decimal. destruct Hs as [H1 _]. unfold is_u64, inb in H1. lia.
  - destruct (is_negative d); reflexivity.
Qed.
Print Assumptions C92_gnu_example.
(** the argument may be surrounded by white space *)
Theorem C92_white_space : forall w1 w2 t, utf8 t = true -> trims t t -> white_text w1 -> white_text w2 ->
  (forall ls, gx_main t = Ok (Lines ls) -> gx_main (w1 ++ t ++ w2) = Ok (Lines ((%"Original: " ++ w1 ++ t ++ w2) :: tl ls))) /\
  (forall m, gx_main t = Ok (Complaint m) -> exists m', gx_main (w1 ++ t ++ w2) = Ok (Complaint m')).
Proof.
  intros w1 w2 t U T W1 W2. assert (U' : utf8 (w1 ++ t ++ w2) = true) by (rewrite (utf8_app w1) by (now apply utf8_white); rewrite (utf8_app t) by (exact U); now apply utf8_white).
  assert (E : str_trim (w1 ++ t ++ w2) = str_trim t).
  { rewrite <- (trims_is t t U T). symmetry. apply trims_is; [exact U'|]. destruct T as (_ & _ & _ & _ & _ & N). exists w1, w2. auto. }
  unfold gx_main. rewrite gx_is. cbn [bind]. rewrite E. destruct (cp_parse gxp (str_trim t)) as [d|e|x].
  - destruct (saturating_into_std (abs d)) as [s|e|x]; cbn [bind]; [|split; intros ? H; discriminate H|split; intros ? H; discriminate H].
    destruct (gx_make_human d) as [h|e|x]; cbn [bind]; [|split; intros ? H; discriminate H|split; intros ? H; discriminate H].
    split; [|intros m H; discriminate H]. intros ls H. injection H as <-. reflexivity.
  - split; [intros ls H; discriminate H|]. intros m _. eauto.
  - split; intros ? H; discriminate H.
Qed.
Print Assumptions C92_white_space.
(** the texts for the durations below a second *)
Lemma gx_main_zero : gx_main (%"0sec") = Ok (Lines [%"Original: 0sec"; %" Seconds: 0"; %"   Human: 0sec"]).
Proof. vm_compute. reflexivity. Qed.
Lemma gx_main_empty : gx_main [] = Ok (Complaint (%"Failed to parse relative time '': Empty input")).
Proof. vm_compute. reflexivity. Qed.
Lemma gx_main_minus : gx_main (%"-") = Ok (Complaint (%"Failed to parse relative time '-': Syntax error: Unexpected end of input. Sign without a number at column 1")).
Proof. vm_compute. reflexivity. Qed.
Lemma lines3 (a b c a' b' c' : str) : Ok (Lines [a; b; c]) = Ok (Lines [a'; b'; c']) -> b' = b /\ c' = c.
Proof. intros H. injection H as _ -> ->. auto. Qed.
(** the text in the third line is read back by the program as the number of seconds in the second line, unless this is zero: then the text is `0sec`, or cannot be read *)
Theorem C92_again : forall input o m h, utf8 input = true -> gx_main input = Ok (Lines [o; %" Seconds: " ++ m; %"   Human: " ++ h]) ->
  (m <> %"0" -> m <> %"-0" -> gx_main h = Ok (Lines [%"Original: " ++ h; %" Seconds: " ++ m; %"   Human: " ++ h])) /\
  (h = %"0sec" -> gx_main h = Ok (Lines [%"Original: " ++ h; %" Seconds: 0"; %"   Human: " ++ h])) /\
  (m = %"0" \/ m = %"-0" -> h <> %"0sec" -> (h = [] \/ h = %"-") /\ exists c, gx_main h = Ok (Complaint c)).
Proof.
  intros input o m h U E. rewrite gx_main_eq in E. pose proof (str_trim_utf8 input U) as Ut.
  destruct (C20_never_crashes _ _ _ _ (str_trim input) (own_env gx_os gx_fit) Ut) as [(d & Ep & Hd)|(e & Ep)]; rewrite Ep in E; [|discriminate E].
  destruct (abs_into_std d Hd) as (s & E1 & _ & Hs & V). rewrite E1 in E. destruct (gx_human_spec d Hd) as (h' & E2 & Sp). rewrite E2 in E. cbn [bind] in E.
  assert (Eh : h' = h /\ m = (if is_negative d then %"-" ++ dec (secs s) else dec (secs s))).
  { apply lines3 in E. destruct E as [Em Eh]. split; [symmetry; exact (app_inv_head (%"   Human: ") h h' Eh)|]. exact (app_inv_head (%" Seconds: ") m _ Em). }
  clear E. destruct Eh as [-> Em]. assert (Us : 0 <= secs s <= u64_max) by (destruct Hs as [H1 _]; unfold is_u64, inb in H1; lia).
  assert (Dz : forall x, 0 <= x <= u64_max -> dec x = %"0" -> x = 0). { intros x Hx Ex. destruct (dec_spec x Hx) as (_ & _ & D3). rewrite Ex in D3. vm_compute in D3. congruence. }
  assert (Dn : forall x, 0 <= x <= u64_max -> forall r, dec x <> 45 :: r). { intros x Hx r Ex. destruct (dec_spec x Hx) as (_ & D2 & _). rewrite Ex in D2. specialize (D2 45 (or_introl eq_refl)). lia. }
  assert (Q : m = %"0" \/ m = %"-0" <-> secs s = 0).
  { rewrite Em. split.
    - intros [G|G]; destruct (is_negative d).
      + discriminate G.
      + now apply Dz.
      + injection G as G. now apply Dz.
      + exfalso. exact (Dn _ Us _ G).
    - intros ->. destruct (is_negative d); [right|left]; reflexivity. }
  rewrite (secs_of s Hs), V in Q. split; [|split].
  - intros N1 N2. assert (B : 1000000000 <= Z.abs (nanos d)).
    { destruct (Z_lt_le_dec (Z.abs (nanos d)) 1000000000) as [L|L]; [|exact L]. assert (m = %"0" \/ m = %"-0") by (apply Q, Z.div_small; lia). tauto. }
    destruct (gx_parse_human d Hd B) as (h1 & D & Eh & T & Uh & Ed & HD & VD). rewrite E2 in Eh. injection Eh as <-.
    rewrite gx_main_eq. rewrite <- (trims_is h h Uh T). rewrite custom_parse in Ed. rewrite Ed. destruct (abs_into_std D HD) as (s' & -> & _ & Hs' & V'). cbn [bind].
    assert (Vq : Z.abs (nanos D) = Z.abs (nanos d) / 1000000000 * 1000000000).
    { rewrite VD, Z.abs_mul. rewrite <- Z.quot_abs by lia. rewrite Z.quot_div_nonneg by lia. reflexivity. }
    assert (Es : secs s' = secs s). { rewrite (secs_of s Hs), (secs_of s' Hs'), V, V', Vq, Z.div_mul by lia. reflexivity. }
    assert (Bq : 1 <= Z.abs (nanos d) / 1000000000) by (apply Z.div_le_lower_bound; lia).
    assert (En : is_negative D = is_negative d).
    { unfold is_negative. assert (S1 : forall x, duration_ok x -> nanos x <> 0 -> neg x = (nanos x <? 0)). { intros x [H1 H2] Nx. unfold nanos in *. unfold is_u64, inb in *. destruct (neg x); lia. }
      rewrite (S1 d Hd), (S1 D HD) by lia. rewrite VD. destruct (Z_lt_le_dec (nanos d) 0) as [L|L].
      - assert (Z.quot (nanos d) 1000000000 <= -1). { replace (nanos d) with (- Z.abs (nanos d)) by lia. rewrite Z.quot_opp_l by lia. rewrite Z.quot_div_nonneg by lia. lia. } lia.
      - pose proof (Z.quot_pos (nanos d) 1000000000). lia. }
    destruct (gx_human_spec D HD) as (h2 & Eh2 & _). rewrite Eh2. cbn [bind]. rewrite Es, En, <- Em. enough (Eq : h2 = h) by (rewrite Eq; reflexivity).
    (* the same text *)
    unfold gx_make_human in E2, Eh2. destruct (abs_into_std D HD) as (s2 & G1 & G2 & _). rewrite G1, G2 in Eh2. rewrite E1 in E2.
    assert (Z1 : is_zero d = false). { unfold is_zero, std_is_zero. unfold nanos in B. destruct Hd as [H1 H2]. unfold is_u64, inb in *. destruct (neg d); lia. }
    assert (Z2 : is_zero D = false). { unfold is_zero, std_is_zero. assert (NN : nanos D <> 0) by lia. unfold nanos in NN. destruct HD as [H1 H2]. unfold is_u64, inb in *. destruct (neg D); lia. }
    rewrite Z1 in E2. rewrite Z2 in Eh2. cbn [bind] in E2, Eh2. rewrite En in Eh2.
    assert (Ei : secs (inner D) = secs s). { rewrite <- Es. f_equal. destruct (abs_into_std D HD) as (s3 & K1 & K2 & Hs3 & V3). apply std_nanos_inj; [rewrite <- K2; exact Hs3|exact Hs'|]. rewrite <- K2. lia. }
    rewrite Ei in Eh2. congruence.
  - intros ->. exact gx_main_zero.
  - intros G N. apply Q in G. destruct Sp as [[_ Eh]|[[_ Eh]|(B & _)]]; [contradiction| |].
    + subst h. destruct (nanos d <? 0); [split; [auto|]; eexists; exact gx_main_minus|split; [auto|]; eexists; exact gx_main_empty].
    + exfalso. assert (1 <= Z.abs (nanos d) / 1000000000) by (apply Z.div_le_lower_bound; lia). lia.
Qed.
Print Assumptions C92_again.

(** ** Examples *)
(** relative times as in the documentation, and the sums below a second, which only saturation makes possible *)
Example C92_example : utf8 (%"yesterday 3 hours") = true /\
  gx_main (%"yesterday 3 hours") = Ok (Lines [%"Original: yesterday 3 hours"; %" Seconds: -75600"; %"   Human: -21hours"]) /\
  gx_main (%"1 year ago 2 months") = Ok (Lines [%"Original: 1 year ago 2 months"; %" Seconds: -26298000"; %"   Human: -10months"]) /\
  gx_main (%"1.5sec") = Ok (Complaint (%"Failed to parse relative time '1.5sec': Syntax error: No fraction allowed at column 1")) /\
  gx_main (%"18446744073709551616sec -18446744073709551615sec") =
    Ok (Lines [%"Original: 18446744073709551616sec -18446744073709551615sec"; %" Seconds: 0"; %"   Human: "]) /\
  gx_main (%"-18446744073709551616sec 18446744073709551615sec") =
    Ok (Lines [%"Original: -18446744073709551616sec 18446744073709551615sec"; %" Seconds: -0"; %"   Human: -"]).
Proof.
  split; [reflexivity|]. split; [vm_compute; reflexivity|]. split; [vm_compute; reflexivity|]. split; [vm_compute; reflexivity|]. split; vm_compute; reflexivity.
Qed.
