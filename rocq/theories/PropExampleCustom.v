(** * Property C93: the example program custom *)
From Verif Require ExEnv.
From Verif Require Import Prelude Util Time Config Bytes Repr Parse SpecTime SpecNum SpecValue SpecParse SpecGrammar SpecSpelling SpecTexts SpecCustom
  TimeProofs NumProofs Utf8Proofs ValueProofs Standard StandardProofs PropTime PropNum PropParse PropStandard PropDisplay PropText PropTexts
  Custom CustomProofs PropCustom PropCustomText PropCustomTexts Misc
  Examples SpecExamples ExampleTrim ExampleProofs PropExampleSystemd.

(** ** the parser as a parser with calls *)
Definition kx_units : list custom_time_unit :=
  [CTU NanoSecond (Mul 1 0) [%"ns"; %"nano"; %"nanos"]; CTU MicroSecond (Mul 1 0) [[194; 181; 115]; %"Ms"; %"micro"; %"micros"]; CTU MilliSecond (Mul 1 0) [%"ms"; %"milli"; %"millis"];
   CTU Second (Mul 1 0) [%"s"; %"sec"; %"secs"; %"second"; %"seconds"]; CTU Minute (Mul 1 0) [%"m"; %"min"; %"mins"; %"minutes"]; CTU Hour (Mul 1 0) [%"h"; %"hr"; %"hrs"; %"hour"; %"hours"];
   CTU Day (Mul 1 0) [%"d"; %"day"; %"days"]; CTU Week (Mul 1 0) [%"w"; %"week"; %"weeks"]; CTU Week (Mul 2 0) [%"f"; %"fortnight"; %"fortnights"];
   CTU Second (Mul 236059151 (-2)) [%"M"; %"mon"; %"month"; %"months"]; CTU Second (Mul 3155814976 (-2)) [%"y"; %"yr"; %"year"; %"years"]].
Definition kx_os : list custom_call :=
  [C_time_units kx_units; C_set (Set_default_unit NanoSecond); C_set (Set_disable_exponent true); C_set (Set_allow_time_unit_delimiter true); C_set (Set_inner_delimiter kx_delimiter)].
Lemma kx_is : kx_parser = Ok (fold_left cp_call kx_os cp_new).
Proof. vm_compute. reflexivity. Qed.
Notation kxp := (fold_left cp_call kx_os cp_new).
Notation kxc := (cp_config kxp).
Lemma kx_fit : calls_fit kx_os.
Proof.
  constructor.
  - intros t H. change (In t kx_units) in H. destruct H as [<-|[<-|[<-|[<-|[<-|[<-|[<-|[<-|[<-|[<-|[<-|[]]]]]]]]]]]].
    9: { exists Week, [%"f"; %"fortnight"; %"fortnights"], (Some (Mul 2 0)). split; [reflexivity|]. intros x [= <-]. split; reflexivity. }
    9: { exists Second, [%"M"; %"mon"; %"month"; %"months"], (Some (Mul 236059151 (-2))). split; [reflexivity|]. intros x [= <-]. split; reflexivity. }
    9: { exists Second, [%"y"; %"yr"; %"year"; %"years"], (Some (Mul 3155814976 (-2))). split; [reflexivity|]. intros x [= <-]. split; reflexivity. }
    all: eexists _, _, None; (split; [reflexivity|discriminate]).
  - intros t [].
  - intros n t [].
  - assert (A : ascii_delim kx_delimiter) by (intros x; unfold kx_delimiter; lia). split; [exact A|]. split; [exact ExEnv.ws_ascii|discriminate].
Qed.

(** ** the layout *)
Lemma characters_count s : utf8 s = true -> characters s (Z.of_nat (char_count s)).
Proof.
  revert s. apply (utf8_ind (fun s => characters s (Z.of_nat (char_count s)))); [constructor|]. intros ch rest Hc _ IH.
  assert (A : forall x, 0 <= x <= 127 -> cont x = false) by (intros x H; unfold cont, inb; lia).
  assert (B : forall x, 192 <= x -> cont x = false) by (intros x H; unfold cont, inb; lia).
  destruct ch as [|b0 [|b1 [|b2 [|b3 [|b4 t]]]]]; try discriminate; cbn [uchar app] in *; unfold char_count in *; cbn [filter].
  - unfold inb in Hc. rewrite A by lia. cbn [negb length]. rewrite Nat2Z.inj_succ. unfold Z.succ. constructor; [lia|exact IH].
  - apply andb_true_iff in Hc. destruct Hc as [H0 H1]. rewrite H1. unfold inb in H0. rewrite B by lia. cbn [negb length]. rewrite Nat2Z.inj_succ. unfold Z.succ. unfold cont, inb in H1. constructor; [lia|unfold follows; lia|exact IH].
  - apply andb_true_iff in Hc. destruct Hc as [H0 H2]. unfold cont, inb in *.
    replace (negb ((128 <=? b0) && (b0 <=? 191))) with true by lia. replace (negb ((128 <=? b1) && (b1 <=? 191))) with false by lia. replace (negb ((128 <=? b2) && (b2 <=? 191))) with false by lia.
    cbn [length]. rewrite Nat2Z.inj_succ. unfold Z.succ. constructor; [lia|unfold follows; lia|unfold follows; lia|exact IH].
  - unfold cont, inb in *.
    replace (negb ((128 <=? b0) && (b0 <=? 191))) with true by lia. replace (negb ((128 <=? b1) && (b1 <=? 191))) with false by lia. replace (negb ((128 <=? b2) && (b2 <=? 191))) with false by lia.
    replace (negb ((128 <=? b3) && (b3 <=? 191))) with false by lia. cbn [length]. rewrite Nat2Z.inj_succ. unfold Z.succ. constructor; [lia|unfold follows; lia|unfold follows; lia|unfold follows; lia|exact IH].
Qed.

Lemma aligned_text s w : utf8 s = true -> right_aligned (Z.of_nat w) s (pad w (char_count s) s).
Proof. intros U. exists (Z.of_nat (char_count s)), (w - char_count s)%nat. split; [now apply characters_count|]. split; [reflexivity|lia]. Qed.
Lemma digits_characters s : digit_string s -> characters s (Z.of_nat (length s)).
Proof.
  induction s as [|x s IH]; intros D; [constructor|]. cbn [length]. rewrite Nat2Z.inj_succ. unfold Z.succ. constructor; [specialize (D x (or_introl eq_refl)); lia|]. apply IH. intros y Hy. apply D. now right.
Qed.
Lemma aligned_number x w : 0 <= x <= u64_max -> decimal x (dec x) /\ right_aligned (Z.of_nat w) (dec x) (padded 32 w x).
Proof.
  intros H. pose proof (dec_decimal x H) as D. split; [exact D|]. destruct D as [D _]. exists (Z.of_nat (length (dec x))), (w - length (dec x))%nat. split; [now apply digits_characters|]. split; [reflexivity|lia].
Qed.
Lemma nine_digits x : 0 <= x <= 999999999 -> digit_string (padded 48 9 x) /\ length (padded 48 9 x) = 9%nat /\ dval (padded 48 9 x) = x.
Proof.
  intros H. assert (B : 0 <= x <= u64_max) by (unfold u64_max; lia). destruct (dec_spec x B) as (D1 & D2 & D3). unfold padded.
  assert (Z0 : forall n, digit_string (repeat 48 n) /\ dval (repeat 48 n) = 0).
  { intros n. split; [intros y Hy; apply repeat_spec in Hy; lia|]. induction n as [|n IH]; [reflexivity|]. change (repeat 48 (S n)) with ([48] ++ repeat 48 n). rewrite dval_app, IH. reflexivity. }
  split; [|split].
  - intros y Hy. apply in_app_iff in Hy. destruct Hy as [Hy|Hy]; [now apply (proj1 (Z0 (9 - length (dec x))%nat))|now apply D2].
  - rewrite app_length, repeat_length. assert (L : (length (dec x) <= 9)%nat); [|lia].
    destruct (dec_decimal x B) as (_ & _ & D4). destruct (dec x) as [|c w] eqn:E; [lia|]. destruct w as [|c' w]; [cbn; lia|].
    assert (C : 49 <= c <= 57) by (specialize (D2 c (or_introl eq_refl)); lia).
    change (c :: c' :: w) with ([c] ++ (c' :: w)) in D3. rewrite dval_app in D3.
    assert (P : 0 <= dval (c' :: w)) by (apply dval_nonneg; intros y Hy; apply D2; now right).
    assert (V : dval [c] = c - 48) by (cbn; lia). rewrite V in D3.
    destruct (Z_le_gt_dec (Z.of_nat (length (c' :: w))) 8) as [L|L]; [cbn [length] in *; lia|].
    assert (10 ^ 9 <= 10 ^ Z.of_nat (length (c' :: w))) by (apply Z.pow_le_mono_r; lia). nia.
  - rewrite dval_app, (proj2 (Z0 _)), D3. lia.
Qed.
Lemma kx_row input d s : utf8 input = true -> duration_ok d -> try_into_std d = inl s -> std_ok s -> std_nanos s = nanos d ->
  calculator_row input (nanos d) (pad 20 (char_count input) input ++ %"|" ++ padded 32 21 (secs s) ++ %"." ++ padded 48 9 (subsec s)).
Proof.
  intros U Hd _ [H1 H2] V. unfold is_u64, inb in *. assert (S1 : nanos d / 1000000000 = secs s) by (rewrite <- V; unfold std_nanos; symmetry; apply Z.div_unique with (subsec s); lia).
  assert (S2 : nanos d mod 1000000000 = subsec s) by (rewrite <- V; unfold std_nanos; symmetry; apply Z.mod_unique with (secs s); lia).
  destruct (aligned_number (secs s) 21) as [A1 A2]; [lia|]. destruct (nine_digits (subsec s)) as (N1 & N2 & N3); [lia|].
  exists (pad 20 (char_count input) input), (dec (secs s)), (padded 32 21 (secs s)), (padded 48 9 (subsec s)). rewrite S1, S2.
  split; [exact (aligned_text input 20 U)|]. split; [exact A1|]. split; [exact A2|]. auto.
Qed.

(** ** C93 *)
(** what is printed for one argument *)
Definition answer (parser : custom_parser) (input : str) (out : printed) : Prop :=
  exists t, trims input t /\
    ((exists d row, cp_parse parser t = Ok d /\ 0 <= nanos d /\ calculator_row input (nanos d) row /\ out = Lines [row]) \/
     (exists e, cp_parse parser t = Err e /\ out = Complaint (%"Error parsing '" ++ input ++ %"': " ++ display_parse_error e))).
Definition header : printed :=
  Lines [%"A simple calculator to calculate the input duration to seconds (Default time unit is the nano second):"; [];
         %"               Input|              Result in seconds"; %"--------------------|-------------------------------"].
Lemma kx_line_answer input : utf8 input = true -> exists out, kx_line kxp input = Ok out /\ answer kxp input out.
Proof.
  intros U. unfold kx_line. pose proof (str_trim_utf8 input U) as Ut.
  destruct (C20_never_crashes _ _ _ _ (str_trim input) (own_env kx_os kx_fit) Ut) as [(d & E & Hd)|(e & E)]; rewrite <- custom_parse in E; rewrite E.
  - pose proof E as E0. rewrite custom_parse in E0. destruct (C21_not_negative _ _ _ _ _ d (own_env kx_os kx_fit) Ut eq_refl E0) as [_ P].
    destruct (proj1 (C08_try_into_std d Hd) P) as (s & Es & Hs & V). rewrite Es. cbn [bind]. eexists. split; [reflexivity|]. exists (str_trim input). split; [apply trims_str_trim|]. left.
    eexists. eexists. split; [exact E|]. split; [exact P|]. split; [now apply kx_row with (s := s)|reflexivity].
  - eexists. split; [reflexivity|]. exists (str_trim input). split; [apply trims_str_trim|]. right. eauto.
Qed.
Lemma kx_loop_answers inputs : Forall (fun i => utf8 i = true) inputs -> exists outs, kx_loop kxp inputs = Ok outs /\ Forall2 (answer kxp) inputs outs.
Proof.
  induction 1 as [|i l U _ (outs & E & F)]; [exists []; split; [reflexivity|constructor]|]. destruct (kx_line_answer i U) as (o & Eo & Ao). exists (o :: outs). cbn [kx_loop]. rewrite Eo. cbn [bind]. rewrite E. cbn [bind].
  split; [reflexivity|]. now constructor.
Qed.
Lemma kx_main_eq inputs : kx_main inputs = let* r := kx_loop kxp inputs in Ok (header :: r).
Proof. unfold kx_main. rewrite kx_is. cbn [bind]. destruct (kx_loop kxp inputs); reflexivity. Qed.
(** for all arguments the program prints its header and one answer for each of them, and never panics *)
Theorem C93_custom_example : forall inputs, Forall (fun i => utf8 i = true) inputs ->
  exists parser outs, kx_parser = Ok parser /\ kx_main inputs = Ok (header :: outs) /\ Forall2 (answer parser) inputs outs.
Proof.
  intros inputs H. destruct (kx_loop_answers inputs H) as (outs & E & F). exists kxp, outs. split; [exact kx_is|]. split; [|exact F]. rewrite kx_main_eq, E. reflexivity.
Qed.
Print Assumptions C93_custom_example.
(** the arguments do not influence each other *)
Theorem C93_independent : forall inputs outs, Forall (fun i => utf8 i = true) inputs ->
  kx_main inputs = Ok (header :: outs) <-> Forall2 (fun i o => kx_main [i] = Ok [header; o]) inputs outs.
Proof.
  assert (S : forall i o, kx_main [i] = Ok [header; o] <-> kx_line kxp i = Ok o).
  { intros i o. rewrite kx_main_eq. cbn [kx_loop]. destruct (kx_line kxp i) as [x|e|x]; cbn [bind]; [|split; discriminate|split; discriminate].
    split; [|intros [= ->]; reflexivity]. generalize header. intros h H. injection H as ->. reflexivity. }
  intros inputs outs H. rewrite kx_main_eq. revert outs. induction H as [|i l U _ IH]; intros outs.
  - cbn [kx_loop bind]. generalize header. intros h. split; [intros E; injection E as <-; constructor|intros E; inversion E; reflexivity].
  - cbn [kx_loop]. destruct (kx_line_answer i U) as (o & Eo & _). rewrite Eo. cbn [bind]. split.
    + intros E. destruct (kx_loop kxp l) as [r|e|x]; cbn [bind] in *; [|discriminate E|discriminate E].
      assert (K : outs = o :: r) by (revert E; generalize header; intros h E; injection E as <-; reflexivity). subst outs. constructor; [now apply S|]. now apply IH.
    + intros E. inversion E as [|i' o' l' r' E1 E2]; subst. apply S in E1. rewrite Eo in E1. injection E1 as <-. apply IH in E2. destruct (kx_loop kxp l) as [r|e|x]; cbn [bind] in *; [|discriminate E2|discriminate E2].
      revert E2. generalize header. intros h E2. injection E2 as ->. reflexivity.
Qed.
Print Assumptions C93_independent.

(** ** the values *)
Lemma kx_known L ids id : In (L, ids) calculator_units -> In id ids ->
  exists u m, u_get (own_units kx_os) id = Some (u, m) /\ 0 < coef (unit_length u) * coef m /\ -9 <= expo (unit_length u) + expo m <= 0 /\
    coef (unit_length u) * coef m * 10 ^ (9 + (expo (unit_length u) + expo m)) = L.
Proof.
  intros H1 H2. set (good := fun (L : Z) (id : str) => match u_get (own_units kx_os) id with
    | Some (u, m) => let cf := coef (unit_length u) * coef m in let e := expo (unit_length u) + expo m in (0 <? cf) && (-9 <=? e) && (e <=? 0) && (cf * 10 ^ (9 + e) =? L)
    | None => false end).
  assert (A : forallb (fun p => forallb (good (fst p)) (snd p)) calculator_units = true) by (vm_compute; reflexivity).
  rewrite forallb_forall in A. specialize (A (L, ids) H1). cbn [fst snd] in A. rewrite forallb_forall in A. specialize (A id H2). unfold good in A.
  destruct (u_get (own_units kx_os) id) as [[u m]|]; [|discriminate A]. exists u, m. split; [reflexivity|]. cbv zeta in A. lia.
Qed.
Definition fine_id (id : str) : bool :=
  match id with [] => false | x :: _ => negb (is_digit x) && negb (x =? 46) && negb (x =? 43) && negb (x =? 45) && negb (x =? 101) && negb (x =? 69) end &&
  negb (str_eq_nocase (firstn 3 id) (%"inf")) && forallb (fun x => negb (kx_delimiter x)) id.
Lemma kx_plain : plain_calls kx_os kxc.
Proof.
  assert (A : forall id, unit_id kx_os id -> fine_id id = true).
  { intros id (u & m & _ & t & H1 & H2 & H3). change (In t kx_units) in H1.
    assert (F : forallb (fun t => forallb fine_id (ctu_ids t)) kx_units = true) by (vm_compute; reflexivity).
    rewrite forallb_forall in F. specialize (F t H1). rewrite forallb_forall in F. apply F. first [exact H2|exact H3]. }
  constructor.
  - intros x H. change (kx_delimiter x = true) in H. unfold kx_delimiter in H. lia.
  - intros id H. apply A in H. unfold fine_id in H. apply andb_true_iff in H. destruct H as [H H3]. apply andb_true_iff in H. destruct H as [H1 H2].
    assert (H4 : forall x, In x id -> kx_delimiter x = false) by (rewrite forallb_forall in H3; intros x Hx; specialize (H3 x Hx); now destruct (kx_delimiter x)).
    destruct id as [|x r]; [discriminate|]. unfold is_digit in H1. split; [split; [split|exact H4]|cbn [hd]; lia]; [lia|].
    intros a b c r' E _. rewrite E in H2. cbn [firstn] in H2. now destruct (str_eq_nocase [a; b; c] (%"inf")).
  - intros id (u & m & _ & t & [] & _).
  - intros id (m & n & [] & _).
Qed.
(** the text: an optional `+`, digits with at most nine digits after the point, white space and a unit, or nothing for nanoseconds. The value is exact, and cut at the largest duration *)
Theorem C93_values : forall input sg W fr F ds id L, utf8 input = true -> trims input (sg ++ W ++ fr ++ ds ++ id) ->
  sg = [] \/ sg = %"+" -> digit_string W -> fraction_text fr F -> W ++ F <> [] -> (length F <= 9)%nat ->
  (exists ids, In (L, ids) calculator_units /\ In id ids /\ forall x, In x ds -> x = 9 \/ x = 10 \/ x = 13 \/ x = 32) \/ (id = [] /\ ds = [] /\ L = 1) ->
  exists row, calculator_row input (Z.min max_nanos (dval (W ++ F) * L / 10 ^ Z.of_nat (length F))) row /\ kx_main [input] = Ok [header; Lines [row]].
Proof.
  intros input sg W fr F ds id L U T Hsg HW HF N LF HU. pose proof (trims_utf8 _ _ U T) as Ut. pose proof (trims_is _ _ U T) as Et.
  assert (DF : digit_string F) by (destruct HF; [intros x []|assumption]).
  assert (SG : sign_part kxc sg false).
  { destruct Hsg as [->| ->]; [constructor|]. apply (sp_sign kxc (%"+") false []); [discriminate|constructor|intros x []|contradiction]. }
  assert (NP : number_part kxc (W ++ fr) W F 0).
  { rewrite <- (app_nil_r fr). apply (np kxc W fr F [] 0); [exact HW|exact HF|exact N|exact et_none|reflexivity|]. intros X. contradiction. }
  assert (V : forall u m, 0 < coef (unit_length u) * coef m -> -9 <= expo (unit_length u) + expo m <= 0 -> coef (unit_length u) * coef m * 10 ^ (9 + (expo (unit_length u) + expo m)) = L ->
    nanos (number_value false W F 0 u m) = Z.min max_nanos (dval (W ++ F) * L / 10 ^ Z.of_nat (length F)) /\ is_negative (number_value false W F 0 u m) = false).
  { intros u m Cp Ce El. split.
    - rewrite (number_value_nanos false W F 0 u m HW DF). cbv zeta. replace (coef (unit_length u) * coef m <? 0) with false by lia. cbn [xorb signed_nanos]. unfold magnitude. f_equal. rewrite Z.abs_eq by lia. rewrite <- El.
      set (cf := coef (unit_length u) * coef m) in *. set (e := expo (unit_length u) + expo m) in *. generalize (dval (W ++ F)). intros v. set (n := Z.of_nat (length F)). assert (Hn : 0 <= n <= 9) by lia.
      unfold floor_scale10. replace (0 <=? 18 + (e + 0 - n)) with true by lia. replace (18 + (e + 0 - n)) with (18 + e - n) by lia.
      rewrite <- (Z.div_mul_cancel_r (cf * (v * 10 ^ (18 + e - n))) 1000000000 (10 ^ n)) by lia.
      replace (cf * (v * 10 ^ (18 + e - n)) * 10 ^ n) with (v * (cf * 10 ^ (9 + e)) * 10 ^ 9).
      + replace (1000000000 * 10 ^ n) with (10 ^ n * 10 ^ 9) by (change 1000000000 with (10 ^ 9); ring). apply Z.div_mul_cancel_r; lia.
      + replace (18 + e) with (9 + e + 9) by lia. replace (10 ^ (9 + e + 9 - n)) with (10 ^ (9 + e + 9 - n)) by reflexivity.
        assert (X : 10 ^ (9 + e + 9 - n) * 10 ^ n = 10 ^ (9 + e) * 10 ^ 9) by (rewrite <- !Z.pow_add_r by lia; f_equal; lia). nia.
    - unfold number_value, number_result. destruct (_ || _); [reflexivity|]. replace (coef (unit_length u) * coef m <? 0) with false by lia. reflexivity. }
  assert (D : exists d, cp_parse kxp (sg ++ W ++ fr ++ ds ++ id) = Ok d /\ nanos d = Z.min max_nanos (dval (W ++ F) * L / 10 ^ Z.of_nat (length F))).
  { pose proof (fun d => C84_written_texts kxc (own_units kx_os) (own_keywords kx_os) (own_numerals kx_os) (sg ++ W ++ fr ++ ds ++ id) d (own_env kx_os kx_fit) (own_plain kx_os kx_plain) eq_refl Ut) as G.
    destruct HU as [(ids & I1 & I2 & I3)|(-> & -> & ->)].
    - destruct (kx_known L ids id I1 I2) as (u & m & Eu & Cp & Ce & El). destruct (V u m Cp Ce El) as [V1 V2]. exists (number_value false W F 0 u m). split; [|exact V1].
      rewrite custom_parse. apply G. split; [|right; exact V2]. replace (sg ++ W ++ fr ++ ds ++ id) with (sg ++ (W ++ fr) ++ ds ++ id) by (now rewrite <- !app_assoc).
      apply dt_number_unit; [exact SG|exact NP| |reflexivity|now apply up_plain]. intros x Hx. change (kx_delimiter x = true). unfold kx_delimiter. specialize (I3 x Hx). lia.
    - destruct (V NanoSecond (Mul 1 0)) as [V1 V2]; [cbn; lia|cbn; lia|reflexivity|]. exists (number_value false W F 0 NanoSecond (Mul 1 0)). split; [|exact V1].
      rewrite custom_parse. apply G. split; [|right; exact V2]. rewrite !app_nil_r. exact (dt_number kxc _ _ _ sg false (W ++ fr) W F 0 SG NP). }
  destruct D as (d & Ed & Vd). destruct (kx_line_answer input U) as (out & Eo & t & Tt & A).
  assert (t = sg ++ W ++ fr ++ ds ++ id) as -> by (rewrite Et; now apply trims_is).
  destruct A as [(d' & row & E1 & _ & R & ->)|(e & E1 & _)]; rewrite Ed in E1; [|discriminate E1]. injection E1 as <-. rewrite Vd in R. exists row. split; [exact R|].
  rewrite kx_main_eq. cbn [kx_loop]. rewrite Eo. reflexivity.
Qed.
Print Assumptions C93_values.

(** ** Examples *)
(** the arguments of the documentation. It shows other values for the year and the month, see DESIGN.md *)
Example C93_example :
  kx_main [%"10"; %"100ns"; %"1.09y"; %"1.42mon"; %"1week"; %"1     fortnight"; %"1e20"; %"-1.2"; %"1 " ++ [194; 181; 115]] =
  Ok [header;
      Lines [%"                  10|                    0.000000010"];
      Lines [%"               100ns|                    0.000000100"];
      Lines [%"               1.09y|             34398383.238400000"];
      Lines [%"             1.42mon|              3352039.944200000"];
      Lines [%"               1week|               604800.000000000"];
      Lines [%"     1     fortnight|              1209600.000000000"];
      Complaint (%"Error parsing '1e20': Syntax error: No exponent allowed at column 1");
      Complaint (%"Error parsing '-1.2': Number was negative");
      Lines [%"                1 " ++ [194; 181; 115] ++ %"|                    0.000001000"]] /\
  In (31558149760000000, [%"y"; %"yr"; %"year"; %"years"]) calculator_units /\ dval (%"109") * 31558149760000000 / 10 ^ 2 = 34398383238400000 /\
  dval (%"142") * 2360591510000000 / 10 ^ 2 = 3352039944200000.
Proof. split; [vm_compute; reflexivity|]. split; [unfold calculator_units; do 10 right; left; reflexivity|]. split; vm_compute; reflexivity. Qed.
