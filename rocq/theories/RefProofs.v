(** * The model computes what the reference parser computes *)
From Verif Require Import Prelude Util Time Config Bytes Repr Parse SpecTime SpecNum SpecValue SpecParse SpecGrammar
  TimeProofs NumProofs ReprProofs Utf8Proofs BytesProofs SafeProofs RefParse.

(** a result of the model against a result of the reference parser (None: some error) *)
Definition sim {A B} (R : A -> B -> Prop) (m : res A) (o : option B) : Prop :=
  match m, o with
  | Ok a, Some b => R a b
  | Err _, None => True
  | _, _ => False
  end.
Lemma sim_bind {A A' B B'} (R : A -> B -> Prop) (Q : A' -> B' -> Prop) m o f g :
  sim R m o -> (forall a b, R a b -> sim Q (f a) (g b)) -> sim Q (bind m f) (obind o g).
Proof. destruct m as [a|e|x], o as [b|]; cbn; auto; try contradiction. Qed.
Lemma sim_weaken {A B} (R Q : A -> B -> Prop) m o : sim R m o -> (forall a b, R a b -> Q a b) -> sim Q m o.
Proof. destruct m as [a|e|x], o as [b|]; cbn; auto. Qed.

Lemma starts_duration_eq x : is_next_duration x = starts_duration x.
Proof. unfold is_next_duration, starts_duration, is_sign. now rewrite orb_assoc. Qed.

Section Rel.
(** [K]: the bytes which end every buffered word *)
Context (K : byte -> bool) (s : str).

Definition clean (pre : str) (buf : buf_t) : Prop :=
  match buf with
  | None => True
  | Some (p, w, nx) =>
      (p < length pre)%nat \/
      exists pre' r, length pre' = p /\ s = pre' ++ w ++ r /\ nx = hd_opt r /\ forall x, In x w -> K x = false
  end.

(** the scanner has the text [rest] in front *)
Inductive SC (b : scanner) (rest : str) : Prop :=
| SC_at pre buf : b = at_ pre rest buf -> s = pre ++ rest -> utf8 rest = true -> clean pre buf -> SC b rest.

Lemma SC_cur b rest : SC b rest -> cur b = hd_opt rest.
Proof. intros [pre buf -> _ _ _]. reflexivity. Qed.
Lemma SC_utf8 b rest : SC b rest -> utf8 rest = true.
Proof. intros [pre buf -> _ H _]. exact H. Qed.
Lemma SC_bytes b rest : SC b rest -> bytes_ok rest.
Proof. intros H. exact (utf8_bytes_ok _ (SC_utf8 _ _ H)). Qed.
Lemma SC_pos b rest : SC b rest -> (pos b + length rest = length s)%nat.
Proof. intros [pre buf -> -> _ _]. cbn [at_ pos]. now rewrite app_length. Qed.
Lemma SC_input b rest : SC b rest -> input b = s.
Proof. intros [pre buf -> -> _ _]. reflexivity. Qed.

Lemma clean_app pre a buf : clean pre buf -> clean (pre ++ a) buf.
Proof. destruct buf as [[[p w] nx]|]; [|auto]. cbn. intros [H|H]; [left; rewrite app_length; lia|now right]. Qed.

Lemma SC_advance b x rest : SC b (x :: rest) -> 0 <= x <= 127 -> SC (advance b) rest.
Proof.
  intros [pre buf -> E U C] Hx. rewrite advance_at. rewrite utf8_cons_ascii in U by exact Hx.
  econstructor; [reflexivity| |exact U|now apply clean_app]. now rewrite <- app_assoc.
Qed.

Lemma SC_word b w l : SC b l -> starts_nocase w l = true -> utf8 w = true ->
  SC (advance_by b (length w)) (skipn (length w) l).
Proof.
  intros [pre buf -> E U C] Hw Uw. apply starts_nocase_split in Hw. destruct Hw as (v & r & -> & Ev & Lv).
  rewrite advance_by_at by auto. rewrite <- Lv, skipn_app, skipn_all, Nat.sub_diag. cbn [app skipn].
  econstructor; [reflexivity| | |now apply clean_app].
  - now rewrite <- app_assoc.
  - rewrite utf8_app in U; [exact U|]. apply (utf8_nocase w); [|assumption].
    clear - Ev. revert w Ev. induction v as [|x v IH]; intros [|y w] Ev; try discriminate; [reflexivity|]. cbn in *.
    apply andb_true_iff in Ev. destruct Ev as [E1 E2]. rewrite (IH w E2), andb_true_r. unfold eq_nocase in *. lia.
Qed.

(** consume delimiters; the scanner is not at the start of the input *)
Lemma sim_delimiter d b x l : ascii_delim d -> SC b (x :: l) -> d x = true -> (0 < pos b)%nat ->
  sim (fun b' r => SC b' r /\ r <> [] /\ (length r <= length l)%nat)
    (try_consume_delimiter d b) (nonempty (drop_while d (x :: l))).
Proof.
  intros Hd [pre buf -> E U C] Hx Hp. cbn [at_ pos] in Hp.
  rewrite try_consume_delimiter_at; [|exact Hx|destruct pre; [cbn in Hp; lia|discriminate]].
  cbn [drop_while]. rewrite Hx.
  rewrite utf8_cons_ascii in U by (apply Hd; exact Hx).
  pose proof (utf8_skip_ascii d l (fun y _ => Hd y) U) as U2. pose proof (take_drop_while d l) as TD.
  pose proof (f_equal (@List.length Z) TD) as L. rewrite app_length in L.
  destruct (drop_while d l) as [|y r]; cbn [nonempty sim]; [exact I|].
  split; [|split; [discriminate|lia]]. econstructor; [reflexivity| |exact U2|now apply clean_app].
  rewrite <- app_assoc. cbn [app]. now rewrite TD.
Qed.

Lemma SC_reset b b' l l' : SC b l -> SC b' l' -> clean (firstn (pos b) s) (buffer b') -> SC (reset b' (pos b)) l.
Proof.
  intros [pre buf -> E U C] [pre' buf' -> E' U' C'] Hc. unfold reset; cbn [at_ pos input buffer] in *.
  rewrite <- E', E, nth_error_app_hd. econstructor; [reflexivity|assumption|assumption|].
  revert Hc. now rewrite E, firstn_exact.
Qed.

Lemma app_same_length (a b c1 d : str) : a ++ b = c1 ++ d -> length a = length c1 -> a = c1 /\ b = d.
Proof.
  revert c1; induction a as [|x a IH]; intros [|y c1] E L; try discriminate; [auto|].
  cbn in E. injection E as -> E. destruct (IH c1 E) as [-> ->]; auto.
Qed.

(** collect a word: every delimiter of [d] ends a keyword, so that the buffer is transparent *)
Lemma buffered_SC d b l : ascii_delim d -> (forall x, d x = true -> K x = true) -> SC b l ->
  exists b', buffered_advance_to d b = Ok (b', take_while (fun x => negb (d x)) l) /\
    (take_while (fun x => negb (d x)) l <> [] -> SC b' (drop_while (fun x => negb (d x)) l)) /\
    ((forall x, K x = true -> d x = true) -> SC b' (drop_while (fun x => negb (d x)) l) /\ SC (reset b' (pos b)) l) /\
    (exists pre buf, b' = at_ pre (drop_while (fun x => negb (d x)) l) buf /\ s = pre ++ drop_while (fun x => negb (d x)) l) /\
    pos b' = (pos b + length (take_while (fun x => negb (d x)) l))%nat.
Proof.
  intros Hd Hk [pre buf -> E U C].
  destruct (utf8_drop_stop d l Hd U) as [U1 U2].
  pose proof (take_drop_while (fun x => negb (d x)) l) as TD.
  set (w := take_while _ l) in *. set (r := drop_while _ l) in *.
  assert (Hw : forall x, In x w -> d x = false) by (intros x Hx; apply take_while_all in Hx; now apply negb_true_iff in Hx).
  assert (F : forall buf', buffered_advance_to d (at_ pre l buf) = Ok (at_ (pre ++ w) r buf', w) ->
    (w <> [] -> clean (pre ++ w) buf') ->
    ((forall x, K x = true -> d x = true) -> clean pre buf') ->
    exists b', buffered_advance_to d (at_ pre l buf) = Ok (b', w) /\
    (w <> [] -> SC b' r) /\
    ((forall x, K x = true -> d x = true) -> SC b' r /\ SC (reset b' (pos (at_ pre l buf))) l) /\
    (exists pre buf, b' = at_ pre r buf /\ s = pre ++ r) /\ pos b' = (length pre + length w)%nat).
  { intros buf' Eb H1 H2. exists (at_ (pre ++ w) r buf'). split; [exact Eb|].
    assert (Es : s = (pre ++ w) ++ r) by (rewrite <- app_assoc, TD; exact E).
    split; [intros Nw; econstructor; eauto|]. split.
    - intros Hk'. specialize (H2 Hk'). split; [econstructor; eauto; now apply clean_app|].
      cbn [at_ pos]. rewrite <- TD, reset_at by reflexivity. econstructor; [reflexivity| | |exact H2].
      + now rewrite TD.
      + now rewrite TD.
    - split; [eauto|]. cbn [at_ pos]. now rewrite app_length. }
  assert (Fresh : buffered_advance_to d (at_ pre l buf) = Ok (buffered_fresh d pre l) ->
    exists b', buffered_advance_to d (at_ pre l buf) = Ok (b', w) /\
    (w <> [] -> SC b' r) /\
    ((forall x, K x = true -> d x = true) -> SC b' r /\ SC (reset b' (pos (at_ pre l buf))) l) /\
    (exists pre buf, b' = at_ pre r buf /\ s = pre ++ r) /\ pos b' = (length pre + length w)%nat).
  { intros Eb. unfold buffered_fresh in Eb. apply (F (Some (length pre, w, hd_opt r)) Eb).
    - intros Nw. left. rewrite app_length. destruct w; [congruence|cbn; lia].
    - intros Hk'. right. exists pre, r. rewrite TD. repeat split; auto. intros x Hx. apply Hw in Hx.
      destruct (K x) eqn:Ek; [|reflexivity]. rewrite (Hk' x Ek) in Hx. discriminate. }
  change (pos (at_ pre l buf)) with (length pre).
  destruct buf as [[[p w0] nx]|]; [|apply Fresh, buffered_at_fresh; exact I].
  destruct (Nat.eq_dec p (length pre)) as [->|N]; [|apply Fresh, buffered_at_fresh; exact N].
  destruct C as [C|C]; [lia|]. destruct C as (pre' & r0 & L & Es & -> & Hw0).
  assert (P : pre' = pre /\ w0 ++ r0 = l).
  { apply app_same_length; [congruence|assumption]. }
  destruct P as [-> El].
  destruct (match hd_opt r0 with Some x => d x | None => true end) eqn:G.
  - assert (Ew : w = w0 /\ r = r0).
    { unfold w, r. rewrite <- El. apply take_while_app_stop.
      - intros x Hx. apply Hw0 in Hx. destruct (d x) eqn:Ed; [|reflexivity]. apply Hk in Ed. congruence.
      - destruct r0; [exact I|]. cbn in G. now rewrite G. }
    destruct Ew as [Ew Er].
    apply (F (Some (length pre, w0, hd_opt r0))).
    + rewrite <- El, Ew, Er. apply buffered_at_cached. destruct (hd_opt r0); [exact G|exact I].
    + intros _. right. exists pre, r0. auto.
    + intros _. right. exists pre, r0. auto.
  - apply Fresh. destruct r0 as [|x r0]; [discriminate|]. cbn [hd_opt] in G |- *.
    rewrite <- (buffered_at_fresh d pre l None I).
    unfold buffered_advance_to. unfold at_ at 1 2; cbn [buffer].
    unfold at_ at 1; cbn [pos]. rewrite Nat.eqb_refl, G. cbn [andb].
    rewrite !skip_until_at by apply at_fuel. reflexivity.
Qed.
End Rel.

Lemma drop_while_length p l : (length (drop_while p l) <= length l)%nat.
Proof. induction l as [|x l IH]; cbn; [lia|]. destruct (p x); cbn; lia. Qed.
Lemma nonempty_Some l r : nonempty l = Some r -> l = r /\ r <> [].
Proof. destruct l; cbn; [discriminate|]. intros [= <-]. split; [reflexivity|discriminate]. Qed.

Lemma is_e_eq x : eq_nocase x 101 = is_e x.
Proof.
  unfold eq_nocase, to_lower, is_e. change ((65 <=? 101) && (101 <=? 90)) with false. cbv iota.
  destruct (Z.leb_spec 65 x), (Z.leb_spec x 90); cbn [andb]; lia.
Qed.

Section Numbers.
Context (c : config) (K : byte -> bool) (s : str).
Notation SC := (SC K s).

(** only a sign was parsed so far *)
Record sgn_r (n : bool) (r : repr) : Prop := SgnR {
  g_fresh : fresh s r;
  g_unit : r_default_unit r = c_default_unit c;
  g_neg : neg_or_default (r_is_negative r) = n;
  g_exp : r_exponent r = 0
}.
(** a number is being parsed: digits [W], fraction digits [F], exponent [x] *)
Record num_r (n : bool) (W F : str) (x : Z) (r : repr) : Prop := NumR {
  q_num : num_st s r;
  q_has : has_number r;
  q_default : r_default_unit r = c_default_unit c;
  q_neg : neg_or_default (r_is_negative r) = n;
  q_whole : exists W0, opt_slice s (r_whole r) = Ok W0 /\ digit_string W0 /\ exists z, W = z ++ W0 /\ all_zeros z = true;
  q_fract : opt_slice s (r_fract r) = Ok F /\ digit_string F;
  q_exp : r_exponent r = x
}.

Lemma dval_zeros_app z a : all_zeros z = true -> dval (z ++ a) = dval a.
Proof. intros H. rewrite dval_app, (dval_zeros z H). lia. Qed.

Lemma num_r_gen n W F x r u m r' : num_r n W F x r -> unit_fits u m ->
  r_is_infinite r' = r_is_infinite r -> r_whole r' = r_whole r -> r_fract r' = r_fract r -> r_input r' = r_input r ->
  r_exponent r' = r_exponent r -> r_is_negative r' = r_is_negative r -> opt_unit r' = u -> r_multiplier r' = m ->
  repr_parse r' = Ok (number_value n W F x u m).
Proof.
  intros [Hn Hh Hd Hneg (W0 & SW & DW & z & -> & Hz) [SF DF] Hx] [_ Hm] E1 E2 E3 E4 E5 E6 E7 E8.
  destruct Hn. destruct (mul_checked_mul (unit_multiplier u) m) as [[cc ee]|] eqn:Em; [|congruence].
  unfold number_value. replace (unit_length u) with (unit_multiplier u) by (destruct u; reflexivity). pose proof (mul_checked_mul_Some _ _ _ _ Em) as (-> & -> & _ & _).
  rewrite <- app_assoc, (dval_zeros_app z) by exact Hz.
  rewrite <- Hx, <- Hneg, <- E5, <- E6.
  apply repr_parse_number; try congruence.
  1: rewrite E2, E3; exact Hh. all: assumption.
Qed.
Lemma num_r_value n W F x r : num_r n W F x r ->
  repr_parse r = Ok (number_value n W F x (c_default_unit c) default_multiplier).
Proof.
  intros H. eapply num_r_gen; eauto; destruct H as [[]]; auto.
  - apply default_fits.
  - unfold opt_unit. now rewrite n_unit.
Qed.
Lemma num_r_unit n W F x r u m : num_r n W F x r -> unit_fits u m ->
  repr_parse (set_unit r (u, m)) = Ok (number_value n W F x u m).
Proof. intros H Hu. eapply num_r_gen; eauto. Qed.

Lemma sgn_r_unit n r u m : sgn_r n r -> unit_fits u m -> repr_parse (set_unit r (u, m)) = Ok (unit_value n u m).
Proof.
  intros [([] & Hw & Hf) _ Hn _] [_ Hm]. destruct (mul_checked_mul (unit_multiplier u) m) as [[cc ee]|] eqn:E; [|congruence].
  unfold unit_value. replace (unit_length u) with (unit_multiplier u) by (destruct u; reflexivity). pose proof (mul_checked_mul_Some _ _ _ _ E) as (<- & <- & _ & _).
  erewrite repr_parse_unit; cbn; eauto. now rewrite Hn.
Qed.
Lemma sgn_r_numeral n r num u m : sgn_r n r -> numeral_fits num u m ->
  repr_parse (set_unit (set_numeral r num) (u, m)) = Ok (numeral_value n num u m).
Proof.
  intros [([] & Hw & Hf) _ Hn _] (m1 & H1 & Hm). destruct (mul_checked_mul m1 m) as [[cc ee]|] eqn:E; [|congruence].
  unfold numeral_value. replace (unit_length u) with (unit_multiplier u) by (destruct u; reflexivity). destruct m1 as [c1 e1]. pose proof (mul_checked_mul_Some _ _ _ _ H1) as (<- & <- & _ & _).
  pose proof (mul_checked_mul_Some _ _ _ _ E) as (-> & -> & _ & _).
  erewrite repr_parse_numeral; cbn [set_unit set_numeral r_is_infinite r_whole r_fract r_numeral r_unit r_multiplier r_is_negative fst snd]; eauto.
  now rewrite Hn.
Qed.
Lemma sgn_r_infinite n r : sgn_r n r -> repr_parse (set_infinite r) = Ok (infinity_value n).
Proof. intros [_ _ Hn _]. rewrite repr_parse_infinite by reflexivity. cbn. now rewrite Hn. Qed.

Lemma sgn_r_init b l : SC b l -> sgn_r false (repr_init c b).
Proof.
  intros H. split; try reflexivity. split; [|auto]. constructor; try reflexivity; try exact I. exact (SC_input _ _ _ _ H).
Qed.
Lemma sgn_r_negative n b r : sgn_r n r -> sgn_r b (set_negative r b).
Proof. intros [H1 H2 H3 H4]. split; auto. now apply fresh_negative. Qed.

Lemma sim_signed b l : ascii_delim (c_inner_delimiter c) -> SC b l -> l <> [] ->
  sim (fun x y => SC (fst x) (snd y) /\ sgn_r (fst y) (snd x) /\ snd y <> [] /\ (length (snd y) <= length l)%nat)
    (parse_number_sign b (repr_init c b) c) (f_signed c l).
Proof.
  intros Hd H Nl. pose proof (sgn_r_init _ _ H) as R0. destruct l as [|x l]; [congruence|].
  unfold parse_number_sign, parse_sign_is_negative. rewrite (SC_cur _ _ _ _ H). cbn [hd_opt].
  assert (G : forall n, (x = 43 \/ x = 45) ->
    sim (fun x0 y => SC (fst x0) (snd y) /\ sgn_r (fst y) (snd x0) /\ snd y <> [] /\ (length (snd y) <= length (x :: l))%nat)
      (match cur (advance b) with
       | Some y => if c_allow_sign_delimiter c && c_inner_delimiter c y
                   then let* b0 := try_consume_delimiter (c_inner_delimiter c) (advance b) in Ok (b0, set_negative (repr_init c b) n)
                   else Ok (advance b, set_negative (repr_init c b) n)
       | None => Err (Syntax (pos (advance b)) (%"Unexpected end of input. Sign without a number"))
       end)
      (let? r := nonempty (if c_allow_sign_delimiter c then drop_while (c_inner_delimiter c) l else l) in Some (n, r))).
  { intros n Hx. assert (A : SC (advance b) l) by (apply (SC_advance K s b x l H); lia).
    rewrite (SC_cur _ _ _ _ A). destruct l as [|y l']; cbn [hd_opt]; [destruct (c_allow_sign_delimiter c); exact I|].
    destruct (c_allow_sign_delimiter c) eqn:Es; cbn [andb].
    - destruct (c_inner_delimiter c y) eqn:Ey.
      + eapply sim_bind; [apply (sim_delimiter K s _ _ y l' Hd A Ey)|].
        { unfold advance; cbn [pos]. lia. }
        intros b1 r1 (H1 & N1 & L1). cbn [sim fst snd]. split; [assumption|]. split; [now apply (sgn_r_negative false)|]. split; [assumption|cbn [length] in *; lia].
      + cbn [drop_while]. rewrite Ey. cbn [nonempty obind sim fst snd]. split; [exact A|].
        split; [now apply (sgn_r_negative false)|]. split; [discriminate|cbn [length]; lia].
    - cbn [nonempty obind sim fst snd]. split; [exact A|].
      split; [now apply (sgn_r_negative false)|]. split; [discriminate|cbn [length]; lia]. }
  cbn [f_signed]. unfold is_sign.
  destruct (Z.eqb_spec x 43) as [->|N1]; cbn [orb bind]; [apply (G false); auto|].
  destruct (Z.eqb_spec x 45) as [->|N2]; cbn [orb bind]; [apply (G true); auto|].
  cbn [sim fst snd]. split; [exact H|]. split; [exact R0|]. split; [discriminate|lia].
Qed.

Lemma SC_split b a rest : SC b (a ++ rest) -> (forall x, In x a -> 0 <= x <= 127) ->
  forall pre buf, b = at_ pre (a ++ rest) buf -> SC (at_ (pre ++ a) rest buf) rest.
Proof.
  intros [pre0 buf0 -> E U C] Ha pre buf Eb.
  assert (pre0 = pre /\ buf0 = buf).
  { unfold at_ in Eb. injection Eb as L -> E2. split; [|reflexivity]. apply app_same_length in E2; tauto. }
  destruct H as [-> ->]. econstructor; [reflexivity| | |now apply clean_app].
  - now rewrite <- app_assoc.
  - clear - U Ha. induction a as [|x a IH]; [exact U|]. cbn [app] in U. rewrite utf8_cons_ascii in U by (apply Ha; now left).
    apply IH; auto. intros y Hy. apply Ha. now right.
Qed.

Lemma digits_ascii l x : In x (take_while is_digit l) -> 0 <= x <= 127.
Proof. intros H. apply take_while_all in H. now apply is_digit_ascii. Qed.

Lemma range_slice_SC pre a b post n : n = length pre -> s = pre ++ (a ++ b) ++ post ->
  range_slice s (n + length a, n + length (a ++ b))%nat = Ok b.
Proof. intros -> ->. now apply range_slice_at. Qed.

Lemma sim_whole b x l n r : SC b (x :: l) -> is_digit x = true -> sgn_r n r ->
  exists b' w, parse_whole b = Ok (b', w) /\ SC b' (drop_while is_digit (x :: l)) /\
    num_r n (take_while is_digit (x :: l)) [] 0 (set_whole r w).
Proof.
  intros H Hx Hr. pose proof (SC_bytes _ _ _ _ H) as Hb. unfold parse_whole.
  pose proof (take_drop_while is_digit (x :: l)) as TD.
  destruct H as [pre buf -> E U C]. pose proof (SC_at K s _ _ pre buf eq_refl E U C) as H.
  rewrite parse_digits_strip_zeros_at by assumption.
  assert (A : forall y, In y (take_while is_digit (x :: l)) -> 0 <= y <= 127) by apply digits_ascii.
  assert (D : digit_string (take_while is_digit (x :: l))) by apply take_digits_string.
  set (W := take_while is_digit (x :: l)) in *. set (rest := drop_while is_digit (x :: l)) in *.
  eexists _, _. split; [reflexivity|]. split.
  - rewrite <- TD in H. refine (SC_split _ W rest H A pre buf _). now rewrite TD.
  - destruct (zeros_split W) as [z Ez].
    assert (SW : range_slice s (length pre + length (zeros W), length pre + length W)%nat = Ok z).
    { rewrite Ez at 2. apply (range_slice_SC pre _ _ rest); [reflexivity|]. rewrite <- Ez, TD. exact E. }
    assert (Dz : digit_string z) by (rewrite Ez in D; apply digit_string_app in D; tauto).
    destruct Hr as [[[] [Hw Hf]] Hu Hn He].
    split; cbn [set_whole r_default_unit r_is_negative r_whole r_fract r_exponent]; auto.
    + constructor; cbn [set_whole r_input r_is_infinite r_unit r_multiplier r_numeral r_whole r_fract r_exponent]; auto.
      exists z. auto.
    + left. discriminate.
    + exists z. split; [exact SW|]. split; [exact Dz|]. exists (zeros W). split; [exact Ez|apply zeros_all_zeros].
    + rewrite Hf. split; [reflexivity|apply digit_string_nil].
Qed.

Lemma SC_destruct b l : SC b l -> exists pre buf, b = at_ pre l buf /\ s = pre ++ l.
Proof. intros [pre buf E1 E2 _ _]. eauto. Qed.

(** before the fraction: either digits were read, or there are none and a dot is in front *)
Definition before_fraction (n : bool) (W l : str) (r : repr) : Prop :=
  (num_r n W [] 0 r /\ r_whole r <> None) /\ W <> [] \/ W = [] /\ sgn_r n r /\ starts_with is_dot l.

Lemma fract_num_r n W r F f : (num_r n W [] 0 r \/ W = [] /\ sgn_r n r) -> range_slice s f = Ok F -> digit_string F ->
  num_r n W F 0 (set_fract r f).
Proof.
  intros [H|[-> H]] SF DF.
  - destruct H as [[] Hh Hd Hn Hw Hf He]. split; cbn [set_fract r_default_unit r_is_negative r_whole r_fract r_exponent]; auto.
    + constructor; cbn [set_fract r_input r_is_infinite r_unit r_multiplier r_numeral r_whole r_fract r_exponent]; auto. exists F. auto.
    + right. discriminate.
  - destruct H as [[[] [Hw Hf]] Hu Hn He]. split; cbn [set_fract r_default_unit r_is_negative r_whole r_fract r_exponent]; auto.
    + constructor; cbn [set_fract r_input r_is_infinite r_unit r_multiplier r_numeral r_whole r_fract r_exponent]; auto. exists F. auto.
    + right. discriminate.
    + rewrite Hw. exists []. split; [reflexivity|]. split; [apply digit_string_nil|]. exists []. auto.
Qed.

Lemma sim_fraction b l n W r : SC b l -> before_fraction n W l r ->
  sim (fun x y => let '(b', r', go) := x in
         SC b' (snd y) /\ num_r n W (fst y) 0 r' /\ (length (snd y) <= length l)%nat /\
         (starts_with is_dot l -> (length (snd y) < length l)%nat) /\
         (go = false -> snd y = []))
    (parse_number_fraction b r (c_disable_fraction c))
    (let? (F, l) := f_fraction c l in if is_empty (W ++ F) then None else Some (F, l)).
Proof.
  intros H Hr. unfold parse_number_fraction. rewrite (SC_cur _ _ _ _ H).
  assert (NW : ~ starts_with is_dot l -> num_r n W [] 0 r /\ is_empty W = false).
  { intros Nd. destruct Hr as [[[Hr _] Nw]|(-> & _ & Hd)]; [|contradiction]. split; [assumption|]. now destruct W. }
  destruct l as [|x l]; cbn [hd_opt f_fraction obind].
  { destruct (NW (fun F => F)) as [N1 N2]. rewrite app_nil_r, N2. cbn [sim fst snd]. split; [exact H|]. split; [exact N1|]. split; [lia|]. split; [intros []|reflexivity]. }
  assert (ED : is_dot x = (x =? 46)) by reflexivity. rewrite ED. destruct (Z.eqb_spec x 46) as [->|Nx]; cbn [andb].
  2:{ destruct (NW ltac:(cbn; unfold is_dot; lia)) as [N1 N2]. cbn [obind].
      rewrite app_nil_r, N2. cbn [sim fst snd]. split; [exact H|]. split; [exact N1|]. split; [lia|]. split; [cbn; unfold is_dot; lia|discriminate]. }
  destruct (c_disable_fraction c); cbn [negb obind]; [exact I|].
  assert (A : SC (advance b) l) by (apply (SC_advance K s b 46 l H); lia).
  rewrite (SC_cur _ _ _ _ A).
  assert (Hr' : num_r n W [] 0 r \/ W = [] /\ sgn_r n r) by (destruct Hr as [[[Hr _] _]|(E & Hr & _)]; auto).
  assert (Pp : sub_usize (pos (advance b)) 1 = Ok (pos b)).
  { unfold sub_usize, advance; cbn [pos]. destruct (Nat.leb_spec 1 (pos b + 1)); [|lia]. f_equal. lia. }
  assert (Emp : forall go, (go = false -> l = []) -> take_while is_digit l = [] -> drop_while is_digit l = l ->
    sim (fun x y => let '(b', r', go) := x in
         SC b' (snd y) /\ num_r n W (fst y) 0 r' /\ (length (snd y) <= length (46%Z :: l))%nat /\
         (starts_with is_dot (46 :: l) -> (length (snd y) < length (46%Z :: l))%nat) /\
         (go = false -> snd y = []))
     (if match r_whole r with Some _ => false | None => true end
      then let* p := sub_usize (pos (advance b)) 1 in
           Err (Syntax p (%"Either the whole number part or the fraction must be present"))
      else Ok (advance b, set_fract r (pos (advance b), pos (advance b)), go))
     (if is_empty (W ++ take_while is_digit l) then None else Some (take_while is_digit l, drop_while is_digit l))).
  { intros go Eg Et Ed. rewrite Et, Ed, app_nil_r, Pp.
    assert (EW : is_empty W = match r_whole r with Some _ => false | None => true end).
    { destruct Hr as [[[_ Hw] Nw]|(-> & [[_ [Hr _]] _ _ _] & _)]; [|rewrite Hr; reflexivity].
      destruct (r_whole r); [|congruence]. destruct W; [congruence|reflexivity]. }
    rewrite <- EW. destruct (is_empty W); cbn [bind sim fst snd]; [exact I|].
    split; [exact A|]. split.
    - apply fract_num_r; [exact Hr'| |apply digit_string_nil].
      destruct (SC_destruct _ _ A) as (pre & buf & -> & Es). cbn [at_ pos]. unfold range_slice; cbn [fst snd].
      rewrite slice_is; [now rewrite Nat.sub_diag|]. rewrite Es, app_length. lia.
    - cbn [length]. split; [lia|]. split; [lia|exact Eg]. }
  destruct l as [|y l]; cbn [hd_opt].
  { specialize (Emp false (fun _ => eq_refl) eq_refl eq_refl). cbn [obind]. destruct (r_whole r); exact Emp. }
  destruct (is_digit y) eqn:Ey.
  2:{ specialize (Emp true ltac:(discriminate)). cbn [take_while drop_while] in Emp. rewrite Ey in Emp. specialize (Emp eq_refl eq_refl).
      cbn [take_while drop_while]. rewrite Ey. cbn [obind]. destruct (r_whole r); exact Emp. }
  pose proof (SC_bytes _ _ _ _ A) as Hb. unfold parse_fract.
  destruct (SC_destruct _ _ A) as (pre & buf & Eb & Es). rewrite Eb in *.
  rewrite parse_digits_at by assumption. cbn [bind obind].
  pose proof (take_drop_while is_digit (y :: l)) as TD.
  assert (Da : forall z, In z (take_while is_digit (y :: l)) -> 0 <= z <= 127) by apply digits_ascii.
  assert (D : digit_string (take_while is_digit (y :: l))) by apply take_digits_string.
  assert (NF : take_while is_digit (y :: l) <> []) by (cbn [take_while]; rewrite Ey; discriminate).
  pose proof (drop_while_length is_digit (y :: l)) as LD.
  set (F := take_while is_digit (y :: l)) in *. set (rest := drop_while is_digit (y :: l)) in *.
  replace (is_empty (W ++ F)) with false by (destruct W; [destruct F; [congruence|reflexivity]|reflexivity]).
  cbn [sim fst snd]. split; [rewrite <- TD in A; refine (SC_split _ F rest A Da pre buf _); now rewrite TD|]. split.
  - apply fract_num_r; [exact Hr'| |exact D]. unfold range_slice; cbn [fst snd].
    rewrite Es, <- TD, <- app_length. apply slice_at.
  - cbn [length] in *. split; [lia|]. split; [lia|]. discriminate.
Qed.

End Numbers.

Definition sg (n : bool) (a : Z) : Z := if n then - a else a.
Lemma dval_from_ge ds : digit_string ds -> forall acc, 0 <= acc -> acc <= dval_from acc ds.
Proof.
  induction ds as [|x ds IH]; intros D acc Ha; cbn [dval_from]; [lia|].
  pose proof (D x (or_introl eq_refl)).
  specialize (IH (fun y Hy => D y (or_intror Hy)) (acc * 10 + (x - 48)) ltac:(lia)). lia.
Qed.

Lemma is_i16_iff x : is_i16 x = true <-> -32768 <= x <= 32767.
Proof. unfold is_i16. rewrite inb_iff. unfold i16_min, i16_max. lia. Qed.

(** the digits of the exponent are read exactly, or their value does not fit an i16 *)
Lemma exponent_loop_at n : forall fuel acc pre l buf, (length l < fuel)%nat -> bytes_ok l -> 0 <= acc -> is_i16 (sg n acc) = true ->
  exponent_loop fuel n (sg n acc) (at_ pre l buf) =
  (let E := sg n (dval_from acc (take_while is_digit l)) in
   if is_i16 E then Ok (at_ (pre ++ take_while is_digit l) (drop_while is_digit l) buf, E)
   else Err (if n then NegativeExponentOverflow else PositiveExponentOverflow)).
Proof.
  induction fuel as [|f IH]; intros acc pre l buf L B Ha Hi; [lia|]. cbn [exponent_loop].
  unfold at_ at 1; cbn [cur]. destruct l as [|x l]; cbn [hd_opt take_while drop_while].
  { cbn [dval_from]. cbv zeta. now rewrite Hi, app_nil_r. }
  fold (is_digit_wrapping x). rewrite is_digit_wrapping_spec by (apply B; now left).
  destruct (is_digit x) eqn:Ex.
  2:{ cbn [dval_from]. cbv zeta. now rewrite Hi, app_nil_r. }
  pose proof Ex as Hx. apply is_digit_iff in Hx.
  assert (Ew : wrap_u8 (x - 48) = x - 48) by (unfold wrap_u8; apply Z.mod_small; lia).
  rewrite Ew. cbn [dval_from]. set (ds := take_while is_digit l) in *. set (acc' := acc * 10 + (x - 48)) in *.
  pose proof (dval_from_ge ds (take_digits_string l) acc' ltac:(lia)) as Ge.
  change (Scan _ _ _ _) with (at_ pre (x :: l) buf).
  assert (St : is_i16 (sg n acc') = true ->
    exponent_loop f n (sg n acc') (advance (at_ pre (x :: l) buf)) =
    (let E := sg n (dval_from acc' ds) in
     if is_i16 E then Ok (at_ (pre ++ x :: ds) (drop_while is_digit l) buf, E)
     else Err (if n then NegativeExponentOverflow else PositiveExponentOverflow))).
  { intros Hi'. rewrite advance_at, IH; [|cbn in L; lia|intros y Hy; apply B; now right|lia|exact Hi'].
    fold ds. now rewrite <- app_assoc. }
  cbv zeta in *.
  assert (Out : is_i16 (sg n acc') = false -> is_i16 (sg n (dval_from acc' ds)) = false).
  { intros Hn. destruct (is_i16 (sg n (dval_from acc' ds))) eqn:E; [|reflexivity].
    apply is_i16_iff in E. assert (is_i16 (sg n acc') = true); [|congruence].
    apply is_i16_iff. unfold sg in *. destruct n; lia. }
  destruct n; cbn [sg] in *.
  - destruct (chk_spec is_i16 (- acc * 10)) as [[G1 E1]|[G1 E1]]; rewrite E1; cbn [obind].
    + destruct (chk_spec is_i16 (- acc * 10 - (x - 48))) as [[G2 E2]|[G2 E2]]; rewrite E2;
        replace (- acc * 10 - (x - 48)) with (- acc') in * by lia.
      * now apply St.
      * now rewrite (Out G2).
    + rewrite Out; [reflexivity|]. destruct (is_i16 (- acc')) eqn:E; [|reflexivity]. apply is_i16_iff in E.
      assert (is_i16 (- acc * 10) = true); [|congruence]. apply is_i16_iff. lia.
  - destruct (chk_spec is_i16 (acc * 10)) as [[G1 E1]|[G1 E1]]; rewrite E1; cbn [obind].
    + destruct (chk_spec is_i16 (acc * 10 + (x - 48))) as [[G2 E2]|[G2 E2]]; rewrite E2.
      * now apply St.
      * now rewrite (Out G2).
    + rewrite Out; [reflexivity|]. destruct (is_i16 acc') eqn:E; [|reflexivity]. apply is_i16_iff in E.
      assert (is_i16 (acc * 10) = true); [|congruence]. apply is_i16_iff. lia.
Qed.

(** C28, with the error *)
Lemma exponent_digits_at n pre l buf : bytes_ok l ->
  exponent_loop (loop_fuel (at_ pre l buf)) n 0 (at_ pre l buf) =
  (let E := sg n (dval (take_while is_digit l)) in
   if is_i16 E then Ok (at_ (pre ++ take_while is_digit l) (drop_while is_digit l) buf, E)
   else Err (if n then NegativeExponentOverflow else PositiveExponentOverflow)).
Proof.
  intros B. pose proof (exponent_loop_at n (loop_fuel (at_ pre l buf)) 0 pre l buf (at_fuel _ _ _) B ltac:(lia)) as H.
  replace (sg n 0) with 0 in H by (destruct n; reflexivity). rewrite H by reflexivity. reflexivity.
Qed.

Section Numbers2.
Context (c : config) (K : byte -> bool) (s : str).
Notation SC := (SC K s).
Notation num_r := (num_r c s).

Lemma SC_drop_digits b l : SC b l -> forall pre buf, b = at_ pre l buf ->
  SC (at_ (pre ++ take_while is_digit l) (drop_while is_digit l) buf) (drop_while is_digit l).
Proof.
  intros H pre buf E. pose proof (take_drop_while is_digit l) as TD.
  rewrite <- TD in H. refine (SC_split K s _ _ _ H (digits_ascii l) pre buf _). rewrite TD. exact E.
Qed.

Lemma sim_exponent_digits n b l : SC b l ->
  sim (fun x y => SC (fst x) (snd y) /\ snd x = fst y /\ (length (snd y) <= length l)%nat /\ is_i16 (fst y) = true)
    (let* r := exponent_loop (loop_fuel b) n 0 b in
     let '(b', exponent) := r in
     let* k := sub_usize (pos b') (pos b) in
     if (0 <? k)%nat then Ok (b', exponent)
     else if is_end_of_input b' then
       Err (Syntax (pos b') (%"Expected exponent but reached end of input"))
     else Err (Syntax (pos b') (%"The exponent must have at least one digit")))
    (f_exponent_digits n l).
Proof.
  intros H. pose proof (SC_bytes _ _ _ _ H) as B. destruct (SC_destruct _ _ _ _ H) as (pre & buf & Eb & Es).
  rewrite Eb at 1 2. rewrite exponent_digits_at by exact B. unfold f_exponent_digits. cbv zeta. fold (sg n (dval (take_while is_digit l))).
  pose proof (SC_drop_digits _ _ H pre buf Eb) as A. pose proof (drop_while_length is_digit l) as L.
  destruct (is_i16 (sg n (dval (take_while is_digit l)))) eqn:Ei.
  - cbn [bind]. rewrite Eb. unfold sub_usize.
    repeat match goal with |- context[pos (at_ ?a ?b0 ?c0)] => change (pos (at_ a b0 c0)) with (length a) end.
    rewrite app_length.
    destruct (Nat.leb_spec (length pre) (length pre + length (take_while is_digit l))) as [_|?]; [|lia]. cbn [bind].
    replace (length pre + length (take_while is_digit l) - length pre)%nat with (length (take_while is_digit l)) by lia.
    destruct (take_while is_digit l) as [|y ds] eqn:Et.
    + cbn [length Nat.ltb Nat.leb]. destruct (is_end_of_input _); exact I.
    + cbn [length]. replace (0 <? S (length ds))%nat with true by reflexivity.
      unfold sg in Ei |- *. cbn [sim fst snd]. auto.
  - cbn [bind]. unfold sg in Ei. destruct (take_while is_digit l); rewrite ?Ei; exact I.
Qed.

Lemma sim_exponent b l n W F r : SC b l -> num_r n W F 0 r ->
  sim (fun x y => let '(b', r', go) := x in
         SC b' (snd y) /\ num_r n W F (fst y) r' /\ (length (snd y) <= length l)%nat /\ (go = false -> snd y = []))
    (parse_number_exponent b r (c_disable_exponent c)) (f_exponent c l).
Proof.
  intros H Hr. unfold parse_number_exponent. rewrite (SC_cur _ _ _ _ H).
  destruct l as [|x l]; cbn [hd_opt f_exponent]; [cbn [sim fst snd]; auto|].
  rewrite is_e_eq. destruct (is_e x) eqn:Ex; cbn [andb].
  2:{ cbn [sim fst snd]. split; [exact H|]. split; [exact Hr|]. split; [lia|discriminate]. }
  destruct (c_disable_exponent c); cbn [negb]; [exact I|].
  assert (Hx : 0 <= x <= 127) by (unfold is_e in Ex; lia).
  pose proof (SC_advance K s b x l H Hx) as A.
  assert (Fin : forall n0 b1 l1, SC b1 l1 -> (length l1 <= length l)%nat ->
    sim (fun x0 y => let '(b', r', go) := x0 in
         SC b' (snd y) /\ num_r n W F (fst y) r' /\ (length (snd y) <= length (x :: l))%nat /\ (go = false -> snd y = []))
      (let* e := (let* r := exponent_loop (loop_fuel b1) n0 0 b1 in
        let '(b', exponent) := r in
        let* k := sub_usize (pos b') (pos b1) in
        if (0 <? k)%nat then Ok (b', exponent)
        else if is_end_of_input b' then
          Err (Syntax (pos b') (%"Expected exponent but reached end of input"))
        else Err (Syntax (pos b') (%"The exponent must have at least one digit"))) in
        let '(b0, e0) := e in Ok (b0, set_exponent r e0, true))
      (f_exponent_digits n0 l1)).
  { intros n0 b1 l1 H1 L1. pose proof (sim_exponent_digits n0 b1 l1 H1) as S0.
    destruct (f_exponent_digits n0 l1) as [[e r1]|].
    - match type of S0 with sim _ ?m _ => destruct m as [[b' e']|?|?]; [|contradiction|contradiction] end.
      cbn [sim fst snd bind] in *. destruct S0 as (S1 & -> & S3 & S4). split; [exact S1|].
      split; [destruct Hr as [[] Hh Hd Hn Hw Hf He]; split; auto; constructor; auto|].
      cbn [length]. split; [lia|discriminate].
    - match type of S0 with sim _ ?m _ => destruct m as [[b' e']|?|?]; [contradiction|exact I|contradiction] end. }
  unfold parse_exponent, parse_sign_is_negative. rewrite (SC_cur _ _ _ _ A).
  destruct l as [|y l]; cbn [hd_opt]; [exact I|].
  destruct (Z.eqb_spec y 43) as [->|N1].
  { cbn [bind neg_or_default]. apply Fin; [apply (SC_advance K s _ 43 l A); lia|cbn [length]; lia]. }
  destruct (Z.eqb_spec y 45) as [->|N2].
  { cbn [bind neg_or_default]. apply Fin; [apply (SC_advance K s _ 45 l A); lia|cbn [length]; lia]. }
  cbn [bind neg_or_default]. apply Fin; [exact A|cbn [length]; lia].
Qed.

Lemma sim_unit_delimiter b l : ascii_delim (c_inner_delimiter c) -> SC b l -> (0 < pos b)%nat ->
  sim (fun x l' => SC (fst x) l' /\ (length l' <= length l)%nat /\ (snd x = is_empty l' -> False))
    (parse_number_delimiter b (if c_allow_time_unit_delimiter c then Some (c_inner_delimiter c) else None))
    (f_unit_delimiter c l).
Proof.
  intros Hd H Hp. unfold parse_number_delimiter. rewrite (SC_cur _ _ _ _ H).
  destruct l as [|x l]; cbn [hd_opt f_unit_delimiter].
  { destruct (c_allow_time_unit_delimiter c); cbn [sim fst snd is_empty]; split; auto; split; auto; discriminate. }
  destruct (c_allow_time_unit_delimiter c); cbn [andb]; [|cbn [sim fst snd is_empty]; split; [assumption|split; [lia|discriminate]]].
  destruct (c_inner_delimiter c x) eqn:Ex; [|cbn [sim fst snd is_empty]; split; [assumption|split; [lia|discriminate]]].
  pose proof (sim_delimiter K s _ b x l Hd H Ex Hp) as S0. cbn [drop_while] in S0. rewrite Ex in S0.
  destruct (nonempty (drop_while (c_inner_delimiter c) l)) as [r|].
  - destruct (try_consume_delimiter _ _); [|contradiction|contradiction]. cbn [sim bind fst snd] in *.
    destruct S0 as (S1 & S2 & S3). split; [assumption|]. cbn [length]. split; [lia|]. destruct r; [congruence|discriminate].
  - destruct (try_consume_delimiter _ _); [contradiction|exact I|contradiction].
Qed.
End Numbers2.

(** ** the template *)
Definition um_fits (um : time_unit * multiplier) : Prop := unit_fits (fst um) (snd um).

Section TemplateSim.
Context {O : Type} (T : template O) (RT : rtemplate) (OUT : O -> duration * str -> Prop).
Context (c : config) (tu : units_like) (kw : option units_like) (nums : option numbers_like).
Context (K : byte -> bool) (s : str).
Notation SC := (SC K s).
Notation num_r := (num_r c s).
Notation sgn_r := (sgn_r c s).
Hypothesis HE : env_ok c tu kw nums.
Hypothesis HK : nums <> None -> forall x, c_inner_delimiter c x = true -> K x = true.

(** the result of looking for a unit or keyword: found, or not found *)
Definition unit_sim (P : time_unit * multiplier -> Prop) (Q : scanner -> Prop)
    (x : scanner * option (time_unit * multiplier)) (y : option (time_unit * multiplier * str)) : Prop :=
  match snd x, y with
  | Some um, Some (um', l) => um = um' /\ P um /\ SC (fst x) l /\ (0 < pos (fst x))%nat
  | None, None => Q (fst x)
  | _, _ => False
  end.

Record tsim : Prop := TSim {
  ts_make : forall b r d, SC b [] -> repr_parse r = Ok d -> OUT (t_make_output T b r) (d, []);
  ts_inf : forall b l n r, SC b l -> (3 <= pos b)%nat -> sgn_r n r ->
     sim OUT (t_parse_infinity_remainder T b r c) (rt_inf RT n l);
  ts_kw : forall b l, SC b l -> l <> [] ->
     sim (unit_sim um_fits (fun b' => SC b' l)) (t_parse_keyword T b kw c) (rt_kw RT l);
  ts_tu : forall b l, SC b l -> l <> [] ->
     sim (unit_sim (fun um => found_unit c tu (fst um) (snd um)) (fun b' => SC (reset b' (pos b)) l /\ SC b' l))
       (t_parse_time_unit T b c tu) (rt_tu RT l);
  ts_ntu : forall b l n W F x r, SC b l -> l <> [] -> (0 < pos b)%nat -> num_r n W F x r ->
     sim (fun x0 y => let '(b', r', go) := x0 in go = true /\ SC b' (snd y) /\ (0 < pos b')%nat /\
            repr_parse r' = Ok (match fst y with
                                | Some (u, m) => number_value n W F x u m
                                | None => number_value n W F x (c_default_unit c) default_multiplier
                                end))
       (t_parse_number_time_unit T b r c tu) (rt_ntu RT l);
  ts_fin : forall b l r d, SC b l -> (0 < pos b)%nat -> repr_parse r = Ok d ->
     sim OUT (t_finalize T b r c) (rt_fin RT d l)
}.
Hypothesis HT : tsim.

Lemma SC_nil_cur b : SC b [] -> cur b = None.
Proof. intros H. rewrite (SC_cur _ _ _ _ H). reflexivity. Qed.

Lemma f_number_alt n W l :
  f_number c RT n W l =
  obind (let? (F, l) := f_fraction c l in if is_empty (W ++ F) then None else Some (F, l))
    (fun y => let '(F, l) := y in
      let? (x, l) := f_exponent c l in
      let? l := f_unit_delimiter c l in
      match l with
      | [] => Some (number_value n W F x (c_default_unit c) default_multiplier, [])
      | _ => let? (o, l) := rt_ntu RT l in
         match o with
         | Some (u, m) => rt_fin RT (number_value n W F x u m) l
         | None => rt_fin RT (number_value n W F x (c_default_unit c) default_multiplier) l
         end
      end).
Proof. unfold f_number. destruct (f_fraction c l) as [[F l1]|]; [|reflexivity]. cbn [obind]. now destruct (is_empty (W ++ F)). Qed.

Lemma sim_number b l n W r : SC b l -> before_fraction c s n W l r -> ((0 < pos b)%nat \/ starts_with is_dot l) ->
  sim OUT (template_number T b r c tu) (f_number c RT n W l).
Proof.
  intros H Hr Hp. rewrite f_number_alt. unfold template_number.
  pose proof (SC_pos _ _ _ _ H) as P0.
  eapply sim_bind; [apply (sim_fraction c K s b l n W r H Hr)|].
  intros [[b1 r1] go1] [F l1] (H1 & R1 & L1 & D1 & G1). cbn [fst snd] in *.
  assert (Lt : (length l1 < length s)%nat) by (destruct Hp as [Hp|Hp]; [lia|specialize (D1 Hp); lia]).
  destruct go1; cbn [negb].
  2:{ rewrite (G1 eq_refl) in *. cbn [f_exponent obind f_unit_delimiter]. apply (ts_make HT); [exact H1|].
      exact (num_r_value c s n W F 0 r1 R1). }
  eapply sim_bind; [apply (sim_exponent c K s b1 l1 n W F r1 H1 R1)|].
  intros [[b2 r2] go2] [x l2] (H2 & R2 & L2 & G2). cbn [fst snd] in *.
  destruct go2; cbn [negb].
  2:{ rewrite (G2 eq_refl) in *. cbn [obind f_unit_delimiter]. apply (ts_make HT); [exact H2|].
      exact (num_r_value c s n W F x r2 R2). }
  pose proof (SC_pos _ _ _ _ H2) as P2.
  eapply sim_bind; [apply (sim_unit_delimiter c K s b2 l2 (env_inner _ _ _ _ HE) H2); lia|].
  intros [b3 go3] l3 (H3 & L3 & G3). cbn [fst snd] in *.
  pose proof (SC_pos _ _ _ _ H3) as P3.
  destruct l3 as [|y l3].
  - (* the end of the input *)
    pose proof (num_r_value c s n W F x r2 R2) as V.
    destruct go3; cbn [negb]; [destruct (G3 eq_refl)|]. now apply (ts_make HT).
  - destruct go3; cbn [negb]; [|destruct (G3 eq_refl)].
    eapply sim_bind; [apply (ts_ntu HT b3 (y :: l3) n W F x r2 H3)|].
    + discriminate. + lia. + exact R2.
    + intros [[b4 r4] go4] [o l4] (-> & H4 & P4 & V4). cbn [fst snd negb] in *.
      destruct o as [[u m]|]; now apply (ts_fin HT).
Qed.

Lemma remainder_ok b' l : (exists pre buf, b' = at_ pre l buf) -> utf8 l = true ->
  get_remainder_str b' = Ok l /\ get_remainder_str_unchecked b' = Ok l.
Proof.
  intros (pre & buf & ->) U. unfold get_remainder_str, get_remainder_str_unchecked, str_unchecked.
  rewrite get_remainder_at. cbn [bind]. now rewrite U.
Qed.
Lemma SC_remainder b l : SC b l -> get_remainder_str b = Ok l /\ get_remainder_str_unchecked b = Ok l.
Proof.
  intros H. destruct (SC_destruct _ _ _ _ H) as (pre & buf & E & _). apply remainder_ok; [eauto|]. exact (SC_utf8 _ _ _ _ H).
Qed.

Lemma drop_while_nonempty_len p (l : str) : (length (drop_while p l) + length (take_while p l) = length l)%nat.
Proof. rewrite <- (take_drop_while p l) at 3. rewrite app_length. lia. Qed.

(** the outcome "not a numeral" is an error of the caller *)
Lemma sim_parse_numeral b l : SC b l ->
  sim (fun x y => match snd x, y with
                  | Some (id, m), Some (m', r) => m = m' /\ SC (fst x) r /\ r <> [] /\ (0 < pos (fst x))%nat /\
                                                  (exists f, nums = Some f /\ f id = Some m) /\
                                                  id = take_while (fun x => negb (c_inner_delimiter c x)) l
                  | None, None => (exists pre buf, fst x = at_ pre l buf) /\ utf8 l = true
                  | _, _ => False
                  end)
    (parse_numeral b nums c) (f_numeral_prefix c nums l).
Proof.
  intros H. unfold parse_numeral, f_numeral_prefix. case_eq nums; [intros f En|intros En].
  2:{ cbn [sim fst snd]. destruct (SC_destruct _ _ _ _ H) as (pre & buf & E & _). split; [eauto|exact (SC_utf8 _ _ _ _ H)]. }
  pose proof (env_inner _ _ _ _ HE) as Hd.
  destruct (buffered_SC K s _ b l Hd (HK ltac:(rewrite En; discriminate)) H) as (b' & Eb & S1 & _ & (pre & buf & Ea & Es) & P).
  pose proof (utf8_drop_stop _ l Hd (SC_utf8 _ _ _ _ H)) as [U1 U2].
  rewrite Eb. cbn [bind]. set (w := take_while _ l) in *. set (r := drop_while _ l) in *.
  assert (TD : w ++ r = l) by apply take_drop_while.
  assert (Rr : (exists pre buf, reset b' (pos b) = at_ pre l buf) /\ utf8 l = true).
  { split; [|exact (SC_utf8 _ _ _ _ H)]. destruct (SC_destruct _ _ _ _ H) as (pre0 & buf0 & -> & E0).
    unfold reset. rewrite Ea. cbn [at_ input buffer pos]. rewrite <- Es, E0, nth_error_app_hd. unfold at_. eauto. }
  destruct w as [|x w0] eqn:Ew.
  { cbn [is_empty sim fst snd]. cbn [app] in TD. rewrite TD in *. split; [eauto|assumption]. }
  cbn [is_empty]. rewrite <- Ew in *. unfold str_unchecked. rewrite U1. cbn [bind].
  destruct (f w) as [m|] eqn:Ef; [|exact Rr].
  assert (S2 : SC b' r) by (apply S1; rewrite Ew; discriminate). rewrite (SC_cur _ _ _ _ S2).
  pose proof (drop_while_head (fun x => negb (c_inner_delimiter c x)) l) as DH. fold r in DH.
  destruct r as [|y r']; cbn [hd_opt]; [exact Rr|]. specialize (DH y r' eq_refl). apply negb_false_iff in DH.
  rewrite DH. eapply sim_bind; [apply (sim_delimiter K s _ b' y r' Hd S2 DH)|].
  { rewrite P, Ew. cbn [length]. lia. }
  intros b2 r2 (S3 & N3 & L3). cbn [sim fst snd]. split; [reflexivity|]. split; [assumption|]. split; [assumption|].
  split; [|eauto 6]. pose proof (SC_pos _ _ _ _ S3). pose proof (SC_pos _ _ _ _ S2). cbn [length] in *. lia.
Qed.

Lemma found_fits u m : found_unit c tu u m -> unit_fits u m.
Proof. apply (found_unit_fits c tu kw nums HE). Qed.

Lemma sim_numeral b l n r : SC b l -> sgn_r n r ->
  sim OUT (template_numeral T b r c tu nums) (f_numeral c nums RT n l).
Proof.
  intros H Hr. unfold template_numeral, f_numeral.
  eapply sim_bind; [apply (sim_parse_numeral b l H)|].
  intros [b1 [[id num]|]] [[m' r']|]; cbn [fst snd]; try contradiction.
  - intros (<- & S1 & N1 & P1 & (f & Ef & Fid) & _).
    eapply sim_bind; [apply (ts_tu HT b1 r' S1 N1)|].
    intros [b2 [[u m]|]] [[[u' m'] r2]|]; cbn [unit_sim fst snd]; try contradiction.
    + intros (E & FU & S2 & P2). injection E as <- <-. apply (ts_fin HT); auto. apply (sgn_r_numeral c s); [assumption|].
      destruct FU as (id' & m0 & Hg & Hm). cbn [fst snd] in *.
      destruct (env_numerals _ _ _ _ HE _ _ _ Ef Fid _ _ _ Hg) as [F1 F2].
      destruct Hm as [->|[Ha ->]]; auto.
    + intros _. destruct (u_is_empty tu); exact I.
  - intros (Hat & U). destruct (remainder_ok b1 l Hat U) as [-> _]. exact I.
Qed.

Lemma sim_word b l n r : SC b l -> l <> [] -> sgn_r n r ->
  sim OUT (template_word T b r c tu kw nums) (f_word c nums RT n l).
Proof.
  intros H Nl Hr. unfold template_word, f_word.
  eapply sim_bind; [apply (ts_kw HT b l H Nl)|].
  intros [b1 [[u m]|]] [[[u' m'] l1]|]; cbn [unit_sim fst snd]; try contradiction.
  - intros (E & FU & S1 & P1). injection E as <- <-. apply (ts_fin HT); auto. now apply (sgn_r_unit c s).
  - intros S1. destruct (c_number_is_optional c); [|now apply sim_numeral].
    eapply sim_bind; [apply (ts_tu HT b1 l S1 Nl)|].
    intros [b2 [[u m]|]] [[[u' m'] l2]|]; cbn [unit_sim fst snd]; try contradiction.
    + intros (E & FU & S2 & P2). injection E as <- <-. apply (ts_fin HT); auto. apply (sgn_r_unit c s); [assumption|].
      now apply found_fits.
    + intros [S2 _]. now apply sim_numeral.
Qed.

Lemma SC_next_is b l w : SC b l -> next_is_ignore_ascii_case b w = starts_nocase w l.
Proof. intros H. destruct (SC_destruct _ _ _ _ H) as (pre & buf & -> & _). apply next_is_at. Qed.

Lemma sim_template b l : SC b l ->
  sim OUT (template_parse T b c tu kw nums) (f_template c nums RT l).
Proof.
  intros H. unfold template_parse, f_template. rewrite (SC_cur _ _ _ _ H).
  destruct l as [|x0 l0] eqn:El; [exact I|]. cbn [hd_opt]. rewrite <- El in *.
  assert (Nl : l <> []) by (rewrite El; discriminate). clear El x0 l0.
  eapply sim_bind; [apply (sim_signed c K s b l (env_inner _ _ _ _ HE) H Nl)|].
  intros [b1 r1] [n l1] (S1 & R1 & N1 & L1). cbn [fst snd] in *.
  rewrite (SC_cur _ _ _ _ S1). destruct l1 as [|x l1]; [congruence|]. cbn [hd_opt].
  destruct (is_digit x) eqn:Ed.
  { destruct (sim_whole c K s b1 x l1 n r1 S1 Ed R1) as (b2 & w & Ew & S2 & R2). rewrite Ew. cbn [bind].
    assert (Nt : take_while is_digit (x :: l1) <> []) by (cbn [take_while]; rewrite Ed; discriminate).
    apply sim_number; [exact S2| |].
    - left. split; [split; [exact R2|discriminate]|exact Nt].
    - left. pose proof (SC_pos _ _ _ _ S2). pose proof (SC_pos _ _ _ _ S1).
      pose proof (drop_while_nonempty_len is_digit (x :: l1)).
      destruct (take_while is_digit (x :: l1)); [congruence|cbn [length] in *; lia]. }
  fold (is_dot x). destruct (is_dot x) eqn:Edot.
  { apply sim_number; [exact S1| |right; exact Edot]. right. split; [reflexivity|]. split; [assumption|exact Edot]. }
  rewrite (SC_next_is _ _ _ S1).
  destruct (negb (c_disable_infinity c) && starts_nocase (%"inf") (x :: l1)) eqn:Ei.
  { apply andb_true_iff in Ei. destruct Ei as [_ Ei].
    apply (ts_inf HT); [exact (SC_word K s b1 (%"inf") _ S1 Ei eq_refl)| |exact R1].
    unfold advance_by; cbn [pos]. lia. }
  apply sim_word; auto.
Qed.
End TemplateSim.
