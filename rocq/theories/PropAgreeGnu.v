(** * Property C82, continued: the systemd parser and the gnu parser *)
From Verif Require Import Prelude Util Time Config Bytes Repr Parse Systemd DateTime Gnu Standard SpecTime SpecNum SpecSpelling SpecSystemd SpecDate SpecValue SpecParse SpecGrammar SpecGnu
  TimeProofs NumProofs Utf8Proofs SystemdProofs SystemdSpan SystemdExact GnuWords GnuRef GnuGrammar PropModes PropSystemd PropSystemdExact PropGnu PropGnuOrder StandardProofs PropParse PropStandard PropSettings PropAgree ExEnv.

Notation T := systemd_nanos_units.

Lemma split_det (p : byte -> bool) a b a' b' : (forall x, In x a -> p x = true) -> (forall x, In x a' -> p x = true) ->
  starts_not p b -> starts_not p b' -> a ++ b = a' ++ b' -> a = a' /\ b = b'.
Proof. intros H1 H2 H3 H4 E. apply (span_det p (a ++ b)); [split; auto|]. rewrite E. split; auto. Qed.

(** what may follow a word of the systemd parser, and a part *)
Definition plain_head (l : str) : Prop := exists x r, l = x :: r /\ ~ white x /\ is_sign x = false.
Definition tail_of (b pt : bool) (tail t' : str) : Prop :=
  (tail = [] /\ t' = []) \/ exists sep x rest, tail = sep ++ x :: rest /\ t' = x :: rest /\ white_space sep /\ ~ white x /\ x <> 97 /\ x <> 65 /\ may_follow b pt sep x.

Lemma digit_is W : digit_string W -> forall x, In x W -> is_digit x = true.
Proof. intros H x Hx. apply is_digit_iff, H, Hx. Qed.
Lemma sd_word w u : denotes T w u -> w <> [] /\ (forall x, In x w -> keyword_end gc x = false) /\
  exists x w', w = x :: w' /\ ~ white x /\ is_digit x = false /\ is_sign x = false /\ is_dot x = false /\ x <> 97 /\ x <> 65.
Proof.
  intros H. destruct (systemd_nanos_words_ok w u H) as (N & _ & _ & A). split; [exact N|]. split.
  - intros x Hx. destruct (keyword_end gc x) eqn:E; [|reflexivity]. apply K_iff in E. destruct (A x Hx) as (A1 & A2 & A3 & _).
    unfold is_sign in A3. destruct E as [E|[E|E]]; [contradiction| |lia]. apply is_digit_iff in E. congruence.
  - destruct w as [|x w]; [congruence|]. exists x, w. destruct (A x (or_introl eq_refl)) as (A1 & A2 & A3 & A4).
    enough (x <> 97 /\ x <> 65) by tauto.
    destruct H as (ws & H1 & H2). assert (B : forallb (fun us => forallb (fun w => match w with x :: _ => negb (x =? 97) && negb (x =? 65) | [] => true end) (snd us)) T = true) by reflexivity.
    rewrite forallb_forall in B. specialize (B _ H1). rewrite forallb_forall in B. specialize (B _ H2). cbn in B. lia.
Qed.
Lemma part_head s b pt v : any_part Second T s b pt v -> exists x r, s = x :: r /\ ~ white x /\ x <> 97 /\ x <> 65.
Proof.
  assert (D : forall W fr F r, digit_string W -> fraction_text fr F -> W ++ F <> [] -> exists x r', W ++ fr ++ r = x :: r' /\ ~ white x /\ x <> 97 /\ x <> 65).
  { intros W fr F r HW HF N. destruct W as [|x W].
    - destruct HF as [|F HF]; [cbn in N; congruence|]. cbn. eexists _, _. split; [reflexivity|]. unfold white. lia.
    - cbn. eexists _, _. split; [reflexivity|]. specialize (HW x (or_introl eq_refl)). unfold white. lia. }
  assert (G : forall sg n l, sign_text sg n -> (exists x r', l = x :: r' /\ ~ white x /\ x <> 97 /\ x <> 65) -> exists x r', sg ++ l = x :: r' /\ ~ white x /\ x <> 97 /\ x <> 65).
  { intros sg n l [] H; [exact H| |]; cbn; eexists _, _; (split; [reflexivity|]); unfold white; lia. }
  intros [sg n W fr F gap w u HS HW HF N Hg Hw Ht|sg n W fr F HS HW HF N Ht|sg w u HS Hw].
  - apply (G sg n); auto. apply (D W fr F); auto.
  - apply (G sg n); auto. rewrite <- (app_nil_r fr). apply (D W fr F); auto.
  - destruct (sd_word w u Hw) as (_ & _ & x & w' & -> & A1 & A2 & A3 & A4 & A5 & A6).
    destruct HS as [->| ->]; cbn; eexists _, _; (split; [reflexivity|]); [auto|unfold white; lia].
Qed.
Lemma span_head s v : any_span Second T s v -> exists x r, s = x :: r /\ ~ white x /\ x <> 97 /\ x <> 65.
Proof.
  destruct 1 as [s b pt v H|s b pt v sep x r v' H]; destruct (part_head _ _ _ _ H) as (y & r' & -> & Hy); [eauto|].
  exists y, (r' ++ sep ++ x :: r). split; [reflexivity|exact Hy].
Qed.

(** ** Both readings of a sign, a number and a word are the same *)
Lemma sign_det sg n X sg' n' Y : sign_text sg n -> gnu_sign sg' n' -> plain_head X -> plain_head Y -> sg ++ X = sg' ++ Y -> n = n' /\ X = Y.
Proof.
  intros H1 H2 (x & X' & -> & Hx1 & Hx2) (y & Y' & -> & Hy1 & Hy2). unfold is_sign in *.
  destruct H1; destruct H2 as [|ds Hd|ds Hd]; cbn; intros E; injection E; intros; try lia; auto;
    try (destruct ds as [|z ds]; cbn in *; [split; congruence|]; injection E as E1 E2; elim Hx1; rewrite E1; apply Hd; now left).
Qed.
Lemma number_det W fr F Z R num W' F' : digit_string W -> fraction_text fr F -> starts_not is_digit Z -> (fr = [] -> starts_not is_dot Z) ->
  gnu_number R num W' F' -> W ++ fr ++ Z = num ++ R -> W = W' /\ F = F' /\ Z = R.
Proof.
  intros HW HF HZ HD H E. destruct H as [W' H1 H2 H3|W' F' H1 H2 H3 H4 H5].
  - assert (NR : starts_not is_digit R).
    { destruct R as [|x R]; [exact I|]. destruct (H3 x R eq_refl) as [H _]. cbn. now apply not_digit. }
    destruct (split_det is_digit W (fr ++ Z) W' R) as [-> E2]; eauto using digit_is.
    { destruct HF; [exact HZ|reflexivity]. }
    destruct HF as [|F HF]; [auto|]. subst R. destruct (H3 46 (F ++ Z) eq_refl) as (_ & K & _). congruence.
  - rewrite <- app_assoc in E. cbn [app] in E.
    assert (NR : starts_not is_digit R).
    { destruct R as [|x R]; [exact I|]. destruct (H5 x R eq_refl) as [H _]. cbn. now apply not_digit. }
    destruct (split_det is_digit W (fr ++ Z) W' (46 :: F' ++ R)) as [-> E2]; eauto using digit_is.
    { destruct HF; [exact HZ|reflexivity]. }
    { reflexivity. }
    destruct HF as [|F HF]; [specialize (HD eq_refl); cbn in E2; subst Z; discriminate HD|]. cbn in E2. injection E2 as E2.
    destruct (split_det is_digit F Z F' R) as [-> ->]; eauto using digit_is.
Qed.
Lemma word_det w tail w' l u : denotes T w u -> letters w' -> ends_word tail -> ends_word l -> w ++ tail = w' ++ l -> w = w' /\ tail = l.
Proof.
  intros H1 H2 H3 H4 E. destruct (sd_word w u H1) as (_ & A & _).
  apply (split_det (fun x => negb (keyword_end gc x))); auto.
  - intros x Hx. now rewrite A.
  - intros x Hx. now rewrite (letters_K w' x H2 Hx).
  - apply ends_word_iff in H3. destruct tail; [exact I|exact H3].
  - apply ends_word_iff in H4. destruct l; [exact I|exact H4].
Qed.
Lemma white_det a x b y : white_space a -> white_space b -> no_white_ahead x -> no_white_ahead y -> a ++ x = b ++ y -> a = b /\ x = y.
Proof. apply white_split. Qed.

(** ** Words of both parsers have the same meaning *)
Definition same_length (u : time_unit) (g : gnu_unit) : Prop :=
  match g with Seconds k => unit_nanos u = k * 1000000000 | AMonth => u = Month | AYear => u = Year end.
Definition same_lengthb (u : time_unit) (g : gnu_unit) : bool :=
  match g with Seconds k => unit_nanos u =? k * 1000000000 | AMonth => match u with Month => true | _ => false end | AYear => match u with Year => true | _ => false end end.
Lemma common_words {A} (t : list (A * list str)) (f : time_unit -> A -> bool) :
  forallb (fun us => forallb (fun w => forallb (fun gv => forallb (fun v => implb (str_eq_nocase w v) (f (fst us) (fst gv))) (snd gv)) t) (snd us)) T = true ->
  forall w u a, denotes T w u -> word_for t w a -> f u a = true.
Proof.
  intros H w u a (ws & D1 & D2) (vs & v & V1 & V2 & V3). rewrite forallb_forall in H. specialize (H _ D1). rewrite forallb_forall in H. specialize (H _ D2).
  rewrite forallb_forall in H. specialize (H _ V1). rewrite forallb_forall in H. specialize (H _ V2). rewrite V3 in H. exact H.
Qed.
Lemma common_unit w u g : denotes T w u -> word_for gnu_units w g -> same_length u g.
Proof.
  intros H1 H2. pose proof (common_words gnu_units same_lengthb ltac:(vm_compute; reflexivity) w u g H1 H2) as E.
  destruct g; cbn [same_lengthb same_length] in *; [now apply Z.eqb_eq|destruct u; congruence|destruct u; congruence].
Qed.
Lemma common_numeral w u k : denotes T w u -> word_for gnu_numerals w k -> False.
Proof. intros H1 H2. pose proof (common_words gnu_numerals (fun _ _ => false) ltac:(vm_compute; reflexivity) w u k H1 H2). discriminate. Qed.
Lemma common_keyword w u k : denotes T w u -> word_for gnu_keywords w k -> False.
Proof. intros H1 H2. pose proof (common_words gnu_keywords (fun _ _ => false) ltac:(vm_compute; reflexivity) w u k H1 H2). discriminate. Qed.

(** ** Values *)
(** the gnu parser adds what the systemd parser adds, cut at the limits *)
Definition same_amount (a : amount) (v : Z) : Prop :=
  match a with
  | Nanos x => 0 <= v /\ x = Z.min max_nanos v
  | Months k => exists q, 0 <= q /\ v = q * unit_nanos Month /\ k = Z.min (2 ^ 63 - 1) q
  | Years k => exists q, 0 <= q /\ v = q * unit_nanos Year /\ k = Z.min (2 ^ 63 - 1) q
  end.
Lemma times_same q u g : 0 <= q -> same_length u g -> same_amount (times q g) (unit_nanos u * q).
Proof.
  intros Hq H. destruct g as [k| |]; cbn [same_length times same_amount] in *.
  - pose proof (unit_nanos_pos u). split; [nia|]. unfold clamp_nanos, clamp. replace (q * k * 1000000000) with (unit_nanos u * q) by lia. unfold max_nanos. nia.
  - subst u. exists q. split; [exact Hq|]. split; [lia|]. unfold clamp_i64, clamp. lia.
  - subst u. exists q. split; [exact Hq|]. split; [lia|]. unfold clamp_i64, clamp. lia.
Qed.
Lemma amount_whole u W : SpecSystemd.amount u W [] = unit_nanos u * dval W.
Proof. unfold SpecSystemd.amount. cbn [firstn length Z.of_nat]. rewrite app_nil_r. change (10 ^ 0) with 1. now rewrite Z.div_1_r. Qed.
Lemma tiny_zero u W F : digit_string W -> digit_string F -> tiny u W F -> dval (W ++ F) * 10 ^ 9 < 10 ^ Z.of_nat (length F).
Proof.
  intros HW HF H. unfold tiny in H. pose proof (dval_nonneg' W F HW HF).
  assert (10 ^ 9 <= 10 ^ (18 - decimals_below_second u)) by (apply Z.pow_le_mono_r; destruct u; cbn; lia). nia.
Qed.
Lemma fs_div D L : 0 <= L -> floor_scale10 D (9 - L) = 1000000000 * D / 10 ^ L.
Proof.
  intros HL. change 1000000000 with (10 ^ 9). unfold floor_scale10. destruct (Z.leb_spec 0 (9 - L)) as [K|K].
  - replace (10 ^ 9 * D) with (D * 10 ^ (9 - L) * 10 ^ L); [rewrite Z.div_mul; [reflexivity|apply Z.pow_nonzero; lia]|].
    replace (10 ^ 9) with (10 ^ (9 - L) * 10 ^ L) by (rewrite <- Z.pow_add_r by lia; f_equal; lia). lia.
  - replace (10 ^ L) with (10 ^ (- (9 - L)) * 10 ^ 9) by (rewrite <- Z.pow_add_r by lia; f_equal; lia).
    rewrite (Z.mul_comm (10 ^ 9) D), Z.div_mul_cancel_r; [reflexivity|apply Z.pow_nonzero; lia|apply Z.pow_nonzero; lia].
Qed.
Lemma number_same n W F u g a : digit_string W -> digit_string F -> (n = true -> tiny u W F) -> same_length u g -> SpecGnu.number_amount n W F g a ->
  same_amount a (SpecSystemd.amount u W F).
Proof.
  intros HW HF Ht HS H. pose proof (dval_nonneg W HW) as H0. destruct H as [g|F N].
  - rewrite amount_whole. replace (with_sign n (dval W)) with (dval W); [now apply times_same|].
    destruct n; [|reflexivity]. pose proof (tiny_zero u W [] HW HF (Ht eq_refl)) as Z. rewrite app_nil_r in Z. cbn [length Z.of_nat] in Z. change (10 ^ 0) with 1 in Z. cbn. lia.
  - cbn [same_length] in HS. pose proof (dval_nonneg' W F HW HF) as H1. set (V := dval (W ++ F) * 1000000000 / 10 ^ Z.of_nat (length F)).
    assert (P : 0 < 10 ^ Z.of_nat (length F)) by (apply Z.pow_pos_nonneg; lia).
    assert (V0 : 0 <= V) by (apply Z.div_pos; lia).
    assert (EV : SpecSystemd.amount u W F = V).
    { unfold SpecSystemd.amount. cbv zeta. rewrite HS. subst V. clear Ht H0.
      rewrite (Z.mul_comm (dval (W ++ F))).
      rewrite <- !fs_div by lia. symmetry. apply scale_cut; auto; lia. }
    cbn [same_amount]. rewrite EV. split; [exact V0|].
    destruct n; cbn [with_sign]; [|unfold clamp_nanos, clamp, max_nanos; lia].
    pose proof (tiny_zero u W F HW HF (Ht eq_refl)) as Z. assert (Ez : V = 0) by (apply Z.div_small; split; [lia|exact Z]).
    fold V. rewrite Ez. reflexivity.
Qed.

(** ** One part and one component *)
Lemma gnu_number_head R num W F : gnu_number R num W F -> exists x r, num = x :: r /\ is_digit x = true.
Proof.
  intros [W' H1 H2 H3|W' F' H1 H2 H3 H4 H5]; destruct W' as [|x W']; try congruence; eexists _, _; (split; [reflexivity|]);
    apply is_digit_iff; apply H1; now left.
Qed.
Lemma digit_head x r : is_digit x = true -> plain_head (x :: r).
Proof. intros H. exists x, r. apply is_digit_iff in H. unfold white, is_sign. split; [reflexivity|]. lia. Qed.
Lemma letters_plain w r : letters w -> plain_head (w ++ r).
Proof. intros H. destruct (letters_head w r H) as (x & w' & E & _ & _ & S & N). exists x, w'. auto. Qed.
Lemma plain_no_white l : plain_head l -> no_white_ahead l.
Proof. intros (x & r & -> & N & _) y r' E. injection E as <- _. exact N. Qed.
Lemma gnu_word_head {A} (t : list (A * list str)) : forallb (fun gv => forallb (fun v => match v with x :: _ => negb (eq_nocase x 105) | [] => false end) (snd gv)) t = true ->
  forall w a, word_for t w a -> exists x w', w = x :: w' /\ eq_nocase x 105 = false.
Proof.
  intros H w a (vs & v & V1 & V2 & V3). rewrite forallb_forall in H. specialize (H _ V1). rewrite forallb_forall in H. specialize (H _ V2).
  destruct v as [|y v]; [discriminate|]. destruct w as [|x w]; [discriminate|]. exists x, w. split; [reflexivity|].
  cbn [str_eq_nocase] in V3. apply andb_true_iff in V3. destruct V3 as [V3 _]. unfold eq_nocase in *. apply Z.eqb_eq in V3. rewrite V3. now apply negb_true_iff.
Qed.
(** the component, with its sign removed *)
Inductive unsigned_item (n : bool) : str -> amount -> str -> Prop :=
| ui_number_unit num W F ds l g ago r a : gnu_number (ds ++ l) num W F -> white_space ds ->
    unit_phrase l g ago r -> SpecGnu.number_amount (xorb n ago) W F g a -> unsigned_item n (num ++ ds ++ l) a r
| ui_number num W F ds r a : gnu_number (ds ++ r) num W F -> white_space ds -> no_white_ahead r ->
    (forall g ago r', ~ unit_phrase r g ago r') -> SpecGnu.number_amount n W F (Seconds 1) a -> unsigned_item n (num ++ ds ++ r) a r
| ui_unit l g ago r : unit_phrase l g ago r -> unsigned_item n l (times (with_sign (xorb n ago) 1) g) r
| ui_word w l a r : letters w -> ends_word l -> (forall u, ~ denotes T w u) ->
    (exists x w', w = x :: w' /\ eq_nocase x 105 = false) -> unsigned_item n (w ++ l) a r.
Lemma phrase_letters l g ago r : unit_phrase l g ago r -> exists w l', l = w ++ l' /\ word_for gnu_units w g /\ letters w /\ ends_word l'.
Proof. intros H. destruct (phrase_word l g ago r H) as (w & l' & E & A & B & _). exists w, l'. eauto using unit_letters. Qed.
Lemma item_unsigned L a R : gnu_item L a R -> exists sg n l, L = sg ++ l /\ gnu_sign sg n /\ plain_head l /\ unsigned_item n l a R.
Proof.
  intros [sg n num W F ds l g ago r a' H1 H2 H3 H4 H5|sg n num W F ds r a' H1 H2 H3 H4 H5 H6 H7|sg n l g ago r H1 H2|sg n w k ds l g ago r H1 H2 H3 H4 H5|sg n w k r H1 H2 H3];
    exists sg, n; eexists; (split; [reflexivity|]); (split; [exact H1|]).
  - split; [|now apply ui_number_unit with W F g ago]. destruct (gnu_number_head _ _ _ _ H2) as (x & r' & -> & D). now apply digit_head.
  - split; [|now apply ui_number with W F]. destruct (gnu_number_head _ _ _ _ H2) as (x & r' & -> & D). now apply digit_head.
  - split; [|now apply ui_unit]. destruct (phrase_letters _ _ _ _ H2) as (w & l' & -> & _ & Hl & _). now apply letters_plain.
  - pose proof (numeral_letters w k H2) as Hl. split; [now apply letters_plain|]. apply ui_word; auto; [now apply white_ends| |exact (gnu_word_head gnu_numerals eq_refl w k H2)].
    intros u Hu. exact (common_numeral w u k Hu H2).
  - pose proof (keyword_letters w k H2) as Hl. split; [now apply letters_plain|]. apply ui_word; auto; [|exact (gnu_word_head gnu_keywords eq_refl w k H2)].
    intros u Hu. exact (common_keyword w u k Hu H2).
Qed.

(** a word of the systemd parser at the beginning of a component of the gnu parser *)
Lemma tail_ends pt tail t' : tail_of true pt tail t' -> ends_word tail.
Proof.
  intros [[-> _]|(sep & x & rest & -> & _ & Hs & Hx & _ & _ & M)]; [intros y r [=]|].
  destruct sep as [|z sep]; [|apply (white_ends (z :: sep)); [exact Hs|discriminate]].
  intros y r [= <- <-]. destruct M as [->|[->|[[M _]|[[_ M]|(M & _)]]]]; auto; try congruence.
Qed.
Lemma tail_no_ago b pt tail t' r : tail_of b pt tail t' -> ~ ago_follows tail r.
Proof.
  intros [[-> _]|(sep & x & rest & -> & _ & Hs & Hx & N1 & N2 & M)] (ds & a & E & Nd & Hd & Ha & He).
  - destruct ds; [congruence|discriminate].
  - assert (La := GnuGrammar.ago_letters a Ha). pose proof (letters_plain a r La) as Hp.
    destruct (white_det sep (x :: rest) ds (a ++ r)) as [_ E2]; auto.
    { intros y r' [= <- <-]. exact Hx. }
    { now apply plain_no_white. }
    destruct a as [|y a]; [destruct La; congruence|]. cbn in E2. injection E2 as <- _. cbn in Ha. apply andb_true_iff in Ha. destruct Ha as [Ha _].
    change (eq_nocase x 97 = true) in Ha. destruct La as [_ La]. specialize (La x (or_introl eq_refl)). unfold eq_nocase, to_lower in Ha. change ((65 <=? 97) && (97 <=? 90)) with false in Ha. cbv iota in Ha. destruct ((65 <=? x) && (x <=? 90)) eqn:E7; lia.
Qed.
Lemma phrase_sd w u pt tail t' g ago r : denotes T w u -> tail_of true pt tail t' -> unit_phrase (w ++ tail) g ago r ->
  same_length u g /\ ago = false /\ r = tail.
Proof.
  intros Hw Ht H. pose proof (tail_ends _ _ _ Ht) as He. inversion H as [w' g' r' H1 H2 H3 E|w' g' l r' H1 H2 E]; subst.
  - destruct (word_det w tail w' r u) as [-> ->]; eauto using unit_letters. split; [|auto]. eapply common_unit; eauto.
  - destruct (word_det w tail w' l u) as [-> ->]; eauto using unit_letters, ago_ends. destruct (tail_no_ago _ _ _ _ r Ht H2).
Qed.
Lemma white_tail b pt tail t' ds r : tail_of b pt tail t' -> tail = ds ++ r -> white_space ds -> no_white_ahead r -> r = t'.
Proof.
  intros [[-> ->]|(sep & x & rest & -> & -> & Hs & Hx & _)] E Hd Hr.
  - symmetry in E. apply app_eq_nil in E. apply E.
  - destruct (white_det sep (x :: rest) ds r) as [_ <-]; auto. intros y r' [= <- <-]. exact Hx.
Qed.

Lemma step s b pt v tail t' a ds r : any_part Second T s b pt v -> tail_of b pt tail t' -> gnu_item (s ++ tail) a (ds ++ r) ->
  white_space ds -> no_white_ahead r -> (r = [] \/ exists a' r', gnu_item r a' r') -> same_amount a v /\ r = t'.
Proof.
  intros HP HT HI Hds Hr Hnext. destruct (item_unsigned _ _ _ HI) as (sg' & n' & l & E & HS' & HPl & HU). clear HI.
  destruct HP as [sg n W fr F gap w u HS HW HF N Hg Hw Htiny|sg n W fr F HS HW HF N Htiny|sg w u HS Hw].
  - (* number and unit *)
    destruct (sd_word w u Hw) as (Nw & Kw & x & w' & Ew & A1 & A2 & A3 & A4 & _).
    assert (DF : digit_string F) by (destruct HF; [intros y []|assumption]).
    rewrite <- !app_assoc in E. destruct (sign_det sg n (W ++ fr ++ gap ++ w ++ tail) sg' n' l) as [<- <-]; auto.
    { destruct W as [|y W]; [destruct HF as [|F HF]; [cbn in N; congruence|]; exists 46; eexists; split; [reflexivity|]; split; [unfold white; lia|reflexivity]|].
      apply digit_head, is_digit_iff, HW. now left. }
    clear E. set (Y := gap ++ w ++ tail) in *.
    assert (Y1 : starts_not is_digit Y /\ starts_not is_dot Y).
    { subst Y. destruct gap as [|y gap]; [subst w; cbn; auto|]. specialize (Hg y (or_introl eq_refl)). cbn. unfold white, is_digit, is_dot in *. lia. }
    assert (Wa : no_white_ahead (w ++ tail)) by (subst w; intros y r' [= <- <-]; exact A1).
    remember (W ++ fr ++ Y) as L eqn:EL. remember (ds ++ r) as R eqn:ER.
    destruct HU as [num W' F' ds' l g ago R a H1 H2 H3 H4|num W' F' ds' R a H1 H2 H3 H4 H5|l g ago R H1|w0 l a R H1 H2 H3 _].
    + destruct (number_det W fr F Y (ds' ++ l) num W' F') as (<- & <- & E2); auto; try apply Y1; try (intros _; apply Y1); try (symmetry; exact EL).
      unfold Y in E2. destruct (white_det gap (w ++ tail) ds' l) as [<- <-]; auto; [apply (phrase_ahead _ _ _ _ H3)|].
      destruct (phrase_sd w u _ tail t' g ago R Hw HT H3) as (G & -> & ->). rewrite xorb_false_r in H4.
      split; [eapply number_same; eauto|]. eapply white_tail; eauto.
    + exfalso. destruct (number_det W fr F Y (ds' ++ R) num W' F') as (<- & <- & E2); auto; try apply Y1; try (intros _; apply Y1); try (symmetry; exact EL).
      unfold Y in E2. destruct (white_det gap (w ++ tail) ds' R) as [<- E3]; auto.
      assert (ds = []).
      { destruct ds as [|y ds]; [reflexivity|]. elim (H3 y (ds ++ r)); [now rewrite ER|]. apply Hds. now left. }
      subst ds. cbn in ER. subst R. destruct Hnext as [->|(a' & r' & HN)]; [subst w; discriminate|].
      destruct (item_unsigned _ _ _ HN) as (sg2 & n2 & l2 & E4 & HS2 & HP2 & HU2).
      destruct (sign_det [] false r sg2 n2 l2) as [<- <-]; auto; try constructor.
      { exists x, (w' ++ tail). subst w. cbn in E3. rewrite <- E3. auto. }
      destruct HU2 as [num2 W2 F2 ds2 l2 g2 ago2 R2 a2 K1 K2 K3 K4|num2 W2 F2 ds2 R2 a2 K1 K2 K3 K4 K5|l2 g2 ago2 R2 K1|w2 l2 a2 R2 K1 K2 K3 _].
      * destruct (gnu_number_head _ _ _ _ K1) as (y & q & -> & Dy). subst w. cbn in E3. injection E3 as E3 _. congruence.
      * destruct (gnu_number_head _ _ _ _ K1) as (y & q & -> & Dy). subst w. cbn in E3. injection E3 as E3 _. congruence.
      * exact (H4 _ _ _ K1).
      * destruct (word_det w tail w2 l2 u) as [<- _]; auto. { eapply tail_ends; eauto. } exact (K3 u Hw).
    + exfalso. destruct (phrase_letters _ _ _ _ H1) as (w2 & l2 & -> & _ & Hl & _).
      destruct (letters_head w2 l2 Hl) as (y & q & Ey & D1 & D2 & _). rewrite Ey in EL.
      destruct W as [|z W]; [destruct HF as [|F HF]; [cbn in N; congruence|]; cbn in EL; injection EL as -> _; discriminate|].
      cbn in EL. injection EL as -> _. specialize (HW z (or_introl eq_refl)). apply is_digit_iff in HW. congruence.
    + exfalso. destruct (letters_head w0 l H1) as (y & q & Ey & D1 & D2 & _). rewrite Ey in EL.
      destruct W as [|z W]; [destruct HF as [|F HF]; [cbn in N; congruence|]; cbn in EL; injection EL as -> _; discriminate|].
      cbn in EL. injection EL as -> _. specialize (HW z (or_introl eq_refl)). apply is_digit_iff in HW. congruence.
  - (* number *)
    assert (DF : digit_string F) by (destruct HF; [intros y []|assumption]).
    rewrite <- !app_assoc in E. destruct (sign_det sg n (W ++ fr ++ tail) sg' n' l) as [<- <-]; auto.
    { destruct W as [|y W]; [destruct HF as [|F HF]; [cbn in N; congruence|]; exists 46; eexists; split; [reflexivity|]; split; [unfold white; lia|reflexivity]|].
      apply digit_head, is_digit_iff, HW. now left. }
    clear E.
    assert (Y1 : starts_not is_digit tail /\ (fr = [] -> starts_not is_dot tail)).
    { destruct HT as [[-> _]|(sep & x & rest & -> & _ & Hs & Hx & _ & _ & M)]; [now split|].
      destruct sep as [|z sep]; [|specialize (Hs z (or_introl eq_refl)); cbn; unfold white, is_digit, is_dot in *; split; intros; lia].
      cbn. destruct M as [->|[->|[[_ [M|M]]|[[M _]|(_ & -> & M)]]]]; try congruence; try (split; reflexivity).
      split; [reflexivity|]. intros ->. destruct M as [M|M]; [discriminate|congruence]. }
    remember (W ++ fr ++ tail) as L eqn:EL. remember (ds ++ r) as R eqn:ER.
    destruct HU as [num W' F' ds' l g ago R a H1 H2 H3 H4|num W' F' ds' R a H1 H2 H3 H4 H5|l g ago R H1|w0 l a R H1 H2 H3 _].
    + exfalso. destruct (number_det W fr F tail (ds' ++ l) num W' F') as (<- & <- & E2); auto; try apply Y1; try (symmetry; exact EL).
      destruct (phrase_letters _ _ _ _ H3) as (w2 & l2 & -> & _ & Hl & _). destruct (letters_head w2 l2 Hl) as (y & q & Ey & D1 & D2 & D3 & D4).
      destruct HT as [[-> _]|(sep & x & rest & -> & _ & Hs & Hx & _ & _ & M)].
      * symmetry in E2. apply app_eq_nil in E2. destruct E2 as [_ E2]. rewrite Ey in E2. discriminate.
      * rewrite Ey in E2. destruct (white_det sep (x :: rest) ds' (y :: q)) as [_ E3]; auto; try (intros z q' [= <- <-]; assumption).
        injection E3 as -> _. unfold is_dot, is_sign in *. apply digit_of in D1. destruct M as [->|[->|[[M _]|[[M _]|(_ & -> & M)]]]]; try lia; discriminate.
    + destruct (number_det W fr F tail (ds' ++ R) num W' F') as (<- & <- & E2); auto; try apply Y1; try (symmetry; exact EL).
      assert (ds = []).
      { destruct ds as [|y ds]; [reflexivity|]. elim (H3 y (ds ++ r)); [now rewrite ER|]. apply Hds. now left. }
      subst ds. cbn in ER. subst R. split; [eapply number_same; eauto; reflexivity|]. eapply white_tail; eauto.
    + exfalso. destruct (phrase_letters _ _ _ _ H1) as (w2 & l2 & -> & _ & Hl & _).
      destruct (letters_head w2 l2 Hl) as (y & q & Ey & D1 & D2 & _). rewrite Ey in EL.
      destruct W as [|z W]; [destruct HF as [|F HF]; [cbn in N; congruence|]; cbn in EL; injection EL as -> _; discriminate|].
      cbn in EL. injection EL as -> _. specialize (HW z (or_introl eq_refl)). apply is_digit_iff in HW. congruence.
    + exfalso. destruct (letters_head w0 l H1) as (y & q & Ey & D1 & D2 & _). rewrite Ey in EL.
      destruct W as [|z W]; [destruct HF as [|F HF]; [cbn in N; congruence|]; cbn in EL; injection EL as -> _; discriminate|].
      cbn in EL. injection EL as -> _. specialize (HW z (or_introl eq_refl)). apply is_digit_iff in HW. congruence.
  - (* unit *)
    destruct (sd_word w u Hw) as (Nw & Kw & x & w' & Ew & A1 & A2 & A3 & A4 & _).
    assert (HS2 : sign_text sg false) by (destruct HS as [->| ->]; constructor).
    rewrite <- !app_assoc in E. destruct (sign_det sg false (w ++ tail) sg' n' l) as [<- <-]; auto.
    { exists x, (w' ++ tail). subst w. auto. }
    clear E. remember (w ++ tail) as L eqn:EL. remember (ds ++ r) as R eqn:ER.
    destruct HU as [num W' F' ds' l g ago R a H1 H2 H3 H4|num W' F' ds' R a H1 H2 H3 H4 H5|l g ago R H1|w0 l a R H1 H2 H3 _].
    + exfalso. destruct (gnu_number_head _ _ _ _ H1) as (y & q & -> & Dy). subst w. cbn in EL. injection EL as -> _. congruence.
    + exfalso. destruct (gnu_number_head _ _ _ _ H1) as (y & q & -> & Dy). subst w. cbn in EL. injection EL as -> _. congruence.
    + subst l. destruct (phrase_sd w u _ tail t' g ago R Hw HT H1) as (G & -> & ->). cbn [xorb with_sign].
      split; [|eapply white_tail; eauto]. rewrite <- (Z.mul_1_r (unit_nanos u)). apply times_same; [lia|exact G].
    + exfalso. destruct (word_det w tail w0 l u) as [<- _]; auto. { eapply tail_ends; eauto. } exact (H3 u Hw).
Qed.

(** ** The whole text *)
Lemma readings t v : any_span Second T t v -> forall as_, relative_time t as_ -> exists vs, Forall2 same_amount as_ vs /\ v = fold_right Z.add 0 vs.
Proof.
  induction 1 as [s b pt v P|s b pt v sep x rest v' P Hs Hr IH M]; intros as_ R.
  - inversion R as [l a I E1 E2|l a ds r rs I Hds Hw R' E1 E2]; subst.
    + destruct (step s b pt v [] [] a [] [] P) as [S _]; [left; auto|now rewrite app_nil_r|intros y []|discriminate|auto|].
      exists [v]. split; [repeat constructor; exact S|cbn; lia].
    + destruct (step s b pt v [] [] a ds r P) as [_ ->]; [left; auto|now rewrite app_nil_r|exact Hds|exact Hw| |].
      { right. inversion R'; eauto. }
      now apply relative_nonempty in R'.
  - destruct (span_head _ _ Hr) as (y & q & [= <- <-] & Hx & N1 & N2).
    assert (HT : tail_of b pt (sep ++ x :: rest) (x :: rest)) by (right; exists sep, x, rest; tauto).
    inversion R as [l a I E1 E2|l a ds r rs I Hds Hw R' E1 E2]; subst.
    + destruct (step s b pt v _ _ a [] [] P HT I) as [_ E]; [intros y []|discriminate|auto|discriminate].
    + destruct (step s b pt v _ _ a ds r P HT I) as [S ->]; [exact Hds|exact Hw| |].
      { right. inversion R'; eauto. }
      destruct (IH rs R') as (vs & F & ->). exists (v :: vs). split; [now constructor|reflexivity].
Qed.
Lemma sum_all as_ vs : Forall2 same_amount as_ vs -> exists n m y, 0 <= n /\ 0 <= m /\ 0 <= y /\
  fold_right Z.add 0 vs = n + m * unit_nanos Month + y * unit_nanos Year /\
  sum_nanos as_ = Z.min max_nanos n /\ sum_months as_ = Z.min (2 ^ 63 - 1) m /\ sum_years as_ = Z.min (2 ^ 63 - 1) y.
Proof.
  intros H.
  enough (G : forall n0 m0 y0, 0 <= n0 -> 0 <= m0 -> 0 <= y0 -> exists n m y, 0 <= n /\ 0 <= m /\ 0 <= y /\
    fold_right Z.add 0 vs = n + m * unit_nanos Month + y * unit_nanos Year /\
    fold_left (fun t a => match a with Nanos v => clamp_nanos (t + v) | _ => t end) as_ (Z.min max_nanos n0) = Z.min max_nanos (n0 + n) /\
    fold_left (fun t a => match a with Months v => clamp_i64 (t + v) | _ => t end) as_ (Z.min (2 ^ 63 - 1) m0) = Z.min (2 ^ 63 - 1) (m0 + m) /\
    fold_left (fun t a => match a with Years v => clamp_i64 (t + v) | _ => t end) as_ (Z.min (2 ^ 63 - 1) y0) = Z.min (2 ^ 63 - 1) (y0 + y)).
  { destruct (G 0 0 0) as (n & m & y & G'); try lia. exists n, m, y. exact G'. }
  induction H as [|a v as_ vs Ha Hs IH]; intros n0 m0 y0 Hn Hm Hy.
  - exists 0, 0, 0. cbn [fold_left fold_right]. rewrite !Z.add_0_r. repeat split; lia.
  - assert (Cn : forall a b, 0 <= a -> 0 <= b -> clamp_nanos (Z.min max_nanos a + Z.min max_nanos b) = Z.min max_nanos (a + b)) by (intros; unfold clamp_nanos, clamp, max_nanos; lia).
    assert (Ci : forall a b, 0 <= a -> 0 <= b -> clamp_i64 (Z.min (2 ^ 63 - 1) a + Z.min (2 ^ 63 - 1) b) = Z.min (2 ^ 63 - 1) (a + b)) by (intros; unfold clamp_i64, clamp; lia).
    cbn [fold_left fold_right]. destruct a as [x|k|k]; cbn [same_amount] in Ha.
    + destruct Ha as [Hv ->]. rewrite Cn by lia. destruct (IH (n0 + v) m0 y0) as (n & m & y & A1 & A2 & A3 & A4 & A5 & A6 & A7); try lia.
      exists (v + n), m, y. rewrite A4, A5, A6, A7. repeat split; try lia; f_equal; lia.
    + destruct Ha as (q & Hq & -> & ->). rewrite Ci by lia. destruct (IH n0 (m0 + q) y0) as (n & m & y & A1 & A2 & A3 & A4 & A5 & A6 & A7); try lia.
      exists n, (q + m), y. rewrite A4, A5, A6, A7. repeat split; try lia; f_equal; lia.
    + destruct Ha as (q & Hq & -> & ->). rewrite Ci by lia. destruct (IH n0 m0 (y0 + q)) as (n & m & y & A1 & A2 & A3 & A4 & A5 & A6 & A7); try lia.
      exists n, m, (q + y). rewrite A4, A5, A6, A7. repeat split; try lia; f_equal; lia.
Qed.

Lemma trimmed_alone t a b c : trimmed t -> t = a ++ b ++ c -> white_space a -> white_space c -> t = b.
Proof.
  intros [T1 T2] E Ha Hc. destruct a as [|x a]; [|elim (T1 x (a ++ b ++ c) E); apply Ha; now left].
  destruct (rev c) as [|x c'] eqn:R; [apply (f_equal (@rev Z)) in R; rewrite rev_involutive in R; subst c; cbn in E; now rewrite app_nil_r in E|].
  apply (f_equal (@rev Z)) in R. rewrite rev_involutive in R. cbn in R. subst c. elim (T2 x (b ++ rev c')); [cbn in E; now rewrite <- app_assoc|].
  apply Hc. apply in_or_app. right. now left.
Qed.

(** The systemd parser (with seconds as default unit) and the gnu parser: a text which both accept means the same. The gnu parser keeps
    months and years apart, the systemd parser counts them as the fixed time of Month and Year. *)
Theorem C82_systemd_nanos_and_gnu : forall p s max years months d d', made p Second -> utf8 s = true -> duration_ok max -> is_negative max = false ->
  gnu_parse_fuzzy gnu_new s = Ok (years, months, d) -> sd_parse_nanos_with_max p s max = Ok d' ->
  nanos d' = Z.min (nanos max) (nanos d + months * unit_nanos Month + years * unit_nanos Year).
Proof.
  intros p s max years months d d' Hp U Hm Hn G P. apply (C73_exactly_time_spans_nanos p Second) in P; auto.
  destruct P as (ws1 & t & ws2 & -> & W1 & W2 & P).
  rewrite white_utf8, utf8_white_end in U by assumption.
  rewrite (proj1 (C44_white_space gnu_new ws1 t ws2 (inl (Std 0 0)) None W1 W2)) in G.
  destruct P as [[-> _]|(v & Sp & _ & _ & V)]; [discriminate G|].
  destruct (C44_fuzzy_sound t years months d U G) as (w1 & t' & w2 & as_ & E & V1 & V2 & _ & R & -> & -> & _ & N).
  assert (t = t').
  { apply (trimmed_alone t w1 t' w2); auto. apply (any_span_trimmed Second sd_TIME_UNITS_WITH_NANOS T sd_get_nanos_spec systemd_nanos_words_ok t v Sp). }
  subst t'. destruct (readings t v Sp as_ R) as (vs & F & ->). destruct (sum_all as_ vs F) as (n & m & y & A1 & A2 & A3 & A4 & A5 & A6 & A7).
  rewrite V, N, A4, A5, A6, A7. pose proof (nanos_range max Hm) as Hr. unfold unit_nanos, max_nanos in *. lia.
Qed.
Print Assumptions C82_systemd_nanos_and_gnu.

Theorem C82_systemd_and_gnu : forall p s max years months d d', made p Second -> utf8 s = true -> duration_ok max -> is_negative max = false ->
  gnu_parse_fuzzy gnu_new s = Ok (years, months, d) -> sd_parse_with_max p s max = Ok d' ->
  nanos d' = Z.min (nanos max) (nanos d + months * unit_nanos Month + years * unit_nanos Year).
Proof.
  intros p s max years months d d' Hp U Hm Hn G P. apply (C82_systemd_nanos_and_gnu p s max years months d d'); auto.
  now apply (C39_nanos_extends p Second s max d').
Qed.
Print Assumptions C82_systemd_and_gnu.
(** without months and years the result of the gnu parser is this duration, whatever the date *)
Theorem C82_systemd_and_gnu_date : forall s now date d d', utf8 s = true -> gnu_parse_fuzzy gnu_new s = Ok (0, 0, d) ->
  sd_parse sd_new s = Ok d' -> gnu_parse_with_date gnu_new now s date = Ok d /\ nanos d' = Z.min ((2 ^ 64 - 1) * 1000) (nanos d).
Proof.
  intros s now date d d' U G P. split; [now apply C44_date_is_irrelevant|].
  destruct C37_maxima as (a & _ & Ea & _ & Oa & _ & Na & _ & Va & _). unfold sd_parse in P. rewrite Ea in P. cbn [bind] in P. rewrite <- Va.
  rewrite (C82_systemd_and_gnu sd_new s a 0 0 d d'); auto; [lia|apply made_new].
Qed.
Print Assumptions C82_systemd_and_gnu_date.
(** texts both accept; with the gnu parser a month is a month of the calendar *)
Example C82_systemd_and_gnu_example :
  gnu_parse_fuzzy gnu_new (%"2 days +1.25sec 1month hour") = Ok (0, 1, Dur false (Std (2 * 86400 + 3601) 250000000)) /\
  sd_parse sd_new (%"2 days +1.25sec 1month hour") = Ok (Dur false (Std (2 * 86400 + 3601 + 2629800) 250000000)) /\
  gnu_parse_fuzzy gnu_new (%" 3weeks 7") = Ok (0, 0, Dur false (Std (3 * 604800 + 7) 0)) /\ sd_parse sd_new (%" 3weeks 7") = Ok (Dur false (Std (3 * 604800 + 7) 0)) /\
  gnu_parse_fuzzy gnu_new (%"yesterday") = Ok (0, 0, Dur true (Std 86400 0)) /\ (exists e, sd_parse sd_new (%"yesterday") = Err e) /\
  (exists e, gnu_parse_fuzzy gnu_new (%"3ms") = Err e) /\ sd_parse sd_new (%"3ms") = Ok (Dur false (Std 0 3000000)).
Proof. vm_compute. repeat split; eexists; reflexivity. Qed.

(** ** The standard parser and the gnu parser *)
Lemma item_no_i L a R : gnu_item L a R -> forall sg n l, L = sg ++ l -> sign_text sg n -> plain_head l -> exists x l', l = x :: l' /\ eq_nocase x 105 = false.
Proof.
  assert (D : forall x, is_digit x = true -> eq_nocase x 105 = false).
  { intros x H. apply is_digit_iff in H. unfold eq_nocase, to_lower. replace ((65 <=? x) && (x <=? 90)) with false by lia. cbn. lia. }
  assert (N : forall W F R num r, gnu_number R num W F -> exists x l', num ++ r = x :: l' /\ eq_nocase x 105 = false).
  { intros W F R0 num r H. destruct (gnu_number_head _ _ _ _ H) as (x & q & -> & Dx). eexists _, _. split; [reflexivity|auto]. }
  assert (Ph : forall l g ago r, unit_phrase l g ago r -> exists x l', l = x :: l' /\ eq_nocase x 105 = false).
  { intros l g ago r H. destruct (phrase_letters _ _ _ _ H) as (w & l' & -> & Hw & _). destruct (gnu_word_head gnu_units eq_refl w g Hw) as (x & w' & -> & E). eexists _, _. split; [reflexivity|auto]. }
  intros H sg n l E HS HP.
  assert (G : exists sg' n' l', L = sg' ++ l' /\ gnu_sign sg' n' /\ plain_head l' /\ exists x q, l' = x :: q /\ eq_nocase x 105 = false).
  { destruct (item_unsigned L a R H) as (sg0 & n0 & l0 & E0 & HS0 & HP0 & HU).
    exists sg0, n0, l0. split; [exact E0|]. split; [exact HS0|]. split; [exact HP0|].
    destruct HU as [num W' F' ds' l1 g ago R a H1 H2 H3 H4|num W' F' ds' R a H1 H2 H3 H4 H5|l1 g ago R H1|w0 l1 a R H1 H2 H3 H4]; eauto.
    destruct H4 as (x & w' & -> & H4). eexists _, _. split; [reflexivity|exact H4]. }
  destruct G as (sg' & n' & l' & E' & HS' & HP' & G). destruct (sign_det sg n l sg' n' l') as [_ <-]; auto. congruence.
Qed.

Lemma standard_signed s n l : signed config_new s n l -> exists sg, sign_text sg n /\ s = sg ++ l /\ l <> [].
Proof.
  intros [l0 A B|x l0 r A B C D|x l0 ds r A B C D]; [exists []; split; [constructor|auto]| |discriminate]. subst r.
  unfold is_sign in A. apply orb_true_iff in A. destruct A as [A|A]; apply Z.eqb_eq in A; subst x.
  - exists (%"+"). split; [constructor|auto].
  - exists (%"-"). split; [constructor|auto].
Qed.
Lemma standard_number l W F x r : number config_new l W F x r -> exists fr et, l = W ++ fr ++ et ++ r /\ digit_string W /\ fraction_text fr F /\ W ++ F <> [] /\
  ((et = [] /\ x = 0) \/ exists y q, et = y :: q /\ is_e y = true) /\ starts_not is_digit (et ++ r) /\ (fr = [] -> starts_not is_dot (et ++ r)).
Proof.
  intros (l1 & l2 & l3 & (-> & A & A') & B & C & D & N). destruct D as [l3 D|l3 ds r D]; [|discriminate].
  assert (DS : forall V, (forall x, In x V -> is_digit x = true) -> digit_string V) by (intros V HV y Hy; apply is_digit_iff, HV, Hy).
  assert (E : exists et, l2 = et ++ l3 /\ ((et = [] /\ x = 0) \/ exists y q, et = y :: q /\ is_e y = true)).
  { destruct C as [l2 C|y sg n l2 ds r e C1 C2 C3 (-> & C4 & _) C5 C6 C7]; [exists []; auto|].
    exists (y :: sg ++ ds). split; [cbn; now rewrite <- !app_assoc|]. right. eauto. }
  destruct E as (et & -> & E). clear C. remember (et ++ l3) as q eqn:Eq. destruct B as [l1 B|l1 F r B1 (-> & B2 & B3)]; subst.
  - exists [], et. cbn. repeat (split; auto). constructor.
  - exists (46 :: F), et. cbn [app]. repeat (split; auto). + apply (ft_some F). auto. + discriminate.
Qed.
Lemma digits_plain W fr F r : digit_string W -> fraction_text fr F -> W ++ F <> [] -> plain_head (W ++ fr ++ r).
Proof.
  intros HW HF N. destruct W as [|y W]; [destruct HF as [|F HF]; [cbn in N; congruence|]; exists 46; eexists; split; [reflexivity|]; split; [unfold white; lia|reflexivity]|].
  apply digit_head, is_digit_iff, HW. now left.
Qed.
Lemma white_nil : white_space [].
Proof. intros x []. Qed.
Lemma gnu_number_no_e R num W F : gnu_number R num W F -> starts_not is_e R.
Proof.
  intros H. destruct R as [|y R]; [exact I|]. cbn. apply no_e_iff. destruct H as [W H1 H2 H3|W F H1 H2 H3 H4 H5]; [destruct (H3 y R eq_refl)|destruct (H5 y R eq_refl)]; tauto.
Qed.
Lemma digits_not_word W fr F r x q : digit_string W -> fraction_text fr F -> W ++ F <> [] -> x :: q = W ++ fr ++ r -> is_digit x = false -> is_dot x = false -> False.
Proof.
  intros HW HF N EL D1 D2. destruct W as [|z W]; [destruct HF as [|F HF]; [cbn in N; congruence|]; cbn in EL; injection EL as -> _; discriminate|].
  cbn in EL. injection EL as -> _. specialize (HW z (or_introl eq_refl)). apply is_digit_iff in HW. congruence.
Qed.
(** the identifiers of the standard parser mean nothing to the gnu parser *)
Lemma standard_id_gnu u : gnu_unit_get (default_identifier u) = None /\ exists e, gnu_parse_fuzzy gnu_new (default_identifier u) = Err e.
Proof. destruct u; (split; [reflexivity|eexists; vm_compute; reflexivity]). Qed.

Lemma standard_gnu_item l0 s d as_ : single_duration config_new (std_units (units_with l0)) None None s d -> sign_allowed config_new d -> utf8 s = true ->
  relative_time s as_ -> exists v, as_ = [Nanos v] /\ v = nanos d.
Proof.
  intros HS HA U HR.
  assert (HI : exists a ds r, gnu_item s a (ds ++ r) /\ white_space ds /\ no_white_ahead r /\ ((r = [] /\ as_ = [a]) \/ exists rs, relative_time r rs)).
  { destruct HR as [l a I|l a ds r rs I Hd Hw R].
    - exists a, [], []. split; [exact I|]. split; [intros y []|]. split; [discriminate|auto].
    - exists a, ds, r. repeat (split; [assumption|]). right. eauto. }
  destruct HI as (a & ds & r & HI & Hds & Hr & Hnext). destruct (item_unsigned _ _ _ HI) as (sg' & n' & q & E & HS' & HP & HU).
  destruct HS as [s0 n l W F x H1 H2|s0 n l W F x r0 u m H1 H2 H3 H4 H5|s0 n l H1 H2 H3|s0 n l u m H1 H2 (k & K & _)|s0 n l u m H1 H2 H3 H4|s0 n l num r1 u m H1 H2 H3 H4 (f & w & l1 & ds1 & K & _)];
    try discriminate; destruct (standard_signed _ _ _ H1) as (sg & HSg & -> & Nl).
  - destruct (standard_number _ _ _ _ _ H2) as (fr & et & -> & HW & HF & N & HE & Y1 & Y2). rewrite app_nil_r in *.
    assert (DF : digit_string F) by (destruct HF; [intros y []|assumption]).
    destruct (sign_det sg n (W ++ fr ++ et) sg' n' q) as [<- <-]; auto; [eapply digits_plain; eauto|].
    remember (W ++ fr ++ et) as L eqn:EL. remember (ds ++ r) as R eqn:ER.
    destruct HU as [num W' F' ds' l g ago R a K1 K2 K3 K4|num W' F' ds' R a K1 K2 K3 K4 K5|l g ago R K1|w0 l a R K1 K2 K3 _].
    + exfalso. destruct (number_det W fr F et (ds' ++ l) num W' F') as (<- & <- & E2); auto. rewrite <- E2 in K1. apply gnu_number_no_e in K1.
      destruct HE as [[-> _]|(y & q & -> & Ey)]; [|cbn in K1; congruence]. symmetry in E2. apply app_eq_nil in E2. destruct E2 as [_ ->].
      now apply phrase_ahead in K3.
    + destruct (number_det W fr F et (ds' ++ R) num W' F') as (<- & <- & E2); auto. rewrite <- E2 in K1. apply gnu_number_no_e in K1.
      destruct HE as [[-> ->]|(y & q & -> & Ey)]; [|cbn in K1; congruence]. symmetry in E2. apply app_eq_nil in E2. destruct E2 as [_ ->].
      symmetry in ER. apply app_eq_nil in ER. destruct ER as [-> ->]. destruct Hnext as [[_ ->]|(rs & HR')]; [|now apply relative_nonempty in HR'].
      assert (NN : is_negative (number_value n W F 0 (c_default_unit config_new) default_multiplier) = false) by (destruct HA; [discriminate|assumption]).
      assert (Ht : n = true -> tiny Second W F) by (intros ->; now apply (number_not_negative true W F Second)).
      destruct (SystemdExact.number_amount n W F Second HW DF Ht) as [_ V].
      pose proof (number_same n W F Second (Seconds 1) a HW DF Ht eq_refl K5) as SA.
      assert (exists v, a = Nanos v) as (v & ->) by (inversion K5; subst; eexists; reflexivity).
      exists v. split; [reflexivity|]. cbn [same_amount] in SA. destruct SA as [_ ->]. symmetry. exact V.
    + exfalso. destruct (phrase_letters _ _ _ _ K1) as (w2 & l2 & -> & _ & Hl & _). destruct (letters_head w2 l2 Hl) as (y & q & Ey & D1 & D2 & _). rewrite Ey in EL.
      exact (digits_not_word _ _ _ _ _ _ HW HF N EL D1 D2).
    + exfalso. destruct (letters_head w0 l K1) as (y & q & Ey & D1 & D2 & _). rewrite Ey in EL. exact (digits_not_word _ _ _ _ _ _ HW HF N EL D1 D2).
  - exfalso. destruct (standard_number _ _ _ _ _ H2) as (fr & et & -> & HW & HF & N & HE & Y1 & Y2).
    destruct H5 as [r0 u m _ H5|r0 u m H5|r0 w l1 ds1 a1 u m H5]; try discriminate. apply C31_lookup in H5. destruct H5 as (_ & Er0 & _).
    assert (Lr : letters r0) by (subst r0; destruct u; (split; [discriminate|]); each).
    destruct (sign_det sg n (W ++ fr ++ et ++ r0) sg' n' q) as [<- <-]; auto; [eapply digits_plain; eauto|].
    remember (W ++ fr ++ et ++ r0) as L eqn:EL. remember (ds ++ r) as R eqn:ER.
    destruct HU as [num W' F' ds' l g ago R a K1 K2 K3 K4|num W' F' ds' R a K1 K2 K3 K4 K5|l g ago R K1|w0 l a R K1 K2 K3 _].
    + destruct (number_det W fr F (et ++ r0) (ds' ++ l) num W' F') as (<- & <- & E2); auto. rewrite <- E2 in K1. apply gnu_number_no_e in K1.
      destruct HE as [[-> _]|(y & q & -> & Ey)]; [|cbn in K1; congruence]. cbn [app] in E2.
      destruct (phrase_letters _ _ _ _ K3) as (w & l' & -> & Hw & Hl & He).
      destruct (white_det [] r0 ds' (w ++ l')) as [_ E3]; auto; try exact white_nil; try (now apply plain_no_white, letters_plain).
      { rewrite <- (app_nil_r r0). now apply plain_no_white, letters_plain. }
      assert (E4 : r0 = w).
      { apply (word_unique r0 w [] l'); auto; [intros ? ? [=]|]. rewrite app_nil_r. exact E3. }
      clear E3. subst w.
      destruct (proj2 (C40_units r0 (letters_bytes r0 Hl)) g Hw) as (u' & m' & G & _). cbn [u_get gnu_TIME_UNITS] in G. subst r0. destruct (standard_id_gnu u). congruence.
    + destruct (number_det W fr F (et ++ r0) (ds' ++ R) num W' F') as (<- & <- & E2); auto. rewrite <- E2 in K1. apply gnu_number_no_e in K1.
      destruct HE as [[-> ->]|(y & q & -> & Ey)]; [|cbn in K1; congruence]. cbn [app] in E2.
      destruct (white_det [] r0 ds' R) as [_ <-]; auto; try exact white_nil.
      { rewrite <- (app_nil_r r0). now apply plain_no_white, letters_plain. }
      destruct (white_det [] r0 ds r) as [_ <-]; auto; try exact white_nil.
      destruct Hnext as [[-> _]|(rs & HR')]; [destruct Lr; congruence|].
      destruct (C44_fuzzy_complete [] r0 [] rs) as (D & G & _); try exact white_nil; auto.
      * subst r0; destruct u; reflexivity.
      * destruct Lr as [_ Lr]. split; intros y q -> Wy; [specialize (Lr y (or_introl eq_refl))|assert (Ly := Lr y ltac:(apply in_or_app; right; now left))]; unfold white in Wy; lia.
      * rewrite app_nil_r in G. cbn [app] in G. subst r0. destruct (standard_id_gnu u) as [_ (e & G')]. congruence.
    + destruct (phrase_letters _ _ _ _ K1) as (w2 & l2 & -> & _ & Hl & _). destruct (letters_head w2 l2 Hl) as (y & q & Ey & D1 & D2 & _). rewrite Ey in EL.
      exact (digits_not_word _ _ _ _ _ _ HW HF N EL D1 D2).
    + destruct (letters_head w0 l K1) as (y & q & Ey & D1 & D2 & _). rewrite Ey in EL. exact (digits_not_word _ _ _ _ _ _ HW HF N EL D1 D2).
  - exfalso. assert (PL : plain_head l).
    { destruct H3 as [H3|H3]; destruct l as [|x l]; try discriminate; exists x, l; (split; [reflexivity|]); cbn in H3; apply andb_true_iff in H3; destruct H3 as [H3 _];
        change (eq_nocase x 105 = true) in H3; apply PropOptions.nocase_letter in H3; try reflexivity; unfold PropModes.is_letter, white, is_sign in *; lia. }
    destruct (item_no_i _ _ _ HI sg n l eq_refl HSg PL) as (x & l' & -> & Ex).
    destruct H3 as [H3|H3]; cbn in H3; apply andb_true_iff in H3; destruct H3 as [H3 _]; change (eq_nocase x 105 = true) in H3; congruence.
Qed.
Theorem C82_standard_and_gnu : forall l s d years months d', utf8 s = true ->
  dp_parse (dp_with_time_units l) s = Ok d -> gnu_parse_fuzzy gnu_new s = Ok (years, months, d') ->
  years = 0 /\ months = 0 /\ nanos d' = nanos d.
Proof.
  intros l s d years months d' U P G.
  assert (P0 : parse config_new s (std_units (units_with l)) None None = Ok d) by exact P. clear P.
  assert (EV : env_ok config_new (std_units (units_with l)) None None) by (apply (std_set_env l config_new); exact config_new_ok).
  assert (D : - max_nanos <= nanos d <= max_nanos).
  { apply nanos_range. destruct (C20_never_crashes _ _ _ _ _ EV U) as [(d0 & P & O)|(e & P)]; congruence. }
  apply C22_single_grammar in P0; [|apply (std_set_env l config_new); exact config_new_ok|exact U|reflexivity]. destruct P0 as [P0 PN].
  destruct (C44_fuzzy_sound s years months d' U G) as (w1 & t & w2 & as_ & E & V1 & V2 & _ & R & -> & -> & _ & N).
  assert (t = s).
  { apply (bytes_of_white_ends s w1 t w2 E V1 V2). apply (no_white_inside Second (std_units (units_with l)) s d); [|exact P0].
    intros id Hid x Hx Wx. destruct (u_get (std_units (units_with l)) id) as [[v m]|] eqn:Ei; [|congruence].
    apply C31_lookup in Ei. destruct Ei as (_ & -> & _). revert Hx. unfold white in Wx. destruct v; cbn; lia. }
  subst t. destruct (standard_gnu_item l s d as_ P0 PN U R) as (v & -> & ->).
  split; [reflexivity|]. split; [reflexivity|]. rewrite N. unfold sum_nanos. cbn [fold_left].
  unfold clamp_nanos, clamp. lia.
Qed.
Print Assumptions C82_standard_and_gnu.
(** such texts are numbers; what is something else for one of them is an error for the other one *)
Example C82_standard_and_gnu_example :
  dp_parse dp_with_all_time_units (%"+12.000000001") = Ok (Dur false (Std 12 1)) /\ gnu_parse_fuzzy gnu_new (%"+12.000000001") = Ok (0, 0, Dur false (Std 12 1)) /\
  dp_parse dp_with_all_time_units (%"1e3") = Ok (Dur false (Std 1000 0)) /\ (exists e, gnu_parse_fuzzy gnu_new (%"1e3") = Err e) /\
  (exists e, dp_parse dp_with_all_time_units (%"-1") = Err e) /\ gnu_parse_fuzzy gnu_new (%"-1") = Ok (0, 0, Dur true (Std 1 0)).
Proof. vm_compute. repeat split; eexists; reflexivity. Qed.
