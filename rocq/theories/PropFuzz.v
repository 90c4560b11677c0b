(** * Property C103: the check of the fuzz target for single durations, for every input *)
From Verif Require Import Prelude Time Config Parse SpecTime SpecNum SpecParse SpecValue SpecGrammar SpecErrors SpecSpelling SpecTexts NumProofs ValueProofs SpellProofs Utf8Proofs
  RefGrammar PropNum PropParse PropErrors Standard Custom SpecCustom PropCustom PropTexts SpecRegex SpecFuzz.

(** the expression in parts has the source text of the target *)
Theorem C103_source : forall f, %"^" ++ source (fuzz_regex f) ++ %"$" = regex_source f.
Proof.
  intros f. unfold fuzz_regex, regex_source.
  assert (S : source (sign_regex f) = if f_allow_negative f || f_allow_ago f then if f_allow_sign_delimiter f then %"([+-][ \t\n\x0c\r\x0b]*)?" else %"[+-]?"
    else if f_allow_sign_delimiter f then %"([+][ \t\n\x0c\r\x0b]*)?" else %"[+]?")
    by (unfold sign_regex; destruct (f_allow_negative f || f_allow_ago f), (f_allow_sign_delimiter f); reflexivity).
  assert (B : source (base_regex f) = if f_disable_fraction f then %"(?P<base>[[:digit:]]+)"
    else %"(?P<base>([[:digit:]]+)|([[:digit:]]+\.[[:digit:]]*)|([[:digit:]]*\.[[:digit:]]+))") by (unfold base_regex; destruct (f_disable_fraction f); reflexivity).
  assert (E : source (exponent_regex f) = if f_disable_exponent f then [] else %"([eE](?P<exponent>[+-]?[[:digit:]]+))?")
    by (unfold exponent_regex; destruct (f_disable_exponent f); reflexivity).
  assert (U : source (unit_regex f) = %"(w|d|h|m|s|ms|Ms|ns)" ++ if f_allow_ago f then %"([ \t\n\x0c\r\x0b]+[aA][gG][oO])?" else [])
    by (unfold unit_regex; destruct (f_allow_ago f); reflexivity).
  assert (N : source (number_regex f) = if f_number_is_optional f then %"(" ++ source (base_regex f) ++ source (exponent_regex f) ++ %")?" else source (base_regex f) ++ source (exponent_regex f))
    by (unfold number_regex; destruct (f_number_is_optional f); [cbn [source]; rewrite <- !app_assoc|]; reflexivity).
  assert (D : source (if f_allow_time_unit_delimiter f then Some_ delim else Nothing) = if f_allow_time_unit_delimiter f then %"[ \t\n\x0c\r\x0b]+" else [])
    by (destruct (f_allow_time_unit_delimiter f); reflexivity).
  assert (K : forall r, source (keyword_regex f r) = keyword_source (f_keyword f) ++ source r) by (intros r; unfold keyword_regex; destruct (f_keyword f); reflexivity).
  assert (I : forall r, source (infinity_regex f r) = (if f_disable_infinity f then [] else %"([iI][nN][fF])|([iI][nN][fF][iI][nN][iI][tT][yY])|") ++ source r)
    by (intros r; unfold infinity_regex; destruct (f_disable_infinity f); reflexivity).
  cbn [source]. rewrite S, I, K. unfold main_regex. cbn [source]. rewrite N, D, U, B, E. rewrite <- !app_assoc. reflexivity.
Qed.
Print Assumptions C103_source.

(** ** What the expressions match *)
Lemma m_named n r s k : matches (Named n r) s k <-> exists k', k = (n, s) :: k' /\ matches r s k'.
Proof. reflexivity. Qed.
Lemma m_maybe r s k : matches (Maybe (Group r)) s k <-> s = [] /\ k = [] \/ matches r s k.
Proof. reflexivity. Qed.
Lemma m_or r r' s k : matches (Or (Group r) r') s k <-> matches r s k \/ matches r' s k.
Proof. reflexivity. Qed.
Lemma many_class t p s k : matches (Many (Class t p)) s k <-> (forall x, In x s -> p x = true) /\ k = [].
Proof.
  cbn [matches]. split.
  - induction 1 as [|s k s' k' [(x & -> & Hx) ->] H [IH ->]]; [split; [intros x []|reflexivity]|]. split; [|reflexivity].
    intros y [<-|Hy]; [exact Hx|now apply IH].
  - intros [H ->]. induction s as [|x s IH]; [constructor|]. change (x :: s) with ([x] ++ s). change (@nil (str * str)) with (@nil (str * str) ++ []).
    constructor; [split; [exists x; split; [reflexivity|apply H; now left]|reflexivity]|]. apply IH. intros y Hy. apply H. now right.
Qed.
Lemma some_class t p s k : matches (Some_ (Class t p)) s k <-> s <> [] /\ (forall x, In x s -> p x = true) /\ k = [].
Proof.
  split.
  - intros (s1 & s2 & k1 & k2 & -> & -> & [(x & -> & Hx) ->] & H). apply (many_class t p) in H. destruct H as [H ->]. split; [discriminate|]. split; [|reflexivity].
    intros y [<-|Hy]; [exact Hx|now apply H].
  - intros (N & H & ->). destruct s as [|x s]; [contradiction|]. exists [x], s, [], []. split; [reflexivity|]. split; [reflexivity|].
    split; [split; [exists x; split; [reflexivity|apply H; now left]|reflexivity]|]. apply (many_class t p). split; [|reflexivity]. intros y Hy. apply H. now right.
Qed.

Definition small (w : str) : bool := forallb (fun x => (97 <=? x) && (x <=? 122)) w.
Lemma letter_nocase_iff x y : 97 <= x <= 122 -> (y =? x) || (y =? x - 32) = true <-> eq_nocase y x = true.
Proof.
  intros Hx. unfold eq_nocase, to_lower. rewrite orb_true_iff, !Z.eqb_eq.
  destruct ((65 <=? x) && (x <=? 90)) eqn:E1; [lia|]. destruct ((65 <=? y) && (y <=? 90)) eqn:E2; lia.
Qed.
Lemma letters_match w : small w = true -> forall s k, matches (letters w) s k <-> str_eq_nocase s w = true /\ k = [].
Proof.
  induction w as [|x w IH]; intros Hw s k.
  - cbn. destruct s; [tauto|]. split; intros [H _]; discriminate H.
  - cbn [small forallb] in Hw. apply andb_true_iff in Hw. destruct Hw as [Hx Hw]. assert (97 <= x <= 122) as X by lia. specialize (IH Hw).
    destruct w as [|y w].
    + cbn [letters matches letter]. split.
      * intros [(z & -> & Hz) ->]. split; [|reflexivity]. cbn. rewrite andb_true_r. now apply letter_nocase_iff.
      * intros [H ->]. destruct s as [|z [|]]; cbn in H; try discriminate; rewrite ?andb_false_r in H; try discriminate H. rewrite andb_true_r in H.
        split; [|reflexivity]. exists z. split; [reflexivity|]. now apply letter_nocase_iff.
    + change (matches (letters (x :: y :: w)) s k) with (matches (Then (letter x) (letters (y :: w))) s k). cbn [matches letter]. split.
      * intros (s1 & s2 & k1 & k2 & -> & -> & [(z & -> & Hz) ->] & H). apply IH in H. destruct H as [H ->]. split; [|reflexivity].
        change (eq_nocase z x && str_eq_nocase s2 (y :: w) = true). rewrite H, andb_true_r. now apply letter_nocase_iff.
      * intros [H ->]. destruct s as [|z s]; [discriminate|]. change (eq_nocase z x && str_eq_nocase s (y :: w) = true) in H. apply andb_true_iff in H. destruct H as [Hz H].
        exists [z], s, [], []. split; [reflexivity|]. split; [reflexivity|]. split; [split; [exists z; split; [reflexivity|now apply letter_nocase_iff]|reflexivity]|].
        apply IH. tauto.
Qed.
Lemma one_of_match ws : ws <> [] -> forall s k, matches (one_of ws) s k <-> In s ws /\ k = [].
Proof.
  induction ws as [|w ws IH]; intros N s k; [contradiction|]. destruct ws as [|v ws].
  - cbn. intuition congruence.
  - change (matches (Or (Text w) (one_of (v :: ws))) s k <-> In s (w :: v :: ws) /\ k = []).
    cbn [matches]. rewrite (IH ltac:(discriminate)). cbn [In]. intuition congruence.
Qed.

(** a sign *)
Definition sign_match (f : fuzzing) (sg : str) : Prop :=
  sg = [] \/ exists x ds, sg = x :: ds /\ is_sign x = true /\ (x = 45 -> f_allow_negative f || f_allow_ago f = true) /\
    (forall y, In y ds -> fuzz_delimiter y = true) /\ (ds <> [] -> f_allow_sign_delimiter f = true).
Lemma sign_matches f sg k : matches (sign_regex f) sg k <-> sign_match f sg /\ k = [].
Proof.
  unfold sign_regex, sign_match.
  assert (C : forall x, (exists t p, (if f_allow_negative f || f_allow_ago f then sign_class else Class (%"[+]") (fun x => x =? 43)) = Class t p /\
     (p x = true <-> is_sign x = true /\ (x = 45 -> f_allow_negative f || f_allow_ago f = true)))).
  { intros x. destruct (f_allow_negative f || f_allow_ago f).
    - exists (%"[+-]"), is_sign. split; [reflexivity|]. tauto.
    - exists (%"[+]"), (fun x => x =? 43). split; [reflexivity|]. unfold is_sign. split; [intros H; split; [lia|intros ->; discriminate H]|].
      intros [H1 H2]. destruct (Z.eq_dec x 45) as [->|]; [discriminate (H2 eq_refl)|lia]. }
  destruct (f_allow_sign_delimiter f).
  - set (S := if f_allow_negative f || f_allow_ago f then sign_class else Class (%"[+]") (fun x => x =? 43)) in *. change (matches (Maybe (Group (Then S (Many delim)))) sg k) with (sg = [] /\ k = [] \/ exists s1 s2 k1 k2, sg = s1 ++ s2 /\ k = k1 ++ k2 /\ matches S s1 k1 /\ matches (Many delim) s2 k2).
    split.
    + intros [[-> ->]|(s1 & s2 & k1 & k2 & -> & -> & H1 & H2)]; [tauto|]. apply many_class in H2. destruct H2 as [H2 ->].
      destruct (C 0) as (t & p & E & _). rewrite E in H1. destruct H1 as [(x & -> & Hx) ->]. split; [|reflexivity]. right. exists x, s2.
      destruct (C x) as (t' & p' & E' & Hp). rewrite E in E'. injection E' as <- <-. apply Hp in Hx. tauto.
    + intros [[->|(x & ds & -> & H)] ->]; [tauto|]. right. exists [x], ds, [], []. split; [reflexivity|]. split; [reflexivity|]. split.
      * destruct (C x) as (t & p & E & Hp). rewrite E. split; [|reflexivity]. exists x. split; [reflexivity|]. apply Hp. tauto.
      * apply many_class. tauto.
  - set (S := if f_allow_negative f || f_allow_ago f then sign_class else Class (%"[+]") (fun x => x =? 43)) in *. change (matches (Maybe S) sg k) with (sg = [] /\ k = [] \/ matches S sg k). split.
    + intros [[-> ->]|H1]; [tauto|]. destruct (C 0) as (t & p & E & _). rewrite E in H1. destruct H1 as [(x & -> & Hx) ->]. split; [|reflexivity]. right. exists x, [].
      destruct (C x) as (t' & p' & E' & Hp). rewrite E in E'. injection E' as <- <-. apply Hp in Hx. cbn [In]. intuition congruence.
    + intros [[->|(x & ds & -> & H)] ->]; [tauto|]. right. assert (ds = []) as -> by (destruct ds; [reflexivity|]; destruct H as (_ & _ & _ & H); discriminate (H ltac:(discriminate))).
      destruct (C x) as (t & p & E & Hp). rewrite E. split; [|reflexivity]. exists x. split; [reflexivity|]. apply Hp. tauto.
Qed.

(** the digits of a number *)
Lemma digits_in s : (forall x, In x s -> is_digit x = true) <-> digit_string s.
Proof. unfold digit_string. split; intros H x Hx; specialize (H x Hx); unfold is_digit in *; lia. Qed.
Lemma base_matches f b k : matches (base_regex f) b k <->
  (exists W fr F, b = W ++ fr /\ digit_string W /\ fraction_text fr F /\ W ++ F <> [] /\ (fr <> [] -> f_disable_fraction f = false)) /\ k = [(%"base", b)].
Proof.
  unfold base_regex. rewrite m_named.
  destruct (f_disable_fraction f).
  - split.
    + intros (k' & -> & H). apply some_class in H. destruct H as (N & H & ->). split; [|reflexivity]. exists b, [], []. rewrite !app_nil_r. split; [reflexivity|].
      split; [now apply digits_in|]. split; [constructor|]. split; [exact N|]. intros Q; now destruct Q.
    + intros [(W & fr & F & -> & HW & HF & N & A) ->]. exists []. split; [reflexivity|]. apply some_class. destruct HF as [|F HF]; [|discriminate (A ltac:(discriminate))].
      rewrite app_nil_r in *. split; [exact N|]. split; [now apply digits_in|reflexivity].
  - change (matches (Or (Group (Some_ digit)) (Or (Group (Then (Some_ digit) (Then point (Many digit)))) (Group (Then (Many digit) (Then point (Some_ digit)))))))
      with (fun s k => matches (Some_ digit) s k \/
        (exists s1 s2 k1 k2, s = s1 ++ s2 /\ k = k1 ++ k2 /\ matches (Some_ digit) s1 k1 /\
           exists s3 s4 k3 k4, s2 = s3 ++ s4 /\ k2 = k3 ++ k4 /\ ((exists x, s3 = [x] /\ (x =? 46) = true) /\ k3 = []) /\ matches (Many digit) s4 k4) \/
        (exists s1 s2 k1 k2, s = s1 ++ s2 /\ k = k1 ++ k2 /\ matches (Many digit) s1 k1 /\
           exists s3 s4 k3 k4, s2 = s3 ++ s4 /\ k2 = k3 ++ k4 /\ ((exists x, s3 = [x] /\ (x =? 46) = true) /\ k3 = []) /\ matches (Some_ digit) s4 k4)).
    cbv beta. split.
    + intros (k' & -> & [H|[H|H]]).
      * apply some_class in H. destruct H as (N & H & ->). split; [|reflexivity]. exists b, [], []. rewrite !app_nil_r. split; [reflexivity|].
        split; [now apply digits_in|]. split; [constructor|]. split; [exact N|reflexivity].
      * destruct H as (W & s2 & k1 & k2 & -> & -> & H1 & s3 & F & k3 & k4 & -> & -> & [(x & -> & Hx) ->] & H2). apply some_class in H1. apply many_class in H2.
        destruct H1 as (N & H1 & ->), H2 as (H2 & ->). apply Z.eqb_eq in Hx. subst x. split; [|reflexivity]. exists W, ([46] ++ F), F. split; [reflexivity|].
        split; [now apply digits_in|]. split; [apply ft_some; now apply digits_in|]. split; [destruct W; [contradiction|discriminate]|reflexivity].
      * destruct H as (W & s2 & k1 & k2 & -> & -> & H1 & s3 & F & k3 & k4 & -> & -> & [(x & -> & Hx) ->] & H2). apply many_class in H1. apply some_class in H2.
        destruct H2 as (N & H2 & ->), H1 as (H1 & ->). apply Z.eqb_eq in Hx. subst x. split; [|reflexivity]. exists W, ([46] ++ F), F. split; [reflexivity|].
        split; [now apply digits_in|]. split; [apply ft_some; now apply digits_in|]. split; [intros Q; apply app_eq_nil in Q; tauto|reflexivity].
    + intros [(W & fr & F & -> & HW & HF & N & _) ->]. exists []. split; [reflexivity|]. rewrite <- digits_in in HW. destruct HF as [|F HF].
      * left. rewrite app_nil_r in *. apply some_class. auto.
      * right. rewrite <- digits_in in HF. assert (P : (exists x, [46] = [x] /\ (x =? 46) = true) /\ @nil (str * str) = []) by (split; [now exists 46|reflexivity]).
        destruct W as [|w W].
        -- right. exists [], ([46] ++ F), [], []. split; [reflexivity|]. split; [reflexivity|]. split; [apply many_class; auto|].
           exists [46], F, [], []. split; [reflexivity|]. split; [reflexivity|]. split; [exact P|]. apply some_class. auto.
        -- left. exists (w :: W), ([46] ++ F), [], []. split; [reflexivity|]. split; [reflexivity|]. split; [apply some_class; split; [discriminate|auto]|].
           exists [46], F, [], []. split; [reflexivity|]. split; [reflexivity|]. split; [exact P|]. apply many_class. auto.
Qed.

(** the exponent *)
Definition exponent_match (f : fuzzing) (ex : str) (k : list (str * str)) : Prop :=
  ex = [] /\ k = [] \/
  exists x sg n ds, ex = x :: sg ++ ds /\ is_e x = true /\ sign_text sg n /\ ds <> [] /\ digit_string ds /\ f_disable_exponent f = false /\ k = [(%"exponent", sg ++ ds)].
Lemma exponent_matches f ex k : matches (exponent_regex f) ex k <-> exponent_match f ex k.
Proof.
  unfold exponent_regex, exponent_match. destruct (f_disable_exponent f).
  - cbn [matches]. split; [tauto|]. intros [H|(x & sg & n & ds & _ & _ & _ & _ & _ & Q & _)]; [exact H|discriminate].
  - change (matches (Maybe (Group (Then (Class (%"[eE]") is_e) (Named (%"exponent") (Then (Maybe sign_class) (Some_ digit)))))) ex k)
      with (ex = [] /\ k = [] \/ exists s1 s2 k1 k2, ex = s1 ++ s2 /\ k = k1 ++ k2 /\ ((exists x, s1 = [x] /\ is_e x = true) /\ k1 = []) /\
        exists k', k2 = (%"exponent", s2) :: k' /\ exists s3 s4 k3 k4, s2 = s3 ++ s4 /\ k' = k3 ++ k4 /\ (s3 = [] /\ k3 = [] \/ (exists x, s3 = [x] /\ is_sign x = true) /\ k3 = []) /\ matches (Some_ digit) s4 k4).
    split; (intros [H|H]; [left; exact H|right]).
    + destruct H as (s1 & s2 & k1 & k2 & -> & -> & [(x & -> & Hx) ->] & k' & -> & s3 & s4 & k3 & k4 & -> & -> & H3 & H4).
      apply some_class in H4. destruct H4 as (N & H4 & ->). rewrite digits_in in H4.
      destruct H3 as [[-> ->]|[(y & -> & Hy) ->]].
      * exists x, [], false, s4. repeat (split; [first [reflexivity|assumption|constructor]|]). reflexivity.
      * unfold is_sign in Hy. apply orb_true_iff in Hy. destruct Hy as [Hy|Hy]; apply Z.eqb_eq in Hy; subst y.
        -- exists x, [43], false, s4. repeat (split; [first [reflexivity|assumption|apply st_plus]|]). reflexivity.
        -- exists x, [45], true, s4. repeat (split; [first [reflexivity|assumption|apply st_minus]|]). reflexivity.
    + destruct H as (x & sg & n & ds & -> & Hx & Hs & N & Hd & _ & ->).
      exists [x], (sg ++ ds), [], [(%"exponent", sg ++ ds)]. split; [reflexivity|]. split; [reflexivity|]. split; [split; [now exists x|reflexivity]|].
      exists []. split; [reflexivity|]. exists sg, ds, [], []. split; [reflexivity|]. split; [reflexivity|]. split.
      * destruct Hs; [left; auto|right; split; [now exists 43|reflexivity]|right; split; [now exists 45|reflexivity]].
      * apply some_class. split; [exact N|]. split; [now apply digits_in|reflexivity].
Qed.

(** a number, whatever its exponent is *)
Definition number_match (f : fuzzing) (p : str) (k : list (str * str)) : Prop :=
  exists W fr F ex k', p = W ++ fr ++ ex /\ digit_string W /\ fraction_text fr F /\ W ++ F <> [] /\ (fr <> [] -> f_disable_fraction f = false) /\
    exponent_match f ex k' /\ k = (%"base", W ++ fr) :: k'.
Lemma number_matches f p k : matches (number_regex f) p k <-> (f_number_is_optional f = true /\ p = [] /\ k = []) \/ number_match f p k.
Proof.
  assert (H : matches (Then (base_regex f) (exponent_regex f)) p k <-> number_match f p k).
  { change (matches (Then (base_regex f) (exponent_regex f)) p k)
      with (exists s1 s2 k1 k2, p = s1 ++ s2 /\ k = k1 ++ k2 /\ matches (base_regex f) s1 k1 /\ matches (exponent_regex f) s2 k2). split.
    - intros (s1 & s2 & k1 & k2 & -> & -> & H1 & H2). apply base_matches in H1. apply exponent_matches in H2. destruct H1 as [(W & fr & F & -> & H1 & H3 & H4 & H5) ->].
      exists W, fr, F, s2, k2. rewrite <- app_assoc. repeat (split; [first [reflexivity|assumption]|]). reflexivity.
    - intros (W & fr & F & ex & k' & -> & H1 & H2 & H3 & H4 & H5 & ->). exists (W ++ fr), ex, [(%"base", W ++ fr)], k'. rewrite <- app_assoc.
      split; [reflexivity|]. split; [reflexivity|]. split; [|now apply exponent_matches]. apply base_matches. split; [|reflexivity]. exists W, fr, F. auto. }
  unfold number_regex. destruct (f_number_is_optional f).
  - rewrite m_maybe, H. tauto.
  - rewrite H. split; [tauto|]. intros [[Q _]|Q]; [discriminate|exact Q].
Qed.

(** a time unit *)
Definition unit_match (f : fuzzing) (q : str) : Prop :=
  exists id, table fuzz_units id <> None /\
    (q = id \/ f_allow_ago f = true /\ exists ds a, q = id ++ ds ++ a /\ ds <> [] /\ (forall x, In x ds -> fuzz_delimiter x = true) /\ str_eq_nocase a (%"ago") = true).
Lemma units_are id : table fuzz_units id <> None <-> In id [%"w"; %"d"; %"h"; %"m"; %"s"; %"ms"; %"Ms"; %"ns"].
Proof.
  split; [intros H; apply in_table in H; exact H|]. intros H. repeat destruct H as [<-|H]; try contradiction; discriminate.
Qed.
Lemma unit_matches f q k : matches (unit_regex f) q k <-> unit_match f q /\ k = [].
Proof.
  unfold unit_regex, unit_match. set (ago := if f_allow_ago f then Maybe (Group (Then (Some_ delim) (letters (%"ago")))) else Nothing).
  change (matches (Then (Group (one_of [%"w"; %"d"; %"h"; %"m"; %"s"; %"ms"; %"Ms"; %"ns"])) ago) q k)
    with (exists s1 s2 k1 k2, q = s1 ++ s2 /\ k = k1 ++ k2 /\ matches (one_of [%"w"; %"d"; %"h"; %"m"; %"s"; %"ms"; %"Ms"; %"ns"]) s1 k1 /\ matches ago s2 k2).
  assert (A : forall s k, matches ago s k <-> (s = [] \/ f_allow_ago f = true /\ exists ds a, s = ds ++ a /\ ds <> [] /\ (forall x, In x ds -> fuzz_delimiter x = true) /\ str_eq_nocase a (%"ago") = true) /\ k = []).
  { intros s k'. unfold ago. destruct (f_allow_ago f).
    - change (matches (Maybe (Group (Then (Some_ delim) (letters (%"ago"))))) s k')
        with (s = [] /\ k' = [] \/ exists s1 s2 k1 k2, s = s1 ++ s2 /\ k' = k1 ++ k2 /\ matches (Some_ delim) s1 k1 /\ matches (letters (%"ago")) s2 k2). split.
      + intros [H|(s1 & s2 & k1 & k2 & -> & -> & H1 & H2)]; [tauto|]. apply some_class in H1. apply letters_match in H2; [|reflexivity].
        destruct H1 as (N & H1 & ->), H2 as (H2 & ->). split; [|reflexivity]. right. split; [reflexivity|]. exists s1, s2. auto.
      + intros [[->|(_ & ds & a & -> & N & Hd & Ha)] ->]; [tauto|]. right. exists ds, a, [], []. split; [reflexivity|]. split; [reflexivity|].
        split; [apply some_class; auto|apply letters_match; [reflexivity|auto]].
    - cbn [matches]. split; [tauto|]. intros [[H|[Q _]] H2]; [tauto|discriminate]. }
  split.
  - intros (id & s2 & k1 & k2 & -> & -> & H1 & H2). apply one_of_match in H1; [|discriminate]. apply A in H2. destruct H1 as [H1 ->], H2 as [H2 ->]. split; [|reflexivity].
    exists id. split; [now apply units_are|]. destruct H2 as [->|(Ea & ds & a & -> & H)]; [left; now rewrite app_nil_r|]. right. split; [exact Ea|]. exists ds, a. auto.
  - intros [(id & H1 & H2) ->]. apply units_are in H1.
    assert (M : matches (one_of [%"w"; %"d"; %"h"; %"m"; %"s"; %"ms"; %"Ms"; %"ns"]) id []) by (apply one_of_match; [discriminate|auto]).
    destruct H2 as [->|(Ea & ds & a & -> & H)].
    + exists id, [], [], []. rewrite app_nil_r. split; [reflexivity|]. split; [reflexivity|]. split; [exact M|]. apply A. tauto.
    + exists id, (ds ++ a), [], []. split; [reflexivity|]. split; [reflexivity|]. split; [exact M|]. apply A. split; [|reflexivity]. right. split; [exact Ea|]. exists ds, a. auto.
Qed.

(** the whole expression *)
Inductive body_match (f : fuzzing) : str -> list (str * str) -> Prop :=
| bm_infinity v : f_disable_infinity f = false -> str_eq_nocase v (%"inf") = true \/ str_eq_nocase v (%"infinity") = true -> body_match f v []
| bm_keyword id : table (fuzz_keywords (f_keyword f)) id <> None -> body_match f id []
| bm_number p k : number_match f p k -> body_match f p k
| bm_number_unit p k ds q : number_match f p k -> (forall x, In x ds -> fuzz_delimiter x = true) -> (ds <> [] -> f_allow_time_unit_delimiter f = true) ->
    unit_match f q -> body_match f (p ++ ds ++ q) k
| bm_unit ds q : f_number_is_optional f = true -> (forall x, In x ds -> fuzz_delimiter x = true) -> (ds <> [] -> f_allow_time_unit_delimiter f = true) ->
    unit_match f q -> body_match f (ds ++ q) []
| bm_empty : f_number_is_optional f = true -> body_match f [] [].

Lemma tail_matches f s k : let delimiter := if f_allow_time_unit_delimiter f then Some_ delim else Nothing in
  matches (Maybe (Group (Or (Group (Then delimiter (unit_regex f))) (Group (unit_regex f))))) s k <->
  (s = [] \/ exists ds q, s = ds ++ q /\ (forall x, In x ds -> fuzz_delimiter x = true) /\ (ds <> [] -> f_allow_time_unit_delimiter f = true) /\ unit_match f q) /\ k = [].
Proof.
  intros delimiter.
  change (matches (Maybe (Group (Or (Group (Then delimiter (unit_regex f))) (Group (unit_regex f))))) s k)
    with (s = [] /\ k = [] \/ (exists s1 s2 k1 k2, s = s1 ++ s2 /\ k = k1 ++ k2 /\ matches delimiter s1 k1 /\ matches (unit_regex f) s2 k2) \/ matches (unit_regex f) s k).
  split.
  - intros [H|[(ds & q & k1 & k2 & -> & -> & H1 & H2)|H]]; [tauto| |].
    + apply unit_matches in H2. destruct H2 as [H2 ->].
      assert ((forall x, In x ds -> fuzz_delimiter x = true) /\ (ds <> [] -> f_allow_time_unit_delimiter f = true) /\ k1 = []) as (D & T & ->).
      { unfold delimiter in H1. destruct (f_allow_time_unit_delimiter f).
        - apply some_class in H1. tauto.
        - destruct H1 as [-> ->]. split; [intros x []|]. split; [intros Q; now destruct Q|reflexivity]. }
      split; [|reflexivity]. right. exists ds, q. auto.
    + apply unit_matches in H. destruct H as [H ->]. split; [|reflexivity]. right. exists [], s. split; [reflexivity|]. split; [intros x []|]. split; [intros Q; now destruct Q|exact H].
  - intros [[->|(ds & q & -> & D & T & U)] ->]; [tauto|]. right. destruct ds as [|x ds]; [right; apply unit_matches; auto|].
    left. exists (x :: ds), q, [], []. split; [reflexivity|]. split; [reflexivity|]. split; [|apply unit_matches; auto]. unfold delimiter. rewrite (T ltac:(discriminate)).
    apply some_class. split; [discriminate|auto].
Qed.
Lemma main_matches f b k : matches (main_regex f) b k <->
  (exists k', number_match f b k' /\ k = k') \/
  (exists p ds q, b = p ++ ds ++ q /\ number_match f p k /\ (forall x, In x ds -> fuzz_delimiter x = true) /\ (ds <> [] -> f_allow_time_unit_delimiter f = true) /\ unit_match f q) \/
  f_number_is_optional f = true /\ k = [] /\
    (b = [] \/ exists ds q, b = ds ++ q /\ (forall x, In x ds -> fuzz_delimiter x = true) /\ (ds <> [] -> f_allow_time_unit_delimiter f = true) /\ unit_match f q).
Proof.
  unfold main_regex. set (tail := Maybe _).
  change (matches (Group (Then (number_regex f) tail)) b k)
    with (exists s1 s2 k1 k2, b = s1 ++ s2 /\ k = k1 ++ k2 /\ matches (number_regex f) s1 k1 /\ matches tail s2 k2).
  split.
  - intros (p & s2 & k1 & k2 & -> & -> & H1 & H2). apply number_matches in H1. apply tail_matches in H2. destruct H2 as [H2 ->]. rewrite app_nil_r.
    destruct H1 as [(O & -> & ->)|H1].
    + right. right. split; [exact O|]. split; [reflexivity|]. exact H2.
    + destruct H2 as [->|(ds & q & -> & D & T & U)]; [left; rewrite app_nil_r; eauto|]. right. left. exists p, ds, q. auto.
  - intros [(k' & H & ->)|[(p & ds & q & -> & H & D & T & U)|(O & -> & H)]].
    + exists b, [], k', []. rewrite !app_nil_r. split; [reflexivity|]. split; [reflexivity|]. split; [apply number_matches; auto|]. apply tail_matches. tauto.
    + exists p, (ds ++ q), k, []. rewrite app_nil_r. split; [reflexivity|]. split; [reflexivity|]. split; [apply number_matches; auto|]. apply tail_matches. split; [|reflexivity].
      right. exists ds, q. auto.
    + exists [], b, [], []. split; [reflexivity|]. split; [reflexivity|]. split; [apply number_matches; auto|]. apply tail_matches. auto.
Qed.
Lemma keywords_are k id : table (fuzz_keywords k) id <> None <-> In id (map fst (fuzz_keywords k)).
Proof.
  split; [apply in_table|]. intros H. destruct k; cbn in H; repeat destruct H as [<-|H]; try contradiction; discriminate.
Qed.
Lemma body_matches f b k : matches (infinity_regex f (keyword_regex f (main_regex f))) b k <-> body_match f b k.
Proof.
  assert (K : matches (keyword_regex f (main_regex f)) b k <-> (table (fuzz_keywords (f_keyword f)) b <> None /\ k = []) \/ matches (main_regex f) b k).
  { rewrite keywords_are. unfold keyword_regex. destruct (f_keyword f).
    - cbn. tauto.
    - rewrite m_or. cbn [fuzz_keywords map fst In]. change (matches (Text (%"tomorrow")) b k) with (b = %"tomorrow" /\ k = []). intuition congruence.
    - rewrite m_or, one_of_match by discriminate. reflexivity.
    - rewrite m_or, one_of_match by discriminate. reflexivity. }
  assert (B : matches (infinity_regex f (keyword_regex f (main_regex f))) b k <->
    (f_disable_infinity f = false /\ (str_eq_nocase b (%"inf") = true \/ str_eq_nocase b (%"infinity") = true) /\ k = []) \/
    (table (fuzz_keywords (f_keyword f)) b <> None /\ k = []) \/ matches (main_regex f) b k).
  { unfold infinity_regex. destruct (f_disable_infinity f).
    - rewrite K. split; [tauto|]. intros [[Q _]|Q]; [discriminate|exact Q].
    - rewrite !m_or, !letters_match by reflexivity. rewrite K. tauto. }
  rewrite B, main_matches. split.
  - intros [(H & V & ->)|[(H & ->)|[(k' & H & ->)|[(p & ds & q & -> & H & D & T & U)|(O & -> & [->|(ds & q & -> & D & T & U)])]]]].
    + now apply bm_infinity.
    + now apply bm_keyword.
    + now apply bm_number.
    + now apply bm_number_unit.
    + now apply bm_empty.
    + now apply bm_unit.
  - intros [v H V|id H|p k' H|p k' ds q H D T U|ds q O D T U|O].
    + tauto.
    + tauto.
    + right. right. left. eauto.
    + right. right. right. left. exists p, ds, q. auto.
    + right. right. right. right. split; [exact O|]. split; [reflexivity|]. right. exists ds, q. auto.
    + right. right. right. right. auto.
Qed.
Lemma fuzz_matches f s k : matches (fuzz_regex f) s k <->
  exists sg b k', s = sg ++ b /\ sign_match f sg /\ body_match f b k' /\ k = (%"sign", sg) :: k'.
Proof.
  change (matches (fuzz_regex f) s k) with (exists s1 s2 k1 k2, s = s1 ++ s2 /\ k = k1 ++ k2 /\ (exists k', k1 = (%"sign", s1) :: k' /\ matches (sign_regex f) s1 k') /\
    matches (infinity_regex f (keyword_regex f (main_regex f))) s2 k2).
  split.
  - intros (sg & b & k1 & k2 & -> & -> & (k' & -> & H1) & H2). apply sign_matches in H1. destruct H1 as [H1 ->]. apply body_matches in H2. exists sg, b, k2. auto.
  - intros (sg & b & k' & -> & H1 & H2 & ->). exists sg, b, [(%"sign", sg)], k'. split; [reflexivity|]. split; [reflexivity|].
    split; [exists []; split; [reflexivity|]; now apply sign_matches|now apply body_matches].
Qed.

(** ** The parser of the target *)
Notation unit_table := (custom_like (cu_with_time_units CUSTOM_DEFAULT_TIME_UNITS)).
Definition keyword_table (f : fuzzing) : option units_like :=
  match f_keyword f with NoKeywords => None | k => Some (custom_like (cu_with_time_units (fuzz_keyword_units k))) end.
Lemma target_env f : env_ok (fuzz_config f) unit_table (keyword_table f) None.
Proof. destruct (fuzz_env f) as [E1 E2 E3 E4 E5 E6]. constructor; auto. intros k Hk. unfold keyword_table in Hk. destruct (f_keyword f); try discriminate; now apply E5. Qed.
Lemma target_plain f : plain_env (fuzz_config f) unit_table (keyword_table f) None.
Proof. destruct (fuzz_plain f) as [E1 E2 E3 E4]. constructor; auto. intros k id Hk. unfold keyword_table in Hk. destruct (f_keyword f); try discriminate; now apply E3. Qed.
Lemma target_parse f s : cp_parse (fuzz_parser f) s = parse (fuzz_config f) s unit_table (keyword_table f) None.
Proof. apply fuzz_parse. Qed.

Definition written (f : fuzzing) (s : str) (d : duration) : Prop :=
  duration_text (fuzz_config f) (Units false (table fuzz_units)) (Some (Units false (table (fuzz_keywords (f_keyword f))))) None s d.
Notation allowed f := (f_allow_negative f || f_allow_ago f).
Lemma accepted f s d : utf8 s = true -> written f s d -> allowed f = true \/ is_negative d = false -> cp_parse (fuzz_parser f) s = Ok d.
Proof. intros Us H A. apply C84_fuzz_target; [exact Us|]. split; [exact H|]. rewrite orb_true_iff in A. tauto. Qed.
Lemma rejected f s e : utf8 s = true -> single_error (fuzz_config f) unit_table (keyword_table f) None s e -> cp_parse (fuzz_parser f) s = Err e.
Proof. intros Us H. rewrite target_parse. apply C51_single_errors; auto using target_env. Qed.
Lemma negative f s d : utf8 s = true -> written f s d -> allowed f = false -> is_negative d = true -> cp_parse (fuzz_parser f) s = Err NegativeNumber.
Proof.
  intros Us H A N. apply rejected; [exact Us|]. apply (s_negative _ _ _ _ _ d); [|exact A|exact N]. apply written_is_read; [apply target_plain|].
  revert H. apply ext_text.
  - intros id. cbn [u_get custom_like]. now rewrite fuzz_units_table.
  - intros k id e Hk E. injection Hk as <-. cbn [u_get] in E. unfold keyword_table.
    destruct (f_keyword f) eqn:K; [discriminate E| | |]; (eexists; split; [reflexivity|]; rewrite <- fuzz_keywords_table in E; exact E).
Qed.

Lemma table_unit id : table fuzz_units id <> None -> exists u, table fuzz_units id = Some (u, Mul 1 0).
Proof. intros H. apply in_table in H. cbn in H. repeat destruct H as [<-|H]; try contradiction; (eexists; reflexivity). Qed.
Lemma unit_written f q : unit_match f q -> exists u m, unit_part (fuzz_config f) (Units false (table fuzz_units)) q u m /\ (m = Mul 1 0 \/ f_allow_ago f = true).
Proof.
  intros (id & H & [->|(A & ds & a & -> & N & D & Ha)]); destruct (table_unit id H) as (u & E).
  - exists u, (Mul 1 0). split; [now constructor|now left].
  - exists u, (mul_saturating_neg (Mul 1 0)). split; [now constructor|now right].
Qed.
Lemma sign_written f sg : sign_match f sg -> exists n, sign_part (fuzz_config f) sg n /\ (n = true -> allowed f = true).
Proof.
  intros [->|(x & ds & -> & Hx & Hm & D & S)]; [exists false; split; [constructor|discriminate]|].
  unfold is_sign in Hx. apply orb_true_iff in Hx. destruct Hx as [Hx|Hx]; apply Z.eqb_eq in Hx; subst x.
  - exists false. split; [|discriminate]. apply (sp_sign (fuzz_config f) [43] false ds); [discriminate|apply st_plus|exact D|exact S].
  - exists true. split; [|intros _; now apply Hm]. apply (sp_sign (fuzz_config f) [45] true ds); [discriminate|apply st_minus|exact D|exact S].
Qed.
Lemma unit_coef u : 0 < coef (unit_length u).
Proof. destruct u; cbn; lia. Qed.
Lemma number_sign n W F x u : is_negative (number_value n W F x u (Mul 1 0)) = true -> n = true.
Proof.
  unfold number_value, number_result. cbn [coef expo]. rewrite Z.mul_1_r. pose proof (unit_coef u). destruct (_ || _); [discriminate|].
  cbn [is_negative neg]. destruct n; [auto|]. destruct (Z.ltb_spec (coef (unit_length u)) 0); [lia|discriminate].
Qed.
Lemma minus_number W F x u : is_negative (number_value true W F x u (Mul 1 0)) = false -> is_zero (number_value true W F x u (Mul 1 0)) = true.
Proof.
  unfold number_value, number_result. cbn [coef expo]. rewrite Z.mul_1_r. pose proof (unit_coef u). destruct (_ || _); [reflexivity|].
  cbn [is_negative neg]. destruct (Z.ltb_spec (coef (unit_length u)) 0); [lia|discriminate].
Qed.
Lemma unit_sign n u : is_negative (unit_value n u (Mul 1 0)) = n.
Proof. destruct u, n; reflexivity. Qed.

(** [h] starts the rest of the text *)
Lemma leading f s n l : signed (fuzz_config f) s n l -> starts_with_delimiter l ->
  single_error (fuzz_config f) unit_table (keyword_table f) None s (InvalidInput l).
Proof.
  intros S (x & r & -> & Hx).
  assert (P : ~ 48 <= x <= 57 /\ x <> 46 /\ x <> 43 /\ x <> 45 /\ ~ 65 <= x <= 90 /\ ~ 97 <= x <= 122) by (apply (pe_delimiter _ _ _ _ (target_plain f)); exact Hx).
  assert (U : forall w l1, until (c_inner_delimiter (fuzz_config f)) (x :: r) w l1 -> w = []).
  { intros w l1 (E & A & _). destruct w as [|y w]; [reflexivity|]. injection E as <- _. specialize (A x (or_introl eq_refl)). change (negb (fuzz_delimiter x) = true) in A.
    rewrite Hx in A. discriminate. }
  assert (T : u_get unit_table (x :: r) = None).
  { cbn [u_get custom_like]. rewrite fuzz_units_table. destruct (table fuzz_units (x :: r)) eqn:E; [|reflexivity]. assert (I : table fuzz_units (x :: r) <> None) by congruence.
    apply in_table in I. cbn in I. repeat destruct I as [I|I]; try contradiction; injection I as <- _; discriminate Hx. }
  apply (s_unknown _ _ _ _ _ n).
  - exact S.
  - split; [cbn; unfold is_digit; lia|]. split; [cbn; unfold is_dot; lia|]. intros _ (v & w & E & Hv). destruct w as [|y w]; [discriminate Hv|]. injection E as <- _.
    cbn in Hv. apply andb_true_iff in Hv. destruct Hv as [Hv _]. apply nocase_letter in Hv; lia.
  - intros u m (k & Ek & E). destruct (pe_keywords _ _ _ _ (target_plain f) k (x :: r) Ek ltac:(congruence)) as ([_ W] & _). specialize (W x (or_introl eq_refl)).
    change (fuzz_delimiter x = false) in W. congruence.
  - intros _. split.
    + intros L. inversion L; subst.
      * congruence.
      * congruence.
      * match goal with H : until _ _ _ _ |- _ => apply U in H end. contradiction.
    + intros (e & L). destruct L as [w l1 _ H N _ _|w l1 ds a r' _ H N _ _ _ _]; apply U in H; contradiction.
  - intros g w l1 Q. discriminate Q.
Qed.

(** an exponent beyond 16 bits *)
Lemma overflow f sg n W fr F x sg' n' ds rest : sign_part (fuzz_config f) sg n -> digit_string W -> fraction_text fr F -> W ++ F <> [] -> (fr <> [] -> f_disable_fraction f = false) ->
  is_e x = true -> sign_text sg' n' -> ds <> [] -> digit_string ds -> f_disable_exponent f = false -> starts_not is_digit rest ->
  ~ -32768 <= (if n' then - dval ds else dval ds) <= 32767 -> 0 <= dval ds ->
  single_error (fuzz_config f) unit_table (keyword_table f) None (sg ++ W ++ fr ++ (x :: sg' ++ ds) ++ rest) (if n' then NegativeExponentOverflow else PositiveExponentOverflow).
Proof.
  intros Hs HW HF N A Hx Hs' Nd Hd Ae Hr O P.
  assert (Dx : is_digit x = false /\ is_dot x = false) by (unfold is_e, is_digit, is_dot in *; lia).
  assert (Sp : span is_digit (W ++ fr ++ (x :: sg' ++ ds) ++ rest) W (fr ++ (x :: sg' ++ ds) ++ rest)).
  { apply SpellProofs.span_digits; [exact HW|]. destruct HF as [|F HF]; [exact (proj1 Dx)|reflexivity]. }
  apply (s_number _ _ _ _ _ n (W ++ fr ++ (x :: sg' ++ ds) ++ rest)).
  - apply sign_part_signed; [exact Hs| | |].
    + intros Q. apply app_eq_nil in Q. destruct Q as [-> Q]. apply app_eq_nil in Q. destruct Q as [_ Q]. discriminate.
    + destruct W as [|w W]; [destruct HF as [|F HF]; [contradiction|reflexivity]|]. cbn. specialize (HW w (or_introl eq_refl)). unfold is_sign. lia.
    + apply (number_start _ _ _ _ (target_plain f) W fr F); assumption.
  - apply (ne_exponent _ _ _ _ W (fr ++ (x :: sg' ++ ds) ++ rest) F ((x :: sg' ++ ds) ++ rest)); [exact Sp| |exact N|].
    + destruct HF as [|F HF].
      * apply no_fraction. exact (proj2 Dx).
      * change ((%"." ++ F) ++ (x :: sg' ++ ds) ++ rest) with (46 :: F ++ (x :: sg' ++ ds) ++ rest). apply some_fraction; [exact (A ltac:(discriminate))|].
        apply SpellProofs.span_digits; [exact HF|exact (proj1 Dx)].
    + assert (D : span is_digit (ds ++ rest) ds rest) by (now apply SpellProofs.span_digits).
      destruct Hs'; cbn [app].
      * apply (xe_positive (fuzz_config f) _ x [] (ds ++ rest) ds rest Hx Ae); [constructor|exact D|lia].
      * apply (xe_positive (fuzz_config f) _ x [43] (ds ++ rest) ds rest Hx Ae); [constructor|exact D|lia].
      * apply (xe_negative (fuzz_config f) _ x (ds ++ rest) ds rest Hx Ae D). lia.
Qed.
Lemma not_i16 sg n ds : sign_text sg n -> ds <> [] -> digit_string ds -> 0 <= dval ds -> ~ -32768 <= (if n then - dval ds else dval ds) <= 32767 -> i16_of (sg ++ ds) = None.
Proof.
  intros H N Hd P O. unfold i16_of.
  assert (E : match sg ++ ds with [] => 0 | x :: ds' => if x =? 45 then - dval ds' else if x =? 43 then dval ds' else dval (sg ++ ds) end = if n then - dval ds else dval ds).
  { destruct H; [|reflexivity|reflexivity]. destruct ds as [|x ds]; [contradiction|]. cbn [app]. specialize (Hd x (or_introl eq_refl)).
    destruct (Z.eqb_spec x 45); [lia|]. destruct (Z.eqb_spec x 43); [lia|reflexivity]. }
  cbv zeta. rewrite E. destruct (_ && _) eqn:B; [lia|reflexivity].
Qed.

(** The inputs for which the target panics although the parser is right: a sign, delimiters and `yesterday`, where delimiters are allowed
    after a sign, but neither negative durations nor `ago` *)
Definition false_alarm (f : fuzzing) (s : str) : Prop :=
  f_allow_negative f = false /\ f_allow_ago f = false /\ f_allow_sign_delimiter f = true /\ has_yesterday f /\
  exists x ds, s = x :: ds ++ %"yesterday" /\ is_sign x = true /\ ds <> [] /\ forall y, In y ds -> fuzz_delimiter y = true.

Lemma dval_pos ds : digit_string ds -> 0 <= dval ds.
Proof. apply dval_nonneg. Qed.
Lemma keyword_cases f id u m : table (fuzz_keywords (f_keyword f)) id = Some (u, m) ->
  id = %"tomorrow" /\ u = Day /\ m = Mul 1 0 \/ id = %"today" /\ u = Second /\ m = Mul 0 0 \/
  id = %"yesterday" /\ u = Day /\ m = Mul (-1) 0 /\ has_yesterday f.
Proof.
  intros E. pose proof (in_table _ _ ltac:(intros Q; rewrite Q in E; discriminate E)) as I. unfold has_yesterday.
  destruct (f_keyword f); cbn in I; repeat destruct I as [<-|I]; try contradiction; injection E as <- <-; tauto.
Qed.

(** a text which matches *)
Lemma matched f s k : utf8 s = true -> ~ false_alarm f s -> matches (fuzz_regex f) s k ->
  (exists d, cp_parse (fuzz_parser f) s = Ok d) \/ exists e, cp_parse (fuzz_parser f) s = Err e /\ error_expected f s k e.
Proof.
  intros Us NA M. apply fuzz_matches in M. destruct M as (sg & b & k' & -> & Hsg & Hb & ->). destruct (sign_written f sg Hsg) as (n & Hn & An).
  assert (Fin : forall d, written f (sg ++ b) d -> (is_negative d = true -> n = true \/ allowed f = true) ->
    (exists d, cp_parse (fuzz_parser f) (sg ++ b) = Ok d) \/ exists e, cp_parse (fuzz_parser f) (sg ++ b) = Err e /\ error_expected f (sg ++ b) ((%"sign", sg) :: k') e).
  { intros d Hd A. left. exists d. apply accepted; [exact Us|exact Hd|]. destruct (is_negative d); [|now right]. left. destruct (A eq_refl); [now apply An|assumption]. }
  assert (Num : forall p, number_match f p k' -> (exists W F x, number_part (fuzz_config f) p W F x) \/
    exists W fr F x sg' n' ds, p = W ++ fr ++ x :: sg' ++ ds /\ digit_string W /\ fraction_text fr F /\ W ++ F <> [] /\ (fr <> [] -> f_disable_fraction f = false) /\
      is_e x = true /\ sign_text sg' n' /\ ds <> [] /\ digit_string ds /\ f_disable_exponent f = false /\
      ~ -32768 <= (if n' then - dval ds else dval ds) <= 32767 /\ captured ((%"sign", sg) :: k') (%"exponent") = Some (sg' ++ ds)).
  { intros p (W & fr & F & ex & k0 & -> & HW & HF & N & A & [[-> ->]|(x & sg' & n' & ds & -> & Hx & Hs' & Nd & Hd & Ae & ->)] & ->).
    - left. exists W, F, 0. apply np; auto; [constructor|]. intros Q; now destruct Q.
    - destruct (Z_le_dec (-32768) (if n' then - dval ds else dval ds)) as [L1|L1], (Z_le_dec (if n' then - dval ds else dval ds) 32767) as [L2|L2].
      1: left; exists W, F, (if n' then - dval ds else dval ds); apply np; auto; apply (et_some x sg' n' ds); auto; unfold is_e in Hx; lia.
      all: right; exists W, fr, F, x, sg', n', ds; repeat (split; [first [reflexivity|assumption|lia]|]); reflexivity. }
  assert (Over : forall p rest, number_match f p k' -> b = p ++ rest -> starts_not is_digit rest -> (exists W F x, number_part (fuzz_config f) p W F x) \/
    exists e, cp_parse (fuzz_parser f) (sg ++ b) = Err e /\ error_expected f (sg ++ b) ((%"sign", sg) :: k') e).
  { intros p rest Hp -> Hr. destruct (Num p Hp) as [H|(W & fr & F & x & sg' & n' & ds & -> & HW & HF & N & A & Hx & Hs' & Nd & Hd & Ae & O & C)]; [now left|]. right.
    pose proof (dval_pos ds Hd) as P.
    exists (if n' then NegativeExponentOverflow else PositiveExponentOverflow). split.
    - apply rejected; [exact Us|].
      replace (sg ++ (W ++ fr ++ x :: sg' ++ ds) ++ rest) with (sg ++ W ++ fr ++ (x :: sg' ++ ds) ++ rest) by (now rewrite <- !app_assoc).
      now apply (overflow f sg n W fr F x sg' n' ds rest).
    - destruct n'; (exists (sg' ++ ds); split; [exact C|]; eapply not_i16; eauto). }
  destruct Hb as [v Hi Hv|id Hk|p k0 Hp|p k0 ds q Hp Hd Ht Hq|ds q Ho Hd Ht Hq|Ho].
  - apply (Fin (infinity_value n)); [now apply dt_infinity|]. destruct n; [auto|discriminate].
  - destruct (table (fuzz_keywords (f_keyword f)) id) as [[u m]|] eqn:E; [|contradiction].
    assert (T : written f (sg ++ id) (unit_value n u m)) by (eapply dt_keyword; [exact Hn|reflexivity|exact E]).
    destruct (keyword_cases f id u m E) as [(-> & -> & ->)|[(-> & -> & ->)|(-> & -> & -> & Y)]].
    + apply (Fin _ T). rewrite unit_sign. auto.
    + apply (Fin _ T). discriminate.
    + destruct (allowed f) eqn:A; [apply (Fin _ T); auto|]. destruct n; [discriminate (An eq_refl)|].
      right. exists NegativeNumber. split; [apply (negative f _ _ Us T A); reflexivity|]. apply orb_false_iff in A. destruct A as [A1 A2].
      split; [exact A1|]. split; [exact A2|]. split; [exact Y|].
      destruct Hsg as [->|(x & ds & -> & Hx & Hm & D & S)]; [now left|]. right.
      assert (x = 43) as ->.
      { unfold is_sign in Hx. destruct (Z.eq_dec x 45) as [->|]; [specialize (Hm eq_refl); rewrite A1, A2 in Hm; discriminate|lia]. }
      destruct ds as [|y ds]; [reflexivity|]. exfalso. apply NA. split; [exact A1|]. split; [exact A2|]. split; [exact (S ltac:(discriminate))|]. split; [exact Y|].
      exists 43, (y :: ds). split; [reflexivity|]. split; [reflexivity|]. split; [discriminate|exact D].
  - destruct (Over p [] Hp ltac:(now rewrite app_nil_r) I) as [(W & F & x & H)|H]; [|now right].
    apply (Fin (number_value n W F x Second (Mul 1 0))); [exact (dt_number (fuzz_config f) _ _ _ sg n p W F x Hn H)|]. intros Q. left. now apply number_sign in Q.
  - destruct (unit_written f q Hq) as (u & m & Hu & Hm).
    assert (R : starts_not is_digit (ds ++ q)).
    { destruct ds as [|y ds].
      - destruct Hq as (id & H & Hq). apply in_table in H. cbn in H.
        destruct Hq as [->|(_ & ds & a & -> & _)]; repeat destruct H as [<-|H]; try contradiction; reflexivity.
      - specialize (Hd y (or_introl eq_refl)). cbn. unfold fuzz_delimiter, is_digit in *. lia. }
    destruct (Over p (ds ++ q) Hp eq_refl R) as [(W & F & x & H)|H]; [|now right].
    apply (Fin (number_value n W F x u m)); [exact (dt_number_unit (fuzz_config f) _ _ _ sg n p W F x ds q u m Hn H Hd Ht Hu)|].
    destruct Hm as [->|Hm]; [intros Q; left; now apply number_sign in Q|]. intros _. right. rewrite Hm. apply orb_true_r.
  - destruct (unit_written f q Hq) as (u & m & Hu & Hm).
    assert (V : is_negative (unit_value n u m) = true -> n = true \/ allowed f = true).
    { destruct Hm as [->|Hm]; [rewrite unit_sign; auto|]. intros _. right. rewrite Hm. apply orb_true_r. }
    destruct ds as [|y ds].
    + apply (Fin (unit_value n u m)); [|exact V]. now apply dt_unit.
    + pose proof (Hd y (or_introl eq_refl)) as Hy.
      destruct Hsg as [->|(x & ds' & -> & Hx & Hm' & D & S)].
      * right. exists (InvalidInput ((y :: ds) ++ q)). assert (L : starts_with_delimiter ((y :: ds) ++ q)) by (exists y, (ds ++ q); auto). split; [|right; exact L].
        apply rejected; [exact Us|]. apply (leading f _ false); [|exact L]. apply unsigned; [|discriminate]. cbn. unfold fuzz_delimiter, is_sign in *. lia.
      * destruct (f_allow_sign_delimiter f) eqn:SD.
        -- left. exists (unit_value n u m). apply accepted; [exact Us| |].
           ++ replace ((x :: ds') ++ (y :: ds) ++ q) with ((x :: ds' ++ y :: ds) ++ q) by (cbn; now rewrite <- app_assoc). apply dt_unit; [|exact Ho|exact Hu].
              assert (D' : delimiters (fuzz_config f) (ds' ++ y :: ds)) by (intros z Hz; apply in_app_or in Hz; destruct Hz as [Hz|Hz]; [now apply D|now apply Hd]).
              assert (n = (x =? 45)) as ->.
              { clear - Hn. inversion Hn as [|sg0 n0 ds0 N0 Hs0 D0 A0 E0]; subst. destruct Hs0; [contradiction| |]; injection E0 as <- _; reflexivity. }
              unfold is_sign in Hx. apply orb_true_iff in Hx. destruct Hx as [Hx|Hx]; apply Z.eqb_eq in Hx; subst x.
              ** apply (sp_sign (fuzz_config f) [43] false (ds' ++ y :: ds)); [discriminate|apply st_plus|exact D'|intros _; exact SD].
              ** apply (sp_sign (fuzz_config f) [45] true (ds' ++ y :: ds)); [discriminate|apply st_minus|exact D'|intros _; exact SD].
           ++ destruct (is_negative (unit_value n u m)); [|now right]. left. destruct (V eq_refl); [now apply An|assumption].
        -- assert (ds' = []) as -> by (destruct ds' as [|z ds']; [reflexivity|discriminate (S ltac:(discriminate))]).
           right. exists (InvalidInput ((y :: ds) ++ q)). assert (L : starts_with_delimiter ((y :: ds) ++ q)) by (exists y, (ds ++ q); auto). split.
           ++ apply rejected; [exact Us|]. apply (leading f _ (x =? 45)); [|exact L]. apply with_sign; [exact Hx|exact SD|reflexivity|discriminate].
           ++ left. split; [exact SD|]. exists x, ((y :: ds) ++ q). auto.
  - right. rewrite app_nil_r in *. destruct Hsg as [->|(x & ds & -> & Hx & Hm & D & S)].
    + exists Empty. split; [|reflexivity]. apply rejected; [exact Us|]. now apply s_empty.
    + destruct ds as [|y ds].
      * eexists. split; [apply rejected; [exact Us|]; apply s_sign; apply se_end; exact Hx|]. unfold is_sign in Hx. apply orb_true_iff in Hx. cbn [error_expected].
        destruct Hx as [Hx|Hx]; apply Z.eqb_eq in Hx; subst x; [now left|right; now left].
      * eexists. split; [apply rejected; [exact Us|]; apply s_sign; apply se_delimiters; [exact Hx|exact (S ltac:(discriminate))|]; split; [discriminate|split; [exact D|reflexivity]]|].
        cbn [error_expected]. right. right. right. split; [exact (S ltac:(discriminate))|].
        destruct (exists_last (l := y :: ds) ltac:(discriminate)) as (r & z & E). exists (x :: r), z. split; [cbn; f_equal; exact E|]. apply D. rewrite E. apply in_or_app. right. now left.
Qed.

(** a text which is accepted *)
Lemma number_written f p W F x : number_part (fuzz_config f) p W F x -> exists k, number_match f p k.
Proof.
  intros [W' fr F' ex x' HW HF N Hx A Ae].
  assert (exists k, exponent_match f ex k) as (k & Hk).
  { destruct Hx as [|y sg n ds e Hy Hs Hd Nd He Hr]; [exists []; now left|]. exists [(%"exponent", sg ++ ds)]. right. exists y, sg, n, ds.
    split; [reflexivity|]. split; [unfold is_e; lia|]. repeat (split; [first [assumption|exact (Ae ltac:(discriminate))]|]). reflexivity. }
  exists ((%"base", W' ++ fr) :: k), W', fr, F', ex, k. repeat (split; [first [reflexivity|assumption]|]). reflexivity.
Qed.
Lemma unit_is_written f q u m : unit_part (fuzz_config f) (Units false (table fuzz_units)) q u m -> unit_match f q.
Proof.
  intros [id u' m' E|id u' m' ds a E Ha N Hd Hago]; exists id; cbn [u_get] in E; (split; [congruence|]); [now left|right].
  split; [exact Ha|]. exists ds, a. auto.
Qed.
Lemma sign_is_written f sg n : sign_part (fuzz_config f) sg n -> (n = true -> allowed f = true) -> sign_match f sg.
Proof.
  intros [|sg' n' ds N Hs Hd Ha] A; [now left|]. right. destruct Hs; [contradiction|exists 43, ds|exists 45, ds]; (split; [reflexivity|]; split; [reflexivity|]; split; [|auto]).
  - discriminate.
  - intros _. now apply A.
Qed.
Lemma plus_unit f u m q : unit_part (fuzz_config f) (Units false (table fuzz_units)) q u m -> f_allow_ago f = false -> m = Mul 1 0.
Proof.
  intros [id u' m' E|id u' m' ds a E Ha N Hd Hago] A.
  - cbn [u_get] in E. destruct (table_unit id ltac:(congruence)) as (v & E'). congruence.
  - change (f_allow_ago f = true) in Ha. congruence.
Qed.
Lemma taken f s d : utf8 s = true -> ~ false_alarm f s -> cp_parse (fuzz_parser f) s = Ok d ->
  (exists k, matches (fuzz_regex f) s k) \/ is_zero d = true /\ (exists r, s = 45 :: r) \/ has_yesterday f /\ s = %"-yesterday".
Proof.
  intros Us NA H. apply C84_fuzz_target in H; [|exact Us]. destruct H as [T A].
  assert (Fin : forall sg n b, sign_part (fuzz_config f) sg n -> (n = true -> allowed f = true) -> (exists k, body_match f b k) -> exists k, matches (fuzz_regex f) (sg ++ b) k).
  { intros sg n b H1 H2 (k & H3). exists ((%"sign", sg) :: k). apply fuzz_matches. exists sg, b, k. split; [reflexivity|]. split; [eapply sign_is_written; eauto|auto]. }
  assert (Min : forall sg b, sign_part (fuzz_config f) sg true -> exists ds, sg ++ b = 45 :: ds ++ b /\ (forall y, In y ds -> fuzz_delimiter y = true) /\ (ds <> [] -> f_allow_sign_delimiter f = true)).
  { intros sg b H1. inversion H1 as [|sg0 n0 ds N Hs Hd Ha E0]; subst. inversion Hs; subst. exists ds. auto. }
  assert (Case : forall n : bool, (n = true -> allowed f = true) \/ n = true /\ f_allow_negative f = false /\ f_allow_ago f = false /\ is_negative d = false).
  { intros [|]; [|left; discriminate]. destruct (f_allow_negative f), (f_allow_ago f); try (left; reflexivity). right. repeat split; auto. destruct A as [Q|[Q|Q]]; [discriminate|discriminate|exact Q]. }
  destruct T as [sg n p W F x Hs Hp|sg n p W F x ds q u m Hs Hp Hd Ht Hq|sg n v Hs Hi Hv|sg n k id u m Hs Ek E|sg n q u m Hs Ho Hq|sg n g id num ds q u m Hs Hg];
    [..|discriminate Hg]; (destruct (Case n) as [Hn|(-> & A1 & A2 & Hz)]; [|destruct (Min sg [] Hs) as (ds' & Esg & D' & S'); rewrite !app_nil_r in Esg]).
  - left. destruct (number_written _ _ _ _ _ Hp) as (k & Hk). apply (Fin sg n p Hs Hn). exists k. now apply bm_number.
  - right. left. split; [now apply minus_number|]. rewrite Esg. now eexists.
  - left. destruct (number_written _ _ _ _ _ Hp) as (k & Hk). apply (Fin sg n _ Hs Hn). exists k. apply bm_number_unit; auto. now apply unit_is_written in Hq.
  - right. left. rewrite (plus_unit f u m q Hq A2) in *. split; [now apply minus_number|]. rewrite Esg. now eexists.
  - left. apply (Fin sg n v Hs Hn). exists []. now apply bm_infinity.
  - discriminate Hz.
  - left. apply (Fin sg n id Hs Hn). exists []. apply bm_keyword. injection Ek as <-. cbn [u_get] in E. congruence.
  - injection Ek as <-. cbn [u_get] in E. destruct (keyword_cases f id u m E) as [(-> & -> & ->)|[(-> & -> & ->)|(-> & -> & -> & Y)]].
    + discriminate Hz.
    + right. left. split; [reflexivity|]. rewrite Esg. now eexists.
    + right. right. split; [exact Y|]. rewrite Esg. destruct ds' as [|y ds']; [reflexivity|]. exfalso. apply NA. split; [exact A1|]. split; [exact A2|].
      split; [exact (S' ltac:(discriminate))|]. split; [exact Y|]. exists 45, (y :: ds'). rewrite Esg. split; [reflexivity|]. split; [reflexivity|]. split; [discriminate|exact D'].
  - left. apply (Fin sg n q Hs Hn). exists []. apply (bm_unit f [] q); [exact Ho|intros y []|intros Q; now destruct Q|]. now apply unit_is_written in Hq.
  - rewrite (plus_unit f u m q Hq A2), unit_sign in Hz. discriminate.
Qed.

Lemma body_start f b k : body_match f b k -> forall x r, b = x :: r -> x <> 45.
Proof.
  assert (Un : forall q, unit_match f q -> forall x r, q = x :: r -> x <> 45).
  { intros q (id & H & Hq) x r E ->. apply in_table in H. cbn in H.
    destruct Hq as [->|(_ & ds & a & -> & _)]; repeat destruct H as [<-|H]; try contradiction; discriminate E. }
  assert (Dl : forall ds q, (forall x, In x ds -> fuzz_delimiter x = true) -> unit_match f q -> forall x r, ds ++ q = x :: r -> x <> 45).
  { intros [|y ds] q Hd Hq x r E; [now apply (Un q Hq x r)|]. injection E as <- _. intros ->. discriminate (Hd 45 (or_introl eq_refl)). }
  assert (Nu : forall p k t, number_match f p k -> forall x r, p ++ t = x :: r -> x <> 45).
  { intros p k0 t (W & fr & F & ex & k' & -> & HW & HF & N & _) x r E ->. destruct W as [|w W].
    - destruct HF as [|F HF]; [contradiction|]. discriminate E.
    - injection E as -> _. specialize (HW 45 (or_introl eq_refl)). lia. }
  intros [v Hi Hv|id Hk|p k0 Hp|p k0 ds q Hp Hd Ht Hq|ds q Ho Hd Ht Hq|Ho] x r E.
  - intros ->. subst v. destruct Hv as [Hv|Hv]; discriminate Hv.
  - intros ->. subst id. apply in_table in Hk. destruct (f_keyword f); cbn in Hk; repeat destruct Hk as [Hk|Hk]; try contradiction; discriminate Hk.
  - apply (Nu p k0 [] Hp x r). now rewrite app_nil_r.
  - now apply (Nu p k0 (ds ++ q) Hp x r).
  - now apply (Dl ds q Hd Hq x r).
  - discriminate E.
Qed.

(** C103: the check of the target succeeds for every input, with the exception of those for which the check itself is wrong *)
Theorem C103_fuzz_target : forall f s, utf8 s = true -> target_passes f s <-> ~ false_alarm f s.
Proof.
  intros f s Us. split.
  - intros H (A1 & A2 & SD & Y & x & ds & -> & Hx & N & D).
    assert (Al : allowed f = false) by (now rewrite A1, A2).
    assert (E : table (fuzz_keywords (f_keyword f)) (%"yesterday") = Some (Day, Mul (-1) 0)) by (destruct Y as [-> | ->]; reflexivity).
    assert (T : forall n, sign_part (fuzz_config f) (x :: ds) n -> written f (x :: ds ++ %"yesterday") (unit_value n Day (Mul (-1) 0))).
    { intros n Hn. change (x :: ds ++ %"yesterday") with ((x :: ds) ++ %"yesterday"). eapply dt_keyword; [exact Hn|reflexivity|exact E]. }
    unfold is_sign in Hx. apply orb_true_iff in Hx. destruct Hx as [Hx|Hx]; apply Z.eqb_eq in Hx; subst x.
    + assert (Hn : sign_part (fuzz_config f) (43 :: ds) false) by (apply (sp_sign (fuzz_config f) [43] false ds); [discriminate|apply st_plus|exact D|intros _; exact SD]).
      unfold target_passes in H. rewrite (negative f _ _ Us (T false Hn) Al eq_refl) in H.
      destruct (H [(%"sign", 43 :: ds)]) as (_ & _ & _ & [Q|Q]).
      * apply fuzz_matches. exists (43 :: ds), (%"yesterday"), []. split; [reflexivity|]. split; [|split; [|reflexivity]].
        -- apply (sign_is_written f _ false Hn). discriminate.
        -- apply bm_keyword. congruence.
      * discriminate Q.
      * apply (f_equal (@length Z)) in Q. cbn in Q. rewrite app_length in Q. destruct ds; [contradiction|cbn in Q; lia].
    + assert (Hn : sign_part (fuzz_config f) (45 :: ds) true) by (apply (sp_sign (fuzz_config f) [45] true ds); [discriminate|apply st_minus|exact D|intros _; exact SD]).
      unfold target_passes in H. rewrite (accepted f _ _ Us (T true Hn) (or_intror eq_refl)) in H. destruct H as [(k & M)|[(Z & _)|(_ & Q)]].
      * apply fuzz_matches in M. destruct M as (sg & b & k' & E1 & Hsg & Hb & _). destruct Hsg as [->|(x & ds' & -> & _ & Hm & _)].
        -- exact (body_start f b k' Hb 45 _ (eq_sym E1) eq_refl).
        -- injection E1 as <- _. specialize (Hm eq_refl). congruence.
      * discriminate Z.
      * apply (f_equal (@length Z)) in Q. cbn in Q. rewrite app_length in Q. destruct ds; [contradiction|cbn in Q; lia].
  - intros NA. unfold target_passes. destruct (C20_never_crashes _ _ _ _ s (target_env f) Us) as [(d & E & _)|(e & E)]; rewrite <- target_parse in E; rewrite E.
    + now apply taken.
    + intros k M. destruct (matched f s k Us NA M) as [(d & E')|(e' & E' & X)]; rewrite E in E'; [discriminate|]. injection E' as <-. exact X.
Qed.
Print Assumptions C103_fuzz_target.

(** with everything allowed the check has no exception; `-  1e99999 ms ago` matches and is rejected with the overflow the target expects *)
Definition open_target : fuzzing := Fuzzing true true false false false true true PositiveNegativeZero true.
Example C103_fuzz_target_example : (forall s, utf8 s = true -> target_passes open_target s) /\
  cp_parse (fuzz_parser open_target) (%"-  1e99999 ms ago") = Err PositiveExponentOverflow.
Proof. split; [intros s Us; apply C103_fuzz_target; [exact Us|]; intros (Q & _); discriminate Q|reflexivity]. Qed.

(** `+ yesterday` and `- yesterday`: the target panics, but both results are right. (A keyword is negated by the sign; delimiters after the
    sign are allowed) *)
Definition strict_target : fuzzing := Fuzzing false false false false false false false PositiveNegative true.
Theorem C103_false_alarm_refuted :
  ~ target_passes strict_target (%"+ yesterday") /\ cp_parse (fuzz_parser strict_target) (%"+ yesterday") = Err NegativeNumber /\
  ~ target_passes strict_target (%"- yesterday") /\ cp_parse (fuzz_parser strict_target) (%"- yesterday") = Ok (Dur false (Std 86400 0)).
Proof.
  assert (F : forall x, is_sign x = true -> false_alarm strict_target (x :: %" yesterday")).
  { intros x Hx. split; [reflexivity|]. split; [reflexivity|]. split; [reflexivity|]. split; [now left|]. exists x, (%" "). split; [reflexivity|]. split; [exact Hx|].
    split; [discriminate|]. intros y [<-|[]]. reflexivity. }
  split; [intros H; apply C103_fuzz_target in H; [apply H; exact (F 43 eq_refl)|reflexivity]|]. split; [reflexivity|].
  split; [intros H; apply C103_fuzz_target in H; [apply H; exact (F 45 eq_refl)|reflexivity]|]. reflexivity.
Qed.
Print Assumptions C103_false_alarm_refuted.
