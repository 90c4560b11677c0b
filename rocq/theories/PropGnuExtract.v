(** * Property C106: the value which the fuzz target for relative times expects, for every input *)
From Verif Require Import Prelude Util Time Config Bytes Repr Parse SpecTime SpecNum SpecGrammar SpecSystemd NumProofs TimeProofs
  Utf8Proofs SystemdProofs SpellProofs SpecGnu Gnu GnuWords GnuGrammar PropGnu PropGnuOrder SpecGnuErrors PropGnuErrors
  PropTexts SpecRegex SpecFuzz PropFuzz SpecGnuTexts PropGnuTexts PropExamplesMore SpecGnuFuzz SpecGnuExtract PropGnuFuzz.

Theorem C106_source : source extraction = extraction_source.
Proof. vm_compute. reflexivity. Qed.
Print Assumptions C106_source.

(** ** the first match is a match *)
Lemma first_sound r : forall A s (go : list (str * str) -> str -> option A) x, first_match r s go = Some x ->
  exists m s' k, s = m ++ s' /\ matches r m k /\ go k s' = Some x.
Proof.
  induction r as [|t p|w|a IHa b IHb|a IHa b IHb|r IH|r IH|r IH|r IH|r IH|n r IH]; intros A s go x H.
  - exists [], s, []. cbn. auto.
  - cbn in H. destruct s as [|y s]; [discriminate|]. destruct (p y) eqn:E; [|discriminate]. exists [y], s, []. split; [reflexivity|]. split; [|exact H]. split; [eauto|reflexivity].
  - cbn in H. destruct (str_eqb (firstn (length w) s) w) eqn:E; [|discriminate]. apply str_eqb_eq in E.
    exists w, (skipn (length w) s), []. split; [rewrite <- E at 1; symmetry; apply firstn_skipn|]. split; [split; reflexivity|exact H].
  - cbn in H. destruct (IHa _ _ _ _ H) as (m1 & s1 & k1 & -> & M1 & H1). destruct (IHb _ _ _ _ H1) as (m2 & s2 & k2 & -> & M2 & H2).
    exists (m1 ++ m2), s2, (k1 ++ k2). split; [now rewrite app_assoc|]. split; [|exact H2]. exists m1, m2, k1, k2. auto.
  - cbn in H. destruct (first_match a s go) as [y|] eqn:E.
    + injection H as <-. destruct (IHa _ _ _ _ E) as (m & s' & k & -> & M & G). exists m, s', k. split; [reflexivity|]. split; [now left|exact G].
    + destruct (IHb _ _ _ _ H) as (m & s' & k & -> & M & G). exists m, s', k. split; [reflexivity|]. split; [now right|exact G].
  - cbn in H. destruct (first_match r s go) as [y|] eqn:E.
    + injection H as <-. destruct (IH _ _ _ _ E) as (m & s' & k & -> & M & G). exists m, s', k. split; [reflexivity|]. split; [now right|exact G].
    + exists [], s, []. split; [reflexivity|]. split; [now left|exact H].
  - cbn [first_match] in H. revert H. change (@nil (str * str)) with (@nil (str * str) ++ []) at 1.
    assert (G : forall n k s, (fix star (n : nat) (k : list (str * str)) (s : str) : option A :=
         match n with
         | O => go k s
         | S n =>
             match first_match r s (fun k' s' => if (length s' <? length s)%nat then star n (k ++ k') s' else None) with
             | Some x => Some x
             | None => go k s
             end
         end) n k s = Some x -> exists m s' k', s = m ++ s' /\ repeated (matches r) m k' /\ go (k ++ k') s' = Some x).
    { intros n. induction n as [|n IHn]; intros k s0 H.
      - exists [], s0, []. rewrite app_nil_r. split; [reflexivity|]. split; [constructor|exact H].
      - match type of H with match ?e with _ => _ end = _ => destruct e as [y|] eqn:E end.
        + injection H as <-. destruct (IH _ _ _ _ E) as (m & s1 & k1 & -> & M & H1).
          destruct (length s1 <? length (m ++ s1))%nat; [|discriminate]. destruct (IHn _ _ H1) as (m2 & s2 & k2 & -> & M2 & H2).
          exists (m ++ m2), s2, (k1 ++ k2). split; [now rewrite app_assoc|]. split; [now constructor|]. now rewrite app_assoc.
        + exists [], s0, []. rewrite app_nil_r. split; [reflexivity|]. split; [constructor|exact H]. }
    intros H. destruct (G _ _ _ H) as (m & s' & k & -> & M & Q). exists m, s', k. auto.
  - cbn [first_match] in H. revert H. change (@nil (str * str)) with (@nil (str * str) ++ []) at 1.
    assert (G : forall n k s, (fix star (n : nat) (k : list (str * str)) (s : str) : option A :=
         match go k s with
         | Some x => Some x
         | None =>
             match n with
             | O => None
             | S n => first_match r s (fun k' s' => if (length s' <? length s)%nat then star n (k ++ k') s' else None)
             end
         end) n k s = Some x -> exists m s' k', s = m ++ s' /\ repeated (matches r) m k' /\ go (k ++ k') s' = Some x).
    { intros n. induction n as [|n IHn]; intros k s0 H; (destruct (go k s0) as [y|] eqn:E0;
        [exists [], s0, []; rewrite app_nil_r, E0; split; [reflexivity|]; split; [constructor|exact H]|]); [discriminate|].
      destruct (IH _ _ _ _ H) as (m & s1 & k1 & -> & M & H1).
      destruct (length s1 <? length (m ++ s1))%nat; [|discriminate]. destruct (IHn _ _ H1) as (m2 & s2 & k2 & -> & M2 & H2).
      exists (m ++ m2), s2, (k1 ++ k2). split; [now rewrite app_assoc|]. split; [now constructor|]. now rewrite app_assoc. }
    intros H. destruct (G _ _ _ H) as (m & s' & k & -> & M & Q). exists m, s', k. auto.
  - cbn [first_match] in H.
    assert (G : forall n k s, (fix star (n : nat) (k : list (str * str)) (s : str) : option A :=
         match n with
         | O => go k s
         | S n =>
             match first_match r s (fun k' s' => if (length s' <? length s)%nat then star n (k ++ k') s' else None) with
             | Some x => Some x
             | None => go k s
             end
         end) n k s = Some x -> exists m s' k', s = m ++ s' /\ repeated (matches r) m k' /\ go (k ++ k') s' = Some x).
    { intros n. induction n as [|n IHn]; intros k s0 H0.
      - exists [], s0, []. rewrite app_nil_r. split; [reflexivity|]. split; [constructor|exact H0].
      - match type of H0 with match ?e with _ => _ end = _ => destruct e as [y|] eqn:E end.
        + injection H0 as <-. destruct (IH _ _ _ _ E) as (m & s1 & k1 & -> & M & H1).
          destruct (length s1 <? length (m ++ s1))%nat; [|discriminate]. destruct (IHn _ _ H1) as (m2 & s2 & k2 & -> & M2 & H2).
          exists (m ++ m2), s2, (k1 ++ k2). split; [now rewrite app_assoc|]. split; [now constructor|]. now rewrite app_assoc.
        + exists [], s0, []. rewrite app_nil_r. split; [reflexivity|]. split; [constructor|exact H0]. }
    destruct (IH _ _ _ _ H) as (m1 & s1 & k1 & -> & M1 & H1). destruct (G _ _ _ H1) as (m2 & s2 & k2 & -> & M2 & H2).
    exists (m1 ++ m2), s2, (k1 ++ k2). split; [now rewrite app_assoc|]. split; [|exact H2]. exists m1, m2, k1, k2. auto.
  - exact (IH _ _ _ _ H).
  - cbn in H. destruct (IH _ _ _ _ H) as (m & s' & k & -> & M & G). exists m, s', ((n, m) :: k). split; [reflexivity|].
    assert (E : firstn (length (m ++ s') - length s') (m ++ s') = m).
    { rewrite app_length, Nat.add_sub. now rewrite firstn_app, Nat.sub_diag, firstn_O, app_nil_r, firstn_all. }
    rewrite E in G. split; [exists k; auto|exact G].
Qed.

(** ** what is matched first *)
Definition takes (r : regex) (s : str) (k : list (str * str)) (s' : str) : Prop :=
  forall A (go : list (str * str) -> str -> option A) x, go k s' = Some x -> first_match (caseless r) s go = Some x.
Definition fails (r : regex) (s : str) : Prop := forall A (go : list (str * str) -> str -> option A), first_match (caseless r) s go = None.

Lemma fails_by r P s : captures_nothing r P -> (forall m s', s = m ++ s' -> ~ P m) -> fails r s.
Proof.
  intros C N A go. destruct (first_match (caseless r) s go) as [x|] eqn:E; [|reflexivity]. exfalso.
  destruct (first_sound _ _ _ _ _ E) as (m & s' & k & Es & M & _). apply C in M. exact (N m s' Es (proj1 M)).
Qed.
Lemma t_group r s k s' : takes r s k s' -> takes (Group r) s k s'.
Proof. intros H A go x G. exact (H A go x G). Qed.
Lemma t_then a b s k1 s1 k2 s2 : takes a s k1 s1 -> takes b s1 k2 s2 -> takes (Then a b) s (k1 ++ k2) s2.
Proof. intros Ha Hb A go x G. cbn. apply Ha. apply Hb. exact G. Qed.
Lemma t_or_l a b s k s' : takes a s k s' -> takes (Or a b) s k s'.
Proof. intros H A go x G. cbn. now rewrite (H A go x G). Qed.
Lemma t_or_r a b s k s' : fails a s -> takes b s k s' -> takes (Or a b) s k s'.
Proof. intros F H A go x G. cbn. rewrite (F A go). now apply H. Qed.
Lemma t_maybe r s k s' : takes r s k s' -> takes (Maybe r) s k s'.
Proof. intros H A go x G. cbn. now rewrite (H A go x G). Qed.
Lemma t_maybe_not r s : fails r s -> takes (Maybe r) s [] s.
Proof. intros F A go x G. cbn. now rewrite (F A go). Qed.
Lemma t_named n r m s' k : takes r (m ++ s') k s' -> takes (Named n r) (m ++ s') ((n, m) :: k) s'.
Proof.
  intros H A go x G. cbn. apply H. replace (firstn (length (m ++ s') - length s') (m ++ s')) with m; [exact G|].
  rewrite app_length, Nat.add_sub. now rewrite firstn_app, Nat.sub_diag, firstn_O, app_nil_r, firstn_all.
Qed.
Lemma f_group r s : fails r s -> fails (Group r) s.
Proof. intros H A go. exact (H A go). Qed.
Lemma f_named n r s : fails r s -> fails (Named n r) s.
Proof. intros H A go. cbn. apply H. Qed.
Lemma f_or a b s : fails a s -> fails b s -> fails (Or a b) s.
Proof. intros Ha Hb A go. cbn. rewrite (Ha A go). apply Hb. Qed.
Lemma f_then a b s : fails a s -> fails (Then a b) s.
Proof. intros H A go. cbn. apply H. Qed.

Section Classes.
Context (t : str) (p : byte -> bool) (q : Z -> Prop) (Hq : forall x, p x || p (other_case x) = true <-> q x).
Lemma t_class y s : q y -> takes (Class t p) (y :: s) [] s.
Proof. intros H A go x G. cbn. apply Hq in H. now rewrite H. Qed.
Lemma q_false y : ~ q y -> p y || p (other_case y) = false.
Proof. intros H. apply not_true_is_false. intros E. apply H, Hq, E. Qed.
Lemma t_many ds s : (forall x, In x ds -> q x) -> (forall x r, s = x :: r -> ~ q x) -> takes (Many (Class t p)) (ds ++ s) [] s.
Proof.
  intros D N A go x G. cbn [caseless first_match].
  assert (K : forall n, (length (ds ++ s) <= n)%nat ->
    (fix star (n : nat) (k : list (str * str)) (s : str) : option A :=
         match n with
         | O => go k s
         | S n =>
             match (match s with x :: s' => if p x || p (other_case x) then if (length s' <? length s)%nat then star n (k ++ []) s' else None else None | [] => None end) with
             | Some x => Some x
             | None => go k s
             end
         end) n [] (ds ++ s) = Some x); [|exact (K _ (le_n _))].
  induction ds as [|d ds IH]; intros n Hn.
  - cbn [app]. destruct n as [|n]; [exact G|]. destruct s as [|y s]; [exact G|]. rewrite (q_false y (N y s eq_refl)). exact G.
  - destruct n as [|n]; [cbn in Hn; lia|]. cbn [app] in *. rewrite (proj2 (Hq d) (D d (or_introl eq_refl))).
    replace (length (ds ++ s) <? length (d :: ds ++ s))%nat with true by (symmetry; apply Nat.ltb_lt; cbn; lia).
    rewrite IH; [reflexivity|intros y Hy; apply D; now right|cbn in Hn; lia].
Qed.
Lemma t_some ds s : ds <> [] -> (forall x, In x ds -> q x) -> (forall x r, s = x :: r -> ~ q x) -> takes (Some_ (Class t p)) (ds ++ s) [] s.
Proof.
  intros N0 D N A go x G. destruct ds as [|d ds]; [contradiction|].
  change (first_match (caseless (Then (Class t p) (Many (Class t p)))) ((d :: ds) ++ s) go = Some x).
  pose proof (t_then (Class t p) (Many (Class t p)) ((d :: ds) ++ s) [] (ds ++ s) [] s) as T. apply T; [apply t_class, D; now left| |exact G].
  apply t_many; [intros y Hy; apply D; now right|exact N].
Qed.
End Classes.

(** ** words *)
Lemma fails_if r s : (forall m s' k, s = m ++ s' -> ~ matches (caseless r) m k) -> fails r s.
Proof.
  intros N A go. destruct (first_match (caseless r) s go) as [x|] eqn:E; [|reflexivity]. exfalso.
  destruct (first_sound _ _ _ _ _ E) as (m & s' & k & Es & M & _). exact (N m s' k Es M).
Qed.
Definition no_letter (l : str) : Prop := forall x r, l = x :: r -> ~ (97 <= x <= 122 \/ 65 <= x <= 90).
Lemma small_lower x : 97 <= x <= 122 -> to_lower x = x.
Proof. intros H. unfold to_lower. destruct ((65 <=? x) && (x <=? 90)) eqn:E; lia. Qed.
Lemma word_prefix v' : forall m v w rest s', small v' = true -> small v = true -> str_eq_nocase m v' = true -> str_eq_nocase w v = true ->
  w ++ rest = m ++ s' -> no_letter rest -> str_eqb (firstn (length v') v) v' = true.
Proof.
  unfold small. induction v' as [|y v' IH]; intros m v w rest s' Sv' Sv Hm Hw E N; [reflexivity|].
  destruct m as [|x m]; [discriminate|]. cbn [str_eq_nocase] in Hm. apply andb_true_iff in Hm. destruct Hm as [Hx Hm].
  cbn [forallb] in Sv'. apply andb_true_iff in Sv'. destruct Sv' as [Sy Sv']. assert (Hy : 97 <= y <= 122) by lia.
  destruct v as [|z v].
  - destruct w; [|discriminate]. cbn [app] in E. exfalso. apply (N x (m ++ s') E). destruct (nocase_letter x y Hy Hx); lia.
  - destruct w as [|x' w]; [discriminate|]. cbn [str_eq_nocase] in Hw. apply andb_true_iff in Hw. destruct Hw as [Hz Hw].
    cbn [forallb] in Sv. apply andb_true_iff in Sv. destruct Sv as [Sz Sv]. cbn [app] in E. injection E as -> E.
    assert (z = y) as -> by (unfold eq_nocase in Hx, Hz; rewrite (small_lower y) in Hx by lia; rewrite (small_lower z) in Hz by lia; lia).
    cbn [length firstn str_eqb]. rewrite Z.eqb_refl. cbn [andb]. exact (IH m v w rest s' Sv' Sv Hm Hw E N).
Qed.
Definition apart (v' v : str) : bool := negb (str_eqb (firstn (length v') v) v').
Lemma f_text v' v w rest : small v' = true -> small v = true -> str_eq_nocase w v = true -> no_letter rest -> apart v' v = true -> fails (Text v') (w ++ rest).
Proof.
  intros Sv' Sv Hw N A. apply fails_if. intros m s' k E M. cbn [caseless] in M. apply letters_match in M; [|exact Sv']. destruct M as [M _].
  unfold apart in A. now rewrite (word_prefix v' m v w rest s' Sv' Sv M Hw E N) in A.
Qed.
Lemma t_text v : small v = true -> forall w rest, str_eq_nocase w v = true -> takes (Text v) (w ++ rest) [] rest.
Proof.
  unfold small. induction v as [|y v IH]; intros S w rest H A go x G.
  - destruct w; [exact G|discriminate].
  - destruct w as [|c w]; [discriminate|]. cbn [str_eq_nocase] in H. apply andb_true_iff in H. destruct H as [Hc H].
    cbn [forallb] in S. apply andb_true_iff in S. destruct S as [Sy S].
    assert (L : (c =? y) || (c =? y - 32) = true) by (apply letter_nocase_iff; [lia|exact Hc]).
    cbn [caseless app]. destruct v as [|z v].
    + destruct w; [|discriminate]. cbn. now rewrite L.
    + change (first_match (Then (letter y) (SpecFuzz.letters (z :: v))) (c :: w ++ rest) go = Some x). cbn [first_match letter]. rewrite L.
      exact (IH S w rest H A go x G).
Qed.
Lemma f_words ws v w rest : ws <> [] -> forallb small ws = true -> small v = true -> str_eq_nocase w v = true -> no_letter rest ->
  forallb (fun v' => apart v' v) ws = true -> fails (words ws) (w ++ rest).
Proof.
  intros N0 S Sv Hw N A. apply f_group. induction ws as [|v' ws IH]; [contradiction|]. cbn [forallb] in S, A. apply andb_true_iff in S, A.
  destruct S as [S1 S], A as [A1 A]. destruct ws as [|v2 ws]; [now apply (f_text v' v)|].
  change (fails (Or (Text v') (one_of (v2 :: ws))) (w ++ rest)). apply f_or; [now apply (f_text v' v)|]. apply IH; [discriminate|assumption|assumption].
Qed.
Fixpoint in_order (ws : list str) : bool := match ws with [] => true | v' :: ws => forallb (apart v') ws && in_order ws end.
Lemma t_words ws v w rest : forallb small ws = true -> in_order ws = true -> In v ws -> str_eq_nocase w v = true -> no_letter rest ->
  takes (words ws) (w ++ rest) [] rest.
Proof.
  intros S O I Hw N. apply t_group. induction ws as [|v' ws IH]; [destruct I|]. cbn [forallb in_order] in S, O. apply andb_true_iff in S, O.
  destruct S as [S1 S], O as [O1 O]. destruct ws as [|v2 ws]; [destruct I as [->|[]]; now apply t_text|].
  change (takes (Or (Text v') (one_of (v2 :: ws))) (w ++ rest) [] rest). destruct I as [->|I]; [now apply t_or_l, t_text|]. apply t_or_r; [|now apply IH].
  rewrite forallb_forall in O1, S. apply (f_text v' v); auto.
Qed.
Lemma f_no_letter ws s : ws <> [] -> forallb small ws = true -> forallb (fun v => negb (is_empty v)) ws = true -> no_letter s -> fails (words ws) s.
Proof.
  intros N0 S E N. apply (f_words ws [] [] s); try assumption; try reflexivity.
  rewrite forallb_forall in *. intros v I. specialize (E v I). destruct v; [discriminate|reflexivity].
Qed.
Lemma word_in {A} (t : list (A * list str)) l w a : forallb (fun v => existsb (str_eqb v) l) (List.concat (map snd t)) = true -> word_for t w a ->
  exists v, In v l /\ str_eq_nocase w v = true.
Proof.
  intros H (ws & v & I & Iv & E). exists v. split; [|exact E]. apply (listed _ _ H), in_concat. exists ws. split; [|exact Iv]. apply in_map_iff. now exists (a, ws).
Qed.
Lemma t_unit w g rest : word_for gnu_units w g -> no_letter rest -> takes (words unit_words) (w ++ rest) [] rest.
Proof. intros H N. destruct (word_in gnu_units unit_words w g eq_refl H) as (v & I & E). now apply (t_words _ v). Qed.
Lemma t_numeral w k rest : word_for gnu_numerals w k -> no_letter rest -> takes (words numeral_words) (w ++ rest) [] rest.
Proof. intros H N. destruct (word_in gnu_numerals numeral_words w k eq_refl H) as (v & I & E). now apply (t_words _ v). Qed.
Lemma t_keyword w k rest : word_for gnu_keywords w k -> no_letter rest -> takes (words keyword_words) (w ++ rest) [] rest.
Proof. intros H N. destruct (word_in gnu_keywords keyword_words w k eq_refl H) as (v & I & E). now apply (t_words _ v). Qed.
Lemma f_other ws l w rest : (exists v, In v l /\ str_eq_nocase w v = true) -> no_letter rest -> ws <> [] -> forallb small ws = true -> forallb small l = true ->
  forallb (fun v => forallb (fun v' => apart v' v) ws) l = true -> fails (words ws) (w ++ rest).
Proof. intros (v & I & E) N N0 S Sl A. rewrite forallb_forall in A, Sl. apply (f_words ws v); auto. Qed.
Lemma unit_other w g rest : word_for gnu_units w g -> no_letter rest -> fails (words keyword_words) (w ++ rest) /\ fails (words numeral_words) (w ++ rest).
Proof. intros H N. split; (apply (f_other _ unit_words); [exact (word_in gnu_units unit_words _ _ eq_refl H)|exact N|discriminate|reflexivity..]). Qed.
Lemma numeral_other w k rest : word_for gnu_numerals w k -> no_letter rest -> fails (words keyword_words) (w ++ rest) /\ fails (words unit_words) (w ++ rest).
Proof. intros H N. split; (apply (f_other _ numeral_words); [exact (word_in gnu_numerals numeral_words _ _ eq_refl H)|exact N|discriminate|reflexivity..]). Qed.
Lemma keyword_other w k rest : word_for gnu_keywords w k -> no_letter rest -> fails (words unit_words) (w ++ rest).
Proof. intros H N. apply (f_other _ keyword_words); [exact (word_in gnu_keywords keyword_words _ _ eq_refl H)|exact N|discriminate|reflexivity..]. Qed.
Lemma no_words s : no_letter s -> fails (words keyword_words) s /\ fails (words numeral_words) s /\ fails (words unit_words) s.
Proof. intros N. repeat apply conj; (apply f_no_letter; [discriminate|reflexivity|reflexivity|exact N]). Qed.

(** ** the values *)
Lemma fract_loop_step n : forall G k, digit_string G -> Z.of_nat (length G) <= k -> fract_loop n (10 ^ k / 10) G = n + dval G * 10 ^ (k - Z.of_nat (length G)).
Proof.
  intros G. revert n. induction G as [|x G IH]; intros n k D L; cbn [fract_loop length] in *; [unfold dval; cbn; lia|].
  assert (E : 10 ^ k = 10 * 10 ^ (k - 1)) by (rewrite <- Z.pow_succ_r by lia; f_equal; lia).
  replace (10 ^ k / 10) with (10 ^ (k - 1)) by (rewrite E, Z.mul_comm, Z.div_mul; lia).
  rewrite IH; [|intros y Hy; apply D; now right|lia]. rewrite dval_cons.
  replace (k - Z.of_nat (S (length G))) with (k - 1 - Z.of_nat (length G)) by lia.
  replace (10 ^ (k - 1)) with (10 ^ Z.of_nat (length G) * 10 ^ (k - 1 - Z.of_nat (length G))) by (rewrite <- Z.pow_add_r by lia; f_equal; lia). lia.
Qed.
Lemma parse_fract_spec F : digit_string F -> parse_fract F = dval F * 1000000000 / 10 ^ Z.of_nat (length F) /\ 0 <= parse_fract F <= 999999999.
Proof.
  intros D. assert (E : parse_fract F = dval F * 1000000000 / 10 ^ Z.of_nat (length F)).
  { unfold parse_fract. set (G := firstn (Nat.min (length F) 9) F). set (H := skipn (Nat.min (length F) 9) F).
    assert (EF : F = G ++ H) by (symmetry; apply firstn_skipn).
    assert (LG : length G = Nat.min (length F) 9) by (unfold G; rewrite firstn_length; lia).
    assert (LH : length H = (length F - Nat.min (length F) 9)%nat) by (unfold H; now rewrite skipn_length).
    assert (DG : digit_string G) by (intros y Hy; apply D; rewrite EF; apply in_or_app; now left).
    assert (DH : digit_string H) by (intros y Hy; apply D; rewrite EF; apply in_or_app; now right).
    change 100000000 with (10 ^ 9 / 10). rewrite fract_loop_step by (assumption || lia). rewrite Z.add_0_l.
    pose proof (dval_bound H DH) as BH. pose proof (dval_nonneg H DH) as NH. rewrite EF at 1. rewrite dval_app.
    change 1000000000 with (10 ^ 9). destruct (Nat.le_gt_cases (length F) 9) as [L|L].
    - assert (length H = 0)%nat as LH0 by lia. rewrite LH0 in *. change (10 ^ Z.of_nat 0) with 1 in *. assert (dval H = 0) as -> by lia.
      replace (10 ^ 9) with (10 ^ (9 - Z.of_nat (length G)) * 10 ^ Z.of_nat (length F)) by (rewrite <- Z.pow_add_r by lia; f_equal; lia).
      rewrite Z.mul_assoc, Z.div_mul by (apply Z.pow_nonzero; lia). lia.
    - assert (length G = 9)%nat as LG9 by lia. rewrite LG9. change (10 ^ (9 - Z.of_nat 9)) with 1.
      replace (10 ^ Z.of_nat (length F)) with (10 ^ Z.of_nat (length H) * 10 ^ 9) by (rewrite <- Z.pow_add_r by lia; f_equal; lia).
      rewrite Z.div_mul_cancel_r; [|apply Z.pow_nonzero; lia|apply Z.pow_nonzero; lia]. rewrite Z.div_add_l by (apply Z.pow_nonzero; lia).
      rewrite Z.div_small by lia. lia. }
  split; [exact E|]. rewrite E. pose proof (dval_bound F D) as B. pose proof (dval_nonneg F D) as N. set (T := 10 ^ Z.of_nat (length F)) in *.
  assert (0 < T) by (unfold T; apply Z.pow_pos_nonneg; lia). pose proof (Z.div_pos (dval F * 1000000000) T ltac:(lia) ltac:(lia)).
  assert (dval F * 1000000000 / T < 1000000000) by (apply Z.div_lt_upper_bound; nia). lia.
Qed.
Lemma fraction_value W F : digit_string F -> dval (W ++ F) * 1000000000 / 10 ^ Z.of_nat (length F) = dval W * 1000000000 + parse_fract F.
Proof.
  intros D. rewrite (proj1 (parse_fract_spec F D)), dval_app.
  replace ((dval W * 10 ^ Z.of_nat (length F) + dval F) * 1000000000) with (dval W * 1000000000 * 10 ^ Z.of_nat (length F) + dval F * 1000000000) by lia.
  apply Z.div_add_l. apply Z.pow_nonzero; lia.
Qed.

(** *** what one match adds *)
Definition add_to (acc : Z * Z * duration) (a : amount) (acc' : Z * Z * duration) : Prop :=
  let '(y, m, d) := acc in let '(y', m', d') := acc' in
  duration_ok d' /\
  match a with
  | Nanos v => y' = y /\ m' = m /\ nanos d' = clamp_nanos (nanos d + v)
  | Months v => y' = y /\ m' = clamp_i64 (m + v) /\ nanos d' = nanos d
  | Years v => y' = clamp_i64 (y + v) /\ m' = m /\ nanos d' = nanos d
  end.
Lemma add_std d n w f : duration_ok d -> 0 <= w <= u64_max -> 0 <= f <= 999999999 ->
  exists d', saturating_add d (from_std n (Std w f)) = Ok d' /\ duration_ok d' /\ nanos d' = clamp_nanos (nanos d + with_sign n (w * 1000000000 + f)).
Proof.
  intros D W F. assert (K : duration_ok (from_std n (Std w f))).
  { unfold duration_ok, from_std; cbn [inner]. apply std_ok_iff. cbn [secs subsec]. unfold u64_max in W. lia. }
  destruct (saturating_add_spec d (from_std n (Std w f)) D K) as (d' & E & O & N). exists d'. split; [exact E|]. split; [exact O|].
  rewrite N, nanos_from_std. unfold with_sign, std_nanos; cbn [secs subsec]. reflexivity.
Qed.

(** *** the tables *)
Lemma by_name_same {A} (t : list (str * A)) w v : str_eq_nocase w v = true -> by_name t w = by_name t v.
Proof.
  intros H. unfold by_name. assert (E : find (fun e => str_eq_nocase w (fst e)) t = find (fun e => str_eq_nocase v (fst e)) t); [|now rewrite E].
  induction t as [|e t IH]; [reflexivity|]. cbn [find]. rewrite (nocase_same w v (fst e) H), IH. reflexivity.
Qed.
Definition parsed (g : gnu_unit) : parsed_unit := match g with Seconds k => Regular k | AMonth => FuzzyMonth | AYear => FuzzyYear end.
Definition is_ok {A} (eq : A -> A -> bool) (r : res A) (a : A) : bool := match r with Ok x => eq x a | _ => false end.
Definition unit_eqb (a b : parsed_unit) : bool := match a, b with Regular x, Regular y => x =? y | FuzzyMonth, FuzzyMonth => true | FuzzyYear, FuzzyYear => true | _, _ => false end.
Lemma by_table {A B} (t : list (A * list str)) (f : A -> B) (eq : B -> B -> bool) (p : str -> res B) :
  (forall x y, eq x y = true -> x = y) -> (forall w v, str_eq_nocase w v = true -> p w = p v) ->
  forallb (fun e => forallb (fun v => is_ok eq (p v) (f (fst e))) (snd e)) t = true ->
  forall w a, word_for t w a -> p w = Ok (f a).
Proof.
  intros Q S H w a (ws & v & I & Iv & E). rewrite (S w v E). rewrite forallb_forall in H. specialize (H _ I). cbn [fst snd] in H.
  rewrite forallb_forall in H. specialize (H v Iv). unfold is_ok in H. destruct (p v) as [x|e|c]; try discriminate. now rewrite (Q _ _ H).
Qed.
Lemma unit_value w g : word_for gnu_units w g -> parse_time_unit w = Ok (parsed g).
Proof.
  apply (by_table gnu_units parsed unit_eqb); [|intros w0 v; apply by_name_same|vm_compute; reflexivity].
  intros [x| |] [y| |] E; try discriminate; [|reflexivity..]. cbn in E. f_equal. lia.
Qed.
Lemma numeral_value w k : word_for gnu_numerals w k -> parse_numeral w = Ok k.
Proof. apply (by_table gnu_numerals (fun k => k) Z.eqb); [intros x y; lia|intros w0 v; apply by_name_same|vm_compute; reflexivity]. Qed.
Lemma keyword_value w k : word_for gnu_keywords w k -> parse_keyword w = Ok (86400 * k).
Proof. apply (by_table gnu_keywords (fun k => 86400 * k) Z.eqb); [intros x y; lia|intros w0 v; apply by_name_same|vm_compute; reflexivity]. Qed.
Lemma numeral_range w k : word_for gnu_numerals w k -> -1 <= k <= 12.
Proof.
  intros (ws & v & I & _). assert (H : forallb (fun e : Z * list str => (-1 <=? fst e) && (fst e <=? 12)) gnu_numerals = true) by reflexivity.
  rewrite forallb_forall in H. specialize (H _ I). cbn [fst] in H. lia.
Qed.
Lemma keyword_range w k : word_for gnu_keywords w k -> -1 <= k <= 1.
Proof.
  intros (ws & v & I & _). assert (H : forallb (fun e : Z * list str => (-1 <=? fst e) && (fst e <=? 1)) gnu_keywords = true) by reflexivity.
  rewrite forallb_forall in H. specialize (H _ I). cbn [fst] in H. lia.
Qed.
Lemma unit_range w g : word_for gnu_units w g -> match g with Seconds k => 1 <= k <= 1209600 | _ => True end.
Proof.
  intros (ws & v & I & _). assert (H : forallb (fun e : gnu_unit * list str => match fst e with Seconds k => (1 <=? k) && (k <=? 1209600) | _ => true end) gnu_units = true) by reflexivity.
  rewrite forallb_forall in H. specialize (H _ I). cbn [fst] in H. destruct g; [lia|exact I0..] || (destruct g; [lia|trivial|trivial]).
Qed.

(** *** the captures of one match *)
Inductive sign_caps : list (str * str) -> bool -> Prop :=
| sc_none : sign_caps [] false
| sc_plus : sign_caps [(%"sign", [43])] false
| sc_minus : sign_caps [(%"sign", [45])] true.
Inductive ago_caps : list (str * str) -> bool -> Prop :=
| ac_none : ago_caps [] false
| ac_ago a : ago_caps [(%"ago", a)] true.
Inductive number_caps : list (str * str) -> str -> str -> Prop :=
| nc_none : number_caps [] (%"1") []
| nc_whole x W : number_caps [(%"digits", x); (%"number", W)] W []
| nc_fraction x W F : number_caps [(%"digits", x); (%"whole", W); (%"fract", F)] W F.
Inductive unit_caps : list (str * str) -> gnu_unit -> Prop :=
| uc_none : unit_caps [] (Seconds 1)
| uc_unit u g : word_for gnu_units u g -> unit_caps [(%"time_unit", u)] g.

Ltac captures := repeat match goal with |- context [captured ?k ?n] => let v := eval lazy in (captured k n) in change (captured k n) with v end; cbv beta iota zeta.

Definition whole_fract (W F : str) : Z * Z := if dval W <=? u64_max then (dval W, parse_fract F) else (u64_max, 999999999).
Definition number_step (acc : Z * Z * duration) (n : bool) (W F : str) (g : gnu_unit) : res (Z * Z * duration) :=
  let '(years, months, d) := acc in
  let '(whole, fract) := whole_fract W F in
  let amount := if n then (if 9223372036854775808 <=? whole then i64_min else - whole) else (if whole <=? i64_max then whole else i64_max) in
  let* x :=
    match g with
    | Seconds m => if whole * m <=? u64_max then Ok (whole * m, fract, years, months) else Ok (u64_max, 999999999, years, months)
    | AMonth => Ok (0, 0, years, i64_saturating_add months amount)
    | AYear => Ok (0, 0, i64_saturating_add years amount, months)
    end in
  let '(whole, fract, years, months) := x in
  let* d := saturating_add d (from_std n (Std whole fract)) in
  Ok (years, months, d).
Lemma whole_small W F : fst (whole_fract W F) <= u64_max.
Proof. unfold whole_fract. destruct (dval W <=? u64_max) eqn:E; cbn [fst]; lia. Qed.
Lemma extract_number acc m kS n kD W F kU g kA ago : sign_caps kS n -> number_caps kD W F -> unit_caps kU g -> ago_caps kA ago ->
  forallb fuzz_delimiter m = false -> extract_item acc ((%"duration", m) :: kS ++ kD ++ kU ++ kA) = number_step acc (xorb n ago) W F g.
Proof.
  intros S D U A M. destruct acc as [[years months] d]. unfold extract_item, number_step, parse_u64.
  pose proof (whole_small W F) as L. unfold whole_fract in *.
  destruct U as [|u g Hu]; [|pose proof (unit_value u g Hu) as EU];
  (destruct D as [|x W|x W F]; destruct S; destruct A; cbn [app]; captures; rewrite M; cbv beta iota;
   change (str_eqb [43] (%"-")) with false; change (str_eqb [45] (%"-")) with true; cbn [xorb negb];
   change (dval (%"1")) with 1 in *; change (1 <=? u64_max) with true in *; cbv beta iota;
   try (destruct (dval W <=? u64_max) eqn:E); cbn [fst] in L; try rewrite EU; cbn [bind parsed]; 
   try (match goal with |- context [?w * 1 <=? u64_max] => replace (w * 1) with w by lia; replace (w <=? u64_max) with true by lia end; cbn [bind]; reflexivity);
   destruct g; cbn [bind parsed]; try reflexivity; try (destruct (_ * k <=? u64_max); reflexivity)).
Qed.

Lemma whole_fract_value W F n : digit_string W -> digit_string F -> exists w f, whole_fract W F = (w, f) /\ 0 <= w <= u64_max /\ 0 <= f <= 999999999 /\
  (dval W <= u64_max /\ w = dval W /\ f = parse_fract F \/ u64_max < dval W /\ w = u64_max /\ f = 999999999) /\
  clamp_nanos (with_sign n (dval W * 1000000000 + parse_fract F)) = with_sign n (w * 1000000000 + f).
Proof.
  intros DW DF. pose proof (dval_nonneg W DW) as NW. destruct (parse_fract_spec F DF) as [_ RF]. unfold whole_fract.
  destruct (dval W <=? u64_max) eqn:E.
  - exists (dval W), (parse_fract F). split; [reflexivity|]. split; [lia|]. split; [exact RF|]. split; [left; lia|].
    unfold clamp_nanos, clamp, max_nanos, with_sign. unfold u64_max in E. destruct n; lia.
  - exists u64_max, 999999999. split; [reflexivity|]. split; [unfold u64_max; lia|]. split; [lia|]. split; [right; lia|].
    unfold clamp_nanos, clamp, max_nanos, with_sign. unfold u64_max in *. destruct n; lia.
Qed.
Lemma saturate_is_clamp a b : i64_saturating_add a b = clamp_i64 (a + b).
Proof. unfold i64_saturating_add, clamp_i64, clamp, i64_min, i64_max. change (2 ^ 63) with 9223372036854775808. lia. Qed.
Lemma nanos_bound d : duration_ok d -> clamp_nanos (nanos d) = nanos d.
Proof. intros D. pose proof (nanos_range d D). unfold clamp_nanos, clamp. unfold max_nanos in *. lia. Qed.
Definition unit_fits (g : gnu_unit) : Prop := match g with Seconds k => 1 <= k | _ => True end.
Lemma number_step_adds y m d n W F g a : duration_ok d -> digit_string W -> digit_string F -> unit_fits g -> number_amount n W F g a ->
  exists acc', number_step (y, m, d) n W F g = Ok acc' /\ add_to (y, m, d) a acc'.
Proof.
  intros D DW DF G A. destruct (whole_fract_value W F n DW DF) as (w & f & E & RW & RF & V & C).
  unfold number_step. rewrite E. cbv zeta iota beta.
  assert (Z0 : exists d', saturating_add d (from_std n (Std 0 0)) = Ok d' /\ duration_ok d' /\ nanos d' = nanos d).
  { destruct (add_std d n 0 0 D ltac:(unfold u64_max; lia) ltac:(lia)) as (d' & E1 & O & N). exists d'. split; [exact E1|]. split; [exact O|].
    rewrite N. replace (with_sign n (0 * 1000000000 + 0)) with 0 by (destruct n; reflexivity). rewrite Z.add_0_r. now apply nanos_bound. }
  pose proof (dval_nonneg W DW) as NW.
  set (amt := if n then (if 9223372036854775808 <=? w then i64_min else - w) else (if w <=? i64_max then w else i64_max)).
  assert (AM : amt = clamp_i64 (with_sign n (dval W))).
  { unfold amt, clamp_i64, clamp, with_sign, i64_min, i64_max. change (2 ^ 63) with 9223372036854775808. unfold u64_max in V.
    destruct n; [destruct (9223372036854775808 <=? w) eqn:E1; lia|destruct (w <=? 9223372036854775807) eqn:E1; lia]. }
  destruct A as [g|F NF].
  - destruct g as [k| |].
    + cbn [unit_fits] in G. change (parse_fract []) with 0 in *.
      destruct (w * k <=? u64_max) eqn:E1.
      * destruct (add_std d n (w * k) f D ltac:(nia) RF) as (d' & E2 & O & N). cbn [bind]. rewrite E2. cbn [bind]. eexists. split; [reflexivity|].
        cbn [add_to times]. split; [exact O|]. split; [reflexivity|]. split; [reflexivity|]. rewrite N. f_equal. f_equal.
        destruct V as [(V1 & -> & ->)|(V1 & -> & ->)].
        -- unfold clamp_nanos, clamp, max_nanos, with_sign. unfold u64_max in *. destruct n; lia.
        -- assert (k = 1) as -> by (unfold u64_max in *; nia). unfold clamp_nanos, clamp, max_nanos, with_sign. unfold u64_max in *. destruct n; lia.
      * destruct (add_std d n u64_max 999999999 D ltac:(unfold u64_max; lia) ltac:(lia)) as (d' & E2 & O & N). cbn [bind]. rewrite E2. cbn [bind]. eexists. split; [reflexivity|].
        cbn [add_to times]. split; [exact O|]. split; [reflexivity|]. split; [reflexivity|]. rewrite N. f_equal. f_equal.
        assert (B : u64_max < dval W * k) by (destruct V as [(V1 & -> & _)|(V1 & _)]; [lia|nia]).
        unfold clamp_nanos, clamp, max_nanos, with_sign. unfold u64_max in *. set (q := dval W * k) in *.
        destruct n; [replace (- dval W * k) with (- q) by (unfold q; lia)|fold q]; lia.
    + cbn [bind]. destruct Z0 as (d' & E2 & O & N). rewrite E2. cbn [bind]. eexists. split; [reflexivity|]. cbn [add_to times]. split; [exact O|].
      split; [reflexivity|]. split; [|exact N]. rewrite saturate_is_clamp. now rewrite AM.
    + cbn [bind]. destruct Z0 as (d' & E2 & O & N). rewrite E2. cbn [bind]. eexists. split; [reflexivity|]. cbn [add_to times]. split; [exact O|].
      split; [|split; [reflexivity|exact N]]. rewrite saturate_is_clamp. now rewrite AM.
  - rewrite Z.mul_1_r. replace (w <=? u64_max) with true by lia. cbn [bind].
    destruct (add_std d n w f D RW RF) as (d' & E2 & O & N). rewrite E2. cbn [bind]. eexists. split; [reflexivity|].
    cbn [add_to]. split; [exact O|]. split; [reflexivity|]. split; [reflexivity|]. rewrite N. f_equal. f_equal. rewrite fraction_value by exact DF. now symmetry.
Qed.
Lemma extract_numeral y m d t kS n x v k u g kA ago : duration_ok d -> sign_caps kS n -> word_for gnu_numerals v k -> word_for gnu_units u g -> ago_caps kA ago ->
  forallb fuzz_delimiter t = false ->
  exists acc', extract_item (y, m, d) ((%"duration", t) :: kS ++ [(%"numeral", x); (%"numeral_value", v); (%"numeral_time_unit", u)] ++ kA) = Ok acc' /\
    add_to (y, m, d) (times (with_sign (xorb n ago) k) g) acc'.
Proof.
  intros D S Hv Hu A T. pose proof (unit_value u g Hu) as EU. pose proof (numeral_value v k Hv) as EV. pose proof (numeral_range v k Hv) as RK.
  pose proof (unit_range u g Hu) as RU.
  assert (Z0 : forall n, exists d', saturating_add d (from_std n (Std 0 0)) = Ok d' /\ duration_ok d' /\ nanos d' = nanos d).
  { intros n0. destruct (add_std d n0 0 0 D ltac:(unfold u64_max; lia) ltac:(lia)) as (d' & E1 & O & N). exists d'. split; [exact E1|]. split; [exact O|].
    rewrite N. replace (with_sign n0 (0 * 1000000000 + 0)) with 0 by (destruct n0; reflexivity). rewrite Z.add_0_r. now apply nanos_bound. }
  assert (X : extract_item (y, m, d) ((%"duration", t) :: kS ++ [(%"numeral", x); (%"numeral_value", v); (%"numeral_time_unit", u)] ++ kA) =
    let neg := xorb n ago in
    match g with
    | Seconds q => let* d := saturating_add d (from_std (xorb neg (k <? 0)) (Std (q * Z.abs k) 0)) in Ok (y, m, d)
    | AMonth => let* d := saturating_add d (from_std neg (Std 0 0)) in Ok (y, if neg then saturating_sub_i64 m k else i64_saturating_add m k, d)
    | AYear => let* d := saturating_add d (from_std neg (Std 0 0)) in Ok (if neg then saturating_sub_i64 y k else i64_saturating_add y k, m, d)
    end).
  { unfold extract_item. destruct S; destruct A; cbn [app]; captures; rewrite T; cbv beta iota;
    change (str_eqb [43] (%"-")) with false; change (str_eqb [45] (%"-")) with true; cbn [xorb negb]; cbv beta iota;
    rewrite EV; cbn [bind]; rewrite EU; cbn [bind parsed]; destruct g; reflexivity. }
  rewrite X. clear X. cbv zeta. set (neg := xorb n ago).
  assert (SUB : forall b, saturating_sub_i64 b k = clamp_i64 (b + with_sign true k)) by (intros b; unfold saturating_sub_i64, clamp_i64, clamp, i64_min, i64_max, with_sign; change (2 ^ 63) with 9223372036854775808; lia).
  assert (CK : clamp_i64 (with_sign neg k) = with_sign neg k) by (unfold clamp_i64, clamp, with_sign; change (2 ^ 63) with 9223372036854775808; destruct neg; lia).
  destruct g as [q| |].
  - destruct (add_std d (xorb neg (k <? 0)) (q * Z.abs k) 0 D ltac:(unfold u64_max; nia) ltac:(lia)) as (d' & E2 & O & N). rewrite E2. cbn [bind]. eexists. split; [reflexivity|].
    cbn [add_to times]. split; [exact O|]. split; [reflexivity|]. split; [reflexivity|]. rewrite N. f_equal. f_equal.
    assert (EQ : with_sign (xorb neg (k <? 0)) (q * Z.abs k * 1000000000 + 0) = with_sign neg k * q * 1000000000)
      by (unfold with_sign; destruct (k <? 0) eqn:E; destruct neg; cbn [xorb]; nia).
    rewrite EQ. assert (-12 <= with_sign neg k <= 12) by (unfold with_sign; destruct neg; lia).
    unfold clamp_nanos, clamp, max_nanos. change (2 ^ 64) with 18446744073709551616. assert (- (12 * 1209600) <= with_sign neg k * q <= 12 * 1209600) by nia. lia.
  - destruct (Z0 neg) as (d' & E2 & O & N). rewrite E2. cbn [bind]. eexists. split; [reflexivity|]. cbn [add_to times]. split; [exact O|].
    split; [reflexivity|]. split; [|exact N]. rewrite CK. destruct neg; [apply SUB|apply saturate_is_clamp].
  - destruct (Z0 neg) as (d' & E2 & O & N). rewrite E2. cbn [bind]. eexists. split; [reflexivity|]. cbn [add_to times]. split; [exact O|].
    split; [|split; [reflexivity|exact N]]. rewrite CK. destruct neg; [apply SUB|apply saturate_is_clamp].
Qed.
Lemma extract_keyword y m d t kS n w k : duration_ok d -> sign_caps kS n -> word_for gnu_keywords w k -> forallb fuzz_delimiter t = false ->
  exists acc', extract_item (y, m, d) ((%"duration", t) :: kS ++ [(%"keyword", w)]) = Ok acc' /\ add_to (y, m, d) (times (with_sign n k) (Seconds 86400)) acc'.
Proof.
  intros D S Hw T. pose proof (keyword_value w k Hw) as EV. pose proof (keyword_range w k Hw) as RK.
  assert (X : extract_item (y, m, d) ((%"duration", t) :: kS ++ [(%"keyword", w)]) =
    let* d := saturating_add d (from_std (xorb n (86400 * k <? 0)) (Std (Z.abs (86400 * k)) 0)) in Ok (y, m, d)).
  { unfold extract_item. destruct S; cbn [app]; captures; rewrite T; cbv beta iota;
    change (str_eqb [43] (%"-")) with false; change (str_eqb [45] (%"-")) with true; cbn [xorb negb]; cbv beta iota; cbn [bind];
    rewrite EV; cbn [bind]; reflexivity. }
  rewrite X. clear X.
  destruct (add_std d (xorb n (86400 * k <? 0)) (Z.abs (86400 * k)) 0 D ltac:(unfold u64_max; lia) ltac:(lia)) as (d' & E2 & O & N). rewrite E2. cbn [bind]. eexists. split; [reflexivity|].
  cbn [add_to times]. split; [exact O|]. split; [reflexivity|]. split; [reflexivity|]. rewrite N. f_equal. f_equal.
  unfold clamp_nanos, clamp, max_nanos, with_sign. change (2 ^ 64) with 18446744073709551616. destruct (86400 * k <? 0) eqn:E, n; cbn [xorb]; lia.
Qed.
Lemma extract_blank acc t k : forallb fuzz_delimiter t = true -> extract_item acc ((%"duration", t) :: k) = Ok acc.
Proof.
  intros T. destruct acc as [[y m] d]. unfold extract_item. change (captured ((%"duration", t) :: k) (%"duration")) with (Some t). cbv iota beta. now rewrite T.
Qed.

(** ** one match *)
Lemma ends_no_letter l : ends_word l -> no_letter l.
Proof. intros H x r E K. destruct (H x r E) as [W|W]; [unfold white in W|]; lia. Qed.
Lemma digit_no_letter l : (exists x r, l = x :: r /\ 48 <= x <= 57) -> no_letter l.
Proof. intros (x & r & -> & D) y r0 [= <- _]. lia. Qed.
Lemma white_no_letter ds l : white_space ds -> ds <> [] -> no_letter (ds ++ l).
Proof. intros W N. now apply ends_no_letter, white_ends. Qed.
Lemma starts_dark_or r : r = [] \/ starts r -> no_white_ahead r.
Proof. intros [->|H]; [intros x r0; discriminate|now apply starts_dark]. Qed.
Lemma t_delims ds s : white_space ds -> no_white_ahead s -> takes (Many delim) (ds ++ s) [] s.
Proof. intros W N. exact (t_many _ _ white delim_cases ds s W N). Qed.
Lemma t_digits W s : digit_string W -> W <> [] -> (forall x r, s = x :: r -> ~ 48 <= x <= 57) -> takes (Some_ digit) (W ++ s) [] s.
Proof. intros D N E. exact (t_some _ _ a_digit digit_cases W s N D E). Qed.
Lemma f_class t p q s : (forall x, p x || p (other_case x) = true <-> q x) -> (forall x r, s = x :: r -> ~ q x) -> fails (Class t p) s.
Proof. intros Hq N A go. cbn. destruct s as [|x s]; [reflexivity|]. now rewrite (q_false p q Hq x (N x s eq_refl)). Qed.
Lemma f_some t p q s : (forall x, p x || p (other_case x) = true <-> q x) -> (forall x r, s = x :: r -> ~ q x) -> fails (Some_ (Class t p)) s.
Proof. intros Hq N. apply fails_if. intros m s' k -> M. apply (proj2 (proj2 (cn_class t p q Hq))) in M. destruct M as [[N0 M] _]. destruct m as [|x m]; [contradiction|]. exact (N x _ eq_refl (M x (or_introl eq_refl))). Qed.
Lemma t_ago a s : str_eq_nocase a (%"ago") = true -> takes (SpecFuzz.letters (%"ago")) (a ++ s) [] s.
Proof.
  intros H. change (SpecFuzz.letters (%"ago")) with (Then (letter 97) (Then (letter 103) (letter 111))).
  destruct a as [|x [|y [|z [|u a]]]]; change (%"ago") with [97; 103; 111] in H; cbn [str_eq_nocase] in H; rewrite ?andb_false_r in H; try discriminate H.
  apply andb_true_iff in H. destruct H as [X H]. apply andb_true_iff in H. destruct H as [Y H]. rewrite andb_true_r in H.
  assert (L : forall c, 97 <= c <= 122 -> forall x, (x =? c) || (x =? c - 32) || ((other_case x =? c) || (other_case x =? c - 32)) = true <-> eq_nocase x c = true).
  { intros c Hc w. pose proof (letter_nocase_iff c w Hc) as E0. rewrite orb_true_iff, <- E0. clear E0. split; [|tauto]. intros [K|K]; [exact K|]. unfold other_case in K.
    destruct ((97 <=? w) && (w <=? 122)) eqn:E; [lia|]. destruct ((65 <=? w) && (w <=? 90)) eqn:E2; lia. }
  apply (t_then _ _ _ [] ([y; z] ++ s) [] s); [exact (t_class _ _ _ (L 97 ltac:(lia)) x _ X)|].
  apply (t_then _ _ _ [] ([z] ++ s) [] s); [exact (t_class _ _ _ (L 103 ltac:(lia)) y _ Y)|exact (t_class _ _ _ (L 111 ltac:(lia)) z _ H)].
Qed.
Lemma f_ago r : r = [] \/ starts r -> fails (SpecFuzz.letters (%"ago")) r.
Proof.
  intros H. apply (fails_by _ _ _ cn_ago). intros m s' E M. destruct m as [|x m]; [discriminate|].
  destruct H as [->|(y & r0 & -> & S)]; [discriminate|]. injection E as -> _.
  change (%"ago") with [97; 103; 111] in M. cbn [str_eq_nocase] in M. apply andb_true_iff in M. destruct M as [M _].
  destruct (nocase_letter x 97 ltac:(lia) M); unfold start in S; lia.
Qed.
Definition tail_part : regex := Then (Many delim) (Maybe (Named (%"ago") (SpecFuzz.letters (%"ago")))).
Lemma t_tail sep R : white_space sep -> R = [] \/ starts R -> takes tail_part (sep ++ R) [] R.
Proof.
  intros W S. apply (t_then _ _ _ [] R [] R); [apply t_delims; [exact W|now apply starts_dark_or]|]. apply t_maybe_not, f_named, f_ago, S.
Qed.
Lemma t_tail_ago ds a rest : white_space ds -> str_eq_nocase a (%"ago") = true -> takes tail_part (ds ++ a ++ rest) [(%"ago", a)] rest.
Proof.
  intros W H. apply (t_then _ _ _ [] (a ++ rest) [(%"ago", a)] rest).
  - apply t_delims; [exact W|]. destruct (ago_letters a H) as [N L]. destruct a as [|x a]; [contradiction|]. intros y r [= <- _]. specialize (L x (or_introl eq_refl)). unfold white. lia.
  - apply t_maybe, t_named. now apply t_ago.
Qed.
(** a time unit, perhaps with `ago`, in front of white space *)
Lemma unit_parts q g ago sep R : unit_text q g ago -> white_space sep -> R = [] \/ starts R -> ends_word (sep ++ R) ->
  exists w mid kA sep', q ++ sep ++ R = w ++ mid ++ sep' ++ R /\ word_for gnu_units w g /\ no_letter (mid ++ sep' ++ R) /\ ago_caps kA ago /\
    takes tail_part (mid ++ sep' ++ R) kA (sep' ++ R) /\ white_space sep' /\ (length sep' <= length sep)%nat.
Proof.
  intros Q W S E. destruct Q as [w g0 Hw|w g0 ds a Hw Hd Nd Ha].
  - exists w, sep, [], []. cbn [app]. split; [reflexivity|]. split; [exact Hw|]. split; [now apply ends_no_letter|]. split; [constructor|].
    split; [now apply t_tail|]. split; [intros x []|cbn; lia].
  - exists w, (ds ++ a), [(%"ago", a)], sep. rewrite <- !app_assoc. split; [reflexivity|]. split; [exact Hw|]. split; [now apply white_no_letter|].
    split; [constructor|]. split; [now apply t_tail_ago|]. split; [exact W|lia].
Qed.

Definition no_sign (l : str) : Prop := forall x r, l = x :: r -> ~ (x = 43 \/ x = 45).
Lemma t_sign sg n l : gnu_sign sg n -> no_white_ahead l -> no_sign l -> exists kS, sign_caps kS n /\ takes (Maybe sign_part) (sg ++ l) kS l.
Proof.
  intros H N S. destruct H as [|ds W|ds W].
  - exists []. split; [constructor|]. apply t_maybe_not, f_group, f_then, f_named. exact (f_class _ _ _ l sign_cases S).
  - exists [(%"sign", [43])]. split; [constructor|]. apply t_maybe, t_group. apply (t_then _ _ _ [(%"sign", [43])] (ds ++ l) [] l); [|now apply t_delims].
    apply (t_named _ _ [43] (ds ++ l) []). exact (t_class _ _ _ sign_cases 43 _ (or_introl eq_refl)).
  - exists [(%"sign", [45])]. split; [constructor|]. apply t_maybe, t_group. apply (t_then _ _ _ [(%"sign", [45])] (ds ++ l) [] l); [|now apply t_delims].
    apply (t_named _ _ [45] (ds ++ l) []). exact (t_class _ _ _ sign_cases 45 _ (or_intror eq_refl)).
Qed.
Definition body : regex := Maybe (Group (Or keyword_part (Or numeral_part number_part))).
Lemma t_all s kS s1 kB s2 kA t s3 : takes (Maybe sign_part) s kS s1 -> takes body s1 kB s2 -> takes tail_part s2 kA s3 -> s = t ++ s3 ->
  takes extraction s ((%"duration", t) :: kS ++ kB ++ kA) s3.
Proof.
  intros H1 H2 H3 ->. apply t_named. apply (t_then _ _ _ kS s1 (kB ++ kA) s3); [exact H1|]. apply (t_then _ _ _ kB s2 kA s3); [exact H2|exact H3].
Qed.
Lemma b_keyword w k rest : word_for gnu_keywords w k -> no_letter rest -> takes body (w ++ rest) [(%"keyword", w)] rest.
Proof. intros H N. apply t_maybe, t_group, t_or_l. apply (t_named _ _ w rest []). exact (t_keyword w k rest H N). Qed.
Lemma b_numeral w k ds u g rest : word_for gnu_numerals w k -> white_space ds -> ds <> [] -> word_for gnu_units u g -> no_letter rest ->
  takes body (w ++ ds ++ u ++ rest) ([(%"numeral", w ++ ds ++ u); (%"numeral_value", w); (%"numeral_time_unit", u)]) rest.
Proof.
  intros Hw Wd Nd Hu N. pose proof (white_no_letter ds (u ++ rest) Wd Nd) as NL.
  apply t_maybe, t_group, t_or_r; [exact (f_named _ _ _ (proj1 (numeral_other w k _ Hw NL)))|]. apply t_or_l.
  replace (w ++ ds ++ u ++ rest) with ((w ++ ds ++ u) ++ rest) by now rewrite <- !app_assoc.
  apply (t_named _ _ (w ++ ds ++ u) rest [(%"numeral_value", w); (%"numeral_time_unit", u)]). rewrite <- !app_assoc.
  apply (t_then _ _ _ [(%"numeral_value", w)] (ds ++ u ++ rest) [(%"numeral_time_unit", u)] rest).
  - apply (t_named _ _ w _ []). exact (t_numeral w k _ Hw NL).
  - apply (t_then _ _ _ [] (u ++ rest) [(%"numeral_time_unit", u)] rest).
    + apply t_delims; [exact Wd|]. destruct (unit_letters u g Hu) as [N0 L]. destruct u as [|x u]; [contradiction|]. intros y r [= <- _]. specialize (L x (or_introl eq_refl)). unfold white. lia.
    + apply (t_named _ _ u rest []). exact (t_unit u g rest Hu N).
Qed.
Lemma b_number s kD s1 ds s2 kU s3 : fails (words keyword_words) s -> fails (words numeral_words) s -> takes (Maybe digits_part) s kD s1 ->
  s1 = ds ++ s2 -> white_space ds -> no_white_ahead s2 -> takes (Maybe (Named (%"time_unit") (words unit_words))) s2 kU s3 -> takes body s (kD ++ kU) s3.
Proof.
  intros F1 F2 D -> W N U. apply t_maybe, t_group, t_or_r; [now apply f_named|]. apply t_or_r; [now apply f_named, f_then, f_named|].
  apply t_group. apply (t_then _ _ _ kD (ds ++ s2) kU s3); [exact D|]. apply (t_then _ _ _ [] s2 kU s3); [now apply t_delims|exact U].
Qed.
Lemma t_number num W F rest : number_text num W F -> (forall x r, rest = x :: r -> ~ 48 <= x <= 57 /\ x <> 46) ->
  exists kD, number_caps kD W F /\ takes (Maybe digits_part) (num ++ rest) kD rest.
Proof.
  intros H N. assert (ND : forall x r, rest = x :: r -> ~ 48 <= x <= 57) by (intros x r E; exact (proj1 (N x r E))).
  destruct H as [W D N0|W F D N0 DF NF].
  - exists [(%"digits", W); (%"number", W)]. split; [constructor|]. apply t_maybe. apply (t_named _ _ W rest [(%"number", W)]). apply t_or_r.
    + apply f_group, fails_if. intros m s' k E (m1 & m2 & k1 & k2 & -> & _ & M1 & M2). destruct M1 as (k1' & _ & M1). apply cn_digits in M1. destruct M1 as [[N1 D1] _].
      destruct M2 as (m3 & m4 & k3 & k4 & -> & _ & M3 & _). apply cn_point in M3. destruct M3 as [-> _]. rewrite <- !app_assoc in E. cbn [app] in E.
      clear N1 N0. revert m1 D1 E. induction W as [|x W IH]; intros m1 D1 E.
      * cbn [app] in E. destruct m1 as [|y m1]; cbn [app] in E; [destruct (N _ _ E); lia|]. apply (ND y _ E). apply D1. now left.
      * destruct m1 as [|y m1]; injection E as -> E; [specialize (D 46 (or_introl eq_refl)); lia|].
        apply (IH (fun z Hz => D z (or_intror Hz)) m1 (fun z Hz => D1 z (or_intror Hz)) E).
    + apply (t_named _ _ W rest []). now apply t_digits.
  - exists [(%"digits", W ++ 46 :: F); (%"whole", W); (%"fract", F)]. split; [constructor|]. apply t_maybe.
    apply (t_named _ _ (W ++ 46 :: F) rest [(%"whole", W); (%"fract", F)]). apply t_or_l, t_group. rewrite <- app_assoc. cbn [app].
    apply (t_then _ _ _ [(%"whole", W)] (46 :: F ++ rest) [(%"fract", F)] rest).
    + apply (t_named _ _ W _ []). apply t_digits; [exact D|exact N0|]. intros x r [= <- _]. lia.
    + apply (t_then _ _ _ [] (F ++ rest) [(%"fract", F)] rest); [exact (t_class _ _ _ point_cases 46 _ eq_refl)|].
      apply (t_named _ _ F rest []). now apply t_digits.
Qed.
Lemma no_digits s : (forall x r, s = x :: r -> ~ 48 <= x <= 57) -> takes (Maybe digits_part) s [] s.
Proof.
  intros N. apply t_maybe_not, f_named, f_or; [apply f_group, f_then|]; apply f_named; exact (f_some _ _ a_digit s digit_cases N).
Qed.

Lemma one_digit : digit_string (%"1").
Proof. change (%"1") with [49]. intros x [<-|[]]. lia. Qed.

Lemma piece_no_unit p a e rest : piece p a e false -> (e = EndsWithWord -> ends_word rest) -> fails (words unit_words) (p ++ rest).
Proof.
  intros H E.
  assert (SG : forall sg n l, gnu_sign sg n -> sg <> [] -> fails (words unit_words) (sg ++ l)).
  { intros sg n l Hs N. apply no_words. destruct Hs; [contradiction| |]; intros x r [= <- _]; lia. }
  assert (NUM : forall num W F l, number_text num W F -> fails (words unit_words) (num ++ l)).
  { intros num W F l Hn. apply no_words, digit_no_letter. destruct (starts_number num W F Hn) as (x & r & -> & D). exists x, (r ++ l). split; [reflexivity|exact D]. }
  inversion H; subst; clear H.
  - rewrite <- !app_assoc. destruct sg as [|c sg]; [cbn [app]; eapply NUM; eassumption|]. eapply SG; [eassumption|discriminate].
  - rewrite <- !app_assoc. destruct sg as [|c sg]; [cbn [app]; eapply NUM; eassumption|]. eapply SG; [eassumption|discriminate].
  - rewrite <- !app_assoc. eapply SG; eassumption.
  - rewrite <- !app_assoc. destruct sg as [|c sg]; [|eapply SG; [eassumption|discriminate]]. cbn [app].
    eapply numeral_other; [eassumption|]. now apply white_no_letter.
  - rewrite <- !app_assoc. destruct sg as [|c sg]; [|eapply SG; [eassumption|discriminate]]. cbn [app].
    eapply keyword_other; [eassumption|]. apply ends_no_letter. now apply E.
Qed.
Lemma written_no_unit t as_ : written t as_ false -> fails (words unit_words) t.
Proof.
  intros H. inversion H; subst; clear H.
  - rewrite <- (app_nil_r t). eapply piece_no_unit; [eassumption|]. intros _ x r; discriminate.
  - eapply piece_no_unit; [eassumption|]. intros ->. eapply joins_ends; eassumption.
Qed.

Lemma not_blank t : (exists a b, t = a ++ b /\ starts b) -> forallb fuzz_delimiter t = false.
Proof.
  intros (a & b & -> & x & r & -> & S). rewrite forallb_app. cbn [forallb]. replace (fuzz_delimiter x) with false; [cbn [andb]; apply andb_false_r|].
  symmetry. unfold fuzz_delimiter, start in *. lia.
Qed.
Lemma blank t : white_space t -> forallb fuzz_delimiter t = true.
Proof. intros W. apply forallb_forall. intros x Hx. specialize (W x Hx). unfold white, fuzz_delimiter in *. lia. Qed.

(** white space in front of what is no time unit is a match of its own *)
Lemma blank_taken lead t : white_space lead -> lead <> [] -> starts t -> fails (words unit_words) t -> takes extraction (lead ++ t) [(%"duration", lead)] t.
Proof.
  intros W N S U. pose proof (white_no_letter lead t W N) as NL. destruct (no_words _ NL) as (F1 & F2 & _).
  assert (NW : no_white_ahead t) by now apply starts_dark.
  assert (HL : forall x r, lead ++ t = x :: r -> white x) by (destruct lead as [|y lead]; [contradiction|]; intros x r [= <- _]; apply W; now left).
  change [(%"duration", lead)] with ((%"duration", lead) :: [] ++ ([] ++ []) ++ []).
  apply (t_all _ _ (lead ++ t) _ t); [| |exact (t_tail [] t (fun x H => match H with end) (or_intror S))|reflexivity].
  - apply t_maybe_not, f_group, f_then, f_named. apply (f_class _ _ _ _ sign_cases). intros x r E. specialize (HL x r E). unfold white in HL. lia.
  - apply (b_number _ [] (lead ++ t) lead t [] t F1 F2); [|reflexivity|exact W|exact NW|now apply t_maybe_not, f_named].
    apply no_digits. intros x r E. specialize (HL x r E). unfold white in HL. lia.
Qed.

Lemma item_taken p a e u sep R : piece p a e u -> white_space sep -> R = [] \/ starts R -> (e = EndsWithWord -> ends_word (sep ++ R)) ->
  (e = EndsWithNumber -> fails (words unit_words) R /\ forall x r, sep ++ R = x :: r -> ~ 48 <= x <= 57) ->
  forall lead, white_space lead -> (u = true \/ lead = []) -> forall y m d, duration_ok d ->
  exists k sep', takes extraction (lead ++ p ++ sep ++ R) k (sep' ++ R) /\ white_space sep' /\ (length sep' <= length sep)%nat /\
    exists acc', extract_item (y, m, d) k = Ok acc' /\ add_to (y, m, d) a acc'.
Proof.
  intros P W S EW EN lead WL UL y m d D. pose proof (piece_ok p a e u P) as (SP & _ & _).
  assert (SK : forall sep', white_space sep' -> forall z r, sep' ++ R = z :: r -> white z \/ start z).
  { intros sep' W' z r E. destruct sep' as [|z' sep']; cbn [app] in E.
    - destruct S as [->|(z' & r' & -> & S)]; [discriminate|]. injection E as -> _. now right.
    - injection E as -> _. left. apply W'. now left. }
  assert (NB : forall t sep', lead ++ p ++ sep ++ R = t ++ sep' ++ R -> (length sep' <= length sep)%nat -> forallb fuzz_delimiter t = false).
  { intros t sep' E L. apply not_blank. exists lead. exists (firstn (length t - length lead) (p ++ sep)). 
    assert (E' : lead ++ p ++ sep = t ++ sep').
    { apply (app_inv_tail R). rewrite <- !app_assoc. exact E. }
    assert (LT : (length lead + length p <= length t)%nat) by (apply (f_equal (@length Z)) in E'; rewrite !app_length in E'; lia).
    assert (ET : t = firstn (length t) (lead ++ p ++ sep)) by (rewrite E', firstn_app, Nat.sub_diag, firstn_O, app_nil_r, firstn_all; reflexivity).
    split; [rewrite ET at 1; rewrite firstn_app; f_equal; apply firstn_all2; lia|].
    rewrite firstn_app. apply starts_app. rewrite firstn_all2 by lia. exact SP. }
  assert (LNW : forall w l, GnuGrammar.letters w -> no_white_ahead (w ++ l) /\ no_sign (w ++ l) /\ (forall x r, w ++ l = x :: r -> ~ 48 <= x <= 57)).
  { intros w l [N0 L]. destruct w as [|x w]; [contradiction|]. specialize (L x (or_introl eq_refl)).
    repeat apply conj; intros z r [= <- _]; unfold white; lia. }
  assert (DNW : forall num W0 F l, number_text num W0 F -> no_white_ahead (num ++ l) /\ no_sign (num ++ l) /\ no_letter (num ++ l)).
  { intros num W0 F l Hn. destruct (starts_number num W0 F Hn) as (x & r & -> & Dx). cbn [app]. repeat apply conj; intros z r0 [= <- _]; unfold white; lia. }
  destruct P as [sg n num W0 F ds q g ago a0 Hs Hn Hd Hq Ha|sg n num W0 F a0 Hs Hn Ha|q g ago Hq|sg n q g ago Hs Ns Hq|sg n w k ds q g ago Hs Hw Hd Nd Hq|sg n w k Hs Hw].
  - (* a number and a time unit *)
    destruct UL as [UL| ->]; [discriminate|]. cbn [app] in *.
    destruct (unit_parts q g ago sep R Hq W S (EW eq_refl)) as (w & mid & kA & sep' & E & Hw & NL & AC & T & W' & L').
    assert (E0 : (sg ++ num ++ ds ++ q) ++ sep ++ R = sg ++ num ++ ds ++ w ++ mid ++ sep' ++ R) by (rewrite <- !app_assoc; now rewrite E).
    destruct (DNW num W0 F (ds ++ w ++ mid ++ sep' ++ R) Hn) as (N1 & N2 & N3). destruct (t_sign sg n _ Hs N1 N2) as (kS & SC & TS).
    destruct (LNW w (mid ++ sep' ++ R) (unit_letters w g Hw)) as (N4 & _ & _).
    destruct (t_number num W0 F (ds ++ w ++ mid ++ sep' ++ R) Hn) as (kD & NC & TD).
    { intros x r Ex. destruct ds as [|x0 ds]; cbn [app] in Ex.
      - destruct (unit_letters w g Hw) as [N0 L]. destruct w as [|z w]; [contradiction|]. injection Ex as -> _. specialize (L x (or_introl eq_refl)). lia.
      - injection Ex as -> _. specialize (Hd x (or_introl eq_refl)). unfold white in Hd. lia. }
    destruct (no_words _ N3) as (F1 & F2 & _).
    exists ((%"duration", sg ++ num ++ ds ++ w ++ mid) :: kS ++ (kD ++ [(%"time_unit", w)]) ++ kA), sep'.
    split; [|split; [exact W'|split; [exact L'|]]].
    + rewrite E0. apply (t_all _ kS (num ++ ds ++ w ++ mid ++ sep' ++ R) _ (mid ++ sep' ++ R)); [exact TS| |exact T|rewrite <- !app_assoc; reflexivity].
      apply (b_number _ kD (ds ++ w ++ mid ++ sep' ++ R) ds (w ++ mid ++ sep' ++ R)); [exact F1|exact F2|exact TD|reflexivity|exact Hd|exact N4|].
      apply t_maybe. apply (t_named _ _ w _ []). exact (t_unit w g _ Hw NL).
    + rewrite <- !app_assoc.
      rewrite (extract_number (y, m, d) _ kS n kD W0 F [(%"time_unit", w)] g kA ago SC NC (uc_unit w g Hw) AC); [|apply (NB _ sep'); [rewrite E0, <- !app_assoc; reflexivity|exact L']].
      assert (DW : digit_string W0 /\ digit_string F) by (destruct Hn; split; auto; intros z []).
      apply number_step_adds; [exact D|exact (proj1 DW)|exact (proj2 DW)| |exact Ha].
      pose proof (unit_range w g Hw) as RU. destruct g; cbn [unit_fits]; trivial. lia.
  - (* a number *)
    destruct UL as [UL| ->]; [discriminate|]. cbn [app] in *. destruct (EN eq_refl) as [FU ED].
    destruct (DNW num W0 F (sep ++ R) Hn) as (N1 & N2 & N3). destruct (t_sign sg n _ Hs N1 N2) as (kS & SC & TS).
    destruct (t_number num W0 F (sep ++ R) Hn) as (kD & NC & TD).
    { intros x r Ex. split; [exact (ED x r Ex)|]. destruct (SK sep W x r Ex); unfold white, start in *; lia. }
    destruct (no_words _ N3) as (F1 & F2 & _).
    exists ((%"duration", sg ++ num ++ sep) :: kS ++ (kD ++ []) ++ []), [].
    split; [|split; [intros x []|split; [cbn; lia|]]].
    + rewrite <- app_assoc. apply (t_all _ kS (num ++ sep ++ R) _ R); [exact TS| |exact (t_tail [] R (fun x H => match H with end) S)|rewrite <- !app_assoc; reflexivity].
      apply (b_number _ kD (sep ++ R) sep R); [exact F1|exact F2|exact TD|reflexivity|exact W|now apply starts_dark_or|now apply t_maybe_not, f_named].
    + rewrite <- (app_assoc kD).
      rewrite (extract_number (y, m, d) _ kS n kD W0 F [] (Seconds 1) [] false SC NC uc_none ac_none); [|apply (NB _ []); [rewrite <- !app_assoc; reflexivity|cbn; lia]].
      rewrite xorb_false_r. assert (DW : digit_string W0 /\ digit_string F) by (destruct Hn; split; auto; intros z []).
      apply number_step_adds; [exact D|exact (proj1 DW)|exact (proj2 DW)|cbn; lia|exact Ha].
  - (* a time unit *)
    destruct (unit_parts q g ago sep R Hq W S (EW eq_refl)) as (w & mid & kA & sep' & E & Hw & NL & AC & T & W' & L').
    destruct (LNW w (mid ++ sep' ++ R) (unit_letters w g Hw)) as (N1 & N2 & N3).
    assert (HL : forall x r, lead ++ w ++ mid ++ sep' ++ R = x :: r -> white x \/ (97 <= x <= 122 \/ 65 <= x <= 90)).
    { intros x r Ex. destruct lead as [|x0 lead]; cbn [app] in Ex; [|injection Ex as -> _; left; apply WL; now left]. right.
      destruct (unit_letters w g Hw) as [N0 L]. destruct w as [|z w]; [contradiction|]. injection Ex as -> _. apply L. now left. }
    assert (FF : fails (words keyword_words) (lead ++ w ++ mid ++ sep' ++ R) /\ fails (words numeral_words) (lead ++ w ++ mid ++ sep' ++ R)).
    { destruct lead as [|x0 lead]; [exact (unit_other w g _ Hw NL)|]. destruct (no_words _ (white_no_letter (x0 :: lead) (w ++ mid ++ sep' ++ R) WL ltac:(discriminate))) as (F1 & F2 & _). auto. }
    exists ((%"duration", lead ++ w ++ mid) :: [] ++ ([] ++ [(%"time_unit", w)]) ++ kA), sep'.
    split; [|split; [exact W'|split; [exact L'|]]].
    + rewrite E. apply (t_all _ [] (lead ++ w ++ mid ++ sep' ++ R) _ (mid ++ sep' ++ R)); [| |exact T|rewrite <- !app_assoc; reflexivity].
      * apply t_maybe_not, f_group, f_then, f_named. apply (f_class _ _ _ _ sign_cases). intros x r Ex. specialize (HL x r Ex). unfold white in HL. lia.
      * apply (b_number _ [] (lead ++ w ++ mid ++ sep' ++ R) lead (w ++ mid ++ sep' ++ R)); [exact (proj1 FF)|exact (proj2 FF)| |reflexivity|exact WL|exact N1|].
        -- apply no_digits. intros x r Ex. specialize (HL x r Ex). unfold white in HL. lia.
        -- apply t_maybe. apply (t_named _ _ w _ []). exact (t_unit w g _ Hw NL).
    + rewrite <- !app_assoc.
      rewrite (extract_number (y, m, d) _ [] false [] (%"1") [] [(%"time_unit", w)] g kA ago sc_none nc_none (uc_unit w g Hw) AC); [|apply (NB _ sep'); [rewrite E, <- !app_assoc; reflexivity|exact L']].
      apply number_step_adds; [exact D|exact one_digit|intros x []| |].
      * pose proof (unit_range w g Hw) as RU. destruct g; cbn [unit_fits]; trivial. lia.
      * rewrite xorb_false_l. exact (na_whole ago (%"1") g).
  - (* a time unit with a sign *)
    destruct UL as [UL| ->]; [discriminate|]. cbn [app] in *.
    destruct (unit_parts q g ago sep R Hq W S (EW eq_refl)) as (w & mid & kA & sep' & E & Hw & NL & AC & T & W' & L').
    destruct (LNW w (mid ++ sep' ++ R) (unit_letters w g Hw)) as (N1 & N2 & N3). destruct (t_sign sg n _ Hs N1 N2) as (kS & SC & TS).
    destruct (unit_other w g _ Hw NL) as [F1 F2].
    assert (E0 : (sg ++ q) ++ sep ++ R = sg ++ w ++ mid ++ sep' ++ R) by (rewrite <- !app_assoc; now rewrite E).
    exists ((%"duration", sg ++ w ++ mid) :: kS ++ ([] ++ [(%"time_unit", w)]) ++ kA), sep'.
    split; [|split; [exact W'|split; [exact L'|]]].
    + rewrite E0. apply (t_all _ kS (w ++ mid ++ sep' ++ R) _ (mid ++ sep' ++ R)); [exact TS| |exact T|rewrite <- !app_assoc; reflexivity].
      apply (b_number _ [] (w ++ mid ++ sep' ++ R) [] (w ++ mid ++ sep' ++ R)); [exact F1|exact F2|now apply no_digits|reflexivity|intros x []|exact N1|].
      apply t_maybe. apply (t_named _ _ w _ []). exact (t_unit w g _ Hw NL).
    + rewrite <- !app_assoc.
      rewrite (extract_number (y, m, d) _ kS n [] (%"1") [] [(%"time_unit", w)] g kA ago SC nc_none (uc_unit w g Hw) AC); [|apply (NB _ sep'); [rewrite E0, <- !app_assoc; reflexivity|exact L']].
      apply number_step_adds; [exact D|exact one_digit|intros x []| |].
      * pose proof (unit_range w g Hw) as RU. destruct g; cbn [unit_fits]; trivial. lia.
      * exact (na_whole (xorb n ago) (%"1") g).
  - (* a numeral *)
    destruct UL as [UL| ->]; [discriminate|]. cbn [app] in *.
    destruct (unit_parts q g ago sep R Hq W S (EW eq_refl)) as (u & mid & kA & sep' & E & Hu & NL & AC & T & W' & L').
    destruct (LNW w (ds ++ u ++ mid ++ sep' ++ R) (numeral_letters w k Hw)) as (N1 & N2 & N3). destruct (t_sign sg n _ Hs N1 N2) as (kS & SC & TS).
    assert (E0 : (sg ++ w ++ ds ++ q) ++ sep ++ R = sg ++ w ++ ds ++ u ++ mid ++ sep' ++ R) by (rewrite <- !app_assoc; now rewrite E).
    exists ((%"duration", sg ++ w ++ ds ++ u ++ mid) :: kS ++ [(%"numeral", w ++ ds ++ u); (%"numeral_value", w); (%"numeral_time_unit", u)] ++ kA), sep'.
    split; [|split; [exact W'|split; [exact L'|]]].
    + rewrite E0. apply (t_all _ kS (w ++ ds ++ u ++ mid ++ sep' ++ R) _ (mid ++ sep' ++ R)); [exact TS| |exact T|rewrite <- !app_assoc; reflexivity].
      exact (b_numeral w k ds u g _ Hw Hd Nd Hu NL).
    + apply extract_numeral; try assumption. apply (NB _ sep'); [rewrite E0, <- !app_assoc; reflexivity|exact L'].
  - (* a keyword *)
    destruct UL as [UL| ->]; [discriminate|]. cbn [app] in *. pose proof (ends_no_letter _ (EW eq_refl)) as NL.
    destruct (LNW w (sep ++ R) (keyword_letters w k Hw)) as (N1 & N2 & N3). destruct (t_sign sg n _ Hs N1 N2) as (kS & SC & TS).
    exists ((%"duration", sg ++ w ++ sep) :: kS ++ [(%"keyword", w)] ++ []), [].
    split; [|split; [intros x []|split; [cbn; lia|]]].
    + rewrite <- app_assoc. apply (t_all _ kS (w ++ sep ++ R) _ (sep ++ R)); [exact TS|exact (b_keyword w k _ Hw NL)|exact (t_tail sep R W S)|rewrite <- !app_assoc; reflexivity].
    + rewrite app_nil_r. apply extract_keyword; try assumption. apply (NB _ []); [rewrite <- !app_assoc; reflexivity|cbn; lia].
Qed.

(** ** all the matches *)
Lemma captures_step n b s k s' : takes extraction s k s' -> (length s' < length s)%nat -> captures_iter (S n) extraction b s = k :: captures_iter n extraction true s'.
Proof.
  intros T L. cbn [captures_iter]. unfold match_here. rewrite (T _ (fun k s' => Some (k, s')) (k, s') eq_refl). cbv beta iota.
  now replace (length s' <? length s)%nat with true by (symmetry; apply Nat.ltb_lt; exact L).
Qed.
Definition add_all (acc : Z * Z * duration) (l : list amount) (acc' : Z * Z * duration) : Prop :=
  let '(y, m, d) := acc in let '(y', m', d') := acc' in
  duration_ok d' /\ y' = fold_left (fun t a => match a with Years v => clamp_i64 (t + v) | _ => t end) l y /\
  m' = fold_left (fun t a => match a with Months v => clamp_i64 (t + v) | _ => t end) l m /\
  nanos d' = fold_left (fun t a => match a with Nanos v => clamp_nanos (t + v) | _ => t end) l (nanos d).
Lemma add_first y m d a y1 m1 d1 : add_to (y, m, d) a (y1, m1, d1) -> forall l acc', add_all (y1, m1, d1) l acc' -> add_all (y, m, d) (a :: l) acc'.
Proof.
  intros (O & A) l [[y2 m2] d2] (O2 & Y & M & N). split; [exact O2|]. cbn [fold_left].
  destruct a; destruct A as (-> & -> & E); rewrite E in N; auto.
Qed.
Lemma no_more n acc : extract_items acc (captures_iter n extraction true []) = Ok acc.
Proof. destruct n as [|n]; reflexivity. Qed.
Lemma starts_not_empty t : starts t -> t <> [].
Proof. intros (x & r & -> & _). discriminate. Qed.
Lemma all_items t as_ u : written t as_ u -> forall lead n b y m d, white_space lead -> (2 * length (lead ++ t) < n)%nat -> duration_ok d ->
  exists acc', extract_items (y, m, d) (captures_iter n extraction b (lead ++ t)) = Ok acc' /\ add_all (y, m, d) as_ acc'.
Proof.
  intros H. induction H as [p a e u P|p a e u sep r rs u' P W HR IH J].
  - (* the last piece *)
    assert (LAST : forall lead n b y m d, white_space lead -> (u = true \/ lead = []) -> (length (lead ++ p) < n)%nat -> duration_ok d ->
      exists acc', extract_items (y, m, d) (captures_iter n extraction b (lead ++ p)) = Ok acc' /\ add_all (y, m, d) [a] acc').
    { intros lead n b y m d WL UL L D. destruct n as [|n]; [lia|].
      destruct (item_taken p a e u [] [] P (fun x H => match H with end) (or_introl eq_refl)) with (lead := lead) (y := y) (m := m) (d := d) as (k & sep' & T & W' & L' & acc' & E & A);
        [intros _ x r; discriminate|intros _; split; [apply no_words; intros x r; discriminate|intros x r; discriminate]|exact WL|exact UL|exact D|].
      destruct sep'; [|cbn in L'; lia]. cbn [app] in T. rewrite app_nil_r in T.
      destruct (piece_ok p a e u P) as (SP & _ & _). pose proof (starts_not_empty p SP) as NP.
      rewrite (captures_step n b _ k [] T) by (rewrite app_length; destruct p; [contradiction|cbn; lia]).
      cbn [extract_items]. rewrite E. cbn [bind]. rewrite no_more. exists acc'. split; [reflexivity|]. destruct acc' as [[y1 m1] d1].
      apply (add_first y m d a y1 m1 d1 A []). split; [exact (proj1 A)|auto]. }
    intros lead n b y m d WL L D. destruct u; [apply LAST; auto; lia|]. destruct lead as [|x lead]; [apply LAST; auto; lia|].
    destruct n as [|n]; [lia|].
    assert (FU : fails (words unit_words) p) by (apply (written_no_unit p [a]); econstructor; exact P).
    rewrite (captures_step n b _ _ p (blank_taken (x :: lead) p WL ltac:(discriminate) (proj1 (piece_ok _ _ _ _ P)) FU)) by (rewrite app_length; cbn; lia).
    cbn [extract_items]. rewrite extract_blank by now apply blank. cbn [bind]. apply (LAST [] n true y m d); [intros z []|now right| |exact D].
    rewrite app_length in L. cbn [length app] in *. lia.
  - pose proof (written_ok _ _ _ HR) as (SR & _ & _). pose proof (piece_ok p a e u P) as (SP & _ & _). pose proof (starts_not_empty p SP) as NP.
    assert (ONE : forall lead n b y m d, white_space lead -> (u = true \/ lead = []) -> (2 * length (lead ++ p ++ sep ++ r) < n)%nat -> duration_ok d ->
      exists acc', extract_items (y, m, d) (captures_iter n extraction b (lead ++ p ++ sep ++ r)) = Ok acc' /\ add_all (y, m, d) (a :: rs) acc').
    { intros lead n b y m d WL UL L D. destruct n as [|n]; [lia|].
      destruct (item_taken p a e u sep r P W (or_intror SR)) with (lead := lead) (y := y) (m := m) (d := d) as (k & sep' & T & W' & L' & acc' & E & A).
      - intros ->. eapply joins_ends; eassumption.
      - intros ->. destruct J as [-> J]. split; [exact (written_no_unit r rs HR)|]. intros x r0 Ex. destruct sep as [|z sep]; cbn [app] in Ex.
        + destruct J as [J|J]; [contradiction|]. exact (proj1 (J x r0 Ex)).
        + injection Ex as -> _. specialize (W x (or_introl eq_refl)). unfold white in W. lia.
      - exact WL.
      - exact UL.
      - exact D.
      - assert (LP : (0 < length p)%nat) by (destruct p; [contradiction|cbn; lia]).
        rewrite (captures_step n b _ k (sep' ++ r) T) by (rewrite !app_length; lia).
        cbn [extract_items]. rewrite E. cbn [bind]. destruct acc' as [[y1 m1] d1].
        destruct (IH sep' n true y1 m1 d1 W') as (acc2 & E2 & A2); [rewrite !app_length in *; lia|exact (proj1 A)|].
        exists acc2. split; [exact E2|]. exact (add_first y m d a y1 m1 d1 A rs acc2 A2). }
    intros lead n b y m d WL L D. destruct u; [apply ONE; auto|]. destruct lead as [|x lead]; [apply ONE; auto|].
    destruct n as [|n]; [lia|].
    assert (FU : fails (words unit_words) (p ++ sep ++ r)) by (apply (written_no_unit _ (a :: rs)); econstructor; eassumption).
    rewrite (captures_step n b _ _ (p ++ sep ++ r) (blank_taken (x :: lead) _ WL ltac:(discriminate) (starts_app p _ SP) FU)) by (rewrite (app_length (x :: lead)); cbn [length]; lia).
    cbn [extract_items]. rewrite extract_blank by now apply blank. cbn [bind]. apply (ONE [] n true y m d); [intros z []|now right| |exact D].
    rewrite (app_length (x :: lead)) in L. cbn [length app] in *. lia.
Qed.

(** what the target computes from a relative time is what it adds up to, however it is written *)
Theorem C106_extract : forall t as_ u, written t as_ u ->
  exists d, extract t = Ok (sum_years as_, sum_months as_, d) /\ duration_ok d /\ nanos d = sum_nanos as_.
Proof.
  intros t as_ u H. destruct (all_items t as_ u H [] (2 * length t + 2) false 0 0 ZERO) as ([[y m] d] & E & O & Y & M & N);
    [intros x []|cbn [app]; lia|apply duration_ok_iff; cbn; lia|].
  exists d. split; [|split; [exact O|]].
  - change (extract_items (0, 0, ZERO) (captures_iter (2 * length t + 2) extraction false ([] ++ t)) = Ok (sum_years as_, sum_months as_, d)). rewrite E, Y, M. reflexivity.
  - rewrite N. reflexivity.
Qed.
Print Assumptions C106_extract.

(** parse_fuzzy gives an accepted input which matches the main expression the value which the target expects, to the nanosecond *)
Theorem C106_value : forall s, utf8 s = true -> matched main_gnu s -> (exists x, gnu_parse_fuzzy gnu_new s = Ok x) -> gnu_value_passes s.
Proof.
  intros s U M ([[y m] d] & E). unfold gnu_value_passes.
  assert (L : loose s) by now apply main_loose.
  destruct (loose_reads s s L) as [(as_ & R)|(e & _ & Er & _)].
  - destruct (written_complete s as_ R) as (u & HW). destruct (C106_extract s as_ u HW) as (d' & E' & O' & N').
    destruct (C44_fuzzy_complete [] s [] as_) as (d2 & E2 & O2 & N2); [exact U|intros x []|intros x []|exact (written_trimmed _ _ _ HW)|exact R|].
    cbn [app] in E2. rewrite app_nil_r in E2. rewrite E2, E'. split; [reflexivity|]. split; [reflexivity|]. apply deqb_iff; [exact O2|exact O'|]. congruence.
  - assert (E2 : gnu_parse_fuzzy gnu_new s = Err e); [|congruence]. apply (C77_errors s e U).
    assert (T : trimmed s) by (split; [exact (starts_dark s (loose_starts s L))|exact (loose_trimmed s L)]).
    exists [], s, []. rewrite app_nil_r. split; [reflexivity|]. split; [intros x []|]. split; [intros x []|]. auto.
Qed.
Print Assumptions C106_value.

(** the first match is a match: of the same text, with the same captures *)
Theorem C106_first_match : forall r s k s', match_here r s = Some (k, s') -> exists m, s = m ++ s' /\ matches (caseless r) m k.
Proof.
  intros r s k s' H. unfold match_here in H. destruct (first_sound _ _ _ _ _ H) as (m & s2 & k2 & E & M & G). injection G as -> ->. eauto.
Qed.
Print Assumptions C106_first_match.

(** the whole check of the target *)
Theorem C106_fuzz_target : forall now s, clock_ok now -> utf8 s = true ->
  gnu_target_passes now s /\ (forall d, gnu_parse gnu_new now s = Ok d -> matched main_gnu s -> gnu_value_passes s).
Proof.
  intros now s N U. pose proof (C105_fuzz_target now s N U) as P. split; [exact P|]. intros d E M. apply C106_value; [exact U|exact M|].
  unfold gnu_target_passes in P. rewrite E in P. exact (proj1 P M).
Qed.
Print Assumptions C106_fuzz_target.

(** a text with a sign, a fraction, `ago` and a numeral: it meets the hypotheses, and the expected value is not zero. The order of the alternatives
    matters: `seconds` is tried before `second`, and `sec` comes last *)
Theorem C106_example :
  (matched main_gnu (%"-1.25 SECS ago last month") /\ extract (%"-1.25 SECS ago last month") = Ok (0, -1, Dur false (Std 1 250000000)) /\
   gnu_parse_fuzzy gnu_new (%"-1.25 SECS ago last month") = Ok (0, -1, Dur false (Std 1 250000000))) /\
  match_here (words [%"sec"; %"seconds"]) (%"seconds") = Some ([], %"onds") /\ match_here (words unit_words) (%"seconds") = Some ([], []).
Proof.
  split; [|split; vm_compute; reflexivity]. split; [|split; vm_compute; reflexivity].
  assert (Wh : white_space (%" ")) by (intros x [<-|[]]; now left).
  apply main_iff. exists (%"-"), true, (%"1.25 SECS ago"), (%" last month"). split; [reflexivity|]. split; [apply (gs_minus []); intros x []|]. split.
  - apply co_number. exists (%"1.25"), (%"1"), (%"25"). split.
    + apply (nt_fraction (%"1") (%"25")); [exact one_digit|discriminate| |discriminate]. change (%"25") with [50; 53]. intros x [<-|[<-|[]]]; lia.
    + right. exists (%" "), (%"SECS ago"), (Seconds 1), true. split; [reflexivity|]. split; [exact Wh|].
      apply (ut_ago (%"SECS") (Seconds 1) (%" ") (%"ago")); [|exact Wh|discriminate|reflexivity].
      exists [%"sec"; %"secs"; %"second"; %"seconds"], (%"secs"). split; [now left|]. split; [right; now left|reflexivity].
  - rewrite <- (app_nil_r (%" last month")). apply fs_more; [|constructor].
    apply (fu_white (%" ") [] false (%"last month") Wh); [discriminate|constructor|].
    apply (co_numeral (%"last") (-1) (%" ") (%"month") AMonth false); [|exact Wh|discriminate|].
    + exists [%"last"], (%"last"). split; [now left|]. split; [now left|reflexivity].
    + apply ut_plain. exists [%"month"; %"months"], (%"month"). split; [cbn; tauto|]. split; [now left|reflexivity].
Qed.
Print Assumptions C106_example.

(** a beginning of the text which matches is found: nothing is lost by the search *)
Lemma first_complete r : forall m k, matches r m k -> forall A s' (go : list (str * str) -> str -> option A), (forall k, go k s' <> None) -> first_match r (m ++ s') go <> None.
Proof.
  induction r as [|t p|w|a IHa b IHb|a IHa b IHb|r IH|r IH|r IH|r IH|r IH|n r IH]; intros m k M A s' go G.
  - destruct M as [-> _]. exact (G []).
  - destruct M as [(x & -> & Hx) _]. cbn. rewrite Hx. exact (G []).
  - destruct M as [-> _]. cbn [first_match]. rewrite firstn_app, Nat.sub_diag, firstn_O, app_nil_r, firstn_all.
    replace (str_eqb w w) with true by (symmetry; clear; induction w as [|x w IHw]; [reflexivity|cbn [str_eqb]; now rewrite Z.eqb_refl, IHw]). rewrite skipn_app, Nat.sub_diag, skipn_all. exact (G []).
  - destruct M as (m1 & m2 & k1 & k2 & -> & _ & M1 & M2). cbn [first_match]. rewrite <- app_assoc. apply (IHa m1 k1 M1). intros k0. apply (IHb m2 k2 M2). intros k3. apply G.
  - cbn [first_match]. destruct M as [M|M].
    + destruct (first_match a (m ++ s') go) eqn:E; [discriminate|]. destruct (IHa m k M A s' go G E).
    + destruct (first_match a (m ++ s') go); [discriminate|]. exact (IHb m k M A s' go G).
  - cbn [first_match]. destruct M as [[-> _]|M].
    + destruct (first_match r ([] ++ s') go); [discriminate|exact (G [])].
    + destruct (first_match r (m ++ s') go) eqn:E; [discriminate|]. destruct (IH m k M A s' go G E).
  - cbn [first_match matches] in *.
    assert (Q : forall m k, repeated (matches r) m k -> forall n k0, (length (m ++ s') <= n)%nat ->
      (fix star (n : nat) (k : list (str * str)) (s : str) : option A :=
         match n with
         | O => go k s
         | S n =>
             match first_match r s (fun k' s' => if (length s' <? length s)%nat then star n (k ++ k') s' else None) with
             | Some x => Some x
             | None => go k s
             end
         end) n k0 (m ++ s') <> None); [|exact (Q m k M _ [] (le_n _))].
    clear m k M. intros m k M. induction M as [|s k s0 k' M1 M2 IHM]; intros n k0 L.
    + cbn [app]. destruct n as [|n]; [apply G|]. match goal with |- match ?e with _ => _ end <> None => destruct e; [discriminate|apply G] end.
    + destruct s as [|x s]; [cbn [app] in *; apply IHM; exact L|]. destruct n as [|n]; [cbn in L; lia|]. rewrite <- app_assoc in *.
      match goal with |- match ?e with _ => _ end <> None => assert (E : e <> None); [|destruct e; [discriminate|contradiction]] end.
      apply (IH (x :: s) k M1). intros k3.
      replace (length (s0 ++ s') <? length ((x :: s) ++ s0 ++ s'))%nat with true by (symmetry; apply Nat.ltb_lt; rewrite (app_length (x :: s)); cbn; lia).
      apply IHM. rewrite (app_length (x :: s)) in L. cbn [length] in L. lia.
  - cbn [first_match matches] in *.
    assert (Q : forall m k, repeated (matches r) m k -> forall n k0, (length (m ++ s') <= n)%nat ->
      (fix star (n : nat) (k : list (str * str)) (s : str) : option A :=
         match go k s with
         | Some x => Some x
         | None =>
             match n with
             | O => None
             | S n => first_match r s (fun k' s' => if (length s' <? length s)%nat then star n (k ++ k') s' else None)
             end
         end) n k0 (m ++ s') <> None); [|exact (Q m k M _ [] (le_n _))].
    clear m k M. intros m k M. induction M as [|s k s0 k' M1 M2 IHM]; intros n k0 L.
    + cbn [app]. pose proof (G k0) as G0. destruct n as [|n]; (destruct (go k0 s'); [discriminate|contradiction]).
    + destruct s as [|x s]; [cbn [app] in *; apply IHM; exact L|]. destruct n as [|n]; [cbn in L; lia|]. rewrite <- app_assoc in *.
      match goal with |- match ?e with _ => _ end <> None => destruct e; [discriminate|] end.
      apply (IH (x :: s) k M1). intros k3.
      replace (length (s0 ++ s') <? length ((x :: s) ++ s0 ++ s'))%nat with true by (symmetry; apply Nat.ltb_lt; rewrite (app_length (x :: s)); cbn; lia).
      apply IHM. rewrite (app_length (x :: s)) in L. cbn [length] in L. lia.
  - cbn [first_match]. destruct M as (m1 & m2 & k1 & k2 & -> & _ & M1 & M2).
    assert (Q : forall m k, repeated (matches r) m k -> forall n k0, (length (m ++ s') <= n)%nat ->
      (fix star (n : nat) (k : list (str * str)) (s : str) : option A :=
         match n with
         | O => go k s
         | S n =>
             match first_match r s (fun k' s' => if (length s' <? length s)%nat then star n (k ++ k') s' else None) with
             | Some x => Some x
             | None => go k s
             end
         end) n k0 (m ++ s') <> None).
    { clear m1 m2 k1 k2 M1 M2. intros m k1 M. induction M as [|s k2 s0 k' M1 M2 IHM]; intros n k0 L.
      + cbn [app]. destruct n as [|n]; [apply G|]. match goal with |- match ?e with _ => _ end <> None => destruct e; [discriminate|apply G] end.
      + destruct s as [|x s]; [cbn [app] in *; apply IHM; exact L|]. destruct n as [|n]; [cbn in L; lia|]. rewrite <- app_assoc in *.
        match goal with |- match ?e with _ => _ end <> None => assert (E : e <> None); [|destruct e; [discriminate|contradiction]] end.
        apply (IH (x :: s) k2 M1). intros k3.
        replace (length (s0 ++ s') <? length ((x :: s) ++ s0 ++ s'))%nat with true by (symmetry; apply Nat.ltb_lt; rewrite (app_length (x :: s)); cbn; lia).
        apply IHM. rewrite (app_length (x :: s)) in L. cbn [length] in L. lia. }
    rewrite <- app_assoc. apply (IH m1 k1 M1). intros k3. exact (Q m2 k2 M2 _ k3 (le_n _)).
  - exact (IH m k M A s' go G).
  - destruct M as (k' & _ & M). cbn [first_match]. apply (IH m k' M). intros k0. apply G.
Qed.
Theorem C106_first_match_exists : forall r s, (exists k s', match_here r s = Some (k, s')) <-> exists m s' k, s = m ++ s' /\ matches (caseless r) m k.
Proof.
  intros r s. split.
  - intros (k & s' & H). destruct (C106_first_match r s k s' H) as (m & E & M). eauto.
  - intros (m & s' & k & -> & M). unfold match_here. pose proof (first_complete _ m k M _ s' (fun k s' => Some (k, s')) ltac:(discriminate)) as H.
    destruct (first_match (caseless r) (m ++ s') (fun k s' => Some (k, s'))) as [[k0 s0]|]; [eauto|contradiction].
Qed.
Print Assumptions C106_first_match_exists.

(** ** the target never panics while it computes the expected value, whatever the text *)
Lemma caps_none r P s k : captures_nothing r P -> matches (caseless r) s k -> k = [] /\ P s.
Proof. intros C M. apply C in M. tauto. Qed.
Inductive body_caps : list (str * str) -> Prop :=
| bc_keyword w k : word_for gnu_keywords w k -> body_caps [(%"keyword", w)]
| bc_numeral x v k u g : word_for gnu_numerals v k -> word_for gnu_units u g ->
    body_caps [(%"numeral", x); (%"numeral_value", v); (%"numeral_time_unit", u)]
| bc_number kD W F kU g : number_caps kD W F -> digit_string W -> digit_string F -> unit_caps kU g -> body_caps (kD ++ kU).
Lemma digits_caps s k : matches (caseless (Maybe digits_part)) s k -> exists W F, number_caps k W F /\ digit_string W /\ digit_string F.
Proof.
  intros [[-> ->]|(k' & -> & [(m1 & m2 & k1 & k2 & -> & -> & (ka & -> & M1) & m3 & m4 & k3 & k4 & -> & -> & M3 & kb & -> & M4)|(kc & -> & M)])].
  - exists (%"1"), []. split; [constructor|]. split; [exact one_digit|intros x []].
  - apply (caps_none _ _ _ _ cn_digits) in M1. apply (caps_none _ _ _ _ cn_point) in M3. apply (caps_none _ _ _ _ cn_digits) in M4.
    destruct M1 as [-> [_ D1]], M3 as [-> _], M4 as [-> [_ D4]]. exists m1, m4. split; [constructor|]. auto.
  - apply (caps_none _ _ _ _ cn_digits) in M. destruct M as [-> [_ D]]. exists s, []. split; [constructor|]. split; [exact D|intros x []].
Qed.
Lemma body_captured s k : matches (caseless body) s k -> body_caps k.
Proof.
  intros [[-> ->]|[(k' & -> & M)|[(k' & -> & M)|(m1 & m2 & k1 & k2 & -> & -> & M1 & m3 & m4 & k3 & k4 & -> & -> & M3 & M4)]]].
  - apply (bc_number [] (%"1") [] [] (Seconds 1)); [constructor|exact one_digit|intros x []|constructor].
  - apply (caps_none _ _ _ _ cn_keywords) in M. destruct M as [-> [k Hw]]. now apply (bc_keyword s k).
  - destruct M as (m1 & m2 & k1 & k2 & -> & -> & (ka & -> & M1) & m3 & m4 & k3 & k4 & -> & -> & M3 & kb & -> & M4).
    apply (caps_none _ _ _ _ cn_numerals) in M1. apply (caps_none _ _ _ _ (proj1 cn_delims)) in M3. apply (caps_none _ _ _ _ cn_units) in M4.
    destruct M1 as [-> [k Hk]], M3 as [-> _], M4 as [-> [g Hg]]. exact (bc_numeral _ m1 k m4 g Hk Hg).
  - destruct (digits_caps m1 k1 M1) as (W & F & N & DW & DF). apply (caps_none _ _ _ _ (proj1 cn_delims)) in M3. destruct M3 as [-> _]. cbn [app].
    destruct M4 as [[-> ->]|(kb & -> & M4)].
    + exact (bc_number k1 W F [] (Seconds 1) N DW DF uc_none).
    + apply (caps_none _ _ _ _ cn_units) in M4. destruct M4 as [-> [g Hg]]. exact (bc_number k1 W F _ g N DW DF (uc_unit m4 g Hg)).
Qed.
Lemma extraction_captured s k : matches (caseless extraction) s k ->
  exists kS n kB kA ago, k = (%"duration", s) :: kS ++ kB ++ kA /\ sign_caps kS n /\ body_caps kB /\ ago_caps kA ago.
Proof.
  intros (k' & -> & m1 & m2 & kS & k2 & -> & -> & M1 & m3 & m4 & kB & k4 & -> & -> & M3 & m5 & m6 & k5 & kA & -> & -> & M5 & M6).
  apply (caps_none _ _ _ _ (proj1 cn_delims)) in M5. destruct M5 as [-> _]. apply body_captured in M3.
  assert (A : exists ago, ago_caps kA ago).
  { destruct M6 as [[_ ->]|(ka & -> & M6)]; [exists false; constructor|]. apply (caps_none _ _ _ _ cn_ago) in M6. destruct M6 as [-> _]. exists true. constructor. }
  assert (S : exists n, sign_caps kS n).
  { destruct M1 as [[_ ->]|(m7 & m8 & k7 & k8 & _ & -> & (ka & -> & M7) & M8)]; [exists false; constructor|].
    apply (caps_none _ _ _ _ cn_sign) in M7. apply (caps_none _ _ _ _ (proj1 cn_delims)) in M8. destruct M7 as [-> [->| ->]], M8 as [-> _]; [exists false|exists true]; constructor. }
  destruct A as [ago A], S as [n S]. exists kS, n, kB, kA, ago. auto.
Qed.
Lemma number_step_ok y m d n W F g : duration_ok d -> digit_string W -> digit_string F -> unit_fits g ->
  exists y' m' d', number_step (y, m, d) n W F g = Ok (y', m', d') /\ duration_ok d'.
Proof.
  intros D DW DF G. destruct (whole_fract_value W F n DW DF) as (w & f & E & RW & RF & _).
  unfold number_step. rewrite E. cbv zeta iota beta.
  assert (A : forall w f, 0 <= w <= u64_max -> 0 <= f <= 999999999 -> exists d', saturating_add d (from_std n (Std w f)) = Ok d' /\ duration_ok d').
  { intros w0 f0 H1 H2. destruct (add_std d n w0 f0 D H1 H2) as (d' & E1 & O & _). eauto. }
  destruct g as [k| |].
  - cbn [unit_fits] in G. destruct (w * k <=? u64_max) eqn:E1; cbn [bind].
    + destruct (A (w * k) f ltac:(nia) RF) as (d' & E2 & O). rewrite E2. cbn [bind]. eauto 6.
    + destruct (A u64_max 999999999 ltac:(unfold u64_max; lia) ltac:(lia)) as (d' & E2 & O). rewrite E2. cbn [bind]. eauto 6.
  - cbn [bind]. destruct (A 0 0 ltac:(unfold u64_max; lia) ltac:(lia)) as (d' & E2 & O). rewrite E2. cbn [bind]. eauto 6.
  - cbn [bind]. destruct (A 0 0 ltac:(unfold u64_max; lia) ltac:(lia)) as (d' & E2 & O). rewrite E2. cbn [bind]. eauto 6.
Qed.
Lemma item_ok y m d s k : duration_ok d -> matches (caseless extraction) s k -> exists y' m' d', extract_item (y, m, d) k = Ok (y', m', d') /\ duration_ok d'.
Proof.
  intros D M. destruct (extraction_captured s k M) as (kS & n & kB & kA & ago & -> & S & B & A).
  destruct (forallb fuzz_delimiter s) eqn:T; [exists y, m, d; split; [now apply extract_blank|exact D]|].
  assert (AD : forall a acc', add_to (y, m, d) a acc' -> exists y' m' d', acc' = (y', m', d') /\ duration_ok d') by (intros a [[y1 m1] d1] [O _]; eauto 6).
  destruct B as [w k Hw|x v k u g Hv Hu|kD W F kU g N DW DF U].
  - pose proof (keyword_value w k Hw) as EV. pose proof (keyword_range w k Hw) as RK.
    assert (X : extract_item (y, m, d) ((%"duration", s) :: kS ++ [(%"keyword", w)] ++ kA) =
      let* d := saturating_add d (from_std (xorb (xorb n ago) (86400 * k <? 0)) (Std (Z.abs (86400 * k)) 0)) in Ok (y, m, d)).
    { unfold extract_item. destruct S; destruct A; cbn [app]; captures; rewrite T; cbv beta iota;
      change (str_eqb [43] (%"-")) with false; change (str_eqb [45] (%"-")) with true; cbn [xorb negb]; cbv beta iota; cbn [bind];
      rewrite EV; cbn [bind]; reflexivity. }
    rewrite X. destruct (add_std d (xorb (xorb n ago) (86400 * k <? 0)) (Z.abs (86400 * k)) 0 D ltac:(unfold u64_max; lia) ltac:(lia)) as (d' & E2 & O & _).
    rewrite E2. cbn [bind]. eauto 6.
  - destruct (extract_numeral y m d s kS n x v k u g kA ago D S Hv Hu A T) as (acc' & E & AT). destruct (AD _ _ AT) as (y' & m' & d' & -> & O). eauto 6.
  - rewrite <- !app_assoc. rewrite (extract_number (y, m, d) s kS n kD W F kU g kA ago S N U A T). apply number_step_ok; try assumption.
    destruct U as [|u g Hu]; [cbn; lia|]. pose proof (unit_range u g Hu) as R. destruct g; cbn [unit_fits]; trivial. lia.
Qed.
Lemma items_ok n : forall b s y m d, duration_ok d -> exists y' m' d', extract_items (y, m, d) (captures_iter n extraction b s) = Ok (y', m', d') /\ duration_ok d'.
Proof.
  induction n as [|n IH]; intros b s y m d D; [exists y, m, d; auto|]. cbn [captures_iter].
  assert (NX : forall y m d, duration_ok d -> exists y' m' d', extract_items (y, m, d) (match s with [] => [] | _ :: s' => captures_iter n extraction false s' end) = Ok (y', m', d') /\ duration_ok d').
  { intros y0 m0 d0 D0. destruct s as [|x s]; [exists y0, m0, d0; auto|now apply IH]. }
  destruct (match_here extraction s) as [[k s']|] eqn:E; [|now apply NX].
  destruct (C106_first_match extraction s k s' E) as (t & _ & M). destruct (item_ok y m d t k D M) as (y1 & m1 & d1 & E1 & D1).
  destruct (length s' <? length s)%nat.
  - cbn [extract_items]. rewrite E1. cbn [bind]. now apply IH.
  - destruct b; cbn [app]; [now apply NX|]. cbn [extract_items]. rewrite E1. cbn [bind]. now apply NX.
Qed.
Theorem C106_extract_never_panics : forall s, exists years months d, extract s = Ok (years, months, d) /\ duration_ok d.
Proof. intros s. apply items_ok. apply duration_ok_iff. cbn. lia. Qed.
Print Assumptions C106_extract_never_panics.
