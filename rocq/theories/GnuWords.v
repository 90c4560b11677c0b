(** * The words of the gnu parser: the packed comparison is a case insensitive comparison *)
From Verif Require Import Prelude Util Time Config Bytes SpecTime SpecNum SpecGnu NumProofs Utf8Proofs Gnu.

Lemma byte_split a x : 0 <= a < 256 -> 0 <= x -> forall n, 0 <= n ->
    Z.testbit (a + 256 * x) n = if n <? 8 then Z.testbit a n else Z.testbit x (n - 8).
Proof.
  intros Ha Hx n Hn. destruct (Z.ltb_spec n 8).
  - rewrite <- (Z.mod_pow2_bits_low (a + 256 * x) 8 n) by lia.
    change (2 ^ 8) with 256. rewrite (Z.mul_comm 256), Z.mod_add by lia.
    rewrite Z.mod_small by lia. reflexivity.
  - replace n with ((n - 8) + 8) at 1 by lia. rewrite <- Z.div_pow2_bits by lia.
    change (2 ^ 8) with 256. rewrite (Z.mul_comm 256), Z.div_add by lia.
    rewrite Z.div_small by lia. reflexivity.
Qed.
Lemma lor_byte_range a m : 0 <= a < 256 -> 0 <= m < 256 -> 0 <= Z.lor a m < 256.
Proof.
  intros Ha Hm. assert (0 <= Z.lor a m) by (apply Z.lor_nonneg; lia). split; [assumption|].
  destruct (Z.eq_dec (Z.lor a m) 0) as [->|N]; [lia|]. change 256 with (2 ^ 8). apply Z.log2_lt_pow2; [lia|].
  rewrite Z.log2_lor by lia.
  assert (L : forall z, 0 <= z < 256 -> Z.log2 z < 8).
  { intros z Hz. destruct (Z.eq_dec z 0) as [->|]; [cbn; lia|]. apply Z.log2_lt_pow2; lia. }
  pose proof (L a Ha). pose proof (L m Hm). lia.
Qed.
Lemma lor_split a m x y : 0 <= a < 256 -> 0 <= m < 256 -> 0 <= x -> 0 <= y ->
  Z.lor (a + 256 * x) (m + 256 * y) = Z.lor a m + 256 * Z.lor x y.
Proof.
  intros Ha Hm Hx Hy. apply Z.bits_inj'. intros n Hn. assert (0 <= Z.lor x y) by (apply Z.lor_nonneg; lia).
  rewrite (byte_split (Z.lor a m)) by (auto using lor_byte_range).
  rewrite Z.lor_spec, !byte_split by lia.
  destruct (n <? 8); now rewrite Z.lor_spec.
Qed.

Definition bytes (l : str) : Prop := forall x, In x l -> 0 <= x <= 255.
Lemma bytes_cons x l : bytes (x :: l) <-> 0 <= x <= 255 /\ bytes l.
Proof. unfold bytes. cbn [In]. split; [intros H; auto|]. intros [H1 H2] y [<-|H]; auto. Qed.
Lemma le_num_nonneg l : bytes l -> 0 <= le_num l.
Proof. induction l as [|x l IH]; cbn [le_num]; [lia|]. rewrite bytes_cons. intros [H1 H2]. specialize (IH H2). lia. Qed.

Fixpoint mask (n : nat) : Z := match n with O => 0 | S n => 32 + 256 * mask n end.
Lemma mask_nonneg n : 0 <= mask n. Proof. induction n; cbn [mask]; lia. Qed.
Lemma LOWER_CASE_MASK_is n : (n <= 8)%nat -> nth n LOWER_CASE_MASK 0 = mask n.
Proof. intros H. do 9 (destruct n as [|n]; [reflexivity|]). lia. Qed.

Lemma lor_mask l : bytes l -> Z.lor (le_num l) (mask (length l)) = le_num (map (fun x => Z.lor x 32) l).
Proof.
  induction l as [|x l IH]; [reflexivity|]. rewrite bytes_cons. intros [H1 H2]. cbn [le_num length mask map].
  rewrite lor_split by (try apply le_num_nonneg; try apply mask_nonneg; try assumption; lia). now rewrite IH.
Qed.
Lemma bytes_lor l : bytes l -> bytes (map (fun x => Z.lor x 32) l).
Proof.
  intros H x Hx. apply in_map_iff in Hx. destruct Hx as (y & <- & Hy). specialize (H y Hy).
  pose proof (lor_byte_range y 32 ltac:(lia) ltac:(lia)). lia.
Qed.
Lemma le_num_inj a : forall b, length a = length b -> bytes a -> bytes b -> le_num a = le_num b -> a = b.
Proof.
  induction a as [|x a IH]; intros [|y b] L Ha Hb E; try discriminate; [reflexivity|].
  apply bytes_cons in Ha, Hb. cbn [le_num] in E. cbn [length] in L.
  assert (x = y /\ le_num a = le_num b) as [-> E2] by lia. f_equal. apply IH; [lia|tauto|tauto|exact E2].
Qed.

(** a lower case letter *)
Definition small (x : byte) : bool := (97 <=? x) && (x <=? 122).
Lemma lor_letter x y : 0 <= x <= 255 -> small y = true -> (Z.lor x 32 = y <-> to_lower x = to_lower y).
Proof.
  intros Hx Hy.
  assert (A : forallb (fun x => forallb (fun y => Bool.eqb (Z.lor x 32 =? y) (to_lower x =? to_lower y))
      (map Z.of_nat (seq 97 26))) (map Z.of_nat (seq 0 256)) = true) by (vm_compute; reflexivity).
  rewrite forallb_forall in A. specialize (A x). rewrite in_map_iff in A.
  assert (I1 : exists n, Z.of_nat n = x /\ In n (seq 0 256)) by (exists (Z.to_nat x); rewrite in_seq; lia).
  specialize (A I1). rewrite forallb_forall in A. specialize (A y). rewrite in_map_iff in A.
  unfold small in Hy.
  assert (I2 : exists n, Z.of_nat n = y /\ In n (seq 97 26)) by (exists (Z.to_nat y); rewrite in_seq; lia).
  specialize (A I2). apply Bool.eqb_prop in A. lia.
Qed.
Lemma lor_word l : forall w, bytes l -> forallb small w = true ->
  (map (fun x => Z.lor x 32) l = w <-> str_eq_nocase l w = true).
Proof.
  induction l as [|x l IH]; intros [|y w] Hl Hw; cbn; try (split; [reflexivity || discriminate|reflexivity || discriminate]).
  apply bytes_cons in Hl. cbn in Hw. apply andb_true_iff in Hw. destruct Hw as [Hy Hw]. destruct Hl as [Hx Hl].
  rewrite andb_true_iff, <- (IH w Hl Hw). unfold eq_nocase. rewrite Z.eqb_eq, <- (lor_letter x y Hx Hy).
  split; [intros E; injection E as -> ->; auto|]. now intros [-> ->].
Qed.

(** the packed word *)
Definition packed (w : str) : Z * Z :=
  if (8 <? length w)%nat then (le_num (firstn 8 w), le_num (skipn 8 w)) else (le_num w, 0).
Lemma bytes_firstn n l : bytes l -> bytes (firstn n l).
Proof. intros H x Hx. apply H. rewrite <- (firstn_skipn n l). apply in_or_app. now left. Qed.
Lemma bytes_skipn n l : bytes l -> bytes (skipn n l).
Proof. intros H x Hx. apply H. rewrite <- (firstn_skipn n l). apply in_or_app. now right. Qed.

Lemma to_lowercase_packed l : bytes l -> (length l <= 16)%nat -> to_lowercase_u64 l = packed (map (fun x => Z.lor x 32) l).
Proof.
  intros Hb L. unfold to_lowercase_u64, packed. rewrite map_length. destruct (Nat.ltb_spec 8 (length l)) as [G|G].
  - rewrite firstn_map, skipn_map. f_equal.
    + rewrite LOWER_CASE_MASK_is by lia. replace 8%nat with (length (firstn 8 l)) at 2 by (rewrite firstn_length; lia).
      apply lor_mask. now apply bytes_firstn.
    + rewrite LOWER_CASE_MASK_is by lia. replace (length l - 8)%nat with (length (skipn 8 l)) by now rewrite skipn_length.
      apply lor_mask. now apply bytes_skipn.
  - rewrite LOWER_CASE_MASK_is by lia. now rewrite lor_mask.
Qed.
Lemma packed_inj a b : length a = length b -> bytes a -> bytes b -> packed a = packed b -> a = b.
Proof.
  intros L Ha Hb. unfold packed. rewrite L. destruct (8 <? length b)%nat.
  - intros E. injection E as E1 E2. rewrite <- (firstn_skipn 8 a), <- (firstn_skipn 8 b). f_equal.
    + apply le_num_inj; auto using bytes_firstn. rewrite !firstn_length. lia.
    + apply le_num_inj; auto using bytes_skipn. rewrite !skipn_length. lia.
  - intros E. injection E as E. now apply le_num_inj.
Qed.

(** C40 for one word: the comparison of the packed integers is the comparison of the words ignoring case *)
Lemma packed_test l w : bytes l -> (length l <= 16)%nat -> length w = length l -> forallb small w = true ->
  pair_eqb (to_lowercase_u64 l) (packed w) = str_eq_nocase l w.
Proof.
  intros Hb L Lw Hw. rewrite to_lowercase_packed by assumption.
  assert (Bw : bytes w).
  { intros x Hx. rewrite forallb_forall in Hw. specialize (Hw x Hx). unfold small in Hw. lia. }
  apply eq_true_iff_eq. rewrite <- (lor_word l w Hb Hw). unfold pair_eqb. rewrite andb_true_iff, !Z.eqb_eq. split.
  - intros [E1 E2]. apply packed_inj; auto using bytes_lor; [now rewrite map_length|].
    destruct (packed (map _ l)), (packed w). cbn in *. congruence.
  - intros ->. auto.
Qed.

Lemma select_packed {A} l (arms : list (str * A)) : bytes l -> (length l <= 16)%nat ->
  forallb (fun e => (length (fst e) =? length l)%nat && forallb small (fst e)) arms = true ->
  select (to_lowercase_u64 l) (map (fun e => (packed (fst e), snd e)) arms) =
  match find (fun e => str_eq_nocase l (fst e)) arms with Some e => Some (snd e) | None => None end.
Proof.
  intros Hb L. induction arms as [|[w a] arms IH]; [reflexivity|]. cbn [forallb fst]. rewrite !andb_true_iff.
  intros [[H1%Nat.eqb_eq H2] H3]. cbn [map select fst snd find]. rewrite packed_test by auto.
  destruct (str_eq_nocase l w); [reflexivity|]. now apply IH.
Qed.

(** all words in one table; different lengths never match *)
Lemma nocase_length_false l w : length w <> length l -> str_eq_nocase l w = false.
Proof. intros H. destruct (str_eq_nocase l w) eqn:E; [|reflexivity]. apply str_eq_nocase_length in E. congruence. Qed.

Definition unit_table : list (str * (time_unit * multiplier)) :=
  [ (%"sec", SECOND_UNIT); (%"min", MINUTE_UNIT); (%"day", DAY_UNIT);
    (%"secs", SECOND_UNIT); (%"mins", MINUTE_UNIT); (%"days", DAY_UNIT); (%"hour", HOUR_UNIT); (%"week", WEEK_UNIT); (%"year", YEAR_UNIT);
    (%"hours", HOUR_UNIT); (%"weeks", WEEK_UNIT); (%"years", YEAR_UNIT); (%"month", MONTH_UNIT);
    (%"second", SECOND_UNIT); (%"minute", MINUTE_UNIT); (%"months", MONTH_UNIT);
    (%"seconds", SECOND_UNIT); (%"minutes", MINUTE_UNIT);
    (%"fortnight", FORTNIGHT_UNIT); (%"fortnights", FORTNIGHT_UNIT) ].
Definition keyword_table : list (str * (time_unit * multiplier)) :=
  [ (%"now", (Day, Mul 0 0)); (%"today", (Day, Mul 0 0)); (%"tomorrow", (Day, Mul 1 0)); (%"yesterday", (Day, Mul (-1) 0)) ].
Definition numeral_table : list (str * multiplier) :=
  [ (%"last", Mul (-1) 0); (%"this", Mul 0 0); (%"next", Mul 1 0);
    (%"first", Mul 1 0); (%"third", Mul 3 0); (%"fifth", Mul 5 0); (%"sixth", Mul 6 0); (%"ninth", Mul 9 0); (%"tenth", Mul 10 0);
    (%"fourth", Mul 4 0); (%"eighth", Mul 8 0); (%"seventh", Mul 7 0); (%"twelfth", Mul 12 0); (%"eleventh", Mul 11 0) ].

Definition lookup {A} (table : list (str * A)) (l : str) : option A :=
  match find (fun e => str_eq_nocase l (fst e)) table with Some e => Some (snd e) | None => None end.
Definition of_length {A} (n : nat) (table : list (str * A)) := filter (fun e => (length (fst e) =? n)%nat) table.
Lemma lookup_of_length {A} (table : list (str * A)) l : lookup table l = lookup (of_length (length l) table) l.
Proof.
  unfold lookup, of_length. f_equal. induction table as [|[w a] table IH]; [reflexivity|]. cbn [find filter fst].
  destruct (Nat.eqb_spec (length w) (length l)) as [E|N].
  - cbn [find fst]. destruct (str_eq_nocase l w); [reflexivity|exact IH].
  - now rewrite nocase_length_false.
Qed.

(** the debug assertion of to_lowercase_u64 holds wherever a lookup calls it: the lengths of the arms *)
Lemma lookup_lengths : Forall (fun n => (n <= 16)%nat) [3; 4; 5; 6; 7; 8; 9; 10]%nat.
Proof. repeat constructor. Qed.

Lemma unit_get_lookup l : bytes l -> gnu_unit_get l = lookup unit_table l.
Proof.
  intros Hb. rewrite lookup_of_length. unfold gnu_unit_get. remember (length l) as n eqn:E. symmetry in E.
  do 11 (destruct n as [|n]; [first [reflexivity | 
    match goal with |- select _ ?arms = lookup (of_length ?k ?t) _ =>
      change arms with (map (fun e => (packed (fst e), snd e)) (of_length k t)); apply select_packed;
        [exact Hb|rewrite E; lia|rewrite E; reflexivity] end]|]).
  reflexivity.
Qed.
Lemma keyword_get_lookup l : bytes l -> gnu_keyword_get l = lookup keyword_table l.
Proof.
  intros Hb. rewrite lookup_of_length. unfold gnu_keyword_get. remember (length l) as n eqn:E. symmetry in E.
  do 11 (destruct n as [|n]; [first [reflexivity | 
    match goal with |- select _ ?arms = lookup (of_length ?k ?t) _ =>
      change arms with (map (fun e => (packed (fst e), snd e)) (of_length k t)); apply select_packed;
        [exact Hb|rewrite E; lia|rewrite E; reflexivity] end]|]).
  reflexivity.
Qed.
Lemma numeral_get_lookup l : bytes l -> gnu_numeral_get l = lookup numeral_table l.
Proof.
  intros Hb. rewrite lookup_of_length. unfold gnu_numeral_get. remember (length l) as n eqn:E. symmetry in E.
  do 11 (destruct n as [|n]; [first [reflexivity | 
    match goal with |- select _ ?arms = lookup (of_length ?k ?t) _ =>
      change arms with (map (fun e => (packed (fst e), snd e)) (of_length k t)); apply select_packed;
        [exact Hb|rewrite E; lia|rewrite E; reflexivity] end]|]).
  reflexivity.
Qed.

Lemma nocase_same l : forall v w, str_eq_nocase l v = true -> str_eq_nocase l w = str_eq_nocase v w.
Proof.
  induction l as [|x l IH]; intros [|y v] [|z w]; cbn; try discriminate; try reflexivity.
  rewrite andb_true_iff. unfold eq_nocase. intros [H1%Z.eqb_eq H2]. rewrite H1. f_equal. now apply IH.
Qed.
Lemma lookup_same {A} (t : list (str * A)) l v : str_eq_nocase l v = true -> lookup t l = lookup t v.
Proof.
  intros H. unfold lookup. f_equal. induction t as [|[w a] t IH]; [reflexivity|]. cbn [find fst].
  rewrite (nocase_same l v w H). destruct (str_eq_nocase v w); [reflexivity|exact IH].
Qed.
Lemma lookup_in {A} (t : list (str * A)) l a : lookup t l = Some a -> exists w, In (w, a) t /\ str_eq_nocase l w = true.
Proof.
  unfold lookup. destruct (find _ t) as [[w b]|] eqn:E; [|discriminate]. apply find_some in E. cbn [fst snd] in *.
  intros [= <-]. eauto.
Qed.

Lemma str_eqb_eq a : forall b, str_eqb a b = true -> a = b.
Proof.
  induction a as [|x a IH]; intros [|y b]; cbn; try discriminate; [reflexivity|]. rewrite andb_true_iff.
  intros [H1%Z.eqb_eq H2]. subst. f_equal. now apply IH.
Qed.

Section Table.
Context {A B : Type} (eqb : B -> B -> bool) (f : A -> B) (t : list (str * A)) (spec : list (B * list str)).
Hypothesis Heqb : forall x y, eqb x y = true -> x = y.
(** every word of the code is documented with the same value, and the other way round *)
Hypothesis H1 : forallb (fun e => existsb (fun r => eqb (fst r) (f (snd e)) && existsb (fun v => str_eqb (fst e) v) (snd r)) spec) t = true.
Hypothesis H2 : forallb (fun r => forallb (fun v => match lookup t v with Some a => eqb (f a) (fst r) | None => false end) (snd r)) spec = true.

Lemma table_sound l a : lookup t l = Some a -> word_for spec l (f a).
Proof.
  intros (w & I & E)%lookup_in. rewrite forallb_forall in H1. specialize (H1 _ I). apply existsb_exists in H1.
  destruct H1 as ([b ws] & I2 & E2). cbn [fst snd] in E2. apply andb_true_iff in E2. destruct E2 as [->%Heqb E2].
  apply existsb_exists in E2. destruct E2 as (v & I3 & <-%str_eqb_eq). exists ws, w. auto.
Qed.
Lemma table_complete l b : word_for spec l b -> exists a, lookup t l = Some a /\ f a = b.
Proof.
  intros (ws & v & I & I2 & E). rewrite (lookup_same t l v E). rewrite forallb_forall in H2. specialize (H2 _ I). cbn [fst snd] in H2.
  rewrite forallb_forall in H2. specialize (H2 _ I2). destruct (lookup t v) as [a|]; [|discriminate]. apply Heqb in H2. eauto.
Qed.
End Table.

(** what a unit of the code is worth *)
Definition worth (um : time_unit * multiplier) : gnu_unit :=
  match fst um with
  | Month => AMonth
  | Year => AYear
  | u => Seconds (coef (unit_multiplier u) * coef (snd um))
  end.
Definition gnu_unit_eqb (a b : gnu_unit) : bool :=
  match a, b with Seconds x, Seconds y => x =? y | AMonth, AMonth | AYear, AYear => true | _, _ => false end.
Lemma gnu_unit_eqb_eq a b : gnu_unit_eqb a b = true -> a = b.
Proof. destruct a as [x| |], b as [y| |]; cbn; try discriminate; try reflexivity. intros H%Z.eqb_eq. now subst. Qed.

Lemma unit_words l um : bytes l -> gnu_unit_get l = Some um -> word_for gnu_units l (worth um).
Proof.
  intros Hb. rewrite unit_get_lookup by assumption. apply (table_sound gnu_unit_eqb worth _ _ gnu_unit_eqb_eq). vm_compute. reflexivity.
Qed.
Lemma unit_words_complete l g : bytes l -> word_for gnu_units l g -> exists um, gnu_unit_get l = Some um /\ worth um = g.
Proof.
  intros Hb. rewrite unit_get_lookup by assumption. apply (table_complete gnu_unit_eqb worth _ _ gnu_unit_eqb_eq). vm_compute. reflexivity.
Qed.
Lemma zeqb_eq a b : Z.eqb a b = true -> a = b. Proof. apply Z.eqb_eq. Qed.
Lemma keyword_words l um : bytes l -> gnu_keyword_get l = Some um ->
  word_for gnu_keywords l (coef (snd um)) /\ fst um = Day /\ expo (snd um) = 0.
Proof.
  intros Hb. rewrite keyword_get_lookup by assumption. intros H. split.
  - revert H. apply (table_sound Z.eqb (fun um => coef (snd um)) _ _ zeqb_eq). vm_compute. reflexivity.
  - apply lookup_in in H. destruct H as (w & I & _). cbn in I.
    repeat match goal with H : _ \/ _ |- _ => destruct H as [H|H] end; try contradiction; injection I as _ <-; split; reflexivity.
Qed.
Lemma keyword_words_complete l k : bytes l -> word_for gnu_keywords l k -> gnu_keyword_get l = Some (Day, Mul k 0).
Proof.
  intros Hb H. destruct (table_complete Z.eqb (fun um : time_unit * multiplier => coef (snd um)) keyword_table gnu_keywords zeqb_eq eq_refl l k H)
    as ([u [c e]] & E & <-). rewrite <- keyword_get_lookup in E by assumption. rewrite E.
  destruct (keyword_words l _ Hb E) as (_ & E1 & E2). cbn in *. congruence.
Qed.
Lemma numeral_words l m : bytes l -> gnu_numeral_get l = Some m -> word_for gnu_numerals l (coef m) /\ expo m = 0.
Proof.
  intros Hb. rewrite numeral_get_lookup by assumption. intros H. split.
  - revert H. apply (table_sound Z.eqb coef _ _ zeqb_eq). vm_compute. reflexivity.
  - apply lookup_in in H. destruct H as (w & I & _). cbn in I.
    repeat match goal with H : _ \/ _ |- _ => destruct H as [H|H] end; try contradiction; injection I as _ <-; reflexivity.
Qed.
Lemma numeral_words_complete l k : bytes l -> word_for gnu_numerals l k -> gnu_numeral_get l = Some (Mul k 0).
Proof.
  intros Hb H. destruct (table_complete Z.eqb coef numeral_table gnu_numerals zeqb_eq eq_refl l k H)
    as ([c e] & E & <-). rewrite <- numeral_get_lookup in E by assumption. rewrite E.
  destruct (numeral_words l _ Hb E) as (_ & E2). cbn in *. congruence.
Qed.
(** the values in the tables, whatever the text *)
Lemma select_in {A} x (arms : list ((Z * Z) * A)) a : select x arms = Some a -> exists k, In (k, a) arms.
Proof.
  induction arms as [|[k b] arms IH]; cbn [select]; [discriminate|]. destruct (pair_eqb x k).
  - intros [= <-]. exists k. now left.
  - intros H. destruct (IH H) as [k' I]. exists k'. now right.
Qed.
Ltac arms n E :=
  do 11 (try (destruct n as [|n]; [try discriminate E; apply select_in in E; destruct E as [? E]; clear n|])); try discriminate E;
  cbn in E; repeat match type of E with _ \/ _ => destruct E as [E|E] end; try contradiction.
Lemma unit_values l u m : gnu_unit_get l = Some (u, m) ->
  expo m = 0 /\ (coef m = 1 \/ coef m = 2) /\ expo (unit_multiplier u) = 0 /\ 1 <= coef (unit_multiplier u) <= 31557600 /\
  (u = Month \/ u = Year -> m = Mul 1 0) /\ (u = Second -> m = Mul 1 0).
Proof.
  unfold gnu_unit_get. intros E. generalize dependent (length l). intros n E.
  arms n E; injection E as _ <- <-;
    cbn; (split; [reflexivity|]); (split; [lia|]); (split; [reflexivity|]); (split; [lia|]); split; intros; auto;
    try discriminate; intuition discriminate.
Qed.
Lemma keyword_values l u m : gnu_keyword_get l = Some (u, m) -> u = Day /\ -1 <= coef m <= 1 /\ expo m = 0.
Proof.
  unfold gnu_keyword_get. intros E. generalize dependent (length l). intros n E.
  arms n E; injection E as _ <- <-; cbn; (split; [reflexivity|lia]).
Qed.
Lemma numeral_values l m : gnu_numeral_get l = Some m -> -1 <= coef m <= 12 /\ expo m = 0.
Proof.
  unfold gnu_numeral_get. intros E. generalize dependent (length l). intros n E.
  arms n E; injection E as _ <-; cbn; lia.
Qed.
Lemma word_for_fun g l : (* a word has one value *)
  forall a b, bytes l -> word_for gnu_units l a -> word_for gnu_units l b -> (a = g -> b = g).
Proof.
  intros a b Hb Ha Hb2 ->. destruct (unit_words_complete l g Hb Ha) as (um & E & <-).
  destruct (unit_words_complete l b Hb Hb2) as (um' & E' & <-). congruence.
Qed.
