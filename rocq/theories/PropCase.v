(** * C89: letter case matters in the identifiers only *)
From Verif Require Import Prelude Time Config Parse Standard SpecTime SpecNum SpecParse SpecValue SpecGrammar SpecSpelling.
From Verif Require Import TimeProofs NumProofs Utf8Proofs RefGrammar StandardProofs PropParse PropStandard PropSettings ExEnv PropGnuText.

Definition is_letter (x : byte) : bool := ((65 <=? x) && (x <=? 90)) || ((97 <=? x) && (x <=? 122)).

Section Case.
Context (c : config) (tu : units_like) (kw : option units_like) (nums : option numbers_like).
Notation inner := (c_inner_delimiter c).
Notation outer := (c_outer_delimiter c).

(** a byte which is no part of a word of letters *)
Definition edge (x : byte) : bool := negb (is_letter x) || inner x || outer x.
(** the place between [p] and [q] is not within a word *)
Definition cut (p q : str) : Prop := p = [] \/ q = [] \/ (exists p' x, p = p' ++ [x] /\ edge x = true) \/ starts_with edge q.
(** at the same places of the texts, words have the same meaning: both are the same time unit, keyword and numeral, or both are none *)
Definition same_words (s s' : str) : Prop := forall p id r p' id' r', s = p ++ id ++ r -> s' = p' ++ id' ++ r' ->
  length p = length p' -> length id = length id' -> cut p (id ++ r) -> cut (p ++ id) r ->
  u_get tu id = u_get tu id' /\ (forall k, kw = Some k -> u_get k id = u_get k id') /\ (forall f, nums = Some f -> f id = f id').
(** letters are delimiters in both cases or in none *)
Definition case_delimiters : Prop := forall x y, eq_nocase x y = true -> inner x = inner y /\ outer x = outer y.
Context (CD : case_delimiters).

Definition agree (l l' : str) : Prop := str_eq_nocase l l' = true /\ same_words l l'.

Lemma letter_nocase x y : eq_nocase x y = true -> is_letter x = is_letter y.
Proof. unfold eq_nocase, to_lower, is_letter. destruct ((65 <=? x) && (x <=? 90)) eqn:E1, ((65 <=? y) && (y <=? 90)) eqn:E2; lia. Qed.
Lemma same_byte x y : eq_nocase x y = true -> is_letter x = false -> y = x.
Proof. unfold eq_nocase, to_lower, is_letter. destruct ((65 <=? x) && (x <=? 90)) eqn:E1, ((65 <=? y) && (y <=? 90)) eqn:E2; lia. Qed.
Lemma edge_nocase x y : eq_nocase x y = true -> edge x = edge y.
Proof. intros H. unfold edge. destruct (CD x y H) as [-> ->]. now rewrite (letter_nocase x y H). Qed.
Definition blind (p : byte -> bool) : Prop := forall x y, eq_nocase x y = true -> p x = p y.
Lemma blind_other p : (forall x, p x = true -> is_letter x = false) -> blind p.
Proof.
  intros H x y E. destruct (is_letter x) eqn:L.
  - pose proof (letter_nocase x y E) as L'. rewrite L in L'. destruct (p x) eqn:P1; [rewrite (H x P1) in L; discriminate|]. destruct (p y) eqn:P2; [|reflexivity].
    rewrite (H y P2) in L'. discriminate.
  - now rewrite (same_byte x y E L).
Qed.
Lemma digit_blind : blind is_digit. Proof. apply blind_other. unfold is_digit, is_letter. intros x. lia. Qed.
Lemma sign_blind : blind is_sign. Proof. apply blind_other. unfold is_sign, is_letter. intros x. lia. Qed.
Lemma dot_blind : blind is_dot. Proof. apply blind_other. unfold is_dot, is_letter. intros x. lia. Qed.
Lemma start_blind : blind starts_duration. Proof. intros x y E. unfold starts_duration. now rewrite (digit_blind x y E), (sign_blind x y E). Qed.
Lemma e_blind : blind is_e.
Proof. intros x y. unfold eq_nocase, to_lower, is_e. destruct ((65 <=? x) && (x <=? 90)) eqn:E1, ((65 <=? y) && (y <=? 90)) eqn:E2; lia. Qed.
Lemma inner_blind : blind inner. Proof. intros x y E. apply (CD x y E). Qed.
Lemma outer_blind : blind outer. Proof. intros x y E. apply (CD x y E). Qed.
Lemma keyword_end_blind : blind (keyword_end c). Proof. intros x y E. unfold keyword_end. now rewrite (outer_blind x y E), (start_blind x y E). Qed.
Lemma unit_end_blind : blind (unit_end c). Proof. intros x y E. unfold unit_end. now rewrite (keyword_end_blind x y E), (inner_blind x y E). Qed.
Lemma not_blind p : blind p -> blind (fun x => negb (p x)). Proof. intros H x y E. now rewrite (H x y E). Qed.
Lemma digit_edge x : is_digit x = true -> edge x = true. Proof. unfold edge, is_digit, is_letter. intros H. apply orb_true_iff. left. apply orb_true_iff. left. lia. Qed.
Lemma sign_edge x : is_sign x = true -> edge x = true. Proof. unfold edge, is_sign, is_letter. intros H. apply orb_true_iff. left. apply orb_true_iff. left. lia. Qed.
Lemma inner_edge x : inner x = true -> edge x = true. Proof. unfold edge. intros ->. now rewrite orb_true_r. Qed.
Lemma outer_edge x : outer x = true -> edge x = true. Proof. unfold edge. intros ->. now rewrite orb_true_r. Qed.
Lemma keyword_end_edge x : keyword_end c x = true -> edge x = true.
Proof. unfold keyword_end, starts_duration. rewrite !orb_true_iff. intros [H|[H|H]]; auto using outer_edge, digit_edge, sign_edge. Qed.
Lemma unit_end_edge x : unit_end c x = true -> edge x = true.
Proof. unfold unit_end. rewrite orb_true_iff, andb_true_iff. intros [H|[_ H]]; auto using keyword_end_edge, inner_edge. Qed.

(** ** The relation *)
Lemma cut_sym p q p' q' : str_eq_nocase p p' = true -> str_eq_nocase q q' = true -> cut p q -> cut p' q'.
Proof.
  intros H1 H2 [->|[->|[(p0 & x & -> & Hx)|H]]].
  - left. now destruct p'.
  - right; left. now destruct q'.
  - right; right; left. apply str_eq_nocase_app in H1. destruct H1 as (a & b & -> & _ & H1). destruct b as [|y [|z b]]; try discriminate; [|cbn in H1; now rewrite andb_false_r in H1].
    cbn in H1. apply andb_true_iff in H1. exists a, y. split; [reflexivity|]. now rewrite <- (edge_nocase x y (proj1 H1)).
  - right; right; right. destruct q as [|x q]; [contradiction|]. destruct q' as [|y q']; [discriminate|]. cbn in *. apply andb_true_iff in H2. now rewrite <- (edge_nocase x y (proj1 H2)).
Qed.
Lemma split_same (l1 l2 r1 r2 : str) : l1 ++ r1 = l2 ++ r2 -> length l1 = length l2 -> l1 = l2 /\ r1 = r2.
Proof.
  revert l2. induction l1 as [|x l1 IH]; intros [|y l2]; try discriminate; auto. cbn. intros E L. injection E as -> E. injection L as L. destruct (IH l2 E L) as [-> ->]. auto.
Qed.
Lemma nocase_split a b a' b' : str_eq_nocase (a ++ b) (a' ++ b') = true -> length a = length a' -> str_eq_nocase a a' = true /\ str_eq_nocase b b' = true.
Proof.
  intros H L. apply str_eq_nocase_app in H. destruct H as (x & y & E & H1 & H2). pose proof (str_eq_nocase_length _ _ H1) as L1. apply split_same in E; [|congruence].
  destruct E as [-> ->]. auto.
Qed.

Lemma nocase_app a b a' b' : str_eq_nocase a a' = true -> str_eq_nocase b b' = true -> str_eq_nocase (a ++ b) (a' ++ b') = true.
Proof.
  revert a'. induction a as [|x a IH]; intros [|y a'] H1 H2; try discriminate; auto. cbn in *. apply andb_true_iff in H1. destruct H1 as [-> H1]. now apply IH.
Qed.
Lemma agree_sym l l' : agree l l' -> agree l' l.
Proof.
  intros [N H]. split; [now apply str_nocase_sym|]. intros p id r p' id' r' E E' L1 L2 C1 C2.
  rewrite E, E' in N. destruct (nocase_split _ _ _ _ N (eq_sym L1)) as [N1 N2]. pose proof N2 as N3. apply nocase_split in N3; [|now symmetry]. destruct N3 as [N3 N4].
  apply str_nocase_sym in N1, N2, N3, N4.
  destruct (H p' id' r' p id r E' E (eq_sym L1) (eq_sym L2)) as (G1 & G2 & G3).
  - now apply (cut_sym p (id ++ r)).
  - apply (cut_sym (p ++ id) r); auto using nocase_app.
  - split; [now symmetry|]. split; [intros k Ek; symmetry; now apply G2|intros f Ef; symmetry; now apply G3].
Qed.
Lemma agree_nil l : agree [] l -> l = [].
Proof. intros [N _]. now destruct l. Qed.
Lemma agree_not_nil l l' : agree l l' -> l <> [] -> l' <> [].
Proof. intros [N _] H. destruct l; [congruence|]. now destruct l'. Qed.
(** cutting off the beginning *)
Lemma agree_app a l l0 : agree (a ++ l) l0 -> cut a l -> exists a' l', l0 = a' ++ l' /\ str_eq_nocase a a' = true /\ agree l l'.
Proof.
  intros [N H] Ha. destruct (str_eq_nocase_app _ _ _ N) as (a' & l' & -> & N1 & N2). exists a', l'. split; [reflexivity|]. split; [exact N1|]. split; [exact N2|].
  pose proof (str_eq_nocase_length _ _ N1) as La.
  assert (K : forall p q, l = p ++ q -> cut p q -> cut (a ++ p) q).
  { intros p q E [->|[->|[(p0 & x & -> & Hx)|C1]]].
    - rewrite app_nil_r. cbn in E. now subst q.
    - right. now left.
    - right. right. left. exists (a ++ p0), x. rewrite app_assoc. auto.
    - right. right. now right. }
  intros p id r p' id' r' E E' L1 L2 C1 C2. apply (H (a ++ p) id r (a' ++ p') id' r'); auto.
  - now rewrite E, app_assoc.
  - now rewrite E', app_assoc.
  - rewrite !app_length. lia.
  - rewrite <- app_assoc. apply K; [|exact C2]. now rewrite E, app_assoc.
Qed.
(** a whole word *)
Lemma agree_word id r id' r' : agree (id ++ r) (id' ++ r') -> length id = length id' -> cut id r ->
  u_get tu id = u_get tu id' /\ (forall k, kw = Some k -> u_get k id = u_get k id') /\ (forall f, nums = Some f -> f id = f id').
Proof. intros [_ H] L C. apply (H [] id r [] id' r'); auto. now left. Qed.
Lemma agree_whole id id' : agree id id' ->
  u_get tu id = u_get tu id' /\ (forall k, kw = Some k -> u_get k id = u_get k id') /\ (forall f, nums = Some f -> f id = f id').
Proof.
  intros A. apply (agree_word id [] id' []); [now rewrite !app_nil_r|apply str_eq_nocase_length, A|right; now left].
Qed.
Lemma nocase_starts_not p l l' : blind p -> str_eq_nocase l l' = true -> starts_not p l -> starts_not p l'.
Proof. intros B N. destruct l as [|x l], l' as [|y l']; try discriminate; auto. cbn in *. apply andb_true_iff in N. now rewrite (B x y (proj1 N)). Qed.
Lemma nocase_starts_with p l l' : blind p -> str_eq_nocase l l' = true -> starts_with p l -> starts_with p l'.
Proof. intros B N. destruct l as [|x l], l' as [|y l']; try discriminate; auto. cbn in *. apply andb_true_iff in N. now rewrite (B x y (proj1 N)). Qed.
Lemma nocase_all p a : forall a', blind p -> str_eq_nocase a a' = true -> (forall x, In x a -> p x = true) -> forall x, In x a' -> p x = true.
Proof.
  induction a as [|x a IH]; intros [|y a'] B N H z Hz; try discriminate; [destruct Hz|]. cbn in N. apply andb_true_iff in N. destruct N as [N1 N2].
  destruct Hz as [<-|Hz]; [rewrite <- (B x y N1); apply H; now left|]. apply (IH a'); auto. intros w Hw. apply H. now right.
Qed.
Lemma nocase_same a : forall a', (forall x, In x a -> is_letter x = false) -> str_eq_nocase a a' = true -> a' = a.
Proof.
  induction a as [|x a IH]; intros [|y a'] H N; try discriminate; auto. cbn in N. apply andb_true_iff in N. destruct N as [N1 N2].
  rewrite (same_byte x y N1) by (apply H; now left). f_equal. apply IH; auto. intros z Hz. apply H. now right.
Qed.
(** spans *)
Lemma span_cut p l a b : (forall x, p x = true -> edge x = true) -> span p l a b -> cut a b.
Proof.
  intros P (_ & Ha & _). destruct a as [|x a] using rev_ind; [now left|]. right. right. left. exists a, x. split; [reflexivity|]. apply P, Ha, in_or_app. right. now left.
Qed.
Lemma until_cut p l a b : (forall x, p x = true -> edge x = true) -> until p l a b -> cut a b.
Proof.
  intros P (_ & _ & Hb). right. destruct b as [|x b]; [now left|]. right. right. cbn in *. apply P. now apply negb_false_iff.
Qed.
Lemma agree_span p l l' a b : blind p -> agree l l' -> span p l a b -> cut a b ->
  exists a' b', span p l' a' b' /\ str_eq_nocase a a' = true /\ agree b b'.
Proof.
  intros B A (-> & Ha & Hb) C. destruct (agree_app a b l' A C) as (a' & b' & -> & N & A'). exists a', b'. split; [|auto]. split; [reflexivity|].
  split; [now apply (nocase_all p a)|]. apply (nocase_starts_not p b); auto. apply A'.
Qed.
Lemma nocase_nil a a' : str_eq_nocase a a' = true -> (a = [] <-> a' = []).
Proof. destruct a, a'; try discriminate; split; congruence. Qed.
Lemma digit_other x : is_digit x = true -> is_letter x = false. Proof. unfold is_digit, is_letter. lia. Qed.
Lemma sign_other x : is_sign x = true -> is_letter x = false. Proof. unfold is_sign, is_letter. lia. Qed.
Lemma agree_digits l l' a b : agree l l' -> span is_digit l a b -> exists b', span is_digit l' a b' /\ agree b b'.
Proof.
  intros A S. destruct (agree_span _ _ _ _ _ digit_blind A S (span_cut _ _ _ _ digit_edge S)) as (a' & b' & S' & N & A'). exists b'. split; [|exact A'].
  rewrite <- (nocase_same a a'); auto. intros x Hx. apply digit_other. now apply S.
Qed.
Lemma agree_inner l l' a b : agree l l' -> span inner l a b -> exists a' b', span inner l' a' b' /\ (a = [] <-> a' = []) /\ agree b b'.
Proof.
  intros A S. destruct (agree_span _ _ _ _ _ inner_blind A S (span_cut _ _ _ _ inner_edge S)) as (a' & b' & S' & N & A'). exists a', b'. auto using nocase_nil.
Qed.
Lemma agree_outer l l' a b : agree l l' -> span outer l a b -> exists a' b', span outer l' a' b' /\ (a = [] <-> a' = []) /\ agree b b'.
Proof.
  intros A S. destruct (agree_span _ _ _ _ _ outer_blind A S (span_cut _ _ _ _ outer_edge S)) as (a' & b' & S' & N & A'). exists a', b'. auto using nocase_nil.
Qed.
Lemma agree_until p l l' a b : blind p -> (forall x, p x = true -> edge x = true) -> agree l l' -> until p l a b ->
  exists a' b', until p l' a' b' /\ (a = [] <-> a' = []) /\ agree b b' /\
    u_get tu a = u_get tu a' /\ (forall k, kw = Some k -> u_get k a = u_get k a') /\ (forall f, nums = Some f -> f a = f a').
Proof.
  intros B P A S. pose proof (until_cut _ _ _ _ P S) as C. destruct (agree_span _ _ _ _ _ (not_blind p B) A S C) as (a' & b' & S' & N & A'). exists a', b'.
  split; [exact S'|]. split; [now apply nocase_nil|]. split; [exact A'|]. destruct S as (-> & _), S' as (-> & _).
  apply (agree_word a b a' b'); auto. now apply str_eq_nocase_length.
Qed.
(** words which are no identifiers *)
Lemma nocase_word w l l' r : str_eq_nocase l l' = true -> word_prefix w l r -> exists r', word_prefix w l' r' /\ str_eq_nocase r r' = true.
Proof.
  intros N (v & -> & E). destruct (str_eq_nocase_app _ _ _ N) as (v' & r' & -> & N1 & N2). exists r'. split; [|exact N2]. exists v'. split; [reflexivity|].
  apply (str_nocase_trans v' v); auto. now apply str_nocase_sym.
Qed.
Lemma agree_prefix w l l' r : agree l l' -> word_prefix w l r -> r = [] \/ starts_with edge r -> exists r', word_prefix w l' r' /\ agree r r'.
Proof.
  intros A (v & -> & E) Hr. assert (C : cut v r) by (right; destruct Hr; auto). destruct (agree_app v r l' A C) as (v' & r' & -> & N & A'). exists r'. split; [|exact A'].
  exists v'. split; [reflexivity|]. apply (str_nocase_trans v' v); auto. now apply str_nocase_sym.
Qed.
Lemma nocase_no_word w l l' : str_eq_nocase l l' = true -> ~ (exists r, word_prefix w l r) -> ~ exists r, word_prefix w l' r.
Proof. intros H N (r & Hr). apply N. destruct (nocase_word w l' l r (str_nocase_sym _ _ H) Hr) as (r' & Hr' & _). now exists r'. Qed.

(** ** The grammar *)
Lemma cs_signed s s' n l : agree s s' -> signed c s n l -> exists l', signed c s' n l' /\ agree l l'.
Proof.
  intros H K0. revert H. destruct K0 as [l0 H1 H2|x l0 r Hx Ha <- N|x l0 ds r Hx Ha Hs N]; intros H.
  - exists s'. split; [|exact H]. apply unsigned; [|now apply (agree_not_nil _ _ H)]. apply (nocase_starts_not is_sign l0); auto using sign_blind. apply H.
  - destruct (agree_app [x] l0 s' H) as (a & l1 & -> & E & A). { right. right. left. exists [], x. auto using sign_edge. }
    apply nocase_same in E; [|intros y [<-|[]]; now apply sign_other]. subst a. exists l1. split; [|exact A].
    apply with_sign with (r := l1); auto. now apply (agree_not_nil _ _ A).
  - destruct (agree_app [x] l0 s' H) as (a & l1 & -> & E & A). { right. right. left. exists [], x. auto using sign_edge. }
    apply nocase_same in E; [|intros y [<-|[]]; now apply sign_other]. subst a.
    destruct (agree_inner l0 l1 ds r A Hs) as (ds' & r' & Hs' & _ & Hr). exists r'. split; [|exact Hr].
    apply with_sign_delimiter with ds'; auto. now apply (agree_not_nil _ _ Hr).
Qed.
Lemma cs_fraction l l' F r : agree l l' -> fraction c l F r -> exists r', fraction c l' F r' /\ agree r r'.
Proof.
  intros H K0. revert H. destruct K0 as [l0 H1|l0 F' r' Hd Hs]; intros H.
  - exists l'. split; [|exact H]. apply no_fraction. apply (nocase_starts_not is_dot l0); auto using dot_blind. apply H.
  - destruct (agree_app [46] l0 l' H) as (a & l1 & -> & E & A). { right. right. left. now exists [], 46. }
    apply nocase_same in E; [|intros y [<-|[]]; reflexivity]. subst a. destruct (agree_digits l0 l1 F' r' A Hs) as (b & Hb & Hr).
    exists b. split; [|exact Hr]. now apply some_fraction.
Qed.
Lemma cs_exponent l l' x r : agree l l' -> exponent c l x r -> exists r', exponent c l' x r' /\ agree r r'.
Proof.
  intros H K0. revert H. destruct K0 as [l0 H1|y sg n l0 ds r' e Hy Hd Hsg Hs Nd He Hb]; intros H.
  - exists l'. split; [|exact H]. apply no_exponent. apply (nocase_starts_not is_e l0); auto using e_blind. apply H.
  - destruct Hs as (-> & H1 & H2).
    assert (C : cut (y :: sg ++ ds) r').
    { destruct ds as [|z ds] using rev_ind; [congruence|]. right. right. left. exists (y :: sg ++ ds), z. split; [cbn; now rewrite app_assoc|]. apply digit_edge, H1, in_or_app. right. now left. }
    destruct (agree_app (y :: sg ++ ds) r' l') as (a & b & -> & N & A); [cbn; now rewrite <- app_assoc|exact C|]. destruct a as [|y' a]; [discriminate|].
    cbn in N. apply andb_true_iff in N. destruct N as [N1 N2]. apply nocase_same in N2.
    + subst a. exists b. split; [|exact A]. cbn [app]. rewrite <- app_assoc. apply (some_exponent c y' sg n (ds ++ b) ds b e); auto; [now rewrite <- (e_blind y y' N1)|].
      split; [reflexivity|]. split; [exact H1|]. apply (nocase_starts_not is_digit r'); auto using digit_blind. apply A.
    + intros z Hz. apply in_app_or in Hz. destruct Hz as [Hz|Hz]; [|apply digit_other; auto]. apply sign_other. destruct Hsg; cbn in Hz; [contradiction|destruct Hz as [<-|[]]; reflexivity..].
Qed.
Lemma cs_delimiter l l' r : agree l l' -> unit_delimiter c l r -> exists r', unit_delimiter c l' r' /\ agree r r'.
Proof.
  intros H K0. revert H. destruct K0 as [l0 Ha|l0 ds r0 Ha Hs Hn]; intros H.
  - exists l'. split; [|exact H]. now apply no_unit_delimiter.
  - destruct (agree_inner l0 l' ds r0 H Hs) as (ds' & r' & Hs' & He & Hr). exists r'. split; [|exact Hr].
    apply some_unit_delimiter with ds'; auto. destruct Hn as [Hn|Hn]; [left; tauto|right]. now apply (agree_not_nil _ _ Hr).
Qed.
Lemma cs_number l l' W F x r : agree l l' -> number c l W F x r -> exists r', number c l' W F x r' /\ agree r r'.
Proof.
  intros H (l1 & l2 & l3 & H1 & H2 & H3 & H4 & N).
  destruct (agree_digits l l' W l1 H H1) as (l1' & H1' & R1).
  destruct (cs_fraction l1 l1' F l2 R1 H2) as (l2' & H2' & R2). destruct (cs_exponent l2 l2' x l3 R2 H3) as (l3' & H3' & R3).
  destruct (cs_delimiter l3 l3' r R3 H4) as (r' & H4' & R4). exists r'. split; [|exact R4]. exists l1', l2', l3'. auto.
Qed.
Lemma cs_word l l' : agree l l' -> word c l -> word c l'.
Proof.
  intros [H _] (H1 & H2 & H3). split; [apply (nocase_starts_not is_digit l); auto using digit_blind|].
  split; [apply (nocase_starts_not is_dot l); auto using dot_blind|]. intros Hd. apply (nocase_no_word _ l); auto.
Qed.
Lemma cs_numeral l l' n r : agree l l' -> numeral_prefix c nums l n r -> exists r', numeral_prefix c nums l' n r' /\ agree r r'.
Proof.
  intros H (f & w & l1 & ds & Ef & Hu & Nw & Hf & Hs & Nd & Nr). destruct (agree_until inner l l' w l1 inner_blind inner_edge H Hu) as (w' & l1' & Hu' & E & R1 & _ & _ & G).
  destruct (agree_inner l1 l1' ds r R1 Hs) as (ds' & r' & Hs' & He & R2).
  exists r'. split; [|exact R2]. exists f, w', l1', ds'. split; [exact Ef|]. split; [exact Hu'|]. split; [tauto|]. split; [now rewrite <- (G f Ef)|].
  split; [exact Hs'|]. split; [tauto|]. now apply (agree_not_nil _ _ R2).
Qed.
Lemma until_all p l w r : until p l w r -> until p w w [].
Proof. intros (_ & H & _). split; [now rewrite app_nil_r|]. split; [exact H|exact Logic.I]. Qed.
Lemma cs_single_unit l l' u m : agree l l' -> single_unit c tu l u m -> single_unit c tu l' u m.
Proof.
  intros H K0. revert H. destruct K0 as [l0 u' m' Ha Hg|l0 u' m' Ha Hn Hu Hg|l0 w l1 ds a u' m' Ha Hu Nw Hg Hs He]; intros H.
  - apply su_plain; auto. destruct (agree_whole _ _ H) as (<- & _). exact Hg.
  - destruct (agree_whole _ _ H) as (G & _). apply su_no_ago; auto; [now apply (agree_not_nil l0)| |now rewrite <- G].
    destruct Hu as (_ & Hu & _). split; [now rewrite app_nil_r|]. split; [|exact Logic.I]. apply (nocase_all _ l0); auto using not_blind, inner_blind. apply H.
  - destruct (agree_until inner l0 l' w l1 inner_blind inner_edge H Hu) as (w' & l1' & Hu' & E & R1 & G & _). destruct (agree_inner l1 l1' ds a R1 Hs) as (ds' & a' & Hs' & _ & [R2 _]).
    apply su_ago with w' l1' ds' a'; auto; [tauto|now rewrite <- G|]. apply (str_nocase_trans a' a); auto. now apply str_nocase_sym.
Qed.
Lemma cs_single_unit_like l l' : agree l l' -> single_unit_like c tu l -> single_unit_like c tu l'.
Proof.
  intros H K0. revert H. destruct K0 as [l0 Ha Hg|l0 Ha Hn Hu Hg|l0 w l1 ds a r Ha Hu Nw Hg Hs Hp]; intros H.
  - apply sul_plain; auto. destruct (agree_whole _ _ H) as (<- & _). exact Hg.
  - destruct (agree_whole _ _ H) as (G & _). apply sul_no_ago; auto; [now apply (agree_not_nil l0)| |now rewrite <- G].
    destruct Hu as (_ & Hu & _). split; [now rewrite app_nil_r|]. split; [|exact Logic.I]. apply (nocase_all _ l0); auto using not_blind, inner_blind. apply H.
  - destruct (agree_until inner l0 l' w l1 inner_blind inner_edge H Hu) as (w' & l1' & Hu' & E & R1 & G & _). destruct (agree_inner l1 l1' ds a R1 Hs) as (ds' & a' & Hs' & _ & [R2 _]).
    destruct (nocase_word (%"ago") a a' r R2 Hp) as (r' & Hp' & _). apply sul_ago with w' l1' ds' a' r'; auto; [tauto|now rewrite <- G].
Qed.
Lemma cs_single_keyword l l' u m : agree l l' -> single_keyword_is kw l u m -> single_keyword_is kw l' u m.
Proof. intros H (k & Ek & Hg). exists k. split; [exact Ek|]. destruct (agree_whole _ _ H) as (_ & G & _). now rewrite <- (G k Ek). Qed.
Lemma cs_single s s' d : agree s s' -> single_duration c tu kw nums s d -> single_duration c tu kw nums s' d.
Proof.
  intros H Hd. revert H.
  destruct Hd as [s0 n l W F x Hs Hn|s0 n l W F x r u m Hs Hn Nr Eu Hu|s0 n l Hs Hd Hi|s0 n l u m Hs Hw Hk|s0 n l u m Hs Hw Hk Ho Hu|s0 n l num r u m Hs Hw Hk Ho Hp Hu]; intros H;
    destruct (cs_signed _ _ _ _ H Hs) as (l' & Hs' & R).
  - destruct (cs_number _ _ _ _ _ _ R Hn) as (r' & Hn' & R'). apply agree_nil in R'. subst r'. now apply sd_number with l'.
  - destruct (cs_number _ _ _ _ _ _ R Hn) as (r' & Hn' & R'). apply sd_number_unit with l' r'; auto; [now apply (agree_not_nil _ _ R')|]. now apply (cs_single_unit r).
  - apply sd_infinity with l'; auto. destruct R as [R _]. apply str_nocase_sym in R.
    destruct Hi as [Hi|Hi]; [left|right]; now apply (str_nocase_trans l' l).
  - apply sd_keyword with l'; auto; [now apply (cs_word l)|now apply (cs_single_keyword l)].
  - apply sd_unit with l'; auto; [now apply (cs_word l)| |now apply (cs_single_unit l)].
    intros u' m' K. apply (Hk u' m'). apply (cs_single_keyword l'); auto. now apply agree_sym.
  - destruct (cs_numeral _ _ _ _ R Hp) as (r' & Hp' & R'). apply sd_numeral with l' r'; auto; [now apply (cs_word l)| | |now apply (cs_single_unit r)].
    + intros u' m' K. apply (Hk u' m'). apply (cs_single_keyword l'); auto. now apply agree_sym.
    + intros O K. apply (Ho O). apply (cs_single_unit_like l'); auto. now apply agree_sym.
Qed.

(** ** Multiple durations *)
Lemma with_edge p l : (forall x, p x = true -> edge x = true) -> starts_with p l -> starts_with edge l.
Proof. intros P. destruct l; cbn; auto. Qed.
Lemma start_edge x : starts_duration x = true -> edge x = true.
Proof. unfold starts_duration. rewrite orb_true_iff. intros [H|H]; auto using digit_edge, sign_edge. Qed.
Lemma cs_connection l l' r : agree l l' -> connection c l r -> exists r', connection c l' r' /\ agree r r'.
Proof.
  intros H K0. revert H. destruct K0 as [l0 ds r0 Hs Nd Nr Hn|l0 ds y ws1 w ws2 z r0 Hs Nd Ny Ec Hn Hw Hz]; intros H; destruct (agree_outer _ _ _ _ H Hs) as (ds' & r' & Hs' & He & R).
  - exists r'. split; [|exact R]. apply con_delimiter with ds'; [exact Hs'|tauto|now apply (agree_not_nil _ _ R)|].
    intros w Hw. apply (nocase_no_word w r0); auto. apply R.
  - assert (Ez : z = [] \/ starts_with edge z).
    { right. destruct Hz as [(_ & Z & _)|(ds2 & (-> & Z & _) & N2 & _)]; [now apply (with_edge starts_duration), Z; exact start_edge|].
      destruct ds2 as [|x ds2]; [congruence|]. cbn. apply outer_edge, Z. now left. }
    destruct (agree_prefix w y r' z R Hw Ez) as (z' & Hw' & Rz).
    assert (B : exists r1, agree r0 r1 /\ (starts_not outer z' /\ starts_with starts_duration z' /\ r1 = z' \/
      exists ds2, span outer z' ds2 r1 /\ ds2 <> [] /\ r1 <> [])).
    { destruct Hz as [(Z1 & Z2 & ->)|(ds2 & Z1 & Z2 & Z3)].
      - exists z'. split; [exact Rz|]. left. destruct Rz as [Rz _]. split; [now apply (nocase_starts_not outer z); [exact outer_blind|..]|split; [|reflexivity]].
        now apply (nocase_starts_with starts_duration z); [exact start_blind|..].
      - destruct (agree_outer _ _ _ _ Rz Z1) as (ds3 & r3 & Z1' & E3 & R3). exists r3. split; [exact R3|]. right.
        exists ds3. split; [exact Z1'|]. split; [tauto|]. now apply (agree_not_nil _ _ R3). }
    destruct B as (r1 & Rr & B). exists r1. split; [|exact Rr]. apply con_word with ds' r' ws1 w ws2 z'; auto; [tauto|now apply (agree_not_nil _ _ R)|].
    intros v Hv. apply (nocase_no_word v y); auto. apply R.
Qed.
Lemma cs_next l l' r : agree l l' -> next_component c l r -> exists r', next_component c l' r' /\ agree r r'.
Proof.
  intros H K0. revert H. destruct K0 as [l0 Hn|l0 r0 Hc]; intros H.
  - exists l'. split; [|exact H]. apply nc_adjacent. apply (nocase_starts_not outer l0); auto using outer_blind. apply H.
  - destruct (cs_connection _ _ _ H Hc) as (r' & Hc' & R). exists r'. split; [now apply nc_connection|exact R].
Qed.
Lemma cs_ago l l' r : agree l l' -> ago c l r -> exists r', ago c l' r' /\ agree r r'.
Proof.
  intros H (Ha & ds & a & Hs & Nd & Hp & He). destruct (agree_inner _ _ _ _ H Hs) as (ds' & a' & Hs' & E & R).
  destruct (agree_prefix (%"ago") a a' r R Hp) as (r' & Hp' & R'). { destruct He as [->|He]; [now left|right]. now apply (with_edge (keyword_end c)); [exact keyword_end_edge|]. }
  exists r'. split; [|exact R']. split; [exact Ha|].
  exists ds', a'. split; [exact Hs'|]. split; [tauto|]. split; [exact Hp'|].
  destruct He as [->|He]; [left; now apply agree_nil|right]. apply (nocase_starts_with _ r); auto using keyword_end_blind. apply R'.
Qed.
Lemma cs_multi_unit l l' u m r : agree l l' -> multi_unit c tu l u m r -> exists r', multi_unit c tu l' u m r' /\ agree r r'.
Proof.
  intros H K0. revert H. destruct K0 as [l0 w l1 u' m' r0 Hu Nw Hg Na Nd Hc|l0 w l1 l2 u' m' r0 Hu Nw Hg Ha Hc]; intros H;
    destruct (agree_until _ _ _ _ _ unit_end_blind unit_end_edge H Hu) as (w' & l1' & Hu' & Ew & R1 & G & _).
  - destruct (cs_next _ _ _ R1 Hc) as (r' & Hc' & R). exists r'. split; [|exact R]. apply mu_plain with w' l1'; auto; [tauto|now rewrite <- G| |].
    + intros r1 A. destruct (cs_ago l1' l1 r1 (agree_sym _ _ R1) A) as (r2 & A' & _). exact (Na r2 A').
    + intros Ea [N1 (_ & N2 & _)]. apply (Nd Ea). split; [now apply (agree_not_nil l1'); [apply agree_sym|]|].
      split; [now rewrite app_nil_r|]. split; [|exact Logic.I]. apply (nocase_all _ l1'); auto using inner_blind. now apply agree_sym.
  - destruct (cs_ago _ _ _ R1 Ha) as (l2' & Ha' & R2). destruct (cs_next _ _ _ R2 Hc) as (r' & Hc' & R). exists r'. split; [|exact R].
    apply mu_ago with w' l1' l2'; auto; [tauto|now rewrite <- G].
Qed.
Lemma cs_multi_unit_like l l' : agree l l' -> multi_unit_like c tu l -> multi_unit_like c tu l'.
Proof.
  intros H (w & l1 & Hu & Nw & Hg). destruct (agree_until _ _ _ _ _ unit_end_blind unit_end_edge H Hu) as (w' & l1' & Hu' & Ew & R1 & G & _).
  exists w', l1'. split; [exact Hu'|]. split; [tauto|now rewrite <- G].
Qed.
Lemma cs_multi_keyword l l' u m r : agree l l' -> multi_keyword_is c kw l u m r -> exists r', multi_keyword_is c kw l' u m r' /\ agree r r'.
Proof.
  intros H (k & w & Ek & Hu & Nw & Hg). destruct (agree_until _ _ _ _ _ keyword_end_blind keyword_end_edge H Hu) as (w' & r' & Hu' & Ew & R1 & _ & G & _).
  exists r'. split; [|exact R1]. exists k, w'. split; [exact Ek|]. split; [exact Hu'|]. split; [tauto|now rewrite <- (G k Ek)].
Qed.
Lemma nocase_ends l l' : str_eq_nocase l l' = true -> ends_or_delimited c l -> ends_or_delimited c l'.
Proof. intros H [->|He]; [left; now destruct l'|right]. now apply (nocase_starts_with outer l); [exact outer_blind|..]. Qed.
Lemma ends_edge l : ends_or_delimited c l -> l = [] \/ starts_with edge l.
Proof. intros [->|H]; [now left|right]. now apply (with_edge outer); [exact outer_edge|]. Qed.
Lemma word_prefix_join l l0 l1 : word_prefix (%"inf") l l0 -> word_prefix (%"inity") l0 l1 -> word_prefix (%"infinity") l l1.
Proof.
  intros (v & -> & E1) (w & -> & E2). exists (v ++ w). split; [now rewrite app_assoc|]. change (%"infinity") with (%"inf" ++ %"inity"). now apply nocase_app.
Qed.
Lemma cs_component s s' d r : agree s s' -> component c tu kw nums s d r -> exists r', component c tu kw nums s' d r' /\ agree r r'.
Proof.
  intros H Hd. revert H.
  destruct Hd as [s0 n l W F x r0 l1 Hs Hn Hu Hc|s0 n l W F x l1 u m r0 Hs Hn Eu Hu|s0 n l l1 r0 Hs Hd Hi He Hc|s0 n l l0 l1 r0 Hs Hd Hi He Hi2 He2 Hc
    |s0 n l u m l1 r0 Hs Hw Hk Hc|s0 n l u m r0 Hs Hw Hk Ho Hu|s0 n l num l1 u m r0 Hs Hw Hk Ho Hp Hu]; intros H;
    destruct (cs_signed _ _ _ _ H Hs) as (l' & Hs' & R).
  - destruct (cs_number _ _ _ _ _ _ R Hn) as (l1' & Hn' & R1). destruct (cs_next _ _ _ R1 Hc) as (r' & Hc' & R'). exists r'. split; [|exact R'].
    apply co_number with l' l1'; auto. destruct Hu as [Hu|Hu]; [now left|right]. intros K. apply Hu. apply (cs_multi_unit_like l1'); auto. now apply agree_sym.
  - destruct (cs_number _ _ _ _ _ _ R Hn) as (l1' & Hn' & R1). destruct (cs_multi_unit _ _ _ _ _ R1 Hu) as (r' & Hu' & R'). exists r'. split; [|exact R'].
    now apply co_number_unit with l' l1'.
  - destruct (agree_prefix _ _ _ _ R Hi (ends_edge _ He)) as (l1' & Hi' & R1). destruct (cs_next _ _ _ R1 Hc) as (r' & Hc' & R'). exists r'. split; [|exact R'].
    apply co_inf with l' l1'; auto. apply (nocase_ends l1); auto. apply R1.
  - destruct R as [R0 RW]. destruct (nocase_word _ _ _ _ R0 Hi) as (l0' & Hi' & N0). destruct (nocase_word _ _ _ _ N0 Hi2) as (l1' & Hi2' & N1).
    destruct (agree_prefix _ _ _ _ (conj R0 RW) (word_prefix_join _ _ _ Hi Hi2) (ends_edge _ He2)) as (l2 & Hi3 & R1).
    assert (l2 = l1').
    { destruct (word_prefix_join _ _ _ Hi' Hi2') as (v & -> & E1). destruct Hi3 as (v' & E & E2). apply str_eq_nocase_length in E1, E2. apply split_same in E; [|congruence]. now destruct E. }
    subst l2. destruct (cs_next _ _ _ R1 Hc) as (r' & Hc' & R'). exists r'. split; [|exact R'].
    apply co_infinity with l' l0' l1'; auto; [|now apply (nocase_ends l1)]. intros K. apply He. apply (nocase_ends l0'); auto. now apply str_nocase_sym.
  - destruct (cs_multi_keyword _ _ _ _ _ R Hk) as (l1' & Hk' & R1). destruct (cs_next _ _ _ R1 Hc) as (r' & Hc' & R'). exists r'. split; [|exact R'].
    apply co_keyword with l' l1'; auto. now apply (cs_word l).
  - destruct (cs_multi_unit _ _ _ _ _ R Hu) as (r' & Hu' & R'). exists r'. split; [|exact R']. apply co_unit with l'; auto; [now apply (cs_word l)|].
    intros u' m' r1 K. destruct (cs_multi_keyword _ _ _ _ _ (agree_sym _ _ R) K) as (r2 & K' & _). exact (Hk _ _ _ K').
  - destruct (cs_numeral _ _ _ _ R Hp) as (l1' & Hp' & R1). destruct (cs_multi_unit _ _ _ _ _ R1 Hu) as (r' & Hu' & R'). exists r'. split; [|exact R'].
    apply co_numeral with l' l1'; auto; [now apply (cs_word l)| |].
    + intros u' m' r1 K. destruct (cs_multi_keyword _ _ _ _ _ (agree_sym _ _ R) K) as (r2 & K' & _). exact (Hk _ _ _ K').
    + intros O K. apply (Ho O). apply (cs_multi_unit_like l'); auto. now apply agree_sym.
Qed.
Lemma cs_components s ds : components c tu kw nums s ds -> forall s', agree s s' -> components c tu kw nums s' ds.
Proof.
  induction 1 as [s d H|s d r ds H N Hr IH]; intros s' R; destruct (cs_component _ _ _ _ R H) as (r' & H' & R').
  - apply cs_last. apply agree_nil in R'. now subst r'.
  - apply cs_more with r'; auto. now apply (agree_not_nil r).
Qed.
End Case.

(** texts which differ in the case of letters only, and not in their identifiers, have the same meaning, or none of them has one *)
Theorem C89_single : forall c tu kw nums s s' d, env_ok c tu kw nums -> utf8 s = true -> c_allow_multiple c = false ->
  case_delimiters c -> str_eq_nocase s s' = true -> same_words c tu kw nums s s' ->
  (parse c s tu kw nums = Ok d <-> parse c s' tu kw nums = Ok d).
Proof.
  intros c tu kw nums s s' d HE U Hm CD N W. pose proof (utf8_nocase s s' N U) as U'. assert (A : agree c tu kw nums s s') by now split.
  split; intros P; (apply C22_single_grammar in P; [|auto..]); destruct P as [P1 P2]; (apply C22_single_grammar; [auto..|]); (split; [|exact P2]).
  - now apply (cs_single c tu kw nums CD s s').
  - apply (cs_single c tu kw nums CD s' s); auto. now apply agree_sym.
Qed.
Print Assumptions C89_single.

Theorem C89_multiple : forall c tu kw nums s s' n, env_ok c tu kw nums -> delims_ok c kw nums -> utf8 s = true -> c_allow_multiple c = true ->
  case_delimiters c -> str_eq_nocase s s' = true -> same_words c tu kw nums s s' ->
  ((exists d, parse c s tu kw nums = Ok d /\ nanos d = n) <-> (exists d, parse c s' tu kw nums = Ok d /\ nanos d = n)).
Proof.
  intros c tu kw nums s s' n HE HD U Hm CD N W. pose proof (utf8_nocase s s' N U) as U'. assert (A : agree c tu kw nums s s') by now split.
  assert (G : forall a b, utf8 a = true -> utf8 b = true -> agree c tu kw nums a b -> (exists d, parse c a tu kw nums = Ok d /\ nanos d = n) -> exists d, parse c b tu kw nums = Ok d /\ nanos d = n).
  { intros a b Ua Ub Ag (d & P & Hn). apply C23_multiple_sound in P; auto. destruct P as (ds & P & Hs & _ & V).
    destruct (C23_multiple_complete c tu kw nums b ds) as (E & PE & _ & VE); auto.
    - now apply (cs_components c tu kw nums CD a).
    - exists E. split; [exact PE|]. now rewrite VE, <- V. }
  split; apply G; auto. now apply agree_sym.
Qed.
Print Assumptions C89_multiple.

(** tables which do not distinguish the case of letters: then nothing does *)
Theorem C89_blind_tables : forall c tu kw nums s s' n, env_ok c tu kw nums -> delims_ok c kw nums -> utf8 s = true ->
  case_delimiters c -> str_eq_nocase s s' = true ->
  (forall id id', str_eq_nocase id id' = true ->
     u_get tu id = u_get tu id' /\ (forall k, kw = Some k -> u_get k id = u_get k id') /\ (forall f, nums = Some f -> f id = f id')) ->
  ((exists d, parse c s tu kw nums = Ok d /\ nanos d = n) <-> (exists d, parse c s' tu kw nums = Ok d /\ nanos d = n)).
Proof.
  intros c tu kw nums s s' n HE HD U CD N B.
  assert (W : same_words c tu kw nums s s').
  { intros p id r p' id' r' -> -> L1 L2 _ _. apply nocase_split in N; [|exact L1]. destruct N as [_ N]. apply nocase_split in N; [|exact L2]. apply B, N. }
  destruct (c_allow_multiple c) eqn:Hm; [now apply C89_multiple|].
  split; intros (d & P & Hn); exists d; (split; [|exact Hn]); [apply (C89_single c tu kw nums s s')|apply (C89_single c tu kw nums s s')]; auto.
Qed.
Print Assumptions C89_blind_tables.

(** the standard parser: wherever the one text has the identifier of one of the time units, not within a longer word, the other one has it as well *)
Theorem C89_standard : forall l ss s s' n, let p := fold_left dp_set ss (dp_with_time_units l) in let c := dp_config p in
  config_ok c -> utf8 s = true -> case_delimiters c -> str_eq_nocase s s' = true ->
  (forall u a r, In u l -> s = a ++ default_identifier u ++ r -> cut c a (default_identifier u ++ r) -> cut c (a ++ default_identifier u) r ->
     exists a' r', s' = a' ++ default_identifier u ++ r' /\ length a' = length a) ->
  (forall u a r, In u l -> s' = a ++ default_identifier u ++ r -> cut c a (default_identifier u ++ r) -> cut c (a ++ default_identifier u) r ->
     exists a' r', s = a' ++ default_identifier u ++ r' /\ length a' = length a) ->
  ((exists d, dp_parse p s = Ok d /\ nanos d = n) <-> (exists d, dp_parse p s' = Ok d /\ nanos d = n)).
Proof.
  intros l ss s s' n p c. subst c. unfold p. rewrite std_fold. unfold dp_parse. cbn [dp_config dp_units]. generalize (fold_left dp_set_config ss config_new).
  intros c HC U CD N H1 H2. pose proof (delims_none_ok c) as HD.
  assert (E : env_ok c (std_units (units_with l)) None None) by now apply std_set_env.
  assert (W : same_words c (std_units (units_with l)) None None s s').
  { intros a id r a' id' r' E1 E2 L1 L2 C1 C2. split; [|split; discriminate]. rewrite E1, E2 in N. pose proof N as N1. apply nocase_split in N1; [|exact L1]. destruct N1 as [N1 N2].
    pose proof N2 as N3. apply nocase_split in N3; [|exact L2]. destruct N3 as [N3 N4].
    pose proof (cut_sym c CD _ _ _ _ N1 N2 C1) as C1'. pose proof (cut_sym c CD _ _ _ _ (nocase_app _ _ _ _ N1 N3) N4 C2) as C2'.
    destruct (u_get (std_units (units_with l)) id) as [[u m]|] eqn:G.
    - pose proof G as G0. apply C31_lookup in G. destruct G as (Hu & Ei & Em). rewrite Ei in *. destruct (H1 u a r Hu E1 C1 C2) as (b & q & Eb & Lb). rewrite E2 in Eb.
      apply split_same in Eb; [|congruence]. destruct Eb as [_ Eb]. apply split_same in Eb; [|congruence]. destruct Eb as [-> _]. now symmetry.
    - destruct (u_get (std_units (units_with l)) id') as [[u m]|] eqn:G'; [|reflexivity]. pose proof G' as G0. apply C31_lookup in G'. destruct G' as (Hu & Ei & Em). rewrite Ei in *.
      destruct (H2 u a' r' Hu E2 C1' C2') as (b & q & Eb & Lb). rewrite E1 in Eb.
      apply split_same in Eb; [|congruence]. destruct Eb as [_ Eb]. apply split_same in Eb; [|congruence]. destruct Eb as [-> _]. congruence. }
  destruct (c_allow_multiple c) eqn:Hm; [now apply C89_multiple|].
  split; intros (d & P & Hn); exists d; (split; [|exact Hn]); apply (C89_single c (std_units (units_with l)) None None s s'); auto.
Qed.
Print Assumptions C89_standard.

(** a place between two letters is within a word *)
Lemma cut_edges c p x y q : cut c (p ++ [x]) (y :: q) -> edge c x = true \/ edge c y = true.
Proof.
  intros [H|[H|[(p' & z & E & Hz)|H]]]; [now destruct p|discriminate| |now right]. apply app_inj_tail in E. destruct E as [_ ->]. now left.
Qed.
(** `1m AND 2E1s AGO` and `1m and 2e1s ago`: the `d` of `and` is within a word, although it would be a day *)
Example C89_example : let p := fold_left dp_set [Set_parse_multiple true (Some [%"and"]); Set_allow_negative true; Set_allow_ago true] (dp_with_time_units [Day; Minute; Second]) in
  (forall n, (exists d, dp_parse p (%"1m AND 2E1s AGO") = Ok d /\ nanos d = n) <-> (exists d, dp_parse p (%"1m and 2e1s ago") = Ok d /\ nanos d = n)) /\
  dp_parse p (%"1m AND 2E1s AGO") = Ok (Dur false (Std 40 0)) /\ dp_parse p (%"1m and 2e1s ago") = Ok (Dur false (Std 40 0)).
Proof.
  intros p. split; [|split; reflexivity]. intros n.
  apply (C89_standard [Day; Minute; Second] [Set_parse_multiple true (Some [%"and"]); Set_allow_negative true; Set_allow_ago true] (%"1m AND 2E1s AGO") (%"1m and 2e1s ago") n).
  - split; [exact ws_ascii|]. split; [exact ws_ascii|]. intros c w E H. injection E as <-. destruct H as [<-|[]]. reflexivity.
  - reflexivity.
  - intros x y E. change (is_ascii_whitespace x = is_ascii_whitespace y /\ is_ascii_whitespace x = is_ascii_whitespace y).
    assert (is_ascii_whitespace x = is_ascii_whitespace y); [|auto]. apply blind_other; [|exact E]. intros z. unfold is_ascii_whitespace, is_letter. lia.
  - reflexivity.
  - intros u a r Hu E C1 C2. repeat (destruct Hu as [<-|Hu]; [|]); [..|contradiction];
      repeat (destruct a as [|? a]; [first [discriminate E|injection E as <-; solve [exists (%"1"), (%" and 2e1s ago"); split; reflexivity|exists (%"1m and 2e1"), (%" ago"); split; reflexivity]]|]; injection E as <- E); destruct a; discriminate E.
  - intros u a r Hu E C1 C2. repeat (destruct Hu as [<-|Hu]; [|]); [..|contradiction];
      repeat (destruct a as [|? a]; [first [discriminate E|injection E as <-; solve [exists (%"1"), (%" AND 2E1s AGO"); split; reflexivity|exists (%"1m AND 2E1"), (%" AGO"); split; reflexivity]|
        exfalso; injection E as <-; apply (cut_edges _ (%"1m a")) in C1; destruct C1; discriminate]|]; injection E as <- E); destruct a; discriminate E.
Qed.
(** identifiers are another matter: `1m` is a minute, `1M` a month *)
Theorem C89_identifiers_refuted : exists d d', dp_parse dp_with_all_time_units (%"1m") = Ok d /\ dp_parse dp_with_all_time_units (%"1M") = Ok d' /\ nanos d <> nanos d'.
Proof. exists (Dur false (Std 60 0)), (Dur false (Std 2629800 0)). split; [reflexivity|]. split; [reflexivity|]. vm_compute. discriminate. Qed.
Print Assumptions C89_identifiers_refuted.
