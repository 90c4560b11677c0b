(** * Property C62: letter case and the amount of white space do not matter for the gnu parser *)
From Verif Require Import Prelude Util Time Config Bytes Repr Parse Systemd DateTime Gnu SpecTime SpecNum SpecSystemd SpecDate SpecGnu
  TimeProofs NumProofs Utf8Proofs SystemdProofs GnuGrammar DateProofs DateTimeProofs PropDate PropGnu ExEnv.

(** the texts have the same letters (in any case), digits and other bytes, and white space at the same places *)
Inductive alike : str -> str -> Prop :=
| al_nil : alike [] []
| al_byte x y l l' : ~ white x -> eq_nocase x y = true -> alike l l' -> alike (x :: l) (y :: l')
| al_space ds ds' l l' : ds <> [] -> ds' <> [] -> white_space ds -> white_space ds' -> no_white_ahead l -> no_white_ahead l' ->
    alike l l' -> alike (ds ++ l) (ds' ++ l').

Lemma nocase_refl x : eq_nocase x x = true.
Proof. unfold eq_nocase. lia. Qed.
Lemma nocase_sym x y : eq_nocase x y = true -> eq_nocase y x = true.
Proof. unfold eq_nocase. lia. Qed.
Lemma nocase_trans x y z : eq_nocase x y = true -> eq_nocase y z = true -> eq_nocase x z = true.
Proof. unfold eq_nocase. lia. Qed.
Definition letter (x : byte) : Prop := 65 <= x <= 90 \/ 97 <= x <= 122.
Lemma nocase_other x y : eq_nocase x y = true -> ~ letter x -> y = x.
Proof. unfold eq_nocase, to_lower, letter. destruct ((65 <=? x) && (x <=? 90)) eqn:E1, ((65 <=? y) && (y <=? 90)) eqn:E2; lia. Qed.
Lemma nocase_letter x y : eq_nocase x y = true -> letter x -> letter y.
Proof. unfold eq_nocase, to_lower, letter. destruct ((65 <=? x) && (x <=? 90)) eqn:E1, ((65 <=? y) && (y <=? 90)) eqn:E2; lia. Qed.
Lemma white_no_letter x : white x -> ~ letter x.
Proof. unfold white, letter. lia. Qed.
Lemma white_dec x : white x \/ ~ white x.
Proof. unfold white. lia. Qed.
Lemma letter_dec x : letter x \/ ~ letter x.
Proof. unfold letter. lia. Qed.
Lemma nocase_white x y : eq_nocase x y = true -> ~ white x -> ~ white y.
Proof.
  intros H N W. destruct (letter_dec x) as [L|L]; [|apply nocase_other in H; [now subst|exact L]].
  apply (white_no_letter y W). now apply (nocase_letter x).
Qed.
Lemma str_nocase_sym a : forall b, str_eq_nocase a b = true -> str_eq_nocase b a = true.
Proof. induction a as [|x a IH]; intros [|y b]; try discriminate; auto. cbn [str_eq_nocase]. rewrite !andb_true_iff. intros [H1 H2]. split; [now apply nocase_sym|auto]. Qed.
Lemma str_nocase_trans a : forall b c, str_eq_nocase a b = true -> str_eq_nocase b c = true -> str_eq_nocase a c = true.
Proof.
  induction a as [|x a IH]; intros [|y b] [|z c]; try discriminate; auto. cbn [str_eq_nocase]. rewrite !andb_true_iff. intros [H1 H2] [H3 H4].
  split; [now apply (nocase_trans x y)|now apply (IH b)].
Qed.
Lemma str_nocase_other a : forall b, str_eq_nocase a b = true -> (forall x, In x a -> ~ letter x) -> b = a.
Proof.
  induction a as [|x a IH]; intros [|y b]; try discriminate; auto. cbn [str_eq_nocase]. rewrite andb_true_iff. intros [H1 H2] H.
  f_equal; [apply nocase_other; auto; apply H; now left|apply IH; auto; intros z Hz; apply H; now right].
Qed.
Lemma str_nocase_letters a : forall b, str_eq_nocase a b = true -> (forall x, In x a -> letter x) -> forall x, In x b -> letter x.
Proof.
  induction a as [|x a IH]; intros [|y b]; try discriminate; [intros _ _ z []|]. cbn [str_eq_nocase]. rewrite andb_true_iff. intros [H1 H2] H z [<-|Hz].
  - apply (nocase_letter x); auto. apply H. now left.
  - apply (IH b); auto. intros w Hw. apply H. now right.
Qed.

Lemma alike_sym l l' : alike l l' -> alike l' l.
Proof. induction 1; [apply al_nil|apply al_byte; auto; [now apply (nocase_white x)|now apply nocase_sym]|now apply al_space]. Qed.
Lemma alike_nil l : alike [] l -> l = [].
Proof.
  intros H. remember [] as e eqn:E. destruct H as [|x y l0 l' _ _ _|ds ds' l0 l' N _ _ _ _ _ _]; [reflexivity|discriminate|].
  apply app_eq_nil in E. now destruct E.
Qed.
Lemma alike_not_nil l l' : alike l l' -> l <> [] -> l' <> [].
Proof. intros H N ->. apply N, alike_nil, alike_sym, H. Qed.
Lemma alike_cons x l l' : ~ white x -> alike (x :: l) l' -> exists y l0, l' = y :: l0 /\ eq_nocase x y = true /\ alike l l0.
Proof.
  intros Hx H. remember (x :: l) as e eqn:E. destruct H as [|x0 y l0 l' _ Hy H|ds ds' l0 l' N _ H _ _ _ _]; [discriminate| |].
  - injection E as -> ->. exists y, l'. auto.
  - destruct ds as [|y ds]; [congruence|]. cbn in E. injection E as -> _. destruct Hx. apply H. now left.
Qed.
Lemma alike_prefix a : forall l r, (forall x, In x a -> ~ white x) -> alike (a ++ r) l -> exists a' r', l = a' ++ r' /\ str_eq_nocase a a' = true /\ alike r r'.
Proof.
  induction a as [|x a IH]; intros l r Ha H; [exists [], l; auto|].
  cbn [app] in H. apply alike_cons in H; [|apply Ha; now left]. destruct H as (y & l0 & -> & E & H).
  apply IH in H; [|intros z Hz; apply Ha; now right]. destruct H as (a' & r' & -> & E' & H). exists (y :: a'), r'. split; [reflexivity|]. split; [|exact H].
  cbn [str_eq_nocase]. now rewrite E, E'.
Qed.
(** ... which are no letters *)
Lemma alike_other a l r : (forall x, In x a -> ~ white x /\ ~ letter x) -> alike (a ++ r) l -> exists r', l = a ++ r' /\ alike r r'.
Proof.
  intros Ha H. destruct (alike_prefix a l r) as (a' & r' & -> & E & R); [intros x Hx; now apply Ha|exact H|].
  exists r'. split; [|exact R]. f_equal. apply str_nocase_other; auto. intros x Hx. now apply Ha.
Qed.
Lemma alike_ahead l l' : alike l l' -> no_white_ahead l -> no_white_ahead l'.
Proof.
  intros H. destruct H as [|x y l l' Hx E H|ds ds' l l' N N' H1 H2 _ _ _]; auto.
  - intros _ z r [= <- <-]. now apply (nocase_white x).
  - intros A. destruct ds as [|y ds]; [congruence|]. destruct (A y (ds ++ l) eq_refl). apply H1. now left.
Qed.
Lemma alike_space ds l r : white_space ds -> no_white_ahead r -> alike (ds ++ r) l ->
  exists ds' r', l = ds' ++ r' /\ white_space ds' /\ alike r r' /\ (ds = [] <-> ds' = []).
Proof.
  intros Hd Hr H. remember (ds ++ r) as e eqn:E. destruct H as [|x y l0 l' Hx Hy H|ds1 ds2 l0 l' N N' H1 H2 S S' H].
  - symmetry in E. apply app_eq_nil in E. destruct E as [-> ->]. exists [], []. split; [reflexivity|]. split; [intros x []|]. split; [apply al_nil|tauto].
  - destruct ds as [|z ds]; [|cbn in E; injection E as -> _; destruct Hx; apply Hd; now left].
    cbn in E. subst r. exists [], (y :: l'). split; [reflexivity|]. split; [intros z []|]. split; [now apply al_byte|tauto].
  - assert (G : ds = ds1 /\ r = l0).
    { clear N N' H2 S' H ds2 l'. revert ds1 E H1. induction ds as [|y ds IH]; intros ds1 E H1.
      - destruct ds1 as [|z ds1]; [auto|]. cbn in E. destruct (Hr z (ds1 ++ l0)); auto. apply H1. now left.
      - destruct ds1 as [|z ds1]; cbn in E.
        + destruct (S y (ds ++ r)); auto. apply Hd. now left.
        + injection E as <- E. destruct (IH (fun x Hx => Hd x (or_intror Hx)) ds1 E (fun x Hx => H1 x (or_intror Hx))) as [-> ->]. auto. }
    destruct G as [-> ->]. exists ds2, l'. split; [reflexivity|]. split; [exact H2|]. split; [exact H|tauto].
Qed.

(** the words are made of letters *)
Lemma table_letters {A} (t : list (A * list str)) w a :
  forallb (fun e => forallb (fun v => negb (str_eqb v []) && forallb (fun x => (97 <=? x) && (x <=? 122)) v) (snd e)) t = true ->
  word_for t w a -> w <> [] /\ (forall x, In x w -> letter x).
Proof.
  intros F (ws & v & I & J & E). rewrite forallb_forall in F. specialize (F _ I). cbn [snd] in F. rewrite forallb_forall in F. specialize (F _ J).
  apply andb_true_iff in F. destruct F as [F1 F2]. rewrite forallb_forall in F2. split.
  - intros ->. destruct v; [discriminate F1|discriminate E].
  - apply (str_nocase_letters v); [now apply str_nocase_sym|]. intros x Hx. specialize (F2 x Hx). unfold letter. lia.
Qed.
Lemma unit_letters w g : word_for gnu_units w g -> w <> [] /\ (forall x, In x w -> letter x).
Proof. now apply table_letters. Qed.
Lemma keyword_letters w g : word_for gnu_keywords w g -> w <> [] /\ (forall x, In x w -> letter x).
Proof. now apply table_letters. Qed.
Lemma numeral_letters w g : word_for gnu_numerals w g -> w <> [] /\ (forall x, In x w -> letter x).
Proof. now apply table_letters. Qed.
Lemma letter_not_white x : letter x -> ~ white x.
Proof. unfold letter, white. lia. Qed.
Lemma word_alike {A} (t : list (A * list str)) w w' a : str_eq_nocase w w' = true -> word_for t w a -> word_for t w' a.
Proof. intros E (ws & v & I & J & H). exists ws, v. split; [exact I|]. split; [exact J|]. apply (str_nocase_trans w' w v); [now apply str_nocase_sym|exact H]. Qed.
Lemma letters_ahead w l : w <> [] -> (forall x, In x w -> letter x) -> no_white_ahead (w ++ l).
Proof. intros N H x r E. destruct w as [|y w]; [congruence|]. cbn in E. injection E as <- _. apply letter_not_white, H. now left. Qed.

(** what may follow *)
Lemma alike_head (P : byte -> Prop) l l' : (forall x y, white x -> white y -> P x -> P y) -> (forall x y, eq_nocase x y = true -> P x -> P y) ->
  alike l l' -> (forall x r, l = x :: r -> P x) -> forall x r, l' = x :: r -> P x.
Proof.
  intros HW HN H. destruct H as [|x y l l' Hx E H|ds ds' l l' N N' H1 H2 _ _ _].
  - auto.
  - intros HP z r [= <- <-]. apply (HN x); auto. now apply (HP x l).
  - intros HP z r E. destruct ds as [|a ds]; [congruence|]. destruct ds' as [|b ds']; [congruence|]. cbn in E. injection E as <- _.
    apply (HW a); [apply H1; now left|apply H2; now left|]. now apply (HP a (ds ++ l)).
Qed.
Lemma alike_ends_word l l' : alike l l' -> ends_word l -> ends_word l'.
Proof.
  refine (alike_head (fun x => white x \/ 48 <= x <= 57 \/ x = 43 \/ x = 45) l l' _ _); [tauto|]. intros x y E H. destruct (letter_dec x) as [L|L]; [unfold letter, white in *; lia|]. apply nocase_other in E; [now subst|exact L].
Qed.
Lemma alike_ends_digits l l' : alike l l' -> ends_digits l -> ends_digits l'.
Proof.
  refine (alike_head (fun x => ~ 48 <= x <= 57 /\ x <> 46 /\ x <> 101 /\ x <> 69) l l' _ _); [unfold white; lia|]. intros x y E H. destruct (letter_dec x) as [L|L]; [|apply nocase_other in E; [now subst|exact L]].
  pose proof (nocase_letter x y E L) as L'. revert E. unfold eq_nocase, to_lower, letter in *. destruct ((65 <=? x) && (x <=? 90)) eqn:E1, ((65 <=? y) && (y <=? 90)) eqn:E2; lia.
Qed.
Lemma alike_ends_fraction l l' : alike l l' -> ends_fraction l -> ends_fraction l'.
Proof.
  refine (alike_head (fun x => ~ 48 <= x <= 57 /\ x <> 101 /\ x <> 69) l l' _ _); [unfold white; lia|]. intros x y E H. destruct (letter_dec x) as [L|L]; [|apply nocase_other in E; [now subst|exact L]].
  pose proof (nocase_letter x y E L) as L'. revert E. unfold eq_nocase, to_lower, letter in *. destruct ((65 <=? x) && (x <=? 90)) eqn:E1, ((65 <=? y) && (y <=? 90)) eqn:E2; lia.
Qed.

(** ** the grammar *)
Lemma al_sign sg n l s' : gnu_sign sg n -> no_white_ahead l -> alike (sg ++ l) s' -> exists sg' l', s' = sg' ++ l' /\ gnu_sign sg' n /\ alike l l'.
Proof.
  intros [|ds Hd|ds Hd] Hl H.
  - exists [], s'. split; [reflexivity|]. split; [apply gs_none|exact H].
  - apply (alike_other [43]) in H; [|intros x [<-|[]]; unfold white, letter; lia]. destruct H as (r & -> & H).
    destruct (alike_space ds r l Hd Hl H) as (ds' & l' & -> & Hd' & R & _). exists (43 :: ds'), l'. split; [reflexivity|]. split; [now apply gs_plus|exact R].
  - apply (alike_other [45]) in H; [|intros x [<-|[]]; unfold white, letter; lia]. destruct H as (r & -> & H).
    destruct (alike_space ds r l Hd Hl H) as (ds' & l' & -> & Hd' & R & _). exists (45 :: ds'), l'. split; [reflexivity|]. split; [now apply gs_minus|exact R].
Qed.
Lemma number_bytes r num W F : gnu_number r num W F -> num <> [] /\ forall x, In x num -> 48 <= x <= 57 \/ x = 46.
Proof.
  intros [W' H1 H2 _|W' F' H1 H2 H3 H4 _].
  - split; [exact H2|]. intros x Hx. left. specialize (H1 x Hx). unfold is_digit in H1. lia.
  - split; [destruct W'; [congruence|discriminate]|]. intros x Hx. apply in_app_or in Hx. destruct Hx as [Hx|[<-|Hx]]; [left|now right|left].
    + specialize (H1 x Hx). unfold is_digit in H1. lia.
    + specialize (H3 x Hx). unfold is_digit in H3. lia.
Qed.
Lemma number_follow r r' num W F : (ends_digits r -> ends_digits r') -> (ends_fraction r -> ends_fraction r') -> gnu_number r num W F -> gnu_number r' num W F.
Proof. intros H1 H2 []; [apply gn_whole|apply gn_fraction]; auto. Qed.
Lemma al_number num W F r s' : gnu_number r num W F -> alike (num ++ r) s' -> exists r', s' = num ++ r' /\ gnu_number r' num W F /\ alike r r'.
Proof.
  intros HN H. destruct (number_bytes _ _ _ _ HN) as [_ B]. apply alike_other in H; [|intros x Hx; specialize (B x Hx); unfold white, letter; lia].
  destruct H as (r' & -> & R). exists r'. split; [reflexivity|]. split; [|exact R]. revert HN. apply number_follow; [now apply alike_ends_digits|now apply alike_ends_fraction].
Qed.
Lemma number_ahead r num W F l : gnu_number r num W F -> no_white_ahead (num ++ l).
Proof.
  intros H x r' E. destruct (number_bytes _ _ _ _ H) as [N B]. destruct num as [|y num]; [congruence|]. cbn in E. injection E as <- _.
  specialize (B y (or_introl eq_refl)). unfold white. lia.
Qed.
Lemma ago_ahead a r : str_eq_nocase a (%"ago") = true -> no_white_ahead (a ++ r) /\ forall x, In x a -> letter x.
Proof.
  intros E. assert (L : forall x, In x a -> letter x). { apply (str_nocase_letters (%"ago")); [now apply str_nocase_sym|each; unfold letter; lia]. }
  split; [|exact L]. apply letters_ahead; [|exact L]. intros ->. discriminate E.
Qed.
Lemma al_ago l l' r : alike l l' -> ago_follows l r -> exists r', ago_follows l' r' /\ alike r r'.
Proof.
  intros H (ds & a & -> & N & Hd & Ha & He). destruct (ago_ahead a r Ha) as [A L].
  destruct (alike_space ds l' (a ++ r) Hd A H) as (ds' & l1 & -> & Hd' & R & E).
  destruct (alike_prefix a l1 r) as (a' & r' & -> & Ea & R'); [intros x Hx; now apply letter_not_white, L|exact R|].
  exists r'. split; [|exact R']. exists ds', a'. split; [reflexivity|]. split; [tauto|]. split; [exact Hd'|]. split; [|now apply (alike_ends_word r)].
  apply (str_nocase_trans a' a); [now apply str_nocase_sym|exact Ha].
Qed.
Lemma al_unit l l' g b r : alike l l' -> unit_phrase l g b r -> exists r', unit_phrase l' g b r' /\ alike r r'.
Proof.
  intros H K. revert H. destruct K as [w g r Hw He Hn|w g l0 r Hw Ha]; intros H; destruct (unit_letters w g Hw) as [Nw L];
    (apply alike_prefix in H; [|intros x Hx; now apply letter_not_white, L]); destruct H as (w' & r' & -> & E & R).
  - exists r'. split; [|exact R]. apply up_plain; [now apply (word_alike _ w)|now apply (alike_ends_word r)|].
    intros r2 A. destruct (al_ago r' r r2 (alike_sym _ _ R) A) as (r3 & A' & _). exact (Hn r3 A').
  - destruct (al_ago l0 r' r R Ha) as (r2 & A' & R'). exists r2. split; [|exact R']. apply up_ago; [now apply (word_alike _ w)|exact A'].
Qed.
Lemma unit_ahead l g b r : unit_phrase l g b r -> no_white_ahead l /\ l <> [].
Proof.
  intros [w g' r' Hw _ _|w g' l0 r' Hw _]; destruct (unit_letters w g' Hw) as [N L]; (split; [now apply letters_ahead|destruct w; [congruence|discriminate]]).
Qed.
Lemma al_item l l' a r : alike l l' -> gnu_item l a r -> exists r', gnu_item l' a r' /\ alike r r'.
Proof.
  intros H K. revert H.
  destruct K as [sg n num W F ds l g ago r a Hsg Hn Hd Hu Ha|sg n num W F ds r a Hsg Hn Hd Hr Hdr Hu Ha|sg n l g ago r Hsg Hu|sg n w k ds l g ago r Hsg Hw Hd Nd Hu|sg n w k r Hsg Hw He]; intros H.
  - apply (al_sign sg n _ l' Hsg (number_ahead _ _ _ _ _ Hn)) in H. destruct H as (sg' & l1 & -> & Hsg' & H).
    apply (al_number num W F _ l1 Hn) in H. destruct H as (l2 & -> & Hn' & H).
    destruct (alike_space ds l2 l Hd (proj1 (unit_ahead _ _ _ _ Hu)) H) as (ds' & l3 & -> & Hd' & R & _).
    destruct (al_unit _ _ _ _ _ R Hu) as (r' & Hu' & R'). exists r'. split; [|exact R']. now apply gi_number_unit with (n := n) (W := W) (F := F) (g := g) (ago := ago).
  - apply (al_sign sg n _ l' Hsg (number_ahead _ _ _ _ _ Hn)) in H. destruct H as (sg' & l1 & -> & Hsg' & H).
    apply (al_number num W F _ l1 Hn) in H. destruct H as (l2 & -> & Hn' & H).
    destruct (alike_space ds l2 r Hd Hr H) as (ds' & r' & -> & Hd' & R & E). exists r'. split; [|exact R].
    apply gi_number with (n := n) (W := W) (F := F); auto.
    + now apply (alike_ahead r).
    + destruct Hdr as [Hdr|Hdr]; [left; tauto|right; now apply (alike_not_nil r)].
    + intros g b r2 U. destruct (al_unit _ _ _ _ _ (alike_sym _ _ R) U) as (r3 & U' & _). exact (Hu _ _ _ U').
  - apply (al_sign sg n _ l' Hsg (proj1 (unit_ahead _ _ _ _ Hu))) in H. destruct H as (sg' & l1 & -> & Hsg' & H).
    destruct (al_unit _ _ _ _ _ H Hu) as (r' & Hu' & R'). exists r'. split; [|exact R']. now apply gi_unit.
  - destruct (numeral_letters w k Hw) as [Nw L]. apply (al_sign sg n _ l' Hsg (letters_ahead w _ Nw L)) in H. destruct H as (sg' & l1 & -> & Hsg' & H).
    apply alike_prefix in H; [|intros x Hx; now apply letter_not_white, L]. destruct H as (w' & l2 & -> & E & H).
    destruct (alike_space ds l2 l Hd (proj1 (unit_ahead _ _ _ _ Hu)) H) as (ds' & l3 & -> & Hd' & R & E').
    destruct (al_unit _ _ _ _ _ R Hu) as (r' & Hu' & R'). exists r'. split; [|exact R']. apply gi_numeral; auto; [now apply (word_alike _ w)|tauto].
  - destruct (keyword_letters w k Hw) as [Nw L]. apply (al_sign sg n _ l' Hsg (letters_ahead w _ Nw L)) in H. destruct H as (sg' & l1 & -> & Hsg' & H).
    apply alike_prefix in H; [|intros x Hx; now apply letter_not_white, L]. destruct H as (w' & r' & -> & E & R). exists r'. split; [|exact R].
    apply gi_keyword; auto; [now apply (word_alike _ w)|now apply (alike_ends_word r)].
Qed.
Lemma al_relative l as_ : relative_time l as_ -> forall l', alike l l' -> relative_time l' as_.
Proof.
  induction 1 as [l a H|l a ds r rs H Hd Hr Hrs IH]; intros l' R; destruct (al_item _ _ _ _ R H) as (r' & H' & R').
  - apply rt_last. apply alike_nil in R'. now subst r'.
  - destruct (alike_space ds r' r Hd Hr R') as (ds' & r2 & -> & Hd' & R2 & _). apply rt_more with ds' r2; auto. now apply (alike_ahead r).
Qed.

(** ** the surrounding white space *)
Definition ends_dark (l : str) : Prop := forall x r, l = r ++ [x] -> ~ white x.
Lemma ends_dark_app a b : b <> [] -> ends_dark (a ++ b) <-> ends_dark b.
Proof.
  intros N. destruct (exists_last N) as (b0 & z & ->). unfold ends_dark. split; intros H x r E.
  - apply (H x (a ++ r)). rewrite E. now rewrite app_assoc.
  - rewrite app_assoc in E. apply app_inj_tail in E. destruct E as [_ ->]. now apply (H x b0).
Qed.
Lemma ends_dark_cons x l : l <> [] -> ends_dark (x :: l) <-> ends_dark l.
Proof. apply (ends_dark_app [x]). Qed.
Lemma space_not_dark ds : white_space ds -> ds <> [] -> ~ ends_dark ds.
Proof. intros H N D. destruct (exists_last N) as (r & x & ->). apply (D x r eq_refl), H. apply in_or_app. right. now left. Qed.
Lemma alike_last l l' : alike l l' -> ends_dark l -> ends_dark l'.
Proof.
  induction 1 as [|x y l l' Hx E H IH|ds ds' l l' N N' H1 H2 _ _ H IH]; auto.
  - intros D. destruct l as [|z l].
    + apply alike_nil in H. subst l'. intros a r Ea. destruct r as [|b r]; [|destruct r; discriminate Ea]. cbn in Ea. injection Ea as <-. now apply (nocase_white x).
    + apply ends_dark_cons; [now apply (alike_not_nil (z :: l))|]. apply IH. now apply ends_dark_cons in D.
  - intros D. destruct l as [|z l].
    + rewrite app_nil_r in D. destruct (space_not_dark ds H1 N D).
    + apply ends_dark_app; [now apply (alike_not_nil (z :: l))|]. apply IH. now apply ends_dark_app in D.
Qed.
Lemma alike_split l l' : alike l l' -> forall a b, l = a ++ b -> ends_dark a -> exists a' b', l' = a' ++ b' /\ alike a a' /\ alike b b'.
Proof.
  induction 1 as [|x y l l' Hx E H IH|ds ds' l l' N N' H1 H2 A A' H IH]; intros a b Eab D.
  - symmetry in Eab. apply app_eq_nil in Eab. destruct Eab as [-> ->]. exists [], []. auto using al_nil.
  - destruct a as [|z a]; cbn in Eab.
    + exists [], (y :: l'). split; [reflexivity|]. split; [apply al_nil|]. rewrite <- Eab. now apply al_byte.
    + injection Eab as <- ->. destruct (IH a b eq_refl) as (a' & b' & -> & Ra & Rb).
      { destruct a as [|z a]; [intros w r C; destruct r; discriminate C|]. now apply ends_dark_cons in D. }
      exists (y :: a'), b'. split; [reflexivity|]. split; [now apply al_byte|exact Rb].
  - destruct a as [|z a].
    + exists [], (ds' ++ l'). split; [reflexivity|]. split; [apply al_nil|]. cbn in Eab. rewrite <- Eab. now apply al_space.
    + assert (S : exists a1, z :: a = ds ++ a1 /\ l = a1 ++ b /\ a1 <> []).
      { clear - Eab D H1 N. set (e := z :: a) in *. assert (Ne : e <> []) by discriminate. clearbody e. clear z a. revert e Eab D Ne.
        induction ds as [|w ds IHd]; intros e Eab D Ne; [congruence|]. destruct e as [|z e]; [congruence|]. cbn in Eab. injection Eab as <- Eab.
        destruct e as [|z e].
        - destruct (D w []); [reflexivity|]. apply H1. now left.
        - destruct ds as [|v ds].
          + cbn in Eab. exists (z :: e). split; [reflexivity|]. split; [exact Eab|discriminate].
          + assert (K : exists a1, z :: e = (v :: ds) ++ a1 /\ l = a1 ++ b /\ a1 <> []).
            { apply IHd; try discriminate; try exact Eab; [intros x Hx; apply H1; now right|now apply ends_dark_cons in D]. }
            destruct K as (a1 & E1 & E2 & E3).
            exists a1. split; [cbn [app]; now rewrite E1|]. auto. }
      destruct S as (a1 & E1 & -> & N1). rewrite E1 in D |- *. destruct (IH a1 b eq_refl) as (a' & b' & -> & Ra & Rb); [now apply ends_dark_app in D|].
      exists (ds' ++ a'), b'. split; [now rewrite app_assoc|]. split; [|exact Rb]. apply al_space; auto.
      * intros x r E. destruct a1 as [|y a1]; [congruence|]. apply (A x (r ++ b)). rewrite E. reflexivity.
      * pose proof (alike_not_nil _ _ Ra N1) as N2. intros x r E. destruct a' as [|y a']; [congruence|]. apply (A' x (r ++ b')). rewrite E. reflexivity.
Qed.
Lemma white_alike ws l : white_space ws -> alike ws l -> white_space l.
Proof.
  intros H R. destruct (alike_space ws l [] H) as (ds' & r' & -> & Hd & R' & _); [intros x r [=]|now rewrite app_nil_r|].
  apply alike_nil in R'. subst. now rewrite app_nil_r.
Qed.
Lemma relative_not_nil l as_ : relative_time l as_ -> l <> [].
Proof.
  assert (G : forall l a r, gnu_item l a r -> l <> []).
  { intros l0 a r [sg n num W F ds l1 g ago r0 a0 _ Hn _ _ _|sg n num W F ds r0 a0 _ Hn _ _ _ _ _|sg n l1 g ago r0 _ Hu|sg n w k ds l1 g ago r0 _ Hw _ _ _|sg n w k r0 _ Hw _] E;
      apply app_eq_nil in E; destruct E as [_ E].
    - apply app_eq_nil in E. destruct E as [E _]. exact (proj1 (number_bytes _ _ _ _ Hn) E).
    - apply app_eq_nil in E. destruct E as [E _]. exact (proj1 (number_bytes _ _ _ _ Hn) E).
    - exact (proj2 (unit_ahead _ _ _ _ Hu) E).
    - apply app_eq_nil in E. destruct E as [E _]. exact (proj1 (numeral_letters w k Hw) E).
    - apply app_eq_nil in E. destruct E as [E _]. exact (proj1 (keyword_letters w k Hw) E). }
  intros [l0 a H|l0 a ds r rs H _ _ _]; eapply G; exact H.
Qed.

(** parse_fuzzy: the same years and months, and a duration of the same value *)
Theorem C62_fuzzy : forall s s' years months d, utf8 s = true -> utf8 s' = true -> alike s s' ->
  gnu_parse_fuzzy gnu_new s = Ok (years, months, d) ->
  exists d', gnu_parse_fuzzy gnu_new s' = Ok (years, months, d') /\ duration_ok d' /\ nanos d' = nanos d.
Proof.
  intros s s' years months d U U' R P. destruct (C44_fuzzy_sound s years months d U P) as (ws1 & t & ws2 & as_ & -> & W1 & W2 & [T1 T2] & HR & -> & -> & Hd & Hn).
  assert (Nt : t <> []) by now apply (relative_not_nil t as_).
  destruct (alike_space ws1 s' (t ++ ws2) W1) as (ws1' & l1 & -> & W1' & R1 & _); auto.
  { intros x r E. destruct t as [|y t]; [congruence|]. injection E as <- _. now apply (T1 y t). }
  destruct (alike_split _ _ R1 t ws2 eq_refl) as (t' & ws2' & -> & Rt & R2); [exact T2|].
  pose proof (white_alike _ _ W2 R2) as W2'. pose proof (al_relative t as_ HR t' Rt) as HR'.
  assert (Ut : utf8 t' = true).
  { assert (B : utf8 (t' ++ ws2') = true).
    { revert U'. clear - W1'. revert W1'. induction ws1' as [|x ws IH]; intros H; [auto|]. cbn [app]. intros E. apply IH; [intros y Hy; apply H; now right|].
      change (x :: ws ++ t' ++ ws2') with ([x] ++ (ws ++ t' ++ ws2')) in E. rewrite white_utf8 in E; [exact E|]. intros y [<-|[]]. apply H. now left. }
    now rewrite utf8_white_end in B. }
  destruct (C44_fuzzy_complete ws1' t' ws2' as_) as (d' & P' & Hd' & Hn'); auto.
  - split; [exact (alike_ahead t t' Rt T1)|exact (alike_last t t' Rt T2)].
  - exists d'. split; [exact P'|]. split; [exact Hd'|]. congruence.
Qed.
Print Assumptions C62_fuzzy.

Lemma instant_inj x y : date_time_ok x -> date_time_ok y -> instant x = instant y -> x = y.
Proof.
  intros Hx Hy E. destruct (instant_day x Hx) as [A1 A2], (instant_day y Hy) as [B1 B2]. rewrite E in A1, A2. destruct x as [dx tx], y as [dy ty]. cbn [days time] in *. congruence.
Qed.
Lemma add_duration_value x d d' : date_time_ok x -> duration_ok d -> duration_ok d' -> nanos d' = nanos d -> checked_add_duration x d' = checked_add_duration x d.
Proof.
  intros Hx Hd Hd' E. destruct (C42_add_duration_exact_or_none x d Hx Hd) as [A1 A2], (C42_add_duration_exact_or_none x d' Hx Hd') as [B1 B2]. rewrite E in B1, B2.
  destruct (fits_i64_dec ((instant x + nanos d) / day_nanos)) as [F|F]; [|now rewrite A2, B2].
  destruct (A1 F) as (y & -> & Hy & Ey). destruct (B1 F) as (y' & -> & Hy' & Ey'). do 2 f_equal. apply instant_inj; congruence.
Qed.
(** parse_with_date: the same duration, or the same error (a date which is out of range), if the text is a relative time;
    and one of the texts is a relative time if and only if the other one is *)
Theorem C62_with_date : forall now s s' x, utf8 s = true -> utf8 s' = true -> alike s s' -> date_time_ok x ->
  (forall d, gnu_parse_with_date gnu_new now s (Some x) = Ok d ->
     exists d', gnu_parse_with_date gnu_new now s' (Some x) = Ok d' /\ nanos d' = nanos d) /\
  (forall e r, gnu_parse_fuzzy gnu_new s = Ok r -> gnu_parse_with_date gnu_new now s (Some x) = Err e ->
     gnu_parse_with_date gnu_new now s' (Some x) = Err e) /\
  ((exists e, gnu_parse_fuzzy gnu_new s = Err e) <-> (exists e, gnu_parse_fuzzy gnu_new s' = Err e)).
Proof.
  intros now s s' x U U' R Hx.
  assert (G : forall a b, utf8 a = true -> utf8 b = true -> alike a b -> (exists e, gnu_parse_fuzzy gnu_new a = Err e) -> exists e, gnu_parse_fuzzy gnu_new b = Err e).
  { intros a b Ua Ub Rab (e & E). destruct (C44_fuzzy_never_crashes b Ub) as [(y & m & d & E' & _)|E']; [|exact E'].
    destruct (C62_fuzzy b a y m d Ub Ua (alike_sym _ _ Rab) E') as (d' & E2 & _). congruence. }
  destruct (C44_fuzzy_never_crashes s U) as [(y & m & d & E & Hd & _ & _)|(e & E)].
  - destruct (C62_fuzzy s s' y m d U U' R E) as (d' & E' & Hd' & V). pose proof (add_duration_value x d d' Hx Hd Hd' V) as AV.
    unfold gnu_parse_with_date. rewrite E, E'. cbn [bind]. destruct ((y =? 0) && (m =? 0)) eqn:Z0.
    + split; [intros d0 [= <-]; exists d'; auto|]. split; [discriminate|]. split; intros (e & C); discriminate C.
    + cbn [bind]. rewrite AV. split; [intros d0 P; exists d0; auto|]. split; [auto|]. split; intros (e & C); discriminate C.
  - destruct (G s s' U U' R (ex_intro _ e E)) as (e' & E'). unfold gnu_parse_with_date. rewrite E, E'. cbn [bind].
    split; [discriminate|]. split; [discriminate|split; eauto].
Qed.
Print Assumptions C62_with_date.
Example C62_example :
  let s := %"2 days AGO - next month" in let s' := %"2  Days ago  - " ++ [9] ++ %"NEXT" ++ [9] ++ %"mOnth" in
  alike s s' /\ utf8 s' = true /\
  gnu_parse_fuzzy gnu_new s = Ok (0, -1, Dur true (Std 172800 0)) /\ gnu_parse_fuzzy gnu_new s' = Ok (0, -1, Dur true (Std 172800 0)) /\
  ~ alike (%"2 days") (%"2days").
Proof.
  assert (B : forall x y l l', (32 <? x) = true -> eq_nocase x y = true -> alike l l' -> alike (x :: l) (y :: l')) by (intros x y l l' H; apply al_byte; unfold white; lia).
  assert (S : forall ds ds' x l y l', ds <> [] -> ds' <> [] -> forallb (fun x => (x =? 32) || (x =? 9)) (ds ++ ds') = true -> (32 <? x) = true -> (32 <? y) = true ->
    alike (x :: l) (y :: l') -> alike (ds ++ x :: l) (ds' ++ y :: l')).
  { intros ds ds' x l y l' N N' F Hx Hy H. rewrite forallb_forall in F.
    apply al_space; auto; try (intros z Hz; assert (Hz' : In z (ds ++ ds')) by (apply in_or_app; auto); specialize (F z Hz'); unfold white; lia);
      intros z r [= <- <-]; unfold white; lia. }
  split.
  { cbn. repeat (apply B; [reflexivity|reflexivity|]). apply (S [32] [32; 32]); try discriminate; try reflexivity.
    repeat (apply B; [reflexivity|reflexivity|]). apply (S [32] [32]); try discriminate; try reflexivity.
    repeat (apply B; [reflexivity|reflexivity|]). apply (S [32] [32; 32]); try discriminate; try reflexivity.
    repeat (apply B; [reflexivity|reflexivity|]). apply (S [32] [32; 9]); try discriminate; try reflexivity.
    repeat (apply B; [reflexivity|reflexivity|]). apply (S [32] [9]); try discriminate; try reflexivity.
    repeat (apply B; [reflexivity|reflexivity|]). apply al_nil. }
  split; [reflexivity|]. split; [reflexivity|]. split; [reflexivity|].
  intros H. apply alike_cons in H; [|unfold white; cbn; lia]. destruct H as (y & l0 & [= <- <-] & _ & H).
  apply alike_sym, alike_cons in H; [|unfold white; cbn; lia]. destruct H as (z & l1 & [= <- <-] & E & _). discriminate E.
Qed.
