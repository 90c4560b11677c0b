(** * The errors of the systemd parser are those of SpecSystemdErrors *)
From Verif Require Import Prelude Time Config Parse SpecTime SpecNum SpecParse SpecValue SpecGrammar SpecErrors SpecSpelling SpecSystemd SpecSystemdErrors
  Utf8Proofs TimeProofs NumProofs ValueProofs SafeProofs RefGrammar ErrorProofs StandardProofs Systemd SystemdProofs SystemdSpan SystemdExact PropNum PropParse.

Section SdErrors.
Context (du : time_unit) (tu : units_like) (table : list (time_unit * list str)).
Hypothesis Hget : forall id u m, u_get tu id = Some (u, m) <-> m = Mul 1 0 /\ denotes table id u.
Hypothesis Hemp : u_is_empty tu = false.
Hypothesis Hword : forall w u, denotes table w u -> w <> [] /\ starts_not is_e w /\ utf8 w = true /\
  forall x, In x w -> ~ white x /\ is_digit x = false /\ is_sign x = false /\ is_dot x = false.
Notation c := (sd_with_default_unit du).

Lemma without_iff p q l : (forall x, q x = true <-> p x) -> (starts_not q l <-> starts_without p l).
Proof.
  intros H. unfold starts_without. destruct l as [|x l]; cbn [starts_not]; [split; [intros _ x r E; discriminate|trivial]|]. split.
  - intros E y r [= <- <-] P. apply H in P. congruence.
  - intros E. destruct (q x) eqn:Q; [|reflexivity]. apply H in Q. elim (E x l eq_refl Q).
Qed.
Lemma digit_iff x : is_digit x = true <-> digit x. Proof. unfold is_digit, digit. lia. Qed.
Lemma sign_iff x : is_sign x = true <-> sign x. Proof. unfold is_sign, sign. lia. Qed.
Lemma dot_iff x : is_dot x = true <-> 46 = x. Proof. unfold is_dot. lia. Qed.
Lemma e_iff x : is_e x = true <-> x = 101 \/ x = 69. Proof. unfold is_e. lia. Qed.
Lemma ends_iff l : word_ends l <-> starts_not (fun x => negb (unit_end c x)) l.
Proof.
  unfold word_ends. destruct l as [|x l]; cbn [starts_not]; [split; [trivial|intros _ x r E; discriminate]|]. rewrite negb_false_iff, unit_end_iff, digit_iff, sign_iff.
  split; [intros H; exact (H x l eq_refl)|]. intros H y r [= <- <-]. exact H.
Qed.
Lemma word_until w u r : denotes table w u -> word_ends r -> until (unit_end c) (w ++ r) w r.
Proof.
  intros Hw He. split; [reflexivity|]. split; [|now apply ends_iff]. intros x Hx. apply negb_true_iff.
  destruct (unit_end c x) eqn:E; [|reflexivity]. apply unit_end_iff in E. destruct (Hword w u Hw) as (_ & _ & _ & K). destruct (K x Hx) as (K1 & K2 & K3 & _).
  destruct E as [E|[E|E]]; congruence || contradiction.
Qed.
Lemma ahead_iff l : unit_ahead table l <-> multi_unit_like c tu l.
Proof.
  split.
  - intros (w & u & r & -> & Hw & He). exists w, r. split; [now apply word_until with u|]. destruct (Hword w u Hw) as (Nw & _). split; [exact Nw|].
    assert (E : u_get tu w = Some (u, Mul 1 0)) by now apply Hget. congruence.
  - intros (w & l1 & U & Nw & G). destruct (u_get tu w) as [[u m]|] eqn:E; [|congruence]. apply Hget in E. exists w, u, l1. destruct U as (-> & _ & U).
    split; [reflexivity|]. split; [apply E|]. now apply ends_iff.
Qed.
Lemma sign_iff_text t l : behind_sign t l <-> exists n, signed c t n l.
Proof.
  split.
  - intros (sg & n & -> & Hs & Nl & S). exists n. destruct Hs; cbn [app bytes_of].
    + apply unsigned; [|exact Nl]. apply (without_iff sign is_sign l sign_iff). now apply S.
    + change false with (43 =? 45). now apply with_sign.
    + change true with (45 =? 45). now apply with_sign.
  - intros (n & H). destruct H as [l Ns Nl|x l r Hx _ -> Nr|x l ds r _ A _ _]; [| |discriminate A].
    + exists [], false. split; [reflexivity|]. split; [constructor|]. split; [exact Nl|]. intros _. now apply (without_iff sign is_sign l sign_iff).
    + exists [x], (x =? 45). split; [reflexivity|]. split; [|split; [exact Nr|discriminate]]. apply sign_iff in Hx. destruct Hx as [-> | ->]; constructor.
Qed.

(** ** pieces and components *)
Definition refused (n : bool) (u : time_unit) (W F : str) (d : duration) : Prop := is_negative d = true <-> n = true /\ ~ tiny u W F.
Lemma number_refused n W F u : digit_string W -> digit_string F -> refused n u W F (number_value n W F 0 u (Mul 1 0)).
Proof.
  intros HW HF. split.
  - intros E. destruct n.
    + split; [reflexivity|]. intros T. destruct (number_amount true W F u HW HF (fun _ => T)) as [A _]. congruence.
    + rewrite number_value_pos in E. discriminate.
  - intros [-> T]. destruct (is_negative _) eqn:E; [reflexivity|]. elim T. now apply (number_not_negative true W F u HW HF E).
Qed.
Lemma unit_refused n u : refused n u (%"1") [] (unit_value n u (Mul 1 0)).
Proof.
  assert (T : ~ tiny u (%"1") []). { unfold tiny. destruct u; vm_compute; discriminate. }
  split.
  - intros E. split; [|exact T]. destruct n; [reflexivity|]. destruct u; discriminate E.
  - intros [-> _]. destruct u; reflexivity.
Qed.

Lemma next_no_white sep r : next_component c (sep ++ r) r -> white_space sep -> starts_without white r.
Proof.
  intros C Ws. refine (proj1 (starts_white r) _). inversion C as [? S|? ? C']; subst; [|inversion C' as [? ? ? (_ & _ & S) _ _ _|? ? ? ? ? ? ? ? _ _ _ E]; subst; [exact S|destruct ws1; discriminate E]].
  destruct sep as [|y sep]; [exact S|]. exfalso. assert (L : length ((y :: sep) ++ r) = length r) by congruence. rewrite app_length in L. cbn [length] in L. lia.
Qed.
Lemma component_piece t d r : component c tu None None t d r -> exists n u W F, piece du table t n u W F r /\ refused n u W F d.
Proof.
  intros H. inversion H as
    [s0 n l W F x r0 l1 HS HN HU HC|s0 n l W F x l1 u m r0 HS HN HE HU|s0 n l l1 r0 HS HI|s0 n l l0 l1 r0 HS HI
    |s0 n l u m l1 r0 HS HW HK HC|s0 n l u m r0 HS HW HK HO HU|s0 n l num l1 u m r0 HS HW HK HO HP]; subst.
  - pose proof HN as HN0. destruct (signed_text _ _ _ _ HS) as (sg & ST & -> & _).
    destruct (number_text du tu table Hget Hword _ _ _ _ _ HN) as (fr & gap & -> & -> & DW & FT & N & WG & HG & SD & SG).
    destruct HU as [HU|HU]; [congruence|]. pose proof (fraction_text_digits _ _ FT) as DF.
    assert (l1 = r).
    { destruct (next_text _ _ _ HC) as (sep & E & Ws & N1 & N2). destruct sep as [|y sep]; [exact E|]. exfalso. subst l1.
      cbn in SD. assert (Wy : white y) by (apply Ws; now left). apply sd_delimiter_iff in Wy. congruence. }
    subst l1. exists n, du, W, F. split; [|now apply number_refused].
    apply (pc_number du table sg n W fr F gap r); auto.
    + assert (Ee : starts_not is_e (gap ++ r)).
      { destruct HN0 as (l1 & l2 & l3 & S1 & S2 & S3 & S4 & _).
        assert (El : l2 = gap ++ r).
        { destruct S1 as (E & A1 & A2). destruct FT as [|F DF'].
          - apply app_inv_head in E. cbn [app] in E. subst l1. inversion S2; subst; [reflexivity|]. exfalso.
            destruct gap as [|y gap]; [destruct (SG eq_refl) as [_ K]; cbn [app] in *; specialize (K eq_refl); subst r; discriminate K|].
            cbn [app] in *. match goal with H : 46 :: _ = y :: _ |- _ => injection H as <- _ end. assert (white 46) by (apply WG; now left). unfold white in *. lia.
          - apply app_inv_head in E. subst l1. inversion S2 as [? D|? ? ? _ (E' & _)]; subst; [discriminate D|]. now apply app_inv_head in E'. }
        subst l2. inversion S3; subst; [assumption|discriminate]. }
      intros x r' E. destruct gap as [|y gap].
      * cbn [app] in *. subst r. destruct (SG eq_refl) as [K1 K2]. cbn in K1, Ee. rewrite <- digit_iff, K1. split; [discriminate|].
        unfold is_e in Ee. split; [lia|]. split; [lia|]. intros ->. specialize (K2 eq_refl). cbn in K2. unfold is_dot in K2. lia.
      * cbn [app] in E. injection E as <- _. assert (Wy : white y) by (apply WG; now left). unfold white, digit in *. lia.
    + exact (proj1 (starts_white r) SD).
    + now rewrite ahead_iff.
  - destruct (signed_text _ _ _ _ HS) as (sg & ST & -> & _).
    destruct (number_text du tu table Hget Hword _ _ _ _ _ HN) as (fr & gap & -> & -> & DW & FT & N & WG & HG & SD & SG). pose proof (fraction_text_digits _ _ FT) as DF.
    inversion HU as [l0 w l2 u0 m0 r0 U Nw G _ _ C|l0 w l2 l3 u0 m0 r0 _ _ _ (A & _)]; subst; [|discriminate A].
    apply Hget in G. destruct G as [-> G]. destruct (next_text _ _ _ C) as (sep & -> & Ws & N1 & N2). destruct U as (-> & _ & U).
    exists n, u, W, F. split; [|now apply number_refused]. apply (pc_number_unit du table sg n W fr F gap w u sep r); auto; [now apply ends_iff|].
    exact (next_no_white sep r C Ws).
  - discriminate.
  - discriminate.
  - destruct HK as (k & w & K & _). discriminate K.
  - destruct (signed_text _ _ _ _ HS) as (sg & ST & -> & _).
    inversion HU as [l0 w l2 u0 m0 r0 U Nw G _ _ C|l0 w l2 l3 u0 m0 r0 _ _ _ (A & _)]; subst; [|discriminate A].
    apply Hget in G. destruct G as [-> G]. destruct (next_text _ _ _ C) as (sep & -> & Ws & N1 & N2). destruct U as (-> & _ & U).
    exists n, u, (%"1"), []. split; [|now apply unit_refused]. apply (pc_unit du table sg n w u sep r); auto; [now apply ends_iff|].
    exact (next_no_white sep r C Ws).
  - destruct HP as (f & w & a & b & K & _). discriminate K.
Qed.

Lemma next_component_white sep r : white_space sep -> starts_without white r -> (r = [] -> sep = []) -> next_component c (sep ++ r) r.
Proof.
  intros Hs Hr Hn. assert (S : starts_not sd_delimiter r) by exact (proj2 (starts_white r) Hr). destruct sep as [|y sep]; [now apply nc_adjacent|].
  apply nc_connection. apply (con_delimiter c _ (y :: sep)); [|discriminate|intros E; discriminate (Hn E)|intros w []].
  split; [reflexivity|]. split; [intros x Hx; apply sd_delimiter_iff; auto|exact S].
Qed.
Lemma word_multi_unit w u sep r : denotes table w u -> word_ends (sep ++ r) -> white_space sep -> starts_without white r -> (r = [] -> sep = []) ->
  multi_unit c tu (w ++ sep ++ r) u (Mul 1 0) r.
Proof.
  intros Hw He Hs Hr Hn. eapply mu_plain; [now apply word_until with u|apply (Hword w u Hw)|now apply Hget|intros r' (A & _); discriminate A|discriminate|].
  now apply next_component_white.
Qed.
Lemma piece_component t n u W F r : piece du table t n u W F r -> (forall p x, t = p ++ [x] -> ~ white x) ->
  exists d, component c tu None None t d r /\ refused n u W F d.
Proof.
  intros P T.
  assert (TS : forall p sep r, t = p ++ sep ++ r -> white_space sep -> r = [] -> sep = []).
  { intros p sep r0 E Hs ->. destruct sep as [|y sep]; [reflexivity|]. destruct (@exists_last _ (y :: sep)) as (q & x & Ex); [discriminate|]. rewrite Ex in *.
    elim (T (p ++ q) x); [now rewrite E, app_nil_r, app_assoc|]. apply Hs. apply in_or_app. right. now left. }
  destruct P as [sg n W fr F gap w u sep r H1 H2 H3 H4 H5 H6 H7 H8 H9|sg n W fr F sep r H1 H2 H3 H4 H5 H6 H7 H8|sg n w u sep r H1 H2 H3 H4 H5].
  - pose proof (fraction_text_digits _ _ H3) as HF. exists (number_value n W F 0 u (Mul 1 0)). split; [|now apply number_refused].
    destruct (Hword w u H6) as (Nw & We & _ & Wx). destruct (digits_head W fr F (gap ++ w ++ sep ++ r) H2 H3 H4) as (D1 & D2 & _).
    assert (Hn : r = [] -> sep = []) by (apply (TS (sg ++ W ++ fr ++ gap ++ w)); [now rewrite <- !app_assoc|exact H8]).
    pose proof (word_multi_unit w u sep r H6 H7 H8 H9 Hn) as MU. destruct w as [|y w]; [congruence|]. destruct (Wx y (or_introl eq_refl)) as (Y1 & Y2 & Y3 & Y4).
    eapply co_number_unit; [now apply text_signed| |exact Hemp|exact MU]. apply (any_the_number du tu table Hget Hword); auto.
    + right. discriminate.
    + intros x r' [= <- _]. exact Y1.
  - pose proof (fraction_text_digits _ _ H3) as HF. exists (number_value n W F 0 du (Mul 1 0)). split; [|now apply number_refused].
    destruct (digits_head W fr F (sep ++ r) H2 H3 H4) as (D1 & D2 & _).
    assert (Hn : r = [] -> sep = []) by (apply (TS (sg ++ W ++ fr)); [now rewrite <- !app_assoc|exact H6]).
    eapply co_number.
    + now apply text_signed.
    + apply (any_the_number du tu table Hget Hword); auto; [|destruct r; [left; auto|right; discriminate]]. intros ->. cbn [app] in H5.
      destruct r as [|x r]; [cbn; auto|]. destruct (H5 x r eq_refl) as (K1 & K2 & K3 & K4). cbn. unfold is_e, is_dot. rewrite <- digit_iff in K1.
      split; [now destruct (is_digit x)|]. split; [lia|]. intros Ep. destruct fr; [|discriminate]. specialize (K4 eq_refl). lia.
    + right. now rewrite <- ahead_iff.
    + apply nc_adjacent. exact (proj2 (starts_white r) H7).
  - exists (unit_value n u (Mul 1 0)). split; [|apply unit_refused]. destruct (Hword w u H2) as (Nw & We & _ & Wx).
    assert (Hn : r = [] -> sep = []) by (apply (TS (sg ++ w)); [now rewrite <- !app_assoc|exact H4]).
    pose proof (word_multi_unit w u sep r H2 H3 H4 H5 Hn) as MU. destruct w as [|y w]; [congruence|]. destruct (Wx y (or_introl eq_refl)) as (Y1 & Y2 & Y3 & Y4).
    eapply co_unit.
    + apply text_signed; [exact H1|discriminate|exact Y3].
    + split; [exact Y2|]. split; [exact Y4|]. discriminate.
    + intros u' m' r' (k & w' & K & _). discriminate K.
    + reflexivity.
    + exact MU.
Qed.

(** ** errors *)
Section Text.
Context (s : str).
Hypothesis Tr : forall x r, s = r ++ [x] -> ~ white x.
Definition suffix (l : str) : Prop := exists p, s = p ++ l.
Lemma suffix_app a b : suffix (a ++ b) -> suffix b.
Proof. intros (p & E). exists (p ++ a). now rewrite <- app_assoc. Qed.
Lemma suffix_cons x b : suffix (x :: b) -> suffix b.
Proof. exact (suffix_app [x] b). Qed.
Lemma suffix_last l : suffix l -> forall p x, l = p ++ [x] -> ~ white x.
Proof. intros (q & E) p x ->. apply (Tr x (q ++ p)). now rewrite E, app_assoc. Qed.
Lemma no_trailing l e : suffix l -> ~ trailing s sd_delimiter l e.
Proof.
  intros S (N & H & _). destruct (exists_last N) as (r & x & ->). apply (suffix_last _ S r x eq_refl). apply sd_delimiter_iff, H. apply in_or_app. right. now left.
Qed.
Lemma no_next l e : suffix l -> ~ next_error c s l e.
Proof. intros S [H|ds y _ _ _ [ws1 w ws2 z E _ _ _]]; [now apply (no_trailing l e)|]. destruct ws1; discriminate. Qed.
Lemma no_unit_error l e : suffix l -> ~ multi_unit_error c tu s l e.
Proof.
  intros S [w l1 _ _ _ A _|w l1 (-> & _) _ _ _ _ H|w l1 l2 _ _ _ (A & _) _]; try discriminate A. apply suffix_app in S. now apply (no_next l1 e).
Qed.
Lemma number_suffix l W F x r : number c l W F x r -> exists p, l = p ++ r.
Proof. intros H. destruct (number_text du tu table Hget Hword _ _ _ _ _ H) as (fr & gap & -> & _). exists (W ++ fr ++ gap). now rewrite <- !app_assoc. Qed.
Lemma span_digits W l : digit_string W -> starts_without digit l -> span is_digit (W ++ l) W l.
Proof.
  intros D H. split; [reflexivity|]. split; [intros x Hx; apply digit_iff; exact (D x Hx)|]. now apply (without_iff digit is_digit l digit_iff).
Qed.
Lemma digits_span l W r : span is_digit l W r -> l = W ++ r /\ digit_string W /\ starts_without digit r.
Proof.
  intros (-> & H & S). split; [reflexivity|]. split; [intros x Hx; apply digit_iff; now apply H|]. now apply (without_iff digit is_digit r digit_iff).
Qed.

Lemma core_error t e : suffix t -> t <> [] -> component_error c tu None None s t e -> piece_error du table s t e.
Proof.
  intros S Nt H.
  assert (AS : forall n l, signed c t n l -> behind_sign t l /\ suffix l).
  { intros n l Hs. assert (A : behind_sign t l) by (apply sign_iff_text; eauto). split; [exact A|]. destruct A as (sg & n' & -> & _). now apply suffix_app in S. }
  destruct H as [H|e H|n l e Hs H|n l W F x r e Hs Hn Hu He|n l W F x r e Hs Hn Eu He|n l r e Hs Hd Hw He|n l r e Hs Hd Hw Hne He
      |n l u m l1 e Hs Hw Hk He|n l e Hs Hw Hk Ho He|n l Hs Hw Hk Ho Hn|n l e Hs Hw Hk Ho Hn|n l w r e Hs Hw Hk Ho Hn He|n l w r e Hs Hw Hk Ho Hn Hu He].
  - contradiction.
  - destruct H as [x Hx|x l e Hx A _]; [|discriminate A]. unfold here. cbn [length]. rewrite Nat.sub_0_r. apply pe_sign with x; [reflexivity|]. now apply sign_iff.
  - destruct (AS n l Hs) as [A Sl]. destruct H as [W l1 HW H|W l1 F l2 HW HF N H|W l1 F l2 x l3 HW HF N Hx _ Ht].
    + destruct H as [l2 Hd|l2 _ EW H]; [discriminate|]. subst W. apply digits_span in HW. destruct HW as (-> & _). cbn [app] in A.
      apply pe_point; [exact A|]. now apply (without_iff digit is_digit l2 digit_iff).
    + assert (E : exists y r, l2 = y :: r /\ is_e y = true /\ e = Syntax (here s (y :: r)) (%"No exponent allowed")) by (inversion H; subst; try discriminate; eauto).
      destruct E as (y & r & -> & Ey & ->). apply digits_span in HW. destruct HW as (-> & DW & _). inversion HF as [l0 D|l0 F0 r1 _ HF']; subst.
      * apply (pe_exponent du table s t W [] [] y r); [exact A|exact DW|constructor|exact N|now apply e_iff].
      * apply digits_span in HF'. destruct HF' as (-> & DF & _). apply (pe_exponent du table s t W (46 :: F) F y r); [exact A|exact DW|now constructor|exact N|now apply e_iff].
    + elim (no_trailing l3 e); [|exact Ht]. destruct HW as (-> & _). apply suffix_app in Sl.
      assert (S2 : suffix l2) by (destruct HF as [l1 _|l1 F r1 _ (-> & _)]; [exact Sl|now apply suffix_cons, suffix_app in Sl]).
      destruct Hx as [l2 _|? ? ? ? ? ? ? ? Hc]; [exact S2|discriminate].
  - destruct (AS n l Hs) as [A Sl]. elim (no_next r e); [|exact He]. destruct (number_suffix l W F x r Hn) as (p & ->). now apply suffix_app in Sl.
  - destruct (AS n l Hs) as [A Sl]. elim (no_unit_error r e); [|exact He]. destruct (number_suffix l W F x r Hn) as (p & ->). now apply suffix_app in Sl.
  - discriminate.
  - discriminate.
  - destruct Hk as (k & w & K & _). discriminate K.
  - destruct (AS n l Hs) as [A Sl]. elim (no_unit_error l e Sl He).
  - destruct (AS n l Hs) as [A Sl]. apply pe_unknown; auto.
    + apply (without_iff digit is_digit l digit_iff). apply Hw.
    + apply (without_iff (eq 46) is_dot l dot_iff). apply Hw.
    + rewrite ahead_iff. now apply Ho.
  - destruct Hn as (f & w & l1 & K & _). discriminate K.
  - destruct Hn as (f & l1 & ds & K & _). discriminate K.
  - destruct Hn as (f & l1 & ds & K & _). discriminate K.
Qed.
Lemma core_error_back t e : piece_error du table s t e -> component_error c tu None None s t e \/ exists u W F r, piece du table t true u W F r /\ ~ tiny u W F /\ e = NegativeNumber.
Proof.
  intros [x -> Hx|l A Hd|W fr F x l A DW DF N Hx|l A Nd Np Nu|u W F r P T]; [left|left|left|left|right; eauto 8]; try (apply sign_iff_text in A; destruct A as (n & Hs)).
  - apply m_sign. replace (length s) with (here s []) by (unfold here; cbn [length]; lia). apply se_end. now apply sign_iff.
  - apply m_number with n (46 :: l); [exact Hs|]. apply ne_fraction with [] (46 :: l).
    + split; [reflexivity|]. split; [intros x []|reflexivity].
    + apply fe_no_digits; auto. now apply (without_iff digit is_digit l digit_iff).
  - apply m_number with n (W ++ fr ++ x :: l); [exact Hs|].
    assert (NE : forall y : byte, y = 101 \/ y = 69 \/ y = 46 -> ~ digit y) by (unfold digit; intros y; lia).
    assert (X : starts_without digit (x :: l)) by (intros y r [= <- <-]; apply NE; tauto).
    apply ne_exponent with W (fr ++ x :: l) F (x :: l); auto.
    + apply span_digits; [exact DW|]. destruct DF as [|F DF]; [exact X|]. intros y r [= <- _]. apply NE. auto.
    + destruct DF as [|F DF]; [apply no_fraction; cbn; unfold is_dot; lia|]. apply some_fraction; [reflexivity|]. now apply span_digits.
    + apply xe_disabled; [now apply e_iff|reflexivity].
  - apply m_unknown with n.
    + exact Hs.
    + split; [now apply (without_iff digit is_digit l digit_iff)|]. split; [now apply (without_iff (eq 46) is_dot l dot_iff)|discriminate].
    + intros u m r (k & w & K & _). discriminate K.
    + intros _. now rewrite <- ahead_iff.
    + intros f w l1 K. discriminate K.
Qed.
Lemma piece_suffix t n u W F r : piece du table t n u W F r -> exists p, t = p ++ r.
Proof. intros H. destruct H; rewrite ?app_assoc; eauto. Qed.
Lemma refused_allowed n u W F d : refused n u W F d -> (sign_allowed c d <-> (n = true -> tiny u W F)).
Proof.
  intros R. unfold sign_allowed. change (c_allow_negative c) with false. assert (D : tiny u W F \/ ~ tiny u W F) by (unfold tiny; lia). unfold refused in R. split.
  - intros [H|H] E; [discriminate|]. destruct D as [D|D]; [exact D|]. rewrite (proj2 R (conj E D)) in H. discriminate.
  - intros H. right. destruct (is_negative d); [|reflexivity]. destruct (proj1 R eq_refl) as [E N]. elim N. now apply H.
Qed.
Theorem sd_errors_iff t e : suffix t -> t <> [] -> (components_error c tu None None s t e <-> span_error du table s t e).
Proof.
  intros S N. split.
  - intros H. revert S N. induction H as [t e H|t d r H Hn Hd|t d r e H Hs Nr HE IH]; intros S N.
    + apply sp_here. now apply core_error.
    + destruct (component_piece t d r H) as (n & u & W & F & P & R). apply R in Hd. destruct Hd as [-> T]. apply sp_here. now apply (pe_negative du table s t u W F r).
    + destruct (component_piece t d r H) as (n & u & W & F & P & R). refine (sp_later du table s t n u W F r e P (proj1 (refused_allowed n u W F d R) Hs) Nr (IH _ Nr)). destruct (piece_suffix _ _ _ _ _ _ P) as (p & ->). now apply suffix_app in S.
  - intros H. revert S N. induction H as [t e H|t n u W F r e P T Nr HE IH]; intros S N.
    + destruct (core_error_back t e H) as [C|(u & W & F & r & P & T & ->)]; [now apply c_wrong|].
      destruct (piece_component t true u W F r P (suffix_last t S)) as (d & C & R). apply (c_negative c tu None None s t d r C); [reflexivity|]. now apply R.
    + destruct (piece_component t n u W F r P (suffix_last t S)) as (d & C & R). apply (c_later c tu None None s t d r e C); [now apply (refused_allowed n u W F d R)|exact Nr|].
      apply IH; [|exact Nr]. destruct (piece_suffix _ _ _ _ _ _ P) as (p & ->). now apply suffix_app in S.
Qed.
End Text.
End SdErrors.
