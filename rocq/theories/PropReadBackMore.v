(** * Property C90 for custom parsers and for fundu-gnu *)
From Verif Require ExEnv.
From Verif Require Import Prelude Util Time Config Bytes Repr Parse SpecTime SpecNum SpecValue SpecParse SpecGrammar SpecSpelling SpecManyTexts SpecGnu SpecCustom SpecSystemd
  Utf8Proofs Standard StandardProofs PropStandard PropTime PropDisplay PropText Custom CustomProofs PropCustom PropCustomText PropCustomTexts
  DateTime Gnu GnuWords GnuGrammar PropGnu PropReadBack.

(** ** custom parsers: the time units in the text have to be registered with the identifiers of the text, without multiplier, and these identifiers with nothing else *)
Definition registers (os : list custom_call) (u : time_unit) : Prop :=
  registered (units_of os) (documented_identifier u) u (Mul 1 0) /\
  forall u' m', registered (units_of os) (documented_identifier u) u' m' -> (u', m') = (u, Mul 1 0).

Theorem C90_custom : forall os d, let p := fold_left cp_call os cp_new in let c := cp_config p in
  calls_fit os -> calls_delims os -> reads_texts c -> duration_ok d -> (forall u, needs (nanos d) u -> registers os u) ->
  (0 <= nanos d \/ c_allow_negative c = true -> exists d', cp_parse p (display d) = Ok d' /\ duration_ok d' /\ nanos d' = nanos d) /\
  (nanos d < 0 -> c_allow_negative c = false -> cp_parse p (display d) = Err NegativeNumber).
Proof.
  intros os d p c HF HD RT Hd K. apply calls_delims_ok in HD.
  assert (G : forall u, needs (nanos d) u -> u_get (own_units os) (documented_identifier u) = Some (u, Mul 1 0)).
  { intros u Hu. destruct (K u Hu) as [K1 K2]. exact (C34_unambiguous (units_of os) (documented_identifier u) u (Mul 1 0) K1 K2). }
  assert (NE : u_is_empty (own_units os) = false).
  { destruct (needs_some (nanos d)) as [u Hu]. destruct (K u Hu) as [K1 _]. apply (own_not_empty os (documented_identifier u)). exists u, (Mul 1 0). exact K1. }
  unfold p. rewrite custom_parse. split.
  - intros HN. apply (C90_read_back c (own_units os) (own_keywords os) (own_numerals os)); auto; [exact (own_env os HF)|]. intros L. destruct HN as [HN|HN]; [lia|exact HN].
  - intros HN Hc. apply (C90_negative c (own_units os) (own_keywords os) (own_numerals os)); auto. exact (own_env os HF).
Qed.
Print Assumptions C90_custom.

(** ** fundu-gnu *)
Lemma letters_id w : letters w -> forall x, In x w -> id_byte x.
Proof. intros H x Hx. apply H in Hx. unfold id_byte. lia. Qed.
Lemma table_word {A} (t : list (A * list str)) w a : forallb (fun e => forallb (fun v => lower v && (3 <=? length v)%nat) (snd e)) t = true -> word_for t w a -> letters w /\ (3 <= length w)%nat.
Proof.
  intros H (ws & v & H1 & H2 & H3). rewrite forallb_forall in H. apply H in H1. cbn [snd] in H1. rewrite forallb_forall in H1. apply H1 in H2.
  apply andb_prop in H2. destruct H2 as [H2 H4]. apply Nat.leb_le in H4. split; [now apply (nocase_letters v)|]. apply ExEnv.nocase_len in H3. lia.
Qed.
Lemma white_no_id g : white_space g -> forall x, In x g -> ~ id_byte x.
Proof. intros G x Hx. apply G in Hx. unfold white in Hx. unfold id_byte. lia. Qed.
Lemma ends_no_id r : ends_word r -> forall y b, r = y :: b -> ~ id_byte y.
Proof. intros H y b E. apply H in E. unfold white in E. unfold id_byte. lia. Qed.
Lemma word_run w v r : w <> [] -> letters v -> (3 <= length v)%nat -> (forall y b, r = y :: b -> ~ id_byte y) -> run (v ++ r) w -> (3 <= length w)%nat \/ run r w.
Proof.
  intros N L N3 E R. apply run_app in R; [|now apply junction_right|exact N]. destruct R as [R|R]; [|now right]. apply run_all in R; [subst; now left|now apply letters_id].
Qed.
Lemma plain_run w a r : w <> [] -> (forall x, In x a -> ~ id_byte x) -> run (a ++ r) w -> run r w.
Proof.
  intros N H R. apply run_app in R; [|now apply junction_left|exact N]. destruct R as [R|R]; [now apply run_none in R|exact R].
Qed.
Lemma phrase_run w l g ago r : w <> [] -> unit_phrase l g ago r -> run l w -> (3 <= length w)%nat \/ run r w.
Proof.
  intros N H R. destruct H as [v g r H1 H2 H3|v g l r H1 (ds & a & -> & H2 & H3 & H4 & H5)]; (destruct (table_word gnu_units v g) as [L N3]; [reflexivity|exact H1|]).
  - apply (word_run w v r); auto. now apply ends_no_id.
  - apply word_run in R; auto.
    + destruct R as [R|R]; [now left|]. apply plain_run in R; [|exact N|now apply white_no_id]. apply (word_run w a r); auto; [now apply ago_letters| |now apply ends_no_id].
      apply ExEnv.nocase_len in H4. rewrite H4. apply Nat.le_refl.
    + intros y b E. destruct ds as [|z ds]; [contradiction|]. injection E as <- _. apply (white_no_id (z :: ds) H3). now left.
Qed.
Lemma sign_no_id sg n : gnu_sign sg n -> forall x, In x sg -> ~ id_byte x.
Proof. intros [|ds H|ds H] x Hx; [contradiction| |]; (destruct Hx as [<-|Hx]; [vm_compute; intuition discriminate|now apply (white_no_id ds)]). Qed.
Lemma number_no_id r num W F : gnu_number r num W F -> forall x, In x num -> ~ id_byte x.
Proof.
  intros [W' H1 _ _|W' F' H1 _ H2 _ _] x Hx; [now apply (digits_no_id W')|]. apply in_app_iff in Hx. destruct Hx as [Hx|[<-|Hx]]; [now apply (digits_no_id W')|vm_compute; intuition discriminate|now apply (digits_no_id F')].
Qed.
Lemma item_run w l a r : w <> [] -> gnu_item l a r -> run l w -> (3 <= length w)%nat \/ run r w.
Proof.
  intros N H R. destruct H as [sg n num W F ds l g ago r a S1 S2 S3 S4 S5|sg n num W F ds r a S1 S2 S3 S4 S5 S6 S7|sg n l g ago r S1 S2|sg n v k ds l g ago r S1 S2 S3 S4 S5|sg n v k r S1 S2 S3];
    apply plain_run in R; try exact N; try exact (sign_no_id sg n S1).
  - apply plain_run in R; [|exact N|exact (number_no_id _ _ _ _ S2)]. apply plain_run in R; [|exact N|now apply white_no_id]. exact (phrase_run w l g ago r N S4 R).
  - apply plain_run in R; [|exact N|exact (number_no_id _ _ _ _ S2)]. apply plain_run in R; [now right|exact N|now apply white_no_id].
  - exact (phrase_run w l g ago r N S2 R).
  - destruct (table_word gnu_numerals v k) as [L N3]; [reflexivity|exact S2|]. apply word_run in R; auto.
    + destruct R as [R|R]; [now left|]. apply plain_run in R; [|exact N|now apply white_no_id]. exact (phrase_run w l g ago r N S5 R).
    + intros y b E. destruct ds as [|z ds]; [contradiction|]. injection E as <- _. apply (white_no_id (z :: ds) S3). now left.
  - destruct (table_word gnu_keywords v k) as [L N3]; [reflexivity|exact S2|]. apply (word_run w v r); auto. now apply ends_no_id.
Qed.
Lemma relative_run w s as_ : w <> [] -> relative_time s as_ -> run s w -> (3 <= length w)%nat.
Proof.
  intros N. induction 1 as [l a H|l a ds r rs H1 H2 H3 H4 IH]; intros R.
  - destruct (item_run w l a [] N H R) as [G|G]; [exact G|]. now apply run_none in G.
  - destruct (item_run w l a (ds ++ r) N H1 R) as [G|G]; [exact G|]. apply plain_run in G; [auto|exact N|now apply white_no_id].
Qed.
(** fundu-gnu does not read the text of any duration: none of the abbreviations in these texts is one of its words *)
Theorem C90_gnu : forall d now date, duration_ok d ->
  (exists e, gnu_parse_fuzzy gnu_new (display d) = Err e /\ gnu_parse_with_date gnu_new now (display d) date = Err e /\ gnu_parse gnu_new now (display d) = Err e).
Proof.
  intros d now date Hd. destruct (C44_fuzzy_never_crashes (display d) (C10_display_is_utf8 d Hd)) as [(y & m & D & E & _)|(e & E)].
  - exfalso. destruct (C44_fuzzy_sound _ _ _ _ (C10_display_is_utf8 d Hd) E) as (ws1 & t & ws2 & as_ & Es & W1 & W2 & _ & R & _).
    destruct (needs_some (nanos d)) as [u Hu]. apply needed_run in Hu; [|exact Hd]. assert (N : documented_identifier u <> []) by (destruct u; discriminate).
    rewrite Es in Hu. apply plain_run in Hu; [|exact N|now apply white_no_id].
    apply run_app in Hu; [|apply junction_right; intros y0 b ->; apply (white_no_id (y0 :: b) W2); now left|exact N].
    destruct Hu as [Hu|Hu]; [|apply run_none in Hu; [contradiction|now apply white_no_id|exact N]].
    apply (relative_run _ t as_ N R) in Hu. revert Hu. clear. destruct u; cbn; lia.
  - exists e. split; [exact E|]. split; [exact (proj2 (C44_date_is_irrelevant gnu_new now (display d) date) e E)|].
    unfold gnu_parse. exact (proj2 (C44_date_is_irrelevant gnu_new now (display d) None) e E).
Qed.
Print Assumptions C90_gnu.

(** ** Examples *)
(** the parser of the examples of C84 to C89, which has `s` next to `sec`, and reads `-5s` *)
Example C90_custom_example : let p := fold_left cp_call many_calls cp_new in let d := Dur true (Std 5 0) in
  calls_fit many_calls /\ calls_delims many_calls /\ reads_texts (cp_config p) /\ (forall u, needs (nanos d) u -> registers many_calls u) /\
  display d = %"-5s" /\ cp_parse p (%"-5s") = Ok d.
Proof.
  intros p d. split; [exact many_calls_fit|]. split; [|split; [|split; [|split; reflexivity]]].
  - apply calls_strict_delims. intros x H. exact (eq_trans (f_equal (fun b => b || starts_duration x) H) eq_refl).
  - constructor; [reflexivity|reflexivity| | |].
    + intros x H. change (is_ascii_whitespace x = false). unfold text_byte in H. unfold is_ascii_whitespace. lia.
    + intros x H. change (is_ascii_whitespace x = false). unfold text_byte in H. unfold is_ascii_whitespace. lia.
    + intros w [<-|[]]. split; [discriminate|]. unfold digit_or_sign; cbn; lia.
  - intros u [H|[H _]]; [|discriminate H]. destruct u; vm_compute in H; try (exfalso; now apply H). split.
    + split; [discriminate|]. exists (CTU Second (Mul 1 0) [%"s"]). split; [cbn; tauto|]. split; [reflexivity|now left].
    + intros u' m' (_ & t & T1 & T2 & T3). cbn in T1. repeat (destruct T1 as [<-|T1]; [cbn in T3; repeat destruct T3 as [T3|T3]; try discriminate T3; try contradiction; injection T2 as <- <-; reflexivity|]). contradiction.
Qed.
Example C90_gnu_example : display (Dur false (Std 5 0)) = %"5s" /\ gnu_parse_fuzzy gnu_new (%"5s") = Err (InvalidInput (%"s")) /\ gnu_parse_fuzzy gnu_new (%"5 sec") = Ok (0, 0, Dur false (Std 5 0)).
Proof. repeat split. Qed.
