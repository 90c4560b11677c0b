(** * Property C77: which error the gnu parser rejects a text with *)
From Verif Require Import Prelude Util Time Config Bytes Repr Parse Systemd DateTime Gnu SpecTime SpecNum SpecGrammar SpecErrors SpecSystemd SpecGnu
  SpecGnuErrors SpecDate Utf8Proofs TimeProofs SafeProofs RefProofs SystemdProofs DateProofs DateTimeProofs GnuWords GnuRef GnuEval GnuGrammar GnuErrors
  PropGnu.

(** the kind of the error, its position and its message; [t] is the text without the white space around it *)
Theorem C77_errors : forall s e, utf8 s = true ->
  gnu_parse_fuzzy gnu_new s = Err e <->
  exists ws1 t ws2, s = ws1 ++ t ++ ws2 /\ white_space ws1 /\ white_space ws2 /\ trimmed t /\ relative_error t t e.
Proof.
  intros s e Hs. rewrite fuzzy_unfold by exact Hs. cbv zeta. pose proof (trim_utf8 s Hs) as Ht. split.
  - intros E. destruct (trim_split s (utf8_bytes s Hs)) as (ws1 & ws2 & Es & H1 & H2 & H3).
    exists ws1, (trim_end (trim_start s)), ws2. do 4 (split; [assumption|]). now apply fuzzy_error_iff.
  - intros (ws1 & t & ws2 & -> & H1 & H2 & H3 & HE).
    assert (B : bytes_ok t) by (intros x Hx; apply (utf8_bytes _ Hs), in_or_app; right; apply in_or_app; now left).
    rewrite (trim_unique ws1 t ws2 H1 H2 B H3) in *. now apply fuzzy_error_iff.
Qed.
Print Assumptions C77_errors.
Example C77_errors_example : let E s e := gnu_parse_fuzzy gnu_new (%s) = Err e in
  E "  "%string Empty /\
  E " 1 day - "%string (Syntax 7 (%"Unexpected end of input. Sign without a number")) /\
  E "1 day 2e3"%string (Syntax 7 (%"No exponent allowed")) /\
  E "1 month + . days"%string (Syntax 10 (%"Either the whole number part or the fraction must be present")) /\
  E "1.5 days"%string (InvalidInput (%"Fraction only allowed together with seconds as time unit")) /\
  E "tomorrow .5 sec"%string (InvalidInput (%"Fraction without a whole number")) /\
  E "- 1. next day"%string (InvalidInput (%"Fraction without a fractional number")) /\
  E "1 day fortnightly ago"%string (InvalidInput (%"fortnightly ago")) /\
  E "last Monday"%string (TimeUnitErr 5 (%"Found numeral 'last' without a time unit")).
Proof. repeat split. Qed.
(** derived by hand from the rules: the first component is fine, in the second one an exponent follows the number *)
Example C77_errors_rule_example : relative_error (%"today-2.5E3") (%"today-2.5E3") (Syntax 9 (%"No exponent allowed")).
Proof.
  apply re_later with (times (with_sign false 0) (Seconds 86400)) [] (%"-2.5E3").
  - apply (gi_keyword [] false (%"today") 0 (%"-2.5E3") gs_none).
    + exists [%"now"; %"today"], (%"today"). split; [now left|]. split; [right; now left|reflexivity].
    + intros x r [= <- _]. right. right. now right.
  - intros x [].
  - intros x r [= <- _]. unfold white. lia.
  - discriminate.
  - apply re_here. refine (ie_exponent (%"today-2.5E3") (%"-2.5E3") (%"2.5") 69 (%"3") _ _ _).
    + exists (%"-"), true. split; [reflexivity|]. split; [apply gs_minus; intros x []|]. split; [discriminate|].
      split; [intros x r [= <- _]; unfold white; lia|discriminate].
    + refine (sn_fraction (%"2") (%"5") _ _ _); [| |discriminate]; intros x [<-|[]]; split; vm_compute; discriminate.
    + now right.
Qed.

(** the rules do not overlap: there is one error at most, ... *)
Theorem C77_one_error : forall t e1 e2, utf8 t = true -> trimmed t -> relative_error t t e1 -> relative_error t t e2 -> e1 = e2.
Proof. intros t e1 e2 U T H1 H2. apply fuzzy_error_iff in H1; auto. apply fuzzy_error_iff in H2; auto. congruence. Qed.
Print Assumptions C77_one_error.
Example C77_one_error_example : utf8 (%"today-2.5E3") = true /\ trimmed (%"today-2.5E3") /\
  relative_error (%"today-2.5E3") (%"today-2.5E3") (Syntax 9 (%"No exponent allowed")).
Proof.
  split; [reflexivity|]. split; [|apply C77_errors_rule_example]. split.
  - intros x r [= <- _]. unfold white. lia.
  - intros x r E. apply (f_equal (@rev Z)) in E. rewrite rev_app_distr in E. injection E as <- _. unfold white. lia.
Qed.
(** ... and every text is either a relative time or has an error *)
Theorem C77_time_or_error : forall t, utf8 t = true -> trimmed t ->
  ((exists as_, relative_time t as_) /\ (forall e, ~ relative_error t t e)) \/
  ((exists e, relative_error t t e) /\ (forall as_, ~ relative_time t as_)).
Proof.
  intros t U T. pose proof (fuzzy_cases t U) as FC. rewrite (trim_self t U T) in FC. pose proof (fuzzy_unfold t U) as FU. cbv zeta in FU. rewrite (trim_self t U T) in FU.
  destruct FC as [(as_ & d & HR & E & _)|(N & e & E)]; rewrite FU in E.
  - left. split; [eauto|]. intros e HE. apply fuzzy_error_iff in HE; auto. congruence.
  - right. split; [|exact N]. exists e. now apply fuzzy_error_iff.
Qed.
Print Assumptions C77_time_or_error.
Example C77_time_or_error_example : (exists as_, relative_time (%"last month-1DAY ago") as_) /\ exists e, relative_error (%"today-2.5E3") (%"today-2.5E3") e.
Proof. split; [eexists; apply C44_relative_time_example|eexists; apply C77_errors_rule_example]. Qed.

(** whatever the date: these errors are returned. The only other error is Overflow, and only with years or months *)
Theorem C77_with_date : forall now s date e, utf8 s = true ->
  std_ok (match now with inl d | inr d => d end) -> (forall x, date = Some x -> date_time_ok x) ->
  (gnu_parse_fuzzy gnu_new s = Err e -> gnu_parse_with_date gnu_new now s date = Err e /\ gnu_parse gnu_new now s = Err e) /\
  (gnu_parse_with_date gnu_new now s date = Err e ->
     gnu_parse_fuzzy gnu_new s = Err e \/
     (e = Overflow /\ exists years months d, gnu_parse_fuzzy gnu_new s = Ok (years, months, d) /\ ~ (years = 0 /\ months = 0))).
Proof.
  intros now s date e Hs Hn Hd. split.
  - intros E. split; now apply C44_date_is_irrelevant.
  - assert (X : exists x, date_time_ok x /\ gnu_parse_with_date gnu_new now s date = gnu_parse_with_date gnu_new now s (Some x)).
    { destruct date as [x|]; [exists x; split; [now apply Hd|reflexivity]|]. destruct (now_spec now Hn) as (x & E & Hx & _). exists x. split; [exact Hx|].
      now apply C44_current_time. }
    destruct X as (x & Hx & ->). intros E.
    destruct (C44_fuzzy_never_crashes s Hs) as [(Y & M & d & E' & _ & _ & _)|(e' & E')].
    2:{ left. destruct (C44_date_is_irrelevant gnu_new now s (Some x)) as [_ A]. rewrite (A e' E') in E. congruence. }
    assert (D : (Y = 0 /\ M = 0) \/ ~ (Y = 0 /\ M = 0)) by lia. destruct D as [[-> ->]|NZ].
    { destruct (C44_date_is_irrelevant gnu_new now s (Some x)) as [A _]. rewrite (A d E') in E. discriminate E. }
    right. destruct julian_bijection as [BJ B]. destruct (B ((instant x + nanos d) / day_nanos)) as ([[y m] dd] & HJ & _).
    set (T := 12 * (y + Y) + (m - 1) + M). destruct (BJ (T / 12, T mod 12 + 1, 1)) as (j & Hj & _).
    { split; [lia|]. pose proof (month_length_range (T / 12) (T mod 12 + 1)). lia. }
    pose proof (C44_calendar now s x Y M d Hx Hs E' NZ y m dd (T / 12) (T mod 12 + 1) j HJ ltac:(unfold T; lia) ltac:(lia) Hj) as C. cbv zeta in C.
    destruct C as (C1 & C2 & C3). split; [|eauto 8]. rewrite C2 in E; [congruence| |].
    + intros P. destruct (C1 P) as (D & K & _). congruence.
    + intros P. rewrite (C3 P) in E. discriminate E.
Qed.
Print Assumptions C77_with_date.
Example C77_with_date_example : let now := inl (Std 0 0) in
  std_ok (Std 0 0) /\ date_time_ok (DT 2451575 7) /\
  gnu_parse_with_date gnu_new now (%"1e year") (Some (DT 2451575 7)) = Err (Syntax 1 (%"No exponent allowed")) /\
  gnu_parse gnu_new now (%"next year next") = Err (InvalidInput (%"next")) /\
  gnu_parse_with_date gnu_new now (%"999999999999 years") (Some (DT 2451575 7)) = Err Overflow.
Proof. vm_compute. repeat split; congruence. Qed.

(** ** the errors say what they should *)
Lemma relative_error_suffix s : forall t e, relative_error s t e -> (exists p, s = p ++ t) ->
  match e with
  | Empty => t = []
  | Syntax p _ | TimeUnitErr p _ => exists pre l, s = pre ++ l /\ length pre = p
  | InvalidInput l => (exists pre, s = pre ++ l /\ l <> []) \/ (exists W F g, bad_fraction W F g l)
  | _ => False
  end.
Proof.
  assert (A : forall t l, (exists p, s = p ++ t) -> after_sign t l -> (exists p, s = p ++ l) /\ l <> []).
  { intros t l (p & ->) (sg & n & -> & _ & N & _). split; [|exact N]. exists (p ++ sg). now rewrite app_assoc. }
  assert (O : forall l, (exists p, s = p ++ l) -> exists pre l0, s = pre ++ l0 /\ length pre = offset s l).
  { intros l (p & ->). exists p, l. split; [reflexivity|]. unfold offset. rewrite app_length. lia. }
  assert (AA : forall a l, (exists p, s = p ++ a ++ l) -> exists p, s = p ++ l).
  { intros a l (p & E). exists (p ++ a). now rewrite <- app_assoc. }
  induction 1 as [|t e HE|t a ds r e HI Hd Hr Nr HE IH]; intros S.
  - reflexivity.
  - destruct HE as [x -> Hx|l H1 Hd|num x l H1 Hn Hx|W F ds l g msg H1 DW DF N He Hd Hu Hb|l H1 Nd Np Nk Nu Nn|w k ds l H1 Hw Hd Nd Hl Hu];
      try (destruct (A _ _ S H1) as [S1 N1]).
    + exists s, []. now rewrite app_nil_r.
    + now apply O.
    + apply O. now apply AA in S1.
    + right. eauto.
    + left. destruct S1 as (pre & E). eauto.
    + apply O. now apply AA, AA in S1.
  - assert (K : exists p, s = p ++ r); [|specialize (IH K); destruct e; auto; congruence]. clear IH HE. destruct S as (p & ->).
    assert (P : forall l a r, gnu_item l a r -> exists p, l = p ++ r).
    { clear. intros l a r H. destruct H; try match goal with H : unit_phrase _ _ _ _ |- _ => destruct (phrase_suffix _ _ _ _ H) as (p & ->) end;
        rewrite ?app_assoc; eauto. }
    destruct (P _ _ _ HI) as (q & ->). exists (p ++ q ++ ds). now rewrite !app_assoc.
Qed.
(** only these kinds of errors occur. Positions lie within the text (without the white space in front of it), Empty means that there is nothing but
    white space, and an InvalidInput shows the rest of the text, unless it says what is wrong with a fraction *)
Theorem C77_kinds : forall ws1 t ws2 e, utf8 t = true -> white_space ws1 -> white_space ws2 -> trimmed t ->
  gnu_parse_fuzzy gnu_new (ws1 ++ t ++ ws2) = Err e ->
  match e with
  | Empty => t = []
  | Syntax p _ | TimeUnitErr p _ => exists pre l, t = pre ++ l /\ length pre = p
  | InvalidInput l => (exists pre, t = pre ++ l /\ l <> []) \/ (exists W F g, bad_fraction W F g l)
  | _ => False
  end.
Proof.
  intros ws1 t ws2 e U W1 W2 T E.
  assert (Hs : utf8 (ws1 ++ t ++ ws2) = true) by (rewrite white_utf8, utf8_white_end by assumption; exact U).
  rewrite fuzzy_unfold in E by exact Hs. cbv zeta in E. rewrite trim_unique in E; [|assumption|assumption|exact (utf8_bytes t U)|assumption].
  apply fuzzy_error_iff in E; auto. apply (relative_error_suffix t t e) in E; [|now exists []]. destruct e; auto.
Qed.
Print Assumptions C77_kinds.
Example C77_kinds_example : gnu_parse_fuzzy gnu_new (%"  3 days later") = Err (InvalidInput (%"later")).
Proof. reflexivity. Qed.

(** the position is counted from the first character which is not white space, not from the beginning of the input: the e in this input has the
    offset 2 *)
Theorem C77_position_in_input_refuted :
  ~ (forall s p msg, utf8 s = true -> gnu_parse_fuzzy gnu_new s = Err (Syntax p msg) -> msg = %"No exponent allowed" ->
      exists pre x l, s = pre ++ x :: l /\ length pre = p /\ (x = 101 \/ x = 69)).
Proof.
  intros H. destruct (H (%" 1e") 1%nat _ eq_refl eq_refl eq_refl) as (pre & x & l & E & L & Hx).
  destruct pre as [|a [|b pre]]; try discriminate L. injection E as _ <- _. lia.
Qed.
Print Assumptions C77_position_in_input_refuted.
