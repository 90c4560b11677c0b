(** * Which delimiters keep the buffer of the scanner harmless *)
From Verif Require Import Prelude Util Time Config Bytes Repr Parse SpecTime SpecNum SpecValue SpecParse SpecGrammar SpecErrors SpecSpelling
  RefParse RefProofs RefMulti RefErrors RefGrammar ErrorProofs.

Lemma fit_kfit c kw nums : delims_ok c kw nums -> c_allow_multiple c = true -> kfit c kw nums (unit_end c).
Proof.
  intros H M. destruct (H M) as [H1 H2]. unfold unit_end. split.
  - reflexivity.
  - intros Hk x. destruct (c_allow_ago c); [|now rewrite orb_false_r]. cbn [andb]. destruct (c_inner_delimiter c x) eqn:X; [|now rewrite orb_false_r].
    now rewrite (H1 Hk eq_refl x X).
  - intros Hn x X. rewrite X. destruct (c_allow_ago c); [now rewrite orb_true_r|]. now rewrite (H2 Hn eq_refl x X).
Qed.

Section Fit.
Context (c : config) (tu : units_like) (kw : option units_like) (nums : option numbers_like).
Hypothesis HE : env_ok c tu kw nums.
Hypothesis HD : delims_ok c kw nums.
Hypothesis HM : c_allow_multiple c = true.
Lemma fit_progress l d r : utf8 l = true ->
  f_template c nums (rmulti c tu kw) l = Some (d, r) -> (length r < length l)%nat /\ duration_ok d /\ utf8 r = true.
Proof. apply (f_template_progress_fit c tu kw nums _ l d r HE (fit_kfit c kw nums HD HM)). Qed.
Lemma fit_grammar s D : utf8 s = true -> parse_multiple c s tu kw nums = Ok D ->
  duration_ok D /\ exists ds, components c tu kw nums s ds /\ (forall d, In d ds -> sign_allowed c d) /\ nanos D = saturating_sum ds.
Proof. exact (parse_multiple_grammar_fit c tu kw nums _ s D HE (fit_kfit c kw nums HD HM)). Qed.
Lemma fit_complete s ds : utf8 s = true -> components c tu kw nums s ds -> (forall d, In d ds -> sign_allowed c d) ->
  exists D, parse_multiple c s tu kw nums = Ok D /\ duration_ok D /\ nanos D = saturating_sum ds.
Proof. exact (parse_multiple_complete_fit c tu kw nums _ s ds HE (fit_kfit c kw nums HD HM)). Qed.
Lemma fit_errors s e : utf8 s = true -> parse_multiple c s tu kw nums = Err e <-> components_error c tu kw nums s s e.
Proof. exact (multiple_errors_fit c tu kw nums _ s e HE (fit_kfit c kw nums HD HM)). Qed.
End Fit.
