(** * A configuration and tables for the examples beside the theorems *)
From Verif Require Import Prelude Util Time Config Parse SpecTime SpecNum SpecParse SpecGrammar SpecSpelling SpecValue.

Definition table {A} (l : list (str * A)) (id : str) : option A :=
  match find (fun e => str_eqb id (fst e)) l with Some e => Some (snd e) | None => None end.
Lemma table_in {A} (l : list (str * A)) id a : table l id = Some a -> In a (map snd l).
Proof.
  unfold table. destruct (find _ l) as [e|] eqn:E; [|discriminate]. intros [= <-]. apply find_some in E. apply in_map. apply E.
Qed.

(** time units, one with a negative multiplier, keywords and numerals *)
Definition ex_unit_list : list (str * (time_unit * multiplier)) :=
  [ (%"s", (Second, Mul 1 0)); (%"ms", (MilliSecond, Mul 1 0)); (%"min", (Minute, Mul 1 0)); (%"fortnight", (Week, Mul 2 0)); (%"y", (Year, Mul 1 0));
    (%"back", (Hour, Mul (-3) 0)) ].
Definition ex_units : units_like := Units false (table ex_unit_list).
Definition ex_keyword_list : list (str * (time_unit * multiplier)) := [ (%"tomorrow", (Day, Mul 1 0)); (%"yesterday", (Day, Mul (-1) 0)) ].
Definition ex_keywords : units_like := Units false (table ex_keyword_list).
Definition ex_numeral_list : list (str * multiplier) := [ (%"next", Mul 1 0); (%"half", Mul 5 (-1)); (%"dozen", Mul 12 0) ].
Definition ex_numerals : numbers_like := table ex_numeral_list.

(** single durations, with everything allowed *)
Definition ex_single : config :=
  set_allow_negative (set_allow_ago_only (set_allow_time_unit_delimiter (set_allow_sign_delimiter config_new true) true) true) true.
(** multiple durations, with a conjunction and optional numbers *)
Definition ex_multi : config := set_number_is_optional (set_allow_multiple ex_single true (Some [%"and"])) true.
(** nothing but numbers *)
Definition ex_strict : config := set_disable_infinity (set_disable_exponent (set_disable_fraction config_new true) true) true.

Lemma ws_ascii : ascii_delim is_ascii_whitespace.
Proof. intros x. unfold is_ascii_whitespace. lia. Qed.

Ltac in_list H := cbn in H; repeat (destruct H as [<-|H]; [|]); [..|contradiction].

Lemma ex_units_fit : units_fit ex_units.
Proof. intros id u m H. cbn [u_get ex_units] in H. apply table_in in H. cbn in H. repeat destruct H as [[= <- <-]|H]; try contradiction; repeat split; discriminate. Qed.
Lemma ex_keywords_fit : units_fit ex_keywords.
Proof. intros id u m H. cbn [u_get ex_keywords] in H. apply table_in in H. cbn in H. repeat destruct H as [[= <- <-]|H]; try contradiction; repeat split; discriminate. Qed.

Lemma ex_numerals_fit (c : config) id n : ex_numerals id = Some n -> forall id' u m, u_get ex_units id' = Some (u, m) ->
  numeral_fits n u m /\ (c_allow_ago c = true -> numeral_fits n u (mul_saturating_neg m)).
Proof.
  intros H id' u m H'. apply table_in in H. cbn [u_get ex_units] in H'. apply table_in in H'. cbn in H, H'.
  repeat destruct H as [<-|H]; try contradiction; repeat destruct H' as [[= <- <-]|H']; try contradiction;
    (split; [|intros _]; eexists; (split; [reflexivity|discriminate])).
Qed.

Lemma ex_env c kw nums : (c_inner_delimiter c = is_ascii_whitespace) -> (c_outer_delimiter c = is_ascii_whitespace) ->
  (c_conjunctions c = None \/ c_conjunctions c = Some [%"and"]) -> (kw = None \/ kw = Some ex_keywords) -> (nums = None \/ nums = Some ex_numerals) ->
  env_ok c ex_units kw nums.
Proof.
  intros E1 E2 E3 E4 E5. constructor.
  - rewrite E1. exact ws_ascii.
  - rewrite E2. exact ws_ascii.
  - intros l w H1 H2. destruct E3 as [E|E]; rewrite E in H1; [discriminate|]. injection H1 as <-. destruct H2 as [<-|[]]. reflexivity.
  - exact ex_units_fit.
  - intros k H. destruct E4 as [->| ->]; [discriminate|]. injection H as <-. exact ex_keywords_fit.
  - intros f id n H. destruct E5 as [->| ->]; [discriminate|]. injection H as <-. apply ex_numerals_fit.
Qed.

Lemma ex_env_single : env_ok ex_single ex_units (Some ex_keywords) (Some ex_numerals).
Proof. apply ex_env; auto. Qed.
Lemma ex_env_multi : env_ok ex_multi ex_units (Some ex_keywords) (Some ex_numerals).
Proof. apply ex_env; auto. Qed.
Lemma ex_env_strict : env_ok ex_strict ex_units (Some ex_keywords) (Some ex_numerals).
Proof. apply ex_env; auto. Qed.
Lemma ex_env_default : env_ok config_new ex_units None None.
Proof. apply ex_env; auto. Qed.

Lemma ex_delims c {kw nums} : c_inner_delimiter c = c_outer_delimiter c -> delims_ok c kw nums.
Proof. intros E. apply delims_strict_ok. intros _ x H. unfold keyword_end. rewrite <- E, H. reflexivity. Qed.
Lemma ex_strict_multi : delims_strict ex_multi.
Proof. intros x H. exact (eq_trans (f_equal (fun b => b || starts_duration x) H) eq_refl). Qed.
Lemma ex_delims_multi {kw nums} : delims_ok ex_multi kw nums.
Proof. now apply ex_delims. Qed.

(** all elements of a literal list *)
Ltac each := intros ? each_H; cbn in each_H; repeat (destruct each_H as [<-|each_H]; [try reflexivity; try lia|]); try contradiction.

(** a text which does not start with the word *)
Lemma nocase_len a : forall b, str_eq_nocase a b = true -> length a = length b.
Proof. induction a as [|x a IH]; intros [|y b]; cbn; try discriminate; [reflexivity|]. rewrite andb_true_iff. intros [_ H]. f_equal. now apply IH. Qed.
Lemma not_prefix w l : str_eq_nocase (firstn (length w) l) w = false -> forall r, ~ word_prefix w l r.
Proof.
  intros H r (v & -> & E). pose proof (nocase_len _ _ E) as L. rewrite <- L, firstn_app, firstn_all, Nat.sub_diag in H. cbn [firstn] in H.
  rewrite app_nil_r in H. congruence.
Qed.
Lemma a_word c l : starts_not is_digit l -> starts_not is_dot l -> str_eq_nocase (firstn 3 l) (%"inf") = false -> word c l.
Proof. intros H1 H2 H3. split; [exact H1|]. split; [exact H2|]. intros _ (r & H). exact (not_prefix (%"inf") l H3 r H). Qed.
