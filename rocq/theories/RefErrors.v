(** * The error which the reference parser would report, and the model reports it *)
From Verif Require Import Prelude Util Time Config Bytes Repr Parse SpecTime SpecNum SpecValue SpecParse SpecGrammar SpecErrors
  TimeProofs NumProofs ReprProofs Utf8Proofs BytesProofs SafeProofs RefParse RefProofs RefSingle RefMulti.

(** if the model fails, then with the error [e] *)
Definition errs {A} (m : res A) (e : parse_error) : Prop := forall e', m = Err e' -> e' = e.
Lemma errs_Ok {A} (a : A) e : errs (Ok a) e.
Proof. intros e'. discriminate. Qed.
Lemma errs_Err {A} e e0 : e0 = e -> errs (A := A) (Err e0) e.
Proof. intros -> e' [= <-]. reflexivity. Qed.
Lemma errs_bind {A A' B} (R : A -> B -> Prop) m o (f : A -> res A') (g : B -> parse_error) e1 :
  sim R m o -> errs m e1 -> (forall a b, R a b -> o = Some b -> errs (f a) (g b)) ->
  errs (bind m f) (match o with Some b => g b | None => e1 end).
Proof.
  intros S0 E1 F. destruct m as [a|e|x], o as [b|]; cbn in *; try contradiction; [now apply F|].
  intros e' [= <-]. now apply E1.
Qed.
Ltac ebind := match goal with |- errs (bind ?m ?f) (match ?o with Some b => @?g b | None => ?e1 end) =>
  refine (errs_bind _ m o f g e1 _ _ _) end.
(** when the continuation cannot fail *)
Lemma errs_bind_ok {A A'} m (f : A -> res A') e : errs m e -> (forall a, m = Ok a -> errs (f a) e) -> errs (bind m f) e.
Proof. intros H F. destruct m as [a|e0|x]; cbn; [now apply F| |intros ? [=]]. intros e' [= <-]. now apply H. Qed.

Section ErrFun.
Context (c : config) (tu : units_like) (kw : option units_like) (nums : option numbers_like) (s : str).
Notation inner := (c_inner_delimiter c).
Notation outer := (c_outer_delimiter c).
Notation here := (here s).

Definition e_delims (l : str) : parse_error := Syntax (here l) (%"Input may not end with a delimiter").
Definition e_signed (l : str) : parse_error :=
  match l with
  | _ :: (_ :: _) as l' => e_delims (tl l)
  | _ => Syntax (here []) (%"Unexpected end of input. Sign without a number")
  end.
Definition e_fraction (l : str) : parse_error :=
  Syntax (here l) (if c_disable_fraction c then %"No fraction allowed"
                   else %"Either the whole number part or the fraction must be present").
Definition e_exponent_digits (n : bool) (l : str) : parse_error :=
  match take_while is_digit l with
  | [] => match l with
          | [] => Syntax (here []) (%"Expected exponent but reached end of input")
          | _ => Syntax (here l) (%"The exponent must have at least one digit")
          end
  | _ => if n then NegativeExponentOverflow else PositiveExponentOverflow
  end.
Definition e_exponent (l : str) : parse_error :=
  if c_disable_exponent c then Syntax (here l) (%"No exponent allowed")
  else match tl l with
       | [] => Syntax (here []) (%"Unexpected end of input")
       | y :: l'' => if y =? 43 then e_exponent_digits false l''
                     else if y =? 45 then e_exponent_digits true l''
                     else e_exponent_digits false (y :: l'')
       end.

Record etemplate := ETemplate {
  et_inf : str -> parse_error;
  et_kw : str -> parse_error;
  et_tu : str -> parse_error;
  et_ntu : str -> parse_error;
  et_fin : str -> parse_error
}.
Context (RT : rtemplate) (ET : etemplate).

Definition e_number (n : bool) (W l : str) : parse_error :=
  match (let? (F, l) := f_fraction c l in if is_empty (W ++ F) then None else Some (F, l)) with
  | None => e_fraction l
  | Some (F, l1) =>
      match f_exponent c l1 with
      | None => e_exponent l1
      | Some (x, l2) =>
          match f_unit_delimiter c l2 with
          | None => e_delims l2
          | Some l3 => match rt_ntu RT l3 with None => et_ntu ET l3 | Some (_, l4) => et_fin ET l4 end
          end
      end
  end.
Definition after_word (l : str) : str := drop_while (fun x => negb (inner x)) l.
Definition e_no_unit (w r : str) : parse_error :=
  TimeUnitErr (here r)
    (if u_is_empty tu then %"Found numeral '" ++ w ++ %"' without time units being defined"
     else %"Found numeral '" ++ w ++ %"' without a time unit").
Definition e_numeral (l : str) : parse_error :=
  match f_numeral_prefix c nums l with
  | None => e_delims (after_word l)
  | Some None => InvalidInput l
  | Some (Some (_, r)) =>
      match rt_tu RT r with
      | None => et_tu ET r
      | Some None => e_no_unit (take_while (fun x => negb (inner x)) l) r
      | Some (Some (_, r2)) => et_fin ET r2
      end
  end.
Definition e_word (l : str) : parse_error :=
  match rt_kw RT l with
  | None => et_kw ET l
  | Some (Some (_, l1)) => et_fin ET l1
  | Some None =>
      if c_number_is_optional c then
        match rt_tu RT l with
        | None => et_tu ET l
        | Some (Some (_, l1)) => et_fin ET l1
        | Some None => e_numeral l
        end
      else e_numeral l
  end.
Definition e_template (t : str) : parse_error :=
  match t with
  | [] => Empty
  | _ =>
    match f_signed c t with
    | None => e_signed t
    | Some (n, l) =>
        match l with
        | [] => Empty
        | x :: _ =>
            if is_digit x then e_number n (take_while is_digit l) (drop_while is_digit l)
            else if is_dot x then e_number n [] l
            else if negb (c_disable_infinity c) && starts_nocase (%"inf") l then et_inf ET (skipn 3 l)
            else e_word l
        end
    end
  end.
End ErrFun.

Section ErrSim.
Context (c : config) (K : byte -> bool) (s : str).
Notation SC := (SC K s).
Notation here := (here s).
Notation e_delims := (e_delims s).

Lemma SC_here b l : SC b l -> pos b = here l.
Proof. intros H. pose proof (SC_pos _ _ _ _ H). unfold SpecErrors.here. lia. Qed.

Lemma errs_delimiter d b x l : SC b (x :: l) -> d x = true -> (0 < pos b)%nat ->
  errs (try_consume_delimiter d b) (e_delims (x :: l)).
Proof.
  intros H Hx P. unfold try_consume_delimiter. rewrite (SC_cur _ _ _ _ H). cbn [hd_opt unwrap bind]. rewrite Hx. cbn [debug_assert bind].
  replace (pos b =? 0)%nat with false by (symmetry; apply Nat.eqb_neq; lia).
  destruct (SC_destruct _ _ _ _ H) as (pre & buf & Eb & Es).
  destruct (skip_until _ _ _) as [b1| |] eqn:E; cbn [bind].
  - destruct (cur b1); [apply errs_Ok|]. apply errs_Err. unfold RefErrors.e_delims. now rewrite <- (SC_here _ _ H).
  - exfalso. rewrite Eb, advance_at in E. rewrite skip_until_at in E; [discriminate|].
    unfold loop_fuel, at_; cbn [input]. rewrite app_length. cbn [length]. lia.
  - intros e' [=].
Qed.

Lemma errs_signed b l : ascii_delim (c_inner_delimiter c) -> SC b l -> l <> [] -> errs (parse_number_sign b (repr_init c b) c) (e_signed s l).
Proof.
  intros Hd H Nl. destruct l as [|x l]; [congruence|]. unfold parse_number_sign, parse_sign_is_negative. rewrite (SC_cur _ _ _ _ H). cbn [hd_opt].
  assert (G : forall n, 0 <= x <= 127 -> errs (match cur (advance b) with
       | Some y => if c_allow_sign_delimiter c && c_inner_delimiter c y
                   then let* b0 := try_consume_delimiter (c_inner_delimiter c) (advance b) in Ok (b0, set_negative (repr_init c b) n)
                   else Ok (advance b, set_negative (repr_init c b) n)
       | None => Err (Syntax (pos (advance b)) (%"Unexpected end of input. Sign without a number"))
       end) (e_signed s (x :: l))).
  { intros n Hx. pose proof (SC_advance K s b x l H Hx) as A. rewrite (SC_cur _ _ _ _ A).
    destruct l as [|y l]; cbn [hd_opt].
    - apply errs_Err. cbn [e_signed]. now rewrite (SC_here _ _ A).
    - destruct (c_allow_sign_delimiter c && c_inner_delimiter c y) eqn:E; [|apply errs_Ok]. apply andb_true_iff in E. destruct E as [_ E].
      apply errs_bind_ok; [|intros a _; apply errs_Ok]. cbn [e_signed tl]. apply (errs_delimiter _ _ y l A E). unfold advance; cbn [pos]. lia. }
  destruct (Z.eqb_spec x 43) as [->|N1]; cbn [bind]; [apply (G false); lia|].
  destruct (Z.eqb_spec x 45) as [->|N2]; cbn [bind]; [apply (G true); lia|]. apply errs_Ok.
Qed.

Lemma errs_fraction b l r : SC b l -> errs (parse_number_fraction b r (c_disable_fraction c)) (e_fraction c s l).
Proof.
  intros H. unfold parse_number_fraction. rewrite (SC_cur _ _ _ _ H). destruct l as [|x l]; cbn [hd_opt]; [apply errs_Ok|].
  unfold e_fraction. rewrite <- (SC_here _ _ H).
  destruct (Z.eqb_spec x 46) as [->|Nx]; cbn [andb]; [|apply errs_Ok].
  destruct (c_disable_fraction c); cbn [negb]; [now apply errs_Err|].
  assert (Pp : sub_usize (pos (advance b)) 1 = Ok (pos b)).
  { unfold sub_usize, advance; cbn [pos]. destruct (Nat.leb_spec 1 (pos b + 1)); [|lia]. f_equal. lia. }
  assert (A : SC (advance b) l) by (apply (SC_advance K s b 46 l H); lia). rewrite (SC_cur _ _ _ _ A). rewrite Pp. cbn [bind].
  destruct l as [|y l]; cbn [hd_opt].
  { destruct (r_whole r); [apply errs_Ok|now apply errs_Err]. }
  destruct (is_digit y) eqn:Ey; [|destruct (r_whole r); [apply errs_Ok|now apply errs_Err]].
  unfold parse_fract. destruct (SC_destruct _ _ _ _ A) as (pre & buf & Eb & Es). rewrite Eb.
  rewrite parse_digits_at by (exact Ey || exact (SC_bytes _ _ _ _ A)). cbn [bind]. apply errs_Ok.
Qed.

Lemma errs_exponent_digits n b l : SC b l ->
  errs (let* r := exponent_loop (loop_fuel b) n 0 b in
     let '(b', exponent) := r in
     let* k := sub_usize (pos b') (pos b) in
     if (0 <? k)%nat then Ok (b', exponent)
     else if is_end_of_input b' then
       Err (Syntax (pos b') (%"Expected exponent but reached end of input"))
     else Err (Syntax (pos b') (%"The exponent must have at least one digit"))) (e_exponent_digits s n l).
Proof.
  intros H. pose proof (SC_bytes _ _ _ _ H) as B. destruct (SC_destruct _ _ _ _ H) as (pre & buf & Eb & Es).
  rewrite Eb at 1 2. rewrite exponent_digits_at by exact B. unfold e_exponent_digits. cbv zeta.
  pose proof (SC_drop_digits K s _ _ H pre buf Eb) as A.
  destruct (is_i16 (sg n (dval (take_while is_digit l)))) eqn:Ei.
  - cbn [bind]. rewrite Eb. unfold sub_usize.
    pose proof (SC_here _ _ A) as Hp.
    repeat match goal with |- context[pos (at_ ?a ?b0 ?c0)] => change (pos (at_ a b0 c0)) with (length a) end.
    change (pos (at_ (pre ++ take_while is_digit l) (drop_while is_digit l) buf)) with (length (pre ++ take_while is_digit l)) in Hp.
    rewrite app_length in *.
    destruct (Nat.leb_spec (length pre) (length pre + length (take_while is_digit l))) as [_|?]; [|lia]. cbn [bind].
    replace (length pre + length (take_while is_digit l) - length pre)%nat with (length (take_while is_digit l)) by lia.
    pose proof (take_drop_while is_digit l) as TD.
    destruct (take_while is_digit l) as [|y ds] eqn:Et.
    + cbn [length Nat.ltb Nat.leb]. cbn [app] in TD. rewrite TD in *. cbn [length] in Hp.
      unfold is_end_of_input. rewrite (SC_cur _ _ _ _ A). destruct l as [|y l]; cbn [hd_opt]; apply errs_Err; now rewrite Hp.
    + cbn [length]. replace (0 <? S (length ds))%nat with true by reflexivity. apply errs_Ok.
  - cbn [bind]. destruct (take_while is_digit l); [destruct n; discriminate|]. now apply errs_Err.
Qed.

Lemma errs_exponent b l r : SC b l -> errs (parse_number_exponent b r (c_disable_exponent c)) (e_exponent c s l).
Proof.
  intros H. unfold parse_number_exponent. rewrite (SC_cur _ _ _ _ H).
  destruct l as [|x l]; cbn [hd_opt]; [apply errs_Ok|].
  rewrite is_e_eq. unfold e_exponent. rewrite <- (SC_here _ _ H). destruct (is_e x) eqn:Ex; cbn [andb]; [|apply errs_Ok].
  destruct (c_disable_exponent c); cbn [negb]; [now apply errs_Err|].
  assert (Hx : 0 <= x <= 127) by (unfold is_e in Ex; lia).
  pose proof (SC_advance K s b x l H Hx) as A. cbn [tl].
  unfold parse_exponent, parse_sign_is_negative. rewrite (SC_cur _ _ _ _ A).
  destruct l as [|y l]; cbn [hd_opt]; [cbn [bind]; apply errs_Err; now rewrite (SC_here _ _ A)|].
  destruct (Z.eqb_spec y 43) as [->|N1].
  { cbn [bind neg_or_default]. apply errs_bind_ok; [|intros [? ?] _; apply errs_Ok]. apply errs_exponent_digits, (SC_advance K s _ 43 l A); lia. }
  destruct (Z.eqb_spec y 45) as [->|N2].
  { cbn [bind neg_or_default]. apply errs_bind_ok; [|intros [? ?] _; apply errs_Ok]. apply errs_exponent_digits, (SC_advance K s _ 45 l A); lia. }
  cbn [bind neg_or_default]. apply errs_bind_ok; [|intros [? ?] _; apply errs_Ok]. now apply errs_exponent_digits.
Qed.

Lemma errs_unit_delimiter b l : SC b l -> (0 < pos b)%nat ->
  errs (parse_number_delimiter b (if c_allow_time_unit_delimiter c then Some (c_inner_delimiter c) else None)) (e_delims l).
Proof.
  intros H P. unfold parse_number_delimiter. rewrite (SC_cur _ _ _ _ H).
  destruct l as [|x l]; cbn [hd_opt]; [apply errs_Ok|].
  destruct (c_allow_time_unit_delimiter c); [|apply errs_Ok].
  destruct (c_inner_delimiter c x) eqn:Ex; [|apply errs_Ok].
  apply errs_bind_ok; [now apply errs_delimiter|intros a _; apply errs_Ok].
Qed.
End ErrSim.

Section TemplateErrs.
Context {O : Type} (T : template O) (RT : rtemplate) (OUT : O -> duration * str -> Prop).
Context (c : config) (tu : units_like) (kw : option units_like) (nums : option numbers_like).
Context (K : byte -> bool) (s : str) (ET : etemplate).
Notation SC := (SC K s).
Notation num_r := (num_r c s).
Notation sgn_r := (sgn_r c s).
Hypothesis HE : env_ok c tu kw nums.
Hypothesis HK : nums <> None -> forall x, c_inner_delimiter c x = true -> K x = true.
Hypothesis HT : tsim T RT OUT c tu kw K s.

Record terrs : Prop := TErrs {
  te_inf : forall b l n r, SC b l -> (3 <= pos b)%nat -> sgn_r n r -> errs (t_parse_infinity_remainder T b r c) (et_inf ET l);
  te_kw : forall b l, SC b l -> l <> [] -> errs (t_parse_keyword T b kw c) (et_kw ET l);
  te_tu : forall b l, SC b l -> l <> [] -> errs (t_parse_time_unit T b c tu) (et_tu ET l);
  te_ntu : forall b l n W F x r, SC b l -> l <> [] -> (0 < pos b)%nat -> num_r n W F x r ->
     errs (t_parse_number_time_unit T b r c tu) (et_ntu ET l);
  te_fin : forall b l r d, SC b l -> (0 < pos b)%nat -> repr_parse r = Ok d -> errs (t_finalize T b r c) (et_fin ET l)
}.
Hypothesis HS : terrs.

Lemma errs_number b l n W r : SC b l -> before_fraction c s n W l r -> ((0 < pos b)%nat \/ starts_with is_dot l) ->
  errs (template_number T b r c tu) (e_number c s RT ET n W l).
Proof.
  intros H Hr Hp. unfold template_number, e_number. pose proof (SC_pos _ _ _ _ H) as P0.
  ebind; [apply (sim_fraction c K s b l n W r H Hr)|now apply (errs_fraction c K)|].
  intros [[b1 r1] go1] [F l1] (H1 & R1 & L1 & D1 & G1) _. cbn [fst snd] in *.
  assert (Lt : (length l1 < length s)%nat) by (destruct Hp as [Hp|Hp]; [lia|specialize (D1 Hp); lia]).
  destruct go1; cbn [negb]; [|apply errs_Ok].
  ebind; [apply (sim_exponent c K s b1 l1 n W F r1 H1 R1)|now apply (errs_exponent c K)|].
  intros [[b2 r2] go2] [x l2] (H2 & R2 & L2 & G2) _. cbn [fst snd] in *.
  destruct go2; cbn [negb]; [|apply errs_Ok]. pose proof (SC_pos _ _ _ _ H2) as P2.
  ebind; [apply (sim_unit_delimiter c K s b2 l2 (env_inner _ _ _ _ HE) H2); lia
    |apply (errs_unit_delimiter c K); [exact H2|lia]|].
  intros [b3 go3] l3 (H3 & L3 & G3) _. cbn [fst snd] in *. pose proof (SC_pos _ _ _ _ H3) as P3.
  destruct l3 as [|y l3]; [destruct go3; cbn [negb]; [destruct (G3 eq_refl)|apply errs_Ok]|].
  destruct go3; cbn [negb]; [|destruct (G3 eq_refl)].
  ebind;
    [apply (ts_ntu _ _ _ _ _ _ _ _ HT b3 (y :: l3) n W F x r2 H3); [discriminate|lia|exact R2]
    |apply (te_ntu HS b3 (y :: l3) n W F x); [exact H3|discriminate|lia|exact R2]|].
  intros [[b4 r4] go4] [o l4] (-> & H4 & P4 & V4) _. cbn [fst snd negb] in *. destruct o as [[u m]|]; eapply (te_fin HS); eauto.
Qed.

Lemma errs_parse_numeral b l : SC b l ->
  errs (parse_numeral b nums c) (e_delims s (after_word c l)).
Proof.
  intros H. unfold parse_numeral. case_eq nums; [intros f En|intros En; apply errs_Ok].
  pose proof (env_inner _ _ _ _ HE) as Hd.
  destruct (buffered_SC K s _ b l Hd (HK ltac:(rewrite En; discriminate)) H) as (b' & Eb & S1 & _ & (pre & buf & Ea & Es) & P).
  pose proof (utf8_drop_stop _ l Hd (SC_utf8 _ _ _ _ H)) as [U1 U2].
  rewrite Eb. cbn [bind]. unfold after_word. set (w := take_while _ l) in *. set (r := drop_while _ l) in *.
  destruct w as [|x w0] eqn:Ew; [apply errs_Ok|].
  cbn [is_empty]. rewrite <- Ew in *. unfold str_unchecked. rewrite U1. cbn [bind].
  destruct (f w) as [m|] eqn:Ef; [|apply errs_Ok].
  assert (S2 : SC b' r) by (apply S1; rewrite Ew; discriminate). rewrite (SC_cur _ _ _ _ S2).
  destruct r as [|y r'] eqn:Er; cbn [hd_opt]; [apply errs_Ok|].
  destruct (c_inner_delimiter c y) eqn:Ey; [|apply errs_Ok].
  apply errs_bind_ok; [|intros ? _; apply errs_Ok]. apply (errs_delimiter K s _ b' y r' S2 Ey). rewrite P, Ew. cbn [length]. lia.
Qed.

Lemma errs_numeral b l n r : SC b l -> sgn_r n r ->
  errs (template_numeral T b r c tu nums) (e_numeral c tu nums s RT ET l).
Proof.
  intros H Hr. unfold template_numeral, e_numeral.
  ebind;
    [apply (sim_parse_numeral c tu kw nums K s HE HK b l H)|now apply errs_parse_numeral|].
  intros [b1 [[id num]|]] [[m' r']|]; cbn [fst snd]; try contradiction.
  - intros (<- & S1 & N1 & P1 & (f & Ef & Fid) & Eid) _.
    ebind;
      [apply (ts_tu _ _ _ _ _ _ _ _ HT b1 r' S1 N1)|now apply (te_tu HS)|].
    intros [b2 [[u m]|]] [[[u' m'] r2]|]; cbn [unit_sim fst snd]; try contradiction.
    + intros (E & FU & S2 & P2) _. injection E as <- <-. eapply (te_fin HS); auto. apply (sgn_r_numeral c s); [eassumption|].
      destruct FU as (id' & m0 & Hg & Hm). cbn [fst snd] in *.
      destruct (env_numerals _ _ _ _ HE _ _ _ Ef Fid _ _ _ Hg) as [F1 F2].
      destruct Hm as [->|[Ha ->]]; auto.
    + intros [_ S2] _. unfold e_no_unit. rewrite <- Eid. destruct (u_is_empty tu); apply errs_Err; now rewrite (SC_here _ _ _ _ S2).
  - intros (Hat & U) _. destruct (remainder_ok b1 l Hat U) as [-> _]. cbn [bind]. now apply errs_Err.
Qed.

Lemma errs_word b l n r : SC b l -> l <> [] -> sgn_r n r ->
  errs (template_word T b r c tu kw nums) (e_word c tu nums s RT ET l).
Proof.
  intros H Nl Hr. unfold template_word, e_word.
  ebind;
    [apply (ts_kw _ _ _ _ _ _ _ _ HT b l H Nl)|now apply (te_kw HS)|].
  intros [b1 [[u m]|]] [[[u' m'] l1]|]; cbn [unit_sim fst snd]; try contradiction.
  - intros (E & FU & S1 & P1) _. injection E as <- <-. eapply (te_fin HS); auto. eapply (sgn_r_unit c s); eauto.
  - intros S1 _. destruct (c_number_is_optional c); [|now apply (errs_numeral b1 l n)].
    ebind;
      [apply (ts_tu _ _ _ _ _ _ _ _ HT b1 l S1 Nl)|now apply (te_tu HS)|].
    intros [b2 [[u m]|]] [[[u' m'] l2]|]; cbn [unit_sim fst snd]; try contradiction.
    + intros (E & FU & S2 & P2) _. injection E as <- <-. eapply (te_fin HS); auto. eapply (sgn_r_unit c s); [eassumption|].
      now apply (found_unit_fits c tu kw nums HE).
    + intros [S2 _] _. now apply (errs_numeral _ l n).
Qed.

Lemma errs_template b l : SC b l ->
  errs (template_parse T b c tu kw nums) (e_template c tu nums s RT ET l).
Proof.
  intros H. unfold template_parse, e_template. rewrite (SC_cur _ _ _ _ H).
  destruct l as [|x0 l0] eqn:El; [now apply errs_Err|]. cbn [hd_opt]. rewrite <- El in *.
  assert (Nl : l <> []) by (rewrite El; discriminate). clear El x0 l0.
  ebind;
    [apply (sim_signed c K s b l (env_inner _ _ _ _ HE) H Nl)|apply (errs_signed c K s b l (env_inner _ _ _ _ HE) H Nl)|].
  intros [b1 r1] [n l1] (S1 & R1 & N1 & L1) _. cbn [fst snd] in *.
  rewrite (SC_cur _ _ _ _ S1). destruct l1 as [|x l1]; [congruence|]. cbn [hd_opt].
  destruct (is_digit x) eqn:Ed.
  { destruct (sim_whole c K s b1 x l1 n r1 S1 Ed R1) as (b2 & w & Ew & S2 & R2). rewrite Ew. cbn [bind].
    assert (Nt : take_while is_digit (x :: l1) <> []) by (cbn [take_while]; rewrite Ed; discriminate).
    apply errs_number; [exact S2| |].
    - left. split; [split; [exact R2|discriminate]|exact Nt].
    - left. pose proof (SC_pos _ _ _ _ S2). pose proof (SC_pos _ _ _ _ S1).
      pose proof (drop_while_nonempty_len is_digit (x :: l1)).
      destruct (take_while is_digit (x :: l1)); [congruence|cbn [length] in *; lia]. }
  fold (is_dot x). destruct (is_dot x) eqn:Edot.
  { apply errs_number; [exact S1| |right; exact Edot]. right. split; [reflexivity|]. split; [assumption|exact Edot]. }
  rewrite (SC_next_is K s _ _ _ S1).
  destruct (negb (c_disable_infinity c) && starts_nocase (%"inf") (x :: l1)) eqn:Ei.
  { apply andb_true_iff in Ei. destruct Ei as [_ Ei].
    apply (te_inf HS _ _ n); [exact (SC_word K s b1 (%"inf") _ S1 Ei eq_refl)| |exact R1].
    unfold advance_by; cbn [pos]. lia. }
  now apply (errs_word _ _ n).
Qed.
End TemplateErrs.

(** ** Single durations *)
Section SingleErr.
Context (c : config) (tu : units_like) (kw : option units_like) (nums : option numbers_like) (s : str).
Notation here := (here s).
Definition e_unexpected (l : str) : parse_error := Syntax (here l) (%"Expected end of input but found: '" ++ l ++ %"'").
Definition e_invalid (x : byte) (l : str) : parse_error :=
  Syntax (here l) (%"Error parsing infinity: Invalid character '" ++ char_of_byte x ++ %"'").
Fixpoint es_inity (w l : str) : parse_error :=
  match w with
  | [] => e_unexpected l
  | y :: w' => match l with
               | [] => Syntax (here []) (%"Error parsing infinity: Premature end of input")
               | x :: l' => if eq_nocase x y then es_inity w' l' else e_invalid x l
               end
  end.
Definition es_tu (l : str) : parse_error := e_delims s (after_word c l).
Definition es_ntu (l : str) : parse_error :=
  if u_is_empty tu then TimeUnitErr (here l) (%"No time units allowed but found: '" ++ l ++ %"'")
  else match fs_tu c tu l with
       | None => es_tu l
       | Some _ => TimeUnitErr (here l) (%"Invalid time unit: '" ++ l ++ %"'")
       end.
Definition esingle : etemplate :=
  ETemplate (es_inity (%"inity")) (fun _ => Empty) es_tu es_ntu e_unexpected.

Hypothesis HE : env_ok c tu kw nums.
Notation K := (fun _ : byte => true).
Notation SC := (SC K s).

Lemma errs_end b l : SC b l -> errs (check_end_of_input b) (e_unexpected l).
Proof.
  intros H. unfold check_end_of_input. rewrite (SC_cur _ _ _ _ H). destruct l as [|x l]; cbn [hd_opt]; [apply errs_Ok|].
  destruct (SC_remainder K s b _ H) as [-> _]. cbn [bind]. apply errs_Err. unfold e_unexpected. now rewrite (SC_here _ _ _ _ H).
Qed.

Lemma errs_infinity_single w : ascii_word w -> forall b l, SC b l ->
  errs (let* b := infinity_loop_single w b in check_end_of_input b) (es_inity w l).
Proof.
  induction w as [|y w IH]; intros Hw b l H; cbn [infinity_loop_single es_inity bind]; [now apply errs_end|].
  rewrite (SC_cur _ _ _ _ H). destruct l as [|x l]; cbn [hd_opt]; [cbn [bind]; apply errs_Err; now rewrite (SC_here _ _ _ _ H)|].
  destruct (eq_nocase x y) eqn:Ex.
  - apply IH; [intros z Hz; apply Hw; now right|]. apply (SC_advance K s b x l H). apply (eq_nocase_ascii x y Ex), Hw. now left.
  - cbn [bind]. apply errs_Err. unfold e_invalid. now rewrite (SC_here _ _ _ _ H).
Qed.

Lemma errs_single_time_unit b l : SC b l -> l <> [] -> errs (single_time_unit b c tu) (es_tu l).
Proof.
  intros H N. unfold single_time_unit, es_tu. pose proof (env_inner _ _ _ _ HE) as Hd.
  assert (Ee : is_end_of_input b = false).
  { unfold is_end_of_input. rewrite (SC_cur _ _ _ _ H). destruct l; [congruence|reflexivity]. }
  rewrite Ee. cbn [negb debug_assert bind]. pose proof (SC_remainder K s b l H) as [_ Er].
  destruct (c_allow_ago c) eqn:Ea.
  2:{ rewrite Er. cbn [bind]. destruct (u_get tu l); apply errs_Ok. }
  pose proof (utf8_drop_stop _ l Hd (SC_utf8 _ _ _ _ H)) as [U1 U2].
  destruct H as [pre buf Eb E U C]. rewrite Eb at 1. rewrite advance_to_at. cbn [bind].
  pose proof (take_drop_while (fun x => negb (c_inner_delimiter c x)) l) as TD.
  pose proof (drop_while_head (fun x => negb (c_inner_delimiter c x)) l) as DH. unfold after_word.
  set (w := take_while _ l) in *. set (r := drop_while _ l) in *.
  unfold str_unchecked. rewrite U1. cbn [bind].
  assert (S1 : SC (at_ (pre ++ w) r buf) r).
  { econstructor; [reflexivity| |exact U2|now apply clean_app]. now rewrite <- app_assoc, TD. }
  destruct w as [|x w0] eqn:Ew; [apply errs_Ok|]. cbn [is_empty]. rewrite <- Ew in *.
  destruct (u_get tu w) as [[u m]|] eqn:Eg; [|apply errs_Ok].
  rewrite (SC_cur _ _ _ _ S1). destruct r as [|y r'] eqn:Er'; cbn [hd_opt]; [apply errs_Ok|].
  specialize (DH y r' eq_refl). apply negb_false_iff in DH.
  apply errs_bind_ok.
  - apply (errs_delimiter K s _ _ y r' S1 DH). cbn [at_ pos]. rewrite Ew, app_length. cbn [length]. lia.
  - intros b2 _. destruct (next_is_ignore_ascii_case _ _); apply errs_Ok.
Qed.

Lemma terrs_single : terrs single c tu kw K s esingle.
Proof.
  split; cbn [single esingle t_parse_infinity_remainder t_parse_keyword t_parse_time_unit
    t_parse_number_time_unit t_finalize et_inf et_kw et_tu et_ntu et_fin].
  - intros b l n r H P Hr. unfold single_infinity_remainder. destruct (is_end_of_input b); [apply errs_Ok|].
    assert (HW : ascii_word (%"inity")) by (intros y Hy; cbn in Hy; lia).
    pose proof (errs_infinity_single (%"inity") HW b l H) as G.
    destruct (infinity_loop_single _ b) as [b1|e|?]; cbn [bind] in *; [|intros e' [= <-]; now apply G|intros ? [=]].
    apply errs_bind_ok; [exact G|intros ? _; apply errs_Ok].
  - intros b l H N. unfold single_keyword. case_eq kw; [intros k Ek|intros _; apply errs_Ok].
    destruct (SC_remainder K s b l H) as [_ ->]. cbn [bind]. destruct (u_get k l); apply errs_Ok.
  - exact errs_single_time_unit.
  - intros b l n W F x r H N P Hr. unfold single_number_time_unit, es_ntu. rewrite (SC_cur _ _ _ _ H).
    destruct l as [|x0 l0] eqn:El; [congruence|]. cbn [hd_opt]. rewrite <- El in *.
    destruct (u_is_empty tu); cbn [negb].
    { destruct (SC_remainder K s b l H) as [_ ->]. cbn [bind]. apply errs_Err. now rewrite (SC_here _ _ _ _ H). }
    ebind; [apply (sim_single_time_unit c tu kw nums s HE b l H N)|now apply errs_single_time_unit|].
    intros [b' [[u m]|]] [[[u' m'] r']|]; cbn [unit_sim fst snd]; try contradiction.
    + intros _ _. apply errs_Ok.
    + intros [_ S1] _. destruct (SC_remainder K s _ _ S1) as [-> _]. cbn [bind]. apply errs_Err. now rewrite (SC_here _ _ _ _ S1).
  - intros b l r d H P Hr. unfold single_finalize. apply errs_bind_ok; [now apply errs_end|intros ? _; apply errs_Ok].
Qed.
End SingleErr.

Theorem parse_single_error c tu kw nums s e : env_ok c tu kw nums -> utf8 s = true ->
  parse_single c s tu kw nums = Err e <->
  match f_template c nums (rsingle c tu kw) s with
  | None => e = e_template c tu nums s (rsingle c tu kw) (esingle c tu s) s
  | Some (d, _) => c_allow_negative c = false /\ is_negative d = true /\ e = NegativeNumber
  end.
Proof.
  intros HE U.
  pose proof (sim_template single (rsingle c tu kw) single_out c tu kw nums (fun _ => true) s HE (fun _ _ _ => eq_refl)
      (tsim_single c tu kw nums s HE) _ s (SC_init _ s U)) as S0.
  pose proof (errs_template single (rsingle c tu kw) single_out c tu kw nums (fun _ => true) s (esingle c tu s) HE (fun _ _ _ => eq_refl)
      (tsim_single c tu kw nums s HE) (terrs_single c tu kw nums s HE) _ s (SC_init _ s U)) as E0.
  unfold parse_single. destruct (f_template c nums (rsingle c tu kw) s) as [[d r0]|].
  - destruct (template_parse single _ c tu kw nums) as [r|e1|x1]; [|contradiction|contradiction]. cbn [bind].
    destruct S0 as [Hr Hn]. cbn [fst snd] in *. rewrite Hr. cbn [bind].
    destruct (c_allow_negative c); cbn [negb andb]; [split; [discriminate|intros []; discriminate]|].
    destruct (is_negative d); [|split; [discriminate|intros (? & ? & ?); discriminate]].
    split; [intros [= <-]; auto|]. now intros (_ & _ & ->).
  - destruct (template_parse single _ c tu kw nums) as [r|e1|x1]; [contradiction| |contradiction]. cbn [bind].
    specialize (E0 e1 eq_refl). split; [intros [= <-]; exact E0|]. intros ->. now rewrite E0.
Qed.

(** ** Multiple durations *)
Section MultiErr.
Context (c : config) (tu : units_like) (kw : option units_like) (nums : option numbers_like) (s : str).
Notation inner := (c_inner_delimiter c).
Notation outer := (c_outer_delimiter c).
Notation here := (here s).
Definition e_conj_end (y w : str) : parse_error :=
  Syntax (here y) (%"Input may not end with a conjunction but found: '" ++ w ++ %"'").
Definition e_conj_sep (x : byte) (z : str) : parse_error :=
  Syntax (here z) (%"A conjunction must be separated by a delimiter, sign or digit but found: '" ++ char_of_byte x ++ %"'").
Fixpoint em_conjunction (ws : list str) (l : str) : parse_error :=
  match ws with
  | [] => Empty
  | w :: ws' =>
      if starts_nocase w l then
        match skipn (length w) l with
        | [] => e_conj_end l w
        | x :: z => if outer x then e_delims s (x :: z) else e_conj_sep x (x :: z)
        end
      else em_conjunction ws' l
  end.
Definition em_next (l : str) : parse_error :=
  match nonempty (drop_while outer l) with
  | None => e_delims s l
  | Some y => em_conjunction (conjunctions c) y
  end.
Fixpoint em_inity (l0 w l : str) : parse_error :=
  match w with
  | [] => match l with
          | [] => Empty
          | x :: _ => if outer x then em_next l
                      else Syntax (here l) (%"Error parsing infinity: Expected a delimiter but found '" ++ char_of_byte x ++ %"'")
          end
  | y :: w' => match l with
               | [] => Syntax (here l0 - 3) (%"Error parsing infinity: 'inf" ++ l0 ++ %"' is an invalid identifier for infinity")
               | x :: l' => if eq_nocase x y then em_inity l0 w' l' else e_invalid s x l
               end
  end.
Definition em_inf (l : str) : parse_error :=
  if f_ends c l then em_next l else em_inity l (%"inity") l.
Definition em_kw (l : str) : parse_error := em_next (drop_while (fun x => negb (keyword_end c x)) l).
Definition em_tu (l : str) : parse_error :=
  let l1 := drop_while (fun x => negb (unit_end c x)) l in
  match f_ago c default_multiplier l1 with
  | None => e_delims s l1
  | Some (_, r) => em_next r
  end.
Definition emulti : etemplate := ETemplate em_inf em_kw em_tu em_tu em_next.

Context (K : byte -> bool).
Hypothesis HE : env_ok c tu kw nums.
Hypothesis HF : kfit c kw nums K.
Notation SC := (SC K s).

Lemma errs_conjunctions start : forall ws b l, (forall w, In w ws -> utf8 w = true) -> SC b l -> l <> [] -> (0 < pos b)%nat ->
  start = here l -> errs (conjunction_loop outer start ws b) (em_conjunction ws l).
Proof.
  induction ws as [|w ws IH]; intros b l Hw H N P Hst; cbn [conjunction_loop em_conjunction]; [apply errs_Ok|].
  rewrite (SC_next_is K s b l w H). destruct (starts_nocase w l) eqn:Es.
  2:{ apply IH; auto. intros v Hv. apply Hw. now right. }
  pose proof (SC_word K s b w l H Es (Hw w (or_introl eq_refl))) as S1. rewrite (SC_cur _ _ _ _ S1).
  assert (P1 : (0 < pos (advance_by b (length w)))%nat) by (unfold advance_by; cbn [pos]; lia).
  destruct (skipn (length w) l) as [|x z] eqn:Ek; cbn [hd_opt].
  { apply errs_Err. unfold e_conj_end. now rewrite Hst. }
  destruct (outer x) eqn:Ex; [now apply (errs_delimiter K s)|].
  rewrite starts_duration_eq. destruct (starts_duration x); [apply errs_Ok|]. apply errs_Err. unfold e_conj_sep. now rewrite (SC_here _ _ _ _ S1).
Qed.

Lemma errs_connect b x l : SC b (x :: l) -> outer x = true -> (0 < pos b)%nat -> errs (connect c b) (em_next (x :: l)).
Proof.
  intros H Hx P. unfold connect, try_consume_connection, em_next. rewrite (SC_cur _ _ _ _ H). cbn [hd_opt unwrap bind].
  rewrite Hx. cbn [debug_assert bind].
  ebind; [apply (sim_delimiter K s _ b x l (env_outer _ _ _ _ HE) H Hx P)|now apply (errs_delimiter K s)|].
  intros b1 r1 (S1 & N1 & L1) _. apply errs_conjunctions; auto.
  - apply (conj_utf8' c tu kw nums HE).
  - pose proof (SC_pos _ _ _ _ H). pose proof (SC_pos _ _ _ _ S1). cbn [length] in *. lia.
  - exact (SC_here _ _ _ _ S1).
Qed.
Lemma errs_maybe_connect b l : SC b l -> (0 < pos b)%nat ->
  errs (match cur b with Some x => if outer x then connect c b else Ok b | None => Ok b end) (em_next l).
Proof.
  intros H P. rewrite (SC_cur _ _ _ _ H). destruct l as [|x l]; cbn [hd_opt]; [apply errs_Ok|].
  destruct (outer x) eqn:Ex; [|apply errs_Ok]. now apply errs_connect.
Qed.
Lemma errs_multi_finalize b l r : SC b l -> (0 < pos b)%nat -> errs (multi_finalize b r c) (em_next l).
Proof.
  intros H P. unfold multi_finalize. rewrite (SC_cur _ _ _ _ H). destruct l as [|x l]; cbn [hd_opt]; [apply errs_Ok|].
  destruct (outer x) eqn:Ex; [|apply errs_Ok]. apply errs_bind_ok; [now apply errs_connect|intros ? _; apply errs_Ok].
Qed.

Definition inf_tail (r : repr) (b : scanner) : res multi_output :=
  match cur b with
  | Some x =>
      if c_outer_delimiter c x then
        let* b := connect c b in Ok (set_infinite r, Some b)
      else Err (Syntax (pos b)
             (%"Error parsing infinity: Expected a delimiter but found '" ++ char_of_byte x ++ %"'"))
  | None => Ok (set_infinite r, None)
  end.
Lemma errs_infinity_multi r w : ascii_word w -> forall pre0 v buf l, SC (at_ (pre0 ++ v) l buf) l -> utf8 v = true -> (3 <= length pre0)%nat ->
  errs (let* b := infinity_loop_multi (length pre0) w (at_ (pre0 ++ v) l buf) in inf_tail r b) (em_inity (v ++ l) w l).
Proof.
  induction w as [|e w IH]; intros Hw pre0 v buf l H Uv P; cbn [infinity_loop_multi em_inity bind].
  { unfold inf_tail. rewrite (SC_cur _ _ _ _ H). destruct l as [|x l]; cbn [hd_opt]; [apply errs_Ok|].
    destruct (outer x) eqn:Ex.
    - apply errs_bind_ok; [|intros ? _; apply errs_Ok]. apply (errs_connect _ _ _ H Ex). cbn [at_ pos]. rewrite app_length. lia.
    - apply errs_Err. now rewrite (SC_here _ _ _ _ H). }
  rewrite (SC_cur _ _ _ _ H). destruct l as [|x l]; cbn [hd_opt].
  { pose proof (SC_pos _ _ _ _ H) as Hp. cbn [at_ pos] in Hp. rewrite app_length in Hp. cbn [length] in Hp.
    unfold sub_usize. destruct (Nat.leb_spec 3 (length pre0)); [|lia]. cbn [bind].
    unfold get_current_str_unwrap, at_; cbn [input pos]. rewrite <- app_assoc, slice_at. cbn [bind]. rewrite Uv. cbn [bind].
    apply errs_Err. f_equal; [|now rewrite app_nil_r]. unfold SpecErrors.here. rewrite app_length. cbn [length]. lia. }
  destruct (eq_nocase x e) eqn:Ex.
  2:{ cbn [bind]. apply errs_Err. unfold e_invalid. now rewrite (SC_here _ _ _ _ H). }
  assert (Ax : 0 <= x <= 127) by (apply (eq_nocase_ascii x e Ex), Hw; now left).
  pose proof (SC_advance K s _ x l H Ax) as A. rewrite advance_at in *. rewrite <- app_assoc in *.
  replace (v ++ x :: l) with ((v ++ [x]) ++ l) by now rewrite <- app_assoc.
  apply IH; auto; [intros y Hy; apply Hw; now right|]. rewrite utf8_app by assumption. now rewrite utf8_cons_ascii.
Qed.

Lemma f_ago_indep m1 m2 l : match f_ago c m1 l, f_ago c m2 l with
  | Some (_, r1), Some (_, r2) => r1 = r2 | None, None => True | _, _ => False end.
Proof.
  unfold f_ago. destruct l as [|x l]; [reflexivity|]. destruct (c_allow_ago c && inner x); [|reflexivity].
  destruct (nonempty _) as [a|]; cbn [obind]; [|exact I]. destruct (starts_nocase _ a); [|reflexivity].
  destruct (skipn 3 a) as [|y r]; [reflexivity|]. destruct (keyword_end c y); reflexivity.
Qed.

Lemma errs_multi_time_unit b l : SC b l -> l <> [] -> errs (multi_time_unit b c tu) (em_tu l).
Proof.
  intros H N. unfold multi_time_unit, em_tu.
  assert (Ee : is_end_of_input b = false).
  { unfold is_end_of_input. rewrite (SC_cur _ _ _ _ H). destruct l; [congruence|reflexivity]. }
  rewrite Ee. cbn [negb debug_assert bind].
  replace (drop_while (fun x => negb (unit_end c x)) l) with (drop_while (fun x => negb (K x)) l)
    by (apply drop_while_ext; intros x _; now rewrite (fit_unit HF)).
  set (d := if c_allow_ago c then (fun x => c_inner_delimiter c x || c_outer_delimiter c x || is_next_duration x)
            else (fun x => c_outer_delimiter c x || is_next_duration x)).
  assert (Ed : (if c_allow_ago c then
               buffered_advance_to
                 (fun x => c_inner_delimiter c x || c_outer_delimiter c x || is_next_duration x) b
             else buffered_advance_to (fun x => c_outer_delimiter c x || is_next_duration x) b) = buffered_advance_to d b)
    by (unfold d; now destruct (c_allow_ago c)).
  rewrite Ed. clear Ed.
  assert (Hd : forall x, d x = K x).
  { intros x. rewrite (fit_unit HF). unfold d, unit_end, keyword_end. destruct (c_allow_ago c); rewrite starts_duration_eq; cbn [andb].
    - rewrite <- orb_assoc. apply orb_comm.
    - symmetry. apply orb_false_r. }
  destruct (sim_collect c tu kw nums s K HE HF d b l Hd H) as (b1 & -> & S1 & R1 & P1 & U1). cbn [bind]. cbv zeta.
  destruct (take_while (fun x => negb (K x)) l) as [|x w] eqn:Ew; [apply errs_Ok|].
  cbn [is_empty]. rewrite U1. cbn [bind].
  destruct (u_get tu (x :: w)) as [[u m]|] eqn:Eg; [|apply errs_Ok].
  assert (P0 : (0 < pos b1)%nat) by (rewrite P1; cbn [length]; lia).
  set (l1 := drop_while _ l) in *.
  assert (Eq : (match f_ago c default_multiplier l1 with Some (_, r) => em_next r | None => e_delims s l1 end)
    = match f_ago c m l1 with Some (_, r) => em_next r | None => e_delims s l1 end).
  { pose proof (f_ago_indep default_multiplier m l1) as Q. destruct (f_ago c default_multiplier l1) as [[? ?]|], (f_ago c m l1) as [[? ?]|]; now subst. }
  rewrite Eq. ebind; [apply (sim_ago c tu kw nums s K HE b1 l1 m S1 P0)| |].
  - rewrite (SC_cur _ _ _ _ S1). destruct l1 as [|y l1']; cbn [hd_opt]; [apply errs_Ok|].
    destruct (c_allow_ago c && inner y) eqn:Ey; [|apply errs_Ok]. apply andb_true_iff in Ey. destruct Ey as [_ Ey].
    cbv zeta. apply errs_bind_ok; [now apply (errs_delimiter K s)|]. intros b2 _.
    destruct (next_is_ignore_ascii_case _ _); [|apply errs_Ok]. destruct (cur (advance_by b2 3)); [|apply errs_Ok].
    destruct (_ || _); apply errs_Ok.
  - intros [b2 m2] [m2' r2] (S2 & E2 & P2 & Hm) _. cbn [fst snd] in *.
    apply errs_bind_ok; [now apply errs_maybe_connect|intros ? _; apply errs_Ok].
Qed.

Lemma terrs_multi : terrs multi c tu kw K s emulti.
Proof.
  split; cbn [multi emulti t_parse_infinity_remainder t_parse_keyword t_parse_time_unit
    t_parse_number_time_unit t_finalize et_inf et_kw et_tu et_ntu et_fin].
  - intros b l n r H P Hr. unfold multi_infinity_remainder, em_inf. cbv zeta. assert (P0 : (0 < pos b)%nat) by lia.
    rewrite (SC_cur _ _ _ _ H). destruct l as [|x l]; cbn [hd_opt f_ends]; [apply errs_Ok|].
    destruct (outer x) eqn:Ex.
    { apply errs_bind_ok; [now apply errs_connect|intros ? _; apply errs_Ok]. }
    destruct (SC_destruct _ _ _ _ H) as (pre & buf & Eb & Es).
    assert (HW : ascii_word (%"inity")) by (intros y Hy; cbn in Hy; lia).
    assert (Hb : b = at_ (pre ++ []) (x :: l) buf) by (rewrite app_nil_r; exact Eb).
    pose proof (errs_infinity_multi r (%"inity") HW pre [] buf (x :: l)) as S0. rewrite <- Hb in S0.
    rewrite Eb in P. cbn [at_ pos] in P. assert (Ep : pos b = length pre) by (rewrite Eb; reflexivity). rewrite Ep.
    exact (S0 H eq_refl P).
  - intros b l H N. unfold multi_keyword, em_kw. case_eq kw; [intros k Ek|intros _; apply errs_Ok]. cbv zeta.
    assert (Kk : forall x, K x = keyword_end c x) by (apply (fit_keyword HF); rewrite Ek; discriminate).
    destruct (sim_collect c tu kw nums s K HE HF (fun x => c_outer_delimiter c x || is_next_duration x) b l) as (b1 & -> & S1 & R1 & P1 & U1);
      [intros x; rewrite Kk, starts_duration_eq; reflexivity|exact H|]. cbn [bind].
    rewrite ?(take_while_ext (fun x => negb (K x)) (fun x => negb (keyword_end c x))), ?(drop_while_ext (fun x => negb (K x)) (fun x => negb (keyword_end c x))) in * by (intros ? _; now rewrite Kk).
    destruct (take_while (fun x => negb (keyword_end c x)) l) as [|x w] eqn:Ew; [apply errs_Ok|].
    cbn [is_empty]. rewrite U1. cbn [bind]. destruct (u_get k (x :: w)) as [[u m]|] eqn:Eg; [|apply errs_Ok].
    assert (P0 : (0 < pos b1)%nat) by (rewrite P1; cbn [length]; lia).
    apply errs_bind_ok; [now apply errs_maybe_connect|intros ? _; apply errs_Ok].
  - exact errs_multi_time_unit.
  - intros b l n W F x r H N P Hr. unfold multi_number_time_unit. rewrite (SC_cur _ _ _ _ H).
    destruct l as [|x0 l0] eqn:El; [congruence|]. cbn [hd_opt]. rewrite <- El in *.
    destruct (u_is_empty tu); cbn [negb]; [apply errs_Ok|].
    apply errs_bind_ok; [now apply errs_multi_time_unit|]. intros [? [?|]] _; apply errs_Ok.
  - intros b l r d H P Hr. now apply errs_multi_finalize.
Qed.
End MultiErr.

(** the error of parse_multiple: [s] the whole input, [l] the rest *)
Fixpoint e_multiple (fuel : nat) (c : config) (tu : units_like) (kw : option units_like) (nums : option numbers_like)
    (s l : str) : option parse_error :=
  match fuel with
  | O => None
  | S f =>
      match f_template c nums (rmulti c tu kw) l with
      | None => Some (e_template c tu nums s (rmulti c tu kw) (emulti c s) l)
      | Some (d, r) =>
          if negb (c_allow_negative c) && is_negative d then Some NegativeNumber else
          match r with
          | [] => None
          | _ => e_multiple f c tu kw nums s r
          end
      end
  end.

Lemma multiple_loop_error c tu kw nums K s : env_ok c tu kw nums -> kfit c kw nums K ->
  forall fuel b l d0, SC K s b l -> (length l < fuel)%nat -> duration_ok d0 ->
  match multiple_loop fuel c tu kw nums d0 b with
  | Ok _ => e_multiple fuel c tu kw nums s l = None
  | Err e => e_multiple fuel c tu kw nums s l = Some e
  | Crash _ => False
  end.
Proof.
  intros HE HF. induction fuel as [|f IH]; intros b l d0 H L O0; [lia|]. cbn [multiple_loop e_multiple].
  pose proof (sim_template multi (rmulti c tu kw) (multi_rel s K) c tu kw nums K s HE (fit_numeral HF)
      (tsim_multi c tu kw nums s K HE HF) b l H) as S0.
  pose proof (errs_template multi (rmulti c tu kw) (multi_rel s K) c tu kw nums K s (emulti c s) HE (fit_numeral HF)
      (tsim_multi c tu kw nums s K HE HF) (terrs_multi c tu kw nums s K HE HF) b l H) as E0.
  pose proof (fun d r => f_template_progress_fit c tu kw nums K l d r HE HF (SC_utf8 _ _ _ _ H)) as Pr.
  destruct (f_template c nums (rmulti c tu kw) l) as [[d r]|].
  2:{ destruct (template_parse _ _ _ _ _ _) as [|e1|]; [contradiction| |contradiction]. cbn [bind]. now rewrite (E0 e1 eq_refl). }
  destruct (template_parse multi b c tu kw nums) as [[rp mp]|?|?]; [|contradiction|contradiction].
  cbn [sim bind] in *. destruct S0 as [V0 S0]. cbn [fst snd] in *. rewrite V0. cbn [bind].
  specialize (Pr d r eq_refl). destruct Pr as (Pl & Od & Ur).
  destruct (negb (c_allow_negative c) && is_negative d); [reflexivity|].
  assert (A : exists d1, (if is_zero d then Ok d0 else if is_zero d0 then Ok d else saturating_add d0 d) = Ok d1 /\ duration_ok d1).
  { destruct (is_zero d); [eauto|]. destruct (is_zero d0); [eauto|]. destruct (saturating_add_spec d0 d O0 Od) as (d1 & E1 & O1 & _). eauto. }
  destruct A as (d1 & -> & O1). cbn [bind].
  destruct mp as [b1|]; [|subst r; reflexivity].
  destruct S0 as [Nr S1]. destruct r as [|x r0] eqn:Er; [congruence|]. rewrite <- Er in *.
  apply (IH b1 r d1 S1); [lia|exact O1].
Qed.

Theorem parse_multiple_error c tu kw nums K s e : env_ok c tu kw nums -> kfit c kw nums K -> utf8 s = true ->
  parse_multiple c s tu kw nums = Err e <-> e_multiple (S (length s)) c tu kw nums s s = Some e.
Proof.
  intros HE HF U.
  pose proof (multiple_loop_error c tu kw nums K s HE HF (S (length s)) (bytes_new s) s ZERO (SC_init _ s U) ltac:(lia) ZERO_ok) as H.
  unfold parse_multiple. destruct (multiple_loop _ _ _ _ _ _ _) as [D|e1|x1]; [|rewrite H|contradiction].
  - rewrite H. split; discriminate.
  - split; congruence.
Qed.
