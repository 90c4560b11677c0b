(** * No crash, termination, error positions: a Hoare logic over the model *)
From Verif Require Import Prelude Util Time Config Bytes Repr Parse SpecTime SpecNum SpecValue SpecParse TimeProofs NumProofs ReprProofs Utf8Proofs BytesProofs.

Definition hoare {A} (s : str) (m : res A) (P : A -> Prop) : Prop :=
  match m with Ok a => P a | Err e => err_ok s e | Crash _ => False end.

Lemma hoare_bind {A B} s (m : res A) (f : A -> res B) P Q :
  hoare s m P -> (forall a, P a -> hoare s (f a) Q) -> hoare s (bind m f) Q.
Proof. destruct m as [a|e|c]; cbn; auto; contradiction. Qed.
Lemma hoare_weaken {A} s (m : res A) (P Q : A -> Prop) : hoare s m P -> (forall a, P a -> Q a) -> hoare s m Q.
Proof. destruct m; cbn; auto. Qed.

Definition buf_inv (s : str) (buf : buf_t) : Prop :=
  match buf with
  | None => True
  | Some (p, w, nx) => exists pre r, length pre = p /\ s = pre ++ w ++ r /\ nx = hd_opt r /\ utf8 w = true /\ utf8 r = true
  end.

(** the scanner is at a character boundary of [s], at least at position [n] *)
Inductive inv (s : str) (n : nat) : scanner -> Prop :=
| Inv pre post buf : s = pre ++ post -> utf8 post = true -> buf_inv s buf -> (n <= length pre)%nat ->
    inv s n (at_ pre post buf).

Lemma inv_weaken s n m b : inv s n b -> (m <= n)%nat -> inv s m b.
Proof. intros [pre post buf H1 H2 H3 H4] L. constructor; auto. lia. Qed.
Lemma inv_self s n b : inv s n b -> inv s (pos b) b.
Proof. intros [pre post buf H1 H2 H3 H4]. constructor; auto. Qed.
Lemma inv_le s n b : inv s n b -> (n <= pos b)%nat.
Proof. intros [pre post buf H1 H2 H3 H4]. exact H4. Qed.
Lemma inv_input s n b : inv s n b -> input b = s.
Proof. intros [pre post buf H1 H2 H3 H4]. now cbn. Qed.
Lemma pos_ok_at pre post : utf8 post = true -> pos_ok (pre ++ post) (length pre).
Proof.
  intros H. split; [rewrite app_length; lia|].
  rewrite skipn_app, skipn_all, Nat.sub_diag. exact H.
Qed.
Lemma inv_pos_ok s n b : inv s n b -> pos_ok s (pos b).
Proof. intros [pre post buf H1 H2 H3 H4]. subst s. now apply pos_ok_at. Qed.

Lemma inv_advance s n b x : inv s n b -> cur b = Some x -> 0 <= x <= 127 -> inv s (S n) (advance b).
Proof.
  intros [pre post buf H1 H2 H3 H4] Hc Hx. destruct post as [|y post]; [discriminate|].
  cbn in Hc. injection Hc as ->. rewrite advance_at. constructor; auto.
  - subst. now rewrite <- app_assoc.
  - now rewrite utf8_cons_ascii in H2.
  - rewrite app_length. cbn. lia.
Qed.

Lemma inv_advance_word s n b w : inv s n b -> next_is_ignore_ascii_case b w = true -> utf8 w = true ->
  inv s (n + length w) (advance_by b (length w)).
Proof.
  intros [pre post buf H1 H2 H3 H4] Hn Hw. rewrite next_is_at in Hn.
  apply starts_nocase_split in Hn. destruct Hn as (v & r & -> & E & L).
  rewrite advance_by_at by auto. constructor; auto.
  - subst. now rewrite app_assoc.
  - assert (utf8 v = true). { apply (utf8_nocase w); [|assumption]. clear - E. revert w E.
      induction v as [|x v IH]; intros [|y w] E; try discriminate; [reflexivity|]. cbn in *.
      apply andb_true_iff in E. destruct E as [E1 E2]. rewrite (IH w E2), andb_true_r.
      unfold eq_nocase in *. lia. }
    now rewrite utf8_app in H2.
  - rewrite app_length. lia.
Qed.

Lemma utf8_drop_stop d l : ascii_delim d -> utf8 l = true ->
  utf8 (take_while (fun x => negb (d x)) l) = true /\ utf8 (drop_while (fun x => negb (d x)) l) = true.
Proof.
  intros Hd H. pose proof (take_drop_while (fun x => negb (d x)) l) as E.
  destruct (drop_while (fun x => negb (d x)) l) as [|x r] eqn:Er.
  - rewrite app_nil_r in E. rewrite E. auto.
  - pose proof (drop_while_head _ _ _ _ Er) as Hx. cbn in Hx. apply negb_false_iff in Hx.
    rewrite <- E in H. now apply (utf8_cut _ x r H), Hd.
Qed.
Lemma utf8_skip_ascii p l : (forall x, In x l -> p x = true -> 0 <= x <= 127) -> utf8 l = true ->
  utf8 (drop_while p l) = true.
Proof.
  induction l as [|x l IH]; cbn [drop_while]; intros Hp H; [exact H|]. destruct (p x) eqn:E; [|exact H].
  rewrite utf8_cons_ascii in H by (apply Hp; [now left|exact E]). apply IH; auto. intros y Hy. apply Hp. now right.
Qed.

Lemma inv_split s pre w r buf : s = pre ++ w ++ r -> utf8 r = true -> buf_inv s buf ->
  inv s (length pre + length w) (at_ (pre ++ w) r buf).
Proof. intros H1 H2 H3. constructor; auto; [now rewrite <- app_assoc|rewrite app_length; lia]. Qed.
Lemma inv_reset s n pre w r buf : s = pre ++ w ++ r -> utf8 (w ++ r) = true -> buf_inv s buf -> (n <= length pre)%nat ->
  inv s n (reset (at_ (pre ++ w) r buf) (length pre)).
Proof. intros H1 H2 H3 H4. rewrite reset_at by reflexivity. constructor; auto. Qed.

(** the common result of the functions which collect bytes up to a delimiter *)
Definition collected (s : str) (n : nat) (d : delimiter) (b : scanner) (x : scanner * str) : Prop :=
  inv s (pos b + length (snd x)) (fst x) /\ utf8 (snd x) = true /\
  (match cur (fst x) with Some y => d y = true | None => True end) /\
  inv s n (reset (fst x) (pos b)) /\ (pos (fst x) = pos b + length (snd x))%nat.

Lemma hoare_advance_to s n d b : ascii_delim d -> inv s n b ->
  hoare s (advance_to d b) (collected s n d b).
Proof.
  intros Hd [pre post buf H1 H2 H3 H4]. rewrite advance_to_at. cbn [hoare].
  destruct (utf8_drop_stop d post Hd H2) as [U1 U2].
  pose proof (take_drop_while (fun x => negb (d x)) post) as E.
  pose proof (drop_while_head (fun x => negb (d x)) post) as Er.
  set (w := take_while _ _) in *. set (r := drop_while _ _) in *. clearbody w r. subst post.
  unfold collected; cbn [fst snd]. split; [|split; [|split; [|split]]].
  - now apply inv_split.
  - assumption.
  - destruct r as [|y r]; cbn; [exact I|]. specialize (Er y r eq_refl). now apply negb_false_iff in Er.
  - now apply inv_reset.
  - cbn. now rewrite app_length.
Qed.

Lemma hoare_buffered s n d b : ascii_delim d -> inv s n b ->
  hoare s (buffered_advance_to d b) (collected s n d b).
Proof.
  intros Hd [pre post buf H1 H2 H3 H4].
  destruct (utf8_drop_stop d post Hd H2) as [U1 U2].
  assert (F : hoare s (Ok (buffered_fresh d pre post)) (collected s n d (at_ pre post buf))).
  { unfold buffered_fresh. cbn [hoare].
    pose proof (take_drop_while (fun x => negb (d x)) post) as E.
    pose proof (drop_while_head (fun x => negb (d x)) post) as Er.
    set (w := take_while _ _) in *. set (r := drop_while _ _) in *. clearbody w r. subst post.
    assert (B : buf_inv s (Some (length pre, w, hd_opt r))) by (exists pre, r; auto).
    unfold collected; cbn [fst snd]. split; [|split; [|split; [|split]]].
    - now apply inv_split.
    - assumption.
    - destruct r as [|y r]; cbn; [exact I|]. specialize (Er y r eq_refl). now apply negb_false_iff in Er.
    - now apply inv_reset.
    - cbn. now rewrite app_length. }
  destruct buf as [[[p w] nx]|]; [|rewrite buffered_at_fresh by exact I; exact F].
  destruct (Nat.eq_dec p (length pre)) as [->|N]; [|rewrite buffered_at_fresh by exact N; exact F].
  (* a buffered word at this position *)
  destruct H3 as (pre' & r & L & Es & -> & U3 & U4).
  assert (P : pre' = pre /\ post = w ++ r).
  { rewrite H1 in Es. clear - L Es. revert pre Es L. induction pre' as [|x pre' IH]; intros [|y pre] Es L; try discriminate.
    - auto.
    - cbn in Es. injection Es as -> Es. destruct (IH pre Es) as [-> ->]; [now injection L|]. auto. }
  destruct P as [-> ->].
  assert (Bf : buf_inv s (Some (length pre, w, hd_opt r))) by (exists pre, r; auto).
  assert (C : (match hd_opt r with Some x => d x = true | None => True end) \/
              (exists x, hd_opt r = Some x /\ d x = false)).
  { destruct (hd_opt r) as [x|]; [|auto]. destruct (d x) eqn:E; eauto. }
  destruct C as [C|(x & Ex & Dx)].
  - rewrite buffered_at_cached by exact C. cbn [hoare]. unfold collected; cbn [fst snd].
    split; [|split; [|split; [|split]]].
    + now apply inv_split.
    + assumption.
    + exact C.
    + now apply inv_reset.
    + cbn. now rewrite app_length.
  - (* the buffered word ends at a byte which is not a delimiter: it is not used *)
    enough (buffered_advance_to d (at_ pre (w ++ r) (Some (length pre, w, hd_opt r))) =
            buffered_advance_to d (at_ pre (w ++ r) None)) as ->.
    { rewrite buffered_at_fresh by exact I. exact F. }
    unfold buffered_advance_to. unfold at_ at 1 2; cbn [buffer]. rewrite Ex.
    unfold at_ at 1; cbn [pos]. rewrite Nat.eqb_refl, Dx. cbn [andb].
    rewrite !skip_until_at by apply at_fuel. reflexivity.
Qed.

Lemma hoare_try_consume_delimiter s n d b x : ascii_delim d -> inv s n b -> cur b = Some x -> d x = true ->
  hoare s (try_consume_delimiter d b) (fun b' => inv s (S n) b' /\ cur b' <> None).
Proof.
  intros Hd [pre post buf H1 H2 H3 H4] Hc Hx. destruct post as [|y post]; [discriminate|].
  cbn in Hc. injection Hc as ->.
  destruct pre as [|p0 pre'].
  { unfold try_consume_delimiter. cbn [at_ cur hd_opt unwrap bind pos length Nat.eqb]. rewrite Hx. cbn [debug_assert bind].
    cbn [hoare err_ok]. split; [lia|]. cbn [skipn]. subst s. exact H2. }
  rewrite try_consume_delimiter_at by (try assumption; discriminate).
  set (pre := p0 :: pre') in *.
  assert (U : utf8 post = true) by (rewrite utf8_cons_ascii in H2 by (apply Hd; exact Hx); exact H2).
  pose proof (utf8_skip_ascii d post (fun y _ => Hd y) U) as U2.
  pose proof (take_drop_while d post) as E.
  destruct (drop_while d post) as [|y r].
  - cbn [hoare err_ok]. subst s. now apply pos_ok_at.
  - cbn [hoare]. split; [|discriminate]. constructor; auto.
    + rewrite <- app_assoc. cbn [app]. rewrite E. exact H1.
    + rewrite app_length. cbn [length]. lia.
Qed.

Lemma is_digit_ascii x : is_digit x = true -> 0 <= x <= 127.
Proof. rewrite is_digit_iff. lia. Qed.

Definition digit_range (s : str) (w : nat * nat) : Prop := exists W, range_slice s w = Ok W /\ digit_string W.

Lemma utf8_bytes_ok l : utf8 l = true -> bytes_ok l.
Proof. intros H x Hx. exact (utf8_bytes l H x Hx). Qed.

Lemma take_digits_string l : digit_string (take_while is_digit l).
Proof. intros x Hx. apply take_while_all in Hx. now apply is_digit_iff. Qed.

Lemma range_slice_at pre a b post n : n = length pre ->
  range_slice (pre ++ (a ++ b) ++ post) (n + length a, n + length (a ++ b))%nat = Ok b.
Proof.
  intros ->. unfold range_slice; cbn [fst snd].
  pose proof (slice_at (pre ++ a) b post) as H. rewrite !app_length in *. rewrite <- !app_assoc in *.
  rewrite Nat.add_assoc. exact H.
Qed.

Lemma zeros_split l : exists z, l = zeros l ++ z.
Proof. exists (drop_while is_zero_digit l). symmetry. apply take_drop_while. Qed.

Lemma hoare_parse_whole s n b x : inv s n b -> cur b = Some x -> is_digit x = true ->
  hoare s (parse_whole b) (fun y => inv s (S n) (fst y) /\ digit_range s (snd y)).
Proof.
  intros [pre post buf H1 H2 H3 H4] Hc Hx. destruct post as [|y post]; [discriminate|].
  cbn in Hc. injection Hc as ->. unfold parse_whole.
  rewrite parse_digits_strip_zeros_at; [|now apply utf8_bytes_ok|exact Hx]. cbn [hoare fst snd].
  pose proof (take_drop_while is_digit (x :: post)) as E.
  pose proof (take_digits_string (x :: post)) as D.
  assert (N : (0 < length (take_while is_digit (x :: post)))%nat) by (cbn [take_while]; rewrite Hx; cbn; lia).
  assert (U : utf8 (drop_while is_digit (x :: post)) = true)
    by (apply utf8_skip_ascii; [intros ? _; apply is_digit_ascii|exact H2]).
  set (w := take_while _ _) in *. set (r := drop_while _ _) in *. clearbody w r. rewrite <- E in H1.
  split.
  - constructor; auto; [now rewrite <- app_assoc|rewrite app_length; lia].
  - destruct (zeros_split w) as [z Ez]. exists z. split.
    + rewrite H1. rewrite Ez at 1. rewrite Ez at 3. now apply range_slice_at.
    + rewrite Ez in D. apply digit_string_app in D. tauto.
Qed.

Lemma hoare_parse_fract s n b x : inv s n b -> cur b = Some x -> is_digit x = true ->
  hoare s (parse_fract b) (fun y => inv s (S n) (fst y) /\ digit_range s (snd y)).
Proof.
  intros [pre post buf H1 H2 H3 H4] Hc Hx. destruct post as [|y post]; [discriminate|].
  cbn in Hc. injection Hc as ->. unfold parse_fract.
  rewrite parse_digits_at; [|now apply utf8_bytes_ok|exact Hx]. cbn [hoare fst snd].
  pose proof (take_drop_while is_digit (x :: post)) as E.
  pose proof (take_digits_string (x :: post)) as D.
  assert (N : (0 < length (take_while is_digit (x :: post)))%nat) by (cbn [take_while]; rewrite Hx; cbn; lia).
  assert (U : utf8 (drop_while is_digit (x :: post)) = true)
    by (apply utf8_skip_ascii; [intros ? _; apply is_digit_ascii|exact H2]).
  set (w := take_while _ _) in *. set (r := drop_while _ _) in *. clearbody w r. rewrite <- E in H1.
  split.
  - constructor; auto; [now rewrite <- app_assoc|rewrite app_length; lia].
  - exists w. split; [|assumption]. rewrite H1. unfold range_slice; cbn [fst snd].
    rewrite <- app_length. apply slice_at.
Qed.

(** ** the repr is always good for a value *)
Definition good (r : repr) : Prop := exists d, repr_parse r = Ok d /\ duration_ok d.

Lemma magnitude_range V k c : 0 <= V -> 0 <= magnitude V k c <= max_nanos.
Proof.
  intros H. unfold magnitude. pose proof (floor_scale10_nonneg V (18 + k) H).
  assert (0 <= Z.abs c * floor_scale10 V (18 + k) / 1000000000) by (apply Z.div_pos; nia).
  rewrite max_nanos_val in *. lia.
Qed.
Lemma number_result_ok b V k c : 0 <= V -> duration_ok (number_result b V k c).
Proof.
  intros H. unfold number_result. destruct (_ || _); [apply ZERO_ok|].
  apply std_of_nanos_ok, magnitude_range, H.
Qed.
Lemma fixed_result_ok b c e : duration_ok (fixed_result b c e).
Proof.
  unfold fixed_result. destruct (c =? 0); [apply ZERO_ok|]. destruct (e <? -18); [apply ZERO_ok|].
  destruct (19 <? e); [destruct (c <? 0); [apply MIN_ok|apply MAX_ok]|].
  apply std_of_nanos_ok. pose proof (floor_scale10_nonneg (Z.abs c) (9 + e) ltac:(lia)). rewrite max_nanos_val. lia.
Qed.

Definition opt_digits (s : str) (o : option (nat * nat)) : Prop := match o with None => True | Some w => digit_range s w end.

Lemma opt_digits_slice s o : opt_digits s o -> exists W, opt_slice s o = Ok W /\ digit_string W.
Proof.
  destruct o as [w|]; cbn; [auto|]. intros _. exists []. split; [reflexivity|apply digit_string_nil].
Qed.

(** a number is being parsed *)
Record num_st (s : str) (r : repr) : Prop := NumSt {
  n_input : r_input r = s;
  n_inf : r_is_infinite r = false;
  n_unit : r_unit r = None;
  n_mult : r_multiplier r = default_multiplier;
  n_numeral : r_numeral r = None;
  n_whole : opt_digits s (r_whole r);
  n_fract : opt_digits s (r_fract r);
  n_exp : is_i16 (r_exponent r) = true
}.
Definition has_number (r : repr) : Prop := r_whole r <> None \/ r_fract r <> None.

Lemma default_fits u : unit_fits u default_multiplier.
Proof. split; [split; reflexivity|]. destruct u; vm_compute; discriminate. Qed.

Lemma good_number s r : r_input r = s -> r_is_infinite r = false ->
  opt_digits s (r_whole r) -> opt_digits s (r_fract r) -> is_i16 (r_exponent r) = true -> has_number r ->
  unit_fits (opt_unit r) (r_multiplier r) -> good r.
Proof.
  intros Hi Hinf Hw Hf He Hn [_ Hm].
  destruct (opt_digits_slice _ _ Hw) as (W & SW & DW). destruct (opt_digits_slice _ _ Hf) as (F & SF & DF).
  destruct (mul_checked_mul _ _) as [[c e]|] eqn:E; [|congruence].
  eexists. split.
  - eapply repr_parse_number; [exact Hinf|exact Hn|rewrite Hi; exact SW|rewrite Hi; exact SF|exact DW|exact DF|exact E|exact He].
  - apply number_result_ok, dval_nonneg, digit_string_app. auto.
Qed.
Lemma num_st_good s r : num_st s r -> has_number r -> good r.
Proof.
  intros [] Hn. apply (good_number s); auto. rewrite n_mult0. apply default_fits.
Qed.
Lemma num_st_unit_good s r u m : num_st s r -> has_number r -> unit_fits u m -> good (set_unit r (u, m)).
Proof. intros [] Hn Hu. apply (good_number s); auto. Qed.

(** only a sign was parsed *)
Definition fresh (s : str) (r : repr) : Prop := num_st s r /\ r_whole r = None /\ r_fract r = None.

Lemma fresh_unit_good s r u m : fresh s r -> unit_fits u m -> good (set_unit r (u, m)).
Proof.
  intros ([] & Hw & Hf) [_ Hm]. destruct (mul_checked_mul _ _) as [[c e]|] eqn:E; [|congruence].
  eexists. split; [eapply repr_parse_unit; cbn; eauto|apply fixed_result_ok].
Qed.
Lemma fresh_numeral_good s r n u m : fresh s r -> numeral_fits n u m -> good (set_unit (set_numeral r n) (u, m)).
Proof.
  intros ([] & Hw & Hf) (m1 & H1 & Hm). destruct (mul_checked_mul m1 m) as [[c e]|] eqn:E; [|congruence].
  eexists. split; [eapply repr_parse_numeral; cbn; eauto|apply fixed_result_ok].
Qed.
Lemma infinite_good r : good (set_infinite r).
Proof.
  eexists. split; [apply repr_parse_infinite; reflexivity|]. destruct (neg_or_default _); [apply MIN_ok|apply MAX_ok].
Qed.

Lemma fits_saturating_neg u m : unit_fits u m -> unit_fits u (mul_saturating_neg m).
Proof.
  intros [[H1 H2] H]. destruct m as [c e]. cbn [coef expo] in *. apply is_i64_iff in H1.
  split.
  - unfold mul_saturating_neg. split; cbn [coef expo]; [|assumption]. apply is_i64_iff.
    unfold i64_min, i64_max. destruct (Z.eqb_spec c (-9223372036854775808)); lia.
  - unfold mul_checked_mul, mul_saturating_neg in *. cbn [coef expo] in *.
    destruct (chk_spec is_i64 (coef (unit_multiplier u) * c)) as [[G E]|[G E]]; rewrite E in H; cbn in H; [|congruence].
    destruct (chk_spec is_i16 (expo (unit_multiplier u) + e)) as [[G2 E2]|[G2 E2]]; rewrite E2 in H; cbn in H; [|congruence].
    apply is_i64_iff in G. unfold i64_min, i64_max in *.
    rewrite chk_true.
    + cbn [obind]. rewrite E2. discriminate.
    + apply is_i64_iff. clear - G H1. destruct (Z.eqb_spec c (-9223372036854775808)); destruct u; cbn [unit_multiplier coef] in *; lia.
Qed.

(** ** the parts of a number *)
Lemma hoare_sign s n b : inv s n b -> cur b <> None ->
  hoare s (parse_sign_is_negative b) (fun x => inv s n (fst x) /\ (snd x = None -> fst x = b) /\ (snd x <> None -> inv s (S n) (fst x))).
Proof.
  intros Hi Hc. unfold parse_sign_is_negative. destruct (cur b) as [x|] eqn:Ec; [|congruence].
  destruct (Z.eqb_spec x 43) as [->|]; [|destruct (Z.eqb_spec x 45) as [->|]]; cbn [hoare fst snd].
  - pose proof (inv_advance _ _ _ _ Hi Ec ltac:(lia)) as H. split; [apply (inv_weaken _ _ _ _ H); lia|].
    split; [discriminate|auto].
  - pose proof (inv_advance _ _ _ _ Hi Ec ltac:(lia)) as H. split; [apply (inv_weaken _ _ _ _ H); lia|].
    split; [discriminate|auto].
  - split; [assumption|]. split; [auto|congruence].
Qed.

Lemma fresh_negative s r b : fresh s r -> fresh s (set_negative r b).
Proof. intros ([] & H1 & H2). split; [constructor; auto|auto]. Qed.

Lemma hoare_number_sign s n b r c : ascii_delim (c_inner_delimiter c) -> inv s n b -> cur b <> None -> fresh s r ->
  hoare s (parse_number_sign b r c) (fun x => inv s n (fst x) /\ fresh s (snd x) /\ cur (fst x) <> None).
Proof.
  intros Hd Hi Hc Hr. unfold parse_number_sign. eapply hoare_bind; [apply (hoare_sign s n b Hi Hc)|].
  intros [b' o] (H1 & H2 & H3). cbn [fst snd] in *. destruct o as [is_neg|].
  - specialize (H3 ltac:(discriminate)). destruct (cur b') as [x|] eqn:Ec.
    + destruct (c_allow_sign_delimiter c && c_inner_delimiter c x) eqn:Ed.
      * apply andb_true_iff in Ed. destruct Ed as [_ Ed].
        eapply hoare_bind; [apply (hoare_try_consume_delimiter s (S n) _ _ x Hd H3 Ec Ed)|].
        intros b2 [I2 C2]. cbn [hoare fst snd]. split; [apply (inv_weaken _ _ _ _ I2); lia|].
        split; [now apply fresh_negative|assumption].
      * cbn [hoare fst snd]. split; [assumption|]. split; [now apply fresh_negative|congruence].
    + cbn [hoare err_ok]. exact (inv_pos_ok _ _ _ H1).
  - cbn [hoare fst snd]. rewrite (H2 eq_refl). auto.
Qed.

Lemma set_fract_num s r f : num_st s r -> digit_range s f -> num_st s (set_fract r f) /\ has_number (set_fract r f).
Proof. intros [] H. split; [constructor; auto|right; discriminate]. Qed.
Lemma set_whole_num s r f : num_st s r -> digit_range s f -> num_st s (set_whole r f) /\ has_number (set_whole r f).
Proof. intros [] H. split; [constructor; auto|left; discriminate]. Qed.
Lemma empty_range s n : pos_ok s n -> digit_range s (n, n).
Proof.
  intros [H _]. exists []. split; [|apply digit_string_nil]. unfold range_slice; cbn [fst snd].
  rewrite slice_is by lia. now rewrite Nat.sub_diag.
Qed.

Lemma inv_prev_pos_ok s n b x : inv s n b -> cur b = Some x -> 0 <= x <= 127 ->
  exists p, sub_usize (pos (advance b)) 1 = Ok p /\ pos_ok s p.
Proof.
  intros Hi Hc Hx. exists (pos b). split; [|exact (inv_pos_ok _ _ _ Hi)].
  unfold sub_usize, advance; cbn [pos]. destruct (Nat.leb_spec 1 (pos b + 1)); [|lia]. f_equal. lia.
Qed.

Lemma hoare_fraction s n b r dis : inv s n b -> num_st s r -> (has_number r \/ cur b = Some 46) ->
  hoare s (parse_number_fraction b r dis)
    (fun x => let '(b', r', go) := x in inv s n b' /\ num_st s r' /\ has_number r' /\
       (go = false -> cur b' = None) /\ (cur b = Some 46 -> inv s (S n) b')).
Proof.
  intros Hi Hr Hn. unfold parse_number_fraction. destruct (cur b) as [x|] eqn:Ec.
  - destruct ((x =? 46) && negb dis) eqn:E1.
    + apply andb_true_iff in E1. destruct E1 as [E1 _]. apply Z.eqb_eq in E1. subst x.
      pose proof (inv_advance _ _ _ _ Hi Ec ltac:(lia)) as Ha.
      destruct (inv_prev_pos_ok _ _ _ _ Hi Ec ltac:(lia)) as (p & Hp & Pp).
      pose proof (inv_pos_ok _ _ _ Ha) as Pa.
      destruct (cur (advance b)) as [y|] eqn:Ey.
      * destruct (is_digit y) eqn:Ed.
        -- eapply hoare_bind; [apply (hoare_parse_fract _ _ _ _ Ha Ey Ed)|]. intros [b2 f] [I2 D2]. cbn [fst snd] in *.
           cbn [hoare]. destruct (set_fract_num _ _ _ Hr D2) as [S1 S2].
           repeat split; auto; try (apply S1); try discriminate; try (apply (inv_weaken _ _ _ _ I2); lia).
           intros _. apply (inv_weaken _ _ _ _ I2). lia.
        -- destruct (r_whole r) as [w|] eqn:Ew.
           ++ cbn [hoare]. destruct (set_fract_num _ _ _ Hr (empty_range _ _ Pa)) as [S1 S2].
              repeat split; auto; try (apply S1); try discriminate; try (apply (inv_weaken _ _ _ _ Ha); lia).
           ++ rewrite Hp. cbn [bind hoare err_ok]. exact Pp.
      * destruct (r_whole r) as [w|] eqn:Ew.
        -- cbn [hoare]. destruct (set_fract_num _ _ _ Hr (empty_range _ _ Pa)) as [S1 S2].
           repeat split; auto; try (apply S1); try discriminate; try (apply (inv_weaken _ _ _ _ Ha); lia).
        -- rewrite Hp. cbn [bind hoare err_ok]. exact Pp.
    + destruct (Z.eqb_spec x 46) as [->|N].
      * cbn [hoare err_ok]. exact (inv_pos_ok _ _ _ Hi).
      * cbn [hoare]. destruct Hn as [Hn|Hn]; [|congruence]. repeat split; auto; try (apply Hr); try discriminate.
        congruence.
  - cbn [hoare]. destruct Hn as [Hn|Hn]; [|congruence]. repeat split; auto; try (apply Hr). discriminate.
Qed.

Lemma hoare_exponent_loop s fuel : forall n is_neg e b, inv s n b -> is_i16 e = true ->
  (length s - pos b < fuel)%nat ->
  hoare s (exponent_loop fuel is_neg e b) (fun x => inv s (pos b) (fst x) /\ is_i16 (snd x) = true).
Proof.
  induction fuel as [|f IH]; intros n is_neg e b Hi He L; [lia|]. cbn [exponent_loop].
  destruct (cur b) as [x|] eqn:Ec.
  - fold (is_digit_wrapping x). rewrite is_digit_wrapping_spec.
    2:{ destruct Hi as [pre post buf H1 H2 H3 H4]. destruct post as [|y post]; [discriminate|].
        cbn in Ec. injection Ec as ->. apply (utf8_bytes _ H2). now left. }
    destruct (is_digit x) eqn:Ed.
    + pose proof (inv_advance _ _ _ _ (inv_self _ _ _ Hi) Ec (is_digit_ascii _ Ed)) as Ha.
      assert (G : forall e', is_i16 e' = true ->
        hoare s (exponent_loop f is_neg e' (advance b)) (fun x => inv s (pos b) (fst x) /\ is_i16 (snd x) = true)).
      { intros e' He'. eapply hoare_weaken; [apply (IH _ is_neg e' _ Ha He')|].
        - pose proof (inv_pos_ok _ _ _ Ha) as [P _]. pose proof (inv_le _ _ _ Ha). lia.
        - intros [b2 e2] [I1 I2]. cbn [fst snd] in *. split; [|assumption]. apply (inv_weaken _ _ _ _ I1).
          pose proof (inv_le _ _ _ Ha). lia. }
      destruct is_neg.
      * destruct (chk_spec is_i16 (e * 10)) as [[G1 E1]|[G1 E1]]; rewrite E1; cbn [obind]; [|exact I].
        destruct (chk_spec is_i16 (e * 10 - wrap_u8 (x - 48))) as [[G2 E2]|[G2 E2]]; rewrite E2; [|exact I].
        now apply G.
      * destruct (chk_spec is_i16 (e * 10)) as [[G1 E1]|[G1 E1]]; rewrite E1; cbn [obind]; [|exact I].
        destruct (chk_spec is_i16 (e * 10 + wrap_u8 (x - 48))) as [[G2 E2]|[G2 E2]]; rewrite E2; [|exact I].
        now apply G.
    + cbn [hoare fst snd]. split; [exact (inv_self _ _ _ Hi)|assumption].
  - cbn [hoare fst snd]. split; [exact (inv_self _ _ _ Hi)|assumption].
Qed.

Lemma hoare_exponent s n b : inv s n b ->
  hoare s (parse_exponent b) (fun x => inv s n (fst x) /\ is_i16 (snd x) = true).
Proof.
  intros Hi. unfold parse_exponent.
  destruct (cur b) as [y|] eqn:Ey.
  2:{ unfold parse_sign_is_negative. rewrite Ey. cbn [bind hoare err_ok]. exact (inv_pos_ok _ _ _ Hi). }
  eapply hoare_bind; [apply (hoare_sign s n b Hi); congruence|].
  intros [b1 o] (H1 & _ & _). cbn [fst snd] in *.
  eapply hoare_bind; [apply (hoare_exponent_loop s (loop_fuel b1) n (neg_or_default o) 0 b1 H1 eq_refl)|].
  { unfold loop_fuel. rewrite (inv_input _ _ _ H1). lia. }
  intros [b2 e] [I2 I3]. cbn [fst snd] in *.
  unfold sub_usize. pose proof (inv_le _ _ _ I2) as L. pose proof (inv_le _ _ _ H1) as L1.
  destruct (Nat.leb_spec (pos b1) (pos b2)); [|lia]. cbn [bind].
  destruct (0 <? pos b2 - pos b1)%nat.
  - cbn [hoare fst snd]. split; [|assumption]. apply (inv_weaken _ _ _ _ I2). lia.
  - destruct (is_end_of_input b2); cbn [hoare err_ok]; exact (inv_pos_ok _ _ _ I2).
Qed.

Lemma eq_nocase_ascii x y : eq_nocase x y = true -> 0 <= y <= 127 -> 0 <= x <= 127.
Proof. unfold eq_nocase. rewrite Z.eqb_eq. intros H%to_lower_ascii. lia. Qed.

Lemma hoare_number_exponent s n b r dis : inv s n b -> num_st s r -> has_number r ->
  hoare s (parse_number_exponent b r dis)
    (fun x => let '(b', r', go) := x in inv s n b' /\ num_st s r' /\ has_number r' /\ (go = false -> cur b' = None)).
Proof.
  intros Hi Hr Hn. unfold parse_number_exponent. destruct (cur b) as [x|] eqn:Ec.
  - destruct (eq_nocase x 101) eqn:Ee; cbn [andb].
    + destruct (negb dis).
      * pose proof (inv_advance _ _ _ _ Hi Ec (eq_nocase_ascii _ _ Ee ltac:(lia))) as Ha.
        eapply hoare_bind; [apply (hoare_exponent _ _ _ Ha)|]. intros [b2 e] [I2 E2]. cbn [fst snd hoare] in *.
        split; [apply (inv_weaken _ _ _ _ I2); lia|]. split; [destruct Hr; constructor; auto|].
        split; [exact Hn|discriminate].
      * cbn [hoare err_ok]. exact (inv_pos_ok _ _ _ Hi).
    + cbn [hoare]. repeat split; auto; try (apply Hr). discriminate.
  - cbn [hoare]. repeat split; auto; apply Hr.
Qed.

Lemma hoare_number_delimiter s n b o : (forall d, o = Some d -> ascii_delim d) -> inv s n b ->
  hoare s (parse_number_delimiter b o) (fun x => inv s n (fst x) /\ (snd x = false -> cur (fst x) = None)).
Proof.
  intros Hd Hi. unfold parse_number_delimiter. destruct (cur b) as [x|] eqn:Ec.
  - destruct o as [d|]; cbn [hoare fst snd]; [|split; [assumption|discriminate]].
    destruct (d x) eqn:Ed; [|cbn [hoare fst snd]; split; [assumption|discriminate]].
    eapply hoare_bind; [apply (hoare_try_consume_delimiter _ _ _ _ _ (Hd d eq_refl) Hi Ec Ed)|].
    intros b2 [I2 _]. cbn [hoare fst snd]. split; [|discriminate]. apply (inv_weaken _ _ _ _ I2). lia.
  - cbn [hoare fst snd]. auto.
Qed.

Lemma pos_ok_inf s n b : inv s n b -> next_is_ignore_ascii_case b (%"inf") = true ->
  exists p, sub_usize (pos (advance_by b 3)) 3 = Ok p /\ pos_ok s p.
Proof.
  intros Hi _. exists (pos b). split; [|exact (inv_pos_ok _ _ _ Hi)]. unfold advance_by, sub_usize; cbn [pos].
  destruct (Nat.leb_spec 3 (pos b + 3)); [|lia]. f_equal. lia.
Qed.

(** ** the template *)
Section Template.
Context {O : Type} (T : template O) (c : config) (tu : units_like) (kw : option units_like) (nums : option numbers_like).
Context (s : str) (out_ok : nat -> O -> Prop).
Hypothesis out_mono : forall n m o, (m <= n)%nat -> out_ok n o -> out_ok m o.

(** a unit found by parse_time_unit *)
Definition found_unit (u : time_unit) (m : multiplier) : Prop :=
  exists id m0, u_get tu id = Some (u, m0) /\ (m = m0 \/ (c_allow_ago c = true /\ m = mul_saturating_neg m0)).

Record template_ok : Prop := TemplateOk {
  T_make : forall n b r, inv s n b -> cur b = None -> good r -> out_ok n (t_make_output T b r);
  T_inf : forall n b r, inv s (n + 3) b -> (exists p, sub_usize (pos b) 3 = Ok p /\ pos_ok s p) -> fresh s r ->
            hoare s (t_parse_infinity_remainder T b r c) (out_ok (S n));
  T_kw : forall n b, inv s n b -> cur b <> None ->
            hoare s (t_parse_keyword T b kw c)
              (fun x => match snd x with
                        | Some (u, m) => inv s (S n) (fst x) /\ unit_fits u m
                        | None => inv s n (fst x) /\ cur (fst x) <> None
                        end);
  T_tu : forall n b, inv s n b -> cur b <> None ->
            hoare s (t_parse_time_unit T b c tu)
              (fun x => match snd x with
                        | Some (u, m) => inv s (S n) (fst x) /\ found_unit u m
                        | None => inv s n (fst x) /\ inv s n (reset (fst x) (pos b))
                        end);
  T_ntu : forall n b r, inv s n b -> num_st s r -> has_number r ->
            hoare s (t_parse_number_time_unit T b r c tu)
              (fun x => let '(b', r', go) := x in inv s n b' /\ good r' /\ (go = false -> cur b' = None));
  T_fin : forall n b r, inv s n b -> good r -> hoare s (t_finalize T b r c) (out_ok n)
}.

Hypothesis HT : template_ok.
Hypothesis HE : env_ok c tu kw nums.

Lemma hoare_template_number n m b r : inv s n b -> num_st s r -> (has_number r \/ cur b = Some 46) ->
  (m = n \/ (cur b = Some 46 /\ m = S n)) ->
  hoare s (template_number T b r c tu) (out_ok m).
Proof.
  intros Hi Hr Hn Hm. unfold template_number.
  eapply hoare_bind; [apply (hoare_fraction s n b r (c_disable_fraction c) Hi Hr Hn)|].
  intros [[b1 r1] go1] (I0 & N1 & H1 & G1 & D1).
  assert (I1 : inv s m b1) by (destruct Hm as [->|[? ->]]; auto).
  destruct go1; cbn [negb].
  2:{ cbn [hoare]. apply (T_make HT); [assumption|auto|]. now apply (num_st_good s). }
  eapply hoare_bind; [apply (hoare_number_exponent s m b1 r1 (c_disable_exponent c) I1 N1 H1)|].
  intros [[b2 r2] go2] (I2 & N2 & H2 & G2). destruct go2; cbn [negb].
  2:{ cbn [hoare]. apply (T_make HT); [assumption|auto|]. now apply (num_st_good s). }
  eapply hoare_bind; [apply (hoare_number_delimiter s m b2)|].
  { intros d. destruct (c_allow_time_unit_delimiter c); [|discriminate]. intros [= <-]. apply HE. }
  { assumption. }
  intros [b3 go3] (I3 & G3). cbn [fst snd] in *. destruct go3; cbn [negb].
  2:{ cbn [hoare]. apply (T_make HT); [assumption|auto|]. now apply (num_st_good s). }
  eapply hoare_bind; [apply (T_ntu HT m b3 r2 I3 N2 H2)|].
  intros [[b4 r4] go4] (I4 & GR & G4). destruct go4; cbn [negb].
  2:{ cbn [hoare]. apply (T_make HT); auto. }
  apply (T_fin HT m b4 r4 I4 GR).
Qed.

Lemma hoare_parse_numeral n b : inv s n b ->
  hoare s (parse_numeral b nums c)
    (fun x => match snd x with
              | Some (id, m) => inv s (S n) (fst x) /\ cur (fst x) <> None /\ exists f, nums = Some f /\ f id = Some m
              | None => inv s n (fst x)
              end).
Proof.
  intros Hi. unfold parse_numeral. destruct nums as [f|] eqn:En; [|exact Hi].
  pose proof (env_inner _ _ _ _ HE) as Hd.
  eapply hoare_bind; [apply (hoare_buffered s n _ b Hd Hi)|].
  intros [b1 w] (I1 & U1 & C1 & R1 & P1). cbn [fst snd] in *.
  destruct (is_empty w) eqn:Ew.
  { cbn [hoare fst snd]. pose proof (inv_le _ _ _ Hi). apply (inv_weaken _ _ _ _ I1). lia. }
  unfold str_unchecked. rewrite U1. cbn [bind].
  destruct (f w) as [m|] eqn:Ef; [|exact R1].
  destruct (cur b1) as [x|] eqn:Ec; [|exact R1].
  rewrite C1.
  eapply hoare_bind; [apply (hoare_try_consume_delimiter _ _ _ _ _ Hd I1 Ec C1)|].
  intros b2 [I2 C2]. cbn [hoare fst snd]. split; [|split; [assumption|eauto]].
  pose proof (inv_le _ _ _ Hi). apply (inv_weaken _ _ _ _ I2). lia.
Qed.

Lemma get_remainder_str_inv n b : inv s n b ->
  exists m, get_remainder_str b = Ok m /\ get_remainder_str_unchecked b = Ok m /\ exists pre, s = pre ++ m.
Proof.
  intros [pre post buf H1 H2 H3 H4]. exists post. unfold get_remainder_str, get_remainder_str_unchecked, str_unchecked.
  rewrite get_remainder_at. cbn [bind]. rewrite H2. eauto.
Qed.

Lemma found_unit_fits u m : found_unit u m -> unit_fits u m.
Proof.
  intros (id & m0 & H & [->|[_ ->]]).
  - exact (env_units _ _ _ _ HE _ _ _ H).
  - apply fits_saturating_neg. exact (env_units _ _ _ _ HE _ _ _ H).
Qed.

Lemma hoare_template_numeral n b r : inv s n b -> fresh s r ->
  hoare s (template_numeral T b r c tu nums) (out_ok (S n)).
Proof.
  intros Hi Hr. unfold template_numeral.
  eapply hoare_bind; [apply (hoare_parse_numeral n b Hi)|]. intros [b1 [[id num]|]]; cbn [fst snd].
  - intros (I1 & C1 & f & Ef & Fid).
    eapply hoare_bind; [apply (T_tu HT (S n) b1 I1 C1)|]. intros [b2 [[u m]|]]; cbn [fst snd].
    + intros [I2 FU]. eapply hoare_weaken; [apply (T_fin HT (S (S n)) b2)|].
      * assumption.
      * destruct FU as (id' & m0 & Hg & Hm). apply (fresh_numeral_good s); [assumption|].
        destruct (env_numerals _ _ _ _ HE _ _ _ Ef Fid _ _ _ Hg) as [F1 F2].
        destruct Hm as [->|[Ha ->]]; auto.
      * intros o Ho. revert Ho. apply out_mono. lia.
    + intros [I2 _]. destruct (u_is_empty tu); cbn [hoare err_ok]; exact (inv_pos_ok _ _ _ I2).
  - intros I1. destruct (get_remainder_str_inv n b1 I1) as (m & -> & _ & P). cbn [bind hoare err_ok]. exact P.
Qed.

Lemma hoare_template_word n b r : inv s n b -> cur b <> None -> fresh s r ->
  hoare s (template_word T b r c tu kw nums) (out_ok (S n)).
Proof.
  intros Hi Hc Hr. unfold template_word.
  eapply hoare_bind; [apply (T_kw HT n b Hi Hc)|]. intros [b1 [[u m]|]]; cbn [fst snd].
  - intros [I1 FU]. apply (T_fin HT (S n) b1); [assumption|]. now apply (fresh_unit_good s).
  - intros [I1 C1]. destruct (c_number_is_optional c); [|now apply hoare_template_numeral].
    eapply hoare_bind; [apply (T_tu HT n b1 I1 C1)|]. intros [b2 [[u m]|]]; cbn [fst snd].
    + intros [I2 FU]. apply (T_fin HT (S n) b2); [assumption|]. apply (fresh_unit_good s); [assumption|].
      now apply found_unit_fits.
    + intros [I2 R2]. now apply hoare_template_numeral.
Qed.

Lemma fresh_init b n : inv s n b -> fresh s (repr_init c b).
Proof.
  intros Hi. split; [|auto]. constructor; try reflexivity; try exact I. exact (inv_input _ _ _ Hi).
Qed.

Lemma hoare_template_parse n b : inv s n b -> (cur b = None -> s = []) ->
  hoare s (template_parse T b c tu kw nums) (out_ok (S n)).
Proof.
  intros Hi He. unfold template_parse. destruct (cur b) as [x0|] eqn:E0; [|exact (He eq_refl)].
  eapply hoare_bind; [apply (hoare_number_sign s n b (repr_init c b) c (env_inner _ _ _ _ HE) Hi)|].
  { congruence. } { exact (fresh_init b n Hi). }
  intros [b1 r1] (I1 & F1 & C1). cbn [fst snd] in *. clear E0 He x0 Hi b.
  destruct (cur b1) as [x|] eqn:Ec; [|congruence].
  destruct (is_digit x) eqn:Ed.
  { eapply hoare_bind; [apply (hoare_parse_whole s n b1 x I1 Ec Ed)|]. intros [b2 w] [I2 D2]. cbn [fst snd] in *.
    destruct F1 as (N1 & _ & _). destruct (set_whole_num _ _ _ N1 D2) as [S1 S2].
    apply (hoare_template_number (S n) (S n)); auto. }
  destruct (Z.eqb_spec x 46) as [->|N].
  { destruct F1 as (N1 & _ & _). apply (hoare_template_number n (S n)); auto. }
  destruct (negb (c_disable_infinity c) && next_is_ignore_ascii_case b1 (%"inf")) eqn:Einf.
  { apply andb_true_iff in Einf. destruct Einf as [_ Einf].
    apply (T_inf HT); [|now apply (pos_ok_inf s n)|assumption]. exact (inv_advance_word _ _ _ _ I1 Einf eq_refl). }
  apply hoare_template_word; auto. congruence.
Qed.
End Template.

(** ** ReprParserSingle *)
Lemma hoare_check_end s n b : inv s n b -> hoare s (check_end_of_input b) (fun _ => cur b = None).
Proof.
  intros Hi. pose proof (inv_pos_ok _ _ _ Hi) as P. destruct Hi as [pre post buf H1 H2 H3 H4].
  rewrite check_end_at by assumption. destruct post; cbn [hoare]; [reflexivity|exact P].
Qed.

Lemma hoare_infinity_single s : forall l n b, utf8 l = true -> (forall x, In x l -> 0 <= x <= 127) -> inv s n b ->
  hoare s (infinity_loop_single l b) (fun b' => inv s n b').
Proof.
  induction l as [|e l IH]; intros n b Hu Hl Hi; cbn [infinity_loop_single]; [exact Hi|].
  destruct (cur b) as [x|] eqn:Ec; [|exact (inv_pos_ok _ _ _ Hi)].
  destruct (eq_nocase x e) eqn:Ee; [|exact (inv_pos_ok _ _ _ Hi)].
  pose proof (eq_nocase_ascii _ _ Ee (Hl e (or_introl eq_refl))) as Hx.
  pose proof (inv_advance _ _ _ _ Hi Ec Hx) as Ha.
  rewrite utf8_cons_ascii in Hu by (apply Hl; now left).
  apply IH; auto. { intros y Hy. apply Hl. now right. } apply (inv_weaken _ _ _ _ Ha). lia.
Qed.

Lemma inv_cur_reset s n b b' : inv s n b -> inv s n b' -> cur (reset b' (pos b)) = cur b.
Proof.
  intros [pre post buf H1 H2 H3 H4] [pre' post' buf' H1' H2' H3' H4'].
  cbn [reset at_ cur pos input]. rewrite <- H1', H1. apply nth_error_app_hd.
Qed.

Lemma hoare_single_time_unit c tu kw nums s n b : env_ok c tu kw nums -> inv s n b -> cur b <> None ->
  hoare s (single_time_unit b c tu)
              (fun x => match snd x with
                        | Some (u, m) => inv s (S n) (fst x) /\ found_unit c tu u m
                        | None => inv s n (fst x) /\ inv s n (reset (fst x) (pos b))
                        end).
Proof.
  intros HE Hi Hc. unfold single_time_unit.
    assert (Eb : is_end_of_input b = false) by (unfold is_end_of_input; destruct (cur b); congruence).
    rewrite Eb. cbn [negb debug_assert bind].
    destruct (c_allow_ago c) eqn:Eago.
    + pose proof (env_inner _ _ _ _ HE) as Hd. pose proof (inv_le _ _ _ Hi) as Hle.
      eapply hoare_bind; [apply (hoare_advance_to s n _ b Hd Hi)|].
      intros [b1 w] (I1 & U1 & C1 & R1 & P1). cbn [fst snd] in *.
      unfold str_unchecked. rewrite U1. cbn [bind]. destruct (is_empty w) eqn:Ew.
      { cbn [hoare fst snd]. split; [apply (inv_weaken _ _ _ _ I1); lia|exact R1]. }
      assert (Lw : (0 < length w)%nat) by (destruct w; [discriminate|cbn [length]; lia]).
      assert (RR : forall b2, input b2 = input b1 -> buffer b2 = buffer b1 -> reset b2 (pos b) = reset b1 (pos b)).
      { intros b2 E1 E2. unfold reset. now rewrite E1, E2. }
      assert (RS : reset (reset b1 (pos b)) (pos b) = reset b1 (pos b)) by reflexivity.
      destruct (u_get tu w) as [[u m]|] eqn:Eg; [|cbn [hoare fst snd]; now rewrite RS].
      destruct (cur b1) as [x|] eqn:Ec.
      * eapply hoare_bind; [apply (hoare_try_consume_delimiter _ _ _ _ _ Hd I1 Ec C1)|]. intros b2 [I2 C2].
        destruct (next_is_ignore_ascii_case b2 (%"ago")) eqn:En; cbn [hoare fst snd].
        -- pose proof (inv_advance_word _ _ _ _ I2 En eq_refl) as I3. cbn [length bytes_of] in I3.
           split; [apply (inv_weaken _ _ _ _ I3); lia|]. exists w, m. auto.
        -- assert (R2 : inv s n (reset b2 (pos b))).
           { clear - I2 Hi. destruct Hi as [pre post buf H1 H2 H3 H4]. destruct I2 as [pre' post' buf' H1' H2' H3' H4'].
             cbn [at_ pos]. unfold reset; cbn [at_ input buffer]. rewrite <- H1', H1, nth_error_app_hd.
             change (inv (pre ++ post) n (at_ pre post buf')). constructor; auto; congruence. }
           split; exact R2.
      * cbn [hoare fst snd]. split; [apply (inv_weaken _ _ _ _ I1); lia|]. exists w, m. auto.
    + destruct Hi as [pre post buf H1 H2 H3 H4].
      unfold get_remainder_str_unchecked, str_unchecked. rewrite get_remainder_at. cbn [bind]. rewrite H2. cbn [bind].
      destruct (u_get tu post) as [[u m]|] eqn:Eg; cbn [hoare fst snd].
      * rewrite finish_at. split.
        -- constructor; auto; [now rewrite app_nil_r|]. rewrite app_length. destruct post; [now contradiction Hc|cbn [length]; lia].
        -- exists post, m. auto.
      * rewrite reset_at0 by reflexivity. split; constructor; auto.
Qed.

Lemma single_ok c tu kw nums s : env_ok c tu kw nums ->
  template_ok single c tu kw s (fun _ r => good r).
Proof.
  intros HE. constructor.
  - auto.
  - intros n b r Hi _ Hr. cbn [t_parse_infinity_remainder single]. unfold single_infinity_remainder.
    destruct (is_end_of_input b); [exact (infinite_good r)|].
    eapply hoare_bind; [apply (hoare_infinity_single s (%"inity") (n + 3) b eq_refl)|].
    { cbn. intros x H. repeat (destruct H as [<-|H]; [lia|]). destruct H. }
    { exact Hi. }
    intros b1 I1. eapply hoare_bind; [apply (hoare_check_end _ _ _ I1)|]. intros [] _. exact (infinite_good r).
  - intros n b Hi Hc. cbn [t_parse_keyword single]. unfold single_keyword.
    destruct kw as [k|]; [|cbn [hoare fst snd]; auto].
    destruct Hi as [pre post buf H1 H2 H3 H4].
    unfold get_remainder_str_unchecked, str_unchecked. rewrite get_remainder_at. cbn [bind]. rewrite H2. cbn [bind].
    destruct (u_get k post) as [[u m]|] eqn:Eg; cbn [hoare fst snd].
    + rewrite finish_at. split.
      * constructor; auto; [now rewrite app_nil_r|]. rewrite app_length. destruct post; [now contradiction Hc|cbn [length]; lia].
      * exact (env_keywords _ _ _ _ HE k eq_refl _ _ _ Eg).
    + split; [constructor; auto|exact Hc].
  - intros n b Hi Hc. now apply (hoare_single_time_unit c tu kw nums).
  - intros n b r Hi Hr Hn. cbn [t_parse_number_time_unit single]. unfold single_number_time_unit.
    destruct (cur b) as [x|] eqn:Ec.
    + destruct (get_remainder_str_inv s n b Hi) as (m & E1 & E2 & P).
      destruct (u_is_empty tu); cbn [negb].
      * rewrite E2. cbn [bind hoare err_ok]. exact (inv_pos_ok _ _ _ Hi).
      * eapply hoare_bind; [apply (hoare_single_time_unit c tu kw nums s n b HE Hi); congruence|].
        intros [b1 [[u m1]|]]; cbn [fst snd].
        -- intros [I1 FU]. cbn [hoare]. split; [apply (inv_weaken _ _ _ _ I1); lia|]. split; [|discriminate].
           apply (num_st_unit_good s); auto. now apply (found_unit_fits c tu kw nums).
        -- intros [I1 _]. destruct (get_remainder_str_inv s n b1 I1) as (m1 & E3 & _ & _). rewrite E3.
           cbn [bind hoare err_ok]. exact (inv_pos_ok _ _ _ I1).
    + cbn [hoare]. split; [assumption|]. split; [now apply (num_st_good s)|auto].
  - intros n b r Hi Hr. cbn [t_finalize single]. unfold single_finalize.
    eapply hoare_bind; [apply (hoare_check_end _ _ _ Hi)|]. intros [] _. exact Hr.
Qed.

(** ** ReprParserMultiple *)
Definition multi_out (s : str) (n : nat) (o : multi_output) : Prop :=
  good (fst o) /\ match snd o with Some b => inv s n b /\ cur b <> None | None => True end.

Lemma multi_out_mono s n m o : (m <= n)%nat -> multi_out s n o -> multi_out s m o.
Proof.
  intros L [H1 H2]. split; [assumption|]. destruct (snd o); [|exact I]. destruct H2. split; [|assumption].
  eapply inv_weaken; eauto.
Qed.

Lemma is_next_duration_ascii x : is_next_duration x = true -> 0 <= x <= 127.
Proof. unfold is_next_duration, is_digit. lia. Qed.

Section Multi.
Context (c : config) (tu : units_like) (kw : option units_like) (nums : option numbers_like) (s : str).
Hypothesis HE : env_ok c tu kw nums.

Lemma conj_utf8 w : In w (conjunctions_or_default c) -> utf8 w = true.
Proof.
  unfold conjunctions_or_default. destruct (c_conjunctions c) as [l|] eqn:E; [|intros []].
  exact (env_conjunctions _ _ _ _ HE l w E).
Qed.

Lemma hoare_conjunctions start : forall ws n b, (forall w, In w ws -> utf8 w = true) -> pos_ok s start ->
  inv s n b -> cur b <> None ->
  hoare s (conjunction_loop (c_outer_delimiter c) start ws b) (fun b' => inv s n b' /\ cur b' <> None).
Proof.
  pose proof (env_outer _ _ _ _ HE) as Hd.
  induction ws as [|w ws IH]; intros n b Hw Hp Hi Hc; cbn [conjunction_loop]; [cbn [hoare]; auto|].
  destruct (next_is_ignore_ascii_case b w) eqn:En.
  - pose proof (inv_advance_word _ _ _ _ Hi En (Hw w (or_introl eq_refl))) as I1.
    destruct (cur (advance_by b (length w))) as [x|] eqn:Ec; [|exact Hp].
    destruct (c_outer_delimiter c x) eqn:Ed.
    + eapply hoare_weaken; [apply (hoare_try_consume_delimiter _ _ _ _ _ Hd I1 Ec Ed)|].
      intros b2 [I2 C2]. split; [|assumption]. apply (inv_weaken _ _ _ _ I2). lia.
    + destruct (is_next_duration x); cbn [hoare err_ok]; [|exact (inv_pos_ok _ _ _ I1)].
      split; [apply (inv_weaken _ _ _ _ I1); lia|congruence].
  - apply IH; auto. intros v Hv. apply Hw. now right.
Qed.

Lemma hoare_connect n b x : inv s n b -> cur b = Some x -> c_outer_delimiter c x = true ->
  hoare s (connect c b) (fun b' => inv s n b' /\ cur b' <> None).
Proof.
  intros Hi Hc Hx. unfold connect, try_consume_connection. rewrite Hc. cbn [unwrap bind]. rewrite Hx. cbn [debug_assert bind].
  eapply hoare_bind; [apply (hoare_try_consume_delimiter _ _ _ _ _ (env_outer _ _ _ _ HE) Hi Hc Hx)|].
  intros b1 [I1 C1]. apply hoare_conjunctions; auto.
  - apply conj_utf8.
  - exact (inv_pos_ok _ _ _ I1).
  - apply (inv_weaken _ _ _ _ I1). lia.
Qed.

(** `if outer(x) then connect else stay` *)
Lemma hoare_maybe_connect n b : inv s n b ->
  hoare s (match cur b with Some x => if c_outer_delimiter c x then connect c b else Ok b | None => Ok b end)
    (fun b' => inv s n b').
Proof.
  intros Hi. destruct (cur b) as [x|] eqn:Ec; [|exact Hi].
  destruct (c_outer_delimiter c x) eqn:Ed; [|exact Hi].
  eapply hoare_weaken; [apply (hoare_connect n b x Hi Ec Ed)|]. intros b' [H _]; exact H.
Qed.

Lemma hoare_infinity_multi start w0 : forall l n b, utf8 l = true -> (forall x, In x l -> 0 <= x <= 127) -> inv s n b ->
  (exists p, sub_usize start 3 = Ok p /\ pos_ok s p) ->
  (exists w, slice s start (pos b) = Ok w /\ utf8 w = true) -> (w0 <= pos b)%nat ->
  hoare s (infinity_loop_multi start l b) (fun b' => inv s n b').
Proof.
  induction l as [|e l IH]; intros n b Hu Hl Hi Hp Hw Hw0; cbn [infinity_loop_multi]; [exact Hi|].
  destruct (cur b) as [x|] eqn:Ec.
  - destruct (eq_nocase x e) eqn:Ee; [|exact (inv_pos_ok _ _ _ Hi)].
    pose proof (eq_nocase_ascii _ _ Ee (Hl e (or_introl eq_refl))) as Hx.
    pose proof (inv_advance _ _ _ _ Hi Ec Hx) as Ha.
    rewrite utf8_cons_ascii in Hu by (apply Hl; now left).
    apply IH; auto.
    + intros y Hy. apply Hl. now right.
    + apply (inv_weaken _ _ _ _ Ha). lia.
    + destruct Hw as (w & Sw & Uw). exists (w ++ [x]). split.
      * destruct Hi as [pre post buf H1 H2 H3 H4]. destruct post as [|y post]; [discriminate|]. cbn in Ec. injection Ec as ->.
        rewrite advance_at. cbn [at_ pos] in *. apply slice_ok in Sw. destruct Sw as (L & -> & _).
        rewrite app_length. cbn [length]. subst s.
        rewrite slice_is by (rewrite !app_length in *; cbn [length] in *; lia). f_equal.
        assert (Es : skipn start (pre ++ x :: post) = skipn start pre ++ x :: post).
        { rewrite skipn_app. replace (start - length pre)%nat with 0%nat by lia. reflexivity. }
        rewrite Es. rewrite !firstn_app. rewrite !skipn_length.
        replace (length pre + 1 - start - (length pre - start))%nat with 1%nat by lia.
        replace (length pre - start - (length pre - start))%nat with 0%nat by lia.
        cbn [firstn]. rewrite app_nil_r. f_equal.
        rewrite !firstn_all2 by (rewrite skipn_length; lia). reflexivity.
      * rewrite utf8_app by assumption. rewrite utf8_cons_ascii; auto.
    + unfold advance; cbn [pos]. lia.
  - destruct Hp as (p & -> & Pp). cbn [bind]. unfold get_current_str_unwrap. rewrite (inv_input _ _ _ Hi).
    destruct Hw as (w & -> & Uw). cbn [bind]. rewrite Uw. cbn [bind hoare err_ok]. exact Pp.
Qed.

Lemma hoare_multi_keyword n b : inv s n b -> cur b <> None ->
  hoare s (multi_keyword b kw c)
    (fun x => match snd x with
              | Some (u, m) => inv s (S n) (fst x) /\ unit_fits u m
              | None => inv s n (fst x) /\ cur (fst x) <> None
              end).
Proof.
  intros Hi Hc. unfold multi_keyword. case_eq kw; [intros k Ek|intros _; cbn [hoare fst snd]; auto].
  assert (Hd : ascii_delim (fun x => c_outer_delimiter c x || is_next_duration x)).
  { intros x Hx. apply orb_true_iff in Hx. destruct Hx as [Hx|Hx]; [now apply (env_outer _ _ _ _ HE)|now apply is_next_duration_ascii]. }
  pose proof (inv_le _ _ _ Hi) as Hle.
  eapply hoare_bind; [apply (hoare_buffered s n _ b Hd Hi)|].
  intros [b1 w] (I1 & U1 & C1 & R1 & P1). cbn [fst snd] in *.
  destruct (is_empty w) eqn:Ew.
  { cbn [hoare fst snd]. split; [apply (inv_weaken _ _ _ _ I1); lia|].
    assert (w = []) by (destruct w; [reflexivity|discriminate]). subst w. cbn [length] in P1. rewrite Nat.add_0_r in P1.
    destruct Hi as [pre post buf H1 H2 H3 H4]. destruct I1 as [pre' post' buf' H1' H2' H3' H4']. cbn [at_ pos cur] in *.
    assert (post' = post); [|now subst].
    rewrite H1 in H1'. clear - P1 H1'. revert pre' P1 H1'. induction pre as [|x pre IH]; intros [|y pre'] P1 E; try discriminate; [now cbn in E|].
    cbn in E. injection E as _ E. apply (IH pre'); auto. }
  unfold str_unchecked. rewrite U1. cbn [bind].
  assert (Lw : (0 < length w)%nat) by (destruct w; [discriminate|cbn [length]; lia]).
  destruct (u_get k w) as [[u m]|] eqn:Eg.
  - eapply hoare_bind; [apply (hoare_maybe_connect _ b1 I1)|].
    intros b2 I2. cbn [hoare fst snd]. split; [apply (inv_weaken _ _ _ _ I2); lia|].
    exact (env_keywords _ _ _ _ HE k Ek _ _ _ Eg).
  - cbn [hoare fst snd]. split; [exact R1|]. rewrite (inv_cur_reset s 0 b b1).
    + exact Hc.
    + apply (inv_weaken _ _ _ _ Hi). lia.
    + apply (inv_weaken _ _ _ _ I1). lia.
Qed.

Lemma inv_reset_to n m b b' : inv s n b -> inv s m b' -> inv s n (reset b' (pos b)).
Proof.
  intros [pre post buf H1 H2 H3 H4] [pre' post' buf' H1' H2' H3' H4'].
  unfold reset; cbn [at_ input buffer pos]. rewrite <- H1', H1, nth_error_app_hd.
  change (inv (pre ++ post) n (at_ pre post buf')). constructor; auto; congruence.
Qed.

Lemma hoare_multi_time_unit n b : inv s n b -> cur b <> None ->
  hoare s (multi_time_unit b c tu)
    (fun x => match snd x with
              | Some (u, m) => inv s (S n) (fst x) /\ found_unit c tu u m
              | None => inv s n (fst x) /\ inv s n (reset (fst x) (pos b))
              end).
Proof.
  intros Hi Hc. unfold multi_time_unit.
  assert (Eb : is_end_of_input b = false) by (unfold is_end_of_input; destruct (cur b); congruence).
  rewrite Eb. cbn [negb debug_assert bind].
  pose proof (env_outer _ _ _ _ HE) as Ho. pose proof (env_inner _ _ _ _ HE) as Hin.
  pose proof (inv_le _ _ _ Hi) as Hle.
  eapply (hoare_bind s _ _ (fun x => exists d, collected s n d b x)).
  { destruct (c_allow_ago c).
    - eapply hoare_weaken; [apply (hoare_buffered s n _ b)|eauto]; [|assumption].
      intros x Hx. rewrite !orb_true_iff in Hx. destruct Hx as [[Hx|Hx]|Hx]; auto. now apply is_next_duration_ascii.
    - eapply hoare_weaken; [apply (hoare_buffered s n _ b)|eauto]; [|assumption].
      intros x Hx. rewrite !orb_true_iff in Hx. destruct Hx as [Hx|Hx]; auto. now apply is_next_duration_ascii. }
  intros [b1 w] (d & I1 & U1 & C1 & R1 & P1). cbn [fst snd] in *.
  destruct (is_empty w) eqn:Ew.
  { cbn [hoare fst snd]. split; [apply (inv_weaken _ _ _ _ I1); lia|exact R1]. }
  unfold str_unchecked. rewrite U1. cbn [bind].
  assert (Lw : (0 < length w)%nat) by (destruct w; [discriminate|cbn [length]; lia]).
  destruct (u_get tu w) as [[u m]|] eqn:Eg; [|cbn [hoare fst snd]; auto].
  eapply (hoare_bind s _ _ (fun y => inv s (pos b1) (fst y) /\ found_unit c tu u (snd y))).
  - pose proof (inv_self _ _ _ I1) as I1s.
    destruct (cur b1) as [x|] eqn:Ec; [|cbn [hoare fst snd]; split; [assumption|exists w, m; auto]].
    destruct (c_allow_ago c && c_inner_delimiter c x) eqn:Ea; [|cbn [hoare fst snd]; split; [assumption|exists w, m; auto]].
    apply andb_true_iff in Ea. destruct Ea as [Ea Ein].
    eapply hoare_bind; [apply (hoare_try_consume_delimiter _ _ _ _ _ Hin I1s Ec Ein)|]. intros b2 [I2 C2].
    assert (Res : forall b3 k, inv s k b3 -> inv s (pos b1) (reset b3 (pos b1))) by (intros; eapply inv_reset_to; eauto).
    destruct (next_is_ignore_ascii_case b2 (%"ago")) eqn:En.
    + pose proof (inv_advance_word _ _ _ _ I2 En eq_refl) as I3. cbn [length bytes_of] in I3.
      destruct (cur (advance_by b2 3)) as [y|] eqn:Ey.
      * destruct (c_outer_delimiter c y || is_next_duration y); cbn [hoare fst snd].
        -- split; [apply (inv_weaken _ _ _ _ I3); lia|exists w, m; auto].
        -- split; [eapply Res; eauto|exists w, m; auto].
      * cbn [hoare fst snd]. split; [apply (inv_weaken _ _ _ _ I3); lia|exists w, m; auto].
    + cbn [hoare fst snd]. split; [eapply Res; eauto|exists w, m; auto].
  - intros [b2 m2] [I2 FU]. cbn [fst snd] in *.
    eapply hoare_bind; [apply (hoare_maybe_connect _ b2 I2)|]. intros b3 I3. cbn [hoare fst snd].
    split; [apply (inv_weaken _ _ _ _ I3); lia|assumption].
Qed.

(** the scanner passed to parse_infinity_remainder follows the three letters "inf" *)
Lemma hoare_multi_infinity n b r : inv s n b ->
  (exists p, sub_usize (pos b) 3 = Ok p /\ pos_ok s p) ->
  hoare s (multi_infinity_remainder b r c) (multi_out s n).
Proof.
  intros Hi Hp. unfold multi_infinity_remainder.
  assert (Con : forall b1, inv s n b1 -> forall x, cur b1 = Some x -> c_outer_delimiter c x = true ->
     hoare s (let* b2 := connect c b1 in Ok (set_infinite r, Some b2)) (multi_out s n)).
  { intros b1 I1 x Ec Ed. eapply hoare_bind; [apply (hoare_connect n b1 x I1 Ec Ed)|]. intros b2 [I2 C2].
    cbn [hoare]. split; [apply infinite_good|]. cbn [snd]. auto. }
  assert (G : hoare s (let start := pos b in
    let* b := infinity_loop_multi start (%"inity") b in
    match cur b with
    | Some x =>
        if c_outer_delimiter c x then
          let* b := connect c b in Ok (set_infinite r, Some b)
        else Err (Syntax (pos b)
               (%"Error parsing infinity: Expected a delimiter but found '" ++ char_of_byte x ++ %"'"))
    | None => Ok (set_infinite r, None)
    end) (multi_out s n)).
  { cbv zeta. eapply hoare_bind.
    - apply (hoare_infinity_multi (pos b) 0 (%"inity") n b eq_refl); auto.
      + cbn. intros x H. repeat (destruct H as [<-|H]; [lia|]). destruct H.
      + exists []. split; [|reflexivity]. pose proof (inv_pos_ok _ _ _ Hi) as [P _].
        rewrite slice_is by lia. now rewrite Nat.sub_diag.
      + lia.
    - intros b1 I1. destruct (cur b1) as [x|] eqn:Ec.
      + destruct (c_outer_delimiter c x) eqn:Ed; [now apply (Con b1 I1 x)|]. exact (inv_pos_ok _ _ _ I1).
      + cbn [hoare]. split; [apply infinite_good|exact I]. }
  destruct (cur b) as [x|] eqn:Ec.
  - destruct (c_outer_delimiter c x) eqn:Ed; [now apply (Con b Hi x)|exact G].
  - cbn [hoare]. split; [apply infinite_good|exact I].
Qed.

Lemma multi_ok : template_ok multi c tu kw s (multi_out s).
Proof.
  constructor.
  - intros n b r Hi Hc Hg. cbn [t_make_output multi]. unfold multi_make_output. rewrite Hc. split; [exact Hg|exact I].
  - intros n b r Hi Hp Hr. cbn [t_parse_infinity_remainder multi].
    eapply hoare_weaken; [apply (hoare_multi_infinity (n + 3) b r Hi)|].
    + exact Hp.
    + intros o. apply multi_out_mono. lia.
  - intros n b Hi Hc. now apply hoare_multi_keyword.
  - intros n b Hi Hc. now apply hoare_multi_time_unit.
  - intros n b r Hi Hr Hn. cbn [t_parse_number_time_unit multi]. unfold multi_number_time_unit.
    destruct (cur b) as [x|] eqn:Ec.
    + destruct (u_is_empty tu); cbn [negb].
      * cbn [hoare]. split; [assumption|]. split; [now apply (num_st_good s)|discriminate].
      * eapply hoare_bind; [apply (hoare_multi_time_unit n b Hi); congruence|].
        intros [b1 [[u m1]|]]; cbn [fst snd].
        -- intros [I1 FU]. cbn [hoare]. split; [apply (inv_weaken _ _ _ _ I1); lia|]. split; [|discriminate].
           apply (num_st_unit_good s); auto. now apply (found_unit_fits c tu kw nums).
        -- intros [I1 _]. cbn [hoare]. split; [assumption|]. split; [now apply (num_st_good s)|discriminate].
    + cbn [hoare]. split; [assumption|]. split; [now apply (num_st_good s)|auto].
  - intros n b r Hi Hr. cbn [t_finalize multi]. unfold multi_finalize.
    destruct (cur b) as [x|] eqn:Ec; [|cbn [hoare]; split; [exact Hr|exact I]].
    destruct (c_outer_delimiter c x) eqn:Ed.
    + eapply hoare_bind; [apply (hoare_connect n b x Hi Ec Ed)|]. intros b1 [I1 C1]. cbn [hoare]. split; [exact Hr|]. cbn [snd]. auto.
    + cbn [hoare]. split; [exact Hr|]. cbn [snd]. split; [assumption|congruence].
Qed.
End Multi.


(** ** Parser *)
Lemma inv_new s : utf8 s = true -> inv s 0 (bytes_new s).
Proof. intros H. rewrite bytes_new_at. constructor; auto. exact I. Qed.

Definition result_ok (c : config) (d : duration) : Prop :=
  duration_ok d /\ (c_allow_negative c = false -> is_negative d = false).

Lemma hoare_good s r : good r -> hoare s (repr_parse r) duration_ok.
Proof. intros (d & -> & H). exact H. Qed.

Lemma saturating_add_pos a b c : saturating_add a b = Ok c -> is_negative a = false -> is_negative b = false ->
  is_negative c = false.
Proof.
  unfold saturating_add, checked_add, is_negative. intros H Ea Eb. rewrite Ea, Eb in H. cbn [bind] in H.
  destruct (std_checked_add _ _); injection H as <-; reflexivity.
Qed.

Lemma hoare_multiple_loop c tu kw nums s : env_ok c tu kw nums -> forall fuel n b d,
  inv s n b -> (cur b = None -> s = []) -> (length s - n < fuel)%nat -> result_ok c d ->
  hoare s (multiple_loop fuel c tu kw nums d b) (result_ok c).
Proof.
  intros HE. induction fuel as [|f IH]; intros n b d Hi He L [Hd Hneg]; [lia|]. cbn [multiple_loop].
  eapply hoare_bind; [apply (hoare_template_parse multi c tu kw nums s (multi_out s) (fun n m o => multi_out_mono s n m o)
     (multi_ok c tu kw nums s HE) HE n b Hi He)|].
  intros [r mp] [Hg Hm]. cbn [fst snd] in *.
  eapply hoare_bind; [apply (hoare_good s r Hg)|]. intros p Hp.
  eapply (hoare_bind s _ _ (result_ok c)).
  - destruct (negb (c_allow_negative c) && is_negative p) eqn:E1; [exact I|].
    assert (Pp : result_ok c p).
    { split; [assumption|]. intros Hn. rewrite Hn in E1. exact E1. }
    destruct (is_zero p); [split; assumption|]. destruct (is_zero d); [exact Pp|].
    destruct (saturating_add_spec d p Hd Hp) as (x & E & Ox & Nx). rewrite E. cbn [hoare]. split; [assumption|].
    intros Hn. specialize (Hneg Hn). destruct Pp as [_ Pn]. specialize (Pn Hn).
    apply (saturating_add_pos d p x); auto.
  - intros d' Hd'. destruct mp as [b'|]; [|exact Hd']. destruct Hm as [I' C'].
    apply (IH (S n)); auto; [congruence|].
    pose proof (inv_pos_ok _ _ _ I') as [P _]. pose proof (inv_le _ _ _ I'). lia.
Qed.

Lemma ZERO_result c : result_ok c ZERO.
Proof. split; [apply ZERO_ok|reflexivity]. Qed.

Lemma bytes_new_end s : cur (bytes_new s) = None -> s = [].
Proof. destruct s; [reflexivity|discriminate]. Qed.

Theorem hoare_parse c tu kw nums s : env_ok c tu kw nums -> utf8 s = true ->
  hoare s (parse c s tu kw nums) (result_ok c).
Proof.
  intros HE Hu. pose proof (inv_new s Hu) as Hi. unfold parse. destruct (c_allow_multiple c).
  - unfold parse_multiple. apply (hoare_multiple_loop c tu kw nums s HE _ 0); auto.
    + apply bytes_new_end. + lia. + apply ZERO_result.
  - unfold parse_single. eapply hoare_bind.
    { apply (hoare_template_parse single c tu kw nums s (fun _ => good) (fun _ _ _ _ H => H) (single_ok c tu kw nums s HE) HE 0 _ Hi).
      apply bytes_new_end. }
    intros r Hg. eapply hoare_bind; [apply (hoare_good s r Hg)|]. intros d Hd.
    destruct (c_allow_negative c) eqn:En; cbn [negb andb].
    + cbn [hoare]. split; [assumption|congruence].
    + destruct (is_negative d) eqn:Ed; [exact I|]. cbn [hoare]. split; auto.
Qed.
