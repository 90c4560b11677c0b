(** * Proofs about the byte scanner: every method as an equation on (consumed, remaining) input *)
From Verif Require Import Prelude Config Bytes SpecNum NumProofs Utf8Proofs.

Definition hd_opt (l : str) : option byte := match l with [] => None | x :: _ => Some x end.
Definition buf_t : Type := option (nat * str * option byte).

(** a scanner which consumed [pre] and has [post] in front *)
Definition at_ (pre post : str) (buf : buf_t) : scanner := Scan (length pre) (hd_opt post) buf (pre ++ post).

Fixpoint take_while (p : byte -> bool) (l : str) : str :=
  match l with [] => [] | x :: l' => if p x then x :: take_while p l' else [] end.
Fixpoint drop_while (p : byte -> bool) (l : str) : str :=
  match l with [] => [] | x :: l' => if p x then drop_while p l' else l end.

Lemma take_drop_while p l : take_while p l ++ drop_while p l = l.
Proof. induction l as [|x l IH]; cbn; [reflexivity|]. destruct (p x); cbn; [now rewrite IH|reflexivity]. Qed.
Lemma take_while_all p l : forall x, In x (take_while p l) -> p x = true.
Proof.
  induction l as [|y l IH]; cbn; [intros x []|]. destruct (p y) eqn:E; [|intros x []].
  intros x [<-|H]; auto.
Qed.
Lemma drop_while_head p l x l' : drop_while p l = x :: l' -> p x = false.
Proof.
  induction l as [|y l IH]; cbn; [discriminate|]. destruct (p y) eqn:E; [auto|].
  intros H. injection H as <- _. exact E.
Qed.
Lemma take_while_app_stop p a l : (forall x, In x a -> p x = true) -> (match l with [] => True | x :: _ => p x = false end) ->
  take_while p (a ++ l) = a /\ drop_while p (a ++ l) = l.
Proof.
  induction a as [|y a IH]; intros H1 H2; cbn.
  - destruct l as [|x l]; cbn; [auto|]. now rewrite H2.
  - rewrite (H1 y (or_introl eq_refl)). destruct (IH (fun x Hx => H1 x (or_intror Hx)) H2) as [-> ->]. auto.
Qed.
Lemma take_while_ext p q l : (forall x, In x l -> p x = q x) -> take_while p l = take_while q l.
Proof.
  induction l as [|x l IH]; cbn; intros H; [reflexivity|]. rewrite (H x (or_introl eq_refl)).
  now rewrite IH by (intros; apply H; now right).
Qed.
Lemma drop_while_ext p q l : (forall x, In x l -> p x = q x) -> drop_while p l = drop_while q l.
Proof.
  induction l as [|x l IH]; cbn; intros H; [reflexivity|]. rewrite (H x (or_introl eq_refl)).
  now rewrite IH by (intros; apply H; now right).
Qed.

Lemma nth_error_app_hd pre post : nth_error (pre ++ post) (length pre) = hd_opt post.
Proof. rewrite nth_error_app2 by lia. rewrite Nat.sub_diag. now destruct post. Qed.

Lemma bytes_new_at s : bytes_new s = at_ [] s None.
Proof. unfold bytes_new, at_. cbn. now destruct s. Qed.
Lemma advance_at pre x post buf : advance (at_ pre (x :: post) buf) = at_ (pre ++ [x]) post buf.
Proof.
  unfold advance, at_; cbn [pos input buffer].
  replace (pre ++ x :: post) with ((pre ++ [x]) ++ post) by (rewrite <- app_assoc; reflexivity).
  replace (length pre + 1)%nat with (length (pre ++ [x])) by (rewrite app_length; reflexivity).
  now rewrite nth_error_app_hd.
Qed.
Lemma advance_by_at pre a post buf n : n = length a ->
  advance_by (at_ pre (a ++ post) buf) n = at_ (pre ++ a) post buf.
Proof.
  intros ->. unfold advance_by, at_; cbn [pos input buffer]. rewrite app_assoc.
  replace (length pre + length a)%nat with (length (pre ++ a)) by apply app_length.
  now rewrite nth_error_app_hd.
Qed.
Lemma reset_at pre a post buf n : n = length pre -> reset (at_ (pre ++ a) post buf) n = at_ pre (a ++ post) buf.
Proof.
  intros ->. unfold reset, at_; cbn [pos input buffer]. rewrite <- app_assoc, nth_error_app_hd. reflexivity.
Qed.
Lemma reset_at0 pre post buf n : n = length pre -> reset (at_ pre post buf) n = at_ pre post buf.
Proof. intros ->. unfold reset, at_; cbn [pos input buffer]. now rewrite nth_error_app_hd. Qed.
Lemma finish_at pre post buf : finish (at_ pre post buf) = at_ (pre ++ post) [] buf.
Proof. unfold finish, at_; cbn [input buffer]. now rewrite app_nil_r. Qed.

Lemma skip_until_at stop fuel : forall pre post buf, (length post < fuel)%nat ->
  skip_until fuel stop (at_ pre post buf) =
  Ok (at_ (pre ++ take_while (fun x => negb (stop x)) post) (drop_while (fun x => negb (stop x)) post) buf).
Proof.
  induction fuel as [|f IH]; intros pre post buf L; [lia|].
  cbn [skip_until]. destruct post as [|x post]; cbn [at_ cur hd_opt take_while drop_while].
  - now rewrite app_nil_r.
  - change (Scan _ _ _ _) with (at_ pre (x :: post) buf).
    destruct (stop x); cbn [negb]; [now rewrite app_nil_r|].
    rewrite advance_at, IH by (cbn in L; lia). now rewrite <- app_assoc.
Qed.

Lemma slice_at pre a post : slice (pre ++ a ++ post) (length pre) (length (pre ++ a)) = Ok a.
Proof.
  unfold slice. rewrite !app_length.
  replace (length pre <=? length pre + length a)%nat with true by (symmetry; apply Nat.leb_le; lia).
  replace (length pre + length a <=? length pre + (length a + length post))%nat with true by (symmetry; apply Nat.leb_le; lia).
  cbn [andb]. f_equal. replace (length pre + length a - length pre)%nat with (length a) by lia.
  rewrite skipn_app, skipn_all, Nat.sub_diag. cbn [skipn app].
  rewrite firstn_app, Nat.sub_diag, firstn_all. cbn [firstn]. apply app_nil_r.
Qed.

Lemma at_fuel pre post buf : (length post < loop_fuel (at_ pre post buf))%nat.
Proof. unfold loop_fuel, at_; cbn [input]. rewrite app_length. lia. Qed.

Lemma skip_slice d pre post buf :
  (let* b' := skip_until (loop_fuel (at_ pre post buf)) d (at_ pre post buf) in
   let* s := slice (input b') (pos (at_ pre post buf)) (pos b') in Ok (b', s)) =
  Ok (at_ (pre ++ take_while (fun x => negb (d x)) post) (drop_while (fun x => negb (d x)) post) buf,
      take_while (fun x => negb (d x)) post).
Proof.
  rewrite skip_until_at by apply at_fuel. cbn [bind].
  unfold at_ at 1 2 3; cbn [input pos]. rewrite <- app_assoc, slice_at. reflexivity.
Qed.

Lemma advance_to_at d pre post buf :
  advance_to d (at_ pre post buf) =
  Ok (at_ (pre ++ take_while (fun x => negb (d x)) post) (drop_while (fun x => negb (d x)) post) buf,
      take_while (fun x => negb (d x)) post).
Proof. unfold advance_to. apply skip_slice. Qed.

(** the uncached path of buffered_advance_to *)
Definition buffered_fresh (d : delimiter) (pre post : str) : scanner * str :=
  let w := take_while (fun x => negb (d x)) post in
  let r := drop_while (fun x => negb (d x)) post in
  (at_ (pre ++ w) r (Some (length pre, w, hd_opt r)), w).

Lemma buffered_at_fresh d pre post buf :
  (match buf with Some (p, _, _) => p <> length pre | None => True end) ->
  buffered_advance_to d (at_ pre post buf) = Ok (buffered_fresh d pre post).
Proof.
  intros H. unfold buffered_advance_to.
  assert (F : (let* b' := skip_until (loop_fuel (at_ pre post buf)) d (at_ pre post buf) in
      let* s := slice (input b') (pos (at_ pre post buf)) (pos b') in
      Ok (Scan (pos b') (cur b') (Some (pos (at_ pre post buf), s, cur b')) (input b'), s)) = Ok (buffered_fresh d pre post)).
  { rewrite skip_until_at by apply at_fuel. cbn [bind].
    unfold at_ at 1 2 3; cbn [input pos]. rewrite <- app_assoc, slice_at. cbn [bind].
    unfold buffered_fresh, at_. cbn [pos cur input]. reflexivity. }
  unfold at_ at 1 2; cbn [buffer].
  destruct buf as [[[p bf] [nx|]]|]; [| |exact F].
  - cbn [pos]. unfold at_ at 1; cbn [pos]. apply Nat.eqb_neq in H. rewrite H. cbn [andb]. exact F.
  - unfold at_ at 1; cbn [pos]. apply Nat.eqb_neq in H. rewrite H. exact F.
Qed.

(** the cached path *)
Lemma buffered_at_cached d pre w r :
  (match hd_opt r with Some x => d x = true | None => True end) ->
  buffered_advance_to d (at_ pre (w ++ r) (Some (length pre, w, hd_opt r))) =
  Ok (at_ (pre ++ w) r (Some (length pre, w, hd_opt r)), w).
Proof.
  intros H. unfold buffered_advance_to. unfold at_ at 1; cbn [buffer].
  destruct r as [|x r]; cbn [hd_opt] in *.
  - unfold at_ at 1; cbn [pos]. rewrite Nat.eqb_refl. now rewrite advance_by_at.
  - unfold at_ at 1; cbn [pos]. rewrite Nat.eqb_refl, H. cbn [andb]. now rewrite advance_by_at.
Qed.

Lemma get_remainder_at pre post buf : get_remainder (at_ pre post buf) = Ok post.
Proof.
  unfold get_remainder, at_; cbn [input pos].
  pose proof (slice_at pre post []) as H. rewrite app_nil_r in H. exact H.
Qed.

Lemma check_end_at pre post buf : utf8 post = true ->
  check_end_of_input (at_ pre post buf) =
  match post with
  | [] => Ok tt
  | _ => Err (Syntax (length pre) (%"Expected end of input but found: '" ++ post ++ %"'"))
  end.
Proof.
  intros U. unfold check_end_of_input. destruct post as [|x post]; [reflexivity|].
  unfold at_ at 1; cbn [cur hd_opt]. unfold get_remainder_str. rewrite get_remainder_at. cbn [bind].
  rewrite U. reflexivity.
Qed.

Lemma is_end_at pre post buf : is_end_of_input (at_ pre post buf) = match post with [] => true | _ => false end.
Proof. now destruct post. Qed.

Lemma firstn_exact {A} (a b : list A) : firstn (length a) (a ++ b) = a.
Proof. rewrite firstn_app, Nat.sub_diag, firstn_all. cbn. apply app_nil_r. Qed.

Lemma slice_get_at pre post n :
  slice_get (pre ++ post) (length pre) (length pre + n) =
  if (n <=? length post)%nat then Some (firstn n post) else None.
Proof.
  unfold slice_get. rewrite app_length.
  replace (length pre <=? length pre + n)%nat with true by (symmetry; apply Nat.leb_le; lia). cbn [andb].
  destruct (Nat.leb_spec n (length post)) as [L|L].
  - replace (length pre + n <=? length pre + length post)%nat with true by (symmetry; apply Nat.leb_le; lia).
    f_equal. replace (length pre + n - length pre)%nat with n by lia.
    rewrite skipn_app, skipn_all, Nat.sub_diag. reflexivity.
  - replace (length pre + n <=? length pre + length post)%nat with false by (symmetry; apply Nat.leb_gt; lia). reflexivity.
Qed.

(** does [post] start with [word], ASCII case ignored? *)
Definition starts_nocase (word post : str) : bool := str_eq_nocase (firstn (length word) post) word.

Lemma next_is_at pre post buf word : next_is_ignore_ascii_case (at_ pre post buf) word = starts_nocase word post.
Proof.
  unfold next_is_ignore_ascii_case, peek, at_; cbn [input pos]. rewrite slice_get_at.
  destruct (Nat.leb_spec (length word) (length post)) as [L|L]; [reflexivity|].
  unfold starts_nocase. destruct (str_eq_nocase (firstn (length word) post) word) eqn:E; [|reflexivity].
  apply str_eq_nocase_length in E. rewrite firstn_length in E. lia.
Qed.
Lemma starts_nocase_split word post : starts_nocase word post = true ->
  exists w r, post = w ++ r /\ str_eq_nocase w word = true /\ length w = length word.
Proof.
  intros H. exists (firstn (length word) post), (skipn (length word) post).
  rewrite firstn_skipn. repeat split; try assumption. now apply str_eq_nocase_length.
Qed.
Lemma starts_nocase_app w r word : str_eq_nocase w word = true -> starts_nocase word (w ++ r) = true.
Proof.
  intros H. unfold starts_nocase. rewrite <- (str_eq_nocase_length _ _ H), firstn_exact. exact H.
Qed.

Lemma try_consume_delimiter_at d pre x post buf : d x = true -> pre <> [] ->
  try_consume_delimiter d (at_ pre (x :: post) buf) =
  match drop_while d post with
  | [] => Err (Syntax (length pre) (%"Input may not end with a delimiter"))
  | r => Ok (at_ (pre ++ x :: take_while d post) r buf)
  end.
Proof.
  intros Hx Hp. unfold try_consume_delimiter. unfold at_ at 1; cbn [cur hd_opt unwrap bind]. rewrite Hx. cbn [debug_assert bind].
  unfold at_ at 1; cbn [pos]. destruct (Nat.eqb_spec (length pre) 0) as [E|_]; [destruct pre; [congruence|discriminate]|].
  rewrite advance_at, skip_until_at by (unfold loop_fuel, at_; cbn [input]; rewrite app_length; cbn [length]; lia).
  cbn [bind].
  rewrite (take_while_ext _ d post) by (intros; apply negb_involutive).
  rewrite (drop_while_ext _ d post) by (intros; apply negb_involutive).
  rewrite <- app_assoc. cbn [app].
  destruct (drop_while d post) as [|y r]; reflexivity.
Qed.

(** ** digits *)
Lemma is_digit_wrapping_spec x : 0 <= x <= 255 -> is_digit_wrapping x = is_digit x.
Proof.
  intros H. unfold is_digit_wrapping, wrap_u8, is_digit.
  destruct (Z.le_gt_cases 48 x).
  - rewrite Z.mod_small by lia. lia.
  - replace ((x - 48) mod 256) with (x - 48 + 256); [lia|].
    apply (Z.mod_unique_pos _ _ (-1)); lia.
Qed.

Lemma parse_8_digits_at pre post buf : bytes_ok post ->
  parse_8_digits (at_ pre post buf) =
  if (8 <=? length post)%nat && forallb is_digit (firstn 8 post)
  then Some (le_num (firstn 8 post), at_ (pre ++ firstn 8 post) (skipn 8 post) buf) else None.
Proof.
  intros B. unfold parse_8_digits. unfold at_ at 1 2 3; cbn [input pos]. rewrite slice_get_at.
  destruct (Nat.leb_spec 8 (length post)) as [L|L]; [|reflexivity]. cbn [andb].
  assert (L8 : length (firstn 8 post) = 8%nat) by (apply firstn_length_le; exact L).
  rewrite eight_digits_test_spec; [|exact L8|].
  2:{ intros x Hx. apply B. rewrite <- (firstn_skipn 8 post). apply in_or_app. now left. }
  destruct (forallb is_digit (firstn 8 post)); [|reflexivity].
  f_equal. f_equal. rewrite <- (firstn_skipn 8 post) at 1. now apply advance_by_at.
Qed.

Lemma bytes_ok_skipn n l : bytes_ok l -> bytes_ok (skipn n l).
Proof. intros H x Hx. apply H. rewrite <- (firstn_skipn n l). apply in_or_app. now right. Qed.

(** all the digits in front *)
Lemma take_while_firstn p n l : forallb p (firstn n l) = true ->
  take_while p l = firstn n l ++ take_while p (skipn n l) /\ drop_while p l = drop_while p (skipn n l).
Proof.
  revert l. induction n as [|n IH]; intros l H; [cbn; auto|].
  destruct l as [|x l]; [cbn; auto|]. cbn in *. apply andb_true_iff in H. destruct H as [H1 H2]. rewrite H1.
  destruct (IH l H2) as [-> ->]. auto.
Qed.

Lemma digits_loop8_at fuel : forall pre post buf, bytes_ok post -> (length post < fuel)%nat ->
  exists a r, post = a ++ r /\ digit_string a /\
  digits_loop8 fuel (at_ pre post buf) = Ok (at_ (pre ++ a) r buf).
Proof.
  induction fuel as [|f IH]; intros pre post buf B L; [lia|]. cbn [digits_loop8].
  rewrite parse_8_digits_at by assumption.
  destruct ((8 <=? length post)%nat && forallb is_digit (firstn 8 post)) eqn:E.
  - apply andb_true_iff in E. destruct E as [E1%Nat.leb_le E2].
    destruct (IH (pre ++ firstn 8 post) (skipn 8 post) buf) as (a & r & Es & Ha & El).
    + now apply bytes_ok_skipn.
    + rewrite skipn_length. lia.
    + exists (firstn 8 post ++ a), r. split; [rewrite <- app_assoc, <- Es, firstn_skipn; reflexivity|].
      split; [apply digit_string_app; split; [now apply digit_string_forallb|assumption]|].
      rewrite El, <- app_assoc. reflexivity.
  - exists [], post. split; [reflexivity|]. split; [apply digit_string_nil|]. now rewrite app_nil_r.
Qed.

Lemma digits_loop1_at fuel : forall pre post buf, bytes_ok post -> (length post < fuel)%nat ->
  digits_loop1 fuel (at_ pre post buf) = Ok (at_ (pre ++ take_while is_digit post) (drop_while is_digit post) buf).
Proof.
  induction fuel as [|f IH]; intros pre post buf B L; [lia|]. cbn [digits_loop1]. unfold parse_digit.
  destruct post as [|x post]; cbn [at_ cur hd_opt take_while drop_while]; [now rewrite app_nil_r|].
  apply bytes_ok_cons in B. destruct B as [Bx B]. unfold is_byte in Bx.
  rewrite is_digit_wrapping_spec by assumption.
  destruct (is_digit x); [|now rewrite app_nil_r].
  change (Scan (length pre) (Some x) buf (pre ++ x :: post)) with (at_ pre (x :: post) buf).
  rewrite advance_at, IH by (try assumption; cbn in L; lia). now rewrite <- app_assoc.
Qed.

Lemma take_digits_app a r : digit_string a ->
  take_while is_digit (a ++ r) = a ++ take_while is_digit r /\ drop_while is_digit (a ++ r) = drop_while is_digit r.
Proof.
  intros H. apply digit_string_forallb in H.
  pose proof (take_while_firstn is_digit (length a) (a ++ r)) as T.
  rewrite firstn_exact in T. rewrite skipn_app, skipn_all, Nat.sub_diag in T. cbn [skipn app] in T. auto.
Qed.

(** C14: parse_digits consumes exactly the longest run of digits *)
Lemma parse_digits_at pre post buf : bytes_ok post ->
  (match post with x :: _ => is_digit x = true | [] => False end) ->
  parse_digits (at_ pre post buf) =
  Ok (at_ (pre ++ take_while is_digit post) (drop_while is_digit post) buf,
      (length pre, length pre + length (take_while is_digit post))%nat).
Proof.
  intros B H. unfold parse_digits. destruct post as [|x post']; [contradiction|]. set (post := x :: post') in *.
  unfold at_ at 1; cbn [cur hd_opt]. subst post. cbn [hd_opt]. rewrite H. cbn [debug_assert bind].
  set (post := x :: post') in *.
  destruct (digits_loop8_at (loop_fuel (at_ pre post buf)) pre post buf B (at_fuel _ _ _)) as (a & r & E & Ha & ->).
  cbn [bind]. rewrite digits_loop1_at.
  - cbn [bind]. rewrite E. destruct (take_digits_app a r Ha) as [-> ->].
    rewrite <- app_assoc. cbn [at_ pos]. rewrite !app_length. reflexivity.
  - intros y Hy. apply B. rewrite E. apply in_or_app. now right.
  - unfold loop_fuel, at_; cbn [input]. rewrite E, !app_length. lia.
Qed.

(** ** stripping zeros *)
Definition is_zero_digit (x : byte) : bool := x =? 48.
Definition zeros (l : str) : str := take_while is_zero_digit l.
Definition all_zeros (l : str) : bool := forallb is_zero_digit l.

Lemma zeros_app a b : zeros (a ++ b) = if all_zeros a then a ++ zeros b else zeros a.
Proof.
  induction a as [|x a IH]; cbn; [reflexivity|]. fold (zeros (a ++ b)) (zeros a) (all_zeros a). rewrite IH.
  destruct (is_zero_digit x); [|reflexivity]. cbn [andb]. destruct (all_zeros a); reflexivity.
Qed.
Lemma zeros_all a : all_zeros a = true -> zeros a = a.
Proof. induction a as [|x a IH]; cbn; [reflexivity|]. intros H. apply andb_true_iff in H. destruct H as [-> H].
  fold (zeros a). now rewrite IH. Qed.
Lemma all_zeros_app a b : all_zeros (a ++ b) = all_zeros a && all_zeros b.
Proof. apply forallb_app. Qed.

Lemma pos_ctz_divide p : (2 ^ pos_ctz p | Zpos p).
Proof.
  induction p as [p IH|p IH|]; cbn [pos_ctz]; [exists (Zpos p~1); now rewrite Z.pow_0_r, Z.mul_1_r| |exists 1; reflexivity].
  destruct IH as [k Hk]. exists k. rewrite Z.pow_add_r; [|lia|].
  - change (Zpos p~0) with (2 * Zpos p). rewrite Hk. ring.
  - clear. induction p; cbn [pos_ctz]; lia.
Qed.
Lemma pos_ctz_nonneg p : 0 <= pos_ctz p.
Proof. induction p; cbn [pos_ctz]; lia. Qed.
Lemma ctz_double x : 0 < x -> trailing_zeros_u64 (2 * x) = 1 + trailing_zeros_u64 x.
Proof. destruct x; try lia. intros _. reflexivity. Qed.
Lemma ctz_256 x : 0 < x -> trailing_zeros_u64 (256 * x) = 8 + trailing_zeros_u64 x.
Proof.
  intros H. replace (256 * x) with (2 * (2 * (2 * (2 * (2 * (2 * (2 * (2 * x)))))))) by lia.
  rewrite !ctz_double by lia. lia.
Qed.
Lemma ctz_small d r : 1 <= d <= 255 -> 0 <= r -> 0 <= trailing_zeros_u64 (d + 256 * r) < 8.
Proof.
  intros Hd Hr. destruct (d + 256 * r) as [|p|p] eqn:E; try lia. cbn [trailing_zeros_u64].
  split; [apply pos_ctz_nonneg|].
  destruct (Z.lt_ge_cases (pos_ctz p) 8) as [L|L]; [assumption|exfalso].
  destruct (pos_ctz_divide p) as [k Hk].
  replace (pos_ctz p) with (8 + (pos_ctz p - 8)) in Hk by lia. rewrite Z.pow_add_r in Hk by lia.
  change (2 ^ 8) with 256 in Hk. rewrite <- E in Hk.
  assert ((d + 256 * r) mod 256 = 0).
  { rewrite Hk. replace (k * (256 * 2 ^ (pos_ctz p - 8))) with (k * 2 ^ (pos_ctz p - 8) * 256) by ring. apply Z.mod_mul. lia. }
  replace (d + 256 * r) with (d + r * 256) in H by ring. rewrite Z.mod_add in H by lia.
  rewrite Z.mod_small in H by lia. lia.
Qed.

Lemma le_num_sub l : digit_string l -> le_num l - le_num (repeat 48 (length l)) = le_num (map (fun x => x - 48) l).
Proof.
  induction l as [|x l IH]; cbn [le_num map length repeat]; [reflexivity|]. rewrite digit_string_cons. intros [_ H].
  specialize (IH H). lia.
Qed.
Lemma ctz_zeros l : digit_string l -> all_zeros l = false ->
  trailing_zeros_u64 (le_num (map (fun x => x - 48) l)) / 8 = Z.of_nat (length (zeros l))
  /\ 0 < le_num (map (fun x => x - 48) l).
Proof.
  induction l as [|x l IH]; [discriminate|]. rewrite digit_string_cons. intros [Hx Hl] Hz.
  cbn [map le_num all_zeros forallb zeros take_while] in *. fold (zeros l) (all_zeros l) in *.
  assert (Nn : 0 <= le_num (map (fun x => x - 48) l)).
  { apply le_num_nonneg. intros y Hy. apply in_map_iff in Hy. destruct Hy as (z & <- & Hz').
    specialize (Hl z Hz'). unfold is_byte. lia. }
  unfold is_zero_digit in *. destruct (Z.eqb_spec x 48) as [->|N].
  - cbn [andb] in Hz. destruct (IH Hl Hz) as [I1 I2].
    replace (48 - 48 + 256 * le_num (map (fun x => x - 48) l)) with (256 * le_num (map (fun x => x - 48) l)) by lia.
    split; [|lia]. rewrite ctz_256 by assumption.
    replace (8 + trailing_zeros_u64 (le_num (map (fun x => x - 48) l)))
      with (1 * 8 + trailing_zeros_u64 (le_num (map (fun x => x - 48) l))) by lia.
    rewrite Z.div_add_l by lia. rewrite I1. cbn [length]. lia.
  - pose proof (ctz_small (x - 48) (le_num (map (fun x => x - 48) l)) ltac:(lia) Nn).
    split; [|lia]. rewrite Z.div_small by lia. reflexivity.
Qed.

Lemma le_num_eight_zeros l : length l = 8%nat -> digit_string l ->
  (le_num l =? ASCII_EIGHT_ZEROS) = all_zeros l.
Proof.
  intros L D. apply eq_true_iff_eq. rewrite Z.eqb_eq.
  change ASCII_EIGHT_ZEROS with (le_num (repeat 48 8)). split.
  - intros E. apply le_num_inj in E; [subst l; reflexivity|now apply digit_string_bytes| |now rewrite L, repeat_length].
    intros x Hx. apply repeat_spec in Hx. subst. unfold is_byte. lia.
  - intros A. unfold all_zeros in A. rewrite forallb_forall in A.
    assert (l = repeat 48 8) as ->; [|reflexivity].
    rewrite <- L. clear L D. induction l as [|x l IH]; [reflexivity|]. cbn.
    pose proof (A x (or_introl eq_refl)) as Ax. unfold is_zero_digit in Ax. f_equal; [lia|].
    apply IH. intros y Hy. apply A. now right.
Qed.

Lemma strip_loop8_at fuel : forall pre A post buf, bytes_ok post -> (length post < fuel)%nat ->
  exists a r, post = a ++ r /\ digit_string a /\
  strip_loop8 fuel (length pre + length (zeros A)) (all_zeros A) (at_ (pre ++ A) post buf)
  = Ok ((length pre + length (zeros (A ++ a)))%nat, all_zeros (A ++ a), at_ (pre ++ A ++ a) r buf).
Proof.
  induction fuel as [|f IH]; intros pre A post buf B L; [lia|]. cbn [strip_loop8].
  rewrite parse_8_digits_at by assumption.
  destruct ((8 <=? length post)%nat && forallb is_digit (firstn 8 post)) eqn:E.
  - apply andb_true_iff in E. destruct E as [E1%Nat.leb_le E2].
    assert (L8 : length (firstn 8 post) = 8%nat) by (apply firstn_length_le; exact E1).
    assert (D8 : digit_string (firstn 8 post)) by now apply digit_string_forallb.
    destruct (IH pre (A ++ firstn 8 post) (skipn 8 post) buf) as (a & r & Es & Ha & El).
    { now apply bytes_ok_skipn. }
    { rewrite skipn_length. lia. }
    exists (firstn 8 post ++ a), r. split; [rewrite <- app_assoc, <- Es, firstn_skipn; reflexivity|].
    split; [apply digit_string_app; auto|].
    replace (A ++ firstn 8 post ++ a) with ((A ++ firstn 8 post) ++ a) by (now rewrite app_assoc).
    rewrite <- El. clear El Es.
    rewrite (app_assoc pre A). rewrite <- (app_assoc pre A (firstn 8 post)).
    replace ((pre ++ A) ++ firstn 8 post) with (pre ++ A ++ firstn 8 post) by (now rewrite app_assoc).
    rewrite zeros_app, all_zeros_app.
    destruct (all_zeros A) eqn:EA; cbn [andb]; [|reflexivity].
    rewrite (le_num_eight_zeros _ L8 D8).
    destruct (all_zeros (firstn 8 post)) eqn:EZ.
    + rewrite (zeros_all A EA), (zeros_all _ EZ), app_length, L8.
      replace (length pre + length A + 8)%nat with (length pre + (length A + 8))%nat by lia. reflexivity.
    + change ASCII_EIGHT_ZEROS with (le_num (repeat 48 8)). rewrite <- L8 at 2 3.
      rewrite (le_num_sub _ D8). destruct (ctz_zeros _ D8 EZ) as [C1 C2].
      rewrite TimeProofs.arith_ok.
      * cbn [bind]. rewrite C1, Nat2Z.id, (zeros_all A EA), app_length, L8.
        now rewrite Nat.add_assoc.
      * apply TimeProofs.is_u64_iff. split; [lia|].
        assert (Bm : bytes_ok (map (fun x => x - 48) (firstn 8 post))).
        { intros y Hy. apply in_map_iff in Hy. destruct Hy as (z & <- & Hz'). specialize (D8 z Hz'). unfold is_byte. lia. }
        pose proof (le_num_bound _ Bm) as Bd. rewrite map_length, L8 in Bd.
        change (256 ^ Z.of_nat 8) with 18446744073709551616 in Bd. lia.
  - exists [], post. split; [reflexivity|]. split; [apply digit_string_nil|]. now rewrite !app_nil_r.
Qed.

Lemma strip_loop1_at fuel : forall pre A post buf, bytes_ok post -> (length post < fuel)%nat ->
  strip_loop1 fuel (length pre + length (zeros A)) (all_zeros A) (at_ (pre ++ A) post buf)
  = Ok ((length pre + length (zeros (A ++ take_while is_digit post)))%nat,
        at_ (pre ++ A ++ take_while is_digit post) (drop_while is_digit post) buf).
Proof.
  induction fuel as [|f IH]; intros pre A post buf B L; [lia|]. cbn [strip_loop1].
  destruct post as [|x post]; cbn [at_ cur hd_opt take_while drop_while]; [now rewrite !app_nil_r|].
  apply bytes_ok_cons in B. destruct B as [Bx B]. unfold is_byte in Bx.
  fold (is_digit_wrapping x). rewrite is_digit_wrapping_spec by assumption.
  destruct (is_digit x) eqn:Ed; [|now rewrite !app_nil_r].
  change (Scan _ (Some x) buf ((pre ++ A) ++ x :: post)) with (at_ (pre ++ A) (x :: post) buf).
  rewrite advance_at. rewrite <- app_assoc.
  specialize (IH pre (A ++ [x]) post buf B ltac:(cbn in L; lia)).
  rewrite <- (app_assoc A [x]) in IH. cbn [app] in IH. rewrite <- IH. clear IH.
  rewrite zeros_app, all_zeros_app. cbn [all_zeros forallb zeros take_while].
  apply is_digit_iff in Ed. unfold wrap_u8. rewrite Z.mod_small by lia.
  destruct (all_zeros A) eqn:EA; cbn [andb]; [|reflexivity].
  unfold is_zero_digit. replace (x - 48 =? 0) with (x =? 48) by lia.
  destruct (x =? 48); cbn [andb].
  - rewrite (zeros_all A EA), app_length. cbn [length]. now rewrite Nat.add_assoc.
  - rewrite (zeros_all A EA), app_nil_r. reflexivity.
Qed.

(** C14: parse_digits_strip_zeros consumes the longest run of digits and returns it without its leading zeros *)
Lemma parse_digits_strip_zeros_at pre post buf : bytes_ok post ->
  (match post with x :: _ => is_digit x = true | [] => False end) ->
  parse_digits_strip_zeros (at_ pre post buf) =
  Ok (at_ (pre ++ take_while is_digit post) (drop_while is_digit post) buf,
      (length pre + length (zeros (take_while is_digit post)), length pre + length (take_while is_digit post))%nat).
Proof.
  intros B H. unfold parse_digits_strip_zeros. destruct post as [|x post']; [contradiction|].
  set (post := x :: post') in *.
  unfold at_ at 1; cbn [cur hd_opt]. subst post. cbn [hd_opt]. rewrite H. cbn [debug_assert bind].
  set (post := x :: post') in *.
  destruct (strip_loop8_at (loop_fuel (at_ pre post buf)) pre [] post buf B (at_fuel _ _ _)) as (a & r & E & Ha & E8).
  cbn [zeros take_while length all_zeros forallb app] in E8. rewrite Nat.add_0_r, app_nil_r in E8.
  unfold at_ at 2; cbn [pos]. rewrite E8. cbn [bind].
  rewrite strip_loop1_at.
  - cbn [bind]. rewrite E. destruct (take_digits_app a r Ha) as [-> ->].
    cbn [at_ pos]. rewrite !app_length. reflexivity.
  - intros y Hy. apply B. rewrite E. apply in_or_app. now right.
  - unfold loop_fuel, at_; cbn [input]. rewrite E, !app_length. lia.
Qed.

(** removing leading zeros does not change the value *)
Lemma dval_zeros a : all_zeros a = true -> dval a = 0.
Proof.
  induction a as [|x a IH]; [reflexivity|]. cbn [all_zeros forallb]. intros H. apply andb_true_iff in H.
  destruct H as [H1 H2]. unfold is_zero_digit in H1. rewrite dval_cons, (IH H2). lia.
Qed.
Lemma zeros_all_zeros a : all_zeros (zeros a) = true.
Proof. unfold all_zeros. rewrite forallb_forall. apply take_while_all. Qed.
