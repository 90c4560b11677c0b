(** * C72: serde *)
From Coq Require Import Permutation.
From Verif Require Import Prelude Time SpecTime TimeProofs DateTime SpecDate Serde.

Lemma de_int_u64 : forall z, is_u64 z = true -> de_int is_u64 (SU64 z) = Some z.
Proof. intros z H. unfold de_int, chk. now rewrite H. Qed.
Lemma str_eqb_refl' : forall s, str_eqb s s = true.
Proof. induction s as [|x s IH]; [reflexivity|]. cbn [str_eqb]. now rewrite Z.eqb_refl, IH. Qed.

(** What was serialised is deserialised to the same value: all fields of it, also the sign of a negative zero *)
Theorem C72_duration_round_trip : forall d, duration_ok d -> de_duration (ser_duration d) = Some d.
Proof.
  intros [n [s k]] H. unfold duration_ok, std_ok in H. cbn [inner secs subsec] in H.
  assert (K : 0 <= k < 1000000000) by (unfold is_u64, inb in H; lia).
  assert (H1 : is_u64 s = true) by (unfold is_u64, inb; unfold is_u64, inb in H; lia).
  assert (H2 : is_u32 k = true) by (unfold is_u32, inb, u32_max; lia).
  change (de_duration (ser_duration (Dur n (Std s k)))) with (let? i := de_std (ser_std (Std s k)) in Some (Dur n i)).
  change (de_std (ser_std (Std s k))) with
    (let? s := chk is_u64 s in let? n := chk is_u32 k in let? s' := chk is_u64 (s + n / 1000000000) in Some (Std s' (n mod 1000000000))).
  unfold chk. rewrite H1. cbn [obind]. rewrite H2. cbn [obind].
  rewrite (Z.div_small k), (Z.mod_small k), Z.add_0_r by lia. rewrite H1. reflexivity.
Qed.
Print Assumptions C72_duration_round_trip.
Example C72_duration_tokens : ser_duration (Dur false (Std 1 2)) =
  SStruct (%"Duration") [(%"is_negative", SBool false); (%"inner", SStruct (%"Duration") [(%"secs", SU64 1); (%"nanos", SU32 2)])].
Proof. reflexivity. Qed.

Theorem C72_time_unit_round_trip : forall u, de_time_unit (ser_time_unit u) = Some u.
Proof. destruct u; reflexivity. Qed.
Print Assumptions C72_time_unit_round_trip.
Example C72_time_unit_tokens : ser_time_unit Day = SUnitVariant (%"TimeUnit") (%"Day").
Proof. reflexivity. Qed.

Theorem C72_multiplier_round_trip : forall m, multiplier_ok m -> de_multiplier (ser_multiplier m) = Some m.
Proof.
  intros [c e] [H1 H2]. cbn [coef expo] in H1, H2. unfold ser_multiplier, de_multiplier, de_int, chk. cbn [coef expo].
  rewrite H1. cbn [obind]. rewrite H2. reflexivity.
Qed.
Print Assumptions C72_multiplier_round_trip.
Example C72_multiplier_tokens : multiplier_ok (Mul 1 2) /\ ser_multiplier (Mul 1 2) = STuple (%"Multiplier") [SI64 1; SI16 2].
Proof. repeat split. Qed.

(** the position of an error is a usize *)
Definition position_ok (e : parse_error) : Prop :=
  match e with Syntax p _ | TimeUnitErr p _ => is_u64 (Z.of_nat p) = true | _ => True end.
Theorem C72_error_round_trip : forall e, position_ok e -> de_parse_error (ser_parse_error e) = Some e.
Proof.
  intros e H. destruct e as [|p m| |p m| | | |m]; cbn [position_ok] in H; unfold ser_parse_error, de_parse_error;
    try rewrite (de_int_u64 _ H); cbn [obind de_str]; try rewrite Nat2Z.id; reflexivity.
Qed.
Print Assumptions C72_error_round_trip.
Example C72_error_tokens : position_ok (Syntax 3 (%"x")) /\ ser_parse_error Empty = SUnitVariant (%"ParseError") (%"Empty") /\
  ser_parse_error (Syntax 3 (%"x")) = STupleVariant (%"ParseError") (%"Syntax") [SU64 3; SStr (%"x")].
Proof. repeat split. Qed.

Theorem C72_conversion_error_round_trip : forall e, de_try_from_error (ser_try_from_error e) = Some e.
Proof. destruct e; reflexivity. Qed.
Print Assumptions C72_conversion_error_round_trip.
Example C72_conversion_error_tokens :
  ser_try_from_error NegativeDuration = SUnitVariant (%"TryFromDurationError") (%"NegativeDuration").
Proof. reflexivity. Qed.

Theorem C72_date_time_round_trip : forall x, date_time_ok x -> de_date_time (ser_date_time x) = Some x.
Proof.
  intros [d t] [H1 H2]. cbn [days time] in H1, H2. change (de_date_time (ser_date_time (DT d t))) with
    (let? d := chk is_i64 d in let? t := chk is_u64 t in Some (DT d t)).
  unfold chk. rewrite H1. cbn [obind].
  assert (H3 : is_u64 t = true) by (unfold is_u64, inb, u64_max; unfold NANOS_PER_DAY in H2; lia).
  rewrite H3. reflexivity.
Qed.
Print Assumptions C72_date_time_round_trip.
Example C72_date_time_tokens : let x := DT 1721061 11045000000006 in
  from_gregorian_date_time 0 1 2 3 4 5 6 = Ok x /\ date_time_ok x /\
  ser_date_time x = SStruct (%"DateTime") [(%"days", SNewtype (%"JulianDay") (SI64 1721061)); (%"time", SU64 11045000000006)].
Proof. split; [reflexivity|]. split; [split; [reflexivity|cbn [time]; unfold NANOS_PER_DAY; lia]|reflexivity]. Qed.

(** the order of the fields, further fields and the name given to the struct do not matter *)
Lemma filter_perm : forall A (f : A -> bool) l l', Permutation l l' -> Permutation (filter f l) (filter f l').
Proof.
  intros A f l l' H. induction H as [|x l l' H IH|x y l|l l1 l2 H1 IH1 H2 IH2]; cbn [filter].
  - constructor.
  - destruct (f x); [now constructor|exact IH].
  - destruct (f x), (f y); try reflexivity. constructor.
  - now transitivity (filter f l1).
Qed.
Lemma de_field_perm : forall l l' n, Permutation l l' -> de_field l n = de_field l' n.
Proof.
  intros l l' n H. unfold de_field. pose proof (filter_perm _ (fun f => str_eqb (fst f) n) l l' H) as P.
  destruct (filter _ l) as [|a [|b r]] eqn:E.
  - apply Permutation_nil in P. now rewrite P.
  - apply Permutation_length_1_inv in P. now rewrite P.
  - pose proof (Permutation_length P) as L. destruct (filter _ l') as [|a' [|b' r']]; try discriminate L.
    destruct a, a'; reflexivity.
Qed.
Theorem C72_field_order : forall n n' l l', Permutation l l' ->
  de_duration (SStruct n l) = de_duration (SStruct n' l') /\ de_date_time (SStruct n l) = de_date_time (SStruct n' l').
Proof.
  intros n n' l l' H. unfold de_duration, de_date_time, de_struct2. now rewrite !(de_field_perm l l' _ H).
Qed.
Print Assumptions C72_field_order.
Theorem C72_further_fields : forall n l k v, k <> %"is_negative" -> k <> %"inner" ->
  de_duration (SStruct n ((k, v) :: l)) = de_duration (SStruct n l).
Proof.
  intros n l k v H1 H2. unfold de_duration, de_struct2, de_field. cbn [filter fst].
  assert (K : forall a b, a <> b -> str_eqb a b = false).
  { induction a as [|x a IH]; intros [|y b] N; try reflexivity; [now elim N|]. cbn [str_eqb].
    destruct (x =? y) eqn:E; [|reflexivity]. apply Z.eqb_eq in E. subst y. cbn. apply IH. intros ->. now apply N. }
  now rewrite (K _ _ H1), (K _ _ H2).
Qed.
Print Assumptions C72_further_fields.
Example C72_field_order_example : de_duration (SStruct (%"d") [(%"inner", SSeq [SU64 1; SU32 2]); (%"note", SStr []); (%"is_negative", SBool true)])
  = Some (Dur true (Std 1 2)).
Proof. reflexivity. Qed.

(** what a format carries which writes neither names of structs nor of fields: the values in their order *)
Fixpoint without_names (v : sval) : sval :=
  match v with
  | SStruct _ l => SSeq (map (fun f => match f with (_, w) => without_names w end) l)
  | STuple _ l => SSeq (map without_names l)
  | SNewtype _ w => SSeq [without_names w]
  | w => w
  end.
Theorem C72_without_names :
  (forall d, duration_ok d -> de_duration (without_names (ser_duration d)) = Some d) /\
  (forall m, multiplier_ok m -> de_multiplier (without_names (ser_multiplier m)) = Some m) /\
  (forall x, date_time_ok x -> de_date_time (without_names (ser_date_time x)) = Some x).
Proof.
  split; [|split].
  - intros d H. rewrite <- (C72_duration_round_trip d H). reflexivity.
  - intros m H. rewrite <- (C72_multiplier_round_trip m H). reflexivity.
  - intros x H. rewrite <- (C72_date_time_round_trip x H). reflexivity.
Qed.
Print Assumptions C72_without_names.
Example C72_without_names_tokens : without_names (ser_duration (Dur true (Std 1 2))) = SSeq [SBool true; SSeq [SU64 1; SU32 2]] /\ duration_ok (Dur true (Std 1 2)).
Proof. repeat split. Qed.

(** Whatever is deserialised as a Duration is a Duration with the value the input gives, or refused: never an invalid value *)
Theorem C72_deserialised_duration : forall n s k, is_u64 s = true -> is_u32 k = true ->
  let v := SStruct (%"Duration") [(%"is_negative", SBool n); (%"inner", SStruct (%"Duration") [(%"secs", SU64 s); (%"nanos", SU32 k)])] in
  let value := (if n then -1 else 1) * (s * 1000000000 + k) in
  (representable value -> exists d, de_duration v = Some d /\ duration_ok d /\ nanos d = value) /\
  (~ representable value -> de_duration v = None).
Proof.
  intros n s k Hs Hk v value.
  assert (E : de_duration v = let? s' := chk is_u64 (s + k / 1000000000) in Some (Dur n (Std s' (k mod 1000000000)))).
  { subst v. change (de_duration _) with (let? i := (let? s := chk is_u64 s in let? n := chk is_u32 k in
      let? s' := chk is_u64 (s + n / 1000000000) in Some (Std s' (n mod 1000000000))) in Some (Dur n i)).
    unfold chk. rewrite Hs. cbn [obind]. rewrite Hk. cbn [obind]. now destruct (is_u64 (s + k / 1000000000)). }
  pose proof (Z_div_mod_eq_full k 1000000000) as DM. pose proof (Z.mod_pos_bound k 1000000000 ltac:(lia)) as MB.
  unfold is_u64, is_u32, inb, u64_max, u32_max in Hs, Hk. unfold chk in E.
  assert (R : representable value <-> is_u64 (s + k / 1000000000) = true).
  { unfold representable, max_nanos, is_u64, inb, u64_max, value. destruct n; split; intros H; try lia; try (split; lia). }
  destruct (is_u64 (s + k / 1000000000)) eqn:U; cbn [obind] in E.
  - split; [intros _|tauto]. eexists. split; [exact E|]. split.
    + unfold duration_ok, std_ok. cbn [inner secs subsec]. unfold is_u64, inb in *. lia.
    + unfold nanos, std_nanos, value. cbn [neg inner secs subsec]. destruct n; lia.
  - split; [intros H; apply R in H; discriminate H|auto].
Qed.
Print Assumptions C72_deserialised_duration.

Theorem C72_deserialised_is_valid : forall v d, de_duration v = Some d -> duration_ok d.
Proof.
  intros v d. unfold de_duration. destruct (de_struct2 _ _ v) as [[a b]|]; [|discriminate]. cbn [obind].
  destruct (de_bool a) as [n|]; [|discriminate]. cbn [obind]. unfold de_std.
  destruct (de_struct2 _ _ b) as [[a' b']|]; [|discriminate]. cbn [obind].
  destruct (de_int is_u64 a') as [s|]; [|discriminate]. cbn [obind].
  destruct (de_int is_u32 b') as [k|]; [|discriminate]. cbn [obind]. unfold chk.
  destruct (is_u64 (s + k / 1000000000)) eqn:U; [|discriminate]. cbn [obind]. intros [= <-].
  unfold duration_ok, std_ok. cbn [inner secs subsec]. pose proof (Z.mod_pos_bound k 1000000000 ltac:(lia)). unfold is_u64, inb in *. lia.
Qed.
Print Assumptions C72_deserialised_is_valid.
Example C72_carried : de_duration (SSeq [SBool true; SSeq [SU64 1; SU32 2500000000]]) = Some (Dur true (Std 3 500000000)).
Proof. reflexivity. Qed.
Example C72_refused : de_duration (SSeq [SBool true; SSeq [SU64 18446744073709551615; SU32 1000000000]]) = None.
Proof. reflexivity. Qed.

(** A deserialised DateTime is not checked: it is valid exactly if its time of day is below one day *)
Theorem C72_deserialised_date_time : forall v x, de_date_time v = Some x -> (date_time_ok x <-> time x < day_nanos).
Proof.
  intros v x. unfold de_date_time. destruct (de_struct2 _ _ v) as [[a b]|]; [|discriminate]. cbn [obind].
  destruct (de_julian_day a) as [d|] eqn:D; [|discriminate]. cbn [obind].
  destruct (de_int is_u64 b) as [t|] eqn:T; [|discriminate]. cbn [obind]. intros [= <-].
  assert (K : forall p w z, de_int p w = Some z -> p z = true).
  { intros p w z. destruct w; cbn [de_int]; try discriminate; unfold chk; destruct (p _) eqn:E; try discriminate; now intros [= <-]. }
  assert (D' : is_i64 d = true).
  { unfold de_julian_day in D. destruct a as [| | | | | |n0 w| | |[|w [|w2 l]]| | |]; try discriminate D; exact (K _ _ _ D). }
  apply K in T. unfold is_u64, inb in T. unfold date_time_ok. cbn [days time]. unfold NANOS_PER_DAY, day_nanos. intuition lia.
Qed.
Print Assumptions C72_deserialised_date_time.
(** ... and an invalid one makes the methods panic: serde is a way around the invariant of the type (finding 13) *)
Theorem C72_deserialised_date_time_is_valid_refuted : exists v x, de_date_time v = Some x /\ ~ date_time_ok x /\
  checked_add_duration x ZERO = Crash CrashUnwrap /\ duration_since x x = Crash CrashUnwrap.
Proof.
  exists (SStruct (%"DateTime") [(%"days", SNewtype (%"JulianDay") (SI64 0)); (%"time", SU64 18446744073709551615)]), (DT 0 18446744073709551615).
  split; [reflexivity|]. split; [intros [_ H]; cbn [time] in H; unfold NANOS_PER_DAY in H; lia|]. split; reflexivity.
Qed.
Print Assumptions C72_deserialised_date_time_is_valid_refuted.
