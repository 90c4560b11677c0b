(** * Property C05: the constructors of durations *)
From Verif Require Import Prelude Time SpecTime TimeProofs.

(** [Duration::positive], [Duration::negative] of any seconds and nanoseconds (u32, so there may be more than a second of them): the exact value with the
    sign asked for, and a panic exactly if there is no such duration. Every duration comes from them *)
Theorem C05_constructors : forall (b : bool) s n, 0 <= s <= 18446744073709551615 -> 0 <= n <= 4294967295 ->
  let r := if b then negative s n else positive s n in let v := s * 1000000000 + n in
  (v < 18446744073709551616 * 1000000000 -> exists d, r = Ok d /\ duration_ok d /\ is_negative d = b /\ nanos d = if b then - v else v) /\
  (18446744073709551616 * 1000000000 <= v -> r = Crash CrashUnwrap).
Proof.
  intros b s n Hs Hn r v.
  assert (K : (v < 18446744073709551616 * 1000000000 -> exists i, std_new s n = Ok i /\ std_ok i /\ std_nanos i = v) /\ (18446744073709551616 * 1000000000 <= v -> std_new s n = Crash CrashUnwrap)).
  { unfold std_new, std_ok, std_nanos, v. pose proof (Z.div_mod n 1000000000 ltac:(lia)) as D. pose proof (Z.mod_pos_bound n 1000000000 ltac:(lia)) as B.
    destruct (Z.ltb_spec n 1000000000) as [L|L].
    - split; [|lia]. intros _. exists (Std s n). split; [reflexivity|]. cbn [secs subsec]. unfold is_u64, inb, u64_max. split; [split; lia|lia].
    - unfold chk, is_u64, inb, u64_max. destruct ((0 <=? s + n / 1000000000) && (s + n / 1000000000 <=? 18446744073709551615)) eqn:E; cbn [unwrap bind].
      + split; [|lia]. intros _. eexists. split; [reflexivity|]. cbn [secs subsec]. split; [split; [exact E|lia]|lia].
      + split; [lia|]. reflexivity. }
  destruct K as [K1 K2]. split.
  - intros L. destruct (K1 L) as (i & E & O & V). exists (Dur b i).
    split; [subst r; unfold negative, positive; rewrite E; now destruct b|]. split; [exact O|]. split; [reflexivity|]. unfold nanos. cbn [neg inner]. unfold std_nanos in V. now rewrite V.
  - intros L. subst r. unfold negative, positive. rewrite (K2 L). now destruct b.
Qed.
Print Assumptions C05_constructors.
Theorem C05_from_std : forall b i, std_ok i -> duration_ok (from_std b i) /\ is_negative (from_std b i) = b /\ nanos (from_std b i) = if b then - std_nanos i else std_nanos i.
Proof. intros b i H. split; [exact H|]. split; reflexivity. Qed.
Print Assumptions C05_from_std.
Theorem C05_every_duration : forall d, duration_ok d -> exists s n, 0 <= s <= 18446744073709551615 /\ 0 <= n <= 999999999 /\
  Ok d = (if is_negative d then negative s n else positive s n).
Proof.
  intros d H. apply duration_ok_iff in H. destruct H as [H1 H2]. exists (secs (inner d)), (subsec (inner d)). split; [exact H1|]. split; [exact H2|].
  destruct d as [b [s n]]. cbn [is_negative neg inner secs subsec] in *. unfold negative, positive, std_new. replace (n <? 1000000000) with true by lia. now destruct b.
Qed.
Print Assumptions C05_every_duration.
Example C05_constructors_example : positive 1 4000000000 = Ok (Dur false (Std 5 0)) /\ negative 18446744073709551615 1000000000 = Crash CrashUnwrap /\
  negative 18446744073709551615 999999999 = Ok MIN /\ is_negative (Dur true (Std 0 0)) = true /\ negative 0 0 = Ok (Dur true (Std 0 0)).
Proof. repeat split. Qed.
