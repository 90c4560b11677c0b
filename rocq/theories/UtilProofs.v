(** * fundu-core/src/util.rs: the logarithms (C45) *)
From Verif Require Import Prelude Util TimeProofs.

Lemma floor_log2_spec x : 1 <= x <= u64_max -> floor_log2 x = Ok (Z.log2 x).
Proof.
  unfold u64_max. intros H. unfold floor_log2, leading_zeros_u64. destruct (Z.eqb_spec x 0); [lia|].
  replace (63 - (63 - Z.log2 x)) with (Z.log2 x) by lia.
  rewrite chk_true; [reflexivity|]. apply is_u32_iff. pose proof (Z.log2_nonneg x).
  assert (Z.log2 x < 64) by (apply Z.log2_lt_pow2; lia). lia.
Qed.
Lemma floor_log2_zero : floor_log2 0 = Crash CrashUnwrap. Proof. reflexivity. Qed.

(** the table: for every power of two *)
Definition guess_ok (l : nat) : bool :=
  match nth_error GUESS_TABLE l with
  | None => false
  | Some g => (0 <=? g) && (10 ^ g <=? 2 ^ Z.of_nat l) && (2 ^ (Z.of_nat l + 1) <=? 10 ^ (g + 2)) &&
      match nth_error POW10 (Z.to_nat (g + 1)) with Some p => (p =? 10 ^ (g + 1)) && (g + 1 <=? 19) | None => false end
  end.
Lemma guess_all : forallb guess_ok (seq 0 64) = true. Proof. vm_compute. reflexivity. Qed.

Lemma floor_log10_spec x : 1 <= x <= u64_max ->
  exists k, floor_log10 x = Ok k /\ 0 <= k /\ 10 ^ k <= x < 10 ^ (k + 1).
Proof.
  intros H. unfold floor_log10. rewrite floor_log2_spec by exact H. cbn [bind].
  assert (HL : (Z.to_nat (Z.log2 x) < 64)%nat).
  { unfold u64_max in H. assert (Z.log2 x < 64) by (apply Z.log2_lt_pow2; lia). lia. }
  pose proof (proj1 (forallb_forall _ _) guess_all (Z.to_nat (Z.log2 x))) as G.
  rewrite in_seq in G. specialize (G ltac:(lia)). unfold guess_ok in G.
  destruct (nth_error GUESS_TABLE _) as [g|]; [|discriminate]. cbn [bind]. 
  rewrite !andb_true_iff in G. destruct G as [[[G1 G2] G3] G4]. apply Z.leb_le in G1, G2, G3.
  pose proof (Z.log2_nonneg x) as LN. rewrite Z2Nat.id in * by lia.
  pose proof (Z.log2_spec x ltac:(lia)) as LS. rewrite <- Z.add_1_r in LS.
  destruct (nth_error POW10 (Z.to_nat (g + 1))) as [p|] eqn:P; [|discriminate]. apply andb_true_iff in G4. destruct G4 as [G4 G5].
  apply Z.eqb_eq in G4. apply Z.leb_le in G5. subst p.
  rewrite arith_ok by (apply is_u32_iff; lia). cbn [bind]. unfold pow10. rewrite P. cbn [bind].
  destruct (Z.leb_spec (10 ^ (g + 1)) x); eexists; (split; [reflexivity|]); (split; [lia|]).
  - replace (g + 1 + 1) with (g + 2) by lia. lia.
  - lia.
Qed.
