(** * Property C63, continued: how long the text of a duration is *)
From Verif Require Import Prelude Util Time Config SpecTime SpecNum TimeProofs NumProofs PropTime PropDisplay PropText.

Lemma decimal_length v s n : decimal v s -> v < 10 ^ Z.of_nat (S n) -> (1 <= length s <= S n)%nat.
Proof.
  intros (D & V & H) B. destruct s as [|x s]; [destruct H|]. split; [cbn; lia|]. cbn [length]. destruct s as [|y s]; [cbn; lia|].
  pose proof (dval_cons x (y :: s)) as E. rewrite V in E.
  assert (0 <= dval (y :: s)) by (apply NumProofs.dval_nonneg; intros b Hb; apply D; right; exact Hb).
  assert (48 <= x <= 57) by (apply D; left; reflexivity).
  set (k := length (y :: s)) in *. assert (10 ^ Z.of_nat k <= v) by (pose proof (Z.pow_pos_nonneg 10 (Z.of_nat k)); nia).
  destruct (le_lt_dec (S n) k) as [L|L]; [|lia]. exfalso. assert (10 ^ Z.of_nat (S n) <= 10 ^ Z.of_nat k) by (apply Z.pow_le_mono_r; lia). lia.
Qed.

(** the most digits of a part and its place in the order of units *)
Definition width (u : time_unit) : nat :=
  match u with NanoSecond | MicroSecond | MilliSecond => 3 | Second | Minute | Hour | Month => 2 | Day | Week => 1 | Year => 12 end.
Definition rank (u : time_unit) : nat :=
  match u with NanoSecond => 0 | MicroSecond => 1 | MilliSecond => 2 | Second => 3 | Minute => 4 | Hour => 5 | Day => 6 | Week => 7 | Month => 8 | Year => 9 end.
Definition bound (n : nat) : Z :=
  match n with 0%nat => 1 | 1%nat => 1000 | 2%nat => 1000000 | 3%nat => 1000000000 | 4%nat => 60000000000 | 5%nat => 3600000000000
  | 6%nat => 86400000000000 | 7%nat => 604800000000000 | 8%nat => 2629800000000000 | 9%nat => 31557600000000000 | _ => 18446744073709551616000000000 end.
Definition most (n : nat) : nat :=
  match n with 0%nat => 0 | 1%nat => 5 | 2%nat => 10 | 3%nat => 15 | 4%nat => 18 | 5%nat => 21 | 6%nat => 24 | 7%nat => 26 | 8%nat => 28 | 9%nat => 31 | _ => 44 end.

Lemma bound_rank u : bound (rank u) = nanos_of_unit u.
Proof. destruct u; reflexivity. Qed.
Lemma bound_mono n m : (n <= m)%nat -> (m <= 10)%nat -> bound n <= bound m.
Proof.
  intros H. induction H as [|m H IH]; intros L; [lia|]. specialize (IH ltac:(lia)).
  assert (bound m <= bound (S m)) by (do 10 (destruct m as [|m]; [vm_compute; intros K; discriminate K|]); lia). lia.
Qed.
Lemma most_mono n m : (n <= m)%nat -> (m <= 10)%nat -> (most n <= most m)%nat.
Proof.
  intros H. induction H as [|m H IH]; intros L; [lia|]. specialize (IH ltac:(lia)).
  assert (most m <= most (S m))%nat by (do 10 (destruct m as [|m]; [apply Nat.leb_le; reflexivity|]); lia). lia.
Qed.
Lemma rank_below u n : nanos_of_unit u < bound n -> (rank u < n)%nat.
Proof.
  destruct (le_lt_dec n (rank u)) as [L|L]; [|auto]. intros H. exfalso. rewrite <- bound_rank in H.
  assert (bound n <= bound (rank u)) by (apply bound_mono; [exact L|destruct u; cbn; lia]). lia.
Qed.
Lemma one_part v u t r n : decimal v t -> 1 <= v -> 0 <= r -> (forall u', nanos_of_unit u' <= v * nanos_of_unit u + r -> nanos_of_unit u' <= nanos_of_unit u) ->
  v * nanos_of_unit u + r < bound n -> (n <= 10)%nat ->
  (rank u < n)%nat /\ (1 <= length t)%nat /\ (most (rank u) + length t + length (documented_identifier u) <= most (S (rank u)))%nat.
Proof.
  intros D V R G B N. assert (U : 0 < nanos_of_unit u) by (destruct u; reflexivity).
  split; [apply rank_below; nia|]. pose proof (bound_mono n 10 N (le_n 10)) as B10. change (bound 10) with 18446744073709551616000000000 in B10.
  assert (M : v < 10 ^ Z.of_nat (width u)).
  { destruct (Z_lt_le_dec v (10 ^ Z.of_nat (width u))) as [L|L]; [exact L|exfalso].
    destruct u;
      [specialize (G MicroSecond)|specialize (G MilliSecond)|specialize (G Second)|specialize (G Minute)|specialize (G Hour)|
       specialize (G Day)|specialize (G Week)|specialize (G Month)|specialize (G Year)|clear G];
      cbn in *; lia. }
  assert (W : (1 <= length t <= width u)%nat) by (destruct u; exact (decimal_length v t _ D M)).
  split; [lia|]. destruct u; cbn in *; lia.
Qed.
Lemma length_most ng l s : written ng l s -> greedy l -> forall n, sum_of_parts l < bound n -> (n <= 10)%nat ->
  (2 <= length s)%nat /\ (length s + 1 <= most n + n + (if ng then n else 0))%nat.
Proof.
  intros W. induction W as [v u t D|v u t l s' D W IH]; intros (G1 & G2 & G3 & G4) n B N;
    unfold sum_of_parts in B, G2; cbn [fold_right fst snd] in B, G2.
  - destruct (one_part v u t 0 n D G1 ltac:(lia) G2 B N) as (L & M & K). pose proof (most_mono (S (rank u)) n L N). rewrite !app_length.
    assert (1 <= length (documented_identifier u))%nat by (destruct u; cbn; lia). destruct ng; [change (length (%"-")) with 1%nat|change (length (@nil Z)) with 0%nat]; lia.
  - fold (sum_of_parts l) in B, G2. pose proof (greedy_nonneg l G4) as P.
    destruct (one_part v u t (sum_of_parts l) n D G1 P G2 B N) as (L & M & K). pose proof (most_mono (S (rank u)) n L N).
    destruct (IH G4 (rank u)) as (I1 & I2); [rewrite bound_rank; exact G3|lia|]. rewrite !app_length. change (length (%" ")) with 1%nat.
    destruct ng; [change (length (%"-")) with 1%nat|change (length (@nil Z)) with 0%nat]; lia.
Qed.

(** [C63] the text of a duration has between 2 and 53 characters, or 63 if it is negative: no duration needs a larger buffer *)
Theorem C63_length : forall d, duration_ok d ->
  (2 <= length (display d) <= if (nanos d <? 0)%Z then 63 else 53)%nat.
Proof.
  intros d Hd. destruct (Z.eq_dec (nanos d) 0) as [Z0|Z0].
  - rewrite (proj1 (C63_zero d Hd) Z0), Z0. cbn. lia.
  - destruct (C63_canonical_text d Hd Z0) as (l & W & G & S).
    assert (B : sum_of_parts l < bound 10).
    { rewrite S. change (bound 10) with 18446744073709551616000000000. destruct Hd as [H1 H2]. unfold is_u64, inb, nanos, u64_max in *. destruct (neg d); cbn in *; lia. }
    destruct (length_most _ l _ W G 10 B (le_n 10)) as (I1 & I2). split; [exact I1|]. change (most 10) with 44%nat in I2. destruct (nanos d <? 0); lia.
Qed.
Print Assumptions C63_length.
(** both bounds are reached *)
Example C63_length_example :
  length (display (Dur false (Std 1 0))) = 2%nat /\
  display (Dur true (Std (584542046089 * 31557600 + 11 * 2629800 + 4 * 604800 + 86400 + 86399) 999999999)) = %"-584542046089y -11M -4w -1d -23h -59m -59s -999ms -999Ms -999ns" /\
  length (display (Dur true (Std (584542046089 * 31557600 + 11 * 2629800 + 4 * 604800 + 86400 + 86399) 999999999))) = 63%nat /\
  length (display (Dur false (Std (584542046089 * 31557600 + 11 * 2629800 + 4 * 604800 + 86400 + 86399) 999999999))) = 53%nat /\
  duration_ok (Dur true (Std (584542046089 * 31557600 + 11 * 2629800 + 4 * 604800 + 86400 + 86399) 999999999)).
Proof. split; [reflexivity|]. split; [vm_compute; reflexivity|]. split; [vm_compute; reflexivity|]. split; [vm_compute; reflexivity|]. split; vm_compute; reflexivity. Qed.
