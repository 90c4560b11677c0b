(** * Property C63: the text of a duration is canonical *)
From Verif Require Import Prelude Util Time Config SpecTime SpecNum SpecValue TimeProofs NumProofs PropNum Standard PropTime PropDisplay.

(** ** the specification: a list of whole numbers of units *)
(** the length of a unit in nanoseconds *)
Definition nanos_of_unit (u : time_unit) : Z :=
  match u with
  | NanoSecond => 1 | MicroSecond => 1000 | MilliSecond => 1000000 | Second => 1000000000 | Minute => 60000000000 | Hour => 3600000000000
  | Day => 86400000000000 | Week => 604800000000000 | Month => 2629800000000000 | Year => 31557600000000000
  end.
Definition sum_of_parts (l : list (Z * time_unit)) : Z := fold_right (fun p a => fst p * nanos_of_unit (snd p) + a) 0 l.
(** every unit is the longest one which fits into what is to be written, and is used as often as it fits *)
Fixpoint greedy (l : list (Z * time_unit)) : Prop :=
  match l with
  | [] => True
  | (v, u) :: l' => 1 <= v /\ (forall u', nanos_of_unit u' <= sum_of_parts l -> nanos_of_unit u' <= nanos_of_unit u) /\
      sum_of_parts l' < nanos_of_unit u /\ greedy l'
  end.
(** a number in decimal digits without needless zeros *)
Definition decimal (v : Z) (s : str) : Prop :=
  digit_string s /\ dval s = v /\ match s with [] => False | [_] => True | x :: _ => x <> 48 end.
Definition documented_identifier (u : time_unit) : str :=
  match u with
  | NanoSecond => %"ns" | MicroSecond => %"Ms" | MilliSecond => %"ms" | Second => %"s" | Minute => %"m" | Hour => %"h"
  | Day => %"d" | Week => %"w" | Month => %"M" | Year => %"y"
  end.
(** number and unit, all with a minus sign if the duration is negative, with a space between them *)
Inductive written (negative : bool) : list (Z * time_unit) -> str -> Prop :=
| wr_one v u s : decimal v s -> written negative [(v, u)] ((if negative then %"-" else []) ++ s ++ documented_identifier u)
| wr_more v u s l t : decimal v s -> written negative l t ->
    written negative ((v, u) :: l) (((if negative then %"-" else []) ++ s ++ documented_identifier u) ++ %" " ++ t).

(** ** proofs *)
Lemma unit_ns_same u : nanos_of_unit u = unit_ns u.
Proof. destruct u; reflexivity. Qed.
Lemma sum_total l : sum_of_parts l = total l.
Proof. induction l as [|p l IH]; [reflexivity|]. unfold sum_of_parts, total in *. cbn [fold_right]. rewrite IH. unfold part_ns. now rewrite unit_ns_same. Qed.
Lemma id_same u : documented_identifier u = default_identifier u.
Proof. destruct u; reflexivity. Qed.

(** the parts found so far and what remains *)
Definition below (u : time_unit) (R : Z) : Prop := forall u', unit_ns u < unit_ns u' -> R < unit_ns u'.
Fixpoint fits (l : list part) (R : Z) : Prop :=
  match l with [] => True | (v, u) :: l' => 1 <= v /\ below u (total l + R) /\ total l' + R < unit_ns u /\ fits l' R end.
Lemma fits_app l v u R R' : v * unit_ns u + R' = R -> fits l R -> 1 <= v -> below u R -> R' < unit_ns u -> fits (l ++ [(v, u)]) R'.
Proof.
  intros E' H Hv HB HR. induction l as [|[w x] l IH]; cbn [app fits].
  - split; [exact Hv|]. split; [|split; [unfold total; cbn; lia|exact I]]. replace (total [(v, u)] + R') with R by (unfold total; cbn [fold_right]; unfold part_ns; cbn [fst snd]; lia). exact HB.
  - destruct H as (H1 & HB2 & H2 & H3). split; [exact H1|].
    assert (T : total (l ++ [(v, u)]) + R' = total l + R) by (rewrite total_app; unfold total at 2; cbn [fold_right]; unfold part_ns; cbn [fst snd]; lia).
    split; [|split; [lia|auto]]. intros u' L. specialize (HB2 u' L). unfold total in *. cbn [fold_right] in *. lia.
Qed.
Lemma fits_zero l : fits l 0 -> greedy l.
Proof.
  induction l as [|[v u] l IH]; [auto|]. cbn [fits greedy]. intros (H1 & HB & H2 & H3). rewrite !sum_total. split; [exact H1|]. split; [|split; [rewrite unit_ns_same; lia|auto]].
  intros u'. rewrite !unit_ns_same. intros H. destruct (Z_lt_le_dec (unit_ns u) (unit_ns u')) as [L|L]; [|exact L]. specialize (HB u' L). lia.
Qed.

Lemma fmt_part_fits U u l s k q : 0 < U -> 0 < k -> 0 <= s <= u64_max -> 0 <= q < k -> unit_ns u = U * k -> Forall part_ok l -> fits l (s * k + q) ->
  below u (s * k + q) ->
  exists l' s', fmt_part U (default_identifier u) (map text l, s) = (map text l', s') /\ 0 <= s' <= s /\ Forall part_ok l' /\
    fits l' (s' * k + q) /\ total l' + s' * k = total l + s * k /\ s' * k + q < unit_ns u.
Proof.
  intros HU Hk Hs Hq Eu Hl Hf Hb. unfold fmt_part. destruct (U <=? s) eqn:E.
  - pose proof (Z.mod_pos_bound s U HU). pose proof (Z.div_mod s U). pose proof (Z.mod_le s U).
    assert (s / U <= s) by (apply Z.div_le_upper_bound; nia).
    assert (1 <= s / U) by (apply Z.div_le_lower_bound; lia).
    exists (l ++ [(s / U, u)]), (s mod U). rewrite map_app. split; [reflexivity|]. split; [lia|]. split; [|split; [|split]].
    + apply Forall_app. split; [exact Hl|]. constructor; [|constructor]. unfold part_ok. cbn. lia.
    + apply fits_app with (s * k + q); auto; rewrite Eu; nia.
    + rewrite total_app. unfold total at 2. cbn [fold_right]. unfold part_ns. cbn [fst snd]. rewrite Eu. nia.
    + rewrite Eu. nia.
  - exists l, s. split; [reflexivity|]. split; [lia|]. split; [exact Hl|]. split; [exact Hf|]. split; [reflexivity|]. rewrite Eu. nia.
Qed.
Ltac step_below := intros u' Hu'; destruct u'; vm_compute in Hu'; try discriminate Hu';
  repeat match goal with H : _ < unit_ns ?u |- _ => let v := eval vm_compute in (unit_ns u) in change (unit_ns u) with v in H end;
  match goal with |- _ < unit_ns ?u => let v := eval vm_compute in (unit_ns u) in change (unit_ns u) with v end; lia.

Lemma fmt_parts_fits d : duration_ok d ->
  exists l, fmt_parts d = map text l /\ Forall part_ok l /\ total l = std_nanos (inner d) /\ fits l 0.
Proof.
  intros [H1 H2]. unfold is_u64, inb in *. set (s0 := secs (inner d)) in *. set (n0 := subsec (inner d)) in *.
  assert (B0 : 0 <= n0 < 1000000000) by lia.
  assert (P1 : exists l, (if 0 <? s0 then
      let st := fmt_part 31557600 (%"y") ([], s0) in
      let st := fmt_part 2629800 (%"M") st in
      let st := fmt_part 604800 (%"w") st in
      let st := fmt_part 86400 (%"d") st in
      let st := fmt_part 3600 (%"h") st in
      let '(r, s) := fmt_part 60 (%"m") st in
      if 1 <=? s then r ++ [dec s ++ %"s"] else r
    else []) = map text l /\ Forall part_ok l /\ total l = s0 * 1000000000 /\ fits l n0).
  { destruct (0 <? s0) eqn:E0; [|exists []; cbn; split; [reflexivity|split; [constructor|split; [lia|exact I]]]]. cbn zeta.
    destruct (fmt_part_fits 31557600 Year [] s0 1000000000 n0) as (l1 & s1 & E1 & B1 & F1 & G1 & T1 & L1); [lia|lia|lia|lia|reflexivity|constructor|exact I|step_below|].
    cbn [map] in E1. change (%"y") with (default_identifier Year). rewrite E1.
    destruct (fmt_part_fits 2629800 Month l1 s1 1000000000 n0) as (l2 & s2 & E2 & B2 & F2 & G2 & T2 & L2); [lia|lia|lia|lia|reflexivity|exact F1|exact G1|step_below|].
    change (%"M") with (default_identifier Month). rewrite E2.
    destruct (fmt_part_fits 604800 Week l2 s2 1000000000 n0) as (l3 & s3 & E3 & B3 & F3 & G3 & T3 & L3); [lia|lia|lia|lia|reflexivity|exact F2|exact G2|step_below|].
    change (%"w") with (default_identifier Week). rewrite E3.
    destruct (fmt_part_fits 86400 Day l3 s3 1000000000 n0) as (l4 & s4 & E4 & B4 & F4 & G4 & T4 & L4); [lia|lia|lia|lia|reflexivity|exact F3|exact G3|step_below|].
    change (%"d") with (default_identifier Day). rewrite E4.
    destruct (fmt_part_fits 3600 Hour l4 s4 1000000000 n0) as (l5 & s5 & E5 & B5 & F5 & G5 & T5 & L5); [lia|lia|lia|lia|reflexivity|exact F4|exact G4|step_below|].
    change (%"h") with (default_identifier Hour). rewrite E5.
    destruct (fmt_part_fits 60 Minute l5 s5 1000000000 n0) as (l6 & s6 & E6 & B6 & F6 & G6 & T6 & L6); [lia|lia|lia|lia|reflexivity|exact F5|exact G5|step_below|].
    change (%"m") with (default_identifier Minute). rewrite E6.
    unfold total in T1 at 2. cbn [fold_right] in T1.
    destruct (1 <=? s6) eqn:E7.
    - exists (l6 ++ [(s6, Second)]). rewrite map_app. split; [reflexivity|]. split; [|split].
      + apply Forall_app. split; [exact F6|]. constructor; [unfold part_ok; cbn; lia|constructor].
      + rewrite total_app. unfold total at 2. cbn [fold_right]. unfold part_ns. cbn [fst snd]. change (unit_ns Second) with 1000000000. lia.
      + apply fits_app with (s6 * 1000000000 + n0); [change (unit_ns Second) with 1000000000; lia|exact G6|lia|step_below|change (unit_ns Second) with 1000000000; lia].
    - exists l6. split; [reflexivity|]. split; [exact F6|]. assert (s6 = 0) by lia. subst s6. split; [lia|]. replace (0 * 1000000000 + n0) with n0 in G6 by lia. exact G6. }
  destruct P1 as (l & E & F & T & G).
  unfold fmt_parts. fold s0 n0. cbn zeta. cbn zeta in E. rewrite E. unfold std_nanos. fold s0 n0.
  destruct (0 <? n0) eqn:E0; [|exists l; assert (n0 = 0) as -> by lia; split; [reflexivity|]; split; [exact F|]; split; [lia|exact G]].
  assert (Bu : 0 <= n0 <= u64_max) by (unfold u64_max; lia).
  destruct (fmt_part_fits 1000000 MilliSecond l n0 1 0) as (l1 & s1 & E1 & B1 & F1 & G1 & T1 & L1); [lia|lia|exact Bu|lia|reflexivity|exact F|replace (n0 * 1 + 0) with n0 by lia; exact G|step_below|].
  change (%"ms") with (default_identifier MilliSecond). rewrite E1.
  destruct (fmt_part_fits 1000 MicroSecond l1 s1 1 0) as (l2 & s2 & E2 & B2 & F2 & G2 & T2 & L2); [lia|lia|lia|lia|reflexivity|exact F1|exact G1|step_below|].
  change (%"Ms") with (default_identifier MicroSecond). rewrite E2.
  destruct (1 <=? s2) eqn:E7.
  - exists (l2 ++ [(s2, NanoSecond)]). rewrite map_app. split; [reflexivity|]. split; [|split].
    + apply Forall_app. split; [exact F2|]. constructor; [unfold part_ok; cbn; lia|constructor].
    + rewrite total_app. unfold total at 2. cbn [fold_right]. unfold part_ns. cbn [fst snd]. change (unit_ns NanoSecond) with 1. lia.
    + apply fits_app with (s2 * 1 + 0); [change (unit_ns NanoSecond) with 1; lia|exact G2|lia|step_below|change (unit_ns NanoSecond) with 1; lia].
  - exists l2. split; [reflexivity|]. split; [exact F2|]. assert (s2 = 0) by lia. subst s2. split; [lia|exact G2].
Qed.

Lemma dec_fuel_head n : forall x, 0 <= x < 10 ^ Z.of_nat (S n) -> match dec_fuel (S n) x with [] => False | [_] => True | y :: _ => y <> 48 end.
Proof.
  assert (G : forall n x, 1 <= x < 10 ^ Z.of_nat (S n) -> exists y r, dec_fuel (S n) x = y :: r /\ y <> 48).
  { clear. induction n as [|n IH]; intros x H; cbn [dec_fuel].
    - change (10 ^ Z.of_nat 1) with 10 in H. replace (x <? 10) with true by lia. exists (48 + x), []. split; [reflexivity|lia].
    - destruct (x <? 10) eqn:E; [exists (48 + x), []; split; [reflexivity|lia]|]. rewrite Nat2Z.inj_succ, Z.pow_succ_r in H by lia.
      destruct (IH (x / 10)) as (y & r & Er & Hy).
      { split; [apply Z.div_le_lower_bound; lia|]. apply Z.div_lt_upper_bound; lia. }
      cbn [dec_fuel] in Er. rewrite Er. exists y, (r ++ [48 + x mod 10]). split; [reflexivity|exact Hy]. }
  intros x H. destruct (Z.eq_dec x 0) as [->|N]; [cbn; exact I|]. destruct (G n x) as (y & r & -> & Hy); [lia|]. destruct r; auto.
Qed.
Lemma dec_decimal x : 0 <= x <= u64_max -> decimal x (dec x).
Proof.
  intros H. destruct (dec_spec x H) as (H1 & H2 & H3). split; [exact H2|]. split; [exact H3|]. apply (dec_fuel_head 39).
  assert (u64_max < 10 ^ Z.of_nat 40) by reflexivity. lia.
Qed.
Lemma written_join ng l : l <> [] -> Forall part_ok l -> written ng l (sign_of ng ++ join (32 :: sign_of ng) (map text l)).
Proof.
  induction l as [|[v u] l IH]; intros N F; [congruence|]. inversion F as [|? ? Hp Hl]; subst. unfold part_ok in Hp. cbn [fst] in Hp. destruct l as [|q l].
  - cbn [map join]. unfold text. cbn [fst snd]. rewrite <- (id_same u). exact (wr_one ng v u (dec v) (dec_decimal v Hp)).
  - assert (Nq : q :: l <> []) by discriminate. pose proof (wr_more ng v u (dec v) (q :: l) _ (dec_decimal v Hp) (IH Nq Hl)) as W.
    assert (E : sign_of ng ++ join (32 :: sign_of ng) (map text ((v, u) :: q :: l)) =
      ((if ng then %"-" else []) ++ dec v ++ documented_identifier u) ++ %" " ++ sign_of ng ++ join (32 :: sign_of ng) (map text (q :: l))).
    { change (join (32 :: sign_of ng) (map text ((v, u) :: q :: l))) with (text (v, u) ++ (32 :: sign_of ng) ++ join (32 :: sign_of ng) (map text (q :: l))).
      unfold text at 1. cbn [fst snd]. rewrite (id_same u). fold (sign_of ng). rewrite <- !app_assoc. reflexivity. }
    refine (eq_ind_r (fun t => written ng ((v, u) :: q :: l) t) W E).
Qed.
Lemma display_written d : duration_ok d -> is_zero d = false ->
  exists l, written (neg d) l (display d) /\ greedy l /\ sum_of_parts l = std_nanos (inner d) /\ display d = sign_of (neg d) ++ join (32 :: sign_of (neg d)) (map text l).
Proof.
  intros Hd Z0. destruct (fmt_parts_fits d Hd) as (l & E & F & T & G).
  assert (N : l <> []).
  { intros ->. unfold total in T. cbn in T. unfold is_zero, std_is_zero in Z0. unfold std_nanos in T. destruct Hd as [H1 H2]. unfold is_u64, inb in *. lia. }
  assert (D : display d = sign_of (neg d) ++ join (32 :: sign_of (neg d)) (map text l)).
  { unfold display. rewrite Z0, E. unfold is_negative. destruct (neg d); reflexivity. }
  exists l. split; [rewrite D; now apply written_join|]. split; [now apply fits_zero|]. split; [now rewrite sum_total|exact D].
Qed.

(** [C63] a duration is written as a greedy sum of units (the longest unit first), every part with a minus sign if it is negative *)
Theorem C63_canonical_text : forall d, duration_ok d -> nanos d <> 0 ->
  exists l, written (nanos d <? 0) l (display d) /\ greedy l /\ sum_of_parts l = Z.abs (nanos d).
Proof.
  intros d Hd Hn.
  assert (B : 0 <= std_nanos (inner d)) by (destruct Hd as [H1 H2]; unfold is_u64, inb, std_nanos in *; lia).
  assert (Ns : nanos d = signed_nanos (neg d) (std_nanos (inner d))) by (unfold nanos, signed_nanos, std_nanos; now destruct (neg d)).
  assert (Z0 : is_zero d = false).
  { destruct (is_zero d) eqn:E; [|reflexivity]. destruct Hn. rewrite Ns. unfold is_zero, std_is_zero in E. unfold signed_nanos, std_nanos. destruct (neg d); lia. }
  destruct (display_written d Hd Z0) as (l & H1 & H2 & H3 & _). exists l.
  replace (nanos d <? 0) with (neg d) by (rewrite Ns in *; unfold signed_nanos in *; destruct (neg d); lia). split; [exact H1|]. split; [exact H2|].
  rewrite H3, Ns. unfold signed_nanos. destruct (neg d); lia.
Qed.
Print Assumptions C63_canonical_text.
Example C63_example : display (Dur true (Std 36820859 5000)) = %"-1y -2M -1h -59s -5Ms" /\ nanos (Dur true (Std 36820859 5000)) <> 0 /\
  ~ greedy [(1, Year); (12, Month)] /\ ~ greedy [(90, Second)].
Proof.
  split; [reflexivity|]. split; [discriminate|]. split; [intros (_ & _ & H & _); vm_compute in H; discriminate H|].
  intros (_ & H & _). specialize (H Minute). vm_compute in H. apply H; [discriminate|reflexivity].
Qed.

(** a zero of either sign *)
Theorem C63_zero : forall d, duration_ok d -> (nanos d = 0 <-> display d = %"0ns").
Proof.
  intros d Hd.
  assert (Z0 : is_zero d = true <-> nanos d = 0).
  { destruct Hd as [K1 K2]. unfold is_zero, std_is_zero, nanos, is_u64, inb in *. destruct (neg d); lia. }
  split; [intros H; unfold display; now rewrite (proj2 Z0 H)|]. intros H. apply Z0. destruct (is_zero d) eqn:E; [reflexivity|]. exfalso.
  assert (Hn : nanos d <> 0) by (intros K; apply Z0 in K; congruence).
  destruct (C63_canonical_text d Hd Hn) as (l & W & G & _). rewrite H in W.
  assert (D : forall v s t, decimal v s -> 1 <= v -> forall sg, %"0ns" = (sg ++ s) ++ t -> sg = [] \/ sg = %"-" -> False).
  { intros v s t (_ & Hv & Hs) H1 sg Es Hsg. destruct Hsg as [-> | ->]; [|discriminate Es]. destruct s as [|x s]; [destruct Hs|].
    injection Es as <- Es. destruct s as [|y s]; [cbn in Hv; lia|]. cbn in Hs. congruence. }
  destruct l as [|[v u] l]; [inversion W|]. destruct G as (Gv & _).
  assert (S : forall b : bool, (if b then %"-" else []) = [] \/ (if b then %"-" else []) = %"-") by (intros []; auto).
  assert (G2 : forall text, written (nanos d <? 0) ((v, u) :: l) text -> exists s t, decimal v s /\ text = ((if nanos d <? 0 then %"-" else []) ++ s) ++ t).
  { intros text Wt. inversion Wt; subst; rewrite <- ?app_assoc; do 2 eexists; (split; [eassumption|rewrite <- ?app_assoc; reflexivity]). }
  destruct (G2 _ W) as (s & t & K & Et). exact (D v s t K Gv _ Et (S _)).
Qed.
Print Assumptions C63_zero.

(** the greedy sum of a value is unique *)
Lemma greedy_nonneg l : greedy l -> 0 <= sum_of_parts l.
Proof.
  induction l as [|[v u] l IH]; [unfold sum_of_parts; cbn; lia|]. intros (H1 & _ & _ & H3). specialize (IH H3). unfold sum_of_parts in *. cbn [fold_right fst snd].
  assert (0 < nanos_of_unit u) by (destruct u; reflexivity). nia.
Qed.
Lemma unit_inj u1 u2 : nanos_of_unit u1 = nanos_of_unit u2 -> u1 = u2.
Proof. destruct u1, u2; intros H; try reflexivity; discriminate H. Qed.
Theorem C63_one_decomposition : forall l1 l2, greedy l1 -> greedy l2 -> sum_of_parts l1 = sum_of_parts l2 -> l1 = l2.
Proof.
  assert (P : forall u, 0 < nanos_of_unit u) by (intros u; destruct u; reflexivity).
  assert (S : forall v u l, greedy ((v, u) :: l) -> nanos_of_unit u <= sum_of_parts ((v, u) :: l) /\ 0 <= sum_of_parts l < nanos_of_unit u /\
    sum_of_parts ((v, u) :: l) = v * nanos_of_unit u + sum_of_parts l).
  { intros v u l (H1 & H2 & H3 & H4). pose proof (greedy_nonneg l H4). specialize (P u).
    assert (E : sum_of_parts ((v, u) :: l) = v * nanos_of_unit u + sum_of_parts l) by reflexivity. split; [nia|]. split; [lia|exact E]. }
  induction l1 as [|[v1 u1] l1 IH]; intros [|[v2 u2] l2] G1 G2 E.
  - reflexivity.
  - destruct (S _ _ _ G2) as (A & _ & _). specialize (P u2). change (sum_of_parts []) with 0 in E. lia.
  - destruct (S _ _ _ G1) as (A & _ & _). specialize (P u1). change (sum_of_parts []) with 0 in E. lia.
  - destruct (S _ _ _ G1) as (A1 & B1 & C1), (S _ _ _ G2) as (A2 & B2 & C2).
    destruct G1 as (_ & M1 & _ & G1), G2 as (_ & M2 & _ & G2).
    assert (u1 = u2) as ->.
    { apply unit_inj. specialize (M1 u2 ltac:(lia)). specialize (M2 u1 ltac:(lia)). lia. }
    assert (v1 = v2 /\ sum_of_parts l1 = sum_of_parts l2) as [-> El].
    { apply (Z.div_mod_unique (nanos_of_unit u2)); [left; lia|left; lia|lia]. }
    f_equal. now apply IH.
Qed.
Print Assumptions C63_one_decomposition.

(** equal durations have the same text, different ones different texts *)
Theorem C63_text_determines_value : forall d1 d2, duration_ok d1 -> duration_ok d2 -> (display d1 = display d2 <-> deqb d1 d2 = true).
Proof.
  intros d1 d2 H1 H2. split.
  - intros E. destruct (C10_display_parses_back d1 H1) as (a & A1 & _ & A2 & _), (C10_display_parses_back d2 H2) as (b & B1 & _ & B2 & _).
    rewrite E, B1 in A1. injection A1 as <-. apply C03_eq_is_value_equality; auto. lia.
  - intros E. apply C03_eq_is_value_equality in E; auto.
    assert (Ns : forall d, nanos d = signed_nanos (neg d) (std_nanos (inner d))) by (intros d; unfold nanos, signed_nanos, std_nanos; now destruct (neg d)).
    assert (B : forall d, duration_ok d -> 0 <= std_nanos (inner d) /\ (is_zero d = true <-> std_nanos (inner d) = 0)).
    { intros d [K1 K2]. unfold is_u64, inb, std_nanos, is_zero, std_is_zero in *. split; [lia|]. lia. }
    destruct (B d1 H1) as [P1 Z1], (B d2 H2) as [P2 Z2]. pose proof (Ns d1) as N1. pose proof (Ns d2) as N2.
    destruct (is_zero d1) eqn:E1, (is_zero d2) eqn:E2.
    + unfold display. now rewrite E1, E2.
    + exfalso. assert (std_nanos (inner d2) <> 0) by (intros K; apply Z2 in K; discriminate). assert (std_nanos (inner d1) = 0) by now apply Z1.
      unfold signed_nanos in *. destruct (neg d1), (neg d2); lia.
    + exfalso. assert (std_nanos (inner d1) <> 0) by (intros K; apply Z1 in K; discriminate). assert (std_nanos (inner d2) = 0) by now apply Z2.
      unfold signed_nanos in *. destruct (neg d1), (neg d2); lia.
    + assert (std_nanos (inner d1) <> 0) by (intros K; apply Z1 in K; discriminate). assert (std_nanos (inner d2) <> 0) by (intros K; apply Z2 in K; discriminate).
      destruct (display_written d1 H1 E1) as (l1 & _ & G1 & S1 & ->), (display_written d2 H2 E2) as (l2 & _ & G2 & S2 & ->).
      assert (neg d1 = neg d2) as -> by (unfold signed_nanos in *; destruct (neg d1), (neg d2); lia).
      assert (l1 = l2) as ->; [|reflexivity]. apply C63_one_decomposition; auto. unfold signed_nanos in *. destruct (neg d1), (neg d2); lia.
Qed.
Print Assumptions C63_text_determines_value.
Example C63_text_example : display (Dur true (Std 0 0)) = display ZERO /\ display ZERO = %"0ns" /\ display (Dur true (Std 0 1)) <> display (Dur false (Std 0 1)).
Proof. split; [reflexivity|]. split; [reflexivity|discriminate]. Qed.
