(** * Property C52: the laws of Duration arithmetic *)
From Verif Require Import Prelude Time SpecTime TimeProofs PropTime.

(** two checked results are the same: both absent, or both present and equal as durations *)
Definition same_result (x y : res (option duration)) : Prop :=
  (x = Ok None /\ y = Ok None) \/ exists d e, x = Ok (Some d) /\ y = Ok (Some e) /\ deqb d e = true.

Lemma representable_dec x : {representable x} + {~ representable x}.
Proof. unfold representable. destruct (Z_le_dec (- max_nanos) x), (Z_le_dec x max_nanos); [left; auto|right; lia..]. Qed.
Lemma checked_add_cases a b : duration_ok a -> duration_ok b ->
  (checked_add a b = Ok None /\ ~ representable (nanos a + nanos b)) \/
  exists c, checked_add a b = Ok (Some c) /\ duration_ok c /\ nanos c = nanos a + nanos b /\ representable (nanos a + nanos b).
Proof.
  intros Ha Hb. destruct (checked_add_iff a b Ha Hb) as [H1 H2].
  destruct (representable_dec (nanos a + nanos b)) as [R|R]; [right|left; auto]. destruct (H1 R) as (c & E & O & N). exists c. auto.
Qed.
Lemma checked_sub_cases a b : duration_ok a -> duration_ok b ->
  (checked_sub a b = Ok None /\ ~ representable (nanos a - nanos b)) \/
  exists c, checked_sub a b = Ok (Some c) /\ duration_ok c /\ nanos c = nanos a - nanos b /\ representable (nanos a - nanos b).
Proof.
  intros Ha Hb. destruct (checked_sub_iff a b Ha Hb) as [H1 H2].
  destruct (representable_dec (nanos a - nanos b)) as [R|R]; [right|left; auto]. destruct (H1 R) as (c & E & O & N). exists c. auto.
Qed.
Lemma same_some c e : duration_ok c -> duration_ok e -> nanos c = nanos e -> same_result (Ok (Some c)) (Ok (Some e)).
Proof. intros Hc He E. right. exists c, e. split; [reflexivity|]. split; [reflexivity|]. now apply deqb_iff. Qed.
Lemma ok_representable d : duration_ok d -> representable (nanos d).
Proof. intros H. apply representable_iff_between. exists d. auto. Qed.

Theorem C52_add_commutes : forall a b, duration_ok a -> duration_ok b -> same_result (checked_add a b) (checked_add b a).
Proof.
  intros a b Ha Hb. destruct (checked_add_cases a b Ha Hb) as [[-> N1]|(c & -> & Oc & Nc & R)];
    destruct (checked_add_cases b a Hb Ha) as [[-> N2]|(e & -> & Oe & Ne & R2)].
  - now left.
  - rewrite Z.add_comm in R2. contradiction.
  - rewrite Z.add_comm in N2. contradiction.
  - apply same_some; auto. lia.
Qed.
Print Assumptions C52_add_commutes.

Theorem C52_add_associates : forall a b c ab bc, duration_ok a -> duration_ok b -> duration_ok c ->
  checked_add a b = Ok (Some ab) -> checked_add b c = Ok (Some bc) ->
  same_result (checked_add ab c) (checked_add a bc).
Proof.
  intros a b c ab bc Ha Hb Hc E1 E2.
  destruct (checked_add_cases a b Ha Hb) as [[F _]|(x & E & Ox & Nx & _)]; [congruence|]. rewrite E1 in E. injection E as <-.
  destruct (checked_add_cases b c Hb Hc) as [[F _]|(y & E & Oy & Ny & _)]; [congruence|]. rewrite E2 in E. injection E as <-.
  destruct (checked_add_cases ab c Ox Hc) as [[-> N1]|(u & -> & Ou & Nu & R1)];
    destruct (checked_add_cases a bc Ha Oy) as [[-> N2]|(v & -> & Ov & Nv & R2)].
  - now left.
  - destruct N1. replace (nanos ab + nanos c) with (nanos a + nanos bc) by lia. assumption.
  - destruct N2. replace (nanos a + nanos bc) with (nanos ab + nanos c) by lia. assumption.
  - apply same_some; auto. lia.
Qed.
Print Assumptions C52_add_associates.
(** without the overflow both orders agree; MAX + MAX overflows although MAX + (MAX + MIN) does not *)
Example C52_add_associates_example :
  let ms := fun n => Dur false (Std 0 (n * 1000000)) in
  checked_add (ms 600) (ms 700) = Ok (Some (Dur false (Std 1 300000000))) /\
  checked_add (ms 700) MIN = Ok (Some (Dur true (Std 18446744073709551615 299999999))) /\
  same_result (checked_add (Dur false (Std 1 300000000)) MIN) (checked_add (ms 600) (Dur true (Std 18446744073709551615 299999999))).
Proof. cbv zeta. split; [reflexivity|]. split; [reflexivity|]. right. eexists _, _. split; [reflexivity|]. split; reflexivity. Qed.

Theorem C52_zero_is_neutral : forall a, duration_ok a -> same_result (checked_add a ZERO) (Ok (Some a)) /\ same_result (checked_sub a ZERO) (Ok (Some a)).
Proof.
  intros a Ha. pose proof (ok_representable a Ha) as R. assert (Z0 : nanos ZERO = 0) by reflexivity. split.
  - destruct (checked_add_cases a ZERO Ha ZERO_ok) as [[_ N]|(c & -> & Oc & Nc & _)]; [destruct N; now rewrite Z0, Z.add_0_r|]. apply same_some; auto. lia.
  - destruct (checked_sub_cases a ZERO Ha ZERO_ok) as [[_ N]|(c & -> & Oc & Nc & _)]; [destruct N; now rewrite Z0, Z.sub_0_r|]. apply same_some; auto. lia.
Qed.
Print Assumptions C52_zero_is_neutral.

Theorem C52_negation_is_inverse : forall a, duration_ok a ->
  same_result (checked_add a (dneg a)) (Ok (Some ZERO)) /\ same_result (checked_sub a a) (Ok (Some ZERO)).
Proof.
  intros a Ha. destruct (dneg_all a Ha) as (On & Nn & _). assert (R : representable 0) by (split; vm_compute; discriminate). split.
  - destruct (checked_add_cases a (dneg a) Ha On) as [[_ N]|(c & -> & Oc & Nc & _)].
    + destruct N. replace (nanos a + nanos (dneg a)) with 0 by lia. assumption.
    + apply same_some; auto; [exact ZERO_ok|]. change (nanos ZERO) with 0. lia.
  - destruct (checked_sub_cases a a Ha Ha) as [[_ N]|(c & -> & Oc & Nc & _)].
    + destruct N. replace (nanos a - nanos a) with 0 by lia. assumption.
    + apply same_some; auto; [exact ZERO_ok|]. change (nanos ZERO) with 0. lia.
Qed.
Print Assumptions C52_negation_is_inverse.

Theorem C52_sub_is_add_neg : forall a b, duration_ok a -> duration_ok b -> same_result (checked_sub a b) (checked_add a (dneg b)).
Proof.
  intros a b Ha Hb. destruct (dneg_all b Hb) as (On & Nn & _).
  destruct (checked_sub_cases a b Ha Hb) as [[-> N1]|(c & -> & Oc & Nc & R1)];
    destruct (checked_add_cases a (dneg b) Ha On) as [[-> N2]|(e & -> & Oe & Ne & R2)].
  - now left.
  - destruct N1. replace (nanos a - nanos b) with (nanos a + nanos (dneg b)) by lia. assumption.
  - destruct N2. replace (nanos a + nanos (dneg b)) with (nanos a - nanos b) by lia. assumption.
  - apply same_some; auto. lia.
Qed.
Print Assumptions C52_sub_is_add_neg.

Theorem C52_sub_undoes_add : forall a b c, duration_ok a -> duration_ok b -> checked_add a b = Ok (Some c) ->
  same_result (checked_sub c b) (Ok (Some a)).
Proof.
  intros a b c Ha Hb E. destruct (checked_add_cases a b Ha Hb) as [[F _]|(x & E' & Ox & Nx & _)]; [congruence|]. rewrite E in E'. injection E' as <-.
  destruct (checked_sub_cases c b Ox Hb) as [[_ N]|(e & -> & Oe & Ne & _)].
  - destruct N. replace (nanos c - nanos b) with (nanos a) by lia. now apply ok_representable.
  - apply same_some; auto. lia.
Qed.
Print Assumptions C52_sub_undoes_add.
Example C52_laws_example : duration_ok (Dur true (Std 3 7)) /\
  checked_add (Dur true (Std 3 7)) (Dur false (Std 5 0)) = Ok (Some (Dur false (Std 1 999999993))) /\
  checked_sub (Dur false (Std 1 999999993)) (Dur false (Std 5 0)) = Ok (Some (Dur true (Std 3 7))) /\
  checked_add (Dur true (Std 3 7)) (dneg (Dur true (Std 3 7))) = Ok (Some ZERO) /\
  checked_add MAX (dneg MIN) = Ok None /\ checked_sub MAX MIN = Ok None.
Proof. vm_compute. repeat split; congruence. Qed.

(** the order is compatible with the arithmetic *)
Theorem C52_add_keeps_order : forall a b c x y, duration_ok a -> duration_ok b -> duration_ok c ->
  checked_add a c = Ok (Some x) -> checked_add b c = Ok (Some y) -> dcmp x y = dcmp a b.
Proof.
  intros a b c x y Ha Hb Hc E1 E2.
  destruct (checked_add_cases a c Ha Hc) as [[F _]|(x' & E & Ox & Nx & _)]; [congruence|]. rewrite E1 in E. injection E as <-.
  destruct (checked_add_cases b c Hb Hc) as [[F _]|(y' & E & Oy & Ny & _)]; [congruence|]. rewrite E2 in E. injection E as <-.
  rewrite !dcmp_spec by assumption. rewrite Nx, Ny. destruct (Z.compare_spec (nanos a + nanos c) (nanos b + nanos c)), (Z.compare_spec (nanos a) (nanos b)); auto; lia.
Qed.
Print Assumptions C52_add_keeps_order.

Theorem C52_saturating_add_monotone : forall a b c, duration_ok a -> duration_ok b -> duration_ok c -> dcmp a b <> Gt ->
  exists x y, saturating_add a c = Ok x /\ saturating_add b c = Ok y /\ dcmp x y <> Gt.
Proof.
  intros a b c Ha Hb Hc H. destruct (saturating_add_spec a c Ha Hc) as (x & E1 & O1 & N1). destruct (saturating_add_spec b c Hb Hc) as (y & E2 & O2 & N2).
  exists x, y. split; [assumption|]. split; [assumption|]. rewrite dcmp_spec in * by assumption. rewrite N1, N2.
  apply Z.compare_le_iff. change (nanos a <= nanos b) in H. unfold clamp_nanos, clamp. lia.
Qed.
Print Assumptions C52_saturating_add_monotone.

Theorem C52_neg_reverses_order : forall a b, duration_ok a -> duration_ok b -> dcmp (dneg a) (dneg b) = dcmp b a.
Proof.
  intros a b Ha Hb. destruct (dneg_all a Ha) as (Oa & Na & _). destruct (dneg_all b Hb) as (Ob & Nb & _). rewrite !dcmp_spec by assumption.
  rewrite Na, Nb. destruct (Z.compare_spec (- nanos a) (- nanos b)), (Z.compare_spec (nanos b) (nanos a)); auto; lia.
Qed.
Print Assumptions C52_neg_reverses_order.
Example C52_order_example :
  dcmp (Dur true (Std 1 0)) (Dur false (Std 0 1)) = Lt /\
  checked_add (Dur true (Std 1 0)) (Dur true (Std 1 5)) = Ok (Some (Dur true (Std 2 5))) /\
  checked_add (Dur false (Std 0 1)) (Dur true (Std 1 5)) = Ok (Some (Dur true (Std 1 4))) /\
  dcmp (Dur true (Std 2 5)) (Dur true (Std 1 4)) = Lt /\ dcmp (Dur false (Std 1 0)) (Dur true (Std 0 1)) = Gt.
Proof. repeat split. Qed.

(** saturating arithmetic is the checked one as long as nothing overflows, commutes, but does not associate *)
Theorem C52_saturating_is_checked : forall a b c, duration_ok a -> duration_ok b ->
  (checked_add a b = Ok (Some c) -> exists d, saturating_add a b = Ok d /\ deqb d c = true) /\
  (checked_sub a b = Ok (Some c) -> exists d, saturating_sub a b = Ok d /\ deqb d c = true).
Proof.
  intros a b c Ha Hb. split; intros E.
  - destruct (checked_add_cases a b Ha Hb) as [[F _]|(x & E' & Ox & Nx & R)]; [congruence|]. rewrite E in E'. injection E' as <-.
    destruct (saturating_add_spec a b Ha Hb) as (d & E1 & O1 & N1). exists d. split; [assumption|]. apply deqb_iff; auto.
    unfold representable in R. unfold clamp_nanos, clamp in N1. lia.
  - destruct (checked_sub_cases a b Ha Hb) as [[F _]|(x & E' & Ox & Nx & R)]; [congruence|]. rewrite E in E'. injection E' as <-.
    destruct (saturating_sub_spec a b Ha Hb) as (d & E1 & O1 & N1). exists d. split; [assumption|]. apply deqb_iff; auto.
    unfold representable in R. unfold clamp_nanos, clamp in N1. lia.
Qed.
Print Assumptions C52_saturating_is_checked.
Theorem C52_saturating_add_commutes : forall a b, duration_ok a -> duration_ok b ->
  exists x y, saturating_add a b = Ok x /\ saturating_add b a = Ok y /\ deqb x y = true.
Proof.
  intros a b Ha Hb. destruct (saturating_add_spec a b Ha Hb) as (x & E1 & O1 & N1). destruct (saturating_add_spec b a Hb Ha) as (y & E2 & O2 & N2).
  exists x, y. split; [assumption|]. split; [assumption|]. apply deqb_iff; auto. rewrite N1, N2. f_equal. lia.
Qed.
Print Assumptions C52_saturating_add_commutes.
Theorem C52_saturating_associates_refuted : exists a b c, duration_ok a /\ duration_ok b /\ duration_ok c /\
  exists ab bc x y, saturating_add a b = Ok ab /\ saturating_add ab c = Ok x /\ saturating_add b c = Ok bc /\ saturating_add a bc = Ok y /\ deqb x y = false.
Proof.
  exists MAX, MAX, MIN. split; [vm_compute; repeat split; congruence|]. split; [vm_compute; repeat split; congruence|]. split; [vm_compute; repeat split; congruence|].
  eexists _, _, _, _. split; [reflexivity|]. split; [reflexivity|]. split; [reflexivity|]. split; reflexivity.
Qed.
Print Assumptions C52_saturating_associates_refuted.

(** the triangle inequality for absolute values *)
Theorem C52_triangle : forall a b, duration_ok a -> duration_ok b ->
  exists x y, saturating_add a b = Ok x /\ saturating_add (abs a) (abs b) = Ok y /\ dcmp (abs x) y <> Gt.
Proof.
  intros a b Ha Hb. destruct (saturating_add_spec a b Ha Hb) as (x & E1 & O1 & N1).
  destruct (abs_all a Ha) as (Oa & Na & _). destruct (abs_all b Hb) as (Ob & Nb & _). destruct (abs_all x O1) as (Ox & Nx & _).
  destruct (saturating_add_spec (abs a) (abs b) Oa Ob) as (y & E2 & O2 & N2). exists x, y. split; [assumption|]. split; [assumption|].
  rewrite dcmp_spec by assumption. apply Z.compare_le_iff. rewrite Nx, N2, N1, Na, Nb. unfold clamp_nanos, clamp. 
  assert (0 <= max_nanos) by (vm_compute; discriminate). lia.
Qed.
Print Assumptions C52_triangle.
Example C52_triangle_example : saturating_add MIN (Dur true (Std 1 0)) = Ok MIN /\ dcmp (abs MIN) MAX = Eq.
Proof. split; reflexivity. Qed.
