(** * UTF-8: cutting valid strings at ASCII bytes *)
From Verif Require Import Prelude.

Lemma inb_iff lo hi x : inb lo hi x = true <-> lo <= x <= hi.
Proof. unfold inb. lia. Qed.

(** one character *)
Definition uchar (l : str) : bool :=
  match l with
  | [b0] => inb 0 127 b0
  | [b0; b1] => inb 194 223 b0 && cont b1
  | [b0; b1; b2] =>
      ((b0 =? 224) && inb 160 191 b1 || (inb 225 236 b0 || inb 238 239 b0) && cont b1
       || (b0 =? 237) && inb 128 159 b1) && cont b2
  | [b0; b1; b2; b3] =>
      ((b0 =? 240) && inb 144 191 b1 || inb 241 243 b0 && cont b1 || (b0 =? 244) && inb 128 143 b1)
      && cont b2 && cont b3
  | _ => false
  end.

Lemma uchar_app ch rest : uchar ch = true -> utf8 (ch ++ rest) = utf8 rest.
Proof.
  destruct ch as [|b0 [|b1 [|b2 [|b3 [|b4 t]]]]]; try discriminate; cbn [uchar app utf8]; intros H.
  - now rewrite H.
  - unfold cont, inb in *. replace ((0 <=? b0) && (b0 <=? 127)) with false by lia.
    replace ((194 <=? b0) && (b0 <=? 223)) with true by lia.
    replace ((128 <=? b1) && (b1 <=? 191)) with true by lia. reflexivity.
  - unfold cont, inb in *. replace ((0 <=? b0) && (b0 <=? 127)) with false by lia.
    replace ((194 <=? b0) && (b0 <=? 223)) with false by lia.
    replace ((128 <=? b2) && (b2 <=? 191)) with true by lia.
    rewrite !andb_true_r.
    destruct (b0 =? 224) eqn:E; [replace ((160 <=? b1) && (b1 <=? 191)) with true by lia; reflexivity|].
    destruct ((225 <=? b0) && (b0 <=? 236) || (238 <=? b0) && (b0 <=? 239)) eqn:E2;
      [replace ((128 <=? b1) && (b1 <=? 191)) with true by lia; reflexivity|].
    replace (b0 =? 237) with true by lia. replace ((128 <=? b1) && (b1 <=? 159)) with true by lia. reflexivity.
  - unfold cont, inb in *. replace ((0 <=? b0) && (b0 <=? 127)) with false by lia.
    replace ((194 <=? b0) && (b0 <=? 223)) with false by lia.
    replace (b0 =? 224) with false by lia. replace (b0 =? 237) with false by lia.
    replace ((225 <=? b0) && (b0 <=? 236) || (238 <=? b0) && (b0 <=? 239)) with false by lia.
    replace ((128 <=? b2) && (b2 <=? 191)) with true by lia.
    replace ((128 <=? b3) && (b3 <=? 191)) with true by lia.
    rewrite !andb_true_r.
    destruct (b0 =? 240) eqn:E; [replace ((144 <=? b1) && (b1 <=? 191)) with true by lia; reflexivity|].
    destruct ((241 <=? b0) && (b0 <=? 243)) eqn:E2;
      [replace ((128 <=? b1) && (b1 <=? 191)) with true by lia; reflexivity|].
    replace (b0 =? 244) with true by lia. replace ((128 <=? b1) && (b1 <=? 143)) with true by lia. reflexivity.
Qed.

Lemma utf8_step l : utf8 l = true -> l = [] \/ exists ch rest, l = ch ++ rest /\ uchar ch = true /\ utf8 rest = true.
Proof.
  destruct l as [|b0 t0]; [now left|]. intros H. right. cbn [utf8] in H.
  destruct (inb 0 127 b0) eqn:E0.
  { exists [b0], t0. auto. }
  destruct t0 as [|b1 t1]; [discriminate|].
  destruct (inb 194 223 b0) eqn:E1.
  { apply andb_true_iff in H. destruct H as [H1 H2]. exists [b0; b1], t1. cbn [uchar]. rewrite E1, H1. auto. }
  destruct t1 as [|b2 t2]; [discriminate|].
  destruct (b0 =? 224) eqn:E2.
  { rewrite !andb_true_iff in H. destruct H as [[H1 H2] H3]. exists [b0; b1; b2], t2. cbn [uchar]. rewrite E2, H1, H2. auto. }
  destruct (inb 225 236 b0 || inb 238 239 b0) eqn:E3.
  { rewrite !andb_true_iff in H. destruct H as [[H1 H2] H3]. exists [b0; b1; b2], t2. cbn [uchar]. rewrite E2, E3, H1, H2. auto. }
  destruct (b0 =? 237) eqn:E4.
  { rewrite !andb_true_iff in H. destruct H as [[H1 H2] H3]. exists [b0; b1; b2], t2. cbn [uchar]. rewrite E2, E3, E4, H1, H2. auto. }
  destruct t2 as [|b3 t3]; [discriminate|].
  destruct (b0 =? 240) eqn:E5.
  { rewrite !andb_true_iff in H. destruct H as [[[H1 H2] H3] H4]. exists [b0; b1; b2; b3], t3. cbn [uchar]. rewrite E5, H1, H2, H3. auto. }
  destruct (inb 241 243 b0) eqn:E6.
  { rewrite !andb_true_iff in H. destruct H as [[[H1 H2] H3] H4]. exists [b0; b1; b2; b3], t3. cbn [uchar]. rewrite E5, E6, H1, H2, H3. auto. }
  destruct (b0 =? 244) eqn:E7; [|discriminate].
  rewrite !andb_true_iff in H. destruct H as [[[H1 H2] H3] H4]. exists [b0; b1; b2; b3], t3. cbn [uchar]. rewrite E5, E6, E7, H1, H2, H3. auto.
Qed.

Lemma uchar_cases ch : uchar ch = true ->
  (exists x, ch = [x] /\ 0 <= x <= 127) \/
  (ch <> [] /\ forall x, In x ch -> 128 <= x <= 255).
Proof.
  destruct ch as [|b0 [|b1 [|b2 [|b3 [|b4 t]]]]]; try discriminate; cbn [uchar]; intros H.
  - left. exists b0. rewrite inb_iff in H. auto.
  - right. split; [discriminate|]. unfold cont, inb in H. cbn. intros x [<-|[<-|[]]]; lia.
  - right. split; [discriminate|]. unfold cont, inb in H. cbn. intros x [<-|[<-|[<-|[]]]]; lia.
  - right. split; [discriminate|]. unfold cont, inb in H. cbn. intros x [<-|[<-|[<-|[<-|[]]]]]; lia.
Qed.
Lemma uchar_nonempty ch : uchar ch = true -> (0 < length ch)%nat.
Proof. destruct ch; [discriminate|cbn; lia]. Qed.

Lemma utf8_ind (P : str -> Prop) :
  P [] -> (forall ch rest, uchar ch = true -> utf8 rest = true -> P rest -> P (ch ++ rest)) ->
  forall l, utf8 l = true -> P l.
Proof.
  intros H0 HS l. remember (length l) as n eqn:E. revert l E.
  induction n as [n IH] using lt_wf_ind. intros l E H.
  destruct (utf8_step l H) as [->|(ch & rest & -> & H1 & H2)]; [assumption|].
  apply HS; try assumption. apply (IH (length rest)); try reflexivity; try assumption.
  subst n. rewrite app_length. pose proof (uchar_nonempty ch H1). lia.
Qed.

Lemma utf8_app a b : utf8 a = true -> utf8 (a ++ b) = utf8 b.
Proof.
  intros H. revert a H. apply (utf8_ind (fun a => utf8 (a ++ b) = utf8 b)); [reflexivity|].
  intros ch rest H1 H2 IH. rewrite <- app_assoc, uchar_app; assumption.
Qed.

Lemma utf8_bytes l : utf8 l = true -> forall x, In x l -> 0 <= x <= 255.
Proof.
  revert l. apply (utf8_ind (fun l => forall x, In x l -> 0 <= x <= 255)); [intros x []|].
  intros ch rest H1 H2 IH x Hx. apply in_app_or in Hx. destruct Hx as [Hx|Hx]; [|auto].
  destruct (uchar_cases ch H1) as [(y & -> & Hy)|[_ B]].
  - destruct Hx as [<-|[]]. lia.
  - specialize (B x Hx). lia.
Qed.

Lemma utf8_cons_ascii x l : 0 <= x <= 127 -> utf8 (x :: l) = utf8 l.
Proof. intros H. cbn. replace (inb 0 127 x) with true by (symmetry; now apply inb_iff). reflexivity. Qed.

(** a valid string can be cut in front of every ASCII byte *)
Lemma utf8_cut a x b : utf8 (a ++ x :: b) = true -> 0 <= x <= 127 -> utf8 a = true /\ utf8 (x :: b) = true.
Proof.
  intros H Hx. remember (a ++ x :: b) as l eqn:E. revert a E.
  apply (utf8_ind (fun l => forall a, l = a ++ x :: b -> utf8 a = true /\ utf8 (x :: b) = true)) with (l := l); [| |exact H].
  - intros [|? ?] E; discriminate.
  - clear l H. intros ch rest H1 H2 IH a E.
    destruct (uchar_cases ch H1) as [(y & -> & Hy)|[_ B]].
    + destruct a as [|y' a]; cbn in E; injection E as <- E.
      * subst. split; [reflexivity|]. rewrite utf8_cons_ascii; assumption.
      * destruct (IH a E) as [I1 I2]. split; [|assumption]. now rewrite utf8_cons_ascii.
    + (* ch is a prefix of a *)
      assert (P : exists a', a = ch ++ a' /\ rest = a' ++ x :: b).
      { clear - E B Hx. revert a E. induction ch as [|c ch IH]; intros a E; cbn in E; [exists a; auto|].
        destruct a as [|c' a]; cbn in E; injection E as E1 E2.
        - subst c. specialize (B x (or_introl eq_refl)). lia.
        - subst c'. destruct (IH (fun y Hy => B y (or_intror Hy)) a E2) as (a' & -> & ->). exists a'. auto. }
      destruct P as (a' & -> & E'). destruct (IH a' E') as [I1 I2]. split; [|assumption].
      rewrite uchar_app; assumption.
Qed.

(** equality up to ASCII case preserves validity *)
Lemma to_lower_ascii x y : to_lower x = to_lower y -> (0 <= x <= 127 <-> 0 <= y <= 127) /\ (0 <= x <= 127 \/ x = y).
Proof. unfold to_lower. destruct ((65 <=? x) && (x <=? 90)) eqn:E1, ((65 <=? y) && (y <=? 90)) eqn:E2; lia. Qed.

Lemma str_eq_nocase_length a b : str_eq_nocase a b = true -> length a = length b.
Proof.
  revert b. induction a as [|x a IH]; intros [|y b] H; try discriminate; [reflexivity|].
  cbn in *. apply andb_true_iff in H. destruct H as [_ H]. now rewrite (IH b H).
Qed.
Lemma str_eq_nocase_app a1 a2 b : str_eq_nocase (a1 ++ a2) b = true ->
  exists b1 b2, b = b1 ++ b2 /\ str_eq_nocase a1 b1 = true /\ str_eq_nocase a2 b2 = true.
Proof.
  revert b. induction a1 as [|x a1 IH]; intros b H; cbn in *; [exists [], b; auto|].
  destruct b as [|y b]; [discriminate|]. apply andb_true_iff in H. destruct H as [H1 H2].
  destruct (IH b H2) as (b1 & b2 & -> & I1 & I2). exists (y :: b1), b2. cbn. rewrite H1, I1. auto.
Qed.
Lemma utf8_nocase a b : str_eq_nocase a b = true -> utf8 a = true -> utf8 b = true.
Proof.
  intros E H. revert a H b E.
  apply (utf8_ind (fun a => forall b, str_eq_nocase a b = true -> utf8 b = true)).
  - intros [|? ?] E; [reflexivity|discriminate].
  - intros ch rest H1 H2 IH b E. apply str_eq_nocase_app in E. destruct E as (b1 & b2 & -> & E1 & E2).
    assert (U : uchar b1 = true).
    { destruct (uchar_cases ch H1) as [(y & -> & Hy)|[_ B]].
      - destruct b1 as [|z [|? ?]]; cbn in E1; try discriminate; rewrite ?andb_true_r in E1; rewrite ?andb_false_r in E1; try discriminate.
        unfold eq_nocase in E1. apply Z.eqb_eq in E1. apply to_lower_ascii in E1.
        cbn [uchar]. apply inb_iff. lia.
      - enough (b1 = ch) as -> by assumption. clear - B E1. revert b1 E1.
        induction ch as [|c ch IH]; intros [|z b1] E1; try discriminate; [reflexivity|].
        cbn in E1. apply andb_true_iff in E1. destruct E1 as [E1 E2]. unfold eq_nocase in E1.
        apply Z.eqb_eq in E1. apply to_lower_ascii in E1. specialize (B c (or_introl eq_refl)) as Bc.
        f_equal; [lia|]. apply IH; auto. intros x Hx. apply B. now right. }
    rewrite uchar_app by assumption. auto.
Qed.
