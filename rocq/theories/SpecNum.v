(** * Specification vocabulary for numbers *)
From Verif Require Import Prelude.

(** a list of ASCII digits *)
Definition digit_string (l : str) : Prop := forall b, In b l -> 48 <= b <= 57.

(** the decimal value of a list of ASCII digits, most significant digit first *)
Fixpoint dval_from (acc : Z) (l : str) : Z :=
  match l with [] => acc | b :: l' => dval_from (acc * 10 + (b - 48)) l' end.
Definition dval (l : str) : Z := dval_from 0 l.

(** floor (v * 10^k), for any integer k *)
Definition floor_scale10 (v k : Z) : Z := if 0 <=? k then v * 10 ^ k else v / 10 ^ (- k).
