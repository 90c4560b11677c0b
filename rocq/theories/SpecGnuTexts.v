(** * Relative times, written down piece by piece

    How to *write* a relative time: no piece looks at what follows it. (SpecGnu.v says how a text is *read*.) It follows the regular expressions
    of the fuzz target fundu-gnu/fuzz/fuzz_targets/parsing.rs. *)
From Verif Require Import Prelude Time SpecTime SpecNum SpecSystemd SpecGnu.

(** digits, or digits with a point in between *)
Inductive number_text : str -> str -> str -> Prop :=
| nt_whole W : digit_string W -> W <> [] -> number_text W W []
| nt_fraction W F : digit_string W -> W <> [] -> digit_string F -> F <> [] -> number_text (W ++ 46 :: F) W F.

(** a time unit, or a time unit and `ago` *)
Inductive unit_text : str -> gnu_unit -> bool -> Prop :=
| ut_plain w g : word_for gnu_units w g -> unit_text w g false
| ut_ago w g ds a : word_for gnu_units w g -> white_space ds -> ds <> [] -> str_eq_nocase a (%"ago") = true -> unit_text (w ++ ds ++ a) g true.

(** does a piece end with a word or with a number *)
Inductive ending := EndsWithWord | EndsWithNumber.

(** the text, the amount, how it ends, and if it is a time unit without a sign (which would belong to a number in front of it) *)
Inductive piece : str -> amount -> ending -> bool -> Prop :=
| pc_number_unit sg n num W F ds q g ago a : gnu_sign sg n -> number_text num W F -> white_space ds -> unit_text q g ago ->
    number_amount (xorb n ago) W F g a -> piece (sg ++ num ++ ds ++ q) a EndsWithWord false
| pc_number sg n num W F a : gnu_sign sg n -> number_text num W F -> number_amount n W F (Seconds 1) a -> piece (sg ++ num) a EndsWithNumber false
| pc_unit q g ago : unit_text q g ago -> piece q (times (with_sign ago 1) g) EndsWithWord true
| pc_signed_unit sg n q g ago : gnu_sign sg n -> sg <> [] -> unit_text q g ago ->
    piece (sg ++ q) (times (with_sign (xorb n ago) 1) g) EndsWithWord false
| pc_numeral sg n w k ds q g ago : gnu_sign sg n -> word_for gnu_numerals w k -> white_space ds -> ds <> [] -> unit_text q g ago ->
    piece (sg ++ w ++ ds ++ q) (times (with_sign (xorb n ago) k) g) EndsWithWord false
| pc_keyword sg n w k : gnu_sign sg n -> word_for gnu_keywords w k -> piece (sg ++ w) (times (with_sign n k) (Seconds 86400)) EndsWithWord false.

(** the white space [sep] between two pieces may be missing: after a word in front of a digit or sign; after a number in front of what
    is neither a digit nor an `e`. After a number there is no unit without a sign. *)
Definition joins (e : ending) (sep next : str) (next_is_unit : bool) : Prop :=
  match e with
  | EndsWithWord => sep <> [] \/ exists x r, next = x :: r /\ (48 <= x <= 57 \/ x = 43 \/ x = 45)
  | EndsWithNumber => next_is_unit = false /\ (sep <> [] \/ forall x r, next = x :: r -> ~ 48 <= x <= 57 /\ x <> 101 /\ x <> 69)
  end.

Inductive written : str -> list amount -> bool -> Prop :=
| wr_one p a e u : piece p a e u -> written p [a] u
| wr_more p a e u sep r rs u' : piece p a e u -> white_space sep -> written r rs u' -> joins e sep r u' -> written (p ++ sep ++ r) (a :: rs) u.
