(** * Which error a time span is rejected with (fundu-systemd)

    [s] is the whole text without the white space around it. *)
From Verif Require Import Prelude Time Config SpecTime SpecNum SpecSpelling SpecSystemd.

Section SpanErrors.
Context (default : time_unit) (table : list (time_unit * list str)) (s : str).

(** the byte offset of the rest [l] of the text *)
Definition offset_of (l : str) : nat := (length s - length l)%nat.
Definition starts_without (p : byte -> Prop) (l : str) : Prop := forall x r, l = x :: r -> ~ p x.
Definition digit (x : byte) : Prop := 48 <= x <= 57.
Definition sign (x : byte) : Prop := x = 43 \/ x = 45.
(** a word ends in front of white space, a digit, a sign, or at the end of the text *)
Definition word_ends (l : str) : Prop := forall x r, l = x :: r -> white x \/ digit x \/ sign x.
Definition unit_ahead (l : str) : Prop := exists w u r, l = w ++ r /\ denotes table w u /\ word_ends r.
(** what follows a number does not continue it *)
Definition number_ends (fr l : str) : Prop := forall x r, l = x :: r -> ~ digit x /\ x <> 101 /\ x <> 69 /\ (fr = [] -> x <> 46).

(** [l] is what follows the sign of [t], or [t] if there is no sign *)
Definition behind_sign (t l : str) : Prop :=
  exists sg n, t = sg ++ l /\ sign_text sg n /\ l <> [] /\ (sg = [] -> starts_without sign l).

(** The text starts with a number W.F of the unit [u] (a unit without a number means 1), [n] if it is negative; the next part starts with the
    last argument. *)
Inductive piece : str -> bool -> time_unit -> str -> str -> str -> Prop :=
| pc_number_unit sg n W fr F gap w u sep r : sign_text sg n -> digit_string W -> fraction_text fr F -> W ++ F <> [] -> white_space gap ->
    denotes table w u -> word_ends (sep ++ r) -> white_space sep -> starts_without white r ->
    piece (sg ++ W ++ fr ++ gap ++ w ++ sep ++ r) n u W F r
| pc_number sg n W fr F sep r : sign_text sg n -> digit_string W -> fraction_text fr F -> W ++ F <> [] ->
    number_ends fr (sep ++ r) -> white_space sep -> starts_without white r -> ~ unit_ahead r ->
    piece (sg ++ W ++ fr ++ sep ++ r) n default W F r
| pc_unit sg n w u sep r : sign_text sg n -> denotes table w u -> word_ends (sep ++ r) -> white_space sep -> starts_without white r ->
    piece (sg ++ w ++ sep ++ r) n u (%"1") [] r.

(** the part at the beginning of [t] is wrong. A negative part is an error unless its length is nearly nothing *)
Inductive piece_error (t : str) : parse_error -> Prop :=
| pe_sign x : t = [x] -> sign x -> piece_error t (Syntax (length s) (%"Unexpected end of input. Sign without a number"))
| pe_point l : behind_sign t (46 :: l) -> starts_without digit l ->
    piece_error t (Syntax (offset_of (46 :: l)) (%"Either the whole number part or the fraction must be present"))
| pe_exponent W fr F x l : behind_sign t (W ++ fr ++ x :: l) -> digit_string W -> fraction_text fr F -> W ++ F <> [] -> x = 101 \/ x = 69 ->
    piece_error t (Syntax (offset_of (x :: l)) (%"No exponent allowed"))
| pe_unknown l : behind_sign t l -> starts_without digit l -> starts_without (eq 46) l -> ~ unit_ahead l -> piece_error t (InvalidInput l)
| pe_negative u W F r : piece t true u W F r -> ~ tiny u W F -> piece_error t NegativeNumber.

(** the first part which is wrong *)
Inductive span_error : str -> parse_error -> Prop :=
| sp_here t e : piece_error t e -> span_error t e
| sp_later t n u W F r e : piece t n u W F r -> (n = true -> tiny u W F) -> r <> [] -> span_error r e -> span_error t e.
End SpanErrors.

(** the whole text *)
Definition rejected (default : time_unit) (table : list (time_unit * list str)) (s : str) (e : parse_error) : Prop :=
  exists ws1 t ws2, s = ws1 ++ t ++ ws2 /\ white_space ws1 /\ white_space ws2 /\ trimmed t /\
    ((t = [] /\ e = Empty) \/ (t <> [] /\ t <> %"infinity" /\ span_error default table t t e)).
