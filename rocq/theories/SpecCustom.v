(** * Specification vocabulary for the custom parser *)
From Verif Require Import Prelude Time Custom.

(** a unit which has at least one non-empty identifier *)
Definition usable (t : custom_time_unit) : Prop := exists id, In id (ctu_ids t) /\ id <> [].
Definition key (t : custom_time_unit) : time_unit * multiplier := (ctu_base t, ctu_mult t).

(** the identifier belongs to a unit of the list with this base unit and multiplier *)
Definition registered (us : list custom_time_unit) (id : str) (u : time_unit) (m : multiplier) : Prop :=
  id <> [] /\ exists t, In t us /\ key t = (u, m) /\ In id (ctu_ids t).

(** a unit with the first pair of base unit and multiplier was added before any unit with the second pair *)
Definition introduced_before (us : list custom_time_unit) (k k' : time_unit * multiplier) : Prop :=
  exists us1 t us2, us = us1 ++ t :: us2 /\ usable t /\ key t = k /\
    forall t', In t' us1 -> usable t' -> key t' <> k'.

(** a unit or keyword which was accepted by its constructor; multipliers are pairs of an i64 and an i16 *)
Definition constructed (t : custom_time_unit) : Prop :=
  exists base ids m, ctu_new base ids m = Ok t /\ (forall x, m = Some x -> multiplier_ok x).

(** the units, keywords and numerals passed to the methods of a parser, in order *)
Definition units_of (os : list custom_call) : list custom_time_unit :=
  flat_map (fun o => match o with C_time_unit t => [t] | C_time_units l => l | _ => [] end) os.
Definition keywords_of (os : list custom_call) : list custom_time_unit :=
  flat_map (fun o => match o with C_keyword t => [t] | C_keywords l => l | _ => [] end) os.
Definition numerals_of (os : list custom_call) : list numeral :=
  flat_map (fun o => match o with C_numeral t => [t] | C_numerals l => l | _ => [] end) os.
