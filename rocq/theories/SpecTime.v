(** * Specification vocabulary for durations

    A duration *is* a signed number of nanoseconds. Nothing but this abstraction function, the bounds and
    clamping is used to state the properties of the Duration type. *)
From Verif Require Import Prelude Time.

(** the mathematical value of a duration in nanoseconds *)
Definition nanos (d : duration) : Z :=
  let magnitude := secs (inner d) * 1000000000 + subsec (inner d) in
  if neg d then - magnitude else magnitude.

(** the value of a std::time::Duration *)
Definition std_nanos (s : std_duration) : Z := secs s * 1000000000 + subsec s.

(** the largest representable value: 2^64 seconds minus one nanosecond *)
Definition max_nanos : Z := 2 ^ 64 * 1000000000 - 1.

Definition clamp (lo hi x : Z) : Z := Z.max lo (Z.min hi x).
Definition clamp_nanos (x : Z) : Z := clamp (- max_nanos) max_nanos x.

Definition representable (x : Z) : Prop := - max_nanos <= x <= max_nanos.

(** the value of a time::Duration (crate time); the one of a chrono::Duration is [c_value] *)
Definition time_nanos (t : time_duration) : Z := t_secs t * 1000000000 + t_nanos t.
