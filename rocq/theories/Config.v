(** * fundu-core/src/config.rs, and the traits TimeUnitsLike and NumbersLike *)
From Verif Require Import Prelude Time.

(** fundu-core/src/config.rs:42 `type Delimiter = fn(u8) -> bool` *)
Definition delimiter := byte -> bool.

(** fundu-core/src/config.rs:127-235 Config; `default_multiplier` (not read by any code) is left out *)
Record config : Type := Config {
  c_default_unit : time_unit;
  c_disable_exponent : bool;
  c_disable_fraction : bool;
  c_disable_infinity : bool;
  c_number_is_optional : bool;
  c_allow_multiple : bool;
  c_conjunctions : option (list str);
  c_allow_negative : bool;
  c_inner_delimiter : delimiter;
  c_outer_delimiter : delimiter;
  c_allow_ago : bool;
  c_allow_sign_delimiter : bool;
  c_allow_time_unit_delimiter : bool
}.

(** fundu-core/src/config.rs:269-286 Config::new *)
Definition config_new : config := {|
  c_default_unit := Second;
  c_disable_exponent := false;
  c_disable_fraction := false;
  c_disable_infinity := false;
  c_number_is_optional := false;
  c_allow_multiple := false;
  c_conjunctions := None;
  c_allow_negative := false;
  c_inner_delimiter := is_ascii_whitespace;
  c_outer_delimiter := is_ascii_whitespace;
  c_allow_ago := false;
  c_allow_sign_delimiter := false;
  c_allow_time_unit_delimiter := false
|}.

(** One field update of a Config. *)
(* fundu-core/src/config.rs:127-235 the field default_unit *)
Definition set_default_unit (c : config) v := {| c_default_unit := v;
  c_disable_exponent := c_disable_exponent c; c_disable_fraction := c_disable_fraction c;
  c_disable_infinity := c_disable_infinity c; c_number_is_optional := c_number_is_optional c;
  c_allow_multiple := c_allow_multiple c; c_conjunctions := c_conjunctions c;
  c_allow_negative := c_allow_negative c; c_inner_delimiter := c_inner_delimiter c;
  c_outer_delimiter := c_outer_delimiter c; c_allow_ago := c_allow_ago c;
  c_allow_sign_delimiter := c_allow_sign_delimiter c;
  c_allow_time_unit_delimiter := c_allow_time_unit_delimiter c |}.
(* fundu-core/src/config.rs:127-235 the field disable_exponent *)
Definition set_disable_exponent (c : config) v := {| c_default_unit := c_default_unit c;
  c_disable_exponent := v; c_disable_fraction := c_disable_fraction c;
  c_disable_infinity := c_disable_infinity c; c_number_is_optional := c_number_is_optional c;
  c_allow_multiple := c_allow_multiple c; c_conjunctions := c_conjunctions c;
  c_allow_negative := c_allow_negative c; c_inner_delimiter := c_inner_delimiter c;
  c_outer_delimiter := c_outer_delimiter c; c_allow_ago := c_allow_ago c;
  c_allow_sign_delimiter := c_allow_sign_delimiter c;
  c_allow_time_unit_delimiter := c_allow_time_unit_delimiter c |}.
(* fundu-core/src/config.rs:127-235 the field disable_fraction *)
Definition set_disable_fraction (c : config) v := {| c_default_unit := c_default_unit c;
  c_disable_exponent := c_disable_exponent c; c_disable_fraction := v;
  c_disable_infinity := c_disable_infinity c; c_number_is_optional := c_number_is_optional c;
  c_allow_multiple := c_allow_multiple c; c_conjunctions := c_conjunctions c;
  c_allow_negative := c_allow_negative c; c_inner_delimiter := c_inner_delimiter c;
  c_outer_delimiter := c_outer_delimiter c; c_allow_ago := c_allow_ago c;
  c_allow_sign_delimiter := c_allow_sign_delimiter c;
  c_allow_time_unit_delimiter := c_allow_time_unit_delimiter c |}.
(* fundu-core/src/config.rs:127-235 the field disable_infinity *)
Definition set_disable_infinity (c : config) v := {| c_default_unit := c_default_unit c;
  c_disable_exponent := c_disable_exponent c; c_disable_fraction := c_disable_fraction c;
  c_disable_infinity := v; c_number_is_optional := c_number_is_optional c;
  c_allow_multiple := c_allow_multiple c; c_conjunctions := c_conjunctions c;
  c_allow_negative := c_allow_negative c; c_inner_delimiter := c_inner_delimiter c;
  c_outer_delimiter := c_outer_delimiter c; c_allow_ago := c_allow_ago c;
  c_allow_sign_delimiter := c_allow_sign_delimiter c;
  c_allow_time_unit_delimiter := c_allow_time_unit_delimiter c |}.
(* fundu-core/src/config.rs:127-235 the field number_is_optional *)
Definition set_number_is_optional (c : config) v := {| c_default_unit := c_default_unit c;
  c_disable_exponent := c_disable_exponent c; c_disable_fraction := c_disable_fraction c;
  c_disable_infinity := c_disable_infinity c; c_number_is_optional := v;
  c_allow_multiple := c_allow_multiple c; c_conjunctions := c_conjunctions c;
  c_allow_negative := c_allow_negative c; c_inner_delimiter := c_inner_delimiter c;
  c_outer_delimiter := c_outer_delimiter c; c_allow_ago := c_allow_ago c;
  c_allow_sign_delimiter := c_allow_sign_delimiter c;
  c_allow_time_unit_delimiter := c_allow_time_unit_delimiter c |}.
(* fundu-core/src/config.rs:127-235 the fields allow_multiple, conjunctions *)
Definition set_allow_multiple (c : config) v cj := {| c_default_unit := c_default_unit c;
  c_disable_exponent := c_disable_exponent c; c_disable_fraction := c_disable_fraction c;
  c_disable_infinity := c_disable_infinity c; c_number_is_optional := c_number_is_optional c;
  c_allow_multiple := v; c_conjunctions := cj;
  c_allow_negative := c_allow_negative c; c_inner_delimiter := c_inner_delimiter c;
  c_outer_delimiter := c_outer_delimiter c; c_allow_ago := c_allow_ago c;
  c_allow_sign_delimiter := c_allow_sign_delimiter c;
  c_allow_time_unit_delimiter := c_allow_time_unit_delimiter c |}.
(* fundu-core/src/config.rs:127-235 the field allow_negative *)
Definition set_allow_negative (c : config) v := {| c_default_unit := c_default_unit c;
  c_disable_exponent := c_disable_exponent c; c_disable_fraction := c_disable_fraction c;
  c_disable_infinity := c_disable_infinity c; c_number_is_optional := c_number_is_optional c;
  c_allow_multiple := c_allow_multiple c; c_conjunctions := c_conjunctions c;
  c_allow_negative := v; c_inner_delimiter := c_inner_delimiter c;
  c_outer_delimiter := c_outer_delimiter c; c_allow_ago := c_allow_ago c;
  c_allow_sign_delimiter := c_allow_sign_delimiter c;
  c_allow_time_unit_delimiter := c_allow_time_unit_delimiter c |}.
(* fundu-core/src/config.rs:127-235 the field inner_delimiter *)
Definition set_inner_delimiter (c : config) v := {| c_default_unit := c_default_unit c;
  c_disable_exponent := c_disable_exponent c; c_disable_fraction := c_disable_fraction c;
  c_disable_infinity := c_disable_infinity c; c_number_is_optional := c_number_is_optional c;
  c_allow_multiple := c_allow_multiple c; c_conjunctions := c_conjunctions c;
  c_allow_negative := c_allow_negative c; c_inner_delimiter := v;
  c_outer_delimiter := c_outer_delimiter c; c_allow_ago := c_allow_ago c;
  c_allow_sign_delimiter := c_allow_sign_delimiter c;
  c_allow_time_unit_delimiter := c_allow_time_unit_delimiter c |}.
(* fundu-core/src/config.rs:127-235 the field outer_delimiter *)
Definition set_outer_delimiter (c : config) v := {| c_default_unit := c_default_unit c;
  c_disable_exponent := c_disable_exponent c; c_disable_fraction := c_disable_fraction c;
  c_disable_infinity := c_disable_infinity c; c_number_is_optional := c_number_is_optional c;
  c_allow_multiple := c_allow_multiple c; c_conjunctions := c_conjunctions c;
  c_allow_negative := c_allow_negative c; c_inner_delimiter := c_inner_delimiter c;
  c_outer_delimiter := v; c_allow_ago := c_allow_ago c;
  c_allow_sign_delimiter := c_allow_sign_delimiter c;
  c_allow_time_unit_delimiter := c_allow_time_unit_delimiter c |}.
(* fundu-core/src/config.rs:127-235 the field allow_ago *)
Definition set_allow_ago_only (c : config) v := {| c_default_unit := c_default_unit c;
  c_disable_exponent := c_disable_exponent c; c_disable_fraction := c_disable_fraction c;
  c_disable_infinity := c_disable_infinity c; c_number_is_optional := c_number_is_optional c;
  c_allow_multiple := c_allow_multiple c; c_conjunctions := c_conjunctions c;
  c_allow_negative := c_allow_negative c; c_inner_delimiter := c_inner_delimiter c;
  c_outer_delimiter := c_outer_delimiter c; c_allow_ago := v;
  c_allow_sign_delimiter := c_allow_sign_delimiter c;
  c_allow_time_unit_delimiter := c_allow_time_unit_delimiter c |}.
(* fundu-core/src/config.rs:127-235 the field allow_sign_delimiter *)
Definition set_allow_sign_delimiter (c : config) v := {| c_default_unit := c_default_unit c;
  c_disable_exponent := c_disable_exponent c; c_disable_fraction := c_disable_fraction c;
  c_disable_infinity := c_disable_infinity c; c_number_is_optional := c_number_is_optional c;
  c_allow_multiple := c_allow_multiple c; c_conjunctions := c_conjunctions c;
  c_allow_negative := c_allow_negative c; c_inner_delimiter := c_inner_delimiter c;
  c_outer_delimiter := c_outer_delimiter c; c_allow_ago := c_allow_ago c;
  c_allow_sign_delimiter := v;
  c_allow_time_unit_delimiter := c_allow_time_unit_delimiter c |}.
(* fundu-core/src/config.rs:127-235 the field allow_time_unit_delimiter *)
Definition set_allow_time_unit_delimiter (c : config) v := {| c_default_unit := c_default_unit c;
  c_disable_exponent := c_disable_exponent c; c_disable_fraction := c_disable_fraction c;
  c_disable_infinity := c_disable_infinity c; c_number_is_optional := c_number_is_optional c;
  c_allow_multiple := c_allow_multiple c; c_conjunctions := c_conjunctions c;
  c_allow_negative := c_allow_negative c; c_inner_delimiter := c_inner_delimiter c;
  c_outer_delimiter := c_outer_delimiter c; c_allow_ago := c_allow_ago c;
  c_allow_sign_delimiter := c_allow_sign_delimiter c;
  c_allow_time_unit_delimiter := v |}.

(** fundu-core/src/config.rs:395-625 ConfigBuilder: the options which can be called, and their effect *)
Inductive config_option : Type :=
| CO_allow_time_unit_delimiter
| CO_default_unit (u : time_unit)
| CO_disable_exponent
| CO_disable_fraction
| CO_disable_infinity
| CO_number_is_optional
| CO_allow_negative
| CO_parse_multiple (cj : option (list str))
| CO_allow_ago
| CO_allow_sign_delimiter
| CO_inner_delimiter (d : delimiter)
| CO_outer_delimiter (d : delimiter).

(* fundu-core/src/config.rs:395-625 the methods of ConfigBuilder *)
Definition config_apply (c : config) (o : config_option) : config :=
  match o with
  | CO_allow_time_unit_delimiter => set_allow_time_unit_delimiter c true
  | CO_default_unit u => set_default_unit c u
  | CO_disable_exponent => set_disable_exponent c true
  | CO_disable_fraction => set_disable_fraction c true
  | CO_disable_infinity => set_disable_infinity c true
  | CO_number_is_optional => set_number_is_optional c true
  | CO_allow_negative => set_allow_negative c true
  | CO_parse_multiple cj => set_allow_multiple c true cj
  | CO_allow_ago => set_allow_negative (set_allow_ago_only c true) true
  | CO_allow_sign_delimiter => set_allow_sign_delimiter c true
  | CO_inner_delimiter d => set_inner_delimiter c d
  | CO_outer_delimiter d => set_outer_delimiter c d
  end.

(** fundu-core/src/config.rs:347-366 ConfigBuilder::new ... build *)
Definition config_build (os : list config_option) : config := fold_left config_apply os config_new.

(** fundu-core/src/time.rs:196-358 trait TimeUnitsLike: an arbitrary implementation *)
Record units_like : Type := Units {
  u_is_empty : bool;
  u_get : str -> option (time_unit * multiplier)
}.
(** fundu-core/src/config.rs:73-75 trait NumbersLike: an arbitrary implementation *)
Definition numbers_like := str -> option multiplier.
