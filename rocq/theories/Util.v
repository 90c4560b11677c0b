(** * fundu-core/src/util.rs *)
From Verif Require Import Prelude.

(** fundu-core/src/util.rs:8-29 POW10 *)
Definition POW10 : list Z :=
  [ 1; 10; 100; 1000; 10000; 100000; 1000000; 10000000; 100000000; 1000000000;
    10000000000; 100000000000; 1000000000000; 10000000000000; 100000000000000;
    1000000000000000; 10000000000000000; 100000000000000000; 1000000000000000000;
    10000000000000000000 ].

(** array indexing POW10[i] *)
(* POW10[i]: indexing panics out of bounds, fundu-core/src/util.rs:8-29 *)
Definition pow10 (i : nat) : res Z :=
  match nth_error POW10 i with Some x => Ok x | None => Crash CrashIndex end.

(** fundu-core/src/util.rs:43-47 GUESS_TABLE *)
Definition GUESS_TABLE : list Z :=
  [ 0; 0; 0; 0; 1; 1; 1; 2; 2; 2; 3; 3; 3; 3; 4; 4; 4; 5; 5; 5; 6; 6; 6; 6; 7; 7; 7; 8; 8;
    8; 9; 9; 9; 9; 10; 10; 10; 11; 11; 11; 12; 12; 12; 12; 13; 13; 13; 14; 14; 14; 15; 15;
    15; 15; 16; 16; 16; 17; 17; 17; 18; 18; 18; 18 ].

(** u64::leading_zeros (std contract): number of zero bits above the highest set bit, 64 for 0 *)
(* u64::leading_zeros, used by fundu-core/src/util.rs:39-66 *)
Definition leading_zeros_u64 (x : Z) : Z := if x =? 0 then 64 else 63 - Z.log2 x.

(** fundu-core/src/util.rs:58-65 FloorLog2 for u64 *)
Definition floor_log2 (x : Z) : res Z :=
  unwrap (chk is_u32 (63 - leading_zeros_u64 x)).

(** fundu-core/src/util.rs:39-56 FloorLog10 for u64 *)
Definition floor_log10 (x : Z) : res Z :=
  let* l2 := floor_log2 x in
  let* estimate :=
    match nth_error GUESS_TABLE (Z.to_nat l2) with Some e => Ok e | None => Crash CrashIndex end in
  let* over_estimate := arith is_u32 (estimate + 1) in
  let* p := pow10 (Z.to_nat over_estimate) in
  Ok (if p <=? x then over_estimate else estimate).
