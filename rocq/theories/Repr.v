(** * Numbers and DurationRepr: fundu-core/src/parse.rs:18-26, 243-653 *)
From Verif Require Import Prelude Util Time Bytes.

(** fundu-core/src/parse.rs:18-26 *)
Definition ATTOS_PER_SEC : Z := 1000000000000000000.
(* fundu-core/src/parse.rs:20 *)
Definition ATTOS_PER_NANO : Z := 1000000000.
(* fundu-core/src/parse.rs:22 *)
Definition NANOS_PER_SEC : Z := 1000000000.

(** fundu-core/src/parse.rs:246-263 Parse8Digits::parse_8_digits: reads the first 8 bytes *)
Definition swar_8_digits (digits : str) : res Z :=
  let* _ := debug_assert (8 <=? length digits)%nat in
  let num := le_num (firstn 8 digits) in
  let num := Z.shiftr (wrap_u64 (Z.land num 0x0F0F0F0F0F0F0F0F * 2561)) 8 in
  let num := Z.shiftr (wrap_u64 (Z.land num 0x00FF00FF00FF00FF * 6553601)) 16 in
  let num := Z.shiftr (wrap_u64 (Z.land num 0x0000FFFF0000FFFF * 42949672960001)) 32 in
  Ok num.

(** slice::chunks_exact(8): (chunks, remainder) *)
(* slice::chunks_exact(8) with its remainder, used by fundu-core/src/parse.rs:271-311, 353-370 *)
Fixpoint chunks_exact8 (l : str) : list str * str :=
  match l with
  | a :: b :: c :: d :: e :: f :: g :: h :: t =>
      let '(cs, r) := chunks_exact8 t in ([a; b; c; d; e; f; g; h] :: cs, r)
  | _ => ([], l)
  end.

(** ** Whole *)
(** fundu-core/src/parse.rs:275-285: one loop over chunks of 8 digits *)
Fixpoint whole_chunks (seconds : Z) (cs : list str) : res (option Z) :=
  match cs with
  | [] => Ok (Some seconds)
  | c :: cs' =>
      match chk is_u64 (seconds * 100000000) with
      | None => Ok None
      | Some s =>
          let* v := swar_8_digits c in
          match chk is_u64 (s + v) with
          | Some s' => whole_chunks s' cs'
          | None => Ok None
          end
      end
  end.
(** fundu-core/src/parse.rs:286-296 and 298-308: one loop over single digits; `*num - b'0'` is a plain u8 subtraction *)
Fixpoint whole_digits (seconds : Z) (ds : str) : res (option Z) :=
  match ds with
  | [] => Ok (Some seconds)
  | num :: ds' =>
      match chk is_u64 (seconds * 10) with
      | None => Ok None
      | Some s =>
          let* v := arith is_u8 (num - 48) in
          match chk is_u64 (s + v) with
          | Some s' => whole_digits s' ds'
          | None => Ok None
          end
      end
  end.
(** fundu-core/src/parse.rs:271-311 Whole::parse_slice *)
Definition whole_parse_slice (seconds : Z) (digits : str) : res (option Z) :=
  if (8 <=? length digits)%nat then
    let '(cs, r) := chunks_exact8 digits in
    let* o := whole_chunks seconds cs in
    match o with
    | Some s => whole_digits s r
    | None => Ok None
    end
  else whole_digits seconds digits.

(* slice::is_empty: no line of /repo *)
Definition is_empty {A} (l : list A) : bool := match l with [] => true | _ => false end.
(** Option::map_or(true, is_empty) *)
(* fundu-core/src/parse.rs:314, 373 `map_or(true, ...)` *)
Definition none_or_empty (o : option str) : bool := match o with None => true | Some l => is_empty l end.

(** fundu-core/src/parse.rs:313-334 Whole::parse *)
Definition whole_parse (digits : str) (append : option str) (zeros : option nat) : res (option Z) :=
  if is_empty digits && none_or_empty append then Ok (Some 0)
  else
    let* o := whole_parse_slice 0 digits in
    match o with
    | None => Ok None
    | Some s =>
        let* o := match append with None => Ok (Some s) | Some a => whole_parse_slice s a end in
        match o with
        | None => Ok None
        | Some seconds =>
            if seconds =? 0 then Ok (Some 0)
            else match zeros with
                 | Some num_zeros =>
                     if (0 <? num_zeros)%nat then
                       match nth_error POW10 num_zeros with
                       | Some pow => Ok (chk is_u64 (seconds * pow))
                       | None => Ok None
                       end
                     else Ok (Some seconds)
                 | None => Ok (Some seconds)
                 end
        end
    end.

(** ** Fract *)
(** fundu-core/src/parse.rs:357-360 *)
Fixpoint fract_chunks (attos : Z) (cs : list str) : res Z :=
  match cs with
  | [] => Ok attos
  | c :: cs' =>
      let* p := arith is_u64 (attos * 100000000) in
      let* v := swar_8_digits c in
      let* a := arith is_u64 (p + v) in
      fract_chunks a cs'
  end.
(** fundu-core/src/parse.rs:361-363, 365-367 *)
Fixpoint fract_digits (attos : Z) (ds : str) : res Z :=
  match ds with
  | [] => Ok attos
  | num :: ds' =>
      let* p := arith is_u64 (attos * 10) in
      let* v := arith is_u8 (num - 48) in
      let* a := arith is_u64 (p + v) in
      fract_digits a ds'
  end.
(** fundu-core/src/parse.rs:353-370 Fract::parse_slice *)
Definition fract_parse_slice (attos : Z) (max_to_parse : nat) (digits : str) : res (Z * nat) :=
  let num_parsable := Nat.min (length digits) max_to_parse in
  let* ds := slice digits 0 num_parsable in
  let* a :=
    (if (8 <=? num_parsable)%nat then
       let '(cs, r) := chunks_exact8 ds in
       let* a := fract_chunks attos cs in
       fract_digits a r
     else fract_digits attos ds) in
  Ok (a, max_to_parse - num_parsable)%nat.

(* fundu-core/src/parse.rs:390-407 `attos * POW10[remainder]` *)
Definition mul_pow10 (attos : Z) (remainder : nat) : res Z :=
  let* p := pow10 remainder in arith is_u64 (attos * p).

(** fundu-core/src/parse.rs:372-408 Fract::parse *)
Definition fract_parse (digits : str) (prepend : option str) (zeros : option nat) : res Z :=
  if is_empty digits && none_or_empty prepend then Ok 0
  else
    match (match zeros with
           | Some z => if (18 <? z)%nat then None else Some (18 - z)%nat
           | None => Some 18%nat
           end) with
    | None => Ok 0
    | Some max_to_parse =>
        let plain :=
          let* r := fract_parse_slice 0 max_to_parse digits in
          let '(attos, remainder) := r in
          if (0 <? remainder)%nat then mul_pow10 attos remainder else Ok attos in
        match prepend with
        | Some p =>
            if negb (is_empty p) then
              let* r := fract_parse_slice 0 max_to_parse p in
              let '(attos, remainder) := r in
              if (remainder =? 0)%nat then Ok attos
              else if is_empty digits then mul_pow10 attos remainder
              else
                let* r := fract_parse_slice attos remainder digits in
                let '(attos, remainder) := r in
                if (0 <? remainder)%nat then mul_pow10 attos remainder else Ok attos
            else plain
        | None => plain
        end
    end.

(** ** DurationRepr, fundu-core/src/parse.rs:421-433. Whole(a,b) and Fract(a,b) are pairs. *)
Record repr : Type := Repr {
  r_default_unit : time_unit;
  r_unit : option time_unit;
  r_is_negative : option bool;
  r_is_infinite : bool;
  r_whole : option (nat * nat);
  r_fract : option (nat * nat);
  r_input : str;
  r_exponent : Z;
  r_multiplier : multiplier;
  r_numeral : option multiplier
}.

(** usize subtraction *)
(* plain subtraction of usize: no line of /repo *)
Definition sub_usize (a b : nat) : res nat := if (b <=? a)%nat then Ok (a - b)%nat else Crash CrashArith.
(** fundu-core/src/parse.rs:336-344, 410-418 Whole::len, Fract::len, is_empty *)
Definition range_len (w : nat * nat) : res nat := sub_usize (snd w) (fst w).
(* fundu-core/src/parse.rs:342-344, 416-418 *)
Definition range_is_empty (w : nat * nat) : bool := (snd w =? fst w)%nat.
(* `&digits[w.0..w.1]`, fundu-core/src/parse.rs:480-553 *)
Definition range_slice (digits : str) (w : nat * nat) : res str := slice digits (fst w) (snd w).
(** `o.map_or_else(|| [].as_ref(), |w| &digits[w.0..w.1])` *)
(* fundu-core/src/parse.rs:480-553 `map_or` *)
Definition opt_slice (digits : str) (o : option (nat * nat)) : res str :=
  match o with None => Ok [] | Some w => range_slice digits w end.
(** `o.map_or(0, |w| w.len())` *)
(* fundu-core/src/parse.rs:480-553 `map_or(0, len)` *)
Definition opt_len (o : option (nat * nat)) : res nat :=
  match o with None => Ok 0%nat | Some w => range_len w end.

(* fundu-core/src/parse.rs:480-553, 599-650 `if is_negative { MIN } else { MAX }` *)
Definition min_or_max (is_neg : bool) : duration := if is_neg then MIN else MAX.

(** fundu-core/src/parse.rs:598-652 DurationRepr::calculate_duration *)
Definition calculate_duration (is_neg : bool) (seconds attos coefficient : Z) : res duration :=
  if ((seconds =? 0) && (attos =? 0)) || (coefficient =? 0) then Ok ZERO
  else if attos =? 0 then
    let uc := Z.abs coefficient in
    match chk is_u64 (seconds * uc) with
    | Some s => let* i := std_new s 0 in Ok (from_std is_neg i)
    | None => Ok (min_or_max is_neg)
    end
  else if (coefficient =? 1) || (coefficient =? -1) then
    let* n := unwrap (chk is_u32 (attos / ATTOS_PER_NANO)) in
    let* i := std_new seconds n in Ok (from_std is_neg i)
  else
    let uc := Z.abs coefficient in
    match chk is_u64 (uc * attos) with
    | Some attos =>
        match (let? s := chk is_u64 (seconds * uc) in chk is_u64 (s + attos / ATTOS_PER_SEC)) with
        | Some s =>
            let* i := std_new s (wrap_u32 ((attos / ATTOS_PER_NANO) mod NANOS_PER_SEC)) in
            Ok (from_std is_neg i)
        | None => Ok (min_or_max is_neg)
        end
    | None =>
        match chk is_u64 (seconds * uc) with
        | None => Ok (min_or_max is_neg)
        | Some s =>
            let* attos := arith is_u128 (attos * uc) in
            let* add := unwrap (chk is_u64 (attos / ATTOS_PER_SEC)) in
            match chk is_u64 (s + add) with
            | Some s =>
                let* i := std_new s (wrap_u32 ((attos / ATTOS_PER_NANO) mod NANOS_PER_SEC)) in
                Ok (from_std is_neg i)
            | None => Ok (min_or_max is_neg)
            end
        end
    end.

(* Option::unwrap_or_default, fundu-core/src/parse.rs:440, 477, 575, 1193 *)
Definition neg_or_default (o : option bool) : bool := match o with Some b => b | None => false end.

(** fundu-core/src/parse.rs:570-596 parse_duration_with_fixed_number *)
Definition parse_duration_with_fixed_number (r : repr) (coefficient exponent : Z) : res duration :=
  if coefficient =? 0 then Ok ZERO
  else
    let is_neg := xorb (coefficient <? 0) (neg_or_default (r_is_negative r)) in
    match Z.compare exponent 0 with
    | Lt =>
        if exponent <? -18 then Ok ZERO
        else
          let* idx := arith is_i16 (18 + exponent) in
          let* attos := pow10 (Z.to_nat idx) in
          calculate_duration is_neg 0 attos coefficient
    | Eq => let* i := std_new (Z.abs coefficient) 0 in Ok (from_std is_neg i)
    | Gt =>
        if 19 <? exponent then Ok (if coefficient <? 0 then MIN else MAX)
        else
          let* seconds := pow10 (Z.to_nat exponent) in
          calculate_duration is_neg seconds 0 coefficient
    end.

(** the tail of DurationRepr::parse after (seconds, attos) were computed: `None` stands for the
    `return Ok(MIN/MAX)` branches *)
(* fundu-core/src/parse.rs:555-568 *)
Definition finish_number (is_neg : bool) (coefficient : Z) (o : option (Z * Z)) : res duration :=
  match o with
  | None => Ok (min_or_max is_neg)
  | Some (seconds, attos) => calculate_duration is_neg seconds attos coefficient
  end.

(** fundu-core/src/parse.rs:484-554: the big match computing (seconds, attos) *)
Definition split_number (digits : str) (exponent : Z) (whole fract : option (nat * nat))
  : res (option (Z * Z)) :=
  let exponent_abs := Z.to_nat (Z.abs exponent) in
  match Z.compare exponent 0 with
  | Lt =>
      let* first_branch :=
        match whole with
        | Some w => let* l := range_len w in Ok (exponent_abs <? l)%nat
        | None => Ok false
        end in
      match first_branch, whole with
      | true, Some w =>
          (* fundu-core/src/parse.rs:485-498 *)
          let* e := sub_usize (snd w) exponent_abs in
          let* ds := slice digits (fst w) e in
          let* o := whole_parse ds None None in
          match o with
          | None => Ok None
          | Some seconds =>
              let* fd := opt_slice digits fract in
              let* pd := slice digits e (snd w) in
              let* attos := fract_parse fd (Some pd) None in
              Ok (Some (seconds, attos))
          end
      | _, _ =>
          (* fundu-core/src/parse.rs:499-522 *)
          let* attos :=
            match fract with
            | Some f =>
                if range_is_empty f then
                  let* wd := opt_slice digits whole in
                  let* l := opt_len whole in
                  let* z := sub_usize exponent_abs l in
                  fract_parse wd None (Some z)
                else
                  let* fd := range_slice digits f in
                  let* pd := match whole with
                             | Some w => if range_is_empty w then Ok None
                                         else let* s := range_slice digits w in Ok (Some s)
                             | None => Ok None
                             end in
                  let* l := opt_len whole in
                  let* z := sub_usize exponent_abs l in
                  fract_parse fd pd (Some z)
            | None =>
                let* wd := opt_slice digits whole in
                let* l := opt_len whole in
                let* z := sub_usize exponent_abs l in
                fract_parse wd None (Some z)
            end in
          Ok (Some (0, attos))
      end
  | Eq =>
      (* fundu-core/src/parse.rs:523-537 *)
      let* o := match whole with
                | None => Ok (Some 0)
                | Some w => let* ds := range_slice digits w in whole_parse ds None None
                end in
      match o with
      | None => Ok None
      | Some seconds =>
          let* attos := match fract with
                        | None => Ok 0
                        | Some f => let* fd := range_slice digits f in fract_parse fd None None
                        end in
          Ok (Some (seconds, attos))
      end
  | Gt =>
      let* first_branch :=
        match fract with
        | Some f => let* l := range_len f in Ok (exponent_abs <? l)%nat
        | None => Ok false
        end in
      match first_branch, fract with
      | true, Some f =>
          (* fundu-core/src/parse.rs:538-552 *)
          let* wd := opt_slice digits whole in
          let* ad := slice digits (fst f) (fst f + exponent_abs) in
          let* o := whole_parse wd (Some ad) None in
          match o with
          | None => Ok None
          | Some seconds =>
              let* fd := slice digits (fst f + exponent_abs) (snd f) in
              let* attos := fract_parse fd None None in
              Ok (Some (seconds, attos))
          end
      | _, _ =>
          (* fundu-core/src/parse.rs:553-563 *)
          let* wd := opt_slice digits whole in
          let* ad := match fract with
                     | None => Ok None
                     | Some f => let* s := range_slice digits f in Ok (Some s)
                     end in
          let* l := opt_len fract in
          let* z := sub_usize exponent_abs l in
          let* o := whole_parse wd ad (Some z) in
          match o with
          | None => Ok None
          | Some seconds => Ok (Some (seconds, 0))
          end
      end
  end.

(** fundu-core/src/parse.rs:436-568 DurationRepr::parse *)
Definition repr_parse (r : repr) : res duration :=
  if r_is_infinite r then Ok (from_std (neg_or_default (r_is_negative r)) STD_MAX)
  else
    match r_whole r, r_fract r with
    | None, None =>
        match r_numeral r, r_unit r with
        | Some numeral, u =>
            let* time_unit := unwrap u in
            let* m1 := mul_mul numeral (unit_multiplier time_unit) in
            let* m := mul_mul m1 (r_multiplier r) in
            parse_duration_with_fixed_number r (coef m) (expo m)
        | None, Some time_unit =>
            let* m := mul_mul (unit_multiplier time_unit) (r_multiplier r) in
            parse_duration_with_fixed_number r (coef m) (expo m)
        | None, None => Crash CrashUnreachable
        end
    | _, _ =>
        let time_unit := match r_unit r with Some u => u | None => r_default_unit r end in
        let* m := mul_mul (unit_multiplier time_unit) (r_multiplier r) in
        let coefficient := coef m in
        if coefficient =? 0 then Ok ZERO
        else
          let* exponent := arith is_i32 (expo m + r_exponent r) in
          let is_neg := xorb (neg_or_default (r_is_negative r)) (coefficient <? 0) in
          let* o := split_number (r_input r) exponent (r_whole r) (r_fract r) in
          finish_number is_neg coefficient o
    end.
