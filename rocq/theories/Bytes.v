(** * The byte scanner: struct Bytes, fundu-core/src/parse.rs:655-903 *)
From Verif Require Import Prelude Config.

(** fundu-core/src/parse.rs:657-662. Named [scanner] here. *)
Record scanner : Type := Scan {
  pos : nat;                                            (* current_pos *)
  cur : option byte;                                    (* current_byte *)
  buffer : option (nat * str * option byte);
  input : str
}.

(** fundu-core/src/parse.rs:665-673 *)
Definition bytes_new (i : str) : scanner := Scan 0 (nth_error i 0) None i.

(** fundu-core/src/parse.rs:676-679 *)
Definition advance (b : scanner) : scanner :=
  Scan (pos b + 1) (nth_error (input b) (pos b + 1)) (buffer b) (input b).

(** fundu-core/src/parse.rs:682-685 (unsafe, but it only uses checked `get`) *)
Definition advance_by (b : scanner) (n : nat) : scanner :=
  Scan (pos b + n) (nth_error (input b) (pos b + n)) (buffer b) (input b).

(** the loop `while let Some(byte) = self.current_byte { if stop(byte) {break;} self.advance(); }` *)
(* fundu-core/src/parse.rs:687-698, 715-728, 888-898 the loop `while let Some(byte) = self.current_byte` *)
Fixpoint skip_until (fuel : nat) (stop : byte -> bool) (b : scanner) : res scanner :=
  match fuel with
  | O => Crash CrashFuel
  | S f => match cur b with
           | Some x => if stop x then Ok b else skip_until f stop (advance b)
           | None => Ok b
           end
  end.
(* bound of the loops: every iteration advances (no line of /repo) *)
Definition loop_fuel (b : scanner) : nat := S (length (input b)).

(** fundu-core/src/parse.rs:687-699 *)
Definition advance_to (d : delimiter) (b : scanner) : res (scanner * str) :=
  let start := pos b in
  let* b' := skip_until (loop_fuel b) d b in
  let* s := slice (input b') start (pos b') in
  Ok (b', s).

(** fundu-core/src/parse.rs:701-732 *)
Definition buffered_advance_to (d : delimiter) (b : scanner) : res (scanner * str) :=
  let fresh :=
    let start := pos b in
    let* b' := skip_until (loop_fuel b) d b in
    let* s := slice (input b') start (pos b') in
    Ok (Scan (pos b') (cur b') (Some (start, s, cur b')) (input b'), s) in
  match buffer b with
  | Some (p, buf, Some next) =>
      if (p =? pos b)%nat && d next then Ok (advance_by b (length buf), buf) else fresh
  | Some (p, buf, None) =>
      if (p =? pos b)%nat then Ok (advance_by b (length buf), buf) else fresh
  | None => fresh
  end.

(** fundu-core/src/parse.rs:734-736 *)
Definition peek (b : scanner) (n : nat) : option str := slice_get (input b) (pos b) (pos b + n).

(** fundu-core/src/parse.rs:738-741: &self.input[self.current_pos..] *)
Definition get_remainder (b : scanner) : res str := slice (input b) (pos b) (length (input b)).

(** fundu-core/src/parse.rs:743-746 *)
Definition get_remainder_str_unchecked (b : scanner) : res str :=
  let* r := get_remainder b in str_unchecked r.

(** fundu-core/src/parse.rs:748-752. The text of the Utf8Error is not modelled. *)
Definition get_remainder_str (b : scanner) : res str :=
  let* r := get_remainder b in
  if utf8 r then Ok r else Err (InvalidInput (%"<Utf8Error>")).

(** fundu-core/src/parse.rs:754-757, followed by unwrap at its only call (line 1586) *)
Definition get_current_str_unwrap (b : scanner) (start : nat) : res str :=
  let* s := slice (input b) start (pos b) in
  if utf8 s then Ok s else Crash CrashUnwrap.

(** fundu-core/src/parse.rs:759-763 *)
Definition finish (b : scanner) : scanner := Scan (length (input b)) None (buffer b) (input b).

(** fundu-core/src/parse.rs:765-769 *)
Definition reset (b : scanner) (p : nat) : scanner := Scan p (nth_error (input b) p) (buffer b) (input b).

(** byte.wrapping_sub(b'0') < 10 *)
(* fundu-core/src/parse.rs:774-775 `byte.wrapping_sub(b'0')`, `digit < 10` *)
Definition is_digit_wrapping (x : byte) : bool := wrap_u8 (x - 48) <? 10.

(** fundu-core/src/parse.rs:771-780 *)
Definition parse_digit (b : scanner) : option (byte * scanner) :=
  match cur b with
  | Some x => if is_digit_wrapping x then Some (x, advance b) else None
  | None => None
  end.

(** u64::from_le(ptr.read_unaligned()) of 8 bytes: little endian value *)
(* u64::from_le of eight bytes, fundu-core/src/parse.rs:257, 843 *)
Fixpoint le_num (l : str) : Z :=
  match l with [] => 0 | x :: l' => x + 256 * le_num l' end.

(** u64::trailing_zeros (std contract) *)
(* u64::trailing_zeros, fundu-core/src/parse.rs:797 *)
Fixpoint pos_ctz (p : positive) : Z :=
  match p with xO p' => 1 + pos_ctz p' | _ => 0 end.
(* u64::trailing_zeros, fundu-core/src/parse.rs:797 *)
Definition trailing_zeros_u64 (x : Z) : Z :=
  match x with Zpos p => pos_ctz p | _ => 64 end.

(** fundu-core/src/parse.rs:845-846: the digit test on 8 bytes read as a little endian u64 *)
Definition eight_digits_test (num : Z) : bool :=
  Z.land (Z.land num (wrap_u64 (num + 0x0606060606060606))) 0xf0f0f0f0f0f0f0f0 =? 0x3030303030303030.

(** fundu-core/src/parse.rs:832-853 Bytes::parse_8_digits *)
Definition parse_8_digits (b : scanner) : option (Z * scanner) :=
  match slice_get (input b) (pos b) (pos b + 8) with
  | None => None
  | Some digits =>
      let num := le_num digits in
      if eight_digits_test num then Some (num, advance_by b 8) else None
  end.

(* fundu-core/src/parse.rs:783 *)
Definition ASCII_EIGHT_ZEROS : Z := 0x3030303030303030.

(** fundu-core/src/parse.rs:789-801 first loop of parse_digits_strip_zeros;
    state: (start, strip_leading_zeros, self) *)
Fixpoint strip_loop8 (fuel : nat) (start : nat) (strip : bool) (b : scanner)
  : res (nat * bool * scanner) :=
  match fuel with
  | O => Crash CrashFuel
  | S f =>
    match parse_8_digits b with
    | None => Ok (start, strip, b)
    | Some (eight, b') =>
        if strip then
          if eight =? ASCII_EIGHT_ZEROS then strip_loop8 f (start + 8) true b'
          else
            let* d := arith is_u64 (eight - ASCII_EIGHT_ZEROS) in
            let leading_zeros := trailing_zeros_u64 d / 8 in
            strip_loop8 f (start + Z.to_nat leading_zeros) false b'
        else strip_loop8 f start false b'
    end
  end.

(** fundu-core/src/parse.rs:803-817 second loop *)
Fixpoint strip_loop1 (fuel : nat) (start : nat) (strip : bool) (b : scanner) : res (nat * scanner) :=
  match fuel with
  | O => Crash CrashFuel
  | S f =>
    match cur b with
    | None => Ok (start, b)
    | Some x =>
        let digit := wrap_u8 (x - 48) in
        if digit <? 10 then
          if strip then
            if digit =? 0 then strip_loop1 f (start + 1) true (advance b)
            else strip_loop1 f start false (advance b)
          else strip_loop1 f start false (advance b)
        else Ok (start, b)
    end
  end.

(** fundu-core/src/parse.rs:782-820 parse_digits_strip_zeros; returns the BytesRange *)
Definition parse_digits_strip_zeros (b : scanner) : res (scanner * (nat * nat)) :=
  let* _ := debug_assert (match cur b with Some x => is_digit x | None => false end) in
  let* r := strip_loop8 (loop_fuel b) (pos b) true b in
  let '(start, strip, b1) := r in
  let* r := strip_loop1 (loop_fuel b) start strip b1 in
  let '(start, b2) := r in
  Ok (b2, (start, pos b2)).

(** fundu-core/src/parse.rs:826-827 the two loops of parse_digits *)
Fixpoint digits_loop8 (fuel : nat) (b : scanner) : res scanner :=
  match fuel with
  | O => Crash CrashFuel
  | S f => match parse_8_digits b with Some (_, b') => digits_loop8 f b' | None => Ok b end
  end.
(* fundu-core/src/parse.rs:822-831 second loop *)
Fixpoint digits_loop1 (fuel : nat) (b : scanner) : res scanner :=
  match fuel with
  | O => Crash CrashFuel
  | S f => match parse_digit b with Some (_, b') => digits_loop1 f b' | None => Ok b end
  end.
(** fundu-core/src/parse.rs:822-830 parse_digits *)
Definition parse_digits (b : scanner) : res (scanner * (nat * nat)) :=
  let* _ := debug_assert (match cur b with Some x => is_digit x | None => false end) in
  let start := pos b in
  let* b1 := digits_loop8 (loop_fuel b) b in
  let* b2 := digits_loop1 (loop_fuel b) b1 in
  Ok (b2, (start, pos b2)).

(** fundu-core/src/parse.rs:855-859 *)
Definition next_is_ignore_ascii_case (b : scanner) (word : str) : bool :=
  match peek b (length word) with Some s => str_eq_nocase s word | None => false end.

(** fundu-core/src/parse.rs:861-864 *)
Definition is_end_of_input (b : scanner) : bool := match cur b with None => true | Some _ => false end.

(** fundu-core/src/parse.rs:866-875 *)
Definition check_end_of_input (b : scanner) : res unit :=
  match cur b with
  | None => Ok tt
  | Some _ =>
      let* remainder := get_remainder_str b in
      Err (Syntax (pos b) (%"Expected end of input but found: '" ++ remainder ++ %"'"))
  end.

(** fundu-core/src/parse.rs:877-903 try_consume_delimiter *)
Definition try_consume_delimiter (d : delimiter) (b : scanner) : res scanner :=
  let* c := unwrap (cur b) in
  let* _ := debug_assert (d c) in
  if (pos b =? 0)%nat then Err (Syntax 0 (%"Input may not start with a delimiter"))
  else
    let start := pos b in
    let* b' := skip_until (loop_fuel b) (fun x => negb (d x)) (advance b) in
    match cur b' with
    | Some _ => Ok b'
    | None => Err (Syntax start (%"Input may not end with a delimiter"))
    end.
