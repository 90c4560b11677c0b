(** * Prelude: machine integers, the result monad, byte strings

    Nothing here models a particular function of /repo; it is the vocabulary in which the Rust code
    is transcribed. See DESIGN.md section 2. *)
From Coq Require Export ZArith List Bool String Ascii Lia.
From Coq Require Export ZifyBool ZifyNat.
Export ListNotations.
#[global] Open Scope Z_scope.
(* strings and lists share a few names; lists win *)
Notation length := List.length.

(** ** Errors: fundu-core/src/error.rs:18-40 (ParseError), 72-79 (TryFromDurationError).
    The payload strings are byte lists. *)
Notation byte := Z (only parsing).
Notation str := (list Z) (only parsing).

(* fundu-core/src/error.rs:18-40 enum ParseError *)
Inductive parse_error : Type :=
| Empty
| Syntax (pos : nat) (msg : str)
| Overflow
| TimeUnitErr (pos : nat) (msg : str)
| NegativeExponentOverflow
| PositiveExponentOverflow
| NegativeNumber
| InvalidInput (msg : str).

(** Everything which is not an ordinary return in Rust. *)
(* the kinds of a panic or of undefined behaviour: no line of /repo *)
Inductive crash : Type :=
| CrashArith        (* overflow of a plain arithmetic operation: panic (debug) or wrap (release) *)
| CrashUnwrap       (* failing unwrap/expect/assert/panic! *)
| CrashIndex        (* slice or array index out of bounds *)
| CrashUnreachable  (* unreachable!() reached *)
| CrashDebugAssert  (* debug_assert! violated *)
| CrashUtf8         (* undefined behaviour: from_utf8_unchecked on invalid UTF-8 *)
| CrashFuel.        (* the loop does not terminate within the given fuel *)

(* a Result<_, ParseError> or a crash: no line of /repo *)
Inductive res (A : Type) : Type :=
| Ok (a : A)
| Err (e : parse_error)
| Crash (c : crash).
Arguments Ok {A}. Arguments Err {A}. Arguments Crash {A}.

(* the operator `?`, and going on after a call which may panic: no line of /repo *)
Definition bind {A B} (m : res A) (f : A -> res B) : res B :=
  match m with Ok a => f a | Err e => Err e | Crash c => Crash c end.
Notation "'let*' x := m 'in' f" := (bind m (fun x => f))
  (at level 200, x pattern, m at level 100, f at level 200, right associativity).

(* Option::unwrap/expect: no line of /repo *)
Definition unwrap {A} (o : option A) : res A :=
  match o with Some a => Ok a | None => Crash CrashUnwrap end.
(* the macro debug_assert!: no line of /repo *)
Definition debug_assert (b : bool) : res unit :=
  if b then Ok tt else Crash CrashDebugAssert.
(* the macro assert!: no line of /repo *)
Definition rassert (b : bool) : res unit :=
  if b then Ok tt else Crash CrashUnwrap.
(* Result::map: no line of /repo *)
Definition map_res {A B} (f : A -> B) (m : res A) : res B :=
  let* a := m in Ok (f a).

(** ** Machine integers *)
(* integers of the language: no line of /repo *)
Definition u64_max : Z := 18446744073709551615.
(* integers of the language: no line of /repo *)
Definition u32_max : Z := 4294967295.
(* integers of the language: no line of /repo *)
Definition i64_min : Z := -9223372036854775808.
(* integers of the language: no line of /repo *)
Definition i64_max : Z := 9223372036854775807.
(* integers of the language: no line of /repo *)
Definition i32_min : Z := -2147483648.
(* integers of the language: no line of /repo *)
Definition i32_max : Z := 2147483647.
(* integers of the language: no line of /repo *)
Definition i16_min : Z := -32768.
(* integers of the language: no line of /repo *)
Definition i16_max : Z := 32767.
(* integers of the language: no line of /repo *)
Definition i128_min : Z := - 2 ^ 127.
(* integers of the language: no line of /repo *)
Definition i128_max : Z := 2 ^ 127 - 1.
(* integers of the language: no line of /repo *)
Definition u128_max : Z := 2 ^ 128 - 1.

(* integers of the language: no line of /repo *)
Definition inb (lo hi x : Z) : bool := (lo <=? x) && (x <=? hi).
(* integers of the language: no line of /repo *)
Definition is_u8 := inb 0 255.
(* integers of the language: no line of /repo *)
Definition is_u32 := inb 0 u32_max.
(* integers of the language: no line of /repo *)
Definition is_u64 := inb 0 u64_max.
(* integers of the language: no line of /repo *)
Definition is_u128 := inb 0 u128_max.
(* integers of the language: no line of /repo *)
Definition is_i16 := inb i16_min i16_max.
(* integers of the language: no line of /repo *)
Definition is_i32 := inb i32_min i32_max.
(* integers of the language: no line of /repo *)
Definition is_i64 := inb i64_min i64_max.
(* integers of the language: no line of /repo *)
Definition is_i128 := inb i128_min i128_max.

(** checked_*: None outside of the range of the type *)
(* integers of the language: no line of /repo *)
Definition chk (p : Z -> bool) (x : Z) : option Z := if p x then Some x else None.
(** plain operators: crash outside of the range of the type *)
(* integers of the language: no line of /repo *)
Definition arith (p : Z -> bool) (x : Z) : res Z := if p x then Ok x else Crash CrashArith.
(** wrapping operations and casts *)
(* integers of the language: no line of /repo *)
Definition wrap_u64 (x : Z) : Z := x mod 2 ^ 64.
(* integers of the language: no line of /repo *)
Definition wrap_i64 (x : Z) : Z := (x + 2 ^ 63) mod 2 ^ 64 - 2 ^ 63.
(* integers of the language: no line of /repo *)
Definition wrap_u32 (x : Z) : Z := x mod 2 ^ 32.
(* integers of the language: no line of /repo *)
Definition wrap_u8 (x : Z) : Z := x mod 256.
(* integers of the language: no line of /repo *)
Definition wrap_i32 (x : Z) : Z := (x + 2 ^ 31) mod 2 ^ 32 - 2 ^ 31.

(* the operator `?` on Option: no line of /repo *)
Definition obind {A B} (o : option A) (f : A -> option B) : option B :=
  match o with Some a => f a | None => None end.
Notation "'let?' x := m 'in' f" := (obind m (fun x => f))
  (at level 200, x pattern, m at level 100, f at level 200, right associativity).

(** ** Strings *)
(* bytes and strings of the language: no line of /repo *)
Fixpoint bytes_of (s : string) : str :=
  match s with
  | EmptyString => []
  | String a s' => Z.of_nat (nat_of_ascii a) :: bytes_of s'
  end.
Notation "% s" := (bytes_of s%string) (at level 1, only parsing).

(* bytes and strings of the language: no line of /repo *)
Fixpoint str_eqb (a b : str) : bool :=
  match a, b with
  | [], [] => true
  | x :: a', y :: b' => (x =? y) && str_eqb a' b'
  | _, _ => false
  end.

(** std: u8::is_ascii_digit, u8::to_ascii_lowercase, eq_ignore_ascii_case, is_ascii_whitespace *)
(* bytes and strings of the language: no line of /repo *)
Definition is_digit (b : byte) : bool := (48 <=? b) && (b <=? 57).
(* bytes and strings of the language: no line of /repo *)
Definition to_lower (b : byte) : byte := if (65 <=? b) && (b <=? 90) then b + 32 else b.
(* bytes and strings of the language: no line of /repo *)
Definition eq_nocase (a b : byte) : bool := to_lower a =? to_lower b.
(* bytes and strings of the language: no line of /repo *)
Fixpoint str_eq_nocase (a b : str) : bool :=
  match a, b with
  | [], [] => true
  | x :: a', y :: b' => eq_nocase x y && str_eq_nocase a' b'
  | _, _ => false
  end.
(* bytes and strings of the language: no line of /repo *)
Definition is_ascii_whitespace (b : byte) : bool :=
  (b =? 32) || (b =? 9) || (b =? 10) || (b =? 12) || (b =? 13).

(** &slice[a..b] : panics unless a <= b <= len *)
(* bytes and strings of the language: no line of /repo *)
Definition slice (l : str) (a b : nat) : res str :=
  if (a <=? b)%nat && (b <=? length l)%nat then Ok (firstn (b - a) (skipn a l)) else Crash CrashIndex.
(** slice.get(a..b) *)
(* bytes and strings of the language: no line of /repo *)
Definition slice_get (l : str) (a b : nat) : option str :=
  if (a <=? b)%nat && (b <=? length l)%nat then Some (firstn (b - a) (skipn a l)) else None.

(** ** UTF-8 validity, as checked by core::str::from_utf8 (Unicode table 3-7 / RFC 3629):
    no overlong forms, no surrogates, nothing above U+10FFFF. *)
Definition cont (b : byte) : bool := inb 128 191 b.
(* bytes and strings of the language: no line of /repo *)
Fixpoint utf8 (l : str) : bool :=
  match l with
  | [] => true
  | b0 :: t0 =>
    if inb 0 127 b0 then utf8 t0 else
    match t0 with
    | [] => false
    | b1 :: t1 =>
      if inb 194 223 b0 then cont b1 && utf8 t1 else
      match t1 with
      | [] => false
      | b2 :: t2 =>
        if b0 =? 224 then inb 160 191 b1 && cont b2 && utf8 t2 else
        if inb 225 236 b0 || inb 238 239 b0 then cont b1 && cont b2 && utf8 t2 else
        if b0 =? 237 then inb 128 159 b1 && cont b2 && utf8 t2 else
        match t2 with
        | [] => false
        | b3 :: t3 =>
          if b0 =? 240 then inb 144 191 b1 && cont b2 && cont b3 && utf8 t3 else
          if inb 241 243 b0 then cont b1 && cont b2 && cont b3 && utf8 t3 else
          if b0 =? 244 then inb 128 143 b1 && cont b2 && cont b3 && utf8 t3 else false
        end
      end
    end
  end.

(** unsafe from_utf8_unchecked: undefined behaviour unless the bytes are valid UTF-8 *)
(* bytes and strings of the language: no line of /repo *)
Definition str_unchecked (l : str) : res str := if utf8 l then Ok l else Crash CrashUtf8.
(** `byte as char` formatted into a String: U+0000..U+00FF encoded as UTF-8 *)
(* `byte as char` formatted as UTF-8, used by fundu-core/src/parse.rs:1322, 1510, 1575, 1606 *)
Definition char_of_byte (b : byte) : str :=
  if b <? 128 then [b] else [192 + b / 64; 128 + b mod 64].
