(** * Floating point literals and numbers

    The texts Rust's [f64] is read from, and the numbers it can hold, after the documentation of `impl FromStr for f64` and
    IEEE 754. Nothing of the model is used. *)
From Coq Require Import QArith Qabs Qpower.
From Verif Require Import Prelude SpecTime SpecNum SpecSpelling.
Open Scope Z_scope.

(** the grammar in the documentation of `f64::from_str`, in any letter case:
<<
    Float  ::= Sign? ( 'inf' | 'infinity' | 'nan' | Number )
    Number ::= ( Digit+ | Digit+ '.' Digit* | Digit* '.' Digit+ ) Exp?
    Exp    ::= 'e' Sign? Digit+
    Sign   ::= [+-]
>> *)
Inductive float_literal :=
| Decimal (negative : bool) (W F : str) (x : Z)   (* the digits in front of the point and after it, the exponent *)
| Infinite (negative : bool)
| NotANumber (negative : bool).

Inductive float_exponent : str -> Z -> Prop :=
| fe_none : float_exponent [] 0
| fe_some e sg n ds : e = 101 \/ e = 69 -> sign_text sg n -> digit_string ds -> ds <> [] ->
    float_exponent (e :: sg ++ ds) (if n then - dval ds else dval ds).

Inductive float_text : str -> float_literal -> Prop :=
| float_decimal sg n W fr F ex x : sign_text sg n -> digit_string W -> fraction_text fr F -> W ++ F <> [] ->
    float_exponent ex x -> float_text (sg ++ W ++ fr ++ ex) (Decimal n W F x)
| float_infinite sg n v : sign_text sg n -> str_eq_nocase v (%"inf") = true \/ str_eq_nocase v (%"infinity") = true ->
    float_text (sg ++ v) (Infinite n)
| float_nan sg n v : sign_text sg n -> str_eq_nocase v (%"nan") = true -> float_text (sg ++ v) (NotANumber n).

Local Open Scope Q_scope.

(** W.F * 10^x *)
Definition decimal_value (W F : str) (x : Z) : Q := inject_Z (dval (W ++ F)) * (10 # 1) ^ (x - Z.of_nat (length F)).

(** the non negative numbers of the type f64: 53 bits times a power of two *)
Definition is_double (q : Q) : Prop :=
  exists m e, (0 <= m < 2 ^ 53)%Z /\ (-1074 <= e <= 971)%Z /\ q == inject_Z m * (2 # 1) ^ e.

(** what a non negative number is read as: the nearest double, infinity from halfway after the greatest one. Which of two doubles at the
    same distance is not said. *)
Inductive read_double (v : Q) : option Q -> Prop :=
| rd_finite q : v < inject_Z (2 ^ 1024 - 2 ^ 970) -> is_double q ->
    (forall q', is_double q' -> Qabs (v - q) <= Qabs (v - q')) -> read_double v (Some q)
| rd_infinite : inject_Z (2 ^ 1024 - 2 ^ 970) <= v -> read_double v None.

(** `Duration::try_from_secs_f64(f).unwrap_or(Duration::MAX)` of the standard library, in nanoseconds: rounded to the nearest nanosecond, an
    error from 2^64 seconds *)
Inductive std_from_double : option Q -> Z -> Prop :=
| fd_infinite : std_from_double None max_nanos
| fd_overflow q : inject_Z (2 ^ 64) <= q -> std_from_double (Some q) max_nanos
| fd_finite q r : q < inject_Z (2 ^ 64) -> Qabs (q * inject_Z (10 ^ 9) - inject_Z r) <= 1 # 2 -> std_from_double (Some q) r.
