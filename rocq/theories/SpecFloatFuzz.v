(** * The fuzz target fundu/fuzz/fuzz_targets/f64_like_input.rs: what it expects of the parser *)
From Coq Require Import QArith Qabs Qpower.
From Verif Require Import Prelude Time Standard SpecTime SpecNum SpecSpelling SpecFloat.
Open Scope Z_scope.

(** the values of f64: the sign and the magnitude ([None]: infinity) *)
Inductive float := NaN | Float (negative : bool) (magnitude : option Q).
(** str::parse::<f64> *)
Inductive reads : str -> float -> Prop :=
| reads_decimal s n W F x q : float_text s (Decimal n W F x) -> read_double (decimal_value W F x) q -> reads s (Float n q)
| reads_infinity s n : float_text s (Infinite n) -> reads s (Float n None)
| reads_nan s n : float_text s (NotANumber n) -> reads s NaN.

(** the literal 0.000000000000000001f64 in line 51: the double next to 10^-18 *)
Definition tiny : Q := (5192296858534828 # 1) * (2 # 1) ^ (-112).

(** f64_like_input.rs:11-40 check_exponent_overflow: what follows the first `e` is a number which is too great for i16 *)
Definition overflow_is_right (s : str) : Prop :=
  exists a e sg n ds, s = a ++ e :: sg ++ ds /\ (e = 101 \/ e = 69) /\ (forall y, In y a -> y <> 101 /\ y <> 69) /\
    sign_text sg n /\ ds <> [] /\ digit_string ds /\ ~ -32768 <= (if n then - dval ds else dval ds) <= 32767.
Definition exponent_overflow (s : str) : Prop :=
  exists e, dp_parse dp_without_time_units s = Err e /\ (e = NegativeExponentOverflow \/ e = PositiveExponentOverflow) /\ overflow_is_right s.

(** f64_like_input.rs:42-124: the target does not panic, where the input is read as [v] *)
Definition value_passes (s : str) (v : float) : Prop :=
  match v with
  | NaN => exists e, dp_parse dp_without_time_units s = Err e
  | Float true None => exists e, dp_parse dp_without_time_units s = Err e
  | Float n q =>
      match q with
      | Some a =>
          (* lines 47-77 negative numbers *)
          (n = true -> ~ (a == 0)%Q ->
            ((a < tiny)%Q -> (exists d, dp_parse dp_without_time_units s = Ok d) \/ exponent_overflow s) /\
            ((tiny < a)%Q -> exists e, dp_parse dp_without_time_units s = Err e))
      | None => True
      end /\
      (* lines 86-118 all other numbers *)
      ((n = false \/ exists a, q = Some a /\ (a == 0)%Q) ->
        exponent_overflow s \/
        exists d t, dp_parse dp_without_time_units s = Ok d /\ try_into_std d = inl t /\
          forall r, std_from_double q r -> Z.abs (std_nanos t - r) <= 1024 * 10 ^ 9)
  end.
Definition float_target_passes (s : str) : Prop :=
  (forall v, reads s v -> value_passes s v) /\
  ((forall l, ~ float_text s l) -> exists e, dp_parse dp_without_time_units s = Err e).
