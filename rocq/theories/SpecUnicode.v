(** * Unicode: characters and their UTF-8 encoding (RFC 3629), independent of the model's check of byte strings *)
From Verif Require Import Prelude.

(** the values of `char`: code points without the surrogates *)
Definition scalar (cp : Z) : Prop := (0 <= cp < 55296) \/ (57344 <= cp <= 1114111).

(** `char::encode_utf8`: 7, 11, 16 or 21 bits *)
Definition encode (cp : Z) : str :=
  if cp <? 128 then [cp]
  else if cp <? 2048 then [192 + cp / 64; 128 + cp mod 64]
  else if cp <? 65536 then [224 + cp / 4096; 128 + cp / 64 mod 64; 128 + cp mod 64]
  else [240 + cp / 262144; 128 + cp / 4096 mod 64; 128 + cp / 64 mod 64; 128 + cp mod 64].

(** the bytes of a sequence of characters *)
Fixpoint text (cps : list Z) : str :=
  match cps with [] => [] | cp :: rest => encode cp ++ text rest end.
Definition characters (cps : list Z) : Prop := forall cp, In cp cps -> scalar cp.

(** the ASCII letters A to Z and a to z are 32 apart; all other characters, Á and á for instance, have no other case here *)
Definition same_letter (x y : Z) : Prop :=
  x = y \/ (65 <= x <= 90 /\ y = x + 32) \/ (65 <= y <= 90 /\ x = y + 32).
