(** * Regular expressions with named groups: what they look like and what they match

    The part of the syntax of the crate regex which the fuzz targets fundu/fuzz/fuzz_targets/parse_single.rs and
    fundu-gnu/fuzz/fuzz_targets/parsing.rs use. *)
From Verif Require Import Prelude.

Inductive regex :=
| Nothing                                   (* the empty expression *)
| Class (source : str) (p : byte -> bool)   (* `[...]`, or a single escaped character *)
| Text (w : str)                            (* letters, which stand for themselves *)
| Then (a b : regex)
| Or (a b : regex)
| Maybe (r : regex)
| Many (r : regex)
| Lazily (r : regex)                        (* like Many, but as few as possible *)
| Some_ (r : regex)                         (* one or more *)
| Group (r : regex)
| Named (name : str) (r : regex).

(** the source text. An alternative in a sequence or below `?`, `*`, `+` has to stand in a group *)
Fixpoint source (r : regex) : str :=
  match r with
  | Nothing => []
  | Class t _ => t
  | Text w => w
  | Then a b => source a ++ source b
  | Or a b => source a ++ %"|" ++ source b
  | Maybe r => source r ++ %"?"
  | Many r => source r ++ %"*"
  | Lazily r => source r ++ %"*?"
  | Some_ r => source r ++ %"+"
  | Group r => %"(" ++ source r ++ %")"
  | Named n r => %"(?P<" ++ n ++ %">" ++ source r ++ %")"
  end.

(** one after the other, any number of times *)
Inductive repeated (P : str -> list (str * str) -> Prop) : str -> list (str * str) -> Prop :=
| rep_none : repeated P [] []
| rep_more s k s' k' : P s k -> repeated P s' k' -> repeated P (s ++ s') (k ++ k').

(** [matches r s k]: the whole of [s] matches [r], with what the named groups have captured. (If a text matches in different ways, the
    crate takes the first of them. Here these are all of them.) *)
Fixpoint matches (r : regex) (s : str) (k : list (str * str)) : Prop :=
  match r with
  | Nothing => s = [] /\ k = []
  | Class _ p => (exists x, s = [x] /\ p x = true) /\ k = []
  | Text w => s = w /\ k = []
  | Then a b => exists s1 s2 k1 k2, s = s1 ++ s2 /\ k = k1 ++ k2 /\ matches a s1 k1 /\ matches b s2 k2
  | Or a b => matches a s k \/ matches b s k
  | Maybe r => s = [] /\ k = [] \/ matches r s k
  | Many r | Lazily r => repeated (matches r) s k
  | Some_ r => exists s1 s2 k1 k2, s = s1 ++ s2 /\ k = k1 ++ k2 /\ matches r s1 k1 /\ repeated (matches r) s2 k2
  | Group r => matches r s k
  | Named n r => exists k', k = (n, s) :: k' /\ matches r s k'
  end.

(** captures.name(...) *)
Definition captured (k : list (str * str)) (name : str) : option str :=
  match find (fun e => str_eqb (fst e) name) k with Some e => Some (snd e) | None => None end.
