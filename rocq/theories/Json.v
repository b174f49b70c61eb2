(** Python values produced by a JSON parser. *)
From Verif Require Import Base.

(** [JFloat n d] is a finite float with the exact value n/d; [JSpecial] is NaN or an infinity.
    Objects are dicts: keys are unique in what a parser returns, lookups use the first. *)
Inductive json : Type :=
| JNull
| JBool (b : bool)
| JInt (n : Z)
| JFloat (n : Z) (d : positive)
| JSpecial (k : nat)    (* 0: NaN, 1: +inf, others: -inf *)
| JStr (s : str)
| JList (l : list json)
| JObj (l : list (str * json)).

(** [d.get(k)] with [None] for both a missing and a null entry *)
Definition get_claim (k : str) (d : list (str * json)) : option json :=
  match assoc str_eqb k d with Some JNull => None | x => x end.

Definition has_key {V} (k : str) (d : list (str * V)) : bool :=
  match assoc str_eqb k d with Some _ => true | None => false end.
