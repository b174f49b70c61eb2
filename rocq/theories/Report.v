(** The text of the lines that [sigstore verify] prints for inputs that were verified. *)
From Coq Require Import List NArith.
Import ListNotations.
From Verif Require Import Base Codec PyText Messages Tuf Hashing Dsse BundleJson CliVerify.

(** [str(p)] of a [pathlib.Path] (Python's library; used at _cli.py:1150): the parts with slashes between them, a dot if there are
    none.  Simplified as in CliVerify.v: exactly two slashes at the start are one. *)
Definition path_str (p : path) : str :=
  match p with
  | nil => s2l "."
  | a :: r => if str_eqb a ROOT then 47%N :: join_on 47%N r else join_on 47%N p
  end.

(** hashes.py:59-63 [Hashed.__str__]; the values of [HashAlgorithm] are those of BundleJson.v *)
Definition hashed_str (h : Hashed) : str := algorithm_text (h_alg h) ++ 58%N :: hex (h_digest h).

Definition item_str (x : item) : str := match x with It_path p => path_str p | It_digest h => hashed_str h end.

(** _cli.py:1150 and 1203: [print(f"OK: {file_or_digest}", file=sys.stderr)].  The other lines are not printed to standard
    error: failures are logged, statements go to standard output.  Not modelled: how log messages are laid out. *)
Definition printed (l : line) : str := match l with L_ok x => s2l "OK: " ++ item_str x ++ [10%N] | _ => nil end.
Definition stderr_text (ls : list line) : str := concat (map printed ls).
