(** Specification: RFC 6962 section 2.1, Merkle tree hash and audit paths,
    written from the RFC and independent of sigstore-python. *)
From Verif Require Import Base.

Section Spec.
Variable H : bytes -> bytes.

(** What is hashed for a leaf and for an inner node. *)
Definition leaf_string (d : bytes) : bytes := x00 :: d.
Definition node_string (l r : bytes) : bytes := x01 :: l ++ r.

(** "largest power of two smaller than n", for n > 1 *)
Definition split_point (n : nat) : nat := 2 ^ Nat.log2 (n - 1).

(** MTH(D[n]); the first argument only bounds the recursion (see [mth_one],
    [mth_many] for the RFC equations). *)
Fixpoint mth_fuel (fuel : nat) (D : list bytes) : bytes :=
  match D with
  | nil => H nil
  | d :: nil => H (leaf_string d)
  | _ => match fuel with
         | O => nil
         | S f => let k := split_point (length D) in
                  H (node_string (mth_fuel f (firstn k D)) (mth_fuel f (skipn k D)))
         end
  end.
Definition MTH (D : list bytes) : bytes := mth_fuel (length D) D.

(** PATH(m, D[n]) *)
Fixpoint path_fuel (fuel : nat) (m : nat) (D : list bytes) : list bytes :=
  match D with
  | nil => nil
  | _ :: nil => nil
  | _ => match fuel with
         | O => nil
         | S f => let k := split_point (length D) in
                  if m <? k then path_fuel f m (firstn k D) ++ [MTH (skipn k D)]
                  else path_fuel f (m - k) (skipn k D) ++ [MTH (firstn k D)]
         end
  end.
Definition PATH (m : nat) (D : list bytes) : list bytes := path_fuel (length D) m D.

(** All strings hashed when computing MTH(D). *)
Fixpoint tree_strings_fuel (fuel : nat) (D : list bytes) : list bytes :=
  match D with
  | nil => [nil]
  | d :: nil => [leaf_string d]
  | _ => match fuel with
         | O => nil
         | S f => let k := split_point (length D) in
                  node_string (MTH (firstn k D)) (MTH (skipn k D))
                  :: tree_strings_fuel f (firstn k D) ++ tree_strings_fuel f (skipn k D)
         end
  end.
Definition tree_strings (D : list bytes) : list bytes := tree_strings_fuel (length D) D.

(** Climbing from a leaf to a root with sibling hashes, each on the left
    ([true]) or on the right ([false]) of the running hash. *)
Fixpoint climb (v : bytes) (path : list (bool * bytes)) : bytes :=
  match path with
  | nil => v
  | (true, h) :: p => climb (H (node_string h v)) p
  | (false, h) :: p => climb (H (node_string v h)) p
  end.

(** The strings hashed by such a climb that starts from entry [body]. *)
Fixpoint climb_strings (v : bytes) (path : list (bool * bytes)) : list bytes :=
  match path with
  | nil => nil
  | (true, h) :: p => node_string h v :: climb_strings (H (node_string h v)) p
  | (false, h) :: p => node_string v h :: climb_strings (H (node_string v h)) p
  end.
Definition proof_strings (body : bytes) (path : list (bool * bytes)) : list bytes :=
  leaf_string body :: climb_strings (H (leaf_string body)) path.

(** A hash collision between a string hashed by the log and a string hashed by
    the verifier. Both lists are finite, so this is a concrete collision. *)
Definition collision_between (A B : list bytes) : Prop :=
  exists x y, In x A /\ In y B /\ x <> y /\ H x = H y.

End Spec.
