(** Model of [sigstore/_internal/merkle.py]. *)
From Verif Require Import Base Messages.
Local Open Scope Z_scope.

(** Python's [int.bit_length()] (of the absolute value for negative numbers). *)
Definition bit_length (z : Z) : Z := if z =? 0 then 0 else Z.log2 (Z.abs z) + 1.

Fixpoint pos_ones (p : positive) : Z :=
  match p with
  | xH => 1
  | xO p => pos_ones p
  | xI p => 1 + pos_ones p
  end.

(** [bin(z).count("1")] (again of the absolute value: the sign is a "-"). *)
Definition count_ones (z : Z) : Z :=
  match z with Z0 => 0 | Zpos p => pos_ones p | Zneg p => pos_ones p end.

Section Merkle.
(** [hashlib.sha256(..).digest()] *)
Variable H : bytes -> bytes.

(** merkle.py:36-37 *)
Definition LEAF_HASH_PREFIX : byte := x00.
Definition NODE_HASH_PREFIX : byte := x01.

(** merkle.py:40-52 [_decomp_inclusion_proof] *)
Definition decomp_inclusion_proof (index size : Z) : Z * Z :=
  let inner := bit_length (Z.lxor index (size - 1)) in
  let border := count_ones (Z.shiftr index inner) in
  (inner, border).

(** merkle.py:82-85 [_hash_children] *)
Definition hash_children (lhs rhs : bytes) : bytes :=
  H (NODE_HASH_PREFIX :: lhs ++ rhs).

(** merkle.py:88-91 [_hash_leaf] *)
Definition hash_leaf (leaf : bytes) : bytes :=
  H (LEAF_HASH_PREFIX :: leaf).

(** merkle.py:55-68 [_chain_inner]; [i] is the loop counter. *)
Fixpoint chain_inner_from (i : Z) (seed : bytes) (hashes : list bytes) (log_index : Z) : bytes :=
  match hashes with
  | nil => seed
  | h :: rest =>
      let seed' := if Z.land (Z.shiftr log_index i) 1 =? 0
                   then hash_children seed h
                   else hash_children h seed in
      chain_inner_from (i + 1) seed' rest log_index
  end.
Definition chain_inner (seed : bytes) (hashes : list bytes) (log_index : Z) : bytes :=
  chain_inner_from 0 seed hashes log_index.

(** merkle.py:71-79 [_chain_border_right] *)
Fixpoint chain_border_right (seed : bytes) (hashes : list bytes) : bytes :=
  match hashes with
  | nil => seed
  | h :: rest => chain_border_right (hash_children h seed) rest
  end.

(** merkle.py:94-126 [verify_merkle_inclusion]; an absent inclusion proof is an
    AttributeError (it is excluded by [TransparencyLogEntry._validate]). *)
Definition verify_merkle_inclusion (entry : LogEntry) : res unit :=
  match le_proof entry with
  | None => Raise EAttribute
  | Some ip =>
      let '(inner, border) := decomp_inclusion_proof (ip_log_index ip) (ip_tree_size ip) in
      do* raise_if (negb (Z.of_nat (length (ip_hashes ip)) =? inner + border)) EVerification in
      let leaf_hash := hash_leaf (le_body entry) in
      let intermediate :=
        chain_inner leaf_hash (firstn (Z.to_nat inner) (ip_hashes ip)) (ip_log_index ip) in
      let calc := chain_border_right intermediate (skipn (Z.to_nat inner) (ip_hashes ip)) in
      raise_if (negb (bytes_eqb calc (ip_root_hash ip))) EVerification
  end.
End Merkle.
