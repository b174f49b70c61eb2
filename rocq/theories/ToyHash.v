(** A cheap 32-byte hash for examples and witnesses only; it is not part of the model.  The kernel
    re-checker has no virtual machine, so real SHA-256 computations (Sha256.v) are kept to a few. *)
From Verif Require Import Base Codec.
Local Open Scope N_scope.

Definition toy_hash (b : bytes) : bytes :=
  be 32 (fold_left (fun a x => N.land (a * 33 + b2n x + 1) 18446744073709551615) b 5381).

Lemma toy_hash_length : forall b, length (toy_hash b) = 32%nat.
Proof. intros b. apply be_length. Qed.
