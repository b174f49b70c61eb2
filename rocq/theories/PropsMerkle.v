(** Properties C01-C04: Merkle inclusion.  The specification is [MerkleSpec.v]
    (RFC 6962 section 2.1: [MTH] the tree hash, [PATH] the audit path). *)
From Verif Require Import Base Messages ToyHash MerkleSpec Merkle MerkleProofs.

(** C01: an accepted proof for position [i] of an [n]-entry log with the log's root
    shows the [i]-th entry, and its hashes are exactly the RFC's audit path; or it
    exhibits a hash collision between a string hashed while building the log's root
    and one hashed on the way from the entry to that root. *)
Theorem C01_inclusion_binds_position :
  forall (H : bytes -> bytes), (forall x, length (H x) = 32) ->
  forall (log : list bytes) (i : nat) (e : LogEntry) (ip : InclusionProof),
  le_proof e = Some ip ->
  ip_root_hash ip = MTH H log ->
  ip_tree_size ip = Z.of_nat (length log) ->
  ip_log_index ip = Z.of_nat i ->
  i < length log ->
  verify_merkle_inclusion H e = Ok tt ->
  (nth_error log i = Some (le_body e) /\ ip_hashes ip = PATH H i log)
  \/ exists path : list (bool * bytes),
       map snd path = ip_hashes ip /\
       climb H (H (leaf_string (le_body e))) path = ip_root_hash ip /\
       collision_between H (tree_strings H log) (proof_strings H (le_body e) path).
Proof. intros H HL log i e ip. exact (inclusion_position H HL e ip log i). Qed.

(** C02: whatever index and size the proof claims. *)
Theorem C02_inclusion_implies_membership :
  forall (H : bytes -> bytes), (forall x, length (H x) = 32) ->
  forall (log : list bytes) (e : LogEntry) (ip : InclusionProof),
  le_proof e = Some ip ->
  ip_root_hash ip = MTH H log ->
  verify_merkle_inclusion H e = Ok tt ->
  In (le_body e) log
  \/ exists path : list (bool * bytes),
       map snd path = ip_hashes ip /\
       climb H (H (leaf_string (le_body e))) path = ip_root_hash ip /\
       collision_between H (tree_strings H log) (proof_strings H (le_body e) path).
Proof. intros H HL log e ip. exact (inclusion_member H HL e ip log). Qed.

(** C03 *)
Theorem C03_honest_inclusion_proof_accepted :
  forall (H : bytes -> bytes) (log : list bytes) (i : nat) (e : LogEntry) (ip : InclusionProof),
  nth_error log i = Some (le_body e) ->
  le_proof e = Some ip ->
  ip_log_index ip = Z.of_nat i ->
  ip_tree_size ip = Z.of_nat (length log) ->
  ip_root_hash ip = MTH H log ->
  ip_hashes ip = PATH H i log ->
  verify_merkle_inclusion H e = Ok tt.
Proof.
  intros H log i e ip A B C D E F. exact (inclusion_complete H e ip log i B A E D C F).
Qed.

(** C04: exact number of hashes. *)
Theorem C04_inclusion_proof_length :
  forall (H : bytes -> bytes) (log : list bytes) (i : nat) (e : LogEntry) (ip : InclusionProof),
  le_proof e = Some ip ->
  ip_tree_size ip = Z.of_nat (length log) ->
  ip_log_index ip = Z.of_nat i ->
  i < length log ->
  verify_merkle_inclusion H e = Ok tt ->
  length (ip_hashes ip) = length (PATH H i log).
Proof. intros H log i e ip. exact (inclusion_length H e ip log i). Qed.

(** C04: rejections are VerificationError and nothing else. *)
Theorem C04_inclusion_rejection_is_verification_error :
  forall (H : bytes -> bytes) (e : LogEntry) (ip : InclusionProof) (x : exn),
  le_proof e = Some ip ->
  verify_merkle_inclusion H e = Raise x -> x = EVerification.
Proof. exact inclusion_exceptions. Qed.

(** ** Concrete logs *)

Definition ex_log : list bytes := [[x61]; [x62]; [x63; x63]; []; [x65]].
Definition ex_entry (idx size : Z) (body : bytes) (hs : list bytes) (root : bytes) : LogEntry :=
  mkEntry 7 (repeat x00 32) (s2l "hashedrekord"%string) (s2l "0.0.1"%string) None None
    (Some (mkIP idx root size hs None)) body.

Definition all_positions_accepted : bool :=
  forallb (fun i =>
    match verify_merkle_inclusion toy_hash
            (ex_entry (Z.of_nat i) 5 (nth i ex_log []) (PATH toy_hash i ex_log) (MTH toy_hash ex_log)) with
    | Ok _ => true | Raise _ => false end) (seq 0 5).

(** The hypotheses of C01-C04 are met by all five positions of a five-entry log. *)
Example ex_log_accepted : all_positions_accepted = true.
Proof. vm_compute. reflexivity. Qed.

(** C04, refuted expectation: acceptance does not imply index < size.  Here a
    two-entry log and the claim "index 1 of size 1" ... *)
Theorem C04_index_below_size_refuted :
  forall H : bytes -> bytes, exists (log : list bytes) (e : LogEntry) (ip : InclusionProof),
    le_proof e = Some ip /\ ip_root_hash ip = MTH H log /\
    (ip_log_index ip >= ip_tree_size ip)%Z /\ (0 <= ip_log_index ip)%Z /\ (0 < ip_tree_size ip)%Z /\
    verify_merkle_inclusion H e = Ok tt.
Proof.
  intros H. exists [[x61]; [x62]].
  exists (ex_entry 1 1 [x62] (PATH H 1 [[x61]; [x62]]) (MTH H [[x61]; [x62]])).
  eexists. split; [reflexivity|]. split; [reflexivity|]. do 3 (split; [vm_compute; congruence|]).
  cbn. rewrite bytes_eqb_refl. reflexivity.
Qed.

(** ... and with a wrong claimed size the claimed index need not be the entry's:
    the entry at position 2 of a 3-entry log is accepted as "index 1 of size 2". *)
Theorem C04_wrong_size_wrong_index_refuted :
  forall H : bytes -> bytes, exists (log : list bytes) (e : LogEntry) (ip : InclusionProof),
    le_proof e = Some ip /\ ip_root_hash ip = MTH H log /\
    (0 <= ip_log_index ip < ip_tree_size ip)%Z /\
    (ip_tree_size ip < Z.of_nat (length log))%Z /\
    verify_merkle_inclusion H e = Ok tt /\
    nth_error log (Z.to_nat (ip_log_index ip)) <> Some (le_body e) /\
    nth_error log 2 = Some (le_body e).
Proof.
  intros H. exists [[x61]; [x62]; [x63]].
  exists (ex_entry 1 2 [x63] (PATH H 2 [[x61]; [x62]; [x63]]) (MTH H [[x61]; [x62]; [x63]])).
  eexists. split; [reflexivity|]. split; [reflexivity|]. do 2 (split; [vm_compute; try split; congruence|]).
  split; [cbn; rewrite bytes_eqb_refl; reflexivity|]. split; [vm_compute; congruence|reflexivity].
Qed.

Print Assumptions C01_inclusion_binds_position.
Print Assumptions C02_inclusion_implies_membership.
Print Assumptions C03_honest_inclusion_proof_accepted.
Print Assumptions C04_inclusion_proof_length.
Print Assumptions C04_inclusion_rejection_is_verification_error.
Print Assumptions C04_index_below_size_refuted.
Print Assumptions C04_wrong_size_wrong_index_refuted.
