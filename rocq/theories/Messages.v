(** Message and object types shared by the model.  They stand for the pydantic
    classes of [sigstore_models] / [rekor_types] (third party) and for the
    objects of [cryptography], reduced to the fields sigstore-python reads. *)
From Verif Require Import Base.

(** ** Times

    A [datetime] is modelled by an integer number of microseconds since the
    Unix epoch, UTC (the resolution of Python's [datetime]). *)
Definition time := Z.

(** Inclusive/exclusive windows: [sigstore_models.common.v1.TimeRange]. *)
Record TimeRange := mkTimeRange { tr_start : time; tr_end : option time }.

(** ** Transparency log ([sigstore_models.rekor.v1]) *)

(** [InclusionProof]; [ip_checkpoint] is [checkpoint.envelope]. Index and size
    are unbounded integers: no range is assumed. *)
Record InclusionProof := mkIP {
  ip_log_index : Z;
  ip_root_hash : bytes;
  ip_tree_size : Z;
  ip_hashes : list bytes;
  ip_checkpoint : option str
}.

(** [TransparencyLogEntry]; [le_promise] is
    [inclusion_promise.signed_entry_timestamp]. *)
Record LogEntry := mkEntry {
  le_log_index : Z;
  le_log_id : bytes;
  le_kind : str;
  le_version : str;
  le_integrated_time : option Z;
  le_promise : option bytes;
  le_proof : option InclusionProof;
  le_body : bytes
}.

(** ** Keys *)

Inductive curve : Set := P256 | P384 | P521 | OtherCurve (n : nat).

(** Result of [isinstance] on a loaded key: RSA (with modulus size), EC (with
    curve), Ed25519, or any other key class. *)
Inductive key_kind : Set :=
| KRsa (bits : Z)
| KEc (c : curve)
| KEd25519
| KOther (n : nat).

(** A public key object: its class and its DER SubjectPublicKeyInfo. *)
Record pubkey := mkPub { pk_kind : key_kind; pk_spki : bytes }.

Inductive hash_alg : Set := SHA256 | SHA384 | SHA512.

(** The verification call made on a key object. *)
Inductive sig_scheme : Set :=
| RSA_PKCS1v15 (h : hash_alg)
| ECDSA (h : hash_alg)
| ECDSA_prehashed (h : hash_alg)
| ED25519.
