(** Third-party functionality used by sigstore-python, as explicit parameters
    ("oracles").  Every theorem quantifies over all environments, so nothing is
    assumed about them beyond what a theorem's hypotheses say. *)
From Verif Require Import Base Messages.

(** ** X.509 objects ([cryptography.x509]) *)

Definition oid := list N.

Inductive general_name : Set :=
| GN_email (s : str)                   (* RFC822Name *)
| GN_uri (s : str)                     (* UniformResourceIdentifier *)
| GN_other (o : oid) (v : bytes)       (* OtherName: type id and DER value *)
| GN_dns (s : str)                     (* DNSName *)
| GN_unknown (n : nat).                (* every other kind *)

Inductive entry_type : Set := X509_CERTIFICATE | PRE_CERTIFICATE | OTHER_ENTRY (n : N).

(** [SignedCertificateTimestamp]; [sct_timestamp] is the (naive UTC) datetime. *)
Record SCT := mkSCT {
  sct_version : N;
  sct_log_id : bytes;
  sct_timestamp : time;
  sct_entry_type : entry_type;
  sct_hash : option hash_alg;          (* None: any other hash algorithm *)
  sct_signature : bytes;
  sct_extensions : bytes
}.

(** The extensions sigstore-python looks at.  [x_raw] lists the extensions that
    [cryptography] leaves unparsed ([UnrecognizedExtension]) with their raw value. *)
Record Extensions := mkExt {
  x_bc : option (bool * bool);         (* BasicConstraints: (critical, ca) *)
  x_ku : option (bool * bool);         (* KeyUsage: (digital_signature, key_cert_sign) *)
  x_eku : option (list oid);           (* ExtendedKeyUsage *)
  x_san : option (list general_name);  (* SubjectAlternativeName *)
  x_scts : option (list SCT);          (* PrecertificateSignedCertificateTimestamps *)
  x_raw : list (oid * bytes)
}.

(** A parsed certificate.  [c_der] is the DER it was parsed from (what
    [public_bytes(DER)] returns); [c_exts], [c_pubkey] and [c_tbs_precert] are the
    attributes/methods that may raise when used. *)
Record Cert := mkCert {
  c_der : bytes;
  c_is_v3 : bool;
  c_exts : res Extensions;
  c_pubkey : res pubkey;
  c_tbs_precert : res bytes;
  c_not_before : time;
  c_not_after : time;
  c_sig_pkcs1 : res bool   (* signature_algorithm_parameters is PKCS1v15: how the CA signed *)
}.

(** A decoded RFC 3161 response: its encoding and its [tst_info.gen_time]. *)
Record TSR := mkTSR { tsr_raw : bytes; tsr_time : time }.

(** Exceptions of third-party verifiers that the code catches. *)
Definition EX509Verification : exn := EBackend 1.         (* x509.verification.VerificationError *)
Definition EUnsupportedGeneralName : exn := EBackend 2.   (* UnsupportedGeneralNameType *)
Definition ERfc3161 : exn := EBackend 3.                  (* rfc3161_client.VerificationError *)

Record Env := mkEnv {
  (** hashlib *)
  e_hash : hash_alg -> bytes -> bytes;
  (** decimal digit value of a non-ASCII character in Python's Unicode database *)
  e_udecimal : N -> option N;
  (** [serialization.load_der_public_key] *)
  e_load_key : bytes -> res pubkey;
  (** [key.verify(signature, data, ...)] *)
  e_sig_verify : sig_scheme -> pubkey -> bytes -> bytes -> res unit;
  (** [load_der_x509_certificate] *)
  e_parse_cert : bytes -> res Cert;
  (** [cert.verify_directly_issued_by(cert)] *)
  e_self_issued : Cert -> res unit;
  (** [PolicyBuilder().store(roots).time(t)...build_client_verifier().verify(cert, []).chain]:
      the chain starts with [cert] *)
  e_chain : list Cert -> time -> Cert -> res (list Cert);
  (** [rfc3161_client.decode_timestamp_response] *)
  e_decode_tsr : bytes -> res TSR;
  (** [VerifierBuilder(tsa cert, intermediates, root).verify_message(tsr, message)] *)
  e_tsa_verify : list Cert -> TSR -> bytes -> res unit
}.
