(** sigstore/dsse/__init__.py and sigstore/hashes.py *)
From Verif Require Import Base Codec Messages Env.

(** ** hashes.py *)

(** [common_v1.HashAlgorithm] *)
Inductive hash_algorithm : Set := HA_SHA2_256 | HA_SHA2_384 | HA_SHA2_512 | HA_other (n : nat).

(** hashes.py:28-41 [Hashed] *)
Record Hashed := mkHashed { h_alg : hash_algorithm; h_digest : bytes }.

(** hashes.py:43-57: both conversions fail in the same way for other algorithms. *)
Definition as_prehashed (h : Hashed) : res hash_alg :=
  match h_alg h with HA_SHA2_256 => Ok SHA256 | _ => Raise EError end.
Definition as_hashedrekord_algorithm := as_prehashed.

(** ** Statements *)

(** dsse/__init__.py:38 [Digest] *)
Inductive digest_name : Set := D_sha256 | D_sha384 | D_sha512 | D_sha3_256 | D_sha3_384 | D_sha3_512.
Definition digest_name_eqb (a b : digest_name) : bool :=
  match a, b with
  | D_sha256, D_sha256 | D_sha384, D_sha384 | D_sha512, D_sha512
  | D_sha3_256, D_sha3_256 | D_sha3_384, D_sha3_384 | D_sha3_512, D_sha3_512 => true
  | _, _ => false
  end.

(** dsse/__init__.py:47-59 [DigestSet] (a dict) and [Subject] *)
Record Subject := mkSubject { sub_name : option str; sub_digest : list (digest_name * str) }.

(** dsse/__init__.py:62-72 [_Statement]; the predicate is opaque here. *)
Record StatementInner := mkStatementInner {
  st_subjects : list Subject; st_predicate_type : str; st_predicate : option str }.

(** dsse/__init__.py:75-102 [Statement] *)
Record Statement := mkStatement { st_contents : bytes; st_inner : StatementInner }.

(** dsse/__init__.py:93-98 [Statement.__init__] on bytes.  [validate] is pydantic's
    [_Statement.model_validate_json]; [None] is a ValidationError. *)
Definition statement_of_bytes (validate : bytes -> option StatementInner) (contents : bytes) : res Statement :=
  match validate contents with
  | None => Raise EError
  | Some inner => Ok (mkStatement contents inner)
  end.

(** dsse/__init__.py:104-121 [Statement._matches_digest], the loop *)
Fixpoint match_subjects (subs : list Subject) (hexdigest : str) : bool :=
  match subs with
  | nil => false
  | s :: subs' =>
    match assoc digest_name_eqb D_sha256 (sub_digest s) with
    | None => match_subjects subs' hexdigest
    | Some d => if str_eqb d hexdigest then true else match_subjects subs' hexdigest
    end
  end.

Definition matches_digest (st : Statement) (d : Hashed) : res bool :=
  match h_alg d with
  | HA_SHA2_256 => Ok (match_subjects (st_subjects (st_inner st)) (hex (h_digest d)))
  | _ => Raise EVerification
  end.

(** dsse/__init__.py:131-184 [StatementBuilder] *)
Record StatementBuilder := mkBuilder {
  sb_subjects : list Subject; sb_predicate_type : option str; sb_predicate : option str }.
Definition builder_new (subs : option (list Subject)) (pt : option str) (p : option str) : StatementBuilder :=
  mkBuilder (match subs with Some l => l | None => nil end) pt p.
Definition builder_subjects (b : StatementBuilder) (s : list Subject) : StatementBuilder :=
  mkBuilder s (sb_predicate_type b) (sb_predicate b).
Definition builder_predicate_type (b : StatementBuilder) (t : str) : StatementBuilder :=
  mkBuilder (sb_subjects b) (Some t) (sb_predicate b).
Definition builder_predicate (b : StatementBuilder) (p : str) : StatementBuilder :=
  mkBuilder (sb_subjects b) (sb_predicate_type b) (Some p).
(** dsse/__init__.py:169-184 [build] and 99-102: [dump] is [model_dump_json]; [None] is a
    PydanticSerializationError (a ValueError, for text with a lone surrogate) *)
Definition builder_build (dump : StatementInner -> option bytes) (b : StatementBuilder) : res Statement :=
  match sb_subjects b, sb_predicate_type b with
  | _ :: _, Some t =>
    let inner := mkStatementInner (sb_subjects b) t (sb_predicate b) in
    match dump inner with Some contents => Ok (mkStatement contents inner) | None => Raise EValue end
  | _, _ => Raise EError
  end.

(** ** Envelopes *)

(** [sigstore_models.intoto.Envelope], base64 fields already decoded by pydantic *)
Record EnvelopeMsg := mkEnvMsg { em_payload : bytes; em_type : str; em_sigs : list bytes }.

(** dsse/__init__.py:193-224 [Envelope]; [env_signature] is [_signature_bytes] *)
Record Envelope := mkEnvelope { env_inner : EnvelopeMsg; env_signature : bytes }.

(** dsse/__init__.py:204-223 [Envelope.__init__] and [Envelope._verify] *)
Definition make_envelope (m : EnvelopeMsg) : res Envelope :=
  do* raise_if (negb (Nat.eqb (length (em_sigs m)) 1)) EInvalidEnvelope in
  let* s := index_list (em_sigs m) 0 in
  do* raise_if (match s with nil => true | _ => false end) EInvalidEnvelope in
  Ok (mkEnvelope m s).

(** [str.encode()] *)
Definition py_encode (s : str) : res bytes :=
  match utf8_encode s with Some b => Ok b | None => Raise EUnicodeEncode end.

Definition sp : N := 32%N.

(** dsse/__init__.py:256-266 [_pae]: [len(type_)] counts code points *)
Definition pae (type_ : str) (body : bytes) : res bytes :=
  let* head := py_encode (s2l "DSSEv1 " ++ dec (N.of_nat (length type_)) ++ [sp] ++ type_ ++ [sp]) in
  Ok (head ++ ascii_bytes (dec (N.of_nat (length body))) ++ [n2b sp] ++ body).

(** dsse/__init__.py:249-253 [Envelope.pae] *)
Definition envelope_pae (e : Envelope) : res bytes := pae (em_type (env_inner e)) (em_payload (env_inner e)).

(** dsse/__init__.py:202 [Envelope._TYPE] *)
Definition ENVELOPE_TYPE : str := s2l "application/vnd.in-toto+json".

(** dsse/__init__.py:123-128 [Statement._pae] *)
Definition statement_pae (st : Statement) : res bytes := pae ENVELOPE_TYPE (st_contents st).

(** dsse/__init__.py:269-284 [_sign]; [sign] is the private key's ECDSA/SHA-256
    operation; pydantic decodes the base64 fields again. *)
Definition dsse_sign (sign : bytes -> bytes) (st : Statement) : res Envelope :=
  let* p := statement_pae st in
  let signature := sign p in
  let* payload := b64decode (b64encode (st_contents st)) in
  let* sg := b64decode (b64encode signature) in
  make_envelope (mkEnvMsg payload ENVELOPE_TYPE [sg]).

Section Verify.
Variable env : Env.

Definition is_invalid_signature (e : exn) : bool := exn_eqb e EInvalidSignature.

(** dsse/__init__.py:287-308 [_verify] *)
Definition dsse_verify (key : pubkey) (evp : Envelope) : res bytes :=
  let* p := pae (em_type (env_inner evp)) (em_payload (env_inner evp)) in
  do* raise_if (negb (Nat.eqb (length (em_sigs (env_inner evp))) 1)) EVerification in
  let* signature := index_list (em_sigs (env_inner evp)) 0 in
  do* try_except (e_sig_verify env (ECDSA SHA256) key signature p)
        is_invalid_signature (fun _ => Raise EVerification) in
  Ok (em_payload (env_inner evp)).
End Verify.
