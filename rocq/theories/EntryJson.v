(** The texts of log entries: what verifier.py:518-520, 557-559, 610 and 644 and models.py:123-135 read from them with the
    pydantic classes [rekor_types.Hashedrekord], [rekor_types.Dsse], [rekor_types.ProposedEntry] and
    [sigstore_models.rekor.v2.entry.Entry], and the texts of the requests to logs.  These libraries are not part of the
    repository; the shape of the texts is that of the entries of Rekor, as in the bundles of /repo/test/assets
    (canonicalizedBody).

    Simplified: a public key without content is read like a missing one. *)
From Verif Require Import Base Codec Json PyText Messages Env Keyring Cert Dsse Bundle Verifier RekorClient TrustedRoot SigningConfig JsonText StatementJson BundleJson TrustJson.

(** what is assumed of the libraries *)
Record EntryLib := mkEL {
  el_bundle : BundleLib;
  (** what the members of an entry, given by its kind, that are not listed below amount to: [None] if they are refused,
      0 if they add nothing *)
  el_rest : String.string -> list (str * json) -> option nat;
  (** other hash functions that a dsse entry may name *)
  el_hashes : list str;
  (** whether a choice is accepted of which no alternative or several are given *)
  el_choice : bool
}.

(** a member that is not given has a default value *)
Definition defaulted {A} (d : json -> option A) (alias name : String.string) (x : A) (o : list (str * json)) : option A :=
  match by_alias_or_name (s2l alias) (s2l name) o with Some j => d j | None => Some x end.
(** [Literal[s]] *)
Definition exactly (s : String.string) (j : json) : option unit :=
  match j with JStr t => if str_eqb t (s2l s) then Some tt else None | _ => None end.
(** [rekor_types.hashedrekord.Algorithm] (hashes.py:43-48) *)
Definition REKORD_HASHES : list (str * hash_alg) := [(s2l "sha256", SHA256); (s2l "sha384", SHA384); (s2l "sha512", SHA512)].

(** of two alternatives *)
Inductive choice (A B : Type) := Left (a : A) | Right (b : B) | Neither_or_both.
Arguments Left {A B}. Arguments Right {A B}. Arguments Neither_or_both {A B}.

Section Read.
Variable lib : EntryLib.

(** the version of an entry of [rekor_types] (0.0.1 by default: rekor/__init__.py:105-121 does not give one) *)
Definition read_version : list (str * json) -> option str := defaulted text_value "apiVersion" "api_version" (s2l "0.0.1").

(** *** [rekor_types.Hashedrekord] *)

(** [Hash] *)
Definition read_rekord_hash : json -> option (hash_alg * str) := object_fields (fun o =>
  match required (named REKORD_HASHES) "algorithm" "algorithm" o, required text_value "value" "value" o with
  | Some a, Some v => Some (a, v)
  | _, _ => None
  end).
(** [Data] *)
Definition read_rekord_data : json -> option (option (hash_alg * str)) := object_fields (optional read_rekord_hash "hash" "hash").
(** [PublicKey] *)
Definition read_rekord_key : json -> option (option str) := object_fields (optional text_value "content" "content").
(** [Signature] *)
Definition read_rekord_signature : json -> option (option str * option str) := object_fields (fun o =>
  match optional text_value "content" "content" o, optional read_rekord_key "publicKey" "public_key" o with
  | Some s, Some k => Some (s, match k with Some k => k | None => None end)
  | _, _ => None
  end).
(** [HashedrekordV001Schema] *)
Definition read_rekord_spec : json -> option (option str * option str * option (hash_alg * str)) := object_fields (fun o =>
  match required read_rekord_signature "signature" "signature" o, required read_rekord_data "data" "data" o with
  | Some s, Some d => Some (s, d)
  | _, _ => None
  end).
Definition read_rekord : json -> option Hashedrekord1 := object_fields (fun o =>
  match defaulted (exactly "hashedrekord") "kind" "kind" tt o, read_version o, required read_rekord_spec "spec" "spec" o, el_rest lib "hashedrekord" o with
  | Some _, Some v, Some (s, k, h), Some n => Some (mkH1 v s k h n)
  | _, _, _, _ => None
  end).

(** *** [rekor_types.Dsse] *)

(** [PayloadHash] *)
Definition read_dsse_algorithm (j : json) : option bool :=
  match j with
  | JStr s => if str_eqb s (s2l "sha256") then Some true else if existsb (str_eqb s) (el_hashes lib) then Some false else None
  | _ => None
  end.
Definition read_dsse_hash : json -> option (bool * str) := object_fields (fun o =>
  match required read_dsse_algorithm "algorithm" "algorithm" o, required text_value "value" "value" o with
  | Some a, Some v => Some (a, v)
  | _, _ => None
  end).
(** [Signature] *)
Definition read_dsse_signature : json -> option (str * str) := object_fields (fun o =>
  match required text_value "signature" "signature" o, required text_value "verifier" "verifier" o with
  | Some s, Some v => Some (s, v)
  | _, _ => None
  end).
Definition list_value {A} (d : json -> option A) (j : json) : option (list A) := match j with JList l => all_of d l | _ => None end.
(** [DsseV001Schema] *)
Definition read_dsse_spec : json -> option Dsse1 := object_fields (fun o =>
  match optional read_dsse_hash "payloadHash" "payload_hash" o, optional (list_value read_dsse_signature) "signatures" "signatures" o with
  | Some h, Some s => Some (mkD1 h s)
  | _, _ => None
  end).
(** with the version *)
Definition read_dsse_entry : json -> option (str * Dsse1) := object_fields (fun o =>
  match defaulted (exactly "dsse") "kind" "kind" tt o, read_version o, required read_dsse_spec "spec" "spec" o, el_rest lib "dsse" o with
  | Some _, Some v, Some d, Some _ => Some (v, d)
  | _, _, _, _ => None
  end).

(** *** [v2.entry.Entry] *)

Definition choose {A B} (x : option A) (y : option B) : option (choice A B) :=
  match x, y with
  | Some a, None => Some (Left a)
  | None, Some b => Some (Right b)
  | _, _ => if el_choice lib then Some Neither_or_both else None
  end.
(** [v2.verifier.Verifier]; [None] if it is no alternative *)
Definition read_verifier : json -> option (option V2Verifier) := object_fields (fun o =>
  match optional read_certificate "x509Certificate" "x509_certificate" o, optional (one_bytes "rawBytes" "raw_bytes") "publicKey" "public_key" o,
        required (named DETAILS) "keyDetails" "key_details" o with
  | Some c, Some k, Some d =>
    match choose c k with
    | Some (Left der) => Some (Some (V2_x509 der d))
    | Some (Right raw) => Some (Some (V2_public_key raw d))
    | Some Neither_or_both => Some None
    | None => None
    end
  | _, _, _ => None
  end).
(** [v2.verifier.Signature] *)
Definition read_v2_signature : json -> option (bytes * option V2Verifier) := object_fields (fun o =>
  match required bytes_value "content" "content" o, required read_verifier "verifier" "verifier" o with
  | Some s, Some v => Some (s, v)
  | _, _ => None
  end).
(** [v2.hashedrekord.HashedRekordLogEntryV002] *)
Definition read_v2_rekord : json -> option (hash_algorithm * bytes * (bytes * option V2Verifier)) := object_fields (fun o =>
  match required read_digest "data" "data" o, required read_v2_signature "signature" "signature" o with
  | Some d, Some s => Some (d, s)
  | _, _ => None
  end).
(** [v2.entry.Spec].  The numbers of [V2_other] are ours. *)
Definition read_v2_spec : json -> option V2Spec := object_fields (fun o =>
  match optional read_v2_rekord "hashedRekordV002" "hashed_rekord_v002" o, optional (@Some json) "dsseV002" "dsse_v002" o with
  | Some r, Some d =>
    match choose r d with
    | Some (Left (a, digest, (s, Some v))) => Some (V2_hashedrekord a digest s v)
    | Some (Left (_, _, (_, None))) => Some (V2_other 0)
    | Some (Right _) => Some (V2_other 1)
    | Some Neither_or_both => Some (V2_other 2)
    | None => None
    end
  | _, _ => None
  end).
Definition read_v2_entry : json -> option V2Entry := object_fields (fun o =>
  match required text_value "kind" "kind" o, required text_value "apiVersion" "api_version" o, required read_v2_spec "spec" "spec" o, el_rest lib "v2" o with
  | Some k, Some v, Some s, Some _ => Some (mkV2 k v s)
  | _, _, _, _ => None
  end).

(** *** [rekor_types.ProposedEntry] (models.py:123-135): the class is chosen by the kind *)
Definition read_proposed : json -> option (option (str * str)) := object_fields (fun o =>
  match required text_value "kind" "kind" o with
  | Some k =>
    if str_eqb k (s2l "hashedrekord") then match read_rekord (JObj o) with Some h => Some (Some (k, h1_api_version h)) | None => None end
    else if str_eqb k (s2l "dsse") then match read_dsse_entry (JObj o) with Some (v, _) => Some (Some (k, v)) | None => None end
    else match el_rest lib "other" o with Some _ => Some None | None => None end
  | None => None
  end).

Let json_lib := bl_json (el_bundle lib).
(** the parsers of Verifier.v and RekorClient.v *)
Definition entry_parsers : Parsers :=
  mkParsers (fun b => validated (and_then (read_bytes json_lib b) read_rekord))
    (fun b => match validated (and_then (read_bytes json_lib b) read_dsse_entry) with Ok (_, d) => Ok d | Raise e => Raise e end)
    (fun b => validated (and_then (read_bytes json_lib b) read_v2_entry)).
Definition answer_parsers (repr : json -> str) : RekorParsers :=
  mkRP (fun s => bl_number (el_bundle lib) (JStr s)) (fun b => validated (and_then (read_bytes json_lib b) read_proposed))
    (fun j => validated (read_entry (el_bundle lib) j)) repr.
End Read.

(** ** Requests: client.py:276-328 and client_v2.py:106-168, [model_dump] and [to_dict] *)

Definition rekord_hash_text (a : hash_alg) : str := match a with SHA256 => s2l "sha256" | SHA384 => s2l "sha384" | SHA512 => s2l "sha512" end.
Definition or_null {A} (w : A -> json) (x : option A) : json := match x with Some a => w a | None => JNull end.
Definition rekord_json (h : Hashedrekord1) : json := JObj
  (field "apiVersion" (JStr (h1_api_version h)) ++ field "kind" (JStr (s2l "hashedrekord")) ++ field "spec" (JObj (
    field "signature" (JObj (field "content" (or_null JStr (h1_sig h)) ++ field "publicKey" (JObj (field "content" (or_null JStr (h1_pk h)))))) ++
    field "data" (JObj (field "hash" (or_null (fun av => JObj (field "algorithm" (JStr (rekord_hash_text (fst av))) ++ field "value" (JStr (snd av)))) (h1_hash h))))))).
(** the envelope is given as a text: dsse/__init__.py:230-234 [Envelope.to_json] *)
Definition dsse_json (jl : JsonLib) (m : EnvelopeMsg) (verifiers : list str) : json := JObj
  (field "apiVersion" (JStr (s2l "0.0.1")) ++ field "kind" (JStr (s2l "dsse")) ++ field "spec" (JObj (
    field "proposedContent" (JObj (field "envelope" (JStr (write jl (envelope_json m))) ++ field "verifiers" (JList (map JStr verifiers)))) ++
    field "signatures" JNull ++ field "envelopeHash" JNull ++ field "payloadHash" JNull))).
Definition details_text (d : key_details) : str :=
  match find (fun x => KeyDetails.key_details_eqb (snd x) d) DETAILS with Some (s, _) => s | None => nil end.
Definition verifier_json (v : V2Verifier) : json :=
  match v with
  | V2_x509 der d => JObj (field "x509Certificate" (one_bytes_json "rawBytes" der) ++ field "keyDetails" (JStr (details_text d)))
  | V2_public_key raw d => JObj (field "publicKey" (one_bytes_json "rawBytes" raw) ++ field "keyDetails" (JStr (details_text d)))
  end.
Definition v2_request_json (digest sg : bytes) (v : V2Verifier) : json := JObj (field "hashedRekordRequestV002" (JObj (
  field "digest" (bytes_json digest) ++ field "signature" (JObj (field "content" (bytes_json sg) ++ field "verifier" (verifier_json v)))))).
Definition request_json (jl : JsonLib) (req : EntryRequest) : json :=
  match req with
  | Req_h1 h => rekord_json h
  | Req_d1 m vs => dsse_json jl m vs
  | Req_v2 digest sg v => v2_request_json digest sg v
  end.
