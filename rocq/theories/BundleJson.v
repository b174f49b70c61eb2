(** Bundles as JSON: sigstore/models.py:540-554 [Bundle.from_json] and [Bundle.to_json], which call [from_json]
    and [to_json] of the pydantic class [sigstore_models.bundle.v1.Bundle].  That library is not part of the
    repository; the shape of the text is the JSON mapping of the protobuf messages of sigstore, as in the bundles of
    /repo/test/assets: names in camel case (the names of the fields are accepted too, models.py constructs the
    messages with them), bytes in base64, 64-bit integers as text, enumerations by name, missing optional members
    left out.

    Simplified: members that sigstore-python does not read (the [hint] of a public key, the [keyid] of a signature)
    are ignored when reading and not written; missing timestamp data is written like an empty list (models.py
    treats both alike). *)
From Verif Require Import Base Codec Json PyText Messages Dsse Bundle JsonText StatementJson.

(** what is assumed of the library: how it reads JSON texts, and 64-bit integers *)
Record BundleLib := mkBL {
  bl_json : JsonLib;
  (** the JSON values accepted for an integer *)
  bl_number : json -> option Z;
  (** whether a list may be missing, which is then empty *)
  bl_lists : bool
}.

(** ** Fields of messages *)

Definition object_fields {A} (f : list (str * json) -> option A) (j : json) : option A :=
  match j with JObj o => f o | _ => None end.
Definition required {A} (d : json -> option A) (alias name : String.string) (o : list (str * json)) : option A :=
  match by_alias_or_name (s2l alias) (s2l name) o with Some j => d j | None => None end.
Definition optional {A} (d : json -> option A) (alias name : String.string) (o : list (str * json)) : option (option A) :=
  match by_alias_or_name (s2l alias) (s2l name) o with
  | None | Some JNull => Some None
  | Some j => match d j with Some x => Some (Some x) | None => None end
  end.
Fixpoint all_of {A} (d : json -> option A) (l : list json) : option (list A) :=
  match l with
  | nil => Some nil
  | j :: r => match d j, all_of d r with Some x, Some xs => Some (x :: xs) | _, _ => None end
  end.
Definition repeated {A} (lists : bool) (d : json -> option A) (alias name : String.string) (o : list (str * json)) : option (list A) :=
  match by_alias_or_name (s2l alias) (s2l name) o with
  | None => if lists then Some nil else None
  | Some (JList l) => all_of d l
  | Some _ => None
  end.

(** [Base64Bytes], [str] *)
Definition bytes_value (j : json) : option bytes :=
  match j with JStr s => match b64decode s with Ok b => Some b | Raise _ => None end | _ => None end.
Definition text_value (j : json) : option str := match j with JStr s => Some s | _ => None end.

(** [HashAlgorithm] of sigstore_models (used at hashes.py:43-57); the numbers of [HA_other] are ours *)
Definition ALGORITHMS : list (str * hash_algorithm) :=
  [(s2l "SHA2_256", HA_SHA2_256); (s2l "SHA2_384", HA_SHA2_384); (s2l "SHA2_512", HA_SHA2_512);
   (s2l "HASH_ALGORITHM_UNSPECIFIED", HA_other 0); (s2l "SHA3_256", HA_other 1); (s2l "SHA3_384", HA_other 2)].
Definition algorithm_value (j : json) : option hash_algorithm :=
  match j with JStr s => assoc str_eqb s ALGORITHMS | _ => None end.

Section Read.
Variable lib : BundleLib.

(** messages with one field: [X509Certificate], [LogId], [InclusionPromise], [RFC3161SignedTimestamp],
    [Signature] of an envelope, [Checkpoint] *)
Definition one_bytes (alias name : String.string) : json -> option bytes := object_fields (required bytes_value alias name).
Definition read_certificate : json -> option bytes := one_bytes "rawBytes" "raw_bytes".
Definition read_chain : json -> option (list bytes) := object_fields (repeated (bl_lists lib) read_certificate "certificates" "certificates").
Definition read_timestamps : json -> option (list bytes) :=
  object_fields (repeated (bl_lists lib) (one_bytes "signedTimestamp" "signed_timestamp") "rfc3161Timestamps" "rfc3161_timestamps").
Definition read_checkpoint : json -> option str := object_fields (required text_value "envelope" "envelope").

(** [InclusionProof] *)
Definition read_proof : json -> option InclusionProof := object_fields (fun o =>
  match required (bl_number lib) "logIndex" "log_index" o, required bytes_value "rootHash" "root_hash" o,
        required (bl_number lib) "treeSize" "tree_size" o, repeated (bl_lists lib) bytes_value "hashes" "hashes" o,
        optional read_checkpoint "checkpoint" "checkpoint" o with
  | Some i, Some r, Some n, Some hs, Some c => Some (mkIP i r n hs c)
  | _, _, _, _, _ => None
  end).

(** [KindVersion] *)
Definition read_kind : json -> option (str * str) := object_fields (fun o =>
  match required text_value "kind" "kind" o, required text_value "version" "version" o with
  | Some k, Some v => Some (k, v)
  | _, _ => None
  end).

(** [TransparencyLogEntry]; also what [from_dict] (client_v2.py:102) reads *)
Definition read_entry : json -> option LogEntry := object_fields (fun o =>
  match required (bl_number lib) "logIndex" "log_index" o, required (one_bytes "keyId" "key_id") "logId" "log_id" o,
        required read_kind "kindVersion" "kind_version" o, optional (bl_number lib) "integratedTime" "integrated_time" o,
        optional (one_bytes "signedEntryTimestamp" "signed_entry_timestamp") "inclusionPromise" "inclusion_promise" o,
        optional read_proof "inclusionProof" "inclusion_proof" o, required bytes_value "canonicalizedBody" "canonicalized_body" o with
  | Some i, Some k, Some kv, Some t, Some p, Some ip, Some b => Some (mkEntry i k (fst kv) (snd kv) t p ip b)
  | _, _, _, _, _, _, _ => None
  end).

(** [VerificationMaterial] *)
Definition read_material : json -> option VMaterial := object_fields (fun o =>
  match optional read_certificate "certificate" "certificate" o, optional read_chain "x509CertificateChain" "x509_certificate_chain" o,
        repeated (bl_lists lib) read_entry "tlogEntries" "tlog_entries" o,
        optional read_timestamps "timestampVerificationData" "timestamp_verification_data" o with
  | Some c, Some ch, Some es, Some ts => Some (mkVM c ch es match ts with Some l => l | None => nil end)
  | _, _, _, _ => None
  end).

(** [MessageSignature], with its [HashOutput] *)
Definition read_digest : json -> option (hash_algorithm * bytes) := object_fields (fun o =>
  match required algorithm_value "algorithm" "algorithm" o, required bytes_value "digest" "digest" o with
  | Some a, Some d => Some (a, d)
  | _, _ => None
  end).
Definition read_message : json -> option MessageSignature := object_fields (fun o =>
  match optional read_digest "messageDigest" "message_digest" o, required bytes_value "signature" "signature" o with
  | Some d, Some s => Some (mkMsgSig d s)
  | _, _ => None
  end).

(** dsse/__init__.py:224-228 [Envelope._from_json]: [sigstore_models.intoto.Envelope] *)
Definition read_envelope : json -> option EnvelopeMsg := object_fields (fun o =>
  match required bytes_value "payload" "payload" o, required text_value "payloadType" "payload_type" o,
        repeated (bl_lists lib) (one_bytes "sig" "sig") "signatures" "signatures" o with
  | Some p, Some t, Some ss => Some (mkEnvMsg p t ss)
  | _, _, _ => None
  end).

(** [bundle_v1.Bundle] *)
Definition read_bundle : json -> option BundleMsg := object_fields (fun o =>
  match required text_value "mediaType" "media_type" o, required read_material "verificationMaterial" "verification_material" o,
        optional read_message "messageSignature" "message_signature" o, optional read_envelope "dsseEnvelope" "dsse_envelope" o with
  | Some t, Some vm, Some ms, Some en => Some (mkBundleMsg t vm ms en)
  | _, _, _, _ => None
  end).

(** models.py:545 [_Bundle.from_json(raw)]; pydantic's [ValidationError] is a [ValueError] *)
Definition parse_bundle (raw : bytes) : res BundleMsg :=
  match read_bytes (bl_json lib) raw with
  | Some j => match read_bundle j with Some m => Ok m | None => Raise EPydantic end
  | None => Raise EPydantic
  end.
End Read.

(** ** Writing *)

Definition field (k : String.string) (j : json) : list (str * json) := [(s2l k, j)].
Definition field_opt {A} (k : String.string) (w : A -> json) (x : option A) : list (str * json) :=
  match x with Some a => [(s2l k, w a)] | None => nil end.
Definition bytes_json (b : bytes) : json := JStr (b64encode b).
Definition number_json (z : Z) : json := JStr (dec_Z z).
Definition one_bytes_json (k : String.string) (b : bytes) : json := JObj (field k (bytes_json b)).
Definition algorithm_text (a : hash_algorithm) : str :=
  match a with
  | HA_SHA2_256 => s2l "SHA2_256"
  | HA_SHA2_384 => s2l "SHA2_384"
  | HA_SHA2_512 => s2l "SHA2_512"
  | HA_other 0 => s2l "HASH_ALGORITHM_UNSPECIFIED"
  | HA_other 1 => s2l "SHA3_256"
  | HA_other _ => s2l "SHA3_384"
  end.

Definition chain_json (l : list bytes) : json := JObj (field "certificates" (JList (map (one_bytes_json "rawBytes") l))).
Definition timestamps_json (l : list bytes) : json :=
  JObj (field "rfc3161Timestamps" (JList (map (one_bytes_json "signedTimestamp") l))).
Definition proof_json (p : InclusionProof) : json := JObj (
  field "logIndex" (number_json (ip_log_index p)) ++ field "rootHash" (bytes_json (ip_root_hash p)) ++
  field "treeSize" (number_json (ip_tree_size p)) ++ field "hashes" (JList (map bytes_json (ip_hashes p))) ++
  field_opt "checkpoint" (fun c => JObj (field "envelope" (JStr c))) (ip_checkpoint p)).
Definition entry_json (e : LogEntry) : json := JObj (
  field "logIndex" (number_json (le_log_index e)) ++ field "logId" (one_bytes_json "keyId" (le_log_id e)) ++
  field "kindVersion" (JObj (field "kind" (JStr (le_kind e)) ++ field "version" (JStr (le_version e)))) ++
  field_opt "integratedTime" number_json (le_integrated_time e) ++
  field_opt "inclusionPromise" (one_bytes_json "signedEntryTimestamp") (le_promise e) ++
  field_opt "inclusionProof" proof_json (le_proof e) ++ field "canonicalizedBody" (bytes_json (le_body e))).
Definition material_json (vm : VMaterial) : json := JObj (
  field_opt "certificate" (one_bytes_json "rawBytes") (vm_cert vm) ++ field_opt "x509CertificateChain" chain_json (vm_chain vm) ++
  field "tlogEntries" (JList (map entry_json (vm_entries vm))) ++
  field "timestampVerificationData" (timestamps_json (vm_timestamps vm))).
Definition message_json (s : MessageSignature) : json := JObj (
  field_opt "messageDigest" (fun ad => JObj (field "algorithm" (JStr (algorithm_text (fst ad))) ++ field "digest" (bytes_json (snd ad)))) (ms_digest s) ++
  field "signature" (bytes_json (ms_signature s))).
(** dsse/__init__.py:230-234 [Envelope.to_json] *)
Definition envelope_json (m : EnvelopeMsg) : json := JObj (
  field "payload" (bytes_json (em_payload m)) ++ field "payloadType" (JStr (em_type m)) ++
  field "signatures" (JList (map (one_bytes_json "sig") (em_sigs m)))).
Definition bundle_json (m : BundleMsg) : json := JObj (
  field "mediaType" (JStr (bm_media m)) ++ field "verificationMaterial" (material_json (bm_vm m)) ++
  field_opt "messageSignature" message_json (bm_msig m) ++ field_opt "dsseEnvelope" envelope_json (bm_env m)).

(** models.py:550-554 [to_json], then encoded in UTF-8 where it is written (_cli.py:745, 1341).  pydantic accepts no
    surrogates in the strings of a message: for those (which do not occur) this is an empty object. *)
Definition bundle_text (lib : BundleLib) (m : BundleMsg) : bytes :=
  match utf8_encode (write (bl_json lib) (bundle_json m)) with Some b => b | None => s2b "{}" end.
