(** sigstore/_internal/rekor/client.py and client_v2.py; sigstore/models.py: [_from_v1_response] *)
From Verif Require Import Base Codec Messages Env Keyring Json Oidc Http LogEntry Dsse KeyDetails Bundle Verifier.

(** ** What is submitted *)

(** [EntryRequestBody] (rekor/__init__.py:40), before serialisation: a hashedrekord 0.0.1, a
    dsse 0.0.1 with the proposed envelope and one verifier, or a hashedrekord 0.0.2 request.
    Simplified: the JSON text of the envelope is represented by the envelope message. *)
Inductive EntryRequest : Type :=
| Req_h1 (h : Hashedrekord1)
| Req_d1 (e : EnvelopeMsg) (verifiers : list str)
| Req_v2 (digest sig_content : bytes) (v : V2Verifier).

(** client.py:276-302 [RekorClient._build_hashed_rekord_request] *)
Definition build_hashed_rekord_request_v1 (h : Hashed) (sig : bytes) (c : Cert) : res EntryRequest :=
  let* alg := as_hashedrekord_algorithm h in
  Ok (Req_h1 (mkH1 (s2l "0.0.1") (Some (b64encode sig)) (Some (b64encode (ascii_bytes (pem_of_der (c_der c)))))
                   (Some (alg, hex (h_digest h))) 0)).

(** client.py:304-328 [RekorClient._build_dsse_request] *)
Definition build_dsse_request_v1 (e : Envelope) (c : Cert) : res EntryRequest :=
  Ok (Req_d1 (env_inner e) [b64encode (ascii_bytes (pem_of_der (c_der c)))]).

Section Env.
Variable env : Env.

(** client_v2.py:106-133 [RekorV2Client._build_hashed_rekord_request]; base64 fields are encoded
    here and decoded by pydantic *)
Definition build_hashed_rekord_request_v2 (h : Hashed) (sig : bytes) (c : Cert) : res EntryRequest :=
  let* digest := b64decode (b64encode (h_digest h)) in
  let* content := b64decode (b64encode sig) in
  let* der := b64decode (b64encode (c_der c)) in
  let* d := get_key_details c in
  Ok (Req_v2 digest content (V2_x509 der d)).

(** client_v2.py:135-168 [RekorV2Client._build_dsse_request] *)
Definition build_dsse_request_v2 (e : Envelope) (c : Cert) : res EntryRequest :=
  let* d := get_key_details c in
  let* '(_, h) := get_prehash d in
  let* p := envelope_pae e in
  let* digest := b64decode (b64encode (e_hash env h p)) in
  let* content := b64decode (b64encode (env_signature e)) in
  let* der := b64decode (b64encode (c_der c)) in
  Ok (Req_v2 digest content (V2_x509 der d)).
End Env.

(** ** Responses *)

(** pydantic parsers used on answers *)
Record RekorParsers := mkRP {
  (** [ProtoU64] from text *)
  rp_u64 : str -> option Z;
  (** [TypeAdapter(ProposedEntry).validate_json]: kind and version of a hashedrekord or dsse
      body; [None] for the other kinds of entry *)
  rp_proposed : bytes -> res (option (str * str));
  (** [_TransparencyLogEntry.from_dict] *)
  rp_entry : json -> res LogEntry;
  (** [str(v)] of floats, lists and dicts *)
  rp_repr : json -> str
}.

Section Client.
Variable rp : RekorParsers.

(** [str(v)] *)
Definition rk_str (v : json) : str := json_str (mkJwtEnv (fun _ => Raise EValue) (rp_repr rp)) v.

(** pydantic on a [ProtoU64], [Base64Bytes] and [str] field.  Simplified: text that is not
    ASCII is refused in base64 fields. *)
Definition field_u64 (s : str) : res Z := match rp_u64 rp s with Some n => Ok n | None => Raise EPydantic end.
Definition field_b64 (v : json) : res bytes :=
  match v with
  | JStr s => try_except (b64decode s) any_exn (fun _ => Raise EPydantic)
  | _ => Raise EPydantic
  end.
Definition field_str (v : json) : res str := match v with JStr s => Ok s | _ => Raise EPydantic end.

(** models.py:117-168 [TransparencyLogEntry._from_v1_response] *)
Definition from_v1_response (v : json) : res LogEntry :=
  let* entries := py_items v in
  do* raise_if (negb (Nat.eqb (length entries) 1)) EValue in
  let* '(_, entry) := index_list entries 0 in
  let* body := py_item entry (s2l "body") in
  let* raw_body := py_b64decode body in
  let* proposed := rp_proposed rp raw_body in
  match proposed with
  | None => Raise EInvalidBundle
  | Some (kind, version) =>
    let* verification := py_item entry (s2l "verification") in
    let* raw := py_item verification (s2l "inclusionProof") in
    let* log_index := py_item entry (s2l "logIndex") in
    let* log_id := py_item entry (s2l "logID") in
    let* key_id := py_fromhex log_id in
    let* key_id := b64decode (b64encode key_id) in
    let* integrated := py_item entry (s2l "integratedTime") in
    let* verification := py_item entry (s2l "verification") in
    let* set := py_item verification (s2l "signedEntryTimestamp") in
    let* set := field_b64 set in
    let* ip_index := py_item raw (s2l "logIndex") in
    let* root := py_item raw (s2l "rootHash") in
    let* root := py_fromhex root in
    let* size := py_item raw (s2l "treeSize") in
    let* hashes := py_item raw (s2l "hashes") in
    let* hashes := py_iter hashes in
    let* hashes := map_res py_fromhex hashes in
    let* checkpoint := py_item raw (s2l "checkpoint") in
    let* envelope := field_str checkpoint in
    let* ip_index := field_u64 (rk_str ip_index) in
    let* root := b64decode (b64encode root) in
    let* size := field_u64 (rk_str size) in
    let* hashes := map_res (fun h => b64decode (b64encode h)) hashes in
    let* log_index := field_u64 (rk_str log_index) in
    let* integrated := field_u64 (rk_str integrated) in
    let* canonical := field_b64 body in
    make_entry (mkEntry log_index key_id kind version (Some integrated) (Some set)
                 (Some (mkIP ip_index root size hashes (Some envelope))) canonical)
  end.

(** The network: the answer to a request, or the exception raised while sending it *)
Variable http : http_request EntryRequest -> res response.

(** client.py:106, 163, 224 and 266: URLs *)
Definition v1_log_url (url : str) : str := url ++ s2l "/api/v1" ++ s2l "/log".
Definition v1_entries_url (url : str) : str := v1_log_url url ++ s2l "/entries".
Definition v1_retrieve_url (url : str) : str := v1_entries_url url ++ s2l "/retrieve/".

Definition check_status (r : response) : res unit :=
  try_except (raise_for_status r) (exn_eqb EHTTPError) (fun _ => Raise ERekorClient).

(** client.py:49-73 [RekorLogInfo] and [RekorLogInfo.from_response]: the values are kept as they are *)
Record RekorLogInfo := mkLogInfo { li_root_hash : json; li_tree_size : json; li_signed_tree_head : json; li_tree_id : json; li_raw : json }.
Definition log_info (v : json) : res RekorLogInfo :=
  let* root := py_item v (s2l "rootHash") in
  let* size := py_item v (s2l "treeSize") in
  let* head := py_item v (s2l "signedTreeHead") in
  let* id := py_item v (s2l "treeID") in
  Ok (mkLogInfo root size head id v).

(** client.py:84-98 [RekorLog.get] *)
Definition log_get (url : str) : res RekorLogInfo :=
  let* resp := http (GET (v1_log_url url) nil) in
  do* check_status resp in
  let* j := resp_json resp in
  log_info j.

(** client.py:114-136 [RekorEntries.get]: [bool(uuid) ^ bool(log_index)], then [uuid is not None] *)
Definition entries_get (url : str) (uuid : option str) (log_index : option Z) : res LogEntry :=
  let b_uuid := match uuid with Some (_ :: _) => true | _ => false end in
  let b_index := match log_index with Some n => negb (n =? 0)%Z | None => false end in
  do* raise_if (negb (xorb b_uuid b_index)) EValue in
  let* resp := match uuid with
               | Some u => http (GET (v1_entries_url url ++ s2l "/" ++ u) nil)
               | None => http (GET (v1_entries_url url) [(s2l "logIndex", match log_index with Some n => dec_Z n | None => nil end)])
               end in
  do* check_status resp in
  let* j := resp_json resp in
  from_v1_response j.

(** client.py:138-156 [RekorEntries.post] and 268-272 [RekorClient.create_entry] *)
Definition create_entry_v1 (url : str) (req : EntryRequest) : res LogEntry :=
  let* resp := http (POST (v1_entries_url url) req) in
  do* check_status resp in
  let* j := resp_json resp in
  from_v1_response j.

(** client_v2.py:78-106 [RekorV2Client.create_entry] *)
Definition create_entry_v2 (url : str) (req : EntryRequest) : res LogEntry :=
  let* resp := http (POST (url ++ s2l "/api/v2" ++ s2l "/log/entries") req) in
  do* check_status resp in
  let* j := resp_json resp in
  let* inner := rp_entry rp j in
  make_entry inner.

(** client.py:196-212: the loop of the search *)
Fixpoint oldest_loop (results : list json) (oldest : option LogEntry) : res (option LogEntry) :=
  match results with
  | nil => Ok oldest
  | r :: rest =>
    let* entry := from_v1_response r in
    match le_integrated_time entry with
    | None => Raise EValue
    | Some t =>
      let* replace :=
        match oldest with
        | None => Ok true
        | Some o => match le_integrated_time o with Some t' => Ok (t <? t')%Z | None => Raise EType end
        end in
      oldest_loop rest (if (replace : bool) then Some entry else oldest)
    end
  end.

(** client.py:171-214 [RekorEntriesRetrieve.post] *)
Definition retrieve_post (url : str) (expected : EntryRequest) : res (option LogEntry) :=
  let* resp := http (POST (v1_retrieve_url url) expected) in
  match raise_for_status resp with
  | Raise _ =>
    if resp_truthy resp && (r_status resp =? 404)%Z then Ok None else Raise ERekorClient
  | Ok _ =>
    let* j := resp_json resp in
    let* results := py_iter j in
    oldest_loop results None
  end.
End Client.
