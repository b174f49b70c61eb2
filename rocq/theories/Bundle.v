(** sigstore/models.py: [TimestampVerificationData], [VerificationMaterial], [Bundle];
    sigstore/_cli.py: [_fix_bundle]. *)
From Verif Require Import Base Codec Messages Env Keyring LogEntry Cert Dsse.

(** [common_v1.MessageSignature] (read at verifier.py:462-485): digest value, if recorded,
    and signature, base64 already decoded by pydantic *)
Record MessageSignature := mkMsgSig { ms_digest : option (hash_algorithm * bytes); ms_signature : bytes }.

(** [bundle_v1.VerificationMaterial] (read at models.py:376-494).  [vm_timestamps] are the
    RFC 3161 timestamps; missing timestamp data and an empty list behave alike and are
    both [nil]. *)
Record VMaterial := mkVM {
  vm_cert : option bytes;
  vm_chain : option (list bytes);
  vm_entries : list LogEntry;
  vm_timestamps : list bytes
}.

(** [bundle_v1.Bundle] *)
Record BundleMsg := mkBundleMsg {
  bm_media : str;
  bm_vm : VMaterial;
  bm_msig : option MessageSignature;
  bm_env : option EnvelopeMsg
}.

(** models.py:352-360 [BundleType] *)
Definition BUNDLE_0_1 : str := s2l "application/vnd.dev.sigstore.bundle+json;version=0.1".
Definition BUNDLE_0_2 : str := s2l "application/vnd.dev.sigstore.bundle+json;version=0.2".
Definition BUNDLE_0_3_ALT : str := s2l "application/vnd.dev.sigstore.bundle+json;version=0.3".
Definition BUNDLE_0_3 : str := s2l "application/vnd.dev.sigstore.bundle.v0.3+json".

(** models.py:347: a [Bundle] object with its cached attributes *)
Record Bundle := mkBundle { b_inner : BundleMsg; b_cert : Cert; b_entry : LogEntry }.

Section Bundle.
Variable env : Env.

(** models.py:254-269 [TimestampVerificationData._verify] and 295-304
    [VerificationMaterial.timestamp_verification_data]: the decoded timestamps, [None] if
    there are none *)
Definition timestamp_verification_data (vm : VMaterial) : res (option (list TSR)) :=
  match vm_timestamps vm with
  | nil => Ok None
  | ts =>
    let* l := try_except (map_res (e_decode_tsr env) ts) is_value_error (fun _ => Raise EVerification) in
    Ok (Some l)
  end.

(** models.py:391-438: the signing certificate *)
Definition bundle_leaf (m : BundleMsg) : res Cert :=
  if str_eqb (bm_media m) BUNDLE_0_3 || str_eqb (bm_media m) BUNDLE_0_3_ALT then
    match vm_cert (bm_vm m) with
    | None => Raise EInvalidBundle
    | Some der => e_parse_cert env der
    end
  else
    match vm_chain (bm_vm m) with
    | None => Raise EInvalidBundle
    | Some nil => Raise EInvalidBundle
    | Some ders =>
      let* certs := map_res (e_parse_cert env) ders in
      match certs with
      | nil => Raise EInvalidBundle
      | leaf :: chain =>
        let* ok := cert_is_leaf leaf in
        do* raise_if (negb ok) EInvalidBundle in
        (* a root CA in the chain only causes a warning *)
        do* for_each (fun c => let* _ := cert_is_root_ca env c in Ok tt) chain in
        Ok leaf
      end
    end.

(** models.py:366-494 [Bundle.__init__] and [Bundle._verify] *)
Definition make_bundle (m : BundleMsg) : res Bundle :=
  do* raise_if (negb (str_eqb (bm_media m) BUNDLE_0_1 || str_eqb (bm_media m) BUNDLE_0_2 ||
                      str_eqb (bm_media m) BUNDLE_0_3_ALT || str_eqb (bm_media m) BUNDLE_0_3)) EInvalidBundle in
  let* leaf := bundle_leaf m in
  do* raise_if (negb (Nat.eqb (length (vm_entries (bm_vm m))) 1)) EInvalidBundle in
  let* e := index_list (vm_entries (bm_vm m)) 0 in
  do* raise_if (negb (str_eqb (le_version e) (s2l "0.0.1") || str_eqb (le_version e) (s2l "0.0.2")))
        EIncompatibleEntry in
  let* log_entry := make_entry e in
  do* (if str_eqb (bm_media m) BUNDLE_0_1 then
         raise_if (match le_promise log_entry with None => true | Some _ => false end) EInvalidBundle
       else
         do* raise_if (match le_proof log_entry with
                       | Some ip => match ip_checkpoint ip with None => true | Some _ => false end
                       | None => true end) EInvalidBundle in
         match le_promise log_entry with
         | Some _ => Ok tt
         | None =>
           let* ts := timestamp_verification_data (bm_vm m) in
           raise_if (match ts with None => true | Some _ => false end) EInvalidBundle
         end) in
  Ok (mkBundle m leaf log_entry).

(** models.py:540-548 [from_json]; [parse] is pydantic's [_Bundle.from_json] *)
Definition bundle_from_json (parse : bytes -> res BundleMsg) (raw : bytes) : res Bundle :=
  let* inner := try_except (parse raw) is_value_error (fun _ => Raise EInvalidBundle) in
  make_bundle inner.

(** models.py:510-518 [_dsse_envelope] *)
Definition bundle_envelope (b : Bundle) : res (option Envelope) :=
  match bm_env (b_inner b) with
  | None => Ok None
  | Some m => let* e := make_envelope m in Ok (Some e)
  end.

(** models.py:521-530 [signature] *)
Definition bundle_signature (b : Bundle) : res bytes :=
  let* e := bundle_envelope b in
  match e with
  | Some e => Ok (env_signature e)
  | None =>
    match bm_msig (b_inner b) with
    | Some s => Ok (ms_signature s)
    | None => Raise EAttribute
    end
  end.

(** [MessageSignature | dsse.Envelope]; [C_none] is Python's [None] *)
Inductive content : Type :=
| C_msg (s : MessageSignature)
| C_env (e : Envelope)
| C_none.

(** models.py:556-571 [_to_parts] *)
Definition to_parts (b : Bundle) : res (Cert * content * LogEntry) :=
  let* e := bundle_envelope b in
  Ok (b_cert b,
      match e with
      | Some e => C_env e
      | None => match bm_msig (b_inner b) with Some s => C_msg s | None => C_none end
      end,
      b_entry b).

(** models.py:598-632 [_from_parts].  Base64 fields are encoded here and decoded by
    pydantic. *)
Definition from_parts_ (cert : Cert) (c : content) (log_entry : LogEntry) (ts : option (list TSR)) : res Bundle :=
  let* timestamps := map_res (fun r => b64decode (b64encode (tsr_raw r)))
                       (match ts with Some l => l | None => nil end) in
  let* '(msig, envm) :=
     match c with
     | C_msg s => Ok (Some s, None)
     | C_env e => Ok (None, Some (env_inner e))
     | C_none => Raise EAttribute
     end in
  let* der := b64decode (b64encode (c_der cert)) in
  make_bundle (mkBundleMsg BUNDLE_0_3 (mkVM (Some der) None [log_entry] timestamps) msig envm).

(** models.py:574-584 [from_parts] *)
Definition from_parts (cert : Cert) (sig : bytes) (log_entry : LogEntry) : res Bundle :=
  let* sg := b64decode (b64encode sig) in
  from_parts_ cert (C_msg (mkMsgSig None sg)) log_entry None.

(** _cli.py:1307-1343 [_fix_bundle]: [raw] is the parsed bundle file, [rekor_get] the
    client's lookup by log index; the result is the bundle written out.
    [ESystemExit]: [_fatal] or [log_and_exit]. *)
Definition fix_bundle (rekor_get : Z -> res LogEntry) (upgrade_version : bool) (raw : BundleMsg) : res Bundle :=
  do* raise_if (negb (Nat.eqb (length (vm_entries (bm_vm raw))) 1)) (ESystemExit 1) in
  let* tlog_entry := index_list (vm_entries (bm_vm raw)) 0 in
  let* raw' :=
    match le_proof tlog_entry with
    | None => Raise EAttribute
    | Some ip =>
      match ip_checkpoint ip with
      | Some _ => Ok raw
      | None =>
        let* new_entry := rekor_get (le_log_index tlog_entry) in
        let vm := bm_vm raw in
        Ok (mkBundleMsg (bm_media raw) (mkVM (vm_cert vm) (vm_chain vm) [new_entry] (vm_timestamps vm))
                        (bm_msig raw) (bm_env raw))
      end
    end in
  let* bundle := try_except (make_bundle raw') is_invalid_bundle (fun _ => Raise (ESystemExit 1)) in
  if upgrade_version then
    let* '(cert, c, e) := to_parts bundle in
    from_parts_ cert c e None
  else Ok bundle.
End Bundle.
