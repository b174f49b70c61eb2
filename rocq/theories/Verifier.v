(** sigstore/verify/verifier.py *)
From Verif Require Import Base Codec Messages Env Keyring LogEntry Cert Sct Dsse KeyDetails Policy
  TrustedRoot Hashing Bundle.

(** ** Log entry bodies

    The JSON bodies are parsed by pydantic models of [rekor_types] and [sigstore_models];
    the parsers are parameters, their results are modelled field by field. *)

(** [rekor_types.Hashedrekord]; [h1_rest] stands for every field not listed (0: unset) *)
Record Hashedrekord1 := mkH1 {
  h1_api_version : str;
  h1_sig : option str;            (* spec.signature.content *)
  h1_pk : option str;             (* spec.signature.public_key.content *)
  h1_hash : option (hash_alg * str); (* spec.data.hash: algorithm, value *)
  h1_rest : nat
}.

(** [rekor_types.Dsse]: [spec.root.payload_hash] (is it SHA-256, value) and
    [spec.root.signatures] (signature, verifier) *)
Record Dsse1 := mkD1 {
  d1_payload_hash : option (bool * str);
  d1_signatures : option (list (str * str))
}.

(** [v2.verifier.Verifier] *)
Inductive V2Verifier : Type :=
| V2_x509 (der : bytes) (d : key_details)
| V2_public_key (raw : bytes) (d : key_details).

(** [v2.entry.Spec] *)
Inductive V2Spec : Type :=
| V2_hashedrekord (alg : hash_algorithm) (digest : bytes) (sig_content : bytes) (v : V2Verifier)
| V2_other (n : nat).

(** [v2.entry.Entry] *)
Record V2Entry := mkV2 { v2_kind : str; v2_api_version : str; v2_spec : V2Spec }.

(** The three body parsers: [rekor_types.Hashedrekord.model_validate_json],
    [rekor_types.Dsse.model_validate_json], [v2.entry.Entry.from_json]. *)
Record Parsers := mkParsers {
  p_hashedrekord : bytes -> res Hashedrekord1;
  p_dsse : bytes -> res Dsse1;
  p_v2 : bytes -> res V2Entry
}.

(** pydantic's [==] on these models: all fields *)
Definition hash_alg_eqb (a b : hash_alg) : bool :=
  match a, b with SHA256, SHA256 | SHA384, SHA384 | SHA512, SHA512 => true | _, _ => false end.
Definition hash_algorithm_eqb (a b : hash_algorithm) : bool :=
  match a, b with
  | HA_SHA2_256, HA_SHA2_256 | HA_SHA2_384, HA_SHA2_384 | HA_SHA2_512, HA_SHA2_512 => true
  | HA_other n, HA_other m => Nat.eqb n m
  | _, _ => false
  end.
Definition h1_eqb (a b : Hashedrekord1) : bool :=
  str_eqb (h1_api_version a) (h1_api_version b) &&
  opt_eqb str_eqb (h1_sig a) (h1_sig b) &&
  opt_eqb str_eqb (h1_pk a) (h1_pk b) &&
  opt_eqb (fun x y => hash_alg_eqb (fst x) (fst y) && str_eqb (snd x) (snd y)) (h1_hash a) (h1_hash b) &&
  Nat.eqb (h1_rest a) (h1_rest b).
Definition v2_verifier_eqb (a b : V2Verifier) : bool :=
  match a, b with
  | V2_x509 x d, V2_x509 y e => bytes_eqb x y && key_details_eqb d e
  | V2_public_key x d, V2_public_key y e => bytes_eqb x y && key_details_eqb d e
  | _, _ => false
  end.
Definition v2_spec_eqb (a b : V2Spec) : bool :=
  match a, b with
  | V2_hashedrekord x d s v, V2_hashedrekord x' d' s' v' =>
    hash_algorithm_eqb x x' && bytes_eqb d d' && bytes_eqb s s' && v2_verifier_eqb v v'
  | V2_other n, V2_other m => Nat.eqb n m
  | _, _ => false
  end.
Definition v2_eqb (a b : V2Entry) : bool :=
  str_eqb (v2_kind a) (v2_kind b) && str_eqb (v2_api_version a) (v2_api_version b) &&
  v2_spec_eqb (v2_spec a) (v2_spec b).

(** _utils.py:120-127 [base64_encode_pem_cert] *)
Definition base64_encode_pem_cert (c : Cert) : str := b64encode (ascii_bytes (pem_of_der (c_der c))).

(** rekor/__init__.py:103-121 [_hashedrekord_from_parts]; the [kind] of the class is fixed and
    [api_version] defaults to 0.0.1 *)
Definition hashedrekord_from_parts (cert : Cert) (sig : bytes) (hashed : Hashed) : res Hashedrekord1 :=
  let* alg := as_hashedrekord_algorithm hashed in
  Ok (mkH1 (s2l "0.0.1") (Some (b64encode sig)) (Some (base64_encode_pem_cert cert))
           (Some (alg, hex (h_digest hashed))) 0).

(** verifier.py:652-666 [_v2_verifier_from_certificate] *)
Definition v2_verifier_from_certificate (c : Cert) : res V2Verifier :=
  let* der := b64decode (b64encode (c_der c)) in
  let* d := get_key_details c in
  Ok (V2_x509 der d).

(** ** The verifier object *)

(** verifier.py:83-96 [Verifier.__init__] *)
Record Verifier := mkVerifier { vf_fulcio : list Cert; vf_root : TrustedRootMsg; vf_rekor_url : str }.

Inductive ts_source : Set := TIMESTAMP_AUTHORITY | TRANSPARENCY_SERVICE.
(** timestamp.py:44-53 [TimestampVerificationResult] *)
Record TimeResult := mkTime { t_source : ts_source; t_time : time }.

(** verifier.py:69-75 *)
Definition MAX_ALLOWED_TIMESTAMP : nat := 32.
Definition VERIFIED_TIME_THRESHOLD : nat := 1.

Definition make_verifier (env : Env) (now : time) (tr : TrustedRootMsg) : res Verifier :=
  let* certs := get_fulcio_certs env now tr in
  let* tlog := index_list (tr_tlogs tr) 0 in
  Ok (mkVerifier certs tr (tl_base_url tlog)).

(** [datetime.fromtimestamp(t, tz=utc)] for an int number of seconds *)
Definition fromtimestamp (t : Z) : res time :=
  if ((t <? -9223372036854775808) || (9223372036854775807 <? t))%Z then Raise EOverflow
  else if ((t <? -62135596800) || (253402300799 <? t))%Z then Raise EValue
  else Ok (t * 1000000)%Z.

(** [len(set(l)) != len(l)]: equality of timestamps is equality of their encoding *)
Fixpoint has_dup (l : list TSR) : bool :=
  match l with
  | nil => false
  | x :: l' => existsb (fun y => bytes_eqb (tsr_raw x) (tsr_raw y)) l' || has_dup l'
  end.

Section Verifier.
Variable env : Env.
Variable ps : Parsers.
(** Reading of the clock during the call.  Simplified: one reading for all uses (Clock.v has one for each). *)
Variable now : time.

(** verifier.py:132-171, the loop body over the authorities *)
Fixpoint verify_signed_timestamp_loop (cas : list CA) (tsr : TSR) (message : bytes) : res (option TimeResult) :=
  match cas with
  | nil => Ok None
  | ca :: cas' =>
    let certs := ca_certificates now ca true in
    if Nat.ltb (length certs) 2 then verify_signed_timestamp_loop cas' tsr message
    else
      match e_tsa_verify env certs tsr message with
      | Raise e => if exn_eqb e ERfc3161 then verify_signed_timestamp_loop cas' tsr message else Raise e
      | Ok _ =>
        match cam_valid_for (ca_inner ca) with
        | None => Raise EAttribute
        | Some w =>
          if (tr_start w <=? tsr_time tsr)%Z &&
             match tr_end w with None => true | Some e => (tsr_time tsr <? e)%Z end
          then Ok (Some (mkTime TIMESTAMP_AUTHORITY (tsr_time tsr)))
          else verify_signed_timestamp_loop cas' tsr message
        end
      end
  end.

(** verifier.py:126-171 [_verify_signed_timestamp] *)
Definition verify_signed_timestamp (v : Verifier) (tsr : TSR) (message : bytes) : res (option TimeResult) :=
  let* cas := get_timestamp_authorities env (vf_root v) in
  verify_signed_timestamp_loop cas tsr message.

(** verifier.py:197-201: the list comprehension *)
Fixpoint collect_times (v : Verifier) (b : Bundle) (l : list TSR) : res (list TimeResult) :=
  match l with
  | nil => Ok nil
  | tsr :: l' =>
    let* sg := bundle_signature b in
    let* r := verify_signed_timestamp v tsr sg in
    let* rest := collect_times v b l' in
    Ok (match r with Some t => t :: rest | None => rest end)
  end.

(** verifier.py:173-203 [_verify_timestamp_authority] *)
Definition verify_timestamp_authority (v : Verifier) (b : Bundle) : res (list TimeResult) :=
  let* tvd := timestamp_verification_data env (bm_vm (b_inner b)) in
  let responses := match tvd with Some l => l | None => nil end in
  do* raise_if (Nat.ltb MAX_ALLOWED_TIMESTAMP (length responses)) EVerification in
  do* raise_if (has_dup responses) EVerification in
  collect_times v b responses.

(** verifier.py:205-248 [_establish_time] *)
Definition establish_time (v : Verifier) (b : Bundle) : res (list TimeResult) :=
  let* tvd := timestamp_verification_data env (bm_vm (b_inner b)) in
  let* from_tsa :=
    match tvd with
    | None => Ok nil
    | Some _ =>
      let* tsas := get_timestamp_authorities env (vf_root v) in
      do* raise_if (match tsas with nil => true | _ => false end) EVerification in
      verify_timestamp_authority v b
    end in
  let e := b_entry b in
  let* from_log :=
    if has_set e then
      do* raise_if (negb ((str_eqb (le_kind e) (s2l "dsse") || str_eqb (le_kind e) (s2l "hashedrekord")) &&
                          str_eqb (le_version e) (s2l "0.0.1"))) EVerification in
      match le_integrated_time e with
      | Some t => let* tm := fromtimestamp t in Ok [mkTime TRANSPARENCY_SERVICE tm]
      | None => Ok nil
      end
    else Ok nil in
  Ok (from_tsa ++ from_log).

Definition is_chain_error (e : exn) : bool := exn_eqb e EX509Verification || exn_eqb e EUnsupportedGeneralName.

(** verifier.py:250-281 [_verify_chain_at_time] *)
Definition verify_chain_at_time (v : Verifier) (c : Cert) (t : TimeResult) : res (list Cert) :=
  let* chain := try_except (e_chain env (vf_fulcio v) (t_time t) c) is_chain_error (fun _ => Raise ECertValidation) in
  Ok (tl chain).

(** verifier.py:328-330: the loop keeps the last chain *)
Fixpoint verify_chains (v : Verifier) (c : Cert) (ts : list TimeResult) (chain : list Cert) : res (list Cert) :=
  match ts with
  | nil => Ok chain
  | t :: ts' => let* chain' := verify_chain_at_time v c t in verify_chains v c ts' chain'
  end.

(** verifier.py:283-376 [_verify_common_signing_cert] *)
Definition verify_common_signing_cert (v : Verifier) (b : Bundle) (p : policy) : res unit :=
  let cert := b_cert b in
  let* times := establish_time v b in
  do* raise_if (Nat.ltb (length times) VERIFIED_TIME_THRESHOLD) EVerification in
  let* chain := verify_chains v cert times nil in
  do* try_except
        (let* kr := ct_keyring env now (vf_root v) VERIFY in verify_sct env cert chain kr)
        is_verification_error (fun _ => Raise EVerification) in
  let* x := c_exts cert in
  do* match x_ku x with
      | None => Raise EExtensionNotFound
      | Some (digital_signature, _) => raise_if (negb digital_signature) EVerification
      end in
  do* match x_eku x with
      | None => Raise EExtensionNotFound
      | Some ekus => raise_if (negb (oid_in OID_CODE_SIGNING ekus)) EVerification
      end in
  do* policy_verify p cert in
  do* try_except
        (let* kr := rekor_keyring env now (vf_root v) VERIFY in entry_verify env kr (b_entry b))
        is_verification_error (fun _ => Raise EVerification) in
  for_each (fun t => raise_if (negb ((c_not_before cert <=? t_time t)%Z && (t_time t <=? c_not_after cert)%Z))
                              EVerification) times.

(** verifier.py:507-544 [_validate_dsse_v001_entry_body] *)
Definition validate_dsse_v001 (b : Bundle) : res unit :=
  let* oe := bundle_envelope b in
  match oe with
  | None => Raise EVerification
  | Some evp =>
    let* body := try_except (p_dsse ps (le_body (b_entry b))) (exn_eqb EPydantic) (fun _ => Raise EVerification) in
    let payload_hash := hex (h_digest (sha256_digest env (In_bytes (em_payload (env_inner evp))))) in
    match d1_payload_hash body with
    | None => Raise EAttribute
    | Some (is_sha256, value) =>
      do* raise_if (negb is_sha256) EVerification in
      do* raise_if (negb (str_eqb payload_hash value)) EVerification in
      let signatures := map (fun s => (b64encode s, base64_encode_pem_cert (b_cert b))) (em_sigs (env_inner evp)) in
      raise_if (match d1_signatures body with
                | None => true
                | Some l => negb (list_eqb (fun x y => str_eqb (fst x) (fst y) && str_eqb (snd x) (snd y)) signatures l)
                end) EVerification
    end
  end.

(** verifier.py:547-565 [_validate_hashedrekord_v001_entry_body] *)
Definition validate_hashedrekord_v001 (b : Bundle) (hashed : Hashed) : res unit :=
  match bm_msig (b_inner b) with
  | None => Raise EAttribute
  | Some ms =>
    let* expected := hashedrekord_from_parts (b_cert b) (ms_signature ms) hashed in
    let* actual := p_hashedrekord ps (le_body (b_entry b)) in
    raise_if (negb (h1_eqb expected actual)) EVerification
  end.

(** verifier.py:568-615 [_validate_hashedrekord_v002_dsse_entry_body] *)
Definition validate_hashedrekord_v002_dsse (b : Bundle) : res unit :=
  let* oe := bundle_envelope b in
  match oe with
  | None => Raise EVerification
  | Some evp =>
    do* raise_if (negb (Nat.eqb (length (em_sigs (env_inner evp))) 1)) EVerification in
    let* verifier := v2_verifier_from_certificate (b_cert b) in
    let* '(algorithm, hash_func) := get_prehash (match verifier with V2_x509 _ d | V2_public_key _ d => d end) in
    let* p := envelope_pae evp in
    let* digest := b64decode (b64encode (e_hash env hash_func p)) in
    let* content := b64decode (b64encode (env_signature evp)) in
    let* actual := p_v2 ps (le_body (b_entry b)) in
    raise_if (negb (v2_eqb (mkV2 (le_kind (b_entry b)) (le_version (b_entry b))
                                 (V2_hashedrekord algorithm digest content verifier)) actual)) EVerification
  end.

(** verifier.py:618-649 [_validate_hashedrekord_v002_entry_body] *)
Definition validate_hashedrekord_v002 (b : Bundle) (hashed : Hashed) : res unit :=
  match bm_msig (b_inner b) with
  | None => Raise EVerification
  | Some ms =>
    let* digest := b64decode (b64encode (h_digest hashed)) in
    let* content := b64decode (b64encode (ms_signature ms)) in
    let* verifier := v2_verifier_from_certificate (b_cert b) in
    let* actual := p_v2 ps (le_body (b_entry b)) in
    raise_if (negb (v2_eqb (mkV2 (le_kind (b_entry b)) (le_version (b_entry b))
                                 (V2_hashedrekord (h_alg hashed) digest content verifier)) actual)) EVerification
  end.

(** verifier.py:378-438 [verify_dsse] *)
Definition verify_dsse (v : Verifier) (b : Bundle) (p : policy) : res (str * bytes) :=
  do* verify_common_signing_cert v b p in
  let* oe := bundle_envelope b in
  match oe with
  | None => Raise EVerification
  | Some evp =>
    let* key := c_pubkey (b_cert b) in
    do* dsse_verify env key evp in
    let kind := le_kind (b_entry b) in
    let version := le_version (b_entry b) in
    do* (if str_eqb kind (s2l "hashedrekord") && str_eqb version (s2l "0.0.2")
         then validate_hashedrekord_v002_dsse b
         else if str_eqb kind (s2l "dsse") && str_eqb version (s2l "0.0.1")
         then validate_dsse_v001 b
         else Raise EVerification) in
    Ok (em_type (env_inner evp), em_payload (env_inner evp))
  end.

(** verifier.py:440-504 [verify_artifact] *)
Definition verify_artifact (v : Verifier) (i : input) (b : Bundle) (p : policy) : res unit :=
  do* verify_common_signing_cert v b p in
  let hashed_input := sha256_digest env i in
  match bm_msig (b_inner b) with
  | None => Raise EVerification
  | Some ms =>
    do* raise_if (match ms_digest ms with
                  | None => false
                  | Some (_, d) => negb (bytes_eqb (h_digest hashed_input) d)
                  end) EVerification in
    do* try_except
          (let* key := c_pubkey (b_cert b) in
           let* h := as_prehashed hashed_input in
           e_sig_verify env (ECDSA_prehashed h) key (ms_signature ms) (h_digest hashed_input))
          is_invalid_signature (fun _ => Raise EVerification) in
    do* raise_if (negb (str_eqb (le_kind (b_entry b)) (s2l "hashedrekord"))) EVerification in
    if str_eqb (le_version (b_entry b)) (s2l "0.0.2") then validate_hashedrekord_v002 b hashed_input
    else if str_eqb (le_version (b_entry b)) (s2l "0.0.1") then validate_hashedrekord_v001 b hashed_input
    else Raise EVerification
  end.
End Verifier.
