(** Verification together with the cryptographic operations that it performs, in order: signature
    checks, checks of timestamp tokens and constructions of certificate chains.  Verifier.v has the
    results only; PropsOps.v relates the two. *)
From Verif Require Import Base Codec Messages Merkle Env Keyring Checkpoint LogEntry Cert Sct Dsse KeyDetails Policy TrustedRoot SigningConfig Hashing Bundle Verifier.

(** An operation with its arguments: a signature check with a key, the check of a token against the
    certificates of an authority, a chain from a certificate to the roots at a time. *)
Inductive op : Type :=
| Op_sig (s : sig_scheme) (k : pubkey) (signature data : bytes)
| Op_tsa (certs : list Cert) (tsr : TSR) (message : bytes)
| Op_chain (roots : list Cert) (at_time : time) (c : Cert).

(** A result and the operations performed to get it. *)
Definition Tr (A : Type) : Type := (res A * list op)%type.
Definition pure_t {A} (r : res A) : Tr A := (r, nil).
Definition call_t {A} (o : op) (r : res A) : Tr A := (r, [o]).
Definition bind_t {A B} (m : Tr A) (k : A -> Tr B) : Tr B :=
  match fst m with
  | Ok a => let r := k a in (fst r, snd m ++ snd r)
  | Raise e => (Raise e, snd m)
  end.
(** [try: m except <class>: raise e'] *)
Definition try_t {A} (m : Tr A) (cls : exn -> bool) (h : exn -> res A) : Tr A := (try_except (fst m) cls h, snd m).
Declare Scope ops_scope.
Notation "'let@' x := m 'in' k" := (bind_t m (fun x => k))
  (at level 200, x name, m at level 100, k at level 200, right associativity) : ops_scope.
Notation "'do@' m 'in' k" := (bind_t m (fun _ => k))
  (at level 200, m at level 100, k at level 200, right associativity) : ops_scope.
Open Scope ops_scope.

Section Ops.
Variable env : Env.
Variable ps : Parsers.
Variable now : time.

Definition sig_verify_t (s : sig_scheme) (k : pubkey) (signature data : bytes) : Tr unit :=
  call_t (Op_sig s k signature data) (e_sig_verify env s k signature data).

(** trust.py:114-143 [Key.verify] *)
Definition key_verify_t (k : Key) (signature data : bytes) : Tr unit :=
  match pk_kind (k_key k), k_hash k with
  | KRsa _, Some h => sig_verify_t (RSA_PKCS1v15 h) (k_key k) signature data
  | KEc _, Some h => sig_verify_t (ECDSA h) (k_key k) signature data
  | KEd25519, None => sig_verify_t ED25519 (k_key k) signature data
  | _, _ => pure_t (Raise EVerification)
  end.

(** trust.py:187-195, the loop over candidates *)
Fixpoint try_candidates_t (cs : list Key) (signature data : bytes) : Tr bool :=
  match cs with
  | nil => pure_t (Ok false)
  | c :: cs' =>
    let m := key_verify_t c signature data in
    match fst m with
    | Ok _ => (Ok true, snd m)
    | Raise EInvalidSignature =>
      let r := try_candidates_t cs' signature data in (fst r, snd m ++ snd r)
    | Raise e => (Raise e, snd m)
    end
  end.

(** trust.py:163-190 [Keyring.verify] *)
Definition keyring_verify_t (kr : keyring) (kid signature data : bytes) : Tr unit :=
  let candidates :=
    match assoc bytes_eqb kid kr with
    | Some k => [k]
    | None => map snd kr
    end in
  let@ valid := try_candidates_t candidates signature data in
  pure_t (raise_if (negb valid) EVerification).

(** checkpoint.py:181-195, the loop of [SignedNote.verify] *)
Fixpoint verify_sigs_t (kr : keyring) (kid note : bytes) (sigs : list RekorSignature) : Tr unit :=
  match sigs with
  | nil => pure_t (Raise EVerification)
  | s :: rest =>
    if bytes_eqb (rs_hash s) (firstn 4 kid) then
      try_t
        (let@ raw := pure_t (b64decode (rs_signature s)) in keyring_verify_t kr kid raw note)
        is_verification_error (fun _ => Raise EVerification)
    else verify_sigs_t kr kid note rest
  end.

(** checkpoint.py:174-195 [SignedNote.verify] *)
Definition note_verify_t (kr : keyring) (kid : bytes) (n : SignedNote) : Tr unit :=
  match utf8_encode (sn_note n) with
  | None => pure_t (Raise EUnicodeEncode)
  | Some note => verify_sigs_t kr kid note (sn_signatures n)
  end.

(** checkpoint.py:218-243 [verify_checkpoint] *)
Definition verify_checkpoint_t (kr : keyring) (e : LogEntry) : Tr unit :=
  match le_proof e with
  | None => pure_t (Raise EAttribute)
  | Some ip =>
    match ip_checkpoint ip with
    | None => pure_t (Raise EVerification)
    | Some text =>
      let@ nc := pure_t (signed_checkpoint_from_text env text) in
      do@ note_verify_t kr (le_log_id e) (fst nc) in
      pure_t (raise_if (negb (str_eqb (lc_hash (snd nc)) (hex (ip_root_hash ip)))) EVerification)
    end
  end.

(** models.py:194-214 [_verify_set] *)
Definition verify_set_t (kr : keyring) (e : LogEntry) : Tr unit :=
  match le_promise e with
  | None => pure_t (Raise EVerification)
  | Some set =>
    try_t
      (let@ data := pure_t (encode_canonical e) in keyring_verify_t kr (le_log_id e) set data)
      is_verification_error (fun _ => Raise EVerification)
  end.

(** models.py:216-239 [TransparencyLogEntry._verify] *)
Definition entry_verify_t (kr : keyring) (e : LogEntry) : Tr unit :=
  do@ pure_t (verify_merkle_inclusion (e_hash env SHA256) e) in
  do@ verify_checkpoint_t kr e in
  if has_set e then verify_set_t kr e else pure_t (Ok tt).

(** sct.py:180-235 [verify_sct] *)
Definition verify_sct_t (c : Cert) (chain : list Cert) (kr : keyring) : Tr unit :=
  let@ s := pure_t (get_sct c) in
  let@ issuer_key_id := pure_t (
    if is_precert (sct_entry_type s) then
      let* issuer := get_issuer_cert chain in
      let* pk := c_pubkey issuer in
      let* ca := sct_cert_is_ca issuer in
      do* raise_if (negb ca) EVerification in
      do* raise_if (negb (is_rsa_or_ec pk)) EVerification in
      Ok (Some (key_id env pk))
    else Ok None) in
  let@ signed := pure_t (pack_digitally_signed s c issuer_key_id) in
  do@ pure_t (raise_if (negb (is_sha256 (sct_hash s))) EVerification) in
  try_t (keyring_verify_t kr (sct_log_id s) (sct_signature s) signed)
    is_verification_error (fun _ => Raise EVerification).

(** verifier.py:132-171, the loop body over the authorities *)
Fixpoint timestamp_loop_t (cas : list CA) (tsr : TSR) (message : bytes) : Tr (option TimeResult) :=
  match cas with
  | nil => pure_t (Ok None)
  | ca :: cas' =>
    let certs := ca_certificates now ca true in
    let rest := timestamp_loop_t cas' tsr message in
    if Nat.ltb (length certs) 2 then rest
    else
      let o := Op_tsa certs tsr message in
      match e_tsa_verify env certs tsr message with
      | Raise e => if exn_eqb e ERfc3161 then (fst rest, o :: snd rest) else (Raise e, [o])
      | Ok _ =>
        match cam_valid_for (ca_inner ca) with
        | None => (Raise EAttribute, [o])
        | Some w =>
          if (tr_start w <=? tsr_time tsr)%Z &&
             match tr_end w with None => true | Some e => (tsr_time tsr <? e)%Z end
          then (Ok (Some (mkTime TIMESTAMP_AUTHORITY (tsr_time tsr))), [o])
          else (fst rest, o :: snd rest)
        end
      end
  end.

(** verifier.py:126-171 [_verify_signed_timestamp] *)
Definition signed_timestamp_t (v : Verifier) (tsr : TSR) (message : bytes) : Tr (option TimeResult) :=
  let@ cas := pure_t (get_timestamp_authorities env (vf_root v)) in
  timestamp_loop_t cas tsr message.

(** verifier.py:197-201: the list comprehension *)
Fixpoint collect_times_t (v : Verifier) (b : Bundle) (l : list TSR) : Tr (list TimeResult) :=
  match l with
  | nil => pure_t (Ok nil)
  | tsr :: l' =>
    let@ sg := pure_t (bundle_signature b) in
    let@ r := signed_timestamp_t v tsr sg in
    let@ rest := collect_times_t v b l' in
    pure_t (Ok (match r with Some t => t :: rest | None => rest end))
  end.

(** verifier.py:173-203 [_verify_timestamp_authority] *)
Definition timestamp_authority_t (v : Verifier) (b : Bundle) : Tr (list TimeResult) :=
  let@ tvd := pure_t (timestamp_verification_data env (bm_vm (b_inner b))) in
  let responses := match tvd with Some l => l | None => nil end in
  do@ pure_t (raise_if (Nat.ltb MAX_ALLOWED_TIMESTAMP (length responses)) EVerification) in
  do@ pure_t (raise_if (has_dup responses) EVerification) in
  collect_times_t v b responses.

(** verifier.py:205-248 [_establish_time] *)
Definition establish_time_t (v : Verifier) (b : Bundle) : Tr (list TimeResult) :=
  let@ tvd := pure_t (timestamp_verification_data env (bm_vm (b_inner b))) in
  let@ from_tsa :=
    match tvd with
    | None => pure_t (Ok nil)
    | Some _ =>
      let@ tsas := pure_t (get_timestamp_authorities env (vf_root v)) in
      do@ pure_t (raise_if (match tsas with nil => true | _ => false end) EVerification) in
      timestamp_authority_t v b
    end in
  let e := b_entry b in
  let@ from_log := pure_t (
    if has_set e then
      do* raise_if (negb ((str_eqb (le_kind e) (s2l "dsse") || str_eqb (le_kind e) (s2l "hashedrekord")) &&
                          str_eqb (le_version e) (s2l "0.0.1"))) EVerification in
      match le_integrated_time e with
      | Some t => let* tm := fromtimestamp t in Ok [mkTime TRANSPARENCY_SERVICE tm]
      | None => Ok nil
      end
    else Ok nil) in
  pure_t (Ok (from_tsa ++ from_log)).

(** verifier.py:250-281 [_verify_chain_at_time] *)
Definition verify_chain_at_time_t (v : Verifier) (c : Cert) (t : TimeResult) : Tr (list Cert) :=
  let@ chain := try_t (call_t (Op_chain (vf_fulcio v) (t_time t) c) (e_chain env (vf_fulcio v) (t_time t) c))
                  is_chain_error (fun _ => Raise ECertValidation) in
  pure_t (Ok (tl chain)).

(** verifier.py:328-330 *)
Fixpoint verify_chains_t (v : Verifier) (c : Cert) (ts : list TimeResult) (chain : list Cert) : Tr (list Cert) :=
  match ts with
  | nil => pure_t (Ok chain)
  | t :: ts' => let@ chain' := verify_chain_at_time_t v c t in verify_chains_t v c ts' chain'
  end.

(** verifier.py:283-376 [_verify_common_signing_cert] *)
Definition common_signing_cert_t (v : Verifier) (b : Bundle) (p : policy) : Tr unit :=
  let cert := b_cert b in
  let@ times := establish_time_t v b in
  do@ pure_t (raise_if (Nat.ltb (length times) VERIFIED_TIME_THRESHOLD) EVerification) in
  let@ chain := verify_chains_t v cert times nil in
  do@ try_t
        (let@ kr := pure_t (ct_keyring env now (vf_root v) VERIFY) in verify_sct_t cert chain kr)
        is_verification_error (fun _ => Raise EVerification) in
  let@ x := pure_t (c_exts cert) in
  do@ pure_t (match x_ku x with
      | None => Raise EExtensionNotFound
      | Some (digital_signature, _) => raise_if (negb digital_signature) EVerification
      end) in
  do@ pure_t (match x_eku x with
      | None => Raise EExtensionNotFound
      | Some ekus => raise_if (negb (oid_in OID_CODE_SIGNING ekus)) EVerification
      end) in
  do@ pure_t (policy_verify p cert) in
  do@ try_t
        (let@ kr := pure_t (rekor_keyring env now (vf_root v) VERIFY) in entry_verify_t kr (b_entry b))
        is_verification_error (fun _ => Raise EVerification) in
  pure_t (for_each (fun t => raise_if (negb ((c_not_before cert <=? t_time t)%Z && (t_time t <=? c_not_after cert)%Z))
                              EVerification) times).

(** dsse/__init__.py:287-308 [_verify] *)
Definition dsse_verify_t (key : pubkey) (evp : Envelope) : Tr bytes :=
  let@ p := pure_t (pae (em_type (env_inner evp)) (em_payload (env_inner evp))) in
  do@ pure_t (raise_if (negb (Nat.eqb (length (em_sigs (env_inner evp))) 1)) EVerification) in
  let@ signature := pure_t (index_list (em_sigs (env_inner evp)) 0) in
  do@ try_t (sig_verify_t (ECDSA SHA256) key signature p)
        is_invalid_signature (fun _ => Raise EVerification) in
  pure_t (Ok (em_payload (env_inner evp))).

(** verifier.py:378-438 [verify_dsse] *)
Definition verify_dsse_t (v : Verifier) (b : Bundle) (p : policy) : Tr (str * bytes) :=
  do@ common_signing_cert_t v b p in
  let@ oe := pure_t (bundle_envelope b) in
  match oe with
  | None => pure_t (Raise EVerification)
  | Some evp =>
    let@ key := pure_t (c_pubkey (b_cert b)) in
    do@ dsse_verify_t key evp in
    let kind := le_kind (b_entry b) in
    let version := le_version (b_entry b) in
    do@ pure_t (if str_eqb kind (s2l "hashedrekord") && str_eqb version (s2l "0.0.2")
         then validate_hashedrekord_v002_dsse env ps b
         else if str_eqb kind (s2l "dsse") && str_eqb version (s2l "0.0.1")
         then validate_dsse_v001 env ps b
         else Raise EVerification) in
    pure_t (Ok (em_type (env_inner evp), em_payload (env_inner evp)))
  end.

(** verifier.py:440-504 [verify_artifact] *)
Definition verify_artifact_t (v : Verifier) (i : input) (b : Bundle) (p : policy) : Tr unit :=
  do@ common_signing_cert_t v b p in
  let hashed_input := sha256_digest env i in
  match bm_msig (b_inner b) with
  | None => pure_t (Raise EVerification)
  | Some ms =>
    do@ pure_t (raise_if (match ms_digest ms with
                  | None => false
                  | Some (_, d) => negb (bytes_eqb (h_digest hashed_input) d)
                  end) EVerification) in
    do@ try_t
          (let@ key := pure_t (c_pubkey (b_cert b)) in
           let@ h := pure_t (as_prehashed hashed_input) in
           sig_verify_t (ECDSA_prehashed h) key (ms_signature ms) (h_digest hashed_input))
          is_invalid_signature (fun _ => Raise EVerification) in
    do@ pure_t (raise_if (negb (str_eqb (le_kind (b_entry b)) (s2l "hashedrekord"))) EVerification) in
    pure_t (if str_eqb (le_version (b_entry b)) (s2l "0.0.2") then validate_hashedrekord_v002 ps b hashed_input
    else if str_eqb (le_version (b_entry b)) (s2l "0.0.1") then validate_hashedrekord_v001 ps b hashed_input
    else Raise EVerification)
  end.
End Ops.
