(** Verification and service selection with a clock that moves: every call of [datetime.now] at
    _utils.py:366 is a reading of its own.  Verifier.v, TrustedRoot.v and SigningConfig.v use one
    reading for a whole call; PropsClock.v relates the two. *)
From Verif Require Import Base Codec Messages Env Keyring LogEntry Cert Sct Dsse KeyDetails Policy TrustedRoot SigningConfig Hashing Bundle Verifier.

(** A computation that reads the clock: from the number of readings made before to the result and
    the number of readings made. *)
Definition Clk (A : Type) : Type := nat -> res A * nat.
Definition still {A} (r : res A) : Clk A := fun n => (r, n).
Definition bind_c {A B} (m : Clk A) (k : A -> Clk B) : Clk B :=
  fun n => match m n with (Ok a, n') => k a n' | (Raise e, n') => (Raise e, n') end.
(** [try: m except <class>: raise e'] *)
Definition try_c {A} (m : Clk A) (cls : exn -> bool) (h : exn -> res A) : Clk A :=
  fun n => match m n with
           | (Ok a, n') => (Ok a, n')
           | (Raise e, n') => (if cls e then h e else Raise e, n')
           end.
Declare Scope clk_scope.
Notation "'let~' x := m 'in' k" := (bind_c m (fun x => k))
  (at level 200, x name, m at level 100, k at level 200, right associativity) : clk_scope.
Notation "'do~' m 'in' k" := (bind_c m (fun _ => k))
  (at level 200, m at level 100, k at level 200, right associativity) : clk_scope.
Open Scope clk_scope.

Section Clock.
Variable env : Env.
Variable ps : Parsers.
(** what the clock says at its first, second, ... reading *)
Variable clock : nat -> time.

(** _utils.py:360-379 [is_timerange_valid]: the clock is read even if there is no period *)
Definition in_period (period : option TimeRange) (allow_expired : bool) : Clk bool :=
  fun n => (Ok (is_timerange_valid (clock n) period allow_expired), S n).

(** models.py:839-853 [_get_tlog_keys], exhausted by [list] *)
Fixpoint tlog_keys_c (tlogs : list TLog) (p : purpose) : Clk (list PublicKeyMsg) :=
  match tlogs with
  | nil => still (Ok nil)
  | t :: r =>
    let~ valid := in_period (tl_valid_for t) (match p with VERIFY => true | SIGN => false end) in
    let~ rest := tlog_keys_c r p in
    still (Ok (if valid then tl_key t :: rest else rest))
  end.

(** models.py:855-863 [rekor_keyring] *)
Definition rekor_keyring_c (tr : TrustedRootMsg) (p : purpose) : Clk keyring :=
  let~ keys := tlog_keys_c (tr_tlogs tr) p in
  still (do* raise_if (Nat.eqb (length keys) 0) EMetadata in make_keyring env keys).

(** models.py:865-872 [ct_keyring] *)
Definition ct_keyring_c (tr : TrustedRootMsg) (p : purpose) : Clk keyring :=
  let~ ctfes := tlog_keys_c (tr_ctlogs tr) p in
  still (do* raise_if (match ctfes with nil => true | _ => false end) EMetadata in make_keyring env ctfes).

(** trust.py:258-268 [certificates] *)
Definition certificates_c (ca : CA) (allow_expired : bool) : Clk (list Cert) :=
  let~ valid := in_period (cam_valid_for (ca_inner ca)) allow_expired in
  still (Ok (if valid then ca_certs ca else nil)).

(** models.py:874-887 [get_fulcio_certs] *)
Fixpoint fulcio_loop_c (cas : list CAMsg) : Clk (list Cert) :=
  match cas with
  | nil => still (Ok nil)
  | m :: r =>
    let~ ca := still (make_ca env m) in
    let~ certs := certificates_c ca true in
    let~ rest := fulcio_loop_c r in
    still (Ok (certs ++ rest))
  end.
Definition fulcio_certs_c (tr : TrustedRootMsg) : Clk (list Cert) :=
  let~ certs := fulcio_loop_c (tr_cas tr) in
  do~ still (raise_if (match certs with nil => true | _ => false end) EMetadata) in
  still (Ok certs).

(** verifier.py:83-96 [Verifier.__init__] *)
Definition make_verifier_c (tr : TrustedRootMsg) : Clk Verifier :=
  let~ certs := fulcio_certs_c tr in
  let~ tlog := still (index_list (tr_tlogs tr) 0) in
  still (Ok (mkVerifier certs tr (tl_base_url tlog))).

(** verifier.py:132-171, the loop body over the authorities *)
Fixpoint timestamp_loop_c (cas : list CA) (tsr : TSR) (message : bytes) : Clk (option TimeResult) :=
  match cas with
  | nil => still (Ok None)
  | ca :: cas' =>
    let~ certs := certificates_c ca true in
    if Nat.ltb (length certs) 2 then timestamp_loop_c cas' tsr message
    else
      match e_tsa_verify env certs tsr message with
      | Raise e => if exn_eqb e ERfc3161 then timestamp_loop_c cas' tsr message else still (Raise e)
      | Ok _ =>
        match cam_valid_for (ca_inner ca) with
        | None => still (Raise EAttribute)
        | Some w =>
          if (tr_start w <=? tsr_time tsr)%Z &&
             match tr_end w with None => true | Some e => (tsr_time tsr <? e)%Z end
          then still (Ok (Some (mkTime TIMESTAMP_AUTHORITY (tsr_time tsr))))
          else timestamp_loop_c cas' tsr message
        end
      end
  end.
(** verifier.py:126-171 [_verify_signed_timestamp] *)
Definition signed_timestamp_c (v : Verifier) (tsr : TSR) (message : bytes) : Clk (option TimeResult) :=
  let~ cas := still (get_timestamp_authorities env (vf_root v)) in
  timestamp_loop_c cas tsr message.
(** verifier.py:197-201: the list comprehension *)
Fixpoint collect_times_c (v : Verifier) (b : Bundle) (l : list TSR) : Clk (list TimeResult) :=
  match l with
  | nil => still (Ok nil)
  | tsr :: l' =>
    let~ sg := still (bundle_signature b) in
    let~ r := signed_timestamp_c v tsr sg in
    let~ rest := collect_times_c v b l' in
    still (Ok (match r with Some t => t :: rest | None => rest end))
  end.
(** verifier.py:173-203 [_verify_timestamp_authority] *)
Definition timestamp_authority_c (v : Verifier) (b : Bundle) : Clk (list TimeResult) :=
  let~ tvd := still (timestamp_verification_data env (bm_vm (b_inner b))) in
  let responses := match tvd with Some l => l | None => nil end in
  do~ still (raise_if (Nat.ltb MAX_ALLOWED_TIMESTAMP (length responses)) EVerification) in
  do~ still (raise_if (has_dup responses) EVerification) in
  collect_times_c v b responses.
(** verifier.py:205-248 [_establish_time] *)
Definition establish_time_c (v : Verifier) (b : Bundle) : Clk (list TimeResult) :=
  let~ tvd := still (timestamp_verification_data env (bm_vm (b_inner b))) in
  let~ from_tsa :=
    match tvd with
    | None => still (Ok nil)
    | Some _ =>
      let~ tsas := still (get_timestamp_authorities env (vf_root v)) in
      do~ still (raise_if (match tsas with nil => true | _ => false end) EVerification) in
      timestamp_authority_c v b
    end in
  let e := b_entry b in
  let~ from_log := still (
    if has_set e then
      do* raise_if (negb ((str_eqb (le_kind e) (s2l "dsse") || str_eqb (le_kind e) (s2l "hashedrekord")) &&
                          str_eqb (le_version e) (s2l "0.0.1"))) EVerification in
      match le_integrated_time e with
      | Some t => let* tm := fromtimestamp t in Ok [mkTime TRANSPARENCY_SERVICE tm]
      | None => Ok nil
      end
    else Ok nil) in
  still (Ok (from_tsa ++ from_log)).

(** verifier.py:283-376 [_verify_common_signing_cert] *)
Definition common_signing_cert_c (v : Verifier) (b : Bundle) (p : policy) : Clk unit :=
  let cert := b_cert b in
  let~ times := establish_time_c v b in
  do~ still (raise_if (Nat.ltb (length times) VERIFIED_TIME_THRESHOLD) EVerification) in
  let~ chain := still (verify_chains env v cert times nil) in
  do~ try_c
        (let~ kr := ct_keyring_c (vf_root v) VERIFY in still (verify_sct env cert chain kr))
        is_verification_error (fun _ => Raise EVerification) in
  let~ x := still (c_exts cert) in
  do~ still (match x_ku x with
      | None => Raise EExtensionNotFound
      | Some (digital_signature, _) => raise_if (negb digital_signature) EVerification
      end) in
  do~ still (match x_eku x with
      | None => Raise EExtensionNotFound
      | Some ekus => raise_if (negb (oid_in OID_CODE_SIGNING ekus)) EVerification
      end) in
  do~ still (policy_verify p cert) in
  do~ try_c
        (let~ kr := rekor_keyring_c (vf_root v) VERIFY in still (entry_verify env kr (b_entry b)))
        is_verification_error (fun _ => Raise EVerification) in
  still (for_each (fun t => raise_if (negb ((c_not_before cert <=? t_time t)%Z && (t_time t <=? c_not_after cert)%Z))
                              EVerification) times).

(** verifier.py:378-438 [verify_dsse]; after the common part the clock is not read *)
Definition verify_dsse_c (v : Verifier) (b : Bundle) (p : policy) : Clk (str * bytes) :=
  do~ common_signing_cert_c v b p in
  still (
  let* oe := bundle_envelope b in
  match oe with
  | None => Raise EVerification
  | Some evp =>
    let* key := c_pubkey (b_cert b) in
    do* dsse_verify env key evp in
    let kind := le_kind (b_entry b) in
    let version := le_version (b_entry b) in
    do* (if str_eqb kind (s2l "hashedrekord") && str_eqb version (s2l "0.0.2")
         then validate_hashedrekord_v002_dsse env ps b
         else if str_eqb kind (s2l "dsse") && str_eqb version (s2l "0.0.1")
         then validate_dsse_v001 env ps b
         else Raise EVerification) in
    Ok (em_type (env_inner evp), em_payload (env_inner evp))
  end).

(** verifier.py:440-504 [verify_artifact] *)
Definition verify_artifact_c (v : Verifier) (i : input) (b : Bundle) (p : policy) : Clk unit :=
  do~ common_signing_cert_c v b p in
  still (
  let hashed_input := sha256_digest env i in
  match bm_msig (b_inner b) with
  | None => Raise EVerification
  | Some ms =>
    do* raise_if (match ms_digest ms with
                  | None => false
                  | Some (_, d) => negb (bytes_eqb (h_digest hashed_input) d)
                  end) EVerification in
    do* try_except
          (let* key := c_pubkey (b_cert b) in
           let* h := as_prehashed hashed_input in
           e_sig_verify env (ECDSA_prehashed h) key (ms_signature ms) (h_digest hashed_input))
          is_invalid_signature (fun _ => Raise EVerification) in
    do* raise_if (negb (str_eqb (le_kind (b_entry b)) (s2l "hashedrekord"))) EVerification in
    if str_eqb (le_version (b_entry b)) (s2l "0.0.2") then validate_hashedrekord_v002 ps b hashed_input
    else if str_eqb (le_version (b_entry b)) (s2l "0.0.1") then validate_hashedrekord_v001 ps b hashed_input
    else Raise EVerification
  end).

(** models.py:719-728: the loop over the services; the clock is read for supported services only *)
Fixpoint by_operator_c (services : list Service) (supported : list Z) (d : list (str * list Service)) : Clk (list (str * list Service)) :=
  match services with
  | nil => still (Ok d)
  | s :: r =>
    if negb (existsb (Z.eqb (sv_version s)) supported) then by_operator_c r supported d
    else
      let~ valid := in_period (sv_valid_for s) false in
      if negb valid then by_operator_c r supported d
      else by_operator_c r supported (dict_append (sv_operator s) s d)
  end.
(** models.py:707-751 [_get_valid_services] *)
Definition valid_services_c (services : list Service) (supported : list Z) (config : option ServiceConfig) : Clk (list Service) :=
  let~ d := by_operator_c services supported nil in
  still (
  let* result := map_res (fun kl => last_item (sort_by_version (snd kl))) d in
  match config with
  | None => Ok result
  | Some c =>
    match scf_selector c with
    | SEL_ALL => Ok result
    | sel =>
      let exact := match sel with SEL_EXACT => true | _ => false end in
      let count := if exact && negb (Nat.eqb (scf_count c) 0) then scf_count c else 1 in
      do* raise_if (exact && Nat.ltb (length result) count) EValue in
      Ok (firstn count result)
    end
  end).
(** models.py:651-695 [SigningConfig.__init__] *)
Definition make_signing_config_c (m : SigningConfigMsg) (tlog_version : option Z) : Clk SigningConfig :=
  do~ still (raise_if (negb (str_eqb (scm_media m) SIGNING_CONFIG_0_2)) EError) in
  let tlog_versions := match tlog_version with None => REKOR_VERSIONS | Some v => [v] end in
  let~ tlogs := valid_services_c (scm_tlogs m) tlog_versions (scm_tlog_config m) in
  do~ still (raise_if (is_empty tlogs) EError) in
  let~ tsas := valid_services_c (scm_tsas m) TSA_VERSIONS (scm_tsa_config m) in
  let~ fulcios := valid_services_c (scm_cas m) FULCIO_VERSIONS None in
  do~ still (raise_if (is_empty fulcios) EError) in
  let~ oidcs := valid_services_c (scm_oidcs m) OIDC_VERSIONS None in
  still (Ok (mkSC tlogs tsas fulcios oidcs)).
End Clock.
