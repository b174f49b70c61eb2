(** Properties C37-C41: signing.

    [Outside] is everything a signer does not control: clock, key generation, randomness and the
    answers of all services.  All theorems hold for every [out : Outside]; since answers may depend
    on the whole history, this covers every schedule and every service behaviour. *)
From Verif Require Import Base Codec Messages Env Keyring MerkleSpec Json Oidc Http LogEntry Cert Sct Dsse PropsDsse KeyDetails Policy TrustedRoot
  PropsTrustedRoot Hashing Bundle PropsBundle Verifier VerifierSpec PropsVerifier SigningConfig RekorClient PropsRekorClient Clients
  PropsClients Sign SignProofs ToyEnv ToyBundles ToySign.

(** ** Specification *)

(** what the CA client returns for a request made after history [h] *)
Definition ca_answer (libs : SignLibs) (out : Outside) (ctx : ContextParts) (token : str) (h : history) (key : pubkey) : res (Cert * list Cert) :=
  fulcio_post (l_url libs) (l_pem libs) (o_fulcio out h) (cp_fulcio ctx) (mkCsr key) token.

(** what the timestamp client returns *)
Definition tsa_answer (libs : SignLibs) (out : Outside) (h : history) (url : str) (sg : bytes) : res TSR :=
  request_timestamp (l_env libs) (o_tsa_query out h) (o_tsa out h) url sg.

(** what the log client returns *)
Definition log_answer (libs : SignLibs) (out : Outside) (ctx : ContextParts) (h : history) (req : EntryRequest) : res LogEntry :=
  create_entry libs out h (cp_rekor ctx) req.

(** the latest clock reading *)
Definition last_clock (l : history) : option time :=
  fold_left (fun a ev => match ev with EvClock t => Some t | _ => a end) l None.

Fixpoint requests (l : history) : nat :=
  match l with nil => 0 | EvCsr _ _ :: l' => S (requests l') | _ :: l' => requests l' end.

(** [req] asks the log to record this digest, signature and certificate *)
Definition submits_artifact (c : rekor_client) (req : EntryRequest) (digest sg : bytes) (cert : Cert) : Prop :=
  match c with
  | Rekor_v1 _ => req = Req_h1 (mkH1 (s2l "0.0.1") (Some (b64encode sg)) (Some (pem_b64 cert)) (Some (SHA256, hex digest)) 0)
  | Rekor_v2 _ => exists d, get_key_details cert = Ok d /\ req = Req_v2 digest sg (V2_x509 (c_der cert) d)
  end.

(** [req] asks the log to record this envelope (v2: the digest of its PAE) and certificate *)
Definition submits_envelope (env : Env) (c : rekor_client) (req : EntryRequest) (m : EnvelopeMsg) (sg : bytes) (cert : Cert) : Prop :=
  match c with
  | Rekor_v1 _ => req = Req_d1 m [pem_b64 cert]
  | Rekor_v2 _ => exists d alg hsh p, get_key_details cert = Ok d /\ get_prehash d = Ok (alg, hsh) /\
      pae (em_type m) (em_payload m) = Ok p /\ req = Req_v2 (e_hash env hsh p) sg (V2_x509 (c_der cert) d)
  end.

(** The entry [e] is a record of the request [req]: the parsers of entry bodies read from it what was
    submitted (for envelopes in v1: the payload hash and the signature with its verifier) *)
Definition logged (env : Env) (ps : Parsers) (req : EntryRequest) (e : LogEntry) : Prop :=
  match req with
  | Req_h1 h => le_kind e = s2l "hashedrekord" /\ le_version e = s2l "0.0.1" /\ p_hashedrekord ps (le_body e) = Ok h
  | Req_d1 m vs => le_kind e = s2l "dsse" /\ le_version e = s2l "0.0.1" /\
      p_dsse ps (le_body e) = Ok (mkD1 (Some (true, hex (e_hash env SHA256 (em_payload m)))) (Some (combine (map b64encode (em_sigs m)) vs)))
  | Req_v2 digest sg v => le_kind e = s2l "hashedrekord" /\ le_version e = s2l "0.0.2" /\ le_promise e = None /\
      forall der d, v = V2_x509 der d -> exists alg hsh, get_prehash d = Ok (alg, hsh) /\
        p_v2 ps (le_body e) = Ok (mkV2 (s2l "hashedrekord") (s2l "0.0.2") (V2_hashedrekord alg digest sg v))
  end.

(** ** Honest services, as seen by a verifier [v] running at time [now] with policy [p] *)

Definition in_validity (c : Cert) (t : time) : Prop := (c_not_before c <= t <= c_not_after c)%Z.

(** a certificate for [key] that the verifier's roots, CT log keys and policy accept *)
Definition good_certificate (env : Env) (now : time) (v : Verifier) (p : policy) (key : pubkey) (c : Cert) : Prop :=
  reads_back env c /\ c_pubkey c = Ok key /\
  (exists x kcs ekus, c_exts c = Ok x /\ x_ku x = Some (true, kcs) /\ x_eku x = Some ekus /\ In OID_CODE_SIGNING ekus) /\
  policy_verify p c = Ok tt /\
  exists ct, ct_keyring env now (vf_root v) VERIFY = Ok ct /\
    forall t, in_validity c t -> exists ch, e_chain env (vf_fulcio v) t c = Ok ch /\ verify_sct env c (tl ch) ct = Ok tt.

Definition honest_ca (libs : SignLibs) (out : Outside) (ctx : ContextParts) (token : str) (now : time) (v : Verifier) (p : policy) : Prop :=
  forall h key c chain, ca_answer libs out ctx token h key = Ok (c, chain) -> good_certificate (l_env libs) now v p key c.

(** a log that records what it is asked to record, whose entries verify, and that promises inclusion
    only with an integration time; [valid] holds of the times at which the certificate is valid *)
Definition honest_log (libs : SignLibs) (out : Outside) (ctx : ContextParts) (ps : Parsers) (now : time) (v : Verifier) (valid : time -> Prop) : Prop :=
  exists rk, rekor_keyring (l_env libs) now (vf_root v) VERIFY = Ok rk /\
  forall h req e, log_answer libs out ctx h req = Ok e ->
    logged (l_env libs) ps req e /\ entry_verify (l_env libs) rk e = Ok tt /\
    forall set, le_promise e = Some set -> exists t, le_integrated_time e = Some t /\ t <> 0%Z /\
      (-62135596800 <= t <= 253402300799)%Z /\ valid (t * 1000000)%Z.

(** authorities that time-stamp what they are asked to, and that the verifier trusts *)
Definition honest_tsas (libs : SignLibs) (out : Outside) (ctx : ContextParts) (now : time) (v : Verifier) (valid : time -> Prop) : Prop :=
  exists cas, trusted_tsas (l_env libs) (vf_root v) cas /\
  forall h url sg t, In url (cp_tsas ctx) -> tsa_answer libs out h url sg = Ok t ->
    e_decode_tsr (l_env libs) (tsr_raw t) = Ok t /\ token_time (l_env libs) now cas sg t (Some (tsr_time t)) /\ valid (tsr_time t).

(** signatures verify, and generated keys are on P-256 *)
Definition sound_keys (env : Env) (out : Outside) : Prop :=
  (forall h, pk_kind (o_pub out h) = KEc P256) /\
  forall h k s d, (s = ECDSA SHA256 \/ s = ECDSA_prehashed SHA256) -> pk_kind (sk_pub k) = KEc P256 ->
    o_sign out h k s d <> nil /\ e_sig_verify env s (sk_pub k) (o_sign out h k s d) d = Ok tt.

(** ** C40: what is submitted is what is returned *)

Theorem C40_artifact : forall libs out s i h h' b,
  sign_artifact libs out s i h = (h', Ok b) ->
  exists l req cert digest sg,
    (* the operation submits one entry, as its last step *)
    h' = h ++ l ++ [EvLog req] /\ (forall r, ~ In (EvLog r) l) /\
    submits_artifact (cp_rekor (sg_ctx s)) req digest sg cert /\
    (* the digest is that of the input *)
    sha256_digest (l_env libs) i = mkHashed HA_SHA2_256 digest /\
    (forall bs, i = In_bytes bs -> digest = e_hash (l_env libs) SHA256 bs) /\
    (* the bundle has the same digest, signature and certificate, and the log's answer *)
    bm_msig (b_inner b) = Some (mkMsgSig (Some (HA_SHA2_256, digest)) sg) /\ bm_env (b_inner b) = None /\
    vm_cert (bm_vm (b_inner b)) = Some (c_der cert) /\
    log_answer libs out (sg_ctx s) (h ++ l) req = Ok (b_entry b).
Proof.
  intros libs out s i h h' b H. pose proof (run_op_history libs out s (Op_artifact i) h h' (Ok b) H) as Rh.
  apply sign_artifact_inv in H.
  destruct H as (cert & h1 & k & h2 & digest & sg & req & rs & hl & e & C & K & D & L & Sg & Rq & A & T & Hh & E & F).
  destruct Rh as [(e' & _ & Q)|(cert' & h1' & lk & lu & C' & Hh' & Fk & _ & Fu)]; [discriminate|].
  assert (h1' = h1) by congruence. subst h1'. clear C'.
  (* the history before the submission *)
  apply asked_history in A. apply private_key_ok in K.
  assert (Hh2 : exists lk', h2 = h1 ++ lk' /\ Forall is_key lk').
  { destruct (sg_key s); destruct K as [-> _]; [exists nil; rewrite app_nil_r; split; [reflexivity|constructor]|].
    eexists. split; [reflexivity|]. constructor; [exact I|constructor]. }
  destruct Hh2 as (lk' & -> & Fk').
  assert (Hc : exists lc, h1 = h ++ lc /\ forall r, ~ In (EvLog r) lc).
  { destruct (sg_cert s) as [c0|] eqn:Sc.
    - rewrite (signer_cert_cached libs out s c0 h Sc) in C. exists [EvClock (o_clock out h)]. split; [congruence|].
      intros r [Q|[]]. discriminate.
    - destruct (signer_cert_history libs out s h h1 _ Sc C) as (l & -> & Hl). eexists. split; [reflexivity|].
      intros r [Q|I]; [discriminate|]. destruct Hl as [[-> _]|(lk0 & req0 & lc0 & -> & Fk0 & _ & _ & Hlc)]; [destruct I|].
      apply in_app_or in I. destruct I as [I|[I|I]]; [|discriminate|].
      + rewrite Forall_forall in Fk0. apply Fk0 in I. destruct I.
      + destruct Hlc as [->|(t & ->)]; [destruct I|destruct I as [I|[]]; discriminate]. }
  destruct Hc as (lc & -> & Nl).
  set (l := lc ++ lk' ++ EvSign k (ECDSA_prehashed SHA256) :: map (fun u => EvTsa u sg) (cp_tsas (sg_ctx s))).
  assert (Hl : hl = h ++ l) by (rewrite A; unfold l; rewrite <- !app_assoc; reflexivity).
  exists l, req, cert, digest, sg.
  apply C35_assembled_bundle in F. destruct F as (_ & Be & _ & Vc & _ & _ & Ms & En & _).
  split; [rewrite Hh, Hl, <- app_assoc; reflexivity|]. split.
  { intros r I. unfold l in I. apply in_app_or in I. destruct I as [I|I]; [eapply Nl; eassumption|].
    apply in_app_or in I. destruct I as [I|[I|I]]; [|discriminate|].
    - rewrite Forall_forall in Fk'. apply Fk' in I. destruct I.
    - apply in_map_iff in I. destruct I as (u & Q & _). discriminate. }
  split.
  { unfold submits_artifact. destruct (cp_rekor (sg_ctx s)) as [url|url]; cbn [build_hashed_rekord_request] in Rq.
    - unfold build_hashed_rekord_request_v1, as_hashedrekord_algorithm, as_prehashed in Rq. cbn [h_alg h_digest bind] in Rq. unfold pem_b64. congruence.
    - unfold build_hashed_rekord_request_v2 in Rq. rewrite !b64decode_b64encode in Rq. cbn [bind h_digest] in Rq.
      inv Rq d Hd. exists d. split; [assumption|]. congruence. }
  split; [assumption|]. split; [intros bs ->; cbn in D; congruence|].
  split; [assumption|]. split; [assumption|]. split; [assumption|]. rewrite Be, <- Hl. exact E.
Qed.

Theorem C40_dsse : forall libs out s st h h' b,
  sign_dsse libs out s st h = (h', Ok b) ->
  exists l req cert sg m,
    h' = h ++ l ++ [EvLog req] /\ (forall r, ~ In (EvLog r) l) /\
    m = mkEnvMsg (st_contents st) (s2l "application/vnd.in-toto+json") [sg] /\
    submits_envelope (l_env libs) (cp_rekor (sg_ctx s)) req m sg cert /\
    bm_env (b_inner b) = Some m /\ bm_msig (b_inner b) = None /\
    vm_cert (bm_vm (b_inner b)) = Some (c_der cert) /\
    log_answer libs out (sg_ctx s) (h ++ l) req = Ok (b_entry b).
Proof.
  intros libs out s st h h' b H.
  apply sign_dsse_inv in H.
  destruct H as (cert & h1 & k & h2 & p & sg & req & rs & hl & e & C & K & D & Sg & Ns & Rq & A & T & Hh & E & F).
  apply asked_history in A. apply private_key_ok in K.
  assert (Hh2 : exists lk', h2 = h1 ++ lk' /\ Forall is_key lk').
  { destruct (sg_key s); destruct K as [-> _]; [exists nil; rewrite app_nil_r; split; [reflexivity|constructor]|].
    eexists. split; [reflexivity|]. constructor; [exact I|constructor]. }
  destruct Hh2 as (lk' & -> & Fk').
  assert (Hc : exists lc, h1 = h ++ lc /\ forall r, ~ In (EvLog r) lc).
  { destruct (sg_cert s) as [c0|] eqn:Sc.
    - rewrite (signer_cert_cached libs out s c0 h Sc) in C. exists [EvClock (o_clock out h)]. split; [congruence|].
      intros r [Q|[]]. discriminate.
    - destruct (signer_cert_history libs out s h h1 _ Sc C) as (l & -> & Hl). eexists. split; [reflexivity|].
      intros r [Q|I]; [discriminate|]. destruct Hl as [[-> _]|(lk0 & req0 & lc0 & -> & Fk0 & _ & _ & Hlc)]; [destruct I|].
      apply in_app_or in I. destruct I as [I|[I|I]]; [|discriminate|].
      + rewrite Forall_forall in Fk0. apply Fk0 in I. destruct I.
      + destruct Hlc as [->|(t & ->)]; [destruct I|destruct I as [I|[]]; discriminate]. }
  destruct Hc as (lc & -> & Nl).
  set (l := lc ++ lk' ++ EvSign k (ECDSA SHA256) :: map (fun u => EvTsa u sg) (cp_tsas (sg_ctx s))).
  assert (Hl : hl = h ++ l) by (rewrite A; unfold l; rewrite <- !app_assoc; reflexivity).
  apply C35_assembled_bundle in F. destruct F as (_ & Be & _ & Vc & _ & _ & Ms & En & _).
  exists l, req, cert, sg, (mkEnvMsg (st_contents st) ENVELOPE_TYPE [sg]).
  split; [rewrite Hh, Hl, <- app_assoc; reflexivity|]. split.
  { intros r I. unfold l in I. apply in_app_or in I. destruct I as [I|I]; [eapply Nl; eassumption|].
    apply in_app_or in I. destruct I as [I|[I|I]]; [|discriminate|].
    - rewrite Forall_forall in Fk'. apply Fk' in I. destruct I.
    - apply in_map_iff in I. destruct I as (u & Q & _). discriminate. }
  split; [reflexivity|]. split.
  { unfold submits_envelope. destruct (cp_rekor (sg_ctx s)) as [url|url]; cbn [build_dsse_request] in Rq.
    - unfold build_dsse_request_v1 in Rq. cbn [env_inner] in Rq. unfold pem_b64. congruence.
    - unfold build_dsse_request_v2, envelope_pae in Rq. rewrite !b64decode_b64encode in Rq. cbn [env_inner env_signature em_type em_payload] in Rq.
      inv Rq d Hd. inv Rq ah Hah. destruct ah as [alg hsh]. rewrite D in Rq. cbn [bind] in Rq. rewrite !b64decode_b64encode in Rq. cbn [bind] in Rq.
      exists d, alg, hsh, p. cbn [em_type em_payload]. repeat split; auto. congruence. }
  split; [assumption|]. split; [assumption|]. split; [assumption|]. rewrite Be, <- Hl. exact E.
Qed.

(** ** C41: timestamp authorities *)

(** The timestamps of a bundle are those of the authorities that answered, in order; authorities
    that failed are skipped. *)
Theorem C41_bundle_timestamps : forall libs out s o h h' b,
  run_op libs out s o h = (h', Ok b) ->
  exists sg h1 hl rs, signature_of b sg /\
    asked libs out sg (cp_tsas (sg_ctx s)) h1 rs hl /\
    (forall e, In (Raise e) rs -> e = ETimestamp) /\
    vm_timestamps (bm_vm (b_inner b)) = map tsr_raw (successes rs).
Proof.
  intros libs out s o h h' b H. destruct o as [i|st]; cbn [run_op] in H.
  - apply sign_artifact_inv in H.
    destruct H as (cert & h1 & k & h2 & digest & sg & req & rs & hl & e & C & K & D & L & Sg & Rq & A & T & Hh & E & F).
    apply C35_assembled_bundle in F. destruct F as (_ & _ & _ & _ & _ & Ts & Ms & En & _).
    exists sg; eexists; exists hl, rs. split; [|eauto]. unfold signature_of. rewrite En. cbn [content_env].
    eexists. split; [exact Ms|]. reflexivity.
  - apply sign_dsse_inv in H.
    destruct H as (cert & h1 & k & h2 & p & sg & req & rs & hl & e & C & K & D & Sg & Ns & Rq & A & T & Hh & E & F).
    apply C35_assembled_bundle in F. destruct F as (_ & _ & _ & _ & _ & Ts & Ms & En & _).
    exists sg; eexists; exists hl, rs. split; [|eauto]. unfold signature_of. rewrite En. cbn [content_env env_inner em_sigs]. auto.
Qed.

(** Whatever subset of the authorities fails, the outcome is that of submitting the entry and
    assembling the bundle with the timestamps that were obtained. *)
Theorem C41_failures_are_skipped : forall libs out s cert c req h,
  exists rs hl, asked libs out (content_signature c) (cp_tsas (sg_ctx s)) h rs hl /\
  ((forall e, In (Raise e) rs -> e = ETimestamp) ->
   finalize_sign libs out s cert c req h =
   (hl ++ [EvLog req], let* e := log_answer libs out (sg_ctx s) hl req in
                       from_parts_ (l_env libs) cert c e (Some (successes rs)))).
Proof.
  intros libs out s cert c req h. destruct (asked_total libs out (cp_tsas (sg_ctx s)) (content_signature c) h) as (rs & hl & A).
  exists rs, hl. split; [assumption|]. intros T. apply finalize_eq; assumption.
Qed.

(** ... which succeeds if the entry has a promise or some authority answered ... *)
Theorem C41_some_time_suffices : forall libs out s cert c req h rs hl e,
  reads_back (l_env libs) cert -> c <> C_none ->
  asked libs out (content_signature c) (cp_tsas (sg_ctx s)) h rs hl ->
  (forall x, In (Raise x) rs -> x = ETimestamp) ->
  (forall t, In t (successes rs) -> exists t', e_decode_tsr (l_env libs) (tsr_raw t) = Ok t') ->
  log_answer libs out (sg_ctx s) hl req = Ok e ->
  (exists ip text, le_proof e = Some ip /\ ip_checkpoint ip = Some text) ->
  In (le_version e) [s2l "0.0.1"; s2l "0.0.2"] ->
  (le_promise e <> None \/ exists t, In (Ok t) rs) ->
  exists b, finalize_sign libs out s cert c req h = (hl ++ [EvLog req], Ok b) /\ b_cert b = cert /\ b_entry b = e.
Proof.
  intros libs out s cert c req h rs hl e R N A T Dec E P V Tm.
  destruct (C35_assembling_succeeds (l_env libs) cert c e (successes rs) R N P V Dec) as (b & B & Bc & Be).
  { destruct Tm as [Tm|(t & I)]; [left; assumption|right]. intros Q.
    assert (I' : In t (successes rs)) by (apply in_flat_map; exists (Ok t); split; [assumption|left; reflexivity]).
    rewrite Q in I'. destruct I'. }
  exists b. split; [|auto]. rewrite (finalize_eq libs out s cert c req h rs hl A T). unfold log_answer in E. rewrite E. cbn [bind]. rewrite B. reflexivity.
Qed.

(** ... and fails with InvalidBundle if there is neither. *)
Theorem C41_no_time_is_an_error : forall libs out s cert c req h rs hl e,
  reads_back (l_env libs) cert -> c <> C_none ->
  asked libs out (content_signature c) (cp_tsas (sg_ctx s)) h rs hl ->
  (forall r, In r rs -> r = Raise ETimestamp) ->
  log_answer libs out (sg_ctx s) hl req = Ok e ->
  (exists ip text, le_proof e = Some ip /\ ip_checkpoint ip = Some text) ->
  In (le_version e) [s2l "0.0.1"; s2l "0.0.2"] ->
  le_promise e = None ->
  finalize_sign libs out s cert c req h = (hl ++ [EvLog req], Raise EInvalidBundle).
Proof.
  intros libs out s cert c req h rs hl e R N A T E (ip & text & P1 & P2) V Np.
  assert (Su : successes rs = nil).
  { clear A. induction rs as [|r rs IH]; [reflexivity|]. cbn. rewrite (T r (or_introl eq_refl)). apply IH. intros r' I. apply T. right. assumption. }
  rewrite (finalize_eq libs out s cert c req h rs hl A).
  2:{ intros x I. apply T in I. congruence. }
  unfold log_answer in E. rewrite E. cbn [bind]. rewrite Su. f_equal. unfold from_parts_. cbn [map_res bind].
  assert (Hc : exists ms en, match c with C_msg s0 => Ok (Some s0, None) | C_env e0 => Ok (None, Some (env_inner e0)) | C_none => Raise EAttribute end
               = Ok (ms, en)) by (destruct c; eauto; congruence).
  destruct Hc as (ms & en & ->). cbn [bind]. rewrite b64decode_b64encode. cbn [bind]. unfold make_bundle, bundle_leaf.
  cbn [bm_media bm_vm vm_entries vm_cert length Nat.eqb negb raise_if bind index_list nth_error].
  replace (str_eqb BUNDLE_0_3 BUNDLE_0_1) with false by reflexivity.
  replace (str_eqb BUNDLE_0_3 BUNDLE_0_3) with true by reflexivity.
  rewrite !orb_true_r. cbn [orb negb raise_if bind]. unfold reads_back in R. rewrite R. cbn [bind].
  assert (Vb : str_eqb (le_version e) (s2l "0.0.1") || str_eqb (le_version e) (s2l "0.0.2") = true).
  { apply orb_true_iff. rewrite !str_eqb_spec. destruct V as [<-|[<-|[]]]; auto. }
  rewrite Vb. cbn [negb raise_if bind]. unfold make_entry, entry_validate. rewrite P1, P2. cbn [bind raise_if]. rewrite ?P1, ?P2, ?Np. cbn [raise_if bind].
  reflexivity.
Qed.

(** ** C38: keys and certificates *)

(** A caching signer signs with the key for which it obtained its certificate. *)
Theorem C38_caching_signer : forall libs out tok ctx h0 h1 s,
  make_signer libs out tok ctx true h0 = (h1, Ok s) ->
  forall o h h' b, run_op libs out s o h = (h', Ok b) ->
  exists k hc c chain hs data,
    ca_answer libs out ctx (it_raw tok) hc (sk_pub k) = Ok (c, chain) /\
    In (EvCsr (cp_fulcio ctx) (mkFulcioRequest (mkCsr (sk_pub k)) (it_raw tok))) h1 /\
    vm_cert (bm_vm (b_inner b)) = Some (c_der c) /\
    match o with
    | Op_artifact i => data = h_digest (sha256_digest (l_env libs) i) /\
        exists alg, bm_msig (b_inner b) = Some (mkMsgSig alg (o_sign out hs k (ECDSA_prehashed SHA256) data))
    | Op_dsse st => pae (s2l "application/vnd.in-toto+json") (st_contents st) = Ok data /\
        exists m, bm_env (b_inner b) = Some m /\ em_payload m = st_contents st /\ em_sigs m = [o_sign out hs k (ECDSA SHA256) data]
    end.
Proof.
  intros libs out tok ctx h0 h1 s Hs o h h' b H.
  apply make_signer_cached in Hs. destruct Hs as (c & _ & Cx & Ky & Ce & Sc).
  apply signer_cert_fresh in Sc; [|reflexivity]. cbn [sg_token sg_ctx sg_key] in Sc.
  destruct Sc as (k & hk & hr & chain & t & kr & _ & Pk & Hr & Fp & _ & Hh1 & _ & _).
  apply private_key_ok in Pk. cbn [sg_key] in Pk. destruct Pk as [Hhk ->].
  set (k := mkPriv (length h0) (o_pub out h0)) in *.
  assert (In1 : In (EvCsr (cp_fulcio ctx) (mkFulcioRequest (mkCsr (sk_pub k)) (it_raw tok))) h1).
  { rewrite Hh1, Hr. apply in_or_app. left. apply in_or_app. right. left. reflexivity. }
  destruct o as [i|st]; cbn [run_op] in H.
  - apply sign_artifact_inv in H.
    destruct H as (cert & h1' & k' & h2 & digest & sg & req & rs & hl & e & C & K & D & L & Sg & Rq & A & T & Hh & E & F).
    rewrite (signer_cert_cached libs out s c h Ce) in C.
    assert (cert = c) by (destruct (c_not_after c <? o_clock out h)%Z; congruence). subst cert.
    apply private_key_ok in K. rewrite Ky in K. destruct K as [-> ->].
    apply C35_assembled_bundle in F. destruct F as (_ & _ & _ & Vc & _ & _ & Ms & _ & _).
    exists k, hk, c, chain, h1', digest. split; [exact Fp|]. split; [assumption|]. split; [assumption|].
    rewrite D. split; [reflexivity|]. rewrite Ms. cbn [content_msig]. exists (Some (HA_SHA2_256, digest)). rewrite Sg. reflexivity.
  - apply sign_dsse_inv in H.
    destruct H as (cert & h1' & k' & h2 & p & sg & req & rs & hl & e & C & K & D & Sg & Ns & Rq & A & T & Hh & E & F).
    rewrite (signer_cert_cached libs out s c h Ce) in C.
    assert (cert = c) by (destruct (c_not_after c <? o_clock out h)%Z; congruence). subst cert.
    apply private_key_ok in K. rewrite Ky in K. destruct K as [-> ->].
    apply C35_assembled_bundle in F. destruct F as (_ & _ & _ & Vc & _ & _ & _ & En & _).
    exists k, hk, c, chain, h1', p. split; [exact Fp|]. split; [assumption|]. split; [assumption|].
    split; [exact D|]. rewrite En. cbn [content_env env_inner]. eexists. split; [reflexivity|]. cbn [em_payload em_sigs]. rewrite <- Sg. auto.
Qed.

(** Expected: a signer without caching does so, too.  Refuted, for every bundle it ever makes: it
    generates one key for the certificate request and another one to sign, so that no verifier accepts
    the bundle.  (Signatures verify under one key only, and generated keys differ.) *)
Definition one_key_only (env : Env) (out : Outside) : Prop :=
  forall h k s d pk, e_sig_verify env s pk (o_sign out h k s d) d = Ok tt -> pk_spki pk = pk_spki (sk_pub k).
Definition fresh_keys (out : Outside) : Prop :=
  forall h1 h2, length h1 <> length h2 -> pk_spki (o_pub out h1) <> pk_spki (o_pub out h2).
Definition certifies (libs : SignLibs) (out : Outside) (ctx : ContextParts) (token : str) : Prop :=
  forall h key c chain, ca_answer libs out ctx token h key = Ok (c, chain) -> reads_back (l_env libs) c /\ c_pubkey c = Ok key.

Theorem C38_without_caching_refuted : forall libs out tok ctx,
  one_key_only (l_env libs) out -> fresh_keys out -> certifies libs out ctx (it_raw tok) ->
  forall h0 h1 s, make_signer libs out tok ctx false h0 = (h1, Ok s) ->
  (forall i h h' b, sign_artifact libs out s i h = (h', Ok b) ->
     forall ps now v p, verify_artifact (l_env libs) ps now v i b p <> Ok tt) /\
  (forall st h h' b, sign_dsse libs out s st h = (h', Ok b) ->
     forall ps now v p r, verify_dsse (l_env libs) ps now v b p <> Ok r).
Proof.
  intros libs out tok ctx O1 Fk Ce h0 h1 s Hs. apply make_signer_uncached in Hs. destruct Hs as [-> ->].
  set (s := mkSigner tok ctx None None).
  assert (Key : forall h h1 cert k h2, signer_cert libs out s h = (h1, Ok cert) -> private_key out s h1 = (h2, Ok k) ->
     exists key, c_pubkey cert = Ok key /\ reads_back (l_env libs) cert /\ pk_spki key <> pk_spki (sk_pub k)).
  { intros h h1 cert k h2 C K. apply signer_cert_fresh in C; [|reflexivity].
    destruct C as (k' & hk & hr & chain & t & kr & _ & Pk & Hr & Fp & _ & Hh1 & _ & _).
    apply private_key_ok in Pk. cbn [sg_key s] in Pk. destruct Pk as [Hhk ->]. apply private_key_ok in K. cbn [sg_key s] in K. destruct K as [_ ->].
    destruct (Ce hk _ _ _ Fp) as [Rb Pub]. eexists. split; [exact Pub|]. split; [assumption|]. cbn [sk_pub].
    apply Fk. rewrite Hh1, Hr, Hhk, !app_length. cbn. lia. }
  split.
  - intros i h h' b H ps now v p V. apply sign_artifact_inv in H.
    destruct H as (cert & h1' & k & h2 & digest & sg & req & rs & hl & e & C & K & D & L & Sg & Rq & A & T & Hh & E & F).
    destruct (Key _ _ _ _ _ C K) as (key & Pub & Rb & Ne).
    apply C35_assembled_bundle in F. destruct F as (_ & _ & _ & _ & Pc & _ & Ms & _ & _).
    assert (b_cert b = cert) by (unfold reads_back in Rb; congruence).
    apply C24_accepted_artifact in V. destruct V as (_ & ms & key' & digest' & Ms' & D' & _ & Pub' & Vs & _).
    rewrite Ms in Ms'. cbn [content_msig] in Ms'. assert (ms_signature ms = sg) by (inversion Ms'; reflexivity).
    assert (digest' = digest) by congruence. subst digest'. assert (key' = key) by congruence. subst key'.
    apply Ne. rewrite H0 in Vs. rewrite Sg in Vs. eapply O1. exact Vs.
  - intros st h h' b H ps now v p r V. apply sign_dsse_inv in H.
    destruct H as (cert & h1' & k & h2 & q & sg & req & rs & hl & e & C & K & D & Sg & Ns & Rq & A & T & Hh & E & F).
    destruct (Key _ _ _ _ _ C K) as (key & Pub & Rb & Ne).
    apply C35_assembled_bundle in F. destruct F as (_ & _ & _ & _ & Pc & _ & _ & En & _).
    assert (b_cert b = cert) by (unfold reads_back in Rb; congruence).
    destruct r as [ty pl]. apply dsse_accepted_iff in V. destruct V as (_ & m & sg' & key' & x & Em & Ety & Epl & Es & _ & Pub' & Px & Vs & _).
    rewrite En in Em. cbn [content_env env_inner] in Em. inversion Em; subst m. cbn [em_sigs em_type em_payload] in *.
    assert (sg' = sg) by congruence. assert (x = q) by (unfold ENVELOPE_TYPE in *; congruence). assert (key' = key) by congruence. subst sg' x key'.
    apply Ne. rewrite Sg in Vs. eapply O1. exact Vs.
Qed.

(** ** C39: lifetimes *)

Lemma last_clock_gen : forall l a, fold_left (fun a ev => match ev with EvClock t => Some t | _ => a end) l a =
  match last_clock l with Some t => Some t | None => a end.
Proof.
  unfold last_clock. induction l as [|ev l IH]; intros a; [reflexivity|]. cbn [fold_left].
  rewrite IH. rewrite (IH (match ev with EvClock t => Some t | _ => None end)).
  destruct (fold_left _ l None); [reflexivity|]. destruct ev; reflexivity.
Qed.
Lemma last_clock_app : forall a b, last_clock (a ++ b) = match last_clock b with Some t => Some t | None => last_clock a end.
Proof. intros a b. unfold last_clock at 1. rewrite fold_left_app. apply last_clock_gen. Qed.
Lemma last_clock_none : forall l, (forall t, ~ In (EvClock t) l) -> last_clock l = None.
Proof.
  induction l as [|ev l IH]; intros H; [reflexivity|]. change (ev :: l) with ([ev] ++ l). rewrite last_clock_app, IH.
  - destruct ev; try reflexivity. exfalso. apply (H t). left. reflexivity.
  - intros t I. apply (H t). right. assumption.
Qed.

(** every event [ev] with [Q ev] comes after a clock reading with [P], within the list *)
Definition guarded (Q : event -> Prop) (P : event -> time -> Prop) (l : history) : Prop :=
  forall a ev b, l = a ++ ev :: b -> Q ev -> exists t, last_clock a = Some t /\ P ev t.

Lemma split_app : forall (l1 l2 a b : history) ev, l1 ++ l2 = a ++ ev :: b ->
  (exists b', l1 = a ++ ev :: b' /\ b = b' ++ l2) \/ (exists a', l2 = a' ++ ev :: b /\ a = l1 ++ a').
Proof.
  induction l1 as [|x l1 IH]; intros l2 a b ev H; cbn in H.
  - right. exists a. auto.
  - destruct a as [|y a]; cbn in H; inversion H; subst.
    + left. exists l1. auto.
    + destruct (IH _ _ _ _ H2) as [(b' & -> & ->)|(a' & -> & ->)]; [left; exists b'; auto|right; exists a'; auto].
Qed.

Lemma guarded_app : forall Q P l1 l2, guarded Q P l1 -> guarded Q P l2 -> guarded Q P (l1 ++ l2).
Proof.
  intros Q P l1 l2 G1 G2 a ev b E Qe. apply split_app in E. destruct E as [(b' & E & _)|(a' & E & ->)].
  - eapply G1; eassumption.
  - destruct (G2 _ _ _ E Qe) as (t & L & Pt). exists t. rewrite last_clock_app, L. auto.
Qed.
Lemma guarded_none : forall Q P l, (forall ev, In ev l -> ~ Q ev) -> guarded Q P l.
Proof. intros Q P l H a ev b -> Qe. exfalso. apply (H ev); [apply in_or_app; right; left; reflexivity|assumption]. Qed.
Lemma guarded_clock : forall Q (P : event -> time -> Prop) t l, ~ Q (EvClock t) -> (forall ev, In ev l -> Q ev -> P ev t) -> (forall x, ~ In (EvClock x) l) -> guarded Q P (EvClock t :: l).
Proof.
  intros Q P t l N Pt Nc a ev b E Qe. destruct a as [|x a]; cbn in E; inversion E; subst; [contradiction|].
  exists t. split; [|apply Pt; [apply in_or_app; right; left; reflexivity|assumption]]. change (EvClock t :: a) with ([EvClock t] ++ a). rewrite last_clock_app, last_clock_none; [reflexivity|].
  intros y I. apply (Nc y). apply in_or_app. left. assumption.
Qed.
Lemma guarded_tail : forall Q P l1 l2, guarded Q P l1 -> (forall ev, In ev l2 -> ~ Q ev) -> guarded Q P (l1 ++ l2).
Proof. intros. apply guarded_app; [assumption|]. apply guarded_none. assumption. Qed.

Definition is_request (ev : event) : Prop := match ev with EvCsr _ _ => True | _ => False end.

Lemma uses_not_request : forall l, Forall uses_certificate l -> forall ev, In ev l -> ~ is_request ev.
Proof. intros l F ev I. rewrite Forall_forall in F. apply F in I. destruct ev; cbn in *; tauto. Qed.
Lemma key_not_request : forall l, Forall is_key l -> forall ev, In ev l -> ~ is_request ev.
Proof. intros l F ev I. rewrite Forall_forall in F. apply F in I. destruct ev; cbn in *; tauto. Qed.
Lemma uses_no_clock : forall l, Forall uses_certificate l -> forall t, ~ In (EvClock t) l.
Proof. intros l F t I. rewrite Forall_forall in F. apply F in I. exact I. Qed.
Lemma key_no_clock : forall l, Forall is_key l -> forall t, ~ In (EvClock t) l.
Proof. intros l F t I. rewrite Forall_forall in F. apply F in I. exact I. Qed.

Definition token_valid (tok : IdentityToken) (ev : event) (t : time) : Prop :=
  token_in_validity_period tok t = Ok true /\ forall url r, ev = EvCsr url r -> fr_bearer r = it_raw tok.

Lemma fresh_cert_guarded : forall libs out s h h' r, sg_cert s = None -> signer_cert libs out s h = (h', r) ->
  exists l, h' = h ++ l /\ guarded is_request (token_valid (sg_token s)) l.
Proof.
  intros libs out s h h' r E H. destruct (signer_cert_history libs out s h h' r E H) as (l & -> & Hl).
  exists (EvClock (o_clock out h) :: l). split; [reflexivity|]. destruct Hl as [[-> _]|(lk & req & lc & -> & Fk & B & V & Hlc)].
  - apply guarded_none. intros ev [<-|[]] [].
  - change (EvClock (o_clock out h) :: lk ++ EvCsr (cp_fulcio (sg_ctx s)) req :: lc) with
      ((EvClock (o_clock out h) :: lk) ++ [EvCsr (cp_fulcio (sg_ctx s)) req] ++ lc). rewrite app_assoc. apply guarded_tail.
    + change ((EvClock (o_clock out h) :: lk) ++ [EvCsr (cp_fulcio (sg_ctx s)) req]) with
        (EvClock (o_clock out h) :: lk ++ [EvCsr (cp_fulcio (sg_ctx s)) req]).
      apply guarded_clock; [intros []| |].
      { intros ev I Qe. split; [exact V|]. intros url r0 ->. apply in_app_or in I. destruct I as [I|[I|[]]]; [|inversion I; subst; exact B].
        exfalso. exact (key_not_request _ Fk _ I Qe). }
      intros x I. apply in_app_or in I. destruct I as [I|[I|[]]]; [|discriminate].
      eapply key_no_clock; eassumption.
    + intros ev I. destruct Hlc as [->|(t & ->)]; [destruct I|]. destruct I as [<-|[]]. intros [].
Qed.

Lemma op_guarded : forall libs out s o h h' r, run_op libs out s o h = (h', r) ->
  exists l, h' = h ++ l /\ guarded is_request (token_valid (sg_token s)) l.
Proof.
  intros libs out s o h h' r H. apply run_op_history in H.
  assert (C : forall h1 rc, signer_cert libs out s h = (h1, rc) -> exists l, h1 = h ++ l /\ guarded is_request (token_valid (sg_token s)) l).
  { intros h1 rc C. destruct (sg_cert s) as [c|] eqn:E.
    - rewrite (signer_cert_cached libs out s c h E) in C. exists [EvClock (o_clock out h)]. split; [congruence|].
      apply guarded_none. intros ev [<-|[]] [].
    - eapply fresh_cert_guarded; eassumption. }
  destruct H as [(e & X & _)|(cert & h1 & lk & lu & X & -> & Fk & _ & Fu)].
  - eapply C; eassumption.
  - destruct (C _ _ X) as (l & -> & G). exists (l ++ lk ++ lu). rewrite <- app_assoc. split; [reflexivity|].
    apply guarded_tail; [assumption|]. intros ev I. apply in_app_or in I. destruct I as [I|I];
      [eapply key_not_request|eapply uses_not_request]; eassumption.
Qed.

(** Certificates are only requested with a valid token: in every session, whatever the operations,
    the clock and the services do, each request carries the signer's token and comes after a clock
    reading, the latest one, at which that token was valid. *)
Theorem C39_requests_have_valid_tokens : forall libs out tok ctx cache os h h' rs,
  session libs out tok ctx cache os h = (h', rs) ->
  exists l, h' = h ++ l /\
  forall a url r b, l = a ++ EvCsr url r :: b ->
    fr_bearer r = it_raw tok /\
    exists t, last_clock a = Some t /\ token_in_validity_period tok t = Ok true.
Proof.
  intros libs out tok ctx cache os h h' rs H.
  assert (G : exists l, h' = h ++ l /\ guarded is_request (token_valid tok) l).
  { unfold session in H. destruct (make_signer libs out tok ctx cache h) as [h1 r1] eqn:Mk.
    assert (G1 : exists l, h1 = h ++ l /\ guarded is_request (token_valid tok) l).
    { unfold make_signer in Mk. destruct cache.
      - unfold mbind, generate_key, step in Mk.
        destruct (signer_cert libs out (mkSigner tok ctx (Some (mkPriv (length h) (o_pub out h))) None)
                    (h ++ [EvKey (mkPriv (length h) (o_pub out h))])) as [h2 r2] eqn:Sc.
        apply fresh_cert_guarded in Sc; [|reflexivity]. destruct Sc as (l & -> & G). cbn [sg_token] in G.
        assert (h1 = (h ++ [EvKey (mkPriv (length h) (o_pub out h))]) ++ l) by (destruct r2; unfold ret in Mk; congruence).
        exists (EvKey (mkPriv (length h) (o_pub out h)) :: l). split; [subst h1; rewrite <- app_assoc; reflexivity|].
        apply (guarded_app _ _ [EvKey (mkPriv (length h) (o_pub out h))]); [|assumption]. apply guarded_none. intros ev [<-|[]] [].
      - unfold ret in Mk. exists nil. split; [inversion Mk; rewrite app_nil_r; reflexivity|]. apply guarded_none. intros ev []. }
    destruct r1 as [s|e]; [|inversion H; subst; assumption].
    assert (Tk : sg_token s = tok).
    { destruct cache; [apply make_signer_cached in Mk; destruct Mk as (c & Tk & _); exact Tk|].
      apply make_signer_uncached in Mk. destruct Mk as [_ ->]. reflexivity. }
    destruct G1 as (l1 & -> & G1). clear Mk.
    assert (Go : forall os h h' rs, run_ops libs out s os h = (h', rs) -> exists l, h' = h ++ l /\ guarded is_request (token_valid tok) l).
    { clear H. induction os0 as [|o os0 IH]; intros g g' rs0 R; cbn [run_ops] in R.
      - inversion R; subst. exists nil. rewrite app_nil_r. split; [reflexivity|]. apply guarded_none. intros ev [].
      - destruct (run_op libs out s o g) as [g1 r] eqn:Ro. destruct (run_ops libs out s os0 g1) as [g2 rs1] eqn:Rs.
        inversion R; subst g2 rs0. apply op_guarded in Ro. destruct Ro as (la & -> & Ga). rewrite Tk in Ga.
        apply IH in Rs. destruct Rs as (lb & -> & Gb). exists (la ++ lb). rewrite <- app_assoc. split; [reflexivity|]. apply guarded_app; assumption. }
    apply Go in H. destruct H as (l2 & -> & G2). exists (l1 ++ l2). rewrite <- app_assoc. split; [reflexivity|]. apply guarded_app; assumption. }
  destruct G as (l & -> & G). exists l. split; [reflexivity|]. intros a url r b E. destruct (G a _ b E I) as (t & L & V & B).
  split; [eapply B; reflexivity|]. exists t. auto.
Qed.

(** A caching signer never signs, asks for a timestamp or submits to the log unless its
    certificate had not expired at the latest clock reading. *)
Theorem C39_certificate_not_expired : forall libs out tok ctx h0 h s,
  make_signer libs out tok ctx true h0 = (h, Ok s) ->
  exists c, sg_cert s = Some c /\
  forall os h' rs, run_ops libs out s os h = (h', rs) ->
  exists l, h' = h ++ l /\
  forall a ev b, l = a ++ ev :: b -> uses_certificate ev ->
    exists t, last_clock a = Some t /\ (t <= c_not_after c)%Z.
Proof.
  intros libs out tok ctx h0 h s Mk. apply make_signer_cached in Mk. destruct Mk as (c & _ & _ & Ky & Ce & _).
  exists c. split; [assumption|]. intros os h' rs H.
  assert (Go : forall os h h' rs, run_ops libs out s os h = (h', rs) ->
     exists l, h' = h ++ l /\ guarded uses_certificate (fun _ t => t <= c_not_after c)%Z l).
  { clear H. induction os0 as [|o os0 IH]; intros g g' rs0 R; cbn [run_ops] in R.
    - inversion R; subst. exists nil. rewrite app_nil_r. split; [reflexivity|]. apply guarded_none. intros ev [].
    - destruct (run_op libs out s o g) as [g1 r] eqn:Ro. destruct (run_ops libs out s os0 g1) as [g2 rs1] eqn:Rs.
      inversion R; subst g2 rs0.
      assert (Ga : exists la, g1 = g ++ la /\ guarded uses_certificate (fun _ t => t <= c_not_after c)%Z la).
      { apply run_op_history in Ro. rewrite (signer_cert_cached libs out s c g Ce) in Ro.
        destruct Ro as [(e & X & _)|(cert & h1 & lk & lu & X & -> & Fk & Nk & Fu)].
        - exists [EvClock (o_clock out g)]. split; [congruence|]. apply guarded_none. intros ev [<-|[]] [].
        - assert (lk = nil) by (apply Nk; congruence). subst lk. cbn [app].
          destruct (Z.ltb_spec (c_not_after c) (o_clock out g)) as [Lt|Ge]; [discriminate|].
          exists (EvClock (o_clock out g) :: lu). split.
          + assert (h1 = g ++ [EvClock (o_clock out g)]) by congruence. subst h1. rewrite <- app_assoc. reflexivity.
          + apply guarded_clock; [intros []|intros; exact Ge|apply uses_no_clock; assumption]. }
      destruct Ga as (la & -> & Ga). apply IH in Rs. destruct Rs as (lb & -> & Gb). exists (la ++ lb). rewrite <- app_assoc.
      split; [reflexivity|]. apply guarded_app; assumption. }
  apply Go in H. exact H.
Qed.

(** After that, operations raise ExpiredCertificate and do nothing else. *)
Theorem C39_expired_certificate : forall libs out s c o h,
  sg_cert s = Some c -> (c_not_after c < o_clock out h)%Z ->
  run_op libs out s o h = (h ++ [EvClock (o_clock out h)], Raise EExpiredCertificate).
Proof.
  intros libs out s c o h E Lt. apply Z.ltb_lt in Lt.
  destruct o; cbn [run_op]; unfold sign_artifact, sign_dsse, mbind; rewrite (signer_cert_cached libs out s c h E), Lt; reflexivity.
Qed.

(** With an expired token, no signer is made by a caching context, and operations of a signer
    without caching raise ExpiredIdentity; nothing is requested or submitted. *)
Theorem C39_expired_token : forall libs out tok ctx h,
  (token_in_validity_period tok (o_clock out (h ++ [EvKey (mkPriv (length h) (o_pub out h))])) = Ok false ->
   exists k t, make_signer libs out tok ctx true h = (h ++ [EvKey k; EvClock t], Raise EExpiredIdentity)) /\
  (token_in_validity_period tok (o_clock out h) = Ok false ->
   forall o, run_op libs out (mkSigner tok ctx None None) o h = (h ++ [EvClock (o_clock out h)], Raise EExpiredIdentity)).
Proof.
  intros libs out tok ctx h. split.
  - intros V. unfold make_signer, mbind, generate_key, step, signer_cert. cbn [sg_cert sg_token]. unfold mbind, read_clock, step, lift.
    rewrite V. cbn [negb]. eexists; eexists. rewrite <- app_assoc. reflexivity.
  - intros V o. destruct o; cbn [run_op]; unfold sign_artifact, sign_dsse, mbind, signer_cert; cbn [sg_cert sg_token];
      unfold mbind, read_clock, step, lift; rewrite V; reflexivity.
Qed.

Lemma requests_app : forall a b, requests (a ++ b) = requests a + requests b.
Proof. induction a as [|ev a IH]; intros b; [reflexivity|]. destruct ev; cbn; rewrite ?IH; reflexivity. Qed.
Lemma requests_none : forall l, (forall ev, In ev l -> ~ is_request ev) -> requests l = 0.
Proof.
  induction l as [|ev l IH]; intros H; [reflexivity|]. assert (N := H ev (or_introl eq_refl)).
  destruct ev; cbn in *; try (apply IH; intros ev' I; apply H; right; assumption). tauto.
Qed.

(** A caching signer requests at most one certificate in its life, all in its construction. *)
Theorem C39_one_request : forall libs out tok ctx os h h' rs,
  session libs out tok ctx true os h = (h', rs) ->
  exists l, h' = h ++ l /\ requests l <= 1.
Proof.
  intros libs out tok ctx os h h' rs H. unfold session in H.
  destruct (make_signer libs out tok ctx true h) as [h1 r1] eqn:Mk.
  assert (G1 : exists l, h1 = h ++ l /\ requests l <= 1).
  { unfold make_signer in Mk. unfold mbind, generate_key, step in Mk.
    destruct (signer_cert libs out (mkSigner tok ctx (Some (mkPriv (length h) (o_pub out h))) None)
                (h ++ [EvKey (mkPriv (length h) (o_pub out h))])) as [h2 r2] eqn:Sc.
    apply signer_cert_history in Sc; [|reflexivity]. destruct Sc as (l & Hh2 & Hl).
    assert (h1 = h2) by (destruct r2; unfold ret in Mk; congruence). subst h1 h2.
    eexists. split; [rewrite <- app_assoc; reflexivity|]. cbn [app requests].
    destruct Hl as [[-> _]|(lk & req & lc & -> & Fk & _ & _ & Hlc)]; [cbn; lia|].
    rewrite requests_app, (requests_none lk) by (eapply key_not_request; eassumption). cbn [requests].
    destruct Hlc as [->|(t & ->)]; cbn; lia. }
  destruct r1 as [s|e]; [|inversion H; subst; assumption].
  apply make_signer_cached in Mk. destruct Mk as (c & _ & _ & Ky & Ce & _). destruct G1 as (l1 & -> & G1).
  assert (Go : forall os h h' rs, run_ops libs out s os h = (h', rs) -> exists l, h' = h ++ l /\ requests l = 0).
  { clear H. induction os0 as [|o os0 IH]; intros g g' rs0 R; cbn [run_ops] in R.
    - inversion R; subst. exists nil. rewrite app_nil_r. split; reflexivity.
    - destruct (run_op libs out s o g) as [g1 r] eqn:Ro. destruct (run_ops libs out s os0 g1) as [g2 rs1] eqn:Rs.
      inversion R; subst g2 rs0. apply run_op_history in Ro. rewrite (signer_cert_cached libs out s c g Ce) in Ro.
      assert (Ga : exists la, g1 = g ++ la /\ requests la = 0).
      { destruct Ro as [(e & X & _)|(cert & hh & lk & lu & X & -> & Fk & _ & Fu)].
        - exists [EvClock (o_clock out g)]. split; [congruence|reflexivity].
        - exists (EvClock (o_clock out g) :: lk ++ lu). split.
          + assert (hh = g ++ [EvClock (o_clock out g)]) by congruence. subst hh. rewrite <- app_assoc. reflexivity.
          + cbn [requests]. rewrite requests_app, (requests_none lk), (requests_none lu); [reflexivity| |];
              [eapply uses_not_request|eapply key_not_request]; eassumption. }
      destruct Ga as (la & -> & Ga). apply IH in Rs. destruct Rs as (lb & -> & Gb). exists (la ++ lb). rewrite <- app_assoc.
      split; [reflexivity|]. rewrite requests_app, Ga, Gb. reflexivity. }
  apply Go in H. destruct H as (l2 & -> & G2). exists (l1 ++ l2). rewrite <- app_assoc. split; [reflexivity|]. rewrite requests_app. lia.
Qed.

(** ** C37: what is signed verifies *)

Lemma last_in : forall (A : Type) (l : list A) d, l <> nil -> In (last l d) l.
Proof. induction l as [|x [|y l] IH]; intros d N; [congruence|left; reflexivity|]. right. apply IH. discriminate. Qed.

Lemma good_times : forall env now v p key c ct times,
  (forall t, in_validity c t -> exists ch, e_chain env (vf_fulcio v) t c = Ok ch /\ verify_sct env c (tl ch) ct = Ok tt) ->
  (forall t, In t times -> in_validity c t) -> good_certificate env now v p key c ->
  exists chains, Forall2 (fun t ch => e_chain env (vf_fulcio v) t c = Ok ch) times chains /\
    forall ch, In ch chains -> verify_sct env c (tl ch) ct = Ok tt.
Proof.
  intros env now v p key c ct times H V G. induction times as [|t times IH].
  - exists nil. split; [constructor|intros ch []].
  - destruct IH as (chs & F & S); [intros t' I; apply V; right; assumption|].
    destruct (H t (V t (or_introl eq_refl))) as (ch & E & Q). exists (ch :: chs). split; [constructor; assumption|].
    intros ch' [<-|I]; [assumption|auto].
Qed.

Lemma signed_accepted : forall libs out ctx ps now v p key cert c e sg h rs hl req b,
  let env := l_env libs in
  good_certificate env now v p key cert ->
  honest_log libs out ctx ps now v (in_validity cert) ->
  honest_tsas libs out ctx now v (in_validity cert) ->
  length (cp_tsas ctx) <= 32 ->
  asked libs out sg (cp_tsas ctx) h rs hl ->
  log_answer libs out ctx hl req = Ok e ->
  from_parts_ env cert c e (Some (successes rs)) = Ok b ->
  NoDup (vm_timestamps (bm_vm (b_inner b))) ->
  signature_of b sg ->
  b_cert b = cert /\ b_entry b = e /\ logged env ps req e /\ exists times, signer_accepted env now v b p times.
Proof.
  intros libs out ctx ps now v p key cert c e sg h rs hl req b env G Hl Ht L32 A E F Nd Sg.
  pose proof G as (Rb & Pk & Ex & Po & ct & Ck & Ch).
  destruct Hl as (rk & Rk & Hl). destruct (Hl _ _ _ E) as (Lg & Ev & Pr). clear Hl.
  destruct Ht as (cas & Tc & Ht).
  pose proof (C35_assembled_bundle _ _ _ _ _ _ F) as (Bm & Be & _ & _ & Pc & Ts & _).
  assert (Bc : b_cert b = cert) by (unfold reads_back in Rb; fold env in Rb; congruence).
  assert (Src : has_time_source env (b_inner b) (b_entry b)).
  { unfold from_parts_ in F. inv F ts' Hts. inv F me Hme. destruct me as [ms en]. inv F der Hder.
    apply C34_bundle_iff in F. destruct F as (Hi & _ & _ & _ & _ & S). rewrite Hi. exact S. }
  (* times of the timestamps *)
  assert (Tk : forall t, In t (successes rs) ->
    e_decode_tsr env (tsr_raw t) = Ok t /\ token_time env now cas sg t (Some (tsr_time t)) /\ in_validity cert (tsr_time t)).
  { intros t I. destruct (successes_in libs out _ _ _ _ _ _ A I) as (hu & u & Iu & R). exact (Ht hu u sg t Iu R). }
  assert (T1 : tsa_times env now (vf_root v) b (map tsr_time (successes rs))).
  { unfold tsa_times. rewrite Ts. destruct (successes rs) as [|t0 ts0] eqn:Es; [left; split; reflexivity|]. right.
    exists (t0 :: ts0), cas, sg. split; [discriminate|]. split.
    { clear - Tk. induction (t0 :: ts0) as [|t l IH]; constructor; [apply Tk; left; reflexivity|].
      apply IH. intros t' I. apply Tk. right. assumption. }
    split. { rewrite <- Es. pose proof (successes_length rs). pose proof (asked_length _ _ _ _ _ _ _ A). lia. }
    split; [rewrite <- Ts; assumption|]. split; [assumption|]. split.
    { destruct (Tk t0 (or_introl eq_refl)) as (_ & (_ & bf & ca & af & -> & _) & _). destruct bf; discriminate. }
    split; [assumption|].
    clear - Tk. induction (t0 :: ts0) as [|t l IH]; cbn [map]; constructor; [apply Tk; left; reflexivity|].
    apply IH. intros t' I. apply Tk. right. assumption. }
  assert (T2 : exists ts2, log_times (b_entry b) ts2 /\ (forall t, In t ts2 -> in_validity cert t) /\ (le_promise e <> None -> ts2 <> nil)).
  { rewrite Be. destruct (le_promise e) as [set|] eqn:Ep.
    - destruct (Pr set eq_refl) as (t & It & Nz & Rg & Va). exists [(t * 1000000)%Z]. split.
      + right. exists t, set. split; [assumption|]. split; [assumption|]. split; [assumption|].
        destruct req as [h1|m vs|dg s2 vf]; cbn [logged] in Lg.
        * destruct Lg as (K & V & _). auto.
        * destruct Lg as (K & V & _). auto.
        * destruct Lg as (_ & _ & Np & _). congruence.
      + split; [intros t' [<-|[]]; assumption|discriminate].
    - exists nil. split; [left; auto|]. split; [intros t []|congruence]. }
  destruct T2 as (ts2 & T2 & V2 & N2).
  set (times := map tsr_time (successes rs) ++ ts2).
  assert (Val : forall t, In t times -> in_validity cert t).
  { intros t I. apply in_app_or in I. destruct I as [I|I]; [|auto]. apply in_map_iff in I. destruct I as (t' & <- & I). apply Tk. assumption. }
  assert (Ne : times <> nil).
  { destruct Src as [S|(_ & S & _)].
    - rewrite Be in S. apply N2 in S. unfold times. intros Q. apply app_eq_nil in Q. tauto.
    - rewrite Ts in S. unfold times. intros Q. apply app_eq_nil in Q. destruct Q as [Q _]. apply map_eq_nil in Q. rewrite Q in S. apply S. reflexivity. }
  split; [assumption|]. split; [assumption|]. split; [assumption|]. exists times. unfold signer_accepted. rewrite Bc.
  split; [exists (map tsr_time (successes rs)), ts2; auto|]. split; [assumption|]. split.
  { destruct (good_times env now v p key cert ct times Ch Val G) as (chs & Fc & Sc).
    exists chs, ct. split; [assumption|]. split; [assumption|]. apply Sc. apply last_in. intros ->. inversion Fc. congruence. }
  split; [assumption|]. split; [assumption|]. split; [|exact Val]. exists rk. rewrite Be. auto.
Qed.

(** the certificate of a caching signer *)
Lemma caching_signer : forall libs out tok ctx h0 h1 s now v p,
  make_signer libs out tok ctx true h0 = (h1, Ok s) ->
  honest_ca libs out ctx (it_raw tok) now v p ->
  sg_ctx s = ctx /\ sg_key s = Some (mkPriv (length h0) (o_pub out h0)) /\
  exists c, sg_cert s = Some c /\ good_certificate (l_env libs) now v p (o_pub out h0) c.
Proof.
  intros libs out tok ctx h0 h1 s now v p Mk Ca.
  apply make_signer_cached in Mk. destruct Mk as (c & _ & Cx & Ky & Ce & Sc). split; [assumption|]. split; [assumption|].
  exists c. split; [assumption|]. apply signer_cert_fresh in Sc; [|reflexivity]. cbn [sg_token sg_ctx sg_key] in Sc.
  destruct Sc as (k & hk & hr & chain & t & kr & _ & Pk & _ & Fp & _). apply private_key_ok in Pk. cbn [sg_key] in Pk. destruct Pk as [_ ->].
  eapply Ca. exact Fp.
Qed.

Lemma p256_details : forall c key d, c_pubkey c = Ok key -> pk_kind key = KEc P256 -> get_key_details c = Ok d -> d = PKIX_ECDSA_P256_SHA_256.
Proof.
  intros c key d P K D. unfold get_key_details in D. rewrite P in D. cbn [bind] in D. inv D x Hx. rewrite K in D. congruence.
Qed.

(** what a signer with a certified key returns *)
Lemma good_signer_artifact : forall libs out ctx ps now v p s k c,
  sg_ctx s = ctx -> sg_key s = Some k -> sg_cert s = Some c ->
  good_certificate (l_env libs) now v p (sk_pub k) c -> pk_kind (sk_pub k) = KEc P256 ->
  honest_log libs out ctx ps now v (in_validity c) ->
  honest_tsas libs out ctx now v (in_validity c) ->
  sound_keys (l_env libs) out -> length (cp_tsas ctx) <= 32 ->
  forall i h h' b, sign_artifact libs out s i h = (h', Ok b) ->
  NoDup (vm_timestamps (bm_vm (b_inner b))) ->
  verify_artifact (l_env libs) ps now v i b p = Ok tt.
Proof.
  intros libs out ctx ps now v p s k0 c Cx Ky Ce G Kp Hl Ht (_ & Snd) L32 i h h' b H Nd.
  apply sign_artifact_inv in H.
  destruct H as (cert & h1' & k & h2 & digest & sg & req & rs & hl & e & C & K & D & L & Sg & Rq & A & T & Hh & E & F).
  rewrite (signer_cert_cached libs out s c h Ce) in C.
  assert (cert = c) by (destruct (c_not_after c <? o_clock out h)%Z; congruence). subst cert. clear C.
  apply private_key_ok in K. rewrite Ky in K. destruct K as [-> ->]. rewrite Cx in *.
  assert (So : signature_of b sg).
  { apply C35_assembled_bundle in F. destruct F as (_ & _ & _ & _ & _ & _ & Ms & En & _). unfold signature_of. rewrite En.
    cbn [content_env]. eexists. split; [exact Ms|reflexivity]. }
  destruct (signed_accepted libs out ctx ps now v p _ c _ e sg _ rs hl req b G Hl Ht L32 A E F Nd So) as (Bc & Be & Lg & times & Sa).
  pose proof (C35_assembled_bundle _ _ _ _ _ _ F) as (_ & _ & _ & _ & _ & _ & Ms & _ & _). cbn [content_msig] in Ms.
  destruct (Snd h1' k0 (ECDSA_prehashed SHA256) digest (or_intror eq_refl) Kp) as (_ & Sv).
  rewrite <- Sg in Sv.
  destruct G as (_ & Pk & _).
  eapply (C29_complete_artifacts_are_accepted (l_env libs) ps now v i b p times _ (sk_pub k0) digest); eauto.
  - cbn [ms_digest]. intros a d Q. congruence.
  - rewrite Bc. exact Pk.
  - cbn [ms_signature]. rewrite Be, Bc. unfold records_artifact.
    destruct (cp_rekor ctx) as [url|url]; cbn [build_hashed_rekord_request] in Rq.
    + unfold build_hashed_rekord_request_v1, as_hashedrekord_algorithm, as_prehashed in Rq. cbn [h_alg h_digest bind] in Rq.
      assert (Q : req = Req_h1 (mkH1 (s2l "0.0.1") (Some (b64encode sg)) (Some (pem_b64 c)) (Some (SHA256, hex digest)) 0))
        by (unfold pem_b64; congruence). subst req. cbn [logged] in Lg. destruct Lg as (Lk & Lv & Lp). split; [assumption|]. left. auto.
    + unfold build_hashed_rekord_request_v2 in Rq. rewrite !b64decode_b64encode in Rq. cbn [bind h_digest] in Rq.
      inv Rq d Hd. assert (Q : req = Req_v2 digest sg (V2_x509 (c_der c) d)) by congruence. subst req.
      cbn [logged] in Lg. destruct Lg as (Lk & Lv & _ & Lp). destruct (Lp _ _ eq_refl) as (alg & hsh & Gp & Lb).
      split; [assumption|]. right. split; [assumption|]. exists d. split; [assumption|].
      assert (d = PKIX_ECDSA_P256_SHA_256) by (eapply p256_details; eauto). subst d.
      unfold get_prehash in Gp. cbn in Gp. assert (alg = HA_SHA2_256) by congruence. subst alg. exact Lb.
Qed.

(** Everything a caching signer returns is accepted by every verifier that trusts the services
    used, whenever it is asked, provided that the services are honest: they certify the key of the
    request, record what is submitted and time-stamp what they are sent, within the certificate's
    validity. *)
Theorem C37_artifact : forall libs out tok ctx ps now v p h0 h1 s c,
  make_signer libs out tok ctx true h0 = (h1, Ok s) -> sg_cert s = Some c ->
  honest_ca libs out ctx (it_raw tok) now v p ->
  honest_log libs out ctx ps now v (in_validity c) ->
  honest_tsas libs out ctx now v (in_validity c) ->
  sound_keys (l_env libs) out -> length (cp_tsas ctx) <= 32 ->
  forall i h h' b, sign_artifact libs out s i h = (h', Ok b) ->
  NoDup (vm_timestamps (bm_vm (b_inner b))) ->
  verify_artifact (l_env libs) ps now v i b p = Ok tt.
Proof.
  intros libs out tok ctx ps now v p h0 h1 s c Mk Sc Ca Hl Ht Sk L32.
  destruct (caching_signer _ _ _ _ _ _ _ _ _ _ Mk Ca) as (Cx & Ky & c' & Ce & G). assert (c' = c) by congruence. subst c'.
  eapply good_signer_artifact; eauto. apply (proj1 Sk).
Qed.

Lemma good_signer_dsse : forall libs out ctx ps now v p s k c,
  sg_ctx s = ctx -> sg_key s = Some k -> sg_cert s = Some c ->
  good_certificate (l_env libs) now v p (sk_pub k) c -> pk_kind (sk_pub k) = KEc P256 ->
  honest_log libs out ctx ps now v (in_validity c) ->
  honest_tsas libs out ctx now v (in_validity c) ->
  sound_keys (l_env libs) out -> length (cp_tsas ctx) <= 32 ->
  forall st h h' b, sign_dsse libs out s st h = (h', Ok b) ->
  NoDup (vm_timestamps (bm_vm (b_inner b))) ->
  verify_dsse (l_env libs) ps now v b p = Ok (s2l "application/vnd.in-toto+json", st_contents st).
Proof.
  intros libs out ctx ps now v p s k0 c Cx Ky Ce G Kp Hl Ht (_ & Snd) L32 st h h' b H Nd.
  apply sign_dsse_inv in H.
  destruct H as (cert & h1' & k & h2 & x & sg & req & rs & hl & e & C & K & D & Sg & Ns & Rq & A & T & Hh & E & F).
  rewrite (signer_cert_cached libs out s c h Ce) in C.
  assert (cert = c) by (destruct (c_not_after c <? o_clock out h)%Z; congruence). subst cert. clear C.
  apply private_key_ok in K. rewrite Ky in K. destruct K as [-> ->]. rewrite Cx in *.
  pose proof (C35_assembled_bundle _ _ _ _ _ _ F) as (_ & _ & _ & _ & _ & _ & _ & En & _). cbn [content_env env_inner] in En.
  assert (So : signature_of b sg).
  { unfold signature_of. rewrite En. cbn [em_sigs]. auto. }
  destruct (signed_accepted libs out ctx ps now v p _ c _ e sg _ rs hl req b G Hl Ht L32 A E F Nd So) as (Bc & Be & Lg & times & Sa).
  destruct (Snd h1' k0 (ECDSA SHA256) x (or_introl eq_refl) Kp) as (_ & Sv).
  rewrite <- Sg in Sv.
  destruct G as (_ & Pk & _).
  change (verify_dsse (l_env libs) ps now v b p = Ok (em_type (mkEnvMsg (st_contents st) ENVELOPE_TYPE [sg]), em_payload (mkEnvMsg (st_contents st) ENVELOPE_TYPE [sg]))).
  eapply (C29_complete_envelopes_are_accepted (l_env libs) ps now v b p times _ sg (sk_pub k0) x); eauto.
  - rewrite Bc. exact Pk.
  - cbn [em_type em_payload]. rewrite Be, Bc. unfold records_envelope.
    destruct (cp_rekor ctx) as [url|url]; cbn [build_dsse_request] in Rq.
    + unfold build_dsse_request_v1 in Rq. cbn [env_inner] in Rq.
      assert (Q : req = Req_d1 (mkEnvMsg (st_contents st) ENVELOPE_TYPE [sg]) [pem_b64 c]) by (unfold pem_b64; congruence). subst req.
      cbn [logged em_payload em_sigs map combine] in Lg. left. exact Lg.
    + unfold build_dsse_request_v2, envelope_pae in Rq. rewrite !b64decode_b64encode in Rq. cbn [env_inner env_signature em_type em_payload] in Rq.
      inv Rq d Hd. inv Rq ah Hah. destruct ah as [alg hsh]. rewrite D in Rq. cbn [bind] in Rq. rewrite !b64decode_b64encode in Rq. cbn [bind] in Rq.
      assert (Q : req = Req_v2 (e_hash (l_env libs) hsh x) sg (V2_x509 (c_der c) d)) by congruence. subst req.
      cbn [logged] in Lg. destruct Lg as (Lk & Lv & _ & Lp). destruct (Lp _ _ eq_refl) as (alg' & hsh' & Gp & Lb).
      right. split; [assumption|]. split; [assumption|]. exists d, alg, hsh, x. split; [assumption|]. split; [assumption|]. split; [assumption|].
      rewrite Hah in Gp. assert (alg' = alg) by congruence. subst alg'. exact Lb.
Qed.

Theorem C37_dsse : forall libs out tok ctx ps now v p h0 h1 s c,
  make_signer libs out tok ctx true h0 = (h1, Ok s) -> sg_cert s = Some c ->
  honest_ca libs out ctx (it_raw tok) now v p ->
  honest_log libs out ctx ps now v (in_validity c) ->
  honest_tsas libs out ctx now v (in_validity c) ->
  sound_keys (l_env libs) out -> length (cp_tsas ctx) <= 32 ->
  forall st h h' b, sign_dsse libs out s st h = (h', Ok b) ->
  NoDup (vm_timestamps (bm_vm (b_inner b))) ->
  verify_dsse (l_env libs) ps now v b p = Ok (s2l "application/vnd.in-toto+json", st_contents st).
Proof.
  intros libs out tok ctx ps now v p h0 h1 s c Mk Sc Ca Hl Ht Sk L32.
  destruct (caching_signer _ _ _ _ _ _ _ _ _ _ Mk Ca) as (Cx & Ky & c' & Ce & G). assert (c' = c) by congruence. subst c'.
  eapply good_signer_dsse; eauto. apply (proj1 Sk).
Qed.

(** ** Concrete cases *)

(** the services of the toy session are honest *)
Lemma sy_sound : forall na, sound_keys (sy_env na) (sy_out na).
Proof.
  intros na. split; [intros h; reflexivity|]. intros h k s d Hs Hk.
  cbn [sy_out o_sign sy_env e_sig_verify vx_env toy_env]. split; [discriminate|]. unfold toy_sig_verify. rewrite Hk.
  destruct Hs as [->| ->]; rewrite bytes_eqb_refl; reflexivity.
Qed.

Lemma sy_one_key : forall na, one_key_only (sy_env na) (sy_out na).
Proof.
  intros na h k s d pk H. cbn [sy_out o_sign sy_env e_sig_verify vx_env toy_env] in H. unfold toy_sig_verify in H.
  assert (E : bytes_eqb (toy_sign s (sk_pub k) d) (toy_sign s pk d) = true).
  { destruct (pk_kind pk), s; try discriminate;
      match type of H with (if ?c then _ else _) = _ => destruct c; [reflexivity|discriminate] end. }
  apply bytes_eqb_spec in E. unfold toy_sign in E. injection E as E. apply app_inv_tail in E. congruence.
Qed.

Lemma sy_fresh : forall na, fresh_keys (sy_out na).
Proof.
  intros na h1 h2 N E. cbn in E. injection E as E. apply N. rewrite <- (repeat_length x05 (length h1)), <- (repeat_length x05 (length h2)).
  rewrite E. reflexivity.
Qed.

Lemma sy_ca : forall na ctx token h key c chain, ca_answer (sy_libs na) (sy_out na) ctx token h key = Ok (c, chain) ->
  exists r, key = mkPub (KEc P256) (x02 :: r) /\ c = sy_cert na r /\ chain = [vx_issuer].
Proof.
  intros na ctx token h key c chain H. unfold ca_answer, fulcio_post in H. cbn [sy_out o_fulcio sy_fulcio] in H.
  destruct (Url.urljoin _ _ _) as [u|e]; [cbn [bind] in H|discriminate].
  destruct key as [kind spki]. destruct kind as [bits|cu| |n]; try destruct cu;
    try (cbn in H; discriminate).
  destruct (bytes_eqb spki [x02]) eqn:E1.
  - apply bytes_eqb_spec in E1. subst spki. exists nil. cbn [bind] in H.
    assert (Q : Ok (sy_cert na nil, [vx_issuer]) = Ok (c, chain)) by (rewrite <- H; vm_compute; reflexivity).
    inversion Q; subst. auto.
  - destruct (bytes_eqb spki [x02; x05]) eqn:E2; [|cbn in H; discriminate].
    apply bytes_eqb_spec in E2. subst spki. exists [x05]. cbn [bind] in H.
    assert (Q : Ok (sy_cert na [x05], [vx_issuer]) = Ok (c, chain)) by (rewrite <- H; vm_compute; reflexivity).
    inversion Q; subst. auto.
Qed.

Lemma sy_certifies : forall na ctx token, certifies (sy_libs na) (sy_out na) ctx token.
Proof.
  intros na ctx token h key c chain H. apply sy_ca in H. destruct H as (r & -> & -> & _). split; reflexivity.
Qed.

Lemma sy_honest_ca : forall na ctx token, honest_ca (sy_libs na) (sy_out na) ctx token vx_now vx_verifier vx_policy.
Proof.
  intros na ctx token h key c chain H. apply sy_ca in H. destruct H as (r & -> & -> & _).
  split; [reflexivity|]. split; [reflexivity|]. split.
  { exists vx_exts. eexists; eexists. cbn [sy_cert c_exts vx_exts x_ku x_eku]. repeat split; try reflexivity. left. reflexivity. }
  split; [vm_compute; reflexivity|]. eexists. split; [vm_compute; reflexivity|].
  intros t [A B]. cbn [sy_cert c_not_before c_not_after] in A, B. exists [sy_cert na r; vx_issuer]. split.
  - cbn [l_env sy_libs sy_env e_chain vx_env toy_env sy_cert c_not_before c_not_after].
    apply Z.leb_le in A, B. rewrite A, B. reflexivity.
  - vm_compute. reflexivity.
Qed.

Lemma sy_honest_tsas : forall na ctx, (50000000 <= na)%Z ->
  honest_tsas (sy_libs na) (sy_out na) ctx vx_now vx_verifier (in_validity (sy_cert na nil)).
Proof.
  intros na ctx Na.
  exists [mkCA (mkCAMsg [c_der vx_issuer] vx_window) [vx_issuer];
          mkCA (mkCAMsg [c_der vx_issuer; c_der vx_issuer] (Some (mkTimeRange 0%Z (Some 50000000%Z)))) [vx_issuer; vx_issuer];
          mkCA (mkCAMsg [c_der vx_leaf; c_der vx_issuer] vx_window) [vx_leaf; vx_issuer]].
  split.
  { unfold trusted_tsas. cbn [vf_root vx_verifier vx_tr tr_tsas].
    repeat (constructor; [split; [reflexivity|split; [discriminate|repeat constructor]]|]). constructor. }
  intros h url sg t I H. unfold tsa_answer, request_timestamp in H. cbn [sy_out o_tsa_query o_tsa bind try_except sy_tsa] in H.
  destruct (str_eqb url (s2l "https://tsa.example")); cbn [bind try_except] in H; [|discriminate].
  assert (Q : t = mkTSR (x30 :: x20 :: sg) 32000000%Z).
  { cbn in H. congruence. }
  subst t. split; [reflexivity|]. split.
  - split; [reflexivity|]. exists [mkCA (mkCAMsg [c_der vx_issuer] vx_window) [vx_issuer]]. eexists; eexists. split; [reflexivity|]. split.
    + intros ca' [<-|[]]. left. intros [_ L]. cbn in L. lia.
    + split; [split; [|cbn; lia]|split].
      * cbn [ca_inner cam_valid_for]. intros r Q. inversion Q; subst r. cbn [tr_start]. unfold vx_now. lia.
      * cbn [sy_libs l_env sy_env vx_env toy_env e_tsa_verify tsr_raw]. rewrite bytes_eqb_refl. reflexivity.
      * cbn [ca_inner cam_valid_for tsr_time]. eexists. split; [reflexivity|]. cbn [tr_start tr_end]. split; [lia|].
        intros e Q. inversion Q. lia.
  - unfold in_validity. cbn [sy_cert c_not_before c_not_after tsr_time]. lia.
Qed.

Lemma sy_find_in : forall l r j, sy_find l r = Some j -> In (r, j) l.
Proof.
  induction l as [|[r' j'] l IH]; intros r j H; cbn [sy_find] in H; [discriminate|].
  destruct (req_dec r r') as [->|_]; [|right; auto]. injection H as ->. left. reflexivity.
Qed.

Lemma sy_honest_log1 : honest_log (sy_libs sy_far) (sy_out sy_far) sy_ctx1 (sy_parsers sy_far) vx_now vx_verifier (in_validity (sy_cert sy_far nil)).
Proof.
  eexists. split; [vm_compute; reflexivity|].
  intros h req e H. unfold log_answer, create_entry, create_entry_v1 in H. cbn [sy_ctx1 cp_rekor sy_out o_log sy_log bind] in H.
  destruct (sy_find (sy_known sy_far) req) as [j|] eqn:F; [|cbn in H; discriminate].
  apply sy_find_in in F. cbn [bind] in H.
  destruct F as [F|[F|[F|[F|[]]]]]; apply pair_equal_spec in F; destruct F as [<- <-].
  - assert (Q : Ok vx_entry1 = Ok e) by (rewrite <- H; vm_compute; reflexivity). assert (e = vx_entry1) by congruence. subst e.
    split; [cbn [logged]; split; [reflexivity|split; reflexivity]|]. split; [vm_compute; reflexivity|].
    intros set _. exists 1700000000%Z. split; [reflexivity|]. split; [lia|]. split; [lia|]. split; vm_compute; discriminate.
  - assert (Q : Ok vx_entry4 = Ok e) by (rewrite <- H; vm_compute; reflexivity). assert (e = vx_entry4) by congruence. subst e.
    split; [cbn [logged]; split; [reflexivity|split; [reflexivity|vm_compute; reflexivity]]|]. split; [vm_compute; reflexivity|].
    intros set _. exists 1700000000%Z. split; [reflexivity|]. split; [lia|]. split; [lia|]. split; vm_compute; discriminate.
  - exfalso. vm_compute in H. discriminate.
  - exfalso. vm_compute in H. discriminate.
Qed.

Lemma sy_honest_log2 : honest_log (sy_libs sy_far) (sy_out sy_far) sy_ctx2 (sy_parsers sy_far) vx_now vx_verifier (in_validity (sy_cert sy_far nil)).
Proof.
  eexists. split; [vm_compute; reflexivity|].
  intros h req e H. unfold log_answer, create_entry, create_entry_v2 in H. cbn [sy_ctx2 cp_rekor sy_out o_log sy_log bind] in H.
  destruct (sy_find (sy_known sy_far) req) as [j|] eqn:F; [|cbn in H; discriminate].
  apply sy_find_in in F. cbn [bind] in H.
  destruct F as [F|[F|[F|[F|[]]]]]; apply pair_equal_spec in F; destruct F as [<- <-].
  - exfalso. vm_compute in H. discriminate.
  - exfalso. vm_compute in H. discriminate.
  - assert (Q : Ok vx_entry2 = Ok e) by (rewrite <- H; vm_compute; reflexivity). assert (e = vx_entry2) by congruence. subst e.
    split. { cbn [logged]. split; [reflexivity|]. split; [reflexivity|]. split; [reflexivity|]. intros der d Q'. inversion Q'; subst. eexists; eexists. split; reflexivity. }
    split; [vm_compute; reflexivity|]. intros set Q'. discriminate.
  - assert (Q : Ok vx_entry3 = Ok e) by (rewrite <- H; vm_compute; reflexivity). assert (e = vx_entry3) by congruence. subst e.
    split. { cbn [logged]. split; [reflexivity|]. split; [reflexivity|]. split; [reflexivity|]. intros der d Q'. inversion Q'; subst. eexists; eexists. split; reflexivity. }
    split; [vm_compute; reflexivity|]. intros set Q'. discriminate.
Qed.

(** C37: the hypotheses are met by sessions of both kinds, so that their bundles verify *)
Example ex_C37_artifact : forall ctx, ctx = sy_ctx1 \/ ctx = sy_ctx2 ->
  exists h1 s h' b, make_signer (sy_libs sy_far) (sy_out sy_far) sy_token ctx true nil = (h1, Ok s) /\
    sign_artifact (sy_libs sy_far) (sy_out sy_far) s (In_bytes vx_input) h1 = (h', Ok b) /\
    verify_artifact (sy_env sy_far) (sy_parsers sy_far) vx_now vx_verifier (In_bytes vx_input) b vx_policy = Ok tt.
Proof.
  intros ctx Hc.
  assert (Mk : exists h1 s h' b, make_signer (sy_libs sy_far) (sy_out sy_far) sy_token ctx true nil = (h1, Ok s) /\
    sg_cert s = Some (sy_cert sy_far nil) /\
    sign_artifact (sy_libs sy_far) (sy_out sy_far) s (In_bytes vx_input) h1 = (h', Ok b) /\ length (vm_timestamps (bm_vm (b_inner b))) <= 1).
  { destruct Hc as [->| ->]; eexists; eexists; eexists; eexists; (split; [vm_compute; reflexivity|]); (split; [reflexivity|]);
      (split; [vm_compute; reflexivity|]); cbn; lia. }
  destruct Mk as (h1 & s & h' & b & Mk & Sc & Sg & Nd). exists h1, s, h', b. split; [assumption|]. split; [assumption|].
  eapply (C37_artifact (sy_libs sy_far) (sy_out sy_far) sy_token ctx (sy_parsers sy_far) vx_now vx_verifier vx_policy nil h1 s (sy_cert sy_far nil));
    eauto.
  - apply sy_honest_ca.
  - destruct Hc as [->| ->]; [apply sy_honest_log1|apply sy_honest_log2].
  - apply sy_honest_tsas. unfold sy_far. lia.
  - apply sy_sound.
  - destruct Hc as [->| ->]; cbn; lia.
  - destruct (vm_timestamps (bm_vm (b_inner b))) as [|x [|y l]]; [constructor|repeat constructor; intros []|cbn in Nd; lia].
Qed.

Example ex_C37_dsse : forall ctx, ctx = sy_ctx1 \/ ctx = sy_ctx2 ->
  exists h1 s h' b, make_signer (sy_libs sy_far) (sy_out sy_far) sy_token ctx true nil = (h1, Ok s) /\
    sign_dsse (sy_libs sy_far) (sy_out sy_far) s sy_statement h1 = (h', Ok b) /\
    verify_dsse (sy_env sy_far) (sy_parsers sy_far) vx_now vx_verifier b vx_policy = Ok (s2l "application/vnd.in-toto+json", vx_payload).
Proof.
  intros ctx Hc.
  assert (Mk : exists h1 s h' b, make_signer (sy_libs sy_far) (sy_out sy_far) sy_token ctx true nil = (h1, Ok s) /\
    sg_cert s = Some (sy_cert sy_far nil) /\
    sign_dsse (sy_libs sy_far) (sy_out sy_far) s sy_statement h1 = (h', Ok b) /\ length (vm_timestamps (bm_vm (b_inner b))) <= 1).
  { destruct Hc as [->| ->]; eexists; eexists; eexists; eexists; (split; [vm_compute; reflexivity|]); (split; [reflexivity|]);
      (split; [vm_compute; reflexivity|]); cbn; lia. }
  destruct Mk as (h1 & s & h' & b & Mk & Sc & Sg & Nd). exists h1, s, h', b. split; [assumption|]. split; [assumption|].
  apply (C37_dsse (sy_libs sy_far) (sy_out sy_far) sy_token ctx (sy_parsers sy_far) vx_now vx_verifier vx_policy nil h1 s (sy_cert sy_far nil)) with (st := sy_statement) (h := h1) (h' := h');
    auto.
  - apply sy_honest_ca.
  - destruct Hc as [->| ->]; [apply sy_honest_log1|apply sy_honest_log2].
  - apply sy_honest_tsas. unfold sy_far. lia.
  - apply sy_sound.
  - destruct Hc as [->| ->]; cbn; lia.
  - destruct (vm_timestamps (bm_vm (b_inner b))) as [|x [|y l]]; [constructor|repeat constructor; intros []|cbn in Nd; lia].
Qed.

(** a log that gives the same answer to everything *)
Definition sy_out_any (na : time) : Outside :=
  mkOutside (o_clock (sy_out na)) (o_pub (sy_out na)) (o_sign (sy_out na)) (o_fulcio (sy_out na)) (o_tsa_query (sy_out na)) (o_tsa (sy_out na))
    (fun _ _ => Ok (mkResp 201 nil (Some (JInt 2)) nil)).

(** C38: a signer without caching obtains a bundle, and no verifier accepts it *)
Example ex_C38 : exists h' b,
  sign_artifact (sy_libs sy_far) (sy_out_any sy_far) (mkSigner sy_token sy_ctx2 None None) (In_bytes vx_input) nil = (h', Ok b) /\
  forall ps now v p, verify_artifact (sy_env sy_far) ps now v (In_bytes vx_input) b p <> Ok tt.
Proof.
  destruct (sign_artifact (sy_libs sy_far) (sy_out_any sy_far) (mkSigner sy_token sy_ctx2 None None) (In_bytes vx_input) nil) as [h' [b|e]] eqn:E.
  2:{ exfalso. apply (f_equal (fun x => match snd x with Ok _ => true | Raise _ => false end)) in E. vm_compute in E. discriminate. }
  exists h', b. split; [reflexivity|]. intros ps now v p.
  eapply (proj1 (C38_without_caching_refuted (sy_libs sy_far) (sy_out_any sy_far) sy_token sy_ctx2 (sy_one_key sy_far) (sy_fresh sy_far)
    (sy_certifies sy_far sy_ctx2 (it_raw sy_token)) nil nil (mkSigner sy_token sy_ctx2 None None) eq_refl)). exact E.
Qed.

(** C40, expected: the entry in the returned bundle records what was submitted.  Refuted: signing
    trusts the log's answer, the mistake is only noticed when the bundle is verified. *)
Theorem C40_answer_matches_submission_refuted :
  exists libs out tok ctx h1 s i h' b digest sg,
    make_signer libs out tok ctx true nil = (h1, Ok s) /\ sign_artifact libs out s i h1 = (h', Ok b) /\
    sha256_digest (l_env libs) i = mkHashed HA_SHA2_256 digest /\ signature_of b sg /\
    exists ps, p_v2 ps (le_body (b_entry b)) <> Raise EPydantic /\ ~ records_artifact ps (b_entry b) (b_cert b) digest sg.
Proof.
  exists (sy_libs sy_far), (sy_out_any sy_far), sy_token, sy_ctx2. eexists; eexists. exists (In_bytes (s2b "other")).
  eexists; eexists; eexists; eexists. split; [vm_compute; reflexivity|]. split; [vm_compute; reflexivity|].
  split; [vm_compute; reflexivity|]. split; [cbn; eexists; split; reflexivity|].
  exists (sy_parsers sy_far). split; [vm_compute; discriminate|].
  intros (_ & [(V & _)|(_ & d & _ & R)]); [vm_compute in V; discriminate|].
  apply (f_equal (fun r => match r with Ok (mkV2 _ _ (V2_hashedrekord _ dg _ _)) => dg | _ => nil end)) in R. vm_compute in R. discriminate.
Qed.

(** C39: in a session that goes on for long enough, the certificate expires; the signer stops *)
Example ex_C39_certificate :
  map (fun r => match r with Ok _ => None | Raise e => Some e end)
    (snd (session (sy_libs (sy_start + 20000000)%Z) (sy_out (sy_start + 20000000)%Z) sy_token sy_ctx1 true
      [sy_hello; sy_hello; Op_artifact (In_bytes nil); sy_dsse; sy_hello; sy_hello; sy_hello; sy_dsse] nil)) =
  [None; None; Some ERekorClient; None; None; None; Some EExpiredCertificate; Some EExpiredCertificate].
Proof. vm_compute. reflexivity. Qed.

Example ex_C39_token : forall cache, exists h,
  session (sy_libs sy_far) (sy_out sy_far) sy_token sy_ctx1 cache [sy_hello] (repeat (EvClock 0%Z) 40) = (repeat (EvClock 0%Z) 40 ++ h, if cache then nil else [Raise EExpiredIdentity]) /\
  requests h = 0.
Proof.
  intros [|]; [exists [EvKey (mkPriv 40 (sy_pub (repeat (EvClock 0%Z) 40))); EvClock (sy_start + 41000000)%Z]|exists [EvClock (sy_start + 40000000)%Z]];
    (split; [vm_compute; reflexivity|reflexivity]).
Qed.

(** Expected: no operation uses an expired certificate.  Refuted for signers without caching, which
    do not look at the certificate's lifetime. *)
Theorem C39_fresh_certificates_not_expired_refuted :
  exists libs out tok ctx h' b,
    run_op libs out (mkSigner tok ctx None None) (Op_artifact (In_bytes vx_input)) nil = (h', Ok b) /\
    (exists req, In (EvLog req) h') /\
    forall t, In (EvClock t) h' -> (c_not_after (b_cert b) < t)%Z.
Proof.
  exists (sy_libs 0%Z), (sy_out_any 0%Z), sy_token, sy_ctx2. eexists; eexists. split; [vm_compute; reflexivity|]. split.
  { eexists. cbn [In]. do 8 right. left. reflexivity. }
  intros t I. cbn [In] in I. cbn [b_cert c_not_after].
  repeat (destruct I as [I|I]; [try discriminate; inversion I; reflexivity|]). destruct I.
Qed.

(** C41: one of two authorities is down *)
Example ex_C41_one_down : exists h h' b,
  make_signer (sy_libs sy_far) (sy_out sy_far) sy_token sy_ctx2 true nil = (h, Ok (mkSigner sy_token sy_ctx2 (Some (mkPriv 0 sy_key)) (Some (sy_cert sy_far nil)))) /\
  sign_artifact (sy_libs sy_far) (sy_out sy_far) (mkSigner sy_token sy_ctx2 (Some (mkPriv 0 sy_key)) (Some (sy_cert sy_far nil))) (In_bytes vx_input) h = (h', Ok b) /\
  vm_timestamps (bm_vm (b_inner b)) = [x30 :: x20 :: sy_sig].
Proof. eexists; eexists; eexists. split; [vm_compute; reflexivity|]. split; vm_compute; reflexivity. Qed.

(** ... and both *)
Definition sy_ctx3 : ContextParts := mkParts (s2l "https://ca.example") (Rekor_v2 (s2l "https://rekor2.example")) vx_tr [s2l "https://down.example"; s2l "x"].
Example ex_C41_all_down : exists h,
  session (sy_libs sy_far) (sy_out sy_far) sy_token sy_ctx3 true [sy_hello] nil = (h, [Raise EInvalidBundle]).
Proof. eexists. vm_compute. reflexivity. Qed.

Print Assumptions C37_artifact.
Print Assumptions C37_dsse.
Print Assumptions C38_caching_signer.
Print Assumptions C38_without_caching_refuted.
Print Assumptions C39_requests_have_valid_tokens.
Print Assumptions C39_certificate_not_expired.
Print Assumptions C39_expired_certificate.
Print Assumptions C39_expired_token.
Print Assumptions C39_one_request.
Print Assumptions C39_fresh_certificates_not_expired_refuted.
Print Assumptions C40_artifact.
Print Assumptions C40_dsse.
Print Assumptions C40_answer_matches_submission_refuted.
Print Assumptions C41_bundle_timestamps.
Print Assumptions C41_failures_are_skipped.
Print Assumptions C41_some_time_suffices.
Print Assumptions C41_no_time_is_an_error.
