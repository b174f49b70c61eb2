(** Property C93: what exit status 0 of the verify commands proves about the world, if the services
    (or only the logs) are honest. *)
From Verif Require Import Base Codec Messages ToyHash Env Keyring KeyringProofs PropsKeyring MerkleSpec Merkle PropsMerkle
  PyText Checkpoint CheckpointProofs PropsCheckpoint LogEntry PropsLogEntry Cert PropsCert Sct PropsSct Dsse PropsDsse Predicate
  KeyDetails Policy PropsPolicy TrustedRoot PropsTrustedRoot SigningConfig PropsSigningConfig Hashing Json Http Oidc Oauth Bundle PropsBundle
  Verifier VerifierSpec PropsVerifier ToyEnv ToyBundles RekorClient PropsRekorClient Clients Tuf PropsTuf CliVerify CliTrust PropsCliVerify
  Sign SignSteps CliSign PropsCliSign CliEnv PropsCliEnv CliMain Calm PropsCliMain PropsAuthentic.

(** ** Specification *)

(** Byte strings of a log entry that somebody has made: its promise, and the signatures of its checkpoint *)
Definition entry_carries (e : LogEntry) (x : bytes) : Prop :=
  le_promise e = Some x \/
  exists ip text pre name b64 post hint, le_proof e = Some ip /\ ip_checkpoint ip = Some text /\
    text = pre ++ sig_line name b64 ++ post /\ name <> nil /\ no_space name = true /\ no_space b64 = true /\
    b64decode b64 = Ok (hint ++ x) /\ length hint = 4.

(** What is in the files and in the answers of the log exists. *)
Definition materials_existed (hi : History) (w : World) : Prop :=
  (forall p raw m x, content w p = Some raw -> w_parse_bundle w raw = Ok m -> carries m x -> ever hi x) /\
  (forall p pem c, content w p = Some pem -> w_load_pem w pem = Ok c -> ever hi (c_der c)) /\
  (forall i url req e x, retrieve_post (w_rp w) (w_rekor w i) url req = Ok (Some e) -> entry_carries e x -> ever hi x).

(** The services of the trusted root that the command uses are honest. *)
Definition logs_are_honest (env : Env) (ps : Parsers) (hi : History) (w : World) (a : VerifyArgs) : Prop :=
  forall v i, verifier_selected env w a v -> honest_logs env ps hi (w_when w i) (vf_root v).
Definition services_are_honest (env : Env) (ps : Parsers) (hi : History) (w : World) (a : VerifyArgs) : Prop :=
  logs_are_honest env ps hi w a /\
  forall v, verifier_selected env w a v -> honest_ca env hi (vf_fulcio v) /\ honest_tsas env hi (vf_root v).

(** By time [t] the owner of the key signed the digest, or an in-toto statement about it. *)
Definition signed_about (env : Env) (w : World) (hi : History) (key : pubkey) (d : bytes) (t : time) : Prop :=
  hs_signed hi key d t \/
  exists payload inner s x, w_validate w payload = Some inner /\ In s (st_subjects inner) /\ lists_sha256 s (hex d) /\
    pae (s2l "application/vnd.in-toto+json") payload = Ok x /\ hs_signed hi key (e_hash env SHA256 x) t.

(** A log entry that records the digest, or an envelope with a statement about it *)
Definition recorded_about (env : Env) (ps : Parsers) (w : World) (e : LogEntry) (cert : Cert) (d : bytes) : Prop :=
  (exists sg, records_artifact ps e cert d sg) \/
  exists payload inner s sg, w_validate w payload = Some inner /\ In s (st_subjects inner) /\ lists_sha256 s (hex d) /\
    records_envelope env ps e cert (s2l "application/vnd.in-toto+json") payload sg.

(** ** Proofs *)

Lemma issued_to : forall env hi now v m b p times,
  make_bundle env m = Ok b -> (forall x, carries m x -> ever hi x) -> honest_ca env hi (vf_fulcio v) ->
  signer_accepted env now v b p times ->
  policy_verify p (b_cert b) = Ok tt /\
  exists who t0, hs_issued hi (b_cert b) who t0 /\
    forall identity issuer, cert_names (b_cert b) identity issuer -> hs_login hi who identity issuer t0.
Proof.
  intros env hi now v m b p times Mb Ev Ca A.
  destruct (C24_accepted_certificate _ _ _ _ _ _ A) as (Nn & Ch & _ & _ & Po). split; [assumption|].
  destruct times as [|t times]; [congruence|]. destruct (Ch t (or_introl eq_refl)) as (_ & chain & E).
  destruct (cert_carried _ _ _ Mb) as (der & Cd & Pd). exact (Ca der _ _ _ (Ev _ Cd) Pd E).
Qed.

(** The bundle an input is checked with was made from existing parts. *)
Lemma evidence_made : forall env hi w a v x d b, materials_existed hi w -> evidence env w a v x d b ->
  exists m, make_bundle env m = Ok b /\ forall y, carries m y -> ever hi y.
Proof.
  intros env hi w a v x d b (E1 & E2 & E3) [(_ & p & raw & _ & C & B)|(_ & cp & sp & pem & cert & raw & text & sg & req & e & _ & C & L & _ & _ & _ & _ & _ & R & B)].
  - unfold bundle_from_json in B. destruct (w_parse_bundle w raw) as [m|e] eqn:Pm; cbn [try_except] in B.
    + exists m. split; [exact B|]. intros y H. exact (E1 _ _ _ _ C Pm H).
    + destruct (is_value_error e); discriminate.
  - unfold from_parts in B. rewrite b64decode_b64encode in B. cbn [bind] in B. unfold from_parts_ in B. cbn [map_res bind] in B.
    rewrite b64decode_b64encode in B. cbn [bind] in B. eexists. split; [exact B|].
    intros y [H|[(l & H & _)|[[]|(e' & [<-|[]] & H)]]]; cbn [bm_vm vm_cert vm_chain] in *; [|discriminate|].
    + injection H as <-. exact (E2 _ _ _ C L).
    + exact (E3 _ _ _ _ _ R H).
Qed.

Lemma artifact_genuine : forall env ps hi now v m b i p d,
  honest_ca env hi (vf_fulcio v) -> honest_tsas env hi (vf_root v) -> honest_logs env ps hi now (vf_root v) ->
  make_bundle env m = Ok b -> (forall x, carries m x -> ever hi x) -> bm_env m = None -> sha256_digest env i = mkHashed HA_SHA2_256 d ->
  verify_artifact env ps now v i b p = Ok tt ->
  policy_verify p (b_cert b) = Ok tt /\
  exists who t0 key, hs_issued hi (b_cert b) who t0 /\
    (forall identity issuer, cert_names (b_cert b) identity issuer -> hs_login hi who identity issuer t0) /\
    c_pubkey (b_cert b) = Ok key /\
    (careful hi who -> unforgeable env hi key -> exists t, (t <= c_not_after (b_cert b))%Z /\ hs_signed hi key d t).
Proof.
  intros env ps hi now v m b i p d Ca Ts Lg Mb Ev Ne Hi V.
  apply artifact_accepted_iff in V. destruct V as ((times & A) & ms & key & d' & Ms & Hd & _ & Key & Sv & Rec).
  rewrite Hi in Hd. injection Hd as <-.
  destruct (issued_to _ _ _ _ _ _ _ _ Mb Ev Ca A) as (Po & who & t0 & Is & Lo). split; [assumption|].
  exists who, t0, key. split; [assumption|]. split; [assumption|]. split; [assumption|].
  intros Cf Uf. pose proof A as (_ & Nn & _ & _ & _ & _ & W). destruct times as [|t times]; [congruence|].
  assert (Sg : signature_of b (ms_signature ms)).
  { apply C34_bundle_iff in Mb. destruct Mb as (<- & _). unfold signature_of. rewrite Ne. eauto. }
  assert (Ex : hs_existed hi (ms_signature ms) t).
  { eapply signature_existed; try eassumption; [|left; reflexivity]. intros Ve.
    destruct Rec as (_ & [(_ & P)|(Ve' & _)]); [|rewrite Ve in Ve'; discriminate]. left. eexists. split; [eassumption|reflexivity]. }
  destruct (Uf _ _ _ Ex (or_introl Sv)) as (t' & Lt & [Sd|Lk]).
  - exists t'. split; [|assumption]. specialize (W t (or_introl eq_refl)). lia.
  - pose proof (Cf _ _ _ _ Is Key Lk). specialize (W t (or_introl eq_refl)). lia.
Qed.

Lemma envelope_genuine : forall env ps hi now v m b p type_ payload,
  honest_ca env hi (vf_fulcio v) -> honest_tsas env hi (vf_root v) -> honest_logs env ps hi now (vf_root v) ->
  make_bundle env m = Ok b -> (forall x, carries m x -> ever hi x) ->
  verify_dsse env ps now v b p = Ok (type_, payload) ->
  policy_verify p (b_cert b) = Ok tt /\
  exists who t0 key, hs_issued hi (b_cert b) who t0 /\
    (forall identity issuer, cert_names (b_cert b) identity issuer -> hs_login hi who identity issuer t0) /\
    c_pubkey (b_cert b) = Ok key /\
    (careful hi who -> unforgeable env hi key ->
     exists t x, (t <= c_not_after (b_cert b))%Z /\ pae type_ payload = Ok x /\ hs_signed hi key (e_hash env SHA256 x) t).
Proof.
  intros env ps hi now v m b p type_ payload Ca Ts Lg Mb Ev V.
  apply dsse_accepted_iff in V. destruct V as ((times & A) & em & sg & key & x & Em & _ & _ & Es & Nz & Key & Px & Sv & Rec).
  destruct (issued_to _ _ _ _ _ _ _ _ Mb Ev Ca A) as (Po & who & t0 & Is & Lo). split; [assumption|].
  exists who, t0, key. split; [assumption|]. split; [assumption|]. split; [assumption|].
  intros Cf Uf. pose proof A as (_ & Nn & _ & _ & _ & _ & W). destruct times as [|t times]; [congruence|].
  assert (Sg : signature_of b sg) by (unfold signature_of; rewrite Em; auto).
  assert (Ex : hs_existed hi sg t).
  { eapply signature_existed; try eassumption; [|left; reflexivity]. intros Ve.
    destruct Rec as [(_ & _ & P)|(_ & Ve' & _)]; [|rewrite Ve in Ve'; discriminate]. right. eexists. eexists. exists (pem_b64 (b_cert b)).
    split; [eassumption|]. split; [reflexivity|left; reflexivity]. }
  destruct (Uf sg (e_hash env SHA256 x) t Ex) as (t' & Lt & [Sd|Lk]); [right; eauto| |].
  - exists t', x. split; [|split; assumption]. specialize (W t (or_introl eq_refl)). lia.
  - pose proof (Cf _ _ _ _ Is Key Lk). specialize (W t (or_introl eq_refl)). lia.
Qed.

(** What the evidence of an input proves *)
Lemma input_genuine : forall env ps hi w a v x d b p st,
  services_are_honest env ps hi w a -> materials_existed hi w -> verifier_selected env w a v ->
  evidence env w a v x d b -> vouched env ps w (w_when w x) v p d b st ->
  policy_verify p (b_cert b) = Ok tt /\
  exists who t0 key, hs_issued hi (b_cert b) who t0 /\
    (forall identity issuer, cert_names (b_cert b) identity issuer -> hs_login hi who identity issuer t0) /\
    c_pubkey (b_cert b) = Ok key /\
    (careful hi who -> unforgeable env hi key -> exists t, (t <= c_not_after (b_cert b))%Z /\ signed_about env w hi key d t).
Proof.
  intros env ps hi w a v x d b p st (Lg & Sv) Me Vs Ev Vo. destruct (evidence_made _ _ _ _ _ _ _ _ Me Ev) as (m & Mb & Cm).
  destruct (Sv v Vs) as [Ca Ts]. specialize (Lg v x Vs). pose proof Mb as Mi. apply C34_bundle_iff in Mi. destruct Mi as (Mi & _).
  unfold vouched in Vo. rewrite Mi in Vo. destruct (bm_env m) as [em|] eqn:Em.
  - destruct Vo as (payload & inner & s & V & Va & _ & Is & Ls).
    destruct (envelope_genuine _ _ _ _ _ _ _ _ _ _ Ca Ts Lg Mb Cm V) as (Po & who & t0 & key & Iss & Lo & K & H).
    split; [assumption|]. exists who, t0, key. split; [assumption|]. split; [assumption|]. split; [assumption|].
    intros Cf Uf. destruct (H Cf Uf) as (t & y & Lt & Py & Sd). exists t. split; [assumption|]. right. exists payload, inner, s, y. auto.
  - destruct Vo as (V & _). destruct (artifact_genuine _ _ _ _ _ _ _ (In_hashed (mkHashed HA_SHA2_256 d)) _ d Ca Ts Lg Mb Cm Em eq_refl V) as (Po & who & t0 & key & Iss & Lo & K & H).
    split; [assumption|]. exists who, t0, key. split; [assumption|]. split; [assumption|]. split; [assumption|].
    intros Cf Uf. destruct (H Cf Uf) as (t & Lt & Sd). exists t. split; [assumption|]. left. assumption.
Qed.

Lemma input_item : forall w args items arg, Forall2 (denotes w) args items -> In arg args -> exists x, In x items /\ denotes w arg x.
Proof.
  intros w args items arg F. induction F as [|a x l l' D F IH]; [intros []|]. intros [ -> |I].
  - exists x. split; [left; reflexivity|assumption].
  - destruct (IH I) as (y & Iy & Dy). exists y. split; [right; assumption|assumption].
Qed.

(** ** C93 *)

(** If [sigstore verify identity] exits with 0, every input was signed, before the certificate
    expired, with the key of a person whom the issuer confirmed to have the identity. *)
Theorem C93_verify_identity : forall mc environ l t0 h0 sched t h out r,
  main mc environ l t0 h0 sched t h out r -> ln_command l = C_verify_identity -> unicode_lower (mc_lower mc) -> calm_machine mc ->
  exit_status r = 0 ->
  forall hi, let env := mc_env mc in let w := world_at (mc_tools mc) t0 in
  materials_existed hi w -> (forall a, says_verify environ l a -> services_are_honest env (mc_ps mc) hi w a) ->
  forall identity issuer, last_given l O_cert_identity identity -> last_given l O_cert_issuer issuer -> issuer <> nil ->
  forall arg, In arg (ln_positional l) ->
  exists x d cert who tl key, denotes w arg x /\ digest_of env w x d /\
    hs_login hi who identity issuer tl /\ hs_issued hi cert who tl /\ c_pubkey cert = Ok key /\
    (careful hi who -> unforgeable env hi key ->
     exists ts, (ts <= c_not_after cert)%Z /\ signed_about env w hi key d ts).
Proof.
  intros mc environ l t0 h0 sched t h out r M C U N0 X hi env w Me Sv identity issuer Li Lu Nu arg Ia.
  destruct (proj1 (C85_verify_identity _ _ _ _ _ _ _ _ _ _ M C U N0)) as [H _]. destruct (H X) as (_ & _ & a & identity' & issuer' & Sa & Li' & Lu' & items & v & F & _ & Vs & Al).
  assert (identity' = identity) as -> by (eapply last_given_unique; eassumption).
  assert (issuer' = issuer) as -> by (eapply last_given_unique; eassumption).
  assert (Ia' : In arg (va_inputs a)) by (destruct Sa as (-> & _); assumption).
  destruct (input_item _ _ _ _ F Ia') as (x & Ix & Dx). destruct (Al x Ix) as (d & b & st & Dd & Ev & Vo & _).
  destruct (input_genuine _ _ _ _ _ _ _ _ _ _ _ (Sv a Sa) Me Vs Ev Vo) as (Po & who & tl & key & Is & Lo & K & Q).
  exists x, d, (b_cert b), who, tl, key. split; [assumption|]. split; [assumption|]. split; [|auto]. apply Lo.
  change (identity_verify identity (Some issuer) (b_cert b) = Ok tt) in Po. apply C31_identity_accepts_iff in Po.
  destruct Po as (Io & xs & sans & n & Xs & San & _ & In_ & Nm). split; [exists xs, sans, n; auto|]. exact (Io _ eq_refl Nu).
Qed.

(** If [sigstore verify github] exits with 0, every input was signed with the key of a certificate
    that names the expected workflow, issued to a workflow confirmed by GitHub. *)
Theorem C93_verify_github : forall mc environ l t0 h0 sched t h out r,
  main mc environ l t0 h0 sched t h out r -> ln_command l = C_verify_github -> unicode_lower (mc_lower mc) -> calm_machine mc ->
  exit_status r = 0 ->
  forall hi, let env := mc_env mc in let w := world_at (mc_tools mc) t0 in
  materials_existed hi w -> (forall a, says_verify environ l a -> services_are_honest env (mc_ps mc) hi w a) ->
  forall arg, In arg (ln_positional l) ->
  exists g x d cert who tl key, says_github environ l g /\ github_conditions g cert /\ denotes w arg x /\ digest_of env w x d /\
    (forall s, gh_identity g = Some s -> s <> nil -> hs_login hi who s (s2l "https://token.actions.githubusercontent.com") tl) /\
    hs_issued hi cert who tl /\ c_pubkey cert = Ok key /\
    (careful hi who -> unforgeable env hi key ->
     exists ts, (ts <= c_not_after cert)%Z /\ signed_about env w hi key d ts).
Proof.
  intros mc environ l t0 h0 sched t h out r M C U N0 X hi env w Me Sv arg Ia.
  destruct (proj1 (C85_verify_github _ _ _ _ _ _ _ _ _ _ M C U N0)) as [H _]. destruct (H X) as (_ & _ & a & g & Sa & Sg & _ & items & v & F & _ & Vs & Al).
  assert (Ia' : In arg (va_inputs a)) by (destruct Sa as (-> & _); assumption).
  destruct (input_item _ _ _ _ F Ia') as (x & Ix & Dx). destruct (Al x Ix) as (d & b & st & Dd & Ev & Vo & _).
  destruct (input_genuine _ _ _ _ _ _ _ _ _ _ _ (Sv a Sa) Me Vs Ev Vo) as (Po & who & tl & key & Is & Lo & K & Q).
  apply C58_github_policy_iff in Po. exists g, x, d, (b_cert b), who, tl, key.
  split; [assumption|]. split; [assumption|]. split; [assumption|]. split; [assumption|]. split; [|auto].
  intros s Gs Ns. apply Lo. destruct Po as (Io & Id & _). destruct (Id s Gs Ns) as (xs & sans & n & Xs & San & _ & In_ & Nm).
  split; [exists xs, sans, n; auto|]. exists (s2b "https://token.actions.githubusercontent.com"). split; [reflexivity|assumption].
Qed.

(** Even if certificate authorities and signers are not honest: what is accepted is recorded in a tree whose
    head a trusted log published. *)
Theorem C93_public : forall mc environ l t0 h0 sched t h out r,
  main mc environ l t0 h0 sched t h out r -> ln_command l = C_verify_identity \/ ln_command l = C_verify_github ->
  unicode_lower (mc_lower mc) -> calm_machine mc -> exit_status r = 0 ->
  forall hi, let env := mc_env mc in let w := world_at (mc_tools mc) t0 in
  (forall x, length (e_hash env SHA256 x) = 32) ->
  materials_existed hi w -> (forall a, says_verify environ l a -> logs_are_honest env (mc_ps mc) hi w a) ->
  forall arg, In arg (ln_positional l) ->
  exists x d cert e key log, denotes w arg x /\ digest_of env w x d /\
    recorded_about env (mc_ps mc) w e cert d /\ hs_head hi key log /\ (In (le_body e) log \/ hash_collision env log e).
Proof.
  intros mc environ l t0 h0 sched t h out r M C U N0 X hi env w HL Me Lg arg Ia.
  assert (Q : exists a show p, says_verify environ l a /\ every_input_verified env (mc_ps mc) w a show p).
  { destruct C as [C|C].
    - destruct (proj1 (C85_verify_identity _ _ _ _ _ _ _ _ _ _ M C U N0)) as [H _]. destruct (H X) as (_ & _ & a & identity & issuer & Sa & _ & _ & E). eauto.
    - destruct (proj1 (C85_verify_github _ _ _ _ _ _ _ _ _ _ M C U N0)) as [H _]. destruct (H X) as (_ & _ & a & g & Sa & _ & _ & E). eauto. }
  destruct Q as (a & show & p & Sa & items & v & F & _ & Vs & Al).
  assert (Ia' : In arg (va_inputs a)) by (destruct Sa as (-> & _); assumption).
  destruct (input_item _ _ _ _ F Ia') as (x & Ix & Dx). destruct (Al x Ix) as (d & b & st & Dd & Ev & Vo & _).
  destruct (evidence_made _ _ _ _ _ _ _ _ Me Ev) as (m & Mb & Cm). specialize (Lg a Sa v x Vs).
  unfold vouched in Vo. destruct (bm_env (b_inner b)) as [em|].
  - destruct Vo as (payload & inner & s & V & Va & _ & Is & Ls).
    destruct (C78_envelope_is_public _ _ _ _ _ _ _ _ _ _ HL Lg Mb Cm V) as (ms & k & sc & log & sg & _ & _ & Hh & Rc & I).
    exists x, d, (b_cert b), (b_entry b), k, log. split; [assumption|]. split; [assumption|]. split; [|auto]. right. exists payload, inner, s, sg. auto.
  - destruct Vo as (V & _). destruct (C78_artifact_is_public _ _ _ _ _ _ _ _ _ HL Lg Mb Cm V) as (ms & k & sc & log & d' & sg & _ & _ & Hh & Hd & Rc & I).
    injection Hd as <-. exists x, d, (b_cert b), (b_entry b), k, log. split; [assumption|]. split; [assumption|]. split; [|auto]. left. exists sg. assumption.
Qed.

(** ** The small honest world of PropsAuthentic.v, with a command line *)

Definition gx_tree : tree := fun p =>
  if path_eqb p [s2l "home"] then Some N_dir
  else if path_eqb p [s2l "home"; s2l "a.txt"] then Some (N_file vx_input)
  else if path_eqb p [s2l "home"; s2l "a.txt.sigstore.json"] then Some (N_file [x01])
  else None.
Definition gx_world : World :=
  mkWorld [s2l "home"] (fun _ => None) (fun _ => Raise EValue) (fun b => if bytes_eqb b [x01] then Ok ax_msg else Raise EPydantic) (fun _ => None)
    (fun _ => Raise EValue) cvx_config (fun _ _ => Raise EConnection) rkx_rp vx_now (fun _ => vx_now).
Definition gx_tools : Tools :=
  mkTools gx_world (tl_libs mx_tools) (tl_out mx_tools) (fun _ => None) (fun _ => s2l "{}") (fun _ => Some nil)
    (tl_token mx_tools) (fun _ => Ok None) (fun _ _ _ _ => Raise EIdentity) (tl_to_json mx_tools).
Definition gx : Machine :=
  mkMachine ax_env vx_parsers gx_tools (mc_lower mx) (mc_int mx) (mc_http mx) (mc_data mx) (mc_cache mx) (mc_tuf mx) (mc_embedded mx)
    (mc_parse_tr mx) (mc_parse_sc mx) (mc_parse_config mx) vx_now.

Lemma gx_calm : calm_machine gx.
Proof.
  destruct ex_mx_calm as [C1 C2 C3 C4 C5 C6 C7 C8]. constructor; cbn [mc_env mc_ps mc_tools mc_http mc_tuf mc_parse_tr mc_parse_sc mc_parse_config gx]; try assumption.
  - destruct vx_env_calm as [V1 V2 V3 V4 V5]. constructor; cbn [e_sig_verify e_parse_cert e_chain e_decode_tsr e_tsa_verify ax_env]; try assumption.
    intros s k sg d. unfold ax_verify. match goal with |- fine _ _ (if ?b then _ else _) => destruct b end; [apply V1|exact I].
  - exact (proj1 (proj2 ex_calm)).
  - destruct C3 as [D1 D2 D3 D4 D5 D6]. constructor; try (intros; exact I); try assumption.
    constructor; try (intros; exact I); try exact rkx_rp_calm. intros b. cbn. destruct (bytes_eqb b [x01]); exact I.
Qed.

Lemma gx_selected : forall a v, verifier_selected ax_env (world_at gx_tools gx_tree) a v -> v = vx_verifier.
Proof.
  intros a v (c & Cs & _ & Mv). assert (Ec : ctc_root c = vx_tr).
  { unfold config_selected in Cs. destruct (va_trust_config a).
    - destruct Cs as (raw & text & _ & _ & Q). discriminate Q.
    - destruct Cs as (url & Q & _). change (Ok c = Ok (mkCTC vx_tr (sc_msg nil None) None)) in Q. injection Q as ->. reflexivity. }
  rewrite Ec in Mv. assert (Q : make_verifier ax_env vx_now vx_tr = Ok vx_verifier) by (vm_compute; reflexivity).
  change (make_verifier ax_env vx_now vx_tr = Ok v) in Mv. congruence.
Qed.

Lemma gx_honest : forall a, services_are_honest ax_env vx_parsers ax_history (world_at gx_tools gx_tree) a.
Proof.
  intros a. split.
  - intros v i Vs. rewrite (gx_selected a v Vs). exact ex_honest_logs.
  - intros v Vs. rewrite (gx_selected a v Vs). split; [exact ex_honest_ca|exact ex_honest_tsas].
Qed.

Lemma gx_existed : materials_existed ax_history (world_at gx_tools gx_tree).
Proof.
  split; [|split].
  - intros p raw m x _ Pm Cx. cbn [w_parse_bundle world_at gx_tools gx_world tl_world] in Pm. destruct (bytes_eqb raw [x01]); [|discriminate].
    apply ax_carried. injection Pm as <-. assumption.
  - intros p pem c _ L. discriminate L.
  - intros i url req e x R. discriminate R.
Qed.

Definition gx_line : Line :=
  mx_line C_verify_identity [(O_cert_identity, s2l "a@b.c"); (O_cert_issuer, s2l "https://issuer.example")] [s2l "a.txt"].

Lemma gx_main : exists out, main gx mx_unset gx_line gx_tree nil nil gx_tree nil out (Ok tt).
Proof.
  assert (E : snd (verify_identity ax_env vx_parsers (world_at gx_tools gx_tree) (verify_args (mx_ns gx mx_unset gx_line))
    (ns_str (mx_ns gx mx_unset gx_line) O_cert_identity) (ns_str (mx_ns gx mx_unset gx_line) O_cert_issuer)) = Ok tt) by (vm_compute; reflexivity).
  eexists. apply (mx_run _ _ _ _ _ _ _ _ _ (Ok tt)); [reflexivity| |reflexivity]. apply Run_verify_identity; [reflexivity|].
  rewrite <- E. apply surjective_pairing.
Qed.

(** All hypotheses hold, and the person signed the digest of the file at second 10. *)
Example ex_genuine : exists t, (t <= c_not_after vx_leaf)%Z /\ hs_signed ax_history vx_key (toy_hash vx_input) t.
Proof.
  destruct gx_main as (out & M).
  destruct (C93_verify_identity gx mx_unset gx_line gx_tree nil nil gx_tree nil out (Ok tt) M eq_refl ex_unicode_lower gx_calm eq_refl
    ax_history gx_existed (fun a _ => gx_honest a) (s2l "a@b.c") (s2l "https://issuer.example")) with (arg := s2l "a.txt")
    as (x & d & cert & who & tl & key & Dx & Dd & _ & [-> _] & K & H).
  - exists nil, [(O_cert_issuer, s2l "https://issuer.example")]. split; [reflexivity|intros s [Q|[]]; congruence].
  - exists [(O_cert_identity, s2l "a@b.c")], nil. split; [reflexivity|intros s []].
  - discriminate.
  - left. reflexivity.
  - destruct who. change (Ok vx_key = Ok key) in K. injection K as <-. destruct (H ex_careful ex_unforgeable) as (ts & L & [Sg|(pl & inner & s & y & V & _)]).
    + exists ts. split; [assumption|]. destruct Dx as [(c & Cc & ->)|(Cn & _)]; [|vm_compute in Cn; discriminate].
      destruct Dd as (c' & Cc' & ->). vm_compute in Cc'. injection Cc' as <-. exact Sg.
    + discriminate V.
Qed.

Example ex_recorded : exists key log, hs_head ax_history key log.
Proof.
  destruct gx_main as (out & M).
  destruct (C93_public gx mx_unset gx_line gx_tree nil nil gx_tree nil out (Ok tt) M (or_introl eq_refl) ex_unicode_lower gx_calm eq_refl
    ax_history toy_hash_length gx_existed (fun a _ => proj1 (gx_honest a)) (s2l "a.txt") (or_introl eq_refl)) as (x & d & cert & e & key & log & _ & _ & _ & H & _).
  exists key, log. exact H.
Qed.

(** The same world, with a workflow instead of a person *)
Definition ghx_env : Env :=
  mkEnv (e_hash ax_env) (e_udecimal ax_env) (e_load_key ax_env) ax_verify
    (fun der => if bytes_eqb der (c_der gvx_cert) then Ok gvx_cert else e_parse_cert ax_env der)
    (e_self_issued ax_env) (e_chain ax_env) (e_decode_tsr ax_env) (e_tsa_verify ax_env).
Definition ghx_history : History :=
  mkHistory unit
    (fun _ identity issuer t => identity = s2l "https://github.com/o/r" /\ issuer = s2l "https://token.actions.githubusercontent.com" /\ t = 0%Z)
    (fun c _ t => c = gvx_cert /\ t = 0%Z)
    (hs_signed ax_history) (hs_leaked ax_history) (hs_existed ax_history) (hs_logged ax_history) (hs_head ax_history) (hs_ct ax_history).
Definition ghx : Machine :=
  mkMachine ghx_env vx_parsers gx_tools (mc_lower mx) (mc_int mx) (mc_http mx) (mc_data mx) (mc_cache mx) (mc_tuf mx) (mc_embedded mx)
    (mc_parse_tr mx) (mc_parse_sc mx) (mc_parse_config mx) vx_now.

Lemma ghx_calm : calm_machine ghx.
Proof.
  destruct gx_calm as [C1 C2 C3 C4 C5 C6 C7 C8]. constructor; try assumption.
  destruct C1 as [V1 V2 V3 V4 V5]. constructor; try assumption.
  intros der. cbn [e_parse_cert ghx mc_env ghx_env]. destruct (bytes_eqb der (c_der gvx_cert)); [repeat split; exact I|apply V2].
Qed.

Lemma ghx_selected : forall a v, verifier_selected ghx_env (world_at gx_tools gx_tree) a v -> v = vx_verifier.
Proof.
  intros a v (c & Cs & _ & Mv). assert (Ec : ctc_root c = vx_tr).
  { unfold config_selected in Cs. destruct (va_trust_config a).
    - destruct Cs as (raw & text & _ & _ & Q). discriminate Q.
    - destruct Cs as (url & Q & _). change (Ok c = Ok (mkCTC vx_tr (sc_msg nil None) None)) in Q. injection Q as ->. reflexivity. }
  rewrite Ec in Mv. assert (Q : make_verifier ghx_env vx_now vx_tr = Ok vx_verifier) by (vm_compute; reflexivity).
  change (make_verifier ghx_env vx_now vx_tr = Ok v) in Mv. congruence.
Qed.

Lemma ghx_honest_ca : honest_ca ghx_env ghx_history (vf_fulcio vx_verifier).
Proof.
  intros der c t chain (t' & Ev) P _. exists tt, 0%Z.
  assert (c = gvx_cert) as ->.
  { destruct Ev as [->|[Ev _]]; [discriminate|].
    destruct Ev as [<-|[<-|[<-|[<-|[<-|[<-|[<-|[]]]]]]]]; try (vm_compute in P; discriminate).
    change (Ok gvx_cert = Ok c) in P. congruence. }
  split; [split; reflexivity|]. intros identity issuer ((x & sans & n & X & Sa & I & Nm) & (u & Eu & He)).
  injection X as <-. injection Sa as <-. destruct I as [<-|[]].
  split; [|split; [|reflexivity]].
  - destruct Nm as [Q|[Q|(? & _ & Q)]]; [discriminate| |discriminate].
    apply (f_equal (fun g => match g with GN_uri s => s | _ => nil end)) in Q. symmetry. exact Q.
  - destruct He as (x & l1 & l2 & X & E & _). injection X as <-. cbn [x_raw gvx_exts] in E.
    assert (u = s2b "https://token.actions.githubusercontent.com") as ->.
    { destruct l1 as [|? [|? [|? [|? ?]]]]; [|discriminate|discriminate|discriminate|discriminate].
      change (fulcio_oid 1) with [1;3;6;1;4;1;57264;1;1]%N in E. apply (f_equal (fun l => match l with (_, y) :: _ => y | nil => nil end)) in E. symmetry. exact E. }
    eapply utf8_inj; [exact Eu|]. reflexivity.
Qed.

Lemma ghx_honest : forall a, services_are_honest ghx_env vx_parsers ghx_history (world_at gx_tools gx_tree) a.
Proof.
  intros a. split.
  - intros v i Vs. rewrite (ghx_selected a v Vs). exact ex_honest_logs.
  - intros v Vs. rewrite (ghx_selected a v Vs). split; [exact ghx_honest_ca|].
    intros cas ca raw tok msg _ _ (t & Ev) D V _. cbn [ghx_env ax_env e_decode_tsr e_tsa_verify vx_env toy_env] in D, V.
    destruct Ev as [->|[Ev _]]; [discriminate|].
    destruct Ev as [<-|[<-|[<-|[<-|[<-|[<-|[<-|[]]]]]]]]; try (vm_compute in D; discriminate).
    + injection D as <-. cbn in V. destruct msg; [|discriminate]. left. reflexivity.
    + injection D as <-. cbn [tsr_raw tsr_time vx_token] in V |- *. destruct (bytes_eqb vx_sig msg) eqn:Q; [|discriminate].
      apply bytes_eqb_spec in Q. subst msg. right. split; [right; left; reflexivity|vm_compute; discriminate].
Qed.

Definition ghx_line : Line :=
  mx_line C_verify_github [(O_cert_identity, s2l "https://github.com/o/r"); (O_repository, s2l "o/r")] [s2l "a.txt"].

Example ex_genuine_github : exists t, (t <= c_not_after gvx_cert)%Z /\ hs_signed ghx_history vx_key (toy_hash vx_input) t.
Proof.
  assert (M : exists out, main ghx mx_unset ghx_line gx_tree nil nil gx_tree nil out (Ok tt)).
  { assert (E : snd (verify_github ghx_env vx_parsers (world_at gx_tools gx_tree) (verify_args (mx_ns ghx mx_unset ghx_line)) (github_args (mx_ns ghx mx_unset ghx_line))) = Ok tt)
      by (vm_compute; reflexivity).
    eexists. apply (mx_run _ _ _ _ _ _ _ _ _ (Ok tt)); [reflexivity| |reflexivity]. apply Run_verify_github; [reflexivity|].
    rewrite <- E. apply surjective_pairing. }
  destruct M as (out & M).
  destruct (C93_verify_github ghx mx_unset ghx_line gx_tree nil nil gx_tree nil out (Ok tt) M eq_refl ex_unicode_lower ghx_calm eq_refl
    ghx_history gx_existed (fun a _ => ghx_honest a) (s2l "a.txt") (or_introl eq_refl))
    as (g & x & d & cert & who & tl & key & _ & _ & Dx & Dd & _ & [-> _] & K & H).
  destruct who. change (Ok vx_key = Ok key) in K. injection K as <-. destruct H as (ts & L & [Sg|(pl & inner & s & y & V & _)]).
  - intros c t0 k t [-> _] _ L. cbn in L. change (c_not_after gvx_cert) with 2000000000000000%Z. lia.
  - exact ex_unforgeable.
  - exists ts. split; [assumption|]. destruct Dx as [(c & Cc & ->)|(Cn & _)]; [|vm_compute in Cn; discriminate].
    destruct Dd as (c' & Cc' & ->). vm_compute in Cc'. injection Cc' as <-. exact Sg.
  - discriminate V.
Qed.

Print Assumptions C93_verify_identity.
Print Assumptions C93_verify_github.
Print Assumptions C93_public.
