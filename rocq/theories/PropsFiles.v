(** Property C111: what the files say when [sigstore verify] accepts them. *)
From Verif Require Import Base Codec CodecMore NoteText Messages Env Keyring KeyringProofs Merkle MerkleSpec FloatMs Cert Sct PropsSct Dsse KeyDetails Policy TrustedRoot SigningConfig Hashing Json Http
  Oidc Oauth Checkpoint LogEntry PropsLogEntry Bundle Verifier RekorClient Clients Tuf PyText CliVerify Sign SignSteps Predicate CliSign CliMain CliTrust Calm VerifierSpec
  PropsMerkle PropsTrustedRoot PropsDsse PropsPolicy PropsBundle PropsTuf PropsVerifier PropsCliVerify PropsSigningConfig PropsCliMain PropsServices PropsCliEnv PropsAuthentic PropsGenuine PropsRekorClient PropsCliSign ToyHash ToyEnv ToyBundles ToySign.
From Verif Require Import JsonText PropsJsonText StatementJson PropsStatement BundleJson PropsBundleJson TrustJson PropsTrustJson EntryJson PropsEntryJson.

(** ** Specification *)

(** members of a bundle, with their other spelling *)
Definition media_ : String.string * String.string := ("mediaType", "media_type")%string.
Definition material_ : String.string * String.string := ("verificationMaterial", "verification_material")%string.
Definition chain_ : String.string * String.string := ("x509CertificateChain", "x509_certificate_chain")%string.
Definition raw_ : String.string * String.string := ("rawBytes", "raw_bytes")%string.
Definition entries_ : String.string * String.string := ("tlogEntries", "tlog_entries")%string.
Definition body_ : String.string * String.string := ("canonicalizedBody", "canonicalized_body")%string.
Definition proof_ : String.string * String.string := ("inclusionProof", "inclusion_proof")%string.
Definition promise_ : String.string * String.string := ("inclusionPromise", "inclusion_promise")%string.
Definition set_ : String.string * String.string := ("signedEntryTimestamp", "signed_entry_timestamp")%string.
Definition log_id_ : String.string * String.string := ("logId", "log_id")%string.
Definition key_id_ : String.string * String.string := ("keyId", "key_id")%string.
Definition log_index_ : String.string * String.string := ("logIndex", "log_index")%string.
Definition time_ : String.string * String.string := ("integratedTime", "integrated_time")%string.
Definition kind_version_ : String.string * String.string := ("kindVersion", "kind_version")%string.
Definition timestamps_ : String.string * String.string := ("timestampVerificationData", "timestamp_verification_data")%string.
Definition rfc3161_ : String.string * String.string := ("rfc3161Timestamps", "rfc3161_timestamps")%string.
Definition signed_timestamp_ : String.string * String.string := ("signedTimestamp", "signed_timestamp")%string.
Definition message_ : String.string * String.string := ("messageSignature", "message_signature")%string.
Definition digest_ : String.string * String.string := ("messageDigest", "message_digest")%string.
Definition envelope_ : String.string * String.string := ("dsseEnvelope", "dsse_envelope")%string.
Definition payload_type_ : String.string * String.string := ("payloadType", "payload_type")%string.

Definition IN_TOTO : str := s2l "application/vnd.in-toto+json".

Section Files.
Variables (env : Env) (lib : TrustLib) (bl : BundleLib) (el : EntryLib) (jl : JsonLib).
(** the trusted root of the trust configuration, the times at which the verifier was made and was used *)
Variables (ro : list (str * json)) (start now : time).
(** the bundle, as a JSON value *)
Variable j : json.

Definition number_at (x : json) (path : list (String.string * String.string)) (z : Z) : Prop := exists y, found x path y /\ bl_number bl y = Some z.
(** no such member, or null *)
Definition absent (k : String.string * String.string) : Prop := forall x, found j [k] x -> x = JNull.

(** the certificate of the bundle *)
Definition certificate_in (c : Cert) : Prop := exists media der, text_at j [media_] media /\ e_parse_cert env der = Ok c /\
  (In media [s2l "application/vnd.dev.sigstore.bundle+json;version=0.3"; s2l "application/vnd.dev.sigstore.bundle.v0.3+json"] /\
     bytes_at j [material_; step "certificate"; raw_] der \/
   In media [s2l "application/vnd.dev.sigstore.bundle+json;version=0.1"; s2l "application/vnd.dev.sigstore.bundle+json;version=0.2"] /\
     exists first rest, found j [material_; chain_; step "certificates"] (JList (first :: rest)) /\ bytes_at first [raw_] der).
(** its log entry; there is one *)
Definition entry_in (je : json) : Prop := found j [material_; entries_] (JList [je]).

(** a time at which the signature existed: according to a listed timestamp authority, or a listed log *)
Definition witnessed (je : json) (body sg : bytes) (t : time) : Prop :=
  (exists stamps s raw tok ca, found j [material_; timestamps_; rfc3161_] (JList stamps) /\ In s stamps /\ bytes_at s [signed_timestamp_] raw /\
     e_decode_tsr env raw = Ok tok /\ t = tsr_time tok /\ listed_tsa lib env ro ca /\ vouches env now ca tok sg) \/
  (exists secs set id index k s, number_at je [time_] secs /\ t = (secs * 1000000)%Z /\ bytes_at je [promise_; set_] set /\
     bytes_at je [log_id_; key_id_] id /\ number_at je [log_index_] index /\ text_at je [kind_version_; step "version"] (s2l "0.0.1") /\
     listed_key lib env ro now "tlogs" k s /\ e_sig_verify env s k set (ascii_bytes (set_text body secs id index)) = Ok tt).
(** the certificate is of a listed CA, was valid at all of these times, and is in a listed CT log *)
Definition certified (c : Cert) (times : list time) : Prop :=
  (exists fulcio, (forall x, In x fulcio <-> listed_ca_certificate lib env ro start x) /\
     (forall t, In t times -> (c_not_before c <= t <= c_not_after c)%Z /\ exists chain, e_chain env fulcio t c = Ok chain) /\
     exists x sct d k s entry, c_exts c = Ok x /\ x_scts x = Some [sct] /\ listed_key lib env ro now "ctlogs" k s /\
       e_sig_verify env s k (sct_signature sct) d = Ok tt /\
       decode_ct d = Some (mkCt (sct_version sct) 0 (Z.to_N (float_ms (sct_timestamp sct))) entry (sct_extensions sct)) /\
       (entry = CT_x509 (c_der c) \/ exists t chain issuer pk tbs, In t times /\ e_chain env fulcio t c = Ok chain /\ ct_issuer (List.tl chain) issuer /\
          c_pubkey issuer = Ok pk /\ c_tbs_precert c = Ok tbs /\ entry = CT_precert (e_hash env SHA256 (pk_spki pk)) tbs)) /\
  (exists x crit ekus, c_exts c = Ok x /\ x_ku x = Some (true, crit) /\ x_eku x = Some ekus /\ In [1;3;6;1;5;5;7;3;3]%N ekus).
(** the checkpoint is signed by a listed log; every log with the root that it states has the body, unless there are
    two strings with the same hash among those of the log and of the inclusion proof *)
Definition published (je : json) (body : bytes) : Prop :=
  exists po text p0 data note sg k s origin size hash other root,
    found je [proof_] (JObj po) /\ text_at je [proof_; step "checkpoint"; step "envelope"] text /\
    text = p0 ++ [NL; NL] ++ data /\ utf8_encode (p0 ++ [NL]) = Some note /\ listed_key lib env ro now "tlogs" k s /\ e_sig_verify env s k sg note = Ok tt /\
    note_lines (p0 ++ [NL]) (origin :: size :: hash :: other) /\ b64decode hash = Ok root /\
    forall log, root = MTH (e_hash env SHA256) log -> In body log \/
      exists path, has_list (bl_lists bl) in_base64 po "hashes" "hashes" (map snd path) /\
        collision_between (e_hash env SHA256) (tree_strings (e_hash env SHA256) log) (proof_strings (e_hash env SHA256) body path).

(** the signature of an artifact, and the text of the log entry for it *)
Definition artifact_signed (je : json) (body : bytes) (c : Cert) (key : pubkey) (sg digest : bytes) : Prop :=
  absent envelope_ /\ bytes_at j [message_; step "signature"] sg /\ e_sig_verify env (ECDSA_prehashed SHA256) key sg digest = Ok tt /\
  (forall d, bytes_at j [message_; digest_; step "digest"] d -> d = digest) /\
  text_at je [kind_version_; step "kind"] (s2l "hashedrekord") /\
  exists jb, text_of el body jb /\
    (text_at je [kind_version_; step "version"] (s2l "0.0.1") /\ rekord_texts jb digest sg (c_der c) \/
     text_at je [kind_version_; step "version"] (s2l "0.0.2") /\ exists d details, get_key_details c = Ok d /\ details_name d = Some details /\
       v2_texts jb (s2l "SHA2_256") digest sg (c_der c) details).
(** the signature of a statement with a subject of that digest, and the text of the log entry for it *)
Definition statement_signed (je : json) (body : bytes) (c : Cert) (key : pubkey) (sg digest : bytes) : Prop :=
  exists payload s, text_at j [envelope_; payload_type_] IN_TOTO /\ bytes_at j [envelope_; step "payload"] payload /\
    found j [envelope_; step "signatures"] (JList [s]) /\ bytes_at s [step "sig"] sg /\
    e_sig_verify env (ECDSA SHA256) key sg (dsse_pae (ascii_bytes IN_TOTO) payload) = Ok tt /\
    (exists text o subs so ds, utf8_encode text = Some payload /\ json_text jl (JObj o) text /\
       given o "_type" "type_" (JStr (s2l "https://in-toto.io/Statement/v1")) /\ given o "subject" "subjects" (JList subs) /\
       In (JObj so) subs /\ In (s2l "digest", JObj ds) so /\ In (s2l "sha256", JStr (hex digest)) ds) /\
    exists jb, text_of el body jb /\
      (text_at je [kind_version_; step "kind"] (s2l "dsse") /\ text_at je [kind_version_; step "version"] (s2l "0.0.1") /\
         dsse_texts jb (e_hash env SHA256 payload) sg (c_der c) \/
       text_at je [kind_version_; step "kind"] (s2l "hashedrekord") /\ text_at je [kind_version_; step "version"] (s2l "0.0.2") /\
         exists d alg h an details, get_key_details c = Ok d /\ get_prehash d = Ok (alg, h) /\ algorithm_name alg = Some an /\ details_name d = Some details /\
         v2_texts jb an (e_hash env h (dsse_pae (ascii_bytes IN_TOTO) payload)) sg (c_der c) details).

(** all together, for a certificate with the property [Q] *)
Definition bundle_says (Q : Cert -> Prop) (digest : bytes) : Prop :=
  exists c key je body sg times, certificate_in c /\ Q c /\ c_pubkey c = Ok key /\ entry_in je /\ bytes_at je [body_] body /\
    times <> nil /\ (forall t, In t times -> witnessed je body sg t) /\ certified c times /\ published je body /\
    (artifact_signed je body c key sg digest \/ statement_signed je body c key sg digest).
End Files.

(** bytes of a bundle that says so *)
Definition file_says (env : Env) (lib : TrustLib) (bl : BundleLib) (el : EntryLib) (jl : JsonLib) (ro : list (str * json)) (start now : time)
  (raw : bytes) (Q : Cert -> Prop) (digest : bytes) : Prop :=
  exists text j, utf8_encode text = Some raw /\ json_text (bl_json bl) j text /\ bundle_says env lib bl el jl ro start now j Q digest.

(** a machine that reads all these texts as JSON *)
Record reads_texts (mc : Machine) (lib : TrustLib) (bl : BundleLib) (el : EntryLib) (jl : JsonLib) : Prop := {
  rt_config : w_config_json (tl_world (mc_tools mc)) = parse_trust_config lib;
  rt_bundle : w_parse_bundle (tl_world (mc_tools mc)) = parse_bundle bl;
  rt_entries : mc_ps mc = entry_parsers el;
  rt_statements : forall b, w_validate (tl_world (mc_tools mc)) b = validate_json jl b
}.

(** neither [--certificate] nor [--signature] is given *)
Definition bundled (environ : str -> option str) (l : Line) : Prop :=
  forall s, ~ has_value environ l O_certificate (Some s) /\ ~ has_value environ l O_signature (Some s).

(** ** Proofs *)

Ltac steps := unfold bytes_at, text_at, number_at, entry_in, step, media_, material_, chain_, raw_, entries_, body_, proof_, promise_, set_, log_id_, key_id_, log_index_, time_,
  kind_version_, timestamps_, rfc3161_, signed_timestamp_, message_, digest_, envelope_, payload_type_ in *.
Ltac walk := repeat (eapply Found_in; [eassumption|]); apply Found_here.

Section Proofs.
Variables (env : Env) (lib : TrustLib) (bl : BundleLib) (el : EntryLib) (jl : JsonLib).
Variables (ro : list (str * json)) (tr : TrustedRootMsg).
Hypothesis Dr : dicts (JObj ro).
Hypothesis Rr : root_of lib (JObj ro) tr.
Variables (start now : time) (v : Verifier).
Hypothesis Mv : make_verifier env start tr = Ok v.
Hypothesis H32 : forall x, length (e_hash env SHA256 x) = 32.
Variables (j : json) (m : BundleMsg) (b : Bundle).
Hypothesis Dj : dicts j.
Hypothesis Cm : content_of bl j m.
Hypothesis Mb : make_bundle env m = Ok b.

Lemma vf_parts : vf_root v = tr /\ get_fulcio_certs env start tr = Ok (vf_fulcio v).
Proof.
  pose proof Mv as M. unfold make_verifier in M. destruct (get_fulcio_certs env start tr) as [certs|]; [|discriminate]. cbn [bind] in M.
  destruct (index_list (tr_tlogs tr) 0) as [tlog|]; [|discriminate]. injection M as <-. auto.
Qed.
Lemma inner_m : b_inner b = m.
Proof. apply C34_bundle_iff in Mb. tauto. Qed.

Lemma says_certificate : certificate_in env j (b_cert b).
Proof.
  apply C34_bundle_iff in Mb. destruct Mb as (_ & S & _). destruct Cm as (o & E & (jm & Gm & Em) & (jv & Gv & (ov & ts & Ev & Hc & Hx & _)) & _).
  unfold in_text in Em. subst jm jv j. destruct S as [[Md (der & Vc & P)]|[Md (der & ders & Vc & P & _)]]; rewrite Vc in *; exists (bm_media m), der.
  - split; [steps; walk|]. split; [exact P|]. left. split; [exact Md|]. apply may_some in Hc. destruct Hc as (jc & Gc & (oc & -> & (jr & Gr & (s & -> & D)))).
    exists s. split; [steps; walk|exact D].
  - split; [steps; walk|]. split; [exact P|]. right. split; [exact Md|]. apply may_some in Hx. destruct Hx as (jc & Gc & (oc & -> & L)).
    inversion L as [|js l G F]; subst. inversion F as [|first ? rest ? H1 H2]; subst. exists first, rest. split; [steps; walk|].
    destruct H1 as (of & -> & (jr & Gr & (s & -> & D))). exists s. split; [steps; walk|exact D].
Qed.

(** the entry of the bundle, as JSON *)
Lemma says_entry : exists je, entry_in j je /\ entry_of bl je (b_entry b).
Proof.
  apply C34_bundle_iff in Mb. destruct Mb as (_ & _ & En & _). destruct Cm as (o & E & _ & (jv & Gv & (ov & ts & Ev & _ & _ & L & _)) & _).
  rewrite En in L. inversion L as [|js l G F]; subst. inversion F as [|je ? rest ? H1 H2]; subst. inversion H2; subst. exists je. split; [steps; walk|exact H1].
Qed.
Lemma entry_body : forall je e, entry_of bl je e -> bytes_at je [body_] (le_body e).
Proof. intros je e (o & -> & _ & _ & _ & _ & _ & _ & (jb & G & (s & -> & D))). exists s. split; [steps; walk|exact D]. Qed.
Lemma entry_kind : forall je e, entry_of bl je e -> text_at je [kind_version_; step "kind"] (le_kind e) /\ text_at je [kind_version_; step "version"] (le_version e).
Proof. intros je e (o & -> & _ & _ & (jk & G & (ok & -> & (j1 & G1 & ->) & (j2 & G2 & ->))) & _). split; steps; walk. Qed.

Lemma says_witnessed : forall p times je sg, signer_accepted env now v b p times -> entry_of bl je (b_entry b) -> signature_of b sg ->
  forall t, In t times -> witnessed env lib bl ro now j je (le_body (b_entry b)) sg t.
Proof.
  intros p times je sg H Ee Sg t I. destruct vf_parts as [V _]. rewrite <- V in Rr.
  destruct (C27_trusted_time_sources _ _ _ _ _ _ _ H I) as [(raw & tok & cas & ca & sg' & A1 & A2 & A3 & A4 & A5 & A6 & A7)|(secs & set & ms & k & s & A1 & A2 & A3 & A4 & A5 & A6 & A7 & A8)].
  - left. assert (sg' = sg).
    { unfold signature_of in A6, Sg. destruct (bm_env (b_inner b)); [destruct A6, Sg; congruence|]. destruct A6 as (ms1 & X1 & X2), Sg as (ms2 & Y1 & Y2). congruence. }
    subst sg'. rewrite inner_m in A1. destruct Cm as (o & E & _ & (jv & Gv & (ov & ts & Ev & _ & _ & _ & T & Et)) & _). rewrite Et in A1. destruct ts as [l|]; [|cbn in A1; contradiction].
    clear Et. apply may_some in T. destruct T as (jt & Gt & (ot & -> & L)). inversion L as [|js l' G F]; subst; [cbn in A1; contradiction|].
    destruct (Forall2_in_r _ _ _ _ _ F _ A1) as (s & Is & (os & -> & (jr & Gr & (x & -> & D)))).
    exists js, (JObj os), raw, tok, ca. split; [steps; walk|]. split; [exact Is|]. split; [exists x; split; [steps; walk|exact D]|].
    split; [exact A2|]. split; [reflexivity|]. split; [eapply tsa_listed; eassumption|exact A7].
  - right. exists secs, set, (le_log_id (b_entry b)), (le_log_index (b_entry b)), k, s.
    destruct (entry_kind _ _ Ee) as [_ Kv]. rewrite A5 in Kv.
    destruct Ee as (o & -> & (ji & Gi & Ni) & (jd & Gd & (od & -> & (jk & Gk & (x & -> & Dx)))) & _ & Ht & Hp & _).
    rewrite A1 in Ht. rewrite A4 in Hp. apply may_some in Ht, Hp. destruct Ht as (jt & Gt & Nt), Hp as (jp & Gp & (op_ & -> & (jq & Gq & (y & -> & Dy)))).
    split; [exists jt; split; [steps; walk|exact Nt]|]. split; [exact A3|]. split; [exists y; split; [steps; walk|exact Dy]|].
    split; [exists x; split; [steps; walk|exact Dx]|]. split; [exists ji; split; [steps; walk|exact Ni]|]. split; [exact Kv|].
    split; [eapply rekor_listed; eassumption|exact A8].
Qed.
Lemma says_certified : forall p times, signer_accepted env now v b p times -> certified env lib ro start now (b_cert b) times.
Proof.
  intros p times H. destruct vf_parts as [V F].
  destruct (C24_accepted_certificate _ _ _ _ _ _ H) as (Nn & Ch & (ms & x & s & d & k & sc & Ck & Ex & Sx & Rg & Vs & Ty & (e & De & Em)) & Ku & _).
  rewrite V in Ck. split.
  - exists (vf_fulcio v). split; [apply (fulcio_listed env lib tr ro Dr Rr); exact F|]. split; [exact Ch|].
    exists x, s, d, k, sc, e. repeat (split; [assumption|]). split; [eapply ct_listed; eassumption|]. split; [exact Vs|]. split; [exact De|].
    destruct (sct_entry_type s); [left; exact Em|right; exact Em|right; exact Em].
  - destruct Ku as (x' & crit & ekus & K). exists x', crit, ekus. exact K.
Qed.
Lemma says_published : forall p times je, signer_accepted env now v b p times -> entry_of bl je (b_entry b) ->
  published env lib bl ro now je (le_body (b_entry b)).
Proof.
  intros p times je H Ee. destruct vf_parts as [V _].
  destruct (C24_accepted_log_entry _ _ _ _ _ _ H32 H) as (ms & Rk & Le). rewrite V in Rk.
  pose proof Mb as W. apply C34_bundle_iff in W. destruct W as (_ & _ & _ & _ & (ip & text0 & Ip & Tx) & _).
  destruct (Le ip Ip) as ((text & p0 & data & note & sg & k & s & B1 & B2 & B3 & B4 & B5 & (origin & size & hash & other & B6 & B7)) & In_ & _).
  destruct Ee as (o & -> & _ & _ & _ & _ & _ & Hp & _). rewrite Ip in Hp. apply may_some in Hp.
  destruct Hp as (jp & Gp & (po & -> & _ & _ & _ & Hh & Hc)). rewrite B1 in Hc. apply may_some in Hc. destruct Hc as (jc & Gc & (oc & -> & (jt & Gt & Et))).
  unfold in_text in Et. subst jt. exists po, text, p0, data, note, sg, k, s, origin, size, hash, other, (ip_root_hash ip).
  split; [steps; walk|]. split; [steps; walk|]. split; [exact B2|]. split; [exact B3|]. split; [eapply rekor_listed; eassumption|]. split; [exact B5|]. split; [exact B6|]. split; [exact B7|].
  intros log El. destruct (In_ log El) as [I|(path & Ep & Co)]; [left; exact I|right; exists path; split; [|exact Co]]. rewrite Ep. exact Hh.
Qed.

Lemma no_envelope : bm_env m = None -> absent j envelope_.
Proof.
  intros En x F. destruct Cm as (o & Eo & _ & _ & _ & He). rewrite En in He. unfold envelope_ in F. subst j.
  inversion F as [|o' k k' y path z G F1]; subst. inversion F1; subst.
  inversion He as [N1 N2|G'|]; subst.
  - exfalso. destruct G as [G|[_ G]]; apply (in_map fst) in G; contradiction.
  - eapply given_unique; eassumption.
Qed.

Lemma artifact_says : forall i digest p (Q : Cert -> Prop),
  verify_artifact env (entry_parsers el) now v i b p = Ok tt -> h_digest (sha256_digest env i) = digest -> bm_env (b_inner b) = None ->
  Q (b_cert b) -> bundle_says env lib bl el jl ro start now j Q digest.
Proof.
  intros i digest p Q A Hd0 Ne Hq. destruct (C24_accepted_artifact _ _ _ _ _ _ _ A) as ((times & S) & ms & key & dg0 & Em & Ed & Md & Kp & Sv & _).
  rewrite Ed in Hd0. cbn [h_digest] in Hd0. subst dg0.
  destruct (C110_artifact _ _ _ _ _ _ _ A) as (jb & dg & sg & Tb & Ed' & (ms' & Em' & Es) & Kd & Alt). rewrite Ed in Ed'. cbn [h_digest] in Ed'. subst dg.
  rewrite Em in Em'. injection Em' as <-. subst sg. destruct says_entry as (je & Ie & Ee). destruct (entry_kind _ _ Ee) as [K1 K2].
  exists (b_cert b), key, je, (le_body (b_entry b)), (ms_signature ms), times.
  split; [exact says_certificate|]. split; [exact Hq|]. split; [exact Kp|]. split; [exact Ie|]. split; [apply entry_body; exact Ee|].
  split; [destruct (C24_accepted_certificate _ _ _ _ _ _ S) as (Nn & _); exact Nn|].
  split; [apply (says_witnessed p); [exact S|exact Ee|]; unfold signature_of; rewrite Ne; eauto|].
  split; [eapply says_certified; exact S|]. split; [eapply says_published; eassumption|]. left. rewrite inner_m in Em, Ne.
  split; [apply no_envelope; exact Ne|].
  pose proof Cm as (o & Eo & _ & _ & Hm & _). rewrite Em in Hm. apply may_some in Hm. destruct Hm as (jm & Gm & (om & -> & Hd & (js & Gs & (x & -> & Dx)))).
  subst j. split; [exists x; split; [steps; walk|exact Dx]|]. split; [exact Sv|]. split.
  - intros d (y & F & Dy). steps. inversion F as [|o1 ? ? j1 ? ? G1 F1]; subst. pose proof (given_unique _ Dj _ _ _ _ Gm G1) as E. subst j1.
    inversion F1 as [|o2 ? ? j2 ? ? G2 F2]; subst. inversion F2 as [|o3 ? ? j3 ? ? G3 F3]; subst. inversion F3; subst.
    pose proof (dicts_given _ Dj _ _ _ Gm) as Dm. inversion Hd as [N1 N2|G'|j4 ad G' Nn' Hdg]; subst.
    + exfalso. destruct G2 as [G|[_ G]]; apply (in_map fst) in G; contradiction.
    + pose proof (given_unique _ Dm _ _ _ _ G2 G') as E. discriminate E.
    + pose proof (given_unique _ Dm _ _ _ _ G2 G') as E. subst j4. destruct Hdg as (o5 & E5 & _ & (j6 & G6 & (z & -> & Dz))). injection E5 as <-.
      pose proof (given_unique _ (dicts_given _ Dm _ _ _ G2) _ _ _ _ G3 G6) as E. injection E as ->. destruct ad as [a0 d0]. cbn [snd] in Dz.
      assert (d = d0) by congruence. subst d0. eapply Md. symmetry. eassumption.
  - rewrite Kd in K1. split; [exact K1|]. exists jb. split; [exact Tb|]. destruct Alt as [(Ve & Rt & _)|(Ve & X)]; rewrite Ve in K2; [left|right]; auto.
Qed.

Lemma statement_says : forall digest p (Q : Cert -> Prop) payload inner s,
  verify_dsse env (entry_parsers el) now v b p = Ok (s2l "application/vnd.in-toto+json", payload) ->
  validate_json jl payload = Some inner -> In s (st_subjects inner) -> lists_sha256 s (hex digest) ->
  Q (b_cert b) -> bundle_says env lib bl el jl ro start now j Q digest.
Proof.
  intros digest p Q payload inner s A Va Is Ls Hq.
  destruct (C25_accepted_dsse _ _ _ _ _ _ _ _ A) as ((times & S) & em & sg & key & x & Ee_ & Ety & Epl & Esg & Nn & Kp & Pa & Sv & _).
  destruct (C110_envelope _ _ _ _ _ _ _ _ A) as (jb & sg' & Tb & (em' & Em' & Es) & Alt). rewrite Ee_ in Em'. injection Em' as <-. rewrite Esg in Es. injection Es as <-.
  assert (Px : x = dsse_pae (ascii_bytes IN_TOTO) payload).
  { change (s2l "application/vnd.in-toto+json") with IN_TOTO in Pa. rewrite (C21_ascii_types_follow_the_specification IN_TOTO payload eq_refl) in Pa. congruence. }
  destruct says_entry as (je & Ie & Ee). destruct (entry_kind _ _ Ee) as [K1 K2].
  exists (b_cert b), key, je, (le_body (b_entry b)), sg, times.
  split; [exact says_certificate|]. split; [exact Hq|]. split; [exact Kp|]. split; [exact Ie|]. split; [apply entry_body; exact Ee|].
  split; [destruct (C24_accepted_certificate _ _ _ _ _ _ S) as (N0 & _); exact N0|].
  split; [apply (says_witnessed p); [exact S|exact Ee|]; unfold signature_of; rewrite Ee_; auto|].
  split; [eapply says_certified; exact S|]. split; [eapply says_published; eassumption|]. right. rewrite inner_m in Ee_.
  pose proof Cm as (o & Eo & _ & _ & _ & He). rewrite Ee_ in He. apply may_some in He.
  destruct He as (jm & Gm & (om & -> & (jp & Gp & (y & -> & Dy)) & (jt & Gt & Et) & L)). unfold in_text in Et. subst jt. rewrite Esg in L.
  inversion L as [|js l0 G F]; subst l0. inversion F as [|s1 ? rest ? H1 H2]; subst. inversion H2; subst. destruct H1 as (os & -> & (jr & Gr & (z & -> & Dz))).
  exists (em_payload em), (JObj os). split; [rewrite Ety in Gt; steps; walk|]. split; [exists y; split; [steps; walk|exact Dy]|].
  split; [steps; walk|]. split; [exists z; split; [steps; walk|exact Dz]|]. split; [exact Sv|]. split.
  - pose proof Va as Va'. apply C104_accepts in Va'. destruct Va' as (text & ob & subs & U & T & Ty & Sb & _).
    assert (Mt : matches_digest (mkStatement (em_payload em) inner) (mkHashed HA_SHA2_256 digest) = Ok true).
    { apply C23_matches_iff. exists s. auto. }
    apply (C104_subject_digest jl _ _ Va) in Mt. destruct Mt as (text' & o' & subs' & so & ds & U' & T' & Sb' & I1 & I2 & I3).
    assert (text' = text) by (apply utf8_decode_iff in U, U'; congruence). subst text'. pose proof (unambiguous _ _ _ _ T T') as E. injection E as <-.
    exists text, ob, subs', so, ds. auto 10.
  - exists jb. split; [exact Tb|]. destruct Alt as [(Kd & Ve & Dt & _)|(Kd & Ve & d & alg & h & x & an & details & X1 & X2 & X3 & X4 & X5 & X6)]; rewrite Kd in K1; rewrite Ve in K2; [left; auto|right].
    split; [exact K1|]. split; [exact K2|]. exists d, alg, h, an, details. rewrite Pa in X3. injection X3 as <-. auto 10.
Qed.
End Proofs.

(** ** C111 *)

(** The library: a verifier made from a trust configuration, a bundle read from bytes. *)
Theorem C111_artifact : forall env lib bl el jl text c ro start now v raw b i p, (forall x, length (e_hash env SHA256 x) = 32) ->
  parse_trust_config lib text = Ok c -> root_in lib text ro -> make_verifier env start (ctc_root c) = Ok v ->
  bundle_from_json env (parse_bundle bl) raw = Ok b -> bm_env (b_inner b) = None ->
  verify_artifact env (entry_parsers el) now v i b p = Ok tt ->
  file_says env lib bl el jl ro start now raw (fun c => policy_verify p c = Ok tt) (h_digest (sha256_digest env i)).
Proof.
  intros env lib bl el jl text c ro start now v raw b i p H32 Pc Rt Mv B Ne A. destruct (root_unique _ _ _ _ Pc Rt) as [Dr Rr].
  unfold bundle_from_json in B. apply bind_ok_inv in B. destruct B as (m & P & Mb). destruct (parse_bundle bl raw) as [m'|e] eqn:Pb; cbn [try_except] in P; [injection P as ->|destruct (is_value_error e); discriminate].
  apply C107_accepts in Pb. destruct Pb as (tx & j & U & T & Cm). exists tx, j. split; [exact U|]. split; [exact T|].
  eapply artifact_says; try eassumption; [exact (json_dicts _ _ _ T)|reflexivity|].
  destruct (C24_accepted_artifact _ _ _ _ _ _ _ A) as ((times & S) & _). unfold signer_accepted in S. tauto.
Qed.
Theorem C111_statement : forall env lib bl el jl text c ro start now v raw b p payload inner digest, (forall x, length (e_hash env SHA256 x) = 32) ->
  parse_trust_config lib text = Ok c -> root_in lib text ro -> make_verifier env start (ctc_root c) = Ok v ->
  bundle_from_json env (parse_bundle bl) raw = Ok b ->
  verify_dsse env (entry_parsers el) now v b p = Ok (s2l "application/vnd.in-toto+json", payload) ->
  validate_json jl payload = Some inner -> matches_digest (mkStatement payload inner) (mkHashed HA_SHA2_256 digest) = Ok true ->
  file_says env lib bl el jl ro start now raw (fun c => policy_verify p c = Ok tt) digest.
Proof.
  intros env lib bl el jl text c ro start now v raw b p payload inner digest H32 Pc Rt Mv B A Va Md. destruct (root_unique _ _ _ _ Pc Rt) as [Dr Rr].
  apply C23_matches_iff in Md. destruct Md as (s & Is & Ls). cbn [st_inner] in Is.
  unfold bundle_from_json in B. apply bind_ok_inv in B. destruct B as (m & P & Mb). destruct (parse_bundle bl raw) as [m'|e] eqn:Pb; cbn [try_except] in P; [injection P as ->|destruct (is_value_error e); discriminate].
  apply C107_accepts in Pb. destruct Pb as (tx & j & U & T & Cm). exists tx, j. split; [exact U|]. split; [exact T|].
  eapply statement_says; try eassumption; [exact (json_dicts _ _ _ T)|].
  destruct (C25_accepted_dsse _ _ _ _ _ _ _ _ A) as ((times & S) & _). unfold signer_accepted in S. tauto.
Qed.

(** The commands.  [Q] is what the policy requires of certificates. *)
Lemma command_says : forall mc environ l t0 lib bl el jl file a p show (Q : Cert -> Prop),
  reads_texts mc lib bl el jl -> (forall x, length (e_hash (mc_env mc) SHA256 x) = 32) -> last_given l O_trust_config file -> bundled environ l ->
  (forall c, policy_verify p c = Ok tt -> Q c) ->
  let env := mc_env mc in let w := world_at (mc_tools mc) t0 in
  says_verify environ l a -> every_input_verified env (mc_ps mc) w a show p ->
  exists raw text ro, content w (path_of file) = Some raw /\ utf8_decode raw = Some text /\ root_in lib text ro /\
  forall arg, In arg (ln_positional l) -> exists x d f rawb, denotes w arg x /\ PropsCliVerify.digest_of env w x d /\
    bundle_file w a x f /\ content w f = Some rawb /\ file_says env lib bl el jl ro (w_start w) (w_when w x) rawb Q d.
Proof.
  intros mc environ l t0 lib bl el jl file a p show Q [J1 J2 J3 J4] H32 Lg Bd HQ env w Sa (items & v & F & _ & (c & Cs & _ & Mv) & Al).
  assert (Tc : va_trust_config a = Some (path_of file)).
  { destruct Sa as (_ & _ & _ & _ & _ & (val & Hv & E) & _). rewrite E. destruct Hv as [s L|vn s Ng V Ev|Ng _].
    - cbn [option_map]. do 2 f_equal. eapply last_given_unique; eassumption.
    - inversion V.
    - destruct Lg as (l1 & l2 & El & _). exfalso. eapply Ng. rewrite El. apply in_elt. }
  assert (Nd : ~ detached a).
  { destruct Sa as (_ & (vc & Hc & Ec) & (vs & Hs & Es) & _). unfold detached. rewrite Ec, Es. intros [N|N].
    - destruct vc as [s|]; [|apply N; reflexivity]. exact (proj1 (Bd s) Hc).
    - destruct vs as [s|]; [|apply N; reflexivity]. exact (proj2 (Bd s) Hs). }
  unfold config_selected in Cs. rewrite Tc in Cs. destruct Cs as (raw & text & Ct & Ud & Pc). exists raw, text.
  change (w_config_json w) with (w_config_json (tl_world (mc_tools mc))) in Pc. rewrite J1 in Pc. symmetry in Pc.
  destruct (C108_members _ _ _ Pc) as (ro & so & Rt & _). exists ro. split; [exact Ct|]. split; [exact Ud|]. split; [exact Rt|].
  intros arg Ia. assert (Ia' : In arg (va_inputs a)) by (destruct Sa as (-> & _); assumption).
  destruct (input_item _ _ _ _ F Ia') as (x & Ix & Dx). destruct (Al x Ix) as (d & b & st & Dd & Ev & Vo & _).
  destruct Ev as [(_ & f & rawb & Bf & Cf & B)|[D _]]; [|contradiction]. exists x, d, f, rawb. repeat (split; [assumption|]).
  change (w_parse_bundle w) with (w_parse_bundle (tl_world (mc_tools mc))) in B. rewrite J2 in B. unfold vouched in Vo. rewrite J3 in Vo.
  assert (Fs : file_says env lib bl el jl ro (w_start w) (w_when w x) rawb (fun c => policy_verify p c = Ok tt) d).
  { destruct (bm_env (b_inner b)) as [m|] eqn:Eb.
    - destruct Vo as (payload & inner & s & Vd & Va & _ & Is & Ls). change (w_validate w payload) with (w_validate (tl_world (mc_tools mc)) payload) in Va. rewrite J4 in Va.
      eapply C111_statement; try eassumption. apply C23_matches_iff. exists s. auto.
    - destruct Vo as (Va & _).
      exact (C111_artifact env lib bl el jl text c ro (w_start w) (w_when w x) v rawb b (In_hashed (mkHashed HA_SHA2_256 d)) p H32 Pc Rt Mv B Eb Va). }
  destruct Fs as (tx & j & U & T & c1 & key & je & body & sg & times & A1 & A2 & Rest). exists tx, j. split; [exact U|]. split; [exact T|].
  exists c1, key, je, body, sg, times. split; [exact A1|]. split; [apply HQ; exact A2|exact Rest].
Qed.

Theorem C111_verify_identity : forall mc environ l t0 h0 sched t h out r lib bl el jl file identity issuer,
  main mc environ l t0 h0 sched t h out r -> ln_command l = C_verify_identity -> unicode_lower (mc_lower mc) -> calm_machine mc ->
  (forall x, length (e_hash (mc_env mc) SHA256 x) = 32) -> reads_texts mc lib bl el jl ->
  last_given l O_trust_config file -> bundled environ l ->
  last_given l O_cert_identity identity -> last_given l O_cert_issuer issuer -> issuer <> nil -> exit_status r = 0 ->
  let env := mc_env mc in let w := world_at (mc_tools mc) t0 in
  exists raw text ro, content w (path_of file) = Some raw /\ utf8_decode raw = Some text /\ root_in lib text ro /\
  forall arg, In arg (ln_positional l) -> exists a x d f rawb, says_verify environ l a /\ denotes w arg x /\ PropsCliVerify.digest_of env w x d /\
    bundle_file w a x f /\ content w f = Some rawb /\
    file_says env lib bl el jl ro (w_start w) (w_when w x) rawb (fun c => cert_names c identity issuer) d.
Proof.
  intros mc environ l t0 h0 sched t h out r lib bl el jl file identity issuer M C U Cm H32 Rd Lg Bd Li Lx Ne X env w.
  destruct (proj1 (C85_verify_identity _ _ _ _ _ _ _ _ _ _ M C U Cm)) as [H _]. destruct (H X) as (_ & _ & a & identity' & issuer' & Sa & Li' & Lx' & E).
  rewrite (last_given_unique _ _ _ _ Li' Li), (last_given_unique _ _ _ _ Lx' Lx) in E.
  destruct (command_says mc environ l t0 lib bl el jl file a (P_identity identity (Some issuer)) show_decoded (fun c => cert_names c identity issuer) Rd H32 Lg Bd) as (raw & text & ro & C1 & C2 & C3 & C4); [|exact Sa|exact E|].
  - intros c Pv. cbn [policy_verify] in Pv. apply C31_identity_accepts_iff in Pv. destruct Pv as (Is & xs & sans & n & E1 & E2 & _ & E3 & E4).
    split; [exists xs, sans, n; auto|]. exact (Is issuer eq_refl Ne).
  - exists raw, text, ro. repeat (split; [assumption|]). intros arg Ia. destruct (C4 arg Ia) as (x & d & f & rawb & R). exists a, x, d, f, rawb. split; [exact Sa|exact R].
Qed.
Theorem C111_verify_github : forall mc environ l t0 h0 sched t h out r lib bl el jl file,
  main mc environ l t0 h0 sched t h out r -> ln_command l = C_verify_github -> unicode_lower (mc_lower mc) -> calm_machine mc ->
  (forall x, length (e_hash (mc_env mc) SHA256 x) = 32) -> reads_texts mc lib bl el jl ->
  last_given l O_trust_config file -> bundled environ l -> exit_status r = 0 ->
  let env := mc_env mc in let w := world_at (mc_tools mc) t0 in
  exists raw text ro g, content w (path_of file) = Some raw /\ utf8_decode raw = Some text /\ root_in lib text ro /\ says_github environ l g /\
  forall arg, In arg (ln_positional l) -> exists a x d f rawb, says_verify environ l a /\ denotes w arg x /\ PropsCliVerify.digest_of env w x d /\
    bundle_file w a x f /\ content w f = Some rawb /\
    file_says env lib bl el jl ro (w_start w) (w_when w x) rawb (github_conditions g) d.
Proof.
  intros mc environ l t0 h0 sched t h out r lib bl el jl file M C U Cm H32 Rd Lg Bd X env w.
  destruct (proj1 (C85_verify_github _ _ _ _ _ _ _ _ _ _ M C U Cm)) as [H _]. destruct (H X) as (_ & _ & a & g & Sa & Sg & _ & E).
  destruct (command_says mc environ l t0 lib bl el jl file a (github_policy g) show_repr (github_conditions g) Rd H32 Lg Bd) as (raw & text & ro & C1 & C2 & C3 & C4); [|exact Sa|exact E|].
  - intros c Pv. apply C58_github_policy_iff. exact Pv.
  - exists raw, text, ro, g. repeat (split; [assumption|]). intros arg Ia. destruct (C4 arg Ia) as (x & d & f & rawb & R). exists a, x, d, f, rawb. split; [exact Sa|exact R].
Qed.

(** ** A concrete case: texts only *)

Definition fx_der : bytes := c_der (sy_cert sy_far nil).
Definition fx_artifact : BundleMsg :=
  mkBundleMsg (s2l "application/vnd.dev.sigstore.bundle.v0.3+json") (mkVM (Some fx_der) None [ejx_e1] nil) (Some (mkMsgSig (Some (HA_SHA2_256, sy_digest)) sy_sig)) None.
(** a statement about the same file *)
Definition fx_payload : bytes := s2b "{""_type"":""https://in-toto.io/Statement/v1"",""subject"":[{""name"":""b"",""digest"":{""sha256"":""" ++ ascii_bytes (hex sy_digest) ++
  s2b """}}],""predicateType"":""https://example.com/p"",""predicate"":{}}".
Definition fx_pae : bytes := dsse_pae (ascii_bytes IN_TOTO) fx_payload.
Definition fx_sig : bytes := toy_sign (ECDSA SHA256) sy_key fx_pae.
Definition fx_entry : LogEntry := vx_entry "hashedrekord" "0.0.2" None false (ejx_text (ejx_v2 sy_far (toy_hash fx_pae) fx_sig)).
Definition fx_statement : BundleMsg :=
  mkBundleMsg (s2l "application/vnd.dev.sigstore.bundle+json;version=0.2") (mkVM None (Some [fx_der]) [fx_entry] [vx_token x20 fx_sig]) None (Some (mkEnvMsg fx_payload IN_TOTO [fx_sig])).

Definition fx_tree : tree := fun p =>
  if path_eqb p [s2l "home"] then Some N_dir
  else if path_eqb p [s2l "home"; s2l "trust.json"] then Some (N_file (ascii_bytes tjx_text))
  else if path_eqb p [s2l "home"; s2l "a.txt"] then Some (N_file vx_input)
  else if path_eqb p [s2l "home"; s2l "a.txt.sigstore.json"] then Some (N_file (bundle_text bjx_lib fx_artifact))
  else if path_eqb p [s2l "home"; s2l "b.txt"] then Some (N_file vx_input)
  else if path_eqb p [s2l "home"; s2l "b.txt.sigstore"] then Some (N_file (bundle_text bjx_lib fx_statement))
  else None.
Definition fx_world : World :=
  mkWorld [s2l "home"] (fun _ => None) (fun _ => Raise EValue) (parse_bundle bjx_lib) (validate_json (bl_json bjx_lib))
    (parse_trust_config tjx_lib) (fun _ _ => Raise EValue) (fun _ _ => Raise EConnection) rkx_rp vx_now (fun _ => vx_now).
Definition fx_tools : Tools :=
  mkTools fx_world (tl_libs mx_tools) (tl_out mx_tools) (fun _ => None) (fun _ => s2l "{}") (fun _ => Some nil)
    (tl_token mx_tools) (fun _ => Ok None) (fun _ _ _ _ => Raise EIdentity) (bundle_text bjx_lib).
Definition fx : Machine :=
  mkMachine (sy_env sy_far) (entry_parsers ejx) fx_tools (mc_lower mx) (mc_int mx) (mc_http mx) (mc_data mx) (mc_cache mx) (mc_tuf mx) (mc_embedded mx)
    (parse_trusted_root tjx_lib) (parse_signing_config tjx_lib) (parse_trust_config tjx_lib) vx_now.
Definition fx_line : Line :=
  mx_line C_verify_identity [(O_cert_identity, s2l "a@b.c"); (O_cert_issuer, s2l "https://issuer.example"); (O_trust_config, s2l "trust.json")] [s2l "a.txt"; s2l "b.txt"].
Lemma fx_main : exists out, main fx mx_unset fx_line fx_tree nil nil fx_tree nil out (Ok tt).
Proof.
  assert (E : snd (verify_identity (sy_env sy_far) (entry_parsers ejx) (world_at fx_tools fx_tree) (verify_args (mx_ns fx mx_unset fx_line))
    (ns_str (mx_ns fx mx_unset fx_line) O_cert_identity) (ns_str (mx_ns fx mx_unset fx_line) O_cert_issuer)) = Ok tt) by (vm_compute; reflexivity).
  eexists. apply (mx_run _ _ _ _ _ _ _ _ _ (Ok tt)); [reflexivity| |reflexivity]. apply Run_verify_identity; [reflexivity|].
  rewrite <- E. apply surjective_pairing.
Qed.
Lemma validated_raise : forall A (x : option A) e, validated x = Raise e -> tame e.
Proof. intros A [a|] e H; [discriminate|]. injection H as <-. exact Logic.I. Qed.
Lemma fx_calm : calm_machine fx.
Proof.
  destruct ex_mx_calm as [C1 C2 C3 C4 C5 C6 C7 C8]. constructor; try assumption; try (intros; apply validated_calm).
  - intros b. split; [|split]; cbn [p_hashedrekord p_dsse p_v2 mc_ps fx entry_parsers]; try apply validated_calm. destruct (validated _) as [[]|] eqn:V; [exact Logic.I|]. apply (validated_raise _ _ _ V).
  - destruct C3 as [D1 D2 D3 D4 D5 D6]. constructor; try assumption; try (intros; exact Logic.I).
    constructor; try (intros; exact Logic.I); try exact rkx_rp_calm; intros s; [|apply validated_calm]. cbn. unfold parse_bundle. destruct (read_bytes _ _); [destruct (read_bundle _ _)|]; exact Logic.I.
Qed.
Lemma fx_reads : reads_texts fx tjx_lib bjx_lib ejx (bl_json bjx_lib).
Proof. constructor; reflexivity. Qed.
Lemma fx_bundled : bundled mx_unset fx_line.
Proof.
  intros s. split; intros H; inversion H; subst.
  all: try discriminate.
  all: match goal with L : last_given _ _ _ |- _ => destruct L as (a & b & E & _) end.
  all: destruct a as [|x a]; [discriminate|]; destruct a as [|y a]; [discriminate|]; destruct a as [|z a]; [discriminate|]; destruct a; discriminate.
Qed.
Lemma fx_no_bundle : forall a, says_verify mx_unset fx_line a -> va_bundle a = None.
Proof.
  intros a (_ & _ & _ & (v & H & ->) & _). inversion H; subst; [|discriminate|reflexivity].
  match goal with L : last_given _ _ _ |- _ => destruct L as (p & q & E & _) end.
  destruct p as [|x p]; [discriminate|]; destruct p as [|y p]; [discriminate|]; destruct p as [|z p]; [discriminate|]; destruct p; discriminate.
Qed.
Lemma fx_pinned : forall w a arg x d f rawb raw0 rawj, says_verify mx_unset fx_line a -> denotes w arg x -> bundle_file w a x f -> content w f = Some rawb ->
  PropsCliVerify.digest_of (sy_env sy_far) w x d -> content w (path_of arg) = Some raw0 ->
  (content w (sibling (path_of arg) (s2l ".sigstore.json")) = Some rawj \/
   content w (sibling (path_of arg) (s2l ".sigstore.json")) = None /\ content w (sibling (path_of arg) (s2l ".sigstore")) = Some rawj) ->
  rawb = rawj /\ d = toy_hash raw0.
Proof.
  intros w a arg x d f rawb raw0 rawj Sa Dn Bf Cf Dg C0 Cj. destruct Dn as [(b & Cb & ->)|(Cn & _)]; [|rewrite C0 in Cn; discriminate].
  unfold bundle_file in Bf. rewrite (fx_no_bundle _ Sa) in Bf. destruct Bf as (f' & Ef & Bf). injection Ef as <-.
  destruct Dg as (b' & Cb' & ->). rewrite C0 in Cb'. injection Cb' as <-. split; [|reflexivity].
  destruct Cj as [Cj|[Cj Cj']], Bf as [->|[-> Bn]]; congruence.
Qed.
(** The status is 0 for both files: the text of each bundle says all of it. *)
Example ex_fx : exists ro, root_in tjx_lib tjx_text ro /\
  (forall raw, In raw [bundle_text bjx_lib fx_artifact; bundle_text bjx_lib fx_statement] ->
    file_says (sy_env sy_far) tjx_lib bjx_lib ejx (bl_json bjx_lib) ro vx_now vx_now raw (fun c => cert_names c (s2l "a@b.c") (s2l "https://issuer.example")) sy_digest).
Proof.
  destruct fx_main as (out & M).
  destruct (C111_verify_identity fx mx_unset fx_line fx_tree nil nil fx_tree nil out (Ok tt) tjx_lib bjx_lib ejx (bl_json bjx_lib) (s2l "trust.json") (s2l "a@b.c") (s2l "https://issuer.example") M eq_refl ex_unicode_lower fx_calm toy_hash_length fx_reads) as (raw & text & ro & Ct & Ud & Rt & H).
  - exists [(O_cert_identity, s2l "a@b.c"); (O_cert_issuer, s2l "https://issuer.example")], nil. split; [reflexivity|intros s []].
  - exact fx_bundled.
  - exists nil, [(O_cert_issuer, s2l "https://issuer.example"); (O_trust_config, s2l "trust.json")]. split; [reflexivity|]. intros s [E|[E|[]]]; discriminate E.
  - exists [(O_cert_identity, s2l "a@b.c")], [(O_trust_config, s2l "trust.json")]. split; [reflexivity|]. intros s [E|[]]; discriminate E.
  - discriminate.
  - reflexivity.
  - assert (Q : text = tjx_text).
    { assert (Q : Some raw = Some (ascii_bytes tjx_text)) by (rewrite <- Ct; reflexivity).
      assert (Q' : utf8_decode (ascii_bytes tjx_text) = Some tjx_text) by (vm_compute; reflexivity). revert Q Q' Ud. clear. generalize (ascii_bytes tjx_text) as y. generalize tjx_text as z.
      intros z y Q Q' Ud. congruence. }
    subst text. exists ro. split; [exact Rt|]. intros rw [<-|[<-|[]]].
    + destruct (H (s2l "a.txt") (or_introl eq_refl)) as (a & x & d & f & rawb & Sa & Dn & Dg & Bf & Cf & F).
      destruct (fx_pinned _ _ _ _ _ _ _ vx_input (bundle_text bjx_lib fx_artifact) Sa Dn Bf Cf Dg eq_refl (or_introl eq_refl)) as [-> ->]. exact F.
    + destruct (H (s2l "b.txt") (or_intror (or_introl eq_refl))) as (a & x & d & f & rawb & Sa & Dn & Dg & Bf & Cf & F).
      destruct (fx_pinned _ _ _ _ _ _ _ vx_input (bundle_text bjx_lib fx_statement) Sa Dn Bf Cf Dg eq_refl (or_intror (conj eq_refl eq_refl))) as [-> ->]. exact F.
Qed.

(** The same files, where the certificate is one of a workflow. *)
Definition fgx_cert : Cert := mkCert fx_der true (Ok gvx_exts) (Ok (mkPub (KEc P256) [x02])) (Ok [x55; x66]) 0%Z sy_far (Ok false).
Definition fgx_env : Env :=
  mkEnv (e_hash vx_env) (e_udecimal vx_env) (e_load_key vx_env) (e_sig_verify vx_env)
    (fun der => if bytes_eqb der fx_der then Ok fgx_cert else e_parse_cert vx_env der)
    (e_self_issued vx_env) (e_chain vx_env) (e_decode_tsr vx_env) (e_tsa_verify vx_env).
Lemma fgx_env_calm : calm_env fgx_env.
Proof.
  destruct vx_env_calm as [V1 V2 V3 V4 V5]. constructor; cbn [e_sig_verify e_parse_cert e_chain e_decode_tsr e_tsa_verify fgx_env]; try assumption.
  intros der. destruct (bytes_eqb der fx_der); [repeat split; exact Logic.I|apply V2].
Qed.
Definition fgx : Machine :=
  mkMachine fgx_env (entry_parsers ejx) fx_tools (mc_lower mx) (mc_int mx) (mc_http mx) (mc_data mx) (mc_cache mx) (mc_tuf mx) (mc_embedded mx)
    (parse_trusted_root tjx_lib) (parse_signing_config tjx_lib) (parse_trust_config tjx_lib) vx_now.
Definition fgx_line : Line :=
  mx_line C_verify_github [(O_repository, s2l "o/r"); (O_sha, s2l "abc"); (O_trust_config, s2l "trust.json")] [s2l "a.txt"; s2l "b.txt"].
Lemma fgx_main : exists out, main fgx mx_unset fgx_line fx_tree nil nil fx_tree nil out (Ok tt).
Proof.
  assert (E : snd (verify_github fgx_env (entry_parsers ejx) (world_at fx_tools fx_tree) (verify_args (mx_ns fgx mx_unset fgx_line))
    (github_args (mx_ns fgx mx_unset fgx_line))) = Ok tt) by (vm_compute; reflexivity).
  eexists. apply (mx_run _ _ _ _ _ _ _ _ _ (Ok tt)); [reflexivity| |reflexivity]. apply Run_verify_github; [reflexivity|].
  rewrite <- E. apply surjective_pairing.
Qed.
Lemma fgx_calm : calm_machine fgx.
Proof. destruct fx_calm as [C1 C2 C3 C4 C5 C6 C7 C8]. constructor; try assumption. exact fgx_env_calm. Qed.
Lemma fgx_bundled : bundled mx_unset fgx_line.
Proof.
  intros s. split; intros H; inversion H; subst.
  all: try discriminate.
  all: match goal with L : last_given _ _ _ |- _ => destruct L as (a & b & E & _) end.
  all: destruct a as [|x a]; [discriminate|]; destruct a as [|y a]; [discriminate|]; destruct a as [|z a]; [discriminate|]; destruct a; discriminate.
Qed.
Example ex_fgx : exists ro g, root_in tjx_lib tjx_text ro /\ gh_sha g = Some (s2l "abc") /\
  exists raw d, file_says fgx_env tjx_lib bjx_lib ejx (bl_json bjx_lib) ro vx_now vx_now raw (github_conditions g) d.
Proof.
  destruct fgx_main as (out & M).
  destruct (C111_verify_github fgx mx_unset fgx_line fx_tree nil nil fx_tree nil out (Ok tt) tjx_lib bjx_lib ejx (bl_json bjx_lib) (s2l "trust.json") M eq_refl ex_unicode_lower fgx_calm toy_hash_length) as (raw & text & ro & g & Ct & Ud & Rt & Sg & H).
  - constructor; reflexivity.
  - exists [(O_repository, s2l "o/r"); (O_sha, s2l "abc")], nil. split; [reflexivity|intros s []].
  - exact fgx_bundled.
  - reflexivity.
  - assert (Q : text = tjx_text).
    { assert (Q : Some raw = Some (ascii_bytes tjx_text)) by (rewrite <- Ct; reflexivity).
      assert (Q' : utf8_decode (ascii_bytes tjx_text) = Some tjx_text) by (vm_compute; reflexivity). revert Q Q' Ud. clear. generalize (ascii_bytes tjx_text) as y. generalize tjx_text as z.
      intros z y Q Q' Ud. congruence. }
    subst text. exists ro, g. split; [exact Rt|]. split.
    + destruct Sg as (_ & _ & Sg & _). eapply has_value_unique; [exact Sg|]. constructor. exists [(O_repository, s2l "o/r")], [(O_trust_config, s2l "trust.json")].
      split; [reflexivity|]. intros s [E|[]]; discriminate E.
    + destruct (H (s2l "a.txt") (or_introl eq_refl)) as (a & x & d & f & rawb & Sa & Dn & Dg & Bf & Cf & F). exists rawb, d. exact F.
Qed.

Print Assumptions C111_artifact.
Print Assumptions C111_statement.
Print Assumptions C111_verify_identity.
Print Assumptions C111_verify_github.
