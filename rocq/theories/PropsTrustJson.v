(** Property C108: which texts are trust configurations, and that only what such a text lists is trusted and used. *)
From Verif Require Import Base Codec CodecMore Messages Env Keyring KeyringProofs Cert Dsse KeyDetails Policy TrustedRoot SigningConfig Hashing Json Http
  Oidc Oauth Checkpoint LogEntry PropsLogEntry Bundle Verifier RekorClient Clients Tuf PyText CliVerify Sign SignSteps Predicate CliSign CliMain CliTrust Calm VerifierSpec
  PropsTrustedRoot PropsDsse PropsPolicy PropsBundle PropsTuf PropsVerifier PropsCliVerify PropsSigningConfig PropsCliMain PropsServices PropsCliEnv PropsAuthentic PropsGenuine PropsRekorClient PropsCliSign ToyHash ToyEnv ToyBundles.
From Verif Require Import JsonText PropsJsonText StatementJson PropsStatement BundleJson PropsBundleJson TrustJson.

(** ** Specification *)

(** a member of an enumeration is given by its name; the names of the protobuf messages *)
Definition by_name {A} (name : A -> option str) (j : json) (a : A) : Prop := exists s, j = JStr s /\ name a = Some s.
Definition details_name (d : key_details) : option str :=
  match d with
  | PKCS1_RSA_PKCS1V5 => Some (s2l "PKCS1_RSA_PKCS1V5")
  | PKIX_RSA_PKCS1V15_2048_SHA256 => Some (s2l "PKIX_RSA_PKCS1V15_2048_SHA256")
  | PKIX_RSA_PKCS1V15_3072_SHA256 => Some (s2l "PKIX_RSA_PKCS1V15_3072_SHA256")
  | PKIX_RSA_PKCS1V15_4096_SHA256 => Some (s2l "PKIX_RSA_PKCS1V15_4096_SHA256")
  | PKIX_ECDSA_P256_SHA_256 => Some (s2l "PKIX_ECDSA_P256_SHA_256")
  | PKIX_ECDSA_P384_SHA_384 => Some (s2l "PKIX_ECDSA_P384_SHA_384")
  | PKIX_ECDSA_P521_SHA_512 => Some (s2l "PKIX_ECDSA_P521_SHA_512")
  | PKIX_ED25519 => Some (s2l "PKIX_ED25519")
  | PKIX_ED25519_PH => Some (s2l "PKIX_ED25519_PH")
  | KD_other 0 => Some (s2l "PUBLIC_KEY_DETAILS_UNSPECIFIED")
  | KD_other 2 => Some (s2l "PKCS1_RSA_PSS")
  | KD_other 3 => Some (s2l "PKIX_RSA_PKCS1V5")
  | KD_other 4 => Some (s2l "PKIX_RSA_PSS")
  | KD_other 6 => Some (s2l "PKIX_ECDSA_P256_HMAC_SHA_256")
  | KD_other 14 => Some (s2l "LMS_SHA256")
  | KD_other 15 => Some (s2l "LMOTS_SHA256")
  | KD_other 16 => Some (s2l "PKIX_RSA_PSS_2048_SHA256")
  | KD_other 17 => Some (s2l "PKIX_RSA_PSS_3072_SHA256")
  | KD_other 18 => Some (s2l "PKIX_RSA_PSS_4096_SHA256")
  | KD_other 19 => Some (s2l "PKIX_ECDSA_P384_SHA_256")
  | KD_other 20 => Some (s2l "PKIX_ECDSA_P521_SHA_256")
  | KD_other 21 => Some (s2l "ML_DSA_65")
  | KD_other 22 => Some (s2l "ML_DSA_87")
  | KD_other _ => None
  end.
Definition selector_name (x : selector) : option str :=
  match x with
  | SEL_UNDEFINED => Some (s2l "SERVICE_SELECTOR_UNDEFINED") | SEL_ALL => Some (s2l "ALL") | SEL_ANY => Some (s2l "ANY") | SEL_EXACT => Some (s2l "EXACT")
  end.
(** one of some texts *)
Definition one_of (texts : list str) (j : json) (s : str) : Prop := j = JStr s /\ In s texts.
(** an element of a list of a message *)
Definition element (o : list (str * json)) (k k' : String.string) (e : json) : Prop := exists js, given o k k' (JList js) /\ In e js.

Section Messages.
Variable lib : TrustLib.
Definition in_time (j : json) (t : time) : Prop := tb_time lib j = Some t.
(** an object whose other members are accepted *)
Definition message (name : String.string) (j : json) (P : list (str * json) -> Prop) : Prop :=
  exists o, j = JObj o /\ tb_rest lib name o = true /\ P o.
Let lists := bl_lists (tb_bundle lib).
Let number := in_number (tb_bundle lib).

Definition range_of (j : json) (r : TimeRange) : Prop := message "TimeRange" j (fun o =>
  has in_time o "start" "start" (tr_start r) /\ may_have in_time o "end" "end" (tr_end r)).
Definition key_of (j : json) (m : PublicKeyMsg * option TimeRange) : Prop := message "PublicKey" j (fun o =>
  may_have in_base64 o "rawBytes" "raw_bytes" (pkm_raw (fst m)) /\ has (by_name details_name) o "keyDetails" "key_details" (pkm_details (fst m)) /\
  may_have range_of o "validFor" "valid_for" (snd m)).
Definition tlog_of (j : json) (t : TLog) : Prop := message "TransparencyLogInstance" j (fun o =>
  has in_text o "baseUrl" "base_url" (tl_base_url t) /\ has key_of o "publicKey" "public_key" (tl_key t, tl_valid_for t)).
Definition ca_of (j : json) (m : CAMsg) : Prop := message "CertificateAuthority" j (fun o =>
  has (chain_of (tb_bundle lib)) o "certChain" "cert_chain" (cam_certs m) /\ may_have range_of o "validFor" "valid_for" (cam_valid_for m)).
Definition root_of (j : json) (m : TrustedRootMsg) : Prop := message "TrustedRoot" j (fun o =>
  has (one_of [s2l "application/vnd.dev.sigstore.trustedroot+json;version=0.1"; s2l "application/vnd.dev.sigstore.trustedroot.v0.2+json"]) o "mediaType" "media_type" (tr_media_type m) /\
  has_list lists tlog_of o "tlogs" "tlogs" (tr_tlogs m) /\ has_list lists tlog_of o "ctlogs" "ctlogs" (tr_ctlogs m) /\
  has_list lists ca_of o "certificateAuthorities" "certificate_authorities" (tr_cas m) /\
  has_list lists ca_of o "timestampAuthorities" "timestamp_authorities" (tr_tsas m)).
Definition service_of (j : json) (s : Service) : Prop := message "Service" j (fun o =>
  has in_text o "url" "url" (sv_url s) /\ has number o "majorApiVersion" "major_api_version" (sv_version s) /\
  may_have range_of o "validFor" "valid_for" (sv_valid_for s) /\ has in_text o "operator" "operator" (sv_operator s)).
Definition in_count (j : json) (n : nat) : Prop := number j (Z.of_nat n).
Definition service_config_of (j : json) (c : ServiceConfig) : Prop := message "ServiceConfiguration" j (fun o =>
  has (by_name selector_name) o "selector" "selector" (scf_selector c) /\
  exists n, may_have in_count o "count" "count" n /\ scf_count c = match n with Some n => n | None => 0 end).
Definition signing_config_of (j : json) (m : SigningConfigMsg) : Prop := message "SigningConfig" j (fun o =>
  has in_text o "mediaType" "media_type" (scm_media m) /\
  has_list lists service_of o "rekorTlogUrls" "rekor_tlog_urls" (scm_tlogs m) /\
  may_have service_config_of o "rekorTlogConfig" "rekor_tlog_config" (scm_tlog_config m) /\
  has_list lists service_of o "tsaUrls" "tsa_urls" (scm_tsas m) /\ may_have service_config_of o "tsaConfig" "tsa_config" (scm_tsa_config m) /\
  has_list lists service_of o "caUrls" "ca_urls" (scm_cas m) /\ has_list lists service_of o "oidcUrls" "oidc_urls" (scm_oidcs m)).
Definition config_of (j : json) (c : ClientTrustConfig) : Prop := message "ClientTrustConfig" j (fun o =>
  has in_text o "mediaType" "media_type" (s2l "application/vnd.dev.sigstore.clienttrustconfig.v0.1+json") /\
  has root_of o "trustedRoot" "trusted_root" (ctc_root c) /\ has signing_config_of o "signingConfig" "signing_config" (ctc_signing c)) /\
  ctc_force c = None.

(** bytes, or a text, with this JSON content *)
Definition encodes (raw : bytes) (P : json -> Prop) : Prop :=
  exists text j, utf8_encode text = Some raw /\ json_text (bl_json (tb_bundle lib)) j text /\ P j.
Definition says (text : str) (P : json -> Prop) : Prop := exists j, json_text (bl_json (tb_bundle lib)) j text /\ P j.

(** *** What a trust configuration lists *)

(** the trusted root and the signing configuration of a trust configuration *)
Definition root_in (text : str) (ro : list (str * json)) : Prop :=
  says text (fun j => exists o, j = JObj o /\ given o "trustedRoot" "trusted_root" (JObj ro)).
Definition signing_in (text : str) (so : list (str * json)) : Prop :=
  says text (fun j => exists o, j = JObj o /\ given o "signingConfig" "signing_config" (JObj so)).

Variable env : Env.
Variable ro : list (str * json).
(** a key of a log, listed under the given name, whose window has started *)
Definition listed_key (now : time) (name : String.string) (k : pubkey) (s : sig_scheme) : Prop :=
  exists e t, element ro name name e /\ tlog_of e t /\ usable env (tl_key t) k s /\ started now (tl_valid_for t).
(** a certificate of a CA whose window has started *)
Definition listed_ca_certificate (now : time) (c : Cert) : Prop :=
  exists e m der, element ro "certificateAuthorities" "certificate_authorities" e /\ ca_of e m /\ In der (cam_certs m) /\
    e_parse_cert env der = Ok c /\ started now (cam_valid_for m).
(** a timestamp authority *)
Definition listed_tsa (ca : CA) : Prop :=
  exists e, element ro "timestampAuthorities" "timestamp_authorities" e /\ ca_of e (ca_inner ca) /\
    Forall2 (fun der c => e_parse_cert env der = Ok c) (cam_certs (ca_inner ca)) (ca_certs ca).
(** a service of the signing configuration that may be used now, with one of these API versions *)
Definition listed_service (so : list (str * json)) (now : time) (k k' : String.string) (versions : list Z) (s : Service) : Prop :=
  exists e, element so k k' e /\ service_of e s /\ eligible now versions s.

(** everything that the acceptance of the certificate and the log entry of a bundle rests on is listed.  [start] is the
    time at which the verifier was made, [now] that of the verification. *)
Definition rests_on_listed (start now : time) (b : Bundle) : Prop :=
  exists fulcio times, (forall c, In c fulcio <-> listed_ca_certificate start c) /\ times <> nil /\
  (forall t, In t times -> (c_not_before (b_cert b) <= t <= c_not_after (b_cert b))%Z /\ exists chain, e_chain env fulcio t (b_cert b) = Ok chain) /\
  (forall t, In t times ->
     (exists raw tok ca sg, In raw (vm_timestamps (bm_vm (b_inner b))) /\ e_decode_tsr env raw = Ok tok /\ t = tsr_time tok /\
        listed_tsa ca /\ signature_of b sg /\ vouches env now ca tok sg) \/
     (exists secs set k s, le_integrated_time (b_entry b) = Some secs /\ t = (secs * 1000000)%Z /\ le_promise (b_entry b) = Some set /\
        listed_key now "tlogs" k s /\
        e_sig_verify env s k set (ascii_bytes (set_text (le_body (b_entry b)) secs (le_log_id (b_entry b)) (le_log_index (b_entry b)))) = Ok tt)) /\
  (exists x sct k s d, c_exts (b_cert b) = Ok x /\ x_scts x = Some [sct] /\ listed_key now "ctlogs" k s /\
     e_sig_verify env s k (sct_signature sct) d = Ok tt) /\
  (forall ip, le_proof (b_entry b) = Some ip -> exists text p0 data note sg k s,
     ip_checkpoint ip = Some text /\ text = p0 ++ [NL; NL] ++ data /\ utf8_encode (p0 ++ [NL]) = Some note /\
     listed_key now "tlogs" k s /\ e_sig_verify env s k sg note = Ok tt).

(** what a command may ask, and whom *)
Definition listed_event (so : list (str * json)) (now : time) (version : option Z) (ev : event) : Prop :=
  match ev with
  | EvCsr u _ => exists s, listed_service so now "caUrls" "ca_urls" [1%Z] s /\ sv_url s = u
  | EvTsa u _ => exists s, listed_service so now "tsaUrls" "tsa_urls" [1%Z] s /\ sv_url s = u
  | EvLog r => (exists s, listed_service so now "rekorTlogUrls" "rekor_tlog_urls" [request_version r] s) /\ forall v, version = Some v -> request_version r = v
  | EvKey _ | EvClock _ | EvSign _ _ => True
  end.
End Messages.

(** ** Proofs: which texts are accepted *)

Lemma named_iff : forall A (names : list (str * A)), NoDup (map fst names) -> forall j, dicts j -> forall a, named names j = Some a <-> exists s, j = JStr s /\ In (s, a) names.
Proof.
  intros A names N j _ a. split.
  - destruct j; try discriminate. cbn [named]. intros H. exists s. split; [reflexivity|]. clear N. induction names as [|[k v] r IH]; [discriminate|].
    cbn [assoc] in H. destruct (str_eqb s k) eqn:E; [apply str_eqb_spec in E; injection H as <-; subst k; left; reflexivity|right; auto].
  - intros (s & -> & H). cbn [named]. induction names as [|[k v] r IH]; [destruct H|]. cbn [assoc]. inversion N as [|? ? N1 N2]; subst.
    destruct H as [[= -> ->]|H]; [rewrite str_eqb_refl; reflexivity|]. destruct (str_eqb s k) eqn:E; [|auto].
    apply str_eqb_spec in E. subst k. exfalso. apply N1. exact (in_map fst _ _ H).
Qed.
Fixpoint distinct (l : list str) : bool := match l with nil => true | x :: r => negb (existsb (str_eqb x) r) && distinct r end.
Lemma distinct_nodup : forall l, distinct l = true -> NoDup l.
Proof.
  induction l as [|x r IH]; intros H; constructor; cbn [distinct] in H; apply andb_prop in H; destruct H as [H1 H2]; [|auto].
  intros I. apply negb_true_iff in H1. assert (Q : existsb (str_eqb x) r = true) by (apply existsb_exists; exists x; split; [exact I|apply str_eqb_refl]). congruence.
Qed.
Lemma name_iff : forall A (names : list (str * A)) name, NoDup (map fst names) -> (forall s a, In (s, a) names <-> name a = Some s) ->
  forall j, dicts j -> forall a, named names j = Some a <-> by_name name j a.
Proof.
  intros A names name N H j D a. rewrite (named_iff A names N j D). unfold by_name. setoid_rewrite H. reflexivity.
Qed.
Lemma assoc_in : forall A (names : list (str * A)) s a, assoc str_eqb s names = Some a -> In (s, a) names.
Proof.
  intros A names s a H. induction names as [|[k v] r IH]; [discriminate|]. cbn [assoc] in H.
  destruct (str_eqb s k) eqn:E; [apply str_eqb_spec in E; injection H as <-; subst k; left; reflexivity|right; auto].
Qed.
Lemma details_names : forall s d, In (s, d) DETAILS <-> details_name d = Some s.
Proof.
  intros s d. split.
  - intros H. assert (A : Forall (fun p => details_name (snd p) = Some (fst p)) DETAILS) by (unfold DETAILS; repeat constructor).
    rewrite Forall_forall in A. exact (A _ H).
  - intros H. assert (X : forall n, d = KD_other n -> n < 23).
    { intros n ->. do 23 (destruct n as [|n]; [lia|]). discriminate H. }
    destruct d as [| | | | | | | | |n]; try (injection H as <-; apply assoc_in; vm_compute; reflexivity).
    specialize (X n eq_refl). do 23 (destruct n as [|n]; [try discriminate H; injection H as <-; apply assoc_in; vm_compute; reflexivity|]). lia.
Qed.
Lemma details_iff : forall j, dicts j -> forall d, named DETAILS j = Some d <-> by_name details_name j d.
Proof. apply name_iff; [apply distinct_nodup; vm_compute; reflexivity|apply details_names]. Qed.
Lemma selectors_iff : forall j, dicts j -> forall d, named SELECTORS j = Some d <-> by_name selector_name j d.
Proof.
  apply name_iff; [apply distinct_nodup; vm_compute; reflexivity|]. intros s d. split.
  - intros H. assert (A : Forall (fun p => selector_name (snd p) = Some (fst p)) SELECTORS) by (unfold SELECTORS; repeat constructor).
    rewrite Forall_forall in A. exact (A _ H).
  - destruct d; intros [= <-]; unfold SELECTORS; cbn [In]; auto 10.
Qed.
Lemma texts_iff : forall texts, NoDup texts -> forall j, dicts j -> forall s, named (map (fun x => (x, x)) texts) j = Some s <-> one_of texts j s.
Proof.
  intros texts N j D s. rewrite named_iff; [|rewrite map_map, map_id; exact N|exact D]. unfold one_of. split.
  - intros (x & -> & H). apply in_map_iff in H. destruct H as (y & [= <- <-] & H). split; [reflexivity|exact H].
  - intros [-> H]. exists s. split; [reflexivity|]. apply in_map_iff. exists s. split; [reflexivity|exact H].
Qed.
Lemma root_types_iff : forall j, dicts j -> forall s, named ROOT_TYPES j = Some s <->
  one_of [s2l "application/vnd.dev.sigstore.trustedroot+json;version=0.1"; s2l "application/vnd.dev.sigstore.trustedroot.v0.2+json"] j s.
Proof. apply (texts_iff [s2l "application/vnd.dev.sigstore.trustedroot+json;version=0.1"; s2l "application/vnd.dev.sigstore.trustedroot.v0.2+json"]), distinct_nodup. vm_compute. reflexivity. Qed.
Lemma config_types_iff : forall j, dicts j -> forall d, named CONFIG_TYPES j = Some d <-> one_of [CONFIG_0_1] j d.
Proof. apply (texts_iff [CONFIG_0_1]), distinct_nodup. vm_compute. reflexivity. Qed.

Section Accept.
Variable lib : TrustLib.
Let bl := tb_bundle lib.

Lemma message_iff : forall A name (f : list (str * json) -> option A) (Q : list (str * json) -> A -> Prop),
  (forall o, dicts (JObj o) -> forall x, f o = Some x <-> Q o x) ->
  forall j, dicts j -> forall x, message_fields lib name f j = Some x <-> message lib name j (fun o => Q o x).
Proof.
  intros A name f Q H. unfold message_fields, message. apply (object_iff _ _ (fun o x => tb_rest lib name o = true /\ Q o x)).
  intros o D x. rewrite <- (H o D x). destruct (tb_rest lib name o); split; [auto|intros [_ ?]; assumption|discriminate|intros [? _]; discriminate].
Qed.
Lemma time_iff : forall j, dicts j -> forall t, tb_time lib j = Some t <-> in_time lib j t.
Proof. intros j _ t. reflexivity. Qed.
Lemma range_iff : forall j, dicts j -> forall r, read_range lib j = Some r <-> range_of lib j r.
Proof.
  apply message_iff. intros o D r. rewrite <- (required_iff _ _ o D time_iff), <- (optional_iff _ _ o D time_iff). split.
  - do 2 member_some. intros [= <-]. auto.
  - intros (-> & ->). destruct r; reflexivity.
Qed.
Lemma key_iff : forall j, dicts j -> forall m, read_key lib j = Some m <-> key_of lib j m.
Proof.
  apply message_iff. intros o D m. rewrite <- (optional_iff _ _ o D b64_iff), <- (required_iff _ _ o D details_iff), <- (optional_iff _ _ o D range_iff). split.
  - do 3 member_some. intros [= <-]. auto.
  - intros (-> & -> & ->). destruct m as [[] ]; reflexivity.
Qed.
Lemma tlog_iff : forall j, dicts j -> forall t, read_tlog lib j = Some t <-> tlog_of lib j t.
Proof.
  apply message_iff. intros o D t. rewrite <- (required_iff _ _ o D txt_iff), <- (required_iff _ _ o D key_iff). split.
  - do 2 member_some. intros [= <-]. cbn [tl_base_url tl_key tl_valid_for]. destruct p. auto.
  - intros (-> & ->). destruct t; reflexivity.
Qed.
Lemma ca_iff : forall j, dicts j -> forall m, read_ca lib j = Some m <-> ca_of lib j m.
Proof.
  apply message_iff. intros o D m. rewrite <- (required_iff _ _ o D (chain_iff (tb_bundle lib))), <- (optional_iff _ _ o D range_iff). split.
  - do 2 member_some. intros [= <-]. auto.
  - intros (-> & ->). destruct m; reflexivity.
Qed.
Lemma root_iff : forall j, dicts j -> forall m, read_root lib j = Some m <-> root_of lib j m.
Proof.
  apply message_iff. intros o D m. rewrite <- (required_iff _ _ o D root_types_iff), <- !(repeated_iff _ _ o D tlog_iff), <- !(repeated_iff _ _ o D ca_iff). split.
  - do 5 member_some. intros [= <-]. cbn [tr_media_type tr_tlogs tr_ctlogs tr_cas tr_tsas]. auto.
  - intros (-> & -> & -> & -> & ->). destruct m; reflexivity.
Qed.
Lemma int_iff : forall j, dicts j -> forall z, bl_number (tb_bundle lib) j = Some z <-> in_number (tb_bundle lib) j z.
Proof. intros j _ z. reflexivity. Qed.
Lemma service_iff : forall j, dicts j -> forall s, read_service lib j = Some s <-> service_of lib j s.
Proof.
  apply message_iff. intros o D s.
  rewrite <- !(required_iff _ _ o D txt_iff), <- (required_iff _ _ o D int_iff), <- (optional_iff _ _ o D range_iff). split.
  - do 4 member_some. intros [= <-]. auto.
  - intros (-> & -> & -> & ->). destruct s; reflexivity.
Qed.
Lemma count_iff : forall j, dicts j -> forall n, count_value lib j = Some n <-> in_count lib j n.
Proof.
  intros j _ n. unfold count_value, in_count, in_number. destruct (bl_number (tb_bundle lib) j) as [z|]; [|split; discriminate].
  destruct (Z.leb_spec 0 z).
  - split; intros [= E]; f_equal; lia.
  - split; [discriminate|intros [= E]; lia].
Qed.
Lemma service_config_iff : forall j, dicts j -> forall c, read_service_config lib j = Some c <-> service_config_of lib j c.
Proof.
  apply message_iff. intros o D c. rewrite <- (required_iff _ _ o D selectors_iff). setoid_rewrite <- (optional_iff _ _ o D count_iff). split.
  - do 2 member_some. intros [= <-]. eauto.
  - intros (-> & n & -> & E). destruct c as [s k]. cbn [scf_count] in E. subst k. reflexivity.
Qed.
Lemma signing_config_iff : forall j, dicts j -> forall m, read_signing_config lib j = Some m <-> signing_config_of lib j m.
Proof.
  apply message_iff. intros o D m.
  rewrite <- (required_iff _ _ o D txt_iff), <- !(repeated_iff _ _ o D service_iff), <- !(optional_iff _ _ o D service_config_iff). split.
  - do 7 member_some. intros [= <-]. cbn [scm_media scm_tlogs scm_tlog_config scm_tsas scm_tsa_config scm_cas scm_oidcs]. auto 10.
  - intros (-> & -> & -> & -> & -> & -> & ->). destruct m; reflexivity.
Qed.
Lemma config_iff : forall j, dicts j -> forall c, read_config lib j = Some c <-> config_of lib j c.
Proof.
  intros j Dj c. unfold config_of, read_config. rewrite (message_iff _ _ _ (fun o c => (has in_text o "mediaType" "media_type" CONFIG_0_1 /\
    has (root_of lib) o "trustedRoot" "trusted_root" (ctc_root c) /\ has (signing_config_of lib) o "signingConfig" "signing_config" (ctc_signing c)) /\ ctc_force c = None));
    [|clear j Dj c|exact Dj].
  - unfold message. change CONFIG_0_1 with (s2l "application/vnd.dev.sigstore.clienttrustconfig.v0.1+json").
    split; [intros (o & E & R & H & F); split; [exists o|]; auto|intros ((o & E & R & H) & F); exists o; auto].
  - intros o D c. assert (M : has in_text o "mediaType" "media_type" CONFIG_0_1 <-> exists x, required (named CONFIG_TYPES) "mediaType" "media_type" o = Some x).
    { setoid_rewrite (required_iff _ _ o D config_types_iff). unfold has, in_text, one_of, CONFIG_TYPES. split.
      - intros (j & G & ->). exists CONFIG_0_1, (JStr CONFIG_0_1). split; [exact G|]. split; [reflexivity|left; reflexivity].
      - intros (x & j & G & -> & [<-|[]]). eauto. }
    rewrite M, <- (required_iff _ _ o D root_iff), <- (required_iff _ _ o D signing_config_iff). clear M. split.
    + do 3 member_some. intros [= <-]. cbn [ctc_root ctc_signing ctc_force]. eauto.
    + intros (((x & ->) & -> & ->) & E). destruct c as [r s f]. cbn [ctc_force] in E. subst f. reflexivity.
Qed.

Lemma validated_bytes : forall A (rd : json -> option A) (P : json -> A -> Prop), (forall j, dicts j -> forall x, rd j = Some x <-> P j x) ->
  forall raw x, validated (and_then (read_bytes (bl_json bl) raw) rd) = Ok x <-> encodes lib raw (fun j => P j x).
Proof.
  intros A rd P H raw x. unfold read_bytes, encodes, validated, and_then. split.
  - destruct (utf8_decode raw) as [text|] eqn:U; [|discriminate]. destruct (read (bl_json bl) text) as [j|] eqn:R; [|discriminate].
    destruct (rd j) as [y|] eqn:B; [|discriminate]. intros [= ->]. apply read_iff in R. exists text, j.
    split; [apply utf8_encode_decode, U|]. split; [exact R|]. apply H; [eapply json_dicts; exact R|exact B].
  - intros (text & j & U & R & C). apply utf8_decode_encode in U. rewrite U. pose proof R as R'. apply read_iff in R'. unfold bl. rewrite R'.
    apply H in C; [|eapply json_dicts; exact R]. rewrite C. reflexivity.
Qed.
Lemma validated_text : forall A (rd : json -> option A) (P : json -> A -> Prop), (forall j, dicts j -> forall x, rd j = Some x <-> P j x) ->
  forall text x, validated (and_then (read (bl_json bl) text) rd) = Ok x <-> says lib text (fun j => P j x).
Proof.
  intros A rd P H text x. unfold says, validated, and_then. split.
  - destruct (read (bl_json bl) text) as [j|] eqn:R; [|discriminate].
    destruct (rd j) as [y|] eqn:B; [|discriminate]. intros [= ->]. apply read_iff in R. exists j.
    split; [exact R|]. apply H; [eapply json_dicts; exact R|exact B].
  - intros (j & R & C). pose proof R as R'. apply read_iff in R'. unfold bl. rewrite R'.
    apply H in C; [|eapply json_dicts; exact R]. rewrite C. reflexivity.
Qed.
End Accept.

(** What is read as a trust configuration is the JSON text of it, and nothing else; likewise trusted roots and signing
    configurations. *)
Theorem C108_config_accepts : forall lib text c, parse_trust_config lib text = Ok c <-> says lib text (fun j => config_of lib j c).
Proof. intros lib text c. apply (validated_text lib _ _ (config_of lib)). apply config_iff. Qed.
Theorem C108_root_accepts : forall lib raw m, root_from_file lib raw = Ok m <->
  encodes lib raw (fun j => root_of lib j m) /\ tr_media_type m = s2l "application/vnd.dev.sigstore.trustedroot+json;version=0.1".
Proof.
  intros lib raw m. rewrite <- (validated_bytes lib _ _ (root_of lib) (root_iff lib)). unfold root_from_file, parse_trusted_root, make_trusted_root. split.
  - intros H. destruct (validated _) as [m'|] eqn:V; [|discriminate]. cbn [bind] in H. destruct (str_eqb _ _) eqn:E; [|discriminate].
    injection H as ->. apply str_eqb_spec in E. auto.
  - intros [H E]. rewrite H. cbn [bind]. rewrite E. change (s2l "application/vnd.dev.sigstore.trustedroot+json;version=0.1") with TRUSTED_ROOT_0_1.
    rewrite str_eqb_refl. reflexivity.
Qed.
Theorem C108_signing_config_accepts : forall lib now raw sc, signing_config_from_file lib now raw = Ok sc <->
  exists m, encodes lib raw (fun j => signing_config_of lib j m) /\ make_signing_config now m None = Ok sc.
Proof.
  intros lib now raw sc. unfold signing_config_from_file. split.
  - intros H. destruct (parse_signing_config lib raw) as [m|] eqn:V; [|discriminate]. exists m. split; [|exact H].
    apply (validated_bytes lib _ _ (signing_config_of lib) (signing_config_iff lib)), V.
  - intros (m & E & H). apply (validated_bytes lib _ _ (signing_config_of lib) (signing_config_iff lib)) in E. unfold parse_signing_config. rewrite E. exact H.
Qed.

(** Other texts raise pydantic's [ValidationError], not an error of the library. *)
Theorem C108_rejects : forall lib text, ~ (exists c, says lib text (fun j => config_of lib j c)) ->
  parse_trust_config lib text = Raise EPydantic /\ is_sigstore_error EPydantic = false.
Proof.
  intros lib text N. split; [|reflexivity]. destruct (parse_trust_config lib text) as [c|e] eqn:P; [exfalso; apply N; exists c; apply C108_config_accepts, P|].
  unfold parse_trust_config, validated in P. destruct (and_then _ _); congruence.
Qed.

(** ** Proofs: what is listed *)

Lemma listed_element : forall A lists (P : json -> A -> Prop) o k k' l, has_list lists P o k k' l -> forall x, In x l -> exists e, element o k k' e /\ P e x.
Proof.
  intros A lists P o k k' l H x I. destruct H as [_ _ _|js l G F]; [destruct I|].
  assert (Q : exists e, In e js /\ P e x).
  { clear G. induction F as [|j y js l Py F IH]; [destruct I|]. destruct I as [<-|I]; [exists j; split; [left; reflexivity|exact Py]|].
    destruct (IH I) as (e & Ie & Pe). exists e. split; [right; exact Ie|exact Pe]. }
  destruct Q as (e & Ie & Pe). exists e. split; [exists js; auto|exact Pe].
Qed.
Lemma given_unique : forall o, dicts (JObj o) -> forall k k' j j', given o k k' j -> given o k k' j' -> j = j'.
Proof. intros o D k k' j j' G G'. apply by_alias_iff in G, G'; try (inversion D; assumption). congruence. Qed.
Lemma element_listed : forall A lists (P : json -> A -> Prop) o k k' l, dicts (JObj o) -> has_list lists P o k k' l ->
  forall e, element o k k' e -> dicts e /\ exists x, In x l /\ P e x.
Proof.
  intros A lists P o k k' l D H e (js & G & I). pose proof (dicts_given o D _ _ _ G) as Dj. inversion Dj as [| | | | | |? Fd|]; subst.
  split; [exact (proj1 (Forall_forall _ _) Fd _ I)|]. destruct H as [_ N N'|js' l G' F].
  - destruct G as [G|[_ G]]; apply (in_map fst) in G; contradiction.
  - pose proof (given_unique o D _ _ _ _ G G') as E. injection E as ->. clear G G' Dj Fd. induction F as [|j y js l Py F IH]; [destruct I|].
    destruct I as [<-|I]; [exists y; split; [left; reflexivity|exact Py]|]. destruct (IH I) as (x & Ix & Px). exists x. split; [right; exact Ix|exact Px].
Qed.

Lemma config_parts : forall lib text c, parse_trust_config lib text = Ok c ->
  exists ro so, root_in lib text ro /\ signing_in lib text so /\ dicts (JObj ro) /\ dicts (JObj so) /\ root_of lib (JObj ro) (ctc_root c) /\ signing_config_of lib (JObj so) (ctc_signing c) /\ ctc_force c = None.
Proof.
  intros lib text c H. apply C108_config_accepts in H. destruct H as (j & T & (o & -> & _ & _ & (jr & Gr & R) & (js & Gs & S)) & F).
  pose proof (json_dicts _ _ _ T) as D. pose proof (dicts_given o D _ _ _ Gr) as Dr. pose proof (dicts_given o D _ _ _ Gs) as Ds.
  destruct (R) as (ro & -> & _). destruct (S) as (so & -> & _). exists ro, so. unfold root_in, signing_in, says. eauto 20.
Qed.
Lemma root_unique : forall lib text c ro, parse_trust_config lib text = Ok c -> root_in lib text ro -> dicts (JObj ro) /\ root_of lib (JObj ro) (ctc_root c).
Proof.
  intros lib text c ro H (j & T & o & -> & G). destruct (config_parts _ _ _ H) as (ro' & so & (j' & T' & o' & -> & G') & _ & D' & _ & R & _).
  pose proof T as T0. apply read_iff in T, T'. rewrite T in T'. injection T' as <-.
  pose proof (given_unique o (json_dicts _ _ _ T0) _ _ _ _ G G') as E. injection E as ->. auto.
Qed.
Lemma signing_unique : forall lib text c so, parse_trust_config lib text = Ok c -> signing_in lib text so -> dicts (JObj so) /\ signing_config_of lib (JObj so) (ctc_signing c).
Proof.
  intros lib text c so H (j & T & o & -> & G). destruct (config_parts _ _ _ H) as (ro & so' & _ & (j' & T' & o' & -> & G') & _ & D' & _ & R & _).
  pose proof T as T0. apply read_iff in T, T'. rewrite T in T'. injection T' as <-.
  pose proof (given_unique o (json_dicts _ _ _ T0) _ _ _ _ G G') as E. injection E as ->. auto.
Qed.

(** an accepted configuration has these members *)
Theorem C108_members : forall lib text c, parse_trust_config lib text = Ok c -> exists ro so, root_in lib text ro /\ signing_in lib text so.
Proof. intros lib text c H. destruct (config_parts _ _ _ H) as (ro & so & A & B & _). eauto. Qed.

Section Root.
Variables (env : Env) (lib : TrustLib) (tr : TrustedRootMsg) (ro : list (str * json)).
Hypothesis D : dicts (JObj ro).
Hypothesis R : root_of lib (JObj ro) tr.

Lemma registered_listed : forall now ts name k s, (forall t, In t ts -> exists e, element ro name name e /\ tlog_of lib e t) ->
  (forall t, In t ts -> started now (tl_valid_for t)) -> registered env (map tl_key ts) k s -> listed_key lib env ro now name k s.
Proof.
  intros now ts name k s L S (l1 & m & l2 & E & U & _). assert (I : In m (map tl_key ts)) by (rewrite E; apply in_elt).
  apply in_map_iff in I. destruct I as (t & <- & I). destruct (L t I) as (e & El & T). exists e, t. auto.
Qed.
Lemma rekor_listed : forall now ms k s, rekor_keys now tr ms -> registered env ms k s -> listed_key lib env ro now "tlogs" k s.
Proof.
  intros now ms k s (ts & Sel & -> & _). destruct R as (o & [= <-] & _ & _ & T & _). apply registered_listed; intros t I; apply (selected_in _ _ _ _ Sel) in I; destruct I as [I W].
  - eapply listed_element; eassumption.
  - exact (proj1 W).
Qed.
Lemma ct_listed : forall now ms k s, ct_keys now tr ms -> registered env ms k s -> listed_key lib env ro now "ctlogs" k s.
Proof.
  intros now ms k s (ts & Sel & -> & _). destruct R as (o & [= <-] & _ & _ & _ & T & _). apply registered_listed; intros t I; apply (selected_in _ _ _ _ Sel) in I; destruct I as [I W].
  - eapply listed_element; eassumption.
  - exact (proj1 W).
Qed.
Lemma tsa_listed : forall cas ca, trusted_tsas env tr cas -> In ca cas -> listed_tsa lib env ro ca.
Proof.
  intros cas ca F I. destruct R as (o & [= <-] & _ & _ & _ & _ & _ & T).
  assert (Q : In (ca_inner ca) (tr_tsas tr) /\ Forall2 (fun der c => e_parse_cert env der = Ok c) (cam_certs (ca_inner ca)) (ca_certs ca)).
  { clear T R. unfold trusted_tsas in F. induction F as [|m x ms xs (E & _ & P) F IH]; [destruct I|]. destruct I as [->|I]; [rewrite E; split; [left; reflexivity|exact P]|].
    destruct (IH I). split; [right; assumption|assumption]. }
  destruct Q as [Im P]. destruct (listed_element _ _ _ _ _ _ _ T _ Im) as (e & El & C). exists e. auto.
Qed.
Lemma parsed_certs : forall ms parsed, Forall2 (fun m cs => Forall2 (fun der c => e_parse_cert env der = Ok c) (cam_certs m) cs /\ cs <> nil) ms parsed ->
  forall c m, (exists cs, In (m, cs) (combine ms parsed) /\ In c cs) <-> (In m ms /\ exists der, In der (cam_certs m) /\ e_parse_cert env der = Ok c).
Proof.
  intros ms parsed F. induction F as [|m0 cs0 ms parsed (F0 & _) F IH]; intros c m; cbn [combine In].
  - split; [intros (cs & [] & _)|intros ([] & _)].
  - split.
    + intros (cs & [[= -> ->]|I] & Ic).
      * split; [left; reflexivity|]. clear - F0 Ic. induction F0 as [|d x ds xs E F IH]; [destruct Ic|]. destruct Ic as [->|Ic]; [exists d; split; [left; reflexivity|exact E]|].
        destruct (IH Ic) as (der & I & Q). exists der. split; [right; exact I|exact Q].
      * destruct (proj1 (IH c m)) as (Im & X); [eauto|]. auto.
    + intros ([->|I] & der & Id & Q).
      * exists cs0. split; [left; reflexivity|]. clear - F0 Id Q. induction F0 as [|d x ds xs E F IH]; [destruct Id|]. destruct Id as [->|Id]; [left; congruence|right; auto].
      * destruct (proj2 (IH c m)) as (cs & Ics & Ic); [eauto|]. eauto.
Qed.
Lemma fulcio_listed : forall now certs, get_fulcio_certs env now tr = Ok certs -> forall c, In c certs <-> listed_ca_certificate lib env ro now c.
Proof.
  intros now certs H c. apply C14_fulcio_certificates in H. destruct H as (_ & parsed & used & F & Sel & ->). destruct R as (o & [= <-] & _ & _ & _ & _ & T & _). split.
  - intros I. apply in_concat in I. destruct I as (cs & I & Ic). apply in_map_iff in I. destruct I as ([m cs'] & E & I). cbn [snd] in E. subst cs'.
    apply (selected_in _ _ _ _ Sel) in I. destruct I as [I W]. cbn [fst] in W. destruct (proj1 (parsed_certs _ _ F c m)) as (Im & der & Id & Q); [eauto|].
    destruct (listed_element _ _ _ _ _ _ _ T _ Im) as (e & El & C). exists e, m, der. auto.
  - intros (e & m & der & El & C & Id & Q & W). destruct (element_listed _ _ _ _ _ _ _ D T e El) as (De & m' & Im & C').
    apply ca_iff in C, C'; try exact De. assert (m' = m) by congruence. subst m'.
    destruct (proj2 (parsed_certs _ _ F c m)) as (cs & I & Ic); [eauto|]. apply in_concat. exists cs. split; [|exact Ic].
    apply in_map_iff. exists (m, cs). split; [reflexivity|]. apply (selected_in _ _ _ _ Sel). auto.
Qed.

Lemma accepted_rests : forall start v now b p times, (forall x, length (e_hash env SHA256 x) = 32) ->
  make_verifier env start tr = Ok v -> signer_accepted env now v b p times -> rests_on_listed lib env ro start now b.
Proof.
  intros start v now b p times H32 M H. assert (V : vf_root v = tr /\ get_fulcio_certs env start tr = Ok (vf_fulcio v)).
  { unfold make_verifier in M. destruct (get_fulcio_certs env start tr) as [certs|]; [|discriminate]. cbn [bind] in M.
    destruct (index_list (tr_tlogs tr) 0) as [tlog|]; [|discriminate]. injection M as <-. auto. }
  destruct V as [V F]. exists (vf_fulcio v), times. split; [apply fulcio_listed; exact F|].
  destruct (C24_accepted_certificate _ _ _ _ _ _ H) as (Nn & Ch & (ms & x & s & d & k & sc & Ck & Ex & Sx & Rg & Vs & _) & _).
  destruct (C24_accepted_log_entry _ _ _ _ _ _ H32 H) as (rms & Rk & Le). rewrite V in *.
  split; [exact Nn|]. split; [exact Ch|]. split; [|split].
  - intros t I. destruct (C27_trusted_time_sources _ _ _ _ _ _ _ H I) as [(raw & tok & cas & ca & sg & A1 & A2 & A3 & A4 & A5 & A6 & A7)|(secs & set & ms' & k' & s' & A1 & A2 & A3 & A4 & A5 & A6 & A7 & A8)].
    + left. exists raw, tok, ca, sg. repeat (split; [assumption|]). split; [|auto]. rewrite V in A4. eapply tsa_listed; eassumption.
    + right. exists secs, set, k', s'. repeat (split; [assumption|]). split; [|exact A8]. rewrite V in A6. eapply rekor_listed; eassumption.
  - exists x, s, k, sc, d. repeat (split; [assumption|]). split; [eapply ct_listed; eassumption|exact Vs].
  - intros ip Ip. destruct (Le ip Ip) as ((text & p0 & data & noteb & sg & k' & s' & B1 & B2 & B3 & B4 & B5 & _) & _).
    exists text, p0, data, noteb, sg, k', s'. repeat (split; [assumption|]). split; [eapply rekor_listed; eassumption|exact B5].
Qed.
End Root.

(** Only what the text lists is trusted: if a verifier made from it accepts a bundle, the certificates, keys and
    timestamp authorities that this rests on are in the text. *)
Theorem C108_only_listed_artifact : forall env ps lib text c start v now i b p ro, (forall x, length (e_hash env SHA256 x) = 32) ->
  parse_trust_config lib text = Ok c -> make_verifier env start (ctc_root c) = Ok v -> verify_artifact env ps now v i b p = Ok tt ->
  root_in lib text ro -> rests_on_listed lib env ro start now b.
Proof.
  intros env ps lib text c start v now i b p ro H32 P M A Rt. destruct (C24_accepted_artifact _ _ _ _ _ _ _ A) as ((times & S) & _).
  destruct (root_unique _ _ _ _ P Rt) as [D R]. eapply accepted_rests; eassumption.
Qed.
Theorem C108_only_listed_dsse : forall env ps lib text c start v now b p x ro, (forall x, length (e_hash env SHA256 x) = 32) ->
  parse_trust_config lib text = Ok c -> make_verifier env start (ctc_root c) = Ok v -> verify_dsse env ps now v b p = Ok x ->
  root_in lib text ro -> rests_on_listed lib env ro start now b.
Proof.
  intros env ps lib text c start v now b p [ty pl] ro H32 P M A Rt. destruct (C25_accepted_dsse _ _ _ _ _ _ _ _ A) as ((times & S) & _).
  destruct (root_unique _ _ _ _ P Rt) as [D R]. eapply accepted_rests; eassumption.
Qed.

(** The same for the commands: if [sigstore verify] with [--trust-config] exits with 0, what every input was checked
    with rests on what the file lists. *)
Theorem C108_verify_command : forall mc environ l t0 h0 sched t h out r lib file,
  main mc environ l t0 h0 sched t h out r -> ln_command l = C_verify_identity \/ ln_command l = C_verify_github ->
  unicode_lower (mc_lower mc) -> calm_machine mc -> (forall x, length (e_hash (mc_env mc) SHA256 x) = 32) ->
  w_config_json (tl_world (mc_tools mc)) = parse_trust_config lib -> last_given l O_trust_config file -> exit_status r = 0 ->
  let env := mc_env mc in let w := world_at (mc_tools mc) t0 in
  exists raw text ro, content w (path_of file) = Some raw /\ utf8_decode raw = Some text /\ root_in lib text ro /\
  forall arg, In arg (ln_positional l) ->
  exists a v p x d b st, says_verify environ l a /\ denotes w arg x /\ PropsCliVerify.digest_of env w x d /\ evidence env w a v x d b /\
    vouched env (mc_ps mc) w (w_when w x) v p d b st /\ rests_on_listed lib env ro (w_start w) (w_when w x) b.
Proof.
  intros mc environ l t0 h0 sched t h out r lib file M C U Cm H32 J Lg X env w.
  assert (E : exists a show p, says_verify environ l a /\ every_input_verified env (mc_ps mc) w a show p).
  { destruct C as [C|C].
    - destruct (proj1 (C85_verify_identity _ _ _ _ _ _ _ _ _ _ M C U Cm)) as [H _]. destruct (H X) as (_ & _ & a & identity & issuer & Sa & _ & _ & E). eauto.
    - destruct (proj1 (C85_verify_github _ _ _ _ _ _ _ _ _ _ M C U Cm)) as [H _]. destruct (H X) as (_ & _ & a & g & Sa & _ & _ & E). eauto. }
  destruct E as (a & show & p & Sa & items & v & F & _ & (c & Cs & _ & Mv) & Al).
  assert (Tc : va_trust_config a = Some (path_of file)).
  { destruct Sa as (_ & _ & _ & _ & _ & (val & Hv & E) & _). rewrite E. destruct Hv as [s L|vn s Ng V Ev|Ng _].
    - cbn [option_map]. do 2 f_equal. eapply last_given_unique; eassumption.
    - inversion V.
    - destruct Lg as (l1 & l2 & El & _). exfalso. eapply Ng. rewrite El. apply in_elt. }
  unfold config_selected in Cs. rewrite Tc in Cs. destruct Cs as (raw & text & Ct & Ud & Pc). exists raw, text.
  change (w_config_json w) with (w_config_json (tl_world (mc_tools mc))) in Pc. rewrite J in Pc. symmetry in Pc.
  destruct (C108_members _ _ _ Pc) as (ro & so & Rt & _). exists ro. split; [exact Ct|]. split; [exact Ud|]. split; [exact Rt|].
  intros arg Ia. assert (Ia' : In arg (va_inputs a)) by (destruct Sa as (-> & _); assumption).
  destruct (input_item _ _ _ _ F Ia') as (x & Ix & Dx). destruct (Al x Ix) as (d & b & st & Dd & Ev & Vo & _).
  exists a, v, p, x, d, b, st. repeat (split; [assumption|]). unfold vouched in Vo. destruct (bm_env (b_inner b)) as [m|].
  - destruct Vo as (payload & inner & s & Vd & _). eapply C108_only_listed_dsse; eassumption.
  - destruct Vo as (Va & _). eapply C108_only_listed_artifact; eassumption.
Qed.

Lemma offered_listed : forall lib so now k k' versions services u, has_list (bl_lists (tb_bundle lib)) (service_of lib) so k k' services ->
  offered now versions services u -> exists s, listed_service lib so now k k' versions s /\ sv_url s = u.
Proof.
  intros lib so now k k' versions services u H (s & I & E & Q). exists s. split; [|exact Q]. destruct (listed_element _ _ _ _ _ _ _ H _ I) as (e & El & S). exists e. auto.
Qed.
Lemma permitted_listed : forall lib tl a t0 file c, w_config_json (tl_world tl) = parse_trust_config lib -> ca_trust_config a = Some file -> configured tl a t0 c ->
  exists raw text so, content (world_at tl t0) file = Some raw /\ utf8_decode raw = Some text /\ signing_in lib text so /\
  forall ev, permitted tl a c ev -> listed_event lib so (w_start (tl_world tl)) (ca_rekor_version a) ev.
Proof.
  intros lib tl a t0 file c J Tc Cf. unfold configured, get_trust_config in Cf. rewrite Tc in Cf. apply bind_ok_inv in Cf. destruct Cf as (text & Ft & Pc).
  change (w_config_json (world_at tl t0)) with (w_config_json (tl_world tl)) in Pc. rewrite J in Pc.
  unfold file_text in Ft. apply bind_ok_inv in Ft. destruct Ft as (raw & Fb & Ft). unfold file_bytes in Fb. destruct (content (world_at tl t0) file) as [raw'|] eqn:Ct; [|discriminate].
  injection Fb as ->. unfold py_decode in Ft. destruct (utf8_decode raw) as [text'|] eqn:Ud; [|discriminate]. injection Ft as ->.
  destruct (C108_members _ _ _ Pc) as (ro & so & _ & Sg). destruct (signing_unique _ _ _ _ Pc Sg) as (_ & (o & [= <-] & _ & _ & Tl & _ & Ts & _ & Ca & _)).
  exists raw, text, so. split; [reflexivity|]. split; [exact Ud|]. split; [exact Sg|]. intros ev Pm. destruct ev; cbn [permitted listed_event] in *; try exact Logic.I.
  - eapply offered_listed; eassumption.
  - eapply offered_listed; eassumption.
  - destruct Pm as (u & _ & V & O). split; [|exact V]. destruct (offered_listed _ _ _ _ _ _ _ _ Tl O) as (s & L & _). eauto.
Qed.
(** Only the services that the file lists are asked when something is signed. *)
Theorem C108_sign_command : forall lib tl a t0 h0 sched t h lines r file, sign_run tl a t0 h0 sched t h lines r ->
  w_config_json (tl_world tl) = parse_trust_config lib -> ca_trust_config (sa_common a) = Some file ->
  exists l, h = h0 ++ l /\ (l = nil \/ exists raw text so, content (world_at tl t0) file = Some raw /\ utf8_decode raw = Some text /\ signing_in lib text so /\
    forall ev, In ev l -> listed_event lib so (w_start (tl_world tl)) (ca_rekor_version (sa_common a)) ev).
Proof.
  intros lib tl a t0 h0 sched t h lines r file H J Tc. destruct (C100_sign_services _ _ _ _ _ _ _ _ _ H) as (l & E & Q). exists l. split; [exact E|].
  destruct Q as [Q|(c & Cf & P)]; [left; exact Q|right]. destruct (permitted_listed _ _ _ _ _ _ J Tc Cf) as (raw & text & so & A & B & S & L). exists raw, text, so. auto 10.
Qed.
Theorem C108_attest_command : forall lib tl a t0 h0 sched t h lines r file, attest_run tl a t0 h0 sched t h lines r ->
  w_config_json (tl_world tl) = parse_trust_config lib -> ca_trust_config (aa_common a) = Some file ->
  exists l, h = h0 ++ l /\ (l = nil \/ exists raw text so, content (world_at tl t0) file = Some raw /\ utf8_decode raw = Some text /\ signing_in lib text so /\
    forall ev, In ev l -> listed_event lib so (w_start (tl_world tl)) (ca_rekor_version (aa_common a)) ev).
Proof.
  intros lib tl a t0 h0 sched t h lines r file H J Tc. destruct (C100_attest_services _ _ _ _ _ _ _ _ _ H) as (l & E & Q). exists l. split; [exact E|].
  destruct Q as [Q|(c & Cf & P)]; [left; exact Q|right]. destruct (permitted_listed _ _ _ _ _ _ J Tc Cf) as (raw & text & so & A & B & S & L). exists raw, text, so. auto 10.
Qed.

(** ** Concrete cases *)

(** times: year-month-day T hour:minute:second Z *)
Definition tjx_digits (l : str) : option Z := if forallb (fun c => (48 <=? c)%N && (c <=? 57)%N) l then Some (Z.of_N (undec l)) else None.
Definition tjx_days (y m d : Z) : Z :=
  let y' := if (m <=? 2)%Z then (y - 1)%Z else y in let era := (y' / 400)%Z in let yoe := (y' - era * 400)%Z in
  let doy := ((153 * (if (2 <? m)%Z then m - 3 else m + 9) + 2) / 5 + d - 1)%Z in
  (era * 146097 + (yoe * 365 + yoe / 4 - yoe / 100 + doy) - 719468)%Z.
Definition tjx_time (j : json) : option time :=
  match j with
  | JStr [y1; y2; y3; y4; 45; m1; m2; 45; d1; d2; 84; h1; h2; 58; n1; n2; 58; s1; s2; 90]%N =>
    match tjx_digits [y1; y2; y3; y4], tjx_digits [m1; m2], tjx_digits [d1; d2], tjx_digits [h1; h2], tjx_digits [n1; n2], tjx_digits [s1; s2] with
    | Some y, Some m, Some d, Some h, Some n, Some s => Some ((((tjx_days y m d * 24 + h) * 60 + n) * 60 + s) * 1000000)%Z
    | _, _, _, _, _, _ => None
    end
  | _ => None
  end.
(** logs must say how they hash *)
Definition tjx_rest (name : String.string) (o : list (str * json)) : bool :=
  if String.eqb name "TransparencyLogInstance" then match assoc str_eqb (s2l "hashAlgorithm") o with Some (JStr _) => true | _ => false end else true.
Definition tjx_lib : TrustLib := mkTL bjx_lib tjx_time tjx_rest.
Example ex_tjx_time :
  (tjx_time (JStr (s2l "1970-01-01T00:00:00Z")), tjx_time (JStr (s2l "2000-03-01T00:00:00Z")), tjx_time (JStr (s2l "2023-04-14T21:38:40Z"))) =
  (Some 0%Z, Some 951868800000000%Z, Some 1681508320000000%Z).
Proof. vm_compute. reflexivity. Qed.

(** a trust configuration whose root is that of ToyBundles.v *)
Definition tjx_text : str := s2l "{""mediaType"":""application/vnd.dev.sigstore.clienttrustconfig.v0.1+json"",""trustedRoot"":{""mediaType"":""application/vnd.dev.sigstore.trustedroot+json;version=0.1"",""tlogs"":[{""baseUrl"":""https://rekor.example"",""hashAlgorithm"":""SHA2_256"",""publicKey"":{""rawBytes"":""AgEB"",""keyDetails"":""PKIX_ECDSA_P256_SHA_256"",""validFor"":{""start"":""1970-01-01T00:00:00Z""}}}],""ctlogs"":[{""baseUrl"":""https://ct.example"",""hashAlgorithm"":""SHA2_256"",""publicKey"":{""rawBytes"":""AgkJ"",""keyDetails"":""PKIX_ECDSA_P256_SHA_256"",""validFor"":{""start"":""1970-01-01T00:00:00Z""}}}],""certificateAuthorities"":[{""subject"":{""commonName"":""ca""},""certChain"":{""certificates"":[{""rawBytes"":""MAE=""}]},""validFor"":{""start"":""1970-01-01T00:00:00Z""}}],""timestampAuthorities"":[{""subject"":{""commonName"":""ca""},""certChain"":{""certificates"":[{""rawBytes"":""MAE=""}]},""validFor"":{""start"":""1970-01-01T00:00:00Z""}},{""subject"":{""commonName"":""ca""},""certChain"":{""certificates"":[{""rawBytes"":""MAE=""},{""rawBytes"":""MAE=""}]},""validFor"":{""start"":""1970-01-01T00:00:00Z"",""end"":""1970-01-01T00:00:50Z""}},{""subject"":{""commonName"":""ca""},""certChain"":{""certificates"":[{""rawBytes"":""MAI=""},{""rawBytes"":""MAE=""}]},""validFor"":{""start"":""1970-01-01T00:00:00Z""}}]},""signing_config"":{""mediaType"":""application/vnd.dev.sigstore.signingconfig.v0.2+json"",""caUrls"":[{""url"":""https://fulcio.example.com"",""majorApiVersion"":1,""validFor"":{""start"":""2021-01-12T11:53:27Z""},""operator"":""example.com""},{""url"":""https://old.example.com"",""majorApiVersion"":1,""validFor"":{""start"":""2020-02-29T00:00:00Z"",""end"":""2023-04-14T21:38:40Z""},""operator"":""example.com""}],""oidcUrls"":[{""url"":""https://oauth2.example.com/auth"",""majorApiVersion"":1,""validFor"":{""start"":""2021-01-12T11:53:27Z""},""operator"":""example.com""}],""rekorTlogUrls"":[{""url"":""https://rekor.example.com"",""majorApiVersion"":1,""validFor"":{""start"":""2021-01-12T11:53:27Z""},""operator"":""example.com""},{""url"":""https://rekor-v2.example.com"",""majorApiVersion"":2,""validFor"":{""start"":""2021-01-12T11:53:27Z""},""operator"":""example.com""}],""tsaUrls"":[{""url"":""https://timestamp.example.com/api/v1/timestamp"",""majorApiVersion"":1,""validFor"":{""start"":""2021-01-12T11:53:27Z""},""operator"":""example.com""}],""rekorTlogConfig"":{""selector"":""ANY""},""tsaConfig"":{""selector"":""EXACT"",""count"":1}}}".
Definition tjx_service (u : String.string) (v start : Z) (e : option Z) : Service :=
  mkService (s2l u) v (Some (mkTimeRange start e)) (s2l "example.com").
Definition tjx_config : ClientTrustConfig :=
  mkCTC vx_tr (mkSCM SIGNING_CONFIG_0_2
    [tjx_service "https://rekor.example.com" 1%Z 1610452407000000%Z None; tjx_service "https://rekor-v2.example.com" 2%Z 1610452407000000%Z None] (Some (mkSvcConf SEL_ANY 0))
    [tjx_service "https://timestamp.example.com/api/v1/timestamp" 1%Z 1610452407000000%Z None] (Some (mkSvcConf SEL_EXACT 1))
    [tjx_service "https://fulcio.example.com" 1%Z 1610452407000000%Z None; tjx_service "https://old.example.com" 1%Z 1582934400000000%Z (Some 1681508320000000%Z)]
    [tjx_service "https://oauth2.example.com/auth" 1%Z 1610452407000000%Z None]) None.
Example ex_tjx_parsed : parse_trust_config tjx_lib tjx_text = Ok tjx_config.
Proof. vm_compute. reflexivity. Qed.

(** a verifier made from it accepts, so what was relied on is listed *)
Example ex_tjx_listed : exists ro, root_in tjx_lib tjx_text ro /\ rests_on_listed tjx_lib vx_env ro vx_now vx_now vx_artifact2.
Proof.
  destruct (C108_members _ _ _ ex_tjx_parsed) as (ro & so & Rt & _). exists ro. split; [exact Rt|].
  pose proof ex_artifact2_accepted as A. unfold vx_verify_artifact in A. pose proof ex_make_verifier as Mv. pose proof ex_tjx_parsed as P.
  assert (E : ctc_root tjx_config = vx_tr) by reflexivity. rewrite <- E in Mv. clear E. revert Mv P. generalize tjx_config. intros c Mv P.
  eapply C108_only_listed_artifact; [exact toy_hash_length|exact P|exact Mv|exact A|exact Rt].
Qed.

(** the command line *)
Definition tjx_tree : tree := fun p => if path_eqb p [s2l "home"; s2l "trust.json"] then Some (N_file (ascii_bytes tjx_text)) else gx_tree p.
Definition tjx_world : World :=
  mkWorld [s2l "home"] (fun _ => None) (fun _ => Raise EValue) (fun b => if bytes_eqb b [x01] then Ok ax_msg else Raise EPydantic) (fun _ => None)
    (parse_trust_config tjx_lib) (fun _ _ => Raise EValue) (fun _ _ => Raise EConnection) rkx_rp vx_now (fun _ => vx_now).
Definition tjx_tools : Tools :=
  mkTools tjx_world (tl_libs mx_tools) (tl_out mx_tools) (fun _ => None) (fun _ => s2l "{}") (fun _ => Some nil)
    (tl_token mx_tools) (fun _ => Ok None) (fun _ _ _ _ => Raise EIdentity) (tl_to_json mx_tools).
Definition tjx : Machine :=
  mkMachine ax_env vx_parsers tjx_tools (mc_lower mx) (mc_int mx) (mc_http mx) (mc_data mx) (mc_cache mx) (mc_tuf mx) (mc_embedded mx)
    (parse_trusted_root tjx_lib) (parse_signing_config tjx_lib) (parse_trust_config tjx_lib) vx_now.

(** reading configurations never ends the process *)
Lemma validated_calm : forall A (x : option A), Calm.quiet (validated x).
Proof. intros A []; exact Logic.I. Qed.
Lemma tjx_calm : calm_machine tjx.
Proof.
  destruct gx_calm as [C1 C2 C3 C4 C5 C6 C7 C8]. constructor; try assumption; try (intros; apply validated_calm).
  destruct C3 as [D1 D2 D3 D4 D5 D6]. constructor; try assumption. destruct D1 as [E1 E2 E3 E4 E5 E6]. constructor; try assumption; try (intros; exact Logic.I). intros s. apply validated_calm.
Qed.
Definition tjx_line : Line :=
  mx_line C_verify_identity [(O_cert_identity, s2l "a@b.c"); (O_cert_issuer, s2l "https://issuer.example"); (O_trust_config, s2l "trust.json")] [s2l "a.txt"].
Lemma tjx_main : exists out, main tjx mx_unset tjx_line tjx_tree nil nil tjx_tree nil out (Ok tt).
Proof.
  assert (E : snd (verify_identity ax_env vx_parsers (world_at tjx_tools tjx_tree) (verify_args (mx_ns tjx mx_unset tjx_line))
    (ns_str (mx_ns tjx mx_unset tjx_line) O_cert_identity) (ns_str (mx_ns tjx mx_unset tjx_line) O_cert_issuer)) = Ok tt) by (vm_compute; reflexivity).
  eexists. apply (mx_run _ _ _ _ _ _ _ _ _ (Ok tt)); [reflexivity| |reflexivity]. apply Run_verify_identity; [reflexivity|].
  rewrite <- E. apply surjective_pairing.
Qed.
Example ex_tjx_command : exists ro b, root_in tjx_lib tjx_text ro /\ rests_on_listed tjx_lib ax_env ro vx_now vx_now b.
Proof.
  destruct tjx_main as (out & M).
  destruct (C108_verify_command tjx mx_unset tjx_line tjx_tree nil nil tjx_tree nil out (Ok tt) tjx_lib (s2l "trust.json") M (or_introl eq_refl) ex_unicode_lower tjx_calm
    toy_hash_length eq_refl) as (raw & text & ro & Ct & Ud & Rt & H).
  - exists [(O_cert_identity, s2l "a@b.c"); (O_cert_issuer, s2l "https://issuer.example")], nil. split; [reflexivity|intros s []].
  - reflexivity.
  - assert (Q : text = tjx_text).
    { assert (Q : Some raw = Some (ascii_bytes tjx_text)) by (rewrite <- Ct; reflexivity).
      assert (Q' : utf8_decode (ascii_bytes tjx_text) = Some tjx_text) by (vm_compute; reflexivity). revert Q Q' Ud. clear. generalize (ascii_bytes tjx_text) as y. generalize tjx_text as z.
      intros z y Q Q' Ud. congruence. }
    subst text. destruct (H _ (or_introl eq_refl)) as (a & v & p & x & d & b & st & _ & _ & _ & _ & _ & L). exists ro, b. split; [exact Rt|exact L].
Qed.

(** the services a signer uses: the newest version of the log (one operator), not the expired CA *)
Example ex_tjx_services : context_from_trust_config vx_now tjx_config =
  Ok (mkParts (s2l "https://fulcio.example.com") (Rekor_v2 (s2l "https://rekor-v2.example.com")) vx_tr [s2l "https://timestamp.example.com/api/v1/timestamp"]).
Proof. vm_compute. reflexivity. Qed.

From Verif Require ToySign.
(** Signing with this file: the CA that is in force, its authority and the newer of its logs are asked. *)
Definition tjx_sign_world : World :=
  mkWorld [s2l "home"] (fun _ => None) (fun _ => Raise EValue) (fun _ => Raise EPydantic) (fun _ => None)
    (parse_trust_config tjx_lib) (fun _ _ => Raise EValue) (fun _ _ => Raise EConnection) rkx_rp 1700000000000000%Z (fun _ => vx_now).
Definition tjx_out : Outside :=
  mkOutside (o_clock csx_out) (o_pub csx_out) (o_sign csx_out) (o_fulcio csx_out) (o_tsa_query csx_out)
    (fun h rq => match rq with POST _ q => o_tsa csx_out h (POST (s2l "https://tsa.example") q) | GET _ _ => o_tsa csx_out h rq end) (o_log csx_out).
Definition tjx_sign_tools : Tools :=
  mkTools tjx_sign_world (ToySign.sy_libs ToySign.sy_far) tjx_out (tl_json csx_tools) (tl_text csx_tools) csx_dump csx_token (tl_detect csx_tools) (tl_interactive csx_tools) csx_to_json.
Definition tjx_sign_tree : tree := fun p => if path_eqb p [s2l "home"; s2l "trust.json"] then Some (N_file (ascii_bytes tjx_text)) else csx_tree p.
Definition tjx_sign_args : SignArgs :=
  mkSA (mkCA [csx_a] false None (s2l "sigstore") None false None false None (Some [s2l "trust.json"]) None false false) None None None None false.
Example ex_tjx_sign : exists t h lines, sign_run tjx_sign_tools tjx_sign_args tjx_sign_tree nil (turns (repeat 0 40)) t h lines (Ok tt) /\
  svx_requests h = [[s2l "ca"; s2l "https://fulcio.example.com"]; [s2l "tsa"; s2l "https://timestamp.example.com/api/v1/timestamp"]; [s2l "log"; s2l "2"]].
Proof.
  destruct (exec_run tjx_sign_tools (sa_common tjx_sign_args) None nil (sign_prepare tjx_sign_tools tjx_sign_args tjx_sign_tree) (turns (repeat 0 40))
    (fun y _ => svx_requests (y_hist y) = [[s2l "ca"; s2l "https://fulcio.example.com"]; [s2l "tsa"; s2l "https://timestamp.example.com/api/v1/timestamp"]; [s2l "log"; s2l "2"]])) as (y & l & R & E).
  - vm_compute; reflexivity.
  - exists (y_tree y), (y_hist y), l. split; [exact R|exact E].
Qed.

(** A newer trusted root is read, but then refused. *)
Theorem C108_newer_root_refused : forall lib text c, parse_trust_config lib text = Ok c ->
  forall ro, root_in lib text ro -> has in_text ro "mediaType" "media_type" (s2l "application/vnd.dev.sigstore.trustedroot.v0.2+json") ->
  make_trusted_root (ctc_root c) = Raise EError.
Proof.
  intros lib text c P ro Rt (j & G & ->). destruct (root_unique _ _ _ _ P Rt) as [D (o & [= <-] & _ & (j' & G' & -> & I) & _)].
  pose proof (given_unique ro D _ _ _ _ G G') as E. injection E as E. unfold make_trusted_root. rewrite <- E. reflexivity.
Qed.

Print Assumptions C108_config_accepts.
Print Assumptions C108_root_accepts.
Print Assumptions C108_signing_config_accepts.
Print Assumptions C108_rejects.
Print Assumptions C108_members.
Print Assumptions C108_only_listed_artifact.
Print Assumptions C108_only_listed_dsse.
Print Assumptions C108_verify_command.
Print Assumptions C108_sign_command.
Print Assumptions C108_attest_command.
Print Assumptions C108_newer_root_refused.
