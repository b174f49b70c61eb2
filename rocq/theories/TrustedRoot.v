(** sigstore/models.py: [TrustedRoot]; sigstore/_internal/trust.py: [CertificateAuthority]. *)
From Verif Require Import Base Messages Env Keyring.

(** [trustroot_v1.TransparencyLogInstance] (read at models.py:839-853): only the key, the
    validity window of the key and the base URL are used by the code. *)
Record TLog := mkTLog { tl_key : PublicKeyMsg; tl_valid_for : option TimeRange; tl_base_url : str }.

(** [trustroot_v1.CertificateAuthority] (read at trust.py:230-268).  Simplified: the chain
    message is always present (a missing one is an empty list here). *)
Record CAMsg := mkCAMsg { cam_certs : list bytes; cam_valid_for : option TimeRange }.

(** [trustroot_v1.TrustedRoot] (read at models.py:809-900) *)
Record TrustedRootMsg := mkTR {
  tr_media_type : str;
  tr_tlogs : list TLog;
  tr_ctlogs : list TLog;
  tr_cas : list CAMsg;
  tr_tsas : list CAMsg
}.

(** trust.py:203 [KeyringPurpose] *)
Inductive purpose : Set := SIGN | VERIFY.

(** models.py:798-803 [TrustedRootType] *)
Definition TRUSTED_ROOT_0_1 : str := s2l "application/vnd.dev.sigstore.trustedroot+json;version=0.1".

(** models.py:809-828 [TrustedRoot.__init__], [_verify] *)
Definition make_trusted_root (m : TrustedRootMsg) : res TrustedRootMsg :=
  if str_eqb (tr_media_type m) TRUSTED_ROOT_0_1 then Ok m else Raise EError.

Section TrustedRoot.
Variable env : Env.
(** reading of the clock.  Simplified: [datetime.now] in _utils.py:360-379 is read once per
    element of a list; the model uses one reading for the whole call (Clock.v has one for each). *)
Variable now : time.

(** models.py:839-853 [_get_tlog_keys] *)
Fixpoint get_tlog_keys (tlogs : list TLog) (p : purpose) : list PublicKeyMsg :=
  match tlogs with
  | nil => nil
  | t :: r =>
    if is_timerange_valid now (tl_valid_for t) (match p with VERIFY => true | SIGN => false end)
    then tl_key t :: get_tlog_keys r p
    else get_tlog_keys r p
  end.

(** models.py:855-863 [rekor_keyring] *)
Definition rekor_keyring (tr : TrustedRootMsg) (p : purpose) : res keyring :=
  let keys := get_tlog_keys (tr_tlogs tr) p in
  do* raise_if (Nat.eqb (length keys) 0) EMetadata in
  make_keyring env keys.

(** models.py:865-872 [ct_keyring] *)
Definition ct_keyring (tr : TrustedRootMsg) (p : purpose) : res keyring :=
  let ctfes := get_tlog_keys (tr_ctlogs tr) p in
  do* raise_if (match ctfes with nil => true | _ => false end) EMetadata in
  make_keyring env ctfes.

(** trust.py:210-243 [CertificateAuthority] *)
Record CA := mkCA { ca_inner : CAMsg; ca_certs : list Cert }.

(** trust.py:215-243 [__init__] and [_verify] *)
Definition make_ca (m : CAMsg) : res CA :=
  let* certs := map_res (e_parse_cert env) (cam_certs m) in
  do* raise_if (match certs with nil => true | _ => false end) EError in
  Ok (mkCA m certs).

(** trust.py:258-268 [certificates] *)
Definition ca_certificates (ca : CA) (allow_expired : bool) : list Cert :=
  if is_timerange_valid now (cam_valid_for (ca_inner ca)) allow_expired then ca_certs ca else nil.

(** models.py:874-887 [get_fulcio_certs] *)
Fixpoint fulcio_certs_loop (cas : list CAMsg) : res (list Cert) :=
  match cas with
  | nil => Ok nil
  | m :: r =>
    let* ca := make_ca m in
    let* rest := fulcio_certs_loop r in
    Ok (ca_certificates ca true ++ rest)
  end.

Definition get_fulcio_certs (tr : TrustedRootMsg) : res (list Cert) :=
  let* certs := fulcio_certs_loop (tr_cas tr) in
  do* raise_if (match certs with nil => true | _ => false end) EMetadata in
  Ok certs.

(** models.py:889-900 [get_timestamp_authorities] *)
Definition get_timestamp_authorities (tr : TrustedRootMsg) : res (list CA) :=
  map_res make_ca (tr_tsas tr).
End TrustedRoot.
