(** Trust configuration files: sigstore/models.py:698-704 [SigningConfig.from_file], models.py:830-837
    [TrustedRoot.from_file] and models.py:919-925 [ClientTrustConfig.from_json], which call [from_json] of the pydantic
    classes of [sigstore_models.trustroot.v1].  That library is not part of the repository; the shape of the texts is the
    JSON mapping of the protobuf messages of sigstore, as in /repo/test/assets/trusted_root, trust_config and
    signing_config.

    Simplified: times without a time zone are taken to be rejected (compared with the clock at _utils.py:366-380 they
    would raise TypeError). *)
From Verif Require Import Base Codec Json PyText Messages Env Keyring Cert TrustedRoot SigningConfig JsonText StatementJson BundleJson.

(** what is assumed of the library *)
Record TrustLib := mkTL {
  tb_bundle : BundleLib;
  (** the JSON values accepted for a time *)
  tb_time : json -> option time;
  (** whether a message, given by its name, is accepted for what concerns the members that sigstore-python does not
      read (hash algorithms, log ids, subjects, ...) *)
  tb_rest : String.string -> list (str * json) -> bool
}.

(** [PublicKeyDetails] of sigstore_models (read at trust.py:67-78 and trust.py:98-131); the numbers of [KD_other] are
    those of the protobuf enumeration *)
Definition DETAILS : list (str * key_details) :=
  [(s2l "PKCS1_RSA_PKCS1V5", PKCS1_RSA_PKCS1V5);
   (s2l "PKIX_RSA_PKCS1V15_2048_SHA256", PKIX_RSA_PKCS1V15_2048_SHA256);
   (s2l "PKIX_RSA_PKCS1V15_3072_SHA256", PKIX_RSA_PKCS1V15_3072_SHA256);
   (s2l "PKIX_RSA_PKCS1V15_4096_SHA256", PKIX_RSA_PKCS1V15_4096_SHA256);
   (s2l "PKIX_ECDSA_P256_SHA_256", PKIX_ECDSA_P256_SHA_256);
   (s2l "PKIX_ECDSA_P384_SHA_384", PKIX_ECDSA_P384_SHA_384);
   (s2l "PKIX_ECDSA_P521_SHA_512", PKIX_ECDSA_P521_SHA_512);
   (s2l "PKIX_ED25519", PKIX_ED25519);
   (s2l "PKIX_ED25519_PH", PKIX_ED25519_PH);
   (s2l "PUBLIC_KEY_DETAILS_UNSPECIFIED", KD_other 0);
   (s2l "PKCS1_RSA_PSS", KD_other 2);
   (s2l "PKIX_RSA_PKCS1V5", KD_other 3);
   (s2l "PKIX_RSA_PSS", KD_other 4);
   (s2l "PKIX_ECDSA_P256_HMAC_SHA_256", KD_other 6);
   (s2l "LMS_SHA256", KD_other 14);
   (s2l "LMOTS_SHA256", KD_other 15);
   (s2l "PKIX_RSA_PSS_2048_SHA256", KD_other 16);
   (s2l "PKIX_RSA_PSS_3072_SHA256", KD_other 17);
   (s2l "PKIX_RSA_PSS_4096_SHA256", KD_other 18);
   (s2l "PKIX_ECDSA_P384_SHA_256", KD_other 19);
   (s2l "PKIX_ECDSA_P521_SHA_256", KD_other 20);
   (s2l "ML_DSA_65", KD_other 21);
   (s2l "ML_DSA_87", KD_other 22)].
(** [ServiceSelector] (read at models.py:742-760) *)
Definition SELECTORS : list (str * selector) :=
  [(s2l "SERVICE_SELECTOR_UNDEFINED", SEL_UNDEFINED); (s2l "ALL", SEL_ALL); (s2l "ANY", SEL_ANY); (s2l "EXACT", SEL_EXACT)].
(** the media types that the library accepts: test/unit/internal/test_trust.py:232-239 and 326-333 *)
Definition ROOT_TYPES : list (str * str) :=
  let v2 := s2l "application/vnd.dev.sigstore.trustedroot.v0.2+json" in [(TRUSTED_ROOT_0_1, TRUSTED_ROOT_0_1); (v2, v2)].
Definition CONFIG_0_1 : str := s2l "application/vnd.dev.sigstore.clienttrustconfig.v0.1+json".
Definition CONFIG_TYPES : list (str * str) := [(CONFIG_0_1, CONFIG_0_1)].

(** an enumeration by name *)
Definition named {A} (names : list (str * A)) (j : json) : option A :=
  match j with JStr s => assoc str_eqb s names | _ => None end.

Section Read.
Variable lib : TrustLib.
Let lists := bl_lists (tb_bundle lib).
Let number := bl_number (tb_bundle lib).

(** a message: its members that are read, and the others *)
Definition message_fields {A} (name : String.string) (f : list (str * json) -> option A) : json -> option A :=
  object_fields (fun o => if tb_rest lib name o then f o else None).

(** [common_v1.TimeRange] *)
Definition read_range : json -> option TimeRange := message_fields "TimeRange" (fun o =>
  match required (tb_time lib) "start" "start" o, optional (tb_time lib) "end" "end" o with
  | Some s, Some e => Some (mkTimeRange s e)
  | _, _ => None
  end).

(** [common_v1.PublicKey], with its window *)
Definition read_key : json -> option (PublicKeyMsg * option TimeRange) := message_fields "PublicKey" (fun o =>
  match optional bytes_value "rawBytes" "raw_bytes" o, required (named DETAILS) "keyDetails" "key_details" o,
        optional read_range "validFor" "valid_for" o with
  | Some b, Some d, Some r => Some (mkPKM b d, r)
  | _, _, _ => None
  end).

(** [TransparencyLogInstance] *)
Definition read_tlog : json -> option TLog := message_fields "TransparencyLogInstance" (fun o =>
  match required text_value "baseUrl" "base_url" o, required read_key "publicKey" "public_key" o with
  | Some u, Some k => Some (mkTLog (fst k) (snd k) u)
  | _, _ => None
  end).

(** [CertificateAuthority] *)
Definition read_ca : json -> option CAMsg := message_fields "CertificateAuthority" (fun o =>
  match required (read_chain (tb_bundle lib)) "certChain" "cert_chain" o, optional read_range "validFor" "valid_for" o with
  | Some c, Some r => Some (mkCAMsg c r)
  | _, _ => None
  end).

(** [trustroot_v1.TrustedRoot] *)
Definition read_root : json -> option TrustedRootMsg := message_fields "TrustedRoot" (fun o =>
  match required (named ROOT_TYPES) "mediaType" "media_type" o, repeated lists read_tlog "tlogs" "tlogs" o,
        repeated lists read_tlog "ctlogs" "ctlogs" o, repeated lists read_ca "certificateAuthorities" "certificate_authorities" o,
        repeated lists read_ca "timestampAuthorities" "timestamp_authorities" o with
  | Some m, Some t, Some ct, Some ca, Some ts => Some (mkTR m t ct ca ts)
  | _, _, _, _, _ => None
  end).

(** [trustroot_v1.Service] *)
Definition read_service : json -> option Service := message_fields "Service" (fun o =>
  match required text_value "url" "url" o, required number "majorApiVersion" "major_api_version" o,
        optional read_range "validFor" "valid_for" o, required text_value "operator" "operator" o with
  | Some u, Some v, Some r, Some w => Some (mkService u v r w)
  | _, _, _, _ => None
  end).

(** [trustroot_v1.ServiceConfiguration]; [count] is unsigned *)
Definition count_value (j : json) : option nat :=
  match number j with Some z => if (0 <=? z)%Z then Some (Z.to_nat z) else None | None => None end.
Definition read_service_config : json -> option ServiceConfig := message_fields "ServiceConfiguration" (fun o =>
  match required (named SELECTORS) "selector" "selector" o, optional count_value "count" "count" o with
  | Some s, Some n => Some (mkSvcConf s match n with Some n => n | None => 0 end)
  | _, _ => None
  end).

(** [trustroot_v1.SigningConfig] *)
Definition read_signing_config : json -> option SigningConfigMsg := message_fields "SigningConfig" (fun o =>
  match required text_value "mediaType" "media_type" o,
        repeated lists read_service "rekorTlogUrls" "rekor_tlog_urls" o, optional read_service_config "rekorTlogConfig" "rekor_tlog_config" o,
        repeated lists read_service "tsaUrls" "tsa_urls" o, optional read_service_config "tsaConfig" "tsa_config" o,
        repeated lists read_service "caUrls" "ca_urls" o, repeated lists read_service "oidcUrls" "oidc_urls" o with
  | Some m, Some t, Some tc, Some s, Some sc, Some ca, Some oi => Some (mkSCM m t tc s sc ca oi)
  | _, _, _, _, _, _, _ => None
  end).

(** [trustroot_v1.ClientTrustConfig]; models.py:982-989 [__init__] *)
Definition read_config : json -> option ClientTrustConfig := message_fields "ClientTrustConfig" (fun o =>
  match required (named CONFIG_TYPES) "mediaType" "media_type" o, required read_root "trustedRoot" "trusted_root" o,
        required read_signing_config "signingConfig" "signing_config" o with
  | Some _, Some r, Some s => Some (mkCTC r s None)
  | _, _, _ => None
  end).

(** pydantic's [ValidationError] *)
Definition validated {A} (x : option A) : res A := match x with Some a => Ok a | None => Raise EPydantic end.
Definition and_then {A B} (x : option A) (f : A -> option B) : option B := match x with Some a => f a | None => None end.
Let json_lib := bl_json (tb_bundle lib).

(** models.py:836 (and models.py:966, of the cached target): [trustroot_v1.TrustedRoot.from_json] *)
Definition parse_trusted_root (raw : bytes) : res TrustedRootMsg := validated (and_then (read_bytes json_lib raw) read_root).
(** models.py:703 (and models.py:970, of the cached target): [trustroot_v1.SigningConfig.from_json] *)
Definition parse_signing_config (raw : bytes) : res SigningConfigMsg := validated (and_then (read_bytes json_lib raw) read_signing_config).
(** models.py:919-925 [ClientTrustConfig.from_json] *)
Definition parse_trust_config (text : str) : res ClientTrustConfig := validated (and_then (read json_lib text) read_config).

(** models.py:830-837 [TrustedRoot.from_file], models.py:698-704 [SigningConfig.from_file], of the content of the file *)
Definition root_from_file (raw : bytes) : res TrustedRootMsg := let* m := parse_trusted_root raw in make_trusted_root m.
Definition signing_config_from_file (now : time) (raw : bytes) : res SigningConfig :=
  let* m := parse_signing_config raw in make_signing_config now m None.
End Read.
