(** sigstore/_cli.py: [sigstore trust-instance], [sigstore plumbing update-trust-root] and
    [sigstore get-identity-token], which complete the commands of CliVerify.v, CliSign.v and
    Bundle.v (fix-bundle). *)
From Verif Require Import Base Codec Messages Env Cert TrustedRoot SigningConfig Json Oidc Tuf PyText Policy CliVerify.

Section Trust.
Variables data_dir cache_dir : path.
Variable lib : TufLib.
Variable embedded : str -> str -> option bytes.
Variable parse_tr : bytes -> res TrustedRootMsg.
Variable parse_sc : bytes -> res SigningConfigMsg.
Variable parse_config : str -> res ClientTrustConfig.   (* [ClientTrustConfig.from_json] *)
Variable cwd : path.

(** models.py:952-984 [ClientTrustConfig.from_tuf] *)
Definition config_from_tuf (url : str) (offline : bool) (bootstrap_root : option (res bytes)) : op ClientTrustConfig :=
  obind (from_tuf data_dir cache_dir lib embedded parse_tr parse_sc url offline bootstrap_root) (fun p =>
  ret (Ok (mkCTC (fst p) (snd p) None))).

(** _cli.py:1254-1276 [_get_trust_config], acting on the disk; models.py:928-949
    [ClientTrustConfig.production], [staging] *)
Definition trust_config_on_disk (trust_config : option path) (instance : option str) (staging offline : bool) : op ClientTrustConfig :=
  match trust_config with
  | Some p => obind (read_bytes (place cwd p)) (fun b => ret (let* t := py_decode b in parse_config t))
  | None =>
    match instance with
    | Some (c :: r) => config_from_tuf (c :: r) offline None
    | _ => config_from_tuf (if staging then STAGING else PRODUCTION) offline None
    end
  end.

(** _cli.py:670-683 [_trust_instance].  Simplified: the file is read at the start of the command,
    not after the cache has been populated. *)
Definition trust_instance (root : path) (instance : option str) : op unit :=
  obind (get_file (place cwd root)) (fun x =>
  match x with
  | None => ret invalid_arguments
  | Some b =>
    match instance with
    | None => ret invalid_arguments
    | Some url => obind (config_from_tuf url false (Some (Ok b))) (fun _ => ret (Ok tt))
    end
  end).

(** _cli.py:1346-1353 [_update_trust_root]: the number of certificates in the message *)
Definition update_trust_root (env : Env) (now : time) (trust_config : option path) (instance : option str) (staging : bool) : op nat :=
  obind (trust_config_on_disk trust_config instance staging false) (fun c =>
  ret (let* tr := make_trusted_root (ctc_root c) in
       let* certs := get_fulcio_certs env now tr in
       Ok (length certs))).
End Trust.

From Verif Require Import Sign CliSign.

(** _cli.py:686-694 [_get_identity_token]: the text that is printed, oidc.py:217-223
    [IdentityToken.__str__].  An [IdentityToken] is always true.  The command has neither
    [--identity-token] nor [--rekor-version]. *)
Definition get_identity_token (tl : Tools) (a : CommonArgs) (t : tree) : res str :=
  let* c := get_trust_config (world_at tl t) (ca_trust_config a) (ca_instance a) (ca_staging a) false in
  let* tok := get_identity tl a c in
  Ok (it_raw tok).
