(** sigstore/sign.py: [Signer]; the effects of a signing operation are recorded in a history. *)
From Verif Require Import Base Codec Messages Env Keyring Json Oidc Http LogEntry Cert Sct Dsse KeyDetails TrustedRoot Hashing
  Bundle Verifier SigningConfig RekorClient Clients.
From Verif Require Url.

(** ** Effects *)

(** A private key made by [ec.generate_private_key(SECP256R1)]: its identity and public half *)
Record PrivKey := mkPriv { sk_id : nat; sk_pub : pubkey }.

(** What a signer does that can be observed from outside, in order *)
Inductive event : Type :=
| EvKey (k : PrivKey)                     (* a key is generated *)
| EvClock (t : time)                      (* the clock is read *)
| EvCsr (url : str) (r : FulcioRequest)   (* a certificate is requested *)
| EvSign (k : PrivKey) (s : sig_scheme)   (* something is signed *)
| EvTsa (url : str) (sig : bytes)         (* a timestamp is requested *)
| EvLog (r : EntryRequest).               (* an entry is submitted to the log *)
Definition history := list event.

(** The outside world.  Every answer may depend on everything that happened before, so
    that quantifying over [Outside] covers all clocks, random choices and services. *)
Record Outside := mkOutside {
  o_clock : history -> time;
  o_pub : history -> pubkey;
  (** an ECDSA signature (randomised) *)
  o_sign : history -> PrivKey -> sig_scheme -> bytes -> bytes;
  o_fulcio : history -> http_request FulcioRequest -> res response;
  (** the encoded timestamp request (contains a nonce) *)
  o_tsa_query : history -> bytes -> res bytes;
  o_tsa : history -> http_request bytes -> res response;
  o_log : history -> http_request EntryRequest -> res response
}.

(** Third-party parsers used while signing *)
Record SignLibs := mkLibs {
  l_env : Env;
  l_url : Url.UrlLib;
  l_pem : bytes -> res Cert;
  l_rp : RekorParsers
}.

(** Operations: history in, history and result out *)
Definition M (A : Type) : Type := history -> history * res A.
Definition ret {A} (a : A) : M A := fun h => (h, Ok a).
Definition lift {A} (r : res A) : M A := fun h => (h, r).
Definition mbind {A B} (m : M A) (f : A -> M B) : M B :=
  fun h => let '(h1, r) := m h in match r with Ok a => f a h1 | Raise e => (h1, Raise e) end.
(** one observable step, answered by [f] *)
Definition step {A} (ev : history -> event) (f : history -> res A) : M A := fun h => (h ++ [ev h], f h).

Notation "'let!' x := m 'in' k" := (mbind m (fun x => k)) (at level 61, x pattern, right associativity).
Notation "'do!' m 'in' k" := (mbind m (fun _ => k)) (at level 61, right associativity).

(** ** The signer *)

(** sign.py:80-108: token, context, cached key and cached certificate *)
Record Signer := mkSigner {
  sg_token : IdentityToken;
  sg_ctx : ContextParts;
  sg_key : option PrivKey;
  sg_cert : option Cert
}.

Section Sign.
Variable libs : SignLibs.
Variable out : Outside.

(** [datetime.now] *)
Definition read_clock : M time := step (fun h => EvClock (o_clock out h)) (fun h => Ok (o_clock out h)).

(** [ec.generate_private_key]; keys are numbered by the point at which they are made *)
Definition generate_key : M PrivKey :=
  step (fun h => EvKey (mkPriv (length h) (o_pub out h))) (fun h => Ok (mkPriv (length h) (o_pub out h))).

(** sign.py:110-116 [_private_key] *)
Definition private_key (s : Signer) : M PrivKey :=
  match sg_key s with None => generate_key | Some k => ret k end.

(** sign.py:118-142 [_build_csr] *)
Definition build_csr (s : Signer) : M Csr := let! k := private_key s in ret (mkCsr (sk_pub k)).

(** [self._signing_ctx._fulcio.signing_cert.post] *)
Definition request_cert (s : Signer) (csr : Csr) : M (Cert * list Cert) :=
  step (fun _ => EvCsr (cp_fulcio (sg_ctx s)) (mkFulcioRequest csr (it_raw (sg_token s))))
       (fun h => fulcio_post (l_url libs) (l_pem libs) (o_fulcio out h) (cp_fulcio (sg_ctx s)) csr (it_raw (sg_token s))).

(** sign.py:144-182 [_signing_cert] *)
Definition signer_cert (s : Signer) : M Cert :=
  match sg_cert s with
  | Some c =>
    let! now := read_clock in
    if (c_not_after c <? now)%Z then lift (Raise EExpiredCertificate) else ret c
  | None =>
    let! now := read_clock in
    let! ok := lift (token_in_validity_period (sg_token s) now) in
    if negb ok then lift (Raise EExpiredIdentity) else
    let! csr := build_csr s in
    let! cc := request_cert s csr in
    let! now := read_clock in
    let! kr := lift (ct_keyring (l_env libs) now (cp_root (sg_ctx s)) SIGN) in
    do! lift (verify_sct (l_env libs) (fst cc) (snd cc) kr) in
    ret (fst cc)
  end.

(** sign.py:79-108 [Signer.__init__] *)
Definition make_signer (token : IdentityToken) (ctx : ContextParts) (cache : bool) : M Signer :=
  if cache then
    let! k := generate_key in
    let! c := signer_cert (mkSigner token ctx (Some k) None) in
    ret (mkSigner token ctx (Some k) (Some c))
  else ret (mkSigner token ctx None None).

(** sign.py:194-201: the loop over the timestamp authorities *)
Definition ask_tsa (url : str) (sg : bytes) : M TSR :=
  step (fun _ => EvTsa url sg) (fun h => request_timestamp (l_env libs) (o_tsa_query out h) (o_tsa out h) url sg).
Fixpoint tsa_loop (urls : list str) (sg : bytes) (acc : list TSR) : M (list TSR) :=
  match urls with
  | nil => ret acc
  | u :: rest => fun h =>
    let '(h1, r) := ask_tsa u sg h in
    match r with
    | Ok t => tsa_loop rest sg (acc ++ [t]) h1
    | Raise e => if exn_eqb e ETimestamp then tsa_loop rest sg acc h1 else (h1, Raise e)
    end
  end.

(** rekor/__init__.py:72-79 [RekorLogSubmitter.create_entry], with the two clients *)
Definition create_entry (h : history) (c : rekor_client) (req : EntryRequest) : res LogEntry :=
  match c with
  | Rekor_v1 url => create_entry_v1 (l_rp libs) (o_log out h) url req
  | Rekor_v2 url => create_entry_v2 (l_rp libs) (o_log out h) url req
  end.
Definition submit (c : rekor_client) (req : EntryRequest) : M LogEntry :=
  step (fun _ => EvLog req) (fun h => create_entry h c req).

(** [content.signature] *)
Definition content_signature (c : content) : bytes :=
  match c with C_msg m => ms_signature m | C_env e => env_signature e | C_none => nil end.

(** sign.py:184-209 [_finalize_sign] *)
Definition finalize_sign (s : Signer) (cert : Cert) (c : content) (req : EntryRequest) : M Bundle :=
  let! ts := tsa_loop (cp_tsas (sg_ctx s)) (content_signature c) nil in
  let! entry := submit (cp_rekor (sg_ctx s)) req in
  lift (from_parts_ (l_env libs) cert c entry (Some ts)).

(** [_build_dsse_request] and [_build_hashed_rekord_request] of the two clients *)
Definition build_dsse_request (c : rekor_client) (e : Envelope) (cert : Cert) : res EntryRequest :=
  match c with
  | Rekor_v1 _ => build_dsse_request_v1 e cert
  | Rekor_v2 _ => build_dsse_request_v2 (l_env libs) e cert
  end.
Definition build_hashed_rekord_request (c : rekor_client) (h : Hashed) (sg : bytes) (cert : Cert) : res EntryRequest :=
  match c with
  | Rekor_v1 _ => build_hashed_rekord_request_v1 h sg cert
  | Rekor_v2 _ => build_hashed_rekord_request_v2 h sg cert
  end.

(** sign.py:211-232 [sign_dsse] *)
Definition sign_dsse (s : Signer) (st : Statement) : M Bundle :=
  let! cert := signer_cert s in
  let! k := private_key s in
  let! e := step (fun _ => EvSign k (ECDSA SHA256)) (fun h => dsse_sign (o_sign out h k (ECDSA SHA256)) st) in
  let! req := lift (build_dsse_request (cp_rekor (sg_ctx s)) e cert) in
  finalize_sign s cert (C_env e) req.

(** sign.py:258-260 and [EllipticCurvePrivateKey.sign] of a prehashed value, which refuses values
    that do not have the length of a digest *)
Definition sign_prehashed (k : PrivKey) (digest : bytes) : M bytes :=
  if Nat.eqb (length digest) 32
  then step (fun _ => EvSign k (ECDSA_prehashed SHA256)) (fun h => Ok (o_sign out h k (ECDSA_prehashed SHA256) digest))
  else lift (Raise EValue).

(** sign.py:234-274 [sign_artifact]; base64 fields are encoded here and decoded by pydantic *)
Definition sign_artifact (s : Signer) (i : input) : M Bundle :=
  let! cert := signer_cert s in
  let hashed := sha256_digest (l_env libs) i in
  let! k := private_key s in
  let! _ := lift (as_prehashed hashed) in
  let! sg := sign_prehashed k (h_digest hashed) in
  let! digest := lift (b64decode (b64encode (h_digest hashed))) in
  let! sg' := lift (b64decode (b64encode sg)) in
  let c := C_msg (mkMsgSig (Some (h_alg hashed, digest)) sg') in
  let! req := lift (build_hashed_rekord_request (cp_rekor (sg_ctx s)) hashed sg cert) in
  finalize_sign s cert c req.

(** ** Runs *)

(** An operation on a signer, and any number of them one after the other; a failed operation
    does not keep its caller from trying the next *)
Inductive op : Type := Op_artifact (i : input) | Op_dsse (st : Statement).
Definition run_op (s : Signer) (o : op) : M Bundle :=
  match o with Op_artifact i => sign_artifact s i | Op_dsse st => sign_dsse s st end.
Fixpoint run_ops (s : Signer) (os : list op) (h : history) : history * list (res Bundle) :=
  match os with
  | nil => (h, nil)
  | o :: rest =>
    let '(h1, r) := run_op s o h in
    let '(h2, rs) := run_ops s rest h1 in (h2, r :: rs)
  end.

(** a signer's whole life *)
Definition session (token : IdentityToken) (ctx : ContextParts) (cache : bool) (os : list op) (h : history)
  : history * list (res Bundle) :=
  let '(h1, r) := make_signer token ctx cache h in
  match r with
  | Ok s => run_ops s os h1
  | Raise e => (h1, nil)
  end.
End Sign.
