(** sigstore/sign.py: signing operations as sequences of observable steps.

    [Sign.run_op] runs an operation from beginning to end.  A [Signer] may be shared by threads, and
    then the steps of several operations alternate.  Here the operations of Sign.v are written as
    programs that can be stopped after each step; [exec], which runs a program without
    interruption, gives back the definitions of Sign.v (PropsSignThreads.v, [exec_op]). *)
From Verif Require Import Base Codec Messages Env Keyring Json Oidc Http LogEntry Cert Sct Dsse KeyDetails TrustedRoot Hashing
  Bundle Verifier SigningConfig RekorClient Clients Sign.

(** A program has ended, or appends an event and goes on; like the event, what it does next may
    depend on the history at that time (through the answers of [Outside]) *)
Inductive prog (A : Type) : Type :=
| P_done (r : res A)
| P_next (ev : history -> event) (k : history -> prog A).
Arguments P_done {A} _.
Arguments P_next {A} _ _.

(** without interruption *)
Fixpoint exec {A} (p : prog A) (h : history) : history * res A :=
  match p with
  | P_done r => (h, r)
  | P_next ev k => exec (k h) (h ++ [ev h])
  end.

Fixpoint pbind {A B} (p : prog A) (f : A -> prog B) : prog B :=
  match p with
  | P_done (Ok a) => f a
  | P_done (Raise e) => P_done (Raise e)
  | P_next ev k => P_next ev (fun h => pbind (k h) f)
  end.
Definition pstep {A} (ev : history -> event) (f : history -> res A) : prog A := P_next ev (fun h => P_done (f h)).
Definition pret {A} (a : A) : prog A := P_done (Ok a).

Notation "'let?' x := m 'in' k" := (pbind m (fun x => k)) (at level 61, x pattern, right associativity).
Notation "'do?' m 'in' k" := (pbind m (fun _ => k)) (at level 61, right associativity).

Section Steps.
Variable libs : SignLibs.
Variable out : Outside.

(** [datetime.now] *)
Definition p_clock : prog time := pstep (fun h => EvClock (o_clock out h)) (fun h => Ok (o_clock out h)).

(** [ec.generate_private_key] *)
Definition p_generate : prog PrivKey :=
  pstep (fun h => EvKey (mkPriv (length h) (o_pub out h))) (fun h => Ok (mkPriv (length h) (o_pub out h))).

(** sign.py:110-116 [_private_key] *)
Definition p_private_key (s : Signer) : prog PrivKey :=
  match sg_key s with None => p_generate | Some k => pret k end.

(** [self._signing_ctx._fulcio.signing_cert.post] *)
Definition p_request_cert (s : Signer) (csr : Csr) : prog (Cert * list Cert) :=
  pstep (fun _ => EvCsr (cp_fulcio (sg_ctx s)) (mkFulcioRequest csr (it_raw (sg_token s))))
        (fun h => fulcio_post (l_url libs) (l_pem libs) (o_fulcio out h) (cp_fulcio (sg_ctx s)) csr (it_raw (sg_token s))).

(** sign.py:144-182 [_signing_cert], with 118-142 [_build_csr] *)
Definition p_signer_cert (s : Signer) : prog Cert :=
  match sg_cert s with
  | Some c =>
    let? now := p_clock in
    if (c_not_after c <? now)%Z then P_done (Raise EExpiredCertificate) else pret c
  | None =>
    let? now := p_clock in
    let? ok := P_done (token_in_validity_period (sg_token s) now) in
    if negb ok then P_done (Raise EExpiredIdentity) else
    let? k := p_private_key s in
    let? cc := p_request_cert s (mkCsr (sk_pub k)) in
    let? now := p_clock in
    let? kr := P_done (ct_keyring (l_env libs) now (cp_root (sg_ctx s)) SIGN) in
    do? P_done (verify_sct (l_env libs) (fst cc) (snd cc) kr) in
    pret (fst cc)
  end.

(** sign.py:194-201: the loop over the timestamp authorities *)
Fixpoint p_tsa_loop (urls : list str) (sg : bytes) (acc : list TSR) : prog (list TSR) :=
  match urls with
  | nil => pret acc
  | u :: rest =>
    P_next (fun _ => EvTsa u sg) (fun h =>
      match request_timestamp (l_env libs) (o_tsa_query out h) (o_tsa out h) u sg with
      | Ok t => p_tsa_loop rest sg (acc ++ [t])
      | Raise e => if exn_eqb e ETimestamp then p_tsa_loop rest sg acc else P_done (Raise e)
      end)
  end.

(** rekor/__init__.py:72-79 [RekorLogSubmitter.create_entry] *)
Definition p_submit (c : rekor_client) (req : EntryRequest) : prog LogEntry :=
  pstep (fun _ => EvLog req) (fun h => create_entry libs out h c req).

(** sign.py:184-209 [_finalize_sign] *)
Definition p_finalize (s : Signer) (cert : Cert) (c : content) (req : EntryRequest) : prog Bundle :=
  let? ts := p_tsa_loop (cp_tsas (sg_ctx s)) (content_signature c) nil in
  let? entry := p_submit (cp_rekor (sg_ctx s)) req in
  P_done (from_parts_ (l_env libs) cert c entry (Some ts)).

(** sign.py:211-232 [sign_dsse] *)
Definition p_sign_dsse (s : Signer) (st : Statement) : prog Bundle :=
  let? cert := p_signer_cert s in
  let? k := p_private_key s in
  let? e := pstep (fun _ => EvSign k (ECDSA SHA256)) (fun h => dsse_sign (o_sign out h k (ECDSA SHA256)) st) in
  let? req := P_done (build_dsse_request libs (cp_rekor (sg_ctx s)) e cert) in
  p_finalize s cert (C_env e) req.

(** sign.py:258-260 *)
Definition p_sign_prehashed (k : PrivKey) (digest : bytes) : prog bytes :=
  if Nat.eqb (length digest) 32
  then pstep (fun _ => EvSign k (ECDSA_prehashed SHA256)) (fun h => Ok (o_sign out h k (ECDSA_prehashed SHA256) digest))
  else P_done (Raise EValue).

(** sign.py:234-274 [sign_artifact] *)
Definition p_sign_artifact (s : Signer) (i : input) : prog Bundle :=
  let? cert := p_signer_cert s in
  let hashed := sha256_digest (l_env libs) i in
  let? k := p_private_key s in
  let? _ := P_done (as_prehashed hashed) in
  let? sg := p_sign_prehashed k (h_digest hashed) in
  let? digest := P_done (b64decode (b64encode (h_digest hashed))) in
  let? sg' := P_done (b64decode (b64encode sg)) in
  let c := C_msg (mkMsgSig (Some (h_alg hashed, digest)) sg') in
  let? req := P_done (build_hashed_rekord_request (cp_rekor (sg_ctx s)) hashed sg cert) in
  p_finalize s cert c req.

Definition p_op (s : Signer) (o : op) : prog Bundle :=
  match o with Op_artifact i => p_sign_artifact s i | Op_dsse st => p_sign_dsse s st end.

(** ** Threads *)

(** Any number of threads, each with an operation on the same signer; all act on one history.
    Nothing else is shared and changed: a [Signer] is not assigned to after [__init__]
    (sign.py:79-108), and the sessions of the log and timestamp clients are per thread
    (rekor/client.py:225 and 243-258, rekor/client_v2.py:59-76, timestamp.py:72-88).  The session of the
    CA client is shared (fulcio/client.py:168-173); requests made through it are taken to be
    independent of each other. *)
Record Threads := mkThreads { th_hist : history; th_progs : list (prog Bundle) }.

Fixpoint replace_nth {A} (l : list A) (i : nat) (x : A) : list A :=
  match l, i with
  | nil, _ => nil
  | _ :: r, O => x :: r
  | a :: r, S i' => a :: replace_nth r i' x
  end.

(** thread [i] takes a step *)
Definition thread_step (y : Threads) (i : nat) : Threads :=
  match nth_error (th_progs y) i with
  | Some (P_next ev k) => mkThreads (th_hist y ++ [ev (th_hist y)]) (replace_nth (th_progs y) i (k (th_hist y)))
  | _ => y
  end.
Definition threads (s : Signer) (os : list op) (sched : list nat) (h : history) : Threads :=
  fold_left thread_step sched (mkThreads h (map (p_op s) os)).
(** what thread [i] has returned *)
Definition returned (y : Threads) (i : nat) : option (res Bundle) :=
  match nth_error (th_progs y) i with Some (P_done r) => Some r | _ => None end.
End Steps.
