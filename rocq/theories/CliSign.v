(** sigstore/_cli.py: [sigstore sign] and [sigstore attest].

    The file system is a tree of files and directories without links; [..] is resolved
    lexically, permissions and full disks are not represented.  Threads take turns: a job
    digests its input in one step, takes the steps of a signing operation one at a time
    (SignSteps.v), opens an output in one step and writes any number of bytes in one step.  Other processes may change the file system at any time between.
    Printing is reduced to the lines that name the outputs. *)
From Verif Require Import Base Codec Messages Env Keyring Cert Dsse KeyDetails Policy TrustedRoot SigningConfig Hashing Json Http
  Oidc Oauth LogEntry Bundle Verifier RekorClient Clients Tuf PyText CliVerify Sign SignSteps Predicate.

(** ** The file system *)

Inductive node : Type := N_file (b : bytes) | N_dir.
Definition tree : Type := path -> option node.
(** what is at a location; the root always is a directory *)
Definition kind (t : tree) (p : path) : option node := match p with nil => Some N_dir | _ => t p end.
Definition put (t : tree) (p : path) (n : option node) : tree := fun q => if path_eqb q p then n else t q.
Definition files_of (t : tree) : fs := fun p => match kind t p with Some (N_file b) => Some b | _ => None end.
Definition dir_at (t : tree) (p : path) : bool := match kind t p with Some N_dir => true | _ => false end.

(** an [OSError] other than [FileNotFoundError] *)
Definition EOs : exn := EBackend 50.

(** [os.makedirs] / [Path.mkdir(parents=True, exist_ok=True)] *)
Fixpoint mkdirs (t : tree) (base rest : path) : tree * res unit :=
  match rest with
  | nil => (t, Ok tt)
  | a :: r =>
    let p := base ++ [a] in
    match kind t p with
    | Some N_dir => mkdirs t p r
    | Some (N_file _) => (t, Raise EOs)
    | None => mkdirs (put t p (Some N_dir)) p r
    end
  end.

(** [open(mode="w")]: creates or truncates *)
Definition open_w (t : tree) (p : path) : tree * res unit :=
  match kind t p with
  | Some N_dir => (t, Raise EOs)
  | Some (N_file _) => (put t p (Some (N_file nil)), Ok tt)
  | None =>
    match kind t (removelast p) with
    | Some N_dir => (put t p (Some (N_file nil)), Ok tt)
    | Some (N_file _) => (t, Raise EOs)
    | None => (t, Raise EFileNotFound)
    end
  end.

(** [write] at a position of an open file; a hole is filled with zeros *)
Definition write_at (t : tree) (p : path) (pos : nat) (chunk : bytes) : tree :=
  match kind t p with
  | Some (N_file old) =>
    put t p (Some (N_file (firstn pos old ++ repeat x00 (pos - length old) ++ chunk ++ skipn (pos + length chunk) old)))
  | _ => t
  end.

(** ** Arguments *)

(** options of both commands: _cli.py:196-235, 252-288, 295-380 *)
Record CommonArgs := mkCA {
  ca_files : list path;
  ca_overwrite : bool;
  ca_identity_token : option str;
  ca_client_id : str;
  ca_client_secret : option str;
  ca_disable_ambient : bool;
  ca_issuer : option str;
  ca_force_oob : bool;
  ca_rekor_version : option Z;
  ca_trust_config : option path; ca_instance : option str; ca_staging : bool;
  ca_verbose : bool
}.
(** options of [sign]: _cli.py:387-446 *)
Record SignArgs := mkSA {
  sa_common : CommonArgs;
  sa_signature : option path; sa_certificate : option path; sa_bundle : option path;
  sa_output_directory : option path;
  sa_no_default_files : bool
}.
(** options of [attest]: _cli.py:314-361 *)
Record AttestArgs := mkAA {
  aa_common : CommonArgs;
  aa_predicate : path;
  aa_predicate_type : str;
  aa_bundle : option path
}.

(** _cli.py:75-82 [SigningOutputs] *)
Record SigningOutputs := mkOutputs { so_signature : option path; so_certificate : option path; so_bundle : option path }.
Definition OutputMap : Type := list (path * SigningOutputs).

(** What the commands use from outside *)
Record Tools := mkTools {
  tl_world : World;                                 (* current directory, trust configurations, parsers; not its files *)
  tl_libs : SignLibs;
  tl_out : Outside;
  tl_json : str -> option json;                     (* [json.load]; [None] is a JSONDecodeError *)
  tl_text : json -> str;                            (* a predicate inside a statement *)
  tl_dump : StatementInner -> option bytes;         (* [model_dump_json] of a statement *)
  tl_token : str -> str -> res IdentityToken;       (* [IdentityToken(raw, client_id)] *)
  tl_detect : str -> res (option str);              (* [id.detect_credential] *)
  tl_interactive : str -> str -> str -> bool -> res IdentityToken;  (* [Issuer(url).identity_token(id, secret, oob)] *)
  tl_to_json : BundleMsg -> bytes                   (* [Bundle.to_json], encoded *)
}.

Section Tools.
Variable tl : Tools.
Let libs := tl_libs tl.
Let out := tl_out tl.

(** the world in a given state of the file system *)
Definition world_at (t : tree) : World :=
  let w := tl_world tl in
  mkWorld (w_cwd w) (files_of t) (w_load_pem w) (w_parse_bundle w) (w_validate w) (w_config_json w) (w_config_tuf w)
    (w_rekor w) (w_rp w) (w_start w) (w_when w).
Definition loc (p : path) : path := place (w_cwd (tl_world tl)) p.
Definition exists_at (t : tree) (p : path) : bool := is_some (kind t (loc p)).
Definition some_exists (t : tree) (o : option path) : bool := match o with Some p => exists_at t p | None => false end.

(** ** Which outputs *)

(** _cli.py:901-943: the loop body of [_sign] *)
Definition sign_outputs (a : SignArgs) (t : tree) (file : path) : tree * res SigningOutputs :=
  if negb (is_file (world_at t) file) then (t, invalid_arguments) else
  let dir := given (sa_output_directory a) (path_parent file) in
  if exists_at t dir && negb (dir_at t (loc dir)) then (t, invalid_arguments) else
  let '(t1, r) := mkdirs t nil (loc dir) in
  match r with
  | Raise e => (t1, Raise e)
  | Ok _ =>
    let bundle :=
      match sa_bundle a with
      | Some b => Some b
      | None => if sa_no_default_files a then None else Some (dir ++ [path_name file ++ s2l ".sigstore.json"])
      end in
    if negb (ca_overwrite (sa_common a)) &&
       (some_exists t1 (sa_signature a) || some_exists t1 (sa_certificate a) || some_exists t1 bundle)
    then (t1, invalid_arguments)
    else (t1, Ok (mkOutputs (sa_signature a) (sa_certificate a) bundle))
  end.

(** _cli.py:898-943: the loop; [one] is its body *)
Fixpoint output_map (one : tree -> path -> tree * res SigningOutputs) (t : tree) (files : list path) (m : OutputMap)
  : tree * res OutputMap :=
  match files with
  | nil => (t, Ok m)
  | f :: rest =>
    let '(t1, r) := one t f in
    match r with
    | Raise e => (t1, Raise e)
    | Ok o => output_map one t1 rest (dict_set path_eqb f o m)
    end
  end.

(** _cli.py:867-943 [_sign], before [_sign_common] *)
Definition sign_prepare (a : SignArgs) (t : tree) : tree * res OutputMap :=
  let sig := is_some (sa_signature a) in
  let crt := is_some (sa_certificate a) in
  let bun := is_some (sa_bundle a) in
  if sa_no_default_files a && bun then (t, invalid_arguments)
  else if (sig || crt || bun) && Nat.ltb 1 (length (ca_files (sa_common a))) then (t, invalid_arguments)
  else if is_some (sa_output_directory a) && (sig || crt || bun) then (t, invalid_arguments)
  else if xorb sig crt then (t, invalid_arguments)
  else output_map (sign_outputs a) t (ca_files (sa_common a)) nil.

(** _cli.py:844-858: the loop body of [_attest] *)
Definition attest_outputs (a : AttestArgs) (t : tree) (file : path) : tree * res SigningOutputs :=
  if negb (is_file (world_at t) file) then (t, invalid_arguments) else
  let bundle := given (aa_bundle a) (sibling file (s2l ".sigstore.json")) in
  if exists_at t bundle && negb (ca_overwrite (aa_common a)) then (t, invalid_arguments)
  else (t, Ok (mkOutputs None None (Some bundle))).

(** dsse/_predicate.py:36-42 [PredicateType] *)
Definition SLSA_V0_2 : str := s2l "https://slsa.dev/provenance/v0.2".
Definition SLSA_V1_0 : str := s2l "https://slsa.dev/provenance/v1".

(** _cli.py:812-838: the predicate file *)
Definition read_predicate (a : AttestArgs) (t : tree) : res json :=
  do* raise_if (negb (is_file (world_at t) (aa_predicate a))) (ESystemExit 2) in
  let* text := file_text (world_at t) (aa_predicate a) in
  match tl_json tl text with
  | None => invalid_arguments
  | Some j =>
    if str_eqb (aa_predicate_type a) SLSA_V0_2 then do* raise_if (negb (slsa_v0_2 j)) (ESystemExit 2) in Ok j
    else if str_eqb (aa_predicate_type a) SLSA_V1_0 then do* raise_if (negb (slsa_v1_0 j)) (ESystemExit 2) in Ok j
    else invalid_arguments
  end.

(** _cli.py:812-858 [_attest], before [_sign_common] *)
Definition attest_prepare (a : AttestArgs) (t : tree) : tree * res (OutputMap * json) :=
  match read_predicate a t with
  | Raise e => (t, Raise e)
  | Ok j =>
    let '(t1, r) := output_map (attest_outputs a) t (ca_files (aa_common a)) nil in
    (t1, let* m := r in Ok (m, j))
  end.

(** ** Who signs *)

(** _cli.py:1254-1276 [_get_trust_config]; signing has no [--offline] *)
Definition signing_config (a : CommonArgs) (t : tree) : res ClientTrustConfig :=
  let* c := get_trust_config (world_at t) (ca_trust_config a) (ca_instance a) (ca_staging a) false in
  Ok (mkCTC (ctc_root c) (ctc_signing c) (ca_rekor_version a)).

(** _cli.py:1279-1304 [_get_identity] *)
Definition get_identity (a : CommonArgs) (c : ClientTrustConfig) : res IdentityToken :=
  let* token := if ca_disable_ambient a then Ok None else detect_credential (tl_detect tl) (ca_client_id a) in
  match token with
  | Some (x :: r) => tl_token tl (x :: r) (ca_client_id a)
  | _ =>
    let* url :=
      match ca_issuer a with
      | Some u => Ok u
      | None => let* sc := make_signing_config (w_start (tl_world tl)) (ctc_signing c) (ctc_force c) in get_oidc_url sc
      end in
    tl_interactive tl url (ca_client_id a) (given (ca_client_secret a) nil) (ca_force_oob a)
  end.

(** _cli.py:760-780: up to the signer *)
Definition identity (a : CommonArgs) (c : ClientTrustConfig) : res IdentityToken :=
  match ca_identity_token a with
  | Some (x :: r) => tl_token tl (x :: r) (ca_client_id a)
  | _ => get_identity a c
  end.
Definition setup (a : CommonArgs) (t : tree) : M Signer :=
  let! c := lift (signing_config a t) in
  let! ctx := lift (context_from_trust_config (w_start (tl_world tl)) c) in
  let! tok := lift (identity a c) in
  let! s := make_signer libs out tok ctx true in
  do! signer_cert libs out s in
  ret s.

(** ** Signing in threads *)

Record Job := mkJob { job_file : path; job_outputs : SigningOutputs }.
Inductive output : Type := O_signature (p : path) | O_certificate (p : path) | O_bundle (p : path).
Definition out_path (o : output) : path := match o with O_signature p | O_certificate p | O_bundle p => p end.
Definition outputs_of (o : SigningOutputs) : list output :=
  (match so_signature o with Some p => [O_signature p] | None => nil end) ++
  (match so_certificate o with Some p => [O_certificate p] | None => nil end) ++
  (match so_bundle o with Some p => [O_bundle p] | None => nil end).

(** where a job is *)
Inductive phase : Type :=
| Ph_start
| Ph_digested (d : bytes)
| Ph_signing (p : prog Bundle)
| Ph_next (b : Bundle) (todo : list output)
| Ph_writing (b : Bundle) (p : path) (text : bytes) (pos : nat) (todo : list output)
| Ph_done (b : Bundle)
| Ph_failed (e : exn).

Definition newline : bytes := [x0a].

(** what is signed: _cli.py:710-721.  [predicate]: predicate type and predicate.  A file name that is not
    valid Unicode is refused by pydantic. *)
Definition operation (predicate : option (str * json)) (file : path) (d : bytes) : res Sign.op :=
  match predicate with
  | None => Ok (Op_artifact (In_hashed (mkHashed HA_SHA2_256 d)))
  | Some (ty, j) =>
    let subject := mkSubject (Some (path_name file)) [(D_sha256, hex d)] in
    do* raise_if (negb (forallb is_scalar (path_name file))) EPydantic in
    let* st := builder_build (tl_dump tl) (builder_new (Some [subject]) (Some ty) (Some (tl_text tl j))) in
    Ok (Op_dsse st)
  end.

(** the text of an output: _cli.py:733-745 *)
Definition output_text (s : Signer) (b : Bundle) (o : output) : M bytes :=
  match o with
  | O_signature _ => let! sg := lift (bundle_signature b) in ret (ascii_bytes (b64encode sg) ++ newline)
  | O_certificate _ => let! c := signer_cert libs out s in ret (ascii_bytes (pem_of_der (c_der c)) ++ newline)
  | O_bundle _ => ret (tl_to_json tl (b_inner b) ++ newline)
  end.

(** _cli.py:697-745 [_sign_file_threaded], one step; [n]: how many bytes more than one are written *)
Definition job_step (s : Signer) (predicate : option (str * json)) (j : Job) (n : nat) (t : tree) (h : history) (ph : phase)
  : tree * history * phase :=
  match ph with
  | Ph_start =>
    match files_of t (loc (job_file j)) with
    | Some b => (t, h, Ph_digested (e_hash (l_env libs) SHA256 b))
    | None => (t, h, Ph_failed EFileNotFound)
    end
  | Ph_digested d =>
    match operation predicate (job_file j) d with
    | Raise e => (t, h, Ph_failed e)
    | Ok o => (t, h, Ph_signing (p_op libs out s o))
    end
  | Ph_signing (P_next ev k) => (t, h ++ [ev h], Ph_signing (k h))
  | Ph_signing (P_done (Ok b)) => (t, h, Ph_next b (outputs_of (job_outputs j)))
  | Ph_signing (P_done (Raise e)) => (t, h, Ph_failed e)
  | Ph_next b nil => (t, h, Ph_done b)
  | Ph_next b (o :: todo) =>
    match output_text s b o h with
    | (h1, Raise e) => (t, h1, Ph_failed e)
    | (h1, Ok text) =>
      match open_w t (loc (out_path o)) with
      | (t1, Ok _) => (t1, h1, Ph_writing b (loc (out_path o)) text 0 todo)
      | (t1, Raise e) => (t1, h1, Ph_failed e)
      end
    end
  | Ph_writing b p text pos todo =>
    let chunk := firstn (S n) (skipn pos text) in
    (write_at t p pos chunk, h,
     if Nat.leb (length text) (pos + length chunk) then Ph_next b todo else Ph_writing b p text (pos + length chunk) todo)
  | Ph_done _ | Ph_failed _ => (t, h, ph)
  end.

(** [ThreadPoolExecutor]: at any time one of the jobs takes a step, or another process changes
    the file system *)
Inductive act : Type := A_job (i n : nat) | A_other (p : path) (x : option node).
Record Sys := mkSys { y_tree : tree; y_hist : history; y_phases : list phase }.
Fixpoint set_nth {A} (l : list A) (i : nat) (x : A) : list A :=
  match l, i with
  | nil, _ => nil
  | _ :: r, O => x :: r
  | a :: r, S i' => a :: set_nth r i' x
  end.
Definition sys_step (s : Signer) (predicate : option (str * json)) (jobs : list Job) (y : Sys) (x : act) : Sys :=
  match x with
  | A_other p n => mkSys (put (y_tree y) p n) (y_hist y) (y_phases y)
  | A_job i n =>
    match nth_error jobs i, nth_error (y_phases y) i with
    | Some j, Some ph =>
      let '(t, h, ph1) := job_step s predicate j n (y_tree y) (y_hist y) ph in mkSys t h (set_nth (y_phases y) i ph1)
    | _, _ => y
    end
  end.
Definition sys_run (s : Signer) (predicate : option (str * json)) (jobs : list Job) (sched : list act) (y : Sys) : Sys :=
  fold_left (sys_step s predicate jobs) sched y.
Definition sys_start (jobs : list Job) (t : tree) (h : history) : Sys := mkSys t h (map (fun _ => Ph_start) jobs).
Definition jobs_of (m : OutputMap) : list Job := map (fun fo => mkJob (fst fo) (snd fo)) m.

(** _cli.py:802-803: all jobs end before the executor is left; a failed one decides the result
    ([as_completed] yields them in no particular order) *)
Definition ended (ph : phase) : Prop := match ph with Ph_done _ | Ph_failed _ => True | _ => False end.
Inductive finish (phs : list phase) : res unit -> Prop :=
| Fin_ok : (forall ph, In ph phs -> exists b, ph = Ph_done b) -> finish phs (Ok tt)
| Fin_failed : forall e, (forall ph, In ph phs -> ended ph) -> In (Ph_failed e) phs -> finish phs (Raise e).

(** _cli.py:805-811: the lines printed *)
Definition written (m : OutputMap) : list output := flat_map (fun fo => outputs_of (snd fo)) m.

(** ** The commands *)

(** _cli.py:748-811 [_sign_common] and 626-667 [main]: given the outcome of the preparation, the
    possible final file systems, histories, printed lines and results; [sched] is the schedule. *)
Inductive common_run (a : CommonArgs) (predicate : option (str * json)) (h0 : history)
  : tree * res OutputMap -> list act -> tree -> history -> list output -> res unit -> Prop :=
| Run_refused : forall t e, common_run a predicate h0 (t, Raise e) nil t h0 nil (main_handler (ca_verbose a) (Raise e))
| Run_no_signer : forall t m h e, setup a t h0 = (h, Raise e) ->
    common_run a predicate h0 (t, Ok m) nil t h nil (main_handler (ca_verbose a) (Raise e))
| Run_jobs : forall t m h s sched y r, setup a t h0 = (h, Ok s) ->
    sys_run s predicate (jobs_of m) sched (sys_start (jobs_of m) t h) = y ->
    finish (y_phases y) r ->
    common_run a predicate h0 (t, Ok m) sched (y_tree y) (y_hist y) (match r with Ok _ => written m | Raise _ => nil end)
      (main_handler (ca_verbose a) r).

Definition sign_run (a : SignArgs) (t0 : tree) (h0 : history) : list act -> tree -> history -> list output -> res unit -> Prop :=
  common_run (sa_common a) None h0 (sign_prepare a t0).
Definition attest_run (a : AttestArgs) (t0 : tree) (h0 : history) : list act -> tree -> history -> list output -> res unit -> Prop :=
  let '(t1, r) := attest_prepare a t0 in
  match r with
  | Raise e => common_run (aa_common a) None h0 (t1, Raise e)
  | Ok (m, j) => common_run (aa_common a) (Some (aa_predicate_type a, j)) h0 (t1, Ok m)
  end.
End Tools.
