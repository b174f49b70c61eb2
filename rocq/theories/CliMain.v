(** sigstore/_cli.py: the options of all commands with their environment variables ([_parser]),
    and [main], which runs a command and determines the exit status.

    A [Line] is a command line that has been divided into options, values and positional arguments;
    how [argparse] does that, and [--help] and [--version], are in CliWords.v. *)
From Verif Require Import Base Codec Messages Env Keyring Cert Dsse KeyDetails Policy TrustedRoot SigningConfig Hashing Json Http
  Oidc Oauth LogEntry Bundle Verifier RekorClient Clients Tuf PyText CliVerify CliTrust Sign SignSteps Predicate CliSign CliEnv.

(** ** The command line *)

Inductive command : Set :=
  C_sign | C_attest | C_verify_identity | C_verify_github | C_get_identity_token | C_trust_instance | C_fix_bundle | C_update_trust_root.

(** the options that have a value *)
Inductive opt : Set :=
  O_trust_config | O_instance | O_identity_token | O_client_id | O_client_secret | O_issuer | O_rekor_version
| O_predicate | O_predicate_type | O_signature | O_certificate | O_bundle | O_output_directory
| O_cert_identity | O_cert_issuer | O_trigger | O_sha | O_name | O_repository | O_ref.
Definition opt_eq_dec (a b : opt) : {a = b} + {a <> b}.
Proof. decide equality. Defined.
Definition all_opts : list opt :=
  [O_trust_config; O_instance; O_identity_token; O_client_id; O_client_secret; O_issuer; O_rekor_version;
   O_predicate; O_predicate_type; O_signature; O_certificate; O_bundle; O_output_directory;
   O_cert_identity; O_cert_issuer; O_trigger; O_sha; O_name; O_repository; O_ref].

Record Line := mkLine {
  ln_command : command;
  ln_options : list (opt * str);     (* in their order *)
  ln_flags : list flag;
  ln_upgrade_version : bool; ln_in_place : bool;
  ln_verbose_before : nat;           (* [-v] before the command *)
  ln_verbose : nat;                  (* [-v] after the last word of the command *)
  ln_positional : list str
}.

(** ** What the parser accepts *)

(** an option: its environment variable, its value without both, whether it must be given *)
Record Decl := mkDecl { d_variable : option str; d_fallback : option str; d_required : bool }.
Definition plain : Decl := mkDecl None None false.
Definition from_env (v : str) : Decl := mkDecl (Some v) None false.
Definition needed : Decl := mkDecl None None true.

(** _cli.py:259-288, before the command *)
Definition global_options (o : opt) : option Decl :=
  match o with O_trust_config | O_instance => Some plain | _ => None end.
(** _cli.py:198-236 [_add_shared_oidc_options] *)
Definition oidc_options (o : opt) : option Decl :=
  match o with
  | O_client_id => Some (mkDecl (Some (s2l "SIGSTORE_OIDC_CLIENT_ID")) (Some (s2l "sigstore")) false)
  | O_client_secret => Some (from_env (s2l "SIGSTORE_OIDC_CLIENT_SECRET"))
  | O_issuer => Some (from_env (s2l "SIGSTORE_OIDC_ISSUER"))
  | _ => global_options o
  end.
(** _cli.py:138-163 *)
Definition input_options (o : opt) : option Decl :=
  match o with
  | O_certificate => Some (from_env (s2l "SIGSTORE_CERTIFICATE"))
  | O_signature => Some (from_env (s2l "SIGSTORE_SIGNATURE"))
  | O_bundle => Some (from_env (s2l "SIGSTORE_BUNDLE"))
  | _ => global_options o
  end.
(** _cli.py:295-623: the commands *)
Definition declared (c : command) (o : opt) : option Decl :=
  match c with
  | C_attest =>
    match o with
    | O_rekor_version => Some plain
    | O_predicate | O_predicate_type => Some needed
    | O_identity_token => Some (from_env (s2l "SIGSTORE_IDENTITY_TOKEN"))
    | O_bundle => Some (from_env (s2l "SIGSTORE_BUNDLE"))
    | _ => oidc_options o
    end
  | C_sign =>
    match o with
    | O_rekor_version => Some plain
    | O_identity_token => Some (from_env (s2l "SIGSTORE_IDENTITY_TOKEN"))
    | O_signature => Some (from_env (s2l "SIGSTORE_OUTPUT_SIGNATURE"))
    | O_certificate => Some (from_env (s2l "SIGSTORE_OUTPUT_CERTIFICATE"))
    | O_bundle => Some (from_env (s2l "SIGSTORE_BUNDLE"))
    | O_output_directory => Some (from_env (s2l "SIGSTORE_OUTPUT_DIRECTORY"))
    | _ => oidc_options o
    end
  | C_verify_identity =>
    match o with
    | O_cert_identity => Some (mkDecl (Some (s2l "SIGSTORE_CERT_IDENTITY")) None true)
    | O_cert_issuer => Some (mkDecl (Some (s2l "SIGSTORE_CERT_OIDC_ISSUER")) None true)
    | _ => input_options o
    end
  | C_verify_github =>
    match o with
    | O_cert_identity => Some (from_env (s2l "SIGSTORE_CERT_IDENTITY"))
    | O_trigger => Some (from_env (s2l "SIGSTORE_VERIFY_GITHUB_WORKFLOW_TRIGGER"))
    | O_sha => Some (from_env (s2l "SIGSTORE_VERIFY_GITHUB_WORKFLOW_SHA"))
    | O_name => Some (from_env (s2l "SIGSTORE_VERIFY_GITHUB_WORKFLOW_NAME"))
    | O_repository => Some (from_env (s2l "SIGSTORE_VERIFY_GITHUB_WORKFLOW_REPOSITORY"))
    | O_ref => Some (from_env (s2l "SIGSTORE_VERIFY_GITHUB_WORKFLOW_REF"))
    | _ => input_options o
    end
  | C_get_identity_token => oidc_options o
  | C_trust_instance | C_update_trust_root => global_options o
  | C_fix_bundle => match o with O_bundle => Some needed | _ => global_options o end
  end.
(** the [store_true] options of a command: _cli.py:189-195, 218-236, 261-269, 355-360, 388-393, 434-439 *)
Definition accepts_flag (c : command) (f : flag) : bool :=
  match f, c with
  | F_staging, _ => true
  | F_overwrite, (C_sign | C_attest) => true
  | F_no_default_files, C_sign => true
  | F_offline, (C_verify_identity | C_verify_github) => true
  | (F_disable_ambient | F_force_oob), (C_sign | C_attest | C_get_identity_token) => true
  | _, _ => false
  end.
(** _cli.py:180-186, 309-315, 441-447, 569-574: [nargs="+"] or a single one *)
Definition accepts_positional (c : command) (n : nat) : bool :=
  match c with
  | C_sign | C_attest | C_verify_identity | C_verify_github => Nat.ltb 0 n
  | C_trust_instance => Nat.eqb n 1
  | _ => Nat.eqb n 0
  end.

(** ** Parsing *)

(** the last value given for an option *)
Definition given_value (l : Line) (o : opt) : option str :=
  match find (fun x => if opt_eq_dec (fst x) o then true else false) (rev (ln_options l)) with Some x => Some (snd x) | None => None end.
(** [os.getenv] with a default *)
Definition default_value (environ : str -> option str) (d : Decl) : option str :=
  match match d_variable d with Some v => environ v | None => None end with Some s => Some s | None => d_fallback d end.
Definition value (environ : str -> option str) (l : Line) (o : opt) : option str :=
  match given_value l o with
  | Some s => Some s
  | None => match declared (ln_command l) o with Some d => default_value environ d | None => None end
  end.

(** _cli.py:259: at most one of [--staging], [--instance], [--trust-config] *)
Definition conflicting (l : Line) : bool :=
  let s := existsb (flag_eqb F_staging) (ln_flags l) in
  let i := is_some (given_value l O_instance) in
  let t := is_some (given_value l O_trust_config) in
  (s && i) || (s && t) || (i && t).
Definition unknown_option (l : Line) : bool :=
  existsb (fun x => negb (is_some (declared (ln_command l) (fst x)))) (ln_options l) ||
  existsb (fun f => negb (accepts_flag (ln_command l) f)) (ln_flags l) ||
  match ln_command l with C_fix_bundle => false | _ => ln_upgrade_version l || ln_in_place l end.
(** a required option must be on the command line: a default does not count *)
Definition missing_option (l : Line) : bool :=
  existsb (fun o => match declared (ln_command l) o with
                    | Some d => d_required d && negb (is_some (given_value l o))
                    | None => false
                    end) all_opts.

(** a value that the type or the choices of its option refuse, be it the last one given or not *)
Definition bad_value (to_int : str -> option Z) (x : opt * str) : bool :=
  match fst x with
  | O_rekor_version => negb (is_some (to_int (snd x)))
  | O_predicate_type => negb (str_eqb (snd x) SLSA_V0_2 || str_eqb (snd x) SLSA_V1_0)
  | _ => false
  end.

Section Parse.
Variable lo : N -> str.               (* lower case, see CliEnv.v *)
Variable to_int : str -> option Z.    (* [int(s)] *)

(** the parsed arguments *)
Record Namespace := mkNs {
  ns_command : command;
  ns_value : opt -> option str;
  ns_flag : flag -> bool;
  ns_rekor_version : option Z;
  ns_upgrade_version : bool; ns_in_place : bool;
  ns_verbose : nat;
  ns_positional : list str
}.

(** _cli.py:626-631: [_parser], 239-623, and [parse_args].  The environment is read first.  An error of the
    command line ends the process with status 2. *)
Definition parse_line (environ : str -> option str) (l : Line) : res Namespace :=
  let* flags := parse_flags lo environ (ln_flags l) in
  do* raise_if (conflicting l || unknown_option l || missing_option l || negb (accepts_positional (ln_command l) (length (ln_positional l)))) (ESystemExit 2) in
  let* version := match given_value l O_rekor_version with
                  | Some s => match to_int s with Some n => Ok (Some n) | None => invalid_arguments end
                  | None => Ok None
                  end in
  do* raise_if (existsb (bad_value to_int) (ln_options l)) (ESystemExit 2) in
  (* the count of the last parser replaces the others *)
  Ok (mkNs (ln_command l) (value environ l) flags version (ln_upgrade_version l) (ln_in_place l) (ln_verbose l) (ln_positional l)).
End Parse.

(** the arguments of the commands *)
Definition ns_path (ns : Namespace) (o : opt) : option path := option_map path_of (ns_value ns o).
Definition ns_str (ns : Namespace) (o : opt) : str := given (ns_value ns o) nil.
Definition verify_args (ns : Namespace) : VerifyArgs :=
  mkVA (ns_positional ns) (ns_path ns O_certificate) (ns_path ns O_signature) (ns_path ns O_bundle) (ns_flag ns F_offline)
    (ns_path ns O_trust_config) (ns_value ns O_instance) (ns_flag ns F_staging) (Nat.leb 1 (ns_verbose ns)).
Definition github_args (ns : Namespace) : GithubArgs :=
  mkGH (ns_value ns O_cert_identity) (ns_value ns O_trigger) (ns_value ns O_sha) (ns_value ns O_name) (ns_value ns O_repository) (ns_value ns O_ref).
Definition common_args (ns : Namespace) : CommonArgs :=
  mkCA (map path_of (ns_positional ns)) (ns_flag ns F_overwrite) (ns_value ns O_identity_token) (ns_str ns O_client_id)
    (ns_value ns O_client_secret) (ns_flag ns F_disable_ambient) (ns_value ns O_issuer) (ns_flag ns F_force_oob) (ns_rekor_version ns)
    (ns_path ns O_trust_config) (ns_value ns O_instance) (ns_flag ns F_staging) (Nat.leb 1 (ns_verbose ns)).
Definition sign_args (ns : Namespace) : SignArgs :=
  mkSA (common_args ns) (ns_path ns O_signature) (ns_path ns O_certificate) (ns_path ns O_bundle) (ns_path ns O_output_directory)
    (ns_flag ns F_no_default_files).
Definition attest_args (ns : Namespace) : AttestArgs :=
  mkAA (common_args ns) (given (ns_path ns O_predicate) nil) (ns_str ns O_predicate_type) (ns_path ns O_bundle).

(** ** fix-bundle *)

(** rekor/client.py:46-47, 227-241: the addresses of [RekorClient.production] and [staging] *)
Definition REKOR_PRODUCTION : str := s2l "https://rekor.sigstore.dev".
Definition REKOR_STAGING : str := s2l "https://rekor.sigstage.dev".

(** _cli.py:1307-1343 [_fix_bundle] on the file system: the new file system, what is printed, the
    result.  [http]: the answers of a log.  Simplified: [write_text] is one step. *)
Definition fix_bundle_command (env : Env) (tl : Tools) (http : http_request EntryRequest -> res response)
  (staging upgrade_version in_place : bool) (bundle : path) (t : tree) : tree * option bytes * res unit :=
  let w := world_at tl t in
  let get n := entries_get (w_rp w) http (if staging then REKOR_STAGING else REKOR_PRODUCTION) None (Some n) in
  match (let* raw := file_bytes w bundle in let* m := w_parse_bundle w raw in fix_bundle env get upgrade_version m) with
  | Raise e => (t, None, Raise e)
  | Ok b =>
    let text := tl_to_json tl (b_inner b) in
    if in_place then
      match open_w t (loc tl bundle) with
      | (t1, Ok _) => (write_at t1 (loc tl bundle) 0 text, None, Ok tt)
      | (t1, Raise e) => (t1, None, Raise e)
      end
    else (t, Some (text ++ [x0a]), Ok tt)
  end.

(** ** main *)

Record Machine := mkMachine {
  mc_env : Env; mc_ps : Parsers; mc_tools : Tools;
  mc_lower : N -> str; mc_int : str -> option Z;
  mc_http : http_request EntryRequest -> res response;    (* for fix-bundle *)
  mc_data : path; mc_cache : path; mc_tuf : TufLib; mc_embedded : str -> str -> option bytes;
  mc_parse_tr : bytes -> res TrustedRootMsg; mc_parse_sc : bytes -> res SigningConfigMsg; mc_parse_config : str -> res ClientTrustConfig;
  mc_now : time
}.

(** what is printed *)
Inductive shown : Type := S_line (l : line) | S_output (o : output) | S_text (s : str) | S_bytes (b : bytes) | S_count (n : nat).

Section Main.
Variable mc : Machine.
Let tl := mc_tools mc.

(** The command of a namespace, from a file system and a history: the possible schedules of its
    threads, final file systems and histories, what is printed, and the results. *)
Inductive runs (ns : Namespace) (t0 : tree) (h0 : history) : list act -> tree -> history -> list shown -> res unit -> Prop :=
| Run_sign : forall sched t h lines r, ns_command ns = C_sign -> sign_run tl (sign_args ns) t0 h0 sched t h lines r ->
    runs ns t0 h0 sched t h (map S_output lines) r
| Run_attest : forall sched t h lines r, ns_command ns = C_attest -> attest_run tl (attest_args ns) t0 h0 sched t h lines r ->
    runs ns t0 h0 sched t h (map S_output lines) r
| Run_verify_identity : forall lines r, ns_command ns = C_verify_identity ->
    verify_identity (mc_env mc) (mc_ps mc) (world_at tl t0) (verify_args ns) (ns_str ns O_cert_identity) (ns_str ns O_cert_issuer) = (lines, r) ->
    runs ns t0 h0 nil t0 h0 (map S_line lines) r
| Run_verify_github : forall lines r, ns_command ns = C_verify_github ->
    verify_github (mc_env mc) (mc_ps mc) (world_at tl t0) (verify_args ns) (github_args ns) = (lines, r) ->
    runs ns t0 h0 nil t0 h0 (map S_line lines) r
| Run_get_identity_token : forall r, ns_command ns = C_get_identity_token ->
    get_identity_token tl (common_args ns) t0 = r ->
    runs ns t0 h0 nil t0 h0 (match r with Ok s => [S_text s] | Raise _ => nil end) (let* _ := r in Ok tt)
| Run_trust_instance : forall t s r, ns_command ns = C_trust_instance ->
    trust_instance (mc_data mc) (mc_cache mc) (mc_tuf mc) (mc_embedded mc) (mc_parse_tr mc) (mc_parse_sc mc) (w_cwd (tl_world tl))
      (path_of (hd nil (ns_positional ns))) (ns_value ns O_instance) (mkT (files_of t0) nil) = (r, s) ->
    (forall q, files_of t q = t_fs s q) ->
    runs ns t0 h0 nil t h0 nil r
| Run_update_trust_root : forall t s r, ns_command ns = C_update_trust_root ->
    update_trust_root (mc_data mc) (mc_cache mc) (mc_tuf mc) (mc_embedded mc) (mc_parse_tr mc) (mc_parse_sc mc) (mc_parse_config mc) (w_cwd (tl_world tl))
      (mc_env mc) (mc_now mc) (ns_path ns O_trust_config) (ns_value ns O_instance) (ns_flag ns F_staging) (mkT (files_of t0) nil) = (r, s) ->
    (forall q, files_of t q = t_fs s q) ->
    runs ns t0 h0 nil t h0 (match r with Ok n => [S_count n] | Raise _ => nil end) (let* _ := r in Ok tt)
| Run_fix_bundle : forall t text r, ns_command ns = C_fix_bundle ->
    fix_bundle_command (mc_env mc) tl (mc_http mc) (ns_flag ns F_staging) (ns_upgrade_version ns) (ns_in_place ns)
      (given (ns_path ns O_bundle) nil) t0 = (t, text, r) ->
    runs ns t0 h0 nil t h0 (match text with Some b => [S_bytes b] | None => nil end) r.

(** _cli.py:626-667 [main]: how the process ends; see [exit_status] *)
Inductive main (environ : str -> option str) (l : Line) (t0 : tree) (h0 : history) : list act -> tree -> history -> list shown -> res unit -> Prop :=
| Main_usage : forall e, parse_line (mc_lower mc) (mc_int mc) environ l = Raise e ->
    main environ l t0 h0 nil t0 h0 nil (Raise e)
| Main_run : forall ns sched t h out r, parse_line (mc_lower mc) (mc_int mc) environ l = Ok ns ->
    runs ns t0 h0 sched t h out r ->
    main environ l t0 h0 sched t h out (main_handler (Nat.leb 1 (ns_verbose ns)) r).
End Main.
