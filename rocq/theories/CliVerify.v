(** sigstore/_cli.py: [sigstore verify identity] and [sigstore verify github].

    The file system does not change while a command runs (VerifySteps.v lifts this), and contains files and nothing else
    (directories are where no file is).  Arguments are given as the values of the options;
    [argparse] itself is represented by its effect: a refused argument ends the program with
    status 2. *)
From Verif Require Import Base Codec Messages Env Keyring Cert Dsse KeyDetails Policy TrustedRoot SigningConfig Hashing Json Http
  LogEntry Bundle Verifier RekorClient Tuf PyText.

(** ** [pathlib.Path] *)

(** A path is the list of its parts; an absolute path starts with the part [/]. *)
Definition ROOT : str := s2l "/".
Definition is_part (s : str) : bool := negb (str_eqb s nil || str_eqb s (s2l ".")).
(** [Path(s)] *)
Definition path_of (s : str) : path :=
  (match s with c :: _ => if N.eqb c 47 then [ROOT] else nil | nil => nil end) ++ filter is_part (split_on 47%N s).
(** [p.name] and [p.parent] *)
Definition is_anchor (p : path) : bool := path_eqb p nil || path_eqb p [ROOT].
Definition path_name (p : path) : str := if is_anchor p then nil else last p nil.
Definition path_parent (p : path) : path := if is_anchor p then p else removelast p.
(** [p.parent / f"{p.name}{suffix}"] *)
Definition sibling (p : path) (suffix : str) : path := path_parent p ++ [path_name p ++ suffix].
(** the location of a path, seen from the current directory (no symbolic links) *)
Definition place (cwd p : path) : path :=
  match p with a :: r => if str_eqb a ROOT then fold_left up r nil else fold_left up p cwd | nil => cwd end.

(** ** What the commands read *)

(** an input of the command: _cli.py:165 *)
Inductive item : Type := It_path (p : path) | It_digest (h : Hashed).

Record World := mkWorld {
  w_cwd : path;                                  (* the current directory *)
  w_files : fs;                                  (* file contents by location *)
  w_load_pem : bytes -> res Cert;                (* cryptography: [load_pem_x509_certificate] *)
  w_parse_bundle : bytes -> res BundleMsg;       (* pydantic: [_Bundle.from_json] *)
  w_validate : bytes -> option StatementInner;   (* pydantic: [_Statement.model_validate_json] *)
  w_config_json : str -> res ClientTrustConfig;  (* [ClientTrustConfig.from_json] *)
  w_config_tuf : str -> bool -> res ClientTrustConfig;  (* [ClientTrustConfig.from_tuf]: URL, offline *)
  w_rekor : item -> http_request EntryRequest -> res response;  (* answer to the search made for an input *)
  w_rp : RekorParsers;
  w_start : time;                                (* when the verifier is constructed *)
  w_when : item -> time                          (* when an input is verified *)
}.

(** options shared by the two commands: _cli.py:138-251 *)
Record VerifyArgs := mkVA {
  va_inputs : list str;
  va_cert : option path; va_sig : option path; va_bundle : option path;
  va_offline : bool;
  va_trust_config : option path; va_instance : option str; va_staging : bool;
  va_verbose : bool
}.

(** _cli.py:108-114 [_invalid_arguments]: [ArgumentParser.error] exits with status 2 *)
Definition invalid_arguments {A} : res A := Raise (ESystemExit 2).
(** errors.py:33-45 [Error.log_and_exit] *)
Definition log_and_exit {A} (raise_error : bool) (e : exn) : res A := if raise_error then Raise e else Raise (ESystemExit 1).

Definition is_some {A} (o : option A) : bool := match o with Some _ => true | None => false end.
Definition given {A} (o : option A) (d : A) : A := match o with Some x => x | None => d end.

Section World.
Variable env : Env.
Variable ps : Parsers.
Variable w : World.

(** [p.is_file()], [p.read_bytes()] and [p.read_text(encoding="utf-8")] *)
Definition content (p : path) : option bytes := w_files w (place (w_cwd w) p).
Definition is_file (p : path) : bool := is_some (content p).
Definition file_bytes (p : path) : res bytes := match content p with Some b => Ok b | None => Raise EFileNotFound end.
Definition file_text (p : path) : res str := let* b := file_bytes p in py_decode b.

(** _cli.py:165-178 [file_or_digest] *)
Definition file_or_digest (arg : str) : res item :=
  let p := path_of arg in
  if is_file p then Ok (It_path p)
  else if str_eqb (firstn 6 arg) (s2l "sha256") then
    match fromhex (skipn 7 arg) with
    | None => Raise EValue
    | Some d => do* raise_if (negb (Nat.eqb (length d) 32)) EValue in Ok (It_digest (mkHashed HA_SHA2_256 d))
    end
  else Raise EValue.
(** [argparse] turns a ValueError of an argument type into a usage error *)
Definition parse_inputs (args : list str) : res (list item) :=
  try_except (map_res file_or_digest args) (exn_eqb EValue) (fun _ => invalid_arguments).

(** _cli.py:1254-1276 [_get_trust_config], without [--rekor-version] *)
Definition PRODUCTION : str := s2l "https://tuf-repo-cdn.sigstore.dev".
Definition STAGING : str := s2l "https://tuf-repo-cdn.sigstage.dev".
Definition get_trust_config (trust_config : option path) (instance : option str) (staging offline : bool) : res ClientTrustConfig :=
  match trust_config with
  | Some p => let* t := file_text p in w_config_json w t
  | None =>
    match instance with
    | Some (c :: r) => w_config_tuf w (c :: r) offline
    | _ => if staging then w_config_tuf w STAGING offline else w_config_tuf w PRODUCTION offline
    end
  end.

(** _cli.py:75-97 [VerificationMaterials] *)
Inductive materials : Type := M_bundle (p : path) | M_parts (cert sig : path).

(** the materials are files: _cli.py:1032-1058 and 1075-1098 *)
Definition check_materials (m : materials) : res materials :=
  do* raise_if (negb (match m with M_bundle p => is_file p | M_parts c s => is_file s && is_file c end)) (ESystemExit 2) in
  Ok m.

(** _cli.py:991-1058: the loop body *)
Definition materials_for (a : VerifyArgs) (file : path) : res materials :=
  do* raise_if (negb (is_file file)) (ESystemExit 2) in
  let sig := given (va_sig a) (sibling file (s2l ".sig")) in
  let cert := given (va_cert a) (sibling file (s2l ".crt")) in
  let* bundle :=
    match va_bundle a with
    | Some b => Ok b
    | None =>
      let legacy := sibling file (s2l ".sigstore") in
      let bundle := sibling file (s2l ".sigstore.json") in
      if negb (is_file bundle) && is_file legacy then Ok legacy
      else if is_file bundle && is_file legacy then invalid_arguments
      else Ok bundle
    end in
  check_materials (if is_some (va_sig a) || is_some (va_cert a) then M_parts cert sig else M_bundle bundle).

Definition hashed_eqb (x y : Hashed) : bool := hash_algorithm_eqb (h_alg x) (h_alg y) && bytes_eqb (h_digest x) (h_digest y).
Definition item_eqb (x y : item) : bool :=
  match x, y with
  | It_path p, It_path q => path_eqb p q
  | It_digest h, It_digest k => hashed_eqb h k
  | _, _ => false
  end.

(** _cli.py:990-1058: the loop over the files *)
Fixpoint build_map (a : VerifyArgs) (items : list item) (m : list (item * materials)) : res (list (item * materials)) :=
  match items with
  | nil => Ok m
  | It_path p :: rest => let* mt := materials_for a p in build_map a rest (dict_set item_eqb (It_path p) mt m)
  | It_digest _ :: rest => build_map a rest m
  end.

(** _cli.py:1060-1098: no file among the inputs *)
Definition digest_map (a : VerifyArgs) (items : list item) : res (list (item * materials)) :=
  do* raise_if (negb (Nat.eqb (length items) 1)) (ESystemExit 2) in
  let* hashed := index_list items 0 in
  let* m :=
    if is_some (va_sig a) || is_some (va_cert a) then
      match va_sig a, va_cert a with
      | Some s, Some c => Ok (M_parts c s)
      | _, _ => Raise EAttribute
      end
    else match va_bundle a with Some b => Ok (M_bundle b) | None => Raise EAttribute end in
  let* m := check_materials m in
  Ok [(hashed, m)].

Definition is_digest (x : item) : bool := match x with It_digest _ => true | It_path _ => false end.

(** _cli.py:1103-1134: the loop body *)
Definition load_materials (v : Verifier) (x : item) (m : materials) : res (Hashed * Bundle) :=
  let* hashed :=
    match x with
    | It_path p => let* b := file_bytes p in Ok (sha256_digest env (In_bytes b))
    | It_digest h => Ok h
    end in
  match m with
  | M_bundle p => let* raw := file_bytes p in let* b := bundle_from_json env (w_parse_bundle w) raw in Ok (hashed, b)
  | M_parts cp sp =>
    let* pem := file_bytes cp in
    let* cert := w_load_pem w pem in
    let* text := file_text sp in
    let* sig := b64decode text in
    let* req := hashedrekord_from_parts cert sig hashed in
    let* found := retrieve_post (w_rp w) (w_rekor w x) (vf_rekor_url v) (Req_h1 req) in
    match found with
    | None => invalid_arguments
    | Some e => let* b := from_parts env cert sig e in Ok (hashed, b)
    end
  end.

(** _cli.py:947-1136 [_collect_verification_state] *)
Definition collect_verification_state (a : VerifyArgs) : res (Verifier * list (item * (Hashed * Bundle))) :=
  let* items := parse_inputs (va_inputs a) in
  let explicit := is_some (va_cert a) || is_some (va_sig a) in
  do* raise_if ((explicit || is_some (va_bundle a)) && Nat.ltb 1 (length items)) (ESystemExit 2) in
  do* raise_if (is_some (va_bundle a) && explicit) (ESystemExit 2) in
  do* raise_if (existsb is_digest items && negb (is_some (va_bundle a)) && negb (is_some (va_cert a) && is_some (va_sig a))) (ESystemExit 2) in
  do* raise_if (va_offline a && explicit) (ESystemExit 2) in
  let* input_map := build_map a items nil in
  let* input_map := match input_map with nil => digest_map a items | _ => Ok input_map end in
  let* config := get_trust_config (va_trust_config a) (va_instance a) (va_staging a) (va_offline a) in
  let* root := make_trusted_root (ctc_root config) in
  let* v := make_verifier env (w_start w) root in
  let* all := map_res (fun xm => let* hb := load_materials v (fst xm) (snd xm) in Ok (fst xm, hb)) input_map in
  Ok (v, all).

(** _cli.py:1216-1251 [_verify_common] *)
Definition verify_common (now : time) (v : Verifier) (hashed : Hashed) (b : Bundle) (p : policy) : res (option Statement) :=
  let* envelope := bundle_envelope b in
  match envelope with
  | Some _ =>
    let* '(type_, payload) := verify_dsse env ps now v b p in
    do* raise_if (negb (str_eqb type_ ENVELOPE_TYPE)) EVerification in
    let* st := statement_of_bytes (w_validate w) payload in
    let* ok := matches_digest st hashed in
    do* raise_if (negb ok) EVerification in
    Ok (Some st)
  | None =>
    do* verify_artifact env ps now v (In_hashed hashed) b p in
    Ok None
  end.

(** what is printed: the line for an input, the statement *)
Inductive line : Type := L_ok (x : item) | L_fail (x : item) | L_text (s : str) | L_bytes_repr (b : bytes).

(** _cli.py:1142-1160 and 1196-1213: the loops over the inputs.  [show]: how a statement is
    printed. *)
Fixpoint verify_loop (verbose : bool) (show : Statement -> res line) (v : Verifier) (p : policy) (all : list (item * (Hashed * Bundle)))
  : list line * res unit :=
  match all with
  | nil => (nil, Ok tt)
  | (x, (hashed, b)) :: rest =>
    match verify_common (w_when w x) v hashed b p with
    | Ok None => let (out, r) := verify_loop verbose show v p rest in (L_ok x :: out, r)
    | Ok (Some st) =>
      match show st with
      | Ok l => let (out, r) := verify_loop verbose show v p rest in (L_ok x :: l :: out, r)
      | Raise e => if is_sigstore_error e then ([L_ok x; L_fail x], log_and_exit verbose e) else ([L_ok x], Raise e)
      end
    | Raise e => if is_sigstore_error e then ([L_fail x], log_and_exit verbose e) else (nil, Raise e)
    end
  end.

(** _cli.py:626-667 [main]: what is left of an exception of the command *)
Definition main_handler (verbose : bool) (r : res unit) : res unit :=
  try_except r is_sigstore_error (fun e => log_and_exit verbose e).

Definition run_verify (a : VerifyArgs) (show : Statement -> res line) (p : policy) : list line * res unit :=
  match collect_verification_state a with
  | Raise e => (nil, Raise e)
  | Ok (v, all) => verify_loop (va_verbose a) show v p all
  end.

(** _cli.py:1139-1160 [_verify_identity]; the identity and the issuer are required options *)
Definition show_decoded (st : Statement) : res line := let* s := py_decode (st_contents st) in Ok (L_text s).
Definition verify_identity (a : VerifyArgs) (identity issuer : str) : list line * res unit :=
  let (out, r) := run_verify a show_decoded (P_identity identity (Some issuer)) in (out, main_handler (va_verbose a) r).

(** options of [verify github]: _cli.py:480-527 *)
Record GithubArgs := mkGH {
  gh_identity : option str; gh_trigger : option str; gh_sha : option str; gh_name : option str;
  gh_repository : option str; gh_ref : option str }.
Definition truthy (o : option str) : option str := match o with Some (c :: r) => Some (c :: r) | _ => None end.
Definition opt_policy (o : option str) (f : str -> policy) : list policy := match truthy o with Some s => [f s] | None => nil end.
Definition GITHUB_ISSUER : str := s2l "https://token.actions.githubusercontent.com".

(** _cli.py:1163-1192: the policy *)
Definition github_policy (g : GithubArgs) : policy :=
  P_all (P_ext OIDCIssuer GITHUB_ISSUER ::
         opt_policy (gh_identity g) (fun s => P_identity s None) ++
         opt_policy (gh_trigger g) (P_ext GitHubWorkflowTrigger) ++
         opt_policy (gh_sha g) (P_ext GitHubWorkflowSHA) ++
         opt_policy (gh_name g) (P_ext GitHubWorkflowName) ++
         opt_policy (gh_repository g) (P_ext GitHubWorkflowRepository) ++
         opt_policy (gh_ref g) (P_ext GitHubWorkflowRef)).

(** _cli.py:1163-1213 [_verify_github]; the inputs have been parsed by [argparse] before, which gives the
    same status as the check of the options *)
Definition show_repr (st : Statement) : res line := Ok (L_bytes_repr (st_contents st)).
Definition verify_github (a : VerifyArgs) (g : GithubArgs) : list line * res unit :=
  if negb (is_some (truthy (gh_identity g)) || is_some (truthy (gh_repository g))) then (nil, invalid_arguments)
  else let (out, r) := run_verify a show_repr (github_policy g) in (out, main_handler (va_verbose a) r).

(** The exit status of the process: an exception that nothing catches gives 1. *)
Definition exit_status (r : res unit) : nat :=
  match r with Ok _ => 0 | Raise (ESystemExit n) => n | Raise _ => 1 end.
End World.
