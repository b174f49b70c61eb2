(** sigstore/_cli.py: the verify commands, file access by file access.

    CliVerify.v says what the commands do while no file changes.  Here other processes may create, change and
    remove any file at any moment between two accesses of the command (and what one access sees may be any
    content): the file system is a function of the number of accesses made so far.  The rest of the world
    (libraries, logs, the trust material of a TUF repository) is as in CliVerify.v. *)
From Verif Require Import Base Codec Messages Env Keyring Cert Dsse KeyDetails Policy TrustedRoot SigningConfig Hashing Json Http
  LogEntry Bundle Verifier RekorClient Tuf PyText CliVerify.

(** an access and its answer: [p.is_file()], or opening and reading [p] *)
Inductive access : Type := Look (p : path) (found : bool) | Take (p : path) (got : option bytes).

(** the world with other files *)
Definition with_files (w : World) (f : fs) : World :=
  mkWorld (w_cwd w) f (w_load_pem w) (w_parse_bundle w) (w_validate w) (w_config_json w) (w_config_tuf w) (w_rekor w) (w_rp w)
    (w_start w) (w_when w).

(** a piece of the program: given the number of accesses made before, its result and its accesses *)
Definition acc (A : Type) : Type := nat -> res A * list access.
Definition pure {A} (r : res A) : acc A := fun _ => (r, nil).
Definition andthen {A B} (m : acc A) (k : A -> acc B) : acc B := fun n =>
  match m n with
  | (Ok x, t) => let (r, t') := k x (n + length t) in (r, t ++ t')
  | (Raise e, t) => (Raise e, t)
  end.
Notation "'then*' x ':=' m 'in' k" := (andthen m (fun x => k)) (at level 200, x name, m at level 100, k at level 200).
Fixpoint each {A B} (f : A -> acc B) (l : list A) : acc (list B) :=
  match l with
  | nil => pure (Ok nil)
  | x :: r => then* y := f x in then* ys := each f r in pure (Ok (y :: ys))
  end.

Section Steps.
Variable env : Env.
Variable ps : Parsers.
Variable w : World.
Variable files : nat -> fs.

(** the world at an access *)
Definition moment (n : nat) : World := with_files w (files n).

(** [p.is_file()]; [p.read_bytes()], or [p.open("rb")] and reading; [p.read_text(encoding="utf-8")] *)
Definition look (p : path) : acc bool := fun n => (Ok (is_file (moment n) p), [Look p (is_file (moment n) p)]).
Definition take (p : path) : acc bytes := fun n => (file_bytes (moment n) p, [Take p (content (moment n) p)]).
Definition take_text (p : path) : acc str := then* b := take p in pure (py_decode b).

(** _cli.py:165-178 [file_or_digest] *)
Definition file_or_digest_s (arg : str) : acc item :=
  let p := path_of arg in
  then* found := look p in
  if found then pure (Ok (It_path p))
  else pure (if str_eqb (firstn 6 arg) (s2l "sha256") then
               match fromhex (skipn 7 arg) with
               | None => Raise EValue
               | Some d => do* raise_if (negb (Nat.eqb (length d) 32)) EValue in Ok (It_digest (mkHashed HA_SHA2_256 d))
               end
             else Raise EValue).
(** [argparse] turns a ValueError of an argument type into a usage error *)
Definition parse_inputs_s (args : list str) : acc (list item) := fun n =>
  let (r, t) := each file_or_digest_s args n in (try_except r (exn_eqb EValue) (fun _ => invalid_arguments), t).

(** _cli.py:1254-1276 [_get_trust_config], without [--rekor-version] *)
Definition get_trust_config_s (trust_config : option path) (instance : option str) (staging offline : bool) : acc ClientTrustConfig :=
  match trust_config with
  | Some p => then* t := take_text p in pure (w_config_json w t)
  | None =>
    match instance with
    | Some (c :: r) => pure (w_config_tuf w (c :: r) offline)
    | _ => if staging then pure (w_config_tuf w STAGING offline) else pure (w_config_tuf w PRODUCTION offline)
    end
  end.

(** the materials are files: _cli.py:1032-1058 and 1075-1098 *)
Definition check_materials_s (m : materials) : acc materials :=
  match m with
  | M_bundle p => then* found := look p in then* u := pure (raise_if (negb found) (ESystemExit 2)) in pure (Ok m)
  | M_parts c s =>
    then* found_s := look s in
    then* found_c := look c in
    then* u := pure (raise_if (negb (found_s && found_c)) (ESystemExit 2)) in
    pure (Ok m)
  end.

(** _cli.py:1005-1030: the bundle beside the input *)
Definition default_bundle_s (file cert sig : path) : acc path :=
  let legacy := sibling file (s2l ".sigstore") in
  let bundle := sibling file (s2l ".sigstore.json") in
  then* b := look bundle in
  then* l := (if b then pure (Ok false) else look legacy) in
  if l then
    (* the warning of _cli.py:1013-1021 is not printed if both detached materials exist *)
    then* c := look cert in
    then* u := (if c then look sig else pure (Ok false)) in
    pure (Ok legacy)
  else
    then* b2 := look bundle in
    then* l2 := (if b2 then look legacy else pure (Ok false)) in
    if l2 then pure invalid_arguments else pure (Ok bundle).

(** _cli.py:991-1058: the loop body *)
Definition materials_for_s (a : VerifyArgs) (file : path) : acc materials :=
  then* found := look file in
  then* u := pure (raise_if (negb found) (ESystemExit 2)) in
  let sig := given (va_sig a) (sibling file (s2l ".sig")) in
  let cert := given (va_cert a) (sibling file (s2l ".crt")) in
  then* bundle := match va_bundle a with Some b => pure (Ok b) | None => default_bundle_s file cert sig end in
  check_materials_s (if is_some (va_sig a) || is_some (va_cert a) then M_parts cert sig else M_bundle bundle).

(** _cli.py:990-1058: the loop over the files *)
Fixpoint build_map_s (a : VerifyArgs) (items : list item) (m : list (item * materials)) : acc (list (item * materials)) :=
  match items with
  | nil => pure (Ok m)
  | It_path p :: rest => then* mt := materials_for_s a p in build_map_s a rest (dict_set item_eqb (It_path p) mt m)
  | It_digest _ :: rest => build_map_s a rest m
  end.

(** _cli.py:1060-1098: no file among the inputs *)
Definition digest_map_s (a : VerifyArgs) (items : list item) : acc (list (item * materials)) :=
  then* hm := pure (
    do* raise_if (negb (Nat.eqb (length items) 1)) (ESystemExit 2) in
    let* hashed := index_list items 0 in
    let* m :=
      if is_some (va_sig a) || is_some (va_cert a) then
        match va_sig a, va_cert a with
        | Some s, Some c => Ok (M_parts c s)
        | _, _ => Raise EAttribute
        end
      else match va_bundle a with Some b => Ok (M_bundle b) | None => Raise EAttribute end in
    Ok (hashed, m)) in
  then* m := check_materials_s (snd hm) in
  pure (Ok [(fst hm, m)]).

(** _cli.py:1103-1134: the loop body.  The input is opened and hashed block by block; whatever the other
    processes do meanwhile, what is hashed is some sequence of bytes. *)
Definition load_materials_s (v : Verifier) (xm : item * materials) : acc (item * (Hashed * Bundle)) :=
  let x := fst xm in
  then* hashed :=
    match x with
    | It_path p => then* b := take p in pure (Ok (sha256_digest env (In_bytes b)))
    | It_digest h => pure (Ok h)
    end in
  match snd xm with
  | M_bundle p => then* raw := take p in then* b := pure (bundle_from_json env (w_parse_bundle w) raw) in pure (Ok (x, (hashed, b)))
  | M_parts cp sp =>
    then* pem := take cp in
    then* cert := pure (w_load_pem w pem) in
    then* text := take_text sp in
    pure (let* sig := b64decode text in
          let* req := hashedrekord_from_parts cert sig hashed in
          let* found := retrieve_post (w_rp w) (w_rekor w x) (vf_rekor_url v) (Req_h1 req) in
          match found with
          | None => invalid_arguments
          | Some e => let* b := from_parts env cert sig e in Ok (x, (hashed, b))
          end)
  end.

(** _cli.py:968-988: the checks of the options *)
Definition check_options (a : VerifyArgs) (items : list item) : res unit :=
  let explicit := is_some (va_cert a) || is_some (va_sig a) in
  do* raise_if ((explicit || is_some (va_bundle a)) && Nat.ltb 1 (length items)) (ESystemExit 2) in
  do* raise_if (is_some (va_bundle a) && explicit) (ESystemExit 2) in
  do* raise_if (existsb is_digest items && negb (is_some (va_bundle a)) && negb (is_some (va_cert a) && is_some (va_sig a))) (ESystemExit 2) in
  raise_if (va_offline a && explicit) (ESystemExit 2).

(** _cli.py:947-1136 [_collect_verification_state]; [pre]: what the command checks after [argparse] and before *)
Definition collect_s (pre : res unit) (a : VerifyArgs) : acc (Verifier * list (item * (Hashed * Bundle))) :=
  then* items := parse_inputs_s (va_inputs a) in
  then* u := pure (do* pre in check_options a items) in
  then* m0 := build_map_s a items nil in
  then* m := match m0 with nil => digest_map_s a items | _ => pure (Ok m0) end in
  then* config := get_trust_config_s (va_trust_config a) (va_instance a) (va_staging a) (va_offline a) in
  then* v := pure (let* root := make_trusted_root (ctc_root config) in make_verifier env (w_start w) root) in
  then* all := each (load_materials_s v) m in
  pure (Ok (v, all)).

(** everything is read before anything is verified: _cli.py:1139-1160 and 1163-1213 *)
Definition run_verify_s (pre : res unit) (a : VerifyArgs) (show : Statement -> res line) (p : policy) : (list line * res unit) * list access :=
  match collect_s pre a 0 with
  | (Raise e, t) => ((nil, Raise e), t)
  | (Ok (v, all), t) => (verify_loop env ps w (va_verbose a) show v p all, t)
  end.

(** _cli.py:1139-1160 [_verify_identity] *)
Definition verify_identity_s (a : VerifyArgs) (identity issuer : str) : (list line * res unit) * list access :=
  let '((out, r), t) := run_verify_s (Ok tt) a show_decoded (P_identity identity (Some issuer)) in ((out, main_handler (va_verbose a) r), t).

(** _cli.py:1163-1213 [_verify_github] *)
Definition verify_github_s (a : VerifyArgs) (g : GithubArgs) : (list line * res unit) * list access :=
  let pre := raise_if (negb (is_some (truthy (gh_identity g)) || is_some (truthy (gh_repository g)))) (ESystemExit 2) in
  let '((out, r), t) := run_verify_s pre a show_repr (github_policy g) in ((out, main_handler (va_verbose a) r), t).
End Steps.
