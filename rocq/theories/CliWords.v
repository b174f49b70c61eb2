(** sigstore/_cli.py: from the words of the command line ([sys.argv[1:]]) to the options, values and
    inputs of CliMain.v.  The parsers are those of [_parser]; how they divide the words is a model of
    [argparse] of the standard library (CPython 3.11.10), restricted to what [_parser] uses: options
    without value, options with one value, one optional last positional argument, and subcommands. *)
From Verif Require Import Base Codec Messages Env Keyring Cert Dsse KeyDetails Policy TrustedRoot SigningConfig Hashing Json Http
  Oidc Oauth LogEntry Bundle Verifier RekorClient Clients Tuf PyText CliVerify CliTrust Sign SignSteps Predicate CliSign CliEnv CliMain.

(** ** The parsers *)

Inductive parser : Set := P_main | P_verify | P_plumbing | P_command (c : command).
(** what an option does *)
Inductive action : Set := A_value (o : opt) | A_flag (f : flag) | A_upgrade | A_in_place | A_verbose | A_help | A_version.
Definition takes_value (a : action) : bool := match a with A_value _ => true | _ => false end.

(** _cli.py:239-248: [parent_parser], and the [-h] of every [ArgumentParser] *)
Definition parent_names : list (str * action) :=
  [(s2l "-h", A_help); (s2l "--help", A_help); (s2l "-v", A_verbose); (s2l "--verbose", A_verbose)].
(** _cli.py:198-236 [_add_shared_oidc_options] *)
Definition oidc_names : list (str * action) :=
  [(s2l "--oidc-client-id", A_value O_client_id); (s2l "--oidc-client-secret", A_value O_client_secret);
   (s2l "--oidc-disable-ambient-providers", A_flag F_disable_ambient); (s2l "--oidc-issuer", A_value O_issuer);
   (s2l "--oauth-force-oob", A_flag F_force_oob)].
(** _cli.py:138-195 [_add_shared_verify_input_options], [_add_shared_verification_options] *)
Definition verify_names : list (str * action) :=
  [(s2l "--certificate", A_value O_certificate); (s2l "--cert", A_value O_certificate); (s2l "--signature", A_value O_signature);
   (s2l "--bundle", A_value O_bundle); (s2l "--offline", A_flag F_offline)].
(** _cli.py:239-623 [_parser]: the option strings *)
Definition names (p : parser) : list (str * action) :=
  parent_names ++
  match p with
  | P_main => [(s2l "-V", A_version); (s2l "--version", A_version); (s2l "--staging", A_flag F_staging);
               (s2l "--instance", A_value O_instance); (s2l "--trust-config", A_value O_trust_config)]
  | P_verify | P_plumbing => nil
  | P_command C_attest =>
    [(s2l "--rekor-version", A_value O_rekor_version); (s2l "--predicate", A_value O_predicate); (s2l "--predicate-type", A_value O_predicate_type);
     (s2l "--identity-token", A_value O_identity_token)] ++ oidc_names ++
    [(s2l "--bundle", A_value O_bundle); (s2l "--overwrite", A_flag F_overwrite)]
  | P_command C_sign =>
    [(s2l "--rekor-version", A_value O_rekor_version); (s2l "--identity-token", A_value O_identity_token)] ++ oidc_names ++
    [(s2l "--no-default-files", A_flag F_no_default_files); (s2l "--signature", A_value O_signature); (s2l "--output-signature", A_value O_signature);
     (s2l "--certificate", A_value O_certificate); (s2l "--output-certificate", A_value O_certificate); (s2l "--bundle", A_value O_bundle);
     (s2l "--output-directory", A_value O_output_directory); (s2l "--overwrite", A_flag F_overwrite)]
  | P_command C_verify_identity =>
    verify_names ++ [(s2l "--cert-identity", A_value O_cert_identity); (s2l "--cert-oidc-issuer", A_value O_cert_issuer)]
  | P_command C_verify_github =>
    verify_names ++ [(s2l "--cert-identity", A_value O_cert_identity); (s2l "--trigger", A_value O_trigger); (s2l "--sha", A_value O_sha);
     (s2l "--name", A_value O_name); (s2l "--repository", A_value O_repository); (s2l "--ref", A_value O_ref)]
  | P_command C_get_identity_token => oidc_names
  | P_command C_trust_instance => nil
  | P_command C_fix_bundle => [(s2l "--bundle", A_value O_bundle); (s2l "--upgrade-version", A_upgrade); (s2l "--in-place", A_in_place)]
  | P_command C_update_trust_root => nil
  end.
(** _cli.py:283-623: the subcommands of a parser *)
Definition subcommands (p : parser) : list (str * parser) :=
  match p with
  | P_main => [(s2l "attest", P_command C_attest); (s2l "sign", P_command C_sign); (s2l "verify", P_verify);
               (s2l "get-identity-token", P_command C_get_identity_token); (s2l "trust-instance", P_command C_trust_instance); (s2l "plumbing", P_plumbing)]
  | P_verify => [(s2l "identity", P_command C_verify_identity); (s2l "github", P_command C_verify_github)]
  | P_plumbing => [(s2l "fix-bundle", P_command C_fix_bundle); (s2l "update-trust-root", P_command C_update_trust_root)]
  | P_command _ => nil
  end.
(** _cli.py:180-186, 283-288, 309-315, 402-408, 441-447, 569-574: the positional argument *)
Inductive wants : Set := W_none | W_one | W_many | W_command.
Definition expects (p : parser) : wants :=
  match p with
  | P_command (C_sign | C_attest | C_verify_identity | C_verify_github) => W_many
  | P_command C_trust_instance => W_one
  | P_command _ => W_none
  | _ => W_command
  end.

(** ** One word *)

Section Words.
Variable digit : N -> bool.      (* [\d] of a regular expression: a decimal digit of any script *)

(** [w.split("=", 1)] *)
Fixpoint split_eq (w : str) : option (str * str) :=
  match w with
  | nil => None
  | c :: r => if (c =? 61)%N then Some (nil, r) else match split_eq r with Some (n, e) => Some (c :: n, e) | None => None end
  end.
(** argparse.py, [_negative_number_matcher]: a minus sign, then digits, or digits, a point and digits; a final line
    feed is ignored *)
Definition all_digits (s : str) : bool := match s with nil => false | _ => forallb digit s end.
Fixpoint point_digits (s : str) : bool :=
  match s with nil => false | c :: r => if (c =? 46)%N then all_digits r else digit c && point_digits r end.
Definition number (s : str) : bool := all_digits s || point_digits s.
Definition negative_number (w : str) : bool :=
  match w with
  | c :: r => (c =? 45)%N && (number r || match rev r with d :: r' => (d =? 10)%N && number (rev r') | nil => false end)
  | nil => false
  end.

(** what a word is to a parser: a plain word, [--], or an option with what follows it in the same word, after
    an equals sign or not; [None] is an option that the parser does not have *)
Inductive kind : Type := K_word | K_dashes | K_option (a : option action) (long : bool) (explicit : option (bool * str)).
Definition is_long (w : str) : bool := match w with _ :: d :: _ => (d =? 45)%N | _ => false end.

(** argparse.py, [_get_option_tuples]: the options that a word may abbreviate *)
Definition candidates (ns : list (str * action)) (w : str) : list kind :=
  if is_long w then
    let '(p, e) := match split_eq w with Some (n, e) => (n, Some (true, e)) | None => (w, None) end in
    map (fun x => K_option (Some (snd x)) (is_long (fst x)) e) (filter (fun x => prefixb p (fst x)) ns)
  else
    flat_map (fun x => if str_eqb (fst x) (firstn 2 w) then [K_option (Some (snd x)) (is_long (fst x)) (Some (false, skipn 2 w))]
                       else if prefixb w (fst x) then [K_option (Some (snd x)) (is_long (fst x)) None] else nil) ns.
(** argparse.py, [_parse_optional]; an ambiguous abbreviation ends the process *)
Definition classify (ns : list (str * action)) (w : str) : res kind :=
  match w with
  | nil => Ok K_word
  | c :: r =>
    if negb (c =? 45)%N then Ok K_word
    else
      match assoc str_eqb w ns with
      | Some a => Ok (K_option (Some a) (is_long w) None)
      | None =>
        match r with
        | nil => Ok K_word
        | _ =>
          match match split_eq w with Some (n, e) => match assoc str_eqb n ns with Some a => Some (K_option (Some a) (is_long n) (Some (true, e))) | None => None end | None => None end with
          | Some k => Ok k
          | None =>
            match candidates ns w with
            | _ :: _ :: _ => Raise (ESystemExit 2)
            | [k] => Ok k
            | nil => if negative_number w || existsb (N.eqb 32) w then Ok K_word else Ok (K_option None true None)
            end
          end
        end
      end
  end.
Definition DASHES : str := s2l "--".
(** argparse.py, [_parse_known_args]: all words; after [--] every word is plain *)
Fixpoint kinds (ns : list (str * action)) (ws : list str) : res (list (str * kind)) :=
  match ws with
  | nil => Ok nil
  | w :: r =>
    if str_eqb w DASHES then Ok ((w, K_dashes) :: map (fun x => (x, K_word)) r)
    else let* k := classify ns w in let* ks := kinds ns r in Ok ((w, k) :: ks)
  end.

(** ** One parser *)

(** what a parser has found: options with their values, positional words, whether there was something
    that it cannot use, and the words for the subcommand *)
Record Found := mkFound { fd_actions : list (action * str); fd_words : list str; fd_extra : bool; fd_rest : option (list str) }.
Definition add_word (x : str) (f : Found) : Found := mkFound (fd_actions f) (x :: fd_words f) (fd_extra f) (fd_rest f).
Definition add_action (a : action) (v : str) (f : Found) : Found := mkFound ((a, v) :: fd_actions f) (fd_words f) (fd_extra f) (fd_rest f).
Definition extra (f : Found) : Found := mkFound (fd_actions f) (fd_words f) true (fd_rest f).

(** [-vvv]: the options of the letters after the first, and whether one is unknown *)
Fixpoint letters (ns : list (str * action)) (e : str) : res (list action * bool) :=
  match e with
  | nil => Ok (nil, false)
  | c :: r =>
    if (c =? 45)%N then Raise (ESystemExit 2)
    else
      match assoc str_eqb [45%N; c] ns with
      | Some a =>
        if takes_value a then Raise (ESystemExit 2)      (* no such option has a value *)
        else
          match r with
          | d :: _ => if (d =? 61)%N then Raise (ESystemExit 2) else let* '(l, x) := letters ns r in Ok (a :: l, x)
          | nil => Ok ([a], false)
          end
      | None => Ok (nil, true)
      end
  end.
(** [--help] and [--version] end the process *)
Definition ends_process (a : action) : bool := match a with A_help | A_version => true | _ => false end.

(** whether the positional argument has been met *)
Inductive place : Set := Before | Inside | After.
Definition leave (pl : place) : place := match pl with Inside => After | _ => pl end.

(** argparse.py, [_parse_known_args]: from left to right *)
Fixpoint walk (ns : list (str * action)) (w : wants) (pl : place) (ks : list (str * kind)) : res Found :=
  match ks with
  | nil =>
    match w, pl with
    | (W_one | W_many | W_command), Before => Raise (ESystemExit 2)      (* it is required *)
    | _, _ => Ok (mkFound nil nil false None)
    end
  | (x, K_word) :: r =>
    match w, pl with
    | W_many, (Before | Inside) => let* f := walk ns w Inside r in Ok (add_word x f)
    | W_one, Before => let* f := walk ns w Inside r in Ok (add_word x f)
    | W_command, Before => Ok (mkFound nil nil false (Some (x :: map fst r)))
    | _, _ => let* f := walk ns w (leave pl) r in Ok (extra f)
    end
  | (x, K_dashes) :: r =>
    match w, pl with
    | (W_many | W_one), Before => walk ns w Before r
    | W_command, Before => Raise (ESystemExit 2)                          (* [--] is not a command *)
    | W_many, Inside => walk ns w Inside r
    | W_one, Inside => walk ns w After r
    | _, _ => let* f := walk ns w pl r in Ok (extra f)
    end
  | (x, K_option None _ _) :: r => let* f := walk ns w (leave pl) r in Ok (extra f)
  | (x, K_option (Some a) _ None) :: r =>
    if takes_value a then
      match r with
      | (v, K_word) :: r' => let* f := walk ns w (leave pl) r' in Ok (add_action a v f)
      | _ => Raise (ESystemExit 2)
      end
    else if ends_process a then Raise (ESystemExit 0)
    else let* f := walk ns w (leave pl) r in Ok (add_action a nil f)
  | (x, K_option (Some a) long (Some (eq, e))) :: r =>
    if takes_value a then let* f := walk ns w (leave pl) r in Ok (add_action a e f)
    else if long || eq || match e with nil => true | _ => false end then Raise (ESystemExit 2)
    else
      let* '(more, unknown) := letters ns e in
      do* raise_if (existsb ends_process (a :: more)) (ESystemExit 0) in
      let* f := walk ns w (leave pl) r in
      Ok (fold_right (fun a f => add_action a nil f) (if unknown then extra f else f) (a :: more))
  end.
Definition level (p : parser) (ws : list str) : res Found :=
  let* ks := kinds (names p) ws in walk (names p) (expects p) Before ks.

(** ** The command line *)

(** argparse.py, [_SubParsersAction]: the first of the words is the name of a subcommand *)
Definition enter (p : parser) (f : Found) : res (parser * list str) :=
  match fd_rest f with
  | Some (w :: r) => match assoc str_eqb w (subcommands p) with Some q => Ok (q, r) | None => Raise (ESystemExit 2) end
  | _ => Raise (ESystemExit 2)
  end.
Definition values_of (f : Found) : list (opt * str) := flat_map (fun x => match fst x with A_value o => [(o, snd x)] | _ => nil end) (fd_actions f).
Definition flags_in (f : Found) : list flag := flat_map (fun x => match fst x with A_flag g => [g] | _ => nil end) (fd_actions f).
Definition action_eq_dec (a b : action) : {a = b} + {a <> b}.
Proof. decide equality; decide equality. Defined.
Definition count_of (a : action) (f : Found) : nat := length (filter (fun x => if action_eq_dec (fst x) a then true else false) (fd_actions f)).
(** argparse.py, [parse_args]: something left over is refused at the end *)
Definition finish (c : command) (before : list Found) (f : Found) : res Line :=
  do* raise_if (existsb fd_extra before || fd_extra f) (ESystemExit 2) in
  Ok (mkLine c (flat_map values_of before ++ values_of f) (flat_map flags_in before ++ flags_in f)
        (Nat.ltb 0 (count_of A_upgrade f)) (Nat.ltb 0 (count_of A_in_place f))
        (list_sum (map (count_of A_verbose) before)) (count_of A_verbose f) (fd_words f)).
(** _cli.py:626-631: [parser.parse_args(args)] up to the values, which are looked at in [parse_line] *)
Definition split_words (ws : list str) : res Line :=
  let* f0 := level P_main ws in
  let* '(p1, ws1) := enter P_main f0 in
  let* f1 := level p1 ws1 in
  match p1 with
  | P_command c => finish c [f0] f1
  | _ =>
    let* '(p2, ws2) := enter p1 f1 in
    let* f2 := level p2 ws2 in
    match p2 with P_command c => finish c [f0; f1] f2 | _ => Raise (ESystemExit 2) end
  end.

(** _cli.py:626-667 [main], from the words.  The variables are read first.  [--help] and [--version] end the
    process with status 0, or with 2 if a value before them is refused: which of the two is left open. *)
Inductive main_words (mc : Machine) (environ : str -> option str) (ws : list str) (t0 : tree) (h0 : history) :
  list act -> tree -> history -> list shown -> res unit -> Prop :=
| Words_variables : forall e, parse_flags (mc_lower mc) environ nil = Raise e -> main_words mc environ ws t0 h0 nil t0 h0 nil (Raise e)
| Words_refused : forall d n, parse_flags (mc_lower mc) environ nil = Ok d -> split_words ws = Raise (ESystemExit n) ->
    main_words mc environ ws t0 h0 nil t0 h0 nil (Raise (ESystemExit n))
| Words_value_refused : forall d, parse_flags (mc_lower mc) environ nil = Ok d -> split_words ws = Raise (ESystemExit 0) ->
    main_words mc environ ws t0 h0 nil t0 h0 nil (Raise (ESystemExit 2))
| Words_run : forall l sched t h out r, split_words ws = Ok l -> main mc environ l t0 h0 sched t h out r ->
    main_words mc environ ws t0 h0 sched t h out r.
End Words.
