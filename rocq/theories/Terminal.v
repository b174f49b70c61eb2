(** sigstore/_cli.py: what [sigstore sign] and [sigstore attest] show on the terminal, and at which level of logging.

    Left out, all of them independent of the identity: warnings about keys of the trusted root that cannot be loaded
    (trust.py:161), the constant line of _cli.py:782, the lines of the interactive flow (see Oauth.v) and, of the lines
    of level DEBUG, all but the first (_cli.py:639).  The texts of exceptions are not modelled. *)
From Verif Require Import Base Codec Messages Env Keyring Cert Dsse KeyDetails Policy TrustedRoot SigningConfig Hashing Json Http
  Oidc Oauth LogEntry Bundle Verifier RekorClient Clients Tuf PyText CliVerify CliTrust Sign SignSteps Predicate CliSign CliEnv CliMain.

(** ** Levels *)

(** [logging]: names and numbers of the levels *)
Definition LEVELS : list (str * Z) :=
  [(s2l "CRITICAL", 50%Z); (s2l "FATAL", 50%Z); (s2l "ERROR", 40%Z); (s2l "WARN", 30%Z); (s2l "WARNING", 30%Z); (s2l "INFO", 20%Z);
   (s2l "DEBUG", 10%Z); (s2l "NOTSET", 0%Z)].
(** _cli.py:71: the level of the package's logger when the module is loaded; [up] is [str.upper] of a character.  Another
    name is an error of [setLevel]. *)
Definition initial_level (up : N -> str) (environ : str -> option str) : res Z :=
  match assoc str_eqb (flat_map up (given (environ (s2l "SIGSTORE_LOGLEVEL")) (s2l "INFO"))) LEVELS with
  | Some n => Ok n
  | None => Raise EValue
  end.
(** _cli.py:633-637: with [--verbose] it is DEBUG.  A logger without a level (0) uses that of the root logger, which is
    WARNING unless [--verbose] is given twice. *)
Definition effective_level (initial : Z) (verbose : nat) : Z :=
  if Nat.leb 1 verbose then 10%Z else if (initial =? 0)%Z then 30%Z else initial.

(** ** The arguments as text *)

(** [repr] of a string.  Simplified: characters that are not ASCII are shown as they are. *)
Definition hex_digit (n : N) : N := (if n <? 10 then 48 + n else 87 + n)%N.
Definition repr_char (quote : N) (c : N) : str :=
  if (c =? 92)%N || (c =? quote)%N then [92%N; c]
  else if (c =? 10)%N then [92%N; 110%N]
  else if (c =? 13)%N then [92%N; 114%N]
  else if (c =? 9)%N then [92%N; 116%N]
  else if (c <? 32)%N || (c =? 127)%N then [92%N; 120%N; hex_digit (c / 16); hex_digit (c mod 16)]
  else [c].
Definition py_repr (s : str) : str :=
  let quote := if existsb (N.eqb 39) s && negb (existsb (N.eqb 34) s) then 34%N else 39%N in
  quote :: flat_map (repr_char quote) s ++ [quote].

(** the names of the attributes: the options of _cli.py:138-236, 252-446 *)
Definition dest (o : opt) : str :=
  match o with
  | O_trust_config => s2l "trust_config" | O_instance => s2l "instance" | O_identity_token => s2l "identity_token"
  | O_client_id => s2l "oidc_client_id" | O_client_secret => s2l "oidc_client_secret" | O_issuer => s2l "oidc_issuer"
  | O_rekor_version => s2l "rekor_version" | O_predicate => s2l "predicate" | O_predicate_type => s2l "predicate_type"
  | O_signature => s2l "signature" | O_certificate => s2l "certificate" | O_bundle => s2l "bundle"
  | O_output_directory => s2l "output_directory" | O_cert_identity => s2l "cert_identity" | O_cert_issuer => s2l "cert_oidc_issuer"
  | O_trigger => s2l "workflow_trigger" | O_sha => s2l "workflow_sha" | O_name => s2l "workflow_name"
  | O_repository => s2l "workflow_repository" | O_ref => s2l "workflow_ref"
  end.
(** _cli.py:639: [f"parsed arguments {args}"], that is [repr] of a [Namespace].  Simplified: only the options that have a
    value, paths and numbers shown like strings. *)
Definition option_text (ns : Namespace) (o : opt) : str :=
  match ns_value ns o with Some s => dest o ++ s2l "=" ++ py_repr s ++ s2l ", " | None => nil end.
Definition arguments_text (ns : Namespace) : str :=
  s2l "parsed arguments Namespace(" ++ flat_map (option_text ns) all_opts ++ s2l ")".

(** ** What is said *)

Inductive said : Type :=
| Sd_arguments (text : str)      (* _cli.py:639 *)
| Sd_certificate (der : bytes)   (* _cli.py:783-784, printed *)
| Sd_no_timestamp (url : str)    (* sign.py:199-201 *)
| Sd_index (n : Z)               (* _cli.py:729-731 *)
| Sd_expired_identity            (* _cli.py:722 *)
| Sd_expired_certificate         (* _cli.py:726 *)
| Sd_output (o : output)         (* _cli.py:804-811, printed *)
| Sd_error (e : exn).            (* errors.py:42 *)
(** the level; [None]: printed *)
Definition level (x : said) : option Z :=
  match x with
  | Sd_arguments _ => Some 10%Z
  | Sd_certificate _ | Sd_output _ => None
  | Sd_no_timestamp _ => Some 30%Z
  | Sd_index _ => Some 20%Z
  | Sd_expired_identity | Sd_expired_certificate | Sd_error _ => Some 40%Z
  end.
Definition visible (threshold : Z) (x : said) : bool := match level x with Some n => (threshold <=? n)%Z | None => true end.

Section Said.
Variable tl : Tools.
Let libs := tl_libs tl.
Let out := tl_out tl.

(** _cli.py:697-745 [_sign_file_threaded] and sign.py:194-201: what a step of a job says (see [job_step]) *)
Definition job_said (h : history) (ph : phase) : list said :=
  match ph with
  | Ph_signing (P_next ev _) =>
    match ev h with
    | EvTsa u sg =>
      match request_timestamp (l_env libs) (o_tsa_query out h) (o_tsa out h) u sg with
      | Raise e => if exn_eqb e ETimestamp then [Sd_no_timestamp u] else nil
      | Ok _ => nil
      end
    | _ => nil
    end
  | Ph_signing (P_done (Ok b)) => [Sd_index (le_log_index (b_entry b))]
  | Ph_signing (P_done (Raise e)) =>
    if exn_eqb e EExpiredIdentity then [Sd_expired_identity] else if exn_eqb e EExpiredCertificate then [Sd_expired_certificate] else nil
  | _ => nil
  end.
(** the steps of [sys_step] *)
Definition act_said (jobs : list Job) (y : Sys) (x : act) : list said :=
  match x with
  | A_other _ _ => nil
  | A_job i _ => match nth_error jobs i, nth_error (y_phases y) i with Some _, Some ph => job_said (y_hist y) ph | _, _ => nil end
  end.
Fixpoint sys_said (s : Signer) (predicate : option (str * json)) (jobs : list Job) (sched : list act) (y : Sys) : list said :=
  match sched with
  | nil => nil
  | x :: rest => act_said jobs y x ++ sys_said s predicate jobs rest (sys_step tl s predicate jobs y x)
  end.
(** errors.py:33-47, of an exception that reaches [main] *)
Definition final_said (r : res unit) : list said :=
  match r with Raise e => if is_sigstore_error e then [Sd_error e] else nil | Ok _ => nil end.

(** _cli.py:748-811 [_sign_common] and 626-667 [main]: [common_run] with all that is said *)
Inductive common_said (a : CommonArgs) (predicate : option (str * json)) (h0 : history)
  : tree * res OutputMap -> list act -> tree -> history -> list said -> res unit -> Prop :=
| Said_refused : forall t e, common_said a predicate h0 (t, Raise e) nil t h0 (final_said (Raise e)) (main_handler (ca_verbose a) (Raise e))
| Said_no_signer : forall t m h e, setup tl a t h0 = (h, Raise e) ->
    common_said a predicate h0 (t, Ok m) nil t h (final_said (Raise e)) (main_handler (ca_verbose a) (Raise e))
| Said_jobs : forall t m h s sched y r, setup tl a t h0 = (h, Ok s) ->
    sys_run tl s predicate (jobs_of m) sched (sys_start (jobs_of m) t h) = y ->
    finish (y_phases y) r ->
    common_said a predicate h0 (t, Ok m) sched (y_tree y) (y_hist y)
      (match sg_cert s with Some c => [Sd_certificate (c_der c)] | None => nil end ++
       sys_said s predicate (jobs_of m) sched (sys_start (jobs_of m) t h) ++
       match r with Ok _ => map Sd_output (written m) | Raise _ => nil end ++ final_said r)
      (main_handler (ca_verbose a) r).

Definition sign_said (a : SignArgs) (t0 : tree) (h0 : history) : list act -> tree -> history -> list said -> res unit -> Prop :=
  common_said (sa_common a) None h0 (sign_prepare tl a t0).
Definition attest_said (a : AttestArgs) (t0 : tree) (h0 : history) : list act -> tree -> history -> list said -> res unit -> Prop :=
  let '(t1, r) := attest_prepare tl a t0 in
  match r with
  | Raise e => common_said (aa_common a) None h0 (t1, Raise e)
  | Ok (m, j) => common_said (aa_common a) (Some (aa_predicate_type a, j)) h0 (t1, Ok m)
  end.
End Said.

(** ** The terminal *)

(** _cli.py:71 and 626-667 [main], for the two commands that sign: what appears on the terminal *)
Inductive terminal (mc : Machine) (up : N -> str) (environ : str -> option str) (l : Line) (t0 : tree) (h0 : history)
  : list act -> tree -> history -> list said -> res unit -> Prop :=
| Term_level : forall e, initial_level up environ = Raise e -> terminal mc up environ l t0 h0 nil t0 h0 nil (Raise e)
| Term_usage : forall n e, initial_level up environ = Ok n -> parse_line (mc_lower mc) (mc_int mc) environ l = Raise e ->
    terminal mc up environ l t0 h0 nil t0 h0 nil (Raise e)
| Term_run : forall n ns sched t h lines r, initial_level up environ = Ok n -> parse_line (mc_lower mc) (mc_int mc) environ l = Ok ns ->
    (ns_command ns = C_sign /\ sign_said (mc_tools mc) (sign_args ns) t0 h0 sched t h lines r \/
     ns_command ns = C_attest /\ attest_said (mc_tools mc) (attest_args ns) t0 h0 sched t h lines r) ->
    terminal mc up environ l t0 h0 sched t h
      (filter (visible (effective_level n (ns_verbose ns))) (Sd_arguments (arguments_text ns) :: lines)) r.
