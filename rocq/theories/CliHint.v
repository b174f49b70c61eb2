(** What the verification commands log besides the lines of CliVerify.v: the hint about the instance and the
    explanations of errors. *)
From Verif Require Import Base Codec Messages Env Keyring Policy TrustedRoot Hashing LogEntry Bundle Verifier Dsse CliVerify.

(** [S_hint]: "A certificate chain was not valid, are you using the correct Sigstore instance?";
    [S_explained e again]: the diagnostics of [e], with the remark that it is raised again or with the advice to use
    [--verbose].  The text of the diagnostics is in Diagnose.v.  Simplified: debug messages are not modelled. *)
Inductive said : Type := S_line (l : line) | S_hint | S_explained (e : exn) (again : bool).

(** errors.py:33-50 [Error.log_and_exit] *)
Definition log_and_exit_s {A} (raise_error : bool) (e : exn) : list said * res A := ([S_explained e raise_error], log_and_exit raise_error e).

(** _cli.py:1153-1160 and 1206-1213: the [except] clause of the loops *)
Definition failed (verbose : bool) (x : item) (e : exn) : list said * res unit :=
  if is_sigstore_error e then
    let (out, r) := log_and_exit_s verbose e in
    ((if exn_eqb e ECertValidation then [S_hint] else nil) ++ S_line (L_fail x) :: out, r)
  else (nil, Raise e).

Section Hint.
Variable env : Env.
Variable ps : Parsers.
Variable w : World.

(** _cli.py:1142-1160 and 1196-1213: the loops over the inputs *)
Fixpoint verify_loop_s (verbose : bool) (show : Statement -> res line) (v : Verifier) (p : policy) (all : list (item * (Hashed * Bundle)))
  : list said * res unit :=
  match all with
  | nil => (nil, Ok tt)
  | (x, (hashed, b)) :: rest =>
    match verify_common env ps w (w_when w x) v hashed b p with
    | Ok None => let (out, r) := verify_loop_s verbose show v p rest in (S_line (L_ok x) :: out, r)
    | Ok (Some st) =>
      match show st with
      | Ok l => let (out, r) := verify_loop_s verbose show v p rest in (S_line (L_ok x) :: S_line l :: out, r)
      | Raise e => let (out, r) := failed verbose x e in (S_line (L_ok x) :: out, r)
      end
    | Raise e => failed verbose x e
    end
  end.

(** _cli.py:626-667 [main]: the [except] clause around the commands *)
Definition main_handler_s (verbose : bool) (o : list said * res unit) : list said * res unit :=
  match snd o with
  | Raise e => if is_sigstore_error e then let (out, r) := log_and_exit_s verbose e in (fst o ++ out, r) else o
  | Ok _ => o
  end.

(** _cli.py:1139-1160 [_verify_identity], 1163-1213 [_verify_github], from the collected inputs on *)
Definition run_verify_s (a : VerifyArgs) (show : Statement -> res line) (p : policy) : list said * res unit :=
  match collect_verification_state env w a with
  | Raise e => (nil, Raise e)
  | Ok (v, all) => verify_loop_s (va_verbose a) show v p all
  end.
Definition verify_identity_s (a : VerifyArgs) (identity issuer : str) : list said * res unit :=
  main_handler_s (va_verbose a) (run_verify_s a show_decoded (P_identity identity (Some issuer))).
Definition verify_github_s (a : VerifyArgs) (g : GithubArgs) : list said * res unit :=
  if negb (is_some (truthy (gh_identity g)) || is_some (truthy (gh_repository g))) then (nil, invalid_arguments)
  else main_handler_s (va_verbose a) (run_verify_s a show_repr (github_policy g)).
End Hint.
