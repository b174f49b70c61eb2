(** The explanations of errors that the commands log (errors.py, models.py, oidc.py: [diagnostics]). *)
From Coq Require Import List NArith Bool String.
Import ListNotations.
From Verif Require Import Base PyText Tuf.
Open Scope N_scope.

(** An exception object: its class, [str(e)], [e.__cause__] (set by [raise ... from ...]) and [e.__context__] (the exception
    being handled when it was raised).  Simplified: exceptions have no further attributes; [TUFError.message] is the one
    argument of the exception (errors.py:81-83) and so its [str]; every exception object is true, as no class
    used here defines [__bool__] or [__len__]. *)
Inductive pyexc : Type := Exc (cls : exn) (text : str) (cause context : option pyexc).
Definition cls_of (e : pyexc) : exn := match e with Exc c _ _ _ => c end.
Definition text_of (e : pyexc) : str := match e with Exc _ t _ _ => t end.
Definition cause_of (e : pyexc) : option pyexc := match e with Exc _ _ c _ => c end.
Definition context_of (e : pyexc) : option pyexc := match e with Exc _ _ _ c => c end.

(** oidc.py:381: the class [id.GitHubOidcPermissionCredentialError]; simplified: it has no subclasses. *)
Definition EGitHubPermission : exn := EBackend 31.

(** [textwrap.dedent] of Python's library, used in models.py:315 and models.py:336: lines of blanks become empty, and the longest common
    leading blanks of the other lines are removed from each.  The library computes the common prefix of the
    indentations in one loop with three cases; here it is [common]. *)
Definition is_blank (c : N) : bool := (c =? 32) || (c =? 9).
Fixpoint leading (l : str) : str :=
  match l with c :: r => if is_blank c then c :: leading r else nil | nil => nil end.
Fixpoint common (a b : str) : str :=
  match a, b with x :: a', y :: b' => if x =? y then x :: common a' b' else nil | _, _ => nil end.
Definition without_blanks (l : str) : str := if forallb is_blank l then nil else l.
Definition some_text (l : str) : bool := match l with nil => false | _ => true end.
Definition margin (ls : list str) : str :=
  match map leading (filter some_text ls) with nil => nil | i :: r => fold_left common r i end.
Definition dedent (s : str) : str :=
  let ls := map without_blanks (split_on 10 s) in
  let m := length (margin ls) in
  join_on 10 (map (skipn m) ls).

(** errors.py:55-75 [NetworkError.diagnostics] *)
Definition network_diagnostics (cause : option str) : str :=
  s2l "        A network issue occurred.

        Check your internet connection and try again.
        " ++
  match cause with
  | Some t => s2l "
        Additional context:

        " ++ t ++ s2l "
        "
  | None => nil
  end.

(** errors.py:87-89 [TUFError._details], errors.py:91-103 [TUFError.diagnostics]: the key of the table is compared with the exact class of
    the context, not with [isinstance]. *)
Definition tuf_details (context : option exn) : str :=
  match context with
  | Some c => if exn_eqb EDownload c then network_diagnostics None
              else s2l "Please check any Sigstore instance related arguments and consider reporting the issue at <https://github.com/sigstore/sigstore-python/issues/new>."
  | None => s2l "Please check any Sigstore instance related arguments and consider reporting the issue at <https://github.com/sigstore/sigstore-python/issues/new>."
  end.
Definition tuf_diagnostics (message : str) (context : option exn) : str :=
  s2l "        " ++ message ++ s2l ".

        " ++ tuf_details context ++ s2l "
        ".

(** errors.py:117-122 [RootError.diagnostics] *)
Definition root_diagnostics : str :=
  s2l "        Unable to establish root of trust.

        This error may occur when the resources embedded in this distribution of sigstore-python are out of date.".

(** models.py:312-325 [InvalidBundle.diagnostics] *)
Definition invalid_bundle_diagnostics (text : str) : str :=
  dedent (s2l "        An issue occurred while parsing the Sigstore bundle.

        The provided bundle is malformed and may have been modified maliciously.

        Additional context:

        " ++ text ++ s2l "
        ").

(** models.py:333-344 [IncompatibleEntry.diagnostics] *)
Definition incompatible_diagnostics (text : str) : str :=
  dedent (s2l "        The provided bundle contains a transparency log entry that is incompatible with this version of sigstore-python. Please upgrade your verifying client.

        Additional context:

        " ++ text ++ s2l "
        ").

(** oidc.py:379-415 [IdentityError.diagnostics] *)
Definition identity_diagnostics (text : str) (cause : option (exn * str)) : str :=
  match cause with
  | Some (c, t) =>
    if exn_eqb EGitHubPermission c then
      s2l "
                Insufficient permissions for GitHub Actions workflow.

                The most common reason for this is incorrect
                configuration of the top-level `permissions` setting of the
                workflow YAML file. It should be configured like so:

                    permissions:
                      id-token: write

                Relevant documentation here:

                    https://docs.github.com/en/actions/deployment/security-hardening-your-deployments/about-security-hardening-with-openid-connect#adding-permissions-settings

                Another possible reason is that the workflow run has been
                triggered by a PR from a forked repository. PRs from forked
                repositories typically cannot be granted write access.

                Relevant documentation here:

                    https://docs.github.com/en/actions/security-guides/automatic-token-authentication#modifying-the-permissions-for-the-github_token

                Additional context:

                " ++ t ++ s2l "
                "
    else
      s2l "
                An issue occurred with ambient credential detection.

                Additional context:

                " ++ text ++ s2l "
            "
  | None =>
      s2l "
                An issue occurred with ambient credential detection.

                Additional context:

                " ++ text ++ s2l "
            "
  end.

(** [e.diagnostics()]: errors.py:28-31 [Error.diagnostics], inherited by [VerificationError], [CertValidationError] and
    [InvalidEnvelope]; errors.py:109-111 [MetadataError.diagnostics]; and the methods above.  Only the classes derived
    from [Error] have the method; for the other classes the result means nothing. *)
Definition diagnostics (e : pyexc) : str :=
  match cls_of e with
  | ENetwork => network_diagnostics (option_map text_of (cause_of e))
  | ETUF => tuf_diagnostics (text_of e) (option_map cls_of (context_of e))
  | EMetadata => text_of e ++ s2l "."
  | ERoot => root_diagnostics
  | EInvalidBundle => invalid_bundle_diagnostics (text_of e)
  | EIncompatibleEntry => incompatible_diagnostics (text_of e)
  | EIdentity => identity_diagnostics (text_of e) (option_map (fun c => (cls_of c, text_of c)) (cause_of e))
  | _ => text_of e
  end.

(** errors.py:33-42 [Error.log_and_exit]: the text of the message that is logged. *)
Definition explanation (e : pyexc) (raise_error : bool) : str :=
  diagnostics e ++ 10 ::
  (if raise_error then s2l "Raising original exception:"
   else s2l "For detailed error information, run sigstore with the `--verbose` flag.").

(** oidc.py:375-377 [IdentityError.raise_from_id], called in oidc.py:423-424 while [exc] is handled. *)
Definition raise_from_id (exc : pyexc) : pyexc := Exc EIdentity (text_of exc) (Some exc) (Some exc).

(** [raise cls(text) from exc] while [exc] is handled: _internal/tuf.py:128-129, 148-149, 171-172; oidc.py:255-257, 350-352; oidc.py:100-103. *)
Definition raise_from (c : exn) (text : str) (exc : pyexc) : pyexc := Exc c text (Some exc) (Some exc).
