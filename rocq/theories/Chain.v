(** How the certificate chain of a signer is found (verifier.py:250-281).

    The code hands everything to [cryptography.x509.verification]; elsewhere in this model that
    call is the oracle [e_chain].  Here the call itself is modelled: what the code passes (the
    certificates of the trusted root as store, the time, no further certificates), and the path
    search of the library.  The library is written in Rust and is not part of /repo; its algorithm
    (version 44 and later, [cryptography-x509-verification], [ChainBuilder]) is modelled from its
    documentation.  What it asks about single certificates (names, signatures, extension policies,
    name constraints) stays abstract, in the record [PathLib]. *)

From Verif Require Import Base Messages Env.

(** Library, called at verifier.py:277: outcome of the name constraints of a certificate for the certificates below it. *)
Inductive names := NamesOk | NamesViolated | NamesFatal.

(** What the library asks about single certificates; policies as set at verifier.py:261-266. *)
Record PathLib := mkPathLib {
  (** subject and issuer name, encoded *)
  pl_subject : Cert -> bytes;
  pl_issuer : Cert -> bytes;
  (** no extension occurs twice *)
  pl_readable : Cert -> bool;
  (** the certificate has a form allowed for a signer, under the extension policy
      verifier.py:264-266: the defaults of the web, with any extended key usage *)
  pl_ee_form : Cert -> bool;
  (** the certificate has a form allowed for an authority with [n] authorities below it, under the
      extension policy verifier.py:261-263 (CA flag, keyCertSign, path length, serial number, ...) *)
  pl_ca_form : nat -> Cert -> bool;
  (** the signature of the second certificate is one by the key of the first *)
  pl_signed_by : Cert -> Cert -> bool;
  (** the name constraints of a certificate, for the certificates below it *)
  pl_names : list Cert -> Cert -> names;
  (** the general names in the certificate can be turned into Python objects *)
  pl_general_names : Cert -> res unit
}.

(** verifier.py:270 [PolicyBuilder().time(t)]: the library works with whole seconds *)
Definition whole_seconds (t : time) : Z := (t / 1000000)%Z.

(** Library, with the time of verifier.py:270: the certificate is within its validity at [t]. *)
Definition valid_at (t : time) (c : Cert) : bool :=
  ((whole_seconds (c_not_before c) <=? whole_seconds t) && (whole_seconds t <=? whole_seconds (c_not_after c)))%Z.

(** Library, [Store.contains] of the store of verifier.py:269: the very same certificate *)
Definition in_store (roots : list Cert) (c : Cert) : bool :=
  existsb (fun k => bytes_eqb (c_der k) (c_der c)) roots.

Section Path.
Variable lib : PathLib.

(** Library, called at verifier.py:277, [ChainBuilder.potential_issuers]: by name, first those of the store *)
Definition potential_issuers (roots more : list Cert) (c : Cert) : list Cert :=
  filter (fun k => bytes_eqb (pl_subject lib k) (pl_issuer lib c)) (roots ++ more).

(** Library, called at verifier.py:277, [Policy.valid_issuer] *)
Definition valid_issuer (t : time) (depth : nat) (k c : Cert) : bool :=
  valid_at t k && pl_ca_form lib depth k && pl_signed_by lib k c.

(** Library, called at verifier.py:277: outcome of the search: a chain, no chain, or an error that ends the search. *)
Inductive found := Found (l : list Cert) | NotFound | Fatal.

(** Library, called at verifier.py:277: the loop over the candidates: the first one that is a valid issuer and leads to the store wins.
    A candidate whose extensions cannot be read ends the loop. *)
Fixpoint try_issuers (t : time) (depth : nat) (c : Cert) (up : Cert -> found) (cands : list Cert) : found :=
  match cands with
  | [] => NotFound
  | k :: rest =>
      if negb (pl_readable lib k) then NotFound
      else if valid_issuer t depth k c then
        match up k with
        | Found l => Found (c :: l)
        | Fatal => Fatal
        | NotFound => try_issuers t depth c up rest
        end
      else try_issuers t depth c up rest
  end.

(** Library, called at verifier.py:277, [ChainBuilder.build_chain_inner]; [left] is how many further steps the depth limit allows. *)
Fixpoint build_inner (roots more : list Cert) (t : time) (left depth : nat) (below : list Cert) (c : Cert) : found :=
  match pl_names lib below c with
  | NamesViolated => NotFound
  | NamesFatal => Fatal
  | NamesOk =>
      if in_store roots c then Found [c]
      else
        match left with
        | O => NotFound
        | S left' =>
            try_issuers t depth c (build_inner roots more t left' (S depth) (c :: below))
              (potential_issuers roots more c)
        end
  end.

(** verifier.py:268: [PolicyBuilder]'s default [max_chain_depth] is 8. *)
Definition max_chain_depth : nat := 8.

(** Library, called at verifier.py:277, [ChainBuilder.build_chain] *)
Definition build_chain (roots more : list Cert) (t : time) (c : Cert) : found :=
  if negb (pl_readable lib c) then NotFound
  else if negb (valid_at t c && pl_ee_form lib c) then NotFound
  else build_inner roots more t (S max_chain_depth) 0 [] c.

(** verifier.py:267-277: [Store(certs)] raises ValueError for no certificates; [verify(cert, [])]
    passes no further certificates, raises [x509.verification.VerificationError] if there is no
    chain, and turns the names of the signer into Python objects. *)
Definition python_chain (roots : list Cert) (t : time) (c : Cert) : res (list Cert) :=
  match roots with
  | [] => Raise EValue
  | _ :: _ =>
      match build_chain roots [] t c with
      | Found l => do* pl_general_names lib c in Ok l
      | NotFound | Fatal => Raise EX509Verification
      end
  end.
End Path.
