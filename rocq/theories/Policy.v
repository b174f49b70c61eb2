(** sigstore/verify/policy.py *)
From Verif Require Import Base Codec Messages Env Cert.

(** ** OIDs (policy.py:41-65) *)
Definition fulcio_oid (n : N) : oid := [1; 3; 6; 1; 4; 1; 57264; 1; n]%N.
Definition OTHERNAME_OID : oid := fulcio_oid 7.

(** The policy classes checking one extension, policy.py:140-333.  The first six use
    raw text, the others DER. *)
Inductive ext_policy : Set :=
| OIDCIssuer | GitHubWorkflowTrigger | GitHubWorkflowSHA | GitHubWorkflowName
| GitHubWorkflowRepository | GitHubWorkflowRef
| OIDCIssuerV2 | OIDCBuildSignerURI | OIDCBuildSignerDigest | OIDCRunnerEnvironment
| OIDCSourceRepositoryURI | OIDCSourceRepositoryDigest | OIDCSourceRepositoryRef
| OIDCSourceRepositoryIdentifier | OIDCSourceRepositoryOwnerURI
| OIDCSourceRepositoryOwnerIdentifier | OIDCBuildConfigURI | OIDCBuildConfigDigest
| OIDCBuildTrigger | OIDCRunInvocationURI | OIDCSourceRepositoryVisibility.

Definition ext_oid (p : ext_policy) : oid :=
  fulcio_oid
  match p with
  | OIDCIssuer => 1 | GitHubWorkflowTrigger => 2 | GitHubWorkflowSHA => 3
  | GitHubWorkflowName => 4 | GitHubWorkflowRepository => 5 | GitHubWorkflowRef => 6
  | OIDCIssuerV2 => 8 | OIDCBuildSignerURI => 9 | OIDCBuildSignerDigest => 10
  | OIDCRunnerEnvironment => 11 | OIDCSourceRepositoryURI => 12
  | OIDCSourceRepositoryDigest => 13 | OIDCSourceRepositoryRef => 14
  | OIDCSourceRepositoryIdentifier => 15 | OIDCSourceRepositoryOwnerURI => 16
  | OIDCSourceRepositoryOwnerIdentifier => 17 | OIDCBuildConfigURI => 18
  | OIDCBuildConfigDigest => 19 | OIDCBuildTrigger => 20 | OIDCRunInvocationURI => 21
  | OIDCSourceRepositoryVisibility => 22
  end%N.

(** policy.py:68 [_SingleX509ExtPolicy] or policy.py:110 [_SingleX509ExtPolicyV2] *)
Definition is_v2 (p : ext_policy) : bool :=
  match p with
  | OIDCIssuer | GitHubWorkflowTrigger | GitHubWorkflowSHA | GitHubWorkflowName
  | GitHubWorkflowRepository | GitHubWorkflowRef => false
  | _ => true
  end.

(** [cert.extensions.get_extension_for_oid(oid).value.value]: the first extension
    with that OID, or ExtensionNotFound.  The OIDs above are not parsed by
    [cryptography], so the value is the raw content. *)
Definition get_raw_extension (c : Cert) (o : oid) : res bytes :=
  let* x := c_exts c in
  match assoc oid_eqb o (x_raw x) with Some v => Ok v | None => Raise EExtensionNotFound end.

Definition is_extension_not_found (e : exn) : bool := exn_eqb e EExtensionNotFound.

(** [bytes.decode()] *)
Definition py_decode (b : bytes) : res str :=
  match utf8_decode b with Some s => Ok s | None => Raise EUnicodeDecode end.

(** ** [cryptography.hazmat.asn1.decode_der(str, data)]

    One DER UTF8String: tag 0x0C, minimal definite length of at most four length
    bytes, contents in UTF-8, nothing after.  Everything else is a ValueError. *)
Definition der_length (b : bytes) : option (N * bytes) :=
  match b with
  | nil => None
  | l :: r =>
    let n := b2n l in
    if (n <? 128)%N then Some (n, r)
    else
      let long w lo :=
        if Nat.leb w (length r)
        then let v := unbe (firstn w r) in
             if (lo <=? v)%N then Some (v, skipn w r) else None
        else None in
      if (n =? 129)%N then long 1 128%N
      else if (n =? 130)%N then long 2 256%N
      else if (n =? 131)%N then long 3 65536%N
      else if (n =? 132)%N then long 4 16777216%N
      else None
  end.

Definition der_utf8_decode (b : bytes) : option str :=
  match b with
  | x0c :: r =>
    match der_length r with
    | Some (n, content) => if (n =? N.of_nat (length content))%N then utf8_decode content else None
    | None => None
    end
  | _ => None
  end.

Definition decode_der_str (b : bytes) : res str :=
  match der_utf8_decode b with Some s => Ok s | None => Raise EValue end.

(** policy.py:84-107 and 117-138 [verify] of both base classes *)
Definition ext_policy_verify (p : ext_policy) (value : str) (c : Cert) : res unit :=
  let* ext := try_except (get_raw_extension c (ext_oid p)) is_extension_not_found
                (fun _ => Raise EVerification) in
  let* ext_value := if is_v2 p then decode_der_str ext else py_decode ext in
  raise_if (negb (str_eqb ext_value value)) EVerification.

(** ** Identity *)

(** policy.py:444-453 [Identity.__init__]: an empty issuer counts as none *)
Definition identity_issuer (issuer : option str) : option str :=
  match issuer with Some nil => None | i => i end.

Fixpoint san_emails (l : list general_name) : list str :=
  match l with
  | nil => nil | GN_email s :: l' => s :: san_emails l' | _ :: l' => san_emails l'
  end.
Fixpoint san_uris (l : list general_name) : list str :=
  match l with
  | nil => nil | GN_uri s :: l' => s :: san_uris l' | _ :: l' => san_uris l'
  end.
(** policy.py:467-473: other-names with the Fulcio type id, [value.decode()] *)
Fixpoint san_others (l : list general_name) : res (list str) :=
  match l with
  | nil => Ok nil
  | GN_other o v :: l' =>
    if oid_eqb o OTHERNAME_OID then
      let* s := py_decode v in let* r := san_others l' in Ok (s :: r)
    else san_others l'
  | _ :: l' => san_others l'
  end.

(** policy.py:457-479 [Identity.verify] *)
Definition identity_verify (identity : str) (issuer : option str) (c : Cert) : res unit :=
  do* match identity_issuer issuer with
      | Some i => ext_policy_verify OIDCIssuer i c
      | None => Ok tt
      end in
  let* x := c_exts c in
  match x_san x with
  | None => Raise EExtensionNotFound
  | Some sans =>
    let* others := san_others sans in
    let all_sans := san_emails sans ++ san_uris sans ++ others in
    raise_if (negb (existsb (str_eqb identity) all_sans)) EVerification
  end.

(** ** Policies

    [P_user] is any other object with a [verify] method (the [VerificationPolicy]
    protocol, policy.py:336-347). *)
Inductive policy : Type :=
| P_ext (p : ext_policy) (value : str)
| P_identity (identity : str) (issuer : option str)
| P_any (children : list policy)
| P_all (children : list policy)
| P_noop
| P_user (verify : Cert -> res unit).

(** policy.py:361-377 [AnyOf.verify], 392-407 [AllOf.verify], 422-429 [UnsafeNoOp.verify].
    Python's recursion limit is not modelled. *)
Fixpoint policy_verify (p : policy) (c : Cert) : res unit :=
  match p with
  | P_ext k v => ext_policy_verify k v c
  | P_identity i iss => identity_verify i iss c
  | P_any children =>
    (fix any l :=
       match l with
       | nil => Raise EVerification
       | ch :: l' =>
         match policy_verify ch c with
         | Ok _ => Ok tt
         | Raise e => if is_verification_error e then any l' else Raise e
         end
       end) children
  | P_all children =>
    match children with
    | nil => Raise EVerification
    | _ => (fix all l :=
              match l with
              | nil => Ok tt
              | ch :: l' => do* policy_verify ch c in all l'
              end) children
    end
  | P_noop => Ok tt
  | P_user f => f c
  end.
