(** sigstore/_utils.py: certificate classification. *)
From Verif Require Import Base Messages Env.

(** [ExtendedKeyUsageOID.CODE_SIGNING] *)
Definition OID_CODE_SIGNING : oid := [1; 3; 6; 1; 5; 5; 7; 3; 3]%N.
(** [ExtendedKeyUsageOID.CERTIFICATE_TRANSPARENCY] *)
Definition OID_CT : oid := [1; 3; 6; 1; 4; 1; 11129; 2; 4; 4]%N.

Definition oid_eqb : oid -> oid -> bool := list_eqb N.eqb.
(** [oid in ext.value] *)
Definition oid_in (o : oid) (l : list oid) : bool := existsb (oid_eqb o) l.

(** _utils.py:222-283 [cert_is_ca] *)
Definition cert_is_ca (c : Cert) : res bool :=
  do* raise_if (negb (c_is_v3 c)) EVerification in
  let* x := c_exts c in
  match x_bc x with
  | None => Ok false
  | Some (critical, ca) =>
    do* raise_if (negb critical) EVerification in
    match x_ku x with
    | None => Raise EVerification
    | Some (_, key_cert_sign) =>
      if ca && key_cert_sign then Ok true
      else if negb (ca || key_cert_sign) then Ok false
      else Raise EVerification
    end
  end.

(** _utils.py:286-313 [cert_is_root_ca] *)
Definition cert_is_root_ca (env : Env) (c : Cert) : res bool :=
  do* raise_if (negb (c_is_v3 c)) EVerification in
  let* ca := cert_is_ca c in
  if negb ca then Ok false
  else match e_self_issued env c with Ok _ => Ok true | Raise _ => Ok false end.

(** _utils.py:316-357 [cert_is_leaf] *)
Definition cert_is_leaf (c : Cert) : res bool :=
  do* raise_if (negb (c_is_v3 c)) EVerification in
  let* ca := cert_is_ca c in
  if ca then Ok false
  else
    let* x := c_exts c in
    match x_ku x with
    | None => Raise EExtensionNotFound
    | Some (digital_signature, _) =>
      do* raise_if (negb digital_signature) EVerification in
      match x_eku x with
      | None => Raise EVerification
      | Some ekus => Ok (oid_in OID_CODE_SIGNING ekus)
      end
    end.
