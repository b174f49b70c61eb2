(** sigstore/_internal/sct.py *)
From Verif Require Import Base Codec Messages Env Keyring Cert FloatMs.

Definition entry_type_value (t : entry_type) : N :=
  match t with X509_CERTIFICATE => 0 | PRE_CERTIFICATE => 1 | OTHER_ENTRY n => n end.

(** [struct.pack] of an unsigned integer field of [w] bytes *)
Definition pack_uint (w : nat) (z : Z) : res bytes :=
  if ((0 <=? z) && (z <? 256 ^ Z.of_nat w))%Z then Ok (be w (Z.to_N z)) else Raise EStruct.

(** sct.py:71-88: [struct.pack("!I", len)] decomposed into 4 bytes *)
Definition pack_u24 (len : Z) : res bytes :=
  let* four := pack_uint 4 len in
  match four with
  | unused :: rest =>
    do* raise_if (negb (byte_eqb unused x00)) EVerification in Ok rest
  | nil => Raise EStruct
  end.

(** sct.py:48-88 [_pack_signed_entry] *)
Definition pack_signed_entry (s : SCT) (c : Cert) (issuer_key_id : option bytes) : res bytes :=
  let* '(prefix, cert_der) :=
    match sct_entry_type s with
    | X509_CERTIFICATE => Ok (nil, c_der c)
    | PRE_CERTIFICATE =>
      match issuer_key_id with
      | None => Raise EVerification
      | Some k =>
        do* raise_if (negb (Nat.eqb (length k) 32)) EVerification in
        let* tbs := c_tbs_precert c in
        Ok (k, tbs)
      end
    | OTHER_ENTRY _ => Raise EVerification
    end in
  let* len := pack_u24 (Z.of_nat (length cert_der)) in
  Ok (prefix ++ len ++ cert_der).

(** sct.py:91-126 [_pack_digitally_signed] *)
Definition pack_digitally_signed (s : SCT) (c : Cert) (issuer_key_id : option bytes) : res bytes :=
  let* signed_entry := pack_signed_entry s c issuer_key_id in
  let* v := pack_uint 1 (Z.of_N (sct_version s)) in
  let* st := pack_uint 1 0 in
  let* ts := pack_uint 8 (float_ms (sct_timestamp s)) in
  let* et := pack_uint 2 (Z.of_N (entry_type_value (sct_entry_type s))) in
  let* xl := pack_uint 2 (Z.of_nat (length (sct_extensions s))) in
  Ok (v ++ st ++ ts ++ et ++ signed_entry ++ xl ++ sct_extensions s).

(** sct.py:129-136 [_is_preissuer] *)
Definition is_preissuer (issuer : Cert) : res bool :=
  let* x := c_exts issuer in
  match x_eku x with
  | None => Ok false
  | Some ekus => Ok (oid_in OID_CT ekus)
  end.

(** sct.py:139-143 [_get_issuer_cert] *)
Definition get_issuer_cert (chain : list Cert) : res Cert :=
  let* issuer := index_list chain 0 in
  let* pre := is_preissuer issuer in
  if pre then index_list chain 1 else Ok issuer.

(** sct.py:146-167 [_get_signed_certificate_timestamp] *)
Definition get_sct (c : Cert) : res SCT :=
  let* x := c_exts c in
  match x_scts x with
  | None => Raise EVerification
  | Some [s] => Ok s
  | Some _ => Raise EVerification
  end.

(** sct.py:170-177 [_cert_is_ca]: the result of [cert_is_ca] is dropped *)
Definition sct_cert_is_ca (c : Cert) : res bool :=
  try_except (let* _ca := cert_is_ca c in Ok true) is_verification_error (fun _ => Ok false).

Section Sct.
Variable env : Env.

Definition is_rsa_or_ec (k : pubkey) : bool :=
  match pk_kind k with KRsa _ | KEc _ => true | _ => false end.

Definition is_precert (t : entry_type) : bool :=
  match t with PRE_CERTIFICATE => true | _ => false end.

Definition is_sha256 (h : option hash_alg) : bool :=
  match h with Some SHA256 => true | _ => false end.

(** sct.py:180-235 [verify_sct] *)
Definition verify_sct (c : Cert) (chain : list Cert) (kr : keyring) : res unit :=
  let* s := get_sct c in
  let* issuer_key_id :=
    if is_precert (sct_entry_type s) then
      let* issuer := get_issuer_cert chain in
      let* pk := c_pubkey issuer in
      let* ca := sct_cert_is_ca issuer in
      do* raise_if (negb ca) EVerification in
      do* raise_if (negb (is_rsa_or_ec pk)) EVerification in
      Ok (Some (key_id env pk))
    else Ok None in
  let* signed := pack_digitally_signed s c issuer_key_id in
  do* raise_if (negb (is_sha256 (sct_hash s))) EVerification in
  try_except (keyring_verify env kr (sct_log_id s) (sct_signature s) signed)
    is_verification_error (fun _ => Raise EVerification).
End Sct.
