(** sigstore/_internal/key_details.py *)
From Verif Require Import Base Messages Env Keyring Dsse.

(** key_details.py:41-85 [_ALGORITHM_REGISTRY]: hash algorithm and hash function *)
Definition ALGORITHM_REGISTRY : list (key_details * option (hash_algorithm * hash_alg)) :=
  [ (PKIX_RSA_PKCS1V15_2048_SHA256, Some (HA_SHA2_256, SHA256));
    (PKIX_RSA_PKCS1V15_3072_SHA256, Some (HA_SHA2_256, SHA256));
    (PKIX_RSA_PKCS1V15_4096_SHA256, Some (HA_SHA2_256, SHA256));
    (PKIX_ECDSA_P256_SHA_256, Some (HA_SHA2_256, SHA256));
    (PKIX_ECDSA_P384_SHA_384, Some (HA_SHA2_384, SHA384));
    (PKIX_ECDSA_P521_SHA_512, Some (HA_SHA2_512, SHA512));
    (PKIX_ED25519, None);
    (PKIX_ED25519_PH, Some (HA_SHA2_512, SHA512)) ].

Definition key_details_eqb (a b : key_details) : bool :=
  match a, b with
  | PKCS1_RSA_PKCS1V5, PKCS1_RSA_PKCS1V5
  | PKIX_RSA_PKCS1V15_2048_SHA256, PKIX_RSA_PKCS1V15_2048_SHA256
  | PKIX_RSA_PKCS1V15_3072_SHA256, PKIX_RSA_PKCS1V15_3072_SHA256
  | PKIX_RSA_PKCS1V15_4096_SHA256, PKIX_RSA_PKCS1V15_4096_SHA256
  | PKIX_ECDSA_P256_SHA_256, PKIX_ECDSA_P256_SHA_256
  | PKIX_ECDSA_P384_SHA_384, PKIX_ECDSA_P384_SHA_384
  | PKIX_ECDSA_P521_SHA_512, PKIX_ECDSA_P521_SHA_512
  | PKIX_ED25519, PKIX_ED25519 | PKIX_ED25519_PH, PKIX_ED25519_PH => true
  | KD_other n, KD_other m => Nat.eqb n m
  | _, _ => false
  end.

(** key_details.py:92-99 [_get_algorithm_details] *)
Definition get_algorithm_details (d : key_details) : res (option (hash_algorithm * hash_alg)) :=
  match assoc key_details_eqb d ALGORITHM_REGISTRY with
  | None => Raise EValue
  | Some x => Ok x
  end.

(** key_details.py:102-117 [_get_prehash] *)
Definition get_prehash (d : key_details) : res (hash_algorithm * hash_alg) :=
  let* details := get_algorithm_details d in
  match details with None => Raise EValue | Some h => Ok h end.

(** key_details.py:124-169 [_get_key_details].  [signature_algorithm_parameters] is read
    before the key is looked at. *)
Definition get_key_details (c : Cert) : res key_details :=
  let* pk := c_pubkey c in
  let* pkcs1 := c_sig_pkcs1 c in
  match pk_kind pk with
  | KEc P256 => Ok PKIX_ECDSA_P256_SHA_256
  | KEc P384 => Ok PKIX_ECDSA_P384_SHA_384
  | KEc P521 => Ok PKIX_ECDSA_P521_SHA_512
  | KEc (OtherCurve _) => Raise EValue
  | KRsa bits =>
    if (bits =? 2048)%Z then (if pkcs1 then Ok PKIX_RSA_PKCS1V15_2048_SHA256 else Raise EValue)
    else if (bits =? 3072)%Z then (if pkcs1 then Ok PKIX_RSA_PKCS1V15_3072_SHA256 else Raise EValue)
    else if (bits =? 4096)%Z then (if pkcs1 then Ok PKIX_RSA_PKCS1V15_4096_SHA256 else Raise EValue)
    else Raise EValue
  | KEd25519 => Ok PKIX_ED25519
  | KOther _ => Raise EValue
  end.
