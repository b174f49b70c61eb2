(** sigstore/_internal/trust.py (keys and keyrings) and the helpers of
    sigstore/_utils.py it uses. *)
From Verif Require Import Base Messages Env.

(** [common_v1.PublicKeyDetails]: the values the code distinguishes; every other
    enum member is [KD_other]. *)
Inductive key_details : Set :=
| PKCS1_RSA_PKCS1V5
| PKIX_RSA_PKCS1V15_2048_SHA256
| PKIX_RSA_PKCS1V15_3072_SHA256
| PKIX_RSA_PKCS1V15_4096_SHA256
| PKIX_ECDSA_P256_SHA_256
| PKIX_ECDSA_P384_SHA_384
| PKIX_ECDSA_P521_SHA_512
| PKIX_ED25519
| PKIX_ED25519_PH
| KD_other (n : nat).

(** [common_v1.PublicKey]; [raw_bytes] optional. *)
Record PublicKeyMsg := mkPKM { pkm_raw : option bytes; pkm_details : key_details }.

(** The class filter [types=...] of [load_der_public_key]. *)
Inductive key_class : Set := CRsa | CEc | CEd25519.

Definition kind_in (k : key_kind) (c : key_class) : bool :=
  match k, c with
  | KRsa _, CRsa | KEc _, CEc | KEd25519, CEd25519 => true
  | _, _ => false
  end.

(** trust.py:58-64 class [Key] *)
Record Key := mkKey { k_hash : option hash_alg; k_key : pubkey; k_id : bytes }.

(** trust.py:67-72 [_RSA_SHA_256_DETAILS] *)
Definition in_RSA_SHA_256_DETAILS (d : key_details) : bool :=
  match d with
  | PKCS1_RSA_PKCS1V5 | PKIX_RSA_PKCS1V15_2048_SHA256
  | PKIX_RSA_PKCS1V15_3072_SHA256 | PKIX_RSA_PKCS1V15_4096_SHA256 => true
  | _ => false
  end.

(** trust.py:74-78 [_EC_DETAILS_TO_HASH] *)
Definition EC_DETAILS_TO_HASH (d : key_details) : option hash_alg :=
  match d with
  | PKIX_ECDSA_P256_SHA_256 => Some SHA256
  | PKIX_ECDSA_P384_SHA_384 => Some SHA384
  | PKIX_ECDSA_P521_SHA_512 => Some SHA512
  | _ => None
  end.

Definition is_ed25519_details (d : key_details) : bool :=
  match d with PKIX_ED25519 => true | _ => false end.

Section Keyring.
Variable env : Env.

(** _utils.py:96-117 [load_der_public_key] *)
Definition load_der_public_key (der : bytes) (c : key_class) : res pubkey :=
  match e_load_key env der with
  | Raise _ => Raise EVerification
  | Ok k => if kind_in (pk_kind k) c then Ok k else Raise EVerification
  end.

(** _utils.py:143-154 [key_id] *)
Definition key_id (k : pubkey) : bytes := e_hash env SHA256 (pk_spki k).

(** trust.py:80-112 [Key.__init__] *)
Definition make_key (m : PublicKeyMsg) : res Key :=
  match pkm_raw m with
  | None | Some nil => Raise EVerification
  | Some raw =>
    let* '(h, k) :=
      if in_RSA_SHA_256_DETAILS (pkm_details m) then
        let* k := load_der_public_key raw CRsa in Ok (Some SHA256, k)
      else
        match EC_DETAILS_TO_HASH (pkm_details m) with
        | Some h => let* k := load_der_public_key raw CEc in Ok (Some h, k)
        | None =>
          if is_ed25519_details (pkm_details m) then
            let* k := load_der_public_key raw CEd25519 in Ok (None, k)
          else Raise EVerification
        end
    in Ok (mkKey h k (key_id k))
  end.

(** trust.py:114-143 [Key.verify] *)
Definition key_verify (k : Key) (signature data : bytes) : res unit :=
  match pk_kind (k_key k), k_hash k with
  | KRsa _, Some h => e_sig_verify env (RSA_PKCS1v15 h) (k_key k) signature data
  | KEc _, Some h => e_sig_verify env (ECDSA h) (k_key k) signature data
  | KEd25519, None => e_sig_verify env ED25519 (k_key k) signature data
  | _, _ => Raise EVerification
  end.

(** trust.py:150-166 [Keyring]: an insertion-ordered dict *)
Definition keyring := list (bytes * Key).

Fixpoint keyring_add (acc : keyring) (ms : list PublicKeyMsg) : res keyring :=
  match ms with
  | nil => Ok acc
  | m :: ms' =>
    match make_key m with
    | Ok k => keyring_add (dict_set bytes_eqb (k_id k) k acc) ms'
    | Raise e => if is_verification_error e then keyring_add acc ms' else Raise e
    end
  end.

Definition make_keyring (ms : list PublicKeyMsg) : res keyring := keyring_add nil ms.

(** trust.py:187-195, the loop over candidates: [Ok true] when one verifies *)
Fixpoint try_candidates (cs : list Key) (signature data : bytes) : res bool :=
  match cs with
  | nil => Ok false
  | c :: cs' =>
    match key_verify c signature data with
    | Ok _ => Ok true
    | Raise EInvalidSignature => try_candidates cs' signature data
    | Raise e => Raise e
    end
  end.

(** trust.py:163-190 [Keyring.verify] *)
Definition keyring_verify (kr : keyring) (kid signature data : bytes) : res unit :=
  let candidates :=
    match assoc bytes_eqb kid kr with
    | Some k => [k]
    | None => map snd kr
    end in
  let* valid := try_candidates candidates signature data in
  raise_if (negb valid) EVerification.
End Keyring.

(** _utils.py:360-379 [is_timerange_valid] at clock reading [now] *)
Definition is_timerange_valid (now : time) (period : option TimeRange) (allow_expired : bool) : bool :=
  match period with
  | None => true
  | Some p =>
    if (now <? tr_start p)%Z then false
    else allow_expired ||
         match tr_end p with None => true | Some e => (now <=? e)%Z end
  end.
