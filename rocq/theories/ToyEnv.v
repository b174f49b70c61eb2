(** A small computable environment, used only to show that theorem hypotheses are
    met by concrete cases and to compute witnesses.  It is not part of the model. *)
From Verif Require Import Base Messages Env.
From Verif Require Export ToyHash.

Definition scheme_tag (s : sig_scheme) : byte :=
  match s with
  | RSA_PKCS1v15 SHA256 => x01 | RSA_PKCS1v15 SHA384 => x02 | RSA_PKCS1v15 SHA512 => x03
  | ECDSA SHA256 => x11 | ECDSA SHA384 => x12 | ECDSA SHA512 => x13
  | ECDSA_prehashed SHA256 => x11 | ECDSA_prehashed SHA384 => x12 | ECDSA_prehashed SHA512 => x13
  | ED25519 => x21
  end.

(** "Keys" are byte strings whose first byte is their class. *)
Definition toy_load_key (raw : bytes) : res pubkey :=
  match raw with
  | x01 :: _ => Ok (mkPub (KRsa 2048) raw)
  | x02 :: _ => Ok (mkPub (KEc P256) raw)
  | x03 :: _ => Ok (mkPub (KEc P384) raw)
  | x04 :: _ => Ok (mkPub KEd25519 raw)
  | x05 :: _ => Ok (mkPub (KOther 0) raw)
  | _ => Raise EValue
  end.

(** The message digest an ECDSA signature covers (prehashed or not). *)
Definition toy_digest (s : sig_scheme) (d : bytes) : bytes :=
  match s with
  | ECDSA_prehashed _ => d
  | _ => toy_hash d
  end.

(** "Signatures" are tag, key and digest: forgeable, but deterministic and distinct. *)
Definition toy_sign (s : sig_scheme) (k : pubkey) (d : bytes) : bytes :=
  scheme_tag s :: pk_spki k ++ toy_digest s d.

Definition toy_sig_verify (s : sig_scheme) (k : pubkey) (sg d : bytes) : res unit :=
  match pk_kind k, s with
  | KRsa _, RSA_PKCS1v15 _ | KEc _, ECDSA _ | KEc _, ECDSA_prehashed _ | KEd25519, ED25519 =>
    if bytes_eqb sg (toy_sign s k d) then Ok tt else Raise EInvalidSignature
  | _, _ => Raise EType
  end.

Definition toy_env (certs : list (bytes * Cert)) : Env :=
  mkEnv (fun _ => toy_hash) (fun _ => None) toy_load_key toy_sig_verify
    (fun der => match assoc bytes_eqb der certs with Some c => Ok c | None => Raise EValue end)
    (fun c => Raise EInvalidSignature)
    (fun roots t c =>
       if ((c_not_before c <=? t) && (t <=? c_not_after c))%Z
       then Ok (c :: roots) else Raise EX509Verification)
    (fun raw => match raw with
                | x30 :: b :: _ => Ok (mkTSR raw (Z.of_N (b2n b) * 1000000)%Z)
                | _ => Raise EValue
                end)
    (fun certs tsr msg =>
       match tsr_raw tsr with
       | x30 :: _ :: r => if bytes_eqb r msg then Ok tt else Raise ERfc3161
       | _ => Raise ERfc3161
       end).
