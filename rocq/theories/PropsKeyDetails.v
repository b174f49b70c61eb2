(** Property C64: key details of a signing certificate. *)
From Verif Require Import Base Messages Env Keyring KeyringProofs Dsse KeyDetails.

(** ** Specification: what each key-details value promises about a key
    (Sigstore algorithm registry). *)
Definition describes (d : key_details) (k : key_kind) : Prop :=
  match d with
  | PKIX_RSA_PKCS1V15_2048_SHA256 => k = KRsa 2048
  | PKIX_RSA_PKCS1V15_3072_SHA256 => k = KRsa 3072
  | PKIX_RSA_PKCS1V15_4096_SHA256 => k = KRsa 4096
  | PKIX_ECDSA_P256_SHA_256 => k = KEc P256
  | PKIX_ECDSA_P384_SHA_384 => k = KEc P384
  | PKIX_ECDSA_P521_SHA_512 => k = KEc P521
  | PKIX_ED25519 | PKIX_ED25519_PH => k = KEd25519
  | _ => False
  end.

(** The hash named in the registry's entry. *)
Definition registry_hash (d : key_details) : option hash_alg :=
  match d with
  | PKIX_RSA_PKCS1V15_2048_SHA256 | PKIX_RSA_PKCS1V15_3072_SHA256 | PKIX_RSA_PKCS1V15_4096_SHA256
  | PKIX_ECDSA_P256_SHA_256 => Some SHA256
  | PKIX_ECDSA_P384_SHA_384 => Some SHA384
  | PKIX_ECDSA_P521_SHA_512 | PKIX_ED25519_PH => Some SHA512
  | _ => None
  end.

Definition hash_name (h : hash_alg) : hash_algorithm :=
  match h with SHA256 => HA_SHA2_256 | SHA384 => HA_SHA2_384 | SHA512 => HA_SHA2_512 end.

Theorem C64_details_describe_the_key : forall c d, get_key_details c = Ok d ->
  exists pk, c_pubkey c = Ok pk /\ describes d (pk_kind pk).
Proof.
  intros c d H. unfold get_key_details in H. inv_bind H. inv_bind H. exists a. split; [assumption|].
  destruct (pk_kind a) as [bits|[]| |]; try (inversion H; subst; reflexivity).
  destruct (bits =? 2048)%Z eqn:E1; [apply Z.eqb_eq in E1; subst; destruct a0; inversion H; reflexivity|].
  destruct (bits =? 3072)%Z eqn:E2; [apply Z.eqb_eq in E2; subst; destruct a0; inversion H; reflexivity|].
  destruct (bits =? 4096)%Z eqn:E3; [apply Z.eqb_eq in E3; subst; destruct a0; inversion H; reflexivity|].
  discriminate.
Qed.

(** Which keys have details.  For RSA the padding the issuing CA used for its own
    signature on the certificate decides. *)
Theorem C64_supported_keys : forall c pk p, c_pubkey c = Ok pk -> c_sig_pkcs1 c = Ok p ->
  ((exists d, get_key_details c = Ok d) <->
   match pk_kind pk with
   | KEc P256 | KEc P384 | KEc P521 | KEd25519 => True
   | KRsa b => (b = 2048 \/ b = 3072 \/ b = 4096)%Z /\ p = true
   | _ => False
   end).
Proof.
  intros c pk p K S. unfold get_key_details. rewrite K, S. cbn [bind].
  destruct (pk_kind pk) as [bits|[]| |]; try (split; [auto|intros _; eexists; reflexivity]);
    try (split; [intros [d H]; discriminate|intros []]).
  destruct (bits =? 2048)%Z eqn:E1; [apply Z.eqb_eq in E1|apply Z.eqb_neq in E1].
  { destruct p; split; intros H; auto; try (eexists; reflexivity); [destruct H; discriminate|destruct H; discriminate]. }
  destruct (bits =? 3072)%Z eqn:E2; [apply Z.eqb_eq in E2|apply Z.eqb_neq in E2].
  { destruct p; split; intros H; auto; try (eexists; reflexivity); [destruct H; discriminate|destruct H; discriminate]. }
  destruct (bits =? 4096)%Z eqn:E3; [apply Z.eqb_eq in E3|apply Z.eqb_neq in E3].
  { destruct p; split; intros H; auto; try (eexists; reflexivity); [destruct H; discriminate|destruct H; discriminate]. }
  split; [intros [d H]; discriminate|]. lia.
Qed.

Theorem C64_unsupported_raises_value_error : forall c e, get_key_details c = Raise e ->
  e = EValue \/ c_pubkey c = Raise e \/ c_sig_pkcs1 c = Raise e.
Proof.
  intros c e H. unfold get_key_details in H.
  apply bind_raise_inv in H. destruct H as [H|(pk & _ & H)]; [auto|].
  apply bind_raise_inv in H. destruct H as [H|(p & _ & H)]; [auto|].
  left. destruct (pk_kind pk) as [bits|[]| |]; try congruence.
  destruct (bits =? 2048)%Z, (bits =? 3072)%Z, (bits =? 4096)%Z, p; congruence.
Qed.

(** The prehash is the hash the registry names, under its own name. *)
Theorem C64_prehash_is_the_registry_hash : forall d a h,
  get_prehash d = Ok (a, h) <-> registry_hash d = Some h /\ a = hash_name h.
Proof.
  intros d a h. destruct d; cbn; split; intros H; try discriminate; try (destruct H; discriminate);
    try (inversion H; subst; split; reflexivity); destruct H as [H ->]; inversion H; reflexivity.
Qed.

(** Pure Ed25519 certificates have details but no prehash: they cannot be used for
    hashedrekord entries, signing or verifying. *)
Theorem C64_ed25519_has_no_prehash : forall c pk p, c_pubkey c = Ok pk -> c_sig_pkcs1 c = Ok p ->
  pk_kind pk = KEd25519 -> (let* d := get_key_details c in get_prehash d) = Raise EValue.
Proof. intros c pk p K S E. unfold get_key_details. rewrite K, S. cbn [bind]. rewrite E. reflexivity. Qed.

(** The prehash is also the hash with which a trusted log key of these details verifies. *)
Theorem C64_prehash_agrees_with_keyring : forall d k s a h,
  scheme_of_details d = Some (k, s) -> get_prehash d = Ok (a, h) ->
  s = RSA_PKCS1v15 h \/ s = ECDSA h.
Proof. intros d k s a h S P. destruct d; cbn in S, P; inversion S; inversion P; subst; auto. Qed.

(** The expected support for RSA keys is refuted: an RSA-2048 certificate issued by a CA
    that signs with ECDSA (as Fulcio does) is "unsupported". *)
Theorem C64_rsa_key_under_ecdsa_ca_refuted :
  exists c pk, c_pubkey c = Ok pk /\ pk_kind pk = KRsa 2048 /\ get_key_details c = Raise EValue.
Proof.
  exists (mkCert [x01] true (Raise EValue) (Ok (mkPub (KRsa 2048) [x01])) (Raise EValue) 0%Z 0%Z (Ok false)), (mkPub (KRsa 2048) [x01]).
  repeat split.
Qed.

Example ex_p384 : forall x,
  (let* d := get_key_details (mkCert [x01] true x (Ok (mkPub (KEc P384) [x01])) (Raise EValue) 0%Z 0%Z (Ok false)) in
   get_prehash d) = Ok (HA_SHA2_384, SHA384).
Proof. reflexivity. Qed.

Definition kx (k : key_kind) (p : res bool) : Cert := mkCert [x01] true (Raise EValue) (Ok (mkPub k [x01])) (Raise EValue) 0%Z 0%Z p.
Example ex_details :
  get_key_details (kx (KRsa 3072) (Ok true)) = Ok PKIX_RSA_PKCS1V15_3072_SHA256 /\ get_prehash PKIX_RSA_PKCS1V15_3072_SHA256 = Ok (HA_SHA2_256, SHA256) /\
  get_key_details (kx (KEc P521) (Ok false)) = Ok PKIX_ECDSA_P521_SHA_512 /\ get_prehash PKIX_ECDSA_P521_SHA_512 = Ok (HA_SHA2_512, SHA512) /\
  get_key_details (kx KEd25519 (Ok false)) = Ok PKIX_ED25519 /\ get_prehash PKIX_ED25519 = Raise EValue /\
  get_key_details (kx (KRsa 1024) (Ok true)) = Raise EValue /\ get_key_details (kx KEd25519 (Raise EType)) = Raise EType.
Proof. repeat split. Qed.

Print Assumptions C64_details_describe_the_key.
Print Assumptions C64_supported_keys.
Print Assumptions C64_unsupported_raises_value_error.
Print Assumptions C64_prehash_is_the_registry_hash.
Print Assumptions C64_prehash_agrees_with_keyring.
Print Assumptions C64_ed25519_has_no_prehash.
Print Assumptions C64_rsa_key_under_ecdsa_ca_refuted.
