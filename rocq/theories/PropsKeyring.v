(** Properties C10-C13: keyrings and validity windows.
    Specification vocabulary ([scheme_of_details], [usable], [registered], [msg_id])
    is at the top of [KeyringProofs.v]: a trusted-root key message is [usable] when its
    bytes load as a key of the class its declared details name; it is [registered] in a
    list of messages when no later usable message has the same id. *)
From Verif Require Import Base Messages Env Keyring KeyringProofs ToyEnv.

(** C10, known id: only the registered key decides. *)
Theorem C10_known_id_only_that_key :
  forall env ms kr k s signature data,
  make_keyring env ms = Ok kr -> registered env ms k s ->
  keyring_verify env kr (msg_id env k) signature data =
  match e_sig_verify env s k signature data with
  | Ok _ => Ok tt
  | Raise e => if exn_eqb e EInvalidSignature then Raise EVerification else Raise e
  end.
Proof. exact keyring_known_id. Qed.

(** C10, unknown id: some registered key must verify. *)
Theorem C10_unknown_id_some_key :
  forall env ms kr kid signature data,
  make_keyring env ms = Ok kr ->
  (forall k s, registered env ms k s -> msg_id env k <> kid) ->
  (forall k s e, registered env ms k s ->
     e_sig_verify env s k signature data = Raise e -> e = EInvalidSignature) ->
  (keyring_verify env kr kid signature data = Ok tt <->
   exists k s, registered env ms k s /\ e_sig_verify env s k signature data = Ok tt).
Proof. exact keyring_unknown_id. Qed.

(** C10, soundness for every id and every backend. *)
Theorem C10_accepted_means_trusted_key :
  forall env ms kr kid signature data u,
  make_keyring env ms = Ok kr ->
  keyring_verify env kr kid signature data = Ok u ->
  exists k s, registered env ms k s /\ e_sig_verify env s k signature data = Ok tt /\
    ((exists k' s', registered env ms k' s' /\ msg_id env k' = kid) -> msg_id env k = kid).
Proof. exact keyring_sound. Qed.

Theorem C10_no_keys_never_accepts :
  forall env ms kr kid signature data,
  make_keyring env ms = Ok kr -> (forall m, In m ms -> ~ loadable env m) ->
  keyring_verify env kr kid signature data = Raise EVerification.
Proof. exact keyring_no_keys. Qed.

Theorem C10_exceptions :
  forall env ms kr kid signature data e,
  make_keyring env ms = Ok kr ->
  keyring_verify env kr kid signature data = Raise e ->
  e = EVerification \/
  exists k s, registered env ms k s /\ e_sig_verify env s k signature data = Raise e /\ e <> EInvalidSignature.
Proof. exact keyring_exceptions. Qed.

(** C11 *)
Theorem C11_construction_never_fails :
  forall env ms, exists kr, make_keyring env ms = Ok kr.
Proof. exact make_keyring_total. Qed.

Theorem C11_keyring_contents :
  forall env ms kr id K, make_keyring env ms = Ok kr ->
  (In (id, K) kr <->
   exists k s, registered env ms k s /\ id = msg_id env k /\
     k_key K = k /\ k_id K = msg_id env k /\
     k_hash K = match s with RSA_PKCS1v15 h | ECDSA h | ECDSA_prehashed h => Some h | ED25519 => None end).
Proof.
  intros env ms kr id K E. rewrite (keyring_in env ms kr id K E). split.
  - intros (k & s & A & B & ->). exists k, s. auto.
  - intros (k & s & A & B & C & D & F). exists k, s. split; [assumption|]. split; [assumption|].
    destruct K as [kh kk ki]. unfold key_of. simpl in *. congruence.
Qed.

Theorem C11_unloadable_keys_are_skipped :
  forall env l1 m l2, ~ loadable env m ->
  make_keyring env (l1 ++ m :: l2) = make_keyring env (l1 ++ l2).
Proof. exact keyring_skips_unloadable. Qed.

(** C12: the scheme handed to the backend comes from the declared details. *)
Theorem C12_scheme_from_details :
  forall env m K signature data,
  make_key env m = Ok K ->
  exists cls s, scheme_of_details (pkm_details m) = Some (cls, s) /\
    kind_in (pk_kind (k_key K)) cls = true /\
    key_verify env K signature data = e_sig_verify env s (k_key K) signature data.
Proof.
  intros env m K sg d E. apply make_key_ok in E. destruct E as (k & s & Hu & ->).
  rewrite (key_verify_of env m k s sg d Hu).
  destruct Hu as (raw & cls & A & B & C & D & F). exists cls, s. auto.
Qed.

Theorem C12_unsupported_or_mistyped_never_loads :
  forall env m raw k,
  pkm_raw m = Some raw ->
  (scheme_of_details (pkm_details m) = None \/
   exists cls s, scheme_of_details (pkm_details m) = Some (cls, s) /\
     e_load_key env raw = Ok k /\ kind_in (pk_kind k) cls = false) ->
  make_key env m = Raise EVerification.
Proof.
  intros env m raw k Hr H. destruct (make_key env m) as [K|e] eqn:E.
  - apply make_key_ok in E. destruct E as (k' & s & (raw' & cls & A & B & C & D & F) & _).
    destruct H as [H|(cls' & s' & H1 & H2 & H3)]; congruence.
  - f_equal. eapply make_key_raise; eauto.
Qed.

(** C12, boundary: only the key class is compared with the declared details; the
    curve is not.  A P-384 key declared as P-256/SHA-256 is used with SHA-256. *)
Theorem C12_declared_curve_refuted :
  exists env m K, make_key env m = Ok K /\
    pkm_details m = PKIX_ECDSA_P256_SHA_256 /\ pk_kind (k_key K) = KEc P384 /\
    (forall signature data,
       key_verify env K signature data = e_sig_verify env (ECDSA SHA256) (k_key K) signature data).
Proof.
  exists (toy_env []), (mkPKM (Some [x03; x77]) PKIX_ECDSA_P256_SHA_256). eexists.
  split; [reflexivity|]. repeat split.
Qed.

(** C13.  [usable_at t w expired_ok] is the English definition of usable. *)
Definition usable_at (t : time) (w : option TimeRange) (expired_ok : bool) : Prop :=
  match w with
  | None => True
  | Some p => (tr_start p <= t)%Z /\
              (expired_ok = true \/ match tr_end p with None => True | Some e => (t <= e)%Z end)
  end.

Theorem C13_validity_window :
  forall now period allow_expired,
  is_timerange_valid now period allow_expired = true <-> usable_at now period allow_expired.
Proof.
  intros now [p|] ax; simpl; [|tauto].
  destruct (now <? tr_start p)%Z eqn:E.
  - split; [discriminate|]. intros [H _]. apply Z.ltb_lt in E. lia.
  - apply Z.ltb_ge in E. rewrite orb_true_iff. destruct (tr_end p) as [e|].
    + rewrite Z.leb_le. tauto.
    + tauto.
Qed.

Theorem C13_allow_expired_is_monotone :
  forall now period,
  is_timerange_valid now period false = true -> is_timerange_valid now period true = true.
Proof.
  intros now p. rewrite !C13_validity_window. destruct p; simpl; tauto.
Qed.

Theorem C13_not_started_never_usable :
  forall now p allow_expired,
  (now < tr_start p)%Z -> is_timerange_valid now (Some p) allow_expired = false.
Proof.
  intros now p ax H. apply not_true_iff_false. rewrite C13_validity_window. simpl. lia.
Qed.

(** ** A concrete keyring: an RSA key, junk, an EC key, an unsupported one, an
    Ed25519 key, and a second message for the EC key with other details. *)
Definition ex_msgs : list PublicKeyMsg :=
  [ mkPKM (Some [x01; x0a]) PKIX_RSA_PKCS1V15_2048_SHA256;
    mkPKM (Some [xff]) PKIX_ED25519;
    mkPKM (Some [x03; x0b]) PKIX_ECDSA_P256_SHA_256;
    mkPKM (Some [x02]) (KD_other 2);
    mkPKM (Some [x04; x0c]) PKIX_ED25519;
    mkPKM None PKIX_ED25519;
    mkPKM (Some [x03; x0b]) PKIX_ECDSA_P384_SHA_384 ].

Definition ex_kr : keyring :=
  match make_keyring (toy_env []) ex_msgs with Ok kr => kr | Raise _ => [] end.

Definition ex_ec : pubkey := mkPub (KEc P384) [x03; x0b].

Example ex_registered : registered (toy_env []) ex_msgs ex_ec (ECDSA SHA384).
Proof.
  eexists [_; _; _; _; _; _], _, nil. split; [reflexivity|]. split.
  - exists [x03; x0b], CEc. repeat split. discriminate.
  - intros m' k' s' [].
Qed.

Example ex_kr_size : length ex_kr = 3.
Proof. vm_compute. reflexivity. Qed.

Example ex_kr_known :
  keyring_verify (toy_env []) ex_kr (msg_id (toy_env []) ex_ec)
    (toy_sign (ECDSA SHA384) ex_ec [x55]) [x55] = Ok tt
  /\ keyring_verify (toy_env []) ex_kr (msg_id (toy_env []) ex_ec)
    (toy_sign (ECDSA SHA256) ex_ec [x55]) [x55] = Raise EVerification.
Proof. split; vm_compute; reflexivity. Qed.

(** Unknown id: the toy backend raises TypeError for no registered key here, and the
    Ed25519 key verifies its own signature. *)
Example ex_kr_unknown :
  keyring_verify (toy_env []) ex_kr [x00]
    (toy_sign ED25519 (mkPub KEd25519 [x04; x0c]) [x55]) [x55] = Ok tt.
Proof. vm_compute. reflexivity. Qed.

Print Assumptions C10_known_id_only_that_key.
Print Assumptions C10_unknown_id_some_key.
Print Assumptions C10_accepted_means_trusted_key.
Print Assumptions C10_no_keys_never_accepts.
Print Assumptions C10_exceptions.
Print Assumptions C11_construction_never_fails.
Print Assumptions C11_keyring_contents.
Print Assumptions C11_unloadable_keys_are_skipped.
Print Assumptions C12_scheme_from_details.
Print Assumptions C12_unsupported_or_mistyped_never_loads.
Print Assumptions C12_declared_curve_refuted.
Print Assumptions C13_validity_window.
Print Assumptions C13_allow_expired_is_monotone.
Print Assumptions C13_not_started_never_usable.
