(** Concrete bundles in the toy environment, used for examples and witnesses only. *)
From Verif Require Import Base Codec Messages ToyHash Env Keyring MerkleSpec LogEntry Checkpoint CheckpointProofs Cert Sct Dsse
  KeyDetails Policy TrustedRoot Hashing Bundle Verifier ToyEnv PropsCheckpoint PropsLogEntry PropsSct.

Definition vx_issuer : Cert := sx_issuer (Some (true, true)).
Definition vx_key : pubkey := mkPub (KEc P256) [x02; x05].
Definition vx_exts : Extensions :=
  mkExt None (Some (true, false)) (Some [OID_CODE_SIGNING]) (Some [GN_email (s2l "a@b.c")]) (Some [sx_sct vx_issuer])
    [(fulcio_oid 1, s2b "https://issuer.example")].
Definition vx_leaf_with (x : res Extensions) (k : res pubkey) : Cert :=
  mkCert [x30; x02] true x k (Ok [x55; x66]) 0%Z 2000000000000000%Z (Ok false).
Definition vx_leaf : Cert := vx_leaf_with (Ok vx_exts) (Ok vx_key).
Definition vx_env : Env := toy_env [(c_der vx_issuer, vx_issuer); (c_der vx_leaf, vx_leaf)].

Definition vx_window : option TimeRange := Some (mkTimeRange 0%Z None).
Definition vx_tr : TrustedRootMsg :=
  mkTR TRUSTED_ROOT_0_1
    [mkTLog (mkPKM (Some cx_key) PKIX_ECDSA_P256_SHA_256) vx_window (s2l "https://rekor.example")]
    [mkTLog (mkPKM (Some sx_ct_key) PKIX_ECDSA_P256_SHA_256) vx_window (s2l "https://ct.example")]
    [mkCAMsg [c_der vx_issuer] vx_window]
    [mkCAMsg [c_der vx_issuer] vx_window;
     mkCAMsg [c_der vx_issuer; c_der vx_issuer] (Some (mkTimeRange 0%Z (Some 50000000%Z)));
     mkCAMsg [c_der vx_leaf; c_der vx_issuer] vx_window].
Definition vx_now : time := 1800000000000000%Z.
Definition vx_verifier : Verifier := mkVerifier [vx_issuer] vx_tr (s2l "https://rekor.example").

Example ex_make_verifier : make_verifier vx_env vx_now vx_tr = Ok vx_verifier.
Proof. vm_compute. reflexivity. Qed.

(** an entry in a three-entry log *)
Definition vx_log (body : bytes) : list bytes := [[x61]; body; [x63]].
Definition vx_entry (kind version : String.string) (time : option Z) (promise : bool) (body : bytes) : LogEntry :=
  let root := MTH toy_hash (vx_log body) in
  let text := lines_text (body_lines (s2l "rekor.example") 3 root nil) in
  mkEntry 1 cx_id (s2l kind) (s2l version) time
    (if promise then match time with
       Some t => Some (toy_sign (ECDSA SHA256) cx_pub (ascii_bytes (set_text body t cx_id 1))) | None => Some nil end else None)
    (Some (mkIP 1 root 3 (PATH toy_hash 1 (vx_log body)) (Some (signed_note_text text (cx_sigs text))))) body.

(** bodies are one byte long; the parsers know these *)
Definition vx_input : bytes := s2b "hello".
Definition vx_digest : bytes := toy_hash vx_input.
Definition vx_sig : bytes := toy_sign (ECDSA_prehashed SHA256) vx_key vx_digest.
Definition vx_type : str := s2l "application/vnd.in-toto+json".
Definition vx_payload : bytes := s2b "{}".
Definition vx_pae : bytes := match pae vx_type vx_payload with Ok x => x | Raise _ => nil end.
Definition vx_dsig : bytes := toy_sign (ECDSA SHA256) vx_key vx_pae.
Definition vx_v2 (digest sg : bytes) : V2Entry :=
  mkV2 (s2l "hashedrekord") (s2l "0.0.2")
    (V2_hashedrekord HA_SHA2_256 digest sg (V2_x509 (c_der vx_leaf) PKIX_ECDSA_P256_SHA_256)).
Definition vx_parsers : Parsers :=
  mkParsers
    (fun b => if bytes_eqb b [x01]
       then Ok (mkH1 (s2l "0.0.1") (Some (b64encode vx_sig)) (Some (base64_encode_pem_cert vx_leaf)) (Some (SHA256, hex vx_digest)) 0)
       else Raise EPydantic)
    (fun b => if bytes_eqb b [x04]
       then Ok (mkD1 (Some (true, hex (toy_hash vx_payload))) (Some [(b64encode vx_dsig, base64_encode_pem_cert vx_leaf)]))
       else if bytes_eqb b [x05] then Ok (mkD1 None None)
       else Raise EPydantic)
    (fun b => if bytes_eqb b [x02] then Ok (vx_v2 vx_digest vx_sig)
       else if bytes_eqb b [x03] then Ok (vx_v2 (toy_hash vx_pae) vx_dsig)
       else Raise EPydantic).

Definition vx_bundle_msg (e : LogEntry) (ts : list bytes) (ms : option MessageSignature) (ev : option EnvelopeMsg) : BundleMsg :=
  mkBundleMsg BUNDLE_0_3 (mkVM (Some (c_der vx_leaf)) None [e] ts) ms ev.
Definition vx_bundle (e : LogEntry) (ts : list bytes) (ms : option MessageSignature) (ev : option EnvelopeMsg) : Bundle :=
  mkBundle (vx_bundle_msg e ts ms ev) vx_leaf e.
Definition vx_ms : MessageSignature := mkMsgSig (Some (HA_SHA2_256, vx_digest)) vx_sig.
Definition vx_ev : EnvelopeMsg := mkEnvMsg vx_payload vx_type [vx_dsig].

Definition vx_entry1 : LogEntry := vx_entry "hashedrekord" "0.0.1" (Some 1700000000%Z) true [x01].
Definition vx_entry2 : LogEntry := vx_entry "hashedrekord" "0.0.2" None false [x02].
Definition vx_entry3 : LogEntry := vx_entry "hashedrekord" "0.0.2" None false [x03].
Definition vx_entry4 : LogEntry := vx_entry "dsse" "0.0.1" (Some 1700000000%Z) true [x04].
(** a token of the toy authorities: time in seconds, message *)
Definition vx_token (t : byte) (msg : bytes) : bytes := x30 :: t :: msg.

Definition vx_artifact1 : Bundle := vx_bundle vx_entry1 nil (Some vx_ms) None.
Definition vx_artifact2 : Bundle := vx_bundle vx_entry2 [vx_token x20 vx_sig] (Some vx_ms) None.
Definition vx_dsse1 : Bundle := vx_bundle vx_entry4 [vx_token x40 vx_dsig; vx_token x41 nil] None (Some vx_ev).
Definition vx_dsse2 : Bundle := vx_bundle vx_entry3 [vx_token x20 vx_dsig; vx_token x60 vx_dsig] None (Some vx_ev).

Definition vx_policy : policy := P_identity (s2l "a@b.c") (Some (s2l "https://issuer.example")).
Definition vx_verify_artifact (i : input) (b : Bundle) : res unit :=
  verify_artifact vx_env vx_parsers vx_now vx_verifier i b vx_policy.
Definition vx_verify_dsse (b : Bundle) : res (str * bytes) :=
  verify_dsse vx_env vx_parsers vx_now vx_verifier b vx_policy.

Example ex_bundle_constructible : make_bundle vx_env (b_inner vx_artifact1) = Ok vx_artifact1.
Proof. vm_compute. reflexivity. Qed.
Example ex_artifact1_accepted : vx_verify_artifact (In_bytes vx_input) vx_artifact1 = Ok tt.
Proof. vm_compute. reflexivity. Qed.
Example ex_artifact2_accepted : vx_verify_artifact (In_hashed (mkHashed HA_SHA2_256 vx_digest)) vx_artifact2 = Ok tt.
Proof. vm_compute. reflexivity. Qed.
Example ex_dsse1_accepted : vx_verify_dsse vx_dsse1 = Ok (vx_type, vx_payload).
Proof. vm_compute. reflexivity. Qed.
Example ex_dsse2_accepted : vx_verify_dsse vx_dsse2 = Ok (vx_type, vx_payload).
Proof. vm_compute. reflexivity. Qed.
Example ex_wrong_input_rejected : vx_verify_artifact (In_bytes (s2b "hallo")) vx_artifact1 = Raise EVerification.
Proof. vm_compute. reflexivity. Qed.
