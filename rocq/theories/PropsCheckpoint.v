(** Properties C05-C07: signed checkpoints.
    Specification vocabulary is at the top of [CheckpointProofs.v] ([sig_line],
    [lines_text], [body_lines], [signed_note_text]: the C2SP signed-note syntax;
    [good_body], [good_sig]: which parts that syntax allows) and of
    [KeyringProofs.v] ([registered], [msg_id]); [integer_text], an integer in text form, is in IntText.v;
    [note_lines], the lines of a note's body, is in NoteText.v. *)
From Verif Require Import Base Codec PyText IntText NoteText Messages Env Keyring KeyringProofs
  Checkpoint CheckpointProofs ToyEnv.
Local Open Scope N_scope.

(** C05.  [p ++ NL] is the note body, [NL; NL] the only separator. *)
Theorem C05_accepted_checkpoint :
  forall env ms kr e ip u,
  make_keyring env ms = Ok kr -> le_proof e = Some ip ->
  verify_checkpoint env kr e = Ok u ->
  exists text p data, ip_checkpoint ip = Some text /\
    text = p ++ [NL; NL] ++ data /\
    (forall a b, text = a ++ [NL; NL] ++ b -> a = p \/ a = p ++ [NL]) /\
    (exists pre name b64 post hint sg noteb k s,
       data = pre ++ sig_line name b64 ++ post /\
       name <> nil /\ no_space name = true /\ no_space b64 = true /\
       b64decode b64 = Ok (hint ++ sg) /\ length hint = 4%nat /\ sg <> nil /\
       hint = firstn 4 (le_log_id e) /\
       utf8_encode (p ++ [NL]) = Some noteb /\
       registered env ms k s /\ e_sig_verify env s k sg noteb = Ok tt /\
       ((exists k' s', registered env ms k' s' /\ msg_id env k' = le_log_id e) ->
        msg_id env k = le_log_id e)) /\
    (exists origin size hash other,
       note_lines (p ++ [NL]) (origin :: size :: hash :: other) /\
       origin <> nil /\ (exists z, integer_text (e_udecimal env) size z) /\
       b64decode hash = Ok (ip_root_hash ip)).
Proof.
  intros env ms kr e ip u K P V. destruct (checkpoint_accepted env ms kr e ip u K P V) as (text & p & data & A & B & C & D & origin & size & hash & other & E1 & E2 & E3 & E4).
  exists text, p, data. split; [exact A|]. split; [exact B|]. split; [exact C|]. split; [exact D|]. exists origin, size, hash, other.
  split; [apply note_lines_iff; exact E1|]. split; [exact E2|]. split; [|exact E4]. destruct (py_int (e_udecimal env) size) as [z|] eqn:Z; [|congruence]. exists z. apply py_int_iff, Z.
Qed.

(** C06 *)
Theorem C06_checkpoint_exceptions :
  forall env ms kr e ip x,
  make_keyring env ms = Ok kr -> le_proof e = Some ip ->
  verify_checkpoint env kr e = Raise x ->
  x = EVerification \/
  (exists text, ip_checkpoint ip = Some text /\
    ((exists a name b64 c, text = a ++ sig_line name b64 ++ c /\ b64decode b64 = Raise x /\
       ((x = EValue /\ is_ascii b64 = false) \/ (x = EBinascii /\ is_ascii b64 = true)))
     \/ (x = EValue /\ exists p data origin size hash other, text = p ++ [NL; NL] ++ data /\
           note_lines (p ++ [NL]) (origin :: size :: hash :: other) /\ is_ascii hash = false)
     \/ ((x = EPydantic \/ x = EUnicodeEncode) /\ forallb is_scalar text = false)
     \/ (exists k s sg d, registered env ms k s /\ e_sig_verify env s k sg d = Raise x /\ x <> EInvalidSignature))).
Proof.
  intros env ms kr e ip x K P V. destruct (checkpoint_exceptions env ms kr e ip x K P V) as [H|(text & T & H)]; [left; exact H|right].
  exists text. split; [exact T|]. destruct H as [H|[(X & p & data & origin & size & hash & other & E1 & E2 & E3)|[H|H]]].
  - left. exact H.
  - right; left. split; [exact X|]. exists p, data, origin, size, hash, other. split; [exact E1|]. split; [|exact E3]. apply note_lines_iff. exact E2.
  - right; right; left. exact H.
  - right; right; right. exact H.
Qed.

(** C07: parsing undoes formatting ... *)
Theorem C07_body_roundtrip :
  forall env o sz root exts, good_body o sz root exts ->
  checkpoint_from_text env (lines_text (body_lines o sz root exts))
  = Ok (mkLC o (Z.of_N sz) (hex root) exts).
Proof. exact body_roundtrip. Qed.

Theorem C07_note_roundtrip :
  forall ls sigs,
  ls <> nil -> forallb good_line ls = true -> sigs <> nil -> Forall good_sig sigs ->
  note_from_text (signed_note_text (lines_text ls) sigs) =
  Ok (mkNote (lines_text ls) (map (fun '(n, h, s) => mkRS n h (b64encode s)) sigs)).
Proof. exact note_roundtrip. Qed.

(** ... and verification of a well-formed checkpoint is exactly: the first signature
    line whose hint is the log id's prefix must verify over the body bytes, and the
    root must be the proof's. *)
Theorem C07_verification_of_well_formed_checkpoints :
  forall env kr e ip o sz root exts sigs,
  le_proof e = Some ip ->
  good_body o sz root exts -> sigs <> nil -> Forall good_sig sigs ->
  ip_checkpoint ip = Some (signed_note_text (lines_text (body_lines o sz root exts)) sigs) ->
  exists noteb,
  utf8_encode (lines_text (body_lines o sz root exts)) = Some noteb /\
  verify_checkpoint env kr e =
  match deciding_sig (le_log_id e) sigs with
  | None => Raise EVerification
  | Some sg =>
    match keyring_verify env kr (le_log_id e) sg noteb with
    | Ok _ => if bytes_eqb root (ip_root_hash ip) then Ok tt else Raise EVerification
    | Raise x => if is_verification_error x then Raise EVerification else Raise x
    end
  end.
Proof.
  intros env kr e ip o sz root exts sigs Hip G NE F Hc.
  destruct (utf8_body_defined o sz root exts G) as [b Hb]. exists b. split; [assumption|].
  eapply checkpoint_complete; eassumption.
Qed.

(** ** Concrete cases *)

Definition cx_env := toy_env nil.
Definition cx_key : bytes := [x02; x01; x01].
Definition cx_ms := [mkPKM (Some cx_key) PKIX_ECDSA_P256_SHA_256].
Definition cx_pub := mkPub (KEc P256) cx_key.
Definition cx_id : bytes := toy_hash cx_key.
Definition cx_root : bytes := repeat x07 32.
Definition cx_body : str := lines_text (body_lines (s2l "rekor.example") 42 cx_root [s2l "ext 1"]).
Definition cx_sig (body : str) : bytes :=
  match utf8_encode body with
  | Some b => toy_sign (ECDSA SHA256) cx_pub b
  | None => nil
  end.
Definition cx_sigs (body : str) := [(s2l "other", [x01; x02; x03; x04], [x09]);
                       (s2l "rekor.example", firstn 4 cx_id, cx_sig body)].
Definition cx_entry (size : Z) (text : str) : LogEntry :=
  mkEntry 3 cx_id (s2l "hashedrekord") (s2l "0.0.1") None None
    (Some (mkIP 3 cx_root size nil (Some text))) [x61].
Definition cx_verify (e : LogEntry) : res unit :=
  let* kr := make_keyring cx_env cx_ms in verify_checkpoint cx_env kr e.

(** A two-signature note by a trusted log is accepted: C05's and C07's hypotheses hold. *)
Example ex_checkpoint_accepted :
  cx_verify (cx_entry 42 (signed_note_text cx_body (cx_sigs cx_body))) = Ok tt.
Proof. vm_compute. reflexivity. Qed.

Example ex_good_body : good_body (s2l "rekor.example") 42 cx_root [s2l "ext 1"].
Proof. constructor; try (vm_compute; congruence); vm_compute; auto. Qed.

Example ex_good_sigs : Forall good_sig (cx_sigs cx_body).
Proof.
  repeat constructor; try discriminate.
Qed.

(** Tampering with the root hash of the proof, or with one body character, is detected. *)
Example ex_checkpoint_tampered :
  cx_verify (cx_entry 42 (signed_note_text
    (lines_text (body_lines (s2l "rekor.example") 43 cx_root [s2l "ext 1"])) (cx_sigs cx_body)))
  = Raise EVerification.
Proof. vm_compute. reflexivity. Qed.

(** C06, the unqualified claim "only VerificationError escapes" is false: a signature
    line with truncated base64, one with a non-ASCII character, a root hash line with
    a non-ASCII character. *)
Theorem C06_only_verification_error_refuted :
  (exists e, cx_verify e = Raise EBinascii) /\
  (exists e, cx_verify e = Raise EValue) /\
  (exists e ip text, le_proof e = Some ip /\ ip_checkpoint ip = Some text /\
     cx_verify e = Raise EValue /\ findall_sigs 0 text = [(s2l "a", b64encode [x01; x02; x03; x04; x05])]).
Proof.
  split; [|split].
  - exists (cx_entry 42 (cx_body ++ [NL] ++ sig_line (s2l "a") (s2l "AAAAA"))).
    vm_compute. reflexivity.
  - exists (cx_entry 42 (cx_body ++ [NL] ++ sig_line (s2l "a") [233])).
    vm_compute. reflexivity.
  - exists (cx_entry 42 (lines_text [s2l "o"; s2l "1"; [233]] ++ [NL] ++
              sig_line (s2l "a") (b64encode [x01; x02; x03; x04; x05]))).
    eexists. eexists. split; [reflexivity|]. split; [reflexivity|].
    split; vm_compute; reflexivity.
Qed.

(** Expectation "the checkpoint commits to the proof's tree size": false.  The size in
    the signed body (42) is never compared with the proof's tree size. *)
Theorem C05_tree_size_is_committed_refuted :
  exists e ip text cp note, le_proof e = Some ip /\ ip_checkpoint ip = Some text /\
    signed_checkpoint_from_text cx_env text = Ok (note, cp) /\
    lc_size cp <> ip_tree_size ip /\ cx_verify e = Ok tt.
Proof.
  exists (cx_entry 7 (signed_note_text cx_body (cx_sigs cx_body))).
  eexists. eexists. eexists. eexists.
  split; [reflexivity|]. split; [reflexivity|]. split; [vm_compute; reflexivity|].
  split; [vm_compute; discriminate|]. vm_compute. reflexivity.
Qed.

(** Expectation "every line after the separator is a signature": false.  Lines that
    do not look like signatures are skipped. *)
Theorem C07_only_signature_lines_refuted :
  exists junk e ip, le_proof e = Some ip /\
    ip_checkpoint ip = Some (cx_body ++ [NL] ++ junk ++
       sig_line (s2l "x") (b64encode (firstn 4 cx_id ++ cx_sig cx_body))) /\
    junk = s2l "this is no signature line" ++ [NL] /\ cx_verify e = Ok tt.
Proof.
  eexists. eexists (cx_entry 42 _). eexists.
  split; [reflexivity|]. split; [reflexivity|]. split; [reflexivity|]. vm_compute. reflexivity.
Qed.

Print Assumptions C05_accepted_checkpoint.
Print Assumptions C05_tree_size_is_committed_refuted.
Print Assumptions C06_checkpoint_exceptions.
Print Assumptions C06_only_verification_error_refuted.
Print Assumptions C07_body_roundtrip.
Print Assumptions C07_note_roundtrip.
Print Assumptions C07_verification_of_well_formed_checkpoints.
Print Assumptions C07_only_signature_lines_refuted.
