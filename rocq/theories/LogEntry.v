(** sigstore/models.py: [TransparencyLogEntry] (construction and verification). *)
From Verif Require Import Base Codec Messages Env Keyring Merkle Checkpoint.

(** models.py:92-103 [TransparencyLogEntry._validate] *)
Definition entry_validate (e : LogEntry) : res unit :=
  match le_proof e with
  | None => Raise EInvalidBundle
  | Some ip => match ip_checkpoint ip with
               | None => Raise EInvalidBundle
               | Some _ => Ok tt
               end
  end.

(** models.py:83-90 [TransparencyLogEntry.__init__] *)
Definition make_entry (inner : LogEntry) : res LogEntry :=
  do* entry_validate inner in Ok inner.

(** [rfc8785.dumps] of an int: integers outside the interoperable range raise
    [IntegerDomainError], a ValueError. *)
Definition json_int (z : Z) : res str :=
  if ((-9007199254740991 <=? z) && (z <=? 9007199254740991))%Z
  then Ok (dec_Z z) else Raise EValue.

(** A JSON string literal for text that needs no escaping (base64, hex). *)
Definition json_plain (s : str) : str := [34%N] ++ s ++ [34%N].

(** models.py:170-192 [_encode_canonical]; [rfc8785.dumps] sorts the four keys (they
    are in order already) and writes no white space. *)
Definition encode_canonical (e : LogEntry) : res bytes :=
  match le_integrated_time e with
  | None => Raise EValue
  | Some t =>
    let* ti := json_int t in
    let* li := json_int (le_log_index e) in
    Ok (ascii_bytes
      (s2l "{" ++ json_plain (s2l "body") ++ s2l ":" ++ json_plain (b64encode (le_body e)) ++
       s2l "," ++ json_plain (s2l "integratedTime") ++ s2l ":" ++ ti ++
       s2l "," ++ json_plain (s2l "logID") ++ s2l ":" ++ json_plain (hex (le_log_id e)) ++
       s2l "," ++ json_plain (s2l "logIndex") ++ s2l ":" ++ li ++ s2l "}"))
  end.

Section Entry.
Variable env : Env.

(** models.py:194-214 [_verify_set] *)
Definition verify_set (kr : keyring) (e : LogEntry) : res unit :=
  match le_promise e with
  | None => Raise EVerification
  | Some set =>
    try_except
      (let* data := encode_canonical e in keyring_verify env kr (le_log_id e) set data)
      is_verification_error (fun _ => Raise EVerification)
  end.

(** [if inclusion_promise and integrated_time] *)
Definition has_set (e : LogEntry) : bool :=
  match le_promise e, le_integrated_time e with
  | Some _, Some t => negb (t =? 0)%Z
  | _, _ => false
  end.

(** models.py:216-239 [TransparencyLogEntry._verify] *)
Definition entry_verify (kr : keyring) (e : LogEntry) : res unit :=
  do* verify_merkle_inclusion (e_hash env SHA256) e in
  do* verify_checkpoint env kr e in
  if has_set e then verify_set kr e else Ok tt.
End Entry.
