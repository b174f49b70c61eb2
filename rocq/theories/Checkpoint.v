(** sigstore/_internal/rekor/checkpoint.py *)
From Verif Require Import Base Codec PyText Messages Env Keyring.
Local Open Scope N_scope.

Definition NL : N := 10.
Definition SP : N := 32.
Definition EM_DASH : N := 8212.

(** checkpoint.py:38-50 [RekorSignature]; [rs_signature] is the base64 text *)
Record RekorSignature := mkRS { rs_name : str; rs_hash : bytes; rs_signature : str }.

(** checkpoint.py:53-68 [LogCheckpoint] *)
Record LogCheckpoint := mkLC {
  lc_origin : str; lc_size : Z; lc_hash : str; lc_other : list str }.

(** checkpoint.py:113-195 [SignedNote] *)
Record SignedNote := mkNote { sn_note : str; sn_signatures : list RekorSignature }.

(** [text.count] of the two-newline separator (non-overlapping) *)
Fixpoint count_sep (t : str) : nat :=
  match t with
  | nil => 0%nat
  | c :: r =>
    match r with
    | nil => 0%nat
    | c' :: r' => if (c =? NL) && (c' =? NL) then S (count_sep r') else count_sep r
    end
  end.

(** checkpoint.py:141-145: [split = text.index(sep)], [text[:split+1]],
    [text[split+2:]] *)
Fixpoint split_sep (t : str) : option (str * str) :=
  match t with
  | nil => None
  | c :: r =>
    match r with
    | nil => None
    | c' :: r' =>
      if (c =? NL) && (c' =? NL) then Some ([c], r')
      else match split_sep r with
           | Some (h, d) => Some (c :: h, d)
           | None => None
           end
    end
  end.

(** Longest prefix of non-space characters (regex [\S+], greedy; no shorter match
    can be followed by the space or newline the pattern requires). *)
Fixpoint span_nonspace (t : str) : str * str :=
  match t with
  | nil => (nil, nil)
  | c :: r => if is_space c then (nil, t)
              else let '(a, b) := span_nonspace r in (c :: a, b)
  end.

(** A match of the pattern "em-dash, space, non-spaces, space, non-spaces, newline" at
    the start of [t] (checkpoint.py:156): both groups and the length of the match. *)
Definition match_sig (t : str) : option (str * str * nat) :=
  match t with
  | d :: s :: r =>
    if (d =? EM_DASH) && (s =? SP) then
      match span_nonspace r with
      | (n0 :: name, s' :: r2) =>
        if s' =? SP then
          match span_nonspace r2 with
          | (g0 :: sig, nl :: _) =>
            if nl =? NL
            then Some (n0 :: name, g0 :: sig,
                       (2 + length (n0 :: name) + 1 + length (g0 :: sig) + 1)%nat)
            else None
          | _ => None
          end
        else None
      | _ => None
      end
    else None
  | _ => None
  end.

(** [re.findall]: leftmost, non-overlapping. [skip] characters belong to the
    previous match. *)
Fixpoint findall_sigs (skip : nat) (t : str) : list (str * str) :=
  match t with
  | nil => nil
  | _ :: r =>
    match skip with
    | S k => findall_sigs k r
    | O => match match_sig t with
           | Some (n, s, len) => (n, s) :: findall_sigs (len - 1) r
           | None => findall_sigs 0 r
           end
    end
  end.

(** checkpoint.py:158-170, loop body *)
Definition parse_signature (p : str * str) : res RekorSignature :=
  let '(name, signature) := p in
  let* sb := b64decode signature in
  do* raise_if (Nat.ltb (length sb) 5) EVerification in
  Ok (mkRS name (firstn 4 sb) (b64encode (skipn 4 sb))).

(** [data[-1] != newline] *)
Definition ends_with_nl (d : str) : bool := last d 0 =? NL.

(** checkpoint.py:121-172 [SignedNote.from_text] *)
Definition note_from_text (text : str) : res SignedNote :=
  do* raise_if (negb (Nat.eqb (count_sep text) 1)) EVerification in
  match split_sep text with
  | None => Raise EValue
  | Some (header, data) =>
    do* raise_if (Nat.eqb (length data) 0) EVerification in
    do* raise_if (negb (ends_with_nl data)) EVerification in
    let* sigs := map_res parse_signature (findall_sigs 0 data) in
    Ok (mkNote header sigs)
  end.

(** pydantic [str] validation of a Python text: lone surrogates are refused *)
Definition pydantic_str (s : str) : res unit :=
  raise_if (negb (forallb is_scalar s)) EPydantic.

Section Checkpoint.
Variable env : Env.

(** checkpoint.py:70-99 [LogCheckpoint.from_text] *)
Definition checkpoint_from_text (text : str) : res LogCheckpoint :=
  match split_on NL (strip text) with
  | origin :: size :: hash :: other =>
    do* raise_if (Nat.eqb (length origin) 0) EVerification in
    match py_int (e_udecimal env) size with
    | None => Raise EVerification
    | Some log_size =>
      let* root := try_except (b64decode hash)
                     (fun e => exn_eqb e EBinascii) (fun _ => Raise EVerification) in
      do* pydantic_str origin in
      do* for_each pydantic_str other in
      Ok (mkLC origin log_size (hex root) other)
    end
  | _ => Raise EVerification
  end.

(** checkpoint.py:207-215 [SignedCheckpoint.from_text] *)
Definition signed_checkpoint_from_text (text : str) : res (SignedNote * LogCheckpoint) :=
  let* note := note_from_text text in
  let* cp := checkpoint_from_text (sn_note note) in
  Ok (note, cp).

(** checkpoint.py:181-195, the loop of [SignedNote.verify] *)
Fixpoint verify_sigs (kr : keyring) (kid note : bytes) (sigs : list RekorSignature) : res unit :=
  match sigs with
  | nil => Raise EVerification
  | s :: rest =>
    if bytes_eqb (rs_hash s) (firstn 4 kid) then
      try_except
        (let* raw := b64decode (rs_signature s) in keyring_verify env kr kid raw note)
        is_verification_error (fun _ => Raise EVerification)
    else verify_sigs kr kid note rest
  end.

(** checkpoint.py:174-195 [SignedNote.verify] *)
Definition note_verify (kr : keyring) (kid : bytes) (n : SignedNote) : res unit :=
  match utf8_encode (sn_note n) with
  | None => Raise EUnicodeEncode
  | Some note => verify_sigs kr kid note (sn_signatures n)
  end.

(** checkpoint.py:218-243 [verify_checkpoint].  A missing inclusion proof (which
    [TransparencyLogEntry] excludes) would be an AttributeError. *)
Definition verify_checkpoint (kr : keyring) (e : LogEntry) : res unit :=
  match le_proof e with
  | None => Raise EAttribute
  | Some ip =>
    match ip_checkpoint ip with
    | None => Raise EVerification
    | Some text =>
      let* '(note, cp) := signed_checkpoint_from_text text in
      do* note_verify kr (le_log_id e) note in
      raise_if (negb (str_eqb (lc_hash cp) (hex (ip_root_hash ip)))) EVerification
    end
  end.
End Checkpoint.
