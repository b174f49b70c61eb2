(** In-toto statements as JSON: sigstore/dsse/__init__.py:38-72 [Digest], [DigestSet], [Subject],
    [_Statement], read by [model_validate_json] (95) and written by [model_dump_json(by_alias=True)] (100).
    A predicate is represented by the text pydantic writes for it. *)
From Verif Require Import Base Codec Json PyText Dsse JsonText.

(** dsse/__init__.py:38 [Digest] *)
Definition ALL_DIGESTS : list digest_name := [D_sha256; D_sha384; D_sha512; D_sha3_256; D_sha3_384; D_sha3_512].
Definition digest_text (d : digest_name) : str :=
  match d with
  | D_sha256 => s2l "sha256"
  | D_sha384 => s2l "sha384"
  | D_sha512 => s2l "sha512"
  | D_sha3_256 => s2l "sha3_256"
  | D_sha3_384 => s2l "sha3_384"
  | D_sha3_512 => s2l "sha3_512"
  end.
Definition digest_named (s : str) : option digest_name := find (fun d => str_eqb s (digest_text d)) ALL_DIGESTS.

(** dsse/__init__.py:68 *)
Definition STATEMENT_TYPE : str := s2l "https://in-toto.io/Statement/v1".

(** ** Reading *)

(** dsse/__init__.py:47 [DigestSet]: every name must be known, every value a string *)
Fixpoint read_digests (o : list (str * json)) : option (list (digest_name * str)) :=
  match o with
  | nil => Some nil
  | (k, JStr v) :: r =>
    match digest_named k, read_digests r with
    | Some d, Some l => Some ((d, v) :: l)
    | _, _ => None
    end
  | _ :: _ => None
  end.
(** dsse/__init__.py:53-59 [Subject]: [name] may be null but not be missing; other members are ignored *)
Definition read_subject (j : json) : option Subject :=
  match j with
  | JObj o =>
    match assoc str_eqb (s2l "name") o, assoc str_eqb (s2l "digest") o with
    | Some JNull, Some (JObj ds) => match read_digests ds with Some l => Some (mkSubject None l) | None => None end
    | Some (JStr n), Some (JObj ds) => match read_digests ds with Some l => Some (mkSubject (Some n) l) | None => None end
    | _, _ => None
    end
  | _ => None
  end.
Fixpoint read_subjects (l : list json) : option (list Subject) :=
  match l with
  | nil => Some nil
  | j :: r => match read_subject j, read_subjects r with Some s, Some ss => Some (s :: ss) | _, _ => None end
  end.

(** dsse/__init__.py:66 [populate_by_name=True]: the alias, else the name of the field *)
Definition by_alias_or_name (alias name : str) (o : list (str * json)) : option json :=
  match assoc str_eqb alias o with Some j => Some j | None => assoc str_eqb name o end.

Section Statement.
Variable lib : JsonLib.

(** dsse/__init__.py:71 *)
Definition read_predicate_field (o : list (str * json)) : option (option str) :=
  match assoc str_eqb (s2l "predicate") o with
  | None | Some JNull => Some None
  | Some (JObj p) => Some (Some (write lib (JObj p)))
  | Some _ => None
  end.
(** dsse/__init__.py:62-72 [_Statement]; other members are ignored *)
Definition read_statement (j : json) : option StatementInner :=
  match j with
  | JObj o =>
    match by_alias_or_name (s2l "_type") (s2l "type_") o with
    | Some (JStr t) =>
      if str_eqb t STATEMENT_TYPE then
        match by_alias_or_name (s2l "subject") (s2l "subjects") o with
        | Some (JList (x :: l)) =>
          match read_subjects (x :: l), by_alias_or_name (s2l "predicateType") (s2l "predicate_type") o, read_predicate_field o with
          | Some subs, Some (JStr pt), Some p => Some (mkStatementInner subs pt p)
          | _, _, _ => None
          end
        | _ => None
        end
      else None
    | _ => None
    end
  | _ => None
  end.
(** dsse/__init__.py:95 [_Statement.model_validate_json] *)
Definition validate_json (b : bytes) : option StatementInner :=
  match read_bytes lib b with Some j => read_statement j | None => None end.

(** ** Writing *)

(** a member of an object, given the text of its value *)
Definition member (k v : str) : str := write_str k ++ COLON :: v.
Definition object (l : list (str * str)) : str := s2l "{" ++ join_on COMMA (map (fun kv => member (fst kv) (snd kv)) l) ++ s2l "}".

Definition digests_text (l : list (digest_name * str)) : str := object (map (fun dv => (digest_text (fst dv), write_str (snd dv))) l).
Definition subject_text (s : Subject) : str :=
  object [(s2l "name", match sub_name s with Some n => write_str n | None => s2l "null" end); (s2l "digest", digests_text (sub_digest s))].
(** dsse/__init__.py:100 [contents.model_dump_json(by_alias=True)]: in the order of the fields *)
Definition statement_text (st : StatementInner) : str :=
  object [(s2l "_type", write_str STATEMENT_TYPE);
          (s2l "subject", s2l "[" ++ join_on COMMA (map subject_text (st_subjects st)) ++ s2l "]");
          (s2l "predicateType", write_str (st_predicate_type st));
          (s2l "predicate", match st_predicate st with Some p => p | None => s2l "null" end)].
(** dsse/__init__.py:100 with [encode()]; [None]: a lone surrogate, which pydantic cannot serialize *)
Definition dump_json (st : StatementInner) : option bytes := utf8_encode (statement_text st).
End Statement.
