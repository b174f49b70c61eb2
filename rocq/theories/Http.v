(** [requests] and the dynamic Python operations applied to decoded JSON. *)
From Verif Require Import Base Codec Messages Json.

(** ** [requests.Response]: status, text, decoded JSON ([None]: not JSON), raw content *)
Record response := mkResp { r_status : Z; r_text : str; r_json : option json; r_content : bytes }.

(** [requests.RequestException]: failures to connect and time-outs ([ConnectionError], [Timeout]),
    [HTTPError], and the rest of them (redirect loops, unusable URLs, broken answers) *)
Definition EConnection : exn := EBackend 20.
Definition EHTTPError : exn := EBackend 21.
Definition ERequest : exn := EBackend 22.
Definition is_request_exception (e : exn) : bool := exn_eqb e EConnection || exn_eqb e EHTTPError || exn_eqb e ERequest.

(** [Response.ok]; also the truth value of a response *)
Definition resp_ok (r : response) : bool := negb ((400 <=? r_status r) && (r_status r <? 600))%Z.
Definition resp_truthy : response -> bool := resp_ok.

(** [Response.raise_for_status] *)
Definition raise_for_status (r : response) : res unit := raise_if (negb (resp_ok r)) EHTTPError.

(** [Response.json]; [JSONDecodeError] is a ValueError *)
Definition resp_json (r : response) : res json :=
  match r_json r with Some j => Ok j | None => Raise EValue end.

(** ** Requests sent *)
Inductive http_request (B : Type) : Type :=
| GET (url : str) (params : list (str * str))
| POST (url : str) (body : B).
Arguments GET {B}.
Arguments POST {B}.

(** ** Python on JSON values *)

(** [v[k]] with a text key *)
Definition py_item (v : json) (k : str) : res json :=
  match v with
  | JObj d => match assoc str_eqb k d with Some x => Ok x | None => Raise EKey end
  | _ => Raise EType
  end.

(** [v[i]] with a small non-negative number *)
Definition py_nth (v : json) (i : nat) : res json :=
  match v with
  | JList l => index_list l i
  | JStr s => let* c := index_list s i in Ok (JStr [c])
  | JObj _ => Raise EKey
  | _ => Raise EType
  end.

(** [list(v.items())] *)
Definition py_items (v : json) : res (list (str * json)) :=
  match v with JObj d => Ok d | _ => Raise EAttribute end.

(** [for x in v] *)
Definition py_iter (v : json) : res (list json) :=
  match v with
  | JList l => Ok l
  | JStr s => Ok (map (fun c => JStr [c]) s)
  | JObj d => Ok (map (fun kv => JStr (fst kv)) d)
  | _ => Raise EType
  end.

(** [len(v)] *)
Definition py_len (v : json) : res nat := let* l := py_iter v in Ok (length l).

(** [v[n:]] with a small non-negative number *)
Definition py_tail (v : json) (n : nat) : res json :=
  match v with
  | JList l => Ok (JList (skipn n l))
  | JStr s => Ok (JStr (skipn n s))
  | _ => Raise EType
  end.

(** [bytes.fromhex(v)] *)
Definition py_fromhex (v : json) : res bytes :=
  match v with
  | JStr s => match fromhex s with Some b => Ok b | None => Raise EValue end
  | _ => Raise EType
  end.

(** [base64.b64decode(v)] *)
Definition py_b64decode (v : json) : res bytes :=
  match v with JStr s => b64decode s | _ => Raise EType end.

(** [v.encode()] *)
Definition py_encode_json (v : json) : res bytes :=
  match v with
  | JStr s => match utf8_encode s with Some b => Ok b | None => Raise EUnicodeEncode end
  | _ => Raise EAttribute
  end.
