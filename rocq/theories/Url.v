(** URLs: what sigstore-python uses of Python's [urllib.parse], as the clients and the OAuth flow call it
    (fulcio/client.py:181-199, oidc.py:250-252, oauth.py:161, 173, 225).  A model of CPython's code, which is not
    part of the repository. *)
From Verif Require Import Base Messages Codec PyText Tuf.
Local Open Scope N_scope.

(** What depends on the version of the library and on its tables: which hosts in brackets or with characters
    outside ASCII are refused ([_check_bracketed_host], [_checknetloc]), and how bytes that are not UTF-8 are
    decoded with [errors="replace"]. *)
Record UrlLib := mkUL {
  ul_netloc : str -> bool;
  ul_replace : bytes -> str
}.

Definition HASH : N := 35.
Definition SLASH : N := 47.
Definition COLON : N := 58.
Definition SEMICOLON : N := 59.
Definition QUESTION : N := 63.

Definition has (c : N) (s : str) : bool := existsb (N.eqb c) s.
(** [s.split(sep, 1)], if the separator occurs *)
Fixpoint cut (sep : N) (s : str) : option (str * str) :=
  match s with
  | nil => None
  | c :: r => if c =? sep then Some (nil, r) else match cut sep r with Some (a, b) => Some (c :: a, b) | None => None end
  end.
Definition cut_or (sep : N) (s : str) : str * str := match cut sep s with Some ab => ab | None => (s, nil) end.

(** ** [urlsplit] *)

(** [url.lstrip(_WHATWG_C0_CONTROL_OR_SPACE)] *)
Fixpoint lstrip_c0 (s : str) : str := match s with c :: r => if c <=? 32 then lstrip_c0 r else s | nil => nil end.
(** [_UNSAFE_URL_BYTES_TO_REMOVE]: tabs, carriage returns and newlines *)
Definition unsafe (c : N) : bool := (c =? 9) || (c =? 10) || (c =? 13).
Definition sanitise (s : str) : str := filter (fun c => negb (unsafe c)) (lstrip_c0 s).

Definition is_upper (c : N) : bool := (65 <=? c) && (c <=? 90).
Definition is_letter (c : N) : bool := is_upper c || (97 <=? c) && (c <=? 122).
(** [scheme_chars] *)
Definition scheme_char (c : N) : bool := is_letter c || is_digit c || (c =? 43) || (c =? 45) || (c =? 46).
(** [str.lower] for ASCII *)
Definition lower (s : str) : str := map (fun c => if is_upper c then c + 32 else c) s.
Definition split_scheme (default s : str) : str * str :=
  match cut COLON s with
  | Some (c :: p, r) => if is_letter c && forallb scheme_char (c :: p) then (lower (c :: p), r) else (default, s)
  | _ => (default, s)
  end.

(** [_splitnetloc] *)
Definition ends_netloc (c : N) : bool := (c =? SLASH) || (c =? QUESTION) || (c =? HASH).
Fixpoint span_netloc (s : str) : str * str :=
  match s with
  | nil => (nil, nil)
  | c :: r => if ends_netloc c then (nil, s) else let (a, b) := span_netloc r in (c :: a, b)
  end.
Definition split_netloc (s : str) : str * str :=
  match s with
  | c :: d :: r => if (c =? SLASH) && (d =? SLASH) then span_netloc r else (nil, s)
  | _ => (nil, s)
  end.

Record Split := mkSplit { sp_scheme : str; sp_netloc : str; sp_path : str; sp_query : str; sp_fragment : str }.

Section Url.
Variable lib : UrlLib.

Definition netloc_ok (n : str) : bool :=
  if xorb (has 91 n) (has 93 n) then false
  else if negb (has 91 n) && forallb (fun c => c <? 128) n then true
  else ul_netloc lib n.

(** [urllib.parse.urlsplit(url, scheme)] *)
Definition urlsplit (default url : str) : res Split :=
  let (scheme, r) := split_scheme default (sanitise url) in
  let (netloc, r) := split_netloc r in
  if netloc_ok netloc then
    let (r, fragment) := cut_or HASH r in
    let (p, query) := cut_or QUESTION r in
    Ok (mkSplit scheme netloc p query fragment)
  else Raise EValue.

(** ** [urljoin] *)

Definition mem_str (x : str) (l : list str) : bool := existsb (str_eqb x) l.
Definition USES_RELATIVE : list str :=
  map s2l [""; "ftp"; "http"; "gopher"; "nntp"; "imap"; "wais"; "file"; "https"; "shttp"; "mms"; "prospero"; "rtsp"; "rtsps"; "rtspu";
           "sftp"; "svn"; "svn+ssh"; "ws"; "wss"]%string.
Definition USES_NETLOC : list str :=
  map s2l [""; "ftp"; "http"; "gopher"; "nntp"; "telnet"; "imap"; "wais"; "file"; "mms"; "https"; "shttp"; "snews"; "prospero"; "rtsp";
           "rtsps"; "rtspu"; "rsync"; "svn"; "svn+ssh"; "sftp"; "nfs"; "git"; "git+ssh"; "ws"; "wss"]%string.
Definition USES_PARAMS : list str :=
  map s2l [""; "ftp"; "hdl"; "prospero"; "http"; "imap"; "https"; "shttp"; "rtsp"; "rtsps"; "rtspu"; "sip"; "sips"; "mms"; "sftp"; "tel"]%string.

(** what is up to and including the last slash, and what follows it *)
Fixpoint after_slash (s : str) : str * str :=
  match s with
  | nil => (nil, nil)
  | c :: r =>
    match after_slash r with
    | (nil, b) => if c =? SLASH then ([c], b) else (nil, c :: b)
    | (a, b) => (c :: a, b)
    end
  end.
(** [_splitparams], if there is a semicolon *)
Definition split_params (scheme p : str) : str * str :=
  if mem_str scheme USES_PARAMS then
    let (dir, last) := after_slash p in let (name, params) := cut_or SEMICOLON last in (dir ++ name, params)
  else (p, nil).

(** [urllib.parse.urlunparse], [urlunsplit] *)
Definition urlunparse (scheme netloc p params query fragment : str) : str :=
  let p := match params with nil => p | _ => p ++ SEMICOLON :: params end in
  let slashes := negb (str_eqb netloc nil) || negb (str_eqb scheme nil) && mem_str scheme USES_NETLOC || str_eqb (firstn 2 p) (s2l "//") in
  let p := if slashes then s2l "//" ++ netloc ++ match p with nil => nil | c :: _ => if c =? SLASH then p else SLASH :: p end else p in
  let p := match scheme with nil => p | _ => scheme ++ COLON :: p end in
  let p := match query with nil => p | _ => p ++ QUESTION :: query end in
  match fragment with nil => p | _ => p ++ HASH :: fragment end.

Definition last_seg (l : list str) : str := last l nil.
(** [segments[1:-1] = filter(None, segments[1:-1])] *)
Definition filter_middle (l : list str) : list str :=
  match l with
  | nil => nil
  | x :: nil => [x]
  | x :: r => x :: filter (fun s => negb (str_eqb s nil)) (removelast r) ++ [last_seg r]
  end.
Definition dot (s : str) : bool := str_eqb s (s2l ".").
Definition dotdot (s : str) : bool := str_eqb s (s2l "..").
Definition resolve (segs : list str) : list str :=
  fold_left (fun acc s => if dotdot s then removelast acc else if dot s then acc else acc ++ [s]) segs nil ++
  (if dot (last_seg segs) || dotdot (last_seg segs) then [nil] else nil).

(** [urllib.parse.urljoin(base, url)] *)
Definition urljoin (base url : str) : res str :=
  match base, url with
  | nil, _ => Ok url
  | _, nil => Ok base
  | _, _ =>
    let* b := urlsplit nil base in
    let (bpath, bparams) := split_params (sp_scheme b) (sp_path b) in
    let* u := urlsplit (sp_scheme b) url in
    let scheme := sp_scheme u in
    let (p, params) := split_params scheme (sp_path u) in
    if negb (str_eqb scheme (sp_scheme b)) || negb (mem_str scheme USES_RELATIVE) then Ok url
    else if mem_str scheme USES_NETLOC && negb (str_eqb (sp_netloc u) nil)
    then Ok (urlunparse scheme (sp_netloc u) p params (sp_query u) (sp_fragment u))
    else
      let netloc := if mem_str scheme USES_NETLOC then sp_netloc b else sp_netloc u in
      match p, params with
      | nil, nil =>
        Ok (urlunparse scheme netloc bpath bparams (match sp_query u with nil => sp_query b | q => q end) (sp_fragment u))
      | _, _ =>
        let parts := split_on SLASH bpath in
        let parts := if str_eqb (last_seg parts) nil then parts else removelast parts in
        let segs := match p with
                    | c :: _ => if c =? SLASH then split_on SLASH p else filter_middle (parts ++ split_on SLASH p)
                    | nil => filter_middle (parts ++ split_on SLASH p)
                    end in
        let joined := join_on SLASH (resolve segs) in
        Ok (urlunparse scheme netloc (match joined with nil => [SLASH] | _ => joined end) params (sp_query u) (sp_fragment u))
      end
  end.

(** ** Queries *)

(** [urllib.parse.quote_plus(s)] *)
Definition quote_plus (s : str) : res str :=
  match utf8_encode s with
  | Some b => Ok (flat_map (fun x => if b2n x =? 32 then [43] else quote_byte x) b)
  | None => Raise EUnicodeEncode
  end.
(** [urllib.parse.urlencode(params)] for texts *)
Fixpoint encode_fields (l : list (str * str)) : res (list str) :=
  match l with
  | nil => Ok nil
  | (k, v) :: r => let* k' := quote_plus k in let* v' := quote_plus v in let* r' := encode_fields r in Ok ((k' ++ 61 :: v') :: r')
  end.
Definition urlencode (l : list (str * str)) : res str := let* fs := encode_fields l in Ok (join_on 38 fs).

(** [unquote_to_bytes] of ASCII text *)
Fixpoint unquote_bytes (s : str) : bytes :=
  match s with
  | nil => nil
  | c :: r =>
    if c =? 37 then
      match r with
      | a :: b :: r2 =>
        match hex_value a, hex_value b with
        | Some x, Some y => n2b (16 * x + y) :: unquote_bytes r2
        | _, _ => n2b c :: unquote_bytes r
        end
      | _ => n2b c :: unquote_bytes r
      end
    else n2b c :: unquote_bytes r
  end.
Definition decode_replace (b : bytes) : str := match utf8_decode b with Some s => s | None => ul_replace lib b end.
(** [urllib.parse.unquote]: every run of ASCII characters for itself *)
Fixpoint unquote_runs (run s : str) : str :=
  match s with
  | nil => decode_replace (unquote_bytes run)
  | c :: r => if c <? 128 then unquote_runs (run ++ [c]) r else decode_replace (unquote_bytes run) ++ c :: unquote_runs nil r
  end.
Definition unquote (s : str) : str := unquote_runs nil s.
(** [s.replace("+", " ")], then [unquote]: what [parse_qsl] makes of a name or a value *)
Definition replace_plus (s : str) : str := map (fun c => if c =? 43 then 32 else c) s.
Definition form_decode (s : str) : str := unquote (replace_plus s).
(** [urllib.parse.parse_qs] with its default arguments: fields without a value or with an empty one are
    dropped, and the values of a name are collected in the order of their appearance *)
Fixpoint add_value (k v : str) (d : list (str * list str)) : list (str * list str) :=
  match d with
  | nil => [(k, [v])]
  | (k', vs) :: d' => if str_eqb k k' then (k', vs ++ [v]) :: d' else (k', vs) :: add_value k v d'
  end.
Definition parse_qs (q : str) : list (str * list str) :=
  fold_left (fun d f =>
    match cut 61 f with
    | Some (k, v) => match v with nil => d | _ => add_value (form_decode k) (form_decode v) d end
    | None => d
    end) (split_on 38 q) nil.
End Url.

(** ** The URLs of the requests *)

(** fulcio/client.py:182-188 [FulcioClient.signing_cert], [trust_bundle]: see Clients.v.
    oidc.py:250-252 [Issuer.__init__]: see Oauth.v. *)

(** oauth.py:214-225 [auth_endpoint]: the URL that the browser is sent to, or that is shown *)
Definition authorization_url (endpoint : str) (params : list (str * str)) : res str :=
  let* q := urlencode params in Ok (endpoint ++ QUESTION :: q).
