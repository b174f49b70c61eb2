(** sigstore/_internal/oidc/oauth.py and [Issuer] of sigstore/oidc.py: the interactive OAuth flow.

    Two threads are involved: the caller of [Issuer.identity_token] and the redirect server, which
    handles requests one at a time.  They share the session and the server object. *)
From Verif Require Import Base Messages Env Codec PyText Json Oidc Http.
From Verif Require Url.

(** [base64.urlsafe_b64encode(b).rstrip(b"=")] *)
Definition urlsafe_nopad (b : bytes) : str :=
  map (fun c => if N.eqb c 43 then 45%N else if N.eqb c 47 then 95%N else c) (filter (fun c => negb (N.eqb c 61)) (b64encode b)).

(** ** The session *)

(** oauth.py:188-198 [_OAuthSession.__init__] and oauth.py:240-285 [_OAuthRedirectServer]: what
    does not change.  [s_state] is a random UUID, [s_verifier] 32 random bytes in base64. *)
Record Session := mkSession {
  s_client_id : str;
  s_client_secret : str;
  s_auth_endpoint : str;
  s_state : str;
  s_verifier : str;
  s_port : Z
}.

Section Flow.
Variable env : Env.
Variable ul : Url.UrlLib.
Variable se : Session.

(** oauth.py:205-212 [code_challenge] *)
Definition code_challenge : str := urlsafe_nopad (e_hash env SHA256 (ascii_bytes (s_verifier se))).

(** oauth.py:184 *)
Definition OOB_REDIRECT_URI : str := s2l "urn:ietf:wg:oauth:2.0:oob".
(** oauth.py:254-257 [base_uri] *)
Definition base_uri : str := s2l "http://localhost:" ++ dec_Z (s_port se).
(** oauth.py:260-262 [auth_request_path] *)
Definition auth_request_path : str := s2l "/".
(** oauth.py:265-266 [redirect_path] *)
Definition redirect_path : str := s2l "/auth/callback".
(** oauth.py:269-274 [redirect_uri] *)
Definition redirect_uri (oob : bool) : str := if oob then OOB_REDIRECT_URI else base_uri ++ redirect_path.

(** oauth.py:227-237 [_auth_params] *)
Definition auth_params (uri : str) : list (str * str) :=
  [ (s2l "response_type", s2l "code");
    (s2l "client_id", s_client_id se);
    (s2l "client_secret", s_client_secret se);
    (s2l "scope", s2l "openid email");
    (s2l "redirect_uri", uri);
    (s2l "code_challenge", code_challenge);
    (s2l "code_challenge_method", s2l "S256");
    (s2l "state", s_state se) ].
(** oauth.py:224-225: the URL that the browser is sent to, or that is shown *)
Definition auth_url (uri : str) : res str := Url.authorization_url (s_auth_endpoint se) (auth_params uri).
(** [send_header("Location", url)] encodes the line in Latin-1 *)
Definition latin1 (s : str) : bool := forallb (fun c => N.ltb c 256) s.

(** oauth.py:161: path and query of a request; a path that cannot be split raises ValueError *)
Definition split_path (path : str) : option (str * str) :=
  match Url.urlsplit ul nil path with Ok r => Some (Url.sp_path r, Url.sp_query r) | Raise _ => None end.

(** ** The two threads *)

(** the server thread: between requests, or inside [auth_endpoint] before the test and before the
    assignment of the flag (oauth.py:214-225) *)
Inductive server_pc : Type := S_idle | S_check (uri : str) | S_set (uri : str).
(** the thread of [identity_token] *)
Inductive main_pc : Type :=
| M_open                  (* about to open the browser *)
| M_enable                (* about to enable the out-of-band flow *)
| M_check                 (* in [auth_endpoint], before the test *)
| M_set                   (* in [auth_endpoint], before the assignment *)
| M_input                 (* waiting for the user to enter the code *)
| M_wait                  (* polling for the response *)
| M_done (r : res str).   (* left the loop with a code or an exception *)

(** what can be observed from outside *)
Inductive oevent : Type :=
| O_not_found (path : str)                                      (* answered with 404 *)
| O_callback (path : str)                                       (* answered with 200 *)
| O_redirect (url : str)                                          (* answered with 302 to this URL *)
| O_dropped                                                     (* connection closed without an answer *)
| O_shown (url : str)                                             (* printed for the user *)
| O_entered (code : str).                                       (* typed by the user *)

Record world := mkWorld {
  w_poison : bool;
  w_oob : bool;
  w_response : option (list (str * list str));
  w_server : server_pc;
  w_main : main_pc;
  w_log : list oevent
}.
(** oauth.py:188-198 and 241-251: at the start *)
Definition w_init : world := mkWorld false false None S_idle M_open nil.

(** [id.IdentityError], which is not a sigstore exception *)
Definition EIdIdentity : exn := EBackend 30.

(** oidc.py:318-327: what the response means *)
Definition judge (r : list (str * list str)) : res str :=
  match assoc str_eqb (s2l "error") r with
  | Some _ => Raise EIdentity
  | None =>
    match assoc str_eqb (s2l "state") r with
    | None => Raise EKey
    | Some st =>
      let* st0 := index_list st 0 in
      if negb (str_eqb st0 (s_state se)) then Raise EIdentity else
      match assoc str_eqb (s2l "code") r with
      | None => Raise EKey
      | Some cs => index_list cs 0
      end
    end
  end.

(** One step of either thread.  [force]: the [force_oob] argument. *)
Inductive wstep (force : bool) : world -> world -> Prop :=
(** oauth.py:145-181 [do_GET] *)
| ws_teardown : forall p o r m l path,
    wstep force (mkWorld p o (Some r) S_idle m l) (mkWorld p o (Some r) S_idle m (l ++ [O_not_found path]))
| ws_callback : forall p o m l path q,
    split_path path = Some (redirect_path, q) ->
    wstep force (mkWorld p o None S_idle m l) (mkWorld p o (Some (Url.parse_qs ul q)) S_idle m (l ++ [O_callback path]))
| ws_lost : forall p o r m l,   (* the request or its path cannot be parsed, or writing the answer fails *)
    wstep force (mkWorld p o r S_idle m l) (mkWorld p o r S_idle m (l ++ [O_dropped]))
| ws_start : forall p o m l path q,
    split_path path = Some (auth_request_path, q) ->
    wstep force (mkWorld p o None S_idle m l) (mkWorld p o None (S_check (redirect_uri o)) m l)
| ws_other : forall p o m l path p' q,
    split_path path = Some (p', q) -> p' <> redirect_path -> p' <> auth_request_path ->
    wstep force (mkWorld p o None S_idle m l) (mkWorld p o None S_idle m (l ++ [O_not_found path]))
(** oauth.py:214-225 [auth_endpoint], called from [do_GET] *)
| ws_check_bad : forall o r m l uri,
    wstep force (mkWorld true o r (S_check uri) m l) (mkWorld true o r S_idle m (l ++ [O_dropped]))
| ws_check_good : forall o r m l uri,
    wstep force (mkWorld false o r (S_check uri) m l) (mkWorld false o r (S_set uri) m l)
| ws_set : forall p o r m l uri url,
    auth_url uri = Ok url -> latin1 url = true ->
    wstep force (mkWorld p o r (S_set uri) m l) (mkWorld true o r S_idle m (l ++ [O_redirect url]))
| ws_set_bad : forall p o r m l uri,   (* UnicodeEncodeError in [urlencode] or in [send_header] *)
    (forall url, auth_url uri = Ok url -> latin1 url = false) ->
    wstep force (mkWorld p o r (S_set uri) m l) (mkWorld true o r S_idle m (l ++ [O_dropped]))
(** oidc.py:303-311: [webbrowser.open] succeeds or not *)
| ws_opened : forall p o r s l,
    force = false -> wstep force (mkWorld p o r s M_open l) (mkWorld p o r s M_wait l)
| ws_not_opened : forall p o r s l,
    wstep force (mkWorld p o r s M_open l) (mkWorld p o r s M_enable l)
| ws_enable : forall p o r s l,
    wstep force (mkWorld p o r s M_enable l) (mkWorld p true r s M_check l)
| ws_main_check_bad : forall o r s l,
    wstep force (mkWorld true o r s M_check l) (mkWorld true o r s (M_done (Raise EIdIdentity)) l)
| ws_main_check_good : forall o r s l,
    wstep force (mkWorld false o r s M_check l) (mkWorld false o r s M_set l)
| ws_main_set : forall p o r s l url,
    auth_url (redirect_uri o) = Ok url ->
    wstep force (mkWorld p o r s M_set l) (mkWorld true o r s M_input (l ++ [O_shown url]))
| ws_main_set_bad : forall p o r s l e,   (* UnicodeEncodeError in [urlencode] *)
    auth_url (redirect_uri o) = Raise e ->
    wstep force (mkWorld p o r s M_set l) (mkWorld true o r s (M_done (Raise e)) l)
(** oidc.py:328-330 *)
| ws_input : forall p o r s l code,
    wstep force (mkWorld p o r s M_input l) (mkWorld p o r s (M_done (Ok code)) (l ++ [O_entered code]))
(** oidc.py:313-327 *)
| ws_poll : forall p o r s l,
    wstep force (mkWorld p o (Some r) s M_wait l) (mkWorld p o (Some r) s (M_done (judge r)) l).

Inductive wrun (force : bool) : world -> Prop :=
| wr_init : wrun force w_init
| wr_step : forall w w', wrun force w -> wstep force w w' -> wrun force w'.

(** ** Token exchange *)

(** oidc.py:332-342 *)
Record TokenRequest := mkTokenRequest {
  tq_grant_type : str; tq_redirect_uri : str; tq_code : str; tq_code_verifier : str; tq_auth : str * str
}.
Definition token_request (oob : bool) (code : str) : TokenRequest :=
  mkTokenRequest (s2l "authorization_code") (redirect_uri oob) code (s_verifier se) (s_client_id se, s_client_secret se).

Variable je : JwtEnv.
Variable token_endpoint : str.
Variable http : http_request TokenRequest -> res response.

(** oidc.py:332-366: the rest of [identity_token].  [v.get] of a JSON value; a token that is not
    a text is refused by [jwt.decode]. *)
Definition exchange (oob : bool) (code : str) (now1 now2 : time) : res IdentityToken :=
  let* resp := try_except (http (POST token_endpoint (token_request oob code))) (exn_eqb EConnection) (fun _ => Raise ENetwork) in
  do* try_except (raise_for_status resp) (exn_eqb EHTTPError) (fun _ => Raise EIdentity) in
  let* j := resp_json resp in
  match j with
  | JObj d =>
    match get_claim (s2l "error") d with
    | Some _ => Raise EIdentity
    | None =>
      match assoc str_eqb (s2l "access_token") d with
      | None => Raise EKey
      | Some (JStr t) => make_identity_token env je t (s_client_id se) now1 now2
      | Some _ => Raise EIdentity
      end
    end
  | _ => Raise EAttribute
  end.
End Flow.

(** ** The issuer *)
Section Issuer.
Variable ul : Url.UrlLib.
Variable http : http_request unit -> res response.

(** oidc.py:48-58 [_OpenIDConfiguration] *)
Record OpenIDConfiguration := mkOpenID { oc_authorization_endpoint : str; oc_token_endpoint : str }.
(** [_OpenIDConfiguration.model_validate]: two strict text fields, others are ignored *)
Definition validate_openid (j : json) : res OpenIDConfiguration :=
  match j with
  | JObj d =>
    match assoc str_eqb (s2l "authorization_endpoint") d, assoc str_eqb (s2l "token_endpoint") d with
    | Some (JStr a), Some (JStr t) => Ok (mkOpenID a t)
    | _, _ => Raise EPydantic
    end
  | _ => Raise EPydantic
  end.

(** oidc.py:239-270 [Issuer.__init__] *)
Definition make_issuer (base_url : str) : res OpenIDConfiguration :=
  let* url := Url.urljoin ul (base_url ++ s2l "/") (s2l ".well-known/openid-configuration") in
  let* resp := try_except (http (GET url nil)) (exn_eqb EConnection) (fun _ => Raise ENetwork) in
  do* try_except (raise_for_status resp) (exn_eqb EHTTPError) (fun _ => Raise EIssuer) in
  try_except (let* j := resp_json resp in validate_openid j) is_value_error (fun _ => Raise EIssuer).
End Issuer.

(** oidc.py:418-424 [detect_credential]; [detect] is [id.detect_credential] *)
Definition detect_credential (detect : str -> res (option str)) (client_id : str) : res (option str) :=
  try_except (detect client_id) (exn_eqb EIdIdentity) (fun _ => Raise EIdentity).
