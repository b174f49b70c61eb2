(** sigstore/oidc.py: [IdentityToken] *)
From Verif Require Import Base Messages Env Codec PyText Json.

(** oidc.py:38-43 *)
Definition KNOWN_OIDC_ISSUERS : list (str * str) :=
  [ (s2l "https://accounts.google.com", s2l "email");
    (s2l "https://oauth2.sigstore.dev/auth", s2l "email");
    (s2l "https://oauth2.sigstage.dev/auth", s2l "email");
    (s2l "https://token.actions.githubusercontent.com", s2l "sub") ].

(** oidc.py:45 *)
Definition DEFAULT_CLIENT_ID : str := s2l "sigstore".

(** Third-party behaviour used for tokens *)
Record JwtEnv := mkJwtEnv {
  (** the payload of a compact JWS, parsed as a JSON object, without checking the signature *)
  j_payload : str -> res (list (str * json));
  (** [str(v)] of floats, lists and dicts *)
  j_repr : json -> str
}.

(** seconds to microseconds *)
Definition sec (n : Z) : Z := (n * 1000000)%Z.

Section Oidc.
Variable env : Env.
Variable je : JwtEnv.

(** [int(v)] *)
Definition json_int (v : json) : option Z :=
  match v with
  | JInt n => Some n
  | JBool b => Some (if b then 1 else 0)%Z
  | JFloat n d => Some (Z.quot n (Zpos d))
  | JStr s => py_int (e_udecimal env) s
  | _ => None
  end.

(** ** PyJWT 2.13 [jwt.decode] with the options of oidc.py:82-100: no signature check;
    "aud", "sub", "iat", "exp" and "iss" required; issue and expiry times checked with 5 s
    leeway; audience checked.  Every failure is some exception, [except Exception] at
    oidc.py:101 makes the choice irrelevant.  Simplified: the clock value, a float in the code, is
    taken exactly (OidcFloat.v has the float; C117 compares). *)
Definition jwt_required (c : list (str * json)) : bool :=
  forallb (fun k => match get_claim k c with Some _ => true | None => false end)
    [s2l "aud"; s2l "sub"; s2l "iat"; s2l "exp"; s2l "iss"].

Definition jwt_iat_ok (c : list (str * json)) (now : time) : bool :=
  match assoc str_eqb (s2l "iat") c with
  | Some v => match json_int v with Some n => (sec n <=? now + sec 5)%Z | None => false end
  | None => true
  end.

Definition jwt_exp_ok (c : list (str * json)) (now : time) : bool :=
  match assoc str_eqb (s2l "exp") c with
  | Some v => match json_int v with Some n => (now - sec 5 <? sec n)%Z | None => false end
  | None => true
  end.

Definition is_jstr (v : json) : bool := match v with JStr _ => true | _ => false end.

Definition jwt_aud_ok (c : list (str * json)) (client_id : str) : bool :=
  match assoc str_eqb (s2l "aud") c with
  | Some (JStr s) => negb (str_eqb s nil) && str_eqb client_id s
  | Some (JList l) => forallb is_jstr l && existsb (fun v => match v with JStr s => str_eqb client_id s | _ => false end) l
  | _ => false
  end.

Definition jwt_decode (raw client_id : str) (now : time) : res (list (str * json)) :=
  let* c := j_payload je raw in
  do* raise_if (negb (jwt_required c && jwt_iat_ok c now && jwt_exp_ok c now && jwt_aud_ok c client_id)) (EBackend 10) in
  Ok c.

(** ** The token object *)
Record IdentityToken := mkToken {
  it_raw : str;
  it_iss : json;
  it_nbf : option json;
  it_exp : json;
  it_identity : str;
  it_federated : option str
}.

(** Comparison of a claim with the clock in microseconds: [Some] order of (claim, now) for a
    number, [None] when the comparison is a TypeError.  NaN is neither below nor above.
    Simplified: [now], a float in the code, is taken exactly (OidcFloat.v has the float). *)
Inductive ord : Set := Lt' | Eq' | Gt' | Unordered.
Definition of_comparison (c : comparison) : ord := match c with Lt => Lt' | Eq => Eq' | Gt => Gt' end.
Definition cmp_now (v : json) (now : time) : option ord :=
  match v with
  | JInt n => Some (of_comparison (Z.compare (sec n) now))
  | JBool b => Some (of_comparison (Z.compare (if b then sec 1 else 0%Z) now))
  | JFloat n d => Some (of_comparison (Z.compare (sec n) (now * Zpos d)))
  | JSpecial 0 => Some Unordered
  | JSpecial 1 => Some Gt'
  | JSpecial _ => Some Lt'
  | _ => None
  end.

(** [v <= now] and [now < v] *)
Definition claim_le_now (v : json) (now : time) : res bool :=
  match cmp_now v now with
  | None => Raise EType
  | Some o => Ok (match o with Lt' | Eq' => true | _ => false end)
  end.
Definition now_lt_claim (v : json) (now : time) : res bool :=
  match cmp_now v now with
  | None => Raise EType
  | Some o => Ok (match o with Gt' => true | _ => false end)
  end.

(** oidc.py:158-172 [in_validity_period] *)
Definition in_validity_period (nbf : option json) (exp : json) (now : time) : res bool :=
  match nbf with
  | Some n => let* b := claim_le_now n now in if b then now_lt_claim exp now else Ok false
  | None => now_lt_claim exp now
  end.
Definition token_in_validity_period (t : IdentityToken) (now : time) : res bool :=
  in_validity_period (it_nbf t) (it_exp t) now.

(** [str(v)] *)
Definition json_str (v : json) : str :=
  match v with
  | JNull => s2l "None"
  | JBool true => s2l "True"
  | JBool false => s2l "False"
  | JInt n => dec_Z n
  | JStr s => s
  | _ => j_repr je v
  end.

(** [_KNOWN_OIDC_ISSUERS.get(iss)]: lists and dicts are not hashable *)
Definition known_issuer (iss : json) : res (option str) :=
  match iss with
  | JStr s => Ok (assoc str_eqb s KNOWN_OIDC_ISSUERS)
  | JList _ | JObj _ => Raise EType
  | _ => Ok None
  end.

(** [d[k]] *)
Definition get_item (k : str) (d : list (str * json)) : res json :=
  match assoc str_eqb k d with Some v => Ok v | None => Raise EKey end.

(** oidc.py:70-156 [IdentityToken.__init__]; the clock is read by [jwt.decode] and again by
    [in_validity_period] *)
Definition make_identity_token (raw client_id : str) (now1 now2 : time) : res IdentityToken :=
  let* c := try_except (jwt_decode raw client_id now1) any_exn (fun _ => Raise EIdentity) in
  let* iss := get_item (s2l "iss") c in
  let nbf := get_claim (s2l "nbf") c in
  let* exp := get_item (s2l "exp") c in
  let* valid := in_validity_period nbf exp now2 in
  do* raise_if (negb valid) EIdentity in
  let* known := known_issuer iss in
  let* identity :=
    match known with
    | Some claim =>
      match assoc str_eqb claim c with None => Raise EIdentity | Some v => Ok (json_str v) end
    | None =>
      try_except (let* v := get_item (s2l "sub") c in Ok (json_str v)) (exn_eqb EKey) (fun _ => Raise EIdentity)
    end in
  let* federated :=
    match get_claim (s2l "federated_claims") c with
    | None => Ok None
    | Some (JObj f) =>
      match get_claim (s2l "connector_id") f with
      | None => Ok None
      | Some (JStr s) => Ok (Some s)
      | Some _ => Raise EIdentity
      end
    | Some _ => Raise EIdentity
    end in
  Ok (mkToken raw iss nbf exp identity federated).

(** oidc.py:190-194 [issuer], 196-217 [federated_issuer] *)
Definition token_issuer (t : IdentityToken) : json := it_iss t.
Definition token_federated_issuer (t : IdentityToken) : json :=
  match it_federated t with Some s => JStr s | None => it_iss t end.
End Oidc.
