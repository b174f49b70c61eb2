(** sigstore/oidc.py: [IdentityToken] with the clock as the code reads it, a binary64 number of seconds.  Oidc.v takes the
    clock exactly; PropsOidcFloat.v compares the two. *)
From Coq Require Import ZArith.
From Verif Require Import Base Messages Env Codec PyText Json Oidc FloatMs.
Local Open Scope Z_scope.

(** A finite double as a fraction, the denominator positive *)
Definition double := (Z * Z)%type.

(** [n / d] rounded to the nearest double ([d > 0]), for magnitudes without overflow and subnormals (FloatMs.v) *)
Definition nearest_pos (n d : Z) : double := let '(m, u) := round53 n d in (m * up u, dn u).
Definition nearest (n d : Z) : double :=
  if n =? 0 then (0, 1)
  else if n <? 0 then let '(p, q) := nearest_pos (- n) d in (- p, q)
  else nearest_pos n d.

(** [datetime.now(timezone.utc).timestamp()] (oidc.py:169 and PyJWT): [us / 10**6], correctly rounded *)
Definition timestamp (us : time) : double := nearest us 1000000.
(** [now + leeway] and [now - leeway] in PyJWT, [leeway = 5] (oidc.py:99): the sum of two doubles, rounded *)
Definition plus_seconds (x : double) (n : Z) : double := nearest (fst x + n * snd x) (snd x).

(** Python compares an integer with a double exactly, and a double with a double *)
Definition cmp_double (v : json) (x : double) : option ord :=
  match v with
  | JInt n => Some (of_comparison (Z.compare (n * snd x) (fst x)))
  | JBool b => Some (of_comparison (Z.compare (if b then snd x else 0) (fst x)))
  | JFloat n d => Some (of_comparison (Z.compare (n * snd x) (fst x * Zpos d)))
  | JSpecial 0 => Some Unordered
  | JSpecial 1 => Some Gt'
  | JSpecial _ => Some Lt'
  | _ => None
  end.

(** oidc.py:160-174 [in_validity_period] *)
Definition claim_le_double (v : json) (x : double) : res bool :=
  match cmp_double v x with
  | None => Raise EType
  | Some o => Ok (match o with Lt' | Eq' => true | _ => false end)
  end.
Definition double_lt_claim (v : json) (x : double) : res bool :=
  match cmp_double v x with
  | None => Raise EType
  | Some o => Ok (match o with Gt' => true | _ => false end)
  end.
Definition in_validity_period_f (nbf : option json) (exp : json) (now : time) : res bool :=
  let x := timestamp now in
  match nbf with
  | Some n => let* b := claim_le_double n x in if b then double_lt_claim exp x else Ok false
  | None => double_lt_claim exp x
  end.
Definition token_in_validity_period_f (t : IdentityToken) (now : time) : res bool :=
  in_validity_period_f (it_nbf t) (it_exp t) now.

Section Oidc.
Variable env : Env.
Variable je : JwtEnv.

(** PyJWT [_validate_iat] ([iat > now + leeway] is an error) and [_validate_exp] ([exp <= now - leeway] is one) *)
Definition jwt_iat_ok_f (c : list (str * json)) (now : time) : bool :=
  match assoc str_eqb (s2l "iat") c with
  | Some v => match json_int env v with Some n => let x := plus_seconds (timestamp now) 5 in n * snd x <=? fst x | None => false end
  | None => true
  end.
Definition jwt_exp_ok_f (c : list (str * json)) (now : time) : bool :=
  match assoc str_eqb (s2l "exp") c with
  | Some v => match json_int env v with Some n => let x := plus_seconds (timestamp now) (-5) in fst x <? n * snd x | None => false end
  | None => true
  end.
(** PyJWT [jwt.decode], as in Oidc.v *)
Definition jwt_decode_f (raw client_id : str) (now : time) : res (list (str * json)) :=
  let* c := j_payload je raw in
  do* raise_if (negb (jwt_required c && jwt_iat_ok_f c now && jwt_exp_ok_f c now && jwt_aud_ok c client_id)) (EBackend 10) in
  Ok c.

(** oidc.py:70-158 [IdentityToken.__init__] *)
Definition make_identity_token_f (raw client_id : str) (now1 now2 : time) : res IdentityToken :=
  let* c := try_except (jwt_decode_f raw client_id now1) any_exn (fun _ => Raise EIdentity) in
  let* iss := get_item (s2l "iss") c in
  let nbf := get_claim (s2l "nbf") c in
  let* exp := get_item (s2l "exp") c in
  let* valid := in_validity_period_f nbf exp now2 in
  do* raise_if (negb valid) EIdentity in
  let* known := known_issuer iss in
  let* identity :=
    match known with
    | Some claim =>
      match assoc str_eqb claim c with None => Raise EIdentity | Some v => Ok (json_str je v) end
    | None =>
      try_except (let* v := get_item (s2l "sub") c in Ok (json_str je v)) (exn_eqb EKey) (fun _ => Raise EIdentity)
    end in
  let* federated :=
    match get_claim (s2l "federated_claims") c with
    | None => Ok None
    | Some (JObj f) =>
      match get_claim (s2l "connector_id") f with
      | None => Ok None
      | Some (JStr s) => Ok (Some s)
      | Some _ => Raise EIdentity
      end
    | Some _ => Raise EIdentity
    end in
  Ok (mkToken raw iss nbf exp identity federated).
End Oidc.
