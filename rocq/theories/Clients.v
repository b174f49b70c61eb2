(** sigstore/_internal/fulcio/client.py and sigstore/_internal/timestamp.py *)
From Verif Require Import Base Codec Messages Env Json Http.
From Verif Require Url.

(** ** Fulcio *)

(** sign.py:118-142 [Signer._build_csr]: a request with empty subject, signed with the private
    key, is represented by the public key it carries *)
Record Csr := mkCsr { csr_key : pubkey }.

(** client.py:100-107: the request is the CSR, the token goes into the Authorization header *)
Record FulcioRequest := mkFulcioRequest { fr_csr : Csr; fr_bearer : str }.

(** client.py:42-43 *)
Definition SIGNING_CERT_ENDPOINT : str := s2l "/api/v2/signingCert".
Definition TRUST_BUNDLE_ENDPOINT : str := s2l "/api/v2/trustBundle".

(** [s in t] for texts *)
Fixpoint prefixb (s t : str) : bool :=
  match s, t with
  | nil, _ => true
  | a :: s', b :: t' => N.eqb a b && prefixb s' t'
  | _ :: _, nil => false
  end.
Fixpoint containsb (s t : str) : bool :=
  prefixb s t || match t with nil => false | _ :: t' => containsb s t' end.

Section Fulcio.
(** [urllib.parse] (Url.v) and [load_pem_x509_certificate] *)
Variable ul : Url.UrlLib.
Variable load_pem : bytes -> res Cert.
Variable http : http_request FulcioRequest -> res response.

(** fulcio/client.py:110-116: what the [FulcioClientError] for an HTTP error is constructed
    with; [None]: without a message.  Simplified: [json.loads(text)] is [Response.json]. *)
Definition fulcio_error_message (r : response) : res (option json) :=
  if resp_truthy r then
    let* text := resp_json r in
    if containsb (s2l "message") (r_text r) then
      let* m := py_item text (s2l "message") in Ok (Some m)
    else Ok None
  else Ok None.

(** [load_pem_x509_certificate(c.encode())] *)
Definition load_text (v : json) : res Cert := let* b := py_encode_json v in load_pem b.

(** fulcio/client.py:93-134 [FulcioSigningCert.post] with the URL of 181-188: certificate and chain *)
Definition fulcio_post (url : str) (csr : Csr) (token : str) : res (Cert * list Cert) :=
  let* u := Url.urljoin ul url SIGNING_CERT_ENDPOINT in
  let* resp := http (POST u (mkFulcioRequest csr token)) in
  match raise_for_status resp with
  | Raise _ => let* _ := fulcio_error_message resp in Raise EFulcioClient
  | Ok _ =>
    let* certificates :=
      try_except
        (let* j := resp_json resp in
         let* a := py_item j (s2l "signedCertificateEmbeddedSct") in
         let* b := py_item a (s2l "chain") in
         py_item b (s2l "certificates"))
        (exn_eqb EKey) (fun _ => Raise EFulcioClient) in
    let* n := py_len certificates in
    do* raise_if (Nat.ltb n 2) EFulcioClient in
    let* first := py_nth certificates 0 in
    let* cert := load_text first in
    let* rest := py_tail certificates 1 in
    let* rest := py_iter rest in
    let* chain := map_res load_text rest in
    Ok (cert, chain)
  end.

(** fulcio/client.py:142-158 [FulcioTrustBundle.get] *)
Definition trust_bundle_get (url : str) : res (list (list Cert)) :=
  let* u := Url.urljoin ul url TRUST_BUNDLE_ENDPOINT in
  let* resp := http (GET u nil) in
  do* try_except (raise_for_status resp) (exn_eqb EHTTPError) (fun _ => Raise EFulcioClient) in
  let* j := resp_json resp in
  let* chains := py_item j (s2l "chains") in
  let* chains := py_iter chains in
  map_res (fun ch =>
    let* certs := py_item ch (s2l "certificates") in
    let* certs := py_iter certs in
    map_res load_text certs) chains.
End Fulcio.

(** ** Timestamp authorities *)

Section Tsa.
Variable env : Env.
(** [TimestampRequestBuilder()....build().as_bytes()]: the request for a signature; it
    contains a fresh nonce, so that the result may be any one of many *)
Variable build : bytes -> res bytes.
Variable http : http_request bytes -> res response.

(** timestamp.py:90-133 [request_timestamp] *)
Definition request_timestamp (url : str) (signature : bytes) : res TSR :=
  let* q := try_except (build signature) is_value_error (fun _ => Raise ETimestamp) in
  let* r := try_except
              (let* r := http (POST url q) in do* raise_for_status r in Ok r)
              is_request_exception (fun _ => Raise ETimestamp) in
  try_except (e_decode_tsr env (r_content r)) is_value_error (fun _ => Raise ETimestamp).
End Tsa.
