(** A concrete signing session in the toy environment, used for examples and witnesses only. *)
From Verif Require Import Base Codec Messages Env Keyring MerkleSpec Json Oidc Http LogEntry Cert Sct Dsse KeyDetails Policy TrustedRoot
  Hashing Bundle Verifier ToyEnv PropsSct ToyBundles SigningConfig RekorClient PropsRekorClient Clients PropsClients Sign.
From Verif Require Url.

(** certificates name their key in their DER form; [na]: notAfter *)
Definition sy_cert (na : time) (r : bytes) : Cert :=
  mkCert (x30 :: x02 :: x02 :: r) true (Ok vx_exts) (Ok (mkPub (KEc P256) (x02 :: r))) (Ok [x55; x66]) 0%Z na (Ok false).
Definition sy_env (na : time) : Env :=
  mkEnv (e_hash vx_env) (e_udecimal vx_env) (e_load_key vx_env) (e_sig_verify vx_env)
    (fun der => match der with x30 :: x02 :: x02 :: r => Ok (sy_cert na r) | _ => e_parse_cert vx_env der end)
    (e_self_issued vx_env) (e_chain vx_env) (e_decode_tsr vx_env) (e_tsa_verify vx_env).

(** keys are determined by the time they are made *)
Definition sy_pub (h : history) : pubkey := mkPub (KEc P256) (x02 :: repeat x05 (length h)).
Definition sy_key : pubkey := mkPub (KEc P256) [x02].

(** the CA certifies two keys and refuses all others *)
Definition sy_fulcio (rq : http_request FulcioRequest) : res response :=
  match rq with
  | POST _ (mkFulcioRequest (mkCsr (mkPub (KEc P256) spki)) _) =>
    if bytes_eqb spki [x02] then Ok (mkResp 201 nil (Some (fx_answer [JStr (s2l "0"); JStr (s2l "I")])) nil)
    else if bytes_eqb spki [x02; x05] then Ok (mkResp 201 nil (Some (fx_answer [JStr (s2l "1"); JStr (s2l "I")])) nil)
    else Ok (mkResp 400 nil None nil)
  | _ => Ok (mkResp 400 nil None nil)
  end.
Definition sy_pem (na : time) (b : bytes) : res Cert :=
  if bytes_eqb b (s2b "0") then Ok (sy_cert na nil) else if bytes_eqb b (s2b "1") then Ok (sy_cert na [x05])
  else if bytes_eqb b (s2b "I") then Ok vx_issuer else Raise EValue.

(** one authority answers, the other does not *)
Definition sy_tsa (rq : http_request bytes) : res response :=
  match rq with
  | POST url q => if str_eqb url (s2l "https://tsa.example") then Ok (mkResp 200 nil None (x30 :: x20 :: q)) else Raise EConnection
  | GET _ _ => Ok (mkResp 405 nil None nil)
  end.

(** the logs know a few submissions *)
Definition byte_dec : forall a b : byte, {a = b} + {a <> b} := Byte.byte_eq_dec.
Definition req_dec : forall a b : EntryRequest, {a = b} + {a <> b}.
Proof.
  pose proof (list_eq_dec byte_dec) as Db. pose proof (list_eq_dec N.eq_dec) as Ds. pose proof Nat.eq_dec as Dn.
  assert (Dl : forall a b : list bytes, {a = b} + {a <> b}) by (apply list_eq_dec; assumption).
  assert (Dls : forall a b : list str, {a = b} + {a <> b}) by (apply list_eq_dec; assumption).
  assert (Dh : forall a b : hash_alg * str, {a = b} + {a <> b}) by (decide equality; decide equality).
  assert (Do : forall a b : option str, {a = b} + {a <> b}) by (decide equality).
  assert (Doh : forall a b : option (hash_alg * str), {a = b} + {a <> b}) by (decide equality).
  assert (Dk : forall a b : key_details, {a = b} + {a <> b}) by (decide equality).
  decide equality; try (decide equality).
Defined.

Definition sy_digest : bytes := vx_digest.
Definition sy_sig : bytes := toy_sign (ECDSA_prehashed SHA256) sy_key sy_digest.
Definition sy_statement : Statement := mkStatement vx_payload (mkStatementInner nil nil None).
Definition sy_dsig : bytes := toy_sign (ECDSA SHA256) sy_key vx_pae.
Definition sy_pem64 (na : time) : str := b64encode (ascii_bytes (pem_of_der (c_der (sy_cert na nil)))).
Definition sy_h1 (na : time) : Hashedrekord1 :=
  mkH1 (s2l "0.0.1") (Some (b64encode sy_sig)) (Some (sy_pem64 na)) (Some (SHA256, hex sy_digest)) 0.
Definition sy_m : EnvelopeMsg := mkEnvMsg vx_payload vx_type [sy_dsig].
Definition sy_v (na : time) : V2Verifier := V2_x509 (c_der (sy_cert na nil)) PKIX_ECDSA_P256_SHA_256.

Definition sy_parsers (na : time) : Parsers :=
  mkParsers
    (fun b => if bytes_eqb b [x01] then Ok (sy_h1 na) else Raise EPydantic)
    (fun b => if bytes_eqb b [x04]
       then Ok (mkD1 (Some (true, hex (toy_hash vx_payload))) (Some [(b64encode sy_dsig, sy_pem64 na)])) else Raise EPydantic)
    (fun b => if bytes_eqb b [x02] then Ok (mkV2 (s2l "hashedrekord") (s2l "0.0.2") (V2_hashedrekord HA_SHA2_256 sy_digest sy_sig (sy_v na)))
       else if bytes_eqb b [x03] then Ok (mkV2 (s2l "hashedrekord") (s2l "0.0.2") (V2_hashedrekord HA_SHA2_256 (toy_hash vx_pae) sy_dsig (sy_v na)))
       else Raise EPydantic).

(** how the v1 log writes an entry *)
Definition sy_render (e : LogEntry) : json :=
  match le_integrated_time e, le_promise e, le_proof e with
  | Some t, Some set, Some (mkIP i root size hs (Some cp)) => render (s2l "u") (le_log_index e) t i size (le_log_id e) root set hs cp (le_body e)
  | _, _, _ => JNull
  end.
Definition sy_rp : RekorParsers :=
  mkRP (fun s => PyText.py_int (fun _ => None) s)
    (fun b => if bytes_eqb b [x01] then Ok (Some (s2l "hashedrekord", s2l "0.0.1"))
              else if bytes_eqb b [x04] then Ok (Some (s2l "dsse", s2l "0.0.1")) else Ok None)
    (fun j => match j with JInt 2%Z => Ok vx_entry2 | JInt 3%Z => Ok vx_entry3 | _ => Raise EPydantic end)
    (fun _ => nil).
Definition sy_known (na : time) : list (EntryRequest * json) :=
  [(Req_h1 (sy_h1 na), sy_render vx_entry1); (Req_d1 sy_m [sy_pem64 na], sy_render vx_entry4);
   (Req_v2 sy_digest sy_sig (sy_v na), JInt 2); (Req_v2 (toy_hash vx_pae) sy_dsig (sy_v na), JInt 3)].
Fixpoint sy_find (l : list (EntryRequest * json)) (r : EntryRequest) : option json :=
  match l with nil => None | (r', j) :: l' => if req_dec r r' then Some j else sy_find l' r end.
Definition sy_log (na : time) (rq : http_request EntryRequest) : res response :=
  match rq with
  | POST _ r => match sy_find (sy_known na) r with Some j => Ok (mkResp 201 nil (Some j) nil) | None => Ok (mkResp 400 nil None nil) end
  | GET _ _ => Ok (mkResp 404 nil None nil)
  end.

(** the clock advances by a second per event *)
Definition sy_start : time := 1700000000000000%Z.
Definition sy_out (na : time) : Outside :=
  mkOutside (fun h => sy_start + 1000000 * Z.of_nat (length h))%Z sy_pub (fun _ k s d => toy_sign s (sk_pub k) d)
    (fun _ => sy_fulcio) (fun _ sg => Ok sg) (fun _ => sy_tsa) (fun _ => sy_log na).
Definition sy_url : Url.UrlLib := Url.mkUL (fun _ => true) (fun _ => nil).
Definition sy_libs (na : time) : SignLibs := mkLibs (sy_env na) sy_url (sy_pem na) sy_rp.
Definition sy_tsas : list str := [s2l "https://down.example"; s2l "https://tsa.example"].
Definition sy_ctx1 : ContextParts := mkParts (s2l "https://ca.example") (Rekor_v1 (s2l "https://rekor.example")) vx_tr nil.
Definition sy_ctx2 : ContextParts := mkParts (s2l "https://ca.example") (Rekor_v2 (s2l "https://rekor2.example")) vx_tr sy_tsas.
(** valid for the first 30 seconds *)
Definition sy_token : IdentityToken :=
  mkToken (s2l "tok") (JStr (s2l "https://issuer.example")) None (JInt 1700000030) (s2l "a@b.c") None.

Definition sy_far : time := 2000000000000000%Z.
Definition sy_hello : op := Op_artifact (In_bytes vx_input).
Definition sy_dsse : op := Op_dsse sy_statement.

(** both kinds of operation with both kinds of log *)
Example ex_session1 : exists h b1 b2,
  session (sy_libs sy_far) (sy_out sy_far) sy_token sy_ctx1 true [sy_hello; sy_dsse] nil = (h, [Ok b1; Ok b2]).
Proof. eexists; eexists; eexists. vm_compute. reflexivity. Qed.
Example ex_session2 : exists h b1 b2,
  session (sy_libs sy_far) (sy_out sy_far) sy_token sy_ctx2 true [sy_hello; sy_dsse] nil = (h, [Ok b1; Ok b2]).
Proof. eexists; eexists; eexists. vm_compute. reflexivity. Qed.
