(** Third parties that do not end the process: what the theorems about the exit status assume about the
    libraries, the network and the objects they return (PropsCliMain.v, PropsCliVerify.v, PropsExit.v). *)
From Verif Require Import Base Codec Messages Env Keyring Cert Dsse KeyDetails Policy TrustedRoot SigningConfig Hashing Json Http
  Oidc Oauth LogEntry Bundle Verifier RekorClient Clients Tuf PyText CliVerify CliTrust Sign SignSteps Predicate CliSign CliEnv CliMain.

(** [fine E Q r]: [r] is a value with [Q], or an exception with [E] *)
Definition fine (E : exn -> Prop) {A} (Q : A -> Prop) (r : res A) : Prop :=
  match r with Ok a => Q a | Raise e => E e end.
(** not a SystemExit *)
Definition tame (e : exn) : Prop := match e with ESystemExit _ => False | _ => True end.
Notation quiet r := (fine tame (fun _ => True) r).

(** certificates, with their attributes that may raise (Env.v) *)
Definition calm_cert (c : Cert) : Prop := quiet (c_exts c) /\ quiet (c_pubkey c) /\ quiet (c_tbs_precert c) /\ quiet (c_sig_pkcs1 c).

(** libraries *)
Record calm_env (env : Env) : Prop := mkCalmEnv {
  ce_sig : forall s k a b, quiet (e_sig_verify env s k a b);
  ce_parse : forall der, fine tame calm_cert (e_parse_cert env der);
  ce_chain : forall roots t c, Forall calm_cert roots -> calm_cert c -> fine tame (Forall calm_cert) (e_chain env roots t c);
  ce_tsr : forall b, quiet (e_decode_tsr env b);
  ce_tsa : forall certs t m, Forall calm_cert certs -> quiet (e_tsa_verify env certs t m)
}.
Definition calm_parsers (ps : Parsers) : Prop := forall b, quiet (p_hashedrekord ps b) /\ quiet (p_dsse ps b) /\ quiet (p_v2 ps b).
Definition calm_rp (rp : RekorParsers) : Prop := (forall b, quiet (rp_proposed rp b)) /\ (forall j, quiet (rp_entry rp j)).

(** the [verify] methods of a user do not end the process *)
Fixpoint calm_policy (p : policy) : Prop :=
  match p with
  | P_any cs | P_all cs => (fix all l := match l with nil => True | x :: l' => calm_policy x /\ all l' end) cs
  | P_user f => forall c, calm_cert c -> quiet (f c)
  | _ => True
  end.

(** objects made from certificates *)
Definition calm_ca (ca : CA) : Prop := Forall calm_cert (ca_certs ca).
Definition calm_bundle (b : Bundle) : Prop := calm_cert (b_cert b).
Definition calm_verifier (v : Verifier) : Prop := Forall calm_cert (vf_fulcio v).

(** what the commands use *)
Record calm_world (w : World) : Prop := mkCalmWorld {
  cw_pem : forall b, fine tame calm_cert (w_load_pem w b);
  cw_bundle : forall b, quiet (w_parse_bundle w b);
  cw_json : forall s, quiet (w_config_json w s);
  cw_tuf : forall u o, quiet (w_config_tuf w u o);
  cw_rekor : forall x r, quiet (w_rekor w x r);
  cw_rp : calm_rp (w_rp w)
}.
Record calm_libs (l : SignLibs) : Prop := mkCalmLibs {
  cl_env : calm_env (l_env l);
  cl_pem : forall b, fine tame calm_cert (l_pem l b);
  cl_rp : calm_rp (l_rp l)
}.
Record calm_outside (o : Outside) : Prop := mkCalmOutside {
  co_fulcio : forall h r, quiet (o_fulcio o h r);
  co_query : forall h b, quiet (o_tsa_query o h b);
  co_tsa : forall h r, quiet (o_tsa o h r);
  co_log : forall h r, quiet (o_log o h r)
}.
Record calm_tools (tl : Tools) : Prop := mkCalmTools {
  ct_world : calm_world (tl_world tl);
  ct_libs : calm_libs (tl_libs tl);
  ct_out : calm_outside (tl_out tl);
  ct_token : forall a b, quiet (tl_token tl a b);
  ct_detect : forall a, quiet (tl_detect tl a);
  ct_interactive : forall a b c d, quiet (tl_interactive tl a b c d)
}.
Record calm_tuf (lib : TufLib) : Prop := mkCalmTuf {
  cf_targetinfo : forall u n f, quiet (fst (tl_targetinfo lib u n f));
  cf_download : forall u i f, quiet (fst (tl_download lib u i f))
}.
Record calm_machine (mc : Machine) : Prop := mkCalmMachine {
  cm_env : calm_env (mc_env mc);
  cm_ps : calm_parsers (mc_ps mc);
  cm_tools : calm_tools (mc_tools mc);
  cm_http : forall r, quiet (mc_http mc r);
  cm_tuf : calm_tuf (mc_tuf mc);
  cm_parse_tr : forall b, quiet (mc_parse_tr mc b);
  cm_parse_sc : forall b, quiet (mc_parse_sc mc b);
  cm_parse_config : forall s, quiet (mc_parse_config mc s)
}.
