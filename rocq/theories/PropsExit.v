(** Property C88: the library does not end the process, and the commands end it with status 0, 1 or 2. *)
From Verif Require Import Base Codec Messages Env Keyring Cert Dsse KeyDetails Policy TrustedRoot SigningConfig Hashing Json Http
  Oidc Oauth LogEntry Bundle Verifier RekorClient Clients Tuf PyText CliVerify CliTrust Sign SignSteps Predicate CliSign CliEnv CliMain Calm Outcomes
  PropsBundle PropsRekorClient PropsCliVerify PropsCliTrust PropsCliSign PropsSignVerify PropsCliMain ToyEnv ToyBundles ToySign.

(** ** Specification *)

(** a call that does not end the process: it returns or raises something else than SystemExit *)
Definition stays {A} (r : res A) : Prop := forall n, r <> Raise (ESystemExit n).

(** The hypotheses [calm_...] of Calm.v say the same about the third-party libraries, the network and the
    user's own policies, and about the certificates that they return. *)
Lemma calm_means : forall A (r : res A), Calm.quiet r <-> stays r.
Proof.
  intros A r. unfold stays. destruct r as [a|e]; cbn; [split; [intros _ n; discriminate|auto]|].
  split; [intros H n X; injection X as ->; exact H|]. intros H. destruct e; try exact I. exact (H _ eq_refl).
Qed.
Lemma fine_stays : forall A (Q : A -> Prop) r, fine tame Q r -> stays r.
Proof. intros A Q r H. apply calm_means. apply (fine_weaken _ _ _ _ _ H); auto. Qed.

(** ** Verification *)

(** Everything from the trusted root and the text of a bundle to the verdict. *)
Theorem C88_verify_artifact : forall env ps parse now now' tr raw i p,
  calm_env env -> calm_parsers ps -> (forall b, stays (parse b)) -> calm_policy p ->
  stays (make_verifier env now tr) /\ stays (bundle_from_json env parse raw) /\
  (forall v b, make_verifier env now tr = Ok v -> bundle_from_json env parse raw = Ok b ->
     stays (verify_artifact env ps now' v i b p) /\ stays (verify_dsse env ps now' v b p)).
Proof.
  intros env ps parse now now' tr raw i p CE CP Hp HP.
  assert (Hp' : forall b, Calm.quiet (parse b)) by (intros b; apply calm_means, Hp).
  pose proof (q_make_verifier env CE now tr) as V. pose proof (q_bundle_from_json env CE parse raw Hp') as B.
  split; [apply (fine_stays _ _ _ V)|]. split; [apply (fine_stays _ _ _ B)|].
  intros v b Ev Eb. rewrite Ev in V. rewrite Eb in B. cbn in V, B.
  split; apply calm_means; [apply q_verify_artifact|apply q_verify_dsse]; assumption.
Qed.

(** ** Signing *)

Lemma run_ops_stay : forall libs out s os, calm_libs libs -> calm_outside out -> calm_signer s -> forall h r, In r (snd (run_ops libs out s os h)) -> stays r.
Proof.
  intros libs out s os CL CO CS. induction os as [|o os IH]; intros h r; cbn [run_ops]; [intros []|].
  pose proof (m_operation libs out CL CO s o CS h) as M. destruct (run_op libs out s o h) as [h1 r1]. specialize (IH h1 r).
  destruct (run_ops libs out s os h1) as [h2 rs]. cbn in *. intros [<-|X]; [apply (fine_stays _ _ _ M)|exact (IH X)].
Qed.
(** Making a signer and every operation with it, in any order, whatever the services answer. *)
Theorem C88_sign : forall libs out token ctx cache os h,
  calm_libs libs -> calm_outside out ->
  stays (snd (make_signer libs out token ctx cache h)) /\
  (forall r, In r (snd (session libs out token ctx cache os h)) -> stays r).
Proof.
  intros libs out token ctx cache os h CL CO. pose proof (m_make_signer libs out CL CO token ctx cache h) as M.
  split; [apply (fine_stays _ _ _ M)|]. intros r. unfold session.
  destruct (make_signer libs out token ctx cache h) as [h1 [s|e]]; cbn in M; [|intros []]. apply run_ops_stay; assumption.
Qed.

(** ** Tokens, issuers, configurations, log clients *)
Theorem C88_tokens : forall env je raw client t1 t2, (forall s, stays (j_payload je s)) ->
  stays (make_identity_token env je raw client t1 t2).
Proof. intros env je raw client t1 t2 H. apply calm_means, q_identity_token. intros s. apply calm_means, H. Qed.
Theorem C88_issuer : forall env ul http url se je token_url post oob code t1 t2,
  (forall r, stays (http r)) -> (forall s, stays (j_payload je s)) -> (forall r, stays (post r)) ->
  stays (make_issuer ul http url) /\ stays (exchange env se je token_url post oob code t1 t2).
Proof.
  intros env ul http url se je token_url post oob code t1 t2 H1 H2 H3.
  split; apply calm_means; [apply q_make_issuer|apply q_exchange]; intros; apply calm_means; auto.
Qed.
Theorem C88_trust_config : forall data cache lib emb ptr psc url offline bootstrap s,
  calm_tuf lib -> (forall b, stays (ptr b)) -> (forall b, stays (psc b)) -> (forall r, bootstrap = Some r -> stays r) ->
  stays (fst (config_from_tuf data cache lib emb ptr psc url offline bootstrap s)).
Proof.
  intros data cache lib emb ptr psc url offline bootstrap s CF H1 H2 HB. apply calm_means.
  apply (o_config data cache lib emb CF ptr psc).
  - intros b; apply calm_means, H1.
  - intros b; apply calm_means, H2.
  - destruct bootstrap as [r|]; [|exact I]. apply calm_means, HB. reflexivity.
Qed.
Theorem C88_config_parts : forall env now m v c url tlogs,
  stays (make_trusted_root m) /\ stays (make_signing_config now c v) /\ stays (context_from_trust_config now url) /\
  (calm_env env -> stays (rekor_keyring env now m tlogs) /\ stays (ct_keyring env now m tlogs) /\ stays (get_fulcio_certs env now m) /\ stays (get_timestamp_authorities env m)).
Proof.
  intros env now m v c url tlogs. split; [apply calm_means, q_make_trusted_root|]. split; [apply calm_means, q_make_signing_config|].
  split; [apply calm_means, q_context|]. intros CE. split; [apply calm_means, q_rekor_keyring|]. split; [apply calm_means, q_ct_keyring|].
  split; [apply (fine_stays _ _ _ (q_get_fulcio_certs env CE now m))|apply (fine_stays _ _ _ (q_tsas env CE m))].
Qed.
Theorem C88_log_clients : forall rp http url rq u n, calm_rp rp -> (forall r, stays (http r)) ->
  stays (create_entry_v1 rp http url rq) /\ stays (create_entry_v2 rp http url rq) /\ stays (retrieve_post rp http url rq) /\ stays (entries_get rp http url u n) /\
  stays (log_get http url).
Proof.
  intros rp http url rq u n CR H. assert (H' : forall r, Calm.quiet (http r)) by (intros r; apply calm_means, H).
  split; [apply calm_means, q_create_v1; assumption|]. split; [apply calm_means, q_create_v2; assumption|].
  split; [apply calm_means, q_retrieve; assumption|]. split; apply calm_means; [apply q_entries_get|apply q_log_get]; assumption.
Qed.

(** ** The commands *)

(** The status of a command is 0, 1 or 2, and 0 only if it ended normally. *)
Theorem C88_exit_status : forall mc environ l t0 h0 sched t h out r,
  calm_machine mc -> main mc environ l t0 h0 sched t h out r ->
  (exit_status r = 0 \/ exit_status r = 1 \/ exit_status r = 2) /\ (exit_status r = 0 <-> r = Ok tt).
Proof.
  intros mc environ l t0 h0 sched t h out r C M. split; [|eapply status_calm; eassumption].
  pose proof (main_ends _ _ _ _ _ _ _ _ _ _ C M) as E. destruct r as [[]|e]; [left; reflexivity|].
  destruct e; cbn in *; auto.
Qed.

(** ** Concrete cases *)
Example ex_C88_verify : calm_env vx_env /\ calm_parsers vx_parsers /\ calm_policy (P_identity (s2l "a@b.c") (Some (s2l "https://issuer.example"))) /\
  (forall b, stays (cvx_parse b)) /\
  exists v b, make_verifier vx_env vx_now vx_tr = Ok v /\ bundle_from_json vx_env cvx_parse [x01] = Ok b.
Proof.
  destruct ex_calm as (A & B & W). split; [exact A|]. split; [exact B|]. split; [exact I|].
  split; [intros b; apply calm_means, (cw_bundle _ W)|]. eexists. eexists. split; vm_compute; reflexivity.
Qed.
Example ex_C88_sign : calm_libs (sy_libs sy_far) /\ calm_outside svx_out /\
  length (snd (session (sy_libs sy_far) svx_out sy_token sy_ctx1 true [sy_hello; sy_dsse] nil)) = 2.
Proof. split; [exact sy_libs_calm|]. split; [exact svx_out_calm|]. vm_compute. reflexivity. Qed.
Example ex_C88_tuf : calm_tuf tix_lib /\ (forall b, stays (tix_ptr b)) /\ (forall b, stays (tix_psc b)).
Proof.
  split; [exact tix_lib_calm|]. split; intros b n; unfold tix_ptr, tix_psc; destruct (bytes_eqb _ _); discriminate.
Qed.
Example ex_C88_exit_status : calm_machine mx /\ exists t h out r, main mx mx_unset mx_wrong t h nil t h out r /\ exit_status r = 1.
Proof.
  split; [exact ex_mx_calm|]. destruct ex_main_sign_verify as (t & h & out & out1 & out2 & r & _ & _ & _ & M & S1). exists t, nil, out2, r. split; assumption.
Qed.

(** The hypothesis matters: a library that ends the process with status 0 makes [verify identity]
    succeed on an input that is not verified. *)
Definition exiting_world : World :=
  mkWorld [s2l "home"] cvx_files (fun _ => Raise EValue) (fun _ => Raise (ESystemExit 0)) cvx_validate (fun _ => Raise EValue)
    cvx_config (fun _ _ => Raise EConnection) rkx_rp vx_now (fun _ => vx_now).
Theorem C88_libraries_refuted : exists env ps w a identity issuer, calm_env env /\ calm_parsers ps /\
  exit_status (snd (verify_identity env ps w a identity issuer)) = 0 /\
  ~ every_input_verified env ps w a show_decoded (P_identity identity (Some issuer)).
Proof.
  exists vx_env, vx_parsers, exiting_world, (cvx_args [s2l "a.txt"]), (s2l "a@b.c"), (s2l "https://issuer.example").
  destruct ex_calm as (A & B & _). split; [exact A|]. split; [exact B|].
  assert (E : snd (verify_identity vx_env vx_parsers exiting_world (cvx_args [s2l "a.txt"]) (s2l "a@b.c") (s2l "https://issuer.example")) = Raise (ESystemExit 0)) by (vm_compute; reflexivity).
  split; [rewrite E; reflexivity|]. intros H. apply C56_verify_identity_iff in H. rewrite E in H. discriminate.
Qed.

Print Assumptions C88_verify_artifact.
Print Assumptions C88_sign.
Print Assumptions C88_tokens.
Print Assumptions C88_issuer.
Print Assumptions C88_trust_config.
Print Assumptions C88_config_parts.
Print Assumptions C88_log_clients.
Print Assumptions C88_exit_status.
Print Assumptions C88_libraries_refuted.
