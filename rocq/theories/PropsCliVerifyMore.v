(** Properties C82 and C83: which log is asked about detached materials; several inputs of one
    command. *)
From Verif Require Import Base Codec Messages Env Keyring Cert Dsse KeyDetails Policy TrustedRoot SigningConfig Hashing Json Http
  LogEntry Bundle Verifier RekorClient Tuf PyText CliVerify VerifierSpec PropsDsse PropsPolicy PropsTuf
  ToyHash ToyEnv ToyBundles PropsTrustedRoot PropsRekorClient PropsSigningConfig PropsCliVerify.

(** ** Specification *)

(** the authorities of a root whose window has started, and what they list: the certificates that
    a verifier made at [now] trusts *)
Definition trusted_cas (env : Env) (now : time) (tr : TrustedRootMsg) (certs : list Cert) : Prop :=
  certs <> nil /\
  exists parsed used,
    Forall2 (fun m cs => Forall2 (fun der c => e_parse_cert env der = Ok c) (cam_certs m) cs /\ cs <> nil) (tr_cas tr) parsed /\
    selected (fun mc => started now (cam_valid_for (fst mc))) (combine (tr_cas tr) parsed) used /\
    certs = concat (map snd used).

(** the first log that the root lists, and the address of its search *)
Definition first_log (tr : TrustedRootMsg) (t : TLog) : Prop := exists rest, tr_tlogs tr = t :: rest.
Definition search_url (t : TLog) : str := tl_base_url t ++ s2l "/api/v1/log/entries/retrieve/".

(** the same command with other inputs *)
Definition with_inputs (a : VerifyArgs) (inputs : list str) : VerifyArgs :=
  mkVA inputs (va_cert a) (va_sig a) (va_bundle a) (va_offline a) (va_trust_config a) (va_instance a) (va_staging a) (va_verbose a).

(** ** C82 *)

(** A verifier can be made exactly if some authority of the root is usable and the root lists a
    log; it trusts those authorities, and its log is the first one. *)
Theorem C82_verifier_iff : forall env now tr v,
  make_verifier env now tr = Ok v <->
  vf_root v = tr /\ trusted_cas env now tr (vf_fulcio v) /\ exists t, first_log tr t /\ vf_rekor_url v = tl_base_url t.
Proof.
  intros env now tr v. unfold make_verifier, trusted_cas, first_log. split.
  - intros H. inv_bind H. inv_bind H. inversion H; subst v; clear H. cbn [vf_root vf_fulcio vf_rekor_url].
    split; [reflexivity|]. split; [apply C14_fulcio_certificates; assumption|]. exists a0. split; [|reflexivity].
    destruct (tr_tlogs tr) as [|t rest]; [discriminate|]. cbn in Ha0. exists rest. congruence.
  - intros (R & C & t & (rest & T) & U). apply C14_fulcio_certificates in C. rewrite C. cbn [bind]. rewrite T. cbn.
    destruct v as [f r u]. cbn in *. congruence.
Qed.

(** Without a log there is no verifier, even for bundles, which do not need one; the exception is
    not one of the package. *)
Theorem C82_no_log : forall env now tr certs, trusted_cas env now tr certs -> tr_tlogs tr = nil -> make_verifier env now tr = Raise EIndex.
Proof.
  intros env now tr certs C T. apply C14_fulcio_certificates in C. unfold make_verifier. rewrite C. cbn [bind]. rewrite T. reflexivity.
Qed.

(** For detached materials the command asks the first log of the root, once for each input, and
    nothing else; what the other logs would say does not matter. *)
Definition same_first_log (w w' : World) (t : TLog) : Prop :=
  forall x req, w_rekor w x (POST (search_url t) req) = w_rekor w' x (POST (search_url t) req).
Definition same_otherwise (w w' : World) : Prop :=
  w_cwd w = w_cwd w' /\ w_files w = w_files w' /\ w_load_pem w = w_load_pem w' /\ w_parse_bundle w = w_parse_bundle w' /\
  w_validate w = w_validate w' /\ w_config_json w = w_config_json w' /\ w_config_tuf w = w_config_tuf w' /\ w_rp w = w_rp w' /\
  w_start w = w_start w' /\ w_when w = w_when w'.
Lemma search_at : forall rp http http' url req, http (POST (url ++ s2l "/api/v1/log/entries/retrieve/") req) = http' (POST (url ++ s2l "/api/v1/log/entries/retrieve/") req) ->
  retrieve_post rp http url req = retrieve_post rp http' url req.
Proof.
  intros rp http http' url req H. unfold retrieve_post.
  assert (E : v1_retrieve_url url = url ++ s2l "/api/v1/log/entries/retrieve/").
  { unfold v1_retrieve_url, v1_entries_url, v1_log_url. rewrite <- !app_assoc. reflexivity. }
  rewrite E, H. reflexivity.
Qed.
Theorem C82_only_the_first_log : forall env ps w w' a identity issuer c t,
  config_selected w a (Ok c) -> first_log (ctc_root c) t -> same_otherwise w w' -> same_first_log w w' t ->
  verify_identity env ps w a identity issuer = verify_identity env ps w' a identity issuer.
Proof.
  intros env ps w w' a identity issuer c t Cs Fl (E1 & E2 & E3 & E4 & E5 & E6 & E7 & E8 & E9 & E10) S.
  destruct w as [cwd files pem pb val cj ct rk rp st wh], w' as [cwd' files' pem' pb' val' cj' ct' rk' rp' st' wh'].
  cbn in E1, E2, E3, E4, E5, E6, E7, E8, E9, E10. subst cwd' files' pem' pb' val' cj' ct' rp' st' wh'.
  set (w := mkWorld cwd files pem pb val cj ct rk rp st wh) in *. set (w' := mkWorld cwd files pem pb val cj ct rk' rp st wh) in *.
  assert (G : collect_verification_state env w a = collect_verification_state env w' a).
  { unfold collect_verification_state.
    change (parse_inputs w' (va_inputs a)) with (parse_inputs w (va_inputs a)).
    destruct (parse_inputs w (va_inputs a)) as [items|e]; [|reflexivity]. cbn [bind].
    destruct (raise_if _ (ESystemExit 2)); [|reflexivity]. cbn [bind]. destruct (raise_if _ (ESystemExit 2)); [|reflexivity]. cbn [bind].
    destruct (raise_if _ (ESystemExit 2)); [|reflexivity]. cbn [bind]. destruct (raise_if _ (ESystemExit 2)); [|reflexivity]. cbn [bind].
    assert (B : forall l m, build_map w' a l m = build_map w a l m).
    { induction l as [|[p|h] l IH]; intros m; cbn [build_map]; [reflexivity| |apply IH].
      change (materials_for w' a p) with (materials_for w a p). destruct (materials_for w a p); [apply IH|reflexivity]. }
    rewrite B. destruct (build_map w a items nil) as [m|e]; [|reflexivity]. cbn [bind].
    change (digest_map w' a items) with (digest_map w a items).
    destruct (match m with nil => digest_map w a items | _ => Ok m end) as [m'|e]; [|reflexivity]. cbn [bind].
    change (get_trust_config w' (va_trust_config a) (va_instance a) (va_staging a) (va_offline a))
      with (get_trust_config w (va_trust_config a) (va_instance a) (va_staging a) (va_offline a)).
    apply config_iff in Cs. rewrite Cs. cbn [bind].
    destruct (make_trusted_root (ctc_root c)) as [root|e] eqn:R; [|reflexivity]. cbn [bind].
    pose proof (make_trusted_root_same _ _ R). subst root.
    change (w_start w') with (w_start w). destruct (make_verifier env (w_start w) (ctc_root c)) as [v|e] eqn:V; [|reflexivity]. cbn [bind].
    assert (U : vf_rekor_url v = tl_base_url t).
    { apply C82_verifier_iff in V. destruct V as (_ & _ & t' & (r' & T') & U). destruct Fl as (r & T). congruence. }
    assert (L : forall x mt, load_materials env w v x mt = load_materials env w' v x mt).
    { intros x mt. unfold load_materials.
      change (match x with It_path p => let* b := file_bytes w' p in Ok (sha256_digest env (In_bytes b)) | It_digest h => Ok h end)
        with (match x with It_path p => let* b := file_bytes w p in Ok (sha256_digest env (In_bytes b)) | It_digest h => Ok h end).
      destruct (match x with It_path p => _ | It_digest h => _ end) as [hashed|e]; [|reflexivity]. cbn [bind].
      destruct mt as [p|cp sp]; [reflexivity|].
      change (file_bytes w' cp) with (file_bytes w cp). destruct (file_bytes w cp) as [pemb|e]; [|reflexivity]. cbn [bind].
      change (w_load_pem w' pemb) with (w_load_pem w pemb). destruct (w_load_pem w pemb) as [cert|e]; [|reflexivity]. cbn [bind].
      change (file_text w' sp) with (file_text w sp). destruct (file_text w sp) as [text|e]; [|reflexivity]. cbn [bind].
      destruct (b64decode text) as [sig|e]; [|reflexivity]. cbn [bind].
      destruct (hashedrekord_from_parts cert sig hashed) as [req|e]; [|reflexivity]. cbn [bind].
      rewrite U. change (w_rp w') with (w_rp w).
      rewrite (search_at (w_rp w) (w_rekor w x) (w_rekor w' x)); [reflexivity|]. apply S. }
    assert (K : map_res (fun xm => let* hb := load_materials env w v (fst xm) (snd xm) in Ok (fst xm, hb)) m' =
                map_res (fun xm => let* hb := load_materials env w' v (fst xm) (snd xm) in Ok (fst xm, hb)) m').
    { induction m' as [|xm m' IH]; [reflexivity|]. cbn [map_res]. rewrite L, IH. reflexivity. }
    rewrite K. reflexivity. }
  assert (Lp : forall vb v p all, verify_loop env ps w vb show_decoded v p all = verify_loop env ps w' vb show_decoded v p all).
  { intros vb v p all. induction all as [|[x [h b]] all IH]; [reflexivity|]. cbn [verify_loop]. rewrite IH. reflexivity. }
  unfold verify_identity, run_verify. rewrite G. destruct (collect_verification_state env w' a) as [[v all]|e]; [|reflexivity]. rewrite Lp. reflexivity.
Qed.

(** ** C83 *)

Lemma verifier_selected_inputs : forall env w a l v, verifier_selected env w (with_inputs a l) v <-> verifier_selected env w a v.
Proof. reflexivity. Qed.

Lemma denotes_fun : forall w arg x y, denotes w arg x -> denotes w arg y -> x = y.
Proof. intros w arg x y H K. apply file_or_digest_iff in H, K. congruence. Qed.

Lemma one_by_one : forall env ps w a show p, va_bundle a = None -> va_cert a = None -> va_sig a = None ->
  (every_input_verified env ps w a show p <->
   va_inputs a <> nil /\ forall arg, In arg (va_inputs a) -> every_input_verified env ps w (with_inputs a [arg]) show p).
Proof.
  intros env ps w a show p Vb Vc Vs.
  assert (Ev : forall l v x d b, evidence env w (with_inputs a l) v x d b <-> evidence env w a v x d b) by reflexivity.
  assert (Nd : ~ detached a) by (intros [H|H]; congruence).
  split.
  - intros (items & v & D & O & V & K). split.
    { destruct O as (O & _). intros E. rewrite E in D. inversion D; subst. contradiction. }
    intros arg I.
    assert (exists x, In x items /\ denotes w arg x) as (x & X & Dx).
    { clear - D I. induction D as [|g y gs ys Dg D IH]; [destruct I|]. destruct I as [->|I]; [exists y; split; [left; reflexivity|assumption]|].
      destruct (IH I) as (x & X & Dx). exists x. split; [right|]; assumption. }
    exists [x], v. split; [constructor; [assumption|constructor]|]. split; [|split; [assumption|]].
    + destruct O as (_ & _ & _ & O4 & O5 & O6). split; [discriminate|]. split; [reflexivity|]. split; [intros Q; exfalso; apply Q; assumption|].
      split; [|split].
      * intros h [E|[]]. subst x. exact (O4 h X).
      * intros _. exact Nd.
      * intros f [E|[]]. subst x. exact (O6 f X).
    + intros y [<-|[]]. apply K. assumption.
  - intros (Ne & K).
    destruct (va_inputs a) as [|g0 gs0] eqn:Ia; [congruence|]. clear Ne. rewrite <- Ia in K.
    destruct (K g0) as (its & v & _ & _ & V & _); [rewrite Ia; left; reflexivity|].
    assert (G : forall args, incl args (va_inputs a) -> exists items, Forall2 (denotes w) args items /\
      forall x, In x items -> exists arg d b st, denotes w arg x /\ In arg args /\
        options_ok w (with_inputs a [arg]) [x] /\
        digest_of env w x d /\ evidence env w a v x d b /\ vouched env ps w (w_when w x) v p d b st /\ printable show st).
    { induction args as [|g gs IH]; intros Hi; [exists nil; split; [constructor|intros x []]|].
      destruct (IH (fun z Hz => Hi z (or_intror Hz))) as (items & F & Q).
      destruct (K g (Hi g (or_introl eq_refl))) as (its' & v' & D' & O' & V' & K').
      inversion D' as [|? x ? l Dx Dn]; subst. inversion Dn; subst. exists (x :: items). split; [constructor; assumption|].
      intros y [<-|I].
      - destruct (K' x (or_introl eq_refl)) as (d & b & st & W1 & W2 & W3 & W4).
        assert (v' = v).
        { apply verifier_iff in V, V'. destruct V as (c1 & r1 & A1 & A2 & A3), V' as (c2 & r2 & B1 & B2 & B3).
          cbn [with_inputs va_trust_config va_instance va_staging va_offline] in *. congruence. }
        subst v'. exists g, d, b, st. split; [assumption|]. split; [left; reflexivity|]. auto.
      - destruct (Q y I) as (arg & d & b & st & U1 & U2 & U3). exists arg, d, b, st. split; [assumption|]. split; [right; assumption|assumption]. }
    destruct (G (va_inputs a) (incl_refl _)) as (items & F & Q). exists items, v.
    split; [rewrite Ia in F |- *; assumption|]. split; [|split; [exact V|]].
    + split; [intros E; subst items; rewrite Ia in F; inversion F|].
      split; [intros [E|E]; [congruence|contradiction]|]. split; [intros E; congruence|]. split; [|split; [intros _; exact Nd|]].
      * intros h I. destruct (Q _ I) as (arg & d & b & st & _ & _ & (_ & _ & _ & O4 & _) & _). exact (O4 h (or_introl eq_refl)).
      * intros f I. destruct (Q _ I) as (arg & d & b & st & _ & _ & (_ & _ & _ & _ & _ & O6) & _). exact (O6 f (or_introl eq_refl)).
    + intros x I. destruct (Q _ I) as (arg & d & b & st & _ & _ & _ & R). exists d, b, st. exact R.
Qed.

(** Verifying several inputs at once succeeds exactly if verifying each of them alone does (in the
    same world: files, clock and services answer alike).  A bundle, certificate or signature can be
    given for one input only. *)
Theorem C83_one_by_one : forall env ps w a identity issuer, va_bundle a = None -> va_cert a = None -> va_sig a = None ->
  (snd (verify_identity env ps w a identity issuer) = Ok tt <->
   va_inputs a <> nil /\
   forall arg, In arg (va_inputs a) -> snd (verify_identity env ps w (with_inputs a [arg]) identity issuer) = Ok tt).
Proof.
  intros env ps w a identity issuer Vb Vc Vs. rewrite C56_verify_identity_iff, one_by_one by assumption.
  split; intros (Ne & H); (split; [assumption|]); intros arg I; [apply C56_verify_identity_iff|apply (C56_verify_identity_iff _ _ _ (with_inputs a [arg]))]; auto.
Qed.
Theorem C83_one_by_one_github : forall env ps w a g, va_bundle a = None -> va_cert a = None -> va_sig a = None ->
  (snd (verify_github env ps w a g) = Ok tt <->
   va_inputs a <> nil /\ forall arg, In arg (va_inputs a) -> snd (verify_github env ps w (with_inputs a [arg]) g) = Ok tt).
Proof.
  intros env ps w a g Vb Vc Vs. rewrite C56_verify_github_iff, one_by_one by assumption. split.
  - intros (Hg & Ne & H). split; [assumption|]. intros arg I. apply C56_verify_github_iff. auto.
  - intros (Ne & H). destruct (va_inputs a) as [|g0 gs]; [congruence|].
    pose proof (proj1 (C56_verify_github_iff _ _ _ _ _) (H g0 (or_introl eq_refl))) as (Hg & _). split; [assumption|]. split; [assumption|].
    intros arg I. apply (C56_verify_github_iff _ _ _ (with_inputs a [arg])). auto.
Qed.

(** So neither the order of the inputs nor naming one twice matters. *)
Theorem C83_order_and_repetition : forall env ps w a l identity issuer, va_bundle a = None -> va_cert a = None -> va_sig a = None ->
  (forall arg, In arg l <-> In arg (va_inputs a)) ->
  (snd (verify_identity env ps w a identity issuer) = Ok tt <-> snd (verify_identity env ps w (with_inputs a l) identity issuer) = Ok tt).
Proof.
  intros env ps w a l identity issuer Vb Vc Vs E. rewrite (C83_one_by_one _ _ _ a), (C83_one_by_one _ _ _ (with_inputs a l)) by assumption.
  cbn [with_inputs va_inputs]. split; intros (Ne & H); (split; [|intros arg I; apply (H arg), E, I]).
  - intros ->. destruct (va_inputs a) as [|g gs]; [congruence|]. destruct (proj2 (E g) (or_introl eq_refl)).
  - intros Q. rewrite Q in E. destruct l as [|g gs]; [congruence|]. destruct (proj1 (E g) (or_introl eq_refl)).
Qed.

(** ** Concrete cases *)

Example ex_first_log : first_log vx_tr (mkTLog (mkPKM (Some PropsCheckpoint.cx_key) PKIX_ECDSA_P256_SHA_256) vx_window (s2l "https://rekor.example")) /\
  config_selected cvx_world (cvx_args [s2l "a.txt"]) (Ok (mkCTC vx_tr (sc_msg nil None) None)).
Proof.
  split; [exists nil; reflexivity|]. exists (s2l "https://tuf-repo-cdn.sigstore.dev"). split; [reflexivity|]. right. split; [left|]; reflexivity.
Qed.
Example ex_one_by_one : forall arg, In arg [s2l "a.txt"; s2l "b.txt"] ->
  snd (verify_identity vx_env vx_parsers cvx_world (cvx_args [arg]) (s2l "a@b.c") (s2l "https://issuer.example")) = Ok tt.
Proof. intros arg [<-|[<-|[]]]; vm_compute; reflexivity. Qed.
Example ex_not_one_by_one :
  snd (verify_identity vx_env vx_parsers cvx_world (cvx_args [s2l "a.txt"; s2l "c.txt"]) (s2l "a@b.c") (s2l "https://issuer.example")) <> Ok tt /\
  snd (verify_identity vx_env vx_parsers cvx_world (cvx_args [s2l "c.txt"]) (s2l "a@b.c") (s2l "https://issuer.example")) <> Ok tt.
Proof. split; vm_compute; discriminate. Qed.
(** a world in which only the search of the first log answers *)
Definition dvx_rekor (x : item) (r : http_request EntryRequest) : res response :=
  match r with
  | POST u _ => if str_eqb u (s2l "https://rekor.example/api/v1/log/entries/retrieve/") then w_rekor cvx_world x r else Raise EConnection
  | GET _ _ => Raise EConnection
  end.
Definition dvx_world : World :=
  mkWorld [s2l "home"] cvx_files (w_load_pem cvx_world) cvx_parse cvx_validate (fun _ => Raise EValue) cvx_config dvx_rekor rkx_rp vx_now (fun _ => vx_now).
Definition dvx_args : VerifyArgs := mkVA [s2l "c.txt"] (Some [s2l "c.txt.crt"]) None None false None None true false.
Example ex_only_the_first_log :
  snd (verify_identity vx_env vx_parsers dvx_world dvx_args (s2l "a@b.c") (s2l "https://issuer.example")) = Ok tt.
Proof. vm_compute. reflexivity. Qed.

(** Expected, but not so: the log that is asked is one that is in force.  The validity windows of
    the logs are not looked at: of two logs, the first one is asked though the root says it has not
    started, and the second one, which is in force, is not. *)
Definition dvx_future : TLog := mkTLog (mkPKM (Some PropsCheckpoint.cx_key) PKIX_ECDSA_P256_SHA_256) (Some (mkTimeRange (vx_now + 1)%Z None)) (s2l "https://next.example").
Definition dvx_tr : TrustedRootMsg := mkTR TRUSTED_ROOT_0_1 (dvx_future :: tr_tlogs vx_tr) (tr_ctlogs vx_tr) (tr_cas vx_tr) (tr_tsas vx_tr).
Theorem C82_log_in_force_refuted : exists env now tr v t t',
  make_verifier env now tr = Ok v /\ first_log tr t /\ vf_rekor_url v = tl_base_url t /\ ~ started now (tl_valid_for t) /\
  In t' (tr_tlogs tr) /\ in_force SIGN now (tl_valid_for t') /\ tl_base_url t' <> tl_base_url t.
Proof.
  exists vx_env, vx_now, dvx_tr, (mkVerifier [vx_issuer] dvx_tr (s2l "https://next.example")), dvx_future,
    (mkTLog (mkPKM (Some PropsCheckpoint.cx_key) PKIX_ECDSA_P256_SHA_256) vx_window (s2l "https://rekor.example")).
  split; [vm_compute; reflexivity|]. split; [exists (tr_tlogs vx_tr); reflexivity|]. split; [reflexivity|].
  split; [intros H; specialize (H _ eq_refl); cbn [tr_start] in H; unfold vx_now in H; lia|].
  split; [right; left; reflexivity|]. split; [|vm_compute; discriminate].
  split; [intros r E; injection E as <-; cbn [tr_start]; unfold vx_now; lia|]. intros _ r e E Q. injection E as <-. discriminate Q.
Qed.

Print Assumptions C82_verifier_iff.
Print Assumptions C82_no_log.
Print Assumptions C82_only_the_first_log.
Print Assumptions C82_log_in_force_refuted.
Print Assumptions C83_one_by_one.
Print Assumptions C83_one_by_one_github.
Print Assumptions C83_order_and_repetition.
