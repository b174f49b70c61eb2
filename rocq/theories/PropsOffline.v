(** Property C71: verification with [--offline] depends on nothing but local files and the clock. *)
From Verif Require Import Base Codec Messages Env Keyring Cert Dsse KeyDetails Policy TrustedRoot SigningConfig Hashing Json Http
  LogEntry Bundle Verifier RekorClient Clients Tuf PyText CliVerify VerifierSpec PropsTuf PropsCliVerify PropsSigningConfig PropsRekorClient ToyHash ToyEnv ToyBundles.

(** ** Specification *)

(** the same computer: directory, files, libraries, clock *)
Definition same_computer (w w' : World) : Prop :=
  w_cwd w = w_cwd w' /\ (forall p, w_files w p = w_files w' p) /\ (forall b, w_load_pem w b = w_load_pem w' b) /\
  (forall b, w_parse_bundle w b = w_parse_bundle w' b) /\ (forall b, w_validate w b = w_validate w' b) /\
  (forall t, w_config_json w t = w_config_json w' t) /\ w_rp w = w_rp w' /\ w_start w = w_start w' /\ (forall x, w_when w x = w_when w' x).
(** the same trust material for a client that is (not) offline *)
Definition same_material (offline : bool) (w w' : World) : Prop := forall url, w_config_tuf w url offline = w_config_tuf w' url offline.
(** the log answers alike *)
Definition same_log (w w' : World) : Prop := forall x rq, w_rekor w x rq = w_rekor w' x rq.
Definition no_detached (a : VerifyArgs) : Prop := va_cert a = None /\ va_sig a = None.

(** trust material obtained by a TUF client (C53-C55): directories, TUF library (hence repository),
    embedded files, parsers, file of a bootstrap root, state of the disk *)
Definition tuf_material (data cache : path) (lib : TufLib) (emb : str -> str -> option bytes)
  (ptr : bytes -> res TrustedRootMsg) (psc : bytes -> res SigningConfigMsg) (boot : option (res bytes)) (s : tstate)
  (url : str) (offline : bool) : res ClientTrustConfig :=
  match fst (from_tuf data cache lib emb ptr psc url offline boot s) with
  | Ok (tr, sc) => Ok (mkCTC tr sc None)
  | Raise e => Raise e
  end.

(** ** Proofs *)

Section Same.
Variable env : Env.
Variable ps : Parsers.
Variables w w' : World.
Hypothesis Sc : same_computer w w'.

Lemma same_content : forall p, content w p = content w' p.
Proof. destruct Sc as (C & F & _). intros p. unfold content. rewrite C. apply F. Qed.
Lemma same_is_file : forall p, is_file w p = is_file w' p.
Proof. intros p. unfold is_file. rewrite same_content. reflexivity. Qed.
Lemma same_file_bytes : forall p, file_bytes w p = file_bytes w' p.
Proof. intros p. unfold file_bytes. rewrite same_content. reflexivity. Qed.
Lemma same_file_text : forall p, file_text w p = file_text w' p.
Proof. intros p. unfold file_text. rewrite same_file_bytes. reflexivity. Qed.
Lemma map_res_ext : forall A B (f g : A -> res B) l, (forall x, In x l -> f x = g x) -> map_res f l = map_res g l.
Proof.
  intros A B f g l. induction l as [|x l IH]; intros H; [reflexivity|]. cbn [map_res]. rewrite (H x (or_introl eq_refl)).
  destruct (g x); [|reflexivity]. cbn [bind]. rewrite IH; [reflexivity|]. intros y I. apply H. right. assumption.
Qed.
Lemma same_inputs : forall args, parse_inputs w args = parse_inputs w' args.
Proof.
  intros args. unfold parse_inputs. rewrite (map_res_ext _ _ (file_or_digest w) (file_or_digest w')); [reflexivity|].
  intros x _. unfold file_or_digest. rewrite same_is_file. reflexivity.
Qed.
Lemma same_check : forall m, check_materials w m = check_materials w' m.
Proof. intros [p|c s]; unfold check_materials; rewrite ?same_is_file; reflexivity. Qed.
Lemma same_materials : forall a p, materials_for w a p = materials_for w' a p.
Proof.
  intros a p. unfold materials_for. rewrite same_is_file. destruct (raise_if _ _); [|reflexivity]. cbn [bind].
  destruct (va_bundle a); rewrite ?same_is_file; [apply same_check|].
  destruct (negb _ && _); [apply same_check|]. destruct (_ && _); [reflexivity|apply same_check].
Qed.
Lemma same_build : forall a items m, build_map w a items m = build_map w' a items m.
Proof.
  intros a items. induction items as [|[p|h] items IH]; intros m; cbn [build_map]; [reflexivity| |apply IH].
  rewrite same_materials. destruct (materials_for w' a p); [apply IH|reflexivity].
Qed.
Lemma same_digest : forall a items, digest_map w a items = digest_map w' a items.
Proof.
  intros a items. unfold digest_map. destruct (raise_if _ _); [|reflexivity]. cbn [bind]. destruct (index_list items 0); [|reflexivity]. cbn [bind].
  destruct (if is_some (va_sig a) || is_some (va_cert a) then _ else _); [|reflexivity]. cbn [bind]. rewrite same_check. reflexivity.
Qed.
Lemma same_config : forall a, va_trust_config a <> None \/ same_material (va_offline a) w w' ->
  get_trust_config w (va_trust_config a) (va_instance a) (va_staging a) (va_offline a) =
  get_trust_config w' (va_trust_config a) (va_instance a) (va_staging a) (va_offline a).
Proof.
  intros a H. unfold get_trust_config. destruct (va_trust_config a) as [p|].
  - rewrite same_file_text. destruct (file_text w' p); [|reflexivity]. cbn [bind]. destruct Sc as (_ & _ & _ & _ & _ & J & _). apply J.
  - destruct H as [H|H]; [contradiction|]. destruct (va_instance a) as [[|c r]|]; rewrite ?H; reflexivity.
Qed.
Lemma same_load : forall v x m, (forall c s, m = M_parts c s -> same_log w w') -> load_materials env w v x m = load_materials env w' v x m.
Proof.
  intros v x m H. destruct Sc as (_ & _ & Lp & Pb & _ & _ & Rp & _). unfold load_materials.
  assert (E : (match x with It_path p => let* b := file_bytes w p in Ok (sha256_digest env (In_bytes b)) | It_digest h => Ok h end) =
              (match x with It_path p => let* b := file_bytes w' p in Ok (sha256_digest env (In_bytes b)) | It_digest h => Ok h end)).
  { destruct x; [rewrite same_file_bytes|]; reflexivity. }
  rewrite E. clear E. destruct (match x with It_path _ => _ | It_digest _ => _ end) as [hashed|e]; [|reflexivity]. cbn [bind].
  destruct m as [p|c s].
  - rewrite same_file_bytes. destruct (file_bytes w' p) as [raw|e]; [|reflexivity]. cbn [bind]. unfold bundle_from_json. rewrite Pb. reflexivity.
  - rewrite same_file_bytes. destruct (file_bytes w' c) as [pem|e]; [|reflexivity]. cbn [bind]. rewrite Lp. destruct (w_load_pem w' pem); [|reflexivity]. cbn [bind].
    rewrite same_file_text. destruct (file_text w' s); [|reflexivity]. cbn [bind]. destruct (b64decode _); [|reflexivity]. cbn [bind].
    destruct (hashedrekord_from_parts _ _ _); [|reflexivity]. cbn [bind]. rewrite Rp.
    assert (Q : forall rq, retrieve_post (w_rp w') (w_rekor w x) (vf_rekor_url v) rq = retrieve_post (w_rp w') (w_rekor w' x) (vf_rekor_url v) rq).
    { intros rq. unfold retrieve_post. rewrite (H c s eq_refl). reflexivity. }
    rewrite Q. reflexivity.
Qed.
End Same.

(** what the maps contain *)
Lemma build_bundles : forall w a items m m', no_detached a -> build_map w a items m = Ok m' ->
  (forall x mt, In (x, mt) m -> exists p, mt = M_bundle p) -> forall x mt, In (x, mt) m' -> exists p, mt = M_bundle p.
Proof.
  intros w a items m m' (N1 & N2). revert m. induction items as [|[p|h] items IH]; intros m H Hm; cbn [build_map] in H.
  - inversion H; subst. assumption.
  - apply bind_ok_inv in H. destruct H as (mt & Hmt & H). eapply IH; [exact H|].
    assert (B : exists q, mt = M_bundle q).
    { unfold materials_for in Hmt. apply bind_ok_inv in Hmt. destruct Hmt as (_ & _ & Hmt). apply bind_ok_inv in Hmt. destruct Hmt as (bp & _ & Hmt).
      rewrite N1, N2 in Hmt. cbn [is_some orb] in Hmt. unfold check_materials in Hmt. apply bind_ok_inv in Hmt. destruct Hmt as (_ & _ & Hmt). inversion Hmt. eauto. }
    clear - B Hm. induction m as [|[y n] m IHm]; cbn [dict_set]; intros x mt' I.
    + destruct I as [I|[]]. inversion I; subst. assumption.
    + destruct (item_eqb (It_path p) y).
      * destruct I as [I|I]; [inversion I; subst; assumption|]. eapply Hm. right. exact I.
      * destruct I as [I|I]; [eapply Hm; left; exact I|]. eapply IHm; [|exact I]. intros; eapply Hm; right; eassumption.
  - eapply IH; eassumption.
Qed.
Lemma digest_bundles : forall w a items m', no_detached a -> digest_map w a items = Ok m' -> forall x mt, In (x, mt) m' -> exists p, mt = M_bundle p.
Proof.
  intros w a items m' (N1 & N2) H x mt I. unfold digest_map in H. apply bind_ok_inv in H. destruct H as (_ & _ & H).
  apply bind_ok_inv in H. destruct H as (hd & _ & H). rewrite N1, N2 in H. cbn [is_some orb] in H.
  destruct (va_bundle a) as [b|]; [|discriminate]. cbn [bind] in H. apply bind_ok_inv in H. destruct H as (m & C & H).
  unfold check_materials in C. apply bind_ok_inv in C. destruct C as (_ & _ & C). inversion C; subst. inversion H; subst. destruct I as [I|[]]. inversion I; subst. eauto.
Qed.

Lemma same_collect : forall env w w' a, same_computer w w' ->
  (va_trust_config a <> None \/ same_material (va_offline a) w w') ->
  (va_offline a = true \/ no_detached a \/ same_log w w') ->
  collect_verification_state env w a = collect_verification_state env w' a.
Proof.
  intros env w w' a Sc Cf Lg. unfold collect_verification_state. rewrite (same_inputs w w' Sc).
  destruct (parse_inputs w' (va_inputs a)) as [items|e]; [|reflexivity]. cbn [bind].
  destruct (raise_if ((_ || _) && _) _); [|reflexivity]. cbn [bind]. destruct (raise_if (is_some _ && _) _); [|reflexivity]. cbn [bind].
  destruct (raise_if (existsb _ _ && _ && _) _); [|reflexivity]. cbn [bind].
  destruct (raise_if (va_offline a && _) _) eqn:Off; [|reflexivity]. cbn [bind].
  rewrite (same_build w w' Sc). destruct (build_map w' a items nil) as [m|e] eqn:B; [|reflexivity]. cbn [bind].
  assert (E : (match m with nil => digest_map w a items | _ => Ok m end) = (match m with nil => digest_map w' a items | _ => Ok m end)).
  { destruct m; [apply same_digest; assumption|reflexivity]. }
  rewrite E. clear E. destruct (match m with nil => digest_map w' a items | _ => Ok m end) as [im|e] eqn:D; [|reflexivity]. cbn [bind].
  rewrite (same_config w w' Sc a Cf). destruct (get_trust_config w' _ _ _ _) as [c|e]; [|reflexivity]. cbn [bind].
  destruct (make_trusted_root (ctc_root c)) as [root|e]; [|reflexivity]. cbn [bind].
  assert (St : w_start w = w_start w') by (destruct Sc as (_ & _ & _ & _ & _ & _ & _ & S1 & _); exact S1). rewrite St.
  destruct (make_verifier env (w_start w') root) as [v|e]; [|reflexivity]. cbn [bind].
  assert (Nd : no_detached a -> forall x mt, In (x, mt) im -> exists p, mt = M_bundle p).
  { intros Nd. destruct m; [eapply digest_bundles; eassumption|]. inversion D; subst. eapply build_bundles; [exact Nd|exact B|]. intros ? ? []. }
  rewrite (map_res_ext _ _ (fun xm => let* hb := load_materials env w v (fst xm) (snd xm) in Ok (fst xm, hb))
    (fun xm => let* hb := load_materials env w' v (fst xm) (snd xm) in Ok (fst xm, hb))); [reflexivity|].
  intros [x mt] I. cbn [fst snd]. rewrite (same_load env w w' Sc); [reflexivity|].
  intros cp sp ->. destruct Lg as [O|[Nd'|Lg]]; [|destruct (Nd Nd' _ _ I) as (? & [=])|assumption].
  rewrite O in Off. cbn [andb] in Off. exfalso.
  assert (No : no_detached a) by (split; destruct (va_cert a), (va_sig a); try reflexivity; discriminate Off).
  destruct (Nd No _ _ I) as (? & [=]).
Qed.
Lemma same_loop : forall env ps w w' verbose show v p all, same_computer w w' ->
  verify_loop env ps w verbose show v p all = verify_loop env ps w' verbose show v p all.
Proof.
  intros env ps w w' verbose show v p all Sc. destruct Sc as (_ & _ & _ & _ & Va & _ & _ & _ & Wh).
  induction all as [|[x [hd b]] all IH]; [reflexivity|]. cbn [verify_loop].
  assert (E : forall now, verify_common env ps w now v hd b p = verify_common env ps w' now v hd b p).
  { intros now. unfold verify_common. destruct (bundle_envelope b) as [[m|]|e]; cbn [bind]; try reflexivity.
    destruct (verify_dsse env ps now v b p) as [[ty pl]|e]; [|reflexivity]. cbn [bind]. destruct (raise_if _ _); [|reflexivity]. cbn [bind].
    unfold statement_of_bytes. rewrite Va. reflexivity. }
  rewrite E, Wh, IH. reflexivity.
Qed.
Lemma same_run : forall env ps w w' a show p, same_computer w w' ->
  (va_trust_config a <> None \/ same_material (va_offline a) w w') ->
  (va_offline a = true \/ no_detached a \/ same_log w w') ->
  run_verify env ps w a show p = run_verify env ps w' a show p.
Proof.
  intros env ps w w' a show p Sc Cf Lg. unfold run_verify. rewrite (same_collect env w w' a Sc Cf Lg).
  destruct (collect_verification_state env w' a) as [[v all]|e]; [|reflexivity]. apply same_loop. assumption.
Qed.

(** With [--offline], what both verification commands print and how they end depends on the
    computer and on the material of an offline client only: not on the log's answers, and not on
    anything an online client would obtain. *)
Theorem C71_offline : forall env ps w w' a, va_offline a = true -> same_computer w w' -> same_material true w w' ->
  (forall identity issuer, verify_identity env ps w a identity issuer = verify_identity env ps w' a identity issuer) /\
  (forall g, verify_github env ps w a g = verify_github env ps w' a g).
Proof.
  intros env ps w w' a O Sc Sm.
  assert (R : forall show p, run_verify env ps w a show p = run_verify env ps w' a show p).
  { intros show p. apply same_run; [assumption| |left; assumption]. right. rewrite O. assumption. }
  split; intros; [unfold verify_identity|unfold verify_github]; rewrite R; reflexivity.
Qed.

(** The material of an offline client is that of its disk: two offline verifications on computers with
    the same disk (and the same version of the library) agree, whatever the repositories and the
    log serve, even if the TUF client itself behaves differently. *)
Theorem C71_offline_disk : forall env ps w w' a data cache lib lib' emb ptr psc boot boot' fs0 net net',
  va_offline a = true -> same_computer w w' ->
  (forall url, w_config_tuf w url true = tuf_material data cache lib emb ptr psc boot (mkT fs0 net) url true) ->
  (forall url, w_config_tuf w' url true = tuf_material data cache lib' emb ptr psc boot' (mkT fs0 net') url true) ->
  (forall identity issuer, verify_identity env ps w a identity issuer = verify_identity env ps w' a identity issuer) /\
  (forall g, verify_github env ps w a g = verify_github env ps w' a g).
Proof.
  intros env ps w w' a data cache lib lib' emb ptr psc boot boot' fs0 net net' O Sc M M'. apply C71_offline; [assumption|assumption|].
  intros url. rewrite M, M'. unfold tuf_material.
  assert (E : fst (from_tuf data cache lib emb ptr psc url true boot (mkT fs0 net)) = fst (from_tuf data cache lib' emb ptr psc url true boot' (mkT fs0 net'))).
  2: { rewrite E. reflexivity. }
  assert (K : forall x y, (exists u v, x = (u, mkT v net) /\ y = (u, mkT v net')) -> fst x = fst y :> res (TrustedRootMsg * SigningConfigMsg)).
  { intros x y (u & f & -> & ->). reflexivity. }
  apply K. unfold from_tuf.
  (* two states that differ in the network events only stay so *)
  assert (Bi : forall A B (m m' : Tuf.op A) (k k' : A -> Tuf.op B) f, 
    (exists u v, m (mkT f net) = (u, mkT v net) /\ m' (mkT f net') = (u, mkT v net')) ->
    (forall x g, m (mkT f net) = (Ok x, mkT g net) -> exists u v, k x (mkT g net) = (u, mkT v net) /\ k' x (mkT g net') = (u, mkT v net')) ->
    exists u v, obind m k (mkT f net) = (u, mkT v net) /\ obind m' k' (mkT f net') = (u, mkT v net')).
  { intros A B m m' k k' f (u & g & E1 & E2) H. unfold obind. rewrite E1, E2. destruct u as [x|e]; [apply H; assumption|]. eauto. }
  assert (Rt : forall A (r : res A) f, exists u v, Tuf.ret r (mkT f net) = (u, mkT v net) /\ Tuf.ret r (mkT f net') = (u, mkT v net')).
  { intros A r f. exists r, f. split; reflexivity. }
  assert (Gf : forall p f, exists u v, get_file p (mkT f net) = (u, mkT v net) /\ get_file p (mkT f net') = (u, mkT v net')).
  { intros p f. eexists; eexists. split; reflexivity. }
  assert (Pf : forall p b f, exists u v, put_file p b (mkT f net) = (u, mkT v net) /\ put_file p b (mkT f net') = (u, mkT v net')).
  { intros p b f. eexists; eexists. split; reflexivity. }
  assert (Pop : forall t url' n f, exists u v, populate emb t url' n (mkT f net) = (u, mkT v net) /\ populate emb t url' n (mkT f net') = (u, mkT v net')).
  { intros t url' n f. unfold populate. apply Bi; [apply Gf|]. intros x g _. destruct x; [apply Rt|].
    assert (I : exists u v, obind (Tuf.ret (read_embedded emb n url')) (fun data0 => put_file (path_join t n) data0) (mkT g net) = (u, mkT v net) /\
       obind (Tuf.ret (read_embedded emb n url')) (fun data0 => put_file (path_join t n) data0) (mkT g net') = (u, mkT v net')).
    { apply Bi; [apply Rt|]. intros x g' _. apply Pf. }
    destruct I as (u & v & E1 & E2). unfold otry. rewrite E1, E2. destruct u as [x|e]; [eauto|]. destruct (exn_eqb EFileNotFound e); [apply Rt|eauto]. }
  apply Bi.
  { unfold make_updater. cbv zeta. apply Bi; [apply Rt|]. intros [md td] g _. apply Bi; [apply Pop|]. intros _ g' _. apply Bi; [apply Pop|]. intros _ g'' _. apply Rt. }
  intros u g Mk.
  assert (Uo : u_online u = false).
  { pose proof (make_offline data cache lib emb url boot (mkT fs0 net)) as M0. destruct (quote (rstrip_slash url)) as [dir|e]; [|rewrite M0 in Mk; discriminate].
    destruct M0 as (s' & M0 & _). rewrite M0 in Mk. inversion Mk. reflexivity. }
  assert (Gp : forall n f, exists r v, get_path lib u n (mkT f net) = (r, mkT v net) /\ get_path lib' u n (mkT f net') = (r, mkT v net')).
  { intros n f. unfold get_path. rewrite Uo. apply Rt. }
  assert (Rb : forall p f, exists r v, read_bytes p (mkT f net) = (r, mkT v net) /\ read_bytes p (mkT f net') = (r, mkT v net')).
  { intros p f. unfold read_bytes. apply Bi; [apply Gf|]. intros x g' _. apply Rt. }
  apply Bi; [apply Gp|]. intros tp g1 _. apply Bi; [apply Rb|]. intros tb g2 _. apply Bi; [apply Rt|]. intros tr g3 _.
  apply Bi; [apply Gp|]. intros sp g4 _. apply Bi; [apply Rb|]. intros sb g5 _. apply Bi; [apply Rt|]. intros sc g6 _. apply Rt.
Qed.

(** Verification of bundles, even online, does not depend on what the log answers today; with
    [--trust-config] it does not depend on what TUF clients obtain. *)
Theorem C71_bundles_need_no_log : forall env ps w w' a, no_detached a -> same_computer w w' ->
  va_trust_config a <> None \/ same_material (va_offline a) w w' ->
  (forall identity issuer, verify_identity env ps w a identity issuer = verify_identity env ps w' a identity issuer) /\
  (forall g, verify_github env ps w a g = verify_github env ps w' a g).
Proof.
  intros env ps w w' a Nd Sc Cf.
  assert (R : forall show p, run_verify env ps w a show p = run_verify env ps w' a show p).
  { intros show p. apply same_run; [assumption|assumption|right; left; assumption]. }
  split; intros; [unfold verify_identity|unfold verify_github]; rewrite R; reflexivity.
Qed.

(** ** Concrete cases *)

(** a computer without network, except that the cached trust material is there *)
Definition olx_world : World :=
  mkWorld [s2l "home"] cvx_files (w_load_pem cvx_world) cvx_parse cvx_validate (fun _ => Raise EValue)
    (fun url offline => if offline then cvx_config url offline else Raise ETUF) (fun _ _ => Raise EConnection) rkx_rp vx_now (fun _ => vx_now).
Definition olx_args (offline : bool) (inputs : list str) : VerifyArgs := mkVA inputs None None None offline None None false false.
Example ex_offline :
  same_computer olx_world cvx_world /\ same_material true olx_world cvx_world /\
  verify_identity vx_env vx_parsers olx_world (olx_args true [s2l "a.txt"; s2l "b.txt"]) (s2l "a@b.c") (s2l "https://issuer.example") =
    ([L_ok (It_path [s2l "a.txt"]); L_ok (It_path [s2l "b.txt"]); L_text (s2l "{}")], Ok tt).
Proof. split; [repeat split|]. split; [intros url; reflexivity|]. vm_compute. reflexivity. Qed.
(** detached signatures need the log, hence are refused before anything is read from it *)
Example ex_offline_detached :
  verify_identity vx_env vx_parsers cvx_world (mkVA [s2l "c.txt"] (Some [s2l "c.txt.crt"]) None None true None None false false) (s2l "a@b.c") (s2l "https://issuer.example")
  = (nil, Raise (ESystemExit 2)).
Proof. vm_compute. reflexivity. Qed.
(** Expected, but not so: verifying a bundle with cached trust material needs no network.  Without
    [--offline] the TUF client must reach the repository. *)
Theorem C71_bundles_need_no_network_refuted : exists env ps w w' a identity issuer,
  no_detached a /\ same_computer w w' /\ same_material true w w' /\
  snd (verify_identity env ps w a identity issuer) = Ok tt /\ snd (verify_identity env ps w' a identity issuer) <> Ok tt.
Proof.
  exists vx_env, vx_parsers, cvx_world, olx_world, (olx_args false [s2l "a.txt"]), (s2l "a@b.c"), (s2l "https://issuer.example").
  split; [split; reflexivity|]. split; [repeat split|]. split; [intros url; reflexivity|]. split; [vm_compute; reflexivity|vm_compute; discriminate].
Qed.
(** the disk of an offline client: a cached trusted root, an embedded signing configuration; the two TUF
    libraries differ *)
Definition olx_lib (r : res unit) : TufLib :=
  mkTufLib unit (fun _ _ _ _ f => (r, f)) (fun _ _ f => (Raise (EBackend 40), f)) (fun _ _ _ => None) (fun _ _ f => (Raise (EBackend 40), f)).
Definition olx_disk : fs := fun p => if path_eqb p [s2l "cache"; s2l "tuf"; s2l "https%3A%2F%2Ftuf-repo-cdn.sigstore.dev"; s2l "trusted_root.json"] then Some [x01] else None.
Definition olx_emb (dir name : str) : option bytes := if str_eqb name (s2l "signing_config.v0.2.json") then Some [x02] else None.
Definition olx_tuf (lib : TufLib) : World :=
  mkWorld [s2l "home"] cvx_files (w_load_pem cvx_world) cvx_parse cvx_validate (fun _ => Raise EValue)
    (tuf_material [s2l "data"] [s2l "cache"] lib olx_emb (fun b => if bytes_eqb b [x01] then Ok vx_tr else Raise EValue)
       (fun b => if bytes_eqb b [x02] then Ok (sc_msg nil None) else Raise EValue) None (mkT olx_disk nil))
    (fun _ _ => Raise EConnection) rkx_rp vx_now (fun _ => vx_now).
Example ex_offline_disk : forall r,
  verify_identity vx_env vx_parsers (olx_tuf (olx_lib r)) (olx_args true [s2l "a.txt"]) (s2l "a@b.c") (s2l "https://issuer.example") =
    ([L_ok (It_path [s2l "a.txt"])], Ok tt).
Proof.
  intros r.
  assert (D : forall url r', w_config_tuf (olx_tuf (olx_lib r')) url true = tuf_material [s2l "data"] [s2l "cache"] (olx_lib r') olx_emb
       (fun b => if bytes_eqb b [x01] then Ok vx_tr else Raise EValue)
       (fun b => if bytes_eqb b [x02] then Ok (sc_msg nil None) else Raise EValue) None (mkT olx_disk nil) url true) by (intros; reflexivity).
  assert (C : same_computer (olx_tuf (olx_lib r)) (olx_tuf (olx_lib (Ok tt)))) by (repeat split).
  destruct (C71_offline_disk vx_env vx_parsers (olx_tuf (olx_lib r)) (olx_tuf (olx_lib (Ok tt))) (olx_args true [s2l "a.txt"]) _ _ _ _ _ _ _ _ _ _ _ _
    eq_refl C (fun url => D url r) (fun url => D url (Ok tt))) as (E & _).
  rewrite E. vm_compute. reflexivity.
Qed.

Print Assumptions C71_offline.
Print Assumptions C71_offline_disk.
Print Assumptions C71_bundles_need_no_log.
Print Assumptions C71_bundles_need_no_network_refuted.
