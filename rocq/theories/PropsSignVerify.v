(** Property C73: what the commands [sign] and [attest] write is accepted by [verify identity]. *)
From Verif Require Import Base Codec Messages Env Keyring Cert Dsse KeyDetails Policy TrustedRoot SigningConfig Hashing Json Http
  Oidc Oauth LogEntry Bundle Verifier RekorClient Clients Tuf PyText CliVerify Sign SignSteps Predicate CliSign VerifierSpec PropsDsse PropsPolicy PropsBundle PropsTuf PropsCliVerify SignProofs PropsSign PropsSignThreads
  PropsSigningConfig PropsRekorClient PropsOidc PropsCliSign PropsPredicate ToyHash ToyEnv ToyBundles ToySign.

(** ** Specification *)

(** the services used by a signer are honest, as seen by a verifier at a time: the CA certifies the key of
    the request for the identity, the log records what is submitted, the authorities time-stamp what they
    are sent, all within the validity of the signer's certificate; signatures are correct *)
Definition honest_services (tl : Tools) (ps : Parsers) (now : time) (v : Verifier) (p : policy) (s : Signer) : Prop :=
  honest_ca (tl_libs tl) (tl_out tl) (sg_ctx s) (it_raw (sg_token s)) now v p /\
  (forall c, sg_cert s = Some c ->
     honest_log (tl_libs tl) (tl_out tl) (sg_ctx s) ps now v (in_validity c) /\
     honest_tsas (tl_libs tl) (tl_out tl) (sg_ctx s) now v (in_validity c)) /\
  sound_keys (l_env (tl_libs tl)) (tl_out tl) /\ length (cp_tsas (sg_ctx s)) <= 32.

(** the computer on which the bundles are verified has the files of the signer's *)
Definition files_from (tl : Tools) (t : tree) (w : World) : Prop :=
  w_cwd w = w_cwd (tl_world tl) /\ forall q, w_files w q = files_of t q.

(** what signing has written is read back (proved for JSON in PropsBundleJson.v), and no
    authority has answered twice with the same timestamp *)
Definition readable (tl : Tools) (w : World) (s : Signer) (predicate : option (str * json)) (t0 : tree) (f : path) : Prop :=
  forall b, signed tl s predicate t0 f b ->
    w_parse_bundle w (tl_to_json tl (b_inner b) ++ [x0a]) = Ok (b_inner b) /\ NoDup (vm_timestamps (bm_vm (b_inner b))).

(** a statement that is signed is read as it was written *)
Definition statement_readable (tl : Tools) (w : World) (predicate : option (str * json)) (t0 : tree) (f : path) : Prop :=
  forall c st, files_of t0 (loc tl f) = Some c -> operation tl predicate f (e_hash (l_env (tl_libs tl)) SHA256 c) = Ok (Op_dsse st) ->
    w_validate w (st_contents st) = Some (st_inner st) /\ utf8_decode (st_contents st) <> None.

(** the verification is asked for these files, with bundles beside them *)
Definition verifies_files (w : World) (va : VerifyArgs) (files : list path) : Prop :=
  files <> nil /\ map path_of (va_inputs va) = files /\ va_cert va = None /\ va_sig va = None /\ va_bundle va = None /\
  forall f, In f files -> content w (sibling f (s2l ".sigstore")) = None.

(** different inputs are different files, each with a name *)
Definition proper_inputs (tl : Tools) (files : list path) : Prop :=
  (forall f, In f files -> names_entry f) /\ (forall f g, In f files -> In g files -> loc tl f = loc tl g -> f = g) /\
  (forall f g, In f files -> In g files -> loc tl (default_output f) <> loc tl g).
Definition untouched (tl : Tools) (sched : list act) (files : list path) : Prop :=
  forall f, In f files -> left_alone sched (loc tl f) /\ left_alone sched (loc tl (default_output f)).

(** ** Proofs *)

Lemma from_parts_makes : forall env cert c e ts b, from_parts_ env cert c e ts = Ok b -> make_bundle env (b_inner b) = Ok b.
Proof.
  intros env cert c e ts b H. unfold from_parts_ in H. apply bind_ok_inv in H. destruct H as (ts' & _ & H).
  apply bind_ok_inv in H. destruct H as ([ms en] & _ & H). apply bind_ok_inv in H. destruct H as (der & _ & H).
  pose proof H as H'. apply C34_bundle_iff in H'. destruct H' as (E & _). rewrite E. exact H.
Qed.
Lemma run_op_makes : forall libs out s o h h' b, run_op libs out s o h = (h', Ok b) -> make_bundle (l_env libs) (b_inner b) = Ok b.
Proof.
  intros libs out s [i|st] h h' b H; cbn [run_op] in H.
  - apply sign_artifact_inv in H. destruct H as (cert & h1' & k & h2 & digest & sg & req & rs & hl & e & _ & _ & _ & _ & _ & _ & _ & _ & _ & _ & F).
    eapply from_parts_makes; exact F.
  - apply sign_dsse_inv in H. destruct H as (cert & h1' & k & h2 & x & sg & req & rs & hl & e & _ & _ & _ & _ & _ & _ & _ & _ & _ & _ & F).
    eapply from_parts_makes; exact F.
Qed.
Lemma setup_signer : forall tl a t h h' s, setup tl a t h = (h', Ok s) ->
  exists h1 h2 c, make_signer (tl_libs tl) (tl_out tl) (sg_token s) (sg_ctx s) true h1 = (h2, Ok s) /\ sg_cert s = Some c.
Proof.
  intros tl a t h h' s H. unfold setup in H.
  apply mbind_ok in H. destruct H as (h1 & c & _ & H). apply mbind_ok in H. destruct H as (h2 & ctx & _ & H).
  apply mbind_ok in H. destruct H as (h3 & tok & _ & H). apply mbind_ok in H. destruct H as (h4 & s' & Mk & H).
  apply mbind_ok in H. destruct H as (h5 & c' & _ & H). apply ret_ok in H. destruct H as [_ ->].
  pose proof Mk as Mk'. apply make_signer_cached in Mk'. destruct Mk' as (c0 & Tk & Cx & _ & Ce & _). subst tok ctx. eauto.
Qed.
Lemma sibling_default : forall f, sibling f (s2l ".sigstore.json") = default_output f.
Proof. reflexivity. Qed.

(** the bundles beside the inputs, and the inputs themselves, after a run *)
Definition beside (tl : Tools) (s : Signer) (predicate : option (str * json)) (t0 t : tree) (files : list path) : Prop :=
  forall f, In f files -> files_of t (loc tl f) = files_of t0 (loc tl f) /\ exists b, signed tl s predicate t0 f b /\
    files_of t (loc tl (default_output f)) = Some (tl_to_json tl (b_inner b) ++ [x0a]).

Lemma verify_beside : forall tl t0 t s predicate w va files ps v identity issuer,
  beside tl s predicate t0 t files -> files_from tl t w -> verifies_files w va files ->
  verifier_selected (l_env (tl_libs tl)) w va v ->
  (forall f, In f files -> readable tl w s predicate t0 f) ->
  (forall f c b, In f files -> files_of t0 (loc tl f) = Some c -> signed tl s predicate t0 f b -> NoDup (vm_timestamps (bm_vm (b_inner b))) ->
     exists st, vouched (l_env (tl_libs tl)) ps w (w_when w (It_path f)) v (P_identity identity (Some issuer)) (e_hash (l_env (tl_libs tl)) SHA256 c) b st /\
       printable show_decoded st) ->
  snd (verify_identity (l_env (tl_libs tl)) ps w va identity issuer) = Ok tt.
Proof.
  intros tl t0 t s predicate w va files ps v identity issuer Be (Cw & Fw) (Ne & Ai & N1 & N2 & N3 & Lg) Vs Rd Vo.
  apply C56_verify_identity_iff. exists (map It_path files), v.
  assert (Ct : forall p, content w p = files_of t (loc tl p)) by (intros p; unfold content, loc; rewrite Fw, Cw; reflexivity).
  assert (Nd : ~ detached va) by (intros [D|D]; contradiction).
  split; [|split; [|split; [assumption|]]].
  - rewrite <- Ai. assert (B : forall f, In f (map path_of (va_inputs va)) -> exists b, content w f = Some b).
    { intros f If. rewrite Ai in If. destruct (Be f If) as (Q & b & (c & o & out & h & h' & C & _) & _). rewrite Ct, Q, C. eauto. }
    clear - B. induction (va_inputs va) as [|arg l IH]; [constructor|]. cbn [map] in *. constructor; [|apply IH; intros; apply B; right; assumption].
    destruct (B (path_of arg)) as (b & C); [left; reflexivity|]. left. eauto.
  - split; [intros Q; apply map_eq_nil in Q; contradiction|]. split; [intros [Q|Q]; [contradiction|contradiction]|]. split; [intros _; assumption|].
    split; [intros hd I; apply in_map_iff in I; destruct I as (? & Q & _); discriminate|]. split; [intros _; assumption|].
    intros f I _. right. apply in_map_iff in I. destruct I as (g & Q & I). inversion Q; subst. auto.
  - intros x I. apply in_map_iff in I. destruct I as (f & <- & If). destruct (Be f If) as (Q & b & Sg & Fb).
    pose proof Sg as (c & o & out & h & h' & C & Op & _ & Ro). destruct (Rd f If b Sg) as (Pb & Dt).
    destruct (Vo f c b If C Sg Dt) as (st & Vd & Pr).
    exists (e_hash (l_env (tl_libs tl)) SHA256 c), b, st. split; [exists c; split; [rewrite Ct, Q; assumption|reflexivity]|]. split; [|auto].
    left. split; [assumption|]. exists (default_output f), (tl_to_json tl (b_inner b) ++ [x0a]). split.
    + unfold bundle_file. rewrite N3. exists f. split; [reflexivity|]. left. symmetry. apply sibling_default.
    + split; [rewrite Ct; assumption|]. unfold bundle_from_json. rewrite Pb. cbn [try_except bind]. eapply run_op_makes. exact Ro.
Qed.

(** If [sign] succeeds with honest services, then [verify identity] with the identity that the CA
    certifies accepts all the files, at any time and on any computer that has the files and
    trusts the services. *)
Theorem C73_sign_then_verify : forall tl a t0 h0 sched t h lines,
  sign_run tl a t0 h0 sched t h lines (Ok tt) -> default_names a ->
  proper_inputs tl (ca_files (sa_common a)) -> untouched tl sched (ca_files (sa_common a)) ->
  forall ps w va v identity issuer,
  files_from tl t w -> verifies_files w va (ca_files (sa_common a)) -> verifier_selected (l_env (tl_libs tl)) w va v ->
  (forall h1 s, setup tl (sa_common a) t0 h0 = (h1, Ok s) -> forall f, In f (ca_files (sa_common a)) ->
     readable tl w s None t0 f /\ honest_services tl ps (w_when w (It_path f)) v (P_identity identity (Some issuer)) s) ->
  snd (verify_identity (l_env (tl_libs tl)) ps w va identity issuer) = Ok tt.
Proof.
  intros tl a t0 h0 sched t h lines H Dn (Ne & Inj & Dj) Un ps w va v identity issuer Ff Vf Vs Hon.
  destruct (C60_sign_own_bundles tl a t0 h0 sched t h lines H Dn Ne Inj (or_intror Dj) Un) as (h1 & s & Su & Ob).
  specialize (Hon h1 s Su).
  eapply (verify_beside tl t0 t s None w va _ ps v identity issuer); try eassumption.
  - intros f If. split; [|apply Ob; assumption].
    apply (C59_sign_only_outputs_change tl a t0 h0 sched t h lines _ H); [|apply Un; assumption].
    intros g p Ig Op. destruct Dn as (D1 & D2 & D3 & D4 & D5). destruct Op as [Q|[Q|[Q|(_ & _ & ->)]]]; try congruence.
    rewrite D4. apply Dj; assumption.
  - intros f If. apply (Hon f If).
  - intros f c b If C Sg Nd. exists None. split; [|intros x Q; discriminate].
    destruct (Hon f If) as (_ & Ca & Lt & Snd & L32). destruct (setup_signer _ _ _ _ _ _ Su) as (g1 & g2 & cert & Mk & Ce).
    destruct (Lt cert Ce) as (Hl & Ht).
    destruct (caching_signer _ _ _ _ _ _ _ _ _ _ Mk Ca) as (_ & Ky & cert' & Ce' & Gc). assert (cert' = cert) by congruence. subst cert'.
    destruct Sg as (c' & o & out & hh & hh' & C' & Op & Dr & Ro). assert (c' = c) by congruence. subst c'. cbn [operation] in Op. inversion Op; subst o. cbn [run_op] in Ro.
    assert (En : bm_env (b_inner b) = None).
    { apply sign_artifact_inv in Ro. destruct Ro as (ct & h1' & k & h2 & digest & sg & req & rs & hl & e & _ & _ & _ & _ & _ & _ & _ & _ & _ & _ & F).
      apply C35_assembled_bundle in F. destruct F as (_ & _ & _ & _ & _ & _ & _ & E & _). exact E. }
    unfold vouched. rewrite En. split; [|reflexivity].
    eapply (good_signer_artifact (tl_libs tl) out (sg_ctx s) ps _ v (P_identity identity (Some issuer)) s _ cert eq_refl Ky Ce Gc) with (h := hh) (h' := hh').
    + apply Snd.
    + eapply draws_honest_log; eassumption.
    + eapply draws_honest_tsas; eassumption.
    + eapply draws_sound_keys; eassumption.
    + assumption.
    + exact Ro.
    + exact Nd.
Qed.

(** The same for [attest], if statements are read as they were written. *)
Theorem C73_attest_then_verify : forall tl a t0 h0 sched t h lines,
  attest_run tl a t0 h0 sched t h lines (Ok tt) -> aa_bundle a = None ->
  proper_inputs tl (ca_files (aa_common a)) -> untouched tl sched (ca_files (aa_common a)) ->
  forall ps w va v identity issuer,
  files_from tl t w -> verifies_files w va (ca_files (aa_common a)) -> verifier_selected (l_env (tl_libs tl)) w va v ->
  (forall h1 s j, setup tl (aa_common a) t0 h0 = (h1, Ok s) -> good_predicate tl a t0 j -> forall f, In f (ca_files (aa_common a)) ->
     readable tl w s (Some (aa_predicate_type a, j)) t0 f /\ statement_readable tl w (Some (aa_predicate_type a, j)) t0 f /\
     honest_services tl ps (w_when w (It_path f)) v (P_identity identity (Some issuer)) s) ->
  snd (verify_identity (l_env (tl_libs tl)) ps w va identity issuer) = Ok tt.
Proof.
  intros tl a t0 h0 sched t h lines H Dn (Ne & Inj & Dj) Un ps w va v identity issuer Ff Vf Vs Hon.
  destruct (C60_attest_own_bundles tl a t0 h0 sched t h lines H Dn Ne Inj (or_intror Dj) Un) as (h1 & s & j & Su & Rp & Ob).
  apply read_predicate_iff in Rp. specialize (Hon h1 s j Su Rp).
  eapply (verify_beside tl t0 t s (Some (aa_predicate_type a, j)) w va _ ps v identity issuer); try eassumption.
  - intros f If. split; [|apply Ob; assumption].
    apply (C59_attest_only_outputs_change tl a t0 h0 sched t h lines _ H); [|apply Un; assumption].
    intros g p Ig Op. destruct Op as [Q|(_ & ->)]; [congruence|]. apply Dj; assumption.
  - intros f If. apply (Hon f If).
  - intros f c b If C Sg Nd.
    destruct (Hon f If) as (_ & Rt & Ca & Lt & Snd & L32). destruct (setup_signer _ _ _ _ _ _ Su) as (g1 & g2 & cert & Mk & Ce).
    destruct (Lt cert Ce) as (Hl & Ht).
    destruct (caching_signer _ _ _ _ _ _ _ _ _ _ Mk Ca) as (_ & Ky & cert' & Ce' & Gc). assert (cert' = cert) by congruence. subst cert'.
    destruct Sg as (c' & o & out & hh & hh' & C' & Op & Dr & Ro). assert (c' = c) by congruence. subst c'. specialize (Rt c) as Rt'.
    set (i := mkStatementInner [mkSubject (Some (path_name f)) [(D_sha256, hex (e_hash (l_env (tl_libs tl)) SHA256 c))]] (aa_predicate_type a) (Some (tl_text tl j))) in *.
    unfold operation in Op, Rt'. destruct (forallb is_scalar (path_name f)) eqn:Sc; [|discriminate Op].
    cbn [negb raise_if bind builder_build builder_new sb_subjects sb_predicate_type sb_predicate] in Op, Rt'.
    fold i in Op, Rt'. destruct (tl_dump tl i) as [contents|] eqn:Du; cbn [bind] in Op, Rt'; [|discriminate Op].
    inversion Op; subst o. clear Op. cbn [run_op] in Ro.
    assert (En : bm_env (b_inner b) <> None).
    { pose proof Ro as R'. apply sign_dsse_inv in R'. destruct R' as (ct & h1' & k & h2 & x & sg & req & rs & hl & e & _ & _ & _ & _ & _ & _ & _ & _ & _ & _ & F).
      apply C35_assembled_bundle in F. destruct F as (_ & _ & _ & _ & _ & _ & _ & E & _). rewrite E. discriminate. }
    destruct (Rt' (mkStatement contents i) C eq_refl) as (Va & Ud). cbn [st_contents st_inner] in Va, Ud.
    exists (Some (mkStatement contents i)). split.
    + unfold vouched. destruct (bm_env (b_inner b)) as [m|]; [|contradiction].
      exists contents, i, (mkSubject (Some (path_name f)) [(D_sha256, hex (e_hash (l_env (tl_libs tl)) SHA256 c))]).
      split.
      { eapply (good_signer_dsse (tl_libs tl) out (sg_ctx s) ps _ v (P_identity identity (Some issuer)) s _ cert eq_refl Ky Ce Gc)
          with (st := mkStatement contents i) (h := hh) (h' := hh').
        - apply Snd.
        - eapply draws_honest_log; eassumption.
        - eapply draws_honest_tsas; eassumption.
        - eapply draws_sound_keys; eassumption.
        - assumption.
        - exact Ro.
        - exact Nd. }
      split; [assumption|]. split; [reflexivity|].
      split; [left; reflexivity|]. exists nil, nil. split; [reflexivity|intros ? []].
    + intros x Q. inversion Q; subst x. unfold show_decoded. cbn [st_contents]. unfold py_decode.
      destruct (utf8_decode contents) as [txt|]; [cbn [bind]; eauto|contradiction].
Qed.

(** ** A concrete case *)

(** a still clock, and a log that knows what will be submitted *)
Definition svx_out : Outside :=
  mkOutside (fun _ => sy_start) sy_pub (fun _ k s d => toy_sign s (sk_pub k) d)
    (fun _ => sy_fulcio) (fun _ sg => Ok sg) (fun _ => sy_tsa) (fun _ => sy_log sy_far).
Definition svx_tools : Tools :=
  mkTools csx_world (sy_libs sy_far) svx_out (fun s => if str_eqb s (s2l "{}") then Some csx_predicate else None)
    (fun _ => s2l "{}") (fun _ => Some vx_payload) csx_token (fun _ => Ok (Some (s2l "tok"))) (fun _ _ _ _ => Raise EIdentity) csx_to_json.
Definition svx_sched : list act := turns (repeat 0 20).

Definition svx_signer : option Signer := match setup svx_tools (csx_common [csx_a] false) csx_tree nil with (_, Ok s) => Some s | _ => None end.
Definition svx_message (pr : option (str * json)) : option BundleMsg :=
  match svx_signer, operation svx_tools pr csx_a (toy_hash vx_input) with
  | Some s, Ok o => match run_op (sy_libs sy_far) svx_out s o nil with (_, Ok b) => Some (b_inner b) | _ => None end
  | _, _ => None
  end.

Definition svx_message_of (pr : option (str * json)) : BundleMsg :=
  match svx_message pr with Some m => m | None => mkBundleMsg nil (mkVM None None nil nil) None None end.
Definition svx_statement (pr : option (str * json)) : option StatementInner :=
  match operation svx_tools pr csx_a (toy_hash vx_input) with Ok (Op_dsse st) => Some (st_inner st) | _ => None end.
(** the verifier's computer, with the files that signing has left *)
Definition svx_world (pr : option (str * json)) (t : tree) : World :=
  mkWorld [s2l "home"] (files_of t) (fun _ => Raise EValue) (fun _ => Ok (svx_message_of pr)) (fun _ => svx_statement pr) (fun _ => Raise EValue)
    cvx_config (fun _ _ => Raise EConnection) rkx_rp vx_now (fun _ => vx_now).

Lemma svx_setup : forall h s, setup svx_tools (csx_common [csx_a] false) csx_tree nil = (h, Ok s) -> svx_signer = Some s.
Proof. intros h s H. unfold svx_signer. rewrite H. reflexivity. Qed.
Lemma svx_cert : forall s, svx_signer = Some s -> sg_cert s = Some (sy_cert sy_far nil) /\ sg_key s = Some (mkPriv 0 sy_key) /\
  cp_rekor (sg_ctx s) = Rekor_v2 (s2l "https://x") /\ cp_tsas (sg_ctx s) = [s2l "https://tsa.example"].
Proof.
  intros s H. assert (E : s = match svx_signer with Some s => s | None => s end) by (rewrite H; reflexivity).
  rewrite E. vm_compute. repeat split; reflexivity.
Qed.
Lemma svx_run : forall pr s o out h h' b, svx_signer = Some s -> draws_from svx_out out -> operation svx_tools pr csx_a (toy_hash vx_input) = Ok o ->
  run_op (sy_libs sy_far) out s o h = (h', Ok b) -> b_inner b = svx_message_of pr.
Proof.
  intros pr s o out h h' b Ss Dr Op H. destruct (svx_cert s Ss) as (C & K & _).
  assert (St : steady (tl_out svx_tools)) by (intros g g'; split; [reflexivity|]; split; [|repeat split]; intros k k' sc d E1; cbn; rewrite E1; reflexivity).
  pose proof (steady_same_answers svx_tools s _ _ St C K) as Sa.
  assert (Ds : draws_from svx_out svx_out) by (exists (fun g => g), (fun k => k); repeat split).
  pose proof (Sa out svx_out o h nil Dr Ds) as E. change (tl_libs svx_tools) with (sy_libs sy_far) in E.
  rewrite H in E. cbn [snd] in E. unfold svx_message_of, svx_message. rewrite Ss, Op.
  destruct (run_op (sy_libs sy_far) svx_out s o nil) as [g r]. cbn [snd] in E. subst r. reflexivity.
Qed.
Lemma svx_signed : forall pr s b, svx_signer = Some s -> signed svx_tools s pr csx_tree csx_a b -> b_inner b = svx_message_of pr.
Proof.
  intros pr s b Ss (c & o & out & h & h' & C & Op & Dr & Ro). assert (Q : Some c = Some vx_input) by (rewrite <- C; reflexivity).
  assert (c = vx_input) by congruence. subst c. eapply svx_run; eassumption.
Qed.
Lemma svx_honest_log : forall ctx, cp_rekor ctx = Rekor_v2 (s2l "https://x") ->
  honest_log (sy_libs sy_far) svx_out ctx (sy_parsers sy_far) vx_now vx_verifier (in_validity (sy_cert sy_far nil)).
Proof.
  intros ctx R. destruct sy_honest_log2 as (rk & E & L). exists rk. split; [exact E|]. intros h req e H. apply (L h). rewrite <- H.
  unfold log_answer, create_entry. rewrite R. reflexivity.
Qed.
Lemma svx_services : forall s, svx_signer = Some s ->
  honest_services svx_tools (sy_parsers sy_far) vx_now vx_verifier (P_identity (s2l "a@b.c") (Some (s2l "https://issuer.example"))) s.
Proof.
  intros s Ss. destruct (svx_cert s Ss) as (C & _ & R & T). split; [exact (sy_honest_ca sy_far (sg_ctx s) (it_raw (sg_token s)))|]. split.
  - intros c Q. assert (c = sy_cert sy_far nil) by congruence. subst c. split; [apply svx_honest_log; assumption|].
    apply (sy_honest_tsas sy_far (sg_ctx s)). unfold sy_far. lia.
  - split; [exact (sy_sound sy_far)|]. rewrite T. cbn. lia.
Qed.
Lemma svx_readable : forall pr s t, svx_signer = Some s -> length (vm_timestamps (bm_vm (svx_message_of pr))) <= 1 ->
  readable svx_tools (svx_world pr t) s pr csx_tree csx_a.
Proof.
  intros pr s t Ss L b Sg. rewrite (svx_signed pr s b Ss Sg). split; [reflexivity|].
  destruct (vm_timestamps (bm_vm (svx_message_of pr))) as [|x [|y l]]; [constructor|repeat constructor; intros []|cbn in L; lia].
Qed.
Lemma svx_proper : proper_inputs svx_tools [csx_a].
Proof.
  split; [|split].
  - intros f [<-|[]]. exists nil, (s2l "a.txt"). repeat split; discriminate.
  - intros f g [<-|[]] [<-|[]] _. reflexivity.
  - intros f g [<-|[]] [<-|[]]. vm_compute. discriminate.
Qed.
Lemma svx_untouched : untouched svx_tools svx_sched [csx_a].
Proof.
  assert (L : forall p x, ~ In (A_other p x) svx_sched).
  { intros p x I. unfold svx_sched, turns in I. apply in_map_iff in I. destruct I as (i & Q & _). discriminate. }
  intros f _. split; intros x; apply L.
Qed.
Lemma svx_files : forall t pr, files_of t [s2l "home"; s2l "a.txt.sigstore"] = None ->
  verifies_files (svx_world pr t) (cvx_args [s2l "a.txt"]) [csx_a].
Proof.
  intros t pr H. split; [discriminate|]. repeat split. intros f [<-|[]]. exact H.
Qed.
Lemma svx_selected : forall pr t, verifier_selected (l_env (tl_libs svx_tools)) (svx_world pr t) (cvx_args [s2l "a.txt"]) vx_verifier.
Proof.
  intros pr t. exists (mkCTC vx_tr (sc_msg nil None) None). split; [|split; vm_compute; reflexivity].
  cbn [config_selected cvx_args va_trust_config]. exists (s2l "https://tuf-repo-cdn.sigstore.dev"). split; [reflexivity|]. right. split; [left|]; reflexivity.
Qed.

Example ex_sign_then_verify : exists t h lines, sign_run svx_tools (csx_sign [csx_a] false) csx_tree nil svx_sched t h lines (Ok tt) /\
  snd (verify_identity (sy_env sy_far) (sy_parsers sy_far) (svx_world None t) (cvx_args [s2l "a.txt"]) (s2l "a@b.c") (s2l "https://issuer.example")) = Ok tt.
Proof.
  destruct (exec_run svx_tools (csx_common [csx_a] false) None nil (sign_prepare svx_tools (csx_sign [csx_a] false) csx_tree) svx_sched
    (fun y _ => files_of (y_tree y) [s2l "home"; s2l "a.txt.sigstore"] = None)) as (y & l & R & P); [vm_compute; reflexivity|].
  exists (y_tree y), (y_hist y), l. split; [exact R|].
  apply (C73_sign_then_verify svx_tools (csx_sign [csx_a] false) csx_tree nil svx_sched (y_tree y) (y_hist y) l) with (v := vx_verifier).
  - exact R.
  - repeat split.
  - exact svx_proper.
  - exact svx_untouched.
  - split; reflexivity.
  - apply svx_files; exact P.
  - apply svx_selected.
  - intros h1 s Su f [<-|[]]. apply svx_setup in Su. split; [apply svx_readable; [assumption|vm_compute; lia]|]. apply svx_services. assumption.
Qed.
Example ex_attest_then_verify : exists t h lines, attest_run svx_tools (csx_attest [csx_a] None false) csx_tree nil svx_sched t h lines (Ok tt) /\
  snd (verify_identity (sy_env sy_far) (sy_parsers sy_far) (svx_world (Some (SLSA_V1_0, csx_predicate)) t) (cvx_args [s2l "a.txt"])
    (s2l "a@b.c") (s2l "https://issuer.example")) = Ok tt.
Proof.
  destruct (attest_exec_run svx_tools (csx_attest [csx_a] None false) csx_tree nil svx_sched
    (fun y _ => files_of (y_tree y) [s2l "home"; s2l "a.txt.sigstore"] = None)) as (y & l & R & P); [vm_compute; reflexivity|].
  exists (y_tree y), (y_hist y), l. split; [exact R|].
  apply (C73_attest_then_verify svx_tools (csx_attest [csx_a] None false) csx_tree nil svx_sched (y_tree y) (y_hist y) l) with (v := vx_verifier).
  - exact R.
  - reflexivity.
  - exact svx_proper.
  - exact svx_untouched.
  - split; reflexivity.
  - apply svx_files; exact P.
  - apply svx_selected.
  - intros h1 s j Su Gp f [<-|[]]. apply svx_setup in Su.
    assert (j = csx_predicate).
    { apply read_predicate_iff in Gp. assert (Q : Ok j = Ok csx_predicate) by (rewrite <- Gp; vm_compute; reflexivity). congruence. }
    subst j. split; [apply svx_readable; [assumption|vm_compute; lia]|]. split; [|apply svx_services; assumption].
    intros c st C Op. assert (Q : Some c = Some vx_input) by (rewrite <- C; reflexivity). assert (c = vx_input) by congruence. subst c.
    cbn [svx_world w_validate]. unfold svx_statement. change (e_hash (l_env (tl_libs svx_tools)) SHA256 vx_input) with (toy_hash vx_input) in Op.
    change (aa_predicate_type (csx_attest [csx_a] None false)) with SLSA_V1_0 in Op. rewrite Op. split; [reflexivity|].
    assert (E : st_contents st = vx_payload).
    { vm_compute in Op. inversion Op. reflexivity. }
    rewrite E. discriminate.
Qed.

Print Assumptions C73_sign_then_verify.
Print Assumptions C73_attest_then_verify.
