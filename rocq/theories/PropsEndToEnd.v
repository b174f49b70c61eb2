(** Property C91: what [sigstore sign] and [sigstore attest] leave behind is accepted by
    [sigstore verify identity], from command line to exit status. *)
From Verif Require Import Base Codec Messages Env Keyring Checkpoint Cert Dsse KeyDetails Policy TrustedRoot SigningConfig Hashing Json Http
  Oidc Oauth LogEntry Bundle Verifier RekorClient Clients Tuf PyText CliVerify CliTrust Sign SignSteps Predicate CliSign CliEnv CliMain Calm Outcomes
  VerifierSpec PropsVerifier PropsDsse PropsBundle PropsPolicy PropsTuf PropsCliVerify PropsCliEnv PropsCliTrust SignProofs PropsSign PropsRekorClient PropsCliSign PropsPredicate PropsSignVerify PropsCliMain PropsSigningConfig ToyEnv ToyBundles ToySign.

(** ** Specification *)

(** neither the command line nor the environment gives these options a value *)
Definition without (environ : str -> option str) (l : Line) (os : list opt) : Prop := forall o, In o os -> has_value environ l o None.

(** a second computer, or the first one later: same functions of the libraries, same working directory *)
Definition same_libraries (mc mc' : Machine) : Prop :=
  mc_env mc' = l_env (tl_libs (mc_tools mc)) /\ w_cwd (tl_world (mc_tools mc')) = w_cwd (tl_world (mc_tools mc)).

(** [verify identity] is run on the inputs, with the bundles beside them, for an identity and an issuer *)
Definition asks_identity (environ : str -> option str) (l : Line) (to_int : str -> option Z) (inputs : list str) (identity issuer : str) : Prop :=
  ln_command l = C_verify_identity /\ readable_variables environ /\ well_formed to_int l /\ ln_positional l = inputs /\
  last_given l O_cert_identity identity /\ last_given l O_cert_issuer issuer /\ without environ l [O_certificate; O_signature; O_bundle].

(** ** Proofs *)

Lemma path_none : forall environ l o p, path_value environ l o p -> has_value environ l o None -> p = None.
Proof. intros environ l o p (v & H & ->) N0. rewrite (has_value_unique _ _ _ _ _ H N0). reflexivity. Qed.
Lemma off_false : forall P b, on P b -> ~ P -> b = false.
Proof. intros P [|] H N0; [exfalso; apply N0, H; reflexivity|reflexivity]. Qed.

Lemma says_sign_unique : forall to_int environ l a a', says_sign to_int environ l a -> says_sign to_int environ l a' -> a = a'.
Proof.
  intros to_int environ l [a b c d e f] [a' b' c' d' e' f'] (Sc & S1 & S2 & S3 & S4 & S5) (Sc' & S1' & S2' & S3' & S4' & S5').
  cbn [sa_common sa_signature sa_certificate sa_bundle sa_output_directory sa_no_default_files] in *.
  f_equal; eauto using path_value_unique, on_unique. clear - Sc Sc'.
  destruct a as [x1 x2 x3 x4 x5 x6 x7 x8 x9 x10 x11 x12 x13], a' as [y1 y2 y3 y4 y5 y6 y7 y8 y9 y10 y11 y12 y13]. unfold says_common in *.
  cbn [ca_files ca_overwrite ca_identity_token ca_client_id ca_client_secret ca_disable_ambient ca_issuer ca_force_oob ca_rekor_version ca_trust_config ca_instance
       ca_staging ca_verbose] in *.
  destruct Sc as (H1 & H2 & H3 & H4 & H5 & H6 & H7 & H8 & H9 & H10 & H11 & H12 & H13), Sc' as (K1 & K2 & K3 & K4 & K5 & K6 & K7 & K8 & K9 & K10 & K11 & K12 & K13).
  assert (Q4 : Some x4 = Some y4) by (eapply has_value_unique; eassumption). assert (x4 = y4) by congruence.
  assert (Q9 : x9 = y9).
  { destruct x9 as [n|]; [symmetry; apply K9, H9; reflexivity|]. destruct y9 as [n|]; [|reflexivity]. apply H9, K9. reflexivity. }
  f_equal; eauto using path_value_unique, has_value_unique, on_unique. congruence.
Qed.

Section then_verify.
Variables (mc mc' : Machine) (environ' : str -> option str) (l' : Line) (t : tree) (inputs : list str) (identity issuer : str).
Hypothesis Lib : same_libraries mc mc'.
Hypothesis Ask : asks_identity environ' l' (mc_int mc') inputs identity issuer.
Hypothesis Lower : unicode_lower (mc_lower mc').
Hypothesis Calm' : calm_machine mc'.

Lemma verify_exits : forall h0 sched t' h out r,
  main mc' environ' l' t h0 sched t' h out r ->
  (forall va, says_verify environ' l' va -> va_inputs va = inputs -> va_cert va = None -> va_sig va = None -> va_bundle va = None ->
     files_from (mc_tools mc) t (world_at (mc_tools mc') t) ->
     snd (verify_identity (mc_env mc') (mc_ps mc') (world_at (mc_tools mc') t) va identity issuer) = Ok tt) ->
  exit_status r = 0.
Proof.
  intros h0 sched t' h out r M H. destruct Ask as (C & Rv & Wf & Ps & Li & Lx & Wo). destruct Lib as (Le & Lc).
  destruct (C85_verify_identity _ _ _ _ _ _ _ _ _ _ M C Lower Calm') as ((_ & R) & _). apply R.
  split; [assumption|]. split; [assumption|].
  destruct (proj1 (parse_iff (mc_lower mc') (mc_int mc') environ' l' Lower)) as [_ Pn]. destruct (Pn (conj Rv Wf)) as (ns & P).
  exists (verify_args ns), identity, issuer.
  assert (Sv : says_verify environ' l' (verify_args ns)) by (eapply parsed_verify; eassumption).
  split; [assumption|]. split; [assumption|]. split; [assumption|]. apply C56_verify_identity_iff.
  pose proof Sv as (V1 & V2 & V3 & V4 & _). apply H; try assumption.
  - congruence.
  - eapply path_none; [exact V2|]. apply Wo. cbn. auto.
  - eapply path_none; [exact V3|]. apply Wo. cbn. auto.
  - eapply path_none; [exact V4|]. apply Wo. cbn. auto.
  - split; [exact Lc|reflexivity].
Qed.
End then_verify.

(** [sign] exits with 0, and then [verify identity] exits with 0: for any two command lines with the same inputs, any
    environments, whatever other processes do meanwhile to other files, and whenever the second command runs, if
    the services are honest and the second computer trusts them. *)
Theorem C91_sign_then_verify : forall mc environ l t0 h0 sched t h out r,
  main mc environ l t0 h0 sched t h out r -> ln_command l = C_sign -> unicode_lower (mc_lower mc) -> calm_machine mc -> exit_status r = 0 ->
  without environ l [O_signature; O_certificate; O_bundle; O_output_directory] -> ~ switched_on environ l F_no_default_files ->
  proper_inputs (mc_tools mc) (map path_of (ln_positional l)) -> untouched (mc_tools mc) sched (map path_of (ln_positional l)) ->
  forall mc' environ' l' identity issuer v h0' sched' t' h' out' r',
  main mc' environ' l' t h0' sched' t' h' out' r' ->
  same_libraries mc mc' -> unicode_lower (mc_lower mc') -> calm_machine mc' ->
  asks_identity environ' l' (mc_int mc') (ln_positional l) identity issuer ->
  (forall f, In f (map path_of (ln_positional l)) -> files_of t (loc (mc_tools mc) (sibling f (s2l ".sigstore"))) = None) ->
  (forall va, says_verify environ' l' va -> verifier_selected (mc_env mc') (world_at (mc_tools mc') t) va v) ->
  (forall a h1 s f, says_sign (mc_int mc) environ l a -> setup (mc_tools mc) (sa_common a) t0 h0 = (h1, Ok s) -> In f (map path_of (ln_positional l)) ->
     readable (mc_tools mc) (world_at (mc_tools mc') t) s None t0 f /\
     honest_services (mc_tools mc) (mc_ps mc') (w_when (world_at (mc_tools mc') t) (It_path f)) v (P_identity identity (Some issuer)) s) ->
  exit_status r' = 0 /\ t' = t.
Proof.
  intros mc environ l t0 h0 sched t h out r M C U Cm St Wo Nf Pr Un mc' environ' l' identity issuer v h0' sched' t' h' out' r' M' Lb U' Cm' Ask Leg Vs Hon.
  destruct (C85_sign _ _ _ _ _ _ _ _ _ _ M C U Cm St) as (a & lines & Sa & _ & Run & _).
  pose proof Sa as ((F & _) & S1 & S2 & S3 & S4 & S5).
  pose proof Ask as (C' & _ & _ & Ps' & _).
  destruct (C85_verify_identity _ _ _ _ _ _ _ _ _ _ M' C' U' Cm') as (_ & Et & _). split; [|exact Et].
  eapply verify_exits; try eassumption. intros va Sv I1 I2 I3 I4 Ff. destruct Lb as (Le & Lc). rewrite Le.
  eapply C73_sign_then_verify; try eassumption.
  - repeat split; try (eapply path_none; [eassumption|apply Wo; cbn; auto]). eapply off_false; eassumption.
  - rewrite F. assumption.
  - rewrite F. assumption.
  - rewrite F. split; [|split; [congruence|]].
    + intros Q. apply map_eq_nil in Q. destruct Ask as (_ & _ & Wf & _). destruct Wf as (_ & _ & _ & _ & _ & _ & _ & Np & _). rewrite C' in Np. congruence.
    + repeat split; try assumption. intros f If. destruct Ff as (Fc & Fw). unfold content. rewrite Fw, Fc. apply Leg. assumption.
  - rewrite <- Le. apply Vs. assumption.
  - intros h1 s Su f If. rewrite F in If. eapply Hon; eassumption.
Qed.

(** The same for [attest]. *)
Theorem C91_attest_then_verify : forall mc environ l t0 h0 sched t h out r,
  main mc environ l t0 h0 sched t h out r -> ln_command l = C_attest -> unicode_lower (mc_lower mc) -> calm_machine mc -> exit_status r = 0 ->
  without environ l [O_bundle] ->
  proper_inputs (mc_tools mc) (map path_of (ln_positional l)) -> untouched (mc_tools mc) sched (map path_of (ln_positional l)) ->
  forall mc' environ' l' identity issuer v h0' sched' t' h' out' r',
  main mc' environ' l' t h0' sched' t' h' out' r' ->
  same_libraries mc mc' -> unicode_lower (mc_lower mc') -> calm_machine mc' ->
  asks_identity environ' l' (mc_int mc') (ln_positional l) identity issuer ->
  (forall f, In f (map path_of (ln_positional l)) -> files_of t (loc (mc_tools mc) (sibling f (s2l ".sigstore"))) = None) ->
  (forall va, says_verify environ' l' va -> verifier_selected (mc_env mc') (world_at (mc_tools mc') t) va v) ->
  (forall a h1 s j f, says_attest (mc_int mc) environ l a -> setup (mc_tools mc) (aa_common a) t0 h0 = (h1, Ok s) ->
     good_predicate (mc_tools mc) a t0 j -> In f (map path_of (ln_positional l)) ->
     readable (mc_tools mc) (world_at (mc_tools mc') t) s (Some (aa_predicate_type a, j)) t0 f /\
     statement_readable (mc_tools mc) (world_at (mc_tools mc') t) (Some (aa_predicate_type a, j)) t0 f /\
     honest_services (mc_tools mc) (mc_ps mc') (w_when (world_at (mc_tools mc') t) (It_path f)) v (P_identity identity (Some issuer)) s) ->
  exit_status r' = 0 /\ t' = t.
Proof.
  intros mc environ l t0 h0 sched t h out r M C U Cm St Wo Pr Un mc' environ' l' identity issuer v h0' sched' t' h' out' r' M' Lb U' Cm' Ask Leg Vs Hon.
  destruct (C85_attest _ _ _ _ _ _ _ _ _ _ M C U Cm St) as (a & lines & Sa & _ & Run & _).
  pose proof Sa as ((F & _) & S1 & S2 & S3).
  pose proof Ask as (C' & _ & _ & Ps' & _).
  destruct (C85_verify_identity _ _ _ _ _ _ _ _ _ _ M' C' U' Cm') as (_ & Et & _). split; [|exact Et].
  eapply verify_exits; try eassumption. intros va Sv I1 I2 I3 I4 Ff. destruct Lb as (Le & Lc). rewrite Le.
  eapply C73_attest_then_verify; try eassumption.
  - eapply path_none; [eassumption|apply Wo; cbn; auto].
  - rewrite F. assumption.
  - rewrite F. assumption.
  - rewrite F. split; [|split; [congruence|]].
    + intros Q. apply map_eq_nil in Q. destruct Ask as (_ & _ & Wf & _). destruct Wf as (_ & _ & _ & _ & _ & _ & _ & Np & _). rewrite C' in Np. congruence.
    + repeat split; try assumption. intros f If. destruct Ff as (Fc & Fw). unfold content. rewrite Fw, Fc. apply Leg. assumption.
  - rewrite <- Le. apply Vs. assumption.
  - intros h1 s j Su Gp f If. rewrite F in If. eapply Hon; eassumption.
Qed.

(** ** A concrete case: the hypotheses of C91 hold of a run on a concrete machine *)

Lemma mx_without : forall c o ps os, (forall x s, In (x, s) o -> ~ In x os) -> ~ In O_client_id os -> without mx_unset (mx_line c o ps) os.
Proof.
  intros c o ps os H Nc x Ix. assert (E : standard (ln_command (mx_line c o ps)) x = None) by (destruct x; try reflexivity; contradiction).
  rewrite <- E. constructor; [|reflexivity]. intros s Is. eapply H; eassumption.
Qed.
Lemma mx_asks : asks_identity mx_unset mx_verify (mc_int mx) [s2l "a.txt"] (s2l "a@b.c") (s2l "https://issuer.example").
Proof.
  assert (P : exists ns, parse_line (mc_lower mx) (mc_int mx) mx_unset mx_verify = Ok ns) by (exists (mx_ns mx mx_unset mx_verify); vm_compute; reflexivity).
  apply (C86_accepted_iff mx mx_unset mx_verify ex_unicode_lower) in P. destruct P as (Rv & Wf).
  split; [reflexivity|]. split; [assumption|]. split; [assumption|]. split; [reflexivity|]. split; [|split].
  - exists [(O_cert_identity, s2l "x@y.z"); (O_cert_issuer, s2l "https://issuer.example")], nil. split; [reflexivity|intros s []].
  - exists [(O_cert_identity, s2l "x@y.z")], [(O_cert_identity, s2l "a@b.c")]. split; [reflexivity|]. intros s [Q|[]]. congruence.
  - apply mx_without; [|cbn; intuition congruence]. intros x s [Q|[Q|[Q|[]]]]; injection Q as <- _; cbn; intuition congruence.
Qed.
Example ex_end_to_end : exists t h out out' r, main mx mx_unset mx_sign csx_tree nil svx_sched t h out (Ok tt) /\
  main mx mx_unset mx_verify t nil nil t nil out' r /\ exit_status r = 0.
Proof.
  destruct (exec_run mx_tools (csx_common [csx_a] false) None nil (sign_prepare mx_tools (csx_sign [csx_a] false) csx_tree) svx_sched
    (fun y _ => files_of (y_tree y) [s2l "home"; s2l "a.txt.sigstore"] = None)) as (y & l & R & P); [vm_compute; reflexivity|].
  assert (E : sign_args (mx_ns mx mx_unset mx_sign) = csx_sign [csx_a] false) by (vm_compute; reflexivity).
  assert (Ms : main mx mx_unset mx_sign csx_tree nil svx_sched (y_tree y) (y_hist y) (map S_output l) (Ok tt)).
  { apply (mx_run _ _ _ _ _ _ _ _ _ (Ok tt)); [reflexivity| |reflexivity]. apply Run_sign; [reflexivity|]. rewrite E. exact R. }
  set (vr := verify_identity (sy_env sy_far) (sy_parsers sy_far) (world_at mx_tools (y_tree y)) (verify_args (mx_ns mx mx_unset mx_verify))
    (ns_str (mx_ns mx mx_unset mx_verify) O_cert_identity) (ns_str (mx_ns mx mx_unset mx_verify) O_cert_issuer)).
  assert (Mv : exists out' r, main mx mx_unset mx_verify (y_tree y) nil nil (y_tree y) nil out' r).
  { do 2 eexists. eapply mx_run; [reflexivity| |reflexivity]. apply Run_verify_identity; [reflexivity|]. apply surjective_pairing. }
  destruct Mv as (out' & r & Mv). exists (y_tree y), (y_hist y), (map S_output l), out', r. split; [exact Ms|]. split; [exact Mv|].
  assert (Va : forall va, says_verify mx_unset mx_verify va -> va = cvx_args [s2l "a.txt"]).
  { intros va Sv. eapply says_verify_unique; [exact Sv|].
    assert (Ea : cvx_args [s2l "a.txt"] = verify_args (mx_ns mx mx_unset mx_verify)) by (vm_compute; reflexivity). rewrite Ea.
    apply (parsed_verify (mc_lower mx) (mc_int mx) mx_unset mx_verify); [exact ex_unicode_lower|vm_compute; reflexivity]. }
  refine (proj1 (C91_sign_then_verify mx mx_unset mx_sign csx_tree nil svx_sched (y_tree y) (y_hist y) _ (Ok tt) Ms eq_refl ex_unicode_lower ex_mx_calm eq_refl _ _ _ _
    mx mx_unset mx_verify (s2l "a@b.c") (s2l "https://issuer.example") vx_verifier nil nil (y_tree y) nil out' r Mv _ ex_unicode_lower ex_mx_calm mx_asks _ _ _)).
  - apply mx_without; [intros x s []|cbn; intuition congruence].
  - intros [[]|(v & Q & _)]. discriminate.
  - exact svx_proper.
  - exact svx_untouched.
  - split; reflexivity.
  - intros f [<-|[]]. exact P.
  - intros va Sv. rewrite (Va va Sv). exists (mkCTC vx_tr
      (mkSCM SIGNING_CONFIG_0_2 [sc_svc 2 "r"%string] None [mkService (s2l "https://tsa.example") 1 None (s2l "t")] None [sc_svc 1 "f"%string] nil) None).
    split; [|split; vm_compute; reflexivity].
    cbn [config_selected cvx_args va_trust_config]. exists (s2l "https://tuf-repo-cdn.sigstore.dev"). split; [reflexivity|]. right. split; [left|]; reflexivity.
  - intros a h1 s f Sa Su [<-|[]].
    assert (Ea : sa_common a = csx_common [csx_a] false).
    { change (csx_common [csx_a] false) with (sa_common (csx_sign [csx_a] false)). rewrite <- E. f_equal.
      eapply says_sign_unique; [exact Sa|]. apply (parsed_sign (mc_lower mx) (mc_int mx) mx_unset mx_sign); [exact ex_unicode_lower|vm_compute; reflexivity|reflexivity]. }
    rewrite Ea in Su. assert (Ss : svx_signer = Some s) by (eapply svx_setup; exact Su).
    split; [|exact (svx_services s Ss)]. apply (svx_readable None s (y_tree y) Ss). vm_compute. lia.
Qed.


(** ** C92: signing and verifying with detached signature and certificate *)

(** the log of the verifier, asked for the entry of this certificate, signature and digest, has one: it
    records them, it verifies, and the log has promised, while the certificate was valid, to include it *)
Definition finds_entry (env : Env) (ps : Parsers) (w : World) (x : item) (v : Verifier) (cert : Cert) (sg d : bytes) : Prop :=
  exists rk e set secs,
    rekor_keyring env (w_when w x) (vf_root v) VERIFY = Ok rk /\
    retrieve_post (w_rp w) (w_rekor w x) (vf_rekor_url v)
      (Req_h1 (mkH1 (s2l "0.0.1") (Some (b64encode sg)) (Some (pem_b64 cert)) (Some (SHA256, hex d)) 0)) = Ok (Some e) /\
    records_artifact ps e cert d sg /\ le_version e = s2l "0.0.1" /\ entry_verify env rk e = Ok tt /\
    le_promise e = Some set /\ le_integrated_time e = Some secs /\ secs <> 0%Z /\ (-62135596800 <= secs <= 253402300799)%Z /\
    in_validity cert (secs * 1000000)%Z.

(** [verify identity] is run on one input with these files *)
Definition asks_detached (environ : str -> option str) (l : Line) (to_int : str -> option Z) (inp sig_file cert_file identity issuer : str) : Prop :=
  ln_command l = C_verify_identity /\ readable_variables environ /\ well_formed to_int l /\ ln_positional l = [inp] /\
  last_given l O_cert_identity identity /\ last_given l O_cert_issuer issuer /\
  has_value environ l O_signature (Some sig_file) /\ has_value environ l O_certificate (Some cert_file) /\ has_value environ l O_bundle None /\
  ~ switched_on environ l F_offline.

Lemma a2b_newline : forall b, a2b (b64encode b ++ [10%N]) 0 0 0 = Some b.
Proof.
  apply list3_ind.
  - reflexivity.
  - intros x. pose proof (b2n_lt x). cbn [b64encode app].
    rewrite a2b_step0, a2b_step1 by lia. cbn [a2b].
    change (61 =? 61)%N with true. change (2 <=? 2)%N with true. cbn.
    repeat f_equal. apply n2b_eq. lia.
  - intros x y. pose proof (b2n_lt x). pose proof (b2n_lt y). cbn [b64encode app].
    rewrite a2b_step0, a2b_step1, a2b_step2 by lia. cbn [a2b].
    change (61 =? 61)%N with true. cbn.
    f_equal. f_equal; [|f_equal]; apply n2b_eq; lia.
  - intros x y z r IH. pose proof (b2n_lt x). pose proof (b2n_lt y). pose proof (b2n_lt z).
    cbn [b64encode app].
    rewrite a2b_step0, a2b_step1, a2b_step2, a2b_step3, IH by lia.
    f_equal. f_equal; [|f_equal; [|f_equal]]; apply n2b_eq; lia.
Qed.
Lemma utf8_ascii : forall s, is_ascii s = true -> utf8_decode (ascii_bytes s ++ [x0a]) = Some (s ++ [10%N]).
Proof.
  induction s as [|c s IH]; [reflexivity|]. cbn [is_ascii forallb]. intros H. apply andb_true_iff in H. destruct H as [C H].
  apply N.ltb_lt in C. cbn [ascii_bytes map app utf8_decode]. rewrite b2n_n2b by lia. rewrite (proj2 (N.ltb_lt _ _) C).
  change (map n2b s) with (ascii_bytes s). rewrite (IH H). reflexivity.
Qed.
Lemma signature_text : forall sg, exists text, utf8_decode (ascii_bytes (b64encode sg) ++ [x0a]) = Some text /\ b64decode text = Ok sg.
Proof.
  intros sg. exists (b64encode sg ++ [10%N]). split; [apply utf8_ascii, b64encode_ascii|].
  unfold b64decode. rewrite is_ascii_app, b64encode_ascii. cbn [is_ascii forallb andb]. change (10 <? 128)%N with true. cbn [andb].
  rewrite a2b_newline. reflexivity.
Qed.

Lemma detached_accepted : forall env ps now v p key cert sg d rk e set secs,
  good_certificate env now v p key cert -> rekor_keyring env now (vf_root v) VERIFY = Ok rk ->
  records_artifact ps e cert d sg -> le_version e = s2l "0.0.1" -> entry_verify env rk e = Ok tt ->
  le_promise e = Some set -> le_integrated_time e = Some secs -> secs <> 0%Z -> (-62135596800 <= secs <= 253402300799)%Z -> in_validity cert (secs * 1000000)%Z ->
  e_sig_verify env (ECDSA_prehashed SHA256) key sg d = Ok tt ->
  exists b, from_parts env cert sg e = Ok b /\ bm_env (b_inner b) = None /\
    verify_artifact env ps now v (In_hashed (mkHashed HA_SHA2_256 d)) b p = Ok tt.
Proof.
  intros env ps now v p key cert sg d rk e set secs G Rk Ra Ve Ev Pr It Nz Rg Va Sv.
  pose proof G as (Rb & Pk & Ex & Po & ct & Ck & Ch).
  assert (Px : exists ip text, le_proof e = Some ip /\ ip_checkpoint ip = Some text).
  { unfold entry_verify in Ev. apply bind_ok_inv in Ev. destruct Ev as (u & _ & Ev). apply bind_ok_inv in Ev. destruct Ev as (u' & Vc & _).
    unfold verify_checkpoint in Vc. destruct (le_proof e) as [ip|]; [|discriminate]. destruct (ip_checkpoint ip) as [text|] eqn:Ct; [|discriminate]. eauto. }
  destruct (C35_assembling_succeeds env cert (C_msg (mkMsgSig None sg)) e nil) as (b & F & _); try assumption; try discriminate.
  - rewrite Ve. left. reflexivity.
  - intros t [].
  - left. congruence.
  - exists b. split; [unfold from_parts; rewrite b64decode_b64encode; exact F|].
    pose proof (C35_assembled_bundle _ _ _ _ _ _ F) as (_ & Be & _ & _ & Pc & Ts & Ms & En & _). cbn [content_msig content_env map] in Ms, En, Ts.
    split; [exact En|]. assert (Bc : b_cert b = cert) by (unfold reads_back in Rb; congruence).
    eapply (C29_complete_artifacts_are_accepted env ps now v _ b p [(secs * 1000000)%Z] _ key d); eauto.
    + unfold signer_accepted. rewrite Bc, Be. split; [exists nil, [(secs * 1000000)%Z]; split; [reflexivity|split; [left; auto|]]|].
      { right. exists secs, set. destruct Ra as (Rk' & _). auto 10. }
      split; [discriminate|]. split.
      { destruct (Ch _ Va) as (ch & E & Q). exists [ch], ct. split; [repeat constructor; assumption|]. split; assumption. }
      split; [assumption|]. split; [assumption|]. split; [eauto|]. intros t [<-|[]]. exact Va.
    + cbn [ms_digest]. intros a x Q. discriminate.
    + rewrite Bc. exact Pk.
    + rewrite Be, Bc. exact Ra.
Qed.

(** [sign] with [--signature] and [--certificate] exits with 0, and then [verify identity] with the same two options
    exits with 0, whatever else [sign] has written. *)
Theorem C92_detached : forall mc environ l t0 h0 sched t h out r inp sig_file cert_file,
  main mc environ l t0 h0 sched t h out r -> ln_command l = C_sign -> unicode_lower (mc_lower mc) -> calm_machine mc -> exit_status r = 0 ->
  ln_positional l = [inp] -> has_value environ l O_signature (Some sig_file) -> has_value environ l O_certificate (Some cert_file) ->
  (forall a, says_sign (mc_int mc) environ l a ->
     own_outputs (mc_tools mc) [path_of inp] (sign_opts a) /\ files_left_alone (mc_tools mc) sched [path_of inp] (sign_opts a)) ->
  forall mc' environ' l' identity issuer v h0' sched' t' h' out' r',
  main mc' environ' l' t h0' sched' t' h' out' r' ->
  same_libraries mc mc' -> unicode_lower (mc_lower mc') -> calm_machine mc' ->
  asks_detached environ' l' (mc_int mc') inp sig_file cert_file identity issuer ->
  files_of t (loc (mc_tools mc) (sibling (path_of inp) (s2l ".sigstore"))) = None ->
  (forall va, says_verify environ' l' va -> verifier_selected (mc_env mc') (world_at (mc_tools mc') t) va v) ->
  (forall a h1 s cert b c sg, says_sign (mc_int mc) environ l a -> setup (mc_tools mc) (sa_common a) t0 h0 = (h1, Ok s) -> sg_cert s = Some cert ->
     signed (mc_tools mc) s None t0 (path_of inp) b -> bundle_signature b = Ok sg -> files_of t0 (loc (mc_tools mc) (path_of inp)) = Some c ->
     let w := world_at (mc_tools mc') t in
     w_load_pem w (ascii_bytes (pem_of_der (c_der cert)) ++ [x0a]) = Ok cert /\
     honest_ca (tl_libs (mc_tools mc)) (tl_out (mc_tools mc)) (sg_ctx s) (it_raw (sg_token s)) (w_when w (It_path (path_of inp))) v (P_identity identity (Some issuer)) /\
     sound_keys (mc_env mc') (tl_out (mc_tools mc)) /\
     finds_entry (mc_env mc') (mc_ps mc') w (It_path (path_of inp)) v cert sg (e_hash (mc_env mc') SHA256 c)) ->
  exit_status r' = 0 /\ t' = t.
Proof.
  intros mc environ l t0 h0 sched t h out r inp sig_file cert_file M C U Cm St Ps Vsg Vct Own
    mc' environ' l' identity issuer v h0' sched' t' h' out' r' M' (Le & Lc) U' Cm' (C' & Rv & Wf & Ps' & Li & Lx & Vs' & Vc' & Vb' & Nof) Leg Vsel Hon.
  destruct (C85_sign _ _ _ _ _ _ _ _ _ _ M C U Cm St) as (a & lines & Sa & _ & Run & Outs).
  pose proof Sa as ((F & _) & (vs & S1 & E1) & (vc & S2 & E2) & S3).
  rewrite (has_value_unique _ _ _ _ _ S1 Vsg) in E1. rewrite (has_value_unique _ _ _ _ _ S2 Vct) in E2. cbn [option_map] in E1, E2.
  rewrite Ps in F. cbn [map] in F. rewrite F in Outs. destruct (Own a Sa) as (Ow & La). destruct (Outs Ow La) as (h1 & s & Su & Wr). clear Outs.
  destruct (Wr (path_of inp) (or_introl eq_refl)) as (b & Sg & Wo).
  destruct (Wo (CliSign.O_signature (path_of sig_file))) as (stext & (sg & Bs & ->) & Fs).
  { unfold outputs_of, sign_opts. cbn [so_signature so_certificate so_bundle]. rewrite E1. apply in_or_app. left. left. reflexivity. }
  destruct (Wo (CliSign.O_certificate (path_of cert_file))) as (ctext & (hc & hc' & cert & Sc & ->) & Fc).
  { unfold outputs_of, sign_opts. cbn [so_signature so_certificate so_bundle]. rewrite E2. apply in_or_app. right. apply in_or_app. left. left. reflexivity. }
  destruct (setup_signer _ _ _ _ _ _ Su) as (g1 & g2 & c0 & Mk & Ce).
  rewrite (signer_cert_cached _ _ _ _ _ Ce) in Sc. assert (cert = c0) by (destruct (_ <? _)%Z; congruence). subst c0. clear Sc.
  pose proof Sg as (c & o & outx & hh & hh' & Fi & Op & Dr & Ro).
  destruct (Hon a h1 s cert b c sg Sa Su Ce Sg Bs Fi) as (Lp & Ca & Sk & rk & e & set & secs & Rk & Rp & Ra & Ve & Ev & Pm & It & Nz & Rg & Va). clear Hon.
  destruct (caching_signer _ _ _ _ _ _ _ _ _ _ Mk Ca) as (_ & Ky & cert' & Ce' & Gc). assert (cert' = cert) by congruence. subst cert'.
  cbn [operation] in Op. inversion Op; subst o; clear Op. cbn [run_op] in Ro.
  (* the input is not changed *)
  assert (Fi' : files_of t (loc (mc_tools mc) (path_of inp)) = Some c).
  { rewrite <- Fi. apply (C59_sign_only_outputs_change _ _ _ _ _ _ _ _ _ Run).
    - intros g p Ig Opn. rewrite F in Ig. destruct Ig as [<-|[]]. destruct Ow as (_ & _ & Dj).
      assert (I : exists x, In x (outputs_of (sign_opts a (path_of inp))) /\ out_path x = p).
      { unfold outputs_of, sign_opts. cbn [so_signature so_certificate so_bundle]. destruct Opn as [Q|[Q|[Q|(Qb & Qn & ->)]]].
        - exists (CliSign.O_signature p). rewrite Q. split; [|reflexivity]. apply in_or_app. left. left. reflexivity.
        - exists (CliSign.O_certificate p). rewrite Q. split; [|reflexivity]. apply in_or_app. right. apply in_or_app. left. left. reflexivity.
        - exists (CliSign.O_bundle p). rewrite Q. split; [|reflexivity]. apply in_or_app. right. apply in_or_app. right. left. reflexivity.
        - eexists. split; [|shelve]. rewrite Qb, Qn. apply in_or_app. right. apply in_or_app. right. left. reflexivity. Unshelve. reflexivity. }
      destruct I as (x & Ix & <-). apply (Dj (path_of inp) (path_of inp)); try (left; reflexivity). assumption.
    - apply (La (path_of inp)). left. reflexivity. }
  (* the signature verifies *)
  assert (Sv : e_sig_verify (mc_env mc') (ECDSA_prehashed SHA256) (sk_pub (mkPriv (length g1) (o_pub (tl_out (mc_tools mc)) g1))) sg (e_hash (mc_env mc') SHA256 c) = Ok tt).
  { apply sign_artifact_inv in Ro. destruct Ro as (ct & h1' & k & h2 & digest & sg' & req & rs & hl & e' & _ & K & D & _ & Sg' & _ & _ & _ & _ & _ & Fp).
    apply private_key_ok in K. rewrite Ky in K. destruct K as [_ ->].
    assert (digest = e_hash (mc_env mc') SHA256 c) by (cbn [sha256_digest] in D; rewrite Le; congruence). subst digest.
    assert (Eg : sg' = sg).
    { pose proof (C35_assembled_bundle _ _ _ _ _ _ Fp) as (_ & _ & _ & _ & _ & _ & Ms & En & _). unfold bundle_signature, bundle_envelope in Bs.
      rewrite En, Ms in Bs. cbn [content_env content_msig bind ms_signature] in Bs. congruence. }
    rewrite <- Eg. destruct Dr as (fh & fk & Dk & Dr). destruct Sk as (Kp & Sk). rewrite Sg', (proj1 (proj2 (proj2 (Dr _)))), <- Dk.
    apply Sk; [right; reflexivity|]. rewrite Dk. apply Kp. }
  destruct (C85_verify_identity _ _ _ _ _ _ _ _ _ _ M' C' U' Cm') as ((_ & R) & Et & _). split; [|exact Et]. apply R. clear R.
  split; [assumption|]. split; [assumption|].
  destruct (proj1 (parse_iff (mc_lower mc') (mc_int mc') environ' l' U')) as [_ Pn]. destruct (Pn (conj Rv Wf)) as (ns & P).
  exists (verify_args ns), identity, issuer.
  assert (Sv' : says_verify environ' l' (verify_args ns)) by (eapply parsed_verify; eassumption).
  split; [assumption|]. split; [assumption|]. split; [assumption|].
  pose proof Sv' as (V1 & (v2 & V2 & Q2) & (v3 & V3 & Q3) & V4 & V5 & _).
  rewrite (has_value_unique _ _ _ _ _ V2 Vc') in Q2. rewrite (has_value_unique _ _ _ _ _ V3 Vs') in Q3. cbn [option_map] in Q2, Q3.
  apply path_none in V4; [|assumption]. apply off_false in V5; [|assumption]. rewrite Ps' in V1.
  set (va := verify_args ns) in *. set (w := world_at (mc_tools mc') t) in *.
  assert (Ct : forall p, content w p = files_of t (loc (mc_tools mc) p)) by (intros p; unfold content, loc; change (w_cwd w) with (w_cwd (tl_world (mc_tools mc'))); rewrite Lc; reflexivity).
  destruct (detached_accepted (mc_env mc') (mc_ps mc') (w_when w (It_path (path_of inp))) v (P_identity identity (Some issuer))
    (o_pub (tl_out (mc_tools mc)) g1) cert sg (e_hash (mc_env mc') SHA256 c) rk e set secs) as (b' & Fp & En & Vf); try eassumption.
  { rewrite Le. exact Gc. }
  exists [It_path (path_of inp)], v. split; [|split; [|split; [apply Vsel; assumption|]]].
  - rewrite V1. constructor; [|constructor]. left. exists c. split; [rewrite Ct; assumption|reflexivity].
  - split; [discriminate|]. split; [reflexivity|]. split; [intros Q; congruence|]. split; [intros hd [Q|[]]; discriminate|]. split; [intros Q; congruence|].
    intros f [Q|[]] _. inversion Q; subst f. right. rewrite Ct. assumption.
  - intros x [<-|[]]. exists (e_hash (mc_env mc') SHA256 c), b', None. split; [exists c; split; [rewrite Ct; assumption|reflexivity]|]. split.
    + right. split; [left; congruence|]. destruct (signature_text sg) as (text & Ut & Bt).
      exists (path_of cert_file), (path_of sig_file), (ascii_bytes (pem_of_der (c_der cert)) ++ [x0a]), cert, (ascii_bytes (b64encode sg) ++ [x0a]), text, sg,
        (mkH1 (s2l "0.0.1") (Some (b64encode sg)) (Some (pem_b64 cert)) (Some (SHA256, hex (e_hash (mc_env mc') SHA256 c))) 0), e.
      unfold part_file. rewrite Q2, Q3. rewrite !Ct. repeat split; try assumption.
    + split; [|intros q Q; discriminate]. unfold vouched. rewrite En. split; [exact Vf|reflexivity].
Qed.

(** a machine that reads certificates and finds the entry when it asks the log *)
Definition dx_pem : bytes := ascii_bytes (pem_of_der (c_der (sy_cert sy_far nil))) ++ [x0a].
Definition dx_world : World :=
  mkWorld [s2l "home"] (fun _ => None) (fun b => if bytes_eqb b dx_pem then Ok (sy_cert sy_far nil) else Raise EValue) (fun _ => Raise EPydantic) (fun _ => None)
    (fun _ => Raise EValue) csx_config (fun _ _ => Ok (mkResp 200 nil (Some (JList [sy_render vx_entry1])) nil)) sy_rp vx_now (fun _ => vx_now).
Definition dx_tools : Tools :=
  mkTools dx_world (sy_libs sy_far) svx_out (fun s => if str_eqb s (s2l "{}") then Some csx_predicate else None)
    (fun _ => s2l "{}") (fun _ => Some vx_payload) csx_token (fun _ => Ok (Some (s2l "tok"))) (fun _ _ _ _ => Raise EIdentity) csx_to_json.
Definition dx : Machine := mx_with (sy_env sy_far) dx_tools (rkx_http JNull).
Definition dx_files : list (opt * str) := [(O_signature, s2l "a.sig"); (O_certificate, s2l "a.crt")].
Definition dx_sign : Line := mx_line C_sign dx_files [s2l "a.txt"].
Definition dx_verify : Line :=
  mx_line C_verify_identity (dx_files ++ [(O_cert_identity, s2l "a@b.c"); (O_cert_issuer, s2l "https://issuer.example")]) [s2l "a.txt"].
Definition dx_sargs : SignArgs := sign_args (mx_ns dx mx_unset dx_sign).
Definition dx_sched : list act := turns (repeat 0 40).
Lemma dx_asks : asks_detached mx_unset dx_verify (mc_int dx) (s2l "a.txt") (s2l "a.sig") (s2l "a.crt") (s2l "a@b.c") (s2l "https://issuer.example").
Proof.
  assert (P : exists ns, parse_line (mc_lower dx) (mc_int dx) mx_unset dx_verify = Ok ns) by (exists (mx_ns dx mx_unset dx_verify); vm_compute; reflexivity).
  apply (C86_accepted_iff dx mx_unset dx_verify ex_unicode_lower) in P. destruct P as (Rv & Wf).
  split; [reflexivity|]. split; [assumption|]. split; [assumption|]. split; [reflexivity|].
  split; [exists dx_files, [(O_cert_issuer, s2l "https://issuer.example")]; split; [reflexivity|intros s [Q|[]]; congruence]|].
  split; [exists (dx_files ++ [(O_cert_identity, s2l "a@b.c")]), nil; split; [reflexivity|intros s []]|].
  split; [constructor; exists nil; eexists; split; [reflexivity|intros s [Q|[Q|[Q|[]]]]; congruence]|].
  split; [constructor; exists [(O_signature, s2l "a.sig")]; eexists; split; [reflexivity|intros s [Q|[Q|[]]]; congruence]|].
  split; [|intros [[]|(x & Q & _)]; discriminate].
  change None with (standard (ln_command dx_verify) O_bundle). constructor; [|reflexivity]. intros s [Q|[Q|[Q|[Q|[]]]]]; congruence.
Qed.
Example ex_dx_calm : calm_machine dx.
Proof.
  apply mx_with_calm; [apply sy_env_calm| |intros; exact I]. constructor; try (intros; exact I).
  - constructor; try (intros; exact I).
    + intros b. change (w_load_pem (tl_world dx_tools) b) with (if bytes_eqb b dx_pem then Ok (sy_cert sy_far nil) else Raise EValue). destruct (bytes_eqb b dx_pem); repeat split; exact I.
    + apply sy_libs_calm.
  - exact sy_libs_calm.
  - exact svx_out_calm.
  - exact csx_token_calm.
Qed.
Lemma dx_own : forall a, says_sign (mc_int dx) mx_unset dx_sign a -> a = dx_sargs.
Proof.
  intros a Sa. eapply says_sign_unique; [exact Sa|]. unfold dx_sargs. apply (parsed_sign (mc_lower dx) (mc_int dx) mx_unset dx_sign); [exact ex_unicode_lower|vm_compute; reflexivity|reflexivity].
Qed.
Example ex_detached : exists t h out out' r, main dx mx_unset dx_sign csx_tree nil dx_sched t h out (Ok tt) /\
  main dx mx_unset dx_verify t nil nil t nil out' r /\ exit_status r = 0.
Proof.
  destruct (exec_run dx_tools (sa_common dx_sargs) None nil (sign_prepare dx_tools dx_sargs csx_tree) dx_sched
    (fun y _ => files_of (y_tree y) [s2l "home"; s2l "a.txt.sigstore"] = None)) as (y & l & R & P); [vm_compute; reflexivity|].
  assert (Ms : main dx mx_unset dx_sign csx_tree nil dx_sched (y_tree y) (y_hist y) (map S_output l) (Ok tt)).
  { apply (mx_run _ _ _ _ _ _ _ _ _ (Ok tt)); [reflexivity| |reflexivity]. apply Run_sign; [reflexivity|]. exact R. }
  assert (Mv : exists out' r, main dx mx_unset dx_verify (y_tree y) nil nil (y_tree y) nil out' r).
  { do 2 eexists. eapply mx_run; [reflexivity| |reflexivity]. apply Run_verify_identity; [reflexivity|]. apply surjective_pairing. }
  destruct Mv as (out' & r & Mv). exists (y_tree y), (y_hist y), (map S_output l), out', r. split; [exact Ms|]. split; [exact Mv|].
  refine (proj1 (C92_detached dx mx_unset dx_sign csx_tree nil dx_sched (y_tree y) (y_hist y) _ (Ok tt) (s2l "a.txt") (s2l "a.sig") (s2l "a.crt")
    Ms eq_refl ex_unicode_lower ex_dx_calm eq_refl eq_refl _ _ _
    dx mx_unset dx_verify (s2l "a@b.c") (s2l "https://issuer.example") vx_verifier nil nil (y_tree y) nil out' r Mv _ ex_unicode_lower ex_dx_calm dx_asks P _ _)).
  - constructor. exists nil. eexists. split; [reflexivity|]. intros s [Q|[]]. congruence.
  - constructor. exists [(O_signature, s2l "a.sig")], nil. split; [reflexivity|]. intros s [].
  - intros a Sa. rewrite (dx_own a Sa). split.
    + split; [|split].
      * intros f [<-|[]]. vm_compute. repeat constructor; cbn [In]; intros Q; repeat (destruct Q as [Q|Q]; [discriminate Q|]); exact Q.
      * intros f g x y0 [<-|[]] [<-|[]] Nq. congruence.
      * intros f g x [<-|[]] [<-|[]] Ix. vm_compute in Ix. repeat (destruct Ix as [<-|Ix]; [vm_compute; discriminate|]). destruct Ix.
    + intros f _. assert (L : forall p x, ~ In (A_other p x) dx_sched).
      { intros p x I. unfold dx_sched, turns in I. apply in_map_iff in I. destruct I as (i & Q & _). discriminate. }
      split; [intros x; apply L|intros x _ z; apply L].
  - split; reflexivity.
  - intros va Sv. assert (Ea : va = verify_args (mx_ns dx mx_unset dx_verify)).
    { eapply says_verify_unique; [exact Sv|]. apply (parsed_verify (mc_lower dx) (mc_int dx) mx_unset dx_verify); [exact ex_unicode_lower|vm_compute; reflexivity]. }
    rewrite Ea. exists (mkCTC vx_tr
      (mkSCM SIGNING_CONFIG_0_2 [sc_svc 2 "r"%string] None [mkService (s2l "https://tsa.example") 1 None (s2l "t")] None [sc_svc 1 "f"%string] nil) None).
    split; [|split; vm_compute; reflexivity].
    exists (s2l "https://tuf-repo-cdn.sigstore.dev"). split; [reflexivity|]. right. split; [left|]; reflexivity.
  - intros a h1 s cert b c sg Sa Su Ce Sg Bs Fi w. rewrite (dx_own a Sa) in Su.
    assert (Eq : sa_common dx_sargs = csx_common [csx_a] false) by (vm_compute; reflexivity). rewrite Eq in Su.
    assert (Ss : svx_signer = Some s) by (eapply svx_setup; exact Su). destruct (svx_cert s Ss) as (Cs & _).
    assert (cert = sy_cert sy_far nil) by congruence. subst cert.
    assert (Qc : Some c = Some vx_input) by (rewrite <- Fi; reflexivity). assert (c = vx_input) by congruence. subst c.
    pose proof (svx_signed None s b Ss Sg) as Eb.
    assert (sg = sy_sig).
    { assert (Qs : Ok sg = Ok sy_sig); [|congruence]. rewrite <- Bs. unfold bundle_signature, bundle_envelope. rewrite Eb. vm_compute. reflexivity. }
    subst sg. destruct (svx_services s Ss) as (Ca & _ & Sk & _). split; [vm_compute; reflexivity|]. split; [exact Ca|]. split; [exact Sk|].
    do 4 eexists. split; [vm_compute; reflexivity|]. split; [vm_compute; reflexivity|].
    split; [split; [vm_compute; reflexivity|left; split; vm_compute; reflexivity]|]. split; [vm_compute; reflexivity|]. split; [vm_compute; reflexivity|].
    split; [vm_compute; reflexivity|]. split; [vm_compute; reflexivity|]. split; [discriminate|]. split; [lia|].
    unfold in_validity. vm_compute. split; discriminate.
Qed.

Print Assumptions C91_sign_then_verify.
Print Assumptions C91_attest_then_verify.
Print Assumptions C92_detached.
