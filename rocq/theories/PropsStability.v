(** Properties C74, C75 and C76: acceptance of a bundle is stable over time, under additions to
    the trusted root, and under an upgrade of the bundle. *)
From Verif Require Import Base Codec Messages Merkle ToyHash Env Keyring KeyringProofs ToyEnv Checkpoint LogEntry PropsCheckpoint Cert Sct Dsse PropsDsse
  PropsSct KeyDetails Policy TrustedRoot PropsTrustedRoot SigningConfig Hashing Bundle PropsBundle Verifier VerifierSpec ToyBundles
  CliVerify PropsKeyring PropsVerifier PropsSigningConfig PropsCliVerify.

(** ** Specification *)

(** the validity windows of a trusted root *)
Definition windows (tr : TrustedRootMsg) : list (option TimeRange) :=
  map tl_valid_for (tr_tlogs tr) ++ map tl_valid_for (tr_ctlogs tr) ++
  map cam_valid_for (tr_cas tr) ++ map cam_valid_for (tr_tsas tr).
(** no window of the root starts between the two times *)
Definition same_starts (tr : TrustedRootMsg) (now now' : time) : Prop :=
  forall w, In w (windows tr) -> (started now w <-> started now' w).

(** ** C74: time *)

Lemma same_valid : forall now now' w, (started now w <-> started now' w) ->
  is_timerange_valid now w true = is_timerange_valid now' w true.
Proof.
  intros now now' w H. rewrite <- !started_iff in H.
  destruct (is_timerange_valid now w true), (is_timerange_valid now' w true); intuition discriminate.
Qed.

Lemma same_tlog_keys : forall now now' l, (forall t, In t l -> (started now (tl_valid_for t) <-> started now' (tl_valid_for t))) ->
  get_tlog_keys now l VERIFY = get_tlog_keys now' l VERIFY.
Proof.
  intros now now' l. induction l as [|t l IH]; intros H; [reflexivity|]. cbn [get_tlog_keys].
  rewrite (same_valid now now' (tl_valid_for t)) by (apply H; left; reflexivity).
  rewrite IH by (intros t' I; apply H; right; assumption). reflexivity.
Qed.

Lemma same_ca : forall now now' ca, (started now (cam_valid_for (ca_inner ca)) <-> started now' (cam_valid_for (ca_inner ca))) ->
  ca_certificates now ca true = ca_certificates now' ca true.
Proof. intros now now' ca H. unfold ca_certificates. rewrite (same_valid now now' _ H). reflexivity. Qed.

Section Time.
Variable env : Env.
Variable ps : Parsers.
Variable tr : TrustedRootMsg.
Variables now now' : time.
Hypothesis same : same_starts tr now now'.

Lemma same_tlogs : forall t, In t (tr_tlogs tr) -> (started now (tl_valid_for t) <-> started now' (tl_valid_for t)).
Proof. intros t I. apply same. unfold windows. apply in_or_app. left. apply in_map. assumption. Qed.
Lemma same_ctlogs : forall t, In t (tr_ctlogs tr) -> (started now (tl_valid_for t) <-> started now' (tl_valid_for t)).
Proof. intros t I. apply same. unfold windows. rewrite !in_app_iff. right. left. apply in_map. assumption. Qed.
Lemma same_cas : forall m, In m (tr_cas tr) -> (started now (cam_valid_for m) <-> started now' (cam_valid_for m)).
Proof. intros t I. apply same. unfold windows. rewrite !in_app_iff. right. right. left. apply in_map. assumption. Qed.
Lemma same_tsas : forall m, In m (tr_tsas tr) -> (started now (cam_valid_for m) <-> started now' (cam_valid_for m)).
Proof. intros t I. apply same. unfold windows. rewrite !in_app_iff. right. right. right. apply in_map. assumption. Qed.

Lemma same_rekor : rekor_keyring env now tr VERIFY = rekor_keyring env now' tr VERIFY.
Proof. unfold rekor_keyring. rewrite (same_tlog_keys now now' _ same_tlogs). reflexivity. Qed.
Lemma same_ct : ct_keyring env now tr VERIFY = ct_keyring env now' tr VERIFY.
Proof. unfold ct_keyring. rewrite (same_tlog_keys now now' _ same_ctlogs). reflexivity. Qed.

Lemma same_fulcio_loop : forall l, (forall m, In m l -> (started now (cam_valid_for m) <-> started now' (cam_valid_for m))) ->
  fulcio_certs_loop env now l = fulcio_certs_loop env now' l.
Proof.
  induction l as [|m l IH]; intros H; [reflexivity|]. cbn [fulcio_certs_loop].
  destruct (make_ca env m) as [ca|e] eqn:E; [|reflexivity]. cbn [bind]. rewrite IH by (intros m' I; apply H; right; assumption).
  unfold make_ca in E. inv_bind E. inv_bind E. inversion E; subst ca.
  rewrite (same_ca now now' (mkCA m a)) by (apply H; left; reflexivity). reflexivity.
Qed.

Lemma same_make_verifier : make_verifier env now tr = make_verifier env now' tr.
Proof. unfold make_verifier, get_fulcio_certs. rewrite (same_fulcio_loop _ same_cas). reflexivity. Qed.

Lemma same_ts_loop : forall cas tsr msg,
  (forall ca, In ca cas -> (started now (cam_valid_for (ca_inner ca)) <-> started now' (cam_valid_for (ca_inner ca)))) ->
  verify_signed_timestamp_loop env now cas tsr msg = verify_signed_timestamp_loop env now' cas tsr msg.
Proof.
  induction cas as [|ca cas IH]; intros tsr msg H; [reflexivity|]. cbn [verify_signed_timestamp_loop].
  rewrite (same_ca now now' ca) by (apply H; left; reflexivity).
  rewrite IH by (intros c I; apply H; right; assumption). reflexivity.
Qed.

Lemma same_ts : forall v tsr msg, vf_root v = tr ->
  verify_signed_timestamp env now v tsr msg = verify_signed_timestamp env now' v tsr msg.
Proof.
  intros v tsr msg R. unfold verify_signed_timestamp. rewrite R.
  destruct (get_timestamp_authorities env tr) as [cas|e] eqn:E; [|reflexivity]. cbn [bind]. apply same_ts_loop.
  intros ca I. apply tsas_iff in E.
  assert (M : In (ca_inner ca) (tr_tsas tr)).
  { unfold trusted_tsas in E. induction E as [|m c l l' (Q & _) F IH]; [destruct I|]. destruct I as [->|I]; [left; auto|right; auto]. }
  apply same_tsas. assumption.
Qed.

Lemma same_collect : forall v b l, vf_root v = tr -> collect_times env now v b l = collect_times env now' v b l.
Proof.
  intros v b l R. induction l as [|t l IH]; [reflexivity|]. cbn [collect_times].
  destruct (bundle_signature b); [|reflexivity]. cbn [bind]. rewrite (same_ts v t a R), IH. reflexivity.
Qed.

Lemma same_establish : forall v b, vf_root v = tr -> establish_time env now v b = establish_time env now' v b.
Proof.
  intros v b R. unfold establish_time, verify_timestamp_authority.
  destruct (timestamp_verification_data env (bm_vm (b_inner b))) as [[l|]|e]; cbn [bind]; try reflexivity.
  destruct (get_timestamp_authorities env (vf_root v)); cbn [bind]; [|reflexivity].
  rewrite (same_collect v b l R). reflexivity.
Qed.

Lemma same_common : forall v b p, vf_root v = tr ->
  verify_common_signing_cert env now v b p = verify_common_signing_cert env now' v b p.
Proof.
  intros v b p R. unfold verify_common_signing_cert. rewrite (same_establish v b R), R, same_rekor, same_ct. reflexivity.
Qed.
End Time.

(** The result of verification, accepting or not, changes only when a window of the trusted root
    starts: it does not matter which keys, authorities or certificates have expired meanwhile. *)
Theorem C74_changes_only_at_starts : forall env ps tr now now', same_starts tr now now' ->
  make_verifier env now tr = make_verifier env now' tr /\
  forall v, vf_root v = tr ->
  (forall i b p, verify_artifact env ps now v i b p = verify_artifact env ps now' v i b p) /\
  (forall b p, verify_dsse env ps now v b p = verify_dsse env ps now' v b p).
Proof.
  intros env ps tr now now' H. split; [apply same_make_verifier; assumption|]. intros v R. split.
  - intros i b p. unfold verify_artifact. rewrite (same_common env tr now now' H v b p R). reflexivity.
  - intros b p. unfold verify_dsse. rewrite (same_common env tr now now' H v b p R). reflexivity.
Qed.

(** So a bundle that is accepted once all windows have started is accepted forever with this
    trusted root. *)
Theorem C74_accepted_forever : forall env ps tr now,
  (forall w, In w (windows tr) -> started now w) ->
  forall now', (now <= now')%Z ->
  make_verifier env now tr = make_verifier env now' tr /\
  forall v, vf_root v = tr ->
  (forall i b p, verify_artifact env ps now v i b p = Ok tt <-> verify_artifact env ps now' v i b p = Ok tt) /\
  (forall b p r, verify_dsse env ps now v b p = Ok r <-> verify_dsse env ps now' v b p = Ok r).
Proof.
  intros env ps tr now H now' L.
  assert (Q : same_starts tr now now').
  { intros w I. split; [|intros _; auto]. intros S r E. specialize (S r E). lia. }
  destruct (C74_changes_only_at_starts env ps tr now now' Q) as [A B]. split; [assumption|].
  intros v R. destruct (B v R) as [C D]. split; intros; [rewrite C|rewrite D]; reflexivity.
Qed.

(** The same for the command, with a trusted root that does not change: its output and its status
    do not depend on when it is run. *)
Definition at_times (w : World) (start : time) (when : item -> time) : World :=
  mkWorld (w_cwd w) (w_files w) (w_load_pem w) (w_parse_bundle w) (w_validate w) (w_config_json w) (w_config_tuf w)
    (w_rekor w) (w_rp w) start when.

Lemma verify_loop_when : forall env ps w start when verbose show v p all,
  (forall x h b, In (x, (h, b)) all -> verify_common env ps w (when x) v h b p = verify_common env ps w (w_when w x) v h b p) ->
  verify_loop env ps (at_times w start when) verbose show v p all = verify_loop env ps w verbose show v p all.
Proof.
  intros env ps w start when verbose show v p all. induction all as [|(x & h & b) all IH]; intros H; [reflexivity|].
  cbn [verify_loop]. change (w_when (at_times w start when) x) with (when x).
  change (verify_common env ps (at_times w start when)) with (verify_common env ps w).
  rewrite (H x h b) by (left; reflexivity). rewrite IH by (intros y k c I; apply H; right; assumption). reflexivity.
Qed.

Lemma run_verify_when : forall env ps w a start when,
  (forall c, config_selected w a (Ok c) -> same_starts (ctc_root c) (w_start w) start /\
     forall x, same_starts (ctc_root c) (w_when w x) (when x)) ->
  forall show p, run_verify env ps (at_times w start when) a show p = run_verify env ps w a show p.
Proof.
  intros env ps w a start when H show p. unfold run_verify.
  assert (E : collect_verification_state env (at_times w start when) a = collect_verification_state env w a).
  { unfold collect_verification_state.
    change (parse_inputs (at_times w start when)) with (parse_inputs w).
    change (build_map (at_times w start when)) with (build_map w).
    change (digest_map (at_times w start when)) with (digest_map w).
    change (get_trust_config (at_times w start when)) with (get_trust_config w).
    change (load_materials env (at_times w start when)) with (load_materials env w).
    change (w_start (at_times w start when)) with start.
    destruct (parse_inputs w (va_inputs a)) as [items|]; cbn [bind]; [|reflexivity].
    repeat (match goal with |- bind (raise_if ?c ?e) _ = _ => destruct (raise_if c e) end; cbn [bind]; [|reflexivity]).
    destruct (build_map w a items nil) as [im|]; cbn [bind]; [|reflexivity].
    destruct (match im with nil => digest_map w a items | _ => Ok im end) as [im2|]; cbn [bind]; [|reflexivity].
    destruct (get_trust_config w _ _ _ _) as [c|] eqn:G; cbn [bind]; [|reflexivity].
    apply config_iff in G. destruct (H c G) as [St _]. unfold make_trusted_root.
    destruct (str_eqb _ _); cbn [bind]; [|reflexivity].
    rewrite (same_make_verifier env (ctc_root c) _ _ St). reflexivity. }
  rewrite E. destruct (collect_verification_state env w a) as [[v all]|e] eqn:C; [|reflexivity].
  apply verify_loop_when. intros x h b I.
  assert (V : exists c, config_selected w a (Ok c) /\ vf_root v = ctc_root c).
  { clear E. unfold collect_verification_state in C. repeat (inv_bind C).
    match goal with V : make_verifier _ _ ?r = Ok _, R : make_trusted_root _ = Ok ?r, G : get_trust_config _ _ _ _ _ = Ok ?c |- _ =>
      exists c; apply config_iff in G; split; [exact G|]; apply make_trusted_root_same in R; subst r; unfold make_verifier in V; repeat (inv_bind V); inversion V; subst; inversion C; reflexivity end. }
  destruct V as (c & G & R). destruct (H c G) as [_ Sx].
  destruct (C74_changes_only_at_starts env ps (ctc_root c) _ _ (Sx x)) as [_ Q]. destruct (Q v R) as [Qa Qd].
  unfold verify_common. rewrite Qd, Qa. reflexivity.
Qed.

Theorem C74_command_any_time : forall env ps w a start when,
  (forall c, config_selected w a (Ok c) -> same_starts (ctc_root c) (w_start w) start /\
     forall x, same_starts (ctc_root c) (w_when w x) (when x)) ->
  (forall identity issuer, verify_identity env ps (at_times w start when) a identity issuer = verify_identity env ps w a identity issuer) /\
  (forall g, verify_github env ps (at_times w start when) a g = verify_github env ps w a g).
Proof.
  intros env ps w a start when H. split; intros.
  - unfold verify_identity. rewrite (run_verify_when env ps w a start when H). reflexivity.
  - unfold verify_github. destruct (negb _); [reflexivity|]. rewrite (run_verify_when env ps w a start when H). reflexivity.
Qed.

(** A log key with the id of another one that is declared for another hash: the entry is accepted
    until the window of the second key starts, and never after. *)
Definition st_root (start : time) : TrustedRootMsg :=
  mkTR TRUSTED_ROOT_0_1
    (tr_tlogs vx_tr ++ [mkTLog (mkPKM (Some cx_key) PKIX_ECDSA_P384_SHA_384) (Some (mkTimeRange start None)) (s2l "https://rekor.example")])
    (tr_ctlogs vx_tr) (tr_cas vx_tr) (tr_tsas vx_tr).
Theorem C74_accepted_until_a_start_refuted :
  exists env ps tr now now' v i b p, (now < now')%Z /\ vf_root v = tr /\
    verify_artifact env ps now v i b p = Ok tt /\
    forall later, (now' <= later)%Z -> verify_artifact env ps later v i b p = Raise EVerification.
Proof.
  set (s := 1900000000000000%Z). set (v := mkVerifier [vx_issuer] (st_root s) (s2l "https://rekor.example")).
  exists vx_env, vx_parsers, (st_root s), vx_now, s, v, (In_bytes vx_input), vx_artifact1, vx_policy.
  split; [reflexivity|]. split; [reflexivity|]. split; [vm_compute; reflexivity|].
  intros later L.
  assert (Q : same_starts (st_root s) s later).
  { intros w I. unfold windows in I. cbn in I. split; intros H r E; [|].
    - specialize (H r E). lia.
    - repeat (destruct I as [<-|I]; [inversion E; subst r; vm_compute; discriminate|]). destruct I. }
  destruct (C74_changes_only_at_starts vx_env vx_parsers (st_root s) s later Q) as [_ H].
  destruct (H v eq_refl) as [A _]. rewrite <- A. vm_compute. reflexivity.
Qed.

(** The windows of the toy root have all started: its bundles are accepted forever. *)
Example ex_forever : forall later, (vx_now <= later)%Z ->
  verify_artifact vx_env vx_parsers later vx_verifier (In_bytes vx_input) vx_artifact1 vx_policy = Ok tt.
Proof.
  intros later L.
  assert (H : forall w, In w (windows (vf_root vx_verifier)) -> started vx_now w).
  { intros w I r E. unfold windows in I. cbn in I.
    repeat (destruct I as [<-|I]; [inversion E; subst r; vm_compute; discriminate|]). destruct I. }
  destruct (C74_accepted_forever vx_env vx_parsers _ _ H later L) as [_ Q].
  destruct (Q vx_verifier eq_refl) as [A _]. apply A. vm_compute. reflexivity.
Qed.

(** The command, run at any later time and however long it takes, prints the same. *)
Example ex_command_later : forall start when, (vx_now <= start)%Z -> (forall x, vx_now <= when x)%Z ->
  verify_identity vx_env vx_parsers (at_times cvx_world start when) (cvx_args [s2l "a.txt"; s2l "./b.txt"]) (s2l "a@b.c") (s2l "https://issuer.example") =
  ([L_ok (It_path [s2l "a.txt"]); L_ok (It_path [s2l "b.txt"]); L_text (s2l "{}")], Ok tt).
Proof.
  intros start when L Lw.
  assert (H : forall t, (vx_now <= t)%Z -> same_starts vx_tr vx_now t).
  { intros t Lt w I. unfold windows in I. cbn in I.
    repeat (destruct I as [<-|I]; [split; intros _ r E; inversion E; subst r; cbn [tr_start]; revert Lt; unfold vx_now; lia|]). destruct I. }
  destruct (C74_command_any_time vx_env vx_parsers cvx_world (cvx_args [s2l "a.txt"; s2l "./b.txt"]) start when) as [C _].
  { intros c G. apply config_iff in G. assert (c = mkCTC vx_tr (sc_msg nil None) None) as -> by (vm_compute in G; vm_compute; congruence).
    split; [apply H; assumption|]. intros x. apply H. apply Lw. }
  rewrite C. vm_compute. reflexivity.
Qed.

(** ** C75: additions to the trusted root *)

(** [l'] is [l] with further elements, all of which satisfy [P], anywhere between *)
Inductive added {A} (P : A -> Prop) : list A -> list A -> Prop :=
| added_nil : added P nil nil
| added_old : forall x l l', added P l l' -> added P (x :: l) (x :: l')
| added_new : forall x l l', P x -> added P l l' -> added P l (x :: l').
(** the log's key does not have this id *)
Definition other_id (env : Env) (kid : bytes) (t : TLog) : Prop :=
  forall k s, usable env (tl_key t) k s -> msg_id env k <> kid.
(** one of these keys has this id *)
Definition known (env : Env) (ms : list PublicKeyMsg) (kid : bytes) : Prop := exists k s, registered env ms k s /\ msg_id env k = kid.
(** the SCT of a certificate was made by this CT log *)
Definition sct_from (c : Cert) (kid : bytes) : Prop :=
  exists x s, c_exts c = Ok x /\ x_scts x = Some [s] /\ sct_log_id s = kid.
(** some authority of the root vouches for every timestamp of the bundle *)
Definition all_vouched (env : Env) (now : time) (tr : TrustedRootMsg) (b : Bundle) : Prop :=
  forall raw t sg cas, In raw (vm_timestamps (bm_vm (b_inner b))) -> e_decode_tsr env raw = Ok t -> signature_of b sg ->
    trusted_tsas env tr cas -> exists ca, In ca cas /\ vouches env now ca t sg.

Lemma added_selected : forall now env kid l l' ts,
  added (other_id env kid) l l' -> selected (fun t => in_force VERIFY now (tl_valid_for t)) l ts ->
  exists ts', selected (fun t => in_force VERIFY now (tl_valid_for t)) l' ts' /\ added (other_id env kid) ts ts'.
Proof.
  intros now env kid l l' ts A. revert ts. induction A as [|x l l' A IH|x l l' Px A IH]; intros ts H.
  - inversion H. exists nil. split; constructor.
  - inversion H; subst.
    + destruct (IH _ H4) as (ts' & S' & A'). exists (x :: ts'). split; constructor; assumption.
    + destruct (IH _ H4) as (ts' & S' & A'). exists ts'. split; [apply sel_skip|]; assumption.
  - destruct (IH _ H) as (ts' & S' & A').
    destruct (is_timerange_valid now (tl_valid_for x) true) eqn:V.
    + apply (window_iff now (tl_valid_for x) VERIFY) in V. exists (x :: ts'). split; constructor; assumption.
    + exists ts'. split; [|assumption]. apply sel_skip; [|assumption]. intros Q.
      apply (window_iff now (tl_valid_for x) VERIFY) in Q. congruence.
Qed.

Lemma added_split : forall A (P : A -> Prop) a x b l, added P (a ++ x :: b) l ->
  exists a' b', l = a' ++ x :: b' /\ added P b b'.
Proof.
  intros A P a x b l H. remember (a ++ x :: b) as c. revert a b Heqc.
  induction H as [|y l l' H IH|y l l' Py H IH]; intros a b E.
  - destruct a; discriminate.
  - destruct a as [|z a]; inversion E; subst.
    + exists nil, l'. auto.
    + destruct (IH a b eq_refl) as (a' & b' & -> & H'). exists (z :: a'), b'. auto.
  - destruct (IH a b E) as (a' & b' & -> & H'). exists (y :: a'), b'. auto.
Qed.

Lemma added_in : forall A (P : A -> Prop) l l' x, added P l l' -> In x l' -> In x l \/ P x.
Proof.
  intros A P l l' x H. induction H as [|y l l' H IH|y l l' Py H IH]; intros I; [destruct I| |].
  - destruct I as [->|I]; [left; left; reflexivity|]. destruct (IH I); [left; right|right]; assumption.
  - destruct I as [->|I]; [right; assumption|auto].
Qed.

Lemma registered_added : forall env k s ts ts',
  added (other_id env (msg_id env k)) ts ts' -> registered env (map tl_key ts) k s -> registered env (map tl_key ts') k s.
Proof.
  intros env k s ts ts' H (l1 & m & l2 & E & U & L).
  apply map_eq_app in E. destruct E as (t1 & t2 & -> & <- & E). destruct t2 as [|t t2]; [discriminate|].
  cbn [map] in E. injection E as <- <-.
  destruct (added_split _ _ _ _ _ _ H) as (a' & b' & -> & H').
  exists (map tl_key a'), (tl_key t), (map tl_key b'). rewrite map_app. split; [reflexivity|]. split; [assumption|].
  intros m' k' s' I U'. apply in_map_iff in I. destruct I as (t' & <- & I).
  destruct (added_in _ _ _ _ _ H' I) as [I'|O].
  - eapply L; [|eassumption]. apply in_map. assumption.
  - eapply O. eassumption.
Qed.

(** with the same key for the id, two keyrings give the same answers *)
Lemma known_same : forall env now l l' kid ts kr,
  added (other_id env kid) l l' ->
  selected (fun t => in_force VERIFY now (tl_valid_for t)) l ts -> ts <> nil ->
  make_keyring env (map tl_key ts) = Ok kr -> known env (map tl_key ts) kid ->
  exists ts' kr', selected (fun t => in_force VERIFY now (tl_valid_for t)) l' ts' /\ ts' <> nil /\
    make_keyring env (map tl_key ts') = Ok kr' /\
    forall sg d, keyring_verify env kr' kid sg d = keyring_verify env kr kid sg d.
Proof.
  intros env now l l' kid ts kr A Sl Nn M (k & s & R & <-).
  destruct (added_selected _ _ _ _ _ _ A Sl) as (ts' & Sl' & A').
  destruct (C11_construction_never_fails env (map tl_key ts')) as (kr' & M').
  pose proof (registered_added _ _ _ _ _ A' R) as R'.
  exists ts', kr'. split; [assumption|]. split.
  { intros ->. destruct R' as (l1 & m & l2 & Q & _). destruct l1; discriminate. }
  split; [assumption|]. intros sg d.
  rewrite (C10_known_id_only_that_key _ _ _ _ _ sg d M R), (C10_known_id_only_that_key _ _ _ _ _ sg d M' R'). reflexivity.
Qed.

Lemma verify_sigs_ext : forall env kr kr' kid note sigs,
  (forall sg d, keyring_verify env kr' kid sg d = keyring_verify env kr kid sg d) ->
  verify_sigs env kr' kid note sigs = verify_sigs env kr kid note sigs.
Proof.
  intros env kr kr' kid note sigs H. induction sigs as [|x sigs IH]; [reflexivity|]. cbn [verify_sigs].
  rewrite IH. destruct (b64decode (rs_signature x)); cbn [bind]; rewrite ?H; reflexivity.
Qed.

Lemma entry_verify_ext : forall env kr kr' e,
  (forall sg d, keyring_verify env kr' (le_log_id e) sg d = keyring_verify env kr (le_log_id e) sg d) ->
  entry_verify env kr' e = entry_verify env kr e.
Proof.
  intros env kr kr' e H. unfold entry_verify, verify_checkpoint, note_verify, verify_set.
  destruct (verify_merkle_inclusion _ e); cbn [bind]; [|reflexivity].
  assert (C : match le_proof e with
              | None => Raise EAttribute
              | Some ip => match ip_checkpoint ip with
                | None => Raise EVerification
                | Some text => let* '(note, cp) := signed_checkpoint_from_text env text in
                  do* match utf8_encode (sn_note note) with None => Raise EUnicodeEncode
                      | Some n => verify_sigs env kr' (le_log_id e) n (sn_signatures note) end in
                  raise_if (negb (str_eqb (lc_hash cp) (hex (ip_root_hash ip)))) EVerification
                end
              end =
              match le_proof e with
              | None => Raise EAttribute
              | Some ip => match ip_checkpoint ip with
                | None => Raise EVerification
                | Some text => let* '(note, cp) := signed_checkpoint_from_text env text in
                  do* match utf8_encode (sn_note note) with None => Raise EUnicodeEncode
                      | Some n => verify_sigs env kr (le_log_id e) n (sn_signatures note) end in
                  raise_if (negb (str_eqb (lc_hash cp) (hex (ip_root_hash ip)))) EVerification
                end
              end).
  { destruct (le_proof e) as [ip|]; [|reflexivity]. destruct (ip_checkpoint ip) as [text|]; [|reflexivity].
    destruct (signed_checkpoint_from_text env text) as [[note cp]|]; cbn [bind]; [|reflexivity].
    destruct (utf8_encode (sn_note note)) as [n|]; [|reflexivity].
    rewrite (verify_sigs_ext env kr kr' (le_log_id e) n (sn_signatures note) H). reflexivity. }
  rewrite C. match goal with |- bind ?x _ = _ => destruct x end; cbn [bind]; [|reflexivity].
  destruct (has_set e); [|reflexivity]. destruct (le_promise e); [|reflexivity].
  destruct (encode_canonical e); cbn [bind]; rewrite ?H; reflexivity.
Qed.

Lemma verify_sct_ext : forall env kr kr' c chain kid, sct_from c kid ->
  (forall sg d, keyring_verify env kr' kid sg d = keyring_verify env kr kid sg d) ->
  verify_sct env c chain kr = Ok tt -> verify_sct env c chain kr' = Ok tt.
Proof.
  intros env kr kr' c chain kid (x & s & X & Sc & <-) H V. apply C16_accepted_iff in V.
  destruct V as (x' & s' & ik & d & X' & Sc' & Rest). rewrite X in X'. inversion X'; subst x'. rewrite Sc in Sc'. inversion Sc'; subst s'.
  apply C16_accepted_iff. exists x, s, ik, d. rewrite H. tauto.
Qed.

(** A bundle accepted with a trusted root is accepted with a root to which logs with other ids (at
    any place), timestamp authorities (at the end) and certificate authorities have been added,
    provided the logs of the entry and of the SCT were known, every timestamp was vouched for, and
    the chain that is found is still found. *)
Definition root_extended (env : Env) (now : time) (b : Bundle) (v v' : Verifier) : Prop :=
  added (other_id env (le_log_id (b_entry b))) (tr_tlogs (vf_root v)) (tr_tlogs (vf_root v')) /\
  (exists ms, rekor_keys now (vf_root v) ms /\ known env ms (le_log_id (b_entry b))) /\
  (exists kid ms, sct_from (b_cert b) kid /\ ct_keys now (vf_root v) ms /\ known env ms kid /\
     added (other_id env kid) (tr_ctlogs (vf_root v)) (tr_ctlogs (vf_root v'))) /\
  (exists more, tr_tsas (vf_root v') = tr_tsas (vf_root v) ++ more /\
     (vm_timestamps (bm_vm (b_inner b)) = nil \/
      (all_vouched env now (vf_root v) b /\ forall m, In m more -> exists ca, make_ca env m = Ok ca))) /\
  (forall t chain, e_chain env (vf_fulcio v) t (b_cert b) = Ok chain -> e_chain env (vf_fulcio v') t (b_cert b) = Ok chain).

Lemma signer_accepted_extended : forall env now v v' b p times,
  root_extended env now b v v' -> signer_accepted env now v b p times -> signer_accepted env now v' b p times.
Proof.
  intros env now v v' b p times (Al & (ms & Rk & Kn) & (kid & cms & Sf & Ck & Ckn & Ac) & (more & Et & Ets) & Ch)
    (T & Nn & (chains & ct & F & Ct & Sv) & Ku & Po & (rk & Rkr & En) & W).
  assert (X : exists rk', rekor_keyring env now (vf_root v') VERIFY = Ok rk' /\
            forall sg d, keyring_verify env rk' (le_log_id (b_entry b)) sg d = keyring_verify env rk (le_log_id (b_entry b)) sg d).
  { apply rekor_keyring_keys in Rkr. destruct Rkr as (ms' & Rk' & M). rewrite (rekor_keys_unique _ _ _ _ Rk' Rk) in M.
    destruct Rk as (ts & Sl & -> & Nt). destruct (known_same _ _ _ _ _ _ _ Al Sl Nt M Kn) as (ts' & kr' & Sl' & Nt' & M' & E).
    exists kr'. split; [|assumption]. apply rekor_keyring_keys. exists (map tl_key ts'). split; [|assumption]. exists ts'. auto. }
  assert (Y : exists ct', ct_keyring env now (vf_root v') VERIFY = Ok ct' /\
            forall sg d, keyring_verify env ct' kid sg d = keyring_verify env ct kid sg d).
  { apply ct_keyring_keys in Ct. destruct Ct as (ms' & Rk' & M). rewrite (ct_keys_unique _ _ _ _ Rk' Ck) in M.
    destruct Ck as (ts & Sl & -> & Nt). destruct (known_same _ _ _ _ _ _ _ Ac Sl Nt M Ckn) as (ts' & kr' & Sl' & Nt' & M' & E).
    exists kr'. split; [|assumption]. apply ct_keyring_keys. exists (map tl_key ts'). split; [|assumption]. exists ts'. auto. }
  destruct X as (rk' & X1 & X2), Y as (ct' & Y1 & Y2).
  split; [|split; [assumption|split; [|split; [assumption|split; [assumption|split; [|assumption]]]]]].
  - destruct T as (ts1 & ts2 & -> & A & L). exists ts1, ts2. split; [reflexivity|]. split; [|assumption].
    destruct A as [[E ->]|(tokens & cas & sg & Ne & D & Ln & Nd & Tr & Nc & Sg & Tt)]; [left; auto|].
    destruct Ets as [Ets|[Av Mo]]; [congruence|]. right.
    assert (Cm : exists cas', Forall2 (fun m ca => make_ca env m = Ok ca) more cas').
    { clear -Mo. induction more as [|m more IH]; [exists nil; constructor|]. destruct IH as (l & Fl); [intros; apply Mo; right; assumption|].
      destruct (Mo m (or_introl eq_refl)) as (ca & E). exists (ca :: l). constructor; assumption. }
    destruct Cm as (cas' & Fc). exists tokens, (cas ++ cas'), sg. split; [assumption|]. split; [assumption|]. split; [assumption|].
    split; [assumption|]. split.
    { apply tsas_iff. apply tsas_iff in Tr. unfold get_timestamp_authorities in *. rewrite Et. clear -Tr Fc.
      revert cas Tr. induction (tr_tsas (vf_root v)) as [|m l IH]; intros cas Tr.
      - cbn in Tr. inversion Tr. cbn [app]. clear -Fc. induction Fc as [|m ca l l' E F IH]; [reflexivity|].
        cbn [map_res]. rewrite E. cbn [bind]. rewrite IH. reflexivity.
      - cbn [app map_res] in *. inv_bind Tr. inv_bind Tr. inversion Tr; subst cas. rewrite Ha. cbn [bind]. rewrite (IH _ Ha0). reflexivity. }
    split; [destruct cas; [congruence|discriminate]|]. split; [assumption|].
    assert (Tv : forall t, In t tokens -> exists ca, In ca cas /\ vouches env now ca t sg).
    { intros t I. destruct (Forall2_in_r _ _ _ _ _ D t I) as (raw & Ir & De). eapply Av; eassumption. }
    clear -Tt Tv. induction Tt as [|t tm l ts H Tt IH|t l ts H Tt IH].
    + constructor.
    + apply tt_some; [|apply IH; intros; apply Tv; right; assumption]. destruct H as (E & bf & ca & af & -> & Dc & V).
      split; [assumption|]. exists bf, ca, (af ++ cas'). rewrite <- app_assoc. auto.
    + exfalso. destruct (Tv t (or_introl eq_refl)) as (ca & I & V). exact (declines_not_vouches _ _ _ _ _ (H ca I) V).
  - exists chains, ct'. split.
    { clear -F Ch. induction F; constructor; auto. }
    split; [assumption|]. eapply verify_sct_ext; eassumption.
  - exists rk'. split; [assumption|]. rewrite (entry_verify_ext env rk rk' (b_entry b) X2). assumption.
Qed.

Theorem C75_accepted_with_extended_root : forall env ps now v v' i b p,
  root_extended env now b v v' ->
  (verify_artifact env ps now v i b p = Ok tt -> verify_artifact env ps now v' i b p = Ok tt) /\
  (forall r, verify_dsse env ps now v b p = Ok r -> verify_dsse env ps now v' b p = Ok r).
Proof.
  intros env ps now v v' i b p X. split.
  - intros H. apply artifact_accepted_iff in H. destruct H as [(times & H) Q]. apply artifact_accepted_iff.
    split; [|assumption]. exists times. eapply signer_accepted_extended; eassumption.
  - intros [t pl] H. apply dsse_accepted_iff in H. destruct H as [(times & H) Q]. apply dsse_accepted_iff.
    split; [|assumption]. exists times. eapply signer_accepted_extended; eassumption.
Qed.

(** Any addition: refuted.  A key with a known id that is declared for another hash; an authority
    without a window, which makes verification fail with an AttributeError. *)
Definition st_tsa_first : TrustedRootMsg :=
  mkTR TRUSTED_ROOT_0_1 (tr_tlogs vx_tr) (tr_ctlogs vx_tr) (tr_cas vx_tr)
    (mkCAMsg [c_der vx_issuer; c_der vx_issuer] None :: tr_tsas vx_tr).
Theorem C75_any_addition_refuted :
  exists env ps now v i b p b2,
    verify_artifact env ps now v i b p = Ok tt /\ verify_artifact env ps now v i b2 p = Ok tt /\
    (exists t v', vf_fulcio v' = vf_fulcio v /\
       vf_root v' = mkTR (tr_media_type (vf_root v)) (tr_tlogs (vf_root v) ++ [t]) (tr_ctlogs (vf_root v)) (tr_cas (vf_root v)) (tr_tsas (vf_root v)) /\
       verify_artifact env ps now v' i b p = Raise EVerification) /\
    (exists m v', vf_fulcio v' = vf_fulcio v /\
       vf_root v' = mkTR (tr_media_type (vf_root v)) (tr_tlogs (vf_root v)) (tr_ctlogs (vf_root v)) (tr_cas (vf_root v)) (m :: tr_tsas (vf_root v)) /\
       verify_artifact env ps now v' i b2 p = Raise EAttribute).
Proof.
  exists vx_env, vx_parsers, vx_now, vx_verifier, (In_bytes vx_input), vx_artifact1, vx_policy, vx_artifact2.
  split; [vm_compute; reflexivity|]. split; [vm_compute; reflexivity|]. split.
  - eexists. exists (mkVerifier [vx_issuer] (st_root 0%Z) (s2l "https://rekor.example")).
    split; [reflexivity|]. split; [reflexivity|]. vm_compute. reflexivity.
  - eexists. exists (mkVerifier [vx_issuer] st_tsa_first (s2l "https://rekor.example")).
    split; [reflexivity|]. split; [reflexivity|]. vm_compute. reflexivity.
Qed.

(** A new log and a new CT log before the old ones, a new authority after the old ones. *)
Definition st_new_log : TLog := mkTLog (mkPKM (Some [x02; x77]) PKIX_ECDSA_P256_SHA_256) vx_window (s2l "https://rekor2.example").
Definition st_larger : Verifier :=
  mkVerifier [vx_issuer]
    (mkTR TRUSTED_ROOT_0_1 (st_new_log :: tr_tlogs vx_tr) (st_new_log :: tr_ctlogs vx_tr) (tr_cas vx_tr)
      (tr_tsas vx_tr ++ [mkCAMsg [c_der vx_leaf; c_der vx_issuer] vx_window])) (s2l "https://rekor2.example").
Lemma st_one_key : forall now t, started now (tl_valid_for t) -> selected (fun t => in_force VERIFY now (tl_valid_for t)) [t] [t].
Proof. intros now t H. apply sel_take; [|constructor]. split; [assumption|discriminate]. Qed.
Lemma st_started : started vx_now vx_window.
Proof. intros r E. inversion E; subst r. vm_compute. discriminate. Qed.
Lemma st_registered : forall raw, (exists r, raw = x02 :: r) -> registered vx_env [mkPKM (Some raw) PKIX_ECDSA_P256_SHA_256] (mkPub (KEc P256) raw) (ECDSA SHA256).
Proof.
  intros raw (r & ->). exists nil, (mkPKM (Some (x02 :: r)) PKIX_ECDSA_P256_SHA_256), nil. split; [reflexivity|]. split.
  - exists (x02 :: r). eexists. split; [reflexivity|]. split; [discriminate|]. split; [reflexivity|]. split; reflexivity.
  - intros m k s [].
Qed.
Example ex_extended : root_extended vx_env vx_now vx_artifact2 vx_verifier st_larger.
Proof.
  assert (O : forall kid, kid <> toy_hash [x02; x77] -> other_id vx_env kid st_new_log).
  { intros kid N k s (raw & cls & E & _ & _ & L & _). cbn [st_new_log tl_key pkm_raw] in E. inversion E; subst raw.
    cbn in L. inversion L; subst k. unfold msg_id. cbn [pk_spki e_hash vx_env toy_env]. congruence. }
  split; [|split; [|split; [|split]]].
  - apply added_new; [|apply added_old; constructor]. apply O. vm_compute. discriminate.
  - exists [mkPKM (Some cx_key) PKIX_ECDSA_P256_SHA_256]. split.
    + exists (tr_tlogs vx_tr). split; [apply st_one_key; exact st_started|]. split; [reflexivity|discriminate].
    + exists (mkPub (KEc P256) cx_key), (ECDSA SHA256). split; [apply st_registered; eexists; reflexivity|vm_compute; reflexivity].
  - exists (sct_log_id (sx_sct vx_issuer)), [mkPKM (Some sx_ct_key) PKIX_ECDSA_P256_SHA_256]. split; [|split; [|split]].
    + exists vx_exts, (sx_sct vx_issuer). repeat split.
    + exists (tr_ctlogs vx_tr). split; [apply st_one_key; exact st_started|]. split; [reflexivity|discriminate].
    + exists (mkPub (KEc P256) sx_ct_key), (ECDSA SHA256). split; [apply st_registered; eexists; reflexivity|vm_compute; reflexivity].
    + apply added_new; [|apply added_old; constructor]. apply O. vm_compute. discriminate.
  - exists [mkCAMsg [c_der vx_leaf; c_der vx_issuer] vx_window]. split; [reflexivity|]. right. split.
    + intros raw t sg cas I D Sg Tr. destruct I as [<-|[]]. apply signature_iff in Sg. apply tsas_iff in Tr.
      vm_compute in Tr. inversion Tr; subst cas. eexists. split; [right; right; left; reflexivity|].
      assert (Sg' : sg = vx_sig) by (vm_compute in Sg; inversion Sg; vm_compute; reflexivity). subst sg.
      assert (D' : t = mkTSR (vx_token x20 vx_sig) 32000000%Z) by (vm_compute in D; inversion D; vm_compute; reflexivity). subst t.
      split; [split; [intros r E; inversion E; subst r; vm_compute; discriminate|cbn; lia]|]. split; [vm_compute; reflexivity|].
      exists (mkTimeRange 0%Z None). split; [reflexivity|]. split; [vm_compute; discriminate|discriminate].
    + intros m [<-|[]]. eexists. vm_compute. reflexivity.
  - intros t chain H. exact H.
Qed.
Example ex_extended_accepted : verify_artifact vx_env vx_parsers vx_now st_larger (In_bytes vx_input) vx_artifact2 vx_policy = Ok tt.
Proof. apply (C75_accepted_with_extended_root _ _ _ _ _ _ _ _ ex_extended). vm_compute. reflexivity. Qed.

(** ** C76: upgrading *)

(** the log gives the entry a time *)
Definition log_gives_time (e : LogEntry) : Prop := ~ log_times e nil.

Lemma upgraded_parts : forall env get raw b0 b,
  fix_bundle env get false raw = Ok b0 -> reads_back env (b_cert b0) -> fix_bundle env get true raw = Ok b ->
  b_cert b = b_cert b0 /\ b_entry b = b_entry b0 /\ vm_timestamps (bm_vm (b_inner b)) = nil /\
  bm_env (b_inner b) = bm_env (b_inner b0) /\ (bm_env (b_inner b0) = None -> bm_msig (b_inner b) = bm_msig (b_inner b0)).
Proof.
  intros env get raw b0 b H0 R H. pose proof (C36_upgrade _ _ _ _ _ H0 R H) as (_ & Ec & Ee & _ & _ & Et).
  unfold fix_bundle in H0, H.
  inv_bind H. inv_bind H. inv_bind H. inv_bind H. rewrite Ha, Ha0 in H0. cbn [bind] in H0. rewrite Ha1 in H0. cbn [bind] in H0.
  rewrite Ha2 in H0. cbn [bind] in H0. inversion H0; subst a2. clear H0 Ha Ha0 Ha1 Ha2.
  apply bind_ok_inv in H. destruct H as ([[cert c] e] & Hp & H).
  unfold to_parts in Hp. apply bind_ok_inv in Hp. destruct Hp as (oe & Hoe & Hp). inversion Hp; subst cert c e. clear Hp.
  apply C35_assembled_bundle in H. destruct H as (_ & _ & _ & _ & _ & _ & Ms & En & N).
  split; [assumption|]. split; [assumption|]. split; [assumption|].
  unfold bundle_envelope in Hoe. destruct (bm_env (b_inner b0)) as [me|] eqn:Q.
  - inv_bind Hoe. inversion Hoe; subst oe. cbn [content_env] in En.
    apply C22_envelope_has_exactly_one_signature in Ha. destruct Ha as [Hx _]. rewrite Hx in En. split; [assumption|discriminate].
  - inversion Hoe; subst oe. destruct (bm_msig (b_inner b0)) as [s|] eqn:S0; [|congruence]. cbn [content_msig content_env] in Ms, En. auto.
Qed.

Lemma log_times_unique : forall e l l', log_times e l -> log_times e l' -> l = l'.
Proof.
  intros e l l' [[-> A]|(t & s & It & Nz & Pr & _ & _ & _ & ->)] [[-> B]|(t' & s' & It' & Nz' & Pr' & _ & _ & _ & ->)].
  - reflexivity.
  - exfalso. destruct A as [A|[A|A]]; congruence.
  - exfalso. destruct B as [B|[B|B]]; congruence.
  - congruence.
Qed.

Lemma log_times_single : forall e l, log_times e l -> log_gives_time e -> exists t, l = [t].
Proof.
  intros e l [[-> A]|(t & s & It & Nz & Pr & _ & _ & _ & ->)] G; [|eauto]. destruct G. left. auto.
Qed.

(** The upgraded bundle of an accepted one is judged by its log time alone. *)
Lemma upgraded_signer : forall env now v b0 b p times,
  b_cert b = b_cert b0 -> b_entry b = b_entry b0 -> vm_timestamps (bm_vm (b_inner b)) = nil ->
  signer_accepted env now v b0 p times -> log_gives_time (b_entry b0) ->
  exists t, log_times (b_entry b0) [t] /\ signer_accepted env now v b p [t].
Proof.
  intros env now v b0 b p times Ec Ee Et ((ts1 & ts2 & -> & T1 & T2) & Nn & (chains & ct & F & Ct & Sv) & Ku & Po & Rk & W) G.
  destruct (log_times_single _ _ T2 G) as (t & ->). exists t. split; [assumption|]. rewrite <- Ec, <- Ee in *.
  apply Forall2_app_inv_l in F. destruct F as (c1 & c2 & F1 & F2 & ->). inversion F2 as [|? ch ? r Fh Ft]; subst. inversion Ft; subst.
  split; [exists nil, [t]; split; [reflexivity|]; split; [left; auto|assumption]|].
  split; [discriminate|]. split.
  { exists [ch], ct. split; [constructor; [assumption|constructor]|]. split; [assumption|]. rewrite last_last in Sv. exact Sv. }
  split; [assumption|]. split; [assumption|]. split; [assumption|].
  intros t' [<-|[]]. apply W. apply in_or_app. right. left. reflexivity.
Qed.

(** A bundle that is accepted before fix-bundle --upgrade-version is accepted after it exactly if
    the log gives it a time. *)
Theorem C76_upgraded_accepted_iff : forall env ps get raw b0 b now v p,
  fix_bundle env get false raw = Ok b0 -> reads_back env (b_cert b0) -> fix_bundle env get true raw = Ok b ->
  (forall i, bm_env (b_inner b0) = None -> verify_artifact env ps now v i b0 p = Ok tt ->
     (verify_artifact env ps now v i b p = Ok tt <-> log_gives_time (b_entry b0))) /\
  (forall r, verify_dsse env ps now v b0 p = Ok r ->
     (verify_dsse env ps now v b p = Ok r <-> log_gives_time (b_entry b0))).
Proof.
  intros env ps get raw b0 b now v p H0 R H.
  destruct (upgraded_parts _ _ _ _ _ H0 R H) as (Ec & Ee & Et & En & Ms).
  assert (Out : forall times, signer_accepted env now v b p times -> log_gives_time (b_entry b0)).
  { intros times ((ts1 & ts2 & -> & T1 & T2) & Nn & _) L. rewrite Ee in T2. pose proof (log_times_unique _ _ _ T2 L) as ->.
    apply Nn. destruct T1 as [[_ ->]|(? & ? & ? & Q & _)]; [reflexivity|congruence]. }
  split.
  - intros i Ne Va. split.
    + intros V. apply artifact_accepted_iff in V. destruct V as ((times & S) & _). eauto.
    + intros G. apply artifact_accepted_iff in Va. destruct Va as ((times & S) & ms & key & digest & M & Rest).
      destruct (upgraded_signer _ _ _ _ _ _ _ Ec Ee Et S G) as (t & _ & S').
      apply artifact_accepted_iff. split; [eauto|]. exists ms, key, digest. rewrite (Ms Ne), Ec, Ee. auto.
  - intros [ty pl] Va. split.
    + intros V. apply dsse_accepted_iff in V. destruct V as ((times & S) & _). eauto.
    + intros G. apply dsse_accepted_iff in Va. destruct Va as ((times & S) & m & sg & key & x & M & Rest).
      destruct (upgraded_signer _ _ _ _ _ _ _ Ec Ee Et S G) as (t & _ & S').
      apply dsse_accepted_iff. split; [eauto|]. exists m, sg, key, x. rewrite En, Ec, Ee. auto.
Qed.

(** Whatever the original bundle's verdict, the upgraded one is never accepted without a log time. *)
Theorem C76_upgraded_needs_log_time : forall env ps get raw b0 b now v p,
  fix_bundle env get false raw = Ok b0 -> reads_back env (b_cert b0) -> fix_bundle env get true raw = Ok b ->
  ~ log_gives_time (b_entry b0) ->
  (forall i, verify_artifact env ps now v i b p <> Ok tt) /\ (forall r, verify_dsse env ps now v b p <> Ok r).
Proof.
  intros env ps get raw b0 b now v p H0 R H L.
  destruct (upgraded_parts _ _ _ _ _ H0 R H) as (Ec & Ee & Et & En & Ms).
  assert (Out : forall times, signer_accepted env now v b p times -> False).
  { intros times ((ts1 & ts2 & -> & T1 & T2) & Nn & _). apply L. intros Q. rewrite Ee in T2.
    pose proof (log_times_unique _ _ _ T2 Q) as ->.
    apply Nn. destruct T1 as [[_ ->]|(? & ? & ? & Z & _)]; [reflexivity|congruence]. }
  split.
  - intros i V. apply artifact_accepted_iff in V. destruct V as ((times & S) & _). eauto.
  - intros [ty pl] V. apply dsse_accepted_iff in V. destruct V as ((times & S) & _). eauto.
Qed.

(** An upgrade can turn a rejected bundle into an accepted one: here a trusted timestamp is from
    before the certificate was issued, and the upgrade discards it. *)
Definition up_leaf : Cert :=
  mkCert [x30; x02] true (Ok vx_exts) (Ok vx_key) (Ok [x55; x66]) 1600000000000000%Z 2000000000000000%Z (Ok false).
Definition up_env : Env := toy_env [(c_der vx_issuer, vx_issuer); (c_der up_leaf, up_leaf)].
Definition up_raw (ts : list bytes) : BundleMsg := vx_bundle_msg vx_entry1 ts (Some vx_ms) None.
Theorem C76_upgrade_accepts_nothing_new_refuted :
  exists env ps get raw b0 b now v i p,
    fix_bundle env get false raw = Ok b0 /\ reads_back env (b_cert b0) /\ fix_bundle env get true raw = Ok b /\
    verify_artifact env ps now v i b0 p = Raise ECertValidation /\ verify_artifact env ps now v i b p = Ok tt.
Proof.
  exists up_env, vx_parsers, (fun _ => Raise ERekorClient), (up_raw [vx_token x20 vx_sig]).
  eexists. eexists. exists vx_now, vx_verifier, (In_bytes vx_input), vx_policy.
  split; [vm_compute; reflexivity|]. split; [vm_compute; reflexivity|]. split; [vm_compute; reflexivity|]. split; vm_compute; reflexivity.
Qed.

(** A bundle with a log time and a timestamp is accepted before and after the upgrade; one with
    timestamps only cannot be upgraded. *)
Example ex_upgrade : exists b0 b,
  fix_bundle vx_env (fun _ => Raise ERekorClient) false (b_inner vx_dsse1) = Ok b0 /\ reads_back vx_env (b_cert b0) /\
  fix_bundle vx_env (fun _ => Raise ERekorClient) true (b_inner vx_dsse1) = Ok b /\
  vx_verify_dsse b0 = Ok (vx_type, vx_payload) /\ vx_verify_dsse b = Ok (vx_type, vx_payload) /\
  b_inner b <> b_inner b0 /\ fix_bundle vx_env (fun _ => Raise ERekorClient) true (b_inner vx_dsse2) = Raise EInvalidBundle.
Proof.
  eexists. eexists. split; [vm_compute; reflexivity|]. split; [vm_compute; reflexivity|]. split; [vm_compute; reflexivity|].
  split; [vm_compute; reflexivity|]. split; [vm_compute; reflexivity|]. split; [|vm_compute; reflexivity].
  intros H. apply (f_equal (fun m => vm_timestamps (bm_vm m))) in H. vm_compute in H. discriminate.
Qed.

Print Assumptions C74_changes_only_at_starts.
Print Assumptions C74_accepted_forever.
Print Assumptions C74_command_any_time.
Print Assumptions C74_accepted_until_a_start_refuted.
Print Assumptions C75_accepted_with_extended_root.
Print Assumptions C75_any_addition_refuted.
Print Assumptions C76_upgraded_accepted_iff.
Print Assumptions C76_upgraded_needs_log_time.
Print Assumptions C76_upgrade_accepts_nothing_new_refuted.
