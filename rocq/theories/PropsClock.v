(** Property C95: verification takes time, and the clock moves while it runs. *)
From Verif Require Import Base Codec Messages Merkle ToyHash Env Keyring KeyringProofs ToyEnv Checkpoint LogEntry PropsCheckpoint Cert Sct Dsse PropsDsse
  PropsSct KeyDetails Policy TrustedRoot PropsTrustedRoot SigningConfig Hashing Bundle PropsBundle Verifier VerifierSpec ToyBundles
  PropsKeyring PropsVerifier PropsSigningConfig PropsStability Clock.

(** ** Specification

    [clock 0], [clock 1], ... are the successive readings of the clock; a call begins after [n] of
    them.  [windows] and [same_starts] are in PropsStability.v. *)

(** from the reading [n] on, the clock shows times from [a] to [z] *)
Definition runs_between (clock : nat -> time) (n : nat) (a z : time) : Prop :=
  forall i, n <= i -> (a <= clock i <= z)%Z.

(** the validity windows of the services of a signing configuration *)
Definition service_windows (m : SigningConfigMsg) : list (option TimeRange) :=
  map sv_valid_for (scm_tlogs m ++ scm_tsas m ++ scm_cas m ++ scm_oidcs m).
(** no service starts or ends between the two times *)
Definition same_services (m : SigningConfigMsg) (a z : time) : Prop :=
  forall w r, In w (service_windows m) -> w = Some r ->
    (tr_start r <= a \/ z < tr_start r)%Z /\ forall e, tr_end r = Some e -> (e < a \/ z <= e)%Z.

(** the window had started when the clock was read at some point of the call *)
Definition started_during (clock : nat -> time) (n n' : nat) (w : option TimeRange) : Prop :=
  exists j, n <= j < n' /\ started (clock j) w.
(** keys of these logs, each from a log whose window had started *)
Definition keys_started (clock : nat -> time) (n n' : nat) (logs : list TLog) (ms : list PublicKeyMsg) : Prop :=
  forall m, In m ms -> exists t, In t logs /\ tl_key t = m /\ started_during clock n n' (tl_valid_for t).
(** no CT log starts or ends between the two times *)
Definition same_ct_logs (tr : TrustedRootMsg) (a z : time) : Prop :=
  forall t r, In t (tr_ctlogs tr) -> tl_valid_for t = Some r ->
    (tr_start r <= a \/ z < tr_start r)%Z /\ forall e, tr_end r = Some e -> (e < a \/ z <= e)%Z.
(** the window was open when the clock was read at some point of the call; no window is always open *)
Definition open_during (clock : nat -> time) (n n' : nat) (w : option TimeRange) : Prop :=
  exists j, n <= j < n' /\ forall r, w = Some r -> (tr_start r <= clock j)%Z /\ forall e, tr_end r = Some e -> (clock j <= e)%Z.
(** what an accepting call relied on had started: the keys for the SCT, the keys for the log entry,
    and the authority of every time that came from a timestamp *)
Definition relied_on_started (env : Env) (clock : nat -> time) (n n' : nat) (v : Verifier) (b : Bundle) : Prop :=
  (exists ms kr chain, keys_started clock n n' (tr_ctlogs (vf_root v)) ms /\ make_keyring env ms = Ok kr /\
     verify_sct env (b_cert b) chain kr = Ok tt) /\
  (exists ms kr, keys_started clock n n' (tr_tlogs (vf_root v)) ms /\ make_keyring env ms = Ok kr /\
     entry_verify env kr (b_entry b) = Ok tt) /\
  exists stamped logged,
    stamped ++ logged <> nil /\ log_times (b_entry b) logged /\
    (forall t, In t (stamped ++ logged) -> (c_not_before (b_cert b) <= t <= c_not_after (b_cert b))%Z) /\
    forall t, In t stamped -> exists raw token sg cas ca,
      In raw (vm_timestamps (bm_vm (b_inner b))) /\ e_decode_tsr env raw = Ok token /\ tsr_time token = t /\
      signature_of b sg /\ trusted_tsas env (vf_root v) cas /\ In ca cas /\
      e_tsa_verify env (ca_certs ca) token sg = Ok tt /\ in_window (cam_valid_for (ca_inner ca)) t /\
      started_during clock n n' (cam_valid_for (ca_inner ca)).

(** ** Proofs *)

(** the computation gives [r] from any reading after [n0] *)
Definition gives {A} (n0 : nat) (c : Clk A) (r : res A) : Prop :=
  forall n, n0 <= n -> fst (c n) = r /\ n0 <= snd (c n).

Lemma gives_still : forall A n0 (r : res A), gives n0 (still r) r.
Proof. intros A n0 r n L. split; [reflexivity|assumption]. Qed.
Lemma gives_bind : forall A B n0 (c : Clk A) r (k : A -> Clk B) (k' : A -> res B),
  gives n0 c r -> (forall a, r = Ok a -> gives n0 (k a) (k' a)) -> gives n0 (bind_c c k) (bind r k').
Proof.
  intros A B n0 c r k k' H K n L. destruct (H n L) as [E N]. unfold bind_c. destruct (c n) as [x n']. cbn [fst snd] in *. subst x.
  destruct r as [a|e]; cbn [bind]; [apply (K a eq_refl); assumption|split; [reflexivity|assumption]].
Qed.
Lemma gives_try : forall A n0 (c : Clk A) r cls h, gives n0 c r -> gives n0 (try_c c cls h) (try_except r cls h).
Proof.
  intros A n0 c r cls h H n L. destruct (H n L) as [E N]. unfold try_c, try_except. destruct (c n) as [x n']. cbn [fst snd] in *. subst x.
  destruct r as [a|e]; split; try reflexivity; assumption.
Qed.
Lemma gives_run : forall A n0 (c : Clk A) r, gives n0 c r -> fst (c n0) = r.
Proof. intros A n0 c r H. apply H. apply le_n. Qed.

Section Run.
Variable env : Env.
Variable ps : Parsers.
Variable clock : nat -> time.
Variable n0 : nat.
Variable now : time.

(** a window that is valid at a reading exactly if it is valid at [now] *)
Definition steady (allow_expired : bool) (w : option TimeRange) : Prop :=
  forall i, n0 <= i -> is_timerange_valid (clock i) w allow_expired = is_timerange_valid now w allow_expired.

Lemma gives_period : forall w ax, steady ax w -> gives n0 (in_period clock w ax) (Ok (is_timerange_valid now w ax)).
Proof. intros w ax H n L. unfold in_period. cbn [fst snd]. rewrite (H n L). split; [reflexivity|lia]. Qed.

Lemma gives_tlog_keys : forall l, (forall t, In t l -> steady true (tl_valid_for t)) ->
  gives n0 (tlog_keys_c clock l VERIFY) (Ok (get_tlog_keys now l VERIFY)).
Proof.
  induction l as [|t l IH]; intros H; [apply gives_still|]. cbn [tlog_keys_c get_tlog_keys].
  replace (Ok (if is_timerange_valid now (tl_valid_for t) true then tl_key t :: get_tlog_keys now l VERIFY else get_tlog_keys now l VERIFY))
    with (let* v := Ok (is_timerange_valid now (tl_valid_for t) true) in let* rest := Ok (get_tlog_keys now l VERIFY) in
          Ok (if v then tl_key t :: rest else rest)) by (cbn [bind]; destruct (is_timerange_valid _ _ _); reflexivity).
  apply gives_bind; [apply gives_period; apply H; left; reflexivity|]. intros v _.
  apply gives_bind; [apply IH; intros t' It; apply H; right; assumption|]. intros rest _. apply gives_still.
Qed.

Lemma gives_certificates : forall ca, steady true (cam_valid_for (ca_inner ca)) ->
  gives n0 (certificates_c clock ca true) (Ok (ca_certificates now ca true)).
Proof.
  intros ca H. unfold certificates_c, ca_certificates.
  apply (gives_bind _ _ n0 _ (Ok (is_timerange_valid now (cam_valid_for (ca_inner ca)) true)) _ (fun v => Ok (if v then ca_certs ca else nil))).
  - apply gives_period. assumption.
  - intros v _. apply gives_still.
Qed.

Variable tr : TrustedRootMsg.
Hypothesis steady_tr : forall w, In w (windows tr) -> steady true w.

Lemma steady_tlogs : forall t, In t (tr_tlogs tr) -> steady true (tl_valid_for t).
Proof. intros t I. apply steady_tr. unfold windows. apply in_or_app. left. apply in_map. assumption. Qed.
Lemma steady_ctlogs : forall t, In t (tr_ctlogs tr) -> steady true (tl_valid_for t).
Proof. intros t I. apply steady_tr. unfold windows. rewrite !in_app_iff. right. left. apply in_map. assumption. Qed.
Lemma steady_cas : forall m, In m (tr_cas tr) -> steady true (cam_valid_for m).
Proof. intros t I. apply steady_tr. unfold windows. rewrite !in_app_iff. right. right. left. apply in_map. assumption. Qed.
Lemma steady_tsas : forall m, In m (tr_tsas tr) -> steady true (cam_valid_for m).
Proof. intros t I. apply steady_tr. unfold windows. rewrite !in_app_iff. right. right. right. apply in_map. assumption. Qed.

Lemma gives_rekor : gives n0 (rekor_keyring_c env clock tr VERIFY) (rekor_keyring env now tr VERIFY).
Proof.
  apply (gives_bind _ _ n0 _ (Ok (get_tlog_keys now (tr_tlogs tr) VERIFY)) _
    (fun keys => do* raise_if (Nat.eqb (length keys) 0) EMetadata in make_keyring env keys)).
  - apply gives_tlog_keys. exact steady_tlogs.
  - intros keys _. apply gives_still.
Qed.
Lemma gives_ct : gives n0 (ct_keyring_c env clock tr VERIFY) (ct_keyring env now tr VERIFY).
Proof.
  apply (gives_bind _ _ n0 _ (Ok (get_tlog_keys now (tr_ctlogs tr) VERIFY)) _
    (fun keys => do* raise_if (match keys with nil => true | _ => false end) EMetadata in make_keyring env keys)).
  - apply gives_tlog_keys. exact steady_ctlogs.
  - intros keys _. apply gives_still.
Qed.

Lemma made_inner : forall m ca, make_ca env m = Ok ca -> ca_inner ca = m.
Proof. intros m ca E. unfold make_ca in E. inv_bind E. inv_bind E. inversion E. reflexivity. Qed.

Lemma gives_fulcio_loop : forall l, (forall m, In m l -> steady true (cam_valid_for m)) ->
  gives n0 (fulcio_loop_c env clock l) (fulcio_certs_loop env now l).
Proof.
  induction l as [|m l IH]; intros H; [apply gives_still|]. cbn [fulcio_loop_c fulcio_certs_loop].
  apply gives_bind; [apply gives_still|]. intros ca E.
  change (let* rest := fulcio_certs_loop env now l in Ok (ca_certificates now ca true ++ rest))
    with (let* certs := Ok (ca_certificates now ca true) in let* rest := fulcio_certs_loop env now l in Ok (certs ++ rest)).
  apply gives_bind; [apply gives_certificates; rewrite (made_inner m ca E); apply H; left; reflexivity|]. intros certs _.
  apply gives_bind; [apply IH; intros m' Im; apply H; right; assumption|]. intros rest _. apply gives_still.
Qed.

Lemma gives_make_verifier : gives n0 (make_verifier_c env clock tr) (make_verifier env now tr).
Proof.
  unfold make_verifier_c, make_verifier. apply gives_bind.
  - unfold fulcio_certs_c, get_fulcio_certs. apply gives_bind; [apply gives_fulcio_loop; exact steady_cas|]. intros certs _.
    apply gives_bind; [apply gives_still|]. intros _ _. apply gives_still.
  - intros certs _. apply gives_bind; [apply gives_still|]. intros tlog _. apply gives_still.
Qed.

Lemma gives_timestamp_loop : forall tsr msg cas, (forall ca, In ca cas -> steady true (cam_valid_for (ca_inner ca))) ->
  gives n0 (timestamp_loop_c env clock cas tsr msg) (verify_signed_timestamp_loop env now cas tsr msg).
Proof.
  intros tsr msg. induction cas as [|ca cas IH]; intros H; [apply gives_still|]. cbn [timestamp_loop_c verify_signed_timestamp_loop].
  assert (R : gives n0 (timestamp_loop_c env clock cas tsr msg) (verify_signed_timestamp_loop env now cas tsr msg))
    by (apply IH; intros c Ic; apply H; right; assumption).
  apply (gives_bind _ _ n0 _ (Ok (ca_certificates now ca true)) _ (fun certs =>
    if Nat.ltb (length certs) 2 then verify_signed_timestamp_loop env now cas tsr msg
    else match e_tsa_verify env certs tsr msg with
         | Raise e => if exn_eqb e ERfc3161 then verify_signed_timestamp_loop env now cas tsr msg else Raise e
         | Ok _ => match cam_valid_for (ca_inner ca) with
           | None => Raise EAttribute
           | Some w => if (tr_start w <=? tsr_time tsr)%Z && match tr_end w with None => true | Some e => (tsr_time tsr <? e)%Z end
                       then Ok (Some (mkTime TIMESTAMP_AUTHORITY (tsr_time tsr)))
                       else verify_signed_timestamp_loop env now cas tsr msg
           end
         end)).
  - apply gives_certificates. apply H. left. reflexivity.
  - intros certs _. destruct (Nat.ltb (length certs) 2); [assumption|].
    destruct (e_tsa_verify env certs tsr msg) as [u|e].
    + destruct (cam_valid_for (ca_inner ca)) as [w|]; [|apply gives_still].
      destruct ((tr_start w <=? tsr_time tsr)%Z && _); [apply gives_still|assumption].
    + destruct (exn_eqb e ERfc3161); [assumption|apply gives_still].
Qed.

Lemma gives_collect : forall v b l, vf_root v = tr -> gives n0 (collect_times_c env clock v b l) (collect_times env now v b l).
Proof.
  intros v b l R. induction l as [|t l IH]; [apply gives_still|]. cbn [collect_times_c collect_times].
  apply gives_bind; [apply gives_still|]. intros sg _. apply gives_bind.
  - unfold signed_timestamp_c, verify_signed_timestamp. apply gives_bind; [apply gives_still|]. intros cas E. rewrite R in E.
    apply gives_timestamp_loop. intros ca Ic. apply steady_tsas. apply tsas_iff in E. unfold trusted_tsas in E.
    clear -E Ic. induction E as [|m c l l' (Q & _) F IH]; [destruct Ic|]. destruct Ic as [->|Ic]; [left; auto|right; auto].
  - intros r _. apply gives_bind; [assumption|]. intros rest _. apply gives_still.
Qed.

Lemma gives_establish : forall v b, vf_root v = tr -> gives n0 (establish_time_c env clock v b) (establish_time env now v b).
Proof.
  intros v b R. unfold establish_time_c, establish_time. apply gives_bind; [apply gives_still|]. intros tvd _.
  apply gives_bind.
  - destruct tvd as [l|]; [|apply gives_still]. apply gives_bind; [apply gives_still|]. intros tsas _.
    apply gives_bind; [apply gives_still|]. intros _ _. unfold timestamp_authority_c, verify_timestamp_authority.
    apply gives_bind; [apply gives_still|]. intros tvd' _. apply gives_bind; [apply gives_still|]. intros _ _.
    apply gives_bind; [apply gives_still|]. intros _ _. apply gives_collect. assumption.
  - intros ts _. apply gives_bind; [apply gives_still|]. intros l _. apply gives_still.
Qed.

Lemma gives_common : forall v b p, vf_root v = tr -> gives n0 (common_signing_cert_c env clock v b p) (verify_common_signing_cert env now v b p).
Proof.
  intros v b p R. unfold common_signing_cert_c, verify_common_signing_cert. rewrite R.
  apply gives_bind; [apply gives_establish; assumption|]. intros times _. apply gives_bind; [apply gives_still|]. intros _ _.
  apply gives_bind; [apply gives_still|]. intros chain _. apply gives_bind.
  { apply gives_try. apply gives_bind; [apply gives_ct|]. intros kr _. apply gives_still. }
  intros _ _. apply gives_bind; [apply gives_still|]. intros x _. apply gives_bind; [apply gives_still|]. intros _ _.
  apply gives_bind; [apply gives_still|]. intros _ _. apply gives_bind; [apply gives_still|]. intros _ _. apply gives_bind.
  { apply gives_try. apply gives_bind; [apply gives_rekor|]. intros kr _. apply gives_still. }
  intros _ _. apply gives_still.
Qed.

Lemma gives_artifact : forall v i b p, vf_root v = tr -> gives n0 (verify_artifact_c env ps clock v i b p) (verify_artifact env ps now v i b p).
Proof.
  intros v i b p R. unfold verify_artifact_c, verify_artifact. apply gives_bind; [apply gives_common; assumption|]. intros _ _. apply gives_still.
Qed.
Lemma gives_dsse : forall v b p, vf_root v = tr -> gives n0 (verify_dsse_c env ps clock v b p) (verify_dsse env ps now v b p).
Proof.
  intros v b p R. unfold verify_dsse_c, verify_dsse. apply gives_bind; [apply gives_common; assumption|]. intros _ _. apply gives_still.
Qed.

Lemma gives_by_operator : forall l sup d, (forall s, In s l -> steady false (sv_valid_for s)) ->
  gives n0 (by_operator_c clock l sup d) (Ok (services_by_operator now l sup d)).
Proof.
  induction l as [|s l IH]; intros sup d H; [apply gives_still|]. cbn [by_operator_c services_by_operator].
  assert (R : forall d', gives n0 (by_operator_c clock l sup d') (Ok (services_by_operator now l sup d')))
    by (intros d'; apply IH; intros s' Is; apply H; right; assumption).
  destruct (negb (existsb (Z.eqb (sv_version s)) sup)); [apply R|].
  apply (gives_bind _ _ n0 _ (Ok (is_timerange_valid now (sv_valid_for s) false)) _ (fun v =>
    Ok (if negb v then services_by_operator now l sup d else services_by_operator now l sup (dict_append (sv_operator s) s d)))).
  - apply gives_period. apply H. left. reflexivity.
  - intros v _. destruct (negb v); apply R.
Qed.
Lemma gives_valid_services : forall l sup conf, (forall s, In s l -> steady false (sv_valid_for s)) ->
  gives n0 (valid_services_c clock l sup conf) (get_valid_services now l sup conf).
Proof.
  intros l sup conf H. unfold valid_services_c, get_valid_services.
  match goal with |- gives _ (bind_c _ (fun d => still (@?f d))) _ =>
    apply (gives_bind _ _ n0 _ (Ok (services_by_operator now l sup nil)) _ f) end.
  - apply gives_by_operator. assumption.
  - intros d _. apply gives_still.
Qed.
Lemma gives_signing_config : forall m tv, (forall w, In w (service_windows m) -> steady false w) ->
  gives n0 (make_signing_config_c clock m tv) (make_signing_config now m tv).
Proof.
  intros m tv H.
  assert (W : forall s, In s (scm_tlogs m ++ scm_tsas m ++ scm_cas m ++ scm_oidcs m) -> steady false (sv_valid_for s)).
  { intros s Is. apply H. unfold service_windows. apply in_map. assumption. }
  unfold make_signing_config_c, make_signing_config.
  apply gives_bind; [apply gives_still|]. intros _ _.
  apply gives_bind; [apply gives_valid_services; intros s Is; apply W; rewrite !in_app_iff; auto|]. intros tlogs _.
  apply gives_bind; [apply gives_still|]. intros _ _.
  apply gives_bind; [apply gives_valid_services; intros s Is; apply W; rewrite !in_app_iff; auto|]. intros tsas _.
  apply gives_bind; [apply gives_valid_services; intros s Is; apply W; rewrite !in_app_iff; auto|]. intros fulcios _.
  apply gives_bind; [apply gives_still|]. intros _ _.
  apply gives_bind; [apply gives_valid_services; intros s Is; apply W; rewrite !in_app_iff; auto|]. intros oidcs _.
  apply gives_still.
Qed.
End Run.

Lemma steady_between : forall clock n a z w, runs_between clock n a z -> (started a w <-> started z w) -> steady clock n a true w.
Proof.
  intros clock n a z w R Sm i L. apply same_valid. destruct (R i L) as [La Lz]. split.
  - intros St. apply Sm. intros r E. specialize (St r E). lia.
  - intros St r E. specialize (St r E). lia.
Qed.

Lemma steady_service : forall clock n a z w, runs_between clock n a z ->
  (forall r, w = Some r -> (tr_start r <= a \/ z < tr_start r)%Z /\ forall e, tr_end r = Some e -> (e < a \/ z <= e)%Z) ->
  steady clock n a false w.
Proof.
  intros clock n a z w R Sm i L. destruct (R i L) as [La Lz]. unfold is_timerange_valid. destruct w as [r|]; [|reflexivity].
  destruct (Sm r eq_refl) as [St En]. 
  assert (E1 : (clock i <? tr_start r)%Z = (a <? tr_start r)%Z)
    by (destruct (Z.ltb_spec (clock i) (tr_start r)), (Z.ltb_spec a (tr_start r)); try reflexivity; lia).
  rewrite E1. destruct (a <? tr_start r)%Z; [reflexivity|]. cbn [orb]. destruct (tr_end r) as [e|]; [|reflexivity].
  specialize (En e eq_refl). destruct (Z.leb_spec (clock i) e), (Z.leb_spec a e); try reflexivity; lia.
Qed.

(** ** C95 *)

(** While no window of the trusted root starts, it does not matter how the readings of the clock are
    spread over the call: the result, accepting or not, is that of the model with one reading. *)
Theorem C95_moving_clock : forall env ps clock n tr a z,
  runs_between clock n a z -> same_starts tr a z ->
  fst (make_verifier_c env clock tr n) = make_verifier env a tr /\
  forall v, vf_root v = tr ->
  (forall i b p, fst (verify_artifact_c env ps clock v i b p n) = verify_artifact env ps a v i b p) /\
  (forall b p, fst (verify_dsse_c env ps clock v b p n) = verify_dsse env ps a v b p).
Proof.
  intros env ps clock n tr a z R Sm.
  assert (W : forall w, In w (windows tr) -> steady clock n a true w) by (intros w Iw; apply (steady_between _ _ _ z); auto).
  split; [apply gives_run; apply gives_make_verifier; assumption|]. intros v Rv. split; intros.
  - apply gives_run. apply (gives_artifact env ps clock n a tr W). assumption.
  - apply gives_run. apply (gives_dsse env ps clock n a tr W). assumption.
Qed.

(** The same for the services of a signing configuration, while none starts or ends. *)
Theorem C95_moving_clock_services : forall clock n m version a z,
  runs_between clock n a z -> same_services m a z ->
  fst (make_signing_config_c clock m version n) = make_signing_config a m version.
Proof.
  intros clock n m version a z R Sm. apply gives_run. apply gives_signing_config. intros w Iw.
  apply (steady_service _ _ _ z); [assumption|]. intros r E. apply (Sm w r Iw E).
Qed.

(** The same for the CT log keys that a new signing certificate is checked with (sign.py:177). *)
Theorem C95_moving_clock_signing : forall env clock n tr a z,
  runs_between clock n a z -> same_ct_logs tr a z ->
  fst (ct_keyring_c env clock tr SIGN n) = ct_keyring env a tr SIGN.
Proof.
  intros env clock n tr a z R Sm. apply gives_run.
  apply (gives_bind _ _ n _ (Ok (get_tlog_keys a (tr_ctlogs tr) SIGN)) _
    (fun keys => do* raise_if (match keys with nil => true | _ => false end) EMetadata in make_keyring env keys)); [|intros keys _; apply gives_still].
  assert (H : forall t, In t (tr_ctlogs tr) -> steady clock n a false (tl_valid_for t)).
  { intros t It. apply (steady_service _ _ _ z); [exact R|]. intros r E. apply (Sm t r It E). }
  clear Sm. induction (tr_ctlogs tr) as [|t l IH]; [apply gives_still|]. cbn [tlog_keys_c get_tlog_keys].
  replace (Ok (if is_timerange_valid a (tl_valid_for t) false then tl_key t :: get_tlog_keys a l SIGN else get_tlog_keys a l SIGN))
    with (let* v := Ok (is_timerange_valid a (tl_valid_for t) false) in let* rest := Ok (get_tlog_keys a l SIGN) in
          Ok (if v then tl_key t :: rest else rest)) by (cbn [bind]; destruct (is_timerange_valid _ _ _); reflexivity).
  apply gives_bind; [apply gives_period; apply H; left; reflexivity|]. intros v _.
  apply gives_bind; [apply IH; intros t' It; apply H; right; assumption|]. intros rest _. apply gives_still.
Qed.

(** *** Any clock *)

Lemma bind_c_ok : forall A B (c : Clk A) (k : A -> Clk B) n r n', bind_c c k n = (Ok r, n') ->
  exists a m, c n = (Ok a, m) /\ k a m = (Ok r, n').
Proof. intros A B c k n r n' H. unfold bind_c in H. destruct (c n) as [[a|e] m]; [eauto|discriminate]. Qed.
Lemma still_ok : forall A (r : res A) n a n', still r n = (Ok a, n') -> r = Ok a /\ n' = n.
Proof. intros A r n a n' H. unfold still in H. inversion H. auto. Qed.
Lemma try_c_ok : forall A (c : Clk A) cls h n a n', (forall e, exists x, h e = Raise x) -> try_c c cls h n = (Ok a, n') -> c n = (Ok a, n').
Proof.
  intros A c cls h n a n' Hr H. unfold try_c in H. destruct (c n) as [[x|e] m]; [assumption|]. destruct (Hr e) as (y & Hy).
  rewrite Hy in H. destruct (cls e); discriminate.
Qed.

Lemma wider : forall clock n n' m m' w, n <= m -> m' <= n' -> started_during clock m m' w -> started_during clock n n' w.
Proof. intros clock n n' m m' w A B (j & J & S). exists j. split; [lia|assumption]. Qed.

Section Any.
Variable env : Env.
Variable ps : Parsers.
Variable clock : nat -> time.

Lemma period_ok : forall w ax n v n', in_period clock w ax n = (Ok v, n') ->
  n' = S n /\ v = is_timerange_valid (clock n) w ax.
Proof. intros w ax n v n' H. unfold in_period in H. inversion H. auto. Qed.

Lemma tlog_keys_any : forall l n ms n', tlog_keys_c clock l VERIFY n = (Ok ms, n') -> n <= n' /\ keys_started clock n n' l ms.
Proof.
  induction l as [|t l IH]; intros n ms n' H; cbn [tlog_keys_c] in H.
  - apply still_ok in H. destruct H as [E ->]. inversion E. split; [apply le_n|intros m []].
  - apply bind_c_ok in H. destruct H as (v & m1 & P & H). apply period_ok in P. destruct P as [-> V].
    apply bind_c_ok in H. destruct H as (rest & m2 & T & H). apply still_ok in H. destruct H as [E ->]. inversion E; subst ms. clear E.
    destruct (IH _ _ _ T) as [L K]. split; [lia|].
    assert (K' : forall m, In m rest -> exists t', In t' (t :: l) /\ tl_key t' = m /\ started_during clock n m2 (tl_valid_for t')).
    { intros m Im. destruct (K m Im) as (t' & It & Q & Sd). exists t'. split; [right; assumption|]. split; [assumption|].
      eapply wider; [| |exact Sd]; lia. }
    intros m Im. destruct v; [|auto]. destruct Im as [<-|Im]; [|auto]. exists t. split; [left; reflexivity|]. split; [reflexivity|].
    exists n. split; [lia|]. apply started_iff. symmetry. assumption.
Qed.

Lemma open_any : forall l n ms n', tlog_keys_c clock l SIGN n = (Ok ms, n') ->
  n <= n' /\ forall m, In m ms -> exists t, In t l /\ tl_key t = m /\ open_during clock n n' (tl_valid_for t).
Proof.
  induction l as [|t l IH]; intros n ms n' H; cbn [tlog_keys_c] in H.
  - apply still_ok in H. destruct H as [E ->]. inversion E. split; [apply le_n|intros m []].
  - apply bind_c_ok in H. destruct H as (v & m1 & P & H). apply period_ok in P. destruct P as [-> V].
    apply bind_c_ok in H. destruct H as (rest & m2 & T & H). apply still_ok in H. destruct H as [E ->]. inversion E; subst ms. clear E.
    destruct (IH _ _ _ T) as [L K]. split; [lia|].
    assert (K' : forall m, In m rest -> exists t', In t' (t :: l) /\ tl_key t' = m /\ open_during clock n m2 (tl_valid_for t')).
    { intros m Im. destruct (K m Im) as (t' & It & Q & j & J & Sd). exists t'. split; [right; assumption|]. split; [assumption|].
      exists j. split; [lia|exact Sd]. }
    intros m Im. destruct v; [|auto]. destruct Im as [<-|Im]; [|auto]. exists t. split; [left; reflexivity|]. split; [reflexivity|].
    exists n. split; [lia|]. intros r E. symmetry in V. apply C13_validity_window in V. rewrite E in V.
    destruct V as [B [X|D]]; [discriminate X|]. split; [exact B|]. intros e Ee. rewrite Ee in D. exact D.
Qed.

Lemma certificates_any : forall ca n certs n', certificates_c clock ca true n = (Ok certs, n') ->
  n' = S n /\ certs = ca_certificates (clock n) ca true.
Proof.
  intros ca n certs n' H. apply bind_c_ok in H. destruct H as (v & m1 & P & H). apply period_ok in P. destruct P as [-> ->].
  apply still_ok in H. destruct H as [E ->]. inversion E. split; reflexivity.
Qed.

Lemma loop_any : forall token sg cas n r n', timestamp_loop_c env clock cas token sg n = (Ok r, n') ->
  n <= n' /\ forall t, r = Some t -> t_time t = tsr_time token /\ t_source t = TIMESTAMP_AUTHORITY /\ exists ca, In ca cas /\
    e_tsa_verify env (ca_certs ca) token sg = Ok tt /\ in_window (cam_valid_for (ca_inner ca)) (tsr_time token) /\
    started_during clock n n' (cam_valid_for (ca_inner ca)).
Proof.
  intros token sg. induction cas as [|ca cas IH]; intros n r n' H; cbn [timestamp_loop_c] in H.
  - apply still_ok in H. destruct H as [E ->]. inversion E. split; [apply le_n|discriminate].
  - apply bind_c_ok in H. destruct H as (certs & m1 & P & H). apply certificates_any in P. destruct P as [-> V].
    assert (Rest : timestamp_loop_c env clock cas token sg (S n) = (Ok r, n') ->
      n <= n' /\ forall t, r = Some t -> t_time t = tsr_time token /\ t_source t = TIMESTAMP_AUTHORITY /\ exists ca0, In ca0 (ca :: cas) /\
        e_tsa_verify env (ca_certs ca0) token sg = Ok tt /\ in_window (cam_valid_for (ca_inner ca0)) (tsr_time token) /\
        started_during clock n n' (cam_valid_for (ca_inner ca0))).
    { intros H'. destruct (IH _ _ _ H') as [L K]. split; [lia|]. intros t E. destruct (K t E) as (A & B & ca0 & I0 & C & D & F).
      split; [assumption|]. split; [assumption|]. exists ca0. split; [right; assumption|]. split; [assumption|]. split; [assumption|].
      eapply wider; [| |exact F]; lia. }
    destruct (Nat.ltb (length certs) 2) eqn:Ln; [auto|]. rewrite V in Ln. apply ready_iff in Ln.
    rewrite (ready_certs _ _ Ln) in V. subst certs.
    destruct (e_tsa_verify env (ca_certs ca) token sg) as [[]|e] eqn:Tv.
    + destruct (cam_valid_for (ca_inner ca)) as [w|] eqn:W; [|apply still_ok in H; destruct H; discriminate].
      pose proof (window_bool w (tsr_time token)) as WB. destruct ((tr_start w <=? tsr_time token)%Z && _); [|auto].
      apply still_ok in H. destruct H as [E ->]. inversion E; subst r. split; [lia|]. intros t Q. inversion Q; subst t.
      split; [reflexivity|]. split; [reflexivity|]. exists ca. split; [left; reflexivity|]. split; [assumption|]. rewrite W.
      split; [apply WB; reflexivity|]. exists n. split; [lia|]. rewrite <- W. apply Ln.
    + destruct (exn_eqb e ERfc3161); [auto|]. apply still_ok in H. destruct H. discriminate.
Qed.

(** what is known of a time from a timestamp *)
Definition stamped_ok (n n' : nat) (v : Verifier) (b : Bundle) (tokens : list TSR) (t : TimeResult) : Prop :=
  exists token sg cas ca, In token tokens /\ tsr_time token = t_time t /\
    signature_of b sg /\ trusted_tsas env (vf_root v) cas /\ In ca cas /\
    e_tsa_verify env (ca_certs ca) token sg = Ok tt /\ in_window (cam_valid_for (ca_inner ca)) (t_time t) /\
    started_during clock n n' (cam_valid_for (ca_inner ca)).

Lemma collect_any : forall v b l n ts n', collect_times_c env clock v b l n = (Ok ts, n') ->
  n <= n' /\ forall t, In t ts -> stamped_ok n n' v b l t.
Proof.
  intros v b. induction l as [|token l IH]; intros n ts n' H; cbn [collect_times_c] in H.
  - apply still_ok in H. destruct H as [E ->]. inversion E. split; [apply le_n|intros t []].
  - apply bind_c_ok in H. destruct H as (sg & m0 & P & H). apply still_ok in P. destruct P as [Sg ->].
    apply bind_c_ok in H. destruct H as (r & m1 & P & H). unfold signed_timestamp_c in P.
    apply bind_c_ok in P. destruct P as (cas & m2 & Q & P). apply still_ok in Q. destruct Q as [Tr ->].
    apply bind_c_ok in H. destruct H as (rest & m3 & Cr & H). apply still_ok in H. destruct H as [E ->]. inversion E; subst ts. clear E.
    apply loop_any in P. destruct P as [L1 P]. destruct (IH _ _ _ Cr) as [L2 K]. split; [lia|].
    assert (K' : forall t, In t rest -> stamped_ok n m3 v b (token :: l) t).
    { intros t It. destruct (K t It) as (tk & sg' & cas' & ca & A & B & C & D & F & G & W & Sd). exists tk, sg', cas', ca.
      split; [right; assumption|]. split; [assumption|]. split; [assumption|]. split; [assumption|]. split; [assumption|]. split; [assumption|].
      split; [assumption|]. eapply wider; [| |exact Sd]; lia. }
    intros t It. destruct r as [t0|]; [|auto]. destruct It as [<-|It]; [|auto].
    destruct (P t0 eq_refl) as (A & B & ca & Ic & C & D & Sd). exists token, sg, cas, ca. split; [left; reflexivity|].
    split; [symmetry; assumption|]. split; [apply signature_iff; assumption|]. split; [apply tsas_iff; assumption|]. split; [assumption|].
    split; [assumption|]. rewrite A. split; [assumption|]. eapply wider; [| |exact Sd]; lia.
Qed.

Lemma log_part : forall e l,
  (if has_set e then
     do* raise_if (negb ((str_eqb (le_kind e) (s2l "dsse") || str_eqb (le_kind e) (s2l "hashedrekord")) &&
                         str_eqb (le_version e) (s2l "0.0.1"))) EVerification in
     match le_integrated_time e with
     | Some t => let* tm := fromtimestamp t in Ok [mkTime TRANSPARENCY_SERVICE tm]
     | None => Ok nil
     end
   else Ok nil) = Ok l -> log_times e (map t_time l).
Proof.
  intros e l H. destruct (has_set e) eqn:HS.
  - apply has_set_iff in HS. destruct HS as (t & set & It & Nz & Pr). rewrite It in H.
    inv_bind H. inv_bind H. inversion H; subst l. apply raise_if_ok in Ha. apply negb_false_iff in Ha.
    apply andb_true_iff in Ha. destruct Ha as [K V]. apply orb_true_iff in K. rewrite !str_eqb_spec in K. apply str_eqb_spec in V.
    apply fromtimestamp_iff in Ha0. destruct Ha0 as [R ->]. right. exists t, set. repeat split; auto; lia.
  - inversion H. left. split; [reflexivity|]. unfold has_set in HS. destruct (le_promise e); [|auto].
    destruct (le_integrated_time e) as [t|]; [|auto]. apply negb_false_iff in HS. apply Z.eqb_eq in HS. subst. auto.
Qed.

Lemma establish_any : forall v b n ts n', establish_time_c env clock v b n = (Ok ts, n') ->
  n <= n' /\ exists stamped logged, map t_time ts = stamped ++ logged /\ log_times (b_entry b) logged /\
    forall t, In t stamped -> exists raw token sg cas ca,
      In raw (vm_timestamps (bm_vm (b_inner b))) /\ e_decode_tsr env raw = Ok token /\ tsr_time token = t /\
      signature_of b sg /\ trusted_tsas env (vf_root v) cas /\ In ca cas /\
      e_tsa_verify env (ca_certs ca) token sg = Ok tt /\ in_window (cam_valid_for (ca_inner ca)) t /\
      started_during clock n n' (cam_valid_for (ca_inner ca)).
Proof.
  intros v b n ts n' H. unfold establish_time_c in H.
  apply bind_c_ok in H. destruct H as (tvd & m0 & P & H). apply still_ok in P. destruct P as [T ->].
  apply bind_c_ok in H. destruct H as (fts & m1 & P & H).
  apply bind_c_ok in H. destruct H as (fl & m2 & Q & H). apply still_ok in Q. destruct Q as [Fl ->].
  apply still_ok in H. destruct H as [E ->]. inversion E; subst ts. clear E.
  apply log_part in Fl. destruct tvd as [tokens|].
  - apply timestamp_data_iff in T. destruct T as [_ F].
    apply bind_c_ok in P. destruct P as (tsas & m3 & Q & P). apply still_ok in Q. destruct Q as [_ ->].
    apply bind_c_ok in P. destruct P as (u & m3 & Q & P). apply still_ok in Q. destruct Q as [_ ->].
    unfold timestamp_authority_c in P.
    apply bind_c_ok in P. destruct P as (tvd & m3 & Q & P). apply still_ok in Q. destruct Q as [T ->].
    apply bind_c_ok in P. destruct P as (u1 & m3 & Q & P). apply still_ok in Q. destruct Q as [_ ->].
    apply bind_c_ok in P. destruct P as (u2 & m3 & Q & P). apply still_ok in Q. destruct Q as [_ ->].
    apply collect_any in P. destruct P as [L P]. split; [assumption|].
    exists (map t_time fts), (map t_time fl). split; [apply map_app|]. split; [assumption|].
    intros t It. apply in_map_iff in It. destruct It as (tm & <- & It). destruct (P tm It) as (token & sg & cas & ca & A & B & C).
    destruct tvd as [tokens'|]; [|destruct A]. apply timestamp_data_iff in T. destruct T as [_ F'].
    destruct (Forall2_in_r _ _ _ _ _ F' token A) as (raw & Ir & De). exists raw, token, sg, cas, ca. auto.
  - apply still_ok in P. destruct P as [E ->]. inversion E; subst fts. split; [apply le_n|].
    exists nil, (map t_time fl). split; [reflexivity|]. split; [assumption|]. intros t [].
Qed.

Lemma common_any : forall v b p n n', common_signing_cert_c env clock v b p n = (Ok tt, n') -> relied_on_started env clock n n' v b.
Proof.
  intros v b p n n' H. unfold common_signing_cert_c in H.
  apply bind_c_ok in H. destruct H as (times & m0 & Et & H).
  apply bind_c_ok in H. destruct H as (u0 & m1 & Q & H). apply still_ok in Q. destruct Q as [L ->].
  apply bind_c_ok in H. destruct H as (chain & m1 & Q & H). apply still_ok in Q. destruct Q as [Ch ->].
  apply bind_c_ok in H. destruct H as (u1 & m1 & Sc & H). apply try_c_ok in Sc; [|intros e; exists EVerification; reflexivity].
  apply bind_c_ok in H. destruct H as (x & m2 & Q & H). apply still_ok in Q. destruct Q as [_ ->].
  apply bind_c_ok in H. destruct H as (u2 & m2 & Q & H). apply still_ok in Q. destruct Q as [_ ->].
  apply bind_c_ok in H. destruct H as (u3 & m2 & Q & H). apply still_ok in Q. destruct Q as [_ ->].
  apply bind_c_ok in H. destruct H as (u4 & m2 & Q & H). apply still_ok in Q. destruct Q as [_ ->].
  apply bind_c_ok in H. destruct H as (u5 & m2 & En & H). apply try_c_ok in En; [|intros e; exists EVerification; reflexivity].
  apply still_ok in H. destruct H as [W ->].
  apply establish_any in Et. destruct Et as [L0 (stamped & logged & Em & Lg & St)].
  unfold ct_keyring_c in Sc. apply bind_c_ok in Sc. destruct Sc as (ct & m3 & Ck & Sc). apply still_ok in Sc. destruct Sc as [Sc <-].
  apply bind_c_ok in Ck. destruct Ck as (cms & m3 & Tk & Ck). apply still_ok in Ck. destruct Ck as [Ck <-].
  apply tlog_keys_any in Tk. destruct Tk as [L1 Kc].
  unfold rekor_keyring_c in En. apply bind_c_ok in En. destruct En as (rk & m4 & Rk & En). apply still_ok in En. destruct En as [En <-].
  apply bind_c_ok in Rk. destruct Rk as (rms & m4 & Tk & Rk). apply still_ok in Rk. destruct Rk as [Rk <-].
  apply tlog_keys_any in Tk. destruct Tk as [L2 Kr].
  assert (Widen : forall l ms a z, keys_started clock a z l ms -> n <= a -> z <= m2 -> keys_started clock n m2 l ms).
  { intros l ms a z K La Lz m Im. destruct (K m Im) as (t & A & B & C). exists t. split; [assumption|]. split; [assumption|].
    eapply wider; [| |exact C]; assumption. }
  apply bind_ok_inv in Ck. destruct Ck as (? & _ & Ck). apply bind_ok_inv in Rk. destruct Rk as (? & _ & Rk). destruct u1, u5.
  split; [|split].
  - exists cms, ct, chain. split; [apply (Widen _ _ _ _ Kc); lia|]. auto.
  - exists rms, rk. split; [apply (Widen _ _ _ _ Kr); lia|]. auto.
  - exists stamped, logged. rewrite <- Em. split; [|split; [assumption|split]].
    + intros Q. apply map_eq_nil in Q. subst times. discriminate.
    + intros t It. apply in_map_iff in It. destruct It as (tm & <- & It). rewrite for_each_ok in W. specialize (W _ It).
      apply raise_if_ok in W. apply negb_false_iff in W. apply andb_true_iff in W. rewrite !Z.leb_le in W. assumption.
    + intros t It. destruct (St t It) as (raw & token & sg & cas & ca & A & B & C & D & E & F & G & I0 & J).
      exists raw, token, sg, cas, ca. repeat (split; [assumption|]). eapply wider; [| |exact J]; lia.
Qed.
End Any.

(** Whatever the clock does, a signing certificate is checked only with keys of CT logs whose window was open,
    not expired, when the clock was read. *)
Theorem C95_nothing_expired : forall env clock tr n kr n',
  ct_keyring_c env clock tr SIGN n = (Ok kr, n') ->
  exists ms, make_keyring env ms = Ok kr /\ ms <> nil /\
    forall m, In m ms -> exists t, In t (tr_ctlogs tr) /\ tl_key t = m /\ open_during clock n n' (tl_valid_for t).
Proof.
  intros env clock tr n kr n' H. apply bind_c_ok in H. destruct H as (ms & k & T & H). apply still_ok in H. destruct H as [H ->].
  destruct (open_any _ _ _ _ _ T) as [_ K]. exists ms. destruct ms as [|m ms]; [discriminate|]. split; [exact H|]. split; [discriminate|exact K].
Qed.

(** However the clock moves, even backwards: an accepting call relied only on keys and authorities
    whose window had started when the clock was read during the call. *)
Theorem C95_nothing_early : forall env ps clock v b p n n',
  (forall i, verify_artifact_c env ps clock v i b p n = (Ok tt, n') -> relied_on_started env clock n n' v b) /\
  (forall r, verify_dsse_c env ps clock v b p n = (Ok r, n') -> relied_on_started env clock n n' v b).
Proof.
  intros env ps clock v b p n n'. split.
  - intros i H. unfold verify_artifact_c in H. apply bind_c_ok in H. destruct H as ([] & m & C & H).
    apply still_ok in H. destruct H as [_ ->]. eapply common_any. exact C.
  - intros r H. unfold verify_dsse_c in H. apply bind_c_ok in H. destruct H as ([] & m & C & H).
    apply still_ok in H. destruct H as [_ ->]. eapply common_any. exact C.
Qed.

(** An accepting call while windows start need not agree with any single moment: here the key of the
    log starts while the bundle is verified, and at the same moment the key of the CT log is
    replaced by one for another hash. *)
Definition ck_start : time := 1900000000000000%Z.
Definition ck_tr : TrustedRootMsg :=
  mkTR TRUSTED_ROOT_0_1
    [mkTLog (mkPKM (Some cx_key) PKIX_ECDSA_P256_SHA_256) (Some (mkTimeRange ck_start None)) (s2l "https://rekor.example")]
    (tr_ctlogs vx_tr ++ [mkTLog (mkPKM (Some sx_ct_key) PKIX_ECDSA_P384_SHA_384) (Some (mkTimeRange ck_start None)) (s2l "https://ct.example")])
    (tr_cas vx_tr) (tr_tsas vx_tr).
Definition ck_v : Verifier := mkVerifier [vx_issuer] ck_tr (s2l "https://rekor.example").
Definition ck_clock (n : nat) : time := (1899999999999998 + Z.of_nat n)%Z.
Theorem C95_some_moment_refuted :
  exists env ps clock v i b p n',
    (forall j, (clock j < clock (S j))%Z) /\
    verify_artifact_c env ps clock v i b p 0 = (Ok tt, n') /\
    forall now, verify_artifact env ps now v i b p <> Ok tt.
Proof.
  exists vx_env, vx_parsers, ck_clock, ck_v, (In_bytes vx_input), vx_artifact1, vx_policy. eexists.
  split; [intros j; unfold ck_clock; lia|]. split; [vm_compute; reflexivity|].
  intros now.
  assert (R : exists now', same_starts ck_tr now now' /\ (now' = 0 \/ now' = -1 \/ now' = ck_start)%Z).
  { destruct (Z_lt_le_dec now 0); [|destruct (Z_lt_le_dec now ck_start)].
    - exists (-1)%Z. split; [|auto]. intros w Iw.
      repeat (destruct Iw as [<-|Iw]; [split; intros H r E; specialize (H r E); inversion E; subst r; cbn [tr_start] in *; unfold ck_start in *; lia|]). destruct Iw.
    - exists 0%Z. split; [|auto]. intros w Iw.
      repeat (destruct Iw as [<-|Iw]; [split; intros H r E; specialize (H r E); inversion E; subst r; cbn [tr_start] in *; unfold ck_start in *; lia|]). destruct Iw.
    - exists ck_start. split; [|auto]. intros w Iw.
      repeat (destruct Iw as [<-|Iw]; [split; intros H r E; specialize (H r E); inversion E; subst r; cbn [tr_start] in *; unfold ck_start in *; lia|]). destruct Iw. }
  destruct R as (now' & Sm & D). destruct (C74_changes_only_at_starts vx_env vx_parsers ck_tr now now' Sm) as [_ H].
  destruct (H ck_v eq_refl) as [E _]. rewrite E. destruct D as [->|[->| ->]]; vm_compute; discriminate.
Qed.

(** *** Concrete cases *)
Definition cl_still (n : nat) : time := (vx_now + Z.of_nat (Nat.min n 40))%Z.
Example ex_moving : runs_between cl_still 0 vx_now (vx_now + 40)%Z /\ same_starts vx_tr vx_now (vx_now + 40)%Z /\
  verify_artifact_c vx_env vx_parsers cl_still vx_verifier (In_bytes vx_input) vx_artifact2 vx_policy 0 = (Ok tt, 4).
Proof.
  split; [intros i _; unfold cl_still; lia|]. split; [|vm_compute; reflexivity].
  intros w Iw. cbn in Iw. unfold vx_now.
  repeat (destruct Iw as [<-|Iw]; [split; intros H r E; specialize (H r E); inversion E; subst r; cbn [tr_start] in *; unfold vx_now in *; lia|]). destruct Iw.
Qed.

(** A handover between two logs: at every moment one of them can be used, yet a configuration read
    while the clock passes the handover can have none. *)
Definition hand_over : SigningConfigMsg :=
  sc_msg [mkService (s2l "https://new") 2 (Some (mkTimeRange 11%Z None)) (s2l "a");
          mkService (s2l "https://old") 2 (Some (mkTimeRange 0%Z (Some 10%Z))) (s2l "a")] None.
Theorem C95_some_moment_services_refuted :
  exists clock m, (forall j, (clock j < clock (S j))%Z) /\
    (forall now, (0 <= now)%Z -> exists sc, make_signing_config now m None = Ok sc) /\
    fst (make_signing_config_c clock m None 0) = Raise EError.
Proof.
  exists (fun n => 10 + Z.of_nat n)%Z, hand_over. split; [intros j; lia|]. split; [|vm_compute; reflexivity].
  intros now L. unfold make_signing_config, get_valid_services, services_by_operator, is_timerange_valid, hand_over. cbn.
  destruct (Z.ltb_spec now 11); cbn.
  - destruct (Z.ltb_spec now 0); [lia|]. destruct (Z.leb_spec now 10); [|lia]. cbn. eexists. reflexivity.
  - destruct (Z.ltb_spec now 0); [lia|]. destruct (Z.leb_spec now 10); cbn; eexists; reflexivity.
Qed.
Example ex_moving_services : runs_between (fun n => 12 + Z.of_nat (Nat.min n 40))%Z 0 12%Z 60%Z /\ same_services hand_over 12%Z 60%Z /\
  fst (make_signing_config_c (fun n => 12 + Z.of_nat (Nat.min n 40))%Z hand_over None 0) = make_signing_config 12%Z hand_over None.
Proof.
  split; [intros i _; lia|]. split.
  - intros w r Iw E. subst w. cbn in Iw. destruct Iw as [Q|[Q|[Q|[Q|[]]]]]; inversion Q; subst r; cbn [tr_start tr_end]; split; try lia; intros e E; inversion E; lia.
  - vm_compute. reflexivity.
Qed.

(** hypotheses of [C95_moving_clock_signing] and [C95_nothing_expired]: a log that ends while the clock runs is no longer used *)
Definition cx_root (e : time) : TrustedRootMsg :=
  mkTR (tr_media_type vx_tr) (tr_tlogs vx_tr)
    (map (fun t => mkTLog (tl_key t) (Some (mkTimeRange 0%Z (Some e))) (tl_base_url t)) (tr_ctlogs vx_tr)) (tr_cas vx_tr) (tr_tsas vx_tr).
Example ex_signing_keys :
  runs_between cl_still 0 vx_now (vx_now + 40)%Z /\ same_ct_logs (cx_root (vx_now + 40)%Z) vx_now (vx_now + 40)%Z /\
  (exists kr n', ct_keyring_c vx_env cl_still (cx_root (vx_now + 40)%Z) SIGN 0 = (Ok kr, n')) /\
  ct_keyring_c vx_env cl_still (cx_root (vx_now - 1)%Z) SIGN 0 = (Raise EMetadata, 1).
Proof.
  split; [intros i _; unfold cl_still; lia|]. split; [|split; [eexists; eexists; vm_compute; reflexivity|vm_compute; reflexivity]].
  intros t r It E. cbn [cx_root tr_ctlogs] in It. apply in_map_iff in It as (t' & <- & _). cbn [tl_valid_for] in E. injection E as <-. cbn [tr_start tr_end].
  split; [left; unfold vx_now; lia|]. intros e Q. injection Q as <-. right. unfold vx_now. lia.
Qed.

Print Assumptions C95_some_moment_services_refuted.
Print Assumptions C95_moving_clock.
Print Assumptions C95_moving_clock_services.
Print Assumptions C95_nothing_early.
Print Assumptions C95_moving_clock_signing.
Print Assumptions C95_nothing_expired.
Print Assumptions C95_some_moment_refuted.
