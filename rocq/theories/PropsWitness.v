(** Property C98: which services must be honest.  One honest witness of the time is enough. *)
From Verif Require Import Base Codec CodecMore Messages ToyHash Env Keyring KeyringProofs PropsKeyring
  MerkleSpec PyText Checkpoint CheckpointProofs PropsCheckpoint LogEntry PropsLogEntry Cert PropsCert Dsse PropsDsse
  KeyDetails Policy PropsPolicy TrustedRoot PropsTrustedRoot Hashing Bundle PropsBundle Verifier VerifierSpec PropsVerifier
  PropsAuthentic ToyEnv ToyBundles.

(** ** Specification

    [History], [honest_ca], [careful], [unforgeable], [carries] and [ever] are those of C77. *)

(** This one timestamp authority gives a token with a time, in its window, only for data that
    existed. *)
Definition honest_tsa (env : Env) (h : History) (ca : CA) : Prop :=
  forall raw tok msg, ever h raw -> e_decode_tsr env raw = Ok tok ->
  e_tsa_verify env (ca_certs ca) tok msg = Ok tt -> in_window (cam_valid_for (ca_inner ca)) (tsr_time tok) ->
  hs_existed h msg (tsr_time tok).

(** This one log's key signs promises only for entries it accepted, and what an accepted entry
    contains existed when it was accepted. *)
Definition honest_promises (env : Env) (ps : Parsers) (h : History) (k : pubkey) (s : sig_scheme) : Prop :=
  (forall set body secs id index, ever h set ->
     e_sig_verify env s k set (ascii_bytes (set_text body secs id index)) = Ok tt -> hs_logged h k body secs) /\
  (forall body secs sg, hs_logged h k body secs -> body_contains ps body sg -> hs_existed h sg (secs * 1000000)%Z).

(** One of the bundle's timestamps is from an honest authority. *)
Definition tsa_witness (env : Env) (h : History) (now : time) (tr : TrustedRootMsg) (b : Bundle) (t : time) : Prop :=
  exists cas ca raw tok sg, trusted_tsas env tr cas /\ In ca cas /\ honest_tsa env h ca /\
    In raw (vm_timestamps (bm_vm (b_inner b))) /\ e_decode_tsr env raw = Ok tok /\ t = tsr_time tok /\
    signature_of b sg /\ vouches env now ca tok sg.

(** The entry has a promise with a time, and the trusted logs whose keys verify it are honest. *)
Definition log_witness (env : Env) (ps : Parsers) (h : History) (now : time) (tr : TrustedRootMsg) (b : Bundle) (t : time) : Prop :=
  exists secs set, le_integrated_time (b_entry b) = Some secs /\ secs <> 0%Z /\ t = (secs * 1000000)%Z /\
    le_promise (b_entry b) = Some set /\
    forall ms k s, rekor_keys now tr ms -> registered env ms k s ->
      e_sig_verify env s k set (ascii_bytes (set_text (le_body (b_entry b)) secs (le_log_id (b_entry b)) (le_log_index (b_entry b)))) = Ok tt ->
      honest_promises env ps h k s.

Definition honest_witness (env : Env) (ps : Parsers) (h : History) (now : time) (tr : TrustedRootMsg) (b : Bundle) (t : time) : Prop :=
  tsa_witness env h now tr b t \/ log_witness env ps h now tr b t.

(** ** Proofs *)

Lemma signature_of_fun : forall b x y, signature_of b x -> signature_of b y -> x = y.
Proof.
  intros b x y X Y. unfold signature_of in *. destruct (bm_env (b_inner b)); [destruct X, Y; congruence|].
  destruct X as (? & ? & ?), Y as (? & ? & ?); congruence.
Qed.

Lemma trusted_tsas_fun : forall env tr x y, trusted_tsas env tr x -> trusted_tsas env tr y -> x = y.
Proof. intros env tr x y X Y. apply tsas_iff in X, Y. congruence. Qed.

(** A token for which some authority vouches contributes its time. *)
Lemma vouched_counts : forall env now cas msg tokens ts, token_times env now cas msg tokens ts ->
  forall tok ca, In tok tokens -> In ca cas -> vouches env now ca tok msg -> In (tsr_time tok) ts.
Proof.
  intros env now cas msg tokens ts H. induction H as [|t tm l ts T H IH|t l ts T H IH]; intros tok ca It Ic V.
  - destruct It.
  - destruct It as [->|It]; [destruct T as [-> _]; left; reflexivity|right; eauto].
  - destruct It as [->|It]; [exfalso; exact (declines_not_vouches _ _ _ _ _ (T ca Ic) V)|eauto].
Qed.

Lemma witness_counts : forall env ps h now v b p times t,
  signer_accepted env now v b p times -> honest_witness env ps h now (vf_root v) b t -> In t times.
Proof.
  intros env ps h now v b p times t ((ts1 & ts2 & -> & A & B) & _) [W|W]; apply in_or_app.
  - left. destruct W as (cas & ca & raw & tok & sg & Tr & Ic & _ & Ir & D & -> & Sg & V).
    destruct A as [[E _]|(tokens & cas' & sg' & _ & F & _ & _ & Tr' & _ & Sg' & T)]; [rewrite E in Ir; destruct Ir|].
    rewrite (signature_of_fun _ _ _ Sg Sg') in V. rewrite (trusted_tsas_fun _ _ _ _ Tr Tr') in Ic.
    destruct (Forall2_in_l _ _ _ _ _ F raw Ir) as (tok' & It & D'). assert (tok' = tok) as -> by congruence.
    eapply vouched_counts; eassumption.
  - right. destruct W as (secs & set & It & Nz & -> & Pr & _).
    destruct B as [[_ [Q|[Q|Q]]]|(secs' & set' & It' & _ & _ & _ & _ & _ & ->)]; [congruence|congruence|congruence|].
    left. congruence.
Qed.

(** What an honest witness saw existed. *)
Lemma witness_saw : forall env ps h now v m b p times sg t,
  make_bundle env m = Ok b -> (forall x, carries m x -> ever h x) ->
  signer_accepted env now v b p times -> signature_of b sg ->
  (le_version (b_entry b) = s2l "0.0.1" -> body_contains ps (le_body (b_entry b)) sg) ->
  honest_witness env ps h now (vf_root v) b t -> hs_existed h sg t.
Proof.
  intros env ps h now v m b p times sg t Mb Ev A Sg Bc [W|W].
  - destruct W as (cas & ca & raw & tok & sg' & _ & _ & Ho & Ir & D & -> & Sg' & _ & V & Wi).
    rewrite (signature_of_fun _ _ _ Sg Sg'). eapply Ho; try eassumption. apply Ev. right. right. left.
    apply C34_bundle_iff in Mb. destruct Mb as (<- & _). assumption.
  - destruct W as (secs & set & It & Nz & -> & Pr & Ho).
    destruct A as ((ts1 & ts2 & _ & _ & B) & _ & _ & _ & _ & (rk & Rk & En) & _).
    destruct B as [[_ [Q|[Q|Q]]]|(secs' & set' & _ & _ & _ & _ & Ve & _)]; [congruence|congruence|congruence|].
    apply rekor_keyring_keys in Rk. destruct Rk as (ms & K & M).
    apply C09_entry_verification_complete in En. destruct En as (_ & _ & Set_).
    destruct (Set_ _ _ Pr It Nz) as (_ & _ & Kv).
    destruct (C10_accepted_means_trusted_key _ _ _ _ _ _ _ M Kv) as (k & s & R & V & _).
    destruct (Ho ms k s K R V) as [H1 H2]. eapply H2; [|exact (Bc Ve)].
    eapply H1; [|exact V]. apply Ev. eapply promise_carried; eassumption.
Qed.

(** The artifact was signed, no later than the honest witness says and before the certificate
    expired, with the key of a person whom the expected issuer confirmed to be the expected
    identity.  Nothing is asked of the other timestamp authorities and logs, nor of the CT logs. *)
Theorem C98_artifact_one_honest_witness : forall env ps h now v m b a identity issuer tw,
  honest_ca env h (vf_fulcio v) -> honest_witness env ps h now (vf_root v) b tw ->
  make_bundle env m = Ok b -> (forall x, carries m x -> ever h x) -> bm_env m = None -> issuer <> nil ->
  verify_artifact env ps now v (In_bytes a) b (P_identity identity (Some issuer)) = Ok tt ->
  (c_not_before (b_cert b) <= tw <= c_not_after (b_cert b))%Z /\
  exists who t0 key, hs_login h who identity issuer t0 /\ hs_issued h (b_cert b) who t0 /\ c_pubkey (b_cert b) = Ok key /\
    (careful h who -> unforgeable env h key ->
     exists t, (t <= tw)%Z /\ hs_signed h key (e_hash env SHA256 a) t).
Proof.
  intros env ps h now v m b a identity issuer tw Ca Wi Mb Ev Ne Ni V.
  apply artifact_accepted_iff in V. destruct V as ((times & A) & ms & key & d & Ms & Hd & _ & Key & Sv & Rec).
  cbn [sha256_digest] in Hd. injection Hd as <-.
  pose proof (witness_counts _ _ _ _ _ _ _ _ _ A Wi) as It. pose proof A as (_ & _ & _ & _ & _ & _ & W). specialize (W tw It).
  split; [assumption|].
  destruct (signer_identified _ _ _ _ _ _ _ _ _ Mb Ev Ca Ni A) as (who & t0 & Is & Lo).
  exists who, t0, key. split; [assumption|]. split; [assumption|]. split; [assumption|]. intros Cf Uf.
  assert (Sg : signature_of b (ms_signature ms)).
  { apply C34_bundle_iff in Mb. destruct Mb as (<- & _). unfold signature_of. rewrite Ne. eauto. }
  assert (Ex : hs_existed h (ms_signature ms) tw).
  { eapply witness_saw; try eassumption. intros Ve.
    destruct Rec as (_ & [(_ & P)|(Ve' & _)]); [|rewrite Ve in Ve'; discriminate]. left. eexists. split; [eassumption|reflexivity]. }
  destruct (Uf _ _ _ Ex (or_introl Sv)) as (t' & Lt & [Sd|Lk]).
  - exists t'. auto.
  - pose proof (Cf _ _ _ _ Is Key Lk). lia.
Qed.

(** The same for envelopes. *)
Theorem C98_envelope_one_honest_witness : forall env ps h now v m b identity issuer type_ payload tw,
  honest_ca env h (vf_fulcio v) -> honest_witness env ps h now (vf_root v) b tw ->
  make_bundle env m = Ok b -> (forall x, carries m x -> ever h x) -> issuer <> nil ->
  verify_dsse env ps now v b (P_identity identity (Some issuer)) = Ok (type_, payload) ->
  (c_not_before (b_cert b) <= tw <= c_not_after (b_cert b))%Z /\
  exists who t0 key, hs_login h who identity issuer t0 /\ hs_issued h (b_cert b) who t0 /\ c_pubkey (b_cert b) = Ok key /\
    (careful h who -> unforgeable env h key ->
     exists t x, (t <= tw)%Z /\ pae type_ payload = Ok x /\ hs_signed h key (e_hash env SHA256 x) t).
Proof.
  intros env ps h now v m b identity issuer type_ payload tw Ca Wi Mb Ev Ni V.
  apply dsse_accepted_iff in V. destruct V as ((times & A) & em & sg & key & x & Em & _ & _ & Es & Nz & Key & Px & Sv & Rec).
  pose proof (witness_counts _ _ _ _ _ _ _ _ _ A Wi) as It. pose proof A as (_ & _ & _ & _ & _ & _ & W). specialize (W tw It).
  split; [assumption|].
  destruct (signer_identified _ _ _ _ _ _ _ _ _ Mb Ev Ca Ni A) as (who & t0 & Is & Lo).
  exists who, t0, key. split; [assumption|]. split; [assumption|]. split; [assumption|]. intros Cf Uf.
  assert (Sg : signature_of b sg) by (unfold signature_of; rewrite Em; auto).
  assert (Ex : hs_existed h sg tw).
  { eapply witness_saw; try eassumption. intros Ve.
    destruct Rec as [(_ & _ & P)|(_ & Ve' & _)]; [|rewrite Ve in Ve'; discriminate]. right. eexists. eexists. exists (pem_b64 (b_cert b)).
    split; [eassumption|]. split; [reflexivity|left; reflexivity]. }
  destruct (Uf sg (e_hash env SHA256 x) tw Ex) as (t' & Lt & [Sd|Lk]); [right; eauto| |].
  - exists t', x. auto.
  - pose proof (Cf _ _ _ _ Is Key Lk). lia.
Qed.

(** If the key never leaks, no witness is needed: whatever the timestamp authorities and logs
    say, the owner of the key signed the artifact at some time. *)
Theorem C98_artifact_without_witness : forall env ps h now v m b a identity issuer,
  honest_ca env h (vf_fulcio v) ->
  make_bundle env m = Ok b -> (forall x, carries m x -> ever h x) ->
  (forall ms, bm_msig m = Some ms -> ever h (ms_signature ms)) -> issuer <> nil ->
  verify_artifact env ps now v (In_bytes a) b (P_identity identity (Some issuer)) = Ok tt ->
  exists who t0 key, hs_login h who identity issuer t0 /\ hs_issued h (b_cert b) who t0 /\ c_pubkey (b_cert b) = Ok key /\
    ((forall t, ~ hs_leaked h key t) -> unforgeable env h key -> exists t, hs_signed h key (e_hash env SHA256 a) t).
Proof.
  intros env ps h now v m b a identity issuer Ca Mb Ev Es Ni V.
  apply artifact_accepted_iff in V. destruct V as ((times & A) & ms & key & d & Ms & Hd & _ & Key & Sv & _).
  cbn [sha256_digest] in Hd. injection Hd as <-.
  destruct (signer_identified _ _ _ _ _ _ _ _ _ Mb Ev Ca Ni A) as (who & t0 & Is & Lo).
  exists who, t0, key. split; [assumption|]. split; [assumption|]. split; [assumption|]. intros Nl Uf.
  destruct (Es ms) as (t & Ex). { apply C34_bundle_iff in Mb. destruct Mb as (<- & _). assumption. }
  destruct (Uf _ _ _ Ex (or_introl Sv)) as (t' & _ & [Sd|Lk]); [eauto|exfalso; eapply Nl; eassumption].
Qed.

Theorem C98_envelope_without_witness : forall env ps h now v m b identity issuer type_ payload,
  honest_ca env h (vf_fulcio v) ->
  make_bundle env m = Ok b -> (forall x, carries m x -> ever h x) ->
  (forall em sg, bm_env m = Some em -> In sg (em_sigs em) -> ever h sg) -> issuer <> nil ->
  verify_dsse env ps now v b (P_identity identity (Some issuer)) = Ok (type_, payload) ->
  exists who t0 key, hs_login h who identity issuer t0 /\ hs_issued h (b_cert b) who t0 /\ c_pubkey (b_cert b) = Ok key /\
    ((forall t, ~ hs_leaked h key t) -> unforgeable env h key ->
     exists t x, pae type_ payload = Ok x /\ hs_signed h key (e_hash env SHA256 x) t).
Proof.
  intros env ps h now v m b identity issuer type_ payload Ca Mb Ev Ex Ni V.
  apply dsse_accepted_iff in V. destruct V as ((times & A) & em & sg & key & x & Em & _ & _ & Es & Nz & Key & Px & Sv & _).
  destruct (signer_identified _ _ _ _ _ _ _ _ _ Mb Ev Ca Ni A) as (who & t0 & Is & Lo).
  exists who, t0, key. split; [assumption|]. split; [assumption|]. split; [assumption|]. intros Nl Uf.
  destruct (Ex em sg) as (t & Ht). { apply C34_bundle_iff in Mb. destruct Mb as (<- & _). assumption. } { rewrite Es. left. reflexivity. }
  destruct (Uf sg (e_hash env SHA256 x) t Ht) as (t' & _ & [Sd|Lk]); [right; eauto|eauto|exfalso; eapply Nl; eassumption].
Qed.

(** The honesty asked for by C77 is one way to have an honest witness: every time that
    verification establishes is then one. *)
Theorem C98_refines_C77 : forall env ps h now v b p times t,
  honest_tsas env h (vf_root v) -> honest_logs env ps h now (vf_root v) ->
  signer_accepted env now v b p times -> In t times -> honest_witness env ps h now (vf_root v) b t.
Proof.
  intros env ps h now v b p times t Ts Lg A I.
  destruct (C27_trusted_time_sources _ _ _ _ _ _ _ A I)
    as [(raw & tok & cas & ca & sg & Ir & Dr & -> & Tr & Ic & Sg & V)|(secs & set & ms & k & s & It & Nz & -> & Pr & _)].
  - left. exists cas, ca, raw, tok, sg. split; [assumption|]. split; [assumption|]. split; [|auto 10].
    intros raw' tok' msg. apply (Ts cas ca raw' tok' msg Tr Ic).
  - right. exists secs, set. split; [assumption|]. split; [assumption|]. split; [reflexivity|]. split; [assumption|].
    intros ms' k' s' K R _. destruct (Lg ms' k' s' K R) as [L1 L2]. split; [|assumption].
    intros set' body secs' id idx Es V. destruct (L1 _ _ Es V) as [(body' & secs'' & id' & idx' & Lo & E)|Hd].
    + apply ascii_bytes_inj in E; [|apply set_text_ascii|apply set_text_ascii]. apply set_text_inj in E.
      destruct E as (<- & <- & _). assumption.
    + exfalso. eapply promise_not_head; eassumption.
Qed.

(** ** Examples *)

(** The histories below differ from that of C77 in when the strings came to exist and in what the
    log accepted. *)
Definition wx_history (signed : time -> Prop) (from : time) (logged : bool) : History :=
  mkHistory unit
    (fun _ identity issuer t => identity = s2l "a@b.c" /\ issuer = s2l "https://issuer.example" /\ t = 0%Z)
    (fun c _ t => c = vx_leaf /\ t = 0%Z)
    (fun k d t => k = vx_key /\ d = vx_digest /\ signed t)
    (fun k t => (2000000001000000 <= t)%Z)
    (fun x t => x = nil \/ (In x ax_strings /\ (from <= t)%Z))
    (fun k body secs => logged = true /\ k = cx_pub /\ body = [x01] /\ secs = 1700000000%Z)
    (fun k log => False)
    (fun k e => False).

Lemma wx_ever : forall signed from logged x, ever (wx_history signed from logged) x <-> ever ax_history x.
Proof.
  intros. split; intros (t & [E|[E _]]).
  - exists 0%Z. left. assumption.
  - exists 32000000%Z. right. split; [assumption|lia].
  - exists 0%Z. left. assumption.
  - exists from. right. split; [assumption|lia].
Qed.

Lemma wx_carried : forall signed from logged x, carries ax_msg x -> ever (wx_history signed from logged) x.
Proof. intros signed from logged x C. apply wx_ever. apply ax_carried. assumption. Qed.

Lemma wx_honest_ca : forall signed from logged, honest_ca ax_env (wx_history signed from logged) (vf_fulcio vx_verifier).
Proof.
  intros signed from logged der c t chain E P Ch. apply wx_ever in E. exact (ex_honest_ca der c t chain E P Ch).
Qed.

Lemma wx_careful : forall signed from logged, careful (wx_history signed from logged) tt.
Proof.
  intros signed from logged c t0 k t [-> _] _ L. cbn in L. change (c_not_after vx_leaf) with 2000000000000000%Z. lia.
Qed.

Lemma wx_verified : forall sg d,
  e_sig_verify ax_env (ECDSA_prehashed SHA256) vx_key sg d = Ok tt \/
  (exists m, e_sig_verify ax_env (ECDSA SHA256) vx_key sg m = Ok tt /\ d = e_hash ax_env SHA256 m) ->
  d = vx_digest /\ sg <> nil.
Proof.
  intros sg d [V|(m & V & _)].
  - cbn [ax_env e_sig_verify] in V. unfold ax_verify in V. destruct (_ && _) eqn:Q; [|discriminate].
    apply andb_true_iff in Q. rewrite !bytes_eqb_spec in Q. split; [apply Q|]. intros ->. cbn in V. discriminate.
  - apply ax_verified in V. destruct V as [Q|[Q|[Q|[]]]]; exfalso; apply (f_equal fst) in Q; discriminate Q.
Qed.

Lemma wx_unforgeable : forall from logged, (10000000 <= from)%Z ->
  unforgeable ax_env (wx_history (fun t => t = 10000000%Z) from logged) vx_key.
Proof.
  intros from logged Lf sg d t Ex V. destruct (wx_verified _ _ V) as [-> Nn]. destruct Ex as [Ex|[_ Lt]]; [contradiction|].
  exists 10000000%Z. split; [lia|]. left. cbn [wx_history hs_signed]. auto.
Qed.

(** The log never accepted the entry whose promise it signed, and published no head; an authority
    is honest. *)
Definition wx_bad_log : History := wx_history (fun t => t = 10000000%Z) 32000000%Z false.

Lemma wx_tsa_honest : forall ca, honest_tsa ax_env wx_bad_log ca.
Proof.
  intros ca raw tok msg E D V W.
  destruct E as (t & Ev). cbn [ax_env e_decode_tsr e_tsa_verify vx_env toy_env] in D, V.
  destruct Ev as [->|[Ev _]]; [discriminate|].
  destruct Ev as [<-|[<-|[<-|[<-|[<-|[<-|[<-|[]]]]]]]]; try (vm_compute in D; discriminate).
  - injection D as <-. cbn in V. destruct msg; [|discriminate]. left. reflexivity.
  - injection D as <-. cbn [tsr_raw tsr_time vx_token] in V |- *. destruct (bytes_eqb vx_sig msg) eqn:Q; [|discriminate].
    apply bytes_eqb_spec in Q. subst msg. right. split; [right; left; reflexivity|vm_compute; discriminate].
Qed.

Lemma wx_sig : signature_of ax_bundle vx_sig.
Proof. exists vx_ms. split; reflexivity. Qed.

Example ex_tsa_witness : tsa_witness ax_env wx_bad_log vx_now (vf_root vx_verifier) ax_bundle 32000000%Z.
Proof.
  set (cas := match get_timestamp_authorities ax_env (vf_root vx_verifier) with Ok l => l | Raise _ => nil end).
  exists cas, (nth 2 cas (mkCA (mkCAMsg nil None) nil)), (vx_token x20 vx_sig), (mkTSR (vx_token x20 vx_sig) 32000000%Z), vx_sig.
  split; [apply tsas_iff; vm_compute; reflexivity|]. split; [vm_compute; tauto|]. split; [apply wx_tsa_honest|].
  split; [left; reflexivity|]. split; [reflexivity|]. split; [reflexivity|]. split; [exact wx_sig|]. split; [split|split].
  - apply started_iff. vm_compute. reflexivity.
  - vm_compute. lia.
  - vm_compute. reflexivity.
  - exists (mkTimeRange 0%Z None). split; [vm_compute; reflexivity|]. split; [vm_compute; discriminate|]. discriminate.
Qed.

(** No log is honest here: C77 says nothing, C98 does. *)
Example ex_bad_log : ~ honest_logs ax_env vx_parsers wx_bad_log vx_now (vf_root vx_verifier).
Proof.
  intros H.
  pose proof (proj2 ex_ax_accepted) as V. apply artifact_accepted_iff in V. destruct V as ((times & A) & _).
  assert (It : In 1700000000000000%Z times).
  { pose proof A as ((ts1 & ts2 & -> & _ & L) & _). apply in_or_app. right.
    destruct L as [[_ [Q|[Q|Q]]]|(secs & set & E & _ & _ & _ & _ & _ & ->)]; try discriminate. injection E as <-. left. reflexivity. }
  destruct (C27_trusted_time_sources _ _ _ _ _ _ _ A It) as [(raw & tok & cas & ca & sg & Ir & D & Et & _)|(secs & set & ms & k & s & _ & _ & _ & Pr & _ & K & R & Sv)].
  - destruct Ir as [<-|[]]. injection D as <-. discriminate Et.
  - destruct (H ms k s K R) as [H1 _].
    destruct (H1 set _ (wx_carried _ _ _ _ (promise_carried _ _ _ _ (proj1 ex_ax_accepted) Pr)) Sv) as [(body & secs' & id & idx & (Q & _) & _)|(log & o & e & [] & _)].
    discriminate Q.
Qed.

Example ex_tsa_suffices : exists t, (t <= 32000000)%Z /\ hs_signed wx_bad_log vx_key (e_hash ax_env SHA256 vx_input) t.
Proof.
  destruct (C98_artifact_one_honest_witness ax_env vx_parsers wx_bad_log vx_now vx_verifier ax_msg ax_bundle vx_input
    (s2l "a@b.c") (s2l "https://issuer.example") 32000000%Z (wx_honest_ca _ _ _) (or_introl ex_tsa_witness) (proj1 ex_ax_accepted)
    (wx_carried _ _ _) eq_refl) as (_ & who & t0 & key & _ & _ & K & H).
  - discriminate.
  - exact (proj2 ex_ax_accepted).
  - destruct who. change (Ok vx_key = Ok key) in K. injection K as <-. apply H; [apply wx_careful|]. apply wx_unforgeable. lia.
Qed.

(** The signature came to exist in second 1700000000, when the log accepted it: every authority
    which vouches for the token of second 32 backdates. *)
Definition wx_bad_tsa : History := wx_history (fun t => t = 10000000%Z) 1700000000000000%Z true.

Example ex_log_witness : log_witness ax_env vx_parsers wx_bad_tsa vx_now (vf_root vx_verifier) ax_bundle 1700000000000000%Z.
Proof.
  exists 1700000000%Z, (toy_sign (ECDSA SHA256) cx_pub ax_set). split; [reflexivity|]. split; [discriminate|]. split; [reflexivity|]. split; [reflexivity|].
  intros ms k s K R _. destruct (ax_rekor _ _ _ K R) as [-> ->]. split.
  - intros set body secs id index _ V. apply ax_verified in V. destruct V as [Q|[Q|[Q|[]]]].
    + apply (f_equal snd) in Q. cbn [snd] in Q. unfold ax_set in Q. apply ascii_bytes_inj in Q; [|apply set_text_ascii|apply set_text_ascii].
      apply set_text_inj in Q. destruct Q as (<- & <- & _). cbn [wx_bad_tsa wx_history hs_logged]. auto.
    + exfalso. apply (f_equal snd) in Q. cbn [snd] in Q.
      assert (U : utf8_encode (lines_text (body_lines (s2l "rekor.example") 3 (MTH toy_hash (vx_log [x01])) nil)) = Some ax_note) by (vm_compute; reflexivity).
      unfold body_lines in U. rewrite lines_text_join in U by discriminate. exact (note_not_promise _ _ _ _ _ _ U Q).
    + exfalso. apply (f_equal fst) in Q. discriminate Q.
  - intros body secs sg (_ & _ & -> & ->) [(r & P & E)|(r & sigs & pem & P & _)]; [|vm_compute in P; discriminate].
    right. split; [|lia].
    assert (W : match p_hashedrekord vx_parsers [x01] with Ok r => h1_sig r | _ => None end = Some (b64encode vx_sig)) by reflexivity.
    rewrite P, E in W. apply (f_equal (fun o => match o with Some y => y | None => nil end)) in W. cbv beta iota in W.
    apply b64encode_inj in W. subst sg. right. left. reflexivity.
Qed.

Example ex_bad_tsa : forall cas ca sg, trusted_tsas ax_env (vf_root vx_verifier) cas -> In ca cas ->
  signature_of ax_bundle sg -> vouches ax_env vx_now ca (mkTSR (vx_token x20 vx_sig) 32000000%Z) sg -> ~ honest_tsa ax_env wx_bad_tsa ca.
Proof.
  intros cas ca sg _ _ Sg (_ & V & W) H. rewrite (signature_of_fun _ _ _ Sg wx_sig) in V.
  assert (E : ever wx_bad_tsa (vx_token x20 vx_sig)) by (apply wx_carried; right; right; left; left; reflexivity).
  destruct (H _ _ _ E eq_refl V W) as [Q|[_ Q]]; [discriminate Q|vm_compute in Q; congruence].
Qed.

Example ex_log_suffices : exists t, (t <= 1700000000000000)%Z /\ hs_signed wx_bad_tsa vx_key (e_hash ax_env SHA256 vx_input) t.
Proof.
  destruct (C98_artifact_one_honest_witness ax_env vx_parsers wx_bad_tsa vx_now vx_verifier ax_msg ax_bundle vx_input
    (s2l "a@b.c") (s2l "https://issuer.example") 1700000000000000%Z (wx_honest_ca _ _ _) (or_intror ex_log_witness) (proj1 ex_ax_accepted)
    (wx_carried _ _ _) eq_refl) as (_ & who & t0 & key & _ & _ & K & H).
  - discriminate.
  - exact (proj2 ex_ax_accepted).
  - destruct who. change (Ok vx_key = Ok key) in K. injection K as <-. apply H; [apply wx_careful|]. apply wx_unforgeable. lia.
Qed.

(** Without an honest witness the conclusion fails: the key leaks after the certificate expired,
    the thief signs, and backdated timestamps and promises make the bundle acceptable although
    the CA is honest, everybody is careful and the owner never signed anything. *)
Theorem C98_no_witness_refuted :
  exists env ps h now v m b a identity issuer,
    honest_ca env h (vf_fulcio v) /\ make_bundle env m = Ok b /\ (forall x, carries m x -> ever h x) /\ bm_env m = None /\ issuer <> nil /\
    verify_artifact env ps now v (In_bytes a) b (P_identity identity (Some issuer)) = Ok tt /\
    (forall who, careful h who) /\ (forall key, c_pubkey (b_cert b) = Ok key -> unforgeable env h key) /\
    forall key d t, ~ hs_signed h key d t.
Proof.
  exists ax_env, vx_parsers, (wx_history (fun _ => False) 2000000001000000%Z false), vx_now, vx_verifier, ax_msg, ax_bundle, vx_input,
    (s2l "a@b.c"), (s2l "https://issuer.example").
  split; [apply wx_honest_ca|]. split; [exact (proj1 ex_ax_accepted)|]. split; [apply wx_carried|]. split; [reflexivity|]. split; [discriminate|].
  split; [exact (proj2 ex_ax_accepted)|]. split; [intros []; apply wx_careful|]. split.
  - intros key K. change (Ok vx_key = Ok key) in K. injection K as <-.
    intros sg d t Ex V. destruct (wx_verified _ _ V) as [_ Nn]. destruct Ex as [Ex|[_ Lt]]; [contradiction|].
    exists t. split; [lia|]. right. cbn [wx_history hs_leaked]. assumption.
  - intros key d t (_ & _ & []).
Qed.

(** The theorems that need no witness apply to the bad log and the bad authority alike; here,
    with a key that never leaks. *)
Definition wx_no_leak : History :=
  mkHistory unit (hs_login wx_bad_log) (hs_issued wx_bad_log) (hs_signed wx_bad_log) (fun _ _ => False)
    (hs_existed wx_bad_log) (fun _ _ _ => False) (fun _ _ => False) (fun _ _ => False).
Example ex_no_leak : exists t, hs_signed wx_no_leak vx_key (e_hash ax_env SHA256 vx_input) t.
Proof.
  destruct (C98_artifact_without_witness ax_env vx_parsers wx_no_leak vx_now vx_verifier ax_msg ax_bundle vx_input
    (s2l "a@b.c") (s2l "https://issuer.example") (wx_honest_ca _ _ _) (proj1 ex_ax_accepted) (wx_carried _ _ _)) as (who & t0 & key & _ & _ & K & H).
  - intros ms E. injection E as <-. exists 32000000%Z. right. split; [right; left; reflexivity|lia].
  - discriminate.
  - exact (proj2 ex_ax_accepted).
  - change (Ok vx_key = Ok key) in K. injection K as <-. apply H; [intros t []|].
    intros sg d t Ex V. destruct (wx_verified _ _ V) as [-> Nn]. destruct Ex as [Ex|[_ Lt]]; [contradiction|].
    exists 10000000%Z. split; [lia|]. left. cbn [wx_no_leak wx_bad_log wx_history hs_signed]. auto.
Qed.

Print Assumptions C98_artifact_one_honest_witness.
Print Assumptions C98_envelope_one_honest_witness.
Print Assumptions C98_artifact_without_witness.
Print Assumptions C98_envelope_without_witness.
Print Assumptions C98_refines_C77.
Print Assumptions C98_no_witness_refuted.
