(** Specification of bundle verification, and proof that the model of verifier.py
    accepts exactly what the specification allows. *)
From Verif Require Import Base Codec Messages Env Keyring LogEntry Cert PropsCert Sct Dsse PropsDsse KeyDetails Policy
  TrustedRoot PropsTrustedRoot Hashing Bundle PropsBundle Verifier.

(** ** Specification

    Times are in microseconds since the epoch. *)

(** the time lies in an authority's window: start inclusive, end exclusive *)
Definition in_window (w : option TimeRange) (t : time) : Prop :=
  exists r, w = Some r /\ (tr_start r <= t)%Z /\ forall e, tr_end r = Some e -> (t < e)%Z.

(** an authority that can verify tokens: its window has started, and it has a signing
    and a root certificate *)
Definition tsa_ready (now : time) (ca : CA) : Prop :=
  started now (cam_valid_for (ca_inner ca)) /\ 2 <= length (ca_certs ca).

(** the authority [ca] vouches for the token [t] over [msg] *)
Definition vouches (env : Env) (now : time) (ca : CA) (t : TSR) (msg : bytes) : Prop :=
  tsa_ready now ca /\ e_tsa_verify env (ca_certs ca) t msg = Ok tt /\
  in_window (cam_valid_for (ca_inner ca)) (tsr_time t).

(** the authority is skipped *)
Definition declines (env : Env) (now : time) (ca : CA) (t : TSR) (msg : bytes) : Prop :=
  ~ tsa_ready now ca \/
  e_tsa_verify env (ca_certs ca) t msg = Raise ERfc3161 \/
  (e_tsa_verify env (ca_certs ca) t msg = Ok tt /\ cam_valid_for (ca_inner ca) <> None /\
   ~ in_window (cam_valid_for (ca_inner ca)) (tsr_time t)).

(** the time a token contributes *)
Definition token_time (env : Env) (now : time) (cas : list CA) (msg : bytes) (t : TSR) (r : option time) : Prop :=
  match r with
  | Some tm => tm = tsr_time t /\
      exists before ca after, cas = before ++ ca :: after /\
        (forall ca', In ca' before -> declines env now ca' t msg) /\ vouches env now ca t msg
  | None => forall ca, In ca cas -> declines env now ca t msg
  end.

Inductive token_times (env : Env) (now : time) (cas : list CA) (msg : bytes) : list TSR -> list time -> Prop :=
| tt_nil : token_times env now cas msg nil nil
| tt_some : forall t tm l ts, token_time env now cas msg t (Some tm) ->
    token_times env now cas msg l ts -> token_times env now cas msg (t :: l) (tm :: ts)
| tt_none : forall t l ts, token_time env now cas msg t None ->
    token_times env now cas msg l ts -> token_times env now cas msg (t :: l) ts.

(** the bundle's signature: of the envelope if there is one, else of the message *)
Definition signature_of (b : Bundle) (sg : bytes) : Prop :=
  match bm_env (b_inner b) with
  | Some m => em_sigs m = [sg] /\ sg <> nil
  | None => exists ms, bm_msig (b_inner b) = Some ms /\ ms_signature ms = sg
  end.

(** the timestamp authorities of the trusted root *)
Definition trusted_tsas (env : Env) (tr : TrustedRootMsg) (cas : list CA) : Prop :=
  Forall2 (fun m ca => ca_inner ca = m /\ ca_certs ca <> nil /\
    Forall2 (fun der c => e_parse_cert env der = Ok c) (cam_certs m) (ca_certs ca)) (tr_tsas tr) cas.

(** times from RFC 3161 timestamps *)
Definition tsa_times (env : Env) (now : time) (tr : TrustedRootMsg) (b : Bundle) (ts : list time) : Prop :=
  (vm_timestamps (bm_vm (b_inner b)) = nil /\ ts = nil) \/
  exists tokens cas sg,
    vm_timestamps (bm_vm (b_inner b)) <> nil /\
    Forall2 (fun raw t => e_decode_tsr env raw = Ok t) (vm_timestamps (bm_vm (b_inner b))) tokens /\
    length tokens <= 32 /\ NoDup (map tsr_raw tokens) /\
    trusted_tsas env tr cas /\ cas <> nil /\
    signature_of b sg /\ token_times env now cas sg tokens ts.

(** time from the log: only with an inclusion promise, only for v1 entries *)
Definition log_times (e : LogEntry) (ts : list time) : Prop :=
  (ts = nil /\ (le_promise e = None \/ le_integrated_time e = None \/ le_integrated_time e = Some 0%Z)) \/
  exists t set, le_integrated_time e = Some t /\ t <> 0%Z /\ le_promise e = Some set /\
    (le_kind e = s2l "dsse" \/ le_kind e = s2l "hashedrekord") /\ le_version e = s2l "0.0.1" /\
    (-62135596800 <= t <= 253402300799)%Z /\ ts = [(t * 1000000)%Z].

(** certificate, time, policy and log conditions, common to both kinds of verification *)
Definition signer_accepted (env : Env) (now : time) (v : Verifier) (b : Bundle) (p : policy) (times : list time) : Prop :=
  (exists ts1 ts2, times = ts1 ++ ts2 /\ tsa_times env now (vf_root v) b ts1 /\ log_times (b_entry b) ts2) /\
  times <> nil /\
  (exists chains ct, Forall2 (fun t ch => e_chain env (vf_fulcio v) t (b_cert b) = Ok ch) times chains /\
     ct_keyring env now (vf_root v) VERIFY = Ok ct /\
     verify_sct env (b_cert b) (tl (last chains nil)) ct = Ok tt) /\
  (exists x kcs ekus, c_exts (b_cert b) = Ok x /\ x_ku x = Some (true, kcs) /\
     x_eku x = Some ekus /\ In OID_CODE_SIGNING ekus) /\
  policy_verify p (b_cert b) = Ok tt /\
  (exists rk, rekor_keyring env now (vf_root v) VERIFY = Ok rk /\ entry_verify env rk (b_entry b) = Ok tt) /\
  (forall t, In t times -> c_not_before (b_cert b) <= t <= c_not_after (b_cert b))%Z.

(** the PEM form of a certificate, base64 encoded once more, as Rekor v1 records it *)
Definition pem_b64 (c : Cert) : str := b64encode (ascii_bytes (pem_of_der (c_der c))).

(** the log entry's body records this digest, signature and certificate *)
Definition records_artifact (ps : Parsers) (e : LogEntry) (c : Cert) (digest sg : bytes) : Prop :=
  le_kind e = s2l "hashedrekord" /\
  ((le_version e = s2l "0.0.1" /\
    p_hashedrekord ps (le_body e) =
      Ok (mkH1 (s2l "0.0.1") (Some (b64encode sg)) (Some (pem_b64 c)) (Some (SHA256, hex digest)) 0)) \/
   (le_version e = s2l "0.0.2" /\ exists d, get_key_details c = Ok d /\
    p_v2 ps (le_body e) =
      Ok (mkV2 (s2l "hashedrekord") (s2l "0.0.2") (V2_hashedrekord HA_SHA2_256 digest sg (V2_x509 (c_der c) d))))).

(** the log entry's body records this payload (or its PAE), signature and certificate *)
Definition records_envelope (env : Env) (ps : Parsers) (e : LogEntry) (c : Cert) (type_ : str) (payload sg : bytes) : Prop :=
  (le_kind e = s2l "dsse" /\ le_version e = s2l "0.0.1" /\
   p_dsse ps (le_body e) =
     Ok (mkD1 (Some (true, hex (e_hash env SHA256 payload))) (Some [(b64encode sg, pem_b64 c)]))) \/
  (le_kind e = s2l "hashedrekord" /\ le_version e = s2l "0.0.2" /\
   exists d alg h x, get_key_details c = Ok d /\ get_prehash d = Ok (alg, h) /\ pae type_ payload = Ok x /\
   p_v2 ps (le_body e) =
     Ok (mkV2 (s2l "hashedrekord") (s2l "0.0.2") (V2_hashedrekord alg (e_hash env h x) sg (V2_x509 (c_der c) d)))).

(** ** Proofs *)

Lemma started_iff : forall now w, is_timerange_valid now w true = true <-> started now w.
Proof.
  intros now w. rewrite (window_iff now w VERIFY). unfold in_force. split; [tauto|]. intros H. split; [assumption|discriminate].
Qed.

Lemma ready_iff : forall now ca,
  Nat.ltb (length (ca_certificates now ca true)) 2 = false <-> tsa_ready now ca.
Proof.
  intros now ca. unfold ca_certificates, tsa_ready. rewrite <- started_iff.
  destruct (is_timerange_valid now (cam_valid_for (ca_inner ca)) true).
  - rewrite Nat.ltb_ge. tauto.
  - split; [intros H; cbn in H; discriminate|intros [H _]; discriminate].
Qed.

Lemma ready_certs : forall now ca, tsa_ready now ca -> ca_certificates now ca true = ca_certs ca.
Proof. intros now ca [S _]. unfold ca_certificates. apply started_iff in S. rewrite S. reflexivity. Qed.

Lemma window_bool : forall w t,
  ((tr_start w <=? t)%Z && match tr_end w with None => true | Some e => (t <? e)%Z end) = true <-> in_window (Some w) t.
Proof.
  intros w t. rewrite andb_true_iff, Z.leb_le. unfold in_window. split.
  - intros [A B]. exists w. split; [reflexivity|]. split; [assumption|]. intros e E. rewrite E in B. apply Z.ltb_lt. assumption.
  - intros (r & E & A & B). inversion E; subst r. split; [assumption|]. destruct (tr_end w) as [e|]; [|reflexivity].
    apply Z.ltb_lt. auto.
Qed.

Lemma token_time_iff : forall env now msg t cas r,
  verify_signed_timestamp_loop env now cas t msg = Ok (option_map (mkTime TIMESTAMP_AUTHORITY) r) <->
  token_time env now cas msg t r.
Proof.
  intros env now msg t cas. induction cas as [|ca cas IH]; intros r; cbn [verify_signed_timestamp_loop].
  - destruct r as [tm|]; cbn.
    + split; [discriminate|]. intros (_ & b & ca & a & E & _). destruct b; discriminate.
    + split; [intros _ ca []|reflexivity].
  - destruct (Nat.ltb (length (ca_certificates now ca true)) 2) eqn:L.
    + assert (NR : ~ tsa_ready now ca) by (rewrite <- ready_iff, L; discriminate).
      rewrite IH. destruct r as [tm|]; cbn [token_time].
      * split.
        -- intros (E & b & ca' & a & -> & D & V). split; [assumption|]. exists (ca :: b), ca', a. split; [reflexivity|].
           split; [|assumption]. intros c [<-|I]; [left; assumption|auto].
        -- intros (E & b & ca' & a & Q & D & V). split; [assumption|].
           destruct b as [|c b]; inversion Q; subst; [destruct V; contradiction|].
           exists b, ca', a. split; [reflexivity|]. split; [|assumption]. intros c' I. apply D. right. assumption.
      * split; [intros D c [<-|I]; [left; assumption|auto]|intros D c I; apply D; right; assumption].
    + apply ready_iff in L. rewrite (ready_certs _ _ L).
      destruct (e_tsa_verify env (ca_certs ca) t msg) as [[]|e] eqn:TV.
      * destruct (cam_valid_for (ca_inner ca)) as [w|] eqn:W.
        -- pose proof (window_bool w (tsr_time t)) as WB.
           destruct ((tr_start w <=? tsr_time t)%Z && _).
           ++ assert (V : vouches env now ca t msg) by (unfold vouches; rewrite W; intuition).
              destruct r as [tm|]; cbn [option_map token_time].
              ** split.
                 --- intros H. inversion H; subst. split; [reflexivity|]. exists nil, ca, cas. split; [reflexivity|].
                     split; [intros ? []|assumption].
                 --- intros (-> & _). reflexivity.
              ** split; [discriminate|]. intros D. exfalso. specialize (D ca (or_introl eq_refl)).
                 destruct V as (R & Vr & Wn). destruct D as [D|[D|(_ & _ & D)]]; [contradiction|congruence|contradiction].
           ++ assert (D0 : declines env now ca t msg).
              { right. right. rewrite W. split; [assumption|]. split; [discriminate|]. intros Q. apply WB in Q. discriminate. }
              assert (NV : ~ vouches env now ca t msg).
              { intros (_ & _ & Q). rewrite W in Q. apply WB in Q. discriminate. }
              rewrite IH. destruct r as [tm|]; cbn [token_time].
              ** split.
                 --- intros (E & b & ca' & a & -> & D & V). split; [assumption|]. exists (ca :: b), ca', a. split; [reflexivity|].
                     split; [|assumption]. intros c [<-|I]; auto.
                 --- intros (E & b & ca' & a & Q & D & V). split; [assumption|].
                     destruct b as [|c b]; inversion Q; subst; [contradiction|].
                     exists b, ca', a. split; [reflexivity|]. split; [|assumption]. intros c' I. apply D. right. assumption.
              ** split; [intros D c [<-|I]; auto|intros D c I; apply D; right; assumption].
        -- assert (NV : ~ vouches env now ca t msg) by (intros (_ & _ & r' & Q & _); congruence).
           assert (ND : ~ declines env now ca t msg) by (intros [Q|[Q|(_ & Q & _)]]; congruence).
           split; [discriminate|]. intros H. exfalso. destruct r as [tm|]; cbn [token_time] in H.
           ++ destruct H as (_ & b & ca' & a & Q & D & V). destruct b as [|c b]; inversion Q; subst; [contradiction|].
              apply ND. apply D. left. reflexivity.
           ++ apply ND. apply H. left. reflexivity.
      * assert (NV : ~ vouches env now ca t msg) by (intros (_ & Q & _); congruence).
        destruct (exn_eqb e ERfc3161) eqn:EE.
        -- apply exn_eqb_spec in EE. subst e.
           assert (D0 : declines env now ca t msg) by (right; left; assumption).
           rewrite IH. destruct r as [tm|]; cbn [token_time].
           ++ split.
              ** intros (E & b & ca' & a & -> & D & V). split; [assumption|]. exists (ca :: b), ca', a. split; [reflexivity|].
                 split; [|assumption]. intros c [<-|I]; auto.
              ** intros (E & b & ca' & a & Q & D & V). split; [assumption|].
                 destruct b as [|c b]; inversion Q; subst; [contradiction|].
                 exists b, ca', a. split; [reflexivity|]. split; [|assumption]. intros c' I. apply D. right. assumption.
           ++ split; [intros D c [<-|I]; auto|intros D c I; apply D; right; assumption].
        -- assert (NE : e <> ERfc3161) by (intros ->; cbn in EE; discriminate).
           assert (ND : ~ declines env now ca t msg) by (intros [Q|[Q|(Q & _)]]; congruence).
           split; [discriminate|]. intros H. exfalso. destruct r as [tm|]; cbn [token_time] in H.
           ++ destruct H as (_ & b & ca' & a & Q & D & V). destruct b as [|c b]; inversion Q; subst; [contradiction|].
              apply ND. apply D. left. reflexivity.
           ++ apply ND. apply H. left. reflexivity.
Qed.

Lemma token_result : forall env now msg t cas r,
  verify_signed_timestamp_loop env now cas t msg = Ok r -> exists o, r = option_map (mkTime TIMESTAMP_AUTHORITY) o.
Proof.
  intros env now msg t cas. induction cas as [|ca cas IH]; intros r H; cbn [verify_signed_timestamp_loop] in H.
  - inversion H. exists None. reflexivity.
  - destruct (Nat.ltb _ 2); [auto|]. destruct (e_tsa_verify _ _ _ _) as [u|e].
    + destruct (cam_valid_for _) as [w|]; [|discriminate]. destruct (_ && _); [|auto]. inversion H. exists (Some (tsr_time t)). reflexivity.
    + destruct (exn_eqb e ERfc3161); [auto|discriminate].
Qed.

Lemma signature_iff : forall b sg, bundle_signature b = Ok sg <-> signature_of b sg.
Proof.
  intros b sg. unfold bundle_signature, bundle_envelope, signature_of. destruct (bm_env (b_inner b)) as [m|].
  - split.
    + intros H. inv_bind H. inv_bind Ha. inversion Ha; subst a. inversion H; subst sg.
      apply C22_envelope_has_exactly_one_signature in Ha0. tauto.
    + intros [E N]. assert (M : make_envelope m = Ok (mkEnvelope m sg)) by (apply C22_envelope_has_exactly_one_signature; auto).
      rewrite M. reflexivity.
  - cbn [bind]. destruct (bm_msig (b_inner b)) as [ms|].
    + split; [intros H; inversion H; eauto|intros (ms' & E & <-); inversion E; reflexivity].
    + split; [discriminate|intros (ms' & E & _); discriminate].
Qed.

Lemma has_dup_iff : forall l, has_dup l = false <-> NoDup (map tsr_raw l).
Proof.
  induction l as [|t l IH]; cbn [has_dup map].
  - split; [intros _; constructor|reflexivity].
  - rewrite orb_false_iff, IH. split.
    + intros [E N]. constructor; [|assumption]. intros I. apply in_map_iff in I. destruct I as (t' & Q & I).
      assert (existsb (fun y => bytes_eqb (tsr_raw t) (tsr_raw y)) l = true); [|congruence].
      apply existsb_exists. exists t'. split; [assumption|]. apply bytes_eqb_spec. congruence.
    + intros N. inversion N; subst. split; [|assumption].
      destruct (existsb _ l) eqn:E; [|reflexivity]. apply existsb_exists in E. destruct E as (t' & I & Q).
      apply bytes_eqb_spec in Q. exfalso. apply H1. rewrite Q. apply in_map. assumption.
Qed.

Lemma collect_iff : forall env now v b cas sg tokens times,
  get_timestamp_authorities env (vf_root v) = Ok cas -> bundle_signature b = Ok sg ->
  (collect_times env now v b tokens = Ok times <->
   exists ts, times = map (mkTime TIMESTAMP_AUTHORITY) ts /\ token_times env now cas sg tokens ts).
Proof.
  intros env now v b cas sg tokens times Hc Hs. revert times.
  induction tokens as [|t l IH]; intros times; cbn [collect_times].
  - split.
    + intros H. inversion H. exists nil. split; [reflexivity|constructor].
    + intros (ts & -> & T). inversion T. reflexivity.
  - rewrite Hs. cbn [bind]. unfold verify_signed_timestamp. rewrite Hc. cbn [bind]. split.
    + intros H. inv_bind H. inv_bind H. inversion H; subst times. clear H. apply IH in Ha0. destruct Ha0 as (ts & -> & T).
      pose proof (token_result _ _ _ _ _ _ Ha) as [o ->]. apply token_time_iff in Ha. destruct o as [tm|]; cbn [option_map].
      * exists (tm :: ts). split; [reflexivity|]. constructor; assumption.
      * exists ts. split; [reflexivity|]. apply tt_none; assumption.
    + intros (ts & -> & T). inversion T as [|? tm ? ts' T1 T2|? ? ? T1 T2]; subst.
      * apply token_time_iff in T1. rewrite T1. cbn [bind option_map].
        rewrite (proj2 (IH _) (ex_intro _ ts' (conj eq_refl T2))). reflexivity.
      * apply token_time_iff in T1. rewrite T1. cbn [bind option_map].
        rewrite (proj2 (IH _) (ex_intro _ ts (conj eq_refl T2))). reflexivity.
Qed.

Lemma tsas_iff : forall env tr cas, get_timestamp_authorities env tr = Ok cas <-> trusted_tsas env tr cas.
Proof. apply C14_timestamp_authorities. Qed.

Lemma collect_signature : forall env now v b t l times,
  collect_times env now v b (t :: l) = Ok times -> exists sg, bundle_signature b = Ok sg.
Proof. intros env now v b t l times H. cbn [collect_times] in H. inv_bind H. eauto. Qed.

Lemma has_set_iff : forall e, has_set e = true <->
  exists t set, le_integrated_time e = Some t /\ t <> 0%Z /\ le_promise e = Some set.
Proof.
  intros e. unfold has_set. destruct (le_promise e) as [s|], (le_integrated_time e) as [t|];
    try (split; [discriminate|intros (t' & s' & A & B & C); discriminate]).
  rewrite negb_true_iff, Z.eqb_neq. split; [intros H; eauto|intros (t' & s' & A & B & C); congruence].
Qed.

Lemma fromtimestamp_iff : forall t tm, fromtimestamp t = Ok tm <-> ((-62135596800 <= t <= 253402300799) /\ tm = t * 1000000)%Z.
Proof.
  intros t tm. unfold fromtimestamp.
  destruct ((t <? -9223372036854775808) || (9223372036854775807 <? t))%Z eqn:A.
  - split; [discriminate|]. intros [B _]. lia.
  - destruct ((t <? -62135596800) || (253402300799 <? t))%Z eqn:B.
    + split; [discriminate|]. intros [C _]. lia.
    + split; [intros H; inversion H; lia|intros [_ ->]; reflexivity].
Qed.

Lemma establish_time_iff : forall env now v b times,
  establish_time env now v b = Ok times <->
  exists ts1 ts2, times = map (mkTime TIMESTAMP_AUTHORITY) ts1 ++ map (mkTime TRANSPARENCY_SERVICE) ts2 /\
    tsa_times env now (vf_root v) b ts1 /\ log_times (b_entry b) ts2.
Proof.
  intros env now v b times. unfold establish_time.
  set (logpart := if has_set (b_entry b) then _ else _).
  assert (LP : forall l, logpart = Ok l <-> exists ts2, l = map (mkTime TRANSPARENCY_SERVICE) ts2 /\ log_times (b_entry b) ts2).
  { intros l. subst logpart. destruct (has_set (b_entry b)) eqn:HS.
    - apply has_set_iff in HS. destruct HS as (t & set & It & Nz & Pr). rewrite It. split.
      + intros H. inv_bind H. inv_bind H. inversion H; subst l. apply raise_if_ok in Ha. apply negb_false_iff in Ha.
        apply andb_true_iff in Ha. destruct Ha as [K V]. apply orb_true_iff in K. rewrite !str_eqb_spec in K. apply str_eqb_spec in V.
        apply fromtimestamp_iff in Ha0. destruct Ha0 as [R ->]. exists [(t * 1000000)%Z]. split; [reflexivity|]. right.
        exists t, set. repeat split; auto; lia.
      + intros (ts2 & -> & [[_ [Q|[Q|Q]]]|(t' & set' & It' & _ & _ & K & V & R & ->)]); try congruence.
        assert (t' = t) by congruence. subst t'.
        replace ((str_eqb (le_kind (b_entry b)) (s2l "dsse") || str_eqb (le_kind (b_entry b)) (s2l "hashedrekord")) &&
                 str_eqb (le_version (b_entry b)) (s2l "0.0.1")) with true.
        2:{ symmetry. apply andb_true_iff. rewrite orb_true_iff, !str_eqb_spec. auto. }
        cbn [negb raise_if bind]. rewrite (proj2 (fromtimestamp_iff t (t * 1000000)%Z)) by auto. reflexivity.
    - assert (NS : le_promise (b_entry b) = None \/ le_integrated_time (b_entry b) = None \/ le_integrated_time (b_entry b) = Some 0%Z).
      { unfold has_set in HS. destruct (le_promise (b_entry b)); [|auto]. destruct (le_integrated_time (b_entry b)) as [t|]; [|auto].
        apply negb_false_iff in HS. apply Z.eqb_eq in HS. subst. auto. }
      split.
      + intros H. inversion H. exists nil. split; [reflexivity|]. left. auto.
      + intros (ts2 & -> & [[-> _]|(t & set & It & Nz & Pr & _)]); [reflexivity|]. destruct NS as [Q|[Q|Q]]; congruence. }
  clearbody logpart.
  set (tsapart := fun tvd : option (list TSR) => match tvd with None => Ok nil | Some _ =>
    let* tsas := get_timestamp_authorities env (vf_root v) in
    do* raise_if (match tsas with nil => true | _ => false end) EVerification in verify_timestamp_authority env now v b end).
  assert (TP : forall l, (let* tvd := timestamp_verification_data env (bm_vm (b_inner b)) in tsapart tvd) = Ok l <->
     exists ts1, l = map (mkTime TIMESTAMP_AUTHORITY) ts1 /\ tsa_times env now (vf_root v) b ts1).
  { intros l. subst tsapart. cbn beta. split.
    - intros H. inv_bind H. destruct a as [toks|].
      + inv_bind H. inv_bind H. apply raise_if_ok in Ha1. unfold verify_timestamp_authority in H. rewrite Ha in H. cbn [bind] in H.
        inv_bind H. inv_bind H. apply raise_if_ok in Ha2, Ha3. apply Nat.ltb_ge in Ha2.
        apply has_dup_iff in Ha3. apply timestamp_data_iff in Ha. destruct Ha as [N F].
        destruct toks as [|t0 toks]; [inversion F; subst; congruence|].
        destruct (collect_signature _ _ _ _ _ _ _ H) as [sg Sg].
        apply (collect_iff _ _ _ _ _ _ _ _ Ha0 Sg) in H. destruct H as (ts & -> & T). exists ts. split; [reflexivity|].
        right. exists (t0 :: toks), a, sg. repeat split; auto.
        * apply tsas_iff. assumption.
        * destruct a; discriminate.
        * apply signature_iff. assumption.
      + inversion H; subst. apply timestamp_data_none in Ha. exists nil. split; [reflexivity|]. left. auto.
    - intros (ts1 & -> & [[E ->]|(toks & cas & sg & N & F & Ln & Nd & Tr & Nc & Sg & T)]).
      + apply (timestamp_data_none env) in E. rewrite E. reflexivity.
      + assert (TD : timestamp_verification_data env (bm_vm (b_inner b)) = Ok (Some toks)) by (apply timestamp_data_iff; auto).
        rewrite TD. cbn [bind]. apply tsas_iff in Tr. rewrite Tr. cbn [bind].
        replace (match cas with nil => true | _ => false end) with false by (destruct cas; congruence).
        cbn [raise_if bind]. unfold verify_timestamp_authority. rewrite TD. cbn [bind].
        replace (Nat.ltb MAX_ALLOWED_TIMESTAMP (length toks)) with false by (symmetry; apply Nat.ltb_ge; exact Ln).
        apply has_dup_iff in Nd. rewrite Nd. cbn [raise_if bind]. apply signature_iff in Sg.
        apply (collect_iff _ _ _ _ _ _ _ _ Tr Sg). eauto. }
  split.
  - intros H. inv_bind H. inv_bind H. inv_bind H. inversion H; subst times.
    assert (X : (let* tvd := timestamp_verification_data env (bm_vm (b_inner b)) in tsapart tvd) = Ok a0) by (rewrite Ha; exact Ha0).
    apply TP in X. apply LP in Ha1. destruct X as (ts1 & -> & T1), Ha1 as (ts2 & -> & T2). exists ts1, ts2. auto.
  - intros (ts1 & ts2 & -> & T1 & T2).
    assert (X := proj2 (TP _) (ex_intro _ ts1 (conj eq_refl T1))). assert (Y := proj2 (LP _) (ex_intro _ ts2 (conj eq_refl T2))).
    apply bind_ok_inv in X. destruct X as (tvd & X1 & X2). rewrite X1. cbn [bind]. unfold tsapart in X2. rewrite X2. cbn [bind]. rewrite Y. reflexivity.
Qed.

Lemma verify_chains_iff : forall env v c ts ch0 ch,
  verify_chains env v c ts ch0 = Ok ch <->
  exists chains, Forall2 (fun t l => e_chain env (vf_fulcio v) t c = Ok l) (map t_time ts) chains /\
    ch = match chains with nil => ch0 | _ => tl (last chains nil) end.
Proof.
  intros env v c ts. induction ts as [|t ts IH]; intros ch0 ch; cbn [verify_chains map].
  - split.
    + intros H. inversion H. exists nil. split; [constructor|reflexivity].
    + intros (chs & F & ->). inversion F. reflexivity.
  - unfold verify_chain_at_time at 1. split.
    + intros H. inv_bind H. inv_bind Ha. inversion Ha; subst a. clear Ha.
      assert (E : e_chain env (vf_fulcio v) (t_time t) c = Ok a0).
      { destruct (e_chain _ _ _ _) as [l|e]; cbn [try_except] in Ha0; [congruence|]. destruct (is_chain_error e); discriminate. }
      apply IH in H. destruct H as (chs & F & ->). exists (a0 :: chs). split; [constructor; assumption|].
      destruct chs; reflexivity.
    + intros (chs & F & ->). inversion F as [|? l ? chs' E F']; subst. rewrite E. cbn [try_except bind].
      apply IH. exists chs'. split; [assumption|]. destruct chs'; reflexivity.
Qed.

Lemma try_verification_ok : forall A (m : res A) x,
  try_except m is_verification_error (fun _ => Raise EVerification) = Ok x <-> m = Ok x.
Proof.
  intros A m x. destruct m as [a|e]; cbn [try_except]; [reflexivity|].
  destruct (is_verification_error e); split; discriminate.
Qed.

Theorem signer_accepted_iff : forall env now v b p,
  verify_common_signing_cert env now v b p = Ok tt <-> exists times, signer_accepted env now v b p times.
Proof.
  intros env now v b p. unfold verify_common_signing_cert. split.
  - intros H. apply bind_ok_inv in H. destruct H as (times & Et & H).
    apply bind_ok_inv in H. destruct H as (u0 & L & H). apply raise_if_ok in L. apply Nat.ltb_ge in L. unfold VERIFIED_TIME_THRESHOLD in L.
    apply bind_ok_inv in H. destruct H as (chain & Ch & H).
    apply bind_ok_inv in H. destruct H as (u1 & S & H). destruct u1. apply (proj1 (try_verification_ok _ _ _)) in S.
    apply bind_ok_inv in S. destruct S as (ct & Ct & S).
    apply bind_ok_inv in H. destruct H as (x & X & H).
    apply bind_ok_inv in H. destruct H as (u2 & Ku & H).
    apply bind_ok_inv in H. destruct H as (u3 & Eku & H).
    apply bind_ok_inv in H. destruct H as (u4 & Po & H). destruct u4.
    apply bind_ok_inv in H. destruct H as (u5 & En & H). destruct u5. apply (proj1 (try_verification_ok _ _ _)) in En.
    apply bind_ok_inv in En. destruct En as (rk & Rk & En).
    exists (map t_time times). apply establish_time_iff in Et. destruct Et as (ts1 & ts2 & Et & T1 & T2).
    assert (Em : map t_time times = ts1 ++ ts2).
    { rewrite Et, map_app, !map_map. cbn [t_time]. rewrite !map_id. reflexivity. }
    apply verify_chains_iff in Ch. destruct Ch as (chs & F & ->).
    assert (Nn : map t_time times <> nil) by (destruct times; [cbn in L; lia|discriminate]).
    split; [eauto|]. split; [assumption|]. split.
    { exists chs, ct. split; [assumption|]. split; [assumption|]. destruct chs; [inversion F; congruence|assumption]. }
    split.
    { destruct (x_ku x) as [[ds kcs]|] eqn:K; [|discriminate]. destruct (x_eku x) as [ekus|] eqn:E; [|discriminate].
      apply raise_if_ok in Ku, Eku. apply negb_false_iff in Ku, Eku. subst ds. apply oid_in_spec in Eku. exists x, kcs, ekus. auto. }
    split; [assumption|]. split; [eauto|].
    rewrite for_each_ok in H. intros t I. apply in_map_iff in I. destruct I as (tr & <- & I). specialize (H _ I).
    apply raise_if_ok in H. apply negb_false_iff in H. apply andb_true_iff in H. rewrite !Z.leb_le in H. assumption.
  - intros (times & (ts1 & ts2 & Et & T1 & T2) & Nn & (chs & ct & F & Ct & S) & (x & kcs & ekus & X & K & E & I) & Po & (rk & Rk & En) & W).
    assert (EE := proj2 (establish_time_iff env now v b _) (ex_intro _ ts1 (ex_intro _ ts2 (conj eq_refl (conj T1 T2))))).
    rewrite EE. cbn [bind]. set (tms := map _ ts1 ++ map _ ts2) in *.
    assert (Em : map t_time tms = times).
    { subst tms. rewrite map_app, !map_map. cbn [t_time]. rewrite !map_id. symmetry. assumption. }
    replace (Nat.ltb (length tms) VERIFIED_TIME_THRESHOLD) with false.
    2:{ symmetry. apply Nat.ltb_ge. unfold VERIFIED_TIME_THRESHOLD. rewrite <- (map_length t_time), Em. destruct times; [congruence|cbn; lia]. }
    cbn [raise_if bind].
    assert (C : verify_chains env v (b_cert b) tms nil = Ok (tl (last chs nil))).
    { apply verify_chains_iff. exists chs. rewrite Em. split; [assumption|]. destruct chs; reflexivity. }
    rewrite C. cbn [bind]. rewrite Ct. cbn [bind]. rewrite S. cbn [try_except bind]. rewrite X. cbn [bind]. rewrite K. cbn [negb raise_if bind].
    rewrite E. apply oid_in_spec in I. rewrite I. cbn [negb raise_if bind]. rewrite Po. cbn [bind]. rewrite Rk. cbn [bind]. rewrite En.
    cbn [try_except bind]. apply for_each_ok. intros t It.
    assert (In (t_time t) times) by (rewrite <- Em; apply in_map; assumption). specialize (W _ H).
    replace ((c_not_before (b_cert b) <=? t_time t)%Z && (t_time t <=? c_not_after (b_cert b))%Z) with true; [reflexivity|].
    symmetry. apply andb_true_iff. rewrite !Z.leb_le. assumption.
Qed.

(** *** equality of bodies *)
Lemma hash_alg_eqb_spec : forall a b, hash_alg_eqb a b = true <-> a = b.
Proof. intros [] []; split; intros H; try reflexivity; discriminate. Qed.
Lemma hash_algorithm_eqb_spec : forall a b, hash_algorithm_eqb a b = true <-> a = b.
Proof.
  intros [| | |n] [| | |m]; cbn; try (split; [discriminate|intros H; discriminate]); try (split; reflexivity).
  rewrite Nat.eqb_eq. split; [intros ->; reflexivity|intros H; inversion H; reflexivity].
Qed.
Lemma key_details_eqb_spec : forall a b, key_details_eqb a b = true <-> a = b.
Proof.
  intros a b. destruct a, b; cbn; try (split; [discriminate|intros H; discriminate]); try (split; reflexivity).
  rewrite Nat.eqb_eq. split; [intros ->; reflexivity|intros H; inversion H; reflexivity].
Qed.
Lemma h1_eqb_spec : forall a b, h1_eqb a b = true <-> a = b.
Proof.
  intros [a1 a2 a3 a4 a5] [b1 b2 b3 b4 b5]. unfold h1_eqb. cbn [h1_api_version h1_sig h1_pk h1_hash h1_rest].
  rewrite !andb_true_iff, str_eqb_spec, !(opt_eqb_spec _ str_eqb_spec), Nat.eqb_eq.
  rewrite (opt_eqb_spec (fun x y => hash_alg_eqb (fst x) (fst y) && str_eqb (snd x) (snd y))).
  - split; [intros ((((-> & ->) & ->) & ->) & ->); reflexivity|intros H; inversion H; auto].
  - intros [x1 x2] [y1 y2]. cbn. rewrite andb_true_iff, hash_alg_eqb_spec, str_eqb_spec.
    split; [intros [-> ->]; reflexivity|intros H; inversion H; auto].
Qed.
Lemma v2_eqb_spec : forall a b, v2_eqb a b = true <-> a = b.
Proof.
  assert (V : forall a b, v2_verifier_eqb a b = true <-> a = b).
  { intros [x d|x d] [y e|y e]; cbn; try (split; [discriminate|intros H; discriminate]);
      rewrite andb_true_iff, bytes_eqb_spec, key_details_eqb_spec; split;
      try (intros [-> ->]; reflexivity); intros H; inversion H; auto. }
  assert (S : forall a b, v2_spec_eqb a b = true <-> a = b).
  { intros [x d s v|n] [x' d' s' v'|m]; cbn; try (split; [discriminate|intros H; discriminate]).
    - rewrite !andb_true_iff, hash_algorithm_eqb_spec, !bytes_eqb_spec, V.
      split; [intros (((-> & ->) & ->) & ->); reflexivity|intros H; inversion H; auto].
    - rewrite Nat.eqb_eq. split; [intros ->; reflexivity|intros H; inversion H; reflexivity]. }
  intros [a1 a2 a3] [b1 b2 b3]. unfold v2_eqb. cbn [v2_kind v2_api_version v2_spec].
  rewrite !andb_true_iff, !str_eqb_spec, S. split; [intros ((-> & ->) & ->); reflexivity|intros H; inversion H; auto].
Qed.

Lemma raise_if_negb : forall c e, raise_if (negb c) e = Ok tt <-> c = true.
Proof. intros [] e; cbn; split; intros H; try reflexivity; discriminate. Qed.

Lemma v2_verifier_iff : forall c vr, v2_verifier_from_certificate c = Ok vr <->
  exists d, get_key_details c = Ok d /\ vr = V2_x509 (c_der c) d.
Proof.
  intros c vr. unfold v2_verifier_from_certificate. rewrite b64decode_b64encode. cbn [bind]. split.
  - intros H. inv_bind H. inversion H. eauto.
  - intros (d & -> & ->). reflexivity.
Qed.

(** *** artifacts *)
Theorem artifact_accepted_iff : forall env ps now v i b p,
  verify_artifact env ps now v i b p = Ok tt <->
  (exists times, signer_accepted env now v b p times) /\
  exists ms key digest,
    bm_msig (b_inner b) = Some ms /\
    sha256_digest env i = mkHashed HA_SHA2_256 digest /\
    (forall a d, ms_digest ms = Some (a, d) -> d = digest) /\
    c_pubkey (b_cert b) = Ok key /\
    e_sig_verify env (ECDSA_prehashed SHA256) key (ms_signature ms) digest = Ok tt /\
    records_artifact ps (b_entry b) (b_cert b) digest (ms_signature ms).
Proof.
  intros env ps now v i b p. unfold verify_artifact. rewrite <- signer_accepted_iff. split.
  - intros H. apply bind_ok_inv in H. destruct H as (u & Sg & H). destruct u. split; [assumption|].
    destruct (bm_msig (b_inner b)) as [ms|] eqn:Ms; [|discriminate].
    apply bind_ok_inv in H. destruct H as (u & Dg & H). apply raise_if_ok in Dg.
    apply bind_ok_inv in H. destruct H as (u1 & Sv & H).
    apply bind_ok_inv in H. destruct H as (u2 & Kd & H). apply raise_if_ok in Kd. apply negb_false_iff in Kd. apply str_eqb_spec in Kd.
    destruct (sha256_digest env i) as [alg digest] eqn:Hi.
    cbn [h_digest] in *.
    assert (Sv' : exists key, c_pubkey (b_cert b) = Ok key /\ alg = HA_SHA2_256 /\ e_sig_verify env (ECDSA_prehashed SHA256) key (ms_signature ms) digest = Ok u1).
    { destruct (c_pubkey (b_cert b)) as [key|e]; cbn [bind] in Sv; [|cbn [try_except] in Sv; destruct (is_invalid_signature e); discriminate].
      destruct alg; cbn [as_prehashed h_alg bind] in Sv; try discriminate.
      exists key. split; [reflexivity|]. split; [reflexivity|].
      destruct (e_sig_verify _ _ _ _ _) as [u'|e]; cbn [try_except] in Sv; [assumption|].
      destruct (is_invalid_signature e); discriminate. }
    destruct Sv' as (key & Key & -> & Sv'). destruct u1.
    exists ms, key, digest. split; [reflexivity|]. split; [reflexivity|]. split.
    { intros a d E. rewrite E in Dg. apply negb_false_iff in Dg. apply bytes_eqb_spec in Dg. congruence. }
    split; [assumption|]. split; [assumption|]. split; [assumption|].
    destruct (str_eqb (le_version (b_entry b)) (s2l "0.0.2")) eqn:V2.
    + right. apply str_eqb_spec in V2. split; [assumption|]. unfold validate_hashedrekord_v002 in H. rewrite Ms in H.
      cbn [h_digest h_alg] in H. rewrite !b64decode_b64encode in H. cbn [bind] in H.
      apply bind_ok_inv in H. destruct H as (vr & Vr & H). apply v2_verifier_iff in Vr. destruct Vr as (d & Kd' & ->).
      apply bind_ok_inv in H. destruct H as (act & Act & H). apply raise_if_negb in H. apply v2_eqb_spec in H. subst act.
      exists d. split; [assumption|]. rewrite Act, Kd, V2. reflexivity.
    + destruct (str_eqb (le_version (b_entry b)) (s2l "0.0.1")) eqn:V1; [|discriminate].
      left. apply str_eqb_spec in V1. split; [assumption|]. unfold validate_hashedrekord_v001 in H. rewrite Ms in H.
      cbn [hashedrekord_from_parts as_hashedrekord_algorithm as_prehashed h_alg h_digest bind] in H.
      apply bind_ok_inv in H. destruct H as (act & Act & H). apply raise_if_negb in H. apply h1_eqb_spec in H. subst act.
      exact Act.
  - intros (Sg & ms & key & digest & Ms & Hi & Dg & Key & Sv & Kd & R). rewrite Sg, Ms, Hi. cbn [bind h_digest].
    replace (match ms_digest ms with None => false | Some (_, d) => negb (bytes_eqb digest d) end) with false.
    2:{ destruct (ms_digest ms) as [[a d]|]; [|reflexivity]. symmetry. apply negb_false_iff. apply bytes_eqb_spec. symmetry. eauto. }
    cbn [raise_if bind]. rewrite Key. cbn [bind as_prehashed h_alg]. rewrite Sv. cbn [try_except bind].
    replace (str_eqb (le_kind (b_entry b)) (s2l "hashedrekord")) with true by (symmetry; apply str_eqb_spec; assumption).
    cbn [negb raise_if bind]. destruct R as [[V P]|(V & d & Gd & P)].
    + replace (str_eqb (le_version (b_entry b)) (s2l "0.0.2")) with false by (rewrite V; reflexivity).
      replace (str_eqb (le_version (b_entry b)) (s2l "0.0.1")) with true by (rewrite V; reflexivity).
      unfold validate_hashedrekord_v001. rewrite Ms, P.
      cbn [hashedrekord_from_parts as_hashedrekord_algorithm as_prehashed h_alg h_digest bind]. apply raise_if_negb. apply h1_eqb_spec. reflexivity.
    + replace (str_eqb (le_version (b_entry b)) (s2l "0.0.2")) with true by (rewrite V; reflexivity).
      unfold validate_hashedrekord_v002. rewrite Ms. cbn [h_digest h_alg]. rewrite !b64decode_b64encode. cbn [bind].
      rewrite (proj2 (v2_verifier_iff _ _) (ex_intro _ d (conj Gd eq_refl))). cbn [bind]. rewrite P. cbn [bind].
      apply raise_if_negb. apply v2_eqb_spec. rewrite Kd, V. reflexivity.
Qed.

(** *** envelopes *)
Lemma sigs_eqb_spec : forall a b,
  list_eqb (fun x y : str * str => str_eqb (fst x) (fst y) && str_eqb (snd x) (snd y)) a b = true <-> a = b.
Proof.
  apply list_eqb_spec. intros [x1 x2] [y1 y2]. cbn. rewrite andb_true_iff, !str_eqb_spec.
  split; [intros [-> ->]; reflexivity|intros H; inversion H; auto].
Qed.

Theorem dsse_accepted_iff : forall env ps now v b p type_ payload,
  verify_dsse env ps now v b p = Ok (type_, payload) <->
  (exists times, signer_accepted env now v b p times) /\
  exists m sg key x,
    bm_env (b_inner b) = Some m /\ em_type m = type_ /\ em_payload m = payload /\
    em_sigs m = [sg] /\ sg <> nil /\
    c_pubkey (b_cert b) = Ok key /\ pae type_ payload = Ok x /\
    e_sig_verify env (ECDSA SHA256) key sg x = Ok tt /\
    records_envelope env ps (b_entry b) (b_cert b) type_ payload sg.
Proof.
  intros env ps now v b p type_ payload. unfold verify_dsse. rewrite <- signer_accepted_iff. split.
  - intros H. apply bind_ok_inv in H. destruct H as (u & Sg & H). destruct u. split; [assumption|].
    apply bind_ok_inv in H. destruct H as (oe & Oe & H).
    destruct oe as [evp|]; [|discriminate].
    assert (Oe0 := Oe).
    unfold bundle_envelope in Oe. destruct (bm_env (b_inner b)) as [m|] eqn:Em; [|discriminate].
    apply bind_ok_inv in Oe. destruct Oe as (e' & Me & Oe). inversion Oe; subst e'. clear Oe.
    apply bind_ok_inv in H. destruct H as (key & Key & H).
    apply bind_ok_inv in H. destruct H as (pl & Dv & H).
    apply bind_ok_inv in H. destruct H as (u & R & H).
    apply (C22_verified_payload_is_signed _ _ _ _ _ Me) in Dv. destruct Dv as (-> & sg & x & Es & Px & Sv).
    apply C22_envelope_has_exactly_one_signature in Me. destruct Me as (Mi & Ms & Mn).
    inversion H; subst type_ payload. clear H. rewrite Mi in *.
    assert (Eg : env_signature evp = sg) by congruence.
    exists m, sg, key, x. split; [reflexivity|]. split; [reflexivity|]. split; [reflexivity|]. split; [assumption|].
    split; [congruence|]. split; [assumption|]. split; [assumption|]. split; [assumption|].
    destruct (str_eqb (le_kind (b_entry b)) (s2l "hashedrekord") && str_eqb (le_version (b_entry b)) (s2l "0.0.2")) eqn:K2.
    + right. apply andb_true_iff in K2. rewrite !str_eqb_spec in K2. destruct K2 as [K V]. split; [assumption|]. split; [assumption|].
      unfold validate_hashedrekord_v002_dsse in R. rewrite Oe0 in R. cbn [bind] in R. rewrite Mi, Es in R. cbn [length Nat.eqb negb raise_if bind] in R.
      apply bind_ok_inv in R. destruct R as (vr & Vr & R). apply v2_verifier_iff in Vr. destruct Vr as (d & Kd & ->).
      apply bind_ok_inv in R. destruct R as ((alg & h) & Ph & R). unfold envelope_pae in R. rewrite Mi, Px in R. cbn [bind] in R.
      rewrite !b64decode_b64encode in R. cbn [bind] in R.
      apply bind_ok_inv in R. destruct R as (act & Act & R). destruct u. apply raise_if_negb in R. apply v2_eqb_spec in R. subst act.
      exists d, alg, h, x. split; [assumption|]. split; [assumption|]. split; [assumption|]. rewrite Act, K, V, Eg. reflexivity.
    + destruct (str_eqb (le_kind (b_entry b)) (s2l "dsse") && str_eqb (le_version (b_entry b)) (s2l "0.0.1")) eqn:K1; [|discriminate].
      left. apply andb_true_iff in K1. rewrite !str_eqb_spec in K1. destruct K1 as [K V]. split; [assumption|]. split; [assumption|].
      unfold validate_dsse_v001 in R. rewrite Oe0 in R. cbn [bind] in R.
      apply bind_ok_inv in R. destruct R as (body & Pb & R).
      assert (Pb' : p_dsse ps (le_body (b_entry b)) = Ok body).
      { destruct (p_dsse ps (le_body (b_entry b))) as [a|e]; cbn [try_except] in Pb; [assumption|].
        destruct (exn_eqb EPydantic e); discriminate. }
      rewrite Pb'. destruct body as [ph sgs]. cbn [d1_payload_hash d1_signatures] in R.
      destruct ph as [[s val]|]; [|discriminate].
      apply bind_ok_inv in R. destruct R as (u1 & R1 & R). apply bind_ok_inv in R. destruct R as (u2 & R2 & R).
      apply raise_if_ok in R1, R2, R. apply negb_false_iff in R1, R2. apply str_eqb_spec in R2. subst s val.
      destruct sgs as [l|]; [|discriminate]. apply negb_false_iff in R. apply sigs_eqb_spec in R. subst l.
      rewrite Mi, Es. reflexivity.
  - intros (Sg & m & sg & key & x & Em & Et & Ep & Es & Ns & Key & Px & Sv & R). rewrite Sg. cbn [bind]. subst type_ payload.
    assert (Me : make_envelope m = Ok (mkEnvelope m sg)) by (apply C22_envelope_has_exactly_one_signature; auto).
    assert (Oe : bundle_envelope b = Ok (Some (mkEnvelope m sg))) by (unfold bundle_envelope; rewrite Em, Me; reflexivity).
    rewrite Oe. cbn [bind]. rewrite Key. cbn [bind].
    rewrite (proj2 (C22_verified_payload_is_signed env key m _ (em_payload m) Me)) by eauto 10.
    cbn [bind env_inner]. destruct R as [(K & V & P)|(K & V & d & alg & h & x' & Kd & Ph & Px' & P)].
    + replace (str_eqb (le_kind (b_entry b)) (s2l "hashedrekord") && str_eqb (le_version (b_entry b)) (s2l "0.0.2")) with false
        by (rewrite K, V; reflexivity).
      replace (str_eqb (le_kind (b_entry b)) (s2l "dsse") && str_eqb (le_version (b_entry b)) (s2l "0.0.1")) with true
        by (rewrite K, V; reflexivity).
      unfold validate_dsse_v001. rewrite Oe. cbn [bind]. rewrite P. cbn [try_except bind d1_payload_hash d1_signatures negb raise_if env_inner sha256_digest h_digest].
      rewrite (proj2 (str_eqb_spec _ _) eq_refl). cbn [negb raise_if bind]. rewrite Es. cbn [map]. unfold base64_encode_pem_cert.
      rewrite (proj2 (sigs_eqb_spec [(b64encode sg, b64encode (ascii_bytes (pem_of_der (c_der (b_cert b)))))]
                 [(b64encode sg, pem_b64 (b_cert b))]) eq_refl). reflexivity.
    + replace (str_eqb (le_kind (b_entry b)) (s2l "hashedrekord") && str_eqb (le_version (b_entry b)) (s2l "0.0.2")) with true
        by (rewrite K, V; reflexivity).
      unfold validate_hashedrekord_v002_dsse. rewrite Oe. cbn [bind env_inner env_signature]. rewrite Es. cbn [length Nat.eqb negb raise_if bind].
      rewrite (proj2 (v2_verifier_iff _ _) (ex_intro _ d (conj Kd eq_refl))). cbn [bind]. rewrite Ph. cbn [bind].
      unfold envelope_pae. cbn [env_inner]. rewrite Px'. cbn [bind]. rewrite !b64decode_b64encode. cbn [bind]. rewrite P. cbn [bind].
      rewrite (proj2 (v2_eqb_spec _ _)); [reflexivity|]. rewrite K, V. reflexivity.
Qed.
