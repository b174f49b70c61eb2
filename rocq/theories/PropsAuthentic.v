(** Properties C77 to C79: what an accepted bundle proves about the world, if the services (C77)
    or only the logs (C78) are honest, and that texts signed for one purpose cannot serve another (C79). *)
From Verif Require Import Base Codec CodecMore NoteText Messages ToyHash Env Keyring KeyringProofs PropsKeyring MerkleSpec Merkle MerkleProofs PropsMerkle
  PyText Checkpoint CheckpointProofs PropsCheckpoint LogEntry PropsLogEntry Cert PropsCert FloatMs Sct PropsSct Dsse PropsDsse
  KeyDetails Policy PropsPolicy TrustedRoot PropsTrustedRoot Hashing Bundle PropsBundle Verifier VerifierSpec PropsVerifier ToyEnv ToyBundles.

(** ** Specification *)

(** What happened in the world, as far as it matters. *)
Record History := mkHistory {
  hs_person : Type;
  (** the identity provider [issuer] confirmed that the person is [identity] *)
  hs_login : hs_person -> forall (identity issuer : str), time -> Prop;
  (** the CA issued the certificate to the person *)
  hs_issued : Cert -> hs_person -> time -> Prop;
  (** the owner of the key signed this SHA-256 digest *)
  hs_signed : pubkey -> bytes -> time -> Prop;
  (** somebody else could use the private key *)
  hs_leaked : pubkey -> time -> Prop;
  (** the byte string existed *)
  hs_existed : bytes -> time -> Prop;
  (** the log with this key accepted an entry with this body, in this second *)
  hs_logged : pubkey -> bytes -> Z -> Prop;
  (** the log with this key published the head of the tree with these entries *)
  hs_head : pubkey -> list bytes -> Prop;
  (** the CT log with this key accepted this entry *)
  hs_ct : pubkey -> ct_entry -> Prop
}.
Definition ever (h : History) (x : bytes) : Prop := exists t, hs_existed h x t.

(** The CA issues a certificate only to a person whom the issuer named in it confirmed to have
    the identity named in it. *)
Definition cert_names (c : Cert) (identity issuer : str) : Prop :=
  (exists x sans n, c_exts c = Ok x /\ x_san x = Some sans /\ In n sans /\ names_identity n identity) /\
  (exists u, utf8_encode issuer = Some u /\ has_ext c [1;3;6;1;4;1;57264;1;1]%N u).
Definition honest_ca (env : Env) (h : History) (roots : list Cert) : Prop :=
  forall der c t chain, ever h der -> e_parse_cert env der = Ok c -> e_chain env roots t c = Ok chain ->
  exists who t0, hs_issued h c who t0 /\ forall identity issuer, cert_names c identity issuer -> hs_login h who identity issuer t0.

(** A timestamp authority gives a token with a time, in its window, only for data that existed. *)
Definition honest_tsas (env : Env) (h : History) (tr : TrustedRootMsg) : Prop :=
  forall cas ca raw tok msg, trusted_tsas env tr cas -> In ca cas -> ever h raw -> e_decode_tsr env raw = Ok tok ->
  e_tsa_verify env (ca_certs ca) tok msg = Ok tt -> in_window (cam_valid_for (ca_inner ca)) (tsr_time tok) ->
  hs_existed h msg (tsr_time tok).

(** A log's key signs nothing but promises for entries it accepted and heads of trees it published.
    What an accepted entry contains existed when it was accepted. *)
Definition is_promise (h : History) (k : pubkey) (m : bytes) : Prop :=
  exists body secs id index, hs_logged h k body secs /\ m = ascii_bytes (set_text body secs id index).
Definition is_head (env : Env) (h : History) (k : pubkey) (m : bytes) : Prop :=
  exists log origin exts, hs_head h k log /\
    good_body origin (N.of_nat (length log)) (MTH (e_hash env SHA256) log) exts /\
    utf8_encode (lines_text (body_lines origin (N.of_nat (length log)) (MTH (e_hash env SHA256) log) exts)) = Some m.
Definition body_contains (ps : Parsers) (body sg : bytes) : Prop :=
  (exists r, p_hashedrekord ps body = Ok r /\ h1_sig r = Some (b64encode sg)) \/
  (exists r sigs pem, p_dsse ps body = Ok r /\ d1_signatures r = Some sigs /\ In (b64encode sg, pem) sigs).
Definition honest_logs (env : Env) (ps : Parsers) (h : History) (now : time) (tr : TrustedRootMsg) : Prop :=
  forall ms k s, rekor_keys now tr ms -> registered env ms k s ->
  (forall sg m, ever h sg -> e_sig_verify env s k sg m = Ok tt -> is_promise h k m \/ is_head env h k m) /\
  (forall body secs sg, hs_logged h k body secs -> body_contains ps body sg -> hs_existed h sg (secs * 1000000)%Z).

(** A CT log's key signs nothing but promises for entries it accepted. *)
Definition honest_ct_logs (env : Env) (h : History) (now : time) (tr : TrustedRootMsg) : Prop :=
  forall ms k s sg d, ct_keys now tr ms -> registered env ms k s -> ever h sg -> e_sig_verify env s k sg d = Ok tt ->
  forall c, decode_ct d = Some c -> hs_ct h k (ct_entry_of c).

(** Persons keep the keys of their certificates to themselves until the certificates expire. *)
Definition careful (h : History) (who : hs_person h) : Prop :=
  forall c t0 k t, hs_issued h c who t0 -> c_pubkey c = Ok k -> hs_leaked h k t -> (c_not_after c < t)%Z.
(** Nobody forges signatures: what verifies and exists was made by the owner, unless the key had
    leaked. *)
Definition unforgeable (env : Env) (h : History) (k : pubkey) : Prop :=
  forall sg d t, hs_existed h sg t ->
  (e_sig_verify env (ECDSA_prehashed SHA256) k sg d = Ok tt \/
   exists m, e_sig_verify env (ECDSA SHA256) k sg m = Ok tt /\ d = e_hash env SHA256 m) ->
  exists t', (t' <= t)%Z /\ (hs_signed h k d t' \/ hs_leaked h k t').

(** The byte strings a bundle carries: certificates, timestamps, promises, signatures of checkpoints. *)
Definition carries (m : BundleMsg) (x : bytes) : Prop :=
  vm_cert (bm_vm m) = Some x \/ (exists l, vm_chain (bm_vm m) = Some l /\ In x l) \/ In x (vm_timestamps (bm_vm m)) \/
  exists e, In e (vm_entries (bm_vm m)) /\
   (le_promise e = Some x \/
    exists ip text pre name b64 post hint, le_proof e = Some ip /\ ip_checkpoint ip = Some text /\
      text = pre ++ sig_line name b64 ++ post /\ name <> nil /\ no_space name = true /\ no_space b64 = true /\
      b64decode b64 = Ok (hint ++ x) /\ length hint = 4).

(** ** Promises are not heads *)

Lemma set_text_no_nl : forall b t l i, no_nl (set_text b t l i) = true.
Proof.
  intros. unfold set_text, no_nl. rewrite !forallb_app.
  assert (B : forall x, forallb (fun c => negb (c =? NL)%N) (b64encode x) = true).
  { intros x. apply (nospace_nonl _ (b64_nospace x)). }
  assert (D : forall z, forallb (fun c => negb (c =? NL)%N) (dec_Z z) = true).
  { intros z. unfold dec_Z. assert (Q : forall n, forallb (fun c => negb (c =? NL)%N) (dec n) = true).
    { intros n. apply (nospace_nonl _). apply digits_nospace. apply dec_digits. }
    destruct z; [apply Q|apply Q|]. cbn [forallb]. rewrite Q. reflexivity. }
  assert (Hx : forall x, forallb (fun c => negb (c =? NL)%N) (hex x) = true).
  { induction x as [|y x IH]; [reflexivity|]. cbn [hex forallb]. rewrite IH.
    assert (Q : forall n, negb (hex_digit n =? NL)%N = true).
    { intros n. unfold hex_digit, NL. destruct (N.ltb_spec n 10); apply negb_true_iff, N.eqb_neq; lia. }
    rewrite !Q. reflexivity. }
  rewrite B, !D, Hx. reflexivity.
Qed.

Lemma utf8_inj : forall s s' b, utf8_encode s = Some b -> utf8_encode s' = Some b -> s = s'.
Proof. intros s s' b H H'. apply utf8_decode_iff in H, H'. congruence. Qed.

Lemma set_text_utf8 : forall b t l i, utf8_encode (set_text b t l i) = Some (ascii_bytes (set_text b t l i)).
Proof. intros. apply utf8_encode_ascii. apply set_text_ascii. Qed.

Lemma no_nl_not_in : forall l, no_nl l = true -> ~ In NL l.
Proof.
  intros l H I. unfold no_nl in H. rewrite forallb_forall in H. specialize (H NL I). rewrite N.eqb_refl in H. discriminate.
Qed.

(** No text ending in a newline is a promise. *)
Lemma note_not_promise : forall p m b t l i, utf8_encode (p ++ [NL]) = Some m -> m <> ascii_bytes (set_text b t l i).
Proof.
  intros p m b t l i H ->. pose proof (utf8_inj _ _ _ H (set_text_utf8 b t l i)) as E.
  apply (no_nl_not_in _ (set_text_no_nl b t l i)). rewrite <- E. apply in_or_app. right. left. reflexivity.
Qed.

Lemma promise_not_head : forall env h k b t l i, ~ is_head env h k (ascii_bytes (set_text b t l i)).
Proof.
  intros env h k b t l i (log & o & exts & _ & _ & U). unfold body_lines in U. rewrite lines_text_join in U by discriminate.
  exact (note_not_promise _ _ _ _ _ _ U eq_refl).
Qed.

(** What the code reads in a head's text is the root of the published tree. *)
Lemma head_root : forall env h k p m origin size hash other root,
  is_head env h k m -> utf8_encode (p ++ [NL]) = Some m ->
  split_on NL (strip (p ++ [NL])) = origin :: size :: hash :: other -> b64decode hash = Ok root ->
  exists log, hs_head h k log /\ root = MTH (e_hash env SHA256) log.
Proof.
  intros env h k p m origin size hash other root (log & o & exts & Hh & G & U) U' Sp D.
  exists log. split; [assumption|]. rewrite (utf8_inj _ _ _ U' U), (strip_body _ _ _ _ G) in Sp.
  rewrite split_join in Sp.
  - unfold body_lines in Sp. injection Sp as _ _ <- _. rewrite b64decode_b64encode in D. congruence.
  - discriminate.
  - apply forallb_forall. intros l I. apply good_no_nl. pose proof (body_lines_good _ _ _ _ G) as B. rewrite forallb_forall in B. auto.
Qed.

(** ** C77: authenticity *)

Lemma cert_carried : forall env m b, make_bundle env m = Ok b ->
  exists der, carries m der /\ e_parse_cert env der = Ok (b_cert b).
Proof.
  intros env m b H. apply C34_bundle_iff in H. destruct H as (_ & [(_ & der & V & P)|(_ & der & ders & V & P & _)] & _); exists der; (split; [|assumption]).
  - left. assumption.
  - right. left. exists (der :: ders). split; [assumption|left; reflexivity].
Qed.

Lemma promise_carried : forall env m b set, make_bundle env m = Ok b -> le_promise (b_entry b) = Some set -> carries m set.
Proof.
  intros env m b set H P. apply C34_bundle_iff in H. destruct H as (_ & _ & En & _). do 3 right. exists (b_entry b).
  rewrite En. split; [left; reflexivity|left; assumption].
Qed.

(** The signature existed at every time that was established. *)
Lemma signature_existed : forall env ps h now v m b p times sg t,
  make_bundle env m = Ok b -> (forall x, carries m x -> ever h x) ->
  honest_tsas env h (vf_root v) -> honest_logs env ps h now (vf_root v) ->
  signer_accepted env now v b p times -> signature_of b sg ->
  (le_version (b_entry b) = s2l "0.0.1" -> body_contains ps (le_body (b_entry b)) sg) ->
  In t times -> hs_existed h sg t.
Proof.
  intros env ps h now v m b p times sg t Mb Ev Ts Lg A Sg Bc I.
  destruct (C27_trusted_time_sources _ _ _ _ _ _ _ A I)
    as [(raw & tok & cas & ca & sg' & Ir & Dr & -> & Tr & Ic & Sg' & (_ & V & W))|(secs & set & ms & k & s & _ & _ & -> & Pr & Ve & Rk & R & V)].
  - assert (sg' = sg) as ->.
    { unfold signature_of in *. destruct (bm_env (b_inner b)); [destruct Sg, Sg'; congruence|].
      destruct Sg as (? & ? & ?), Sg' as (? & ? & ?); congruence. }
    eapply Ts; try eassumption. apply Ev. right. right. left.
    apply C34_bundle_iff in Mb. destruct Mb as (<- & _). assumption.
  - destruct (Lg ms k s Rk R) as [L1 L2].
    destruct (L1 set _ (Ev _ (promise_carried _ _ _ _ Mb Pr)) V) as [(body & secs' & id & idx & Lo & E)|Hd].
    + apply ascii_bytes_inj in E; [|apply set_text_ascii|apply set_text_ascii]. apply set_text_inj in E.
      destruct E as (<- & <- & _). eapply L2; [eassumption|auto].
    + exfalso. eapply promise_not_head; eassumption.
Qed.

Lemma signer_identified : forall env h now v m b times identity issuer,
  make_bundle env m = Ok b -> (forall x, carries m x -> ever h x) -> honest_ca env h (vf_fulcio v) ->
  issuer <> nil -> signer_accepted env now v b (P_identity identity (Some issuer)) times ->
  exists who t0, hs_issued h (b_cert b) who t0 /\ hs_login h who identity issuer t0.
Proof.
  intros env h now v m b times identity issuer Mb Ev Ca Ni A.
  destruct (C24_accepted_certificate _ _ _ _ _ _ A) as (Nn & Ch & _ & _ & Po).
  destruct times as [|t times]; [congruence|]. destruct (Ch t (or_introl eq_refl)) as (_ & chain & E).
  destruct (cert_carried _ _ _ Mb) as (der & Cd & Pd).
  destruct (Ca der _ _ _ (Ev _ Cd) Pd E) as (who & t0 & Is & Lo). exists who, t0. split; [assumption|]. apply Lo.
  change (identity_verify identity (Some issuer) (b_cert b) = Ok tt) in Po. apply C31_identity_accepts_iff in Po.
  destruct Po as (Io & x & sans & n & X & Sa & _ & In_ & Nm). split; [exists x, sans, n; auto|]. exact (Io _ eq_refl Ni).
Qed.

(** The artifact was signed, before the certificate expired, with the key of a person whom the
    expected issuer confirmed to be the expected identity. *)
Theorem C77_artifact_signed_by_identity : forall env ps h now v m b a identity issuer,
  honest_ca env h (vf_fulcio v) -> honest_tsas env h (vf_root v) -> honest_logs env ps h now (vf_root v) ->
  make_bundle env m = Ok b -> (forall x, carries m x -> ever h x) -> bm_env m = None -> issuer <> nil ->
  verify_artifact env ps now v (In_bytes a) b (P_identity identity (Some issuer)) = Ok tt ->
  exists who t0 key, hs_login h who identity issuer t0 /\ hs_issued h (b_cert b) who t0 /\ c_pubkey (b_cert b) = Ok key /\
    (careful h who -> unforgeable env h key ->
     exists t, (t <= c_not_after (b_cert b))%Z /\ hs_signed h key (e_hash env SHA256 a) t).
Proof.
  intros env ps h now v m b a identity issuer Ca Ts Lg Mb Ev Ne Ni V.
  apply artifact_accepted_iff in V. destruct V as ((times & A) & ms & key & d & Ms & Hd & _ & Key & Sv & Rec).
  cbn [sha256_digest] in Hd. injection Hd as <-.
  destruct (signer_identified _ _ _ _ _ _ _ _ _ Mb Ev Ca Ni A) as (who & t0 & Is & Lo).
  exists who, t0, key. split; [assumption|]. split; [assumption|]. split; [assumption|].
  intros Cf Uf. pose proof A as (_ & Nn & _ & _ & _ & _ & W). destruct times as [|t times]; [congruence|].
  assert (Sg : signature_of b (ms_signature ms)).
  { apply C34_bundle_iff in Mb. destruct Mb as (<- & _). unfold signature_of. rewrite Ne. eauto. }
  assert (Ex : hs_existed h (ms_signature ms) t).
  { eapply signature_existed; try eassumption; [|left; reflexivity]. intros Ve.
    destruct Rec as (_ & [(_ & P)|(Ve' & _)]); [|rewrite Ve in Ve'; discriminate]. left. eexists. split; [eassumption|reflexivity]. }
  destruct (Uf _ _ _ Ex (or_introl Sv)) as (t' & Lt & [Sd|Lk]).
  - exists t'. split; [|assumption]. specialize (W t (or_introl eq_refl)). lia.
  - pose proof (Cf _ _ _ _ Is Key Lk). specialize (W t (or_introl eq_refl)). lia.
Qed.

(** The same for envelopes. *)
Theorem C77_envelope_signed_by_identity : forall env ps h now v m b identity issuer type_ payload,
  honest_ca env h (vf_fulcio v) -> honest_tsas env h (vf_root v) -> honest_logs env ps h now (vf_root v) ->
  make_bundle env m = Ok b -> (forall x, carries m x -> ever h x) -> issuer <> nil ->
  verify_dsse env ps now v b (P_identity identity (Some issuer)) = Ok (type_, payload) ->
  exists who t0 key, hs_login h who identity issuer t0 /\ hs_issued h (b_cert b) who t0 /\ c_pubkey (b_cert b) = Ok key /\
    (careful h who -> unforgeable env h key ->
     exists t x, (t <= c_not_after (b_cert b))%Z /\ pae type_ payload = Ok x /\ hs_signed h key (e_hash env SHA256 x) t).
Proof.
  intros env ps h now v m b identity issuer type_ payload Ca Ts Lg Mb Ev Ni V.
  apply dsse_accepted_iff in V. destruct V as ((times & A) & em & sg & key & x & Em & _ & _ & Es & Nz & Key & Px & Sv & Rec).
  destruct (signer_identified _ _ _ _ _ _ _ _ _ Mb Ev Ca Ni A) as (who & t0 & Is & Lo).
  exists who, t0, key. split; [assumption|]. split; [assumption|]. split; [assumption|].
  intros Cf Uf. pose proof A as (_ & Nn & _ & _ & _ & _ & W). destruct times as [|t times]; [congruence|].
  assert (Sg : signature_of b sg) by (unfold signature_of; rewrite Em; auto).
  assert (Ex : hs_existed h sg t).
  { eapply signature_existed; try eassumption; [|left; reflexivity]. intros Ve.
    destruct Rec as [(_ & _ & P)|(_ & Ve' & _)]; [|rewrite Ve in Ve'; discriminate]. right. eexists. eexists. exists (pem_b64 (b_cert b)).
    split; [eassumption|]. split; [reflexivity|left; reflexivity]. }
  destruct (Uf sg (e_hash env SHA256 x) t Ex) as (t' & Lt & [Sd|Lk]); [right; eauto| |].
  - exists t', x. split; [|split; assumption]. specialize (W t (or_introl eq_refl)). lia.
  - pose proof (Cf _ _ _ _ Is Key Lk). specialize (W t (or_introl eq_refl)). lia.
Qed.

(** ** C78: transparency *)

(** The strings of the log's tree and of the inclusion proof collide. *)
Definition hash_collision (env : Env) (log : list bytes) (e : LogEntry) : Prop :=
  exists ip path, le_proof e = Some ip /\ map snd path = ip_hashes ip /\
    collision_between (e_hash env SHA256) (tree_strings (e_hash env SHA256) log)
      (proof_strings (e_hash env SHA256) (le_body e) path).

Lemma entry_published : forall env ps h now v m b p times,
  (forall x, length (e_hash env SHA256 x) = 32) ->
  make_bundle env m = Ok b -> (forall x, carries m x -> ever h x) -> honest_logs env ps h now (vf_root v) ->
  signer_accepted env now v b p times ->
  exists ms k s log, rekor_keys now (vf_root v) ms /\ registered env ms k s /\ hs_head h k log /\
    (In (le_body (b_entry b)) log \/ hash_collision env log (b_entry b)).
Proof.
  intros env ps h now v m b p times HL Mb Ev Lg (_ & _ & _ & _ & _ & (rk & Rk & En) & _).
  apply rekor_keyring_keys in Rk. destruct Rk as (ms & K & M).
  pose proof Mb as Mb0. apply C34_bundle_iff in Mb0. destruct Mb0 as (_ & _ & Es & _ & (ip & text & Hip & Ht) & _).
  apply C09_entry_verification_complete in En. destruct En as (Inc & Cp & _).
  destruct (C05_accepted_checkpoint _ _ _ _ _ _ M Hip Cp) as (text' & p0 & data & Ht' & Hs & _ & Hsig & Hb).
  assert (Et : text' = text) by congruence. rewrite Et in Hs. clear Ht' Et.
  destruct Hsig as (pre & name & b64 & post & hint & sg & noteb & k & s & Hd & Nz & Nn & Nb & Hdec & Hl & _ & _ & Hu & Hr & Hv & _).
  destruct Hb as (o & sz & hh & ot & Hsp & _ & _ & Hroot).
  assert (Cs : carries m sg).
  { do 3 right. exists (b_entry b). rewrite Es. split; [left; reflexivity|]. right.
    exists ip, text, (p0 ++ [NL; NL] ++ pre), name, b64, post, hint. split; [assumption|]. split; [assumption|]. split; [|auto].
    rewrite Hs, Hd, <- !app_assoc. reflexivity. }
  destruct (Lg ms k s K Hr) as [L1 _]. destruct (L1 sg noteb (Ev _ Cs) Hv) as [(body & secs & id & idx & _ & E)|Hh].
  { exfalso. eapply note_not_promise; eassumption. }
  apply note_lines_iff in Hsp. destruct (head_root _ _ _ _ _ _ _ _ _ _ Hh Hu Hsp Hroot) as (log & Hlog & Er).
  exists ms, k, s, log. split; [assumption|]. split; [assumption|]. split; [assumption|].
  destruct (C02_inclusion_implies_membership _ HL log _ _ Hip Er Inc) as [I|(path & Pa & _ & C)]; [left; assumption|].
  right. exists ip, path. auto.
Qed.

(** Whoever signed and whoever issued the certificate: an accepted artifact's digest, its signature
    and the certificate are recorded in a tree whose head a trusted log published. *)
Theorem C78_artifact_is_public : forall env ps h now v m b i p,
  (forall x, length (e_hash env SHA256 x) = 32) -> honest_logs env ps h now (vf_root v) ->
  make_bundle env m = Ok b -> (forall x, carries m x -> ever h x) ->
  verify_artifact env ps now v i b p = Ok tt ->
  exists ms k s log d sg, rekor_keys now (vf_root v) ms /\ registered env ms k s /\ hs_head h k log /\
    sha256_digest env i = mkHashed HA_SHA2_256 d /\
    records_artifact ps (b_entry b) (b_cert b) d sg /\
    (In (le_body (b_entry b)) log \/ hash_collision env log (b_entry b)).
Proof.
  intros env ps h now v m b i p HL Lg Mb Ev V.
  apply artifact_accepted_iff in V. destruct V as ((times & A) & mm & key & d & Ms & Hd & _ & Key & Sv & Rec).
  destruct (entry_published _ _ _ _ _ _ _ _ _ HL Mb Ev Lg A) as (ms & k & s & log & K & R & Hh & I).
  exists ms, k, s, log, d, (ms_signature mm). auto 10.
Qed.

Theorem C78_envelope_is_public : forall env ps h now v m b p type_ payload,
  (forall x, length (e_hash env SHA256 x) = 32) -> honest_logs env ps h now (vf_root v) ->
  make_bundle env m = Ok b -> (forall x, carries m x -> ever h x) ->
  verify_dsse env ps now v b p = Ok (type_, payload) ->
  exists ms k s log sg, rekor_keys now (vf_root v) ms /\ registered env ms k s /\ hs_head h k log /\
    records_envelope env ps (b_entry b) (b_cert b) type_ payload sg /\
    (In (le_body (b_entry b)) log \/ hash_collision env log (b_entry b)).
Proof.
  intros env ps h now v m b p type_ payload HL Lg Mb Ev V.
  apply dsse_accepted_iff in V. destruct V as ((times & A) & em & sg & key & x & _ & _ & _ & _ & _ & _ & _ & _ & Rec).
  destruct (entry_published _ _ _ _ _ _ _ _ _ HL Mb Ev Lg A) as (ms & k & s & log & K & R & Hh & I).
  exists ms, k, s, log, sg. auto 10.
Qed.

(** The certificate, or its precertificate for the key of a CA in the chain, was accepted by a
    trusted CT log. *)
Theorem C78_certificate_is_public : forall env ps h now v b p,
  honest_ct_logs env h now (vf_root v) ->
  (forall x s, c_exts (b_cert b) = Ok x -> x_scts x = Some [s] -> ever h (sct_signature s)) ->
  (exists i, verify_artifact env ps now v i b p = Ok tt) \/ (exists r, verify_dsse env ps now v b p = Ok r) ->
  exists ms k s, ct_keys now (vf_root v) ms /\ registered env ms k s /\
    (hs_ct h k (CT_x509 (c_der (b_cert b))) \/
     exists t chain issuer pk tbs, e_chain env (vf_fulcio v) t (b_cert b) = Ok chain /\ ct_issuer (tl chain) issuer /\
       c_pubkey issuer = Ok pk /\ c_tbs_precert (b_cert b) = Ok tbs /\
       hs_ct h k (CT_precert (e_hash env SHA256 (pk_spki pk)) tbs)).
Proof.
  intros env ps h now v b p Ct Es V.
  assert (A : exists times, signer_accepted env now v b p times).
  { destruct V as [(i & V)|([ty pl] & V)]; [apply artifact_accepted_iff in V|apply dsse_accepted_iff in V]; apply V. }
  destruct A as (times & A). destruct (C24_accepted_certificate _ _ _ _ _ _ A) as (_ & _ & (ms & x & s & d & k & sc & K & X & Sc & R & Sv & Ty & e & D & Em) & _).
  exists ms, k, sc. split; [assumption|]. split; [assumption|].
  pose proof (Ct _ _ _ _ _ K R (Es _ _ X Sc) Sv _ D) as Hc. cbn [ct_entry_of] in Hc.
  destruct (sct_entry_type s); [left; subst e; assumption| |destruct Ty; discriminate].
  destruct Em as (t & chain & issuer & pk & tbs & _ & Ec & Ci & Pk & Tb & ->). right. exists t, chain, issuer, pk, tbs. auto.
Qed.

(** ** A small honest world *)

(** Signatures made in it: key and message. *)
Definition ax_set : bytes := ascii_bytes (set_text [x01] 1700000000 cx_id 1).
Definition ax_note : bytes :=
  match utf8_encode (lines_text (body_lines (s2l "rekor.example") 3 (MTH toy_hash (vx_log [x01])) nil)) with Some b => b | None => nil end.
Definition ax_made : list (bytes * bytes) :=
  [(cx_key, ax_set); (cx_key, ax_note); (sx_ct_key, sx_payload vx_issuer)].
Definition ax_verify (s : sig_scheme) (k : pubkey) (sg d : bytes) : res unit :=
  if match s with
     | ECDSA_prehashed SHA256 => bytes_eqb (pk_spki k) (pk_spki vx_key) && bytes_eqb d vx_digest
     | ECDSA SHA256 => existsb (fun x => bytes_eqb (pk_spki k) (fst x) && bytes_eqb d (snd x)) ax_made
     | _ => false
     end
  then toy_sig_verify s k sg d else Raise EInvalidSignature.
Definition ax_env : Env :=
  mkEnv (e_hash vx_env) (e_udecimal vx_env) (e_load_key vx_env) ax_verify (e_parse_cert vx_env) (e_self_issued vx_env)
    (e_chain vx_env) (e_decode_tsr vx_env) (e_tsa_verify vx_env).
Definition ax_msg : BundleMsg := vx_bundle_msg vx_entry1 [vx_token x20 vx_sig] (Some vx_ms) None.
Definition ax_bundle : Bundle := vx_bundle vx_entry1 [vx_token x20 vx_sig] (Some vx_ms) None.

(** One person signs at second 10; the timestamp is of second 32, the entry of second 1700000000;
    the certificate expires at second 2000000000, and a second later the key leaks. *)
Definition ax_strings : list bytes :=
  [c_der vx_leaf; vx_sig; vx_token x20 vx_sig; [x09];
   toy_sign (ECDSA SHA256) cx_pub ax_set; toy_sign (ECDSA SHA256) cx_pub ax_note; toy_sign (ECDSA SHA256) sx_ct_pub (sx_payload vx_issuer)].
Definition ax_history : History :=
  mkHistory unit
    (fun _ identity issuer t => identity = s2l "a@b.c" /\ issuer = s2l "https://issuer.example" /\ t = 0%Z)
    (fun c _ t => c = vx_leaf /\ t = 0%Z)
    (fun k d t => k = vx_key /\ d = vx_digest /\ t = 10000000%Z)
    (fun k t => (2000000001000000 <= t)%Z)
    (fun x t => x = nil \/ (In x ax_strings /\ (32000000 <= t)%Z))
    (fun k body secs => k = cx_pub /\ body = [x01] /\ secs = 1700000000%Z)
    (fun k log => k = cx_pub /\ log = vx_log [x01])
    (fun k e => k = sx_ct_pub /\ exists c, decode_ct (sx_payload vx_issuer) = Some c /\ e = ct_entry_of c).

Example ex_ax_accepted :
  make_bundle ax_env ax_msg = Ok ax_bundle /\
  verify_artifact ax_env vx_parsers vx_now vx_verifier (In_bytes vx_input) ax_bundle vx_policy = Ok tt.
Proof. split; vm_compute; reflexivity. Qed.

Lemma ax_sig_lines : forall ip text pre name b64 post hint x, le_proof vx_entry1 = Some ip -> ip_checkpoint ip = Some text ->
  text = pre ++ sig_line name b64 ++ post -> name <> nil -> no_space name = true -> no_space b64 = true ->
  b64decode b64 = Ok (hint ++ x) -> length hint = 4 -> In x ax_strings.
Proof.
  intros ip text pre name b64 post hint x Hip Ht E Nz Nn Nb D L.
  assert (Nb0 : b64 <> nil) by (intros ->; injection D as D; destruct hint; discriminate).
  pose proof (match_sig_complete name b64 post Nz Nb0 Nn Nb) as M.
  assert (Es : skipn (length pre) text = sig_line name b64 ++ post).
  { rewrite E, skipn_app, skipn_all, Nat.sub_diag. reflexivity. }
  rewrite <- Es in M. assert (Lp : length pre < length text) by (rewrite E, !app_length; cbn; lia).
  set (check := fun i => match match_sig (skipn i text) with
    | Some (_, s, _) => match b64decode s with Ok y => existsb (bytes_eqb (skipn 4 y)) ax_strings | Raise _ => true end | None => true end).
  assert (C : forallb check (seq 0 (length text)) = true).
  { subst check. clear -Hip Ht. inversion Hip; subst ip. inversion Ht; subst text. vm_compute. reflexivity. }
  rewrite forallb_forall in C. specialize (C (length pre)). unfold check in C. rewrite M, D in C.
  rewrite existsb_exists in C. destruct C as (y & I & Q); [apply in_seq; lia|]. apply bytes_eqb_spec in Q.
  assert (W : skipn 4 (hint ++ x) = x) by (rewrite <- L, skipn_app, skipn_all, Nat.sub_diag; reflexivity).
  rewrite W in Q. subst y. assumption.
Qed.

Lemma ax_carried : forall x, carries ax_msg x -> ever ax_history x.
Proof.
  intros x H. exists 32000000%Z. right. split; [|lia]. destruct H as [H|[(l & H & _)|[[<-|[]]|(e & [<-|[]] & H)]]].
  - injection H as <-. left. reflexivity.
  - discriminate.
  - do 2 right. left. reflexivity.
  - destruct H as [H|(ip & text & pre & name & b64 & post & hint & Hip & Ht & E & Nz & Nn & Nb & D & L)].
    + apply (f_equal (fun o => match o with Some y => y | None => nil end)) in H. rewrite <- H. do 4 right. left. reflexivity.
    + eapply ax_sig_lines; eassumption.
Qed.

Lemma ax_rekor : forall ms k s, rekor_keys vx_now vx_tr ms -> registered ax_env ms k s -> k = cx_pub /\ s = ECDSA SHA256.
Proof.
  intros ms k s H R.
  assert (Q : rekor_keys vx_now vx_tr [mkPKM (Some cx_key) PKIX_ECDSA_P256_SHA_256]).
  { exists (tr_tlogs vx_tr). split; [|split; [reflexivity|discriminate]]. constructor; [|constructor].
    apply (window_iff vx_now vx_window VERIFY). vm_compute. reflexivity. }
  rewrite (rekor_keys_unique _ _ _ _ H Q) in R. destruct R as (l1 & m & l2 & E & (raw & cls & A & _ & B & C & _) & _).
  destruct l1 as [|? [|? ?]]; inversion E; subst. injection A as <-. change (Ok cx_pub = Ok k) in C. cbn in B. split; congruence.
Qed.

Lemma ax_ctkeys : forall ms k s, ct_keys vx_now vx_tr ms -> registered ax_env ms k s -> k = sx_ct_pub /\ s = ECDSA SHA256.
Proof.
  intros ms k s H R.
  assert (Q : ct_keys vx_now vx_tr [mkPKM (Some sx_ct_key) PKIX_ECDSA_P256_SHA_256]).
  { exists (tr_ctlogs vx_tr). split; [|split; [reflexivity|discriminate]]. constructor; [|constructor].
    apply (window_iff vx_now vx_window VERIFY). vm_compute. reflexivity. }
  rewrite (ct_keys_unique _ _ _ _ H Q) in R. destruct R as (l1 & m & l2 & E & (raw & cls & A & _ & B & C & _) & _).
  destruct l1 as [|? [|? ?]]; inversion E; subst. injection A as <-. change (Ok sx_ct_pub = Ok k) in C. cbn in B. split; congruence.
Qed.

Lemma ax_verified : forall k sg d, ax_verify (ECDSA SHA256) k sg d = Ok tt -> In (pk_spki k, d) ax_made.
Proof.
  intros k sg d H. unfold ax_verify in H. destruct (existsb _ ax_made) eqn:E; [|discriminate].
  apply existsb_exists in E. destruct E as ([a b] & I & Q). apply andb_true_iff in Q. rewrite !bytes_eqb_spec in Q. cbn [fst snd] in Q.
  destruct Q as [-> ->]. assumption.
Qed.

Example ex_honest_logs : honest_logs ax_env vx_parsers ax_history vx_now (vf_root vx_verifier).
Proof.
  intros ms k s K R. destruct (ax_rekor _ _ _ K R) as [-> ->]. split.
  - intros sg m _ V. apply ax_verified in V. destruct V as [Q|[Q|[Q|[]]]].
    + left. exists [x01], 1700000000%Z, cx_id, 1%Z. split; [cbn; auto|]. apply (f_equal snd) in Q. cbn [snd] in Q. rewrite <- Q. reflexivity.
    + right. exists (vx_log [x01]), (s2l "rekor.example"), nil. split; [cbn; auto|]. split.
      * constructor; try (vm_compute; reflexivity). { split; vm_compute; reflexivity. } { vm_compute. discriminate. } { vm_compute. discriminate. }
      * apply (f_equal snd) in Q. cbn [snd] in Q. rewrite <- Q. vm_compute. reflexivity.
    + exfalso. apply (f_equal fst) in Q. discriminate Q.
  - intros body secs sg (_ & -> & ->) [(r & P & E)|(r & sigs & pem & P & _)]; [|vm_compute in P; discriminate].
    right. split; [|lia].
    assert (W : match p_hashedrekord vx_parsers [x01] with Ok r => h1_sig r | _ => None end = Some (b64encode vx_sig)) by reflexivity.
    rewrite P, E in W. apply (f_equal (fun o => match o with Some y => y | None => nil end)) in W. rename W into E'. cbv beta iota in E'.
    apply b64encode_inj in E'. subst sg.
    right. left. reflexivity.
Qed.

Example ex_honest_ct_logs : honest_ct_logs ax_env ax_history vx_now (vf_root vx_verifier).
Proof.
  intros ms k s sg d K R _ V c D. destruct (ax_ctkeys _ _ _ K R) as [-> ->].
  apply ax_verified in V. destruct V as [Q|[Q|[Q|[]]]]; [exfalso; apply (f_equal fst) in Q; discriminate Q|exfalso; apply (f_equal fst) in Q; discriminate Q|].
  apply (f_equal snd) in Q. cbn [snd] in Q. subst d. split; [reflexivity|]. exists c. auto.
Qed.

Example ex_honest_tsas : honest_tsas ax_env ax_history (vf_root vx_verifier).
Proof.
  intros cas ca raw tok msg _ _ (t & Ev) D V _. cbn [ax_env e_decode_tsr e_tsa_verify vx_env toy_env] in D, V.
  destruct Ev as [->|[Ev _]]; [discriminate|].
  destruct Ev as [<-|[<-|[<-|[<-|[<-|[<-|[<-|[]]]]]]]]; try (vm_compute in D; discriminate).
  - injection D as <-. cbn in V. destruct msg; [|discriminate]. left. reflexivity.
  - injection D as <-. cbn [tsr_raw tsr_time vx_token] in V |- *. destruct (bytes_eqb vx_sig msg) eqn:Q; [|discriminate].
    apply bytes_eqb_spec in Q. subst msg. right. split; [right; left; reflexivity|vm_compute; discriminate].
Qed.

Example ex_honest_ca : honest_ca ax_env ax_history (vf_fulcio vx_verifier).
Proof.
  intros der c t chain (t' & Ev) P _. exists tt, 0%Z.
  assert (c = vx_leaf) as ->.
  { destruct Ev as [->|[Ev _]]; [discriminate|].
    destruct Ev as [<-|[<-|[<-|[<-|[<-|[<-|[<-|[]]]]]]]]; try (vm_compute in P; discriminate).
    change (Ok vx_leaf = Ok c) in P. congruence. }
  split; [split; reflexivity|]. intros identity issuer ((x & sans & n & X & Sa & I & Nm) & (u & Eu & He)).
  injection X as <-. injection Sa as <-. destruct I as [<-|[]].
  split; [|split; [|reflexivity]].
  - destruct Nm as [Q|[Q|(? & _ & Q)]]; [|discriminate|discriminate].
    apply (f_equal (fun g => match g with GN_email s => s | _ => nil end)) in Q. symmetry. exact Q.
  - destruct He as (x & l1 & l2 & X & E & _). injection X as <-. cbn [x_raw vx_exts] in E.
    assert (u = s2b "https://issuer.example") as ->.
    { destruct l1 as [|? [|? ?]]; [|discriminate|discriminate]. change (fulcio_oid 1) with [1;3;6;1;4;1;57264;1;1]%N in E. apply (f_equal (fun l => match l with (_, y) :: _ => y | nil => nil end)) in E. symmetry. exact E. }
    eapply utf8_inj; [exact Eu|]. reflexivity.
Qed.

Example ex_careful : careful ax_history tt.
Proof.
  intros c t0 k t [-> _] _ L. cbn in L. change (c_not_after vx_leaf) with 2000000000000000%Z. lia.
Qed.

Example ex_unforgeable : unforgeable ax_env ax_history vx_key.
Proof.
  intros sg d t Ex V. exists (Z.min t 10000000). split; [lia|]. left.
  assert (Hd : d = vx_digest /\ sg <> nil).
  { destruct V as [V|(m & V & _)].
    - cbn [ax_env e_sig_verify] in V. unfold ax_verify in V. destruct (_ && _) eqn:Q; [|discriminate].
      apply andb_true_iff in Q. rewrite !bytes_eqb_spec in Q. split; [apply Q|]. intros ->. cbn in V. discriminate.
    - apply ax_verified in V. destruct V as [Q|[Q|[Q|[]]]]; exfalso; apply (f_equal fst) in Q; discriminate Q. }
  destruct Hd as [-> Hn]. destruct Ex as [Ex|[_ Lt]]; [contradiction|]. change (vx_key = vx_key /\ vx_digest = vx_digest /\ Z.min t 10000000 = 10000000%Z). repeat split. lia.
Qed.

(** Everything the theorems ask for holds of this world, and so do their conclusions. *)
Example ex_authentic : exists t, (t <= c_not_after vx_leaf)%Z /\ hs_signed ax_history vx_key (e_hash ax_env SHA256 vx_input) t.
Proof.
  destruct (C77_artifact_signed_by_identity ax_env vx_parsers ax_history vx_now vx_verifier ax_msg ax_bundle vx_input
    (s2l "a@b.c") (s2l "https://issuer.example") ex_honest_ca ex_honest_tsas ex_honest_logs (proj1 ex_ax_accepted) ax_carried eq_refl)
    as (who & t0 & key & _ & _ & K & H).
  - discriminate.
  - exact (proj2 ex_ax_accepted).
  - destruct who. change (Ok vx_key = Ok key) in K. injection K as <-. exact (H ex_careful ex_unforgeable).
Qed.

Example ex_public : exists k log, hs_head ax_history k log /\
  (In (le_body (b_entry ax_bundle)) log \/ hash_collision ax_env log (b_entry ax_bundle)).
Proof.
  destruct (C78_artifact_is_public ax_env vx_parsers ax_history vx_now vx_verifier ax_msg ax_bundle (In_bytes vx_input) vx_policy
    toy_hash_length ex_honest_logs (proj1 ex_ax_accepted) ax_carried (proj2 ex_ax_accepted)) as (ms & k & s & log & d & sg & _ & _ & Hh & _ & _ & Q).
  exists k, log. split; assumption.
Qed.

(** A bundle that contains both an envelope and a message signature is accepted for the artifact
    although its timestamp covers the envelope's signature only: the artifact's signature may be
    younger than the certificate. *)
Theorem C77_timestamp_covers_artifact_refuted :
  exists env ps now v i m b p ms,
    make_bundle env m = Ok b /\ verify_artifact env ps now v i b p = Ok tt /\
    bm_msig m = Some ms /\ bm_env m <> None /\
    log_times (b_entry b) nil /\
    forall raw tok cas ca, In raw (vm_timestamps (bm_vm m)) -> e_decode_tsr env raw = Ok tok ->
      trusted_tsas env (vf_root v) cas -> In ca cas -> ~ vouches env now ca tok (ms_signature ms).
Proof.
  exists vx_env, vx_parsers, vx_now, vx_verifier, (In_bytes vx_input).
  exists (vx_bundle_msg vx_entry2 [vx_token x20 vx_dsig] (Some vx_ms) (Some vx_ev)).
  exists (vx_bundle vx_entry2 [vx_token x20 vx_dsig] (Some vx_ms) (Some vx_ev)), vx_policy, vx_ms.
  split; [vm_compute; reflexivity|]. split; [vm_compute; reflexivity|]. split; [reflexivity|]. split; [discriminate|].
  split; [left; split; [reflexivity|left; reflexivity]|].
  intros raw tok cas ca [<-|[]] D _ _ (_ & V & _). injection D as <-.
  assert (Q : e_tsa_verify vx_env (ca_certs ca) (mkTSR (vx_token x20 vx_dsig) 32000000%Z) (ms_signature vx_ms) = Raise ERfc3161) by (vm_compute; reflexivity).
  cbn [vx_env toy_env e_tsa_verify tsr_raw vx_token] in V, Q. congruence.
Qed.

(** ** C79: signed texts of different kinds *)

(** The promise (SET) of a log is not the text of a checkpoint ... *)
Theorem C79_promise_is_no_checkpoint : forall body secs id index note b,
  utf8_encode (note ++ [NL]) = Some b -> ascii_bytes (set_text body secs id index) <> b.
Proof. intros body secs id index note b U E. eapply note_not_promise; [exact U|]. symmetry. exact E. Qed.

(** ... nor a pre-authentication encoding of an envelope. *)
Theorem C79_promise_is_no_envelope : forall body secs id index type_ payload b,
  pae type_ payload = Ok b -> ascii_bytes (set_text body secs id index) <> b.
Proof.
  intros body secs id index type_ payload b P E. apply pae_ok in P. destruct P as (tb & _ & ->).
  apply (f_equal (hd x00)) in E. discriminate E.
Qed.

(** What a CT log signs for a version 1 SCT is neither; and if it is the text of a checkpoint, the
    origin line of that checkpoint begins with the NUL character. *)
Lemma ct_first_byte : forall d c, decode_ct d = Some c -> ct_version c = 0%N -> exists t, d = x00 :: t.
Proof.
  intros d c D V. unfold decode_ct in D. destruct d as [|y t]; [discriminate|]. exists t. f_equal.
  change (get_uint 1 (y :: t)) with (Some (unbe [y], t)) in D. cbv beta iota in D.
  assert (Hv : ct_version c = unbe [y]).
  { destruct (get_uint 1 t) as [[st t1]|]; [|discriminate]. destruct (get_uint 8 t1) as [[ts t2]|]; [|discriminate].
    destruct (get_uint 2 t2) as [[et t3]|]; [|discriminate]. cbv zeta in D. destruct et as [|[et|et|]]; try discriminate.
    - destruct (get_opaque 3 t3) as [[c1 t4]|]; [|discriminate]. destruct (get_opaque 2 t4) as [[x [|]]|]; try discriminate.
      injection D as <-. reflexivity.
    - destruct (take 32 t3) as [[k t4]|]; [|discriminate]. destruct (get_opaque 3 t4) as [[c1 t5]|]; [|discriminate].
      destruct (get_opaque 2 t5) as [[x [|]]|]; try discriminate. injection D as <-. reflexivity. }
  rewrite V in Hv. destruct y; try reflexivity; discriminate Hv.
Qed.

Theorem C79_sct_is_no_promise_or_envelope : forall d c, decode_ct d = Some c -> ct_version c = 0%N ->
  (forall body secs id index, ascii_bytes (set_text body secs id index) <> d) /\
  (forall type_ payload, pae type_ payload <> Ok d) /\
  (forall ch rest, utf8_encode (ch :: rest) = Some d -> ch = 0%N).
Proof.
  intros d c D V. destruct (ct_first_byte _ _ D V) as (t & ->). split; [|split].
  - intros body secs id index E. apply (f_equal (hd x01)) in E. discriminate E.
  - intros ty pl E. apply pae_ok in E. destruct E as (tb & _ & E). apply (f_equal (hd x01)) in E. discriminate E.
  - intros ch rest U. apply utf8_decode_encode in U. cbn [utf8_decode] in U.
    change (b2n x00) with 0%N in U. cbv beta zeta iota in U. change (0 <? 128)%N with true in U. cbv iota in U.
    destruct (utf8_decode t); [|discriminate]. injection U as <- _. reflexivity.
Qed.

(** The text of a checkpoint can be a pre-authentication encoding: a log that chooses the name
    [DSSEv1 1 a 49 x] signs, as its checkpoint of one leaf, an envelope of type [a]. *)
Theorem C79_checkpoint_is_no_envelope_refuted :
  exists origin size root exts type_ payload b, good_body origin size root exts /\ length root = 32 /\
    utf8_encode (lines_text (body_lines origin size root exts)) = Some b /\ pae type_ payload = Ok b.
Proof.
  exists (s2l "DSSEv1 1 a 49 x"), 1%N, (repeat x00 32), (@nil str), (s2l "a").
  exists (s2b "x" ++ [x0a] ++ s2b "1" ++ [x0a] ++ s2b "AAAAAAAAAAAAAAAAAAAAAAAAAAAAAAAAAAAAAAAAAAA=" ++ [x0a]).
  eexists. split; [|split; [reflexivity|split; vm_compute; reflexivity]].
  split; try (vm_compute; reflexivity); [split; reflexivity|vm_compute; discriminate|discriminate].
Qed.

(** Non-vacuous: the encodings exist. *)
Example ex_c79 :
  (exists b, pae (s2l "a") (s2b "x") = Ok b) /\
  (exists b, utf8_encode (lines_text (body_lines (s2l "rekor.example") 1%N (repeat x00 32) nil)) = Some b) /\
  (exists c, decode_ct (repeat x00 12 ++ [x00; x00; x02; x30; x00] ++ [x00; x00]) = Some c /\ ct_version c = 0%N).
Proof. split; [|split]; eexists; [| |split]; vm_compute; reflexivity. Qed.

Print Assumptions C77_artifact_signed_by_identity.
Print Assumptions C77_envelope_signed_by_identity.
Print Assumptions C77_timestamp_covers_artifact_refuted.
Print Assumptions C78_artifact_is_public.
Print Assumptions C78_envelope_is_public.
Print Assumptions C78_certificate_is_public.
Print Assumptions C79_promise_is_no_checkpoint.
Print Assumptions C79_promise_is_no_envelope.
Print Assumptions C79_sct_is_no_promise_or_envelope.
Print Assumptions C79_checkpoint_is_no_envelope_refuted.
