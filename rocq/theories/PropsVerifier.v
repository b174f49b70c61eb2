(** Properties C24-C30: bundle verification.  The specification is the first part of
    [VerifierSpec.v]. *)
From Verif Require Import Base Codec NoteText Messages ToyHash Env Keyring KeyringProofs PropsKeyring MerkleSpec Merkle MerkleProofs PropsMerkle
  PyText Checkpoint CheckpointProofs PropsCheckpoint LogEntry PropsLogEntry Cert PropsCert FloatMs Sct PropsSct Dsse PropsDsse
  KeyDetails Policy TrustedRoot PropsTrustedRoot Hashing Bundle PropsBundle Verifier VerifierSpec ToyEnv ToyBundles.

(** ** C24, C25: what acceptance means *)

Theorem C24_accepted_artifact : forall env ps now v i b p,
  verify_artifact env ps now v i b p = Ok tt ->
  (exists times, signer_accepted env now v b p times) /\
  exists ms key digest,
    bm_msig (b_inner b) = Some ms /\
    sha256_digest env i = mkHashed HA_SHA2_256 digest /\
    (forall a d, ms_digest ms = Some (a, d) -> d = digest) /\
    c_pubkey (b_cert b) = Ok key /\
    e_sig_verify env (ECDSA_prehashed SHA256) key (ms_signature ms) digest = Ok tt /\
    records_artifact ps (b_entry b) (b_cert b) digest (ms_signature ms).
Proof. intros. apply artifact_accepted_iff. assumption. Qed.

(** The certificate and log conditions traced down to keys of the trusted root: the SCT is
    signed by a CT log key, the checkpoint and any SET by a Rekor key, each usable at the
    time of the call; and the body is in every log whose root the checkpoint commits to,
    unless two different strings hash alike. *)
Definition ct_keys (now : time) (tr : TrustedRootMsg) (ms : list PublicKeyMsg) : Prop :=
  exists ts, selected (fun t => in_force VERIFY now (tl_valid_for t)) (tr_ctlogs tr) ts /\ ms = map tl_key ts /\ ts <> nil.
Definition rekor_keys (now : time) (tr : TrustedRootMsg) (ms : list PublicKeyMsg) : Prop :=
  exists ts, selected (fun t => in_force VERIFY now (tl_valid_for t)) (tr_tlogs tr) ts /\ ms = map tl_key ts /\ ts <> nil.

Lemma ct_keyring_keys : forall env now tr kr, ct_keyring env now tr VERIFY = Ok kr <->
  exists ms, ct_keys now tr ms /\ make_keyring env ms = Ok kr.
Proof.
  intros env now tr kr. rewrite C14_ct_keyring. split.
  - intros (t & ts & S & M). exists (map tl_key (t :: ts)). split; [|assumption]. exists (t :: ts). repeat split; [assumption|discriminate].
  - intros (ms & (ts & S & -> & N) & M). destruct ts as [|t ts]; [congruence|]. exists t, ts. auto.
Qed.
Lemma rekor_keyring_keys : forall env now tr kr, rekor_keyring env now tr VERIFY = Ok kr <->
  exists ms, rekor_keys now tr ms /\ make_keyring env ms = Ok kr.
Proof.
  intros env now tr kr. rewrite C14_rekor_keyring. split.
  - intros (t & ts & S & M). exists (map tl_key (t :: ts)). split; [|assumption]. exists (t :: ts). repeat split; [assumption|discriminate].
  - intros (ms & (ts & S & -> & N) & M). destruct ts as [|t ts]; [congruence|]. exists t, ts. auto.
Qed.

Lemma ct_keys_unique : forall now tr a b, ct_keys now tr a -> ct_keys now tr b -> a = b.
Proof. intros now tr a b (ts & S & -> & _) (ts' & S' & -> & _). rewrite (selected_unique _ _ _ _ _ S S'). reflexivity. Qed.
Lemma rekor_keys_unique : forall now tr a b, rekor_keys now tr a -> rekor_keys now tr b -> a = b.
Proof. intros now tr a b (ts & S & -> & _) (ts' & S' & -> & _). rewrite (selected_unique _ _ _ _ _ S S'). reflexivity. Qed.

Theorem C24_accepted_log_entry : forall env now v b p times,
  (forall x, length (e_hash env SHA256 x) = 32) ->
  signer_accepted env now v b p times ->
  exists ms, rekor_keys now (vf_root v) ms /\
  forall ip, le_proof (b_entry b) = Some ip ->
  (* the checkpoint *)
  (exists text p0 data noteb sg k s, ip_checkpoint ip = Some text /\ text = p0 ++ [NL; NL] ++ data /\
     utf8_encode (p0 ++ [NL]) = Some noteb /\
     registered env ms k s /\ e_sig_verify env s k sg noteb = Ok tt /\
     exists origin size hash other, note_lines (p0 ++ [NL]) (origin :: size :: hash :: other) /\
       b64decode hash = Ok (ip_root_hash ip)) /\
  (* the body is in the log *)
  (forall log, ip_root_hash ip = MTH (e_hash env SHA256) log ->
     In (le_body (b_entry b)) log \/
     exists path, map snd path = ip_hashes ip /\
       collision_between (e_hash env SHA256) (tree_strings (e_hash env SHA256) log)
         (proof_strings (e_hash env SHA256) (le_body (b_entry b)) path)) /\
  (* the SET *)
  (forall set t, le_promise (b_entry b) = Some set -> le_integrated_time (b_entry b) = Some t -> t <> 0%Z ->
     exists k s, registered env ms k s /\
       e_sig_verify env s k set (ascii_bytes (set_text (le_body (b_entry b)) t (le_log_id (b_entry b)) (le_log_index (b_entry b)))) = Ok tt).
Proof.
  intros env now v b p times HL (_ & _ & _ & _ & _ & (rk & Rk & En) & _).
  apply rekor_keyring_keys in Rk. destruct Rk as (ms & K & M). exists ms. split; [assumption|].
  intros ip Hip. apply C09_entry_verification_complete in En. destruct En as (Inc & Cp & Set_). split; [|split].
  - destruct (C05_accepted_checkpoint _ _ _ _ _ _ M Hip Cp) as (text & p0 & data & Ht & Hs & _ & Hsig & Hb).
    destruct Hsig as (pre & name & b64 & post & hint & sg & noteb & k & s & _ & _ & _ & _ & _ & _ & _ & _ & Hu & Hr & Hv & _).
    destruct Hb as (o & sz & h & ot & Hl & _ & _ & Hd).
    exists text, p0, data, noteb, sg, k, s. repeat split; try assumption. exists o, sz, h, ot. auto.
  - intros log Hr. destruct (C02_inclusion_implies_membership _ HL log _ _ Hip Hr Inc) as [I|(path & Pa & _ & C)]; [left; assumption|].
    right. eauto.
  - intros set t Hp Ht Nz. destruct (Set_ _ _ Hp Ht Nz) as (_ & _ & Kv).
    destruct (C10_accepted_means_trusted_key _ _ _ _ _ _ _ M Kv) as (k & s & R & V & _). eauto.
Qed.

Theorem C24_accepted_certificate : forall env now v b p times,
  signer_accepted env now v b p times ->
  times <> nil /\
  (* valid and chained at every time *)
  (forall t, In t times -> (c_not_before (b_cert b) <= t <= c_not_after (b_cert b))%Z /\
     exists chain, e_chain env (vf_fulcio v) t (b_cert b) = Ok chain) /\
  (* the SCT is signed by a CT log *)
  (exists ms x s d k sc, ct_keys now (vf_root v) ms /\
     c_exts (b_cert b) = Ok x /\ x_scts x = Some [s] /\
     registered env ms k sc /\ e_sig_verify env sc k (sct_signature s) d = Ok tt /\
     (sct_entry_type s = X509_CERTIFICATE \/ sct_entry_type s = PRE_CERTIFICATE) /\
     (exists e, decode_ct d = Some (mkCt (sct_version s) 0 (Z.to_N (float_ms (sct_timestamp s))) e (sct_extensions s)) /\
        match sct_entry_type s with
        | X509_CERTIFICATE => e = CT_x509 (c_der (b_cert b))
        | _ => exists t chain issuer pk tbs, In t times /\ e_chain env (vf_fulcio v) t (b_cert b) = Ok chain /\
                 ct_issuer (tl chain) issuer /\ c_pubkey issuer = Ok pk /\
                 c_tbs_precert (b_cert b) = Ok tbs /\ e = CT_precert (e_hash env SHA256 (pk_spki pk)) tbs
        end)) /\
  (* usages and policy *)
  (exists x kcs ekus, c_exts (b_cert b) = Ok x /\ x_ku x = Some (true, kcs) /\ x_eku x = Some ekus /\ In OID_CODE_SIGNING ekus) /\
  policy_verify p (b_cert b) = Ok tt.
Proof.
  intros env now v b p times (_ & Nn & (chs & ct & F & Ct & S) & Ku & Po & _ & W).
  split; [assumption|]. split.
  { intros t I. split; [apply W; assumption|]. destruct (Forall2_in_l _ _ _ _ _ F t I) as (ch & _ & E). eauto. }
  split; [|split; assumption].
  apply ct_keyring_keys in Ct. destruct Ct as (ms & K & M).
  destruct (C16_accepted_sct_is_signed _ _ _ _ _ M S) as (x & s & d & k & sc & e & X & Sc & R & V & _ & D & Em).
  exists ms, x, s, d, k, sc. do 5 (split; [assumption|]). split.
  { destruct (sct_entry_type s); tauto. }
  exists e. split; [assumption|]. destruct (sct_entry_type s); [assumption| |contradiction].
  destruct Em as (issuer & pk & tbs & I & P & T & E).
  assert (L : exists t, In t times /\ e_chain env (vf_fulcio v) t (b_cert b) = Ok (last chs nil)).
  { clear - F Nn. induction F as [|t ch ts chs E F IH]; [congruence|]. destruct F as [|t' ch' ts chs E' F'].
    - exists t. split; [left; reflexivity|assumption].
    - destruct IH as (t0 & I & E0); [discriminate|]. exists t0. split; [right; assumption|exact E0]. }
  destruct L as (t & It & Et). exists t, (last chs nil), issuer, pk, tbs. auto 10.
Qed.

Theorem C25_accepted_dsse : forall env ps now v b p type_ payload,
  verify_dsse env ps now v b p = Ok (type_, payload) ->
  (exists times, signer_accepted env now v b p times) /\
  exists m sg key x,
    bm_env (b_inner b) = Some m /\ em_type m = type_ /\ em_payload m = payload /\
    em_sigs m = [sg] /\ sg <> nil /\
    c_pubkey (b_cert b) = Ok key /\ pae type_ payload = Ok x /\
    e_sig_verify env (ECDSA SHA256) key sg x = Ok tt /\
    records_envelope env ps (b_entry b) (b_cert b) type_ payload sg.
Proof. intros. apply dsse_accepted_iff. assumption. Qed.

(** ** C26: a log entry vouches for one artifact only *)

Lemma pem_b64_inj : forall c c', pem_b64 c = pem_b64 c' -> c_der c = c_der c'.
Proof.
  intros c c' H. unfold pem_b64 in H. apply b64encode_inj in H. apply ascii_bytes_inj in H; [|apply pem_ascii|apply pem_ascii].
  apply pem_of_der_inj. assumption.
Qed.

(** Both parsers read the same [apiVersion]. *)
Definition versions_agree (ps : Parsers) : Prop :=
  forall body h w, p_hashedrekord ps body = Ok h -> p_v2 ps body = Ok w -> h1_api_version h = v2_api_version w.

Theorem C26_one_artifact_per_entry : forall env ps now v i b p now' v' i' b' p',
  verify_artifact env ps now v i b p = Ok tt -> verify_artifact env ps now' v' i' b' p' = Ok tt ->
  le_body (b_entry b) = le_body (b_entry b') ->
  (versions_agree ps \/ le_version (b_entry b) = le_version (b_entry b')) ->
  sha256_digest env i = sha256_digest env i' /\
  c_der (b_cert b) = c_der (b_cert b') /\
  exists ms ms', bm_msig (b_inner b) = Some ms /\ bm_msig (b_inner b') = Some ms' /\
    ms_signature ms = ms_signature ms'.
Proof.
  intros env ps now v i b p now' v' i' b' p' H H' B V.
  apply artifact_accepted_iff in H, H'.
  destruct H as (_ & ms & key & d & Ms & Hd & _ & _ & _ & _ & R), H' as (_ & ms' & key' & d' & Ms' & Hd' & _ & _ & _ & _ & R').
  assert (G : d = d' /\ c_der (b_cert b) = c_der (b_cert b') /\ ms_signature ms = ms_signature ms').
  { rewrite B in R. destruct R as [[V1 P1]|(V1 & kd & K1 & P1)], R' as [[V2 P2]|(V2 & kd' & K2 & P2)]; rewrite ?P2 in P1.
    - assert (E : forall x y : Hashedrekord1, @Ok _ x = Ok y -> h1_sig x = h1_sig y /\ h1_pk x = h1_pk y /\ h1_hash x = h1_hash y)
        by (intros x y Q; inversion Q; auto).
      apply E in P1. cbn [h1_sig h1_pk h1_hash] in P1. destruct P1 as (A & C & D).
      assert (S1 : forall T (x y : T), Some x = Some y -> x = y) by (intros; congruence).
      apply S1 in A, C, D. apply b64encode_inj in A. apply pem_b64_inj in C.
      apply (f_equal snd) in D. cbn [snd] in D. apply hex_inj in D. auto.
    - destruct V as [V|V]; [|rewrite V1, V2 in V; discriminate]. specialize (V _ _ _ P1 P2). discriminate.
    - destruct V as [V|V]; [|rewrite V1, V2 in V; discriminate]. specialize (V _ _ _ P2 P1). discriminate.
    - assert (E : forall x y : V2Entry, @Ok _ x = Ok y -> v2_spec x = v2_spec y) by (intros x y Q; inversion Q; auto).
      apply E in P1. cbn [v2_spec] in P1. inversion P1. auto. }
  destruct G as (-> & C & S). split; [congruence|]. split; [assumption|]. exists ms, ms'. auto.
Qed.

(** For artifacts given as bytes: the same bytes, or a SHA-256 collision. *)
Theorem C26_one_artifact_per_entry_bytes : forall env ps now v a b p now' v' a' b' p',
  verify_artifact env ps now v (In_bytes a) b p = Ok tt -> verify_artifact env ps now' v' (In_bytes a') b' p' = Ok tt ->
  le_body (b_entry b) = le_body (b_entry b') ->
  (versions_agree ps \/ le_version (b_entry b) = le_version (b_entry b')) ->
  a = a' \/ (a <> a' /\ e_hash env SHA256 a = e_hash env SHA256 a').
Proof.
  intros env ps now v a b p now' v' a' b' p' H H' B V.
  destruct (C26_one_artifact_per_entry _ _ _ _ _ _ _ _ _ _ _ _ H H' B V) as (D & _).
  cbn [sha256_digest] in D. inversion D as [E]. destruct (list_eq_dec Byte.byte_eq_dec a a') as [|N]; auto.
Qed.

(** DSSE.  With a "dsse" entry the payload, the signature and the certificate are recorded;
    the payload type is bound through the signature only.  With a "hashedrekord" entry all
    four are. *)
Theorem C26_one_envelope_per_entry : forall env ps now v b p t pl now' v' b' p' t' pl',
  verify_dsse env ps now v b p = Ok (t, pl) -> verify_dsse env ps now' v' b' p' = Ok (t', pl') ->
  le_body (b_entry b) = le_body (b_entry b') ->
  le_kind (b_entry b) = le_kind (b_entry b') ->
  c_der (b_cert b) = c_der (b_cert b') /\
  (exists m m', bm_env (b_inner b) = Some m /\ bm_env (b_inner b') = Some m' /\ em_sigs m = em_sigs m') /\
  (le_kind (b_entry b) = s2l "dsse" -> pl = pl' \/ (pl <> pl' /\ e_hash env SHA256 pl = e_hash env SHA256 pl')) /\
  (le_kind (b_entry b) = s2l "hashedrekord" -> (t = t' /\ pl = pl') \/
     exists h x x', pae t pl = Ok x /\ pae t' pl' = Ok x' /\ x <> x' /\ e_hash env h x = e_hash env h x') /\
  (forall key x x' sg, c_pubkey (b_cert b) = Ok key -> c_pubkey (b_cert b') = Ok key ->
     signature_of b sg -> pae t pl = Ok x -> pae t' pl' = Ok x' ->
     e_sig_verify env (ECDSA SHA256) key sg x = Ok tt /\ e_sig_verify env (ECDSA SHA256) key sg x' = Ok tt).
Proof.
  intros env ps now v b p t pl now' v' b' p' t' pl' H H' B K.
  apply dsse_accepted_iff in H, H'.
  destruct H as (_ & m & sg & key & x & Em & Et & Ep & Es & Ns & Key & Px & Sv & R).
  destruct H' as (_ & m' & sg' & key' & x' & Em' & Et' & Ep' & Es' & Ns' & Key' & Px' & Sv' & R').
  assert (D : forall a b : bytes, a = b \/ a <> b) by (intros a b0; destruct (list_eq_dec Byte.byte_eq_dec a b0); auto).
  assert (G : c_der (b_cert b) = c_der (b_cert b') /\ sg = sg' /\
    (le_kind (b_entry b) = s2l "dsse" -> pl = pl' \/ (pl <> pl' /\ e_hash env SHA256 pl = e_hash env SHA256 pl')) /\
    (le_kind (b_entry b) = s2l "hashedrekord" -> (t = t' /\ pl = pl') \/
     exists h x x', pae t pl = Ok x /\ pae t' pl' = Ok x' /\ x <> x' /\ e_hash env h x = e_hash env h x')).
  { unfold records_envelope in R. rewrite B in R. destruct R as [(K1 & V1 & P1)|(K1 & V1 & d & al & h & y & Kd & Ph & Py & P1)],
      R' as [(K2 & V2 & P2)|(K2 & V2 & d' & al' & h' & y' & Kd' & Ph' & Py' & P2)].
    - rewrite P2 in P1.
      assert (E : forall x y : Dsse1, @Ok _ x = Ok y -> d1_payload_hash x = d1_payload_hash y /\ d1_signatures x = d1_signatures y)
        by (intros a c Q; inversion Q; auto).
      apply E in P1. cbn [d1_payload_hash d1_signatures] in P1. destruct P1 as [A C].
      assert (S1 : forall T (x y : T), Some x = Some y -> x = y) by (intros; congruence).
      apply S1 in A, C. apply (f_equal snd) in A. cbn [snd] in A. apply hex_inj in A.
      assert (S2 : forall T (x y : T), [x] = [y] -> x = y) by (intros; congruence).
      apply S2 in C. assert (C1 := f_equal fst C). assert (C2 := f_equal snd C). cbn [fst snd] in C1, C2.
      apply b64encode_inj in C1. apply pem_b64_inj in C2.
      split; [congruence|]. split; [congruence|]. split.
      + intros _. destruct (D pl pl') as [Q|Q]; [left; assumption|right]. auto.
      + rewrite K1. discriminate.
    - rewrite K1, K2 in K. discriminate.
    - rewrite K1, K2 in K. discriminate.
    - rewrite P2 in P1.
      assert (E : forall x y : V2Entry, @Ok _ x = Ok y -> v2_spec x = v2_spec y) by (intros a c Q; inversion Q; auto).
      apply E in P1. cbn [v2_spec] in P1. inversion P1 as [[A1 A2 A3 A4 A5]]. subst d'.
      rewrite Ph in Ph'. inversion Ph'; subst al' h'. split; [congruence|]. split; [congruence|].
      destruct (D y y') as [Q|Q].
      + subst y'. destruct (C20_pae_injective _ _ _ _ _ Py Py') as [-> ->]. split; intros _; left; auto.
      + split; [rewrite K1; discriminate|intros _; right]. exists h, y, y'. auto. }
  destruct G as (G1 & G2 & G3 & G4). split; [assumption|]. split; [exists m, m'; repeat split; congruence|].
  split; [assumption|]. split; [assumption|].
  intros key0 x0 x0' sg0 Q1 Q2 Q3 Q4 Q5. unfold signature_of in Q3. rewrite Em in Q3. destruct Q3 as [Q3 _].
  assert (sg0 = sg) by congruence. subst sg0. assert (key0 = key) by congruence. assert (key' = key) by congruence. subst.
  rewrite Px in Q4. rewrite Px' in Q5. inversion Q4; inversion Q5; subst. auto.
Qed.

(** No separation between the two kinds of use: the same entry can vouch for an envelope
    and for the artifact that consists of the envelope's PAE bytes. *)
Theorem C26_artifact_or_envelope_refuted :
  exists b b', b_entry b = b_entry b' /\
    vx_verify_artifact (In_bytes vx_pae) b = Ok tt /\ vx_verify_dsse b' = Ok (vx_type, vx_payload).
Proof.
  exists (vx_bundle vx_entry3 [vx_token x20 vx_dsig] (Some (mkMsgSig (Some (HA_SHA2_256, toy_hash vx_pae)) vx_dsig)) None), vx_dsse2.
  split; [reflexivity|]. split; vm_compute; reflexivity.
Qed.

(** ** C27: where signing times come from *)

(** The times are determined by the bundle, the trusted root and the clock. *)
Lemma tsa_log_unique : forall env now v b ts1 ts2 ts1' ts2',
  tsa_times env now (vf_root v) b ts1 -> log_times (b_entry b) ts2 ->
  tsa_times env now (vf_root v) b ts1' -> log_times (b_entry b) ts2' -> ts1 ++ ts2 = ts1' ++ ts2'.
Proof.
  intros env now v b ts1 ts2 ts1' ts2' A B A' B'.
  assert (E := proj2 (establish_time_iff env now v b _) (ex_intro _ ts1 (ex_intro _ ts2 (conj eq_refl (conj A B))))).
  assert (E' := proj2 (establish_time_iff env now v b _) (ex_intro _ ts1' (ex_intro _ ts2' (conj eq_refl (conj A' B'))))).
  rewrite E in E'. assert (Q : map (mkTime TIMESTAMP_AUTHORITY) ts1 ++ map (mkTime TRANSPARENCY_SERVICE) ts2 =
    map (mkTime TIMESTAMP_AUTHORITY) ts1' ++ map (mkTime TRANSPARENCY_SERVICE) ts2') by congruence.
  apply (f_equal (map t_time)) in Q. rewrite !map_app, !map_map in Q. cbn [t_time] in Q. rewrite !map_id in Q. assumption.
Qed.

Theorem C27_times_are_determined : forall env now v b p p' times times',
  signer_accepted env now v b p times -> signer_accepted env now v b p' times' -> times = times'.
Proof.
  intros env now v b p p' times times' ((ts1 & ts2 & -> & A & B) & _) ((ts1' & ts2' & -> & A' & B') & _).
  eapply tsa_log_unique; eassumption.
Qed.

Lemma declines_not_vouches : forall env now ca t msg, declines env now ca t msg -> ~ vouches env now ca t msg.
Proof.
  intros env now ca t msg [D|[D|(_ & _ & D)]] (R & V & W); [contradiction|congruence|contradiction].
Qed.

Lemma token_times_in : forall env now cas msg tokens ts, token_times env now cas msg tokens ts ->
  forall t, In t ts -> exists tok ca, In tok tokens /\ In ca cas /\ t = tsr_time tok /\ vouches env now ca tok msg.
Proof.
  intros env now cas msg tokens ts H. induction H as [|tok tm l ts T H IH|tok l ts T H IH]; intros t I.
  - destruct I.
  - destruct I as [<-|I].
    + destruct T as (E & b & ca & a & -> & _ & V). exists tok, ca. split; [left; reflexivity|]. split; [apply in_or_app; right; left; reflexivity|]. auto.
    + destruct (IH _ I) as (tok' & ca & A & B & C). exists tok', ca. split; [right; assumption|]. auto.
  - destruct (IH _ I) as (tok' & ca & A & B & C). exists tok', ca. split; [right; assumption|]. auto.
Qed.

(** Every signing time is that of a timestamp in the bundle which a timestamp authority of
    the trusted root made over the bundle's signature, inside that authority's window; or
    the integrated time of the log entry, signed together with the entry by a log key of
    the trusted root. *)
Theorem C27_trusted_time_sources : forall env now v b p times t,
  signer_accepted env now v b p times -> In t times ->
  (exists raw tok cas ca sg,
     In raw (vm_timestamps (bm_vm (b_inner b))) /\ e_decode_tsr env raw = Ok tok /\ t = tsr_time tok /\
     trusted_tsas env (vf_root v) cas /\ In ca cas /\ signature_of b sg /\ vouches env now ca tok sg) \/
  (exists secs set ms k s,
     le_integrated_time (b_entry b) = Some secs /\ secs <> 0%Z /\ t = (secs * 1000000)%Z /\
     le_promise (b_entry b) = Some set /\ le_version (b_entry b) = s2l "0.0.1" /\
     rekor_keys now (vf_root v) ms /\ registered env ms k s /\
     e_sig_verify env s k set (ascii_bytes (set_text (le_body (b_entry b)) secs (le_log_id (b_entry b)) (le_log_index (b_entry b)))) = Ok tt).
Proof.
  intros env now v b p times t ((ts1 & ts2 & -> & A & B) & _ & _ & _ & _ & (rk & Rk & En) & _) I.
  apply in_app_or in I. destruct I as [I|I].
  - left. destruct A as [[_ ->]|(tokens & cas & sg & _ & F & _ & _ & Tr & _ & Sg & T)]; [destruct I|].
    destruct (token_times_in _ _ _ _ _ _ T t I) as (tok & ca & It & Ic & E & V).
    destruct (Forall2_in_r _ _ _ _ _ F tok It) as (raw & Ir & D). exists raw, tok, cas, ca, sg. auto 10.
  - right. destruct B as [[-> _]|(secs & set & It & Nz & Pr & Kd & Ve & _ & ->)]; [destruct I|].
    destruct I as [<-|[]]. apply rekor_keyring_keys in Rk. destruct Rk as (ms & K & M).
    apply C09_entry_verification_complete in En. destruct En as (_ & _ & Set_).
    destruct (Set_ _ _ Pr It Nz) as (_ & _ & Kv).
    destruct (C10_accepted_means_trusted_key _ _ _ _ _ _ _ M Kv) as (k & s & R & V & _).
    exists secs, set, ms, k, s. auto 10.
Qed.

(** The window of the authority is checked against the time in the token, not the clock. *)
Theorem C27_authority_window : forall env now ca tok msg, vouches env now ca tok msg ->
  exists r, cam_valid_for (ca_inner ca) = Some r /\ (tr_start r <= tsr_time tok)%Z /\
    forall e, tr_end r = Some e -> (tsr_time tok < e)%Z.
Proof. intros env now ca tok msg (_ & _ & W). exact W. Qed.

(** Rekor v2 entries never contribute a time. *)
Theorem C27_v2_entries_need_a_timestamp : forall env now v b p times,
  signer_accepted env now v b p times -> le_version (b_entry b) <> s2l "0.0.1" ->
  vm_timestamps (bm_vm (b_inner b)) <> nil.
Proof.
  intros env now v b p times H N E. destruct H as ((ts1 & ts2 & -> & A & B) & Nn & _).
  destruct A as [[_ ->]|(tokens & cas & sg & NE & _)]; [|contradiction].
  destruct B as [[-> _]|(secs & set & _ & _ & _ & _ & Ve & _)]; [apply Nn; reflexivity|contradiction].
Qed.

(** ** C28: count, duplicates, order *)

Lemma Forall2_length : forall A B (R : A -> B -> Prop) l l', Forall2 R l l' -> length l = length l'.
Proof. intros A B R l l' F. induction F; cbn; congruence. Qed.

Theorem C28_too_many_timestamps : forall env ps now v i b p,
  32 < length (vm_timestamps (bm_vm (b_inner b))) ->
  verify_artifact env ps now v i b p <> Ok tt /\ forall r, verify_dsse env ps now v b p <> Ok r.
Proof.
  intros env ps now v i b p L.
  assert (G : forall times, ~ signer_accepted env now v b p times).
  { intros times ((ts1 & ts2 & _ & A & _) & _). destruct A as [[E _]|(tokens & cas & sg & _ & F & Ln & _)].
    - rewrite E in L. cbn in L. lia.
    - apply Forall2_length in F. lia. }
  split; [intros H; apply artifact_accepted_iff in H|intros [t pl] H; apply dsse_accepted_iff in H];
    destruct H as [(times & H) _]; eapply G; eassumption.
Qed.

(** Two timestamps with the same encoding: never accepted. *)
Theorem C28_duplicate_timestamps : forall env ps now v i b p l1 t1 l2 t2 l3 tok,
  vm_timestamps (bm_vm (b_inner b)) = l1 ++ t1 :: l2 ++ t2 :: l3 ->
  e_decode_tsr env t1 = Ok tok -> (exists tok', e_decode_tsr env t2 = Ok tok' /\ tsr_raw tok' = tsr_raw tok) ->
  verify_artifact env ps now v i b p <> Ok tt /\ forall r, verify_dsse env ps now v b p <> Ok r.
Proof.
  intros env ps now v i b p l1 t1 l2 t2 l3 tok E D1 (tok' & D2 & R).
  assert (G : forall times, ~ signer_accepted env now v b p times).
  { intros times ((ts1 & ts2 & _ & A & _) & _). destruct A as [[E' _]|(tokens & cas & sg & _ & F & _ & Nd & _)].
    - rewrite E in E'. destruct l1; discriminate.
    - rewrite E in F. apply Forall2_app_inv_l in F. destruct F as (k1 & k2 & _ & F & ->).
      inversion F as [|? a ? k3 Q1 F']; subst. apply Forall2_app_inv_l in F'. destruct F' as (k4 & k5 & _ & F'' & ->).
      inversion F'' as [|? c ? k6 Q2 F3]; subst. rewrite D1 in Q1. rewrite D2 in Q2. inversion Q1; inversion Q2; subst.
      rewrite map_app in Nd. cbn [map] in Nd. rewrite map_app in Nd. cbn [map] in Nd.
      apply NoDup_remove_2 in Nd. apply Nd. apply in_or_app. right. apply in_or_app. right. left. assumption. }
  split; [intros H; apply artifact_accepted_iff in H|intros [t pl] H; apply dsse_accepted_iff in H];
    destruct H as [(times & H) _]; eapply G; eassumption.
Qed.

(** Exactly the tokens some authority vouches for contribute, in the bundle's order, the
    log's time comes last, and there is at least one. *)
Theorem C28_times_in_order : forall env now v b p times,
  signer_accepted env now v b p times ->
  exists tokens good logtimes, Forall2 (fun raw t => e_decode_tsr env raw = Ok t) (vm_timestamps (bm_vm (b_inner b))) tokens /\
    (forall sg cas, signature_of b sg -> trusted_tsas env (vf_root v) cas ->
       selected (fun t => exists ca, In ca cas /\ vouches env now ca t sg) tokens good) /\
    log_times (b_entry b) logtimes /\
    times = map tsr_time good ++ logtimes /\ 1 <= length times.
Proof.
  intros env now v b p times ((ts1 & ts2 & -> & A & B) & Nn & _).
  assert (Ln : 1 <= length (ts1 ++ ts2)) by (destruct (ts1 ++ ts2); [congruence|cbn; lia]).
  destruct A as [[E ->]|(tokens & cas & sg & _ & F & _ & _ & Tr & _ & Sg & T)].
  - exists nil, nil, ts2. rewrite E. split; [constructor|]. split; [intros; constructor|]. auto.
  - assert (G : exists good, selected (fun t => exists ca, In ca cas /\ vouches env now ca t sg) tokens good /\ ts1 = map tsr_time good).
    { clear F Ln Nn. induction T as [|t tm l ts H T IH|t l ts H T IH].
      - exists nil. split; [constructor|reflexivity].
      - destruct IH as (g & S & ->). destruct H as (-> & bf & ca & af & -> & _ & V). exists (t :: g). split; [|reflexivity].
        apply sel_take; [|assumption]. exists ca. split; [apply in_or_app; right; left; reflexivity|assumption].
      - destruct IH as (g & S & ->). exists g. split; [|reflexivity]. apply sel_skip; [|assumption].
        intros (ca & I & V). exact (declines_not_vouches _ _ _ _ _ (H ca I) V). }
    destruct G as (good & S & ->). exists tokens, good, ts2. split; [assumption|]. split; [|auto].
    intros sg' cas' Sg' Tr'. apply signature_iff in Sg, Sg'. apply tsas_iff in Tr, Tr'. rewrite Sg in Sg'. rewrite Tr in Tr'.
    inversion Sg'; inversion Tr'; subst. assumption.
Qed.

(** A bundle from which no time can be derived is never accepted. *)
Theorem C28_no_time_no_acceptance : forall env ps now v i b p,
  (forall t cas ca raw sg, In raw (vm_timestamps (bm_vm (b_inner b))) -> e_decode_tsr env raw = Ok t ->
     trusted_tsas env (vf_root v) cas -> In ca cas -> signature_of b sg -> ~ vouches env now ca t sg) ->
  (le_promise (b_entry b) = None \/ le_integrated_time (b_entry b) = None \/ le_integrated_time (b_entry b) = Some 0%Z) ->
  verify_artifact env ps now v i b p <> Ok tt /\ forall r, verify_dsse env ps now v b p <> Ok r.
Proof.
  intros env ps now v i b p NV NL.
  assert (G : forall times, ~ signer_accepted env now v b p times).
  { intros times H. assert (Nn : times <> nil) by apply H. destruct times as [|t times]; [congruence|].
    destruct (C27_trusted_time_sources _ _ _ _ _ _ t H (or_introl eq_refl))
      as [(raw & tok & cas & ca & sg & A & B & _ & C & D & E & V)|(secs & set & _ & _ & _ & A & B & _ & C & _)].
    - eapply NV; eassumption.
    - destruct NL as [Q|[Q|Q]]; congruence. }
  split; [intros H; apply artifact_accepted_iff in H|intros [t pl] H; apply dsse_accepted_iff in H];
    destruct H as [(times & H) _]; eapply G; eassumption.
Qed.

(** In the toy scenario the second authority vouches for the first token only (its window
    ends at 50 s), the third for the second. *)
Example ex_times :
  establish_time vx_env vx_now vx_verifier vx_dsse2 =
  Ok [mkTime TIMESTAMP_AUTHORITY 32000000%Z; mkTime TIMESTAMP_AUTHORITY 96000000%Z].
Proof. vm_compute. reflexivity. Qed.
Example ex_times_mixed :
  establish_time vx_env vx_now vx_verifier vx_dsse1 =
  Ok [mkTime TIMESTAMP_AUTHORITY 64000000%Z; mkTime TRANSPARENCY_SERVICE 1700000000000000%Z].
Proof. vm_compute. reflexivity. Qed.
Example ex_duplicates_rejected :
  vx_verify_artifact (In_bytes vx_input) (vx_bundle vx_entry2 [vx_token x20 vx_sig; vx_token x20 vx_sig] (Some vx_ms) None) = Raise EVerification.
Proof. vm_compute. reflexivity. Qed.
Example ex_33_rejected :
  vx_verify_artifact (In_bytes vx_input)
    (vx_bundle vx_entry2 (map (fun n => vx_token (n2b (N.of_nat n)) vx_sig) (seq 0 33)) (Some vx_ms) None) = Raise EVerification /\
  vx_verify_artifact (In_bytes vx_input)
    (vx_bundle vx_entry2 (map (fun n => vx_token (n2b (N.of_nat n)) vx_sig) (seq 0 32)) (Some vx_ms) None) = Ok tt.
Proof. vm_compute. split; reflexivity. Qed.

(** ** C29: completeness *)

Theorem C29_complete_artifacts_are_accepted : forall env ps now v i b p times ms key digest,
  signer_accepted env now v b p times ->
  bm_msig (b_inner b) = Some ms ->
  sha256_digest env i = mkHashed HA_SHA2_256 digest ->
  (forall a d, ms_digest ms = Some (a, d) -> d = digest) ->
  c_pubkey (b_cert b) = Ok key ->
  e_sig_verify env (ECDSA_prehashed SHA256) key (ms_signature ms) digest = Ok tt ->
  records_artifact ps (b_entry b) (b_cert b) digest (ms_signature ms) ->
  verify_artifact env ps now v i b p = Ok tt.
Proof. intros. apply artifact_accepted_iff. split; [eauto|]. exists ms, key, digest. auto 10. Qed.

Theorem C29_complete_envelopes_are_accepted : forall env ps now v b p times m sg key x,
  signer_accepted env now v b p times ->
  bm_env (b_inner b) = Some m -> em_sigs m = [sg] -> sg <> nil ->
  c_pubkey (b_cert b) = Ok key -> pae (em_type m) (em_payload m) = Ok x ->
  e_sig_verify env (ECDSA SHA256) key sg x = Ok tt ->
  records_envelope env ps (b_entry b) (b_cert b) (em_type m) (em_payload m) sg ->
  verify_dsse env ps now v b p = Ok (em_type m, em_payload m).
Proof. intros. apply dsse_accepted_iff. split; [eauto|]. exists m, sg, key, x. auto 10. Qed.

(** The log conditions are met by every honest log: an entry of a log of any size, its
    RFC 6962 audit path, a well-formed checkpoint over the log's root whose deciding
    signature verifies, and a SET over the entry if there is a promise. *)
Theorem C29_honest_log_entries_are_accepted :
  forall env ms kr (log : list bytes) i e ip o sz exts sigs sg noteb,
  make_keyring env ms = Ok kr ->
  nth_error log i = Some (le_body e) ->
  le_proof e = Some ip -> ip_log_index ip = Z.of_nat i -> ip_tree_size ip = Z.of_nat (length log) ->
  ip_root_hash ip = MTH (e_hash env SHA256) log -> ip_hashes ip = PATH (e_hash env SHA256) i log ->
  good_body o sz (ip_root_hash ip) exts -> sigs <> nil -> Forall good_sig sigs ->
  ip_checkpoint ip = Some (signed_note_text (lines_text (body_lines o sz (ip_root_hash ip) exts)) sigs) ->
  deciding_sig (le_log_id e) sigs = Some sg ->
  utf8_encode (lines_text (body_lines o sz (ip_root_hash ip) exts)) = Some noteb ->
  (exists k s, registered env ms k s /\ msg_id env k = le_log_id e /\
     e_sig_verify env s k sg noteb = Ok tt /\
     (forall set t, le_promise e = Some set -> le_integrated_time e = Some t -> t <> 0%Z ->
        (Z.abs t < 2 ^ 53)%Z /\ (Z.abs (le_log_index e) < 2 ^ 53)%Z /\
        e_sig_verify env s k set (ascii_bytes (set_text (le_body e) t (le_log_id e) (le_log_index e))) = Ok tt)) ->
  entry_verify env kr e = Ok tt.
Proof.
  intros env ms kr log i e ip o sz exts sigs sg noteb M Hn Hip Hi Hsz Hr Hp G Ns Fs Hc Hd Hu (k & s & R & Id & V & St).
  apply C09_entry_verification_complete. split; [|split].
  - eapply C03_honest_inclusion_proof_accepted; eassumption.
  - destruct (C07_verification_of_well_formed_checkpoints env kr e ip o sz _ exts sigs Hip G Ns Fs Hc) as (nb & Hu' & E).
    rewrite Hu in Hu'. inversion Hu'; subst nb. rewrite E, Hd.
    assert (Kv := C10_known_id_only_that_key env ms kr k s sg noteb M R). rewrite Id, V in Kv. rewrite Kv.
    rewrite (proj2 (bytes_eqb_spec _ _) eq_refl). reflexivity.
  - intros set t Hpr Ht Nz. destruct (St _ _ Hpr Ht Nz) as (A & B & C). split; [assumption|]. split; [assumption|].
    assert (Kv := C10_known_id_only_that_key env ms kr k s set
       (ascii_bytes (set_text (le_body e) t (le_log_id e) (le_log_index e))) M R). rewrite Id, C in Kv. exact Kv.
Qed.

Example ex_signer_accepted : exists times, signer_accepted vx_env vx_now vx_verifier vx_dsse1 vx_policy times.
Proof. apply signer_accepted_iff. vm_compute. reflexivity. Qed.
Print Assumptions C24_accepted_artifact.
Print Assumptions C24_accepted_log_entry.
Print Assumptions C24_accepted_certificate.
Print Assumptions C25_accepted_dsse.
Print Assumptions C26_one_artifact_per_entry.
Print Assumptions C26_one_artifact_per_entry_bytes.
Print Assumptions C26_one_envelope_per_entry.
Print Assumptions C26_artifact_or_envelope_refuted.
Print Assumptions C27_times_are_determined.
Print Assumptions C27_trusted_time_sources.
Print Assumptions C27_authority_window.
Print Assumptions C27_v2_entries_need_a_timestamp.
Print Assumptions C28_too_many_timestamps.
Print Assumptions C28_duplicate_timestamps.
Print Assumptions C28_times_in_order.
Print Assumptions C28_no_time_no_acceptance.
Print Assumptions C29_complete_artifacts_are_accepted.
Print Assumptions C29_complete_envelopes_are_accepted.
Print Assumptions C29_honest_log_entries_are_accepted.
