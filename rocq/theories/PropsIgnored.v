(** Property C96: which parts of a bundle verification looks at, and which it ignores. *)
From Verif Require Import Base Codec Messages Merkle ToyHash Env Keyring KeyringProofs ToyEnv Checkpoint LogEntry PropsCheckpoint Cert Sct Dsse PropsDsse
  PropsSct KeyDetails Policy TrustedRoot PropsTrustedRoot SigningConfig Hashing Bundle PropsBundle Verifier VerifierSpec ToyBundles
  PropsKeyring PropsVerifier PropsStability PropsOrder.

(** ** Specification *)

(** the entry has a time that the log has signed *)
Definition has_signed_time (e : LogEntry) : Prop :=
  exists t set, le_integrated_time e = Some t /\ t <> 0%Z /\ le_promise e = Some set.

(** two log entries that differ at most in their index, their time and their promise, and in these
    only if neither has a signed time *)
Definition same_entry (e e' : LogEntry) : Prop :=
  le_log_id e = le_log_id e' /\ le_kind e = le_kind e' /\ le_version e = le_version e' /\
  le_proof e = le_proof e' /\ le_body e = le_body e' /\
  ((~ has_signed_time e /\ ~ has_signed_time e') \/
   (le_log_index e = le_log_index e' /\ le_integrated_time e = le_integrated_time e' /\ le_promise e = le_promise e')).

(** two message signatures that differ at most in the name of the digest's algorithm *)
Definition same_msig (s s' : option MessageSignature) : Prop :=
  option_map ms_signature s = option_map ms_signature s' /\
  option_map (fun m => option_map snd (ms_digest m)) s = option_map (fun m => option_map snd (ms_digest m)) s'.

(** two bundles that differ at most in their media type, in the certificates after the signing
    certificate, in how the certificate is stored, and in the above *)
Definition same_checked (b b' : Bundle) : Prop :=
  b_cert b = b_cert b' /\ same_entry (b_entry b) (b_entry b') /\
  vm_timestamps (bm_vm (b_inner b)) = vm_timestamps (bm_vm (b_inner b')) /\
  bm_env (b_inner b) = bm_env (b_inner b') /\ same_msig (bm_msig (b_inner b)) (bm_msig (b_inner b')).

(** the same bundle except that its entry names the log [id'] *)
Definition log_renamed (id' : bytes) (b b' : Bundle) : Prop :=
  b_cert b' = b_cert b /\
  b_entry b' = mkEntry (le_log_index (b_entry b)) id' (le_kind (b_entry b)) (le_version (b_entry b)) (le_integrated_time (b_entry b))
                       (le_promise (b_entry b)) (le_proof (b_entry b)) (le_body (b_entry b)) /\
  vm_timestamps (bm_vm (b_inner b')) = vm_timestamps (bm_vm (b_inner b)) /\
  bm_env (b_inner b') = bm_env (b_inner b) /\ bm_msig (b_inner b') = bm_msig (b_inner b).

(** no log of the trusted root has this id *)
Definition no_such_log (env : Env) (tr : TrustedRootMsg) (id : bytes) : Prop :=
  forall t k s, In t (tr_tlogs tr) -> usable env (tl_key t) k s -> msg_id env k <> id.

(** ** Proofs *)

(** the same up to the name of the log *)
Definition same_entry_x (e e' : LogEntry) : Prop :=
  le_kind e = le_kind e' /\ le_version e = le_version e' /\ le_proof e = le_proof e' /\ le_body e = le_body e' /\
  ((~ has_signed_time e /\ ~ has_signed_time e') \/
   (le_log_index e = le_log_index e' /\ le_integrated_time e = le_integrated_time e' /\ le_promise e = le_promise e')).
Definition same_x (b b' : Bundle) : Prop :=
  b_cert b = b_cert b' /\ same_entry_x (b_entry b) (b_entry b') /\
  vm_timestamps (bm_vm (b_inner b)) = vm_timestamps (bm_vm (b_inner b')) /\
  bm_env (b_inner b) = bm_env (b_inner b') /\ same_msig (bm_msig (b_inner b)) (bm_msig (b_inner b')).
Lemma same_checked_x : forall b b', same_checked b b' -> same_x b b'.
Proof. intros b b' (A & (_ & B) & C). split; [assumption|]. split; assumption. Qed.

Lemma no_set : forall e, ~ has_signed_time e -> has_set e = false.
Proof. intros e N. destruct (has_set e) eqn:H; [|reflexivity]. apply has_set_iff in H. contradiction. Qed.

Lemma entry_verify_same : forall env kr e e', same_entry e e' -> entry_verify env kr e' = entry_verify env kr e.
Proof.
  intros env kr e e' (Id & _ & _ & Pr & Bo & Ti). unfold entry_verify, verify_merkle_inclusion, verify_checkpoint. rewrite <- Id, <- Pr, <- Bo.
  destruct Ti as [[N N']|(Ix & Tm & Pm)].
  - rewrite (no_set e N), (no_set e' N'). reflexivity.
  - unfold has_set, verify_set, encode_canonical. rewrite <- Id, <- Bo, <- Ix, <- Tm, <- Pm. reflexivity.
Qed.

Lemma signature_same : forall b b', same_x b b' -> bundle_signature b' = bundle_signature b.
Proof.
  intros b b' (_ & _ & _ & En & Ms & _). unfold bundle_signature, bundle_envelope. rewrite <- En.
  destruct (bm_env (b_inner b)) as [e|]; [destruct (make_envelope e); reflexivity|]. cbn [bind].
  destruct (bm_msig (b_inner b)) as [s|], (bm_msig (b_inner b')) as [s'|]; cbn [option_map] in Ms; inversion Ms; reflexivity.
Qed.

Lemma collect_same_b : forall env now v b b' l, same_x b b' -> collect_times env now v b' l = collect_times env now v b l.
Proof.
  intros env now v b b' l Sm. induction l as [|t l IH]; [reflexivity|]. cbn [collect_times]. rewrite (signature_same b b' Sm), IH. reflexivity.
Qed.

Lemma establish_same_b : forall env now v b b', same_x b b' -> establish_time env now v b' = establish_time env now v b.
Proof.
  intros env now v b b' Sm. pose proof Sm as (_ & (Ki & Ve & _ & _ & Ti) & Ts & _).
  unfold establish_time, verify_timestamp_authority.
  replace (timestamp_verification_data env (bm_vm (b_inner b'))) with (timestamp_verification_data env (bm_vm (b_inner b)))
    by (unfold timestamp_verification_data; rewrite Ts; reflexivity).
  destruct (timestamp_verification_data env (bm_vm (b_inner b))) as [tvd|x]; [|reflexivity]. cbn [bind].
  rewrite (collect_same_b env now v b b' _ Sm).
  destruct (match tvd with Some _ => _ | None => _ end) as [ts|x]; [|reflexivity]. cbn [bind].
  rewrite <- Ki, <- Ve. destruct Ti as [[N N']|(Ix & Tm & Pm)].
  - rewrite (no_set _ N), (no_set _ N'). reflexivity.
  - unfold has_set. rewrite <- Tm, <- Pm. reflexivity.
Qed.

Definition entry_result (env : Env) (now : time) (v : Verifier) (b : Bundle) : res unit :=
  let* kr := rekor_keyring env now (vf_root v) VERIFY in entry_verify env kr (b_entry b).

Lemma common_same_b : forall env now v b b' p, same_x b b' -> entry_result env now v b' = entry_result env now v b ->
  verify_common_signing_cert env now v b' p = verify_common_signing_cert env now v b p.
Proof.
  intros env now v b b' p Sm Rk. unfold entry_result in Rk. unfold verify_common_signing_cert. rewrite (establish_same_b env now v b b' Sm).
  destruct Sm as (Ce & _). rewrite <- Ce, Rk. reflexivity.
Qed.

Lemma results_same : forall env ps now v b b', same_x b b' ->
  (forall p, verify_common_signing_cert env now v b' p = verify_common_signing_cert env now v b p ->
     forall i, verify_artifact env ps now v i b' p = verify_artifact env ps now v i b p) /\
  (forall p, verify_common_signing_cert env now v b' p = verify_common_signing_cert env now v b p ->
     verify_dsse env ps now v b' p = verify_dsse env ps now v b p).
Proof.
  intros env ps now v b b' (Ce & (Ki & Ve & Pr & Bo & _) & _ & En & Ms & Dg). split.
  - intros p Cm i. unfold verify_artifact. rewrite Cm.
    destruct (verify_common_signing_cert env now v b p); [|reflexivity]. cbn [bind].
    unfold validate_hashedrekord_v001, validate_hashedrekord_v002. rewrite <- Ce, <- Ki, <- Ve, <- Bo.
    destruct (bm_msig (b_inner b)) as [s|], (bm_msig (b_inner b')) as [s'|]; cbn [option_map] in Ms, Dg; try discriminate; [|reflexivity].
    injection Ms as M. injection Dg as D. rewrite <- M. destruct (ms_digest s) as [[al d]|], (ms_digest s') as [[al' d']|]; cbn [option_map snd] in D; try discriminate; [injection D as <-|]; reflexivity.
  - intros p Cm. unfold verify_dsse. rewrite Cm.
    unfold bundle_envelope, validate_dsse_v001, validate_hashedrekord_v002_dsse, bundle_envelope. rewrite <- En, <- Ce, <- Ki, <- Ve, <- Bo. reflexivity.
Qed.

(** Bundles that agree on the parts that are looked at get the same result. *)
Theorem C96_ignored_parts : forall env ps now v b b', same_checked b b' ->
  (forall i p, verify_artifact env ps now v i b' p = verify_artifact env ps now v i b p) /\
  (forall p, verify_dsse env ps now v b' p = verify_dsse env ps now v b p).
Proof.
  intros env ps now v b b' Sm. destruct (results_same env ps now v b b' (same_checked_x b b' Sm)) as [A D].
  assert (C : forall p, verify_common_signing_cert env now v b' p = verify_common_signing_cert env now v b p).
  { intros p. apply common_same_b; [apply same_checked_x; assumption|]. unfold entry_result.
    destruct (rekor_keyring env now (vf_root v) VERIFY); [|reflexivity]. cbn [bind]. apply entry_verify_same. apply Sm. }
  split; intros; [apply A|apply D]; apply C.
Qed.

(** *** The log id *)

Lemma any_key_will_do : forall env ms kr kid kid' sg d, make_keyring env ms = Ok kr ->
  (forall m k s sg d e, In m ms -> usable env m k s -> e_sig_verify env s k sg d = Raise e -> e = EInvalidSignature) ->
  (forall m k s, In m ms -> usable env m k s -> msg_id env k <> kid') ->
  keyring_verify env kr kid sg d = Ok tt -> keyring_verify env kr kid' sg d = Ok tt.
Proof.
  intros env ms kr kid kid' sg d Mk Cl No V.
  assert (No' : forall k s, registered env ms k s -> msg_id env k <> kid').
  { intros k s R. apply registered_usable in R. destruct R as (m & X & Y). eauto. }
  assert (Cl' : forall k s e, registered env ms k s -> e_sig_verify env s k sg d = Raise e -> e = EInvalidSignature).
  { intros k s e R. apply registered_usable in R. destruct R as (m & X & Y). eauto. }
  apply (C10_unknown_id_some_key env ms kr kid' sg d Mk No' Cl').
  destruct (assoc bytes_eqb kid kr) as [K|] eqn:A.
  - apply (keyring_assoc env ms kr kid K Mk) in A. destruct A as (k & s & Rk & -> & _).
    rewrite (C10_known_id_only_that_key _ _ _ _ _ sg d Mk Rk) in V. exists k, s. split; [assumption|].
    destruct (e_sig_verify env s k sg d) as [[]|e]; [reflexivity|]. destruct e; discriminate.
  - apply (C10_unknown_id_some_key env ms kr kid sg d Mk); [|assumption|assumption].
    intros k s Rk Q. assert (assoc bytes_eqb kid kr = Some (key_of env k s)) by (apply (keyring_assoc env ms kr kid _ Mk); eauto). congruence.
Qed.

Lemma note_renamed : forall env kr id id' n, firstn 4 id' = firstn 4 id ->
  (forall sg d, keyring_verify env kr id sg d = Ok tt -> keyring_verify env kr id' sg d = Ok tt) ->
  note_verify env kr id n = Ok tt -> note_verify env kr id' n = Ok tt.
Proof.
  intros env kr id id' n F K. unfold note_verify. destruct (utf8_encode (sn_note n)) as [m|]; [|trivial].
  induction (sn_signatures n) as [|s l IH]; cbn [verify_sigs]; [trivial|]. rewrite F.
  destruct (bytes_eqb (rs_hash s) (firstn 4 id)); [|exact IH].
  destruct (b64decode (rs_signature s)) as [raw|x]; cbn [bind]; [|trivial].
  destruct (keyring_verify env kr id raw m) as [[]|x] eqn:V.
  - rewrite (K _ _ V). trivial.
  - cbn [try_except]. destruct (is_verification_error x); discriminate.
Qed.

Lemma entry_renamed : forall env now v b b' id', checks_cleanly env (tr_tlogs (vf_root v)) -> no_such_log env (vf_root v) id' ->
  firstn 4 id' = firstn 4 (le_log_id (b_entry b)) -> ~ has_signed_time (b_entry b) -> log_renamed id' b b' ->
  entry_result env now v b = Ok tt -> entry_result env now v b' = Ok tt.
Proof.
  intros env now v b b' id' Cl No F N (_ & E & _). unfold entry_result. rewrite rekor_keyring_form, E.
  destruct (raise_if _ _) as [[]|x]; [|trivial]. cbn [bind].
  destruct (make_keyring env (get_tlog_keys now (tr_tlogs (vf_root v)) VERIFY)) as [kr|x] eqn:M; [|trivial]. cbn [bind].
  assert (K : forall sg d, keyring_verify env kr (le_log_id (b_entry b)) sg d = Ok tt -> keyring_verify env kr id' sg d = Ok tt).
  { intros sg d. apply (any_key_will_do env _ kr _ _ sg d M).
    - intros m k s sg' d' e X. apply tlog_keys_in in X. destruct X as (t & X & <- & _). apply Cl. assumption.
    - intros m k s X. apply tlog_keys_in in X. destruct X as (t & X & <- & _). apply No. assumption. }
  unfold entry_verify. rewrite (no_set _ N).
  replace (has_set (mkEntry _ id' _ _ _ _ _ _)) with false by (rewrite <- (no_set _ N); reflexivity).
  change (verify_merkle_inclusion (e_hash env SHA256) (mkEntry (le_log_index (b_entry b)) id' (le_kind (b_entry b)) (le_version (b_entry b))
     (le_integrated_time (b_entry b)) (le_promise (b_entry b)) (le_proof (b_entry b)) (le_body (b_entry b)))) with (verify_merkle_inclusion (e_hash env SHA256) (b_entry b)).
  destruct (verify_merkle_inclusion (e_hash env SHA256) (b_entry b)) as [[]|x]; [|trivial]. cbn [bind].
  unfold verify_checkpoint. cbn [le_proof le_log_id].
  destruct (le_proof (b_entry b)) as [ip|]; [|trivial]. destruct (ip_checkpoint ip) as [text|]; [|trivial].
  destruct (signed_checkpoint_from_text env text) as [[n cp]|x]; [|trivial]. cbn [bind].
  destruct (note_verify env kr (le_log_id (b_entry b)) n) as [[]|x] eqn:V; [|discriminate].
  rewrite (note_renamed env kr _ id' n F K V). trivial.
Qed.

Lemma renamed_x : forall id' b b', log_renamed id' b b' -> same_x b b'.
Proof.
  intros id' b b' (A & B & C & D & E). rewrite B || idtac. split; [symmetry; assumption|]. split.
  - rewrite B. unfold same_entry_x. cbn. repeat split. right. repeat split.
  - split; [symmetry; assumption|]. split; [symmetry; assumption|]. rewrite E. split; reflexivity.
Qed.

Lemma common_renamed : forall env now v b b' p, same_x b b' ->
  (entry_result env now v b = Ok tt -> entry_result env now v b' = Ok tt) ->
  verify_common_signing_cert env now v b p = Ok tt -> verify_common_signing_cert env now v b' p = Ok tt.
Proof.
  intros env now v b b' p Sm R H. rewrite <- H. apply common_same_b; [assumption|].
  assert (O : entry_result env now v b = Ok tt).
  { revert H. unfold verify_common_signing_cert, entry_result.
    repeat match goal with |- bind ?x _ = Ok tt -> _ => destruct x as [?|?] eqn:?; cbn [bind]; [|discriminate] end.
    intros _. match goal with H : try_except ?x _ _ = Ok _ |- ?x = _ => destruct x as [[]|e]; [reflexivity|]; cbn [try_except] in H; destruct (is_verification_error e); discriminate end. }
  rewrite O. apply R. exact O.
Qed.

(** An accepted bundle whose entry has no signed time stays accepted when its log id is replaced by
    the id of no trusted log, as long as the first four bytes are the same. *)
Theorem C96_log_id : forall env ps now v b b' id', checks_cleanly env (tr_tlogs (vf_root v)) -> no_such_log env (vf_root v) id' ->
  firstn 4 id' = firstn 4 (le_log_id (b_entry b)) -> ~ has_signed_time (b_entry b) -> log_renamed id' b b' ->
  (forall i p, verify_artifact env ps now v i b p = Ok tt -> verify_artifact env ps now v i b' p = Ok tt) /\
  (forall p r, verify_dsse env ps now v b p = Ok r -> verify_dsse env ps now v b' p = Ok r).
Proof.
  intros env ps now v b b' id' Cl No F N Rn. pose proof (renamed_x _ _ _ Rn) as Sx.
  destruct (results_same env ps now v b b' Sx) as [A D].
  assert (C : forall p, verify_common_signing_cert env now v b p = Ok tt -> verify_common_signing_cert env now v b' p = verify_common_signing_cert env now v b p).
  { intros p H. rewrite H. apply (common_renamed env now v b b' p Sx); [|exact H]. apply (entry_renamed env now v b b' id'); assumption. }
  split.
  - intros i p H. rewrite A; [exact H|]. apply C. unfold verify_artifact in H.
    destruct (verify_common_signing_cert env now v b p) as [[]|e]; [reflexivity|discriminate].
  - intros p r H. rewrite D; [exact H|]. apply C. unfold verify_dsse in H.
    destruct (verify_common_signing_cert env now v b p) as [[]|e]; [reflexivity|discriminate].
Qed.

(** ** Examples *)

(** the bundle of the example with another index, a time of 0, a promise that nobody signed, another
    name for the digest's algorithm and the certificate stored with its issuer *)
Definition ig_entry (idx : Z) : LogEntry :=
  mkEntry idx cx_id (le_kind vx_entry2) (le_version vx_entry2) (Some 0%Z) (Some [x2a]) (le_proof vx_entry2) (le_body vx_entry2).
Definition ig_bundle (idx : Z) : Bundle :=
  mkBundle (mkBundleMsg BUNDLE_0_2 (mkVM None (Some [c_der vx_leaf; c_der vx_issuer]) [ig_entry idx] [vx_token x20 vx_sig])
              (Some (mkMsgSig (Some (HA_SHA2_512, vx_digest)) vx_sig)) None) vx_leaf (ig_entry idx).
Example ex_ignored : forall idx, same_checked vx_artifact2 (ig_bundle idx).
Proof.
  intros idx. split; [reflexivity|]. split; [|repeat split].
  repeat split. left. split; intros (t & set & A & B & C).
  - discriminate.
  - cbn in A. inversion A. subst t. apply B. reflexivity.
Qed.
Example ex_ignored_constructible : make_bundle vx_env (b_inner (ig_bundle 99)) = Ok (ig_bundle 99).
Proof. vm_compute. reflexivity. Qed.
Example ex_ignored_accepted : forall idx, verify_artifact vx_env vx_parsers vx_now vx_verifier (In_bytes vx_input) (ig_bundle idx) vx_policy = Ok tt.
Proof.
  intros idx. rewrite (proj1 (C96_ignored_parts vx_env vx_parsers vx_now vx_verifier _ _ (ex_ignored idx))). vm_compute. reflexivity.
Qed.

(** The index of the entry in the log is not among the parts that are looked at: two bundles that can be
    read and differ only in it are both accepted, one of them with an index beyond the size of the log. *)
Theorem C96_index_is_checked_refuted : exists env ps now v i p b b' ip,
  make_bundle env (b_inner b) = Ok b /\ make_bundle env (b_inner b') = Ok b' /\
  le_proof (b_entry b') = Some ip /\ (ip_tree_size ip <= le_log_index (b_entry b'))%Z /\ le_log_index (b_entry b) = 1%Z /\
  verify_artifact env ps now v i b p = Ok tt /\ verify_artifact env ps now v i b' p = Ok tt.
Proof.
  exists vx_env, vx_parsers, vx_now, vx_verifier, (In_bytes vx_input), vx_policy, (ig_bundle 1), (ig_bundle 99). eexists.
  split; [vm_compute; reflexivity|]. split; [vm_compute; reflexivity|]. split; [reflexivity|]. split; [cbn; discriminate|].
  split; [reflexivity|]. split; apply ex_ignored_accepted.
Qed.

(** with a signed time the index is looked at *)
Definition ig_signed (idx : Z) : Bundle :=
  vx_bundle (mkEntry idx (le_log_id vx_entry1) (le_kind vx_entry1) (le_version vx_entry1) (le_integrated_time vx_entry1)
               (le_promise vx_entry1) (le_proof vx_entry1) (le_body vx_entry1)) nil (Some vx_ms) None.
Example ex_signed_index :
  verify_artifact vx_env vx_parsers vx_now vx_verifier (In_bytes vx_input) (ig_signed 1) vx_policy = Ok tt /\
  verify_artifact vx_env vx_parsers vx_now vx_verifier (In_bytes vx_input) (ig_signed 2) vx_policy = Raise EVerification.
Proof. split; vm_compute; reflexivity. Qed.

(** a log id that no log has, with the same first four bytes *)
Definition ig_id : bytes := firstn 4 cx_id ++ repeat xff 28.
Definition ig_renamed : Bundle :=
  vx_bundle (mkEntry 1 ig_id (le_kind vx_entry2) (le_version vx_entry2) (le_integrated_time vx_entry2)
               (le_promise vx_entry2) (le_proof vx_entry2) (le_body vx_entry2)) [vx_token x20 vx_sig] (Some vx_ms) None.
Example ex_renamed : checks_cleanly vx_env (tr_tlogs vx_tr) /\ no_such_log vx_env vx_tr ig_id /\
  firstn 4 ig_id = firstn 4 (le_log_id (b_entry vx_artifact2)) /\ ~ has_signed_time (b_entry vx_artifact2) /\
  log_renamed ig_id vx_artifact2 ig_renamed /\ ig_id <> le_log_id (b_entry vx_artifact2).
Proof.
  split; [|split; [|split; [|split; [|split]]]].
  - intros t k s sg d e [<-|[]] U V. destruct (or_key vx_env _ _ _ _ eq_refl eq_refl U) as [-> ->].
    change (toy_sig_verify (ECDSA SHA256) (mkPub (KEc P256) cx_key) sg d = Raise e) in V.
    unfold toy_sig_verify in V. cbn [pk_kind] in V. destruct (bytes_eqb sg _); congruence.
  - intros t k s [<-|[]] U Q. destruct (or_key vx_env _ _ _ _ eq_refl eq_refl U) as [-> ->]. vm_compute in Q. discriminate.
  - vm_compute. reflexivity.
  - intros (t & set & A & _). discriminate.
  - repeat split.
  - vm_compute. discriminate.
Qed.
Example ex_renamed_accepted : verify_artifact vx_env vx_parsers vx_now vx_verifier (In_bytes vx_input) ig_renamed vx_policy = Ok tt.
Proof.
  destruct ex_renamed as (A & B & C & D & E & _). apply (proj1 (C96_log_id vx_env vx_parsers vx_now vx_verifier _ _ _ A B C D E)).
  vm_compute. reflexivity.
Qed.

Print Assumptions C96_ignored_parts.
Print Assumptions C96_log_id.
Print Assumptions C96_index_is_checked_refuted.
