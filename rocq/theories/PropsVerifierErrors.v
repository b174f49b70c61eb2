(** Property C30: what bundle verification raises. *)
From Verif Require Import Base Codec NoteText Messages ToyHash Env Keyring KeyringProofs PropsKeyring MerkleSpec Merkle MerkleProofs PropsMerkle
  PyText Checkpoint CheckpointProofs PropsCheckpoint LogEntry PropsLogEntry Cert PropsCert FloatMs Sct PropsSct Dsse PropsDsse
  KeyDetails Policy TrustedRoot PropsTrustedRoot Hashing Bundle PropsBundle Verifier VerifierSpec ToyEnv ToyBundles PropsVerifier.

(** ** Specification: the sources of exceptions other than VerificationError *)

(** checks common to artifacts and envelopes *)
Inductive escapes (env : Env) (now : time) (v : Verifier) (b : Bundle) (p : policy) : exn -> Prop :=
(* times *)
| esc_decode : forall raw e, In raw (vm_timestamps (bm_vm (b_inner b))) ->
    e_decode_tsr env raw = Raise e -> is_value_error e = false -> escapes env now v b p e
| esc_tsa_cert : forall m der e, vm_timestamps (bm_vm (b_inner b)) <> nil -> In m (tr_tsas (vf_root v)) -> In der (cam_certs m) ->
    e_parse_cert env der = Raise e -> escapes env now v b p e
| esc_tsa_empty : forall m, vm_timestamps (bm_vm (b_inner b)) <> nil -> In m (tr_tsas (vf_root v)) -> cam_certs m = nil -> escapes env now v b p EError
| esc_envelope : forall m, vm_timestamps (bm_vm (b_inner b)) <> nil -> bm_env (b_inner b) = Some m -> (forall sg, em_sigs m = [sg] -> sg = nil) ->
    escapes env now v b p EInvalidEnvelope
| esc_no_content : vm_timestamps (bm_vm (b_inner b)) <> nil -> bm_env (b_inner b) = None -> bm_msig (b_inner b) = None -> escapes env now v b p EAttribute
| esc_tsa : forall cas ca raw t sg e, trusted_tsas env (vf_root v) cas -> In ca cas ->
    In raw (vm_timestamps (bm_vm (b_inner b))) -> e_decode_tsr env raw = Ok t -> signature_of b sg ->
    e_tsa_verify env (ca_certs ca) t sg = Raise e -> e <> ERfc3161 -> escapes env now v b p e
| esc_tsa_window : forall cas ca raw t sg, trusted_tsas env (vf_root v) cas -> In ca cas ->
    In raw (vm_timestamps (bm_vm (b_inner b))) -> e_decode_tsr env raw = Ok t -> signature_of b sg ->
    e_tsa_verify env (ca_certs ca) t sg = Ok tt -> cam_valid_for (ca_inner ca) = None -> escapes env now v b p EAttribute
| esc_time : forall t, le_integrated_time (b_entry b) = Some t -> le_promise (b_entry b) <> None ->
    ((t < -62135596800)%Z \/ (253402300799 < t)%Z) ->
    escapes env now v b p (if ((t <? -9223372036854775808) || (9223372036854775807 <? t))%Z then EOverflow else EValue)
(* chain, SCT, certificate *)
| esc_chain : forall t e, e_chain env (vf_fulcio v) t (b_cert b) = Raise e ->
    e <> EX509Verification -> e <> EUnsupportedGeneralName -> escapes env now v b p e
| esc_no_ct_key : (forall t, In t (tr_ctlogs (vf_root v)) -> ~ in_force VERIFY now (tl_valid_for t)) ->
    escapes env now v b p EMetadata
| esc_sct_format : forall x s, c_exts (b_cert b) = Ok x -> x_scts x = Some [s] -> unpackable s (b_cert b) -> escapes env now v b p EStruct
| esc_sct_tbs : forall e, c_tbs_precert (b_cert b) = Raise e -> escapes env now v b p e
| esc_sct_chain : forall t chain, e_chain env (vf_fulcio v) t (b_cert b) = Ok chain -> length chain <= 1 ->
    escapes env now v b p EIndex
| esc_sct_preissuer : forall t leaf i x ekus, e_chain env (vf_fulcio v) t (b_cert b) = Ok [leaf; i] ->
    c_exts i = Ok x -> x_eku x = Some ekus -> In OID_CT ekus -> escapes env now v b p EIndex
| esc_sct_issuer : forall t chain i e, e_chain env (vf_fulcio v) t (b_cert b) = Ok chain -> In i (tl chain) ->
    c_exts i = Raise e \/ c_pubkey i = Raise e -> escapes env now v b p e
| esc_ct_key : forall ms k s sg d e, ct_keys now (vf_root v) ms -> registered env ms k s ->
    e_sig_verify env s k sg d = Raise e -> e <> EInvalidSignature -> escapes env now v b p e
| esc_exts : forall e, c_exts (b_cert b) = Raise e -> escapes env now v b p e
| esc_usage : forall x, c_exts (b_cert b) = Ok x -> x_ku x = None \/ x_eku x = None -> escapes env now v b p EExtensionNotFound
| esc_policy : forall e, policy_verify p (b_cert b) = Raise e -> escapes env now v b p e
(* log entry *)
| esc_no_rekor_key : (forall t, In t (tr_tlogs (vf_root v)) -> ~ in_force VERIFY now (tl_valid_for t)) ->
    escapes env now v b p EMetadata
| esc_checkpoint_base64 : forall ip text a name b64 c e, le_proof (b_entry b) = Some ip -> ip_checkpoint ip = Some text ->
    text = a ++ sig_line name b64 ++ c -> b64decode b64 = Raise e ->
    escapes env now v b p e
| esc_checkpoint_root : forall ip text p0 data origin size hash other,
    le_proof (b_entry b) = Some ip -> ip_checkpoint ip = Some text -> text = p0 ++ [NL; NL] ++ data ->
    note_lines (p0 ++ [NL]) (origin :: size :: hash :: other) -> is_ascii hash = false ->
    escapes env now v b p EValue
| esc_checkpoint_surrogates : forall ip text e, le_proof (b_entry b) = Some ip -> ip_checkpoint ip = Some text ->
    forallb is_scalar text = false -> e = EPydantic \/ e = EUnicodeEncode -> escapes env now v b p e
| esc_set_range : forall t, le_integrated_time (b_entry b) = Some t -> le_promise (b_entry b) <> None ->
    ((2 ^ 53 <= Z.abs t)%Z \/ (2 ^ 53 <= Z.abs (le_log_index (b_entry b)))%Z) -> escapes env now v b p EValue
| esc_rekor_key : forall ms k s sg d e, rekor_keys now (vf_root v) ms -> registered env ms k s ->
    e_sig_verify env s k sg d = Raise e -> e <> EInvalidSignature -> escapes env now v b p e.

(** checks of an artifact *)
Inductive escapes_artifact (env : Env) (ps : Parsers) (i : input) (b : Bundle) : exn -> Prop :=
| esc_a_alg : h_alg (sha256_digest env i) <> HA_SHA2_256 -> escapes_artifact env ps i b EError
| esc_a_key : forall e, c_pubkey (b_cert b) = Raise e -> escapes_artifact env ps i b e
| esc_a_sig : forall key ms e, c_pubkey (b_cert b) = Ok key -> bm_msig (b_inner b) = Some ms ->
    e_sig_verify env (ECDSA_prehashed SHA256) key (ms_signature ms) (h_digest (sha256_digest env i)) = Raise e -> e <> EInvalidSignature ->
    escapes_artifact env ps i b e
| esc_a_details : forall e, le_version (b_entry b) = s2l "0.0.2" -> get_key_details (b_cert b) = Raise e -> escapes_artifact env ps i b e
| esc_a_v1 : forall e, le_version (b_entry b) = s2l "0.0.1" -> p_hashedrekord ps (le_body (b_entry b)) = Raise e -> escapes_artifact env ps i b e
| esc_a_v2 : forall e, le_version (b_entry b) = s2l "0.0.2" -> p_v2 ps (le_body (b_entry b)) = Raise e -> escapes_artifact env ps i b e.

(** checks of an envelope *)
Inductive escapes_dsse (env : Env) (ps : Parsers) (b : Bundle) : exn -> Prop :=
| esc_d_env : forall m, bm_env (b_inner b) = Some m -> (forall sg, em_sigs m = [sg] -> sg = nil) ->
    escapes_dsse env ps b EInvalidEnvelope
| esc_d_key : forall e, c_pubkey (b_cert b) = Raise e -> escapes_dsse env ps b e
| esc_d_type : forall m, bm_env (b_inner b) = Some m -> utf8_encode (em_type m) = None -> escapes_dsse env ps b EUnicodeEncode
| esc_d_sig : forall key m sg x e, c_pubkey (b_cert b) = Ok key -> bm_env (b_inner b) = Some m -> em_sigs m = [sg] ->
    pae (em_type m) (em_payload m) = Ok x -> e_sig_verify env (ECDSA SHA256) key sg x = Raise e -> e <> EInvalidSignature ->
    escapes_dsse env ps b e
| esc_d_details : forall e, le_version (b_entry b) = s2l "0.0.2" -> get_key_details (b_cert b) = Raise e -> escapes_dsse env ps b e
| esc_d_prehash : forall d e, le_version (b_entry b) = s2l "0.0.2" -> get_key_details (b_cert b) = Ok d -> get_prehash d = Raise e -> escapes_dsse env ps b e
| esc_d_v1 : forall e, le_version (b_entry b) = s2l "0.0.1" -> p_dsse ps (le_body (b_entry b)) = Raise e -> e <> EPydantic -> escapes_dsse env ps b e
| esc_d_v1_hash : forall body, le_version (b_entry b) = s2l "0.0.1" -> p_dsse ps (le_body (b_entry b)) = Ok body -> d1_payload_hash body = None ->
    escapes_dsse env ps b EAttribute
| esc_d_v2 : forall e, le_version (b_entry b) = s2l "0.0.2" -> p_v2 ps (le_body (b_entry b)) = Raise e -> escapes_dsse env ps b e.

(** ** Proofs *)

Lemma tsas_raise : forall env tr e, get_timestamp_authorities env tr = Raise e ->
  (e = EError /\ exists m, In m (tr_tsas tr) /\ cam_certs m = nil) \/
  exists m der, In m (tr_tsas tr) /\ In der (cam_certs m) /\ e_parse_cert env der = Raise e.
Proof.
  intros env tr e H. unfold get_timestamp_authorities in H. apply map_res_raise in H. destruct H as (m & I & H).
  unfold make_ca in H. apply bind_raise_inv in H. destruct H as [H|(cs & Cs & H)].
  - right. apply map_res_raise in H. destruct H as (der & Id & H). eauto.
  - apply bind_raise_inv in H. destruct H as [H|(u & _ & H)]; [|discriminate].
    apply raise_if_raise in H. destruct H as [H ->]. left. split; [reflexivity|]. exists m. split; [assumption|].
    destruct (cam_certs m) as [|d l]; [reflexivity|]. apply map_res_ok in Cs. inversion Cs; subst. discriminate.
Qed.

Lemma signature_raise : forall env now v b p e, vm_timestamps (bm_vm (b_inner b)) <> nil -> bundle_signature b = Raise e -> escapes env now v b p e.
Proof.
  intros env now v b p e Nt H. unfold bundle_signature, bundle_envelope in H.
  destruct (bm_env (b_inner b)) as [m|] eqn:E.
  - destruct (make_envelope m) as [evp|x] eqn:M; cbn in H; [discriminate|]. inversion H; subst x.
    rewrite (C22_invalid_envelopes_raise _ _ M). apply (esc_envelope _ _ _ _ _ m Nt E).
    intros sg Es. destruct sg as [|y sg]; [reflexivity|]. exfalso.
    assert (Q : make_envelope m = Ok (mkEnvelope m (y :: sg))) by (apply C22_envelope_has_exactly_one_signature; repeat split; [assumption|discriminate]).
    congruence.
  - cbn in H. destruct (bm_msig (b_inner b)) eqn:M; [discriminate|]. inversion H. apply esc_no_content; assumption.
Qed.

Lemma vst_raise : forall env now v b p raw t msg all cas e,
  trusted_tsas env (vf_root v) all -> (forall ca, In ca cas -> In ca all) ->
  In raw (vm_timestamps (bm_vm (b_inner b))) -> e_decode_tsr env raw = Ok t -> signature_of b msg ->
  verify_signed_timestamp_loop env now cas t msg = Raise e -> escapes env now v b p e.
Proof.
  intros env now v b p raw t msg all cas e Ht I Ir Dr Sg. revert I. induction cas as [|ca cas IH]; intros I H; [discriminate|].
  cbn [verify_signed_timestamp_loop] in H.
  assert (I' : forall c, In c cas -> In c all) by (intros c Hc; apply I; right; assumption).
  destruct (Nat.ltb (length (ca_certificates now ca true)) 2) eqn:L; [auto|].
  assert (C : ca_certificates now ca true = ca_certs ca).
  { unfold ca_certificates in *. destruct (is_timerange_valid _ _ _); [reflexivity|discriminate]. }
  rewrite C in H. destruct (e_tsa_verify env (ca_certs ca) t msg) as [u|x] eqn:T.
  - destruct (cam_valid_for _) as [w|] eqn:W.
    + destruct (_ && _); [discriminate|auto].
    + inversion H. destruct u. eapply esc_tsa_window; try eassumption. apply I; left; reflexivity.
  - destruct (exn_eqb x ERfc3161) eqn:Q; [auto|]. inversion H; subst x. eapply esc_tsa; try eassumption; [apply I; left; reflexivity|].
    intros ->. cbn in Q. discriminate.
Qed.

Definition ver_or (P : exn -> Prop) (e : exn) : Prop := is_verification_error e = true \/ P e.

Lemma collect_raise : forall env now v b p tokens e,
  (forall t, In t tokens -> exists raw, In raw (vm_timestamps (bm_vm (b_inner b))) /\ e_decode_tsr env raw = Ok t) ->
  collect_times env now v b tokens = Raise e -> escapes env now v b p e.
Proof.
  intros env now v b p tokens e. induction tokens as [|t l IH]; intros D H; [discriminate|]. cbn [collect_times] in H.
  destruct (D t (or_introl eq_refl)) as (raw & Ir & Dr).
  assert (Nt : vm_timestamps (bm_vm (b_inner b)) <> nil) by (intros E; rewrite E in Ir; contradiction).
  apply bind_raise_inv in H. destruct H as [H|(sg & Sg & H)]; [apply signature_raise; assumption|].
  apply bind_raise_inv in H. destruct H as [H|(r & _ & H)].
  - unfold verify_signed_timestamp in H. apply bind_raise_inv in H. destruct H as [H|(cas & Hc & H)].
    + apply tsas_raise in H. destruct H as [(-> & m & I & E)|(m & der & I & J & E)]; [eapply esc_tsa_empty; eassumption|eapply esc_tsa_cert; eassumption].
    + apply tsas_iff in Hc. apply signature_iff in Sg. eapply (vst_raise env now v b p raw t sg cas cas); eauto.
  - apply bind_raise_inv in H. destruct H as [H|(rest & _ & H)]; [apply IH; [intros t' I'; apply D; right; assumption|assumption]|discriminate].
Qed.

Lemma establish_raise : forall env now v b p e, establish_time env now v b = Raise e -> ver_or (escapes env now v b p) e.
Proof.
  intros env now v b p e H. unfold establish_time in H.
  assert (TD : forall x, timestamp_verification_data env (bm_vm (b_inner b)) = Raise x -> ver_or (escapes env now v b p) x).
  { intros x Q. unfold timestamp_verification_data in Q. destruct (vm_timestamps _) as [|t0 l0] eqn:E; [discriminate|].
    apply bind_raise_inv in Q. destruct Q as [Q|(l & _ & Q)]; [|discriminate].
    destruct (map_res (e_decode_tsr env) (t0 :: l0)) as [l|y] eqn:M; [discriminate|]. cbn [try_except] in Q.
    destruct (is_value_error y) eqn:V; inversion Q; subst; [left; reflexivity|right].
    apply map_res_raise in M. destruct M as (raw & I & D). eapply esc_decode; [rewrite E; exact I|exact D|exact V]. }
  apply bind_raise_inv in H. destruct H as [H|(tvd & Td & H)]; [apply TD; assumption|].
  apply bind_raise_inv in H. destruct H as [H|(l & _ & H)].
  - destruct tvd as [toks|]; [|discriminate].
    assert (Nt : vm_timestamps (bm_vm (b_inner b)) <> nil) by (intros E; unfold timestamp_verification_data in Td; rewrite E in Td; discriminate).
    apply bind_raise_inv in H. destruct H as [H|(cas & Hc & H)].
    { right. apply tsas_raise in H. destruct H as [(-> & m & I & E)|(m & der & I & J & E)]; [eapply esc_tsa_empty; eassumption|eapply esc_tsa_cert; eassumption]. }
    apply bind_raise_inv in H. destruct H as [H|(u & _ & H)]; [apply raise_if_raise in H; destruct H as [_ ->]; left; reflexivity|].
    unfold verify_timestamp_authority in H.
    apply bind_raise_inv in H. destruct H as [H|(tvd & Td2 & H)]; [apply TD; assumption|].
    apply bind_raise_inv in H. destruct H as [H|(u1 & _ & H)]; [apply raise_if_raise in H; destruct H as [_ ->]; left; reflexivity|].
    apply bind_raise_inv in H. destruct H as [H|(u2 & _ & H)]; [apply raise_if_raise in H; destruct H as [_ ->]; left; reflexivity|].
    right. eapply collect_raise; [|exact H]. intros t It. unfold timestamp_verification_data in Td2.
    destruct (vm_timestamps (bm_vm (b_inner b))) as [|t0 l0] eqn:E; [injection Td2 as <-; contradiction|].
    apply bind_ok_inv in Td2. destruct Td2 as (l & Hl & Td2). injection Td2 as <-.
    destruct (map_res (e_decode_tsr env) (t0 :: l0)) as [l'|y] eqn:M; cbn [try_except] in Hl; [|destruct (is_value_error y); discriminate].
    injection Hl as <-. apply map_res_ok in M. destruct (Forall2_in_r _ _ _ _ _ M t It) as (raw & Ir & Dr). eauto.
  - apply bind_raise_inv in H. destruct H as [H|(l2 & _ & H)]; [|discriminate].
    destruct (has_set (b_entry b)) eqn:Hs; [|discriminate].
    assert (Pr : le_promise (b_entry b) <> None) by (intros E; unfold has_set in Hs; rewrite E in Hs; discriminate).
    apply bind_raise_inv in H. destruct H as [H|(u & _ & H)]; [apply raise_if_raise in H; destruct H as [_ ->]; left; reflexivity|].
    destruct (le_integrated_time (b_entry b)) as [t|] eqn:It; [|discriminate].
    apply bind_raise_inv in H. destruct H as [H|(tm & _ & H)]; [|discriminate].
    right. pose proof (esc_time env now v b p t It Pr) as Q. unfold fromtimestamp in H.
    destruct ((t <? -9223372036854775808) || (9223372036854775807 <? t))%Z eqn:A.
    + inversion H. apply Q. lia.
    + destruct ((t <? -62135596800) || (253402300799 <? t))%Z eqn:B; [|discriminate]. inversion H. apply Q. lia.
Qed.

Lemma chains_raise : forall env now v b p ts ch e, verify_chains env v (b_cert b) ts ch = Raise e -> ver_or (escapes env now v b p) e.
Proof.
  intros env now v b p ts. induction ts as [|t ts IH]; intros ch e H; [discriminate|]. cbn [verify_chains] in H.
  apply bind_raise_inv in H. destruct H as [H|(ch' & _ & H)]; [|eapply IH; eassumption].
  unfold verify_chain_at_time in H. apply bind_raise_inv in H. destruct H as [H|(c & _ & H)]; [|discriminate].
  destruct (e_chain env (vf_fulcio v) (t_time t) (b_cert b)) as [l|x] eqn:C; cbn [try_except] in H; [discriminate|].
  destruct (is_chain_error x) eqn:I; inversion H; subst; [left; reflexivity|]. right. eapply esc_chain; [exact C| |].
  - intros ->. discriminate.
  - intros ->. discriminate.
Qed.

(** Everything the common checks raise. *)
Lemma common_raise : forall env now v b p ip e, le_proof (b_entry b) = Some ip ->
  verify_common_signing_cert env now v b p = Raise e -> ver_or (escapes env now v b p) e.
Proof.
  intros env now v b p ip e Hip H. unfold verify_common_signing_cert in H.
  apply bind_raise_inv in H. destruct H as [H|(times & Et & H)]; [apply establish_raise; assumption|].
  apply bind_raise_inv in H. destruct H as [H|(u0 & Ln & H)]; [apply raise_if_raise in H; destruct H as [_ ->]; left; reflexivity|].
  apply bind_raise_inv in H. destruct H as [H|(chain & Ch & H)]; [eapply chains_raise; eassumption|].
  apply bind_raise_inv in H. destruct H as [H|(u1 & _ & H)].
  { assert (Q : exists x, (let* kr := ct_keyring env now (vf_root v) VERIFY in verify_sct env (b_cert b) chain kr) = Raise x /\
               (e = x \/ e = EVerification)).
    { destruct (let* kr := _ in _) as [r|x]; cbn [try_except] in H; [discriminate|]. exists x. split; [reflexivity|].
      destruct (is_verification_error x); inversion H; auto. }
    destruct Q as (x & Q & [->| ->]); [|left; reflexivity].
    apply bind_raise_inv in Q. destruct Q as [Q|(kr & Kr & Q)].
    - right. assert (x = EMetadata).
      { unfold ct_keyring in Q. apply bind_raise_inv in Q. destruct Q as [Q|(u & _ & Q)].
        - apply raise_if_raise in Q. tauto.
        - destruct (C11_construction_never_fails env (get_tlog_keys now (tr_ctlogs (vf_root v)) VERIFY)) as [kr E]. congruence. }
      subst x. pose proof (proj2 (proj2 (C14_no_log_key_is_an_error env now (vf_root v) VERIFY)) Q) as Q0. apply esc_no_ct_key. assumption.
    - apply ct_keyring_keys in Kr. destruct Kr as (ms & K & M).
      apply raise_if_ok in Ln. apply Nat.ltb_ge in Ln. unfold VERIFIED_TIME_THRESHOLD in Ln.
      apply verify_chains_iff in Ch. destruct Ch as (chs & F & Ec).
      assert (L : exists t ch, e_chain env (vf_fulcio v) t (b_cert b) = Ok ch /\ chain = tl ch).
      { destruct chs as [|c0 chs]; [inversion F as [E|]; destruct times; [cbn in Ln; lia|discriminate]|].
        assert (I : In (last (c0 :: chs) nil) (c0 :: chs)).
        { clear. revert c0. induction chs as [|c chs IH]; intros c0; [left; reflexivity|right; apply IH]. }
        destruct (Forall2_in_r _ _ _ _ _ F _ I) as (t & _ & E). eauto. }
      destruct L as (t & ch & Ech & ->).
      destruct (C16_exceptions _ _ _ _ _ _ M Q) as [->|[(-> & x0 & s & Xc & Xs & U)|[E|[E|[[-> E]|[(i & I & E)|(k & s & sg & d & R & E & Ni)]]]]]].
      + left. reflexivity.
      + right. eapply esc_sct_format; eassumption.
      + right. apply esc_exts. assumption.
      + right. apply esc_sct_tbs. assumption.
      + right. destruct E as [E|(c0 & x0 & ekus & E & Xc & Ek & Ic)].
        * eapply esc_sct_chain; [exact Ech|]. destruct ch as [|a [|c l]]; cbn; try lia. cbn in E. discriminate.
        * destruct ch as [|a ch]; [discriminate|]. cbn in E. subst ch. eapply esc_sct_preissuer; eassumption.
      + right. eapply esc_sct_issuer; eassumption.
      + right. eapply esc_ct_key; eassumption. }
  apply bind_raise_inv in H. destruct H as [H|(x & X & H)]; [right; apply esc_exts; assumption|].
  apply bind_raise_inv in H. destruct H as [H|(u2 & _ & H)].
  { destruct (x_ku x) as [[ds kcs]|] eqn:K; [apply raise_if_raise in H; destruct H as [_ ->]; left; reflexivity|].
    inversion H. right. eapply esc_usage; eauto. }
  apply bind_raise_inv in H. destruct H as [H|(u3 & _ & H)].
  { destruct (x_eku x) as [ek|] eqn:K; [apply raise_if_raise in H; destruct H as [_ ->]; left; reflexivity|].
    inversion H. right. eapply esc_usage; eauto. }
  apply bind_raise_inv in H. destruct H as [H|(u4 & _ & H)]; [right; apply esc_policy; assumption|].
  apply bind_raise_inv in H. destruct H as [H|(u5 & _ & H)].
  { assert (Q : exists x, (let* kr := rekor_keyring env now (vf_root v) VERIFY in entry_verify env kr (b_entry b)) = Raise x /\
               (e = x \/ e = EVerification)).
    { destruct (let* kr := _ in _) as [r|y]; cbn [try_except] in H; [discriminate|]. exists y. split; [reflexivity|].
      destruct (is_verification_error y); inversion H; auto. }
    destruct Q as (y & Q & [->| ->]); [|left; reflexivity].
    apply bind_raise_inv in Q. destruct Q as [Q|(kr & Kr & Q)].
    - right. assert (y = EMetadata).
      { unfold rekor_keyring in Q. apply bind_raise_inv in Q. destruct Q as [Q|(u & _ & Q)].
        - apply raise_if_raise in Q. tauto.
        - destruct (C11_construction_never_fails env (get_tlog_keys now (tr_tlogs (vf_root v)) VERIFY)) as [kr E]. congruence. }
      subst y. pose proof (proj2 (proj1 (C14_no_log_key_is_an_error env now (vf_root v) VERIFY)) Q) as Q0. apply esc_no_rekor_key. assumption.
    - apply rekor_keyring_keys in Kr. destruct Kr as (ms & K & M).
      destruct (C09_exceptions _ _ _ _ _ _ M Hip Q) as [->|[Q1|[(-> & Pr & t & It & Rg)|(k & s & sg & d & R & E & Ni)]]].
      + left. reflexivity.
      + destruct (C06_checkpoint_exceptions _ _ _ _ _ _ M Hip Q1) as [->|(text & Ht & D)]; [left; reflexivity|]. right.
        destruct D as [(a & name & b64 & c & E & Bd & D)|[(-> & p0 & data & o & sz & h & ot & E & S & A)|[(E & S)|(k & s & sg & d & R & E & Ni)]]].
        * eapply esc_checkpoint_base64; eassumption.
        * eapply esc_checkpoint_root; eassumption.
        * eapply esc_checkpoint_surrogates; eassumption.
        * eapply esc_rekor_key; eassumption.
      + right. eapply esc_set_range; eassumption.
      + right. eapply esc_rekor_key; eassumption. }
  apply for_each_raise in H. destruct H as (t & _ & H). apply raise_if_raise in H. destruct H as [_ ->]. left. reflexivity.
Qed.

Lemma v2_verifier_raise : forall c e, v2_verifier_from_certificate c = Raise e -> get_key_details c = Raise e.
Proof.
  intros c e H. unfold v2_verifier_from_certificate in H. rewrite b64decode_b64encode in H. cbn [bind] in H.
  apply bind_raise_inv in H. destruct H as [H|(d & _ & H)]; [assumption|discriminate].
Qed.

(** ** C30 *)

Theorem C30_artifact_exceptions : forall env ps now v i b p ip e,
  le_proof (b_entry b) = Some ip ->
  verify_artifact env ps now v i b p = Raise e ->
  is_verification_error e = true \/ escapes env now v b p e \/ escapes_artifact env ps i b e.
Proof.
  intros env ps now v i b p ip e Hip H. unfold verify_artifact in H.
  apply bind_raise_inv in H. destruct H as [H|(u & _ & H)]; [destruct (common_raise _ _ _ _ _ _ _ Hip H); auto|].
  destruct (bm_msig (b_inner b)) as [ms|] eqn:Ms; [|inversion H; left; reflexivity].
  apply bind_raise_inv in H. destruct H as [H|(u1 & _ & H)]; [apply raise_if_raise in H; destruct H as [_ ->]; left; reflexivity|].
  apply bind_raise_inv in H. destruct H as [H|(u2 & _ & H)].
  { destruct (c_pubkey (b_cert b)) as [key|x] eqn:K.
    2:{ cbn in H. destruct (is_invalid_signature x); inversion H; subst; [left; reflexivity|]. right. right. apply esc_a_key. assumption. }
    cbn [bind] in H. destruct (as_prehashed (sha256_digest env i)) as [h|x] eqn:A.
    2:{ unfold as_prehashed in A. cbn in H. destruct (h_alg (sha256_digest env i)) eqn:Al; try discriminate; inversion A; subst x;
          cbn in H; inversion H; right; right; apply esc_a_alg; rewrite Al; discriminate. }
    cbn [bind] in H. assert (h = SHA256) by (unfold as_prehashed in A; destruct (h_alg _); congruence). subst h.
    destruct (e_sig_verify _ _ _ _ _) as [r|x] eqn:V; cbn [try_except] in H; [discriminate|].
    destruct (is_invalid_signature x) eqn:I; inversion H; subst; [left; reflexivity|]. right. right.
    eapply esc_a_sig; [exact K|exact Ms|exact V|]. intros ->. discriminate. }
  apply bind_raise_inv in H. destruct H as [H|(u3 & _ & H)]; [apply raise_if_raise in H; destruct H as [_ ->]; left; reflexivity|].
  destruct (str_eqb _ (s2l "0.0.2")) eqn:V2; [apply str_eqb_spec in V2|].
  - unfold validate_hashedrekord_v002 in H. rewrite Ms, !b64decode_b64encode in H. cbn [bind] in H.
    apply bind_raise_inv in H. destruct H as [H|(vr & _ & H)]; [right; right; apply esc_a_details; [assumption|]; apply v2_verifier_raise; assumption|].
    apply bind_raise_inv in H. destruct H as [H|(act & _ & H)]; [right; right; apply esc_a_v2; assumption|].
    apply raise_if_raise in H. destruct H as [_ ->]. left. reflexivity.
  - destruct (str_eqb _ (s2l "0.0.1")) eqn:V1; [apply str_eqb_spec in V1|inversion H; left; reflexivity].
    unfold validate_hashedrekord_v001 in H. rewrite Ms in H.
    apply bind_raise_inv in H. destruct H as [H|(ex & _ & H)].
    { unfold hashedrekord_from_parts in H. apply bind_raise_inv in H. destruct H as [H|(al & _ & H)]; [|discriminate].
      unfold as_hashedrekord_algorithm, as_prehashed in H. right. right.
      destruct (h_alg (sha256_digest env i)) eqn:Al; try discriminate; inversion H; apply esc_a_alg; rewrite Al; discriminate. }
    apply bind_raise_inv in H. destruct H as [H|(act & _ & H)]; [right; right; apply esc_a_v1; assumption|].
    apply raise_if_raise in H. destruct H as [_ ->]. left. reflexivity.
Qed.

Theorem C30_dsse_exceptions : forall env ps now v b p ip e,
  le_proof (b_entry b) = Some ip ->
  verify_dsse env ps now v b p = Raise e ->
  is_verification_error e = true \/ escapes env now v b p e \/ escapes_dsse env ps b e.
Proof.
  intros env ps now v b p ip e Hip H. unfold verify_dsse in H.
  apply bind_raise_inv in H. destruct H as [H|(u & _ & H)]; [destruct (common_raise _ _ _ _ _ _ _ Hip H); auto|].
  assert (BE : forall x, bundle_envelope b = Raise x -> escapes_dsse env ps b x).
  { intros x Q. unfold bundle_envelope in Q. destruct (bm_env (b_inner b)) as [m|] eqn:E; [|discriminate].
    apply bind_raise_inv in Q. destruct Q as [M|(evp & _ & Q)]; [|discriminate].
    rewrite (C22_invalid_envelopes_raise _ _ M). apply (esc_d_env _ _ _ m E).
    intros sg Es. destruct sg as [|y sg]; [reflexivity|]. exfalso.
    assert (Q : make_envelope m = Ok (mkEnvelope m (y :: sg))) by (apply C22_envelope_has_exactly_one_signature; repeat split; [assumption|discriminate]).
    congruence. }
  apply bind_raise_inv in H. destruct H as [H|(oe & Oe & H)]; [right; right; auto|].
  destruct oe as [evp|]; [|inversion H; left; reflexivity].
  assert (Oe0 := Oe). unfold bundle_envelope in Oe. destruct (bm_env (b_inner b)) as [m|] eqn:Em; [|discriminate].
  apply bind_ok_inv in Oe. destruct Oe as (e' & Me & Oe). inversion Oe; subst e'. clear Oe.
  apply bind_raise_inv in H. destruct H as [H|(key & Key & H)]; [right; right; apply esc_d_key; assumption|].
  apply bind_raise_inv in H. destruct H as [H|(pl & _ & H)].
  { destruct (C22_verify_exceptions _ _ _ _ _ Me H) as [->|[[-> U]|(x & Px & Ni & V)]]; [left; reflexivity| |].
    - right. right. eapply esc_d_type; eassumption.
    - right. right. apply C22_envelope_has_exactly_one_signature in Me. destruct Me as (_ & Ms & _). eapply esc_d_sig; eassumption. }
  apply C22_envelope_has_exactly_one_signature in Me. destruct Me as (Mi & Ms & Mn).
  apply bind_raise_inv in H. destruct H as [H|(u1 & _ & H)]; [|discriminate].
  destruct (_ && _) eqn:V2; [apply andb_true_iff in V2; destruct V2 as [_ V2]; apply str_eqb_spec in V2|].
  - unfold validate_hashedrekord_v002_dsse in H. rewrite Oe0 in H. cbn [bind] in H. rewrite Mi, Ms in H. cbn [length Nat.eqb negb raise_if bind] in H.
    apply bind_raise_inv in H. destruct H as [H|(vr & Vr & H)]; [right; right; apply esc_d_details; [assumption|]; apply v2_verifier_raise; assumption|].
    apply v2_verifier_iff in Vr. destruct Vr as (d & Gd & ->).
    apply bind_raise_inv in H. destruct H as [H|((alg & h) & Ph & H)]; [right; right; eapply esc_d_prehash; eassumption|].
    unfold envelope_pae in H. rewrite Mi in H.
    apply bind_raise_inv in H. destruct H as [H|(x & Px & H)].
    { right. right. destruct (utf8_encode (em_type m)) as [tb|] eqn:U.
      - assert (exists x, pae (em_type m) (em_payload m) = Ok x) as [x Hx] by (apply C21_defined_iff_encodable; eauto). congruence.
      - assert (e = EUnicodeEncode).
        { unfold pae in H. apply bind_raise_inv in H. destruct H as [H|(? & _ & H)]; [|discriminate].
          unfold py_encode in H. destruct (utf8_encode _); congruence. }
        subst e. eapply esc_d_type; eassumption. }
    rewrite !b64decode_b64encode in H. cbn [bind] in H.
    apply bind_raise_inv in H. destruct H as [H|(act & _ & H)]; [right; right; apply esc_d_v2; assumption|].
    apply raise_if_raise in H. destruct H as [_ ->]. left. reflexivity.
  - clear V2. destruct (_ && _) eqn:V1; [apply andb_true_iff in V1; destruct V1 as [_ V1]; apply str_eqb_spec in V1|inversion H; left; reflexivity].
    unfold validate_dsse_v001 in H. rewrite Oe0 in H. cbn [bind] in H.
    apply bind_raise_inv in H. destruct H as [H|(body & Pb & H)].
    { destruct (p_dsse ps (le_body (b_entry b))) as [r|x] eqn:P; cbn [try_except] in H; [discriminate|].
      destruct (exn_eqb EPydantic x) eqn:I; inversion H; subst; [left; reflexivity|]. right. right.
      eapply esc_d_v1; [exact V1|exact P|]. intros ->. cbn in I. discriminate. }
    assert (P : p_dsse ps (le_body (b_entry b)) = Ok body).
    { destruct (p_dsse ps (le_body (b_entry b))) as [r|x]; cbn [try_except] in Pb; [assumption|].
      destruct (exn_eqb EPydantic x); discriminate. }
    destruct (d1_payload_hash body) as [[s val]|] eqn:D; [|inversion H; right; right; eapply esc_d_v1_hash; eassumption].
    apply bind_raise_inv in H. destruct H as [H|(u2 & _ & H)]; [apply raise_if_raise in H; destruct H as [_ ->]; left; reflexivity|].
    apply bind_raise_inv in H. destruct H as [H|(u3 & _ & H)]; [apply raise_if_raise in H; destruct H as [_ ->]; left; reflexivity|].
    apply raise_if_raise in H. destruct H as [_ ->]. left. reflexivity.
Qed.


(** ** C30: other exceptions do escape, for bundles that [Bundle] accepts *)

Definition ex_env (leaf : Cert) : Env := toy_env [(c_der vx_issuer, vx_issuer); (c_der leaf, leaf)].
Definition ex_msg (leaf : Cert) e ts ms ev : BundleMsg := mkBundleMsg BUNDLE_0_3 (mkVM (Some (c_der leaf)) None [e] ts) ms ev.

(** [verify_artifact] / [verify_dsse] on a constructible bundle raise [e] *)
Definition artifact_raises (e : exn) : Prop :=
  exists leaf i m b, make_bundle (ex_env leaf) m = Ok b /\
    verify_artifact (ex_env leaf) vx_parsers vx_now vx_verifier i b vx_policy = Raise e.
Definition dsse_raises (e : exn) : Prop :=
  exists leaf m b, make_bundle (ex_env leaf) m = Ok b /\
    verify_dsse (ex_env leaf) vx_parsers vx_now vx_verifier b vx_policy = Raise e.

Definition ex_bundle (leaf : Cert) (m : BundleMsg) : Bundle := mkBundle m leaf (hd vx_entry1 (vm_entries (bm_vm m))).
Ltac raises leaf i m := exists leaf, i, m, (ex_bundle leaf m); split; [vm_compute; reflexivity|vm_compute; reflexivity].
Ltac raises_dsse leaf m := exists leaf, m, (ex_bundle leaf m); split; [vm_compute; reflexivity|vm_compute; reflexivity].

(** a certificate without a key usage extension *)
Definition ex_no_ku : Cert :=
  vx_leaf_with (Ok (mkExt None None (x_eku vx_exts) (x_san vx_exts) (x_scts vx_exts) [(fulcio_oid 1, s2b "https://issuer.example")])) (Ok vx_key).
(** a certificate for an RSA key *)
Definition ex_rsa : Cert := vx_leaf_with (Ok vx_exts) (Ok (mkPub (KRsa 2048) [x01; x05])).

Theorem C30_only_verification_errors_refuted :
  (* an input digest that is not SHA-256 *)
  artifact_raises EError /\
  (* a log entry body that does not parse *)
  artifact_raises EPydantic /\
  (* a certificate without the key usage extension *)
  artifact_raises EExtensionNotFound /\
  (* a certificate with an RSA key *)
  artifact_raises EType /\
  (* an integrated time after the year 9999, or not a machine integer *)
  artifact_raises EValue /\ artifact_raises EOverflow /\
  (* a log entry that records no payload hash *)
  dsse_raises EAttribute /\
  (* an envelope without signatures *)
  dsse_raises EInvalidEnvelope.
Proof.
  unfold artifact_raises, dsse_raises. split; [|split; [|split; [|split; [|split; [|split; [|split]]]]]].
  - raises vx_leaf (In_hashed (mkHashed HA_SHA2_384 vx_digest)) (ex_msg vx_leaf vx_entry1 nil (Some vx_ms) None).
  - raises vx_leaf (In_bytes vx_input)
      (ex_msg vx_leaf (vx_entry "hashedrekord" "0.0.1" (Some 1700000000%Z) true [x09]) nil (Some vx_ms) None).
  - raises ex_no_ku (In_bytes vx_input) (ex_msg ex_no_ku vx_entry1 nil (Some vx_ms) None).
  - raises ex_rsa (In_bytes vx_input) (ex_msg ex_rsa vx_entry1 nil (Some vx_ms) None).
  - raises vx_leaf (In_bytes vx_input)
      (ex_msg vx_leaf (vx_entry "hashedrekord" "0.0.1" (Some 253402300800%Z) true [x01]) nil (Some vx_ms) None).
  - raises vx_leaf (In_bytes vx_input)
      (ex_msg vx_leaf (vx_entry "hashedrekord" "0.0.1" (Some 9223372036854775808%Z) true [x01]) nil (Some vx_ms) None).
  - raises_dsse vx_leaf (ex_msg vx_leaf (vx_entry "dsse" "0.0.1" (Some 1700000000%Z) true [x05]) nil None (Some vx_ev)).
  - raises_dsse vx_leaf (ex_msg vx_leaf vx_entry4 nil None (Some (mkEnvMsg vx_payload vx_type nil))).
Qed.

(** ** Examples: the hypotheses are met, and the first disjunct occurs *)
Example ex_artifact_verification_error : exists ip,
  le_proof (b_entry vx_artifact1) = Some ip /\
  verify_artifact vx_env vx_parsers vx_now vx_verifier (In_bytes (s2b "hallo")) vx_artifact1 vx_policy = Raise EVerification.
Proof. eexists. split; [vm_compute; reflexivity|vm_compute; reflexivity]. Qed.
Example ex_dsse_verification_error : exists ip,
  le_proof (b_entry vx_dsse1) = Some ip /\
  verify_dsse vx_env vx_parsers vx_now vx_verifier vx_dsse1 (P_identity (s2l "x@b.c") None) = Raise EVerification.
Proof. eexists. split; [vm_compute; reflexivity|vm_compute; reflexivity]. Qed.

Print Assumptions C30_artifact_exceptions.
Print Assumptions C30_dsse_exceptions.
Print Assumptions C30_only_verification_errors_refuted.
