(** Property C94: the order of the entries of a trusted root, and their repetition, do not matter. *)
From Verif Require Import Base Codec Messages Merkle ToyHash Env Keyring KeyringProofs ToyEnv Checkpoint LogEntry PropsCheckpoint Cert Sct Dsse PropsDsse
  PropsSct KeyDetails Policy TrustedRoot PropsTrustedRoot SigningConfig Hashing Bundle PropsBundle Verifier VerifierSpec ToyBundles
  CliVerify PropsKeyring PropsVerifier PropsSigningConfig PropsCliVerify PropsStability.

(** ** Specification *)

(** the same elements, in any order and repeated any number of times *)
Definition same_elements {A : Type} (l l' : list A) : Prop := forall x, In x l <-> In x l'.

(** the same logs, CT logs, certificate authorities and timestamp authorities *)
Definition same_root (tr tr' : TrustedRootMsg) : Prop :=
  same_elements (tr_tlogs tr) (tr_tlogs tr') /\ same_elements (tr_ctlogs tr) (tr_ctlogs tr') /\
  same_elements (tr_cas tr) (tr_cas tr') /\ same_elements (tr_tsas tr) (tr_tsas tr').

(** an id stands for one key, used with one scheme *)
Definition ids_identify (env : Env) (ts : list TLog) : Prop :=
  forall t t' k s k' s', In t ts -> In t' ts -> usable env (tl_key t) k s -> usable env (tl_key t') k' s' ->
    msg_id env k = msg_id env k' -> k = k' /\ s = s'.

(** checking a signature with a key of these logs either succeeds or says that the signature is invalid *)
Definition checks_cleanly (env : Env) (ts : list TLog) : Prop :=
  forall t k s sg d e, In t ts -> usable env (tl_key t) k s -> e_sig_verify env s k sg d = Raise e -> e = EInvalidSignature.

(** every timestamp authority has a validity window, and checking a token with it either succeeds
    or says that the token is invalid *)
Definition stamps_cleanly (env : Env) (tr : TrustedRootMsg) : Prop :=
  forall m, In m (tr_tsas tr) -> cam_valid_for m <> None /\
    forall certs t msg e, Forall2 (fun der c => e_parse_cert env der = Ok c) (cam_certs m) certs ->
      e_tsa_verify env certs t msg = Raise e -> e = ERfc3161.

Definition well_behaved (env : Env) (tr : TrustedRootMsg) : Prop :=
  ids_identify env (tr_tlogs tr) /\ checks_cleanly env (tr_tlogs tr) /\
  ids_identify env (tr_ctlogs tr) /\ checks_cleanly env (tr_ctlogs tr) /\ stamps_cleanly env tr.

(** every certificate of every timestamp authority can be read *)
Definition tsas_load (env : Env) (tr : TrustedRootMsg) : Prop := exists cas, trusted_tsas env tr cas.

(** ** Proofs *)

Lemma se_sym : forall (A : Type) (l l' : list A), same_elements l l' -> same_elements l' l.
Proof. intros A l l' H x. symmetry. apply H. Qed.
Lemma sr_sym : forall tr tr', same_root tr tr' -> same_root tr' tr.
Proof. intros tr tr' (A & B & C & D). repeat split; intros; (apply A || apply B || apply C || apply D); assumption. Qed.
Lemma se_nil : forall (A : Type) (l l' : list A), same_elements l l' -> (l = nil <-> l' = nil).
Proof.
  intros A l l' H. split; intros ->.
  - destruct l' as [|x l']; [reflexivity|]. destruct (proj2 (H x) (or_introl eq_refl)).
  - destruct l as [|x l]; [reflexivity|]. destruct (proj1 (H x) (or_introl eq_refl)).
Qed.

Lemma wb_same : forall env tr tr', same_root tr tr' -> well_behaved env tr -> well_behaved env tr'.
Proof.
  intros env tr tr' (A & B & C & D) (I1 & K1 & I2 & K2 & T). split; [|split; [|split; [|split]]].
  - intros t t' k s k' s' X Y. apply I1; apply A; assumption.
  - intros t k s sg d e X. apply K1. apply A. assumption.
  - intros t t' k s k' s' X Y. apply I2; apply B; assumption.
  - intros t k s sg d e X. apply K2. apply B. assumption.
  - intros m X. apply T. apply D. assumption.
Qed.

Lemma tlog_keys_in : forall now l m, In m (get_tlog_keys now l VERIFY) <->
  exists t, In t l /\ tl_key t = m /\ is_timerange_valid now (tl_valid_for t) true = true.
Proof.
  intros now l m. induction l as [|t l IH]; cbn [get_tlog_keys].
  - split; [intros []|intros (t & [] & _)].
  - destruct (is_timerange_valid now (tl_valid_for t) true) eqn:E; cbn [In]; rewrite IH; split.
    + intros [<-|(t' & X & Y)]; [exists t; auto|exists t'; auto].
    + intros (t' & [<-|X] & Y & Z); [auto|right; exists t'; auto].
    + intros (t' & X & Y). exists t'. auto.
    + intros (t' & [<-|X] & Y & Z); [congruence|exists t'; auto].
Qed.

Lemma tlog_keys_same : forall now l l', same_elements l l' ->
  same_elements (get_tlog_keys now l VERIFY) (get_tlog_keys now l' VERIFY).
Proof.
  intros now l l' H m. rewrite !tlog_keys_in. split; intros (t & X & Y); exists t; (split; [apply H; assumption|assumption]).
Qed.

(** which keys are in a keyring, when ids identify *)
Definition plain (env : Env) (ms : list PublicKeyMsg) : Prop :=
  (forall m m' k s k' s', In m ms -> In m' ms -> usable env m k s -> usable env m' k' s' -> msg_id env k = msg_id env k' -> k = k' /\ s = s') /\
  (forall m k s sg d e, In m ms -> usable env m k s -> e_sig_verify env s k sg d = Raise e -> e = EInvalidSignature).

Lemma plain_registered : forall env ms k s, plain env ms -> (registered env ms k s <-> exists m, In m ms /\ usable env m k s).
Proof.
  intros env ms k s [P _]. split.
  - intros (l1 & m & l2 & -> & U & _). exists m. split; [apply in_or_app; right; left; reflexivity|assumption].
  - revert P. induction ms as [|m0 ms IH]; [intros _ (m & [] & _)|]. intros P (m & In0 & U).
    assert (D : (exists m', In m' ms /\ usable env m' k s) \/
                (In m0 (m0 :: ms) /\ usable env m0 k s /\ forall m' k' s', In m' ms -> usable env m' k' s' -> msg_id env k' <> msg_id env k)).
    { assert (D1 : (exists m' k' s', In m' ms /\ usable env m' k' s' /\ msg_id env k' = msg_id env k) \/
                   (forall m' k' s', In m' ms -> usable env m' k' s' -> msg_id env k' <> msg_id env k)).
      { clear. induction ms as [|m ms IH]; [right; intros ? ? ? []|].
        destruct IH as [(m' & k' & s' & X & Y)|N]; [left; exists m', k', s'; split; [right; tauto|tauto]|].
        destruct (make_key env m) as [K|e] eqn:E.
        - pose proof E as E'. apply make_key_ok in E. destruct E as (k' & s' & U & ->).
          destruct (bytes_eqb (msg_id env k') (msg_id env k)) eqn:Q.
          + apply bytes_eqb_spec in Q. left. exists m, k', s'. split; [left; reflexivity|auto].
          + apply bytes_eqb_false in Q. right. intros m' k2 s2 [<-|I2] U2; [|eauto].
            assert (Ok (key_of env k' s') = Ok (key_of env k2 s2)) as W by (rewrite <- E'; apply make_key_ok; eauto).
            inversion W; subst. assumption.
        - right. intros m' k2 s2 [<-|I2] U2; [|eauto]. exfalso.
          assert (make_key env m = Ok (key_of env k2 s2)) by (apply make_key_ok; eauto). congruence. }
      destruct D1 as [(m' & k' & s' & X & Y & Z)|N].
      - left. exists m'. split; [assumption|]. destruct (P m' m k' s' k s (or_intror X) In0 Y U Z) as [-> ->]. assumption.
      - destruct In0 as [<-|In0]; [right; split; [left; reflexivity|auto]|]. exfalso. exact (N m k s In0 U eq_refl). }
    destruct D as [Ex|(_ & U0 & N)].
    + destruct IH as (l1 & m1 & l2 & -> & R); [|assumption|].
      * intros a b k1 s1 k2 s2 X Y. apply P; right; assumption.
      * exists (m0 :: l1), m1, l2. split; [reflexivity|assumption].
    + exists nil, m0, ms. split; [reflexivity|]. split; assumption.
Qed.

Lemma keyring_same : forall env ms ms' kr kr', same_elements ms ms' -> plain env ms ->
  make_keyring env ms = Ok kr -> make_keyring env ms' = Ok kr' ->
  forall kid sg d, keyring_verify env kr' kid sg d = keyring_verify env kr kid sg d.
Proof.
  intros env ms ms' kr kr' Sm P M M' kid sg d.
  assert (P' : plain env ms').
  { destruct P as [A B]. split.
    - intros m m' k s k' s' X Y. apply A; apply Sm; assumption.
    - intros m k s sg' d' e X. apply B. apply Sm. assumption. }
  assert (R : forall k s, registered env ms k s <-> registered env ms' k s).
  { intros k s. rewrite (plain_registered _ _ _ _ P), (plain_registered _ _ _ _ P').
    split; intros (m & X & Y); exists m; (split; [apply Sm; assumption|assumption]). }
  assert (Cl : forall l k s e, plain env l -> registered env l k s -> e_sig_verify env s k sg d = Raise e -> e = EInvalidSignature).
  { intros l k s e Pl Rg. apply (plain_registered _ _ _ _ Pl) in Rg. destruct Rg as (m & X & Y). apply (proj2 Pl m); assumption. }
  assert (Dir : forall l l' r r', plain env l -> plain env l' -> (forall k s, registered env l k s <-> registered env l' k s) ->
            make_keyring env l = Ok r -> make_keyring env l' = Ok r' ->
            keyring_verify env r kid sg d = Ok tt -> keyring_verify env r' kid sg d = Ok tt).
  { intros l l' r r' Pl Pl' Rg Mk Mk' V. destruct (assoc bytes_eqb kid r) as [K|] eqn:A.
    - apply (keyring_assoc env l r kid K Mk) in A. destruct A as (k & s & Rk & -> & _).
      rewrite (C10_known_id_only_that_key _ _ _ _ _ sg d Mk' (proj1 (Rg k s) Rk)).
      rewrite (C10_known_id_only_that_key _ _ _ _ _ sg d Mk Rk) in V. exact V.
    - assert (No : forall k s, registered env l k s -> msg_id env k <> kid).
      { intros k s Rk Q. assert (assoc bytes_eqb kid r = Some (key_of env k s)) by (apply (keyring_assoc env l r kid _ Mk); eauto). congruence. }
      apply (C10_unknown_id_some_key env l r kid sg d Mk No) in V; [|intros k s e; apply Cl; assumption].
      destruct V as (k & s & Rk & V).
      apply (C10_unknown_id_some_key env l' r' kid sg d Mk'); [intros k' s' Rk'; apply (No k' s'); apply Rg; assumption|intros k' s' e; apply Cl; assumption|].
      exists k, s. split; [apply Rg|]; assumption. }
  destruct (keyring_verify env kr kid sg d) as [[]|e] eqn:V.
  - apply (Dir ms ms' kr kr' P P' R M M' V).
  - destruct (keyring_verify env kr' kid sg d) as [[]|e'] eqn:V'.
    + rewrite (Dir ms' ms kr' kr P' P (fun k s => iff_sym (R k s)) M' M V') in V. discriminate.
    + apply (C10_exceptions _ _ _ _ _ _ _ M) in V. apply (C10_exceptions _ _ _ _ _ _ _ M') in V'.
      destruct V as [->|(k & s & A & B & C)]; [|destruct (C (Cl ms k s e P A B))].
      destruct V' as [->|(k & s & A & B & C)]; [|destruct (C (Cl ms' k s e' P' A B))]. reflexivity.
Qed.

Lemma plain_keys : forall env now l, ids_identify env l -> checks_cleanly env l -> plain env (get_tlog_keys now l VERIFY).
Proof.
  intros env now l A B. split.
  - intros m m' k s k' s' X Y. apply tlog_keys_in in X, Y. destruct X as (t & X & <- & _), Y as (t' & Y & <- & _). apply A; assumption.
  - intros m k s sg d e X. apply tlog_keys_in in X. destruct X as (t & X & <- & _). apply B. assumption.
Qed.

(** what a list of logs gives is determined by the elements *)
Lemma logs_same : forall env now l l', same_elements l l' -> ids_identify env l -> checks_cleanly env l ->
  (get_tlog_keys now l VERIFY = nil <-> get_tlog_keys now l' VERIFY = nil) /\
  forall kr kr', make_keyring env (get_tlog_keys now l VERIFY) = Ok kr -> make_keyring env (get_tlog_keys now l' VERIFY) = Ok kr' ->
  forall kid sg d, keyring_verify env kr' kid sg d = keyring_verify env kr kid sg d.
Proof.
  intros env now l l' Sm A B. pose proof (tlog_keys_same now l l' Sm) as E. split; [apply se_nil; assumption|].
  intros kr kr' M M'. eapply keyring_same; [exact E|apply plain_keys; assumption|assumption|assumption].
Qed.

Lemma sct_ext : forall env kr kr' c chain,
  (forall kid sg d, keyring_verify env kr' kid sg d = keyring_verify env kr kid sg d) ->
  verify_sct env c chain kr' = verify_sct env c chain kr.
Proof.
  intros env kr kr' c chain H. unfold verify_sct. repeat (
    match goal with
    | |- context [keyring_verify env kr' _ _ _] => rewrite H
    | |- bind ?x _ = bind ?x _ => destruct x; cbn [bind]; [|reflexivity]
    | |- (match ?x with _ => _ end) = _ => destruct x
    end); try reflexivity.
Qed.

Lemma with_keys_same : forall (A : Type) env now l l' (f : keyring -> res A),
  same_elements l l' -> ids_identify env l -> checks_cleanly env l ->
  (forall kr kr', (forall kid sg d, keyring_verify env kr' kid sg d = keyring_verify env kr kid sg d) -> f kr' = f kr) ->
  (let* kr := (do* raise_if (match get_tlog_keys now l' VERIFY with nil => true | _ => false end) EMetadata in
               make_keyring env (get_tlog_keys now l' VERIFY)) in f kr) =
  (let* kr := (do* raise_if (match get_tlog_keys now l VERIFY with nil => true | _ => false end) EMetadata in
               make_keyring env (get_tlog_keys now l VERIFY)) in f kr).
Proof.
  intros A env now l l' f Sm I1 K1 F. destruct (logs_same env now l l' Sm I1 K1) as [Nl Q].
  destruct (C11_construction_never_fails env (get_tlog_keys now l VERIFY)) as (kr & M).
  destruct (C11_construction_never_fails env (get_tlog_keys now l' VERIFY)) as (kr' & M').
  specialize (Q kr kr' M M'). rewrite M, M'.
  destruct (get_tlog_keys now l VERIFY) as [|m ms]; destruct (get_tlog_keys now l' VERIFY) as [|m' ms']; cbn [raise_if bind].
  - reflexivity.
  - destruct Nl as [Nl _]. specialize (Nl eq_refl). discriminate.
  - destruct Nl as [_ Nl]. specialize (Nl eq_refl). discriminate.
  - apply F. assumption.
Qed.

Lemma rekor_keyring_form : forall env now tr, rekor_keyring env now tr VERIFY =
  (do* raise_if (match get_tlog_keys now (tr_tlogs tr) VERIFY with nil => true | _ => false end) EMetadata in
   make_keyring env (get_tlog_keys now (tr_tlogs tr) VERIFY)).
Proof. intros env now tr. unfold rekor_keyring. destruct (get_tlog_keys now (tr_tlogs tr) VERIFY); reflexivity. Qed.

(** *** Timestamp authorities *)

Definition dated (env : Env) (cas : list CA) : Prop := forall ca, In ca cas ->
  cam_valid_for (ca_inner ca) <> None /\ forall t msg e, e_tsa_verify env (ca_certs ca) t msg = Raise e -> e = ERfc3161.

Lemma tsa_loop_dated : forall env now t msg cas, dated env cas ->
  (verify_signed_timestamp_loop env now cas t msg = Ok (Some (mkTime TIMESTAMP_AUTHORITY (tsr_time t))) /\ exists ca, In ca cas /\ vouches env now ca t msg) \/
  (verify_signed_timestamp_loop env now cas t msg = Ok None /\ forall ca, In ca cas -> ~ vouches env now ca t msg).
Proof.
  intros env now t msg cas D.
  assert (Dec : forall ca, In ca cas -> declines env now ca t msg \/ vouches env now ca t msg).
  { intros ca Ic. destruct (D ca Ic) as [W E]. destruct (Nat.ltb (length (ca_certificates now ca true)) 2) eqn:L.
    - left. left. rewrite <- ready_iff, L. discriminate.
    - apply ready_iff in L. destruct (e_tsa_verify env (ca_certs ca) t msg) as [[]|e] eqn:V.
      + destruct (cam_valid_for (ca_inner ca)) as [w|] eqn:Q; [|congruence]. pose proof (window_bool w (tsr_time t)) as WB.
        destruct ((tr_start w <=? tsr_time t)%Z && _).
        * right. split; [assumption|]. split; [assumption|]. rewrite Q. apply WB. reflexivity.
        * left. right. right. rewrite Q. split; [assumption|]. split; [discriminate|]. intros X. apply WB in X. discriminate.
      + left. right. left. rewrite V, (E _ _ _ V). reflexivity. }
  clear D. assert (G : (exists bf ca af, cas = bf ++ ca :: af /\ (forall c, In c bf -> declines env now c t msg) /\ vouches env now ca t msg) \/
              (forall c, In c cas -> declines env now c t msg)).
  { induction cas as [|c cas IH]; [right; intros ? []|]. destruct (Dec c (or_introl eq_refl)) as [X|X].
    - destruct IH as [(bf & ca & af & -> & Y & Z)|Y]; [intros c' I'; apply Dec; right; assumption| |].
      + left. exists (c :: bf), ca, af. split; [reflexivity|]. split; [|assumption]. intros c' [<-|I']; auto.
      + right. intros c' [<-|I']; auto.
    - left. exists nil, c, cas. split; [reflexivity|]. split; [intros ? []|assumption]. }
  destruct G as [(bf & ca & af & -> & Y & Z)|Y].
  - left. split.
    + apply (token_time_iff env now msg t (bf ++ ca :: af) (Some (tsr_time t))). split; [reflexivity|]. exists bf, ca, af. auto.
    + exists ca. split; [apply in_or_app; right; left; reflexivity|assumption].
  - right. split.
    + apply (token_time_iff env now msg t cas None). exact Y.
    + intros c Ic V. exact (declines_not_vouches _ _ _ _ _ (Y c Ic) V).
Qed.

Lemma tsa_loop_same : forall env now t msg cas cas', dated env cas -> same_elements cas cas' ->
  verify_signed_timestamp_loop env now cas' t msg = verify_signed_timestamp_loop env now cas t msg.
Proof.
  intros env now t msg cas cas' D Sm.
  assert (D' : dated env cas') by (intros ca Ic; apply D; apply Sm; assumption).
  destruct (tsa_loop_dated env now t msg cas D) as [[-> (ca & Ic & V)]|[-> Nv]];
  destruct (tsa_loop_dated env now t msg cas' D') as [[-> (ca' & Ic' & V')]|[-> Nv']]; try reflexivity; exfalso.
  - apply (Nv' ca); [apply Sm|]; assumption.
  - apply (Nv ca'); [apply Sm|]; assumption.
Qed.

Lemma loaded_in : forall env l cas, map_res (make_ca env) l = Ok cas ->
  forall ca, In ca cas <-> exists m, In m l /\ make_ca env m = Ok ca.
Proof.
  intros env l. induction l as [|m l IH]; intros cas E ca; cbn [map_res] in E.
  - inversion E; subst. split; [intros []|intros (m & [] & _)].
  - inv_bind E. inv_bind E. inversion E; subst cas. cbn [In]. rewrite (IH _ Ha0). split.
    + intros [<-|(m' & X & Y)]; [exists m; auto|exists m'; auto].
    + intros (m' & [<-|X] & Y); [left; congruence|right; exists m'; auto].
Qed.
Lemma loads_iff : forall env l, (exists cas, map_res (make_ca env) l = Ok cas) <-> forall m, In m l -> exists ca, make_ca env m = Ok ca.
Proof.
  intros env l. split.
  - intros (cas & E). revert cas E. induction l as [|m l IH]; intros cas E m' Im; [destruct Im|]. cbn [map_res] in E.
    inv_bind E. inv_bind E. destruct Im as [<-|Im]; eauto.
  - induction l as [|m l IH]; intros H; [exists nil; reflexivity|]. destruct (H m (or_introl eq_refl)) as (ca & E).
    destruct IH as (cas & F); [intros m' Im; apply H; right; assumption|]. exists (ca :: cas). cbn [map_res]. rewrite E. cbn [bind]. rewrite F. reflexivity.
Qed.

Lemma make_ca_parts : forall env m ca, make_ca env m = Ok ca ->
  ca_inner ca = m /\ Forall2 (fun der c => e_parse_cert env der = Ok c) (cam_certs m) (ca_certs ca).
Proof.
  intros env m ca E. unfold make_ca in E. inv_bind E. inv_bind E. inversion E; subst ca. split; [reflexivity|]. cbn [ca_certs].
  clear -Ha. revert a Ha. induction (cam_certs m) as [|x l IH]; intros a Ha; cbn [map_res] in Ha; [inversion Ha; constructor|].
  inv_bind Ha. inv_bind Ha. inversion Ha; subst a. constructor; auto.
Qed.

Section Same.
Variable env : Env.
Variable ps : Parsers.
Variable now : time.
Variables v v' : Verifier.
Hypothesis same : same_root (vf_root v) (vf_root v').
Hypothesis good : well_behaved env (vf_root v).

Lemma cas_same : forall cas, get_timestamp_authorities env (vf_root v) = Ok cas ->
  exists cas', get_timestamp_authorities env (vf_root v') = Ok cas' /\ same_elements cas cas' /\ dated env cas.
Proof.
  intros cas E. unfold get_timestamp_authorities in *. destruct same as (_ & _ & _ & Sm), good as (_ & _ & _ & _ & T).
  assert (L : exists cas', map_res (make_ca env) (tr_tsas (vf_root v')) = Ok cas').
  { apply loads_iff. intros m Im. apply Sm in Im. revert m Im. apply loads_iff. eauto. }
  destruct L as (cas' & E'). exists cas'. split; [assumption|]. split.
  - intros ca. rewrite (loaded_in _ _ _ E ca), (loaded_in _ _ _ E' ca). split; intros (m & X & Y); exists m; (split; [apply Sm; assumption|assumption]).
  - intros ca Ic. apply (loaded_in _ _ _ E ca) in Ic. destruct Ic as (m & X & Y). destruct (make_ca_parts _ _ _ Y) as [<- F].
    destruct (T _ X) as [W Q]. split; [assumption|]. intros t msg e. apply Q. assumption.
Qed.

Lemma collect_same : forall cas b l, get_timestamp_authorities env (vf_root v) = Ok cas ->
  collect_times env now v' b l = collect_times env now v b l.
Proof.
  intros cas b l E. destruct (cas_same cas E) as (cas' & E' & Sm & D). induction l as [|t l IH]; [reflexivity|]. cbn [collect_times].
  rewrite IH. destruct (bundle_signature b) as [sg|]; [|reflexivity]. cbn [bind]. unfold verify_signed_timestamp. rewrite E, E'. cbn [bind].
  rewrite (tsa_loop_same env now t sg cas cas' D Sm). reflexivity.
Qed.

Lemma establish_same : forall b, tsas_load env (vf_root v) \/ vm_timestamps (bm_vm (b_inner b)) = nil ->
  establish_time env now v' b = establish_time env now v b.
Proof.
  intros b L. unfold establish_time. destruct (timestamp_verification_data env (bm_vm (b_inner b))) as [[l|]|e] eqn:T; cbn [bind]; try reflexivity.
  destruct L as [(cas & E)|N].
  - apply tsas_iff in E. destruct (cas_same cas E) as (cas' & E' & Sm & D). rewrite E, E'. cbn [bind].
    unfold verify_timestamp_authority. rewrite T. cbn [bind]. rewrite (collect_same cas b l E).
    pose proof (se_nil _ _ _ Sm) as Nl. destruct cas as [|c cas], cas' as [|c' cas']; try reflexivity.
    + destruct Nl as [Nl _]. specialize (Nl eq_refl). discriminate.
    + destruct Nl as [_ Nl]. specialize (Nl eq_refl). discriminate.
  - exfalso. unfold timestamp_verification_data in T. rewrite N in T. cbn in T. discriminate.
Qed.

Hypothesis chains : forall t c, e_chain env (vf_fulcio v') t c = e_chain env (vf_fulcio v) t c.

Lemma chains_same : forall c ts ch, verify_chains env v' c ts ch = verify_chains env v c ts ch.
Proof.
  intros c ts. induction ts as [|t ts IH]; intros ch; [reflexivity|]. cbn [verify_chains]. unfold verify_chain_at_time. rewrite chains.
  destruct (try_except _ _ _); cbn [bind]; [apply IH|reflexivity].
Qed.

Lemma common_same : forall b p, tsas_load env (vf_root v) \/ vm_timestamps (bm_vm (b_inner b)) = nil ->
  verify_common_signing_cert env now v' b p = verify_common_signing_cert env now v b p.
Proof.
  intros b p L. unfold verify_common_signing_cert. rewrite (establish_same b L).
  destruct (establish_time env now v b) as [times|]; [|reflexivity]. cbn [bind]. rewrite chains_same.
  destruct same as (A & B & _), good as (I1 & K1 & I2 & K2 & _).
  assert (Sc : forall chain, (let* kr := ct_keyring env now (vf_root v') VERIFY in verify_sct env (b_cert b) chain kr) =
                             (let* kr := ct_keyring env now (vf_root v) VERIFY in verify_sct env (b_cert b) chain kr)).
  { intros chain. unfold ct_keyring. apply with_keys_same; try assumption. intros kr kr' H. apply sct_ext. assumption. }
  assert (Rk : (let* kr := rekor_keyring env now (vf_root v') VERIFY in entry_verify env kr (b_entry b)) =
               (let* kr := rekor_keyring env now (vf_root v) VERIFY in entry_verify env kr (b_entry b))).
  { rewrite !rekor_keyring_form. apply with_keys_same; try assumption. intros kr kr' H. apply entry_verify_ext. intros; apply H. }
  rewrite Rk. destruct (raise_if _ _); [|reflexivity]. cbn [bind]. destruct (verify_chains env v (b_cert b) times nil) as [chain|]; [|reflexivity].
  cbn [bind]. rewrite Sc. reflexivity.
Qed.

Lemma artifact_same : forall i b p, tsas_load env (vf_root v) \/ vm_timestamps (bm_vm (b_inner b)) = nil ->
  verify_artifact env ps now v' i b p = verify_artifact env ps now v i b p.
Proof. intros i b p L. unfold verify_artifact. rewrite (common_same b p L). reflexivity. Qed.
Lemma dsse_same : forall b p, tsas_load env (vf_root v) \/ vm_timestamps (bm_vm (b_inner b)) = nil ->
  verify_dsse env ps now v' b p = verify_dsse env ps now v b p.
Proof. intros b p L. unfold verify_dsse. rewrite (common_same b p L). reflexivity. Qed.
End Same.

Lemma fulcio_in : forall env now l certs, fulcio_certs_loop env now l = Ok certs ->
  forall c, In c certs <-> exists m ca, In m l /\ make_ca env m = Ok ca /\ In c (ca_certificates now ca true).
Proof.
  intros env now l. induction l as [|m l IH]; intros certs E c; cbn [fulcio_certs_loop] in E.
  - inversion E; subst. split; [intros []|intros (m & ca & [] & _)].
  - inv_bind E. inv_bind E. inversion E; subst certs. rewrite in_app_iff, (IH _ Ha0). split.
    + intros [X|(m' & ca & X & Y)]; [exists m, a; auto using in_eq|exists m', ca; split; [right; assumption|assumption]].
    + intros (m' & ca & [<-|X] & Y & Z); [left; congruence|right; exists m', ca; auto].
Qed.
Lemma fulcio_loads : forall env now l, (exists certs, fulcio_certs_loop env now l = Ok certs) <-> forall m, In m l -> exists ca, make_ca env m = Ok ca.
Proof.
  intros env now l. split.
  - intros (cas & E). revert cas E. induction l as [|m l IH]; intros cas E m' Im; [destruct Im|]. cbn [fulcio_certs_loop] in E.
    inv_bind E. inv_bind E. destruct Im as [<-|Im]; eauto.
  - induction l as [|m l IH]; intros H; [exists nil; reflexivity|]. destruct (H m (or_introl eq_refl)) as (ca & E).
    destruct IH as (cas & F); [intros m' Im; apply H; right; assumption|]. eexists. cbn [fulcio_certs_loop]. rewrite E. cbn [bind]. rewrite F. reflexivity.
Qed.

(** ** C94 *)

(** A verifier can be made from one root exactly if it can be made from the other, and it trusts
    the same certificates. *)
Theorem C94_same_verifier : forall env now tr tr' v,
  same_root tr tr' -> make_verifier env now tr = Ok v ->
  exists v', make_verifier env now tr' = Ok v' /\ vf_root v' = tr' /\ same_elements (vf_fulcio v) (vf_fulcio v').
Proof.
  intros env now tr tr' v (A & _ & C & _) E. unfold make_verifier, get_fulcio_certs in *.
  inv_bind E. inv_bind Ha. inv_bind Ha. inversion Ha; subst a. clear Ha. apply raise_if_ok in Ha1.
  inv_bind E. inversion E; subst v. clear E. cbn [vf_fulcio vf_root].
  assert (L : exists certs, fulcio_certs_loop env now (tr_cas tr') = Ok certs).
  { apply fulcio_loads. intros m Im. apply C in Im. revert m Im. apply (fulcio_loads env now). eauto. }
  destruct L as (certs & L). rewrite L. cbn [bind].
  assert (Sm : same_elements a0 certs).
  { intros c. rewrite (fulcio_in _ _ _ _ Ha0 c), (fulcio_in _ _ _ _ L c).
    split; intros (m & ca & X & Y); exists m, ca; (split; [apply C; assumption|assumption]). }
  pose proof (se_nil _ _ _ Sm) as Nc. pose proof (se_nil _ _ _ A) as Nt.
  destruct certs as [|c certs]; [rewrite (proj2 Nc eq_refl) in Ha1; discriminate|]. cbn [raise_if bind].
  destruct (tr_tlogs tr') as [|t ts]; [rewrite (proj2 Nt eq_refl) in Ha; discriminate|]. cbn [index_list nth_error bind].
  eexists. split; [reflexivity|]. split; [reflexivity|assumption].
Qed.

(** The two verifiers give the same result, whether they accept or not. *)
Theorem C94_same_results : forall env ps now tr tr' v v',
  same_root tr tr' -> well_behaved env tr -> tsas_load env tr ->
  make_verifier env now tr = Ok v -> make_verifier env now tr' = Ok v' ->
  (forall t c, e_chain env (vf_fulcio v') t c = e_chain env (vf_fulcio v) t c) ->
  (forall i b p, verify_artifact env ps now v' i b p = verify_artifact env ps now v i b p) /\
  (forall b p, verify_dsse env ps now v' b p = verify_dsse env ps now v b p).
Proof.
  intros env ps now tr tr' v v' Sm G L Mv Mv' Ch.
  assert (R : vf_root v = tr) by (unfold make_verifier in Mv; inv_bind Mv; inv_bind Mv; inversion Mv; reflexivity).
  assert (R' : vf_root v' = tr') by (unfold make_verifier in Mv'; inv_bind Mv'; inv_bind Mv'; inversion Mv'; reflexivity).
  rewrite <- R, <- R' in *. split; intros.
  - apply artifact_same; auto.
  - apply dsse_same; auto.
Qed.

(** Acceptance is the same also if some certificate of a timestamp authority cannot be read: only the
    exception with which a bundle is then rejected can differ. *)
Theorem C94_same_acceptance : forall env ps now tr tr' v v',
  same_root tr tr' -> well_behaved env tr ->
  make_verifier env now tr = Ok v -> make_verifier env now tr' = Ok v' ->
  (forall t c, e_chain env (vf_fulcio v') t c = e_chain env (vf_fulcio v) t c) ->
  (forall i b p, verify_artifact env ps now v' i b p = Ok tt <-> verify_artifact env ps now v i b p = Ok tt) /\
  (forall b p r, verify_dsse env ps now v' b p = Ok r <-> verify_dsse env ps now v b p = Ok r).
Proof.
  intros env ps now tr tr' v v' Sm G Mv Mv' Ch.
  assert (R : vf_root v = tr) by (unfold make_verifier in Mv; inv_bind Mv; inv_bind Mv; inversion Mv; reflexivity).
  assert (R' : vf_root v' = tr') by (unfold make_verifier in Mv'; inv_bind Mv'; inv_bind Mv'; inversion Mv'; reflexivity).
  rewrite <- R, <- R' in *.
  destruct (get_timestamp_authorities env (vf_root v)) as [cas|e] eqn:E.
  { assert (L : tsas_load env (vf_root v)) by (exists cas; apply tsas_iff; assumption). split; intros.
    - rewrite (artifact_same env ps now v v' Sm G Ch) by auto. reflexivity.
    - rewrite (dsse_same env ps now v v' Sm G Ch) by auto. reflexivity. }
  assert (E' : forall cas, get_timestamp_authorities env (vf_root v') <> Ok cas).
  { intros cas E'. assert (L : exists cas0, get_timestamp_authorities env (vf_root v) = Ok cas0).
    { apply loads_iff. intros m Im. apply Sm in Im. revert m Im. apply loads_iff. unfold get_timestamp_authorities in E'. eauto. }
    destruct L as (cas0 & L). congruence. }
  assert (Rej : forall b p w, (forall cas, get_timestamp_authorities env (vf_root w) <> Ok cas) -> vm_timestamps (bm_vm (b_inner b)) <> nil ->
            verify_common_signing_cert env now w b p <> Ok tt).
  { intros b p w Nc Nt V. unfold verify_common_signing_cert in V. apply bind_ok_inv in V. destruct V as (times & V & _).
    unfold establish_time in V. apply bind_ok_inv in V. destruct V as (tvd & T & V). destruct tvd as [l|].
    - cbn [bind] in V. apply bind_ok_inv in V. destruct V as (ts & V & _). apply bind_ok_inv in V. destruct V as (cas & V & _). exact (Nc _ V).
    - unfold timestamp_verification_data in T. destruct (vm_timestamps (bm_vm (b_inner b))); [congruence|]. inv_bind T. discriminate. }
  assert (Nc : forall cas, get_timestamp_authorities env (vf_root v) <> Ok cas) by (intros; congruence).
  split.
  - intros i b p. destruct (vm_timestamps (bm_vm (b_inner b))) as [|x l] eqn:T.
    + rewrite (artifact_same env ps now v v' Sm G Ch) by auto. reflexivity.
    + assert (Nt : vm_timestamps (bm_vm (b_inner b)) <> nil) by congruence. unfold verify_artifact.
      pose proof (Rej b p v Nc Nt) as X. pose proof (Rej b p v' E' Nt) as Y.
      destruct (verify_common_signing_cert env now v b p) as [[]|]; [congruence|].
      destruct (verify_common_signing_cert env now v' b p) as [[]|]; [congruence|]. cbn [bind]. split; discriminate.
  - intros b p r. destruct (vm_timestamps (bm_vm (b_inner b))) as [|x l] eqn:T.
    + rewrite (dsse_same env ps now v v' Sm G Ch) by auto. reflexivity.
    + assert (Nt : vm_timestamps (bm_vm (b_inner b)) <> nil) by congruence. unfold verify_dsse.
      pose proof (Rej b p v Nc Nt) as X. pose proof (Rej b p v' E' Nt) as Y.
      destruct (verify_common_signing_cert env now v b p) as [[]|]; [congruence|].
      destruct (verify_common_signing_cert env now v' b p) as [[]|]; [congruence|]. cbn [bind]. split; discriminate.
Qed.

(** *** A concrete case: two logs, two CT logs, two certificate authorities, three timestamp
    authorities, listed the other way round and some of them twice.  The chain that is built does
    not depend on the order. *)
Definition or_env : Env :=
  mkEnv (e_hash vx_env) (e_udecimal vx_env) (e_load_key vx_env) (e_sig_verify vx_env) (e_parse_cert vx_env) (e_self_issued vx_env)
    (fun roots t c => if existsb (fun r => bytes_eqb (c_der r) (c_der vx_issuer)) roots
                      then e_chain vx_env [vx_issuer] t c else Raise EX509Verification)
    (e_decode_tsr vx_env) (e_tsa_verify vx_env).
Definition or_log2 : TLog := mkTLog (mkPKM (Some [x02; x77]) PKIX_ECDSA_P256_SHA_256) vx_window (s2l "https://rekor2.example").
Definition or_tr : TrustedRootMsg :=
  mkTR TRUSTED_ROOT_0_1 (tr_tlogs vx_tr ++ [or_log2]) (tr_ctlogs vx_tr ++ [or_log2])
    (tr_cas vx_tr ++ [mkCAMsg [c_der vx_leaf] vx_window]) (tr_tsas vx_tr).
Definition or_tr' : TrustedRootMsg :=
  mkTR TRUSTED_ROOT_0_1 (or_log2 :: or_log2 :: tr_tlogs vx_tr) (or_log2 :: tr_ctlogs vx_tr)
    (mkCAMsg [c_der vx_leaf] vx_window :: tr_cas vx_tr) (rev (tr_tsas vx_tr)).
Lemma or_same : same_root or_tr or_tr'.
Proof.
  split; [|split; [|split]]; intros x; cbn; tauto.
Qed.
Lemma or_key : forall env m k s raw, e_load_key env = toy_load_key -> m = mkPKM (Some (x02 :: raw)) PKIX_ECDSA_P256_SHA_256 ->
  usable env m k s -> k = mkPub (KEc P256) (x02 :: raw) /\ s = ECDSA SHA256.
Proof.
  intros env m k s raw E -> (r & cls & A & _ & B & C & _). cbn [pkm_raw pkm_details scheme_of_details] in A, B.
  inversion A; subst r. inversion B; subst. rewrite E in C. cbn [toy_load_key] in C. inversion C. auto.
Qed.
Lemma or_good : forall l, (forall t, In t l -> exists raw, tl_key t = mkPKM (Some (x02 :: raw)) PKIX_ECDSA_P256_SHA_256) ->
  (forall t t', In t l -> In t' l -> e_hash or_env SHA256 (match pkm_raw (tl_key t) with Some r => r | None => nil end) =
     e_hash or_env SHA256 (match pkm_raw (tl_key t') with Some r => r | None => nil end) -> tl_key t = tl_key t') ->
  ids_identify or_env l /\ checks_cleanly or_env l.
Proof.
  intros l H Hi. split.
  - intros t t' k s k' s' A B U U' E. specialize (Hi t t' A B).
    destruct (H t A) as (raw & Q), (H t' B) as (raw' & Q').
    destruct (or_key or_env _ _ _ raw eq_refl Q U) as [-> ->]. destruct (or_key or_env _ _ _ raw' eq_refl Q' U') as [-> ->].
    rewrite Q, Q' in Hi. unfold msg_id in E. cbn [pk_spki pkm_raw] in *. specialize (Hi E). inversion Hi. auto.
  - intros t k s sg d e A U V. destruct (H t A) as (raw & Q). destruct (or_key or_env _ _ _ raw eq_refl Q U) as [-> ->].
    change (toy_sig_verify (ECDSA SHA256) (mkPub (KEc P256) (x02 :: raw)) sg d = Raise e) in V.
    unfold toy_sig_verify in V. cbn [pk_kind] in V. destruct (bytes_eqb sg _); congruence.
Qed.
Lemma or_well : well_behaved or_env or_tr.
Proof.
  assert (G : forall k0, k0 = cx_key \/ k0 = sx_ct_key -> forall u, let l := [mkTLog (mkPKM (Some k0) PKIX_ECDSA_P256_SHA_256) vx_window u; or_log2] in
            ids_identify or_env l /\ checks_cleanly or_env l).
  { intros k0 K u l. apply or_good.
    - intros t [<-|[<-|[]]]; [destruct K as [->| ->]|]; eexists; reflexivity.
    - intros t t' [<-|[<-|[]]] [<-|[<-|[]]]; try (intros; reflexivity); intros E; exfalso; destruct K as [->| ->]; vm_compute in E; discriminate. }
  destruct (G cx_key (or_introl eq_refl) (s2l "https://rekor.example")) as [A B].
  destruct (G sx_ct_key (or_intror eq_refl) (s2l "https://ct.example")) as [C D].
  split; [exact A|]. split; [exact B|]. split; [exact C|]. split; [exact D|].
  intros m Im. split; [destruct Im as [<-|[<-|[<-|[]]]]; discriminate|].
  intros certs t msg e _ V. change (e_tsa_verify (toy_env nil) certs t msg = Raise e) in V. cbn [e_tsa_verify toy_env] in V.
  repeat match type of V with (match ?x with _ => _ end) = _ => destruct x; try congruence end.
Qed.
Definition or_v : Verifier := mkVerifier [vx_issuer; vx_leaf] or_tr (s2l "https://rekor.example").
Definition or_v' : Verifier := mkVerifier [vx_leaf; vx_issuer] or_tr' (s2l "https://rekor2.example").
Example ex_order : same_root or_tr or_tr' /\ well_behaved or_env or_tr /\ tsas_load or_env or_tr /\
  make_verifier or_env vx_now or_tr = Ok or_v /\ make_verifier or_env vx_now or_tr' = Ok or_v' /\
  (forall t c, e_chain or_env (vf_fulcio or_v') t c = e_chain or_env (vf_fulcio or_v) t c) /\
  verify_artifact or_env vx_parsers vx_now or_v (In_bytes vx_input) vx_artifact2 vx_policy = Ok tt.
Proof.
  split; [exact or_same|]. split; [exact or_well|]. split.
  { eexists. apply tsas_iff. vm_compute. reflexivity. }
  split; [vm_compute; reflexivity|]. split; [vm_compute; reflexivity|]. split; [reflexivity|]. vm_compute. reflexivity.
Qed.
Example ex_order_accepted : verify_artifact or_env vx_parsers vx_now or_v' (In_bytes vx_input) vx_artifact2 vx_policy = Ok tt.
Proof.
  destruct ex_order as (A & B & C & D & E & F & G).
  rewrite (proj1 (C94_same_results _ _ _ _ _ _ _ A B C D E F)). exact G.
Qed.

(** Without these conditions the order matters: a key listed again for another hash is used if it
    comes last; an authority without a window stops the verification if it comes first.  And the log
    that is asked for missing entries is the one listed first. *)
Definition or_root (ts : list TLog) (tsas : list CAMsg) : TrustedRootMsg :=
  mkTR TRUSTED_ROOT_0_1 ts (tr_ctlogs vx_tr) (tr_cas vx_tr) tsas.
Definition or_other : TLog := mkTLog (mkPKM (Some cx_key) PKIX_ECDSA_P384_SHA_384) vx_window (s2l "https://rekor.example").
Definition or_undated : CAMsg := mkCAMsg [c_der vx_issuer; c_der vx_issuer] None.
Theorem C94_any_root_refuted :
  exists env ps now tr i b p b2,
    (exists tr' v v', same_root tr tr' /\ make_verifier env now tr = Ok v /\ make_verifier env now tr' = Ok v' /\
       verify_artifact env ps now v i b p = Ok tt /\ verify_artifact env ps now v' i b p = Raise EVerification) /\
    (exists tr1 tr2 v1 v2, same_root tr1 tr2 /\ make_verifier env now tr1 = Ok v1 /\ make_verifier env now tr2 = Ok v2 /\
       vf_fulcio v1 = vf_fulcio v2 /\
       verify_artifact env ps now v1 i b2 p = Ok tt /\ verify_artifact env ps now v2 i b2 p = Raise EAttribute) /\
    (exists tr1 tr2 v1 v2, same_root tr1 tr2 /\ well_behaved env tr1 /\ make_verifier env now tr1 = Ok v1 /\ make_verifier env now tr2 = Ok v2 /\
       vf_rekor_url v1 <> vf_rekor_url v2).
Proof.
  assert (Sw : forall (A : Type) (x y : A), same_elements [x; y] [y; x]) by (intros A x y z; cbn; tauto).
  assert (Rf : forall (A : Type) (l : list A), same_elements l l) by (intros A l z; tauto).
  exists or_env, vx_parsers, vx_now, (or_root (or_other :: tr_tlogs vx_tr) (tr_tsas vx_tr)), (In_bytes vx_input), vx_artifact1, vx_policy, vx_artifact2.
  split; [|split].
  - exists (or_root (tr_tlogs vx_tr ++ [or_other]) (tr_tsas vx_tr)). eexists. eexists.
    split; [split; [apply Sw|split; [apply Rf|split; apply Rf]]|].
    split; [vm_compute; reflexivity|]. split; [vm_compute; reflexivity|]. split; vm_compute; reflexivity.
  - exists (or_root (tr_tlogs vx_tr) [mkCAMsg [c_der vx_issuer; c_der vx_issuer] vx_window; or_undated]),
           (or_root (tr_tlogs vx_tr) [or_undated; mkCAMsg [c_der vx_issuer; c_der vx_issuer] vx_window]). eexists. eexists.
    split; [split; [apply Rf|split; [apply Rf|split; [apply Rf|apply Sw]]]|].
    split; [vm_compute; reflexivity|]. split; [vm_compute; reflexivity|]. split; [vm_compute; reflexivity|]. split; vm_compute; reflexivity.
  - exists or_tr, or_tr', or_v, or_v'. split; [exact or_same|]. split; [exact or_well|].
    split; [vm_compute; reflexivity|]. split; [vm_compute; reflexivity|]. vm_compute. discriminate.
Qed.

Print Assumptions C94_same_verifier.
Print Assumptions C94_same_results.
Print Assumptions C94_same_acceptance.
Print Assumptions C94_any_root_refuted.

