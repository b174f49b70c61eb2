(** Property C14: keys and certificates taken from a trusted root. *)
From Verif Require Import Base Messages Env Keyring KeyringProofs PropsKeyring TrustedRoot ToyEnv.

(** ** Specification *)

(** The window has started, and for signing has not ended.  No window: always usable. *)
Definition started (now : time) (w : option TimeRange) : Prop :=
  forall r, w = Some r -> (tr_start r <= now)%Z.
Definition not_ended (now : time) (w : option TimeRange) : Prop :=
  forall r e, w = Some r -> tr_end r = Some e -> (now <= e)%Z.
Definition in_force (p : purpose) (now : time) (w : option TimeRange) : Prop :=
  started now w /\ (p = SIGN -> not_ended now w).

(** [sublist_by P l l']: [l'] is the subsequence of exactly those elements satisfying [P]. *)
Inductive selected {A} (P : A -> Prop) : list A -> list A -> Prop :=
| sel_nil : selected P nil nil
| sel_take : forall x l l', P x -> selected P l l' -> selected P (x :: l) (x :: l')
| sel_skip : forall x l l', ~ P x -> selected P l l' -> selected P (x :: l) l'.

Lemma window_iff : forall now w p,
  is_timerange_valid now w (match p with VERIFY => true | SIGN => false end) = true <-> in_force p now w.
Proof.
  intros now w p. unfold is_timerange_valid, in_force, started, not_ended.
  destruct w as [[st en]|]; cbn [tr_start tr_end].
  2:{ split; [|reflexivity]. intros _. split; [discriminate|]. intros _ r e H. discriminate. }
  destruct (now <? st)%Z eqn:E.
  - split; [discriminate|]. intros [H _]. specialize (H _ eq_refl). cbn in H. apply Z.ltb_lt in E. lia.
  - apply Z.ltb_ge in E. destruct p; cbn [orb].
    + split.
      * intros H. split; [intros r Q; inversion Q; cbn; lia|].
        intros _ r e Q Qe. inversion Q; subst. cbn in Qe. subst en. apply Z.leb_le in H. assumption.
      * intros [_ H]. destruct en as [e|]; [|reflexivity]. apply Z.leb_le.
        apply (H eq_refl _ e eq_refl). reflexivity.
    + split; [|reflexivity]. intros _. split; [intros r Q; inversion Q; cbn; lia|discriminate].
Qed.

Lemma tlog_keys_selected : forall now tlogs p,
  exists ts, selected (fun t => in_force p now (tl_valid_for t)) tlogs ts /\
             get_tlog_keys now tlogs p = map tl_key ts.
Proof.
  intros now tlogs p. induction tlogs as [|t l (ts & S & E)]; [exists nil; split; [constructor|reflexivity]|].
  cbn [get_tlog_keys]. pose proof (window_iff now (tl_valid_for t) p) as W.
  destruct (is_timerange_valid _ _ _).
  - exists (t :: ts). split; [apply sel_take; [apply W; reflexivity|assumption]|]. cbn. rewrite E. reflexivity.
  - exists ts. split; [apply sel_skip; [|assumption]|assumption]. intros H. apply W in H. discriminate.
Qed.

Lemma selected_unique : forall A (P : A -> Prop) l a b, selected P l a -> selected P l b -> a = b.
Proof.
  intros A P l. induction l as [|x l IH]; intros a b Ha Hb; inversion Ha; inversion Hb; subst; auto; try contradiction.
  f_equal. auto.
Qed.

Lemma selected_nil : forall A (P : A -> Prop) l, (forall x, In x l -> ~ P x) -> selected P l nil.
Proof.
  intros A P l. induction l as [|x l IH]; intros H; [constructor|].
  apply sel_skip; [apply H; left; reflexivity|apply IH; intros y Hy; apply H; right; assumption].
Qed.

Lemma selected_in : forall A (P : A -> Prop) l l', selected P l l' -> forall x, In x l' <-> In x l /\ P x.
Proof.
  intros A P l l' H. induction H as [|y l l' Py H IH|y l l' Py H IH]; intros x; cbn [In].
  - tauto.
  - rewrite IH. split; [intros [->|[A1 A2]]; auto|intros [[->|A1] A2]; auto].
  - rewrite IH. split; [intros [A1 A2]; auto|intros [[->|A1] A2]; [contradiction|auto]].
Qed.

(** ** C14: log keys.  [logs] is the trusted root's list of Rekor (CT) logs. *)
Theorem C14_rekor_keyring : forall env now tr p kr,
  rekor_keyring env now tr p = Ok kr <->
  exists t ts, selected (fun t => in_force p now (tl_valid_for t)) (tr_tlogs tr) (t :: ts) /\
    make_keyring env (map tl_key (t :: ts)) = Ok kr.
Proof.
  intros env now tr p kr. unfold rekor_keyring.
  destruct (tlog_keys_selected now (tr_tlogs tr) p) as (ts & S & E). rewrite E, map_length.
  destruct ts as [|t ts]; cbn [length Nat.eqb raise_if bind].
  - split; [discriminate|]. intros (t & ts & S' & _). pose proof (selected_unique _ _ _ _ _ S S'). discriminate.
  - split; [intros H; eauto|]. intros (t' & ts' & S' & M).
    pose proof (selected_unique _ _ _ _ _ S S') as Q. rewrite Q. assumption.
Qed.

Theorem C14_ct_keyring : forall env now tr p kr,
  ct_keyring env now tr p = Ok kr <->
  exists t ts, selected (fun t => in_force p now (tl_valid_for t)) (tr_ctlogs tr) (t :: ts) /\
    make_keyring env (map tl_key (t :: ts)) = Ok kr.
Proof.
  intros env now tr p kr. unfold ct_keyring.
  destruct (tlog_keys_selected now (tr_ctlogs tr) p) as (ts & S & E). rewrite E.
  destruct ts as [|t ts]; cbn [map raise_if bind].
  - split; [discriminate|]. intros (t & ts & S' & _). pose proof (selected_unique _ _ _ _ _ S S'). discriminate.
  - split; [intros H; eauto|]. intros (t' & ts' & S' & M).
    pose proof (selected_unique _ _ _ _ _ S S') as Q. change (tl_key t :: map tl_key ts) with (map tl_key (t :: ts)). rewrite Q. assumption.
Qed.

(** No usable key is an error (MetadataError), never an empty keyring. *)
Theorem C14_no_log_key_is_an_error : forall env now tr p,
  ((forall t, In t (tr_tlogs tr) -> ~ in_force p now (tl_valid_for t)) <->
   rekor_keyring env now tr p = Raise EMetadata) /\
  ((forall t, In t (tr_ctlogs tr) -> ~ in_force p now (tl_valid_for t)) <->
   ct_keyring env now tr p = Raise EMetadata).
Proof.
  intros env now tr p.
  assert (G : forall logs, (forall t, In t logs -> ~ in_force p now (tl_valid_for t)) <-> get_tlog_keys now logs p = nil).
  { intros logs. destruct (tlog_keys_selected now logs p) as (ts & S & E). rewrite E. split.
    - intros H. apply selected_nil in H. rewrite (selected_unique _ _ _ _ _ S H). reflexivity.
    - intros H t I W. destruct ts; [|discriminate]. apply (selected_in _ _ _ _ S t). auto. }
  split; rewrite G; unfold rekor_keyring, ct_keyring; split.
  - intros ->. reflexivity.
  - destruct (get_tlog_keys _ _ _) as [|k ks] eqn:Q; [reflexivity|]. cbn [length Nat.eqb raise_if bind].
    destruct (make_keyring_total env (k :: ks)) as [kr ->]. discriminate.
  - intros ->. reflexivity.
  - destruct (get_tlog_keys _ _ _) as [|k ks] eqn:Q; [reflexivity|]. cbn [raise_if bind].
    destruct (make_keyring_total env (k :: ks)) as [kr ->]. discriminate.
Qed.

(** Signing uses a subset of the verification keys; expired keys only verify. *)
Theorem C14_signing_keys_are_verification_keys : forall now tr m,
  In m (get_tlog_keys now (tr_tlogs tr) SIGN) -> In m (get_tlog_keys now (tr_tlogs tr) VERIFY).
Proof.
  intros now tr m H. destruct (tlog_keys_selected now (tr_tlogs tr) SIGN) as (ts & S & E).
  destruct (tlog_keys_selected now (tr_tlogs tr) VERIFY) as (ts' & S' & E').
  rewrite E in H. rewrite E'. apply in_map_iff in H. destruct H as (t & <- & I). apply in_map.
  apply (selected_in _ _ _ _ S') . apply (selected_in _ _ _ _ S) in I. destruct I as [I [W _]].
  split; [assumption|]. split; [assumption|discriminate].
Qed.

(** ** C14: Fulcio certificates: the certificates of the authorities whose window has
    started, in trusted-root order; every authority must parse and be non-empty. *)
Theorem C14_fulcio_certificates : forall env now tr certs,
  get_fulcio_certs env now tr = Ok certs <->
  certs <> nil /\
  exists parsed used, Forall2 (fun m cs => Forall2 (fun der c => e_parse_cert env der = Ok c) (cam_certs m) cs /\ cs <> nil) (tr_cas tr) parsed /\
    selected (fun mc => started now (cam_valid_for (fst mc))) (combine (tr_cas tr) parsed) used /\
    certs = concat (map snd used).
Proof.
  intros env now tr certs. unfold get_fulcio_certs.
  assert (G : forall cas cs, fulcio_certs_loop env now cas = Ok cs <->
    exists parsed used, Forall2 (fun m cs => Forall2 (fun der c => e_parse_cert env der = Ok c) (cam_certs m) cs /\ cs <> nil) cas parsed /\
    selected (fun mc => started now (cam_valid_for (fst mc))) (combine cas parsed) used /\
    cs = concat (map snd used)).
  { induction cas as [|m cas IH]; intros cs; cbn [fulcio_certs_loop].
    - split.
      + intros H. inversion H. exists nil, nil. repeat constructor.
      + intros (p & u & F & S & ->). inversion F; subst. inversion S; subst. reflexivity.
    - split.
      + intros H. inv_bind H. inv_bind H. inversion H; subst. clear H.
        apply IH in Ha0. destruct Ha0 as (parsed & used & F & S & ->).
        unfold make_ca in Ha. inv_bind Ha. inv_bind Ha. inversion Ha; subst. clear Ha.
        apply map_res_ok in Ha0. apply raise_if_ok in Ha1.
        assert (N : a0 <> nil) by (destruct a0; [discriminate|discriminate]).
        pose proof (window_iff now (cam_valid_for m) VERIFY) as W. cbn in W.
        assert (W' : in_force VERIFY now (cam_valid_for m) <-> started now (cam_valid_for m)).
        { unfold in_force. split; [tauto|]. intros Q. split; [assumption|discriminate]. }
        exists (a0 :: parsed). unfold ca_certificates. cbn [ca_inner ca_certs combine].
        destruct (is_timerange_valid _ _ _).
        * exists ((m, a0) :: used). split; [constructor; auto|]. split; [|reflexivity].
          apply sel_take; [|assumption]. cbn [fst]. apply W'. apply W. reflexivity.
        * exists used. split; [constructor; auto|]. split; [|reflexivity].
          apply sel_skip; [|assumption]. cbn [fst]. intros Q. apply W' in Q. apply W in Q. discriminate.
      + intros (parsed & used & F & S & ->). inversion F as [|? c0 ? parsed' [Fc N] F']; subst.
        pose proof (window_iff now (cam_valid_for m) VERIFY) as W. cbn in W.
        assert (W' : in_force VERIFY now (cam_valid_for m) <-> started now (cam_valid_for m)).
        { unfold in_force. split; [tauto|]. intros Q. split; [assumption|discriminate]. }
        assert (MC : make_ca env m = Ok (mkCA m c0)).
        { unfold make_ca. apply map_res_ok in Fc. rewrite Fc. cbn [bind]. destruct c0; [congruence|reflexivity]. }
        rewrite MC. cbn [bind]. cbn [combine] in S. inversion S; subst.
        * assert (L : fulcio_certs_loop env now cas = Ok (concat (map snd l'))) by (apply IH; eauto).
          rewrite L. cbn [bind]. unfold ca_certificates. cbn [ca_inner ca_certs].
          cbn [fst] in H1. apply W' in H1. apply W in H1. rewrite H1. reflexivity.
        * assert (L : fulcio_certs_loop env now cas = Ok (concat (map snd used))) by (apply IH; eauto).
          rewrite L. cbn [bind]. unfold ca_certificates. cbn [ca_inner ca_certs]. cbn [fst] in H1.
          destruct (is_timerange_valid _ _ _); [|reflexivity]. exfalso. apply H1. apply W'. apply W. reflexivity. }
  split.
  - intros H. inv_bind H. inv_bind H. inversion H; subst. apply raise_if_ok in Ha0.
    split; [destruct certs; discriminate|]. apply G. assumption.
  - intros [N H]. apply G in H. rewrite H. cbn [bind]. destruct certs; [congruence|reflexivity].
Qed.

(** Timestamp authorities: all of them, in order, whatever their window (it is applied
    when a timestamp is verified). *)
Theorem C14_timestamp_authorities : forall env tr cas,
  get_timestamp_authorities env tr = Ok cas <->
  Forall2 (fun m ca => ca_inner ca = m /\ ca_certs ca <> nil /\
    Forall2 (fun der c => e_parse_cert env der = Ok c) (cam_certs m) (ca_certs ca)) (tr_tsas tr) cas.
Proof.
  intros env tr cas. unfold get_timestamp_authorities. rewrite map_res_ok.
  assert (E : forall m ca, make_ca env m = Ok ca <-> (ca_inner ca = m /\ ca_certs ca <> nil /\
    Forall2 (fun der c => e_parse_cert env der = Ok c) (cam_certs m) (ca_certs ca))).
  { intros m ca. unfold make_ca. split.
    - intros H. inv_bind H. inv_bind H. inversion H; subst. cbn. apply raise_if_ok in Ha0.
      split; [reflexivity|]. split; [destruct a; discriminate|]. apply map_res_ok. assumption.
    - intros (A & B & C). destruct ca as [i cs]. cbn in *. subst i. apply map_res_ok in C. rewrite C. cbn [bind].
      destruct cs; [congruence|reflexivity]. }
  split; intros H; induction H; constructor; auto; apply E; assumption.
Qed.

(** Exceptions of loading authorities: MetadataError for nothing usable, Error for an
    authority without certificates, or what parsing a certificate raises. *)
Theorem C14_fulcio_exceptions : forall env now tr e, get_fulcio_certs env now tr = Raise e ->
  e = EMetadata \/ (e = EError /\ exists m, In m (tr_cas tr) /\ cam_certs m = nil) \/
  exists m der, In m (tr_cas tr) /\ In der (cam_certs m) /\ e_parse_cert env der = Raise e.
Proof.
  intros env now tr e H. unfold get_fulcio_certs in H.
  apply bind_raise_inv in H. destruct H as [H|(cs & _ & H)].
  2:{ apply bind_raise_inv in H. destruct H as [H|(u & _ & H)]; [apply raise_if_raise in H; tauto|discriminate]. }
  right. revert H. generalize (tr_cas tr) as cas. induction cas as [|m cas IH]; intros H; [discriminate|].
  cbn [fulcio_certs_loop] in H. apply bind_raise_inv in H. destruct H as [H|(ca & _ & H)].
  - unfold make_ca in H. apply bind_raise_inv in H. destruct H as [H|(cs & Hcs & H)].
    + right. assert (K : forall l, map_res (e_parse_cert env) l = Raise e -> exists der, In der l /\ e_parse_cert env der = Raise e).
      { induction l as [|d l IHl]; [discriminate|]. cbn [map_res]. intros Q.
        apply bind_raise_inv in Q. destruct Q as [Q|(c & _ & Q)]; [exists d; split; [left; reflexivity|assumption]|].
        apply bind_raise_inv in Q. destruct Q as [Q|(c' & _ & Q)]; [|discriminate].
        destruct (IHl Q) as (der & I & R). exists der. split; [right; assumption|assumption]. }
      destruct (K _ H) as (der & I & R). exists m, der. split; [left; reflexivity|]. auto.
    + apply bind_raise_inv in H. destruct H as [H|(u & _ & H)]; [|discriminate].
      apply raise_if_raise in H. destruct H as [N ->]. left. split; [reflexivity|]. exists m. split; [left; reflexivity|].
      destruct cs; [|discriminate]. apply map_res_length in Hcs. destruct (cam_certs m); [reflexivity|discriminate].
  - apply bind_raise_inv in H. destruct H as [H|(r & _ & H)]; [|discriminate].
    destruct (IH H) as [(A & m' & I & B)|(m' & der & I & B)].
    + left. split; [assumption|]. exists m'. split; [right|]; assumption.
    + right. exists m', der. split; [right|]; assumption.
Qed.

(** ** Concrete case: of three logs (expired, current, future) verification uses two,
    signing one. *)
Definition tx_key (b : byte) := mkPKM (Some [x02; b]) PKIX_ECDSA_P256_SHA_256.
Definition tx_tr : TrustedRootMsg := mkTR TRUSTED_ROOT_0_1
  [mkTLog (tx_key x01) (Some (mkTimeRange 0%Z (Some 10%Z))) nil;
   mkTLog (tx_key x02) (Some (mkTimeRange 5%Z None)) nil;
   mkTLog (tx_key x03) (Some (mkTimeRange 500%Z None)) nil] nil nil nil.
Example ex_verify_keys : get_tlog_keys 100%Z (tr_tlogs tx_tr) VERIFY = [tx_key x01; tx_key x02].
Proof. reflexivity. Qed.
Example ex_sign_keys : get_tlog_keys 100%Z (tr_tlogs tx_tr) SIGN = [tx_key x02].
Proof. reflexivity. Qed.
Example ex_no_ct : ct_keyring (toy_env nil) 100%Z tx_tr VERIFY = Raise EMetadata.
Proof. reflexivity. Qed.

Print Assumptions C14_rekor_keyring.
Print Assumptions C14_ct_keyring.
Print Assumptions C14_no_log_key_is_an_error.
Print Assumptions C14_signing_keys_are_verification_keys.
Print Assumptions C14_fulcio_certificates.
Print Assumptions C14_timestamp_authorities.
Print Assumptions C14_fulcio_exceptions.
