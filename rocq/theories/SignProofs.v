(** Lemmas about [Sign.v]: what a run of a signing operation consists of. *)
From Verif Require Import Base Codec Messages Env Keyring Json Oidc Http LogEntry Cert Sct Dsse PropsDsse KeyDetails TrustedRoot Hashing
  Bundle PropsBundle Verifier SigningConfig RekorClient Clients Sign.

Lemma mbind_ok : forall A B (m : M A) (f : A -> M B) h h' b, mbind m f h = (h', Ok b) ->
  exists h1 a, m h = (h1, Ok a) /\ f a h1 = (h', Ok b).
Proof.
  intros A B m f h h' b H. unfold mbind in H. destruct (m h) as [h1 [a|e]]; [eauto|discriminate].
Qed.

Lemma mbind_inv : forall A B (m : M A) (f : A -> M B) h h' r, mbind m f h = (h', r) ->
  (exists e, m h = (h', Raise e) /\ r = Raise e) \/ (exists h1 a, m h = (h1, Ok a) /\ f a h1 = (h', r)).
Proof.
  intros A B m f h h' r H. unfold mbind in H. destruct (m h) as [h1 [a|e]]; [right; eauto|].
  left. exists e. inversion H; subst. auto.
Qed.

Lemma lift_ok : forall A (r : res A) h h' a, lift r h = (h', Ok a) -> h' = h /\ r = Ok a.
Proof. intros A r h h' a H. unfold lift in H. inversion H. auto. Qed.
Lemma ret_ok : forall A (x : A) h h' a, ret x h = (h', Ok a) -> h' = h /\ a = x.
Proof. intros A x h h' a H. unfold ret in H. inversion H. auto. Qed.

(** the timestamp requests of an operation and their outcomes *)
Section Asked.
Variable libs : SignLibs.
Variable out : Outside.
Inductive asked (sg : bytes) : list str -> history -> list (res TSR) -> history -> Prop :=
| asked_nil : forall h, asked sg nil h nil h
| asked_cons : forall u us h rs h', asked sg us (h ++ [EvTsa u sg]) rs h' ->
    asked sg (u :: us) h (request_timestamp (l_env libs) (o_tsa_query out h) (o_tsa out h) u sg :: rs) h'.
End Asked.

(** the timestamps among outcomes *)
Definition successes (rs : list (res TSR)) : list TSR :=
  flat_map (fun r => match r with Ok t => [t] | Raise _ => nil end) rs.

Section Sign.
Variable libs : SignLibs.
Variable out : Outside.

Lemma tsa_loop_ok : forall us sg acc h h' ts,
  tsa_loop libs out us sg acc h = (h', Ok ts) <->
  exists rs, asked libs out sg us h rs h' /\ (forall e, In (Raise e) rs -> e = ETimestamp) /\ ts = acc ++ successes rs.
Proof.
  induction us as [|u us IH]; intros sg acc h h' ts; cbn [tsa_loop].
  - unfold ret. split.
    + intros H. inversion H; subst. exists nil. split; [constructor|]. split; [intros ? []|]. cbn. rewrite app_nil_r. reflexivity.
    + intros (rs & A & _ & ->). inversion A; subst. cbn. rewrite app_nil_r. reflexivity.
  - unfold ask_tsa, step. destruct (request_timestamp _ _ _ u sg) as [t|e] eqn:R.
    + rewrite IH. split.
      * intros (rs & A & T & ->). exists (Ok t :: rs). split; [rewrite <- R; constructor; assumption|].
        split; [intros e [Q|I]; [discriminate|auto]|]. cbn. rewrite <- app_assoc. reflexivity.
      * intros (rs & A & T & ->). inversion A as [|u' us' h0 rs' h0' A']; subst. exists rs'. split; [assumption|].
        split; [intros e I; apply T; right; assumption|]. rewrite R. cbn. rewrite <- app_assoc. reflexivity.
    + destruct (exn_eqb e ETimestamp) eqn:E.
      * apply exn_eqb_spec in E. subst e. rewrite IH. split.
        -- intros (rs & A & T & ->). exists (Raise ETimestamp :: rs). split; [rewrite <- R; constructor; assumption|].
           split; [intros e [Q|I]; [congruence|auto]|]. reflexivity.
        -- intros (rs & A & T & ->). inversion A as [|u' us' h0 rs' h0' A']; subst. exists rs'. split; [assumption|].
           split; [intros e I; apply T; right; assumption|]. rewrite R. reflexivity.
      * split; [discriminate|]. intros (rs & A & T & _). inversion A as [|u' us' h0 rs' h0' A']; subst. exfalso.
        assert (e = ETimestamp) by (apply T; left; assumption). subst. discriminate.
Qed.

Lemma asked_total : forall us sg h, exists rs h', asked libs out sg us h rs h'.
Proof.
  induction us as [|u us IH]; intros sg h; [exists nil, h; constructor|].
  destruct (IH sg (h ++ [EvTsa u sg])) as (rs & h' & A). eexists; eexists; constructor; exact A.
Qed.

Lemma asked_history : forall us sg h rs h', asked libs out sg us h rs h' -> h' = h ++ map (fun u => EvTsa u sg) us.
Proof.
  induction us as [|u us IH]; intros sg h rs h' A; inversion A; subst; cbn [map]; [rewrite app_nil_r; reflexivity|].
  match goal with H : asked _ _ _ us _ _ _ |- _ => apply IH in H; rewrite H end. rewrite <- app_assoc. reflexivity.
Qed.

Lemma asked_length : forall us sg h rs h', asked libs out sg us h rs h' -> length rs = length us.
Proof.
  induction us as [|u us IH]; intros sg h rs h' A; inversion A; subst; [reflexivity|]. cbn. f_equal. eauto.
Qed.

Lemma successes_length : forall rs, length (successes rs) <= length rs.
Proof. induction rs as [|[t|e] rs IH]; [reflexivity| |]; cbn [successes flat_map app length]; fold (successes rs); lia. Qed.

Lemma successes_in : forall us sg h rs h' t, asked libs out sg us h rs h' -> In t (successes rs) ->
  exists hu u, In u us /\ request_timestamp (l_env libs) (o_tsa_query out hu) (o_tsa out hu) u sg = Ok t.
Proof.
  induction us as [|u us IH]; intros sg h rs h' t A I; inversion A as [|u' us' h0 rs' h0' A']; subst; [destruct I|].
  cbn in I. apply in_app_or in I. destruct I as [I|I].
  - destruct (request_timestamp (l_env libs) (o_tsa_query out h) (o_tsa out h) u sg) as [t'|] eqn:R; [|destruct I].
    destruct I as [<-|[]]. exists h, u. split; [left; reflexivity|assumption].
  - destruct (IH _ _ _ _ _ A' I) as (hu & u' & Iu & R). exists hu, u'. split; [right; assumption|assumption].
Qed.

Lemma finalize_inv : forall s cert c req h h' b,
  finalize_sign libs out s cert c req h = (h', Ok b) ->
  exists rs hl e,
    asked libs out (content_signature c) (cp_tsas (sg_ctx s)) h rs hl /\
    (forall x, In (Raise x) rs -> x = ETimestamp) /\
    h' = hl ++ [EvLog req] /\ create_entry libs out hl (cp_rekor (sg_ctx s)) req = Ok e /\
    from_parts_ (l_env libs) cert c e (Some (successes rs)) = Ok b.
Proof.
  intros s cert c req h h' b H. unfold finalize_sign in H.
  apply mbind_ok in H. destruct H as (h1 & ts & T & H). apply mbind_ok in H. destruct H as (h2 & e & E & H).
  apply lift_ok in H. destruct H as [-> F]. apply tsa_loop_ok in T. destruct T as (rs & A & Q & ->). cbn [app] in F.
  unfold submit, step in E. inversion E; subst. exists rs, h1, e. auto 10.
Qed.

Lemma finalize_eq : forall s cert c req h rs hl,
  asked libs out (content_signature c) (cp_tsas (sg_ctx s)) h rs hl -> (forall x, In (Raise x) rs -> x = ETimestamp) ->
  finalize_sign libs out s cert c req h =
  (hl ++ [EvLog req], let* e := create_entry libs out hl (cp_rekor (sg_ctx s)) req in
                      from_parts_ (l_env libs) cert c e (Some (successes rs))).
Proof.
  intros s cert c req h rs hl A T. unfold finalize_sign, mbind.
  assert (E : tsa_loop libs out (cp_tsas (sg_ctx s)) (content_signature c) nil h = (hl, Ok (successes rs))).
  { apply tsa_loop_ok. exists rs. auto. }
  rewrite E. unfold submit, step, lift. destruct (create_entry libs out hl (cp_rekor (sg_ctx s)) req); reflexivity.
Qed.

(** ** The two operations taken apart *)

Lemma sign_artifact_inv : forall s i h h' b,
  sign_artifact libs out s i h = (h', Ok b) ->
  exists cert h1 k h2 digest sg req rs hl e,
    signer_cert libs out s h = (h1, Ok cert) /\
    private_key out s h1 = (h2, Ok k) /\
    sha256_digest (l_env libs) i = mkHashed HA_SHA2_256 digest /\ length digest = 32 /\
    sg = o_sign out h2 k (ECDSA_prehashed SHA256) digest /\
    build_hashed_rekord_request (cp_rekor (sg_ctx s)) (mkHashed HA_SHA2_256 digest) sg cert = Ok req /\
    asked libs out sg (cp_tsas (sg_ctx s)) (h2 ++ [EvSign k (ECDSA_prehashed SHA256)]) rs hl /\
    (forall x, In (Raise x) rs -> x = ETimestamp) /\
    h' = hl ++ [EvLog req] /\ create_entry libs out hl (cp_rekor (sg_ctx s)) req = Ok e /\
    from_parts_ (l_env libs) cert (C_msg (mkMsgSig (Some (HA_SHA2_256, digest)) sg)) e (Some (successes rs)) = Ok b.
Proof.
  intros s i h h' b H. unfold sign_artifact in H.
  apply mbind_ok in H. destruct H as (h1 & cert & C & H). apply mbind_ok in H. destruct H as (h2 & k & K & H).
  apply mbind_ok in H. destruct H as (h3 & a & P & H). apply lift_ok in P. destruct P as [-> P].
  destruct (sha256_digest (l_env libs) i) as [alg digest] eqn:D. unfold as_prehashed in P. cbn [h_alg h_digest] in *.
  destruct alg; try discriminate.
  apply mbind_ok in H. destruct H as (h4 & sg & S & H). unfold sign_prehashed in S.
  destruct (Nat.eqb (length digest) 32) eqn:L; [|unfold lift in S; discriminate]. apply Nat.eqb_eq in L.
  unfold step in S. assert (h4 = h2 ++ [EvSign k (ECDSA_prehashed SHA256)]) by congruence.
  assert (sg = o_sign out h2 k (ECDSA_prehashed SHA256) digest) by congruence. clear S. subst h4.
  apply mbind_ok in H. destruct H as (h5 & d' & X & H). apply lift_ok in X. destruct X as [-> X]. rewrite b64decode_b64encode in X.
  assert (d' = digest) by congruence. subst d'. clear X.
  apply mbind_ok in H. destruct H as (h5 & s' & X & H). apply lift_ok in X. destruct X as [-> X]. rewrite b64decode_b64encode in X.
  assert (s' = sg) by congruence. subst s'. clear X.
  apply mbind_ok in H. destruct H as (h5 & req & X & H). apply lift_ok in X. destruct X as [-> X].
  apply finalize_inv in H. destruct H as (rs & hl & e & A & T & Hh & E & F). cbn [content_signature ms_signature] in A.
  exists cert, h1, k, h2, digest, sg, req, rs, hl, e. auto 15.
Qed.

Lemma sign_dsse_inv : forall s st h h' b,
  sign_dsse libs out s st h = (h', Ok b) ->
  exists cert h1 k h2 p sg req rs hl e,
    signer_cert libs out s h = (h1, Ok cert) /\
    private_key out s h1 = (h2, Ok k) /\
    pae ENVELOPE_TYPE (st_contents st) = Ok p /\
    sg = o_sign out h2 k (ECDSA SHA256) p /\ sg <> nil /\
    build_dsse_request libs (cp_rekor (sg_ctx s)) (mkEnvelope (mkEnvMsg (st_contents st) ENVELOPE_TYPE [sg]) sg) cert = Ok req /\
    asked libs out sg (cp_tsas (sg_ctx s)) (h2 ++ [EvSign k (ECDSA SHA256)]) rs hl /\
    (forall x, In (Raise x) rs -> x = ETimestamp) /\
    h' = hl ++ [EvLog req] /\ create_entry libs out hl (cp_rekor (sg_ctx s)) req = Ok e /\
    from_parts_ (l_env libs) cert (C_env (mkEnvelope (mkEnvMsg (st_contents st) ENVELOPE_TYPE [sg]) sg)) e (Some (successes rs)) = Ok b.
Proof.
  intros s st h h' b H. unfold sign_dsse in H.
  apply mbind_ok in H. destruct H as (h1 & cert & C & H). apply mbind_ok in H. destruct H as (h2 & k & K & H).
  apply mbind_ok in H. destruct H as (h3 & ev & S & H). unfold step in S.
  assert (h3 = h2 ++ [EvSign k (ECDSA SHA256)]) by congruence.
  assert (Ev : dsse_sign (o_sign out h2 k (ECDSA SHA256)) st = Ok ev) by congruence. clear S. subst h3.
  unfold dsse_sign, statement_pae in Ev. inv_bind Ev. rewrite !b64decode_b64encode in Ev. cbn [bind] in Ev.
  apply C22_envelope_has_exactly_one_signature in Ev. cbn [em_sigs] in Ev. destruct Ev as (E1 & E2 & E3).
  destruct ev as [m sg]. cbn [env_inner env_signature] in *. subst m. assert (sg = o_sign out h2 k (ECDSA SHA256) a) by congruence.
  assert (Esg : o_sign out h2 k (ECDSA SHA256) a = sg) by congruence. rewrite Esg in H.
  apply mbind_ok in H. destruct H as (h5 & req & X & H). apply lift_ok in X. destruct X as [-> X].
  apply finalize_inv in H. destruct H as (rs & hl & e & A & T & Hh & E & F). cbn [content_signature env_signature] in A.
  exists cert, h1, k, h2, a, sg, req, rs, hl, e. auto 15.
Qed.

(** ** The certificate and the key *)

Lemma private_key_ok : forall s h h' k, private_key out s h = (h', Ok k) ->
  match sg_key s with
  | Some k' => h' = h /\ k = k'
  | None => h' = h ++ [EvKey k] /\ k = mkPriv (length h) (o_pub out h)
  end.
Proof.
  intros s h h' k H. unfold private_key in H. destruct (sg_key s) as [k'|].
  - apply ret_ok in H. exact H.
  - unfold generate_key, step in H. inversion H; subst. auto.
Qed.

Lemma signer_cert_cached : forall s c h, sg_cert s = Some c ->
  signer_cert libs out s h =
  (h ++ [EvClock (o_clock out h)], if (c_not_after c <? o_clock out h)%Z then Raise EExpiredCertificate else Ok c).
Proof.
  intros s c h E. unfold signer_cert. rewrite E. unfold mbind, read_clock, step.
  destruct (c_not_after c <? o_clock out h)%Z; reflexivity.
Qed.

Lemma signer_cert_fresh : forall s h h' c, sg_cert s = None -> signer_cert libs out s h = (h', Ok c) ->
  exists k hk hr chain t kr,
    token_in_validity_period (sg_token s) (o_clock out h) = Ok true /\
    private_key out s (h ++ [EvClock (o_clock out h)]) = (hk, Ok k) /\
    hr = hk ++ [EvCsr (cp_fulcio (sg_ctx s)) (mkFulcioRequest (mkCsr (sk_pub k)) (it_raw (sg_token s)))] /\
    fulcio_post (l_url libs) (l_pem libs) (o_fulcio out hk) (cp_fulcio (sg_ctx s)) (mkCsr (sk_pub k)) (it_raw (sg_token s)) = Ok (c, chain) /\
    t = o_clock out hr /\ h' = hr ++ [EvClock t] /\
    ct_keyring (l_env libs) t (cp_root (sg_ctx s)) SIGN = Ok kr /\
    verify_sct (l_env libs) c chain kr = Ok tt.
Proof.
  intros s h h' c E H. unfold signer_cert in H. rewrite E in H.
  apply mbind_ok in H. destruct H as (h1 & now & X & H). unfold read_clock, step in X.
  assert (h1 = h ++ [EvClock (o_clock out h)]) by congruence. assert (now = o_clock out h) by congruence. clear X. subst h1 now.
  apply mbind_ok in H. destruct H as (h1 & ok & X & H). apply lift_ok in X. destruct X as [-> V].
  destruct ok; cbn [negb] in H; [|unfold lift in H; discriminate].
  apply mbind_ok in H. destruct H as (hk & csr & X & H). unfold build_csr in X. apply mbind_ok in X. destruct X as (hk' & k & K & X).
  apply ret_ok in X. destruct X as [-> ->].
  apply mbind_ok in H. destruct H as (hr & [c' chain] & X & H). unfold request_cert, step in X.
  assert (Hr : hr = hk' ++ [EvCsr (cp_fulcio (sg_ctx s)) (mkFulcioRequest (mkCsr (sk_pub k)) (it_raw (sg_token s)))]) by congruence.
  assert (Fp : fulcio_post (l_url libs) (l_pem libs) (o_fulcio out hk') (cp_fulcio (sg_ctx s)) (mkCsr (sk_pub k)) (it_raw (sg_token s)) = Ok (c', chain)) by congruence.
  clear X.
  apply mbind_ok in H. destruct H as (hc & t & X & H). unfold read_clock, step in X.
  assert (hc = hr ++ [EvClock (o_clock out hr)]) by congruence. assert (t = o_clock out hr) by congruence. clear X. subst hc t.
  apply mbind_ok in H. destruct H as (hc & kr & X & H). apply lift_ok in X. destruct X as [-> Kr].
  apply mbind_ok in H. destruct H as (hc & u & X & H). apply lift_ok in X. destruct X as [-> Vs]. destruct u.
  apply ret_ok in H. destruct H as [-> ->]. cbn [fst snd] in *.
  exists k, hk', hr, chain, (o_clock out hr), kr. auto 15.
Qed.

(** what a caching signer is made of *)
Lemma make_signer_cached : forall tok ctx h h' s,
  make_signer libs out tok ctx true h = (h', Ok s) ->
  exists c, sg_token s = tok /\ sg_ctx s = ctx /\ sg_key s = Some (mkPriv (length h) (o_pub out h)) /\ sg_cert s = Some c /\
    signer_cert libs out (mkSigner tok ctx (Some (mkPriv (length h) (o_pub out h))) None)
      (h ++ [EvKey (mkPriv (length h) (o_pub out h))]) = (h', Ok c).
Proof.
  intros tok ctx h h' s H. unfold make_signer in H.
  apply mbind_ok in H. destruct H as (h1 & k & K & H). unfold generate_key, step in K.
  assert (Q1 : h1 = h ++ [EvKey (mkPriv (length h) (o_pub out h))]) by congruence.
  assert (Q2 : k = mkPriv (length h) (o_pub out h)) by congruence. clear K. subst h1 k.
  apply mbind_ok in H. destruct H as (h2 & c & C & H). apply ret_ok in H. destruct H as [-> ->].
  exists c. cbn [sg_token sg_ctx sg_key sg_cert]. auto.
Qed.

Lemma make_signer_uncached : forall tok ctx h h' s,
  make_signer libs out tok ctx false h = (h', Ok s) -> h' = h /\ s = mkSigner tok ctx None None.
Proof. intros tok ctx h h' s H. unfold make_signer in H. apply ret_ok in H. exact H. Qed.

(** ** Histories *)

(** signing, timestamping and submitting *)
Definition uses_certificate (ev : event) : Prop :=
  match ev with EvSign _ _ | EvTsa _ _ | EvLog _ => True | _ => False end.
Definition is_key (ev : event) : Prop := match ev with EvKey _ => True | _ => False end.

Lemma tsa_loop_history : forall us sg acc h h' r, tsa_loop libs out us sg acc h = (h', r) ->
  exists l, h' = h ++ l /\ Forall uses_certificate l.
Proof.
  induction us as [|u us IH]; intros sg acc h h' r H; cbn [tsa_loop] in H.
  - inversion H; subst. exists nil. rewrite app_nil_r. split; [reflexivity|constructor].
  - unfold ask_tsa, step in H. destruct (request_timestamp _ _ _ u sg) as [t|e].
    + apply IH in H. destruct H as (l & -> & F). exists (EvTsa u sg :: l). rewrite <- app_assoc. split; [reflexivity|]. constructor; [exact I|assumption].
    + destruct (exn_eqb e ETimestamp).
      * apply IH in H. destruct H as (l & -> & F). exists (EvTsa u sg :: l). rewrite <- app_assoc. split; [reflexivity|]. constructor; [exact I|assumption].
      * inversion H; subst. exists [EvTsa u sg]. split; [reflexivity|]. constructor; [exact I|constructor].
Qed.

Lemma finalize_history : forall s cert c req h h' r, finalize_sign libs out s cert c req h = (h', r) ->
  exists l, h' = h ++ l /\ Forall uses_certificate l.
Proof.
  intros s cert c req h h' r H. unfold finalize_sign in H. apply mbind_inv in H. destruct H as [(e & T & _)|(h1 & ts & T & H)].
  - eapply tsa_loop_history; eassumption.
  - apply tsa_loop_history in T. destruct T as (l & -> & F). apply mbind_inv in H. destruct H as [(e & S & _)|(h2 & en & S & H)].
    + unfold submit, step in S. inversion S; subst. exists (l ++ [EvLog req]). rewrite <- app_assoc. split; [reflexivity|].
      apply Forall_app. split; [assumption|]. constructor; [exact I|constructor].
    + unfold submit, step in S. inversion S; subst. unfold lift in H. inversion H; subst. exists (l ++ [EvLog req]). rewrite <- app_assoc. split; [reflexivity|].
      apply Forall_app. split; [assumption|]. constructor; [exact I|constructor].
Qed.

Lemma private_key_history : forall s h h' r, private_key out s h = (h', r) ->
  exists l, h' = h ++ l /\ Forall is_key l /\ (sg_key s <> None -> l = nil) /\ exists k, r = Ok k.
Proof.
  intros s h h' r H. unfold private_key in H. destruct (sg_key s) as [k|].
  - unfold ret in H. inversion H; subst. exists nil. rewrite app_nil_r. split; [reflexivity|]. split; [constructor|]. split; [reflexivity|eauto].
  - unfold generate_key, step in H. inversion H; subst. eexists. split; [reflexivity|]. split; [constructor; [exact I|constructor]|].
    split; [congruence|eauto].
Qed.

(** an operation reads the certificate, then a key, then signs, timestamps and submits *)
Lemma run_op_history : forall s o h h' r, run_op libs out s o h = (h', r) ->
  (exists e, signer_cert libs out s h = (h', Raise e) /\ r = Raise e) \/
  exists cert h1 lk lu, signer_cert libs out s h = (h1, Ok cert) /\ h' = h1 ++ lk ++ lu /\
    Forall is_key lk /\ (sg_key s <> None -> lk = nil) /\ Forall uses_certificate lu.
Proof.
  intros s o h h' r H. destruct o as [i|st]; cbn [run_op] in H.
  - unfold sign_artifact in H. apply mbind_inv in H. destruct H as [(e & C & ->)|(h1 & cert & C & H)]; [left; eauto|]. right.
    apply mbind_inv in H. destruct H as [(e & K & ->)|(h2 & k & K & H)].
    { apply private_key_history in K. destruct K as (l & -> & _ & _ & k & Q). discriminate. }
    apply private_key_history in K. destruct K as (lk & -> & Fk & Nk & _).
    assert (G : exists lu, h' = (h1 ++ lk) ++ lu /\ Forall uses_certificate lu).
    { apply mbind_inv in H. destruct H as [(e & X & ->)|(h3 & a & X & H)].
      { unfold lift in X. inversion X; subst. exists nil. rewrite app_nil_r. split; [reflexivity|constructor]. }
      apply lift_ok in X. destruct X as [-> X].
      apply mbind_inv in H. destruct H as [(e & Y & ->)|(h4 & sg & Y & H)].
      { unfold sign_prehashed in Y. destruct (Nat.eqb _ 32); [unfold step in Y; discriminate|]. unfold lift in Y. inversion Y; subst.
        exists nil. rewrite app_nil_r. split; [reflexivity|constructor]. }
      assert (Hh4 : h4 = (h1 ++ lk) ++ [EvSign k (ECDSA_prehashed SHA256)]).
      { unfold sign_prehashed in Y. destruct (Nat.eqb _ 32); [unfold step in Y; congruence|unfold lift in Y; discriminate]. }
      subst h4. clear Y. rewrite !b64decode_b64encode in H.
      apply mbind_inv in H. destruct H as [(e & Y & ->)|(h4 & d & Y & H)]; [unfold lift in Y; discriminate|]. apply lift_ok in Y. destruct Y as [-> _].
      apply mbind_inv in H. destruct H as [(e & Y & ->)|(h4 & sg' & Y & H)]; [unfold lift in Y; discriminate|]. apply lift_ok in Y. destruct Y as [-> _].
      apply mbind_inv in H. destruct H as [(e & Y & ->)|(h4 & rq & Y & H)].
      { unfold lift in Y. inversion Y; subst. exists [EvSign k (ECDSA_prehashed SHA256)]. split; [reflexivity|]. constructor; [exact I|constructor]. }
      apply lift_ok in Y. destruct Y as [-> _]. apply finalize_history in H. destruct H as (l & -> & F).
      exists (EvSign k (ECDSA_prehashed SHA256) :: l). rewrite <- (app_assoc (h1 ++ lk)). split; [reflexivity|]. constructor; [exact I|assumption]. }
    destruct G as (lu & -> & Fu). exists cert, h1, lk, lu. rewrite <- app_assoc. auto.
  - unfold sign_dsse in H. apply mbind_inv in H. destruct H as [(e & C & ->)|(h1 & cert & C & H)]; [left; eauto|]. right.
    apply mbind_inv in H. destruct H as [(e & K & ->)|(h2 & k & K & H)].
    { apply private_key_history in K. destruct K as (l & -> & _ & _ & k & Q). discriminate. }
    apply private_key_history in K. destruct K as (lk & -> & Fk & Nk & _).
    assert (G : exists lu, h' = (h1 ++ lk) ++ lu /\ Forall uses_certificate lu).
    { apply mbind_inv in H. destruct H as [(e & Y & ->)|(h4 & ev & Y & H)].
      { unfold step in Y. inversion Y; subst. exists [EvSign k (ECDSA SHA256)]. split; [reflexivity|]. constructor; [exact I|constructor]. }
      unfold step in Y. assert (h4 = (h1 ++ lk) ++ [EvSign k (ECDSA SHA256)]) by congruence. subst h4. clear Y.
      apply mbind_inv in H. destruct H as [(e & Y & ->)|(h4 & rq & Y & H)].
      { unfold lift in Y. inversion Y; subst. exists [EvSign k (ECDSA SHA256)]. split; [reflexivity|]. constructor; [exact I|constructor]. }
      apply lift_ok in Y. destruct Y as [-> _]. apply finalize_history in H. destruct H as (l & -> & F).
      exists (EvSign k (ECDSA SHA256) :: l). rewrite <- (app_assoc (h1 ++ lk)). split; [reflexivity|]. constructor; [exact I|assumption]. }
    destruct G as (lu & -> & Fu). exists cert, h1, lk, lu. rewrite <- app_assoc. auto.
Qed.

(** a certificate request: clock, possibly a key, the request, possibly the clock again *)
Lemma signer_cert_history : forall s h h' r, sg_cert s = None -> signer_cert libs out s h = (h', r) ->
  exists l, h' = h ++ EvClock (o_clock out h) :: l /\
    ((l = nil /\ exists e, r = Raise e) \/
     exists lk req lc, l = lk ++ EvCsr (cp_fulcio (sg_ctx s)) req :: lc /\ Forall is_key lk /\
       fr_bearer req = it_raw (sg_token s) /\
       token_in_validity_period (sg_token s) (o_clock out h) = Ok true /\ (lc = nil \/ exists t, lc = [EvClock t])).
Proof.
  intros s h h' r E H. unfold signer_cert in H. rewrite E in H.
  apply mbind_inv in H. destruct H as [(e & X & ->)|(h1 & now & X & H)]; [unfold read_clock, step in X; discriminate|].
  unfold read_clock, step in X. assert (h1 = h ++ [EvClock (o_clock out h)]) by congruence. assert (now = o_clock out h) by congruence.
  clear X. subst h1 now.
  apply mbind_inv in H. destruct H as [(e & X & ->)|(h1 & ok & X & H)].
  { unfold lift in X. inversion X; subst. exists nil. split; [reflexivity|]. left. eauto. }
  apply lift_ok in X. destruct X as [-> V]. destruct ok; cbn [negb] in H.
  2:{ unfold lift in H. inversion H; subst. exists nil. split; [reflexivity|]. left. eauto. }
  apply mbind_inv in H. destruct H as [(e & X & ->)|(hk & csr & X & H)].
  { unfold build_csr in X. apply mbind_inv in X. destruct X as [(e' & X & _)|(h1 & k & X & Y)]; [|unfold ret in Y; discriminate].
    apply private_key_history in X. destruct X as (l & _ & _ & _ & k & Q). discriminate. }
  unfold build_csr in X. apply mbind_ok in X. destruct X as (hk' & k & K & X). apply ret_ok in X. destruct X as [-> ->].
  apply private_key_history in K. destruct K as (lk & -> & Fk & _ & _).
  set (req := mkFulcioRequest (mkCsr (sk_pub k)) (it_raw (sg_token s))).
  assert (Done : forall lc, (lc = nil \/ exists t, lc = [EvClock t]) ->
     h' = ((h ++ [EvClock (o_clock out h)]) ++ lk) ++ EvCsr (cp_fulcio (sg_ctx s)) req :: lc ->
     exists l, h' = h ++ EvClock (o_clock out h) :: l /\
    ((l = nil /\ exists e, r = Raise e) \/
     exists lk req lc, l = lk ++ EvCsr (cp_fulcio (sg_ctx s)) req :: lc /\ Forall is_key lk /\
       fr_bearer req = it_raw (sg_token s) /\
       token_in_validity_period (sg_token s) (o_clock out h) = Ok true /\ (lc = nil \/ exists t, lc = [EvClock t]))).
  { intros lc Hlc ->. exists (lk ++ EvCsr (cp_fulcio (sg_ctx s)) req :: lc). split; [rewrite <- !app_assoc; reflexivity|].
    right. exists lk, req, lc. repeat split; auto. }
  apply mbind_inv in H. destruct H as [(e & X & ->)|(h1 & cc & X & H)].
  { unfold request_cert, step in X. apply (Done nil); [auto|]. inversion X; reflexivity. }
  unfold request_cert, step in X.
  assert (h1 = ((h ++ [EvClock (o_clock out h)]) ++ lk) ++ [EvCsr (cp_fulcio (sg_ctx s)) req]) by (inversion X; reflexivity). clear X.
  apply mbind_inv in H. destruct H as [(e & X & ->)|(h2 & now & X & H)]; [unfold read_clock, step in X; discriminate|].
  unfold read_clock, step in X. assert (h2 = h1 ++ [EvClock (o_clock out h1)]) by congruence. clear X.
  assert (Q : h' = h2).
  { apply mbind_inv in H. destruct H as [(e & X & ->)|(h3 & kr & X & H)]; [unfold lift in X; congruence|].
    apply lift_ok in X. destruct X as [-> _].
    apply mbind_inv in H. destruct H as [(e & X & ->)|(h3 & u & X & H)]; [unfold lift in X; congruence|].
    apply lift_ok in X. destruct X as [-> _]. unfold ret in H. congruence. }
  subst h2 h'. apply (Done [EvClock (o_clock out h1)]); [eauto|]. subst h1. rewrite <- !app_assoc. reflexivity.
Qed.
End Sign.
