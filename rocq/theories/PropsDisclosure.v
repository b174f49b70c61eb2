(** Property C89: what leaves the machine when something is signed. *)
From Verif Require Import Base Codec Messages Env Keyring Json Oidc Http LogEntry Cert Sct Dsse KeyDetails TrustedRoot Hashing
  Bundle Verifier SigningConfig RekorClient Clients Sign PropsDsse PropsKeyDetails SignProofs PropsSign ToyEnv ToyBundles ToySign.
From Verif Require Url.

(** ** Specification *)

(** what everybody except the certificate authority can see of an event: no token *)
Definition without_secret (e : event) : event :=
  match e with EvCsr u r => EvCsr u (mkFulcioRequest (fr_csr r) nil) | _ => e end.
Definition public (h : history) : history := map without_secret h.

(** The outside world does not learn the tokens by other ways: except for the certificate authority's answer to
    a request, what it does depends on what is public. *)
Definition depends_on_public (out : Outside) : Prop := forall h h', public h = public h' ->
  o_clock out h = o_clock out h' /\ o_pub out h = o_pub out h' /\ (forall k s d, o_sign out h k s d = o_sign out h' k s d) /\
  (forall r, o_fulcio out h r = o_fulcio out h' r) /\ (forall b, o_tsa_query out h b = o_tsa_query out h' b) /\
  (forall r, o_tsa out h r = o_tsa out h' r) /\ (forall r, o_log out h r = o_log out h' r).
(** the authority answers requests with either token alike *)
Definition same_answers (out : Outside) (t1 t2 : str) : Prop :=
  forall h url csr, o_fulcio out h (POST url (mkFulcioRequest csr t1)) = o_fulcio out h (POST url (mkFulcioRequest csr t2)).

(** Two worlds with the same configured services: the certificate authority, the timestamp authorities and the
    log of the signing context.  Other addresses may differ. *)
Definition same_services (libs : SignLibs) (ctx : ContextParts) (out1 out2 : Outside) : Prop := forall h,
  o_clock out1 h = o_clock out2 h /\ o_pub out1 h = o_pub out2 h /\ (forall k s d, o_sign out1 h k s d = o_sign out2 h k s d) /\
  (forall b, o_tsa_query out1 h b = o_tsa_query out2 h b) /\
  (forall u r, Url.urljoin (l_url libs) (cp_fulcio ctx) (s2l "/api/v2/signingCert") = Ok u -> o_fulcio out1 h (POST u r) = o_fulcio out2 h (POST u r)) /\
  (forall u b, In u (cp_tsas ctx) -> o_tsa out1 h (POST u b) = o_tsa out2 h (POST u b)) /\
  match cp_rekor ctx with
  | Rekor_v1 u => forall r, o_log out1 h (POST (u ++ s2l "/api/v1/log/entries") r) = o_log out2 h (POST (u ++ s2l "/api/v1/log/entries") r)
  | Rekor_v2 u => forall r, o_log out1 h (POST (u ++ s2l "/api/v2/log/entries") r) = o_log out2 h (POST (u ++ s2l "/api/v2/log/entries") r)
  end.

(** the same operation as far as digests show: equal statements, or artifacts with the same SHA-256 *)
Inductive same_digests (env : Env) : op -> op -> Prop :=
| Same_content : forall b1 b2, e_hash env SHA256 b1 = e_hash env SHA256 b2 -> same_digests env (Op_artifact (In_bytes b1)) (Op_artifact (In_bytes b2))
| Same_hashed : forall b d, e_hash env SHA256 b = d -> same_digests env (Op_artifact (In_bytes b)) (Op_artifact (In_hashed (mkHashed HA_SHA2_256 d)))
| Same_op : forall o, same_digests env o o.

(** ** Two runs side by side *)
Definition rres {A B} (Q : A -> B -> Prop) (x : res A) (y : res B) : Prop :=
  match x, y with Ok a, Ok b => Q a b | Raise e, Raise e' => e = e' | _, _ => False end.

Section Relation.
Variable libs : SignLibs.
Variable f : event -> event.
Variables out1 out2 : Outside.
Variables tok1 tok2 : IdentityToken.
Variable ctx : ContextParts.
Notation view := (map f).
Hypothesis F_csr : forall u csr, f (EvCsr u (mkFulcioRequest csr (it_raw tok1))) = f (EvCsr u (mkFulcioRequest csr (it_raw tok2))).
Hypothesis Valid : forall now, token_in_validity_period tok1 now = token_in_validity_period tok2 now.
Hypothesis Same : forall h1 h2, view h1 = view h2 ->
  o_clock out1 h1 = o_clock out2 h2 /\ o_pub out1 h1 = o_pub out2 h2 /\ (forall k s d, o_sign out1 h1 k s d = o_sign out2 h2 k s d) /\
  (forall b, o_tsa_query out1 h1 b = o_tsa_query out2 h2 b) /\
  (forall u csr, Url.urljoin (l_url libs) (cp_fulcio ctx) SIGNING_CERT_ENDPOINT = Ok u ->
     o_fulcio out1 h1 (POST u (mkFulcioRequest csr (it_raw tok1))) = o_fulcio out2 h2 (POST u (mkFulcioRequest csr (it_raw tok2)))) /\
  (forall u b, In u (cp_tsas ctx) -> o_tsa out1 h1 (POST u b) = o_tsa out2 h2 (POST u b)) /\
  (forall r, create_entry libs out1 h1 (cp_rekor ctx) r = create_entry libs out2 h2 (cp_rekor ctx) r).

Definition mrel {A B} (Q : A -> B -> Prop) (m1 : M A) (m2 : M B) : Prop := forall h1 h2, view h1 = view h2 ->
  view (fst (m1 h1)) = view (fst (m2 h2)) /\ rres Q (snd (m1 h1)) (snd (m2 h2)).
Lemma mrel_bind {A B C D} (Q : A -> B -> Prop) (R : C -> D -> Prop) m1 m2 (k1 : A -> M C) (k2 : B -> M D) :
  mrel Q m1 m2 -> (forall a b, Q a b -> mrel R (k1 a) (k2 b)) -> mrel R (mbind m1 k1) (mbind m2 k2).
Proof.
  intros H K h1 h2 E. unfold mbind. destruct (H h1 h2 E) as [E' R']. destruct (m1 h1) as [x [a|e]], (m2 h2) as [y [b|e']]; cbn in *; try contradiction.
  - apply K; assumption.
  - split; assumption.
Qed.
Lemma mrel_lift {A} (r : res A) : mrel eq (lift r) (lift r).
Proof. intros h1 h2 E. split; [exact E|]. cbn. destruct r; reflexivity. Qed.
Lemma mrel_ret {A B} (Q : A -> B -> Prop) a b : Q a b -> mrel Q (ret a) (ret b).
Proof. intros H h1 h2 E. split; [exact E|exact H]. Qed.
Lemma mrel_step {A} ev1 ev2 (f1 f2 : history -> res A) :
  (forall h1 h2, view h1 = view h2 -> f (ev1 h1) = f (ev2 h2) /\ f1 h1 = f2 h2) -> mrel eq (step ev1 f1) (step ev2 f2).
Proof.
  intros H h1 h2 E. destruct (H h1 h2 E) as [X Y]. unfold step. cbn [fst snd]. rewrite !map_app, E. cbn [map]. rewrite X, Y.
  split; [reflexivity|]. destruct (f2 h2); reflexivity.
Qed.
Lemma view_length h1 h2 : view h1 = view h2 -> length h1 = length h2.
Proof. intros E. rewrite <- (map_length f h1), E. apply map_length. Qed.

Definition srel (s1 s2 : Signer) : Prop :=
  sg_token s1 = tok1 /\ sg_token s2 = tok2 /\ sg_ctx s1 = ctx /\ sg_ctx s2 = ctx /\ sg_key s1 = sg_key s2 /\ sg_cert s1 = sg_cert s2.

Lemma r_clock : mrel eq (read_clock out1) (read_clock out2).
Proof. apply mrel_step. intros h1 h2 E. destruct (Same _ _ E) as (-> & _). split; reflexivity. Qed.
Lemma r_generate : mrel eq (generate_key out1) (generate_key out2).
Proof. apply mrel_step. intros h1 h2 E. rewrite (view_length _ _ E). destruct (Same _ _ E) as (_ & -> & _). split; reflexivity. Qed.
Lemma r_key s1 s2 : srel s1 s2 -> mrel eq (private_key out1 s1) (private_key out2 s2).
Proof. intros (_ & _ & _ & _ & K & _). unfold private_key. rewrite K. destruct (sg_key s2); [apply mrel_ret; reflexivity|apply r_generate]. Qed.
Lemma r_cert s1 s2 : srel s1 s2 -> mrel eq (signer_cert libs out1 s1) (signer_cert libs out2 s2).
Proof.
  intros Sr. pose proof Sr as (T1 & T2 & X1 & X2 & K & C). unfold signer_cert. rewrite C. destruct (sg_cert s2) as [c|].
  - eapply mrel_bind; [apply r_clock|]. intros now _ <-. destruct (_ <? _)%Z; [apply mrel_lift|apply mrel_ret; reflexivity].
  - eapply mrel_bind; [apply r_clock|]. intros now _ <-. rewrite T1, T2, Valid.
    eapply mrel_bind; [apply mrel_lift|]. intros ok _ <-. destruct (negb ok); [apply mrel_lift|].
    eapply mrel_bind; [unfold build_csr; eapply mrel_bind; [apply r_key, Sr|intros k _ <-; apply (mrel_ret eq); reflexivity]|]. intros csr _ <-.
    apply (mrel_bind eq eq); [|intros cc _ <-].
    { unfold request_cert. rewrite X1, X2, T1, T2. apply mrel_step. intros h1 h2 E. split; [apply F_csr|].
      unfold fulcio_post. destruct (Same _ _ E) as (_ & _ & _ & _ & H & _).
      destruct (Url.urljoin (l_url libs) (cp_fulcio ctx) SIGNING_CERT_ENDPOINT) as [u|e]; cbn [bind]; [rewrite (H u csr eq_refl)|]; reflexivity. }
    eapply mrel_bind; [apply r_clock|]. intros now2 _ <-. rewrite X1, X2. eapply mrel_bind; [apply mrel_lift|]. intros kr _ <-.
    eapply mrel_bind; [apply mrel_lift|]. intros _ _ _. apply mrel_ret; reflexivity.
Qed.
Lemma r_make cache : mrel srel (make_signer libs out1 tok1 ctx cache) (make_signer libs out2 tok2 ctx cache).
Proof.
  unfold make_signer. destruct cache; [|apply mrel_ret; repeat split].
  eapply mrel_bind; [apply r_generate|]. intros k _ <-. eapply mrel_bind; [apply r_cert; repeat split|]. intros c _ <-. apply mrel_ret; repeat split.
Qed.
Lemma r_tsas sg : forall urls, incl urls (cp_tsas ctx) -> forall acc, mrel eq (tsa_loop libs out1 urls sg acc) (tsa_loop libs out2 urls sg acc).
Proof.
  induction urls as [|u urls IH]; intros Inc acc; cbn [tsa_loop]; [apply mrel_ret; reflexivity|].
  intros h1 h2 E. unfold ask_tsa, step. assert (R : request_timestamp (l_env libs) (o_tsa_query out1 h1) (o_tsa out1 h1) u sg = request_timestamp (l_env libs) (o_tsa_query out2 h2) (o_tsa out2 h2) u sg).
  { unfold request_timestamp. destruct (Same _ _ E) as (_ & _ & _ & Q & _ & T & _). rewrite Q. destruct (try_except (o_tsa_query out2 h2 sg) _ _) as [q|]; [|reflexivity].
    cbn [bind]. rewrite T by (apply Inc; left; reflexivity). reflexivity. }
  rewrite R. assert (E' : view (h1 ++ [EvTsa u sg]) = view (h2 ++ [EvTsa u sg])) by (rewrite !map_app, E; reflexivity).
  assert (Inc' : incl urls (cp_tsas ctx)) by (intros x Hx; apply Inc; right; exact Hx).
  clear R. destruct (request_timestamp (l_env libs) (o_tsa_query out2 h2) (o_tsa out2 h2) u sg) as [t|e]; [exact (IH Inc' (acc ++ [t]) _ _ E')|].
  destruct (exn_eqb e ETimestamp); [exact (IH Inc' acc _ _ E')|]. split; [exact E'|reflexivity].
Qed.
Lemma r_finalize s1 s2 c x r : srel s1 s2 -> mrel eq (finalize_sign libs out1 s1 c x r) (finalize_sign libs out2 s2 c x r).
Proof.
  intros (T1 & T2 & X1 & X2 & _). unfold finalize_sign. rewrite X1, X2.
  eapply mrel_bind; [apply r_tsas; intros u Hu; exact Hu|]. intros ts _ <-.
  eapply mrel_bind; [apply mrel_step; intros h1 h2 E; split; [reflexivity|]; apply Same, E|]. intros e _ <-. apply mrel_lift.
Qed.
Lemma r_dsse_sign k st : mrel eq (step (fun _ => EvSign k (ECDSA SHA256)) (fun h => dsse_sign (o_sign out1 h k (ECDSA SHA256)) st))
  (step (fun _ => EvSign k (ECDSA SHA256)) (fun h => dsse_sign (o_sign out2 h k (ECDSA SHA256)) st)).
Proof.
  apply mrel_step. intros h1 h2 E. split; [reflexivity|]. destruct (Same _ _ E) as (_ & _ & H & _). unfold dsse_sign.
  destruct (statement_pae st); [|reflexivity]. cbn [bind]. rewrite H. reflexivity.
Qed.
Lemma r_artifact s1 s2 i1 i2 : srel s1 s2 -> sha256_digest (l_env libs) i1 = sha256_digest (l_env libs) i2 ->
  mrel eq (sign_artifact libs out1 s1 i1) (sign_artifact libs out2 s2 i2).
Proof.
  intros Sr D. pose proof Sr as (_ & _ & X1 & X2 & _). unfold sign_artifact. rewrite D. cbv zeta. set (hd := sha256_digest (l_env libs) i2). clearbody hd.
  eapply mrel_bind; [apply r_cert, Sr|]. intros cert _ <-. eapply mrel_bind; [apply r_key, Sr|]. intros k _ <-.
  eapply mrel_bind; [apply mrel_lift|]. intros _ _ _.
  apply (mrel_bind eq eq); [|intros sg _ <-].
  { unfold sign_prehashed. destruct (Nat.eqb _ 32); [|apply mrel_lift]. apply mrel_step. intros h1 h2 E. split; [reflexivity|].
    destruct (Same _ _ E) as (_ & _ & H & _). rewrite H. reflexivity. }
  eapply mrel_bind; [apply mrel_lift|]. intros d _ <-. eapply mrel_bind; [apply mrel_lift|]. intros sg' _ <-. rewrite X1, X2.
  eapply mrel_bind; [apply mrel_lift|]. intros r _ <-. apply r_finalize, Sr.
Qed.
Lemma r_op s1 s2 o1 o2 : srel s1 s2 -> same_digests (l_env libs) o1 o2 -> mrel eq (run_op libs out1 s1 o1) (run_op libs out2 s2 o2).
Proof.
  intros Sr D. destruct D as [b1 b2 H|b d H|[i|st]]; cbn [run_op].
  - apply r_artifact; [exact Sr|]. cbn. rewrite H. reflexivity.
  - apply r_artifact; [exact Sr|]. cbn. rewrite H. reflexivity.
  - apply r_artifact; [exact Sr|reflexivity].
  - unfold sign_dsse. pose proof Sr as (_ & _ & X1 & X2 & _). eapply mrel_bind; [apply r_cert, Sr|]. intros cert _ <-.
    eapply mrel_bind; [apply r_key, Sr|]. intros k _ <-. eapply mrel_bind; [apply r_dsse_sign|]. intros e _ <-. rewrite X1, X2.
    eapply mrel_bind; [apply mrel_lift|]. intros r _ <-. apply r_finalize, Sr.
Qed.
Lemma r_ops s1 s2 os1 os2 : srel s1 s2 -> Forall2 (same_digests (l_env libs)) os1 os2 -> forall h1 h2, view h1 = view h2 ->
  view (fst (run_ops libs out1 s1 os1 h1)) = view (fst (run_ops libs out2 s2 os2 h2)) /\ snd (run_ops libs out1 s1 os1 h1) = snd (run_ops libs out2 s2 os2 h2).
Proof.
  intros Sr D. induction D as [|o1 o2 os1 os2 D _ IH]; intros h1 h2 E; cbn [run_ops]; [split; [exact E|reflexivity]|].
  destruct (r_op s1 s2 o1 o2 Sr D h1 h2 E) as [E' R]. destruct (run_op libs out1 s1 o1 h1) as [g1 r1], (run_op libs out2 s2 o2 h2) as [g2 r2]. cbn [fst snd] in *.
  destruct (IH g1 g2 E') as [E2 R2]. destruct (run_ops libs out1 s1 os1 g1) as [k1 rs1], (run_ops libs out2 s2 os2 g2) as [k2 rs2]. cbn [fst snd] in *.
  split; [exact E2|]. rewrite R2. f_equal. destruct r1, r2; cbn in R; try contradiction; congruence.
Qed.
Lemma r_session cache os1 os2 : Forall2 (same_digests (l_env libs)) os1 os2 -> forall h1 h2, view h1 = view h2 ->
  view (fst (session libs out1 tok1 ctx cache os1 h1)) = view (fst (session libs out2 tok2 ctx cache os2 h2)) /\
  snd (session libs out1 tok1 ctx cache os1 h1) = snd (session libs out2 tok2 ctx cache os2 h2).
Proof.
  intros D h1 h2 E. unfold session. destruct (r_make cache h1 h2 E) as [E' R].
  destruct (make_signer libs out1 tok1 ctx cache h1) as [g1 [s1|e1]], (make_signer libs out2 tok2 ctx cache h2) as [g2 [s2|e2]]; cbn [fst snd] in *; try contradiction.
  - apply r_ops; assumption.
  - split; [exact E'|reflexivity].
Qed.
End Relation.

(** ** C89 *)

Lemma same_refl : forall env os, Forall2 (same_digests env) os os.
Proof. intros env os. induction os; constructor; [apply Same_op|assumption]. Qed.
Lemma f2_refl : forall A (R : A -> A -> Prop) l, (forall x, R x x) -> Forall2 R l l.
Proof. intros A R l H. induction l; constructor; auto. Qed.
Lemma create_eq : forall libs out1 out2 h1 h2 c r, (forall q, o_log out1 h1 q = o_log out2 h2 q) -> create_entry libs out1 h1 c r = create_entry libs out2 h2 c r.
Proof. intros libs out1 out2 h1 h2 c r H. unfold create_entry, create_entry_v1, create_entry_v2. destruct c; rewrite H; reflexivity. Qed.

(** Nothing of an artifact leaves the machine, and nothing of it is in the bundle, except its SHA-256 digest:
    signing different contents with the same digests is the same in every respect. *)
Theorem C89_only_digests : forall libs out token ctx cache os os' h,
  Forall2 (same_digests (l_env libs)) os os' ->
  session libs out token ctx cache os h = session libs out token ctx cache os' h.
Proof.
  intros libs out token ctx cache os os' h D.
  destruct (r_session libs (fun e => e) out out token token ctx (fun _ _ => eq_refl) (fun _ => eq_refl)
    ltac:(intros h1 h2 E; rewrite !map_id in E; subst h2; repeat split; intros; reflexivity) cache os os' D h h eq_refl) as [E R].
  rewrite !map_id in E. rewrite (surjective_pairing (session _ _ _ _ _ os h)), E, R, <- surjective_pairing. reflexivity.
Qed.

(** The token is sent to the certificate authority and to nobody else, and is not in the bundle: with another
    token that the authority answers alike, everything else that happens is the same. *)
Theorem C89_token : forall libs out t1 t2 ctx cache os h1 h2,
  depends_on_public out -> same_answers out (it_raw t1) (it_raw t2) -> it_nbf t1 = it_nbf t2 -> it_exp t1 = it_exp t2 ->
  public h1 = public h2 ->
  public (fst (session libs out t1 ctx cache os h1)) = public (fst (session libs out t2 ctx cache os h2)) /\
  snd (session libs out t1 ctx cache os h1) = snd (session libs out t2 ctx cache os h2).
Proof.
  intros libs out t1 t2 ctx cache os h1 h2 P A N X E.
  apply (r_session libs without_secret out out t1 t2 ctx); [reflexivity| | |apply same_refl|exact E].
  - intros now. unfold token_in_validity_period. rewrite N, X. reflexivity.
  - intros g1 g2 G. destruct (P g1 g2 G) as (Q1 & Q2 & Q3 & Q4 & Q5 & Q6 & Q7). split; [exact Q1|]. split; [exact Q2|]. split; [exact Q3|]. split; [exact Q5|].
    split; [intros u csr _; rewrite Q4; apply A|]. split; [intros; apply Q6|]. intros r. apply create_eq, Q7.
Qed.

(** Only the services of the signing context matter: no other address is asked. *)
Theorem C89_configured_services : forall libs out1 out2 token ctx cache os h,
  same_services libs ctx out1 out2 ->
  session libs out1 token ctx cache os h = session libs out2 token ctx cache os h.
Proof.
  intros libs out1 out2 token ctx cache os h Q.
  destruct (r_session libs (fun e => e) out1 out2 token token ctx (fun _ _ => eq_refl) (fun _ => eq_refl)) with (cache := cache) (os1 := os) (os2 := os) (h1 := h) (h2 := h) as [E R].
  - intros h1 h2 E. rewrite !map_id in E. subst h2. destruct (Q h1) as (Q1 & Q2 & Q3 & Q4 & Q5 & Q6 & Q7).
    split; [exact Q1|]. split; [exact Q2|]. split; [exact Q3|]. split; [exact Q4|]. split; [intros u csr; apply Q5|]. split; [exact Q6|].
    intros r. unfold create_entry. destruct (cp_rekor ctx) as [u|u] eqn:C.
    + unfold create_entry_v1. assert (U : v1_entries_url u = u ++ s2l "/api/v1/log/entries") by (unfold v1_entries_url, v1_log_url; rewrite <- !app_assoc; reflexivity).
      rewrite U, Q7. reflexivity.
    + unfold create_entry_v2. assert (U : u ++ s2l "/api/v2" ++ s2l "/log/entries" = u ++ s2l "/api/v2/log/entries") by reflexivity.
      rewrite U, Q7. reflexivity.
  - apply same_refl.
  - reflexivity.
  - rewrite !map_id in E. rewrite (surjective_pairing (session libs out1 _ _ _ _ h)), E, R, <- surjective_pairing. reflexivity.
Qed.

(** *** Attestations *)

(** what signing a statement covers (C20, C21) *)
Definition signed_bytes (st : Statement) : res bytes := pae (s2l "application/vnd.in-toto+json") (st_contents st).
(** ECDSA signs a digest *)
Definition signs_digests (env : Env) (out : Outside) : Prop := forall h k d1 d2,
  e_hash env SHA256 d1 = e_hash env SHA256 d2 -> o_sign out h k (ECDSA SHA256) d1 = o_sign out h k (ECDSA SHA256) d2.

Lemma sign_envelope : forall sign st, dsse_sign sign st =
  (let* p := signed_bytes st in make_envelope (mkEnvMsg (st_contents st) (s2l "application/vnd.in-toto+json") [sign p])).
Proof.
  intros sign st. unfold dsse_sign, statement_pae, signed_bytes. change ENVELOPE_TYPE with (s2l "application/vnd.in-toto+json").
  destruct (pae _ _) as [p|]; [|reflexivity]. cbn [bind]. rewrite !b64decode_b64encode. reflexivity.
Qed.

(** With a v2 log only digests of the statement leave the machine: signing another statement of which the digests
    are the same does the same (the bundles, which contain the statements, differ). *)
Theorem C89_statement_v2 : forall libs out s st1 st2 p1 p2 h u,
  cp_rekor (sg_ctx s) = Rekor_v2 u -> signs_digests (l_env libs) out ->
  signed_bytes st1 = Ok p1 -> signed_bytes st2 = Ok p2 -> (forall a, e_hash (l_env libs) a p1 = e_hash (l_env libs) a p2) ->
  fst (sign_dsse libs out s st1 h) = fst (sign_dsse libs out s st2 h).
Proof.
  intros libs out s st1 st2 p1 p2 h u V D P1 P2 Hp. unfold sign_dsse. unfold mbind at 1 5.
  destruct (signer_cert libs out s h) as [h1 [cert|e]]; [|reflexivity]. unfold mbind at 1 4.
  destruct (private_key out s h1) as [h2 [k|e]]; [|reflexivity]. unfold mbind at 1 3. unfold step at 1 2.
  rewrite !sign_envelope, P1, P2. cbn [bind]. rewrite (D h2 k p1 p2 (Hp SHA256)).
  unfold make_envelope. cbn [em_sigs length Nat.eqb negb raise_if bind index_list nth_error].
  destruct (o_sign out h2 k (ECDSA SHA256) p2) as [|x sg]; [reflexivity|]. cbn [raise_if bind].
  set (h3 := h2 ++ [EvSign k (ECDSA SHA256)]). unfold build_dsse_request. rewrite V. unfold build_dsse_request_v2.
  unfold mbind at 1 2. unfold lift at 1 2. destruct (get_key_details cert) as [d|e]; [|reflexivity]. cbn [bind].
  destruct (get_prehash d) as [[y a]|e]; [|reflexivity]. cbn [bind]. unfold envelope_pae. cbn [env_inner em_type em_payload env_signature].
  unfold signed_bytes in P1, P2. rewrite P1, P2. cbn [bind]. rewrite Hp. rewrite !b64decode_b64encode. cbn [bind].
  unfold finalize_sign. cbn [content_signature env_signature]. unfold mbind at 1 3.
  destruct (tsa_loop libs out (cp_tsas (sg_ctx s)) (x :: sg) nil h3) as [h4 [ts|e]]; [|reflexivity].
  unfold mbind, submit, step, lift. destruct (create_entry libs out h4 _ _); reflexivity.
Qed.
Lemma cert_grows : forall libs out s h h' r, signer_cert libs out s h = (h', r) -> exists l, h' = h ++ l.
Proof.
  intros libs out s h h' r H. destruct (sg_cert s) as [c|] eqn:E.
  - rewrite (signer_cert_cached libs out s c h E) in H. exists [EvClock (o_clock out h)]. congruence.
  - destruct (signer_cert_history libs out s h h' r E H) as (l & -> & _). eauto.
Qed.
(** A v1 log receives the statement itself: this is the last thing that happens. *)
Theorem C89_statement_v1 : forall libs out s st h h' b u,
  cp_rekor (sg_ctx s) = Rekor_v1 u -> sign_dsse libs out s st h = (h', Ok b) ->
  exists l e certs, h' = h ++ l ++ [EvLog (Req_d1 e certs)] /\ em_payload e = st_contents st.
Proof.
  intros libs out s st h h' b u V H. unfold sign_dsse in H.
  apply mbind_ok in H. destruct H as (h1 & cert & C & H). apply mbind_ok in H. destruct H as (h2 & k & K & H).
  apply mbind_ok in H. destruct H as (h3 & e & Se & H). apply mbind_ok in H. destruct H as (h4 & req & Rq & H).
  apply lift_ok in Rq. destruct Rq as [-> Rq]. unfold build_dsse_request in Rq. rewrite V in Rq. injection Rq as <-.
  unfold step in Se. injection Se as <- Se. rewrite sign_envelope in Se. apply bind_ok_inv in Se. destruct Se as (p & _ & Se).
  unfold make_envelope in Se. cbn [em_sigs length Nat.eqb negb raise_if bind index_list nth_error] in Se.
  destruct (o_sign out h2 k (ECDSA SHA256) p) as [|x sg]; [discriminate|]. cbn [raise_if bind] in Se. injection Se as <-.
  unfold finalize_sign in H. apply mbind_ok in H. destruct H as (h5 & ts & T & H). apply mbind_ok in H. destruct H as (h6 & entry & Su & H).
  apply lift_ok in H. destruct H as [<- _]. unfold submit, step in Su. injection Su as <- _.
  destruct (cert_grows _ _ _ _ _ _ C) as (l1 & ->). destruct (private_key_history _ _ _ _ _ K) as (l2 & -> & _).
  destruct (tsa_loop_history _ _ _ _ _ _ _ _ T) as (l3 & -> & _).
  exists (l1 ++ l2 ++ [EvSign k (ECDSA SHA256)] ++ l3). do 2 eexists. split; [rewrite <- !app_assoc; reflexivity|reflexivity].
Qed.

(** ** Examples *)

(** two artifacts with the same digest *)
Definition px_other : op := Op_artifact (In_bytes (s2b "helmN")).
Definition px_digest : op := Op_artifact (In_hashed (mkHashed HA_SHA2_256 sy_digest)).
Lemma ex_px_same : Forall2 (same_digests (sy_env sy_far)) [sy_hello; sy_hello; sy_dsse] [px_other; px_digest; sy_dsse].
Proof.
  constructor; [apply Same_content; vm_compute; reflexivity|]. constructor; [apply Same_hashed; reflexivity|]. constructor; [apply Same_op|constructor].
Qed.
Lemma ex_px_signed : exists h b1 b2 b3,
  session (sy_libs sy_far) (sy_out sy_far) sy_token sy_ctx1 true [sy_hello; sy_hello; sy_dsse] nil = (h, [Ok b1; Ok b2; Ok b3]).
Proof. do 4 eexists. vm_compute. reflexivity. Qed.
Example ex_px_other : session (sy_libs sy_far) (sy_out sy_far) sy_token sy_ctx1 true [px_other; px_digest; sy_dsse] nil =
  session (sy_libs sy_far) (sy_out sy_far) sy_token sy_ctx1 true [sy_hello; sy_hello; sy_dsse] nil.
Proof. symmetry. apply C89_only_digests, ex_px_same. Qed.
(** an artifact with another digest does show *)
Example ex_px_different : snd (session (sy_libs sy_far) (sy_out sy_far) sy_token sy_ctx1 true [Op_artifact (In_bytes (s2b "hell"))] nil) <>
  snd (session (sy_libs sy_far) (sy_out sy_far) sy_token sy_ctx1 true [sy_hello] nil).
Proof. vm_compute. discriminate. Qed.

(** another token, with the same lifetime *)
Definition px_token : IdentityToken :=
  mkToken (s2l "other") (JStr (s2l "https://issuer.example")) None (JInt 1700000030) (s2l "c@d.e") None.
Lemma sy_public : depends_on_public (sy_out sy_far).
Proof.
  intros h h' E. assert (L : length h = length h') by (rewrite <- (map_length without_secret h), <- (map_length without_secret h'); exact (f_equal _ E)).
  unfold sy_out. cbn [o_clock o_pub o_sign o_fulcio o_tsa_query o_tsa o_log]. unfold sy_pub. rewrite L.
  split; [reflexivity|]. split; [reflexivity|]. repeat (split; [intros; reflexivity|]). intros. reflexivity.
Qed.
Lemma sy_same_answers : forall t1 t2, same_answers (sy_out sy_far) t1 t2.
Proof. intros t1 t2 h url csr. destruct csr as [[[]]]; reflexivity. Qed.
Example ex_px_token :
  public (fst (session (sy_libs sy_far) (sy_out sy_far) sy_token sy_ctx2 true [sy_hello; sy_dsse] nil)) =
  public (fst (session (sy_libs sy_far) (sy_out sy_far) px_token sy_ctx2 true [sy_hello; sy_dsse] nil)) /\
  snd (session (sy_libs sy_far) (sy_out sy_far) sy_token sy_ctx2 true [sy_hello; sy_dsse] nil) =
  snd (session (sy_libs sy_far) (sy_out sy_far) px_token sy_ctx2 true [sy_hello; sy_dsse] nil).
Proof. apply C89_token; [apply sy_public|apply sy_same_answers|reflexivity|reflexivity|reflexivity]. Qed.
(** the authority does see it *)
Example ex_px_token_seen : fst (session (sy_libs sy_far) (sy_out sy_far) sy_token sy_ctx2 true [sy_hello] nil) <>
  fst (session (sy_libs sy_far) (sy_out sy_far) px_token sy_ctx2 true [sy_hello] nil).
Proof. vm_compute. discriminate. Qed.

(** a world in which all other servers answer something else *)
Definition px_deaf (known : list str) {A} (f : http_request A -> res response) (r : http_request A) : res response :=
  match r with POST u _ => if existsb (str_eqb u) known then f r else Ok (mkResp 500 nil None nil) | GET _ _ => Raise EConnection end.
Definition px_known : list str :=
  [s2l "https://ca.example/api/v2/signingCert"; s2l "https://down.example"; s2l "https://tsa.example"; s2l "https://rekor2.example/api/v2/log/entries"].
Definition px_out : Outside :=
  mkOutside (o_clock (sy_out sy_far)) (o_pub (sy_out sy_far)) (o_sign (sy_out sy_far)) (fun h => px_deaf px_known (o_fulcio (sy_out sy_far) h))
    (o_tsa_query (sy_out sy_far)) (fun h => px_deaf px_known (o_tsa (sy_out sy_far) h)) (fun h => px_deaf px_known (o_log (sy_out sy_far) h)).
Lemma px_same_services : same_services (sy_libs sy_far) sy_ctx2 (sy_out sy_far) px_out.
Proof.
  intros h. split; [reflexivity|]. split; [reflexivity|]. split; [reflexivity|]. split; [reflexivity|].
  split; [intros u r E; injection E as <-; reflexivity|]. split; [|intros r; reflexivity].
  intros u b [<-|[<-|[]]]; reflexivity.
Qed.
Example ex_px_services : session (sy_libs sy_far) px_out sy_token sy_ctx2 true [sy_hello; sy_dsse] nil =
  session (sy_libs sy_far) (sy_out sy_far) sy_token sy_ctx2 true [sy_hello; sy_dsse] nil.
Proof. symmetry. apply C89_configured_services, px_same_services. Qed.

(** two statements with the same digest *)
Definition px_statement : Statement := mkStatement (s2b "|\") (mkStatementInner nil nil None).
Definition px_signer (ctx : ContextParts) : Signer := mkSigner sy_token ctx (Some (mkPriv 0 sy_key)) (Some (sy_cert sy_far nil)).
Example ex_px_v2 : fst (sign_dsse (sy_libs sy_far) (sy_out sy_far) (px_signer sy_ctx2) sy_statement nil) =
  fst (sign_dsse (sy_libs sy_far) (sy_out sy_far) (px_signer sy_ctx2) px_statement nil).
Proof.
  eapply C89_statement_v2; [reflexivity| |reflexivity|reflexivity|intros a; vm_compute; reflexivity].
  intros h k d1 d2 E. cbn [l_env sy_libs sy_env e_hash vx_env toy_env] in E. cbn [o_sign sy_out]. unfold toy_sign, toy_digest. rewrite E. reflexivity.
Qed.
(** with a v1 log they can be told apart *)
Example ex_px_v1 : exists h b, sign_dsse (sy_libs sy_far) (sy_out sy_far) (px_signer sy_ctx1) sy_statement nil = (h, Ok b) /\
  fst (sign_dsse (sy_libs sy_far) (sy_out sy_far) (px_signer sy_ctx1) px_statement nil) <> h.
Proof. do 2 eexists. split; [vm_compute; reflexivity|]. vm_compute. discriminate. Qed.

Print Assumptions C89_only_digests.
Print Assumptions C89_token.
Print Assumptions C89_configured_services.
Print Assumptions C89_statement_v2.
Print Assumptions C89_statement_v1.
