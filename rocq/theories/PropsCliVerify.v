(** Properties C56, C57, C58 and C62: the verify commands. *)
From Verif Require Import Base Codec Messages Env Keyring Cert Dsse KeyDetails Policy TrustedRoot SigningConfig Hashing Json Http
  LogEntry Bundle Verifier RekorClient Tuf PyText CliVerify Calm Outcomes VerifierSpec PropsDsse PropsPolicy PropsTuf
  ToyHash ToyEnv ToyBundles PropsRekorClient PropsSigningConfig.

(** ** Specification *)

(** what an argument of the command stands for: the file of that name if there is one, else the
    digest written after [sha256] and one more character *)
Definition denotes (w : World) (arg : str) (x : item) : Prop :=
  (exists b, content w (path_of arg) = Some b /\ x = It_path (path_of arg)) \/
  (content w (path_of arg) = None /\ exists sep text d, arg = s2l "sha256" ++ sep :: text /\
     fromhex text = Some d /\ length d = 32 /\ x = It_digest (mkHashed HA_SHA2_256 d)).

(** the SHA-256 digest of an input *)
Definition digest_of (env : Env) (w : World) (x : item) (d : bytes) : Prop :=
  match x with
  | It_path p => exists b, content w p = Some b /\ d = e_hash env SHA256 b
  | It_digest h => h = mkHashed HA_SHA2_256 d
  end.

Definition detached (a : VerifyArgs) : Prop := va_cert a <> None \/ va_sig a <> None.

(** which combinations of options and inputs make sense *)
Definition options_ok (w : World) (a : VerifyArgs) (items : list item) : Prop :=
  items <> nil /\
  (va_bundle a <> None \/ detached a -> length items = 1) /\
  (va_bundle a <> None -> ~ detached a) /\
  (forall h, In (It_digest h) items -> va_bundle a <> None \/ (va_cert a <> None /\ va_sig a <> None)) /\
  (va_offline a = true -> ~ detached a) /\
  (forall f, In (It_path f) items -> va_bundle a = None ->
     content w (sibling f (s2l ".sigstore.json")) = None \/ content w (sibling f (s2l ".sigstore")) = None).

(** where the bundle of an input is: the file given, or the one beside the input *)
Definition bundle_file (w : World) (a : VerifyArgs) (x : item) (p : path) : Prop :=
  match va_bundle a with
  | Some b => p = b
  | None => exists f, x = It_path f /\
      (p = sibling f (s2l ".sigstore.json") \/ (p = sibling f (s2l ".sigstore") /\ content w (sibling f (s2l ".sigstore.json")) = None))
  end.
Definition part_file (o : option path) (suffix : str) (x : item) (p : path) : Prop :=
  match o with Some q => p = q | None => exists f, x = It_path f /\ p = sibling f suffix end.

(** the bundle that an input with digest [d] is checked with *)
Definition evidence (env : Env) (w : World) (a : VerifyArgs) (v : Verifier) (x : item) (d : bytes) (b : Bundle) : Prop :=
  (~ detached a /\ exists p raw, bundle_file w a x p /\ content w p = Some raw /\
     bundle_from_json env (w_parse_bundle w) raw = Ok b) \/
  (detached a /\ exists cp sp pem cert raw text sig req e,
     part_file (va_cert a) (s2l ".crt") x cp /\ content w cp = Some pem /\ w_load_pem w pem = Ok cert /\
     part_file (va_sig a) (s2l ".sig") x sp /\ content w sp = Some raw /\ utf8_decode raw = Some text /\ b64decode text = Ok sig /\
     hashedrekord_from_parts cert sig (mkHashed HA_SHA2_256 d) = Ok req /\
     retrieve_post (w_rp w) (w_rekor w x) (vf_rekor_url v) (Req_h1 req) = Ok (Some e) /\
     from_parts env cert sig e = Ok b).

(** the bundle vouches for the digest: for an artifact, by the verifier; an envelope must in
    addition hold an in-toto statement with a subject of that digest *)
Definition vouched (env : Env) (ps : Parsers) (w : World) (now : time) (v : Verifier) (p : policy) (d : bytes) (b : Bundle) (st : option Statement) : Prop :=
  match bm_env (b_inner b) with
  | None => verify_artifact env ps now v (In_hashed (mkHashed HA_SHA2_256 d)) b p = Ok tt /\ st = None
  | Some _ => exists payload inner s,
      verify_dsse env ps now v b p = Ok (s2l "application/vnd.in-toto+json", payload) /\
      w_validate w payload = Some inner /\ st = Some (mkStatement payload inner) /\
      In s (st_subjects inner) /\ lists_sha256 s (hex d)
  end.

(** the verifier of the trust configuration that the options select *)
Definition config_selected (w : World) (a : VerifyArgs) (c : res ClientTrustConfig) : Prop :=
  match va_trust_config a with
  | Some p => exists raw text, content w p = Some raw /\ utf8_decode raw = Some text /\ c = w_config_json w text
  | None =>
    exists url, c = w_config_tuf w url (va_offline a) /\
      ((va_instance a = Some url /\ url <> nil) \/
       ((va_instance a = None \/ va_instance a = Some nil) /\
        url = if va_staging a then s2l "https://tuf-repo-cdn.sigstage.dev" else s2l "https://tuf-repo-cdn.sigstore.dev"))
  end.
Definition verifier_selected (env : Env) (w : World) (a : VerifyArgs) (v : Verifier) : Prop :=
  exists c, config_selected w a (Ok c) /\
    tr_media_type (ctc_root c) = s2l "application/vnd.dev.sigstore.trustedroot+json;version=0.1" /\
    make_verifier env (w_start w) (ctc_root c) = Ok v.

(** ** Helper lemmas *)

Lemma content_is_file : forall w p, is_file w p = true <-> exists b, content w p = Some b.
Proof. intros w p. unfold is_file, is_some. destruct (content w p); split; eauto; try discriminate. intros (? & [=]). Qed.
Lemma content_not_file : forall w p, is_file w p = false <-> content w p = None.
Proof. intros w p. unfold is_file, is_some. destruct (content w p); split; congruence. Qed.

Lemma is_some_true : forall A (o : option A), is_some o = true <-> o <> None.
Proof. intros A []; cbn; split; congruence. Qed.
Lemma is_some_false : forall A (o : option A), is_some o = false <-> o = None.
Proof. intros A []; cbn; split; congruence. Qed.

Lemma file_or_digest_iff : forall w arg x, file_or_digest w arg = Ok x <-> denotes w arg x.
Proof.
  intros w arg x. unfold file_or_digest, denotes. destruct (is_file w (path_of arg)) eqn:F.
  - apply content_is_file in F. destruct F as [b F]. split.
    + intros H. left. exists b. split; [assumption|congruence].
    + intros [(b' & _ & ->)|(Nn & _)]; [reflexivity|congruence].
  - apply content_not_file in F. split.
    + intros H. right. split; [assumption|]. destruct (str_eqb (firstn 6 arg) (s2l "sha256")) eqn:S; [|discriminate].
      apply str_eqb_spec in S. destruct (fromhex (skipn 7 arg)) as [d|] eqn:D; [|discriminate].
      destruct (Nat.eqb (length d) 32) eqn:L; cbn [negb raise_if bind] in H; [|discriminate].
      apply Nat.eqb_eq in L. destruct (skipn 6 arg) as [|sep text] eqn:K.
      * assert (K7 : skipn 7 arg = nil).
        { rewrite <- (firstn_skipn 6 arg), S, K, app_nil_r. reflexivity. }
        rewrite K7 in D. injection D as <-. discriminate L.
      * exists sep, text, d. assert (K7 : skipn 7 arg = text).
        { rewrite <- (firstn_skipn 6 arg), S, K. reflexivity. }
        rewrite K7 in D. split; [|split; [assumption|split; [assumption|congruence]]].
        rewrite <- (firstn_skipn 6 arg) at 1. rewrite S, K. reflexivity.
    + intros [(b' & Q & _)|(_ & sep & text & d & E & D & L & ->)]; [congruence|]. subst arg.
      change (firstn 6 (s2l "sha256" ++ sep :: text)) with (s2l "sha256"). rewrite str_eqb_refl.
      change (skipn 7 (s2l "sha256" ++ sep :: text)) with text. rewrite D, L. reflexivity.
Qed.

Lemma parse_inputs_iff : forall w args items, parse_inputs w args = Ok items <-> Forall2 (denotes w) args items.
Proof.
  intros w args items. unfold parse_inputs, try_except, invalid_arguments.
  assert (E : map_res (file_or_digest w) args = Ok items <-> Forall2 (denotes w) args items).
  { rewrite map_res_ok. split; intros H; induction H; constructor; auto; apply file_or_digest_iff; assumption. }
  rewrite <- E. destruct (map_res (file_or_digest w) args) as [l|e]; [reflexivity|].
  destruct (exn_eqb EValue e); split; congruence.
Qed.

Lemma item_eqb_spec : forall x y, item_eqb x y = true <-> x = y.
Proof.
  intros [p|[ha hd]] [q|[ka kd]]; cbn [item_eqb]; try (split; [discriminate|intros H; discriminate H]).
  - rewrite path_eqb_spec. split; congruence.
  - unfold hashed_eqb. cbn [h_alg h_digest]. rewrite andb_true_iff, hash_algorithm_eqb_spec, bytes_eqb_spec. split; [intros [-> ->]; reflexivity|].
    intros H. inversion H. auto.
Qed.

Lemma dict_set_keys : forall V k (v : V) l x, In x (map fst (dict_set item_eqb k v l)) <-> x = k \/ In x (map fst l).
Proof.
  intros V k v l x. induction l as [|[k' v'] l IH]; cbn [dict_set map fst].
  - cbn. firstorder congruence.
  - destruct (item_eqb k k') eqn:E.
    + apply item_eqb_spec in E. subst k'. cbn. firstorder congruence.
    + cbn [map fst]. cbn [In]. rewrite IH. firstorder congruence.
Qed.
Lemma dict_set_values : forall V k (v : V) l x y, In (x, y) (dict_set item_eqb k v l) -> (x = k /\ y = v) \/ In (x, y) l.
Proof.
  intros V k v l x y. induction l as [|[k' v'] l IH]; cbn [dict_set].
  - intros [Q|[]]. left. split; congruence.
  - destruct (item_eqb k k') eqn:E.
    + apply item_eqb_spec in E. subst k'. intros [Q|H]; [left; split; congruence|right; right; assumption].
    + intros [Q|H]; [right; left; assumption|]. destruct (IH H) as [?|?]; [left; assumption|right; right; assumption].
Qed.

(** the map of the inputs: which inputs, with which materials *)
Lemma build_map_iff : forall w a items m0 m,
  build_map w a items m0 = Ok m ->
  (forall p, In (It_path p) items -> exists mt, materials_for w a p = Ok mt) /\
  (forall x, In x (map fst m) <-> In x (map fst m0) \/ (In x items /\ is_digest x = false)) /\
  ((forall x mt, In (x, mt) m0 -> exists p, x = It_path p /\ materials_for w a p = Ok mt) ->
   forall x mt, In (x, mt) m -> exists p, x = It_path p /\ materials_for w a p = Ok mt).
Proof.
  intros w a items. induction items as [|x items IH]; intros m0 m H; cbn [build_map] in H.
  - inversion H; subst. split; [intros p []|]. split; [intros x; cbn; tauto|auto].
  - destruct x as [p|h].
    + inv_bind H. rename a0 into mt. destruct (IH _ _ H) as (P1 & P2 & P3). split; [|split].
      * intros q [Q|I]; [|auto]. inversion Q; subst. eauto.
      * intros x. rewrite P2, dict_set_keys. split.
        -- intros [[->|I]|[I D]]; [right; split; [left; reflexivity|reflexivity]|left; assumption|right; split; [right; assumption|assumption]].
        -- intros [I|[[<-|I] D]]; [left; right; assumption|left; left; reflexivity|right; split; assumption].
      * intros Q0. apply P3. intros x y I. apply dict_set_values in I. destruct I as [[-> ->]|I]; [eauto|apply Q0; assumption].
    + destruct (IH _ _ H) as (P1 & P2 & P3). split; [|split; [|assumption]].
      * intros q [Q|I]; [discriminate|auto].
      * intros x. rewrite P2. split.
        -- intros [I|[I D]]; [left; assumption|right; split; [right; assumption|assumption]].
        -- intros [I|[[<-|I] D]]; [left; assumption|discriminate D|right; split; assumption].
Qed.
Lemma build_map_total : forall w a items m0,
  (forall p, In (It_path p) items -> exists mt, materials_for w a p = Ok mt) -> exists m, build_map w a items m0 = Ok m.
Proof.
  intros w a items. induction items as [|x items IH]; intros m0 H; cbn [build_map]; [eauto|].
  destruct x as [p|h].
  - destruct (H p (or_introl eq_refl)) as [mt M]. rewrite M. cbn [bind]. apply IH. intros q I. apply H. right. assumption.
  - apply IH. intros q I. apply H. right. assumption.
Qed.

Definition det (a : VerifyArgs) : bool := is_some (va_cert a) || is_some (va_sig a).
Lemma det_true : forall a, det a = true <-> detached a.
Proof. intros a. unfold det, detached. rewrite orb_true_iff, !is_some_true. reflexivity. Qed.
Lemma det_false : forall a, det a = false <-> ~ detached a.
Proof. intros a. rewrite <- det_true. destruct (det a); split; congruence. Qed.

Definition exists_file (w : World) (p : path) : Prop := exists b, content w p = Some b.
Definition chosen (w : World) (a : VerifyArgs) (x : item) (m : materials) : Prop :=
  match m with
  | M_bundle p => ~ detached a /\ bundle_file w a x p /\ exists_file w p
  | M_parts cp sp => detached a /\ part_file (va_cert a) (s2l ".crt") x cp /\ part_file (va_sig a) (s2l ".sig") x sp /\
      exists_file w cp /\ exists_file w sp
  end.
Definition loads (env : Env) (w : World) (v : Verifier) (x : item) (d : bytes) (m : materials) (b : Bundle) : Prop :=
  match m with
  | M_bundle p => exists raw, content w p = Some raw /\ bundle_from_json env (w_parse_bundle w) raw = Ok b
  | M_parts cp sp => exists pem cert raw text sig req e,
     content w cp = Some pem /\ w_load_pem w pem = Ok cert /\
     content w sp = Some raw /\ utf8_decode raw = Some text /\ b64decode text = Ok sig /\
     hashedrekord_from_parts cert sig (mkHashed HA_SHA2_256 d) = Ok req /\
     retrieve_post (w_rp w) (w_rekor w x) (vf_rekor_url v) (Req_h1 req) = Ok (Some e) /\
     from_parts env cert sig e = Ok b
  end.

Lemma evidence_iff : forall env w a v x d b, evidence env w a v x d b <-> exists m, chosen w a x m /\ loads env w v x d m b.
Proof.
  intros env w a v x d b. unfold evidence. split.
  - intros [(Nd & p & raw & Bf & C & J)|(D & cp & sp & pem & cert & raw & text & sig & req & e & P1 & C1 & L1 & P2 & C2 & U & B & R & F & Q)].
    + exists (M_bundle p). split; [|exists raw; auto]. split; [assumption|]. split; [assumption|]. exists raw. assumption.
    + exists (M_parts cp sp). split; [|exists pem, cert, raw, text, sig, req, e; tauto]. split; [assumption|]. unfold exists_file. eauto 6.
  - intros (m & C & L). destruct m as [p|cp sp].
    + destruct C as (Nd & Bf & _), L as (raw & C & J). left. eauto 6.
    + destruct C as (D & P1 & P2 & _), L as (pem & cert & raw & text & sig & req & e & L). right. split; [assumption|].
      exists cp, sp, pem, cert, raw, text, sig, req, e. tauto.
Qed.

Lemma chosen_fun : forall w a x m m', chosen w a x m -> chosen w a x m' -> m = m'.
Proof.
  assert (PF : forall o s x p p', part_file o s x p -> part_file o s x p' -> p = p').
  { intros [q|] s x p p'; cbn [part_file]; [congruence|]. intros (f & -> & ->) (f' & E & ->). congruence. }
  intros w a x m m' H H'. destruct m as [p|cp sp], m' as [p'|cp' sp']; cbn [chosen] in *; try tauto.
  - destruct H as (_ & B & [c C]), H' as (_ & B' & [c' C']). f_equal. unfold bundle_file in *. destruct (va_bundle a); [congruence|].
    destruct B as (f & -> & B), B' as (f' & E & B'). inversion E; subst f'.
    destruct B as [->|[-> Nn]], B' as [->|[-> Nn']]; congruence.
  - destruct H as (_ & P1 & P2 & _), H' as (_ & P1' & P2' & _). f_equal; eapply PF; eassumption.
Qed.
Lemma loads_fun : forall env w v x d m b b', loads env w v x d m b -> loads env w v x d m b' -> b = b'.
Proof.
  intros env w v x d [p|cp sp] b b'; cbn [loads].
  - intros (raw & C & J) (raw' & C' & J'). congruence.
  - intros (pem & cert & raw & text & sig & req & e & A1 & A2 & A3 & A4 & A5 & A6 & A7 & A8)
           (pem' & cert' & raw' & text' & sig' & req' & e' & B1 & B2 & B3 & B4 & B5 & B6 & B7 & B8).
    assert (pem' = pem) by congruence. subst pem'. assert (cert' = cert) by congruence. subst cert'.
    assert (raw' = raw) by congruence. subst raw'. assert (text' = text) by congruence. subst text'.
    assert (sig' = sig) by congruence. subst sig'. assert (req' = req) by congruence. subst req'.
    assert (e' = e) by congruence. subst e'. congruence.
Qed.
Lemma digest_fun : forall env w x d d', digest_of env w x d -> digest_of env w x d' -> d = d'.
Proof.
  intros env w [p|h] d d'; cbn [digest_of]; [|congruence]. intros (b & C & ->) (b' & C' & ->). congruence.
Qed.

Definition no_conflict (w : World) (a : VerifyArgs) (f : path) : Prop :=
  va_bundle a = None ->
  content w (sibling f (s2l ".sigstore.json")) = None \/ content w (sibling f (s2l ".sigstore")) = None.

Lemma check_materials_iff : forall w m m', check_materials w m = Ok m' <->
  m' = m /\ match m with M_bundle p => exists_file w p | M_parts c s => exists_file w c /\ exists_file w s end.
Proof.
  intros w m m'. unfold check_materials, exists_file. destruct m as [p|c s].
  - rewrite <- content_is_file. destruct (is_file w p); cbn; split; try (intros [=]; subst; auto; fail); intros [-> [=]]; reflexivity.
  - rewrite <- !content_is_file. destruct (is_file w s), (is_file w c); cbn; split;
      try (intros [=]; subst; auto; fail); intros (-> & [=] & [=]); reflexivity.
Qed.

Lemma materials_iff : forall w a f m, (va_bundle a <> None -> ~ detached a) ->
  (materials_for w a f = Ok m <-> exists_file w f /\ no_conflict w a f /\ chosen w a (It_path f) m).
Proof.
  intros w a f m HB. unfold materials_for.
  assert (Dd : is_some (va_sig a) || is_some (va_cert a) = det a) by (unfold det; apply orb_comm). rewrite Dd. clear Dd.
  destruct (is_file w f) eqn:F; cbn [negb raise_if bind].
  2:{ split; [discriminate|]. intros ([b C] & _). apply content_not_file in F. congruence. }
  assert (F' : exists_file w f) by (apply content_is_file; assumption).
  pose (cert := given (va_cert a) (sibling f (s2l ".crt"))). pose (sig := given (va_sig a) (sibling f (s2l ".sig"))).
  assert (PC : part_file (va_cert a) (s2l ".crt") (It_path f) cert) by (unfold part_file, cert, given; destruct (va_cert a); eauto).
  assert (PS : part_file (va_sig a) (s2l ".sig") (It_path f) sig) by (unfold part_file, sig, given; destruct (va_sig a); eauto).
  assert (BK : (exists bn, (no_conflict w a f /\ (forall m', chosen w a (It_path f) m' -> forall p, m' = M_bundle p -> p = bn) /\
                 (exists_file w bn -> bundle_file w a (It_path f) bn) /\
               match va_bundle a with
               | Some b => Ok b
               | None => if negb (is_file w (sibling f (s2l ".sigstore.json"))) && is_file w (sibling f (s2l ".sigstore")) then Ok (sibling f (s2l ".sigstore"))
                         else if is_file w (sibling f (s2l ".sigstore.json")) && is_file w (sibling f (s2l ".sigstore")) then invalid_arguments
                         else Ok (sibling f (s2l ".sigstore.json"))
               end = Ok bn)) \/
               (~ no_conflict w a f /\ 
               match va_bundle a with
               | Some b => Ok b
               | None => if negb (is_file w (sibling f (s2l ".sigstore.json"))) && is_file w (sibling f (s2l ".sigstore")) then Ok (sibling f (s2l ".sigstore"))
                         else if is_file w (sibling f (s2l ".sigstore.json")) && is_file w (sibling f (s2l ".sigstore")) then invalid_arguments
                         else Ok (sibling f (s2l ".sigstore.json"))
               end = Raise (ESystemExit 2))).
  { unfold no_conflict, bundle_file. destruct (va_bundle a) as [b|] eqn:Vb.
    - left. exists b. split; [discriminate|]. split; [|split; [auto|reflexivity]].
      intros m' C p ->. destruct C as (_ & B & _). unfold bundle_file in B. rewrite Vb in B. assumption.
    - destruct (is_file w (sibling f (s2l ".sigstore.json"))) eqn:J, (is_file w (sibling f (s2l ".sigstore"))) eqn:Lg; cbn [negb andb].
      + right. apply content_is_file in J, Lg. destruct J as [x J], Lg as [y Lg]. split; [|reflexivity].
        intros K. destruct (K eq_refl) as [K'|K']; congruence.
      + left. exists (sibling f (s2l ".sigstore.json")). apply content_not_file in Lg. apply content_is_file in J. destruct J as [y J].
        split; [auto|]. split; [|split; [eauto|reflexivity]].
        intros m' C p ->. destruct C as (_ & B & _). unfold bundle_file in B. rewrite Vb in B.
        destruct B as (f' & E & [->|[-> Nn]]); inversion E; subst f'; [reflexivity|congruence].
      + left. exists (sibling f (s2l ".sigstore")). apply content_not_file in J.
        split; [auto|]. split; [|split; [eauto 6|reflexivity]].
        intros m' C p ->. destruct C as (_ & B & [c C]). unfold bundle_file in B. rewrite Vb in B.
        destruct B as (f' & E & [->|[-> Nn]]); inversion E; subst f'; [congruence|reflexivity].
      + left. exists (sibling f (s2l ".sigstore.json")). apply content_not_file in Lg.
        split; [auto|]. split; [|split; [eauto|reflexivity]].
        intros m' C p ->. destruct C as (_ & B & [c C]). unfold bundle_file in B. rewrite Vb in B.
        destruct B as (f' & E & [->|[-> Nn]]); inversion E; subst f'; [reflexivity|congruence]. }
  destruct BK as [(bn & NC & U & BF & ->)|[NC ->]]; cbn [bind].
  2:{ split; [discriminate|tauto]. }
  rewrite check_materials_iff. destruct (det a) eqn:D.
  - apply det_true in D. fold cert sig. split.
    + intros [-> [E1 E2]]. split; [assumption|]. split; [assumption|]. cbn [chosen]. tauto.
    + intros (_ & _ & C). destruct m as [p|cp sp]; cbn [chosen] in C; [tauto|].
      assert (C2 : chosen w a (It_path f) (M_parts cp sp)) by exact C.
      assert (E : M_parts cp sp = M_parts cert sig).
      { destruct C as (_ & P1 & P2 & _). f_equal.
        - unfold part_file in *. destruct (va_cert a); [congruence|]. destruct P1 as (f1 & E1 & ->), PC as (f2 & E2 & ->). congruence.
        - unfold part_file in *. destruct (va_sig a); [congruence|]. destruct P2 as (f1 & E1 & ->), PS as (f2 & E2 & ->). congruence. }
      split; [assumption|]. inversion E; subst cp sp. tauto.
  - apply det_false in D. split.
    + intros [-> E]. split; [assumption|]. split; [assumption|]. cbn [chosen]. auto.
    + intros (_ & _ & C). destruct m as [p|cp sp]; [|cbn [chosen] in C; tauto].
      assert (p = bn) by (eapply U; [exact C|reflexivity]). subst p. split; [reflexivity|]. destruct C as (_ & _ & C). assumption.
Qed.

Lemma digest_map_iff : forall w a h l, (va_bundle a <> None -> ~ detached a) -> (va_bundle a <> None \/ (va_cert a <> None /\ va_sig a <> None)) ->
  (digest_map w a [It_digest h] = Ok l <-> exists m, l = [(It_digest h, m)] /\ chosen w a (It_digest h) m).
Proof.
  intros w a h l HB HO. unfold digest_map. cbn [length Nat.eqb negb raise_if bind index_list nth_error].
  assert (Dd : is_some (va_sig a) || is_some (va_cert a) = det a) by (unfold det; apply orb_comm). rewrite Dd. clear Dd.
  destruct (det a) eqn:D.
  - apply det_true in D. assert (NB : va_bundle a = None) by (destruct (va_bundle a); [exfalso; apply HB; [discriminate|assumption]|reflexivity]).
    destruct HO as [HO|[HC HS]]; [congruence|]. destruct (va_cert a) as [c|] eqn:VC; [|congruence]. destruct (va_sig a) as [s|] eqn:VS; [|congruence].
    cbn [bind]. split.
    + intros H. inv_bind H. apply check_materials_iff in Ha. destruct Ha as [-> [E1 E2]]. exists (M_parts c s). split; [congruence|].
      cbn [chosen]. rewrite VC, VS. cbn. auto.
    + intros (m & -> & C). assert (m = M_parts c s).
      { destruct m; cbn [chosen] in C; [tauto|]. rewrite VC, VS in C. cbn [part_file] in C. destruct C as (_ & -> & -> & _). reflexivity. }
      subst m. cbn [chosen] in C. rewrite (proj2 (check_materials_iff w (M_parts c s) (M_parts c s))); [reflexivity|]. tauto.
  - apply det_false in D. destruct (va_bundle a) as [b|] eqn:VB.
    2:{ exfalso. destruct HO as [HO|[HC HS]]; [congruence|]. apply D. left. assumption. }
    cbn [bind]. split.
    + intros H. inv_bind H. apply check_materials_iff in Ha. destruct Ha as [-> E]. exists (M_bundle b). split; [congruence|].
      cbn [chosen]. unfold bundle_file. rewrite VB. auto.
    + intros (m & -> & C). assert (m = M_bundle b).
      { destruct m; cbn [chosen] in C; [|tauto]. unfold bundle_file in C. rewrite VB in C. destruct C as (_ & -> & _). reflexivity. }
      subst m. cbn [chosen] in C. rewrite (proj2 (check_materials_iff w (M_bundle b) (M_bundle b))); [reflexivity|]. tauto.
Qed.

Lemma load_iff : forall env w v x m h b, (forall k, x = It_digest k -> h_alg k = HA_SHA2_256) ->
  (load_materials env w v x m = Ok (h, b) <-> exists d, h = mkHashed HA_SHA2_256 d /\ digest_of env w x d /\ loads env w v x d m b).
Proof.
  intros env w v x m h b Hx. unfold load_materials.
  assert (HD : forall hh, match x with It_path p => let* b := file_bytes w p in Ok (sha256_digest env (In_bytes b)) | It_digest h => Ok h end = Ok hh <->
               exists d, hh = mkHashed HA_SHA2_256 d /\ digest_of env w x d).
  { intros hh. destruct x as [p|k]; cbn [digest_of].
    - unfold file_bytes. destruct (content w p) as [c|] eqn:C; cbn [bind sha256_digest].
      + split; [intros [=]; subst; eauto|]. intros (d & -> & b' & Eb & ->). congruence.
      + split; [discriminate|]. intros (d & _ & b' & Eb & _). congruence.
    - specialize (Hx k eq_refl). destruct k as [al dg]; cbn [h_alg] in Hx; subst al. split; [intros [=]; subst; eauto|].
      intros (d & -> & ->). reflexivity. }
  split.
  - intros H. apply bind_ok_inv in H. destruct H as (hh & Hh & H). apply HD in Hh. destruct Hh as (d & -> & Dg).
    exists d. destruct m as [p|cp sp]; cbn [loads].
    + inv_bind H. inv_bind H. unfold file_bytes in Ha. destruct (content w p) eqn:C; inversion Ha; subst.
      split; [congruence|]. split; [assumption|]. exists a. split; [reflexivity|]. congruence.
    + inv_bind H. inv_bind H. inv_bind H. inv_bind H. inv_bind H. inv_bind H. destruct a4 as [e|]; [|discriminate]. inv_bind H.
      unfold file_bytes in Ha. destruct (content w cp) eqn:C; inversion Ha; subst.
      unfold file_text in Ha1. inv_bind Ha1. unfold file_bytes in Ha6. destruct (content w sp) eqn:C2; inversion Ha6; subst.
      unfold py_decode in Ha1. destruct (utf8_decode a5) eqn:U; inversion Ha1; subst.
      split; [congruence|]. split; [assumption|]. inversion H; subst.
      do 7 eexists. split; [first [reflexivity|eassumption]|]. split; [eassumption|]. split; [first [reflexivity|eassumption]|]. split; [eassumption|].
      split; [eassumption|]. split; [eassumption|]. split; eassumption.
  - intros (d & -> & Dg & L). rewrite (proj2 (HD (mkHashed HA_SHA2_256 d))); [|eauto]. cbn [bind]. destruct m as [p|cp sp]; cbn [loads] in L.
    + destruct L as (raw & C & J). unfold file_bytes. rewrite C. cbn [bind]. rewrite J. reflexivity.
    + destruct L as (pem & cert & raw & text & sig & req & e & C1 & L1 & C2 & U & B & R & F & Q).
      unfold file_text, file_bytes, py_decode. rewrite C1. cbn [bind]. rewrite L1. cbn [bind]. rewrite C2. cbn [bind]. rewrite U. cbn [bind].
      rewrite B. cbn [bind]. rewrite R. cbn [bind]. rewrite F. cbn [bind]. rewrite Q. reflexivity.
Qed.

Lemma verify_common_iff : forall env ps w now v d b p st,
  verify_common env ps w now v (mkHashed HA_SHA2_256 d) b p = Ok st <-> vouched env ps w now v p d b st.
Proof.
  intros env ps w now v d b p st. unfold verify_common, vouched. fold ENVELOPE_TYPE. destruct (bm_env (b_inner b)) as [m|] eqn:B.
  - split.
    + intros H. apply bind_ok_inv in H. destruct H as (oe & Oe & H). unfold bundle_envelope in Oe. rewrite B in Oe.
      apply bind_ok_inv in Oe. destruct Oe as (e & _ & Oe). assert (oe = Some e) by congruence. subst oe.
      apply bind_ok_inv in H. destruct H as ([type_ payload] & D & H).
      apply bind_ok_inv in H. destruct H as (u1 & T & H). apply raise_if_ok in T. apply negb_false_iff, str_eqb_spec in T. subst type_.
      apply bind_ok_inv in H. destruct H as (st' & S & H). unfold statement_of_bytes in S. destruct (w_validate w payload) as [inner|] eqn:V; [|discriminate].
      apply bind_ok_inv in H. destruct H as (ok & M & H). apply bind_ok_inv in H. destruct H as (u2 & O & H). apply raise_if_ok in O. apply negb_false_iff in O. subst ok.
      assert (st' = mkStatement payload inner) by congruence. subst st'.
      apply C23_matches_iff in M. destruct M as (s & I & L). exists payload, inner, s. split; [assumption|]. split; [assumption|].
      split; [congruence|]. split; assumption.
    + intros (payload & inner & s & D & V & -> & I & L).
      assert (E : exists e, bundle_envelope b = Ok (Some e)).
      { unfold verify_dsse in D. inv_bind D. inv_bind D. destruct a0 as [e|]; [|discriminate]. eauto. }
      destruct E as [e E]. rewrite E. cbn [bind]. rewrite D. cbn [bind]. rewrite str_eqb_refl. cbn [negb raise_if bind].
      unfold statement_of_bytes. rewrite V. cbn [bind].
      rewrite (proj2 (C23_matches_iff (mkStatement payload inner) d)); [reflexivity|]. exists s. auto.
  - unfold bundle_envelope. rewrite B. cbn [bind]. destruct (verify_artifact env ps now v _ b p) as [[]|e]; cbn [bind].
    + split; [intros [=]; auto|]. intros [_ ->]. reflexivity.
    + split; [discriminate|]. intros [[=] _].
Qed.

Lemma make_trusted_root_same : forall m r, make_trusted_root m = Ok r -> r = m.
Proof. intros m r H. unfold make_trusted_root in H. destruct (str_eqb _ _); congruence. Qed.

Lemma make_trusted_root_media : forall m,
  make_trusted_root m = Ok m <-> tr_media_type m = s2l "application/vnd.dev.sigstore.trustedroot+json;version=0.1".
Proof.
  intros m. unfold make_trusted_root. fold TRUSTED_ROOT_0_1. split; intros H.
  - apply str_eqb_spec. destruct (str_eqb _ _); [reflexivity|discriminate H].
  - apply str_eqb_spec in H. rewrite H. reflexivity.
Qed.

Lemma config_iff : forall w a c,
  get_trust_config w (va_trust_config a) (va_instance a) (va_staging a) (va_offline a) = Ok c <-> config_selected w a (Ok c).
Proof.
  intros w a c. unfold get_trust_config, config_selected. destruct (va_trust_config a) as [p|].
  - unfold file_text, file_bytes, py_decode. split.
    + intros H. inv_bind H. inv_bind Ha. destruct (content w p) as [raw|] eqn:C; inversion Ha0; subst. destruct (utf8_decode a1) eqn:U; inversion Ha; subst.
      eauto 6.
    + intros (raw & text & C & U & E). rewrite C. cbn [bind]. rewrite U. cbn [bind]. auto.
  - fold STAGING PRODUCTION. destruct (va_instance a) as [[|k r]|] eqn:I.
    + split.
      * intros H. exists (if va_staging a then STAGING else PRODUCTION). split; [destruct (va_staging a); auto|]. right. auto.
      * intros (url & E & [[[=] Nn]|[_ ->]]); [congruence|]. destruct (va_staging a); auto.
    + split.
      * intros H. exists (k :: r). split; [auto|]. left. split; [reflexivity|discriminate].
      * intros (url & E & [[Q _]|[[[=]|[=]] _]]). inversion Q; subst. auto.
    + split.
      * intros H. exists (if va_staging a then STAGING else PRODUCTION). split; [destruct (va_staging a); auto|]. right. auto.
      * intros (url & E & [[[=] Nn]|[_ ->]]). destruct (va_staging a); auto.
Qed.

Lemma verifier_iff : forall env w a v,
  verifier_selected env w a v <->
  exists c r, get_trust_config w (va_trust_config a) (va_instance a) (va_staging a) (va_offline a) = Ok c /\
    make_trusted_root (ctc_root c) = Ok r /\ make_verifier env (w_start w) r = Ok v.
Proof.
  intros env w a v. unfold verifier_selected. split.
  - intros (c & S & R & V). exists c, (ctc_root c). rewrite config_iff. apply make_trusted_root_media in R. auto.
  - intros (c & r & S & R & V). apply config_iff in S. pose proof (make_trusted_root_same _ _ R). subst r. apply make_trusted_root_media in R. eauto.
Qed.

(** ** What is collected *)
Definition flags_ok (a : VerifyArgs) (items : list item) : bool :=
  negb ((det a || is_some (va_bundle a)) && Nat.ltb 1 (length items)) &&
  negb (is_some (va_bundle a) && det a) &&
  negb (existsb is_digest items && negb (is_some (va_bundle a)) && negb (is_some (va_cert a) && is_some (va_sig a))) &&
  negb (va_offline a && det a).

Definition input_map (w : World) (a : VerifyArgs) (items : list item) : res (list (item * materials)) :=
  let* m := build_map w a items nil in
  match m with nil => digest_map w a items | _ => Ok m end.

Lemma collect_unfold : forall env w a v all,
  collect_verification_state env w a = Ok (v, all) <->
  exists items m, Forall2 (denotes w) (va_inputs a) items /\ flags_ok a items = true /\ input_map w a items = Ok m /\
    verifier_selected env w a v /\
    map_res (fun xm => let* hb := load_materials env w v (fst xm) (snd xm) in Ok (fst xm, hb)) m = Ok all.
Proof.
  intros env w a v all. unfold collect_verification_state. fold (det a). split.
  - intros H. inv_bind H. rename a0 into items. inv_bind H. inv_bind H. inv_bind H. inv_bind H.
    apply raise_if_ok in Ha0, Ha1, Ha2, Ha3. inv_bind H. inv_bind H. inv_bind H. inv_bind H. inv_bind H. inv_bind H.
    exists items, a5. rewrite <- parse_inputs_iff. split; [assumption|]. split; [unfold flags_ok; rewrite Ha0, Ha1, Ha2, Ha3; reflexivity|].
    split; [unfold input_map; rewrite Ha4; cbn [bind]; assumption|]. inversion H; subst. split; [|assumption].
    apply verifier_iff. eauto 6.
  - intros (items & m & P & F & M & V & L). apply parse_inputs_iff in P. rewrite P. cbn [bind].
    unfold flags_ok in F. rewrite !andb_true_iff, !negb_true_iff in F. destruct F as [[[F1 F2] F3] F4]. rewrite F1, F2, F3, F4. cbn [raise_if bind].
    unfold input_map in M. inv_bind M. rewrite Ha. cbn [bind]. rewrite M. cbn [bind].
    apply verifier_iff in V. destruct V as (c & r & V1 & V2 & V3). rewrite V1. cbn [bind]. rewrite V2. cbn [bind]. rewrite V3. cbn [bind].
    rewrite L. reflexivity.
Qed.

Lemma denoted_in : forall w args items x, Forall2 (denotes w) args items -> In x items -> exists arg, In arg args /\ denotes w arg x.
Proof.
  intros w args items x H. induction H as [|arg y args items D H IH]; intros I; [destruct I|].
  destruct I as [->|I]; [exists arg; split; [left; reflexivity|assumption]|]. destruct (IH I) as (g & G & Dg). exists g. split; [right|]; assumption.
Qed.
Lemma denoted_path : forall w args items p, Forall2 (denotes w) args items -> In (It_path p) items -> exists_file w p.
Proof.
  intros w args items p H I. destruct (denoted_in _ _ _ _ H I) as (g & _ & [(b & C & E)|(_ & s & t & d & _ & _ & _ & E)]); [|discriminate].
  inversion E; subst. exists b. assumption.
Qed.
Lemma denoted_digest : forall w args items h, Forall2 (denotes w) args items -> In (It_digest h) items -> h_alg h = HA_SHA2_256.
Proof.
  intros w args items h H I. destruct (denoted_in _ _ _ _ H I) as (g & _ & [(b & C & E)|(_ & s & t & d & _ & _ & _ & E)]); [discriminate|].
  inversion E; subst. reflexivity.
Qed.

Lemma existsb_digest : forall items, existsb is_digest items = true <-> exists h, In (It_digest h) items.
Proof.
  intros items. rewrite existsb_exists. split.
  - intros ([p|h] & I & D); [discriminate D|eauto].
  - intros (h & I). exists (It_digest h). auto.
Qed.

(** the checks of the options, as far as they do not concern files *)
Lemma flags_iff : forall a items, items <> nil ->
  (flags_ok a items = true <->
   (va_bundle a <> None \/ detached a -> length items = 1) /\
   (va_bundle a <> None -> ~ detached a) /\
   (forall h, In (It_digest h) items -> va_bundle a <> None \/ (va_cert a <> None /\ va_sig a <> None)) /\
   (va_offline a = true -> ~ detached a)).
Proof.
  intros a items Ne. assert (L : 1 <= length items) by (destruct items; [congruence|cbn; lia]).
  unfold flags_ok. rewrite !andb_true_iff, !negb_true_iff, !andb_false_iff, !negb_false_iff, orb_false_iff, Nat.ltb_ge, andb_true_iff, !is_some_true, !is_some_false, !det_false.
  split.
  - intros [[[F1 F2] F3] F4]. split; [|split; [|split]].
    + destruct F1 as [[D B]|Ln]; [|intros _; lia]. intros [?|?]; [congruence|contradiction].
    + destruct F2 as [B|D]; [congruence|tauto].
    + intros h I. destruct F3 as [[D|B]|CS]; [|left; assumption|right; assumption].
      assert (X : existsb is_digest items = true) by (apply existsb_digest; eauto). congruence.
    + destruct F4 as [O|D]; [congruence|tauto].
  - intros (F1 & F2 & F3 & F4). split; [split; [split|]|].
    + destruct (det a) eqn:D; [right; apply det_true in D; rewrite F1; auto|]. apply det_false in D.
      destruct (va_bundle a) eqn:B; [right; rewrite F1; [auto|left; discriminate]|left; auto].
    + destruct (va_bundle a) eqn:B; [right; apply F2; discriminate|left; reflexivity].
    + destruct (existsb is_digest items) eqn:X; [|left; left; reflexivity]. apply existsb_digest in X. destruct X as [h X].
      destruct (F3 h X) as [B|CS]; [left; right; assumption|right; assumption].
    + destruct (va_offline a); [right; apply F4; reflexivity|left; reflexivity].
Qed.

Lemma only_digest : forall a items h, flags_ok a items = true -> In (It_digest h) items -> items = [It_digest h].
Proof.
  intros a items h F I. assert (Ne : items <> nil) by (intros ->; destruct I).
  apply (flags_iff a items Ne) in F. destruct F as (F1 & _ & F3 & _).
  assert (L : length items = 1).
  { apply F1. destruct (F3 h I) as [B|[C S]]; [left; assumption|right; left; assumption]. }
  destruct items as [|y [|z r]]; [destruct I| |discriminate L]. destruct I as [->|[]]. reflexivity.
Qed.

(** the map of the inputs, in full *)
Lemma input_map_iff : forall w a args items, Forall2 (denotes w) args items -> flags_ok a items = true ->
  (forall m, input_map w a items = Ok m ->
     items <> nil /\ (forall f, In (It_path f) items -> no_conflict w a f) /\
     (forall x, In x (map fst m) <-> In x items) /\ (forall x mt, In (x, mt) m -> chosen w a x mt)) /\
  (items <> nil -> (forall f, In (It_path f) items -> no_conflict w a f) -> (forall x, In x items -> exists mt, chosen w a x mt) ->
     exists m, input_map w a items = Ok m).
Proof.
  intros w a args items P F.
  assert (HB : items <> nil -> va_bundle a <> None -> ~ detached a).
  { intros Ne. apply (flags_iff a items Ne) in F. tauto. }
  destruct (existsb is_digest items) eqn:X.
  - apply existsb_digest in X. destruct X as [h X]. pose proof (only_digest _ _ _ F X) as E. subst items.
    assert (Ne : [It_digest h] <> nil) by discriminate.
    assert (HO : va_bundle a <> None \/ (va_cert a <> None /\ va_sig a <> None)).
    { apply (flags_iff a _ Ne) in F. destruct F as (_ & _ & F3 & _). apply (F3 h). left. reflexivity. }
    unfold input_map. cbn [build_map bind]. split.
    + intros m H. apply (digest_map_iff w a h m (HB Ne) HO) in H. destruct H as (mt & -> & C).
      split; [discriminate|]. split; [intros f [[=]|[]]|]. split; [cbn; tauto|]. intros x y [Q|[]]. inversion Q; subst. assumption.
    + intros _ _ C. destruct (C (It_digest h) (or_introl eq_refl)) as [mt M]. exists [(It_digest h, mt)].
      apply (digest_map_iff w a h _ (HB Ne) HO). eauto.
  - assert (AP : forall x, In x items -> is_digest x = false).
    { intros x I. destruct (is_digest x) eqn:D; [|reflexivity]. assert (existsb is_digest items = true) by (apply existsb_exists; eauto). congruence. }
    split.
    + intros m H. unfold input_map in H. apply bind_ok_inv in H. destruct H as (m1 & B & H).
      pose proof (build_map_iff _ _ _ _ _ B) as (P1 & P2 & P3).
      assert (Ne : items <> nil).
      { intros ->. cbn in B. inversion B; subst. cbn in H. discriminate. }
      assert (m1 <> nil).
      { intros ->. destruct items as [|x r]; [congruence|]. assert (I : In x (map (@fst item materials) nil)).
        { apply P2. right. split; [left; reflexivity|]. apply AP. left. reflexivity. } destruct I. }
      assert (m1 = m) by (destruct m1; [congruence|congruence]). subst m1. clear H.
      split; [assumption|]. split.
      * intros f I. destruct (P1 f I) as [mt M]. apply (materials_iff w a f mt (HB Ne)) in M. tauto.
      * split.
        -- intros x. rewrite P2. cbn. split; [intros [[]|[I _]]; assumption|]. intros I. right. split; [assumption|]. apply AP. assumption.
        -- intros x mt I. destruct (P3 ltac:(intros ? ? []) x mt I) as (p & -> & M). apply (materials_iff w a p mt (HB Ne)) in M. tauto.
    + intros Ne NC C. unfold input_map. destruct (build_map_total w a items nil) as [m M].
      { intros p I. destruct (C _ I) as [mt Cm]. exists mt. apply (materials_iff w a p mt (HB Ne)). split; [eapply denoted_path; eassumption|]. auto. }
      rewrite M. cbn [bind]. destruct m; [|eauto].
      exfalso. pose proof (build_map_iff _ _ _ _ _ M) as (_ & P2 & _). destruct items as [|x r]; [congruence|].
      assert (I : In x (map (@fst item materials) nil)). { apply P2. right. split; [left; reflexivity|]. apply AP. left. reflexivity. } destruct I.
Qed.

Lemma collect_sound : forall env w a v all,
  collect_verification_state env w a = Ok (v, all) ->
  exists items, Forall2 (denotes w) (va_inputs a) items /\ options_ok w a items /\ verifier_selected env w a v /\
    (forall x, In x (map fst all) <-> In x items) /\
    (forall x h b, In (x, (h, b)) all -> exists d, h = mkHashed HA_SHA2_256 d /\ digest_of env w x d /\ evidence env w a v x d b).
Proof.
  intros env w a v all H. apply collect_unfold in H. destruct H as (items & m & P & F & M & V & L).
  destruct (input_map_iff _ _ _ _ P F) as (I1 & _). destruct (I1 m M) as (Ne & NC & K & C).
  exists items. split; [assumption|]. split.
  { unfold options_ok. split; [assumption|]. apply (flags_iff a items Ne) in F. destruct F as (F1 & F2 & F3 & F4).
    split; [assumption|]. split; [assumption|]. split; [assumption|]. split; [assumption|]. exact NC. }
  split; [assumption|]. apply map_res_ok in L.
  assert (EQ : map fst all = map fst m).
  { clear -L. induction L as [|[x mt] [y hb] m all E L IH]; [reflexivity|]. cbn [map fst snd] in *. inv_bind E. inversion E; subst. f_equal. assumption. }
  rewrite EQ. split; [assumption|]. intros x h b I.
  assert (X : exists mt, In (x, mt) m /\ load_materials env w v x mt = Ok (h, b)).
  { clear -L I. induction L as [|[y mt] [z hb] m all E L IH]; [destruct I|]. cbn [fst snd] in E. inv_bind E. inversion E; subst.
    destruct I as [Q|I]; [inversion Q; subst; exists mt; split; [left; reflexivity|assumption]|].
    destruct (IH I) as (mt' & I' & E'). exists mt'. split; [right|]; assumption. }
  destruct X as (mt & Im & Ld). apply load_iff in Ld.
  - destruct Ld as (d & -> & Dg & Ld). exists d. split; [reflexivity|]. split; [assumption|]. apply evidence_iff. exists mt. split; [|assumption]. apply C. assumption.
  - intros k ->. eapply denoted_digest; [eassumption|]. apply K. apply in_map_iff. exists (It_digest k, mt). auto.
Qed.

Lemma collect_complete : forall env w a v items,
  Forall2 (denotes w) (va_inputs a) items -> options_ok w a items -> verifier_selected env w a v ->
  (forall x, In x items -> exists d b, digest_of env w x d /\ evidence env w a v x d b) ->
  exists all, collect_verification_state env w a = Ok (v, all) /\ (forall x, In x (map fst all) <-> In x items).
Proof.
  intros env w a v items P O V E. destruct O as (Ne & O1 & O2 & O3 & O4 & O5).
  assert (F : flags_ok a items = true) by (apply (flags_iff a items Ne); auto).
  destruct (input_map_iff _ _ _ _ P F) as (I1 & I2).
  destruct (I2 Ne) as [m M].
  { intros f I. unfold no_conflict. apply O5. assumption. }
  { intros x I. destruct (E x I) as (d & b & _ & Ev). apply evidence_iff in Ev. destruct Ev as (mt & C & _). eauto. }
  destruct (I1 m M) as (_ & _ & K & C).
  assert (L : exists all, map_res (fun xm => let* hb := load_materials env w v (fst xm) (snd xm) in Ok (fst xm, hb)) m = Ok all /\ map fst all = map fst m).
  { assert (K' : forall x mt, In (x, mt) m -> exists hb, load_materials env w v x mt = Ok hb).
    { intros x mt I. assert (Ix : In x items) by (apply K; apply in_map_iff; exists (x, mt); auto).
      destruct (E x Ix) as (d & b & Dg & Ev). apply evidence_iff in Ev. destruct Ev as (mt' & C' & Ld).
      pose proof (chosen_fun _ _ _ _ _ (C x mt I) C'). subst mt'. exists (mkHashed HA_SHA2_256 d, b). apply load_iff; [|eauto].
      intros k ->. eapply denoted_digest; eassumption. }
    clear -K'. induction m as [|[x mt] m IH]; cbn [map_res]; [exists nil; auto|].
    destruct (K' x mt (or_introl eq_refl)) as [hb H]. destruct IH as (all & A & EQ); [intros; apply K'; right; assumption|].
    exists ((x, hb) :: all). cbn [fst snd]. rewrite H. cbn [bind]. rewrite A. cbn [bind map fst]. rewrite EQ. auto. }
  destruct L as (all & L & EQ). exists all. split; [|rewrite EQ; assumption].
  apply collect_unfold. exists items, m. auto.
Qed.

(** ** The loop *)
Definition loop_line (show : Statement -> res line) (x : item) (st : option Statement) (ls : list line) : Prop :=
  match st with None => ls = [L_ok x] | Some s => exists l, show s = Ok l /\ ls = [L_ok x; l] end.

Lemma loop_ok : forall env ps w verbose show v p all out,
  verify_loop env ps w verbose show v p all = (out, Ok tt) ->
  forall x h b, In (x, (h, b)) all -> exists st, verify_common env ps w (w_when w x) v h b p = Ok st /\ exists ls, loop_line show x st ls.
Proof.
  intros env ps w verbose show v p all. induction all as [|[x [h b]] all IH]; intros out H y k c I; [destruct I|]. cbn [verify_loop] in H.
  destruct (verify_common env ps w (w_when w x) v h b p) as [[st|]|e] eqn:V.
  - destruct (show st) as [l|e] eqn:Sh.
    + destruct (verify_loop env ps w verbose show v p all) as [out' r] eqn:L. inversion H; subst.
      destruct I as [Q|I]; [inversion Q; subst; exists (Some st); split; [assumption|]; exists [L_ok y; l], l; auto|eauto].
    + destruct (is_sigstore_error e); [|discriminate]. unfold log_and_exit in H. destruct verbose; discriminate.
  - destruct (verify_loop env ps w verbose show v p all) as [out' r] eqn:L. inversion H; subst.
    destruct I as [Q|I]; [inversion Q; subst; exists None; split; [assumption|]; exists [L_ok y]; reflexivity|eauto].
  - destruct (is_sigstore_error e); [|discriminate]. unfold log_and_exit in H. destruct verbose; discriminate.
Qed.
Lemma loop_complete : forall env ps w verbose show v p all,
  (forall x h b, In (x, (h, b)) all -> exists st, verify_common env ps w (w_when w x) v h b p = Ok st /\ exists ls, loop_line show x st ls) ->
  snd (verify_loop env ps w verbose show v p all) = Ok tt.
Proof.
  intros env ps w verbose show v p all. induction all as [|[x [h b]] all IH]; intros H; [reflexivity|]. cbn [verify_loop].
  assert (R : snd (verify_loop env ps w verbose show v p all) = Ok tt) by (apply IH; intros y k c I; apply H; right; assumption).
  destruct (H x h b (or_introl eq_refl)) as ([st|] & V & ls & L); rewrite V.
  - destruct L as (l & L & _). rewrite L. destruct (verify_loop env ps w verbose show v p all) as [out r]. exact R.
  - destruct (verify_loop env ps w verbose show v p all) as [out r]. exact R.
Qed.

(** what is printed for inputs that are all in order *)
Inductive ok_lines (env : Env) (ps : Parsers) (w : World) (v : Verifier) (p : policy) (show : Statement -> res line) :
  list (item * (Hashed * Bundle)) -> list line -> Prop :=
| Ok_nil : ok_lines env ps w v p show nil nil
| Ok_cons : forall x h b rest st ls out,
    verify_common env ps w (w_when w x) v h b p = Ok st -> loop_line show x st ls -> ok_lines env ps w v p show rest out ->
    ok_lines env ps w v p show ((x, (h, b)) :: rest) (ls ++ out).

Lemma loop_prefix : forall env ps w verbose show v p pre out rest,
  ok_lines env ps w v p show pre out ->
  verify_loop env ps w verbose show v p (pre ++ rest) =
  (out ++ fst (verify_loop env ps w verbose show v p rest), snd (verify_loop env ps w verbose show v p rest)).
Proof.
  intros env ps w verbose show v p pre out rest H. induction H as [|x h b pre st ls out V L H IH].
  - cbn [app]. destruct (verify_loop env ps w verbose show v p rest); reflexivity.
  - cbn [app verify_loop]. rewrite V. destruct st as [st|].
    + destruct L as (l & L & ->). rewrite L, IH. reflexivity.
    + cbn [loop_line] in L. subst ls. rewrite IH. reflexivity.
Qed.

(** ** C56 *)

Definition printable (show : Statement -> res line) (st : option Statement) : Prop := forall s, st = Some s -> exists l, show s = Ok l.

Definition every_input_verified (env : Env) (ps : Parsers) (w : World) (a : VerifyArgs) (show : Statement -> res line) (p : policy) : Prop :=
  exists items v,
    Forall2 (denotes w) (va_inputs a) items /\ options_ok w a items /\ verifier_selected env w a v /\
    forall x, In x items -> exists d b st,
      digest_of env w x d /\ evidence env w a v x d b /\ vouched env ps w (w_when w x) v p d b st /\ printable show st.

Lemma run_verify_iff : forall env ps w a show p,
  snd (run_verify env ps w a show p) = Ok tt <-> every_input_verified env ps w a show p.
Proof.
  intros env ps w a show p. unfold run_verify, every_input_verified. split.
  - destruct (collect_verification_state env w a) as [[v all]|e] eqn:C; [|discriminate]. intros H.
    destruct (collect_sound _ _ _ _ _ C) as (items & P & O & V & K & E). exists items, v.
    split; [assumption|]. split; [assumption|]. split; [assumption|]. intros x I.
    apply K in I. apply in_map_iff in I. destruct I as ([y [h b]] & <- & I). cbn [fst].
    destruct (E _ _ _ I) as (d & -> & Dg & Ev).
    destruct (verify_loop env ps w (va_verbose a) show v p all) as [out r] eqn:L. cbn [snd] in H. subst r.
    destruct (loop_ok _ _ _ _ _ _ _ _ _ L _ _ _ I) as (st & V' & ls & Ls). exists d, b, st. split; [assumption|]. split; [assumption|].
    split; [apply verify_common_iff; assumption|]. intros s ->. destruct Ls as (l & Ls & _). eauto.
  - intros (items & v & P & O & V & E).
    destruct (collect_complete env w a v items P O V) as (all & C & K).
    { intros x I. destruct (E x I) as (d & b & st & Dg & Ev & _). eauto. }
    rewrite C. apply loop_complete. intros x h b I.
    destruct (collect_sound _ _ _ _ _ C) as (items' & _ & _ & _ & _ & E').
    destruct (E' _ _ _ I) as (d & -> & Dg & Ev).
    assert (Ix : In x items) by (apply K; apply in_map_iff; exists (x, (mkHashed HA_SHA2_256 d, b)); auto).
    destruct (E x Ix) as (d0 & b0 & st & Dg0 & Ev0 & Vo & Pr).
    pose proof (digest_fun _ _ _ _ _ Dg Dg0). subst d0.
    assert (b0 = b).
    { apply evidence_iff in Ev. apply evidence_iff in Ev0. destruct Ev as (m & Cm & L), Ev0 as (m0 & Cm0 & L0).
      pose proof (chosen_fun _ _ _ _ _ Cm Cm0). subst m0. eapply loads_fun; eassumption. }
    subst b0. exists st. split; [apply verify_common_iff; assumption|]. destruct st as [s|]; [|exists [L_ok x]; reflexivity].
    destruct (Pr s eq_refl) as [l Hl]. exists [L_ok x; l], l. auto.
Qed.

Lemma main_handler_ok : forall vb r, main_handler vb r = Ok tt <-> r = Ok tt.
Proof.
  intros vb r. unfold main_handler, try_except, log_and_exit. destruct r as [[]|e]; [reflexivity|].
  destruct (is_sigstore_error e); [destruct vb|]; split; discriminate.
Qed.

(** The command [verify identity] succeeds exactly when every argument stands for an input, the
    options fit, and every input is vouched for by the bundle found for it. *)
Theorem C56_verify_identity_iff : forall env ps w a identity issuer,
  snd (verify_identity env ps w a identity issuer) = Ok tt <->
  every_input_verified env ps w a show_decoded (P_identity identity (Some issuer)).
Proof.
  intros env ps w a identity issuer. rewrite <- run_verify_iff. unfold verify_identity.
  destruct (run_verify env ps w a show_decoded (P_identity identity (Some issuer))) as [out r]. cbn [snd]. apply main_handler_ok.
Qed.

Theorem C56_verify_github_iff : forall env ps w a g,
  snd (verify_github env ps w a g) = Ok tt <->
  ((exists s, gh_identity g = Some s /\ s <> nil) \/ (exists s, gh_repository g = Some s /\ s <> nil)) /\
  every_input_verified env ps w a show_repr (github_policy g).
Proof.
  intros env ps w a g. rewrite <- run_verify_iff. unfold verify_github.
  assert (T : forall o, is_some (truthy o) = true <-> exists s, o = Some s /\ s <> nil).
  { intros [[|c r]|]; cbn; split; try discriminate; try (intros (s & E & Q); congruence); intros _. exists (c :: r). split; congruence. }
  destruct (is_some (truthy (gh_identity g)) || is_some (truthy (gh_repository g))) eqn:B; cbn [negb].
  - apply orb_true_iff in B. rewrite !T in B. destruct (run_verify env ps w a show_repr (github_policy g)) as [out r]. cbn [snd]. rewrite main_handler_ok. tauto.
  - apply orb_false_iff in B. destruct B as [B1 B2]. split; [discriminate|]. rewrite <- !T. intros [[X|X] _]; congruence.
Qed.

(** One input that is not vouched for, at any position, and the command does not succeed. *)
Theorem C56_one_failure_is_enough : forall env ps w a identity issuer arg x,
  In arg (va_inputs a) -> denotes w arg x ->
  (forall v d b st, verifier_selected env w a v -> digest_of env w x d -> evidence env w a v x d b ->
     ~ vouched env ps w (w_when w x) v (P_identity identity (Some issuer)) d b st) ->
  snd (verify_identity env ps w a identity issuer) <> Ok tt.
Proof.
  intros env ps w a identity issuer arg x Ia Dx NV H. apply C56_verify_identity_iff in H.
  destruct H as (items & v & P & _ & V & E).
  assert (I : In x items).
  { clear -P Ia Dx. induction P as [|g y args items D P IH]; [destruct Ia|]. destruct Ia as [->|Ia]; [left|right; auto].
    apply file_or_digest_iff in D. apply file_or_digest_iff in Dx. congruence. }
  destruct (E x I) as (d & b & st & Dg & Ev & Vo & _). eapply NV; eassumption.
Qed.

(** If the inputs are in order up to one whose verification fails with a sigstore error, the
    command reports the earlier ones as OK and this one as failed, and exits with status 1. *)
Theorem C56_first_failure : forall env ps w a identity issuer v pre out x h b post e,
  collect_verification_state env w a = Ok (v, pre ++ (x, (h, b)) :: post) ->
  ok_lines env ps w v (P_identity identity (Some issuer)) show_decoded pre out ->
  verify_common env ps w (w_when w x) v h b (P_identity identity (Some issuer)) = Raise e -> is_sigstore_error e = true ->
  fst (verify_identity env ps w a identity issuer) = out ++ [L_fail x] /\
  exit_status (snd (verify_identity env ps w a identity issuer)) = 1.
Proof.
  intros env ps w a identity issuer v pre out x h b post e C O V S. unfold verify_identity, run_verify. rewrite C.
  rewrite (loop_prefix _ _ _ _ _ _ _ _ _ ((x, (h, b)) :: post) O). cbn [verify_loop]. rewrite V, S. cbn [fst snd].
  split; [reflexivity|]. unfold main_handler, try_except, log_and_exit, exit_status. destruct (va_verbose a).
  - rewrite S. destruct e; try reflexivity. discriminate S.
  - reflexivity.
Qed.

(** An OK line is printed for verified inputs only, whatever the outcome. *)
Theorem C56_ok_means_verified : forall env ps w a identity issuer x,
  In (L_ok x) (fst (verify_identity env ps w a identity issuer)) ->
  exists v d b st, verifier_selected env w a v /\ digest_of env w x d /\ evidence env w a v x d b /\
    vouched env ps w (w_when w x) v (P_identity identity (Some issuer)) d b st.
Proof.
  intros env ps w a identity issuer x. unfold verify_identity, run_verify.
  destruct (collect_verification_state env w a) as [[v all]|e] eqn:C; [|intros []].
  destruct (collect_sound _ _ _ _ _ C) as (items & _ & _ & V & _ & E).
  assert (G : forall l, In (L_ok x) (fst (verify_loop env ps w (va_verbose a) show_decoded v (P_identity identity (Some issuer)) l)) ->
              exists h b st, In (x, (h, b)) l /\ verify_common env ps w (w_when w x) v h b (P_identity identity (Some issuer)) = Ok st).
  { induction l as [|[y [h b]] l IH]; [intros []|]. cbn [verify_loop].
    destruct (verify_common env ps w (w_when w y) v h b _) as [[st|]|e] eqn:Vc.
    - destruct (show_decoded st) as [ln|e] eqn:Sd.
      + destruct (verify_loop env ps w (va_verbose a) show_decoded v _ l) as [out r]. cbn [fst] in *. intros [Q|[Q|I]].
        * inversion Q; subst. exists h, b, (Some st). split; [left; reflexivity|assumption].
        * unfold show_decoded in Sd. inv_bind Sd. congruence.
        * destruct (IH I) as (h' & b' & st' & I' & V'). exists h', b', st'. split; [right|]; assumption.
      + destruct (is_sigstore_error e); cbn [fst]; intros I.
        * destruct I as [Q|[Q|[]]]; [|discriminate]. inversion Q; subst. exists h, b, (Some st). split; [left; reflexivity|assumption].
        * destruct I as [Q|[]]. inversion Q; subst. exists h, b, (Some st). split; [left; reflexivity|assumption].
    - destruct (verify_loop env ps w (va_verbose a) show_decoded v _ l) as [out r]. cbn [fst] in *. intros [Q|I].
      * inversion Q; subst. exists h, b, None. split; [left; reflexivity|assumption].
      * destruct (IH I) as (h' & b' & st' & I' & V'). exists h', b', st'. split; [right|]; assumption.
    - destruct (is_sigstore_error e); cbn [fst]; [intros [Q|[]]; discriminate|intros []]. }
  intros H. destruct (G all) as (h & b & st & I & Vc).
  { destruct (verify_loop env ps w (va_verbose a) show_decoded v _ all) as [out r]. exact H. }
  destruct (E _ _ _ I) as (d & -> & Dg & Ev). exists v, d, b, st. apply verify_common_iff in Vc. auto.
Qed.

(** The status is 0 exactly for a command that succeeded, if the libraries do not end the process ([Calm.v]). *)
Theorem C56_exit_status : forall env ps w a identity issuer, calm_env env -> calm_parsers ps -> calm_world w ->
  (exit_status (snd (verify_identity env ps w a identity issuer)) = 0 <->
   every_input_verified env ps w a show_decoded (P_identity identity (Some issuer))).
Proof.
  intros env ps w a identity issuer CE CP CW. rewrite <- C56_verify_identity_iff.
  pose proof (l_verify_identity env ps w CE CP CW a identity issuer) as E.
  destruct (snd (verify_identity env ps w a identity issuer)) as [[]|e]; [split; reflexivity|]. split; [|discriminate].
  destruct e; try discriminate. cbn in *. intros ->. destruct E; discriminate.
Qed.
(** ... and of [verify github], whose arguments are also checked *)
Theorem C56_github_exit_status : forall env ps w a g, calm_env env -> calm_parsers ps -> calm_world w ->
  (exit_status (snd (verify_github env ps w a g)) = 0 <->
   ((exists s, gh_identity g = Some s /\ s <> nil) \/ (exists s, gh_repository g = Some s /\ s <> nil)) /\
   every_input_verified env ps w a show_repr (github_policy g)).
Proof.
  intros env ps w a g CE CP CW. rewrite <- C56_verify_github_iff.
  pose proof (l_verify_github env ps w CE CP CW a g) as E.
  destruct (snd (verify_github env ps w a g)) as [[]|e]; [split; reflexivity|]. split; [|discriminate].
  destruct e; try discriminate. cbn in *. intros ->. destruct E; discriminate.
Qed.

(** ** C57 *)

Lemma every_input : forall env ps w a show p arg x, every_input_verified env ps w a show p ->
  In arg (va_inputs a) -> denotes w arg x ->
  exists v d b st, verifier_selected env w a v /\ digest_of env w x d /\ evidence env w a v x d b /\ vouched env ps w (w_when w x) v p d b st.
Proof.
  intros env ps w a show p arg x (items & v & P & _ & V & E) Ia Dx.
  assert (I : In x items).
  { clear -P Ia Dx. induction P as [|g y args items D P IH]; [destruct Ia|]. destruct Ia as [->|Ia]; [left|right; auto].
    apply file_or_digest_iff in D. apply file_or_digest_iff in Dx. congruence. }
  destruct (E x I) as (d & b & st & Dg & Ev & Vo & _). exists v, d, b, st. auto.
Qed.

(** If the command succeeds and the bundle of an input holds an envelope, then the envelope is an
    in-toto statement signed by the certified key, and one of its subjects has the SHA-256 of
    the input. *)
Theorem C57_dsse_binds_the_input : forall env ps w a identity issuer arg x,
  snd (verify_identity env ps w a identity issuer) = Ok tt -> In arg (va_inputs a) -> denotes w arg x ->
  exists v d b, verifier_selected env w a v /\ digest_of env w x d /\ evidence env w a v x d b /\
  forall m, bm_env (b_inner b) = Some m ->
    em_type m = s2l "application/vnd.in-toto+json" /\
    (exists key sg pa, c_pubkey (b_cert b) = Ok key /\ em_sigs m = [sg] /\ pae (em_type m) (em_payload m) = Ok pa /\
       e_sig_verify env (ECDSA SHA256) key sg pa = Ok tt) /\
    exists inner s, w_validate w (em_payload m) = Some inner /\ In s (st_subjects inner) /\ lists_sha256 s (hex d).
Proof.
  intros env ps w a identity issuer arg x H Ia Dx. apply C56_verify_identity_iff in H.
  destruct (every_input _ _ _ _ _ _ _ _ H Ia Dx) as (v & d & b & st & V & Dg & Ev & Vo).
  exists v, d, b. split; [assumption|]. split; [assumption|]. split; [assumption|]. intros m B. unfold vouched in Vo. rewrite B in Vo.
  destruct Vo as (payload & inner & s & D & W & _ & I & L). apply dsse_accepted_iff in D.
  destruct D as (_ & m' & sg & key & pa & B' & T & Pl & Sg & _ & K & Pa & Sv & _).
  assert (m' = m) by congruence. subst m'. rewrite <- T, <- Pl in Pa. split; [assumption|]. split.
  - exists key, sg, pa. auto.
  - exists inner, s. rewrite Pl. auto.
Qed.

(** A verified envelope of another type, or without a subject of this digest, is refused with a
    VerificationError; one that is not a statement with a sigstore error. *)
Theorem C57_refused : forall env ps w now v d b p m type_ payload,
  bm_env (b_inner b) = Some m -> verify_dsse env ps now v b p = Ok (type_, payload) ->
  (type_ <> s2l "application/vnd.in-toto+json" ->
     verify_common env ps w now v (mkHashed HA_SHA2_256 d) b p = Raise EVerification) /\
  (type_ = s2l "application/vnd.in-toto+json" -> w_validate w payload = None ->
     verify_common env ps w now v (mkHashed HA_SHA2_256 d) b p = Raise EError) /\
  (forall inner, type_ = s2l "application/vnd.in-toto+json" -> w_validate w payload = Some inner ->
     (forall s, In s (st_subjects inner) -> ~ lists_sha256 s (hex d)) ->
     verify_common env ps w now v (mkHashed HA_SHA2_256 d) b p = Raise EVerification).
Proof.
  intros env ps w now v d b p m type_ payload B D.
  assert (E : exists e, bundle_envelope b = Ok (Some e)).
  { pose proof D as D'. unfold verify_dsse in D'. apply bind_ok_inv in D'. destruct D' as (u & _ & D'). apply bind_ok_inv in D'. destruct D' as (oe & Oe & D').
    destruct oe as [e|]; [eauto|discriminate]. }
  destruct E as [e E]. unfold verify_common. rewrite E. cbn [bind]. rewrite D. cbn [bind]. fold ENVELOPE_TYPE. split; [|split].
  - intros Ne. destruct (str_eqb type_ ENVELOPE_TYPE) eqn:Q; [apply str_eqb_spec in Q; contradiction|]. reflexivity.
  - intros -> W. rewrite str_eqb_refl. cbn [negb raise_if bind]. unfold statement_of_bytes. rewrite W. reflexivity.
  - intros inner -> W NS. rewrite str_eqb_refl. cbn [negb raise_if bind]. unfold statement_of_bytes. rewrite W. cbn [bind].
    destruct (C23_never_raises_for_sha256 (mkStatement payload inner) d) as [bo M]. rewrite M. cbn [bind]. destruct bo; [|reflexivity].
    exfalso. apply C23_matches_iff in M. destruct M as (s & I & L). exact (NS s I L).
Qed.

(** ** C58 *)

Lemma vouched_policy : forall env ps w now v p d b st, vouched env ps w now v p d b st -> policy_verify p (b_cert b) = Ok tt.
Proof.
  intros env ps w now v p d b st. unfold vouched. destruct (bm_env (b_inner b)).
  - intros (payload & inner & s & D & _). apply dsse_accepted_iff in D. destruct D as ((times & S) & _). unfold signer_accepted in S. tauto.
  - intros [A _]. apply artifact_accepted_iff in A. destruct A as ((times & S) & _). unfold signer_accepted in S. tauto.
Qed.

(** [verify identity]: every certificate names the identity, and the issuer if it is not empty. *)
Theorem C58_identity_and_issuer_checked : forall env ps w a identity issuer arg x,
  snd (verify_identity env ps w a identity issuer) = Ok tt -> In arg (va_inputs a) -> denotes w arg x ->
  exists v d b, verifier_selected env w a v /\ digest_of env w x d /\ evidence env w a v x d b /\
    (issuer <> nil -> exists u, utf8_encode issuer = Some u /\ has_ext (b_cert b) [1;3;6;1;4;1;57264;1;1]%N u) /\
    exists xs sans n, c_exts (b_cert b) = Ok xs /\ x_san xs = Some sans /\ In n sans /\ names_identity n identity.
Proof.
  intros env ps w a identity issuer arg x H Ia Dx. apply C56_verify_identity_iff in H.
  destruct (every_input _ _ _ _ _ _ _ _ H Ia Dx) as (v & d & b & st & V & Dg & Ev & Vo).
  exists v, d, b. split; [assumption|]. split; [assumption|]. split; [assumption|]. apply vouched_policy in Vo. cbn [policy_verify] in Vo.
  apply C31_identity_accepts_iff in Vo. destruct Vo as (Is & xs & sans & n & E & S & _ & I & Nm). split; [|eauto 8].
  intros Ne. apply (Is issuer eq_refl Ne).
Qed.

(** the conditions that [verify github] puts on a certificate *)
Definition opt_ext (c : Cert) (o : option str) (n : N) : Prop :=
  forall s, o = Some s -> s <> nil -> exists u, utf8_encode s = Some u /\ has_ext c [1;3;6;1;4;1;57264;1;n]%N u.
Definition github_conditions (g : GithubArgs) (c : Cert) : Prop :=
  has_ext c [1;3;6;1;4;1;57264;1;1]%N (s2b "https://token.actions.githubusercontent.com") /\
  (forall s, gh_identity g = Some s -> s <> nil ->
     exists xs sans n, c_exts c = Ok xs /\ x_san xs = Some sans /\ other_names_text sans /\ In n sans /\ names_identity n s) /\
  opt_ext c (gh_trigger g) 2 /\ opt_ext c (gh_sha g) 3 /\ opt_ext c (gh_name g) 4 /\ opt_ext c (gh_repository g) 5 /\ opt_ext c (gh_ref g) 6.

Lemma opt_policy_iff : forall o f c, (forall p, In p (opt_policy o f) -> policy_verify p c = Ok tt) <->
  (forall s, o = Some s -> s <> nil -> policy_verify (f s) c = Ok tt).
Proof.
  intros o f c. unfold opt_policy, truthy. destruct o as [[|k r]|]; cbn [In].
  - split; [intros _ s [=] Ne; congruence|intros _ p []].
  - split; [intros H s [=] _; subst; apply H; left; reflexivity|]. intros H p [<-|[]]. apply H; [reflexivity|discriminate].
  - split; [intros _ s [=]|intros _ p []].
Qed.

Theorem C58_github_policy_iff : forall g c, policy_verify (github_policy g) c = Ok tt <-> github_conditions g c.
Proof.
  intros g c. unfold github_policy. rewrite C32_all_of.
  assert (E : (forall p, In p (P_ext OIDCIssuer GITHUB_ISSUER ::
         opt_policy (gh_identity g) (fun s => P_identity s None) ++ opt_policy (gh_trigger g) (P_ext GitHubWorkflowTrigger) ++
         opt_policy (gh_sha g) (P_ext GitHubWorkflowSHA) ++ opt_policy (gh_name g) (P_ext GitHubWorkflowName) ++
         opt_policy (gh_repository g) (P_ext GitHubWorkflowRepository) ++ opt_policy (gh_ref g) (P_ext GitHubWorkflowRef)) -> policy_verify p c = Ok tt) <->
     policy_verify (P_ext OIDCIssuer GITHUB_ISSUER) c = Ok tt /\
     (forall p, In p (opt_policy (gh_identity g) (fun s => P_identity s None)) -> policy_verify p c = Ok tt) /\
     (forall p, In p (opt_policy (gh_trigger g) (P_ext GitHubWorkflowTrigger)) -> policy_verify p c = Ok tt) /\
     (forall p, In p (opt_policy (gh_sha g) (P_ext GitHubWorkflowSHA)) -> policy_verify p c = Ok tt) /\
     (forall p, In p (opt_policy (gh_name g) (P_ext GitHubWorkflowName)) -> policy_verify p c = Ok tt) /\
     (forall p, In p (opt_policy (gh_repository g) (P_ext GitHubWorkflowRepository)) -> policy_verify p c = Ok tt) /\
     (forall p, In p (opt_policy (gh_ref g) (P_ext GitHubWorkflowRef)) -> policy_verify p c = Ok tt)).
  { split.
    - intros H. split; [apply H; left; reflexivity|]. repeat split; intros p I; apply H; right; rewrite !in_app_iff; tauto.
    - intros (H0 & H1 & H2 & H3 & H4 & H5 & H6) p [<-|I]; [assumption|]. rewrite !in_app_iff in I.
      destruct I as [I|[I|[I|[I|[I|I]]]]]; auto. }
  rewrite E, !opt_policy_iff. cbn [policy_verify]. unfold github_conditions, opt_ext.
  assert (O : forall (o : option str) k n, is_v2 k = false -> ext_oid k = [1;3;6;1;4;1;57264;1;n]%N ->
     ((forall s, o = Some s -> s <> nil -> ext_policy_verify k s c = Ok tt) <->
      (forall s, o = Some s -> s <> nil -> exists u, utf8_encode s = Some u /\ has_ext c [1;3;6;1;4;1;57264;1;n]%N u))).
  { intros o k n V <-. split; intros H s Es Ne; apply (raw_extension_policies k s c V); auto. }
  rewrite (O _ GitHubWorkflowTrigger 2%N) by reflexivity. rewrite (O _ GitHubWorkflowSHA 3%N) by reflexivity.
  rewrite (O _ GitHubWorkflowName 4%N) by reflexivity. rewrite (O _ GitHubWorkflowRepository 5%N) by reflexivity.
  rewrite (O _ GitHubWorkflowRef 6%N) by reflexivity.
  assert (I : ext_policy_verify OIDCIssuer GITHUB_ISSUER c = Ok tt <-> has_ext c [1;3;6;1;4;1;57264;1;1]%N (s2b "https://token.actions.githubusercontent.com")).
  { rewrite raw_extension_policies by reflexivity. assert (U : utf8_encode GITHUB_ISSUER = Some (s2b "https://token.actions.githubusercontent.com")) by (vm_compute; reflexivity).
    rewrite U. split; [intros (u & [=] & Hu); subst; assumption|eauto]. }
  rewrite I.
  assert (J : (forall s, gh_identity g = Some s -> s <> nil -> identity_verify s None c = Ok tt) <->
              (forall s, gh_identity g = Some s -> s <> nil ->
                 exists xs sans n, c_exts c = Ok xs /\ x_san xs = Some sans /\ other_names_text sans /\ In n sans /\ names_identity n s)).
  { split; intros H s Es Ne; specialize (H s Es Ne); apply C31_identity_accepts_iff || apply (proj1 (C31_identity_accepts_iff _ _ _)) in H.
    - tauto.
    - split; [intros i [=]|assumption]. }
  rewrite J. split; [intros [_ H]; exact H|intros H; split; [discriminate|exact H]].
Qed.

Theorem C58_github_issuer_and_options_checked : forall env ps w a g arg x,
  snd (verify_github env ps w a g) = Ok tt -> In arg (va_inputs a) -> denotes w arg x ->
  ((exists s, gh_identity g = Some s /\ s <> nil) \/ (exists s, gh_repository g = Some s /\ s <> nil)) /\
  exists v d b, verifier_selected env w a v /\ digest_of env w x d /\ evidence env w a v x d b /\ github_conditions g (b_cert b).
Proof.
  intros env ps w a g arg x H Ia Dx. apply C56_verify_github_iff in H. destruct H as [R H]. split; [assumption|].
  destruct (every_input _ _ _ _ _ _ _ _ H Ia Dx) as (v & d & b & st & V & Dg & Ev & Vo).
  exists v, d, b. split; [assumption|]. split; [assumption|]. split; [assumption|]. apply C58_github_policy_iff. apply vouched_policy in Vo. assumption.
Qed.

(** ** C62 *)

Theorem C62_argument_iff : forall w arg x, file_or_digest w arg = Ok x <-> denotes w arg x.
Proof. exact file_or_digest_iff. Qed.

(** every other argument is a ValueError, so a usage error *)
Theorem C62_other_arguments_refused : forall w args, (exists arg, In arg args /\ forall x, ~ denotes w arg x) ->
  parse_inputs w args = Raise (ESystemExit 2).
Proof.
  intros w args H. unfold parse_inputs, try_except, invalid_arguments.
  assert (E : forall arg e, file_or_digest w arg = Raise e -> e = EValue).
  { intros arg e Hf. unfold file_or_digest in Hf. destruct (is_file w (path_of arg)); [discriminate|].
    destruct (str_eqb (firstn 6 arg) (s2l "sha256")); [|congruence]. destruct (fromhex (skipn 7 arg)) as [d|]; [|congruence].
    destruct (Nat.eqb (length d) 32); cbn in Hf; congruence. }
  assert (G : map_res (file_or_digest w) args = Raise EValue).
  { destruct H as (arg & I & D). induction args as [|g args IH]; [destruct I|]. cbn [map_res].
    destruct (file_or_digest w g) as [x|e] eqn:F; [|apply E in F; subst e; reflexivity]. cbn [bind].
    destruct I as [->|I]; [exfalso; apply (D x), file_or_digest_iff; assumption|]. rewrite (IH I). reflexivity. }
  rewrite G. reflexivity.
Qed.

(** a digest written as usual stands for itself, unless there is a file of that name *)
Theorem C62_digest : forall w d, length d = 32 -> content w (path_of (s2l "sha256:" ++ hex d)) = None ->
  file_or_digest w (s2l "sha256:" ++ hex d) = Ok (It_digest (mkHashed HA_SHA2_256 d)).
Proof.
  intros w d L C. apply file_or_digest_iff. right. split; [assumption|]. exists 58%N, (hex d), d.
  split; [reflexivity|]. split; [apply fromhex_hex|]. auto.
Qed.

(** ** A concrete world

    In the directory [/home]: [a.txt] with a bundle for it, [b.txt] with an envelope whose statement
    lists it, and [c.txt] with a certificate and a signature. *)
Definition cvx_b : bytes := s2b "world".
Definition cvx_files : fs := fun p =>
  if path_eqb p [s2l "home"; s2l "a.txt"] then Some vx_input
  else if path_eqb p [s2l "home"; s2l "a.txt.sigstore.json"] then Some [x01]
  else if path_eqb p [s2l "home"; s2l "b.txt"] then Some cvx_b
  else if path_eqb p [s2l "home"; s2l "b.txt.sigstore"] then Some [x02]
  else if path_eqb p [s2l "home"; s2l "c.txt"] then Some vx_input
  else if path_eqb p [s2l "home"; s2l "c.txt.crt"] then Some [x03]
  else if path_eqb p [s2l "home"; s2l "c.txt.sig"] then Some (ascii_bytes (b64encode vx_sig))
  else None.
Definition cvx_parse (b : bytes) : res BundleMsg :=
  if bytes_eqb b [x01] then Ok (b_inner vx_artifact1) else if bytes_eqb b [x02] then Ok (b_inner vx_dsse1) else Raise EPydantic.
Definition cvx_validate (b : bytes) : option StatementInner :=
  if bytes_eqb b vx_payload then Some (mkStatementInner [mkSubject (Some (s2l "other")) nil; mkSubject (Some (s2l "b")) [(D_sha256, hex (toy_hash cvx_b))]]
                                         (s2l "https://slsa.dev/provenance/v1") None)
  else None.
Definition cvx_entry_json : json :=
  match le_proof vx_entry1 with
  | Some ip => render (s2l "uuid") (le_log_index vx_entry1) 1700000000 (ip_log_index ip) (ip_tree_size ip) (le_log_id vx_entry1) (ip_root_hash ip)
                 (match le_promise vx_entry1 with Some b => b | None => nil end) (ip_hashes ip)
                 (match ip_checkpoint ip with Some t => t | None => nil end) (le_body vx_entry1)
  | None => JNull
  end.
Definition cvx_config (_ : str) (_ : bool) : res ClientTrustConfig := Ok (mkCTC vx_tr (sc_msg nil None) None).
Definition cvx_world : World :=
  mkWorld [s2l "home"] cvx_files (fun b => if bytes_eqb b [x03] then Ok vx_leaf else Raise EValue) cvx_parse cvx_validate (fun _ => Raise EValue)
    cvx_config (fun _ _ => Ok (mkResp 200 nil (Some (JList [cvx_entry_json])) nil)) rkx_rp vx_now (fun _ => vx_now).
Definition cvx_args (inputs : list str) : VerifyArgs := mkVA inputs None None None false None None false false.
Definition cvx_identity (a : VerifyArgs) (identity issuer : String.string) : list line * res unit :=
  verify_identity vx_env vx_parsers cvx_world a (s2l identity) (s2l issuer).

(** ... whose libraries do not end the process *)
Ltac toy_calm := repeat (first [exact I | match goal with
  | |- fine _ _ (if ?b then _ else _) => destruct b
  | |- fine _ _ (match ?x with _ => _ end) => destruct x
  | |- fine _ calm_cert (Ok _) => repeat split; exact I
  end]).
Lemma toy_env_calm : forall certs, (forall der c, In (der, c) certs -> calm_cert c) -> calm_env (toy_env certs).
Proof.
  intros certs H. constructor; cbn [e_sig_verify e_parse_cert e_chain e_decode_tsr e_tsa_verify toy_env].
  - intros s k sg d. unfold toy_sig_verify. toy_calm.
  - intros der. destruct (assoc bytes_eqb der certs) as [c|] eqn:A; [|exact I]. cbn. revert A. clear -H. induction certs as [|[d c0] l IH]; cbn; [discriminate|].
    destruct (bytes_eqb _ _); [intros X; injection X as <-; eapply H; left; reflexivity|]. apply IH. intros d' c' I'. apply (H d'). right; exact I'.
  - intros roots t c Hr Hc. destruct (_ && _)%bool; [constructor; assumption|exact I].
  - intros b. toy_calm.
  - intros. toy_calm.
Qed.
Lemma vx_env_calm : calm_env vx_env.
Proof. apply toy_env_calm. intros der c [X|[X|[]]]; injection X as _ <-; repeat split; exact I. Qed.
Lemma rkx_rp_calm : calm_rp rkx_rp.
Proof. repeat split; intros; exact I. Qed.
Example ex_calm : calm_env vx_env /\ calm_parsers vx_parsers /\ calm_world cvx_world.
Proof.
  split; [exact vx_env_calm|]. split.
  - intros b. cbn [p_hashedrekord p_dsse p_v2 vx_parsers]. repeat split; toy_calm.
  - constructor; cbn [w_load_pem w_parse_bundle w_config_json w_config_tuf w_rekor w_rp cvx_world]; unfold cvx_parse; intros; try exact rkx_rp_calm; toy_calm.
Qed.

Example ex_two_inputs :
  cvx_identity (cvx_args [s2l "a.txt"; s2l "./b.txt"; s2l "/home//a.txt"]) "a@b.c" "https://issuer.example" =
  ([L_ok (It_path [s2l "a.txt"]); L_ok (It_path [s2l "b.txt"]); L_text (s2l "{}"); L_ok (It_path [s2l "/"; s2l "home"; s2l "a.txt"])], Ok tt).
Proof. vm_compute. reflexivity. Qed.
Example ex_detached :
  cvx_identity (mkVA [s2l "c.txt"] (Some [s2l "c.txt.crt"]) None None false None None true false) "a@b.c" "https://issuer.example" =
  ([L_ok (It_path [s2l "c.txt"])], Ok tt).
Proof. vm_compute. reflexivity. Qed.
Example ex_digest :
  cvx_identity (mkVA [s2l "sha256:" ++ hex vx_digest] None None (Some [s2l "a.txt.sigstore.json"]) true None None false false) "a@b.c" "https://issuer.example" =
  ([L_ok (It_digest (mkHashed HA_SHA2_256 vx_digest))], Ok tt).
Proof. vm_compute. reflexivity. Qed.
(** the second input is not the artifact of its bundle *)
Example ex_wrong_bundle :
  cvx_identity (mkVA [s2l "b.txt"] None None (Some [s2l "a.txt.sigstore.json"]) false None None false false) "a@b.c" "https://issuer.example" =
  ([L_fail (It_path [s2l "b.txt"])], Raise (ESystemExit 1)).
Proof. vm_compute. reflexivity. Qed.
Example ex_wrong_subject :
  cvx_identity (mkVA [s2l "a.txt"] None None (Some [s2l "b.txt.sigstore"]) false None None false true) "a@b.c" "https://issuer.example" =
  ([L_fail (It_path [s2l "a.txt"])], Raise EVerification).
Proof. vm_compute. reflexivity. Qed.
Example ex_wrong_identity :
  cvx_identity (cvx_args [s2l "a.txt"; s2l "b.txt"]) "a@b" "https://issuer.example" = ([L_fail (It_path [s2l "a.txt"])], Raise (ESystemExit 1)).
Proof. vm_compute. reflexivity. Qed.
Example ex_missing_bundle : cvx_identity (cvx_args [s2l "a.txt"; s2l "c.txt"]) "a@b.c" "https://issuer.example" = (nil, Raise (ESystemExit 2)).
Proof. vm_compute. reflexivity. Qed.

(** Expected, but not so: the issuer given on the command line is always checked. *)
Theorem C58_issuer_always_checked_refuted :
  exists env ps w a identity issuer, snd (verify_identity env ps w a identity issuer) = Ok tt /\
    exists v x d b, In x [It_path [s2l "a.txt"]] /\ digest_of env w x d /\ evidence env w a v x d b /\
    ~ exists u, utf8_encode issuer = Some u /\ has_ext (b_cert b) [1;3;6;1;4;1;57264;1;1]%N u.
Proof.
  exists vx_env, vx_parsers, cvx_world, (cvx_args [s2l "a.txt"]), (s2l "a@b.c"), nil. split; [vm_compute; reflexivity|].
  exists vx_verifier, (It_path [s2l "a.txt"]), vx_digest, vx_artifact1. split; [left; reflexivity|]. split.
  { exists vx_input. split; vm_compute; reflexivity. }
  split.
  { left. split; [intros [H|H]; apply H; reflexivity|]. exists [s2l "a.txt.sigstore.json"], [x01]. split; [|split; vm_compute; reflexivity].
    exists [s2l "a.txt"]. split; [reflexivity|]. left. vm_compute. reflexivity. }
  intros (u & U & (xs & l1 & l2 & E & R & Nn)). assert (u = nil) by (vm_compute in U; congruence). subst u.
  assert (X : xs = vx_exts) by (vm_compute in E |- *; congruence). subst xs.
  assert (I : In ([1;3;6;1;4;1;57264;1;1]%N, nil) (x_raw vx_exts)) by (rewrite R; apply in_or_app; right; left; reflexivity).
  destruct I as [Q|[]]. inversion Q.
Qed.

(** Expected, but not so: every option of [verify github] that is given is checked.  An option with
    an empty value is ignored, for instance one from an unset variable of a script. *)
Definition gvx_exts : Extensions :=
  mkExt None (Some (true, false)) (Some [OID_CODE_SIGNING]) (Some [GN_uri (s2l "https://github.com/o/r")]) (Some [PropsSct.sx_sct vx_issuer])
    [(fulcio_oid 1, s2b "https://token.actions.githubusercontent.com"); (fulcio_oid 3, s2b "abc"); (fulcio_oid 5, s2b "o/r")].
Definition gvx_cert : Cert := vx_leaf_with (Ok gvx_exts) (Ok vx_key).
Theorem C58_every_option_checked_refuted :
  exists g c s, gh_sha g = Some s /\ policy_verify (github_policy g) c = Ok tt /\
    ~ exists u, utf8_encode s = Some u /\ has_ext c [1;3;6;1;4;1;57264;1;3]%N u.
Proof.
  exists (mkGH None None (Some nil) None (Some (s2l "o/r")) None), gvx_cert, nil. split; [reflexivity|]. split; [vm_compute; reflexivity|].
  intros (u & U & (xs & l1 & l2 & E & R & Nn)). assert (u = nil) by (vm_compute in U; congruence). subst u.
  assert (X : xs = gvx_exts) by (vm_compute in E |- *; congruence). subst xs.
  assert (I : In ([1;3;6;1;4;1;57264;1;3]%N, nil) (x_raw gvx_exts)) by (rewrite R; apply in_or_app; right; left; reflexivity).
  destruct I as [Q|[Q|[Q|[]]]]; inversion Q.
Qed.
Example ex_github_policy : policy_verify (github_policy (mkGH (Some (s2l "https://github.com/o/r")) None (Some (s2l "abc")) None (Some (s2l "o/r")) None)) gvx_cert = Ok tt /\
    policy_verify (github_policy (mkGH (Some (s2l "https://github.com/o/r")) None (Some (s2l "abd")) None None None)) gvx_cert = Raise EVerification /\
    policy_verify (github_policy (mkGH (Some (s2l "a@b.c")) None None None None None)) vx_leaf = Raise EVerification.
Proof. repeat split; vm_compute; reflexivity. Qed.

(** Expected, but not so: only [sha256:] introduces a digest, and it always does. *)
Theorem C62_separator_refuted : forall sep d w, length d = 32 -> content w (path_of (s2l "sha256" ++ sep :: hex d)) = None ->
  file_or_digest w (s2l "sha256" ++ sep :: hex d) = Ok (It_digest (mkHashed HA_SHA2_256 d)).
Proof.
  intros sep d w L C. apply file_or_digest_iff. right. split; [assumption|]. exists sep, (hex d), d.
  split; [reflexivity|]. split; [apply fromhex_hex|]. auto.
Qed.
Theorem C62_digest_or_file_refuted : exists w d, length d = 32 /\
    file_or_digest w (s2l "sha256:" ++ hex d) = Ok (It_path [s2l "sha256:" ++ hex d]).
Proof.
  exists (mkWorld nil (fun p => if path_eqb p [s2l "sha256:" ++ hex (repeat x00 32)] then Some [x41] else None)
    (w_load_pem cvx_world) cvx_parse cvx_validate (fun _ => Raise EValue) cvx_config (w_rekor cvx_world) rkx_rp vx_now (fun _ => vx_now)), (repeat x00 32).
  split; vm_compute; reflexivity.
Qed.
Example ex_arguments :
  file_or_digest cvx_world (s2l "b.txt") = Ok (It_path [s2l "b.txt"]) /\
    file_or_digest cvx_world (s2l "sha256:" ++ hex vx_digest) = Ok (It_digest (mkHashed HA_SHA2_256 vx_digest)) /\
    file_or_digest cvx_world (s2l "sha256:abcd") = Raise EValue /\
    file_or_digest cvx_world (s2l "missing.txt") = Raise EValue.
Proof. repeat split; vm_compute; reflexivity. Qed.

Print Assumptions C56_verify_identity_iff.
Print Assumptions C56_verify_github_iff.
Print Assumptions C56_one_failure_is_enough.
Print Assumptions C56_first_failure.
Print Assumptions C56_ok_means_verified.
Print Assumptions C56_exit_status.
Print Assumptions C56_github_exit_status.
Print Assumptions C57_dsse_binds_the_input.
Print Assumptions C57_refused.
Print Assumptions C58_identity_and_issuer_checked.
Print Assumptions C58_github_policy_iff.
Print Assumptions C58_github_issuer_and_options_checked.
Print Assumptions C58_issuer_always_checked_refuted.
Print Assumptions C58_every_option_checked_refuted.
Print Assumptions C62_argument_iff.
Print Assumptions C62_other_arguments_refused.
Print Assumptions C62_digest.
Print Assumptions C62_separator_refuted.
Print Assumptions C62_digest_or_file_refuted.
