(** Property C103: what exit status 0 of the verify commands proves about the world if other processes
    change files while the command runs. *)
From Verif Require Import Base Codec Messages ToyHash Env Keyring KeyringProofs PropsKeyring MerkleSpec Merkle PropsMerkle
  PyText Checkpoint CheckpointProofs PropsCheckpoint LogEntry PropsLogEntry Cert PropsCert Sct PropsSct Dsse PropsDsse Predicate
  KeyDetails Policy PropsPolicy TrustedRoot PropsTrustedRoot SigningConfig PropsSigningConfig Hashing Json Http Oidc Oauth Bundle PropsBundle
  Verifier VerifierSpec PropsVerifier ToyEnv ToyBundles RekorClient PropsRekorClient Clients Tuf PropsTuf CliVerify CliTrust PropsCliVerify
  Sign SignSteps CliSign PropsCliSign CliEnv PropsCliEnv CliMain Calm Outcomes PropsCliMain PropsAuthentic PropsGenuine VerifySteps PropsVerifySteps.

(** ** Specification *)

(** What the command read from files, and what the log answered, exists. *)
Definition read_existed (hi : History) (w : World) (t : list access) : Prop :=
  (forall p raw m x, In (p, raw) (reads t) -> w_parse_bundle w raw = Ok m -> carries m x -> ever hi x) /\
  (forall p pem c, In (p, pem) (reads t) -> w_load_pem w pem = Ok c -> ever hi (c_der c)) /\
  (forall i url req e x, retrieve_post (w_rp w) (w_rekor w i) url req = Ok (Some e) -> entry_carries e x -> ever hi x).

(** The verifier is made from the trust configuration that the command read (or from the TUF metadata);
    the logs, authorities and timestamp services in it are honest. *)
Definition logs_honest_in (env : Env) (ps : Parsers) (hi : History) (w : World) (a : VerifyArgs) (t : list access) : Prop :=
  forall v r i, verifier_read env w a v r -> incl r (reads t) -> honest_logs env ps hi (w_when w i) (vf_root v).
Definition services_honest_in (env : Env) (ps : Parsers) (hi : History) (w : World) (a : VerifyArgs) (t : list access) : Prop :=
  logs_honest_in env ps hi w a t /\
  forall v r, verifier_read env w a v r -> incl r (reads t) -> honest_ca env hi (vf_fulcio v) /\ honest_tsas env hi (vf_root v).

(** The digest that an argument stood for: of what was read from the file, if there was one when the command
    looked, else the one given in the argument. *)
Definition stood_for (env : Env) (t : list access) (arg : str) (d : bytes) : Prop :=
  (In (Look (path_of arg) true) t /\ exists c, In (path_of arg, c) (reads t) /\ d = e_hash env SHA256 c) \/
  (In (Look (path_of arg) false) t /\ exists sep text, arg = s2l "sha256" ++ sep :: text /\ fromhex text = Some d /\ length d = 32).

(** ** Proofs *)

Lemma read_made : forall env ps hi w a v p x r t, read_existed hi w t -> incl r (reads t) -> verified_with env ps w a v p x r ->
  exists d r0 b st m, digested env x d r0 /\ incl r0 r /\ vouched env ps w (w_when w x) v p d b st /\
    make_bundle env m = Ok b /\ forall y, carries m y -> ever hi y.
Proof.
  intros env ps hi w a v p x r t (E1 & E2 & E3) I (d & r0 & b & st & Dg & Vo & [(_ & bp & raw & _ & -> & B)|
    (_ & cp & sp & pem & cert & raw & text & sg & req & e & _ & _ & -> & L & _ & _ & _ & R & B)]).
  - unfold bundle_from_json in B. destruct (w_parse_bundle w raw) as [m|e] eqn:Pm; cbn [try_except] in B.
    + exists d, r0, b, st, m. split; [assumption|]. split; [apply incl_appl, incl_refl|]. split; [assumption|]. split; [exact B|].
      intros y H. refine (E1 bp _ _ _ (I _ _) Pm H). apply in_or_app. right. left. reflexivity.
    + destruct (is_value_error e); discriminate.
  - unfold from_parts in B. rewrite b64decode_b64encode in B. cbn [bind] in B. unfold from_parts_ in B. cbn [map_res bind] in B.
    rewrite b64decode_b64encode in B. cbn [bind] in B. exists d, r0, b, st. eexists. split; [assumption|]. split; [apply incl_appl, incl_refl|].
    split; [assumption|]. split; [exact B|].
    intros y [H|[(l & H & _)|[[]|(e' & [<-|[]] & H)]]]; cbn [bm_vm vm_cert vm_chain] in *; [|discriminate|].
    + injection H as <-. refine (E2 cp _ _ (I _ _) L). apply in_or_app. right. left. reflexivity.
    + exact (E3 _ _ _ _ _ R H).
Qed.

(** [input_genuine] of PropsGenuine.v, for materials however they were obtained *)
Lemma vouched_genuine : forall env ps hi w now v p d b st m,
  honest_logs env ps hi now (vf_root v) -> honest_ca env hi (vf_fulcio v) -> honest_tsas env hi (vf_root v) ->
  make_bundle env m = Ok b -> (forall y, carries m y -> ever hi y) -> vouched env ps w now v p d b st ->
  policy_verify p (b_cert b) = Ok tt /\
  exists who t0 key, hs_issued hi (b_cert b) who t0 /\
    (forall identity issuer, cert_names (b_cert b) identity issuer -> hs_login hi who identity issuer t0) /\
    c_pubkey (b_cert b) = Ok key /\
    (careful hi who -> unforgeable env hi key -> exists t, (t <= c_not_after (b_cert b))%Z /\ signed_about env w hi key d t).
Proof.
  intros env ps hi w now v p d b st m Lg Ca Ts Mb Cm Vo. pose proof Mb as Mi. apply C34_bundle_iff in Mi. destruct Mi as (Mi & _).
  unfold vouched in Vo. rewrite Mi in Vo. destruct (bm_env m) as [em|] eqn:Em.
  - destruct Vo as (payload & inner & s & V & Va & _ & Is & Ls).
    destruct (envelope_genuine _ _ _ _ _ _ _ _ _ _ Ca Ts Lg Mb Cm V) as (Po & who & t0 & key & Iss & Lo & K & H).
    split; [assumption|]. exists who, t0, key. split; [assumption|]. split; [assumption|]. split; [assumption|].
    intros Cf Uf. destruct (H Cf Uf) as (t & y & Lt & Py & Sd). exists t. split; [assumption|]. right. exists payload, inner, s, y. auto.
  - destruct Vo as (V & _). destruct (artifact_genuine _ _ _ _ _ _ _ (In_hashed (mkHashed HA_SHA2_256 d)) _ d Ca Ts Lg Mb Cm Em eq_refl V) as (Po & who & t0 & key & Iss & Lo & K & H).
    split; [assumption|]. exists who, t0, key. split; [assumption|]. split; [assumption|]. split; [assumption|].
    intros Cf Uf. destruct (H Cf Uf) as (t & Lt & Sd). exists t. split; [assumption|]. left. assumption.
Qed.

Lemma stood : forall env t arg x d r0, taken_for t arg x -> digested env x d r0 -> incl r0 (reads t) -> stood_for env t arg d.
Proof.
  intros env t arg x d r0 [(Lk & ->)|(Lk & sep & text & d' & -> & F & L & ->)] Dg I; cbn [digested] in Dg.
  - left. split; [assumption|]. destruct Dg as (c & -> & ->). exists c. split; [apply I; left; reflexivity|reflexivity].
  - right. split; [assumption|]. destruct Dg as [_ Dg]. injection Dg as <-. eauto.
Qed.

(** one argument of a successful command *)
Lemma one_argument : forall env ps hi w a p t out arg, all_verified env ps w a p t out -> In arg (va_inputs a) -> read_existed hi w t ->
  exists v r0 x d b st m, verifier_read env w a v r0 /\ incl r0 (reads t) /\ stood_for env t arg d /\
    vouched env ps w (w_when w x) v p d b st /\ make_bundle env m = Ok b /\ (forall y, carries m y -> ever hi y).
Proof.
  intros env ps hi w a p t out arg (v & r0 & l & Vr & R & _ & Vf & Ar) Ia Re. destruct (Ar arg Ia) as (x & T & Ix).
  apply in_map_iff in Ix. destruct Ix as ((x' & r) & E & Il). cbn [fst] in E. subst x'. destruct (Vf x r Il) as (Vw & _).
  assert (Ir : incl r (reads t)).
  { rewrite R. apply incl_appr. intros y Hy. apply in_concat. exists r. split; [|assumption]. apply in_map_iff. exists (x, r). auto. }
  assert (I0 : incl r0 (reads t)) by (rewrite R; apply incl_appl, incl_refl).
  destruct (read_made _ _ _ _ _ _ _ _ _ _ Re Ir Vw) as (d & rd & b & st & m & Dg & Id & Vo & Mb & Cm).
  exists v, r0, x, d, b, st, m. split; [assumption|]. split; [assumption|].
  split; [exact (stood _ _ _ _ _ _ T Dg (incl_tran Id Ir))|auto].
Qed.

(** ** C103 *)

(** If [sigstore verify identity] succeeds, whatever other processes do to the files: what each argument stood
    for was signed, before the certificate expired, with the key of a person whom the issuer confirmed. *)
Theorem C103_identity : forall env ps w files a identity issuer out t hi,
  verify_identity_s env ps w files a identity issuer = ((out, Ok tt), t) -> issuer <> nil ->
  read_existed hi w t -> services_honest_in env ps hi w a t ->
  forall arg, In arg (va_inputs a) ->
  exists d cert who tl key, stood_for env t arg d /\
    hs_login hi who identity issuer tl /\ hs_issued hi cert who tl /\ c_pubkey cert = Ok key /\
    (careful hi who -> unforgeable env hi key -> exists ts, (ts <= c_not_after cert)%Z /\ signed_about env w hi key d ts).
Proof.
  intros env ps w files a identity issuer out t hi H Ni Re (Lg & Sv) arg Ia. apply C102_accepted in H.
  destruct (one_argument _ _ _ _ _ _ _ _ _ H Ia Re) as (v & r0 & x & d & b & st & m & Vr & I0 & Sf & Vo & Mb & Cm).
  destruct (Sv v r0 Vr I0) as [Ca Ts].
  destruct (vouched_genuine _ _ _ _ _ _ _ _ _ _ _ (Lg v r0 x Vr I0) Ca Ts Mb Cm Vo) as (Po & who & tl & key & Is & Lo & K & Q).
  exists d, (b_cert b), who, tl, key. split; [assumption|]. split; [|auto]. apply Lo.
  change (identity_verify identity (Some issuer) (b_cert b) = Ok tt) in Po. apply C31_identity_accepts_iff in Po.
  destruct Po as (Io & xs & sans & n & Xs & San & _ & In_ & Nm). split; [exists xs, sans, n; auto|]. exact (Io _ eq_refl Ni).
Qed.

(** The same for [sigstore verify github] and the workflow it expects *)
Theorem C103_github : forall env ps w files a g out t hi,
  verify_github_s env ps w files a g = ((out, Ok tt), t) ->
  read_existed hi w t -> services_honest_in env ps hi w a t ->
  forall arg, In arg (va_inputs a) ->
  exists d cert who tl key, stood_for env t arg d /\ github_conditions g cert /\
    (forall s, gh_identity g = Some s -> s <> nil -> hs_login hi who s (s2l "https://token.actions.githubusercontent.com") tl) /\
    hs_issued hi cert who tl /\ c_pubkey cert = Ok key /\
    (careful hi who -> unforgeable env hi key -> exists ts, (ts <= c_not_after cert)%Z /\ signed_about env w hi key d ts).
Proof.
  intros env ps w files a g out t hi H Re (Lg & Sv) arg Ia. apply C102_accepted_github in H. destruct H as [_ H].
  destruct (one_argument _ _ _ _ _ _ _ _ _ H Ia Re) as (v & r0 & x & d & b & st & m & Vr & I0 & Sf & Vo & Mb & Cm).
  destruct (Sv v r0 Vr I0) as [Ca Ts].
  destruct (vouched_genuine _ _ _ _ _ _ _ _ _ _ _ (Lg v r0 x Vr I0) Ca Ts Mb Cm Vo) as (Po & who & tl & key & Is & Lo & K & Q).
  apply C58_github_policy_iff in Po. exists d, (b_cert b), who, tl, key. split; [assumption|]. split; [assumption|]. split; [|auto].
  intros s Gs Ns. apply Lo. destruct Po as (Io & Id & _). destruct (Id s Gs Ns) as (xs & sans & n & Xs & San & _ & In_ & Nm).
  split; [exists xs, sans, n; auto|]. exists (s2b "https://token.actions.githubusercontent.com"). split; [reflexivity|assumption].
Qed.

(** With honest logs only: what each argument stood for is publicly recorded. *)
Theorem C103_public : forall env ps w files a out t hi,
  ((exists identity issuer, verify_identity_s env ps w files a identity issuer = ((out, Ok tt), t)) \/
   (exists g, verify_github_s env ps w files a g = ((out, Ok tt), t))) ->
  (forall x, length (e_hash env SHA256 x) = 32) -> read_existed hi w t -> logs_honest_in env ps hi w a t ->
  forall arg, In arg (va_inputs a) ->
  exists d cert e key log, stood_for env t arg d /\ recorded_about env ps w e cert d /\ hs_head hi key log /\
    (In (le_body e) log \/ hash_collision env log e).
Proof.
  intros env ps w files a out t hi H HL Re Lg arg Ia.
  assert (A : exists p, all_verified env ps w a p t out).
  { destruct H as [(i & s & H)|(g & H)]; [apply C102_accepted in H|apply C102_accepted_github in H; destruct H as [_ H]]; eauto. }
  destruct A as [p A]. destruct (one_argument _ _ _ _ _ _ _ _ _ A Ia Re) as (v & r0 & x & d & b & st & m & Vr & I0 & Sf & Vo & Mb & Cm).
  specialize (Lg v r0 x Vr I0). unfold vouched in Vo. destruct (bm_env (b_inner b)) as [em|].
  - destruct Vo as (payload & inner & s & V & Va & _ & Is & Ls).
    destruct (C78_envelope_is_public _ _ _ _ _ _ _ _ _ _ HL Lg Mb Cm V) as (ms & k & sc & log & sg & _ & _ & Hh & Rc & I).
    exists d, (b_cert b), (b_entry b), k, log. split; [assumption|]. split; [|auto]. right. exists payload, inner, s, sg. auto.
  - destruct Vo as (V & _). destruct (C78_artifact_is_public _ _ _ _ _ _ _ _ _ HL Lg Mb Cm V) as (ms & k & sc & log & d' & sg & _ & _ & Hh & Hd & Rc & I).
    injection Hd as <-. exists d, (b_cert b), (b_entry b), k, log. split; [assumption|]. split; [|auto]. left. exists sg. assumption.
Qed.

(** What a file argument stood for is what the file contains, if nobody touches the file itself: an attacker
    who can replace every other file can not make the command accept it. *)
Theorem C103_untouched : forall env ps w files a out t,
  ((exists identity issuer, verify_identity_s env ps w files a identity issuer = ((out, Ok tt), t)) \/
   (exists g, verify_github_s env ps w files a g = ((out, Ok tt), t))) ->
  forall arg c d, (forall n, files n (place (w_cwd w) (path_of arg)) = Some c) -> stood_for env t arg d -> d = e_hash env SHA256 c.
Proof.
  intros env ps w files a out t H arg c d S Sf.
  assert (An : forall x, In x t -> exists k, true_answer (w_cwd w) (files k) x).
  { intros x Ix. apply In_nth_error in Ix. destruct Ix as [k Ix]. exists k. apply (C102_accesses env ps w files a k x).
    destruct H as [(i & s & H)|(g & H)]; [left; exists i, s|right; exists g]; rewrite H; exact Ix. }
  destruct Sf as [(_ & c' & I & ->)|(I & _)].
  - unfold reads in I. apply in_flat_map in I. destruct I as (x & Ix & I). destruct (An x Ix) as [k T].
    destruct x as [q f|q [b|]]; cbn [In] in I; try contradiction. destruct I as [I|[]]. injection I as -> ->. cbn [true_answer] in T. rewrite S in T. congruence.
  - destruct (An _ I) as [k T]. cbn [true_answer] in T. destruct T as [_ T]. rewrite S in T. discriminate T. eauto.
Qed.

(** ** The honest world of PropsAuthentic.v, with an attacker who replaces the input and adds files *)

Definition rcx_world : World := world_at gx_tools gx_tree.
Definition rcx_args : VerifyArgs := cvx_args [s2l "a.txt"].
(** the input is replaced right after it was read, and a second bundle appears after the command looked for it *)
Definition rcx_files (n : nat) : fs := fun p =>
  if Nat.leb 7 n && path_eqb p [s2l "home"; s2l "a.txt"] then Some (s2b "evil")
  else if Nat.leb 5 n && path_eqb p [s2l "home"; s2l "a.txt.sigstore"] then Some (s2b "evil")
  else w_files rcx_world p.
Definition rcx_trace : list access :=
  [Look [s2l "a.txt"] true; Look [s2l "a.txt"] true; Look [s2l "a.txt.sigstore.json"] true; Look [s2l "a.txt.sigstore.json"] true;
   Look [s2l "a.txt.sigstore"] false; Look [s2l "a.txt.sigstore.json"] true; Take [s2l "a.txt"] (Some vx_input); Take [s2l "a.txt.sigstore.json"] (Some [x01])].

Lemma rcx_run : verify_identity_s ax_env vx_parsers rcx_world rcx_files rcx_args (s2l "a@b.c") (s2l "https://issuer.example") =
  (([L_ok (It_path [s2l "a.txt"])], Ok tt), rcx_trace).
Proof. vm_compute. reflexivity. Qed.

Lemma rcx_existed : read_existed ax_history rcx_world rcx_trace.
Proof.
  destruct gx_existed as (E1 & E2 & E3). split; [|split; [|exact E3]].
  - intros p raw m x _ Pm Cx. cbn [w_parse_bundle rcx_world world_at gx_tools gx_world tl_world] in Pm. destruct (bytes_eqb raw [x01]); [|discriminate].
    apply ax_carried. injection Pm as <-. assumption.
  - intros p pem c _ L. discriminate L.
Qed.

Lemma rcx_honest : services_honest_in ax_env vx_parsers ax_history rcx_world rcx_args rcx_trace.
Proof.
  assert (S : forall v r, verifier_read ax_env rcx_world rcx_args v r -> verifier_selected ax_env (world_at gx_tools gx_tree) rcx_args v).
  { intros v r (c & (_ & Cs) & M1 & M2). exists c. split; [exact Cs|]. split; assumption. }
  destruct (gx_honest rcx_args) as [Lg Sv]. split.
  - intros v r i V _. exact (Lg v i (S v r V)).
  - intros v r V _. exact (Sv v (S v r V)).
Qed.

(** All hypotheses hold; the person signed what the command read, which is not what is in the file now. *)
Example ex_race : (exists t, (t <= c_not_after vx_leaf)%Z /\ hs_signed ax_history vx_key (toy_hash vx_input) t) /\
  forall n, 7 <= n -> rcx_files n (place (w_cwd rcx_world) [s2l "a.txt"]) = Some (s2b "evil").
Proof.
  split.
  - destruct (C103_identity _ _ _ _ _ _ _ _ _ ax_history rcx_run ltac:(discriminate) rcx_existed rcx_honest (s2l "a.txt") (or_introl eq_refl))
      as (d & cert & who & tl & key & Sf & _ & [-> _] & K & H).
    destruct who. change (Ok vx_key = Ok key) in K. injection K as <-. destruct (H ex_careful ex_unforgeable) as (ts & L & [Sg|(pl & inner & s & y & V & _)]); [|discriminate V].
    exists ts. split; [assumption|]. destruct Sf as [(_ & c & I & ->)|(I & _)].
    + cbn [reads rcx_trace flat_map app] in I. destruct I as [I|[I|[]]].
      * apply (f_equal snd) in I. cbn [snd] in I. subst c. exact Sg.
      * apply (f_equal (fun q => path_eqb (fst q) [s2l "a.txt"])) in I. vm_compute in I. discriminate I.
    + exfalso. unfold rcx_trace in I. cbn [In] in I.
      repeat (destruct I as [I|I]; [apply (f_equal (fun q => match q with Look p f => path_eqb p [s2l "a.txt"] && negb f | _ => false end)) in I; vm_compute in I; discriminate I|]).
      exact I.
  - intros n L. unfold rcx_files. destruct (Nat.leb 7 n) eqn:E; [vm_compute; reflexivity|apply Nat.leb_gt in E; lia].
Qed.

Example ex_race_recorded : exists key log, hs_head ax_history key log.
Proof.
  destruct (C103_public _ _ _ _ _ _ _ ax_history (or_introl (ex_intro _ _ (ex_intro _ _ rcx_run))) toy_hash_length rcx_existed (proj1 rcx_honest) (s2l "a.txt") (or_introl eq_refl))
    as (d & cert & e & key & log & _ & _ & H & _).
  exists key, log. exact H.
Qed.

(** Without "what was read": the file that is there when the command ends need not have been signed. *)
Theorem C103_final_content_refuted : exists env ps w files a identity issuer out t hi arg c,
  verify_identity_s env ps w files a identity issuer = ((out, Ok tt), t) /\ read_existed hi w t /\ services_honest_in env ps hi w a t /\
  In arg (va_inputs a) /\ (forall n, length t <= n -> files n (place (w_cwd w) (path_of arg)) = Some c) /\
  forall key ts, ~ signed_about env w hi key (e_hash env SHA256 c) ts.
Proof.
  exists ax_env, vx_parsers, rcx_world, rcx_files, rcx_args, (s2l "a@b.c"), (s2l "https://issuer.example"). eexists. exists rcx_trace, ax_history, (s2l "a.txt"), (s2b "evil").
  split; [exact rcx_run|]. split; [exact rcx_existed|]. split; [exact rcx_honest|]. split; [left; reflexivity|]. split.
  - intros n L. apply ex_race. cbn in L. lia.
  - intros key ts [S|(pl & inner & s & x & V & _)]; [|discriminate V]. destruct S as (_ & S & _).
    apply (f_equal (bytes_eqb vx_digest)) in S. vm_compute in S. discriminate S.
Qed.

Print Assumptions C103_identity.
Print Assumptions C103_github.
Print Assumptions C103_public.
Print Assumptions C103_untouched.
Print Assumptions C103_final_content_refuted.
