(** Properties C85, C86, C87: the exit status, options and environment variables, and
    [plumbing fix-bundle] on the file system. *)
From Verif Require Import Base Codec Messages Env Keyring Cert Dsse KeyDetails Policy TrustedRoot SigningConfig Hashing Json Http
  Oidc Oauth LogEntry Bundle Verifier RekorClient Clients Tuf PyText CliVerify CliTrust Sign SignSteps Predicate CliSign CliEnv CliMain Calm Outcomes
  VerifierSpec PropsDsse PropsBundle PropsPolicy PropsTuf PropsCliVerify PropsCliEnv PropsCliTrust SignProofs PropsSign PropsRekorClient PropsCliSign PropsPredicate PropsSignVerify ToyEnv ToyBundles ToySign.

(** ** Specification: the values of options *)

(** [s] is the last value given for an option on the command line *)
Definition last_given (l : Line) (o : opt) (s : str) : Prop :=
  exists before after, ln_options l = before ++ (o, s) :: after /\ forall s', ~ In (o, s') after.
Definition not_given (l : Line) (o : opt) : Prop := forall s, ~ In (o, s) (ln_options l).

(** the documented environment variables *)
Inductive variable_for : command -> opt -> str -> Prop :=
| V_client_id : forall c, In c [C_sign; C_attest; C_get_identity_token] -> variable_for c O_client_id (s2l "SIGSTORE_OIDC_CLIENT_ID")
| V_client_secret : forall c, In c [C_sign; C_attest; C_get_identity_token] -> variable_for c O_client_secret (s2l "SIGSTORE_OIDC_CLIENT_SECRET")
| V_issuer : forall c, In c [C_sign; C_attest; C_get_identity_token] -> variable_for c O_issuer (s2l "SIGSTORE_OIDC_ISSUER")
| V_identity_token : forall c, In c [C_sign; C_attest] -> variable_for c O_identity_token (s2l "SIGSTORE_IDENTITY_TOKEN")
| V_bundle : forall c, In c [C_sign; C_attest; C_verify_identity; C_verify_github] -> variable_for c O_bundle (s2l "SIGSTORE_BUNDLE")
| V_output_signature : variable_for C_sign O_signature (s2l "SIGSTORE_OUTPUT_SIGNATURE")
| V_output_certificate : variable_for C_sign O_certificate (s2l "SIGSTORE_OUTPUT_CERTIFICATE")
| V_output_directory : variable_for C_sign O_output_directory (s2l "SIGSTORE_OUTPUT_DIRECTORY")
| V_signature : forall c, In c [C_verify_identity; C_verify_github] -> variable_for c O_signature (s2l "SIGSTORE_SIGNATURE")
| V_certificate : forall c, In c [C_verify_identity; C_verify_github] -> variable_for c O_certificate (s2l "SIGSTORE_CERTIFICATE")
| V_cert_identity : forall c, In c [C_verify_identity; C_verify_github] -> variable_for c O_cert_identity (s2l "SIGSTORE_CERT_IDENTITY")
| V_cert_issuer : variable_for C_verify_identity O_cert_issuer (s2l "SIGSTORE_CERT_OIDC_ISSUER")
| V_trigger : variable_for C_verify_github O_trigger (s2l "SIGSTORE_VERIFY_GITHUB_WORKFLOW_TRIGGER")
| V_sha : variable_for C_verify_github O_sha (s2l "SIGSTORE_VERIFY_GITHUB_WORKFLOW_SHA")
| V_name : variable_for C_verify_github O_name (s2l "SIGSTORE_VERIFY_GITHUB_WORKFLOW_NAME")
| V_repository : variable_for C_verify_github O_repository (s2l "SIGSTORE_VERIFY_GITHUB_WORKFLOW_REPOSITORY")
| V_ref : variable_for C_verify_github O_ref (s2l "SIGSTORE_VERIFY_GITHUB_WORKFLOW_REF").
(** the only option with a default *)
Definition standard (c : command) (o : opt) : option str :=
  match o with O_client_id => match c with C_sign | C_attest | C_get_identity_token => Some (s2l "sigstore") | _ => None end | _ => None end.

(** the value of an option: from the command line, else from the environment, else the default *)
Inductive has_value (environ : str -> option str) (l : Line) (o : opt) : option str -> Prop :=
| Val_given : forall s, last_given l o s -> has_value environ l o (Some s)
| Val_variable : forall v s, not_given l o -> variable_for (ln_command l) o v -> environ v = Some s -> has_value environ l o (Some s)
| Val_default : not_given l o -> (forall v, variable_for (ln_command l) o v -> environ v = None) ->
    has_value environ l o (standard (ln_command l) o).
(** a yes/no option: given, or set by its variable *)
Definition switched_on (environ : str -> option str) (l : Line) (f : flag) : Prop :=
  In f (ln_flags l) \/ exists v, environ (documented_variable f) = Some v /\ says_yes v.

(** ** Specification: the command lines that are accepted *)

(** every option belongs to the command, required ones are given, at most one instance is selected,
    and there are inputs *)
Definition options_of (c : command) (o : opt) : Prop :=
  match o with
  | O_trust_config | O_instance => True
  | O_client_id | O_client_secret | O_issuer => In c [C_sign; C_attest; C_get_identity_token]
  | O_identity_token | O_rekor_version => In c [C_sign; C_attest]
  | O_predicate | O_predicate_type => c = C_attest
  | O_signature | O_certificate => In c [C_sign; C_verify_identity; C_verify_github]
  | O_bundle => In c [C_sign; C_attest; C_verify_identity; C_verify_github; C_fix_bundle]
  | O_output_directory => c = C_sign
  | O_cert_identity => In c [C_verify_identity; C_verify_github]
  | O_cert_issuer => c = C_verify_identity
  | O_trigger | O_sha | O_name | O_repository | O_ref => c = C_verify_github
  end.
Definition flags_of (c : command) (f : flag) : Prop :=
  match f with
  | F_staging => True
  | F_overwrite => In c [C_sign; C_attest]
  | F_disable_ambient | F_force_oob => In c [C_sign; C_attest; C_get_identity_token]
  | F_no_default_files => c = C_sign
  | F_offline => In c [C_verify_identity; C_verify_github]
  end.
Definition required_options (c : command) : list opt :=
  match c with
  | C_attest => [O_predicate; O_predicate_type]
  | C_verify_identity => [O_cert_identity; O_cert_issuer]
  | C_fix_bundle => [O_bundle]
  | _ => nil
  end.
Definition mentioned (l : Line) (o : opt) : Prop := exists s, In (o, s) (ln_options l).
Definition well_formed (to_int : str -> option Z) (l : Line) : Prop :=
  (forall o s, In (o, s) (ln_options l) -> options_of (ln_command l) o) /\
  (forall f, In f (ln_flags l) -> flags_of (ln_command l) f) /\
  (ln_upgrade_version l = true \/ ln_in_place l = true -> ln_command l = C_fix_bundle) /\
  (forall o, In o (required_options (ln_command l)) -> mentioned l o) /\
  ~ (In F_staging (ln_flags l) /\ mentioned l O_instance) /\ ~ (In F_staging (ln_flags l) /\ mentioned l O_trust_config) /\
  ~ (mentioned l O_instance /\ mentioned l O_trust_config) /\
  match ln_command l with
  | C_sign | C_attest | C_verify_identity | C_verify_github => ln_positional l <> nil
  | C_trust_instance => exists root, ln_positional l = [root]
  | _ => ln_positional l = nil
  end /\
  (forall s, In (O_rekor_version, s) (ln_options l) -> exists n, to_int s = Some n) /\
  (forall s, In (O_predicate_type, s) (ln_options l) -> s = s2l "https://slsa.dev/provenance/v0.2" \/ s = s2l "https://slsa.dev/provenance/v1").
(** the variables of yes/no options, of all commands, are unset or say yes or no *)
Definition readable_variables (environ : str -> option str) : Prop :=
  forall f v, environ (documented_variable f) = Some v -> says_yes v \/ says_no v.

(** ** Specification: the arguments of the commands *)

Definition path_value (environ : str -> option str) (l : Line) (o : opt) (p : option path) : Prop :=
  exists v, has_value environ l o v /\ p = option_map path_of v.
Definition on (P : Prop) (b : bool) : Prop := b = true <-> P.
Definition says_verify (environ : str -> option str) (l : Line) (a : VerifyArgs) : Prop :=
  va_inputs a = ln_positional l /\
  path_value environ l O_certificate (va_cert a) /\ path_value environ l O_signature (va_sig a) /\ path_value environ l O_bundle (va_bundle a) /\
  on (switched_on environ l F_offline) (va_offline a) /\
  path_value environ l O_trust_config (va_trust_config a) /\ has_value environ l O_instance (va_instance a) /\
  on (switched_on environ l F_staging) (va_staging a) /\ on (ln_verbose l <> 0) (va_verbose a).
Definition says_github (environ : str -> option str) (l : Line) (g : GithubArgs) : Prop :=
  has_value environ l O_cert_identity (gh_identity g) /\ has_value environ l O_trigger (gh_trigger g) /\ has_value environ l O_sha (gh_sha g) /\
  has_value environ l O_name (gh_name g) /\ has_value environ l O_repository (gh_repository g) /\ has_value environ l O_ref (gh_ref g).
Definition says_common (to_int : str -> option Z) (environ : str -> option str) (l : Line) (a : CommonArgs) : Prop :=
  ca_files a = map path_of (ln_positional l) /\ on (switched_on environ l F_overwrite) (ca_overwrite a) /\
  has_value environ l O_identity_token (ca_identity_token a) /\ has_value environ l O_client_id (Some (ca_client_id a)) /\
  has_value environ l O_client_secret (ca_client_secret a) /\ on (switched_on environ l F_disable_ambient) (ca_disable_ambient a) /\
  has_value environ l O_issuer (ca_issuer a) /\ on (switched_on environ l F_force_oob) (ca_force_oob a) /\
  (forall n, ca_rekor_version a = Some n <-> exists s, last_given l O_rekor_version s /\ to_int s = Some n) /\
  path_value environ l O_trust_config (ca_trust_config a) /\ has_value environ l O_instance (ca_instance a) /\
  on (switched_on environ l F_staging) (ca_staging a) /\ on (ln_verbose l <> 0) (ca_verbose a).
Definition says_sign (to_int : str -> option Z) (environ : str -> option str) (l : Line) (a : SignArgs) : Prop :=
  says_common to_int environ l (sa_common a) /\
  path_value environ l O_signature (sa_signature a) /\ path_value environ l O_certificate (sa_certificate a) /\
  path_value environ l O_bundle (sa_bundle a) /\ path_value environ l O_output_directory (sa_output_directory a) /\
  on (switched_on environ l F_no_default_files) (sa_no_default_files a).
Definition says_attest (to_int : str -> option Z) (environ : str -> option str) (l : Line) (a : AttestArgs) : Prop :=
  says_common to_int environ l (aa_common a) /\
  path_value environ l O_predicate (Some (aa_predicate a)) /\ has_value environ l O_predicate_type (Some (aa_predicate_type a)) /\
  path_value environ l O_bundle (aa_bundle a).

(** ** Proofs: options *)

Lemma given_some : forall l o s, given_value l o = Some s <-> last_given l o s.
Proof.
  intros l o s. unfold given_value, last_given. generalize (ln_options l). intros os.
  induction os as [|[o' s'] os IH] using rev_ind.
  - cbn. split; [discriminate|]. intros (b & a & Q & _). destruct b; discriminate.
  - rewrite rev_app_distr. cbn [rev app find fst]. destruct (opt_eq_dec o' o) as [->|Nq].
    + cbn [snd]. split.
      * intros Q. injection Q as ->. exists os, nil. split; [reflexivity|]. intros x [].
      * intros (b & a & Q & Na). destruct a as [|x a] using rev_ind.
        -- apply app_inj_tail in Q. destruct Q as [_ Q]. congruence.
        -- rewrite app_comm_cons, app_assoc in Q. apply app_inj_tail in Q. destruct Q as [_ Q]. subst x. exfalso. apply (Na s'). apply in_or_app. right. left. reflexivity.
    + rewrite IH. split.
      * intros (b & a & -> & Na). exists b, (a ++ [(o', s')]). split; [rewrite <- app_assoc; reflexivity|].
        intros x Ix. apply in_app_iff in Ix. destruct Ix as [Ix|[Ix|[]]]; [eapply Na; eassumption|]. congruence.
      * intros (b & a & Q & Na). destruct a as [|x a _] using rev_ind.
        -- apply app_inj_tail in Q. destruct Q as [_ Q]. congruence.
        -- rewrite app_comm_cons, app_assoc in Q. apply app_inj_tail in Q. destruct Q as [-> <-]. exists b, a. split; [reflexivity|].
           intros y Iy. apply (Na y). apply in_or_app. left. assumption.
Qed.
Lemma given_none : forall l o, given_value l o = None <-> not_given l o.
Proof.
  intros l o. unfold given_value, not_given. split.
  - intros H s Is. destruct (find _ (rev (ln_options l))) as [x|] eqn:F; [discriminate|].
    apply (find_none _ _ F) in Is || (pose proof (find_none _ _ F (o, s)) as K; cbn [fst] in K; rewrite <- in_rev in K; specialize (K Is); destruct (opt_eq_dec o o); congruence).
  - intros H. destruct (find _ (rev (ln_options l))) as [[o' s]|] eqn:F; [|reflexivity]. apply find_some in F. destruct F as [Is Q]. cbn [fst] in Q.
    destruct (opt_eq_dec o' o) as [->|]; [|discriminate]. exfalso. apply (H s). apply in_rev. assumption.
Qed.
Lemma given_mentioned : forall l o, is_some (given_value l o) = true <-> mentioned l o.
Proof.
  intros l o. destruct (given_value l o) as [s|] eqn:G; cbn [is_some].
  - split; [intros _|reflexivity]. apply given_some in G. destruct G as (b & a & E & _). exists s. rewrite E. apply in_or_app. right. left. reflexivity.
  - apply given_none in G. split; [discriminate|]. intros (s & Is). exfalso. apply (G s Is).
Qed.

(** the declarations of the model agree with the table *)
Lemma variable_declared : forall c o v, variable_for c o v -> exists d, declared c o = Some d /\ d_variable d = Some v.
Proof.
  intros c o v H.
  destruct H as [c H|c H|c H|c H|c H| | | |c H|c H|c H| | | | | |]; cbn [In] in H || idtac;
    repeat match goal with X : _ \/ _ |- _ => destruct X as [<-|X] | X : False |- _ => destruct X end;
    (eexists; split; [reflexivity|reflexivity]).
Qed.
Lemma declared_variable : forall c o d v, declared c o = Some d -> d_variable d = Some v -> variable_for c o v.
Proof.
  intros c o d v D V.
  destruct c; destruct o; cbn [declared oidc_options input_options global_options] in D; try discriminate; injection D as <-;
    cbn [d_variable from_env plain needed] in V; try discriminate; injection V as <-; constructor; cbn [In]; auto 8.
Qed.
Lemma declared_fallback : forall c o d, declared c o = Some d -> d_fallback d = standard c o.
Proof.
  intros c o d D.
  destruct c; destruct o; cbn [declared oidc_options input_options global_options] in D; try discriminate; injection D as <-; reflexivity.
Qed.
Lemma undeclared_standard : forall c o, declared c o = None -> standard c o = None.
Proof. intros c o D. destruct c; destruct o; try reflexivity; discriminate. Qed.
Lemma declared_iff : forall c o, is_some (declared c o) = true <-> options_of c o.
Proof.
  intros c o. destruct c; destruct o; cbn; split; intros H; try reflexivity; try discriminate; auto 8; exfalso; intuition discriminate.
Qed.
Lemma accepts_flag_iff : forall c f, accepts_flag c f = true <-> flags_of c f.
Proof.
  intros c f. destruct c; destruct f; cbn; split; intros H; try reflexivity; try discriminate; auto 8; exfalso; intuition discriminate.
Qed.
Lemma declared_required : forall c o, (exists d, declared c o = Some d /\ d_required d = true) <-> In o (required_options c).
Proof.
  intros c o. split.
  - intros (d & D & R). destruct c; destruct o; cbn [declared oidc_options input_options global_options] in D; try discriminate; injection D as <-;
      cbn [d_required from_env plain needed] in R; try discriminate; cbn [required_options In]; auto.
  - destruct c; cbn [required_options In]; intros H; repeat match goal with X : _ \/ _ |- _ => destruct X as [<-|X] | X : False |- _ => destruct X end;
      (eexists; split; [reflexivity|reflexivity]).
Qed.
Lemma all_opts_all : forall o, In o all_opts.
Proof. intros o. destruct o; cbn; auto 30. Qed.

Lemma value_has : forall environ l o, has_value environ l o (value environ l o).
Proof.
  intros environ l o. unfold value. destruct (given_value l o) as [s|] eqn:G; [constructor; apply given_some; assumption|].
  apply given_none in G. destruct (declared (ln_command l) o) as [d|] eqn:D.
  - unfold default_value. destruct (d_variable d) as [v|] eqn:V.
    + pose proof (declared_variable _ _ _ _ D V) as Vf. destruct (environ v) as [s|] eqn:E; [eapply Val_variable; eassumption|].
      rewrite (declared_fallback _ _ _ D). apply Val_default; [assumption|]. intros v' Vf'.
      apply variable_declared in Vf'. destruct Vf' as (d' & D' & V'). assert (d' = d) by congruence. subst d'. congruence.
    + rewrite (declared_fallback _ _ _ D). apply Val_default; [assumption|]. intros v' Vf'.
      apply variable_declared in Vf'. destruct Vf' as (d' & D' & V'). congruence.
  - rewrite <- (undeclared_standard _ _ D). apply Val_default; [assumption|]. intros v' Vf'.
    apply variable_declared in Vf'. destruct Vf' as (d' & D' & V'). congruence.
Qed.
Lemma last_given_unique : forall l o s s', last_given l o s -> last_given l o s' -> s = s'.
Proof. intros l o s s' H H'. apply given_some in H. apply given_some in H'. congruence. Qed.
Lemma last_not : forall l o s, last_given l o s -> ~ not_given l o.
Proof. intros l o s H H'. apply given_some in H. apply given_none in H'. congruence. Qed.
Lemma variable_unique : forall c o v v', variable_for c o v -> variable_for c o v' -> v = v'.
Proof. intros c o v v' H H'. apply variable_declared in H. apply variable_declared in H'. destruct H as (d & D & V), H' as (d' & D' & V'). congruence. Qed.
(** an option has one value *)
Lemma has_value_unique : forall environ l o v v', has_value environ l o v -> has_value environ l o v' -> v = v'.
Proof.
  intros environ l o v v' H H'.
  destruct H as [s L|x s Ng Vf E|Ng E], H' as [s' L'|x' s' Ng' Vf' E'|Ng' E']; try (exfalso; eapply last_not; eassumption).
  - f_equal. eapply last_given_unique; eassumption.
  - rewrite (variable_unique _ _ _ _ Vf Vf') in E. congruence.
  - rewrite (E' _ Vf) in E. discriminate.
  - rewrite (E _ Vf') in E'. discriminate.
  - reflexivity.
Qed.

(** ** C86 *)

(** the flags *)
Lemma well_formed_iff : forall to_int l,
  well_formed to_int l <->
  conflicting l = false /\ unknown_option l = false /\ missing_option l = false /\
  accepts_positional (ln_command l) (length (ln_positional l)) = true /\
  (exists n, match given_value l O_rekor_version with
             | Some s => match to_int s with Some n => Ok (Some n) | None => invalid_arguments end
             | None => Ok None
             end = Ok n) /\
  existsb (bad_value to_int) (ln_options l) = false.
Proof.
  intros to_int l. unfold well_formed.
  assert (A1 : (forall o s, In (o, s) (ln_options l) -> options_of (ln_command l) o) <->
               existsb (fun x => negb (is_some (declared (ln_command l) (fst x)))) (ln_options l) = false).
  { split.
    - intros H. apply not_true_is_false. intros K. apply existsb_exists in K. destruct K as ([o s] & Is & K). cbn [fst] in K.
      apply H in Is. apply declared_iff in Is. rewrite Is in K. discriminate.
    - intros H o s Is. apply declared_iff. destruct (is_some (declared (ln_command l) o)) eqn:D; [reflexivity|]. exfalso.
      rewrite <- not_true_iff_false in H. apply H. apply existsb_exists. exists (o, s). split; [assumption|]. cbn [fst]. rewrite D. reflexivity. }
  assert (A2 : (forall f, In f (ln_flags l) -> flags_of (ln_command l) f) <->
               existsb (fun f => negb (accepts_flag (ln_command l) f)) (ln_flags l) = false).
  { split.
    - intros H. apply not_true_is_false. intros K. apply existsb_exists in K. destruct K as (f & Is & K).
      apply H in Is. apply accepts_flag_iff in Is. rewrite Is in K. discriminate.
    - intros H f Is. apply accepts_flag_iff. destruct (accepts_flag (ln_command l) f) eqn:D; [reflexivity|]. exfalso.
      rewrite <- not_true_iff_false in H. apply H. apply existsb_exists. exists f. split; [assumption|]. rewrite D. reflexivity. }
  assert (A3 : (ln_upgrade_version l = true \/ ln_in_place l = true -> ln_command l = C_fix_bundle) <->
               match ln_command l with C_fix_bundle => false | _ => ln_upgrade_version l || ln_in_place l end = false).
  { destruct (ln_upgrade_version l), (ln_in_place l); destruct (ln_command l); cbn; split; intros H; try reflexivity; try discriminate; auto;
      try (exfalso; assert (X := H (or_introl eq_refl)); discriminate); try (exfalso; assert (X := H (or_intror eq_refl)); discriminate);
      intros [?|?]; discriminate. }
  assert (A4 : (forall o, In o (required_options (ln_command l)) -> mentioned l o) <-> missing_option l = false).
  { unfold missing_option. split.
    - intros H. apply not_true_is_false. intros K. apply existsb_exists in K. destruct K as (o & _ & K).
      destruct (declared (ln_command l) o) as [d|] eqn:D; [|discriminate]. apply andb_true_iff in K. destruct K as [R G].
      assert (Rq : In o (required_options (ln_command l))) by (apply declared_required; eauto). apply H, given_mentioned in Rq. rewrite Rq in G. discriminate.
    - intros H o Rq. apply given_mentioned. apply declared_required in Rq. destruct Rq as (d & D & R).
      destruct (is_some (given_value l o)) eqn:G; [reflexivity|]. exfalso. rewrite <- not_true_iff_false in H. apply H. apply existsb_exists.
      exists o. split; [apply all_opts_all|]. rewrite D, R, G. reflexivity. }
  assert (A5 : (~ (In F_staging (ln_flags l) /\ mentioned l O_instance) /\ ~ (In F_staging (ln_flags l) /\ mentioned l O_trust_config) /\
                ~ (mentioned l O_instance /\ mentioned l O_trust_config)) <-> conflicting l = false).
  { unfold conflicting. rewrite <- !given_mentioned.
    assert (Fs : In F_staging (ln_flags l) <-> existsb (flag_eqb F_staging) (ln_flags l) = true).
    { rewrite existsb_exists. split; [intros Is; exists F_staging; auto|]. intros (f & Is & Q). apply flag_eqb_spec in Q. subst. assumption. }
    rewrite Fs. cbv zeta. destruct (existsb (flag_eqb F_staging) (ln_flags l)), (is_some (given_value l O_instance)), (is_some (given_value l O_trust_config)); cbn; (split; [intros (X1 & X2 & X3); try reflexivity; exfalso; auto|intros Q; try discriminate Q; repeat split; intros [Y Y2]; discriminate]). }
  assert (A6 : match ln_command l with
    | C_sign | C_attest | C_verify_identity | C_verify_github => ln_positional l <> nil
    | C_trust_instance => exists root, ln_positional l = [root]
    | _ => ln_positional l = nil
    end <-> accepts_positional (ln_command l) (length (ln_positional l)) = true).
  { destruct (ln_positional l) as [|p [|q ps]]; destruct (ln_command l); cbn; split; intros H; try reflexivity; try discriminate; auto;
      try contradiction; try (destruct H as (? & H); discriminate); eauto. }
  assert (A8 : ((forall s, In (O_rekor_version, s) (ln_options l) -> exists n, to_int s = Some n) /\
      (forall s, In (O_predicate_type, s) (ln_options l) -> s = s2l "https://slsa.dev/provenance/v0.2" \/ s = s2l "https://slsa.dev/provenance/v1")) <->
    existsb (bad_value to_int) (ln_options l) = false).
  { change (s2l "https://slsa.dev/provenance/v0.2") with SLSA_V0_2. change (s2l "https://slsa.dev/provenance/v1") with SLSA_V1_0.
    generalize (ln_options l). intros os. split.
    - intros [H1 H2]. apply not_true_is_false. intros K. apply existsb_exists in K. destruct K as ([o s] & Is & K). unfold bad_value in K. cbn [fst snd] in K.
      destruct o; try discriminate K.
      + destruct (H1 s Is) as (n & E). rewrite E in K. discriminate.
      + apply negb_true_iff, orb_false_iff in K. destruct K as [K1 K2]. destruct (H2 s Is) as [E|E]; apply str_eqb_spec in E; congruence.
    - intros K. assert (X : forall x, In x os -> bad_value to_int x = false).
      { intros x Ix. apply not_true_is_false. intros B. rewrite <- not_true_iff_false in K. apply K. apply existsb_exists. eauto. }
      split; intros s Is; apply X in Is; unfold bad_value in Is; cbn [fst snd] in Is; apply negb_false_iff in Is.
      + destruct (to_int s) as [n|]; [eauto|discriminate].
      + apply orb_true_iff in Is. rewrite !str_eqb_spec in Is. assumption. }
  assert (A7 : (forall s, In (O_rekor_version, s) (ln_options l) -> exists n, to_int s = Some n) ->
    (exists n, match given_value l O_rekor_version with
             | Some s => match to_int s with Some n => Ok (Some n) | None => invalid_arguments end
             | None => Ok None
             end = Ok n)).
  { intros H. destruct (given_value l O_rekor_version) as [s|] eqn:G; [|eauto].
    apply given_some in G. destruct G as (b & a & E & _). destruct (H s) as (n & ->); [rewrite E; apply in_or_app; right; left; reflexivity|]. eauto. }
  assert (A9 := proj2 A8). rewrite A1, A2, A3, A4, A6, <- A8, <- A5. unfold unknown_option. rewrite !orb_false_iff. tauto.
Qed.

Lemma parse_iff : forall lo to_int environ l, unicode_lower lo ->
  ((exists ns, parse_line lo to_int environ l = Ok ns) <-> readable_variables environ /\ well_formed to_int l) /\
  (readable_variables environ -> ~ well_formed to_int l -> parse_line lo to_int environ l = Raise (ESystemExit 2)) /\
  (~ readable_variables environ -> parse_line lo to_int environ l = Raise EValue).
Proof.
  intros lo to_int environ l U. rewrite well_formed_iff. unfold parse_line.
  assert (Rv : (exists f, parse_flags lo environ (ln_flags l) = Ok f) <-> readable_variables environ).
  { split.
    - intros (f & P) g v E. destruct (parse_flags lo environ (ln_flags l)) as [f'|e] eqn:Pf; [|discriminate].
      destruct (boolify_env lo (Some v)) as [[|]|e] eqn:B.
      + apply (C63_true_iff lo U) in B. destruct B as (v' & Q & Y). left. congruence.
      + apply (C63_false_iff lo U) in B. destruct B as [B|(v' & Q & Y)]; [discriminate|right; congruence].
      + exfalso. assert (X : exists e, parse_flags lo environ (ln_flags l) = Raise e).
        { apply (C63_bad_value_iff lo U). exists g, v. split; [assumption|]. split; intros Y.
          - assert (boolify_env lo (Some v) = Ok true) by (apply (C63_true_iff lo U); eauto). congruence.
          - assert (boolify_env lo (Some v) = Ok false) by (apply (C63_false_iff lo U); eauto). congruence. }
        destruct X as (x & X). congruence.
    - intros H. destruct (parse_flags lo environ (ln_flags l)) as [f|e] eqn:Pf; [eauto|]. exfalso.
      assert (X : exists e, parse_flags lo environ (ln_flags l) = Raise e) by eauto. apply (C63_bad_value_iff lo U) in X.
      destruct X as (f & v & E & Y & No). destruct (H f v E); contradiction. }
  assert (Re : forall e, parse_flags lo environ (ln_flags l) = Raise e -> e = EValue).
  { intros e. unfold parse_flags. destruct (read_defaults lo environ flags_read nil) as [d|x] eqn:R; [discriminate|]. cbn [bind]. intros Q. injection Q as <-.
    revert R. generalize (@nil (flag * bool)). induction flags_read as [|f fs IH]; intros acc R; [discriminate|]. cbn [read_defaults] in R.
    apply bind_raise_inv in R. destruct R as [R|(b & _ & R)]; [|eapply IH; eassumption].
    unfold boolify_env in R. destruct (environ (variable_of f)); [|discriminate]. destruct (existsb _ TRUE_WORDS); [discriminate|]. destruct (existsb _ FALSE_WORDS); congruence. }
  destruct (parse_flags lo environ (ln_flags l)) as [f|e] eqn:Pf.
  - assert (R : readable_variables environ) by (apply Rv; eauto). cbn [bind].
    destruct (conflicting l); [cbn; intuition (try discriminate); destruct H as (? & ?); discriminate|].
    destruct (unknown_option l); [cbn; intuition (try discriminate); destruct H as (? & ?); discriminate|].
    destruct (missing_option l); [cbn; intuition (try discriminate); destruct H as (? & ?); discriminate|].
    destruct (accepts_positional _ _); [|cbn; intuition (try discriminate); destruct H as (? & ?); discriminate].
    cbn [orb negb raise_if bind].
    destruct (match given_value l O_rekor_version with Some s => match to_int s with Some n => Ok (Some n) | None => invalid_arguments end | None => Ok None end)
      as [n|e] eqn:Rk; cbn [bind].
    + destruct (existsb (bad_value to_int) (ln_options l)); cbn [raise_if bind].
      * split; [|split; [reflexivity|intros Nr; contradiction]]. split; [intros (ns & Q); discriminate|]. intros (_ & _ & _ & _ & _ & _ & Q). discriminate.
      * split; [|split; [|intros Nr; contradiction]]; [|intros _ Q; exfalso; apply Q; repeat split; eauto]. split; [intros _; repeat split; eauto|]. eauto.
    + assert (E2 : e = ESystemExit 2).
      { destruct (given_value l O_rekor_version) as [s|]; [|discriminate]. destruct (to_int s); [discriminate|]. unfold invalid_arguments in Rk. congruence. }
      subst e. split; [|split; [reflexivity|intros Nr; contradiction]]. split; [intros (ns & Q); discriminate|]. intros (_ & _ & _ & _ & _ & (n & Q) & _). discriminate.
  - cbn [bind]. assert (Nr : ~ readable_variables environ) by (intros R; apply Rv in R; destruct R as (f & Q); discriminate).
    split; [|split; [intros R; contradiction|intros _; rewrite (Re e eq_refl); reflexivity]].
    split; [intros (ns & Q); discriminate|]. intros (R & _). contradiction.
Qed.

(** what the arguments are after parsing *)
Lemma parsed : forall lo to_int environ l ns, unicode_lower lo -> parse_line lo to_int environ l = Ok ns ->
  ns_command ns = ln_command l /\ (forall o, ns_value ns o = value environ l o) /\ (forall f, on (switched_on environ l f) (ns_flag ns f)) /\
  (forall n, ns_rekor_version ns = Some n <-> exists s, last_given l O_rekor_version s /\ to_int s = Some n) /\
  ns_upgrade_version ns = ln_upgrade_version l /\ ns_in_place ns = ln_in_place l /\ ns_verbose ns = ln_verbose l /\ ns_positional ns = ln_positional l.
Proof.
  intros lo to_int environ l ns U H. unfold parse_line in H. inv_bind H. inv_bind H. inv_bind H. inv_bind H. injection H as <-.
  cbn [ns_command ns_value ns_flag ns_rekor_version ns_upgrade_version ns_in_place ns_verbose ns_positional].
  split; [reflexivity|]. split; [reflexivity|]. split; [intros f; apply (C63_options lo U _ _ _ Ha)|].
  split; [|repeat split].
  intros n. destruct (given_value l O_rekor_version) as [s|] eqn:G.
  - pose proof G as L. apply given_some in L. destruct (to_int s) as [m|] eqn:Ti; [|discriminate]. injection Ha1 as <-. split.
    + intros Q. injection Q as <-. eauto.
    + intros (s' & L' & Q). assert (s' = s) by (eapply last_given_unique; eassumption). subst s'. congruence.
  - injection Ha1 as <-. split; [discriminate|]. intros (s & L & _). apply given_some in L. congruence.
Qed.
Lemma path_value_ns : forall environ l ns o, (forall o, ns_value ns o = value environ l o) -> path_value environ l o (ns_path ns o).
Proof. intros environ l ns o V. exists (value environ l o). split; [apply value_has|]. unfold ns_path. rewrite V. reflexivity. Qed.
Lemma has_value_ns : forall environ l ns o, (forall o, ns_value ns o = value environ l o) -> has_value environ l o (ns_value ns o).
Proof. intros environ l ns o V. rewrite V. apply value_has. Qed.
Lemma verbose_on : forall n, on (n <> 0) (Nat.leb 1 n).
Proof. intros n. unfold on. rewrite Nat.leb_le. lia. Qed.

Section Parsed.
Context (lo : N -> str) (to_int : str -> option Z) (environ : str -> option str) (l : Line) (ns : Namespace).
Hypothesis U : unicode_lower lo.
Hypothesis P : parse_line lo to_int environ l = Ok ns.

Lemma parsed_verify : says_verify environ l (verify_args ns).
Proof.
  destruct (parsed _ _ _ _ _ U P) as (_ & V & F & _ & _ & _ & Vb & Ps). unfold says_verify, verify_args.
  cbn [va_inputs va_cert va_sig va_bundle va_offline va_trust_config va_instance va_staging va_verbose]. rewrite Vb.
  repeat split; auto using path_value_ns, has_value_ns; try apply F; apply verbose_on.
Qed.
Lemma parsed_github : says_github environ l (github_args ns).
Proof.
  destruct (parsed _ _ _ _ _ U P) as (_ & V & _). unfold says_github, github_args.
  cbn [gh_identity gh_trigger gh_sha gh_name gh_repository gh_ref]. repeat split; apply has_value_ns, V.
Qed.
Lemma parsed_client_id : In (ln_command l) [C_sign; C_attest; C_get_identity_token] -> has_value environ l O_client_id (Some (ns_str ns O_client_id)).
Proof.
  intros C. destruct (parsed _ _ _ _ _ U P) as (_ & V & _). pose proof (value_has environ l O_client_id) as H. unfold ns_str. rewrite V.
  remember (value environ l O_client_id) as v eqn:Ev. destruct H as [s L|x s Ng Vf E|Ng E]; cbn [given].
  - constructor. assumption.
  - eapply Val_variable; eassumption.
  - assert (Q : standard (ln_command l) O_client_id = Some (s2l "sigstore")) by (cbn [In] in C; destruct C as [<-|[<-|[<-|[]]]]; reflexivity).
    rewrite Q. cbn [given]. rewrite <- Q. apply Val_default; assumption.
Qed.
Lemma parsed_common : In (ln_command l) [C_sign; C_attest; C_get_identity_token] -> says_common to_int environ l (common_args ns).
Proof.
  intros C. pose proof (parsed_client_id C) as Ci. destruct (parsed _ _ _ _ _ U P) as (_ & V & F & Rv & _ & _ & Vb & Ps). unfold says_common, common_args.
  cbn [ca_files ca_overwrite ca_identity_token ca_client_id ca_client_secret ca_disable_ambient ca_issuer ca_force_oob ca_rekor_version ca_trust_config ca_instance
       ca_staging ca_verbose]. rewrite Vb, Ps.
  repeat split; auto using path_value_ns, has_value_ns; try apply F; try apply verbose_on; apply Rv.
Qed.
Lemma parsed_sign : ln_command l = C_sign -> says_sign to_int environ l (sign_args ns).
Proof.
  intros C. split; [apply parsed_common; rewrite C; cbn; auto|]. destruct (parsed _ _ _ _ _ U P) as (_ & V & F & _).
  unfold sign_args. cbn [sa_signature sa_certificate sa_bundle sa_output_directory sa_no_default_files].
  repeat split; auto using path_value_ns; apply F.
Qed.
Lemma parsed_required : forall o, In o (required_options (ln_command l)) -> exists s, last_given l o s /\ value environ l o = Some s.
Proof.
  intros o R. destruct (proj1 (parse_iff lo to_int environ l U)) as [H _]. destruct (H (ex_intro _ ns P)) as (_ & W).
  destruct W as (_ & _ & _ & Rq & _). apply Rq, given_mentioned in R. unfold value. destruct (given_value l o) as [s|] eqn:G; [|discriminate].
  exists s. split; [apply given_some; assumption|reflexivity].
Qed.
Lemma parsed_attest : ln_command l = C_attest -> says_attest to_int environ l (attest_args ns).
Proof.
  intros C. split; [apply parsed_common; rewrite C; cbn; auto|]. destruct (parsed _ _ _ _ _ U P) as (_ & V & F & _).
  unfold attest_args. cbn [aa_predicate aa_predicate_type aa_bundle]. repeat split; auto using path_value_ns.
  - destruct (parsed_required O_predicate) as (s & L & E); [rewrite C; cbn; auto|]. unfold ns_path. rewrite V, E. exists (Some s). split; [constructor; assumption|reflexivity].
  - destruct (parsed_required O_predicate_type) as (s & L & E); [rewrite C; cbn; auto|]. unfold ns_str. rewrite V, E. constructor. assumption.
Qed.
Lemma parsed_last : forall o s, In o (required_options (ln_command l)) -> last_given l o s -> ns_str ns o = s.
Proof.
  intros o s R L. destruct (parsed _ _ _ _ _ U P) as (_ & V & _). destruct (parsed_required o R) as (s' & L' & E).
  unfold ns_str. rewrite V, E. cbn [given]. eapply last_given_unique; eassumption.
Qed.
End Parsed.

(** the arguments that a line says are unique *)
Lemma on_unique : forall P b b', on P b -> on P b' -> b = b'.
Proof. intros P b b' H H'. unfold on in *. destruct b, b'; try reflexivity; exfalso; intuition discriminate. Qed.
Lemma path_value_unique : forall environ l o p p', path_value environ l o p -> path_value environ l o p' -> p = p'.
Proof. intros environ l o p p' (v & H & ->) (v' & H' & ->). rewrite (has_value_unique _ _ _ _ _ H H'). reflexivity. Qed.
Lemma says_verify_unique : forall environ l a a', says_verify environ l a -> says_verify environ l a' -> a = a'.
Proof.
  intros environ l [x1 x2 x3 x4 x5 x6 x7 x8 x9] [y1 y2 y3 y4 y5 y6 y7 y8 y9] H H'. unfold says_verify in *. cbn [va_inputs va_cert va_sig va_bundle va_offline va_trust_config va_instance va_staging va_verbose] in *.
  destruct H as (H1 & H2 & H3 & H4 & H5 & H6 & H7 & H8 & H9), H' as (K1 & K2 & K3 & K4 & K5 & K6 & K7 & K8 & K9).
  f_equal; eauto using path_value_unique, has_value_unique, on_unique. congruence.
Qed.
Lemma says_github_unique : forall environ l a a', says_github environ l a -> says_github environ l a' -> a = a'.
Proof.
  intros environ l [x1 x2 x3 x4 x5 x6] [y1 y2 y3 y4 y5 y6] H H'. unfold says_github in *. cbn [gh_identity gh_trigger gh_sha gh_name gh_repository gh_ref] in *.
  destruct H as (H1 & H2 & H3 & H4 & H5 & H6), H' as (K1 & K2 & K3 & K4 & K5 & K6).
  f_equal; eauto using has_value_unique.
Qed.

(** ** C85: the exit status *)

(** Exit status 0 means that the command ended normally: nothing in the library or the commands ends the
    process with that status (Outcomes.v), provided that the third-party libraries do not end it
    ([calm_machine] in Calm.v). *)
Lemma status_iff : forall r, r <> Raise (ESystemExit 0) -> (exit_status r = 0 <-> r = Ok tt).
Proof.
  intros r N0. destruct r as [[]|e]; cbn [exit_status]; [split; reflexivity|]. split; [|discriminate].
  destruct e; try discriminate. intros ->. exfalso. apply N0. reflexivity.
Qed.
Lemma status_calm : forall mc environ l t0 h0 sched t h out r,
  calm_machine mc -> main mc environ l t0 h0 sched t h out r -> (exit_status r = 0 <-> r = Ok tt).
Proof.
  intros mc environ l t0 h0 sched t h out r C M. apply status_iff. pose proof (main_ends _ _ _ _ _ _ _ _ _ _ C M) as E.
  intros ->. cbn in E. destruct E; discriminate.
Qed.
Lemma handler_iff : forall vb r, main_handler vb r = Ok tt <-> r = Ok tt.
Proof.
  intros vb r. unfold main_handler, try_except, log_and_exit. destruct r as [[]|e]; [tauto|].
  split; [|discriminate]. destruct (is_sigstore_error e); [destruct vb|]; discriminate.
Qed.

Theorem C85_verify_identity : forall mc environ l t0 h0 sched t h out r,
  main mc environ l t0 h0 sched t h out r -> ln_command l = C_verify_identity -> unicode_lower (mc_lower mc) -> calm_machine mc ->
  (exit_status r = 0 <->
   readable_variables environ /\ well_formed (mc_int mc) l /\
   exists a identity issuer, says_verify environ l a /\ last_given l O_cert_identity identity /\ last_given l O_cert_issuer issuer /\
     every_input_verified (mc_env mc) (mc_ps mc) (world_at (mc_tools mc) t0) a show_decoded (P_identity identity (Some issuer))) /\
  t = t0 /\ h = h0.
Proof.
  intros mc environ l t0 h0 sched t h out r M C U N0. rewrite (status_calm _ _ _ _ _ _ _ _ _ _ N0 M). clear N0. destruct M as [e E|ns sched t h out r P R].
  - split; [|split; reflexivity]. split; [discriminate|]. intros (Rv & W & _). exfalso.
    destruct (proj1 (parse_iff (mc_lower mc) (mc_int mc) environ l U)) as [_ H]. destruct (H (conj Rv W)) as (ns & Q). congruence.
  - assert (Cn : ns_command ns = C_verify_identity) by (destruct (parsed _ _ _ _ _ U P) as (Q & _); congruence).
    destruct R as [sched t h lines r Q|sched t h lines r Q|lines r Q Rn|lines r Q|r Q|t s r Q|t s r Q|t text r Q]; try congruence.
    split; [|split; reflexivity]. rewrite handler_iff. rewrite (surjective_pairing (verify_identity _ _ _ _ _ _)) in Rn. injection Rn as _ Rn. rewrite <- Rn.
    rewrite C56_verify_identity_iff.
    destruct (parsed_required _ _ _ _ _ U P O_cert_identity) as (i & Li & _); [rewrite C; cbn; auto|].
    destruct (parsed_required _ _ _ _ _ U P O_cert_issuer) as (x & Lx & _); [rewrite C; cbn; auto|].
    rewrite (parsed_last _ _ _ _ _ U P O_cert_identity i) by (try assumption; rewrite C; cbn; auto).
    rewrite (parsed_last _ _ _ _ _ U P O_cert_issuer x) by (try assumption; rewrite C; cbn; auto).
    split.
    + intros H. destruct (proj1 (parse_iff (mc_lower mc) (mc_int mc) environ l U)) as [W _]. destruct (W (ex_intro _ ns P)) as (Rv & Wf).
      split; [assumption|]. split; [assumption|]. exists (verify_args ns), i, x. split; [eapply parsed_verify; eassumption|]. repeat split; assumption.
    + intros (_ & _ & a & i' & x' & Sa & Li' & Lx' & H). rewrite (last_given_unique _ _ _ _ Li Li'), (last_given_unique _ _ _ _ Lx Lx').
      rewrite (says_verify_unique _ _ _ _ (parsed_verify _ _ _ _ _ U P) Sa). assumption.
Qed.

Theorem C85_verify_github : forall mc environ l t0 h0 sched t h out r,
  main mc environ l t0 h0 sched t h out r -> ln_command l = C_verify_github -> unicode_lower (mc_lower mc) -> calm_machine mc ->
  (exit_status r = 0 <->
   readable_variables environ /\ well_formed (mc_int mc) l /\
   exists a g, says_verify environ l a /\ says_github environ l g /\
     ((exists s, gh_identity g = Some s /\ s <> nil) \/ (exists s, gh_repository g = Some s /\ s <> nil)) /\
     every_input_verified (mc_env mc) (mc_ps mc) (world_at (mc_tools mc) t0) a show_repr (github_policy g)) /\
  t = t0 /\ h = h0.
Proof.
  intros mc environ l t0 h0 sched t h out r M C U N0. rewrite (status_calm _ _ _ _ _ _ _ _ _ _ N0 M). clear N0. destruct M as [e E|ns sched t h out r P R].
  - split; [|split; reflexivity]. split; [discriminate|]. intros (Rv & W & _). exfalso.
    destruct (proj1 (parse_iff (mc_lower mc) (mc_int mc) environ l U)) as [_ H]. destruct (H (conj Rv W)) as (ns & Q). congruence.
  - assert (Cn : ns_command ns = C_verify_github) by (destruct (parsed _ _ _ _ _ U P) as (Q & _); congruence).
    destruct R as [sched t h lines r Q|sched t h lines r Q|lines r Q|lines r Q Rn|r Q|t s r Q|t s r Q|t text r Q]; try congruence.
    split; [|split; reflexivity]. rewrite handler_iff. rewrite (surjective_pairing (verify_github _ _ _ _ _)) in Rn. injection Rn as _ Rn. rewrite <- Rn.
    rewrite C56_verify_github_iff. split.
    + intros H. destruct (proj1 (parse_iff (mc_lower mc) (mc_int mc) environ l U)) as [W _]. destruct (W (ex_intro _ ns P)) as (Rv & Wf).
      split; [assumption|]. split; [assumption|]. exists (verify_args ns), (github_args ns).
      split; [eapply parsed_verify; eassumption|]. split; [eapply parsed_github; eassumption|]. assumption.
    + intros (_ & _ & a & g & Sa & Sg & H). rewrite (says_verify_unique _ _ _ _ (parsed_verify _ _ _ _ _ U P) Sa).
      rewrite (says_github_unique _ _ _ _ (parsed_github _ _ _ _ _ U P) Sg). assumption.
Qed.

(** Exit status 0 of [sign] and [attest]: every input has been signed and its outputs show the result. *)
Theorem C85_sign : forall mc environ l t0 h0 sched t h out r,
  main mc environ l t0 h0 sched t h out r -> ln_command l = C_sign -> unicode_lower (mc_lower mc) -> calm_machine mc ->
  exit_status r = 0 ->
  exists a lines, says_sign (mc_int mc) environ l a /\ out = map S_output lines /\
    sign_run (mc_tools mc) a t0 h0 sched t h lines (Ok tt) /\
    (own_outputs (mc_tools mc) (ca_files (sa_common a)) (sign_opts a) -> files_left_alone (mc_tools mc) sched (ca_files (sa_common a)) (sign_opts a) ->
     exists h1 s, setup (mc_tools mc) (sa_common a) t0 h0 = (h1, Ok s) /\
       outputs_written (mc_tools mc) s None t0 t (ca_files (sa_common a)) (sign_opts a)).
Proof.
  intros mc environ l t0 h0 sched t h out r M C U N0 S0. apply (status_calm _ _ _ _ _ _ _ _ _ _ N0 M) in S0. clear N0. destruct M as [e E|ns sched t h out r P R]; [discriminate|].
  assert (Cn : ns_command ns = C_sign) by (destruct (parsed _ _ _ _ _ U P) as (Q & _); congruence). apply handler_iff in S0.
  destruct R as [sched t h lines r Q Rn|sched t h lines r Q|lines r Q|lines r Q|r Q|t s r Q|t s r Q|t text r Q]; try congruence.
  subst r. exists (sign_args ns), lines. split; [eapply parsed_sign; eassumption|]. split; [reflexivity|]. split; [assumption|].
  intros Ow La. eapply C61_sign_outputs; eassumption.
Qed.
Theorem C85_attest : forall mc environ l t0 h0 sched t h out r,
  main mc environ l t0 h0 sched t h out r -> ln_command l = C_attest -> unicode_lower (mc_lower mc) -> calm_machine mc ->
  exit_status r = 0 ->
  exists a lines, says_attest (mc_int mc) environ l a /\ out = map S_output lines /\
    attest_run (mc_tools mc) a t0 h0 sched t h lines (Ok tt) /\
    (own_outputs (mc_tools mc) (ca_files (aa_common a)) (attest_opts a) -> files_left_alone (mc_tools mc) sched (ca_files (aa_common a)) (attest_opts a) ->
     exists h1 s j, setup (mc_tools mc) (aa_common a) t0 h0 = (h1, Ok s) /\ good_predicate (mc_tools mc) a t0 j /\
       outputs_written (mc_tools mc) s (Some (aa_predicate_type a, j)) t0 t (ca_files (aa_common a)) (attest_opts a)).
Proof.
  intros mc environ l t0 h0 sched t h out r M C U N0 S0. apply (status_calm _ _ _ _ _ _ _ _ _ _ N0 M) in S0. clear N0. destruct M as [e E|ns sched t h out r P R]; [discriminate|].
  assert (Cn : ns_command ns = C_attest) by (destruct (parsed _ _ _ _ _ U P) as (Q & _); congruence). apply handler_iff in S0.
  destruct R as [sched t h lines r Q|sched t h lines r Q Rn|lines r Q|lines r Q|r Q|t s r Q|t s r Q|t text r Q]; try congruence.
  subst r. exists (attest_args ns), lines. split; [eapply parsed_attest; eassumption|]. split; [reflexivity|]. split; [assumption|].
  intros Ow La. eapply C68_signed; eassumption.
Qed.

(** A wrong command line, or an unreadable variable: nothing is done. *)
Theorem C85_usage : forall mc environ l t0 h0 sched t h out r,
  main mc environ l t0 h0 sched t h out r -> unicode_lower (mc_lower mc) ->
  ~ readable_variables environ \/ ~ well_formed (mc_int mc) l ->
  t = t0 /\ h = h0 /\ out = nil /\ sched = nil /\ exit_status r <> 0 /\
  (readable_variables environ -> exit_status r = 2) /\ (~ readable_variables environ -> exit_status r = 1).
Proof.
  intros mc environ l t0 h0 sched t h out r M U Bad. destruct (parse_iff (mc_lower mc) (mc_int mc) environ l U) as (Pi & P2 & P1).
  destruct M as [e E|ns sched t h out r P R].
  - repeat (split; [reflexivity|]). split.
    + destruct Bad as [B|B]; [rewrite (P1 B) in E; injection E as <-; discriminate|].
      intros S0. assert (Nn : ~ ~ readable_variables environ) by (intros Y; rewrite (P1 Y) in E; injection E as <-; discriminate).
      apply Nn. intros Y. rewrite (P2 Y B) in E. injection E as <-. discriminate.
    + split.
      * intros Y. destruct Bad as [B|B]; [contradiction|]. rewrite (P2 Y B) in E. injection E as <-. reflexivity.
      * intros Y. rewrite (P1 Y) in E. injection E as <-. reflexivity.
  - exfalso. destruct Pi as [Pi _]. destruct (Pi (ex_intro _ ns P)). tauto.
Qed.

(** The other commands. *)
Theorem C85_get_identity_token : forall mc environ l t0 h0 sched t h out r,
  main mc environ l t0 h0 sched t h out r -> ln_command l = C_get_identity_token -> unicode_lower (mc_lower mc) -> calm_machine mc ->
  t = t0 /\ h = h0 /\
  (exit_status r = 0 -> exists a raw, says_common (mc_int mc) environ l a /\ out = [S_text raw] /\
     (constructs_tokens (mc_tools mc) -> chosen_token (mc_tools mc) (without_token a) raw)) /\
  (exit_status r <> 0 -> out = nil).
Proof.
  intros mc environ l t0 h0 sched t h out r M C U N0. rewrite (status_calm _ _ _ _ _ _ _ _ _ _ N0 M). clear N0. destruct M as [e E|ns sched t h out r P R].
  - repeat (split; [reflexivity|]). split; [discriminate|reflexivity].
  - assert (Cn : ns_command ns = C_get_identity_token) by (destruct (parsed _ _ _ _ _ U P) as (Q & _); congruence). rewrite handler_iff.
    destruct R as [sched t h lines r Q|sched t h lines r Q|lines r Q|lines r Q|r Q Rn|t s r Q|t s r Q|t text r Q]; try congruence.
    repeat (split; [reflexivity|]). destruct r as [raw|e]; cbn [bind].
    + split; [|congruence]. intros _. exists (common_args ns), raw. split; [eapply parsed_common; [eassumption|eassumption|rewrite C; cbn; auto]|].
      split; [reflexivity|]. intros Ct. eapply C72_get_identity_token; eassumption.
    + split; [discriminate|reflexivity].
Qed.
Theorem C85_trust_instance : forall mc environ l t0 h0 sched t h out r,
  main mc environ l t0 h0 sched t h out r -> ln_command l = C_trust_instance -> unicode_lower (mc_lower mc) -> calm_machine mc ->
  exit_status r = 0 ->
  exists file url b u m tg f f', ln_positional l = [file] /\ last_given l O_instance url /\
    files_of t0 (locate (loc (mc_tools mc) (path_of file))) = Some b /\ strips_to url u /\ get_dirs (mc_data mc) (mc_cache mc) u = Ok (m, tg) /\
    (not_shipped (mc_embedded mc) u -> tl_refresh (mc_tuf mc) u m tg (Some b) f = (Ok tt, f')).
Proof.
  intros mc environ l t0 h0 sched t h out r M C U N0 S0. apply (status_calm _ _ _ _ _ _ _ _ _ _ N0 M) in S0. clear N0. destruct M as [e E|ns sched t h out r P R]; [discriminate|].
  assert (Cn : ns_command ns = C_trust_instance) by (destruct (parsed _ _ _ _ _ U P) as (Q & _); congruence). apply handler_iff in S0.
  destruct R as [sched t h lines r Q|sched t h lines r Q|lines r Q|lines r Q|r Q|t s r Q Rn|t s r Q|t text r Q]; try congruence. subst r.
  apply C80_root_of_trust in Rn. destruct Rn as (url & b & u & m & tg & f & f' & lst & I & B & St & D & Rf & _).
  destruct (parsed _ _ _ _ _ U P) as (_ & V & _ & _ & _ & _ & _ & Ps).
  destruct (proj1 (parse_iff (mc_lower mc) (mc_int mc) environ l U)) as [W _]. destruct (W (ex_intro _ ns P)) as (_ & Wf).
  destruct Wf as (_ & _ & _ & _ & _ & _ & _ & Pos & _). rewrite C in Pos. destruct Pos as (file & Pos).
  exists file, url, b, u, m, tg, f, f'. split; [assumption|]. rewrite Ps, Pos in B. cbn [hd] in B. rewrite V in I. pose proof (value_has environ l O_instance) as Hv. rewrite I in Hv.
  split.
  - remember (Some url) as v eqn:Ev. destruct Hv as [s' L|x s' Ng Vf E|Ng E]; [injection Ev as ->; assumption| |rewrite C in Ev; discriminate].
    exfalso. rewrite C in Vf. inversion Vf.
  - repeat split; assumption.
Qed.
Theorem C85_update_trust_root : forall mc environ l t0 h0 sched t h out r,
  main mc environ l t0 h0 sched t h out r -> ln_command l = C_update_trust_root -> unicode_lower (mc_lower mc) -> calm_machine mc ->
  exit_status r = 0 -> not_given l O_trust_config ->
  exists n instance staging u dir m tg f f', out = [S_count n] /\ 0 < n /\ has_value environ l O_instance instance /\ on (switched_on environ l F_staging) staging /\
    strips_to (selected_url instance staging) u /\ quote u = Ok dir /\ get_dirs (mc_data mc) (mc_cache mc) u = Ok (m, tg) /\
    tl_refresh (mc_tuf mc) u m tg (mc_embedded mc dir (s2l "root.json")) f = (Ok tt, f').
Proof.
  intros mc environ l t0 h0 sched t h out r M C U N0 S0 Ng. apply (status_calm _ _ _ _ _ _ _ _ _ _ N0 M) in S0. clear N0. destruct M as [e E|ns sched t h out r P R]; [discriminate|].
  assert (Cn : ns_command ns = C_update_trust_root) by (destruct (parsed _ _ _ _ _ U P) as (Q & _); congruence). apply handler_iff in S0.
  destruct R as [sched t h lines r Q|sched t h lines r Q|lines r Q|lines r Q|r Q|t s r Q|t s r Q Rn|t text r Q]; try congruence.
  destruct r as [n|e]; [|discriminate]. destruct (parsed _ _ _ _ _ U P) as (_ & V & F & _).
  assert (Tc : ns_path ns O_trust_config = None).
  { unfold ns_path. rewrite V. unfold value. apply given_none in Ng. rewrite Ng, C. reflexivity. }
  rewrite Tc in Rn. apply C81_updated_means_refreshed in Rn. destruct Rn as (Pn & u & dir & m & tg & f & f' & lst & St & Q' & D & Rf & _).
  exists n, (ns_value ns O_instance), (ns_flag ns F_staging), u, dir, m, tg, f, f'. split; [reflexivity|]. split; [assumption|].
  split; [apply has_value_ns, V|]. split; [apply F|]. repeat split; assumption.
Qed.

(** ** C87: fix-bundle on the file system *)

(** the bundle that fix-bundle is asked to repair, and the log's answer for an index (see C46) *)
Definition stored_bundle (tl : Tools) (t : tree) (p : path) (m : BundleMsg) : Prop :=
  exists raw, files_of t (loc tl p) = Some raw /\ w_parse_bundle (tl_world tl) raw = Ok m.
Definition log_answers (mc : Machine) (url : String.string) (n : Z) (e : LogEntry) : Prop :=
  n <> 0%Z /\ exists resp j, mc_http mc (GET (s2l url ++ s2l "/api/v1/log/entries") [(s2l "logIndex", dec_Z n)]) = Ok resp /\
    succeeded resp /\ r_json resp = Some j /\ from_v1_response (w_rp (tl_world (mc_tools mc))) j = Ok e.
(** the repaired bundle: only a log entry without a checkpoint is replaced *)
Definition repaired (mc : Machine) (url : String.string) (m : BundleMsg) (b : Bundle) : Prop :=
  exists e ip, vm_entries (bm_vm m) = [e] /\ le_proof e = Some ip /\
    ((ip_checkpoint ip <> None /\ make_bundle (mc_env mc) m = Ok b) \/
     (ip_checkpoint ip = None /\ exists e', log_answers mc url (le_log_index e) e' /\ make_bundle (mc_env mc) (with_entry m e') = Ok b)).
(** ... in the newest format *)
Definition upgraded (env : Env) (b0 b : Bundle) : Prop :=
  reads_back env (b_cert b0) ->
  bm_media (b_inner b) = s2l "application/vnd.dev.sigstore.bundle.v0.3+json" /\ b_cert b = b_cert b0 /\ b_entry b = b_entry b0 /\
  bundle_envelope b = bundle_envelope b0 /\ bundle_signature b = bundle_signature b0.

Lemma log_answers_iff : forall mc url n e,
  entries_get (w_rp (tl_world (mc_tools mc))) (mc_http mc) (s2l url) None (Some n) = Ok e <-> log_answers mc url n e.
Proof.
  intros mc url n e. unfold log_answers. destruct (Z.eq_dec n 0) as [->|Nz].
  - rewrite C47_every_index_refuted. split; [discriminate|]. intros [H _]. contradiction.
  - rewrite (C47_by_index _ _ _ _ Nz). unfold entries_at. split.
    + intros H. split; [assumption|]. apply bind_ok_inv in H. destruct H as (resp & Hr & H). exists resp.
      destruct ((400 <=? r_status resp)%Z && (r_status resp <? 600)%Z) eqn:St; [discriminate|].
      destruct (r_json resp) as [j|]; [|discriminate]. exists j. split; [assumption|]. split; [|split; [reflexivity|assumption]].
      unfold succeeded. intros [X Y]. apply Z.leb_le in X. apply Z.ltb_lt in Y. rewrite X, Y in St. discriminate.
    + intros (_ & resp & j & Hr & Sc & J & F). rewrite Hr. cbn [bind]. unfold succeeded in Sc.
      destruct ((400 <=? r_status resp)%Z && (r_status resp <? 600)%Z) eqn:St.
      * exfalso. apply Sc. apply andb_true_iff in St. destruct St as [X Y]. apply Z.leb_le in X. apply Z.ltb_lt in Y. split; assumption.
      * rewrite J. assumption.
Qed.
Lemma repaired_iff : forall mc url m b,
  fix_bundle (mc_env mc) (fun n => entries_get (w_rp (tl_world (mc_tools mc))) (mc_http mc) (s2l url) None (Some n)) false m = Ok b <-> repaired mc url m b.
Proof.
  intros mc url m b. rewrite C36_repair. unfold repaired. split; intros (e & ip & En & Ip & H); exists e, ip; (split; [assumption|]; split; [assumption|]);
    (destruct H as [H|(Cn & e' & G & H)]; [left; assumption|right; split; [assumption|]; exists e'; split; [apply log_answers_iff; assumption|assumption]]).
Qed.
Lemma upgrade_repairs : forall env get m b, fix_bundle env get true m = Ok b -> exists b0, fix_bundle env get false m = Ok b0.
Proof.
  intros env get m b H. unfold fix_bundle in *. inv_bind H. inv_bind H. inv_bind H. inv_bind H.
  rewrite Ha. cbn [bind]. rewrite Ha0. cbn [bind]. rewrite Ha1. cbn [bind]. rewrite Ha2. cbn [bind]. eauto.
Qed.
Lemma write_whole : forall t q b text, files_of t q = Some b ->
  exists t1, open_w t q = (t1, Ok tt) /\ files_of (write_at t1 q 0 text) q = Some text /\ forall q', q' <> q -> files_of (write_at t1 q 0 text) q' = files_of t q'.
Proof.
  intros t q b text F. unfold files_of in F. destruct (kind t q) as [[c|]|] eqn:K; try discriminate.
  assert (Nq : q <> nil) by (intros ->; discriminate). exists (put t q (Some (N_file nil))). unfold open_w. rewrite K. split; [reflexivity|].
  assert (Kp : kind (put t q (Some (N_file nil))) q = Some (N_file nil)) by (rewrite kind_put, path_eqb_refl; destruct q; [contradiction|reflexivity]).
  unfold write_at. rewrite Kp. cbn [firstn length Nat.sub repeat app]. rewrite skipn_nil, app_nil_r. split; [apply files_put_same; assumption|].
  intros q' N'. rewrite !files_put_other by assumption. reflexivity.
Qed.

(** the log that is asked *)
Definition fix_log (staging : bool) : String.string := if staging then "https://rekor.sigstage.dev"%string else "https://rekor.sigstore.dev"%string.

(** Exit status 0: the bundle is repaired; with [--in-place] the file now holds the result and no
    other file changes, otherwise the result is printed and no file changes. *)
Theorem C87_fixed : forall mc environ l t0 h0 sched t h out r,
  main mc environ l t0 h0 sched t h out r -> ln_command l = C_fix_bundle -> unicode_lower (mc_lower mc) -> calm_machine mc ->
  exit_status r = 0 ->
  exists p m staging b0 b, last_given l O_bundle p /\ stored_bundle (mc_tools mc) t0 (path_of p) m /\
    on (switched_on environ l F_staging) staging /\ repaired mc (fix_log staging) m b0 /\
    (ln_upgrade_version l = false -> b = b0) /\ (ln_upgrade_version l = true -> upgraded (mc_env mc) b0 b) /\
    let text := tl_to_json (mc_tools mc) (b_inner b) in
    (ln_in_place l = true -> out = nil /\ files_of t (loc (mc_tools mc) (path_of p)) = Some text /\
       forall q, q <> loc (mc_tools mc) (path_of p) -> files_of t q = files_of t0 q) /\
    (ln_in_place l = false -> out = [S_bytes (text ++ [x0a])] /\ t = t0).
Proof.
  intros mc environ l t0 h0 sched t h out r M C U N0 S0. apply (status_calm _ _ _ _ _ _ _ _ _ _ N0 M) in S0. clear N0. destruct M as [e E|ns sched t h out r P R]; [discriminate|].
  destruct (parsed _ _ _ _ _ U P) as (Cn & V & F & _ & Up & Ipl & _). rewrite C in Cn. apply handler_iff in S0.
  destruct R as [sched t h lines r Q|sched t h lines r Q|lines r Q|lines r Q|r Q|t s r Q|t s r Q|t text r Q Rn]; try congruence. subst r.
  destruct (parsed_required _ _ _ _ _ U P O_bundle) as (p & L & Vp); [rewrite C; cbn; auto|].
  assert (Np : given (ns_path ns O_bundle) nil = path_of p) by (unfold ns_path; rewrite V, Vp; reflexivity). rewrite Np in Rn.
  unfold fix_bundle_command in Rn.
  destruct (let* raw := file_bytes (world_at (mc_tools mc) t0) (path_of p) in _) as [b|e] eqn:Fx; [|discriminate].
  apply bind_ok_inv in Fx. destruct Fx as (raw & Fb & Fx). apply bind_ok_inv in Fx. destruct Fx as (m & Pm & Fx).
  assert (Fc : files_of t0 (loc (mc_tools mc) (path_of p)) = Some raw).
  { unfold file_bytes, content in Fb. cbn [w_files w_cwd world_at] in Fb. unfold loc. destruct (files_of t0 _); [congruence|discriminate]. }
  set (g := fun n => entries_get (w_rp (tl_world (mc_tools mc))) (mc_http mc) (s2l (fix_log (ns_flag ns F_staging))) None (Some n)).
  assert (Fx' : fix_bundle (mc_env mc) g (ns_upgrade_version ns) m = Ok b) by (unfold g; destruct (ns_flag ns F_staging); exact Fx). clear Fx.
  assert (B0 : exists b0, fix_bundle (mc_env mc) g false m = Ok b0 /\ (ln_upgrade_version l = false -> b = b0) /\ (ln_upgrade_version l = true -> upgraded (mc_env mc) b0 b)).
  { rewrite Up in Fx'. destruct (ln_upgrade_version l).
    - destruct (upgrade_repairs _ _ _ _ Fx') as (b0 & H0). exists b0. split; [assumption|]. split; [discriminate|]. intros _ Rb.
      destruct (C36_upgrade _ _ _ _ _ H0 Rb Fx') as (X1 & X2 & X3 & X4 & X5 & _). repeat split; assumption.
    - exists b. split; [assumption|]. split; [reflexivity|discriminate]. }
  destruct B0 as (b0 & H0 & Bn & Bu). exists p, m, (ns_flag ns F_staging), b0, b. split; [assumption|].
  split; [exists raw; split; assumption|]. split; [apply F|]. split; [apply repaired_iff; exact H0|]. split; [assumption|]. split; [assumption|]. cbv zeta.
  rewrite Ipl in Rn. destruct (ln_in_place l).
  - split; [|discriminate]. intros _. destruct (write_whole _ _ _ (tl_to_json (mc_tools mc) (b_inner b)) Fc) as (t1 & Op & W1 & W2). rewrite Op in Rn.
    injection Rn as <- <-. split; [reflexivity|]. split; assumption.
  - split; [discriminate|]. intros _. injection Rn as <- <-. split; reflexivity.
Qed.
(** Otherwise nothing is printed and no file changes; in any case nothing else happens. *)
Theorem C87_not_fixed : forall mc environ l t0 h0 sched t h out r,
  main mc environ l t0 h0 sched t h out r -> ln_command l = C_fix_bundle -> unicode_lower (mc_lower mc) ->
  h = h0 /\ (r <> Ok tt -> out = nil /\ t = t0).
Proof.
  intros mc environ l t0 h0 sched t h out r M C U. destruct M as [e E|ns sched t h out r P R]; [split; [reflexivity|]; intros _; split; reflexivity|].
  destruct (parsed _ _ _ _ _ U P) as (Cn & V & F & _ & Up & Ipl & _). rewrite C in Cn.
  destruct R as [sched t h lines r Q|sched t h lines r Q|lines r Q|lines r Q|r Q|t s r Q|t s r Q|t text r Q Rn]; try congruence.
  split; [reflexivity|]. rewrite handler_iff. intros Nr. unfold fix_bundle_command in Rn.
  destruct (let* raw := file_bytes (world_at (mc_tools mc) t0) (given (ns_path ns O_bundle) nil) in _) as [b|e] eqn:Fx.
  - apply bind_ok_inv in Fx. destruct Fx as (raw & Fb & _).
    assert (Fc : files_of t0 (loc (mc_tools mc) (given (ns_path ns O_bundle) nil)) = Some raw).
    { unfold file_bytes, content in Fb. cbn [w_files w_cwd world_at] in Fb. unfold loc. destruct (files_of t0 _); [congruence|discriminate]. }
    destruct (ns_in_place ns).
    + destruct (write_whole _ _ _ (tl_to_json (mc_tools mc) (b_inner b)) Fc) as (t1 & Op & _). rewrite Op in Rn. injection Rn as <- <- <-. contradiction.
    + injection Rn as <- <- <-. contradiction.
  - injection Rn as <- <- <-. split; reflexivity.
Qed.
(** A bundle that can be repaired is repaired. *)
Theorem C87_repairable : forall mc environ l t0 h0 sched t h out r p m staging b0,
  main mc environ l t0 h0 sched t h out r -> ln_command l = C_fix_bundle -> unicode_lower (mc_lower mc) ->
  readable_variables environ -> well_formed (mc_int mc) l -> ln_upgrade_version l = false ->
  last_given l O_bundle p -> stored_bundle (mc_tools mc) t0 (path_of p) m -> on (switched_on environ l F_staging) staging ->
  repaired mc (fix_log staging) m b0 -> exit_status r = 0.
Proof.
  intros mc environ l t0 h0 sched t h out r p m staging b0 M C U Rv W Nu L (raw & Fc & Pm) On Rp.
  destruct M as [e E|ns sched t h out r P R].
  - exfalso. destruct (proj1 (parse_iff (mc_lower mc) (mc_int mc) environ l U)) as [_ H]. destruct (H (conj Rv W)) as (ns & Q). congruence.
  - destruct (parsed _ _ _ _ _ U P) as (Cn & V & F & _ & Up & Ipl & _). rewrite C in Cn.
    destruct R as [sched t h lines r Q|sched t h lines r Q|lines r Q|lines r Q|r Q|t s r Q|t s r Q|t text r Q Rn]; try congruence.
    assert (Np : given (ns_path ns O_bundle) nil = path_of p).
    { destruct (parsed_required _ _ _ _ _ U P O_bundle) as (p' & L' & Vp); [rewrite C; cbn; auto|]. unfold ns_path. rewrite V, Vp.
      rewrite (last_given_unique _ _ _ _ L L'). reflexivity. }
    rewrite Np in Rn. unfold fix_bundle_command in Rn.
    assert (Fb : file_bytes (world_at (mc_tools mc) t0) (path_of p) = Ok raw).
    { unfold file_bytes, content. cbn [w_files w_cwd world_at]. unfold loc in Fc. rewrite Fc. reflexivity. }
    rewrite Fb in Rn. cbn [bind] in Rn. change (w_parse_bundle (world_at (mc_tools mc) t0) raw) with (w_parse_bundle (tl_world (mc_tools mc)) raw) in Rn.
    rewrite Pm in Rn. cbn [bind] in Rn. apply repaired_iff in Rp. rewrite (on_unique _ _ _ On (F F_staging)) in Rp. rewrite Up, Nu in Rn.
    change (w_rp (world_at (mc_tools mc) t0)) with (w_rp (tl_world (mc_tools mc))) in Rn.
    assert (Rp' : fix_bundle (mc_env mc) (fun n => entries_get (w_rp (tl_world (mc_tools mc))) (mc_http mc)
        (if ns_flag ns F_staging then REKOR_STAGING else REKOR_PRODUCTION) None (Some n)) false m = Ok b0).
    { destruct (ns_flag ns F_staging); exact Rp. }
    rewrite Rp' in Rn. destruct (ns_in_place ns).
    + destruct (write_whole _ _ _ (tl_to_json (mc_tools mc) (b_inner b0)) Fc) as (t1 & Op & _). rewrite Op in Rn. injection Rn as <- <- <-. reflexivity.
    + injection Rn as <- <- <-. reflexivity.
Qed.

(** ** C86: options and environment variables *)

(** A command line is accepted exactly if it is well formed and the yes/no variables say yes or no;
    the variables of other options cannot make it fail. *)
Theorem C86_accepted_iff : forall mc environ l, unicode_lower (mc_lower mc) ->
  (exists ns, parse_line (mc_lower mc) (mc_int mc) environ l = Ok ns) <-> readable_variables environ /\ well_formed (mc_int mc) l.
Proof. intros mc environ l U. apply (parse_iff (mc_lower mc) (mc_int mc) environ l U). Qed.

(** the environment matters to a command only through its own options *)
Definition same_for (e1 e2 : str -> option str) (l : Line) : Prop :=
  (readable_variables e1 <-> readable_variables e2) /\
  (forall o v, options_of (ln_command l) o -> has_value e1 l o v -> has_value e2 l o v) /\
  (forall f, flags_of (ln_command l) f -> (switched_on e1 l f <-> switched_on e2 l f)).

Lemma same_values : forall e1 e2 l, same_for e1 e2 l -> (forall o s, In (o, s) (ln_options l) -> options_of (ln_command l) o) ->
  forall o, value e1 l o = value e2 l o.
Proof.
  intros e1 e2 l (_ & Sv & _) W o. destruct (declared (ln_command l) o) as [d|] eqn:D.
  - assert (Oo : options_of (ln_command l) o) by (apply declared_iff; rewrite D; reflexivity).
    eapply has_value_unique; [apply (Sv o _ Oo), value_has|apply value_has].
  - unfold value. rewrite D. destruct (given_value l o) as [s|] eqn:G; [|reflexivity]. reflexivity.
Qed.
Lemma runs_same : forall mc ns1 ns2 t0 h0 sched t h out r, runs mc ns1 t0 h0 sched t h out r ->
  ns_command ns2 = ns_command ns1 -> (forall o, ns_value ns2 o = ns_value ns1 o) -> (forall f, flags_of (ns_command ns1) f -> ns_flag ns2 f = ns_flag ns1 f) ->
  ns_rekor_version ns2 = ns_rekor_version ns1 -> ns_upgrade_version ns2 = ns_upgrade_version ns1 -> ns_in_place ns2 = ns_in_place ns1 ->
  ns_verbose ns2 = ns_verbose ns1 -> ns_positional ns2 = ns_positional ns1 -> runs mc ns2 t0 h0 sched t h out r.
Proof.
  intros mc ns1 ns2 t0 h0 sched t h out r R C V F Rv Up Ip Vb Ps.
  destruct R as [sched t h lines r Q Rn|sched t h lines r Q Rn|lines r Q Rn|lines r Q Rn|r Q Rn|t s r Q Rn Ft|t s r Q Rn Ft|t text r Q Rn].
  - assert (E : sign_args ns2 = sign_args ns1).
    { unfold sign_args, common_args, ns_path, ns_str. rewrite !V, Rv, Vb, Ps, !F by (rewrite Q; cbn; auto 8). reflexivity. }
    apply Run_sign; [congruence|]. rewrite E. assumption.
  - assert (E : attest_args ns2 = attest_args ns1).
    { unfold attest_args, common_args, ns_path, ns_str. rewrite !V, Rv, Vb, Ps, !F by (rewrite Q; cbn; auto 8). reflexivity. }
    apply Run_attest; [congruence|]. rewrite E. assumption.
  - assert (E : verify_args ns2 = verify_args ns1).
    { unfold verify_args, ns_path. rewrite !V, Vb, Ps, !F by (rewrite Q; cbn; auto 8). reflexivity. }
    apply Run_verify_identity; [congruence|]. rewrite E. unfold ns_str. rewrite !V. assumption.
  - assert (E : verify_args ns2 = verify_args ns1).
    { unfold verify_args, ns_path. rewrite !V, Vb, Ps, !F by (rewrite Q; cbn; auto 8). reflexivity. }
    apply Run_verify_github; [congruence|]. rewrite E. unfold github_args. rewrite !V. assumption.
  - assert (E : get_identity_token (mc_tools mc) (common_args ns2) t0 = get_identity_token (mc_tools mc) (common_args ns1) t0).
    { unfold get_identity_token, get_identity. cbn [common_args ca_trust_config ca_instance ca_staging ca_disable_ambient ca_client_id ca_issuer ca_client_secret ca_force_oob].
      unfold ns_path, ns_str. rewrite !V, !F by (rewrite Q; cbn; auto 8). reflexivity. }
    apply Run_get_identity_token; [congruence|]. rewrite E. assumption.
  - eapply Run_trust_instance; [congruence| |exact Ft]. rewrite Ps, V. exact Rn.
  - eapply Run_update_trust_root; [congruence| |exact Ft]. unfold ns_path in *. rewrite !V, F by (rewrite Q; cbn; auto). exact Rn.
  - apply Run_fix_bundle; [congruence|]. rewrite Up, Ip, F by (rewrite Q; cbn; auto). unfold ns_path in *. rewrite V. exact Rn.
Qed.
Theorem C86_environment : forall mc e1 e2 l t0 h0 sched t h out r, unicode_lower (mc_lower mc) -> same_for e1 e2 l ->
  main mc e1 l t0 h0 sched t h out r -> main mc e2 l t0 h0 sched t h out r.
Proof.
  intros mc e1 e2 l t0 h0 sched t h out r U Sf M. pose proof Sf as (Sr & _ & Sfl).
  destruct (parse_iff (mc_lower mc) (mc_int mc) e1 l U) as (P1 & P1b & P1c). destruct (parse_iff (mc_lower mc) (mc_int mc) e2 l U) as (P2 & P2b & P2c).
  destruct M as [e E|ns sched t h out r P R].
  - apply Main_usage. destruct (parse_line (mc_lower mc) (mc_int mc) e2 l) as [ns2|x] eqn:Q.
    + exfalso. destruct (proj1 P2 (ex_intro _ ns2 eq_refl)) as (Rv & W). apply Sr in Rv. destruct (proj2 P1 (conj Rv W)) as (ns & K). congruence.
    + (* both fail, for the same reason *)
      assert (Dec : forall a b, parse_line (mc_lower mc) (mc_int mc) a l = Raise b -> b = EValue /\ ~ readable_variables a \/ b = ESystemExit 2 /\ readable_variables a).
      { intros a b Hb. destruct (parse_iff (mc_lower mc) (mc_int mc) a l U) as (A1 & A2 & A3).
        destruct (parse_flags (mc_lower mc) a (ln_flags l)) as [fl|y] eqn:Pf.
        - right. assert (Ra : readable_variables a).
          { intros f v Ev. destruct (boolify_env (mc_lower mc) (Some v)) as [[|]|z] eqn:B.
            - apply (C63_true_iff _ U) in B. destruct B as (v' & X & Y). left. congruence.
            - apply (C63_false_iff _ U) in B. destruct B as [B|(v' & X & Y)]; [discriminate|right; congruence].
            - exfalso. assert (X : exists e, parse_flags (mc_lower mc) a (ln_flags l) = Raise e).
              { apply (C63_bad_value_iff _ U). exists f, v. split; [assumption|]. split; intros Y.
                - assert (boolify_env (mc_lower mc) (Some v) = Ok true) by (apply (C63_true_iff _ U); eauto). congruence.
                - assert (boolify_env (mc_lower mc) (Some v) = Ok false) by (apply (C63_false_iff _ U); eauto). congruence. }
              destruct X. congruence. }
          split; [|assumption]. assert (Nw : ~ well_formed (mc_int mc) l) by (intros W; destruct (proj2 A1 (conj Ra W)) as (n & K); congruence).
          rewrite (A2 Ra Nw) in Hb. congruence.
        - left. assert (Na : ~ readable_variables a).
          { intros Ra. assert (X : exists e, parse_flags (mc_lower mc) a (ln_flags l) = Raise e) by eauto. apply (C63_bad_value_iff _ U) in X.
            destruct X as (f & v & Ev & Y & Nn). destruct (Ra f v Ev); contradiction. }
          split; [|assumption]. rewrite (A3 Na) in Hb. congruence. }
      destruct (Dec _ _ E) as [(-> & N1)|(-> & N1)], (Dec _ _ Q) as [(-> & N2)|(-> & N2)]; try reflexivity; exfalso; tauto.
  - destruct (proj1 P1 (ex_intro _ ns P)) as (Rv & W). pose proof W as (Wo & _). apply Sr in Rv. destruct (proj2 P2 (conj Rv W)) as (ns2 & P').
    destruct (parsed _ _ _ _ _ U P) as (C1 & V1 & F1 & R1 & U1 & I1 & Vb1 & Ps1). destruct (parsed _ _ _ _ _ U P') as (C2 & V2 & F2 & R2 & U2 & I2 & Vb2 & Ps2).
    assert (Evb : ns_verbose ns = ns_verbose ns2) by congruence. rewrite Evb. apply Main_run; [assumption|].
    eapply runs_same; [exact R|congruence| | | |congruence|congruence|congruence|congruence].
    + intros o. rewrite V1, V2. symmetry. apply same_values; assumption.
    + intros f Ff. rewrite C1 in Ff. specialize (F1 f). specialize (F2 f). specialize (Sfl f Ff). unfold on in *. destruct (ns_flag ns f), (ns_flag ns2 f); try reflexivity; exfalso; intuition discriminate.
    + destruct (ns_rekor_version ns2) as [n|] eqn:E2.
      * symmetry. apply R1. apply R2. reflexivity.
      * destruct (ns_rekor_version ns) as [n|] eqn:E1; [|reflexivity]. exfalso. assert (X : None = Some n); [|discriminate]. apply R2. apply R1. reflexivity.
Qed.
(** An option on the command line hides its variable; variables of other commands do not matter (as
    long as they can be read). *)
Theorem C86_given_option_wins : forall mc e1 e2 l t0 h0 sched t h out r, unicode_lower (mc_lower mc) ->
  readable_variables e1 -> readable_variables e2 ->
  (forall o v, variable_for (ln_command l) o v -> not_given l o -> e1 v = e2 v) ->
  (forall f, flags_of (ln_command l) f -> ~ In f (ln_flags l) -> e1 (documented_variable f) = e2 (documented_variable f)) ->
  main mc e1 l t0 h0 sched t h out r -> main mc e2 l t0 h0 sched t h out r.
Proof.
  intros mc e1 e2 l t0 h0 sched t h out r U Ra Rb So Sf. apply C86_environment; [assumption|].
  split; [tauto|]. split.
  - intros o v _ H. destruct H as [s L|x s Ng Vf E|Ng E].
    + constructor. assumption.
    + eapply Val_variable; [assumption|eassumption|]. rewrite <- (So _ _ Vf Ng). assumption.
    + apply Val_default; [assumption|]. intros x Vf. rewrite <- (So _ _ Vf Ng). auto.
  - intros f Ff. unfold switched_on. destruct (in_dec (fun a b : flag => ltac:(decide equality)) f (ln_flags l)) as [Is|Nn]; [tauto|]. rewrite (Sf f Ff Nn). tauto.
Qed.
(** [-v] before the command is not counted. *)
Theorem C86_verbose_before_refuted : forall mc environ c o fl u i n m v ps t0 h0 sched t h out r,
  main mc environ (mkLine c o fl u i n v ps) t0 h0 sched t h out r -> main mc environ (mkLine c o fl u i m v ps) t0 h0 sched t h out r.
Proof.
  intros mc environ c o fl u i n m v ps t0 h0 sched t h out r M. destruct M as [e E|ns sched t h out r P R]; [apply Main_usage; exact E|].
  apply Main_run; [exact P|exact R].
Qed.

(** ** A concrete machine *)

(** the environment of PropsSignVerify.v; bundles are read back from what signing wrote *)
Definition mx_world : World :=
  mkWorld [s2l "home"] (fun _ => None) (fun _ => Raise EValue) (fun _ => Ok (svx_message_of None)) (fun _ => None) (fun _ => Raise EValue)
    csx_config (fun _ _ => Raise EConnection) rkx_rp vx_now (fun _ => vx_now).
Definition mx_tools : Tools :=
  mkTools mx_world (sy_libs sy_far) svx_out (fun s => if str_eqb s (s2l "{}") then Some csx_predicate else None)
    (fun _ => s2l "{}") (fun _ => Some vx_payload) csx_token (fun _ => Ok (Some (s2l "tok"))) (fun _ _ _ _ => Raise EIdentity) csx_to_json.
Definition mx_with (env : Env) (tl : Tools) (http : http_request EntryRequest -> res response) : Machine :=
  mkMachine env (sy_parsers sy_far) tl env_ascii (fun s => PyText.py_int (fun _ => None) s) http
    tix_data tix_cache tix_lib tix_none tix_ptr tix_psc (fun _ => Raise EValue) vx_now.
Definition mx : Machine := mx_with (sy_env sy_far) mx_tools (rkx_http JNull).
Definition mx_unset : str -> option str := fun _ => None.
Definition mx_set (v s : String.string) : str -> option str := fun x => if str_eqb x (s2l v) then Some (s2l s) else None.
Definition mx_line (c : command) (o : list (opt * str)) (ps : list str) : Line := mkLine c o nil false false 0 0 ps.
Definition mx_sign : Line := mx_line C_sign nil [s2l "a.txt"].
Definition mx_verify : Line :=
  mx_line C_verify_identity [(O_cert_identity, s2l "x@y.z"); (O_cert_issuer, s2l "https://issuer.example"); (O_cert_identity, s2l "a@b.c")] [s2l "a.txt"].
Definition mx_wrong : Line :=
  mx_line C_verify_identity [(O_cert_identity, s2l "a@b.c"); (O_cert_issuer, s2l "https://other.example")] [s2l "a.txt"].

Definition mx_ns (mc : Machine) (environ : str -> option str) (l : Line) : Namespace :=
  match parse_line (mc_lower mc) (mc_int mc) environ l with Ok ns => ns | Raise _ => mkNs (ln_command l) (fun _ => None) (fun _ => false) None false false 0 nil end.
Lemma mx_run : forall mc environ l t0 h0 sched t h out r r',
  match parse_line (mc_lower mc) (mc_int mc) environ l with Ok _ => true | Raise _ => false end = true -> runs mc (mx_ns mc environ l) t0 h0 sched t h out r ->
  main_handler (Nat.leb 1 (ns_verbose (mx_ns mc environ l))) r = r' -> main mc environ l t0 h0 sched t h out r'.
Proof.
  intros mc environ l t0 h0 sched t h out r r' P R <-. apply Main_run; [|assumption]. unfold mx_ns in *.
  destruct (parse_line (mc_lower mc) (mc_int mc) environ l); [reflexivity|discriminate].
Qed.
Lemma mx_unset_readable : readable_variables mx_unset.
Proof. intros f v H. discriminate. Qed.
(** ... whose libraries do not end the process *)
Lemma sy_env_calm : forall na, calm_env (sy_env na).
Proof.
  intros na. destruct vx_env_calm as [V1 V2 V3 V4 V5]. constructor; cbn [e_sig_verify e_parse_cert e_chain e_decode_tsr e_tsa_verify sy_env]; try assumption.
  intros der. specialize (V2 der). set (r := e_parse_cert vx_env der) in *. clearbody r.
  destruct der as [|b d]; [exact V2|]. destruct b; try exact V2. destruct d as [|b d]; [exact V2|]. destruct b; try exact V2.
  destruct d as [|b d]; [exact V2|]. destruct b; try exact V2. repeat split; exact I.
Qed.
Lemma csx_token_calm : forall raw c, Calm.quiet (csx_token raw c).
Proof. intros. apply q_identity_token. intros s. cbn [j_payload csx_je]. destruct (str_eqb _ _); exact I. Qed.
Lemma sy_libs_calm : calm_libs (sy_libs sy_far).
Proof.
  constructor; cbn [l_env l_pem l_rp sy_libs]; [apply sy_env_calm| |].
  - intros b. unfold sy_pem. toy_calm.
  - split; intros; cbn [rp_proposed rp_entry sy_rp]; toy_calm.
Qed.
Lemma svx_out_calm : calm_outside svx_out.
Proof.
  constructor; intros; cbn [o_fulcio o_tsa_query o_tsa o_log svx_out]; unfold sy_fulcio, sy_tsa, sy_log; toy_calm.
Qed.
Lemma tix_lib_calm : calm_tuf tix_lib.
Proof.
  constructor; intros; cbn [tl_targetinfo tl_download tix_lib];
    repeat match goal with |- fine _ _ (fst (if ?b then _ else _)) => destruct b | |- fine _ _ (fst (match ?x with _ => _ end)) => destruct x end; exact I.
Qed.
Lemma mx_with_calm : forall env tl http, calm_env env -> calm_tools tl -> (forall r, Calm.quiet (http r)) -> calm_machine (mx_with env tl http).
Proof.
  intros env tl http H1 H2 H3. constructor; cbn [mc_env mc_ps mc_tools mc_http mc_tuf mc_parse_tr mc_parse_sc mc_parse_config mx_with]; try assumption;
    [|exact tix_lib_calm|intros b; unfold tix_ptr; toy_calm|intros b; unfold tix_psc; toy_calm|intros; exact I].
  intros b. cbn [p_hashedrekord p_dsse p_v2 sy_parsers]. repeat split; toy_calm.
Qed.
Example ex_mx_calm : calm_machine mx.
Proof.
  apply mx_with_calm; [apply sy_env_calm| |intros; exact I]. constructor; try (intros; exact I).
  - constructor; try (intros; exact I). exact rkx_rp_calm.
  - exact sy_libs_calm.
  - exact svx_out_calm.
  - exact csx_token_calm.
Qed.
(** [sign] with status 0, then [verify identity] with status 0, and with another status for another
    issuer *)
Example ex_main_sign_verify : exists t h out out1 out2 r,
  main mx mx_unset mx_sign csx_tree nil svx_sched t h out (Ok tt) /\ out = [S_output (CliSign.O_bundle [s2l "a.txt.sigstore.json"])] /\
  main mx mx_unset mx_verify t nil nil t nil out1 (Ok tt) /\
  main mx mx_unset mx_wrong t nil nil t nil out2 r /\ exit_status r = 1.
Proof.
  destruct (exec_run mx_tools (csx_common [csx_a] false) None nil (sign_prepare mx_tools (csx_sign [csx_a] false) csx_tree) svx_sched
    (fun y l => l = [CliSign.O_bundle [s2l "a.txt.sigstore.json"]] /\
       snd (verify_identity (sy_env sy_far) (sy_parsers sy_far) (world_at mx_tools (y_tree y)) (cvx_args [s2l "a.txt"]) (s2l "a@b.c") (s2l "https://issuer.example")) = Ok tt /\
       snd (verify_identity (sy_env sy_far) (sy_parsers sy_far) (world_at mx_tools (y_tree y)) (cvx_args [s2l "a.txt"]) (s2l "a@b.c") (s2l "https://other.example")) = Raise (ESystemExit 1)))
    as (y & l & R & L & V1 & V2); [vm_compute; repeat split; reflexivity|].
  exists (y_tree y), (y_hist y), (map S_output l). do 2 eexists. exists (Raise (ESystemExit 1)).
  split; [|split; [rewrite L; reflexivity|split; [|split; [|reflexivity]]]].
  - apply (mx_run _ _ _ _ _ _ _ _ _ (Ok tt)); [reflexivity| |reflexivity]. apply Run_sign; [reflexivity|].
    assert (E : sign_args (mx_ns mx mx_unset mx_sign) = csx_sign [csx_a] false) by (vm_compute; reflexivity). rewrite E. exact R.
  - apply (mx_run _ _ _ _ _ _ _ _ _ (Ok tt)); [reflexivity| |reflexivity]. apply Run_verify_identity; [reflexivity|].
    assert (E : verify_args (mx_ns mx mx_unset mx_verify) = cvx_args [s2l "a.txt"]) by (vm_compute; reflexivity). rewrite E.
    change (ns_str (mx_ns mx mx_unset mx_verify) O_cert_identity) with (s2l "a@b.c"). change (ns_str (mx_ns mx mx_unset mx_verify) O_cert_issuer) with (s2l "https://issuer.example").
    rewrite <- V1. apply surjective_pairing.
  - apply (mx_run _ _ _ _ _ _ _ _ _ (Raise (ESystemExit 1))); [reflexivity| |reflexivity]. apply Run_verify_identity; [reflexivity|].
    assert (E : verify_args (mx_ns mx mx_unset mx_wrong) = cvx_args [s2l "a.txt"]) by (vm_compute; reflexivity). rewrite E.
    change (ns_str (mx_ns mx mx_unset mx_wrong) O_cert_identity) with (s2l "a@b.c"). change (ns_str (mx_ns mx mx_unset mx_wrong) O_cert_issuer) with (s2l "https://other.example").
    rewrite <- V2. apply surjective_pairing.
Qed.

(** fix-bundle: a bundle of 2022 whose entry has no checkpoint *)
Definition mx_fix : Machine :=
  mx_with (bx_env false)
    (mkTools (mkWorld [s2l "home"] (fun _ => None) (fun _ => Raise EValue) (fun _ => Ok (bx_old None)) (fun _ => None) (fun _ => Raise EValue)
        csx_config (fun _ _ => Raise EConnection) rkx_rp vx_now (fun _ => vx_now)) (sy_libs sy_far) svx_out (fun _ => None)
      (fun _ => s2l "{}") (fun _ => Some vx_payload) csx_token (fun _ => Ok None) (fun _ _ _ _ => Raise EIdentity)
      (fun m => concat (map (fun e => match le_proof e with Some p => match ip_checkpoint p with Some c => ascii_bytes c | None => nil end | None => nil end) (vm_entries (bm_vm m)))))
    (fun q => match q with
              | GET u ps => if str_eqb u (s2l "https://rekor.sigstore.dev/api/v1/log/entries") then Ok (mkResp 200 nil (Some (rkx_entry "u" 1700000000)) nil) else Raise EConnection
              | _ => Raise EConnection
              end).
Example ex_mx_fix_calm : calm_machine mx_fix.
Proof.
  apply mx_with_calm.
  - apply toy_env_calm. intros der c [X|[X|[]]]; injection X as _ <-; repeat split; exact I.
  - constructor; try (intros; exact I).
    + constructor; try (intros; exact I). exact rkx_rp_calm.
    + exact sy_libs_calm.
    + exact svx_out_calm.
    + exact csx_token_calm.
  - intros [u ps|u r]; [|exact I]. destruct (str_eqb _ _); exact I.
Qed.
Definition mx_fix_line (in_place : bool) (more : list (opt * str)) (flags : list flag) : Line :=
  mkLine C_fix_bundle (more ++ [(O_bundle, s2l "a.txt")]) flags false in_place 0 0 nil.
Lemma mx_triple : forall A B C (x : A * B * C) b c, snd (fst x) = b -> snd x = c -> x = (fst (fst x), b, c).
Proof. intros A B C [[a b] c] b' c' <- <-. reflexivity. Qed.
Definition mx_fixed (in_place : bool) (flags : list flag) : tree :=
  fst (fst (fix_bundle_command (bx_env false) (mc_tools mx_fix) (mc_http mx_fix) (existsb (flag_eqb F_staging) flags) false in_place [s2l "a.txt"] csx_tree)).
Lemma mx_fix_run : forall in_place flags text r r', In flags [nil; [F_staging]] ->
  snd (fst (fix_bundle_command (bx_env false) (mc_tools mx_fix) (mc_http mx_fix) (existsb (flag_eqb F_staging) flags) false in_place [s2l "a.txt"] csx_tree)) = text ->
  snd (fix_bundle_command (bx_env false) (mc_tools mx_fix) (mc_http mx_fix) (existsb (flag_eqb F_staging) flags) false in_place [s2l "a.txt"] csx_tree) = r ->
  main_handler false r = r' ->
  main mx_fix mx_unset (mx_fix_line in_place nil flags) csx_tree nil nil (mx_fixed in_place flags) nil
    (match text with Some b => [S_bytes b] | None => nil end) r'.
Proof.
  intros in_place flags text r r' Fl Ht Hr Hr'. refine (mx_run _ _ _ _ _ _ _ _ _ r r' _ _ _).
  - cbn [In] in Fl. destruct Fl as [<-|[<-|[]]]; reflexivity.
  - apply (Run_fix_bundle mx_fix (mx_ns mx_fix mx_unset (mx_fix_line in_place nil flags)) csx_tree nil (mx_fixed in_place flags) text r).
    + cbn [In] in Fl. destruct Fl as [<-|[<-|[]]]; reflexivity.
    + unfold mx_fixed. rewrite <- (mx_triple _ _ _ _ _ _ Ht Hr). cbn [In] in Fl. destruct Fl as [<-|[<-|[]]]; reflexivity.
  - cbn [In] in Fl. destruct Fl as [<-|[<-|[]]]; exact Hr'.
Qed.
Example ex_fix_in_place : main mx_fix mx_unset (mx_fix_line true nil nil) csx_tree nil nil (mx_fixed true nil) nil nil (Ok tt) /\
  files_of (mx_fixed true nil) [s2l "home"; s2l "a.txt"] = Some (s2b "cp") /\ files_of (mx_fixed true nil) [s2l "home"; s2l "b.txt"] = Some (s2b "world").
Proof.
  split; [|split; vm_compute; reflexivity].
  apply (mx_fix_run true nil None (Ok tt) (Ok tt)); [left; reflexivity|vm_compute; reflexivity|vm_compute; reflexivity|reflexivity].
Qed.
Example ex_fix_print : main mx_fix mx_unset (mx_fix_line false nil nil) csx_tree nil nil (mx_fixed false nil) nil [S_bytes (s2b "cp" ++ [x0a])] (Ok tt).
Proof.
  apply (mx_fix_run false nil (Some (s2b "cp" ++ [x0a])) (Ok tt) (Ok tt)); [left; reflexivity|vm_compute; reflexivity|vm_compute; reflexivity|reflexivity].
Qed.
Example ex_fix_repaired : exists b, repaired mx_fix (fix_log false) (bx_old None) b.
Proof. eexists. apply repaired_iff. vm_compute. reflexivity. Qed.
Example ex_fix_staging : exists r, main mx_fix mx_unset (mx_fix_line false nil [F_staging]) csx_tree nil nil (mx_fixed false [F_staging]) nil nil r /\ exit_status r = 1.
Proof.
  exists (main_handler false (Raise EConnection)). split; [|vm_compute; reflexivity].
  apply (mx_fix_run false [F_staging] None (Raise EConnection)); [right; left; reflexivity|vm_compute; reflexivity|vm_compute; reflexivity|reflexivity].
Qed.

(** C86: [--bundle] hides [SIGSTORE_BUNDLE], and a variable of [sign] does not matter to [verify] *)
Example ex_given_wins :
  let l := mx_line C_verify_identity [(O_cert_identity, s2l "a"); (O_cert_issuer, s2l "b"); (O_bundle, s2l "c")] [s2l "f"] in
  let e := fun x => if str_eqb x (s2l "SIGSTORE_BUNDLE") then Some (s2l "other") else if str_eqb x (s2l "SIGSTORE_NO_DEFAULT_FILES") then Some (s2l "yes") else None in
  readable_variables e /\ (forall o v, variable_for (ln_command l) o v -> not_given l o -> e v = mx_unset v) /\
  (forall f, flags_of (ln_command l) f -> ~ In f (ln_flags l) -> e (documented_variable f) = mx_unset (documented_variable f)) /\
  e (s2l "SIGSTORE_BUNDLE") <> mx_unset (s2l "SIGSTORE_BUNDLE").
Proof.
  cbv zeta. split; [|split; [|split]].
  - intros f v H. destruct f; vm_compute in H; try discriminate. injection H as <-. left. right. left. unfold spells. cbn. repeat constructor; auto.
  - intros o v H Ng. destruct H as [c H|c H|c H|c H|c H| | | |c H|c H|c H| | | | | |]; try reflexivity. exfalso. apply (Ng (s2l "c")). cbn. auto.
  - intros f Ff _. destruct f; try reflexivity. discriminate.
  - discriminate.
Qed.

(** ** Expectations that do not hold *)

(** The variables of required options are offered but of no use: the options must be given. *)
Theorem C86_required_from_environment_refuted : exists mc environ l, unicode_lower (mc_lower mc) /\ readable_variables environ /\ ln_command l = C_verify_identity /\
  has_value environ l O_cert_identity (Some (s2l "a@b.c")) /\ has_value environ l O_cert_issuer (Some (s2l "https://issuer.example")) /\
  ln_positional l <> nil /\
  forall t0 h0 sched t h out r, main mc environ l t0 h0 sched t h out r -> exit_status r = 2.
Proof.
  set (e := fun x => if str_eqb x (s2l "SIGSTORE_CERT_IDENTITY") then Some (s2l "a@b.c")
                     else if str_eqb x (s2l "SIGSTORE_CERT_OIDC_ISSUER") then Some (s2l "https://issuer.example") else None).
  assert (Re : readable_variables e) by (intros f v H; destruct f; vm_compute in H; discriminate).
  exists mx, e, (mx_line C_verify_identity nil [s2l "a.txt"]). split; [exact ex_unicode_lower|]. split; [assumption|]. split; [reflexivity|].
  split; [apply (Val_variable _ _ _ (s2l "SIGSTORE_CERT_IDENTITY")); [intros s []|constructor; cbn; auto|reflexivity]|].
  split; [apply (Val_variable _ _ _ (s2l "SIGSTORE_CERT_OIDC_ISSUER")); [intros s []|constructor|reflexivity]|]. split; [discriminate|].
  intros t0 h0 sched t h out r M. eapply (C85_usage _ _ _ _ _ _ _ _ _ _ M ex_unicode_lower); [|assumption].
  right. intros (_ & _ & _ & Rq & _). destruct (Rq O_cert_identity) as (s & []). cbn. auto.
Qed.
(** An unreadable variable of [verify] makes [sign] fail. *)
Theorem C86_only_own_variables_refuted : exists mc e l, unicode_lower (mc_lower mc) /\ ln_command l = C_sign /\ well_formed (mc_int mc) l /\
  (forall o v, variable_for C_sign o v -> e v = None) /\ (forall f, flags_of C_sign f -> e (documented_variable f) = None) /\
  forall t0 h0 sched t h out r, main mc e l t0 h0 sched t h out r -> exit_status r = 1.
Proof.
  exists mx, (mx_set "SIGSTORE_OFFLINE" "maybe"), mx_sign. split; [exact ex_unicode_lower|]. split; [reflexivity|].
  assert (W : well_formed (mc_int mx) mx_sign).
  { eapply proj2, (proj1 (C86_accepted_iff mx mx_unset mx_sign ex_unicode_lower)). exists (mx_ns mx mx_unset mx_sign). vm_compute. reflexivity. }
  split; [assumption|]. split; [|split].
  - intros o v H. remember C_sign as c eqn:Ec. destruct H as [c H|c H|c H|c H|c H| | | |c H|c H|c H| | | | | |]; try reflexivity; try discriminate;
      subst c; cbn in H; intuition discriminate.
  - intros f Ff. destruct f; try reflexivity. cbn in Ff. intuition discriminate.
  - intros t0 h0 sched t h out r M. assert (Nr : ~ readable_variables (mx_set "SIGSTORE_OFFLINE" "maybe")).
    { intros H. destruct (parse_iff (mc_lower mx) (mc_int mx) (mx_set "SIGSTORE_OFFLINE" "maybe") mx_sign ex_unicode_lower) as ((_ & P) & _).
      destruct (P (conj H W)) as (ns & Q). vm_compute in Q. discriminate. }
    eapply (C85_usage _ _ _ _ _ _ _ _ _ _ M ex_unicode_lower); [left; assumption|assumption].
Qed.
(** [fix-bundle] ignores [--instance]: it always asks the public log. *)
Theorem C87_instance_refuted : forall mc environ url p u i n v t0 h0 sched t h out r,
  main mc environ (mkLine C_fix_bundle [(O_bundle, p)] nil u i n v nil) t0 h0 sched t h out r ->
  main mc environ (mkLine C_fix_bundle [(O_instance, url); (O_bundle, p)] nil u i n v nil) t0 h0 sched t h out r.
Proof.
  intros mc environ url p u i n v t0 h0 sched t h out r M.
  destruct M as [e E|ns sched t h out r P R].
  - apply Main_usage. unfold parse_line in *. cbn [ln_flags] in *. destruct (parse_flags (mc_lower mc) environ nil) as [f|x]; [|exact E]. cbn in E. discriminate.
  - unfold parse_line in P. cbn [ln_flags] in P. destruct (parse_flags (mc_lower mc) environ nil) as [f|x] eqn:Pf; [|discriminate].
    cbn in P. injection P as <-.
    pose (ns2 := mkNs C_fix_bundle (value environ (mkLine C_fix_bundle [(O_instance, url); (O_bundle, p)] nil u i n v nil)) f None u i v nil).
    change (main mc environ (mkLine C_fix_bundle [(O_instance, url); (O_bundle, p)] nil u i n v nil) t0 h0 sched t h out (main_handler (Nat.leb 1 (ns_verbose ns2)) r)).
    apply Main_run.
    + unfold parse_line. cbn [ln_flags]. rewrite Pf. reflexivity.
    + inversion R; subst; try discriminate. apply Run_fix_bundle; [reflexivity|]. assumption.
Qed.
(** A bundle whose entry has index 0 cannot be repaired, whatever the log answers. *)
Theorem C87_index_zero_refuted : forall mc url m e b, vm_entries (bm_vm m) = [e] -> le_log_index e = 0%Z ->
  (forall ip, le_proof e = Some ip -> ip_checkpoint ip = None) -> ~ repaired mc url m b.
Proof.
  intros mc url m e b En Z0 Nc (e0 & ip & En' & Ip & H). assert (e0 = e) by congruence. subst e0.
  destruct H as [[C _]|(_ & e' & [Nz _] & _)]; [apply C, Nc; assumption|contradiction].
Qed.

Print Assumptions C85_verify_identity.
Print Assumptions C85_verify_github.
Print Assumptions C85_sign.
Print Assumptions C85_attest.
Print Assumptions C85_usage.
Print Assumptions C85_get_identity_token.
Print Assumptions C85_trust_instance.
Print Assumptions C85_update_trust_root.
Print Assumptions C86_accepted_iff.
Print Assumptions C86_environment.
Print Assumptions C86_given_option_wins.
Print Assumptions C86_verbose_before_refuted.
Print Assumptions C86_required_from_environment_refuted.
Print Assumptions C86_only_own_variables_refuted.
Print Assumptions C87_fixed.
Print Assumptions C87_not_fixed.
Print Assumptions C87_repairable.
Print Assumptions C87_instance_refuted.
Print Assumptions C87_index_zero_refuted.
