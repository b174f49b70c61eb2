(** Property C116: the plain command lines, from their words to what has happened in the world. *)
From Verif Require Import Base Codec Messages Env Keyring Checkpoint Cert Dsse KeyDetails Policy TrustedRoot SigningConfig Hashing Json Http
  Oidc Oauth LogEntry Bundle Verifier RekorClient Clients Tuf PyText CliVerify CliTrust Sign SignSteps Predicate CliSign CliEnv CliMain CliWords Calm Outcomes
  VerifierSpec PropsVerifier PropsDsse PropsBundle PropsPolicy PropsTuf PropsCliVerify PropsCliEnv PropsCliTrust SignProofs PropsSign PropsRekorClient PropsCliSign PropsPredicate
  PropsSignVerify PropsCliMain PropsSigningConfig PropsAuthentic PropsGenuine PropsEndToEnd CliWordsSpec CliWordsProofs PropsCliWords ToyEnv ToyBundles ToySign.
From Verif Require Import JsonText BundleJson PropsBundleJson TrustJson PropsTrustJson EntryJson PropsEntryJson PropsFiles.

(** ** Specification *)

(** no variable whose name begins with [SIGSTORE_] is set *)
Definition plain_environment (environ : str -> option str) : Prop := forall r, environ (s2l "SIGSTORE_" ++ r) = None.

(** [sigstore sign -- F...] *)
Definition sign_words (fs : list str) : list str := [s2l "sign"; s2l "--"] ++ fs.
(** [sigstore verify identity --cert-identity=I --cert-oidc-issuer=U -- F...] *)
Definition verify_words (identity issuer : str) (fs : list str) : list str :=
  [s2l "verify"; s2l "identity"; s2l "--cert-identity=" ++ identity; s2l "--cert-oidc-issuer=" ++ issuer; s2l "--"] ++ fs.
(** [sigstore --trust-config=T verify identity --cert-identity=I --cert-oidc-issuer=U -- F...] *)
Definition config_words (config identity issuer : str) (fs : list str) : list str := (s2l "--trust-config=" ++ config) :: verify_words identity issuer fs.
(** [sigstore verify github --repository=R -- F...] *)
Definition github_words (repository : str) (fs : list str) : list str :=
  [s2l "verify"; s2l "github"; s2l "--repository=" ++ repository; s2l "--"] ++ fs.

(** what they mean: the public-good instance, the client [sigstore], no token, no existing file overwritten, the bundles beside
    the inputs *)
Definition plain_common (fs : list str) : CommonArgs := mkCA (map path_of fs) false None (s2l "sigstore") None false None false None None None false false.
Definition plain_sign (fs : list str) : SignArgs := mkSA (plain_common fs) None None None None false.
Definition plain_verify (fs : list str) : VerifyArgs := mkVA fs None None None false None None false false.

(** ** Proofs *)

Definition plain_line (c : command) (os : list (opt * str)) (fs : list str) : Line := mkLine c os nil false false 0 0 fs.

Lemma variable_name : forall c o v, variable_for c o v -> exists r, v = s2l "SIGSTORE_" ++ r.
Proof. intros c o v H. destruct H; eexists; cbn; reflexivity. Qed.
Lemma flag_variable : forall f, exists r, documented_variable f = s2l "SIGSTORE_" ++ r.
Proof. intros []; eexists; cbn; reflexivity. Qed.

Section Plain.
Variable environ : str -> option str.
Hypothesis P : plain_environment environ.

Lemma plain_readable : readable_variables environ.
Proof. intros f v H. destruct (flag_variable f) as (r & E). rewrite E, P in H. discriminate. Qed.
Lemma plain_off : forall c os fs f, ~ switched_on environ (plain_line c os fs) f.
Proof. intros c os fs f [[]|(v & H & _)]. destruct (flag_variable f) as (r & E). rewrite E, P in H. discriminate. Qed.
Lemma plain_flag : forall c os fs f, on (switched_on environ (plain_line c os fs) f) false.
Proof. intros c os fs f. split; [discriminate|]. intros H. destruct (plain_off _ _ _ _ H). Qed.
Lemma plain_value : forall c os fs o, (forall s, ~ In (o, s) os) -> has_value environ (plain_line c os fs) o (standard c o).
Proof.
  intros c os fs o N0. apply (Val_default environ (plain_line c os fs)); [exact N0|]. intros v V. destruct (variable_name _ _ _ V) as (r & ->). apply P.
Qed.
Lemma plain_path : forall c os fs o, (forall s, ~ In (o, s) os) -> standard c o = None -> path_value environ (plain_line c os fs) o None.
Proof. intros c os fs o N0 S0. exists None. split; [|reflexivity]. rewrite <- S0. apply plain_value, N0. Qed.
Lemma plain_none : forall c os fs o, (forall s, ~ In (o, s) os) -> standard c o = None -> has_value environ (plain_line c os fs) o None.
Proof. intros c os fs o N0 S0. rewrite <- S0. apply plain_value, N0. Qed.

Lemma plain_sign_says : forall to_int fs, says_sign to_int environ (plain_line C_sign nil fs) (plain_sign fs).
Proof.
  intros to_int fs. assert (Z : forall o s, ~ In (o, s) (@nil (opt * str))) by (intros o s []).
  repeat split; cbn [plain_sign plain_common sa_common sa_signature sa_certificate sa_bundle sa_output_directory sa_no_default_files ca_overwrite ca_identity_token ca_client_id
    ca_client_secret ca_disable_ambient ca_issuer ca_force_oob ca_rekor_version ca_trust_config ca_instance ca_staging ca_verbose];
    try discriminate; try (apply plain_path; [apply Z|reflexivity]); try (apply plain_none; [apply Z|reflexivity]);
    try (intros H; destruct (plain_off _ _ _ _ H)).
  - apply (plain_value C_sign nil fs O_client_id), Z.
  - intros (s & (b & a & E & _) & _). destruct b; discriminate E.
  - intros H. exfalso. apply H. reflexivity.
Qed.
Lemma plain_verify_says : forall c os fs, In c [C_verify_identity; C_verify_github] ->
  (forall o s, In (o, s) os -> ~ In o [O_certificate; O_signature; O_bundle; O_trust_config; O_instance]) ->
  says_verify environ (plain_line c os fs) (plain_verify fs).
Proof.
  intros c os fs Ic Z. assert (Z' : forall o, In o [O_certificate; O_signature; O_bundle; O_trust_config; O_instance] -> forall s, ~ In (o, s) os) by (intros o Io s I; exact (Z o s I Io)).
  assert (S0 : forall o, o <> O_client_id -> standard c o = None) by (intros o No; destruct o; reflexivity || congruence).
  repeat split; cbn [plain_verify va_cert va_sig va_bundle va_offline va_trust_config va_instance va_staging va_verbose];
    try discriminate; try (apply plain_path; [apply Z'; cbn; auto 7|apply S0; discriminate]); try (apply plain_none; [apply Z'; cbn; auto 7|apply S0; discriminate]);
    try (intros H; destruct (plain_off _ _ _ _ H)).
  intros H. exfalso. apply H. reflexivity.
Qed.
End Plain.

(** the words of a line without switches *)
Lemma words_main : forall digit mc environ ws os c fs t0 h0 sched t h out r,
  main_words digit mc environ ws t0 h0 sched t h out r -> split_words digit ws = Ok (plain_line c os fs) ->
  main mc environ (plain_line c os fs) t0 h0 sched t h out r.
Proof.
  intros digit mc environ ws os c fs t0 h0 sched t h out r M S0. destruct M as [e Pf|d n Pf S|d Pf S|l sched t h out r S M]; try congruence.
  apply Main_usage. unfold parse_line. change (ln_flags (plain_line c os fs)) with (@nil flag). rewrite Pf. reflexivity.
Qed.
Lemma sign_line : forall digit fs, fs <> nil -> split_words digit (sign_words fs) = Ok (plain_line C_sign nil fs).
Proof. intros digit fs N0. apply (C115_safe_form digit C_sign nil nil nil fs); [cbn; auto|intros ? ? []|intros ? ? []|intros ? []|exact N0]. Qed.
Lemma verify_line : forall digit identity issuer fs, fs <> nil ->
  split_words digit (verify_words identity issuer fs) = Ok (plain_line C_verify_identity [(O_cert_identity, identity); (O_cert_issuer, issuer)] fs).
Proof.
  intros digit identity issuer fs N0. apply (C115_safe_form digit C_verify_identity nil [(O_cert_identity, identity); (O_cert_issuer, issuer)] nil fs); [cbn; auto|intros ? ? []| |intros ? []|exact N0].
  intros o v [E|[E|[]]]; injection E as <- <-; (split; [cbn; auto|cbn; intuition discriminate]).
Qed.
Lemma github_line : forall digit repository fs, fs <> nil ->
  split_words digit (github_words repository fs) = Ok (plain_line C_verify_github [(O_repository, repository)] fs).
Proof.
  intros digit repository fs N0. apply (C115_safe_form digit C_verify_github nil [(O_repository, repository)] nil fs); [cbn; auto|intros ? ? []| |intros ? []|exact N0].
  intros o v [E|[]]; injection E as <- <-; (split; [cbn; auto|cbn; intuition discriminate]).
Qed.
Lemma config_line : forall digit config identity issuer fs, fs <> nil ->
  split_words digit (config_words config identity issuer fs) =
  Ok (plain_line C_verify_identity [(O_trust_config, config); (O_cert_identity, identity); (O_cert_issuer, issuer)] fs).
Proof.
  intros digit config identity issuer fs N0.
  apply (C115_safe_form digit C_verify_identity [(O_trust_config, config)] [(O_cert_identity, identity); (O_cert_issuer, issuer)] nil fs); [cbn; auto| | |intros ? []|exact N0].
  - intros o v [E|[]]. injection E as <- <-. cbn. auto.
  - intros o v [E|[E|[]]]; injection E as <- <-; (split; [cbn; auto|cbn; intuition discriminate]).
Qed.
Lemma identity_formed : forall to_int identity issuer fs, fs <> nil ->
  well_formed to_int (plain_line C_verify_identity [(O_cert_identity, identity); (O_cert_issuer, issuer)] fs).
Proof.
  intros to_int identity issuer fs N0. unfold well_formed, mentioned. cbn [plain_line ln_options ln_flags ln_command ln_positional ln_upgrade_version ln_in_place].
  split; [intros o s [E|[E|[]]]; injection E as <- <-; cbn; auto|]. split; [intros f []|]. split; [intros [Q|Q]; discriminate|].
  split; [intros o [<-|[<-|[]]]; [exists identity; left; reflexivity|exists issuer; right; left; reflexivity]|].
  split; [intros ([] & _)|]. split; [intros ([] & _)|]. split; [intros ((s & [Q|[Q|[]]]) & _); discriminate|]. split; [assumption|].
  split; intros s [Q|[Q|[]]]; discriminate.
Qed.
Lemma identity_given : forall identity issuer fs, let l := plain_line C_verify_identity [(O_cert_identity, identity); (O_cert_issuer, issuer)] fs in
  last_given l O_cert_identity identity /\ last_given l O_cert_issuer issuer.
Proof.
  intros identity issuer fs l. split; [exists nil, [(O_cert_issuer, issuer)]; split; [reflexivity|intros s [Q|[]]; discriminate]|].
  exists [(O_cert_identity, identity)], nil. split; [reflexivity|intros s []].
Qed.

Section Words.
Variable digit : N -> bool.

(** [sigstore sign -- F...] that exits with 0 has signed every input with the defaults, and its bundles are there. *)
Theorem C116_sign : forall mc environ fs t0 h0 sched t h out r,
  main_words digit mc environ (sign_words fs) t0 h0 sched t h out r -> fs <> nil -> plain_environment environ ->
  unicode_lower (mc_lower mc) -> calm_machine mc -> exit_status r = 0 ->
  let a := plain_sign fs in
  exists lines, out = map S_output lines /\ sign_run (mc_tools mc) a t0 h0 sched t h lines (Ok tt) /\
    (own_outputs (mc_tools mc) (map path_of fs) (sign_opts a) -> files_left_alone (mc_tools mc) sched (map path_of fs) (sign_opts a) ->
     exists h1 s, setup (mc_tools mc) (sa_common a) t0 h0 = (h1, Ok s) /\
       outputs_written (mc_tools mc) s None t0 t (map path_of fs) (sign_opts a)).
Proof.
  intros mc environ fs t0 h0 sched t h out r M N0 P U Cm X a. pose proof (words_main _ _ _ _ _ _ _ _ _ _ _ _ _ _ M (sign_line digit fs N0)) as M'.
  destruct (C85_sign _ _ _ _ _ _ _ _ _ _ M' eq_refl U Cm X) as (a' & lines & Sa & E & R & W).
  assert (a' = a) by (eapply says_sign_unique; [exact Sa|apply plain_sign_says, P]). subst a'. exists lines. auto.
Qed.

(** [sigstore verify identity ...] exits with 0 exactly if every input is verified for the identity and the issuer, with the defaults;
    it leaves everything as it was. *)
Theorem C116_verify_identity : forall mc environ identity issuer fs t0 h0 sched t h out r,
  main_words digit mc environ (verify_words identity issuer fs) t0 h0 sched t h out r -> fs <> nil -> plain_environment environ ->
  unicode_lower (mc_lower mc) -> calm_machine mc ->
  (exit_status r = 0 <-> every_input_verified (mc_env mc) (mc_ps mc) (world_at (mc_tools mc) t0) (plain_verify fs) show_decoded (P_identity identity (Some issuer))) /\
  t = t0 /\ h = h0.
Proof.
  intros mc environ identity issuer fs t0 h0 sched t h out r M N0 P U Cm.
  destruct (C115_verify_identity digit _ _ _ _ _ _ _ _ _ _ _ _ M N0 U Cm) as (H & Ht). split; [|exact Ht]. rewrite H.
  assert (Sp : says_verify environ (plain_line C_verify_identity [(O_cert_identity, identity); (O_cert_issuer, issuer)] fs) (plain_verify fs)).
  { apply plain_verify_says; [exact P|cbn; auto|]. intros o s [E|[E|[]]]; injection E as <- <-; cbn; intuition discriminate. }
  split.
  - intros (_ & a & Sa & _ & V). assert (a = plain_verify fs) by (eapply says_verify_unique; [exact Sa|exact Sp]). subst a. exact V.
  - intros V. split; [apply plain_readable, P|]. exists (plain_verify fs). split; [exact Sp|]. split; [reflexivity|exact V].
Qed.

(** The signature was really made: after exit status 0, if the public services are honest, for every input there is one who had logged in with that
    identity at that issuer, to whom the certificate was issued, and whose key signed the input while the certificate was valid. *)
Theorem C116_genuine : forall mc environ identity issuer fs t0 h0 sched t h out r,
  main_words digit mc environ (verify_words identity issuer fs) t0 h0 sched t h out r -> fs <> nil -> plain_environment environ ->
  unicode_lower (mc_lower mc) -> calm_machine mc -> exit_status r = 0 -> issuer <> nil ->
  forall hi, let env := mc_env mc in let w := world_at (mc_tools mc) t0 in
  materials_existed hi w -> services_are_honest env (mc_ps mc) hi w (plain_verify fs) ->
  forall f, In f fs ->
  exists x d cert who tl key, denotes w f x /\ PropsCliVerify.digest_of env w x d /\
    hs_login hi who identity issuer tl /\ hs_issued hi cert who tl /\ c_pubkey cert = Ok key /\
    (careful hi who -> unforgeable env hi key ->
     exists ts, (ts <= c_not_after cert)%Z /\ signed_about env w hi key d ts).
Proof.
  intros mc environ identity issuer fs t0 h0 sched t h out r M N0 P U Cm X Ni hi env w Me Sv f If.
  pose proof (words_main _ _ _ _ _ _ _ _ _ _ _ _ _ _ M (verify_line digit identity issuer fs N0)) as M'.
  destruct (identity_given identity issuer fs) as [Li Lx].
  refine (C93_verify_identity _ _ _ _ _ _ _ _ _ _ M' eq_refl U Cm X hi Me _ identity issuer Li Lx Ni f If).
  intros a Sa. assert (a = plain_verify fs); [|subst a; exact Sv]. eapply says_verify_unique; [exact Sa|].
  apply plain_verify_says; [exact P|cbn; auto|]. intros o s [E|[E|[]]]; injection E as <- <-; cbn; intuition discriminate.
Qed.

(** [sigstore verify github --repository=R -- F...]: after exit status 0 every input has a certificate of a GitHub workflow of that repository. *)
Theorem C116_github : forall mc environ repository fs t0 h0 sched t h out r,
  main_words digit mc environ (github_words repository fs) t0 h0 sched t h out r -> fs <> nil -> plain_environment environ ->
  unicode_lower (mc_lower mc) -> calm_machine mc -> exit_status r = 0 ->
  repository <> nil /\
  forall hi, let env := mc_env mc in let w := world_at (mc_tools mc) t0 in
  materials_existed hi w -> services_are_honest env (mc_ps mc) hi w (plain_verify fs) ->
  forall f, In f fs ->
  exists x d cert who tl key, denotes w f x /\ PropsCliVerify.digest_of env w x d /\
    has_ext cert [1;3;6;1;4;1;57264;1;1]%N (s2b "https://token.actions.githubusercontent.com") /\
    (exists value, utf8_encode repository = Some value /\ has_ext cert [1;3;6;1;4;1;57264;1;5]%N value) /\
    hs_issued hi cert who tl /\ c_pubkey cert = Ok key /\
    (careful hi who -> unforgeable env hi key ->
     exists ts, (ts <= c_not_after cert)%Z /\ signed_about env w hi key d ts).
Proof.
  intros mc environ repository fs t0 h0 sched t h out r M N0 P U Cm X.
  pose proof (words_main _ _ _ _ _ _ _ _ _ _ _ _ _ _ M (github_line digit repository fs N0)) as M'.
  set (l := plain_line C_verify_github [(O_repository, repository)] fs) in *.
  assert (Sg0 : says_github environ l (mkGH None None None None (Some repository) None)).
  { assert (Z : forall o, o <> O_repository -> o <> O_client_id -> has_value environ l o None).
    { intros o No Nc. apply plain_none; [exact P|intros s [E|[]]; congruence|destruct o; reflexivity || congruence]. }
    repeat split; try (apply Z; discriminate). apply Val_given. exists nil, nil. split; [reflexivity|intros s []]. }
  split.
  - destruct (proj1 (C85_verify_github _ _ _ _ _ _ _ _ _ _ M' eq_refl U Cm)) as [H _]. destruct (H X) as (_ & _ & a & g & _ & Sg & Q & _).
    rewrite (says_github_unique _ _ _ _ Sg Sg0) in Q. destruct Q as [(s & E & _)|(s & E & N1)]; [discriminate E|]. injection E as ->. exact N1.
  - intros hi env w Me Sv f If.
    destruct (C93_verify_github _ _ _ _ _ _ _ _ _ _ M' eq_refl U Cm X hi Me) with (arg := f) as (g & x & d & cert & who & tl & key & Sg & (Io & _ & _ & _ & _ & Rp & _) & Dx & Dd & _ & Is & K & H); [|exact If|].
    + intros a Sa. assert (a = plain_verify fs); [|subst a; exact Sv]. eapply says_verify_unique; [exact Sa|].
      apply plain_verify_says; [exact P|cbn; auto|]. intros o s [E|[]]; injection E as <- <-; cbn; intuition discriminate.
    + rewrite (says_github_unique _ _ _ _ Sg Sg0) in Rp. exists x, d, cert, who, tl, key. repeat (split; [assumption|]). split; [|auto].
      apply (Rp repository eq_refl).
      destruct (proj1 (C85_verify_github _ _ _ _ _ _ _ _ _ _ M' eq_refl U Cm)) as [H0 _]. destruct (H0 X) as (_ & _ & a & g' & _ & Sg' & Q & _).
      rewrite (says_github_unique _ _ _ _ Sg' Sg0) in Q. destruct Q as [(s & E & _)|(s & E & N1)]; [discriminate E|]. injection E as ->. exact N1.
Qed.

(** With a trust configuration given: after exit status 0 every input is a file, and the texts of the trust configuration and of the bundle
    beside it say all that C111 lists. *)
Theorem C116_files : forall mc environ config identity issuer fs t0 h0 sched t h out r lib bl el jl,
  main_words digit mc environ (config_words config identity issuer fs) t0 h0 sched t h out r -> fs <> nil -> plain_environment environ ->
  unicode_lower (mc_lower mc) -> calm_machine mc -> (forall x, length (e_hash (mc_env mc) SHA256 x) = 32) -> reads_texts mc lib bl el jl ->
  issuer <> nil -> exit_status r = 0 ->
  let env := mc_env mc in let w := world_at (mc_tools mc) t0 in
  exists raw text ro, content w (path_of config) = Some raw /\ utf8_decode raw = Some text /\ root_in lib text ro /\
  forall f, In f fs -> exists data rawb, content w (path_of f) = Some data /\
    (content w (sibling (path_of f) (s2l ".sigstore.json")) = Some rawb \/
     content w (sibling (path_of f) (s2l ".sigstore.json")) = None /\ content w (sibling (path_of f) (s2l ".sigstore")) = Some rawb) /\
    file_says env lib bl el jl ro (w_start w) (w_when w (It_path (path_of f))) rawb (fun c => cert_names c identity issuer) (e_hash env SHA256 data).
Proof.
  intros mc environ config identity issuer fs t0 h0 sched t h out r lib bl el jl M N0 P U Cm Hl Rd Ni X env w.
  pose proof (words_main _ _ _ _ _ _ _ _ _ _ _ _ _ _ M (config_line digit config identity issuer fs N0)) as M'.
  set (l := plain_line C_verify_identity [(O_trust_config, config); (O_cert_identity, identity); (O_cert_issuer, issuer)] fs) in *.
  assert (Z : forall o, ~ In o [O_trust_config; O_cert_identity; O_cert_issuer; O_client_id] -> has_value environ l o None).
  { intros o No. apply plain_none; [exact P|intros s [E|[E|[E|[]]]]; injection E as <- _; apply No; cbn; auto|destruct o; reflexivity || (exfalso; apply No; cbn; auto)]. }
  assert (V : forall o s, ~ In o [O_trust_config; O_cert_identity; O_cert_issuer; O_client_id] -> ~ has_value environ l o (Some s)).
  { intros o s No H. pose proof (has_value_unique _ _ _ _ _ H (Z o No)) as D. discriminate D. }
  destruct (C111_verify_identity _ _ _ _ _ _ _ _ _ _ lib bl el jl config identity issuer M' eq_refl U Cm Hl Rd) as (raw & text & ro & Cr & Ud & Rt & H); try assumption.
  - exists nil, [(O_cert_identity, identity); (O_cert_issuer, issuer)]. split; [reflexivity|intros s [E|[E|[]]]; discriminate E].
  - intros s. split; apply V; cbn; intuition discriminate.
  - exists [(O_trust_config, config)], [(O_cert_issuer, issuer)]. split; [reflexivity|intros s [E|[]]; discriminate E].
  - exists [(O_trust_config, config); (O_cert_identity, identity)], nil. split; [reflexivity|intros s []].
  - exists raw, text, ro. split; [exact Cr|]. split; [exact Ud|]. split; [exact Rt|]. intros f If.
    destruct (H f If) as (a & x & d & p & rawb & Sa & Dx & Dd & Bf & Cp & Fs).
    assert (Nb : va_bundle a = None).
    { destruct Sa as (_ & _ & _ & (v & Hv & ->) & _). rewrite (has_value_unique _ _ _ _ _ Hv (Z O_bundle ltac:(cbn; intuition discriminate))). reflexivity. }
    unfold bundle_file in Bf. rewrite Nb in Bf. destruct Bf as (q & -> & Bf).
    destruct Dx as [(c & Cc & E)|(_ & sep & tx & dg & _ & _ & _ & E)]; [|discriminate E]. injection E as ->.
    destruct Dd as (c' & Cc' & ->). exists c', rawb. split; [exact Cc'|]. split; [|exact Fs].
    destruct Bf as [->|[-> Nj]]; [left; exact Cp|right; split; [exact Nj|exact Cp]].
Qed.

(** [sigstore sign -- F...] exits with 0, and then [sigstore verify identity ... -- F...] does, if the services are honest: whatever other
    processes do meanwhile to other files, and whenever the second command runs. *)
Theorem C116_sign_then_verify : forall mc environ fs t0 h0 sched t h out r,
  main_words digit mc environ (sign_words fs) t0 h0 sched t h out r -> fs <> nil -> plain_environment environ ->
  unicode_lower (mc_lower mc) -> calm_machine mc -> exit_status r = 0 ->
  proper_inputs (mc_tools mc) (map path_of fs) -> untouched (mc_tools mc) sched (map path_of fs) ->
  forall mc' environ' identity issuer v h0' sched' t' h' out' r',
  main_words digit mc' environ' (verify_words identity issuer fs) t h0' sched' t' h' out' r' ->
  same_libraries mc mc' -> plain_environment environ' -> unicode_lower (mc_lower mc') -> calm_machine mc' ->
  (forall f, In f (map path_of fs) -> files_of t (loc (mc_tools mc) (sibling f (s2l ".sigstore"))) = None) ->
  verifier_selected (mc_env mc') (world_at (mc_tools mc') t) (plain_verify fs) v ->
  (forall h1 s f, setup (mc_tools mc) (plain_common fs) t0 h0 = (h1, Ok s) -> In f (map path_of fs) ->
     readable (mc_tools mc) (world_at (mc_tools mc') t) s None t0 f /\
     honest_services (mc_tools mc) (mc_ps mc') (w_when (world_at (mc_tools mc') t) (It_path f)) v (P_identity identity (Some issuer)) s) ->
  exit_status r' = 0 /\ t' = t.
Proof.
  intros mc environ fs t0 h0 sched t h out r M N0 P U Cm X Pr Un mc' environ' identity issuer v h0' sched' t' h' out' r' M' Lb P' U' Cm' Leg Vs Hon.
  pose proof (words_main _ _ _ _ _ _ _ _ _ _ _ _ _ _ M (sign_line digit fs N0)) as Ms.
  pose proof (words_main _ _ _ _ _ _ _ _ _ _ _ _ _ _ M' (verify_line digit identity issuer fs N0)) as Mv.
  destruct (identity_given identity issuer fs) as [Li Lx].
  refine (C91_sign_then_verify _ _ _ _ _ _ _ _ _ _ Ms eq_refl U Cm X _ _ Pr Un _ _ _ identity issuer v _ _ _ _ _ _ Mv Lb U' Cm' _ Leg _ _).
  - intros o Io. apply plain_none; [exact P|intros s []|]. cbn in Io. destruct Io as [<-|[<-|[<-|[<-|[]]]]]; reflexivity.
  - apply plain_off, P.
  - split; [reflexivity|]. split; [apply plain_readable, P'|]. split; [apply identity_formed, N0|]. split; [reflexivity|]. split; [exact Li|]. split; [exact Lx|].
    intros o Io. apply plain_none; [exact P'| |]; cbn in Io; destruct Io as [<-|[<-|[<-|[]]]]; try reflexivity; intros s [E|[E|[]]]; discriminate E.
  - intros va Sa. assert (va = plain_verify fs); [|subst va; exact Vs]. eapply says_verify_unique; [exact Sa|].
    apply plain_verify_says; [exact P'|cbn; auto|]. intros o s [E|[E|[]]]; injection E as <- <-; cbn; intuition discriminate.
  - intros a h1 s f Sa Su If. assert (a = plain_sign fs) by (eapply says_sign_unique; [exact Sa|apply plain_sign_says, P]). subst a. exact (Hon h1 s f Su If).
Qed.
End Words.

(** ** Examples *)

Lemma ex_plain : plain_environment mx_unset.
Proof. intros r. reflexivity. Qed.

(** signing [a.txt] and verifying it: both commands exit with 0 *)
Example ex_plain_sign_verify : exists t h out out' r,
  main_words wx_digit mx mx_unset (map s2l ["sign"; "--"; "a.txt"]%string) csx_tree nil svx_sched t h out (Ok tt) /\
  main_words wx_digit mx mx_unset (map s2l ["verify"; "identity"; "--cert-identity=a@b.c"; "--cert-oidc-issuer=https://issuer.example"; "--"; "a.txt"]%string) t nil nil t nil out' r /\
  exit_status r = 0.
Proof.
  destruct (exec_run mx_tools (csx_common [csx_a] false) None nil (sign_prepare mx_tools (csx_sign [csx_a] false) csx_tree) svx_sched
    (fun y _ => files_of (y_tree y) [s2l "home"; s2l "a.txt.sigstore"] = None)) as (y & l & R & P); [vm_compute; reflexivity|].
  assert (E : sign_args (mx_ns mx mx_unset mx_sign) = csx_sign [csx_a] false) by (vm_compute; reflexivity).
  assert (Ms : main_words wx_digit mx mx_unset (sign_words [s2l "a.txt"]) csx_tree nil svx_sched (y_tree y) (y_hist y) (map S_output l) (Ok tt)).
  { apply Words_run with (l := mx_sign); [vm_compute; reflexivity|].
    apply (mx_run _ _ _ _ _ _ _ _ _ (Ok tt)); [reflexivity| |reflexivity]. apply Run_sign; [reflexivity|]. rewrite E. exact R. }
  assert (Mv : exists out' r, main_words wx_digit mx mx_unset (verify_words (s2l "a@b.c") (s2l "https://issuer.example") [s2l "a.txt"]) (y_tree y) nil nil (y_tree y) nil out' r).
  { do 2 eexists. apply Words_run with (l := gx_line); [vm_compute; reflexivity|]. eapply mx_run; [reflexivity| |reflexivity]. apply Run_verify_identity; [reflexivity|]. apply surjective_pairing. }
  destruct Mv as (out' & r & Mv). exists (y_tree y), (y_hist y), (map S_output l), out', r. split; [exact Ms|]. split; [exact Mv|].
  refine (proj1 (C116_sign_then_verify wx_digit mx mx_unset [s2l "a.txt"] csx_tree nil svx_sched (y_tree y) (y_hist y) _ (Ok tt) Ms _ ex_plain ex_unicode_lower ex_mx_calm eq_refl _ _
    mx mx_unset (s2l "a@b.c") (s2l "https://issuer.example") vx_verifier nil nil (y_tree y) nil out' r Mv _ ex_plain ex_unicode_lower ex_mx_calm _ _ _)).
  - discriminate.
  - exact svx_proper.
  - exact svx_untouched.
  - split; reflexivity.
  - intros f [<-|[]]. exact P.
  - exists (mkCTC vx_tr
      (mkSCM SIGNING_CONFIG_0_2 [sc_svc 2 "r"%string] None [mkService (s2l "https://tsa.example") 1 None (s2l "t")] None [sc_svc 1 "f"%string] nil) None).
    split; [|split; vm_compute; reflexivity].
    cbn [config_selected plain_verify va_trust_config]. exists (s2l "https://tuf-repo-cdn.sigstore.dev"). split; [reflexivity|]. right. split; [left|]; reflexivity.
  - intros h1 s f Su [<-|[]]. assert (Ss : svx_signer = Some s) by (eapply svx_setup; exact Su).
    split; [|exact (svx_services s Ss)]. apply (svx_readable None s (y_tree y) Ss). vm_compute. lia.
Qed.

(** a person signed the file *)
Example ex_plain_genuine : exists t, (t <= c_not_after vx_leaf)%Z /\ hs_signed ax_history vx_key (toy_hash vx_input) t.
Proof.
  destruct gx_main as (out & M).
  assert (Mw : main_words wx_digit gx mx_unset (verify_words (s2l "a@b.c") (s2l "https://issuer.example") [s2l "a.txt"]) gx_tree nil nil gx_tree nil out (Ok tt))
    by (apply Words_run with (l := gx_line); [vm_compute; reflexivity|exact M]).
  destruct (C116_genuine wx_digit gx mx_unset _ _ _ _ _ _ _ _ _ _ Mw) with (hi := ax_history) (f := s2l "a.txt")
    as (x & d & cert & who & tl & key & Dx & Dd & _ & [-> _] & K & H).
  - discriminate.
  - exact ex_plain.
  - exact ex_unicode_lower.
  - exact gx_calm.
  - reflexivity.
  - discriminate.
  - exact gx_existed.
  - apply gx_honest.
  - left. reflexivity.
  - destruct who. change (Ok vx_key = Ok key) in K. injection K as <-. destruct (H ex_careful ex_unforgeable) as (ts & L & [Sg|(pl & inner & s & y & V & _)]).
    + exists ts. split; [assumption|]. destruct Dx as [(c & Cc & ->)|(Cn & _)]; [|vm_compute in Cn; discriminate].
      destruct Dd as (c' & Cc' & ->). vm_compute in Cc'. injection Cc' as <-. exact Sg.
    + discriminate V.
Qed.

(** two files with a trust configuration: the texts say all of it *)
Example ex_plain_files : exists ro, root_in tjx_lib tjx_text ro /\
  file_says (sy_env sy_far) tjx_lib bjx_lib ejx (bl_json bjx_lib) ro vx_now vx_now (bundle_text bjx_lib fx_artifact)
    (fun c => cert_names c (s2l "a@b.c") (s2l "https://issuer.example")) sy_digest.
Proof.
  set (l := mx_line C_verify_identity [(O_trust_config, s2l "trust.json"); (O_cert_identity, s2l "a@b.c"); (O_cert_issuer, s2l "https://issuer.example")] [s2l "a.txt"; s2l "b.txt"]).
  assert (M : exists out, main fx mx_unset l fx_tree nil nil fx_tree nil out (Ok tt)).
  { assert (E : snd (verify_identity (sy_env sy_far) (entry_parsers ejx) (world_at fx_tools fx_tree) (verify_args (mx_ns fx mx_unset l))
      (ns_str (mx_ns fx mx_unset l) O_cert_identity) (ns_str (mx_ns fx mx_unset l) O_cert_issuer)) = Ok tt) by (vm_compute; reflexivity).
    eexists. apply (mx_run _ _ _ _ _ _ _ _ _ (Ok tt)); [reflexivity| |reflexivity]. apply Run_verify_identity; [reflexivity|].
    rewrite <- E. apply surjective_pairing. }
  destruct M as (out & M).
  assert (Mw : main_words wx_digit fx mx_unset (config_words (s2l "trust.json") (s2l "a@b.c") (s2l "https://issuer.example") [s2l "a.txt"; s2l "b.txt"]) fx_tree nil nil fx_tree nil out (Ok tt))
    by (apply Words_run with (l := l); [vm_compute; reflexivity|exact M]).
  destruct (C116_files wx_digit fx mx_unset _ _ _ _ _ _ _ _ _ _ _ tjx_lib bjx_lib ejx (bl_json bjx_lib) Mw) as (raw & text & ro & Ct & Ud & Rt & H);
    [discriminate|exact ex_plain|exact ex_unicode_lower|exact fx_calm|exact toy_hash_length|exact fx_reads|discriminate|reflexivity|].
  assert (Q : text = tjx_text).
  { assert (Q : Some raw = Some (ascii_bytes tjx_text)) by (rewrite <- Ct; reflexivity).
    assert (Q' : utf8_decode (ascii_bytes tjx_text) = Some tjx_text) by (vm_compute; reflexivity). revert Q Q' Ud. clear. generalize (ascii_bytes tjx_text) as y. generalize tjx_text as z.
    intros z y Q Q' Ud. congruence. }
  subst text. exists ro. split; [exact Rt|]. destruct (H (s2l "a.txt") (or_introl eq_refl)) as (data & rawb & Cd & Cb & F).
  assert (Ed : content (world_at (mc_tools fx) fx_tree) (path_of (s2l "a.txt")) = Some vx_input) by reflexivity.
  assert (Eb : content (world_at (mc_tools fx) fx_tree) (sibling (path_of (s2l "a.txt")) (s2l ".sigstore.json")) = Some (bundle_text bjx_lib fx_artifact)) by reflexivity.
  assert (Qd : data = vx_input) by congruence. assert (Qb : rawb = bundle_text bjx_lib fx_artifact) by (destruct Cb as [Cb|[Cb _]]; congruence).
  rewrite Qd, Qb in F. exact F.
Qed.

(** a workflow of the repository [o/r] signed the file *)
Example ex_plain_github : exists t, (t <= c_not_after gvx_cert)%Z /\ hs_signed ghx_history vx_key (toy_hash vx_input) t.
Proof.
  set (l := mx_line C_verify_github [(O_repository, s2l "o/r")] [s2l "a.txt"]).
  assert (M : exists out, main ghx mx_unset l gx_tree nil nil gx_tree nil out (Ok tt)).
  { assert (E : snd (verify_github ghx_env vx_parsers (world_at gx_tools gx_tree) (verify_args (mx_ns ghx mx_unset l)) (github_args (mx_ns ghx mx_unset l))) = Ok tt)
      by (vm_compute; reflexivity).
    eexists. apply (mx_run _ _ _ _ _ _ _ _ _ (Ok tt)); [reflexivity| |reflexivity]. apply Run_verify_github; [reflexivity|].
    rewrite <- E. apply surjective_pairing. }
  destruct M as (out & M).
  assert (Mw : main_words wx_digit ghx mx_unset (github_words (s2l "o/r") [s2l "a.txt"]) gx_tree nil nil gx_tree nil out (Ok tt))
    by (apply Words_run with (l := l); [vm_compute; reflexivity|exact M]).
  destruct (C116_github wx_digit ghx mx_unset _ _ _ _ _ _ _ _ _ Mw) as [_ G]; [discriminate|exact ex_plain|exact ex_unicode_lower|exact ghx_calm|reflexivity|].
  destruct (G ghx_history gx_existed (ghx_honest _) (s2l "a.txt") (or_introl eq_refl)) as (x & d & cert & who & tl & key & Dx & Dd & _ & _ & [-> _] & K & H).
  destruct who. change (Ok vx_key = Ok key) in K. injection K as <-. destruct H as (ts & L & [Sg|(pl & inner & s & y & V & _)]).
  - intros c t0 k t [-> _] _ L. cbn in L. change (c_not_after gvx_cert) with 2000000000000000%Z. lia.
  - exact ex_unforgeable.
  - exists ts. split; [assumption|]. destruct Dx as [(c & Cc & ->)|(Cn & _)]; [|vm_compute in Cn; discriminate].
    destruct Dd as (c' & Cc' & ->). vm_compute in Cc'. injection Cc' as <-. exact Sg.
  - discriminate V.
Qed.

(** Without the condition on the environment the same words mean something else: one variable, and another instance verifies. *)
Theorem C116_any_environment_refuted : exists environ identity issuer fs l, split_words wx_digit (verify_words identity issuer fs) = Ok l /\
  (forall r, r <> s2l "STAGING" -> environ (s2l "SIGSTORE_" ++ r) = None) /\
  says_verify environ l (mkVA fs None None None false None None true false) /\ forall a, says_verify environ l a -> a <> plain_verify fs.
Proof.
  assert (V : documented_variable F_staging = s2l "SIGSTORE_STAGING") by reflexivity.
  exists (mx_set "SIGSTORE_STAGING" "1"), (s2l "a@b.c"), (s2l "https://issuer.example"), [s2l "a.txt"], gx_line.
  split; [vm_compute; reflexivity|].
  assert (Q : forall v, v <> s2l "SIGSTORE_STAGING" -> mx_set "SIGSTORE_STAGING" "1" v = None).
  { intros v Nv. unfold mx_set. destruct (str_eqb v (s2l "SIGSTORE_STAGING")) eqn:E; [|reflexivity]. apply str_eqb_spec in E. contradiction. }
  split. { intros r Nr. apply Q. intros E. apply Nr. change (s2l "SIGSTORE_STAGING") with (s2l "SIGSTORE_" ++ s2l "STAGING") in E. apply app_inv_head in E. exact E. }
  assert (Sv : says_verify (mx_set "SIGSTORE_STAGING" "1") gx_line (mkVA [s2l "a.txt"] None None None false None None true false)).
  { set (ns := mx_ns mx (mx_set "SIGSTORE_STAGING" "1") gx_line).
    assert (E : verify_args ns = mkVA [s2l "a.txt"] None None None false None None true false) by (vm_compute; reflexivity). rewrite <- E.
    apply (parsed_verify (mc_lower mx) (mc_int mx)); [exact ex_unicode_lower|vm_compute; reflexivity]. }
  split; [exact Sv|]. intros a Sa E. subst a. pose proof (says_verify_unique _ _ _ _ Sa Sv) as D. discriminate D.
Qed.

Print Assumptions C116_any_environment_refuted.
Print Assumptions C116_sign.
Print Assumptions C116_verify_identity.
Print Assumptions C116_genuine.
Print Assumptions C116_github.
Print Assumptions C116_files.
Print Assumptions C116_sign_then_verify.
