(** Property C109: secrets do not appear in files or on the terminal, unless debugging output is asked for. *)
From Verif Require Import Base Codec Messages Env Keyring Cert Dsse KeyDetails Policy TrustedRoot SigningConfig Hashing Json Http
  Oidc Oauth LogEntry Bundle Verifier RekorClient Clients Tuf PyText CliVerify CliTrust Sign SignSteps Predicate CliSign CliEnv CliMain Terminal.
From Verif Require Import SignProofs PropsSign PropsSignThreads PropsCliSign PropsDisclosure PropsServices ToyEnv ToyBundles ToySign PropsSignVerify PropsCliMain.

(** ** Specification *)

(** the arguments without the identity token and the client secret *)
Definition hide (a : CommonArgs) : CommonArgs :=
  mkCA (ca_files a) (ca_overwrite a) None (ca_client_id a) None (ca_disable_ambient a) (ca_issuer a) (ca_force_oob a)
    (ca_rekor_version a) (ca_trust_config a) (ca_instance a) (ca_staging a) (ca_verbose a).
Definition hide_sign (a : SignArgs) : SignArgs :=
  mkSA (hide (sa_common a)) (sa_signature a) (sa_certificate a) (sa_bundle a) (sa_output_directory a) (sa_no_default_files a).
Definition hide_attest (a : AttestArgs) : AttestArgs := mkAA (hide (aa_common a)) (aa_predicate a) (aa_predicate_type a) (aa_bundle a).
(** two namespaces that differ in these two options only *)
Definition same_but_secrets (n1 n2 : Namespace) : Prop :=
  ns_command n1 = ns_command n2 /\ (forall o, o <> O_identity_token -> o <> O_client_secret -> ns_value n1 o = ns_value n2 o) /\
  (forall f, ns_flag n1 f = ns_flag n2 f) /\ ns_rekor_version n1 = ns_rekor_version n2 /\ ns_verbose n1 = ns_verbose n2 /\
  ns_positional n1 = ns_positional n2.

(** the same machine with other sources of identity tokens: ambient credentials, the interactive flow, and what the tokens
    say *)
Definition other_identity (tl : Tools) (token : str -> str -> res IdentityToken) (detect : str -> res (option str))
  (interactive : str -> str -> str -> bool -> res IdentityToken) : Tools :=
  mkTools (tl_world tl) (tl_libs tl) (tl_out tl) (tl_json tl) (tl_text tl) (tl_dump tl) token detect interactive (tl_to_json tl).

(** the identity that a command signs with, if any *)
Definition identified (tl : Tools) (a : CommonArgs) (t : tree) (k : res IdentityToken) : Prop :=
  exists c, configured tl a t c /\ k = identity tl a (mkCTC (ctc_root c) (ctc_signing c) (ca_rekor_version a)).
(** two identities of the same validity that the certificate authority answers alike; or the same failure *)
Definition similar (out : Outside) (x y : res IdentityToken) : Prop :=
  match x, y with
  | Ok k1, Ok k2 => it_nbf k1 = it_nbf k2 /\ it_exp k1 = it_exp k2 /\ same_answers out (it_raw k1) (it_raw k2)
  | Raise e1, Raise e2 => e1 = e2
  | _, _ => False
  end.

(** debugging output is asked for, with [--verbose] or the variable SIGSTORE_LOGLEVEL; [up] is [str.upper] of a character *)
Definition debugging (up : N -> str) (environ : str -> option str) (l : Line) : Prop :=
  1 <= ln_verbose l \/ flat_map up (given (environ (s2l "SIGSTORE_LOGLEVEL")) (s2l "INFO")) = s2l "DEBUG".
(** characters that are shown as they are: visible ASCII without backslash and quotation marks; all those of JWTs are *)
Definition ordinary (s : str) : Prop := forall c, In c s -> (33 <= c <= 126)%N /\ c <> 92%N /\ c <> 39%N /\ c <> 34%N.
Definition shown_in (s : str) (x : said) : Prop := exists before after, x = Sd_arguments (before ++ s ++ after).

(** ** The steps of an operation under two tokens *)

Inductive prel {A} : prog A -> prog A -> Prop :=
| Prel_done : forall r, prel (P_done r) (P_done r)
| Prel_next : forall ev ev' k k', (forall h h', public h = public h' -> without_secret (ev h) = without_secret (ev' h')) ->
    (forall h h', public h = public h' -> prel (k h) (k' h')) -> prel (P_next ev k) (P_next ev' k').
Lemma prel_bind : forall A B (p p' : prog A) (f f' : A -> prog B), prel p p' -> (forall x, prel (f x) (f' x)) -> prel (pbind p f) (pbind p' f').
Proof.
  intros A B p p' f f' H K. induction H as [[x|e]|ev ev' k k' E _ IH]; cbn [pbind]; [apply K|constructor|]. constructor; [exact E|exact IH].
Qed.
Lemma prel_step : forall A ev ev' (f f' : history -> res A),
  (forall h h', public h = public h' -> without_secret (ev h) = without_secret (ev' h') /\ f h = f' h') -> prel (pstep ev f) (pstep ev' f').
Proof.
  intros A ev ev' f f' E. constructor; intros h h' P; [apply E, P|]. destruct (E _ _ P) as [_ ->]. constructor.
Qed.

Section Tokens.
Variables (libs : SignLibs) (out : Outside) (tok1 tok2 : IdentityToken) (ctx : ContextParts).
Hypothesis Pub : depends_on_public out.
Hypothesis Ans : same_answers out (it_raw tok1) (it_raw tok2).
Hypothesis Nbf : it_nbf tok1 = it_nbf tok2.
Hypothesis Exp : it_exp tok1 = it_exp tok2.
Notation srel := (srel tok1 tok2 ctx).

Lemma prel_clock : prel (p_clock out) (p_clock out).
Proof. apply prel_step. intros h h' P. destruct (Pub _ _ P) as (-> & _). split; reflexivity. Qed.
Lemma prel_key : forall s1 s2, srel s1 s2 -> prel (p_private_key out s1) (p_private_key out s2).
Proof.
  intros s1 s2 (_ & _ & _ & _ & K & _). unfold p_private_key. rewrite K. destruct (sg_key s2); [constructor|].
  apply prel_step. intros h h' P. assert (L : length h = length h') by (rewrite <- (map_length without_secret h), <- (map_length without_secret h'); unfold public in P; rewrite P; reflexivity).
  rewrite L. destruct (Pub _ _ P) as (_ & -> & _). split; reflexivity.
Qed.
Lemma prel_cert : forall s1 s2, srel s1 s2 -> prel (p_signer_cert libs out s1) (p_signer_cert libs out s2).
Proof.
  intros s1 s2 S. pose proof S as (T1 & T2 & X1 & X2 & K & C). unfold p_signer_cert. rewrite C. destruct (sg_cert s2) as [c|].
  - apply prel_bind; [apply prel_clock|]. intros now. destruct (_ <? _)%Z; constructor.
  - apply prel_bind; [apply prel_clock|]. intros now. apply prel_bind.
    { rewrite T1, T2. unfold token_in_validity_period. rewrite Nbf, Exp. constructor. }
    intros ok. destruct (negb ok); [constructor|]. apply prel_bind; [apply prel_key, S|]. intros k. apply prel_bind.
    { unfold p_request_cert. rewrite T1, T2, X1, X2. apply prel_step. intros h h' P. split; [reflexivity|]. unfold fulcio_post.
      destruct (Url.urljoin (l_url libs) (cp_fulcio ctx) SIGNING_CERT_ENDPOINT) as [u|e]; [|reflexivity]. cbn [bind].
      rewrite Ans. destruct (Pub _ _ P) as (_ & _ & _ & -> & _). reflexivity. }
    intros cc. apply prel_bind; [apply prel_clock|]. intros now2. rewrite X1, X2. apply prel_bind; [constructor|]. intros kr.
    apply prel_bind; [constructor|]. intros u. constructor.
Qed.
Lemma stamp_same : forall h h' u sg, public h = public h' ->
  request_timestamp (l_env libs) (o_tsa_query out h) (o_tsa out h) u sg = request_timestamp (l_env libs) (o_tsa_query out h') (o_tsa out h') u sg.
Proof.
  intros h h' u sg P. destruct (Pub _ _ P) as (_ & _ & _ & _ & Q & T & _). unfold request_timestamp. rewrite Q.
  destruct (try_except (o_tsa_query out h' sg) _ _) as [q|e]; [|reflexivity]. cbn [bind]. rewrite T. reflexivity.
Qed.
Lemma prel_tsas : forall sg urls acc, prel (p_tsa_loop libs out urls sg acc) (p_tsa_loop libs out urls sg acc).
Proof.
  intros sg urls. induction urls as [|u urls IH]; intros acc; cbn [p_tsa_loop]; [constructor|]. constructor; [reflexivity|]. intros h h' P.
  rewrite (stamp_same h h' u sg P). destruct (request_timestamp (l_env libs) (o_tsa_query out h') (o_tsa out h') u sg) as [t|e]; [apply IH|].
  destruct (exn_eqb e ETimestamp); [apply IH|constructor].
Qed.
Lemma prel_final : forall s1 s2 cert x req, srel s1 s2 -> prel (p_finalize libs out s1 cert x req) (p_finalize libs out s2 cert x req).
Proof.
  intros s1 s2 cert x req (_ & _ & X1 & X2 & _). unfold p_finalize. rewrite X1, X2. apply prel_bind; [apply prel_tsas|]. intros ts.
  apply prel_bind; [|intros e; constructor]. apply prel_step. intros h h' P. split; [reflexivity|]. apply create_eq. intros q. apply (Pub _ _ P).
Qed.
Lemma prel_op : forall s1 s2 o, srel s1 s2 -> prel (p_op libs out s1 o) (p_op libs out s2 o).
Proof.
  intros s1 s2 o S. pose proof S as (_ & _ & X1 & X2 & _). destruct o as [i|st]; cbn [p_op].
  - unfold p_sign_artifact. apply prel_bind; [apply prel_cert, S|]. intros cert. apply prel_bind; [apply prel_key, S|]. intros k.
    apply prel_bind; [constructor|]. intros x. apply prel_bind.
    { unfold p_sign_prehashed. destruct (Nat.eqb _ 32); [|constructor]. apply prel_step. intros h h' P. split; [reflexivity|].
      destruct (Pub _ _ P) as (_ & _ & -> & _). reflexivity. }
    intros sg. apply prel_bind; [constructor|]. intros dg. apply prel_bind; [constructor|]. intros sg'. rewrite X1, X2. apply prel_bind; [constructor|].
    intros req. apply prel_final, S.
  - unfold p_sign_dsse. apply prel_bind; [apply prel_cert, S|]. intros cert. apply prel_bind; [apply prel_key, S|]. intros k.
    apply prel_bind.
    { apply prel_step. intros h h' P. split; [reflexivity|]. unfold dsse_sign. destruct (statement_pae st) as [p|ex]; [|reflexivity]. cbn [bind].
      destruct (Pub _ _ P) as (_ & _ & -> & _). reflexivity. }
    intros e. rewrite X1, X2. apply prel_bind; [constructor|]. intros req. apply prel_final, S.
Qed.
(** run to the end *)
Lemma prel_exec : forall A (p p' : prog A), prel p p' -> forall h h', public h = public h' ->
  public (fst (SignSteps.exec p h)) = public (fst (SignSteps.exec p' h')) /\ snd (SignSteps.exec p h) = snd (SignSteps.exec p' h').
Proof.
  intros A p p' H. induction H as [r|ev ev' k k' E K IH]; intros h h' P; cbn [SignSteps.exec]; [split; [exact P|reflexivity]|].
  apply (IH h h' P). unfold public in *. rewrite !map_app, P. cbn [map]. rewrite (E h h' P). reflexivity.
Qed.
Lemma cert_same : forall s1 s2, srel s1 s2 -> forall h h', public h = public h' ->
  public (fst (signer_cert libs out s1 h)) = public (fst (signer_cert libs out s2 h')) /\ snd (signer_cert libs out s1 h) = snd (signer_cert libs out s2 h').
Proof. intros s1 s2 S h h' P. rewrite <- !exec_signer_cert. apply prel_exec; [apply prel_cert, S|exact P]. Qed.
Lemma make_same : forall h h', public h = public h' ->
  public (fst (make_signer libs out tok1 ctx true h)) = public (fst (make_signer libs out tok2 ctx true h')) /\
  rres srel (snd (make_signer libs out tok1 ctx true h)) (snd (make_signer libs out tok2 ctx true h')).
Proof.
  intros h h' P. apply (r_make libs without_secret out out tok1 tok2 ctx); [reflexivity| | |exact P].
  - intros now. unfold token_in_validity_period. rewrite Nbf, Exp. reflexivity.
  - intros g1 g2 G. destruct (Pub g1 g2 G) as (Q1 & Q2 & Q3 & Q4 & Q5 & Q6 & Q7). split; [exact Q1|]. split; [exact Q2|]. split; [exact Q3|]. split; [exact Q5|].
    split; [intros u csr _; rewrite Q4; apply Ans|]. split; [intros; apply Q6|]. intros r. apply create_eq, Q7.
Qed.
End Tokens.

(** ** The commands under two tokens *)

Section Commands.
Variables (tl : Tools) (token2 : str -> str -> res IdentityToken) (detect2 : str -> res (option str))
  (ask2 : str -> str -> str -> bool -> res IdentityToken).
Let tl2 := other_identity tl token2 detect2 ask2.
Let libs := tl_libs tl.
Let out := tl_out tl.
Hypothesis Pub : depends_on_public out.

Section Jobs.
Variables (tok1 tok2 : IdentityToken) (ctx : ContextParts).
Hypothesis Ans : same_answers out (it_raw tok1) (it_raw tok2).
Hypothesis Nbf : it_nbf tok1 = it_nbf tok2.
Hypothesis Exp : it_exp tok1 = it_exp tok2.
Variables s1 s2 : Signer.
Hypothesis Sr : srel tok1 tok2 ctx s1 s2.

Definition phase_rel (x y : phase) : Prop := match x, y with Ph_signing p, Ph_signing q => prel p q | Ph_signing _, _ => False | _, _ => x = y end.
Lemma phase_rel_refl : forall ph, (forall p, ph <> Ph_signing p) -> phase_rel ph ph.
Proof. intros [| | | | | |] H; try reflexivity. destruct (H p eq_refl). Qed.

Lemma said_same : forall h h' ph ph', public h = public h' -> phase_rel ph ph' -> job_said tl h ph = job_said tl2 h' ph'.
Proof.
  intros h h' ph ph' P E. destruct ph as [|d|p|b todo|b p text pos todo|b|e]; try (cbn [phase_rel] in E; subst ph'; reflexivity).
  destruct ph' as [| |q| | | |]; try contradiction. cbn [phase_rel] in E. destruct E as [[b|e]|ev ev' k k' Ev _]; [reflexivity|reflexivity|].
  cbn [job_said]. specialize (Ev h h' P). destruct (ev h) as [x|x|x y|u r|u sg|r] eqn:Eh, (ev' h') as [x'|x'|x' y'|u' r'|u' sg'|r'] eqn:Eh'; try discriminate Ev; try reflexivity.
  assert (u' = u /\ sg' = sg) as [-> ->] by (cbn [without_secret] in Ev; split; congruence).
  change (tl_libs tl2) with libs. change (tl_out tl2) with out. fold libs. fold out. rewrite (stamp_same libs out Pub h h' u sg P). reflexivity.
Qed.

Lemma job_step_same : forall pr j n t h h2 ph ph2 t' h' ph', public h = public h2 -> phase_rel ph ph2 ->
  job_step tl s1 pr j n t h ph = (t', h', ph') ->
  exists h2' ph2', job_step tl2 s2 pr j n t h2 ph2 = (t', h2', ph2') /\ public h' = public h2' /\ phase_rel ph' ph2'.
Proof.
  intros pr j n t h h2 ph ph2 t' h' ph' P E H. destruct ph as [|d|p|b todo|b p text pos todo|b|e]; try (cbn [phase_rel] in E; subst ph2).
  - cbn [job_step] in *. change (loc tl2) with (loc tl). change (tl_libs tl2) with (tl_libs tl).
    destruct (files_of t (loc tl (job_file j))); injection H as <- <- <-; (eexists; eexists; split; [reflexivity|]; split; [exact P|reflexivity]).
  - cbn [job_step] in *. change (operation tl2 pr (job_file j) d) with (operation tl pr (job_file j) d).
    destruct (operation tl pr (job_file j) d) as [o|e]; injection H as <- <- <-; (eexists; eexists; split; [reflexivity|]; split; [exact P|]); [|reflexivity].
    exact (prel_op libs out tok1 tok2 ctx Pub Ans Nbf Exp s1 s2 o Sr).
  - destruct ph2 as [| |q| | | |]; try contradiction. cbn [phase_rel] in E. destruct E as [[b|e]|ev ev' k k' Ev Ek]; cbn [job_step] in *.
    + injection H as <- <- <-. eexists; eexists. split; [reflexivity|]. split; [exact P|reflexivity].
    + injection H as <- <- <-. eexists; eexists. split; [reflexivity|]. split; [exact P|reflexivity].
    + injection H as <- <- <-. eexists; eexists. split; [reflexivity|]. split; [|exact (Ek h h2 P)].
      unfold public in *. rewrite !map_app, P. cbn [map]. rewrite (Ev h h2 P). reflexivity.
  - cbn [job_step] in *. destruct todo as [|o todo]; [injection H as <- <- <-; eexists; eexists; split; [reflexivity|]; split; [exact P|reflexivity]|].
    assert (T : public (fst (output_text tl s1 b o h)) = public (fst (output_text tl2 s2 b o h2)) /\ snd (output_text tl s1 b o h) = snd (output_text tl2 s2 b o h2)).
    { unfold output_text. destruct o as [p|p|p].
      - unfold mbind, lift. destruct (bundle_signature b); cbn [fst snd ret]; split; solve [exact P|reflexivity].
      - unfold mbind. change (tl_libs tl2) with libs. change (tl_out tl2) with out. fold libs. fold out.
        destruct (cert_same libs out tok1 tok2 ctx Pub Ans Nbf Exp s1 s2 Sr h h2 P) as [Q1 Q2].
        destruct (signer_cert libs out s1 h) as [g1 r1], (signer_cert libs out s2 h2) as [g2 r2]. cbn [fst snd] in *. subst r2.
        destruct r1; cbn [fst snd ret]; split; solve [exact Q1|reflexivity].
      - cbn [fst snd ret]. split; [exact P|reflexivity]. }
    change (loc tl2) with (loc tl). destruct (output_text tl s1 b o h) as [g1 r1], (output_text tl2 s2 b o h2) as [g2 r2]. cbn [fst snd] in T. destruct T as [Q1 <-].
    destruct r1 as [text|e].
    + destruct (open_w t (loc tl (out_path o))) as [t1 [u|e]]; injection H as <- <- <-; (eexists; eexists; split; [reflexivity|]; split; [exact Q1|reflexivity]).
    + injection H as <- <- <-. eexists; eexists. split; [reflexivity|]. split; [exact Q1|reflexivity].
  - cbn [job_step] in *. injection H as <- <- <-. eexists; eexists. split; [reflexivity|]. split; [exact P|]. apply phase_rel_refl. intros q. destruct (length text <=? _); discriminate.
  - injection H as <- <- <-. eexists; eexists. split; [reflexivity|]. split; [exact P|reflexivity].
  - injection H as <- <- <-. eexists; eexists. split; [reflexivity|]. split; [exact P|reflexivity].
Qed.

Definition sys_rel (y z : Sys) : Prop := y_tree y = y_tree z /\ public (y_hist y) = public (y_hist z) /\ Forall2 phase_rel (y_phases y) (y_phases z).
Lemma sys_step_same : forall pr jobs x y z, sys_rel y z ->
  act_said tl jobs y x = act_said tl2 jobs z x /\ sys_rel (sys_step tl s1 pr jobs y x) (sys_step tl2 s2 pr jobs z x).
Proof.
  intros pr jobs x [t h phs] [t2 h2 phs2] (Et & Eh & Ep). cbn [y_tree y_hist y_phases] in Et, Eh, Ep. subst t2.
  destruct x as [i n|p n]; cbn [act_said sys_step y_tree y_hist y_phases]; [|repeat split; [exact Eh|exact Ep]].
  destruct (nth_error jobs i) as [j|]; [|repeat split; [exact Eh|exact Ep]].
  destruct (nth_error phs i) as [ph|] eqn:N.
  - destruct (Forall2_nth _ _ _ _ _ _ _ Ep N) as (ph2 & -> & Eph). split; [apply said_same; assumption|].
    destruct (job_step tl s1 pr j n t h ph) as [[t' h'] ph'] eqn:J. destruct (job_step_same _ _ _ _ _ _ _ _ _ _ _ Eh Eph J) as (h2' & ph2' & -> & Q & E').
    repeat split; cbn; [exact Q|]. apply Forall2_set; assumption.
  - rewrite (Forall2_nth_none _ _ _ _ _ _ Ep N). repeat split; [exact Eh|exact Ep].
Qed.
Lemma sys_run_same : forall pr jobs sched y z, sys_rel y z ->
  sys_said tl s1 pr jobs sched y = sys_said tl2 s2 pr jobs sched z /\ sys_rel (sys_run tl s1 pr jobs sched y) (sys_run tl2 s2 pr jobs sched z).
Proof.
  intros pr jobs. unfold sys_run. induction sched as [|x sched IH]; intros y z E; cbn [fold_left sys_said]; [split; [reflexivity|exact E]|].
  destruct (sys_step_same pr jobs x y z E) as [Q E']. destruct (IH _ _ E') as [Q2 E2]. rewrite Q, Q2. split; [reflexivity|exact E2].
Qed.
Lemma finish_same : forall phs phs2 r, Forall2 phase_rel phs phs2 -> finish phs r -> finish phs2 r.
Proof.
  intros phs phs2 r E F.
  assert (B : forall q, In q phs2 -> exists p, In p phs /\ phase_rel p q).
  { intros q I. clear F. induction E as [|x y l l' Rxy _ IH]; [destruct I|]. destruct I as [<-|I]; [exists x; split; [left; reflexivity|exact Rxy]|].
    destruct (IH I) as (p & Ip & R). exists p. split; [right; exact Ip|exact R]. }
  assert (D : forall p q, phase_rel p q -> ended p -> p = q) by (intros [| | | | | |] q R En; try contradiction; exact R).
  destruct F as [A|e A I].
  - apply Fin_ok. intros q Iq. destruct (B q Iq) as (p & Ip & R). destruct (A p Ip) as (b & ->). exists b. symmetry. exact (D _ _ R Logic.I).
  - apply Fin_failed.
    + intros q Iq. destruct (B q Iq) as (p & Ip & R). rewrite <- (D _ _ R (A p Ip)). exact (A p Ip).
    + clear B A. induction E as [|x y l l' Rxy _ IH]; [destruct I|]. destruct I as [->|I]; [left; symmetry; exact (D _ _ Rxy Logic.I)|right; auto].
Qed.
End Jobs.

Lemma configured_hide : forall a1 a2 t c, hide a1 = hide a2 -> configured tl a1 t c -> configured tl2 a2 t c.
Proof.
  intros a1 a2 t c H Cf. unfold configured in *. change (world_at tl2 t) with (world_at tl t).
  assert (E1 := f_equal ca_trust_config H). assert (E2 := f_equal ca_instance H). assert (E3 := f_equal ca_staging H). cbn in E1, E2, E3. rewrite <- E1, <- E2, <- E3. exact Cf.
Qed.

Variables (a1 a2 : CommonArgs) (t0 : tree).
Hypothesis Hid : hide a1 = hide a2.
Hypothesis Alike : forall k1 k2, identified tl a1 t0 k1 -> identified tl2 a2 t0 k2 -> similar out k1 k2.

Lemma setup_same : forall t h, same_files t0 t ->
  public (fst (setup tl a1 t h)) = public (fst (setup tl2 a2 t h)) /\
  rres (fun s1 s2 => exists tok1 tok2 ctx, same_answers out (it_raw tok1) (it_raw tok2) /\ it_nbf tok1 = it_nbf tok2 /\ it_exp tok1 = it_exp tok2 /\
    srel tok1 tok2 ctx s1 s2) (snd (setup tl a1 t h)) (snd (setup tl2 a2 t h)).
Proof.
  intros t h Sf. unfold setup.
  assert (V : ca_rekor_version a2 = ca_rekor_version a1) by exact (eq_sym (f_equal ca_rekor_version Hid)).
  destruct (get_trust_config (world_at tl t) (ca_trust_config a1) (ca_instance a1) (ca_staging a1) false) as [c|e] eqn:Gc.
  2: { assert (E1 := f_equal ca_trust_config Hid). assert (E2 := f_equal ca_instance Hid). assert (E3 := f_equal ca_staging Hid). cbn in E1, E2, E3.
       unfold signing_config. change (world_at tl2 t) with (world_at tl t). rewrite <- E1, <- E2, <- E3, Gc. cbn. split; reflexivity. }
  assert (C1 : configured tl a1 t c) by exact Gc. pose proof (configured_hide a1 a2 t c Hid C1) as C2.
  assert (S1 : signing_config tl a1 t = Ok (mkCTC (ctc_root c) (ctc_signing c) (ca_rekor_version a1))) by (unfold signing_config; rewrite Gc; reflexivity).
  assert (S2 : signing_config tl2 a2 t = Ok (mkCTC (ctc_root c) (ctc_signing c) (ca_rekor_version a1))).
  { unfold signing_config. unfold configured in C2. rewrite C2, V. reflexivity. }
  assert (Sm : similar out (identity tl a1 (mkCTC (ctc_root c) (ctc_signing c) (ca_rekor_version a1))) (identity tl2 a2 (mkCTC (ctc_root c) (ctc_signing c) (ca_rekor_version a1)))).
  { apply Alike; exists c; split; try (rewrite ?V; reflexivity).
    - apply (configured_same tl a1 t); [intros q; symmetry; apply Sf|exact C1].
    - apply (configured_same tl2 a2 t); [intros q; symmetry; apply Sf|exact C2]. }
  rewrite S1, S2. unfold mbind, lift. change (w_start (tl_world tl2)) with (w_start (tl_world tl)).
  destruct (context_from_trust_config (w_start (tl_world tl)) (mkCTC (ctc_root c) (ctc_signing c) (ca_rekor_version a1))) as [ctx|e]; [|split; reflexivity].
  change (tl_libs tl2) with libs. change (tl_out tl2) with out. fold libs. fold out.
  destruct (identity tl a1 _) as [k1|e1], (identity tl2 a2 _) as [k2|e2]; cbn [similar] in Sm; try contradiction; [|split; [reflexivity|exact Sm]].
  destruct Sm as (Nb & Ex & An).
  destruct (make_same libs out k1 k2 ctx Pub An Nb Ex h h eq_refl) as [P1 R1].
  destruct (make_signer libs out k1 ctx true h) as [g1 [s1|e1]], (make_signer libs out k2 ctx true h) as [g2 [s2|e2]]; cbn [fst snd rres] in *; try contradiction; [|split; assumption].
  destruct (cert_same libs out k1 k2 ctx Pub An Nb Ex s1 s2 R1 g1 g2 P1) as [P2 R2].
  destruct (signer_cert libs out s1 g1) as [u1 r1], (signer_cert libs out s2 g2) as [u2 r2]. cbn [fst snd] in *. subst r2.
  destruct r1; cbn [fst snd rres ret]; split; try assumption; [|reflexivity]. exists k1, k2, ctx. auto.
Qed.

Lemma common_same : forall pr h0 p1 sched t h lines r, same_files t0 (fst p1) ->
  common_said tl a1 pr h0 p1 sched t h lines r ->
  exists h2, common_said tl2 a2 pr h0 p1 sched t h2 lines r /\ public h = public h2.
Proof.
  intros pr h0 p1 sched t h lines r Sf H. assert (Vb : ca_verbose a1 = ca_verbose a2) by exact (f_equal ca_verbose Hid).
  destruct H as [t1 e|t1 m h1 e S|t1 m h1 s sched y r S Y F]; cbn [fst] in Sf; rewrite Vb.
  - exists h0. split; [constructor|reflexivity].
  - destruct (setup_same t1 h0 Sf) as [P R]. rewrite S in P, R. destruct (setup tl2 a2 t1 h0) as [h2 [s2|e2]] eqn:S2; cbn [fst snd rres] in *; [contradiction|]. subst e2.
    exists h2. split; [apply Said_no_signer; exact S2|exact P].
  - destruct (setup_same t1 h0 Sf) as [P R]. rewrite S in P, R. destruct (setup tl2 a2 t1 h0) as [h2 [s2|e2]] eqn:S2; cbn [fst snd rres] in *; [|contradiction].
    destruct R as (tok1 & tok2 & ctx & An & Nb & Ex & Sr).
    destruct (sys_run_same tok1 tok2 ctx An Nb Ex s s2 Sr pr (jobs_of m) sched (sys_start (jobs_of m) t1 h1) (sys_start (jobs_of m) t1 h2)) as [Sd (Et & Eh & Ep)].
    { split; [reflexivity|]. split; [exact P|]. cbn [sys_start y_phases]. generalize (jobs_of m).
      intros js. induction js; cbn [map]; constructor; [reflexivity|assumption]. }
    rewrite Y in Et, Eh, Ep. rewrite Et. eexists. split; [|exact Eh].
    assert (Ct : sg_cert s = sg_cert s2) by apply Sr. rewrite Sd, Ct.
    apply (Said_jobs tl2 a2 pr h0 t1 m h2 s2 sched _ r S2 eq_refl). exact (finish_same _ _ _ Ep F).
Qed.
End Commands.

(** ** The properties *)

Lemma hide_sign_prepare : forall tl tk dt ask a1 a2 t, hide_sign a1 = hide_sign a2 -> sign_prepare (other_identity tl tk dt ask) a2 t = sign_prepare tl a1 t.
Proof.
  intros tl tk dt ask [[] ? ? ? ? ?] [[] ? ? ? ? ?] t H. unfold hide_sign, hide in H. cbn in H. injection H. intros. subst. reflexivity.
Qed.
Lemma hide_attest_prepare : forall tl tk dt ask a1 a2 t, hide_attest a1 = hide_attest a2 -> attest_prepare (other_identity tl tk dt ask) a2 t = attest_prepare tl a1 t.
Proof.
  intros tl tk dt ask [[] ? ? ?] [[] ? ? ?] t H. unfold hide_attest, hide in H. cbn in H. injection H. intros. subst. reflexivity.
Qed.

(** With another secret (identity token, ambient credentials, client secret), if the identity that results is of the same
    validity and answered alike by the certificate authority, everything else is the same: the files, what is said, how
    the command ends, and what is sent to everybody but the authority. *)
Theorem C109_sign : forall tl token2 detect2 ask2 a1 a2 t0 h0 sched t h lines r, depends_on_public (tl_out tl) -> hide_sign a1 = hide_sign a2 ->
  (forall k1 k2, identified tl (sa_common a1) t0 k1 -> identified (other_identity tl token2 detect2 ask2) (sa_common a2) t0 k2 -> similar (tl_out tl) k1 k2) ->
  sign_said tl a1 t0 h0 sched t h lines r ->
  exists h2, sign_said (other_identity tl token2 detect2 ask2) a2 t0 h0 sched t h2 lines r /\ public h = public h2.
Proof.
  intros tl token2 detect2 ask2 a1 a2 t0 h0 sched t h lines r Pub H Al R. unfold sign_said in *. rewrite (hide_sign_prepare _ _ _ _ _ _ _ H).
  destruct (sign_prepare tl a1 t0) as [t1 r1] eqn:Pr. apply sign_prepare_prepared in Pr.
  apply (common_same tl token2 detect2 ask2 Pub (sa_common a1) (sa_common a2) t0 (f_equal sa_common H) Al); [apply grows_files, Pr|exact R].
Qed.
Theorem C109_attest : forall tl token2 detect2 ask2 a1 a2 t0 h0 sched t h lines r, depends_on_public (tl_out tl) -> hide_attest a1 = hide_attest a2 ->
  (forall k1 k2, identified tl (aa_common a1) t0 k1 -> identified (other_identity tl token2 detect2 ask2) (aa_common a2) t0 k2 -> similar (tl_out tl) k1 k2) ->
  attest_said tl a1 t0 h0 sched t h lines r ->
  exists h2, attest_said (other_identity tl token2 detect2 ask2) a2 t0 h0 sched t h2 lines r /\ public h = public h2.
Proof.
  intros tl token2 detect2 ask2 a1 a2 t0 h0 sched t h lines r Pub H Al R. unfold attest_said in *. rewrite (hide_attest_prepare _ _ _ _ _ _ _ H).
  assert (Ty : aa_predicate_type a2 = aa_predicate_type a1) by exact (eq_sym (f_equal aa_predicate_type H)). rewrite Ty.
  destruct (attest_prepare tl a1 t0) as [t1 r1] eqn:Pr. apply attest_prepare_prepared in Pr. assert (Sf : same_files t0 t1) by (apply grows_files, Pr).
  destruct r1 as [[m j]|e]; apply (common_same tl token2 detect2 ask2 Pub (aa_common a1) (aa_common a2) t0 (f_equal aa_common H) Al); solve [exact Sf|exact R].
Qed.

(** The commands that say something are those of CliSign.v: the lines printed at the end are among what is said. *)
Definition printed_outputs (l : list said) : list output := flat_map (fun x => match x with Sd_output o => [o] | _ => nil end) l.
Lemma printed_app : forall l l', printed_outputs (l ++ l') = printed_outputs l ++ printed_outputs l'.
Proof. intros. apply flat_map_app. Qed.
Lemma printed_final : forall r, printed_outputs (final_said r) = nil.
Proof. intros [u|e]; [reflexivity|]. cbn. destruct (is_sigstore_error e); reflexivity. Qed.
Lemma printed_job : forall tl h ph, printed_outputs (job_said tl h ph) = nil.
Proof.
  intros tl h ph. destruct ph as [| |[[b|e]|ev k]| | | |]; try reflexivity; cbn [job_said].
  - destruct (exn_eqb e EExpiredIdentity); [reflexivity|]. destruct (exn_eqb e EExpiredCertificate); reflexivity.
  - destruct (ev h); try reflexivity. destruct (request_timestamp _ _ _ _ _) as [x|e]; [reflexivity|]. destruct (exn_eqb e ETimestamp); reflexivity.
Qed.
Lemma printed_sys : forall tl s pr jobs sched y, printed_outputs (sys_said tl s pr jobs sched y) = nil.
Proof.
  intros tl s pr jobs. induction sched as [|x sched IH]; intros y; cbn [sys_said]; [reflexivity|]. rewrite printed_app, IH, app_nil_r.
  destruct x as [i n|p n]; [|reflexivity]. cbn [act_said]. destruct (nth_error jobs i); [|reflexivity]. destruct (nth_error (y_phases y) i); [|reflexivity]. apply printed_job.
Qed.
Lemma printed_map : forall l, printed_outputs (map Sd_output l) = l.
Proof. induction l as [|o l IH]; [reflexivity|]. cbn. f_equal. exact IH. Qed.
Lemma printed_jobs : forall tl s pr m sched y r, printed_outputs (match sg_cert s with Some c => [Sd_certificate (c_der c)] | None => nil end ++
  sys_said tl s pr (jobs_of m) sched y ++ match r with Ok _ => map Sd_output (written m) | Raise _ => nil end ++ final_said r) =
  match r with Ok _ => written m | Raise _ => nil end.
Proof.
  intros. rewrite !printed_app, printed_sys, printed_final, app_nil_r. destruct (sg_cert s); destruct r; cbn [app printed_outputs flat_map]; try apply printed_map; reflexivity.
Qed.
Lemma common_said_run : forall tl a pr h0 p1 sched t h lines r, common_said tl a pr h0 p1 sched t h lines r -> common_run tl a pr h0 p1 sched t h (printed_outputs lines) r.
Proof.
  intros tl a pr h0 p1 sched t h lines r H. destruct H as [t1 e|t1 m h1 e S|t1 m h1 s sched y r S Y F].
  - rewrite printed_final. constructor.
  - rewrite printed_final. apply Run_no_signer; exact S.
  - rewrite printed_jobs. eapply Run_jobs; eassumption.
Qed.
Lemma common_run_said : forall tl a pr h0 p1 sched t h lines r, common_run tl a pr h0 p1 sched t h lines r ->
  exists said, common_said tl a pr h0 p1 sched t h said r /\ printed_outputs said = lines.
Proof.
  intros tl a pr h0 p1 sched t h lines r H. destruct H as [t1 e|t1 m h1 e S|t1 m h1 s sched y r S Y F].
  - eexists. split; [constructor|apply printed_final].
  - eexists. split; [apply Said_no_signer; exact S|apply printed_final].
  - eexists. split; [eapply Said_jobs; eassumption|apply printed_jobs].
Qed.
Theorem C109_sign_run : forall tl a t0 h0 sched t h lines r,
  sign_run tl a t0 h0 sched t h lines r <-> exists said, sign_said tl a t0 h0 sched t h said r /\ printed_outputs said = lines.
Proof.
  intros. split; [apply common_run_said|]. intros (said & H & <-). apply common_said_run, H.
Qed.
Theorem C109_attest_run : forall tl a t0 h0 sched t h lines r,
  attest_run tl a t0 h0 sched t h lines r <-> exists said, attest_said tl a t0 h0 sched t h said r /\ printed_outputs said = lines.
Proof.
  intros. unfold attest_run, attest_said. destruct (attest_prepare tl a t0) as [t1 [[m j]|e]]; (split; [apply common_run_said|]; intros (said & H & <-); apply common_said_run, H).
Qed.

(** The same for [main] with the whole terminal, if no debugging output is asked for. *)
Definition with_tools (mc : Machine) (tl : Tools) : Machine :=
  mkMachine (mc_env mc) (mc_ps mc) tl (mc_lower mc) (mc_int mc) (mc_http mc) (mc_data mc) (mc_cache mc) (mc_tuf mc) (mc_embedded mc)
    (mc_parse_tr mc) (mc_parse_sc mc) (mc_parse_config mc) (mc_now mc).
Lemma secrets_common : forall n1 n2, same_but_secrets n1 n2 -> hide (common_args n1) = hide (common_args n2).
Proof.
  intros n1 n2 (C & V & F & R & Vb & P). unfold hide, common_args. cbn. unfold ns_str, ns_path.
  rewrite !V, !F, R, Vb, P by discriminate. reflexivity.
Qed.
Lemma secrets_sign : forall n1 n2, same_but_secrets n1 n2 -> hide_sign (sign_args n1) = hide_sign (sign_args n2).
Proof.
  intros n1 n2 S. unfold hide_sign, sign_args. cbn [sa_common sa_signature sa_certificate sa_bundle sa_output_directory sa_no_default_files].
  rewrite (secrets_common _ _ S). destruct S as (C & V & F & R & Vb & P). unfold ns_path. rewrite !V, !F by discriminate. reflexivity.
Qed.
Lemma secrets_attest : forall n1 n2, same_but_secrets n1 n2 -> hide_attest (attest_args n1) = hide_attest (attest_args n2).
Proof.
  intros n1 n2 S. unfold hide_attest, attest_args. cbn [aa_common aa_predicate aa_predicate_type aa_bundle].
  rewrite (secrets_common _ _ S). destruct S as (C & V & F & R & Vb & P). unfold ns_path, ns_str. rewrite !V by discriminate. reflexivity.
Qed.
Lemma parsed_verbose : forall lo ti environ l ns, parse_line lo ti environ l = Ok ns -> ns_verbose ns = ln_verbose l.
Proof.
  intros lo ti environ l ns H. unfold parse_line in H. destruct (parse_flags lo environ (ln_flags l)) as [fl|]; [|discriminate]. cbn [bind] in H.
  destruct (_ || negb _); [discriminate|]. cbn [raise_if bind] in H.
  destruct (match given_value l O_rekor_version with Some s => _ | None => _ end) as [v|]; [|discriminate]. cbn [bind] in H.
  destruct (existsb (bad_value _) (ln_options l)); [discriminate|]. cbn [raise_if bind] in H. injection H as <-. reflexivity.
Qed.
Lemma level_debug : forall up environ n, initial_level up environ = Ok n ->
  (n = 10%Z <-> flat_map up (given (environ (s2l "SIGSTORE_LOGLEVEL")) (s2l "INFO")) = s2l "DEBUG") /\ (n = 0 \/ 10 <= n)%Z.
Proof.
  intros up environ n H. unfold initial_level in H. set (x := flat_map up _) in *. clearbody x. unfold LEVELS in H. cbn [assoc] in H.
  repeat match type of H with context [if str_eqb x ?y then _ else _] => let E := fresh "E" in destruct (str_eqb x y) eqn:E end; try discriminate;
    injection H as <-; (split; [|lia]); (split; intros Q; [try discriminate Q|]); try (apply str_eqb_spec; assumption); try reflexivity;
    exfalso; match goal with E : str_eqb x _ = true |- _ => apply str_eqb_spec in E; rewrite E in Q; revert Q; vm_compute; discriminate end.
Qed.
Lemma effective_debug : forall up environ l n, initial_level up environ = Ok n -> (effective_level n (ln_verbose l) <= 10)%Z <-> debugging up environ l.
Proof.
  intros up environ l n H. apply level_debug in H. destruct H as [H R]. unfold effective_level, debugging. destruct (Nat.leb_spec 1 (ln_verbose l)) as [L|L].
  - split; [intros _; left; exact L|lia].
  - rewrite <- H. destruct (Z.eqb_spec n 0); split; intros Q; try lia; right; lia.
Qed.
Theorem C109_terminal : forall mc up environ1 environ2 l1 l2 n1 n2 token2 detect2 ask2 t0 h0 sched t h lines r,
  let tl2 := other_identity (mc_tools mc) token2 detect2 ask2 in
  depends_on_public (tl_out (mc_tools mc)) ->
  parse_line (mc_lower mc) (mc_int mc) environ1 l1 = Ok n1 -> parse_line (mc_lower mc) (mc_int mc) environ2 l2 = Ok n2 -> same_but_secrets n1 n2 ->
  initial_level up environ1 = initial_level up environ2 -> ~ debugging up environ1 l1 ->
  (forall k1 k2, identified (mc_tools mc) (common_args n1) t0 k1 -> identified tl2 (common_args n2) t0 k2 -> similar (tl_out (mc_tools mc)) k1 k2) ->
  terminal mc up environ1 l1 t0 h0 sched t h lines r ->
  exists h2, terminal (with_tools mc tl2) up environ2 l2 t0 h0 sched t h2 lines r /\ public h = public h2.
Proof.
  intros mc up environ1 environ2 l1 l2 n1 n2 token2 detect2 ask2 t0 h0 sched t h lines r tl2 Pub P1 P2 S Lv Nd Al T.
  destruct T as [e E|n e E U|n ns sched t h lines r E U R].
  - exists h0. split; [apply Term_level; rewrite <- Lv; exact E|reflexivity].
  - congruence.
  - assert (ns = n1) by congruence. subst ns.
    assert (X : exists h2, (ns_command n2 = C_sign /\ sign_said tl2 (sign_args n2) t0 h0 sched t h2 lines r \/
      ns_command n2 = C_attest /\ attest_said tl2 (attest_args n2) t0 h0 sched t h2 lines r) /\ public h = public h2).
    { assert (C : ns_command n1 = ns_command n2) by apply S. destruct R as [[C1 R]|[C1 R]].
      - destruct (C109_sign _ token2 detect2 ask2 _ (sign_args n2) _ _ _ _ _ _ _ Pub (secrets_sign _ _ S) Al R) as (h2 & R2 & Q). exists h2. split; [left|exact Q]. split; [congruence|exact R2].
      - destruct (C109_attest _ token2 detect2 ask2 _ (attest_args n2) _ _ _ _ _ _ _ Pub (secrets_attest _ _ S) Al R) as (h2 & R2 & Q). exists h2. split; [right|exact Q]. split; [congruence|exact R2]. }
    destruct X as (h2 & R2 & Q). exists h2. split; [|exact Q].
    assert (V1 := parsed_verbose _ _ _ _ _ P1). assert (V : ns_verbose n1 = ns_verbose n2) by apply S.
    assert (Hi : forall x, visible (effective_level n (ns_verbose n1)) (Sd_arguments x) = false).
    { intros x. unfold visible. cbn [level]. apply Z.leb_gt. rewrite V1. destruct (Z.le_gt_cases (effective_level n (ln_verbose l1)) 10) as [G|G]; [|exact G].
      exfalso. apply Nd. apply (effective_debug up environ1 l1 n E), G. }
    assert (F : filter (visible (effective_level n (ns_verbose n1))) (Sd_arguments (arguments_text n1) :: lines) =
      filter (visible (effective_level n (ns_verbose n2))) (Sd_arguments (arguments_text n2) :: lines)).
    { rewrite <- V. cbn [filter]. rewrite !Hi. reflexivity. }
    rewrite F. apply (Term_run (with_tools mc tl2) up environ2 l2 t0 h0 n n2); [rewrite <- Lv; exact E|exact P2|exact R2].
Qed.
(** By default none is asked for. *)
Theorem C109_default : forall up environ l, (forall c, (65 <= c <= 90)%N -> up c = [c]) -> environ (s2l "SIGSTORE_LOGLEVEL") = None -> ln_verbose l = 0 ->
  ~ debugging up environ l.
Proof.
  intros up environ l U E V [H|H]; [lia|]. rewrite E in H. cbn [given] in H.
  assert (X : flat_map up (s2l "INFO") = s2l "INFO").
  { change (s2l "INFO") with ([73; 78; 70; 79]%N). cbn [flat_map]. rewrite !U by lia. reflexivity. }
  rewrite X in H. revert H. vm_compute. discriminate.
Qed.

(** But if it is, the token and the client secret are on the terminal, also if they come from the environment. *)
Lemma repr_ordinary : forall s, ordinary s -> py_repr s = [39%N] ++ s ++ [39%N].
Proof.
  intros s O. unfold py_repr. assert (Q : existsb (N.eqb 39) s = false).
  { destruct (existsb (N.eqb 39) s) eqn:X; [|reflexivity]. apply existsb_exists in X. destruct X as (c & I & X). apply N.eqb_eq in X. subst c. destruct (O _ I) as (_ & _ & Y & _). congruence. }
  rewrite Q. cbn [andb]. cbn [app]. do 2 f_equal. induction s as [|c s IH]; [reflexivity|]. cbn [flat_map].
  rewrite IH; [|intros x I; apply O; right; exact I|cbn [existsb] in Q; apply orb_false_iff in Q; apply Q].
  destruct (O c (or_introl eq_refl)) as (R & B1 & B2 & B3). unfold repr_char.
  destruct (N.eqb_spec c 92); [contradiction|]. destruct (N.eqb_spec c 39); [contradiction|]. cbn [orb].
  destruct (N.eqb_spec c 10); [lia|]. destruct (N.eqb_spec c 13); [lia|]. destruct (N.eqb_spec c 9); [lia|].
  destruct (N.ltb_spec c 32); [lia|]. destruct (N.eqb_spec c 127); [lia|]. reflexivity.
Qed.
Theorem C109_verbose_reveals : forall mc up environ l t0 h0 sched t h lines r o s,
  In o [O_identity_token; O_client_secret] -> has_value environ l o (Some s) -> ordinary s ->
  debugging up environ l -> (exists ns, parse_line (mc_lower mc) (mc_int mc) environ l = Ok ns) -> (exists n, initial_level up environ = Ok n) ->
  terminal mc up environ l t0 h0 sched t h lines r ->
  exists x, In x lines /\ shown_in s x.
Proof.
  intros mc up environ l t0 h0 sched t h lines r o s Io Hv O D [ns P] [n L] T. destruct T as [e E|n' e E U|n' ns' sched t h lines r E U R]; [congruence|congruence|].
  assert (ns' = ns) by congruence. subst ns'. assert (V := parsed_verbose _ _ _ _ _ P).
  exists (Sd_arguments (arguments_text ns)). split.
  - apply filter_In. split; [left; reflexivity|]. unfold visible. cbn [level]. apply Z.leb_le. rewrite V. apply (effective_debug up environ l n' E), D.
  - assert (X : ns_value ns o = Some s).
    { assert (Y : forall o', In o' [O_identity_token; O_client_secret] -> ns_value ns o' = value environ l o').
      { intros o' I'. unfold parse_line in P. destruct (parse_flags _ _ _) as [fl|]; [|discriminate]. cbn [bind] in P. destruct (_ || negb _); [discriminate|]. cbn [raise_if bind] in P.
        destruct (match given_value l O_rekor_version with Some s => _ | None => _ end) as [v|]; [|discriminate]. cbn [bind] in P.
        destruct (existsb (bad_value _) (ln_options l)); [discriminate|]. cbn [raise_if bind] in P. injection P as <-. reflexivity. }
      rewrite (Y o Io). eapply has_value_unique; [apply value_has|exact Hv]. }
    assert (I : In o all_opts) by apply all_opts_all. apply in_split in I. destruct I as (b & a & I). unfold shown_in, arguments_text. rewrite I, flat_map_app. cbn [flat_map].
    unfold option_text at 2. rewrite X, (repr_ordinary s O).
    exists (s2l "parsed arguments Namespace(" ++ flat_map (option_text ns) b ++ dest o ++ s2l "=" ++ [39%N]), ([39%N] ++ s2l ", " ++ flat_map (option_text ns) a ++ s2l ")").
    f_equal. rewrite <- !app_assoc. reflexivity.
Qed.

(** ** Examples *)

(** Two tokens, given on the command line.  Everything but the request to the authority is the same. *)
Definition tex_token (raw client : str) : res IdentityToken :=
  if str_eqb raw (s2l "one.two") then Ok sy_token else if str_eqb raw (s2l "three.four") then Ok px_token else Raise EIdentity.
Definition tex_tools : Tools := other_identity mx_tools tex_token (tl_detect mx_tools) (tl_interactive mx_tools).
Definition tex : Machine := with_tools mx tex_tools.
Definition tex_line (token : String.string) : Line := mx_line C_sign [(O_identity_token, s2l token)] [s2l "a.txt"].
Lemma svx_public : depends_on_public svx_out.
Proof.
  intros h h' E. assert (L : length h = length h') by (rewrite <- (map_length without_secret h), <- (map_length without_secret h'); exact (f_equal _ E)).
  unfold svx_out. cbn [o_clock o_pub o_sign o_fulcio o_tsa_query o_tsa o_log]. unfold sy_pub. rewrite L.
  split; [reflexivity|]. split; [reflexivity|]. repeat (split; [intros; reflexivity|]). intros. reflexivity.
Qed.
Definition exec_said (tl : Tools) (a : CommonArgs) (p1 : tree * res OutputMap) (sched : list act) : option (Sys * list said) :=
  match p1 with
  | (t1, Ok m) =>
    match setup tl a t1 nil with
    | (h, Ok s) =>
      let y := sys_run tl s None (jobs_of m) sched (sys_start (jobs_of m) t1 h) in
      if forallb (fun ph => match ph with Ph_done _ => true | _ => false end) (y_phases y)
      then Some (y, match sg_cert s with Some c => [Sd_certificate (c_der c)] | None => nil end ++
        sys_said tl s None (jobs_of m) sched (sys_start (jobs_of m) t1 h) ++ map Sd_output (written m))
      else None
    | _ => None
    end
  | _ => None
  end.
Lemma exec_said_run : forall tl a p1 sched (P : list said -> Prop), ca_verbose a = false ->
  match exec_said tl a p1 sched with Some (_, l) => P l | None => False end ->
  exists t h l, common_said tl a None nil p1 sched t h l (Ok tt) /\ P l.
Proof.
  intros tl a [t1 [m|e]] sched P Vb H; [|destruct H]. unfold exec_said in H. destruct (setup tl a t1 nil) as [h [s|e]] eqn:S; [|destruct H].
  set (y := sys_run tl s None (jobs_of m) sched (sys_start (jobs_of m) t1 h)) in *.
  destruct (forallb _ (y_phases y)) eqn:F; [|destruct H]. exists (y_tree y), (y_hist y). eexists. split; [|exact H].
  assert (R : common_said tl a None nil (t1, Ok m) sched (y_tree y) (y_hist y)
    (match sg_cert s with Some c => [Sd_certificate (c_der c)] | None => nil end ++ sys_said tl s None (jobs_of m) sched (sys_start (jobs_of m) t1 h) ++ map Sd_output (written m) ++ final_said (Ok tt))
    (main_handler (ca_verbose a) (Ok tt))).
  { eapply (Said_jobs tl a None nil t1 m h s sched y (Ok tt)); [exact S|reflexivity|]. constructor. intros ph I. rewrite forallb_forall in F. specialize (F _ I). destruct ph as [| | |b| | |]; try discriminate. exists b. reflexivity. }
  cbn [final_said] in R. rewrite app_nil_r in R. rewrite Vb in R. exact R.
Qed.
Definition tex_up (c : N) : str := [if ((97 <=? c) && (c <=? 122))%N then (c - 32)%N else c].
Lemma tex_quiet : forall token, ~ debugging tex_up mx_unset (tex_line token).
Proof.
  intros token. apply C109_default; [|reflexivity|reflexivity]. intros c H. unfold tex_up.
  destruct (N.leb_spec 97 c); [lia|reflexivity].
Qed.
Definition tex_lines : list said := [Sd_certificate [x30; x02; x02]; Sd_index 1; Sd_output (CliSign.O_bundle [s2l "a.txt.sigstore.json"])].
Lemma tex_first : exists t h, terminal tex tex_up mx_unset (tex_line "one.two") csx_tree nil svx_sched t h tex_lines (Ok tt).
Proof.
  assert (P : parse_line (mc_lower tex) (mc_int tex) mx_unset (tex_line "one.two") = Ok (mx_ns tex mx_unset (tex_line "one.two"))) by (vm_compute; reflexivity).
  assert (L : initial_level tex_up mx_unset = Ok 20%Z) by (vm_compute; reflexivity).
  destruct (exec_said_run tex_tools (sa_common (sign_args (mx_ns tex mx_unset (tex_line "one.two")))) (sign_prepare tex_tools (sign_args (mx_ns tex mx_unset (tex_line "one.two"))) csx_tree) svx_sched
    (fun l => filter (visible (effective_level 20 (ns_verbose (mx_ns tex mx_unset (tex_line "one.two"))))) (Sd_arguments (arguments_text (mx_ns tex mx_unset (tex_line "one.two"))) :: l) = tex_lines)) as (t & h & l & R & E).
  - vm_compute. reflexivity.
  - vm_compute. reflexivity.
  - exists t, h. assert (C : ns_command (mx_ns tex mx_unset (tex_line "one.two")) = C_sign) by (vm_compute; reflexivity).
    generalize dependent (mx_ns tex mx_unset (tex_line "one.two")). intros ns P R E C. rewrite <- E.
    apply (Term_run tex tex_up mx_unset (tex_line "one.two") csx_tree nil 20%Z ns); [exact L|exact P|left; split; [exact C|exact R]].
Qed.
Example ex_terminal : exists t h h2,
  terminal tex tex_up mx_unset (tex_line "one.two") csx_tree nil svx_sched t h tex_lines (Ok tt) /\
  terminal tex tex_up mx_unset (tex_line "three.four") csx_tree nil svx_sched t h2 tex_lines (Ok tt) /\ public h = public h2.
Proof.
  destruct tex_first as (t & h & T). exists t, h.
  assert (P1 : parse_line (mc_lower tex) (mc_int tex) mx_unset (tex_line "one.two") = Ok (mx_ns tex mx_unset (tex_line "one.two"))) by (vm_compute; reflexivity).
  assert (P2 : parse_line (mc_lower tex) (mc_int tex) mx_unset (tex_line "three.four") = Ok (mx_ns tex mx_unset (tex_line "three.four"))) by (vm_compute; reflexivity).
  destruct (C109_terminal tex tex_up mx_unset mx_unset (tex_line "one.two") (tex_line "three.four") _ _ tex_token (tl_detect mx_tools) (tl_interactive mx_tools)
    csx_tree nil svx_sched t h tex_lines (Ok tt) svx_public P1 P2) as (h2 & T2 & Q).
  - split; [vm_compute; reflexivity|]. split; [intros o N1 N2; destruct o; try contradiction; vm_compute; reflexivity|].
    split; [intros []; vm_compute; reflexivity|]. repeat split; vm_compute; reflexivity.
  - reflexivity.
  - apply tex_quiet.
  - intros k1 k2 (c1 & _ & ->) (c2 & _ & ->). unfold similar.
    assert (I1 : forall c, identity (mc_tools tex) (common_args (mx_ns tex mx_unset (tex_line "one.two"))) c = Ok sy_token) by (intros c; vm_compute; reflexivity).
    assert (I2 : forall c, identity (other_identity (mc_tools tex) tex_token (tl_detect mx_tools) (tl_interactive mx_tools)) (common_args (mx_ns tex mx_unset (tex_line "three.four"))) c = Ok px_token) by (intros c; vm_compute; reflexivity).
    rewrite I1, I2. split; [reflexivity|]. split; [reflexivity|]. intros h' url csr. destruct csr as [[[]]]; reflexivity.
  - exact T.
  - exists h2. split; [exact T|]. split; [exact T2|exact Q].
Qed.
(** the token is in a variable, and [--verbose] is given *)
Example ex_reveal : forall sched t h lines r,
  terminal tex tex_up (mx_set "SIGSTORE_IDENTITY_TOKEN" "one.two") (mkLine C_sign nil nil false false 0 1 [s2l "a.txt"]) csx_tree nil sched t h lines r ->
  exists x, In x lines /\ shown_in (s2l "one.two") x.
Proof.
  intros sched t h lines r. apply (C109_verbose_reveals _ _ _ _ _ _ _ _ _ _ _ O_identity_token).
  - left. reflexivity.
  - apply (Val_variable _ _ _ (s2l "SIGSTORE_IDENTITY_TOKEN")); [intros s []|constructor; left; reflexivity|vm_compute; reflexivity].
  - intros c H. vm_compute in H. repeat (destruct H as [<-|H]; [repeat split; try discriminate; lia|]). destruct H.
  - left. cbn. lia.
  - exists (mx_ns tex (mx_set "SIGSTORE_IDENTITY_TOKEN" "one.two") (mkLine C_sign nil nil false false 0 1 [s2l "a.txt"])). vm_compute. reflexivity.
  - exists 20%Z. vm_compute. reflexivity.
Qed.
(** an unknown name in SIGSTORE_LOGLEVEL is an error *)
Example ex_level_name : initial_level tex_up (mx_set "SIGSTORE_LOGLEVEL" "loud") = Raise EValue /\
  initial_level tex_up (mx_set "SIGSTORE_LOGLEVEL" "debug") = Ok 10%Z.
Proof. split; vm_compute; reflexivity. Qed.

Print Assumptions C109_sign.
Print Assumptions C109_attest.
Print Assumptions C109_sign_run.
Print Assumptions C109_attest_run.
Print Assumptions C109_terminal.
Print Assumptions C109_default.
Print Assumptions C109_verbose_reveals.
