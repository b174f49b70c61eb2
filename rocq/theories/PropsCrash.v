(** Property C105: commands that are interrupted. *)
From Verif Require Import Base Codec Messages Env Keyring Cert Dsse KeyDetails Policy TrustedRoot SigningConfig Hashing Json Http
  Oidc Oauth LogEntry Bundle Verifier RekorClient Clients Tuf PyText CliVerify Sign SignSteps Predicate CliSign CliMain CliCrash
  PropsTuf PropsCliVerify SignProofs PropsSign PropsSignThreads PropsSigningConfig PropsRekorClient PropsOidc PropsBundle PropsCliSign ToyEnv ToyBundles ToySign.
From Verif Require JsonText PropsJsonText JsonPrefix.

(** ** Specification *)

(** the outputs of an input, as an interruption leaves them: untouched; or those of one bundle, made from this
    input, written one after the other, the last perhaps not to its end *)
Definition partly_written (tl : Tools) (s : Signer) (predicate : option (str * json)) (t0 t : tree) (f : path) (outs : list output) : Prop :=
  (forall o, In o outs -> files_of t (loc tl (out_path o)) = files_of t0 (loc tl (out_path o))) \/
  exists b done o rest text n, signed tl s predicate t0 f b /\ outs = done ++ o :: rest /\
    (forall x, In x done -> exists tx, shows tl s b x tx /\ files_of t (loc tl (out_path x)) = Some tx) /\
    shows tl s b o text /\ files_of t (loc tl (out_path o)) = Some (firstn n text) /\
    (forall x, In x rest -> files_of t (loc tl (out_path x)) = files_of t0 (loc tl (out_path x))).

(** bundles are written as the text of a JSON object, and what is not a JSON text in UTF-8 is not read as a bundle *)
Definition writes_objects (tl : Tools) (lib : JsonText.JsonLib) : Prop :=
  forall m, exists o t, PropsJsonText.value_text lib (JsonText.jl_depth lib) (JObj o) t /\ utf8_encode t = Some (tl_to_json tl m).
Definition reads_json (tl : Tools) (lib : JsonText.JsonLib) : Prop :=
  forall raw m, w_parse_bundle (tl_world tl) raw = Ok m -> exists s j, utf8_decode raw = Some s /\ PropsJsonText.json_text lib j s.

(** ** Proofs: one job *)

(** what [job_inv] does not say: the outputs still to come are untouched, and what a failed job leaves *)
Definition job_rest (tl : Tools) (s : Signer) (pr : option (str * json)) (t0 t : tree) (j : Job) (ph : phase) : Prop :=
  let same o := files_of t (loc tl (out_path o)) = files_of t0 (loc tl (out_path o)) in
  match ph with
  | Ph_start | Ph_digested _ | Ph_signing _ => forall o, In o (outputs_of (job_outputs j)) -> same o
  | Ph_next _ todo | Ph_writing _ _ _ _ todo => forall o, In o todo -> same o
  | Ph_done _ => True
  | Ph_failed _ => partly_written tl s pr t0 t (job_file j) (outputs_of (job_outputs j))
  end.

Lemma snoc_cases : forall A (l : list A), l = nil \/ exists r x, l = r ++ [x].
Proof. intros A l. destruct l as [|a l]; [left; reflexivity|right]. exists (removelast (a :: l)), (last (a :: l) a). apply app_removelast_last. discriminate. Qed.

Lemma partly_of_done : forall tl s pr t0 t f b outs done todo, signed tl s pr t0 f b -> outs = done ++ todo ->
  (forall x, In x done -> exists tx, shows tl s b x tx /\ files_of t (loc tl (out_path x)) = Some tx) ->
  (forall x, In x todo -> files_of t (loc tl (out_path x)) = files_of t0 (loc tl (out_path x))) ->
  partly_written tl s pr t0 t f outs.
Proof.
  intros tl s pr t0 t f b outs done todo Sd E D R. destruct (snoc_cases _ done) as [->|(l & x & ->)].
  - left. intros o I. apply R. rewrite E in I. exact I.
  - right. destruct (D x) as (tx & Sh & F); [apply in_or_app; right; left; reflexivity|].
    exists b, l, x, todo, tx, (length tx). split; [exact Sd|]. split; [rewrite E, <- app_assoc; reflexivity|]. split; [intros y I; apply D, in_or_app; auto|].
    split; [exact Sh|]. split; [rewrite firstn_all; exact F|exact R].
Qed.

Lemma job_partly : forall tl s pr t0 t j ph, job_inv tl s pr t0 t j ph -> job_rest tl s pr t0 t j ph ->
  partly_written tl s pr t0 t (job_file j) (outputs_of (job_outputs j)).
Proof.
  intros tl s pr t0 t j ph V R. destruct ph as [|d|p|b todo|b p text pos todo|b|e]; cbn [job_inv job_rest] in V, R.
  - left. exact R.
  - left. exact R.
  - left. exact R.
  - destruct V as (Sd & done & E & D). eapply partly_of_done; eassumption.
  - destruct V as (Sd & done & o & E & -> & D & Sh & Le & Nn & F). right. exists b, done, o, todo, text, pos. auto 10.
  - destruct V as (Sd & D). apply (partly_of_done _ _ _ _ _ _ b _ (outputs_of (job_outputs j)) nil Sd); [rewrite app_nil_r; reflexivity|exact D|intros x []].
  - exact R.
Qed.

Lemma partly_frame : forall tl s pr t0 t t' f outs, (forall o, In o outs -> kind t' (loc tl (out_path o)) = kind t (loc tl (out_path o))) ->
  partly_written tl s pr t0 t f outs -> partly_written tl s pr t0 t' f outs.
Proof.
  intros tl s pr t0 t t' f outs F H.
  assert (Ff : forall o, In o outs -> files_of t' (loc tl (out_path o)) = files_of t (loc tl (out_path o))).
  { intros o I. unfold files_of. rewrite F by exact I. reflexivity. }
  destruct H as [H|(b & done & o & rest & text & n & Sd & E & D & Sh & Fo & R)].
  - left. intros o I. rewrite Ff by exact I. apply H, I.
  - right. exists b, done, o, rest, text, n. split; [exact Sd|]. split; [exact E|]. split.
    { intros x I. rewrite Ff; [apply D, I|]. rewrite E. apply in_or_app. left. exact I. }
    split; [exact Sh|]. split.
    { rewrite Ff; [exact Fo|]. rewrite E. apply in_or_app. right. left. reflexivity. }
    intros x I. rewrite Ff; [apply R, I|]. rewrite E. apply in_or_app. right. right. exact I.
Qed.

Lemma job_rest_frame : forall tl s pr t0 t t' j ph, phase_ok tl j ph -> (forall q, In q (job_locs tl j) -> kind t' q = kind t q) ->
  job_rest tl s pr t0 t j ph -> job_rest tl s pr t0 t' j ph.
Proof.
  intros tl s pr t0 t t' j ph P F H.
  assert (Fk : forall o, In o (outputs_of (job_outputs j)) -> kind t' (loc tl (out_path o)) = kind t (loc tl (out_path o))).
  { intros o I. apply F. apply in_map_iff. exists o. auto. }
  assert (Fo : forall o, In o (outputs_of (job_outputs j)) -> files_of t' (loc tl (out_path o)) = files_of t (loc tl (out_path o))).
  { intros o I. unfold files_of. rewrite Fk by exact I. reflexivity. }
  destruct ph as [|d|p|b todo|b p text pos todo|b|e]; cbn [job_rest phase_ok] in *.
  - intros o I. rewrite Fo by exact I. apply H, I.
  - intros o I. rewrite Fo by exact I. apply H, I.
  - intros o I. rewrite Fo by exact I. apply H, I.
  - intros o I. rewrite Fo by (apply P, I). apply H, I.
  - destruct P as [_ P]. intros o I. rewrite Fo by (apply P, I). apply H, I.
  - exact Logic.I.
  - eapply partly_frame; [exact Fk|exact H].
Qed.

Lemma open_w_raise : forall t p t' e, open_w t p = (t', Raise e) -> t' = t.
Proof. intros t p t' e H. unfold open_w in H. destruct (kind t p) as [[]|]; [|congruence|destruct (kind t (removelast p)) as [[]|]]; congruence. Qed.

Lemma job_step_rest : forall tl s pr t0 t h j n ph t' h' ph', NoDup (job_locs tl j) ->
  job_inv tl s pr t0 t j ph -> job_rest tl s pr t0 t j ph -> job_step tl s pr j n t h ph = (t', h', ph') -> job_rest tl s pr t0 t' j ph'.
Proof.
  intros tl s pr t0 t h j n ph t' h' ph' Nd V R H. pose proof (job_partly _ _ _ _ _ _ _ V R) as Pw.
  destruct ph as [|d|[[b|e]|ev k]|b todo|b p text pos todo|b|e]; cbn [job_step] in H.
  - destruct (files_of t (loc tl (job_file j))); inversion H; subst; [exact R|exact Pw].
  - destruct (operation tl pr (job_file j) d); inversion H; subst; [exact R|exact Pw].
  - inversion H; subst. exact R.
  - inversion H; subst. exact Pw.
  - inversion H; subst. exact R.
  - destruct V as (Sd & done & E & D). destruct todo as [|o todo]; [inversion H; subst; exact Logic.I|].
    destruct (output_text tl s b o h) as [h1 [text|e]] eqn:T; [|inversion H; subst; exact Pw].
    destruct (open_w t (loc tl (out_path o))) as [t1 [u|e]] eqn:W; inversion H; subst.
    + cbn [job_rest] in *. intros x I. unfold job_locs in Nd. rewrite E, map_app in Nd. cbn [map] in Nd. apply NoDup_app_inv in Nd. destruct Nd as (_ & Nt & _).
      assert (Nx : loc tl (out_path x) <> loc tl (out_path o)).
      { inversion Nt as [|? ? Ni _]; subst. intros Q. apply Ni. rewrite <- Q. apply in_map_iff. exists x. auto. }
      rewrite <- R by (right; exact I). unfold files_of. rewrite (open_w_frame _ _ _ _ _ W Nx). reflexivity.
    + apply open_w_raise in W. subst t'. exact Pw.
  - destruct V as (Sd & done & o & E & -> & D & Sh & Le & Nn & F). cbn [job_rest] in R.
    apply pair_equal_spec in H. destruct H as [H Eph]. apply pair_equal_spec in H. destruct H as [Et _]. subst t' ph'.
    assert (Rs : forall x, In x todo -> files_of (write_at t (loc tl (out_path o)) pos (firstn (S n) (skipn pos text))) (loc tl (out_path x)) = files_of t0 (loc tl (out_path x))).
    { intros x I. unfold job_locs in Nd. rewrite E, map_app in Nd. cbn [map] in Nd. apply NoDup_app_inv in Nd. destruct Nd as (_ & Nt & _).
      assert (Nx : loc tl (out_path x) <> loc tl (out_path o)).
      { inversion Nt as [|? ? Ni _]; subst. intros Q. apply Ni. rewrite <- Q. apply in_map_iff. exists x. auto. }
      rewrite <- R by exact I. unfold files_of. rewrite write_at_frame by exact Nx. reflexivity. }
    destruct (Nat.leb (length text) (pos + length (firstn (S n) (skipn pos text)))); exact Rs.
  - inversion H; subst. exact Logic.I.
  - inversion H; subst. exact Pw.
Qed.

Lemma sys_run_rest : forall tl s pr jobs t0, separate tl jobs -> forall sched y, undisturbed tl jobs sched ->
  all_jobs jobs (y_phases y) (phase_ok tl) ->
  (forall j, In j jobs -> files_of (y_tree y) (loc tl (job_file j)) = files_of t0 (loc tl (job_file j))) ->
  all_jobs jobs (y_phases y) (job_inv tl s pr t0 (y_tree y)) -> all_jobs jobs (y_phases y) (job_rest tl s pr t0 (y_tree y)) ->
  let y' := sys_run tl s pr jobs sched y in all_jobs jobs (y_phases y') (fun j ph => job_inv tl s pr t0 (y_tree y') j ph /\ job_rest tl s pr t0 (y_tree y') j ph).
Proof.
  intros tl s pr jobs t0 (Nd & Sep). unfold sys_run. induction sched as [|x sched IH]; intros y U P Fi A Rs; cbn [fold_left].
  { destruct A as [L A], Rs as [_ Rs]. split; [exact L|]. intros i j ph Ij Ip. split; [eapply A|eapply Rs]; eassumption. }
  pose proof (sys_run_frame tl s pr jobs [x] y P) as [P1 F1]. unfold sys_run in P1, F1. cbn [fold_left] in P1, F1.
  assert (U0 : undisturbed tl jobs [x]).
  { intros j Ij. destruct (U j Ij) as [U1 U2]. split; [intros n [Q|[]]; apply (U1 n); left; assumption|].
    intros q Iq n [Q|[]]. apply (U2 q Iq n). left. assumption. }
  pose proof (sys_run_inv tl s pr jobs t0 (conj Nd Sep) [x] y U0 P Fi A) as A1. unfold sys_run in A1. cbn [fold_left] in A1.
  apply IH; [| assumption | |exact A1|].
  - intros j Ij. destruct (U j Ij) as [U1 U2]. split; [intros n Q; apply (U1 n); right; assumption|].
    intros q Iq n Q. apply (U2 q Iq n). right. assumption.
  - intros j Ij. rewrite <- Fi by assumption. unfold files_of. rewrite F1; [reflexivity| |apply U0, Ij].
    intros k Ik Q. apply (Sep k j Ik Ij Q).
  - destruct x as [i n|p n]; cbn [sys_step].
    + destruct (nth_error jobs i) as [j|] eqn:J; [|assumption]. destruct (nth_error (y_phases y) i) as [ph|] eqn:Ph; [|assumption].
      destruct (job_step tl s pr j n (y_tree y) (y_hist y) ph) as [[t' h'] ph'] eqn:Q. cbn [y_tree y_phases]. destruct Rs as [L Rs].
      destruct (job_step_frame _ _ _ _ _ _ _ _ _ _ _ (proj2 P _ _ _ J Ph) Q) as [_ F].
      split; [rewrite set_nth_length; assumption|]. intros k j' ph'' Jk Pk. destruct (Nat.eq_dec i k) as [<-|N].
      * rewrite (nth_set_same _ _ _ _ _ Ph) in Pk. assert (j' = j) by congruence. assert (ph'' = ph') by congruence. subst j' ph''.
        eapply job_step_rest; [| | |exact Q].
        -- eapply NoDup_flat_map_one; [exact Nd|]. eapply nth_error_In, J.
        -- eapply (proj2 A); eassumption.
        -- eapply Rs; eassumption.
      * rewrite nth_set_other in Pk by assumption. eapply job_rest_frame; [eapply (proj2 P); eassumption| |eapply Rs; eassumption].
        intros q Iq. apply F. eapply NoDup_flat_map_nth; [exact Nd|exact Jk|exact J|congruence|assumption].
    + cbn [y_tree y_phases]. destruct Rs as [L Rs]. split; [assumption|]. intros k j ph Jk Pk.
      eapply job_rest_frame; [eapply (proj2 P); eassumption| |eapply Rs; eassumption].
      intros q Iq. apply kind_put_other. intros ->. apply (proj2 (U0 j (nth_error_In _ _ Jk)) p Iq n). left. reflexivity.
Qed.

(** ** What an interruption leaves *)

Lemma common_moment_left : forall tl a pr h0 ov opts files t0 t1 r1 sched t, prepared tl ov opts files t0 t1 r1 ->
  common_moment tl a pr h0 (t1, r1) sched t -> own_outputs tl files opts -> files_left_alone tl sched files opts ->
  forall f, In f files ->
    (forall o, In o (outputs_of (opts f)) -> files_of t (loc tl (out_path o)) = files_of t0 (loc tl (out_path o))) \/
    exists h1 s, setup tl a t0 h0 = (h1, Ok s) /\ partly_written tl s pr t0 t f (outputs_of (opts f)).
Proof.
  intros tl a pr h0 ov opts files t0 t1 r1 sched t P H Ow La f If. pose proof P as (G & R).
  remember (t1, r1) as pr1 eqn:E1. destruct H as [t2 r|t2 m h2 s sched S].
  { inversion E1; subst. left. intros o _. apply (grows_files _ _ G). }
  inversion E1; subst t2 r1. right. exists h2, s. split; [rewrite <- (setup_same tl a t0 t1 h0); [assumption|apply grows_files, G]|].
  pose proof (own_outputs_separate _ _ _ _ _ _ _ P Ow) as Sep. destruct R as (Ik & _ & El).
  assert (U : undisturbed tl (jobs_of m) sched).
  { intros j Ij. apply jobs_of_in in Ij. assert (Ifj : In (job_file j) files) by (apply Ik, in_map_iff; exists (job_file j, job_outputs j); auto).
    destruct (El _ _ Ij) as [Eo _]. destruct (La _ Ifj) as [L1 L2]. split; [assumption|].
    intros q Iq. unfold job_locs in Iq. apply in_map_iff in Iq. destruct Iq as (x & <- & Ix). apply L2. rewrite <- Eo. assumption. }
  pose proof (sys_run_rest tl s pr (jobs_of m) t0 Sep sched (sys_start (jobs_of m) t1 h2) U) as Inv. cbv zeta in Inv.
  cbn [sys_start y_tree y_phases] in Inv. destruct Inv as [L Inv].
  { apply all_jobs_start. intros j _. exact I. }
  { intros j _. apply (grows_files _ _ G). }
  { apply all_jobs_start. intros j _. exact I. }
  { apply all_jobs_start. intros j _ o _. apply (grows_files _ _ G). }
  apply Ik in If. apply in_map_iff in If. destruct If as ([g o] & Eg & Im). cbn in Eg. subst g.
  destruct (El _ _ Im) as (Eo & _). assert (Ij : In (mkJob f o) (jobs_of m)) by (apply jobs_of_in; assumption).
  apply In_nth_error in Ij. destruct Ij as (i & Ni).
  destruct (nth_error (y_phases (sys_run tl s pr (jobs_of m) sched (sys_start (jobs_of m) t1 h2))) i) as [ph|] eqn:Ph.
  2:{ apply nth_error_None in Ph. rewrite L in Ph. apply nth_error_None in Ph. congruence. }
  destruct (Inv _ _ _ Ni Ph) as [V Rs]. rewrite <- Eo. exact (job_partly _ _ _ _ _ _ _ V Rs).
Qed.

(** At whatever moment [sigstore sign] is interrupted, and whatever its threads were doing: the outputs of an
    input are untouched, or show one bundle made from this input -- complete up to one output that may have been
    cut off, the following untouched. *)
Theorem C105_sign_interrupted : forall tl a t0 h0 sched t,
  sign_moment tl a t0 h0 sched t ->
  own_outputs tl (ca_files (sa_common a)) (sign_opts a) -> files_left_alone tl sched (ca_files (sa_common a)) (sign_opts a) ->
  forall f, In f (ca_files (sa_common a)) ->
    (forall o, In o (outputs_of (sign_opts a f)) -> files_of t (loc tl (out_path o)) = files_of t0 (loc tl (out_path o))) \/
    exists h1 s, setup tl (sa_common a) t0 h0 = (h1, Ok s) /\ partly_written tl s None t0 t f (outputs_of (sign_opts a f)).
Proof.
  intros tl a t0 h0 sched t [[-> ->]|H] Ow La f If; [left; reflexivity|]. destruct (sign_prepare tl a t0) as [t1 r1] eqn:P.
  apply sign_prepare_prepared in P. eapply common_moment_left; eassumption.
Qed.
Theorem C105_attest_interrupted : forall tl a t0 h0 sched t,
  attest_moment tl a t0 h0 sched t ->
  own_outputs tl (ca_files (aa_common a)) (attest_opts a) -> files_left_alone tl sched (ca_files (aa_common a)) (attest_opts a) ->
  forall f, In f (ca_files (aa_common a)) ->
    (forall o, In o (outputs_of (attest_opts a f)) -> files_of t (loc tl (out_path o)) = files_of t0 (loc tl (out_path o))) \/
    exists h1 s j, setup tl (aa_common a) t0 h0 = (h1, Ok s) /\ read_predicate tl a t0 = Ok j /\
      partly_written tl s (Some (aa_predicate_type a, j)) t0 t f (outputs_of (attest_opts a f)).
Proof.
  intros tl a t0 h0 sched t [[-> ->]|H] Ow La f If; [left; reflexivity|]. destruct (attest_prepare tl a t0) as [t1 r1] eqn:P.
  pose proof (attest_prepare_prepared _ _ _ _ _ P) as Pp. destruct r1 as [[m j]|e].
  - destruct (common_moment_left _ _ _ _ _ _ _ _ _ _ _ _ Pp H Ow La f If) as [L|(h1 & s & S & W)]; [left; exact L|]. right. exists h1, s, j.
    split; [exact S|]. split; [|exact W]. unfold attest_prepare in P. destruct (read_predicate tl a t0) as [j'|e]; [|discriminate].
    destruct (output_map (attest_outputs tl a) t0 (ca_files (aa_common a)) nil) as [t2 [m2|e]]; inversion P; subst; reflexivity.
  - remember (t1, @Raise OutputMap e) as pr1 eqn:E1. destruct H as [t2 r|t2 m h2 s sched S]; inversion E1; subst.
    left. intros o _. apply (grows_files _ _ (proj1 Pp)).
Qed.

(** nothing but outputs changes *)
Lemma common_moment_frame : forall tl a pr h0 ov opts files t0 t1 r1 sched t, prepared tl ov opts files t0 t1 r1 ->
  common_moment tl a pr h0 (t1, r1) sched t ->
  forall q, (forall f x, In f files -> In x (outputs_of (opts f)) -> loc tl (out_path x) <> q \/ (ov = false /\ files_of t0 q <> None)) -> left_alone sched q -> files_of t q = files_of t0 q.
Proof.
  intros tl a pr h0 ov opts files t0 t1 r1 sched t P H q Nq La.
  destruct P as [G R]. pose proof (grows_files _ _ G q) as Sf. inversion H; subst; [congruence|].
  destruct R as (Ik & _ & El). match goal with |- files_of (y_tree (sys_run _ ?s ?p ?js ?sc ?y0)) _ = _ =>
    destruct (sys_run_frame tl s p js sc y0) as [_ Fr] end.
  { apply all_jobs_start. intros j _. exact I. }
  cbv zeta in Fr. rewrite <- Sf. unfold files_of. rewrite Fr; [reflexivity| |assumption].
  intros j Ij Iq. apply jobs_of_in in Ij. apply in_map_iff in Iq. destruct Iq as (x & Ex & Ix).
  destruct (El _ _ Ij) as (Eo & _ & Xo).
  destruct (Nq (job_file j) x) as [N|[-> N]].
  - apply Ik. apply in_map_iff. exists (job_file j, job_outputs j). auto.
  - rewrite <- Eo. exact Ix.
  - exact (N Ex).
  - apply N. specialize (Xo eq_refl x Ix). rewrite Ex in Xo. unfold files_of. rewrite Xo. reflexivity.
Qed.

Theorem C105_sign_only_outputs : forall tl a t0 h0 sched t, sign_moment tl a t0 h0 sched t ->
  forall q, (forall f p, In f (ca_files (sa_common a)) -> sign_output a f p -> loc tl p <> q) -> left_alone sched q -> files_of t q = files_of t0 q.
Proof.
  intros tl a t0 h0 sched t [[-> ->]|H] q Nq La; [reflexivity|]. destruct (sign_prepare tl a t0) as [t1 r1] eqn:P.
  apply sign_prepare_prepared in P. eapply common_moment_frame; try eassumption.
  intros f x If Ix. left. apply (Nq f (out_path x) If). apply sign_opts_outputs. exists x. auto.
Qed.
Theorem C105_attest_only_outputs : forall tl a t0 h0 sched t, attest_moment tl a t0 h0 sched t ->
  forall q, (forall f p, In f (ca_files (aa_common a)) -> attest_output a f p -> loc tl p <> q) -> left_alone sched q -> files_of t q = files_of t0 q.
Proof.
  intros tl a t0 h0 sched t [[-> ->]|H] q Nq La; [reflexivity|]. destruct (attest_prepare tl a t0) as [t1 r1] eqn:P.
  apply attest_prepare_prepared in P.
  assert (N' : forall f x, In f (ca_files (aa_common a)) -> In x (outputs_of (attest_opts a f)) ->
    loc tl (out_path x) <> q \/ (ca_overwrite (aa_common a) = false /\ files_of t0 q <> None)).
  { intros f x If Ix. left. apply (Nq f (out_path x) If). apply attest_opts_outputs. exists x. auto. }
  destruct r1 as [[m j]|e]; eapply common_moment_frame; eassumption.
Qed.

(** Without [--overwrite] an interruption loses nothing: whatever file there was, it has its content. *)
Theorem C105_sign_nothing_lost : forall tl a t0 h0 sched t, sign_moment tl a t0 h0 sched t -> ca_overwrite (sa_common a) = false ->
  forall q c, files_of t0 q = Some c -> left_alone sched q -> files_of t q = Some c.
Proof.
  intros tl a t0 h0 sched t [[-> ->]|H] Ov q c F La; [exact F|]. destruct (sign_prepare tl a t0) as [t1 r1] eqn:P.
  apply sign_prepare_prepared in P. rewrite Ov in P. rewrite <- F. eapply common_moment_frame; try eassumption.
  intros f x _ _. right. split; [reflexivity|]. rewrite F. discriminate.
Qed.
Theorem C105_attest_nothing_lost : forall tl a t0 h0 sched t, attest_moment tl a t0 h0 sched t -> ca_overwrite (aa_common a) = false ->
  forall q c, files_of t0 q = Some c -> left_alone sched q -> files_of t q = Some c.
Proof.
  intros tl a t0 h0 sched t [[-> ->]|H] Ov q c F La; [exact F|]. destruct (attest_prepare tl a t0) as [t1 r1] eqn:P.
  apply attest_prepare_prepared in P. rewrite Ov in P. rewrite <- F.
  assert (N' : forall f x, In f (ca_files (aa_common a)) -> In x (outputs_of (attest_opts a f)) -> loc tl (out_path x) <> q \/ (false = false /\ files_of t0 q <> None)).
  { intros f x _ _. right. split; [reflexivity|]. rewrite F. discriminate. }
  destruct r1 as [[m j]|e]; eapply common_moment_frame; eassumption.
Qed.

(** The end of a command is one of the moments. *)
Lemma common_run_moment : forall tl a pr h0 p1 sched t h lines r, common_run tl a pr h0 p1 sched t h lines r -> common_moment tl a pr h0 p1 sched t.
Proof.
  intros tl a pr h0 p1 sched t h lines r H. destruct H as [t e|t m h e S|t m h s sched y r S Y F]; [constructor|constructor|].
  subst y. eapply Mo_jobs. exact S.
Qed.
Theorem C105_sign_end : forall tl a t0 h0 sched t h lines r, sign_run tl a t0 h0 sched t h lines r -> sign_moment tl a t0 h0 sched t.
Proof. intros tl a t0 h0 sched t h lines r H. right. eapply common_run_moment. exact H. Qed.
Theorem C105_attest_end : forall tl a t0 h0 sched t h lines r, attest_run tl a t0 h0 sched t h lines r -> attest_moment tl a t0 h0 sched t.
Proof.
  intros tl a t0 h0 sched t h lines r H. right. unfold attest_run in H. destruct (attest_prepare tl a t0) as [t1 [[m j]|e]]; eapply common_run_moment; exact H.
Qed.

(** ** Bundles are whole or cannot be read *)

Lemma newline_blank : PropsJsonText.blank [10%N] /\ utf8_encode [10%N] = Some [x0a].
Proof. split; [|reflexivity]. constructor; [|constructor]. cbn. tauto. Qed.

Lemma cut_bundle : forall tl lib b n m, writes_objects tl lib -> reads_json tl lib ->
  w_parse_bundle (tl_world tl) (firstn n (tl_to_json tl b ++ [x0a])) = Ok m ->
  firstn n (tl_to_json tl b ++ [x0a]) = tl_to_json tl b \/ firstn n (tl_to_json tl b ++ [x0a]) = tl_to_json tl b ++ [x0a].
Proof.
  intros tl lib b n m Wo Rj Pm. destruct (Rj _ _ Pm) as (s & j & D & J). destruct (Wo b) as (o & t & V & E).
  destruct (JsonPrefix.encoded_prefix lib o t _ [10%N] [x0a] (firstn n (tl_to_json tl b ++ [x0a])) (skipn n (tl_to_json tl b ++ [x0a])) s j V E
    (proj1 newline_blank) (proj2 newline_blank) (firstn_skipn _ _) D J) as (_ & w & Ew & Eq).
  rewrite Ew. destruct w as [|x w]; [left; apply app_nil_r|right]. destruct w; [|discriminate]. cbn in Eq. congruence.
Qed.

(** Whatever is left of an interrupted [sigstore sign]: a file that can be read as a bundle is the one that was
    there before, or the whole bundle of this input (perhaps without the line end). *)
Theorem C105_bundle_whole : forall tl lib a t0 h0 sched t f p raw m, writes_objects tl lib -> reads_json tl lib ->
  sign_moment tl a t0 h0 sched t ->
  own_outputs tl (ca_files (sa_common a)) (sign_opts a) -> files_left_alone tl sched (ca_files (sa_common a)) (sign_opts a) ->
  In f (ca_files (sa_common a)) -> In (CliSign.O_bundle p) (outputs_of (sign_opts a f)) ->
  files_of t (loc tl p) = Some raw -> w_parse_bundle (tl_world tl) raw = Ok m ->
  files_of t0 (loc tl p) = Some raw \/
  exists h1 s b, setup tl (sa_common a) t0 h0 = (h1, Ok s) /\ signed tl s None t0 f b /\
    (raw = tl_to_json tl (b_inner b) \/ raw = tl_to_json tl (b_inner b) ++ [x0a]).
Proof.
  intros tl lib a t0 h0 sched t f p raw m Wo Rj H Ow La If Ip F Pm.
  assert (Same : files_of t (loc tl p) = files_of t0 (loc tl p) -> files_of t0 (loc tl p) = Some raw) by congruence.
  destruct (C105_sign_interrupted _ _ _ _ _ _ H Ow La f If) as [L|(h1 & s & S & [L|(b & done & o & rest & text & n & Sd & E & D & Sh & Fo & R)])];
    [left; apply Same, (L _ Ip)|left; apply Same, (L _ Ip)|].
  rewrite E in Ip. apply in_app_iff in Ip. destruct Ip as [Ip|[->|Ip]].
  - right. exists h1, s, b. split; [exact S|]. split; [exact Sd|]. destruct (D _ Ip) as (tx & Sx & Fx). cbn [shows out_path] in Sx, Fx. right. congruence.
  - cbn [shows out_path] in Sh, Fo. subst text. assert (raw = firstn n (tl_to_json tl (b_inner b) ++ [x0a])) as -> by congruence.
    right. exists h1, s, b. split; [exact S|]. split; [exact Sd|]. eapply cut_bundle; eassumption.
  - left. apply Same. exact (R _ Ip).
Qed.
Theorem C105_attestation_whole : forall tl lib a t0 h0 sched t f p raw m, writes_objects tl lib -> reads_json tl lib ->
  attest_moment tl a t0 h0 sched t ->
  own_outputs tl (ca_files (aa_common a)) (attest_opts a) -> files_left_alone tl sched (ca_files (aa_common a)) (attest_opts a) ->
  In f (ca_files (aa_common a)) -> attest_output a f p ->
  files_of t (loc tl p) = Some raw -> w_parse_bundle (tl_world tl) raw = Ok m ->
  files_of t0 (loc tl p) = Some raw \/
  exists h1 s j b, setup tl (aa_common a) t0 h0 = (h1, Ok s) /\ read_predicate tl a t0 = Ok j /\
    signed tl s (Some (aa_predicate_type a, j)) t0 f b /\ (raw = tl_to_json tl (b_inner b) \/ raw = tl_to_json tl (b_inner b) ++ [x0a]).
Proof.
  intros tl lib a t0 h0 sched t f p raw m Wo Rj H Ow La If Ap F Pm. apply attest_opts_outputs in Ap. destruct Ap as (x & Ip & <-).
  assert (Bx : exists q, x = CliSign.O_bundle q). { cbn in Ip. destruct Ip as [<-|[]]. eexists. reflexivity. }
  destruct Bx as [p ->]. cbn [out_path] in *.
  assert (Same : files_of t (loc tl p) = files_of t0 (loc tl p) -> files_of t0 (loc tl p) = Some raw) by congruence.
  destruct (C105_attest_interrupted _ _ _ _ _ _ H Ow La f If) as [L|(h1 & s & j & S & Rp & [L|(b & done & o & rest & text & n & Sd & E & D & Sh & Fo & R)])];
    [left; apply Same, (L _ Ip)|left; apply Same, (L _ Ip)|].
  rewrite E in Ip. apply in_app_iff in Ip. destruct Ip as [Ip|[->|Ip]].
  - right. exists h1, s, j, b. split; [exact S|]. split; [exact Rp|]. split; [exact Sd|]. destruct (D _ Ip) as (tx & Sx & Fx). cbn [shows out_path] in Sx, Fx. right. congruence.
  - cbn [shows out_path] in Sh, Fo. subst text. assert (raw = firstn n (tl_to_json tl (b_inner b) ++ [x0a])) as -> by congruence.
    right. exists h1, s, j, b. split; [exact S|]. split; [exact Rp|]. split; [exact Sd|]. eapply cut_bundle; eassumption.
  - left. apply Same. exact (R _ Ip).
Qed.

(** ** The command again *)

(** With [--overwrite], a successful run after an interruption leaves the outputs of an undisturbed one: the
    inputs are as they were, and every output has the whole text. *)
Theorem C105_sign_recovers : forall tl a a' t0 h0 sched t h1 sched' t' h' lines,
  sign_moment tl a t0 h0 sched t ->
  own_outputs tl (ca_files (sa_common a)) (sign_opts a) -> files_left_alone tl sched (ca_files (sa_common a)) (sign_opts a) ->
  ca_files (sa_common a') = ca_files (sa_common a) -> (forall f, sign_opts a' f = sign_opts a f) ->
  sign_run tl a' t h1 sched' t' h' lines (Ok tt) -> files_left_alone tl sched' (ca_files (sa_common a)) (sign_opts a) ->
  exists h2 s, setup tl (sa_common a') t h1 = (h2, Ok s) /\ outputs_written tl s None t0 t' (ca_files (sa_common a)) (sign_opts a).
Proof.
  intros tl a a' t0 h0 sched t h1 sched' t' h' lines M Ow La Ef Eo R La'.
  assert (Ow' : own_outputs tl (ca_files (sa_common a')) (sign_opts a')).
  { rewrite Ef. destruct Ow as (O1 & O2 & O3). split; [|split].
    - intros f I. rewrite Eo. auto.
    - intros f g x y I J N X Y. rewrite Eo in X, Y. eauto.
    - intros f g x I J X. rewrite Eo in X. eauto. }
  assert (La2 : files_left_alone tl sched' (ca_files (sa_common a')) (sign_opts a')).
  { rewrite Ef. intros f I. destruct (La' f I) as [L1 L2]. split; [exact L1|]. intros x X. rewrite Eo in X. apply L2, X. }
  destruct (C61_sign_outputs _ _ _ _ _ _ _ _ R Ow' La2) as (h2 & s & S & W). exists h2, s. split; [exact S|].
  intros f I. rewrite Ef in W. destruct (W f I) as (b & (c & o & out & h & hh & Fc & Rest) & Out). exists b. split.
  - exists c, o, out, h, hh. split; [|exact Rest]. rewrite <- Fc. symmetry. eapply C105_sign_only_outputs; [exact M| |apply La, I].
    intros g p Ig Sp. apply sign_opts_outputs in Sp. destruct Sp as (x & Ix & <-). destruct Ow as (_ & _ & O3). exact (O3 g f x Ig I Ix).
  - intros x Ix. apply Out. rewrite Eo. exact Ix.
Qed.

(** ** [plumbing fix-bundle --in-place] *)

Lemma cut_write : forall t q b text, files_of t q = Some b ->
  exists t1, open_w t q = (t1, Ok tt) /\ forall n, files_of (write_at t1 q 0 (firstn n text)) q = Some (firstn n text) /\
    forall q', q' <> q -> files_of (write_at t1 q 0 (firstn n text)) q' = files_of t q'.
Proof.
  intros t q b text F. unfold files_of in F. destruct (kind t q) as [[c|]|] eqn:K; try discriminate.
  assert (Nq : q <> nil) by (intros ->; discriminate). exists (put t q (Some (N_file nil))). unfold open_w. rewrite K. split; [reflexivity|]. intros n.
  assert (Kp : kind (put t q (Some (N_file nil))) q = Some (N_file nil)) by (rewrite kind_put, path_eqb_refl; destruct q; [contradiction|reflexivity]).
  unfold write_at. rewrite Kp. cbn [firstn length Nat.sub repeat app]. rewrite skipn_nil, app_nil_r. split; [apply files_put_same; assumption|].
  intros q' N'. rewrite !files_put_other by assumption. reflexivity.
Qed.
Lemma file_bytes_at : forall tl t p raw, file_bytes (world_at tl t) p = Ok raw <-> files_of t (loc tl p) = Some raw.
Proof.
  intros tl t p raw. unfold file_bytes, content. cbn [w_files w_cwd world_at]. unfold loc. destruct (files_of t _); split; intros H; inversion H; reflexivity.
Qed.

(** The moments and the whole command: what is being written is what the command would have left. *)
Lemma fix_writing : forall env tl http st up bundle t raw m b, files_of t (loc tl bundle) = Some raw -> w_parse_bundle (tl_world tl) raw = Ok m ->
  fix_bundle env (fun i => entries_get (w_rp (tl_world tl)) http (if st : bool then REKOR_STAGING else REKOR_PRODUCTION) None (Some i)) up m = Ok b ->
  exists t1, open_w t (loc tl bundle) = (t1, Ok tt) /\
    fix_bundle_command env tl http st up true bundle t = (write_at t1 (loc tl bundle) 0 (tl_to_json tl (b_inner b)), None, Ok tt).
Proof.
  intros env tl http st up bundle t raw m b F Pm Fx. destruct (cut_write t (loc tl bundle) raw (tl_to_json tl (b_inner b)) F) as (t1 & Op & _).
  exists t1. split; [exact Op|]. unfold fix_bundle_command. cbv zeta. rewrite (proj2 (file_bytes_at tl t bundle raw) F). cbn [bind].
  change (w_parse_bundle (world_at tl t) raw) with (w_parse_bundle (tl_world tl) raw). rewrite Pm. cbn [bind].
  change (w_rp (world_at tl t)) with (w_rp (tl_world tl)). rewrite Fx. rewrite Op. reflexivity.
Qed.

(** At whatever moment the command is interrupted: no other file has changed; nor has this one unless
    [--in-place] was given; if it has, then it holds a beginning of what the command would have left. *)
Theorem C105_fix_interrupted : forall env tl http st up in_place bundle t t', fix_moment env tl http st up in_place bundle t t' ->
  (forall q, q <> loc tl bundle -> files_of t' q = files_of t q) /\
  (t' = t \/ in_place = true /\ exists final text n, fix_bundle_command env tl http st up true bundle t = (final, None, Ok tt) /\
     files_of final (loc tl bundle) = Some text /\ files_of t' (loc tl bundle) = Some (firstn n text)).
Proof.
  intros env tl http st up in_place bundle t t' H. destruct H as [|raw m b t1 n Ip Fb Pm Fx Op]; [auto|].
  apply file_bytes_at in Fb. destruct (cut_write t (loc tl bundle) raw (tl_to_json tl (b_inner b)) Fb) as (t2 & Op2 & W). rewrite Op in Op2. injection Op2 as <-.
  destruct (fix_writing env tl http st up bundle t raw m b Fb Pm Fx) as (t2 & Op2 & C). rewrite Op in Op2. injection Op2 as <-.
  split; [apply W|]. right. split; [exact Ip|]. do 2 eexists. exists n. split; [exact C|]. split; [|apply W].
  destruct (W (length (tl_to_json tl (b_inner b)))) as [Wl _]. rewrite firstn_all in Wl. exact Wl.
Qed.

(** The end of the command is one of the moments. *)
Theorem C105_fix_end : forall env tl http st up in_place bundle t t' out r,
  fix_bundle_command env tl http st up in_place bundle t = (t', out, r) -> fix_moment env tl http st up in_place bundle t t'.
Proof.
  intros env tl http st up in_place bundle t t' out r H. pose proof H as H0. unfold fix_bundle_command in H. cbv zeta in H.
  destruct (file_bytes (world_at tl t) bundle) as [raw|e] eqn:Fb; cbn [bind] in H; [|inversion H; constructor].
  change (w_parse_bundle (world_at tl t) raw) with (w_parse_bundle (tl_world tl) raw) in H.
  destruct (w_parse_bundle (tl_world tl) raw) as [m|e] eqn:Pm; cbn [bind] in H; [|inversion H; constructor].
  change (w_rp (world_at tl t)) with (w_rp (tl_world tl)) in H.
  destruct (fix_bundle env _ up m) as [b|e] eqn:Fx; [|inversion H; constructor]. destruct in_place; [|inversion H; constructor].
  pose proof (proj1 (file_bytes_at tl t bundle raw) Fb) as F. destruct (cut_write t (loc tl bundle) raw nil F) as (t1 & Op & _).
  rewrite Op in H. inversion H; subst. rewrite <- (firstn_all (tl_to_json tl (b_inner b))). eapply Fx_writing; try eassumption. reflexivity.
Qed.

(** A file that can be read as a bundle is the old one, or the whole new one. *)
Theorem C105_fix_whole : forall env tl lib http st up in_place bundle t t' raw m, writes_objects tl lib -> reads_json tl lib ->
  fix_moment env tl http st up in_place bundle t t' -> files_of t' (loc tl bundle) = Some raw -> w_parse_bundle (tl_world tl) raw = Ok m ->
  files_of t (loc tl bundle) = Some raw \/
  exists final, fix_bundle_command env tl http st up true bundle t = (final, None, Ok tt) /\ files_of final (loc tl bundle) = Some raw.
Proof.
  intros env tl lib http st up in_place bundle t t' raw m Wo Rj H F Pm. destruct H as [|raw0 m0 b t1 n Ip Fb Pm0 Fx Op]; [left; exact F|]. right.
  apply file_bytes_at in Fb. destruct (cut_write t (loc tl bundle) raw0 (tl_to_json tl (b_inner b)) Fb) as (t2 & Op2 & W). rewrite Op in Op2. injection Op2 as <-.
  destruct (fix_writing env tl http st up bundle t raw0 m0 b Fb Pm0 Fx) as (t2 & Op2 & C). rewrite Op in Op2. injection Op2 as <-.
  eexists. split; [exact C|]. destruct (W (length (tl_to_json tl (b_inner b)))) as [Wl _]. rewrite firstn_all in Wl. rewrite Wl. f_equal.
  destruct (W n) as [Wn _]. rewrite F in Wn. injection Wn as ->. destruct (Rj _ _ Pm) as (s & j & D & J). destruct (Wo (b_inner b)) as (o & tx & V & E).
  destruct (JsonPrefix.encoded_prefix lib o tx _ nil nil (firstn n (tl_to_json tl (b_inner b))) (skipn n (tl_to_json tl (b_inner b))) s j V E
    (Forall_nil _) eq_refl) as (_ & w & Ew & Eq); [rewrite app_nil_r; apply firstn_skipn|exact D|exact J|].
  apply app_eq_nil in Eq. destruct Eq as [-> _]. rewrite app_nil_r in Ew. symmetry. exact Ew.
Qed.

(** But the old bundle is not kept until the new one is there: before any command that replaces a bundle is
    done there is a moment at which the file is empty. *)
Theorem C105_fix_kept_refuted : forall env tl http st up bundle t final,
  fix_bundle_command env tl http st up true bundle t = (final, None, Ok tt) ->
  exists t', fix_moment env tl http st up true bundle t t' /\ files_of t' (loc tl bundle) = Some nil.
Proof.
  intros env tl http st up bundle t final H. unfold fix_bundle_command in H. cbv zeta in H.
  destruct (file_bytes (world_at tl t) bundle) as [raw|e] eqn:Fb; cbn [bind] in H; [|discriminate].
  change (w_parse_bundle (world_at tl t) raw) with (w_parse_bundle (tl_world tl) raw) in H.
  destruct (w_parse_bundle (tl_world tl) raw) as [m|e] eqn:Pm; cbn [bind] in H; [|discriminate].
  change (w_rp (world_at tl t)) with (w_rp (tl_world tl)) in H.
  destruct (fix_bundle env _ up m) as [b|e] eqn:Fx; [|discriminate].
  pose proof (proj1 (file_bytes_at tl t bundle raw) Fb) as F. destruct (cut_write t (loc tl bundle) raw (tl_to_json tl (b_inner b)) F) as (t1 & Op & W).
  eexists. split; [eapply (Fx_writing env tl http st up true bundle t raw m b t1 0); try eassumption; reflexivity|]. apply (W 0).
Qed.

(** ** Concrete commands *)

(** the tools of PropsCliSign.v, with bundles as JSON: an object with the signature in hexadecimal *)
Definition crx_lib : JsonText.JsonLib := JsonText.mkJL 2 10 (fun _ _ => nil) (fun _ => None).
Definition crx_text (m : BundleMsg) : str := s2l "{""s"":""" ++ hex (csx_to_json m) ++ s2l """}".
Definition crx_parse (raw : bytes) : res BundleMsg :=
  match utf8_decode raw with
  | Some s => match JsonText.read crx_lib s with Some _ => Ok (bx_old None) | None => Raise EPydantic end
  | None => Raise EPydantic
  end.
Definition crx_world : World :=
  mkWorld [s2l "home"] (fun _ => None) (fun _ => Raise EValue) crx_parse (fun _ => None) (fun _ => Raise EValue)
    csx_config (fun _ _ => Raise EConnection) rkx_rp vx_now (fun _ => vx_now).
Definition crx_tools : Tools :=
  mkTools crx_world (sy_libs sy_far) csx_out (fun s => if str_eqb s (s2l "{}") then Some csx_predicate else None)
    (fun _ => s2l "{}") csx_dump csx_token (fun _ => Ok (Some (s2l "tok"))) (fun _ _ _ _ => Raise EIdentity) (fun m => ascii_bytes (crx_text m)).

Lemma hex_digits : forall b c, In c (hex b) -> (48 <= c /\ c <= 102 /\ c <> 92)%N.
Proof.
  induction b as [|x b IH]; intros c I; [destruct I|]. cbn [hex In] in I. pose proof (b2n_lt x) as L.
  assert (D : forall n, (n < 16)%N -> (48 <= hex_digit n /\ hex_digit n <= 102 /\ hex_digit n <> 92)%N).
  { intros n Ln. unfold hex_digit. destruct (N.ltb_spec n 10); lia. }
  destruct I as [<-|[<-|I]]; [apply D, N.div_lt_upper_bound; lia|apply D, N.mod_lt; lia|apply IH, I].
Qed.
Example ex_crx_json : writes_objects crx_tools crx_lib /\ reads_json crx_tools crx_lib.
Proof.
  split.
  - intros m. exists [(s2l "s", JStr (hex (csx_to_json m)))], (crx_text m). split.
    + unfold crx_text. set (h := hex (csx_to_json m)).
      assert (H : PropsJsonText.string_text h ([34%N] ++ h ++ [34%N])).
      { exists (map (fun c => [c]) h). split.
        - assert (D : forall c, In c h -> (48 <= c /\ c <= 102 /\ c <> 92)%N) by (intros c; apply hex_digits). clearbody h.
          induction h as [|c h IH]; [constructor|]. cbn [map]. constructor; [|apply IH; intros x I; apply D; right; exact I].
          specialize (D c (or_introl eq_refl)). apply PropsJsonText.Ch_plain; lia.
        - f_equal. f_equal. clear. induction h as [|c h IH]; [reflexivity|]. cbn. rewrite <- IH. reflexivity. }
      replace (s2l "{""s"":""" ++ h ++ s2l """}") with (s2l "{" ++ nil ++ (([34%N] ++ (s2l "s" ++ nil) ++ [34%N]) ++ nil ++ s2l ":" ++ nil ++ ([34%N] ++ h ++ [34%N]) ++ nil) ++ s2l "}").
      2:{ change (s2l "s") with [115%N]. change (s2l "{") with [123%N]. change (s2l ":") with [58%N]. change (s2l "}") with [125%N].
          change (s2l "{""s"":""") with [123; 34; 115; 34; 58; 34]%N. change (s2l """}") with [34; 125]%N. cbn [app]. rewrite app_nil_r, <- app_assoc. reflexivity. }
      apply (PropsJsonText.V_object crx_lib 1 [(s2l "s", JStr h)]); [constructor| |].
      * apply PropsJsonText.M_last; try (constructor; fail); [|apply PropsJsonText.V_string, H].
        exists [s2l "s"]. split; [|reflexivity]. constructor; [|constructor]. change (s2l "s") with [115%N]. apply PropsJsonText.Ch_plain; lia.
      * apply (PropsJsonText.D_new nil nil); [constructor|intros []].
    + cbn [tl_to_json crx_tools]. unfold ascii_bytes. apply utf8_encode_ascii. unfold crx_text, is_ascii. rewrite !forallb_app.
      assert (A : forallb (fun c => (c <? 128)%N) (hex (csx_to_json m)) = true).
      { apply forallb_forall. intros c I. apply hex_digits in I. apply N.ltb_lt. lia. }
      rewrite A. reflexivity.
  - intros raw m H. cbn [tl_world w_parse_bundle crx_tools crx_world] in H. unfold crx_parse in H. destruct (utf8_decode raw) as [s|]; [|discriminate].
    destruct (JsonText.read crx_lib s) as [j|] eqn:R; [|discriminate]. exists s, j. split; [reflexivity|]. apply PropsJsonText.read_iff, R.
Qed.

Definition cut (tl : Tools) (a : CommonArgs) (pr : option (str * json)) (h0 : history) (p1 : tree * res OutputMap) (sched : list act) : option tree :=
  match p1 with
  | (t1, Ok m) => match setup tl a t1 h0 with (h, Ok s) => Some (y_tree (sys_run tl s pr (jobs_of m) sched (sys_start (jobs_of m) t1 h))) | _ => None end
  | _ => None
  end.
Lemma cut_moment : forall tl a pr h0 p1 sched (P : tree -> Prop), match cut tl a pr h0 p1 sched with Some t => P t | None => False end ->
  exists t, common_moment tl a pr h0 p1 sched t /\ P t.
Proof.
  intros tl a pr h0 [t1 [m|e]] sched P H; unfold cut in H; [|contradiction]. destruct (setup tl a t1 h0) as [h [s|e]] eqn:S; [|contradiction].
  eexists. split; [eapply Mo_jobs; exact S|exact H].
Qed.

(** what the bundle of an input is, and the places of the outputs *)
Definition crx_bundle (content : bytes) : bytes :=
  ascii_bytes (s2l "{""s"":""" ++ hex (x01 :: toy_sign (ECDSA_prehashed SHA256) sy_key (toy_hash content)) ++ s2l """}") ++ [x0a].
Definition crx_at (n : String.string) : path := [s2l "home"; s2l n].
Definition crx_is_bundle (x : option bytes) : bool := match x with Some raw => match crx_parse raw with Ok _ => true | _ => false end | None => false end.

(** Two inputs; the first has been signed, the second is being written when the command is killed: its bundle is
    cut off and cannot be read. *)
Definition crx_sched : list act := turns (repeat 0 20) ++ turns (repeat 1 9).
Example ex_interrupted : exists t, sign_moment crx_tools (csx_sign [csx_a; csx_b] false) csx_tree nil crx_sched t /\
  files_of t (crx_at "a.txt.sigstore.json") = Some (crx_bundle vx_input) /\
  files_of t (crx_at "b.txt.sigstore.json") = Some (firstn 11 (crx_bundle (s2b "world"))) /\
  crx_is_bundle (files_of t (crx_at "a.txt.sigstore.json")) = true /\ crx_is_bundle (files_of t (crx_at "b.txt.sigstore.json")) = false /\
  files_of t (crx_at "b.txt") = Some (s2b "world").
Proof.
  destruct (cut_moment crx_tools (csx_common [csx_a; csx_b] false) None nil (sign_prepare crx_tools (csx_sign [csx_a; csx_b] false) csx_tree) crx_sched
    (fun t => files_of t (crx_at "a.txt.sigstore.json") = Some (crx_bundle vx_input) /\
      files_of t (crx_at "b.txt.sigstore.json") = Some (firstn 11 (crx_bundle (s2b "world"))) /\
      crx_is_bundle (files_of t (crx_at "a.txt.sigstore.json")) = true /\ crx_is_bundle (files_of t (crx_at "b.txt.sigstore.json")) = false /\
      files_of t (crx_at "b.txt") = Some (s2b "world"))) as (t & M & P).
  - vm_compute. repeat split; reflexivity.
  - exists t. split; [right; exact M|exact P].
Qed.
Example ex_interrupted_hypotheses :
  own_outputs crx_tools [csx_a; csx_b] (sign_opts (csx_sign [csx_a; csx_b] false)) /\
  files_left_alone crx_tools crx_sched [csx_a; csx_b] (sign_opts (csx_sign [csx_a; csx_b] false)).
Proof.
  split.
  { split; [|split].
    - intros f [<-|[<-|[]]]; constructor; try constructor; intros [].
    - intros f g x y [<-|[<-|[]]] [<-|[<-|[]]] Nq [<-|[]] [<-|[]]; try contradiction; vm_compute; discriminate.
    - intros f g x [<-|[<-|[]]] [<-|[<-|[]]] [<-|[]]; vm_compute; discriminate. }
  assert (L : forall p x, ~ In (A_other p x) crx_sched).
  { intros p x I. unfold crx_sched, turns in I. rewrite <- map_app in I. apply in_map_iff in I. destruct I as (i & Q & _). discriminate. }
  intros f _. split; [intros x; apply L|]. intros x _ n. apply L.
Qed.

(** With a signature and a certificate as well, they are written first: here the signature is there, and the
    certificate has been opened. *)
Definition crx_three : SignArgs := mkSA (csx_common [csx_a] false) (Some [s2l "a.sig"]) (Some [s2l "a.crt"]) (Some [s2l "a.json"]) None false.
Example ex_interrupted_three : exists t, sign_moment crx_tools crx_three csx_tree nil (turns (repeat 0 14)) t /\
  (exists text, files_of t (crx_at "a.sig") = Some text /\ length text = 49) /\
  files_of t (crx_at "a.crt") = Some nil /\ files_of t (crx_at "a.json") = None.
Proof.
  destruct (cut_moment crx_tools (sa_common crx_three) None nil (sign_prepare crx_tools crx_three csx_tree) (turns (repeat 0 14))
    (fun t => (exists text, files_of t (crx_at "a.sig") = Some text /\ length text = 49) /\
      files_of t (crx_at "a.crt") = Some nil /\ files_of t (crx_at "a.json") = None)) as (t & M & P).
  - vm_compute. split; [eexists; split; reflexivity|split; reflexivity].
  - exists t. split; [right; exact M|exact P].
Qed.

(** With [--overwrite] a bundle can be lost: it is emptied before the new one is written. *)
Definition crx_old : tree := put csx_tree (crx_at "a.txt.sigstore.json") (Some (N_file (s2b "{}"))).
Theorem C105_overwrite_refuted : exists tl a t0 h0 sched t f p raw m,
  sign_moment tl a t0 h0 sched t /\ own_outputs tl (ca_files (sa_common a)) (sign_opts a) /\
  files_left_alone tl sched (ca_files (sa_common a)) (sign_opts a) /\ In f (ca_files (sa_common a)) /\ sign_output a f p /\
  files_of t0 (loc tl p) = Some raw /\ w_parse_bundle (tl_world tl) raw = Ok m /\
  files_of t (loc tl p) = Some nil /\ w_parse_bundle (tl_world tl) nil = Raise EPydantic.
Proof.
  destruct (cut_moment crx_tools (csx_common [csx_a] true) None nil (sign_prepare crx_tools (csx_sign [csx_a] true) crx_old) (turns (repeat 0 8))
    (fun t => files_of t (crx_at "a.txt.sigstore.json") = Some nil)) as (t & M & P); [vm_compute; reflexivity|].
  exists crx_tools, (csx_sign [csx_a] true), crx_old, nil, (turns (repeat 0 8)), t, csx_a, [s2l "a.txt.sigstore.json"], (s2b "{}"), (bx_old None).
  split; [right; exact M|]. split.
  { split; [|split].
    - intros f [<-|[]]; constructor; try constructor; intros [].
    - intros f g x y [<-|[]] [<-|[]] Nq; contradiction.
    - intros f g x [<-|[]] [<-|[]] [<-|[]]; vm_compute; discriminate. }
  split.
  { assert (L : forall p x, ~ In (A_other p x) (turns (repeat 0 8))).
    { intros p x I. unfold turns in I. apply in_map_iff in I. destruct I as (i & Q & _). discriminate. }
    intros f _. split; [intros x; apply L|]. intros x _ n. apply L. }
  split; [left; reflexivity|]. split; [right; right; right; repeat split|]. split; [vm_compute; reflexivity|]. split; [vm_compute; reflexivity|].
  split; [exact P|vm_compute; reflexivity].
Qed.

(** After the interruption above, signing once more with [--overwrite]: both bundles are there. *)
Definition crx_left : tree :=
  match cut crx_tools (csx_common [csx_a; csx_b] false) None nil (sign_prepare crx_tools (csx_sign [csx_a; csx_b] false) csx_tree) crx_sched with
  | Some t => t
  | None => csx_tree
  end.
Example ex_recovers :
  sign_moment crx_tools (csx_sign [csx_a; csx_b] false) csx_tree nil crx_sched crx_left /\
  (forall f, sign_opts (csx_sign [csx_a; csx_b] true) f = sign_opts (csx_sign [csx_a; csx_b] false) f) /\
  exists t h lines, sign_run crx_tools (csx_sign [csx_a; csx_b] true) crx_left nil csx_in_turn t h lines (Ok tt) /\
    files_of t (crx_at "a.txt.sigstore.json") = Some (crx_bundle vx_input) /\
    files_of t (crx_at "b.txt.sigstore.json") = Some (crx_bundle (s2b "world")).
Proof.
  split; [|split; [reflexivity|]].
  - destruct (cut_moment crx_tools (csx_common [csx_a; csx_b] false) None nil (sign_prepare crx_tools (csx_sign [csx_a; csx_b] false) csx_tree) crx_sched
      (fun t => t = crx_left)) as (t & M & ->); [|right; exact M]. unfold crx_left.
    assert (N : cut crx_tools (csx_common [csx_a; csx_b] false) None nil (sign_prepare crx_tools (csx_sign [csx_a; csx_b] false) csx_tree) crx_sched <> None) by (vm_compute; discriminate).
    destruct (cut _ _ _ _ _ _); [reflexivity|apply N; reflexivity].
  - destruct (exec_run crx_tools (csx_common [csx_a; csx_b] true) None nil (sign_prepare crx_tools (csx_sign [csx_a; csx_b] true) crx_left) csx_in_turn
      (fun y lines => files_of (y_tree y) (crx_at "a.txt.sigstore.json") = Some (crx_bundle vx_input) /\
        files_of (y_tree y) (crx_at "b.txt.sigstore.json") = Some (crx_bundle (s2b "world")))) as (y & l & R & P).
    + vm_compute. repeat split; reflexivity.
    + exists (y_tree y), (y_hist y), l. split; [exact R|exact P].
Qed.

(** [fix-bundle --in-place]: the log knows the entry; killed after seven bytes *)
Definition crx_http (q : http_request EntryRequest) : res response :=
  match q with
  | GET u ps => if str_eqb u (s2l "https://rekor.sigstore.dev/api/v1/log/entries") then Ok (mkResp 200 nil (Some (rkx_entry "u" 1700000000)) nil) else Raise EConnection
  | _ => Raise EConnection
  end.
Example ex_fix_interrupted :
  snd (fix_bundle_command (bx_env false) crx_tools crx_http false false true [s2l "a.txt.sigstore.json"] crx_old) = Ok tt /\
  exists t, fix_moment (bx_env false) crx_tools crx_http false false true [s2l "a.txt.sigstore.json"] crx_old t /\
    files_of t (crx_at "a.txt.sigstore.json") = Some (s2b "{""s"":""0") /\ crx_is_bundle (files_of t (crx_at "a.txt.sigstore.json")) = false.
Proof.
  split; [vm_compute; reflexivity|].
  assert (Fx : exists b, fix_bundle (bx_env false) (fun i => entries_get (w_rp (tl_world crx_tools)) crx_http REKOR_PRODUCTION None (Some i)) false (bx_old None) = Ok b /\
    firstn 7 (tl_to_json crx_tools (b_inner b)) = s2b "{""s"":""0").
  { eexists. split; [vm_compute; reflexivity|vm_compute; reflexivity]. }
  destruct Fx as (b & Fx & Ft).
  eexists. split.
  - refine (Fx_writing (bx_env false) crx_tools crx_http false false true [s2l "a.txt.sigstore.json"] crx_old (s2b "{}") (bx_old None) b _ 7 eq_refl _ _ Fx _);
      [vm_compute; reflexivity|vm_compute; reflexivity|vm_compute; reflexivity].
  - rewrite Ft. vm_compute. split; reflexivity.
Qed.

Print Assumptions C105_sign_interrupted.
Print Assumptions C105_attest_interrupted.
Print Assumptions C105_sign_only_outputs.
Print Assumptions C105_attest_only_outputs.
Print Assumptions C105_sign_nothing_lost.
Print Assumptions C105_attest_nothing_lost.
Print Assumptions C105_sign_end.
Print Assumptions C105_attest_end.
Print Assumptions C105_bundle_whole.
Print Assumptions C105_attestation_whole.
Print Assumptions C105_sign_recovers.
Print Assumptions C105_overwrite_refuted.
Print Assumptions C105_fix_interrupted.
Print Assumptions C105_fix_end.
Print Assumptions C105_fix_whole.
Print Assumptions C105_fix_kept_refuted.
