(** Properties C59, C60, C61 and C72: the sign and attest commands. *)
From Verif Require Import Base Codec Messages Env Keyring Cert Dsse KeyDetails Policy TrustedRoot SigningConfig Hashing Json Http
  Oidc Oauth LogEntry Bundle Verifier RekorClient Clients Tuf PyText CliVerify Sign SignSteps Predicate CliSign PropsTuf PropsCliVerify SignProofs PropsSign PropsSignThreads PropsSigningConfig PropsRekorClient PropsOidc ToyEnv ToyBundles ToySign.

(** ** Specification *)

(** the outputs that a command has for an input *)
Definition sign_output (a : SignArgs) (f p : path) : Prop :=
  sa_signature a = Some p \/ sa_certificate a = Some p \/ sa_bundle a = Some p \/
  (sa_bundle a = None /\ sa_no_default_files a = false /\
   p = given (sa_output_directory a) (path_parent f) ++ [path_name f ++ s2l ".sigstore.json"]).
Definition attest_output (a : AttestArgs) (f p : path) : Prop :=
  aa_bundle a = Some p \/ (aa_bundle a = None /\ p = path_parent f ++ [path_name f ++ s2l ".sigstore.json"]).

(** ... as a record of optional paths *)
Definition sign_opts (a : SignArgs) (f : path) : SigningOutputs :=
  mkOutputs (sa_signature a) (sa_certificate a)
    (match sa_bundle a with
     | Some b => Some b
     | None => if sa_no_default_files a then None else Some (given (sa_output_directory a) (path_parent f) ++ [path_name f ++ s2l ".sigstore.json"])
     end).
Definition attest_opts (a : AttestArgs) (f : path) : SigningOutputs :=
  mkOutputs None None (Some (given (aa_bundle a) (sibling f (s2l ".sigstore.json")))).

(** every file has the same content (directories may have been added) *)
Definition same_files (t t' : tree) : Prop := forall q, files_of t' q = files_of t q.

(** no other process touches a location *)
Definition left_alone (sched : list act) (q : path) : Prop := forall x, ~ In (A_other q x) sched.

(** what an output shows of a bundle *)
Definition shows (tl : Tools) (s : Signer) (b : Bundle) (o : output) (text : bytes) : Prop :=
  match o with
  | O_signature _ => exists sg, bundle_signature b = Ok sg /\ text = ascii_bytes (b64encode sg) ++ [x0a]
  | O_certificate _ => exists h h' c, signer_cert (tl_libs tl) (tl_out tl) s h = (h', Ok c) /\ text = ascii_bytes (pem_of_der (c_der c)) ++ [x0a]
  | O_bundle _ => text = tl_to_json tl (b_inner b) ++ [x0a]
  end.

(** [b] is the result of signing the input of a job, as it was in [t], with answers that clock and
    services gave at the time *)
Definition signed (tl : Tools) (s : Signer) (predicate : option (str * json)) (t : tree) (f : path) (b : Bundle) : Prop :=
  exists c o out h h', files_of t (loc tl f) = Some c /\
    operation tl predicate f (e_hash (l_env (tl_libs tl)) SHA256 c) = Ok o /\
    draws_from (tl_out tl) out /\ run_op (tl_libs tl) out s o h = (h', Ok b).

Definition job_locs (tl : Tools) (j : Job) : list path := map (fun o => loc tl (out_path o)) (outputs_of (job_outputs j)).
(** all outputs are different files, and none is an input *)
Definition separate (tl : Tools) (jobs : list Job) : Prop :=
  NoDup (flat_map (job_locs tl) jobs) /\
  forall j k, In j jobs -> In k jobs -> ~ In (loc tl (job_file k)) (job_locs tl j).

(** the same for the inputs of a command and the outputs it has for each *)
Definition own_outputs (tl : Tools) (files : list path) (opts : path -> SigningOutputs) : Prop :=
  (forall f, In f files -> NoDup (map (fun o => loc tl (out_path o)) (outputs_of (opts f)))) /\
  (forall f g x y, In f files -> In g files -> f <> g -> In x (outputs_of (opts f)) -> In y (outputs_of (opts g)) -> loc tl (out_path x) <> loc tl (out_path y)) /\
  (forall f g x, In f files -> In g files -> In x (outputs_of (opts f)) -> loc tl (out_path x) <> loc tl g).

(** nobody else touches the inputs and the outputs *)
Definition files_left_alone (tl : Tools) (sched : list act) (files : list path) (opts : path -> SigningOutputs) : Prop :=
  forall f, In f files -> left_alone sched (loc tl f) /\ forall x, In x (outputs_of (opts f)) -> left_alone sched (loc tl (out_path x)).

(** every input has been signed, and its outputs show the result *)
Definition outputs_written (tl : Tools) (s : Signer) (predicate : option (str * json)) (t0 t : tree) (files : list path) (opts : path -> SigningOutputs) : Prop :=
  forall f, In f files -> exists b, signed tl s predicate t0 f b /\
    forall o, In o (outputs_of (opts f)) -> exists text, shows tl s b o text /\ files_of t (loc tl (out_path o)) = Some text.

(** ** Proofs: the file system *)

Definition grows (t t' : tree) : Prop := forall q, kind t' q = kind t q \/ (kind t q = None /\ kind t' q = Some N_dir).

Lemma grows_refl : forall t, grows t t.
Proof. intros t q. left. reflexivity. Qed.
Lemma grows_trans : forall a b c, grows a b -> grows b c -> grows a c.
Proof. intros a b c H1 H2 q. destruct (H1 q) as [E1|[E1 E1']]; destruct (H2 q) as [E2|[E2 E2']]; rewrite ?E1 in *; auto; try congruence. right. split; congruence. Qed.
Lemma grows_files : forall t t', grows t t' -> same_files t t'.
Proof. intros t t' G q. unfold files_of. destruct (G q) as [E|[E E']]; rewrite E; [reflexivity|]. rewrite E'. reflexivity. Qed.
Lemma grows_exists : forall t t' q, grows t t' -> kind t q <> None -> kind t' q <> None.
Proof. intros t t' q G H. destruct (G q) as [E|[E E']]; congruence. Qed.

Lemma kind_put : forall t p n q, kind (put t p n) q = if path_eqb q p then (match q with nil => Some N_dir | _ => n end) else kind t q.
Proof. intros t p n q. unfold kind, put. destruct q; [destruct (path_eqb nil p); reflexivity|]. reflexivity. Qed.
Lemma kind_put_other : forall t p n q, q <> p -> kind (put t p n) q = kind t q.
Proof. intros t p n q H. rewrite kind_put. destruct (path_eqb q p) eqn:E; [apply path_eqb_spec in E; contradiction|reflexivity]. Qed.
Lemma files_put_other : forall t p n q, q <> p -> files_of (put t p n) q = files_of t q.
Proof. intros t p n q H. unfold files_of. rewrite kind_put_other by assumption. reflexivity. Qed.
Lemma files_put_same : forall t p b, p <> nil -> files_of (put t p (Some (N_file b))) p = Some b.
Proof. intros t p b H. unfold files_of. rewrite kind_put, path_eqb_refl. destruct p; [contradiction|reflexivity]. Qed.

Lemma mkdirs_grows : forall rest t base t' r, mkdirs t base rest = (t', r) -> grows t t'.
Proof.
  induction rest as [|a rest IH]; intros t base t' r H; cbn [mkdirs] in H; [inversion H; apply grows_refl|].
  destruct (kind t (base ++ [a])) as [[b|]|] eqn:K.
  - inversion H. apply grows_refl.
  - eapply IH, H.
  - eapply grows_trans; [|eapply IH, H]. intros q. rewrite kind_put. destruct (path_eqb q (base ++ [a])) eqn:E; [|left; reflexivity].
    apply path_eqb_spec in E. subst q. right. split; [assumption|]. destruct (base ++ [a]); reflexivity.
Qed.
Lemma mkdirs_result : forall rest t base t' r, mkdirs t base rest = (t', r) -> r = Ok tt \/ r = Raise EOs.
Proof.
  induction rest as [|a rest IH]; intros t base t' r H; cbn [mkdirs] in H; [inversion H; auto|].
  destruct (kind t (base ++ [a])) as [[b|]|]; [inversion H; auto|eauto|eauto].
Qed.

(** ** Proofs: the preparation *)

Lemma dict_set_in : forall (m : OutputMap) f o g x, In (g, x) (dict_set path_eqb f o m) -> (g = f /\ x = o) \/ In (g, x) m.
Proof.
  induction m as [|[k v] m IH]; intros f o g x H; cbn [dict_set] in H.
  - destruct H as [H|[]]. inversion H; auto.
  - destruct (path_eqb f k) eqn:E.
    + destruct H as [H|H]; [|right; right; assumption]. apply path_eqb_spec in E. inversion H; subst. auto.
    + destruct H as [H|H]; [right; left; assumption|]. apply IH in H. destruct H as [H|H]; [auto|right; right; assumption].
Qed.
Lemma dict_set_fst : forall (m : OutputMap) f o g, In g (map fst (dict_set path_eqb f o m)) <-> g = f \/ In g (map fst m).
Proof.
  induction m as [|[k v] m IH]; intros f o g; cbn [dict_set map fst In].
  - split; intros [H|[]]; auto.
  - destruct (path_eqb f k) eqn:E; cbn [map fst In].
    + apply path_eqb_spec in E. subst k. split; intros [H|H]; intuition.
    + rewrite IH. tauto.
Qed.
Lemma dict_set_nodup : forall (m : OutputMap) f o, NoDup (map fst m) -> NoDup (map fst (dict_set path_eqb f o m)).
Proof.
  induction m as [|[k v] m IH]; intros f o H; cbn [dict_set map fst].
  - constructor; [intros []|constructor].
  - cbn [map fst] in H. inversion H as [|x l Nx Nl]; subst. destruct (path_eqb f k) eqn:E; cbn [map fst].
    + constructor; assumption.
    + constructor; [|apply IH; assumption]. rewrite dict_set_fst. intros [->|I]; [|contradiction]. rewrite path_eqb_refl in E. discriminate.
Qed.

(** [one] behaves like the bodies of the two loops *)
Definition good_one (tl : Tools) (overwrite : bool) (opts : path -> SigningOutputs) (one : tree -> path -> tree * res SigningOutputs) : Prop :=
  forall t f t' r, one t f = (t', r) ->
    grows t t' /\
    match r with
    | Ok o => o = opts f /\ files_of t (loc tl f) <> None /\
        (overwrite = false -> forall x, In x (outputs_of o) -> kind t (loc tl (out_path x)) = None)
    | Raise e => e = ESystemExit 2 \/ e = EOs
    end.

Lemma output_map_spec : forall tl ov opts one, good_one tl ov opts one -> forall files t m0 t' r,
  output_map one t files m0 = (t', r) ->
  grows t t' /\
  match r with
  | Ok m => (forall f, In f (map fst m) <-> In f files \/ In f (map fst m0)) /\
      (NoDup (map fst m0) -> NoDup (map fst m)) /\
      (forall f o, In (f, o) m -> In (f, o) m0 \/ (o = opts f /\ In f files /\ files_of t (loc tl f) <> None /\
         (ov = false -> forall x, In x (outputs_of o) -> kind t (loc tl (out_path x)) = None)))
  | Raise e => e = ESystemExit 2 \/ e = EOs
  end.
Proof.
  intros tl ov opts one G. induction files as [|f files IH]; intros t m0 t' r H; cbn [output_map] in H.
  - inversion H; subst. split; [apply grows_refl|]. cbn. split; [tauto|]. auto.
  - destruct (one t f) as [t1 r1] eqn:O. apply G in O. destruct O as [G1 R1]. destruct r1 as [o|e].
    + apply IH in H. destruct H as [G2 R2]. split; [eapply grows_trans; eassumption|]. destruct r as [m|e]; [|assumption].
      destruct R1 as (Eo & Ef & Ex). destruct R2 as (Ik & Nd & El). split; [|split].
      * intros g. rewrite Ik, dict_set_fst. cbn [In]. intuition.
      * intros N0. apply Nd, dict_set_nodup, N0.
      * intros g x I. apply El in I. destruct I as [I|(-> & Ig & Fg & Exg)].
        -- apply dict_set_in in I. destruct I as [[-> ->]|I]; [|left; assumption]. right. split; [assumption|]. split; [left; reflexivity|]. auto.
        -- right. split; [reflexivity|]. split; [right; assumption|]. split; [rewrite <- (grows_files _ _ G1); assumption|].
           intros Q y Iy. specialize (Exg Q y Iy). destruct (kind t (loc tl (out_path y))) eqn:K; [|reflexivity].
           exfalso. apply (grows_exists _ _ (loc tl (out_path y)) G1); [congruence|assumption].
    + inversion H; subst. auto.
Qed.

Lemma outputs_of_in : forall o x, In x (outputs_of o) <->
  (exists p, so_signature o = Some p /\ x = O_signature p) \/ (exists p, so_certificate o = Some p /\ x = O_certificate p) \/
  (exists p, so_bundle o = Some p /\ x = O_bundle p).
Proof.
  intros [s c b] x. unfold outputs_of. cbn [so_signature so_certificate so_bundle]. rewrite !in_app_iff.
  destruct s, c, b; cbn [In]; split; intros H;
    repeat match goal with
           | H : _ \/ _ |- _ => destruct H
           | H : False |- _ => destruct H
           | H : exists _, _ |- _ => destruct H as (? & ? & ?)
           | H : _ = x |- _ => subst x
           | H : Some _ = Some _ |- _ => inversion H; subst; clear H
           | H : None = Some _ |- _ => discriminate H
           end; subst; eauto 8.
Qed.

Lemma sign_opts_outputs : forall a f p, (exists x, In x (outputs_of (sign_opts a f)) /\ out_path x = p) <-> sign_output a f p.
Proof.
  intros a f p. unfold sign_output. split.
  - intros (x & I & <-). apply outputs_of_in in I. unfold sign_opts in I. cbn [so_signature so_certificate so_bundle] in I.
    destruct I as [(q & E & ->)|[(q & E & ->)|(q & E & ->)]]; cbn [out_path]; auto.
    destruct (sa_bundle a) as [b|]; [right; right; left; assumption|].
    destruct (sa_no_default_files a); [discriminate|]. inversion E. right. right. right. auto.
  - intros H. destruct H as [E|[E|[E|(E & Nd & ->)]]].
    + exists (O_signature p). split; [|reflexivity]. apply outputs_of_in. left. exists p. auto.
    + exists (O_certificate p). split; [|reflexivity]. apply outputs_of_in. right. left. exists p. auto.
    + exists (O_bundle p). split; [|reflexivity]. apply outputs_of_in. right. right. exists p. split; [|reflexivity]. cbn [sign_opts so_bundle]. rewrite E. reflexivity.
    + eexists (O_bundle _). split; [|reflexivity]. apply outputs_of_in. right. right. eexists. split; [|reflexivity].
      cbn [sign_opts so_bundle]. rewrite E, Nd. reflexivity.
Qed.
Lemma attest_opts_outputs : forall a f p, (exists x, In x (outputs_of (attest_opts a f)) /\ out_path x = p) <-> attest_output a f p.
Proof.
  intros a f p. unfold attest_output, attest_opts, outputs_of. cbn [so_signature so_certificate so_bundle app]. split.
  - intros (x & [<-|[]] & <-). cbn [out_path]. destruct (aa_bundle a) as [b|]; cbn [given]; [left; reflexivity|right; split; reflexivity].
  - intros H. eexists. split; [left; reflexivity|]. cbn [out_path]. destruct H as [->|[-> ->]]; reflexivity.
Qed.

Lemma is_file_at : forall tl t f, is_file (world_at tl t) f = true <-> files_of t (loc tl f) <> None.
Proof. intros tl t f. unfold is_file, content, world_at, loc. cbn [w_cwd w_files]. destruct (files_of t (place (w_cwd (tl_world tl)) f)); cbn; split; congruence. Qed.

Lemma some_exists_false : forall tl t o, some_exists tl t o = false -> forall p, o = Some p -> kind t (loc tl p) = None.
Proof. intros tl t o H p ->. cbn [some_exists] in H. unfold exists_at in H. destruct (kind t (loc tl p)); [discriminate|reflexivity]. Qed.

Lemma sign_outputs_good : forall tl a, good_one tl (ca_overwrite (sa_common a)) (sign_opts a) (sign_outputs tl a).
Proof.
  intros tl a t f t' r H. unfold sign_outputs in H.
  destruct (is_file (world_at tl t) f) eqn:F; cbn [negb] in H; [|inversion H; subst; split; [apply grows_refl|left; reflexivity]].
  apply is_file_at in F.
  destruct (exists_at tl t (given (sa_output_directory a) (path_parent f)) && negb (dir_at t (loc tl (given (sa_output_directory a) (path_parent f))))) eqn:D;
    [inversion H; subst; split; [apply grows_refl|left; reflexivity]|].
  destruct (mkdirs t nil (loc tl (given (sa_output_directory a) (path_parent f)))) as [t1 r1] eqn:K.
  pose proof (mkdirs_grows _ _ _ _ _ K) as G. apply mkdirs_result in K. destruct r1 as [u|e].
  2:{ inversion H; subst. split; [assumption|]. right. destruct K; congruence. }
  cbv zeta in H. fold (so_bundle (sign_opts a f)) in H.
  change (match sa_bundle a with
          | Some b => Some b
          | None => if sa_no_default_files a then None else Some (given (sa_output_directory a) (path_parent f) ++ [path_name f ++ s2l ".sigstore.json"])
          end) with (so_bundle (sign_opts a f)) in H.
  destruct (negb (ca_overwrite (sa_common a)) && (some_exists tl t1 (sa_signature a) || some_exists tl t1 (sa_certificate a) || some_exists tl t1 (so_bundle (sign_opts a f)))) eqn:X;
    inversion H; subst; (split; [assumption|]); [left; reflexivity|].
  split; [reflexivity|]. split; [assumption|]. intros Ov x I. rewrite Ov in X. cbn [negb andb] in X.
  apply orb_false_iff in X. destruct X as [X X3]. apply orb_false_iff in X. destruct X as [X1 X2].
  assert (E : kind t' (loc tl (out_path x)) = None).
  { apply outputs_of_in in I. cbn [so_signature so_certificate so_bundle] in I.
    destruct I as [(p & E & ->)|[(p & E & ->)|(p & E & ->)]]; cbn [out_path]; eauto using some_exists_false. }
  destruct (kind t (loc tl (out_path x))) eqn:Kx; [|reflexivity]. exfalso. apply (grows_exists _ _ (loc tl (out_path x)) G); congruence.
Qed.

Lemma attest_outputs_good : forall tl a, good_one tl (ca_overwrite (aa_common a)) (attest_opts a) (attest_outputs tl a).
Proof.
  intros tl a t f t' r H. unfold attest_outputs in H.
  destruct (is_file (world_at tl t) f) eqn:F; cbn [negb] in H; [|inversion H; subst; split; [apply grows_refl|left; reflexivity]].
  apply is_file_at in F.
  destruct (exists_at tl t (given (aa_bundle a) (sibling f (s2l ".sigstore.json"))) && negb (ca_overwrite (aa_common a))) eqn:X;
    inversion H; subst; (split; [apply grows_refl|]); [left; reflexivity|].
  split; [reflexivity|]. split; [assumption|]. intros Ov x I. rewrite Ov in X. cbn [negb] in X. rewrite andb_true_r in X.
  destruct I as [<-|[]]. cbn [out_path]. unfold exists_at in X. match goal with |- kind ?u ?v = None => change (is_some (kind u v) = false) in X; destruct (kind u v); [discriminate|reflexivity] end.
Qed.

(** what is known after a preparation *)
Definition prepared (tl : Tools) (ov : bool) (opts : path -> SigningOutputs) (files : list path) (t t' : tree) (r : res OutputMap) : Prop :=
  grows t t' /\
  match r with
  | Ok m => (forall f, In f (map fst m) <-> In f files) /\ NoDup (map fst m) /\
      (forall f o, In (f, o) m -> o = opts f /\ files_of t (loc tl f) <> None /\
         (ov = false -> forall x, In x (outputs_of o) -> kind t (loc tl (out_path x)) = None))
  | Raise e => True
  end.
Lemma output_map_prepared : forall tl ov opts one files t t' r, good_one tl ov opts one -> output_map one t files nil = (t', r) ->
  prepared tl ov opts files t t' r.
Proof.
  intros tl ov opts one files t t' r G H. apply (output_map_spec tl ov opts one G) in H. destruct H as [Gr R]. split; [assumption|].
  destruct r as [m|e]; [|exact I]. destruct R as (Ik & Nd & El). split; [|split].
  - intros f. rewrite Ik. cbn. tauto.
  - apply Nd. constructor.
  - intros f o In'. apply El in In'. destruct In' as [[]|(-> & _ & F & X)]. auto.
Qed.
Lemma sign_prepare_prepared : forall tl a t t' r, sign_prepare tl a t = (t', r) ->
  prepared tl (ca_overwrite (sa_common a)) (sign_opts a) (ca_files (sa_common a)) t t' r.
Proof.
  intros tl a t t' r H. unfold sign_prepare in H.
  repeat match type of H with (if ?c then _ else _) = _ => destruct c; [inversion H; split; [apply grows_refl|exact I]|] end.
  eapply output_map_prepared; [apply sign_outputs_good|exact H].
Qed.
Lemma sign_prepare_exn : forall tl a t t' e, sign_prepare tl a t = (t', Raise e) -> e = ESystemExit 2 \/ e = EOs.
Proof.
  intros tl a t t' e H. unfold sign_prepare in H.
  repeat match type of H with (if ?c then _ else _) = _ => destruct c; [inversion H; auto|] end.
  apply (output_map_spec tl _ _ _ (sign_outputs_good tl a)) in H. apply H.
Qed.
Lemma attest_prepare_prepared : forall tl a t t' r, attest_prepare tl a t = (t', r) ->
  prepared tl (ca_overwrite (aa_common a)) (attest_opts a) (ca_files (aa_common a)) t t' (match r with Ok (m, _) => Ok m | Raise e => Raise e end).
Proof.
  intros tl a t t' r H. unfold attest_prepare in H. destruct (read_predicate tl a t) as [j|e]; [|inversion H; split; [apply grows_refl|exact I]].
  destruct (output_map (attest_outputs tl a) t (ca_files (aa_common a)) nil) as [t1 r1] eqn:O.
  apply (output_map_prepared tl (ca_overwrite (aa_common a)) (attest_opts a)) in O; [|apply attest_outputs_good].
  inversion H; subst. destruct r1; assumption.
Qed.

(** ** Proofs: the threads *)

Lemma nth_set_same : forall A (l : list A) i x y, nth_error l i = Some y -> nth_error (set_nth l i x) i = Some x.
Proof. induction l as [|a l IH]; intros [|i] x y H; cbn in *; try discriminate; [reflexivity|eauto]. Qed.
Lemma nth_set_other : forall A (l : list A) i k x, i <> k -> nth_error (set_nth l i x) k = nth_error l k.
Proof. induction l as [|a l IH]; intros [|i] [|k] x H; cbn; try reflexivity; [contradiction|]. apply IH. congruence. Qed.
Lemma set_nth_length : forall A (l : list A) i x, length (set_nth l i x) = length l.
Proof. induction l as [|a l IH]; intros [|i] x; cbn; congruence. Qed.

Definition phase_ok (tl : Tools) (j : Job) (ph : phase) : Prop :=
  match ph with
  | Ph_next _ todo => incl todo (outputs_of (job_outputs j))
  | Ph_writing _ p _ _ todo => In p (job_locs tl j) /\ incl todo (outputs_of (job_outputs j))
  | _ => True
  end.

Lemma open_w_frame : forall t p t' r q, open_w t p = (t', r) -> q <> p -> kind t' q = kind t q.
Proof.
  intros t p t' r q H N. unfold open_w in H.
  destruct (kind t p) as [[]|]; [|inversion H; reflexivity|destruct (kind t (removelast p)) as [[]|]];
    inversion H; subst; try reflexivity; apply kind_put_other; assumption.
Qed.
Lemma write_at_frame : forall t p pos c q, q <> p -> kind (write_at t p pos c) q = kind t q.
Proof. intros t p pos c q N. unfold write_at. destruct (kind t p) as [[]|]; try reflexivity. apply kind_put_other. assumption. Qed.

Lemma job_step_frame : forall tl s pr j n t h ph t' h' ph', phase_ok tl j ph -> job_step tl s pr j n t h ph = (t', h', ph') ->
  phase_ok tl j ph' /\ forall q, ~ In q (job_locs tl j) -> kind t' q = kind t q.
Proof.
  intros tl s pr j n t h ph t' h' ph' Ok' H. destruct ph as [|d|[[b|e]|ev k]|b todo|b p text pos todo|b|e]; cbn [job_step] in H.
  - destruct (files_of t (loc tl (job_file j))); inversion H; subst; split; cbn; auto.
  - destruct (operation tl pr (job_file j) d) as [o|e]; inversion H; subst; split; cbn; auto.
  - inversion H; subst. split; [apply incl_refl|auto].
  - inversion H; subst. split; cbn; auto.
  - inversion H; subst. split; cbn; auto.
  - destruct todo as [|o todo]; [inversion H; subst; split; cbn; auto|].
    destruct (output_text tl s b o h) as [h1 [text|e]]; [|inversion H; subst; split; cbn; auto].
    cbn [phase_ok] in Ok'. assert (Io : In (loc tl (out_path o)) (job_locs tl j)).
    { apply in_map_iff. exists o. split; [reflexivity|]. apply Ok'. left. reflexivity. }
    destruct (open_w t (loc tl (out_path o))) as [t1 [u|e]] eqn:O; inversion H; subst.
    + split; [split; [assumption|]; intros x Ix; apply Ok'; right; assumption|]. intros q Nq. eapply open_w_frame; [exact O|]. intros ->. contradiction.
    + split; [exact I|]. intros q Nq. eapply open_w_frame; [exact O|]. intros ->. contradiction.
  - destruct Ok' as [Ip It]. inversion H; subst. split.
    + match goal with |- phase_ok _ _ (if ?c then _ else _) => destruct c end; [assumption|split; assumption].
    + intros q Nq. apply write_at_frame. intros ->. contradiction.
  - inversion H; subst. split; auto.
  - inversion H; subst. split; auto.
Qed.

(** an invariant that relates jobs to their phases *)
Definition all_jobs (jobs : list Job) (phs : list phase) (R : Job -> phase -> Prop) : Prop :=
  length phs = length jobs /\ forall i j ph, nth_error jobs i = Some j -> nth_error phs i = Some ph -> R j ph.

Lemma all_jobs_start : forall jobs (R : Job -> phase -> Prop), (forall j, In j jobs -> R j Ph_start) -> all_jobs jobs (map (fun _ => Ph_start) jobs) R.
Proof.
  intros jobs R H. split; [apply map_length|]. intros i j ph Ij Ip. rewrite nth_error_map, Ij in Ip. cbn in Ip. inversion Ip; subst.
  apply H. eapply nth_error_In, Ij.
Qed.

Lemma sys_run_frame : forall tl s pr jobs sched y, all_jobs jobs (y_phases y) (phase_ok tl) ->
  let y' := sys_run tl s pr jobs sched y in
  all_jobs jobs (y_phases y') (phase_ok tl) /\
  forall q, (forall j, In j jobs -> ~ In q (job_locs tl j)) -> left_alone sched q -> kind (y_tree y') q = kind (y_tree y) q.
Proof.
  intros tl s pr jobs. unfold sys_run. induction sched as [|x sched IH]; intros y A; cbn [fold_left]; [split; [assumption|reflexivity]|].
  assert (G : all_jobs jobs (y_phases (sys_step tl s pr jobs y x)) (phase_ok tl) /\
    forall q, (forall j, In j jobs -> ~ In q (job_locs tl j)) -> (forall n, x <> A_other q n) -> kind (y_tree (sys_step tl s pr jobs y x)) q = kind (y_tree y) q).
  { destruct x as [i n|p n]; cbn [sys_step].
    - destruct (nth_error jobs i) as [j|] eqn:J; [|split; auto]. destruct (nth_error (y_phases y) i) as [ph|] eqn:P; [|split; auto].
      destruct (job_step tl s pr j n (y_tree y) (y_hist y) ph) as [[t' h'] ph'] eqn:Q.
      destruct A as [L A]. destruct (job_step_frame _ _ _ _ _ _ _ _ _ _ _ (A _ _ _ J P) Q) as [O F]. cbn [y_tree y_phases]. split.
      + split; [rewrite set_nth_length; assumption|]. intros k j' ph'' Jk Pk. destruct (Nat.eq_dec i k) as [<-|N].
        * rewrite (nth_set_same _ _ _ _ _ P) in Pk. congruence.
        * rewrite nth_set_other in Pk by assumption. eapply A; eassumption.
      + intros q Nq _. apply F, Nq. eapply nth_error_In, J.
    - cbn [y_tree y_phases]. split; [assumption|]. intros q _ N. apply kind_put_other. intros ->. apply (N n). reflexivity. }
  destruct G as [A1 F1]. destruct (IH _ A1) as [A2 F2]. split; [assumption|]. intros q Nq La.
  rewrite F2; [|assumption|intros n I; apply (La n); right; assumption].
  apply F1; [assumption|]. intros n ->. apply (La n). left. reflexivity.
Qed.

(** the state of a job whose files nobody else touches *)
Definition job_inv (tl : Tools) (s : Signer) (pr : option (str * json)) (t0 t : tree) (j : Job) (ph : phase) : Prop :=
  let holds o b := exists text, shows tl s b o text /\ files_of t (loc tl (out_path o)) = Some text in
  match ph with
  | Ph_start => True
  | Ph_digested d => exists c, files_of t0 (loc tl (job_file j)) = Some c /\ d = e_hash (l_env (tl_libs tl)) SHA256 c
  | Ph_signing p => exists c o st, files_of t0 (loc tl (job_file j)) = Some c /\
      operation tl pr (job_file j) (e_hash (l_env (tl_libs tl)) SHA256 c) = Ok o /\ did (p_op (tl_libs tl) (tl_out tl) s o) st p
  | Ph_next b todo => signed tl s pr t0 (job_file j) b /\
      exists done, outputs_of (job_outputs j) = done ++ todo /\ forall o, In o done -> holds o b
  | Ph_writing b p text pos todo => signed tl s pr t0 (job_file j) b /\
      exists done o, outputs_of (job_outputs j) = done ++ o :: todo /\ p = loc tl (out_path o) /\ (forall x, In x done -> holds x b) /\
        shows tl s b o text /\ pos <= length text /\ p <> nil /\ files_of t p = Some (firstn pos text)
  | Ph_done b => signed tl s pr t0 (job_file j) b /\ forall o, In o (outputs_of (job_outputs j)) -> holds o b
  | Ph_failed _ => True
  end.

Lemma job_inv_frame : forall tl s pr t0 t t' j ph, (forall q, In q (job_locs tl j) -> kind t' q = kind t q) ->
  job_inv tl s pr t0 t j ph -> job_inv tl s pr t0 t' j ph.
Proof.
  intros tl s pr t0 t t' j ph F H.
  assert (Ff : forall q, In q (job_locs tl j) -> files_of t' q = files_of t q).
  { intros q I. unfold files_of. rewrite F by assumption. reflexivity. }
  assert (Fo : forall o, In o (outputs_of (job_outputs j)) -> files_of t' (loc tl (out_path o)) = files_of t (loc tl (out_path o))).
  { intros o I. apply Ff. apply in_map_iff. exists o. auto. }
  destruct ph as [|d|[[b|e]|ev k]|b todo|b p text pos todo|b|e]; cbn [job_inv] in *; auto.
  - destruct H as (Sd & done & E & D). split; [assumption|]. exists done. split; [assumption|]. intros o I. destruct (D o I) as (text & Sh & Ft).
    exists text. split; [assumption|]. rewrite Fo; [assumption|]. rewrite E. apply in_or_app. auto.
  - destruct H as (Sd & done & o & E & -> & D & Sh & Le & Nn & Ft). split; [assumption|]. exists done, o. split; [assumption|]. split; [reflexivity|]. split.
    { intros x I. destruct (D x I) as (tx & Shx & Ftx). exists tx. split; [assumption|]. rewrite Fo; [assumption|]. rewrite E. apply in_or_app. auto. }
    split; [assumption|]. split; [assumption|]. split; [assumption|]. rewrite Fo; [assumption|]. rewrite E. apply in_or_app. right. left. reflexivity.
  - destruct H as (Sd & D). split; [assumption|]. intros o I. destruct (D o I) as (text & Sh & Ft). exists text. split; [assumption|]. rewrite Fo; assumption.
Qed.

Lemma output_text_shows : forall tl s b o h h' text, output_text tl s b o h = (h', Ok text) -> shows tl s b o text.
Proof.
  intros tl s b o h h' text H. unfold output_text, mbind, lift, ret in H. destruct o as [p|p|p]; cbn [shows].
  - destruct (bundle_signature b) as [sg|e]; [|discriminate]. inversion H. exists sg. auto.
  - destruct (signer_cert (tl_libs tl) (tl_out tl) s h) as [h1 [c|e]] eqn:C; [|discriminate]. inversion H. exists h, h1, c. auto.
  - inversion H. reflexivity.
Qed.

Lemma NoDup_app_inv : forall A (a b : list A), NoDup (a ++ b) -> NoDup a /\ NoDup b /\ forall x, In x a -> ~ In x b.
Proof.
  induction a as [|x a IH]; intros b H; cbn in *; [split; [constructor|split; [assumption|intros ? []]]|].
  inversion H as [|y l Ny Nl]; subst. destruct (IH _ Nl) as (Na & Nb & D). split; [constructor; [|assumption]|split; [assumption|]].
  - intros I. apply Ny, in_or_app. auto.
  - intros y [<-|I]; [intros I'; apply Ny, in_or_app; auto|apply D, I].
Qed.

Lemma write_at_next : forall t p text pos n, pos <= length text -> p <> nil -> files_of t p = Some (firstn pos text) ->
  files_of (write_at t p pos (firstn (S n) (skipn pos text))) p = Some (firstn (pos + length (firstn (S n) (skipn pos text))) text).
Proof.
  intros t p text pos n Le Np F. unfold write_at. assert (K : kind t p = Some (N_file (firstn pos text))).
  { unfold files_of in F. destruct (kind t p) as [[]|]; congruence. }
  rewrite K, files_put_same by assumption. f_equal.
  assert (Lf : length (firstn pos text) = pos) by (rewrite firstn_length; lia).
  rewrite Lf, Nat.sub_diag. cbn [repeat app]. rewrite firstn_firstn, Nat.min_id.
  rewrite (skipn_all2 (firstn pos text)) by (rewrite Lf; lia). rewrite app_nil_r.
  set (c := firstn (S n) (skipn pos text)). rewrite <- (firstn_skipn pos text) at 2. rewrite firstn_app, Lf.
  replace (pos + length c - pos) with (length c) by lia. rewrite firstn_firstn, Nat.min_r by lia. f_equal.
  unfold c. rewrite firstn_length. destruct (Nat.le_ge_cases (S n) (length (skipn pos text))) as [Q|Q].
  - rewrite Nat.min_l by lia. reflexivity.
  - rewrite Nat.min_r by lia. rewrite !firstn_all2 by lia. reflexivity.
Qed.

Lemma job_step_inv : forall tl s pr t0 t h j n ph t' h' ph',
  NoDup (job_locs tl j) -> files_of t (loc tl (job_file j)) = files_of t0 (loc tl (job_file j)) ->
  job_inv tl s pr t0 t j ph -> job_step tl s pr j n t h ph = (t', h', ph') -> job_inv tl s pr t0 t' j ph'.
Proof.
  intros tl s pr t0 t h j n ph t' h' ph' Nd Fi Inv H. destruct ph as [|d|[[b|e]|ev k]|b todo|b p text pos todo|b|e]; cbn [job_step] in H.
  - destruct (files_of t (loc tl (job_file j))) as [c|] eqn:F; inversion H; subst; [|exact I]. exists c. auto.
  - destruct (operation tl pr (job_file j) d) as [o|e] eqn:O; inversion H; subst; [|exact I].
    destruct Inv as (c & F & ->). exists c, o, nil. split; [assumption|]. split; [assumption|constructor].
  - inversion H; subst. destruct Inv as (c & o & st & F & O & Di).
    destruct (alone (tl_libs tl) (tl_out tl) s nil o st _ Di) as (l & R & _).
    split; [exists c, o, (moved (tl_out tl) (moments nil st) (numbers s nil st)), nil, l; auto using moved_draws|].
    exists nil. split; [reflexivity|]. intros ? [].
  - inversion H; subst. exact I.
  - inversion H; subst. destruct Inv as (c & o & st & F & O & Di). exists c, o, (st ++ [(h, ev h)]).
    split; [assumption|]. split; [assumption|]. apply did_snoc. assumption.
  - destruct Inv as (Sd & done & E & D). destruct todo as [|o todo].
    { inversion H; subst. split; [assumption|]. rewrite E, app_nil_r. assumption. }
    destruct (output_text tl s b o h) as [h1 [text|e]] eqn:T; [|inversion H; subst; exact I].
    destruct (open_w t (loc tl (out_path o))) as [t1 [u|e]] eqn:W; inversion H; subst; [|exact I].
    split; [assumption|]. exists done, o. split; [assumption|]. split; [reflexivity|].
    unfold job_locs in Nd. rewrite E, map_app in Nd. apply NoDup_app_inv in Nd. destruct Nd as (_ & _ & Dj). split; [|split; [|split; [lia|]]].
    + intros x I. destruct (D x I) as (tx & Shx & Fx). exists tx. split; [assumption|].
      assert (Nx : loc tl (out_path x) <> loc tl (out_path o)).
      { intros Q. apply (Dj (loc tl (out_path x))); [apply in_map_iff; exists x; auto|]. left. symmetry. exact Q. }
      unfold files_of in *. rewrite (open_w_frame _ _ _ _ _ W Nx). assumption.
    + eapply output_text_shows, T.
    + unfold open_w in W. destruct (loc tl (out_path o)) as [|z zs] eqn:Lo.
      { cbn [kind] in W. discriminate. }
      split; [discriminate|]. cbn [firstn].
      assert (t' = put t (z :: zs) (Some (N_file nil))).
      { destruct (kind t (z :: zs)) as [[]|]; try congruence. destruct (kind t (removelast (z :: zs))) as [[]|]; congruence. }
      subst t'. apply files_put_same. discriminate.
  - destruct Inv as (Sd & done & o & E & -> & D & Sh & Le & Nn & F).
    apply pair_equal_spec in H. destruct H as [H Eph]. apply pair_equal_spec in H. destruct H as [Et Eh]. subst t' h' ph'.
    pose proof (write_at_next t _ text pos n Le Nn F) as W.
    set (chunk := firstn (S n) (skipn pos text)) in *. set (t' := write_at t (loc tl (out_path o)) pos chunk) in *.
    assert (Dn : forall x, In x done -> exists tx, shows tl s b x tx /\ files_of t' (loc tl (out_path x)) = Some tx).
    { intros x I. destruct (D x I) as (tx & Shx & Fx). exists tx. split; [assumption|].
      unfold job_locs in Nd. rewrite E, map_app in Nd. apply NoDup_app_inv in Nd. destruct Nd as (_ & _ & Dj).
      assert (Nx : loc tl (out_path x) <> loc tl (out_path o)).
      { intros Q. apply (Dj (loc tl (out_path x))); [apply in_map_iff; exists x; auto|]. left. symmetry. exact Q. }
      unfold files_of in *. unfold t'. rewrite write_at_frame by assumption. assumption. }
    assert (Lc : pos + length chunk <= length text) by (unfold chunk; rewrite firstn_length, skipn_length; lia).
    destruct (Nat.leb (length text) (pos + length chunk)) eqn:Q.
    + apply Nat.leb_le in Q. split; [assumption|]. exists (done ++ [o]). split; [rewrite <- app_assoc; assumption|].
      intros x I. apply in_app_iff in I. destruct I as [I|[<-|[]]]; [auto|]. exists text. split; [assumption|].
      rewrite W. rewrite firstn_all2 by lia. reflexivity.
    + split; [assumption|]. exists done, o. split; [assumption|]. auto 10.
  - inversion H; subst. assumption.
  - inversion H; subst. exact I.
Qed.

Lemma NoDup_flat_map_nth : forall A B (f : A -> list B) l i k a b x, NoDup (flat_map f l) -> nth_error l i = Some a -> nth_error l k = Some b -> i <> k ->
  In x (f a) -> ~ In x (f b).
Proof.
  induction l as [|c l IH]; intros i k a b x Nd Ia Ib Ne Ix; [destruct i; discriminate|]. cbn [flat_map] in Nd.
  apply NoDup_app_inv in Nd. destruct Nd as (_ & Nl & Dj).
  assert (Sub : forall m d, nth_error l m = Some d -> forall y, In y (f d) -> In y (flat_map f l)).
  { intros m d Hm y Iy. apply in_flat_map. exists d. split; [eapply nth_error_In, Hm|assumption]. }
  destruct i as [|i]; destruct k as [|k]; cbn [nth_error] in *; [contradiction| | |].
  - inversion Ia; subst. intros Q. apply (Dj x Ix). eapply Sub; eassumption.
  - inversion Ib; subst. intros Q. apply (Dj x Q). eapply Sub; eassumption.
  - apply (IH i k a b x Nl Ia Ib); [congruence|assumption].
Qed.
Lemma NoDup_flat_map_one : forall A B (f : A -> list B) l a, NoDup (flat_map f l) -> In a l -> NoDup (f a).
Proof.
  induction l as [|c l IH]; intros a Nd I; [destruct I|]. cbn [flat_map] in Nd. apply NoDup_app_inv in Nd. destruct Nd as (Nc & Nl & _).
  destruct I as [<-|I]; auto.
Qed.

(** nobody else touches the files of the jobs *)
Definition undisturbed (tl : Tools) (jobs : list Job) (sched : list act) : Prop :=
  forall j, In j jobs -> left_alone sched (loc tl (job_file j)) /\ forall q, In q (job_locs tl j) -> left_alone sched q.

Lemma sys_run_inv : forall tl s pr jobs t0, separate tl jobs -> forall sched y, undisturbed tl jobs sched ->
  all_jobs jobs (y_phases y) (phase_ok tl) ->
  (forall j, In j jobs -> files_of (y_tree y) (loc tl (job_file j)) = files_of t0 (loc tl (job_file j))) ->
  all_jobs jobs (y_phases y) (job_inv tl s pr t0 (y_tree y)) ->
  let y' := sys_run tl s pr jobs sched y in all_jobs jobs (y_phases y') (job_inv tl s pr t0 (y_tree y')).
Proof.
  intros tl s pr jobs t0 (Nd & Sep). unfold sys_run. induction sched as [|x sched IH]; intros y U P Fi A; cbn [fold_left]; [assumption|].
  pose proof (sys_run_frame tl s pr jobs [x] y P) as [P1 F1]. unfold sys_run in P1, F1. cbn [fold_left] in P1, F1.
  assert (U0 : undisturbed tl jobs [x]).
  { intros j Ij. destruct (U j Ij) as [U1 U2]. split; [intros n [Q|[]]; apply (U1 n); left; assumption|].
    intros q Iq n [Q|[]]. apply (U2 q Iq n). left. assumption. }
  apply IH; [| assumption | |].
  - intros j Ij. destruct (U j Ij) as [U1 U2]. split; [intros n Q; apply (U1 n); right; assumption|].
    intros q Iq n Q. apply (U2 q Iq n). right. assumption.
  - intros j Ij. rewrite <- Fi by assumption. unfold files_of. rewrite F1; [reflexivity| |apply U0, Ij].
    intros k Ik Q. apply (Sep k j Ik Ij Q).
  - destruct x as [i n|p n]; cbn [sys_step].
    + destruct (nth_error jobs i) as [j|] eqn:J; [|assumption]. destruct (nth_error (y_phases y) i) as [ph|] eqn:Ph; [|assumption].
      destruct (job_step tl s pr j n (y_tree y) (y_hist y) ph) as [[t' h'] ph'] eqn:Q. cbn [y_tree y_phases]. destruct A as [L A].
      destruct (job_step_frame _ _ _ _ _ _ _ _ _ _ _ (proj2 P _ _ _ J Ph) Q) as [_ F].
      split; [rewrite set_nth_length; assumption|]. intros k j' ph'' Jk Pk. destruct (Nat.eq_dec i k) as [<-|N].
      * rewrite (nth_set_same _ _ _ _ _ Ph) in Pk. assert (j' = j) by congruence. assert (ph'' = ph') by congruence. subst j' ph''.
        eapply job_step_inv; [| | |exact Q].
        -- eapply NoDup_flat_map_one; [exact Nd|]. eapply nth_error_In, J.
        -- apply Fi. eapply nth_error_In, J.
        -- eapply A; eassumption.
      * rewrite nth_set_other in Pk by assumption. eapply job_inv_frame; [|eapply A; eassumption].
        intros q Iq. apply F. eapply NoDup_flat_map_nth; [exact Nd|exact Jk|exact J|congruence|assumption].
    + cbn [y_tree y_phases]. destruct A as [L A]. split; [assumption|]. intros k j ph Jk Pk. eapply job_inv_frame; [|eapply A; eassumption].
      intros q Iq. apply kind_put_other. intros ->. apply (proj2 (U0 j (nth_error_In _ _ Jk)) p Iq n). left. reflexivity.
Qed.

(** ** C59: nothing is overwritten without [--overwrite] *)

Lemma main_handler_raise : forall v e, main_handler v (Raise e) <> Ok tt.
Proof. intros v e. unfold main_handler, try_except, log_and_exit. destruct (is_sigstore_error e); [destruct v|]; discriminate. Qed.
Lemma main_handler_ok : forall v r, main_handler v r = Ok tt -> r = Ok tt.
Proof. intros v [[]|e] H; [reflexivity|]. exfalso. eapply main_handler_raise, H. Qed.

Lemma prepared_refuses : forall tl opts files t t' r f p, prepared tl false opts files t t' r ->
  In f files -> (exists x, In x (outputs_of (opts f)) /\ out_path x = p) -> kind t (loc tl p) <> None -> exists e, r = Raise e.
Proof.
  intros tl opts files t t' r f p [_ R] If (x & Ix & <-) K. destruct r as [m|e]; [|exists e; reflexivity].
  exfalso. destruct R as (Ik & _ & El). apply Ik in If. apply in_map_iff in If. destruct If as ([g o] & E & I). cbn in E. subst g.
  destruct (El f o I) as (-> & _ & X). apply K, X; auto.
Qed.

(** If an output of some input exists, [sigstore sign] without [--overwrite] fails, without
    having made any request or signature and without having changed any file. *)
Theorem C59_sign_refused : forall tl a t0 h0 sched t h lines r f p,
  sign_run tl a t0 h0 sched t h lines r -> ca_overwrite (sa_common a) = false ->
  In f (ca_files (sa_common a)) -> sign_output a f p -> kind t0 (loc tl p) <> None ->
  (r = Raise (ESystemExit 2) \/ r = Raise EOs) /\ h = h0 /\ lines = nil /\ same_files t0 t.
Proof.
  intros tl a t0 h0 sched t h lines r f p H Ov If Op K. unfold sign_run in H. destruct (sign_prepare tl a t0) as [t1 r1] eqn:P.
  pose proof (sign_prepare_prepared _ _ _ _ _ P) as Q. rewrite Ov in Q.
  destruct (prepared_refuses _ _ _ _ _ _ _ p Q If) as [e ->]; [apply sign_opts_outputs; assumption|assumption|].
  pose proof (sign_prepare_exn _ _ _ _ _ P) as X. inversion H; subst. split; [destruct X; subst e; auto|]. split; [reflexivity|]. split; [reflexivity|].
  apply grows_files, Q.
Qed.
Theorem C59_attest_refused : forall tl a t0 h0 sched t h lines r f p,
  attest_run tl a t0 h0 sched t h lines r -> ca_overwrite (aa_common a) = false ->
  In f (ca_files (aa_common a)) -> attest_output a f p -> kind t0 (loc tl p) <> None ->
  r <> Ok tt /\ h = h0 /\ lines = nil /\ same_files t0 t.
Proof.
  intros tl a t0 h0 sched t h lines r f p H Ov If Op K. unfold attest_run in H. destruct (attest_prepare tl a t0) as [t1 r1] eqn:P.
  pose proof (attest_prepare_prepared _ _ _ _ _ P) as Q. rewrite Ov in Q.
  destruct (prepared_refuses _ _ _ _ _ _ _ p Q If) as [e E]; [apply attest_opts_outputs; assumption|assumption|].
  destruct r1 as [[m j]|e1]; [discriminate|]. inversion H; subst. split; [apply main_handler_raise|]. split; [reflexivity|]. split; [reflexivity|].
  apply grows_files, Q.
Qed.

Lemma jobs_of_in : forall m j, In j (jobs_of m) <-> In (job_file j, job_outputs j) m.
Proof.
  intros m j. unfold jobs_of. rewrite in_map_iff. split.
  - intros ([f o] & <- & I). assumption.
  - intros I. exists (job_file j, job_outputs j). split; [destruct j; reflexivity|assumption].
Qed.

Lemma common_run_kept : forall tl a pr h0 opts files t0 t1 r1 sched t h lines r, prepared tl false opts files t0 t1 r1 ->
  common_run tl a pr h0 (t1, r1) sched t h lines r ->
  forall q b, files_of t0 q = Some b -> left_alone sched q -> files_of t q = Some b.
Proof.
  intros tl a pr h0 opts files t0 t1 r1 sched t h lines r P H q b F La.
  destruct P as [G R]. pose proof (grows_files _ _ G q) as Sf. inversion H; subst; try congruence.
  destruct R as (_ & _ & El). rename t1 into t1'. match goal with |- files_of (y_tree (sys_run _ ?s ?p ?js ?sc ?y0)) _ = _ =>
    destruct (sys_run_frame tl s p js sc y0) as [_ Fr] end.
  { apply all_jobs_start. intros j _. exact I. }
  cbv zeta in Fr. unfold files_of. rewrite Fr; [cbn [sys_start y_tree]; unfold files_of in Sf, F; congruence| |assumption].
  intros j Ij Iq. apply jobs_of_in in Ij. apply in_map_iff in Iq. destruct Iq as (x & Ex & Ix).
  destruct (El _ _ Ij) as (_ & _ & X). specialize (X eq_refl x Ix). rewrite Ex in X.
  unfold files_of in F. rewrite X in F. discriminate.
Qed.

(** Whatever the outcome and the schedule, a file that existed before the command keeps its
    content (as far as other processes leave it alone). *)
Theorem C59_sign_existing_files_kept : forall tl a t0 h0 sched t h lines r,
  sign_run tl a t0 h0 sched t h lines r -> ca_overwrite (sa_common a) = false ->
  forall q b, files_of t0 q = Some b -> left_alone sched q -> files_of t q = Some b.
Proof.
  intros tl a t0 h0 sched t h lines r H Ov. unfold sign_run in H. destruct (sign_prepare tl a t0) as [t1 r1] eqn:P.
  apply sign_prepare_prepared in P. rewrite Ov in P. eapply common_run_kept; eassumption.
Qed.
Theorem C59_attest_existing_files_kept : forall tl a t0 h0 sched t h lines r,
  attest_run tl a t0 h0 sched t h lines r -> ca_overwrite (aa_common a) = false ->
  forall q b, files_of t0 q = Some b -> left_alone sched q -> files_of t q = Some b.
Proof.
  intros tl a t0 h0 sched t h lines r H Ov. unfold attest_run in H. destruct (attest_prepare tl a t0) as [t1 r1] eqn:P.
  apply attest_prepare_prepared in P. rewrite Ov in P.
  destruct r1 as [[m j]|e]; eapply common_run_kept; eassumption.
Qed.

(** ... and with [--overwrite] only the outputs change. *)
Lemma common_run_frame : forall tl a pr h0 ov opts files t0 t1 r1 sched t h lines r, prepared tl ov opts files t0 t1 r1 ->
  common_run tl a pr h0 (t1, r1) sched t h lines r ->
  forall q, (forall f x, In f files -> In x (outputs_of (opts f)) -> loc tl (out_path x) <> q) -> left_alone sched q -> files_of t q = files_of t0 q.
Proof.
  intros tl a pr h0 ov opts files t0 t1 r1 sched t h lines r P H q Nq La.
  destruct P as [G R]. pose proof (grows_files _ _ G q) as Sf. inversion H; subst; try congruence.
  destruct R as (Ik & _ & El). match goal with |- files_of (y_tree (sys_run _ ?s ?p ?js ?sc ?y0)) _ = _ =>
    destruct (sys_run_frame tl s p js sc y0) as [_ Fr] end.
  { apply all_jobs_start. intros j _. exact I. }
  cbv zeta in Fr. rewrite <- Sf. unfold files_of. rewrite Fr; [reflexivity| |assumption].
  intros j Ij Iq. apply jobs_of_in in Ij. apply in_map_iff in Iq. destruct Iq as (x & Ex & Ix).
  destruct (El _ _ Ij) as (Eo & _). rewrite Eo in Ix. apply (Nq (job_file j) x); [|assumption|assumption].
  apply Ik. apply in_map_iff. exists (job_file j, job_outputs j). auto.
Qed.
Theorem C59_sign_only_outputs_change : forall tl a t0 h0 sched t h lines r,
  sign_run tl a t0 h0 sched t h lines r ->
  forall q, (forall f p, In f (ca_files (sa_common a)) -> sign_output a f p -> loc tl p <> q) -> left_alone sched q -> files_of t q = files_of t0 q.
Proof.
  intros tl a t0 h0 sched t h lines r H q Nq La. unfold sign_run in H. destruct (sign_prepare tl a t0) as [t1 r1] eqn:P.
  apply sign_prepare_prepared in P. eapply common_run_frame; try eassumption.
  intros f x If Ix. apply (Nq f (out_path x) If). apply sign_opts_outputs. exists x. auto.
Qed.
Theorem C59_attest_only_outputs_change : forall tl a t0 h0 sched t h lines r,
  attest_run tl a t0 h0 sched t h lines r ->
  forall q, (forall f p, In f (ca_files (aa_common a)) -> attest_output a f p -> loc tl p <> q) -> left_alone sched q -> files_of t q = files_of t0 q.
Proof.
  intros tl a t0 h0 sched t h lines r H q Nq La. unfold attest_run in H. destruct (attest_prepare tl a t0) as [t1 r1] eqn:P.
  apply attest_prepare_prepared in P.
  assert (N' : forall f x, In f (ca_files (aa_common a)) -> In x (outputs_of (attest_opts a f)) -> loc tl (out_path x) <> q).
  { intros f x If Ix. apply (Nq f (out_path x) If). apply attest_opts_outputs. exists x. auto. }
  destruct r1 as [[m j]|e]; eapply common_run_frame; eassumption.
Qed.

(** ** C60: every input has its own outputs *)

(** the last part of a path names an entry of its directory *)
Definition names_entry (f : path) : Prop := exists d n, f = d ++ [n] /\ n <> s2l ".." /\ n <> ROOT.

Lemma place_last : forall cwd d n, n <> s2l ".." -> n <> ROOT -> place cwd (d ++ [n]) = place cwd d ++ [n].
Proof.
  intros cwd d n N1 N2. unfold place. assert (U : forall x, up x n = x ++ [n]).
  { intros x. unfold up. destruct (str_eqb n (s2l "..")) eqn:E; [apply str_eqb_spec in E; contradiction|reflexivity]. }
  destruct d as [|a d]; cbn [app].
  - destruct (str_eqb n ROOT) eqn:E; [apply str_eqb_spec in E; contradiction|]. cbn [fold_left]. apply U.
  - destruct (str_eqb a ROOT).
    + rewrite fold_left_app. cbn [fold_left]. apply U.
    + change (a :: d ++ [n]) with ((a :: d) ++ [n]). rewrite fold_left_app. cbn [fold_left]. apply U.
Qed.
Lemma names_entry_parts : forall f, names_entry f -> f = path_parent f ++ [path_name f] /\ path_name f <> s2l ".." /\ path_name f <> ROOT.
Proof.
  intros f (d & n & -> & N1 & N2). unfold path_parent, path_name.
  assert (A : is_anchor (d ++ [n]) = false).
  { unfold is_anchor. apply orb_false_iff. split.
    - destruct (path_eqb (d ++ [n]) nil) eqn:E; [|reflexivity]. apply path_eqb_spec in E. destruct d; discriminate.
    - destruct (path_eqb (d ++ [n]) [ROOT]) eqn:E; [|reflexivity]. apply path_eqb_spec in E. change [ROOT] with (nil ++ [ROOT]) in E.
      apply app_inj_tail in E. destruct E. contradiction. }
  rewrite A, last_last, removelast_last. auto.
Qed.
Lemma suffixed_not : forall n, n ++ s2l ".sigstore.json" <> s2l ".." /\ n ++ s2l ".sigstore.json" <> ROOT.
Proof. intros n. split; intros H; apply (f_equal (@length N)) in H; rewrite app_length in H; cbn in H; lia. Qed.

Lemma default_place : forall cwd f, names_entry f ->
  place cwd (path_parent f ++ [path_name f ++ s2l ".sigstore.json"]) = place cwd (path_parent f) ++ [path_name f ++ s2l ".sigstore.json"] /\
  place cwd f = place cwd (path_parent f) ++ [path_name f].
Proof.
  intros cwd f H. apply names_entry_parts in H. destruct H as (E & N1 & N2). split.
  - apply place_last; apply suffixed_not.
  - rewrite E at 1. apply place_last; assumption.
Qed.

(** With default output names, different inputs have different outputs. *)
Theorem C60_default_names : forall cwd f g, names_entry f -> names_entry g ->
  place cwd (path_parent f ++ [path_name f ++ s2l ".sigstore.json"]) = place cwd (path_parent g ++ [path_name g ++ s2l ".sigstore.json"]) <->
  place cwd f = place cwd g.
Proof.
  intros cwd f g Hf Hg. destruct (default_place cwd f Hf) as [-> ->]. destruct (default_place cwd g Hg) as [-> ->]. split; intros E.
  - apply app_inj_tail in E. destruct E as [-> E]. apply app_inv_tail in E. rewrite E. reflexivity.
  - apply app_inj_tail in E. destruct E as [-> ->]. reflexivity.
Qed.

(** ** C61: the schedule does not matter *)

Lemma get_trust_config_files : forall w w' tc i st off, (forall p, content w p = content w' p) -> w_config_json w = w_config_json w' -> w_config_tuf w = w_config_tuf w' ->
  get_trust_config w tc i st off = get_trust_config w' tc i st off.
Proof.
  intros w w' tc i st off C J T. unfold get_trust_config. rewrite J, T. destruct tc as [p|]; [|reflexivity].
  unfold file_text, file_bytes. rewrite C. reflexivity.
Qed.
Lemma setup_same : forall tl a t t' h, same_files t t' -> setup tl a t' h = setup tl a t h.
Proof.
  intros tl a t t' h S. unfold setup, signing_config.
  rewrite (get_trust_config_files (world_at tl t') (world_at tl t)); [reflexivity| |reflexivity|reflexivity].
  intros p. unfold content, world_at. cbn [w_files w_cwd]. apply S.
Qed.

Lemma NoDup_flat_map : forall A B (f : A -> list B) l, NoDup l -> (forall a, In a l -> NoDup (f a)) ->
  (forall a b x, In a l -> In b l -> a <> b -> In x (f a) -> ~ In x (f b)) -> NoDup (flat_map f l).
Proof.
  induction l as [|a l IH]; intros N E D; cbn [flat_map]; [constructor|]. inversion N; subst.
  assert (G : NoDup (flat_map f l)).
  { apply IH; [assumption|intros; apply E; right; assumption|]. intros b c x Ib Ic. apply D; right; assumption. }
  assert (Dj : forall x, In x (f a) -> ~ In x (flat_map f l)).
  { intros x Ix Q. apply in_flat_map in Q. destruct Q as (b & Ib & Ixb). apply (D a b x); [left; reflexivity|right; assumption|intros ->; contradiction|assumption|assumption]. }
  assert (Na : NoDup (f a)) by (apply E; left; reflexivity).
  clear -Na G Dj. revert Na Dj. induction (f a) as [|x r IH]; intros Na Dj; cbn [app]; [assumption|]. inversion Na; subst. constructor.
  - rewrite in_app_iff. intros [Q|Q]; [contradiction|]. apply (Dj x); [left; reflexivity|assumption].
  - apply IH; [assumption|]. intros y Iy. apply Dj. right. assumption.
Qed.

Lemma own_outputs_separate : forall tl ov opts files t t' m, prepared tl ov opts files t t' (Ok m) -> own_outputs tl files opts -> separate tl (jobs_of m).
Proof.
  intros tl ov opts files t t' m (_ & Ik & Nd & El) (O1 & O2 & O3).
  assert (Mem : forall j, In j (jobs_of m) -> In (job_file j) files /\ job_outputs j = opts (job_file j)).
  { intros j Ij. apply jobs_of_in in Ij. split; [apply Ik, in_map_iff; exists (job_file j, job_outputs j); auto|]. apply (El _ _ Ij). }
  split.
  - apply NoDup_flat_map.
    + unfold jobs_of. apply (NoDup_map_inv job_file). rewrite map_map. cbn [job_file]. exact Nd.
    + intros j Ij. destruct (Mem j Ij) as [If Eo]. unfold job_locs. rewrite Eo. apply O1, If.
    + intros j k q Ij Ik' Nq Ia Ib. destruct (Mem j Ij) as [Ifj Ej]. destruct (Mem k Ik') as [Ifk Ek].
      unfold job_locs in Ia, Ib. apply in_map_iff in Ia. apply in_map_iff in Ib. destruct Ia as (x & <- & Ix). destruct Ib as (y & Ey & Iy).
      rewrite Ej in Ix. rewrite Ek in Iy. apply (O2 (job_file j) (job_file k) x y); try assumption; [|symmetry; assumption].
      intros Q. apply Nq. destruct j as [fj oj], k as [fk ok]. cbn [job_file job_outputs] in *. subst. reflexivity.
  - intros j k Ij Ik' Q. destruct (Mem j Ij) as [Ifj Ej]. destruct (Mem k Ik') as [Ifk _].
    unfold job_locs in Q. apply in_map_iff in Q. destruct Q as (x & Ex & Ix). rewrite Ej in Ix. apply (O3 (job_file j) (job_file k) x); assumption.
Qed.

Lemma common_run_final : forall tl a pr h0 ov opts files t0 t1 r1 sched t h lines, prepared tl ov opts files t0 t1 r1 ->
  common_run tl a pr h0 (t1, r1) sched t h lines (Ok tt) -> own_outputs tl files opts -> files_left_alone tl sched files opts ->
  exists h1 s, setup tl a t0 h0 = (h1, Ok s) /\ outputs_written tl s pr t0 t files opts.
Proof.
  intros tl a pr h0 ov opts files t0 t1 r1 sched t h lines P H Ow La. pose proof P as (G & R).
  remember (t1, r1) as pr1 eqn:E1. remember (Ok tt) as r0 eqn:Er. destruct H as [t2 e|t2 m h2 e S|t2 m h2 s sched y r S Y F].
  - exfalso. eapply main_handler_raise, Er.
  - exfalso. eapply main_handler_raise, Er.
  - apply main_handler_ok in Er. subst r. inversion E1; subst t2 r1. inversion F as [D|]; subst.
    exists h2, s. split; [rewrite <- (setup_same tl a t0 t1 h0); [assumption|apply grows_files, G]|].
    pose proof (own_outputs_separate _ _ _ _ _ _ _ P Ow) as Sep. destruct R as (Ik & _ & El).
    assert (Mem : forall j, In j (jobs_of m) -> In (job_file j) files /\ job_outputs j = opts (job_file j)).
    { intros j Ij. apply jobs_of_in in Ij. split; [apply Ik, in_map_iff; exists (job_file j, job_outputs j); auto|]. apply (El _ _ Ij). }
    assert (U : undisturbed tl (jobs_of m) sched).
    { intros j Ij. destruct (Mem j Ij) as [If Eo]. destruct (La _ If) as [L1 L2]. split; [assumption|].
      intros q Iq. unfold job_locs in Iq. apply in_map_iff in Iq. destruct Iq as (x & <- & Ix). apply L2. rewrite <- Eo. assumption. }
    pose proof (sys_run_inv tl s pr (jobs_of m) t0 Sep sched (sys_start (jobs_of m) t1 h2) U) as Inv. cbv zeta in Inv.
    cbn [sys_start y_tree y_phases] in Inv. destruct Inv as [L Inv].
    { apply all_jobs_start. intros j _. exact I. }
    { intros j _. apply (grows_files _ _ G). }
    { apply all_jobs_start. intros j _. exact I. }
    intros f If. apply Ik in If. apply in_map_iff in If. destruct If as ([g o] & Eg & Im). cbn in Eg. subst g.
    destruct (El _ _ Im) as (Eo & _). assert (Ij : In (mkJob f o) (jobs_of m)) by (apply jobs_of_in; assumption).
    apply In_nth_error in Ij. destruct Ij as (i & Ni).
    destruct (nth_error (y_phases (sys_run tl s pr (jobs_of m) sched (sys_start (jobs_of m) t1 h2))) i) as [ph|] eqn:Ph.
    2:{ apply nth_error_None in Ph. rewrite L in Ph. apply nth_error_None in Ph. congruence. }
    destruct (D ph (nth_error_In _ _ Ph)) as (b & ->). specialize (Inv _ _ _ Ni Ph). cbn [job_inv job_file job_outputs] in Inv.
    destruct Inv as [Sg Hd]. exists b. split; [assumption|]. rewrite <- Eo. exact Hd.
Qed.

(** When [sigstore sign] succeeds, every input has been signed and each of its outputs has
    exactly the text for this input -- for all schedules, if outputs are different files and no
    output is an input. *)
Theorem C61_sign_outputs : forall tl a t0 h0 sched t h lines,
  sign_run tl a t0 h0 sched t h lines (Ok tt) ->
  own_outputs tl (ca_files (sa_common a)) (sign_opts a) -> files_left_alone tl sched (ca_files (sa_common a)) (sign_opts a) ->
  exists h1 s, setup tl (sa_common a) t0 h0 = (h1, Ok s) /\
    outputs_written tl s None t0 t (ca_files (sa_common a)) (sign_opts a).
Proof.
  intros tl a t0 h0 sched t h lines H Ow La. unfold sign_run in H. destruct (sign_prepare tl a t0) as [t1 r1] eqn:P.
  apply sign_prepare_prepared in P. eapply common_run_final; eassumption.
Qed.
(** What is reported: after a success exactly the outputs of the inputs (so that, with C61_sign_outputs,
    every reported file has been written), and nothing after a failure. *)
Lemma common_run_reported : forall tl a pr h0 ov opts files t0 t1 r1 sched t h lines r, prepared tl ov opts files t0 t1 r1 ->
  common_run tl a pr h0 (t1, r1) sched t h lines r ->
  (r <> Ok tt -> lines = nil) /\ (r = Ok tt -> forall o, In o lines <-> exists f, In f files /\ In o (outputs_of (opts f))).
Proof.
  intros tl a pr h0 ov opts files t0 t1 r1 sched t h lines r (_ & P) H. remember (t1, r1) as q eqn:Eq.
  assert (M : forall e, main_handler (ca_verbose a) (Raise e) <> Ok tt) by (intros e X; exact (main_handler_raise _ _ X)).
  destruct H as [t2 e|t2 m h2 e S|t2 m h2 s sched y r S Y F]; inversion Eq; subst.
  - split; [reflexivity|]. intros X. destruct (M _ X).
  - split; [reflexivity|]. intros X. destruct (M _ X).
  - destruct r as [[]|e]; [|split; [reflexivity|]; intros X; destruct (M _ X)]. split; [intros X; exfalso; apply X; reflexivity|]. intros _ o.
    destruct P as (Ik & _ & El). unfold written. rewrite in_flat_map. split.
    + intros ([f x] & Im & Io). exists f. split; [apply Ik, in_map_iff; exists (f, x); auto|]. destruct (El _ _ Im) as [<- _]. exact Io.
    + intros (f & If & Io). apply Ik, in_map_iff in If. destruct If as ([f' x] & E & Im). cbn [fst] in E. subst f'. exists (f, x). split; [exact Im|].
      destruct (El _ _ Im) as [-> _]. exact Io.
Qed.
Theorem C61_sign_reported : forall tl a t0 h0 sched t h lines r, sign_run tl a t0 h0 sched t h lines r ->
  (r <> Ok tt -> lines = nil) /\
  (r = Ok tt -> forall o, In o lines <-> exists f, In f (ca_files (sa_common a)) /\ In o (outputs_of (sign_opts a f))).
Proof.
  intros tl a t0 h0 sched t h lines r H. unfold sign_run in H. destruct (sign_prepare tl a t0) as [t1 r1] eqn:P.
  eapply common_run_reported; [eapply sign_prepare_prepared, P|exact H].
Qed.
Theorem C61_attest_outputs : forall tl a t0 h0 sched t h lines,
  attest_run tl a t0 h0 sched t h lines (Ok tt) ->
  own_outputs tl (ca_files (aa_common a)) (attest_opts a) -> files_left_alone tl sched (ca_files (aa_common a)) (attest_opts a) ->
  exists h1 s j, setup tl (aa_common a) t0 h0 = (h1, Ok s) /\ read_predicate tl a t0 = Ok j /\
    outputs_written tl s (Some (aa_predicate_type a, j)) t0 t (ca_files (aa_common a)) (attest_opts a).
Proof.
  intros tl a t0 h0 sched t h lines H Ow La. unfold attest_run in H. destruct (attest_prepare tl a t0) as [t1 r1] eqn:P.
  pose proof P as P'. apply attest_prepare_prepared in P. destruct r1 as [[m j]|e].
  - destruct (common_run_final _ _ _ _ _ _ _ _ _ _ _ _ _ _ P H Ow La) as (h1 & s & S & W). exists h1, s, j. split; [assumption|]. split; [|assumption].
    unfold attest_prepare in P'. destruct (read_predicate tl a t0) as [j'|e]; [|discriminate].
    destruct (output_map (attest_outputs tl a) t0 (ca_files (aa_common a)) nil) as [t2 [m2|e]]; cbn [bind] in P'; [|discriminate].
    f_equal. congruence.
  - exfalso. remember (t1, Raise e) as pr1. remember (Ok tt) as r0 eqn:Er. destruct H; try (eapply main_handler_raise; exact Er). congruence.
Qed.

Theorem C61_attest_reported : forall tl a t0 h0 sched t h lines r, attest_run tl a t0 h0 sched t h lines r ->
  (r <> Ok tt -> lines = nil) /\
  (r = Ok tt -> forall o, In o lines <-> exists f, In f (ca_files (aa_common a)) /\ In o (outputs_of (attest_opts a f))).
Proof.
  intros tl a t0 h0 sched t h lines r H. unfold attest_run in H. destruct (attest_prepare tl a t0) as [t1 r1] eqn:P.
  apply attest_prepare_prepared in P. destruct r1 as [[m j]|e]; (eapply common_run_reported; [exact P|exact H]).
Qed.

(** With the same answers from outside, all schedules give the same files. *)
Definition same_answers (tl : Tools) (s : Signer) : Prop :=
  forall out out' o h h', draws_from (tl_out tl) out -> draws_from (tl_out tl) out' ->
  snd (run_op (tl_libs tl) out s o h) = snd (run_op (tl_libs tl) out' s o h').

Lemma setup_cached : forall tl a t h h' s, setup tl a t h = (h', Ok s) -> exists c, sg_cert s = Some c.
Proof.
  intros tl a t h h' s H. unfold setup in H.
  apply mbind_ok in H. destruct H as (h1 & c & _ & H). apply mbind_ok in H. destruct H as (h2 & ctx & _ & H).
  apply mbind_ok in H. destruct H as (h3 & tok & _ & H). apply mbind_ok in H. destruct H as (h4 & s' & Mk & H).
  apply mbind_ok in H. destruct H as (h5 & c' & _ & H). apply ret_ok in H. destruct H as [_ ->].
  apply make_signer_cached in Mk. destruct Mk as (c0 & _ & _ & _ & Ce & _). exists c0. assumption.
Qed.

Lemma shows_fun : forall tl s c b o x y, sg_cert s = Some c -> shows tl s b o x -> shows tl s b o y -> x = y.
Proof.
  intros tl s c b o x y Ce Hx Hy. destruct o as [p|p|p]; cbn [shows] in *.
  - destruct Hx as (sx & Ex & ->). destruct Hy as (sy & Ey & ->). congruence.
  - destruct Hx as (h1 & h1' & c1 & E1 & ->). destruct Hy as (h2 & h2' & c2 & E2 & ->).
    rewrite (signer_cert_cached _ _ s c h1 Ce) in E1. rewrite (signer_cert_cached _ _ s c h2 Ce) in E2.
    destruct (c_not_after c <? o_clock (tl_out tl) h1)%Z; [discriminate|]. destruct (c_not_after c <? o_clock (tl_out tl) h2)%Z; [discriminate|]. congruence.
  - congruence.
Qed.

Theorem C61_schedule_independent : forall tl a t0 h0 sched1 t1 h1 lines1 sched2 t2 h2 lines2,
  sign_run tl a t0 h0 sched1 t1 h1 lines1 (Ok tt) -> sign_run tl a t0 h0 sched2 t2 h2 lines2 (Ok tt) ->
  own_outputs tl (ca_files (sa_common a)) (sign_opts a) ->
  (forall p x, ~ In (A_other p x) sched1) -> (forall p x, ~ In (A_other p x) sched2) ->
  (forall h s, setup tl (sa_common a) t0 h0 = (h, Ok s) -> same_answers tl s) ->
  same_files t1 t2.
Proof.
  intros tl a t0 h0 sched1 t1 h1 lines1 sched2 t2 h2 lines2 H1 H2 Ow L1 L2 Sa q.
  assert (La1 : files_left_alone tl sched1 (ca_files (sa_common a)) (sign_opts a)) by (intros f _; split; [intros z; apply L1|intros z _ w; apply L1]).
  assert (La2 : files_left_alone tl sched2 (ca_files (sa_common a)) (sign_opts a)) by (intros f _; split; [intros z; apply L2|intros z _ w; apply L2]).
  set (outs := flat_map (fun f => map (fun o => loc tl (out_path o)) (outputs_of (sign_opts a f))) (ca_files (sa_common a))).
  destruct (existsb (path_eqb q) outs) eqn:X.
  - apply existsb_exists in X. destruct X as (q' & Iq & E). apply path_eqb_spec in E. subst q'.
    apply in_flat_map in Iq. destruct Iq as (f & If & Iq). apply in_map_iff in Iq. destruct Iq as (o & <- & Io).
    destruct (C61_sign_outputs _ _ _ _ _ _ _ _ H1 Ow La1) as (g1 & s1 & S1 & W1).
    destruct (C61_sign_outputs _ _ _ _ _ _ _ _ H2 Ow La2) as (g2 & s2 & S2 & W2).
    assert (s2 = s1) by congruence. subst s2. destruct (setup_cached _ _ _ _ _ _ S1) as (c & Ce).
    destruct (W1 f If) as (b1 & (c1 & o1 & u1 & k1 & k1' & F1 & O1 & U1 & R1) & Sh1). destruct (W2 f If) as (b2 & (c2 & o2 & u2 & k2 & k2' & F2 & O2 & U2 & R2) & Sh2).
    assert (c2 = c1) by congruence. subst c2. assert (o2 = o1) by congruence. subst o2.
    assert (b2 = b1).
    { pose proof (Sa _ _ S1 u1 u2 o1 k1 k2 U1 U2) as Q. rewrite R1, R2 in Q. cbn [snd] in Q. congruence. }
    subst b2. destruct (Sh1 o Io) as (x1 & E1 & ->). destruct (Sh2 o Io) as (x2 & E2 & ->). f_equal. eapply shows_fun; eassumption.
  - assert (Nq : forall f p, In f (ca_files (sa_common a)) -> sign_output a f p -> loc tl p <> q).
    { intros f p If Op Q. apply sign_opts_outputs in Op. destruct Op as (x & Ix & <-).
      assert (T : existsb (path_eqb q) outs = true).
      { apply existsb_exists. exists q. split; [|apply path_eqb_refl]. apply in_flat_map. exists f. split; [assumption|]. apply in_map_iff. exists x. auto. }
      congruence. }
    rewrite (C59_sign_only_outputs_change _ _ _ _ _ _ _ _ _ H1 q Nq (L1 q)), (C59_sign_only_outputs_change _ _ _ _ _ _ _ _ _ H2 q Nq (L2 q)). reflexivity.
Qed.

(** A failed job does not keep another one from completing its outputs. *)
Theorem C61_failures_are_separate : forall tl s pr jobs t0 h0 sched y, separate tl jobs -> undisturbed tl jobs sched ->
  sys_run tl s pr jobs sched (sys_start jobs t0 h0) = y ->
  forall i j b, nth_error jobs i = Some j -> nth_error (y_phases y) i = Some (Ph_done b) ->
  signed tl s pr t0 (job_file j) b /\
  forall o, In o (outputs_of (job_outputs j)) -> exists text, shows tl s b o text /\ files_of (y_tree y) (loc tl (out_path o)) = Some text.
Proof.
  intros tl s pr jobs t0 h0 sched y Sep U <- i j b Ij Ip.
  destruct (sys_run_inv tl s pr jobs t0 Sep sched (sys_start jobs t0 h0) U) as [_ Inv].
  { apply all_jobs_start. intros k _. exact I. }
  { reflexivity. }
  { apply all_jobs_start. intros k _. exact I. }
  exact (Inv _ _ _ Ij Ip).
Qed.

(** ** Default names: every input has its own bundle *)

Definition default_output (f : path) : path := path_parent f ++ [path_name f ++ s2l ".sigstore.json"].
Definition default_names (a : SignArgs) : Prop :=
  sa_signature a = None /\ sa_certificate a = None /\ sa_bundle a = None /\ sa_output_directory a = None /\ sa_no_default_files a = false.

Lemma default_own_outputs : forall tl opts files, (forall f, outputs_of (opts f) = [O_bundle (default_output f)]) ->
  (forall f, In f files -> names_entry f) -> (forall f g, In f files -> In g files -> loc tl f = loc tl g -> f = g) ->
  (forall f g, In f files -> In g files -> loc tl (default_output f) <> loc tl g) -> own_outputs tl files opts.
Proof.
  intros tl opts files Eo Ne Inj Dj. split; [|split].
  - intros f _. rewrite Eo. cbn [map]. constructor; [intros []|constructor].
  - intros f g x y If Ig N Ix Iy. rewrite Eo in Ix, Iy. destruct Ix as [<-|[]]. destruct Iy as [<-|[]]. cbn [out_path].
    intros Q. apply N, Inj; try assumption. apply C60_default_names; auto.
  - intros f g x If Ig Ix. rewrite Eo in Ix. destruct Ix as [<-|[]]. cbn [out_path]. auto.
Qed.

Lemma prepared_disjoint : forall tl opts files t t' m, (forall f, outputs_of (opts f) = [O_bundle (default_output f)]) ->
  prepared tl false opts files t t' (Ok m) -> forall f g, In f files -> In g files -> loc tl (default_output f) <> loc tl g.
Proof.
  intros tl opts files t t' m Eo (_ & Ik & _ & El) f g If Ig Q.
  apply Ik in If. apply in_map_iff in If. destruct If as ([f' o] & Ef & Im). cbn in Ef. subst f'. destruct (El _ _ Im) as (-> & _ & X).
  apply Ik in Ig. apply in_map_iff in Ig. destruct Ig as ([g' o'] & Eg & Im'). cbn in Eg. subst g'. destruct (El _ _ Im') as (_ & Fg & _).
  specialize (X eq_refl (O_bundle (default_output f))). rewrite Eo in X. specialize (X (or_introl eq_refl)). cbn [out_path] in X.
  rewrite Q in X. apply Fg. unfold files_of. rewrite X. reflexivity.
Qed.

Lemma common_run_ok_map : forall tl a pr h0 t1 r1 sched t h lines, common_run tl a pr h0 (t1, r1) sched t h lines (Ok tt) -> exists m, r1 = Ok m.
Proof.
  intros tl a pr h0 t1 r1 sched t h lines H. remember (t1, r1) as q eqn:Eq. remember (Ok tt) as r eqn:Er.
  destruct H; [exfalso; eapply main_handler_raise, Er| |]; inversion Eq; eauto.
Qed.

Theorem C60_sign_own_bundles : forall tl a t0 h0 sched t h lines,
  sign_run tl a t0 h0 sched t h lines (Ok tt) -> default_names a ->
  (forall f, In f (ca_files (sa_common a)) -> names_entry f) ->
  (forall f g, In f (ca_files (sa_common a)) -> In g (ca_files (sa_common a)) -> loc tl f = loc tl g -> f = g) ->
  (ca_overwrite (sa_common a) = false \/
   forall f g, In f (ca_files (sa_common a)) -> In g (ca_files (sa_common a)) -> loc tl (default_output f) <> loc tl g) ->
  (forall f, In f (ca_files (sa_common a)) -> left_alone sched (loc tl f) /\ left_alone sched (loc tl (default_output f))) ->
  exists h1 s, setup tl (sa_common a) t0 h0 = (h1, Ok s) /\
  forall f, In f (ca_files (sa_common a)) -> exists b, signed tl s None t0 f b /\
    files_of t (loc tl (default_output f)) = Some (tl_to_json tl (b_inner b) ++ [x0a]).
Proof.
  intros tl a t0 h0 sched t h lines H (D1 & D2 & D3 & D4 & D5) Ne Inj Ov La.
  assert (Eo : forall f, outputs_of (sign_opts a f) = [O_bundle (default_output f)]).
  { intros f. unfold sign_opts, outputs_of. cbn [so_signature so_certificate so_bundle]. rewrite D1, D2, D3, D4, D5. reflexivity. }
  assert (Dj : forall f g, In f (ca_files (sa_common a)) -> In g (ca_files (sa_common a)) -> loc tl (default_output f) <> loc tl g).
  { destruct Ov as [Ov|Dj]; [|exact Dj]. unfold sign_run in H. destruct (sign_prepare tl a t0) as [t1 r1] eqn:P.
    destruct (common_run_ok_map _ _ _ _ _ _ _ _ _ _ H) as [m ->]. apply sign_prepare_prepared in P. rewrite Ov in P. eapply prepared_disjoint; eassumption. }
  destruct (C61_sign_outputs tl a t0 h0 sched t h lines H) as (h1 & s & S & W).
  { apply default_own_outputs; assumption. }
  { intros f If. destruct (La f If) as [L1 L2]. split; [assumption|]. intros x Ix. rewrite Eo in Ix. destruct Ix as [<-|[]]. assumption. }
  exists h1, s. split; [assumption|]. intros f If. destruct (W f If) as (b & Sg & Sh). exists b. split; [assumption|].
  destruct (Sh (O_bundle (default_output f))) as (text & -> & F); [rewrite Eo; left; reflexivity|]. exact F.
Qed.

Theorem C60_attest_own_bundles : forall tl a t0 h0 sched t h lines,
  attest_run tl a t0 h0 sched t h lines (Ok tt) -> aa_bundle a = None ->
  (forall f, In f (ca_files (aa_common a)) -> names_entry f) ->
  (forall f g, In f (ca_files (aa_common a)) -> In g (ca_files (aa_common a)) -> loc tl f = loc tl g -> f = g) ->
  (ca_overwrite (aa_common a) = false \/
   forall f g, In f (ca_files (aa_common a)) -> In g (ca_files (aa_common a)) -> loc tl (default_output f) <> loc tl g) ->
  (forall f, In f (ca_files (aa_common a)) -> left_alone sched (loc tl f) /\ left_alone sched (loc tl (default_output f))) ->
  exists h1 s j, setup tl (aa_common a) t0 h0 = (h1, Ok s) /\ read_predicate tl a t0 = Ok j /\
  forall f, In f (ca_files (aa_common a)) -> exists b, signed tl s (Some (aa_predicate_type a, j)) t0 f b /\
    files_of t (loc tl (default_output f)) = Some (tl_to_json tl (b_inner b) ++ [x0a]).
Proof.
  intros tl a t0 h0 sched t h lines H D Ne Inj Ov La.
  assert (Eo : forall f, outputs_of (attest_opts a f) = [O_bundle (default_output f)]).
  { intros f. unfold attest_opts, outputs_of. cbn [so_signature so_certificate so_bundle]. rewrite D. reflexivity. }
  assert (Dj : forall f g, In f (ca_files (aa_common a)) -> In g (ca_files (aa_common a)) -> loc tl (default_output f) <> loc tl g).
  { destruct Ov as [Ov|Dj]; [|exact Dj]. unfold attest_run in H. destruct (attest_prepare tl a t0) as [t1 r1] eqn:P.
    apply attest_prepare_prepared in P. rewrite Ov in P. destruct r1 as [[m j]|e]; [eapply prepared_disjoint; eassumption|].
    destruct (common_run_ok_map _ _ _ _ _ _ _ _ _ _ H) as [m E]. discriminate. }
  destruct (C61_attest_outputs tl a t0 h0 sched t h lines H) as (h1 & s & j & S & Rp & W).
  { apply default_own_outputs; assumption. }
  { intros f If. destruct (La f If) as [L1 L2]. split; [assumption|]. intros x Ix. rewrite Eo in Ix. destruct Ix as [<-|[]]. assumption. }
  exists h1, s, j. split; [assumption|]. split; [assumption|]. intros f If. destruct (W f If) as (b & Sg & Sh). exists b. split; [assumption|].
  destruct (Sh (O_bundle (default_output f))) as (text & -> & F); [rewrite Eo; left; reflexivity|]. exact F.
Qed.

(** ** The jobs can always be completed *)

Definition job_run (tl : Tools) (s : Signer) (pr : option (str * json)) (j : Job) (k : nat) (c : tree * history * phase) : tree * history * phase :=
  Nat.iter k (fun c => job_step tl s pr j 0 (fst (fst c)) (snd (fst c)) (snd c)) c.
Lemma job_run_plus : forall tl s pr j a b c, job_run tl s pr j (a + b) c = job_run tl s pr j a (job_run tl s pr j b c).
Proof. intros. unfold job_run. induction a as [|a IH]; [reflexivity|]. change (S a + b) with (S (a + b)). unfold Nat.iter in *. cbn [nat_rect]. rewrite IH. reflexivity. Qed.

Lemma write_can_finish : forall tl s pr j b p text todo m pos t h, length text - pos <= m ->
  exists k t' , job_run tl s pr j k (t, h, Ph_writing b p text pos todo) = (t', h, Ph_next b todo).
Proof.
  induction m as [|m IH]; intros pos t h L.
  - exists 1. eexists. unfold job_run. cbn [Nat.iter nat_rect fst snd job_step]. rewrite (proj2 (Nat.leb_le _ _)); [reflexivity|lia].
  - set (chunk := firstn 1 (skipn pos text)). destruct (Nat.leb (length text) (pos + length chunk)) eqn:Q.
    + exists 1. eexists. unfold job_run. cbn [Nat.iter nat_rect fst snd job_step]. fold chunk. rewrite Q. reflexivity.
    + destruct (IH (pos + length chunk) (write_at t p pos chunk) h) as (k & t' & R).
      { apply Nat.leb_gt in Q. unfold chunk in *. rewrite firstn_length, skipn_length in *. lia. }
      exists (k + 1), t'. rewrite job_run_plus. unfold job_run at 2. cbn [Nat.iter nat_rect fst snd job_step]. fold chunk. rewrite Q. exact R.
Qed.
Lemma next_can_finish : forall tl s pr j b todo t h, exists k, ended (snd (job_run tl s pr j k (t, h, Ph_next b todo))).
Proof.
  induction todo as [|o todo IH]; intros t h.
  - exists 1. exact I.
  - destruct (output_text tl s b o h) as [h1 [text|e]] eqn:T.
    + destruct (open_w t (loc tl (out_path o))) as [t1 [u|e]] eqn:W.
      * destruct (write_can_finish tl s pr j b (loc tl (out_path o)) text todo (length text) 0 t1 h1) as (k1 & t2 & R1); [lia|].
        destruct (IH t2 h1) as (k2 & R2). exists (k2 + (k1 + 1)). rewrite !job_run_plus. unfold job_run at 3.
        cbn [Nat.iter nat_rect fst snd job_step]. rewrite T, W, R1. exact R2.
      * exists 1. unfold job_run. cbn [Nat.iter nat_rect fst snd job_step]. rewrite T, W. exact I.
    + exists 1. unfold job_run. cbn [Nat.iter nat_rect fst snd job_step]. rewrite T. exact I.
Qed.
Lemma job_can_finish : forall tl s pr j ph t h, exists k, ended (snd (job_run tl s pr j k (t, h, ph))).
Proof.
  intros tl s pr j ph t h.
  assert (Sg : forall p t h, exists k, ended (snd (job_run tl s pr j k (t, h, Ph_signing p)))).
  { induction p as [[b|e]|ev k IH]; intros t1 h1.
    - destruct (next_can_finish tl s pr j b (outputs_of (job_outputs j)) t1 h1) as (k & E). exists (k + 1). rewrite job_run_plus. exact E.
    - exists 1. exact I.
    - destruct (IH h1 t1 (h1 ++ [ev h1])) as (n & E). exists (n + 1). rewrite job_run_plus. exact E. }
  assert (Dg : forall d t h, exists k, ended (snd (job_run tl s pr j k (t, h, Ph_digested d)))).
  { intros d t1 h1. destruct (operation tl pr (job_file j) d) as [o|e] eqn:O.
    - destruct (Sg (p_op (tl_libs tl) (tl_out tl) s o) t1 h1) as (k & E). exists (k + 1). rewrite job_run_plus. unfold job_run at 2.
      cbn [Nat.iter nat_rect fst snd job_step]. rewrite O. exact E.
    - exists 1. unfold job_run. cbn [Nat.iter nat_rect fst snd job_step]. rewrite O. exact I. }
  destruct ph as [|d|p|b todo|b p text pos todo|b|e].
  - destruct (files_of t (loc tl (job_file j))) as [c|] eqn:F.
    + destruct (Dg (e_hash (l_env (tl_libs tl)) SHA256 c) t h) as (k & E). exists (k + 1). rewrite job_run_plus. unfold job_run at 2.
      cbn [Nat.iter nat_rect fst snd job_step]. rewrite F. exact E.
    + exists 1. unfold job_run. cbn [Nat.iter nat_rect fst snd job_step]. rewrite F. exact I.
  - apply Dg.
  - apply Sg.
  - apply next_can_finish.
  - destruct (write_can_finish tl s pr j b p text todo (length text - pos) pos t h) as (k1 & t2 & R1); [lia|].
    destruct (next_can_finish tl s pr j b todo t2 h) as (k2 & R2). exists (k2 + k1). rewrite job_run_plus, R1. exact R2.
  - exists 0. exact I.
  - exists 0. exact I.
Qed.

Lemma sys_repeat : forall tl s pr jobs i j k y ph, nth_error jobs i = Some j -> nth_error (y_phases y) i = Some ph ->
  let c := job_run tl s pr j k (y_tree y, y_hist y, ph) in
  sys_run tl s pr jobs (repeat (A_job i 0) k) y = mkSys (fst (fst c)) (snd (fst c)) (set_nth (y_phases y) i (snd c)).
Proof.
  intros tl s pr jobs i j k. induction k as [|k IH]; intros y ph J P; cbv zeta.
  - cbn [repeat sys_run fold_left job_run Nat.iter nat_rect fst snd]. unfold sys_run. cbn [fold_left].
    assert (E : set_nth (y_phases y) i ph = y_phases y).
    { clear J. revert i P. induction (y_phases y) as [|a l IHl]; intros [|i] P; cbn in *; try discriminate; [congruence|]. rewrite IHl; auto. }
    rewrite E. destruct y; reflexivity.
  - cbn [repeat]. unfold sys_run. cbn [fold_left sys_step]. rewrite J, P.
    destruct (job_step tl s pr j 0 (y_tree y) (y_hist y) ph) as [[t1 h1] ph1] eqn:Q.
    fold (sys_run tl s pr jobs (repeat (A_job i 0) k) (mkSys t1 h1 (set_nth (y_phases y) i ph1))).
    rewrite (IH (mkSys t1 h1 (set_nth (y_phases y) i ph1)) ph1 J (nth_set_same _ _ _ _ _ P)). cbn [y_tree y_hist y_phases].
    replace (S k) with (k + 1) by lia. rewrite job_run_plus.
    assert (E1 : job_run tl s pr j 1 (y_tree y, y_hist y, ph) = (t1, h1, ph1)) by exact Q. rewrite E1. f_equal. clear. generalize (y_phases y). intros l. revert i. induction l as [|a l IHl]; intros [|i]; cbn; try reflexivity. f_equal. apply IHl.
Qed.

(** From every state of the jobs there is a schedule that ends them all: no job waits for another. *)
Theorem C61_can_finish : forall tl s pr jobs y, length (y_phases y) = length jobs ->
  exists sched, (forall p x, ~ In (A_other p x) sched) /\ forall ph, In ph (y_phases (sys_run tl s pr jobs sched y)) -> ended ph.
Proof.
  intros tl s pr jobs y L.
  assert (G : forall n, n <= length jobs -> exists sched, (forall p x, ~ In (A_other p x) sched) /\
    length (y_phases (sys_run tl s pr jobs sched y)) = length jobs /\
    forall i ph, i < n -> nth_error (y_phases (sys_run tl s pr jobs sched y)) i = Some ph -> ended ph).
  { induction n as [|n IH]; intros Le.
    - exists nil. split; [intros p x []|]. split; [exact L|]. intros i ph Q. lia.
    - destruct IH as (sched & No & Ly & En); [lia|]. set (y1 := sys_run tl s pr jobs sched y) in *.
      destruct (nth_error jobs n) as [j|] eqn:J; [|apply nth_error_None in J; lia].
      destruct (nth_error (y_phases y1) n) as [ph|] eqn:P; [|apply nth_error_None in P; lia].
      destruct (job_can_finish tl s pr j ph (y_tree y1) (y_hist y1)) as (k & E).
      exists (sched ++ repeat (A_job n 0) k).
      assert (R : sys_run tl s pr jobs (sched ++ repeat (A_job n 0) k) y = sys_run tl s pr jobs (repeat (A_job n 0) k) y1).
      { unfold y1, sys_run. apply fold_left_app. }
      rewrite R, (sys_repeat tl s pr jobs n j k y1 ph J P). cbn [y_phases]. split; [|split].
      + intros p x I. apply in_app_iff in I. destruct I as [I|I]; [exact (No _ _ I)|]. apply repeat_spec in I. discriminate.
      + rewrite set_nth_length. exact Ly.
      + intros i ph' Lt N. destruct (Nat.eq_dec n i) as [<-|Ne].
        * rewrite (nth_set_same _ _ _ _ _ P) in N. congruence.
        * rewrite nth_set_other in N by assumption. apply (En i ph'); [lia|assumption]. }
  destruct (G (length jobs) (le_n _)) as (sched & No & Ly & En). exists sched. split; [assumption|].
  intros ph I. apply In_nth_error in I. destruct I as (i & N). apply (En i ph); [|assumption]. rewrite <- Ly. apply nth_error_Some. congruence.
Qed.

(** ** C72: which identity is used *)

Definition explicit_token (a : CommonArgs) : option str := match ca_identity_token a with Some (x :: r) => Some (x :: r) | _ => None end.
Definition ambient_token (tl : Tools) (a : CommonArgs) : option str :=
  if ca_disable_ambient a then None else match tl_detect tl (ca_client_id a) with Ok (Some (x :: r)) => Some (x :: r) | _ => None end.
(** the token is a valid one for the client that the user named (its audience) *)
Definition accepted_for (tl : Tools) (a : CommonArgs) (t : str) : Prop := exists tok, tl_token tl t (ca_client_id a) = Ok tok.
(** the token that the user chose: the explicit one, else the ambient one, else the result of
    the interactive flow *)
Definition chosen_token (tl : Tools) (a : CommonArgs) (raw : str) : Prop :=
  match explicit_token a with
  | Some t => raw = t /\ accepted_for tl a t
  | None =>
    match ambient_token tl a with
    | Some t => raw = t /\ accepted_for tl a t
    | None => exists url tok, (forall u, ca_issuer a = Some u -> url = u) /\
        tl_interactive tl url (ca_client_id a) (given (ca_client_secret a) nil) (ca_force_oob a) = Ok tok /\ raw = it_raw tok
    end
  end.
(** [tl_token] constructs identity tokens *)
Definition constructs_tokens (tl : Tools) : Prop :=
  forall raw client t, tl_token tl raw client = Ok t -> exists env je now1 now2, make_identity_token env je raw client now1 now2 = Ok t.

Lemma token_raw : forall env je raw client now1 now2 t, make_identity_token env je raw client now1 now2 = Ok t -> it_raw t = raw.
Proof.
  intros env je raw client now1 now2 t H. unfold make_identity_token in H.
  repeat (apply bind_ok_inv in H; let x := fresh in let E := fresh in destruct H as (x & E & H); clear E).
  injection H as <-. reflexivity.
Qed.

Lemma identity_chosen : forall tl a c tok, constructs_tokens tl -> identity tl a c = Ok tok -> chosen_token tl a (it_raw tok).
Proof.
  intros tl a c tok T H. unfold identity in H. unfold chosen_token, explicit_token.
  assert (Tok : forall raw, tl_token tl raw (ca_client_id a) = Ok tok -> it_raw tok = raw /\ accepted_for tl a raw).
  { intros raw Q. split; [|exists tok; exact Q]. apply T in Q. destruct Q as (env & je & n1 & n2 & Q). eapply token_raw, Q. }
  assert (G : get_identity tl a c = Ok tok -> match ambient_token tl a with
    | Some t => it_raw tok = t /\ accepted_for tl a t
    | None => exists url tok', (forall u, ca_issuer a = Some u -> url = u) /\
        tl_interactive tl url (ca_client_id a) (given (ca_client_secret a) nil) (ca_force_oob a) = Ok tok' /\ it_raw tok = it_raw tok'
    end).
  { clear H. intros H. unfold get_identity in H. unfold ambient_token. apply bind_ok_inv in H. destruct H as (t & D & H).
    assert (I : forall u', (let* url := match ca_issuer a with Some u => Ok u | None => u' end in
        tl_interactive tl url (ca_client_id a) (given (ca_client_secret a) nil) (ca_force_oob a)) = Ok tok ->
      exists url tok', (forall u, ca_issuer a = Some u -> url = u) /\
        tl_interactive tl url (ca_client_id a) (given (ca_client_secret a) nil) (ca_force_oob a) = Ok tok' /\ it_raw tok = it_raw tok').
    { intros u' Q. apply bind_ok_inv in Q. destruct Q as (url & U & Q). exists url, tok. split; [|auto]. intros u E. rewrite E in U. congruence. }
    destruct (ca_disable_ambient a).
    - assert (t = None) by congruence. subst t. eapply I, H.
    - unfold detect_credential, try_except in D. destruct (tl_detect tl (ca_client_id a)) as [t'|e].
      + assert (t' = t) by congruence. subst t'. destruct t as [[|x r]|]; [eapply I, H|apply Tok in H; assumption|eapply I, H].
      + destruct (exn_eqb EIdIdentity e); discriminate. }
  destruct (ca_identity_token a) as [[|x r]|]; [apply G, H|apply Tok in H; assumption|apply G, H].
Qed.

(** no request for a certificate is added *)
Definition quiet (h h' : history) : Prop := exists l, h' = h ++ l /\ forall ev, In ev l -> ~ is_request ev.
Lemma quiet_refl : forall h, quiet h h.
Proof. intros h. exists nil. rewrite app_nil_r. split; [reflexivity|]. intros ev []. Qed.
Lemma quiet_trans : forall a b c, quiet a b -> quiet b c -> quiet a c.
Proof.
  intros a b c (l1 & -> & F1) (l2 & -> & F2). exists (l1 ++ l2). rewrite app_assoc. split; [reflexivity|].
  intros ev I. apply in_app_iff in I. destruct I; auto.
Qed.
Lemma quiet_clock : forall h t, quiet h (h ++ [EvClock t]).
Proof. intros h t. exists [EvClock t]. split; [reflexivity|]. intros ev [<-|[]] []. Qed.

Lemma run_op_quiet : forall libs out s c o h h' r, sg_cert s = Some c -> run_op libs out s o h = (h', r) -> quiet h h'.
Proof.
  intros libs out s c o h h' r Ce H. apply run_op_history in H. rewrite (signer_cert_cached libs out s c h Ce) in H.
  destruct H as [(e & X & _)|(cert & hh & lk & lu & X & -> & Fk & _ & Fu)].
  - assert (h' = h ++ [EvClock (o_clock out h)]) by congruence. subst h'. apply quiet_clock.
  - assert (hh = h ++ [EvClock (o_clock out h)]) by congruence. subst hh. eapply quiet_trans; [apply quiet_clock|].
    exists (lk ++ lu). split; [reflexivity|]. intros ev I. apply in_app_iff in I. destruct I as [I|I]; [eapply key_not_request|eapply uses_not_request]; eassumption.
Qed.
(** a program that asks the CA for nothing *)
Definition calm (ph : phase) : Prop := match ph with Ph_signing p => only (fun ev => ~ is_request ev) p | _ => True end.
Lemma calm_finalize : forall libs out s cert c req, only (fun ev => ~ is_request ev) (p_finalize libs out s cert c req).
Proof.
  intros libs out s cert c req. pose proof (only_finalize libs out s cert c req) as F. revert F.
  generalize (p_finalize libs out s cert c req). intros p F. induction F as [r|ev k He _ IH]; constructor; [|assumption].
  intros h Rq. specialize (He h). destruct (ev h); cbn in *; contradiction.
Qed.
Lemma calm_op : forall libs out s c o, sg_cert s = Some c -> only (fun ev => ~ is_request ev) (p_op libs out s o).
Proof.
  intros libs out s c o Ce.
  assert (Cl : only (fun ev => ~ is_request ev) (p_signer_cert libs out s)).
  { unfold p_signer_cert. rewrite Ce. apply only_bind; [apply only_step; intros g []|]. intros now. destruct (c_not_after c <? now)%Z; constructor. }
  assert (Pk : only (fun ev => ~ is_request ev) (p_private_key out s)).
  { unfold p_private_key. destruct (sg_key s); [constructor|]. apply only_step. intros g []. }
  destruct o as [i|st]; cbn [p_op].
  - unfold p_sign_artifact. apply only_bind; [exact Cl|]. intros cert. apply only_bind; [exact Pk|]. intros k.
    apply only_bind; [constructor|]. intros x. apply only_bind.
    { unfold p_sign_prehashed. destruct (Nat.eqb _ 32); [apply only_step; intros g []|constructor]. }
    intros sg. apply only_bind; [constructor|]. intros dg. apply only_bind; [constructor|]. intros sg'. apply only_bind; [constructor|].
    intros req. apply calm_finalize.
  - unfold p_sign_dsse. apply only_bind; [exact Cl|]. intros cert. apply only_bind; [exact Pk|]. intros k.
    apply only_bind; [apply only_step; intros g []|]. intros e. apply only_bind; [constructor|]. intros req. apply calm_finalize.
Qed.
Lemma job_step_quiet : forall tl s c pr j n t h ph t' h' ph', sg_cert s = Some c -> calm ph -> job_step tl s pr j n t h ph = (t', h', ph') ->
  quiet h h' /\ calm ph'.
Proof.
  intros tl s c pr j n t h ph t' h' ph' Ce Ca H. destruct ph as [|d|[[b|e]|ev k]|b todo|b p text pos todo|b|e]; cbn [job_step] in H.
  - destruct (files_of t (loc tl (job_file j))); inversion H; (split; [apply quiet_refl|exact I]).
  - destruct (operation tl pr (job_file j) d) as [o|e]; inversion H; (split; [apply quiet_refl|]); [|exact I].
    cbn [calm]. eapply calm_op, Ce.
  - inversion H. split; [apply quiet_refl|exact I].
  - inversion H. split; [apply quiet_refl|exact I].
  - inversion H; subst. cbn [calm] in *. inversion Ca as [|ev' k' He Hk]; subst. split; [|apply Hk].
    exists [ev h]. split; [reflexivity|]. intros x [<-|[]]. apply He.
  - destruct todo as [|o todo]; [inversion H; split; [apply quiet_refl|exact I]|].
    destruct (output_text tl s b o h) as [h1 r] eqn:T.
    assert (Qh : quiet h h1).
    { unfold output_text in T. destruct o as [p|p|p].
      - unfold mbind, lift, ret in T. destruct (bundle_signature b); inversion T; apply quiet_refl.
      - unfold mbind, ret in T. rewrite (signer_cert_cached _ _ s c h Ce) in T.
        destruct (c_not_after c <? o_clock (tl_out tl) h)%Z; inversion T; apply quiet_clock.
      - unfold ret in T. inversion T. apply quiet_refl. }
    destruct r as [text|e]; [|inversion H; subst; split; [assumption|exact I]].
    destruct (open_w t (loc tl (out_path o))) as [t1 [u|e]]; inversion H; subst; (split; [assumption|exact I]).
  - injection H as _ <- <-. split; [apply quiet_refl|]. destruct (length text <=? _); exact I.
  - inversion H. split; [apply quiet_refl|exact I].
  - inversion H. split; [apply quiet_refl|exact I].
Qed.
Lemma sys_run_quiet : forall tl s c pr jobs, sg_cert s = Some c -> forall sched y, Forall calm (y_phases y) ->
  quiet (y_hist y) (y_hist (sys_run tl s pr jobs sched y)).
Proof.
  intros tl s c pr jobs Ce. unfold sys_run. induction sched as [|x sched IH]; intros y Ca; cbn [fold_left]; [apply quiet_refl|].
  assert (G : quiet (y_hist y) (y_hist (sys_step tl s pr jobs y x)) /\ Forall calm (y_phases (sys_step tl s pr jobs y x))).
  { destruct x as [i n|p n]; cbn [sys_step]; [|split; [apply quiet_refl|exact Ca]].
    destruct (nth_error jobs i) as [j|]; [|split; [apply quiet_refl|exact Ca]].
    destruct (nth_error (y_phases y) i) as [ph|] eqn:P; [|split; [apply quiet_refl|exact Ca]].
    destruct (job_step tl s pr j n (y_tree y) (y_hist y) ph) as [[t' h'] ph'] eqn:Q. cbn [y_hist y_phases].
    assert (C1 : calm ph) by (rewrite Forall_forall in Ca; apply Ca; eapply nth_error_In, P).
    destruct (job_step_quiet _ _ _ _ _ _ _ _ _ _ _ _ Ce C1 Q) as [Qh Cp]. split; [exact Qh|].
    apply Forall_forall. intros z Iz. apply In_nth_error in Iz. destruct Iz as [m Iz].
    destruct (Nat.eq_dec i m) as [<-|Nm].
    - rewrite (nth_set_same _ _ _ _ _ P) in Iz. congruence.
    - rewrite nth_set_other in Iz by assumption. rewrite Forall_forall in Ca. apply Ca. eapply nth_error_In, Iz. }
  destruct G as [Q1 C1]. eapply quiet_trans; [exact Q1|]. apply IH, C1.
Qed.

(** at most one request, with a given token *)
Definition one_request (raw : str -> Prop) (h h' : history) : Prop :=
  exists l, h' = h ++ l /\ requests l <= 1 /\ forall url r, In (EvCsr url r) l -> raw (fr_bearer r).
Lemma one_request_quiet : forall raw a b c, one_request raw a b -> quiet b c -> one_request raw a c.
Proof.
  intros raw a b c (l & -> & R & F) (l2 & -> & Q). exists (l ++ l2). rewrite app_assoc. split; [reflexivity|]. split.
  - rewrite requests_app, (requests_none l2 Q). lia.
  - intros url r I. apply in_app_iff in I. destruct I as [I|I]; [eauto|]. exfalso. apply (Q _ I). exact Logic.I.
Qed.
Lemma make_signer_requests : forall libs out tok ctx h h' r, make_signer libs out tok ctx true h = (h', r) ->
  one_request (fun b => b = it_raw tok) h h'.
Proof.
  intros libs out tok ctx h h' r Mk. unfold make_signer in Mk. unfold mbind, generate_key, step in Mk.
  destruct (signer_cert libs out (mkSigner tok ctx (Some (mkPriv (length h) (o_pub out h))) None)
              (h ++ [EvKey (mkPriv (length h) (o_pub out h))])) as [h2 r2] eqn:Sc.
  apply signer_cert_history in Sc; [|reflexivity]. destruct Sc as (l & Hh2 & Hl).
  assert (h' = h2) by (destruct r2; unfold ret in Mk; congruence). subst h' h2.
  eexists. split; [rewrite <- app_assoc; reflexivity|]. cbn [app requests].
  destruct Hl as [[-> _]|(lk & req & lc & -> & Fk & Fb & _ & Hlc)].
  - split; [cbn; lia|]. intros url q [Q|[Q|[]]]; discriminate.
  - split.
    + rewrite requests_app, (requests_none lk) by (eapply key_not_request; eassumption). cbn [requests].
      destruct Hlc as [->|(t & ->)]; cbn; lia.
    + intros url q [Q|[Q|I]]; [discriminate|discriminate|]. apply in_app_iff in I. destruct I as [I|[I|I]].
      * exfalso. apply (key_not_request _ Fk _ I). exact Logic.I.
      * inversion I; subst. exact Fb.
      * destruct Hlc as [->|(t & ->)]; [destruct I|]. destruct I as [I|[]]; discriminate.
Qed.

Lemma one_request_none : forall raw h, one_request raw h h.
Proof. intros raw h. exists nil. rewrite app_nil_r. split; [reflexivity|]. split; [cbn; lia|]. intros url r []. Qed.

Lemma setup_requests : forall tl a t h h' r, constructs_tokens tl -> setup tl a t h = (h', r) -> one_request (chosen_token tl a) h h'.
Proof.
  intros tl a t h h' r T H. unfold setup in H.
  apply mbind_inv in H. destruct H as [(e & H & _)|(h1 & c & X & H)]; [unfold lift in H; inversion H; apply one_request_none|]. apply lift_ok in X. destruct X as [-> _].
  apply mbind_inv in H. destruct H as [(e & H & _)|(h2 & ctx & X & H)]; [unfold lift in H; inversion H; apply one_request_none|]. apply lift_ok in X. destruct X as [-> _].
  apply mbind_inv in H. destruct H as [(e & H & _)|(h3 & tok & X & H)]; [unfold lift in H; inversion H; apply one_request_none|]. apply lift_ok in X. destruct X as [-> Id].
  apply identity_chosen in Id; [|assumption].
  assert (W : forall g g', one_request (fun b => b = it_raw tok) g g' -> one_request (chosen_token tl a) g g').
  { intros g g' (l & -> & R & F). exists l. split; [reflexivity|]. split; [assumption|]. intros url q I. rewrite (F _ _ I). exact Id. }
  apply mbind_inv in H. destruct H as [(e & H & _)|(h4 & s & X & H)]; [apply W; eapply make_signer_requests, H|].
  pose proof (make_signer_requests _ _ _ _ _ _ _ X) as Q. apply make_signer_cached in X. destruct X as (c0 & _ & _ & _ & Ce & _).
  apply W. eapply one_request_quiet; [exact Q|].
  apply mbind_inv in H. destruct H as [(e & H & _)|(h5 & c' & H & H2)]; rewrite (signer_cert_cached _ _ s c0 h4 Ce) in H.
  - inversion H. apply quiet_clock.
  - unfold ret in H2. inversion H2; subst. inversion H. apply quiet_clock.
Qed.

Lemma common_run_requests : forall tl a pr h0 p1 sched t h lines r, constructs_tokens tl ->
  common_run tl a pr h0 p1 sched t h lines r -> one_request (chosen_token tl a) h0 h.
Proof.
  intros tl a pr h0 p1 sched t h lines r T H. destruct H as [t2 e|t2 m h2 e S|t2 m h2 s sched y r S Y F].
  - apply one_request_none.
  - eapply setup_requests; eassumption.
  - destruct (setup_cached _ _ _ _ _ _ S) as (c & Ce). eapply one_request_quiet; [eapply setup_requests; eassumption|].
    subst y. apply (sys_run_quiet tl s c pr (jobs_of m) Ce sched (sys_start (jobs_of m) t2 h2)).
    apply Forall_forall. intros z Iz. apply in_map_iff in Iz. destruct Iz as (x & <- & _). exact I.
Qed.

(** In every run at most one certificate is requested, and the request bears the token that the
    user chose. *)
Theorem C72_sign_identity : forall tl a t0 h0 sched t h lines r, constructs_tokens tl ->
  sign_run tl a t0 h0 sched t h lines r ->
  exists l, h = h0 ++ l /\ requests l <= 1 /\ forall url q, In (EvCsr url q) l -> chosen_token tl (sa_common a) (fr_bearer q).
Proof. intros tl a t0 h0 sched t h lines r T H. exact (common_run_requests _ _ _ _ _ _ _ _ _ _ T H). Qed.
Theorem C72_attest_identity : forall tl a t0 h0 sched t h lines r, constructs_tokens tl ->
  attest_run tl a t0 h0 sched t h lines r ->
  exists l, h = h0 ++ l /\ requests l <= 1 /\ forall url q, In (EvCsr url q) l -> chosen_token tl (aa_common a) (fr_bearer q).
Proof.
  intros tl a t0 h0 sched t h lines r T H. unfold attest_run in H. destruct (attest_prepare tl a t0) as [t1 [[m j]|e]];
    exact (common_run_requests _ _ _ _ _ _ _ _ _ _ T H).
Qed.
(** Ambient credentials are not even looked for if a token is given or they are disabled. *)
Definition with_detect (tl : Tools) (d : str -> res (option str)) : Tools :=
  mkTools (tl_world tl) (tl_libs tl) (tl_out tl) (tl_json tl) (tl_text tl) (tl_dump tl) (tl_token tl) d (tl_interactive tl) (tl_to_json tl).
Lemma setup_detect : forall tl d a t h, explicit_token a <> None \/ ca_disable_ambient a = true -> setup (with_detect tl d) a t h = setup tl a t h.
Proof.
  intros tl d a t h H. unfold setup. change (signing_config (with_detect tl d) a t) with (signing_config tl a t).
  assert (E : forall c, identity (with_detect tl d) a c = identity tl a c).
  { intros c. unfold identity, explicit_token in *. destruct H as [H|H].
    - destruct (ca_identity_token a) as [[|x r]|]; [contradiction|reflexivity|contradiction].
    - unfold get_identity. rewrite H. reflexivity. }
  unfold mbind. destruct (lift (signing_config tl a t) h) as [h1 [c|e]]; [|reflexivity]. cbn [tl_world tl_libs tl_out with_detect].
  destruct (lift (context_from_trust_config (w_start (tl_world tl)) c) h1) as [h2 [ctx|e]]; [|reflexivity]. rewrite E. reflexivity.
Qed.
Theorem C72_no_detection : forall tl d a t0 h0 sched t h lines r, explicit_token (sa_common a) <> None \/ ca_disable_ambient (sa_common a) = true ->
  sign_run tl a t0 h0 sched t h lines r -> sign_run (with_detect tl d) a t0 h0 sched t h lines r.
Proof.
  intros tl d a t0 h0 sched t h lines r X H. unfold sign_run in *. change (sign_prepare (with_detect tl d) a t0) with (sign_prepare tl a t0).
  destruct H as [t2 e|t2 m h2 e S|t2 m h2 s sched y r S Y F].
  - apply Run_refused.
  - apply Run_no_signer. rewrite setup_detect; assumption.
  - eapply Run_jobs; [rewrite setup_detect; eassumption|exact Y|exact F].
Qed.

(** ** A concrete world

    In [/home]: [a.txt], [b.txt] and a predicate; [/home/sub/a.txt] has the name of the first. *)
Definition csx_tree : tree := fun p =>
  if path_eqb p [s2l "home"] then Some N_dir
  else if path_eqb p [s2l "home"; s2l "a.txt"] then Some (N_file vx_input)
  else if path_eqb p [s2l "home"; s2l "b.txt"] then Some (N_file (s2b "world"))
  else if path_eqb p [s2l "home"; s2l "predicate.json"] then Some (N_file (s2b "{}"))
  else if path_eqb p [s2l "home"; s2l "sub"] then Some N_dir
  else if path_eqb p [s2l "home"; s2l "sub"; s2l "a.txt"] then Some (N_file (s2b "world"))
  else None.
Definition csx_config (_ : str) (_ : bool) : res ClientTrustConfig := Ok (mkCTC vx_tr
  (mkSCM SIGNING_CONFIG_0_2 [sc_svc 2 "r"] None [mkService (s2l "https://tsa.example") 1 None (s2l "t")] None [sc_svc 1 "f"] nil) None).
Definition csx_world : World :=
  mkWorld [s2l "home"] (fun _ => None) (fun _ => Raise EValue) (fun _ => Raise EPydantic) (fun _ => None) (fun _ => Raise EValue)
    csx_config (fun _ _ => Raise EConnection) rkx_rp vx_now (fun _ => vx_now).
(** the log accepts everything; the clock stands still *)
Definition csx_out : Outside :=
  mkOutside (fun _ => sy_start) sy_pub (fun _ k s d => toy_sign s (sk_pub k) d)
    (fun _ => sy_fulcio) (fun _ sg => Ok sg) (fun _ => sy_tsa) (fun _ _ => Ok (mkResp 201 nil (Some (JInt 2)) nil)).
(** in place of JSON: the signature *)
Definition csx_to_json (m : BundleMsg) : bytes :=
  match bm_msig m, bm_env m with
  | Some s, _ => x01 :: ms_signature s
  | None, Some e => x02 :: em_payload e
  | None, None => nil
  end.
Definition csx_dump (i : StatementInner) : option bytes :=
  Some (flat_map (fun s => flat_map (fun d => ascii_bytes (snd d)) (sub_digest s)) (st_subjects i)).
Definition csx_je : JwtEnv :=
  mkJwtEnv (fun raw => if str_eqb raw (s2l "tok")
      then Ok [(s2l "iss", JStr (s2l "https://issuer.example")); (s2l "sub", JStr (s2l "a@b.c")); (s2l "aud", JStr (s2l "sigstore"));
               (s2l "iat", JInt 1699999999); (s2l "exp", JInt 1700000030)]
      else Raise EValue) (fun _ => nil).
Definition csx_token (raw client : str) : res IdentityToken := make_identity_token ox_env csx_je raw client sy_start sy_start.
(** the document in the predicate file (its text is stood for by "{}") *)
Definition csx_predicate : json :=
  JObj [(s2l "buildDefinition", JObj [(s2l "buildType", JStr (s2l "make")); (s2l "externalParameters", JObj [(s2l "n", JInt 1)]);
          (s2l "resolvedDependencies", JList [JObj [(s2l "uri", JStr (s2l "git+https://a"))]; JObj [(s2l "digest", JObj [(s2l "gitCommit", JStr (s2l "00"))])]])]);
        (s2l "runDetails", JObj [(s2l "builder", JObj [(s2l "id", JStr (s2l "me")); (s2l "version", JObj [(s2l "x", JStr (s2l "1"))])]); (s2l "metadata", JNull)])].
Definition csx_tools : Tools :=
  mkTools csx_world (sy_libs sy_far) csx_out (fun s => if str_eqb s (s2l "{}") then Some csx_predicate else None)
    (fun _ => s2l "{}") csx_dump csx_token (fun _ => Ok (Some (s2l "tok"))) (fun _ _ _ _ => Raise EIdentity) csx_to_json.
Definition csx_common (files : list path) (overwrite : bool) : CommonArgs :=
  mkCA files overwrite None (s2l "sigstore") None false None false None None None false false.
Definition csx_sign (files : list path) (overwrite : bool) : SignArgs := mkSA (csx_common files overwrite) None None None None false.
Definition csx_a : path := [s2l "a.txt"].
Definition csx_b : path := [s2l "b.txt"].

(** a schedule, executed *)
Definition is_done (ph : phase) : bool := match ph with Ph_done _ => true | _ => false end.
Definition exec (tl : Tools) (a : CommonArgs) (pr : option (str * json)) (h0 : history) (p1 : tree * res OutputMap) (sched : list act) : option (Sys * list output) :=
  match p1 with
  | (t1, Ok m) =>
    match setup tl a t1 h0 with
    | (h, Ok s) =>
      let y := sys_run tl s pr (jobs_of m) sched (sys_start (jobs_of m) t1 h) in
      if forallb is_done (y_phases y) then Some (y, written m) else None
    | _ => None
    end
  | _ => None
  end.
Lemma exec_run : forall tl a pr h0 p1 sched (P : Sys -> list output -> Prop),
  match exec tl a pr h0 p1 sched with Some (y, l) => P y l | None => False end ->
  exists y l, common_run tl a pr h0 p1 sched (y_tree y) (y_hist y) l (Ok tt) /\ P y l.
Proof.
  intros tl a pr h0 [t1 [m|e]] sched P H; unfold exec in H; [|contradiction].
  destruct (setup tl a t1 h0) as [h [s|e]] eqn:S; [|contradiction].
  set (y := sys_run tl s pr (jobs_of m) sched (sys_start (jobs_of m) t1 h)) in *. cbv zeta in H.
  destruct (forallb is_done (y_phases y)) eqn:D; [|contradiction]. exists y, (written m). split; [|assumption].
  refine (Run_jobs tl a pr h0 t1 m h s sched y (Ok tt) S eq_refl _). apply Fin_ok. intros ph I.
  rewrite forallb_forall in D. apply D in I. destruct ph; try discriminate. eexists. reflexivity.
Qed.

Definition csx_bundle (content : bytes) : bytes := x01 :: toy_sign (ECDSA_prehashed SHA256) sy_key (toy_hash content) ++ [x0a].
Definition turns (l : list nat) : list act := map (fun i => A_job i 10) l.
(** two schedules *)
Definition csx_one_by_one : list act := turns (repeat 0 20 ++ repeat 1 20).
Definition csx_in_turn : list act := turns (concat (repeat [0; 1] 20)).

Example ex_sign_two : forall sched, sched = csx_one_by_one \/ sched = csx_in_turn ->
  exists t h lines, sign_run csx_tools (csx_sign [csx_a; csx_b] false) csx_tree nil sched t h lines (Ok tt) /\
    files_of t [s2l "home"; s2l "a.txt.sigstore.json"] = Some (csx_bundle vx_input) /\
    files_of t [s2l "home"; s2l "b.txt.sigstore.json"] = Some (csx_bundle (s2b "world")) /\
    files_of t [s2l "home"; s2l "a.txt"] = Some vx_input /\
    lines = [O_bundle [s2l "a.txt.sigstore.json"]; O_bundle [s2l "b.txt.sigstore.json"]].
Proof.
  intros sched H.
  destruct (exec_run csx_tools (csx_common [csx_a; csx_b] false) None nil (sign_prepare csx_tools (csx_sign [csx_a; csx_b] false) csx_tree) sched
    (fun y lines => files_of (y_tree y) [s2l "home"; s2l "a.txt.sigstore.json"] = Some (csx_bundle vx_input) /\
    files_of (y_tree y) [s2l "home"; s2l "b.txt.sigstore.json"] = Some (csx_bundle (s2b "world")) /\
    files_of (y_tree y) [s2l "home"; s2l "a.txt"] = Some vx_input /\
    lines = [O_bundle [s2l "a.txt.sigstore.json"]; O_bundle [s2l "b.txt.sigstore.json"]])) as (y & l & R & P).
  - destruct H as [->| ->]; vm_compute; repeat split; reflexivity.
  - exists (y_tree y), (y_hist y), l. split; [exact R|exact P].
Qed.

(** the hypotheses of the theorems above, for this run *)
Example ex_sign_two_hypotheses :
  own_outputs csx_tools [csx_a; csx_b] (sign_opts (csx_sign [csx_a; csx_b] false)) /\
  files_left_alone csx_tools csx_in_turn [csx_a; csx_b] (sign_opts (csx_sign [csx_a; csx_b] false)) /\
  default_names (csx_sign [csx_a; csx_b] false) /\ names_entry csx_a /\ names_entry csx_b /\
  constructs_tokens csx_tools.
Proof.
  split.
  { split; [|split].
    - intros f [<-|[<-|[]]]; constructor; try constructor; intros [].
    - intros f g x y [<-|[<-|[]]] [<-|[<-|[]]] Nq [<-|[]] [<-|[]]; try contradiction; vm_compute; discriminate.
    - intros f g x [<-|[<-|[]]] [<-|[<-|[]]] [<-|[]]; vm_compute; discriminate. }
  split.
  { assert (L : forall p x, ~ In (A_other p x) csx_in_turn).
    { intros p x I. unfold csx_in_turn, turns in I. apply in_map_iff in I. destruct I as (i & Q & _). discriminate. }
    intros f _. split; [intros x; apply L|]. intros x _ n. apply L. }
  split; [repeat split|]. split; [exists nil, (s2l "a.txt"); repeat split; discriminate|]. split; [exists nil, (s2l "b.txt"); repeat split; discriminate|].
  intros raw client t H. eexists; eexists; eexists; eexists. exact H.
Qed.
(** if the outside does not depend on the past, then neither do the results of a signer *)
Definition alike {A} (m m' : M A) : Prop := forall h h', snd (m h) = snd (m' h').
Lemma alike_bind : forall A B (m m' : M A) (f f' : A -> M B), alike m m' -> (forall a, alike (f a) (f' a)) -> alike (mbind m f) (mbind m' f').
Proof.
  intros A B m m' f f' Bm Bf h h'. unfold mbind. specialize (Bm h h'). destruct (m h) as [h1 [a|e]], (m' h') as [h2 [a'|e']]; cbn [snd] in Bm; try congruence.
  - assert (a' = a) by congruence. subst a'. apply Bf.
  - cbn. congruence.
Qed.
Lemma alike_lift : forall A (r : res A), alike (lift r) (lift r).
Proof. intros A r h h'. reflexivity. Qed.
(** no answer depends on the past, and a signature depends on the key pair only *)
Definition steady (out : Outside) : Prop :=
  forall h h', o_clock out h = o_clock out h' /\ (forall k k' sc d, sk_pub k = sk_pub k' -> o_sign out h k sc d = o_sign out h' k' sc d) /\
    o_tsa_query out h = o_tsa_query out h' /\ o_tsa out h = o_tsa out h' /\ o_log out h = o_log out h'.
Lemma steady_draws : forall out o1 o2, steady out -> draws_from out o1 -> draws_from out o2 -> forall h h',
  o_clock o1 h = o_clock o2 h' /\ (forall k sc d, o_sign o1 h k sc d = o_sign o2 h' k sc d) /\
  o_tsa_query o1 h = o_tsa_query o2 h' /\ o_tsa o1 h = o_tsa o2 h' /\ o_log o1 h = o_log o2 h'.
Proof.
  intros out o1 o2 St (m1 & k1 & P1 & D1) (m2 & k2 & P2 & D2) h h'.
  destruct (D1 h) as (C1 & _ & S1 & _ & Q1 & T1 & L1). destruct (D2 h') as (C2 & _ & S2 & _ & Q2 & T2 & L2).
  destruct (St (m1 h) (m2 h')) as (Sc & Ss & Sq & St' & Sl). rewrite C1, C2, Q1, Q2, T1, T2, L1, L2.
  repeat (split; try assumption). intros k sc d. rewrite S1, S2. apply Ss. rewrite P1, P2. reflexivity.
Qed.
Lemma steady_same_answers : forall tl s c k, steady (tl_out tl) -> sg_cert s = Some c -> sg_key s = Some k -> same_answers tl s.
Proof.
  intros tl s c k St0 C K o1 o2 o h0 h0' D1 D2. pose proof (steady_draws _ _ _ St0 D1 D2) as St. revert h0 h0'.
  assert (Sc : alike (signer_cert (tl_libs tl) o1 s) (signer_cert (tl_libs tl) o2 s)).
  { intros h h'. rewrite !(signer_cert_cached _ _ s c _ C). destruct (St h h') as (-> & _). reflexivity. }
  assert (Pk : alike (private_key o1 s) (private_key o2 s)) by (intros h h'; unfold private_key; rewrite K; reflexivity).
  assert (Ts : forall urls sg acc, alike (tsa_loop (tl_libs tl) o1 urls sg acc) (tsa_loop (tl_libs tl) o2 urls sg acc)).
  { induction urls as [|u urls IH]; intros sg acc h h'; [reflexivity|]. cbn [tsa_loop]. unfold ask_tsa, step.
    destruct (St h h') as (_ & _ & -> & -> & _).
    destruct (request_timestamp (l_env (tl_libs tl)) (o_tsa_query o2 h') (o_tsa o2 h') u sg) as [x|e]; [apply IH|].
    destruct (exn_eqb e ETimestamp); [apply IH|reflexivity]. }
  assert (Fin : forall cert x req, alike (finalize_sign (tl_libs tl) o1 s cert x req) (finalize_sign (tl_libs tl) o2 s cert x req)).
  { intros cert x req. unfold finalize_sign. apply alike_bind; [apply Ts|]. intros ts. apply alike_bind; [|intros; apply alike_lift].
    intros h h'. unfold submit, step, create_entry. destruct (St h h') as (_ & _ & _ & _ & ->). reflexivity. }
  change (alike (run_op (tl_libs tl) o1 s o) (run_op (tl_libs tl) o2 s o)). destruct o as [i|st]; unfold run_op, sign_artifact, sign_dsse.
  - repeat (first [apply Fin | apply alike_lift | apply alike_bind; [|intros ?]]); [exact Sc|exact Pk|].
    intros h h'. unfold sign_prehashed, step. destruct (Nat.eqb _ _); [|reflexivity]. destruct (St h h') as (_ & E & _). cbn [snd]. rewrite E. reflexivity.
  - repeat (first [apply Fin | apply alike_lift | apply alike_bind; [|intros ?]]); [exact Sc|exact Pk|].
    intros h h'. unfold step, dsse_sign. destruct (St h h') as (_ & E & _). cbn [snd]. destruct (statement_pae st) as [p|e]; [|reflexivity].
    cbn [bind]. rewrite E. reflexivity.
Qed.
Example ex_same_answers : forall h s, setup csx_tools (csx_common [csx_a; csx_b] false) csx_tree nil = (h, Ok s) -> same_answers csx_tools s.
Proof.
  intros h s H. assert (E : s = match snd (setup csx_tools (csx_common [csx_a; csx_b] false) csx_tree nil) with Ok s => s | _ => s end) by (rewrite H; reflexivity).
  apply steady_same_answers with (c := sy_cert sy_far nil) (k := mkPriv 0 sy_key); [|rewrite E; vm_compute; reflexivity|rewrite E; vm_compute; reflexivity].
  intros g g'. split; [reflexivity|]. split; [|repeat split]. intros k k' sc d E1. cbn. rewrite E1. reflexivity.
Qed.

(** a bundle is already there: nothing happens *)
Example ex_sign_refused : forall sched t h lines r,
  sign_run csx_tools (csx_sign [csx_a; csx_b] false) (put csx_tree [s2l "home"; s2l "b.txt.sigstore.json"] (Some (N_file [x07]))) nil sched t h lines r ->
  (r = Raise (ESystemExit 2) \/ r = Raise EOs) /\ h = nil /\ lines = nil /\ files_of t [s2l "home"; s2l "b.txt.sigstore.json"] = Some [x07].
Proof.
  intros sched t h lines r H. apply C59_sign_refused with (f := csx_b) (p := [s2l "b.txt.sigstore.json"]) in H.
  - destruct H as (A & B & C & D). split; [assumption|]. split; [assumption|]. split; [assumption|]. rewrite D. vm_compute. reflexivity.
  - reflexivity.
  - right. left. reflexivity.
  - right. right. right. repeat split.
  - vm_compute. discriminate.
Qed.
Definition csx_attest (files : list path) (bundle : option path) (overwrite : bool) : AttestArgs :=
  mkAA (csx_common files overwrite) [s2l "predicate.json"] SLSA_V1_0 bundle.
Definition csx_payload (content : bytes) : bytes := x02 :: ascii_bytes (hex (toy_hash content)) ++ [x0a].
Lemma attest_exec_run : forall tl a t0 h0 sched (P : Sys -> list output -> Prop),
  match attest_prepare tl a t0 with
  | (t1, Ok (m, j)) => match exec tl (aa_common a) (Some (aa_predicate_type a, j)) h0 (t1, Ok m) sched with Some (y, l) => P y l | None => False end
  | _ => False
  end -> exists y l, attest_run tl a t0 h0 sched (y_tree y) (y_hist y) l (Ok tt) /\ P y l.
Proof.
  intros tl a t0 h0 sched P H. unfold attest_run. destruct (attest_prepare tl a t0) as [t1 [[m j]|e]]; [|contradiction].
  apply exec_run in H. exact H.
Qed.
Example ex_attest_two : exists t h lines, attest_run csx_tools (csx_attest [csx_a; csx_b] None false) csx_tree nil csx_in_turn t h lines (Ok tt) /\
    files_of t [s2l "home"; s2l "a.txt.sigstore.json"] = Some (csx_payload vx_input) /\
    files_of t [s2l "home"; s2l "b.txt.sigstore.json"] = Some (csx_payload (s2b "world")).
Proof.
  destruct (attest_exec_run csx_tools (csx_attest [csx_a; csx_b] None false) csx_tree nil csx_in_turn
    (fun y lines => files_of (y_tree y) [s2l "home"; s2l "a.txt.sigstore.json"] = Some (csx_payload vx_input) /\
    files_of (y_tree y) [s2l "home"; s2l "b.txt.sigstore.json"] = Some (csx_payload (s2b "world")))) as (y & l & R & P).
  - vm_compute. split; reflexivity.
  - exists (y_tree y), (y_hist y), l. split; [exact R|exact P].
Qed.

(** ** What does not hold *)

(** Expected, but not so: without [--overwrite] no file of anybody is overwritten.  A file that
    another process creates after the check is. *)
Theorem C59_race_refuted : exists tl a t0 h0 sched t h lines q c,
  sign_run tl a t0 h0 (A_other q (Some (N_file c)) :: sched) t h lines (Ok tt) /\ ca_overwrite (sa_common a) = false /\
  (forall p x, ~ In (A_other p x) sched) /\ files_of t q <> Some c.
Proof.
  exists csx_tools, (csx_sign [csx_a] false), csx_tree, nil, (turns (repeat 0 20)).
  destruct (exec_run csx_tools (csx_common [csx_a] false) None nil (sign_prepare csx_tools (csx_sign [csx_a] false) csx_tree)
    (A_other [s2l "home"; s2l "a.txt.sigstore.json"] (Some (N_file [x07])) :: turns (repeat 0 20))
    (fun y _ => files_of (y_tree y) [s2l "home"; s2l "a.txt.sigstore.json"] = Some (csx_bundle vx_input))) as (y & l & R & P).
  - vm_compute. reflexivity.
  - exists (y_tree y), (y_hist y), l, [s2l "home"; s2l "a.txt.sigstore.json"], [x07]. split; [exact R|]. split; [reflexivity|]. split.
    + intros p x I. apply in_map_iff in I. destruct I as (i & Q & _). discriminate.
    + rewrite P. vm_compute. discriminate.
Qed.

(** Expected, but not so: every input gets a bundle.  With [--output-directory], inputs of the
    same name in different directories share one, although the command reports success. *)
Theorem C60_output_directory_refuted : exists tl a t0 h0 sched t h lines f g cf cg p,
  sign_run tl a t0 h0 sched t h lines (Ok tt) /\ ca_overwrite (sa_common a) = false /\ (forall q x, ~ In (A_other q x) sched) /\
  In f (ca_files (sa_common a)) /\ In g (ca_files (sa_common a)) /\
  files_of t0 (loc tl f) = Some cf /\ files_of t0 (loc tl g) = Some cg /\ cf <> cg /\
  sign_output a f p /\ sign_output a g p /\ (forall p', sign_output a f p' \/ sign_output a g p' -> p' = p) /\ lines = [O_bundle p; O_bundle p].
Proof.
  set (a := mkSA (csx_common [csx_a; [s2l "sub"; s2l "a.txt"]] false) None None None (Some [s2l "out"]) false).
  destruct (exec_run csx_tools (sa_common a) None nil (sign_prepare csx_tools a csx_tree) csx_in_turn
    (fun _ l => l = [O_bundle [s2l "out"; s2l "a.txt.sigstore.json"]; O_bundle [s2l "out"; s2l "a.txt.sigstore.json"]])) as (y & l & R & P).
  { vm_compute. reflexivity. }
  exists csx_tools, a, csx_tree, nil, csx_in_turn, (y_tree y), (y_hist y), l, csx_a, [s2l "sub"; s2l "a.txt"], vx_input, (s2b "world"), [s2l "out"; s2l "a.txt.sigstore.json"].
  split; [exact R|]. split; [reflexivity|].
  split. { intros q x I. apply in_map_iff in I. destruct I as (i & Q & _). discriminate. }
  split; [left; reflexivity|]. split; [right; left; reflexivity|]. split; [vm_compute; reflexivity|]. split; [vm_compute; reflexivity|].
  split; [discriminate|].
  split; [right; right; right; repeat split|]. split; [right; right; right; repeat split|]. split; [|exact P].
  intros p' [H|H]; destruct H as [H|[H|[H|(_ & _ & ->)]]]; try discriminate; reflexivity.
Qed.
(** The same with [attest --bundle] and several inputs, which [sign] would refuse. *)
Theorem C60_attest_bundle_refuted : exists tl a t0 h0 sched t h lines p,
  attest_run tl a t0 h0 sched t h lines (Ok tt) /\ ca_overwrite (aa_common a) = false /\ (forall q x, ~ In (A_other q x) sched) /\
  ca_files (aa_common a) = [csx_a; csx_b] /\ files_of t0 (loc tl csx_a) <> files_of t0 (loc tl csx_b) /\
  (forall f p', attest_output a f p' <-> p' = p) /\ lines = [O_bundle p; O_bundle p].
Proof.
  set (a := csx_attest [csx_a; csx_b] (Some [s2l "one.json"]) false).
  destruct (attest_exec_run csx_tools a csx_tree nil csx_in_turn (fun _ l => l = [O_bundle [s2l "one.json"]; O_bundle [s2l "one.json"]])) as (y & l & R & P).
  { vm_compute. reflexivity. }
  exists csx_tools, a, csx_tree, nil, csx_in_turn, (y_tree y), (y_hist y), l, [s2l "one.json"].
  split; [exact R|]. split; [reflexivity|]. split. { intros q x I. apply in_map_iff in I. destruct I as (i & Q & _). discriminate. }
  split; [reflexivity|]. split; [vm_compute; discriminate|]. split; [|exact P].
  intros f p'. split; [intros [H|[H _]]; [change (Some [s2l "one.json"] = Some p') in H; congruence|discriminate]|intros ->; left; reflexivity].
Qed.
(** One file for signature and certificate: the signature is lost. *)
Theorem C61_signature_lost_refuted : exists tl a t0 h0 sched t h lines p text,
  sign_run tl a t0 h0 sched t h lines (Ok tt) /\ ca_overwrite (sa_common a) = false /\ (forall q x, ~ In (A_other q x) sched) /\
  sa_signature a = Some p /\ files_of t (loc tl p) = Some text /\
  forall s b, ~ shows tl s b (O_signature p) text.
Proof.
  set (a := mkSA (csx_common [csx_a] false) (Some [s2l "x"]) (Some [s2l "x"]) None None true).
  set (text := ascii_bytes (pem_of_der (c_der (sy_cert sy_far nil))) ++ [x0a]).
  destruct (exec_run csx_tools (sa_common a) None nil (sign_prepare csx_tools a csx_tree) (turns (repeat 0 60))
    (fun y _ => files_of (y_tree y) [s2l "home"; s2l "x"] = Some text)) as (y & l & R & P).
  { vm_compute. reflexivity. }
  exists csx_tools, a, csx_tree, nil, (turns (repeat 0 60)), (y_tree y), (y_hist y), l, [s2l "x"], text.
  split; [exact R|]. split; [reflexivity|]. split. { intros q x I. apply in_map_iff in I. destruct I as (i & Q & _). discriminate. }
  split; [reflexivity|]. split; [exact P|].
  intros s b (sg & _ & E). apply app_inj_tail in E. destruct E as [E _].
  assert (T : hd_error (ascii_bytes (pem_of_der (c_der (sy_cert sy_far nil)))) = Some x2d) by (vm_compute; reflexivity).
  rewrite E in T. clear - T.
  assert (B : forall x, n2b (b64_char (b2n x / 4)) <> x2d) by (intros x; destruct x; vm_compute; discriminate).
  destruct sg as [|x [|y [|z r]]]; cbn [b64encode ascii_bytes map hd_error] in T; [discriminate| | |]; apply (B x); congruence.
Qed.

(** Expected, but not so: the result never depends on the schedule.  It does if an output is
    another input, which needs [--overwrite]. *)
Theorem C61_schedule_refuted : exists tl a t0 h0 sched1 t1 h1 lines1 sched2 t2 h2 lines2,
  sign_run tl a t0 h0 sched1 t1 h1 lines1 (Ok tt) /\ sign_run tl a t0 h0 sched2 t2 h2 lines2 (Ok tt) /\
  (forall p x, ~ In (A_other p x) sched1) /\ (forall p x, ~ In (A_other p x) sched2) /\
  (forall h s, setup tl (sa_common a) t0 h0 = (h, Ok s) -> same_answers tl s) /\ default_names a /\ ~ same_files t1 t2.
Proof.
  set (t0 := put csx_tree [s2l "home"; s2l "a.txt.sigstore.json"] (Some (N_file [x07]))).
  set (a := csx_sign [csx_a; [s2l "a.txt.sigstore.json"]] true).
  set (q := [s2l "home"; s2l "a.txt.sigstore.json.sigstore.json"]).
  set (s1 := turns (repeat 0 20 ++ repeat 1 20)). set (s2 := turns (repeat 1 20 ++ repeat 0 20)).
  destruct (exec_run csx_tools (sa_common a) None nil (sign_prepare csx_tools a t0) s1
    (fun y _ => files_of (y_tree y) q = Some (csx_bundle (csx_bundle vx_input)))) as (y1 & l1 & R1 & P1).
  { vm_compute. reflexivity. }
  destruct (exec_run csx_tools (sa_common a) None nil (sign_prepare csx_tools a t0) s2
    (fun y _ => files_of (y_tree y) q = Some (csx_bundle [x07]))) as (y2 & l2 & R2 & P2).
  { vm_compute. reflexivity. }
  exists csx_tools, a, t0, nil, s1, (y_tree y1), (y_hist y1), l1, s2, (y_tree y2), (y_hist y2), l2.
  split; [exact R1|]. split; [exact R2|].
  split. { intros p x I. apply in_map_iff in I. destruct I as (i & Q & _). discriminate. }
  split. { intros p x I. apply in_map_iff in I. destruct I as (i & Q & _). discriminate. }
  split.
  { intros h s H. assert (E : s = match snd (setup csx_tools (sa_common a) t0 nil) with Ok s => s | _ => s end) by (rewrite H; reflexivity).
    apply steady_same_answers with (c := sy_cert sy_far nil) (k := mkPriv 0 sy_key); [|rewrite E; vm_compute; reflexivity|rewrite E; vm_compute; reflexivity].
    intros g g'. split; [reflexivity|]. split; [|repeat split]. intros k k' sc d E1. cbn. rewrite E1. reflexivity. }
  split; [repeat split|]. intros S. specialize (S q). rewrite P1, P2 in S. vm_compute in S. discriminate.
Qed.

(** Expected, but not so: with [--identity-token] no other identity is used.  An empty value, for
    instance from an unset variable of a script, is the same as none. *)
Theorem C72_empty_token_refuted : exists tl a t0 h0 sched t h lines url q,
  sign_run tl a t0 h0 sched t h lines (Ok tt) /\ constructs_tokens tl /\ ca_identity_token (sa_common a) = Some nil /\
  In (EvCsr url q) h /\ tl_detect tl (ca_client_id (sa_common a)) = Ok (Some (fr_bearer q)) /\ fr_bearer q <> nil.
Proof.
  set (a := mkSA (mkCA [csx_a] false (Some nil) (s2l "sigstore") None false None false None None None false false) None None None None false).
  destruct (exec_run csx_tools (sa_common a) None nil (sign_prepare csx_tools a csx_tree) (turns (repeat 0 20))
    (fun y _ => exists url q, In (EvCsr url q) (y_hist y) /\ fr_bearer q = s2l "tok")) as (y & l & R & url & q & I & B).
  { vm_compute. eexists. eexists. split; [repeat (first [left; reflexivity|right])|reflexivity]. }
  exists csx_tools, a, csx_tree, nil, (turns (repeat 0 20)), (y_tree y), (y_hist y), l, url, q.
  split; [exact R|]. split; [intros raw client t H; eexists; eexists; eexists; eexists; exact H|]. split; [reflexivity|].
  split; [exact I|]. rewrite B. split; [reflexivity|discriminate].
Qed.

Print Assumptions C59_sign_refused.
Print Assumptions C59_attest_refused.
Print Assumptions C59_sign_existing_files_kept.
Print Assumptions C59_attest_existing_files_kept.
Print Assumptions C59_sign_only_outputs_change.
Print Assumptions C59_attest_only_outputs_change.
Print Assumptions C60_default_names.
Print Assumptions C60_sign_own_bundles.
Print Assumptions C60_attest_own_bundles.
Print Assumptions C61_sign_outputs.
Print Assumptions C61_attest_outputs.
Print Assumptions C61_sign_reported.
Print Assumptions C61_attest_reported.
Print Assumptions C61_schedule_independent.
Print Assumptions C61_failures_are_separate.
Print Assumptions C61_can_finish.
Print Assumptions C72_sign_identity.
Print Assumptions C72_attest_identity.
Print Assumptions C72_no_detection.
