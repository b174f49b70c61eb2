(** Properties C80 and C81: trusting an instance, updating its trust material; and C72 for
    get-identity-token. *)
From Verif Require Import Base Messages Codec Env Cert TrustedRoot SigningConfig Json Oidc Tuf CliVerify CliTrust PropsTuf.

(** ** Specification *)

Definition inside (d q : path) : Prop := exists rest, q = locate d ++ rest.
(** The TUF library writes in the two directories of a repository only. *)
Definition confined (data cache : path) (lib : TufLib) : Prop :=
  forall url m t, get_dirs data cache url = Ok (m, t) -> forall f q, ~ inside m q -> ~ inside t q ->
  (forall boot, snd (tl_refresh lib url m t boot f) q = f q) /\
  (forall name, snd (tl_targetinfo lib url name f) q = f q) /\
  (forall info, snd (tl_download lib url info f) q = f q).
(** It refuses to start, and writes nothing, if it has neither a root of trust nor a stored one. *)
Definition needs_root (lib : TufLib) : Prop :=
  forall url m t f, (forall q, inside m q -> f q = None) -> exists e, tl_refresh lib url m t None f = (Raise e, f).
(** The user's data and cache directories are different ones, not nested. *)
Definition apart (data cache : path) : Prop := forall r1 r2, locate (data ++ [s2l "tuf"]) ++ r1 <> locate (cache ++ [s2l "tuf"]) ++ r2.
(** nothing is stored for a repository *)
Definition nothing_stored (data cache : path) (u : str) (s : tstate) : Prop :=
  forall m t q, get_dirs data cache u = Ok (m, t) -> inside m q \/ inside t q -> t_fs s q = None.
(** nothing is shipped for a repository *)
Definition not_shipped (emb : str -> str -> option bytes) (u : str) : Prop := forall dir name, quote u = Ok dir -> emb dir name = None.

(** What happens on a computer: commands that use an instance, online or offline, trust-instance
    commands, and everything else, which does not write in the directories of the repository [u]. *)
Inductive event : Type := E_use (url : str) (offline : bool) | E_trust (url : str) (root : bytes) | E_other.
Section History.
Variables (data cache : path) (lib : TufLib) (emb : str -> str -> option bytes).
Variables (ptr : bytes -> res TrustedRootMsg) (psc : bytes -> res SigningConfigMsg).
Variable cwd : path.
Variable u : str.
Inductive happened (s0 : tstate) : list event -> tstate -> Prop :=
| h_start : happened s0 nil s0
| h_use : forall evs s url offline r s', happened s0 evs s ->
    config_from_tuf data cache lib emb ptr psc url offline None s = (r, s') ->
    happened s0 (evs ++ [E_use url offline]) s'
| h_trust : forall evs s file root url r s', happened s0 evs s -> t_fs s (locate (place cwd file)) = Some root ->
    trust_instance data cache lib emb ptr psc cwd file (Some url) s = (r, s') ->
    happened s0 (evs ++ [E_trust url root]) s'
| h_other : forall evs s s', happened s0 evs s ->
    (forall m t q, get_dirs data cache u = Ok (m, t) -> inside m q \/ inside t q -> t_fs s' q = t_fs s q) ->
    happened s0 (evs ++ [E_other]) s'.
End History.
Definition event_url (e : event) : option str := match e with E_use url _ => Some url | E_trust url _ => Some url | E_other => None end.
Definition ordinary_urls (evs : list event) : Prop :=
  forall e url v, In e evs -> event_url e = Some url -> strips_to url v -> ordinary v.
Definition trusted_before (u : str) (evs : list event) : Prop :=
  exists url root, In (E_trust url root) evs /\ strips_to url u.

(** ** Operations that leave files alone *)

Definition spares {A} (P : path -> Prop) (m : op A) : Prop := forall s r s', m s = (r, s') -> forall q, P q -> t_fs s' q = t_fs s q.
Lemma spares_ret : forall A P (r : res A), spares P (ret r).
Proof. intros A P r s r' s' H q _. unfold ret in H. congruence. Qed.
Lemma spares_bind : forall A B P (m : op A) (k : A -> op B), spares P m ->
  (forall s x s', m s = (Ok x, s') -> spares P (k x)) -> spares P (obind m k).
Proof.
  intros A B P m k Hm Hk s r s' H q Pq. unfold obind in H. destruct (m s) as [[x|e] s1] eqn:E.
  - rewrite (Hk _ _ _ E _ _ _ H q Pq). eapply Hm; eassumption.
  - injection H as _ <-. eapply Hm; eassumption.
Qed.
Lemma spares_try : forall A P (m : op A) cls h, spares P m -> (forall e, spares P (h e)) -> spares P (otry m cls h).
Proof.
  intros A P m cls h Hm Hh s r s' H q Pq. unfold otry in H. destruct (m s) as [[x|e] s1] eqn:E.
  - injection H as _ <-. eapply Hm; eassumption.
  - destruct (cls e); [rewrite (Hh _ _ _ _ H q Pq)|injection H as _ <-]; eapply Hm; eassumption.
Qed.
Lemma spares_get : forall P p, spares P (get_file p).
Proof. intros P p s r s' H q _. unfold get_file in H. congruence. Qed.
Lemma spares_put : forall (P : path -> Prop) p b, ~ P (locate p) -> spares P (put_file p b).
Proof.
  intros P p b Np s r s' H q Pq. unfold put_file in H. injection H as _ <-. cbn [t_fs]. unfold fs_write.
  destruct (path_eqb q (locate p)) eqn:E; [|reflexivity]. apply path_eqb_spec in E. subst q. contradiction.
Qed.
Lemma spares_net : forall A (P : path -> Prop) e (f : fs -> res A * fs), (forall g q, P q -> snd (f g) q = g q) -> spares P (net_call e f).
Proof.
  intros A P e f Hf s r s' H q Pq. unfold net_call in H. pose proof (Hf (t_fs s) q Pq) as K.
  destruct (f (t_fs s)) as [x g]. injection H as _ <-. exact K.
Qed.
Lemma spares_local : forall A P (f : fs -> A), spares P (local_call f).
Proof. intros A P f s r s' H q _. unfold local_call in H. congruence. Qed.

Lemma artifact_inside : forall d name, name = TRUSTED_ROOT \/ name = SIGNING_CONFIG -> inside d (locate (path_join d name)).
Proof. intros d name H. exists [name]. apply join_ordinary. destruct H as [->| ->]; repeat split; discriminate. Qed.

Lemma made_updater : forall data cache lib emb url offline boot s u s' m t, get_dirs data cache (rstrip_slash url) = Ok (m, t) ->
  make_updater data cache lib emb url offline boot s = (Ok u, s') -> u = mkUpdater (rstrip_slash url) t (negb offline).
Proof.
  intros data cache lib emb url offline boot s u s' m t G H. unfold make_updater in H. cbv zeta in H. unfold obind at 1, ret at 1 in H. rewrite G in H.
  unfold obind at 1 in H. destruct (populate _ _ _ _ s) as [[[]|e] s1]; [|discriminate].
  unfold obind at 1 in H. destruct (populate _ _ _ _ s1) as [[[]|e] s2]; [|discriminate].
  destruct offline; [unfold ret in H; inversion H; reflexivity|]. unfold obind at 1 in H.
  destruct (otry _ _ _ s2) as [[rj|e] s3]; [|discriminate]. unfold obind at 1 in H. destruct (otry _ _ _ s3) as [[[]|e] s4]; [|discriminate].
  unfold ret in H. inversion H. reflexivity.
Qed.

(** A command for a repository leaves everything outside its directories alone. *)
Lemma config_spares : forall data cache lib emb ptr psc url offline boot m t,
  confined data cache lib -> get_dirs data cache (rstrip_slash url) = Ok (m, t) ->
  spares (fun q => ~ inside m q /\ ~ inside t q) (config_from_tuf data cache lib emb ptr psc url offline boot).
Proof.
  intros data cache lib emb ptr psc url offline boot m t Cf G. set (P := fun q => ~ inside m q /\ ~ inside t q).
  assert (Pop : forall name, name = TRUSTED_ROOT \/ name = SIGNING_CONFIG -> spares P (populate emb t (rstrip_slash url) name)).
  { intros name Hn. unfold populate. apply spares_bind; [apply spares_get|]. intros _ [b|] _ _; [apply spares_ret|].
    apply spares_try; [|intros; apply spares_ret]. apply spares_bind; [apply spares_ret|]. intros _ b _ _. apply spares_put.
    intros [_ X]. apply X. apply artifact_inside. assumption. }
  assert (Gp : forall name on, spares P (get_path lib (mkUpdater (rstrip_slash url) t on) name)).
  { intros name on. unfold get_path. destruct on; cbn [u_online u_url u_targets]; [|apply spares_ret]. apply spares_bind.
    { apply spares_net. intros g q [A B]. apply (Cf _ _ _ G g q A B). }
    intros _ [info|] _ _; [|apply spares_ret]. apply spares_bind; [apply spares_local|]. intros _ [p|] _ _; [apply spares_ret|].
    apply spares_try; [|intros; apply spares_ret]. apply spares_net. intros g q [A B]. apply (Cf _ _ _ G g q A B). }
  assert (Rb : forall p, spares P (read_bytes p)).
  { intros p. apply spares_bind; [apply spares_get|]. intros. apply spares_ret. }
  assert (Mk : spares P (make_updater data cache lib emb url offline boot)).
  { unfold make_updater. cbv zeta. apply spares_bind; [apply spares_ret|]. intros s [m' t'] s' D. unfold ret in D. rewrite G in D.
    injection D as <- <- _. apply spares_bind; [apply Pop; auto|]. intros _ _ _ _. apply spares_bind; [apply Pop; auto|]. intros _ _ _ _.
    destruct offline; [apply spares_ret|]. apply spares_bind.
    - apply spares_try; [|intros; apply spares_ret]. apply spares_bind; intros; apply spares_ret.
    - intros _ rj _ _. apply spares_bind; [|intros; apply spares_ret]. apply spares_try; [|intros; apply spares_ret].
      apply spares_net. intros g q [A B]. apply (Cf _ _ _ G g q A B). }
  unfold config_from_tuf. apply spares_bind; [|intros; apply spares_ret]. unfold from_tuf. apply spares_bind; [exact Mk|].
  intros s u s' Hu. rewrite (made_updater _ _ _ _ _ _ _ _ _ _ _ _ G Hu). unfold get_trusted_root_path, get_signing_config_path.
  repeat (apply spares_bind; [first [apply Gp|apply Rb|apply spares_ret]|intros]). apply spares_ret.
Qed.

(** Without anything stored or shipped, a command that brings no root fails and stores nothing. *)
Lemma config_untrusted : forall data cache lib emb ptr psc url offline u s r s',
  needs_root lib -> strips_to url u -> not_shipped emb u -> nothing_stored data cache u s ->
  config_from_tuf data cache lib emb ptr psc url offline None s = (r, s') ->
  (exists e, r = Raise e) /\ forall q, t_fs s' q = t_fs s q.
Proof.
  intros data cache lib emb ptr psc url offline u s r s' Nr Su Ns St H. apply rstrip_slash_iff in Su. subst u.
  unfold config_from_tuf, from_tuf, make_updater in H. cbv zeta in H. unfold obind at 1 2 3, ret at 1 in H.
  destruct (get_dirs data cache (rstrip_slash url)) as [[m t]|e] eqn:G; [|injection H as <- <-; split; [eauto|reflexivity]].
  assert (Q : exists dir, quote (rstrip_slash url) = Ok dir).
  { unfold get_dirs in G. destruct (quote (rstrip_slash url)) as [dir|]; [eauto|discriminate]. }
  destruct Q as (dir & Q).
  destruct (populate_both emb t _ _ s Q) as (s1 & s2 & P1 & P2 & _ & K & V).
  assert (Sm : forall q, t_fs s2 q = t_fs s q).
  { intros q. destruct (path_eqb q (locate (path_join t TRUSTED_ROOT))) eqn:E1; [apply path_eqb_spec in E1; subst q; rewrite V by auto; rewrite (Ns _ _ Q);
      destruct (t_fs s _); reflexivity|].
    destruct (path_eqb q (locate (path_join t SIGNING_CONFIG))) eqn:E2; [apply path_eqb_spec in E2; subst q; rewrite V by auto; rewrite (Ns _ _ Q);
      destruct (t_fs s _); reflexivity|].
    apply K; intros X; rewrite X, path_eqb_refl in *; discriminate. }
  assert (Z : forall q, inside m q \/ inside t q -> t_fs s2 q = None) by (intros q Iq; rewrite Sm; eapply St; eassumption).
  unfold obind at 1 in H. rewrite P1 in H. unfold obind at 1 in H. rewrite P2 in H. destruct offline.
  - unfold ret at 1 in H. unfold get_trusted_root_path in H. unfold obind at 1 in H. rewrite get_path_offline in H by reflexivity.
    cbn [u_targets] in H. unfold obind at 1, read_bytes at 1, obind at 1, get_file, fs_read in H.
    rewrite (Z (locate (path_join t TRUSTED_ROOT))) in H by (right; apply artifact_inside; auto). unfold ret in H. injection H as <- <-.
    split; [eauto|exact Sm].
  - unfold obind at 1, otry at 1, obind at 1, ret at 1, read_embedded in H. rewrite Q in H. cbn [bind] in H. rewrite (Ns _ _ Q) in H. cbn [exn_eqb] in H.
    unfold ret at 1 in H. destruct (Nr (rstrip_slash url) m t (t_fs s2)) as (e & E); [intros q Iq; apply Z; auto|].
    unfold obind at 1, otry at 1, net_call in H. rewrite E in H. unfold any_exn, ret in H. injection H as <- <-. split; [eauto|exact Sm].
Qed.

Lemma dirs_apart : forall data cache u v m t m' t' q, apart data cache -> ordinary u -> ordinary v -> u <> v ->
  get_dirs data cache u = Ok (m, t) -> get_dirs data cache v = Ok (m', t') -> inside m q \/ inside t q -> ~ inside m' q /\ ~ inside t' q.
Proof.
  intros data cache u v m t m' t' q Ap Ou Ov Ne G G'.
  destruct (C54_directories _ _ _ _ _ G Ou) as (n & Qn & _ & _ & Lm & Lt).
  destruct (C54_directories _ _ _ _ _ G' Ov) as (n' & Qn' & _ & _ & Lm' & Lt').
  apply quote_iff in Qn, Qn'. assert (Nn : n <> n') by (intros ->; apply Ne; eapply quote_inj; eassumption).
  unfold inside. rewrite Lm, Lt, Lm', Lt'.
  intros [(r & ->)|(r & ->)]; split; intros (r' & E); rewrite <- !app_assoc in E.
  - apply app_inv_head in E. cbn in E. congruence.
  - eapply Ap. exact E.
  - eapply Ap. symmetry. exact E.
  - apply app_inv_head in E. cbn in E. congruence.
Qed.

Lemma config_stored : forall data cache lib emb ptr psc url offline boot u s r s',
  apart data cache -> confined data cache lib -> ordinary u -> (forall v, strips_to url v -> ordinary v) -> ~ strips_to url u ->
  nothing_stored data cache u s -> config_from_tuf data cache lib emb ptr psc url offline boot s = (r, s') -> nothing_stored data cache u s'.
Proof.
  intros data cache lib emb ptr psc url offline boot u s r s' Ap Cf Ou Ov Nu St H m t q G I.
  destruct (get_dirs data cache (rstrip_slash url)) as [[m' t']|e] eqn:G'.
  - rewrite (config_spares _ _ _ _ _ _ _ _ _ _ _ Cf G' _ _ _ H); [eapply St; eassumption|].
    apply (dirs_apart data cache u (rstrip_slash url) m t m' t' q); try assumption; [apply Ov, rstrip_slash_spec|]. intros E. apply Nu. rewrite E. apply rstrip_slash_spec.
  - unfold config_from_tuf, from_tuf, make_updater in H. cbv zeta in H. unfold obind at 1 2 3, ret at 1 in H. rewrite G' in H.
    injection H as _ <-. eapply St; eassumption.
Qed.

(** ** C80 *)

Lemma strips_dec : forall url u, strips_to url u \/ ~ strips_to url u.
Proof.
  intros url u. destruct (str_eqb u (rstrip_slash url)) eqn:E.
  - apply str_eqb_spec in E. left. apply rstrip_slash_iff. assumption.
  - right. intros X. apply rstrip_slash_iff in X. subst u. rewrite (proj2 (str_eqb_spec _ _) eq_refl) in E. discriminate.
Qed.

(** An instance for which nothing is shipped can be used, online or offline, only if the user
    trusted it before: whatever other instances did, whatever the repository answers. *)
Theorem C80_only_trusted_instances : forall data cache lib emb ptr psc cwd u s0 evs s url offline c s',
  apart data cache -> confined data cache lib -> needs_root lib ->
  ordinary u -> ordinary_urls evs -> not_shipped emb u -> nothing_stored data cache u s0 ->
  happened data cache lib emb ptr psc cwd u s0 evs s ->
  strips_to url u -> config_from_tuf data cache lib emb ptr psc url offline None s = (Ok c, s') ->
  trusted_before u evs.
Proof.
  intros data cache lib emb ptr psc cwd u s0 evs s url offline c s' Ap Cf Nr Ou Oe Ns St H Su Hc.
  assert (K : trusted_before u evs \/ nothing_stored data cache u s).
  { clear Hc c s' Su url offline. induction H as [|evs s url offline r s' H IH Hc|evs s file root url r s' H IH Hf Hc|evs s s' H IH Hs].
    - right. assumption.
    - assert (Oe' : ordinary_urls evs) by (intros e w v Ie; apply Oe with (e := e); apply in_or_app; auto).
      destruct (IH Oe') as [(w & root & Iw & Sw)|IH']; [left; exists w, root; split; [apply in_or_app; auto|assumption]|].
      right. destruct (strips_dec url u) as [Su|Su].
      + intros m t q G I. rewrite (proj2 (config_untrusted _ _ _ _ _ _ _ _ _ _ _ _ Nr Su Ns IH' Hc)). eapply IH'; eassumption.
      + eapply config_stored; try eassumption. intros v. apply Oe with (e := E_use url offline); [apply in_or_app; right; left; reflexivity|reflexivity].
    - assert (Oe' : ordinary_urls evs) by (intros e w v Ie; apply Oe with (e := e); apply in_or_app; auto).
      destruct (strips_dec url u) as [Su|Su].
      { left. exists url, root. split; [apply in_or_app; right; left; reflexivity|assumption]. }
      destruct (IH Oe') as [(w & root' & Iw & Sw)|IH']; [left; exists w, root'; split; [apply in_or_app; auto|assumption]|].
      right. unfold trust_instance, obind at 1, get_file, fs_read in Hc. rewrite Hf in Hc. unfold obind at 1 in Hc.
      destruct (config_from_tuf data cache lib emb ptr psc url false (Some (Ok root)) s) as [r1 s1] eqn:E.
      assert (s' = s1) by (destruct r1; unfold ret in Hc; congruence). subst s1.
      eapply config_stored; try eassumption. intros v. apply Oe with (e := E_trust url root); [apply in_or_app; right; left; reflexivity|reflexivity].
    - assert (Oe' : ordinary_urls evs) by (intros e w v Ie; apply Oe with (e := e); apply in_or_app; auto).
      destruct (IH Oe') as [(w & root & Iw & Sw)|IH']; [left; exists w, root; split; [apply in_or_app; auto|assumption]|].
      right. intros m t q G I. rewrite (Hs _ _ _ G I). eapply IH'; eassumption. }
  destruct K as [T|K]; [assumption|]. exfalso.
  destruct (config_untrusted _ _ _ _ _ _ _ _ _ _ _ _ Nr Su Ns K Hc) as [(e & E) _]. discriminate.
Qed.

Definition adds {A} (m : op A) : Prop := forall s r s', m s = (r, s') -> exists l, t_net s' = t_net s ++ l.
Lemma adds_ret : forall A (r : res A), adds (ret r).
Proof. intros A r s r' s' H. unfold ret in H. exists nil. rewrite app_nil_r. congruence. Qed.
Lemma adds_bind : forall A B (m : op A) (k : A -> op B), adds m -> (forall x, adds (k x)) -> adds (obind m k).
Proof.
  intros A B m k Hm Hk s r s' H. unfold obind in H. destruct (m s) as [[x|e] s1] eqn:E.
  - destruct (Hm _ _ _ E) as (l & L). destruct (Hk _ _ _ _ H) as (l' & L'). exists (l ++ l'). rewrite L', L, app_assoc. reflexivity.
  - injection H as _ <-. eapply Hm, E.
Qed.
Lemma adds_try : forall A (m : op A) cls h, adds m -> (forall e, adds (h e)) -> adds (otry m cls h).
Proof.
  intros A m cls h Hm Hh s r s' H. unfold otry in H. destruct (m s) as [[x|e] s1] eqn:E.
  - injection H as _ <-. eapply Hm, E.
  - destruct (Hm _ _ _ E) as (l & L). destruct (cls e); [|injection H as _ <-; eauto].
    destruct (Hh _ _ _ _ H) as (l' & L'). exists (l ++ l'). rewrite L', L, app_assoc. reflexivity.
Qed.
Lemma adds_net : forall A e (f : fs -> res A * fs), adds (net_call e f).
Proof. intros A e f s r s' H. unfold net_call in H. destruct (f (t_fs s)) as [x g]. injection H as _ <-. eexists. reflexivity. Qed.
Lemma adds_local : forall A (f : fs -> A), adds (local_call f).
Proof. intros A f s r s' H. unfold local_call in H. injection H as _ <-. exists nil. symmetry. apply app_nil_r. Qed.
Lemma adds_get : forall p, adds (get_file p).
Proof. intros p s r s' H. unfold get_file in H. injection H as _ <-. exists nil. symmetry. apply app_nil_r. Qed.
Lemma adds_path : forall lib u name, adds (get_path lib u name).
Proof.
  intros lib u name. unfold get_path. destruct (u_online u); [|apply adds_ret]. apply adds_bind; [apply adds_net|]. intros [i|]; [|apply adds_ret].
  apply adds_bind; [apply adds_local|]. intros [p|]; [apply adds_ret|]. apply adds_try; [apply adds_net|]. intros; apply adds_ret.
Qed.
Lemma adds_read : forall p, adds (read_bytes p).
Proof. intros p. apply adds_bind; [apply adds_get|]. intros; apply adds_ret. Qed.

(** the root of trust that an online command hands to the library: the shipped one, else the user's *)
Definition root_for (emb : str -> str -> option bytes) (dir : str) (boot : option bytes) : option bytes :=
  match emb dir (s2l "root.json") with Some b => Some b | None => boot end.

Lemma config_online : forall data cache lib emb ptr psc url boot s c s',
  config_from_tuf data cache lib emb ptr psc url false (match boot with Some b => Some (Ok b) | None => None end) s = (Ok c, s') ->
  exists u dir m t f f' l, strips_to url u /\ quote u = Ok dir /\ get_dirs data cache u = Ok (m, t) /\
    tl_refresh lib u m t (root_for emb dir boot) f = (Ok tt, f') /\ t_net s' = t_net s ++ Net_refresh u :: l.
Proof.
  intros data cache lib emb ptr psc url boot s c s' H. exists (rstrip_slash url).
  unfold config_from_tuf, from_tuf, make_updater in H. cbv zeta in H. unfold obind at 1 2 3, ret at 1 in H.
  destruct (get_dirs data cache (rstrip_slash url)) as [[m t]|e] eqn:G; [|discriminate].
  assert (Q : exists dir, quote (rstrip_slash url) = Ok dir).
  { unfold get_dirs in G. destruct (quote (rstrip_slash url)) as [dir|]; [eauto|discriminate]. }
  destruct Q as (dir & Q). exists dir, m, t.
  destruct (populate_both emb t _ _ s Q) as (s1 & s2 & P1 & P2 & Nn & _ & _).
  unfold obind at 1 in H. rewrite P1 in H. unfold obind at 1 in H. rewrite P2 in H.
  unfold obind at 1 in H.
  assert (E : otry (obind (ret (read_embedded emb (s2l "root.json") (rstrip_slash url))) (fun b => ret (Ok (Some b)))) (exn_eqb EFileNotFound)
     (fun _ => ret match match boot with Some b => Some (Ok b) | None => None end with Some r => let* b := r in Ok (Some b) | None => Ok None end) s2 =
     (Ok (root_for emb dir boot), s2)).
  { unfold otry, obind, ret, read_embedded, root_for. rewrite Q. cbn [bind]. destruct (emb dir (s2l "root.json")); [reflexivity|].
    cbn [exn_eqb]. destruct boot; reflexivity. }
  rewrite E in H. clear E. unfold obind at 1, otry at 1, net_call in H.
  destruct (tl_refresh lib (rstrip_slash url) m t (root_for emb dir boot) (t_fs s2)) as [[[]|e] f'] eqn:R; [|discriminate].
  unfold ret at 1 in H.
  match type of H with match ?m ?st with _ => _ end = _ => assert (A : adds m); [|destruct (m st) as [[p|e] s4] eqn:E; [|discriminate]] end.
  { repeat (apply adds_bind; [first [apply adds_path|apply adds_read|apply adds_ret]|intros]). apply adds_ret. }
  unfold ret in H. injection H as _ <-. destruct (A _ _ _ E) as (l & L). cbn [t_net] in L. rewrite Nn, <- app_assoc in L.
  exists (t_fs s2), f', l. split; [apply rstrip_slash_spec|]. auto.
Qed.

(** trust-instance gives the TUF library the content of the file as root of trust, for the
    directories of the instance, before anything else of the repository is used; then later
    commands for the same URL, with or without trailing slashes, use these directories (C54). *)
Theorem C80_root_of_trust : forall data cache lib emb ptr psc cwd root instance s s',
  trust_instance data cache lib emb ptr psc cwd root instance s = (Ok tt, s') ->
  exists url b u m t f f' l, instance = Some url /\ t_fs s (locate (place cwd root)) = Some b /\ strips_to url u /\ get_dirs data cache u = Ok (m, t) /\
    (not_shipped emb u -> tl_refresh lib u m t (Some b) f = (Ok tt, f')) /\
    t_net s' = t_net s ++ Net_refresh u :: l.
Proof.
  intros data cache lib emb ptr psc cwd root instance s s' H. unfold trust_instance, obind at 1, get_file, fs_read in H.
  destruct (t_fs s (locate (place cwd root))) as [b|] eqn:Eb; [|discriminate]. destruct instance as [url|]; [|discriminate].
  unfold obind at 1 in H. destruct (config_from_tuf data cache lib emb ptr psc url false (Some (Ok b)) s) as [[c|e] s1] eqn:E; [|discriminate].
  unfold ret in H. injection H as <-. destruct (config_online _ _ _ _ _ _ _ (Some b) _ _ _ E) as (u & dir & m & t & f & f' & l & Su & Q & G & R & L).
  exists url, b, u, m, t, f, f', l. repeat (split; [assumption || reflexivity|]). split; [|assumption]. intros Ns.
  unfold root_for in R. rewrite (Ns _ _ Q) in R. assumption.
Qed.
(** No other command hands over a root of trust that is not shipped. *)
Theorem C80_other_commands_bring_no_root : forall data cache lib emb ptr psc url s c s',
  config_from_tuf data cache lib emb ptr psc url false None s = (Ok c, s') ->
  exists u dir m t f f', strips_to url u /\ quote u = Ok dir /\ get_dirs data cache u = Ok (m, t) /\
    tl_refresh lib u m t (emb dir (s2l "root.json")) f = (Ok tt, f').
Proof.
  intros data cache lib emb ptr psc url s c s' H. destruct (config_online _ _ _ _ _ _ _ None _ _ _ H) as (u & dir & m & t & f & f' & l & Su & Q & G & R & L).
  exists u, dir, m, t, f, f'. repeat (split; [assumption|]). unfold root_for in R. destruct (emb dir (s2l "root.json")); assumption.
Qed.
(** Wrong arguments are refused before anything happens. *)
Theorem C80_refused : forall data cache lib emb ptr psc cwd root instance s,
  t_fs s (locate (place cwd root)) = None \/ instance = None ->
  trust_instance data cache lib emb ptr psc cwd root instance s = (Raise (ESystemExit 2), s).
Proof.
  intros data cache lib emb ptr psc cwd root instance s H. unfold trust_instance, obind, get_file, fs_read, ret.
  destruct (t_fs s (locate (place cwd root))) as [b|]; [|reflexivity]. destruct H as [H|H]; [discriminate|]. subst. reflexivity.
Qed.

(** ** C81 *)

Definition selected_url (instance : option str) (staging : bool) : str :=
  match instance with Some (c :: r) => c :: r | _ => if staging then s2l "https://tuf-repo-cdn.sigstage.dev" else s2l "https://tuf-repo-cdn.sigstore.dev" end.
(** The message appears only if the library verified and refreshed the metadata of the selected
    instance in this run. *)
Theorem C81_updated_means_refreshed : forall data cache lib emb ptr psc pj cwd env now instance staging s n s',
  update_trust_root data cache lib emb ptr psc pj cwd env now None instance staging s = (Ok n, s') ->
  0 < n /\ exists u dir m t f f' l, strips_to (selected_url instance staging) u /\ quote u = Ok dir /\ get_dirs data cache u = Ok (m, t) /\
    tl_refresh lib u m t (emb dir (s2l "root.json")) f = (Ok tt, f') /\ t_net s' = t_net s ++ Net_refresh u :: l.
Proof.
  intros data cache lib emb ptr psc pj cwd env now instance staging s n s' H. unfold update_trust_root, obind at 1 in H.
  assert (E : trust_config_on_disk data cache lib emb ptr psc pj cwd None instance staging false = config_from_tuf data cache lib emb ptr psc (selected_url instance staging) false None).
  { unfold trust_config_on_disk, selected_url. destruct instance as [[|x r]|]; reflexivity. }
  rewrite E in H. clear E. destruct (config_from_tuf _ _ _ _ _ _ (selected_url instance staging) false None s) as [[c|e] s1] eqn:E; [|discriminate].
  unfold ret in H. injection H as H <-. apply bind_ok_inv in H. destruct H as (tr & _ & H). apply bind_ok_inv in H. destruct H as (certs & Ce & H). injection H as <-.
  split.
  - unfold get_fulcio_certs in Ce. apply bind_ok_inv in Ce. destruct Ce as (cs & _ & Ce). destruct cs as [|x cs]; [discriminate|]. injection Ce as <-. cbn [length]. lia.
  - destruct (config_online _ _ _ _ _ _ _ None _ _ _ E) as (u & dir & m & t & f & f' & l & Su & Q & G & R & L).
    exists u, dir, m, t, f, f', l. repeat (split; [assumption|]). split; [|assumption]. unfold root_for in R. destruct (emb dir (s2l "root.json")); assumption.
Qed.

(** ** A concrete computer

    The library stores the root it was given, refuses to start without one, and downloads targets
    into the targets directory. *)
From Verif Require Import ToyEnv ToyBundles PropsSigningConfig.
Definition tix_data : path := [s2l "data"].
Definition tix_cache : path := [s2l "cache"].
Definition tix_root (m : path) : path := path_join m (s2l "root.json").
Definition tix_dir (url : str) : path := match get_dirs tix_data tix_cache url with Ok (_, t) => t | Raise _ => nil end.
Definition tix_lib : TufLib := mkTufLib str
  (fun _ m _ boot f =>
     match boot with
     | Some b => (Ok tt, fs_write f (tix_root m) b)
     | None => match f (locate (tix_root m)) with Some _ => (Ok tt, f) | None => (Raise EDownload, f) end
     end)
  (fun _ name f => (Ok (Some name), f))
  (fun _ _ _ => None)
  (fun url name f =>
     if str_eqb name TRUSTED_ROOT then (Ok (path_join (tix_dir url) TRUSTED_ROOT), fs_write f (path_join (tix_dir url) TRUSTED_ROOT) [x01])
     else (Ok (path_join (tix_dir url) SIGNING_CONFIG), fs_write f (path_join (tix_dir url) SIGNING_CONFIG) [x02])).
Definition tix_url : str := s2l "https://tuf.example".
Definition tix_file : path := [s2l "/"; s2l "home"; s2l "root.json"].
Definition tix_start : tstate := mkT (fun p => if path_eqb p (locate (place nil tix_file)) then Some (s2b "ROOT") else None) nil.
Definition tix_ptr (b : bytes) : res TrustedRootMsg := if bytes_eqb b [x01] then Ok vx_tr else Raise EValue.
Definition tix_psc (b : bytes) : res SigningConfigMsg := if bytes_eqb b [x02] then Ok (sc_msg nil None) else Raise EValue.
Definition tix_none (_ _ : str) : option bytes := None.
Definition tix_use (emb : str -> str -> option bytes) (url : str) (offline : bool) : op ClientTrustConfig :=
  config_from_tuf tix_data tix_cache tix_lib emb tix_ptr tix_psc url offline None.
Definition tix_trust (emb : str -> str -> option bytes) (url : str) : op unit :=
  trust_instance tix_data tix_cache tix_lib emb tix_ptr tix_psc nil tix_file (Some url).

Lemma written_inside : forall f d p b q, inside d (locate p) -> ~ inside d q -> fs_write f p b q = f q.
Proof.
  intros f d p b q I Nq. unfold fs_write. destruct (path_eqb q (locate p)) eqn:E; [|reflexivity]. apply path_eqb_spec in E. subst q. contradiction.
Qed.
Example ex_confined : confined tix_data tix_cache tix_lib.
Proof.
  intros url m t G f q Nm Nt. split; [|split].
  - intros boot. cbn [tix_lib tl_refresh]. destruct boot as [b|].
    + cbn [snd]. apply (written_inside _ m); [|assumption]. exists [s2l "root.json"]. apply join_ordinary. repeat split; discriminate.
    + destruct (f (locate (tix_root m))); reflexivity.
  - intros name. reflexivity.
  - intros name. cbn [tix_lib tl_download]. unfold tix_dir. rewrite G.
    destruct (str_eqb name TRUSTED_ROOT); cbn [snd]; apply (written_inside _ t); try assumption; apply artifact_inside; auto.
Qed.
Example ex_needs_root : needs_root tix_lib.
Proof.
  intros url m t f H. exists EDownload. cbn [tix_lib tl_refresh]. rewrite H; [reflexivity|]. exists [s2l "root.json"]. apply join_ordinary. repeat split; discriminate.
Qed.
Example ex_apart : apart tix_data tix_cache.
Proof. intros r1 r2 H. vm_compute in H. discriminate H. Qed.
Example ex_nothing_stored : nothing_stored tix_data tix_cache tix_url tix_start.
Proof.
  intros m t q G I.
  assert (E : m = [s2l "data"; s2l "tuf"; s2l "https%3A%2F%2Ftuf.example"] /\ t = [s2l "cache"; s2l "tuf"; s2l "https%3A%2F%2Ftuf.example"]).
  { change (get_dirs tix_data tix_cache tix_url) with (Ok ([s2l "data"; s2l "tuf"; s2l "https%3A%2F%2Ftuf.example"], [s2l "cache"; s2l "tuf"; s2l "https%3A%2F%2Ftuf.example"])) in G.
    injection G as <- <-. auto. }
  destruct E as [-> ->]. unfold tix_start. cbn [t_fs].
  destruct (path_eqb q (locate (place nil tix_file))) eqn:E; [|reflexivity]. exfalso. apply path_eqb_spec in E. subst q.
  destruct I as [(r & E)|(r & E)]; vm_compute in E; discriminate E.
Qed.
(** Before: refused, online and offline.  After trust-instance: usable, also with a slash, also
    offline. *)
Example ex_untrusted : fst (tix_use tix_none tix_url false tix_start) = Raise ETUF /\ fst (tix_use tix_none tix_url true tix_start) = Raise EFileNotFound.
Proof. split; vm_compute; reflexivity. Qed.
Definition tix_after : tstate := snd (tix_trust tix_none tix_url tix_start).
Example ex_trusted :
  fst (tix_trust tix_none tix_url tix_start) = Ok tt /\
  (exists c, fst (tix_use tix_none (tix_url ++ s2l "/") false tix_after) = Ok c) /\
  (exists c, fst (tix_use tix_none tix_url true tix_after) = Ok c) /\
  fst (tix_use tix_none (s2l "https://other.example") false tix_after) = Raise ETUF.
Proof. split; [|split; [|split]]; try eexists; vm_compute; reflexivity. Qed.
Example ex_happened : happened tix_data tix_cache tix_lib tix_none tix_ptr tix_psc nil tix_url tix_start [E_use tix_url false; E_trust tix_url (s2b "ROOT")]
  (snd (tix_trust tix_none tix_url (snd (tix_use tix_none tix_url false tix_start)))) /\
  ordinary_urls [E_use tix_url false; E_trust tix_url (s2b "ROOT")] /\ ordinary tix_url.
Proof.
  assert (O : ordinary tix_url) by (repeat split; discriminate).
  assert (Sp : strips_to tix_url tix_url) by (apply rstrip_slash_iff; reflexivity).
  split; [|split; [|assumption]].
  - apply (h_trust _ _ _ _ _ _ _ _ _ [E_use tix_url false] (snd (tix_use tix_none tix_url false tix_start)) tix_file _ _ (fst (tix_trust tix_none tix_url (snd (tix_use tix_none tix_url false tix_start))))).
    + apply (h_use _ _ _ _ _ _ _ _ _ nil tix_start _ _ (fst (tix_use tix_none tix_url false tix_start))); [apply h_start|apply surjective_pairing].
    + vm_compute. reflexivity.
    + apply surjective_pairing.
  - intros e url v [<-|[<-|[]]] E Sv; injection E as <-; rewrite (strips_to_fun _ _ _ Sv Sp); assumption.
Qed.

(** For an instance whose root is shipped, the file that the user gives is ignored without notice. *)
Definition tix_shipped (dir name : str) : option bytes := if str_eqb name (s2l "root.json") then Some (s2b "SHIPPED") else None.
Theorem C80_users_root_is_used_refuted : exists emb r s',
  tix_trust emb PRODUCTION tix_start = (r, s') /\ r = Ok tt /\
  t_fs tix_start (locate (place nil tix_file)) = Some (s2b "ROOT") /\
  t_fs s' [s2l "data"; s2l "tuf"; s2l "https%3A%2F%2Ftuf-repo-cdn.sigstore.dev"; s2l "root.json"] = Some (s2b "SHIPPED").
Proof.
  exists tix_shipped, (fst (tix_trust tix_shipped PRODUCTION tix_start)), (snd (tix_trust tix_shipped PRODUCTION tix_start)).
  split; [apply surjective_pairing|]. split; [vm_compute; reflexivity|]. split; vm_compute; reflexivity.
Qed.
(** With a trust configuration in a file the message appears although nothing is updated. *)
Theorem C81_message_means_update_refuted : exists pj s n,
  update_trust_root tix_data tix_cache tix_lib tix_none tix_ptr tix_psc pj nil vx_env vx_now (Some tix_file) None false s = (Ok n, s) /\
  0 < n /\ t_net s = nil.
Proof.
  exists (fun _ => Ok (mkCTC vx_tr (sc_msg nil None) None)), tix_start, 1. split; [|split; [lia|reflexivity]].
  unfold update_trust_root, trust_config_on_disk, read_bytes, obind, get_file, ret. 
  assert (E : fs_read (t_fs tix_start) (place nil tix_file) = Some (s2b "ROOT")) by (vm_compute; reflexivity). rewrite E.
  f_equal. vm_compute. reflexivity.
Qed.
Example ex_update :
  let r := update_trust_root tix_data tix_cache tix_lib tix_none tix_ptr tix_psc (fun _ => Raise EValue) nil vx_env vx_now None (Some tix_url) false tix_after in
  fst r = Ok 1 /\ t_net (snd r) = t_net tix_after ++ [Net_refresh tix_url; Net_targetinfo tix_url TRUSTED_ROOT; Net_download tix_url TRUSTED_ROOT;
    Net_targetinfo tix_url SIGNING_CONFIG; Net_download tix_url SIGNING_CONFIG].
Proof. split; vm_compute; reflexivity. Qed.

(** ** C72 for get-identity-token *)
From Verif Require Import Sign CliSign PropsCliSign.

(** The printed token is the one that sign would use with the same options and no explicit token,
    or the interactive one; no certificate is requested. *)
Definition without_token (a : CommonArgs) : CommonArgs :=
  mkCA (ca_files a) (ca_overwrite a) None (ca_client_id a) (ca_client_secret a) (ca_disable_ambient a) (ca_issuer a) (ca_force_oob a)
    (ca_rekor_version a) (ca_trust_config a) (ca_instance a) (ca_staging a) (ca_verbose a).
Theorem C72_get_identity_token : forall tl a t raw, constructs_tokens tl ->
  get_identity_token tl a t = Ok raw -> chosen_token tl (without_token a) raw.
Proof.
  intros tl a t raw Ct H. unfold get_identity_token in H. apply bind_ok_inv in H. destruct H as (c & _ & H).
  apply bind_ok_inv in H. destruct H as (tok & G & H). injection H as <-.
  apply (identity_chosen tl (without_token a) c tok Ct). exact G.
Qed.

Print Assumptions C80_only_trusted_instances.
Print Assumptions C80_root_of_trust.
Print Assumptions C80_other_commands_bring_no_root.
Print Assumptions C80_refused.
Print Assumptions C80_users_root_is_used_refuted.
Print Assumptions C81_updated_means_refreshed.
Print Assumptions C81_message_means_update_refuted.
Print Assumptions C72_get_identity_token.
