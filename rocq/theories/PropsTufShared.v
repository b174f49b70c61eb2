(** Property C99: processes that share the trust cache. *)
From Verif Require Import Base Messages Codec Tuf PropsTuf TufShared.

(** ** Specification *)

(** Two file systems with the same files. *)
Definition same_files (f g : fs) : Prop := forall q, f q = g q.

(** The location of a file of the cache, for a URL. *)
Definition cache_file (cache_dir : path) (url name : str) (q : path) : Prop :=
  exists u dir, strips_to url u /\ quote u = Ok dir /\ q = locate (path_join (path_join (cache_dir ++ [s2l "tuf"]) dir) name).

(** The content of one of the two files of the cache, as an offline process may see it on a first
    run: what was there; or, if nothing was, the embedded copy, of which nothing may have been
    written yet. *)
Definition may_see (embedded : str -> str -> option bytes) (cache_dir : path) (f : fs) (url name : str) (c : res bytes) : Prop :=
  exists u dir, strips_to url u /\ quote u = Ok dir /\
  match f (locate (path_join (path_join (cache_dir ++ [s2l "tuf"]) dir) name)) with
  | Some b => c = Ok b
  | None => match embedded dir name with
            | Some e => c = Ok e \/ c = Ok nil
            | None => c = Raise EFileNotFound
            end
  end.

(** The files a program of the TUF library may write: location and content. *)
Inductive writes_only {A} (P : path -> bytes -> Prop) : prog A -> Prop :=
| wo_return : forall r, writes_only P (Return r)
| wo_exists : forall p k, (forall x, writes_only P (k x)) -> writes_only P (Exists p k)
| wo_open : forall p k, P (locate p) nil -> writes_only P k -> writes_only P (Open p k)
| wo_fill : forall p b k, P (locate p) b -> writes_only P k -> writes_only P (Fill p b k)
| wo_read : forall p k, (forall x, writes_only P (k x)) -> writes_only P (Read p k).
Definition library_writes_only (lib : TufProgs) (P : path -> bytes -> Prop) : Prop :=
  (forall url m t root, writes_only P (tp_refresh lib url m t root)) /\
  (forall url name, writes_only P (tp_targetinfo lib url name)) /\
  (forall url info, writes_only P (tp_download lib url info)).

(** Every process has come to its end. *)
Definition finished {A} (ps : list (prog A)) : Prop := forall m, In m ps -> exists r, m = Return r.

(** ** A process alone *)

Lemma write_same : forall f g p b, same_files f g -> same_files (fs_write f p b) (fs_write g p b).
Proof. intros f g p b S q. unfold fs_write. destruct (path_eqb q (locate p)); [reflexivity|apply S]. Qed.

Lemma write_twice : forall f p b c, same_files (fs_write (fs_write f p b) p c) (fs_write f p c).
Proof. intros f p b c q. unfold fs_write. destruct (path_eqb q (locate p)); reflexivity. Qed.

Lemma same_trans : forall f g h, same_files f g -> same_files g h -> same_files f h.
Proof. intros f g h A B q. rewrite A. apply B. Qed.

Lemma run_same : forall A (m : prog A) f g, same_files f g -> fst (run m f) = fst (run m g) /\ same_files (snd (run m f)) (snd (run m g)).
Proof.
  intros A m. induction m as [r|p k IH|p k IH|p b k IH|p k IH]; intros f g S; cbn [run].
  - split; [reflexivity|exact S].
  - unfold fs_read. rewrite (S (locate p)). apply IH. exact S.
  - apply IH. apply write_same. exact S.
  - apply IH. apply write_same. exact S.
  - unfold fs_read. rewrite (S (locate p)). apply IH. exact S.
Qed.

Lemma run_pbind : forall A B (m : prog A) (g : A -> prog B) f,
  run (pbind m g) f = match run m f with (Ok x, f') => run (g x) f' | (Raise e, f') => (Raise e, f') end.
Proof.
  intros A B m g. induction m as [[x|e]|p k IH|p k IH|p b k IH|p k IH]; intros f; cbn [pbind run]; auto.
Qed.

Lemma run_ptry : forall A (m : prog A) cls h f,
  run (ptry m cls h) f = match run m f with (Raise e, f') => if cls e then run (h e) f' else (Raise e, f') | r => r end.
Proof.
  intros A m cls h. induction m as [[x|e]|p k IH|p k IH|p b k IH|p k IH]; intros f; cbn [ptry run]; auto.
  destruct (cls e); reflexivity.
Qed.

(** The program does what the operation of Tuf.v does. *)
Definition does {A} (m : op A) (p : prog A) : Prop := forall f g net, same_files f g ->
  fst (run p g) = fst (m (mkT f net)) /\ same_files (t_fs (snd (m (mkT f net)))) (snd (run p g)).

Lemma does_ret : forall A (r : res A), does (ret r) (Return r).
Proof. intros A r f g net S. split; [reflexivity|exact S]. Qed.

Lemma does_bind : forall A B (m : op A) p (k : A -> op B) h, does m p -> (forall x, does (k x) (h x)) -> does (obind m k) (pbind p h).
Proof.
  intros A B m p k h D H f g net S. destruct (D f g net S) as [R T]. rewrite run_pbind. unfold obind.
  destruct (m (mkT f net)) as [r [f' net']], (run p g) as [r' g']. cbn [fst snd t_fs] in R, T. subst r'. destruct r as [x|e].
  - apply H. exact T.
  - split; [reflexivity|exact T].
Qed.

Lemma does_try : forall A (m : op A) p cls k h, does m p -> (forall e, does (k e) (h e)) -> does (otry m cls k) (ptry p cls h).
Proof.
  intros A m p cls k h D H f g net S. destruct (D f g net S) as [R T]. rewrite run_ptry. unfold otry.
  destruct (m (mkT f net)) as [r [f' net']], (run p g) as [r' g']. cbn [fst snd t_fs] in R, T. subst r'. destruct r as [x|e].
  - split; [reflexivity|exact T].
  - destruct (cls e); [apply H; exact T|split; [reflexivity|exact T]].
Qed.

Lemma does_call : forall A e (p : prog A), does (net_call e (run p)) p.
Proof.
  intros A e p f g net S. unfold net_call. cbn [t_fs]. destruct (run_same _ p f g S) as [R T]. destruct (run p f) as [r f'].
  cbn [fst snd t_fs] in *. split; [symmetry; exact R|exact T].
Qed.

Lemma does_populate : forall emb targets url artifact, does (populate emb targets url artifact) (p_populate emb targets url artifact).
Proof.
  intros emb targets url artifact f g net S. unfold populate, p_populate, obind, get_file. cbn [run t_fs]. cbv zeta. unfold fs_read.
  rewrite (S (locate (path_join targets artifact))). destruct (g _) as [b|]; cbn [present].
  - split; [reflexivity|exact S].
  - rewrite run_ptry, run_pbind. cbn [run]. unfold otry, ret. destruct (read_embedded emb artifact url) as [d|e].
    + cbn [run put_file fst snd t_fs]. split; [reflexivity|]. intros q. rewrite write_twice. apply write_same. exact S.
    + destruct (exn_eqb EFileNotFound e); (split; [reflexivity|exact S]).
Qed.

Lemma does_get_path : forall lib u name, does (get_path (lib_alone lib) u name) (p_get_path lib u name).
Proof.
  intros lib u name. unfold get_path, p_get_path. destruct (u_online u); [|apply does_ret].
  apply does_bind; [apply does_call|]. intros [info|]; [|apply does_ret].
  intros f g net S. unfold obind, local_call. cbn [t_fs lib_alone tl_find_cached run]. unfold fs_read. rewrite (S (locate (tp_cached_at lib (u_url u) info))).
  destruct (g _) as [b|]; [destruct (tp_valid lib info b)|].
  - split; [reflexivity|exact S].
  - refine (does_try _ _ _ _ _ _ (does_call _ _ _) (fun _ => does_ret _ _) f g net S).
  - refine (does_try _ _ _ _ _ _ (does_call _ _ _) (fun _ => does_ret _ _) f g net S).
Qed.

Lemma does_read : forall p, does (read_bytes p) (p_read_bytes p).
Proof.
  intros p f g net S. unfold read_bytes, p_read_bytes, obind, get_file. cbn [run t_fs]. unfold fs_read. rewrite (S (locate p)).
  split; [reflexivity|exact S].
Qed.

Lemma does_make : forall data cache lib emb url offline boot,
  does (make_updater data cache (lib_alone lib) emb url offline boot) (p_make_updater data cache lib emb url offline boot).
Proof.
  intros. unfold make_updater, p_make_updater. cbv zeta. apply does_bind; [apply does_ret|]. intros [md td]. cbn [fst snd].
  apply does_bind; [apply does_populate|]. intros _. apply does_bind; [apply does_populate|]. intros _. destruct offline; [apply does_ret|].
  apply does_bind.
  - intros f g net S. unfold otry, obind, ret. cbn [run]. destruct (read_embedded emb (s2l "root.json") (rstrip_slash url)) as [b|e]; cbn [bind try_except].
    + split; [reflexivity|exact S].
    + destruct (exn_eqb EFileNotFound e); (split; [reflexivity|exact S]).
  - intros root. apply does_bind; [|intros _; apply does_ret]. apply does_try; [apply does_call|intros _; apply does_ret].
Qed.

(** A process that nobody disturbs does exactly what the model of C53 to C55 says: the result and the
    files are the same. *)
Theorem C99_alone : forall TR SC (ptr : bytes -> res TR) (psc : bytes -> res SC) data cache lib emb url offline boot f net,
  let '(r, s) := from_tuf data cache (lib_alone lib) emb ptr psc url offline boot (mkT f net) in
  fst (run (p_from_tuf data cache lib emb ptr psc url offline boot) f) = r /\
  same_files (t_fs s) (snd (run (p_from_tuf data cache lib emb ptr psc url offline boot) f)).
Proof.
  intros. assert (D : does (from_tuf data cache (lib_alone lib) emb ptr psc url offline boot) (p_from_tuf data cache lib emb ptr psc url offline boot)).
  { unfold from_tuf, p_from_tuf. apply does_bind; [apply does_make|]. intros u. apply does_bind; [apply does_get_path|]. intros tp.
    apply does_bind; [apply does_read|]. intros tb. apply does_bind; [apply does_ret|]. intros tr. apply does_bind; [apply does_get_path|]. intros sp.
    apply does_bind; [apply does_read|]. intros sb. apply does_bind; [apply does_ret|]. intros sc. apply does_ret. }
  specialize (D f f net (fun q => eq_refl)). destruct (from_tuf _ _ _ _ _ _ _ _ _ _) as [r s]. exact D.
Qed.

(** ** Processes that only read *)

Lemma nth_replace : forall A (l : list A) i x j, nth_error (replace l i x) j = if Nat.eqb i j then match nth_error l i with Some _ => Some x | None => None end else nth_error l j.
Proof.
  intros A l. induction l as [|y l IH]; intros i x j; cbn [replace].
  - destruct i, j; cbn; try reflexivity. destruct (Nat.eqb i j); reflexivity.
  - destruct i as [|i], j as [|j]; cbn; try reflexivity. apply IH.
Qed.

(** every step in files [f] is a look *)
Inductive looks {A} (f : fs) : prog A -> Prop :=
| lk_return : forall r, looks f (Return r)
| lk_exists : forall p k, looks f (k (present (fs_read f p))) -> looks f (Exists p k)
| lk_read : forall p k, looks f (k (fs_read f p)) -> looks f (Read p k).

Lemma exec_looks : forall A schedule (ps ps' : list (prog A)) f f', (forall i m, nth_error ps i = Some m -> looks f m) ->
  exec schedule ps f = (ps', f') -> f' = f /\ length ps' = length ps /\
  forall i m m', nth_error ps i = Some m -> nth_error ps' i = Some m' -> fst (run m' f) = fst (run m f).
Proof.
  intros A schedule. induction schedule as [|i schedule IH]; intros ps ps' f f' L H; cbn [exec] in H.
  - inversion H; subst. split; [reflexivity|]. split; [reflexivity|]. intros i m m' E F. congruence.
  - destruct (nth_error ps i) as [m|] eqn:Ni; [|apply (IH _ _ _ _ L H)].
    assert (S : snd (step m f) = f /\ looks f (fst (step m f)) /\ fst (run (fst (step m f)) f) = fst (run m f)).
    { destruct (L i m Ni); cbn [step fst snd run]; (split; [reflexivity|]); (split; [|reflexivity]); [constructor|assumption|assumption]. }
    destruct (step m f) as [m1 f1]. cbn [fst snd] in S. destruct S as (-> & L1 & R1).
    assert (Len : forall x, length (replace ps i x) = length ps).
    { clear. intros x. revert i. induction ps as [|y ps IH]; intros [|i]; cbn; auto. }
    destruct (IH (replace ps i m1) ps' f f') as (Ef & El & Er); [|exact H|].
    + intros j m2 N. rewrite nth_replace in N. destruct (Nat.eqb_spec i j) as [<-|Ne]; [|eapply L; eassumption].
      rewrite Ni in N. inversion N; subst. exact L1.
    + split; [exact Ef|]. split; [rewrite El; apply Len|]. intros j m2 m' N N'. destruct (Nat.eqb_spec i j) as [<-|Ne].
      * rewrite Ni in N. inversion N; subst. rewrite <- R1. apply (Er i); [|exact N']. rewrite nth_replace, Nat.eqb_refl, Ni. reflexivity.
      * apply (Er j); [|exact N']. rewrite nth_replace. destruct (Nat.eqb_spec i j); [contradiction|exact N].
Qed.

Section Jobs.
Variables (data cache : path) (lib : TufProgs) (emb : str -> str -> option bytes).
Context {TR SC : Type} (ptr : bytes -> res TR) (psc : bytes -> res SC).

(** The trust configuration obtained offline: a URL and, if given, a bootstrap root (ignored). *)
Definition offline_process (job : str * option (res bytes)) : prog (TR * SC) :=
  p_from_tuf data cache lib emb ptr psc (fst job) true (snd job).
(** The same by a process that nobody disturbs. *)
Definition offline_alone (job : str * option (res bytes)) (f : fs) : res (TR * SC) * fs :=
  let '(r, s) := from_tuf data cache (lib_alone lib) emb ptr psc (fst job) true (snd job) (mkT f nil) in (r, t_fs s).

Lemma populated_looks : forall job f, (forall name q, name = TRUSTED_ROOT \/ name = SIGNING_CONFIG -> cache_file cache (fst job) name q -> f q <> None) ->
  looks f (offline_process job).
Proof.
  intros [url boot] f P. cbn [fst] in P. unfold offline_process, p_from_tuf. cbn [fst snd].
  destruct (quote (rstrip_slash url)) as [dir|e] eqn:Q.
  - assert (F : forall name, name = TRUSTED_ROOT \/ name = SIGNING_CONFIG -> present (fs_read f (path_join (path_join (cache ++ [s2l "tuf"]) dir) name)) = true).
    { intros name N. unfold fs_read. specialize (P name _ N (ex_intro _ _ (ex_intro _ _ (conj (rstrip_slash_spec url) (conj Q eq_refl))))).
      destruct (f _); [reflexivity|contradiction]. }
    assert (G : p_make_updater data cache lib emb url true boot = pbind (p_populate emb (path_join (cache ++ [s2l "tuf"]) dir) (rstrip_slash url) TRUSTED_ROOT)
       (fun _ => pbind (p_populate emb (path_join (cache ++ [s2l "tuf"]) dir) (rstrip_slash url) SIGNING_CONFIG)
       (fun _ => Return (Ok (mkUpdater (rstrip_slash url) (path_join (cache ++ [s2l "tuf"]) dir) false))))).
    { unfold p_make_updater. cbv zeta. unfold get_dirs. rewrite Q. reflexivity. }
    rewrite G. clear G. unfold p_populate. cbv zeta. cbn [pbind]. constructor. rewrite (F _ (or_introl eq_refl)). cbn [pbind].
    constructor. rewrite (F _ (or_intror eq_refl)). cbn [pbind]. unfold p_get_path. cbn [u_online u_targets pbind]. unfold p_read_bytes. cbn [pbind].
    constructor. destruct (fs_read f _) as [tb|]; cbn [pbind]; [|constructor]. destruct (ptr tb) as [tr|e]; cbn [pbind]; [|constructor].
    constructor. destruct (fs_read f _) as [sb|]; cbn [pbind]; [|constructor]. destruct (psc sb) as [sc|e]; cbn [pbind]; constructor.
  - assert (G : p_make_updater data cache lib emb url true boot = Return (Raise e)).
    { unfold p_make_updater. cbv zeta. unfold get_dirs. rewrite Q. reflexivity. }
    rewrite G. constructor.
Qed.

Lemma alone_run : forall job f, fst (run (offline_process job) f) = fst (offline_alone job f) /\ same_files (snd (offline_alone job f)) (snd (run (offline_process job) f)).
Proof.
  intros [url boot] f. pose proof (C99_alone _ _ ptr psc data cache lib emb url true boot f nil) as H. unfold offline_process, offline_alone. cbn [fst snd].
  destruct (from_tuf _ _ _ _ _ _ _ _ _ _) as [r s]. cbn [fst snd]. destruct H as [A B]. auto.
Qed.

(** Offline processes whose files are all in the cache do not disturb one another: whatever the
    number of processes, their repositories and the order of their steps, no file changes, and every
    process ends as it would alone. *)
Theorem C99_populated_cache : forall jobs schedule f ps' f',
  (forall job name q, In job jobs -> name = TRUSTED_ROOT \/ name = SIGNING_CONFIG -> cache_file cache (fst job) name q -> f q <> None) ->
  exec schedule (map offline_process jobs) f = (ps', f') ->
  same_files f' f /\
  forall i job r, nth_error jobs i = Some job -> nth_error ps' i = Some (Return r) -> r = fst (offline_alone job f).
Proof.
  intros jobs schedule f ps' f' P H.
  assert (L : forall i m, nth_error (map offline_process jobs) i = Some m -> looks f m).
  { intros i m N. apply nth_error_In in N. apply in_map_iff in N. destruct N as (job & <- & I). apply populated_looks. intros name q. apply P. exact I. }
  destruct (exec_looks _ _ _ _ _ _ L H) as (-> & _ & R). split; [intros q; reflexivity|]. intros i job r Nj Nr.
  rewrite <- (proj1 (alone_run job f)). rewrite <- (R i (offline_process job) (Return r)); [reflexivity| |exact Nr]. apply map_nth_error. exact Nj.
Qed.
End Jobs.

(** ** Files that are there *)

(** What is written where a file was at the start satisfies [P]. *)
Inductive safe {A} (P : path -> bytes -> Prop) (old : path -> Prop) : prog A -> Prop :=
| sf_return : forall r, safe P old (Return r)
| sf_exists : forall p k, (forall x, (old (locate p) -> x = true) -> safe P old (k x)) -> safe P old (Exists p k)
| sf_open : forall p k, (old (locate p) -> P (locate p) nil) -> safe P old k -> safe P old (Open p k)
| sf_fill : forall p b k, (old (locate p) -> P (locate p) b) -> safe P old k -> safe P old (Fill p b k)
| sf_read : forall p k, (forall x, safe P old (k x)) -> safe P old (Read p k).

Lemma writes_safe : forall A P old (m : prog A), writes_only P m -> safe P old m.
Proof. intros A P old m H. induction H; constructor; auto. Qed.
Lemma safe_bind : forall A B P old (m : prog A) (g : A -> prog B), safe P old m -> (forall x, safe P old (g x)) -> safe P old (pbind m g).
Proof. intros A B P old m g H G. induction H as [[x|e]|p k H IH|p k O H IH|p b k O H IH|p k H IH]; cbn [pbind]; try constructor; auto. Qed.
Lemma safe_try : forall A P old (m : prog A) cls h, safe P old m -> (forall e, safe P old (h e)) -> safe P old (ptry m cls h).
Proof. intros A P old m cls h H G. induction H as [[x|e]|p k H IH|p k O H IH|p b k O H IH|p k H IH]; cbn [ptry]; try constructor; auto. destruct (cls e); [apply G|constructor]. Qed.

Lemma safe_populate : forall P old emb targets url artifact, safe P old (p_populate emb targets url artifact).
Proof.
  intros. unfold p_populate. cbv zeta. constructor. intros [|] H; [constructor|].
  assert (N : ~ old (locate (path_join targets artifact))) by (intros O; discriminate (H O)).
  apply safe_try; [|intros; constructor]. apply safe_bind; [constructor|]. intros d. constructor; [contradiction|]. constructor; [contradiction|constructor].
Qed.
Lemma safe_from_tuf : forall TR SC (ptr : bytes -> res TR) (psc : bytes -> res SC) data cache lib emb url offline boot P old, library_writes_only lib P ->
  safe P old (p_from_tuf data cache lib emb ptr psc url offline boot).
Proof.
  intros TR SC ptr psc data cache lib emb url offline boot P old (W1 & W2 & W3).
  assert (G : forall u name, safe P old (p_get_path lib u name)).
  { intros u name. unfold p_get_path. destruct (u_online u); [|constructor]. apply safe_bind; [apply writes_safe, W2|]. intros [info|]; [|constructor].
    constructor. intros x. destruct x as [b|]; [destruct (tp_valid lib info b); [constructor|]|]; (apply safe_try; [apply writes_safe, W3|constructor]). }
  assert (Rd : forall p, safe P old (p_read_bytes p)) by (intros p; constructor; intros x; constructor).
  unfold p_from_tuf. apply safe_bind.
  - unfold p_make_updater. cbv zeta. apply safe_bind; [constructor|]. intros dirs. apply safe_bind; [apply safe_populate|]. intros _.
    apply safe_bind; [apply safe_populate|]. intros _. destruct offline; [constructor|]. apply safe_bind; [constructor|]. intros root.
    apply safe_bind; [apply safe_try; [apply writes_safe, W1|constructor]|]. constructor.
  - intros u. apply safe_bind; [apply G|]. intros tp. apply safe_bind; [apply Rd|]. intros tb. apply safe_bind; [constructor|]. intros tr.
    apply safe_bind; [apply G|]. intros sp. apply safe_bind; [apply Rd|]. intros sb. apply safe_bind; [constructor|]. constructor.
Qed.

Lemma exec_safe : forall A P f0 schedule (ps ps' : list (prog A)) f f',
  (forall m, In m ps -> safe P (fun q => f0 q <> None) m) ->
  (forall q b0, f0 q = Some b0 -> exists b, f q = Some b /\ (b = b0 \/ P q b)) ->
  exec schedule ps f = (ps', f') -> forall q b0, f0 q = Some b0 -> exists b, f' q = Some b /\ (b = b0 \/ P q b).
Proof.
  intros A P f0 schedule. induction schedule as [|i schedule IH]; intros ps ps' f f' S I H; cbn [exec] in H; [inversion H; subst; exact I|].
  destruct (nth_error ps i) as [m|] eqn:Ni; [|eapply IH; eassumption].
  assert (St : safe P (fun q => f0 q <> None) (fst (step m f)) /\ forall q b0, f0 q = Some b0 -> exists b, snd (step m f) q = Some b /\ (b = b0 \/ P q b)).
  { assert (W : forall p b, (f0 (locate p) <> None -> P (locate p) b) -> forall q b0, f0 q = Some b0 -> exists b', fs_write f p b q = Some b' /\ (b' = b0 \/ P q b')).
    { intros p b O q b0 E. unfold fs_write. destruct (path_eqb q (locate p)) eqn:Pe; [|apply I; exact E]. apply path_eqb_spec in Pe. subst q. exists b. split; [reflexivity|]. right. apply O. congruence. }
    pose proof (S m (nth_error_In _ _ Ni)) as Sm. destruct Sm as [r|p k K|p k O K|p b k O K|p k K]; cbn [step fst snd].
    - split; [constructor|exact I].
    - split; [|exact I]. apply K. intros O. destruct (f0 (locate p)) as [b0|] eqn:E; [|contradiction]. destruct (I _ _ E) as (b & F & _). unfold fs_read. rewrite F. reflexivity.
    - split; [exact K|apply W; exact O].
    - split; [exact K|apply W; exact O].
    - split; [apply K|exact I]. }
  destruct (step m f) as [m1 f1]. cbn [fst snd] in St. destruct St as [S1 I1]. eapply IH; [|exact I1|exact H].
  intros m2 In2. apply In_nth_error in In2. destruct In2 as [j N]. rewrite nth_replace in N. destruct (Nat.eqb i j); [|eapply S; eapply nth_error_In; exact N].
  rewrite Ni in N. inversion N; subst. exact S1.
Qed.

(** A file that was there when the processes started is never lost, and never replaced by an embedded
    copy: it keeps its content until the TUF library writes another.  The processes may be offline
    or online, of any repositories, and any number. *)
Theorem C99_no_rollback : forall TR SC (ptr : bytes -> res TR) (psc : bytes -> res SC) data cache lib emb P ps schedule f ps' f' q b,
  library_writes_only lib P ->
  (forall m, In m ps -> exists url offline boot, m = p_from_tuf data cache lib emb ptr psc url offline boot) ->
  exec schedule ps f = (ps', f') -> f q = Some b ->
  exists b', f' q = Some b' /\ (b' = b \/ P q b').
Proof.
  intros TR SC ptr psc data cache lib emb P ps schedule f ps' f' q b W M H E. eapply (exec_safe _ P f schedule ps ps' f f'); [| |exact H|exact E].
  - intros m I. destruct (M m I) as (url & offline & boot & ->). apply safe_from_tuf. exact W.
  - intros q0 b0 F. exists b0. auto.
Qed.

(** ** First run *)

(** What may be seen at a location: [E] relates a location to the copies that are written there, [K]
    are the locations known to exist. *)
Definition seen (E : path -> bytes -> Prop) (f0 : fs) (K : path -> Prop) (q : path) (x : option bytes) : Prop :=
  match f0 q with
  | Some b => x = Some b
  | None => (x = None /\ ~ K q) \/ exists e, E q e /\ (x = Some nil \/ x = Some e)
  end.
Definition also (K : path -> Prop) (q : path) : path -> Prop := fun q' => K q' \/ q' = q.

Inductive fits {A} (E : path -> bytes -> Prop) (f0 : fs) (R : (path -> Prop) -> res A -> Prop) : (path -> Prop) -> prog A -> Prop :=
| ft_return : forall (K : path -> Prop) r, R K r -> fits E f0 R K (Return r)
| ft_exists : forall (K : path -> Prop) p k, fits E f0 R (also K (locate p)) (k true) -> (f0 (locate p) = None -> fits E f0 R K (k false)) -> fits E f0 R K (Exists p k)
| ft_open : forall (K : path -> Prop) p b k, f0 (locate p) = None -> E (locate p) b -> fits E f0 R (also K (locate p)) (Fill p b k) -> fits E f0 R K (Open p (Fill p b k))
| ft_fill : forall (K : path -> Prop) p b k, f0 (locate p) = None -> E (locate p) b -> fits E f0 R (also K (locate p)) k -> fits E f0 R K (Fill p b k)
| ft_read : forall (K : path -> Prop) p k, (forall x, seen E f0 K (locate p) x -> fits E f0 R K (k x)) -> fits E f0 R K (Read p k).

Lemma fits_bind : forall A B E f0 (R : (path -> Prop) -> res A -> Prop) (R' : (path -> Prop) -> res B -> Prop) K m g, fits E f0 R K m ->
  (forall K' x, R K' (Ok x) -> fits E f0 R' K' (g x)) -> (forall K' e, R K' (Raise e) -> R' K' (Raise e)) -> fits E f0 R' K (pbind m g).
Proof.
  intros A B E f0 R R' K m g H G X. induction H as [K [x|e] r|K p k H1 IH1 H2 IH2|K p b k Z W H IH|K p b k Z W H IH|K p k H IH]; cbn [pbind].
  - apply G. exact r.
  - constructor. apply X. exact r.
  - constructor; auto.
  - cbn [pbind] in IH. constructor; assumption.
  - constructor; assumption.
  - constructor. exact IH.
Qed.

(** the state of several processes: they fit, what they know holds, and a file that is not complete is
    about to be written *)
Definition together {A} (E : path -> bytes -> Prop) (f0 : fs) (R : nat -> (path -> Prop) -> res A -> Prop) (ps : list (prog A)) (f : fs) : Prop :=
  (forall q, seen E f0 (fun _ => False) q (f q)) /\
  (forall i m, nth_error ps i = Some m -> exists K : path -> Prop, (forall q, K q -> f q <> None) /\ fits E f0 (R i) K m) /\
  (forall q, f0 q = None -> f q = None \/ (exists e, E q e /\ f q = Some e) \/ exists i p b k, nth_error ps i = Some (Fill p b k) /\ locate p = q).

Lemma write_seen : forall E f0 f p b, f0 (locate p) = None -> (exists e, E (locate p) e /\ (b = nil \/ b = e)) ->
  (forall q, seen E f0 (fun _ => False) q (f q)) -> forall q, seen E f0 (fun _ => False) q (fs_write f p b q).
Proof.
  intros E f0 f p b Z (e & W & B) S q. unfold fs_write. destruct (path_eqb q (locate p)) eqn:Pe; [|apply S]. apply path_eqb_spec in Pe. subst q.
  unfold seen. rewrite Z. right. exists e. split; [exact W|]. destruct B as [->| ->]; auto.
Qed.
Lemma write_kept : forall f p b q, f q <> None -> fs_write f p b q <> None.
Proof. intros f p b q H. unfold fs_write. destruct (path_eqb q (locate p)); [discriminate|exact H]. Qed.
Lemma write_there : forall f p b, fs_write f p b (locate p) = Some b.
Proof. intros. unfold fs_write. rewrite path_eqb_refl. reflexivity. Qed.

Lemma seen_known : forall E f0 f (K : path -> Prop) q, (forall q, seen E f0 (fun _ => False) q (f q)) -> (forall q, K q -> f q <> None) -> seen E f0 K q (f q).
Proof.
  intros E f0 f K q S H. specialize (S q). unfold seen in *. destruct (f0 q); [exact S|]. destruct S as [[N _]|S]; [|right; exact S].
  left. split; [exact N|]. intros Kq. exact (H q Kq N).
Qed.

Lemma together_step : forall A E f0 (R : nat -> (path -> Prop) -> res A -> Prop) ps f i m, together E f0 R ps f -> nth_error ps i = Some m ->
  together E f0 R (replace ps i (fst (step m f))) (snd (step m f)).
Proof.
  intros A E f0 R ps f i m (S & F & D) Ni. destruct (F i m Ni) as (K & Kn & Fm).
  assert (Fits : forall (m' : prog A) (f' : fs), (exists K' : path -> Prop, (forall q, K' q -> f' q <> None) /\ fits E f0 (R i) K' m') -> (forall q, f q <> None -> f' q <> None) ->
    forall j m2, nth_error (replace ps i m') j = Some m2 -> exists K' : path -> Prop, (forall q, K' q -> f' q <> None) /\ fits E f0 (R j) K' m2).
  { intros m' f' X Mo j m2 N. rewrite nth_replace in N. destruct (Nat.eqb_spec i j) as [<-|Ne].
    - rewrite Ni in N. inversion N; subst. exact X.
    - destruct (F j m2 N) as (K2 & Kn2 & F2). exists K2. auto. }
  assert (Look : forall m', (forall p b k, m <> Fill p b k) -> forall q, f0 q = None -> f q = None \/ (exists e, E q e /\ f q = Some e) \/
    exists j p b k, nth_error (replace ps i m') j = Some (Fill p b k) /\ locate p = q).
  { intros m' NF q Z. destruct (D q Z) as [N|[C|(j & p & b & k & Nj & L)]]; [auto|auto|]. right. right. exists j, p, b, k. split; [|exact L].
    rewrite nth_replace. destruct (Nat.eqb_spec i j) as [<-|Ne]; [|exact Nj]. exfalso. rewrite Ni in Nj. inversion Nj. eapply NF. eassumption. }
  destruct Fm as [K r Rr|K p k F1 F2|K p b k Z W F1|K p b k Z W F1|K p k F1]; cbn [step fst snd].
  - split; [exact S|]. split; [|apply Look; discriminate]. apply Fits; [|auto]. exists K. split; [exact Kn|]. constructor. exact Rr.
  - split; [exact S|]. split; [|apply Look; discriminate]. apply Fits; [|auto]. unfold fs_read. destruct (f (locate p)) as [b|] eqn:Fp; cbn [present].
    + exists (also K (locate p)). split; [|exact F1]. intros q [Kq| ->]; [auto|congruence].
    + exists K. split; [exact Kn|]. apply F2. specialize (S (locate p)). unfold seen in S. rewrite Fp in S. destruct (f0 (locate p)); [discriminate|reflexivity].
  - split; [apply write_seen; [exact Z| |exact S]; exists b; auto|]. split.
    + apply Fits; [|intros q; apply write_kept]. exists (also K (locate p)). split; [|exact F1]. intros q [Kq| ->]; [apply write_kept; auto|rewrite write_there; discriminate].
    + intros q Zq. destruct (path_eqb q (locate p)) eqn:Pe.
      * apply path_eqb_spec in Pe. right. right. exists i, p, b, k. split; [|auto]. rewrite nth_replace, Nat.eqb_refl, Ni. reflexivity.
      * unfold fs_write. rewrite Pe. apply Look; [discriminate|exact Zq].
  - split; [apply write_seen; [exact Z| |exact S]; exists b; auto|]. split.
    + apply Fits; [|intros q; apply write_kept]. exists (also K (locate p)). split; [|exact F1]. intros q [Kq| ->]; [apply write_kept; auto|rewrite write_there; discriminate].
    + intros q Zq. unfold fs_write. destruct (path_eqb q (locate p)) eqn:Pe.
      * apply path_eqb_spec in Pe. subst q. right. left. exists b. auto.
      * destruct (D q Zq) as [N|[C|(j & p2 & b2 & k2 & Nj & L)]]; [auto|auto|]. right. right. exists j, p2, b2, k2. split; [|exact L].
        rewrite nth_replace. destruct (Nat.eqb_spec i j) as [<-|Ne]; [|exact Nj]. exfalso. rewrite Ni in Nj. inversion Nj; subst. rewrite path_eqb_refl in Pe. discriminate.
  - split; [exact S|]. split; [|apply Look; discriminate]. apply Fits; [|auto]. exists K. split; [exact Kn|]. apply F1. unfold fs_read. apply seen_known; assumption.
Qed.

Lemma exec_together : forall A E f0 (R : nat -> (path -> Prop) -> res A -> Prop) schedule ps f ps' f',
  together E f0 R ps f -> exec schedule ps f = (ps', f') -> together E f0 R ps' f' /\ length ps' = length ps.
Proof.
  intros A E f0 R schedule. induction schedule as [|i schedule IH]; intros ps f ps' f' T H; cbn [exec] in H; [inversion H; subst; auto|].
  destruct (nth_error ps i) as [m|] eqn:Ni; [|eapply IH; eassumption]. pose proof (together_step _ _ _ _ _ _ _ _ T Ni) as T1.
  destruct (step m f) as [m1 f1]. cbn [fst snd] in T1. destruct (IH _ _ _ _ T1 H) as [T2 L]. split; [exact T2|]. rewrite L.
  clear. revert i. induction ps as [|y ps IH]; intros [|i]; cbn; auto.
Qed.

(** one process alone *)
Lemma run_fits : forall A E f0 (R : (path -> Prop) -> res A -> Prop) K m, fits E f0 R K m -> forall f,
  (forall q, seen E f0 (fun _ => False) q (f q)) -> (forall q, K q -> f q <> None) ->
  (forall q, f0 q = None -> f q = None \/ (exists e, E q e /\ f q = Some e) \/ exists p b k, m = Fill p b k /\ locate p = q) ->
  let f' := snd (run m f) in
  (forall q, seen E f0 (fun _ => False) q (f' q)) /\ (forall q, f q <> None -> f' q <> None) /\
  (forall q, f0 q = None -> f' q = None \/ exists e, E q e /\ f' q = Some e) /\
  exists K' : path -> Prop, (forall q, K' q -> f' q <> None) /\ R K' (fst (run m f)).
Proof.
  intros A E f0 R K m H. induction H as [K r Rr|K p k F1 IH1 F2 IH2|K p b k Z W F1 IH|K p b k Z W F1 IH|K p k F1 IH]; intros f S Kn D; cbn [run]; cbv zeta.
  - cbn [fst snd]. split; [exact S|]. split; [auto|]. split; [|exists K; auto]. intros q Zq. destruct (D q Zq) as [N|[C|(p & b & k & X & _)]]; [auto|auto|discriminate].
  - assert (D' : forall m' : prog A, forall q, f0 q = None -> f q = None \/ (exists e, E q e /\ f q = Some e) \/ exists p b k, m' = Fill p b k /\ locate p = q).
    { intros m' q Zq. destruct (D q Zq) as [N|[C|(p' & b & k' & X & _)]]; [auto|auto|discriminate]. }
    unfold fs_read. destruct (f (locate p)) as [b|] eqn:Fp; cbn [present].
    + apply IH1; [exact S| |apply D']. intros q [Kq| ->]; [auto|congruence].
    + apply IH2; [|exact S|exact Kn|apply D']. specialize (S (locate p)). unfold seen in S. rewrite Fp in S. destruct (f0 (locate p)); [discriminate|reflexivity].
  - cbn [run] in IH. destruct (IH (fs_write f p nil)) as (S' & M & D1 & X).
    + apply write_seen; [exact Z| |exact S]; exists b; auto.
    + intros q [Kq| ->]; [apply write_kept; auto|rewrite write_there; discriminate].
    + intros q Zq. destruct (path_eqb q (locate p)) eqn:Pe.
      * apply path_eqb_spec in Pe. right. right. exists p, b, k. auto.
      * unfold fs_write. rewrite Pe. destruct (D q Zq) as [N|[C|(p' & b' & k' & Y & _)]]; [auto|auto|discriminate].
    + split; [exact S'|]. split; [|split; [exact D1|exact X]]. intros q Fq. apply M. apply write_kept. exact Fq.
  - destruct (IH (fs_write f p b)) as (S' & M & D1 & X).
    + apply write_seen; [exact Z| |exact S]; exists b; auto.
    + intros q [Kq| ->]; [apply write_kept; auto|rewrite write_there; discriminate].
    + intros q Zq. unfold fs_write. destruct (path_eqb q (locate p)) eqn:Pe.
      * apply path_eqb_spec in Pe. subst q. right. left. exists b. auto.
      * destruct (D q Zq) as [N|[C|(p' & b' & k' & Y & L)]]; [auto|auto|]. exfalso. inversion Y; subst. rewrite path_eqb_refl in Pe. discriminate.
    + split; [exact S'|]. split; [|split; [exact D1|exact X]]. intros q Fq. apply M. apply write_kept. exact Fq.
  - apply IH; [unfold fs_read; apply seen_known; assumption|exact S|exact Kn|]. intros q Zq. destruct (D q Zq) as [N|[C|(p' & b & k' & X & _)]]; [auto|auto|discriminate].
Qed.

Section FirstRun.
Variables (data cache : path) (lib : TufProgs) (emb : str -> str -> option bytes).
Context {TR SC : Type} (ptr : bytes -> res TR) (psc : bytes -> res SC).
Let file (dir name : str) : path := path_join (path_join (cache ++ [s2l "tuf"]) dir) name.

(** the embedded copies for the URLs of these processes *)
Definition copies (jobs : list (str * option (res bytes))) (q : path) (e : bytes) : Prop :=
  exists job name dir, In job jobs /\ (name = TRUSTED_ROOT \/ name = SIGNING_CONFIG) /\ quote (rstrip_slash (fst job)) = Ok dir /\
    q = locate (file dir name) /\ emb dir name = Some e.

Lemma name_ordinary : forall name, name = TRUSTED_ROOT \/ name = SIGNING_CONFIG -> ordinary name.
Proof. intros name [->| ->]; repeat split; discriminate. Qed.

Lemma copies_own : forall jobs job dir name e, (forall job u, In job jobs -> strips_to (fst job) u -> ordinary u) -> In job jobs ->
  quote (rstrip_slash (fst job)) = Ok dir -> (name = TRUSTED_ROOT \/ name = SIGNING_CONFIG) -> copies jobs (locate (file dir name)) e -> emb dir name = Some e.
Proof.
  intros jobs job dir name e O I Q N (job2 & name2 & dir2 & I2 & N2 & Q2 & L & X).
  pose proof (O _ _ I (rstrip_slash_spec _)) as O1. pose proof (O _ _ I2 (rstrip_slash_spec _)) as O2.
  pose proof (quote_ordinary _ _ Q O1) as D1. pose proof (quote_ordinary _ _ Q2 O2) as D2. unfold file in L.
  rewrite (proj2 (join_ordinary _ _ (name_ordinary _ N))), (proj2 (join_ordinary _ _ (name_ordinary _ N2))) in L. apply app_inj_tail in L. destruct L as [L <-].
  rewrite (proj2 (join_ordinary _ _ D1)), (proj2 (join_ordinary _ _ D2)) in L. apply app_inj_tail in L. destruct L as [_ <-]. exact X.
Qed.

(** how a process ends, and what is then known to exist *)
Definition ends (f0 : fs) (job : str * option (res bytes)) (K : path -> Prop) (r : res (TR * SC)) : Prop :=
  match quote (rstrip_slash (fst job)) with
  | Raise e => r = Raise e
  | Ok dir =>
    (forall name, name = TRUSTED_ROOT \/ name = SIGNING_CONFIG -> K (locate (file dir name)) \/ emb dir name = None) /\
    exists x y, may_see emb cache f0 (fst job) TRUSTED_ROOT x /\ may_see emb cache f0 (fst job) SIGNING_CONFIG y /\
      r = (let* b := x in let* tr := ptr b in let* c := y in let* sc := psc c in Ok (tr, sc))
  end.

Lemma may_see_ok : forall f0 url name dir, quote (rstrip_slash url) = Ok dir ->
  exists c, may_see emb cache f0 url name c.
Proof.
  intros f0 url name dir Q. destruct (f0 (locate (file dir name))) as [b|] eqn:F.
  - exists (Ok b). exists (rstrip_slash url), dir. split; [apply rstrip_slash_spec|]. split; [exact Q|]. unfold file in F. rewrite F. reflexivity.
  - destruct (emb dir name) as [e|] eqn:Em.
    + exists (Ok e). exists (rstrip_slash url), dir. split; [apply rstrip_slash_spec|]. split; [exact Q|]. unfold file in F. rewrite F, Em. auto.
    + exists (Raise EFileNotFound). exists (rstrip_slash url), dir. split; [apply rstrip_slash_spec|]. split; [exact Q|]. unfold file in F. rewrite F, Em. reflexivity.
Qed.

Lemma fits_populate : forall jobs f0 job dir name (K : path -> Prop), In job jobs -> (name = TRUSTED_ROOT \/ name = SIGNING_CONFIG) -> quote (rstrip_slash (fst job)) = Ok dir ->
  fits (copies jobs) f0 (fun K' r => r = Ok tt /\ (forall q, K q -> K' q) /\ (K' (locate (file dir name)) \/ emb dir name = None)) K
    (p_populate emb (path_join (cache ++ [s2l "tuf"]) dir) (rstrip_slash (fst job)) name).
Proof.
  intros jobs f0 job dir name K I N Q. unfold p_populate. cbv zeta. fold (file dir name). constructor.
  - constructor. split; [reflexivity|]. split; [left; assumption|]. left. right. reflexivity.
  - intros Z. unfold read_embedded. rewrite Q. cbn [bind]. destruct (emb dir name) as [e|] eqn:Em.
    + cbn [pbind ptry]. assert (C : copies jobs (locate (file dir name)) e) by (exists job, name, dir; auto).
      constructor; [exact Z|exact C|]. constructor; [exact Z|exact C|]. constructor. split; [reflexivity|]. split; [intros q Kq; left; left; exact Kq|]. left. right. reflexivity.
    + cbn [pbind ptry]. change (exn_eqb EFileNotFound EFileNotFound) with true. cbv iota. constructor. auto.
Qed.

Lemma seen_may : forall jobs f0 job dir name (K : path -> Prop) x, (forall job u, In job jobs -> strips_to (fst job) u -> ordinary u) -> In job jobs ->
  quote (rstrip_slash (fst job)) = Ok dir -> (name = TRUSTED_ROOT \/ name = SIGNING_CONFIG) -> (K (locate (file dir name)) \/ emb dir name = None) ->
  seen (copies jobs) f0 K (locate (file dir name)) x -> may_see emb cache f0 (fst job) name (match x with Some b => Ok b | None => Raise EFileNotFound end).
Proof.
  intros jobs f0 job dir name K x O I Q N Kn S. exists (rstrip_slash (fst job)), dir. split; [apply rstrip_slash_spec|]. split; [exact Q|].
  unfold seen in S. fold (file dir name). destruct (f0 (locate (file dir name))) as [b|]; [subst x; reflexivity|]. destruct S as [[-> NK]|(e & C & X)].
  - destruct Kn as [Kn| ->]; [contradiction|reflexivity].
  - rewrite (copies_own _ _ _ _ _ O I Q N C). destruct X as [->| ->]; auto.
Qed.

Lemma fits_offline : forall jobs f0 job, (forall job u, In job jobs -> strips_to (fst job) u -> ordinary u) -> In job jobs ->
  fits (copies jobs) f0 (ends f0 job) (fun _ => False) (offline_process data cache lib emb ptr psc job).
Proof.
  intros jobs f0 job O I. unfold offline_process, p_from_tuf. destruct (quote (rstrip_slash (fst job))) as [dir|e] eqn:Q.
  - assert (G : p_make_updater data cache lib emb (fst job) true (snd job) = pbind (p_populate emb (path_join (cache ++ [s2l "tuf"]) dir) (rstrip_slash (fst job)) TRUSTED_ROOT)
       (fun _ => pbind (p_populate emb (path_join (cache ++ [s2l "tuf"]) dir) (rstrip_slash (fst job)) SIGNING_CONFIG)
       (fun _ => Return (Ok (mkUpdater (rstrip_slash (fst job)) (path_join (cache ++ [s2l "tuf"]) dir) false))))).
    { unfold p_make_updater. cbv zeta. unfold get_dirs. rewrite Q. reflexivity. }
    rewrite G. clear G.
    apply (fits_bind _ _ _ _ (fun K' r => r = Ok (mkUpdater (rstrip_slash (fst job)) (path_join (cache ++ [s2l "tuf"]) dir) false) /\
      forall name, name = TRUSTED_ROOT \/ name = SIGNING_CONFIG -> K' (locate (file dir name)) \/ emb dir name = None)).
    + eapply fits_bind; [apply fits_populate; [exact I|left; reflexivity|exact Q]| |intros K' e (X & _); discriminate].
      intros K1 [] (_ & _ & K1T). eapply fits_bind; [apply fits_populate; [exact I|right; reflexivity|exact Q]| |intros K' e (X & _); discriminate].
      intros K2 [] (_ & Mo & K2S). constructor. split; [reflexivity|]. intros name [->| ->]; [|exact K2S]. destruct K1T as [K1T|X]; auto.
    + intros K u (X & Kn). inversion X; subst u; clear X. unfold p_get_path. cbn [u_online u_targets pbind]. unfold p_read_bytes. cbn [pbind].
      fold (file dir TRUSTED_ROOT). constructor. intros x Sx. pose proof (seen_may _ _ _ _ _ _ _ O I Q (or_introl eq_refl) (Kn _ (or_introl eq_refl)) Sx) as Mx.
      assert (Early : forall r, (forall y, r = (let* b := match x with Some b => Ok b | None => Raise EFileNotFound end in let* tr := ptr b in let* c := y in let* sc := psc c in Ok (tr, sc))) -> ends f0 job K r).
      { intros r Hr. unfold ends. rewrite Q. split; [exact Kn|]. destruct (may_see_ok f0 (fst job) SIGNING_CONFIG dir Q) as [y My].
        exists (match x with Some b => Ok b | None => Raise EFileNotFound end), y. auto. }
      destruct x as [tb|]; cbn [pbind]; [|constructor; apply Early; intros y; reflexivity].
      destruct (ptr tb) as [tr|e] eqn:Tb; cbn [pbind]; [|constructor; apply Early; intros y; cbn [bind]; rewrite Tb; reflexivity].
      fold (file dir SIGNING_CONFIG). constructor. intros y Sy. pose proof (seen_may _ _ _ _ _ _ _ O I Q (or_intror eq_refl) (Kn _ (or_intror eq_refl)) Sy) as My.
      assert (Late : forall r, r = (let* c := match y with Some b => Ok b | None => Raise EFileNotFound end in let* sc := psc c in Ok (tr, sc)) -> ends f0 job K r).
      { intros r ->. unfold ends. rewrite Q. split; [exact Kn|]. do 2 eexists. split; [exact Mx|]. split; [exact My|]. cbn [bind]. rewrite Tb. reflexivity. }
      destruct y as [sb|]; cbn [pbind]; [|constructor; apply Late; reflexivity]. destruct (psc sb) as [sc|e] eqn:Sb; cbn [pbind]; constructor; apply Late; cbn [bind]; rewrite Sb; reflexivity.
    + intros K' e (X & _). discriminate.
  - assert (G : p_make_updater data cache lib emb (fst job) true (snd job) = Return (Raise e)).
    { unfold p_make_updater. cbv zeta. unfold get_dirs. rewrite Q. reflexivity. }
    rewrite G. constructor. unfold ends. rewrite Q. reflexivity.
Qed.

Lemma start_together : forall jobs f, (forall job u, In job jobs -> strips_to (fst job) u -> ordinary u) ->
  together (copies jobs) f (fun i => match nth_error jobs i with Some job => ends f job | None => fun _ _ => True end)
    (map (offline_process data cache lib emb ptr psc) jobs) f.
Proof.
  intros jobs f O. split; [|split].
  - intros q. unfold seen. destruct (f q); [reflexivity|]. left. split; [reflexivity|]. intros [].
  - intros i m N. rewrite nth_error_map in N. destruct (nth_error jobs i) as [job|] eqn:Nj; [|discriminate]. cbn in N. inversion N; subst.
    exists (fun _ => False). split; [contradiction|]. apply fits_offline; [exact O|]. eapply nth_error_In. exact Nj.
  - intros q Z. left. exact Z.
Qed.

Lemma quote_raises : forall u e, quote u = Raise e -> e = EUnicodeEncode.
Proof. intros u e H. unfold quote in H. destruct (utf8_encode u); congruence. Qed.

(** The first run, or any other: offline processes of ordinary repositories, some of whose files are
    not in the cache yet.  Each process ends with what the cache held or, for a missing file, with
    the embedded copy — or as if that file were empty. *)
Theorem C99_first_run : forall jobs schedule f ps' f' i job r,
  (forall job u, In job jobs -> strips_to (fst job) u -> ordinary u) ->
  exec schedule (map (offline_process data cache lib emb ptr psc) jobs) f = (ps', f') ->
  nth_error jobs i = Some job -> nth_error ps' i = Some (Return r) ->
  (r = Raise EUnicodeEncode /\ forall u dir, strips_to (fst job) u -> quote u <> Ok dir) \/
  exists x y, may_see emb cache f (fst job) TRUSTED_ROOT x /\ may_see emb cache f (fst job) SIGNING_CONFIG y /\
    r = (let* b := x in let* tr := ptr b in let* c := y in let* sc := psc c in Ok (tr, sc)).
Proof.
  intros jobs schedule f ps' f' i job r O H Nj Nr. destruct (exec_together _ _ _ _ _ _ _ _ _ (start_together jobs f O) H) as ((_ & F & _) & _).
  destruct (F i _ Nr) as (K & _ & X). inversion X as [? ? Rr| | | |]; subst. rewrite Nj in Rr. unfold ends in Rr.
  destruct (quote (rstrip_slash (fst job))) as [dir|e] eqn:Q.
  - right. destruct Rr as (_ & Rr). exact Rr.
  - left. subst r. split; [f_equal; eapply quote_raises; exact Q|]. intros u dir St Qu. apply rstrip_slash_iff in St. subst u. congruence.
Qed.

(** The files after the same processes one after the other. *)
Fixpoint one_by_one (jobs : list (str * option (res bytes))) (f : fs) : fs :=
  match jobs with nil => f | job :: rest => one_by_one rest (snd (offline_alone data cache lib emb ptr psc job f)) end.

Definition complete (jobs done : list (str * option (res bytes))) (f0 f : fs) : Prop :=
  (forall q, seen (copies jobs) f0 (fun _ => False) q (f q)) /\
  (forall q, f0 q = None -> f q = None \/ exists e, copies jobs q e /\ f q = Some e) /\
  (forall job dir name, In job done -> quote (rstrip_slash (fst job)) = Ok dir -> (name = TRUSTED_ROOT \/ name = SIGNING_CONFIG) -> emb dir name <> None -> f (locate (file dir name)) <> None).

Lemma complete_same : forall jobs done f0 f g, same_files f g -> complete jobs done f0 f -> complete jobs done f0 g.
Proof.
  intros jobs done f0 f g S (A & B & C). split; [|split].
  - intros q. rewrite <- S. apply A.
  - intros q. rewrite <- S. apply B.
  - intros job dir name. rewrite <- S. apply C.
Qed.

Lemma complete_unique : forall jobs f0 f g, (forall job u, In job jobs -> strips_to (fst job) u -> ordinary u) -> complete jobs jobs f0 f -> complete jobs jobs f0 g -> same_files f g.
Proof.
  intros jobs f0 f g O (A & B & C) (A' & B' & C') q. specialize (A q). specialize (A' q). unfold seen in A, A'.
  destruct (f0 q) as [b|] eqn:F0; [congruence|]. clear A A'.
  assert (X : forall h h' : fs, (h q = None \/ exists e, copies jobs q e /\ h q = Some e) ->
     (forall job dir name, In job jobs -> quote (rstrip_slash (fst job)) = Ok dir -> (name = TRUSTED_ROOT \/ name = SIGNING_CONFIG) -> emb dir name <> None -> h' (locate (file dir name)) <> None) ->
     (h' q = None \/ exists e, copies jobs q e /\ h' q = Some e) -> forall e, h q = Some e -> h' q = Some e).
  { intros h h' [N|(e & Ce & He)] Ch [N'|(e' & Ce' & He')] e0 H0; try congruence.
    - exfalso. destruct Ce as (job & name & dir & I & Nm & Q & L & Em). apply (Ch job dir name I Q Nm); [congruence|]. rewrite <- L. exact N'.
    - assert (e = e'); [|congruence]. destruct Ce as (job & name & dir & I & Nm & Q & L & Em). subst q. pose proof (copies_own _ _ _ _ _ O I Q Nm Ce'). congruence. }
  destruct (f q) as [e|] eqn:Fq; [symmetry; apply (X f g); auto|]. destruct (g q) as [e|] eqn:Gq; [|reflexivity]. rewrite <- Fq. apply (X g f); auto.
Qed.

Lemma one_by_one_complete : forall jobs todo done f0 f, (forall job u, In job jobs -> strips_to (fst job) u -> ordinary u) -> (forall job, In job todo -> In job jobs) ->
  complete jobs done f0 f -> complete jobs (todo ++ done) f0 (one_by_one todo f).
Proof.
  intros jobs todo. induction todo as [|job todo IH]; intros done f0 f O Sub C; cbn [one_by_one app]; [exact C|].
  assert (C1 : complete jobs (job :: done) f0 (snd (offline_alone data cache lib emb ptr psc job f))).
  { apply (complete_same _ _ _ (snd (run (offline_process data cache lib emb ptr psc job) f))).
    - intros q. symmetry. apply (proj2 (alone_run data cache lib emb ptr psc job f)).
    - destruct C as (A & B & D). destruct (run_fits _ _ _ _ _ _ (fits_offline jobs f0 job O (Sub _ (or_introl eq_refl))) f A) as (A1 & M & B1 & K & Kn & Rr).
      + intros q [].
      + intros q Z. destruct (B q Z); auto.
      + split; [exact A1|]. split; [exact B1|]. intros job' dir name [<-|I] Q N Em.
        * unfold ends in Rr. rewrite Q in Rr. destruct Rr as (Kk & _). destruct (Kk name N) as [X|X]; [apply Kn; exact X|contradiction].
        * apply M. eapply D; eassumption. }
  specialize (IH (job :: done) f0 _ O (fun j I => Sub j (or_intror I)) C1).
  destruct IH as (A & B & D). split; [exact A|]. split; [exact B|]. intros j dir name I. apply D. rewrite in_app_iff. cbn [In] in *. rewrite in_app_iff in I. tauto.
Qed.

(** When all are done, the files are those that the same processes leave one after the other. *)
Theorem C99_settled : forall jobs schedule f ps' f',
  (forall job u, In job jobs -> strips_to (fst job) u -> ordinary u) ->
  exec schedule (map (offline_process data cache lib emb ptr psc) jobs) f = (ps', f') -> finished ps' ->
  same_files f' (one_by_one jobs f).
Proof.
  intros jobs schedule f ps' f' O H Fin. destruct (exec_together _ _ _ _ _ _ _ _ _ (start_together jobs f O) H) as ((S & F & D) & Len).
  rewrite map_length in Len. apply (complete_unique jobs f); [exact O| |].
  - split; [exact S|]. split.
    + intros q Z. destruct (D q Z) as [N|[C|(i & p & b & k & Ni & _)]]; [auto|auto|]. exfalso. destruct (Fin _ (nth_error_In _ _ Ni)) as [r X]. discriminate.
    + intros job dir name I Q N Em. apply In_nth_error in I. destruct I as [i Ni].
      destruct (nth_error ps' i) as [m|] eqn:Nm.
      * destruct (Fin _ (nth_error_In _ _ Nm)) as [r ->]. destruct (F i _ Nm) as (K & Kn & X). inversion X as [? ? Rr| | | |]; subst. rewrite Ni in Rr. unfold ends in Rr.
        rewrite Q in Rr. destruct Rr as (Kk & _). destruct (Kk name N) as [Y|Y]; [apply Kn; exact Y|contradiction].
      * exfalso. apply nth_error_None in Nm. assert (i < length jobs) by (apply nth_error_Some; congruence). lia.
  - rewrite <- (app_nil_r jobs) at 2. apply one_by_one_complete; [exact O|auto|]. split; [|split].
    + intros q. unfold seen. destruct (f q); [reflexivity|]. left. split; [reflexivity|]. intros [].
    + intros q Z. left. exact Z.
    + intros job dir name [].
Qed.
End FirstRun.

(** ** What may go wrong *)

Lemma write_other : forall f p b q, q <> locate p -> fs_write f p b q = f q.
Proof. intros f p b q N. unfold fs_write. destruct (path_eqb q (locate p)) eqn:E; [apply path_eqb_spec in E; contradiction|reflexivity]. Qed.

(** Two processes that start on an empty cache may disturb one another, for every repository whose
    files are embedded: alone each would succeed, but one may read the trusted root while the other
    has opened it and not written it yet. *)
Theorem C99_first_run_race_refuted : forall TR SC (ptr : bytes -> res TR) (psc : bytes -> res SC) data cache lib emb url boot dir t c tr sc e f,
  quote (rstrip_slash url) = Ok dir -> emb dir TRUSTED_ROOT = Some t -> emb dir SIGNING_CONFIG = Some c ->
  ptr t = Ok tr -> psc c = Ok sc -> ptr nil = Raise e ->
  (forall name q, name = TRUSTED_ROOT \/ name = SIGNING_CONFIG -> cache_file cache url name q -> f q = None) ->
  fst (offline_alone data cache lib emb ptr psc (url, boot) f) = Ok (tr, sc) /\
  exists schedule ps' f', exec schedule (map (offline_process data cache lib emb ptr psc) [(url, boot); (url, boot)]) f = (ps', f') /\
    nth_error ps' 1 = Some (Return (Raise e)).
Proof.
  intros TR SC ptr psc data cache lib emb url boot dir t c tr sc e f Q ET EC PT PC PN Z.
  assert (Z' : forall name, name = TRUSTED_ROOT \/ name = SIGNING_CONFIG -> f (locate (path_join (path_join (cache ++ [s2l "tuf"]) dir) name)) = None).
  { intros name N. apply (Z name _ N). exists (rstrip_slash url), dir. split; [apply rstrip_slash_spec|]. auto. }
  pose proof (Z' _ (or_introl eq_refl)) as ZT. pose proof (Z' _ (or_intror eq_refl)) as ZS. pose proof (artifacts_differ (path_join (cache ++ [s2l "tuf"]) dir)) as D.
  assert (G : offline_process data cache lib emb ptr psc (url, boot) =
    pbind (pbind (p_populate emb (path_join (cache ++ [s2l "tuf"]) dir) (rstrip_slash url) TRUSTED_ROOT)
       (fun _ => pbind (p_populate emb (path_join (cache ++ [s2l "tuf"]) dir) (rstrip_slash url) SIGNING_CONFIG)
       (fun _ => Return (Ok (mkUpdater (rstrip_slash url) (path_join (cache ++ [s2l "tuf"]) dir) false)))))
    (fun u => pbind (p_get_path lib u TRUSTED_ROOT) (fun tp => pbind (p_read_bytes tp) (fun tb => pbind (Return (ptr tb)) (fun tr =>
     pbind (p_get_path lib u SIGNING_CONFIG) (fun sp => pbind (p_read_bytes sp) (fun sb => pbind (Return (psc sb)) (fun sc => Return (Ok (tr, sc)))))))))).
  { unfold offline_process, p_from_tuf, p_make_updater. cbv zeta. cbn [fst snd]. unfold get_dirs. rewrite Q. reflexivity. }
  assert (Pop : forall artifact b, emb dir artifact = Some b -> p_populate emb (path_join (cache ++ [s2l "tuf"]) dir) (rstrip_slash url) artifact =
    Exists (path_join (path_join (cache ++ [s2l "tuf"]) dir) artifact) (fun x => if x then Return (Ok tt) else
       Open (path_join (path_join (cache ++ [s2l "tuf"]) dir) artifact) (Fill (path_join (path_join (cache ++ [s2l "tuf"]) dir) artifact) b (Return (Ok tt))))).
  { intros artifact b Em. unfold p_populate, read_embedded. rewrite Q. cbn [bind]. rewrite Em. reflexivity. }
  rewrite (Pop _ _ ET), (Pop _ _ EC) in G. unfold p_get_path in G. cbn [u_online u_targets] in G.
  set (T := path_join (path_join (cache ++ [s2l "tuf"]) dir) TRUSTED_ROOT) in *. set (S := path_join (path_join (cache ++ [s2l "tuf"]) dir) SIGNING_CONFIG) in *.
  split.
  - rewrite <- (proj1 (alone_run data cache lib emb ptr psc (url, boot) f)). rewrite G. rewrite !run_pbind. cbn [run]. unfold fs_read. rewrite ZT. cbn [present run].
    rewrite !run_pbind. cbn [run]. unfold fs_read. rewrite !write_other by congruence. rewrite ZS. cbn [present run u_online u_targets]. rewrite !run_pbind. cbn [run].
    fold T. rewrite !run_pbind. unfold p_read_bytes. cbn [run]. unfold fs_read. rewrite !(write_other _ S) by assumption. rewrite write_there. rewrite PT. cbn [pbind].
    fold S. cbn [run pbind]. unfold fs_read. rewrite write_there. cbn [pbind]. rewrite PC. reflexivity.
  - exists [0; 0; 1; 1; 1; 1; 1]. do 2 eexists. split; [|].
    + cbn [map]. rewrite G. cbn [exec nth_error]. cbn [pbind step replace]. unfold fs_read at 1. rewrite ZT. cbn [present]. cbn [exec nth_error pbind step replace].
      unfold fs_read at 1. rewrite write_there. cbn [present]. cbn [exec nth_error pbind step replace]. unfold fs_read at 1. rewrite write_other by congruence. rewrite ZS. cbn [present].
      cbn [exec nth_error pbind step replace u_online u_targets]. unfold p_read_bytes. cbn [pbind step replace]. fold T. unfold fs_read at 1. rewrite !(write_other _ S) by assumption. rewrite write_there. cbn [pbind]. rewrite PN. cbn [pbind]. reflexivity.
    + reflexivity.
Qed.

(** ** Concrete processes *)

Definition shx_emb (dir name : str) : option bytes :=
  if str_eqb dir (s2l "https%3A%2F%2Fexample.org%2Fr") then
    if str_eqb name TRUSTED_ROOT then Some (s2b "old") else if str_eqb name SIGNING_CONFIG then Some (s2b "sc") else None
  else None.
(** a repository that serves newer files *)
Definition shx_lib : TufProgs :=
  mkTufProgs str (fun _ _ _ _ => Return (Ok tt)) (fun _ name => Return (Ok (Some name)))
    (fun _ name => [s2l "cache"; s2l "tuf"; s2l "https%3A%2F%2Fexample.org%2Fr"; name])
    (fun _ b => bytes_eqb b (s2b "new"))
    (fun _ name => let p := [s2l "cache"; s2l "tuf"; s2l "https%3A%2F%2Fexample.org%2Fr"; name] in Open p (Fill p (s2b "new") (Return (Ok p)))).
Definition shx_parse (b : bytes) : res bytes := match b with nil => Raise EValue | _ => Ok b end.
Definition shx_url : str := s2l "https://example.org/r//".
Definition shx (offline : bool) : prog (bytes * bytes) := p_from_tuf [s2l "data"] [s2l "cache"] shx_lib shx_emb shx_parse shx_parse shx_url offline None.
Definition shx_result (schedule : list nat) (ps : list (prog (bytes * bytes))) (f : fs) :=
  let (ps', f') := exec schedule ps f in
  (map (fun m => match m with Return r => Some r | _ => None end) ps', (f' (tx_file "trusted_root.json"), f' (tx_file "signing_config.v0.2.json"))).

(** A newer file may be lost when it was not there at the start: the offline process finds no file;
    the online process downloads the newer ones, and ends with them; then the offline process
    overwrites one with the embedded copy.  One after the other, in either order, the newer file stays. *)
Theorem C99_rollback_refuted :
  shx_result (0 :: repeat 1 40 ++ repeat 0 40) [shx true; shx false] (tx_fs nil) =
    ([Some (Ok (s2b "old", s2b "new")); Some (Ok (s2b "new", s2b "new"))], (Some (s2b "old"), Some (s2b "new"))) /\
  shx_result (repeat 0 40 ++ repeat 1 40) [shx true; shx false] (tx_fs nil) =
    ([Some (Ok (s2b "old", s2b "sc")); Some (Ok (s2b "new", s2b "new"))], (Some (s2b "new"), Some (s2b "new"))) /\
  shx_result (repeat 1 40 ++ repeat 0 40) [shx true; shx false] (tx_fs nil) =
    ([Some (Ok (s2b "new", s2b "new")); Some (Ok (s2b "new", s2b "new"))], (Some (s2b "new"), Some (s2b "new"))).
Proof. repeat split; vm_compute; reflexivity. Qed.

(** The library of the example writes the newer content (and empties files before). *)
Example ex_shared_library : library_writes_only shx_lib (fun _ b => b = nil \/ b = s2b "new").
Proof. split; [|split]; intros; cbn; [constructor|constructor|]. apply wo_open; [auto|]. apply wo_fill; [auto|constructor]. Qed.
(** With the file there at the start, no order loses the newer one; here the schedule from above. *)
Example ex_shared_kept : shx_result (0 :: repeat 1 40 ++ repeat 0 40) [shx true; shx false] (tx_fs [(tx_file "trusted_root.json", s2b "mid")]) =
  ([Some (Ok (s2b "new", s2b "new")); Some (Ok (s2b "new", s2b "new"))], (Some (s2b "new"), Some (s2b "new"))).
Proof. vm_compute. reflexivity. Qed.

(** Three offline processes whose files are there, in a mixed order. *)
Example ex_shared_populated :
  shx_result [0; 2; 1; 0; 2; 1; 1; 0; 2; 2; 0; 1] [shx true; shx true; shx true] (tx_fs [(tx_file "trusted_root.json", s2b "mid"); (tx_file "signing_config.v0.2.json", s2b "mid2")]) =
  ([Some (Ok (s2b "mid", s2b "mid2")); Some (Ok (s2b "mid", s2b "mid2")); Some (Ok (s2b "mid", s2b "mid2"))], (Some (s2b "mid"), Some (s2b "mid2"))).
Proof. vm_compute. reflexivity. Qed.
Example ex_shared_populated_hyp : forall job name q, In job [(shx_url, @None (res bytes))] -> name = TRUSTED_ROOT \/ name = SIGNING_CONFIG ->
  cache_file [s2l "cache"] (fst job) name q -> tx_fs [(tx_file "trusted_root.json", s2b "mid"); (tx_file "signing_config.v0.2.json", s2b "mid2")] q <> None.
Proof.
  intros job name q [<-|[]] N (u & dir & S & Q & ->). cbn [fst] in S. apply rstrip_slash_iff in S. subst u. vm_compute in Q. injection Q as <-.
  destruct N as [->| ->]; vm_compute; discriminate.
Qed.

(** The race, and what the files are once all have ended. *)
Example ex_shared_race : shx_result ([0; 0; 1; 1; 1; 1; 1] ++ repeat 0 40) [shx true; shx true] (tx_fs nil) =
  ([Some (Ok (s2b "old", s2b "sc")); Some (Raise EValue)], (Some (s2b "old"), Some (s2b "sc"))).
Proof. vm_compute. reflexivity. Qed.
Example ex_shared_ordinary : forall (job : str * option (res bytes)) u, In job [(shx_url, None); (shx_url, None)] -> strips_to (fst job) u -> ordinary u.
Proof.
  intros job u I S. apply rstrip_slash_iff in S. subst u. destruct I as [<-|[<-|[]]]; repeat split; vm_compute; discriminate.
Qed.

Print Assumptions C99_alone.
Print Assumptions C99_populated_cache.
Print Assumptions C99_no_rollback.
Print Assumptions C99_first_run.
Print Assumptions C99_settled.
Print Assumptions C99_first_run_race_refuted.
Print Assumptions C99_rollback_refuted.
