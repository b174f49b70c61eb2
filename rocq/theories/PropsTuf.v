(** Properties C53, C54, C55: trust material from TUF repositories. *)
From Verif Require Import Base Messages Codec Tuf.

(** ** Specification *)

(** the directory name of a repository: its URL without trailing slashes, percent-encoded *)
Definition strips_to (url u : str) : Prop := exists n, url = u ++ repeat 47%N n /\ forall v, u <> v ++ [47%N].
(** percent-encoding (RFC 3986): the unreserved characters stand for themselves, every other byte of the UTF-8 form is written
    as [%] and two hexadecimal digits *)
Definition unreserved (c : N) : Prop := In c (s2l "ABCDEFGHIJKLMNOPQRSTUVWXYZabcdefghijklmnopqrstuvwxyz0123456789-._~").
Definition percent_digit (v : nat) (c : N) : Prop := nth_error (s2l "0123456789ABCDEF") v = Some c.
Definition percent_byte (x : byte) (s : str) : Prop :=
  (unreserved (b2n x) /\ s = [b2n x]) \/
  (~ unreserved (b2n x) /\ exists hi lo c d, N.to_nat (b2n x) = 16 * hi + lo /\ lo < 16 /\ percent_digit hi c /\ percent_digit lo d /\ s = [37%N; c; d]).
Definition percent_encoded (u dir : str) : Prop := exists b parts, utf8_encode u = Some b /\ Forall2 percent_byte b parts /\ dir = concat parts.
Definition ordinary (u : str) : Prop := u <> nil /\ u <> s2l "." /\ u <> s2l "..".

(** The file [name] an offline client uses: what is in the cache directory of the repository,
    otherwise what is embedded for it. *)
Definition available (cache_dir : path) (embedded : str -> str -> option bytes) (f : fs) (url name : str) (b : bytes) : Prop :=
  exists u dir, strips_to url u /\ percent_encoded u dir /\
    let file := locate (path_join (path_join (cache_dir ++ [s2l "tuf"]) dir) name) in
    f file = Some b \/ (f file = None /\ embedded dir name = Some b).

(** any sequence of offline operations *)
Inductive offline_run (data_dir cache_dir : path) (lib : TufLib) (embedded : str -> str -> option bytes) (s0 : tstate) : tstate -> list Updater -> Prop :=
| or_start : offline_run data_dir cache_dir lib embedded s0 s0 nil
| or_make : forall s us url boot r s', offline_run data_dir cache_dir lib embedded s0 s us ->
    make_updater data_dir cache_dir lib embedded url true boot s = (r, s') ->
    offline_run data_dir cache_dir lib embedded s0 s' (match r with Ok u => u :: us | Raise _ => us end)
| or_root : forall s us u r s', offline_run data_dir cache_dir lib embedded s0 s us -> In u us ->
    get_trusted_root_path lib u s = (r, s') -> offline_run data_dir cache_dir lib embedded s0 s' us
| or_config : forall s us u r s', offline_run data_dir cache_dir lib embedded s0 s us -> In u us ->
    get_signing_config_path lib u s = (r, s') -> offline_run data_dir cache_dir lib embedded s0 s' us
| or_from_tuf : forall TR SC (ptr : bytes -> res TR) (psc : bytes -> res SC) s us url boot r s', offline_run data_dir cache_dir lib embedded s0 s us ->
    from_tuf data_dir cache_dir lib embedded ptr psc url true boot s = (r, s') ->
    offline_run data_dir cache_dir lib embedded s0 s' us.

(** ** Names *)

Lemma drop_slashes_spec : forall s, exists n, s = repeat 47%N n ++ drop_slashes s /\ forall v, drop_slashes s <> 47%N :: v.
Proof.
  induction s as [|c s IH]; cbn [drop_slashes]; [exists 0; split; [reflexivity|discriminate]|].
  destruct (N.eqb_spec c 47) as [->|Ne].
  - destruct IH as (n & E & N). exists (S n). split; [cbn; f_equal; assumption|assumption].
  - exists 0. split; [reflexivity|]. intros v H. inversion H. contradiction.
Qed.
Lemma rev_repeat : forall {A} (x : A) n, rev (repeat x n) = repeat x n.
Proof. intros A x n. induction n; [reflexivity|]. cbn. rewrite IHn. rewrite <- (repeat_cons n x). reflexivity. Qed.
Lemma rstrip_slash_spec : forall s, strips_to s (rstrip_slash s).
Proof.
  intros s. unfold rstrip_slash. destruct (drop_slashes_spec (rev s)) as (n & E & Nx). exists n. split.
  - rewrite <- (rev_involutive s), E at 1. rewrite rev_app_distr, rev_repeat. reflexivity.
  - intros v H. apply (f_equal (@rev BinNums.N)) in H. rewrite rev_involutive, rev_app_distr in H. cbn in H. eapply Nx. eassumption.
Qed.
Lemma strips_to_fun : forall s u v, strips_to s u -> strips_to s v -> u = v.
Proof.
  intros s u v (n & E & Nu) (m & F & Nv). rewrite E in F. clear E. revert m F.
  induction n as [|n IH]; intros m F.
  - destruct m as [|m]; [rewrite !app_nil_r in F; assumption|]. exfalso. cbn in F. rewrite app_nil_r in F. rewrite repeat_cons in F. rewrite app_assoc in F. eapply Nu. eassumption.
  - destruct m as [|m].
    + exfalso. cbn in F. rewrite app_nil_r in F. rewrite repeat_cons in F. rewrite app_assoc in F. eapply Nv. symmetry. eassumption.
    + apply (IH m). cbn in F. rewrite !repeat_cons, !app_assoc in F. apply app_inj_tail in F. apply F.
Qed.
Lemma rstrip_slash_iff : forall s u, strips_to s u <-> u = rstrip_slash s.
Proof. intros s u. split; [intros H; eapply strips_to_fun; [eassumption|apply rstrip_slash_spec]|intros ->; apply rstrip_slash_spec]. Qed.

Lemma quote_byte_safe : forall b c, In c (quote_byte b) -> quote_safe c = true \/ c = 37%N.
Proof.
  intros b c. unfold quote_byte. pose proof (b2n_lt b) as L. cbv zeta. destruct (quote_safe (b2n b)) eqn:E.
  - intros [<-|[]]. left. assumption.
  - assert (D : forall n, (n < 16)%N -> quote_safe (upper_digit n) = true).
    { intros n H. unfold upper_digit, quote_safe. destruct (N.ltb_spec n 10); repeat rewrite orb_true_iff; rewrite ?andb_true_iff, ?N.leb_le; lia. }
    intros [<-|[<-|[<-|[]]]]; [right; reflexivity|left; apply D|left; apply D].
    + apply N.div_lt_upper_bound; lia.
    + apply N.mod_lt. lia.
Qed.
Lemma unreserved_iff : forall x, quote_safe (b2n x) = true <-> unreserved (b2n x).
Proof.
  intros x. assert (E : quote_safe (b2n x) = existsb (N.eqb (b2n x)) (s2l "ABCDEFGHIJKLMNOPQRSTUVWXYZabcdefghijklmnopqrstuvwxyz0123456789-._~"))
    by (destruct x; vm_compute; reflexivity).
  rewrite E, existsb_exists. unfold unreserved. split.
  - intros (c & I & Q). apply N.eqb_eq in Q. subst c. exact I.
  - intros I. exists (b2n x). split; [exact I|apply N.eqb_refl].
Qed.
Lemma percent_byte_iff : forall x s, percent_byte x s <-> s = quote_byte x.
Proof.
  assert (K : forall x, percent_byte x (quote_byte x)).
  { intros x. unfold quote_byte. cbv zeta. destruct (quote_safe (b2n x)) eqn:Q.
    - left. split; [apply unreserved_iff, Q|reflexivity].
    - right. split; [rewrite <- unreserved_iff, Q; discriminate|].
      exists (N.to_nat (b2n x / 16)), (N.to_nat (b2n x mod 16)), (upper_digit (b2n x / 16)), (upper_digit (b2n x mod 16)).
      clear Q. split; [|split; [|split; [|split; [|reflexivity]]]].
      + pose proof (N.div_mod' (b2n x) 16). lia.
      + pose proof (N.mod_lt (b2n x) 16). lia.
      + destruct x; reflexivity.
      + destruct x; reflexivity. }
  intros x s. split; [|intros ->; apply K]. intros H. destruct (K x) as [[U ->]|(U & hi & lo & c & d & E & L & C & D & ->)].
  - destruct H as [[_ ->]|[N0 _]]; [reflexivity|contradiction].
  - destruct H as [[U' _]|(_ & hi' & lo' & c' & d' & E' & L' & C' & D' & ->)]; [contradiction|].
    assert (hi' = hi) by lia. assert (lo' = lo) by lia. subst. unfold percent_digit in *. congruence.
Qed.
Lemma quote_iff : forall u d, percent_encoded u d <-> quote u = Ok d.
Proof.
  assert (F : forall b parts, Forall2 percent_byte b parts <-> parts = map quote_byte b).
  { induction b as [|x b IH]; intros parts; cbn [map].
    - split; [intros H; inversion H; reflexivity|intros ->; constructor].
    - split; [intros H; inversion H as [|? y ? l Hx Hl]; subst; apply percent_byte_iff in Hx; apply IH in Hl; subst; reflexivity|].
      intros ->. constructor; [apply percent_byte_iff; reflexivity|apply IH; reflexivity]. }
  intros u d. unfold percent_encoded, quote. destruct (utf8_encode u) as [b|]; split.
  - intros (b' & parts & [= <-] & H & ->). apply F in H. subst. rewrite flat_map_concat_map. reflexivity.
  - intros [= <-]. exists b, (map quote_byte b). split; [reflexivity|]. split; [apply F; reflexivity|apply flat_map_concat_map].
  - intros (b' & parts & [=] & _).
  - discriminate.
Qed.
Lemma quote_chars : forall u d c, quote u = Ok d -> In c d -> quote_safe c = true \/ c = 37%N.
Proof.
  intros u d c H I. unfold quote in H. destruct (utf8_encode u) as [b|]; [|discriminate]. inversion H; subst.
  apply in_flat_map in I. destruct I as (x & _ & I). eapply quote_byte_safe. eassumption.
Qed.

Lemma upper_digit_inj : forall a b, (a < 16)%N -> (b < 16)%N -> upper_digit a = upper_digit b -> a = b.
Proof. intros a b Ha Hb. unfold upper_digit. destruct (N.ltb_spec a 10); destruct (N.ltb_spec b 10); lia. Qed.
Lemma b2n_inj' : forall a b, b2n a = b2n b -> a = b.
Proof. intros a b H. rewrite <- (n2b_b2n a), <- (n2b_b2n b), H. reflexivity. Qed.
Lemma quote_byte_prefix : forall a b s t, quote_byte a ++ s = quote_byte b ++ t -> a = b /\ s = t.
Proof.
  intros a b s t. unfold quote_byte. cbv zeta. pose proof (b2n_lt a) as La. pose proof (b2n_lt b) as Lb.
  destruct (quote_safe (b2n a)) eqn:Ea; destruct (quote_safe (b2n b)) eqn:Eb; cbn [app]; intros H.
  - inversion H. split; [apply b2n_inj'; assumption|reflexivity].
  - exfalso. assert (E : b2n a = 37%N) by congruence. rewrite E in Ea. discriminate.
  - exfalso. assert (E : b2n b = 37%N) by congruence. rewrite E in Eb. discriminate.
  - assert (E1 : upper_digit (b2n a / 16) = upper_digit (b2n b / 16)) by congruence.
    assert (E2 : upper_digit (b2n a mod 16) = upper_digit (b2n b mod 16)) by congruence. assert (E3 : s = t) by congruence.
    apply upper_digit_inj in E1; [|apply N.div_lt_upper_bound; lia|apply N.div_lt_upper_bound; lia].
    apply upper_digit_inj in E2; [|apply N.mod_lt; lia|apply N.mod_lt; lia].
    split; [|assumption]. apply b2n_inj'. rewrite (N.div_mod (b2n a) 16), (N.div_mod (b2n b) 16) by lia. congruence.
Qed.
Lemma quote_bytes_inj : forall a b, flat_map quote_byte a = flat_map quote_byte b -> a = b.
Proof.
  assert (NE : forall x, quote_byte x <> nil) by (intros x; unfold quote_byte; cbv zeta; destruct (quote_safe _); discriminate).
  induction a as [|x a IH]; intros [|y b] H; cbn in H.
  - reflexivity.
  - symmetry in H. apply app_eq_nil in H. destruct H as [H _]. exfalso. eapply NE. eassumption.
  - apply app_eq_nil in H. destruct H as [H _]. exfalso. eapply NE. eassumption.
  - apply quote_byte_prefix in H. destruct H as [-> H]. f_equal. auto.
Qed.
Lemma quote_inj : forall u v d, quote u = Ok d -> quote v = Ok d -> u = v.
Proof.
  intros u v d Hu Hv. unfold quote in *. destruct (utf8_encode u) as [a|] eqn:Ea; [|discriminate]. destruct (utf8_encode v) as [b|] eqn:Eb; [|discriminate].
  assert (E : flat_map quote_byte a = flat_map quote_byte b) by congruence. apply quote_bytes_inj in E. subst b. eapply utf8_encode_inj; eassumption.
Qed.
Lemma quote_lit : forall s, s = nil \/ s = s2l "." \/ s = s2l ".." -> quote s = Ok s.
Proof. intros s [->|[->| ->]]; vm_compute; reflexivity. Qed.
Lemma quote_ordinary : forall u d, quote u = Ok d -> ordinary u -> ordinary d.
Proof.
  intros u d Q (A & B & C). repeat split; intros ->.
  - apply A. eapply quote_inj; [eassumption|]. apply quote_lit. auto.
  - apply B. eapply quote_inj; [eassumption|]. apply quote_lit. auto.
  - apply C. eapply quote_inj; [eassumption|]. apply quote_lit. auto.
Qed.

Lemma locate_snoc : forall p n, n <> s2l ".." -> locate (p ++ [n]) = locate p ++ [n].
Proof. intros p n H. unfold locate. rewrite fold_left_app. cbn [fold_left]. unfold up at 1. destruct (str_eqb n (s2l "..")) eqn:E; [apply str_eqb_spec in E; contradiction|reflexivity]. Qed.
Lemma join_ordinary : forall p d, ordinary d -> path_join p d = p ++ [d] /\ locate (path_join p d) = locate p ++ [d].
Proof.
  intros p d (A & B & C). unfold path_join. destruct (str_eqb d nil) eqn:E; [apply str_eqb_spec in E; contradiction|].
  destruct (str_eqb d (s2l ".")) eqn:E2; [apply str_eqb_spec in E2; contradiction|]. split; [reflexivity|apply locate_snoc; assumption].
Qed.

(** ** C54 *)

(** The directories of an ordinary repository are new subdirectories, with a name without
    separators, and nothing below them belongs to another repository. *)
Theorem C54_directories : forall data cache u m t,
  get_dirs data cache u = Ok (m, t) -> ordinary u ->
  exists name, percent_encoded u name /\ ordinary name /\ (forall c, In c name -> c <> 47%N /\ c <> 92%N /\ c <> 0%N) /\
    locate m = locate (data ++ [s2l "tuf"]) ++ [name] /\ locate t = locate (cache ++ [s2l "tuf"]) ++ [name].
Proof.
  intros data cache u m t H O. unfold get_dirs in H. apply bind_ok_inv in H. destruct H as (d & Q & H). inversion H; subst. exists d.
  pose proof (quote_ordinary _ _ Q O) as Od. split; [apply quote_iff; assumption|]. split; [assumption|]. split.
  - intros c I. destruct (quote_chars _ _ _ Q I) as [S| ->]; [|lia]. repeat split; intros ->; discriminate.
  - split; apply join_ordinary; assumption.
Qed.
Theorem C54_no_collision : forall data cache url1 url2 u1 u2 m1 t1 m2 t2 rest1 rest2,
  strips_to url1 u1 -> strips_to url2 u2 -> ordinary u1 -> ordinary u2 ->
  get_dirs data cache u1 = Ok (m1, t1) -> get_dirs data cache u2 = Ok (m2, t2) ->
  locate m1 ++ rest1 = locate m2 ++ rest2 \/ locate t1 ++ rest1 = locate t2 ++ rest2 -> u1 = u2.
Proof.
  intros data cache url1 url2 u1 u2 m1 t1 m2 t2 rest1 rest2 _ _ O1 O2 G1 G2 H.
  destruct (C54_directories _ _ _ _ _ G1 O1) as (n1 & Q1 & _ & _ & L1 & L1').
  destruct (C54_directories _ _ _ _ _ G2 O2) as (n2 & Q2 & _ & _ & L2 & L2').
  rewrite L1, L2, L1', L2' in H.
  apply quote_iff in Q1, Q2. assert (n1 = n2); [|subst; eapply quote_inj; eassumption].
  destruct H as [H|H]; rewrite <- !app_assoc in H; apply app_inv_head in H; cbn in H; congruence.
Qed.
(** [TrustUpdater] uses these directories for the URL without its trailing slashes. *)
Theorem C54_updater_directory : forall data cache lib emb url offline boot s u s',
  make_updater data cache lib emb url offline boot s = (Ok u, s') ->
  exists base m, strips_to url base /\ get_dirs data cache base = Ok (m, u_targets u).
Proof.
  intros data cache lib emb url offline boot s u s' H. exists (rstrip_slash url). unfold make_updater in H. cbv zeta in H. unfold obind at 1, ret at 1 in H.
  destruct (get_dirs data cache (rstrip_slash url)) as [[m t]|e]; [|discriminate]. exists m. split; [apply rstrip_slash_spec|]. f_equal. f_equal.
  unfold obind at 1 in H. destruct (populate _ _ _ _ s) as [[[]|e] s1]; [|discriminate].
  unfold obind at 1 in H. destruct (populate _ _ _ _ s1) as [[[]|e] s2]; [|discriminate].
  destruct offline; [unfold ret in H; inversion H; reflexivity|]. unfold obind at 1 in H.
  destruct (otry _ _ _ s2) as [[rj|e] s3]; [|discriminate]. unfold obind at 1 in H. destruct (otry _ _ _ s3) as [[[]|e] s4]; [|discriminate].
  unfold ret in H. inversion H. reflexivity.
Qed.

(** Not all URLs are ordinary: with "" and "." the directory of all repositories is used, with
    ".." its parent. *)
Theorem C54_special_urls_refuted : forall data cache,
  (exists m1 t1 m2 t2, get_dirs data cache nil = Ok (m1, t1) /\ get_dirs data cache (s2l ".") = Ok (m2, t2) /\ locate t1 = locate t2 /\ locate m1 = locate m2 /\
    locate t1 = locate cache ++ [s2l "tuf"]) /\
  (exists m t, get_dirs data cache (s2l "..") = Ok (m, t) /\ locate m = locate data /\ locate t = locate cache).
Proof.
  intros data cache. assert (T : s2l "tuf" <> s2l "..") by discriminate. split.
  - do 4 eexists. split; [reflexivity|]. split; [reflexivity|]. split; [reflexivity|]. split; [reflexivity|]. apply locate_snoc. assumption.
  - do 2 eexists. split; [reflexivity|]. change (path_join ?p (s2l "..")) with (p ++ [s2l ".."]).
    assert (L : forall p, locate ((p ++ [s2l "tuf"]) ++ [s2l ".."]) = locate p).
    { intros p. unfold locate at 1. rewrite fold_left_app. cbn [fold_left]. fold (locate (p ++ [s2l "tuf"])). rewrite locate_snoc by assumption.
      unfold up. change (str_eqb (s2l "..") (s2l "..")) with true. cbv iota. apply removelast_last. }
    split; apply L.
Qed.

(** ** Offline operation *)

Lemma path_eqb_spec : forall p q, path_eqb p q = true <-> p = q.
Proof.
  induction p as [|a p IH]; intros [|b q]; cbn; try (split; congruence). rewrite andb_true_iff, str_eqb_spec, IH. split; [intros [-> ->]; reflexivity|intros H; inversion H; auto].
Qed.
Lemma path_eqb_refl : forall p, path_eqb p p = true.
Proof. intros p. apply path_eqb_spec. reflexivity. Qed.

(** what [populate] does *)
Lemma populate_spec : forall emb targets url dir artifact s, quote url = Ok dir -> exists s',
  populate emb targets url artifact s = (Ok tt, s') /\ t_net s' = t_net s /\
  let p := locate (path_join targets artifact) in
  (forall q, q <> p -> t_fs s' q = t_fs s q) /\
  t_fs s' p = match t_fs s p with Some b => Some b | None => emb dir artifact end.
Proof.
  intros emb targets url dir artifact s Q. unfold populate, obind, get_file, fs_read. cbv zeta.
  destruct (t_fs s (locate (path_join targets artifact))) as [b|] eqn:E.
  - exists s. split; [reflexivity|]. split; [reflexivity|]. split; [reflexivity|assumption].
  - unfold otry, ret, read_embedded. rewrite Q. cbn [bind]. destruct (emb dir artifact) as [b|] eqn:Em; cbv beta iota.
    + exists (mkT (fs_write (t_fs s) (path_join targets artifact) b) (t_net s)). split; [reflexivity|]. split; [reflexivity|]. cbn [t_fs]. unfold fs_write. split.
      * intros q Ne. destruct (path_eqb q _) eqn:Pe; [apply path_eqb_spec in Pe; contradiction|reflexivity].
      * rewrite path_eqb_refl. reflexivity.
    + exists s. split; [reflexivity|]. split; [reflexivity|]. split; [reflexivity|assumption].
Qed.

Lemma artifacts_differ : forall t, locate (path_join t TRUSTED_ROOT) <> locate (path_join t SIGNING_CONFIG).
Proof.
  intros t. assert (O1 : ordinary TRUSTED_ROOT) by (repeat split; discriminate). assert (O2 : ordinary SIGNING_CONFIG) by (repeat split; discriminate).
  destruct (join_ordinary t _ O1) as [_ ->]. destruct (join_ordinary t _ O2) as [_ ->]. intros H. apply app_inj_tail in H. destruct H as [_ H]. discriminate.
Qed.

(** the effect of the two [populate]s *)
Lemma populate_both : forall emb targets url dir s, quote url = Ok dir -> exists s1 s2,
  populate emb targets url TRUSTED_ROOT s = (Ok tt, s1) /\ populate emb targets url SIGNING_CONFIG s1 = (Ok tt, s2) /\ t_net s2 = t_net s /\
  (forall q, q <> locate (path_join targets TRUSTED_ROOT) -> q <> locate (path_join targets SIGNING_CONFIG) -> t_fs s2 q = t_fs s q) /\
  (forall name, name = TRUSTED_ROOT \/ name = SIGNING_CONFIG -> t_fs s2 (locate (path_join targets name)) =
     match t_fs s (locate (path_join targets name)) with Some b => Some b | None => emb dir name end).
Proof.
  intros emb targets url dir s Q. destruct (populate_spec emb targets url dir TRUSTED_ROOT s Q) as (s1 & P1 & N1 & K1 & V1).
  destruct (populate_spec emb targets url dir SIGNING_CONFIG s1 Q) as (s2 & P2 & N2 & K2 & V2).
  pose proof (artifacts_differ targets) as D. exists s1, s2. split; [assumption|]. split; [assumption|]. split; [congruence|]. split.
  - intros q A B. rewrite K2, K1 by assumption. reflexivity.
  - intros name [->| ->]; [rewrite K2 by assumption; assumption|]. rewrite V2. rewrite K1 by congruence. reflexivity.
Qed.

Lemma make_offline : forall data cache lib emb url boot s,
  match quote (rstrip_slash url) with
  | Raise e => make_updater data cache lib emb url true boot s = (Raise e, s)
  | Ok dir => let targets := path_join (cache ++ [s2l "tuf"]) dir in exists s',
      make_updater data cache lib emb url true boot s = (Ok (mkUpdater (rstrip_slash url) targets false), s') /\ t_net s' = t_net s /\
      (forall q, q <> locate (path_join targets TRUSTED_ROOT) -> q <> locate (path_join targets SIGNING_CONFIG) -> t_fs s' q = t_fs s q) /\
      (forall name, name = TRUSTED_ROOT \/ name = SIGNING_CONFIG -> t_fs s' (locate (path_join targets name)) =
         match t_fs s (locate (path_join targets name)) with Some b => Some b | None => emb dir name end)
  end.
Proof.
  intros data cache lib emb url boot s. unfold make_updater. cbv zeta. unfold obind at 1, ret at 1. unfold get_dirs.
  destruct (quote (rstrip_slash url)) as [dir|e] eqn:Q; cbn [bind]; [|reflexivity].
  destruct (populate_both emb (path_join (cache ++ [s2l "tuf"]) dir) _ _ s Q) as (s1 & s2 & P1 & P2 & N & K & V).
  exists s2. split; [|auto]. unfold obind at 1. rewrite P1. unfold obind at 1. rewrite P2. reflexivity.
Qed.

Lemma get_path_offline : forall lib u name s, u_online u = false -> get_path lib u name s = (Ok (path_join (u_targets u) name), s).
Proof. intros lib u name s H. unfold get_path. rewrite H. reflexivity. Qed.

Lemma from_tuf_offline : forall TR SC (ptr : bytes -> res TR) (psc : bytes -> res SC) data cache lib emb url boot s,
  match quote (rstrip_slash url) with
  | Raise e => from_tuf data cache lib emb ptr psc url true boot s = (Raise e, s)
  | Ok dir => exists s', snd (from_tuf data cache lib emb ptr psc url true boot s) = s' /\ snd (make_updater data cache lib emb url true boot s) = s' /\
      let file name := fs_read (t_fs s') (path_join (path_join (cache ++ [s2l "tuf"]) dir) name) in
      fst (from_tuf data cache lib emb ptr psc url true boot s) =
        match file TRUSTED_ROOT with
        | None => Raise EFileNotFound
        | Some tb => let* tr := ptr tb in
          match file SIGNING_CONFIG with
          | None => Raise EFileNotFound
          | Some sb => let* sc := psc sb in Ok (tr, sc)
          end
        end
  end.
Proof.
  intros TR SC ptr psc data cache lib emb url boot s. pose proof (make_offline data cache lib emb url boot s) as M.
  destruct (quote (rstrip_slash url)) as [dir|e]; [|unfold from_tuf, obind at 1; rewrite M; reflexivity].
  destruct M as (s' & M & _). exists s'. rewrite M. cbn [snd]. cbv zeta.
  set (file := fun name => fs_read (t_fs s') (path_join (path_join (cache ++ [s2l "tuf"]) dir) name)).
  assert (E : from_tuf data cache lib emb ptr psc url true boot s =
    (match file TRUSTED_ROOT with
     | None => Raise EFileNotFound
     | Some tb => let* tr := ptr tb in match file SIGNING_CONFIG with None => Raise EFileNotFound | Some sb => let* sc := psc sb in Ok (tr, sc) end
     end, s')).
  { unfold from_tuf. unfold obind at 1. rewrite M.
    unfold get_trusted_root_path, get_signing_config_path, get_path. cbn [u_online u_targets]. cbv beta iota.
    unfold read_bytes, get_file, obind, ret. cbv beta iota. unfold file.
    destruct (fs_read (t_fs s') (path_join (path_join (cache ++ [s2l "tuf"]) dir) TRUSTED_ROOT)) as [tb|]; [|reflexivity].
    destruct (ptr tb) as [tr|e]; cbn [bind]; [|reflexivity].
    destruct (fs_read (t_fs s') (path_join (path_join (cache ++ [s2l "tuf"]) dir) SIGNING_CONFIG)) as [sb|]; [|reflexivity].
    destruct (psc sb) as [sc|e]; reflexivity. }
  rewrite E. cbn [fst snd]. auto.
Qed.

(** every updater of an offline run is offline, and a step neither uses the network nor changes a file *)
Definition quiet (s s' : tstate) : Prop := t_net s' = t_net s /\ forall q b, t_fs s q = Some b -> t_fs s' q = Some b.
Lemma quiet_refl : forall s, quiet s s.
Proof. intros s. split; auto. Qed.
Lemma quiet_trans : forall a b c, quiet a b -> quiet b c -> quiet a c.
Proof. intros a b c [A1 A2] [B1 B2]. split; [congruence|auto]. Qed.

Lemma make_quiet : forall data cache lib emb url boot s r s',
  make_updater data cache lib emb url true boot s = (r, s') -> quiet s s' /\ (forall u, r = Ok u -> u_online u = false).
Proof.
  intros data cache lib emb url boot s r s' H. pose proof (make_offline data cache lib emb url boot s) as M.
  destruct (quote (rstrip_slash url)) as [dir|e].
  - destruct M as (s1 & M & N & K & V). assert (X : s1 = s') by congruence. subst s1. split.
    + split; [assumption|]. intros q b E.
      destruct (path_eqb q (locate (path_join (path_join (cache ++ [s2l "tuf"]) dir) TRUSTED_ROOT))) eqn:P1.
      { apply path_eqb_spec in P1. subst q. rewrite V, E by auto. reflexivity. }
      destruct (path_eqb q (locate (path_join (path_join (cache ++ [s2l "tuf"]) dir) SIGNING_CONFIG))) eqn:P2.
      { apply path_eqb_spec in P2. subst q. rewrite V, E by auto. reflexivity. }
      rewrite K; [assumption| |]; intros X; rewrite X, path_eqb_refl in *; discriminate.
    + intros u Y. assert (Z : u = mkUpdater (rstrip_slash url) (path_join (cache ++ [s2l "tuf"]) dir) false) by congruence. subst u. reflexivity.
  - assert (s' = s) by congruence. subst. split; [apply quiet_refl|]. intros u ->. congruence.
Qed.
Lemma from_tuf_quiet : forall TR SC (ptr : bytes -> res TR) (psc : bytes -> res SC) data cache lib emb url boot s r s',
  from_tuf data cache lib emb ptr psc url true boot s = (r, s') -> quiet s s'.
Proof.
  intros TR SC ptr psc data cache lib emb url boot s r s' H. pose proof (from_tuf_offline _ _ ptr psc data cache lib emb url boot s) as F.
  destruct (quote (rstrip_slash url)) as [dir|e].
  - destruct F as (s1 & S & M & _). rewrite H in S. cbn [snd] in S. subst s1.
    destruct (make_updater data cache lib emb url true boot s) as [r1 s1] eqn:E. cbn [snd] in M. subst s1. eapply make_quiet. eassumption.
  - assert (s' = s) by congruence. subst. apply quiet_refl.
Qed.

Lemma offline_run_inv : forall data cache lib emb s0 s us, offline_run data cache lib emb s0 s us -> quiet s0 s /\ forall u, In u us -> u_online u = false.
Proof.
  intros data cache lib emb s0 s us R. induction R as [|s us url boot r s' R [IH1 IH2] H|s us u r s' R [IH1 IH2] I H|s us u r s' R [IH1 IH2] I H|TR SC ptr psc s us url boot r s' R [IH1 IH2] H].
  - split; [apply quiet_refl|intros u []].
  - destruct (make_quiet _ _ _ _ _ _ _ _ _ H) as [Q U]. split; [eapply quiet_trans; eassumption|]. intros u I. destruct r as [u0|e]; [|auto].
    destruct I as [<-|I]; [apply U; reflexivity|auto].
  - unfold get_trusted_root_path in H. rewrite get_path_offline in H by auto. assert (s' = s) by congruence. subst. auto.
  - unfold get_signing_config_path in H. rewrite get_path_offline in H by auto. assert (s' = s) by congruence. subst. auto.
  - split; [|assumption]. eapply quiet_trans; [eassumption|]. eapply from_tuf_quiet. eassumption.
Qed.

(** ** C53 *)

(** No sequence of offline operations uses the network, for every TUF library and file system. *)
Theorem C53_no_network : forall data cache lib emb s0 s us, offline_run data cache lib emb s0 s us -> t_net s = t_net s0.
Proof. intros data cache lib emb s0 s us R. apply (offline_run_inv _ _ _ _ _ _ _ R). Qed.

(** The material of an offline client is the cached copy, or the embedded one if there is no cached
    copy; the TUF library is not consulted. *)
Theorem C53_offline_material : forall TR SC (ptr : bytes -> res TR) (psc : bytes -> res SC) data cache lib emb url boot s tr sc,
  fst (from_tuf data cache lib emb ptr psc url true boot s) = Ok (tr, sc) <->
  exists tb sb, available cache emb (t_fs s) url (s2l "trusted_root.json") tb /\ ptr tb = Ok tr /\
    available cache emb (t_fs s) url (s2l "signing_config.v0.2.json") sb /\ psc sb = Ok sc.
Proof.
  intros TR SC ptr psc data cache lib emb url boot s tr sc. pose proof (from_tuf_offline _ _ ptr psc data cache lib emb url boot s) as F.
  pose proof (make_offline data cache lib emb url boot s) as M.
  assert (AV : forall name b, available cache emb (t_fs s) url name b <-> exists dir, quote (rstrip_slash url) = Ok dir /\
     let file := locate (path_join (path_join (cache ++ [s2l "tuf"]) dir) name) in t_fs s file = Some b \/ (t_fs s file = None /\ emb dir name = Some b)).
  { intros name b. unfold available. split.
    - intros (u & dir & S & Q & X). apply quote_iff in Q. apply rstrip_slash_iff in S. subst u. eauto.
    - intros (dir & Q & X). apply quote_iff in Q. exists (rstrip_slash url), dir. split; [apply rstrip_slash_spec|]. auto. }
  destruct (quote (rstrip_slash url)) as [dir|e] eqn:Q.
  - destruct M as (s1 & M & _ & _ & V). destruct F as (s' & _ & S & F). rewrite M in S. cbn [snd] in S. subst s'. cbv zeta in F. rewrite F. clear F.
    assert (FR : forall name, name = TRUSTED_ROOT \/ name = SIGNING_CONFIG -> forall b,
      fs_read (t_fs s1) (path_join (path_join (cache ++ [s2l "tuf"]) dir) name) = Some b <-> available cache emb (t_fs s) url name b).
    { intros name Hn b. unfold fs_read. rewrite V by assumption. rewrite AV. cbv zeta. split.
      - intros H. exists dir. split; [reflexivity|]. destruct (t_fs s _); [left; assumption|right; auto].
      - intros (dir' & Q' & H). assert (dir' = dir) by congruence. subst. destruct H as [->|[-> ->]]; reflexivity. }
    pose proof (FR TRUSTED_ROOT (or_introl eq_refl)) as F1. pose proof (FR SIGNING_CONFIG (or_intror eq_refl)) as F2. clear FR.
    fold TRUSTED_ROOT SIGNING_CONFIG. split.
    + intros H. destruct (fs_read (t_fs s1) (path_join _ TRUSTED_ROOT)) as [tb|]; [|discriminate].
      apply bind_ok_inv in H. destruct H as (tr' & P1 & H). destruct (fs_read (t_fs s1) (path_join _ SIGNING_CONFIG)) as [sb|]; [|discriminate].
      apply bind_ok_inv in H. destruct H as (sc' & P2 & H). inversion H; subst. exists tb, sb. rewrite <- F1, <- F2. auto.
    + intros (tb & sb & A1 & P1 & A2 & P2). apply F1 in A1. apply F2 in A2. rewrite A1, P1. cbn [bind]. rewrite A2, P2. reflexivity.
  - rewrite F. cbn [fst]. split; [discriminate|]. intros (tb & _ & A & _). apply AV in A. destruct A as (dir & X & _). discriminate.
Qed.

(** An online client never uses the unverified cache or the embedded targets directly: the path is one that the
    TUF library gave for this target, after a successful refresh. *)
Theorem C53_online_path : forall lib u name s p s',
  u_online u = true -> get_path lib u name s = (Ok p, s') ->
  exists info f1, tl_targetinfo lib (u_url u) name (t_fs s) = (Ok (Some info), f1) /\
    (tl_find_cached lib (u_url u) info f1 = Some p \/
     (tl_find_cached lib (u_url u) info f1 = None /\ exists f2, tl_download lib (u_url u) info f1 = (Ok p, f2) /\ t_fs s' = f2)).
Proof.
  intros lib u name s p s' O H. unfold get_path in H. rewrite O in H. unfold obind at 1, net_call at 1 in H.
  destruct (tl_targetinfo lib (u_url u) name (t_fs s)) as [r f1] eqn:T. cbn [fst snd] in H. destruct r as [[info|]|e]; [|discriminate|discriminate].
  exists info, f1. split; [reflexivity|]. unfold obind, local_call in H. cbn [t_fs] in H. destruct (tl_find_cached lib (u_url u) info f1) as [p'|] eqn:C.
  - left. unfold ret in H. congruence.
  - right. split; [reflexivity|]. unfold otry, net_call in H. cbn [t_fs] in H. destruct (tl_download lib (u_url u) info f1) as [r2 f2] eqn:D.
    exists f2. destruct r2 as [p2|e2]; [inversion H; subst; auto|]. destruct (exn_eqb EDownload e2 || exn_eqb ERepository e2); discriminate.
Qed.
Theorem C53_online_refreshed : forall data cache lib emb url boot s u s',
  make_updater data cache lib emb url false boot s = (Ok u, s') ->
  u_online u = true /\ strips_to url (u_url u) /\ t_net s' = t_net s ++ [Net_refresh (u_url u)] /\
  exists m f bootstrap dir, tl_refresh lib (u_url u) m (u_targets u) bootstrap f = (Ok tt, t_fs s') /\ percent_encoded (u_url u) dir /\
    match emb dir (s2l "root.json") with
    | Some b => bootstrap = Some b
    | None => match boot with Some r => exists b, r = Ok b /\ bootstrap = Some b | None => bootstrap = None end
    end.
Proof.
  intros data cache lib emb url boot s u s' H. unfold make_updater in H. cbv zeta in H. unfold obind at 1, ret at 1 in H.
  unfold get_dirs in H. destruct (quote (rstrip_slash url)) as [dir|e] eqn:Q; cbn [bind] in H; [|discriminate].
  destruct (populate_both emb (path_join (cache ++ [s2l "tuf"]) dir) _ _ s Q) as (s1 & s2 & P1 & P2 & N & _ & _).
  unfold obind at 1 in H. rewrite P1 in H. unfold obind at 1 in H. rewrite P2 in H. unfold obind at 1, otry at 1 in H.
  unfold obind at 1, ret at 1, read_embedded in H. rewrite Q in H. cbn [bind] in H.
  assert (G : forall rj, (obind (otry (net_call (Net_refresh (rstrip_slash url)) (tl_refresh lib (rstrip_slash url) (path_join (data ++ [s2l "tuf"]) dir) (path_join (cache ++ [s2l "tuf"]) dir) rj)) any_exn
      (fun _ => ret (Raise ETUF))) (fun _ => ret (Ok (mkUpdater (rstrip_slash url) (path_join (cache ++ [s2l "tuf"]) dir) true)))) s2 = (Ok u, s') ->
      u_online u = true /\ strips_to url (u_url u) /\ t_net s' = t_net s ++ [Net_refresh (u_url u)] /\ quote (u_url u) = Ok dir /\
      exists m f, tl_refresh lib (u_url u) m (u_targets u) rj f = (Ok tt, t_fs s')).
  { intros rj G. unfold obind, otry, net_call in G. destruct (tl_refresh lib _ _ _ rj (t_fs s2)) as [r f'] eqn:E. destruct r as [[]|e]; [|discriminate].
    unfold ret in G. inversion G; subst. cbn [u_online u_url u_targets t_net t_fs]. split; [reflexivity|]. split; [apply rstrip_slash_spec|]. split; [congruence|]. split; [assumption|]. eauto. }
  destruct (emb dir (s2l "root.json")) as [b|] eqn:Em.
  - unfold ret at 1 in H. destruct (G _ H) as (A & B & C & D & m & f & E). split; [assumption|]. split; [assumption|]. split; [assumption|].
    exists m, f, (Some b), dir. split; [assumption|]. split; [apply quote_iff; assumption|]. rewrite Em. reflexivity.
  - cbn [exn_eqb] in H. unfold ret at 1 in H. destruct boot as [[b|e]|]; cbn [bind] in H; [| discriminate|].
    + destruct (G _ H) as (A & B & C & D & m & f & E). split; [assumption|]. split; [assumption|]. split; [assumption|].
      exists m, f, (Some b), dir. split; [assumption|]. split; [apply quote_iff; assumption|]. rewrite Em. eauto.
    + destruct (G _ H) as (A & B & C & D & m & f & E). split; [assumption|]. split; [assumption|]. split; [assumption|].
      exists m, f, None, dir. split; [assumption|]. split; [apply quote_iff; assumption|]. rewrite Em. reflexivity.
Qed.

(** A failure of the refresh is a TUFError; failures of the look-up of a target are not. *)
Theorem C53_refresh_failure : forall data cache lib emb url boot s e s',
  make_updater data cache lib emb url false boot s = (Raise e, s') ->
  e = ETUF \/ (e = EUnicodeEncode /\ exists u, strips_to url u /\ utf8_encode u = None) \/ boot = Some (Raise e).
Proof.
  intros data cache lib emb url boot s e s' H. unfold make_updater in H. cbv zeta in H. unfold obind at 1, ret at 1 in H.
  unfold get_dirs in H. destruct (quote (rstrip_slash url)) as [dir|e'] eqn:Q; cbn [bind] in H.
  2:{ right. left. assert (e' = e) by congruence. subst e'. unfold quote in Q. destruct (utf8_encode (rstrip_slash url)) eqn:U; [discriminate|].
      split; [congruence|]. exists (rstrip_slash url). split; [apply rstrip_slash_spec|exact U]. }
  destruct (populate_both emb (path_join (cache ++ [s2l "tuf"]) dir) _ _ s Q) as (s1 & s2 & P1 & P2 & N & _ & _).
  unfold obind at 1 in H. rewrite P1 in H. unfold obind at 1 in H. rewrite P2 in H. unfold obind at 1, otry at 1 in H.
  unfold obind at 1, ret at 1, read_embedded in H. rewrite Q in H. cbn [bind] in H.
  assert (G : forall rj, (obind (otry (net_call (Net_refresh (rstrip_slash url)) (tl_refresh lib (rstrip_slash url) (path_join (data ++ [s2l "tuf"]) dir) (path_join (cache ++ [s2l "tuf"]) dir) rj)) any_exn
      (fun _ => ret (Raise ETUF))) (fun _ => ret (Ok (mkUpdater (rstrip_slash url) (path_join (cache ++ [s2l "tuf"]) dir) true)))) s2 = (Raise e, s') -> e = ETUF).
  { intros rj G. unfold obind, otry, net_call in G. destruct (tl_refresh lib _ _ _ rj (t_fs s2)) as [r f']. destruct r as [[]|e2]; unfold ret in G; [discriminate|]. cbn [any_exn] in G. congruence. }
  destruct (emb dir (s2l "root.json")) as [b|].
  - unfold ret at 1 in H. left. eapply G. eassumption.
  - cbn [exn_eqb] in H. unfold ret at 1 in H. destruct boot as [[b|e']|]; cbn [bind] in H.
    + left. eapply G. eassumption.
    + right. right. congruence.
    + left. eapply G. eassumption.
Qed.
Theorem C53_lookup_failures_are_tuf_errors_refuted : forall lib u name s f,
  u_online u = true -> tl_targetinfo lib (u_url u) name (t_fs s) = (Raise EDownload, f) ->
  fst (get_path lib u name s) = Raise EDownload /\ is_sigstore_error EDownload = false.
Proof. intros lib u name s f O H. split; [|reflexivity]. unfold get_path. rewrite O. unfold obind, net_call. rewrite H. reflexivity. Qed.

(** ** C55 *)

(** No offline operation changes a file that exists. *)
Theorem C55_files_kept : forall data cache lib emb s0 s us q b,
  offline_run data cache lib emb s0 s us -> t_fs s0 q = Some b -> t_fs s q = Some b.
Proof. intros data cache lib emb s0 s us q b R. apply (offline_run_inv _ _ _ _ _ _ _ R). Qed.
(** Creating an updater, online or not, hands the TUF library a file system in which every existing
    file is unchanged and new files are the two embedded artifacts at most. *)
Theorem C55_populate : forall data cache lib emb url offline boot s u s',
  make_updater data cache lib emb url offline boot s = (Ok u, s') ->
  exists f, (forall q b, t_fs s q = Some b -> f q = Some b) /\
    (forall q b, f q = Some b -> t_fs s q = Some b \/
       exists name dir, (name = s2l "trusted_root.json" \/ name = s2l "signing_config.v0.2.json") /\ quote (u_url u) = Ok dir /\
         q = locate (path_join (u_targets u) name) /\ emb dir name = Some b) /\
    (if offline then t_fs s' = f else exists m bootstrap, tl_refresh lib (u_url u) m (u_targets u) bootstrap f = (Ok tt, t_fs s')).
Proof.
  intros data cache lib emb url offline boot s u s' H. unfold make_updater in H. cbv zeta in H. unfold obind at 1, ret at 1 in H.
  unfold get_dirs in H. destruct (quote (rstrip_slash url)) as [dir|e] eqn:Q; cbn [bind] in H; [|discriminate].
  destruct (populate_both emb (path_join (cache ++ [s2l "tuf"]) dir) _ _ s Q) as (s1 & s2 & P1 & P2 & N & K & V).
  unfold obind at 1 in H. rewrite P1 in H. unfold obind at 1 in H. rewrite P2 in H.
  assert (U : u_url u = rstrip_slash url /\ u_targets u = path_join (cache ++ [s2l "tuf"]) dir /\
    (if offline then t_fs s' = t_fs s2 else exists m bootstrap, tl_refresh lib (u_url u) m (u_targets u) bootstrap (t_fs s2) = (Ok tt, t_fs s'))).
  { destruct offline; [unfold ret in H; inversion H; subst; auto|]. unfold obind at 1 in H.
    destruct (otry (obind (ret (read_embedded emb (s2l "root.json") (rstrip_slash url))) _) _ _ s2) as [[rj|e] s3] eqn:E1; [|discriminate].
    assert (s3 = s2).
    { unfold otry, obind, ret in E1. destruct (read_embedded emb (s2l "root.json") (rstrip_slash url)) as [b|e]; [congruence|]. destruct (exn_eqb EFileNotFound e); congruence. }
    subst s3. unfold obind, otry, net_call in H. destruct (tl_refresh lib _ _ _ rj (t_fs s2)) as [r f'] eqn:E. destruct r as [[]|e]; [|discriminate].
    unfold ret in H. inversion H; subst. cbn [u_url u_targets t_fs]. split; [reflexivity|]. split; [reflexivity|]. eauto. }
  destruct U as (U1 & U2 & U3). exists (t_fs s2).
  assert (KV : forall q, t_fs s2 q = t_fs s q \/ exists name, (name = TRUSTED_ROOT \/ name = SIGNING_CONFIG) /\ q = locate (path_join (u_targets u) name) /\
     t_fs s2 q = match t_fs s q with Some b => Some b | None => emb dir name end).
  { intros q. rewrite U2.
    destruct (path_eqb q (locate (path_join (path_join (cache ++ [s2l "tuf"]) dir) TRUSTED_ROOT))) eqn:E1.
    { apply path_eqb_spec in E1. subst q. right. exists TRUSTED_ROOT. split; [auto|]. split; [reflexivity|]. apply V. auto. }
    destruct (path_eqb q (locate (path_join (path_join (cache ++ [s2l "tuf"]) dir) SIGNING_CONFIG))) eqn:E2.
    { apply path_eqb_spec in E2. subst q. right. exists SIGNING_CONFIG. split; [auto|]. split; [reflexivity|]. apply V. auto. }
    left. apply K; intros X; rewrite X, path_eqb_refl in *; discriminate. }
  split; [|split; [|assumption]].
  - intros q b E. destruct (KV q) as [X|(name & _ & _ & X)]; rewrite X, E; reflexivity.
  - intros q b E. destruct (KV q) as [X|(name & Hn & -> & X)]; [left; congruence|]. rewrite X in E.
    destruct (t_fs s (locate (path_join (u_targets u) name))) as [b'|] eqn:Es; [left; congruence|].
    right. exists name, dir. rewrite U1. auto.
Qed.

(** ** Examples *)
Definition tx_lib : TufLib := mkTufLib unit (fun _ _ _ _ f => (Ok tt, f)) (fun _ n f => (Ok (Some tt), f)) (fun _ _ _ => None)
  (fun _ _ f => (Ok [s2l "dl"], f)).
Definition tx_emb (dir name : str) : option bytes :=
  if str_eqb dir (s2l "https%3A%2F%2Fexample.org%2Fr") && str_eqb name (s2l "trusted_root.json") then Some (s2b "old") else None.
Definition tx_file (name : String.string) : path := [s2l "cache"; s2l "tuf"; s2l "https%3A%2F%2Fexample.org%2Fr"; s2l name].
Definition tx_fs (l : list (path * bytes)) : fs := fun p => match find (fun x => path_eqb p (fst x)) l with Some x => Some (snd x) | None => None end.
Definition tx_from (l : list (path * bytes)) (offline : bool) :=
  let '(r, s) := from_tuf [s2l "data"] [s2l "cache"] tx_lib tx_emb (fun b => Ok b) (fun b => Ok b) (s2l "https://example.org/r//") offline None (mkT (tx_fs l) nil) in
  (r, t_net s, t_fs s (tx_file "trusted_root.json")).
Example ex_cached : tx_from [(tx_file "trusted_root.json", s2b "new"); (tx_file "signing_config.v0.2.json", s2b "sc")] true =
  (Ok (s2b "new", s2b "sc"), nil, Some (s2b "new")).
Proof. vm_compute. reflexivity. Qed.
Example ex_embedded : tx_from [(tx_file "signing_config.v0.2.json", s2b "sc")] true = (Ok (s2b "old", s2b "sc"), nil, Some (s2b "old")).
Proof. vm_compute. reflexivity. Qed.
Example ex_nothing : tx_from nil true = (Raise EFileNotFound, nil, Some (s2b "old")).
Proof. vm_compute. reflexivity. Qed.
Example ex_online : tx_from [([s2l "dl"], s2b "good"); (tx_file "trusted_root.json", s2b "stale")] false =
  (Ok (s2b "good", s2b "good"),
   [Net_refresh (s2l "https://example.org/r"); Net_targetinfo (s2l "https://example.org/r") (s2l "trusted_root.json"); Net_download (s2l "https://example.org/r") (s2l "trusted_root.json");
    Net_targetinfo (s2l "https://example.org/r") (s2l "signing_config.v0.2.json"); Net_download (s2l "https://example.org/r") (s2l "signing_config.v0.2.json")],
   Some (s2b "stale")).
Proof. vm_compute. reflexivity. Qed.
Example ex_offline_run : exists s us, offline_run [s2l "data"] [s2l "cache"] tx_lib tx_emb (mkT (tx_fs nil) nil) s us /\ length us = 2.
Proof.
  eexists; eexists. split.
  - eapply or_root.
    + eapply (or_make _ _ _ _ _ _ _ (s2l "https://other") None); [eapply (or_make _ _ _ _ _ _ _ (s2l "https://example.org/r") None); [apply or_start|]|]; vm_compute; reflexivity.
    + left. reflexivity.
    + vm_compute. reflexivity.
  - reflexivity.
Qed.

Print Assumptions C53_no_network.
Print Assumptions C53_offline_material.
Print Assumptions C53_online_path.
Print Assumptions C53_online_refreshed.
Print Assumptions C53_refresh_failure.
Print Assumptions C53_lookup_failures_are_tuf_errors_refuted.
Print Assumptions C54_directories.
Print Assumptions C54_no_collision.
Print Assumptions C54_updater_directory.
Print Assumptions C54_special_urls_refuted.
Print Assumptions C55_files_kept.
Print Assumptions C55_populate.
