(** Property C114: the results that the TUF client remembers. *)
From Verif Require Import Base Codec Messages ToyHash Env PyText Tuf PropsTuf TufCache.

(** ** Specification *)

(** fewer than 128 different updaters other than [k] are asked for this file *)
Definition few_others (k : nat) (f : file) (l : list event) : Prop :=
  forall ks, NoDup ks -> (forall k', In k' ks -> k' <> k /\ In (Ask k' f) l) -> length ks < 128.

Section Props.
Variables data_dir cache_dir : path.
Variable lib : TufLib.
Variable embedded : str -> str -> option bytes.
Notation run := (run data_dir cache_dir lib embedded).
Notation happen := (happen data_dir cache_dir lib embedded).
Notation ask := (ask lib).
Notation load := (load data_dir cache_dir lib embedded).

(** ** Proofs *)

Definition keys (c : lru) : list nat := map fst c.
Definition fine_cache (n : nat) (c : lru) : Prop := NoDup (keys c) /\ length c <= 128 /\ forall k, In k (keys c) -> k < n.
Definition inv (y : proc) : Prop := forall f, fine_cache (length (pr_updaters y)) (cache_of y f).

Lemma assoc_none : forall k (c : lru), assoc Nat.eqb k c = None <-> ~ In k (keys c).
Proof.
  intros k. induction c as [|[k0 p0] c IH]; cbn; [tauto|]. destruct (Nat.eqb_spec k k0) as [<-|N].
  - split; [discriminate|]. intros H. exfalso. apply H. left. reflexivity.
  - rewrite IH. split; [intros H [X|X]; [congruence|tauto]|tauto].
Qed.
Lemma assoc_in : forall k (c : lru) p, assoc Nat.eqb k c = Some p -> In (k, p) c.
Proof.
  intros k. induction c as [|[k0 p0] c IH]; intros p; cbn; [discriminate|]. destruct (Nat.eqb_spec k k0) as [<-|N].
  - intros H. inversion H. left. reflexivity.
  - intros H. right. auto.
Qed.
Lemma in_assoc : forall k (c : lru) p, NoDup (keys c) -> In (k, p) c -> assoc Nat.eqb k c = Some p.
Proof.
  intros k c p D I. destruct (assoc Nat.eqb k c) as [q|] eqn:E.
  - apply assoc_in in E. f_equal. revert D I E. induction c as [|[k0 p0] c IH]; [intros _ []|]. cbn. intros D I E. inversion D as [|? ? N0 D0]; subst.
    assert (X : forall z, In (k, z) c -> In k (keys c)) by (intros z Z; apply in_map_iff; exists (k, z); auto).
    destruct I as [I|I], E as [E|E]; try congruence.
    + inversion I; subst. exfalso. eauto.
    + inversion E; subst. exfalso. eauto.
    + auto.
  - apply assoc_none in E. exfalso. apply E. apply in_map_iff. exists (k, p). auto.
Qed.
Lemma forget_keys : forall k c k', In k' (keys (forget k c)) <-> In k' (keys c) /\ k' <> k.
Proof.
  intros k c k'. unfold keys, forget. rewrite !in_map_iff. split.
  - intros (x & <- & I). apply filter_In in I. destruct I as [I N]. split; [exists x; auto|]. apply negb_true_iff, Nat.eqb_neq in N. assumption.
  - intros ((x & <- & I) & N). exists x. split; [reflexivity|]. apply filter_In. split; [assumption|]. apply negb_true_iff, Nat.eqb_neq. assumption.
Qed.
Lemma forget_nodup : forall k c, NoDup (keys c) -> NoDup (keys (forget k c)).
Proof.
  intros k c. induction c as [|x c IH]; cbn; [auto|]. intros D. inversion D as [|? ? N0 D0]; subst. destruct (Nat.eqb (fst x) k); cbn; [auto|].
  constructor; [|apply IH; assumption]. intros X. apply (proj1 (forget_keys k c (fst x))) in X. apply N0. apply X.
Qed.
Lemma forget_length : forall k c, In k (keys c) -> NoDup (keys c) -> S (length (forget k c)) = length c.
Proof.
  intros k. induction c as [|x c IH]; [intros []|]. cbn [keys map forget filter length]. intros I D. inversion D as [|? ? N0 D0]; subst.
  destruct (Nat.eqb_spec (fst x) k) as [E|E]; cbn [negb].
  - f_equal. clear IH I D D0. subst k. induction c as [|y c IH]; [reflexivity|]. cbn in N0 |- *. destruct (Nat.eqb_spec (fst y) (fst x)) as [E|E]; cbn.
    + exfalso. apply N0. left. assumption.
    + f_equal. apply IH. tauto.
  - cbn. f_equal. apply IH; [|assumption]. destruct I as [I|I]; [contradiction|assumption].
Qed.
Lemma removelast_keys : forall (c : lru), keys (removelast c) = removelast (keys c).
Proof. induction c as [|x [|y c] IH]; [reflexivity..|]. cbn in *. rewrite IH. reflexivity. Qed.
Lemma removelast_in : forall A (l : list A) x, In x (removelast l) -> In x l.
Proof. intros A l x. induction l as [|a [|b l] IH]; [intros []..|]. intros [->|I]; [left; reflexivity|right; apply IH; assumption]. Qed.
Lemma removelast_nodup : forall A (l : list A), NoDup l -> NoDup (removelast l).
Proof.
  intros A l. induction l as [|a [|b l] IH]; intros D; [constructor..|]. inversion D as [|? ? N0 D0]; subst.
  change (removelast (a :: b :: l)) with (a :: removelast (b :: l)). constructor; [|auto]. intros I. apply N0. apply removelast_in. assumption.
Qed.
Lemma removelast_length : forall A (l : list A), length (removelast l) = pred (length l).
Proof. intros A l. induction l as [|a [|b l] IH]; [reflexivity..|]. cbn in *. rewrite IH. reflexivity. Qed.

Lemma cached_fine : forall n c k m s r s' c', fine_cache n c -> k < n -> cached c k m s = (r, s', c') -> fine_cache n c'.
Proof.
  intros n c k m s r s' c' (D & L & B) Lt H. unfold cached in H. destruct (assoc Nat.eqb k c) as [p|] eqn:A.
  - inversion H; subst. assert (Ik : In k (keys c)) by (apply in_map_iff; exists (k, p); split; [reflexivity|apply assoc_in; assumption]).
    split; [|split].
    + cbn. constructor; [|apply forget_nodup; assumption]. intros X. apply (proj1 (forget_keys k c k)) in X. tauto.
    + cbn [length]. rewrite forget_length; assumption.
    + intros k' [<-|I]; [assumption|]. apply forget_keys in I. apply B. tauto.
  - apply assoc_none in A. destruct (m s) as [[p|e] s1]; [|inversion H; subst; repeat split; assumption].
    destruct (Nat.leb_spec maxsize (length c)) as [G|G]; inversion H; subst; (split; [|split]).
    + change (NoDup (k :: keys (removelast c))). rewrite removelast_keys. constructor; [intros I; apply A; apply removelast_in; assumption|apply removelast_nodup; assumption].
    + cbn [length]. rewrite removelast_length. change maxsize with 128 in G. lia.
    + intros k' [<-|I]; [assumption|]. change (In k' (keys (removelast c))) in I. rewrite removelast_keys in I. apply B. apply removelast_in. assumption.
    + cbn. constructor; assumption.
    + cbn [length]. change maxsize with 128 in G. lia.
    + intros k' [<-|I]; [assumption|]. apply B. assumption.
Qed.

Lemma ask_cases : forall y k f r y', ask y k f = (r, y') ->
  (nth_error (pr_updaters y) k = None /\ y' = y /\ r = Raise EAttribute) \/
  exists u s c, nth_error (pr_updaters y) k = Some u /\ cached (cache_of y f) k (get_path lib u (file_name f)) (pr_state y) = (r, s, c) /\
    y' = with_cache y f s c.
Proof.
  intros y k f r y' H. unfold TufCache.ask in H. destruct (nth_error (pr_updaters y) k) as [u|]; [|left; inversion H; auto].
  right. exists u. destruct (cached _ _ _ _) as [[r0 s] c]. inversion H; subst. eauto.
Qed.
Lemma with_cache_same : forall y f s c, cache_of (with_cache y f s c) f = c.
Proof. intros y [] s c; reflexivity. Qed.
Lemma with_cache_other : forall y f f' s c, f <> f' -> cache_of (with_cache y f s c) f' = cache_of y f'.
Proof. intros y [] [] s c H; congruence || reflexivity. Qed.
Lemma with_cache_updaters : forall y f s c, pr_updaters (with_cache y f s c) = pr_updaters y.
Proof. intros y [] s c; reflexivity. Qed.
Lemma with_cache_state : forall y f s c, pr_state (with_cache y f s c) = s.
Proof. intros y [] s c; reflexivity. Qed.
Lemma file_dec : forall f f' : file, {f = f'} + {f <> f'}.
Proof. decide equality. Qed.

Lemma new_caches : forall y url o b f, cache_of (snd (new_updater data_dir cache_dir lib embedded y url o b)) f = cache_of y f.
Proof. intros y url o b f. unfold new_updater. destruct (make_updater _ _ _ _ _ _ _ _) as [[u|e] s]; destruct f; reflexivity. Qed.
Lemma new_updaters : forall y url o b, exists l, pr_updaters (snd (new_updater data_dir cache_dir lib embedded y url o b)) = pr_updaters y ++ l.
Proof.
  intros y url o b. unfold new_updater. destruct (make_updater _ _ _ _ _ _ _ _) as [[u|e] s]; [exists [u]; reflexivity|].
  exists []. symmetry. apply app_nil_r.
Qed.
Lemma happen_updaters : forall y e, exists l, pr_updaters (happen y e) = pr_updaters y ++ l.
Proof.
  intros y [url o b|k f|g]; cbn [TufCache.happen].
  - apply new_updaters.
  - exists []. rewrite app_nil_r. destruct (ask y k f) as [r y'] eqn:A. cbn [snd]. apply ask_cases in A. destruct A as [(_ & -> & _)|(u & s & c & _ & _ & ->)]; [reflexivity|apply with_cache_updaters].
  - exists []. symmetry. apply app_nil_r.
Qed.
Lemma fine_more : forall n m c, n <= m -> fine_cache n c -> fine_cache m c.
Proof. intros n m c L (A & B & C). repeat split; auto. intros k I. specialize (C k I). lia. Qed.
Lemma happen_inv : forall y e, inv y -> inv (happen y e).
Proof.
  intros y e I f. destruct (happen_updaters y e) as (l & E). rewrite E, app_length.
  apply fine_more with (n := length (pr_updaters y)); [lia|]. destruct e as [url o b|k g|g]; cbn [TufCache.happen].
  - rewrite new_caches. apply I.
  - destruct (ask y k g) as [r y'] eqn:A. cbn [snd]. apply ask_cases in A. destruct A as [(_ & -> & _)|(u & s & c & U & C & ->)]; [apply I|].
    destruct (file_dec g f) as [<-|N]; [|rewrite with_cache_other by assumption; apply I]. rewrite with_cache_same.
    eapply cached_fine; [apply I| |eassumption]. apply nth_error_Some. congruence.
  - destruct f; [apply (I F_root)|apply (I F_config)].
Qed.
Lemma run_inv : forall l y, inv y -> inv (run y l).
Proof. induction l as [|e l IH]; intros y I; [assumption|]. apply IH. apply happen_inv. assumption. Qed.
Lemma start_inv : forall s, inv (start s).
Proof. intros s f. destruct f; repeat split; cbn; try lia; try constructor; intros ? []. Qed.
Lemma reach_inv : forall s l, inv (run (start s) l).
Proof. intros s l. apply run_inv, start_inv. Qed.

(** *** The caches are bounded *)
Theorem C114_bounded : forall s l f, length (cache_of (run (start s) l) f) <= 128 /\ NoDup (map fst (cache_of (run (start s) l) f)).
Proof. intros s l f. destruct (reach_inv s l f) as (D & L & _). auto. Qed.

Lemma obind_eq : forall A B (m : op A) (k : A -> op B) s,
  obind m k s = match m s with (Ok x, s') => k x s' | (Raise e, s') => (Raise e, s') end.
Proof. intros A B m k s. unfold obind. destruct (m s) as [[x|e] s']; reflexivity. Qed.

Lemma read_bytes_eq : forall p s, read_bytes p s = (match fs_read (t_fs s) p with Some b => Ok b | None => Raise EFileNotFound end, s).
Proof. reflexivity. Qed.

(** *** Loading a trust configuration is as if nothing were remembered *)
Theorem C114_loading_unaffected : forall TR SC (ptr : bytes -> res TR) (psc : bytes -> res SC) s0 l url offline boot,
  let y := run (start s0) l in
  fst (load ptr psc y url offline boot) = fst (from_tuf data_dir cache_dir lib embedded ptr psc url offline boot (pr_state y)) /\
  pr_state (snd (load ptr psc y url offline boot)) = snd (from_tuf data_dir cache_dir lib embedded ptr psc url offline boot (pr_state y)).
Proof.
  intros TR SC ptr psc s0 l url offline boot y. pose proof (reach_inv s0 l) as I. fold y in I. clearbody y.
  set (F := from_tuf _ _ _ _ _ _ _ _ _ _). assert (HF : F = from_tuf data_dir cache_dir lib embedded ptr psc url offline boot (pr_state y)) by reflexivity.
  clearbody F. unfold TufCache.load, new_updater. unfold from_tuf in HF. rewrite obind_eq in HF.
  destruct (make_updater data_dir cache_dir lib embedded url offline boot (pr_state y)) as [[u|e] s1]; [|subst F; split; reflexivity].
  set (y1 := mkProc s1 (pr_updaters y ++ [u]) (pr_roots y) (pr_configs y)).
  assert (U : nth_error (pr_updaters y1) (length (pr_updaters y)) = Some u) by (cbn [pr_updaters y1]; rewrite nth_error_app2, Nat.sub_diag; [reflexivity|lia]).
  assert (N : forall f, assoc Nat.eqb (length (pr_updaters y)) (cache_of y f) = None).
  { intros f. apply assoc_none. intros X. destruct (I f) as (_ & _ & B). specialize (B _ X). lia. }
  rewrite obind_eq in HF. unfold get_trusted_root_path in HF.
  assert (A1 : ask y1 (length (pr_updaters y)) F_root = let '(r, s, c) := match get_path lib u TRUSTED_ROOT s1 with
     | (Ok p, s') => (Ok p, s', (length (pr_updaters y), p) :: (if maxsize <=? length (pr_roots y) then removelast (pr_roots y) else pr_roots y))
     | (Raise e, s') => (Raise e, s', pr_roots y) end in (r, with_cache y1 F_root s c)).
  { unfold TufCache.ask. rewrite U. unfold cached. change (cache_of y1 F_root) with (cache_of y F_root). rewrite N. reflexivity. }
  rewrite A1. clear A1.
  destruct (get_path lib u TRUSTED_ROOT s1) as [[tp|e] s2]; [|subst F; split; reflexivity].
  match goal with |- context [with_cache y1 F_root s2 ?c] => generalize c; intros c1 end.
  rewrite obind_eq in HF. rewrite read_bytes_eq in HF. rewrite with_cache_state.
  destruct (fs_read (t_fs s2) tp) as [tb|]; [|subst F; split; reflexivity]. cbn [bind]. rewrite obind_eq in HF. unfold ret at 1 in HF.
  destruct (ptr tb) as [tr|e]; [|subst F; split; reflexivity].
  rewrite obind_eq in HF. unfold get_signing_config_path in HF.
  assert (A2 : ask (with_cache y1 F_root s2 c1) (length (pr_updaters y)) F_config = let '(r, s, c) := match get_path lib u SIGNING_CONFIG s2 with
     | (Ok p, s') => (Ok p, s', (length (pr_updaters y), p) :: (if maxsize <=? length (pr_configs y) then removelast (pr_configs y) else pr_configs y))
     | (Raise e, s') => (Raise e, s', pr_configs y) end in (r, with_cache (with_cache y1 F_root s2 c1) F_config s c)).
  { unfold TufCache.ask. rewrite with_cache_updaters, U. unfold cached. rewrite with_cache_other by discriminate.
    change (cache_of y1 F_config) with (cache_of y F_config). rewrite N. reflexivity. }
  rewrite A2. clear A2.
  destruct (get_path lib u SIGNING_CONFIG s2) as [[sp|e] s3]; [|subst F; split; reflexivity].
  match goal with |- context [with_cache _ F_config s3 ?c] => generalize c; intros c2 end.
  rewrite obind_eq in HF. rewrite read_bytes_eq in HF. rewrite with_cache_state.
  destruct (fs_read (t_fs s3) sp) as [sb|]; [|subst F; split; reflexivity]. cbn [bind]. rewrite obind_eq in HF. unfold ret in HF.
  destruct (psc sb) as [sc|e]; subst F; split; reflexivity.
Qed.

(** *** An exception is not remembered *)
Theorem C114_failures_retried : forall y k f e y', ask y k f = (Raise e, y') ->
  cache_of y' F_root = cache_of y F_root /\ cache_of y' F_config = cache_of y F_config /\
  (forall u, nth_error (pr_updaters y) k = Some u ->
     get_path lib u (file_name f) (pr_state y) = (Raise e, pr_state y') /\
     (* the next call looks again *)
     forall s, fst (ask (with_cache y' f s (cache_of y' f)) k f) = fst (get_path lib u (file_name f) s)).
Proof.
  intros y k f e y' H. apply ask_cases in H. destruct H as [(N & -> & _)|(u & s & c & U & C & ->)].
  - split; [reflexivity|]. split; [reflexivity|]. intros u X. congruence.
  - unfold cached in C. destruct (assoc Nat.eqb k (cache_of y f)) as [p|] eqn:A; [discriminate|].
    destruct (get_path lib u (file_name f) (pr_state y)) as [[p|e'] s'] eqn:G; inversion C; subst.
    split; [destruct f; reflexivity|]. split; [destruct f; reflexivity|]. intros u' U'. rewrite U in U'. inversion U'; subst u'.
    split; [rewrite with_cache_state; assumption|]. intros s2. unfold TufCache.ask. rewrite !with_cache_updaters, U, !with_cache_same, with_cache_state.
    unfold cached. rewrite A. destruct (get_path lib u (file_name f) s2) as [[p|e2] s3]; reflexivity.
Qed.

(** *** What is remembered is an earlier answer of the same updater for the same file *)
Lemma happen_cached : forall y e k f p, In (k, p) (cache_of (happen y e) f) ->
  In (k, p) (cache_of y f) \/
  (e = Ask k f /\ exists u s', nth_error (pr_updaters y) k = Some u /\ get_path lib u (file_name f) (pr_state y) = (Ok p, s')).
Proof.
  intros y [url o b|k0 g|g] k f p; cbn [TufCache.happen].
  - rewrite new_caches. auto.
  - destruct (ask y k0 g) as [r y'] eqn:A. cbn [snd]. apply ask_cases in A. destruct A as [(_ & -> & _)|(u & s & c & U & C & ->)]; [auto|].
    destruct (file_dec g f) as [<-|N]; [|rewrite with_cache_other by assumption; auto]. rewrite with_cache_same. intros H.
    unfold cached in C. destruct (assoc Nat.eqb k0 (cache_of y g)) as [q|] eqn:As.
    + inversion C; subst. left. destruct H as [H|H]; [inversion H; subst; apply assoc_in; assumption|]. unfold forget in H. apply filter_In in H. tauto.
    + destruct (get_path lib u (file_name g) (pr_state y)) as [[q|e] s'] eqn:G; [|inversion C; subst; auto].
      destruct (maxsize <=? length (cache_of y g)); inversion C; subst; (destruct H as [H|H]; [inversion H; subst; right; eauto 6|]); left; [apply removelast_in in H|]; assumption.
  - destruct f; auto.
Qed.
Theorem C114_own_answer : forall s0 l k f p y', ask (run (start s0) l) k f = (Ok p, y') ->
  exists l1 l2 u s', l ++ [Ask k f] = l1 ++ Ask k f :: l2 /\ nth_error (pr_updaters (run (start s0) l1)) k = Some u /\
    get_path lib u (file_name f) (pr_state (run (start s0) l1)) = (Ok p, s').
Proof.
  intros s0 l k f p y' H. apply ask_cases in H. destruct H as [(_ & _ & X)|(u & s & c & U & C & ->)]; [discriminate|].
  unfold cached in C. destruct (assoc Nat.eqb k (cache_of (run (start s0) l) f)) as [q|] eqn:A.
  - inversion C; subst. apply assoc_in in A.
    assert (G : forall l, In (k, p) (cache_of (run (start s0) l) f) -> exists l1 l2 u s', l = l1 ++ Ask k f :: l2 /\
              nth_error (pr_updaters (run (start s0) l1)) k = Some u /\ get_path lib u (file_name f) (pr_state (run (start s0) l1)) = (Ok p, s')).
    { clear. intros l. induction l as [|e l IH] using rev_ind; intros I; [destruct f; destruct I|].
      unfold TufCache.run in I. rewrite fold_left_app in I. cbn [fold_left] in I. apply happen_cached in I.
      destruct I as [I|(-> & u & s' & U & G)].
      - destruct (IH I) as (l1 & l2 & u & s' & -> & R). exists l1, (l2 ++ [e]), u, s'. rewrite <- app_assoc. auto.
      - exists l, [], u, s'. auto. }
    destruct (G l A) as (l1 & l2 & u' & s' & -> & R). exists l1, (l2 ++ [Ask k f]), u', s'. rewrite <- app_assoc. auto.
  - destruct (get_path lib u (file_name f) (pr_state (run (start s0) l))) as [[q|e] s'] eqn:G; inversion C; subst.
    exists l, [], u, s. auto.
Qed.

(** *** It is remembered until 128 others have been asked *)
Definition recent (k : nat) (p : path) (f : file) (seen : list event) (y : proc) : Prop :=
  exists pre post, cache_of y f = pre ++ (k, p) :: post /\ forall k', In k' (keys pre) -> In (Ask k' f) seen.

Lemma forget_app : forall k a b, forget k (a ++ b) = forget k a ++ forget k b.
Proof. intros. apply filter_app. Qed.
Lemma removelast_snoc : forall A (l : list A) x y, removelast (l ++ x :: y) = l ++ removelast (x :: y).
Proof. intros. apply removelast_app. discriminate. Qed.

Lemma recent_step : forall k p f seen y e, inv y -> recent k p f seen y -> few_others k f (seen ++ [e]) ->
  recent k p f (seen ++ [e]) (happen y e).
Proof.
  intros k p f seen y e Iv (pre & post & E & Sn) Fw.
  assert (Mono : forall k', In (Ask k' f) seen -> In (Ask k' f) (seen ++ [e])) by (intros; apply in_or_app; auto).
  assert (Keep : cache_of (happen y e) f = cache_of y f -> recent k p f (seen ++ [e]) (happen y e)).
  { intros Q. exists pre, post. split; [congruence|]. auto. }
  destruct e as [url o b|k0 g|g]; cbn [TufCache.happen] in *; [apply Keep, new_caches| |apply Keep; destruct f; reflexivity].
  destruct (ask y k0 g) as [r y'] eqn:A. cbn [snd] in *. apply ask_cases in A. destruct A as [(_ & -> & _)|(u & s & c & U & C & ->)]; [apply Keep; reflexivity|].
  destruct (file_dec g f) as [->|N]; [|apply Keep; apply with_cache_other; assumption]. clear Keep.
  destruct (Iv f) as (D & L & _).
  assert (Lk : In (Ask k0 f) (seen ++ [Ask k0 f])) by (apply in_or_app; right; left; reflexivity).
  unfold recent. rewrite with_cache_same. unfold cached in C. destruct (assoc Nat.eqb k0 (cache_of y f)) as [q|] eqn:As.
  - inversion C; subst. clear C. destruct (Nat.eq_dec k0 k) as [->|Ne].
    + assert (q = p). { assert (X : assoc Nat.eqb k (cache_of y f) = Some p) by (apply in_assoc; [assumption|]; rewrite E; apply in_or_app; right; left; reflexivity). congruence. }
      subst q. exists [], (forget k (cache_of y f)). split; [reflexivity|]. intros ? [].
    + rewrite E, forget_app. cbn [forget filter fst]. destruct (Nat.eqb_spec k k0) as [Q|_]; [congruence|]. cbn [negb].
      exists ((k0, q) :: forget k0 pre), (forget k0 post). split; [reflexivity|]. intros k' [<-|I]; [assumption|]. apply forget_keys in I. apply Mono, Sn. tauto.
  - destruct (get_path lib u (file_name f) (pr_state y)) as [[q|e] s']; [|inversion C; subst; clear C; exists pre, post; split; [assumption|]; auto].
    apply assoc_none in As. assert (Ne : k0 <> k) by (intros ->; apply As; rewrite E; unfold keys; rewrite map_app; apply in_or_app; right; left; reflexivity).
    destruct (Nat.leb_spec maxsize (length (cache_of y f))) as [G|G]; inversion C; subst; clear C; change maxsize with 128 in G.
    + rewrite E in *. destruct post as [|z post].
      * exfalso. rewrite app_length in *. cbn [length] in *. assert (Lp : length pre = 127) by lia.
        unfold keys in As, D. rewrite map_app in As, D. cbn [map fst] in As, D.
        apply NoDup_remove in D. rewrite app_nil_r in D. destruct D as [Dp Np].
        assert (Q : length (k0 :: keys pre) < 128).
        { apply Fw.
          - constructor; [|assumption]. intros X. apply As. apply in_or_app. left. assumption.
          - intros k' [<-|I]; [split; assumption|]. split; [intros ->; contradiction|apply Mono, Sn; assumption]. }
        cbn [length] in Q. unfold keys in Q. rewrite map_length, Lp in Q. lia.
      * rewrite removelast_snoc. change (removelast ((k, p) :: z :: post)) with ((k, p) :: removelast (z :: post)).
        exists ((k0, q) :: pre), (removelast (z :: post)). split; [reflexivity|]. intros k' [<-|I]; [assumption|]. auto.
    + rewrite E. exists ((k0, q) :: pre), post. split; [reflexivity|]. intros k' [<-|I]; [assumption|]. auto.
Qed.

Lemma few_prefix : forall k f l1 l2, few_others k f (l1 ++ l2) -> few_others k f l1.
Proof. intros k f l1 l2 H ks D I. apply H; [assumption|]. intros k' X. destruct (I k' X). split; [assumption|apply in_or_app; left; assumption]. Qed.
Lemma recent_run : forall k p f l2 seen y, inv y -> recent k p f seen y -> few_others k f (seen ++ l2) -> recent k p f (seen ++ l2) (run y l2).
Proof.
  intros k p f. induction l2 as [|e l2 IH]; intros seen y I R F; [rewrite app_nil_r; assumption|].
  change (run y (e :: l2)) with (run (happen y e) l2). replace (seen ++ e :: l2) with ((seen ++ [e]) ++ l2) in * by (rewrite <- app_assoc; reflexivity).
  apply IH; [apply happen_inv; assumption| |assumption]. apply recent_step; [assumption..|]. eapply few_prefix. eassumption.
Qed.

Theorem C114_remembered : forall s0 l k f p y1 l2,
  ask (run (start s0) l) k f = (Ok p, y1) -> few_others k f l2 ->
  let y2 := run y1 l2 in
  fst (ask y2 k f) = Ok p /\ pr_state (snd (ask y2 k f)) = pr_state y2.
Proof.
  intros s0 l k f p y1 l2 H Fw y2.
  assert (I1 : inv y1). { replace y1 with (happen (run (start s0) l) (Ask k f)) by (cbn [TufCache.happen]; rewrite H; reflexivity). apply happen_inv, reach_inv. }
  assert (R1 : recent k p f [] y1 /\ exists u, nth_error (pr_updaters y1) k = Some u).
  { apply ask_cases in H. destruct H as [(_ & _ & X)|(u & s & c & U & C & ->)]; [discriminate|]. split; [|exists u; rewrite with_cache_updaters; assumption].
    unfold recent. rewrite with_cache_same. unfold cached in C. destruct (assoc Nat.eqb k (cache_of (run (start s0) l) f)) as [q|].
    - inversion C; subst. eexists [], _. split; [reflexivity|]. intros ? [].
    - destruct (get_path lib u (file_name f) (pr_state (run (start s0) l))) as [[q|e] s']; inversion C; subst. eexists [], _. split; [reflexivity|]. intros ? []. }
  destruct R1 as [R1 (u & U1)].
  pose proof (recent_run k p f l2 [] y1 I1 R1 Fw) as (pre & post & E & _). cbn [app] in E. fold y2 in E.
  assert (U2 : nth_error (pr_updaters y2) k = Some u).
  { assert (X : forall l y, nth_error (pr_updaters y) k = Some u -> nth_error (pr_updaters (run y l)) k = Some u).
    { clear. induction l as [|e l IH]; intros y H; [assumption|]. apply IH. destruct (happen_updaters y e) as (m & ->).
      rewrite nth_error_app1; [assumption|]. apply nth_error_Some. congruence. }
    apply X. assumption. }
  assert (A : assoc Nat.eqb k (cache_of y2 f) = Some p).
  { apply in_assoc; [apply (run_inv l2 y1 I1 f)|]. rewrite E. apply in_or_app. right. left. reflexivity. }
  unfold TufCache.ask. rewrite U2. unfold cached. rewrite A. cbn [fst snd]. split; [reflexivity|apply with_cache_state].
Qed.
End Props.

(** *** But not for ever: after 128 others the repository is asked again, and may answer differently. *)
Definition tc_lib : TufLib := mkTufLib unit (fun _ _ _ _ f => (Ok tt, f)) (fun _ n f => (Ok (Some tt), f))
  (fun _ _ f => match f [s2l "x"] with Some _ => Some [s2l "old"] | None => Some [s2l "new"] end) (fun _ _ f => (Raise EDownload, f)).
Definition tc_fs (x : bool) : fs := fun p => if x && path_eqb p [s2l "x"] then Some nil else None.
Definition tc_url : str := s2l "https://tuf.example".
Notation tc_run := (run [s2l "data"] [s2l "cache"] tc_lib (fun _ _ => None)).
Theorem C114_for_ever_refuted : exists data cache lib emb s0 l k f p y1 l2 p',
  ask lib (run data cache lib emb (start s0) l) k f = (Ok p, y1) /\
  fst (ask lib (run data cache lib emb y1 l2) k f) = Ok p' /\ p <> p' /\
  length (pr_updaters (run data cache lib emb y1 l2)) = 129.
Proof.
  exists [s2l "data"], [s2l "cache"], tc_lib, (fun _ _ => None), (mkT (tc_fs true) nil), (repeat (New tc_url false None) 129), 0, F_root, [s2l "old"].
  exists (snd (ask tc_lib (tc_run (start (mkT (tc_fs true) nil)) (repeat (New tc_url false None) 129)) 0 F_root)).
  exists (Others (tc_fs false) :: map (fun k => Ask k F_root) (seq 1 128)), [s2l "new"].
  split; [|split; [|split]].
  - match goal with |- ?a = (_, snd ?b) => change (a = (Ok [s2l "old"], snd a)) end.
    assert (X : fst (ask tc_lib (tc_run (start (mkT (tc_fs true) nil)) (repeat (New tc_url false None) 129)) 0 F_root) = Ok [s2l "old"]) by (vm_compute; reflexivity).
    destruct (ask tc_lib _ 0 F_root) as [r y]. cbn [fst] in X. subst r. reflexivity.
  - vm_compute. reflexivity.
  - discriminate.
  - vm_compute. reflexivity.
Qed.

(** *** Concrete cases: three updaters; the third is offline.  The answers of the first are kept
    although the repository has changed. *)
Definition tc_y1 : proc := tc_run (start (mkT (tc_fs true) nil)) [New tc_url false None; New tc_url false None; New tc_url true None; Ask 1 F_root].
Example ex_remembered :
  fst (ask tc_lib tc_y1 0 F_root) = Ok [s2l "old"] /\
  few_others 0 F_root [Others (tc_fs false); Ask 1 F_root; Ask 2 F_root; Ask 0 F_config] /\
  (let y2 := tc_run (snd (ask tc_lib tc_y1 0 F_root)) [Others (tc_fs false); Ask 1 F_root; Ask 2 F_root; Ask 0 F_config] in
   fst (ask tc_lib y2 0 F_root) = Ok [s2l "old"] /\ fst (ask tc_lib y2 1 F_root) = Ok [s2l "old"] /\
   fst (ask tc_lib y2 1 F_config) = Ok [s2l "new"] /\ fst (ask tc_lib y2 2 F_root) <> Ok [s2l "new"]).
Proof.
  split; [vm_compute; reflexivity|]. split.
  - intros ks D I. assert (X : incl ks [1; 2]).
    { intros k K. destruct (I k K) as [_ [X|[X|[X|[X|[]]]]]]; try discriminate; inversion X; cbn; auto. }
    apply NoDup_incl_length in X; [|assumption]. cbn in X. lia.
  - repeat split; try (vm_compute; reflexivity). vm_compute. discriminate.
Qed.
(** an exception: the path is looked up again *)
Definition tc_bad : TufLib := mkTufLib unit (fun _ _ _ _ f => (Ok tt, f)) (fun _ n f => (Ok (match f [s2l "x"] with Some _ => Some tt | None => None end), f))
  (fun _ _ f => Some [s2l "p"]) (fun _ _ f => (Raise EDownload, f)).
Example ex_retried :
  let run := run [s2l "data"] [s2l "cache"] tc_bad (fun _ _ => None) in
  let y := run (start (mkT (tc_fs false) nil)) [New tc_url false None] in
  fst (ask tc_bad y 0 F_root) = Raise ETUF /\
  fst (ask tc_bad (run (snd (ask tc_bad y 0 F_root)) [Others (tc_fs true)]) 0 F_root) = Ok [s2l "p"].
Proof. split; vm_compute; reflexivity. Qed.

Print Assumptions C114_bounded.
Print Assumptions C114_loading_unaffected.
Print Assumptions C114_failures_retried.
Print Assumptions C114_own_answer.
Print Assumptions C114_remembered.
Print Assumptions C114_for_ever_refuted.
