(** Property C105, the trust cache: processes that are interrupted while they obtain their trust configuration. *)
From Verif Require Import Base Messages Codec Tuf PropsTuf TufShared PropsTufShared.

(** ** Specification *)

(** the names of the two files *)
Definition artifact (name : str) : Prop := name = s2l "trusted_root.json" \/ name = s2l "signing_config.v0.2.json".

(** the embedded copy that belongs at a location of the cache of one of these repositories *)
Definition copy_at (embedded : str -> str -> option bytes) (cache_dir : path) (jobs : list (str * option (res bytes))) (q : path) (e : bytes) : Prop :=
  exists job name u dir, In job jobs /\ artifact name /\ strips_to (fst job) u /\ quote u = Ok dir /\
    q = locate (path_join (path_join (cache_dir ++ [s2l "tuf"]) dir) name) /\ embedded dir name = Some e.

(** ** Proofs *)

Section Cache.
Variables (data cache : path) (lib : TufProgs) (emb : str -> str -> option bytes).
Context {TR SC : Type} (ptr : bytes -> res TR) (psc : bytes -> res SC).

Lemma copies_at : forall jobs q e, copies cache emb jobs q e -> copy_at emb cache jobs q e.
Proof.
  intros jobs q e (job & name & dir & I & N & Q & E & Em). exists job, name, (rstrip_slash (fst job)), dir.
  split; [exact I|]. split; [exact N|]. split; [apply rstrip_slash_spec|]. auto.
Qed.

(** However many offline processes there were, and wherever each of them was interrupted: the files that were
    there have their content; a file that was not there is missing, or is the embedded copy of its repository,
    or is empty. *)
Theorem C105_cache_interrupted : forall jobs schedule f ps' f',
  (forall job u, In job jobs -> strips_to (fst job) u -> ordinary u) ->
  exec schedule (map (offline_process data cache lib emb ptr psc) jobs) f = (ps', f') ->
  forall q, match f q with
            | Some b => f' q = Some b
            | None => f' q = None \/ exists e, copy_at emb cache jobs q e /\ (f' q = Some e \/ f' q = Some nil)
            end.
Proof.
  intros jobs schedule f ps' f' O H q. destruct (exec_together _ _ _ _ _ _ _ _ _ (start_together data cache lib emb ptr psc jobs f O) H) as ((S & _ & _) & _).
  specialize (S q). unfold seen in S. destruct (f q); [exact S|]. destruct S as [[N _]|(e & C & X)]; [left; exact N|right].
  exists e. split; [apply copies_at, C|]. tauto.
Qed.

Lemma replace_len : forall A (l : list A) i x, length (replace l i x) = length l.
Proof. intros A l. induction l as [|a l IH]; intros [|i] x; cbn; [reflexivity|reflexivity|reflexivity|rewrite IH; reflexivity]. Qed.

(** what an offline process that nobody disturbs sees of a file, and its result *)
Definition sees (f : fs) (dir name : str) : res bytes :=
  match f (locate (path_join (path_join (cache ++ [s2l "tuf"]) dir) name)) with
  | Some b => Ok b
  | None => match emb dir name with Some e => Ok e | None => Raise EFileNotFound end
  end.

Lemma run_offline : forall job f, fst (run (offline_process data cache lib emb ptr psc job) f) =
  match quote (rstrip_slash (fst job)) with
  | Raise e => Raise e
  | Ok dir => let* tb := sees f dir TRUSTED_ROOT in let* tr := ptr tb in let* sb := sees f dir SIGNING_CONFIG in let* sc := psc sb in Ok (tr, sc)
  end.
Proof.
  intros [url boot] f. cbn [fst]. destruct (quote (rstrip_slash url)) as [dir|e] eqn:Q.
  2:{ unfold offline_process, p_from_tuf, p_make_updater. cbv zeta. cbn [fst snd]. unfold get_dirs. rewrite Q. reflexivity. }
  assert (G : offline_process data cache lib emb ptr psc (url, boot) =
    pbind (pbind (p_populate emb (path_join (cache ++ [s2l "tuf"]) dir) (rstrip_slash url) TRUSTED_ROOT)
       (fun _ => pbind (p_populate emb (path_join (cache ++ [s2l "tuf"]) dir) (rstrip_slash url) SIGNING_CONFIG)
       (fun _ => Return (Ok (mkUpdater (rstrip_slash url) (path_join (cache ++ [s2l "tuf"]) dir) false)))))
    (fun u => pbind (p_get_path lib u TRUSTED_ROOT) (fun tp => pbind (p_read_bytes tp) (fun tb => pbind (Return (ptr tb)) (fun tr =>
     pbind (p_get_path lib u SIGNING_CONFIG) (fun sp => pbind (p_read_bytes sp) (fun sb => pbind (Return (psc sb)) (fun sc => Return (Ok (tr, sc)))))))))).
  { unfold offline_process, p_from_tuf, p_make_updater. cbv zeta. cbn [fst snd]. unfold get_dirs. rewrite Q. reflexivity. }
  rewrite G. clear G. set (base := path_join (cache ++ [s2l "tuf"]) dir) in *.
  assert (Pop : forall name f0, exists f1, run (p_populate emb base (rstrip_slash url) name) f0 = (Ok tt, f1) /\
    f1 (locate (path_join base name)) = match f0 (locate (path_join base name)) with Some b => Some b | None => emb dir name end /\
    forall q, q <> locate (path_join base name) -> f1 q = f0 q).
  { intros name f0. unfold p_populate. cbv zeta. cbn [run]. unfold fs_read. destruct (f0 (locate (path_join base name))) as [b|] eqn:F; cbn [present run].
    - exists f0. rewrite F. auto.
    - unfold read_embedded. rewrite Q. cbn [bind]. destruct (emb dir name) as [e|] eqn:Em.
      + cbn [pbind ptry run]. eexists. split; [reflexivity|]. split; [apply write_there|]. intros q N. rewrite !write_other by exact N. reflexivity.
      + cbn [pbind ptry]. change (exn_eqb EFileNotFound EFileNotFound) with true. cbv iota. cbn [run]. exists f0. rewrite F. auto. }
  destruct (Pop TRUSTED_ROOT f) as (f1 & R1 & T1 & O1). destruct (Pop SIGNING_CONFIG f1) as (f2 & R2 & T2 & O2).
  pose proof (artifacts_differ base) as D.
  assert (Nf : forall name, sees f dir name = match f (locate (path_join base name)) with Some b => Ok b | None => match emb dir name with Some e => Ok e | None => Raise EFileNotFound end end) by reflexivity.
  assert (Cn : forall name x, x = match f (locate (path_join base name)) with Some b => Some b | None => emb dir name end -> x = match sees f dir name with Ok b => Some b | Raise _ => None end).
  { intros name x ->. rewrite Nf. destruct (f (locate (path_join base name))); [reflexivity|]. destruct (emb dir name); reflexivity. }
  assert (ET : f2 (locate (path_join base TRUSTED_ROOT)) = match sees f dir TRUSTED_ROOT with Ok b => Some b | Raise _ => None end).
  { apply Cn. rewrite O2 by exact D. exact T1. }
  assert (ES : f2 (locate (path_join base SIGNING_CONFIG)) = match sees f dir SIGNING_CONFIG with Ok b => Some b | Raise _ => None end).
  { apply Cn. rewrite T2. rewrite O1 by (intros X; apply D; symmetry; exact X). reflexivity. }
  rewrite run_pbind, run_pbind, R1, run_pbind, R2. cbn [run]. unfold p_get_path. cbn [u_online u_targets pbind run]. unfold p_read_bytes. cbn [pbind run]. unfold fs_read.
  rewrite ET. assert (Sn : forall name, (exists b, sees f dir name = Ok b) \/ sees f dir name = Raise EFileNotFound).
  { intros name. rewrite Nf. destruct (f (locate (path_join base name))); [eauto|]. destruct (emb dir name); eauto. }
  destruct (Sn TRUSTED_ROOT) as [[tb ->]| ->]; cbn [pbind run bind]; [|reflexivity]. destruct (ptr tb) as [tr|e]; cbn [pbind run bind]; [|reflexivity].
  unfold fs_read. rewrite ES. destruct (Sn SIGNING_CONFIG) as [[sb ->]| ->]; cbn [pbind run bind]; [|reflexivity]. destruct (psc sb) as [sc|e]; reflexivity.
Qed.

(** If no file has been left empty, the interruption has no consequences: a later process ends as if there had
    been none. *)
Theorem C105_cache_recovers : forall jobs schedule f ps' f' job,
  (forall job u, In job jobs -> strips_to (fst job) u -> ordinary u) ->
  exec schedule (map (offline_process data cache lib emb ptr psc) jobs) f = (ps', f') -> In job jobs ->
  (forall name q, artifact name -> cache_file cache (fst job) name q -> f q = None -> f' q <> Some nil) ->
  fst (offline_alone data cache lib emb ptr psc job f') = fst (offline_alone data cache lib emb ptr psc job f).
Proof.
  intros jobs schedule f ps' f' job O H I Ne. rewrite <- !(proj1 (alone_run data cache lib emb ptr psc job _)). rewrite !run_offline.
  destruct (quote (rstrip_slash (fst job))) as [dir|e] eqn:Q; [|reflexivity].
  assert (S : forall name, artifact name -> sees f' dir name = sees f dir name).
  { intros name N. destruct (exec_together _ _ _ _ _ _ _ _ _ (start_together data cache lib emb ptr psc jobs f O) H) as ((S & _ & _) & _).
    specialize (S (locate (path_join (path_join (cache ++ [s2l "tuf"]) dir) name))). unfold seen in S. unfold sees.
    specialize (Ne name (locate (path_join (path_join (cache ++ [s2l "tuf"]) dir) name)) N).
    assert (Cf : cache_file cache (fst job) name (locate (path_join (path_join (cache ++ [s2l "tuf"]) dir) name))).
    { exists (rstrip_slash (fst job)), dir. split; [apply rstrip_slash_spec|]. auto. }
    specialize (Ne Cf). destruct (f (locate _)) as [b|]; [rewrite S; reflexivity|]. destruct S as [[-> _]|(e & C & X)]; [reflexivity|].
    rewrite (copies_own _ _ _ _ _ _ _ O I Q N C). destruct X as [X|X]; [exfalso; exact (Ne eq_refl X)|]. rewrite X. reflexivity. }
  rewrite (S TRUSTED_ROOT) by (left; reflexivity). rewrite (S SIGNING_CONFIG) by (right; reflexivity). reflexivity.
Qed.

(** Otherwise it has, and they last: for every repository whose trusted root is embedded and not in the cache
    yet, a process may be interrupted such that the trusted root in the cache is empty, and from then on every
    offline process of that repository, alone or with others, fails, and leaves the file as it is. *)
Theorem C105_cache_stuck_refuted : forall url boot dir t e f,
  ordinary (rstrip_slash url) -> quote (rstrip_slash url) = Ok dir -> emb dir TRUSTED_ROOT = Some t -> ptr nil = Raise e ->
  (forall q, cache_file cache url TRUSTED_ROOT q -> f q = None) ->
  exists schedule ps' f', exec schedule (map (offline_process data cache lib emb ptr psc) [(url, boot)]) f = (ps', f') /\
    forall jobs schedule2 ps2 f2, (forall job, In job jobs -> strips_to (fst job) (rstrip_slash url)) ->
      exec schedule2 (map (offline_process data cache lib emb ptr psc) jobs) f' = (ps2, f2) ->
      (forall q, cache_file cache url TRUSTED_ROOT q -> f2 q = Some nil) /\
      (forall r, In (Return r) ps2 -> r = Raise e).
Proof.
  intros url boot dir t e f Or Q Em Pn Z. set (T := path_join (path_join (cache ++ [s2l "tuf"]) dir) TRUSTED_ROOT).
  assert (Cf : forall q, cache_file cache url TRUSTED_ROOT q <-> q = locate T).
  { intros q. split.
    - intros (u & d & St & Qu & L). apply rstrip_slash_iff in St. subst u. rewrite Q in Qu. injection Qu as <-. exact L.
    - intros ->. exists (rstrip_slash url), dir. split; [apply rstrip_slash_spec|]. auto. }
  pose proof (Z _ (proj2 (Cf _) eq_refl)) as ZT.
  exists [0; 0]. destruct (exec [0; 0] (map (offline_process data cache lib emb ptr psc) [(url, boot)]) f) as [ps' f'] eqn:X. exists ps', f'. split; [reflexivity|].
  assert (F' : f' = fs_write f T nil).
  { revert X. cbn [map].
    assert (G : exists k, offline_process data cache lib emb ptr psc (url, boot) =
      pbind (pbind (p_populate emb (path_join (cache ++ [s2l "tuf"]) dir) (rstrip_slash url) TRUSTED_ROOT)
       (fun _ => pbind (p_populate emb (path_join (cache ++ [s2l "tuf"]) dir) (rstrip_slash url) SIGNING_CONFIG)
       (fun _ => Return (Ok (mkUpdater (rstrip_slash url) (path_join (cache ++ [s2l "tuf"]) dir) false))))) k).
    { eexists. unfold offline_process, p_from_tuf, p_make_updater. cbv zeta. cbn [fst snd]. unfold get_dirs. rewrite Q. reflexivity. }
    destruct G as [k ->]. assert (Pop : p_populate emb (path_join (cache ++ [s2l "tuf"]) dir) (rstrip_slash url) TRUSTED_ROOT =
      Exists T (fun x => if x then Return (Ok tt) else Open T (Fill T t (Return (Ok tt))))).
    { unfold p_populate, read_embedded. rewrite Q. cbn [bind]. rewrite Em. reflexivity. }
    rewrite Pop. cbn [exec nth_error]. cbn [pbind step replace]. unfold fs_read at 1. rewrite ZT. cbn [present]. cbn [exec nth_error pbind step replace].
    intros X. injection X as _ <-. reflexivity. }
  assert (E' : f' (locate T) = Some nil) by (subst f'; apply write_there).
  intros jobs schedule2 ps2 f2 J H. assert (O : forall job u, In job jobs -> strips_to (fst job) u -> ordinary u).
  { intros job u I St. apply rstrip_slash_iff in St. subst u. specialize (J _ I). apply rstrip_slash_iff in J. rewrite <- J. exact Or. }
  split.
  - intros q Cq. apply Cf in Cq. subst q. pose proof (C105_cache_interrupted _ _ _ _ _ O H (locate T)) as K. rewrite E' in K. exact K.
  - intros r I. apply In_nth_error in I. destruct I as [i N].
    assert (exists job, nth_error jobs i = Some job) as [job Nj].
    { destruct (nth_error jobs i) eqn:Nj; [eauto|]. apply nth_error_None in Nj.
      assert (L : length ps2 = length jobs).
      { rewrite <- (map_length (offline_process data cache lib emb ptr psc) jobs). generalize H. generalize (map (offline_process data cache lib emb ptr psc) jobs). clear.
        intros ps. revert ps f'. induction schedule2 as [|j s IH]; intros ps f' H; cbn [exec] in H; [injection H as <- _; reflexivity|].
        destruct (nth_error ps j) as [m|]; [|eapply IH; exact H]. destruct (step m f') as [m' f1]. apply IH in H. rewrite H. apply replace_len. }
      assert (nth_error ps2 i <> None) by congruence. apply nth_error_Some in H0. lia. }
    pose proof (J _ (nth_error_In _ _ Nj)) as Sj. destruct (C99_first_run data cache lib emb ptr psc _ _ _ _ _ _ _ _ O H Nj N) as [[_ U]|(x & y & Mx & _ & ->)].
    + exfalso. exact (U _ _ Sj Q).
    + destruct Mx as (u & d & Su & Qu & Mx). apply rstrip_slash_iff in Su, Sj. rewrite <- Sj in Su. subst u. rewrite Q in Qu. injection Qu as <-. fold T in Mx. rewrite E' in Mx. subst x. cbn [bind]. rewrite Pn. reflexivity.
Qed.
End Cache.

(** ** Concrete processes *)

(** Two processes on an empty cache, interrupted while one has opened the first file and the other, which found
    it, has written the second one; then a process alone, which fails. *)
Definition ccx_exec (schedule : list nat) (n : nat) (f : fs) := exec schedule (repeat (shx true) n) f.
Example ex_cache_interrupted :
  let f' := snd (ccx_exec [0; 0; 1; 1; 1; 1] 2 (tx_fs nil)) in
  f' (tx_file "trusted_root.json") = Some nil /\ f' (tx_file "signing_config.v0.2.json") = Some (s2b "sc") /\
  fst (offline_alone [s2l "data"] [s2l "cache"] shx_lib shx_emb shx_parse shx_parse (shx_url, None) f') = Raise EValue.
Proof. repeat split; vm_compute; reflexivity. Qed.

(** Interrupted between the files instead: the next process ends as the first one would have. *)
Example ex_cache_recovers :
  let f' := snd (ccx_exec [0; 0; 0] 1 (tx_fs nil)) in
  f' (tx_file "trusted_root.json") = Some (s2b "old") /\ f' (tx_file "signing_config.v0.2.json") = None /\
  fst (offline_alone [s2l "data"] [s2l "cache"] shx_lib shx_emb shx_parse shx_parse (shx_url, None) f') = Ok (s2b "old", s2b "sc").
Proof. repeat split; vm_compute; reflexivity. Qed.

(** The hypotheses of the theorems: the repository is ordinary, its trusted root is embedded, and an empty file is
    none. *)
Example ex_cache_hypotheses :
  (forall (job : str * option (res bytes)) u, In job [(shx_url, None); (shx_url, None)] -> strips_to (fst job) u -> ordinary u) /\
  quote (rstrip_slash shx_url) = Ok (s2l "https%3A%2F%2Fexample.org%2Fr") /\
  shx_emb (s2l "https%3A%2F%2Fexample.org%2Fr") TRUSTED_ROOT = Some (s2b "old") /\ shx_parse nil = Raise EValue /\
  copy_at shx_emb [s2l "cache"] [(shx_url, None)] (tx_file "trusted_root.json") (s2b "old").
Proof.
  split; [exact ex_shared_ordinary|]. split; [vm_compute; reflexivity|]. split; [vm_compute; reflexivity|]. split; [reflexivity|].
  exists (shx_url, None), (s2l "trusted_root.json"), (rstrip_slash shx_url), (s2l "https%3A%2F%2Fexample.org%2Fr").
  split; [left; reflexivity|]. split; [left; reflexivity|]. split; [apply rstrip_slash_spec|]. split; [vm_compute; reflexivity|]. split; vm_compute; reflexivity.
Qed.

Print Assumptions C105_cache_interrupted.
Print Assumptions C105_cache_recovers.
Print Assumptions C105_cache_stuck_refuted.
