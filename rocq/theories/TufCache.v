(** tuf.py:131 and 154: [functools.lru_cache] on the two methods of [TrustUpdater].  The decorator is
    applied in the class, so there is one cache per method and process, shared by all updaters; the key
    is the updater itself, compared by identity.  A cache holds its keys, so an identity is not used
    again while it is in a cache; here identities are numbers that are never used again.  Modelled for
    one thread. *)
From Verif Require Import Base Codec Messages Env PyText Tuf.

Section Cache.
Variables data_dir cache_dir : path.
Variable lib : TufLib.
Variable embedded : str -> str -> option bytes.

(** functools.py: [lru_cache()] has room for 128 results *)
Definition maxsize : nat := 128.

(** most recently used first *)
Definition lru : Type := list (nat * path).
Definition forget (k : nat) (c : lru) : lru := filter (fun x => negb (Nat.eqb (fst x) k)) c.
(** functools.py [_lru_cache_wrapper]: a hit moves to the front; a result is put in front, and the last
    one is dropped if the cache is full; an exception is not kept.  Used at tuf.py:131 and 154. *)
Definition cached (c : lru) (k : nat) (m : op path) (s : tstate) : res path * tstate * lru :=
  match assoc Nat.eqb k c with
  | Some p => (Ok p, s, (k, p) :: forget k c)
  | None =>
    match m s with
    | (Ok p, s') => (Ok p, s', (k, p) :: (if maxsize <=? length c then removelast c else c))
    | (Raise e, s') => (Raise e, s', c)
    end
  end.

(** A process: files and network, the updaters made so far, the two caches (tuf.py:131, 154) *)
Record proc := mkProc { pr_state : tstate; pr_updaters : list Updater; pr_roots : lru; pr_configs : lru }.
(** a process that starts (tuf.py:58-175 has just been imported) *)
Definition start (s : tstate) : proc := mkProc s [] [] [].

(** tuf.py:69-129 [TrustUpdater(url, offline, bootstrap_root)] *)
Definition new_updater (y : proc) (url : str) (offline : bool) (boot : option (res bytes)) : res nat * proc :=
  match make_updater data_dir cache_dir lib embedded url offline boot (pr_state y) with
  | (Ok u, s) => (Ok (length (pr_updaters y)), mkProc s (pr_updaters y ++ [u]) (pr_roots y) (pr_configs y))
  | (Raise e, s) => (Raise e, mkProc s (pr_updaters y) (pr_roots y) (pr_configs y))
  end.
(** the two files (tuf.py:132-152 and 155-175) *)
Inductive file := F_root | F_config.
Definition file_name (f : file) : str := match f with F_root => TRUSTED_ROOT | F_config => SIGNING_CONFIG end.
Definition cache_of (y : proc) (f : file) : lru := match f with F_root => pr_roots y | F_config => pr_configs y end.
Definition with_cache (y : proc) (f : file) (s : tstate) (c : lru) : proc :=
  match f with F_root => mkProc s (pr_updaters y) c (pr_configs y) | F_config => mkProc s (pr_updaters y) (pr_roots y) c end.
(** tuf.py:131-152 [get_trusted_root_path] and 154-175 [get_signing_config_path], as decorated *)
Definition ask (y : proc) (k : nat) (f : file) : res path * proc :=
  match nth_error (pr_updaters y) k with
  | None => (Raise EAttribute, y)      (* no such object: not a call that can be made *)
  | Some u =>
    let '(r, s, c) := cached (cache_of y f) k (get_path lib u (file_name f)) (pr_state y) in
    (r, with_cache y f s c)
  end.

(** models.py:952-980 [ClientTrustConfig.from_tuf], with the methods as decorated *)
Definition load {TR SC} (parse_tr : bytes -> res TR) (parse_sc : bytes -> res SC)
  (y : proc) (url : str) (offline : bool) (boot : option (res bytes)) : res (TR * SC) * proc :=
  let read (y : proc) (p : path) : res bytes :=
    match fs_read (t_fs (pr_state y)) p with Some b => Ok b | None => Raise EFileNotFound end in
  let '(r, y1) := new_updater y url offline boot in
  match r with
  | Raise e => (Raise e, y1)
  | Ok k =>
    let '(r, y2) := ask y1 k F_root in
    match r with
    | Raise e => (Raise e, y2)
    | Ok tp =>
      match (let* tb := read y2 tp in parse_tr tb) with
      | Raise e => (Raise e, y2)
      | Ok tr =>
        let '(r, y3) := ask y2 k F_config in
        match r with
        | Raise e => (Raise e, y3)
        | Ok sp =>
          match (let* sb := read y3 sp in parse_sc sb) with
          | Raise e => (Raise e, y3)
          | Ok sc => (Ok (tr, sc), y3)
          end
        end
      end
    end
  end.

(** What happens in a process; the files can also be changed by others at any time. *)
Inductive event : Type :=
| New (url : str) (offline : bool) (boot : option (res bytes))
| Ask (k : nat) (f : file)
| Others (f : fs).
Definition happen (y : proc) (e : event) : proc :=
  match e with
  | New url offline boot => snd (new_updater y url offline boot)
  | Ask k f => snd (ask y k f)
  | Others f => mkProc (mkT f (t_net (pr_state y))) (pr_updaters y) (pr_roots y) (pr_configs y)
  end.
Definition run (y : proc) (l : list event) : proc := fold_left happen l y.
End Cache.
