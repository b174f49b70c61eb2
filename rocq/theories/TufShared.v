(** sigstore/_internal/tuf.py and [ClientTrustConfig.from_tuf] of sigstore/models.py once more, as
    processes that share the directories: every access to a file is one step, and the steps of
    several processes (several commands, or programs that use the library) alternate in any order.
    Paths, file systems, names and directories are those of Tuf.v. *)
From Verif Require Import Base Messages Codec Tuf.

(** What a process still has to do.  Simplified: reading a file, and the data written between
    opening and closing one, are one step each. *)
Inductive prog (A : Type) : Type :=
| Return (r : res A)
| Exists (p : path) (k : bool -> prog A)          (* [Path.exists] *)
| Open (p : path) (k : prog A)                    (* [open(p, "wb")]: the file is created, or emptied *)
| Fill (p : path) (b : bytes) (k : prog A)        (* the data is written *)
| Read (p : path) (k : option bytes -> prog A).   (* [Path.read_bytes]; [None]: no such file *)
Arguments Return {A}. Arguments Exists {A}. Arguments Open {A}. Arguments Fill {A}. Arguments Read {A}.

Fixpoint pbind {A B} (m : prog A) (g : A -> prog B) : prog B :=
  match m with
  | Return (Ok x) => g x
  | Return (Raise e) => Return (Raise e)
  | Exists p k => Exists p (fun x => pbind (k x) g)
  | Open p k => Open p (pbind k g)
  | Fill p b k => Fill p b (pbind k g)
  | Read p k => Read p (fun x => pbind (k x) g)
  end.
(** [try ... except] *)
Fixpoint ptry {A} (m : prog A) (cls : exn -> bool) (h : exn -> prog A) : prog A :=
  match m with
  | Return (Ok x) => Return (Ok x)
  | Return (Raise e) => if cls e then h e else Return (Raise e)
  | Exists p k => Exists p (fun x => ptry (k x) cls h)
  | Open p k => Open p (ptry k cls h)
  | Fill p b k => Fill p b (ptry k cls h)
  | Read p k => Read p (fun x => ptry (k x) cls h)
  end.

Definition present (x : option bytes) : bool := match x with Some _ => true | None => false end.

(** One step. *)
Definition step {A} (m : prog A) (f : fs) : prog A * fs :=
  match m with
  | Return r => (Return r, f)
  | Exists p k => (k (present (fs_read f p)), f)
  | Open p k => (k, fs_write f p nil)
  | Fill p b k => (k, fs_write f p b)
  | Read p k => (k (fs_read f p), f)
  end.

(** All steps of one process, undisturbed. *)
Fixpoint run {A} (m : prog A) (f : fs) : res A * fs :=
  match m with
  | Return r => (r, f)
  | Exists p k => run (k (present (fs_read f p))) f
  | Open p k => run k (fs_write f p nil)
  | Fill p b k => run k (fs_write f p b)
  | Read p k => run (k (fs_read f p)) f
  end.

(** Several processes; the schedule says who does the next step. *)
Fixpoint replace {A} (l : list A) (i : nat) (x : A) : list A :=
  match l, i with
  | nil, _ => nil
  | _ :: l', O => x :: l'
  | y :: l', S i' => y :: replace l' i' x
  end.
Fixpoint exec {A} (schedule : list nat) (ps : list (prog A)) (f : fs) : list (prog A) * fs :=
  match schedule with
  | nil => (ps, f)
  | i :: schedule' =>
    match nth_error ps i with
    | None => exec schedule' ps f
    | Some m => let (m', f') := step m f in exec schedule' (replace ps i m') f'
    end
  end.

(** The TUF library ([tuf.ngclient.Updater], used at tuf.py:113-126, 139-147 and 162-170), as programs.
    [find_cached_target] reads the file and checks its length and hashes. *)
Record TufProgs := mkTufProgs {
  tp_info : Type;
  tp_refresh : str -> path -> path -> option bytes -> prog unit;
  tp_targetinfo : str -> str -> prog (option tp_info);
  tp_cached_at : str -> tp_info -> path;
  tp_valid : tp_info -> bytes -> bool;
  tp_download : str -> tp_info -> prog path
}.

Section Shared.
Variables data_dir cache_dir : path.
Variable lib : TufProgs.
Variable embedded : str -> str -> option bytes.

(** tuf.py:91-98 *)
Definition p_populate (targets : path) (url artifact : str) : prog unit :=
  let p := path_join targets artifact in
  Exists p (fun x =>
    if x then Return (Ok tt)
    else ptry (pbind (Return (read_embedded embedded artifact url)) (fun data => Open p (Fill p data (Return (Ok tt)))))
           (exn_eqb EFileNotFound) (fun _ => Return (Ok tt))).

(** tuf.py:69-129 [TrustUpdater.__init__] *)
Definition p_make_updater (url : str) (offline : bool) (bootstrap_root : option (res bytes)) : prog Updater :=
  let url := rstrip_slash url in
  pbind (Return (get_dirs data_dir cache_dir url)) (fun dirs =>
  pbind (p_populate (snd dirs) url TRUSTED_ROOT) (fun _ =>
  pbind (p_populate (snd dirs) url SIGNING_CONFIG) (fun _ =>
  if offline then Return (Ok (mkUpdater url (snd dirs) false))
  else
    pbind (Return (try_except (let* b := read_embedded embedded (s2l "root.json") url in Ok (Some b)) (exn_eqb EFileNotFound)
             (fun _ => match bootstrap_root with Some r => let* b := r in Ok (Some b) | None => Ok None end))) (fun root_json =>
    pbind (ptry (tp_refresh lib url (fst dirs) (snd dirs) root_json) any_exn (fun _ => Return (Raise ETUF))) (fun _ =>
    Return (Ok (mkUpdater url (snd dirs) true))))))).

(** tuf.py:132-152 and 155-175 *)
Definition p_get_path (u : Updater) (name : str) : prog path :=
  if u_online u then
    pbind (tp_targetinfo lib (u_url u) name) (fun oi =>
    match oi with
    | None => Return (Raise ETUF)
    | Some info =>
      Read (tp_cached_at lib (u_url u) info) (fun content =>
        if match content with Some b => tp_valid lib info b | None => false end
        then Return (Ok (tp_cached_at lib (u_url u) info))
        else ptry (tp_download lib (u_url u) info) (fun e => exn_eqb EDownload e || exn_eqb ERepository e) (fun _ => Return (Raise ETUF)))
    end)
  else Return (Ok (path_join (u_targets u) name)).

Definition p_read_bytes (p : path) : prog bytes :=
  Read p (fun x => Return (match x with Some b => Ok b | None => Raise EFileNotFound end)).

(** models.py:952-980 [ClientTrustConfig.from_tuf] *)
Definition p_from_tuf {TR SC : Type} (parse_tr : bytes -> res TR) (parse_sc : bytes -> res SC)
  (url : str) (offline : bool) (bootstrap_root : option (res bytes)) : prog (TR * SC) :=
  pbind (p_make_updater url offline bootstrap_root) (fun u =>
  pbind (p_get_path u TRUSTED_ROOT) (fun tp =>
  pbind (p_read_bytes tp) (fun tb =>
  pbind (Return (parse_tr tb)) (fun tr =>
  pbind (p_get_path u SIGNING_CONFIG) (fun sp =>
  pbind (p_read_bytes sp) (fun sb =>
  pbind (Return (parse_sc sb)) (fun sc =>
  Return (Ok (tr, sc))))))))).

(** The library of Tuf.v whose calls are undisturbed runs of these programs. *)
Definition lib_alone : TufLib :=
  mkTufLib (tp_info lib)
    (fun url m t root f => run (tp_refresh lib url m t root) f)
    (fun url name f => run (tp_targetinfo lib url name) f)
    (fun url info f => match fs_read f (tp_cached_at lib url info) with
                       | Some b => if tp_valid lib info b then Some (tp_cached_at lib url info) else None
                       | None => None end)
    (fun url info f => run (tp_download lib url info) f).
End Shared.
