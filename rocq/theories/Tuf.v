(** sigstore/_internal/tuf.py, [ClientTrustConfig.from_tuf] of sigstore/models.py and
    [read_embedded] of sigstore/_utils.py.

    A file system is a map from locations to file contents.  Directories are not represented:
    creating one, and reading or writing a file, does not fail for reasons of permissions or
    space. *)
From Verif Require Import Base Messages Codec.

(** ** Names *)

(** [urllib.parse.quote] keeps letters, digits and [_.-~] *)
Definition quote_safe (c : N) : bool :=
  ((48 <=? c) && (c <=? 57) || (65 <=? c) && (c <=? 90) || (97 <=? c) && (c <=? 122) ||
   (c =? 95) || (c =? 46) || (c =? 45) || (c =? 126))%N.
Definition upper_digit (n : N) : N := if (n <? 10)%N then (48 + n)%N else (55 + n)%N.
Definition quote_byte (b : byte) : str :=
  let n := b2n b in if quote_safe n then [n] else [37%N; upper_digit (n / 16); upper_digit (n mod 16)].
(** [urllib.parse.quote(s, safe="")] *)
Definition quote (s : str) : res str :=
  match utf8_encode s with Some b => Ok (flat_map quote_byte b) | None => Raise EUnicodeEncode end.

(** [s.rstrip("/")] *)
Fixpoint drop_slashes (s : str) : str := match s with nil => nil | c :: r => if N.eqb c 47 then drop_slashes r else s end.
Definition rstrip_slash (s : str) : str := rev (drop_slashes (rev s)).

(** A path is a list of components.  [Path / name] for a name without separator: pathlib drops
    empty names and single dots. *)
Definition path : Type := list str.
Definition path_join (p : path) (name : str) : path :=
  if str_eqb name nil || str_eqb name (s2l ".") then p else p ++ [name].
(** the location a path leads to (no symbolic links) *)
Definition up (p : path) (name : str) : path := if str_eqb name (s2l "..") then removelast p else p ++ [name].
Definition locate (p : path) : path := fold_left up p nil.

Fixpoint path_eqb (p q : path) : bool :=
  match p, q with
  | nil, nil => true
  | a :: p', b :: q' => str_eqb a b && path_eqb p' q'
  | _, _ => false
  end.

Definition fs : Type := path -> option bytes.
Definition fs_read (f : fs) (p : path) : option bytes := f (locate p).
Definition fs_write (f : fs) (p : path) (b : bytes) : fs := fun q => if path_eqb q (locate p) then Some b else f q.

Section Dirs.
(** the user's data and cache directories ([platformdirs]) *)
Variables data_dir cache_dir : path.

(** tuf.py:40-56 [_get_dirs]: metadata and targets directories *)
Definition get_dirs (url : str) : res (path * path) :=
  let* repo_base := quote url in
  Ok (path_join (data_dir ++ [s2l "tuf"]) repo_base, path_join (cache_dir ++ [s2l "tuf"]) repo_base).

(** ** The TUF library *)

(** Everything that [tuf.ngclient.Updater] may do: it contacts the repository and reads and writes
    its two directories. *)
Inductive net_event : Type := Net_refresh (url : str) | Net_targetinfo (url name : str) | Net_download (url name : str).
Record TufLib := mkTufLib {
  tl_info : Type;
  (* constructing and refreshing: url, metadata dir, targets dir, bootstrap *)
  tl_refresh : str -> path -> path -> option bytes -> fs -> res unit * fs;
  tl_targetinfo : str -> str -> fs -> res (option tl_info) * fs;
  tl_find_cached : str -> tl_info -> fs -> option path;
  tl_download : str -> tl_info -> fs -> res path * fs
}.
Variable lib : TufLib.
(** the resources in the package: [resources.files("sigstore._store") / quote(url) / name] *)
Variable embedded : str -> str -> option bytes.

(** _utils.py:212-219 [read_embedded] *)
Definition read_embedded (name url : str) : res bytes :=
  let* dir := quote url in
  match embedded dir name with Some b => Ok b | None => Raise EFileNotFound end.

(** ** States and operations *)
Record tstate := mkT { t_fs : fs; t_net : list net_event }.
Definition op (A : Type) : Type := tstate -> res A * tstate.
Definition ret {A} (r : res A) : op A := fun s => (r, s).
Definition obind {A B} (m : op A) (k : A -> op B) : op B := fun s =>
  match m s with (Ok x, s') => k x s' | (Raise e, s') => (Raise e, s') end.
Definition otry {A} (m : op A) (cls : exn -> bool) (h : exn -> op A) : op A := fun s =>
  match m s with (Raise e, s') => if cls e then h e s' else (Raise e, s') | r => r end.
Definition get_file (p : path) : op (option bytes) := fun s => (Ok (fs_read (t_fs s) p), s).
Definition put_file (p : path) (b : bytes) : op unit := fun s => (Ok tt, mkT (fs_write (t_fs s) p b) (t_net s)).
(** a call of the TUF library that may use the network *)
Definition net_call {A} (e : net_event) (f : fs -> res A * fs) : op A := fun s =>
  let (r, f') := f (t_fs s) in (r, mkT f' (t_net s ++ [e])).
Definition local_call {A} (f : fs -> A) : op A := fun s => (Ok (f (t_fs s)), s).

(** exceptions of the TUF library *)
Definition EDownload : exn := EBackend 40.
Definition ERepository : exn := EBackend 41.

Record Updater := mkUpdater { u_url : str; u_targets : path; u_online : bool }.

Definition TRUSTED_ROOT : str := s2l "trusted_root.json".
Definition SIGNING_CONFIG : str := s2l "signing_config.v0.2.json".

(** tuf.py:91-98: put the embedded version in the cache unless there is one *)
Definition populate (targets : path) (url artifact : str) : op unit :=
  let p := path_join targets artifact in
  obind (get_file p) (fun x =>
  match x with
  | Some _ => ret (Ok tt)
  | None => otry (obind (ret (read_embedded artifact url)) (fun data => put_file p data)) (exn_eqb EFileNotFound) (fun _ => ret (Ok tt))
  end).

(** tuf.py:69-129 [TrustUpdater.__init__].  [bootstrap_root]: the content of the file, if given. *)
Definition make_updater (url : str) (offline : bool) (bootstrap_root : option (res bytes)) : op Updater :=
  let url := rstrip_slash url in
  obind (ret (get_dirs url)) (fun dirs =>
  let '(metadata_dir, targets_dir) := dirs in
  obind (populate targets_dir url TRUSTED_ROOT) (fun _ =>
  obind (populate targets_dir url SIGNING_CONFIG) (fun _ =>
  if offline then ret (Ok (mkUpdater url targets_dir false))
  else
    obind (otry (obind (ret (read_embedded (s2l "root.json") url)) (fun b => ret (Ok (Some b)))) (exn_eqb EFileNotFound)
             (fun _ => ret (match bootstrap_root with Some r => let* b := r in Ok (Some b) | None => Ok None end))) (fun root_json =>
    obind (otry (net_call (Net_refresh url) (tl_refresh lib url metadata_dir targets_dir root_json)) any_exn (fun _ => ret (Raise ETUF))) (fun _ =>
    ret (Ok (mkUpdater url targets_dir true))))))).

(** tuf.py:132-152 [get_trusted_root_path] and 155-175 [get_signing_config_path], which differ in
    the file name only.  That results are remembered ([lru_cache]) is modelled in TufCache.v. *)
Definition get_path (u : Updater) (name : str) : op path :=
  if u_online u then
    obind (net_call (Net_targetinfo (u_url u) name) (tl_targetinfo lib (u_url u) name)) (fun oi =>
    match oi with
    | None => ret (Raise ETUF)
    | Some info =>
      obind (local_call (tl_find_cached lib (u_url u) info)) (fun op_ =>
      match op_ with
      | Some p => ret (Ok p)
      | None =>
        otry (net_call (Net_download (u_url u) name) (tl_download lib (u_url u) info))
          (fun e => exn_eqb EDownload e || exn_eqb ERepository e) (fun _ => ret (Raise ETUF))
      end)
    end)
  else ret (Ok (path_join (u_targets u) name)).
Definition get_trusted_root_path (u : Updater) : op path := get_path u TRUSTED_ROOT.
Definition get_signing_config_path (u : Updater) : op path := get_path u SIGNING_CONFIG.

(** [Path(p).read_bytes()] *)
Definition read_bytes (p : path) : op bytes :=
  obind (get_file p) (fun x => ret (match x with Some b => Ok b | None => Raise EFileNotFound end)).

(** models.py:952-980 [ClientTrustConfig.from_tuf]; the two parsers are parameters *)
Definition from_tuf {TR SC : Type} (parse_tr : bytes -> res TR) (parse_sc : bytes -> res SC)
  (url : str) (offline : bool) (bootstrap_root : option (res bytes)) : op (TR * SC) :=
  obind (make_updater url offline bootstrap_root) (fun u =>
  obind (get_trusted_root_path u) (fun tp =>
  obind (read_bytes tp) (fun tb =>
  obind (ret (parse_tr tb)) (fun tr =>
  obind (get_signing_config_path u) (fun sp =>
  obind (read_bytes sp) (fun sb =>
  obind (ret (parse_sc sb)) (fun sc =>
  ret (Ok (tr, sc))))))))).
End Dirs.
