(** sigstore/_cli.py: boolean environment variables and the options they set. *)
From Verif Require Import Base.
Local Open Scope N_scope.

(** [str.lower()]: [lo] is the lower case of a character outside ASCII.  Simplified: the two
    lower cases of a capital sigma, which depend on its place, are not distinguished. *)
Definition lower_char (lo : N -> str) (c : N) : str :=
  if (65 <=? c) && (c <=? 90) then [c + 32] else if c <? 128 then [c] else lo c.
Definition py_lower (lo : N -> str) (s : str) : str := flat_map (lower_char lo) s.

Definition TRUE_WORDS : list str := [s2l "y"; s2l "yes"; s2l "true"; s2l "t"; s2l "on"; s2l "1"].
Definition FALSE_WORDS : list str := [s2l "n"; s2l "no"; s2l "false"; s2l "f"; s2l "off"; s2l "0"].

Section Env.
Variable lo : N -> str.

(** _cli.py:117-135 [_boolify_env]; [val] is the value of the variable *)
Definition boolify_env (val : option str) : res bool :=
  match val with
  | None => Ok false
  | Some v =>
    let v' := py_lower lo v in
    if existsb (str_eqb v') TRUE_WORDS then Ok true
    else if existsb (str_eqb v') FALSE_WORDS then Ok false
    else Raise EValue
  end.

(** the options of all commands with such a default (an [action="store_true"] option is true if
    it is given and has its default otherwise) *)
Inductive flag : Set := F_staging | F_overwrite | F_disable_ambient | F_force_oob | F_no_default_files | F_offline.
Definition flag_eqb (a b : flag) : bool :=
  match a, b with
  | F_staging, F_staging | F_overwrite, F_overwrite | F_disable_ambient, F_disable_ambient
  | F_force_oob, F_force_oob | F_no_default_files, F_no_default_files | F_offline, F_offline => true
  | _, _ => false
  end.
Definition variable_of (f : flag) : str :=
  match f with
  | F_staging => s2l "SIGSTORE_STAGING"
  | F_overwrite => s2l "SIGSTORE_OVERWRITE"
  | F_disable_ambient => s2l "SIGSTORE_OIDC_DISABLE_AMBIENT_PROVIDERS"
  | F_force_oob => s2l "SIGSTORE_OAUTH_FORCE_OOB"
  | F_no_default_files => s2l "SIGSTORE_NO_DEFAULT_FILES"
  | F_offline => s2l "SIGSTORE_OFFLINE"
  end.
(** _cli.py:239-623 [_parser] reads the variables in this order, whatever the command; those of the
    shared options are read again for every command that has them *)
Definition flags_read : list flag :=
  [F_staging; F_disable_ambient; F_force_oob; F_overwrite; F_disable_ambient; F_force_oob; F_no_default_files; F_overwrite;
   F_offline; F_offline; F_disable_ambient; F_force_oob].
Fixpoint read_defaults (environ : str -> option str) (fs : list flag) (acc : list (flag * bool)) : res (list (flag * bool)) :=
  match fs with
  | nil => Ok acc
  | f :: rest => let* b := boolify_env (environ (variable_of f)) in read_defaults environ rest (dict_set flag_eqb f b acc)
  end.
(** _cli.py:626-632 [main], these options only: [given] are those on the command line *)
Definition parse_flags (environ : str -> option str) (given : list flag) : res (flag -> bool) :=
  let* defaults := read_defaults environ flags_read nil in
  Ok (fun f => existsb (flag_eqb f) given || match assoc flag_eqb f defaults with Some b => b | None => false end).
End Env.
