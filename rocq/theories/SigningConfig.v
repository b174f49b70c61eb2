(** sigstore/models.py: [SigningConfig], [ClientTrustConfig]; sigstore/sign.py: [SigningContext] *)
From Verif Require Import Base Messages Env Keyring TrustedRoot.

(** [trustroot_v1.Service] *)
Record Service := mkService { sv_url : str; sv_version : Z; sv_valid_for : option TimeRange; sv_operator : str }.
(** [trustroot_v1.ServiceSelector] *)
Inductive selector : Set := SEL_UNDEFINED | SEL_ALL | SEL_ANY | SEL_EXACT.
(** [trustroot_v1.ServiceConfiguration]; an absent [count] behaves like 0 *)
Record ServiceConfig := mkSvcConf { scf_selector : selector; scf_count : nat }.
(** [trustroot_v1.SigningConfig] *)
Record SigningConfigMsg := mkSCM {
  scm_media : str;
  scm_tlogs : list Service; scm_tlog_config : option ServiceConfig;
  scm_tsas : list Service; scm_tsa_config : option ServiceConfig;
  scm_cas : list Service; scm_oidcs : list Service
}.

(** models.py:69-72 *)
Definition REKOR_VERSIONS : list Z := [1; 2]%Z.
Definition TSA_VERSIONS : list Z := [1]%Z.
Definition FULCIO_VERSIONS : list Z := [1]%Z.
Definition OIDC_VERSIONS : list Z := [1]%Z.

(** models.py:640-645 [SigningConfigType] *)
Definition SIGNING_CONFIG_0_2 : str := s2l "application/vnd.dev.sigstore.signingconfig.v0.2+json".

Section SigningConfig.
Variable now : time.

(** [d[k].append(v)] on a [defaultdict(list)] *)
Fixpoint dict_append (k : str) (v : Service) (d : list (str * list Service)) : list (str * list Service) :=
  match d with
  | nil => [(k, [v])]
  | (k', l) :: d' => if str_eqb k k' then (k', l ++ [v]) :: d' else (k', l) :: dict_append k v d'
  end.

(** models.py:719-728: the loop over the services *)
Fixpoint services_by_operator (services : list Service) (supported : list Z) (d : list (str * list Service)) :=
  match services with
  | nil => d
  | s :: r =>
    if negb (existsb (Z.eqb (sv_version s)) supported) then services_by_operator r supported d
    else if negb (is_timerange_valid now (sv_valid_for s) false) then services_by_operator r supported d
    else services_by_operator r supported (dict_append (sv_operator s) s d)
  end.

(** [list.sort(key=lambda s: s.major_api_version)]: a stable sort *)
Fixpoint insert_by_version (s : Service) (l : list Service) : list Service :=
  match l with
  | nil => [s]
  | t :: l' => if (sv_version s <=? sv_version t)%Z then s :: l else t :: insert_by_version s l'
  end.
Fixpoint sort_by_version (l : list Service) : list Service :=
  match l with nil => nil | s :: l' => insert_by_version s (sort_by_version l') end.

(** [l[-1]] *)
Definition last_item (l : list Service) : res Service :=
  match rev l with nil => Raise EIndex | s :: _ => Ok s end.

(** models.py:707-751 [_get_valid_services] *)
Definition get_valid_services (services : list Service) (supported : list Z) (config : option ServiceConfig) : res (list Service) :=
  let d := services_by_operator services supported nil in
  let* result := map_res (fun kl => last_item (sort_by_version (snd kl))) d in
  match config with
  | None => Ok result
  | Some c =>
    match scf_selector c with
    | SEL_ALL => Ok result
    | sel =>
      let exact := match sel with SEL_EXACT => true | _ => false end in
      let count := if exact && negb (Nat.eqb (scf_count c) 0) then scf_count c else 1 in
      do* raise_if (exact && Nat.ltb (length result) count) EValue in
      Ok (firstn count result)
    end
  end.

(** The object, models.py:651-695 [SigningConfig.__init__] *)
Record SigningConfig := mkSC { sc_tlogs : list Service; sc_tsas : list Service; sc_fulcios : list Service; sc_oidcs : list Service }.

Definition is_empty {A} (l : list A) : bool := match l with nil => true | _ => false end.

Definition make_signing_config (m : SigningConfigMsg) (tlog_version : option Z) : res SigningConfig :=
  do* raise_if (negb (str_eqb (scm_media m) SIGNING_CONFIG_0_2)) EError in
  let tlog_versions := match tlog_version with None => REKOR_VERSIONS | Some v => [v] end in
  let* tlogs := get_valid_services (scm_tlogs m) tlog_versions (scm_tlog_config m) in
  do* raise_if (is_empty tlogs) EError in
  let* tsas := get_valid_services (scm_tsas m) TSA_VERSIONS (scm_tsa_config m) in
  let* fulcios := get_valid_services (scm_cas m) FULCIO_VERSIONS None in
  do* raise_if (is_empty fulcios) EError in
  let* oidcs := get_valid_services (scm_oidcs m) OIDC_VERSIONS None in
  Ok (mkSC tlogs tsas fulcios oidcs).

(** [RekorClient(url)] and [RekorV2Client(url)] *)
Inductive rekor_client : Type := Rekor_v1 (url : str) | Rekor_v2 (url : str).

(** models.py:753-769 [get_tlogs] *)
Definition get_tlogs (sc : SigningConfig) : res (list rekor_client) :=
  map_res (fun t => if (sv_version t =? 1)%Z then Ok (Rekor_v1 (sv_url t))
                    else if (sv_version t =? 2)%Z then Ok (Rekor_v2 (sv_url t))
                    else Raise EAssertion) (sc_tlogs sc).

(** models.py:771-775 [get_fulcio]: the URL of the client *)
Definition get_fulcio (sc : SigningConfig) : res str :=
  let* s := index_list (sc_fulcios sc) 0 in Ok (sv_url s).

(** models.py:777-784 [get_oidc_url] *)
Definition get_oidc_url (sc : SigningConfig) : res str :=
  do* raise_if (is_empty (sc_oidcs sc)) EError in
  let* s := index_list (sc_oidcs sc) 0 in Ok (sv_url s).

(** models.py:786-790 [get_tsas]: the URLs of the clients *)
Definition get_tsas (sc : SigningConfig) : list str := map sv_url (sc_tsas sc).

(** [trustroot_v1.ClientTrustConfig] with [force_tlog_version], models.py:981-1005 *)
Record ClientTrustConfig := mkCTC { ctc_root : TrustedRootMsg; ctc_signing : SigningConfigMsg; ctc_force : option Z }.

(** sign.py:302-316 [SigningContext.from_trust_config]: CA URL, log client, root, TSA URLs *)
Record ContextParts := mkParts { cp_fulcio : str; cp_rekor : rekor_client; cp_root : TrustedRootMsg; cp_tsas : list str }.
Definition context_from_trust_config (c : ClientTrustConfig) : res ContextParts :=
  let* sc := make_signing_config (ctc_signing c) (ctc_force c) in
  let* fulcio := get_fulcio sc in
  let* tlogs := get_tlogs sc in
  let* rekor := index_list tlogs 0 in
  do* make_trusted_root (ctc_root c) in
  Ok (mkParts fulcio rekor (ctc_root c) (get_tsas sc)).
End SigningConfig.
