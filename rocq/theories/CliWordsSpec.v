(** Specification for property C115 (PropsCliWords.v): what the words of a command line mean. *)
From Verif Require Import Base Codec Messages Env Keyring Cert Dsse KeyDetails Policy TrustedRoot SigningConfig Hashing Json Http
  Oidc Oauth LogEntry Bundle Verifier RekorClient Clients Tuf PyText CliVerify CliTrust Sign SignSteps Predicate CliSign CliEnv CliMain CliWords Calm Outcomes
  VerifierSpec PropsDsse PropsBundle PropsPolicy PropsTuf PropsCliVerify PropsCliEnv PropsCliTrust SignProofs PropsSign PropsRekorClient PropsCliSign PropsPredicate PropsSignVerify PropsCliMain ToyEnv ToyBundles ToySign.

(** ** Specification: options *)

(** the names of the options, as documented; which command has which option: [options_of], [flags_of] in PropsCliMain.v *)
Definition value_name (o : opt) : String.string :=
  match o with
  | O_trust_config => "--trust-config" | O_instance => "--instance" | O_identity_token => "--identity-token"
  | O_client_id => "--oidc-client-id" | O_client_secret => "--oidc-client-secret" | O_issuer => "--oidc-issuer"
  | O_rekor_version => "--rekor-version" | O_predicate => "--predicate" | O_predicate_type => "--predicate-type"
  | O_signature => "--signature" | O_certificate => "--certificate" | O_bundle => "--bundle" | O_output_directory => "--output-directory"
  | O_cert_identity => "--cert-identity" | O_cert_issuer => "--cert-oidc-issuer"
  | O_trigger => "--trigger" | O_sha => "--sha" | O_name => "--name" | O_repository => "--repository" | O_ref => "--ref"
  end%string.
Definition flag_name (f : flag) : String.string :=
  match f with
  | F_staging => "--staging" | F_overwrite => "--overwrite" | F_disable_ambient => "--oidc-disable-ambient-providers"
  | F_force_oob => "--oauth-force-oob" | F_no_default_files => "--no-default-files" | F_offline => "--offline"
  end%string.
(** the options that select an instance come before the command *)
Inductive called : parser -> action -> String.string -> Prop :=
| Called_help : forall p n, In n ["-h"; "--help"]%string -> called p A_help n
| Called_verbose : forall p n, In n ["-v"; "--verbose"]%string -> called p A_verbose n
| Called_version : forall n, In n ["-V"; "--version"]%string -> called P_main A_version n
| Called_staging : called P_main (A_flag F_staging) (flag_name F_staging)
| Called_instance : forall o, In o [O_instance; O_trust_config] -> called P_main (A_value o) (value_name o)
| Called_value : forall c o, options_of c o -> ~ In o [O_instance; O_trust_config] -> called (P_command c) (A_value o) (value_name o)
| Called_flag : forall c f, flags_of c f -> f <> F_staging -> called (P_command c) (A_flag f) (flag_name f)
| Called_output_signature : called (P_command C_sign) (A_value O_signature) "--output-signature"%string
| Called_output_certificate : called (P_command C_sign) (A_value O_certificate) "--output-certificate"%string
| Called_cert : forall c, In c [C_verify_identity; C_verify_github] -> called (P_command c) (A_value O_certificate) "--cert"%string
| Called_upgrade : called (P_command C_fix_bundle) A_upgrade "--upgrade-version"%string
| Called_in_place : called (P_command C_fix_bundle) A_in_place "--in-place"%string.
Definition full (p : parser) (n : str) (a : action) : Prop := exists m, called p a m /\ n = s2l m.
Definition begins (x w : str) : Prop := exists y, w = x ++ y.
(** [n] is the name of an option, or a beginning of exactly one name *)
Definition means (p : parser) (n : str) (a : action) : Prop :=
  full p n a \/
  (begins (s2l "--") n /\ (forall b, ~ full p n b) /\
   exists m, full p m a /\ begins n m /\ forall m' b, full p m' b -> begins n m' -> m' = m).
(** the part of a word before an equals sign *)
Definition stem (w n : str) : Prop := ~ In 61%N n /\ (w = n \/ exists e, w = n ++ 61%N :: e).
(** a beginning of several names *)
Definition ambiguous (p : parser) (w : str) : Prop :=
  exists n, stem w n /\ begins (s2l "--") n /\ (forall b, ~ full p n b) /\
  exists m m' a b, full p m a /\ full p m' b /\ begins n m /\ begins n m' /\ m <> m'.

(** ** Specification: plain words *)
Section Spec.
Variable digit : N -> bool.
Definition digits (s : str) : Prop := s <> nil /\ forall c, In c s -> digit c = true.
Definition is_number (s : str) : Prop :=
  digits s \/ exists a b, s = a ++ 46%N :: b /\ (forall c, In c a -> digit c = true /\ c <> 46%N) /\ digits b.
Definition negative (w : str) : Prop := exists s, is_number s /\ (w = 45%N :: s \/ w = 45%N :: s ++ [10%N]).
Definition resembles_option (p : parser) (w : str) : Prop :=
  exists m a, full p m a /\ ((length m = 2 /\ begins m w) \/ (begins (s2l "--") w /\ exists n, stem w n /\ begins n m)).
(** no minus sign at the start; or one alone; or a number or a text with a space that does not resemble an option *)
Definition plain_word (p : parser) (w : str) : Prop :=
  (forall r, w <> 45%N :: r) \/ w = s2l "-" \/ ((negative w \/ In 32%N w) /\ ~ resembles_option p w).

(** ** Specification: the arguments of one parser *)

(** an option with its value; [-v] can be repeated in one word *)
Inductive item (p : parser) : list str -> list (action * str) -> Prop :=
| Item_switch : forall w a, means p w a -> ~ In 61%N w -> (forall o, a <> A_value o) -> a <> A_help -> a <> A_version -> item p [w] [(a, nil)]
| Item_repeated : forall n, item p [45%N :: repeat 118%N (2 + n)] (repeat (A_verbose, nil) (2 + n))
| Item_value : forall w v o, means p w (A_value o) -> ~ In 61%N w -> plain_word p v -> item p [w; v] [(A_value o, v)]
| Item_equals : forall n v o, means p n (A_value o) -> ~ In 61%N n -> item p [n ++ 61%N :: v] [(A_value o, v)].
Inductive items (p : parser) : list str -> list (action * str) -> Prop :=
| Items_nil : items p nil nil
| Items_cons : forall ws as_ ws' as', item p ws as_ -> items p ws' as' -> items p (ws ++ ws') (as_ ++ as').
(** the inputs, next to each other; after [--] any word is an input, and the last word of the line is one of them *)
Inductive inputs (p : parser) : list str -> bool -> list str -> Prop :=
| Inputs_plain : forall ws, Forall (plain_word p) ws -> inputs p ws false ws
| Inputs_dashes : forall ws more, Forall (plain_word p) ws -> inputs p (ws ++ s2l "--" :: more) true (ws ++ more).
Definition takes_inputs (c : command) (ps : list str) (block : list str) : Prop :=
  match c with
  | C_sign | C_attest | C_verify_identity | C_verify_github => ps <> nil
  | C_trust_instance => exists x, ps = [x]
  | _ => block = nil
  end.
Inductive arguments (c : command) : list str -> list (action * str) -> list str -> Prop :=
| Arguments : forall i1 a1 block dashes ps i2 a2,
    items (P_command c) i1 a1 -> inputs (P_command c) block dashes ps -> items (P_command c) i2 a2 ->
    (dashes = true -> i2 = nil) -> takes_inputs c ps block -> arguments c (i1 ++ block ++ i2) (a1 ++ a2) ps.

(** ** Specification: the command line *)

(** a command of a parser *)
Inductive leads : parser -> String.string -> parser -> Prop :=
| Leads_sign : leads P_main "sign" (P_command C_sign)
| Leads_attest : leads P_main "attest" (P_command C_attest)
| Leads_verify : leads P_main "verify" P_verify
| Leads_token : leads P_main "get-identity-token" (P_command C_get_identity_token)
| Leads_trust : leads P_main "trust-instance" (P_command C_trust_instance)
| Leads_plumbing : leads P_main "plumbing" P_plumbing
| Leads_identity : leads P_verify "identity" (P_command C_verify_identity)
| Leads_github : leads P_verify "github" (P_command C_verify_github)
| Leads_fix : leads P_plumbing "fix-bundle" (P_command C_fix_bundle)
| Leads_update : leads P_plumbing "update-trust-root" (P_command C_update_trust_root).
(** the words up to [--] *)
Definition before_dashes (ws : list str) (w : str) : Prop := exists a b, ws = a ++ w :: b /\ ~ In (s2l "--") (a ++ [w]).
(** options of parser [p], then the name of its subcommand; no later word may abbreviate two options of [p] *)
Inductive commands : parser -> list str -> command -> list (action * str) -> list (action * str) -> list str -> Prop :=
| Commands_here : forall c ws as_ ps, arguments c ws as_ ps -> commands (P_command c) ws c nil as_ ps
| Commands_below : forall p n q i a rest c above as_ ps, items p i a -> leads p n q -> commands q rest c above as_ ps ->
    (forall w, before_dashes rest w -> ~ ambiguous p w) -> commands p (i ++ s2l n :: rest) c (a ++ above) as_ ps.

Definition how_often (a : action) (as_ : list (action * str)) (n : nat) : Prop :=
  n = length (filter (fun x => if action_eq_dec (fst x) a then true else false) as_).
Definition says (ws : list str) (l : Line) : Prop :=
  exists above as_, commands P_main ws (ln_command l) above as_ (ln_positional l) /\
    (* values and switches in their order *)
    ln_options l = flat_map (fun x => match fst x with A_value o => [(o, snd x)] | _ => nil end) (above ++ as_) /\
    ln_flags l = flat_map (fun x => match fst x with A_flag f => [f] | _ => nil end) (above ++ as_) /\
    (ln_upgrade_version l = true <-> exists v, In (A_upgrade, v) as_) /\ (ln_in_place l = true <-> exists v, In (A_in_place, v) as_) /\
    how_often A_verbose above (ln_verbose_before l) /\ how_often A_verbose as_ (ln_verbose l).
(** a word that asks for help or the version, so that nothing is done *)
Definition asks_information (w : str) : Prop :=
  (exists p, means p w A_help \/ means p w A_version) \/
  (* -h, -V, also after some v *)
  (exists n c r, w = 45%N :: repeat 118%N n ++ c :: r /\ (c = 104%N \/ c = 86%N)).
End Spec.
