(** sigstore/dsse/_predicate.py: the pydantic models of SLSA predicates, as checks of a JSON value
    ([model_validate] on what [json.load] returns).  Class fields have their camel-case names
    ([alias_generator=to_camel], [extra="forbid"], _predicate.py:65-70). *)
From Verif Require Import Base Codec Json.

(** a field: name, whether it is required, and the check of its value *)
Record field := mkField { f_name : str; f_required : bool; f_check : json -> bool }.
(** pydantic's validation of a model with [extra="forbid"] *)
Definition model (fs : list field) (j : json) : bool :=
  match j with
  | JObj o =>
    forallb (fun kv => existsb (fun f => str_eqb (fst kv) (f_name f)) fs) o &&
    forallb (fun f => match assoc str_eqb (f_name f) o with Some v => f_check f v | None => negb (f_required f) end) fs
  | _ => false
  end.
(** [X | None = None] and [X] *)
Definition optional (name : String.string) (c : json -> bool) : field :=
  mkField (s2l name) false (fun v => match v with JNull => true | _ => c v end).
Definition required (name : String.string) (c : json -> bool) : field := mkField (s2l name) true c.

(** [StrictStr]; lone surrogates are refused *)
Definition strict_str (j : json) : bool := match j with JStr s => forallb is_scalar s | _ => false end.
(** [StrictBytes]: JSON has no bytes *)
Definition strict_bytes (j : json) : bool := false.
(** letters of equal case-insensitive value ([eq_ignore_ascii_case]) *)
Definition ascii_fold (c : N) : N := if ((65 <=? c) && (c <=? 90))%N then (c + 32)%N else c.
Definition equal_ignoring_case (s : str) (w : String.string) : bool := str_eqb (map ascii_fold s) (s2l w).
(** [bool], not strict: booleans, the numbers 0 and 1, and some words *)
Definition lax_bool (j : json) : bool :=
  match j with
  | JBool _ => true
  | JInt n => ((n =? 0) || (n =? 1))%Z
  | JFloat n d => ((n =? 0) || (n =? Zpos d))%Z
  | JStr s => existsb (equal_ignoring_case s)
      ["0"; "f"; "n"; "no"; "off"; "false"; "1"; "t"; "y"; "on"; "yes"; "true"]%string
  | _ => false
  end.
(** [dict[str, Any]], [dict[StrictStr, Any]] *)
Definition any_dict (j : json) : bool :=
  match j with JObj o => forallb (fun kv => forallb is_scalar (fst kv)) o | _ => false end.
(** [dict[StrictStr, StrictStr]] *)
Definition str_dict (j : json) : bool :=
  match j with JObj o => forallb (fun kv => forallb is_scalar (fst kv) && strict_str (snd kv)) o | _ => false end.
(** [list[X]] *)
Definition list_of (c : json -> bool) (j : json) : bool := match j with JList l => forallb c l | _ => false end.

(** _predicate.py:46-47 [SourceDigest], [DigestSetSource]; dsse/__init__.py:38 [Digest] *)
Definition DIGEST_NAMES : list str :=
  [s2l "sha256"; s2l "sha384"; s2l "sha512"; s2l "sha3_256"; s2l "sha3_384"; s2l "sha3_512"; s2l "sha1"; s2l "gitCommit"].
Definition digest_set (j : json) : bool :=
  match j with JObj o => forallb (fun kv => existsb (str_eqb (fst kv)) DIGEST_NAMES && strict_str (snd kv)) o | _ => false end.

(** ** Provenance v0.2 *)

(** _predicate.py:76-81 [BuilderV0_1] *)
Definition builder_v0_1 : json -> bool := model [required "id" strict_str].
(** _predicate.py:84-91 [ConfigSource] *)
Definition config_source : json -> bool :=
  model [optional "uri" strict_str; optional "digest" digest_set; optional "entryPoint" strict_str].
(** _predicate.py:94-101 [Invocation] *)
Definition invocation : json -> bool :=
  model [optional "configSource" config_source; optional "parameters" any_dict; optional "environment" any_dict].
(** _predicate.py:104-111 [Completeness] *)
Definition completeness : json -> bool :=
  model [optional "parameters" lax_bool; optional "environment" lax_bool; optional "materials" lax_bool].
(** _predicate.py:114-120 [Material] *)
Definition material : json -> bool := model [optional "uri" strict_str; optional "digest" digest_set].
(** _predicate.py:123-132 [Metadata] *)
Definition metadata : json -> bool :=
  model [optional "buildInvocationId" strict_str; optional "buildStartedOn" strict_str; optional "buildFinishedOn" strict_str;
         optional "completeness" completeness; optional "reproducible" lax_bool].
(** _predicate.py:135-145 [SLSAPredicateV0_2] *)
Definition slsa_v0_2 : json -> bool :=
  model [required "builder" builder_v0_1; required "buildType" strict_str; optional "invocation" invocation;
         optional "metadata" metadata; optional "buildConfig" any_dict; optional "materials" (list_of material)].

(** ** Provenance v1.0 *)

(** _predicate.py:164-174 [ResourceDescriptor.check_required_fields]: an empty text is false; a digest
    set is an object and therefore true, even if empty *)
Definition check_required_fields (j : json) : bool :=
  match j with
  | JObj o =>
    match assoc str_eqb (s2l "uri") o with Some (JStr (_ :: _)) => true | _ => false end ||
    match assoc str_eqb (s2l "digest") o with Some (JObj _) => true | _ => false end
  | _ => false
  end.
(** _predicate.py:151-174 [ResourceDescriptor] *)
Definition resource_descriptor (j : json) : bool :=
  model [optional "name" strict_str; optional "uri" strict_str; optional "digest" digest_set; optional "content" strict_bytes;
         optional "downloadLocation" strict_str; optional "mediaType" strict_str; optional "annotations" any_dict] j &&
  check_required_fields j.
(** _predicate.py:177-184 [BuilderV1_0] *)
Definition builder_v1_0 : json -> bool :=
  model [required "id" strict_str; optional "builderDependencies" (list_of resource_descriptor); optional "version" str_dict].
(** _predicate.py:187-194 [BuildMetadata] *)
Definition build_metadata : json -> bool :=
  model [optional "invocationId" strict_str; optional "startedOn" strict_str; optional "finishedOn" strict_str].
(** _predicate.py:197-204 [RunDetails] *)
Definition run_details : json -> bool :=
  model [required "builder" builder_v1_0; optional "metadata" build_metadata; optional "byproducts" (list_of resource_descriptor)].
(** _predicate.py:207-215 [BuildDefinition] *)
Definition build_definition : json -> bool :=
  model [required "buildType" strict_str; required "externalParameters" any_dict; optional "internalParameters" any_dict;
         optional "resolvedDependencies" (list_of resource_descriptor)].
(** _predicate.py:218-224 [SLSAPredicateV1_0] *)
Definition slsa_v1_0 : json -> bool :=
  model [required "buildDefinition" build_definition; required "runDetails" run_details].
