(** Property C68: the predicates that [attest] accepts. *)
From Verif Require Import Base Codec Messages Env Keyring Cert Dsse KeyDetails Policy TrustedRoot SigningConfig Hashing Json Http
  Oidc Oauth LogEntry Bundle Verifier RekorClient Clients Tuf PyText CliVerify Sign Predicate CliSign PropsCliSign ToyEnv ToyBundles ToySign.

(** ** Specification *)

(** the value of a key in an object (keys are unique; otherwise the first counts) *)
Definition at_key (o : list (str * json)) (k : String.string) (v : json) : Prop :=
  exists l1 l2, o = l1 ++ (s2l k, v) :: l2 /\ ~ In (s2l k) (map fst l1).
Definition has (o : list (str * json)) (k : String.string) (P : json -> Prop) : Prop := exists v, at_key o k v /\ P v.
Definition may_have (o : list (str * json)) (k : String.string) (P : json -> Prop) : Prop := forall v, at_key o k v -> v = JNull \/ P v.
Definition only_keys (o : list (str * json)) (ks : list String.string) : Prop := forall k v, In (k, v) o -> exists n, In n ks /\ k = s2l n.

(** a text without lone surrogates *)
Definition unicode (s : str) : Prop := forall c, In c s -> is_scalar c = true.
Definition text (j : json) : Prop := exists s, j = JStr s /\ unicode s.
Definition object (j : json) : Prop := exists o, j = JObj o /\ forall k v, In (k, v) o -> unicode k.
Definition texts (j : json) : Prop := exists o, j = JObj o /\ forall k v, In (k, v) o -> unicode k /\ text v.
Definition array (P : json -> Prop) (j : json) : Prop := exists l, j = JList l /\ forall v, In v l -> P v.
Definition digests (j : json) : Prop :=
  exists o, j = JObj o /\ only_keys o ["sha256"; "sha384"; "sha512"; "sha3_256"; "sha3_384"; "sha3_512"; "sha1"; "gitCommit"]%string /\
    forall k v, In (k, v) o -> text v.
(** a boolean, one of the numbers 0 and 1, or a word for a boolean *)
Definition boolish (j : json) : Prop :=
  (exists b, j = JBool b) \/ j = JInt 0 \/ j = JInt 1 \/ (exists d, j = JFloat 0 d) \/ (exists d, j = JFloat (Zpos d) d) \/
  exists s w, j = JStr s /\ In w ["0"; "f"; "n"; "no"; "off"; "false"; "1"; "t"; "y"; "on"; "yes"; "true"]%string /\
    Forall2 (fun c d => c = d \/ (65 <= c <= 90 /\ d = c + 32)%N) s (s2l w).

Definition is_config_source (j : json) : Prop :=
  exists o, j = JObj o /\ only_keys o ["uri"; "digest"; "entryPoint"]%string /\
    may_have o "uri" text /\ may_have o "digest" digests /\ may_have o "entryPoint" text.
Definition is_invocation (j : json) : Prop :=
  exists o, j = JObj o /\ only_keys o ["configSource"; "parameters"; "environment"]%string /\
    may_have o "configSource" is_config_source /\ may_have o "parameters" object /\ may_have o "environment" object.
Definition is_completeness (j : json) : Prop :=
  exists o, j = JObj o /\ only_keys o ["parameters"; "environment"; "materials"]%string /\
    may_have o "parameters" boolish /\ may_have o "environment" boolish /\ may_have o "materials" boolish.
Definition is_material (j : json) : Prop :=
  exists o, j = JObj o /\ only_keys o ["uri"; "digest"]%string /\ may_have o "uri" text /\ may_have o "digest" digests.
Definition is_metadata (j : json) : Prop :=
  exists o, j = JObj o /\ only_keys o ["buildInvocationId"; "buildStartedOn"; "buildFinishedOn"; "completeness"; "reproducible"]%string /\
    may_have o "buildInvocationId" text /\ may_have o "buildStartedOn" text /\ may_have o "buildFinishedOn" text /\
    may_have o "completeness" is_completeness /\ may_have o "reproducible" boolish.
Definition is_builder (j : json) : Prop := exists o, j = JObj o /\ only_keys o ["id"]%string /\ has o "id" text.
(** https://slsa.dev/provenance/v0.2 *)
Definition is_slsa_v0_2 (j : json) : Prop :=
  exists o, j = JObj o /\ only_keys o ["builder"; "buildType"; "invocation"; "metadata"; "buildConfig"; "materials"]%string /\
    has o "builder" is_builder /\ has o "buildType" text /\ may_have o "invocation" is_invocation /\ may_have o "metadata" is_metadata /\
    may_have o "buildConfig" object /\ may_have o "materials" (array is_material).

(** what a resource is made of must be given: a non-empty URI or digests; and never the content *)
Definition is_resource (j : json) : Prop :=
  exists o, j = JObj o /\ only_keys o ["name"; "uri"; "digest"; "content"; "downloadLocation"; "mediaType"; "annotations"]%string /\
    may_have o "name" text /\ may_have o "uri" text /\ may_have o "digest" digests /\ may_have o "content" (fun _ => False) /\
    may_have o "downloadLocation" text /\ may_have o "mediaType" text /\ may_have o "annotations" object /\
    (has o "uri" (fun v => exists c s, v = JStr (c :: s)) \/ has o "digest" digests).
Definition is_builder_v1 (j : json) : Prop :=
  exists o, j = JObj o /\ only_keys o ["id"; "builderDependencies"; "version"]%string /\
    has o "id" text /\ may_have o "builderDependencies" (array is_resource) /\ may_have o "version" texts.
Definition is_build_metadata (j : json) : Prop :=
  exists o, j = JObj o /\ only_keys o ["invocationId"; "startedOn"; "finishedOn"]%string /\
    may_have o "invocationId" text /\ may_have o "startedOn" text /\ may_have o "finishedOn" text.
Definition is_run_details (j : json) : Prop :=
  exists o, j = JObj o /\ only_keys o ["builder"; "metadata"; "byproducts"]%string /\
    has o "builder" is_builder_v1 /\ may_have o "metadata" is_build_metadata /\ may_have o "byproducts" (array is_resource).
Definition is_build_definition (j : json) : Prop :=
  exists o, j = JObj o /\ only_keys o ["buildType"; "externalParameters"; "internalParameters"; "resolvedDependencies"]%string /\
    has o "buildType" text /\ has o "externalParameters" object /\ may_have o "internalParameters" object /\
    may_have o "resolvedDependencies" (array is_resource).
(** https://slsa.dev/provenance/v1 *)
Definition is_slsa_v1 (j : json) : Prop :=
  exists o, j = JObj o /\ only_keys o ["buildDefinition"; "runDetails"]%string /\
    has o "buildDefinition" is_build_definition /\ has o "runDetails" is_run_details.

(** ** Proofs *)

Definition decides (c : json -> bool) (P : json -> Prop) : Prop := forall j, c j = true <-> P j.

Lemma at_key_assoc : forall o k v, at_key o k v <-> assoc str_eqb (s2l k) o = Some v.
Proof.
  intros o k v. unfold at_key. generalize (s2l k). clear k. intros k. induction o as [|[x w] o IH]; cbn [assoc].
  - split; [|discriminate]. intros (l1 & l2 & E & _). destruct l1; discriminate.
  - destruct (str_eqb k x) eqn:E.
    + apply str_eqb_spec in E. subst x. split.
      * intros (l1 & l2 & Q & Nq). destruct l1 as [|[y z] l1]; [cbn in Q; congruence|]. exfalso. apply Nq. left. cbn in Q. cbn. congruence.
      * intros Q. exists nil, o. split; [cbn; congruence|intros []].
    + rewrite <- IH. split.
      * intros (l1 & l2 & Q & Nq). destruct l1 as [|[y z] l1].
        -- cbn in Q. assert (x = k) by congruence. subst. rewrite str_eqb_refl in E. discriminate.
        -- cbn [app] in Q. exists l1, l2. split; [congruence|]. intros I. apply Nq. right. assumption.
      * intros (l1 & l2 & -> & Nq). exists ((x, w) :: l1), l2. split; [reflexivity|]. intros [Q|I]; [|contradiction].
        cbn in Q. subst x. rewrite str_eqb_refl in E. discriminate.
Qed.
Lemma has_assoc : forall o k P c, decides c P ->
  (match assoc str_eqb (s2l k) o with Some v => c v | None => false end = true <-> has o k P).
Proof.
  intros o k P c D. unfold has. destruct (assoc str_eqb (s2l k) o) as [v|] eqn:E.
  - rewrite (D v). split; [intros H; exists v; split; [apply at_key_assoc; assumption|assumption]|].
    intros (w & A & H). apply at_key_assoc in A. assert (w = v) by congruence. subst. assumption.
  - split; [discriminate|]. intros (w & A & _). apply at_key_assoc in A. congruence.
Qed.
Lemma may_have_assoc : forall o k P c, decides c P ->
  (match assoc str_eqb (s2l k) o with Some v => match v with JNull => true | _ => c v end | None => true end = true <-> may_have o k P).
Proof.
  intros o k P c D. unfold may_have. destruct (assoc str_eqb (s2l k) o) as [v|] eqn:E.
  - split.
    + intros H w A. apply at_key_assoc in A. assert (w = v) by congruence. subst w. destruct v; try (right; apply D; assumption). left. reflexivity.
    + intros H. specialize (H v). destruct H as [->|H]; [apply at_key_assoc; assumption|reflexivity|]. apply D in H. destruct v; auto.
  - split; [|reflexivity]. intros _ w A. apply at_key_assoc in A. congruence.
Qed.
Lemma keys_only : forall (o : list (str * json)) ns,
  forallb (fun kv => existsb (fun n => str_eqb (fst kv) (s2l n)) ns) o = true <-> only_keys o ns.
Proof.
  intros o ns. rewrite forallb_forall. unfold only_keys. split.
  - intros H k v I. apply H in I. apply existsb_exists in I. destruct I as (n & I & E). apply str_eqb_spec in E. eauto.
  - intros H [k v] I. apply H in I. destruct I as (n & I & ->). apply existsb_exists. exists n. split; [assumption|]. apply str_eqb_refl.
Qed.

Lemma unicode_dec : forall s, forallb is_scalar s = true <-> unicode s.
Proof. intros s. apply forallb_forall. Qed.
Lemma text_dec : decides strict_str text.
Proof.
  intros j. unfold text. destruct j; cbn [strict_str]; try (split; [discriminate|intros (s' & Q & _); discriminate]).
  rewrite unicode_dec. split; [intros H; eauto|]. intros (s' & Q & H). injection Q as ->. assumption.
Qed.
Lemma object_dec : decides any_dict object.
Proof.
  intros j. unfold object. destruct j; cbn [any_dict]; try (split; [discriminate|intros (s' & Q & _); discriminate]).
  rewrite forallb_forall. split.
  - intros H. exists l. split; [reflexivity|]. intros k v I. apply unicode_dec. exact (H (k, v) I).
  - intros (o & Q & H) [k v] I. apply unicode_dec. assert (o = l) by congruence. subst. exact (H k v I).
Qed.
Lemma texts_dec : decides str_dict texts.
Proof.
  intros j. unfold texts. destruct j; cbn [str_dict]; try (split; [discriminate|intros (s' & Q & _); discriminate]).
  rewrite forallb_forall. split.
  - intros H. exists l. split; [reflexivity|]. intros k v I. specialize (H (k, v) I). cbn in H. apply andb_true_iff in H.
    rewrite unicode_dec, (text_dec v) in H. assumption.
  - intros (o & Q & H) [k v] I. assert (o = l) by congruence. subst. cbn. apply andb_true_iff. rewrite unicode_dec, (text_dec v). exact (H k v I).
Qed.
Lemma array_dec : forall c P, decides c P -> decides (list_of c) (array P).
Proof.
  intros c P D j. unfold array. destruct j; cbn [list_of]; try (split; [discriminate|intros (s' & Q & _); discriminate]).
  rewrite forallb_forall. split.
  - intros H. exists l. split; [reflexivity|]. intros v I. apply D. auto.
  - intros (o & Q & H) v I. apply D. assert (o = l) by congruence. subst. auto.
Qed.
Lemma digests_dec : decides digest_set digests.
Proof.
  intros j. unfold digests. destruct j; cbn [digest_set]; try (split; [discriminate|intros (s' & Q & _); discriminate]).
  set (ns := ["sha256"; "sha384"; "sha512"; "sha3_256"; "sha3_384"; "sha3_512"; "sha1"; "gitCommit"]%string).
  assert (E : forall k, existsb (str_eqb k) DIGEST_NAMES = true <-> exists n, In n ns /\ k = s2l n).
  { intros k. change DIGEST_NAMES with (map s2l ns). rewrite existsb_exists. split.
    - intros (x & I & Q). apply in_map_iff in I. destruct I as (n & <- & I). apply str_eqb_spec in Q. eauto.
    - intros (n & I & ->). exists (s2l n). split; [apply in_map; assumption|apply str_eqb_refl]. }
  rewrite forallb_forall. split.
  - intros H. exists l. split; [reflexivity|]. split; intros k v I; specialize (H (k, v) I); cbn [fst snd] in H; apply andb_true_iff in H; destruct H as [A B].
    + apply E. assumption.
    + apply text_dec. assumption.
  - intros (o & Q & K & T) [k v] I. assert (o = l) by congruence. subst. cbn [fst snd]. apply andb_true_iff. split; [apply E; eapply K, I|apply text_dec; eapply T, I].
Qed.
Lemma fold_spells : forall s w, (forall c, In c w -> ~ (65 <= c <= 90)%N) ->
  str_eqb (map ascii_fold s) w = true <-> Forall2 (fun c d => c = d \/ (65 <= c <= 90 /\ d = c + 32)%N) s w.
Proof.
  intros s w. rewrite str_eqb_spec. revert w. induction s as [|c s IH]; intros w W.
  - split; intros H; [cbn in H; subst; constructor|inversion H; reflexivity].
  - cbn [map]. assert (F : forall d, ~ (65 <= d <= 90)%N -> (ascii_fold c = d <-> c = d \/ (65 <= c <= 90 /\ d = c + 32)%N)).
    { intros d Nd. unfold ascii_fold. destruct ((65 <=? c)%N && (c <=? 90)%N) eqn:E.
      - apply andb_true_iff in E. destruct E as [A B]. apply N.leb_le in A. apply N.leb_le in B. split; [intros <-; right; auto|].
        intros [->|[_ ->]]; [exfalso; apply Nd; lia|reflexivity].
      - split; [auto|]. intros [H|[[A B] _]]; [assumption|]. apply N.leb_le in A. apply N.leb_le in B. rewrite A, B in E. discriminate. }
    split; intros H.
    + destruct w as [|d w]; [discriminate|]. assert (E : ascii_fold c = d) by congruence. assert (T : map ascii_fold s = w) by congruence.
      constructor; [apply F; [apply W; left; reflexivity|assumption]|]. apply IH; [|assumption]. intros x I. apply W. right. assumption.
    + inversion H as [|x y l l' R R']; subst. f_equal; [apply F; [apply W; left; reflexivity|assumption]|].
      apply IH; [|assumption]. intros x I. apply W. right. assumption.
Qed.
Lemma boolish_dec : decides lax_bool boolish.
Proof.
  intros j. unfold boolish. destruct j as [|b|n|n d|k|s|l|l]; cbn [lax_bool].
  - split; [discriminate|]. intros [(x & Q)|[Q|[Q|[(x & Q)|[(x & Q)|(x & w & Q & _)]]]]]; discriminate.
  - split; [|reflexivity]. intros _. left. eauto.
  - rewrite orb_true_iff, !Z.eqb_eq. split; [intros [->| ->]; auto|]. intros [(x & Q)|[Q|[Q|[(x & Q)|[(x & Q)|(x & w & Q & _)]]]]]; try discriminate; injection Q as Q; auto.
  - rewrite orb_true_iff, !Z.eqb_eq. split; [intros [->| ->]; [right; right; right; left|right; right; right; right; left]; eauto|].
    intros [(x & Q)|[Q|[Q|[(x & Q)|[(x & Q)|(x & w & Q & _)]]]]]; try discriminate; injection Q as Q1 Q2; subst; auto.
  - split; [discriminate|]. intros [(x & Q)|[Q|[Q|[(x & Q)|[(x & Q)|(x & w & Q & _)]]]]]; discriminate.
  - assert (W : forall w, In w ["0"; "f"; "n"; "no"; "off"; "false"; "1"; "t"; "y"; "on"; "yes"; "true"]%string -> forall c, In c (s2l w) -> ~ (65 <= c <= 90)%N).
    { intros w I c J [A B]. assert (Q : forallb (fun w => forallb (fun c => negb ((65 <=? c) && (c <=? 90))%N) (s2l w)) ["0"; "f"; "n"; "no"; "off"; "false"; "1"; "t"; "y"; "on"; "yes"; "true"]%string = true) by (vm_compute; reflexivity).
      rewrite forallb_forall in Q. apply Q in I. rewrite forallb_forall in I. apply I in J. apply N.leb_le in A. apply N.leb_le in B. rewrite A, B in J. discriminate. }
    rewrite existsb_exists. split.
    + intros (w & I & E). unfold equal_ignoring_case in E. apply fold_spells in E; [|apply W; assumption].
      right. right. right. right. right. exists s, w. auto.
    + intros [(x & Q)|[Q|[Q|[(x & Q)|[(x & Q)|(x & w & Q & I & F)]]]]]; try discriminate. assert (x = s) by congruence. subst x.
      exists w. split; [assumption|]. unfold equal_ignoring_case. apply fold_spells; [apply W; assumption|assumption].
  - split; [discriminate|]. intros [(x & Q)|[Q|[Q|[(x & Q)|[(x & Q)|(x & w & Q & _)]]]]]; discriminate.
  - split; [discriminate|]. intros [(x & Q)|[Q|[Q|[(x & Q)|[(x & Q)|(x & w & Q & _)]]]]]; discriminate.
Qed.

(** a model checks its keys and its fields *)
Definition means (f : field) (k : String.string) (P : list (str * json) -> Prop) : Prop :=
  f_name f = s2l k /\ forall o, (match assoc str_eqb (f_name f) o with Some v => f_check f v | None => negb (f_required f) end = true <-> P o).
Lemma means_required : forall k c P, decides c P -> means (required k c) k (fun o => has o k P).
Proof. intros k c P D. split; [reflexivity|]. intros o. apply (has_assoc o k P c D). Qed.
Lemma means_optional : forall k c P, decides c P -> means (optional k c) k (fun o => may_have o k P).
Proof. intros k c P D. split; [reflexivity|]. intros o. apply (may_have_assoc o k P c D). Qed.
Inductive meanings : list field -> list String.string -> (list (str * json) -> Prop) -> Prop :=
| Mn_one : forall f k P, means f k P -> meanings [f] [k] P
| Mn_more : forall f k P fs ks Q, means f k P -> meanings fs ks Q -> meanings (f :: fs) (k :: ks) (fun o => P o /\ Q o).
Lemma meanings_names : forall fs ks P, meanings fs ks P -> forall (o : list (str * json)),
  forallb (fun kv => existsb (fun f => str_eqb (fst kv) (f_name f)) fs) o = forallb (fun kv => existsb (fun n => str_eqb (fst kv) (s2l n)) ks) o.
Proof.
  intros fs ks P H o. induction o as [|[k v] o IH]; [reflexivity|]. cbn [forallb fst]. rewrite IH. f_equal.
  clear IH. induction H as [f n Q [E _]|f n Q fs ks R [E _] H IH]; cbn [existsb]; rewrite E; [reflexivity|]. f_equal. assumption.
Qed.
Lemma meanings_fields : forall fs ks P, meanings fs ks P -> forall o,
  forallb (fun f => match assoc str_eqb (f_name f) o with Some v => f_check f v | None => negb (f_required f) end) fs = true <-> P o.
Proof.
  intros fs ks P H o. induction H as [f n Q [_ E]|f n Q fs ks R [_ E] H IH]; cbn [forallb].
  - rewrite andb_true_r. apply E.
  - rewrite andb_true_iff, E, IH. reflexivity.
Qed.
Lemma model_dec : forall fs ks P, meanings fs ks P -> decides (model fs) (fun j => exists o, j = JObj o /\ only_keys o ks /\ P o).
Proof.
  intros fs ks P H j. destruct j; cbn [model]; try (split; [discriminate|intros (o & Q & _); discriminate]).
  rewrite andb_true_iff, (meanings_names _ _ _ H), (meanings_fields _ _ _ H), keys_only. split.
  - intros [A B]. exists l. auto.
  - intros (o & Q & A & B). assert (o = l) by congruence. subst. auto.
Qed.
Ltac fields := repeat first [apply Mn_more | apply Mn_one]; first [apply means_required | apply means_optional].

Lemma config_source_dec : decides config_source is_config_source.
Proof. apply model_dec. fields; auto using text_dec, digests_dec. Qed.
Lemma invocation_dec : decides invocation is_invocation.
Proof. apply model_dec. fields; auto using config_source_dec, object_dec. Qed.
Lemma completeness_dec : decides completeness is_completeness.
Proof. apply model_dec. fields; apply boolish_dec. Qed.
Lemma material_dec : decides material is_material.
Proof. apply model_dec. fields; auto using text_dec, digests_dec. Qed.
Lemma metadata_dec : decides metadata is_metadata.
Proof. apply model_dec. fields; auto using text_dec, completeness_dec, boolish_dec. Qed.
Lemma builder_dec : decides builder_v0_1 is_builder.
Proof. apply model_dec. fields; auto using text_dec. Qed.

(** [attest] accepts exactly the documents of the declared type. *)
Theorem C68_v0_2_iff : forall j, slsa_v0_2 j = true <-> is_slsa_v0_2 j.
Proof.
  apply (model_dec _ ["builder"; "buildType"; "invocation"; "metadata"; "buildConfig"; "materials"]%string).
  fields; auto using text_dec, builder_dec, invocation_dec, metadata_dec, object_dec, array_dec, material_dec.
Qed.

Lemma resource_dec : decides resource_descriptor is_resource.
Proof.
  intros j. unfold resource_descriptor. rewrite andb_true_iff.
  assert (D : decides strict_bytes (fun _ => False)) by (intros x; split; [discriminate|contradiction]).
  match goal with |- model ?fs j = true /\ _ <-> _ =>
    assert (M : decides (model fs) (fun j => exists o, j = JObj o /\
      only_keys o ["name"; "uri"; "digest"; "content"; "downloadLocation"; "mediaType"; "annotations"]%string /\
      may_have o "name" text /\ may_have o "uri" text /\ may_have o "digest" digests /\ may_have o "content" (fun _ => False) /\
      may_have o "downloadLocation" text /\ may_have o "mediaType" text /\ may_have o "annotations" object)) end.
  { apply model_dec. fields; auto using text_dec, digests_dec, object_dec. }
  rewrite (M j).
  unfold is_resource. split.
  - intros ((o & -> & K & A1 & A2 & A3 & A4 & A5 & A6 & A7) & C). exists o. repeat (split; [first [reflexivity|assumption]|]).
    cbn [check_required_fields] in C. apply orb_true_iff in C. destruct C as [C|C].
    + left. destruct (assoc str_eqb (s2l "uri") o) as [[| | | | |[|c s]| |]|] eqn:E; try discriminate. exists (JStr (c :: s)).
      split; [apply at_key_assoc; assumption|eauto].
    + right. destruct (assoc str_eqb (s2l "digest") o) as [[| | | | | | |l]|] eqn:E; try discriminate. exists (JObj l).
      split; [apply at_key_assoc; assumption|]. destruct (A3 (JObj l)) as [Q|Q]; [apply at_key_assoc; assumption|discriminate|assumption].
  - intros (o & -> & K & A1 & A2 & A3 & A4 & A5 & A6 & A7 & C). split; [exists o; tauto|].
    cbn [check_required_fields]. apply orb_true_iff. destruct C as [(v & A & c & s & ->)|(v & A & (l & -> & _))]; apply at_key_assoc in A; rewrite A; auto.
Qed.
Lemma builder_v1_dec : decides builder_v1_0 is_builder_v1.
Proof. apply model_dec. fields; auto using text_dec, texts_dec, array_dec, resource_dec. Qed.
Lemma build_metadata_dec : decides build_metadata is_build_metadata.
Proof. apply model_dec. fields; auto using text_dec. Qed.
Lemma run_details_dec : decides run_details is_run_details.
Proof. apply model_dec. fields; auto using builder_v1_dec, build_metadata_dec, array_dec, resource_dec. Qed.
Lemma build_definition_dec : decides build_definition is_build_definition.
Proof. apply model_dec. fields; auto using text_dec, object_dec, array_dec, resource_dec. Qed.

Theorem C68_v1_iff : forall j, slsa_v1_0 j = true <-> is_slsa_v1 j.
Proof. apply (model_dec _ ["buildDefinition"; "runDetails"]%string). fields; auto using build_definition_dec, run_details_dec. Qed.

(** ** The command *)

(** what a predicate type stands for; no other type has documents *)
Definition is_predicate (type : str) (j : json) : Prop :=
  (type = s2l "https://slsa.dev/provenance/v0.2" /\ is_slsa_v0_2 j) \/ (type = s2l "https://slsa.dev/provenance/v1" /\ is_slsa_v1 j).
(** the predicate file holds a document of the declared type *)
Definition good_predicate (tl : Tools) (a : AttestArgs) (t : tree) (j : json) : Prop :=
  exists c s, files_of t (loc tl (aa_predicate a)) = Some c /\ py_decode c = Ok s /\ tl_json tl s = Some j /\ is_predicate (aa_predicate_type a) j.

Lemma read_predicate_iff : forall tl a t j, read_predicate tl a t = Ok j <-> good_predicate tl a t j.
Proof.
  intros tl a t j. unfold read_predicate, good_predicate, is_predicate, is_file, file_text, file_bytes, content, loc.
  change (w_files (world_at tl t)) with (files_of t). change (w_cwd (world_at tl t)) with (w_cwd (tl_world tl)).
  destruct (files_of t (place (w_cwd (tl_world tl)) (aa_predicate a))) as [c|]; cbn [is_some negb raise_if bind];
    [|split; [discriminate|intros (c & s & Q & _); discriminate]].
  destruct (py_decode c) as [s|e] eqn:D; cbn [bind]; [|split; [discriminate|intros (c' & s & Q & Q2 & _); congruence]].
  destruct (tl_json tl s) as [j'|] eqn:J; [|split; [discriminate|intros (c' & s' & Q & Q2 & Q3 & _); assert (c' = c) by congruence; subst; congruence]].
  assert (U : (exists c0 s0, Some c = Some c0 /\ py_decode c0 = Ok s0 /\ tl_json tl s0 = Some j /\ is_predicate (aa_predicate_type a) j) <->
    j = j' /\ is_predicate (aa_predicate_type a) j).
  { split.
    - intros (c' & s' & Q & Q2 & Q3 & I). assert (c' = c) by congruence. subst c'. assert (s' = s) by congruence. subst s'. split; [congruence|assumption].
    - intros [-> I]. exists c, s. auto. }
  unfold is_predicate in U. rewrite U. clear U.
  change (s2l "https://slsa.dev/provenance/v0.2") with SLSA_V0_2. change (s2l "https://slsa.dev/provenance/v1") with SLSA_V1_0.
  assert (Nq : SLSA_V0_2 <> SLSA_V1_0) by (vm_compute; discriminate).
  destruct (str_eqb (aa_predicate_type a) SLSA_V0_2) eqn:E1.
  - apply str_eqb_spec in E1. destruct (slsa_v0_2 j') eqn:V; cbn [negb raise_if bind].
    + split; [intros Q; assert (j = j') by congruence; subst; split; [reflexivity|left; split; [assumption|apply C68_v0_2_iff; assumption]]|intros [-> _]; reflexivity].
    + split; [discriminate|]. intros [-> [[_ I]|[Q _]]]; [apply C68_v0_2_iff in I; congruence|congruence].
  - assert (E1' : aa_predicate_type a <> SLSA_V0_2) by (intros Q; rewrite Q, str_eqb_refl in E1; discriminate).
    destruct (str_eqb (aa_predicate_type a) SLSA_V1_0) eqn:E2.
    + apply str_eqb_spec in E2. destruct (slsa_v1_0 j') eqn:V; cbn [negb raise_if bind].
      * split; [intros Q; assert (j = j') by congruence; subst; split; [reflexivity|right; split; [assumption|apply C68_v1_iff; assumption]]|intros [-> _]; reflexivity].
      * split; [discriminate|]. intros [-> [[Q _]|[_ I]]]; [congruence|apply C68_v1_iff in I; congruence].
    + assert (E2' : aa_predicate_type a <> SLSA_V1_0) by (intros Q; rewrite Q, str_eqb_refl in E2; discriminate).
      split; [discriminate|]. intros [_ [[Q _]|[Q _]]]; contradiction.
Qed.

(** Unless the predicate file holds a document of the declared type, the command fails, and before
    any request is made and any file is touched.  (A usage error; if the file is not UTF-8, a
    UnicodeDecodeError.) *)
Theorem C68_refused : forall tl a t0 h0 sched t h lines r,
  attest_run tl a t0 h0 sched t h lines r -> (forall j, ~ good_predicate tl a t0 j) ->
  t = t0 /\ h = h0 /\ lines = nil /\
  (r = Raise (ESystemExit 2) \/ exists c e, files_of t0 (loc tl (aa_predicate a)) = Some c /\ py_decode c = Raise e).
Proof.
  intros tl a t0 h0 sched t h lines r H B. unfold attest_run, attest_prepare in H.
  destruct (read_predicate tl a t0) as [j|e] eqn:R; [exfalso; apply (B j), read_predicate_iff; assumption|].
  remember (t0, Raise e) as pr1. destruct H; try discriminate. assert (t = t0) by congruence. assert (e0 = e) by congruence. subst.
  repeat (split; [reflexivity|]).
  unfold read_predicate, is_file, file_text, file_bytes, content in R. unfold loc.
  change (w_files (world_at tl t0)) with (files_of t0) in R. change (w_cwd (world_at tl t0)) with (w_cwd (tl_world tl)) in R.
  assert (M : e = ESystemExit 2 -> main_handler (ca_verbose (aa_common a)) (@Raise unit e) = Raise (ESystemExit 2)) by (intros ->; reflexivity).
  destruct (files_of t0 (place (w_cwd (tl_world tl)) (aa_predicate a))) as [c|]; cbn [is_some negb raise_if bind] in R; [|left; apply M; congruence].
  destruct (py_decode c) as [s|x] eqn:D; cbn [bind] in R; [left|right; eauto].
  apply M. destruct (tl_json tl s) as [j'|]; [|unfold invalid_arguments in R; congruence].
  destruct (str_eqb (aa_predicate_type a) SLSA_V0_2); [destruct (slsa_v0_2 j'); cbn in R; congruence|].
  destruct (str_eqb (aa_predicate_type a) SLSA_V1_0); [destruct (slsa_v1_0 j'); cbn in R; congruence|]. unfold invalid_arguments in R. congruence.
Qed.

(** What a successful run signs is that document and that type, over the digest of each input. *)
Theorem C68_signed : forall tl a t0 h0 sched t h lines,
  attest_run tl a t0 h0 sched t h lines (Ok tt) ->
  own_outputs tl (ca_files (aa_common a)) (attest_opts a) -> files_left_alone tl sched (ca_files (aa_common a)) (attest_opts a) ->
  exists h1 s j, setup tl (aa_common a) t0 h0 = (h1, Ok s) /\ good_predicate tl a t0 j /\
    outputs_written tl s (Some (aa_predicate_type a, j)) t0 t (ca_files (aa_common a)) (attest_opts a).
Proof.
  intros tl a t0 h0 sched t h lines H Ow La. destruct (C61_attest_outputs tl a t0 h0 sched t h lines H Ow La) as (h1 & s & j & S1 & R & W).
  exists h1, s, j. rewrite <- read_predicate_iff. auto.
Qed.

(** ** Examples *)

Example ex_v1 : is_slsa_v1 csx_predicate /\ exists t h lines, attest_run csx_tools (csx_attest [csx_a; csx_b] None false) csx_tree nil csx_in_turn t h lines (Ok tt) /\
  good_predicate csx_tools (csx_attest [csx_a; csx_b] None false) csx_tree csx_predicate.
Proof.
  split; [apply C68_v1_iff; vm_compute; reflexivity|]. destruct ex_attest_two as (t & h & l & R & _). exists t, h, l. split; [exact R|].
  apply read_predicate_iff. vm_compute. reflexivity.
Qed.
Definition pdx_v0_2 : json :=
  JObj [(s2l "builder", JObj [(s2l "id", JStr (s2l "me"))]); (s2l "buildType", JStr (s2l "make"));
        (s2l "metadata", JObj [(s2l "reproducible", JStr (s2l "Yes")); (s2l "completeness", JObj [(s2l "materials", JInt 1)])]);
        (s2l "materials", JList [JObj [(s2l "digest", JObj [(s2l "sha1", JStr (s2l "00"))])]])].
Example ex_v0_2 : is_slsa_v0_2 pdx_v0_2 /\ ~ is_slsa_v1 pdx_v0_2 /\ ~ is_slsa_v0_2 csx_predicate.
Proof. rewrite <- C68_v0_2_iff, <- C68_v1_iff, <- C68_v0_2_iff. vm_compute. repeat split; discriminate. Qed.
(** the refused: a misspelt key, a missing one, a wrong type, and a document of the other version *)
Example ex_refused : forall sched t h lines r,
  attest_run csx_tools (mkAA (csx_common [csx_a] false) [s2l "predicate.json"] SLSA_V0_2 None) csx_tree nil sched t h lines r ->
  t = csx_tree /\ h = nil /\ r = Raise (ESystemExit 2).
Proof.
  intros sched t h lines r H. apply C68_refused in H.
  - destruct H as (-> & -> & _ & [->|(c & e & F & D)]); auto. vm_compute in F. injection F as <-. vm_compute in D. discriminate.
  - intros j G. apply read_predicate_iff in G. vm_compute in G. discriminate.
Qed.
Example ex_bad_documents :
  ~ is_slsa_v0_2 (JObj [(s2l "builder", JObj [(s2l "id", JStr (s2l "me"))])]) /\
  ~ is_slsa_v0_2 (JObj [(s2l "builder", JObj [(s2l "id", JStr (s2l "me"))]); (s2l "buildType", JInt 1)]) /\
  ~ is_slsa_v0_2 (JObj [(s2l "builder", JObj [(s2l "id", JStr (s2l "me"))]); (s2l "build_type", JStr (s2l "make"))]) /\
  ~ is_slsa_v0_2 (JObj [(s2l "builder", JObj [(s2l "id", JStr (s2l "me"))]); (s2l "buildType", JStr (s2l "make")); (s2l "extra", JNull)]).
Proof. rewrite <- !C68_v0_2_iff. vm_compute. repeat split; discriminate. Qed.

(** Expected, but not so: a resource may be given by its content, as the in-toto format provides. *)
Theorem C68_content_refuted : exists o, In (s2l "content", JStr (s2l "aGVsbG8=")) o /\ In (s2l "uri", JStr (s2l "git+https://a")) o /\
  ~ is_resource (JObj o) /\ is_resource (JObj (filter (fun kv => negb (str_eqb (fst kv) (s2l "content"))) o)).
Proof.
  exists [(s2l "content", JStr (s2l "aGVsbG8=")); (s2l "uri", JStr (s2l "git+https://a"))].
  split; [left; reflexivity|]. split; [right; left; reflexivity|]. rewrite <- !(resource_dec _). vm_compute. split; [discriminate|reflexivity].
Qed.
(** Expected, but not so: a resource without URI and without any digest is refused.  An empty set
    of digests is enough. *)
Theorem C68_empty_digest_refuted : is_resource (JObj [(s2l "digest", JObj nil)]) /\ ~ is_resource (JObj [(s2l "name", JStr (s2l "a"))]) /\ ~ is_resource (JObj nil).
Proof. rewrite <- !(resource_dec _). vm_compute. repeat split; discriminate. Qed.

Print Assumptions C68_v0_2_iff.
Print Assumptions C68_v1_iff.
Print Assumptions C68_refused.
Print Assumptions C68_signed.
Print Assumptions C68_content_refuted.
Print Assumptions C68_empty_digest_refuted.
