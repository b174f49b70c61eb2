(** Property C107: which bytes are read as bundles, and that a bundle that is written is read as it was. *)
From Verif Require Import Base Codec CodecMore Messages Env Keyring Cert Dsse KeyDetails Policy TrustedRoot SigningConfig Hashing Json Http
  Oidc Oauth LogEntry Bundle Verifier RekorClient Clients Tuf PyText CliVerify Sign SignSteps Predicate CliSign CliMain CliCrash VerifierSpec
  PropsDsse PropsPolicy PropsBundle PropsTuf PropsCliVerify SignProofs PropsSign PropsSignThreads PropsSigningConfig PropsRekorClient PropsOidc PropsCliSign
  PropsPredicate PropsSignVerify PropsCrash ToyHash ToyEnv ToyBundles ToySign.
From Verif Require Import JsonText PropsJsonText StatementJson PropsStatement BundleJson.
From Verif Require JsonPrefix CheckpointProofs.

(** ** Specification *)

(** a member of an object: one that must be there, one that may be missing or null, a list *)
Definition has {A} (P : json -> A -> Prop) (o : list (str * json)) (k k' : String.string) (x : A) : Prop :=
  exists j, given o k k' j /\ P j x.
Inductive may_have {A} (P : json -> A -> Prop) (o : list (str * json)) (k k' : String.string) : option A -> Prop :=
| H_missing : ~ In (s2l k) (map fst o) -> ~ In (s2l k') (map fst o) -> may_have P o k k' None
| H_null : given o k k' JNull -> may_have P o k k' None
| H_there : forall j x, given o k k' j -> j <> JNull -> P j x -> may_have P o k k' (Some x).
Inductive has_list {A} (lists : bool) (P : json -> A -> Prop) (o : list (str * json)) (k k' : String.string) : list A -> Prop :=
| H_no_list : lists = true -> ~ In (s2l k) (map fst o) -> ~ In (s2l k') (map fst o) -> has_list lists P o k k' nil
| H_list : forall js l, given o k k' (JList js) -> Forall2 P js l -> has_list lists P o k k' l.

Definition in_base64 (j : json) (b : bytes) : Prop := exists s, j = JStr s /\ b64decode s = Ok b.
Definition in_text (j : json) (s : str) : Prop := j = JStr s.
Definition wrapped {A} (P : json -> A -> Prop) (k k' : String.string) (j : json) (x : A) : Prop := exists o, j = JObj o /\ has P o k k' x.

Section Messages.
Variable lib : BundleLib.
Definition in_number (j : json) (z : Z) : Prop := bl_number lib j = Some z.

Definition proof_of (j : json) (p : InclusionProof) : Prop := exists o, j = JObj o /\
  has in_number o "logIndex" "log_index" (ip_log_index p) /\ has in_base64 o "rootHash" "root_hash" (ip_root_hash p) /\
  has in_number o "treeSize" "tree_size" (ip_tree_size p) /\ has_list (bl_lists lib) in_base64 o "hashes" "hashes" (ip_hashes p) /\
  may_have (wrapped in_text "envelope" "envelope") o "checkpoint" "checkpoint" (ip_checkpoint p).
Definition entry_of (j : json) (e : LogEntry) : Prop := exists o, j = JObj o /\
  has in_number o "logIndex" "log_index" (le_log_index e) /\ has (wrapped in_base64 "keyId" "key_id") o "logId" "log_id" (le_log_id e) /\
  has (fun j (_ : unit) => exists o', j = JObj o' /\ has in_text o' "kind" "kind" (le_kind e) /\ has in_text o' "version" "version" (le_version e))
    o "kindVersion" "kind_version" tt /\
  may_have in_number o "integratedTime" "integrated_time" (le_integrated_time e) /\
  may_have (wrapped in_base64 "signedEntryTimestamp" "signed_entry_timestamp") o "inclusionPromise" "inclusion_promise" (le_promise e) /\
  may_have proof_of o "inclusionProof" "inclusion_proof" (le_proof e) /\
  has in_base64 o "canonicalizedBody" "canonicalized_body" (le_body e).
Definition certificate_of : json -> bytes -> Prop := wrapped in_base64 "rawBytes" "raw_bytes".
Definition chain_of (j : json) (l : list bytes) : Prop := exists o, j = JObj o /\ has_list (bl_lists lib) certificate_of o "certificates" "certificates" l.
Definition timestamps_of (j : json) (l : list bytes) : Prop := exists o, j = JObj o /\
  has_list (bl_lists lib) (wrapped in_base64 "signedTimestamp" "signed_timestamp") o "rfc3161Timestamps" "rfc3161_timestamps" l.
Definition material_of (j : json) (vm : VMaterial) : Prop := exists o ts, j = JObj o /\
  may_have certificate_of o "certificate" "certificate" (vm_cert vm) /\
  may_have chain_of o "x509CertificateChain" "x509_certificate_chain" (vm_chain vm) /\
  has_list (bl_lists lib) entry_of o "tlogEntries" "tlog_entries" (vm_entries vm) /\
  may_have timestamps_of o "timestampVerificationData" "timestamp_verification_data" ts /\
  vm_timestamps vm = match ts with Some l => l | None => nil end.
(** the names of hash algorithms; the other ones that have a name are numbered *)
Definition algorithm_name (a : hash_algorithm) : option str :=
  match a with
  | HA_SHA2_256 => Some (s2l "SHA2_256")
  | HA_SHA2_384 => Some (s2l "SHA2_384")
  | HA_SHA2_512 => Some (s2l "SHA2_512")
  | HA_other 0 => Some (s2l "HASH_ALGORITHM_UNSPECIFIED")
  | HA_other 1 => Some (s2l "SHA3_256")
  | HA_other 2 => Some (s2l "SHA3_384")
  | HA_other _ => None
  end.
Definition digest_of (j : json) (ad : hash_algorithm * bytes) : Prop := exists o, j = JObj o /\
  has (fun j a => exists s, j = JStr s /\ algorithm_name a = Some s) o "algorithm" "algorithm" (fst ad) /\ has in_base64 o "digest" "digest" (snd ad).
Definition message_of (j : json) (s : MessageSignature) : Prop := exists o, j = JObj o /\
  may_have digest_of o "messageDigest" "message_digest" (ms_digest s) /\ has in_base64 o "signature" "signature" (ms_signature s).
Definition envelope_of (j : json) (m : EnvelopeMsg) : Prop := exists o, j = JObj o /\
  has in_base64 o "payload" "payload" (em_payload m) /\ has in_text o "payloadType" "payload_type" (em_type m) /\
  has_list (bl_lists lib) (wrapped in_base64 "sig" "sig") o "signatures" "signatures" (em_sigs m).
Definition content_of (j : json) (m : BundleMsg) : Prop := exists o, j = JObj o /\
  has in_text o "mediaType" "media_type" (bm_media m) /\ has material_of o "verificationMaterial" "verification_material" (bm_vm m) /\
  may_have message_of o "messageSignature" "message_signature" (bm_msig m) /\ may_have envelope_of o "dsseEnvelope" "dsse_envelope" (bm_env m).
(** the bytes are the UTF-8 encoding of a JSON text with the members of the bundle *)
Definition bundle_of (raw : bytes) (m : BundleMsg) : Prop :=
  exists text j, utf8_encode text = Some raw /\ json_text (bl_json lib) j text /\ content_of j m.

(** bundles that exist: their strings are Unicode, their numbers are accepted when written in decimal, their
    algorithms have a name *)
Definition number (z : Z) : Prop := bl_number lib (JStr (dec_Z z)) = Some z.
Definition unicode (s : str) : Prop := forallb is_scalar s = true.
Definition proper_proof (p : InclusionProof) : Prop :=
  number (ip_log_index p) /\ number (ip_tree_size p) /\ (forall c, ip_checkpoint p = Some c -> unicode c).
Definition proper_entry (e : LogEntry) : Prop :=
  number (le_log_index e) /\ unicode (le_kind e) /\ unicode (le_version e) /\ (forall t, le_integrated_time e = Some t -> number t) /\
  (forall p, le_proof e = Some p -> proper_proof p).
Definition proper_bundle (m : BundleMsg) : Prop :=
  unicode (bm_media m) /\ Forall proper_entry (vm_entries (bm_vm m)) /\
  (forall s a d, bm_msig m = Some s -> ms_digest s = Some (a, d) -> exists n, algorithm_name a = Some n) /\
  (forall en, bm_env m = Some en -> unicode (em_type en)).
(** numbers that are accepted are accepted in decimal *)
Definition sound_numbers : Prop := forall j z, bl_number lib j = Some z -> number z.
End Messages.

(** the commands read and write bundles in this way *)
Definition json_bundles (lib : BundleLib) (tl : Tools) : Prop :=
  tl_to_json tl = bundle_text lib /\ w_parse_bundle (tl_world tl) = parse_bundle lib.

(** ** Proofs: which texts are accepted *)

Lemma bytes_value_iff : forall j b, bytes_value j = Some b <-> in_base64 j b.
Proof.
  intros j b. unfold in_base64. split.
  - destruct j; cbn [bytes_value]; try discriminate. destruct (b64decode s) eqn:E; [|discriminate]. intros [= ->]. eauto.
  - intros (s & -> & E). cbn [bytes_value]. rewrite E. reflexivity.
Qed.
Lemma text_value_iff : forall j s, text_value j = Some s <-> in_text j s.
Proof. intros j s. unfold in_text. split; [destruct j; cbn; try discriminate; congruence|intros ->; reflexivity]. Qed.
Lemma algorithm_value_iff : forall j a, algorithm_value j = Some a <-> exists s, j = JStr s /\ algorithm_name a = Some s.
Proof.
  intros j a. split.
  - destruct j; try discriminate. cbn [algorithm_value]. intros H. exists s. split; [reflexivity|].
    unfold ALGORITHMS in *. cbn [assoc] in H. repeat match type of H with context [if str_eqb s ?x then _ else _] =>
      let E := fresh in destruct (str_eqb s x) eqn:E; [apply str_eqb_spec in E; subst s; injection H as <-; reflexivity|] end. discriminate.
  - intros (s & -> & H). destruct a as [| | |[|[|[|n]]]]; try discriminate; injection H as <-; vm_compute; reflexivity.
Qed.

(** members *)
Section Fields.
Context {A : Type}.
Variables (d : json -> option A) (P : json -> A -> Prop) (o : list (str * json)).
Hypothesis D : dicts (JObj o).
Hypothesis Hd : forall j, dicts j -> forall x, d j = Some x <-> P j x.

Lemma dicts_keys : NoDup (map fst o).
Proof. inversion D; assumption. Qed.
Lemma dicts_given : forall k k' j, given o k k' j -> dicts j.
Proof.
  intros k k' j G. inversion D as [| | | | | | |? N F]; subst. assert (I : exists n, In (n, j) o) by (destruct G as [G|(_ & G)]; eauto).
  destruct I as (n & I). exact (proj1 (Forall_forall _ _) F _ I).
Qed.
Lemma required_iff : forall k k' x, required d k k' o = Some x <-> has P o k k' x.
Proof.
  intros k k' x. unfold required, has. destruct (by_alias_or_name (s2l k) (s2l k') o) as [j|] eqn:E.
  - apply by_alias_iff in E; [|exact dicts_keys]. rewrite (Hd j (dicts_given _ _ _ E)). split; [eauto|]. intros (j' & G & Q).
    apply by_alias_iff in E, G; try exact dicts_keys. congruence.
  - split; [discriminate|]. intros (j & G & _). apply by_alias_iff in G; [congruence|exact dicts_keys].
Qed.
Lemma missing_iff : forall k k', by_alias_or_name (s2l k) (s2l k') o = None <-> ~ In (s2l k) (map fst o) /\ ~ In (s2l k') (map fst o).
Proof. intros k k'. unfold by_alias_or_name. rewrite <- !assoc_not. destruct (assoc str_eqb (s2l k) o); [split; [discriminate|intros [? _]; discriminate]|tauto]. Qed.
Lemma optional_iff : forall k k' x, optional d k k' o = Some x <-> may_have P o k k' x.
Proof.
  intros k k' x. unfold optional. destruct (by_alias_or_name (s2l k) (s2l k') o) as [j|] eqn:E.
  - assert (U : forall j', given o k k' j' -> j' = j) by (intros j' G; apply by_alias_iff in G; [congruence|exact dicts_keys]).
    assert (NM : ~ (~ In (s2l k) (map fst o) /\ ~ In (s2l k') (map fst o))) by (rewrite <- missing_iff; congruence).
    apply by_alias_iff in E; [|exact dicts_keys]. pose proof (Hd j (dicts_given _ _ _ E)) as Hj. split.
    + intros H. destruct j; try (injection H as <-; apply H_null; exact E);
        (destruct (d _) as [y|] eqn:Ed; [|discriminate]; injection H as <-; eapply H_there; [exact E|discriminate|apply Hj; exact eq_refl]).
    + intros H. destruct H as [N1 N2|G|j' y G Nn Py]; [tauto| |].
      * apply U in G. subst j. reflexivity.
      * apply U in G. subst j'. apply Hj in Py. rewrite Py. destruct j; try reflexivity. contradiction.
  - split.
    + intros [= <-]. apply missing_iff in E. destruct E. apply H_missing; assumption.
    + intros H. destruct H as [N1 N2|G|j y G Nn Py]; [reflexivity| |]; apply by_alias_iff in G; try exact dicts_keys; congruence.
Qed.
Lemma all_of_iff : forall js, Forall dicts js -> forall l, all_of d js = Some l <-> Forall2 P js l.
Proof.
  induction js as [|j js IH]; intros F l; cbn [all_of].
  - split; [intros [= <-]; constructor|]. intros H. inversion H. reflexivity.
  - inversion F as [|? ? Fj Fr]; subst. split.
    + destruct (d j) as [x|] eqn:E; [|discriminate]. destruct (all_of d js) as [xs|] eqn:E'; [|discriminate]. intros [= <-].
      constructor; [apply Hd; assumption|apply IH; auto].
    + intros H. inversion H as [|? x ? xs Hx Hxs]; subst. apply Hd in Hx; [|exact Fj]. apply IH in Hxs; [|exact Fr]. rewrite Hx, Hxs. reflexivity.
Qed.
Lemma repeated_iff : forall lists k k' l, repeated lists d k k' o = Some l <-> has_list lists P o k k' l.
Proof.
  intros lists k k' l. unfold repeated. destruct (by_alias_or_name (s2l k) (s2l k') o) as [j|] eqn:E.
  - assert (U : forall j', given o k k' j' -> j' = j) by (intros j' G; apply by_alias_iff in G; [congruence|exact dicts_keys]).
    assert (NM : ~ (~ In (s2l k) (map fst o) /\ ~ In (s2l k') (map fst o))) by (rewrite <- missing_iff; congruence).
    apply by_alias_iff in E; [|exact dicts_keys]. pose proof (dicts_given _ _ _ E) as Dj. split.
    + intros H. destruct j as [| | | | | |js|]; try discriminate. inversion Dj; subst. eapply H_list; [exact E|]. apply all_of_iff; assumption.
    + intros H. destruct H as [_ N1 N2|js l G F]; [tauto|]. apply U in G. subst j. inversion Dj; subst. apply all_of_iff; assumption.
  - apply missing_iff in E. split.
    + destruct lists; [|discriminate]. intros [= <-]. destruct E. apply H_no_list; auto.
    + intros H. destruct H as [-> N1 N2|js l G F]; [reflexivity|]. exfalso. destruct E as [N1 N2].
      destruct G as [G|(_ & G)]; apply (in_map fst) in G; cbn [fst] in G; contradiction.
Qed.
End Fields.

Lemma object_iff : forall A (f : list (str * json) -> option A) (Q : list (str * json) -> A -> Prop),
  (forall o, dicts (JObj o) -> forall x, f o = Some x <-> Q o x) ->
  forall j, dicts j -> forall x, object_fields f j = Some x <-> exists o, j = JObj o /\ Q o x.
Proof.
  intros A f Q H j D x. split.
  - destruct j; try discriminate. cbn [object_fields]. intros E. eexists. split; [reflexivity|]. apply H; assumption.
  - intros (o & -> & E). cbn [object_fields]. apply H; assumption.
Qed.
Lemma one_bytes_iff : forall k k' j, dicts j -> forall b, one_bytes k k' j = Some b <-> wrapped in_base64 k k' j b.
Proof. intros k k'. apply object_iff. intros o D b. apply required_iff; [exact D|]. intros j _ x. apply bytes_value_iff. Qed.

(** the match of a reader, one member after the other *)
Ltac member_some := match goal with |- context [match ?x with Some _ => _ | None => _ end] => let E := fresh "E" in destruct x eqn:E; [|discriminate] end.

Section Accept.
Variable lib : BundleLib.

Lemma b64_iff : forall j, dicts j -> forall b, bytes_value j = Some b <-> in_base64 j b.
Proof. intros j _ b. apply bytes_value_iff. Qed.
Lemma txt_iff : forall j, dicts j -> forall b, text_value j = Some b <-> in_text j b.
Proof. intros j _ b. apply text_value_iff. Qed.
Lemma num_iff : forall j, dicts j -> forall z, bl_number lib j = Some z <-> in_number lib j z.
Proof. intros j _ z. reflexivity. Qed.
Lemma checkpoint_iff : forall j, dicts j -> forall s, read_checkpoint j = Some s <-> wrapped in_text "envelope" "envelope" j s.
Proof. apply object_iff. intros o D s. apply required_iff; [exact D|exact txt_iff]. Qed.
Lemma proof_iff : forall j, dicts j -> forall p, read_proof lib j = Some p <-> proof_of lib j p.
Proof.
  apply object_iff. intros o D p.
  rewrite <- !(required_iff _ _ o D num_iff), <- (required_iff _ _ o D b64_iff), <- (repeated_iff _ _ o D b64_iff), <- (optional_iff _ _ o D checkpoint_iff).
  split.
  - do 5 member_some. intros [= <-]. cbn [ip_log_index ip_root_hash ip_tree_size ip_hashes ip_checkpoint].
    repeat split; assumption.
  - intros (-> & -> & -> & -> & ->). destruct p; reflexivity.
Qed.
Lemma kind_iff : forall j, dicts j -> forall kv, read_kind j = Some kv <->
  exists o, j = JObj o /\ has in_text o "kind" "kind" (fst kv) /\ has in_text o "version" "version" (snd kv).
Proof.
  apply object_iff. intros o D kv. rewrite <- !(required_iff _ _ o D txt_iff). split.
  - do 2 member_some. intros [= <-]. auto.
  - intros (-> & ->). destruct kv; reflexivity.
Qed.
Lemma entry_iff : forall j, dicts j -> forall e, read_entry lib j = Some e <-> entry_of lib j e.
Proof.
  apply object_iff. intros o D e.
  assert (K : has (fun j (_ : unit) => exists o', j = JObj o' /\ has in_text o' "kind" "kind" (le_kind e) /\ has in_text o' "version" "version" (le_version e))
      o "kindVersion" "kind_version" tt <-> required read_kind "kindVersion" "kind_version" o = Some (le_kind e, le_version e)).
  { rewrite (required_iff _ _ o D kind_iff). reflexivity. }
  rewrite K, <- (required_iff _ _ o D num_iff), <- (required_iff _ _ o D (one_bytes_iff _ _)), <- (required_iff _ _ o D b64_iff), <- (optional_iff _ _ o D num_iff),
    <- (optional_iff _ _ o D (one_bytes_iff _ _)), <- (optional_iff _ _ o D proof_iff). clear K.
  split.
  - do 7 member_some. intros [= <-]. cbn [le_log_index le_log_id le_kind le_version le_integrated_time le_promise le_proof le_body].
    destruct p as [k v]. cbn [fst snd]. repeat split; try assumption; congruence.
  - intros (-> & -> & -> & -> & -> & -> & ->). destruct e; reflexivity.
Qed.
Lemma certificate_iff : forall j, dicts j -> forall b, read_certificate j = Some b <-> certificate_of j b.
Proof. apply one_bytes_iff. Qed.
Lemma chain_iff : forall j, dicts j -> forall l, read_chain lib j = Some l <-> chain_of lib j l.
Proof. apply object_iff. intros o D l. apply repeated_iff; [exact D|exact certificate_iff]. Qed.
Lemma timestamps_iff : forall j, dicts j -> forall l, read_timestamps lib j = Some l <-> timestamps_of lib j l.
Proof. apply object_iff. intros o D l. apply repeated_iff; [exact D|apply one_bytes_iff]. Qed.
Lemma material_iff : forall j, dicts j -> forall vm, read_material lib j = Some vm <-> material_of lib j vm.
Proof.
  intros j D vm. unfold read_material. rewrite (object_iff _ _ (fun o vm => exists ts,
      may_have certificate_of o "certificate" "certificate" (vm_cert vm) /\
      may_have (chain_of lib) o "x509CertificateChain" "x509_certificate_chain" (vm_chain vm) /\
      has_list (bl_lists lib) (entry_of lib) o "tlogEntries" "tlog_entries" (vm_entries vm) /\
      may_have (timestamps_of lib) o "timestampVerificationData" "timestamp_verification_data" ts /\
      vm_timestamps vm = match ts with Some l => l | None => nil end)); [|clear j D vm|exact D].
  - unfold material_of. split; [intros (o & E & ts & H)|intros (o & ts & E & H)]; [exists o, ts|exists o]; eauto.
  - intros o D vm. setoid_rewrite <- (optional_iff _ _ o D certificate_iff). setoid_rewrite <- (optional_iff _ _ o D chain_iff).
    setoid_rewrite <- (repeated_iff _ _ o D entry_iff). setoid_rewrite <- (optional_iff _ _ o D timestamps_iff). split.
    + do 4 member_some. intros [= <-]. cbn [vm_cert vm_chain vm_entries vm_timestamps]. eauto 10.
    + intros (ts & -> & -> & -> & -> & E). destruct vm as [c ch es l]. cbn [vm_timestamps] in E. subst l. reflexivity.
Qed.
Lemma digest_iff : forall j, dicts j -> forall ad, read_digest j = Some ad <-> digest_of j ad.
Proof.
  apply object_iff. intros o D ad. rewrite <- (required_iff _ _ o D b64_iff), <- (required_iff _ _ o D (fun j _ => algorithm_value_iff j)). split.
  - do 2 member_some. intros [= <-]. auto.
  - intros (-> & ->). destruct ad; reflexivity.
Qed.
Lemma message_iff : forall j, dicts j -> forall s, read_message j = Some s <-> message_of j s.
Proof.
  apply object_iff. intros o D s. rewrite <- (required_iff _ _ o D b64_iff), <- (optional_iff _ _ o D digest_iff). split.
  - do 2 member_some. intros [= <-]. auto.
  - intros (-> & ->). destruct s; reflexivity.
Qed.
Lemma envelope_iff : forall j, dicts j -> forall m, read_envelope lib j = Some m <-> envelope_of lib j m.
Proof.
  apply object_iff. intros o D m. rewrite <- (required_iff _ _ o D b64_iff), <- (required_iff _ _ o D txt_iff), <- (repeated_iff _ _ o D (one_bytes_iff _ _)). split.
  - do 3 member_some. intros [= <-]. auto.
  - intros (-> & -> & ->). destruct m; reflexivity.
Qed.
Lemma bundle_iff : forall j, dicts j -> forall m, read_bundle lib j = Some m <-> content_of lib j m.
Proof.
  apply object_iff. intros o D m. rewrite <- (required_iff _ _ o D txt_iff), <- (required_iff _ _ o D material_iff), <- (optional_iff _ _ o D message_iff),
    <- (optional_iff _ _ o D envelope_iff). split.
  - do 4 member_some. intros [= <-]. auto.
  - intros (-> & -> & -> & ->). destruct m; reflexivity.
Qed.
End Accept.

(** What is read as a bundle is the JSON text of that bundle, and nothing else. *)
Theorem C107_accepts : forall lib raw m, parse_bundle lib raw = Ok m <-> bundle_of lib raw m.
Proof.
  intros lib raw m. unfold parse_bundle, read_bytes, bundle_of. split.
  - destruct (utf8_decode raw) as [text|] eqn:U; [|discriminate]. destruct (read (bl_json lib) text) as [j|] eqn:R; [|discriminate].
    destruct (read_bundle lib j) as [m'|] eqn:B; [|discriminate]. intros [= ->]. apply read_iff in R. exists text, j.
    split; [apply utf8_encode_decode, U|]. split; [exact R|]. apply bundle_iff; [eapply json_dicts; exact R|exact B].
  - intros (text & j & U & R & C). apply utf8_decode_encode in U. rewrite U. pose proof R as R'. apply read_iff in R'. rewrite R'.
    apply bundle_iff in C; [|eapply json_dicts; exact R]. rewrite C. reflexivity.
Qed.

(** Everything else is an invalid bundle *)
Theorem C107_rejects : forall env lib raw, ~ (exists m, bundle_of lib raw m) -> bundle_from_json env (parse_bundle lib) raw = Raise EInvalidBundle.
Proof.
  intros env lib raw N. unfold bundle_from_json. assert (E : parse_bundle lib raw = Raise EPydantic).
  { destruct (parse_bundle lib raw) as [m|e] eqn:P; [exfalso; apply N; exists m; apply C107_accepts, P|].
    unfold parse_bundle in P. destruct (read_bytes (bl_json lib) raw) as [j|]; [|congruence]. destruct (read_bundle lib j); congruence. }
  rewrite E. reflexivity.
Qed.

(** ** Proofs: what is written *)

Lemma alias_here : forall a n j o, by_alias_or_name (s2l a) n ((s2l a, j) :: o) = Some j.
Proof. intros a n j o. unfold by_alias_or_name. cbn [assoc]. rewrite (proj2 (str_eqb_spec _ _) eq_refl). reflexivity. Qed.
Lemma alias_skip : forall a n k j o, str_eqb (s2l a) (s2l k) = false -> str_eqb (s2l n) (s2l k) = false ->
  by_alias_or_name (s2l a) (s2l n) ((s2l k, j) :: o) = by_alias_or_name (s2l a) (s2l n) o.
Proof. intros a n k j o A B. unfold by_alias_or_name. cbn [assoc]. rewrite A, B. reflexivity. Qed.
Lemma alias_nil : forall a n, by_alias_or_name a n nil = None.
Proof. reflexivity. Qed.
Definition null_or {A} (d : json -> option A) (j : option json) : option (option A) :=
  match j with None | Some JNull => Some None | Some j => match d j with Some x => Some (Some x) | None => None end end.
Lemma null_or_some : forall A (d : json -> option A) j x, j <> JNull -> d j = Some x -> null_or d (Some j) = Some (Some x).
Proof. intros A d j x N E. unfold null_or. rewrite E. destruct j; try reflexivity. contradiction. Qed.
Lemma optional_null_or : forall A (d : json -> option A) k k' o, optional d k k' o = null_or d (by_alias_or_name (s2l k) (s2l k') o).
Proof. reflexivity. Qed.
Ltac find_members := unfold required, repeated, field, field_opt; rewrite ?optional_null_or; cbn [app];
  repeat first [rewrite alias_here | rewrite alias_skip by (vm_compute; reflexivity) | rewrite alias_nil].

Lemma bytes_json_read : forall b, bytes_value (bytes_json b) = Some b.
Proof. intros b. unfold bytes_json, bytes_value. rewrite b64decode_b64encode. reflexivity. Qed.
Lemma all_of_map : forall A (d : json -> option A) w l, (forall x, In x l -> d (w x) = Some x) -> all_of d (map w l) = Some l.
Proof.
  intros A d w l. induction l as [|x l IH]; intros H; [reflexivity|]. cbn [map all_of]. rewrite (H x (or_introl eq_refl)), IH; [reflexivity|].
  intros y I. apply H. right. exact I.
Qed.
Lemma one_bytes_read : forall k k' b, one_bytes k k' (one_bytes_json k b) = Some b.
Proof. intros k k' b. unfold one_bytes, one_bytes_json, object_fields. find_members. apply bytes_json_read. Qed.
Lemma algorithm_read : forall a n, algorithm_name a = Some n -> algorithm_value (JStr (algorithm_text a)) = Some a.
Proof. intros a n E. destruct a as [| | |[|[|[|k]]]]; try discriminate; vm_compute; reflexivity. Qed.

Section Written.
Variable lib : BundleLib.
Lemma number_read : forall z, number lib z -> bl_number lib (number_json z) = Some z.
Proof. intros z H. exact H. Qed.
Lemma chain_read : forall l, read_chain lib (chain_json l) = Some l.
Proof. intros l. unfold read_chain, chain_json, object_fields. find_members. apply all_of_map. intros b _. apply one_bytes_read. Qed.
Lemma timestamps_read : forall l, read_timestamps lib (timestamps_json l) = Some l.
Proof. intros l. unfold read_timestamps, timestamps_json, object_fields. find_members. apply all_of_map. intros b _. apply one_bytes_read. Qed.
Lemma proof_read : forall p, proper_proof lib p -> read_proof lib (proof_json p) = Some p.
Proof.
  intros [i r n hs c] (Hi & Hn & _). cbn [ip_log_index ip_tree_size] in Hi, Hn. unfold read_proof, proof_json, object_fields.
  cbn [ip_log_index ip_root_hash ip_tree_size ip_hashes ip_checkpoint].
  destruct c as [c|]; find_members; rewrite (number_read _ Hi), (number_read _ Hn), bytes_json_read, all_of_map by (intros; apply bytes_json_read);
    [|reflexivity]. rewrite (null_or_some _ _ _ c); [reflexivity|discriminate|]. unfold read_checkpoint, object_fields. find_members. reflexivity.
Qed.
Lemma entry_read : forall e, proper_entry lib e -> read_entry lib (entry_json e) = Some e.
Proof.
  intros [i k ki ve t p ip b] (Hi & _ & _ & Ht & Hp). cbn [le_log_index le_integrated_time le_proof] in Hi, Ht, Hp.
  unfold read_entry, entry_json, object_fields. cbn [le_log_index le_log_id le_kind le_version le_integrated_time le_promise le_proof le_body].
  assert (Hk : read_kind (JObj [(s2l "kind", JStr ki); (s2l "version", JStr ve)]) = Some (ki, ve)).
  { unfold read_kind, object_fields. find_members. reflexivity. }
  assert (Hpj : forall p0, Some p0 = ip -> null_or (read_proof lib) (Some (proof_json p0)) = Some (Some p0))
    by (intros p0 E; apply null_or_some; [discriminate|apply proof_read, Hp; auto]).
  assert (Htj : forall t0, Some t0 = t -> null_or (bl_number lib) (Some (number_json t0)) = Some (Some t0))
    by (intros t0 E; apply null_or_some; [discriminate|apply number_read, Ht; auto]).
  assert (Hsj : forall x, null_or (one_bytes "signedEntryTimestamp" "signed_entry_timestamp") (Some (one_bytes_json "signedEntryTimestamp" x)) = Some (Some x))
    by (intros x; apply null_or_some; [discriminate|apply one_bytes_read]).
  destruct t as [t|], p as [p|], ip as [ip|]; find_members; rewrite (number_read _ Hi), one_bytes_read, Hk, bytes_json_read,
    ?(Htj _ eq_refl), ?(Hpj _ eq_refl), ?Hsj; reflexivity.
Qed.
Lemma material_read : forall vm, Forall (proper_entry lib) (vm_entries vm) -> read_material lib (material_json vm) = Some vm.
Proof.
  intros [c ch es ts] F. cbn [vm_entries] in F. unfold read_material, material_json, object_fields. cbn [vm_cert vm_chain vm_entries vm_timestamps].
  assert (Hc : forall x, null_or read_certificate (Some (one_bytes_json "rawBytes" x)) = Some (Some x))
    by (intros x; apply null_or_some; [discriminate|apply one_bytes_read]).
  assert (Hch : forall x, null_or (read_chain lib) (Some (chain_json x)) = Some (Some x)) by (intros x; apply null_or_some; [discriminate|apply chain_read]).
  assert (Hts : forall x, null_or (read_timestamps lib) (Some (timestamps_json x)) = Some (Some x)) by (intros x; apply null_or_some; [discriminate|apply timestamps_read]).
  assert (He : all_of (read_entry lib) (map entry_json es) = Some es)
    by (apply all_of_map; intros x I; apply entry_read; exact (proj1 (Forall_forall _ _) F x I)).
  destruct c as [c|], ch as [ch|]; find_members; rewrite He, Hts, ?Hc, ?Hch; reflexivity.
Qed.
Lemma message_read : forall s, (forall a d, ms_digest s = Some (a, d) -> exists n, algorithm_name a = Some n) -> read_message (message_json s) = Some s.
Proof.
  intros [d sg] H. cbn [ms_digest] in H. unfold read_message, message_json, object_fields. cbn [ms_digest ms_signature].
  destruct d as [[a d]|]; find_members; rewrite bytes_json_read; [|reflexivity].
  rewrite (null_or_some _ _ _ (a, d)); [reflexivity|discriminate|]. unfold read_digest, object_fields. cbn [fst snd]. find_members.
  destruct (H a d eq_refl) as (n & I). rewrite (algorithm_read a n I), bytes_json_read. reflexivity.
Qed.
Lemma envelope_read : forall m, read_envelope lib (envelope_json m) = Some m.
Proof.
  intros [p t ss]. unfold read_envelope, envelope_json, object_fields. cbn [em_payload em_type em_sigs]. find_members.
  rewrite bytes_json_read, all_of_map by (intros; apply one_bytes_read). reflexivity.
Qed.
Lemma bundle_read : forall m, proper_bundle lib m -> read_bundle lib (bundle_json m) = Some m.
Proof.
  intros [t vm ms en] (_ & He & Ha & _). cbn [bm_vm bm_msig] in He, Ha. unfold read_bundle, bundle_json, object_fields. cbn [bm_media bm_vm bm_msig bm_env].
  assert (Hm : forall x, Some x = ms -> null_or read_message (Some (message_json x)) = Some (Some x)).
  { intros x E. apply null_or_some; [discriminate|]. apply message_read. intros a d. apply Ha. auto. }
  assert (Hn : forall x, null_or (read_envelope lib) (Some (envelope_json x)) = Some (Some x))
    by (intros x; apply null_or_some; [discriminate|apply envelope_read]).
  destruct ms as [ms|], en as [en|]; find_members; rewrite (material_read _ He), ?(Hm _ eq_refl), ?Hn; reflexivity.
Qed.
End Written.

(** values made of strings, lists and dicts *)
Inductive plain (U : str -> Prop) : nat -> json -> Prop :=
| PL_str : forall n s, U s -> plain U n (JStr s)
| PL_list : forall n l, Forall (plain U n) l -> plain U (S n) (JList l)
| PL_obj : forall n o, NoDup (map fst o) -> Forall (fun kv => U (fst kv) /\ plain U n (snd kv)) o -> plain U (S n) (JObj o).

Lemma plain_facts : forall U lib j n, plain U n j -> writable lib j /\ depth j <= n.
Proof.
  intros U lib. induction j as [| | | | | |l IH|o IH] using json_nested; intros lv H; inversion H as [? ? Us|m ? F|m ? N F]; subst.
  - split; [constructor|cbn; lia].
  - rewrite Forall_forall in IH, F. split.
    + constructor. apply Forall_forall. intros x I. exact (proj1 (IH x I m (F x I))).
    + cbn [depth]. apply le_n_S, list_max_le, Forall_forall. intros y I. apply in_map_iff in I. destruct I as (x & <- & I). exact (proj2 (IH x I m (F x I))).
  - rewrite Forall_forall in IH, F. split.
    + constructor; [exact N|]. apply Forall_forall. intros x I. exact (proj1 (IH x I m (proj2 (F x I)))).
    + cbn [depth]. apply le_n_S, list_max_le, Forall_forall. intros y I. apply in_map_iff in I. destruct I as (x & <- & I). exact (proj2 (IH x I m (proj2 (F x I)))).
Qed.

Lemma unicode_app : forall a b, unicode a -> unicode b -> unicode (a ++ b).
Proof. unfold unicode. intros a b A B. rewrite forallb_app, A, B. reflexivity. Qed.
Lemma unicode_cons : forall c a, is_scalar c = true -> unicode a -> unicode (c :: a).
Proof. unfold unicode. intros c a A B. cbn [forallb]. rewrite A, B. reflexivity. Qed.
Lemma scalar_small : forall c, (c < 55296)%N -> is_scalar c = true.
Proof. intros c L. unfold is_scalar. apply N.ltb_lt in L. rewrite L. reflexivity. Qed.
Lemma unicode_small : forall s, (forall c, In c s -> (c < 55296)%N) -> unicode s.
Proof. intros s H. unfold unicode. apply forallb_forall. intros c I. apply scalar_small, H, I. Qed.
Lemma unicode_ascii : forall s, is_ascii s = true -> unicode s.
Proof. intros s H. apply unicode_small. intros c I. apply (proj1 (forallb_forall _ _) H) in I. apply N.ltb_lt in I. lia. Qed.
Lemma unicode_dec : forall z, unicode (dec_Z z).
Proof.
  intros z. apply unicode_small. intros c I. apply (proj1 (forallb_forall _ _) (dec_Z_chars z)) in I. unfold is_int_char, is_digit in I.
  apply orb_prop in I. destruct I as [I|I]; [apply andb_prop in I; destruct I as [_ I]; apply N.leb_le in I; lia|apply N.eqb_eq in I; lia].
Qed.
Lemma unicode_write_char : forall c, is_scalar c = true -> unicode (write_char c).
Proof.
  intros c H. unfold write_char, unicode. repeat match goal with |- context [if ?b then _ else _] => destruct b eqn:?; [first [reflexivity|idtac]|] end.
  - cbn [forallb]. assert (L : (c < 32)%N) by (apply N.ltb_lt; assumption).
    assert (Q : forall n, (n < 16)%N -> is_scalar (JsonText.hex_digit n) = true).
    { intros n Ln. apply scalar_small. unfold JsonText.hex_digit. destruct (N.ltb_spec n 10); lia. }
    rewrite !Q; [reflexivity|apply N.mod_lt; lia|apply N.div_lt_upper_bound; lia].
  - cbn [forallb]. rewrite H. reflexivity.
Qed.
Lemma unicode_write_str : forall s, unicode s -> unicode (write_str s).
Proof.
  intros s H. unfold write_str. apply unicode_cons; [reflexivity|]. apply unicode_app; [|reflexivity]. induction s as [|c s IH]; [reflexivity|].
  cbn [flat_map]. unfold unicode in H. cbn [forallb] in H. apply andb_prop in H. destruct H as [Hc Hs]. apply unicode_app; [apply unicode_write_char, Hc|apply IH, Hs].
Qed.
Lemma unicode_join : forall c l, is_scalar c = true -> Forall unicode l -> unicode (join_on c l).
Proof.
  intros c l Hc. induction l as [|x l IH]; intros F; [reflexivity|]. inversion F; subst. destruct l as [|y l]; [assumption|].
  change (join_on c (x :: y :: l)) with (x ++ c :: join_on c (y :: l)). apply unicode_app; [assumption|]. apply unicode_cons; [exact Hc|]. apply IH. assumption.
Qed.
Lemma unicode_write : forall lib j n, plain unicode n j -> unicode (write lib j).
Proof.
  intros lib. induction j as [| | | | | |l IH|o IH] using json_nested; intros lv H; inversion H as [? ? Us|m ? F|m ? N F]; subst; cbn [write].
  - apply unicode_write_str, Us.
  - apply unicode_app; [reflexivity|]. apply unicode_app; [|reflexivity]. apply unicode_join; [reflexivity|]. apply Forall_forall. intros y I.
    apply in_map_iff in I. destruct I as (x & <- & I). rewrite Forall_forall in IH, F. exact (IH x I m (F x I)).
  - apply unicode_app; [reflexivity|]. apply unicode_app; [|reflexivity]. apply unicode_join; [reflexivity|]. apply Forall_forall. intros y I.
    apply in_map_iff in I. destruct I as (x & <- & I). rewrite Forall_forall in IH, F. destruct (F x I) as [Uk Pv].
    apply unicode_app; [apply unicode_write_str, Uk|]. apply unicode_cons; [reflexivity|]. exact (IH x I m Pv).
Qed.

(** the values that are written are of this kind, at most six levels deep *)
Section Plain.
Variable lib : BundleLib.
Variable U : str -> Prop.
Hypothesis Ua : forall s, is_ascii s = true -> U s.
Hypothesis Ud : forall z, U (dec_Z z).

Lemma plain_bytes : forall n b, plain U n (bytes_json b).
Proof. intros n b. constructor. apply Ua, b64encode_ascii. Qed.
Lemma plain_number : forall n z, plain U n (number_json z).
Proof. intros n z. constructor. apply Ud. Qed.
Lemma plain_map : forall A (w : A -> json) n l, (forall x, In x l -> plain U n (w x)) -> plain U (S n) (JList (map w l)).
Proof. intros A w n l H. constructor. apply Forall_forall. intros y I. apply in_map_iff in I. destruct I as (x & <- & I). apply H, I. Qed.
Ltac obj := apply PL_obj; [keys|repeat (apply Forall_cons; [split; [apply Ua; reflexivity|cbn [snd]]|]); [..|apply Forall_nil]].
Lemma plain_one : forall n k b, is_ascii (s2l k) = true -> plain U (S n) (one_bytes_json k b).
Proof.
  intros n k b A. apply PL_obj; [constructor; [intros []|constructor]|]. apply Forall_cons; [|apply Forall_nil]. split; [apply Ua, A|apply plain_bytes].
Qed.
Lemma plain_proof : forall p, (forall c, ip_checkpoint p = Some c -> U c) -> plain U 2 (proof_json p).
Proof.
  intros [i r n hs c] H. cbn [ip_checkpoint] in H. unfold proof_json, field, field_opt. cbn [ip_log_index ip_root_hash ip_tree_size ip_hashes ip_checkpoint].
  destruct c as [c|]; cbn [app]; obj; try apply plain_number; try apply plain_bytes; try (apply plain_map; intros; apply plain_bytes).
  obj. constructor. apply H. reflexivity.
Qed.
Lemma plain_entry : forall e, U (le_kind e) -> U (le_version e) -> (forall p c, le_proof e = Some p -> ip_checkpoint p = Some c -> U c) -> plain U 3 (entry_json e).
Proof.
  intros [i k ki ve t p ip b] Hk Hv H. cbn [le_kind le_version le_proof] in *. unfold entry_json, field, field_opt.
  cbn [le_log_index le_log_id le_kind le_version le_integrated_time le_promise le_proof le_body].
  destruct t as [t|], p as [p|], ip as [ip|]; cbn [app]; obj; try apply plain_number; try apply plain_bytes; try (apply plain_one; reflexivity);
    try (obj; constructor; assumption); apply plain_proof; intros c; apply H; reflexivity.
Qed.
Lemma plain_material : forall vm, (forall e, In e (vm_entries vm) -> plain U 3 (entry_json e)) -> plain U 5 (material_json vm).
Proof.
  intros [c ch es ts] H. cbn [vm_entries] in H. unfold material_json, field, field_opt. cbn [vm_cert vm_chain vm_entries vm_timestamps].
  assert (C : forall x, plain U 4 (chain_json x)) by (intros x; unfold chain_json, field; obj; apply plain_map; intros; apply plain_one; reflexivity).
  assert (T : forall x, plain U 4 (timestamps_json x)) by (intros x; unfold timestamps_json, field; obj; apply plain_map; intros; apply plain_one; reflexivity).
  destruct c as [c|], ch as [ch|]; cbn [app]; obj; try apply C; try apply T; try (apply plain_one; reflexivity); apply plain_map; exact H.
Qed.
Lemma plain_algorithm : forall n a, plain U n (JStr (algorithm_text a)).
Proof. intros n a. constructor. apply Ua. destruct a as [| | |[|[|k]]]; reflexivity. Qed.
Lemma plain_message : forall m, plain U 5 (message_json m).
Proof.
  intros [d sg]. unfold message_json, field, field_opt. cbn [ms_digest ms_signature]. destruct d as [[a d]|]; cbn [app fst snd]; obj; try apply plain_bytes.
  obj; [apply plain_algorithm|apply plain_bytes].
Qed.
Lemma plain_envelope : forall m, U (em_type m) -> plain U 5 (envelope_json m).
Proof.
  intros [p t ss] H. unfold envelope_json, field. cbn [em_payload em_type em_sigs app]. obj; [apply plain_bytes|constructor; exact H|].
  apply plain_map. intros. apply plain_one; reflexivity.
Qed.
Lemma plain_bundle : forall m, U (bm_media m) -> (forall e, In e (vm_entries (bm_vm m)) -> plain U 3 (entry_json e)) ->
  (forall en, bm_env m = Some en -> U (em_type en)) -> plain U 6 (bundle_json m).
Proof.
  intros [t vm ms en] Ht He Hn. cbn [bm_media bm_vm bm_env] in *. unfold bundle_json, field, field_opt. cbn [bm_media bm_vm bm_msig bm_env].
  destruct ms as [ms|], en as [en|]; cbn [app]; obj; try (constructor; exact Ht); try (apply plain_material; exact He); try apply plain_message;
    apply plain_envelope, Hn; reflexivity.
Qed.
End Plain.

Lemma proper_plain : forall lib m, proper_bundle lib m -> plain unicode 6 (bundle_json m).
Proof.
  intros lib m (Ht & He & _ & Hn). apply plain_bundle; [exact unicode_ascii|exact Ht| |exact Hn]. intros e I.
  destruct (proj1 (Forall_forall _ _) He e I) as (_ & Hk & Hv & _ & Hp). apply plain_entry; [exact unicode_ascii|exact unicode_dec|exact Hk|exact Hv|].
  intros p c Ep Ec. exact (proj2 (proj2 (Hp p Ep)) c Ec).
Qed.
Lemma any_plain : forall m, plain (fun _ => True) 6 (bundle_json m).
Proof. intros m. apply plain_bundle; auto. intros e _. apply plain_entry; auto. Qed.

Lemma encodable : forall s, unicode s -> exists b, utf8_encode s = Some b.
Proof.
  intros s H. destruct (utf8_encode s) as [b|] eqn:E; [eauto|]. apply CheckpointProofs.utf8_encode_none in E. unfold unicode in H. congruence.
Qed.
Lemma proper_text : forall lib m, proper_bundle lib m -> utf8_encode (write (bl_json lib) (bundle_json m)) = Some (bundle_text lib m).
Proof.
  intros lib m H. unfold bundle_text. destruct (encodable (write (bl_json lib) (bundle_json m))) as (b & E); [|rewrite E; reflexivity].
  eapply unicode_write, proper_plain, H.
Qed.
Lemma bundle_value : forall lib m, 6 <= jl_depth (bl_json lib) ->
  value_text (bl_json lib) (jl_depth (bl_json lib)) (bundle_json m) (write (bl_json lib) (bundle_json m)).
Proof. intros lib m L. destruct (plain_facts _ (bl_json lib) _ _ (any_plain m)) as [W D]. apply write_value; [exact W|lia]. Qed.

(** What is written for a bundle is read as that bundle, with white space around it or without. *)
Theorem C107_round_trip : forall lib m before after b a, 6 <= jl_depth (bl_json lib) -> proper_bundle lib m ->
  blank before -> blank after -> utf8_encode before = Some b -> utf8_encode after = Some a ->
  parse_bundle lib (b ++ bundle_text lib m ++ a) = Ok m.
Proof.
  intros lib m before after b a L P Bb Ba Eb Ea. apply C107_accepts. exists (before ++ write (bl_json lib) (bundle_json m) ++ after), (bundle_json m).
  split; [apply JsonPrefix.encode_app; [exact Eb|apply JsonPrefix.encode_app; [apply proper_text, P|exact Ea]]|]. split.
  - exists before, (write (bl_json lib) (bundle_json m)), after. split; [reflexivity|]. split; [exact Bb|]. split; [exact Ba|]. apply bundle_value, L.
  - apply bundle_iff; [|apply bundle_read, P]. exact (proj1 (read_dicts (bl_json lib)) _ _ _ (bundle_value lib m L)).
Qed.
Corollary C107_text_read : forall lib m, 6 <= jl_depth (bl_json lib) -> proper_bundle lib m ->
  parse_bundle lib (bundle_text lib m) = Ok m /\ parse_bundle lib (bundle_text lib m ++ [x0a]) = Ok m.
Proof.
  intros lib m L P. split.
  - rewrite <- (app_nil_r (bundle_text lib m)). apply (C107_round_trip lib m nil nil nil nil); try assumption; constructor.
  - destruct newline_blank as [B E]. apply (C107_round_trip lib m nil [10%N] nil [x0a]); try assumption; constructor.
Qed.
(** so different bundles are different files *)
Corollary C107_injective : forall lib m m', 6 <= jl_depth (bl_json lib) -> proper_bundle lib m -> proper_bundle lib m' ->
  bundle_text lib m = bundle_text lib m' -> m = m'.
Proof. intros lib m m' L P P' E. destruct (C107_text_read lib m L P) as [R _]. destruct (C107_text_read lib m' L P') as [R' _]. congruence. Qed.

(** ** Bundles that are read can be written *)

Inductive strings_ok : json -> Prop :=
| SO_null : strings_ok JNull
| SO_bool : forall b, strings_ok (JBool b)
| SO_int : forall z, strings_ok (JInt z)
| SO_float : forall n d, strings_ok (JFloat n d)
| SO_special : forall k, strings_ok (JSpecial k)
| SO_str : forall s, unicode s -> strings_ok (JStr s)
| SO_list : forall l, Forall strings_ok l -> strings_ok (JList l)
| SO_obj : forall o, Forall (fun kv => strings_ok (snd kv)) o -> strings_ok (JObj o).

Lemma unicode_app_inv : forall a b, unicode (a ++ b) -> unicode a /\ unicode b.
Proof. intros a b H. unfold unicode in *. rewrite forallb_app in H. apply andb_prop in H. exact H. Qed.
Lemma char_scalar : forall c t, char_text c t -> unicode t -> is_scalar c = true.
Proof.
  intros c t H U. assert (Hf : forall t u, four t u -> (u < 65536)%N).
  { clear. intros t u (a & b & c & d & va & vb & vc & vd & _ & A & B & C & D & ->). assert (Q : forall c v, digit_of c v -> (v < 16)%N) by (intros ? ? [[? _]|[[_ ?] _]]; lia).
    apply Q in A, B, C, D. lia. }
  destruct H as [c _ _ _|e c I|u t F N|u v t t' F F' Lu Lv].
  - unfold unicode in U. cbn [forallb] in U. apply andb_prop in U. tauto.
  - cbn [In] in I. apply scalar_small. repeat (destruct I as [I|I]; [injection I as <- <-; reflexivity|]). contradiction.
  - apply Hf in F. unfold is_scalar. destruct (N.ltb_spec u 55296); [reflexivity|]. destruct (N.leb_spec 57344 u); [|lia]. destruct (N.ltb_spec u 1114112); [reflexivity|lia].
  - unfold is_scalar. destruct (N.ltb_spec (65536 + (u - 55296) * 1024 + (v - 56320)) 55296); [reflexivity|].
    destruct (N.leb_spec 57344 (65536 + (u - 55296) * 1024 + (v - 56320))); [|lia].
    destruct (N.ltb_spec (65536 + (u - 55296) * 1024 + (v - 56320)) 1114112); [reflexivity|lia].
Qed.
Lemma string_unicode : forall s t, string_text s t -> unicode t -> unicode s.
Proof.
  intros s t (ts & F & ->) U. apply unicode_app_inv in U. destruct U as [_ U]. apply unicode_app_inv in U. destruct U as [U _].
  induction F as [|c t s ts C F IH]; [reflexivity|]. cbn [concat] in U. apply unicode_app_inv in U. destruct U as [U1 U2].
  apply unicode_cons; [eapply char_scalar; eassumption|apply IH, U2].
Qed.
Lemma text_strings : forall lib,
  (forall d j t, value_text lib d j t -> unicode t -> strings_ok j) /\ (forall d l t, elements_text lib d l t -> unicode t -> Forall strings_ok l) /\
  (forall d l t, members_text lib d l t -> unicode t -> Forall (fun kv => strings_ok (snd kv)) l).
Proof.
  intros lib. apply texts_mut; intros; repeat match goal with H : unicode (_ ++ _) |- _ => apply unicode_app_inv in H; destruct H end; try (constructor; fail); auto.
  - constructor. eapply string_unicode; eassumption.
  - constructor. constructor.
  - constructor. auto.
  - constructor. constructor.
  - constructor. eapply dict_of_forall; [eassumption|auto].
Qed.
Lemma json_strings : forall lib j s, json_text lib j s -> unicode s -> strings_ok j.
Proof.
  intros lib j s (w & t & w' & -> & _ & _ & V) U. apply unicode_app_inv in U. destruct U as [_ U]. apply unicode_app_inv in U. destruct U as [U _].
  exact (proj1 (text_strings lib) _ _ _ V U).
Qed.
Lemma encoded_unicode : forall s b, utf8_encode s = Some b -> unicode s.
Proof.
  induction s as [|c s IH]; intros b H; [reflexivity|]. cbn [utf8_encode] in H. destruct (is_scalar c) eqn:E; [|discriminate].
  destruct (utf8_encode s) as [r|]; [|discriminate]. apply unicode_cons; [exact E|]. eapply IH. reflexivity.
Qed.

Lemma strings_given : forall o k k' j, strings_ok (JObj o) -> given o k k' j -> strings_ok j.
Proof.
  intros o k k' j S G. inversion S as [| | | | | | |? F]; subst. assert (I : exists n, In (n, j) o) by (destruct G as [G|(_ & G)]; eauto).
  destruct I as (n & I). exact (proj1 (Forall_forall _ _) F _ I).
Qed.
Lemma has_text : forall o k k' s, strings_ok (JObj o) -> has in_text o k k' s -> unicode s.
Proof. intros o k k' s S (j & G & ->). apply (strings_given _ _ _ _ S) in G. inversion G. assumption. Qed.

Section Reread.
Variable lib : BundleLib.
Hypothesis Sn : sound_numbers lib.
Lemma has_number : forall o k k' z, has (in_number lib) o k k' z -> number lib z.
Proof. intros o k k' z (j & _ & H). exact (Sn j z H). Qed.
Lemma proof_proper : forall j p, strings_ok j -> proof_of lib j p -> proper_proof lib p.
Proof.
  intros j p S (o & -> & Hi & _ & Hn & _ & Hc). split; [eapply has_number; exact Hi|]. split; [eapply has_number; exact Hn|].
  intros c E. rewrite E in Hc. inversion Hc as [| |j x G _ (o' & -> & Q)]; subst. apply (strings_given _ _ _ _ S) in G. eapply has_text; eassumption.
Qed.
Lemma entry_proper : forall j e, strings_ok j -> entry_of lib j e -> proper_entry lib e.
Proof.
  intros j e S (o & -> & Hi & _ & (jk & Gk & o' & -> & Hk & Hv) & Ht & _ & Hp & _). apply (strings_given _ _ _ _ S) in Gk.
  split; [eapply has_number; exact Hi|]. split; [eapply has_text; eassumption|]. split; [eapply has_text; eassumption|]. split.
  - intros t E. rewrite E in Ht. inversion Ht as [| |j x G _ Q]; subst. exact (Sn j t Q).
  - intros p E. rewrite E in Hp. inversion Hp as [| |j x G _ Q]; subst. apply (strings_given _ _ _ _ S) in G. eapply proof_proper; eassumption.
Qed.
Lemma content_proper : forall j m, strings_ok j -> content_of lib j m -> proper_bundle lib m.
Proof.
  intros j m S (o & -> & Ht & (jm & Gm & om & ts & -> & _ & _ & He & _) & Hs & Hn). apply (strings_given _ _ _ _ S) in Gm. split; [exact (has_text _ _ _ _ S Ht)|]. split; [|split].
  - destruct He as [_ _ _|js l G F]; [constructor|]. apply (strings_given _ _ _ _ Gm) in G. inversion G as [| | | | | |? Fj|]; subst.
    clear - Fj F Sn. induction F as [|j e js l Q F IH]; [constructor|]. inversion Fj; subst. constructor; [eapply entry_proper; eassumption|apply IH; assumption].
  - intros s a d Es Ed. rewrite Es in Hs. inversion Hs as [| |j x G _ (o' & -> & Hd & _)]; subst. rewrite Ed in Hd.
    inversion Hd as [| |j x G' _ (o2 & -> & (ja & _ & n & _ & I) & _)]; subst. exists n. exact I.
  - intros en E. rewrite E in Hn. inversion Hn as [| |j x G _ (o' & -> & _ & Q & _)]; subst. apply (strings_given _ _ _ _ S) in G. eapply has_text; eassumption.
Qed.
End Reread.

(** What is read as a bundle, and written, is read as the same bundle again. *)
Theorem C107_reread : forall lib raw m, 6 <= jl_depth (bl_json lib) -> sound_numbers lib -> parse_bundle lib raw = Ok m ->
  proper_bundle lib m /\ parse_bundle lib (bundle_text lib m) = Ok m.
Proof.
  intros lib raw m L Sn P. assert (Q : proper_bundle lib m).
  { apply C107_accepts in P. destruct P as (text & j & U & J & C). eapply content_proper; [exact Sn| |exact C]. eapply json_strings; [exact J|]. eapply encoded_unicode; exact U. }
  split; [exact Q|]. apply C107_text_read; assumption.
Qed.
(** and so a bundle is unchanged by [Bundle.from_json(bundle.to_json())] *)
Corollary C107_bundle_reread : forall env lib raw b, 6 <= jl_depth (bl_json lib) -> sound_numbers lib ->
  bundle_from_json env (parse_bundle lib) raw = Ok b -> bundle_from_json env (parse_bundle lib) (bundle_text lib (b_inner b)) = Ok b.
Proof.
  intros env lib raw b L Sn H. unfold bundle_from_json in *. destruct (parse_bundle lib raw) as [m|e] eqn:P; cbn [try_except bind] in H.
  - assert (E : b_inner b = m) by (apply C34_bundle_iff in H; tauto). rewrite E. rewrite (proj2 (C107_reread lib raw m L Sn P)). exact H.
  - destruct (is_value_error e); discriminate H.
Qed.

(** ** The commands *)

Lemma media_unicode : unicode (s2l "application/vnd.dev.sigstore.bundle.v0.3+json").
Proof. reflexivity. Qed.
(** A bundle made by signing can be written and read, if the entry that the log returned can be. *)
Theorem C107_signed_proper : forall lib tl s predicate t0 f b, signed tl s predicate t0 f b -> proper_entry lib (b_entry b) -> proper_bundle lib (b_inner b).
Proof.
  intros lib tl s predicate t0 f b (c & o & out & h & h' & _ & _ & _ & R) P.
  assert (Q : forall cert ct e ts, from_parts_ (l_env (tl_libs tl)) cert ct e ts = Ok b ->
    (forall s a d, content_msig ct = Some s -> ms_digest s = Some (a, d) -> a = HA_SHA2_256) -> (forall en, content_env ct = Some en -> em_type en = ENVELOPE_TYPE) ->
    proper_bundle lib (b_inner b)).
  { intros cert ct e ts F Hm He. apply C35_assembled_bundle in F. destruct F as (Mt & Ee & Es & _ & _ & _ & Ms & En & _).
    split; [rewrite Mt; exact media_unicode|]. split; [rewrite Es, <- Ee; constructor; [exact P|constructor]|]. rewrite Ms, En. split.
    - intros x a d Ex Ea. rewrite (Hm x a d Ex Ea). exists (s2l "SHA2_256"). reflexivity.
    - intros en E. rewrite (He en E). reflexivity. }
  destruct o as [i|st]; cbn [run_op] in R.
  - apply sign_artifact_inv in R. destruct R as (ct & h1 & k & h2 & digest & sg & req & rs & hl & e & _ & _ & _ & _ & _ & _ & _ & _ & _ & _ & F).
    eapply Q; [exact F| |]; cbn [content_msig content_env]; [|discriminate]. intros x a d [= <-] [= <- _]. reflexivity.
  - apply sign_dsse_inv in R. destruct R as (ct & h1 & k & h2 & x & sg & req & rs & hl & e & _ & _ & _ & _ & _ & _ & _ & _ & _ & _ & F).
    eapply Q; [exact F| |]; cbn [content_msig content_env]; [discriminate|]. intros en [= <-]. reflexivity.
Qed.

(** [sign] then [verify identity], with bundles written and read as JSON (C73) *)
Lemma readable_json : forall lib tl w s predicate t0 f, 6 <= jl_depth (bl_json lib) -> tl_to_json tl = bundle_text lib -> w_parse_bundle w = parse_bundle lib ->
  (forall b, signed tl s predicate t0 f b -> proper_entry lib (b_entry b) /\ NoDup (vm_timestamps (bm_vm (b_inner b)))) -> readable tl w s predicate t0 f.
Proof.
  intros lib tl w s predicate t0 f L Et Ew H b Sg. destruct (H b Sg) as [P Nd]. split; [|exact Nd]. rewrite Et, Ew.
  apply C107_text_read; [exact L|]. eapply C107_signed_proper; eassumption.
Qed.
Theorem C107_sign_then_verify : forall lib tl a t0 h0 sched t h lines, 6 <= jl_depth (bl_json lib) -> tl_to_json tl = bundle_text lib ->
  sign_run tl a t0 h0 sched t h lines (Ok tt) -> default_names a ->
  proper_inputs tl (ca_files (sa_common a)) -> untouched tl sched (ca_files (sa_common a)) ->
  forall ps w va v identity issuer, w_parse_bundle w = parse_bundle lib ->
  files_from tl t w -> verifies_files w va (ca_files (sa_common a)) -> verifier_selected (l_env (tl_libs tl)) w va v ->
  (forall h1 s, setup tl (sa_common a) t0 h0 = (h1, Ok s) -> forall f, In f (ca_files (sa_common a)) ->
     (forall b, signed tl s None t0 f b -> proper_entry lib (b_entry b) /\ NoDup (vm_timestamps (bm_vm (b_inner b)))) /\
     honest_services tl ps (w_when w (It_path f)) v (P_identity identity (Some issuer)) s) ->
  snd (verify_identity (l_env (tl_libs tl)) ps w va identity issuer) = Ok tt.
Proof.
  intros lib tl a t0 h0 sched t h lines L Et H Dn Pi Un ps w va v identity issuer Ew Ff Vf Vs Hon.
  eapply C73_sign_then_verify; try eassumption. intros h1 s Su f If. destruct (Hon h1 s Su f If) as [P Hs]. split; [|exact Hs].
  eapply readable_json; eassumption.
Qed.
(** [attest] then [verify identity], with bundles and statements (C104) written and read as JSON *)
Theorem C107_attest_then_verify : forall lib tl a t0 h0 sched t h lines, 6 <= jl_depth (bl_json lib) -> tl_to_json tl = bundle_text lib ->
  (forall st, tl_dump tl st = dump_json st) -> (forall p, tl_text tl p = write (bl_json lib) p) ->
  attest_run tl a t0 h0 sched t h lines (Ok tt) -> aa_bundle a = None ->
  proper_inputs tl (ca_files (aa_common a)) -> untouched tl sched (ca_files (aa_common a)) ->
  forall ps w va v identity issuer, w_parse_bundle w = parse_bundle lib -> (forall b, w_validate w b = validate_json (bl_json lib) b) ->
  files_from tl t w -> verifies_files w va (ca_files (aa_common a)) -> verifier_selected (l_env (tl_libs tl)) w va v ->
  (forall h1 s j, setup tl (aa_common a) t0 h0 = (h1, Ok s) -> good_predicate tl a t0 j ->
     writable (bl_json lib) j /\ depth j < jl_depth (bl_json lib) /\
     forall f, In f (ca_files (aa_common a)) ->
     (forall b, signed tl s (Some (aa_predicate_type a, j)) t0 f b -> proper_entry lib (b_entry b) /\ NoDup (vm_timestamps (bm_vm (b_inner b)))) /\
     honest_services tl ps (w_when w (It_path f)) v (P_identity identity (Some issuer)) s) ->
  snd (verify_identity (l_env (tl_libs tl)) ps w va identity issuer) = Ok tt.
Proof.
  intros lib tl a t0 h0 sched t h lines L Et Ed Ex H Dn Pi Un ps w va v identity issuer Ew Ev Ff Vf Vs Hon.
  eapply C73_attest_then_verify; try eassumption. intros h1 s j Su Gp f If. destruct (Hon h1 s j Su Gp) as (W & D & Hf). destruct (Hf f If) as [P Hs].
  split; [eapply readable_json; eassumption|]. split; [|exact Hs].
  apply (C104_readable (bl_json lib)); try assumption; [lia|]. eapply good_predicate_object; exact Gp.
Qed.

(** an interrupted command (C105) *)
Lemma json_bundles_whole : forall lib tl, 6 <= jl_depth (bl_json lib) -> json_bundles lib tl -> writes_objects tl (bl_json lib) /\ reads_json tl (bl_json lib).
Proof.
  intros lib tl L (Et & Ew). split.
  - intros m. rewrite Et. unfold bundle_text. destruct (utf8_encode (write (bl_json lib) (bundle_json m))) as [b|] eqn:E.
    + eexists _, _. split; [|exact E]. apply bundle_value, L.
    + exists nil, (s2l "{}"). split; [|reflexivity]. destruct (jl_depth (bl_json lib)) as [|d]; [lia|]. apply (V_empty_object _ d nil). constructor.
  - intros raw m H. rewrite Ew in H. apply C107_accepts in H. destruct H as (text & j & U & J & _). exists text, j. split; [apply utf8_decode_encode, U|exact J].
Qed.
Theorem C107_interrupted_sign : forall lib tl a t0 h0 sched t f p raw m, 6 <= jl_depth (bl_json lib) -> json_bundles lib tl ->
  sign_moment tl a t0 h0 sched t ->
  own_outputs tl (ca_files (sa_common a)) (sign_opts a) -> files_left_alone tl sched (ca_files (sa_common a)) (sign_opts a) ->
  In f (ca_files (sa_common a)) -> In (CliSign.O_bundle p) (outputs_of (sign_opts a f)) ->
  files_of t (loc tl p) = Some raw -> bundle_of lib raw m ->
  files_of t0 (loc tl p) = Some raw \/
  exists h1 s b, setup tl (sa_common a) t0 h0 = (h1, Ok s) /\ signed tl s None t0 f b /\ (proper_entry lib (b_entry b) -> m = b_inner b).
Proof.
  intros lib tl a t0 h0 sched t f p raw m L Jb H Ow La If Ip F B. destruct (json_bundles_whole lib tl L Jb) as [Wo Rj]. destruct Jb as (Et & Ew).
  apply C107_accepts in B. destruct (C105_bundle_whole tl (bl_json lib) a t0 h0 sched t f p raw m Wo Rj H Ow La If Ip F) as [Q|(h1 & s & b & Su & Sg & Q)]; [rewrite Ew; exact B|left; exact Q|].
  right. exists h1, s, b. split; [exact Su|]. split; [exact Sg|]. intros P. destruct (C107_text_read lib (b_inner b) L (C107_signed_proper _ _ _ _ _ _ _ Sg P)) as [R1 R2].
  rewrite Et in Q. destruct Q as [-> | ->]; congruence.
Qed.
Theorem C107_interrupted_fix : forall lib env tl http st up in_place bundle t t' raw m, 6 <= jl_depth (bl_json lib) -> json_bundles lib tl ->
  fix_moment env tl http st up in_place bundle t t' -> files_of t' (loc tl bundle) = Some raw -> bundle_of lib raw m ->
  files_of t (loc tl bundle) = Some raw \/
  exists final, fix_bundle_command env tl http st up true bundle t = (final, None, Ok tt) /\ files_of final (loc tl bundle) = Some raw.
Proof.
  intros lib env tl http st up in_place bundle t t' raw m L Jb H F B. destruct (json_bundles_whole lib tl L Jb) as [Wo Rj]. apply C107_accepts in B.
  destruct Jb as (Et & Ew). eapply C105_fix_whole; try eassumption. rewrite Ew. exact B.
Qed.

(** ** Concrete cases *)

(** integers as decimal text without superfluous zeros, or as JSON integers, below 2^63 *)
Definition bjx_number (j : json) : option Z :=
  match j with
  | JStr s => if plain_digits s && (Z.of_N (undec s) <? 2 ^ 63)%Z then Some (Z.of_N (undec s)) else None
  | JInt z => if (0 <=? z)%Z && (z <? 2 ^ 63)%Z then Some z else None
  | _ => None
  end.
Definition bjx_lib : BundleLib := mkBL (mkJL 200 4300 (fun _ _ => nil) (fun _ => None)) bjx_number true.
Definition bjx_bundle : BundleMsg :=
  mkBundleMsg BUNDLE_0_3 (mkVM (Some [x01; x02]) None
    [mkEntry 5 [x03] (s2l "hashedrekord") (s2l "0.0.1") (Some 1700000000%Z) (Some [x04])
       (Some (mkIP 4 [x05] 9 [[x06]; [x07]] (Some (s2l "rekor" ++ [10%N] ++ s2l "9" ++ [10%N])))) [x08]] [[x09]])
    (Some (mkMsgSig (Some (HA_SHA2_256, [x0a])) [x0b])) None.
Definition bjx_text : bytes := s2b "{""mediaType"":""application/vnd.dev.sigstore.bundle.v0.3+json"",""verificationMaterial"":{""certificate"":{""rawBytes"":""AQI=""},""tlogEntries"":[{""logIndex"":""5"",""logId"":{""keyId"":""Aw==""},""kindVersion"":{""kind"":""hashedrekord"",""version"":""0.0.1""},""integratedTime"":""1700000000"",""inclusionPromise"":{""signedEntryTimestamp"":""BA==""},""inclusionProof"":{""logIndex"":""4"",""rootHash"":""BQ=="",""treeSize"":""9"",""hashes"":[""Bg=="",""Bw==""],""checkpoint"":{""envelope"":""rekor\n9\n""}},""canonicalizedBody"":""CA==""}],""timestampVerificationData"":{""rfc3161Timestamps"":[{""signedTimestamp"":""CQ==""}]}},""messageSignature"":{""messageDigest"":{""algorithm"":""SHA2_256"",""digest"":""Cg==""},""signature"":""Cw==""}}".
(** the text of a bundle, as it is in a file *)
Example ex_bjx_text : bundle_text bjx_lib bjx_bundle = bjx_text.
Proof. vm_compute. reflexivity. Qed.
Example ex_bjx_numbers : sound_numbers bjx_lib.
Proof.
  assert (Q : forall n, bjx_number (JStr (dec n)) = if (Z.of_N n <? 2 ^ 63)%Z then Some (Z.of_N n) else None).
  { intros n. unfold bjx_number. rewrite (proj2 (plain_digits_spec (dec n)) (dec_text n)), undec_dec. reflexivity. }
  assert (P : forall z, (0 <= z)%Z -> dec_Z z = dec (Z.to_N z)) by (intros [|p|p] L; [reflexivity|reflexivity|lia]).
  intros j z H. unfold number. change (bl_number bjx_lib) with bjx_number in *.
  assert (B : (0 <= z < 2 ^ 63)%Z).
  { destruct j as [| |z'| | |s| |]; cbn [bjx_number] in H; try discriminate.
    - destruct (Z.leb_spec 0 z') as [L|L], (Z.ltb_spec z' (2 ^ 63)) as [L'|L']; try discriminate H. injection H as <-. split; assumption.
    - destruct (plain_digits s); [|discriminate H]. destruct (Z.ltb_spec (Z.of_N (undec s)) (2 ^ 63)) as [L|L]; [|discriminate H]. injection H as <-. split; [apply N2Z.is_nonneg|exact L]. }
  rewrite P by apply B. rewrite Q, Z2N.id by apply B. destruct (Z.ltb_spec z (2 ^ 63)) as [_|L]; [reflexivity|]. exfalso. destruct B as [_ B]. apply (Z.lt_irrefl z). eapply Z.lt_le_trans; eassumption.
Qed.
Example ex_bjx_proper : proper_bundle bjx_lib bjx_bundle.
Proof.
  assert (N0 : forall z, (bjx_number (JStr (dec_Z z)) = Some z) -> number bjx_lib z) by (intros; assumption).
  split; [reflexivity|]. split; [|split].
  - constructor; [|constructor]. split; [apply N0; vm_compute; reflexivity|]. split; [reflexivity|]. split; [reflexivity|]. split.
    + intros t [= <-]. apply N0. vm_compute. reflexivity.
    + intros p [= <-]. split; [apply N0; vm_compute; reflexivity|]. split; [apply N0; vm_compute; reflexivity|]. intros c [= <-]. vm_compute. reflexivity.
  - intros s a d [= <-] [= <- _]. exists (s2l "SHA2_256"). reflexivity.
  - intros en [=].
Qed.
Example ex_bjx_read : parse_bundle bjx_lib (bjx_text ++ [x0a]) = Ok bjx_bundle.
Proof. rewrite <- ex_bjx_text. apply C107_text_read; [cbn; lia|exact ex_bjx_proper]. Qed.
(** no media type; an unknown algorithm; an entry with an index that is no number; a cut text *)
Example ex_bjx_rejected :
  parse_bundle bjx_lib (s2b "{""verificationMaterial"":{}}") = Raise EPydantic /\
  parse_bundle bjx_lib (s2b "{""mediaType"":"""",""verificationMaterial"":{},""messageSignature"":{""messageDigest"":{""algorithm"":""MD5"",""digest"":""""},""signature"":""""}}") = Raise EPydantic /\
  parse_bundle bjx_lib (s2b "{""mediaType"":"""",""verificationMaterial"":{""tlogEntries"":[{""logIndex"":""x""}]}}") = Raise EPydantic /\
  parse_bundle bjx_lib (s2b "{""mediaType"":"""",""verificationMaterial"":{}") = Raise EPydantic.
Proof. vm_compute. repeat split; reflexivity. Qed.

(** The text of a bundle is not determined by the bundle: another order, names of Python, loose base64, members that are
    ignored, and of a member that occurs twice the last counts. *)
Theorem C107_texts_refuted : exists lib raw raw' m, sound_numbers lib /\ raw <> raw' /\ length raw <> length raw' /\
  parse_bundle lib raw = Ok m /\ parse_bundle lib raw' = Ok m /\ proper_bundle lib m.
Proof.
  exists bjx_lib, (s2b "{""mediaType"":""x"",""verificationMaterial"":{""certificate"":{""rawBytes"":""AQI=""}}}"),
    (s2b "{""verification_material"":{""certificate"":{""hint"":1,""raw_bytes"":""A-Q.I=""}},""mediaType"":""y"",""mediaType"":""x""}"),
    (mkBundleMsg (s2l "x") (mkVM (Some [x01; x02]) None nil nil) None None).
  split; [exact ex_bjx_numbers|]. split; [vm_compute; discriminate|]. split; [vm_compute; discriminate|]. split; [vm_compute; reflexivity|]. split; [vm_compute; reflexivity|].
  split; [reflexivity|]. split; [constructor|]. split; [intros s a d [=]|intros en [=]].
Qed.

(** signing and verifying with JSON bundles *)
Definition bjx_tools : Tools :=
  mkTools csx_world (sy_libs sy_far) svx_out (fun s => if str_eqb s (s2l "{}") then Some csx_predicate else None)
    (fun _ => s2l "{}") (fun _ => Some vx_payload) csx_token (fun _ => Ok (Some (s2l "tok"))) (fun _ _ _ _ => Raise EIdentity) (bundle_text bjx_lib).
Definition bjx_world (t : tree) : World :=
  mkWorld [s2l "home"] (files_of t) (fun _ => Raise EValue) (parse_bundle bjx_lib) (fun _ => None) (fun _ => Raise EValue)
    cvx_config (fun _ _ => Raise EConnection) rkx_rp vx_now (fun _ => vx_now).
Definition bjx_sched : list act := turns (repeat 0 8) ++ [A_job 0 500; A_job 0 2000; A_job 0 2000; A_job 0 2000].
Lemma bjx_entry : forall s b, svx_signer = Some s -> signed bjx_tools s None csx_tree csx_a b ->
  proper_entry bjx_lib (b_entry b) /\ NoDup (vm_timestamps (bm_vm (b_inner b))).
Proof.
  intros s b Ss Sg. change (signed svx_tools s None csx_tree csx_a b) in Sg. pose proof (svx_signed None s b Ss Sg) as E.
  assert (Ee : vm_entries (bm_vm (b_inner b)) = [b_entry b]).
  { destruct Sg as (c & o & out & h & h' & _ & Op & _ & R). apply run_op_makes in R. apply C34_bundle_iff in R. tauto. }
  rewrite E in Ee |- *. split.
  - assert (Q : nth_error (vm_entries (bm_vm (svx_message_of None))) 0 = Some (b_entry b)) by (rewrite Ee; reflexivity). clear - Q.
    generalize dependent (b_entry b). intros e Q. vm_compute in Q. injection Q as <-. split; [vm_compute; reflexivity|]. split; [vm_compute; reflexivity|]. split; [vm_compute; reflexivity|]. split.
    + intros t H. vm_compute in H. first [discriminate H | injection H as <-; vm_compute; reflexivity].
    + intros p H. vm_compute in H. injection H as <-. split; [vm_compute; reflexivity|]. split; [vm_compute; reflexivity|]. intros c H. vm_compute in H. injection H as <-. vm_compute. reflexivity.
  - assert (L : length (vm_timestamps (bm_vm (svx_message_of None))) <= 1) by (vm_compute; lia).
    destruct (vm_timestamps (bm_vm (svx_message_of None))) as [|x [|y l]]; [constructor|repeat constructor; intros []|cbn in L; lia].
Qed.
Example ex_bjx_sign_then_verify : exists t h lines, sign_run bjx_tools (csx_sign [csx_a] false) csx_tree nil bjx_sched t h lines (Ok tt) /\
  snd (verify_identity (sy_env sy_far) (sy_parsers sy_far) (bjx_world t) (cvx_args [s2l "a.txt"]) (s2l "a@b.c") (s2l "https://issuer.example")) = Ok tt.
Proof.
  destruct (exec_run bjx_tools (csx_common [csx_a] false) None nil (sign_prepare bjx_tools (csx_sign [csx_a] false) csx_tree) bjx_sched
    (fun y _ => files_of (y_tree y) [s2l "home"; s2l "a.txt.sigstore"] = None)) as (y & l & R & P); [vm_compute; reflexivity|].
  exists (y_tree y), (y_hist y), l. split; [exact R|].
  apply (C107_sign_then_verify bjx_lib bjx_tools (csx_sign [csx_a] false) csx_tree nil bjx_sched (y_tree y) (y_hist y) l) with (v := vx_verifier).
  - cbn. lia.
  - reflexivity.
  - exact R.
  - repeat split.
  - exact svx_proper.
  - assert (L : forall p x, ~ In (A_other p x) bjx_sched).
    { intros p x I. unfold bjx_sched, turns in I. apply in_app_iff in I. destruct I as [I|I]; [apply in_map_iff in I; destruct I as (i & Q & _); discriminate|].
      cbn [In] in I. repeat (destruct I as [I|I]; [discriminate I|]). exact I. }
    intros f _. split; intros x; apply L.
  - reflexivity.
  - split; reflexivity.
  - split; [discriminate|]. repeat split. intros f [<-|[]]. exact P.
  - exact (svx_selected None (y_tree y)).
  - intros h1 s Su f [<-|[]]. apply svx_setup in Su. split; [intros b Sg; eapply bjx_entry; eassumption|]. apply svx_services. exact Su.
Qed.

Print Assumptions C107_accepts.
Print Assumptions C107_rejects.
Print Assumptions C107_round_trip.
Print Assumptions C107_injective.
Print Assumptions C107_bundle_reread.
Print Assumptions C107_signed_proper.
Print Assumptions C107_sign_then_verify.
Print Assumptions C107_attest_then_verify.
Print Assumptions C107_interrupted_sign.
Print Assumptions C107_interrupted_fix.
Print Assumptions C107_texts_refuted.
