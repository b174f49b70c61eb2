(** Property C104: which bytes are accepted as in-toto statements, and that a statement which is written is
    read as it was meant. *)
From Verif Require Import Base Codec CodecMore Messages Env Cert Dsse Policy Json PyText Hashing Oidc Bundle Verifier CliVerify Sign SignSteps Predicate CliSign
  VerifierSpec PropsDsse PropsPolicy PropsCliVerify PropsCliSign PropsPredicate PropsSignVerify JsonText PropsJsonText StatementJson.

(** ** Specification *)

(** a member of a dict that may be given by its name in the in-toto specification, else by another name *)
Definition given (o : list (str * json)) (k k' : String.string) (j : json) : Prop :=
  In (s2l k, j) o \/ (~ In (s2l k) (map fst o) /\ In (s2l k', j) o).

Definition DIGESTS : list (str * digest_name) :=
  [(s2l "sha256", D_sha256); (s2l "sha384", D_sha384); (s2l "sha512", D_sha512);
   (s2l "sha3_256", D_sha3_256); (s2l "sha3_384", D_sha3_384); (s2l "sha3_512", D_sha3_512)].
Definition digests_of (o : list (str * json)) (l : list (digest_name * str)) : Prop :=
  Forall2 (fun kj dv => In (fst kj, fst dv) DIGESTS /\ snd kj = JStr (snd dv)) o l.
Inductive subject_of : json -> Subject -> Prop :=
| S_named : forall o n ds l, In (s2l "name", JStr n) o -> In (s2l "digest", JObj ds) o -> digests_of ds l -> subject_of (JObj o) (mkSubject (Some n) l)
| S_unnamed : forall o ds l, In (s2l "name", JNull) o -> In (s2l "digest", JObj ds) o -> digests_of ds l -> subject_of (JObj o) (mkSubject None l).
Inductive predicate_of (lib : JsonLib) (o : list (str * json)) : option str -> Prop :=
| P_missing : ~ In (s2l "predicate") (map fst o) -> predicate_of lib o None
| P_null : In (s2l "predicate", JNull) o -> predicate_of lib o None
| P_object : forall p, In (s2l "predicate", JObj p) o -> predicate_of lib o (Some (write lib (JObj p))).

(** the bytes are the UTF-8 encoding of a JSON text of an object with the members of a statement *)
Definition statement_of (lib : JsonLib) (b : bytes) (st : StatementInner) : Prop :=
  exists text o subs, utf8_encode text = Some b /\ json_text lib (JObj o) text /\
    given o "_type" "type_" (JStr (s2l "https://in-toto.io/Statement/v1")) /\
    given o "subject" "subjects" (JList subs) /\ subs <> nil /\ Forall2 subject_of subs (st_subjects st) /\
    given o "predicateType" "predicate_type" (JStr (st_predicate_type st)) /\
    predicate_of lib o (st_predicate st).

(** statements that can be built from Python values: digest sets are dicts; the predicate can be written *)
Definition proper (lib : JsonLib) (st : StatementInner) : Prop :=
  st_subjects st <> nil /\ Forall (fun s => NoDup (map fst (sub_digest s))) (st_subjects st) /\
  (forall t, st_predicate st = Some t -> exists p, t = write lib (JObj p) /\ writable lib (JObj p) /\ depth (JObj p) < jl_depth lib).

(** ** Proofs *)

(** every object of a text that is read is a dict *)
Inductive dicts : json -> Prop :=
| Di_null : dicts JNull
| Di_bool : forall b, dicts (JBool b)
| Di_int : forall z, dicts (JInt z)
| Di_float : forall n d, dicts (JFloat n d)
| Di_special : forall k, dicts (JSpecial k)
| Di_str : forall s, dicts (JStr s)
| Di_list : forall l, Forall dicts l -> dicts (JList l)
| Di_obj : forall o, NoDup (map fst o) -> Forall (fun kv => dicts (snd kv)) o -> dicts (JObj o).

Lemma dict_of_forall : forall (P : json -> Prop) l o, dict_of l o -> Forall (fun kv => P (snd kv)) l -> Forall (fun kv => P (snd kv)) o.
Proof.
  intros P. induction 1 as [|l o k j D IH N|l o1 o2 k j j' D IH N]; intros F; [constructor| |]; apply Forall_app in F; destruct F as [F1 F2];
    specialize (IH F1); inversion F2; subst.
  - apply Forall_app. split; [exact IH|]. constructor; [assumption|constructor].
  - apply Forall_app in IH. destruct IH as [I1 I2]. apply Forall_app. split; [exact I1|]. inversion I2; subst. constructor; assumption.
Qed.
Lemma read_dicts : forall lib,
  (forall d j t, value_text lib d j t -> dicts j) /\ (forall d l t, elements_text lib d l t -> Forall dicts l) /\
  (forall d l t, members_text lib d l t -> Forall (fun kv => dicts (snd kv)) l).
Proof.
  intros lib. apply texts_mut; intros; try (constructor; try assumption; constructor; fail).
  - constructor; [|eapply dict_of_forall; eassumption]. eapply dict_of_unique; eassumption.
Qed.
Lemma json_dicts : forall lib j s, json_text lib j s -> dicts j.
Proof. intros lib j s (w & t & w' & _ & _ & _ & V). exact (proj1 (read_dicts lib) _ _ _ V). Qed.

Lemma assoc_in : forall (o : list (str * json)), NoDup (map fst o) -> forall k j, assoc str_eqb k o = Some j <-> In (k, j) o.
Proof.
  induction o as [|[k' j'] o IH]; intros N k j; cbn [assoc In]; [split; [discriminate|contradiction]|].
  cbn [map fst] in N. inversion N; subst. destruct (str_eqb k k') eqn:E.
  - apply str_eqb_spec in E. subst k'. split; [intros [= ->]; left; reflexivity|]. intros [Q|Q]; [congruence|].
    exfalso. apply H1. apply in_map_iff. exists (k, j). auto.
  - rewrite IH by assumption. split; [auto|]. intros [Q|Q]; [|assumption]. injection Q as -> ->. rewrite (proj2 (str_eqb_spec k k) eq_refl) in E. discriminate.
Qed.
Lemma assoc_not : forall (o : list (str * json)) k, assoc str_eqb k o = None <-> ~ In k (map fst o).
Proof.
  induction o as [|[k' j'] o IH]; intros k; cbn [assoc map fst In]; [split; [intros _ []|reflexivity]|].
  destruct (str_eqb k k') eqn:E.
  - apply str_eqb_spec in E. subst. split; [discriminate|tauto].
  - rewrite IH. split; [|tauto]. intros N [->|I]; [|tauto]. rewrite (proj2 (str_eqb_spec k k) eq_refl) in E. discriminate.
Qed.
Lemma by_alias_iff : forall o, NoDup (map fst o) -> forall a n j, by_alias_or_name (s2l a) (s2l n) o = Some j <-> given o a n j.
Proof.
  intros o N a n j. unfold by_alias_or_name, given. rewrite <- assoc_not, <- !assoc_in by assumption.
  destruct (assoc str_eqb (s2l a) o) as [x|]; split; intros H; auto; [destruct H as [H|(H & _)]; [exact H|discriminate]|destruct H as [H|(_ & H)]; [discriminate|exact H]].
Qed.

Lemma digest_named_iff : forall k d, digest_named k = Some d <-> In (k, d) DIGESTS.
Proof.
  intros k d. unfold digest_named, ALL_DIGESTS, DIGESTS. cbn [find In]. split.
  - cbn [digest_text]. repeat match goal with |- context [str_eqb k ?x] => let E := fresh in destruct (str_eqb k x) eqn:E; [intros [= <-]; apply str_eqb_spec in E; subst k; tauto|] end. discriminate.
  - intros H. repeat (destruct H as [H|H]; [injection H as <- <-; vm_compute; reflexivity|]). contradiction.
Qed.
Lemma read_digests_iff : forall o l, read_digests o = Some l <-> digests_of o l.
Proof.
  induction o as [|[k v] o IH]; intros l; cbn [read_digests]; unfold digests_of in *.
  - split; [intros [= <-]; constructor|]. intros H. inversion H. reflexivity.
  - split.
    + destruct v; try discriminate. destruct (digest_named k) as [d|] eqn:D; [|discriminate]. destruct (read_digests o) as [r|]; [|discriminate].
      intros [= <-]. constructor; [|apply IH; reflexivity]. cbn [fst snd]. split; [apply digest_named_iff, D|reflexivity].
    + intros H. inversion H as [|? [d s] ? r (I & Q) F]; subst. cbn [fst snd] in *. subst v. apply digest_named_iff in I. rewrite I.
      apply IH in F. rewrite F. reflexivity.
Qed.
Lemma read_subject_iff : forall j, dicts j -> forall s, read_subject j = Some s <-> subject_of j s.
Proof.
  intros j D s. split.
  - intros H. destruct D; try discriminate H. cbn [read_subject] in H.
    destruct (assoc str_eqb (s2l "name") o) as [n|] eqn:En; [|discriminate]. destruct (assoc str_eqb (s2l "digest") o) as [ds|] eqn:Ed; [|destruct n; discriminate].
    apply assoc_in in En, Ed; try assumption.
    destruct n; try discriminate; destruct ds; try discriminate; destruct (read_digests _) as [r|] eqn:R; try discriminate; injection H as <-; apply read_digests_iff in R;
      [eapply S_unnamed|eapply S_named]; eassumption.
  - intros H. destruct H as [o n ds l In1 In2 Dg|o ds l In1 In2 Dg]; inversion D; subst; cbn [read_subject];
      apply (assoc_in o) in In1; try assumption; apply (assoc_in o) in In2; try assumption; rewrite In1, In2;
      rewrite (proj2 (read_digests_iff _ _) Dg); reflexivity.
Qed.
Lemma read_subjects_iff : forall l, Forall dicts l -> forall ss, read_subjects l = Some ss <-> Forall2 subject_of l ss.
Proof.
  induction l as [|j l IH]; intros D ss; cbn [read_subjects]; [split; [intros [= <-]; constructor|intros H; inversion H; reflexivity]|].
  inversion D; subst. split.
  - destruct (read_subject j) as [s|] eqn:S; [|discriminate]. destruct (read_subjects l) as [r|]; [|discriminate]. intros [= <-].
    constructor; [apply read_subject_iff; assumption|apply IH; [assumption|reflexivity]].
  - intros H. inversion H as [|? s ? r Hs Hr]; subst. apply read_subject_iff in Hs; [|assumption]. apply IH in Hr; [|assumption]. rewrite Hs, Hr. reflexivity.
Qed.
Lemma read_predicate_field_iff : forall lib o, NoDup (map fst o) -> forall p, read_predicate_field lib o = Some p <-> predicate_of lib o p.
Proof.
  intros lib o N p. unfold read_predicate_field. split.
  - destruct (assoc str_eqb (s2l "predicate") o) as [v|] eqn:A; [|intros [= <-]; apply P_missing, assoc_not, A].
    apply assoc_in in A; [|assumption]. destruct v; intros H; try discriminate H; injection H as <-; [apply P_null|apply P_object]; assumption.
  - intros H. destruct H as [M|I|q I]; [apply assoc_not in M; rewrite M; reflexivity| |]; apply (assoc_in o) in I; try assumption; rewrite I; reflexivity.
Qed.

(** The bytes accepted as a statement, and what is then known of it *)
Theorem C104_accepts : forall lib b st, validate_json lib b = Some st <-> statement_of lib b st.
Proof.
  intros lib b st. unfold validate_json, read_bytes. split.
  - destruct (utf8_decode b) as [text|] eqn:U; [|discriminate]. destruct (read lib text) as [j|] eqn:R; [|discriminate].
    apply read_iff in R. apply utf8_decode_iff in U. pose proof (json_dicts _ _ _ R) as D. unfold read_statement. destruct D as [| | | | | | |o N F]; try discriminate.
    destruct (by_alias_or_name (s2l "_type") (s2l "type_") o) as [[| | | | |t| |]|] eqn:T; try discriminate.
    destruct (str_eqb t STATEMENT_TYPE) eqn:E; [|discriminate]. apply str_eqb_spec in E. subst t.
    destruct (by_alias_or_name (s2l "subject") (s2l "subjects") o) as [[| | | | | |[|x l]|]|] eqn:Sb; try discriminate.
    destruct (read_subjects (x :: l)) as [ss|] eqn:Rs; [|discriminate].
    destruct (by_alias_or_name (s2l "predicateType") (s2l "predicate_type") o) as [[| | | | |pt| |]|] eqn:P; try discriminate.
    destruct (read_predicate_field lib o) as [p|] eqn:Pr; [|discriminate]. intros [= <-].
    apply by_alias_iff in T, Sb, P; try assumption. apply read_predicate_field_iff in Pr; [|assumption].
    exists text, o, (x :: l). cbn [st_subjects st_predicate_type st_predicate]. repeat (split; [assumption || discriminate|]).
    split; [|split; assumption]. apply read_subjects_iff; [|assumption].
    assert (Dl : dicts (JList (x :: l))). { destruct Sb as [I|(_ & I)]; exact (proj1 (Forall_forall _ _) F _ I). }
    inversion Dl. assumption.
  - intros (text & o & subs & U & R & T & Sb & Ne & Fs & P & Pr). apply utf8_decode_iff in U. rewrite U. pose proof (json_dicts _ _ _ R) as D.
    apply read_iff in R. rewrite R. inversion D as [| | | | | | |o' N F]; subst. cbn [read_statement].
    apply by_alias_iff in T; [|assumption]. rewrite T. change (str_eqb (s2l "https://in-toto.io/Statement/v1") STATEMENT_TYPE) with true. cbv iota.
    assert (Dl : dicts (JList subs)). { destruct Sb as [I|(_ & I)]; exact (proj1 (Forall_forall _ _) F _ I). }
    apply by_alias_iff in Sb; [|assumption]. rewrite Sb. destruct subs as [|x l]; [contradiction|].
    inversion Dl; subst. apply read_subjects_iff in Fs; [|assumption]. rewrite Fs.
    apply by_alias_iff in P; [|assumption]. rewrite P. apply read_predicate_field_iff in Pr; [|assumption]. rewrite Pr. destruct st; reflexivity.
Qed.

(** ** Writing *)

Definition subject_json (s : Subject) : json :=
  JObj [(s2l "name", match sub_name s with Some n => JStr n | None => JNull end);
        (s2l "digest", JObj (map (fun dv => (digest_text (fst dv), JStr (snd dv))) (sub_digest s)))].
Definition statement_json (st : StatementInner) (p : json) : json :=
  JObj [(s2l "_type", JStr STATEMENT_TYPE); (s2l "subject", JList (map subject_json (st_subjects st)));
        (s2l "predicateType", JStr (st_predicate_type st)); (s2l "predicate", p)].

Lemma object_write : forall lib o, object (map (fun kj => (fst kj, write lib (snd kj))) o) = write lib (JObj o).
Proof. intros lib o. unfold object. rewrite map_map. reflexivity. Qed.
Lemma digests_write : forall lib l, digests_text l = write lib (JObj (map (fun dv => (digest_text (fst dv), JStr (snd dv))) l)).
Proof. intros lib l. rewrite <- object_write, map_map. reflexivity. Qed.
Lemma subject_write : forall lib s, subject_text s = write lib (subject_json s).
Proof. intros lib s. unfold subject_text, subject_json. rewrite (digests_write lib). generalize (JObj (map (fun dv => (digest_text (fst dv), JStr (snd dv))) (sub_digest s))). intros ds. destruct (sub_name s); reflexivity. Qed.
Lemma statement_write : forall lib st p, match st_predicate st with Some t => t | None => s2l "null" end = write lib p ->
  statement_text st = write lib (statement_json st p).
Proof.
  intros lib st p E. unfold statement_text, statement_json. rewrite E. rewrite (map_ext _ _ (subject_write lib)), <- (map_map subject_json (write lib)).
  generalize (map subject_json (st_subjects st)). intros subs. reflexivity.
Qed.

Ltac keys := repeat (constructor; [let Q := fresh in intros Q; cbn [map fst In] in Q; repeat (destruct Q as [Q|Q]; [vm_compute in Q; discriminate Q|]); exact Q|]); constructor.

Lemma digest_text_inj : forall a b, digest_text a = digest_text b -> a = b.
Proof. intros a b H. destruct a, b; try reflexivity; vm_compute in H; discriminate H. Qed.
Lemma writable_subject : forall lib s, NoDup (map fst (sub_digest s)) -> writable lib (subject_json s).
Proof.
  intros lib s N. apply W_obj; [keys|]. constructor; [destruct (sub_name s); cbn [snd]; constructor|]. constructor; [|constructor]. cbn [snd].
  apply W_obj.
  - rewrite map_map. cbn [fst]. rewrite <- (map_map fst digest_text). apply FinFun.Injective_map_NoDup; [exact digest_text_inj|exact N].
  - apply Forall_forall. intros kv I. apply in_map_iff in I. destruct I as (dv & <- & _). constructor.
Qed.
Lemma depth_subject : forall s, depth (subject_json s) <= 2.
Proof.
  intros s. unfold subject_json. cbn [depth map snd list_max fold_right]. rewrite map_map. cbn [snd].
  assert (Q : list_max (map (fun x : digest_name * str => depth (JStr (snd x))) (sub_digest s)) = 0).
  { apply Nat.le_0_r, list_max_le, Forall_forall. intros n I. apply in_map_iff in I. destruct I as (dv & <- & _). cbn. lia. }
  rewrite Q. destruct (sub_name s); cbn; lia.
Qed.
Lemma writable_statement : forall lib st p, Forall (fun s => NoDup (map fst (sub_digest s))) (st_subjects st) -> writable lib p -> writable lib (statement_json st p).
Proof.
  intros lib st p F W. apply W_obj; [keys|]. constructor; [constructor|]. constructor; [|constructor; [constructor|constructor; [exact W|constructor]]].
  cbn [snd]. apply W_list. apply Forall_forall. intros j I. apply in_map_iff in I. destruct I as (s & <- & I). apply writable_subject. exact (proj1 (Forall_forall _ _) F s I).
Qed.
Lemma depth_statement : forall st p n, 4 <= n -> depth p < n -> depth (statement_json st p) <= n.
Proof.
  intros st p n L D. unfold statement_json. cbn [depth map snd list_max fold_right]. rewrite map_map.
  assert (Q : list_max (map (fun x => depth (subject_json x)) (st_subjects st)) <= 2).
  { apply list_max_le, Forall_forall. intros m I. apply in_map_iff in I. destruct I as (s & <- & _). apply depth_subject. }
  lia.
Qed.

Lemma subject_read : forall s, subject_of (subject_json s) s.
Proof.
  intros [[n|] l]; unfold subject_json; cbn [sub_name sub_digest]; [eapply S_named|eapply S_unnamed]; try (cbn [In]; tauto);
    unfold digests_of; induction l as [|[d v] l IH]; cbn [map]; constructor; try exact IH; cbn [fst snd]; (split; [|reflexivity]); destruct d; cbn; tauto.
Qed.
Lemma subjects_read : forall l, Forall2 subject_of (map subject_json l) l.
Proof. induction l as [|s l IH]; cbn [map]; constructor; [apply subject_read|exact IH]. Qed.

(** the object that is written *)
Lemma dump_object : forall lib st b, 4 <= jl_depth lib -> proper lib st -> dump_json st = Some b -> exists p,
  match st_predicate st with None => p = JNull | Some t => exists o, p = JObj o /\ t = write lib p end /\
  utf8_encode (statement_text st) = Some b /\ json_text lib (statement_json st p) (statement_text st).
Proof.
  intros lib st b L (Ne & F & P) D. unfold dump_json in D.
  assert (Q : exists p, match st_predicate st with None => p = JNull | Some t => exists o, p = JObj o /\ t = write lib p end /\
    match st_predicate st with Some t => t | None => s2l "null" end = write lib p /\ writable lib p /\ depth p < jl_depth lib).
  { destruct (st_predicate st) as [t|].
    - destruct (P t eq_refl) as (o & -> & W & Dp). exists (JObj o). split; [eauto|]. auto.
    - exists JNull. split; [reflexivity|]. split; [reflexivity|]. split; [constructor|]. cbn. lia. }
  destruct Q as (p & M & E & W & Dp). exists p. split; [exact M|]. split; [exact D|]. rewrite (statement_write lib st p E).
  apply read_iff, read_write; [apply writable_statement; assumption|apply depth_statement; assumption].
Qed.

(** What is written for a statement is read as that statement *)
Theorem C104_round_trip : forall lib st b, 4 <= jl_depth lib -> proper lib st -> dump_json st = Some b -> validate_json lib b = Some st.
Proof.
  intros lib st b L Pr D. destruct (dump_object lib st b L Pr D) as (p & M & U & T). destruct Pr as (Ne & _ & _).
  apply C104_accepts. exists (statement_text st), [(s2l "_type", JStr STATEMENT_TYPE); (s2l "subject", JList (map subject_json (st_subjects st)));
        (s2l "predicateType", JStr (st_predicate_type st)); (s2l "predicate", p)], (map subject_json (st_subjects st)).
  split; [exact U|]. split; [exact T|]. split; [left; cbn [In]; tauto|]. split; [left; cbn [In]; tauto|].
  split; [destruct (st_subjects st); [contradiction|discriminate]|]. split; [apply subjects_read|]. split; [left; cbn [In]; tauto|].
  destruct (st_predicate st) as [t|].
  - destruct M as (o & -> & ->). apply P_object. cbn [In]; tauto.
  - subst p. apply P_null. cbn [In]; tauto.
Qed.
(** so different statements are different bytes *)
Corollary C104_injective : forall lib st st' b, 4 <= jl_depth lib -> proper lib st -> proper lib st' ->
  dump_json st = Some b -> dump_json st' = Some b -> st = st'.
Proof. intros lib st st' b L P P' D D'. apply (C104_round_trip lib) in D, D'; try assumption. congruence. Qed.

(** A statement can be written exactly when its texts are valid Unicode *)
Theorem C104_writable : forall st, (exists b, dump_json st = Some b) <-> forallb is_scalar (statement_text st) = true.
Proof.
  intros st. unfold dump_json. split.
  - intros (b & H). revert b H. generalize (statement_text st). induction s as [|c s IH]; intros b H; [reflexivity|]. cbn [utf8_encode forallb] in *.
    destruct (is_scalar c); [|discriminate]. destruct (utf8_encode s) as [r|]; [|discriminate]. apply (IH r). reflexivity.
  - destruct (utf8_encode (statement_text st)) as [b|] eqn:E; [eauto|]. intros H.
    exfalso. revert E H. generalize (statement_text st). induction s as [|c s IH]; cbn [utf8_encode forallb]; intros E H; [discriminate|].
    apply andb_true_iff in H. destruct H as [Hc H]. rewrite Hc in E. destruct (utf8_encode s); [discriminate|]. apply IH; [reflexivity|exact H].
Qed.

(** ** Statements from the builder *)

Theorem C104_built : forall lib subs pt p st, 4 <= jl_depth lib ->
  (forall s, In s subs -> NoDup (map fst (sub_digest s))) ->
  (forall t, p = Some t -> exists o, t = write lib (JObj o) /\ writable lib (JObj o) /\ depth (JObj o) < jl_depth lib) ->
  builder_build dump_json (builder_new (Some subs) (Some pt) p) = Ok st ->
  st_inner st = mkStatementInner subs pt p /\ statement_of_bytes (validate_json lib) (st_contents st) = Ok st.
Proof.
  intros lib subs pt p st L N Wp H. apply C23_builder in H. destruct H as (s & l & t & c & Es & Et & D & ->). injection Es as ->. injection Et as <-.
  split; [reflexivity|]. unfold statement_of_bytes. cbn [st_contents]. rewrite (C104_round_trip lib (mkStatementInner (s :: l) pt p) c L); [reflexivity| |exact D].
  split; [discriminate|]. split; [apply Forall_forall; exact N|exact Wp].
Qed.

(** ** What a verifier learns *)

Lemma digests_in : forall ds l, NoDup (map fst ds) -> digests_of ds l ->
  forall h, assoc digest_name_eqb D_sha256 l = Some h <-> In (s2l "sha256", JStr h) ds.
Proof.
  intros ds l N D h. unfold digests_of in D. induction D as [|[k v] [d t] ds l (I & Q) F IH]; cbn [assoc In]; [split; [discriminate|contradiction]|].
  cbn [fst snd] in *. subst v. cbn [map fst] in N. inversion N; subst.
  assert (K : d = D_sha256 <-> k = s2l "sha256").
  { clear -I. unfold DIGESTS in I. cbn [In] in I. repeat (destruct I as [I|I]; [injection I as <- <-; split; intros Q; try reflexivity; (discriminate Q || (vm_compute in Q; discriminate Q))|]). contradiction. }
  destruct (digest_name_eqb D_sha256 d) eqn:E.
  - assert (d = D_sha256) by (destruct d; (reflexivity || discriminate E)). assert (Ek : k = s2l "sha256") by (apply K; assumption). rewrite Ek in *.
    split; [intros [= ->]; left; reflexivity|]. intros [Q|Q]; [congruence|]. exfalso. apply H1. apply in_map_iff. exists (s2l "sha256", JStr h). auto.
  - rewrite (IH H2). split; [auto|]. intros [Q|Q]; [|exact Q]. assert (k = s2l "sha256") by congruence. apply K in H. subst d. discriminate E.
Qed.

(** A statement names a digest exactly when a subject in its JSON text does *)
Theorem C104_subject_digest : forall lib b st, validate_json lib b = Some st -> forall d,
  matches_digest (mkStatement b st) (mkHashed HA_SHA2_256 d) = Ok true <->
  exists text o subs so ds, utf8_encode text = Some b /\ json_text lib (JObj o) text /\ given o "subject" "subjects" (JList subs) /\
    In (JObj so) subs /\ In (s2l "digest", JObj ds) so /\ In (s2l "sha256", JStr (hex d)) ds.
Proof.
  intros lib b st V d. apply C104_accepts in V. destruct V as (text & o & subs & U & T & Ty & Sb & Ne & F & P & Pr).
  pose proof (json_dicts _ _ _ T) as D. inversion D as [| | | | | | |o' N Fo]; subst.
  assert (Dl : Forall dicts subs).
  { assert (Q : dicts (JList subs)) by (destruct Sb as [I|(_ & I)]; exact (proj1 (Forall_forall _ _) Fo _ I)). inversion Q. assumption. }
  assert (K : (exists s, In s (st_subjects st) /\ assoc digest_name_eqb D_sha256 (sub_digest s) = Some (hex d)) <->
    exists so ds, In (JObj so) subs /\ In (s2l "digest", JObj ds) so /\ In (s2l "sha256", JStr (hex d)) ds).
  { assert (S1 : forall j s, dicts j -> subject_of j s ->
      (assoc digest_name_eqb D_sha256 (sub_digest s) = Some (hex d) <-> exists so ds, j = JObj so /\ In (s2l "digest", JObj ds) so /\ In (s2l "sha256", JStr (hex d)) ds)).
    { intros j s Dj Sj. assert (E : exists so ds, j = JObj so /\ In (s2l "digest", JObj ds) so /\ digests_of ds (sub_digest s)) by (destruct Sj; eauto 10).
      destruct E as (so & ds & -> & I & Dg). inversion Dj as [| | | | | | |o' Ns Fs]; subst.
      pose proof (proj1 (Forall_forall _ _) Fs _ I) as Dd. cbn [snd] in Dd. inversion Dd as [| | | | | | |o' Nd _]; subst.
      rewrite (digests_in ds _ Nd Dg). split; [intros H; exists so, ds; auto|]. intros (so' & ds' & Q & I' & H). injection Q as <-.
      apply assoc_in in I, I'; try assumption. assert (ds' = ds) by congruence. subst. exact H. }
    clear -F Dl S1. induction F as [|j s subs ss Sj F IH].
    - split; [intros (s & [] & _)|intros (so & ds & [] & _)].
    - inversion Dl; subst. specialize (IH H2). split.
      + intros (s' & [<-|I] & A).
        * apply (S1 _ _ H1 Sj) in A. destruct A as (so & ds & -> & A & B). exists so, ds. split; [left; reflexivity|auto].
        * destruct (proj1 IH (ex_intro _ s' (conj I A))) as (so & ds & I' & B). exists so, ds. split; [right; exact I'|exact B].
      + intros (so & ds & [->|I] & A & B).
        * exists s. split; [left; reflexivity|]. apply (S1 _ _ H1 Sj). eauto.
        * destruct (proj2 IH (ex_intro _ so (ex_intro _ ds (conj I (conj A B))))) as (s' & I' & C). exists s'. split; [right; exact I'|exact C]. }
  rewrite C23_matches_iff. cbn [st_inner]. split.
  - intros (s & I & L). apply assoc_lists in L. destruct (proj1 K (ex_intro _ s (conj I L))) as (so & ds & A & B & C). exists text, o, subs, so, ds. auto 10.
  - intros (text' & o' & subs' & so & ds & U' & T' & Sb' & A & B & C).
    assert (text' = text) by (apply utf8_decode_iff in U, U'; congruence). subst text'. pose proof (unambiguous _ _ _ _ T T') as Q. injection Q as <-.
    apply by_alias_iff in Sb, Sb'; try assumption. assert (Q : JList subs' = JList subs) by congruence. injection Q as ->.
    destruct (proj2 K (ex_intro _ so (ex_intro _ ds (conj A (conj B C))))) as (s & I & L). exists s. split; [exact I|apply assoc_lists, L].
Qed.

(** A statement that uses any other digest is refused, also beside a SHA-256 digest *)
Theorem C104_unknown_digest : forall lib b text o subs so ds k v,
  utf8_encode text = Some b -> json_text lib (JObj o) text -> given o "subject" "subjects" (JList subs) ->
  In (JObj so) subs -> In (s2l "digest", JObj ds) so -> In (k, v) ds -> ~ In k (map fst DIGESTS) -> validate_json lib b = None.
Proof.
  intros lib b text o subs so ds k v U T Sb Is Id Ik Nk. destruct (validate_json lib b) as [st|] eqn:V; [|reflexivity]. exfalso.
  apply C104_accepts in V. destruct V as (text' & o' & subs' & U' & T' & _ & Sb' & _ & F & _).
  assert (text' = text) by (apply utf8_decode_iff in U, U'; congruence). subst text'. pose proof (unambiguous _ _ _ _ T T') as Q. injection Q as <-.
  pose proof (json_dicts _ _ _ T) as D. inversion D as [| | | | | | |o' N Fo]; subst.
  assert (Dl : Forall dicts subs).
  { assert (Q : dicts (JList subs)) by (destruct Sb as [I|(_ & I)]; exact (proj1 (Forall_forall _ _) Fo _ I)). inversion Q. assumption. }
  apply by_alias_iff in Sb, Sb'; try assumption. assert (Q : JList subs' = JList subs) by congruence. injection Q as ->.
  assert (E : exists s, subject_of (JObj so) s).
  { clear -F Is. induction F as [|j s subs ss Sj F IH]; [contradiction|]. destruct Is as [->|I]; [eauto|apply IH, I]. }
  destruct E as (s & Sj). pose proof (proj1 (Forall_forall _ _) Dl _ Is) as Ds. inversion Ds as [| | | | | | |o' Ns Fs]; subst.
  assert (E : exists l, digests_of ds l).
  { inversion Sj; subst; match goal with I : In (s2l "digest", JObj ?x) so |- _ => 
      assert (x = ds) by (apply assoc_in in I; [|assumption]; apply (assoc_in so) in Id; [|assumption]; congruence); subst x; eauto end. }
  destruct E as (l & Dg). clear -Dg Ik Nk. unfold digests_of in Dg. induction Dg as [|kj dv ds l (I & _) F IH]; [contradiction|].
  destruct Ik as [->|I']; [|apply IH, I']. apply Nk. cbn [fst] in I. apply in_map_iff. exists (k, fst dv). auto.
Qed.

(** Nesting is bounded *)
Lemma text_depth : forall lib,
  (forall d j t, value_text lib d j t -> depth j <= d) /\ (forall d l t, elements_text lib d l t -> Forall (fun j => depth j <= d) l) /\
  (forall d l t, members_text lib d l t -> Forall (fun kv => depth (snd kv) <= d) l).
Proof.
  intros lib. apply texts_mut; intros; cbn [depth map list_max fold_right]; try lia.
  - apply le_n_S, list_max_le, Forall_map. assumption.
  - apply le_n_S, list_max_le, Forall_map. eapply (dict_of_forall (fun j => depth j <= d)); eassumption.
  - constructor; [assumption|constructor].
  - constructor; assumption.
  - constructor; [assumption|constructor].
  - constructor; assumption.
Qed.
Theorem C104_deep : forall lib j s, json_text lib j s -> depth j <= jl_depth lib.
Proof. intros lib j s (w & t & w' & _ & _ & _ & V). exact (proj1 (text_depth lib) _ _ _ V). Qed.

(** ** Statements made by [attest] *)

(** With this serialisation on both sides, [statement_readable] (a hypothesis of C73 and C91) holds for every
    file and every predicate without NaN and infinities that is nested less deep than the reader allows. *)
Theorem C104_readable : forall lib tl w ty j t0 f, 4 <= jl_depth lib ->
  (forall st, tl_dump tl st = dump_json st) -> (forall p, tl_text tl p = write lib p) -> (forall b, w_validate w b = validate_json lib b) ->
  (exists o, j = JObj o) -> writable lib j -> depth j < jl_depth lib ->
  statement_readable tl w (Some (ty, j)) t0 f.
Proof.
  intros lib tl w ty j t0 f L Hd Ht Hv (o & ->) W D c st C Op. unfold operation in Op.
  apply bind_ok_inv in Op. destruct Op as (_ & _ & Op). apply bind_ok_inv in Op. destruct Op as (st' & B & Op). injection Op as ->.
  apply C23_builder in B. destruct B as (s & l & t & x & Es & Et & Du & ->). cbn [st_contents st_inner]. rewrite Hd in Du. rewrite Hv.
  assert (V : validate_json lib x = Some (mkStatementInner (s :: l) t (Some (tl_text tl (JObj o))))).
  { apply C104_round_trip; [exact L| |exact Du]. injection Es as <- <-. split; [discriminate|]. split.
    - constructor; [|constructor]. cbn. constructor; [intros []|constructor].
    - cbn [st_predicate]. intros t' [= <-]. exists o. rewrite Ht. auto. }
  split; [exact V|]. unfold validate_json, read_bytes in V. destruct (utf8_decode x); [discriminate|discriminate V].
Qed.
(** a predicate of [attest] is an object *)
Lemma good_predicate_object : forall tl a t j, good_predicate tl a t j -> exists o, j = JObj o.
Proof.
  intros tl a t j G. apply read_predicate_iff in G. unfold read_predicate in G. apply bind_ok_inv in G. destruct G as (_ & _ & G).
  apply bind_ok_inv in G. destruct G as (text & _ & G). destruct (tl_json tl text) as [j'|]; [|discriminate].
  assert (K : forall j, slsa_v0_2 j = true \/ slsa_v1_0 j = true -> exists o, j = JObj o) by (intros [| | | | | | |o] [Q|Q]; try discriminate Q; eauto).
  destruct (str_eqb (aa_predicate_type a) SLSA_V0_2); [|destruct (str_eqb (aa_predicate_type a) SLSA_V1_0); [|discriminate G]];
    apply bind_ok_inv in G; destruct G as (u & R & G); injection G as <-; apply K; [left|right]; apply raise_if_ok in R; apply negb_false_iff, R.
Qed.

(** ** Concrete cases *)

(** fractions are written as numerator, point, denominator *)
Definition jx_lib : JsonLib :=
  mkJL 200 4300 (fun n d => dec_Z n ++ s2l "." ++ dec (Npos d))
    (fun t => match split_on 46 t with
              | [a; b] => match undec b with
                          | Npos d => Some (inl (match a with c :: r => if (c =? 45)%N then (- Z.of_N (undec r))%Z else Z.of_N (undec a) | nil => 0%Z end, d))
                          | N0 => None
                          end
              | _ => None
              end).
Definition jx_statement : StatementInner :=
  mkStatementInner [mkSubject (Some (s2l "a ""b"".txt")) [(D_sha256, s2l "00ff"); (D_sha3_512, s2l "x")]; mkSubject None nil] (s2l "https://t")
    (Some (write jx_lib (JObj [(s2l "n", JInt (-12)); (s2l "f", JFloat 3 2); (s2l "l", JList [JNull; JBool true; JList nil; JObj nil])]))).
Definition jx_text : str :=
  s2l "{""_type"":""https://in-toto.io/Statement/v1"",""subject"":[{""name"":""a \""b\"".txt"",""digest"":{""sha256"":""00ff"",""sha3_512"":""x""}},{""name"":null,""digest"":{}}],""predicateType"":""https://t"",""predicate"":{""n"":-12,""f"":3.2,""l"":[null,true,[],{}]}}".
Example ex_text : dump_json jx_statement = Some (map n2b jx_text).
Proof. vm_compute. reflexivity. Qed.
Example ex_proper : proper jx_lib jx_statement.
Proof.
  split; [discriminate|]. split.
  - constructor; [|constructor; [constructor|constructor]]. cbn. constructor; [intros [Q|[]]; discriminate Q|]. constructor; [intros []|constructor].
  - intros t Q. eexists. split; [exact (f_equal (fun x => match x with Some y => y | None => nil end) (eq_sym Q))|]. split; [|cbn; lia].
    apply W_obj; [keys|]. constructor; [constructor; vm_compute; lia|]. constructor; [|constructor; [|constructor]]; cbn [snd].
    + apply W_float; [|vm_compute; reflexivity]. change (jl_write_float jx_lib 3 2) with [51; 46; 50]%N. split.
      * constructor; [left; lia|]. constructor; [right; cbn; tauto|]. constructor; [left; lia|constructor].
      * exists nil, [51; 46; 50]%N, 51%N, [46; 50]%N. split; [reflexivity|]. split; [left; reflexivity|]. split; [reflexivity|]. split; [lia|].
        intros F. inversion F as [|? ? _ F']. inversion F'. lia.
    + apply W_list. repeat constructor.
Qed.
Example ex_read : validate_json jx_lib (map n2b jx_text) = Some jx_statement.
Proof. apply C104_round_trip; [cbn; lia|exact ex_proper|exact ex_text]. Qed.
Example ex_spaces : exists st, validate_json jx_lib (s2b " { ""predicateType"" : ""t"" , ""x"" : [ ] , ""_type"" : ""https:\/\/in-toto.io/Statement/v1"",
  ""subject"" : [ { ""digest"" : { ""sha256"" : ""a😀"" } , ""name"" : null } ] } ") = Some st /\
  st_subjects st = [mkSubject None [(D_sha256, [97; 128512]%N)]] /\ st_predicate st = None.
Proof. eexists. split; [vm_compute; reflexivity|]. split; reflexivity. Qed.

(** Expected: a predicate is signed as it is given.  NaN and the infinities are signed as [null]. *)
Theorem C104_predicate_refuted : forall lib, 4 <= jl_depth lib -> exists p p', p <> p' /\
  forall subs pt b, subs <> nil -> (forall s, In s subs -> NoDup (map fst (sub_digest s))) ->
    dump_json (mkStatementInner subs pt (Some (write lib (JObj p)))) = Some b ->
    exists text o, utf8_encode text = Some b /\ json_text lib (JObj o) text /\ In (s2l "predicate", JObj p') o.
Proof.
  intros lib L. exists [(s2l "x", JSpecial 0)], [(s2l "x", JNull)]. split; [discriminate|]. intros subs pt b Ne N D.
  change (write lib (JObj [(s2l "x", JSpecial 0)])) with (write lib (JObj [(s2l "x", JNull)])) in D.
  assert (Pr : proper lib (mkStatementInner subs pt (Some (write lib (JObj [(s2l "x", JNull)]))))).
  { split; [exact Ne|]. split; [apply Forall_forall; exact N|]. intros t [= <-]. exists [(s2l "x", JNull)]. split; [reflexivity|]. split; [|cbn; lia].
    apply W_obj; [keys|]. repeat constructor. }
  set (st := mkStatementInner subs pt (Some (write lib (JObj [(s2l "x", JNull)])))) in *.
  exists (statement_text st), [(s2l "_type", JStr STATEMENT_TYPE); (s2l "subject", JList (map subject_json subs));
        (s2l "predicateType", JStr pt); (s2l "predicate", JObj [(s2l "x", JNull)])].
  split; [exact D|]. split; [|cbn [In]; tauto]. destruct Pr as (_ & F & P). destruct (P _ eq_refl) as (o & E & W & Dp).
  rewrite (statement_write lib st (JObj [(s2l "x", JNull)]) eq_refl).
  apply read_iff, read_write.
  - apply (writable_statement lib st); [exact F|]. apply W_obj; [keys|]. repeat constructor.
  - apply (depth_statement st); [exact L|cbn; lia].
Qed.

(** Expected: a statement has the members of the in-toto specification.  Those of the Python class are accepted too. *)
Definition jx_alias : str := s2l "{""type_"":""https://in-toto.io/Statement/v1"",""subjects"":[{""name"":""a"",""digest"":{""sha256"":""00""}}],""predicate_type"":""t""}".
Theorem C104_names_refuted : exists lib b st text o, validate_json lib b = Some st /\ utf8_encode text = Some b /\ json_text lib (JObj o) text /\
  ~ In (s2l "_type") (map fst o) /\ ~ In (s2l "subject") (map fst o) /\ ~ In (s2l "predicateType") (map fst o).
Proof.
  exists jx_lib, (map n2b jx_alias). eexists. exists jx_alias. eexists. split; [vm_compute; reflexivity|]. split; [vm_compute; reflexivity|].
  split; [apply read_iff; vm_compute; reflexivity|]. cbn [map fst]. repeat split; intros Q; repeat (destruct Q as [Q|Q]; [discriminate Q|]); exact Q.
Qed.

(** Expected: the first of two members of a name counts, or none.  The last one does. *)
Definition jx_twice : str := s2l "{""_type"":""https://in-toto.io/Statement/v1"",""subject"":[{""name"":""a"",""digest"":{""sha256"":""00""}}],""subject"":[{""name"":""b"",""digest"":{""sha256"":""11""}}],""predicateType"":""t""}".
Theorem C104_duplicates_refuted : exists lib b d d', d <> d' /\
  (exists l1 l2 l3, b = l1 ++ ascii_bytes (hex d) ++ l2 ++ ascii_bytes (hex d') ++ l3) /\
  exists st, statement_of_bytes (validate_json lib) b = Ok st /\
    matches_digest st (mkHashed HA_SHA2_256 d) = Ok false /\ matches_digest st (mkHashed HA_SHA2_256 d') = Ok true.
Proof.
  exists jx_lib, (map n2b jx_twice), [x00], [x11]. split; [discriminate|]. split.
  - exists (map n2b (s2l "{""_type"":""https://in-toto.io/Statement/v1"",""subject"":[{""name"":""a"",""digest"":{""sha256"":""")),
      (map n2b (s2l """}}],""subject"":[{""name"":""b"",""digest"":{""sha256"":""")), (map n2b (s2l """}}],""predicateType"":""t""}")).
    vm_compute. reflexivity.
  - eexists. split; [vm_compute; reflexivity|]. split; vm_compute; reflexivity.
Qed.

(** Expected: a valid in-toto statement with the SHA-256 of the artifact is accepted.  Not with a digest of
    another kind beside it. *)
Definition jx_sha1 : str := s2l "{""_type"":""https://in-toto.io/Statement/v1"",""subject"":[{""name"":""a"",""digest"":{""sha256"":""00"",""sha1"":""11""}}],""predicateType"":""t""}".
Example ex_sha1 : validate_json jx_lib (map n2b jx_sha1) = None.
Proof. vm_compute. reflexivity. Qed.

(** tools that write statements in this way *)
Definition jx_tools : Tools :=
  mkTools csx_world (tl_libs csx_tools) csx_out (tl_json csx_tools) (write jx_lib) dump_json csx_token (tl_detect csx_tools) (tl_interactive csx_tools) csx_to_json.
Definition jx_world : World :=
  mkWorld [s2l "home"] (fun _ => None) (fun _ => Raise EValue) (fun _ => Raise EValue) (validate_json jx_lib) (fun _ => Raise EValue)
    (w_config_tuf csx_world) (w_rekor csx_world) (w_rp csx_world) 0%Z (fun _ => 0%Z).
Example ex_readable : statement_readable jx_tools jx_world (Some (SLSA_V1_0, csx_predicate)) csx_tree csx_a /\
  exists c st, files_of csx_tree (loc jx_tools csx_a) = Some c /\
    operation jx_tools (Some (SLSA_V1_0, csx_predicate)) csx_a (e_hash (l_env (tl_libs jx_tools)) SHA256 c) = Ok (Op_dsse st).
Proof.
  split.
  - apply C104_readable with (lib := jx_lib); try reflexivity; [cbn; lia|eexists; reflexivity| |cbn; lia].
    unfold csx_predicate. repeat match goal with
      | |- writable _ (JObj _) => apply W_obj; [keys|]
      | |- writable _ (JList _) => apply W_list
      | |- writable _ (JInt _) => apply W_int; vm_compute; lia
      | |- writable _ _ => constructor
      | |- Forall _ (_ :: _) => constructor; cbn [snd]
      | |- Forall _ nil => constructor
      end.
  - eexists _, _. split; [reflexivity|]. vm_compute. reflexivity.
Qed.

Print Assumptions C104_accepts.
Print Assumptions C104_round_trip.
Print Assumptions C104_injective.
Print Assumptions C104_writable.
Print Assumptions C104_built.
Print Assumptions C104_subject_digest.
Print Assumptions C104_unknown_digest.
Print Assumptions C104_deep.
Print Assumptions C104_readable.
Print Assumptions C104_predicate_refuted.
Print Assumptions C104_names_refuted.
Print Assumptions C104_duplicates_refuted.
