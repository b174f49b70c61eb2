(** Properties C34-C36: bundles. *)
From Verif Require Import Base Codec Messages Env Keyring LogEntry PropsLogEntry Cert PropsCert Dsse PropsDsse Bundle ToyEnv.

(** ** Specification *)

Definition media_old : list str :=
  [s2l "application/vnd.dev.sigstore.bundle+json;version=0.1";
   s2l "application/vnd.dev.sigstore.bundle+json;version=0.2"].
Definition media_new : list str :=
  [s2l "application/vnd.dev.sigstore.bundle+json;version=0.3";
   s2l "application/vnd.dev.sigstore.bundle.v0.3+json"].

(** the signing certificate of a bundle message *)
Definition signing_cert (env : Env) (m : BundleMsg) (c : Cert) : Prop :=
  (In (bm_media m) media_new /\
   exists der, vm_cert (bm_vm m) = Some der /\ e_parse_cert env der = Ok c) \/
  (In (bm_media m) media_old /\
   exists der ders, vm_chain (bm_vm m) = Some (der :: ders) /\ e_parse_cert env der = Ok c /\
     spec_leaf c /\
     forall d, In d ders -> exists c', e_parse_cert env d = Ok c' /\ (spec_ca c' \/ spec_not_ca c')).

(** something the signing time can be derived from *)
Definition has_time_source (env : Env) (m : BundleMsg) (e : LogEntry) : Prop :=
  le_promise e <> None \/
  (bm_media m <> s2l "application/vnd.dev.sigstore.bundle+json;version=0.1" /\
   vm_timestamps (bm_vm m) <> nil /\
   forall raw, In raw (vm_timestamps (bm_vm m)) -> exists t, e_decode_tsr env raw = Ok t).

Lemma media_new_iff : forall m, In m media_new <-> (str_eqb m BUNDLE_0_3 || str_eqb m BUNDLE_0_3_ALT) = true.
Proof.
  intros m. rewrite orb_true_iff, !str_eqb_spec. unfold media_new. cbn [In]. fold BUNDLE_0_3 BUNDLE_0_3_ALT.
  split; [intros [<-|[<-|[]]]; auto|intros [->| ->]; auto].
Qed.
Lemma media_old_iff : forall m, In m media_old <-> (str_eqb m BUNDLE_0_1 || str_eqb m BUNDLE_0_2) = true.
Proof.
  intros m. rewrite orb_true_iff, !str_eqb_spec. unfold media_old. cbn [In]. fold BUNDLE_0_1 BUNDLE_0_2.
  split; [intros [<-|[<-|[]]]; auto|intros [->| ->]; auto].
Qed.
Lemma media_disjoint : forall m, In m media_old -> ~ In m media_new.
Proof.
  intros m H N. apply media_old_iff in H. apply media_new_iff in N.
  apply orb_true_iff in H. apply orb_true_iff in N. rewrite !str_eqb_spec in *.
  assert (A : str_eqb BUNDLE_0_1 BUNDLE_0_3 = false) by reflexivity.
  assert (B : str_eqb BUNDLE_0_1 BUNDLE_0_3_ALT = false) by reflexivity.
  assert (C : str_eqb BUNDLE_0_2 BUNDLE_0_3 = false) by reflexivity.
  assert (D : str_eqb BUNDLE_0_2 BUNDLE_0_3_ALT = false) by reflexivity.
  apply str_eqb_false in A, B, C, D. destruct H as [-> | ->], N; congruence.
Qed.

Lemma Forall2_in_l : forall A B (R : A -> B -> Prop) l l', Forall2 R l l' ->
  forall x, In x l -> exists y, In y l' /\ R x y.
Proof.
  intros A B R l l' F. induction F as [|a b l l' H F IH]; intros x I; [destruct I|].
  destruct I as [<-|I]; [exists b; split; [left; reflexivity|assumption]|].
  destruct (IH x I) as (y & Iy & Q). exists y. split; [right|]; assumption.
Qed.
Lemma Forall2_in_r : forall A B (R : A -> B -> Prop) l l', Forall2 R l l' ->
  forall y, In y l' -> exists x, In x l /\ R x y.
Proof.
  intros A B R l l' F. induction F as [|a b l l' H F IH]; intros x I; [destruct I|].
  destruct I as [<-|I]; [exists a; split; [left; reflexivity|assumption]|].
  destruct (IH x I) as (y & Iy & Q). exists y. split; [right|]; assumption.
Qed.

Lemma root_ca_total : forall env c, (exists b, cert_is_root_ca env c = Ok b) <-> (spec_ca c \/ spec_not_ca c).
Proof.
  intros env c. unfold cert_is_root_ca. rewrite <- C18_is_ca_iff, <- C18_not_ca_iff.
  split.
  - intros [b H]. inv_bind H. inv_bind H. destruct a0; auto.
  - intros [H|H].
    + rewrite H. destruct (c_is_v3 c) eqn:V; [|unfold cert_is_ca in H; rewrite V in H; discriminate].
      cbn [negb raise_if bind]. destruct (e_self_issued env c); eauto.
    + rewrite H. destruct (c_is_v3 c) eqn:V; [|unfold cert_is_ca in H; rewrite V in H; discriminate].
      cbn [negb raise_if bind]. eauto.
Qed.

Lemma for_each_unit : forall A (f : A -> res unit) l u, for_each f l = Ok u -> u = tt.
Proof. intros A f l u H. destruct u. reflexivity. Qed.

Lemma bundle_leaf_iff : forall env m c, In (bm_media m) media_old \/ In (bm_media m) media_new ->
  (bundle_leaf env m = Ok c <-> signing_cert env m c).
Proof.
  intros env m c Hm. unfold bundle_leaf, signing_cert.
  destruct (str_eqb (bm_media m) BUNDLE_0_3 || str_eqb (bm_media m) BUNDLE_0_3_ALT) eqn:E.
  - apply media_new_iff in E. split.
    + intros H. left. split; [assumption|]. destruct (vm_cert (bm_vm m)) as [der|]; [|discriminate]. eauto.
    + intros [[_ (der & -> & H)]|[O _]]; [assumption|]. exfalso. exact (media_disjoint _ O E).
  - assert (N : ~ In (bm_media m) media_new) by (rewrite media_new_iff, E; discriminate).
    destruct Hm as [Hm|Hm]; [|contradiction]. split.
    + intros H. right. split; [assumption|].
      destruct (vm_chain (bm_vm m)) as [[|der ders]|]; try discriminate.
      inv_bind H. apply map_res_ok in Ha. inversion Ha as [|? leaf ? chain P F]; subst.
      inv_bind H. inv_bind H. inv_bind H. inversion H; subst leaf. clear H.
      apply raise_if_ok in Ha1. apply negb_false_iff in Ha1. subst a. apply C18_is_leaf_iff in Ha0.
      exists der, ders. split; [reflexivity|]. split; [assumption|]. split; [assumption|].
      intros d I. destruct a1. rewrite for_each_ok in Ha2.
      destruct (Forall2_in_l _ _ _ _ _ F d I) as (c' & I' & Q). exists c'. split; [assumption|].
      apply (root_ca_total env). specialize (Ha2 _ I'). inv_bind Ha2. eauto.
    + intros [[Q _]|(_ & der & ders & -> & P & L & K)]; [contradiction|].
      assert (M : exists cs, map_res (e_parse_cert env) ders = Ok cs /\ forall c', In c' cs -> spec_ca c' \/ spec_not_ca c').
      { clear - K. induction ders as [|d ders IH]; [exists nil; split; [reflexivity|intros ? []]|].
        destruct IH as (cs & M & S); [intros d' I; apply K; right; assumption|].
        destruct (K d (or_introl eq_refl)) as (c' & Q & T). exists (c' :: cs). cbn [map_res]. rewrite Q. cbn [bind].
        rewrite M. split; [reflexivity|]. intros x [<-|I]; auto. }
      destruct M as (cs & M & S). cbn [map_res]. rewrite P. cbn [bind]. rewrite M. cbn [bind].
      apply C18_is_leaf_iff in L. rewrite L. cbn [bind negb raise_if].
      replace (for_each _ cs) with (Ok tt); [reflexivity|]. symmetry. apply for_each_ok. intros x I.
      destruct (proj2 (root_ca_total env x) (S x I)) as [b ->]. reflexivity.
Qed.

Lemma timestamp_data_iff : forall env vm l,
  timestamp_verification_data env vm = Ok (Some l) <->
  vm_timestamps vm <> nil /\ Forall2 (fun raw t => e_decode_tsr env raw = Ok t) (vm_timestamps vm) l.
Proof.
  intros env vm l. unfold timestamp_verification_data. destruct (vm_timestamps vm) as [|r ts].
  - split; [discriminate|]. intros [[] _]; reflexivity.
  - rewrite <- map_res_ok. destruct (map_res (e_decode_tsr env) (r :: ts)) as [l'|e]; cbn [try_except bind].
    + split; [intros H; inversion H; split; [discriminate|reflexivity]|intros [_ H]; inversion H; reflexivity].
    + destruct (is_value_error e); cbn [bind]; split; try discriminate; intros [_ H]; discriminate.
Qed.

Lemma timestamp_data_none : forall env vm,
  timestamp_verification_data env vm = Ok None <-> vm_timestamps vm = nil.
Proof.
  intros env vm. unfold timestamp_verification_data. destruct (vm_timestamps vm) as [|r ts]; [split; reflexivity|].
  split; [|discriminate]. intros H. inv_bind H. discriminate.
Qed.

Lemma decodable_iff : forall env ts,
  (exists l, Forall2 (fun raw t => e_decode_tsr env raw = Ok t) ts l) <->
  (forall raw, In raw ts -> exists t, e_decode_tsr env raw = Ok t).
Proof.
  intros env ts. induction ts as [|r ts IH].
  - split; [intros _ ? []|intros _; exists nil; constructor].
  - split.
    + intros [l F] raw [<-|I]; inversion F; subst; eauto. apply IH; eauto.
    + intros H. destruct (H r (or_introl eq_refl)) as [t T]. destruct (proj2 IH) as [l F]; [intros raw I; apply H; right; assumption|].
      exists (t :: l). constructor; assumption.
Qed.

(** ** C34: exactly which messages become bundles, and with which parts *)
Theorem C34_bundle_iff : forall env m b,
  make_bundle env m = Ok b <->
  b_inner b = m /\
  signing_cert env m (b_cert b) /\
  vm_entries (bm_vm m) = [b_entry b] /\
  In (le_version (b_entry b)) [s2l "0.0.1"; s2l "0.0.2"] /\
  (exists ip text, le_proof (b_entry b) = Some ip /\ ip_checkpoint ip = Some text) /\
  has_time_source env m (b_entry b).
Proof.
  intros env m b. unfold make_bundle. split.
  - intros H. inv_bind H. inv_bind H. inv_bind H. inv_bind H. inv_bind H. inv_bind H. inv_bind H.
    inversion H; subst b. cbn [b_inner b_cert b_entry]. clear H.
    apply raise_if_ok in Ha, Ha1, Ha3. apply negb_false_iff in Ha, Ha1, Ha3.
    assert (Hm : In (bm_media m) media_old \/ In (bm_media m) media_new).
    { rewrite media_old_iff, media_new_iff. destruct (str_eqb (bm_media m) BUNDLE_0_1), (str_eqb (bm_media m) BUNDLE_0_2),
        (str_eqb (bm_media m) BUNDLE_0_3), (str_eqb (bm_media m) BUNDLE_0_3_ALT); auto. }
    apply bundle_leaf_iff in Ha0; [|assumption].
    destruct (vm_entries (bm_vm m)) as [|e [|? ?]]; try discriminate. cbn in Ha2. inversion Ha2; subst a2. clear Ha2.
    pose proof Ha4 as Hv. apply C09_entry_has_proof_and_checkpoint in Ha4. destruct Ha4 as [-> P].
    repeat split; auto.
    + apply orb_true_iff in Ha3. rewrite !str_eqb_spec in Ha3. destruct Ha3 as [->| ->]; cbn; auto.
    + unfold has_time_source. destruct (str_eqb (bm_media m) BUNDLE_0_1) eqn:E1.
      * apply raise_if_ok in Ha5. left. destruct (le_promise e); [discriminate|discriminate].
      * destruct (le_promise e) as [pr|] eqn:Pr; [left; discriminate|]. right. apply str_eqb_false in E1.
        split; [assumption|]. apply bind_ok_inv in Ha5. destruct Ha5 as (u5 & _ & Ha5).
        apply bind_ok_inv in Ha5. destruct Ha5 as (td & Htd & Ha5).
        apply raise_if_ok in Ha5. destruct td as [l|]; [|discriminate].
        apply timestamp_data_iff in Htd. destruct Htd as [N F]. split; [assumption|].
        apply decodable_iff. eauto.
  - destruct b as [m' c e]. cbn [b_inner b_cert b_entry]. intros (-> & C & En & V & (ip & text & Ip & Cp) & T).
    assert (Hm : In (bm_media m) media_old \/ In (bm_media m) media_new) by (destruct C as [[A _]|[A _]]; auto).
    replace (str_eqb (bm_media m) BUNDLE_0_1 || str_eqb (bm_media m) BUNDLE_0_2 || str_eqb (bm_media m) BUNDLE_0_3_ALT ||
             str_eqb (bm_media m) BUNDLE_0_3) with true.
    2:{ symmetry. rewrite media_old_iff, media_new_iff in Hm.
        destruct (str_eqb (bm_media m) BUNDLE_0_1), (str_eqb (bm_media m) BUNDLE_0_2),
        (str_eqb (bm_media m) BUNDLE_0_3), (str_eqb (bm_media m) BUNDLE_0_3_ALT); destruct Hm; auto. }
    cbn [negb raise_if bind]. apply bundle_leaf_iff in C; [|assumption]. rewrite C. cbn [bind].
    rewrite En. cbn [length Nat.eqb negb raise_if bind index_list nth_error].
    replace (str_eqb (le_version e) (s2l "0.0.1") || str_eqb (le_version e) (s2l "0.0.2")) with true.
    2:{ symmetry. apply orb_true_iff. rewrite !str_eqb_spec. cbn in V. destruct V as [<-|[<-|[]]]; auto. }
    cbn [negb raise_if bind].
    assert (ME : make_entry e = Ok e) by (apply C09_entry_has_proof_and_checkpoint; eauto 6).
    rewrite ME. cbn [bind]. rewrite Ip, Cp. cbn [raise_if bind]. unfold has_time_source in T.
    destruct (str_eqb (bm_media m) BUNDLE_0_1) eqn:E1.
    + destruct (le_promise e); [reflexivity|]. destruct T as [T|[T _]]; [congruence|].
      apply str_eqb_spec in E1. contradiction.
    + destruct (le_promise e); [reflexivity|]. destruct T as [T|(_ & N & D)]; [congruence|].
      apply decodable_iff in D. destruct D as [l D].
      assert (TD : timestamp_verification_data env (bm_vm m) = Ok (Some l)) by (apply timestamp_data_iff; auto).
      rewrite TD. reflexivity.
Qed.

(** A bundle of version 0.1 always has an inclusion promise. *)
Theorem C34_v01_has_promise : forall env m b, make_bundle env m = Ok b ->
  bm_media m = s2l "application/vnd.dev.sigstore.bundle+json;version=0.1" -> le_promise (b_entry b) <> None.
Proof.
  intros env m b H E. apply C34_bundle_iff in H. destruct H as (_ & _ & _ & _ & _ & [T|[T _]]); [assumption|contradiction].
Qed.

(** JSON that pydantic refuses with a ValueError is an InvalidBundle. *)
Theorem C34_malformed_json : forall env parse raw e, parse raw = Raise e -> is_value_error e = true ->
  bundle_from_json env parse raw = Raise EInvalidBundle.
Proof. intros env parse raw e H V. unfold bundle_from_json. rewrite H. cbn [try_except]. rewrite V. reflexivity. Qed.

(** the certificates in a bundle message, as bytes *)
Definition certificate_bytes (m : BundleMsg) (der : bytes) : Prop :=
  vm_cert (bm_vm m) = Some der \/ exists l, vm_chain (bm_vm m) = Some l /\ In der l.

(** What construction raises: InvalidBundle (or its subclass), or whatever reading a
    certificate or a timestamp raises, or VerificationError for an inconsistent or
    unclassifiable certificate or an undecodable timestamp, or ExtensionNotFound. *)
Theorem C34_exceptions : forall env m e, make_bundle env m = Raise e ->
  is_invalid_bundle e = true \/ e = EVerification \/ e = EExtensionNotFound \/
  (exists der, certificate_bytes m der /\ e_parse_cert env der = Raise e) \/
  (exists der c, certificate_bytes m der /\ e_parse_cert env der = Ok c /\ c_exts c = Raise e) \/
  (exists raw, In raw (vm_timestamps (bm_vm m)) /\ e_decode_tsr env raw = Raise e /\ is_value_error e = false).
Proof.
  assert (MR : forall A B (f : A -> res B) l e, map_res f l = Raise e -> exists x, In x l /\ f x = Raise e).
  { intros A B f l e. induction l as [|x l IH]; cbn [map_res]; [discriminate|]. intros H.
    apply bind_raise_inv in H. destruct H as [H|(y & _ & H)]; [exists x; split; [left; reflexivity|assumption]|].
    apply bind_raise_inv in H. destruct H as [H|(ys & _ & H)]; [|discriminate].
    destruct (IH H) as (z & I & Q). exists z. split; [right|]; assumption. }
  assert (CA : forall c e, cert_is_ca c = Raise e -> e = EVerification \/ c_exts c = Raise e).
  { intros c e H. unfold cert_is_ca in H.
    apply bind_raise_inv in H. destruct H as [H|(u & _ & H)]; [apply raise_if_raise in H; tauto|].
    destruct (c_exts c) as [x|e']; cbn [bind] in H; [|right; congruence]. left.
    destruct (x_bc x) as [[cr ca]|]; [|discriminate].
    apply bind_raise_inv in H. destruct H as [H|(u' & _ & H)]; [apply raise_if_raise in H; tauto|].
    destruct (x_ku x) as [[ds kcs]|]; [|congruence]. destruct ca, kcs; cbn in H; congruence. }
  intros env m e H. unfold make_bundle in H.
  apply bind_raise_inv in H. destruct H as [H|(u & _ & H)]; [apply raise_if_raise in H; destruct H as [_ ->]; auto|].
  apply bind_raise_inv in H. destruct H as [H|(leaf & _ & H)].
  { unfold bundle_leaf in H. destruct (_ || _).
    - destruct (vm_cert (bm_vm m)) eqn:VC; [right; right; right; left; eexists; split; [left; exact VC|exact H]|inversion H; auto].
    - destruct (vm_chain (bm_vm m)) as [[|d ds]|] eqn:VCH; try (inversion H; subst; auto; fail).
      assert (CB : forall der, In der (d :: ds) -> certificate_bytes m der) by (intros der I; right; exists (d :: ds); auto).
      apply bind_raise_inv in H. destruct H as [H|(cs & Hcs & H)].
      { apply MR in H. destruct H as (der & I & H). right; right; right; left; eauto. }
      apply map_res_ok in Hcs. destruct cs as [|leaf chain]; [inversion H; auto|]. inversion Hcs; subst.
      apply bind_raise_inv in H. destruct H as [H|(ok & _ & H)].
      { unfold cert_is_leaf in H.
        apply bind_raise_inv in H. destruct H as [H|(u' & _ & H)]; [apply raise_if_raise in H; tauto|].
        apply bind_raise_inv in H. destruct H as [H|(ca & _ & H)].
        { apply CA in H. destruct H as [->|H]; [auto|]. right; right; right; right; left; eauto 6 using in_eq. }
        destruct ca; [discriminate|].
        apply bind_raise_inv in H. destruct H as [H|(x & _ & H)]; [right; right; right; right; left; eauto 6 using in_eq|].
        destruct (x_ku x) as [[ds' k']|]; [|inversion H; auto].
        apply bind_raise_inv in H. destruct H as [H|(u2 & _ & H)]; [apply raise_if_raise in H; tauto|].
        destruct (x_eku x); [discriminate|inversion H; auto]. }
      apply bind_raise_inv in H. destruct H as [H|(u' & _ & H)]; [apply raise_if_raise in H; destruct H as [_ ->]; auto|].
      apply bind_raise_inv in H. destruct H as [H|(u2 & _ & H)]; [|discriminate].
      assert (FE : forall l, for_each (fun c => let* _ := cert_is_root_ca env c in Ok tt) l = Raise e ->
        exists c, In c l /\ cert_is_root_ca env c = Raise e).
      { induction l as [|c l IH]; [discriminate|]. cbn [for_each]. intros Q.
        apply bind_raise_inv in Q. destruct Q as [Q|(u3 & _ & Q)].
        - apply bind_raise_inv in Q. destruct Q as [Q|(b & _ & Q)]; [|discriminate]. exists c. split; [left; reflexivity|assumption].
        - destruct (IH Q) as (c' & I & R). exists c'. split; [right|]; assumption. }
      destruct (FE _ H) as (c & I & R). unfold cert_is_root_ca in R.
      apply bind_raise_inv in R. destruct R as [R|(u3 & _ & R)]; [apply raise_if_raise in R; tauto|].
      apply bind_raise_inv in R. destruct R as [R|(ca & _ & R)].
      + apply CA in R. destruct R as [->|R]; [auto|]. right; right; right; right; left.
        destruct (Forall2_in_r _ _ _ _ _ H5 c I) as (d' & I' & Q). exists d', c. auto using in_cons.
      + destruct ca; cbn in R; [destruct (e_self_issued env c); discriminate|discriminate]. }
  apply bind_raise_inv in H. destruct H as [H|(u1 & L & H)]; [apply raise_if_raise in H; destruct H as [_ ->]; auto|].
  apply raise_if_ok in L. apply negb_false_iff in L. destruct (vm_entries (bm_vm m)) as [|en [|? ?]]; try discriminate.
  cbn [index_list nth_error bind] in H.
  apply bind_raise_inv in H. destruct H as [H|(u2 & _ & H)]; [apply raise_if_raise in H; destruct H as [_ ->]; auto|].
  apply bind_raise_inv in H. destruct H as [H|(e' & He & H)].
  { unfold make_entry, entry_validate in H. destruct (le_proof en) as [ip|]; [destruct (ip_checkpoint ip)|]; cbn in H; inversion H; auto. }
  apply bind_raise_inv in H. destruct H as [H|(u3 & _ & H)]; [|discriminate].
  destruct (str_eqb _ _).
  - apply raise_if_raise in H. destruct H as [_ ->]. auto.
  - apply bind_raise_inv in H. destruct H as [H|(u4 & _ & H)]; [apply raise_if_raise in H; destruct H as [_ ->]; auto|].
    destruct (le_promise e'); [discriminate|].
    apply bind_raise_inv in H. destruct H as [H|(ts & _ & H)]; [|apply raise_if_raise in H; destruct H as [_ ->]; auto].
    unfold timestamp_verification_data in H. destruct (vm_timestamps (bm_vm m)) as [|r ts]; [discriminate|].
    apply bind_raise_inv in H. destruct H as [H|(l & _ & H)]; [|discriminate].
    destruct (map_res (e_decode_tsr env) (r :: ts)) as [?|e0] eqn:Q; [discriminate|]. cbn [try_except] in H.
    destruct (is_value_error e0) eqn:VE; inversion H; subst; [auto|].
    apply MR in Q. destruct Q as (raw & IR & Q). right; right; right; right; right. eauto.
Qed.

(** ** C35: assembling *)

(** reading back the certificate one has written *)
Definition reads_back (env : Env) (c : Cert) : Prop := e_parse_cert env (c_der c) = Ok c.

Lemma map_b64 : forall (l : list TSR), map_res (fun r => b64decode (b64encode (tsr_raw r))) l = Ok (map tsr_raw l).
Proof. induction l as [|t l IH]; [reflexivity|]. cbn [map_res map]. rewrite b64decode_b64encode. cbn [bind]. rewrite IH. reflexivity. Qed.

Definition content_msig (c : content) : option MessageSignature := match c with C_msg s => Some s | _ => None end.
Definition content_env (c : content) : option EnvelopeMsg := match c with C_env e => Some (env_inner e) | _ => None end.

Theorem C35_assembled_bundle : forall env cert c e ts b,
  from_parts_ env cert c e ts = Ok b ->
  bm_media (b_inner b) = s2l "application/vnd.dev.sigstore.bundle.v0.3+json" /\
  b_entry b = e /\ vm_entries (bm_vm (b_inner b)) = [e] /\
  vm_cert (bm_vm (b_inner b)) = Some (c_der cert) /\ e_parse_cert env (c_der cert) = Ok (b_cert b) /\
  vm_timestamps (bm_vm (b_inner b)) = map tsr_raw (match ts with Some l => l | None => nil end) /\
  bm_msig (b_inner b) = content_msig c /\ bm_env (b_inner b) = content_env c /\ c <> C_none.
Proof.
  intros env cert c e ts b H. unfold from_parts_ in H. rewrite map_b64 in H. cbn [bind] in H.
  apply bind_ok_inv in H. destruct H as ([ms en] & Hc & H). rewrite b64decode_b64encode in H. cbn [bind] in H.
  apply C34_bundle_iff in H. destruct H as (Hi & S & En & _). rewrite Hi. cbn [bm_media bm_vm vm_entries vm_cert vm_timestamps bm_msig bm_env] in *.
  destruct S as [[_ (der & D & P)]|[O _]].
  2:{ exfalso. apply (media_disjoint _ O). cbn [bm_media]. right. left. reflexivity. }
  cbn [bm_vm vm_cert] in D. inversion D; subst der. inversion En.
  destruct c; inversion Hc; subst; cbn; repeat split; auto; discriminate.
Qed.

Theorem C35_assembling_succeeds : forall env cert c e ts,
  reads_back env cert -> c <> C_none ->
  (exists ip text, le_proof e = Some ip /\ ip_checkpoint ip = Some text) ->
  In (le_version e) [s2l "0.0.1"; s2l "0.0.2"] ->
  (forall t, In t ts -> exists t', e_decode_tsr env (tsr_raw t) = Ok t') ->
  (le_promise e <> None \/ ts <> nil) ->
  exists b, from_parts_ env cert c e (Some ts) = Ok b /\ b_cert b = cert /\ b_entry b = e.
Proof.
  intros env cert c e ts R N P V D T. unfold from_parts_. rewrite map_b64. cbn [bind].
  assert (Hc : exists ms en, match c with C_msg s => Ok (Some s, None) | C_env e0 => Ok (None, Some (env_inner e0)) | C_none => Raise EAttribute end
               = Ok (ms, en)) by (destruct c; eauto; congruence).
  destruct Hc as (ms & en & ->). cbn [bind]. rewrite b64decode_b64encode. cbn [bind].
  exists (mkBundle (mkBundleMsg BUNDLE_0_3 (mkVM (Some (c_der cert)) None [e] (map tsr_raw ts)) ms en) cert e).
  split; [|split; reflexivity]. apply C34_bundle_iff. cbn [b_inner b_cert b_entry bm_vm vm_entries].
  repeat split; auto.
  - left. cbn [bm_media bm_vm vm_cert]. split; [right; left; reflexivity|]. eauto.
  - destruct T as [T|T]; [left; assumption|]. right. cbn [bm_media bm_vm vm_timestamps].
    split; [intros Q; apply (f_equal (str_eqb BUNDLE_0_1)) in Q; vm_compute in Q; discriminate|].
    split; [destruct ts; [congruence|discriminate]|]. intros raw I. apply in_map_iff in I. destruct I as (t & <- & I). auto.
Qed.

(** Taking an assembled bundle apart gives back what it was made from. *)
Theorem C35_parts_are_kept : forall env cert c e ts b,
  reads_back env cert ->
  (forall ev, c = C_env ev -> make_envelope (env_inner ev) = Ok ev) ->
  from_parts_ env cert c e ts = Ok b -> to_parts b = Ok (cert, c, e).
Proof.
  intros env cert c e ts b R E H. apply C35_assembled_bundle in H.
  destruct H as (_ & He & _ & _ & P & _ & Ms & En & N). unfold reads_back in R. rewrite R in P. inversion P as [Pc].
  unfold to_parts, bundle_envelope. rewrite En, Ms. destruct c as [s|ev|]; cbn [content_env content_msig]; [| |congruence].
  - cbn [bind]. rewrite He. rewrite <- Pc. reflexivity.
  - rewrite (E ev eq_refl). cbn [bind]. rewrite He. rewrite <- Pc. reflexivity.
Qed.

(** Re-assembling a bundle, with its timestamps, keeps certificate, entry, timestamps and
    signature, and succeeds. *)
Theorem C35_reassembly : forall env m b cert c e,
  make_bundle env m = Ok b -> reads_back env (b_cert b) ->
  to_parts b = Ok (cert, c, e) -> c <> C_none ->
  forall ts, map tsr_raw ts = vm_timestamps (bm_vm m) ->
  (forall t, In t ts -> exists t', e_decode_tsr env (tsr_raw t) = Ok t') ->
  exists b', from_parts_ env cert c e (Some ts) = Ok b' /\
    b_cert b' = b_cert b /\ b_entry b' = b_entry b /\
    vm_timestamps (bm_vm (b_inner b')) = vm_timestamps (bm_vm m) /\
    bundle_envelope b' = bundle_envelope b /\
    bundle_signature b' = bundle_signature b.
Proof.
  intros env m b cert c e Hb R Hp N ts Ht D.
  apply C34_bundle_iff in Hb. destruct Hb as (Hi & _ & En & V & P & T).
  unfold to_parts in Hp. apply bind_ok_inv in Hp. destruct Hp as (oe & Hoe & Hp). inversion Hp; subst cert c e. clear Hp.
  destruct (C35_assembling_succeeds env (b_cert b) _ (b_entry b) ts R N P V D) as (b' & Hb' & Bc & Be).
  { destruct T as [T|(_ & T & _)]; [left; assumption|]. right. intros ->. cbn in Ht. congruence. }
  exists b'. split; [assumption|]. apply C35_assembled_bundle in Hb'.
  destruct Hb' as (_ & _ & _ & _ & _ & Ts & Ms & Envm & _).
  repeat split; auto; [congruence| |].
  - unfold bundle_envelope in *. rewrite Envm. destruct (bm_env (b_inner b)) as [me|] eqn:Q.
    + inv_bind Hoe. inversion Hoe; subst oe. cbn [content_env].
      apply C22_envelope_has_exactly_one_signature in Ha as Hx. destruct Hx as [Hx _]. rewrite Hx, Ha. reflexivity.
    + inversion Hoe; subst oe. destruct (bm_msig (b_inner b)); [|congruence]. reflexivity.
  - unfold bundle_signature, bundle_envelope in *. rewrite Envm, Ms. destruct (bm_env (b_inner b)) as [me|] eqn:Q.
    + inv_bind Hoe. inversion Hoe; subst oe. cbn [content_env].
      apply C22_envelope_has_exactly_one_signature in Ha as Hx. destruct Hx as [Hx _]. rewrite Hx, Ha. reflexivity.
    + inversion Hoe; subst oe. destruct (bm_msig (b_inner b)); [|congruence]. reflexivity.
Qed.

(** ** C36: fix-bundle *)

Definition with_entry (m : BundleMsg) (e : LogEntry) : BundleMsg :=
  mkBundleMsg (bm_media m) (mkVM (vm_cert (bm_vm m)) (vm_chain (bm_vm m)) [e] (vm_timestamps (bm_vm m))) (bm_msig m) (bm_env m).

(** Without --upgrade-version the output is the input, except that an entry whose proof
    lacks a checkpoint is replaced by the log's answer for its index; the output is a
    well-formed bundle. *)
Theorem C36_repair : forall env get raw b,
  fix_bundle env get false raw = Ok b <->
  exists e ip, vm_entries (bm_vm raw) = [e] /\ le_proof e = Some ip /\
    ((ip_checkpoint ip <> None /\ make_bundle env raw = Ok b) \/
     (ip_checkpoint ip = None /\ exists e', get (le_log_index e) = Ok e' /\ make_bundle env (with_entry raw e') = Ok b)).
Proof.
  intros env get raw b. unfold fix_bundle. split.
  - intros H. inv_bind H. inv_bind H. inv_bind H. inv_bind H. inversion H; subst a2. clear H.
    apply raise_if_ok in Ha. apply negb_false_iff in Ha. destruct (vm_entries (bm_vm raw)) as [|e [|? ?]]; try discriminate.
    inversion Ha0; subst a0. destruct (le_proof e) as [ip|] eqn:Ip; [|discriminate]. exists e, ip. split; [reflexivity|]. split; [assumption|].
    assert (MB : make_bundle env a1 = Ok b).
    { destruct (make_bundle env a1) as [b'|x]; cbn [try_except] in Ha2; [congruence|]. destruct (is_invalid_bundle x); discriminate. }
    destruct (ip_checkpoint ip) as [t|].
    + inversion Ha1; subst a1. left. split; [discriminate|assumption].
    + right. split; [reflexivity|]. inv_bind Ha1. inversion Ha1; subst a1. eauto.
  - intros (e & ip & En & Ip & H). rewrite En. cbn [length Nat.eqb negb raise_if bind index_list nth_error]. rewrite Ip.
    destruct H as [[C M]|(C & e' & G & M)].
    + destruct (ip_checkpoint ip); [|congruence]. cbn [bind]. rewrite M. reflexivity.
    + rewrite C, G. cbn [bind]. unfold with_entry in M. rewrite M. reflexivity.
Qed.

(** A well-formed bundle is written back unchanged. *)
Theorem C36_well_formed_unchanged : forall env get raw b, make_bundle env raw = Ok b ->
  fix_bundle env get false raw = Ok b /\ b_inner b = raw.
Proof.
  intros env get raw b H. pose proof H as H0. apply C34_bundle_iff in H. destruct H as (Hi & _ & En & _ & (ip & text & Ip & Cp) & _).
  split; [|assumption]. apply C36_repair. exists (b_entry b), ip. split; [assumption|]. split; [assumption|]. left.
  split; [congruence|assumption].
Qed.

(** With --upgrade-version: certificate, content and entry of the (repaired) bundle are
    kept, the version is 0.3, and all timestamps are gone. *)
Theorem C36_upgrade : forall env get raw b0 b,
  fix_bundle env get false raw = Ok b0 -> reads_back env (b_cert b0) ->
  fix_bundle env get true raw = Ok b ->
  bm_media (b_inner b) = s2l "application/vnd.dev.sigstore.bundle.v0.3+json" /\
  b_cert b = b_cert b0 /\ b_entry b = b_entry b0 /\
  bundle_envelope b = bundle_envelope b0 /\ bundle_signature b = bundle_signature b0 /\
  vm_timestamps (bm_vm (b_inner b)) = nil.
Proof.
  intros env get raw b0 b H0 R H. unfold fix_bundle in H0, H.
  inv_bind H. inv_bind H. inv_bind H. inv_bind H. rewrite Ha, Ha0 in H0. cbn [bind] in H0. rewrite Ha1 in H0. cbn [bind] in H0.
  rewrite Ha2 in H0. cbn [bind] in H0. inversion H0; subst a2. clear H0 Ha Ha0 Ha1.
  assert (MB : make_bundle env a1 = Ok b0).
  { destruct (make_bundle env a1) as [b'|x]; cbn [try_except] in Ha2; [congruence|]. destruct (is_invalid_bundle x); discriminate. }
  apply bind_ok_inv in H. destruct H as ([[cert c] e] & Hp & H).
  assert (N : c <> C_none) by (apply C35_assembled_bundle in H; tauto).
  pose proof Hp as Hp'. unfold to_parts in Hp'. apply bind_ok_inv in Hp'. destruct Hp' as (oe & Hoe & Hp'). inversion Hp'; subst cert c e. clear Hp'.
  apply C35_assembled_bundle in H. destruct H as (M & E & _ & _ & P & T & Ms & En & _).
  unfold reads_back in R. rewrite R in P. inversion P as [Pc].
  repeat split; auto.
  - unfold bundle_envelope in *. rewrite En. destruct (bm_env (b_inner b0)) as [me|] eqn:Q.
    + inv_bind Hoe. inversion Hoe; subst oe. cbn [content_env].
      apply C22_envelope_has_exactly_one_signature in Ha as Hx. destruct Hx as [Hx _]. rewrite Hx, Ha. reflexivity.
    + inversion Hoe; subst oe. destruct (bm_msig (b_inner b0)); [|congruence]. reflexivity.
  - unfold bundle_signature, bundle_envelope in *. rewrite En, Ms. destruct (bm_env (b_inner b0)) as [me|] eqn:Q.
    + inv_bind Hoe. inversion Hoe; subst oe. cbn [content_env].
      apply C22_envelope_has_exactly_one_signature in Ha as Hx. destruct Hx as [Hx _]. rewrite Hx, Ha. reflexivity.
    + inversion Hoe; subst oe. destruct (bm_msig (b_inner b0)); [|congruence]. reflexivity.
Qed.

(** A bundle whose only time source is its timestamps cannot be upgraded at all. *)
Theorem C36_upgrade_without_promise_fails : forall env get raw b0 sg,
  fix_bundle env get false raw = Ok b0 -> reads_back env (b_cert b0) ->
  le_promise (b_entry b0) = None -> bundle_signature b0 = Ok sg ->
  fix_bundle env get true raw = Raise EInvalidBundle.
Proof.
  intros env get raw b0 sg H R Pr Sg. unfold fix_bundle in *.
  inv_bind H. inv_bind H. inv_bind H. inv_bind H. rewrite Ha, Ha0. cbn [bind]. rewrite Ha1. cbn [bind].
  rewrite Ha2. cbn [bind]. inversion H; subst a2. clear H Ha Ha0 Ha1.
  assert (MB : make_bundle env a1 = Ok b0).
  { destruct (make_bundle env a1) as [b'|x]; cbn [try_except] in Ha2; [congruence|]. destruct (is_invalid_bundle x); discriminate. }
  unfold bundle_signature in Sg. inv_bind Sg. unfold to_parts. rewrite Ha. cbn [bind].
  set (c := match a2 with Some e => C_env e | None => match bm_msig (b_inner b0) with Some s => C_msg s | None => C_none end end).
  assert (N : c <> C_none) by (subst c; destruct a2; [discriminate|destruct (bm_msig (b_inner b0)); discriminate]).
  apply C34_bundle_iff in MB. destruct MB as (_ & _ & _ & V & (ip & text & Ip & Cp) & _).
  unfold from_parts_. cbn [map_res bind].
  assert (Hc : exists ms en, match c with C_msg s => Ok (Some s, None) | C_env e0 => Ok (None, Some (env_inner e0)) | C_none => Raise EAttribute end
               = Ok (ms, en)) by (destruct c; eauto; congruence).
  destruct Hc as (ms & en & ->). cbn [bind]. rewrite b64decode_b64encode. cbn [bind].
  unfold make_bundle, bundle_leaf. cbn [bm_media bm_vm vm_cert vm_entries].
  replace (str_eqb BUNDLE_0_3 BUNDLE_0_1) with false by reflexivity. replace (str_eqb BUNDLE_0_3 BUNDLE_0_3) with true by reflexivity.
  rewrite orb_true_r. cbn [negb raise_if bind orb]. unfold reads_back in R. rewrite R. cbn [bind length Nat.eqb negb raise_if index_list nth_error].
  replace (str_eqb (le_version (b_entry b0)) (s2l "0.0.1") || str_eqb (le_version (b_entry b0)) (s2l "0.0.2")) with true.
  2:{ symmetry. apply orb_true_iff. rewrite !str_eqb_spec. cbn in V. destruct V as [<-|[<-|[]]]; auto. }
  cbn [negb raise_if bind]. assert (ME : make_entry (b_entry b0) = Ok (b_entry b0)) by (apply C09_entry_has_proof_and_checkpoint; eauto 6).
  rewrite ME. cbn [bind]. rewrite Ip, Cp, Pr. reflexivity.
Qed.

(** Every bundle that cannot be made well-formed ends the command. *)
Theorem C36_unfixable_exits : forall env get up raw,
  (length (vm_entries (bm_vm raw)) <> 1 -> fix_bundle env get up raw = Raise (ESystemExit 1)) /\
  (forall e ip t x, vm_entries (bm_vm raw) = [e] -> le_proof e = Some ip -> ip_checkpoint ip = Some t ->
     make_bundle env raw = Raise x -> is_invalid_bundle x = true -> fix_bundle env get up raw = Raise (ESystemExit 1)).
Proof.
  intros env get up raw. unfold fix_bundle. split.
  - intros H. apply Nat.eqb_neq in H. rewrite H. reflexivity.
  - intros e ip t x En Ip Cp M I. rewrite En. cbn [length Nat.eqb negb raise_if bind index_list nth_error].
    rewrite Ip, Cp. cbn [bind]. rewrite M. cbn [try_except]. rewrite I. reflexivity.
Qed.

(** ** Concrete cases *)
Definition bx_cert (ca : bool) : Cert :=
  mkCert [x30; x0a] true
    (Ok (mkExt (if ca then Some (true, true) else None) (Some (negb ca, ca)) (Some [OID_CODE_SIGNING]) None None nil))
    (Ok (mkPub (KEc P256) [x02; x05])) (Ok nil) 0%Z 100%Z (Ok false).
Definition bx_env (ca : bool) : Env := toy_env [([x30; x0a], bx_cert ca); ([x30; x0b], bx_cert true)].
Definition bx_entry (promise : option bytes) (cp : option str) : LogEntry :=
  mkEntry 5 [x01] (s2l "hashedrekord") (s2l "0.0.1") (Some 7%Z) promise (Some (mkIP 1 nil 3 nil cp)) [x62].
Definition bx_new (promise : option bytes) (cp : option str) (ts : list bytes) : BundleMsg :=
  mkBundleMsg BUNDLE_0_3 (mkVM (Some [x30; x0a]) None [bx_entry promise cp] ts) (Some (mkMsgSig None [x99])) None.
Definition bx_old (cp : option str) : BundleMsg :=
  mkBundleMsg BUNDLE_0_1 (mkVM None (Some [[x30; x0a]; [x30; x0b]]) [bx_entry (Some [x01]) cp] nil) (Some (mkMsgSig None [x99])) None.

Example ex_new_bundle : exists b, make_bundle (bx_env false) (bx_new None (Some (s2l "cp")) [[x30; x07]]) = Ok b.
Proof. eexists. vm_compute. reflexivity. Qed.
Example ex_old_bundle : exists b, make_bundle (bx_env false) (bx_old (Some (s2l "cp"))) = Ok b.
Proof. eexists. vm_compute. reflexivity. Qed.
Example ex_reads_back : reads_back (bx_env false) (bx_cert false).
Proof. reflexivity. Qed.
Example ex_repair : exists b,
  fix_bundle (bx_env false) (fun _ => Ok (bx_entry (Some [x01]) (Some (s2l "cp")))) true (bx_old None) = Ok b.
Proof. eexists. vm_compute. reflexivity. Qed.
Example ex_no_time_source : make_bundle (bx_env false) (bx_new None (Some (s2l "cp")) nil) = Raise EInvalidBundle.
Proof. vm_compute. reflexivity. Qed.

(** ** Expectations that do not hold *)

(** The signing certificate of a v0.3 bundle is not checked to be a leaf when the bundle
    is loaded (old bundles are). *)
Theorem C34_new_bundles_have_leaf_refuted :
  exists env m b, make_bundle env m = Ok b /\ spec_ca (b_cert b).
Proof.
  exists (bx_env true), (bx_new None (Some (s2l "cp")) [[x30; x07]]). eexists. split; [vm_compute; reflexivity|].
  cbn [b_cert]. apply C18_is_ca_iff. reflexivity.
Qed.

(** A CA certificate in the chain of an old bundle is not refused. *)
Theorem C34_no_ca_in_chain_refuted :
  exists env m b d, make_bundle env m = Ok b /\ vm_chain (bm_vm m) = Some [c_der (b_cert b); d] /\
    exists c, e_parse_cert env d = Ok c /\ spec_ca c.
Proof.
  exists (bx_env false), (bx_old (Some (s2l "cp"))). eexists. exists [x30; x0b]. split; [vm_compute; reflexivity|].
  split; [reflexivity|]. exists (bx_cert true). split; [reflexivity|]. apply C18_is_ca_iff. reflexivity.
Qed.

(** Construction does not look at the content: it may be missing. *)
Theorem C34_content_present_refuted :
  exists env m b, make_bundle env m = Ok b /\ bundle_signature b = Raise EAttribute.
Proof.
  exists (bx_env false), (mkBundleMsg BUNDLE_0_3 (mkVM (Some [x30; x0a]) None [bx_entry (Some [x01]) (Some (s2l "cp"))] nil) None None).
  eexists. split; vm_compute; reflexivity.
Qed.

(** Upgrading drops the timestamps. *)
Theorem C36_upgrade_keeps_timestamps_refuted :
  exists env get raw b, fix_bundle env get true raw = Ok b /\
    vm_timestamps (bm_vm raw) <> nil /\ vm_timestamps (bm_vm (b_inner b)) = nil.
Proof.
  exists (bx_env false), (fun _ => Raise ERekorClient), (bx_new (Some [x01]) (Some (s2l "cp")) [[x30; x07]]). eexists.
  split; [vm_compute; reflexivity|]. split; [discriminate|reflexivity].
Qed.

(** The entry fetched from the log is not compared with the one it replaces. *)
Theorem C36_replacement_is_the_same_entry_refuted :
  exists env get raw b e, fix_bundle env get false raw = Ok b /\ vm_entries (bm_vm raw) = [e] /\
    le_body (b_entry b) <> le_body e.
Proof.
  exists (bx_env false), (fun _ => Ok (mkEntry 6 [x01] (s2l "hashedrekord") (s2l "0.0.1") (Some 7%Z) (Some [x01])
    (Some (mkIP 1 nil 3 nil (Some (s2l "cp")))) [x63])), (bx_old None). eexists. eexists.
  split; [vm_compute; reflexivity|]. split; [reflexivity|]. discriminate.
Qed.

Print Assumptions C34_bundle_iff.
Print Assumptions C34_v01_has_promise.
Print Assumptions C34_malformed_json.
Print Assumptions C34_exceptions.
Print Assumptions C34_new_bundles_have_leaf_refuted.
Print Assumptions C34_no_ca_in_chain_refuted.
Print Assumptions C34_content_present_refuted.
Print Assumptions C35_assembled_bundle.
Print Assumptions C35_assembling_succeeds.
Print Assumptions C35_parts_are_kept.
Print Assumptions C35_reassembly.
Print Assumptions C36_repair.
Print Assumptions C36_well_formed_unchanged.
Print Assumptions C36_upgrade.
Print Assumptions C36_upgrade_without_promise_fails.
Print Assumptions C36_unfixable_exits.
Print Assumptions C36_upgrade_keeps_timestamps_refuted.
Print Assumptions C36_replacement_is_the_same_entry_refuted.
