(** Property C18: certificate classification. *)
From Verif Require Import Base Messages Env Cert ToyEnv.

(** ** Specification: facts about a certificate, in X.509 terms *)

Definition has_exts (c : Cert) (x : Extensions) : Prop := c_exts c = Ok x.
(** v3, critical BasicConstraints with cA, KeyUsage with keyCertSign *)
Definition spec_ca (c : Cert) : Prop :=
  c_is_v3 c = true /\ exists x ds, has_exts c x /\
    x_bc x = Some (true, true) /\ x_ku x = Some (ds, true).
(** v3 and consistently not a CA: no BasicConstraints, or critical BasicConstraints
    without cA together with a KeyUsage without keyCertSign *)
Definition spec_not_ca (c : Cert) : Prop :=
  c_is_v3 c = true /\ exists x, has_exts c x /\
    (x_bc x = None \/ (x_bc x = Some (true, false) /\ exists ds, x_ku x = Some (ds, false))).
(** a Sigstore leaf *)
Definition spec_leaf (c : Cert) : Prop :=
  spec_not_ca c /\ exists x kcs ekus, has_exts c x /\
    x_ku x = Some (true, kcs) /\ x_eku x = Some ekus /\ In OID_CODE_SIGNING ekus.

Lemma oid_eqb_spec : forall a b, oid_eqb a b = true <-> a = b.
Proof. apply list_eqb_spec. intros; apply N.eqb_eq. Qed.

Lemma oid_in_spec : forall o l, oid_in o l = true <-> In o l.
Proof.
  intros o l. unfold oid_in. rewrite existsb_exists. split.
  - intros (x & Hx & E). apply oid_eqb_spec in E. subst. assumption.
  - intros H. exists o. split; [assumption|]. apply oid_eqb_spec. reflexivity.
Qed.

(** ** C18 *)

Theorem C18_is_ca_iff : forall c, cert_is_ca c = Ok true <-> spec_ca c.
Proof.
  intros c. unfold cert_is_ca, spec_ca, has_exts.
  destruct (c_is_v3 c); simpl; [|split; [discriminate|intros [H _]; discriminate]].
  destruct (c_exts c) as [x|e]; simpl.
  2:{ split; [discriminate|]. intros (_ & x & ds & H & _). discriminate. }
  split.
  - intros H. split; [reflexivity|]. exists x.
    destruct (x_bc x) as [[cr ca]|] eqn:B; [|discriminate].
    destruct cr; [|discriminate]. simpl in H.
    destruct (x_ku x) as [[ds kcs]|] eqn:K; [|discriminate].
    exists ds. destruct ca, kcs; simpl in H; try discriminate. auto.
  - intros (_ & x' & ds & H & B & K). inversion H; subst x'. rewrite B. simpl. rewrite K. reflexivity.
Qed.

Theorem C18_not_ca_iff : forall c, cert_is_ca c = Ok false <-> spec_not_ca c.
Proof.
  intros c. unfold cert_is_ca, spec_not_ca, has_exts.
  destruct (c_is_v3 c); simpl; [|split; [discriminate|intros [H _]; discriminate]].
  destruct (c_exts c) as [x|e]; simpl.
  2:{ split; [discriminate|]. intros (_ & x & H & _). discriminate. }
  split.
  - intros H. split; [reflexivity|]. exists x. split; [reflexivity|].
    destruct (x_bc x) as [[cr ca]|] eqn:B; [|left; reflexivity]. right.
    destruct cr; [|discriminate]. simpl in H.
    destruct (x_ku x) as [[ds kcs]|] eqn:K; [|discriminate].
    destruct ca, kcs; simpl in H; try discriminate. eauto.
  - intros (_ & x' & H & C). inversion H; subst x'.
    destruct C as [->|(-> & ds & K)]; [reflexivity|]. simpl. rewrite K. reflexivity.
Qed.

(** Every other certificate whose extensions can be read raises VerificationError. *)
Theorem C18_inconsistent_raises : forall c x, has_exts c x ->
  ~ spec_ca c -> ~ spec_not_ca c -> cert_is_ca c = Raise EVerification.
Proof.
  intros c x Hx Ha Hn. destruct (cert_is_ca c) as [[|]|e] eqn:E.
  - apply C18_is_ca_iff in E. contradiction.
  - apply C18_not_ca_iff in E. contradiction.
  - f_equal. unfold cert_is_ca, has_exts in *. rewrite Hx in E.
    destruct (c_is_v3 c); simpl in E; [|congruence].
    destruct (x_bc x) as [[[|] ca]|]; simpl in E; try congruence.
    destruct (x_ku x) as [[ds kcs]|]; [|congruence].
    destruct ca, kcs; simpl in E; congruence.
Qed.

Theorem C18_is_leaf_iff : forall c, cert_is_leaf c = Ok true <-> spec_leaf c.
Proof.
  intros c. unfold cert_is_leaf. split.
  - intros H. inv_bind H. inv_bind H. destruct a0; [discriminate|].
    inv_bind H. destruct (x_ku a0) as [[ds kcs]|] eqn:K; [|discriminate].
    inv_bind H. apply raise_if_ok in Ha2. apply negb_false_iff in Ha2. subst ds.
    destruct (x_eku a0) as [ekus|] eqn:EK; [|discriminate].
    injection H as H. apply oid_in_spec in H.
    split; [apply C18_not_ca_iff; assumption|]. exists a0, kcs, ekus. auto.
  - intros (N & x & kcs & ekus & Hx & K & EK & I).
    assert (V : c_is_v3 c = true) by (destruct N; assumption).
    apply C18_not_ca_iff in N. rewrite V, N. cbn [negb raise_if bind].
    unfold has_exts in Hx. rewrite Hx. cbn [bind]. rewrite K. cbn [negb raise_if bind].
    rewrite EK. f_equal. apply oid_in_spec. assumption.
Qed.

(** No certificate is both a CA and a leaf; a root CA is a CA. *)
Theorem C18_ca_and_leaf_disjoint : forall c,
  cert_is_ca c = Ok true -> cert_is_leaf c = Ok false.
Proof.
  intros c H. unfold cert_is_leaf. pose proof H as Q. apply C18_is_ca_iff in Q.
  destruct Q as [V _]. rewrite V, H. reflexivity.
Qed.

Theorem C18_root_is_self_issued_ca : forall env c,
  cert_is_root_ca env c = Ok true <->
  spec_ca c /\ e_self_issued env c = Ok tt.
Proof.
  intros env c. unfold cert_is_root_ca. split.
  - intros H. inv_bind H. inv_bind H. destruct a0; [|discriminate]. cbn [negb] in H.
    split; [apply C18_is_ca_iff; assumption|].
    destruct (e_self_issued env c) as [[]|]; [reflexivity|discriminate].
  - intros [H S]. pose proof H as Q. apply C18_is_ca_iff in Q. destruct H as [V _].
    rewrite V, Q, S. reflexivity.
Qed.

(** What a leaf check can raise: VerificationError, ExtensionNotFound exactly when a
    non-CA certificate lacks KeyUsage, or what reading the extensions raises. *)
Theorem C18_leaf_exceptions : forall c e, cert_is_leaf c = Raise e ->
  e = EVerification \/ c_exts c = Raise e \/
  (e = EExtensionNotFound /\ exists x, has_exts c x /\ x_bc x = None /\ x_ku x = None).
Proof.
  intros c e H. unfold cert_is_leaf, cert_is_ca, has_exts in *.
  destruct (c_is_v3 c); simpl in H; [|left; congruence].
  destruct (c_exts c) as [x|e']; simpl in H; [|right; left; congruence].
  destruct (x_bc x) as [[[|] ca]|] eqn:B; simpl in H; try (left; congruence).
  - destruct (x_ku x) as [[ds kcs]|] eqn:K; [|simpl in H; left; congruence].
    destruct ca, kcs; simpl in H; try discriminate; try (left; congruence);
      try rewrite K in H; destruct ds; simpl in H; try (left; congruence);
      destruct (x_eku x); try discriminate; left; congruence.
  - destruct (x_ku x) as [[ds kcs]|] eqn:K.
    + destruct ds; simpl in H; [|left; congruence].
      destruct (x_eku x); [congruence|left; congruence].
    + right; right. split; [congruence|]. exists x. auto.
Qed.

(** ** Concrete cases *)
Definition cert_with (bc ku : option (bool * bool)) (eku : option (list oid)) : Cert :=
  mkCert [x01] true (Ok (mkExt bc ku eku None None nil)) (Raise EValue) (Ok [x02]) 0%Z 100%Z (Ok false).
Example ex_ca : cert_is_ca (cert_with (Some (true, true)) (Some (false, true)) None) = Ok true.
Proof. reflexivity. Qed.
Example ex_leaf : cert_is_leaf (cert_with None (Some (true, false)) (Some [OID_CODE_SIGNING])) = Ok true.
Proof. reflexivity. Qed.
Example ex_inconsistent :
  cert_is_ca (cert_with (Some (true, true)) (Some (true, false)) None) = Raise EVerification.
Proof. reflexivity. Qed.
(** Expectation "classification raises only VerificationError": false, ExtensionNotFound
    leaks for a certificate without BasicConstraints and KeyUsage. *)
Theorem C18_only_verification_error_refuted :
  exists c x, has_exts c x /\ cert_is_leaf c = Raise EExtensionNotFound.
Proof. exists (cert_with None None None). eexists. split; reflexivity. Qed.
(** A certificate without BasicConstraints but with keyCertSign counts as leaf. *)
Theorem C18_leaf_never_has_cert_sign_refuted :
  exists c x, has_exts c x /\ cert_is_leaf c = Ok true /\ x_ku x = Some (true, true).
Proof. exists (cert_with None (Some (true, true)) (Some [OID_CODE_SIGNING])). eexists. repeat split. Qed.

Print Assumptions C18_is_ca_iff.
Print Assumptions C18_not_ca_iff.
Print Assumptions C18_inconsistent_raises.
Print Assumptions C18_is_leaf_iff.
Print Assumptions C18_ca_and_leaf_disjoint.
Print Assumptions C18_root_is_self_issued_ca.
Print Assumptions C18_leaf_exceptions.
Print Assumptions C18_only_verification_error_refuted.
Print Assumptions C18_leaf_never_has_cert_sign_refuted.
