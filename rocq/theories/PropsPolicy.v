(** Properties C31-C33: verification policies. *)
From Verif Require Import Base Codec CodecMore Messages Env Cert PropsCert Policy.
From Coq Require Import Permutation.
From Coq Require Import ZifyBool ZifyNat ZifyN.

(** ** Specification *)

(** X.690 DER encoding of a UTF8String: tag, shortest definite length, contents. *)
Definition der_len (n : N) : bytes :=
  if (n <? 128)%N then [n2b n]
  else if (n <? 256)%N then x81 :: be 1 n
  else if (n <? 65536)%N then x82 :: be 2 n
  else if (n <? 16777216)%N then x83 :: be 3 n
  else x84 :: be 4 n.
Definition der_utf8string (content : bytes) : bytes :=
  x0c :: der_len (N.of_nat (length content)) ++ content.

(** [c] has an extension with OID [o]; its raw value is [v] (the first, should the
    parser ever let several through). *)
Definition has_ext (c : Cert) (o : oid) (v : bytes) : Prop :=
  exists x l1 l2, c_exts c = Ok x /\ x_raw x = l1 ++ (o, v) :: l2 /\ (forall w, ~ In (o, w) l1).

(** The extensions of Fulcio's certificates and their values: number below 1.3.6.1.4.1.57264.1, and
    whether the value is the text itself or a DER string (Fulcio's oid-info.md). *)
Inductive encoding : Set := Raw_text | Der_text.
Definition fulcio_extensions : list (ext_policy * N * encoding) :=
  [(OIDCIssuer, 1, Raw_text); (GitHubWorkflowTrigger, 2, Raw_text); (GitHubWorkflowSHA, 3, Raw_text); (GitHubWorkflowName, 4, Raw_text);
   (GitHubWorkflowRepository, 5, Raw_text); (GitHubWorkflowRef, 6, Raw_text);
   (OIDCIssuerV2, 8, Der_text); (OIDCBuildSignerURI, 9, Der_text); (OIDCBuildSignerDigest, 10, Der_text);
   (OIDCRunnerEnvironment, 11, Der_text); (OIDCSourceRepositoryURI, 12, Der_text); (OIDCSourceRepositoryDigest, 13, Der_text);
   (OIDCSourceRepositoryRef, 14, Der_text); (OIDCSourceRepositoryIdentifier, 15, Der_text); (OIDCSourceRepositoryOwnerURI, 16, Der_text);
   (OIDCSourceRepositoryOwnerIdentifier, 17, Der_text); (OIDCBuildConfigURI, 18, Der_text); (OIDCBuildConfigDigest, 19, Der_text);
   (OIDCBuildTrigger, 20, Der_text); (OIDCRunInvocationURI, 21, Der_text); (OIDCSourceRepositoryVisibility, 22, Der_text)]%N.
Definition fulcio_arc (n : N) : oid := [1; 3; 6; 1; 4; 1; 57264; 1; n]%N.

(** The subject alternative names an identity may match. *)
Definition names_identity (n : general_name) (identity : str) : Prop :=
  n = GN_email identity \/ n = GN_uri identity \/
  exists u, utf8_encode identity = Some u /\ n = GN_other [1;3;6;1;4;1;57264;1;7]%N u.

(** Boolean meaning of a policy tree over [acc], the meaning of its leaves. *)
Fixpoint holds (leaf : policy -> Prop) (p : policy) : Prop :=
  match p with
  | P_any cs => (fix some l := match l with nil => False | x :: l' => holds leaf x \/ some l' end) cs
  | P_all cs => cs <> nil /\ (fix every l := match l with nil => True | x :: l' => holds leaf x /\ every l' end) cs
  | P_noop => True
  | _ => leaf p
  end.

(** Every leaf of the tree (policy that is not AnyOf/AllOf) satisfies [Q]. *)
Fixpoint all_leaves (Q : policy -> Prop) (p : policy) : Prop :=
  match p with
  | P_any cs | P_all cs => (fix every l := match l with nil => True | x :: l' => all_leaves Q x /\ every l' end) cs
  | _ => Q p
  end.

(** ** DER *)

Lemma der_long : forall w n content, (n < 256 ^ N.of_nat w)%N ->
  Nat.leb w (length (be w n ++ content)) = true /\
  unbe (firstn w (be w n ++ content)) = n /\ skipn w (be w n ++ content) = content.
Proof.
  intros w n content H. rewrite app_length, be_length. split; [apply Nat.leb_le; lia|].
  rewrite firstn_app, skipn_app, be_length, Nat.sub_diag. cbn [firstn skipn].
  rewrite firstn_all2 by (rewrite be_length; lia). rewrite skipn_all2 by (rewrite be_length; lia).
  rewrite app_nil_r. split; [apply unbe_be; assumption|reflexivity].
Qed.

Lemma der_long_inv : forall w (r : bytes), Nat.leb w (length r) = true ->
  (unbe (firstn w r) < 256 ^ N.of_nat w)%N /\ r = be w (unbe (firstn w r)) ++ skipn w r.
Proof.
  intros w r H. apply Nat.leb_le in H.
  assert (L : length (firstn w r) = w) by (rewrite firstn_length; lia).
  split.
  - pose proof (unbe_lt (firstn w r)) as U. rewrite L in U. exact U.
  - rewrite <- L at 1. rewrite be_unbe. symmetry. apply firstn_skipn.
Qed.

Lemma der_length_spec : forall b n content, der_length b = Some (n, content) <->
  (n < 2 ^ 32)%N /\ b = der_len n ++ content.
Proof.
  intros b n content. change (2 ^ 32)%N with 4294967296%N. split.
  - intros H. destruct b as [|l r]; [discriminate|]. cbn [der_length] in H. pose proof (b2n_lt l) as Bl.
    destruct (b2n l <? 128)%N eqn:E0.
    { inversion H; subst. split; [lia|]. unfold der_len. rewrite E0. rewrite n2b_b2n. reflexivity. }
    assert (K : forall w lo, (if Nat.leb w (length r) then
                if (lo <=? unbe (firstn w r))%N then Some (unbe (firstn w r), skipn w r) else None
                else None) = Some (n, content) ->
              (lo <= n < 256 ^ N.of_nat w)%N /\ r = be w n ++ content).
    { intros w lo Q. destruct (Nat.leb w (length r)) eqn:Lw; [|discriminate].
      destruct (lo <=? unbe (firstn w r))%N eqn:Lo; [|discriminate].
      destruct (der_long_inv w r Lw) as [U R]. inversion Q; subst. split; [split; [lia|assumption]|assumption]. }
    assert (Hl : forall m x, b2n l = m -> b2n x = m -> l = x).
    { intros m x H1 H2. apply b2n_inj. congruence. }
    unfold der_len.
    destruct (b2n l =? 129)%N eqn:E1.
    { apply K in H. change (256 ^ N.of_nat 1)%N with 256%N in H. destruct H as [U ->].
      rewrite (Hl 129%N x81) by (reflexivity || lia). split; [lia|].
      replace (n <? 128)%N with false by lia. replace (n <? 256)%N with true by lia. reflexivity. }
    destruct (b2n l =? 130)%N eqn:E2.
    { apply K in H. change (256 ^ N.of_nat 2)%N with 65536%N in H. destruct H as [U ->].
      rewrite (Hl 130%N x82) by (reflexivity || lia). split; [lia|].
      replace (n <? 128)%N with false by lia. replace (n <? 256)%N with false by lia.
      replace (n <? 65536)%N with true by lia. reflexivity. }
    destruct (b2n l =? 131)%N eqn:E3.
    { apply K in H. change (256 ^ N.of_nat 3)%N with 16777216%N in H. destruct H as [U ->].
      rewrite (Hl 131%N x83) by (reflexivity || lia). split; [lia|].
      replace (n <? 128)%N with false by lia. replace (n <? 256)%N with false by lia.
      replace (n <? 65536)%N with false by lia. replace (n <? 16777216)%N with true by lia. reflexivity. }
    destruct (b2n l =? 132)%N eqn:E4; [|discriminate].
    { apply K in H. change (256 ^ N.of_nat 4)%N with 4294967296%N in H. destruct H as [U ->].
      rewrite (Hl 132%N x84) by (reflexivity || lia). split; [lia|].
      replace (n <? 128)%N with false by lia. replace (n <? 256)%N with false by lia.
      replace (n <? 65536)%N with false by lia. replace (n <? 16777216)%N with false by lia. reflexivity. }
  - intros [U ->]. unfold der_len.
    destruct (n <? 128)%N eqn:E0.
    { cbn [app der_length]. rewrite b2n_n2b by lia. rewrite E0. reflexivity. }
    destruct (n <? 256)%N eqn:E1.
    { destruct (der_long 1 n content) as (A & B & C); [change (256 ^ N.of_nat 1)%N with 256%N; lia|].
      rewrite <- app_comm_cons. cbn [der_length]. change (b2n x81) with 129%N. cbn [N.ltb N.compare N.eqb Pos.compare Pos.compare_cont Pos.eqb].
      rewrite A, B, C. replace (128 <=? n)%N with true by lia. reflexivity. }
    destruct (n <? 65536)%N eqn:E2.
    { destruct (der_long 2 n content) as (A & B & C); [change (256 ^ N.of_nat 2)%N with 65536%N; lia|].
      rewrite <- app_comm_cons. cbn [der_length]. change (b2n x82) with 130%N. cbn [N.ltb N.compare N.eqb Pos.compare Pos.compare_cont Pos.eqb].
      rewrite A, B, C. replace (256 <=? n)%N with true by lia. reflexivity. }
    destruct (n <? 16777216)%N eqn:E3.
    { destruct (der_long 3 n content) as (A & B & C); [change (256 ^ N.of_nat 3)%N with 16777216%N; lia|].
      rewrite <- app_comm_cons. cbn [der_length]. change (b2n x83) with 131%N. cbn [N.ltb N.compare N.eqb Pos.compare Pos.compare_cont Pos.eqb].
      rewrite A, B, C. replace (65536 <=? n)%N with true by lia. reflexivity. }
    destruct (der_long 4 n content) as (A & B & C); [change (256 ^ N.of_nat 4)%N with 4294967296%N; lia|].
    rewrite <- app_comm_cons. cbn [der_length]. change (b2n x84) with 132%N. cbn [N.ltb N.compare N.eqb Pos.compare Pos.compare_cont Pos.eqb].
    rewrite A, B, C. replace (16777216 <=? n)%N with true by lia. reflexivity.
Qed.

Lemma der_utf8_spec : forall b s, der_utf8_decode b = Some s <->
  exists u, utf8_encode s = Some u /\ (N.of_nat (length u) < 2 ^ 32)%N /\ b = der_utf8string u.
Proof.
  intros b s. unfold der_utf8_decode, der_utf8string. split.
  - intros H. destruct b as [|t r]; [discriminate|].
    destruct t; try discriminate.
    destruct (der_length r) as [[n content]|] eqn:D; [|discriminate].
    destruct (n =? N.of_nat (length content))%N eqn:L; [|discriminate].
    apply N.eqb_eq in L. apply der_length_spec in D. destruct D as [U ->].
    exists content. apply utf8_decode_iff in H. split; [assumption|]. rewrite <- L. auto.
  - intros (u & E & L & ->). assert (D : der_length (der_len (N.of_nat (length u)) ++ u) = Some (N.of_nat (length u), u))
      by (apply der_length_spec; auto).
    rewrite D. rewrite N.eqb_refl. apply utf8_decode_iff. assumption.
Qed.

(** ** C33 *)

Lemma oid_eqb_refl : forall o, oid_eqb o o = true.
Proof. intros o. apply oid_eqb_spec. reflexivity. Qed.

Lemma assoc_first : forall o v (l : list (oid * bytes)), assoc oid_eqb o l = Some v <->
  exists l1 l2, l = l1 ++ (o, v) :: l2 /\ (forall w, ~ In (o, w) l1).
Proof.
  intros o v l. induction l as [|[k w] l IH]; cbn [assoc].
  - split; [discriminate|]. intros (l1 & l2 & H & _). destruct l1; discriminate.
  - destruct (oid_eqb o k) eqn:E.
    + apply oid_eqb_spec in E. subst k. split.
      * intros H. inversion H; subst. exists nil, l. split; [reflexivity|]. intros ? [].
      * intros (l1 & l2 & H & N). destruct l1 as [|p l1]; cbn in H; inversion H; subst; [reflexivity|].
        exfalso. apply (N w). left. reflexivity.
    + rewrite IH. split.
      * intros (l1 & l2 & -> & N). exists ((k, w) :: l1), l2. split; [reflexivity|].
        intros t' [Q|Q]; [|eapply N; eauto]. inversion Q; subst.
        rewrite oid_eqb_refl in E. discriminate.
      * intros (l1 & l2 & H & N). destruct l1 as [|p l1]; cbn in H; inversion H; subst.
        { rewrite oid_eqb_refl in E. discriminate. }
        exists l1, l2. split; [reflexivity|]. intros t' Q. apply (N t'). right. assumption.
Qed.

Lemma get_raw_ok : forall c o v, get_raw_extension c o = Ok v <-> has_ext c o v.
Proof.
  intros c o v. unfold get_raw_extension, has_ext. destruct (c_exts c) as [x|e]; cbn [bind].
  - destruct (assoc oid_eqb o (x_raw x)) as [w|] eqn:A; split.
    + intros H. inversion H; subst. apply assoc_first in A. destruct A as (l1 & l2 & A & B). exists x, l1, l2. auto.
    + intros (x' & l1 & l2 & X & A' & B). inversion X; subst x'.
      assert (assoc oid_eqb o (x_raw x) = Some v) by (apply assoc_first; eauto). congruence.
    + discriminate.
    + intros (x' & l1 & l2 & X & A' & B). inversion X; subst x'.
      assert (assoc oid_eqb o (x_raw x) = Some v) by (apply assoc_first; eauto). congruence.
  - split; [discriminate|]. intros (x & ? & ? & H & _). discriminate.
Qed.

Lemma raise_if_tt : forall b e, raise_if b e = Ok tt <-> b = false.
Proof. intros [] e; cbn; split; congruence. Qed.

Lemma ext_fetch : forall c o v, try_except (get_raw_extension c o) is_extension_not_found (fun _ => Raise EVerification) = Ok v
  <-> has_ext c o v.
Proof.
  intros c o v. rewrite <- get_raw_ok. destruct (get_raw_extension c o) as [w|e]; cbn; [tauto|].
  destruct (is_extension_not_found e); split; discriminate.
Qed.

Lemma raw_extension_policies : forall p value c, is_v2 p = false ->
  (ext_policy_verify p value c = Ok tt <->
   exists u, utf8_encode value = Some u /\ has_ext c (ext_oid p) u).
Proof.
  intros p value c V. unfold ext_policy_verify. rewrite V. split.
  - intros H. inv_bind H. inv_bind H. apply ext_fetch in Ha. apply raise_if_tt in H.
    apply negb_false_iff, str_eqb_spec in H. subst. unfold py_decode in Ha0.
    destruct (utf8_decode a) eqn:D; inversion Ha0; subst. exists a. split; [apply utf8_decode_iff; assumption|assumption].
  - intros (u & E & H). apply ext_fetch in H. rewrite H. cbn [bind]. unfold py_decode.
    apply utf8_decode_iff in E. rewrite E. cbn [bind]. rewrite str_eqb_refl. reflexivity.
Qed.

Lemma der_extension_policies : forall p value c, is_v2 p = true ->
  (ext_policy_verify p value c = Ok tt <->
   exists u, utf8_encode value = Some u /\ (N.of_nat (length u) < 2 ^ 32)%N /\
     has_ext c (ext_oid p) (der_utf8string u)).
Proof.
  intros p value c V. unfold ext_policy_verify. rewrite V. split.
  - intros H. inv_bind H. inv_bind H. apply ext_fetch in Ha. apply raise_if_tt in H.
    apply negb_false_iff, str_eqb_spec in H. subst. unfold decode_der_str in Ha0.
    destruct (der_utf8_decode a) eqn:D; inversion Ha0; subst. apply der_utf8_spec in D.
    destruct D as (u & E & L & ->). eauto.
  - intros (u & E & L & H). apply ext_fetch in H. rewrite H. cbn [bind]. unfold decode_der_str.
    assert (D : der_utf8_decode (der_utf8string u) = Some value) by (apply der_utf8_spec; eauto).
    rewrite D. cbn [bind]. rewrite str_eqb_refl. reflexivity.
Qed.

Lemma table_entry : forall p n enc, In (p, n, enc) fulcio_extensions ->
  ext_oid p = fulcio_arc n /\ is_v2 p = match enc with Raw_text => false | Der_text => true end.
Proof.
  intros p n enc H. unfold fulcio_extensions in H. cbn [In] in H.
  repeat (destruct H as [H|H]; [apply pair_equal_spec in H; destruct H as [H <-]; apply pair_equal_spec in H; destruct H as [<- <-]; split; reflexivity|]).
  contradiction.
Qed.
(** Each policy accepts exactly the certificates whose extension of that number has the value. *)
Theorem C33_raw_extension_policies : forall p n value c, In (p, n, Raw_text) fulcio_extensions ->
  (ext_policy_verify p value c = Ok tt <->
   exists u, utf8_encode value = Some u /\ has_ext c (fulcio_arc n) u).
Proof. intros p n value c H. apply table_entry in H. destruct H as [<- V]. apply raw_extension_policies. assumption. Qed.
Theorem C33_der_extension_policies : forall p n value c, In (p, n, Der_text) fulcio_extensions ->
  (ext_policy_verify p value c = Ok tt <->
   exists u, utf8_encode value = Some u /\ (N.of_nat (length u) < 2 ^ 32)%N /\
     has_ext c (fulcio_arc n) (der_utf8string u)).
Proof. intros p n value c H. apply table_entry in H. destruct H as [<- V]. apply der_extension_policies. assumption. Qed.
(** The two theorems cover all policies. *)
Theorem C33_every_policy_documented : forall p, exists n enc, In (p, n, enc) fulcio_extensions.
Proof. intros p. destruct p; do 2 eexists; unfold fulcio_extensions; cbn [In]; repeat (first [left; reflexivity | right]). Qed.


(** The extension value determines the accepted text: no two texts are accepted. *)
Theorem C33_accepts_at_most_one_value : forall p v1 v2 c,
  ext_policy_verify p v1 c = Ok tt -> ext_policy_verify p v2 c = Ok tt -> v1 = v2.
Proof.
  intros p v1 v2 c H1 H2. unfold ext_policy_verify in *.
  inv_bind H1. inv_bind H1. inv_bind H2. inv_bind H2. rewrite Ha1 in Ha. inversion Ha; subst.
  rewrite Ha2 in Ha0. inversion Ha0; subst. apply raise_if_tt in H1, H2.
  apply negb_false_iff, str_eqb_spec in H1, H2. congruence.
Qed.

Theorem C33_oids_distinct : forall p q, ext_oid p = ext_oid q -> p = q.
Proof. intros p q H. destruct p, q; try reflexivity; discriminate H. Qed.

(** Only the extension with the policy's own OID is looked at. *)
Theorem C33_other_extensions_irrelevant : forall p n enc value c c', In (p, n, enc) fulcio_extensions ->
  (forall v, has_ext c (fulcio_arc n) v <-> has_ext c' (fulcio_arc n) v) ->
  (ext_policy_verify p value c = Ok tt <-> ext_policy_verify p value c' = Ok tt).
Proof.
  intros p n enc value c c' T H. apply table_entry in T. destruct T as [T _]. rewrite <- T in H. destruct (is_v2 p) eqn:V.
  - rewrite !der_extension_policies by assumption.
    split; intros (u & A & B & C); exists u; (split; [assumption|split; [assumption|]]); apply H; assumption.
  - rewrite !raw_extension_policies by assumption.
    split; intros (u & A & B); exists u; (split; [assumption|]); apply H; assumption.
Qed.

Lemma ext_exceptions : forall p value c e, ext_policy_verify p value c = Raise e ->
  e = EVerification \/ c_exts c = Raise e \/
  (e = EUnicodeDecode /\ is_v2 p = false /\ exists v, has_ext c (ext_oid p) v /\ utf8_decode v = None) \/
  (e = EValue /\ is_v2 p = true /\ exists v, has_ext c (ext_oid p) v /\ forall u, v <> der_utf8string u \/ utf8_decode u = None \/ (2 ^ 32 <= N.of_nat (length u))%N).
Proof.
  intros p value c e H. unfold ext_policy_verify in H.
  apply bind_raise_inv in H. destruct H as [H|(v & Hv & H)].
  { destruct (get_raw_extension c (ext_oid p)) as [w|y] eqn:G; cbn in H; [discriminate|].
    destruct (is_extension_not_found y) eqn:Y; inversion H; subst; [auto|].
    unfold get_raw_extension in G. apply bind_raise_inv in G. destruct G as [G|(x & _ & G)]; [auto|].
    destruct (assoc _ _ _); inversion G; subst. discriminate. }
  apply ext_fetch in Hv.
  apply bind_raise_inv in H. destruct H as [H|(s & _ & H)]; [|apply raise_if_raise in H; tauto].
  destruct (is_v2 p).
  - unfold decode_der_str in H. destruct (der_utf8_decode v) eqn:D; inversion H; subst.
    do 3 right. split; [reflexivity|]. split; [reflexivity|]. exists v. split; [assumption|].
    intros u. destruct (utf8_decode u) as [s|] eqn:U; [|auto].
    destruct (N.ltb_spec (N.of_nat (length u)) (2 ^ 32)) as [L|L]; [|auto].
    left. intros ->. assert (der_utf8_decode (der_utf8string u) = Some s); [|congruence].
    apply der_utf8_spec. exists u. split; [apply utf8_decode_iff; assumption|auto].
  - unfold py_decode in H. destruct (utf8_decode v) eqn:D; inversion H; subst.
    do 2 right. left. split; [reflexivity|]. split; [reflexivity|]. eauto.
Qed.
Theorem C33_exceptions : forall p n enc value c e, In (p, n, enc) fulcio_extensions -> ext_policy_verify p value c = Raise e ->
  e = EVerification \/ c_exts c = Raise e \/
  (e = EUnicodeDecode /\ enc = Raw_text /\ exists v, has_ext c (fulcio_arc n) v /\ utf8_decode v = None) \/
  (e = EValue /\ enc = Der_text /\ exists v, has_ext c (fulcio_arc n) v /\ forall u, v <> der_utf8string u \/ utf8_decode u = None \/ (2 ^ 32 <= N.of_nat (length u))%N).
Proof.
  intros p n enc value c e T H. apply table_entry in T. destruct T as [<- V].
  destruct (ext_exceptions _ _ _ _ H) as [A|[A|[(A & B & C)|(A & B & C)]]]; [auto|auto| |].
  - do 2 right. left. split; [assumption|]. split; [destruct enc; congruence|assumption].
  - do 3 right. split; [assumption|]. split; [destruct enc; congruence|assumption].
Qed.

(** ** C31 *)

Lemma in_emails : forall l s, In s (san_emails l) <-> In (GN_email s) l.
Proof.
  induction l as [|g l IH]; intros s; [reflexivity|]. destruct g; cbn [san_emails In]; rewrite IH;
    (split; [intros [H|H]|intros [H|H]] || (split; [intros H|intros [H|H]])); auto; try congruence; left; congruence.
Qed.
Lemma in_uris : forall l s, In s (san_uris l) <-> In (GN_uri s) l.
Proof.
  induction l as [|g l IH]; intros s; [reflexivity|]. destruct g; cbn [san_uris In]; rewrite IH;
    (split; [intros [H|H]|intros [H|H]] || (split; [intros H|intros [H|H]])); auto; try congruence; left; congruence.
Qed.

Lemma san_others_ok : forall l r, san_others l = Ok r ->
  forall s, In s r <-> exists u, utf8_encode s = Some u /\ In (GN_other OTHERNAME_OID u) l.
Proof.
  induction l as [|g l IH]; intros r H s.
  { inversion H; subst. split; [intros []|]. intros (u & _ & []). }
  assert (SK : san_others l = Ok r -> (forall u, g <> GN_other OTHERNAME_OID u) ->
    (In s r <-> exists u, utf8_encode s = Some u /\ In (GN_other OTHERNAME_OID u) (g :: l))).
  { intros Hr N. rewrite (IH r Hr s). split; intros (u & A & B); exists u; (split; [assumption|]).
    - right; assumption.
    - destruct B as [B|B]; [exfalso; eapply N; eauto|assumption]. }
  destruct g; cbn [san_others] in H; try (apply SK; [assumption|discriminate]).
  destruct (oid_eqb o OTHERNAME_OID) eqn:O.
  - apply oid_eqb_spec in O. subst o. inv_bind H. inv_bind H. inversion H; subst. clear H SK.
    unfold py_decode in Ha. destruct (utf8_decode v) as [t|] eqn:D; inversion Ha; subst.
    apply utf8_decode_iff in D. split.
    + intros [->|H]; [exists v; split; [assumption|left; reflexivity]|].
      apply (IH _ Ha0) in H. destruct H as (u & A & B). exists u. split; [assumption|right; assumption].
    + intros (u & A & [B|B]).
      * inversion B; subst. left. apply utf8_decode_encode in A, D. congruence.
      * right. apply (IH _ Ha0). eauto.
  - apply SK; [assumption|]. intros u Q. inversion Q; subst.
    assert (oid_eqb OTHERNAME_OID OTHERNAME_OID = true) by (apply oid_eqb_spec; reflexivity). congruence.
Qed.

Lemma san_others_raise : forall l e, san_others l = Raise e ->
  e = EUnicodeDecode /\ exists v, In (GN_other OTHERNAME_OID v) l /\ utf8_decode v = None.
Proof.
  induction l as [|g l IH]; intros e H; [discriminate|].
  assert (K : san_others l = Raise e -> e = EUnicodeDecode /\ exists v, In (GN_other OTHERNAME_OID v) (g :: l) /\ utf8_decode v = None).
  { intros Q. apply IH in Q. destruct Q as (A & v & B & C). split; [assumption|]. exists v. split; [right|]; assumption. }
  destruct g; cbn [san_others] in H; auto.
  destruct (oid_eqb o OTHERNAME_OID) eqn:O; auto. apply oid_eqb_spec in O. subst o.
  apply bind_raise_inv in H. destruct H as [H|(s & _ & H)].
  - unfold py_decode in H. destruct (utf8_decode v) eqn:D; inversion H. split; [reflexivity|]. exists v.
    split; [left; reflexivity|assumption].
  - apply bind_raise_inv in H. destruct H as [H|(r & _ & H)]; [auto|discriminate].
Qed.

Lemma existsb_str : forall s l, existsb (str_eqb s) l = true <-> In s l.
Proof.
  intros s l. rewrite existsb_exists. split.
  - intros (x & I & E). apply str_eqb_spec in E. subst. assumption.
  - intros I. exists s. split; [assumption|apply str_eqb_refl].
Qed.

(** The issuer check, absent for no issuer or the empty issuer. *)
Definition issuer_ok (issuer : option str) (c : Cert) : Prop :=
  forall i, issuer = Some i -> i <> nil ->
  exists u, utf8_encode i = Some u /\ has_ext c [1;3;6;1;4;1;57264;1;1]%N u.

(** other-names of the Fulcio type are all text (a certificate issued by Fulcio) *)
Definition other_names_text (sans : list general_name) : Prop :=
  forall v, In (GN_other [1;3;6;1;4;1;57264;1;7]%N v) sans -> exists s, utf8_encode s = Some v.

Lemma issuer_ok_iff : forall issuer c,
  (match identity_issuer issuer with Some i => ext_policy_verify OIDCIssuer i c | None => Ok tt end) = Ok tt
  <-> issuer_ok issuer c.
Proof.
  intros issuer c. unfold issuer_ok, identity_issuer. destruct issuer as [[|x i]|].
  - split; [|reflexivity]. intros _ i E N. inversion E; subst. congruence.
  - rewrite raw_extension_policies by reflexivity. split.
    + intros (u & A & B) j E _. inversion E; subst. eauto.
    + intros H. apply (H (x :: i)); [reflexivity|discriminate].
  - split; [|reflexivity]. intros _ i E. discriminate.
Qed.

Theorem C31_identity_accepts_iff : forall identity issuer c,
  identity_verify identity issuer c = Ok tt <->
  issuer_ok issuer c /\
  exists x sans n, c_exts c = Ok x /\ x_san x = Some sans /\
    other_names_text sans /\ In n sans /\ names_identity n identity.
Proof.
  intros identity issuer c. unfold identity_verify. split.
  - intros H. inv_bind H. destruct a. apply issuer_ok_iff in Ha. split; [assumption|].
    inv_bind H. destruct (x_san a) as [sans|] eqn:S; [|discriminate]. inv_bind H.
    apply raise_if_tt in H. apply negb_false_iff, existsb_str in H. exists a, sans.
    assert (OT : other_names_text sans).
    { intros v Hv. clear -Hv Ha1. revert a0 Ha1. induction sans as [|g sans IH]; intros r H; [destruct Hv|].
      destruct g; cbn [san_others] in H; (destruct Hv as [Q|Hv]; [try discriminate|eauto]).
      - inversion Q; subst. change (oid_eqb [1;3;6;1;4;1;57264;1;7]%N OTHERNAME_OID) with true in H. cbn [bind] in H.
        inv_bind H. unfold py_decode in Ha. destruct (utf8_decode v) eqn:D; inversion Ha; subst.
        exists a. apply utf8_decode_iff. assumption.
      - destruct (oid_eqb o OTHERNAME_OID); [|eauto]. inv_bind H. inv_bind H. eauto. }
    rewrite !in_app_iff in H. rewrite in_emails, in_uris, (san_others_ok _ _ Ha1) in H.
    destruct H as [H|[H|(u & E & H)]].
    + exists (GN_email identity). unfold names_identity. auto 8.
    + exists (GN_uri identity). unfold names_identity. auto 8.
    + exists (GN_other OTHERNAME_OID u). unfold names_identity. eauto 10.
  - intros (I & x & sans & n & X & S & OT & Hn & Nn). apply issuer_ok_iff in I. rewrite I. cbn [bind].
    rewrite X. cbn [bind]. rewrite S.
    destruct (san_others sans) as [others|e] eqn:O.
    2:{ exfalso. apply san_others_raise in O. destruct O as (_ & v & Hv & D).
        destruct (OT v Hv) as [s E]. apply utf8_decode_encode in E. congruence. }
    cbn [bind]. apply raise_if_tt, negb_false_iff, existsb_str.
    rewrite !in_app_iff, in_emails, in_uris, (san_others_ok _ _ O).
    destruct Nn as [->|[->|(u & E & ->)]]; eauto.
Qed.

Theorem C31_exceptions : forall identity issuer c e, identity_verify identity issuer c = Raise e ->
  e = EVerification \/ e = EUnicodeDecode \/ c_exts c = Raise e \/
  (e = EExtensionNotFound /\ exists x, c_exts c = Ok x /\ x_san x = None).
Proof.
  intros identity issuer c e H. unfold identity_verify in H.
  apply bind_raise_inv in H. destruct H as [H|(u & _ & H)].
  { destruct (identity_issuer issuer); [|discriminate]. apply ext_exceptions in H.
    destruct H as [H|[H|[(H & _)|(_ & H & _)]]]; auto. discriminate. }
  apply bind_raise_inv in H. destruct H as [H|(x & X & H)]; [auto|].
  destruct (x_san x) as [sans|] eqn:S; [|inversion H; eauto 8].
  apply bind_raise_inv in H. destruct H as [H|(o & _ & H)].
  - apply san_others_raise in H. tauto.
  - apply raise_if_raise in H. tauto.
Qed.

(** Passing the empty string as issuer switches the issuer check off. *)
Theorem C31_empty_issuer_is_no_issuer : forall identity c,
  identity_verify identity (Some nil) c = identity_verify identity None c.
Proof. reflexivity. Qed.

Definition px_cert (sans : list general_name) (raw : list (oid * bytes)) : Cert :=
  mkCert [x01] true (Ok (mkExt None None None (Some sans) None raw)) (Raise EValue) (Raise EValue) 0%Z 0%Z (Ok false).

(** [cryptography] gives an other-name's value as DER.  Fulcio writes a UTF8String, so
    an identity never matches the other-name that names it: the tag and length bytes
    are compared as text. *)
Theorem C31_fulcio_other_name_matches_refuted :
  exists identity u c, utf8_encode identity = Some u /\
    c = px_cert [GN_other [1;3;6;1;4;1;57264;1;7]%N (der_utf8string u)] nil /\
    identity_verify identity None c = Raise EVerification.
Proof. exists (s2l "someone"), (s2b "someone"). eexists. split; [reflexivity|]. split; reflexivity. Qed.

(** In general: an identity that is the decoded other-name is refused. *)
Theorem C31_other_name_text_never_matches : forall identity u,
  utf8_encode identity = Some u ->
  identity_verify identity None (px_cert [GN_other [1;3;6;1;4;1;57264;1;7]%N (der_utf8string u)] nil) <> Ok tt.
Proof.
  intros identity u E H. apply C31_identity_accepts_iff in H.
  destruct H as (_ & x & sans & n & X & S & _ & Hn & Nn). inversion X; subst x. inversion S; subst sans.
  destruct Hn as [<-|[]]. destruct Nn as [Q|[Q|(v & Ev & Q)]]; try discriminate.
  rewrite E in Ev. inversion Ev; subst v. inversion Q as [Q'].
  apply (f_equal (@length byte)) in Q'. unfold der_utf8string in Q'. cbn [length] in Q'.
  rewrite app_length in Q'. lia.
Qed.

(** ** C32 *)

Section PolicyInd.
Variable P : policy -> Prop.
Hypothesis Hext : forall p v, P (P_ext p v).
Hypothesis Hid : forall i iss, P (P_identity i iss).
Hypothesis Hany : forall cs, Forall P cs -> P (P_any cs).
Hypothesis Hall : forall cs, Forall P cs -> P (P_all cs).
Hypothesis Hno : P P_noop.
Hypothesis Hus : forall f, P (P_user f).
Fixpoint policy_ind' (p : policy) : P p :=
  let fl := (fix fl (l : list policy) : Forall P l :=
               match l with nil => Forall_nil _ | x :: l' => Forall_cons _ (policy_ind' x) (fl l') end) in
  match p with
  | P_ext k v => Hext k v
  | P_identity i s => Hid i s
  | P_any cs => Hany cs (fl cs)
  | P_all cs => Hall cs (fl cs)
  | P_noop => Hno
  | P_user f => Hus f
  end.
End PolicyInd.

Theorem C32_all_of : forall cs c,
  policy_verify (P_all cs) c = Ok tt <->
  cs <> nil /\ forall p, In p cs -> policy_verify p c = Ok tt.
Proof.
  intros cs c. cbn [policy_verify].
  assert (G : forall l, (fix all l := match l with nil => Ok tt | ch :: l' => do* policy_verify ch c in all l' end) l = Ok tt
              <-> forall p, In p l -> policy_verify p c = Ok tt).
  { induction l as [|x l IH]; [split; [intros _ p []|reflexivity]|]. split.
    - intros H. inv_bind H. destruct a. intros p [<-|I]; [assumption|]. apply IH; assumption.
    - intros H. rewrite (H x (or_introl eq_refl)). cbn [bind]. apply IH. intros p I. apply H. right; assumption. }
  destruct cs as [|x cs].
  - split; [discriminate|]. intros [H _]. congruence.
  - rewrite (G (x :: cs)). split; [intros H; split; [discriminate|assumption]|intros [_ H]; assumption].
Qed.

Theorem C32_any_of : forall cs c,
  policy_verify (P_any cs) c = Ok tt <->
  exists before p after, cs = before ++ p :: after /\ policy_verify p c = Ok tt /\
    forall q, In q before -> exists e, policy_verify q c = Raise e /\ is_verification_error e = true.
Proof.
  intros cs c. cbn [policy_verify]. induction cs as [|x cs IH].
  - split; [discriminate|]. intros (b & p & a & H & _). destruct b; discriminate.
  - destruct (policy_verify x c) as [[]|e] eqn:X.
    + split; [intros _|reflexivity]. exists nil, x, cs. split; [reflexivity|]. split; [assumption|]. intros q [].
    + destruct (is_verification_error e) eqn:V.
      * rewrite IH. split.
        -- intros (b & p & a & -> & A & B). exists (x :: b), p, a. split; [reflexivity|]. split; [assumption|].
           intros q [<-|I]; eauto.
        -- intros (b & p & a & H & A & B). destruct b as [|y b]; cbn in H; inversion H; subst; [congruence|].
           exists b, p, a. split; [reflexivity|]. split; [assumption|]. intros q I. apply B. right; assumption.
      * split; [discriminate|]. intros (b & p & a & H & A & B).
        destruct b as [|y b]; cbn in H; inversion H; subst; [congruence|].
        destruct (B y (or_introl eq_refl)) as (e' & E & V'). congruence.
Qed.

Definition accepts (c : Cert) (p : policy) : Prop := policy_verify p c = Ok tt.
Definition well_behaved (c : Cert) (p : policy) : Prop :=
  forall e, policy_verify p c = Raise e -> is_verification_error e = true.

(** With well-behaved leaves, every policy tree is its boolean combination, and is
    well-behaved itself. *)
Theorem C32_boolean_combination : forall p c, all_leaves (well_behaved c) p ->
  (policy_verify p c = Ok tt <-> holds (accepts c) p) /\ well_behaved c p.
Proof.
  intros p c. induction p as [k v|i iss|cs IH|cs IH| |f] using policy_ind'; intros W;
    try (split; [reflexivity|exact W]).
  - cbn [all_leaves holds] in *. unfold well_behaved at 1. cbn [policy_verify].
    induction cs as [|x cs IHc]; [split; [split; [discriminate|intros []]|intros e H; inversion H; reflexivity]|].
    inversion IH as [|? ? Hx Hcs]; subst. destruct W as [Wx Wcs]. destruct (Hx Wx) as [A B].
    destruct (IHc Hcs Wcs) as [C D]. clear IHc IH. unfold accepts in *.
    destruct (policy_verify x c) as [[]|e] eqn:X.
    + split; [|discriminate]. split; [intros _; left; apply A; reflexivity|reflexivity].
    + rewrite (B e X). split; [|exact D]. rewrite C. split; [auto|].
      intros [H|H]; [|assumption]. apply A in H. discriminate.
  - cbn [all_leaves holds] in *. unfold well_behaved at 1. cbn [policy_verify].
    assert (G : ((fix all l := match l with nil => Ok tt | ch :: l' => do* policy_verify ch c in all l' end) cs = Ok tt
             <-> (fix every l := match l with nil => True | x :: l' => holds (accepts c) x /\ every l' end) cs) /\
             (forall e, (fix all l := match l with nil => Ok tt | ch :: l' => do* policy_verify ch c in all l' end) cs = Raise e ->
                is_verification_error e = true)).
    { induction cs as [|x cs IHc]; [split; [tauto|discriminate]|].
      inversion IH as [|? ? Hx Hcs]; subst. destruct W as [Wx Wcs]. destruct (Hx Wx) as [A B].
      destruct (IHc Hcs Wcs) as [C D].
      destruct (policy_verify x c) as [[]|e] eqn:X; cbn [bind].
      - split; [|exact D]. rewrite C. tauto.
      - split; [split; [discriminate|intros [H _]; apply A in H; discriminate]|].
        intros e' H. inversion H; subst. apply B. assumption. }
    destruct cs as [|x0 cs0].
    { split; [split; [discriminate|intros [H _]; congruence]|intros e H; inversion H; reflexivity]. }
    destruct G as [G1 G2]. split; [|exact G2]. rewrite G1. split; [intros H; split; [discriminate|exact H]|intros [_ H]; exact H].
  - split; [cbn; tauto|]. intros e H. discriminate.
Qed.

Theorem C32_order_irrelevant : forall cs cs' c, Permutation cs cs' ->
  (policy_verify (P_all cs) c = Ok tt <-> policy_verify (P_all cs') c = Ok tt) /\
  ((forall p, In p cs -> well_behaved c p) ->
   (policy_verify (P_any cs) c = Ok tt <-> policy_verify (P_any cs') c = Ok tt)).
Proof.
  assert (G : forall cs cs' c, Permutation cs cs' ->
    policy_verify (P_all cs) c = Ok tt -> policy_verify (P_all cs') c = Ok tt).
  { intros cs cs' c P H. rewrite C32_all_of in *. destruct H as [N H]. split.
    - intros ->. apply Permutation_sym, Permutation_nil in P. congruence.
    - intros p I. apply H. eapply Permutation_in; [apply Permutation_sym|]; eassumption. }
  assert (K : forall cs c, (forall p, In p cs -> well_behaved c p) ->
    (policy_verify (P_any cs) c = Ok tt <-> exists p, In p cs /\ policy_verify p c = Ok tt)).
  { intros cs c W. cbn [policy_verify]. induction cs as [|x cs IH].
    - split; [discriminate|intros (p & [] & _)].
    - destruct (policy_verify x c) as [[]|e] eqn:X.
      + split; [intros _; exists x; split; [left; reflexivity|assumption]|reflexivity].
      + rewrite (W x (or_introl eq_refl) e X). rewrite IH by (intros p I; apply W; right; assumption).
        split; intros (p & I & A); exists p; (split; [|assumption]); [right; assumption|].
        destruct I as [->|I]; [congruence|assumption]. }
  intros cs cs' c P. split.
  - split; apply G; [assumption|apply Permutation_sym; assumption].
  - intros W. rewrite K by assumption.
    assert (W' : forall p, In p cs' -> well_behaved c p).
    { intros p I. apply W. eapply Permutation_in; [apply Permutation_sym|]; eassumption. }
    rewrite (K cs') by assumption. split; intros (p & I & A); exists p; (split; [|assumption]);
      eapply Permutation_in; try eassumption; apply Permutation_sym; assumption.
Qed.

Theorem C32_empty_never_accepts : forall c,
  policy_verify (P_all nil) c = Raise EVerification /\ policy_verify (P_any nil) c = Raise EVerification.
Proof. split; reflexivity. Qed.

(** AnyOf is not a plain disjunction: an earlier child that raises anything else than
    VerificationError (here: an Identity policy on a certificate without SAN) aborts. *)
Theorem C32_any_of_is_disjunction_refuted :
  exists c p q, policy_verify q c = Ok tt /\ policy_verify (P_any [q; p]) c = Ok tt /\
    policy_verify (P_any [p; q]) c = Raise EExtensionNotFound.
Proof.
  exists (mkCert [x01] true (Ok (mkExt None None None None None [(ext_oid GitHubWorkflowName, s2b "ci")])) (Raise EValue) (Raise EValue) 0%Z 0%Z (Ok false)).
  exists (P_identity (s2l "a@b.c") None), (P_ext GitHubWorkflowName (s2l "ci")).
  split; [reflexivity|]. split; reflexivity.
Qed.

(** ** Concrete cases *)
Definition px : Cert := px_cert [GN_dns (s2l "x.org"); GN_email (s2l "a@b.c"); GN_uri (s2l "https://x")]
  [(ext_oid OIDCIssuer, s2b "https://issuer"); (ext_oid OIDCIssuerV2, x0c :: x0e :: s2b "https://issuer")].
Example ex_identity : identity_verify (s2l "a@b.c") (Some (s2l "https://issuer")) px = Ok tt.
Proof. reflexivity. Qed.
Example ex_identity_dns : identity_verify (s2l "x.org") (Some (s2l "https://issuer")) px = Raise EVerification.
Proof. reflexivity. Qed.
Example ex_v2 : ext_policy_verify OIDCIssuerV2 (s2l "https://issuer") px = Ok tt.
Proof. reflexivity. Qed.
Example ex_v2_raw : ext_policy_verify OIDCIssuerV2 (s2l "https://issuer")
  (px_cert nil [(ext_oid OIDCIssuerV2, s2b "https://issuer")]) = Raise EValue.
Proof. reflexivity. Qed.
Example ex_tree : policy_verify (P_all [P_any [P_ext OIDCIssuer (s2l "no"); P_identity (s2l "https://x") None];
  P_ext OIDCIssuerV2 (s2l "https://issuer")]) px = Ok tt.
Proof. reflexivity. Qed.
Example ex_well_behaved : all_leaves (well_behaved px)
  (P_all [P_any [P_ext OIDCIssuer (s2l "no"); P_identity (s2l "https://x") None]; P_ext OIDCIssuerV2 (s2l "https://issuer")]).
Proof.
  cbn [all_leaves]. repeat split; intros e H; vm_compute in H; inversion H; reflexivity.
Qed.

Print Assumptions C31_identity_accepts_iff.
Print Assumptions C31_exceptions.
Print Assumptions C31_fulcio_other_name_matches_refuted.
Print Assumptions C31_other_name_text_never_matches.
Print Assumptions C32_all_of.
Print Assumptions C32_any_of.
Print Assumptions C32_boolean_combination.
Print Assumptions C32_order_irrelevant.
Print Assumptions C32_any_of_is_disjunction_refuted.
Print Assumptions C33_raw_extension_policies.
Print Assumptions C33_der_extension_policies.
Print Assumptions C33_every_policy_documented.
Print Assumptions C33_accepts_at_most_one_value.
Print Assumptions C33_oids_distinct.
Print Assumptions C33_other_extensions_irrelevant.
Print Assumptions C33_exceptions.
