(** Properties C20-C23: DSSE envelopes and in-toto statements. *)
From Verif Require Import Base Codec Messages Env Dsse ToyEnv.

(** ** Specification *)

(** DSSE v1 protocol text: PAE(type, body) = "DSSEv1" SP LEN(type) SP type SP LEN(body)
    SP body, where type is UTF-8, LEN(s) is the ASCII decimal length of s in bytes. *)
Definition dsse_pae (type_utf8 body : bytes) : bytes :=
  let SP := x20 in
  let LEN (s : bytes) := ascii_bytes (dec (N.of_nat (length s))) in
  s2b "DSSEv1" ++ [SP] ++ LEN type_utf8 ++ [SP] ++ type_utf8 ++ [SP] ++ LEN body ++ [SP] ++ body.

(** A subject lists [text] as its SHA-256 digest. *)
Definition lists_sha256 (s : Subject) (text : str) : Prop :=
  exists l1 l2, sub_digest s = l1 ++ (D_sha256, text) :: l2 /\ (forall t, ~ In (D_sha256, t) l1).

(** ** C20, C21 *)

Lemma ascii_dec : forall n, is_ascii (dec n) = true.
Proof.
  intros n. pose proof (dec_digits n) as H. unfold is_ascii.
  rewrite forallb_forall in *. intros c Hc. specialize (H c Hc). unfold is_digit in H.
  apply andb_true_iff in H. destruct H as [_ H]. apply N.leb_le in H. apply N.ltb_lt. lia.
Qed.

Lemma py_encode_inv : forall s b, py_encode s = Ok b -> utf8_encode s = Some b.
Proof. intros s b H. unfold py_encode in H. destruct (utf8_encode s); congruence. Qed.

Lemma pae_ok : forall t b x, pae t b = Ok x <-> exists tb, utf8_encode t = Some tb /\
  x = s2b "DSSEv1 " ++ ascii_bytes (dec (N.of_nat (length t))) ++ [x20] ++ tb ++ [x20] ++
      ascii_bytes (dec (N.of_nat (length b))) ++ [x20] ++ b.
Proof.
  intros t b x. unfold pae, py_encode. rewrite !utf8_encode_app.
  rewrite (utf8_encode_ascii (dec _)) by apply ascii_dec.
  destruct (utf8_encode t) as [tb|].
  - change (utf8_encode (s2l "DSSEv1 ")) with (Some (s2b "DSSEv1 ")).
    change (utf8_encode [sp]) with (Some [x20]). cbn [bind].
    change (n2b sp) with x20. unfold ascii_bytes. split.
    + intros H. exists tb. split; [reflexivity|].
      apply (f_equal (fun r => match r with Ok v => v | Raise _ => nil end)) in H. rewrite <- H.
      rewrite <- !app_assoc. reflexivity.
    + intros (tb' & E & ->). inversion E; subst. f_equal. rewrite <- !app_assoc. reflexivity.
  - split; [|intros (? & ? & _); discriminate].
    change (utf8_encode [sp]) with (Some [x20]).
    change (utf8_encode (s2l "DSSEv1 ")) with (Some (s2b "DSSEv1 ")).
    cbn. discriminate.
Qed.

Definition is_digit_byte (b : byte) : bool := is_digit (b2n b).

Lemma digit_bytes : forall n, forallb is_digit_byte (ascii_bytes (dec n)) = true.
Proof.
  intros n. pose proof (dec_digits n) as H. unfold ascii_bytes. rewrite forallb_forall in *.
  intros x Hx. apply in_map_iff in Hx. destruct Hx as (c & <- & Hc). specialize (H c Hc).
  unfold is_digit_byte. rewrite b2n_n2b; [assumption|].
  unfold is_digit in H. apply andb_true_iff in H. destruct H as [_ H]. apply N.leb_le in H. lia.
Qed.

Lemma dec_sep_inj : forall n m a b,
  ascii_bytes (dec n) ++ x20 :: a = ascii_bytes (dec m) ++ x20 :: b -> n = m /\ a = b.
Proof.
  intros n m a b H.
  apply (app_sep_inj byte is_digit_byte) in H; try apply digit_bytes; try reflexivity.
  destruct H as (H1 & _ & H2). split; [|assumption].
  apply dec_inj. apply ascii_bytes_inj in H1; auto using ascii_dec.
Qed.

Theorem C20_pae_injective : forall t1 b1 t2 b2 x,
  pae t1 b1 = Ok x -> pae t2 b2 = Ok x -> t1 = t2 /\ b1 = b2.
Proof.
  intros t1 b1 t2 b2 x H1 H2. apply pae_ok in H1, H2.
  destruct H1 as (u1 & E1 & ->), H2 as (u2 & E2 & H).
  apply app_inv_head in H. cbn [app] in H. apply dec_sep_inj in H. destruct H as [L H].
  apply Nat2N.inj in L.
  destruct (utf8_prefix_free _ _ _ _ _ _ E1 E2 L H) as [-> R].
  inversion R as [R']. apply dec_sep_inj in R'. destruct R' as [_ ->]. split; [|reflexivity]. reflexivity.
Qed.

Theorem C21_ascii_types_follow_the_specification : forall t b,
  is_ascii t = true -> pae t b = Ok (dsse_pae (ascii_bytes t) b).
Proof.
  intros t b H. apply pae_ok. exists (ascii_bytes t). split; [apply utf8_encode_ascii; assumption|].
  unfold dsse_pae. unfold ascii_bytes at 2 5. rewrite map_length. reflexivity.
Qed.

(** [pae] fails only for text that has no UTF-8 encoding (lone surrogates). *)
Theorem C21_defined_iff_encodable : forall t b,
  (exists x, pae t b = Ok x) <-> (exists u, utf8_encode t = Some u).
Proof.
  intros t b. split.
  - intros (x & H). apply pae_ok in H. destruct H as (u & H & _). eauto.
  - intros (u & H). eexists. apply pae_ok. exists u. split; [assumption|reflexivity].
Qed.

Theorem C21_agrees_with_specification_iff_ascii : forall t b u,
  utf8_encode t = Some u ->
  (pae t b = Ok (dsse_pae u b) <-> is_ascii t = true).
Proof.
  intros t b u E. split.
  - intros H. apply pae_ok in H. destruct H as (u' & E' & H). rewrite E in E'. inversion E'; subst u'.
    unfold dsse_pae in H. change (s2b "DSSEv1 ") with (s2b "DSSEv1" ++ [x20]) in H.
    rewrite <- app_assoc in H. do 2 apply app_inv_head in H. cbn [app] in H.
    apply dec_sep_inj in H. destruct H as [L _]. apply Nat2N.inj in L.
    apply (utf8_length_ascii t u E). congruence.
  - intros H. rewrite (utf8_encode_ascii t H) in E. inversion E; subst.
    apply C21_ascii_types_follow_the_specification. assumption.
Qed.

(** The unqualified claim is false: e.g. payload type "é". *)
Theorem C21_agrees_with_specification_refuted :
  exists t b u, utf8_encode t = Some u /\ pae t b <> Ok (dsse_pae u b).
Proof. exists [233%N], (s2b "x"), [xc3; xa9]. split; [reflexivity|]. vm_compute. discriminate. Qed.

(** ** C22 *)

Theorem C22_envelope_has_exactly_one_signature : forall m e,
  make_envelope m = Ok e <->
  env_inner e = m /\ em_sigs m = [env_signature e] /\ env_signature e <> nil.
Proof.
  intros m e. unfold make_envelope. destruct (em_sigs m) as [|s [|s' r]] eqn:S; cbn.
  - split; [discriminate|]. intros (_ & H & _). discriminate.
  - destruct s as [|x s]; cbn.
    + split; [discriminate|]. intros (_ & H & N). inversion H. congruence.
    + split.
      * intros H. inversion H; subst. cbn. repeat split; auto. discriminate.
      * intros (A & B & C). destruct e as [i g]. cbn in *. subst. inversion B. reflexivity.
  - split; [discriminate|]. intros (_ & H & _). discriminate.
Qed.

Theorem C22_invalid_envelopes_raise : forall m e,
  make_envelope m = Raise e -> e = EInvalidEnvelope.
Proof.
  intros m e. unfold make_envelope. destruct (em_sigs m) as [|[|x s] [|s' r]]; cbn; congruence.
Qed.

(** for any envelope object, however it was made *)
Theorem C22_verify_iff : forall env key evp p,
  dsse_verify env key evp = Ok p <->
  p = em_payload (env_inner evp) /\
  exists sg x, em_sigs (env_inner evp) = [sg] /\ pae (em_type (env_inner evp)) p = Ok x /\
    e_sig_verify env (ECDSA SHA256) key sg x = Ok tt.
Proof.
  intros env key evp p. unfold dsse_verify. split.
  - intros H. inv_bind H.
    destruct (em_sigs (env_inner evp)) as [|sg [|s' l]]; try discriminate. cbn [length Nat.eqb negb raise_if bind] in H. cbn [index_list nth_error bind] in H. inv_bind H.
    inversion H; subst p. split; [reflexivity|]. exists sg, a. split; [reflexivity|]. split; [assumption|].
    destruct (e_sig_verify env (ECDSA SHA256) key sg a) as [[]|e]; [reflexivity|]. cbn [try_except] in Ha0. destruct (is_invalid_signature e); discriminate.
  - intros (-> & sg & x & -> & -> & V). cbn [bind length Nat.eqb negb raise_if index_list nth_error]. rewrite V. reflexivity.
Qed.
Theorem C22_verified_payload_is_signed : forall env key m evp p,
  make_envelope m = Ok evp ->
  (dsse_verify env key evp = Ok p <->
   p = em_payload m /\
   exists sg x, em_sigs m = [sg] /\ pae (em_type m) p = Ok x /\
     e_sig_verify env (ECDSA SHA256) key sg x = Ok tt).
Proof.
  intros env key m evp p M. apply C22_envelope_has_exactly_one_signature in M. destruct M as (<- & _). apply C22_verify_iff.
Qed.

Theorem C22_verify_exceptions : forall env key m evp e,
  make_envelope m = Ok evp -> dsse_verify env key evp = Raise e ->
  e = EVerification \/ (e = EUnicodeEncode /\ utf8_encode (em_type m) = None) \/
  (exists x, pae (em_type m) (em_payload m) = Ok x /\ e <> EInvalidSignature /\
     e_sig_verify env (ECDSA SHA256) key (env_signature evp) x = Raise e).
Proof.
  intros env key m evp e M H. apply C22_envelope_has_exactly_one_signature in M.
  destruct M as (<- & S & N). unfold dsse_verify in H. rewrite S in H.
  apply bind_raise_inv in H. destruct H as [H|(x & Hx & H)].
  - right. left. destruct (utf8_encode (em_type (env_inner evp))) as [u|] eqn:U.
    + assert (exists x, pae (em_type (env_inner evp)) (em_payload (env_inner evp)) = Ok x) as [x Hx]
        by (apply C21_defined_iff_encodable; eauto). congruence.
    + split; [|reflexivity]. unfold pae in H. apply bind_raise_inv in H. destruct H as [H|(? & _ & H)]; [|discriminate].
      unfold py_encode in H. destruct (utf8_encode _); congruence.
  - cbn [length Nat.eqb negb raise_if bind index_list nth_error] in H.
    apply bind_raise_inv in H. destruct H as [H|(u & _ & H)]; [|discriminate].
    unfold try_except in H. destruct (e_sig_verify _ _ _ _ _) as [w|y] eqn:V; [discriminate|].
    destruct (is_invalid_signature y) eqn:I; inversion H; subst; [auto|].
    right; right. exists x. split; [assumption|]. split; [|assumption].
    intros ->. discriminate.
Qed.

(** Signing then verifying returns the statement's exact contents. *)
Theorem C22_sign_verify_roundtrip : forall env key sign st,
  (forall m, sign m <> nil /\ e_sig_verify env (ECDSA SHA256) key (sign m) m = Ok tt) ->
  exists evp, dsse_sign sign st = Ok evp /\
    em_type (env_inner evp) = s2l "application/vnd.in-toto+json" /\
    dsse_verify env key evp = Ok (st_contents st).
Proof.
  intros env key sign st Hs. unfold dsse_sign, statement_pae.
  rewrite C21_ascii_types_follow_the_specification by reflexivity. cbn [bind].
  rewrite !b64decode_b64encode. cbn [bind].
  set (x := dsse_pae (ascii_bytes ENVELOPE_TYPE) (st_contents st)). destruct (Hs x) as [N V].
  assert (M : make_envelope (mkEnvMsg (st_contents st) ENVELOPE_TYPE [sign x]) =
              Ok (mkEnvelope (mkEnvMsg (st_contents st) ENVELOPE_TYPE [sign x]) (sign x))).
  { apply C22_envelope_has_exactly_one_signature. cbn. auto. }
  eexists. split; [exact M|]. split; [reflexivity|].
  apply (C22_verified_payload_is_signed env key _ _ _ M). cbn. split; [reflexivity|].
  exists (sign x), x. split; [reflexivity|]. split; [|assumption].
  apply C21_ascii_types_follow_the_specification. reflexivity.
Qed.

(** ** C23 *)

Lemma digest_name_eqb_spec : forall a b, digest_name_eqb a b = true <-> a = b.
Proof. intros [] []; cbn; split; congruence. Qed.

Lemma assoc_lists : forall s t, assoc digest_name_eqb D_sha256 (sub_digest s) = Some t <-> lists_sha256 s t.
Proof.
  intros [n l] t. unfold lists_sha256. cbn [sub_digest]. induction l as [|[k v] l IH]; cbn [assoc].
  - split; [discriminate|]. intros (l1 & l2 & H & _). destruct l1; discriminate.
  - destruct (digest_name_eqb D_sha256 k) eqn:E.
    + apply digest_name_eqb_spec in E. subst k. split.
      * intros H. inversion H; subst. exists nil, l. split; [reflexivity|]. intros ? [].
      * intros (l1 & l2 & H & N). destruct l1 as [|p l1]; cbn in H; inversion H; subst; [reflexivity|].
        exfalso. apply (N v). left. reflexivity.
    + rewrite IH. split.
      * intros (l1 & l2 & -> & N). exists ((k, v) :: l1), l2. split; [reflexivity|].
        intros t' [Q|Q]; [inversion Q; subst; discriminate|eapply N; eauto].
      * intros (l1 & l2 & H & N). destruct l1 as [|p l1]; cbn in H; inversion H; subst; [discriminate|].
        exists l1, l2. split; [reflexivity|]. intros t' Q. apply (N t'). right. assumption.
Qed.

Theorem C23_matches_iff : forall st d,
  matches_digest st (mkHashed HA_SHA2_256 d) = Ok true <->
  exists s, In s (st_subjects (st_inner st)) /\ lists_sha256 s (hex d).
Proof.
  intros st d. unfold matches_digest. cbn [h_alg h_digest].
  induction (st_subjects (st_inner st)) as [|s l IH]; cbn [match_subjects].
  - split; [discriminate|]. intros (s & [] & _).
  - destruct (assoc digest_name_eqb D_sha256 (sub_digest s)) as [t|] eqn:A.
    + destruct (str_eqb t (hex d)) eqn:E.
      * apply str_eqb_spec in E. subst t. split; [intros _|reflexivity].
        exists s. split; [left; reflexivity|]. apply assoc_lists. assumption.
      * rewrite IH. split; intros (s' & I & L); exists s'; (split; [|assumption]).
        -- right; assumption.
        -- destruct I as [->|I]; [|assumption]. apply assoc_lists in L. apply str_eqb_false in E. congruence.
    + rewrite IH. split; intros (s' & I & L); exists s'; (split; [|assumption]).
      * right; assumption.
      * destruct I as [->|I]; [|assumption]. apply assoc_lists in L. congruence.
Qed.

Theorem C23_never_raises_for_sha256 : forall st d, exists b, matches_digest st (mkHashed HA_SHA2_256 d) = Ok b.
Proof. intros st d. eexists. reflexivity. Qed.

Theorem C23_other_algorithms_refused : forall st a d, a <> HA_SHA2_256 ->
  matches_digest st (mkHashed a d) = Raise EVerification.
Proof. intros st [] d H; reflexivity || congruence. Qed.

(** A subject's digest text identifies the artifact digest. *)
Theorem C23_subject_identifies_digest : forall s d1 d2,
  lists_sha256 s (hex d1) -> lists_sha256 s (hex d2) -> d1 = d2.
Proof. intros s d1 d2 H1 H2. apply assoc_lists in H1, H2. apply hex_inj. congruence. Qed.

(** Names, order of subjects and the other digests play no role. *)
Theorem C23_only_sha256_digests_matter : forall st st' d,
  (forall t, (exists s, In s (st_subjects (st_inner st)) /\ lists_sha256 s t) <->
             (exists s, In s (st_subjects (st_inner st')) /\ lists_sha256 s t)) ->
  matches_digest st d = matches_digest st' d.
Proof.
  intros st st' [a d] H. destruct a; try reflexivity.
  destruct (C23_never_raises_for_sha256 st d) as [b E], (C23_never_raises_for_sha256 st' d) as [b' E'].
  rewrite E, E'. f_equal. apply eq_true_iff_eq. specialize (H (hex d)).
  rewrite <- !C23_matches_iff, E, E' in H. split; intros ->; destruct H as [H1 H2];
    [specialize (H1 eq_refl); congruence|specialize (H2 eq_refl); congruence].
Qed.

(** The builder: a statement is built exactly when there is a subject and a predicate
    type, and carries exactly the last values set. *)
Theorem C23_builder : forall dump subs pt p st,
  builder_build dump (builder_new subs pt p) = Ok st <->
  exists s l t contents, subs = Some (s :: l) /\ pt = Some t /\
    dump (mkStatementInner (s :: l) t p) = Some contents /\ st = mkStatement contents (mkStatementInner (s :: l) t p).
Proof.
  intros dump [[|s l]|] [t|] p st; unfold builder_build, builder_new; cbn; split;
    try discriminate; try (intros (? & ? & ? & ? & ? & ? & _); discriminate).
  - destruct (dump (mkStatementInner (s :: l) t p)) as [c|] eqn:D; [|discriminate]. intros H. inversion H. exists s, l, t, c. auto.
  - intros (s' & l' & t' & c & A & B & D & ->). inversion A; inversion B; subst. rewrite D. reflexivity.
Qed.

(** ** Concrete cases *)

Definition dx_digest : bytes := repeat xab 32.
Definition dx_st : Statement := mkStatement (s2b "{...}")
  (mkStatementInner
     [mkSubject None [(D_sha512, s2l "00")]; mkSubject (Some (s2l "a")) [(D_sha512, s2l "11"); (D_sha256, hex dx_digest)]]
     (s2l "t") None).
Example ex_match : matches_digest dx_st (mkHashed HA_SHA2_256 dx_digest) = Ok true.
Proof. reflexivity. Qed.
Example ex_no_match : matches_digest dx_st (mkHashed HA_SHA2_256 (repeat xac 32)) = Ok false.
Proof. reflexivity. Qed.

Definition dx_key := mkPub (KEc P256) [x02; x01].
(** signing and verifying with the toy scheme *)
Example ex_roundtrip :
  (let* e := dsse_sign (toy_sign (ECDSA SHA256) dx_key) dx_st in dsse_verify (toy_env nil) dx_key e)
  = Ok (s2b "{...}").
Proof. vm_compute. reflexivity. Qed.
(** a different payload under the same signature is refused *)
Example ex_tampered :
  (let* e := dsse_sign (toy_sign (ECDSA SHA256) dx_key) dx_st in
   let* e' := make_envelope (mkEnvMsg (s2b "{..!}") (em_type (env_inner e)) (em_sigs (env_inner e))) in
   dsse_verify (toy_env nil) dx_key e') = Raise EVerification.
Proof. vm_compute. reflexivity. Qed.
Example ex_pae : pae (s2l "http://example.com/HelloWorld") (s2b "hello world")
  = Ok (s2b "DSSEv1 29 http://example.com/HelloWorld 11 hello world").
Proof. vm_compute. reflexivity. Qed.

Print Assumptions C20_pae_injective.
Print Assumptions C21_agrees_with_specification_iff_ascii.
Print Assumptions C21_agrees_with_specification_refuted.
Print Assumptions C22_verify_iff.
Print Assumptions C22_envelope_has_exactly_one_signature.
Print Assumptions C22_verified_payload_is_signed.
Print Assumptions C22_verify_exceptions.
Print Assumptions C22_sign_verify_roundtrip.
Print Assumptions C23_matches_iff.
Print Assumptions C23_only_sha256_digests_matter.
Print Assumptions C23_subject_identifies_digest.
Print Assumptions C23_builder.
