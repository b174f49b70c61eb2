(** Property C113: which certificates a signer's certificate may be issued by.  The oracle for chain
    building is replaced by the model of the path search in Chain.v; what the other theorems assume
    of the oracle is derived from conditions on single certificates. *)
From Verif Require Import Base Codec Messages Merkle ToyHash Env Keyring KeyringProofs ToyEnv Checkpoint LogEntry PropsCheckpoint Cert FloatMs Sct Dsse PropsDsse
  PropsSct KeyDetails Policy TrustedRoot PropsTrustedRoot SigningConfig Hashing Bundle PropsBundle Verifier VerifierSpec ToyBundles
  CliVerify Calm PropsKeyring PropsVerifier PropsSigningConfig PropsCliVerify PropsStability PropsOrder Chain.

(** ** Specification *)

(** chains are found by the search of the library *)
Definition searches (env : Env) (lib : PathLib) : Prop :=
  forall roots t c, e_chain env roots t c = python_chain lib roots t c.

(** the very certificate is among these *)
Definition listed (roots : list Cert) (c : Cert) : Prop := exists k, In k roots /\ c_der k = c_der c.

(** at this time (in seconds) the certificate is valid *)
Definition valid_in_second (t : time) (c : Cert) : Prop :=
  (c_not_before c / 1000000 <= t / 1000000 <= c_not_after c / 1000000)%Z.

(** [k] has the name of the issuer *)
Definition named (lib : PathLib) (k c : Cert) : Prop := pl_subject lib k = pl_issuer lib c.

(** [k] is an authority that issued [c] and is itself valid at [t] *)
Definition issued (lib : PathLib) (t : time) (k c : Cert) : Prop :=
  named lib k c /\ valid_in_second t k /\ pl_ca_form lib 0 k = true /\ pl_signed_by lib k c = true.

(** [c] itself is in order at [t] *)
Definition in_order (lib : PathLib) (t : time) (c : Cert) : Prop :=
  pl_readable lib c = true /\ valid_in_second t c /\ pl_ee_form lib c = true /\
  pl_names lib [] c = NamesOk /\ pl_general_names lib c = Ok tt.

(** the certificates of the authorities of a trusted root whose window has started *)
Definition authority_cert (env : Env) (now : time) (tr : TrustedRootMsg) (k : Cert) : Prop :=
  exists m der, In m (tr_cas tr) /\ started now (cam_valid_for m) /\ In der (cam_certs m) /\ e_parse_cert env der = Ok k.

(** ** Proofs *)

Lemma valid_at_iff : forall t c, valid_at t c = true <-> valid_in_second t c.
Proof.
  intros t c. unfold valid_at, valid_in_second, whole_seconds. rewrite andb_true_iff, !Z.leb_le. reflexivity.
Qed.
Lemma in_store_iff : forall roots c, in_store roots c = true <-> listed roots c.
Proof.
  intros roots c. unfold in_store, listed. rewrite existsb_exists. split; intros (k & I & E); exists k; split; auto; apply bytes_eqb_spec; assumption.
Qed.

Section Search.
Variable lib : PathLib.

Lemma issued_iff : forall t k c, issued lib t k c <-> named lib k c /\ valid_issuer lib t 0 k c = true.
Proof.
  intros t k c. unfold issued, valid_issuer. rewrite !andb_true_iff, valid_at_iff. tauto.
Qed.
Lemma candidate_iff : forall l k c, In k (potential_issuers lib l [] c) <-> In k l /\ named lib k c.
Proof.
  intros l k c. unfold potential_issuers. rewrite app_nil_r, filter_In, bytes_eqb_spec. reflexivity.
Qed.

(** what is found from a trusted certificate *)
Definition answer (c k : Cert) : found :=
  match pl_names lib [c] k with NamesOk => Found [k] | NamesViolated => NotFound | NamesFatal => Fatal end.
Lemma from_trusted : forall roots t left d c k, In k roots ->
  build_inner lib roots [] t left d [c] k = answer c k.
Proof.
  intros roots t left d c k I. assert (St : in_store roots k = true) by (apply in_store_iff; exists k; auto).
  unfold answer. destruct left; cbn [build_inner]; rewrite St; reflexivity.
Qed.

Lemma try_ext : forall t d c up up' l, (forall k, In k l -> up k = up' k) ->
  try_issuers lib t d c up l = try_issuers lib t d c up' l.
Proof.
  intros t d c up up'. induction l as [|k l IH]; intros H; [reflexivity|]. cbn [try_issuers].
  rewrite (H k) by (left; reflexivity). rewrite IH by (intros x I; apply H; right; assumption). reflexivity.
Qed.

(** The search as a whole. *)
Lemma chain_search : forall roots t c,
  python_chain lib roots t c =
  match roots with
  | [] => Raise EValue
  | _ =>
    if pl_readable lib c && valid_at t c && pl_ee_form lib c then
      match pl_names lib [] c with
      | NamesOk =>
          if in_store roots c then do* pl_general_names lib c in Ok [c]
          else match try_issuers lib t 0 c (answer c) (potential_issuers lib roots [] c) with
               | Found l => do* pl_general_names lib c in Ok l
               | _ => Raise EX509Verification
               end
      | _ => Raise EX509Verification
      end
    else Raise EX509Verification
  end.
Proof.
  intros [|r roots] t c; [reflexivity|]. unfold python_chain, build_chain. set (rs := r :: roots).
  destruct (pl_readable lib c); [|reflexivity]. cbn [negb andb].
  destruct (valid_at t c); [|reflexivity]. destruct (pl_ee_form lib c); [|reflexivity]. cbn [negb andb].
  cbn [build_inner]. destruct (pl_names lib [] c); try reflexivity. destruct (in_store rs c); [reflexivity|].
  erewrite try_ext; [reflexivity|]. intros k I. apply candidate_iff in I. apply from_trusted. tauto.
Qed.

(** The first candidate that issued the certificate is taken. *)
Definition passed_over (t : time) (c k : Cert) : Prop :=
  named lib k c -> pl_readable lib k = true /\ (issued lib t k c -> pl_names lib [c] k = NamesViolated).
Lemma try_found : forall t c l ch,
  try_issuers lib t 0 c (answer c) (potential_issuers lib l [] c) = Found ch <->
  exists pre k post, l = pre ++ k :: post /\ Forall (passed_over t c) pre /\
    issued lib t k c /\ pl_readable lib k = true /\ pl_names lib [c] k = NamesOk /\ ch = [c; k].
Proof.
  intros t c. induction l as [|k l IH]; intros ch.
  { split; [discriminate|]. intros (pre & k & post & E & _). destruct pre; discriminate. }
  assert (Skip : passed_over t c k -> ~ (issued lib t k c /\ pl_names lib [c] k = NamesOk) ->
    ((exists pre k0 post, l = pre ++ k0 :: post /\ Forall (passed_over t c) pre /\
       issued lib t k0 c /\ pl_readable lib k0 = true /\ pl_names lib [c] k0 = NamesOk /\ ch = [c; k0]) <->
     (exists pre k0 post, k :: l = pre ++ k0 :: post /\ Forall (passed_over t c) pre /\
       issued lib t k0 c /\ pl_readable lib k0 = true /\ pl_names lib [c] k0 = NamesOk /\ ch = [c; k0]))).
  { intros P N. split.
    - intros (pre & k0 & post & -> & F & Rest). exists (k :: pre), k0, post. split; [reflexivity|]. split; [constructor; assumption|assumption].
    - intros ([|x pre] & k0 & post & E & F & Rest); inversion E; subst; [destruct N; tauto|].
      inversion F; subst. exists pre, k0, post. auto. }
  unfold potential_issuers in *. rewrite app_nil_r in *. cbn [filter].
  destruct (bytes_eqb (pl_subject lib k) (pl_issuer lib c)) eqn:En.
  - apply bytes_eqb_spec in En. cbn [try_issuers]. destruct (pl_readable lib k) eqn:R; cbn [negb].
    + destruct (valid_issuer lib t 0 k c) eqn:V.
      * assert (Is : issued lib t k c) by (apply issued_iff; auto).
        unfold answer at 1. destruct (pl_names lib [c] k) eqn:Nm.
        -- split.
           ++ intros H. inversion H; subst. exists [], k, l. split; [reflexivity|]. split; [constructor|]. auto.
           ++ intros ([|x pre] & k0 & post & E & F & Ik & _ & _ & ->); inversion E; subst; [reflexivity|].
              inversion F as [|? ? P _]; subst. destruct (P En) as [_ Q]. specialize (Q Is). congruence.
        -- rewrite IH. apply Skip; [|intros [_ ?]; congruence]. intros _. auto.
        -- split; [discriminate|]. intros ([|x pre] & k0 & post & E & F & Ik & _ & Nk & ->); inversion E; subst; [congruence|].
           inversion F as [|? ? P _]; subst. destruct (P En) as [_ Q]. specialize (Q Is). congruence.
      * rewrite IH. assert (Ni : ~ issued lib t k c) by (rewrite issued_iff; intros [_ ?]; congruence).
        apply Skip; [|tauto]. intros _. split; [assumption|]. intros; contradiction.
    + split; [discriminate|]. intros ([|x pre] & k0 & post & E & F & _ & Rk & _); inversion E; subst; [congruence|].
      inversion F as [|? ? P _]; subst. destruct (P En) as [Q _]. congruence.
  - apply bytes_eqb_false in En. rewrite IH. apply Skip; [intros X; contradiction|]. intros [[X _] _]. contradiction.
Qed.

(** *** What a chain is *)
Theorem C113_chain_iff : forall roots t c chain,
  python_chain lib roots t c = Ok chain <->
  roots <> [] /\ in_order lib t c /\
  ((listed roots c /\ chain = [c]) \/
   (~ listed roots c /\
    exists pre k post, roots = pre ++ k :: post /\ issued lib t k c /\ pl_readable lib k = true /\ pl_names lib [c] k = NamesOk /\
      chain = [c; k] /\
      (* those before it *)
      forall k', In k' pre -> named lib k' c ->
        pl_readable lib k' = true /\ (~ issued lib t k' c \/ pl_names lib [c] k' = NamesViolated))).
Proof.
  intros roots t c chain. rewrite chain_search.
  assert (G : match pl_names lib [] c with
              | NamesOk => if in_store roots c then do* pl_general_names lib c in Ok [c]
                  else match try_issuers lib t 0 c (answer c) (potential_issuers lib roots [] c) with
                       | Found l => do* pl_general_names lib c in Ok l | _ => Raise EX509Verification end
              | _ => Raise EX509Verification end = Ok chain <->
    pl_names lib [] c = NamesOk /\ pl_general_names lib c = Ok tt /\
    ((listed roots c /\ chain = [c]) \/ (~ listed roots c /\
      exists pre k post, roots = pre ++ k :: post /\ issued lib t k c /\ pl_readable lib k = true /\ pl_names lib [c] k = NamesOk /\
      chain = [c; k] /\ forall k', In k' pre -> named lib k' c ->
        pl_readable lib k' = true /\ (~ issued lib t k' c \/ pl_names lib [c] k' = NamesViolated)))).
  { destruct (pl_names lib [] c) eqn:Nm; [|split; [discriminate|intros [? _]; discriminate]..].
    assert (Gn : forall l, (do* pl_general_names lib c in Ok l) = Ok chain <-> pl_general_names lib c = Ok tt /\ chain = l).
    { intros l. destruct (pl_general_names lib c) as [[]|e]; cbn [bind]; split; try discriminate.
      - intros H. inversion H. auto.
      - intros [_ ->]. reflexivity.
      - intros [? _]. discriminate. }
    destruct (in_store roots c) eqn:St.
    - apply in_store_iff in St. rewrite Gn. tauto.
    - assert (Ns : ~ listed roots c) by (rewrite <- in_store_iff; congruence).
      destruct (try_issuers lib t 0 c (answer c) (potential_issuers lib roots [] c)) as [l| |] eqn:Tr.
      + rewrite Gn. apply try_found in Tr. destruct Tr as (pre & k & post & E & F & Is & R & N1 & ->). split.
        * intros [G ->]. split; [reflexivity|]. split; [assumption|]. right. split; [assumption|].
          exists pre, k, post. repeat (split; [assumption|]). split; [reflexivity|].
          intros k' I' Nk'. rewrite Forall_forall in F. destruct (F k' I' Nk') as [R' Q']. split; [assumption|].
          destruct (valid_issuer lib t 0 k' c) eqn:V'.
          -- right. apply Q'. apply issued_iff. auto.
          -- left. rewrite issued_iff. intros [_ ?]. congruence.
        * intros (_ & G & [[L _]|(_ & pre' & k2 & post' & E' & Is' & R' & N' & -> & F')]); [contradiction|].
          split; [assumption|].
          assert (Tr' : try_issuers lib t 0 c (answer c) (potential_issuers lib roots [] c) = Found [c; k2]).
          { apply try_found. exists pre', k2, post'. repeat (split; [assumption|]). split; [|auto].
            apply Forall_forall. intros k' I' Nk'. destruct (F' k' I' Nk') as [Rk' [X|X]]; split; auto; try (intros Y; contradiction). }
          assert (Tr2 : try_issuers lib t 0 c (answer c) (potential_issuers lib roots [] c) = Found [c; k])
            by (apply try_found; exists pre, k, post; auto 10).
          congruence.
      + split; [discriminate|]. intros (_ & _ & [[L _]|(_ & pre' & k2 & post' & E' & Is' & R' & N' & -> & F')]); [contradiction|].
        assert (Tr' : try_issuers lib t 0 c (answer c) (potential_issuers lib roots [] c) = Found [c; k2]).
        { apply try_found. exists pre', k2, post'. repeat (split; [assumption|]). split; [|auto].
          apply Forall_forall. intros k' I' Nk'. destruct (F' k' I' Nk') as [Rk' [X|X]]; split; auto; try (intros Y; contradiction). }
        congruence.
      + split; [discriminate|]. intros (_ & _ & [[L _]|(_ & pre' & k2 & post' & E' & Is' & R' & N' & -> & F')]); [contradiction|].
        assert (Tr' : try_issuers lib t 0 c (answer c) (potential_issuers lib roots [] c) = Found [c; k2]).
        { apply try_found. exists pre', k2, post'. repeat (split; [assumption|]). split; [|auto].
          apply Forall_forall. intros k' I' Nk'. destruct (F' k' I' Nk') as [Rk' [X|X]]; split; auto; try (intros Y; contradiction). }
        congruence. }
  destruct roots as [|r roots]; [split; [discriminate|intros [X _]; contradiction]|].
  destruct (pl_readable lib c && valid_at t c && pl_ee_form lib c) eqn:B.
  - rewrite !andb_true_iff, valid_at_iff in B. destruct B as [[B1 B2] B3]. rewrite G. unfold in_order. split.
    + intros (N & Gn & D). split; [discriminate|]. auto 10.
    + intros (_ & (_ & _ & _ & N & Gn) & D). auto.
  - split; [discriminate|]. intros (_ & (B1 & B2 & B3 & _) & _). apply valid_at_iff in B2. rewrite B1, B2, B3 in B. discriminate.
Qed.

(** *** What is raised instead *)
Theorem C113_chain_exceptions : forall roots t c e, python_chain lib roots t c = Raise e ->
  (roots = [] /\ e = EValue) \/ (roots <> [] /\ (e = EX509Verification \/ pl_general_names lib c = Raise e)).
Proof.
  intros roots t c e H. unfold python_chain in H. destruct roots as [|r roots]; [left; inversion H; auto|]. right. split; [discriminate|].
  destruct (build_chain lib (r :: roots) [] t c); [|inversion H; auto..].
  destruct (pl_general_names lib c) as [[]|x]; cbn [bind] in H; [discriminate|]. inversion H. auto.
Qed.
End Search.

(** *** Acceptance *)
Lemma fulcio_authority : forall env now tr v k, make_verifier env now tr = Ok v -> In k (vf_fulcio v) -> authority_cert env now tr k.
Proof.
  intros env now tr v k H I. unfold make_verifier in H. inv_bind H. rename a into certs. rename Ha into G.
  inv_bind H. inversion H; subst v. cbn [vf_fulcio] in I. clear H.
  apply C14_fulcio_certificates in G. destruct G as (_ & parsed & used & F & S & ->).
  apply in_concat in I. destruct I as (cs & Ics & Ik). apply in_map_iff in Ics. destruct Ics as ((m & cs') & E & Iu). cbn in E; subst cs'.
  apply (selected_in _ _ _ _ S) in Iu. destruct Iu as [Ic St]. cbn [fst] in St.
  assert (Q : Forall2 (fun der c => e_parse_cert env der = Ok c) (cam_certs m) cs /\ In m (tr_cas tr)).
  { clear S St used. revert parsed F Ic. induction (tr_cas tr) as [|m0 ms IH]; intros parsed F Ic; inversion F as [|? p0 ? ps0 [P0 _] F0]; subst; [destruct Ic|].
    cbn [combine] in Ic. destruct Ic as [E|Ic]; [inversion E; subst; split; [assumption|left; reflexivity]|].
    destruct (IH _ F0 Ic) as [X Y]. split; [assumption|right; assumption]. }
  destruct Q as [Q Im]. destruct (Forall2_in_r _ _ _ _ _ Q k Ik) as (der & Id & Ed). exists m, der. auto.
Qed.

Lemma python_chain_shape : forall lib roots t c chain, python_chain lib roots t c = Ok chain ->
  in_order lib t c /\ ((listed roots c /\ chain = [c]) \/ (exists k, In k roots /\ issued lib t k c /\ chain = [c; k])).
Proof.
  intros lib roots t c chain H. apply C113_chain_iff in H. destruct H as (_ & O & D). split; [assumption|].
  destruct D as [D|(_ & pre & k & post & -> & Is & _ & _ & -> & _)]; [left; assumption|]. right. exists k.
  split; [apply in_or_app; right; left; reflexivity|]. auto.
Qed.

(** What the theorems about the exit status assume of chain building (Calm.v, [ce_chain]) holds of the path search. *)
Theorem C113_calm : forall lib, (forall c, quiet (pl_general_names lib c)) ->
  forall roots t c, Forall calm_cert roots -> calm_cert c -> fine tame (Forall calm_cert) (python_chain lib roots t c).
Proof.
  intros lib G roots t c Hr Hc. destruct (python_chain lib roots t c) as [chain|e] eqn:E; cbn [fine].
  - apply python_chain_shape in E. destruct E as (_ & [[_ ->]|(k & I & _ & ->)]); apply Forall_cons; try assumption; [apply Forall_nil|].
    apply Forall_cons; [exact (proj1 (Forall_forall _ _) Hr k I)|apply Forall_nil].
  - destruct (C113_chain_exceptions _ _ _ _ _ E) as [[_ ->]|(_ & [->|Q])]; [exact I..|]. specialize (G c). rewrite Q in G. exact G.
Qed.

Lemma issuer_of_two : forall c k i, ct_issuer (tl [c; k]) i ->
  i = k /\ (forall x ekus, c_exts k = Ok x -> x_eku x = Some ekus -> ~ In OID_CT ekus).
Proof.
  intros c k i (c0 & rest & x & E & X & D). cbn [tl] in E. inversion E; subst c0 rest.
  destruct D as [[-> N]|(ekus & rest' & _ & _ & Q)]; [|discriminate]. split; [reflexivity|].
  intros x' ekus X' E'. rewrite X in X'. inversion X'; subst x'. eauto.
Qed.

Definition accepted (env : Env) (ps : Parsers) (now : time) (v : Verifier) (b : Bundle) (p : policy) : Prop :=
  (exists i, verify_artifact env ps now v i b p = Ok tt) \/ (exists r, verify_dsse env ps now v b p = Ok r).
Lemma accepted_signer : forall env ps now v b p, accepted env ps now v b p -> exists times, signer_accepted env now v b p times.
Proof.
  intros env ps now v b p [(i & H)|([ty pl] & H)].
  - apply artifact_accepted_iff in H. tauto.
  - apply dsse_accepted_iff in H. tauto.
Qed.

(** If a bundle is accepted, then at every verified time its certificate was in order, and it was
    issued directly by a certificate that the trusted root lists and that was itself valid at that
    time, or it is listed itself.  If the SCT is one for a precertificate, the issuer named in it is
    such a certificate, and not one reserved for signing precertificates. *)
Theorem C113_accepted_issuer : forall env lib ps now tr v b p,
  searches env lib -> make_verifier env now tr = Ok v -> accepted env ps now v b p ->
  exists times, times <> [] /\ signer_accepted env now v b p times /\
    (forall t, In t times -> in_order lib t (b_cert b) /\
       (listed (vf_fulcio v) (b_cert b) \/ exists k, authority_cert env now tr k /\ issued lib t k (b_cert b))) /\
    (forall x s, c_exts (b_cert b) = Ok x -> x_scts x = Some [s] -> sct_entry_type s = PRE_CERTIFICATE ->
       exists t k pk tbs ms key scheme d, In t times /\ authority_cert env now tr k /\ issued lib t k (b_cert b) /\
         (forall y ekus, c_exts k = Ok y -> x_eku y = Some ekus -> ~ In OID_CT ekus) /\
         c_pubkey k = Ok pk /\ c_tbs_precert (b_cert b) = Ok tbs /\
         decode_ct d = Some (mkCt (sct_version s) 0 (Z.to_N (float_ms (sct_timestamp s))) (CT_precert (e_hash env SHA256 (pk_spki pk)) tbs) (sct_extensions s)) /\
         ct_keys now tr ms /\ registered env ms key scheme /\ e_sig_verify env scheme key (sct_signature s) d = Ok tt).
Proof.
  intros env lib ps now tr v b p Se Mv Ac. destruct (accepted_signer _ _ _ _ _ _ Ac) as (times & S). exists times.
  assert (R : vf_root v = tr) by (unfold make_verifier in Mv; inv_bind Mv; inv_bind Mv; inversion Mv; reflexivity).
  pose proof (C24_accepted_certificate _ _ _ _ _ _ S) as (Nn & Ch & (ms & x & s & d & key & sc & Ck & X & Sc & Rg & Sv & _ & e & De & Me) & _).
  rewrite R in Ck.
  split; [assumption|]. split; [assumption|]. split.
  - intros t I. destruct (Ch t I) as (_ & chain & E). rewrite Se in E. apply python_chain_shape in E.
    destruct E as (O & [[L _]|(k & Ik & Is & _)]); split; auto. right. exists k. split; [eapply fulcio_authority; eauto|assumption].
  - intros x' s' X' Sc' Ty. rewrite X in X'. inversion X'; subst x'. rewrite Sc in Sc'. inversion Sc'; subst s'.
    rewrite Ty in Me. destruct Me as (t & chain & issuer & pk & tbs & It & E & Ci & Pk & Tb & ->).
    rewrite Se in E. apply python_chain_shape in E. destruct E as (O & [[L ->]|(k & Ik & Is & ->)]).
    + destruct Ci as (c0 & rest & y & Q & _). discriminate.
    + apply issuer_of_two in Ci. destruct Ci as [-> Np].
      exists t, k, pk, tbs, ms, key, sc, d. split; [assumption|]. split; [eapply fulcio_authority; eauto|]. auto 12.
Qed.

(** So certificates whose issuer's name no listed certificate has are never accepted, nor are those
    which only reserved certificates could have issued. *)
Theorem C113_rejected : forall env lib ps now tr v b p,
  searches env lib -> make_verifier env now tr = Ok v -> ~ listed (vf_fulcio v) (b_cert b) ->
  (forall k, authority_cert env now tr k -> named lib k (b_cert b) -> pl_signed_by lib k (b_cert b) = true ->
     pl_ca_form lib 0 k = true ->
     exists x s y ekus, c_exts (b_cert b) = Ok x /\ x_scts x = Some [s] /\ sct_entry_type s = PRE_CERTIFICATE /\
       c_exts k = Ok y /\ x_eku y = Some ekus /\ In OID_CT ekus) ->
  ~ accepted env ps now v b p.
Proof.
  intros env lib ps now tr v b p Se Mv Nl H Ac.
  destruct (C113_accepted_issuer _ _ _ _ _ _ _ _ Se Mv Ac) as (times & Nn & _ & Ch & Pre).
  destruct times as [|t times]; [contradiction|]. destruct (Ch t (or_introl eq_refl)) as (_ & [L|(k & A & Is)]); [contradiction|].
  destruct Is as (N0 & _ & Cf & Sg). destruct (H k A N0 Sg Cf) as (x & s & y & ekus & X & Sc & Ty & _).
  destruct (Pre x s X Sc Ty) as (t' & k' & pk & tbs & ms & key & sc & d & _ & A' & (N' & _ & Cf' & Sg') & Np & _).
  destruct (H k' A' N' Sg' Cf') as (_ & _ & y' & ekus' & _ & _ & _ & Y' & E' & I'). exact (Np _ _ Y' E' I').
Qed.

(** So for a verifier made from a trusted root the search itself never ends verification with
    anything but a VerificationError, which closes one of the leaks listed in C30. *)
Theorem C113_search_errors_caught : forall env lib now tr v t c e,
  searches env lib -> make_verifier env now tr = Ok v ->
  (forall c' e', pl_general_names lib c' = Raise e' -> e' = EUnsupportedGeneralName) ->
  e_chain env (vf_fulcio v) t c = Raise e -> e = EX509Verification \/ e = EUnsupportedGeneralName.
Proof.
  intros env lib now tr v t c e Se Mv Gn H. rewrite Se in H. apply C113_chain_exceptions in H.
  destruct H as [[E _]|(_ & [H|H])]; [|left; assumption|right; eauto].
  unfold make_verifier in Mv. inv_bind Mv. inv_bind Mv. inversion Mv; subst v. cbn [vf_fulcio] in E. subst a.
  apply C14_fulcio_certificates in Ha. destruct Ha as [X _]. contradiction.
Qed.

(** *** Additions (cf. C75) *)

(** A certificate that cannot be mistaken for the issuer of [c]. *)
Definition unrelated (lib : PathLib) (c k : Cert) : Prop :=
  c_der k <> c_der c /\ (~ named lib k c \/ (pl_readable lib k = true /\ pl_signed_by lib k c = false)).

Lemma added_split : forall A (P : A -> Prop) l l', added P l l' -> forall pre k post, l = pre ++ k :: post ->
  exists pre' post', l' = pre' ++ k :: post' /\ forall x, In x pre' -> In x pre \/ P x.
Proof.
  intros A P l l' H. induction H as [|x l l' H IH|x l l' Px H IH]; intros pre k post E.
  - destruct pre; discriminate.
  - destruct pre as [|y pre]; inversion E; subst.
    + exists [], l'. split; [reflexivity|]. intros ? [].
    + destruct (IH _ _ _ eq_refl) as (pre' & post' & -> & Q). exists (y :: pre'), post'. split; [reflexivity|].
      intros z [->|I]; [left; left; reflexivity|]. destruct (Q z I); [left; right; assumption|right; assumption].
  - destruct (IH _ _ _ E) as (pre' & post' & -> & Q). exists (x :: pre'), post'. split; [reflexivity|].
    intros z [->|I]; [right; assumption|auto].
Qed.
Lemma added_in : forall A (P : A -> Prop) l l', added P l l' -> forall x, (In x l -> In x l') /\ (In x l' -> In x l \/ P x).
Proof.
  intros A P l l' H. induction H as [|y l l' H IH|y l l' Px H IH]; intros x; [split; auto|..]; destruct (IH x) as [I1 I2]; split.
  - intros [->|I]; [left; reflexivity|right; auto].
  - intros [->|I]; [left; left; reflexivity|destruct (I2 I); auto]. left. right. assumption.
  - right. auto.
  - intros [->|I]; auto.
Qed.

Theorem C113_added_certificates : forall lib roots roots' t c chain,
  added (unrelated lib c) roots roots' -> python_chain lib roots t c = Ok chain -> python_chain lib roots' t c = Ok chain.
Proof.
  intros lib roots roots' t c chain Ad H. apply C113_chain_iff in H. apply C113_chain_iff. destruct H as (Nn & O & D).
  split. { intros ->. inversion Ad. congruence. }
  split; [assumption|]. destruct D as [[(k & I & E) ->]|(Nl & pre & k & post & Er & Is & R & N & -> & F)].
  - left. split; [|reflexivity]. exists k. split; [apply (added_in _ _ _ _ Ad); assumption|assumption].
  - right. split.
    + intros (k' & I & E). destruct (proj2 (added_in _ _ _ _ Ad k') I) as [I'|[X _]]; [apply Nl; exists k'; auto|contradiction].
    + destruct (added_split _ _ _ _ Ad _ _ _ Er) as (pre' & post' & -> & Q). exists pre', k, post'.
      split; [reflexivity|]. repeat (split; [assumption|]). split; [reflexivity|].
      intros k' I' Nk. destruct (Q k' I') as [I|[_ [X|[X Y]]]]; [auto|contradiction|]. split; [assumption|].
      left. intros (_ & _ & _ & Z). congruence.
Qed.

(** Hence C75 with conditions on the added certificates only: *)
Theorem C113_accepted_with_more_authorities : forall env lib ps now tr tr' v v' i b p,
  searches env lib -> make_verifier env now tr = Ok v -> make_verifier env now tr' = Ok v' ->
  tr_tlogs tr' = tr_tlogs tr -> tr_ctlogs tr' = tr_ctlogs tr -> tr_tsas tr' = tr_tsas tr ->
  added (unrelated lib (b_cert b)) (vf_fulcio v) (vf_fulcio v') ->
  (verify_artifact env ps now v i b p = Ok tt -> verify_artifact env ps now v' i b p = Ok tt) /\
  (forall r, verify_dsse env ps now v b p = Ok r -> verify_dsse env ps now v' b p = Ok r).
Proof.
  intros env lib ps now tr tr' v v' i b p Se Mv Mv' E1 E2 E3 Ad.
  assert (R : vf_root v = tr) by (unfold make_verifier in Mv; inv_bind Mv; inv_bind Mv; inversion Mv; reflexivity).
  assert (R' : vf_root v' = tr') by (unfold make_verifier in Mv'; inv_bind Mv'; inv_bind Mv'; inversion Mv'; reflexivity).
  assert (S : forall times, signer_accepted env now v b p times -> signer_accepted env now v' b p times).
  { intros times (T & Nn & (chains & ct & F & Ct & Sv) & Ku & Po & (rk & Rk & En) & W).
    unfold signer_accepted, tsa_times, trusted_tsas, ct_keyring, rekor_keyring in *.
    rewrite R in T, Ct, Rk. rewrite R', E1, E2, E3.
    split; [assumption|]. split; [assumption|]. split.
    { exists chains, ct. split; [|auto]. clear Sv W T Nn. induction F as [|t ch ts chs Q F IH]; constructor; [|assumption].
      rewrite Se in *. eapply C113_added_certificates; eassumption. }
    split; [assumption|]. split; [assumption|]. split; [|assumption]. exists rk. auto. }
  split.
  - intros H. apply artifact_accepted_iff in H. apply artifact_accepted_iff. destruct H as ((times & Q) & (ms & key & dg & Rest)).
    split; [eauto|]. exists ms, key, dg. exact Rest.
  - intros [ty pl] H. apply dsse_accepted_iff in H. apply dsse_accepted_iff. destruct H as ((times & Q) & Rest). split; [eauto|]. exact Rest.
Qed.

(** *** Order (cf. C94) *)

(** no certificate was issued by two of these, and all can be read *)
Definition one_issuer (lib : PathLib) (roots : list Cert) : Prop :=
  (forall k, In k roots -> pl_readable lib k = true) /\
  (forall t c k k', In k roots -> In k' roots -> issued lib t k c -> issued lib t k' c -> k = k').

Lemma try_one : forall lib t c l, (forall k, In k l -> pl_readable lib k = true) ->
  (forall k, In k l -> issued lib t k c -> (forall k', In k' l -> issued lib t k' c -> k' = k) ->
     try_issuers lib t 0 c (answer lib c) (potential_issuers lib l [] c) =
       match answer lib c k with Found l => Found (c :: l) | NotFound => NotFound | Fatal => Fatal end) /\
  ((forall k, In k l -> ~ issued lib t k c) ->
     try_issuers lib t 0 c (answer lib c) (potential_issuers lib l [] c) = NotFound).
Proof.
  intros lib t c. unfold potential_issuers. induction l as [|a l IH]; intros R; [split; [intros k []|reflexivity]|].
  assert (Rl : forall k, In k l -> pl_readable lib k = true) by (intros; apply R; right; assumption).
  destruct (IH Rl) as [IH1 IH2]. clear IH. rewrite app_nil_r in *. cbn [filter].
  assert (Sk : forall k, In k (a :: l) -> issued lib t k c -> ~ issued lib t a c -> In k l) by (intros k [->|I] ? ?; [contradiction|assumption]).
  destruct (bytes_eqb (pl_subject lib a) (pl_issuer lib c)) eqn:En.
  - apply bytes_eqb_spec in En. cbn [try_issuers]. rewrite (R a) by (left; reflexivity). cbn [negb].
    destruct (valid_issuer lib t 0 a c) eqn:V.
    + assert (Ia : issued lib t a c) by (apply issued_iff; auto). split.
      * intros k I Is U. assert (a = k) by (apply U; [left; reflexivity|assumption]). subst k.
        destruct (answer lib c a) as [ch| |] eqn:An; try reflexivity.
        destruct (existsb (fun k => bytes_eqb (pl_subject lib k) (pl_issuer lib c) && valid_issuer lib t 0 k c) l) eqn:Ex.
        -- apply existsb_exists in Ex. destruct Ex as (k' & I' & B). apply andb_true_iff in B. destruct B as [B1 B2]. apply bytes_eqb_spec in B1.
           assert (Ik : issued lib t k' c) by (apply issued_iff; auto).
           assert (k' = a) by (apply U; [right; assumption|assumption]). subst k'.
           rewrite (IH1 a I' Is) by (intros k' Ik' Q; apply U; [right; assumption|assumption]). rewrite An. reflexivity.
        -- apply IH2. intros k' I' Q. apply issued_iff in Q. destruct Q as [Q1 Q2].
           assert (B : existsb (fun k => bytes_eqb (pl_subject lib k) (pl_issuer lib c) && valid_issuer lib t 0 k c) l = true)
             by (apply existsb_exists; exists k'; split; [assumption|]; rewrite Q2, (proj2 (bytes_eqb_spec _ _) Q1); reflexivity).
           congruence.
      * intros N. exfalso. apply (N a); [left; reflexivity|assumption].
    + assert (Na : ~ issued lib t a c) by (rewrite issued_iff; intros [_ ?]; congruence). split.
      * intros k I Is U. apply IH1; [apply Sk; assumption|assumption|]. intros k' I' Q. apply U; [right; assumption|assumption].
      * intros N. apply IH2. intros k I. apply N. right. assumption.
  - apply bytes_eqb_false in En. assert (Na : ~ issued lib t a c) by (intros [X _]; contradiction). split.
    + intros k I Is U. apply IH1; [apply Sk; assumption|assumption|]. intros k' I' Q. apply U; [right; assumption|assumption].
    + intros N. apply IH2. intros k I. apply N. right. assumption.
Qed.

Theorem C113_order_of_certificates : forall lib roots roots' t c,
  same_elements roots roots' -> one_issuer lib roots -> python_chain lib roots' t c = python_chain lib roots t c.
Proof.
  intros lib roots roots' t c Sm [R U]. rewrite !chain_search.
  assert (Sl : in_store roots' c = in_store roots c).
  { apply eq_true_iff_eq. rewrite !in_store_iff. split; intros (k & I & E); exists k; split; auto; apply Sm; assumption. }
  assert (Tr : try_issuers lib t 0 c (answer lib c) (potential_issuers lib roots' [] c) = try_issuers lib t 0 c (answer lib c) (potential_issuers lib roots [] c)).
  { assert (R' : forall k, In k roots' -> pl_readable lib k = true) by (intros k I; apply R, Sm; assumption).
    destruct (try_one lib t c roots R) as [A B]. destruct (try_one lib t c roots' R') as [A' B'].
    destruct (existsb (fun k => bytes_eqb (pl_subject lib k) (pl_issuer lib c) && valid_issuer lib t 0 k c) roots) eqn:Ex.
    - apply existsb_exists in Ex. destruct Ex as (k & I & Q). apply andb_true_iff in Q. destruct Q as [Q1 Q2]. apply bytes_eqb_spec in Q1.
      assert (Ik : issued lib t k c) by (apply issued_iff; auto).
      rewrite (A k I Ik) by (intros k' I' Q; eapply U; eassumption). apply A'; [apply Sm; assumption|assumption|].
      intros k' I' Q. eapply U; [apply Sm; eassumption|eassumption|eassumption|eassumption].
    - assert (N : forall k, In k roots -> ~ issued lib t k c).
      { intros k I Q. apply issued_iff in Q. destruct Q as [Q1 Q2].
        assert (X : existsb (fun k => bytes_eqb (pl_subject lib k) (pl_issuer lib c) && valid_issuer lib t 0 k c) roots = true)
          by (apply existsb_exists; exists k; split; [assumption|]; rewrite Q2, (proj2 (bytes_eqb_spec _ _) Q1); reflexivity).
        congruence. }
      rewrite (B N). apply B'. intros k I. apply N, Sm. assumption. }
  rewrite Tr, Sl. destruct roots as [|r roots], roots' as [|r' roots']; try reflexivity; exfalso.
  - destruct (proj2 (Sm r') (or_introl eq_refl)).
  - destruct (proj1 (Sm r) (or_introl eq_refl)).
Qed.

(** Hence C94 with a condition on the listed certificates: *)
Theorem C113_order_of_authorities : forall env lib ps now tr tr' v v',
  searches env lib -> same_root tr tr' -> well_behaved env tr -> tsas_load env tr ->
  make_verifier env now tr = Ok v -> make_verifier env now tr' = Ok v' -> one_issuer lib (vf_fulcio v) ->
  (forall i b p, verify_artifact env ps now v' i b p = verify_artifact env ps now v i b p) /\
  (forall b p, verify_dsse env ps now v' b p = verify_dsse env ps now v b p).
Proof.
  intros env lib ps now tr tr' v v' Se Sm Wb Tl Mv Mv' One.
  apply (C94_same_results env ps now tr tr' v v' Sm Wb Tl Mv Mv'). intros t c. rewrite !Se.
  destruct (C94_same_verifier env now tr tr' v Sm Mv) as (v2 & Mv2 & _ & Q). rewrite Mv' in Mv2. inversion Mv2; subst v2.
  apply C113_order_of_certificates; assumption.
Qed.

(** *** What one might expect but does not hold *)
Definition ch_issuer_with (ekus : option (list oid)) : Cert :=
  mkCert [x30; x01] true (Ok (mkExt (Some (true, true)) (Some (false, true)) ekus None None nil))
    (Ok (mkPub (KEc P384) [x03; x07])) (Ok [x31]) 0%Z 2000000000000000%Z (Ok false).
Definition ch_issuer : Cert := ch_issuer_with None.
Definition ch_pre : Cert := ch_issuer_with (Some [OID_CT]).
Definition ch_other (der : bytes) (till : time) : Cert :=
  mkCert der true (Ok (mkExt (Some (true, true)) (Some (false, true)) None None None nil))
    (Ok (mkPub (KEc P384) [x03; x09])) (Ok [x31]) 0%Z till (Ok false).
Definition ch_root : Cert := ch_other [x30; x09] 100%Z.      (* has the name of the issuer's issuer *)
Definition ch_odd : Cert := ch_other [x30; x0a] 2000000000000000%Z.  (* has the issuer's name *)
Definition ch_lib (odd_readable : bool) : PathLib :=
  mkPathLib (fun k => if bytes_eqb (c_der k) [x30; x09] then s2b "root" else if bytes_eqb (c_der k) (c_der vx_leaf) then [] else s2b "issuer")
    (fun c => if bytes_eqb (c_der c) (c_der vx_leaf) then s2b "issuer" else s2b "root")
    (fun k => if bytes_eqb (c_der k) [x30; x0a] then odd_readable else true)
    (fun c => bytes_eqb (c_der c) (c_der vx_leaf)) (fun _ k => negb (bytes_eqb (c_der k) (c_der vx_leaf)))
    (fun k c => bytes_eqb (c_der k) [x30; x01] && bytes_eqb (c_der c) (c_der vx_leaf))
    (fun _ _ => NamesOk) (fun _ => Ok tt).
Definition ch_env (lib : PathLib) (issuer : Cert) : Env :=
  let e := toy_env [(c_der issuer, issuer); (c_der vx_leaf, vx_leaf); (c_der ch_root, ch_root); (c_der ch_odd, ch_odd)] in
  mkEnv (e_hash e) (e_udecimal e) (e_load_key e) (e_sig_verify e) (e_parse_cert e) (e_self_issued e) (python_chain lib) (e_decode_tsr e) (e_tsa_verify e).
Definition ch_tr (ders : list bytes) : TrustedRootMsg :=
  mkTR TRUSTED_ROOT_0_1 (tr_tlogs vx_tr) (tr_ctlogs vx_tr) [mkCAMsg ders vx_window] (tr_tsas vx_tr).
Definition ch_v (ders : list bytes) (certs : list Cert) : Verifier := mkVerifier certs (ch_tr ders) (s2l "https://rekor.example").

(** The certificates above the issuer are not looked at: here the only listed certificate with the
    name of the issuer's issuer has long expired and did not sign the issuer's certificate. *)
Theorem C113_whole_chain_checked_refuted :
  exists env lib ps now tr v i b p k, searches env lib /\ make_verifier env now tr = Ok v /\
    verify_artifact env ps now v i b p = Ok tt /\
    (forall t k', In k' (vf_fulcio v) -> issued lib t k' (b_cert b) -> k' = k) /\
    forall k', In k' (vf_fulcio v) -> named lib k' k ->
      pl_signed_by lib k' k = false /\ forall times, signer_accepted env now v b p times -> forall t, In t times -> ~ valid_in_second t k'.
Proof.
  exists (ch_env (ch_lib true) ch_issuer), (ch_lib true), vx_parsers, vx_now, (ch_tr [c_der ch_issuer; c_der ch_root]),
    (ch_v [c_der ch_issuer; c_der ch_root] [ch_issuer; ch_root]), (In_bytes vx_input), vx_artifact1, vx_policy, ch_issuer.
  split; [intros ? ? ?; reflexivity|]. split; [vm_compute; reflexivity|]. split; [vm_compute; reflexivity|]. split.
  - intros t k' I (_ & _ & _ & Sg). destruct I as [<-|[<-|[]]]; [reflexivity|]. vm_compute in Sg. discriminate.
  - intros k' I Nm. destruct I as [<-|[<-|[]]]; [vm_compute in Nm; discriminate|]. split; [reflexivity|].
    intros times S t It (_ & X). destruct S as ((ts1 & ts2 & -> & T1 & T2) & _).
    destruct T1 as [[_ ->]|(tokens & cas & sg & Nz & _)]; [|apply Nz; reflexivity].
    destruct T2 as [[-> _]|(z & set & E & _ & _ & _ & _ & _ & ->)]; [destruct It|]. destruct It as [<-|[]].
    vm_compute in E. inversion E; subst z. vm_compute in X. apply X. reflexivity.
Qed.

(** An added certificate can do harm even if it issued nothing: here it has the issuer's name, comes
    first, and one of its extensions occurs twice.  At the end of the list it does no harm, so the
    order matters too. *)
Theorem C113_any_addition_refuted :
  exists env lib ps now tr1 tr2 v v1 v2 i b p k,
    searches env lib /\ make_verifier env now tr1 = Ok v1 /\ make_verifier env now tr2 = Ok v2 /\
    same_root tr1 tr2 /\ vf_fulcio v2 = k :: vf_fulcio v /\ vf_fulcio v1 = vf_fulcio v ++ [k] /\
    (forall t, ~ issued lib t k (b_cert b)) /\
    verify_artifact env ps now v i b p = Ok tt /\ verify_artifact env ps now v1 i b p = Ok tt /\
    verify_artifact env ps now v2 i b p = Raise ECertValidation.
Proof.
  set (tr := fun a b => mkTR TRUSTED_ROOT_0_1 (tr_tlogs vx_tr) (tr_ctlogs vx_tr) [mkCAMsg [a] vx_window; mkCAMsg [b] vx_window] (tr_tsas vx_tr)).
  exists (ch_env (ch_lib false) ch_issuer), (ch_lib false), vx_parsers, vx_now, (tr (c_der ch_issuer) (c_der ch_odd)), (tr (c_der ch_odd) (c_der ch_issuer)),
    (ch_v [c_der ch_issuer] [ch_issuer]),
    (mkVerifier [ch_issuer; ch_odd] (tr (c_der ch_issuer) (c_der ch_odd)) (s2l "https://rekor.example")),
    (mkVerifier [ch_odd; ch_issuer] (tr (c_der ch_odd) (c_der ch_issuer)) (s2l "https://rekor.example")),
    (In_bytes vx_input), vx_artifact1, vx_policy, ch_odd.
  split; [intros ? ? ?; reflexivity|]. split; [vm_compute; reflexivity|]. split; [vm_compute; reflexivity|].
  split; [repeat split; cbn; tauto|]. split; [reflexivity|]. split; [reflexivity|].
  split; [intros t (_ & _ & _ & Q); vm_compute in Q; discriminate|].
  split; [vm_compute; reflexivity|]. split; vm_compute; reflexivity.
Qed.

(** The rule for precertificate signing certificates (take the next certificate of the chain) never
    applies, although the next certificate is listed as well: verification ends with an IndexError. *)
Theorem C113_precertificate_issuer_refuted :
  exists env lib ps now tr v i b p k k',
    searches env lib /\ make_verifier env now tr = Ok v /\ vf_fulcio v = [k; k'] /\
    (forall t, (0 <= t <= 2000000000000000)%Z -> issued lib t k (b_cert b)) /\ named lib k' k /\
    (exists x ekus, c_exts k = Ok x /\ x_eku x = Some ekus /\ In OID_CT ekus) /\
    verify_artifact env ps now v i b p = Raise EIndex.
Proof.
  exists (ch_env (ch_lib true) ch_pre), (ch_lib true), vx_parsers, vx_now, (ch_tr [c_der ch_pre; c_der ch_root]),
    (ch_v [c_der ch_pre; c_der ch_root] [ch_pre; ch_root]), (In_bytes vx_input), vx_artifact1, vx_policy, ch_pre, ch_root.
  split; [intros ? ? ?; reflexivity|]. split; [vm_compute; reflexivity|]. split; [reflexivity|].
  split. { intros t Ht. split; [reflexivity|]. split; [|split; reflexivity]. unfold valid_in_second. cbn [c_not_before c_not_after ch_pre ch_issuer_with].
    split; apply Z.div_le_mono; lia. }
  split; [reflexivity|]. split; [|vm_compute; reflexivity].
  eexists. eexists. split; [reflexivity|]. split; [reflexivity|]. left. reflexivity.
Qed.

(** *** Concrete cases *)
Example ex_direct_issuer : exists v,
  make_verifier (ch_env (ch_lib true) ch_issuer) vx_now (ch_tr [c_der ch_root; c_der ch_odd; c_der ch_issuer]) = Ok v /\
  accepted (ch_env (ch_lib true) ch_issuer) vx_parsers vx_now v vx_artifact1 vx_policy /\
  accepted (ch_env (ch_lib true) ch_issuer) vx_parsers vx_now v vx_dsse1 vx_policy /\
  python_chain (ch_lib true) (vf_fulcio v) 1700000000000000%Z vx_leaf = Ok [vx_leaf; ch_issuer] /\
  python_chain (ch_lib true) (vf_fulcio v) 2100000000000000%Z vx_leaf = Raise EX509Verification /\
  one_issuer (ch_lib true) (vf_fulcio v) /\
  added (unrelated (ch_lib true) vx_leaf) [ch_issuer] (vf_fulcio v).
Proof.
  exists (ch_v [c_der ch_root; c_der ch_odd; c_der ch_issuer] [ch_root; ch_odd; ch_issuer]).
  split; [vm_compute; reflexivity|]. split; [left; exists (In_bytes vx_input); vm_compute; reflexivity|].
  split; [right; eexists; vm_compute; reflexivity|]. split; [vm_compute; reflexivity|]. split; [vm_compute; reflexivity|].
  split.
  - split; [intros k [<-|[<-|[<-|[]]]]; reflexivity|].
    assert (One : forall t c k, In k [ch_root; ch_odd; ch_issuer] -> issued (ch_lib true) t k c -> k = ch_issuer).
    { intros t c k I (_ & _ & _ & Sg). destruct I as [<-|[<-|[<-|[]]]]; [cbn in Sg; discriminate..|reflexivity]. }
    intros t c k k' I I' Is Is'. rewrite (One _ _ _ I Is), (One _ _ _ I' Is'). reflexivity.
  - apply added_new; [split; [discriminate|left; vm_compute; discriminate]|].
    apply added_new; [split; [discriminate|right; split; reflexivity]|]. apply added_old. constructor.
Qed.

(** a name nobody listed: the search fails *)
Example ex_unknown_issuer : forall i,
  verify_artifact (ch_env (ch_lib true) ch_issuer) vx_parsers vx_now (ch_v [c_der ch_root] [ch_root]) i vx_artifact1 vx_policy <> Ok tt.
Proof.
  intros i H. apply (C113_rejected (ch_env (ch_lib true) ch_issuer) (ch_lib true) vx_parsers vx_now (ch_tr [c_der ch_root])
    (ch_v [c_der ch_root] [ch_root]) vx_artifact1 vx_policy); [intros ? ? ?; reflexivity|vm_compute; reflexivity|..].
  - intros (k & [<-|[]] & E). discriminate.
  - intros k (m & der & [<-|[]] & _ & [<-|[]] & P) N. vm_compute in P. inversion P; subst k. vm_compute in N. discriminate.
  - left. eauto.
Qed.

Example ex_search_calm : forall t, fine tame (Forall calm_cert) (python_chain (ch_lib true) [ch_issuer; ch_root] t vx_leaf).
Proof.
  intros t. apply C113_calm; [intros c; exact I| |repeat split; exact I]. apply Forall_cons; [repeat split; exact I|]. apply Forall_cons; [repeat split; exact I|apply Forall_nil].
Qed.

Print Assumptions C113_chain_iff.
Print Assumptions C113_chain_exceptions.
Print Assumptions C113_calm.
Print Assumptions C113_accepted_issuer.
Print Assumptions C113_rejected.
Print Assumptions C113_search_errors_caught.
Print Assumptions C113_added_certificates.
Print Assumptions C113_accepted_with_more_authorities.
Print Assumptions C113_order_of_certificates.
Print Assumptions C113_order_of_authorities.
Print Assumptions C113_whole_chain_checked_refuted.
Print Assumptions C113_any_addition_refuted.
Print Assumptions C113_precertificate_issuer_refuted.
