(** Property C118: what the verification commands say when they fail; in particular when they ask whether the
    instance is the right one. *)
From Verif Require Import Base Codec Messages Env Keyring Checkpoint Cert Dsse KeyDetails Policy TrustedRoot SigningConfig Hashing Json Http LogEntry Bundle Verifier
  RekorClient PyText CliVerify CliHint Calm Outcomes VerifierSpec PropsVerifier PropsDsse PropsPolicy PropsBundle PropsCliVerify ToyEnv ToyBundles.

(** ** Specification *)

(** sigstore's CertValidationError is not raised by the libraries *)
Definition never {A} (r : res A) : Prop := r <> Raise ECertValidation.
Record foreign (env : Env) (ps : Parsers) : Prop := mkForeign {
  fo_sig : forall s k a b, never (e_sig_verify env s k a b);
  fo_parse : forall der, never (e_parse_cert env der);
  fo_chain : forall roots t c, never (e_chain env roots t c);
  fo_tsr : forall b, never (e_decode_tsr env b);
  fo_tsa : forall certs t m, never (e_tsa_verify env certs t m);
  fo_h1 : forall b, never (p_hashedrekord ps b);
  fo_dsse : forall b, never (p_dsse ps b);
  fo_v2 : forall b, never (p_v2 ps b) }.
Definition foreign_cert (c : Cert) : Prop := never (c_exts c) /\ never (c_pubkey c) /\ never (c_sig_pkcs1 c).

(** The times of the bundle are established (C27), and at one of them the certificate has no chain to the certificates of the
    trusted authorities, while it has one at those before. *)
Definition unchained (env : Env) (now : time) (v : Verifier) (b : Bundle) : Prop :=
  exists ts1 ts2 before t after,
    tsa_times env now (vf_root v) b ts1 /\ log_times (b_entry b) ts2 /\ ts1 ++ ts2 = before ++ t :: after /\
    (forall t', In t' before -> exists chain, e_chain env (vf_fulcio v) t' (b_cert b) = Ok chain) /\
    (e_chain env (vf_fulcio v) t (b_cert b) = Raise EX509Verification \/
     e_chain env (vf_fulcio v) t (b_cert b) = Raise EUnsupportedGeneralName).

(** an envelope in the bundle has one signature, not empty *)
Definition signed_envelope (b : Bundle) : Prop := forall m, bm_env (b_inner b) = Some m -> exists sg, em_sigs m = [sg] /\ sg <> nil.

(** ** Proofs *)

Definition other (e : exn) : Prop := e <> ECertValidation.
Notation nv r := (fine other (fun _ => True) r).
Lemma never_nv : forall A (r : res A), never r -> nv r.
Proof. intros A [a|e] H; [exact Logic.I|]. intros ->. apply H. reflexivity. Qed.
Lemma nv_never : forall A (r : res A), nv r -> never r.
Proof. intros A r H ->. apply H. reflexivity. Qed.
Lemma nv_map : forall A B (f : A -> res B) l, (forall x, nv (f x)) -> nv (map_res f l).
Proof.
  intros A B f l H. apply (fine_weaken other other (Forall (fun _ => True)) (fun _ => True)); auto.
  apply (fine_map_res (fun _ => True)); [apply Forall_any; auto|auto].
Qed.
Lemma nv_for : forall A (f : A -> res unit) l, (forall x, nv (f x)) -> nv (for_each f l).
Proof. intros A f l H. apply (fine_for_each (fun _ => True)); [apply Forall_any; auto|auto]. Qed.
Lemma nv_index : forall A (l : list A) i, nv (index_list l i).
Proof. intros. apply fine_index; [apply Forall_any; auto|discriminate]. Qed.

Create HintDb nv.
Ltac nv_step :=
  lazymatch goal with
  | |- forall _, _ => intros
  | |- fine _ _ (Ok _) => exact Logic.I
  | |- fine _ _ (Raise _) => first [solve [cbn; unfold other; discriminate] | assumption]
  | |- fine _ _ (bind _ _) => apply (fine_bind (fun _ => True)); [|intros]
  | |- fine _ _ (raise_if _ _) => apply fine_raise_if; unfold other; discriminate
  | |- fine _ _ (try_except _ _ _) => apply fine_try; [|intros]
  | |- fine _ _ (index_list _ _) => apply nv_index
  | |- fine _ _ (map_res _ _) => apply nv_map; intros
  | |- fine _ _ (for_each _ _) => apply nv_for; intros
  | |- fine _ _ (match ?x with _ => _ end) =>
      lazymatch type of x with
      | res _ => let H := fresh "F" in assert (H : fine other (fun _ => True) x); [| destruct x eqn:?; cbn [fine] in H]
      | _ => destruct x eqn:?
      end
  end.
Ltac nv_all := repeat (first [solve [eauto 3 with nv] | nv_step]).
Ltac nvu f := intros; unfold f; cbv beta zeta; nv_all.

Section Foreign.
Variable env : Env.
Variable ps : Parsers.
Hypothesis Fo : foreign env ps.

Lemma f_sig s k a b : nv (e_sig_verify env s k a b). Proof. apply never_nv, Fo. Qed.
Lemma f_parse der : nv (e_parse_cert env der). Proof. apply never_nv, (fo_parse _ _ Fo). Qed.
Lemma f_tsr b : nv (e_decode_tsr env b). Proof. apply never_nv, (fo_tsr _ _ Fo). Qed.
Lemma f_tsa c t m : nv (e_tsa_verify env c t m). Proof. apply never_nv, (fo_tsa _ _ Fo). Qed.
Lemma f_h1 b : nv (p_hashedrekord ps b). Proof. apply never_nv, (fo_h1 _ _ Fo). Qed.
Lemma f_dsse b : nv (p_dsse ps b). Proof. apply never_nv, (fo_dsse _ _ Fo). Qed.
Lemma f_v2 b : nv (p_v2 ps b). Proof. apply never_nv, (fo_v2 _ _ Fo). Qed.
Hint Resolve f_sig f_parse f_tsr f_tsa f_h1 f_dsse f_v2 : nv.
Lemma f_exts c : foreign_cert c -> nv (c_exts c). Proof. intros H. apply never_nv, H. Qed.
Lemma f_pubkey c : foreign_cert c -> nv (c_pubkey c). Proof. intros H. apply never_nv, H. Qed.
Lemma f_pkcs1 c : foreign_cert c -> nv (c_sig_pkcs1 c). Proof. intros H. apply never_nv, H. Qed.
Hint Resolve f_exts f_pubkey f_pkcs1 : nv.

Lemma n_b64decode s : nv (b64decode s). Proof. nvu b64decode. Qed.
Lemma n_py_decode s : nv (py_decode s). Proof. nvu py_decode. Qed.
Lemma n_py_encode s : nv (py_encode s). Proof. nvu py_encode. Qed.
Lemma n_decode_der s : nv (decode_der_str s). Proof. nvu decode_der_str. Qed.
Hint Resolve n_b64decode n_py_decode n_py_encode n_decode_der : nv.
Lemma n_pae a b : nv (pae a b). Proof. nvu pae. Qed.
Lemma n_make_envelope m : nv (make_envelope m). Proof. nvu make_envelope. Qed.
Hint Resolve n_pae n_make_envelope : nv.
Lemma n_envelope b : nv (bundle_envelope b). Proof. nvu bundle_envelope. Qed.
Hint Resolve n_envelope : nv.
Lemma n_signature b : nv (bundle_signature b). Proof. nvu bundle_signature. Qed.
Lemma n_tvd vm : nv (timestamp_verification_data env vm). Proof. nvu timestamp_verification_data. Qed.
Lemma n_make_ca m : nv (make_ca env m). Proof. nvu make_ca. Qed.
Hint Resolve n_signature n_tvd n_make_ca : nv.
Lemma n_tsas tr : nv (get_timestamp_authorities env tr). Proof. nvu get_timestamp_authorities. Qed.
Lemma n_fromtimestamp t : nv (fromtimestamp t). Proof. nvu fromtimestamp. Qed.
Hint Resolve n_tsas n_fromtimestamp : nv.
Lemma n_signed_loop now l t m : nv (verify_signed_timestamp_loop env now l t m).
Proof. induction l as [|ca l IH]; cbn [verify_signed_timestamp_loop]; cbv zeta; nv_all. Qed.
Hint Resolve n_signed_loop : nv.
Lemma n_collect now v b l : nv (collect_times env now v b l).
Proof. induction l as [|t l IH]; cbn [collect_times]; unfold verify_signed_timestamp; nv_all. Qed.
Hint Resolve n_collect : nv.
Lemma n_establish now v b : nv (establish_time env now v b).
Proof. unfold establish_time, verify_timestamp_authority. cbv zeta. nv_all. Qed.

Lemma n_details c : foreign_cert c -> nv (get_key_details c). Proof. nvu get_key_details. Qed.
Hint Resolve n_details : nv.
Lemma n_v2_verifier c : foreign_cert c -> nv (v2_verifier_from_certificate c). Proof. nvu v2_verifier_from_certificate. Qed.
Lemma n_prehash d : nv (get_prehash d). Proof. unfold get_prehash, get_algorithm_details. nv_all. Qed.
Lemma n_prehashed h : nv (as_prehashed h). Proof. nvu as_prehashed. Qed.
Hint Resolve n_v2_verifier n_prehash n_prehashed : nv.
Lemma n_hr_from_parts c s h : nv (hashedrekord_from_parts c s h).
Proof. unfold hashedrekord_from_parts, as_hashedrekord_algorithm. nv_all. Qed.
Hint Resolve n_hr_from_parts : nv.
Lemma n_validate_h1 b h : nv (validate_hashedrekord_v001 ps b h). Proof. nvu validate_hashedrekord_v001. Qed.
Lemma n_validate_h2 b h : foreign_cert (b_cert b) -> nv (validate_hashedrekord_v002 ps b h). Proof. nvu validate_hashedrekord_v002. Qed.
Lemma n_validate_d1 b : nv (validate_dsse_v001 env ps b). Proof. nvu validate_dsse_v001. Qed.
Lemma n_validate_d2 b : foreign_cert (b_cert b) -> nv (validate_hashedrekord_v002_dsse env ps b).
Proof. intros H. unfold validate_hashedrekord_v002_dsse, envelope_pae. nv_all. Qed.
Lemma n_dsse_verify k e : nv (dsse_verify env k e). Proof. nvu dsse_verify. Qed.
Hint Resolve n_validate_h1 n_validate_h2 n_validate_d1 n_validate_d2 n_dsse_verify : nv.

(** the policies of the commands *)
Lemma n_raw c o : foreign_cert c -> nv (get_raw_extension c o). Proof. nvu get_raw_extension. Qed.
Hint Resolve n_raw : nv.
Lemma n_ext k s c : foreign_cert c -> nv (ext_policy_verify k s c). Proof. nvu ext_policy_verify. Qed.
Lemma n_others l : nv (san_others l). Proof. induction l as [|[] l IH]; cbn [san_others]; nv_all. Qed.
Hint Resolve n_ext n_others : nv.
Lemma n_identity i iss c : foreign_cert c -> nv (identity_verify i iss c). Proof. nvu identity_verify. Qed.
Hint Resolve n_identity : nv.
Lemma n_github g c : foreign_cert c -> nv (policy_verify (github_policy g) c).
Proof.
  intros H. unfold github_policy, opt_policy. cbn [policy_verify app]. apply (fine_bind (fun _ => True)); [auto with nv|]. intros _ _.
  match goal with |- fine _ _ (_ ?l) => assert (G : forall x, In x l -> nv (policy_verify x c)) end.
  { intros x Ix. repeat (apply in_app_or in Ix; destruct Ix as [Ix|Ix]);
      match type of Ix with In _ (match ?t with _ => _ end) => destruct t; [destruct Ix as [<-|[]]|destruct Ix] end;
      cbn [policy_verify]; auto with nv. }
  revert G. match goal with |- (forall x, In x ?l -> _) -> _ => generalize l end. intros l.
  induction l as [|x l IH]; intros G; [exact Logic.I|]. apply (fine_bind (fun _ => True)); [apply G; left; reflexivity|]. intros _ _.
  apply IH. intros y Iy. apply G. right. exact Iy.
Qed.

Lemma chains_cert : forall v c ts chain, verify_chains env v c ts chain = Raise ECertValidation <->
  exists before t after, ts = before ++ t :: after /\ (forall t', In t' before -> exists ch, e_chain env (vf_fulcio v) (t_time t') c = Ok ch) /\
    (e_chain env (vf_fulcio v) (t_time t) c = Raise EX509Verification \/ e_chain env (vf_fulcio v) (t_time t) c = Raise EUnsupportedGeneralName).
Proof.
  intros v c ts. induction ts as [|t ts IH]; intros chain; cbn [verify_chains].
  - split; [discriminate|]. intros (before & t0 & after & E & _). destruct before; discriminate.
  - unfold verify_chain_at_time. pose proof (fo_chain _ _ Fo (vf_fulcio v) (t_time t) c) as Nc.
    destruct (e_chain env (vf_fulcio v) (t_time t) c) as [ch|x] eqn:E; cbn [try_except bind].
    + rewrite IH. split.
      * intros (before & t' & after & Q & Hb & Ht). exists (t :: before), t', after. rewrite Q. split; [reflexivity|]. split; [|exact Ht].
        intros t'' [<-|I']; [exists ch; exact E|apply Hb, I'].
      * intros ([|t0 before] & t' & after & Q & Hb & Ht); cbn [app] in Q; injection Q as -> ->; [destruct Ht; congruence|].
        exists before, t', after. split; [reflexivity|]. split; [|exact Ht]. intros t'' I'. apply Hb. right. exact I'.
    + split.
      * intros H. exists nil, t, ts. split; [reflexivity|]. split; [intros ? []|]. rewrite E.
        destruct (is_chain_error x) eqn:Ce; [|cbn [bind] in H; inversion H; subst x; contradiction Nc; reflexivity].
        unfold is_chain_error in Ce. apply orb_true_iff in Ce. rewrite !exn_eqb_spec in Ce. destruct Ce as [->| ->]; auto.
      * intros ([|t0 before] & t' & after & Q & Hb & Ht); cbn [app] in Q; injection Q as -> ->.
        -- rewrite E in Ht. destruct Ht as [Q|Q]; inversion Q; subst x; reflexivity.
        -- destruct (Hb t0 (or_introl eq_refl)) as (ch & Q). congruence.
Qed.

Lemma bind_never : forall A B (m : res A) (f : A -> res B), (forall a, m = Ok a -> nv (f a)) -> (bind m f = Raise ECertValidation <-> m = Raise ECertValidation).
Proof.
  intros A B m f H. destruct m as [a|e]; cbn [bind]; [|split; intros Q; inversion Q; reflexivity].
  split; [|discriminate]. intros Q. pose proof (H a eq_refl) as F. rewrite Q in F. contradiction F. reflexivity.
Qed.
Lemma try_never : forall A (m : res A), nv (try_except m is_verification_error (fun _ => Raise EVerification)).
Proof. intros A [a|e]; [exact Logic.I|]. cbn [try_except]. destruct e; cbn; unfold other; discriminate. Qed.
Hint Resolve try_never : nv.

Lemma common_cert : forall now v b p, foreign_cert (b_cert b) -> nv (policy_verify p (b_cert b)) ->
  (verify_common_signing_cert env now v b p = Raise ECertValidation <-> unchained env now v b).
Proof.
  intros now v b p Fc Np. unfold verify_common_signing_cert. cbv zeta.
  pose proof (n_establish now v b) as Ne. destruct (establish_time env now v b) as [times|e] eqn:Et; cbn [bind].
  2:{ split; [intros Q; inversion Q; subst e; contradiction Ne; reflexivity|]. intros (ts1 & ts2 & before & t & after & T1 & T2 & E & _).
      assert (Q : establish_time env now v b = Ok (map (mkTime TIMESTAMP_AUTHORITY) ts1 ++ map (mkTime TRANSPARENCY_SERVICE) ts2)) by (apply establish_time_iff; eauto).
      congruence. }
  assert (Un : unchained env now v b <-> verify_chains env v (b_cert b) times nil = Raise ECertValidation).
  { rewrite chains_cert. apply establish_time_iff in Et. destruct Et as (ts1 & ts2 & -> & T1 & T2). split.
    - intros (ts1' & ts2' & before & t & after & T1' & T2' & E & Hb & Ht).
      pose proof (tsa_log_unique _ _ _ _ _ _ _ _ T1 T2 T1' T2') as Q. rewrite <- Q in E. clear Q T1' T2' ts1' ts2'.
      assert (S0 : forall l bf x af, map t_time l = bf ++ x :: af -> exists l1 y l2, l = l1 ++ y :: l2 /\ map t_time l1 = bf /\ t_time y = x).
      { induction l as [|y l IH]; intros [|z bf] x af Q; cbn in Q; try discriminate; injection Q as Q1 Q2.
        - exists nil, y, l. auto.
        - destruct (IH _ _ _ Q2) as (l1 & y' & l2 & -> & <- & <-). exists (y :: l1), y', l2. cbn. rewrite Q1. auto. }
      destruct (S0 (map (mkTime TIMESTAMP_AUTHORITY) ts1 ++ map (mkTime TRANSPARENCY_SERVICE) ts2) before t after) as (l1 & y & l2 & El & <- & <-).
      { rewrite map_app, !map_map. cbn [t_time]. rewrite !map_id. exact E. }
      exists l1, y, l2. split; [exact El|]. split; [|exact Ht]. intros t' I'. apply Hb, in_map, I'.
    - intros (before & t & after & E & Hb & Ht). exists ts1, ts2, (map t_time before), (t_time t), (map t_time after).
      split; [exact T1|]. split; [exact T2|]. split; [|split; [|exact Ht]].
      + apply (f_equal (map t_time)) in E. rewrite !map_app, !map_map in E. cbn [t_time map] in E. rewrite !map_id in E. exact E.
      + intros t' I'. apply in_map_iff in I'. destruct I' as (y & <- & I'). auto. }
  rewrite Un. clear Un Et.
  destruct times as [|t times]; [split; discriminate|]. cbn [length Nat.ltb Nat.leb VERIFIED_TIME_THRESHOLD raise_if bind].
  apply bind_never. intros chain _. nv_all.
Qed.

Lemma artifact_cert : forall now v i b p, foreign_cert (b_cert b) -> nv (policy_verify p (b_cert b)) ->
  (verify_artifact env ps now v i b p = Raise ECertValidation <-> unchained env now v b).
Proof.
  intros now v i b p Fc Np. rewrite <- (common_cert now v b p Fc Np). unfold verify_artifact. apply bind_never. intros _ _. cbv zeta. nv_all.
Qed.
Lemma dsse_cert : forall now v b p, foreign_cert (b_cert b) -> nv (policy_verify p (b_cert b)) ->
  (verify_dsse env ps now v b p = Raise ECertValidation <-> unchained env now v b).
Proof.
  intros now v b p Fc Np. rewrite <- (common_cert now v b p Fc Np). unfold verify_dsse. apply bind_never. intros _ _. cbv zeta. nv_all.
Qed.
End Foreign.

(** ** Theorems *)

(** The verifier raises CertValidationError exactly for such bundles, and none of the later checks hides it. *)
Theorem C118_library : forall env ps now v b p,
  foreign env ps -> foreign_cert (b_cert b) -> never (policy_verify p (b_cert b)) ->
  (forall i, verify_artifact env ps now v i b p = Raise ECertValidation <-> unchained env now v b) /\
  (verify_dsse env ps now v b p = Raise ECertValidation <-> unchained env now v b).
Proof.
  intros env ps now v b p Fo Fc Np. apply never_nv in Np. split; [intros i; apply artifact_cert; assumption|apply dsse_cert; assumption].
Qed.

(** With the time of a log entry only, that is: no chain at this time. *)
Theorem C118_entry_time : forall env now v b secs set,
  vm_timestamps (bm_vm (b_inner b)) = nil -> le_promise (b_entry b) = Some set -> le_integrated_time (b_entry b) = Some secs -> secs <> 0%Z ->
  (-62135596800 <= secs <= 253402300799)%Z -> (le_kind (b_entry b) = s2l "dsse" \/ le_kind (b_entry b) = s2l "hashedrekord") -> le_version (b_entry b) = s2l "0.0.1" ->
  (unchained env now v b <->
   e_chain env (vf_fulcio v) (secs * 1000000)%Z (b_cert b) = Raise EX509Verification \/
   e_chain env (vf_fulcio v) (secs * 1000000)%Z (b_cert b) = Raise EUnsupportedGeneralName).
Proof.
  intros env now v b secs set Nt Pr It Nz R K Ve. split.
  - intros (ts1 & ts2 & before & t & after & T1 & T2 & E & _ & Ht).
    assert (ts1 = nil) by (destruct T1 as [[_ X]|(? & ? & ? & X & _)]; [exact X|contradiction]). subst ts1.
    assert (ts2 = [(secs * 1000000)%Z]).
    { destruct T2 as [[_ [Q|[Q|Q]]]|(t' & set' & It' & _ & _ & _ & _ & _ & ->)]; congruence. }
    subst ts2. destruct before as [|x before]; cbn [app] in E; [|destruct before; discriminate]. injection E as <- _. exact Ht.
  - intros H. exists nil, [(secs * 1000000)%Z], nil, (secs * 1000000)%Z, nil. split; [left; auto|]. split.
    + right. exists secs, set. auto 10.
    + split; [reflexivity|]. split; [intros ? []|exact H].
Qed.

(** What is said refines what CliVerify.v has: the same lines, the same outcome. *)
Definition lines (out : list said) : list line := flat_map (fun s => match s with S_line l => [l] | _ => nil end) out.
Lemma lines_app : forall a b, lines (a ++ b) = lines a ++ lines b.
Proof. intros a b. unfold lines. apply flat_map_app. Qed.
Lemma failed_lines : forall verbose x e, lines (fst (failed verbose x e)) = (if is_sigstore_error e then [L_fail x] else nil) /\
  snd (failed verbose x e) = if is_sigstore_error e then log_and_exit verbose e else Raise e.
Proof. intros verbose x e. unfold failed, log_and_exit_s. destruct (is_sigstore_error e); [|split; reflexivity]. cbn [fst snd]. destruct (exn_eqb e _); split; reflexivity. Qed.
Lemma loop_lines : forall env ps w verbose show v p all,
  (lines (fst (verify_loop_s env ps w verbose show v p all)), snd (verify_loop_s env ps w verbose show v p all)) = verify_loop env ps w verbose show v p all.
Proof.
  intros env ps w verbose show v p all. induction all as [|[x [h b]] all IH]; [reflexivity|]. cbn [verify_loop_s verify_loop].
  destruct (verify_common env ps w (w_when w x) v h b p) as [[st|]|e].
  - destruct (show st) as [l|e].
    + rewrite <- IH. destruct (verify_loop_s env ps w verbose show v p all) as [out r]. reflexivity.
    + destruct (failed_lines verbose x e) as [F1 F2]. destruct (failed verbose x e) as [out r]. cbn [fst snd] in *. subst r.
      change (lines (S_line (L_ok x) :: out)) with (L_ok x :: lines out). rewrite F1. destruct (is_sigstore_error e); reflexivity.
  - rewrite <- IH. destruct (verify_loop_s env ps w verbose show v p all) as [out r]. reflexivity.
  - destruct (failed_lines verbose x e) as [F1 F2]. rewrite F1, F2. destruct (is_sigstore_error e); reflexivity.
Qed.
Lemma main_lines : forall verbose o, lines (fst (main_handler_s verbose o)) = lines (fst o) /\ snd (main_handler_s verbose o) = main_handler verbose (snd o).
Proof.
  intros verbose [out r]. unfold main_handler_s, main_handler, log_and_exit_s. cbn [fst snd]. destruct r as [[]|e]; [split; reflexivity|]. cbn [try_except].
  destruct (is_sigstore_error e); [|split; reflexivity]. cbn [fst snd]. rewrite lines_app. cbn. rewrite app_nil_r. split; reflexivity.
Qed.
Lemma run_lines : forall env ps w a show p, lines (fst (run_verify_s env ps w a show p)) = fst (run_verify env ps w a show p) /\
  snd (run_verify_s env ps w a show p) = snd (run_verify env ps w a show p).
Proof.
  intros env ps w a show p. unfold run_verify_s, run_verify. destruct (collect_verification_state env w a) as [[v all]|e]; [|split; reflexivity].
  rewrite <- loop_lines. split; reflexivity.
Qed.
Theorem C118_same_lines : forall env ps w a,
  (forall identity issuer, lines (fst (verify_identity_s env ps w a identity issuer)) = fst (verify_identity env ps w a identity issuer) /\
     snd (verify_identity_s env ps w a identity issuer) = snd (verify_identity env ps w a identity issuer)) /\
  (forall g, lines (fst (verify_github_s env ps w a g)) = fst (verify_github env ps w a g) /\
     snd (verify_github_s env ps w a g) = snd (verify_github env ps w a g)).
Proof.
  intros env ps w a. split.
  - intros identity issuer. unfold verify_identity_s, verify_identity.
    destruct (main_lines (va_verbose a) (run_verify_s env ps w a show_decoded (P_identity identity (Some issuer)))) as [M1 M2].
    destruct (run_lines env ps w a show_decoded (P_identity identity (Some issuer))) as [R1 R2]. rewrite M1, M2, R1, R2.
    destruct (run_verify _ _ _ _ _ _). split; reflexivity.
  - intros g. unfold verify_github_s, verify_github. destruct (negb _); [split; reflexivity|].
    destruct (main_lines (va_verbose a) (run_verify_s env ps w a show_repr (github_policy g))) as [M1 M2].
    destruct (run_lines env ps w a show_repr (github_policy g)) as [R1 R2]. rewrite M1, M2, R1, R2.
    destruct (run_verify _ _ _ _ _ _). split; reflexivity.
Qed.

(** *** The run of the loop *)

(** what a run has said: lines about good inputs, and possibly the report of one failure *)
Definition good (s : said) : Prop := match s with S_line (L_fail _) | S_hint | S_explained _ _ => False | _ => True end.
Inductive run (env : Env) (ps : Parsers) (w : World) (verbose : bool) (v : Verifier) (p : policy) (all : list (item * (Hashed * Bundle))) : list said * res unit -> Prop :=
| run_fine : forall out r, Forall good out -> (forall e, r = Raise e -> is_sigstore_error e = false) -> run env ps w verbose v p all (out, r)
| run_failed : forall out x h b e, Forall good out -> In (x, (h, b)) all -> verify_common env ps w (w_when w x) v h b p = Raise e -> is_sigstore_error e = true ->
    run env ps w verbose v p all (out ++ (if exn_eqb e ECertValidation then [S_hint] else nil) ++ [S_line (L_fail x); S_explained e verbose], log_and_exit verbose e).

Definition shows_plain (show : Statement -> res line) : Prop :=
  forall st, (forall e, show st = Raise e -> is_sigstore_error e = false) /\ (forall l, show st = Ok l -> good (S_line l)).
Lemma decoded_plain : shows_plain show_decoded.
Proof.
  intros st. unfold show_decoded, py_decode. destruct (utf8_decode _) as [s|]; cbn [bind]; split; intros e H; inversion H; first [reflexivity|exact Logic.I].
Qed.
Lemma repr_plain : shows_plain show_repr.
Proof. intros st. unfold show_repr. split; intros e H; inversion H. exact Logic.I. Qed.

Lemma run_cons : forall env ps w verbose v p all y pre o, Forall good pre -> run env ps w verbose v p all o -> run env ps w verbose v p (y :: all) (pre ++ fst o, snd o).
Proof.
  intros env ps w verbose v p all y pre o G R. destruct R as [out r Go Rr|out x h b e Go I0 V S]; cbn [fst snd].
  - apply run_fine; [apply Forall_app; auto|exact Rr].
  - rewrite app_assoc. apply (run_failed env ps w verbose v p (y :: all) (pre ++ out) x h b e); auto; [apply Forall_app; auto|right; exact I0].
Qed.
Lemma loop_run : forall env ps w verbose show v p all, shows_plain show -> run env ps w verbose v p all (verify_loop_s env ps w verbose show v p all).
Proof.
  intros env ps w verbose show v p all Sh. induction all as [|[x [h b]] all IH]; cbn [verify_loop_s].
  - apply run_fine; [constructor|discriminate].
  - destruct (verify_common env ps w (w_when w x) v h b p) as [[st|]|e] eqn:V.
    + destruct (show st) as [l|e] eqn:S.
      * apply (run_cons _ _ _ _ _ _ _ (x, (h, b)) [S_line (L_ok x); S_line l]) in IH.
        -- destruct (verify_loop_s env ps w verbose show v p all). exact IH.
        -- apply Forall_cons; [exact Logic.I|]. apply Forall_cons; [apply (proj2 (Sh st)), S|constructor].
      * pose proof (proj1 (Sh st) _ S) as N0. unfold failed. rewrite N0.
        apply run_fine; [apply Forall_cons; [exact Logic.I|constructor]|]. intros e' Q. inversion Q; subst. exact N0.
    + apply (run_cons _ _ _ _ _ _ _ (x, (h, b)) [S_line (L_ok x)]) in IH.
      * destruct (verify_loop_s env ps w verbose show v p all). exact IH.
      * apply Forall_cons; [exact Logic.I|constructor].
    + unfold failed, log_and_exit_s. destruct (is_sigstore_error e) eqn:S.
      * apply (run_failed env ps w verbose v p ((x, (h, b)) :: all) nil x h b e); auto. left. reflexivity.
      * apply run_fine; [constructor|]. intros e' Q. inversion Q; subst. exact S.
Qed.

(** *** The commands *)

Lemma selected_fun : forall env w a v v', verifier_selected env w a v -> verifier_selected env w a v' -> v = v'.
Proof.
  intros env w a v v' (c & C & _ & M) (c' & C' & _ & M'). assert (Ok c = Ok c').
  { unfold config_selected in C, C'. destruct (va_trust_config a).
    - destruct C as (raw & text & R & T & ->), C' as (raw' & text' & R' & T' & ->). congruence.
    - destruct C as (url & -> & U), C' as (url' & -> & U'). f_equal.
      destruct U as [[U1 U2]|[U1 U2]], U' as [[U1' U2']|[U1' U2']]; try congruence; destruct (va_staging a); intuition congruence. }
  congruence.
Qed.
Lemma evidence_fun : forall env w a v x d b b', evidence env w a v x d b -> evidence env w a v x d b' -> b = b'.
Proof.
  intros env w a v x d b b' H H'. apply evidence_iff in H, H'. destruct H as (m & Cm & L), H' as (m' & Cm' & L').
  pose proof (chosen_fun _ _ _ _ _ Cm Cm'). subst m'. eapply loads_fun; eassumption.
Qed.

Section Commands.
Variable env : Env.
Variable ps : Parsers.
Variable w : World.
Hypothesis Fo : foreign env ps.

Lemma n_statement s c : nv (statement_of_bytes s c). Proof. unfold statement_of_bytes. destruct (s c); cbn; unfold other; [exact Logic.I|discriminate]. Qed.
Lemma n_matches st h : nv (matches_digest st h). Proof. unfold matches_digest. destruct (h_alg h); cbn; unfold other; first [exact Logic.I|discriminate]. Qed.
Lemma envelope_signed : forall b, signed_envelope b <-> exists o, bundle_envelope b = Ok o.
Proof.
  intros b. unfold signed_envelope, bundle_envelope. destruct (bm_env (b_inner b)) as [m|]; [|split; [eauto|discriminate]]. split.
  - intros H. destruct (H m eq_refl) as (sg & E & N0). rewrite (proj2 (C22_envelope_has_exactly_one_signature m (mkEnvelope m sg)) (conj eq_refl (conj E N0))). cbn. eauto.
  - intros (o & H) m' [= <-]. inv_bind H. apply C22_envelope_has_exactly_one_signature in Ha. exists (env_signature a). tauto.
Qed.
Lemma verify_common_cert : forall now v h b p, foreign_cert (b_cert b) -> nv (policy_verify p (b_cert b)) ->
  (verify_common env ps w now v h b p = Raise ECertValidation <-> signed_envelope b /\ unchained env now v b).
Proof.
  intros now v h b p Fc Np. rewrite envelope_signed. unfold verify_common. pose proof (n_envelope b) as Ne.
  destruct (bundle_envelope b) as [o|e] eqn:B; cbn [bind].
  2:{ split; [intros Q; inversion Q; subst e; contradiction Ne; reflexivity|]. intros [(o & Q) _]. discriminate. }
  assert (X : forall P : Prop, P <-> (exists o', Ok o = Ok o') /\ P) by (intros P; split; [eauto|tauto]). rewrite <- X. clear X. destruct o as [evp|].
  - rewrite <- (dsse_cert env ps Fo now v b p Fc Np). apply bind_never. intros [ty pl] _.
    apply (fine_bind (fun _ => True)); [apply fine_raise_if; discriminate|]. intros _ _.
    apply (fine_bind (fun _ => True)); [apply n_statement|]. intros st _. apply (fine_bind (fun _ => True)); [apply n_matches|]. intros ok _.
    apply (fine_bind (fun _ => True)); [apply fine_raise_if; discriminate|]. intros _ _. exact Logic.I.
  - rewrite <- (artifact_cert env ps Fo now v (In_hashed h) b p Fc Np). apply bind_never. intros _ _. exact Logic.I.
Qed.

(** what the command has said, whatever the policy *)
Lemma command_hint : forall a show p, shows_plain show ->
  (forall v x d b, evidence env w a v x d b -> foreign_cert (b_cert b) /\ nv (policy_verify p (b_cert b))) ->
  let out := fst (main_handler_s (va_verbose a) (run_verify_s env ps w a show p)) in
  In S_hint out <-> exists v x d b, In (S_line (L_fail x)) out /\ verifier_selected env w a v /\ digest_of env w x d /\ evidence env w a v x d b /\
    signed_envelope b /\ unchained env (w_when w x) v b.
Proof.
  intros a show p Sh Fc out.
  assert (M : forall o s, (s = S_hint \/ exists x, s = S_line (L_fail x)) -> (In s (fst (main_handler_s (va_verbose a) o)) <-> In s (fst o))).
  { intros [o r] s Hs. unfold main_handler_s, log_and_exit_s. cbn [fst snd]. destruct r as [u|e]; [tauto|]. destruct (is_sigstore_error e); [|tauto]. cbn [fst].
    rewrite in_app_iff. cbn [In]. split; [|tauto]. intros [H|[H|[]]]; [exact H|]. destruct Hs as [->|(x & ->)]; discriminate. }
  unfold out. rewrite M by auto. unfold run_verify_s at 1. split.
  - destruct (collect_verification_state env w a) as [[v all]|e] eqn:C; [|intros []].
    destruct (collect_sound _ _ _ _ _ C) as (items & _ & _ & V & _ & E).
    pose proof (loop_run env ps w (va_verbose a) show v p all Sh) as R. intros I0.
    inversion R as [o r G N0 Q|o x h b e G Ix Vc S Q]; rewrite <- Q in I0; cbn [fst] in I0.
    + rewrite Forall_forall in G. destruct (G _ I0).
    + apply in_app_or in I0. destruct I0 as [I0|I0]; [rewrite Forall_forall in G; destruct (G _ I0)|].
      destruct (exn_eqb e ECertValidation) eqn:Ee; [apply exn_eqb_spec in Ee; subst e|destruct I0 as [I0|[I0|[]]]; discriminate].
      destruct (E _ _ _ Ix) as (d & -> & Dg & Ev). destruct (Fc _ _ _ _ Ev) as [F1 F2]. apply verify_common_cert in Vc; auto.
      exists v, x, d, b. split; [|tauto]. apply M; [right; eauto|]. unfold run_verify_s. rewrite C, <- Q. cbn [fst]. apply in_or_app. right. right. left. reflexivity.
  - intros (v0 & x0 & d0 & b0 & I0 & V0 & D0 & E0 & Se & Un). apply (proj1 (M _ _ (or_intror (ex_intro _ x0 eq_refl)))) in I0. unfold run_verify_s in I0. revert I0.
    destruct (collect_verification_state env w a) as [[v all]|e] eqn:C; [|intros []]. intros I0.
    destruct (collect_sound _ _ _ _ _ C) as (items & _ & _ & V & _ & E). pose proof (selected_fun _ _ _ _ _ V V0). subst v0.
    pose proof (loop_run env ps w (va_verbose a) show v p all Sh) as R.
    inversion R as [o r G N0 Q|o x h b e G Ix Vc S Q]; rewrite <- Q in I0; cbn [fst] in I0 |- *.
    + rewrite Forall_forall in G. destruct (G _ I0).
    + apply in_app_or in I0. destruct I0 as [I0|I0]; [rewrite Forall_forall in G; destruct (G _ I0)|].
      assert (x0 = x). { apply in_app_or in I0. destruct I0 as [I0|[I0|[I0|[]]]]; [destruct (exn_eqb e ECertValidation) in I0; [destruct I0 as [I0|[]]; discriminate|destruct I0]|congruence|discriminate]. }
      subst x0. destruct (E _ _ _ Ix) as (d & -> & Dg & Ev). pose proof (digest_fun _ _ _ _ _ Dg D0). subst d0.
      pose proof (evidence_fun _ _ _ _ _ _ _ _ Ev E0). subst b0. destruct (Fc _ _ _ _ Ev) as [F1 F2].
      pose proof (proj2 (verify_common_cert (w_when w x) v (mkHashed HA_SHA2_256 d) b p F1 F2) (conj Se Un)) as Vc'.
      assert (e = ECertValidation) by congruence. subst e. apply in_or_app. right. left. reflexivity.
Qed.

Variable a : VerifyArgs.
Hypothesis Fp : forall der c, e_parse_cert env der = Ok c -> foreign_cert c.
Lemma Fc : forall v x d b, evidence env w a v x d b -> foreign_cert (b_cert b).
Proof.
  intros v x d b H. assert (M : exists m, make_bundle env m = Ok b).
  { destruct H as [(_ & p & raw & _ & _ & H)|(_ & cp & sp & pem & cert & raw & text & sig & req & e & _ & _ & _ & _ & _ & _ & _ & _ & _ & H)].
    - unfold bundle_from_json in H. inv_bind H. eauto.
    - unfold from_parts in H. apply bind_ok_inv in H. destruct H as (sg & _ & H). unfold from_parts_ in H.
      apply bind_ok_inv in H. destruct H as (ts & _ & H). apply bind_ok_inv in H. destruct H as ([ms ev] & _ & H).
      apply bind_ok_inv in H. destruct H as (der & _ & H). eauto. }
  destruct M as (m & M). unfold make_bundle in M. apply bind_ok_inv in M. destruct M as (u & _ & M). apply bind_ok_inv in M. destruct M as (c & Ha0 & M).
  assert (C : b_cert b = c) by (repeat (inv_bind M); inversion M; reflexivity). rewrite C. clear M C.
  unfold bundle_leaf in Ha0. destruct (_ || _)%bool.
  - destruct (vm_cert _) as [der|]; [|discriminate]. eapply Fp, Ha0.
  - destruct (vm_chain _) as [[|d0 ds]|]; try discriminate. apply bind_ok_inv in Ha0. destruct Ha0 as (cs & Ha1 & Ha0). destruct cs as [|leaf chain]; [discriminate|]. inv_bind Ha0. inv_bind Ha0. inv_bind Ha0.
    inversion Ha0; subst c. apply map_res_ok in Ha1. inversion Ha1; subst. eapply Fp; eassumption.
Qed.

(** The question about the instance comes exactly with the failure of an input whose certificate has no chain to the trusted
    authorities at an established time. *)
Theorem C118_hint_identity : forall identity issuer,
  let out := fst (verify_identity_s env ps w a identity issuer) in
  In S_hint out <-> exists v x d b, In (S_line (L_fail x)) out /\ verifier_selected env w a v /\ digest_of env w x d /\ evidence env w a v x d b /\
    signed_envelope b /\ unchained env (w_when w x) v b.
Proof.
  intros identity issuer. apply command_hint; [exact decoded_plain|]. intros v x d b Ev. pose proof (Fc _ _ _ _ Ev) as F. split; [exact F|].
  cbn [policy_verify]. apply n_identity, F.
Qed.
Theorem C118_hint_github : forall g,
  let out := fst (verify_github_s env ps w a g) in
  In S_hint out <-> exists v x d b, In (S_line (L_fail x)) out /\ verifier_selected env w a v /\ digest_of env w x d /\ evidence env w a v x d b /\
    signed_envelope b /\ unchained env (w_when w x) v b.
Proof.
  intros g. unfold verify_github_s. destruct (negb _).
  - cbn [fst In]. split; [intros []|]. intros (v & x & d & b & [] & _).
  - apply command_hint; [exact repr_plain|]. intros v x d b Ev. pose proof (Fc _ _ _ _ Ev) as F. split; [exact F|]. apply n_github, F.
Qed.
End Commands.

(** *** Explanations *)

(** A failure reported for an input is explained and ends the command with status 1: once, or twice with [--verbose]. *)
Definition explains (s : said) : bool := match s with S_explained _ _ => true | _ => false end.
Lemma command_explained : forall env ps w a show p x, shows_plain show ->
  let o := main_handler_s (va_verbose a) (run_verify_s env ps w a show p) in
  In (S_line (L_fail x)) (fst o) -> exists e, is_sigstore_error e = true /\
    filter explains (fst o) = repeat (S_explained e (va_verbose a)) (if va_verbose a then 2 else 1) /\
    snd o = (if va_verbose a then Raise e else Raise (ESystemExit 1)) /\ exit_status (snd o) = 1.
Proof.
  intros env ps w a show p x Sh o. subst o. unfold run_verify_s. destruct (collect_verification_state env w a) as [[v all]|e].
  2:{ unfold main_handler_s, log_and_exit_s. cbn [fst snd]. destruct (is_sigstore_error e); cbn [fst app]; [intros [H|[]]; discriminate|intros []]. }
  destruct (loop_run env ps w (va_verbose a) show v p all Sh) as [o r G N0|o x' h b e G Ix Vc S].
  - intros I0. assert (I1 : In (S_line (L_fail x)) o).
    { unfold main_handler_s in I0. cbn [fst snd] in I0. destruct r as [u|e]; [exact I0|]. rewrite (N0 e eq_refl) in I0. exact I0. }
    rewrite Forall_forall in G. destruct (G _ I1).
  - intros _. exists e. split; [exact S|].
    assert (Fg : filter explains o = nil) by (clear -G; induction G as [|s o Hs _ IH]; [reflexivity|]; cbn [filter]; destruct s; cbn in *; try exact IH; destruct Hs).
    assert (Fh : forall k : bool, filter explains (if k then [S_hint] else nil) = nil) by (intros []; reflexivity).
    unfold main_handler_s, log_and_exit, log_and_exit_s. cbn [fst snd]. destruct (va_verbose a); cbn [is_sigstore_error].
    + rewrite S. cbn [fst snd log_and_exit]. rewrite !filter_app, Fg, Fh. split; [reflexivity|]. split; [reflexivity|]. destruct e; try reflexivity. discriminate S.
    + cbn [fst snd]. rewrite !filter_app, Fg, Fh. repeat split; reflexivity.
Qed.
Theorem C118_explained : forall env ps w a x,
  (forall identity issuer, let o := verify_identity_s env ps w a identity issuer in
     In (S_line (L_fail x)) (fst o) -> exists e, is_sigstore_error e = true /\
       filter explains (fst o) = repeat (S_explained e (va_verbose a)) (if va_verbose a then 2 else 1) /\
       snd o = (if va_verbose a then Raise e else Raise (ESystemExit 1)) /\ exit_status (snd o) = 1) /\
  (forall g, let o := verify_github_s env ps w a g in
     In (S_line (L_fail x)) (fst o) -> exists e, is_sigstore_error e = true /\
       filter explains (fst o) = repeat (S_explained e (va_verbose a)) (if va_verbose a then 2 else 1) /\
       snd o = (if va_verbose a then Raise e else Raise (ESystemExit 1)) /\ exit_status (snd o) = 1).
Proof.
  intros env ps w a x. split.
  - intros identity issuer. apply command_explained, decoded_plain.
  - intros g. cbv zeta. unfold verify_github_s. destruct (negb _); [intros []|]. apply command_explained, repr_plain.
Qed.

(** ** Expectations that do not hold, and examples *)

(** The world of PropsCliVerify.v, with bundles of another instance: no chain leads to the trusted authorities, and the timestamp
    authorities are others. *)
Definition hx_env : Env :=
  mkEnv (e_hash vx_env) (e_udecimal vx_env) (e_load_key vx_env) (e_sig_verify vx_env) (e_parse_cert vx_env) (e_self_issued vx_env)
    (fun _ _ _ => Raise EX509Verification) (e_decode_tsr vx_env) (fun _ _ _ => Raise ERfc3161).
Definition hx_world (b : Bundle) : World :=
  mkWorld (w_cwd cvx_world) (w_files cvx_world) (w_load_pem cvx_world) (fun _ => Ok (b_inner b)) (w_validate cvx_world) (w_config_json cvx_world)
    (w_config_tuf cvx_world) (w_rekor cvx_world) (w_rp cvx_world) (w_start cvx_world) (w_when cvx_world).
Definition hx_args (verbose : bool) : VerifyArgs := mkVA [s2l "a.txt"] None None None false None None false verbose.
Definition hx_run (env : Env) (b : Bundle) (verbose : bool) : list said * res unit :=
  verify_identity_s env vx_parsers (hx_world b) (hx_args verbose) (s2l "a@b.c") (s2l "https://issuer.example").
Definition hx_item : item := It_path [s2l "a.txt"].

Example ex_hint : hx_run hx_env vx_artifact1 false =
  ([S_hint; S_line (L_fail hx_item); S_explained ECertValidation false], Raise (ESystemExit 1)).
Proof. vm_compute. reflexivity. Qed.
Example ex_hint_verbose : hx_run hx_env vx_artifact1 true =
  ([S_hint; S_line (L_fail hx_item); S_explained ECertValidation true; S_explained ECertValidation true], Raise ECertValidation).
Proof. vm_compute. reflexivity. Qed.
Example ex_no_hint : hx_run vx_env vx_artifact1 false = ([S_line (L_ok hx_item)], Ok tt).
Proof. vm_compute. reflexivity. Qed.
Ltac nv_toy := repeat (first [discriminate | match goal with
  | |- never (if ?b then _ else _) => destruct b
  | |- never (match ?x with _ => _ end) => destruct x
  end]).

Example ex_foreign : foreign vx_env vx_parsers /\ foreign hx_env vx_parsers /\
  (forall der c, e_parse_cert vx_env der = Ok c -> foreign_cert c) /\ (forall der c, e_parse_cert hx_env der = Ok c -> foreign_cert c).
Proof.
  assert (Pc : forall der c, e_parse_cert vx_env der = Ok c -> foreign_cert c).
  { intros der c. cbn [e_parse_cert vx_env toy_env assoc]. destruct (bytes_eqb _ _); [intros [= <-]; repeat split; discriminate|].
    destruct (bytes_eqb _ _); [intros [= <-]; repeat split; discriminate|discriminate]. }
  assert (Sg : forall s k a b, never (toy_sig_verify s k a b)) by (intros; unfold toy_sig_verify; nv_toy).
  assert (Ps : forall der, never (e_parse_cert vx_env der)) by (intros der; cbn [e_parse_cert vx_env toy_env]; nv_toy).
  assert (Pa : forall b, never (p_hashedrekord vx_parsers b) /\ never (p_dsse vx_parsers b) /\ never (p_v2 vx_parsers b))
    by (intros b; cbn [p_hashedrekord p_dsse p_v2 vx_parsers]; repeat split; nv_toy).
  split; [|split; [|split; [exact Pc|exact Pc]]].
  - constructor; try (intros; apply Pa); [exact Sg|exact Ps| | |]; intros; cbn [e_chain e_decode_tsr e_tsa_verify vx_env toy_env]; nv_toy.
  - constructor; try (intros; apply Pa); [exact Sg|exact Ps| | |]; intros; cbn [e_chain e_decode_tsr e_tsa_verify vx_env hx_env toy_env]; nv_toy.
Qed.

(** Expected: when no chain leads from the certificate to the trusted authorities, whatever the time, the user is asked whether
    the instance is the right one.  Not when the time comes from timestamps, as with the current logs: those of another instance are
    not accepted, and this is reported before the chain is looked at. *)
Theorem C118_asked_about_other_instance_refuted :
  exists env ps w a identity issuer v x d b,
    foreign env ps /\ (forall der c, e_parse_cert env der = Ok c -> foreign_cert c) /\
    verifier_selected env w a v /\ digest_of env w x d /\ evidence env w a v x d b /\
    (forall t, e_chain env (vf_fulcio v) t (b_cert b) = Raise EX509Verification) /\
    verify_identity_s env ps w a identity issuer = ([S_line (L_fail x); S_explained EVerification false], Raise (ESystemExit 1)).
Proof.
  exists hx_env, vx_parsers, (hx_world vx_artifact2), (hx_args false), (s2l "a@b.c"), (s2l "https://issuer.example").
  destruct (collect_verification_state hx_env (hx_world vx_artifact2) (hx_args false)) as [[v all]|e] eqn:C; [|vm_compute in C; discriminate].
  pose proof (collect_sound _ _ _ _ _ C) as (items & _ & _ & V & _ & E).
  assert (A : exists h b, In (hx_item, (h, b)) all).
  { assert (Q : map fst (match collect_verification_state hx_env (hx_world vx_artifact2) (hx_args false) with Ok (_, l) => l | Raise _ => nil end) = [hx_item])
      by (vm_compute; reflexivity).
    rewrite C in Q. destruct all as [|[x [h b]] all]; [discriminate|]. cbn in Q. injection Q as -> _. exists h, b. left. reflexivity. }
  destruct A as (h & b & I0). destruct (E _ _ _ I0) as (d & -> & Dg & Ev). exists v, hx_item, d, b.
  split; [apply ex_foreign|]. split; [apply ex_foreign|]. split; [exact V|]. split; [exact Dg|]. split; [exact Ev|]. split; [reflexivity|].
  vm_compute. reflexivity.
Qed.

(** Expected: the question means that the certificate comes from elsewhere.  It is also asked when the certificate has a chain to the
    trusted authorities, but not at the time claimed for the signature: the time of a log entry, whose promise has not been checked. *)
Definition hx_late : Bundle := vx_bundle (vx_entry "hashedrekord" "0.0.1" (Some 253402300799%Z) true [x01]) nil (Some vx_ms) None.
Theorem C118_asked_only_about_other_instance_refuted :
  exists env ps w a identity issuer v x d b t chain,
    foreign env ps /\ (forall der c, e_parse_cert env der = Ok c -> foreign_cert c) /\
    verifier_selected env w a v /\ digest_of env w x d /\ evidence env w a v x d b /\
    e_chain env (vf_fulcio v) t (b_cert b) = Ok chain /\
    verify_identity_s env ps w a identity issuer = ([S_hint; S_line (L_fail x); S_explained ECertValidation false], Raise (ESystemExit 1)).
Proof.
  exists vx_env, vx_parsers, (hx_world hx_late), (hx_args false), (s2l "a@b.c"), (s2l "https://issuer.example").
  destruct (collect_verification_state vx_env (hx_world hx_late) (hx_args false)) as [[v all]|e] eqn:C; [|vm_compute in C; discriminate].
  pose proof (collect_sound _ _ _ _ _ C) as (items & _ & _ & V & _ & E).
  assert (A : exists h b, In (hx_item, (h, b)) all /\ c_not_before (b_cert b) = c_not_before vx_leaf /\ c_not_after (b_cert b) = c_not_after vx_leaf).
  { assert (Q : match collect_verification_state vx_env (hx_world hx_late) (hx_args false) with
                | Ok (_, [(x, (_, b))]) => x = hx_item /\ c_not_before (b_cert b) = c_not_before vx_leaf /\ c_not_after (b_cert b) = c_not_after vx_leaf
                | _ => False end) by (vm_compute; auto).
    rewrite C in Q. destruct all as [|[x [h b]] [|y all]]; try contradiction. destruct Q as (-> & Q). exists h, b. split; [left; reflexivity|exact Q]. }
  destruct A as (h & b & I0 & N1 & N2). destruct (E _ _ _ I0) as (d & -> & Dg & Ev).
  exists v, hx_item, d, b, (c_not_before vx_leaf), (b_cert b :: vf_fulcio v).
  split; [apply ex_foreign|]. split; [apply ex_foreign|]. split; [exact V|]. split; [exact Dg|]. split; [exact Ev|]. split.
  - cbn [e_chain vx_env toy_env]. rewrite N1, N2. reflexivity.
  - vm_compute. reflexivity.
Qed.

Print Assumptions C118_library.
Print Assumptions C118_entry_time.
Print Assumptions C118_same_lines.
Print Assumptions C118_hint_identity.
Print Assumptions C118_hint_github.
Print Assumptions C118_explained.
Print Assumptions C118_asked_about_other_instance_refuted.
Print Assumptions C118_asked_only_about_other_instance_refuted.
