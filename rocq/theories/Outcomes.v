(** Which exceptions leave the functions of the model: nothing in the library ends the process, and the
    commands end it with status 1 or 2. *)
From Verif Require Import Base Codec Messages Env Keyring Cert FloatMs Merkle Checkpoint Sct Dsse KeyDetails Policy PropsPolicy TrustedRoot
  SigningConfig Hashing Json Http Oidc Oauth LogEntry Bundle Verifier RekorClient Clients Tuf PyText CliVerify CliTrust Sign SignSteps
  Predicate CliSign CliEnv CliMain Calm.
From Verif Require Url.

Lemma fine_weaken {A} (E E' : exn -> Prop) (Q Q' : A -> Prop) r :
  fine E Q r -> (forall e, E e -> E' e) -> (forall a, Q a -> Q' a) -> fine E' Q' r.
Proof. destruct r; cbn; auto. Qed.
Lemma fine_quiet {A} (Q : A -> Prop) r : fine tame Q r -> quiet r.
Proof. intros H. apply (fine_weaken _ _ _ _ _ H); auto. Qed.
Lemma fine_bind {E : exn -> Prop} {A B} (Q : A -> Prop) (R : B -> Prop) m (f : A -> res B) :
  fine E Q m -> (forall a, Q a -> fine E R (f a)) -> fine E R (bind m f).
Proof. destruct m; cbn; auto. Qed.
Lemma fine_raise_if {E : exn -> Prop} c e : E e -> fine E (fun _ => True) (raise_if c e).
Proof. destruct c; cbn; auto. Qed.
Lemma fine_try {E : exn -> Prop} {A} (Q : A -> Prop) m cls h :
  fine E Q m -> (forall e, E e -> fine E Q (h e)) -> fine E Q (try_except m cls h).
Proof. destruct m; cbn; auto. intros H1 H2. destruct (cls e); cbn; auto. Qed.
Lemma fine_for_each {E : exn -> Prop} {A} (P : A -> Prop) body l :
  Forall P l -> (forall x, P x -> fine E (fun _ => True) (body x)) -> fine E (fun _ => True) (for_each body l).
Proof.
  intros H B. induction H as [|x l Px _ IH]; [exact I|].
  cbn. eapply fine_bind; [apply B, Px|]. intros; apply IH.
Qed.
Lemma fine_map_res {E : exn -> Prop} {A B} (P : A -> Prop) (Q : B -> Prop) f l :
  Forall P l -> (forall x, P x -> fine E Q (f x)) -> fine E (Forall Q) (map_res f l).
Proof.
  intros H G. induction H as [|x l Px _ IH]; [constructor|].
  cbn. eapply fine_bind; [apply G, Px|]. intros y Qy. eapply fine_bind; [apply IH|]. intros ys Qys. constructor; assumption.
Qed.
Lemma Forall_any {A} (P : A -> Prop) l : (forall x, P x) -> Forall P l.
Proof. intros; induction l; constructor; auto. Qed.
Lemma fine_index {E : exn -> Prop} {A} (P : A -> Prop) l i : Forall P l -> E EIndex -> fine E P (index_list l i).
Proof.
  intros H X. unfold index_list. destruct (nth_error l i) eqn:N; [|exact X].
  apply nth_error_In in N. rewrite Forall_forall in H. apply H, N.
Qed.
Lemma quiet_index {A} (l : list A) i : quiet (index_list l i).
Proof. apply fine_index; [apply Forall_any; auto|exact I]. Qed.
Lemma quiet_map_res {A B} (f : A -> res B) l : (forall x, quiet (f x)) -> quiet (map_res f l).
Proof. intros H. apply (fine_quiet (Forall (fun _ => True))). apply (fine_map_res (fun _ => True)); [apply Forall_any; auto|auto]. Qed.
Lemma quiet_for_each {A} (f : A -> res unit) l : (forall x, quiet (f x)) -> quiet (for_each f l).
Proof. intros H. apply (fine_for_each (fun _ => True)); [apply Forall_any; auto|auto]. Qed.

Global Create HintDb quiet.
Global Hint Resolve quiet_index : quiet.
Global Hint Extern 0 (tame _) => exact I : quiet.
Global Hint Extern 0 (True) => exact I : quiet.

Ltac known := solve [eauto 3 with quiet | eapply fine_quiet; eauto 3 with quiet].
Ltac q_step :=
  lazymatch goal with
  | |- forall _, _ => intros
  | |- fine _ _ (Ok _) => cbn [fine]; try solve [exact I | auto with quiet]
  | |- fine _ _ (Raise _) => cbn [fine]; try solve [exact I | assumption | cbn; auto]
  | |- fine _ _ (bind _ _) =>
      first [ eapply fine_bind; [solve [eauto 3 with quiet]|intros]
            | apply (fine_bind (fun _ => True)); [|intros] ]
  | |- fine _ _ (raise_if _ _) => apply fine_raise_if; cbn; try solve [exact I | auto]
  | |- fine _ _ (try_except _ _ _) => apply fine_try; [|intros]
  | |- fine _ _ (match ?x with _ => _ end) =>
      lazymatch type of x with
      | res _ =>
          let H := fresh "F" in
          first [ eassert (H : fine _ _ x) by (solve [eauto 3 with quiet]); destruct x eqn:?; cbn [fine] in H
                | eassert (H : fine tame (fun _ => True) x); [| destruct x eqn:?; cbn [fine] in H] ]
      | _ => destruct x eqn:?
      end
  | |- fine _ (fun _ => True) (map_res _ _) => apply quiet_map_res; intros
  | |- fine _ (fun _ => True) (for_each _ _) => apply quiet_for_each; intros
  end.
Ltac q := repeat (first [known | q_step]).
Ltac qu f := intros; unfold f; cbv beta zeta; q.

(** ** Codecs and JSON *)
Lemma q_b64decode s : quiet (b64decode s). Proof. qu b64decode. Qed.
Global Hint Resolve q_b64decode : quiet.
Lemma q_py_encode s : quiet (py_encode s). Proof. qu py_encode. Qed.
Lemma q_py_decode s : quiet (py_decode s). Proof. qu py_decode. Qed.
Lemma q_decode_der_str s : quiet (decode_der_str s). Proof. qu decode_der_str. Qed.
Global Hint Resolve q_py_encode q_py_decode q_decode_der_str : quiet.
Lemma q_raise_for_status r : quiet (raise_for_status r). Proof. qu raise_for_status. Qed.
Lemma q_resp_json r : quiet (resp_json r). Proof. qu resp_json. Qed.
Lemma q_py_item v k : quiet (py_item v k). Proof. qu py_item. Qed.
Lemma q_py_nth v k : quiet (py_nth v k). Proof. qu py_nth. Qed.
Lemma q_py_items v : quiet (py_items v). Proof. qu py_items. Qed.
Lemma q_py_iter v : quiet (py_iter v). Proof. qu py_iter. Qed.
Global Hint Resolve q_raise_for_status q_resp_json q_py_item q_py_nth q_py_items q_py_iter : quiet.
Lemma q_py_len v : quiet (py_len v). Proof. qu py_len. Qed.
Lemma q_py_tail v n : quiet (py_tail v n). Proof. qu py_tail. Qed.
Lemma q_py_fromhex v : quiet (py_fromhex v). Proof. qu py_fromhex. Qed.
Lemma q_py_b64decode v : quiet (py_b64decode v). Proof. qu py_b64decode. Qed.
Lemma q_py_encode_json v : quiet (py_encode_json v). Proof. qu py_encode_json. Qed.
Global Hint Resolve q_py_len q_py_tail q_py_fromhex q_py_b64decode q_py_encode_json : quiet.

(** ** Certificates *)
Lemma q_exts c : calm_cert c -> quiet (c_exts c). Proof. intros H; apply H. Qed.
Lemma q_pubkey c : calm_cert c -> quiet (c_pubkey c). Proof. intros H; apply H. Qed.
Lemma q_tbs c : calm_cert c -> quiet (c_tbs_precert c). Proof. intros H; apply H. Qed.
Lemma q_pkcs1 c : calm_cert c -> quiet (c_sig_pkcs1 c). Proof. intros H; apply H. Qed.
Global Hint Resolve q_exts q_pubkey q_tbs q_pkcs1 : quiet.

Global Hint Resolve ce_sig ce_parse ce_chain ce_tsr ce_tsa : quiet.

Lemma q_cert_is_ca c : calm_cert c -> quiet (cert_is_ca c). Proof. qu cert_is_ca. Qed.
Global Hint Resolve q_cert_is_ca : quiet.
Lemma q_cert_is_root_ca env c : calm_cert c -> quiet (cert_is_root_ca env c).
Proof.
  intros. unfold cert_is_root_ca. eapply fine_bind; [apply fine_raise_if; exact I|]. intros _ _.
  eapply fine_bind; [apply q_cert_is_ca; assumption|]. intros [] _; [|exact I]. cbn. destruct (e_self_issued env c); exact I.
Qed.
Lemma q_cert_is_leaf c : calm_cert c -> quiet (cert_is_leaf c). Proof. qu cert_is_leaf. Qed.
Global Hint Resolve q_cert_is_root_ca q_cert_is_leaf : quiet.
Lemma q_get_key_details c : calm_cert c -> quiet (get_key_details c). Proof. qu get_key_details. Qed.
Lemma q_get_algorithm_details d : quiet (get_algorithm_details d). Proof. qu get_algorithm_details. Qed.
Global Hint Resolve q_get_key_details q_get_algorithm_details : quiet.
Lemma q_get_prehash d : quiet (get_prehash d). Proof. qu get_prehash. Qed.
Global Hint Resolve q_get_prehash : quiet.

(** ** Keys *)
Section Env.
Variable env : Env.
Hypothesis CE : calm_env env.
Hint Resolve CE : quiet.

Lemma q_load_der b c : quiet (load_der_public_key env b c).
Proof. unfold load_der_public_key. destruct (e_load_key env b); q. Qed.
Hint Resolve q_load_der : quiet.
Lemma q_make_key m : quiet (make_key env m). Proof. qu make_key. Qed.
Lemma q_key_verify k s d : quiet (key_verify env k s d). Proof. qu key_verify. Qed.
Hint Resolve q_make_key q_key_verify : quiet.
Lemma q_keyring_add ms : forall acc, quiet (keyring_add env acc ms).
Proof. induction ms; intros; cbn [keyring_add]; q. Qed.
Lemma q_make_keyring ms : quiet (make_keyring env ms). Proof. apply q_keyring_add. Qed.
Hint Resolve q_make_keyring : quiet.
Lemma q_try_candidates cs s d : quiet (try_candidates env cs s d).
Proof. induction cs; cbn [try_candidates]; q. Qed.
Hint Resolve q_try_candidates : quiet.
Lemma q_keyring_verify kr i s d : quiet (keyring_verify env kr i s d). Proof. qu keyring_verify. Qed.
Hint Resolve q_keyring_verify : quiet.

(** ** Log entries *)
Lemma q_merkle H e : quiet (verify_merkle_inclusion H e). Proof. qu verify_merkle_inclusion. Qed.
Lemma q_parse_signature p : quiet (parse_signature p). Proof. qu parse_signature. Qed.
Hint Resolve q_merkle q_parse_signature : quiet.
Lemma q_note_from_text t : quiet (note_from_text t). Proof. qu note_from_text. Qed.
Lemma q_pydantic_str s : quiet (pydantic_str s). Proof. qu pydantic_str. Qed.
Hint Resolve q_note_from_text q_pydantic_str : quiet.
Lemma q_checkpoint_from_text t : quiet (checkpoint_from_text env t). Proof. qu checkpoint_from_text. Qed.
Hint Resolve q_checkpoint_from_text : quiet.
Lemma q_signed_checkpoint t : quiet (signed_checkpoint_from_text env t). Proof. qu signed_checkpoint_from_text. Qed.
Hint Resolve q_signed_checkpoint : quiet.
Lemma q_verify_sigs kr i n l : quiet (verify_sigs env kr i n l).
Proof. induction l; cbn [verify_sigs]; q. Qed.
Hint Resolve q_verify_sigs : quiet.
Lemma q_note_verify kr i n : quiet (note_verify env kr i n). Proof. qu note_verify. Qed.
Hint Resolve q_note_verify : quiet.
Lemma q_verify_checkpoint kr e : quiet (verify_checkpoint env kr e). Proof. qu verify_checkpoint. Qed.
Hint Resolve q_verify_checkpoint : quiet.
Lemma q_json_int z : quiet (LogEntry.json_int z). Proof. qu LogEntry.json_int. Qed.
Hint Resolve q_json_int : quiet.
Lemma q_encode_canonical e : quiet (encode_canonical e). Proof. qu encode_canonical. Qed.
Hint Resolve q_encode_canonical : quiet.
Lemma q_verify_set kr e : quiet (verify_set env kr e). Proof. qu verify_set. Qed.
Hint Resolve q_verify_set : quiet.
Lemma q_entry_verify kr e : quiet (entry_verify env kr e). Proof. qu entry_verify. Qed.
Hint Resolve q_entry_verify : quiet.
Lemma q_entry_validate e : quiet (entry_validate e). Proof. qu entry_validate. Qed.
Hint Resolve q_entry_validate : quiet.
Lemma q_make_entry e : quiet (make_entry e). Proof. qu make_entry. Qed.
Hint Resolve q_make_entry : quiet.

(** ** SCTs *)
Lemma q_pack_uint w z : quiet (pack_uint w z). Proof. qu pack_uint. Qed.
Hint Resolve q_pack_uint : quiet.
Lemma q_pack_u24 z : quiet (pack_u24 z). Proof. qu pack_u24. Qed.
Hint Resolve q_pack_u24 : quiet.
Lemma q_pack_signed_entry s c i : calm_cert c -> quiet (pack_signed_entry s c i). Proof. qu pack_signed_entry. Qed.
Hint Resolve q_pack_signed_entry : quiet.
Lemma q_pack_digitally_signed s c i : calm_cert c -> quiet (pack_digitally_signed s c i). Proof. qu pack_digitally_signed. Qed.
Hint Resolve q_pack_digitally_signed : quiet.
Lemma q_is_preissuer c : calm_cert c -> quiet (is_preissuer c). Proof. qu is_preissuer. Qed.
Hint Resolve q_is_preissuer : quiet.
Lemma q_get_issuer_cert l : Forall calm_cert l -> fine tame calm_cert (get_issuer_cert l).
Proof.
  intros H. unfold get_issuer_cert. eapply fine_bind; [apply (fine_index calm_cert _ _ H); exact I|]. intros c Hc.
  eapply fine_bind; [apply q_is_preissuer, Hc|]. intros [] _; [apply fine_index; [exact H|exact I]|exact Hc].
Qed.
Hint Resolve q_get_issuer_cert : quiet.
Lemma q_get_sct c : calm_cert c -> quiet (get_sct c). Proof. qu get_sct. Qed.
Lemma q_sct_cert_is_ca c : calm_cert c -> quiet (sct_cert_is_ca c). Proof. qu sct_cert_is_ca. Qed.
Hint Resolve q_get_sct q_sct_cert_is_ca : quiet.
Lemma q_verify_sct c l kr : calm_cert c -> Forall calm_cert l -> quiet (verify_sct env c l kr). Proof. qu verify_sct. Qed.
Hint Resolve q_verify_sct : quiet.

(** ** DSSE *)
Lemma q_as_prehashed h : quiet (as_prehashed h). Proof. qu as_prehashed. Qed.
Lemma q_as_hr h : quiet (as_hashedrekord_algorithm h). Proof. apply q_as_prehashed. Qed.
Lemma q_statement_of_bytes v b : quiet (statement_of_bytes v b). Proof. qu statement_of_bytes. Qed.
Lemma q_matches_digest s d : quiet (matches_digest s d). Proof. qu matches_digest. Qed.
Lemma q_builder_build d b : quiet (builder_build d b). Proof. qu builder_build. Qed.
Lemma q_make_envelope m : quiet (make_envelope m). Proof. qu make_envelope. Qed.
Lemma q_pae t b : quiet (pae t b). Proof. qu pae. Qed.
Hint Resolve q_as_prehashed q_as_hr q_statement_of_bytes q_matches_digest q_builder_build q_make_envelope q_pae : quiet.
Lemma q_envelope_pae e : quiet (envelope_pae e). Proof. apply q_pae. Qed.
Lemma q_statement_pae e : quiet (statement_pae e). Proof. apply q_pae. Qed.
Hint Resolve q_envelope_pae q_statement_pae : quiet.
Lemma q_dsse_sign f st : quiet (dsse_sign f st). Proof. qu dsse_sign. Qed.
Lemma q_dsse_verify k e : quiet (dsse_verify env k e). Proof. qu dsse_verify. Qed.
Hint Resolve q_dsse_sign q_dsse_verify : quiet.

(** ** Policies *)
Lemma q_get_raw_extension c o : calm_cert c -> quiet (get_raw_extension c o). Proof. qu get_raw_extension. Qed.
Hint Resolve q_get_raw_extension : quiet.
Lemma q_ext_policy p v c : calm_cert c -> quiet (ext_policy_verify p v c). Proof. qu ext_policy_verify. Qed.
Hint Resolve q_ext_policy : quiet.
Lemma q_san_others l : quiet (san_others l). Proof. induction l as [|[]]; cbn [san_others]; q. Qed.
Hint Resolve q_san_others : quiet.
Lemma q_identity i s c : calm_cert c -> quiet (identity_verify i s c). Proof. qu identity_verify. Qed.
Hint Resolve q_identity : quiet.

Lemma q_policy p : calm_policy p -> forall c, calm_cert c -> quiet (policy_verify p c).
Proof.
  intros HP c Hc. induction p as [k v|i iss|cs IH|cs IH| |f] using policy_ind'; cbn [policy_verify]; try solve [q].
  - induction IH as [|x l Hx _ IHl]; [exact I|]. destruct HP as [P1 P2]. specialize (Hx P1). specialize (IHl P2).
    destruct (policy_verify x c) as [u|e]; [exact I|]. cbn [fine] in Hx. destruct (is_verification_error e); assumption.
  - assert (G : quiet ((fix all l := match l with nil => Ok tt | ch :: l' => do* policy_verify ch c in all l' end) cs)).
    { induction IH as [|x l Hx _ IHl]; [exact I|]. destruct HP as [P1 P2]. specialize (Hx P1). specialize (IHl P2).
      eapply fine_bind; [exact Hx|]. intros; exact IHl. }
    destruct cs; [exact I|exact G].
Qed.
Hint Resolve q_policy : quiet.

(** ** Trusted roots *)
Lemma q_make_trusted_root m : quiet (make_trusted_root m). Proof. qu make_trusted_root. Qed.
Lemma q_rekor_keyring now tr p : quiet (rekor_keyring env now tr p). Proof. qu rekor_keyring. Qed.
Lemma q_ct_keyring now tr p : quiet (ct_keyring env now tr p). Proof. qu ct_keyring. Qed.
Hint Resolve q_make_trusted_root q_rekor_keyring q_ct_keyring : quiet.
Lemma q_make_ca m : fine tame calm_ca (make_ca env m).
Proof.
  unfold make_ca. eapply fine_bind; [apply (fine_map_res (fun _ => True)); [apply Forall_any; auto|intros; apply (ce_parse env CE)]|].
  intros certs Hc. eapply fine_bind; [apply fine_raise_if; exact I|]. intros _ _. exact Hc.
Qed.
Lemma calm_certificates now ca x : calm_ca ca -> Forall calm_cert (ca_certificates now ca x).
Proof. intros H. unfold ca_certificates. destruct (is_timerange_valid now _ x); [exact H|constructor]. Qed.
Lemma q_fulcio_certs_loop now l : fine tame (Forall calm_cert) (fulcio_certs_loop env now l).
Proof.
  induction l as [|m l IH]; cbn [fulcio_certs_loop]; [constructor|].
  eapply fine_bind; [apply q_make_ca|]. intros ca Hca. eapply fine_bind; [apply IH|]. intros rest Hr.
  cbn [fine]. apply Forall_app; split; [apply calm_certificates, Hca|exact Hr].
Qed.
Lemma q_get_fulcio_certs now tr : fine tame (Forall calm_cert) (get_fulcio_certs env now tr).
Proof.
  unfold get_fulcio_certs. eapply fine_bind; [apply q_fulcio_certs_loop|]. intros certs Hc.
  eapply fine_bind; [apply fine_raise_if; exact I|]. intros _ _. exact Hc.
Qed.
Lemma q_tsas tr : fine tame (Forall calm_ca) (get_timestamp_authorities env tr).
Proof. unfold get_timestamp_authorities. apply (fine_map_res (fun _ => True)); [apply Forall_any; auto|intros; apply q_make_ca]. Qed.
Hint Resolve q_make_ca q_get_fulcio_certs q_tsas : quiet.

(** ** Bundles *)
Lemma q_timestamp_verification_data vm : quiet (timestamp_verification_data env vm). Proof. qu timestamp_verification_data. Qed.
Hint Resolve q_timestamp_verification_data : quiet.
Lemma q_bundle_leaf m : fine tame calm_cert (bundle_leaf env m).
Proof.
  unfold bundle_leaf. destruct (_ || _)%bool; [destruct (vm_cert (bm_vm m)); [apply (ce_parse env CE)|exact I]|].
  destruct (vm_chain (bm_vm m)) as [[|d ds]|]; try exact I.
  eapply fine_bind; [apply (fine_map_res (fun _ => True)); [apply Forall_any; auto|intros; apply (ce_parse env CE)]|].
  intros [|leaf chain] Hc; [exact I|]. apply Forall_cons_iff in Hc. destruct Hc as [Hl Hch].
  eapply fine_bind; [apply q_cert_is_leaf, Hl|]. intros ok _. eapply fine_bind; [apply fine_raise_if; exact I|]. intros _ _.
  eapply fine_bind; [apply (fine_for_each calm_cert); [exact Hch|]|intros; exact Hl].
  intros x Hx. eapply fine_bind; [apply q_cert_is_root_ca, Hx|]. intros; exact I.
Qed.
Hint Resolve q_bundle_leaf : quiet.
Lemma q_make_bundle m : fine tame calm_bundle (make_bundle env m).
Proof. unfold make_bundle. q. Qed.
Hint Resolve q_make_bundle : quiet.
Lemma q_bundle_from_json parse raw : (forall b, quiet (parse b)) -> fine tame calm_bundle (bundle_from_json env parse raw).
Proof. intros P. unfold bundle_from_json. q. Qed.
Lemma q_bundle_envelope b : quiet (bundle_envelope b). Proof. qu bundle_envelope. Qed.
Hint Resolve q_bundle_from_json q_bundle_envelope : quiet.
Lemma q_bundle_signature b : quiet (bundle_signature b). Proof. qu bundle_signature. Qed.
Lemma q_to_parts b : quiet (to_parts b). Proof. qu to_parts. Qed.
Hint Resolve q_bundle_signature q_to_parts : quiet.
Lemma q_from_parts_ c x e ts : fine tame calm_bundle (from_parts_ env c x e ts). Proof. qu from_parts_. Qed.
Hint Resolve q_from_parts_ : quiet.
Lemma q_from_parts c s e : fine tame calm_bundle (from_parts env c s e). Proof. qu from_parts. Qed.
Hint Resolve q_from_parts : quiet.

(** ** The verifier *)
Variable ps : Parsers.
Hypothesis CP : calm_parsers ps.
Lemma q_p_h1 b : quiet (p_hashedrekord ps b). Proof. apply CP. Qed.
Lemma q_p_dsse b : quiet (p_dsse ps b). Proof. apply CP. Qed.
Lemma q_p_v2 b : quiet (p_v2 ps b). Proof. apply CP. Qed.
Hint Resolve q_p_h1 q_p_dsse q_p_v2 : quiet.
Lemma q_hr_from_parts c s h : quiet (hashedrekord_from_parts c s h). Proof. qu hashedrekord_from_parts. Qed.
Lemma q_v2_verifier c : calm_cert c -> quiet (v2_verifier_from_certificate c). Proof. qu v2_verifier_from_certificate. Qed.
Hint Resolve q_hr_from_parts q_v2_verifier : quiet.
Lemma q_make_verifier now tr : fine tame calm_verifier (make_verifier env now tr).
Proof. unfold make_verifier. q. Qed.
Lemma q_fromtimestamp t : quiet (fromtimestamp t). Proof. qu fromtimestamp. Qed.
Hint Resolve q_make_verifier q_fromtimestamp : quiet.
Lemma q_signed_timestamp_loop now l t m : Forall calm_ca l -> quiet (verify_signed_timestamp_loop env now l t m).
Proof.
  intros H. induction H as [|ca l Hca _ IH]; cbn [verify_signed_timestamp_loop]; [exact I|].
  pose proof (ce_tsa env CE _ t m (calm_certificates now ca true Hca)) as T. cbv zeta.
  destruct (Nat.ltb _ 2); [exact IH|]. destruct (e_tsa_verify env _ t m); cbn [fine] in T; q.
Qed.
Hint Resolve q_signed_timestamp_loop : quiet.
Lemma q_verify_signed_timestamp now v t m : quiet (verify_signed_timestamp env now v t m). Proof. qu verify_signed_timestamp. Qed.
Hint Resolve q_verify_signed_timestamp : quiet.
Lemma q_collect_times now v b l : quiet (collect_times env now v b l). Proof. induction l; cbn [collect_times]; q. Qed.
Hint Resolve q_collect_times : quiet.
Lemma q_verify_tsa now v b : quiet (verify_timestamp_authority env now v b). Proof. qu verify_timestamp_authority. Qed.
Hint Resolve q_verify_tsa : quiet.
Lemma q_establish_time now v b : quiet (establish_time env now v b). Proof. qu establish_time. Qed.
Hint Resolve q_establish_time : quiet.
Lemma q_chain_at v c t : calm_verifier v -> calm_cert c -> fine tame (Forall calm_cert) (verify_chain_at_time env v c t).
Proof.
  intros HV HC. unfold verify_chain_at_time. eapply fine_bind; [apply fine_try; [apply (ce_chain env CE); assumption|intros; exact I]|].
  intros l Hl. cbn [fine]. destruct Hl; [constructor|assumption].
Qed.
Lemma q_chains v c ts : calm_verifier v -> calm_cert c -> forall l, Forall calm_cert l -> fine tame (Forall calm_cert) (verify_chains env v c ts l).
Proof.
  intros HV HC. induction ts; intros l Hl; cbn [verify_chains]; [exact Hl|].
  eapply fine_bind; [apply q_chain_at; assumption|]. auto.
Qed.
Lemma q_common now v b p : calm_verifier v -> calm_bundle b -> calm_policy p -> quiet (verify_common_signing_cert env now v b p).
Proof.
  intros HV HB HP. unfold verify_common_signing_cert. cbv zeta.
  eapply fine_bind; [apply q_establish_time|]. intros times _. eapply fine_bind; [apply fine_raise_if; exact I|]. intros _ _.
  eapply fine_bind; [apply (q_chains v (b_cert b) times HV HB nil); constructor|]. intros chain Hch.
  pose proof (q_policy p HP _ HB). q.
Qed.
Hint Resolve q_common : quiet.
Lemma q_dsse_v001 b : quiet (validate_dsse_v001 env ps b). Proof. qu validate_dsse_v001. Qed.
Lemma q_h1 b h : quiet (validate_hashedrekord_v001 ps b h). Proof. qu validate_hashedrekord_v001. Qed.
Lemma q_h2_dsse b : calm_bundle b -> quiet (validate_hashedrekord_v002_dsse env ps b). Proof. unfold calm_bundle. qu validate_hashedrekord_v002_dsse. Qed.
Lemma q_h2 b h : calm_bundle b -> quiet (validate_hashedrekord_v002 ps b h). Proof. unfold calm_bundle. qu validate_hashedrekord_v002. Qed.
Hint Resolve q_dsse_v001 q_h1 q_h2_dsse q_h2 : quiet.
Lemma q_verify_dsse now v b p : calm_verifier v -> calm_bundle b -> calm_policy p -> quiet (verify_dsse env ps now v b p).
Proof. intros HV HB HP. pose proof (q_pubkey _ HB). unfold verify_dsse. q. Qed.
Lemma q_verify_artifact now v i b p : calm_verifier v -> calm_bundle b -> calm_policy p -> quiet (verify_artifact env ps now v i b p).
Proof. intros HV HB HP. pose proof (q_pubkey _ HB). unfold verify_artifact. q. Qed.

(** ** Clients *)
Variable rp : RekorParsers.
Hypothesis CR : calm_rp rp.
Lemma q_rp1 b : quiet (rp_proposed rp b). Proof. apply CR. Qed.
Lemma q_rp2 b : quiet (rp_entry rp b). Proof. apply CR. Qed.
Lemma q_field_u64 s : quiet (field_u64 rp s). Proof. qu field_u64. Qed.
Lemma q_field_b64 s : quiet (field_b64 s). Proof. qu field_b64. Qed.
Lemma q_field_str s : quiet (field_str s). Proof. qu field_str. Qed.
Hint Resolve q_rp1 q_rp2 q_field_u64 q_field_b64 q_field_str : quiet.
Lemma q_from_v1 v : quiet (from_v1_response rp v). Proof. qu from_v1_response. Qed.
Hint Resolve q_from_v1 : quiet.
Lemma q_check_status r : quiet (check_status r). Proof. qu check_status. Qed.
Hint Resolve q_check_status : quiet.
Lemma q_oldest l : forall o, quiet (oldest_loop rp l o). Proof. induction l; intros; cbn [oldest_loop]; q. Qed.
Hint Resolve q_oldest : quiet.
Section Http.
Variable http : http_request EntryRequest -> res response.
Hypothesis CH : forall r, quiet (http r).
Hint Resolve CH : quiet.
Lemma q_entries_get u a b : quiet (entries_get rp http u a b). Proof. qu entries_get. Qed.
Lemma q_log_info j : quiet (log_info j). Proof. qu log_info. Qed.
Hint Resolve q_log_info : quiet.
Lemma q_log_get u : quiet (log_get http u). Proof. qu log_get. Qed.
Lemma q_create_v1 u r : quiet (create_entry_v1 rp http u r). Proof. qu create_entry_v1. Qed.
Lemma q_create_v2 u r : quiet (create_entry_v2 rp http u r). Proof. qu create_entry_v2. Qed.
Lemma q_retrieve u r : quiet (retrieve_post rp http u r). Proof. qu retrieve_post. Qed.
End Http.
Lemma q_hr1 h s c : quiet (build_hashed_rekord_request_v1 h s c). Proof. qu build_hashed_rekord_request_v1. Qed.
Lemma q_d1 e c : quiet (build_dsse_request_v1 e c). Proof. qu build_dsse_request_v1. Qed.
Lemma q_hr2 h s c : calm_cert c -> quiet (build_hashed_rekord_request_v2 h s c). Proof. qu build_hashed_rekord_request_v2. Qed.
Lemma q_d2 e c : calm_cert c -> quiet (build_dsse_request_v2 env e c). Proof. qu build_dsse_request_v2. Qed.

Lemma q_request_timestamp build http u s : (forall b, quiet (build b)) -> (forall r, quiet (http r)) -> quiet (request_timestamp env build http u s).
Proof. intros B H. unfold request_timestamp. q. Qed.
End Env.

Lemma q_urlsplit ul d u : quiet (Url.urlsplit ul d u).
Proof.
  unfold Url.urlsplit. destruct (Url.split_scheme _ _) as [s r]. destruct (Url.split_netloc r) as [n r']. destruct (Url.netloc_ok ul n); [|exact I].
  destruct (Url.cut_or _ r') as [r2 f]. destruct (Url.cut_or _ r2). exact I.
Qed.
Lemma q_urljoin ul b u : quiet (Url.urljoin ul b u).
Proof.
  unfold Url.urljoin. destruct b as [|b0 b]; [exact I|]. destruct u as [|u0 u]; [exact I|]. eapply fine_bind; [apply q_urlsplit|]. intros x _.
  destruct (Url.split_params _ _) as [bp bs]. eapply fine_bind; [apply q_urlsplit|]. intros y _. destruct (Url.split_params _ _) as [p ps].
  destruct (_ || _); [exact I|]. destruct (_ && _); [exact I|]. cbv zeta. destruct p; destruct ps; exact I.
Qed.
Global Hint Resolve q_urljoin : quiet.

Section Fulcio.
Variable ul : Url.UrlLib.
Variable load_pem : bytes -> res Cert.
Variable http : http_request FulcioRequest -> res response.
Hypothesis CL : forall b, fine tame calm_cert (load_pem b).
Hypothesis CH : forall r, quiet (http r).
Hint Resolve CL CH : quiet.
Lemma q_error_message r : quiet (fulcio_error_message r). Proof. qu fulcio_error_message. Qed.
Lemma q_load_text v : fine tame calm_cert (load_text load_pem v). Proof. qu load_text. Qed.
Hint Resolve q_error_message q_load_text : quiet.
Lemma q_load_texts l : fine tame (Forall calm_cert) (map_res (load_text load_pem) l).
Proof. apply (fine_map_res (fun _ => True)); [apply Forall_any; auto|intros; apply q_load_text]. Qed.
Hint Resolve q_load_texts : quiet.
Lemma q_fulcio_post u c t : fine tame (fun x => calm_cert (fst x) /\ Forall calm_cert (snd x)) (fulcio_post ul load_pem http u c t).
Proof. unfold fulcio_post. q. Qed.
End Fulcio.

(** ** Signing *)
Definition mfine {A} (Q : A -> Prop) (m : M A) : Prop := forall h, fine tame Q (snd (m h)).
Lemma m_bind {A B} (Q : A -> Prop) (R : B -> Prop) m (f : A -> M B) : mfine Q m -> (forall a, Q a -> mfine R (f a)) -> mfine R (mbind m f).
Proof.
  intros H G h. unfold mbind. specialize (H h). destruct (m h) as [h1 [a|e]]; cbn in *; [apply G, H|exact H].
Qed.
Lemma m_lift {A} (Q : A -> Prop) r : fine tame Q r -> mfine Q (lift r). Proof. intros H h; exact H. Qed.
Lemma m_ret {A} (Q : A -> Prop) a : Q a -> mfine Q (Sign.ret a). Proof. intros H h; exact H. Qed.
Lemma m_step {A} (Q : A -> Prop) ev f : (forall h, fine tame Q (f h)) -> mfine Q (step ev f). Proof. intros H h; exact (H h). Qed.

Fixpoint pfine {A} (Q : A -> Prop) (p : prog A) : Prop :=
  match p with P_done r => fine tame Q r | P_next _ k => forall h, pfine Q (k h) end.
Lemma p_bind {A B} (Q : A -> Prop) (R : B -> Prop) p (f : A -> prog B) : pfine Q p -> (forall a, Q a -> pfine R (f a)) -> pfine R (pbind p f).
Proof. intros H G. induction p as [[a|e]|ev k IH]; cbn in *; auto. Qed.
Lemma p_step {A} (Q : A -> Prop) ev f : (forall h, fine tame Q (f h)) -> pfine Q (pstep ev f). Proof. intros H h; exact (H h). Qed.

Definition calm_signer (s : Signer) : Prop := match sg_cert s with Some c => calm_cert c | None => True end.

Lemma q_validity t now : quiet (token_in_validity_period t now).
Proof. unfold token_in_validity_period, in_validity_period, claim_le_now, now_lt_claim. q. Qed.

Section Signing.
Variable libs : SignLibs.
Variable out : Outside.
Hypothesis CL : calm_libs libs.
Hypothesis CO : calm_outside out.

Lemma q_request s csr h :
  fine tame (fun x => calm_cert (fst x) /\ Forall calm_cert (snd x))
    (fulcio_post (l_url libs) (l_pem libs) (o_fulcio out h) (cp_fulcio (sg_ctx s)) csr (it_raw (sg_token s))).
Proof. apply q_fulcio_post; [apply (cl_pem _ CL)|apply (co_fulcio _ CO)]. Qed.
Lemma q_create_entry h c r : quiet (create_entry libs out h c r).
Proof. destruct c; [apply q_create_v1|apply q_create_v2]; solve [apply CL | apply CO | intros; apply (co_log _ CO)]. Qed.
Lemma q_tsa h u s : quiet (request_timestamp (l_env libs) (o_tsa_query out h) (o_tsa out h) u s).
Proof. apply q_request_timestamp; [apply CL|apply (co_query _ CO)|apply (co_tsa _ CO)]. Qed.
Lemma q_build_dsse c e cert : calm_cert cert -> quiet (build_dsse_request libs c e cert).
Proof. intros H. destruct c; [apply q_d1|apply q_d2; exact H]. Qed.
Lemma q_build_hr c h s cert : calm_cert cert -> quiet (build_hashed_rekord_request c h s cert).
Proof. intros H. destruct c; [apply q_hr1|apply q_hr2; exact H]. Qed.

Lemma m_private_key s : mfine (fun _ => True) (private_key out s).
Proof. unfold private_key. destruct (sg_key s); [apply m_ret; exact I|apply m_step; intros; exact I]. Qed.
Lemma m_signer_cert s : calm_signer s -> mfine calm_cert (signer_cert libs out s).
Proof.
  unfold calm_signer, signer_cert. destruct (sg_cert s) as [c|]; intros H.
  - eapply m_bind; [apply (m_step (fun _ => True)); intros; exact I|]. intros now _.
    destruct (_ <? _)%Z; [apply m_lift; exact I|apply m_ret; exact H].
  - eapply m_bind; [apply (m_step (fun _ => True)); intros; exact I|]. intros now _.
    eapply m_bind; [apply m_lift, q_validity|]. intros ok _. destruct (negb ok); [apply m_lift; exact I|].
    eapply m_bind; [eapply (m_bind (fun _ => True) (fun _ => True)); [apply m_private_key|intros; apply m_ret; exact I]|]. intros csr _.
    eapply m_bind; [apply m_step; intros; apply q_request|]. intros cc [H1 H2].
    eapply m_bind; [apply (m_step (fun _ => True)); intros; exact I|]. intros now2 _.
    eapply m_bind; [apply m_lift, q_ct_keyring|]. intros kr _.
    eapply m_bind; [apply m_lift, q_verify_sct; [apply CL|exact H1|exact H2]|]. intros _ _. apply m_ret, H1.
Qed.
Lemma m_make_signer t c b : mfine calm_signer (make_signer libs out t c b).
Proof.
  unfold make_signer. destruct b; [|apply m_ret; exact I].
  eapply m_bind; [apply (m_step (fun _ => True)); intros; exact I|]. intros k _.
  eapply m_bind; [apply m_signer_cert; exact I|]. intros x Hx. apply m_ret. exact Hx.
Qed.

Lemma p_private s : pfine (fun _ => True) (p_private_key out s).
Proof. unfold p_private_key. destruct (sg_key s); [exact I|intros h; exact I]. Qed.
Lemma p_cert s : calm_signer s -> pfine calm_cert (p_signer_cert libs out s).
Proof.
  unfold calm_signer, p_signer_cert. destruct (sg_cert s) as [c|]; intros H.
  - eapply p_bind; [apply (p_step (fun _ => True)); intros; exact I|]. intros now _.
    destruct (_ <? _)%Z; [exact I|exact H].
  - eapply p_bind; [apply (p_step (fun _ => True)); intros; exact I|]. intros now _.
    eapply p_bind; [apply q_validity|]. intros ok _. destruct (negb ok); [exact I|].
    eapply p_bind; [apply p_private|]. intros k _.
    eapply p_bind; [apply p_step; intros; apply q_request|]. intros cc [H1 H2].
    eapply p_bind; [apply (p_step (fun _ => True)); intros; exact I|]. intros now2 _.
    eapply p_bind; [apply q_ct_keyring|]. intros kr _.
    eapply p_bind; [apply q_verify_sct; [apply CL|exact H1|exact H2]|]. intros _ _. exact H1.
Qed.
Lemma p_tsas urls sg : forall acc, pfine (fun _ => True) (p_tsa_loop libs out urls sg acc).
Proof.
  induction urls as [|u urls IH]; intros acc; cbn [p_tsa_loop]; [exact I|].
  intros h. pose proof (q_tsa h u sg) as T. destruct (request_timestamp _ _ _ u sg); cbn in T; [apply IH|].
  destruct (exn_eqb e ETimestamp); [apply IH|exact T].
Qed.
Lemma p_fin s c x r : pfine calm_bundle (p_finalize libs out s c x r).
Proof.
  unfold p_finalize. eapply p_bind; [apply p_tsas|]. intros ts _.
  eapply p_bind; [apply (p_step (fun _ => True)); intros; apply q_create_entry|]. intros e _. apply q_from_parts_, CL.
Qed.
Lemma p_operation s o : calm_signer s -> pfine calm_bundle (p_op libs out s o).
Proof.
  intros H. destruct o as [i|st]; cbn [p_op].
  - unfold p_sign_artifact. eapply p_bind; [apply p_cert, H|]. intros cert Hc. cbv zeta.
    eapply p_bind; [apply p_private|]. intros k _. eapply p_bind; [apply q_as_prehashed|]. intros _ _.
    eapply (p_bind (fun _ => True)); [unfold p_sign_prehashed; destruct (Nat.eqb _ 32); [intros h; exact I|exact I]|]. intros sg _.
    eapply p_bind; [apply q_b64decode|]. intros d _. eapply p_bind; [apply q_b64decode|]. intros sg' _.
    eapply p_bind; [apply q_build_hr, Hc|]. intros r _. apply p_fin.
  - unfold p_sign_dsse. eapply p_bind; [apply p_cert, H|]. intros cert Hc.
    eapply p_bind; [apply p_private|]. intros k _. eapply p_bind; [apply p_step; intros; apply q_dsse_sign|]. intros e _.
    eapply p_bind; [apply q_build_dsse, Hc|]. intros r _. apply p_fin.
Qed.

(** run from beginning to end *)
Lemma m_tsas urls sg : forall acc, mfine (fun _ => True) (tsa_loop libs out urls sg acc).
Proof.
  induction urls as [|u urls IH]; intros acc; cbn [tsa_loop]; [apply m_ret; exact I|].
  intros h. unfold ask_tsa, step. pose proof (q_tsa h u sg) as T. destruct (request_timestamp _ _ _ u sg); cbn in T; [apply IH|].
  destruct (exn_eqb e ETimestamp); [apply IH|exact T].
Qed.
Lemma m_fin s c x r : mfine calm_bundle (finalize_sign libs out s c x r).
Proof.
  unfold finalize_sign. eapply m_bind; [apply m_tsas|]. intros ts _.
  eapply m_bind; [apply (m_step (fun _ => True)); intros; apply q_create_entry|]. intros e _. apply m_lift, q_from_parts_, CL.
Qed.
Lemma m_operation s o : calm_signer s -> mfine calm_bundle (run_op libs out s o).
Proof.
  intros H. destruct o as [i|st]; cbn [run_op].
  - unfold sign_artifact. eapply m_bind; [apply m_signer_cert, H|]. intros cert Hc. cbv zeta.
    eapply m_bind; [apply m_private_key|]. intros k _. eapply m_bind; [apply m_lift, q_as_prehashed|]. intros _ _.
    eapply (m_bind (fun _ => True)).
    { unfold sign_prehashed. destruct (Nat.eqb _ 32); [apply m_step; intros; exact I|apply m_lift; exact I]. } intros sg _.
    eapply m_bind; [apply m_lift, q_b64decode|]. intros d _. eapply m_bind; [apply m_lift, q_b64decode|]. intros sg' _.
    eapply m_bind; [apply m_lift, q_build_hr, Hc|]. intros r _. apply m_fin.
  - unfold sign_dsse. eapply m_bind; [apply m_signer_cert, H|]. intros cert Hc.
    eapply m_bind; [apply m_private_key|]. intros k _. eapply m_bind; [apply m_step; intros; apply q_dsse_sign|]. intros e _.
    eapply m_bind; [apply m_lift, q_build_dsse, Hc|]. intros r _. apply m_fin.
Qed.
End Signing.

(** ** Identity tokens *)
Lemma q_identity_token env je raw c t1 t2 : (forall s, quiet (j_payload je s)) -> quiet (make_identity_token env je raw c t1 t2).
Proof.
  intros H. assert (V : forall n e t, quiet (in_validity_period n e t)) by (intros; unfold in_validity_period, claim_le_now, now_lt_claim; q).
  assert (G : forall k d, quiet (get_item k d)) by (intros; unfold get_item; q).
  assert (D : quiet (jwt_decode env je raw c t1)) by (unfold jwt_decode; q).
  assert (K : forall i, quiet (known_issuer i)) by (intros; unfold known_issuer; q).
  unfold make_identity_token. q.
Qed.
Lemma q_make_issuer uj http u : (forall r, quiet (http r)) -> quiet (make_issuer uj http u).
Proof. intros H. unfold make_issuer, validate_openid. cbv zeta. q. Qed.
Lemma q_exchange env se je u http oob code t1 t2 : (forall s, quiet (j_payload je s)) -> (forall r, quiet (http r)) -> quiet (exchange env se je u http oob code t1 t2).
Proof. intros H1 H2. pose proof (q_identity_token env je) as T. unfold exchange. q. Qed.

(** ** The commands *)
(** not a SystemExit with a status other than 1 and 2 *)
Definition loud (e : exn) : Prop := match e with ESystemExit n => n = 1 \/ n = 2 | _ => True end.
Notation ends r := (fine loud (fun _ => True) r).
Lemma tame_loud e : tame e -> loud e. Proof. destruct e; cbn; auto; contradiction. Qed.
Lemma fine_loud {A} (Q : A -> Prop) r : fine tame Q r -> fine loud Q r.
Proof. intros H. apply (fine_weaken _ _ _ _ _ H); [apply tame_loud|auto]. Qed.
Lemma fine_ends {A} (Q : A -> Prop) r : fine loud Q r -> ends r.
Proof. intros H. apply (fine_weaken _ _ _ _ _ H); auto. Qed.
Lemma ends_handler v r : ends r -> ends (main_handler v r).
Proof.
  destruct r as [[]|e]; intros H; [exact I|]. unfold main_handler, try_except, log_and_exit.
  destruct (is_sigstore_error e); [destruct v; [exact H|cbn; auto]|exact H].
Qed.

Section Verify.
Variable env : Env.
Variable ps : Parsers.
Variable w : World.
Hypothesis CE : calm_env env.
Hypothesis CP : calm_parsers ps.
Hypothesis CW : calm_world w.

Lemma q_file_bytes p : quiet (file_bytes w p). Proof. qu file_bytes. Qed.
Hint Resolve q_file_bytes : quiet.
Lemma q_file_text p : quiet (file_text w p). Proof. qu file_text. Qed.
Hint Resolve q_file_text : quiet.
Lemma q_file_or_digest s : quiet (file_or_digest w s). Proof. qu file_or_digest. Qed.
Lemma l_parse_inputs l : ends (parse_inputs w l).
Proof. unfold parse_inputs. apply fine_try; [apply fine_loud, quiet_map_res, q_file_or_digest|]. intros; cbn; auto. Qed.
Lemma q_get_trust_config a b c d : quiet (get_trust_config w a b c d).
Proof.
  unfold get_trust_config. destruct a; [eapply fine_bind; [apply q_file_text|intros; apply (cw_json _ CW)]|].
  destruct b as [[|]|]; try apply (cw_tuf _ CW); destruct c; apply (cw_tuf _ CW).
Qed.
Lemma l_check_materials m : ends (check_materials w m).
Proof. unfold check_materials. eapply fine_bind; [apply fine_raise_if; cbn; auto|]. intros; exact I. Qed.
Lemma l_materials_for a f : ends (materials_for w a f).
Proof.
  unfold materials_for. cbv zeta. eapply fine_bind; [apply fine_raise_if; cbn; auto|]. intros _ _.
  eapply (fine_bind (fun _ => True)); [|intros; apply l_check_materials].
  destruct (va_bundle a); [exact I|]. destruct (_ && _)%bool; [exact I|]. destruct (_ && _)%bool; cbn; auto.
Qed.
Lemma l_build_map a l : forall m, ends (build_map w a l m).
Proof.
  induction l as [|[p|h] l IH]; intros m; cbn [build_map]; [exact I| |apply IH].
  eapply fine_bind; [apply l_materials_for|]. intros; apply IH.
Qed.
Lemma l_digest_map a l : ends (digest_map w a l).
Proof.
  unfold digest_map. eapply fine_bind; [apply fine_raise_if; cbn; auto|]. intros _ _.
  eapply fine_bind; [apply (fine_loud (fun _ => True)), quiet_index|]. intros x _.
  eapply (fine_bind (fun _ => True)).
  { destruct (_ || _)%bool; [destruct (va_sig a), (va_cert a)|destruct (va_bundle a)]; exact I. }
  intros m _. eapply fine_bind; [apply l_check_materials|]. intros; exact I.
Qed.
Lemma l_load_materials v x m : fine loud (fun y => calm_bundle (snd y)) (load_materials env w v x m).
Proof.
  unfold load_materials. eapply (fine_bind (fun _ => True)).
  { destruct x; [|exact I]. eapply fine_bind; [apply (fine_loud (fun _ => True)), q_file_bytes|]. intros; exact I. }
  intros h _. destruct m as [p|cp sp].
  - eapply fine_bind; [apply (fine_loud (fun _ => True)), q_file_bytes|]. intros raw _.
    eapply fine_bind; [apply fine_loud, q_bundle_from_json; [exact CE|apply (cw_bundle _ CW)]|]. intros b Hb. exact Hb.
  - eapply fine_bind; [apply (fine_loud (fun _ => True)), q_file_bytes|]. intros pem _.
    eapply fine_bind; [apply fine_loud, (cw_pem _ CW)|]. intros cert Hc.
    eapply fine_bind; [apply (fine_loud (fun _ => True)), q_file_text|]. intros text _.
    eapply fine_bind; [apply (fine_loud (fun _ => True)), q_b64decode|]. intros sg _.
    eapply fine_bind; [apply (fine_loud (fun _ => True)), q_hr_from_parts|]. intros rq _.
    eapply fine_bind; [apply (fine_loud (fun _ => True)), q_retrieve; [apply CW|apply (cw_rekor _ CW)]|]. intros [e|] _; [|cbn; auto].
    eapply fine_bind; [apply fine_loud, q_from_parts, CE|]. intros b Hb. exact Hb.
Qed.
Lemma l_collect a :
  fine loud (fun y => calm_verifier (fst y) /\ Forall (fun z => calm_bundle (snd (snd z))) (snd y)) (collect_verification_state env w a).
Proof.
  unfold collect_verification_state. cbv zeta. eapply fine_bind; [apply l_parse_inputs|]. intros items _.
  do 4 (eapply fine_bind; [apply fine_raise_if; cbn; auto|]; intros _ _).
  eapply fine_bind; [apply l_build_map|]. intros im _.
  eapply (fine_bind (fun _ => True)); [destruct im; [apply l_digest_map|exact I]|]. intros im' _.
  eapply fine_bind; [apply (fine_loud (fun _ => True)), q_get_trust_config|]. intros c _.
  eapply fine_bind; [apply (fine_loud (fun _ => True)), q_make_trusted_root|]. intros root _.
  eapply fine_bind; [apply fine_loud, q_make_verifier, CE|]. intros v Hv.
  eapply (fine_bind (Forall (fun z => calm_bundle (snd (snd z))))).
  { apply (fine_map_res (fun _ => True)); [apply Forall_any; auto|]. intros xm _.
    eapply fine_bind; [apply l_load_materials|]. intros hb Hb. exact Hb. }
  intros all Ha. split; assumption.
Qed.
Lemma q_verify_common now v h b p : calm_verifier v -> calm_bundle b -> calm_policy p -> quiet (verify_common env ps w now v h b p).
Proof.
  intros HV HB HP. unfold verify_common. eapply fine_bind; [apply q_bundle_envelope|]. intros [e|] _.
  - eapply fine_bind; [apply q_verify_dsse; assumption|]. intros [ty pl] _. eapply fine_bind; [apply fine_raise_if; exact I|]. intros _ _.
    eapply fine_bind; [apply q_statement_of_bytes|]. intros st _. eapply fine_bind; [apply q_matches_digest|]. intros ok _.
    eapply fine_bind; [apply fine_raise_if; exact I|]. intros; exact I.
  - eapply fine_bind; [apply q_verify_artifact; assumption|]. intros; exact I.
Qed.
Lemma l_log_and_exit {A} v e : loud e -> ends (@log_and_exit A v e).
Proof. unfold log_and_exit. destruct v; cbn; auto. Qed.
Lemma l_verify_loop vb show v p all : calm_verifier v -> calm_policy p -> (forall st, quiet (show st)) ->
  Forall (fun z => calm_bundle (snd (snd z))) all -> ends (snd (verify_loop env ps w vb show v p all)).
Proof.
  intros HV HP HS HA. induction HA as [|[x [h b]] l Hb _ IH]; cbn [verify_loop]; [exact I|]. cbn [snd] in Hb.
  pose proof (q_verify_common (w_when w x) v h b p HV Hb HP) as Q.
  destruct (verify_common env ps w (w_when w x) v h b p) as [[st|]|e]; cbn [fine] in Q.
  - pose proof (HS st) as QS. destruct (show st) as [l0|e]; cbn [fine] in QS.
    + destruct (verify_loop env ps w vb show v p l) as [o r]. exact IH.
    + destruct (is_sigstore_error e); cbn [snd]; [apply l_log_and_exit, tame_loud, QS|apply tame_loud, QS].
  - destruct (verify_loop env ps w vb show v p l) as [o r]. exact IH.
  - destruct (is_sigstore_error e); cbn [snd]; [apply l_log_and_exit, tame_loud, Q|apply tame_loud, Q].
Qed.
Lemma l_run_verify a show p : calm_policy p -> (forall st, quiet (show st)) -> ends (snd (run_verify env ps w a show p)).
Proof.
  intros HP HS. unfold run_verify. pose proof (l_collect a) as C.
  destruct (collect_verification_state env w a) as [[v all]|e]; cbn [fine] in C; [|exact C].
  destruct C as [C1 C2]. apply l_verify_loop; assumption.
Qed.
Lemma l_verify_identity a i s : ends (snd (verify_identity env ps w a i s)).
Proof.
  unfold verify_identity.
  pose proof (l_run_verify a show_decoded (P_identity i (Some s)) I ltac:(intros; unfold show_decoded; q)) as R.
  destruct (run_verify env ps w a show_decoded (P_identity i (Some s))) as [o r]. apply ends_handler, R.
Qed.
Lemma calm_all l : (forall x, In x l -> calm_policy x) -> calm_policy (P_all l).
Proof.
  intros H. cbn [calm_policy]. induction l as [|x l IH]; [exact I|]. split; [apply H; left; reflexivity|].
  apply IH. intros y Hy. apply H. right; exact Hy.
Qed.
Lemma calm_opt o f : (forall s, calm_policy (f s)) -> forall x, In x (opt_policy o f) -> calm_policy x.
Proof. intros H x. unfold opt_policy. destruct (truthy o); [intros [<-|[]]; apply H|intros []]. Qed.
Lemma calm_github g : calm_policy (github_policy g).
Proof.
  unfold github_policy. apply calm_all. intros x [<-|Hx]; [exact I|].
  rewrite !in_app_iff in Hx. decompose [or] Hx; eapply calm_opt; try eassumption; intros; exact I.
Qed.
Lemma l_verify_github a g : ends (snd (verify_github env ps w a g)).
Proof.
  unfold verify_github. destruct (negb _); [cbn; auto|].
  pose proof (l_run_verify a show_repr (github_policy g) (calm_github g) ltac:(intros; exact I)) as R.
  destruct (run_verify env ps w a show_repr (github_policy g)) as [o r]. apply ends_handler, R.
Qed.
End Verify.

Section Tools.
Variable tl : Tools.
Hypothesis CT : calm_tools tl.

Lemma calm_world_at t : calm_world (world_at tl t).
Proof. destruct (ct_world _ CT). constructor; cbn; assumption. Qed.

Lemma q_mkdirs rest : forall t base, quiet (snd (mkdirs t base rest)).
Proof. induction rest as [|a r IH]; intros t base; cbn [mkdirs]; [exact I|]. destruct (kind t _) as [[]|]; try apply IH; exact I. Qed.
Lemma q_open_w t p : quiet (snd (open_w t p)).
Proof. unfold open_w. destruct (kind t p) as [[]|]; try exact I. destruct (kind t (removelast p)) as [[]|]; exact I. Qed.
Lemma l_sign_outputs a t f : ends (snd (sign_outputs tl a t f)).
Proof.
  unfold sign_outputs. destruct (negb _); [cbn; auto|]. cbv zeta. destruct (_ && _)%bool; [cbn; auto|].
  pose proof (q_mkdirs (loc tl (given (sa_output_directory a) (path_parent f))) t nil) as D.
  destruct (mkdirs t nil _) as [t1 [u|e]]; cbn in D; [|apply tame_loud, D]. destruct (_ && _)%bool; cbn; auto.
Qed.
Lemma l_output_map one : (forall t f, ends (snd (one t f))) -> forall fs t m, ends (snd (output_map one t fs m)).
Proof.
  intros H. induction fs as [|f fs IH]; intros t m; cbn [output_map]; [exact I|].
  specialize (H t f). destruct (one t f) as [t1 [o|e]]; cbn in H; [apply IH|exact H].
Qed.
Lemma l_sign_prepare a t : ends (snd (sign_prepare tl a t)).
Proof.
  unfold sign_prepare. cbv zeta. destruct (_ && _)%bool; [cbn; auto|]. destruct (_ && _)%bool; [cbn; auto|].
  destruct (_ && _)%bool; [cbn; auto|]. destruct (xorb _ _); [cbn; auto|]. apply l_output_map, l_sign_outputs.
Qed.
Lemma l_attest_outputs a t f : ends (snd (attest_outputs tl a t f)).
Proof. unfold attest_outputs. destruct (negb _); [cbn; auto|]. cbv zeta. destruct (_ && _)%bool; cbn; auto. Qed.
Lemma l_read_predicate a t : ends (read_predicate tl a t).
Proof.
  unfold read_predicate. eapply fine_bind; [apply fine_raise_if; cbn; auto|]. intros _ _.
  eapply fine_bind; [apply (fine_loud (fun _ => True)), q_file_text|]. intros text _. destruct (tl_json tl text); [|cbn; auto].
  destruct (str_eqb _ _); [|destruct (str_eqb _ _); [|cbn; auto]]; (eapply fine_bind; [apply fine_raise_if; cbn; auto|intros; exact I]).
Qed.
Lemma l_attest_prepare a t : ends (snd (attest_prepare tl a t)).
Proof.
  unfold attest_prepare. pose proof (l_read_predicate a t) as P. destruct (read_predicate tl a t) as [j|e]; cbn in P; [|exact P].
  pose proof (l_output_map (attest_outputs tl a) (l_attest_outputs a) (ca_files (aa_common a)) t nil) as R.
  destruct (output_map (attest_outputs tl a) t (ca_files (aa_common a)) nil) as [t1 [m|e]]; cbn in *; auto.
Qed.

Lemma q_signing_config a t : quiet (signing_config tl a t).
Proof. unfold signing_config. eapply fine_bind; [apply q_get_trust_config, calm_world_at|]. intros; exact I. Qed.
Lemma q_last_item l : quiet (last_item l). Proof. qu last_item. Qed.
Lemma q_valid_services now l s c : quiet (get_valid_services now l s c).
Proof.
  unfold get_valid_services. cbv zeta. eapply fine_bind; [apply quiet_map_res; intros; apply q_last_item|]. intros r _.
  destruct c as [c|]; [|exact I]. destruct (scf_selector c); try exact I; (eapply fine_bind; [apply fine_raise_if; exact I|intros; exact I]).
Qed.
Lemma q_make_signing_config now m v : quiet (make_signing_config now m v).
Proof.
  unfold make_signing_config. eapply fine_bind; [apply fine_raise_if; exact I|]. intros _ _. cbv zeta.
  eapply fine_bind; [apply q_valid_services|]. intros a _. eapply fine_bind; [apply fine_raise_if; exact I|]. intros _ _.
  eapply fine_bind; [apply q_valid_services|]. intros b _. eapply fine_bind; [apply q_valid_services|]. intros c _.
  eapply fine_bind; [apply fine_raise_if; exact I|]. intros _ _. eapply fine_bind; [apply q_valid_services|]. intros; exact I.
Qed.
Lemma q_get_oidc_url sc : quiet (get_oidc_url sc). Proof. qu get_oidc_url. Qed.
Lemma q_get_tlogs sc : quiet (get_tlogs sc). Proof. qu get_tlogs. Qed.
Lemma q_get_fulcio sc : quiet (get_fulcio sc). Proof. qu get_fulcio. Qed.
Hint Resolve q_make_trusted_root q_make_signing_config q_get_oidc_url q_get_tlogs q_get_fulcio : quiet.
Lemma q_context now c : quiet (context_from_trust_config now c). Proof. qu context_from_trust_config. Qed.
Lemma q_detect c : quiet (detect_credential (tl_detect tl) c).
Proof. unfold detect_credential. apply fine_try; [apply CT|intros; exact I]. Qed.
Lemma q_get_identity a c : quiet (get_identity tl a c).
Proof.
  unfold get_identity. eapply (fine_bind (fun _ => True)); [destruct (ca_disable_ambient a); [exact I|apply q_detect]|].
  intros tok _. assert (G : quiet (let* url := match ca_issuer a with Some u => Ok u
      | None => let* sc := make_signing_config (w_start (tl_world tl)) (ctc_signing c) (ctc_force c) in get_oidc_url sc end in
      tl_interactive tl url (ca_client_id a) (given (ca_client_secret a) nil) (ca_force_oob a))).
  { eapply (fine_bind (fun _ => True)); [destruct (ca_issuer a); [exact I|q]|]. intros; apply (ct_interactive _ CT). }
  destruct tok as [[|x r]|]; try exact G. apply (ct_token _ CT).
Qed.
Lemma q_identity_of a c : quiet (identity tl a c).
Proof. unfold identity. destruct (ca_identity_token a) as [[|]|]; try apply q_get_identity. apply (ct_token _ CT). Qed.
Lemma m_setup a t : mfine calm_signer (setup tl a t).
Proof.
  unfold setup. eapply m_bind; [apply m_lift, q_signing_config|]. intros c _. eapply m_bind; [apply m_lift, q_context|]. intros ctx _.
  eapply m_bind; [apply m_lift, q_identity_of|]. intros tok _.
  eapply m_bind; [apply m_make_signer; [apply (ct_libs _ CT)|apply (ct_out _ CT)]|]. intros s Hs.
  eapply m_bind; [apply m_signer_cert; [apply (ct_libs _ CT)|apply (ct_out _ CT)|exact Hs]|]. intros _ _. apply m_ret, Hs.
Qed.

Definition calm_phase (ph : phase) : Prop :=
  match ph with Ph_signing p => pfine calm_bundle p | Ph_failed e => tame e | _ => True end.
Lemma q_operation pr f d : quiet (operation tl pr f d).
Proof. unfold operation. destruct pr as [[ty j]|]; [|exact I]. eapply fine_bind; [apply fine_raise_if; exact I|]. intros _ _. eapply fine_bind; [apply q_builder_build|]. intros; exact I. Qed.
Lemma m_output_text s b o : calm_signer s -> mfine (fun _ => True) (output_text tl s b o).
Proof.
  intros H. destruct o; cbn [output_text].
  - eapply m_bind; [apply m_lift, q_bundle_signature|]. intros; apply m_ret; exact I.
  - eapply m_bind; [apply m_signer_cert; [apply (ct_libs _ CT)|apply (ct_out _ CT)|exact H]|]. intros; apply m_ret; exact I.
  - apply m_ret; exact I.
Qed.
Lemma calm_job_step s pr j n t h ph : calm_signer s -> calm_phase ph -> calm_phase (snd (job_step tl s pr j n t h ph)).
Proof.
  intros HS HP. destruct ph as [|d|p|b [|o todo]|b p tx pos todo|b|e]; cbn [job_step]; try exact I; try exact HP.
  - destruct (files_of t _); exact I.
  - pose proof (q_operation pr (job_file j) d) as Q. destruct (operation tl pr (job_file j) d); cbn in Q; [|exact Q].
    apply p_operation; [apply (ct_libs _ CT)|apply (ct_out _ CT)|exact HS].
  - destruct p as [[b|e]|ev k]; cbn in *; auto.
  - pose proof (m_output_text s b o HS h) as Q. destruct (output_text tl s b o h) as [h1 [tx|e]]; cbn in Q; [|exact Q].
    pose proof (q_open_w t (loc tl (out_path o))) as W. destruct (open_w t (loc tl (out_path o))) as [t1 [u|e]]; cbn in W; [exact I|exact W].
  - cbv zeta. destruct (Nat.leb _ _); exact I.
Qed.
Lemma set_nth_Forall {A} (P : A -> Prop) l : Forall P l -> forall i x, P x -> Forall P (set_nth l i x).
Proof. intros H. induction H as [|y l Hy Hl IH]; intros [|i] x Hx; cbn; constructor; auto. Qed.
Lemma calm_sys s pr jobs sched : calm_signer s -> forall y, Forall calm_phase (y_phases y) -> Forall calm_phase (y_phases (sys_run tl s pr jobs sched y)).
Proof.
  intros HS. unfold sys_run. induction sched as [|x sched IH]; intros y H; [exact H|]. cbn [fold_left]. apply IH.
  destruct x as [i n|p nd]; cbn [sys_step]; [|exact H].
  destruct (nth_error jobs i) as [j|]; [|exact H]. destruct (nth_error (y_phases y) i) as [ph|] eqn:N; [|exact H].
  assert (P : calm_phase ph) by (rewrite Forall_forall in H; apply H, (nth_error_In _ _ N)).
  pose proof (calm_job_step s pr j n (y_tree y) (y_hist y) ph HS P) as C.
  destruct (job_step tl s pr j n (y_tree y) (y_hist y) ph) as [[t h] ph1]. cbn [y_phases]. apply set_nth_Forall; assumption.
Qed.
Lemma l_common a pr h0 pre sched t h lines r : common_run tl a pr h0 pre sched t h lines r -> ends (snd pre) -> ends r.
Proof.
  intros R HP. destruct R as [t e|t m h e S|t m h s sched y r S Y F]; cbn [snd] in HP.
  - apply ends_handler, HP.
  - apply ends_handler. pose proof (m_setup a t h0) as Q. rewrite S in Q. apply fine_loud in Q. exact Q.
  - apply ends_handler. pose proof (m_setup a t h0) as Q. rewrite S in Q. cbn in Q.
    destruct F as [F|e _ F]; [exact I|]. subst y. apply tame_loud.
    assert (C : Forall calm_phase (y_phases (sys_run tl s pr (jobs_of m) sched (sys_start (jobs_of m) t h)))).
    { apply calm_sys; [exact Q|]. cbn. apply Forall_forall. intros ph Hph. apply in_map_iff in Hph. destruct Hph as (j & <- & _). exact I. }
    rewrite Forall_forall in C. exact (C _ F).
Qed.
Lemma l_sign_run a t0 h0 sched t h lines r : sign_run tl a t0 h0 sched t h lines r -> ends r.
Proof. intros R. apply (l_common _ _ _ _ _ _ _ _ _ R), l_sign_prepare. Qed.
Lemma l_attest_run a t0 h0 sched t h lines r : attest_run tl a t0 h0 sched t h lines r -> ends r.
Proof.
  unfold attest_run. pose proof (l_attest_prepare a t0) as P. destruct (attest_prepare tl a t0) as [t1 [[m j]|e]]; intros R;
    apply (l_common _ _ _ _ _ _ _ _ _ R); [exact I|exact P].
Qed.
Lemma l_get_identity_token a t : quiet (get_identity_token tl a t).
Proof.
  unfold get_identity_token. eapply fine_bind; [apply q_get_trust_config, calm_world_at|]. intros c _.
  eapply fine_bind; [apply q_get_identity|]. intros; exact I.
Qed.
Lemma l_fix_bundle env http staging up ip p t : calm_env env -> (forall r, quiet (http r)) ->
  ends (snd (fix_bundle_command env tl http staging up ip p t)).
Proof.
  intros CE CH. unfold fix_bundle_command. cbv zeta. pose proof (calm_world_at t) as CW.
  assert (G : ends (let* raw := file_bytes (world_at tl t) p in let* m := w_parse_bundle (world_at tl t) raw in
      fix_bundle env (fun n => entries_get (w_rp (world_at tl t)) http (if staging then REKOR_STAGING else REKOR_PRODUCTION) None (Some n)) up m)).
  { eapply fine_bind; [apply (fine_loud (fun _ => True)), q_file_bytes|]. intros raw _.
    eapply fine_bind; [apply (fine_loud (fun _ => True)), (cw_bundle _ CW)|]. intros m _.
    unfold fix_bundle. eapply fine_bind; [apply fine_raise_if; cbn; auto|]. intros _ _.
    eapply fine_bind; [apply (fine_loud (fun _ => True)), quiet_index|]. intros e _.
    eapply (fine_bind (fun _ => True)).
    { destruct (le_proof e); [|exact I]. destruct (ip_checkpoint _); [exact I|].
      eapply fine_bind; [apply (fine_loud (fun _ => True)), q_entries_get; [apply CW|exact CH]|]. intros; exact I. }
    intros raw' _. eapply fine_bind; [apply fine_try; [apply fine_loud, q_make_bundle, CE|intros; cbn; auto]|]. intros b Hb.
    destruct up; [|exact I]. eapply fine_bind; [apply (fine_loud (fun _ => True)), q_to_parts|]. intros [[c x] e'] _.
    apply (fine_ends calm_bundle), fine_loud, q_from_parts_, CE. }
  destruct (let* raw := _ in _) as [b|e]; [|exact G].
  destruct ip; [|exact I]. pose proof (q_open_w t (loc tl p)) as W. destruct (open_w t (loc tl p)) as [t1 [u|e]]; cbn in W; [exact I|apply tame_loud, W].
Qed.
End Tools.

(** ** Trust configurations on disk *)
Definition ofineE (E : exn -> Prop) {A} (Q : A -> Prop) (m : Tuf.op A) : Prop := forall s, fine E Q (fst (m s)).
Notation ofine := (ofineE tame).
Lemma o_bind {E} {A B} (Q : A -> Prop) (R : B -> Prop) m (k : A -> Tuf.op B) : ofineE E Q m -> (forall a, Q a -> ofineE E R (k a)) -> ofineE E R (obind m k).
Proof. intros H G s. unfold obind. specialize (H s). destruct (m s) as [[a|e] s']; cbn in *; [apply G, H|exact H]. Qed.
Lemma o_ret {E} {A} (Q : A -> Prop) r : fine E Q r -> ofineE E Q (Tuf.ret r). Proof. intros H s; exact H. Qed.
Lemma o_try {E} {A} (Q : A -> Prop) m c h : ofineE E Q m -> (forall e, ofineE E Q (h e)) -> ofineE E Q (otry m c h).
Proof. intros H G s. unfold otry. specialize (H s). destruct (m s) as [[a|e] s']; cbn in *; [exact H|]. destruct (c e); [apply G|exact H]. Qed.

Lemma o_loud {A} (Q : A -> Prop) m : ofine Q m -> ofineE loud Q m. Proof. intros H s. apply fine_loud, H. Qed.

Section Tuf.
Variables data cache : path.
Variable lib : TufLib.
Variable emb : str -> str -> option bytes.
Hypothesis CF : calm_tuf lib.
Notation any := (fun _ => True).

Lemma q_quote s : quiet (quote s). Proof. qu quote. Qed.
Hint Resolve q_quote : quiet.
Lemma q_get_dirs u : quiet (get_dirs data cache u). Proof. qu get_dirs. Qed.
Lemma q_read_embedded n u : quiet (read_embedded emb n u). Proof. qu read_embedded. Qed.
Lemma o_populate t u a : ofine any (populate emb t u a).
Proof.
  unfold populate. apply (o_bind any); [intros s; exact I|]. intros [b|] _; [apply o_ret; exact I|].
  apply o_try; [|intros; apply o_ret; exact I]. apply (o_bind any); [apply o_ret, q_read_embedded|]. intros b _ s; exact I.
Qed.
Lemma o_make_updater u off br : match br with Some r => quiet r | None => True end -> ofine any (make_updater data cache lib emb u off br).
Proof.
  intros HB. unfold make_updater. cbv zeta. apply (o_bind any); [apply o_ret, q_get_dirs|]. intros [md td] _.
  apply (o_bind any); [apply o_populate|]. intros _ _. apply (o_bind any); [apply o_populate|]. intros _ _.
  destruct off; [apply o_ret; exact I|].
  apply (o_bind any).
  { apply o_try; [apply (o_bind any); [apply o_ret, q_read_embedded|intros; apply o_ret; exact I]|].
    intros e. apply o_ret. destruct br as [r|]; [|exact I]. eapply fine_bind; [apply HB|]. intros; exact I. }
  intros rj _. apply (o_bind any); [|intros; apply o_ret; exact I].
  intros s. unfold otry. destruct (net_call _ _ s) as [[a|e] s']; [exact I|]. cbn. exact I.
Qed.
Lemma o_get_path u n : ofine any (get_path lib u n).
Proof.
  unfold get_path. destruct (u_online u); [|apply o_ret; exact I].
  apply (o_bind any).
  { intros s. unfold net_call. pose proof (cf_targetinfo _ CF (u_url u) n (t_fs s)) as Q.
    destruct (tl_targetinfo lib (u_url u) n (t_fs s)) as [r f]. cbn in *. apply Q. }
  intros [info|] _; [|apply o_ret; exact I]. apply (o_bind any); [intros s; exact I|]. intros [p|] _; [apply o_ret; exact I|].
  apply o_try; [|intros; apply o_ret; exact I].
  intros s. unfold net_call. pose proof (cf_download _ CF (u_url u) info (t_fs s)) as Q.
  destruct (tl_download lib (u_url u) info (t_fs s)) as [r f]. cbn in *. apply Q.
Qed.
Lemma o_read_bytes p : ofine any (read_bytes p).
Proof. unfold read_bytes. apply (o_bind any); [intros s; exact I|]. intros [b|] _; apply o_ret; exact I. Qed.
Lemma o_from_tuf {TR SC} (ptr : bytes -> res TR) (psc : bytes -> res SC) u off br :
  (forall b, quiet (ptr b)) -> (forall b, quiet (psc b)) -> match br with Some r => quiet r | None => True end ->
  ofine any (from_tuf data cache lib emb ptr psc u off br).
Proof.
  intros H1 H2 HB. unfold from_tuf, get_trusted_root_path, get_signing_config_path.
  apply (o_bind any); [apply o_make_updater, HB|]. intros up _. apply (o_bind any); [apply o_get_path|]. intros tp _.
  apply (o_bind any); [apply o_read_bytes|]. intros tb _. apply (o_bind any); [apply o_ret, H1|]. intros tr _.
  apply (o_bind any); [apply o_get_path|]. intros sp _. apply (o_bind any); [apply o_read_bytes|]. intros sb _.
  apply (o_bind any); [apply o_ret, H2|]. intros; apply o_ret; exact I.
Qed.
Variable ptr : bytes -> res TrustedRootMsg.
Variable psc : bytes -> res SigningConfigMsg.
Variable pc : str -> res ClientTrustConfig.
Hypothesis H1 : forall b, quiet (ptr b).
Hypothesis H2 : forall b, quiet (psc b).
Hypothesis H3 : forall s, quiet (pc s).
Lemma o_config u off br : match br with Some r => quiet r | None => True end -> ofine any (config_from_tuf data cache lib emb ptr psc u off br).
Proof. intros HB. unfold config_from_tuf. apply (o_bind any); [apply o_from_tuf; assumption|]. intros; apply o_ret; exact I. Qed.
Lemma o_trust_instance cwd root i : ofineE loud any (trust_instance data cache lib emb ptr psc cwd root i).
Proof.
  unfold trust_instance. apply (o_bind any); [intros s; exact I|]. intros [b|] _; [|apply o_ret; cbn; auto].
  destruct i; [|apply o_ret; cbn; auto]. apply (o_bind any); [apply o_loud, o_config; exact I|]. intros; apply o_ret; exact I.
Qed.
Lemma o_update env now cwd tc i st : calm_env env -> ofineE loud any (update_trust_root data cache lib emb ptr psc pc cwd env now tc i st).
Proof.
  intros CE. unfold update_trust_root. apply (o_bind any).
  - unfold trust_config_on_disk. destruct tc as [p|].
    + apply (o_bind any); [apply o_loud, o_read_bytes|]. intros b _. apply o_ret, fine_loud. eapply fine_bind; [apply q_py_decode|]. intros; apply H3.
    + destruct i as [[|x r]|]; apply o_loud, o_config; exact I.
  - intros c _. apply o_ret, fine_loud. eapply fine_bind; [apply q_make_trusted_root|]. intros tr _.
    eapply fine_bind; [apply q_get_fulcio_certs, CE|]. intros; exact I.
Qed.
End Tuf.

(** ** main *)
Lemma l_parse_line lo ti environ l : ends (parse_line lo ti environ l).
Proof.
  unfold parse_line. eapply (fine_bind (fun _ => True)).
  { apply fine_loud. unfold parse_flags. eapply (fine_bind (fun _ => True)); [|intros; exact I].
    generalize (@nil (flag * bool)). induction flags_read as [|f fs IH]; intros acc; cbn [read_defaults]; [exact I|].
    eapply (fine_bind (fun _ => True)); [unfold boolify_env; q|]. intros; apply IH. }
  intros fl _. eapply fine_bind; [apply fine_raise_if; cbn; auto|]. intros _ _.
  eapply (fine_bind (fun _ => True)); [destruct (given_value l O_rekor_version) as [s|]; [destruct (ti s); cbn; auto|exact I]|].
  intros v _. eapply fine_bind; [apply fine_raise_if; cbn; auto|]. intros; exact I.
Qed.
Lemma main_ends mc environ l t0 h0 sched t h out r : calm_machine mc -> main mc environ l t0 h0 sched t h out r -> ends r.
Proof.
  intros C R. destruct R as [e P|ns sched t h out r P R].
  - pose proof (l_parse_line (mc_lower mc) (mc_int mc) environ l) as Q. rewrite P in Q. exact Q.
  - apply ends_handler. pose proof (cm_tools _ C) as CT. destruct R as [sched t h ls r _ R|sched t h ls r _ R|ls r _ R|ls r _ R|r _ R|t s r _ R _|t s r _ R _|t tx r _ R].
    + eapply l_sign_run; eassumption.
    + eapply l_attest_run; eassumption.
    + pose proof (l_verify_identity (mc_env mc) (mc_ps mc) (world_at (mc_tools mc) t0) (cm_env _ C) (cm_ps _ C) (calm_world_at _ CT t0)
        (verify_args ns) (ns_str ns O_cert_identity) (ns_str ns O_cert_issuer)) as Q. rewrite R in Q. exact Q.
    + pose proof (l_verify_github (mc_env mc) (mc_ps mc) (world_at (mc_tools mc) t0) (cm_env _ C) (cm_ps _ C) (calm_world_at _ CT t0)
        (verify_args ns) (github_args ns)) as Q. rewrite R in Q. exact Q.
    + pose proof (l_get_identity_token _ CT (common_args ns) t0) as Q. rewrite R in Q. apply fine_loud in Q.
      eapply fine_bind; [exact Q|]. intros; exact I.
    + pose proof (o_trust_instance (mc_data mc) (mc_cache mc) (mc_tuf mc) (mc_embedded mc) (cm_tuf _ C) _ _ (cm_parse_tr _ C) (cm_parse_sc _ C)
        (w_cwd (tl_world (mc_tools mc))) (path_of (hd nil (ns_positional ns))) (ns_value ns O_instance) (mkT (files_of t0) nil)) as Q.
      rewrite R in Q. exact Q.
    + pose proof (o_update (mc_data mc) (mc_cache mc) (mc_tuf mc) (mc_embedded mc) (cm_tuf _ C) _ _ _ (cm_parse_tr _ C) (cm_parse_sc _ C) (cm_parse_config _ C)
        (mc_env mc) (mc_now mc) (w_cwd (tl_world (mc_tools mc))) (ns_path ns O_trust_config) (ns_value ns O_instance) (ns_flag ns F_staging) (cm_env _ C)
        (mkT (files_of t0) nil)) as Q.
      rewrite R in Q. eapply fine_bind; [exact Q|]. intros; exact I.
    + pose proof (l_fix_bundle _ CT (mc_env mc) (mc_http mc) (ns_flag ns F_staging) (ns_upgrade_version ns) (ns_in_place ns)
        (given (ns_path ns O_bundle) nil) t0 (cm_env _ C) (cm_http _ C)) as Q. rewrite R in Q. exact Q.
Qed.
