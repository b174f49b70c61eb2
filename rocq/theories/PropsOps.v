(** Property C97: which cryptographic operations verification performs, how many, and in which order. *)
From Verif Require Import Base Codec Messages Merkle ToyHash Env Keyring KeyringProofs ToyEnv Checkpoint LogEntry PropsCheckpoint Cert Sct Dsse PropsDsse
  PropsSct KeyDetails Policy TrustedRoot PropsTrustedRoot SigningConfig Hashing Bundle PropsBundle Verifier VerifierSpec ToyBundles
  PropsKeyring PropsVerifier PropsStability PropsOrder Ops.
From Coq Require Import Lia.

(** ** Specification *)

(** the operation says yes *)
Definition succeeds (env : Env) (o : op) : Prop :=
  match o with
  | Op_sig s k sg d => e_sig_verify env s k sg d = Ok tt
  | Op_tsa certs t m => exists u, e_tsa_verify env certs t m = Ok u
  | Op_chain roots t c => exists chain, e_chain env roots t c = Ok chain
  end.

Definition is_sig (o : op) : bool := match o with Op_sig _ _ _ _ => true | _ => false end.
Definition is_tsa (o : op) : bool := match o with Op_tsa _ _ _ => true | _ => false end.
Definition is_chain (o : op) : bool := match o with Op_chain _ _ _ => true | _ => false end.
Definition count (f : op -> bool) (l : list op) : nat := length (filter f l).

(** the key of one of these logs *)
Definition log_key (env : Env) (ts : list TLog) (k : pubkey) : Prop :=
  exists t s, In t ts /\ usable env (tl_key t) k s.

(** at most 32 tokens, each with every timestamp authority; a chain for each token and one for the
    log's time; the SCT with every CT log; checkpoint and promise with every log; the signature *)
Definition bounded_work (tr : TrustedRootMsg) (ops : list op) : Prop :=
  count is_tsa ops <= 32 * length (tr_tsas tr) /\ count is_chain ops <= 33 /\
  count is_sig ops <= length (tr_ctlogs tr) + 2 * length (tr_tlogs tr) + 1.

(** what the operation works with: the certificates of a timestamp authority of the trusted root, a
    token of the bundle and the bundle's signature; the CA certificates and the bundle's certificate;
    the key of a log of the trusted root, or that of the bundle's certificate *)
Definition on_behalf (env : Env) (v : Verifier) (b : Bundle) (o : op) : Prop :=
  match o with
  | Op_tsa certs t m =>
    (exists ca, In ca (tr_tsas (vf_root v)) /\ Forall2 (fun der c => e_parse_cert env der = Ok c) (cam_certs ca) certs) /\
    (exists raw, In raw (vm_timestamps (bm_vm (b_inner b))) /\ e_decode_tsr env raw = Ok t) /\
    bundle_signature b = Ok m
  | Op_chain roots t c => roots = vf_fulcio v /\ c = b_cert b
  | Op_sig _ k _ _ => log_key env (tr_ctlogs (vf_root v)) k \/ log_key env (tr_tlogs (vf_root v)) k \/ c_pubkey (b_cert b) = Ok k
  end.

(** these operations show that the certificate is trusted and logged: chains were built at one or
    more times and each of them was found, a CT log signed something and so did a log *)
Definition vetted (env : Env) (v : Verifier) (b : Bundle) (ops : list op) : Prop :=
  (forall o, In o ops -> is_chain o = true -> succeeds env o) /\
  (exists t, In (Op_chain (vf_fulcio v) t (b_cert b)) ops) /\
  (exists s k sg d, In (Op_sig s k sg d) ops /\ log_key env (tr_ctlogs (vf_root v)) k /\ succeeds env (Op_sig s k sg d)) /\
  (exists s k sg d, In (Op_sig s k sg d) ops /\ log_key env (tr_tlogs (vf_root v)) k /\ succeeds env (Op_sig s k sg d)).

(** other cryptography: signatures, chains and timestamp tokens are judged otherwise *)
Definition other_crypto (env : Env) (sig2 : sig_scheme -> pubkey -> bytes -> bytes -> res unit) (chain2 : list Cert -> time -> Cert -> res (list Cert))
  (tsa2 : list Cert -> TSR -> bytes -> res unit) : Env :=
  mkEnv (e_hash env) (e_udecimal env) (e_load_key env) sig2 (e_parse_cert env) (e_self_issued env) chain2 (e_decode_tsr env) tsa2.
(** ... but not in these operations *)
Definition same_outcomes (env : Env) (sig2 : sig_scheme -> pubkey -> bytes -> bytes -> res unit) (chain2 : list Cert -> time -> Cert -> res (list Cert))
  (tsa2 : list Cert -> TSR -> bytes -> res unit) (ops : list op) : Prop :=
  forall o, In o ops ->
  match o with
  | Op_sig s k sg d => sig2 s k sg d = e_sig_verify env s k sg d
  | Op_tsa certs t m => tsa2 certs t m = e_tsa_verify env certs t m
  | Op_chain roots t c => chain2 roots t c = e_chain env roots t c
  end.

(** ** Proofs *)

Lemma fst_bind : forall (A B : Type) (m : Tr A) (k : A -> Tr B), fst (bind_t m k) = bind (fst m) (fun a => fst (k a)).
Proof. intros A B [[a|e] l] k; reflexivity. Qed.
Lemma fst_try : forall (A : Type) (m : Tr A) cls h, fst (try_t m cls h) = try_except (fst m) cls h.
Proof. reflexivity. Qed.

(** *** The results are those of the model without operations *)

Lemma key_verify_fst : forall env k sg d, fst (key_verify_t env k sg d) = key_verify env k sg d.
Proof. intros env k sg d. unfold key_verify_t, key_verify. destruct (pk_kind (k_key k)), (k_hash k); reflexivity. Qed.

Lemma candidates_fst : forall env sg d cs, fst (try_candidates_t env cs sg d) = try_candidates env cs sg d.
Proof.
  intros env sg d cs. induction cs as [|c cs IH]; [reflexivity|]. cbn [try_candidates_t try_candidates]. rewrite key_verify_fst.
  destruct (key_verify env c sg d) as [[]|e]; [reflexivity|]. destruct e; try reflexivity. exact IH.
Qed.

Lemma keyring_fst : forall env kr kid sg d, fst (keyring_verify_t env kr kid sg d) = keyring_verify env kr kid sg d.
Proof. intros env kr kid sg d. unfold keyring_verify_t, keyring_verify. rewrite fst_bind, candidates_fst. reflexivity. Qed.

Lemma bind_ext : forall (A B : Type) (m : res A) (f g : A -> res B), (forall a, f a = g a) -> bind m f = bind m g.
Proof. intros A B [a|e] f g H; [apply H|reflexivity]. Qed.

Lemma bind_cong : forall (A B : Type) (m m' : res A) (f g : A -> res B), m = m' -> (forall a, f a = g a) -> bind m f = bind m' g.
Proof. intros A B m m' f g -> H. apply bind_ext. assumption. Qed.

Lemma sigs_fst : forall env kr kid note l, fst (verify_sigs_t env kr kid note l) = verify_sigs env kr kid note l.
Proof.
  intros env kr kid note l. induction l as [|s l IH]; [reflexivity|]. cbn [verify_sigs_t verify_sigs].
  destruct (bytes_eqb _ _); [|exact IH]. rewrite fst_try, fst_bind. cbn [fst pure_t]. f_equal. apply bind_ext. intros a. apply keyring_fst.
Qed.

Lemma note_fst : forall env kr kid n, fst (note_verify_t env kr kid n) = note_verify env kr kid n.
Proof. intros env kr kid n. unfold note_verify_t, note_verify. destruct (utf8_encode (sn_note n)); [apply sigs_fst|reflexivity]. Qed.

Lemma checkpoint_fst : forall env kr e, fst (verify_checkpoint_t env kr e) = verify_checkpoint env kr e.
Proof.
  intros env kr e. unfold verify_checkpoint_t, verify_checkpoint. destruct (le_proof e) as [ip|]; [|reflexivity].
  destruct (ip_checkpoint ip) as [text|]; [|reflexivity]. rewrite fst_bind. cbn [fst pure_t]. apply bind_ext. intros [n cp].
  rewrite fst_bind, note_fst. reflexivity.
Qed.

Lemma entry_fst : forall env kr e, fst (entry_verify_t env kr e) = entry_verify env kr e.
Proof.
  intros env kr e. unfold entry_verify_t, entry_verify. rewrite fst_bind. cbn [fst pure_t]. apply bind_ext. intros _.
  rewrite fst_bind, checkpoint_fst. apply bind_ext. intros _. destruct (has_set e); [|reflexivity].
  unfold verify_set_t, verify_set. destruct (le_promise e); [|reflexivity]. rewrite fst_try, fst_bind. cbn [fst pure_t]. f_equal.
  apply bind_ext. intros a. apply keyring_fst.
Qed.

Lemma sct_fst : forall env c chain kr, fst (verify_sct_t env c chain kr) = verify_sct env c chain kr.
Proof.
  intros env c chain kr. unfold verify_sct_t, verify_sct. repeat (rewrite fst_bind; cbn [fst pure_t]; apply bind_ext; intros ?).
  rewrite fst_try, keyring_fst. reflexivity.
Qed.

Lemma loop_fst : forall env now t m cas, fst (timestamp_loop_t env now cas t m) = verify_signed_timestamp_loop env now cas t m.
Proof.
  intros env now t m cas. induction cas as [|ca cas IH]; [reflexivity|]. cbn [timestamp_loop_t verify_signed_timestamp_loop].
  destruct (Nat.ltb _ 2); [exact IH|]. destruct (e_tsa_verify _ _ _ _) as [u|e].
  - destruct (cam_valid_for (ca_inner ca)) as [w|]; [|reflexivity]. destruct (_ && _); [reflexivity|exact IH].
  - destruct (exn_eqb e ERfc3161); [exact IH|reflexivity].
Qed.

Lemma collect_fst : forall env now v b l, fst (collect_times_t env now v b l) = collect_times env now v b l.
Proof.
  intros env now v b l. induction l as [|t l IH]; [reflexivity|]. cbn [collect_times_t collect_times]. rewrite fst_bind. cbn [fst pure_t].
  apply bind_ext. intros sg. rewrite fst_bind. unfold signed_timestamp_t, verify_signed_timestamp. rewrite fst_bind. cbn [fst pure_t].
  apply bind_cong; [apply bind_ext; intros; apply loop_fst|]. intros r. rewrite fst_bind, IH. reflexivity.
Qed.

Lemma establish_fst : forall env now v b, fst (establish_time_t env now v b) = establish_time env now v b.
Proof.
  intros env now v b. unfold establish_time_t, establish_time. rewrite fst_bind. cbn [fst pure_t]. apply bind_ext. intros tvd.
  rewrite fst_bind. apply bind_cong.
  - destruct tvd as [l|]; [|reflexivity]. rewrite fst_bind. cbn [fst pure_t]. apply bind_ext. intros tsas. rewrite fst_bind. cbn [fst pure_t].
    apply bind_ext. intros _. unfold verify_timestamp_authority, timestamp_authority_t. repeat (rewrite fst_bind; cbn [fst pure_t]; apply bind_ext; intros ?).
    apply collect_fst.
  - intros ts. rewrite fst_bind. cbn [fst pure_t]. apply bind_ext. intros l. reflexivity.
Qed.

Lemma chains_fst : forall env v c ts ch, fst (verify_chains_t env v c ts ch) = verify_chains env v c ts ch.
Proof.
  intros env v c ts. induction ts as [|t ts IH]; [reflexivity|]. intros ch. cbn [verify_chains_t verify_chains].
  rewrite fst_bind. unfold verify_chain_at_time_t, verify_chain_at_time. rewrite fst_bind, fst_try. cbn [fst call_t pure_t].
  apply bind_ext. intros. apply IH.
Qed.

Lemma common_fst : forall env now v b p, fst (common_signing_cert_t env now v b p) = verify_common_signing_cert env now v b p.
Proof.
  intros env now v b p. unfold common_signing_cert_t, verify_common_signing_cert. rewrite fst_bind, establish_fst. apply bind_ext. intros times.
  rewrite fst_bind. cbn [fst pure_t]. apply bind_ext. intros _. rewrite fst_bind, chains_fst. apply bind_ext. intros chain.
  rewrite fst_bind, fst_try, fst_bind. cbn [fst pure_t].
  apply bind_cong; [f_equal; apply bind_ext; intros; apply sct_fst|]. intros _. do 4 (rewrite fst_bind; cbn [fst pure_t]; apply bind_ext; intros ?).
  rewrite fst_bind, fst_try, fst_bind. cbn [fst pure_t].
  apply bind_cong; [f_equal; apply bind_ext; intros; apply entry_fst|]. intros _. reflexivity.
Qed.

(** The model with operations gives the results of the model without. *)
Theorem C97_same_results : forall env ps now v b p,
  (forall i, fst (verify_artifact_t env ps now v i b p) = verify_artifact env ps now v i b p) /\
  fst (verify_dsse_t env ps now v b p) = verify_dsse env ps now v b p.
Proof.
  intros env ps now v b p. split.
  - intros i. unfold verify_artifact_t, verify_artifact. rewrite fst_bind, common_fst. apply bind_ext. intros _.
    destruct (bm_msig (b_inner b)) as [ms|]; [|reflexivity]. rewrite fst_bind. cbn [fst pure_t]. apply bind_ext. intros _.
    rewrite fst_bind, fst_try, fst_bind. cbn [fst pure_t].
    apply bind_cong; [f_equal; apply bind_ext; intros; rewrite fst_bind; reflexivity|]. intros _. rewrite fst_bind. reflexivity.
  - unfold verify_dsse_t, verify_dsse. rewrite fst_bind, common_fst. apply bind_ext. intros _. rewrite fst_bind. cbn [fst pure_t]. apply bind_ext.
    intros [evp|]; [|reflexivity]. rewrite fst_bind. cbn [fst pure_t]. apply bind_ext. intros key. rewrite fst_bind.
    replace (fst (dsse_verify_t env key evp)) with (dsse_verify env key evp).
    + apply bind_ext. intros _. rewrite fst_bind. reflexivity.
    + unfold dsse_verify, dsse_verify_t. repeat (rewrite fst_bind; cbn [fst pure_t]; apply bind_ext; intros ?). reflexivity.
Qed.

(** *** How many operations *)

Definition work {A : Type} (x y z : nat) (t : Tr A) : Prop :=
  count is_tsa (snd t) <= x /\ count is_chain (snd t) <= y /\ count is_sig (snd t) <= z.

Lemma count_app : forall f l l', count f (l ++ l') = count f l + count f l'.
Proof. intros f l l'. unfold count. rewrite filter_app, app_length. reflexivity. Qed.

Lemma work_weaken : forall (A : Type) x y z x' y' z' (t : Tr A), work x y z t -> x <= x' -> y <= y' -> z <= z' -> work x' y' z' t.
Proof. intros A x y z x' y' z' t (P & Q & R) X Y Z. repeat split; lia. Qed.
Ltac wk := repeat split; cbn; lia.
Lemma work_pure : forall (A : Type) (r : res A), work 0 0 0 (pure_t r).
Proof. intros A r. wk. Qed.
Lemma work_bind : forall (A B : Type) x y z x' y' z' (m : Tr A) (k : A -> Tr B),
  work x y z m -> (forall a, fst m = Ok a -> work x' y' z' (k a)) -> work (x + x') (y + y') (z + z') (bind_t m k).
Proof.
  intros A B x y z x' y' z' m k (P & Q & R) K. unfold work, bind_t. destruct (fst m) as [a|e].
  - destruct (K a eq_refl) as (P' & Q' & R'). cbn [snd]. rewrite !count_app. repeat split; lia.
  - cbn [snd]. repeat split; lia.
Qed.
Lemma work_pure_bind : forall (A B : Type) x y z (r : res A) (k : A -> Tr B),
  (forall a, r = Ok a -> work x y z (k a)) -> work x y z (bind_t (pure_t r) k).
Proof. intros A B x y z r k K. change x with (0 + x). change y with (0 + y). change z with (0 + z). apply work_bind; [apply work_pure|exact K]. Qed.
Lemma work_try : forall (A : Type) x y z (t : Tr A) cls h, work x y z t -> work x y z (try_t t cls h).
Proof. intros A x y z t cls h W. exact W. Qed.

Lemma work_key : forall env k sg d, work 0 0 1 (key_verify_t env k sg d).
Proof. intros env k sg d. unfold key_verify_t. destruct (pk_kind (k_key k)), (k_hash k); wk. Qed.

Lemma work_candidates : forall env sg d cs, work 0 0 (length cs) (try_candidates_t env cs sg d).
Proof.
  intros env sg d cs. induction cs as [|c cs (P & Q & R)]; [wk|]. cbn [try_candidates_t length].
  destruct (work_key env c sg d) as (P' & Q' & R').
  destruct (fst (key_verify_t env c sg d)) as [[]|e]; [|destruct e]; unfold work; cbn [snd]; rewrite ?count_app; repeat split; lia.
Qed.

Lemma work_keyring : forall env kr kid sg d, kr <> nil -> work 0 0 (length kr) (keyring_verify_t env kr kid sg d).
Proof.
  intros env kr kid sg d N. unfold keyring_verify_t. replace (length kr) with (length kr + 0) by lia.
  apply (work_bind _ _ 0 0 _ 0 0 0); [|intros; apply work_pure].
  destruct (assoc bytes_eqb kid kr) as [k|].
  - eapply work_weaken; [apply work_candidates|lia|lia|]. destruct kr; [contradiction|cbn; lia].
  - rewrite <- (map_length snd kr). apply work_candidates.
Qed.
Lemma work_keyring' : forall env kr n kid sg d, length kr <= n -> 0 < n -> work 0 0 n (keyring_verify_t env kr kid sg d).
Proof.
  intros env kr n kid sg d L N. destruct kr as [|x kr].
  - apply (work_weaken _ 0 0 0); try lia. wk.
  - eapply work_weaken; [apply work_keyring; discriminate| | |]; lia.
Qed.

Lemma dict_set_length : forall id k (kr : keyring), length (dict_set bytes_eqb id k kr) <= S (length kr).
Proof.
  intros id k kr. induction kr as [|[i x] kr IH]; [cbn; lia|]. cbn [dict_set]. destruct (bytes_eqb id i); cbn [length]; lia.
Qed.
Lemma keyring_length : forall env ms kr, make_keyring env ms = Ok kr -> length kr <= length ms.
Proof.
  intros env ms kr. unfold make_keyring. assert (H : forall ms acc kr, keyring_add env acc ms = Ok kr -> length kr <= length acc + length ms).
  { induction ms0 as [|m ms0 IH]; intros acc kr0; cbn [keyring_add length]; [intros Q; inversion Q; lia|].
    destruct (make_key env m) as [k|e]; [|destruct (is_verification_error e); [|discriminate]]; intros Q; apply IH in Q; [|lia].
    pose proof (dict_set_length (k_id k) k acc). lia. }
  intros Q. apply H in Q. exact Q.
Qed.
Lemma tlog_keys_length : forall now l, length (get_tlog_keys now l VERIFY) <= length l.
Proof. intros now l. induction l as [|t l IH]; [cbn; lia|]. cbn [get_tlog_keys]. destruct (is_timerange_valid _ _ _); cbn [length]; lia. Qed.

Lemma rekor_length : forall env now tr kr, rekor_keyring env now tr VERIFY = Ok kr -> length kr <= length (tr_tlogs tr) /\ 0 < length (tr_tlogs tr).
Proof.
  intros env now tr kr. rewrite rekor_keyring_form. pose proof (tlog_keys_length now (tr_tlogs tr)) as L.
  destruct (get_tlog_keys now (tr_tlogs tr) VERIFY) as [|m ms]; [discriminate|]. cbn [raise_if bind].
  intros Q. apply keyring_length in Q. cbn [length] in *. lia.
Qed.
Lemma ct_length : forall env now tr kr, ct_keyring env now tr VERIFY = Ok kr -> length kr <= length (tr_ctlogs tr) /\ 0 < length (tr_ctlogs tr).
Proof.
  intros env now tr kr. unfold ct_keyring. pose proof (tlog_keys_length now (tr_ctlogs tr)) as L.
  destruct (get_tlog_keys now (tr_ctlogs tr) VERIFY) as [|m ms]; [discriminate|]. cbn [raise_if bind].
  intros Q. apply keyring_length in Q. cbn [length] in *. lia.
Qed.

Lemma work_sigs : forall env kr n kid note l, length kr <= n -> 0 < n -> work 0 0 n (verify_sigs_t env kr kid note l).
Proof.
  intros env kr n kid note l L N. induction l as [|s l IH]; [wk|]. cbn [verify_sigs_t].
  destruct (bytes_eqb _ _); [|exact IH]. apply work_try, work_pure_bind. intros raw _. apply work_keyring'; assumption.
Qed.

Lemma work_entry : forall env kr n e, length kr <= n -> 0 < n -> work 0 0 (n + n) (entry_verify_t env kr e).
Proof.
  intros env kr n e L N. unfold entry_verify_t. apply work_pure_bind. intros _ _. apply (work_bind _ _ 0 0 n 0 0 n).
  - unfold verify_checkpoint_t. destruct (le_proof e) as [ip|]; [|wk].
    destruct (ip_checkpoint ip) as [text|]; [|wk]. apply work_pure_bind. intros nc _.
    replace n with (n + 0) by lia. apply (work_bind _ _ 0 0 n 0 0 0); [|intros; apply work_pure].
    unfold note_verify_t. destruct (utf8_encode _); [apply work_sigs; assumption|wk].
  - intros _ _. destruct (has_set e); [|wk]. unfold verify_set_t. destruct (le_promise e); [|wk].
    apply work_try, work_pure_bind. intros d _. apply work_keyring'; assumption.
Qed.

Lemma work_sct : forall env c chain kr n, length kr <= n -> 0 < n -> work 0 0 n (verify_sct_t env c chain kr).
Proof.
  intros env c chain kr n L N. unfold verify_sct_t. do 4 (apply work_pure_bind; intros ? _). apply work_try, work_keyring'; assumption.
Qed.

Lemma work_loop : forall env now t m cas, work (length cas) 0 0 (timestamp_loop_t env now cas t m).
Proof.
  intros env now t m cas. induction cas as [|ca cas (P & Q & R)]; [wk|]. cbn [timestamp_loop_t length].
  destruct (Nat.ltb _ 2); [repeat split; lia|]. destruct (e_tsa_verify _ _ _ _) as [u|e].
  - destruct (cam_valid_for (ca_inner ca)) as [w|]; [|wk]. destruct (_ && _); [wk|].
    unfold work, count in *. cbn [snd filter is_tsa is_chain is_sig length]. repeat split; lia.
  - destruct (exn_eqb e ERfc3161); [|wk]. unfold work, count in *. cbn [snd filter is_tsa is_chain is_sig length]. repeat split; lia.
Qed.

Lemma map_res_length : forall (A B : Type) (f : A -> res B) l l', map_res f l = Ok l' -> length l' = length l.
Proof.
  intros A B f l. induction l as [|x l IH]; intros l' H; cbn [map_res] in H; [inversion H; reflexivity|].
  destruct (f x); [|discriminate]. cbn [bind] in H. destruct (map_res f l) as [r|]; [|discriminate]. inversion H. cbn [length]. rewrite (IH r eq_refl). reflexivity.
Qed.

Lemma tsas_length : forall env tr cas, get_timestamp_authorities env tr = Ok cas -> length cas = length (tr_tsas tr).
Proof. intros env tr cas H. apply (map_res_length _ _ _ _ _ H). Qed.

Lemma work_collect : forall env now v b l, work (length l * length (tr_tsas (vf_root v))) 0 0 (collect_times_t env now v b l).
Proof.
  intros env now v b l. induction l as [|t l IH]; [wk|]. cbn [collect_times_t length Nat.mul].
  apply work_pure_bind. intros sg _. apply (work_bind _ _ _ 0 0 _ 0 0).
  - unfold signed_timestamp_t. apply work_pure_bind. intros cas Q. rewrite <- (tsas_length _ _ _ Q). apply work_loop.
  - intros r _. replace (length l * length (tr_tsas (vf_root v))) with (length l * length (tr_tsas (vf_root v)) + 0) by lia.
    apply (work_bind _ _ _ 0 0 0 0 0); [exact IH|intros; apply work_pure].
Qed.

Lemma collect_length : forall env now v b l ts, collect_times env now v b l = Ok ts -> length ts <= length l.
Proof.
  intros env now v b l. induction l as [|t l IH]; intros ts; cbn [collect_times]; [intros Q; inversion Q; cbn; lia|].
  destruct (bundle_signature b) as [sg|]; [|discriminate]. cbn [bind]. destruct (verify_signed_timestamp _ _ _ _ _) as [r|]; [|discriminate]. cbn [bind].
  destruct (collect_times env now v b l) as [rest|]; [|discriminate]. cbn [bind]. specialize (IH rest eq_refl). intros Q. inversion Q.
  destruct r; cbn [length]; lia.
Qed.

Lemma establish_work : forall env now v b, work (32 * length (tr_tsas (vf_root v))) 0 0 (establish_time_t env now v b) /\
  forall ts, establish_time env now v b = Ok ts -> length ts <= 33.
Proof.
  intros env now v b. unfold establish_time_t, establish_time. split.
  - apply work_pure_bind. intros tvd _. replace (32 * length (tr_tsas (vf_root v))) with (32 * length (tr_tsas (vf_root v)) + 0) by lia.
    apply (work_bind _ _ _ 0 0 0 0 0).
    + destruct tvd as [l|]; [|wk]. apply work_pure_bind. intros tsas _. apply work_pure_bind. intros _ _.
      unfold timestamp_authority_t. apply work_pure_bind. intros o _. set (r := match o with Some l => l | None => nil end).
      apply work_pure_bind. intros u Q. apply work_pure_bind. intros _ _.
      destruct (Nat.ltb MAX_ALLOWED_TIMESTAMP (length r)) eqn:L; [discriminate|]. apply Nat.ltb_ge in L. unfold MAX_ALLOWED_TIMESTAMP in L.
      eapply work_weaken; [apply work_collect| | |]; try lia. apply Nat.mul_le_mono_r. exact L.
    + intros ts _. apply work_pure_bind. intros; apply work_pure.
  - intros ts H. destruct (timestamp_verification_data env (bm_vm (b_inner b))) as [tvd|] eqn:T; [|discriminate]. cbn [bind] in H.
    destruct (match tvd with Some _ => _ | None => _ end) as [ft|] eqn:F; [|discriminate]. cbn [bind] in H.
    assert (Lf : length ft <= 32).
    { destruct tvd as [l|]; [|inversion F; cbn; lia]. destruct (get_timestamp_authorities env (vf_root v)) as [cas|]; [|discriminate]. cbn [bind] in F.
      destruct (raise_if (match cas with nil => true | _ => false end) EVerification); [|discriminate]. cbn [bind] in F.
      unfold verify_timestamp_authority in F. rewrite T in F. cbn [bind] in F.
      destruct (Nat.ltb MAX_ALLOWED_TIMESTAMP (length l)) eqn:L; [discriminate|]. apply Nat.ltb_ge in L. unfold MAX_ALLOWED_TIMESTAMP in L.
      cbn [raise_if bind] in F. destruct (raise_if (has_dup l) EVerification); [|discriminate]. cbn [bind] in F. apply collect_length in F. lia. }
    destruct (if has_set (b_entry b) then _ else _) as [fl|] eqn:G; [|discriminate]. cbn [bind] in H. inversion H. rewrite app_length.
    assert (length fl <= 1); [|lia]. destruct (has_set (b_entry b)); [|inversion G; cbn; lia].
    destruct (raise_if _ _); [|discriminate]. cbn [bind] in G. destruct (le_integrated_time (b_entry b)) as [t|]; [|inversion G; cbn; lia].
    destruct (fromtimestamp t); [|discriminate]. inversion G. cbn. lia.
Qed.

Lemma work_chains : forall env v c ts ch, work 0 (length ts) 0 (verify_chains_t env v c ts ch).
Proof.
  intros env v c ts. induction ts as [|t ts IH]; intros ch; [wk|]. cbn [verify_chains_t length].
  apply (work_bind _ _ 0 1 0 0 _ 0); [|intros; apply IH]. unfold verify_chain_at_time_t. apply (work_bind _ _ 0 1 0 0 0 0); [|intros; apply work_pure].
  apply work_try. wk.
Qed.

Lemma work_common : forall env now v b p,
  work (32 * length (tr_tsas (vf_root v))) 33 (length (tr_ctlogs (vf_root v)) + 2 * length (tr_tlogs (vf_root v))) (common_signing_cert_t env now v b p).
Proof.
  intros env now v b p. unfold common_signing_cert_t. destruct (establish_work env now v b) as [W L].
  set (x := 32 * length (tr_tsas (vf_root v))) in *. apply (work_weaken _ (x + 0) (0 + 33) (0 + (length (tr_ctlogs (vf_root v)) + 2 * length (tr_tlogs (vf_root v))))); [|lia|lia|lia].
  apply work_bind; [exact W|]. intros ts Q. rewrite establish_fst in Q. specialize (L ts Q).
  apply work_pure_bind. intros _ _.
  apply (work_weaken _ 0 (length ts + 0) (0 + (length (tr_ctlogs (vf_root v)) + (length (tr_tlogs (vf_root v)) + length (tr_tlogs (vf_root v)) + 0)))); [|lia|lia|lia].
  apply (work_bind _ _ 0 _ 0 0 0 _); [apply work_chains|]. intros chain _.
  apply (work_bind _ _ 0 0 _ 0 0 _).
  - apply work_try.
    destruct (ct_keyring env now (vf_root v) VERIFY) as [kr|e] eqn:K; [|wk].
    apply work_pure_bind. intros kr' E. inversion E; subst kr'. apply ct_length in K. apply work_sct; tauto.
  - intros _ _. do 4 (apply work_pure_bind; intros ? _). apply (work_bind _ _ 0 0 _ 0 0 0); [|intros; apply work_pure].
    apply work_try. destruct (rekor_keyring env now (vf_root v) VERIFY) as [kr|e] eqn:K; [|wk].
    apply work_pure_bind. intros kr' E. inversion E; subst kr'. apply rekor_length in K. apply work_entry; tauto.
Qed.

(** Whatever the bundle, the number of operations is bounded by the trusted root. *)
Theorem C97_bounded_work : forall env ps now v b p,
  (forall i, bounded_work (vf_root v) (snd (verify_artifact_t env ps now v i b p))) /\
  bounded_work (vf_root v) (snd (verify_dsse_t env ps now v b p)).
Proof.
  intros env ps now v b p. pose proof (work_common env now v b p) as W. set (x := 32 * length (tr_tsas (vf_root v))) in *.
  split; [intros i|]; unfold bounded_work; fold x.
  - apply (work_weaken _ (x + 0) (33 + 0) ((length (tr_ctlogs (vf_root v)) + 2 * length (tr_tlogs (vf_root v))) + 1)); try lia.
    apply work_bind; [exact W|]. intros _ _. destruct (bm_msig (b_inner b)) as [ms|]; [|wk].
    apply work_pure_bind. intros _ _. apply (work_bind _ _ 0 0 1 0 0 0).
    + apply work_try. do 2 (apply work_pure_bind; intros ? _). wk.
    + intros _ _. apply work_pure_bind. intros; apply work_pure.
  - apply (work_weaken _ (x + 0) (33 + 0) ((length (tr_ctlogs (vf_root v)) + 2 * length (tr_tlogs (vf_root v))) + 1)); try lia.
    apply work_bind; [exact W|]. intros _ _. apply work_pure_bind. intros [evp|] _; [|wk].
    apply work_pure_bind. intros key _. apply (work_bind _ _ 0 0 1 0 0 0).
    + unfold dsse_verify_t. do 3 (apply work_pure_bind; intros ? _). apply (work_bind _ _ 0 0 1 0 0 0); [|intros; apply work_pure].
      apply work_try. wk.
    + intros _ _. apply work_pure_bind. intros; apply work_pure.
Qed.

(** *** Which operations *)

Definition all {A : Type} (P : op -> Prop) (t : Tr A) : Prop := Forall P (snd t).
Lemma all_pure : forall (A : Type) P (r : res A), all P (pure_t r).
Proof. intros A P r. constructor. Qed.
Lemma all_bind : forall (A B : Type) P (m : Tr A) (k : A -> Tr B), all P m -> (forall a, fst m = Ok a -> all P (k a)) -> all P (bind_t m k).
Proof.
  intros A B P m k M K. unfold all, bind_t. destruct (fst m) as [a|e]; [|exact M]. cbn [snd]. apply Forall_app. split; [exact M|apply K; reflexivity].
Qed.
Lemma all_try : forall (A : Type) P (t : Tr A) cls h, all P t -> all P (try_t t cls h).
Proof. intros A P t cls h W. exact W. Qed.
Lemma all_impl : forall (A : Type) (P Q : op -> Prop) (t : Tr A), (forall o, P o -> Q o) -> all P t -> all Q t.
Proof. intros A P Q t H. apply Forall_impl. exact H. Qed.

(** a signature check with one of the keys of the keyring *)
Definition by_key_of (kr : keyring) (o : op) : Prop := exists s K sg d, o = Op_sig s (k_key K) sg d /\ In K (map snd kr).

Lemma all_key : forall env K sg d, all (fun o => exists s, o = Op_sig s (k_key K) sg d) (key_verify_t env K sg d).
Proof. intros env K sg d. unfold key_verify_t. destruct (pk_kind (k_key K)), (k_hash K); repeat constructor; eexists; reflexivity. Qed.

Lemma all_candidates : forall env kr sg d cs, (forall K, In K cs -> In K (map snd kr)) -> all (by_key_of kr) (try_candidates_t env cs sg d).
Proof.
  intros env kr sg d cs. induction cs as [|c cs IH]; intros H; [constructor|]. cbn [try_candidates_t].
  assert (A : all (by_key_of kr) (key_verify_t env c sg d)).
  { eapply all_impl; [|apply all_key]. intros o (s & ->). exists s, c, sg, d. split; [reflexivity|]. apply H. left. reflexivity. }
  destruct (fst (key_verify_t env c sg d)) as [[]|e]; [exact A|]. destruct e; try exact A.
  unfold all. cbn [snd]. apply Forall_app. split; [exact A|]. apply IH. intros K X. apply H. right. assumption.
Qed.

Lemma all_keyring : forall env kr kid sg d, all (by_key_of kr) (keyring_verify_t env kr kid sg d).
Proof.
  intros env kr kid sg d. unfold keyring_verify_t. apply all_bind; [|intros; apply all_pure]. apply all_candidates.
  destruct (assoc bytes_eqb kid kr) as [K|] eqn:E; [|trivial]. intros K' [<-|[]]. apply assoc_in in E. apply in_map_iff. exists (kid, K). auto.
Qed.

Lemma all_entry : forall env kr e, all (by_key_of kr) (entry_verify_t env kr e).
Proof.
  intros env kr e. unfold entry_verify_t. apply all_bind; [apply all_pure|]. intros _ _. apply all_bind.
  - unfold verify_checkpoint_t. destruct (le_proof e) as [ip|]; [|apply all_pure]. destruct (ip_checkpoint ip) as [text|]; [|apply all_pure].
    apply all_bind; [apply all_pure|]. intros nc _. apply all_bind; [|intros; apply all_pure].
    unfold note_verify_t. destruct (utf8_encode _) as [n|]; [|apply all_pure].
    induction (sn_signatures (fst nc)) as [|s l IH]; [apply all_pure|]. cbn [verify_sigs_t]. destruct (bytes_eqb _ _); [|exact IH].
    apply all_try, all_bind; [apply all_pure|]. intros. apply all_keyring.
  - intros _ _. destruct (has_set e); [|apply all_pure]. unfold verify_set_t. destruct (le_promise e); [|apply all_pure].
    apply all_try, all_bind; [apply all_pure|]. intros. apply all_keyring.
Qed.

Lemma all_sct : forall env c chain kr, all (by_key_of kr) (verify_sct_t env c chain kr).
Proof. intros env c chain kr. unfold verify_sct_t. do 4 (apply all_bind; [apply all_pure|]; intros ? _). apply all_try, all_keyring. Qed.

Lemma by_key_log : forall env now l kr o, make_keyring env (get_tlog_keys now l VERIFY) = Ok kr -> by_key_of kr o ->
  exists s k sg d, o = Op_sig s k sg d /\ log_key env l k.
Proof.
  intros env now l kr o M (s & K & sg & d & -> & H). apply (keyring_value env _ kr K M) in H. destruct H as (k & s' & R & ->).
  exists s, k, sg, d. split; [reflexivity|]. apply registered_usable in R. destruct R as (m & X & U). apply tlog_keys_in in X.
  destruct X as (t & X & <- & _). exists t, s'. auto.
Qed.

Lemma ct_keys : forall env now tr kr, ct_keyring env now tr VERIFY = Ok kr -> make_keyring env (get_tlog_keys now (tr_ctlogs tr) VERIFY) = Ok kr.
Proof. intros env now tr kr. unfold ct_keyring. destruct (get_tlog_keys now (tr_ctlogs tr) VERIFY) as [|m ms]; [discriminate|]. exact (fun H => H). Qed.
Lemma rekor_keys : forall env now tr kr, rekor_keyring env now tr VERIFY = Ok kr -> make_keyring env (get_tlog_keys now (tr_tlogs tr) VERIFY) = Ok kr.
Proof. intros env now tr kr. rewrite rekor_keyring_form. destruct (get_tlog_keys now (tr_tlogs tr) VERIFY) as [|m ms]; [discriminate|]. exact (fun H => H). Qed.

(** the operations of the common part use log keys only *)
Definition on_behalf_x (env : Env) (v : Verifier) (b : Bundle) (o : op) : Prop :=
  match o with
  | Op_tsa certs t m => on_behalf env v b o
  | Op_chain roots t c => roots = vf_fulcio v /\ c = b_cert b
  | Op_sig _ k _ _ => log_key env (tr_ctlogs (vf_root v)) k \/ log_key env (tr_tlogs (vf_root v)) k
  end.
Lemma on_behalf_weaken : forall env v b o, on_behalf_x env v b o -> on_behalf env v b o.
Proof. intros env v b [s k sg d|certs t m|roots t c]; cbn; tauto. Qed.

Lemma all_loop : forall env now v b t m cas,
  (forall ca, In ca cas -> exists msg, In msg (tr_tsas (vf_root v)) /\ make_ca env msg = Ok ca) ->
  (exists raw, In raw (vm_timestamps (bm_vm (b_inner b))) /\ e_decode_tsr env raw = Ok t) -> bundle_signature b = Ok m ->
  all (on_behalf_x env v b) (timestamp_loop_t env now cas t m).
Proof.
  intros env now v b t m cas H T Sg. induction cas as [|ca cas IH]; [apply all_pure|]. cbn [timestamp_loop_t].
  specialize (IH (fun x X => H x (or_intror X))).
  destruct (Nat.ltb (length (ca_certificates now ca true)) 2) eqn:L; [exact IH|].
  assert (O : on_behalf_x env v b (Op_tsa (ca_certificates now ca true) t m)).
  { cbn. split; [|auto]. destruct (H ca (or_introl eq_refl)) as (msg & X & Q). exists msg. split; [assumption|].
    unfold make_ca in Q. inv_bind Q. inv_bind Q. inversion Q; subst ca. clear Q. unfold ca_certificates in *. cbn [ca_inner ca_certs] in *.
    destruct (is_timerange_valid now (cam_valid_for msg) true); [|discriminate]. apply map_res_ok. assumption. }
  destruct (e_tsa_verify _ _ _ _) as [u|e].
  - destruct (cam_valid_for (ca_inner ca)) as [w|]; [|constructor; [exact O|constructor]]. destruct (_ && _); [constructor; [exact O|constructor]|]. constructor; [exact O|exact IH].
  - destruct (exn_eqb e ERfc3161); [|constructor; [exact O|constructor]]. constructor; [exact O|exact IH].
Qed.

Lemma all_collect : forall env now v b l,
  (forall t, In t l -> exists raw, In raw (vm_timestamps (bm_vm (b_inner b))) /\ e_decode_tsr env raw = Ok t) ->
  all (on_behalf_x env v b) (collect_times_t env now v b l).
Proof.
  intros env now v b l. induction l as [|t l IH]; intros H; [apply all_pure|]. cbn [collect_times_t].
  apply all_bind; [apply all_pure|]. intros sg Sg. cbn [fst pure_t] in Sg. apply all_bind.
  - unfold signed_timestamp_t. apply all_bind; [apply all_pure|]. intros cas Q. cbn [fst pure_t] in Q. unfold get_timestamp_authorities in Q.
    apply all_loop; [|apply H; left; reflexivity|assumption]. intros ca X. apply (loaded_in env _ cas Q). assumption.
  - intros r _. apply all_bind; [|intros; apply all_pure]. apply IH. intros t' X. apply H. right. assumption.
Qed.

Lemma tvd_raw : forall env vm l t, timestamp_verification_data env vm = Ok (Some l) -> In t l -> exists raw, In raw (vm_timestamps vm) /\ e_decode_tsr env raw = Ok t.
Proof.
  intros env vm l t H In0. unfold timestamp_verification_data in H. destruct (vm_timestamps vm) as [|x xs]; [discriminate|].
  set (ts := x :: xs) in *. clearbody ts.
  destruct (map_res (e_decode_tsr env) ts) as [l'|e] eqn:M; cbn [try_except bind] in H.
  - inversion H; subst l'. apply map_res_ok in M. clear H. induction M as [|r y rs ys A B IH]; [destruct In0|].
    destruct In0 as [<-|In0]; [exists r; split; [left; reflexivity|assumption]|]. destruct (IH In0) as (raw & X & Y). exists raw. split; [right; assumption|assumption].
  - destruct (is_value_error e); discriminate.
Qed.

Lemma all_establish : forall env now v b, all (on_behalf_x env v b) (establish_time_t env now v b).
Proof.
  intros env now v b. unfold establish_time_t. apply all_bind; [apply all_pure|]. intros tvd _. apply all_bind.
  - destruct tvd as [l|]; [|apply all_pure]. apply all_bind; [apply all_pure|]. intros tsas _. apply all_bind; [apply all_pure|]. intros _ _.
    unfold timestamp_authority_t. apply all_bind; [apply all_pure|]. intros o Q. cbn [fst pure_t] in Q. apply all_bind; [apply all_pure|]. intros _ _.
    apply all_bind; [apply all_pure|]. intros _ _. apply all_collect. destruct o as [l'|]; [|intros t []]. intros t. apply tvd_raw. assumption.
  - intros ts _. apply all_bind; [apply all_pure|]. intros. apply all_pure.
Qed.

Lemma all_chains : forall env v b ts ch, all (on_behalf_x env v b) (verify_chains_t env v (b_cert b) ts ch).
Proof.
  intros env v b ts. induction ts as [|t ts IH]; intros ch; [apply all_pure|]. cbn [verify_chains_t]. apply all_bind; [|intros; apply IH].
  unfold verify_chain_at_time_t. apply all_bind; [|intros; apply all_pure]. apply all_try. repeat constructor.
Qed.

Lemma all_common : forall env now v b p, all (on_behalf_x env v b) (common_signing_cert_t env now v b p).
Proof.
  intros env now v b p. unfold common_signing_cert_t. apply all_bind; [apply all_establish|]. intros ts _. apply all_bind; [apply all_pure|]. intros _ _.
  apply all_bind; [apply all_chains|]. intros chain _. apply all_bind.
  - apply all_try, all_bind; [apply all_pure|]. intros kr Q. cbn [fst pure_t] in Q. apply ct_keys in Q. eapply all_impl; [|apply all_sct].
    intros o H. destruct (by_key_log _ _ _ _ _ Q H) as (s & k & sg & d & -> & L). left. assumption.
  - intros _ _. do 4 (apply all_bind; [apply all_pure|]; intros ? _). apply all_bind; [|intros; apply all_pure].
    apply all_try, all_bind; [apply all_pure|]. intros kr Q. cbn [fst pure_t] in Q. apply rekor_keys in Q. eapply all_impl; [|apply all_entry].
    intros o H. destruct (by_key_log _ _ _ _ _ Q H) as (s & k & sg & d & -> & L). right. assumption.
Qed.

(** the last part: at most one operation, with the certificate's key *)
Definition last_part (b : Bundle) (l : list op) : Prop := l = nil \/ exists s k sg d, l = [Op_sig s k sg d] /\ c_pubkey (b_cert b) = Ok k.

Lemma sb_ok : forall (A B : Type) (a : A) (k : A -> Tr B), bind_t (pure_t (Ok a)) k = k a.
Proof. intros A B a k. unfold bind_t. cbn [fst snd pure_t app]. symmetry. apply surjective_pairing. Qed.

Lemma split_artifact : forall env ps now v i b p, exists l, last_part b l /\
  snd (verify_artifact_t env ps now v i b p) = snd (common_signing_cert_t env now v b p) ++ l /\
  (l <> nil -> verify_common_signing_cert env now v b p = Ok tt).
Proof.
  intros env ps now v i b p. unfold verify_artifact_t. unfold bind_t at 1. pose proof (common_fst env now v b p) as Cf.
  destruct (fst (common_signing_cert_t env now v b p)) as [[]|e].
  - cbn [snd]. match goal with |- context [_ ++ snd ?x] => exists (snd x) end. split; [|split; [reflexivity|congruence]].
    destruct (bm_msig (b_inner b)) as [ms|]; [|left; reflexivity].
    unfold bind_t at 1. cbn [fst snd pure_t]. destruct (raise_if _ _) as [[]|e]; [|left; reflexivity]. cbn [snd app].
    destruct (c_pubkey (b_cert b)) as [k|e] eqn:K; [|left; unfold bind_t, try_t, pure_t, try_except; cbn [fst snd]; destruct (is_invalid_signature e); reflexivity].
    destruct (as_prehashed (sha256_digest env i)) as [h|e]; [|left; unfold bind_t, try_t, pure_t, try_except; cbn [fst snd]; destruct (is_invalid_signature e); reflexivity].
    right. exists (ECDSA_prehashed h), k, (ms_signature ms), (h_digest (sha256_digest env i)). split; [|exact K].
    unfold bind_t, try_t, pure_t, sig_verify_t, call_t. cbn [fst snd app].
    destruct (try_except _ _ _); [|reflexivity]. destruct (raise_if _ _); reflexivity.
  - exists nil. split; [left; reflexivity|]. rewrite app_nil_r. split; [reflexivity|congruence].
Qed.

Lemma split_dsse : forall env ps now v b p, exists l, last_part b l /\
  snd (verify_dsse_t env ps now v b p) = snd (common_signing_cert_t env now v b p) ++ l /\
  (l <> nil -> verify_common_signing_cert env now v b p = Ok tt).
Proof.
  intros env ps now v b p. unfold verify_dsse_t. unfold bind_t at 1. pose proof (common_fst env now v b p) as Cf.
  destruct (fst (common_signing_cert_t env now v b p)) as [[]|e].
  - cbn [snd]. match goal with |- context [_ ++ snd ?x] => exists (snd x) end. split; [|split; [reflexivity|congruence]].
    destruct (bundle_envelope b) as [[evp|]|e]; [|left; reflexivity|left; reflexivity].
    destruct (c_pubkey (b_cert b)) as [k|e] eqn:K; [|left; reflexivity].
    rewrite !sb_ok. unfold dsse_verify_t. destruct (pae (em_type (env_inner evp)) (em_payload (env_inner evp))) as [pa|e]; [|left; reflexivity]. destruct (raise_if (negb (Nat.eqb (length (em_sigs (env_inner evp))) 1)) EVerification) as [[]|e]; [|left; reflexivity].
    destruct (index_list (em_sigs (env_inner evp)) 0) as [sg|e]; [|left; reflexivity].
    right. exists (ECDSA SHA256), k, sg, pa. split; [|exact K].
    unfold bind_t, try_t, pure_t, sig_verify_t, call_t. cbn [fst snd app].
    destruct (try_except _ _ _); [|reflexivity]. cbn [fst snd app]. match goal with |- context [match (if ?c then ?x else ?y) with _ => _ end] => destruct (if c then x else y) end; reflexivity.
  - exists nil. split; [left; reflexivity|]. rewrite app_nil_r. split; [reflexivity|congruence].
Qed.

(** Every operation works with the trusted root's keys and certificates, the bundle's tokens and signature. *)
Theorem C97_operations : forall env ps now v b p,
  (forall i o, In o (snd (verify_artifact_t env ps now v i b p)) -> on_behalf env v b o) /\
  (forall o, In o (snd (verify_dsse_t env ps now v b p)) -> on_behalf env v b o).
Proof.
  intros env ps now v b p. pose proof (all_common env now v b p) as C. unfold all in C. rewrite Forall_forall in C.
  assert (G : forall l o, last_part b l -> In o (snd (common_signing_cert_t env now v b p) ++ l) -> on_behalf env v b o).
  { intros l o L X. apply in_app_or in X. destruct X as [X|X]; [apply on_behalf_weaken, C, X|].
    destruct L as [->|(s & k & sg & d & -> & K)]; [destruct X|]. destruct X as [<-|[]]. cbn. auto. }
  split.
  - intros i o. destruct (split_artifact env ps now v i b p) as (l & L & -> & _). apply G. assumption.
  - intros o. destruct (split_dsse env ps now v b p) as (l & L & -> & _). apply G. assumption.
Qed.

(** *** In which order *)

(** if it succeeds, one of its operations is like that *)
Definition has {A : Type} (P : op -> Prop) (t : Tr A) : Prop := forall a, fst t = Ok a -> Exists P (snd t).
Lemma has_bind_l : forall (A B : Type) P (m : Tr A) (k : A -> Tr B), has P m -> has P (bind_t m k).
Proof.
  intros A B P m k H b. unfold bind_t. destruct (fst m) as [a|e] eqn:E; [|discriminate]. intros _. cbn [snd]. apply Exists_app. left. exact (H a E).
Qed.
Lemma has_bind_r : forall (A B : Type) P (m : Tr A) (k : A -> Tr B), (forall a, fst m = Ok a -> has P (k a)) -> has P (bind_t m k).
Proof.
  intros A B P m k H b. unfold bind_t. destruct (fst m) as [a|e] eqn:E; [|discriminate]. cbn [fst snd]. intros Q. apply Exists_app. right. exact (H a eq_refl b Q).
Qed.
Lemma has_try : forall (A : Type) P (t : Tr A) cls e', has P t -> has P (try_t t cls (fun _ => Raise e')).
Proof.
  intros A P t cls e' H a. unfold try_t. cbn [fst snd]. destruct (fst t) as [x|e] eqn:E; [intros _; exact (H x E)|]. cbn [try_except]. destruct (cls e); discriminate.
Qed.
Lemma has_impl : forall (A : Type) (P Q : op -> Prop) (t : Tr A), (forall o, P o -> Q o) -> has P t -> has Q t.
Proof. intros A P Q t H X a E. eapply Exists_impl; [exact H|exact (X a E)]. Qed.

Definition accepted_by (env : Env) (kr : keyring) (o : op) : Prop := by_key_of kr o /\ succeeds env o.

Lemma key_ok_op : forall env K sg d u, fst (key_verify_t env K sg d) = Ok u -> exists s, snd (key_verify_t env K sg d) = [Op_sig s (k_key K) sg d] /\ e_sig_verify env s (k_key K) sg d = Ok tt.
Proof.
  intros env K sg d []. unfold key_verify_t. destruct (pk_kind (k_key K)), (k_hash K); intros H; try discriminate; cbn in H; eexists; split; try reflexivity; exact H.
Qed.

Lemma has_keyring : forall env kr kid sg d, has (accepted_by env kr) (keyring_verify_t env kr kid sg d).
Proof.
  intros env kr kid sg d u. unfold keyring_verify_t.
  assert (C : forall cs, (forall K, In K cs -> In K (map snd kr)) -> fst (try_candidates_t env cs sg d) = Ok true -> Exists (accepted_by env kr) (snd (try_candidates_t env cs sg d))).
  { induction cs as [|c cs IH]; intros H; cbn [try_candidates_t]; [discriminate|]. destruct (fst (key_verify_t env c sg d)) as [[]|e] eqn:E.
    - intros _. cbn [snd]. destruct (key_ok_op env c sg d tt E) as (s & -> & V). constructor. split; [|exact V]. exists s, c, sg, d. split; [reflexivity|]. apply H. left. reflexivity.
    - destruct e; try discriminate. cbn [fst snd]. intros Q. apply Exists_app. right. apply IH; [|exact Q]. intros K X. apply H. right. exact X. }
  set (cs := match assoc bytes_eqb kid kr with Some k => [k] | None => map snd kr end).
  assert (Sub : forall K, In K cs -> In K (map snd kr)).
  { unfold cs. destruct (assoc bytes_eqb kid kr) as [K|] eqn:E; [|trivial]. intros K' [<-|[]]. apply assoc_in in E. apply in_map_iff. exists (kid, K). auto. }
  specialize (C cs Sub). unfold bind_t. destruct (fst (try_candidates_t env cs sg d)) as [[]|e]; cbn [fst snd pure_t negb raise_if]; [|discriminate|discriminate].
  intros _. apply Exists_app. left. apply C. reflexivity.
Qed.

Lemma has_note : forall env kr kid n, has (accepted_by env kr) (note_verify_t env kr kid n).
Proof.
  intros env kr kid n. unfold note_verify_t. destruct (utf8_encode _) as [note|]; [|intros u; discriminate].
  induction (sn_signatures n) as [|s l IH]; [intros u; discriminate|]. cbn [verify_sigs_t]. destruct (bytes_eqb _ _); [|exact IH].
  apply has_try, has_bind_r. intros. apply has_keyring.
Qed.

Lemma has_entry : forall env kr e, has (accepted_by env kr) (entry_verify_t env kr e).
Proof.
  intros env kr e. unfold entry_verify_t. apply has_bind_r. intros _ _. apply has_bind_l. unfold verify_checkpoint_t.
  destruct (le_proof e) as [ip|]; [|intros u; discriminate]. destruct (ip_checkpoint ip) as [text|]; [|intros u; discriminate].
  apply has_bind_r. intros nc _. apply has_bind_l. apply has_note.
Qed.

Lemma has_sct : forall env c chain kr, has (accepted_by env kr) (verify_sct_t env c chain kr).
Proof. intros env c chain kr. unfold verify_sct_t. do 4 (apply has_bind_r; intros ? _). apply has_try, has_keyring. Qed.

Lemma has_chains : forall env v c ts ch, ts <> nil -> has (fun o => exists t, o = Op_chain (vf_fulcio v) t c) (verify_chains_t env v c ts ch).
Proof.
  intros env v c [|t ts] ch N; [contradiction|]. cbn [verify_chains_t]. apply has_bind_l. unfold verify_chain_at_time_t. apply has_bind_l. apply has_try.
  intros u _. constructor. exists (t_time t). reflexivity.
Qed.

(** if it succeeds, so do its constructions of chains *)
Definition chains_found {A : Type} (env : Env) (t : Tr A) : Prop := forall a, fst t = Ok a -> Forall (fun o => is_chain o = true -> succeeds env o) (snd t).
Lemma found_bind : forall (A B : Type) env (m : Tr A) (k : A -> Tr B), chains_found env m -> (forall a, fst m = Ok a -> chains_found env (k a)) -> chains_found env (bind_t m k).
Proof.
  intros A B env m k M K b. unfold bind_t. destruct (fst m) as [a|e] eqn:E; [|discriminate]. cbn [fst snd]. intros Q. apply Forall_app. split; [exact (M a E)|exact (K a eq_refl b Q)].
Qed.
Lemma found_none : forall (A : Type) env (t : Tr A), all (fun o => is_chain o = false) t -> chains_found env t.
Proof. intros A env t H a _. eapply Forall_impl; [|exact H]. cbn. intros o X Y. congruence. Qed.
Lemma found_pure : forall (A : Type) env (r : res A), chains_found env (pure_t r).
Proof. intros A env r a _. constructor. Qed.

Lemma found_chains : forall env v c ts ch, chains_found env (verify_chains_t env v c ts ch).
Proof.
  intros env v c ts. induction ts as [|t ts IH]; intros ch; [apply found_pure|]. cbn [verify_chains_t]. apply found_bind; [|intros; apply IH].
  unfold verify_chain_at_time_t. apply found_bind; [|intros; apply found_pure]. intros a. unfold try_t, call_t. cbn [fst snd].
  destruct (e_chain env (vf_fulcio v) (t_time t) c) as [chain|e] eqn:E; cbn [try_except].
  - intros _. constructor; [|constructor]. intros _. exists chain. exact E.
  - destruct (is_chain_error e); discriminate.
Qed.

Lemma no_chain_loop : forall env now t m cas, all (fun o => is_chain o = false) (timestamp_loop_t env now cas t m).
Proof.
  intros env now t m cas. induction cas as [|ca cas IH]; [apply all_pure|]. cbn [timestamp_loop_t]. destruct (Nat.ltb _ 2); [exact IH|].
  destruct (e_tsa_verify _ _ _ _) as [u|e].
  - destruct (cam_valid_for (ca_inner ca)) as [w|]; [|repeat constructor]. destruct (_ && _); [repeat constructor|]. constructor; [reflexivity|exact IH].
  - destruct (exn_eqb e ERfc3161); [|repeat constructor]. constructor; [reflexivity|exact IH].
Qed.

Lemma no_chain_establish : forall env now v b, all (fun o => is_chain o = false) (establish_time_t env now v b).
Proof.
  intros env now v b. unfold establish_time_t. apply all_bind; [apply all_pure|]. intros tvd _. apply all_bind.
  - destruct tvd as [l|]; [|apply all_pure]. do 2 (apply all_bind; [apply all_pure|]; intros ? _). unfold timestamp_authority_t.
    do 3 (apply all_bind; [apply all_pure|]; intros ? _). match goal with |- all _ (collect_times_t _ _ _ _ ?r) => generalize r end. intros r.
    induction r as [|t r IH]; [apply all_pure|]. cbn [collect_times_t]. apply all_bind; [apply all_pure|]. intros sg _. apply all_bind.
    + unfold signed_timestamp_t. apply all_bind; [apply all_pure|]. intros. apply no_chain_loop.
    + intros. apply all_bind; [exact IH|]. intros. apply all_pure.
  - intros. apply all_bind; [apply all_pure|]. intros. apply all_pure.
Qed.

Lemma by_key_no_chain : forall kr o, by_key_of kr o -> is_chain o = false.
Proof. intros kr o (s & K & sg & d & -> & _). reflexivity. Qed.

Lemma common_vetted : forall env now v b p, verify_common_signing_cert env now v b p = Ok tt -> vetted env v b (snd (common_signing_cert_t env now v b p)).
Proof.
  intros env now v b p H. rewrite <- common_fst in H.
  assert (Up : forall P : op -> Prop, has P (common_signing_cert_t env now v b p) -> exists o, In o (snd (common_signing_cert_t env now v b p)) /\ P o).
  { intros P X. apply Exists_exists. exact (X tt H). }
  split; [|split; [|split]].
  - assert (F : chains_found env (common_signing_cert_t env now v b p)); [|specialize (F tt H); rewrite Forall_forall in F; exact F].
    unfold common_signing_cert_t. apply found_bind; [apply found_none, no_chain_establish|]. intros ts _. apply found_bind; [apply found_pure|]. intros _ _.
    apply found_bind; [apply found_chains|]. intros chain _. apply found_bind.
    + apply found_none, all_try, all_bind; [apply all_pure|]. intros kr _. eapply all_impl; [apply by_key_no_chain|apply all_sct].
    + intros _ _. do 4 (apply found_bind; [apply found_pure|]; intros ? _). apply found_bind; [|intros; apply found_pure].
      apply found_none, all_try, all_bind; [apply all_pure|]. intros kr _. eapply all_impl; [apply by_key_no_chain|apply all_entry].
  - destruct (Up (fun o => exists t, o = Op_chain (vf_fulcio v) t (b_cert b))) as (o & X & t & ->); [|exists t; exact X].
    unfold common_signing_cert_t. apply has_bind_r. intros ts _. apply has_bind_r. intros u Q. apply has_bind_l. apply has_chains.
    intros ->. discriminate.
  - destruct (Up (fun o => exists s k sg d, o = Op_sig s k sg d /\ log_key env (tr_ctlogs (vf_root v)) k /\ succeeds env o)) as (o & X & s & k & sg & d & -> & Y).
    + unfold common_signing_cert_t. do 3 (apply has_bind_r; intros ? _). apply has_bind_l. apply has_try, has_bind_r. intros kr Q. cbn [fst pure_t] in Q. apply ct_keys in Q.
      eapply has_impl; [|apply has_sct]. intros o [B Sc]. destruct (by_key_log _ _ _ _ _ Q B) as (s & k & sg & d & -> & L). exists s, k, sg, d. auto.
    + exists s, k, sg, d. auto.
  - destruct (Up (fun o => exists s k sg d, o = Op_sig s k sg d /\ log_key env (tr_tlogs (vf_root v)) k /\ succeeds env o)) as (o & X & s & k & sg & d & -> & Y).
    + unfold common_signing_cert_t. do 8 (apply has_bind_r; intros ? _). apply has_bind_l. apply has_try, has_bind_r. intros kr Q. cbn [fst pure_t] in Q. apply rekor_keys in Q.
      eapply has_impl; [|apply has_entry]. intros o [B Sc]. destruct (by_key_log _ _ _ _ _ Q B) as (s & k & sg & d & -> & L). exists s, k, sg, d. auto.
    + exists s, k, sg, d. auto.
Qed.

(** A signature is checked with a key that belongs to no log of the trusted root only once, at the end,
    with the key of the certificate, and after the certificate has been vetted. *)
Theorem C97_certificate_key_last : forall env ps now v b p pre s k sg d post,
  (exists i, snd (verify_artifact_t env ps now v i b p) = pre ++ Op_sig s k sg d :: post) \/
  snd (verify_dsse_t env ps now v b p) = pre ++ Op_sig s k sg d :: post ->
  ~ log_key env (tr_ctlogs (vf_root v)) k -> ~ log_key env (tr_tlogs (vf_root v)) k ->
  post = nil /\ c_pubkey (b_cert b) = Ok k /\ vetted env v b pre.
Proof.
  intros env ps now v b p pre s k sg d post H N1 N2.
  assert (Q : exists l, last_part b l /\ snd (common_signing_cert_t env now v b p) ++ l = pre ++ Op_sig s k sg d :: post /\
              (l <> nil -> verify_common_signing_cert env now v b p = Ok tt)).
  { destruct H as [(i & H)|H].
    - destruct (split_artifact env ps now v i b p) as (l & L & E & O). exists l. rewrite <- E. auto.
    - destruct (split_dsse env ps now v b p) as (l & L & E & O). exists l. rewrite <- E. auto. }
  destruct Q as (l & L & E & O). pose proof (all_common env now v b p) as C. unfold all in C. rewrite Forall_forall in C.
  assert (No : ~ In (Op_sig s k sg d) (snd (common_signing_cert_t env now v b p))).
  { intros X. apply C in X. cbn in X. tauto. }
  destruct L as [->|(s' & k' & sg' & d' & -> & K)].
  - rewrite app_nil_r in E. exfalso. apply No. rewrite E. apply in_or_app. right. left. reflexivity.
  - destruct post as [|x post].
    + apply app_inj_tail in E. destruct E as [<- E]. inversion E; subst. split; [reflexivity|]. split; [exact K|]. apply common_vetted. apply O. discriminate.
    + exfalso. apply No. destruct (exists_last (l := x :: post)) as (post' & z & Ez); [discriminate|]. rewrite Ez in E.
      change (pre ++ Op_sig s k sg d :: post' ++ [z]) with (pre ++ (Op_sig s k sg d :: post') ++ [z]) in E. rewrite app_assoc in E.
      apply app_inj_tail in E. destruct E as [-> _]. apply in_or_app. right. left. reflexivity.
Qed.

(** A bundle with more than 32 timestamps, or with one twice, costs no operation at all. *)
Theorem C97_too_many_timestamps : forall env ps now v b p l,
  timestamp_verification_data env (bm_vm (b_inner b)) = Ok (Some l) ->
  32 < length l \/ (exists l1 t l2 t' l3, l = l1 ++ t :: l2 ++ t' :: l3 /\ tsr_raw t = tsr_raw t') ->
  (forall i, snd (verify_artifact_t env ps now v i b p) = nil) /\ snd (verify_dsse_t env ps now v b p) = nil.
Proof.
  intros env ps now v b p l T H.
  assert (E : snd (establish_time_t env now v b) = nil /\ exists e, fst (establish_time_t env now v b) = Raise e).
  { unfold establish_time_t. rewrite T. unfold bind_t at 1. cbn [fst snd pure_t app].
    destruct (get_timestamp_authorities env (vf_root v)) as [cas|e]; [|split; [reflexivity|exists e; reflexivity]].
    destruct (raise_if (match cas with nil => true | _ => false end) EVerification) as [[]|e] eqn:R;
      [|unfold bind_t; cbn [fst snd pure_t app]; rewrite R; split; [reflexivity|exists e; reflexivity]].
    unfold timestamp_authority_t. rewrite T. unfold bind_t. cbn [fst snd pure_t app]. rewrite R. cbn [fst snd app].
    destruct (Nat.ltb MAX_ALLOWED_TIMESTAMP (length l)) eqn:L; [split; [reflexivity|exists EVerification; reflexivity]|].
    apply Nat.ltb_ge in L. unfold MAX_ALLOWED_TIMESTAMP in L. destruct H as [H|(l1 & t & l2 & t' & l3 & -> & Q)]; [lia|].
    assert (D : has_dup (l1 ++ t :: l2 ++ t' :: l3) = true).
    { clear L T. induction l1 as [|y l1 IH]; cbn [app has_dup]; apply orb_true_iff; [left|right; exact IH].
      apply existsb_exists. exists t'. split; [apply in_or_app; right; left; reflexivity|]. rewrite Q. apply bytes_eqb_refl. }
    cbn [raise_if]. rewrite D. split; [reflexivity|exists EVerification; reflexivity]. }
  destruct E as (E1 & e & E2).
  assert (C : snd (common_signing_cert_t env now v b p) = nil /\ exists e, fst (common_signing_cert_t env now v b p) = Raise e).
  { unfold common_signing_cert_t. split; [|exists e]; unfold bind_t at 1; rewrite E2; [exact E1|reflexivity]. }
  destruct C as (C1 & e' & C2). split; [intros i; unfold verify_artifact_t|unfold verify_dsse_t]; unfold bind_t at 1; rewrite C2; exact C1.
Qed.

(** *** Nothing else is asked *)

Section Other.
Variable env : Env.
Variables (sig2 : sig_scheme -> pubkey -> bytes -> bytes -> res unit) (chain2 : list Cert -> time -> Cert -> res (list Cert)) (tsa2 : list Cert -> TSR -> bytes -> res unit).
Let env2 := other_crypto env sig2 chain2 tsa2.
Variable ps : Parsers.
Variable now : time.
Notation alike := (same_outcomes env sig2 chain2 tsa2).
Definition same {A} (m2 m : Tr A) : Prop := alike (snd m) -> m2 = m.
Lemma same_pure : forall A (r2 r : res A), r2 = r -> same (pure_t r2) (pure_t r).
Proof. intros A r2 r -> _. reflexivity. Qed.
Lemma same_bind : forall A B (m2 m : Tr A) (k2 k : A -> Tr B), same m2 m -> (forall x, same (k2 x) (k x)) -> same (bind_t m2 k2) (bind_t m k).
Proof.
  intros A B m2 m k2 k Hm Hk H. unfold bind_t in *. destruct m as [[x|e] l]; cbn [fst snd] in *.
  - rewrite Hm by (intros o I; apply H, in_or_app; auto). cbn [fst snd]. rewrite (Hk x); [reflexivity|]. intros o I. apply H, in_or_app. auto.
  - rewrite Hm by exact H. reflexivity.
Qed.
Lemma same_try : forall A (m2 m : Tr A) cls h, same m2 m -> same (try_t m2 cls h) (try_t m cls h).
Proof. intros A m2 m cls h Hm H. unfold try_t in *. rewrite Hm; [reflexivity|exact H]. Qed.
Lemma same_sig : forall s k sg d, same (sig_verify_t env2 s k sg d) (sig_verify_t env s k sg d).
Proof. intros s k sg d H. unfold sig_verify_t, call_t in *. f_equal. exact (H _ (or_introl eq_refl)). Qed.
Lemma same_key : forall k sg d, same (key_verify_t env2 k sg d) (key_verify_t env k sg d).
Proof. intros k sg d. unfold key_verify_t. destruct (pk_kind (k_key k)), (k_hash k); try (apply same_pure; reflexivity); apply same_sig. Qed.
Lemma same_candidates : forall cs sg d, same (try_candidates_t env2 cs sg d) (try_candidates_t env cs sg d).
Proof.
  induction cs as [|c cs IH]; intros sg d; [apply same_pure; reflexivity|]. intros H. cbn [try_candidates_t] in *. cbv zeta in *.
  pose proof (same_key c sg d) as Hk. unfold same in *. destruct (key_verify_t env c sg d) as [[u|e] l]; cbn [fst snd] in *.
  - rewrite Hk by exact H. reflexivity.
  - destruct e; cbn [fst snd] in *; try (rewrite Hk by exact H; reflexivity).
    rewrite Hk by (intros o I; apply H, in_or_app; auto). cbn [fst snd]. rewrite IH; [reflexivity|]. intros o I. apply H, in_or_app. auto.
Qed.
Lemma same_keyring : forall kr kid sg d, same (keyring_verify_t env2 kr kid sg d) (keyring_verify_t env kr kid sg d).
Proof. intros kr kid sg d. unfold keyring_verify_t. apply same_bind; [apply same_candidates|]. intros x. apply same_pure. reflexivity. Qed.
Lemma same_sigs : forall kr kid note sigs, same (verify_sigs_t env2 kr kid note sigs) (verify_sigs_t env kr kid note sigs).
Proof.
  intros kr kid note sigs. induction sigs as [|s sigs IH]; cbn [verify_sigs_t]; [apply same_pure; reflexivity|].
  destruct (bytes_eqb (rs_hash s) (firstn 4 kid)); [|exact IH]. apply same_try, same_bind; [apply same_pure; reflexivity|]. intros raw. apply same_keyring.
Qed.
Lemma same_note : forall kr kid n, same (note_verify_t env2 kr kid n) (note_verify_t env kr kid n).
Proof. intros kr kid n. unfold note_verify_t. destruct (utf8_encode (sn_note n)); [apply same_sigs|apply same_pure; reflexivity]. Qed.
Lemma same_checkpoint : forall kr e, same (verify_checkpoint_t env2 kr e) (verify_checkpoint_t env kr e).
Proof.
  intros kr e. unfold verify_checkpoint_t. destruct (le_proof e) as [ip|]; [|apply same_pure; reflexivity]. destruct (ip_checkpoint ip); [|apply same_pure; reflexivity].
  apply same_bind; [apply same_pure; reflexivity|]. intros nc. apply same_bind; [apply same_note|]. intros u. apply same_pure. reflexivity.
Qed.
Lemma same_entry : forall kr e, same (entry_verify_t env2 kr e) (entry_verify_t env kr e).
Proof.
  intros kr e. unfold entry_verify_t. apply same_bind; [apply same_pure; reflexivity|]. intros u. apply same_bind; [apply same_checkpoint|]. intros u'.
  destruct (has_set e); [|apply same_pure; reflexivity]. unfold verify_set_t. destruct (le_promise e); [|apply same_pure; reflexivity].
  apply same_try, same_bind; [apply same_pure; reflexivity|]. intros data. apply same_keyring.
Qed.
Lemma same_sct : forall c chain kr, same (verify_sct_t env2 c chain kr) (verify_sct_t env c chain kr).
Proof.
  intros c chain kr. unfold verify_sct_t. do 4 (apply same_bind; [apply same_pure; reflexivity|]; intros ?). apply same_try, same_keyring.
Qed.
Lemma same_timestamp : forall tsr msg cas, same (timestamp_loop_t env2 now cas tsr msg) (timestamp_loop_t env now cas tsr msg).
Proof.
  intros tsr msg cas. induction cas as [|ca cas IH]; [apply same_pure; reflexivity|]. intros H. cbn [timestamp_loop_t] in *. cbv zeta in *.
  destruct (Nat.ltb (length (ca_certificates now ca true)) 2); [apply IH, H|].
  assert (E : e_tsa_verify env2 (ca_certificates now ca true) tsr msg = e_tsa_verify env (ca_certificates now ca true) tsr msg).
  { assert (I : In (Op_tsa (ca_certificates now ca true) tsr msg)
      (snd (match e_tsa_verify env (ca_certificates now ca true) tsr msg with
            | Raise e => if exn_eqb e ERfc3161 then (fst (timestamp_loop_t env now cas tsr msg), Op_tsa (ca_certificates now ca true) tsr msg :: snd (timestamp_loop_t env now cas tsr msg))
                         else (Raise e, [Op_tsa (ca_certificates now ca true) tsr msg])
            | Ok _ => match cam_valid_for (ca_inner ca) with
              | None => (Raise EAttribute, [Op_tsa (ca_certificates now ca true) tsr msg])
              | Some w => if (tr_start w <=? tsr_time tsr)%Z && match tr_end w with None => true | Some e => (tsr_time tsr <? e)%Z end
                then (Ok (Some (mkTime TIMESTAMP_AUTHORITY (tsr_time tsr))), [Op_tsa (ca_certificates now ca true) tsr msg])
                else (fst (timestamp_loop_t env now cas tsr msg), Op_tsa (ca_certificates now ca true) tsr msg :: snd (timestamp_loop_t env now cas tsr msg)) end end))).
    { destruct (e_tsa_verify env (ca_certificates now ca true) tsr msg) as [u|e].
      - destruct (cam_valid_for (ca_inner ca)) as [w|]; [destruct (_ && _)|]; left; reflexivity.
      - destruct (exn_eqb e ERfc3161); left; reflexivity. }
    exact (H _ I). }
  rewrite E. clear E. destruct (e_tsa_verify env (ca_certificates now ca true) tsr msg) as [u|e].
  - destruct (cam_valid_for (ca_inner ca)) as [w|]; [|reflexivity]. destruct (_ && _); [reflexivity|]. rewrite IH; [reflexivity|]. intros o I. apply H. right. exact I.
  - destruct (exn_eqb e ERfc3161); [|reflexivity]. rewrite IH; [reflexivity|]. intros o I. apply H. right. exact I.
Qed.
Lemma same_collect : forall v b l, same (collect_times_t env2 now v b l) (collect_times_t env now v b l).
Proof.
  intros v b l. induction l as [|t l IH]; cbn [collect_times_t]; [apply same_pure; reflexivity|]. apply same_bind; [apply same_pure; reflexivity|]. intros sg.
  apply same_bind; [|intros r; apply same_bind; [exact IH|intros rest; apply same_pure; reflexivity]].
  unfold signed_timestamp_t. apply same_bind; [apply same_pure; reflexivity|]. intros cas. apply same_timestamp.
Qed.
Lemma same_establish : forall v b, same (establish_time_t env2 now v b) (establish_time_t env now v b).
Proof.
  intros v b. unfold establish_time_t. apply same_bind; [apply same_pure; reflexivity|]. intros tvd. apply same_bind.
  - destruct tvd as [l|]; [|apply same_pure; reflexivity]. do 2 (apply same_bind; [apply same_pure; reflexivity|]; intros ?).
    unfold timestamp_authority_t. do 3 (apply same_bind; [apply same_pure; reflexivity|]; intros ?). apply same_collect.
  - intros l. apply same_bind; [apply same_pure; reflexivity|]. intros l'. apply same_pure. reflexivity.
Qed.
Lemma same_chains : forall v c ts chain, same (verify_chains_t env2 v c ts chain) (verify_chains_t env v c ts chain).
Proof.
  intros v c ts. induction ts as [|t ts IH]; intros chain; cbn [verify_chains_t]; [apply same_pure; reflexivity|]. apply same_bind; [|intros; apply IH].
  unfold verify_chain_at_time_t. apply same_bind; [|intros; apply same_pure; reflexivity]. apply same_try. intros H. unfold call_t in *. f_equal. exact (H _ (or_introl eq_refl)).
Qed.
Lemma same_common : forall v b p, same (common_signing_cert_t env2 now v b p) (common_signing_cert_t env now v b p).
Proof.
  intros v b p. unfold common_signing_cert_t. cbv zeta. apply same_bind; [apply same_establish|]. intros times. apply same_bind; [apply same_pure; reflexivity|]. intros u.
  apply same_bind; [apply same_chains|]. intros chain. apply same_bind; [apply same_try, same_bind; [apply same_pure; reflexivity|intros kr; apply same_sct]|]. intros u1.
  do 4 (apply same_bind; [apply same_pure; reflexivity|]; intros ?). apply same_bind; [apply same_try, same_bind; [apply same_pure; reflexivity|intros kr; apply same_entry]|].
  intros u2. apply same_pure. reflexivity.
Qed.
End Other.

(** The result depends on the operations of the list and on no others: with other cryptography that
    only agrees on these, verification ends the same and performs the same operations. *)
Theorem C97_nothing_else : forall env ps now v b p sig2 chain2 tsa2, let env2 := other_crypto env sig2 chain2 tsa2 in
  (forall i, same_outcomes env sig2 chain2 tsa2 (snd (verify_artifact_t env ps now v i b p)) ->
     verify_artifact env2 ps now v i b p = verify_artifact env ps now v i b p /\
     snd (verify_artifact_t env2 ps now v i b p) = snd (verify_artifact_t env ps now v i b p)) /\
  (same_outcomes env sig2 chain2 tsa2 (snd (verify_dsse_t env ps now v b p)) ->
     verify_dsse env2 ps now v b p = verify_dsse env ps now v b p /\
     snd (verify_dsse_t env2 ps now v b p) = snd (verify_dsse_t env ps now v b p)).
Proof.
  intros env ps now v b p sig2 chain2 tsa2 env2.
  assert (A : forall i, same env sig2 chain2 tsa2 (verify_artifact_t env2 ps now v i b p) (verify_artifact_t env ps now v i b p)).
  { intros i. unfold verify_artifact_t. apply same_bind; [apply same_common|]. intros u. cbv zeta. destruct (bm_msig (b_inner b)) as [ms|]; [|apply same_pure; reflexivity].
    apply same_bind; [apply same_pure; reflexivity|]. intros u1. apply same_bind.
    - apply same_try. apply same_bind; [apply same_pure; reflexivity|]. intros key. apply same_bind; [apply same_pure; reflexivity|]. intros h. apply same_sig.
    - intros u2. apply same_bind; [apply same_pure; reflexivity|]. intros u3. apply same_pure. reflexivity. }
  assert (D : same env sig2 chain2 tsa2 (verify_dsse_t env2 ps now v b p) (verify_dsse_t env ps now v b p)).
  { unfold verify_dsse_t. apply same_bind; [apply same_common|]. intros u. apply same_bind; [apply same_pure; reflexivity|]. intros [evp|]; [|apply same_pure; reflexivity].
    apply same_bind; [apply same_pure; reflexivity|]. intros key. apply same_bind.
    - unfold dsse_verify_t. do 3 (apply same_bind; [apply same_pure; reflexivity|]; intros ?). apply same_bind; [apply same_try, same_sig|]. intros u1. apply same_pure. reflexivity.
    - intros u1. cbv zeta. apply same_bind; [apply same_pure; reflexivity|]. intros u2. apply same_pure. reflexivity. }
  split.
  - intros i H. specialize (A i H). rewrite <- (proj1 (C97_same_results env2 ps now v b p) i), <- (proj1 (C97_same_results env ps now v b p) i), A. auto.
  - intros H. specialize (D H). rewrite <- (proj2 (C97_same_results env2 ps now v b p)), <- (proj2 (C97_same_results env ps now v b p)), D. auto.
Qed.

(** ** Examples *)

Definition ops_of (b : Bundle) : list op := snd (verify_artifact_t vx_env vx_parsers vx_now vx_verifier (In_bytes vx_input) b vx_policy).

(** a bundle with a promise: a chain, the SCT, the checkpoint, the promise, the signature *)
Example ex_ops : map (fun o => match o with Op_sig _ k _ _ => k | _ => cx_pub end) (ops_of vx_artifact1) = [cx_pub; mkPub (KEc P256) sx_ct_key; cx_pub; cx_pub; vx_key] /\
  map is_chain (ops_of vx_artifact1) = [true; false; false; false; false].
Proof. split; vm_compute; reflexivity. Qed.
(** a bundle with a timestamp: the first authority has one certificate only and is passed over, the second is asked *)
Example ex_ops_stamped : map is_tsa (ops_of vx_artifact2) = [true; false; false; false; false] /\
  bounded_work (vf_root vx_verifier) (ops_of vx_artifact2).
Proof. split; [vm_compute; reflexivity|]. exact (proj1 (C97_bounded_work vx_env vx_parsers vx_now vx_verifier vx_artifact2 vx_policy) (In_bytes vx_input)). Qed.
(** the hypotheses of [C97_certificate_key_last] are met *)
Example ex_key_last : exists pre s sg d, ops_of vx_artifact1 = pre ++ [Op_sig s vx_key sg d] /\ ~ log_key vx_env (tr_ctlogs vx_tr) vx_key /\ ~ log_key vx_env (tr_tlogs vx_tr) vx_key.
Proof.
  do 4 eexists. split; [|split].
  - rewrite (app_removelast_last (Op_chain nil 0%Z vx_leaf)); [|vm_compute; discriminate].
    replace (last (ops_of vx_artifact1) (Op_chain nil 0%Z vx_leaf)) with (Op_sig (ECDSA_prehashed SHA256) vx_key vx_sig vx_digest) by (vm_compute; reflexivity). reflexivity.
  - intros (t & s & [<-|[]] & U). destruct (or_key vx_env _ _ _ _ eq_refl eq_refl U) as [Q _]. vm_compute in Q. discriminate.
  - intros (t & s & [<-|[]] & U). destruct (or_key vx_env _ _ _ _ eq_refl eq_refl U) as [Q _]. vm_compute in Q. discriminate.
Qed.
(** a timestamp twice *)
Definition twice_bundle : Bundle := vx_bundle vx_entry2 [vx_token x20 vx_sig; vx_token x20 vx_sig] (Some vx_ms) None.
Example ex_twice : ops_of twice_bundle = nil /\ verify_artifact vx_env vx_parsers vx_now vx_verifier (In_bytes vx_input) twice_bundle vx_policy = Raise EVerification.
Proof.
  split; [|vm_compute; reflexivity].
  assert (T : exists t, timestamp_verification_data vx_env (bm_vm (b_inner twice_bundle)) = Ok (Some [t; t])) by (eexists; vm_compute; reflexivity).
  destruct T as (t & T). exact (proj1 (C97_too_many_timestamps vx_env vx_parsers vx_now vx_verifier twice_bundle vx_policy [t; t] T
    (or_intror (ex_intro _ nil (ex_intro _ t (ex_intro _ nil (ex_intro _ t (ex_intro _ nil (conj eq_refl eq_refl)))))))) (In_bytes vx_input)).
Qed.

(** cryptography that accepts no timestamp and builds chains for one moment only is good enough for
    the bundle with a promise, and not for the other one *)
Definition ops_chain (roots : list Cert) (t : time) (c : Cert) : res (list Cert) :=
  if existsb (fun o => match o with Op_chain _ t' _ => (t =? t')%Z | _ => false end) (ops_of vx_artifact1) then e_chain vx_env roots t c else Raise EValue.
Example ex_nothing_else :
  same_outcomes vx_env (e_sig_verify vx_env) ops_chain (fun _ _ _ => Raise ERfc3161) (ops_of vx_artifact1) /\
  verify_artifact (other_crypto vx_env (e_sig_verify vx_env) ops_chain (fun _ _ _ => Raise ERfc3161)) vx_parsers vx_now vx_verifier (In_bytes vx_input) vx_artifact1 vx_policy = Ok tt /\
  verify_artifact (other_crypto vx_env (e_sig_verify vx_env) ops_chain (fun _ _ _ => Raise ERfc3161)) vx_parsers vx_now vx_verifier (In_bytes vx_input) vx_artifact2 vx_policy = Raise EVerification.
Proof.
  assert (S : same_outcomes vx_env (e_sig_verify vx_env) ops_chain (fun _ _ _ => Raise ERfc3161) (ops_of vx_artifact1)).
  { intros o I. assert (T : forallb (fun o => negb (is_tsa o)) (ops_of vx_artifact1) = true) by (vm_compute; reflexivity).
    rewrite forallb_forall in T. specialize (T o I). destruct o as [s k sg d|certs t m|roots t c]; [reflexivity|discriminate|].
    unfold ops_chain. replace (existsb _ _) with true; [reflexivity|]. symmetry. apply existsb_exists. exists (Op_chain roots t c). split; [exact I|apply Z.eqb_refl]. }
  split; [exact S|]. split; [|vm_compute; reflexivity].
  destruct (proj1 (C97_nothing_else vx_env vx_parsers vx_now vx_verifier vx_artifact1 vx_policy (e_sig_verify vx_env) ops_chain (fun _ _ _ => Raise ERfc3161)) (In_bytes vx_input) S) as [-> _].
  vm_compute. reflexivity.
Qed.

Print Assumptions C97_same_results.
Print Assumptions C97_bounded_work.
Print Assumptions C97_operations.
Print Assumptions C97_certificate_key_last.
Print Assumptions C97_too_many_timestamps.
Print Assumptions C97_nothing_else.
