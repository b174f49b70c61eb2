From Verif Require Import Base Messages Env Keyring.

(** ** Independent specification *)

(** Which verification scheme a trusted root's key details name, and for which
    class of key.  Details not listed name no supported scheme. *)
Definition scheme_of_details (d : key_details) : option (key_class * sig_scheme) :=
  match d with
  | PKCS1_RSA_PKCS1V5 => Some (CRsa, RSA_PKCS1v15 SHA256)
  | PKIX_RSA_PKCS1V15_2048_SHA256 => Some (CRsa, RSA_PKCS1v15 SHA256)
  | PKIX_RSA_PKCS1V15_3072_SHA256 => Some (CRsa, RSA_PKCS1v15 SHA256)
  | PKIX_RSA_PKCS1V15_4096_SHA256 => Some (CRsa, RSA_PKCS1v15 SHA256)
  | PKIX_ECDSA_P256_SHA_256 => Some (CEc, ECDSA SHA256)
  | PKIX_ECDSA_P384_SHA_384 => Some (CEc, ECDSA SHA384)
  | PKIX_ECDSA_P521_SHA_512 => Some (CEc, ECDSA SHA512)
  | PKIX_ED25519 => Some (CEd25519, ED25519)
  | PKIX_ED25519_PH | KD_other _ => None
  end.

(** [usable env m k s]: the trusted-root key message [m] parses to key [k], whose
    class is the declared one, and its declared scheme is [s]. *)
Definition usable (env : Env) (m : PublicKeyMsg) (k : pubkey) (s : sig_scheme) : Prop :=
  exists raw cls, pkm_raw m = Some raw /\ raw <> nil /\
    scheme_of_details (pkm_details m) = Some (cls, s) /\
    e_load_key env raw = Ok k /\ kind_in (pk_kind k) cls = true.

Definition loadable (env : Env) (m : PublicKeyMsg) : Prop := exists k s, usable env m k s.

(** The id of a key: SHA-256 of its SubjectPublicKeyInfo. *)
Definition msg_id (env : Env) (k : pubkey) : bytes := e_hash env SHA256 (pk_spki k).

Section P.
Variable env : Env.

(** A [Key] object is the image of a usable message. *)
Definition key_of (k : pubkey) (s : sig_scheme) : Key :=
  mkKey (match s with RSA_PKCS1v15 h | ECDSA h | ECDSA_prehashed h => Some h | ED25519 => None end)
        k (msg_id env k).

Lemma make_key_ok : forall m K, make_key env m = Ok K <->
  exists k s, usable env m k s /\ K = key_of k s.
Proof.
  intros m K. unfold make_key, usable, load_der_public_key, key_id, key_of, msg_id. split.
  - intros E. destruct (pkm_raw m) as [[|b raw]|]; try discriminate.
    destruct (pkm_details m) eqn:D; simpl in E; try discriminate;
      destruct (e_load_key env (b :: raw)) as [k|] eqn:L; try discriminate;
      destruct (kind_in (pk_kind k) _) eqn:Kd in E; try discriminate;
      simpl in E; inversion E; subst; clear E;
      (exists k; eexists; split;
       [exists (b :: raw); eexists; split; [reflexivity|]; split; [discriminate|];
        split; [simpl; reflexivity|]; split; [assumption|exact Kd] | reflexivity]).
  - intros (k & s & (raw & cls & Hr & Hne & Hs & Hl & Hk) & ->). rewrite Hr.
    destruct raw as [|b raw]; [contradiction|].
    destruct (pkm_details m); simpl in Hs; inversion Hs; subst; simpl;
      rewrite Hl, Hk; reflexivity.
Qed.

Lemma make_key_raise : forall m e, make_key env m = Raise e -> e = EVerification.
Proof.
  intros m e. unfold make_key, load_der_public_key.
  destruct (pkm_raw m) as [[|b raw]|]; try congruence.
  destruct (pkm_details m); simpl; try congruence;
    destruct (e_load_key env (b :: raw)) as [k|]; simpl; try congruence;
    destruct (kind_in (pk_kind k) _); simpl; congruence.
Qed.

Lemma key_verify_of : forall m k s sg d, usable env m k s ->
  key_verify env (key_of k s) sg d = e_sig_verify env s k sg d.
Proof.
  intros m k s sg d (raw & cls & Hr & Hne & Hs & Hl & Hk). unfold key_verify, key_of. simpl.
  destruct (pkm_details m); simpl in Hs; inversion Hs; subst;
    destruct (pk_kind k); try discriminate; reflexivity.
Qed.

(** The keyring as a function of the messages: fold over the loadable ones. *)
Fixpoint keys_of (ms : list PublicKeyMsg) : list Key :=
  match ms with
  | nil => nil
  | m :: ms' => match make_key env m with Ok k => k :: keys_of ms' | Raise _ => keys_of ms' end
  end.

Lemma keyring_add_eq : forall ms acc,
  keyring_add env acc ms =
  Ok (fold_left (fun kr k => dict_set bytes_eqb (k_id k) k kr) (keys_of ms) acc).
Proof.
  induction ms as [|m ms IH]; intros acc; [reflexivity|]. simpl.
  destruct (make_key env m) as [k|e] eqn:E.
  - simpl. apply IH.
  - rewrite (make_key_raise _ _ E). simpl. apply IH.
Qed.

Lemma make_keyring_total : forall ms, exists kr, make_keyring env ms = Ok kr.
Proof. intros ms. eexists. apply keyring_add_eq. Qed.

Lemma in_keys_of : forall ms K, In K (keys_of ms) <->
  exists m k s, In m ms /\ usable env m k s /\ K = key_of k s.
Proof.
  induction ms as [|m ms IH]; intros K; simpl.
  - split; [intros []|intros (m & _ & _ & [] & _)].
  - destruct (make_key env m) as [k0|e] eqn:E.
    + simpl. rewrite IH. split.
      * intros [<-|(m' & k & s & Hin & Hu & He)].
        -- apply make_key_ok in E. destruct E as (k & s & Hu & ->). exists m, k, s. auto.
        -- exists m', k, s. auto.
      * intros (m' & k & s & [->|Hin] & Hu & ->).
        -- left. apply make_key_ok in E. destruct E as (k' & s' & Hu' & ->).
           destruct Hu as (r1 & c1 & A1 & A2 & A3 & A4 & A5).
           destruct Hu' as (r2 & c2 & B1 & B2 & B3 & B4 & B5). congruence.
        -- right. exists m', k, s. auto.
    + rewrite IH. split.
      * intros (m' & k & s & Hin & H). exists m', k, s. auto.
      * intros (m' & k & s & [->|Hin] & Hu & ->); [|exists m', k, s; auto].
        exfalso. assert (make_key env m' = Ok (key_of k s)) by (apply make_key_ok; eauto).
        congruence.
Qed.

(** Dictionary facts *)
Lemma dict_set_in : forall (kr : keyring) id k x,
  In x (dict_set bytes_eqb id k kr) -> x = (id, k) \/ In x kr.
Proof.
  induction kr as [|[i k0] kr IH]; intros id k x; simpl.
  - intros [<-|[]]; auto.
  - destruct (bytes_eqb id i) eqn:E; simpl.
    + apply bytes_eqb_spec in E. subst. intros [<-|H]; auto.
    + intros [<-|H]; auto. destruct (IH _ _ _ H); auto.
Qed.

Lemma fold_assoc : forall ks acc id,
  assoc bytes_eqb id (fold_left (fun kr k => dict_set bytes_eqb (k_id k) k kr) ks acc) =
  match find (fun k => bytes_eqb id (k_id k)) (rev ks) with
  | Some k => Some k
  | None => assoc bytes_eqb id acc
  end.
Proof.
  intros ks. induction ks as [|k ks IH] using rev_ind; intros acc id; [reflexivity|].
  rewrite fold_left_app, rev_app_distr. simpl.
  destruct (bytes_eqb id (k_id k)) eqn:E.
  - apply bytes_eqb_spec in E. subst id.
    apply (assoc_dict_set_same bytes_eqb bytes_eqb_spec).
  - rewrite (assoc_dict_set_other bytes_eqb bytes_eqb_spec); [apply IH|].
    apply bytes_eqb_false. assumption.
Qed.

Lemma fold_values : forall ks acc x,
  In x (map snd (fold_left (fun kr k => dict_set bytes_eqb (k_id k) k kr) ks acc)) ->
  In x ks \/ In x (map snd acc).
Proof.
  induction ks as [|k ks IH]; intros acc x Hx; [right; exact Hx|]. simpl in *.
  apply IH in Hx. destruct Hx as [Hx|Hx]; [auto|].
  apply in_map_iff in Hx. destruct Hx as ([i k'] & <- & Hin).
  apply dict_set_in in Hin. destruct Hin as [Q|Hin].
  - inversion Q; subst. auto.
  - right. apply in_map_iff. exists (i, k'). auto.
Qed.

(** All entries are filed under their own id, and ids are distinct. *)
Lemma fold_ids : forall ks acc i k,
  (forall i k, In (i, k) acc -> i = k_id k) ->
  In (i, k) (fold_left (fun kr k => dict_set bytes_eqb (k_id k) k kr) ks acc) -> i = k_id k.
Proof.
  induction ks as [|k0 ks IH]; intros acc i k Hacc Hin; [eauto|]. simpl in Hin.
  eapply IH; [|exact Hin]. intros i' k' H'. apply dict_set_in in H'.
  destruct H' as [Q|H']; [inversion Q; reflexivity|eauto].
Qed.

Lemma assoc_in : forall (kr : keyring) id k, assoc bytes_eqb id kr = Some k -> In (id, k) kr.
Proof.
  induction kr as [|[i k0] kr IH]; intros id k; simpl; [discriminate|].
  destruct (bytes_eqb id i) eqn:E.
  - apply bytes_eqb_spec in E. intros Q; inversion Q; subst. auto.
  - auto.
Qed.

Lemma dict_set_keys : forall (kr : keyring) id k,
  map fst (dict_set bytes_eqb id k kr) =
  if existsb (bytes_eqb id) (map fst kr) then map fst kr else map fst kr ++ [id].
Proof.
  induction kr as [|[i k0] kr IH]; intros id k; simpl; [reflexivity|].
  destruct (bytes_eqb id i) eqn:E; simpl; [reflexivity|].
  rewrite IH. destruct (existsb _ _); reflexivity.
Qed.

Lemma fold_NoDup : forall ks acc, NoDup (map fst acc) ->
  NoDup (map fst (fold_left (fun (kr : keyring) k => dict_set bytes_eqb (k_id k) k kr) ks acc)).
Proof.
  induction ks as [|k ks IH]; intros acc H; [exact H|]. simpl. apply IH.
  rewrite dict_set_keys. destruct (existsb (bytes_eqb (k_id k)) (map fst acc)) eqn:E; [assumption|].
  assert (~ In (k_id k) (map fst acc)) as N.
  { intros Hin. rewrite <- not_true_iff_false in E. apply E. apply existsb_exists.
    exists (k_id k). split; [assumption|apply bytes_eqb_refl]. }
  clear - H N. induction (map fst acc) as [|x l IHl]; simpl.
  - constructor; [intros []|constructor].
  - inversion H; subst. constructor.
    + intros Hin. apply in_app_or in Hin. destruct Hin as [Hin|[<-|[]]]; [contradiction|].
      apply N. left; reflexivity.
    + apply IHl; auto. intros Hin. apply N. right; assumption.
Qed.

(** ** try_candidates *)

Lemma try_candidates_true : forall cs sg d, try_candidates env cs sg d = Ok true <->
  exists l1 k l2, cs = l1 ++ k :: l2 /\ key_verify env k sg d = Ok tt /\
    (forall k', In k' l1 -> key_verify env k' sg d = Raise EInvalidSignature).
Proof.
  induction cs as [|c cs IH]; intros sg d; simpl.
  - split; [discriminate|]. intros (l1 & k & l2 & E & _). destruct l1; discriminate.
  - destruct (key_verify env c sg d) as [[]|e] eqn:E.
    + split; [|reflexivity]. intros _. exists nil, c, cs. split; [reflexivity|]. split; [assumption|].
      intros k' [].
    + split.
      * intros H. destruct e; try discriminate. apply IH in H.
        destruct H as (l1 & k & l2 & -> & Hk & Hall). exists (c :: l1), k, l2.
        split; [reflexivity|]. split; [assumption|]. intros k' [<-|Hk']; auto.
      * intros (l1 & k & l2 & Ec & Hk & Hall). destruct l1 as [|c' l1]; simpl in Ec; inversion Ec; subst.
        -- congruence.
        -- rewrite (Hall c' (or_introl eq_refl)) in E. inversion E; subst. apply IH.
           exists l1, k, l2. split; [reflexivity|]. split; [assumption|].
           intros k' Hk'. apply Hall. right; assumption.
Qed.

Lemma try_candidates_bool : forall cs sg d b, try_candidates env cs sg d = Ok b ->
  b = false -> forall k, In k cs -> key_verify env k sg d = Raise EInvalidSignature.
Proof.
  induction cs as [|c cs IH]; intros sg d b E Hb k; simpl in *; [intros []|].
  destruct (key_verify env c sg d) as [[]|e] eqn:Ec.
  - congruence.
  - destruct e; try discriminate. intros [<-|Hk]; [assumption|]. eapply IH; eauto.
Qed.

Lemma keyring_verify_ok : forall kr kid sg d u,
  keyring_verify env kr kid sg d = Ok u ->
  exists k, key_verify env k sg d = Ok tt /\
    match assoc bytes_eqb kid kr with Some k' => k = k' | None => In k (map snd kr) end.
Proof.
  intros kr kid sg d u H. unfold keyring_verify in H. inv_bind H.
  destruct a; [|discriminate]. apply try_candidates_true in Ha.
  destruct Ha as (l1 & k & l2 & E & Hk & _). exists k. split; [assumption|].
  destruct (assoc bytes_eqb kid kr) as [k'|].
  - destruct l1 as [|x [|]]; inversion E; reflexivity.
  - rewrite E. apply in_or_app. right; left; reflexivity.
Qed.

Lemma keyring_verify_raise : forall kr kid sg d e,
  keyring_verify env kr kid sg d = Raise e ->
  e = EVerification \/ exists k, In k (map snd kr) /\ key_verify env k sg d = Raise e /\ e <> EInvalidSignature.
Proof.
  intros kr kid sg d e H. unfold keyring_verify in H.
  assert (forall cs, (forall c, In c cs -> In c (map snd kr)) ->
            try_candidates env cs sg d = Raise e ->
            exists k, In k (map snd kr) /\ key_verify env k sg d = Raise e /\ e <> EInvalidSignature) as Q.
  { induction cs as [|c cs IH]; intros Hsub Ht; simpl in Ht; [discriminate|].
    destruct (key_verify env c sg d) as [[]|e0] eqn:Ec; [discriminate|].
    destruct (exn_eqb e0 EInvalidSignature) eqn:Eq.
    - apply exn_eqb_spec in Eq; subst e0. apply IH; [|assumption]. intros; apply Hsub; right; assumption.
    - exists c. split; [apply Hsub; left; reflexivity|].
      assert (e0 <> EInvalidSignature) by (intros ->; discriminate).
      split; destruct e0; congruence. }
  apply bind_raise_inv in H. destruct H as [H|(b & H1 & H2)].
  - right. eapply Q; [|exact H]. intros c. destruct (assoc bytes_eqb kid kr) as [k'|] eqn:A.
    + intros [<-|[]]. apply assoc_in in A. apply in_map_iff. exists (kid, k'). auto.
    + auto.
  - left. apply raise_if_raise in H2. tauto.
Qed.
End P.

(** ** Which key wins *)

(** [registered env ms k s]: key [k] with scheme [s] is in force in a keyring built
    from [ms]: some message gives it and no later usable message has the same id. *)
Definition registered (env : Env) (ms : list PublicKeyMsg) (k : pubkey) (s : sig_scheme) : Prop :=
  exists l1 m l2, ms = l1 ++ m :: l2 /\ usable env m k s /\
    forall m' k' s', In m' l2 -> usable env m' k' s' -> msg_id env k' <> msg_id env k.

Section R.
Variable env : Env.

Lemma keys_of_app : forall a b, keys_of env (a ++ b) = keys_of env a ++ keys_of env b.
Proof.
  induction a as [|m a IH]; intros b; [reflexivity|]. simpl. rewrite IH.
  destruct (make_key env m); reflexivity.
Qed.

Lemma keys_of_split : forall ms k1 K k2, keys_of env ms = k1 ++ K :: k2 ->
  exists l1 m l2, ms = l1 ++ m :: l2 /\ make_key env m = Ok K /\ keys_of env l2 = k2.
Proof.
  induction ms as [|m ms IH]; intros k1 K k2 E; simpl in E; [destruct k1; discriminate|].
  destruct (make_key env m) as [K0|e] eqn:Em.
  - destruct k1 as [|x k1]; simpl in E; inversion E; subst.
    + exists nil, m, ms. auto.
    + destruct (IH _ _ _ H1) as (l1 & m' & l2 & -> & A & B). exists (m :: l1), m', l2. auto.
  - destruct (IH _ _ _ E) as (l1 & m' & l2 & -> & A & B). exists (m :: l1), m', l2. auto.
Qed.

Lemma find_rev_some : forall (A : Type) (P : A -> bool) l x,
  find P (rev l) = Some x <->
  exists l1 l2, l = l1 ++ x :: l2 /\ P x = true /\ forall y, In y l2 -> P y = false.
Proof.
  intros A P l x. induction l as [|a l IH] using rev_ind; simpl.
  - split; [discriminate|]. intros ([|? ?] & l2 & E & _); discriminate.
  - rewrite rev_app_distr. simpl. destruct (P a) eqn:Pa.
    + split.
      * intros E; inversion E; subst. exists l, nil. split; [reflexivity|]. split; [assumption|]. intros y [].
      * intros (l1 & l2 & E & Px & Hall). destruct l2 as [|y l2 _] using rev_ind.
        -- apply app_inj_tail in E. destruct E as [_ ->]. reflexivity.
        -- rewrite app_comm_cons, app_assoc in E. apply app_inj_tail in E. destruct E as [_ ->].
           rewrite (Hall y) in Pa by (apply in_or_app; right; left; reflexivity). discriminate.
    + rewrite IH. split.
      * intros (l1 & l2 & -> & Px & Hall). exists l1, (l2 ++ [a]).
        split; [rewrite <- app_assoc; reflexivity|]. split; [assumption|].
        intros y Hy. apply in_app_or in Hy. destruct Hy as [Hy|[<-|[]]]; auto.
      * intros (l1 & l2 & E & Px & Hall). destruct l2 as [|y l2 _] using rev_ind.
        -- apply app_inj_tail in E. destruct E as [_ ->]. congruence.
        -- rewrite app_comm_cons, app_assoc in E. apply app_inj_tail in E. destruct E as [-> ->].
           exists l1, l2. split; [reflexivity|]. split; [assumption|].
           intros z Hz. apply Hall. apply in_or_app. left; assumption.
Qed.

Lemma find_rev_none : forall (A : Type) (P : A -> bool) l,
  find P (rev l) = None <-> forall y, In y l -> P y = false.
Proof.
  intros A P l. split.
  - intros E y Hy. eapply find_none; [exact E|]. apply -> in_rev. assumption.
  - intros Hall. destruct (find P (rev l)) as [x|] eqn:E; [|reflexivity].
    apply find_some in E. destruct E as [Hin Px]. apply in_rev in Hin.
    rewrite (Hall _ Hin) in Px. discriminate.
Qed.

Lemma keyring_assoc : forall ms kr id K, make_keyring env ms = Ok kr ->
  (assoc bytes_eqb id kr = Some K <->
   exists k s, registered env ms k s /\ id = msg_id env k /\ K = key_of env k s).
Proof.
  intros ms kr id K E. unfold make_keyring in E. rewrite keyring_add_eq in E.
  inversion E as [E']. clear E E'. rewrite fold_assoc. simpl.
  destruct (find (fun k => bytes_eqb id (k_id k)) (rev (keys_of env ms))) as [K0|] eqn:F.
  - pose proof F as F'. apply find_rev_some in F. destruct F as (k1 & k2 & Es & Hid & Hall).
    apply bytes_eqb_spec in Hid.
    destruct (keys_of_split _ _ _ _ Es) as (l1 & m & l2 & -> & Em & El2).
    apply make_key_ok in Em. destruct Em as (k & s & Hu & ->).
    assert (Hreg : registered env (l1 ++ m :: l2) k s).
    { exists l1, m, l2. split; [reflexivity|]. split; [assumption|].
      intros m' k' s' Hin Hu' Heq.
      assert (In (key_of env k' s') (keys_of env l2)) as Hk'.
      { apply in_keys_of. exists m', k', s'. auto. }
      rewrite El2 in Hk'. specialize (Hall _ Hk'). simpl in Hall.
      apply bytes_eqb_false in Hall. simpl in Hid. congruence. }
    split.
    + intros Q; inversion Q; subst. exists k, s. auto.
    + intros (k' & s' & (a1 & m' & a2 & Ea & Hu' & Hall') & Hid' & ->).
      f_equal.
      assert (G : find (fun k => bytes_eqb id (k_id k)) (rev (keys_of env (a1 ++ m' :: a2)))
                  = Some (key_of env k' s')).
      { apply find_rev_some. exists (keys_of env a1), (keys_of env a2). split; [|split].
        - rewrite keys_of_app. simpl.
          replace (make_key env m') with (Ok (key_of env k' s')); [reflexivity|].
          symmetry. apply make_key_ok. eauto.
        - apply bytes_eqb_spec. exact Hid'.
        - intros y Hy. apply in_keys_of in Hy. destruct Hy as (m2 & k2' & s2 & Hin & Hu2 & ->).
          apply bytes_eqb_false. simpl. intros Q. eapply Hall'; eauto. congruence. }
      rewrite Ea in F'. rewrite F' in G. congruence.
  - split; [discriminate|].
    intros (k & s & (a1 & m & a2 & -> & Hu & _) & Hid & ->). exfalso.
    rewrite find_rev_none in F. specialize (F (key_of env k s)). simpl in F.
    rewrite <- Hid, bytes_eqb_refl in F. discriminate F.
    apply in_keys_of. exists m, k, s. split; [apply in_or_app; right; left; reflexivity|auto].
Qed.

Lemma assoc_of_in : forall (kr : keyring) id K, NoDup (map fst kr) -> In (id, K) kr ->
  assoc bytes_eqb id kr = Some K.
Proof.
  induction kr as [|[i k0] kr IH]; intros id K ND; [intros []|]. simpl in *. inversion ND; subst.
  intros [Q|Hin].
  - inversion Q; subst. rewrite bytes_eqb_refl. reflexivity.
  - destruct (bytes_eqb id i) eqn:E; [|auto]. apply bytes_eqb_spec in E. subst. exfalso.
    apply H1. apply in_map_iff. exists (i, K). auto.
Qed.

Lemma keyring_in : forall ms kr id K, make_keyring env ms = Ok kr ->
  (In (id, K) kr <-> exists k s, registered env ms k s /\ id = msg_id env k /\ K = key_of env k s).
Proof.
  intros ms kr id K E. rewrite <- (keyring_assoc ms kr id K E). split.
  - apply assoc_of_in. unfold make_keyring in E. rewrite keyring_add_eq in E. inversion E.
    apply fold_NoDup. constructor.
  - apply assoc_in.
Qed.

Lemma keyring_value : forall ms kr K, make_keyring env ms = Ok kr ->
  (In K (map snd kr) <-> exists k s, registered env ms k s /\ K = key_of env k s).
Proof.
  intros ms kr K E. rewrite in_map_iff. split.
  - intros ([i K'] & <- & Hin). apply (keyring_in ms kr i K' E) in Hin.
    destruct Hin as (k & s & A & B & C). exists k, s. auto.
  - intros (k & s & A & ->). exists (msg_id env k, key_of env k s). split; [reflexivity|].
    apply (keyring_in ms kr _ _ E). exists k, s. auto.
Qed.

Lemma registered_usable : forall ms k s, registered env ms k s -> exists m, In m ms /\ usable env m k s.
Proof.
  intros ms k s (l1 & m & l2 & -> & Hu & _). exists m. split; [|assumption].
  apply in_or_app; right; left; reflexivity.
Qed.

(** ** Statements *)

Theorem keyring_known_id : forall ms kr k s sg d, make_keyring env ms = Ok kr ->
  registered env ms k s ->
  keyring_verify env kr (msg_id env k) sg d =
  match e_sig_verify env s k sg d with
  | Ok _ => Ok tt
  | Raise e => if exn_eqb e EInvalidSignature then Raise EVerification else Raise e
  end.
Proof.
  intros ms kr k s sg d E Hr. unfold keyring_verify.
  replace (assoc bytes_eqb (msg_id env k) kr) with (Some (key_of env k s)).
  - destruct (registered_usable _ _ _ Hr) as (m & _ & Hu). simpl.
    rewrite (key_verify_of env m k s sg d Hu).
    destruct (e_sig_verify env s k sg d) as [[]|e]; [reflexivity|].
    destruct e; reflexivity.
  - symmetry. apply (keyring_assoc ms kr _ _ E). exists k, s. auto.
Qed.

Theorem keyring_sound : forall ms kr kid sg d u, make_keyring env ms = Ok kr ->
  keyring_verify env kr kid sg d = Ok u ->
  exists k s, registered env ms k s /\ e_sig_verify env s k sg d = Ok tt /\
    ((exists k' s', registered env ms k' s' /\ msg_id env k' = kid) -> msg_id env k = kid).
Proof.
  intros ms kr kid sg d u E H. apply keyring_verify_ok in H. destruct H as (K & Hv & Hc).
  destruct (assoc bytes_eqb kid kr) as [K'|] eqn:A.
  - subst K'. apply (keyring_assoc ms kr _ _ E) in A. destruct A as (k & s & Hr & -> & ->).
    exists k, s. destruct (registered_usable _ _ _ Hr) as (m & _ & Hu).
    rewrite (key_verify_of env m k s sg d Hu) in Hv. auto.
  - apply (keyring_value ms kr _ E) in Hc. destruct Hc as (k & s & Hr & ->).
    exists k, s. destruct (registered_usable _ _ _ Hr) as (m & _ & Hu).
    rewrite (key_verify_of env m k s sg d Hu) in Hv. split; [assumption|]. split; [assumption|].
    intros (k' & s' & Hr' & Hid). exfalso.
    assert (assoc bytes_eqb kid kr = Some (key_of env k' s')) by (apply (keyring_assoc ms kr _ _ E); exists k', s'; auto).
    congruence.
Qed.

Theorem keyring_unknown_id : forall ms kr kid sg d, make_keyring env ms = Ok kr ->
  (forall k s, registered env ms k s -> msg_id env k <> kid) ->
  (forall k s e, registered env ms k s -> e_sig_verify env s k sg d = Raise e -> e = EInvalidSignature) ->
  (keyring_verify env kr kid sg d = Ok tt <->
   exists k s, registered env ms k s /\ e_sig_verify env s k sg d = Ok tt).
Proof.
  intros ms kr kid sg d E Hid Hb. split.
  - intros H. destruct (keyring_sound _ _ _ _ _ _ E H) as (k & s & A & B & _). exists k, s. auto.
  - intros (k & s & Hr & Hv). destruct (keyring_verify env kr kid sg d) as [[]|e] eqn:V; [reflexivity|].
    exfalso. unfold keyring_verify in V.
    destruct (assoc bytes_eqb kid kr) as [K|] eqn:A.
    { apply (keyring_assoc ms kr _ _ E) in A. destruct A as (k' & s' & Hr' & -> & _).
      eapply Hid; eauto. }
    assert (Hin : In (key_of env k s) (map snd kr)) by (apply (keyring_value ms kr _ E); eauto).
    assert (Hall : forall K, In K (map snd kr) -> forall e, key_verify env K sg d = Raise e -> e = EInvalidSignature).
    { intros K HK e' He'. apply (keyring_value ms kr _ E) in HK. destruct HK as (k' & s' & Hr' & ->).
      destruct (registered_usable _ _ _ Hr') as (m & _ & Hu).
      rewrite (key_verify_of env m k' s' sg d Hu) in He'. eauto. }
    assert (Hk : key_verify env (key_of env k s) sg d = Ok tt).
    { destruct (registered_usable _ _ _ Hr) as (m & _ & Hu).
      rewrite (key_verify_of env m k s sg d Hu). assumption. }
    assert (T : try_candidates env (map snd kr) sg d = Ok true).
    { clear - Hin Hall Hk. induction (map snd kr) as [|c cs IH]; [destruct Hin|]. simpl.
      destruct (key_verify env c sg d) as [[]|e'] eqn:Ec; [reflexivity|].
      rewrite (Hall c (or_introl eq_refl) e' Ec). apply IH.
      - destruct Hin as [Q|Hin]; [rewrite Q in Ec; congruence|assumption].
      - intros K HK. apply Hall. right; assumption. }
    rewrite T in V. discriminate.
Qed.

Theorem keyring_no_keys : forall ms kr kid sg d, make_keyring env ms = Ok kr ->
  (forall m, In m ms -> ~ loadable env m) ->
  keyring_verify env kr kid sg d = Raise EVerification.
Proof.
  intros ms kr kid sg d E Hn. unfold make_keyring in E. rewrite keyring_add_eq in E.
  replace (keys_of env ms) with (@nil Key) in E.
  - inversion E. reflexivity.
  - destruct (keys_of env ms) as [|K ks] eqn:Q; [reflexivity|]. exfalso.
    assert (In K (keys_of env ms)) as HK by (rewrite Q; left; reflexivity).
    apply in_keys_of in HK. destruct HK as (m & k & s & Hin & Hu & _).
    apply (Hn m Hin). exists k, s. assumption.
Qed.

Theorem keyring_skips_unloadable : forall l1 m l2, ~ loadable env m ->
  make_keyring env (l1 ++ m :: l2) = make_keyring env (l1 ++ l2).
Proof.
  intros l1 m l2 Hn. unfold make_keyring. rewrite !keyring_add_eq, !keys_of_app. simpl.
  destruct (make_key env m) as [K|] eqn:E; [|reflexivity]. exfalso. apply Hn.
  apply make_key_ok in E. destruct E as (k & s & Hu & _). exists k, s. assumption.
Qed.

Theorem keyring_exceptions : forall ms kr kid sg d e, make_keyring env ms = Ok kr ->
  keyring_verify env kr kid sg d = Raise e ->
  e = EVerification \/ exists k s, registered env ms k s /\ e_sig_verify env s k sg d = Raise e /\ e <> EInvalidSignature.
Proof.
  intros ms kr kid sg d e E H. apply keyring_verify_raise in H.
  destruct H as [->|(K & HK & Hv & Ni)]; [auto|]. right.
  apply (keyring_value ms kr _ E) in HK. destruct HK as (k & s & Hr & ->).
  destruct (registered_usable _ _ _ Hr) as (m & _ & Hu).
  rewrite (key_verify_of env m k s sg d Hu) in Hv. exists k, s. auto.
Qed.
End R.
