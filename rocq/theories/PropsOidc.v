(** Properties C49 and C50: identity tokens. *)
From Verif Require Import Base Messages Env Codec PyText IntText Json Oidc ToyEnv.

(** ** Specification *)

(** A number claim (seconds) is not after / strictly after the instant [now] (microseconds). *)
Definition not_after (v : json) (now : time) : Prop :=
  match v with
  | JInt n => (n * 1000000 <= now)%Z
  | JBool b => ((if b then 1000000 else 0) <= now)%Z
  | JFloat n d => (n * 1000000 <= now * Zpos d)%Z
  | JSpecial (S (S _)) => True
  | _ => False
  end.
Definition after (v : json) (now : time) : Prop :=
  match v with
  | JInt n => (now < n * 1000000)%Z
  | JBool b => (now < (if b then 1000000 else 0))%Z
  | JFloat n d => (now * Zpos d < n * 1000000)%Z
  | JSpecial (S O) => True
  | _ => False
  end.
(** Python can compare the claim with a number *)
Definition comparable (v : json) : Prop :=
  match v with JInt _ | JBool _ | JFloat _ _ | JSpecial _ => True | _ => False end.

Definition claim (c : list (str * json)) (k : String.string) : option json := assoc str_eqb (s2l k) c.
(** present and not null *)
Definition has (c : list (str * json)) (k : String.string) (v : json) : Prop := claim c k = Some v /\ v <> JNull.

(** the audience names the client *)
Definition names_client (aud : json) (client : str) : Prop :=
  (aud = JStr client /\ client <> nil) \/
  (exists l, aud = JList l /\ In (JStr client) l /\ forall v, In v l -> exists s, v = JStr s).

(** the whole number that a claim stands for: fractions are cut off, and a text may hold an integer *)
Definition whole_number (env : Env) (v : json) (n : Z) : Prop :=
  match v with
  | JInt m => n = m
  | JBool b => n = if b then 1%Z else 0%Z
  | JFloat m d => (Z.abs n * Zpos d <= Z.abs m < (Z.abs n + 1) * Zpos d /\ 0 <= n * m)%Z
  | JStr s => IntText.integer_text (e_udecimal env) s n
  | _ => False
  end.

(** what the token must state, [t1] and [t2] being the two readings of the clock *)
Definition acceptable (env : Env) (c : list (str * json)) (client : str) (t1 t2 : time) : Prop :=
  (exists aud, has c "aud" aud /\ names_client aud client) /\
  (exists sub, has c "sub" sub) /\
  (exists iss, has c "iss" iss) /\
  (exists iat n, has c "iat" iat /\ whole_number env iat n /\ (n * 1000000 <= t1 + 5000000)%Z) /\
  (exists exp n, has c "exp" exp /\ whole_number env exp n /\ (t1 - 5000000 < n * 1000000)%Z /\ after exp t2) /\
  (forall nbf, has c "nbf" nbf -> not_after nbf t2).

(** the claim that names the signer *)
Definition email_issuers : list json :=
  [JStr (s2l "https://accounts.google.com"); JStr (s2l "https://oauth2.sigstore.dev/auth"); JStr (s2l "https://oauth2.sigstage.dev/auth")].
Definition designated (iss : json) (k : String.string) : Prop :=
  (In iss email_issuers /\ k = "email"%string) \/ (~ In iss email_issuers /\ k = "sub"%string).

(** the connector the federated claims name *)
Definition federated (c : list (str * json)) (f : option str) : Prop :=
  (exists fc s, has c "federated_claims" (JObj fc) /\ has fc "connector_id" (JStr s) /\ f = Some s) \/
  (f = None /\ forall v, has c "federated_claims" v -> exists fc, v = JObj fc /\ forall w, ~ has fc "connector_id" w).

(** an issuer that can be looked up *)
Definition hashable (v : json) : Prop := match v with JList _ | JObj _ => False | _ => True end.

(** ** Proofs *)

Lemma cmp_le : forall v now, claim_le_now v now = Ok true <-> not_after v now.
Proof.
  intros v now. unfold claim_le_now, cmp_now, not_after, of_comparison, sec. destruct v as [|b|n|n d|k|s|l|l].
  1,6,7,8: split; [discriminate|intros []].
  - destruct b; [destruct (Z.compare_spec (1 * 1000000) now)|destruct (Z.compare_spec 0 now)]; split; intros; try discriminate; try reflexivity; lia.
  - destruct (Z.compare_spec (n * 1000000) now); split; intros; try discriminate; try reflexivity; lia.
  - destruct (Z.compare_spec (n * 1000000) (now * Zpos d)); split; intros; try discriminate; try reflexivity; lia.
  - destruct k as [|[|k]]; split; intros; try discriminate; try reflexivity; try contradiction; constructor.
Qed.

Lemma cmp_lt : forall v now, now_lt_claim v now = Ok true <-> after v now.
Proof.
  intros v now. unfold now_lt_claim, cmp_now, after, of_comparison, sec. destruct v as [|b|n|n d|k|s|l|l].
  1,6,7,8: split; [discriminate|intros []].
  - destruct b; [destruct (Z.compare_spec (1 * 1000000) now)|destruct (Z.compare_spec 0 now)]; split; intros; try discriminate; try reflexivity; lia.
  - destruct (Z.compare_spec (n * 1000000) now); split; intros; try discriminate; try reflexivity; lia.
  - destruct (Z.compare_spec (n * 1000000) (now * Zpos d)); split; intros; try discriminate; try reflexivity; lia.
  - destruct k as [|[|k]]; split; intros; try discriminate; try reflexivity; try contradiction; constructor.
Qed.

Lemma cmp_raise : forall v now e, claim_le_now v now = Raise e \/ now_lt_claim v now = Raise e -> e = EType /\ ~ comparable v.
Proof.
  intros v now e H. unfold claim_le_now, now_lt_claim in H. destruct (cmp_now v now) eqn:C; [destruct H; discriminate|].
  split; [destruct H; congruence|]. destruct v as [|b|n|n d|[|[|k]]|s|l|l]; try discriminate; intros [].
Qed.

Lemma period_iff : forall nbf exp now, in_validity_period nbf exp now = Ok true <->
  (forall v, nbf = Some v -> not_after v now) /\ after exp now.
Proof.
  intros nbf exp now. unfold in_validity_period. destruct nbf as [v|].
  - split.
    + intros H. apply bind_ok_inv in H. destruct H as (b & B & H). destruct b; [|discriminate].
      apply cmp_le in B. apply cmp_lt in H. split; [|assumption]. intros w E. inversion E; subst. assumption.
    + intros [A B]. specialize (A v eq_refl). apply cmp_le in A. apply cmp_lt in B. rewrite A. cbn. assumption.
  - rewrite cmp_lt. split; [intros H; split; [discriminate|assumption]|intros [_ H]; assumption].
Qed.

Lemma get_claim_iff : forall c k v, get_claim (s2l k) c = Some v <-> has c k v.
Proof.
  intros c k v. unfold get_claim, has, claim. destruct (assoc str_eqb (s2l k) c) as [w|]; [|split; [discriminate|intros [H _]; discriminate]].
  split.
  - destruct w; intros H; inversion H; subst; split; try reflexivity; discriminate.
  - intros [H N]. inversion H; subst. destruct v; congruence.
Qed.

Lemma get_claim_none : forall c k, get_claim (s2l k) c = None <-> forall v, ~ has c k v.
Proof.
  intros c k. split.
  - intros H v Q. apply get_claim_iff in Q. congruence.
  - intros H. destruct (get_claim (s2l k) c) as [v|] eqn:G; [|reflexivity]. apply get_claim_iff in G. destruct (H _ G).
Qed.

Lemma required_iff : forall c, jwt_required c = true <->
  (exists v, has c "aud" v) /\ (exists v, has c "sub" v) /\ (exists v, has c "iat" v) /\ (exists v, has c "exp" v) /\ (exists v, has c "iss" v).
Proof.
  intros c. unfold jwt_required. rewrite forallb_forall.
  assert (G : forall k, (match get_claim (s2l k) c with Some _ => true | None => false end) = true <-> exists v, has c k v).
  { intros k. split.
    - destruct (get_claim (s2l k) c) as [v|] eqn:E; [|discriminate]. intros _. exists v. apply get_claim_iff. assumption.
    - intros (v & H). apply get_claim_iff in H. rewrite H. reflexivity. }
  split.
  - intros H. repeat split; apply G; apply H; cbn; auto 10.
  - intros (A & B & C & D & E) x [<-|[<-|[<-|[<-|[<-|[]]]]]]; apply G; assumption.
Qed.

Lemma aud_iff : forall c client, jwt_aud_ok c client = true <-> exists aud, claim c "aud" = Some aud /\ names_client aud client.
Proof.
  intros c client. unfold jwt_aud_ok, claim, names_client. destruct (assoc str_eqb (s2l "aud") c) as [v|].
  2:{ split; [discriminate|intros (? & H & _); discriminate]. }
  split.
  - destruct v as [| | | | |s|l|]; try discriminate; intros H; apply andb_true_iff in H; destruct H as [A B].
    + apply str_eqb_spec in B. subst s. exists (JStr client). split; [reflexivity|]. left. split; [reflexivity|].
      intros ->. cbn in A. discriminate.
    + exists (JList l). split; [reflexivity|]. right. exists l. split; [reflexivity|]. split.
      * apply existsb_exists in B. destruct B as (w & I & E). destruct w; try discriminate. apply str_eqb_spec in E. subst. assumption.
      * intros w I. rewrite forallb_forall in A. specialize (A _ I). destruct w; try discriminate. eauto.
  - intros (aud & E & [[-> N]|(l & -> & I & A)]); inversion E; subst.
    + rewrite str_eqb_refl, andb_true_r. destruct (str_eqb client nil) eqn:Q; [|reflexivity]. apply str_eqb_spec in Q. contradiction.
    + apply andb_true_iff. split.
      * apply forallb_forall. intros w Iw. destruct (A _ Iw) as (s & ->). reflexivity.
      * apply existsb_exists. exists (JStr client). split; [assumption|]. apply str_eqb_refl.
Qed.

Lemma try_any : forall {A} (m : res A) e x, try_except m any_exn (fun _ => Raise e) = Ok x <-> m = Ok x.
Proof. intros A [a|y] e x; cbn; split; congruence. Qed.

Lemma json_int_iff : forall env v n, json_int env v = Some n <-> whole_number env v n.
Proof.
  intros env v n. unfold json_int, whole_number. destruct v as [|b|m|m d|k|s|l|l]; try (split; [discriminate|intros []]); try (split; congruence).
  2: apply IntText.py_int_iff.
  assert (Q : (Z.abs (Z.quot m (Zpos d)) = Z.abs m / Zpos d)%Z).
  { rewrite <- Z.quot_abs by discriminate. change (Z.abs (Z.pos d)) with (Z.pos d). apply Z.quot_div_nonneg; lia. }
  assert (S : (0 <= Z.quot m (Zpos d) * m)%Z).
  { destruct (Z.le_gt_cases 0 m) as [M|M]; [pose proof (Z.quot_pos m (Zpos d) M ltac:(lia)); nia|].
    pose proof (Z.quot_opp_l m (Zpos d) ltac:(discriminate)) as O. pose proof (Z.quot_pos (- m) (Zpos d) ltac:(lia) ltac:(lia)). nia. }
  pose proof (Z.div_mod (Z.abs m) (Zpos d) ltac:(discriminate)) as D. pose proof (Z.mod_pos_bound (Z.abs m) (Zpos d) ltac:(lia)) as B.
  split.
  - intros H. injection H as <-. rewrite Q. split; [nia|exact S].
  - intros [R T]. f_equal. set (q := Z.quot m (Zpos d)) in *. assert (E : (Z.abs n = Z.abs q)%Z).
    { rewrite Q. apply (Z.div_unique (Z.abs m) (Zpos d) (Z.abs n) (Z.abs m - Z.abs n * Zpos d)); [left; nia|nia]. }
    destruct (Z.eq_dec m 0) as [->|Nm]; [change q with 0%Z in *; lia|]. destruct (Z.abs_eq_cases _ _ E) as [->| ->]; [reflexivity|]. nia.
Qed.

Lemma decode_iff : forall env je raw client now c, jwt_decode env je raw client now = Ok c <->
  j_payload je raw = Ok c /\
  (exists aud, has c "aud" aud /\ names_client aud client) /\ (exists sub, has c "sub" sub) /\ (exists iss, has c "iss" iss) /\
  (exists iat n, has c "iat" iat /\ whole_number env iat n /\ (n * 1000000 <= now + 5000000)%Z) /\
  (exists exp n, has c "exp" exp /\ whole_number env exp n /\ (now - 5000000 < n * 1000000)%Z).
Proof.
  intros env je raw client now c. unfold jwt_decode. split.
  - intros H. apply bind_ok_inv in H. destruct H as (c' & P & H). apply bind_ok_inv in H. destruct H as (u & R & H).
    inversion H; subst c'. apply raise_if_ok, negb_false_iff in R.
    apply andb_true_iff in R. destruct R as [R A]. apply andb_true_iff in R. destruct R as [R E]. apply andb_true_iff in R. destruct R as [R I].
    apply required_iff in R. destruct R as ((aud & Ha) & Hs & (iat & Hi) & (exp & He) & Hiss).
    split; [assumption|]. split.
    { apply aud_iff in A. destruct A as (aud' & Ea & Na). exists aud'. split; [|assumption]. destruct Ha as [Ea' Nn]. unfold claim in *. split; [assumption|congruence]. }
    split; [assumption|]. split; [assumption|]. split.
    + exists iat. unfold jwt_iat_ok in I. destruct Hi as [Hi Nn]. unfold claim in Hi. rewrite Hi in I.
      destruct (json_int env iat) as [n|] eqn:J; [|discriminate]. apply json_int_iff in J. exists n. apply Z.leb_le in I. unfold sec in I. split; [split; assumption|]. split; [exact J|lia].
    + exists exp. unfold jwt_exp_ok in E. destruct He as [He Nn]. unfold claim in He. rewrite He in E.
      destruct (json_int env exp) as [n|] eqn:J; [|discriminate]. apply json_int_iff in J. exists n. apply Z.ltb_lt in E. unfold sec in E. split; [split; assumption|]. split; [exact J|lia].
  - intros (P & (aud & Ha & Na) & Hs & Hiss & (iat & n & Hi & In & Li) & (exp & m & He & Im & Le)). rewrite P. cbn [bind].
    apply json_int_iff in In, Im.
    assert (R : jwt_required c = true) by (apply required_iff; repeat split; eauto).
    assert (A : jwt_aud_ok c client = true) by (apply aud_iff; exists aud; split; [apply Ha|assumption]).
    assert (I : jwt_iat_ok env c now = true).
    { unfold jwt_iat_ok. destruct Hi as [Hi _]. unfold claim in Hi. rewrite Hi, In. unfold sec. apply Z.leb_le. lia. }
    assert (E : jwt_exp_ok env c now = true).
    { unfold jwt_exp_ok. destruct He as [He _]. unfold claim in He. rewrite He, Im. unfold sec. apply Z.ltb_lt. lia. }
    rewrite R, A, I, E. reflexivity.
Qed.

Lemma known_iff : forall iss k, known_issuer iss = Ok k ->
  (k = Some (s2l "email") /\ In iss email_issuers) \/ ((k = Some (s2l "sub") \/ k = None) /\ ~ In iss email_issuers).
Proof.
  intros iss k H. destruct iss as [|b|n|n d|j|s|l|l]; cbn [known_issuer] in H; try discriminate;
    try (inversion H; subst; right; split; [auto|cbn; intros [E|[E|[E|[]]]]; discriminate]).
  unfold KNOWN_OIDC_ISSUERS in H. cbn [assoc] in H.
  destruct (str_eqb s (s2l "https://accounts.google.com")) eqn:E1.
  { apply str_eqb_spec in E1. subst. inversion H; subst. left. split; [reflexivity|left; reflexivity]. }
  destruct (str_eqb s (s2l "https://oauth2.sigstore.dev/auth")) eqn:E2.
  { apply str_eqb_spec in E2. subst. inversion H; subst. left. split; [reflexivity|right; left; reflexivity]. }
  destruct (str_eqb s (s2l "https://oauth2.sigstage.dev/auth")) eqn:E3.
  { apply str_eqb_spec in E3. subst. inversion H; subst. left. split; [reflexivity|right; right; left; reflexivity]. }
  right. split.
  - repeat match type of H with context [if str_eqb ?a ?b then _ else _] => destruct (str_eqb a b) end; inversion H; auto.
  - apply str_eqb_false in E1. apply str_eqb_false in E2. apply str_eqb_false in E3. intros [E|[E|[E|[]]]]; apply (f_equal (fun j => match j with JStr x => x | _ => nil end)) in E; cbn beta iota in E; symmetry in E; contradiction.
Qed.

Lemma known_hashable : forall iss, hashable iss <-> exists k, known_issuer iss = Ok k.
Proof.
  intros iss. destruct iss; cbn; split; intros H; try (eexists; reflexivity); try exact I; try contradiction; destruct H; discriminate.
Qed.

Lemma federated_iff : forall c f,
  match get_claim (s2l "federated_claims") c with
    | None => Ok None
    | Some (JObj g) =>
      match get_claim (s2l "connector_id") g with
      | None => Ok None
      | Some (JStr s) => Ok (Some s)
      | Some _ => Raise EIdentity
      end
    | Some _ => Raise EIdentity
    end = Ok f <-> federated c f.
Proof.
  intros c f. unfold federated. destruct (get_claim (s2l "federated_claims") c) as [v|] eqn:G.
  2:{ pose proof (proj1 (get_claim_none _ _) G) as N. split.
      - intros H. inversion H. right. split; [reflexivity|]. intros v Q. destruct (N _ Q).
      - intros [(fc & s & Q & _)|[-> _]]; [destruct (N _ Q)|reflexivity]. }
  pose proof (proj1 (get_claim_iff _ _ _) G) as Hv.
  assert (U : forall w, has c "federated_claims" w -> w = v) by (intros w [Q _]; destruct Hv as [Q' _]; congruence).
  destruct v as [|b|n|n d|j|s|l|g].
  1,2,3,4,5,6,7: split; [discriminate|intros [(fc & s' & Q & _)|[_ Q]]; [pose proof (U _ Q); discriminate|destruct (Q _ Hv) as (fc & E & _); discriminate]].
  destruct (get_claim (s2l "connector_id") g) as [w|] eqn:G2.
  2:{ pose proof (proj1 (get_claim_none _ _) G2) as N. split.
      - intros H. inversion H. right. split; [reflexivity|]. intros v Q. rewrite (U _ Q). eauto.
      - intros [(fc & s & Q & Q2 & _)|[-> _]]; [|reflexivity]. pose proof (U _ Q) as E. inversion E; subst. destruct (N _ Q2). }
  pose proof (proj1 (get_claim_iff _ _ _) G2) as Hw. split.
  - intros H. destruct w; try discriminate. inversion H. left. exists g, s. auto.
  - intros [(fc & s & Q & Q2 & ->)|[_ Q]].
    + pose proof (U _ Q) as E. inversion E; subst. destruct Q2 as [Q2 _]. destruct Hw as [Hw _]. rewrite Hw in Q2. inversion Q2. reflexivity.
    + destruct (Q _ Hv) as (fc & E & N). inversion E; subst. destruct (N _ Hw).
Qed.

(** ** C49 *)

(** A token object is created exactly from an acceptable token whose identity claim is present. *)
Theorem C49_token_iff : forall env je raw client t1 t2 t,
  make_identity_token env je raw client t1 t2 = Ok t <->
  exists c, j_payload je raw = Ok c /\ acceptable env c client t1 t2 /\
    it_raw t = raw /\ has c "iss" (it_iss t) /\ hashable (it_iss t) /\ has c "exp" (it_exp t) /\
    (forall v, it_nbf t = Some v <-> has c "nbf" v) /\
    (exists k v, designated (it_iss t) k /\ claim c k = Some v /\ it_identity t = json_str je v) /\
    federated c (it_federated t).
Proof.
  intros env je raw client t1 t2 t. unfold make_identity_token. split.
  - intros H. apply bind_ok_inv in H. destruct H as (c & D & H). apply try_any, decode_iff in D.
    destruct D as (P & Aud & Sub & Iss & Iat & (exp & n & He & Hn & Le)).
    apply bind_ok_inv in H. destruct H as (iss & Gi & H). apply bind_ok_inv in H. destruct H as (exp' & Ge & H).
    apply bind_ok_inv in H. destruct H as (valid & V & H). apply bind_ok_inv in H. destruct H as (u & Vt & H).
    apply raise_if_ok, negb_false_iff in Vt. subst valid. apply period_iff in V. destruct V as [Vn Ve].
    apply bind_ok_inv in H. destruct H as (known & K & H).
    apply bind_ok_inv in H. destruct H as (ident & Id & H). apply bind_ok_inv in H. destruct H as (fed & F & H).
    assert (Et : mkToken raw iss (get_claim (s2l "nbf") c) exp' ident fed = t) by congruence. clear H. subst t. cbn [it_raw it_iss it_nbf it_exp it_identity it_federated].
    unfold get_item in Gi, Ge.
    destruct (assoc str_eqb (s2l "iss") c) as [iss0|] eqn:Ai; [|discriminate]. inversion Gi; subst iss0.
    destruct (assoc str_eqb (s2l "exp") c) as [exp0|] eqn:Ae; [|discriminate]. inversion Ge; subst exp0.
    assert (exp' = exp) by (destruct He as [He _]; unfold claim in He; congruence). subst exp'.
    assert (Hiss : has c "iss" iss) by (destruct Iss as (iss' & Hi); pose proof Hi as [Q _]; unfold claim in Q; rewrite Ai in Q; inversion Q; subst; assumption).
    exists c. split; [assumption|]. split.
    { split; [assumption|]. split; [assumption|]. split; [assumption|]. split; [assumption|]. split; [eauto 10|].
      intros nbf Hn'. apply Vn. apply get_claim_iff. assumption. }
    split; [reflexivity|]. split; [assumption|]. split; [apply known_hashable; eauto|]. split; [assumption|].
    split; [intros v; apply get_claim_iff|]. split; [|apply federated_iff; assumption].
    apply known_iff in K. destruct K as [[-> I]|[[->| ->] I]].
    + exists "email"%string. unfold claim. destruct (assoc str_eqb (s2l "email") c) as [v|]; [|discriminate]. apply (f_equal (fun r => match r with Ok x => x | Raise _ => nil end)) in Id; cbn in Id.
      exists v. split; [left; auto|auto].
    + exists "sub"%string. unfold claim. destruct (assoc str_eqb (s2l "sub") c) as [v|]; [|discriminate]. apply (f_equal (fun r => match r with Ok x => x | Raise _ => nil end)) in Id; cbn in Id.
      exists v. split; [right; auto|auto].
    + exists "sub"%string. unfold claim. unfold get_item in Id. destruct (assoc str_eqb (s2l "sub") c) as [v|]; [|discriminate]. apply (f_equal (fun r => match r with Ok x => x | Raise _ => nil end)) in Id; cbn in Id.
      exists v. split; [right; auto|auto].
  - intros (c & P & (Aud & Sub & Iss & Iat & (exp & n & He & Hn & Le & Va) & Nbf) & Er & Hiss & Hh & Hexp & Hnbf & (k & v & Dk & Ck & Idt) & Fed).
    assert (D : jwt_decode env je raw client t1 = Ok c) by (apply decode_iff; repeat split; eauto).
    rewrite (proj2 (try_any _ _ _) D). cbn [bind].
    pose proof Hiss as [Ci _]. pose proof Hexp as [Ce _]. unfold claim in Ci, Ce.
    unfold get_item at 1 2. rewrite Ci, Ce. cbn [bind].
    assert (it_exp t = exp) by (destruct He as [He _]; unfold claim in He; congruence).
    assert (V : in_validity_period (get_claim (s2l "nbf") c) (it_exp t) t2 = Ok true).
    { apply period_iff. split; [|congruence]. intros w Q. apply Nbf. apply get_claim_iff. assumption. }
    rewrite V. cbn [negb raise_if bind].
    destruct (proj1 (known_hashable _) Hh) as (known & K). rewrite K. cbn [bind].
    apply federated_iff in Fed.
    assert (Id : (match known with
      | Some claim => match assoc str_eqb claim c with None => Raise EIdentity | Some v => Ok (json_str je v) end
      | None => try_except (let* v := get_item (s2l "sub") c in Ok (json_str je v)) (exn_eqb EKey) (fun _ => Raise EIdentity)
      end) = Ok (it_identity t)).
    { unfold claim in Ck. apply known_iff in K.
      destruct K as [[-> I]|[[->| ->] I]]; destruct Dk as [[I' ->]|[I' ->]]; try contradiction; unfold get_item; rewrite Ck, Idt; reflexivity. }
    rewrite Id. cbn [bind]. rewrite Fed. cbn [bind].
    assert (Hn2 : get_claim (s2l "nbf") c = it_nbf t).
    { destruct (it_nbf t) as [w|]; [apply get_claim_iff, Hnbf; reflexivity|]. apply get_claim_none. intros w Q. apply Hnbf in Q. discriminate. }
    rewrite Hn2. destruct t. cbn in *. subst. reflexivity.
Qed.

(** [in_validity_period()] afterwards, at any instant. *)
Theorem C49_validity_period : forall env je raw client t1 t2 t c now,
  make_identity_token env je raw client t1 t2 = Ok t -> j_payload je raw = Ok c ->
  (token_in_validity_period t now = Ok true <->
   (forall nbf, has c "nbf" nbf -> not_after nbf now) /\ (forall exp, has c "exp" exp -> after exp now)).
Proof.
  intros env je raw client t1 t2 t c now H P. apply C49_token_iff in H.
  destruct H as (c' & P' & _ & _ & _ & _ & He & Hn & _). assert (c' = c) by congruence. subst c'.
  unfold token_in_validity_period. rewrite period_iff. split; intros [A B]; split.
  - intros nbf Q. apply A, Hn. assumption.
  - intros exp [Q _]. destruct He as [He _]. congruence.
  - intros v Q. apply A, Hn. assumption.
  - apply B. assumption.
Qed.

(** Tokens that state a null or missing expiry, the wrong audience, or that have expired never become objects. *)
Theorem C49_expired_or_misdirected : forall env je raw client t1 t2 t c,
  make_identity_token env je raw client t1 t2 = Ok t -> j_payload je raw = Ok c ->
  (forall n, has c "exp" (JInt n) -> (t1 - 5000000 < n * 1000000)%Z /\ (t2 < n * 1000000)%Z) /\
  (forall n, has c "iat" (JInt n) -> (n * 1000000 <= t1 + 5000000)%Z) /\
  (forall aud, has c "aud" aud -> names_client aud client).
Proof.
  intros env je raw client t1 t2 t c H P. apply C49_token_iff in H.
  destruct H as (c' & P' & ((aud & Ha & Na) & _ & _ & (iat & n & Hi & Ji & Li) & (exp & m & He & Je & Le & Va) & _) & _).
  assert (c' = c) by congruence. subst c'. split; [|split].
  - intros k [Q _]. destruct He as [He _]. unfold claim in *. rewrite He in Q. inversion Q; subst. cbn in Je, Va. inversion Je; subst. split; assumption.
  - intros k [Q _]. destruct Hi as [Hi _]. unfold claim in *. rewrite Hi in Q. inversion Q; subst. cbn in Ji. inversion Ji; subst. assumption.
  - intros aud' [Q _]. destruct Ha as [Ha _]. unfold claim in *. rewrite Ha in Q. inversion Q; subst. assumption.
Qed.

(** Every rejection is an IdentityError, except for claims of an unexpected type. *)
Theorem C49_exceptions : forall env je raw client t1 t2 e,
  make_identity_token env je raw client t1 t2 = Raise e ->
  e = EIdentity \/
  (e = EType /\ exists c, j_payload je raw = Ok c /\
     ((exists v, has c "iss" v /\ ~ hashable v) \/ (exists v, (has c "nbf" v \/ has c "exp" v) /\ ~ comparable v))).
Proof.
  intros env je raw client t1 t2 e H. unfold make_identity_token in H.
  apply bind_raise_inv in H. destruct H as [H|(c & D & H)].
  { destruct (jwt_decode _ _ _ _ _); cbn in H; [discriminate|]. left. congruence. }
  apply try_any, decode_iff in D. destruct D as (P & Aud & (sub & Sub) & (iss & Iss) & Iat & (exp & n & He & Hn & Le)).
  pose proof Iss as [Ci _]. pose proof He as [Ce _]. pose proof Sub as [Cs _]. unfold claim in Ci, Ce, Cs.
  unfold get_item at 1 2 in H. rewrite Ci, Ce in H. cbn [bind] in H.
  apply bind_raise_inv in H. destruct H as [H|(valid & V & H)].
  { unfold in_validity_period in H. destruct (get_claim (s2l "nbf") c) as [nbf|] eqn:Nb.
    - apply get_claim_iff in Nb. apply bind_raise_inv in H. destruct H as [H|(b & _ & H)].
      + destruct (cmp_raise nbf t2 e) as [-> Q]; [auto|]. right. split; [reflexivity|]. exists c. split; [assumption|]. right. exists nbf. auto.
      + destruct b; [|discriminate]. destruct (cmp_raise exp t2 e) as [-> Q]; [auto|]. right. split; [reflexivity|]. exists c. split; [assumption|]. right. exists exp. auto.
    - destruct (cmp_raise exp t2 e) as [-> Q]; [auto|]. right. split; [reflexivity|]. exists c. split; [assumption|]. right. exists exp. auto. }
  apply bind_raise_inv in H. destruct H as [H|(u & _ & H)]; [apply raise_if_raise in H; left; tauto|].
  apply bind_raise_inv in H. destruct H as [H|(known & K & H)].
  { right. assert (Q : ~ hashable iss /\ e = EType).
    { destruct iss; cbn in H |- *; try discriminate; split; try congruence; intros []. }
    destruct Q as [Q ->]. split; [reflexivity|]. exists c. split; [assumption|]. left. eauto. }
  apply bind_raise_inv in H. destruct H as [H|(ident & _ & H)].
  { left. destruct known as [k|].
    - destruct (assoc str_eqb k c); congruence.
    - unfold get_item in H. rewrite Cs in H. cbn in H. discriminate. }
  apply bind_raise_inv in H. destruct H as [H|(fed & _ & H)]; [|discriminate].
  left. destruct (get_claim (s2l "federated_claims") c) as [v|]; [|discriminate]. destruct v; try congruence.
  destruct (get_claim (s2l "connector_id") l) as [w|]; [|discriminate]. destruct w; congruence.
Qed.

(** ** C50 *)

(** The identity is the text of the issuer's designated claim. *)
Theorem C50_identity : forall env je raw client t1 t2 t c k s,
  make_identity_token env je raw client t1 t2 = Ok t -> j_payload je raw = Ok c ->
  designated (token_issuer t) k -> claim c k = Some (JStr s) -> it_identity t = s.
Proof.
  intros env je raw client t1 t2 t c k s H P D C. apply C49_token_iff in H.
  destruct H as (c' & P' & _ & _ & _ & _ & _ & _ & (k' & v & D' & C' & E) & _). assert (c' = c) by congruence. subst c'.
  assert (k' = k) by (destruct D as [[I ->]|[I ->]]; destruct D' as [[I' ->]|[I' ->]]; unfold token_issuer in *; try contradiction; reflexivity).
  subst k'. rewrite C in C'. inversion C'; subst v. assumption.
Qed.

(** Without the designated claim there is no token object. *)
Theorem C50_identity_claim_required : forall env je raw client t1 t2 t c k,
  make_identity_token env je raw client t1 t2 = Ok t -> j_payload je raw = Ok c ->
  designated (token_issuer t) k -> claim c k <> None.
Proof.
  intros env je raw client t1 t2 t c k H P D C. apply C49_token_iff in H.
  destruct H as (c' & P' & _ & _ & _ & _ & _ & _ & (k' & v & D' & C' & E) & _). assert (c' = c) by congruence. subst c'.
  assert (k' = k) by (destruct D as [[I ->]|[I ->]]; destruct D' as [[I' ->]|[I' ->]]; unfold token_issuer in *; try contradiction; reflexivity).
  congruence.
Qed.

(** The federated issuer is the connector named by the token, otherwise the issuer. *)
Theorem C50_federated_issuer : forall env je raw client t1 t2 t c,
  make_identity_token env je raw client t1 t2 = Ok t -> j_payload je raw = Ok c ->
  (exists fc s, has c "federated_claims" (JObj fc) /\ has fc "connector_id" (JStr s) /\ token_federated_issuer t = JStr s) \/
  ((forall fc v, has c "federated_claims" (JObj fc) -> ~ has fc "connector_id" v) /\ token_federated_issuer t = token_issuer t).
Proof.
  intros env je raw client t1 t2 t c H P. apply C49_token_iff in H.
  destruct H as (c' & P' & _ & _ & _ & _ & _ & _ & _ & F). assert (c' = c) by congruence. subst c'.
  unfold token_federated_issuer. destruct F as [(fc & s & A & B & ->)|[-> N]]; [left; eauto|].
  right. split; [|reflexivity]. intros fc v A B. destruct (N _ A) as (fc' & E & N'). inversion E; subst. apply (N' _ B).
Qed.

(** ** What does not hold *)

Definition ox_env : Env := toy_env nil.
Definition ox_claims (iss : String.string) (l : list (str * json)) : list (str * json) :=
  (s2l "iss", JStr (s2l iss)) :: (s2l "aud", JList [JStr (s2l "other"); JStr (s2l "sigstore")]) :: (s2l "sub", JStr (s2l "me")) ::
  (s2l "iat", JInt 1000) :: l.
Definition ox_je (l : list (str * json)) : JwtEnv := mkJwtEnv (fun raw => if str_eqb raw (s2l "t") then Ok l else Raise EValue) (fun _ => nil).
Definition ox_make (l : list (str * json)) (t1 t2 : Z) : res IdentityToken :=
  make_identity_token ox_env (ox_je l) (s2l "t") DEFAULT_CLIENT_ID (t1 * 1000000)%Z (t2 * 1000000)%Z.

(** a null identity claim becomes an identity called None *)
Theorem C50_identity_is_a_text_claim_refuted : exists c t,
  make_identity_token ox_env (ox_je c) (s2l "t") DEFAULT_CLIENT_ID 1000000000%Z 1000000000%Z = Ok t /\
  claim c "email" = Some JNull /\ it_identity t = s2l "None".
Proof.
  exists (ox_claims "https://accounts.google.com" [(s2l "exp", JInt 1600); (s2l "email", JNull)]).
  eexists. split; [vm_compute; reflexivity|]. split; vm_compute; reflexivity.
Qed.

(** the issuer of a token object need not be text *)
Theorem C50_issuer_is_text_refuted : exists c t,
  make_identity_token ox_env (ox_je c) (s2l "t") DEFAULT_CLIENT_ID 1000000000%Z 1000000000%Z = Ok t /\ token_issuer t = JInt 7.
Proof.
  exists ((s2l "iss", JInt 7) :: ox_claims "https://x" [(s2l "exp", JInt 1600)]). eexists. split; vm_compute; reflexivity.
Qed.

(** the connector is believed for every issuer, also those that do not federate *)
Theorem C50_only_federating_issuers_refuted : exists c t,
  make_identity_token ox_env (ox_je c) (s2l "t") DEFAULT_CLIENT_ID 1000000000%Z 1000000000%Z = Ok t /\
  token_issuer t = JStr (s2l "https://accounts.google.com") /\ token_federated_issuer t = JStr (s2l "https://github.com/login/oauth").
Proof.
  exists (ox_claims "https://accounts.google.com"
    [(s2l "exp", JInt 1600); (s2l "email", JStr (s2l "a@b")); (s2l "federated_claims", JObj [(s2l "connector_id", JStr (s2l "https://github.com/login/oauth"))])]).
  eexists. split; [vm_compute; reflexivity|]. split; vm_compute; reflexivity.
Qed.

(** a token with a textual expiry time passes the JWT checks and then raises a TypeError *)
Theorem C49_only_identity_errors_refuted :
  ox_make (ox_claims "https://x" [(s2l "exp", JStr (s2l "1600"))]) 1000%Z 1000%Z = Raise EType /\
  ox_make ((s2l "iss", JList nil) :: ox_claims "https://x" [(s2l "exp", JInt 1600)]) 1000%Z 1000%Z = Raise EType.
Proof. split; vm_compute; reflexivity. Qed.

(** ** Examples *)
Example ex_token : ox_make (ox_claims "https://x" [(s2l "exp", JInt 1600); (s2l "nbf", JFloat 2001 2)]) 996%Z 1001%Z =
  Ok (mkToken (s2l "t") (JStr (s2l "https://x")) (Some (JFloat 2001 2)) (JInt 1600) (s2l "me") None).
Proof. vm_compute. reflexivity. Qed.
Example ex_token_expired : ox_make (ox_claims "https://x" [(s2l "exp", JInt 1600)]) 1602%Z 1602%Z = Raise EIdentity.
Proof. vm_compute. reflexivity. Qed.
Example ex_token_future : ox_make (ox_claims "https://x" [(s2l "exp", JInt 1600)]) 994%Z 994%Z = Raise EIdentity.
Proof. vm_compute. reflexivity. Qed.
Example ex_token_not_yet : ox_make (ox_claims "https://x" [(s2l "exp", JInt 1600); (s2l "nbf", JInt 1002)]) 1001%Z 1001%Z = Raise EIdentity.
Proof. vm_compute. reflexivity. Qed.

Print Assumptions C49_token_iff.
Print Assumptions C49_validity_period.
Print Assumptions C49_expired_or_misdirected.
Print Assumptions C49_exceptions.
Print Assumptions C49_only_identity_errors_refuted.
Print Assumptions C50_identity.
Print Assumptions C50_identity_claim_required.
Print Assumptions C50_federated_issuer.
Print Assumptions C50_identity_is_a_text_claim_refuted.
Print Assumptions C50_issuer_is_text_refuted.
Print Assumptions C50_only_federating_issuers_refuted.
