(** Property C102: files may change while something is verified. *)
From Verif Require Import Base Codec Messages Env Keyring Cert Dsse KeyDetails Policy TrustedRoot SigningConfig Hashing Json Http
  LogEntry Bundle Verifier RekorClient Tuf PyText CliVerify Calm Outcomes VerifierSpec PropsDsse PropsPolicy PropsTuf
  ToyHash ToyEnv ToyBundles PropsRekorClient PropsSigningConfig PropsCliVerify VerifySteps.

(** ** Specification *)

(** what was read from files, in order *)
Definition reads (t : list access) : list (path * bytes) :=
  flat_map (fun x => match x with Take p (Some b) => [(p, b)] | _ => nil end) t.

(** the answer to an access is the state of the file system at that moment *)
Definition true_answer (cwd : path) (f : fs) (x : access) : Prop :=
  match x with
  | Look p found => found = true <-> exists b, f (place cwd p) = Some b
  | Take p got => got = f (place cwd p)
  end.

(** what an argument was taken for: a file, if there was one when the command looked; else a digest *)
Definition taken_for (t : list access) (arg : str) (x : item) : Prop :=
  (In (Look (path_of arg) true) t /\ x = It_path (path_of arg)) \/
  (In (Look (path_of arg) false) t /\ exists sep text d, arg = s2l "sha256" ++ sep :: text /\
     fromhex text = Some d /\ length d = 32 /\ x = It_digest (mkHashed HA_SHA2_256 d)).

(** the digest of an input, and what was read for it *)
Definition digested (env : Env) (x : item) (d : bytes) (r : list (path * bytes)) : Prop :=
  match x with
  | It_path p => exists b, r = [(p, b)] /\ d = e_hash env SHA256 b
  | It_digest h => r = nil /\ h = mkHashed HA_SHA2_256 d
  end.

(** the places where the bundle of an input may be *)
Definition bundle_place (a : VerifyArgs) (x : item) (p : path) : Prop :=
  match va_bundle a with
  | Some b => p = b
  | None => exists f, x = It_path f /\ (p = sibling f (s2l ".sigstore.json") \/ p = sibling f (s2l ".sigstore"))
  end.

(** the verifier, and what was read to make it *)
Definition verifier_read (env : Env) (w : World) (a : VerifyArgs) (v : Verifier) (r : list (path * bytes)) : Prop :=
  exists c,
    match va_trust_config a with
    | Some p => exists raw text, r = [(p, raw)] /\ utf8_decode raw = Some text /\ w_config_json w text = Ok c
    | None => r = nil /\ config_selected w a (Ok c)
    end /\
    tr_media_type (ctc_root c) = s2l "application/vnd.dev.sigstore.trustedroot+json;version=0.1" /\ make_verifier env (w_start w) (ctc_root c) = Ok v.

(** an input was verified with what was read for it: the input first, then its bundle, or its certificate and
    its signature *)
Definition verified_with (env : Env) (ps : Parsers) (w : World) (a : VerifyArgs) (v : Verifier) (p : policy) (x : item) (r : list (path * bytes)) : Prop :=
  exists d r0 b st, digested env x d r0 /\ vouched env ps w (w_when w x) v p d b st /\
  ((~ detached a /\ exists bp raw, bundle_place a x bp /\ r = r0 ++ [(bp, raw)] /\ bundle_from_json env (w_parse_bundle w) raw = Ok b) \/
   (detached a /\ exists cp sp pem cert raw text sig req e,
     part_file (va_cert a) (s2l ".crt") x cp /\ part_file (va_sig a) (s2l ".sig") x sp /\ r = r0 ++ [(cp, pem); (sp, raw)] /\
     w_load_pem w pem = Ok cert /\ utf8_decode raw = Some text /\ b64decode text = Ok sig /\
     hashedrekord_from_parts cert sig (mkHashed HA_SHA2_256 d) = Ok req /\
     retrieve_post (w_rp w) (w_rekor w x) (vf_rekor_url v) (Req_h1 req) = Ok (Some e) /\
     from_parts env cert sig e = Ok b)).

(** a command that printed [out] did its work: every argument was taken for an input, every input was verified
    with what was read for it, and nothing else was read *)
Definition all_verified (env : Env) (ps : Parsers) (w : World) (a : VerifyArgs) (p : policy) (t : list access) (out : list line) : Prop :=
  exists v r0 l,
    verifier_read env w a v r0 /\
    reads t = r0 ++ concat (map snd l) /\
    NoDup (map fst l) /\
    (forall x r, In (x, r) l -> verified_with env ps w a v p x r /\ In (L_ok x) out) /\
    (forall arg, In arg (va_inputs a) -> exists x, taken_for t arg x /\ In x (map fst l)).

(** the files a command line names, directly or as the materials of an input *)
Definition named (a : VerifyArgs) (p : path) : Prop :=
  (exists arg, In arg (va_inputs a) /\
     (p = path_of arg \/ exists s, In s [s2l ".sig"; s2l ".crt"; s2l ".sigstore"; s2l ".sigstore.json"] /\ p = sibling (path_of arg) s)) \/
  va_cert a = Some p \/ va_sig a = Some p \/ va_bundle a = Some p \/ va_trust_config a = Some p.

(** ** Pieces of programs *)

Lemma then_ok : forall A B (m : acc A) (k : A -> acc B) n y t, andthen m k n = (Ok y, t) ->
  exists x t1 t2, m n = (Ok x, t1) /\ k x (n + length t1) = (Ok y, t2) /\ t = t1 ++ t2.
Proof.
  intros A B m k n y t H. unfold andthen in H. destruct (m n) as [[x|e] t1]; [|discriminate].
  destruct (k x (n + length t1)) as [r t2] eqn:K. injection H as -> <-. eauto 6.
Qed.
Lemma pure_ok : forall A (r : res A) n x t, pure r n = (Ok x, t) -> r = Ok x /\ t = nil.
Proof. intros A r n x t [=]; auto. Qed.
Ltac inv_then H := let x := fresh "x" in let t1 := fresh "t" in let t2 := fresh "t" in let M := fresh "M" in
  apply then_ok in H; destruct H as (x & t1 & t2 & M & H & ->).
Ltac inv_as H x t1 t2 M := apply then_ok in H; destruct H as (x & t1 & t2 & M & H & ->).
Ltac inv_pure H := apply pure_ok in H; destruct H as [H ->].

Lemma look_ok : forall w files p n b t, look w files p n = (Ok b, t) -> t = [Look p b].
Proof. intros w files p n b t [=]; subst. reflexivity. Qed.
Lemma take_ok : forall w files p n b t, take w files p n = (Ok b, t) -> t = [Take p (Some b)].
Proof.
  intros w files p n b t H. unfold take, file_bytes in H. destruct (content (moment w files n) p) as [c|]; [|discriminate].
  injection H as <- <-. reflexivity.
Qed.
Lemma take_text_ok : forall w files p n s t, take_text w files p n = (Ok s, t) -> exists b, t = [Take p (Some b)] /\ utf8_decode b = Some s.
Proof.
  intros w files p n s t H. unfold take_text in H. inv_then H. inv_pure H. apply take_ok in M. subst. exists x. split; [reflexivity|].
  unfold py_decode in H. destruct (utf8_decode x); congruence.
Qed.

Lemma reads_app : forall a b, reads (a ++ b) = reads a ++ reads b.
Proof. intros. apply flat_map_app. Qed.

(** ** The structure of the command: which files it touches *)

(** programs that depend on the file system through their accesses only, and access only files with [Q] *)
Inductive prog (w : World) (Q : path -> Prop) : forall A, ((nat -> fs) -> acc A) -> Prop :=
| Pg_pure : forall A (r : res A), prog w Q A (fun _ => pure r)
| Pg_look : forall p, Q p -> prog w Q bool (fun f => look w f p)
| Pg_take : forall p, Q p -> prog w Q bytes (fun f => take w f p)
| Pg_then : forall A B (R : A -> Prop) (M : (nat -> fs) -> acc A) (K : A -> (nat -> fs) -> acc B),
    prog w Q A M -> (forall f n x t, M f n = (Ok x, t) -> R x) -> (forall x, R x -> prog w Q B (K x)) ->
    prog w Q B (fun f => andthen (M f) (fun x => K x f))
| Pg_try : forall A (M : (nat -> fs) -> acc A) c, prog w Q A M -> c EFileNotFound = false ->
    prog w Q A (fun f n => let (r, t) := M f n in (try_except r c (fun _ => invalid_arguments), t)).
Arguments prog w Q {A} _.

Definition path_in (x : access) : path := match x with Look p _ => p | Take p _ => p end.

Lemma prog_answers : forall w Q A (F : (nat -> fs) -> acc A), prog w Q F -> forall files n r t, F files n = (r, t) ->
  forall k x, nth_error t k = Some x -> Q (path_in x) /\ true_answer (w_cwd w) (files (n + k)) x.
Proof.
  intros w Q A F H. induction H as [A r|p q|p q|A B R M K HM IM HR HK IK|A M c HM IM HC]; intros files n r' t E k x N.
  - injection E as <- <-. destruct k; discriminate N.
  - injection E as <- <-. destruct k as [|[|]]; cbn in N; try discriminate N. injection N as <-. split; [exact q|].
    rewrite Nat.add_0_r. cbn. apply content_is_file.
  - injection E as <- <-. destruct k as [|[|]]; cbn in N; try discriminate N. injection N as <-. split; [exact q|].
    rewrite Nat.add_0_r. reflexivity.
  - unfold andthen in E. destruct (M files n) as [[y|e] t1] eqn:Em.
    + destruct (K y files (n + length t1)) as [r2 t2] eqn:Ek. injection E as <- <-.
      destruct (Nat.lt_ge_cases k (length t1)) as [L|L].
      * rewrite nth_error_app1 in N by assumption. exact (IM _ _ _ _ Em _ _ N).
      * rewrite nth_error_app2 in N by assumption. pose proof (IK y (HR _ _ _ _ Em) _ _ _ _ Ek _ _ N) as X.
        replace (n + length t1 + (k - length t1)) with (n + k) in X by lia. exact X.
    + injection E as <- <-. exact (IM _ _ _ _ Em _ _ N).
  - destruct (M files n) as [r2 t2] eqn:Em. injection E as <- <-. exact (IM _ _ _ _ Em _ _ N).
Qed.

Lemma prog_local : forall w Q A (F : (nat -> fs) -> acc A), prog w Q F -> forall f g,
  (forall n p, Q p -> f n (place (w_cwd w) p) = g n (place (w_cwd w) p)) -> forall n, F f n = F g n.
Proof.
  intros w Q A F H. induction H as [A r|p q|p q|A B R M K HM IM HR HK IK|A M c HM IM HC]; intros f g S n.
  - reflexivity.
  - unfold look, is_file, content, moment. cbn [with_files w_files w_cwd]. rewrite (S n p q). reflexivity.
  - unfold take, file_bytes, content, moment. cbn [with_files w_files w_cwd]. rewrite (S n p q). reflexivity.
  - unfold andthen. rewrite (IM f g S n). destruct (M g n) as [[y|e] t1] eqn:Em; [|reflexivity].
    rewrite (IK y (HR _ _ _ _ Em) f g S). reflexivity.
  - rewrite (IM f g S n). reflexivity.
Qed.

Lemma prog_failed_read : forall w Q A (F : (nat -> fs) -> acc A), prog w Q F -> forall files n r t p, F files n = (r, t) ->
  In (Take p None) t -> r = Raise EFileNotFound.
Proof.
  intros w Q A F H. induction H as [A r|p q|p q|A B R M K HM IM HR HK IK|A M c HM IM HC]; intros files n r' t p' E N.
  - injection E as <- <-. destruct N.
  - injection E as <- <-. destruct N as [[=]|[]].
  - injection E as <- <-. destruct N as [X|[]]. unfold file_bytes.
    assert (G : content (moment w files n) p = None) by exact (f_equal (fun z => match z with Take _ g => g | Look _ _ => None end) X).
    rewrite G. reflexivity.
  - unfold andthen in E. destruct (M files n) as [[y|e] t1] eqn:Em.
    + destruct (K y files (n + length t1)) as [r2 t2] eqn:Ek. injection E as <- <-. apply in_app_or in N. destruct N as [N|N].
      * discriminate (IM _ _ _ _ _ Em N).
      * exact (IK y (HR _ _ _ _ Em) _ _ _ _ _ Ek N).
    + injection E as <- <-. pose proof (IM _ _ _ _ _ Em N) as X. injection X as ->. reflexivity.
  - destruct (M files n) as [r2 t2] eqn:Em. injection E as <- <-. rewrite (IM _ _ _ _ _ Em N). unfold try_except. rewrite HC. reflexivity.
Qed.

Lemma prog_weaken : forall w (Q Q' : path -> Prop), (forall p, Q p -> Q' p) -> forall A (F : (nat -> fs) -> acc A), prog w Q F -> prog w Q' F.
Proof.
  intros w Q Q' S A F H. induction H as [A r|p q|p q|A B R M K HM IM HR HK IK|A M c HM IM HC]; try (constructor; auto; fail).
  eapply Pg_then; eassumption.
Qed.

Lemma prog_then : forall w Q A B (M : (nat -> fs) -> acc A) (K : A -> (nat -> fs) -> acc B),
  prog w Q M -> (forall x, prog w Q (K x)) -> prog w Q (fun f => andthen (M f) (fun x => K x f)).
Proof. intros. apply Pg_then with (R := fun _ => True); auto. Qed.

Lemma prog_each : forall w Q A B (G : A -> (nat -> fs) -> acc B) l, (forall x, In x l -> prog w Q (G x)) ->
  prog w Q (fun f => each (fun x => G x f) l).
Proof.
  intros w Q A B G l. induction l as [|x l IH]; intros H; cbn [each]; [apply Pg_pure|].
  apply (prog_then _ _ _ _ (fun f => G x f)); [apply H; left; reflexivity|]. intros y.
  apply (prog_then _ _ _ _ (fun f => each (fun x => G x f) l)); [apply IH; intros z Iz; apply H; right; exact Iz|]. intros ys. apply Pg_pure.
Qed.

Lemma prog_take_text : forall w (Q : path -> Prop) p, Q p -> prog w Q (fun f => take_text w f p).
Proof. intros w Q p q. apply (prog_then _ _ _ _ (fun f => take w f p)); [apply Pg_take, q|]. intros b. apply Pg_pure. Qed.

Lemma prog_file_or_digest : forall w (Q : path -> Prop) arg, Q (path_of arg) -> prog w Q (fun f => file_or_digest_s w f arg).
Proof.
  intros w Q arg q. apply (prog_then _ _ _ _ (fun f => look w f (path_of arg))); [apply Pg_look, q|]. intros [|]; apply Pg_pure.
Qed.
Lemma prog_parse_inputs : forall w (Q : path -> Prop) args, (forall arg, In arg args -> Q (path_of arg)) -> prog w Q (fun f => parse_inputs_s w f args).
Proof.
  intros w Q args q. apply (Pg_try _ _ _ (fun f => each (file_or_digest_s w f) args)); [|reflexivity].
  apply (prog_each w Q _ _ (fun arg f => file_or_digest_s w f arg)). intros arg I. apply prog_file_or_digest, q, I.
Qed.
Lemma prog_config : forall w (Q : path -> Prop) tc i s o, (forall p, tc = Some p -> Q p) -> prog w Q (fun f => get_trust_config_s w f tc i s o).
Proof.
  intros w Q [p|] i s o q; cbn [get_trust_config_s].
  - apply (prog_then _ _ _ _ (fun f => take_text w f p)); [apply prog_take_text, q; reflexivity|]. intros t. apply Pg_pure.
  - destruct i as [[|c r]|]; try apply Pg_pure; destruct s; apply Pg_pure.
Qed.
Definition mat_paths (m : materials) : list path := match m with M_bundle p => [p] | M_parts c s => [c; s] end.
Lemma prog_check : forall w (Q : path -> Prop) m, (forall p, In p (mat_paths m) -> Q p) -> prog w Q (fun f => check_materials_s w f m).
Proof.
  intros w Q [p|c s] q; cbn [check_materials_s mat_paths In] in *.
  - apply (prog_then _ _ _ _ (fun f => look w f p)); [apply Pg_look, q; auto|]. intros b.
    apply (prog_then _ _ _ _ (fun f => pure _)); [apply Pg_pure|]. intros u. apply Pg_pure.
  - apply (prog_then _ _ _ _ (fun f => look w f s)); [apply Pg_look, q; auto|]. intros b.
    apply (prog_then _ _ _ _ (fun f => look w f c)); [apply Pg_look, q; auto|]. intros b'.
    apply (prog_then _ _ _ _ (fun f => pure _)); [apply Pg_pure|]. intros u. apply Pg_pure.
Qed.
Lemma prog_default : forall w (Q : path -> Prop) file c s, Q c -> Q s -> Q (sibling file (s2l ".sigstore")) -> Q (sibling file (s2l ".sigstore.json")) ->
  prog w Q (fun f => default_bundle_s w f file c s).
Proof.
  intros w Q file c s qc qs ql qb. unfold default_bundle_s. cbv zeta.
  apply (prog_then _ _ _ _ (fun f => look w f _)); [apply Pg_look, qb|]. intros b.
  apply (prog_then _ _ _ _ (fun f => if b then pure (Ok false) else look w f (sibling file (s2l ".sigstore")))); [destruct b; [apply Pg_pure|apply Pg_look, ql]|]. intros [|].
  - apply (prog_then _ _ _ _ (fun f => look w f c)); [apply Pg_look, qc|]. intros b'.
    apply (prog_then _ _ _ _ (fun f => if b' then look w f s else pure (Ok false))); [destruct b'; [apply Pg_look, qs|apply Pg_pure]|]. intros u. apply Pg_pure.
  - apply (prog_then _ _ _ _ (fun f => look w f (sibling file (s2l ".sigstore.json")))); [apply Pg_look, qb|]. intros b2.
    apply (prog_then _ _ _ _ (fun f => if b2 then look w f (sibling file (s2l ".sigstore")) else pure (Ok false)));
      [destruct b2; [apply Pg_look, ql|apply Pg_pure]|]. intros [|]; apply Pg_pure.
Qed.

Lemma check_ok : forall w files m n m' t, check_materials_s w files m n = (Ok m', t) -> m' = m /\ reads t = nil.
Proof.
  intros w files [p|c s] n m' t H; cbn [check_materials_s] in H.
  - inv_then H. inv_then H. inv_pure H. inv_pure M0. apply look_ok in M. subst. split; [congruence|reflexivity].
  - inv_then H. inv_then H. inv_then H. inv_pure H. inv_pure M1. apply look_ok in M, M0. subst. split; [congruence|reflexivity].
Qed.
Lemma default_ok : forall w files file c s n p t, default_bundle_s w files file c s n = (Ok p, t) ->
  (p = sibling file (s2l ".sigstore.json") \/ p = sibling file (s2l ".sigstore")) /\ reads t = nil.
Proof.
  intros w files file c s n p t H. unfold default_bundle_s in H. cbv zeta in H.
  inv_as H xb t1 t' M1. inv_as H xl t2 t3 M2. apply look_ok in M1. subst t1.
  assert (R2 : reads t2 = nil).
  { destruct xb; [inv_pure M2; reflexivity|]. apply look_ok in M2. subst. reflexivity. }
  destruct xl.
  - inv_as H xc t4 t5 M4. inv_as H xs t6 t7 M6. inv_pure H. apply look_ok in M4. subst t4.
    assert (R6 : reads t6 = nil).
    { destruct xc; [|inv_pure M6; reflexivity]. apply look_ok in M6. subst. reflexivity. }
    split; [right; congruence|]. rewrite !reads_app, R2, R6. reflexivity.
  - inv_as H xc t4 t5 M4. inv_as H xs t6 t7 M6. apply look_ok in M4. subst t4.
    assert (R6 : reads t6 = nil).
    { destruct xc; [|inv_pure M6; reflexivity]. apply look_ok in M6. subst. reflexivity. }
    destruct xs; inv_pure H; [discriminate|]. split; [left; congruence|]. rewrite !reads_app, R2, R6. reflexivity.
Qed.

(** which materials are used *)
Definition fits (a : VerifyArgs) (x : item) (m : materials) : Prop :=
  match m with
  | M_bundle p => ~ detached a /\ bundle_place a x p
  | M_parts cp sp => detached a /\ part_file (va_cert a) (s2l ".crt") x cp /\ part_file (va_sig a) (s2l ".sig") x sp
  end.
Lemma det_flip : forall a, is_some (va_sig a) || is_some (va_cert a) = det a.
Proof. intros a. unfold det. apply orb_comm. Qed.

Lemma materials_ok : forall w files a file n m t, materials_for_s w files a file n = (Ok m, t) -> fits a (It_path file) m /\ reads t = nil.
Proof.
  intros w files a file n m t H. unfold materials_for_s in H. cbv zeta in H.
  inv_as H xf t1 t' M1. inv_as H u t2 t3 M2. inv_pure M2. inv_as H bn t4 t5 M4.
  apply look_ok in M1. subst t1. apply check_ok in H. destruct H as [-> H]. rewrite det_flip.
  assert (X : bundle_place a (It_path file) bn /\ reads t4 = nil).
  { unfold bundle_place. destruct (va_bundle a); [inv_pure M4; split; [congruence|reflexivity]|]. apply default_ok in M4.
    destruct M4 as [P R]. split; [eauto|exact R]. }
  destruct X as [B R]. split; [|rewrite !reads_app, R, H; reflexivity]. destruct (det a) eqn:D; cbn [fits].
  - apply det_true in D. split; [exact D|]. unfold part_file, given. destruct (va_cert a), (va_sig a); eauto 6.
  - apply det_false in D. auto.
Qed.

Lemma map_values : forall w files a items m0 n m t, build_map_s w files a items m0 n = (Ok m, t) ->
  reads t = nil /\
  (forall x, In x (map fst m) <-> In x (map fst m0) \/ (In x items /\ is_digest x = false)) /\
  ((forall x mt, In (x, mt) m0 -> fits a x mt) -> forall x mt, In (x, mt) m -> fits a x mt) /\
  (NoDup (map fst m0) -> NoDup (map fst m)).
Proof.
  intros w files a items. induction items as [|x items IH]; intros m0 n m t H; cbn [build_map_s] in H.
  - inv_pure H. injection H as <-. split; [reflexivity|]. split; [intros x; cbn; tauto|]. auto.
  - destruct x as [p|h].
    + inv_as H mt0 t1 t2 M. apply materials_ok in M. destruct M as [F R]. destruct (IH _ _ _ _ H) as (P1 & P2 & P3 & P4).
      split; [rewrite reads_app, R; exact P1|]. split; [|split].
      * intros y. rewrite P2, dict_set_keys. split.
        -- intros [[->|I]|[I D]]; [right; split; [left; reflexivity|reflexivity]|left; assumption|right; split; [right; assumption|assumption]].
        -- intros [I|[[<-|I] D]]; [left; right; assumption|left; left; reflexivity|right; split; assumption].
      * intros Q0. apply P3. intros y mt I. apply dict_set_values in I. destruct I as [[-> ->]|I]; [exact F|apply Q0; assumption].
      * intros ND. apply P4. clear -ND. induction m0 as [|[k v] m0 IH]; cbn [dict_set map fst] in *; [constructor; [intros []|constructor]|].
        inversion ND as [|? ? N1 N2]; subst. destruct (item_eqb (It_path p) k) eqn:E; [exact ND|]. cbn [map fst]. constructor; [|apply IH, N2].
        rewrite dict_set_keys. intros [->|I]; [|contradiction]. assert (X : item_eqb (It_path p) (It_path p) = true) by (apply item_eqb_spec; reflexivity). congruence.
    + destruct (IH _ _ _ _ H) as (P1 & P2 & P3 & P4). split; [exact P1|]. split; [|split; [exact P3|exact P4]].
      intros y. rewrite P2. split.
      * intros [I|[I D]]; [left; assumption|right; split; [right; assumption|assumption]].
      * intros [I|[[<-|I] D]]; [left; assumption|discriminate D|right; split; assumption].
Qed.

Lemma digest_ok : forall w files a items n m t, digest_map_s w files a items n = (Ok m, t) ->
  reads t = nil /\ exists x mt, items = [x] /\ m = [(x, mt)] /\ fits a x mt.
Proof.
  intros w files a items n m t H. unfold digest_map_s in H.
  inv_as H hm t1 t' M1. inv_pure M1. inv_as H m' t3 t4 M3. inv_pure H. apply check_ok in M3. destruct M3 as [-> R].
  split; [rewrite !reads_app, R; reflexivity|]. inv_bind M1. apply raise_if_ok in Ha. apply negb_false_iff, Nat.eqb_eq in Ha.
  destruct items as [|y [|? ?]]; cbn [length] in Ha; try discriminate Ha. inv_bind M1. unfold index_list in Ha0. cbn [nth_error] in Ha0.
  injection Ha0 as <-. inv_bind M1. assert (hm = (y, a1)) by congruence. subst hm. cbn [fst snd] in H. exists y, a1. split; [reflexivity|]. split; [congruence|].
  rewrite det_flip in Ha0. destruct (det a) eqn:D.
  - apply det_true in D. destruct (va_sig a) eqn:S; [|discriminate]. destruct (va_cert a) eqn:C; [|discriminate].
    injection Ha0 as <-. cbn [fits]. unfold part_file. rewrite S, C. auto.
  - apply det_false in D. destruct (va_bundle a) eqn:B; [|discriminate]. injection Ha0 as <-. cbn [fits]. unfold bundle_place. rewrite B. auto.
Qed.

Lemma file_or_digest_ok : forall w files arg n x t, file_or_digest_s w files arg n = (Ok x, t) -> taken_for t arg x /\ reads t = nil.
Proof.
  intros w files arg n x t H. unfold file_or_digest_s in H. cbv zeta in H. inv_as H fd t1 t2 M1. apply look_ok in M1. subst t1. destruct fd; inv_pure H.
  - split; [|reflexivity]. left. split; [left; reflexivity|congruence].
  - split; [|reflexivity]. right. split; [left; reflexivity|].
    pose (w0 := with_files w (fun _ => None)).
    assert (F : file_or_digest w0 arg = Ok x) by exact H. apply file_or_digest_iff in F. destruct F as [(b & C & _)|(_ & F)]; [discriminate C|exact F].
Qed.
Lemma each_ok : forall A B (f : A -> acc B) (P : A -> B -> list access -> Prop), (forall x n y t, f x n = (Ok y, t) -> P x y t) ->
  forall l n ys t, each f l n = (Ok ys, t) -> exists ts, t = concat ts /\ length ts = length l /\ length ys = length l /\
    forall k x, nth_error l k = Some x -> exists y tk, nth_error ys k = Some y /\ nth_error ts k = Some tk /\ P x y tk.
Proof.
  intros A B f P HP l. induction l as [|x l IH]; intros n ys t H; cbn [each] in H.
  - inv_pure H. injection H as <-. exists nil. repeat split. intros [|]; discriminate.
  - inv_as H y t1 t2 M1. inv_as H ys' t3 t4 M2. inv_pure H. injection H as <-. apply HP in M1. destruct (IH _ _ _ M2) as (ts & -> & L1 & L2 & N).
    exists (t1 :: ts). split; [cbn; rewrite app_nil_r; reflexivity|]. split; [cbn; congruence|]. split; [cbn; congruence|].
    intros [|k] z Z; cbn [nth_error] in *; [injection Z as <-; eauto|]. apply N, Z.
Qed.
Lemma reads_concat : forall ts, (forall t, In t ts -> reads t = nil) -> reads (concat ts) = nil.
Proof.
  induction ts as [|t ts IH]; intros H; [reflexivity|]. cbn [concat]. rewrite reads_app, (H t (or_introl eq_refl)), IH; [reflexivity|].
  intros t' I. apply H. right. exact I.
Qed.
Lemma parse_ok : forall w files args n items t, parse_inputs_s w files args n = (Ok items, t) ->
  reads t = nil /\ Forall2 (taken_for t) args items.
Proof.
  intros w files args n items t H. unfold parse_inputs_s in H. destruct (each (file_or_digest_s w files) args n) as [r t'] eqn:E.
  injection H as H ->. destruct r as [l|e]; [|unfold try_except, invalid_arguments in H; destruct (exn_eqb EValue e); discriminate]. injection H as ->.
  revert n items t E. induction args as [|arg args IH]; intros n items t E; cbn [each] in E.
  - inv_pure E. injection E as <-. split; [reflexivity|constructor].
  - inv_as E y t1 t2 M1. inv_as E ys t3 t4 M2. inv_pure E. injection E as <-. apply file_or_digest_ok in M1. destruct M1 as [T R], (IH _ _ _ M2) as [R' F].
    split; [rewrite !reads_app, R, R'; reflexivity|]. constructor.
    + unfold taken_for in *. destruct T as [[T1 T2]|[T1 T2]]; [left|right]; (split; [apply in_or_app; left; exact T1|exact T2]).
    + clear -F. induction F as [|u v us vs H F IHF]; constructor; [|exact IHF]. unfold taken_for in *. rewrite app_nil_r.
      destruct H as [[T1 T2]|[T1 T2]]; [left|right]; (split; [apply in_or_app; right; exact T1|exact T2]).
Qed.

Lemma config_ok : forall w files a n c t, get_trust_config_s w files (va_trust_config a) (va_instance a) (va_staging a) (va_offline a) n = (Ok c, t) ->
  match va_trust_config a with
  | Some p => exists raw text, reads t = [(p, raw)] /\ utf8_decode raw = Some text /\ w_config_json w text = Ok c
  | None => reads t = nil /\ config_selected w a (Ok c)
  end.
Proof.
  intros w files a n c t H. destruct (va_trust_config a) as [p|] eqn:T; cbn [get_trust_config_s] in H.
  - inv_as H s t1 t2 M. inv_pure H. apply take_text_ok in M. destruct M as (b & -> & U). exists b, s. auto.
  - assert (X : get_trust_config w None (va_instance a) (va_staging a) (va_offline a) = Ok c /\ t = nil).
    { cbn [get_trust_config]. destruct (va_instance a) as [[|k r]|]; try (inv_pure H; split; [exact H|reflexivity]); destruct (va_staging a); inv_pure H; split; auto. }
    destruct X as [X ->]. split; [reflexivity|]. apply config_iff. rewrite T. exact X.
Qed.

(** what is loaded for an input *)
Definition loaded (env : Env) (w : World) (a : VerifyArgs) (v : Verifier) (x : item) (d : bytes) (b : Bundle) (r : list (path * bytes)) : Prop :=
  exists r0, digested env x d r0 /\
  ((~ detached a /\ exists bp raw, bundle_place a x bp /\ r = r0 ++ [(bp, raw)] /\ bundle_from_json env (w_parse_bundle w) raw = Ok b) \/
   (detached a /\ exists cp sp pem cert raw text sig req e,
     part_file (va_cert a) (s2l ".crt") x cp /\ part_file (va_sig a) (s2l ".sig") x sp /\ r = r0 ++ [(cp, pem); (sp, raw)] /\
     w_load_pem w pem = Ok cert /\ utf8_decode raw = Some text /\ b64decode text = Ok sig /\
     hashedrekord_from_parts cert sig (mkHashed HA_SHA2_256 d) = Ok req /\
     retrieve_post (w_rp w) (w_rekor w x) (vf_rekor_url v) (Req_h1 req) = Ok (Some e) /\
     from_parts env cert sig e = Ok b)).

Lemma load_ok : forall env w files a v x m n y h b t, (forall k, x = It_digest k -> h_alg k = HA_SHA2_256) -> fits a x m ->
  load_materials_s env w files v (x, m) n = (Ok (y, (h, b)), t) ->
  y = x /\ exists d, h = mkHashed HA_SHA2_256 d /\ loaded env w a v x d b (reads t).
Proof.
  intros env w files a v x m n y h b t Hx F H. unfold load_materials_s in H. cbv zeta in H. cbn [fst snd] in H. inv_as H hh t1 t2 M1.
  assert (X : exists d, hh = mkHashed HA_SHA2_256 d /\ digested env x d (reads t1)).
  { destruct x as [p|k]; cbn [digested].
    - inv_as M1 c t3 t4 M2. apply take_ok in M2. inv_pure M1. subst t3. injection M1 as <-. eexists. split; [reflexivity|]. exists c. split; reflexivity.
    - inv_pure M1. injection M1 as ->. specialize (Hx hh eq_refl). destruct hh as [al dg]. cbn [h_alg] in Hx. subst al. exists dg. auto. }
  destruct X as (d & -> & Dg). rewrite reads_app. destruct m as [p|cp sp]; cbn [fits] in F.
  - inv_as H raw t3 t4 M3. inv_as H b' t5 t6 M5. inv_pure M5. inv_pure H. apply take_ok in M3. subst t3.
    assert (y = x /\ h = mkHashed HA_SHA2_256 d /\ b' = b) as (-> & -> & ->) by (repeat split; congruence). split; [reflexivity|].
    exists d. split; [reflexivity|]. exists (reads t1). split; [exact Dg|]. left. split; [tauto|]. exists p, raw. split; [tauto|]. split; [reflexivity|exact M5].
  - inv_as H pem t3 t4 M3. apply take_ok in M3. subst t3. inv_as H cert t5 t6 M5. inv_pure M5. inv_as H text t7 t8 M7. inv_pure H.
    apply take_text_ok in M7. destruct M7 as (raw & -> & U).
    inv_bind H. inv_bind H. inv_bind H. destruct a2 as [e|]; [|discriminate]. inv_bind H.
    assert (y = x /\ h = mkHashed HA_SHA2_256 d /\ a2 = b) as (-> & -> & ->) by (repeat split; congruence). split; [reflexivity|].
    exists d. split; [reflexivity|]. exists (reads t1). split; [exact Dg|]. right. split; [tauto|].
    exists cp, sp, pem, cert, raw, text, a0, a1, e. split; [tauto|]. split; [tauto|]. split; [reflexivity|]. auto 8.
Qed.

Lemma check_options_flags : forall a items u, check_options a items = Ok u -> flags_ok a items = true.
Proof.
  intros a items u H. unfold check_options in H. cbv zeta in H. inv_bind H. inv_bind H. inv_bind H. apply raise_if_ok in Ha, Ha0, Ha1, H.
  unfold flags_ok, det. rewrite Ha, Ha0, Ha1, H. reflexivity.
Qed.

(** what is collected *)
Lemma collect_ok : forall env w files pre a v all n t, collect_s env w files pre a n = (Ok (v, all), t) ->
  pre = Ok tt /\ exists r0 rs,
    verifier_read env w a v r0 /\ reads t = r0 ++ concat rs /\ NoDup (map fst all) /\
    Forall2 (fun xhb r => exists d, fst (snd xhb) = mkHashed HA_SHA2_256 d /\ loaded env w a v (fst xhb) d (snd (snd xhb)) r) all rs /\
    (forall arg, In arg (va_inputs a) -> exists x, taken_for t arg x /\ In x (map fst all)).
Proof.
  intros env w files pre a v all n t H. unfold collect_s in H.
  inv_as H items t1 t1' M1. inv_as H u t2 t2' M2. inv_pure M2. inv_as H m0 t3 t3' M3. inv_as H m t4 t4' M4.
  inv_as H c t5 t5' M5. inv_as H v' t6 t6' M6. inv_pure M6. inv_as H all' t7 t7' M7. inv_pure H. injection H as -> ->.
  apply parse_ok in M1. destruct M1 as [R1 P]. inv_bind M2. destruct a0. split; [exact Ha|]. apply check_options_flags in M2.
  apply map_values in M3. destruct M3 as (R3 & K3 & F3 & N3).
  assert (X : reads t4 = nil /\ NoDup (map fst m) /\ (forall x mt, In (x, mt) m -> fits a x mt) /\ (forall x, In x items -> In x (map fst m)) /\
              (forall x, In x (map fst m) -> In x items)).
  { assert (DG : forall h, In (It_digest h) items -> items = [It_digest h]) by (intros h; apply only_digest with (a := a); assumption).
    destruct m0 as [|y m0].
    - apply digest_ok in M4. destruct M4 as (R4 & x & mt & -> & -> & F). split; [exact R4|]. split; [constructor; [intros []|constructor]|].
      split; [intros y mt' [E|[]]; injection E as <- <-; exact F|]. split; intros y Iy; exact Iy.
    - inv_pure M4. injection M4 as <-. split; [reflexivity|]. split; [apply N3; constructor|]. split; [apply F3; intros ? ? []|].
      assert (NoD : forall x, In x items -> is_digest x = false).
      { intros [q|h] I; [reflexivity|]. exfalso. specialize (DG h I). subst items.
        destruct (proj1 (K3 (fst y)) (or_introl eq_refl)) as [[]|[[E|[]] D]]. rewrite <- E in D. discriminate D. }
      split; intros x I.
      + apply K3. right. split; [exact I|apply NoD, I].
      + apply K3 in I. destruct I as [[]|[I _]]. exact I. }
  destruct X as (R4 & N4 & F4 & I4 & I4'). apply config_ok in M5. inv_bind M6. pose proof (make_trusted_root_same _ _ Ha0). subst a0.
  assert (HX : forall x mt k, In (x, mt) m -> x = It_digest k -> h_alg k = HA_SHA2_256).
  { intros x mt k I ->. apply (in_map fst), I4' in I. cbn [fst] in I.
    clear -P I. induction P as [|g y args items T P IH]; [destruct I|]. destruct I as [->|I]; [|apply IH, I].
    destruct T as [[_ T]|[_ (sep & text & d & _ & _ & _ & T)]]; [discriminate T|]. injection T as ->. reflexivity. }
  assert (L : exists rs, reads t7 = concat rs /\ map fst all = map fst m /\
     Forall2 (fun xhb r => exists d, fst (snd xhb) = mkHashed HA_SHA2_256 d /\ loaded env w a v (fst xhb) d (snd (snd xhb)) r) all rs).
  { match type of M7 with each _ _ ?j = _ => revert M7; generalize j as k end. intros k M7. clear -M7 F4 HX. revert k all t7 M7.
    induction m as [|[x mt] m IH]; intros k all t7 M; cbn [each] in M.
    - inv_pure M. injection M as <-. exists nil. repeat split; constructor.
    - inv_as M xhb ta tb Ma. inv_as M rest tc td Mc. inv_pure M. injection M as <-.
      destruct xhb as [y [h b]]. apply (load_ok _ _ _ a) in Ma; [|intros k' E; exact (HX x mt k' (or_introl eq_refl) E)|apply F4; left; reflexivity].
      destruct Ma as (-> & d & -> & Ld). destruct (IH (fun x0 mt0 I => F4 x0 mt0 (or_intror I)) (fun x0 mt0 k' I => HX x0 mt0 k' (or_intror I)) _ _ _ Mc) as (rs & R & E & Fa).
      exists (reads ta :: rs). split; [rewrite !reads_app, R; cbn; rewrite app_nil_r; reflexivity|]. split; [cbn; congruence|].
      constructor; [|exact Fa]. exists d. split; [reflexivity|exact Ld]. }
  destruct L as (rs & R7 & E7 & Fa).
  assert (V : verifier_read env w a v (reads t5)).
  { exists c. split; [|split; [apply make_trusted_root_media; assumption|assumption]]. destruct (va_trust_config a); exact M5. }
  exists (reads t5), rs. split; [exact V|]. split; [rewrite !reads_app, R1, R3, R4, R7; cbn; rewrite app_nil_r; reflexivity|]. split; [rewrite E7; exact N4|].
  split; [exact Fa|]. intros arg Ia. assert (Q : exists x, taken_for t1 arg x /\ In x items).
  { clear -P Ia. induction P as [|g y args items T P IH]; [destruct Ia|]. destruct Ia as [->|Ia]; [exists y; split; [exact T|left; reflexivity]|].
    destruct (IH Ia) as (x & T' & I'). exists x. split; [exact T'|right; exact I']. }
  destruct Q as (x & T & I). exists x. split; [|rewrite E7; apply I4, I].
  destruct T as [[T1 T2]|[T1 T2]]; [left|right]; (split; [apply in_or_app; left; exact T1|exact T2]).
Qed.

Lemma run_ok : forall env ps w files pre a show p out t, run_verify_s env ps w files pre a show p = ((out, Ok tt), t) ->
  pre = Ok tt /\ all_verified env ps w a p t out.
Proof.
  intros env ps w files pre a show p out t H. unfold run_verify_s in H.
  destruct (collect_s env w files pre a 0) as [[[v all]|e] t'] eqn:C; [|discriminate].
  apply (f_equal fst) in H as L. apply (f_equal snd) in H. cbn [fst snd] in L, H. subst t'.
  apply collect_ok in C. destruct C as (HP & r0 & rs & V & R & N & F & I). split; [exact HP|].
  assert (PO : forall l out', verify_loop env ps w (va_verbose a) show v p l = (out', Ok tt) -> forall x hb, In (x, hb) l -> In (L_ok x) out').
  { induction l as [|[y [h b]] l IH]; intros out' E x hb Ix; [destruct Ix|]. cbn [verify_loop] in E.
    destruct (verify_common env ps w (w_when w y) v h b p) as [[st|]|e].
    - destruct (show st) as [ln|e].
      + destruct (verify_loop env ps w (va_verbose a) show v p l) as [o r]. injection E as <- ->.
        destruct Ix as [Q|Ix]; [injection Q as <- _; left; reflexivity|right; right; exact (IH _ eq_refl _ _ Ix)].
      + destruct (is_sigstore_error e); [|discriminate]. unfold log_and_exit in E. destruct (va_verbose a); discriminate.
    - destruct (verify_loop env ps w (va_verbose a) show v p l) as [o r]. injection E as <- ->.
      destruct Ix as [Q|Ix]; [injection Q as <- _; left; reflexivity|right; exact (IH _ eq_refl _ _ Ix)].
    - destruct (is_sigstore_error e); [|discriminate]. unfold log_and_exit in E. destruct (va_verbose a); discriminate. }
  pose proof (PO _ _ L) as PL. clear PO.
  exists v, r0, (combine (map fst all) rs). split; [exact V|].
  assert (Len : length all = length rs) by (clear -F; induction F; cbn; congruence).
  assert (S1 : map fst (combine (map fst all) rs) = map fst all).
  { clear -Len. revert rs Len. induction all as [|x all IH]; intros [|r rs] Len; cbn in *; try discriminate; [reflexivity|]. f_equal. apply IH. congruence. }
  assert (S2 : map snd (combine (map fst all) rs) = rs).
  { clear -Len. revert rs Len. induction all as [|x all IH]; intros [|r rs] Len; cbn in *; try discriminate; [reflexivity|]. f_equal. apply IH. congruence. }
  rewrite S1, S2. split; [exact R|]. split; [exact N|]. split; [|exact I].
  pose proof (loop_ok _ _ _ _ _ _ _ _ _ L) as LO. clear -F PL LO. induction F as [|[y [h b]] r all rs (d & Eh & Ld) F IH]; intros x r' Ix; [destruct Ix|].
  destruct Ix as [E|Ix].
  - cbn [map fst] in E. injection E as <- <-. split; [|apply (PL y (h, b)); left; reflexivity].
    destruct (LO y h b (or_introl eq_refl)) as (st & VC & _). cbn [fst snd] in Eh, Ld. subst h. apply verify_common_iff in VC.
    destruct Ld as (r0 & Dg & Ld). exists d, r0, b, st. split; [exact Dg|]. split; [exact VC|]. exact Ld.
  - apply IH; [intros z hb Iz; eapply PL; right; exact Iz|intros z hz bz Iz; apply LO; right; exact Iz|exact Ix].
Qed.

(** ** C102 *)

(** exit status 0: every input was verified with contents that were read once, and nothing else was read *)
Theorem C102_accepted : forall env ps w files a identity issuer out t,
  verify_identity_s env ps w files a identity issuer = ((out, Ok tt), t) ->
  all_verified env ps w a (P_identity identity (Some issuer)) t out.
Proof.
  intros env ps w files a identity issuer out t H. unfold verify_identity_s in H.
  destruct (run_verify_s env ps w files (Ok tt) a show_decoded (P_identity identity (Some issuer))) as [[o r] t'] eqn:R.
  injection H as <- H <-. apply main_handler_ok in H. subst r. exact (proj2 (run_ok _ _ _ _ _ _ _ _ _ _ R)).
Qed.
Theorem C102_accepted_github : forall env ps w files a g out t,
  verify_github_s env ps w files a g = ((out, Ok tt), t) ->
  ((exists s, gh_identity g = Some s /\ s <> nil) \/ (exists s, gh_repository g = Some s /\ s <> nil)) /\
  all_verified env ps w a (github_policy g) t out.
Proof.
  intros env ps w files a g out t H. unfold verify_github_s in H. cbv zeta in H.
  match type of H with context [run_verify_s _ _ _ _ ?p _ _ _] => set (pre := p) in H end.
  destruct (run_verify_s env ps w files pre a show_repr (github_policy g)) as [[o r] t'] eqn:R.
  injection H as <- H <-. apply main_handler_ok in H. subst r. apply run_ok in R. destruct R as [P R]. split; [|exact R].
  subst pre. apply raise_if_ok in P. apply negb_false_iff, orb_true_iff in P. unfold truthy in P.
  destruct P as [P|P]; [left; destruct (gh_identity g) as [[|k s]|]|right; destruct (gh_repository g) as [[|k s]|]]; try discriminate P;
    (eexists; split; [reflexivity|discriminate]).
Qed.

Lemma fits_named : forall a x m, fits a x m -> (forall f, x = It_path f -> exists arg, In arg (va_inputs a) /\ f = path_of arg) -> forall p, In p (mat_paths m) -> named a p.
Proof.
  intros a x [bp|cp sp] F HX p I; cbn [fits mat_paths In] in *.
  - destruct I as [<-|[]]. destruct F as [_ B]. unfold bundle_place in B. destruct (va_bundle a) eqn:E; [subst; right; right; right; left; exact E|].
    destruct B as (f & Ex & B). destruct (HX f Ex) as (arg & Ia & ->). left. exists arg. split; [exact Ia|]. right. destruct B as [->| ->]; eexists; (split; [|reflexivity]); cbn; auto.
  - destruct F as (_ & P1 & P2). destruct I as [<-|[<-|[]]].
    + unfold part_file in P1. destruct (va_cert a) eqn:E; [subst; right; left; exact E|]. destruct P1 as (f & Ex & ->). destruct (HX f Ex) as (arg & Ia & ->).
      left. exists arg. split; [exact Ia|]. right. eexists. split; [|reflexivity]. cbn; auto.
    + unfold part_file in P2. destruct (va_sig a) eqn:E; [subst; right; right; left; exact E|]. destruct P2 as (f & Ex & ->). destruct (HX f Ex) as (arg & Ia & ->).
      left. exists arg. split; [exact Ia|]. right. eexists. split; [|reflexivity]. cbn; auto.
Qed.
Lemma named_given : forall a arg o s, In arg (va_inputs a) -> (forall p, o = Some p -> named a p) ->
  In s [s2l ".sig"; s2l ".crt"; s2l ".sigstore"; s2l ".sigstore.json"] -> named a (given o (sibling (path_of arg) s)).
Proof.
  intros a arg [p|] s Ia Ho Is; cbn [given]; [apply Ho; reflexivity|]. left. exists arg. split; [exact Ia|]. right. eauto.
Qed.
Lemma prog_materials : forall w a arg, In arg (va_inputs a) -> prog w (named a) (fun f => materials_for_s w f a (path_of arg)).
Proof.
  intros w a arg Ia. unfold materials_for_s. cbv zeta.
  assert (NS : forall s, In s [s2l ".sig"; s2l ".crt"; s2l ".sigstore"; s2l ".sigstore.json"] -> named a (sibling (path_of arg) s))
    by (intros s Is; left; exists arg; split; [exact Ia|]; right; eauto).
  assert (Nsig : named a (given (va_sig a) (sibling (path_of arg) (s2l ".sig")))) by (apply named_given; [exact Ia|intros p E; right; right; left; exact E|cbn; auto]).
  assert (Ncrt : named a (given (va_cert a) (sibling (path_of arg) (s2l ".crt")))) by (apply named_given; [exact Ia|intros p E; right; left; exact E|cbn; auto]).
  apply (prog_then _ _ _ _ (fun f => look w f (path_of arg))); [apply Pg_look; left; exists arg; auto|]. intros b.
  apply (prog_then _ _ _ _ (fun f => pure _)); [apply Pg_pure|]. intros u.
  apply (Pg_then _ _ _ _ (named a) (fun f => match va_bundle a with Some b => pure (Ok b) | None => default_bundle_s w f (path_of arg) _ _ end)
     (fun bundle f => check_materials_s w f _)).
  - destruct (va_bundle a); [apply Pg_pure|]. apply prog_default; try assumption; apply NS; cbn; auto.
  - intros f n x t E. destruct (va_bundle a) eqn:B.
    + inv_pure E. injection E as <-. right; right; right; left; exact B.
    + apply default_ok in E. destruct E as [[->| ->] _]; apply NS; cbn; auto.
  - intros bn Nb. apply prog_check. destruct (_ || _)%bool; cbn [mat_paths]; intros p [<-|[<-|[]]] || intros p [<-|[]]; assumption.
Qed.
Lemma prog_map : forall w a items m0, (forall f, In (It_path f) items -> exists arg, In arg (va_inputs a) /\ f = path_of arg) ->
  prog w (named a) (fun f => build_map_s w f a items m0).
Proof.
  intros w a items. induction items as [|[p|h] items IH]; intros m0 H; cbn [build_map_s]; [apply Pg_pure| |apply IH; intros f I; apply H; right; exact I].
  destruct (H p (or_introl eq_refl)) as (arg & Ia & ->).
  apply (prog_then _ _ _ _ (fun f => materials_for_s w f a (path_of arg)) (fun mt f => build_map_s w f a items _)); [apply prog_materials, Ia|].
  intros mt. apply IH. intros f I. apply H. right. exact I.
Qed.
Lemma prog_digest_map : forall w a items, prog w (named a) (fun f => digest_map_s w f a items).
Proof.
  intros w a items. unfold digest_map_s.
  apply (Pg_then _ _ _ _ (fun hm => forall p, In p (mat_paths (snd hm)) -> named a p) (fun f => pure _) (fun hm f => then* m := check_materials_s w f (snd hm) in pure (Ok [(fst hm, m)]))).
  - apply Pg_pure.
  - intros f n hm t E. inv_pure E. inv_bind E. inv_bind E. inv_bind E. assert (hm = (a1, a2)) by congruence. subst hm. cbn [snd].
    intros p I. destruct (_ || _)%bool.
    + destruct (va_sig a) eqn:S; [|discriminate]. destruct (va_cert a) eqn:C; [|discriminate]. injection Ha1 as <-.
      cbn [mat_paths In] in I. destruct I as [<-|[<-|[]]]; [right; left; exact C|right; right; left; exact S].
    + destruct (va_bundle a) eqn:B; [|discriminate]. injection Ha1 as <-. cbn [mat_paths In] in I. destruct I as [<-|[]]. right; right; right; left; exact B.
  - intros hm N. apply (prog_then _ _ _ _ (fun f => check_materials_s w f (snd hm))); [apply prog_check, N|]. intros m. apply Pg_pure.
Qed.
Lemma prog_load : forall env w (Q : path -> Prop) v x m, (forall f, x = It_path f -> Q f) -> (forall p, In p (mat_paths m) -> Q p) ->
  prog w Q (fun f => load_materials_s env w f v (x, m)).
Proof.
  intros env w Q v x m HX HM. unfold load_materials_s. cbv zeta. cbn [fst snd].
  apply (prog_then _ _ _ _ (fun f => match x with It_path p => then* b := take w f p in pure (Ok (sha256_digest env (In_bytes b))) | It_digest h => pure (Ok h) end)).
  - destruct x as [p|h]; [|apply Pg_pure]. apply (prog_then _ _ _ _ (fun f => take w f p)); [apply Pg_take, HX; reflexivity|]. intros b. apply Pg_pure.
  - intros h. destruct m as [p|cp sp]; cbn [mat_paths In] in HM.
    + apply (prog_then _ _ _ _ (fun f => take w f p)); [apply Pg_take, HM; auto|]. intros raw.
      apply (prog_then _ _ _ _ (fun f => pure _)); [apply Pg_pure|]. intros b. apply Pg_pure.
    + apply (prog_then _ _ _ _ (fun f => take w f cp)); [apply Pg_take, HM; auto|]. intros pem.
      apply (prog_then _ _ _ _ (fun f => pure _)); [apply Pg_pure|]. intros cert.
      apply (prog_then _ _ _ _ (fun f => take_text w f sp)); [apply prog_take_text, HM; auto|]. intros text. apply Pg_pure.
Qed.

Lemma prog_collect : forall env w pre a, prog w (named a) (fun f => collect_s env w f pre a).
Proof.
  intros env w pre a. unfold collect_s.
  pose (from_args := fun items : list item => forall f, In (It_path f) items -> exists arg, In arg (va_inputs a) /\ f = path_of arg).
  apply (Pg_then _ _ _ _ from_args (fun f => parse_inputs_s w f (va_inputs a))).
  { apply prog_parse_inputs. intros arg Ia. left. exists arg. auto. }
  { intros f n items t E. apply parse_ok in E. destruct E as [_ E]. intros p Ip. clear -E Ip. induction E as [|g x args items T E IH]; [destruct Ip|].
    destruct Ip as [->|Ip]; [|destruct (IH Ip) as (arg & Ia & ->); exists arg; split; [right; exact Ia|reflexivity]].
    exists g. split; [left; reflexivity|]. destruct T as [[_ T]|[_ (sep & text & d & _ & _ & _ & T)]]; [injection T as ->; reflexivity|discriminate T]. }
  intros items FI. apply (prog_then _ _ _ _ (fun f => pure _)); [apply Pg_pure|]. intros u.
  pose (ok_map := fun m : list (item * materials) => forall x mt, In (x, mt) m -> (forall f, x = It_path f -> exists arg, In arg (va_inputs a) /\ f = path_of arg) /\ fits a x mt).
  apply (Pg_then _ _ _ _ ok_map (fun f => build_map_s w f a items nil)).
  { apply prog_map, FI. }
  { intros f n m t E. apply map_values in E. destruct E as (_ & K & F & _). intros x mt I. split; [|eapply F; [intros ? ? []|exact I]].
    intros q ->. apply (in_map fst) in I. apply K in I. destruct I as [[]|[I _]]. apply FI, I. }
  intros m0 OK0.
  apply (Pg_then _ _ _ _ ok_map (fun f => match m0 with nil => digest_map_s w f a items | _ => pure (Ok m0) end)).
  { destruct m0; [apply prog_digest_map|apply Pg_pure]. }
  { intros f n m t E. destruct m0.
    - apply digest_ok in E. destruct E as (_ & x & mt & E1 & -> & F). intros y mt' [E|[]]. injection E as <- <-. split; [|exact F].
      intros q ->. apply FI. rewrite E1. left. reflexivity.
    - inv_pure E. injection E as <-. exact OK0. }
  intros m OK. apply (prog_then _ _ _ _ (fun f => get_trust_config_s w f _ _ _ _)).
  { apply prog_config. intros p E. right; right; right; right; exact E. }
  intros c. apply (prog_then _ _ _ _ (fun f => pure _)); [apply Pg_pure|]. intros v.
  apply (prog_then _ _ _ _ (fun f => each (load_materials_s env w f v) m)); [|intros all; apply Pg_pure].
  apply (prog_each w (named a) _ _ (fun xm f => load_materials_s env w f v xm)). intros [x mt] I. destruct (OK x mt I) as [HX F]. apply prog_load.
  - intros f E. destruct (HX f E) as (arg & Ia & ->). left. exists arg. auto.
  - apply (fits_named a x mt F HX).
Qed.

Lemma run_trace : forall env ps w files pre a show p, snd (run_verify_s env ps w files pre a show p) = snd (collect_s env w files pre a 0).
Proof. intros. unfold run_verify_s. destruct (collect_s env w files pre a 0) as [[[v all]|e] t]; reflexivity. Qed.
Definition github_pre (g : GithubArgs) : res unit :=
  raise_if (negb (is_some (truthy (gh_identity g)) || is_some (truthy (gh_repository g)))) (ESystemExit 2).
Lemma identity_trace : forall env ps w files a i s, snd (verify_identity_s env ps w files a i s) = snd (collect_s env w files (Ok tt) a 0).
Proof.
  intros. unfold verify_identity_s. rewrite <- (run_trace env ps w files (Ok tt) a show_decoded (P_identity i (Some s))).
  destruct (run_verify_s _ _ _ _ _ _ _ _) as [[o r] t]. reflexivity.
Qed.
Lemma github_trace : forall env ps w files a g, snd (verify_github_s env ps w files a g) = snd (collect_s env w files (github_pre g) a 0).
Proof.
  intros. unfold verify_github_s. cbv zeta. fold (github_pre g). rewrite <- (run_trace env ps w files (github_pre g) a show_repr (github_policy g)).
  destruct (run_verify_s _ _ _ _ _ _ _ _) as [[o r] t]. reflexivity.
Qed.

(** whatever the outcome, only files that the command line names are looked at or read, and every answer is the
    state of the file at a moment while the command ran *)
Theorem C102_accesses : forall env ps w files a k x,
  (exists identity issuer, nth_error (snd (verify_identity_s env ps w files a identity issuer)) k = Some x) \/
  (exists g, nth_error (snd (verify_github_s env ps w files a g)) k = Some x) ->
  named a (path_in x) /\ true_answer (w_cwd w) (files k) x.
Proof.
  intros env ps w files a k x H.
  assert (G : exists pre, nth_error (snd (collect_s env w files pre a 0)) k = Some x).
  { destruct H as [(i & s & H)|(g & H)]; [rewrite identity_trace in H|rewrite github_trace in H]; eauto. }
  destruct G as [pre G]. destruct (collect_s env w files pre a 0) as [r t] eqn:E.
  exact (prog_answers _ _ _ _ (prog_collect env w pre a) _ _ _ _ E _ _ G).
Qed.

(** so an input that nobody touches was verified as it is, whatever happens to the other files *)
Lemma untouched : forall env ps w files a p out t arg c,
  all_verified env ps w a p t out -> (forall k x, nth_error t k = Some x -> true_answer (w_cwd w) (files k) x) ->
  In arg (va_inputs a) -> (forall n, files n (place (w_cwd w) (path_of arg)) = Some c) ->
  exists v r0 rest, verifier_read env w a v r0 /\ incl (r0 ++ rest) (reads t) /\
    verified_with env ps w a v p (It_path (path_of arg)) ((path_of arg, c) :: rest) /\ In (L_ok (It_path (path_of arg))) out.
Proof.
  intros env ps w files a pol out t arg c A TA Ia S.
  assert (ANS : forall x, In x t -> exists k, true_answer (w_cwd w) (files k) x).
  { intros x Ix. apply In_nth_error in Ix. destruct Ix as [k Ix]. exists k. apply TA, Ix. }
  destruct A as (v & r0 & l & Vr & R & _ & Vf & Ar). destruct (Ar arg Ia) as (x & T & Ix).
  assert (x = It_path (path_of arg)).
  { destruct T as [[_ T]|[T _]]; [exact T|]. exfalso. destruct (ANS _ T) as [k X]. cbn in X. rewrite S in X. destruct X as [_ X]. discriminate X. eauto. }
  subst x. apply in_map_iff in Ix. destruct Ix as ([x r] & E & Ix). cbn [fst] in E. subst x. destruct (Vf _ _ Ix) as [VW O].
  assert (IR : incl r (reads t)).
  { intros y Iy. rewrite R. apply in_or_app. right. apply in_concat. exists r. split; [apply in_map_iff; exists (It_path (path_of arg), r); auto|exact Iy]. }
  assert (HR : exists rest, r = (path_of arg, c) :: rest).
  { destruct VW as (d & r1 & b & st & D & _ & Ev). destruct D as (c' & -> & _).
    assert (exists rest, r = (path_of arg, c') :: rest) as [rest ->].
    { destruct Ev as [(_ & bp & raw & _ & -> & _)|(_ & cp & sp & pem & cert & raw & text & sig & req & e & _ & _ & -> & _)]; eexists; reflexivity. }
    pose proof (IR _ (or_introl eq_refl)) as I. apply in_flat_map in I. destruct I as (y & Iy & I). destruct y as [p f|p [b'|]]; cbn in I; try contradiction.
    destruct I as [I|[]]. injection I as -> ->. destruct (ANS _ Iy) as [k X]. cbn in X. rewrite S in X. injection X as ->. eauto. }
  destruct HR as [rest ->]. exists v, r0, rest. split; [exact Vr|]. split; [|split; [exact VW|exact O]].
  intros y Iy. apply in_app_or in Iy. destruct Iy as [Iy|Iy]; [rewrite R; apply in_or_app; left; exact Iy|apply IR; right; exact Iy].
Qed.
Theorem C102_untouched_input : forall env ps w files a identity issuer out t arg c,
  verify_identity_s env ps w files a identity issuer = ((out, Ok tt), t) ->
  In arg (va_inputs a) -> (forall n, files n (place (w_cwd w) (path_of arg)) = Some c) ->
  exists v r0 rest, verifier_read env w a v r0 /\ incl (r0 ++ rest) (reads t) /\
    verified_with env ps w a v (P_identity identity (Some issuer)) (It_path (path_of arg)) ((path_of arg, c) :: rest) /\
    In (L_ok (It_path (path_of arg))) out.
Proof.
  intros env ps w files a identity issuer out t arg c H Ia S. apply (untouched env ps w files a _ out t arg c); try assumption.
  - exact (C102_accepted _ _ _ _ _ _ _ _ _ H).
  - intros k x N. apply (C102_accesses env ps w files a k x). left. exists identity, issuer. rewrite H. exact N.
Qed.
Theorem C102_untouched_input_github : forall env ps w files a g out t arg c,
  verify_github_s env ps w files a g = ((out, Ok tt), t) ->
  In arg (va_inputs a) -> (forall n, files n (place (w_cwd w) (path_of arg)) = Some c) ->
  exists v r0 rest, verifier_read env w a v r0 /\ incl (r0 ++ rest) (reads t) /\
    verified_with env ps w a v (github_policy g) (It_path (path_of arg)) ((path_of arg, c) :: rest) /\
    In (L_ok (It_path (path_of arg))) out.
Proof.
  intros env ps w files a g out t arg c H Ia S. apply (untouched env ps w files a _ out t arg c); try assumption.
  - exact (proj2 (C102_accepted_github _ _ _ _ _ _ _ _ H)).
  - intros k x N. apply (C102_accesses env ps w files a k x). right. exists g. rewrite H. exact N.
Qed.

(** files that the command line does not name do not matter *)
Theorem C102_other_files : forall env ps w f g a,
  (forall n p, named a p -> f n (place (w_cwd w) p) = g n (place (w_cwd w) p)) ->
  (forall identity issuer, verify_identity_s env ps w f a identity issuer = verify_identity_s env ps w g a identity issuer) /\
  (forall o, verify_github_s env ps w f a o = verify_github_s env ps w g a o).
Proof.
  intros env ps w f g a S.
  assert (E : forall pre, collect_s env w f pre a 0 = collect_s env w g pre a 0) by (intros pre; exact (prog_local _ _ _ _ (prog_collect env w pre a) f g S 0)).
  split; intros; [unfold verify_identity_s, run_verify_s|unfold verify_github_s, run_verify_s; cbv zeta]; rewrite E; reflexivity.
Qed.

(** a file that has gone when it is to be read: nothing is reported as verified, and the command fails *)
Theorem C102_vanished : forall env ps w files a p out r t,
  ((exists identity issuer, verify_identity_s env ps w files a identity issuer = ((out, r), t)) \/
   (exists g, verify_github_s env ps w files a g = ((out, r), t))) ->
  In (Take p None) t -> out = nil /\ exit_status r = 1.
Proof.
  intros env ps w files a p out r t H I.
  assert (G : forall pre, In (Take p None) (snd (collect_s env w files pre a 0)) -> fst (collect_s env w files pre a 0) = Raise EFileNotFound).
  { intros pre J. destruct (collect_s env w files pre a 0) as [r' t'] eqn:E. exact (prog_failed_read _ _ _ _ (prog_collect env w pre a) _ _ _ _ _ E J). }
  assert (M : forall vb, main_handler vb (Raise EFileNotFound) = Raise EFileNotFound) by reflexivity.
  destruct H as [(i & s & H)|(g & H)].
  - pose proof (identity_trace env ps w files a i s) as T. rewrite H in T. cbn [snd] in T. rewrite T in I. apply G in I.
    unfold verify_identity_s, run_verify_s in H. destruct (collect_s env w files (Ok tt) a 0) as [r' t']. cbn [fst] in I. subst r'.
    rewrite M in H. injection H as <- <- _. split; reflexivity.
  - pose proof (github_trace env ps w files a g) as T. rewrite H in T. cbn [snd] in T. rewrite T in I. apply G in I.
    unfold verify_github_s, run_verify_s in H. cbv zeta in H. fold (github_pre g) in H. destruct (collect_s env w files (github_pre g) a 0) as [r' t']. cbn [fst] in I. subst r'.
    rewrite M in H. injection H as <- <- _. split; reflexivity.
Qed.

(** ** When no file changes *)

Lemma fst_then : forall A B (m : acc A) (k : A -> acc B) n r, fst (m n) = r ->
  fst (andthen m k n) = match r with Ok x => fst (k x (n + length (snd (m n)))) | Raise e => Raise e end.
Proof. intros A B m k n r H. unfold andthen. destruct (m n) as [[x|e] t]; cbn [fst] in H; subst r; [|reflexivity]. cbn [snd]. destruct (k x (n + length t)); reflexivity. Qed.

Section Still.
Variable env : Env.
Variable ps : Parsers.
Variable w : World.
Notation still := (fun _ : nat => w_files w).

Lemma moment_still : forall n, moment w still n = w.
Proof. intros n. unfold moment, with_files. destruct w; reflexivity. Qed.
Lemma still_look : forall p n, fst (look w still p n) = Ok (is_file w p).
Proof. intros. unfold look. rewrite moment_still. reflexivity. Qed.
Lemma still_take : forall p n, fst (take w still p n) = file_bytes w p.
Proof. intros. unfold take. rewrite moment_still. reflexivity. Qed.
Lemma still_text : forall p n, fst (take_text w still p n) = file_text w p.
Proof. intros. unfold take_text, file_text. rewrite (fst_then _ _ _ _ _ _ (still_take p n)). destruct (file_bytes w p); reflexivity. Qed.
Lemma still_each : forall A B (f : A -> acc B) g, (forall x n, fst (f x n) = g x) -> forall l n, fst (each f l n) = map_res g l.
Proof.
  intros A B f g H l. induction l as [|x l IH]; intros n; [reflexivity|]. cbn [each map_res]. rewrite (fst_then _ _ _ _ _ _ (H x n)).
  destruct (g x) as [y|e]; [|reflexivity]. cbn [bind]. rewrite (fst_then _ _ _ _ _ _ (IH _)). destruct (map_res g l); reflexivity.
Qed.
Lemma still_arg : forall arg n, fst (file_or_digest_s w still arg n) = file_or_digest w arg.
Proof.
  intros. unfold file_or_digest_s, file_or_digest. cbv zeta. rewrite (fst_then _ _ _ _ _ _ (still_look _ n)). destruct (is_file w (path_of arg)); reflexivity.
Qed.
Lemma still_parse : forall args n, fst (parse_inputs_s w still args n) = parse_inputs w args.
Proof.
  intros. unfold parse_inputs_s, parse_inputs. pose proof (still_each _ _ _ _ still_arg args n) as E.
  destruct (each (file_or_digest_s w still) args n) as [r t]. cbn [fst] in *. subst r. reflexivity.
Qed.
Lemma still_config : forall a b c d n, fst (get_trust_config_s w still a b c d n) = get_trust_config w a b c d.
Proof.
  intros [p|] b c d n; cbn [get_trust_config_s get_trust_config].
  - rewrite (fst_then _ _ _ _ _ _ (still_text p n)). destruct (file_text w p); reflexivity.
  - destruct b as [[|]|]; try reflexivity; destruct c; reflexivity.
Qed.
Lemma still_check : forall m n, fst (check_materials_s w still m n) = check_materials w m.
Proof.
  intros [p|c s] n; cbn [check_materials_s]; unfold check_materials.
  - rewrite (fst_then _ _ _ _ _ _ (still_look p n)). destruct (is_file w p); reflexivity.
  - rewrite (fst_then _ _ _ _ _ _ (still_look s n)). rewrite (fst_then _ _ _ _ _ _ (still_look c _)). destruct (is_file w s), (is_file w c); reflexivity.
Qed.
Lemma still_default : forall file c s n, fst (default_bundle_s w still file c s n) =
  (if negb (is_file w (sibling file (s2l ".sigstore.json"))) && is_file w (sibling file (s2l ".sigstore")) then Ok (sibling file (s2l ".sigstore"))
   else if is_file w (sibling file (s2l ".sigstore.json")) && is_file w (sibling file (s2l ".sigstore")) then invalid_arguments
   else Ok (sibling file (s2l ".sigstore.json"))).
Proof.
  intros file c s n. unfold default_bundle_s. cbv zeta. rewrite (fst_then _ _ _ _ _ _ (still_look _ n)).
  destruct (is_file w (sibling file (s2l ".sigstore.json"))) eqn:J; cbn [negb andb].
  - rewrite (fst_then _ _ (pure (Ok false)) _ _ (Ok false) eq_refl). rewrite (fst_then _ _ _ _ _ _ (still_look _ _)). rewrite J.
    rewrite (fst_then _ _ _ _ _ _ (still_look _ _)). destruct (is_file w (sibling file (s2l ".sigstore"))); reflexivity.
  - rewrite (fst_then _ _ _ _ _ _ (still_look _ _)). destruct (is_file w (sibling file (s2l ".sigstore"))).
    + rewrite (fst_then _ _ _ _ _ _ (still_look _ _)). destruct (is_file w c).
      * rewrite (fst_then _ _ _ _ _ _ (still_look _ _)). reflexivity.
      * rewrite (fst_then _ _ (pure (Ok false)) _ _ (Ok false) eq_refl). reflexivity.
    + rewrite (fst_then _ _ _ _ _ _ (still_look _ _)). rewrite J. rewrite (fst_then _ _ (pure (Ok false)) _ _ (Ok false) eq_refl). reflexivity.
Qed.
Lemma still_materials : forall a f n, fst (materials_for_s w still a f n) = materials_for w a f.
Proof.
  intros a f n. unfold materials_for_s, materials_for. cbv zeta. rewrite (fst_then _ _ _ _ _ _ (still_look f n)).
  destruct (is_file w f); cbn [negb raise_if bind]; [|reflexivity]. rewrite (fst_then _ _ (pure (Ok tt)) _ _ (Ok tt) eq_refl).
  destruct (va_bundle a) as [b|].
  - rewrite (fst_then _ _ (pure (Ok b)) _ _ (Ok b) eq_refl). cbn [bind]. apply still_check.
  - rewrite (fst_then _ _ _ _ _ _ (still_default _ _ _ _)).
    destruct (negb (is_file w (sibling f (s2l ".sigstore.json"))) && is_file w (sibling f (s2l ".sigstore"))); [cbn [bind]; apply still_check|].
    destruct (is_file w (sibling f (s2l ".sigstore.json")) && is_file w (sibling f (s2l ".sigstore"))); cbn [bind]; [reflexivity|apply still_check].
Qed.
Lemma still_map : forall a items m n, fst (build_map_s w still a items m n) = build_map w a items m.
Proof.
  intros a items. induction items as [|[p|h] items IH]; intros m n; cbn [build_map_s build_map]; [reflexivity| |apply IH].
  rewrite (fst_then _ _ _ _ _ _ (still_materials a p n)). destruct (materials_for w a p); [|reflexivity]. cbn [bind]. apply IH.
Qed.
Lemma still_digest : forall a items n, fst (digest_map_s w still a items n) = digest_map w a items.
Proof.
  intros a items n. unfold digest_map_s, digest_map.
  destruct (raise_if (negb (Nat.eqb (length items) 1)) (ESystemExit 2)) as [[]|e]; cbn [bind]; [|reflexivity].
  destruct (index_list items 0) as [x|e]; cbn [bind]; [|reflexivity].
  match goal with |- context [bind ?m0 (fun m => Ok (x, m))] => destruct m0 as [m|e] end; cbn [bind]; [|reflexivity].
  rewrite (fst_then _ _ (pure (Ok (x, m))) _ _ (Ok (x, m)) eq_refl). cbn [fst snd]. rewrite (fst_then _ _ _ _ _ _ (still_check m _)).
  destruct (check_materials w m); reflexivity.
Qed.
Lemma still_load : forall v xm n, fst (load_materials_s env w still v xm n) = (let* hb := load_materials env w v (fst xm) (snd xm) in Ok (fst xm, hb)).
Proof.
  intros v [x m] n. unfold load_materials_s, load_materials. cbv zeta. cbn [fst snd].
  assert (H : fst (match x with It_path p => then* b := take w still p in pure (Ok (sha256_digest env (In_bytes b))) | It_digest h => pure (Ok h) end n) =
              match x with It_path p => let* b := file_bytes w p in Ok (sha256_digest env (In_bytes b)) | It_digest h => Ok h end).
  { destruct x as [p|h]; [|reflexivity]. rewrite (fst_then _ _ _ _ _ _ (still_take p n)). destruct (file_bytes w p); reflexivity. }
  rewrite (fst_then _ _ _ _ _ _ H). clear H.
  destruct (match x with It_path p => let* b := file_bytes w p in Ok (sha256_digest env (In_bytes b)) | It_digest h => Ok h end) as [hh|e]; cbn [bind]; [|reflexivity].
  destruct m as [p|cp sp].
  - rewrite (fst_then _ _ _ _ _ _ (still_take p _)). destruct (file_bytes w p) as [raw|e]; cbn [bind]; [|reflexivity].
    rewrite (fst_then _ _ (pure (bundle_from_json env (w_parse_bundle w) raw)) _ _ _ eq_refl). cbn [pure fst].
    destruct (bundle_from_json env (w_parse_bundle w) raw); reflexivity.
  - rewrite (fst_then _ _ _ _ _ _ (still_take cp _)). destruct (file_bytes w cp) as [pem|e]; cbn [bind]; [|reflexivity].
    rewrite (fst_then _ _ (pure (w_load_pem w pem)) _ _ _ eq_refl). cbn [pure fst]. destruct (w_load_pem w pem) as [cert|e]; cbn [bind]; [|reflexivity].
    rewrite (fst_then _ _ _ _ _ _ (still_text sp _)). destruct (file_text w sp) as [text|e]; cbn [bind]; [|reflexivity]. cbn [fst pure].
    destruct (b64decode text) as [sg|e]; cbn [bind]; [|reflexivity]. destruct (hashedrekord_from_parts cert sg hh) as [req|e]; cbn [bind]; [|reflexivity].
    destruct (retrieve_post _ _ _ _) as [[en|]|e]; cbn [bind]; try reflexivity. destruct (from_parts env cert sg en); reflexivity.
Qed.
Lemma still_collect : forall a n, fst (collect_s env w still (Ok tt) a n) = collect_verification_state env w a.
Proof.
  intros a n. unfold collect_s, collect_verification_state. rewrite (fst_then _ _ _ _ _ _ (still_parse _ n)).
  destruct (parse_inputs w (va_inputs a)) as [items|e]; cbn [bind]; [|reflexivity].
  rewrite (fst_then _ _ (pure _) _ _ _ eq_refl). cbn [pure fst]. unfold check_options. cbv zeta.
  destruct (raise_if _ _) as [[]|e]; cbn [bind]; [|reflexivity]. destruct (raise_if _ _) as [[]|e]; cbn [bind]; [|reflexivity].
  destruct (raise_if _ _) as [[]|e]; cbn [bind]; [|reflexivity]. destruct (raise_if _ _) as [[]|e]; cbn [bind]; [|reflexivity].
  rewrite (fst_then _ _ _ _ _ _ (still_map a items nil _)). destruct (build_map w a items nil) as [m0|e]; cbn [bind]; [|reflexivity].
  rewrite (fst_then _ _ _ _ _ (match m0 with nil => digest_map w a items | _ => Ok m0 end));
    [|destruct m0; [apply still_digest|reflexivity]].
  destruct (match m0 with nil => digest_map w a items | _ => Ok m0 end) as [m|e]; cbn [bind]; [|reflexivity].
  rewrite (fst_then _ _ _ _ _ _ (still_config _ _ _ _ _)). destruct (get_trust_config w _ _ _ _) as [c|e]; cbn [bind]; [|reflexivity].
  rewrite (fst_then _ _ (pure _) _ _ _ eq_refl). cbn [pure fst]. destruct (make_trusted_root (ctc_root c)) as [root|e]; cbn [bind]; [|reflexivity].
  destruct (make_verifier env (w_start w) root) as [v|e]; cbn [bind]; [|reflexivity].
  rewrite (fst_then _ _ _ _ _ _ (still_each _ _ _ _ (still_load v) m _)). destruct (map_res _ m); reflexivity.
Qed.
End Still.

(** while the files named on the command line stay as they are, the commands are those of CliVerify.v *)
Theorem C102_unchanged : forall env ps w files a,
  (forall n p, named a p -> files n (place (w_cwd w) p) = w_files w (place (w_cwd w) p)) ->
  (forall identity issuer, fst (verify_identity_s env ps w files a identity issuer) = verify_identity env ps w a identity issuer) /\
  (forall g, fst (verify_github_s env ps w files a g) = verify_github env ps w a g).
Proof.
  intros env ps w files a S. destruct (C102_other_files env ps w files (fun _ => w_files w) a S) as [E1 E2]. split.
  - intros i s. rewrite E1. unfold verify_identity_s, verify_identity, run_verify_s, run_verify. rewrite <- (still_collect env w a 0).
    destruct (collect_s env w (fun _ => w_files w) (Ok tt) a 0) as [[[v all]|e] t]; cbn [fst]; [|reflexivity].
    destruct (verify_loop env ps w (va_verbose a) show_decoded v (P_identity i (Some s)) all) as [o r]. reflexivity.
  - intros g. rewrite E2. unfold verify_github_s, verify_github, run_verify_s. cbv zeta. fold (github_pre g). unfold github_pre.
    destruct (negb (is_some (truthy (gh_identity g)) || is_some (truthy (gh_repository g)))); cbn [raise_if].
    + assert (X : exists t, collect_s env w (fun _ => w_files w) (Raise (ESystemExit 2)) a 0 = (Raise (ESystemExit 2), t)).
      { unfold collect_s, andthen at 1. pose proof (still_parse w (va_inputs a) 0) as P.
        destruct (parse_inputs_s w (fun _ => w_files w) (va_inputs a) 0) as [r t]. cbn [fst] in P. subst r.
        unfold parse_inputs, try_except. destruct (map_res (file_or_digest w) (va_inputs a)) as [items|e] eqn:M; [cbn; eauto|].
        assert (e = EValue).
        { clear -M. revert M. generalize (va_inputs a) as l. induction l as [|x l IH]; cbn [map_res]; [discriminate|]. destruct (file_or_digest w x) as [y|e'] eqn:F; cbn [bind].
          - destruct (map_res (file_or_digest w) l) as [ys|e']; cbn [bind]; [discriminate|exact IH].
          - intros [= ->]. unfold file_or_digest in F. destruct (is_file w (path_of x)); [discriminate|]. destruct (str_eqb _ _); [|congruence].
            destruct (fromhex _); [|congruence]. destruct (negb _); cbn in F; congruence. }
        subst e. cbn. eauto. }
      destruct X as [t ->]. reflexivity.
    + unfold run_verify. rewrite <- (still_collect env w a 0). destruct (collect_s env w (fun _ => w_files w) (Ok tt) a 0) as [[[v all]|e] t]; cbn [fst]; [|reflexivity].
      destruct (verify_loop env ps w (va_verbose a) show_repr v (github_policy g) all) as [o r]. reflexivity.
Qed.

(** ** Exit status *)

Section Exit.
Variable env : Env.
Variable ps : Parsers.
Variable w : World.
Variable files : nat -> fs.
Hypothesis CE : calm_env env.
Hypothesis CP : calm_parsers ps.
Hypothesis CW : calm_world w.

Definition finea {A} (Q : A -> Prop) (m : acc A) : Prop := forall n, fine loud Q (fst (m n)).
Lemma fa_pure : forall A (Q : A -> Prop) r, fine loud Q r -> finea Q (pure r).
Proof. intros A Q r H n. exact H. Qed.
Lemma fa_then : forall A B (Q : A -> Prop) (R : B -> Prop) (m : acc A) k, finea Q m -> (forall x, Q x -> finea R (k x)) -> finea R (andthen m k).
Proof.
  intros A B Q R m k M K n. unfold andthen. specialize (M n). destruct (m n) as [[x|e] t]; cbn [fst] in M; [|exact M].
  specialize (K x M (n + length t)). destruct (k x (n + length t)) as [r t']. exact K.
Qed.
Lemma fa_each : forall A B (Q : B -> Prop) (f : A -> acc B), (forall x, finea Q (f x)) -> forall l, finea (Forall Q) (each f l).
Proof.
  intros A B Q f H l. induction l as [|x l IH]; cbn [each]; [apply fa_pure; constructor|].
  eapply fa_then; [apply H|]. intros y Qy. eapply fa_then; [apply IH|]. intros ys Qys. apply fa_pure. constructor; assumption.
Qed.
Lemma fa_look : forall p, finea (fun _ => True) (look w files p).
Proof. intros p n. exact I. Qed.
Lemma fa_take : forall p, finea (fun _ => True) (take w files p).
Proof. intros p n. apply (fine_loud (fun _ => True)). apply q_file_bytes. Qed.
Lemma fa_text : forall p, finea (fun _ => True) (take_text w files p).
Proof. intros p. eapply fa_then; [apply fa_take|]. intros b _. apply fa_pure. unfold py_decode. destruct (utf8_decode b); exact I. Qed.
Lemma fa_parse : forall args, finea (fun _ => True) (parse_inputs_s w files args).
Proof.
  intros args n. unfold parse_inputs_s.
  assert (X : finea (Forall (fun _ => True)) (each (file_or_digest_s w files) args)).
  { apply fa_each. intros arg. eapply fa_then; [apply fa_look|]. intros [|] _; apply fa_pure; [exact I|].
    destruct (str_eqb _ _); [|exact I]. destruct (fromhex _); [|exact I]. destruct (negb _); exact I. }
  specialize (X n). destruct (each (file_or_digest_s w files) args n) as [[l|e] t]; cbn [fst] in *; [exact I|].
  unfold try_except. destruct (exn_eqb EValue e); [cbn; auto|exact X].
Qed.
Lemma fa_check : forall m, finea (fun _ => True) (check_materials_s w files m).
Proof.
  intros [p|c s]; cbn [check_materials_s].
  - eapply fa_then; [apply fa_look|]. intros b _. eapply fa_then; [apply fa_pure, fine_raise_if; cbn; auto|]. intros _ _. apply fa_pure. exact I.
  - eapply fa_then; [apply fa_look|]. intros b _. eapply fa_then; [apply fa_look|]. intros b' _.
    eapply fa_then; [apply fa_pure, fine_raise_if; cbn; auto|]. intros _ _. apply fa_pure. exact I.
Qed.
Lemma fa_default : forall f c s, finea (fun _ => True) (default_bundle_s w files f c s).
Proof.
  intros f c s. unfold default_bundle_s. cbv zeta. eapply fa_then; [apply fa_look|]. intros b _.
  apply fa_then with (Q := fun _ => True); [destruct b; [apply fa_pure; exact I|apply fa_look]|]. intros [|] _.
  - eapply fa_then; [apply fa_look|]. intros b' _. apply fa_then with (Q := fun _ => True); [destruct b'; [apply fa_look|apply fa_pure; exact I]|].
    intros _ _. apply fa_pure. exact I.
  - eapply fa_then; [apply fa_look|]. intros b' _. apply fa_then with (Q := fun _ => True); [destruct b'; [apply fa_look|apply fa_pure; exact I]|].
    intros [|] _; apply fa_pure; cbn; auto.
Qed.
Lemma fa_materials : forall a f, finea (fun _ => True) (materials_for_s w files a f).
Proof.
  intros a f. unfold materials_for_s. cbv zeta. eapply fa_then; [apply fa_look|]. intros b _.
  eapply fa_then; [apply fa_pure, fine_raise_if; cbn; auto|]. intros _ _.
  apply fa_then with (Q := fun _ => True); [destruct (va_bundle a); [apply fa_pure; exact I|apply fa_default]|]. intros bn _. apply fa_check.
Qed.
Lemma fa_map : forall a l m, finea (fun _ => True) (build_map_s w files a l m).
Proof.
  intros a l. induction l as [|[p|h] l IH]; intros m; cbn [build_map_s]; [apply fa_pure; exact I| |apply IH].
  eapply fa_then; [apply fa_materials|]. intros mt _. apply IH.
Qed.
Lemma fa_digest : forall a l, finea (fun _ => True) (digest_map_s w files a l).
Proof.
  intros a l. unfold digest_map_s. apply fa_then with (Q := fun _ => True).
  - apply fa_pure. eapply fine_bind; [apply fine_raise_if; cbn; auto|]. intros _ _.
    eapply fine_bind; [apply (fine_loud (fun _ => True)), quiet_index|]. intros x _. eapply (fine_bind (fun _ => True)); [|intros; exact I].
    destruct (_ || _)%bool; [destruct (va_sig a), (va_cert a)|destruct (va_bundle a)]; exact I.
  - intros hm _. eapply fa_then; [apply fa_check|]. intros m _. apply fa_pure. exact I.
Qed.
Lemma fa_load : forall v xm, finea (fun y => calm_bundle (snd (snd y))) (load_materials_s env w files v xm).
Proof.
  intros v [x m]. unfold load_materials_s. cbv zeta. cbn [fst snd]. apply fa_then with (Q := fun _ => True).
  { destruct x; [|apply fa_pure; exact I]. eapply fa_then; [apply fa_take|]. intros b _. apply fa_pure. exact I. }
  intros h _. destruct m as [p|cp sp].
  - eapply fa_then; [apply fa_take|]. intros raw _. eapply fa_then; [apply fa_pure, fine_loud, q_bundle_from_json; [exact CE|apply (cw_bundle _ CW)]|].
    intros b Hb. apply fa_pure. exact Hb.
  - eapply fa_then; [apply fa_take|]. intros pem _. eapply fa_then; [apply fa_pure, fine_loud, (cw_pem _ CW)|]. intros cert Hc.
    eapply fa_then; [apply fa_text|]. intros text _. apply fa_pure.
    eapply fine_bind; [apply (fine_loud (fun _ => True)), q_b64decode|]. intros sg _.
    eapply fine_bind; [apply (fine_loud (fun _ => True)), q_hr_from_parts|]. intros rq _.
    eapply fine_bind; [apply (fine_loud (fun _ => True)), q_retrieve; [apply CW|apply (cw_rekor _ CW)]|]. intros [e|] _; [|cbn; auto].
    eapply fine_bind; [apply fine_loud, q_from_parts, CE|]. intros b Hb. exact Hb.
Qed.
Lemma fa_collect : forall pre a, fine loud (fun _ => True) pre ->
  finea (fun y => calm_verifier (fst y) /\ Forall (fun z => calm_bundle (snd (snd z))) (snd y)) (collect_s env w files pre a).
Proof.
  intros pre a HP. unfold collect_s. eapply fa_then; [apply fa_parse|]. intros items _.
  apply fa_then with (Q := fun _ => True).
  { apply fa_pure. eapply fine_bind; [exact HP|]. intros _ _. unfold check_options. cbv zeta.
    do 3 (eapply fine_bind; [apply fine_raise_if; cbn; auto|]; intros _ _). apply fine_raise_if. cbn; auto. }
  intros _ _. eapply fa_then; [apply fa_map|]. intros m0 _.
  apply fa_then with (Q := fun _ => True); [destruct m0; [apply fa_digest|apply fa_pure; exact I]|]. intros m _.
  apply fa_then with (Q := fun _ => True).
  { destruct (va_trust_config a); cbn [get_trust_config_s].
    - eapply fa_then; [apply fa_text|]. intros text _. apply fa_pure, (fine_loud (fun _ => True)), (cw_json _ CW).
    - destruct (va_instance a) as [[|]|]; try (apply fa_pure, (fine_loud (fun _ => True)), (cw_tuf _ CW));
        destruct (va_staging a); apply fa_pure, (fine_loud (fun _ => True)), (cw_tuf _ CW). }
  intros c _. apply fa_then with (Q := calm_verifier).
  { apply fa_pure. eapply fine_bind; [apply (fine_loud (fun _ => True)), q_make_trusted_root|]. intros root _. apply fine_loud, q_make_verifier, CE. }
  intros v Hv. eapply fa_then; [apply fa_each, fa_load|]. intros all Ha. apply fa_pure. split; assumption.
Qed.
Lemma fa_run : forall pre a show p, fine loud (fun _ => True) pre -> calm_policy p -> (forall st, fine tame (fun _ => True) (show st)) ->
  ends (snd (fst (run_verify_s env ps w files pre a show p))).
Proof.
  intros pre a show p HP Hp HS. unfold run_verify_s. pose proof (fa_collect pre a HP 0) as C.
  destruct (collect_s env w files pre a 0) as [[[v all]|e] t]; cbn [fst fine] in C; [|exact C].
  destruct C as [C1 C2]. apply l_verify_loop; assumption.
Qed.
End Exit.

(** exit status 0 is the same as success *)
Theorem C102_exit_status : forall env ps w files a, calm_env env -> calm_parsers ps -> calm_world w ->
  (forall identity issuer, exit_status (snd (fst (verify_identity_s env ps w files a identity issuer))) = 0 ->
     all_verified env ps w a (P_identity identity (Some issuer)) (snd (verify_identity_s env ps w files a identity issuer))
       (fst (fst (verify_identity_s env ps w files a identity issuer)))) /\
  (forall g, exit_status (snd (fst (verify_github_s env ps w files a g))) = 0 ->
     all_verified env ps w a (github_policy g) (snd (verify_github_s env ps w files a g)) (fst (fst (verify_github_s env ps w files a g)))).
Proof.
  intros env ps w files a CE CP CW.
  assert (Z : forall r, ends r -> exit_status r = 0 -> r = Ok tt).
  { intros [[]|e] H E; [reflexivity|]. destruct e; try discriminate E. cbn in *. subst. destruct H; discriminate. }
  split.
  - intros i s H. apply C102_accepted with (files := files).
    assert (X : snd (fst (verify_identity_s env ps w files a i s)) = Ok tt).
    { apply Z; [|exact H]. unfold verify_identity_s.
      pose proof (fa_run env ps w files CE CP CW (Ok tt) a show_decoded (P_identity i (Some s)) I I ltac:(intros st; unfold show_decoded, py_decode; destruct (utf8_decode (st_contents st)); exact I)) as R.
      destruct (run_verify_s _ _ _ _ _ _ _ _) as [[o r] t]. cbn [fst snd] in *. apply ends_handler, R. }
    destruct (verify_identity_s env ps w files a i s) as [[o r] t]. cbn [fst snd] in *. subst r. reflexivity.
  - intros g H. apply (fun E => proj2 (C102_accepted_github env ps w files a g _ _ E)).
    assert (X : snd (fst (verify_github_s env ps w files a g)) = Ok tt).
    { apply Z; [|exact H]. unfold verify_github_s. cbv zeta. fold (github_pre g).
      pose proof (fa_run env ps w files CE CP CW (github_pre g) a show_repr (github_policy g) ltac:(apply fine_raise_if; cbn; auto) (calm_github g) ltac:(intros; exact I)) as R.
      destruct (run_verify_s _ _ _ _ _ _ _ _) as [[o r] t]. cbn [fst snd] in *. apply ends_handler, R. }
    destruct (verify_github_s env ps w files a g) as [[o r] t]. cbn [fst snd] in *. subst r. reflexivity.
Qed.

(** ** Concrete cases: the world of PropsCliVerify.v *)

Definition fvx_run (files : nat -> fs) (a : VerifyArgs) : (list line * res unit) * list access :=
  verify_identity_s vx_env vx_parsers cvx_world files a (s2l "a@b.c") (s2l "https://issuer.example").
Definition fvx_set (p : path) (c : option bytes) (f : fs) : fs := fun q => if path_eqb q p then c else f q.

Definition fvx_a : path := [s2l "home"; s2l "a.txt"].
Example ex_steps : fvx_run (fun _ => cvx_files) (cvx_args [s2l "a.txt"; s2l "b.txt"]) =
  (([L_ok (It_path [s2l "a.txt"]); L_ok (It_path [s2l "b.txt"]); L_text (s2l "{}")], Ok tt),
   [Look [s2l "a.txt"] true; Look [s2l "b.txt"] true;
    Look [s2l "a.txt"] true; Look [s2l "a.txt.sigstore.json"] true; Look [s2l "a.txt.sigstore.json"] true; Look [s2l "a.txt.sigstore"] false; Look [s2l "a.txt.sigstore.json"] true;
    Look [s2l "b.txt"] true; Look [s2l "b.txt.sigstore.json"] false; Look [s2l "b.txt.sigstore"] true; Look [s2l "b.txt.crt"] false; Look [s2l "b.txt.sigstore"] true;
    Take [s2l "a.txt"] (Some vx_input); Take [s2l "a.txt.sigstore.json"] (Some [x01]);
    Take [s2l "b.txt"] (Some cvx_b); Take [s2l "b.txt.sigstore"] (Some [x02])]).
Proof. vm_compute. reflexivity. Qed.

(** Expected, but not so: after exit status 0 the file is the one that was verified.  Here it is replaced after it
    has been read. *)
Theorem C102_verified_file_stays_refuted :
  exists env ps w files a identity issuer t p c,
    verify_identity_s env ps w files a identity issuer = (([L_ok (It_path p)], Ok tt), t) /\
    (forall n, length t <= n -> files n (place (w_cwd w) p) = Some c) /\
    snd (verify_identity env ps (with_files w (files (length t))) a identity issuer) = Raise (ESystemExit 1).
Proof.
  exists vx_env, vx_parsers, cvx_world, (fun n => if Nat.leb n 6 then cvx_files else fvx_set fvx_a (Some (s2b "evil")) cvx_files),
    (cvx_args [s2l "a.txt"]), (s2l "a@b.c"), (s2l "https://issuer.example").
  eexists. exists [s2l "a.txt"], (s2b "evil"). split; [vm_compute; reflexivity|]. split.
  - intros n L. cbn [length] in L. destruct (Nat.leb n 6) eqn:E; [apply Nat.leb_le in E; lia|]. vm_compute. reflexivity.
  - vm_compute. reflexivity.
Qed.

(** replaced before it is read: not verified *)
Example ex_replaced_before : fst (fvx_run (fun n => if Nat.leb n 5 then cvx_files else fvx_set fvx_a (Some (s2b "evil")) cvx_files) (cvx_args [s2l "a.txt"])) =
  ([L_fail (It_path [s2l "a.txt"])], Raise (ESystemExit 1)).
Proof. vm_compute. reflexivity. Qed.
(** removed between the check and the reading *)
Example ex_removed : fvx_run (fun n => if Nat.leb n 5 then cvx_files else fvx_set fvx_a None cvx_files) (cvx_args [s2l "a.txt"]) =
  ((nil, Raise EFileNotFound),
   [Look [s2l "a.txt"] true; Look [s2l "a.txt"] true; Look [s2l "a.txt.sigstore.json"] true; Look [s2l "a.txt.sigstore.json"] true;
    Look [s2l "a.txt.sigstore"] false; Look [s2l "a.txt.sigstore.json"] true; Take [s2l "a.txt"] None]).
Proof. vm_compute. reflexivity. Qed.
(** the hypotheses of C102_untouched_input, with a bundle that changes *)
Example ex_untouched :
  let files := fun n => if Nat.leb n 7 then cvx_files else fvx_set [s2l "home"; s2l "a.txt.sigstore.json"] None cvx_files in
  snd (fst (fvx_run files (cvx_args [s2l "a.txt"]))) = Ok tt /\
  forall n, files n (place (w_cwd cvx_world) (path_of (s2l "a.txt"))) = Some vx_input.
Proof.
  cbv zeta. split; [vm_compute; reflexivity|]. intros n. destruct (Nat.leb n 7); vm_compute; reflexivity.
Qed.
(** detached materials, and the other command *)
Example ex_steps_detached :
  snd (fst (fvx_run (fun _ => cvx_files) (mkVA [s2l "c.txt"] (Some [s2l "c.txt.crt"]) None None false None None true false))) = Ok tt /\
  exit_status (snd (fst (verify_github_s vx_env vx_parsers cvx_world (fun _ => cvx_files) (cvx_args [s2l "a.txt"]) (mkGH None None None None None None)))) = 2.
Proof. split; vm_compute; reflexivity. Qed.

Print Assumptions C102_accepted.
Print Assumptions C102_accepted_github.
Print Assumptions C102_accesses.
Print Assumptions C102_untouched_input.
Print Assumptions C102_untouched_input_github.
Print Assumptions C102_other_files.
Print Assumptions C102_vanished.
Print Assumptions C102_unchanged.
Print Assumptions C102_exit_status.
Print Assumptions C102_verified_file_stays_refuted.
