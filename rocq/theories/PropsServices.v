(** Property C100: which services a signing command uses. *)
From Verif Require Import Base Codec Messages Env Keyring Cert Dsse KeyDetails Policy TrustedRoot SigningConfig Hashing Json Http
  Oidc Oauth LogEntry Bundle Verifier RekorClient Clients Tuf PyText CliVerify Sign SignSteps Predicate CliSign PropsTuf PropsCliVerify SignProofs PropsSign
  PropsSignThreads PropsSigningConfig PropsRekorClient PropsOidc PropsDisclosure PropsCliSign ToyEnv ToyBundles ToySign.
From Verif Require Url.

(** ** Specification *)

(** the trust configuration that the options of a command designate *)
Definition configured (tl : Tools) (a : CommonArgs) (t0 : tree) (c : ClientTrustConfig) : Prop :=
  get_trust_config (world_at tl t0) (ca_trust_config a) (ca_instance a) (ca_staging a) false = Ok c.

(** the services of a configuration that may be used: in force now, of a version that the client
    speaks and, for logs, of the version that the user asks for *)
Definition offered (now : time) (versions : list Z) (services : list Service) (u : str) : Prop :=
  exists s, In s services /\ eligible now versions s /\ sv_url s = u.
Definition offered_ca (tl : Tools) (c : ClientTrustConfig) (u : str) : Prop := offered (w_start (tl_world tl)) [1%Z] (scm_cas (ctc_signing c)) u.
Definition offered_tsa (tl : Tools) (c : ClientTrustConfig) (u : str) : Prop := offered (w_start (tl_world tl)) [1%Z] (scm_tsas (ctc_signing c)) u.
Definition offered_issuer (tl : Tools) (c : ClientTrustConfig) (u : str) : Prop := offered (w_start (tl_world tl)) [1%Z] (scm_oidcs (ctc_signing c)) u.
Definition offered_log (tl : Tools) (a : CommonArgs) (c : ClientTrustConfig) (version : Z) (u : str) : Prop :=
  (version = 1%Z \/ version = 2%Z) /\ (forall v, ca_rekor_version a = Some v -> version = v) /\
  offered (w_start (tl_world tl)) [version] (scm_tlogs (ctc_signing c)) u.

(** the API version of a request to a log *)
Definition request_version (r : EntryRequest) : Z := match r with Req_h1 _ | Req_d1 _ _ => 1 | Req_v2 _ _ _ => 2 end.

(** what a command may ask, and whom *)
Definition permitted (tl : Tools) (a : CommonArgs) (c : ClientTrustConfig) (ev : event) : Prop :=
  match ev with
  | EvCsr u _ => offered_ca tl c u
  | EvTsa u _ => offered_tsa tl c u
  | EvLog r => exists u, offered_log tl a c (request_version r) u
  | EvKey _ | EvClock _ | EvSign _ _ => True
  end.

(** The same tools in another network: other answers at other addresses. *)
Definition elsewhere (tl : Tools) (out : Outside) (interactive : str -> str -> str -> bool -> res IdentityToken) : Tools :=
  mkTools (tl_world tl) (tl_libs tl) out (tl_json tl) (tl_text tl) (tl_dump tl) (tl_token tl) (tl_detect tl) interactive (tl_to_json tl).
(** ... where the services that may be used give the same answers *)
Definition same_offered (tl : Tools) (a : CommonArgs) (c : ClientTrustConfig) (out : Outside) (interactive : str -> str -> str -> bool -> res IdentityToken) : Prop :=
  (forall h, o_clock (tl_out tl) h = o_clock out h /\ o_pub (tl_out tl) h = o_pub out h /\ (forall k s d, o_sign (tl_out tl) h k s d = o_sign out h k s d) /\
    (forall b, o_tsa_query (tl_out tl) h b = o_tsa_query out h b) /\
    (forall u v r, offered_ca tl c u -> Url.urljoin (l_url (tl_libs tl)) u (s2l "/api/v2/signingCert") = Ok v ->
       o_fulcio (tl_out tl) h (POST v r) = o_fulcio out h (POST v r)) /\
    (forall u b, offered_tsa tl c u -> o_tsa (tl_out tl) h (POST u b) = o_tsa out h (POST u b)) /\
    (forall u r, offered_log tl a c 1 u -> o_log (tl_out tl) h (POST (u ++ s2l "/api/v1/log/entries") r) = o_log out h (POST (u ++ s2l "/api/v1/log/entries") r)) /\
    (forall u r, offered_log tl a c 2 u -> o_log (tl_out tl) h (POST (u ++ s2l "/api/v2/log/entries") r) = o_log out h (POST (u ++ s2l "/api/v2/log/entries") r))) /\
  (forall u id secret oob, (ca_issuer a = Some u \/ (ca_issuer a = None /\ offered_issuer tl c u)) ->
    tl_interactive tl u id secret oob = interactive u id secret oob).

(** ** The context *)

(** what the context uses is offered *)
Definition good_context (tl : Tools) (a : CommonArgs) (c : ClientTrustConfig) (ctx : ContextParts) : Prop :=
  offered_ca tl c (cp_fulcio ctx) /\ (forall u, In u (cp_tsas ctx) -> offered_tsa tl c u) /\
  match cp_rekor ctx with Rekor_v1 u => offered_log tl a c 1 u | Rekor_v2 u => offered_log tl a c 2 u end.

Lemma context_good : forall tl a c ctx,
  context_from_trust_config (w_start (tl_world tl)) (mkCTC (ctc_root c) (ctc_signing c) (ca_rekor_version a)) = Ok ctx -> good_context tl a c ctx.
Proof.
  intros tl a c ctx H. unfold context_from_trust_config in H. cbn [ctc_signing ctc_force ctc_root] in H.
  apply bind_ok_inv in H. destruct H as (sc & M & H). apply bind_ok_inv in H. destruct H as (fu & F & H).
  apply bind_ok_inv in H. destruct H as (logs & L & H). apply bind_ok_inv in H. destruct H as (rk & R & H).
  apply bind_ok_inv in H. destruct H as ([] & _ & H). inversion H; subst ctx. clear H. apply C43_loads_iff in M. destruct M as (_ & Tl & Ts & Fu & _ & _ & _).
  split; [|split]; cbn [cp_fulcio cp_tsas cp_rekor].
  - unfold get_fulcio in F. apply bind_ok_inv in F. destruct F as (s & I & F). inversion F; subst fu.
    unfold index_list in I. destruct (sc_fulcios sc) as [|s0 l] eqn:El; cbn [nth_error] in I; [discriminate|]. inversion I; subst s0.
    apply C42_selected_services_usable in Fu. destruct Fu as [_ Fu]. destruct (Fu s (or_introl eq_refl)) as (Is & E & _). exists s. auto.
  - intros u I. unfold get_tsas in I. apply in_map_iff in I. destruct I as (s & <- & Is).
    apply C42_selected_services_usable in Ts. destruct Ts as [_ Ts]. destruct (Ts s Is) as (Is' & E & _). exists s. auto.
  - unfold get_tlogs in L. destruct (sc_tlogs sc) as [|s l] eqn:El; cbn [map_res] in L; [inversion L; subst; discriminate|].
    apply bind_ok_inv in L. destruct L as (cl & Cl & L). apply bind_ok_inv in L. destruct L as (rest & _ & L). inversion L; subst logs.
    cbn in R. inversion R; subst rk. apply C42_selected_services_usable in Tl. destruct Tl as [_ Tl]. destruct (Tl s (or_introl eq_refl)) as (Is & (V & W) & _).
    assert (G : forall v, sv_version s = v -> (v = 1%Z \/ v = 2%Z) -> offered_log tl a c v (sv_url s)).
    { intros v E X. split; [exact X|]. split.
      - intros v' Rv. rewrite Rv in V. destruct V as [V|[]]. congruence.
      - exists s. split; [exact Is|]. split; [|reflexivity]. split; [left; congruence|exact W]. }
    destruct (Z.eqb_spec (sv_version s) 1) as [E|N1]; [inversion Cl; subst cl; apply G; auto|].
    destruct (Z.eqb_spec (sv_version s) 2) as [E|N2]; [inversion Cl; subst cl; apply G; auto|discriminate].
Qed.

(** ** Events *)

Definition emits {A} (P : event -> Prop) (m : M A) : Prop := forall h, exists l, fst (m h) = h ++ l /\ Forall P l.
Lemma emits_exec : forall A P (p : prog A), only P p -> emits P (SignSteps.exec p).
Proof.
  intros A P p H. induction H as [r|ev k E _ IH]; intros h; cbn [SignSteps.exec].
  - exists nil. rewrite app_nil_r. split; [reflexivity|constructor].
  - destruct (IH h (h ++ [ev h])) as (l & X & F). exists (ev h :: l). rewrite X, <- app_assoc. split; [reflexivity|]. constructor; auto.
Qed.
Lemma emits_bind : forall A B P (m : M A) (k : A -> M B), emits P m -> (forall x, emits P (k x)) -> emits P (mbind m k).
Proof.
  intros A B P m k Hm Hk h. unfold mbind. destruct (Hm h) as (l & E & F). destruct (m h) as [h1 [x|e]]; cbn [fst] in *; [|exists l; auto].
  destruct (Hk x h1) as (l2 & E2 & F2). exists (l ++ l2). rewrite E2, E, app_assoc. split; [reflexivity|]. apply Forall_app. auto.
Qed.

Section Signer.
Variables (tl : Tools) (a : CommonArgs) (c : ClientTrustConfig).
Let libs := tl_libs tl.
Notation P := (permitted tl a c).

Lemma only_clock : forall out, only P (p_clock out).
Proof. intros out. apply only_step. intros h. exact I. Qed.
Lemma only_cert : forall out s, good_context tl a c (sg_ctx s) -> only P (p_signer_cert libs out s).
Proof.
  intros out s (G & _). unfold p_signer_cert. destruct (sg_cert s) as [ct|].
  - apply only_bind; [apply only_clock|]. intros now. destruct (_ <? _)%Z; constructor.
  - apply only_bind; [apply only_clock|]. intros now. apply only_bind; [constructor|]. intros ok. destruct (negb ok); [constructor|].
    apply only_bind; [unfold p_private_key; destruct (sg_key s); [constructor|apply only_step; intros h; exact I]|]. intros k.
    apply only_bind; [apply only_step; intros h; exact G|]. intros cc. apply only_bind; [apply only_clock|]. intros now2.
    apply only_bind; [constructor|]. intros kr. apply only_bind; [constructor|]. intros []. constructor.
Qed.
Lemma only_tsas : forall out sg urls acc, (forall u, In u urls -> offered_tsa tl c u) -> only P (p_tsa_loop libs out urls sg acc).
Proof.
  intros out sg urls. induction urls as [|u urls IH]; intros acc G; cbn [p_tsa_loop]; [constructor|]. constructor; [intros h; apply G; left; reflexivity|].
  intros h. assert (G' : forall v, In v urls -> offered_tsa tl c v) by (intros v Iv; apply G; right; exact Iv).
  destruct (request_timestamp _ _ _ u sg) as [t|e]; [auto|]. destruct (exn_eqb e ETimestamp); [auto|constructor].
Qed.
Lemma only_final : forall out s cert x req, good_context tl a c (sg_ctx s) -> (exists u, offered_log tl a c (request_version req) u) -> only P (p_finalize libs out s cert x req).
Proof.
  intros out s cert x req (_ & T & _) L. unfold p_finalize. apply only_bind; [apply only_tsas, T|]. intros ts.
  apply only_bind; [apply only_step; intros h; exact L|]. intros e. constructor.
Qed.
Lemma request_dsse : forall cl e cert req, build_dsse_request libs cl e cert = Ok req ->
  match cl with Rekor_v1 _ => request_version req = 1%Z | Rekor_v2 _ => request_version req = 2%Z end.
Proof.
  intros [u|u] e cert req H; cbn [build_dsse_request] in H.
  - unfold build_dsse_request_v1 in H. repeat (apply bind_ok_inv in H; destruct H as (? & _ & H)). inversion H. reflexivity.
  - unfold build_dsse_request_v2 in H. apply bind_ok_inv in H. destruct H as (? & _ & H). apply bind_ok_inv in H. destruct H as ([? ?] & _ & H).
    repeat (apply bind_ok_inv in H; destruct H as (? & _ & H)). inversion H. reflexivity.
Qed.
Lemma request_artifact : forall cl hd sg cert req, build_hashed_rekord_request cl hd sg cert = Ok req ->
  match cl with Rekor_v1 _ => request_version req = 1%Z | Rekor_v2 _ => request_version req = 2%Z end.
Proof.
  intros [u|u] hd sg cert req H; cbn [build_hashed_rekord_request] in H.
  - unfold build_hashed_rekord_request_v1 in H. repeat (apply bind_ok_inv in H; destruct H as (? & _ & H)). inversion H. reflexivity.
  - unfold build_hashed_rekord_request_v2 in H. repeat (apply bind_ok_inv in H; destruct H as (? & _ & H)). inversion H. reflexivity.
Qed.
Lemma only_key : forall out s, only P (p_private_key out s).
Proof. intros out s. unfold p_private_key. destruct (sg_key s); [constructor|]. apply only_step. intros h. exact I. Qed.
Lemma only_op : forall out s o, good_context tl a c (sg_ctx s) -> only P (p_op libs out s o).
Proof.
  intros out s o G. pose proof G as (_ & _ & Gl).
  assert (Fin : forall cert x r, match cp_rekor (sg_ctx s) with Rekor_v1 _ => request_version r = 1%Z | Rekor_v2 _ => request_version r = 2%Z end ->
    only P (p_finalize libs out s cert x r)).
  { intros cert x r V. apply only_final; [exact G|]. destruct (cp_rekor (sg_ctx s)) as [u|u]; exists u; rewrite V; exact Gl. }
  destruct o as [i|st]; cbn [p_op].
  - unfold p_sign_artifact. apply only_bind; [apply only_cert, G|]. intros cert. apply only_bind; [apply only_key|]. intros k.
    apply only_bind; [constructor|]. intros x. apply only_bind; [unfold p_sign_prehashed; destruct (Nat.eqb _ 32); [apply only_step; intros h; exact I|constructor]|].
    intros sg. apply only_bind; [constructor|]. intros dg. apply only_bind; [constructor|]. intros sg'.
    destruct (build_hashed_rekord_request _ _ _ _) as [r|e] eqn:B; cbn [pbind]; [|constructor]. apply Fin. exact (request_artifact _ _ _ _ _ B).
  - unfold p_sign_dsse. apply only_bind; [apply only_cert, G|]. intros cert. apply only_bind; [apply only_key|]. intros k.
    apply only_bind; [apply only_step; intros h; exact I|]. intros e.
    destruct (build_dsse_request _ _ _ _) as [r|ex] eqn:B; cbn [pbind]; [|constructor]. apply Fin. exact (request_dsse _ _ _ _ B).
Qed.
End Signer.

(** *** The whole command *)

Section Command.
Variables (tl : Tools) (a : CommonArgs) (c : ClientTrustConfig).
Let libs := tl_libs tl.
Let out := tl_out tl.
Notation P := (permitted tl a c).
Definition grown (h h' : history) : Prop := exists l, h' = h ++ l /\ Forall P l.
Lemma grown_refl : forall h, grown h h.
Proof. intros h. exists nil. rewrite app_nil_r. split; [reflexivity|constructor]. Qed.
Lemma grown_trans : forall x y z, grown x y -> grown y z -> grown x z.
Proof. intros x y z (l & -> & F) (l2 & -> & F2). exists (l ++ l2). rewrite app_assoc. split; [reflexivity|]. apply Forall_app. auto. Qed.
Lemma emits_grown : forall A (m : M A) h h' r, emits P m -> m h = (h', r) -> grown h h'.
Proof. intros A m h h' r E H. destruct (E h) as (l & X & F). rewrite H in X. exists l. auto. Qed.
Lemma emits_cert : forall s, good_context tl a c (sg_ctx s) -> emits P (signer_cert libs out s).
Proof. intros s G h. rewrite <- exec_signer_cert. apply (emits_exec _ _ _ (only_cert tl a c out s G)). Qed.
Lemma emits_make : forall tok ctx, good_context tl a c ctx -> emits P (make_signer libs out tok ctx true).
Proof.
  intros tok ctx G. unfold make_signer. apply emits_bind.
  - intros h. unfold generate_key, step. eexists. split; [reflexivity|]. constructor; [exact I|constructor].
  - intros k. apply emits_bind; [apply emits_cert, G|]. intros ct h. exists nil. rewrite app_nil_r. split; [reflexivity|constructor].
Qed.

Lemma signing_configured : forall t c', signing_config tl a t = Ok c' ->
  exists c1, configured tl a t c1 /\ c' = mkCTC (ctc_root c1) (ctc_signing c1) (ca_rekor_version a).
Proof. intros t c' H. unfold signing_config in H. apply bind_ok_inv in H. destruct H as (c1 & C & H). inversion H. exists c1. auto. Qed.

Lemma setup_grown : forall t h h' r, configured tl a t c -> setup tl a t h = (h', r) ->
  grown h h' /\ forall s, r = Ok s -> good_context tl a c (sg_ctx s).
Proof.
  intros t h h' r Cf H. unfold setup in H.
  assert (Sc : signing_config tl a t = Ok (mkCTC (ctc_root c) (ctc_signing c) (ca_rekor_version a))) by (unfold signing_config; unfold configured in Cf; rewrite Cf; reflexivity).
  rewrite Sc in H. unfold mbind at 1, lift at 1 in H.
  apply mbind_inv in H. destruct H as [(e & X & ->)|(h1 & ctx & X & H)]; [unfold lift in X; inversion X; subst; split; [apply grown_refl|discriminate]|].
  apply lift_ok in X. destruct X as [-> X]. apply context_good in X. rename X into G.
  apply mbind_inv in H. destruct H as [(e & X & ->)|(h2 & tok & X & H)]; [unfold lift in X; inversion X; subst; split; [apply grown_refl|discriminate]|].
  apply lift_ok in X. destruct X as [-> _].
  apply mbind_inv in H. destruct H as [(e & X & ->)|(h3 & s & X & H)]; [split; [eapply emits_grown; [apply emits_make, G|exact X]|discriminate]|].
  assert (Gs : good_context tl a c (sg_ctx s)) by (apply make_signer_cached in X; destruct X as (c0 & _ & -> & _); exact G).
  apply (emits_grown _ _ _ _ _ (emits_make tok ctx G)) in X.
  apply mbind_inv in H. destruct H as [(e & Y & ->)|(h4 & ct & Y & H)]; apply (emits_grown _ _ _ _ _ (emits_cert s Gs)) in Y.
  - split; [eapply grown_trans; eassumption|discriminate].
  - unfold ret in H. inversion H; subst. split; [eapply grown_trans; eassumption|]. intros s' Q. inversion Q; subst. exact Gs.
Qed.

Definition good_phase (ph : phase) : Prop := match ph with Ph_signing p => only P p | _ => True end.
Lemma job_step_grown : forall s pr j n t h ph t' h' ph', good_context tl a c (sg_ctx s) -> good_phase ph ->
  job_step tl s pr j n t h ph = (t', h', ph') -> grown h h' /\ good_phase ph'.
Proof.
  intros s pr j n t h ph t' h' ph' G Gp H. destruct ph as [|d|[[b|e]|ev k]|b todo|b p text pos todo|b|e]; cbn [job_step] in H.
  - destruct (files_of t (loc tl (job_file j))); inversion H; (split; [apply grown_refl|exact I]).
  - destruct (operation tl pr (job_file j) d) as [o|e]; inversion H; (split; [apply grown_refl|]); [|exact I]. apply only_op, G.
  - inversion H. split; [apply grown_refl|exact I].
  - inversion H. split; [apply grown_refl|exact I].
  - inversion H; subst. cbn [good_phase] in *. inversion Gp as [|ev' k' He Hk]; subst. split; [|apply Hk].
    exists [ev h]. split; [reflexivity|]. constructor; [apply He|constructor].
  - destruct todo as [|o todo]; [inversion H; split; [apply grown_refl|exact I]|].
    destruct (output_text tl s b o h) as [h1 r] eqn:T.
    assert (Qh : grown h h1).
    { unfold output_text in T. destruct o as [p|p|p].
      - unfold mbind, lift, ret in T. destruct (bundle_signature b); inversion T; apply grown_refl.
      - apply mbind_inv in T. destruct T as [(e & T & _)|(h2 & ct & T & R)]; [|unfold ret in R; inversion R; subst];
          (eapply emits_grown; [apply emits_cert, G|exact T]).
      - unfold ret in T. inversion T. apply grown_refl. }
    destruct r as [text|e]; [|inversion H; subst; split; [assumption|exact I]].
    destruct (open_w t (loc tl (out_path o))) as [t1 [u|e]]; inversion H; subst; (split; [assumption|exact I]).
  - injection H as _ <- <-. split; [apply grown_refl|]. destruct (length text <=? _); exact I.
  - inversion H. split; [apply grown_refl|exact I].
  - inversion H. split; [apply grown_refl|exact I].
Qed.
Lemma sys_run_grown : forall s pr jobs, good_context tl a c (sg_ctx s) -> forall sched y, Forall good_phase (y_phases y) ->
  grown (y_hist y) (y_hist (sys_run tl s pr jobs sched y)).
Proof.
  intros s pr jobs G. unfold sys_run. induction sched as [|x sched IH]; intros y Ca; cbn [fold_left]; [apply grown_refl|].
  assert (K : grown (y_hist y) (y_hist (sys_step tl s pr jobs y x)) /\ Forall good_phase (y_phases (sys_step tl s pr jobs y x))).
  { destruct x as [i n|p n]; cbn [sys_step]; [|split; [apply grown_refl|exact Ca]].
    destruct (nth_error jobs i) as [j|]; [|split; [apply grown_refl|exact Ca]].
    destruct (nth_error (y_phases y) i) as [ph|] eqn:E; [|split; [apply grown_refl|exact Ca]].
    destruct (job_step tl s pr j n (y_tree y) (y_hist y) ph) as [[t' h'] ph'] eqn:Q. cbn [y_hist y_phases].
    assert (C1 : good_phase ph) by (rewrite Forall_forall in Ca; apply Ca; eapply nth_error_In, E).
    destruct (job_step_grown _ _ _ _ _ _ _ _ _ _ G C1 Q) as [Qh Cp]. split; [exact Qh|].
    apply Forall_forall. intros z Iz. apply In_nth_error in Iz. destruct Iz as [m Iz].
    destruct (Nat.eq_dec i m) as [<-|Nm].
    - rewrite (nth_set_same _ _ _ _ _ E) in Iz. congruence.
    - rewrite nth_set_other in Iz by assumption. rewrite Forall_forall in Ca. apply Ca. eapply nth_error_In, Iz. }
  destruct K as [Q1 C1]. eapply grown_trans; [exact Q1|]. apply IH, C1.
Qed.
End Command.

(** what can be read of the options is the same before and after the preparation *)
Lemma configured_same : forall tl a t t' c, same_files t t' -> configured tl a t c -> configured tl a t' c.
Proof.
  intros tl a t t' c S H. unfold configured in *. rewrite <- H. apply get_trust_config_files; try reflexivity.
  intros p. unfold content, file_bytes. cbn. exact (S _).
Qed.

Lemma common_run_grown : forall tl a pr h0 t0 p1 sched t h lines r, same_files t0 (fst p1) -> common_run tl a pr h0 p1 sched t h lines r ->
  exists l, h = h0 ++ l /\ (l = nil \/ exists c, configured tl a t0 c /\ forall ev, In ev l -> permitted tl a c ev).
Proof.
  intros tl a pr h0 t0 p1 sched t h lines r Sf H.
  assert (Cc : forall t2 h2 r2, setup tl a t2 h0 = (h2, r2) -> same_files t0 t2 -> h2 = h0 \/ exists c, configured tl a t0 c /\ configured tl a t2 c).
  { intros t2 h2 r2 S Sg. unfold setup in S. apply mbind_inv in S. destruct S as [(e & X & _)|(h1 & c' & X & _)]; [unfold lift in X; inversion X; auto|].
    apply lift_ok in X. destruct X as [_ X]. apply signing_configured in X. destruct X as (c & Cf & _). right. exists c. split; [|exact Cf].
    apply (configured_same tl a t2); [|exact Cf]. intros q. symmetry. apply Sg. }
  destruct H as [t2 e|t2 m h2 e S|t2 m h2 s sched y r S Y F]; cbn [fst] in Sf.
  - exists nil. rewrite app_nil_r. auto.
  - destruct (Cc _ _ _ S Sf) as [->|(c & Cf & Cf2)]; [exists nil; rewrite app_nil_r; auto|].
    destruct (setup_grown tl a c _ _ _ _ Cf2 S) as [(l & -> & Fl) _]. exists l. split; [reflexivity|]. right. exists c. rewrite Forall_forall in Fl. auto.
  - unfold setup in S. apply mbind_inv in S. destruct S as [(e & _ & X)|(h1 & c' & X & S)]; [discriminate|].
    assert (S' : setup tl a t2 h0 = (h2, Ok s)) by (unfold setup, mbind at 1; rewrite X; exact S). clear S.
    apply lift_ok in X. destruct X as [_ X]. apply signing_configured in X. destruct X as (c & Cf & _).
    destruct (setup_grown tl a c _ _ _ _ Cf S') as [G1 Gs]. specialize (Gs s eq_refl). subst y.
    assert (G2 := sys_run_grown tl a c s pr (jobs_of m) Gs sched (sys_start (jobs_of m) t2 h2)). cbn [sys_start y_hist y_phases] in G2.
    destruct (grown_trans _ _ _ _ _ _ G1 (G2 ltac:(apply Forall_forall; intros z Iz; apply in_map_iff in Iz; destruct Iz as (x & <- & _); exact I))) as (l & E & Fl).
    exists l. split; [exact E|]. right. exists c. rewrite Forall_forall in Fl. split; [|auto].
    apply (configured_same tl a t2); [|exact Cf]. intros q. symmetry. apply Sf.
Qed.

(** Every certificate, timestamp and log entry that a command asks for, it asks of a service of the
    trust configuration which is in force and of a version that the client speaks, and for log entries
    of the version that the user asks for. *)
Theorem C100_sign_services : forall tl a t0 h0 sched t h lines r, sign_run tl a t0 h0 sched t h lines r ->
  exists l, h = h0 ++ l /\ (l = nil \/ exists c, configured tl (sa_common a) t0 c /\ forall ev, In ev l -> permitted tl (sa_common a) c ev).
Proof.
  intros tl a t0 h0 sched t h lines r H. unfold sign_run in H. destruct (sign_prepare tl a t0) as [t1 r1] eqn:Pr.
  eapply common_run_grown; [|exact H]. apply sign_prepare_prepared in Pr. apply grows_files, Pr.
Qed.
Theorem C100_attest_services : forall tl a t0 h0 sched t h lines r, attest_run tl a t0 h0 sched t h lines r ->
  exists l, h = h0 ++ l /\ (l = nil \/ exists c, configured tl (aa_common a) t0 c /\ forall ev, In ev l -> permitted tl (aa_common a) c ev).
Proof.
  intros tl a t0 h0 sched t h lines r H. unfold attest_run in H. destruct (attest_prepare tl a t0) as [t1 r1] eqn:Pr.
  apply attest_prepare_prepared in Pr. assert (S : same_files t0 t1) by (apply grows_files, Pr).
  destruct r1 as [[m j]|e]; (eapply common_run_grown; [|exact H]; exact S).
Qed.

(** ** Another network *)

(** two programs that cannot be told apart *)
Inductive peq {A} : prog A -> prog A -> Prop :=
| Peq_done : forall r, peq (P_done r) (P_done r)
| Peq_next : forall ev ev' k k', (forall h, ev h = ev' h) -> (forall h, peq (k h) (k' h)) -> peq (P_next ev k) (P_next ev' k').
Lemma peq_bind : forall A B (p p' : prog A) (f f' : A -> prog B), peq p p' -> (forall x, peq (f x) (f' x)) -> peq (pbind p f) (pbind p' f').
Proof.
  intros A B p p' f f' H K. induction H as [[x|e]|ev ev' k k' E _ IH]; cbn [pbind]; [apply K|constructor|]. constructor; [exact E|exact IH].
Qed.
Lemma peq_step : forall A ev ev' (f f' : history -> res A), (forall h, ev h = ev' h) -> (forall h, f h = f' h) -> peq (pstep ev f) (pstep ev' f').
Proof. intros A ev ev' f f' E F. constructor; [exact E|]. intros h. rewrite F. constructor. Qed.
Lemma peq_exec : forall A (p p' : prog A), peq p p' -> forall h, SignSteps.exec p h = SignSteps.exec p' h.
Proof. intros A p p' H. induction H as [r|ev ev' k k' E _ IH]; intros h; cbn [SignSteps.exec]; [reflexivity|]. rewrite <- E. apply IH. Qed.

Section Elsewhere.
Variables (tl : Tools) (a : CommonArgs) (c : ClientTrustConfig) (out2 : Outside) (ask2 : str -> str -> str -> bool -> res IdentityToken).
Hypothesis Same : same_offered tl a c out2 ask2.
Let libs := tl_libs tl.
Let out := tl_out tl.
Let tl2 := elsewhere tl out2 ask2.

Lemma peq_clock : peq (p_clock out) (p_clock out2).
Proof. destruct Same as [S _]. apply peq_step; intros h; destruct (S h) as (E & _); unfold out; rewrite E; reflexivity. Qed.
Lemma peq_key : forall s, peq (p_private_key out s) (p_private_key out2 s).
Proof.
  intros s. destruct Same as [S _]. unfold p_private_key. destruct (sg_key s); [constructor|].
  apply peq_step; intros h; destruct (S h) as (_ & E & _); unfold out; rewrite E; reflexivity.
Qed.
Lemma peq_cert : forall s, good_context tl a c (sg_ctx s) -> peq (p_signer_cert libs out s) (p_signer_cert libs out2 s).
Proof.
  intros s (G & _). unfold p_signer_cert. destruct (sg_cert s) as [ct|].
  - apply peq_bind; [apply peq_clock|]. intros now. destruct (_ <? _)%Z; constructor.
  - apply peq_bind; [apply peq_clock|]. intros now. apply peq_bind; [constructor|]. intros ok. destruct (negb ok); [constructor|].
    apply peq_bind; [apply peq_key|]. intros k. apply peq_bind.
    { apply peq_step; intros h; [reflexivity|]. destruct Same as [S _]. destruct (S h) as (_ & _ & _ & _ & F & _).
      unfold fulcio_post. unfold SIGNING_CERT_ENDPOINT. unfold out, libs.
      pose proof (fun v r => F _ v r G) as F2. clear F. revert F2. generalize (Url.urljoin (l_url (tl_libs tl)) (cp_fulcio (sg_ctx s)) (s2l "/api/v2/signingCert")). intros [v|e] F2; cbn [bind]; [rewrite (F2 v _ eq_refl)|]; reflexivity. }
    intros cc. apply peq_bind; [apply peq_clock|]. intros now2. apply peq_bind; [constructor|]. intros kr. apply peq_bind; [constructor|]. intros []. constructor.
Qed.
Lemma peq_tsas : forall sg urls acc, (forall u, In u urls -> offered_tsa tl c u) -> peq (p_tsa_loop libs out urls sg acc) (p_tsa_loop libs out2 urls sg acc).
Proof.
  intros sg urls. induction urls as [|u urls IH]; intros acc G; cbn [p_tsa_loop]; [constructor|]. constructor; [reflexivity|]. intros h.
  assert (G' : forall v, In v urls -> offered_tsa tl c v) by (intros v Iv; apply G; right; exact Iv).
  assert (E : request_timestamp (l_env libs) (o_tsa_query out h) (o_tsa out h) u sg = request_timestamp (l_env libs) (o_tsa_query out2 h) (o_tsa out2 h) u sg).
  { destruct Same as [S _]. destruct (S h) as (_ & _ & _ & Q & _ & T & _). unfold request_timestamp, out. rewrite Q.
    destruct (try_except (o_tsa_query out2 h sg) is_value_error (fun _ => Raise ETimestamp)) as [q|e]; [|reflexivity]. cbn [bind].
    rewrite (T u q (G u (or_introl eq_refl))). reflexivity. }
  rewrite E. clear E. destruct (request_timestamp _ _ _ u sg) as [t|e]; [exact (IH _ G')|]. destruct (exn_eqb e ETimestamp); [exact (IH _ G')|constructor].
Qed.
Lemma peq_final : forall s cert x req, good_context tl a c (sg_ctx s) -> peq (p_finalize libs out s cert x req) (p_finalize libs out2 s cert x req).
Proof.
  intros s cert x req (_ & T & L). unfold p_finalize. apply peq_bind; [apply peq_tsas, T|]. intros ts.
  apply peq_bind; [|intros e; constructor]. apply peq_step; intros h; [reflexivity|].
  destruct Same as [S _]. destruct (S h) as (_ & _ & _ & _ & _ & _ & L1 & L2). unfold create_entry. destruct (cp_rekor (sg_ctx s)) as [u|u].
  - unfold create_entry_v1, out. replace (v1_entries_url u) with (u ++ s2l "/api/v1/log/entries"); [rewrite (L1 u req L); reflexivity|].
    unfold v1_entries_url, v1_log_url. rewrite <- ?app_assoc. reflexivity.
  - unfold create_entry_v2, out. change (s2l "/api/v2" ++ s2l "/log/entries") with (s2l "/api/v2/log/entries"). rewrite (L2 u req L). reflexivity.
Qed.
Lemma peq_op : forall s o, good_context tl a c (sg_ctx s) -> peq (p_op libs out s o) (p_op libs out2 s o).
Proof.
  intros s o G. destruct o as [i|st]; cbn [p_op].
  - unfold p_sign_artifact. apply peq_bind; [apply peq_cert, G|]. intros cert. apply peq_bind; [apply peq_key|]. intros k.
    apply peq_bind; [constructor|]. intros x. apply peq_bind.
    { unfold p_sign_prehashed. destruct (Nat.eqb _ 32); [|constructor]. apply peq_step; intros h; [reflexivity|].
      destruct Same as [S _]. destruct (S h) as (_ & _ & E & _). unfold out. rewrite E. reflexivity. }
    intros sg. apply peq_bind; [constructor|]. intros dg. apply peq_bind; [constructor|]. intros sg'. apply peq_bind; [constructor|].
    intros req. apply peq_final, G.
  - unfold p_sign_dsse. apply peq_bind; [apply peq_cert, G|]. intros cert. apply peq_bind; [apply peq_key|]. intros k.
    apply peq_bind.
    { apply peq_step; intros h; [reflexivity|]. destruct Same as [S _]. destruct (S h) as (_ & _ & E & _). unfold dsse_sign, out.
      destruct (statement_pae st) as [p|ex]; [|reflexivity]. cbn [bind]. rewrite E. reflexivity. }
    intros e. apply peq_bind; [constructor|]. intros req. apply peq_final, G.
Qed.

Lemma cert_elsewhere : forall s h, good_context tl a c (sg_ctx s) -> signer_cert libs out s h = signer_cert libs out2 s h.
Proof. intros s h G. rewrite <- !exec_signer_cert. apply peq_exec, peq_cert, G. Qed.
Lemma make_elsewhere : forall tok ctx h, good_context tl a c ctx -> make_signer libs out tok ctx true h = make_signer libs out2 tok ctx true h.
Proof.
  intros tok ctx h G. unfold make_signer, generate_key, mbind, step. destruct Same as [S _]. destruct (S h) as (_ & E & _). unfold out at 1 2. rewrite E.
  fold out. rewrite (cert_elsewhere (mkSigner tok ctx (Some (mkPriv (length h) (o_pub out2 h))) None) _ G). unfold out. rewrite E. reflexivity.
Qed.
Lemma identity_elsewhere : identity tl2 a (mkCTC (ctc_root c) (ctc_signing c) (ca_rekor_version a)) = identity tl a (mkCTC (ctc_root c) (ctc_signing c) (ca_rekor_version a)).
Proof.
  unfold identity. assert (K : get_identity tl2 a (mkCTC (ctc_root c) (ctc_signing c) (ca_rekor_version a)) = get_identity tl a (mkCTC (ctc_root c) (ctc_signing c) (ca_rekor_version a))).
  2: { rewrite K. reflexivity. }
  unfold get_identity. cbn [tl2 elsewhere tl_detect tl_token tl_interactive tl_world ctc_signing ctc_force].
  destruct (if ca_disable_ambient a then Ok None else detect_credential (tl_detect tl) (ca_client_id a)) as [tk|e]; [|reflexivity]. cbn [bind].
  destruct Same as [_ Ask].
  assert (G : forall tk', match tk' with Some (x :: r) => tl_token tl (x :: r) (ca_client_id a)
     | _ => let* url := match ca_issuer a with Some u => Ok u | None => let* sc := make_signing_config (w_start (tl_world tl)) (ctc_signing c) (ca_rekor_version a) in get_oidc_url sc end in
       ask2 url (ca_client_id a) (given (ca_client_secret a) nil) (ca_force_oob a) end =
     match tk' with Some (x :: r) => tl_token tl (x :: r) (ca_client_id a)
     | _ => let* url := match ca_issuer a with Some u => Ok u | None => let* sc := make_signing_config (w_start (tl_world tl)) (ctc_signing c) (ca_rekor_version a) in get_oidc_url sc end in
       tl_interactive tl url (ca_client_id a) (given (ca_client_secret a) nil) (ca_force_oob a) end); [|apply G].
  assert (K : (let* url := match ca_issuer a with Some u => Ok u | None => let* sc := make_signing_config (w_start (tl_world tl)) (ctc_signing c) (ca_rekor_version a) in get_oidc_url sc end in
       ask2 url (ca_client_id a) (given (ca_client_secret a) nil) (ca_force_oob a)) =
     (let* url := match ca_issuer a with Some u => Ok u | None => let* sc := make_signing_config (w_start (tl_world tl)) (ctc_signing c) (ca_rekor_version a) in get_oidc_url sc end in
       tl_interactive tl url (ca_client_id a) (given (ca_client_secret a) nil) (ca_force_oob a))).
  { destruct (ca_issuer a) as [u|] eqn:Is; cbn [bind]; [symmetry; apply Ask; auto|].
    destruct (make_signing_config (w_start (tl_world tl)) (ctc_signing c) (ca_rekor_version a)) as [sc|e] eqn:Mk; [|reflexivity]. cbn [bind].
    apply C43_oidc_url in Mk. destruct Mk as [(s & Is' & El & ->)|[_ ->]]; [|reflexivity]. cbn [bind]. symmetry. apply Ask. right. split; [reflexivity|]. exists s. auto. }
  intros [[|x r]|]; [exact K|reflexivity|exact K].
Qed.
Lemma setup_elsewhere : forall t h, configured tl a t c -> setup tl2 a t h = setup tl a t h.
Proof.
  intros t h Cf. unfold setup.
  assert (Sc : signing_config tl a t = Ok (mkCTC (ctc_root c) (ctc_signing c) (ca_rekor_version a))) by (unfold signing_config; unfold configured in Cf; rewrite Cf; reflexivity).
  change (signing_config tl2 a t) with (signing_config tl a t). rewrite Sc. unfold mbind, lift.
  change (w_start (tl_world tl2)) with (w_start (tl_world tl)).
  destruct (context_from_trust_config (w_start (tl_world tl)) (mkCTC (ctc_root c) (ctc_signing c) (ca_rekor_version a))) as [ctx|e] eqn:Cx; [|reflexivity].
  apply context_good in Cx. rewrite identity_elsewhere.
  destruct (identity tl a (mkCTC (ctc_root c) (ctc_signing c) (ca_rekor_version a))) as [tok|e]; [|reflexivity].
  change (tl_libs tl2) with libs. change (tl_out tl2) with out2. fold libs. fold out. rewrite <- (make_elsewhere tok ctx h Cx).
  destruct (make_signer libs out tok ctx true h) as [h1 [s|e]] eqn:Mk; [|reflexivity]. apply make_signer_cached in Mk. destruct Mk as (c0 & _ & E & _).
  rewrite <- (cert_elsewhere s h1); [reflexivity|]. rewrite E. exact Cx.
Qed.

Definition phase_eq (x y : phase) : Prop := match x, y with Ph_signing p, Ph_signing q => peq p q | Ph_signing _, _ => False | _, _ => x = y end.
Lemma phase_eq_refl : forall ph, (forall p, ph <> Ph_signing p) -> phase_eq ph ph.
Proof. intros [| | | | | |] H; try reflexivity. destruct (H p eq_refl). Qed.
Lemma job_step_elsewhere : forall s pr j n t h ph ph2 t' h' ph', good_context tl a c (sg_ctx s) -> phase_eq ph ph2 ->
  job_step tl s pr j n t h ph = (t', h', ph') -> exists ph2', job_step tl2 s pr j n t h ph2 = (t', h', ph2') /\ phase_eq ph' ph2'.
Proof.
  intros s pr j n t h ph ph2 t' h' ph' G E H. destruct ph as [|d|p|b todo|b p text pos todo|b|e]; try (cbn [phase_eq] in E; subst ph2).
  - cbn [job_step] in *. change (loc tl2) with (loc tl). change (tl_libs tl2) with (tl_libs tl).
    destruct (files_of t (loc tl (job_file j))); inversion H; (eexists; split; [reflexivity|]; reflexivity).
  - cbn [job_step] in *. change (operation tl2 pr (job_file j) d) with (operation tl pr (job_file j) d).
    destruct (operation tl pr (job_file j) d) as [o|e]; inversion H; (eexists; split; [reflexivity|]); [|reflexivity]. apply (peq_op s o G).
  - destruct ph2 as [| |q| | | |]; try contradiction. cbn [phase_eq] in E. destruct E as [[b|e]|ev ev' k k' Ev Ek]; cbn [job_step] in *.
    + inversion H. eexists. split; [reflexivity|]. reflexivity.
    + inversion H. eexists. split; [reflexivity|]. reflexivity.
    + inversion H; subst. eexists. split; [rewrite <- Ev; reflexivity|]. apply Ek.
  - cbn [job_step] in *. destruct todo as [|o todo]; [inversion H; eexists; split; [reflexivity|]; reflexivity|].
    assert (T : output_text tl2 s b o h = output_text tl s b o h).
    { unfold output_text. destruct o as [p|p|p]; [reflexivity| |reflexivity]. unfold mbind. change (tl_libs tl2) with libs. change (tl_out tl2) with out2. fold libs. fold out.
      rewrite (cert_elsewhere s h G). reflexivity. }
    rewrite T. change (loc tl2) with (loc tl). destruct (output_text tl s b o h) as [h1 [text|e]].
    + destruct (open_w t (loc tl (out_path o))) as [t1 [u|e]]; inversion H; (eexists; split; [reflexivity|]; reflexivity).
    + inversion H. eexists. split; [reflexivity|]. reflexivity.
  - cbn [job_step] in *. injection H as <- <- <-. eexists. split; [reflexivity|]. apply phase_eq_refl. intros q. destruct (length text <=? _); discriminate.
  - inversion H. eexists. split; [reflexivity|]. reflexivity.
  - inversion H. eexists. split; [reflexivity|]. reflexivity.
Qed.

Lemma Forall2_nth : forall A B (R : A -> B -> Prop) l l' i x, Forall2 R l l' -> nth_error l i = Some x -> exists y, nth_error l' i = Some y /\ R x y.
Proof. intros A B R l l' i x H. revert i. induction H as [|a0 b l l' Rab _ IH]; intros [|i] E; cbn in *; try discriminate; [inversion E; subst; eauto|eauto]. Qed.
Lemma Forall2_nth_none : forall A B (R : A -> B -> Prop) l l' i, Forall2 R l l' -> nth_error l i = None -> nth_error l' i = None.
Proof. intros A B R l l' i H. revert i. induction H as [|a0 b l l' Rab _ IH]; intros [|i] E; cbn in *; try discriminate; auto. Qed.
Lemma Forall2_set : forall A B (R : A -> B -> Prop) l l' i x y, Forall2 R l l' -> R x y -> Forall2 R (set_nth l i x) (set_nth l' i y).
Proof. intros A B R l l' i x y H. revert i. induction H as [|a0 b l l' Rab F IH]; intros [|i] E; cbn; constructor; auto. Qed.

Definition sys_eq (y z : Sys) : Prop := y_tree y = y_tree z /\ y_hist y = y_hist z /\ Forall2 phase_eq (y_phases y) (y_phases z).
Lemma sys_run_elsewhere : forall s pr jobs, good_context tl a c (sg_ctx s) -> forall sched y z, sys_eq y z ->
  sys_eq (sys_run tl s pr jobs sched y) (sys_run tl2 s pr jobs sched z).
Proof.
  intros s pr jobs G. unfold sys_run. induction sched as [|x sched IH]; intros y z E; cbn [fold_left]; [exact E|]. apply IH.
  destruct y as [t h phs], z as [t2 h2 phs2]. destruct E as (Et & Eh & Ep). cbn in Et, Eh, Ep. subst t2 h2.
  destruct x as [i n|p n]; cbn [sys_step y_tree y_hist y_phases]; [|repeat split; exact Ep].
  destruct (nth_error jobs i) as [j|]; [|repeat split; exact Ep].
  destruct (nth_error phs i) as [ph|] eqn:N.
  - destruct (Forall2_nth _ _ _ _ _ _ _ Ep N) as (ph2 & -> & Eph).
    destruct (job_step tl s pr j n t h ph) as [[t' h'] ph'] eqn:J. destruct (job_step_elsewhere _ _ _ _ _ _ _ _ _ _ _ G Eph J) as (ph2' & -> & E').
    repeat split; cbn. apply Forall2_set; assumption.
  - rewrite (Forall2_nth_none _ _ _ _ _ _ Ep N). repeat split; exact Ep.
Qed.
Lemma finish_elsewhere : forall phs phs2 r, Forall2 phase_eq phs phs2 -> finish phs r -> finish phs2 r.
Proof.
  intros phs phs2 r E F.
  assert (B : forall q, In q phs2 -> exists p, In p phs /\ phase_eq p q).
  { intros q I. clear F. induction E as [|x y l l' Rxy _ IH]; [destruct I|]. destruct I as [<-|I]; [exists x; split; [left; reflexivity|exact Rxy]|].
    destruct (IH I) as (p & Ip & R). exists p. split; [right; exact Ip|exact R]. }
  assert (D : forall p q, phase_eq p q -> ended p -> p = q) by (intros [| | | | | |] q R En; try contradiction; exact R).
  destruct F as [A|e A I].
  - apply Fin_ok. intros q Iq. destruct (B q Iq) as (p & Ip & R). destruct (A p Ip) as (b & ->). exists b. symmetry. exact (D _ _ R Logic.I).
  - apply Fin_failed.
    + intros q Iq. destruct (B q Iq) as (p & Ip & R). rewrite <- (D _ _ R (A p Ip)). exact (A p Ip).
    + clear B A. induction E as [|x y l l' Rxy _ IH]; [destruct I|]. destruct I as [->|I]; [left; symmetry; exact (D _ _ Rxy Logic.I)|right; auto].
Qed.
End Elsewhere.

Lemma common_run_elsewhere : forall tl a pr h0 t0 p1 sched t h lines r out2 ask2, same_files t0 (fst p1) ->
  (forall c, configured tl a t0 c -> same_offered tl a c out2 ask2) ->
  common_run tl a pr h0 p1 sched t h lines r -> common_run (elsewhere tl out2 ask2) a pr h0 p1 sched t h lines r.
Proof.
  intros tl a pr h0 t0 p1 sched t h lines r out2 ask2 Sf So H.
  assert (Cc : forall t2 h2 r2, setup tl a t2 h0 = (h2, r2) -> same_files t0 t2 ->
    setup (elsewhere tl out2 ask2) a t2 h0 = (h2, r2)).
  { intros t2 h2 r2 S Sg. destruct (get_trust_config (world_at tl t2) (ca_trust_config a) (ca_instance a) (ca_staging a) false) as [c|e] eqn:Gc.
    - rewrite <- S. apply (setup_elsewhere tl a c); [|exact Gc]. apply So. apply (configured_same tl a t2); [|exact Gc]. intros q. symmetry. apply Sg.
    - unfold setup, signing_config in *. change (world_at (elsewhere tl out2 ask2) t2) with (world_at tl t2). rewrite Gc in *. exact S. }
  destruct H as [t2 e|t2 m h2 e S|t2 m h2 s sched y r S Y F]; cbn [fst] in Sf.
  - constructor.
  - apply Run_no_signer. apply Cc; assumption.
  - assert (Gs : exists c, configured tl a t0 c /\ good_context tl a c (sg_ctx s)).
    { pose proof S as S'. unfold setup in S'. apply mbind_inv in S'. destruct S' as [(e & _ & X)|(h1 & c' & X & _)]; [discriminate|].
      apply lift_ok in X. destruct X as [_ X]. apply signing_configured in X. destruct X as (c & Cf & _). exists c.
      split; [apply (configured_same tl a t2); [intros q; symmetry; apply Sf|exact Cf]|]. exact (proj2 (setup_grown tl a c _ _ _ _ Cf S) s eq_refl). }
    destruct Gs as (c & Cf & G).
    destruct (sys_run_elsewhere tl a c out2 ask2 (So c Cf) s pr (jobs_of m) G sched (sys_start (jobs_of m) t2 h2) (sys_start (jobs_of m) t2 h2)) as (Et & Eh & Ep).
    { split; [reflexivity|]. split; [reflexivity|]. cbn [sys_start y_phases]. generalize (jobs_of m).
      intros js. induction js; cbn [map]; constructor; [reflexivity|assumption]. }
    rewrite Y in Et, Eh, Ep. rewrite Et, Eh.
    apply (Run_jobs (elsewhere tl out2 ask2) a pr h0 t2 m h2 s sched _ r (Cc _ _ _ S Sf) eq_refl). exact (finish_elsewhere _ _ _ Ep F).
Qed.

(** Nothing else in the network can make a difference: where every other service answers differently
    or not at all, the command does the same and ends the same. *)
Theorem C100_sign_no_other_services : forall tl a t0 h0 sched t h lines r out2 ask2,
  (forall c, configured tl (sa_common a) t0 c -> same_offered tl (sa_common a) c out2 ask2) ->
  sign_run tl a t0 h0 sched t h lines r -> sign_run (elsewhere tl out2 ask2) a t0 h0 sched t h lines r.
Proof.
  intros tl a t0 h0 sched t h lines r out2 ask2 So H. unfold sign_run in *. change (sign_prepare (elsewhere tl out2 ask2) a t0) with (sign_prepare tl a t0).
  destruct (sign_prepare tl a t0) as [t1 r1] eqn:Pr.
  eapply common_run_elsewhere; [|exact So|exact H]. apply sign_prepare_prepared in Pr. apply grows_files, Pr.
Qed.
Theorem C100_attest_no_other_services : forall tl a t0 h0 sched t h lines r out2 ask2,
  (forall c, configured tl (aa_common a) t0 c -> same_offered tl (aa_common a) c out2 ask2) ->
  attest_run tl a t0 h0 sched t h lines r -> attest_run (elsewhere tl out2 ask2) a t0 h0 sched t h lines r.
Proof.
  intros tl a t0 h0 sched t h lines r out2 ask2 So H. unfold attest_run in *. change (attest_prepare (elsewhere tl out2 ask2) a t0) with (attest_prepare tl a t0).
  destruct (attest_prepare tl a t0) as [t1 r1] eqn:Pr. apply attest_prepare_prepared in Pr. assert (S : same_files t0 t1) by (apply grows_files, Pr).
  destruct r1 as [[m j]|e]; (eapply common_run_elsewhere; [|exact So|exact H]; exact S).
Qed.

(** ** Examples *)

(** a configuration of logs of both versions, of which the user may choose; one of the timestamp
    authorities and one of the CAs are of an unknown version, and a log is not in force any more *)
Definition svx_config (_ : str) (_ : bool) : res ClientTrustConfig := Ok (mkCTC vx_tr
  (mkSCM SIGNING_CONFIG_0_2
    [mkService (s2l "https://log1.example") 1 None (s2l "r"); mkService (s2l "https://log2.example") 2 None (s2l "r");
     mkService (s2l "https://old.example") 2 (Some (mkTimeRange 0%Z (Some 1%Z))) (s2l "r")] None
    [mkService (s2l "https://tsa9.example") 9 None (s2l "t"); mkService (s2l "https://tsa.example") 1 None (s2l "t")] None
    [mkService (s2l "https://ca9.example") 9 None (s2l "f"); sc_svc 1 "f"] nil) None).
Definition svx_world : World :=
  mkWorld [s2l "home"] (fun _ => None) (fun _ => Raise EValue) (fun _ => Raise EPydantic) (fun _ => None) (fun _ => Raise EValue)
    svx_config (fun _ _ => Raise EConnection) rkx_rp vx_now (fun _ => vx_now).
Definition svx_tools : Tools :=
  mkTools svx_world (sy_libs sy_far) csx_out (tl_json csx_tools) (tl_text csx_tools) csx_dump csx_token (tl_detect csx_tools) (tl_interactive csx_tools) csx_to_json.
Definition svx_args (version : option Z) : SignArgs :=
  mkSA (mkCA [csx_a] false None (s2l "sigstore") None false None false version None None false false) None None None None false.
Definition svx_events (h : history) : list (list str) :=
  map (fun ev => match ev with EvCsr u _ => [s2l "ca"; u] | EvTsa u _ => [s2l "tsa"; u] | EvLog r => [s2l "log"; dec_Z (request_version r)] | _ => nil end) h.
Definition svx_requests (h : history) : list (list str) := filter (fun l => negb (is_empty l)) (svx_events h).

(** what is asked, without and with a choice of the version: the newest log that is in force, and
    never the CA and the authority of the unknown version *)
Example ex_services : forall version, version = None \/ version = Some 2%Z ->
  exists t h lines, sign_run svx_tools (svx_args version) csx_tree nil (turns (repeat 0 40)) t h lines (Ok tt) /\
    svx_requests h = [[s2l "ca"; s2l "https://x"]; [s2l "tsa"; s2l "https://tsa.example"]; [s2l "log"; s2l "2"]].
Proof.
  intros version H.
  destruct (exec_run svx_tools (sa_common (svx_args version)) None nil (sign_prepare svx_tools (svx_args version) csx_tree) (turns (repeat 0 40))
    (fun y _ => svx_requests (y_hist y) = [[s2l "ca"; s2l "https://x"]; [s2l "tsa"; s2l "https://tsa.example"]; [s2l "log"; s2l "2"]])) as (y & l & R & E).
  - destruct H as [->| ->]; vm_compute; reflexivity.
  - exists (y_tree y), (y_hist y), l. split; [exact R|exact E].
Qed.
(** a run of which a job fails *)
Definition first_failure (phs : list phase) : option exn :=
  match flat_map (fun ph => match ph with Ph_failed e => [e] | _ => nil end) phs with e :: _ => Some e | nil => None end.
Definition exec_failed (tl : Tools) (a : CommonArgs) (p1 : tree * res OutputMap) (sched : list act) : option (Sys * exn) :=
  match p1 with
  | (t1, Ok m) =>
    match setup tl a t1 nil with
    | (h, Ok s) =>
      let y := sys_run tl s None (jobs_of m) sched (sys_start (jobs_of m) t1 h) in
      if forallb (fun ph => match ph with Ph_done _ | Ph_failed _ => true | _ => false end) (y_phases y)
      then match first_failure (y_phases y) with Some e => Some (y, e) | None => None end else None
    | _ => None
    end
  | _ => None
  end.
Lemma exec_failed_run : forall tl a p1 sched (P : Sys -> exn -> Prop),
  match exec_failed tl a p1 sched with Some (y, e) => P y e | None => False end ->
  exists y e, common_run tl a None nil p1 sched (y_tree y) (y_hist y) nil (main_handler (ca_verbose a) (Raise e)) /\ P y e.
Proof.
  intros tl a [t1 [m|e]] sched P H; unfold exec_failed in H; [|contradiction].
  destruct (setup tl a t1 nil) as [h [s|e]] eqn:S; [|contradiction].
  set (y := sys_run tl s None (jobs_of m) sched (sys_start (jobs_of m) t1 h)) in *. cbv zeta in H.
  destruct (forallb _ (y_phases y)) eqn:D; [|contradiction]. destruct (first_failure (y_phases y)) as [e|] eqn:Ff; [|contradiction].
  exists y, e. split; [|assumption]. refine (Run_jobs tl a None nil t1 m h s sched y (Raise e) S eq_refl _). apply Fin_failed.
  - intros ph I. rewrite forallb_forall in D. apply D in I. destruct ph; try discriminate; exact Logic.I.
  - unfold first_failure in Ff. destruct (flat_map _ (y_phases y)) as [|e' r] eqn:Fm; [discriminate|]. inversion Ff; subst e'.
    assert (I : In e (flat_map (fun ph => match ph with Ph_failed e => [e] | _ => nil end) (y_phases y))) by (rewrite Fm; left; reflexivity).
    apply in_flat_map in I. destruct I as (ph & Ip & I). destruct ph; try contradiction. destruct I as [<-|[]]. exact Ip.
Qed.
(** an older log, if the user wants it; here it gives an answer that is not understood *)
Example ex_services_v1 : exists t h r,
  sign_run svx_tools (svx_args (Some 1%Z)) csx_tree nil (turns (repeat 0 40)) t h nil r /\ r <> Ok tt /\
  svx_requests h = [[s2l "ca"; s2l "https://x"]; [s2l "tsa"; s2l "https://tsa.example"]; [s2l "log"; s2l "1"]].
Proof.
  destruct (exec_failed_run svx_tools (sa_common (svx_args (Some 1%Z))) (sign_prepare svx_tools (svx_args (Some 1%Z)) csx_tree) (turns (repeat 0 40))
    (fun y _ => svx_requests (y_hist y) = [[s2l "ca"; s2l "https://x"]; [s2l "tsa"; s2l "https://tsa.example"]; [s2l "log"; s2l "1"]])) as (y & e & R & E).
  - vm_compute. reflexivity.
  - eexists. eexists. eexists. split; [exact R|]. split; [apply main_handler_raise|exact E].
Qed.
(** a version that no log has *)
Example ex_services_v3 : exists t h r, sign_run svx_tools (svx_args (Some 3%Z)) csx_tree nil nil t h nil r /\ r <> Ok tt /\ h = nil.
Proof.
  unfold sign_run. destruct (sign_prepare svx_tools (svx_args (Some 3%Z)) csx_tree) as [t1 [m|e]] eqn:Pr.
  - destruct (setup svx_tools (sa_common (svx_args (Some 3%Z))) t1 nil) as [h [s|e]] eqn:Se.
    + exfalso. assert (X : match snd (setup svx_tools (sa_common (svx_args (Some 3%Z))) t1 nil) with Ok _ => False | Raise _ => True end) by (vm_compute; exact I).
      rewrite Se in X. exact X.
    + exists t1, h. eexists. split; [apply Run_no_signer; exact Se|]. split; [apply main_handler_raise|].
      change h with (fst (h, @Raise Signer e)). rewrite <- Se. vm_compute. reflexivity.
  - exists t1, nil. eexists. split; [constructor|]. split; [apply main_handler_raise|reflexivity].
Qed.

(** a network in which only what the configuration offers can be reached *)
Definition svx_out2 : Outside :=
  mkOutside (fun _ => sy_start) sy_pub (fun _ k s d => toy_sign s (sk_pub k) d)
    (fun _ rq => match rq with POST u _ => if str_eqb u (s2l "https://x/api/v2/signingCert") then sy_fulcio rq else Raise EConnection | _ => Raise EConnection end)
    (fun _ sg => Ok sg)
    (fun _ rq => match rq with POST u _ => if str_eqb u (s2l "https://tsa.example") then sy_tsa rq else Raise EConnection | _ => Raise EConnection end)
    (fun _ rq => match rq with POST u _ => if str_eqb u (s2l "https://log2.example/api/v2/log/entries") then Ok (mkResp 201 nil (Some (JInt 2)) nil) else Raise EConnection | _ => Raise EConnection end).
Example ex_services_same : forall c, configured svx_tools (sa_common (svx_args (Some 2%Z))) csx_tree c ->
  same_offered svx_tools (sa_common (svx_args (Some 2%Z))) c svx_out2 (fun _ _ _ _ => Raise EKey).
Proof.
  intros c Cf. assert (E : Ok c = svx_config nil false) by (unfold configured in Cf; rewrite <- Cf; reflexivity). inversion E; subst c. clear E Cf. split.
  - intros h. split; [reflexivity|]. split; [reflexivity|]. split; [reflexivity|]. split; [reflexivity|]. split; [|split; [|split]].
    + intros u v r (s & Is & (V & _) & <-) J. cbn [scm_cas ctc_signing] in Is. destruct Is as [<-|[<-|[]]]; [destruct V as [V|[]]; discriminate|].
      assert (J' : v = s2l "https://x/api/v2/signingCert") by (vm_compute in J; vm_compute; congruence). subst v. clear J.
      cbn [o_fulcio svx_out2]. rewrite str_eqb_refl. reflexivity.
    + intros u b (s & Is & (V & _) & <-). cbn [scm_tsas ctc_signing] in Is. destruct Is as [<-|[<-|[]]]; [destruct V as [V|[]]; discriminate|].
      cbn [sv_url o_tsa svx_out2]. rewrite str_eqb_refl. reflexivity.
    + intros u r (_ & V & _). specialize (V 2%Z eq_refl). discriminate.
    + intros u r (_ & _ & (s & Is & (V & _ & F) & <-)). cbn [scm_tlogs ctc_signing] in Is. destruct Is as [<-|[<-|[<-|[]]]].
      * destruct V as [V|[]]; discriminate.
      * cbn [sv_url o_log svx_out2].
        change (s2l "https://log2.example" ++ s2l "/api/v2/log/entries") with (s2l "https://log2.example/api/v2/log/entries"). rewrite str_eqb_refl. reflexivity.
      * specialize (F eq_refl _ _ eq_refl eq_refl). vm_compute in F. exfalso. apply F. reflexivity.
  - intros u id secret oob [U|[_ (s & Is & _)]]; [discriminate|]. destruct Is.
Qed.
(** the same run there *)
Example ex_services_elsewhere : exists t h lines, sign_run (elsewhere svx_tools svx_out2 (fun _ _ _ _ => Raise EKey)) (svx_args (Some 2%Z)) csx_tree nil (turns (repeat 0 40)) t h lines (Ok tt).
Proof.
  destruct (ex_services (Some 2%Z) (or_intror eq_refl)) as (t & h & lines & R & _). exists t, h, lines.
  apply C100_sign_no_other_services; [exact ex_services_same|exact R].
Qed.

Print Assumptions C100_sign_services.
Print Assumptions C100_attest_services.
Print Assumptions C100_sign_no_other_services.
Print Assumptions C100_attest_no_other_services.
