(** Property C112: the redirect server lives as long as the login, and leaving it never hangs. *)
From Coq Require Import Lia.
From Verif Require Import Base Messages Env Codec PyText Json Oidc Http ToyEnv Oauth OauthServer PropsOidc PropsOauth.
From Verif Require Url.

(** ** Specification

    [lrun l]: [l] can be reached, with any interleaving of the two threads and any requests of any local
    processes.  [lsteps n l l']: [n] steps of either thread lead from [l] to [l'].  What the server has answered is
    [w_log (lf_world l)].  [W_left] is where [identity_token] goes on with the code, or raises. *)

(** the [with] statement is being left: [__exit__] has been called *)
Definition leaving (l : life) : Prop := lf_with l = W_shutdown \/ lf_with l = W_wait \/ lf_with l = W_join.
(** the thread of the server runs *)
Definition serving (l : life) : Prop :=
  lf_with l = W_body /\ lf_loop l <> L_finally_flag /\ lf_loop l <> L_finally_event /\ lf_loop l <> L_ended.

(** ** Proofs *)

Section Proofs.
Variables (env : Env) (ul : Url.UrlLib) (se : Session) (force : bool) (max_reads : nat).
Notation step := (lstep env ul se force max_reads).
Notation steps := (lsteps env ul se force max_reads).
Notation run := (lrun env ul se force max_reads).

Lemma steps_app : forall n l l1, steps n l l1 -> forall m l2, steps m l1 l2 -> steps (n + m) l l2.
Proof. induction 1 as [l|n l l1 l2 S R IH]; intros m l3 T; [exact T|]. cbn [Nat.add]. econstructor; [exact S|]. apply IH, T. Qed.
Lemma run_more : forall l n l', run l -> steps n l l' -> run l'.
Proof. intros l n l' (k & R) S. exists (k + n). eapply steps_app; eassumption. Qed.
Lemma run_ind' : forall P : life -> Prop, P lf_init -> (forall l l', run l -> P l -> step l l' -> P l') -> forall l, run l -> P l.
Proof.
  intros P P0 PS l (n & R). assert (G : forall n l1 l2, steps n l1 l2 -> run l1 -> P l1 -> P l2).
  { clear l n R. induction 1 as [l|n l l1 l2 S R IH]; intros Rl Pl; [exact Pl|]. apply IH.
    - eapply run_more; [exact Rl|]. econstructor; [exact S|constructor].
    - eapply PS; eassumption. }
  eapply G; [exact R| |exact P0]. exists 0. constructor.
Qed.

Record inv (l : life) : Prop := {
  v_world : wrun env ul se force (lf_world l);
  v_idle : lf_loop l <> L_get -> w_server (lf_world l) = S_idle;
  v_event : lf_event l = true <-> lf_loop l = L_ended;
  v_new : lf_with l = W_enter <-> lf_loop l = L_new;
  v_flag : lf_with l = W_enter \/ lf_with l = W_body \/ lf_with l = W_shutdown -> lf_flag l = false;
  v_asked : lf_with l = W_wait \/ lf_with l = W_join \/ lf_with l = W_left -> lf_flag l = true \/ lf_loop l = L_finally_event \/ lf_loop l = L_ended;
  v_ended : lf_with l = W_join \/ lf_with l = W_left -> lf_loop l = L_ended;
  v_reads : forall n, lf_loop l = L_read n -> n <= max_reads
}.
Lemma main_keeps_server : forall w w', by_main env ul se force w w' -> w_server w' = w_server w.
Proof. intros w w' [S N]. inversion S; subst; cbn [w_server w_main] in *; try reflexivity; congruence. Qed.
Lemma inv_run : forall l, run l -> inv l.
Proof.
  apply run_ind'.
  - constructor; cbn; try (split; congruence); try congruence; try tauto; try constructor; intros; try discriminate; intuition discriminate.
  - intros l l' _ [V1 V2 V3 V4 V5 V6 V7 V8] S. inversion S; subst; cbn [lf_world lf_loop lf_flag lf_event lf_with] in *; constructor; cbn [lf_world lf_loop lf_flag lf_event lf_with].
    all: try assumption.
    all: try (intros; discriminate).
    all: try (intros; intuition congruence).
all: try (destruct H as [Hs _]; eapply wr_step; eassumption).
    + intros N. rewrite (main_keeps_server _ _ H). apply V2, N.
    + intros n E. injection E as <-. apply le_n.
    + intros k E. injection E as <-. specialize (V8 _ eq_refl). lia.
Qed.

(** how many steps are left once the flag is set *)
Definition loop_rank (l : life) : nat :=
  match lf_loop l with
  | L_ended => 0 | L_finally_event => 1 | L_finally_flag => 2 | L_test => 3 | L_retest _ => 3 | L_select => 4
  | L_get => 3 + match w_server (lf_world l) with S_idle => 3 | S_check _ => 2 | S_set _ => 1 end
  | L_read n => 7 + n
  | L_setup => 4 | L_begin => 5 | L_new => 6
  end.
Definition with_rank (l : life) : nat := match lf_with l with W_wait => 2 | W_join => 1 | _ => 0 end.
Definition late (l : life) : Prop := lf_with l = W_wait \/ lf_with l = W_join \/ lf_with l = W_left.
Lemma late_step : forall l l', inv l -> late l -> step l l' -> late l' /\ loop_rank l' + with_rank l' < loop_rank l + with_rank l.
Proof.
  intros l l' V La S. pose proof (v_asked _ V La) as A. pose proof (v_idle _ V) as Id. unfold late, loop_rank, with_rank in *.
  inversion S; subst; cbn [lf_world lf_loop lf_flag lf_event lf_with] in *; try (exfalso; intuition discriminate).
  all: try (split; [solve [auto]|]).
  all: try lia.
  all: try (rewrite Id by discriminate).
  all: try lia.
  - destruct H as [Hs Hm]. inversion Hs; subst; cbn [w_server w_main] in *; try congruence; lia.
  - destruct H as [Hs Hm]. inversion Hs; subst; cbn [w_server w_main] in *; try congruence; lia.
Qed.
Lemma late_steps : forall n l l', steps n l l' -> run l -> late l -> n + (loop_rank l' + with_rank l') <= loop_rank l + with_rank l.
Proof.
  induction 1 as [l|n l l1 l2 S R IH]; intros Rl La; [lia|].
  destruct (late_step _ _ (inv_run _ Rl) La S) as [La1 D]. assert (R1 : run l1) by (eapply run_more; [exact Rl|econstructor; [exact S|constructor]]).
  specialize (IH R1 La1). lia.
Qed.

Lemma late_stays : forall n l l', steps n l l' -> run l -> late l -> late l'.
Proof.
  induction 1 as [l|n l l1 l2 S R IH]; intros Rl La; [exact La|]. apply IH.
  - eapply run_more; [exact Rl|econstructor; [exact S|constructor]].
  - apply (late_step _ _ (inv_run _ Rl) La S).
Qed.
(** the world always has a step of the server that answers or drops the request *)
Lemma server_moves : forall w, exists w', by_server env ul se force w w'.
Proof.
  intros [p o r s m g]. destruct s as [|uri|uri].
  - eexists. split; [apply ws_lost|reflexivity].
  - destruct p; eexists; (split; [constructor|reflexivity]).
  - destruct (auth_url env se uri) as [url|e] eqn:A.
    + destruct (latin1 url) eqn:La; eexists.
      * split; [eapply ws_set; eassumption|reflexivity].
      * split; [eapply ws_set_bad|reflexivity]. intros u E. rewrite A in E. injection E as <-. exact La.
    + eexists. split; [eapply ws_set_bad|reflexivity]. intros u E. rewrite A in E. discriminate.
Qed.
Lemma loop_moves : forall l, lf_loop l <> L_new -> lf_loop l <> L_ended -> exists l', step l l'.
Proof.
  intros [w p f e c] N1 N2. cbn [lf_loop] in *. destruct p; try congruence; try (eexists; apply ls_select_bad); try (eexists; constructor; fail).
  - destruct f; eexists; constructor.
  - destruct f; [eexists; constructor|]. destruct ready; eexists; constructor.
  - destruct (server_moves w) as (w' & S). destruct (w_server w') as [|u|u] eqn:Q.
    + eexists. eapply ls_answered; eassumption.
    + eexists. eapply ls_get; [eassumption|]. rewrite Q. discriminate.
    + eexists. eapply ls_get; [eassumption|]. rewrite Q. discriminate.
Qed.
Lemma leaving_moves : forall l, inv l -> leaving l -> exists l', step l l'.
Proof.
  intros l V Le. destruct Le as [E|[E|E]].
  - destruct l as [w p f e c]. cbn [lf_with] in E. subst c. eexists. constructor.
  - assert (D : lf_loop l = L_ended \/ lf_loop l <> L_ended) by (destruct (lf_loop l); first [left; reflexivity|right; discriminate]).
    destruct D as [D|D].
    + pose proof (proj2 (v_event _ V) D) as Ev. destruct l as [w p f e c]. cbn [lf_with lf_loop lf_event] in *. subst. eexists. constructor.
    + apply loop_moves; [|exact D]. intros Q. apply (v_new _ V) in Q. congruence.
  - pose proof (v_ended _ V (or_introl E)) as D. destruct l as [w p f e c]. cbn [lf_with lf_loop] in *. subst. eexists. constructor.
Qed.
(** the loop can always come back to its test *)
Definition back (l l1 : life) : Prop := exists n more, steps n l l1 /\ lf_loop l1 = L_test /\ lf_flag l1 = false /\ lf_with l1 = W_body /\ w_server (lf_world l1) = S_idle /\
  w_main (lf_world l1) = w_main (lf_world l) /\ w_response (lf_world l1) = None /\ w_log (lf_world l1) = w_log (lf_world l) ++ more /\ length more <= 1.
Ltac rest := cbn [lf_loop lf_flag lf_with lf_world w_server w_main w_response w_log]; repeat split; try reflexivity; try assumption; try (rewrite app_nil_r; reflexivity); cbn [length]; try lia.
Lemma get_back : forall w e, w_response w = None -> exists l1, back (mkLife w L_get false e W_body) l1.
Proof.
  intros [p o r s m g] e Rn. cbn [w_response] in Rn. subst r. destruct s as [|uri|uri].
  - eexists; exists 1, [O_dropped]; split; [econstructor; [eapply ls_answered; [split; [apply ws_lost|reflexivity]|reflexivity]|constructor]|rest].
  - destruct p.
    + eexists; exists 1, [O_dropped]; split; [econstructor; [eapply ls_answered; [split; [apply ws_check_bad|reflexivity]|reflexivity]|constructor]|rest].
    + destruct (server_moves (Oauth.mkWorld false o None (S_set uri) m g)) as (w' & [Hs Hm]).
      inversion Hs; subst; cbn [w_main] in *; try congruence.
      * eexists; exists 2, [O_redirect url]; split; [econstructor; [eapply ls_get; [split; [apply ws_check_good|reflexivity]|discriminate]|econstructor; [eapply ls_answered; [split; [exact Hs|reflexivity]|reflexivity]|constructor]]|rest].
      * eexists; exists 2, [O_dropped]; split; [econstructor; [eapply ls_get; [split; [apply ws_check_good|reflexivity]|discriminate]|econstructor; [eapply ls_answered; [split; [exact Hs|reflexivity]|reflexivity]|constructor]]|rest].
  - destruct (server_moves (Oauth.mkWorld p o None (S_set uri) m g)) as (w' & [Hs Hm]).
    inversion Hs; subst; cbn [w_main] in *; try congruence.
    + eexists; exists 1, [O_redirect url]; split; [econstructor; [eapply ls_answered; [split; [exact Hs|reflexivity]|reflexivity]|constructor]|rest].
    + eexists; exists 1, [O_dropped]; split; [econstructor; [eapply ls_answered; [split; [exact Hs|reflexivity]|reflexivity]|constructor]|rest].
Qed.
Lemma come_back : forall l, inv l -> serving l -> w_response (lf_world l) = None -> exists l1, back l l1.
Proof.
  intros l V (Wb & N1 & N2 & N3) Rn. pose proof (v_flag _ V (or_intror (or_introl Wb))) as F. pose proof (v_idle _ V) as Id. pose proof (proj2 (v_new _ V)) as Nw.
  destruct l as [w p f e c]. cbn [lf_world lf_loop lf_flag lf_event lf_with] in *. subst f c. destruct p; try congruence.
  - discriminate (Nw eq_refl).
  - specialize (Id ltac:(discriminate)). eexists; exists 2, (@nil oevent); split; [econstructor; [apply ls_clear|econstructor; [apply ls_setup|constructor]]|rest].
  - specialize (Id ltac:(discriminate)). eexists; exists 1, (@nil oevent); split; [econstructor; [apply ls_setup|constructor]|rest].
  - specialize (Id ltac:(discriminate)). eexists; exists 0, (@nil oevent); split; [constructor|rest].
  - specialize (Id ltac:(discriminate)). eexists; exists 2, (@nil oevent); split; [econstructor; [apply (ls_select _ _ _ _ _ _ _ _ _ false)|econstructor; [apply ls_retest_idle|constructor]]|rest].
  - specialize (Id ltac:(discriminate)). destruct ready; eexists; exists 1, (@nil oevent); (split; [econstructor; [first [apply ls_no_connection|apply ls_retest_idle]|constructor]|rest]).
  - destruct (get_back w e Rn) as (l1 & k & more & St & R). exists l1, (S k), more. split; [econstructor; [apply ls_request|exact St]|exact R].
  - destruct (get_back w e Rn) as (l1 & R). exists l1. exact R.
Qed.
End Proofs.

(** *** After [identity_token] has left the [with] statement nothing is answered any more: the thread of the server
    has ended, and neither thread does anything to the other. *)
Theorem C112_silent_afterwards : forall env ul se force max_reads l n l',
  lrun env ul se force max_reads l -> lf_with l = W_left -> lsteps env ul se force max_reads n l l' ->
  lf_loop l = L_ended /\ w_log (lf_world l') = w_log (lf_world l) /\ l' = l.
Proof.
  intros env ul se force mr l n l' R L S. pose proof (v_ended _ _ _ _ _ _ (inv_run _ _ _ _ _ _ R) (or_intror L)) as E. split; [exact E|].
  assert (Q : l' = l); [|subst l'; split; reflexivity].
  destruct S as [l|n l l1 l2 S _]; [reflexivity|]. exfalso. inversion S; subst; cbn [lf_loop lf_with] in *; discriminate.
Qed.

(** *** Leaving never hangs.  The thread that leaves first sets the flag, which it can always do; from then on at most
    [max_reads + 9] steps of both threads together are possible, whatever clients do, and as long as the statement is
    not left one of them is. *)
Theorem C112_leaving : forall env ul se force max_reads l,
  lrun env ul se force max_reads l ->
  (lf_with l = W_shutdown -> exists l', lstep env ul se force max_reads l l' /\ lf_with l' = W_wait /\ lf_world l' = lf_world l) /\
  (lf_with l = W_wait \/ lf_with l = W_join -> forall n l', lsteps env ul se force max_reads n l l' ->
    n <= max_reads + 9 /\ (leaving l' \/ lf_with l' = W_left) /\
    (leaving l' -> exists l'', lstep env ul se force max_reads l' l'')).
Proof.
  intros env ul se force mr l R. split.
  - intros E. destruct l as [w p f e c]. cbn [lf_with] in E. subst c. eexists. split; [constructor|split; reflexivity].
  - intros E n l' S. assert (La : late l) by (unfold late; tauto). pose proof (late_steps _ _ _ _ _ _ _ _ S R La) as B.
    pose proof (late_stays _ _ _ _ _ _ _ _ S R La) as La'. split; [|split].
    + pose proof (v_reads _ _ _ _ _ _ (inv_run _ _ _ _ _ _ R)) as Vr. unfold loop_rank, with_rank in B.
      assert (lf_loop l = L_new -> False) by (intros Q; apply (v_new _ _ _ _ _ _ (inv_run _ _ _ _ _ _ R)) in Q; destruct E; congruence).
      destruct (lf_loop l); destruct E as [-> | ->] in B; destruct (w_server (lf_world l)) in B; try specialize (Vr _ eq_refl); lia.
    + unfold leaving, late in *. tauto.
    + intros Le. apply leaving_moves; [|exact Le]. apply inv_run. eapply run_more; eassumption.
Qed.

(** *** The answers of Oauth.v: every run of the server inside its loop is one of the runs of C51 and C52. *)
Theorem C112_refines : forall env ul se force max_reads l, lrun env ul se force max_reads l -> wrun env ul se force (lf_world l).
Proof. intros env ul se force mr l R. apply (v_world _ _ _ _ _ _ (inv_run _ _ _ _ _ _ R)). Qed.

(** *** While the statement is left, requests may still be answered, but they change nothing for the login. *)
Theorem C112_result_kept : forall env ul se force max_reads l n l',
  lrun env ul se force max_reads l -> leaving l -> lsteps env ul se force max_reads n l l' ->
  w_main (lf_world l') = w_main (lf_world l) /\ w_oob (lf_world l') = w_oob (lf_world l).
Proof.
  intros env ul se force mr l n l' R Le S. assert (Out : lf_with l <> W_enter /\ lf_with l <> W_body) by (unfold leaving in Le; split; intuition congruence). clear R Le.
  induction S as [l|n l l1 l2 S T IH]; [split; reflexivity|].
  assert (Q : w_main (lf_world l1) = w_main (lf_world l) /\ w_oob (lf_world l1) = w_oob (lf_world l) /\ lf_with l1 <> W_enter /\ lf_with l1 <> W_body).
  { destruct Out as [O1 O2]. inversion S; subst; cbn [lf_world lf_with] in *; try (repeat split; solve [reflexivity|assumption|discriminate]); try congruence.
    - destruct H as [Hs Hm]. repeat split; try assumption. inversion Hs; subst; cbn [w_main w_oob] in *; try reflexivity; congruence.
    - destruct H as [Hs Hm]. repeat split; try assumption. inversion Hs; subst; cbn [w_main w_oob] in *; try reflexivity; congruence. }
  destruct Q as (Q1 & Q2 & Q3). destruct (IH Q3) as [I1 I2]. split; congruence.
Qed.

(** *** As long as the login waits, the callback can be answered: the server is not stopped too early. *)
Theorem C112_callback_answered : forall env ul se force max_reads l path q,
  lrun env ul se force max_reads l -> serving l -> w_response (lf_world l) = None ->
  Oauth.split_path ul path = Some (s2l "/auth/callback", q) ->
  exists n l' more, lsteps env ul se force max_reads n l l' /\ lf_with l' = W_body /\
    w_main (lf_world l') = w_main (lf_world l) /\ w_response (lf_world l') = Some (Url.parse_qs ul q) /\
    w_log (lf_world l') = w_log (lf_world l) ++ more ++ [O_callback path] /\ length more <= 1.
Proof.
  intros env ul se force mr l path q R Sv Rn U. destruct (come_back _ _ _ _ _ _ (inv_run _ _ _ _ _ _ R) Sv Rn) as (l1 & n & more & S & E1 & E2 & E3 & E4 & E5 & E6 & E7 & E8).
  destruct l1 as [w p f e c]. cbn [lf_world lf_loop lf_flag lf_with] in *. subst p f c. destruct w as [po o r s m g]. cbn [w_server w_main w_response w_log] in *. subst s r m g.
  assert (T : lsteps env ul se force mr 5 (mkLife (Oauth.mkWorld po o None S_idle (w_main (lf_world l)) (w_log (lf_world l) ++ more)) L_test false e W_body)
    (mkLife (Oauth.mkWorld po o (Some (Url.parse_qs ul q)) S_idle (w_main (lf_world l)) ((w_log (lf_world l) ++ more) ++ [O_callback path])) L_test false e W_body)).
  { econstructor; [apply ls_test_on|]. econstructor; [apply (ls_select _ _ _ _ _ _ _ _ _ true)|]. econstructor; [apply ls_retest_ready|]. econstructor; [apply ls_request|].
    econstructor; [|constructor]. eapply ls_answered; [split; [apply ws_callback; exact U|reflexivity]|reflexivity]. }
  eexists (n + 5), _, more. split; [eapply steps_app; [exact S|exact T]|]. cbn [lf_with lf_world w_main w_response w_log]. repeat split; [|exact E8]. rewrite app_assoc. reflexivity.
Qed.

(** *** Expected, but not so: a login whose server has failed ends with an error.  If the loop of the server ends by an
    error of the operating system (no selector, for instance for lack of file descriptors), the login waits for ever;
    only an interrupt ends it. *)
Theorem C112_failed_server_noticed_refuted : forall env ul se max_reads,
  exists l, lrun env ul se false max_reads l /\ lf_loop l = L_ended /\ w_main (lf_world l) = M_wait /\
    forall l', lstep env ul se false max_reads l l' -> lf_with l' = W_shutdown /\ w_main (lf_world l') = M_wait.
Proof.
  intros env ul se mr. exists (mkLife (Oauth.mkWorld false false None S_idle M_wait nil) L_ended false true W_body). split; [|split; [reflexivity|split; [reflexivity|]]].
  - exists 6. unfold lf_init, w_init. econstructor; [apply ls_start|]. econstructor; [apply ls_clear|]. econstructor; [apply ls_no_selector|]. econstructor; [apply ls_finally_flag|].
    econstructor; [apply ls_finally_event|]. econstructor; [apply ls_body; split; [apply ws_opened; reflexivity|discriminate]|constructor].
  - intros l' S. inversion S; subst; try (split; reflexivity). match goal with H : by_main _ _ _ _ _ _ |- _ => destruct H as [Hs Hm] end. inversion Hs; subst; cbn [w_main] in *; congruence.
Qed.

(** *** Expected, but not so: leaving takes at most the second after which a connection is closed.  A client of the server
    that sends its request slowly delays it by as many pieces as it likes, up to the limits of the library. *)
Theorem C112_leaving_prompt_refuted : forall env ul se force max_reads k, k <= max_reads ->
  exists l l', lrun env ul se force max_reads l /\ lf_with l = W_wait /\ lsteps env ul se force max_reads k l l' /\ lf_with l' = W_wait /\ w_log (lf_world l') = nil.
Proof.
  intros env ul se force mr k Hk. exists (mkLife w_init (L_read mr) true false W_wait), (mkLife w_init (L_read (mr - k)) true false W_wait). split; [|split; [reflexivity|split; [|split; reflexivity]]].
  - exists 8. unfold lf_init. econstructor; [apply ls_start|]. econstructor; [apply ls_clear|]. econstructor; [apply ls_setup|]. econstructor; [apply ls_test_on|].
    econstructor; [apply (ls_select _ _ _ _ _ _ _ _ _ true)|]. econstructor; [apply ls_retest_ready|]. econstructor; [apply ls_interrupted|]. econstructor; [apply ls_shutdown|constructor].
  - assert (G : forall k m, k <= m -> lsteps env ul se force mr k (mkLife w_init (L_read m) true false W_wait) (mkLife w_init (L_read (m - k)) true false W_wait)).
    { clear k Hk. induction k as [|k IH]; intros m Hm; [rewrite Nat.sub_0_r; constructor|]. destruct m as [|m]; [lia|]. econstructor; [apply ls_read|]. apply IH. lia. }
    apply G, Hk.
Qed.

(** A complete login: the callback is answered, the code is taken, and the server ends. *)
Example ex_login : exists l, lrun ox_env oa_url oa_se false 3 l /\ lf_with l = W_left /\ w_main (lf_world l) = M_done (Ok (s2l "c")) /\
  w_log (lf_world l) = [O_callback (s2l "/auth/callback?state=st-1&code=c")].
Proof.
  eexists. split.
  - exists 18. unfold lf_init, w_init. econstructor; [apply ls_start|]. econstructor; [apply ls_clear|]. econstructor; [apply ls_body; split; [apply ws_opened; reflexivity|discriminate]|].
    econstructor; [apply ls_setup|]. econstructor; [apply ls_test_on|]. econstructor; [apply (ls_select _ _ _ _ _ _ _ _ _ true)|]. econstructor; [apply ls_retest_ready|].
    econstructor; [apply ls_read|]. econstructor; [apply ls_request|].
    econstructor; [eapply ls_answered; [split; [apply (ws_callback _ _ _ _ _ _ _ _ (s2l "/auth/callback?state=st-1&code=c") (s2l "state=st-1&code=c")); reflexivity|reflexivity]|reflexivity]|].
    econstructor; [apply ls_body; split; [apply ws_poll|discriminate]|]. econstructor; [eapply ls_body_done; reflexivity|].
    econstructor; [apply ls_shutdown|]. econstructor; [apply ls_test_off|]. econstructor; [apply ls_finally_flag|]. econstructor; [apply ls_finally_event|].
    econstructor; [apply ls_waited|]. econstructor; [apply ls_joined|constructor].
  - cbn [lf_with lf_world w_main w_log]. split; [reflexivity|]. split; [vm_compute; reflexivity|reflexivity].
Qed.

Print Assumptions C112_silent_afterwards.
Print Assumptions C112_leaving.
Print Assumptions C112_refines.
Print Assumptions C112_result_kept.
Print Assumptions C112_callback_answered.
Print Assumptions C112_failed_server_noticed_refuted.
Print Assumptions C112_leaving_prompt_refuted.
