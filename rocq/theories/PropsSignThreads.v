(** Property C84: threads that share a signer do not interfere with each other. *)
From Verif Require Import Base Codec Messages Env Keyring MerkleSpec Json Oidc Http LogEntry Cert Sct Dsse PropsDsse KeyDetails Policy TrustedRoot
  PropsTrustedRoot Hashing Bundle PropsBundle Verifier VerifierSpec PropsVerifier SigningConfig RekorClient PropsRekorClient Clients
  PropsClients Sign SignProofs PropsSign SignSteps ToyEnv ToyBundles ToySign.

(** ** Specification *)

(** [out'] gives no other answers than [out], only at other moments; keys may have other numbers *)
Definition draws_from (out out' : Outside) : Prop :=
  exists (moment : history -> history) (key : PrivKey -> PrivKey),
    (forall k, sk_pub (key k) = sk_pub k) /\
    forall h,
      o_clock out' h = o_clock out (moment h) /\ o_pub out' h = o_pub out (moment h) /\
      (forall k sc d, o_sign out' h k sc d = o_sign out (moment h) (key k) sc d) /\
      o_fulcio out' h = o_fulcio out (moment h) /\ o_tsa_query out' h = o_tsa_query out (moment h) /\
      o_tsa out' h = o_tsa out (moment h) /\ o_log out' h = o_log out (moment h).

(** the same event, but for the number of a key *)
Definition same_event (e e' : event) : Prop :=
  match e, e' with
  | EvKey k, EvKey k' => sk_pub k = sk_pub k'
  | EvSign k sc, EvSign k' sc' => sk_pub k = sk_pub k' /\ sc = sc'
  | _, _ => e = e'
  end.

(** [all] consists of the elements of the lists [ls], those of each list in their order *)
Inductive shuffle {A} : list (list A) -> list A -> Prop :=
| Sh_none : forall n, shuffle (repeat nil n) nil
| Sh_one : forall ls i l x all, shuffle ls all -> nth_error ls i = Some l -> shuffle (replace_nth ls i (l ++ [x])) (all ++ [x]).

(** the number of steps that a schedule gives to a thread *)
Definition turns_of (sched : list nat) (i : nat) : nat := count_occ Nat.eq_dec sched i.

(** ** Proofs: programs *)

Lemma exec_bind : forall A B (p : prog A) (f : A -> prog B) h,
  exec (pbind p f) h = mbind (exec p) (fun a => exec (f a)) h.
Proof.
  intros A B p f. induction p as [r|ev k IH]; intros h.
  - destruct r; reflexivity.
  - cbn [pbind exec]. rewrite IH. unfold mbind. cbn [exec]. reflexivity.
Qed.
Lemma mbind_ext : forall A B (m m' : M A) (f f' : A -> M B) h,
  m h = m' h -> (forall a g, f a g = f' a g) -> mbind m f h = mbind m' f' h.
Proof. intros A B m m' f f' h E F. unfold mbind. rewrite E. destruct (m' h) as [h1 [a|e]]; [apply F|reflexivity]. Qed.

Section Exec.
Variable libs : SignLibs.
Variable out : Outside.

Lemma exec_private_key : forall s h, exec (p_private_key out s) h = private_key out s h.
Proof. intros s h. unfold p_private_key, private_key. destruct (sg_key s); reflexivity. Qed.
Lemma exec_signer_cert : forall s h, exec (p_signer_cert libs out s) h = signer_cert libs out s h.
Proof.
  intros s h. unfold p_signer_cert, signer_cert. destruct (sg_cert s) as [c|].
  - rewrite exec_bind. apply mbind_ext; [reflexivity|]. intros a g. destruct (c_not_after c <? a)%Z; reflexivity.
  - rewrite exec_bind. apply mbind_ext; [reflexivity|]. intros a g.
    rewrite exec_bind. apply mbind_ext; [reflexivity|]. intros ok g1. destruct (negb ok); [reflexivity|].
    unfold build_csr. rewrite exec_bind. unfold mbind at 1 2 3.
    rewrite exec_private_key. destruct (private_key out s g1) as [g2 [k|e]]; [|reflexivity]. cbn [ret].
    rewrite exec_bind. apply mbind_ext; [reflexivity|]. intros cc g3.
    rewrite exec_bind. apply mbind_ext; [reflexivity|]. intros t g4.
    rewrite exec_bind. apply mbind_ext; [reflexivity|]. intros kr g5.
    rewrite exec_bind. apply mbind_ext; reflexivity.
Qed.
Lemma exec_tsa_loop : forall us sg acc h, exec (p_tsa_loop libs out us sg acc) h = tsa_loop libs out us sg acc h.
Proof.
  induction us as [|u us IH]; intros sg acc h; [reflexivity|]. cbn [p_tsa_loop tsa_loop exec]. unfold ask_tsa, step.
  destruct (request_timestamp _ _ _ _ _) as [t|e]; [apply IH|]. destruct (exn_eqb e ETimestamp); [apply IH|reflexivity].
Qed.
Lemma exec_finalize : forall s cert c req h, exec (p_finalize libs out s cert c req) h = finalize_sign libs out s cert c req h.
Proof.
  intros s cert c req h. unfold p_finalize, finalize_sign. rewrite exec_bind. apply mbind_ext; [apply exec_tsa_loop|]. intros ts g.
  rewrite exec_bind. apply mbind_ext; reflexivity.
Qed.
Lemma exec_sign_prehashed : forall k d h, exec (p_sign_prehashed out k d) h = sign_prehashed out k d h.
Proof. intros k d h. unfold p_sign_prehashed, sign_prehashed. destruct (Nat.eqb (length d) 32); reflexivity. Qed.

(** run without interruption, the programs are the operations of Sign.v *)
Lemma exec_op : forall s o h, exec (p_op libs out s o) h = run_op libs out s o h.
Proof.
  intros s [i|st] h; cbn [p_op run_op].
  - unfold p_sign_artifact, sign_artifact. rewrite exec_bind. apply mbind_ext; [apply exec_signer_cert|]. intros cert g.
    rewrite exec_bind. apply mbind_ext; [apply exec_private_key|]. intros k g1.
    rewrite exec_bind. apply mbind_ext; [reflexivity|]. intros _ g2.
    rewrite exec_bind. apply mbind_ext; [apply exec_sign_prehashed|]. intros sg g3.
    rewrite exec_bind. apply mbind_ext; [reflexivity|]. intros digest g4.
    rewrite exec_bind. apply mbind_ext; [reflexivity|]. intros sg' g5.
    rewrite exec_bind. apply mbind_ext; [reflexivity|]. intros req g6. apply exec_finalize.
  - unfold p_sign_dsse, sign_dsse. rewrite exec_bind. apply mbind_ext; [apply exec_signer_cert|]. intros cert g.
    rewrite exec_bind. apply mbind_ext; [apply exec_private_key|]. intros k g1.
    rewrite exec_bind. apply mbind_ext; [reflexivity|]. intros e g2.
    rewrite exec_bind. apply mbind_ext; [reflexivity|]. intros req g3. apply exec_finalize.
Qed.
End Exec.

(** ** Proofs: the same program with answers from other moments *)

Section Moments.
Variable libs : SignLibs.
Variable out : Outside.
Variable f : nat -> history.    (* the moment of the step that is taken after a history of this length *)
Variable g : nat -> nat.        (* the number of a key *)

Definition key_of (k : PrivKey) : PrivKey := mkPriv (g (sk_id k)) (sk_pub k).
Definition moved : Outside := mkOutside
  (fun h => o_clock out (f (length h))) (fun h => o_pub out (f (length h)))
  (fun h k => o_sign out (f (length h)) (key_of k))
  (fun h => o_fulcio out (f (length h))) (fun h => o_tsa_query out (f (length h)))
  (fun h => o_tsa out (f (length h))) (fun h => o_log out (f (length h))).

Lemma moved_draws : draws_from out moved.
Proof. exists (fun h => f (length h)), key_of. split; [reflexivity|]. intros h. repeat split. Qed.

Inductive moves {A} (V : A -> A -> Prop) : nat -> prog A -> prog A -> Prop :=
| Mv_ok : forall n a a', V a a' -> moves V n (P_done (Ok a)) (P_done (Ok a'))
| Mv_raise : forall n e, moves V n (P_done (Raise e)) (P_done (Raise e))
| Mv_next : forall n ev k ev' k',
    (forall h, length h = n -> same_event (ev (f n)) (ev' h)) ->
    (forall h, length h = n -> moves V (S n) (k (f n)) (k' h)) ->
    moves V n (P_next ev k) (P_next ev' k').

Lemma moves_bind : forall A B (V : A -> A -> Prop) (W : B -> B -> Prop) n p p' q q',
  moves V n p p' -> (forall m a a', V a a' -> moves W m (q a) (q' a')) -> moves W n (pbind p q) (pbind p' q').
Proof.
  intros A B V W n p p' q q' H Q. induction H as [n a a' v|n e|n ev k ev' k' E _ IH]; cbn [pbind].
  - apply Q. assumption.
  - constructor.
  - constructor; assumption.
Qed.
Lemma moves_done : forall A n (r : res A), moves eq n (P_done r) (P_done r).
Proof. intros A n [a|e]; constructor. reflexivity. Qed.
Lemma moves_step : forall A n (V : A -> A -> Prop) ev ev' r r',
  (forall h, length h = n -> same_event (ev (f n)) (ev' h)) ->
  (forall h, length h = n -> moves V (S n) (P_done (r (f n))) (P_done (r' h))) ->
  moves V n (pstep ev r) (pstep ev' r').
Proof. intros A n V ev ev' r r' E R. unfold pstep. constructor; assumption. Qed.
Lemma same_event_refl : forall e, same_event e e.
Proof. intros [k|t|u r|k s|u s|r]; cbn; auto. Qed.

Lemma moves_clock : forall n, moves eq n (p_clock out) (p_clock moved).
Proof.
  intros n. apply moves_step; intros h L; unfold moved; cbn [o_clock]; rewrite L; [apply same_event_refl|]. constructor. reflexivity.
Qed.

Definition same_key (k k' : PrivKey) : Prop := k = key_of k'.

Section Signer.
Variable s : Signer.
(** the numbers of keys generated on the way *)
Hypothesis Hg : match sg_key s with Some k => key_of k = k | None => forall n, g n = length (f n) end.

Lemma moves_private_key : forall n, moves same_key n (p_private_key out s) (p_private_key moved s).
Proof.
  intros n. unfold p_private_key. destruct (sg_key s) as [k|].
  - constructor. symmetry. exact Hg.
  - apply moves_step; intros h L; unfold moved; cbn [o_pub]; rewrite L.
    + reflexivity.
    + constructor. unfold same_key, key_of. cbn [sk_id sk_pub]. rewrite Hg. reflexivity.
Qed.
Lemma moves_signer_cert : forall n, moves eq n (p_signer_cert libs out s) (p_signer_cert libs moved s).
Proof.
  intros n. unfold p_signer_cert. destruct (sg_cert s) as [c|].
  - eapply moves_bind; [apply moves_clock|]. intros m a a' ->. destruct (c_not_after c <? a')%Z; apply moves_done.
  - eapply moves_bind; [apply moves_clock|]. intros m a a' ->.
    eapply moves_bind; [apply moves_done|]. intros m1 ok ok' ->. destruct (negb ok'); [apply moves_done|].
    eapply moves_bind; [apply moves_private_key|]. intros m2 k k' Ek.
    eapply moves_bind with (V := eq).
    { replace (sk_pub k) with (sk_pub k') by (rewrite Ek; reflexivity).
      apply moves_step; intros h L; [apply same_event_refl|]. unfold moved. cbn [o_fulcio]. rewrite L. apply moves_done. }
    intros m3 cc cc' ->. eapply moves_bind; [apply moves_clock|]. intros m4 t t' ->.
    eapply moves_bind; [apply moves_done|]. intros m5 kr kr' ->.
    eapply moves_bind; [apply moves_done|]. intros m6 _ _ _. apply moves_done.
Qed.
Lemma moves_tsa_loop : forall us sg acc n, moves eq n (p_tsa_loop libs out us sg acc) (p_tsa_loop libs moved us sg acc).
Proof.
  induction us as [|u us IH]; intros sg acc n; cbn [p_tsa_loop]; [apply moves_done|].
  constructor; intros h L; [apply same_event_refl|]. unfold moved at 1 2. cbn [o_tsa o_tsa_query]. rewrite L.
  destruct (request_timestamp _ _ _ _ _) as [t|e]; [apply IH|]. destruct (exn_eqb e ETimestamp); [apply IH|apply moves_done].
Qed.
Lemma moves_finalize : forall cert c req n, moves eq n (p_finalize libs out s cert c req) (p_finalize libs moved s cert c req).
Proof.
  intros cert c req n. unfold p_finalize. eapply moves_bind; [apply moves_tsa_loop|]. intros m ts ts' ->.
  eapply moves_bind with (V := eq).
  { apply moves_step; intros h L; [apply same_event_refl|].
    assert (E : create_entry libs moved h (cp_rekor (sg_ctx s)) req = create_entry libs out (f m) (cp_rekor (sg_ctx s)) req).
    { unfold create_entry, moved. cbn [o_log]. rewrite L. reflexivity. }
    rewrite E. apply moves_done. }
  intros m1 e e' ->. apply moves_done.
Qed.
Lemma moves_op : forall o n, moves eq n (p_op libs out s o) (p_op libs moved s o).
Proof.
  intros [i|st] n; cbn [p_op].
  - unfold p_sign_artifact. eapply moves_bind; [apply moves_signer_cert|]. intros m cert cert' ->.
    eapply moves_bind; [apply moves_private_key|]. intros m1 k k' Ek.
    eapply moves_bind; [apply moves_done|]. intros m2 _ _ _.
    eapply moves_bind with (V := eq).
    { unfold p_sign_prehashed. destruct (Nat.eqb _ 32); [|apply moves_done]. apply moves_step; intros h L.
      - rewrite Ek. cbn. auto.
      - unfold moved. cbn [o_sign]. rewrite L, <- Ek. apply moves_done. }
    intros m3 sg sg0 ->. eapply moves_bind; [apply moves_done|]. intros m4 d d' ->.
    eapply moves_bind; [apply moves_done|]. intros m5 x x' ->.
    eapply moves_bind; [apply moves_done|]. intros m6 req req' ->. apply moves_finalize.
  - unfold p_sign_dsse. eapply moves_bind; [apply moves_signer_cert|]. intros m cert cert' ->.
    eapply moves_bind; [apply moves_private_key|]. intros m1 k k' Ek.
    eapply moves_bind with (V := eq).
    { apply moves_step; intros h L.
      - rewrite Ek. cbn. auto.
      - unfold moved. cbn [o_sign]. rewrite L, <- Ek. apply moves_done. }
    intros m2 e e' ->. eapply moves_bind; [apply moves_done|]. intros m3 req req' ->. apply moves_finalize.
Qed.
End Signer.

(** what a program did: the moments of its steps, and its events *)
Inductive did {A} : prog A -> list (history * event) -> prog A -> Prop :=
| Did_none : forall p, did p nil p
| Did_next : forall ev k h st q, did (k h) st q -> did (P_next ev k) ((h, ev h) :: st) q.

Lemma did_snoc : forall A (p : prog A) st ev k h, did p st (P_next ev k) -> did p (st ++ [(h, ev h)]) (k h).
Proof.
  intros A p st ev k h H. remember (P_next ev k) as q eqn:Q. induction H as [p|ev0 k0 h0 st q H IH].
  - subst p. cbn. constructor. constructor.
  - cbn. constructor. apply IH. assumption.
Qed.

Lemma did_exec : forall A n p p', moves (@eq A) n p p' -> forall st r h, did p st (P_done r) -> length h = n ->
  (forall j x, nth_error st j = Some x -> f (n + j) = fst x) ->
  exists l, exec p' h = (h ++ l, r) /\ Forall2 same_event (map snd st) l.
Proof.
  intros A n p p' H. induction H as [n a a' v|n e|n ev k ev' k' E _ IH]; intros st r h P L F.
  - inversion P; subst. exists nil. cbn. rewrite app_nil_r. split; [reflexivity|constructor].
  - inversion P; subst. exists nil. cbn. rewrite app_nil_r. split; [reflexivity|constructor].
  - inversion P; subst. pose proof (F 0 _ eq_refl) as F0. cbn [fst] in F0. rewrite Nat.add_0_r in F0.
    destruct (IH h eq_refl st0 r (h ++ [ev' h])) as (l & Ex & Fa).
    + rewrite F0. assumption.
    + rewrite app_length. cbn. lia.
    + intros j x J. rewrite <- (F (S j) x J). f_equal. lia.
    + exists (ev' h :: l). cbn [exec]. rewrite Ex, <- app_assoc. split; [reflexivity|].
      cbn [map snd]. constructor; [|assumption]. rewrite <- F0. apply E. reflexivity.
Qed.
End Moments.

(** ** Proofs: threads *)

Lemma replace_nth_same : forall A (l : list A) i x, i < length l -> nth_error (replace_nth l i x) i = Some x.
Proof. induction l as [|y l IH]; intros [|i] x H; cbn in *; try lia; [reflexivity|]. apply IH. lia. Qed.
Lemma replace_nth_other : forall A (l : list A) i j x, i <> j -> nth_error (replace_nth l i x) j = nth_error l j.
Proof. induction l as [|y l IH]; intros [|i] [|j] x H; cbn; try reflexivity; try congruence. apply IH. congruence. Qed.
Lemma replace_nth_length : forall A (l : list A) i x, length (replace_nth l i x) = length l.
Proof. induction l as [|y l IH]; intros [|i] x; cbn; auto. Qed.
Lemma replace_nth_map : forall A B (f : A -> B) l i x, replace_nth (map f l) i (f x) = map f (replace_nth l i x).
Proof. induction l as [|y l IH]; intros [|i] x; cbn; try reflexivity. rewrite IH. reflexivity. Qed.
Lemma nth_error_lt : forall A (l : list A) i x, nth_error l i = Some x -> i < length l.
Proof. intros A l i x H. apply nth_error_Some. congruence. Qed.
Lemma nth_error_map_inv : forall A B (f : A -> B) l i y, nth_error (map f l) i = Some y -> exists x, nth_error l i = Some x /\ y = f x.
Proof.
  induction l as [|x l IH]; intros [|i] y H; cbn in H; try discriminate.
  - exists x. split; [reflexivity|congruence].
  - apply IH in H. exact H.
Qed.

Section Threads.
Variable libs : SignLibs.
Variable out : Outside.
Variable s : Signer.
Variable os : list op.
Variable h0 : history.

(** a step was taken at its moment *)
Definition happened (h : history) (x : history * event) : Prop :=
  exists a z, fst x = h0 ++ a /\ h = fst x ++ snd x :: z.

Definition so_far (y : Threads) : Prop :=
  exists all sts, th_hist y = h0 ++ all /\ length sts = length os /\ shuffle (map (map snd) sts) all /\
    length (th_progs y) = length os /\
    forall i o, nth_error os i = Some o -> exists st p, nth_error sts i = Some st /\ nth_error (th_progs y) i = Some p /\
      did (p_op libs out s o) st p /\ Forall (happened (th_hist y)) st.

Lemma happened_more : forall h e x, happened h x -> happened (h ++ [e]) x.
Proof.
  intros h e x (a & z & E & H). exists a, (z ++ [e]). split; [assumption|]. rewrite H, <- app_assoc. reflexivity.
Qed.

Lemma start_so_far : so_far (mkThreads h0 (map (p_op libs out s) os)).
Proof.
  exists nil, (repeat nil (length os)). cbn [th_hist th_progs]. rewrite app_nil_r, repeat_length, map_length.
  split; [reflexivity|]. split; [reflexivity|]. split.
  { replace (map (map snd) (repeat (@nil (history * event)) (length os))) with (repeat (@nil event) (length os)); [constructor|].
    induction (length os); cbn; congruence. }
  split; [reflexivity|]. intros i o H. exists nil, (p_op libs out s o).
  split. { apply nth_error_lt in H. clear - H. revert i H. induction (length os) as [|n IH]; intros i H; [lia|].
           destruct i; cbn; [reflexivity|]. apply IH. lia. }
  split; [apply map_nth_error; assumption|]. split; constructor.
Qed.
Lemma step_so_far : forall y i, so_far y -> so_far (thread_step y i).
Proof.
  intros y i (all & sts & H & L & Sh & Lp & Th). unfold thread_step.
  destruct (nth_error (th_progs y) i) as [[r|ev k]|] eqn:P; [exists all, sts; auto| |exists all, sts; auto].
  assert (Li : i < length os) by (rewrite <- Lp; eapply nth_error_lt; eassumption).
  destruct (nth_error os i) as [o|] eqn:O; [|apply nth_error_None in O; lia].
  destruct (Th i o O) as (st & p & St & P' & Pa & Ha). assert (p = P_next ev k) by congruence. subst p.
  exists (all ++ [ev (th_hist y)]), (replace_nth sts i (st ++ [(th_hist y, ev (th_hist y))])). cbn [th_hist th_progs].
  split; [rewrite H at 1; rewrite <- app_assoc; reflexivity|]. rewrite !replace_nth_length.
  split; [assumption|]. split.
  { rewrite <- replace_nth_map, map_app. cbn [map snd]. constructor; [assumption|]. apply map_nth_error. assumption. }
  split; [assumption|]. intros j o' O'. destruct (Nat.eq_dec i j) as [<-|N].
  - assert (o' = o) by congruence. subst o'. exists (st ++ [(th_hist y, ev (th_hist y))]), (k (th_hist y)).
    split; [apply replace_nth_same; lia|]. split; [apply replace_nth_same; lia|]. split; [apply did_snoc; assumption|].
    apply Forall_app. split.
    + eapply Forall_impl; [|exact Ha]. intros x. apply happened_more.
    + constructor; [|constructor]. exists all, nil. auto.
  - rewrite !replace_nth_other by assumption. destruct (Th j o' O') as (st' & p' & St' & P'' & Pa' & Ha'). exists st', p'.
    split; [assumption|]. split; [assumption|]. split; [assumption|].
    eapply Forall_impl; [|exact Ha']. intros x. apply happened_more.
Qed.
Lemma threads_so_far : forall sched, so_far (threads libs out s os sched h0).
Proof.
  intros sched. unfold threads. generalize start_so_far. generalize (mkThreads h0 (map (p_op libs out s) os)) as y.
  induction sched as [|i sched IH]; intros y H; cbn [fold_left]; [assumption|]. apply IH. apply step_so_far. assumption.
Qed.

(** a thread that has returned, run alone *)
Definition moments (st : list (history * event)) (n : nat) : history :=
  match nth_error st (n - length h0) with Some x => fst x | None => nil end.
Definition numbers (st : list (history * event)) (n : nat) : nat :=
  match sg_key s with Some _ => n | None => length (moments st n) end.

Lemma alone : forall o st r, did (p_op libs out s o) st (P_done r) ->
  exists l, run_op libs (moved out (moments st) (numbers st)) s o h0 = (h0 ++ l, r) /\ Forall2 same_event (map snd st) l.
Proof.
  intros o st r P. rewrite <- exec_op.
  assert (Hg : match sg_key s with Some k => key_of (numbers st) k = k | None => forall n, numbers st n = length (moments st n) end).
  { unfold numbers. destruct (sg_key s) as [k|]; [destruct k; reflexivity|reflexivity]. }
  apply (did_exec (moments st) (numbers st) _ _ _ _ (moves_op libs out (moments st) (numbers st) s Hg o (length h0)) st r h0 P eq_refl).
  intros j x J. unfold moments. replace (length h0 + j - length h0) with j by lia. rewrite J. reflexivity.
Qed.
End Threads.

(** ** C84 *)

Lemma happened_moved : forall libs out s h0 h o st r l,
  Forall (happened h0 h) st -> did (p_op libs out s o) st (P_done r) -> Forall2 same_event (map snd st) l ->
  forall l1 e l2, l = l1 ++ e :: l2 -> exists a e' z, same_event e' e /\ h = h0 ++ a ++ e' :: z /\
    moments h0 st (length (h0 ++ l1)) = h0 ++ a.
Proof.
  intros libs out s h0 h o st r l Ha P F l1 e l2 ->. clear P.
  apply Forall2_app_inv_r in F. destruct F as (m1 & m2 & F1 & F2 & M). inversion F2; subst.
  assert (X : exists st1 x0 st2, st = st1 ++ x0 :: st2 /\ map snd st1 = m1 /\ snd x0 = x).
  { clear - M. revert m1 M. induction st as [|y st IH]; intros [|y1 m1] M; cbn in M; try discriminate.
    - exists nil, y, st. repeat split; cbn; congruence.
    - assert (map snd st = m1 ++ x :: l) by congruence. destruct (IH _ H) as (st1 & x0 & st2 & -> & E1 & E2).
      exists (y :: st1), x0, st2. cbn. split; [reflexivity|]. split; [congruence|assumption]. }
  destruct X as (st1 & x0 & st2 & -> & E1 & E2). rewrite Forall_forall in Ha.
  destruct (Ha x0 (in_elt _ _ _)) as (a & z & Ea & Hh). exists a, x, z. split; [assumption|].
  split; [rewrite Hh, Ea, E2, <- app_assoc; reflexivity|]. unfold moments. rewrite app_length.
  replace (length h0 + length l1 - length h0) with (length st1).
  - rewrite nth_error_app2, Nat.sub_diag by lia. cbn. assumption.
  - apply Forall2_length in F1. rewrite <- E1, map_length in F1. lia.
Qed.

(** Whatever the schedule: the history consists of the steps of the threads, and what a thread
    returns, and the steps that it takes, are those of its operation run alone, with answers that
    were given to it at the time. *)
Theorem C84_as_if_alone : forall libs out s os sched h0,
  let y := threads libs out s os sched h0 in
  exists all owns, th_hist y = h0 ++ all /\ length owns = length os /\ shuffle owns all /\
  forall i o own r, nth_error os i = Some o -> nth_error owns i = Some own -> returned y i = Some r ->
  exists out' l, draws_from out out' /\ run_op libs out' s o h0 = (h0 ++ l, r) /\ Forall2 same_event own l.
Proof.
  intros libs out s os sched h0 y. destruct (threads_so_far libs out s os h0 sched) as (all & sts & H & L & Sh & Lp & Th).
  exists all, (map (map snd) sts). split; [assumption|]. split; [rewrite map_length; assumption|]. split; [assumption|].
  intros i o own r O W R. destruct (Th i o O) as (st & p & St & P & Pa & Ha).
  apply nth_error_map_inv in W. destruct W as (st' & St' & ->). assert (st' = st) by congruence. subst st'.
  unfold returned in R. fold y in P. rewrite P in R. destruct p as [r'|]; [|discriminate]. assert (r' = r) by congruence. subst r'.
  destruct (alone libs out s h0 o st r Pa) as (l & E & F).
  exists (moved out (moments h0 st) (numbers s h0 st)), l. split; [apply moved_draws|]. auto.
Qed.

(** The bundle of a thread is about its own input and has the log's answer to its own request. *)
Theorem C84_own_artifact : forall libs out s os sched h0 i inp b,
  let y := threads libs out s os sched h0 in
  nth_error os i = Some (Op_artifact inp) -> returned y i = Some (Ok b) ->
  exists a req z cert digest sg,
    th_hist y = h0 ++ a ++ EvLog req :: z /\ log_answer libs out (sg_ctx s) (h0 ++ a) req = Ok (b_entry b) /\
    submits_artifact (cp_rekor (sg_ctx s)) req digest sg cert /\
    sha256_digest (l_env libs) inp = mkHashed HA_SHA2_256 digest /\
    bm_msig (b_inner b) = Some (mkMsgSig (Some (HA_SHA2_256, digest)) sg) /\ bm_env (b_inner b) = None /\
    vm_cert (bm_vm (b_inner b)) = Some (c_der cert).
Proof.
  intros libs out s os sched h0 i inp b y O R. destruct (threads_so_far libs out s os h0 sched) as (all & sts & H & L & Sh & Lp & Th).
  destruct (Th i _ O) as (st & p & St & P & Pa & Ha).
  unfold returned in R. fold y in P. rewrite P in R. destruct p as [r'|]; [|discriminate]. assert (r' = Ok b) by congruence. subst r'.
  destruct (alone libs out s h0 _ st _ Pa) as (l & E & F). cbn [run_op] in E. apply C40_artifact in E.
  destruct E as (l1 & req & cert & digest & sg & Hl & _ & Sa & D & _ & Ms & En & Vc & La).
  apply app_inv_head in Hl. destruct (happened_moved _ _ _ _ _ _ _ _ _ Ha Pa F l1 (EvLog req) nil Hl) as (a & e' & z & Se & Hh & Mo).
  assert (e' = EvLog req) by (destruct e'; cbn in Se; try discriminate; assumption). subst e'.
  exists a, req, z, cert, digest, sg. split; [exact Hh|]. split; [|auto].
  unfold log_answer, create_entry, moved in La. cbn [o_log] in La. rewrite Mo in La. exact La.
Qed.

Theorem C84_own_envelope : forall libs out s os sched h0 i st b,
  let y := threads libs out s os sched h0 in
  nth_error os i = Some (Op_dsse st) -> returned y i = Some (Ok b) ->
  exists a req z cert sg m,
    th_hist y = h0 ++ a ++ EvLog req :: z /\ log_answer libs out (sg_ctx s) (h0 ++ a) req = Ok (b_entry b) /\
    m = mkEnvMsg (st_contents st) (s2l "application/vnd.in-toto+json") [sg] /\
    submits_envelope (l_env libs) (cp_rekor (sg_ctx s)) req m sg cert /\
    bm_env (b_inner b) = Some m /\ bm_msig (b_inner b) = None /\
    vm_cert (bm_vm (b_inner b)) = Some (c_der cert).
Proof.
  intros libs out s os sched h0 i st0 b y O R. destruct (threads_so_far libs out s os h0 sched) as (all & sts & H & L & Sh & Lp & Th).
  destruct (Th i _ O) as (st & p & St & P & Pa & Ha).
  unfold returned in R. fold y in P. rewrite P in R. destruct p as [r'|]; [|discriminate]. assert (r' = Ok b) by congruence. subst r'.
  destruct (alone libs out s h0 _ st _ Pa) as (l & E & F). cbn [run_op] in E. apply C40_dsse in E.
  destruct E as (l1 & req & cert & sg & m & Hl & _ & Em & Sa & En & Ms & Vc & La).
  apply app_inv_head in Hl. destruct (happened_moved _ _ _ _ _ _ _ _ _ Ha Pa F l1 (EvLog req) nil Hl) as (a & e' & z & Se & Hh & Mo).
  assert (e' = EvLog req) by (destruct e'; cbn in Se; try discriminate; assumption). subst e'.
  exists a, req, z, cert, sg, m. split; [exact Hh|]. split; [|auto].
  unfold log_answer, create_entry, moved in La. cbn [o_log] in La. rewrite Mo in La. exact La.
Qed.

(** *** honest services are honest at every moment *)

Lemma create_entry_draws : forall libs out out' c, (exists m : history -> history, forall h, o_log out' h = o_log out (m h)) ->
  exists m, forall h req, create_entry libs out' h c req = create_entry libs out (m h) c req.
Proof. intros libs out out' c (m & E). exists m. intros h req. unfold create_entry. rewrite E. reflexivity. Qed.
Lemma draws_honest_log : forall libs out out' ctx ps now v valid, draws_from out out' ->
  honest_log libs out ctx ps now v valid -> honest_log libs out' ctx ps now v valid.
Proof.
  intros libs out out' ctx ps now v valid (m & key & _ & D) (rk & Rk & Hl). exists rk. split; [assumption|].
  intros h req e E. apply (Hl (m h)). unfold log_answer, create_entry in *. destruct (D h) as (_ & _ & _ & _ & _ & _ & <-). exact E.
Qed.
Lemma draws_honest_tsas : forall libs out out' ctx now v valid, draws_from out out' ->
  honest_tsas libs out ctx now v valid -> honest_tsas libs out' ctx now v valid.
Proof.
  intros libs out out' ctx now v valid (m & key & _ & D) (cas & Tc & Ht). exists cas. split; [assumption|].
  intros h url sg t U E. apply (Ht (m h) url sg t U). unfold tsa_answer in *. destruct (D h) as (_ & _ & _ & _ & <- & <- & _). exact E.
Qed.
Lemma draws_sound_keys : forall env out out', draws_from out out' -> sound_keys env out -> sound_keys env out'.
Proof.
  intros env out out' (m & key & Kp & D) (P & Snd). split.
  - intros h. destruct (D h) as (_ & -> & _). apply P.
  - intros h k sc d Sc K. destruct (D h) as (_ & _ & Sg & _). rewrite Sg. rewrite <- (Kp k) in *. apply Snd; assumption.
Qed.

(** What a caching signer returns in threads verifies, as in C37. *)
Theorem C84_signed_in_threads_verifies : forall libs out tok ctx ps now v p h0 h1 s c,
  make_signer libs out tok ctx true h0 = (h1, Ok s) -> sg_cert s = Some c ->
  honest_ca libs out ctx (it_raw tok) now v p ->
  honest_log libs out ctx ps now v (in_validity c) ->
  honest_tsas libs out ctx now v (in_validity c) ->
  sound_keys (l_env libs) out -> length (cp_tsas ctx) <= 32 ->
  forall os sched i o b, nth_error os i = Some o -> returned (threads libs out s os sched h1) i = Some (Ok b) ->
  NoDup (vm_timestamps (bm_vm (b_inner b))) ->
  match o with
  | Op_artifact inp => verify_artifact (l_env libs) ps now v inp b p = Ok tt
  | Op_dsse st => verify_dsse (l_env libs) ps now v b p = Ok (s2l "application/vnd.in-toto+json", st_contents st)
  end.
Proof.
  intros libs out tok ctx ps now v p h0 h1 s c Mk Sc Ca Hl Ht Sk L32 os sched i o b O R Nd.
  destruct (caching_signer _ _ _ _ _ _ _ _ _ _ Mk Ca) as (Cx & Ky & c' & Ce & G). assert (c' = c) by congruence. subst c'.
  destruct (C84_as_if_alone libs out s os sched h1) as (all & owns & _ & Lo & _ & Al).
  destruct (nth_error owns i) as [own|] eqn:W; [|apply nth_error_None in W; apply nth_error_lt in O; lia].
  destruct (Al i o own _ O W R) as (out' & l & D & E & _).
  assert (Kp : pk_kind (sk_pub (mkPriv (length h0) (o_pub out h0))) = KEc P256) by apply (proj1 Sk).
  destruct o as [inp|st]; cbn [run_op] in E.
  - eapply (good_signer_artifact libs out'); eauto using draws_honest_log, draws_honest_tsas, draws_sound_keys.
  - eapply (good_signer_dsse libs out'); eauto using draws_honest_log, draws_honest_tsas, draws_sound_keys.
Qed.

(** *** all steps a program may take *)

Inductive only {A} (P : event -> Prop) : prog A -> Prop :=
| Only_done : forall r, only P (P_done r)
| Only_next : forall ev k, (forall h, P (ev h)) -> (forall h, only P (k h)) -> only P (P_next ev k).
Lemma only_bind : forall A B P (p : prog A) (f : A -> prog B), only P p -> (forall a, only P (f a)) -> only P (pbind p f).
Proof.
  intros A B P p f H F. induction H as [[a|e]|ev k E _ IH]; cbn [pbind]; [apply F|constructor|]. constructor; auto.
Qed.
Lemma only_step : forall A (P : event -> Prop) ev (r : history -> res A), (forall h, P (ev h)) -> only P (pstep ev r).
Proof. intros A P ev r H. constructor; [assumption|]. intros h. constructor. Qed.
Lemma only_did : forall A P (p q : prog A) st, did p st q -> only P p -> Forall P (map snd st).
Proof. intros A P p q st H. induction H as [p|ev k h st q _ IH]; intros O; cbn [map snd]; constructor; inversion O; subst; auto. Qed.

Lemma only_finalize : forall libs out s cert c req, only uses_certificate (p_finalize libs out s cert c req).
Proof.
  intros libs out s cert c req. unfold p_finalize. apply only_bind.
  - generalize (content_signature c) as sg, (@nil TSR) as acc. induction (cp_tsas (sg_ctx s)) as [|u us IH]; intros sg acc; cbn [p_tsa_loop]; [constructor|].
    constructor; [intros h; exact I|]. intros h. destruct (request_timestamp _ _ _ _ _) as [t|e]; [apply IH|].
    destruct (exn_eqb e ETimestamp); [apply IH|constructor].
  - intros ts. apply only_bind; [apply only_step; intros h; exact I|]. intros e. constructor.
Qed.

(** with a cached certificate: one reading of the clock, and the rest only if it has not expired *)
Definition timely {A} (out : Outside) (c : Cert) (p : prog A) : Prop :=
  match p with
  | P_done _ => False
  | P_next ev k => (forall h, ev h = EvClock (o_clock out h)) /\
      forall h, if (c_not_after c <? o_clock out h)%Z then k h = P_done (Raise EExpiredCertificate) else only uses_certificate (k h)
  end.
Lemma cached_op : forall libs out s c k o, sg_cert s = Some c -> sg_key s = Some k -> timely out c (p_op libs out s o).
Proof.
  intros libs out s c k o Ce Ky. destruct o as [i|st]; cbn [p_op]; unfold p_sign_artifact, p_sign_dsse, p_signer_cert; rewrite Ce;
    unfold p_clock, pstep; cbn [pbind timely]; (split; [reflexivity|]); intros h; destruct (c_not_after c <? o_clock out h)%Z; try reflexivity.
  - cbn [pbind pret]. unfold p_private_key. rewrite Ky. cbn [pbind pret]. destruct (as_prehashed _) as [x|e]; cbn [pbind]; [|constructor].
    apply only_bind. { unfold p_sign_prehashed. destruct (Nat.eqb _ 32); [apply only_step; intros g; exact I|constructor]. }
    intros sg. destruct (b64decode _) as [d|e]; cbn [pbind]; [|constructor]. destruct (b64decode _) as [d'|e]; cbn [pbind]; [|constructor].
    destruct (build_hashed_rekord_request _ _ _ _) as [req|e]; cbn [pbind]; [|constructor]. apply only_finalize.
  - cbn [pbind pret]. unfold p_private_key. rewrite Ky. cbn [pbind pret].
    constructor; [intros g; exact I|]. intros g. destruct (dsse_sign _ _) as [e|x]; [|constructor].
    destruct (build_dsse_request _ _ _ _) as [req|x]; [|constructor]. apply only_finalize.
Qed.
Lemma timely_did : forall A out c (p q : prog A) st, timely out c p -> did p st q ->
  st = nil \/ exists h st', st = (h, EvClock (o_clock out h)) :: st' /\ Forall uses_certificate (map snd st') /\
    (st' <> nil -> (o_clock out h <= c_not_after c)%Z).
Proof.
  intros A out c p q st T H. destruct H as [p|ev k h st q H]; [auto|]. right. destruct T as [Ev T]. exists h, st. rewrite Ev.
  split; [reflexivity|]. specialize (T h). destruct (Z.ltb_spec (c_not_after c) (o_clock out h)) as [Lt|Ge].
  - rewrite T in H. inversion H; subst. split; [constructor|congruence].
  - split; [eapply only_did; eassumption|]. intros _. assumption.
Qed.

Lemma shuffle_in : forall A (ls : list (list A)) all, shuffle ls all ->
  forall a x z, all = a ++ x :: z -> exists i l l1 l2, nth_error ls i = Some l /\ l = l1 ++ x :: l2 /\ forall y, In y l1 -> In y a.
Proof.
  intros A ls all H. induction H as [n|ls i l x0 all H IH N]; intros a x z E.
  - destruct a; discriminate.
  - assert (Li : i < length ls) by (eapply nth_error_lt; eassumption).
    assert (Cs : (z = nil /\ a = all /\ x = x0) \/ exists z', z = z' ++ [x0] /\ all = a ++ x :: z').
    { destruct z as [|z0 z1] using rev_ind.
      - left. assert (Q : all ++ [x0] = a ++ [x]) by assumption. apply app_inj_tail in Q. destruct Q; subst; auto.
      - right. exists z1. clear IHz1. assert (Q : all ++ [x0] = (a ++ x :: z1) ++ [z0]) by (rewrite E, <- app_assoc; reflexivity).
        apply app_inj_tail in Q. destruct Q; subst; auto. }
    destruct Cs as [(-> & -> & ->)|(z' & -> & Ea)].
    + exists i, (l ++ [x0]), l, nil. split; [apply replace_nth_same; assumption|]. split; [reflexivity|].
      intros y Iy. clear - H N Iy. revert i l N Iy. induction H as [n|ls j l' x1 all H IH N']; intros i l N Iy.
      * exfalso. apply nth_error_In, repeat_spec in N. subst l. destruct Iy.
      * apply in_or_app. destruct (Nat.eq_dec j i) as [<-|Ne].
        -- rewrite replace_nth_same in N by (eapply nth_error_lt; eassumption). assert (l = l' ++ [x1]) by congruence. subst l.
           apply in_app_or in Iy. destruct Iy as [Iy|Iy]; [left; eapply IH; eassumption|right; assumption].
        -- rewrite replace_nth_other in N by assumption. left. eapply IH; eassumption.
    + destruct (IH a x z' Ea) as (j & l' & l1 & l2 & Nj & El & Il). destruct (Nat.eq_dec i j) as [<-|Ne].
      * assert (Q : l = l1 ++ x :: l2) by congruence. exists i, (l ++ [x0]), l1, (l2 ++ [x0]). split; [apply replace_nth_same; assumption|].
        split; [rewrite Q, <- app_assoc; reflexivity|assumption].
      * exists j, l', l1, l2. rewrite replace_nth_other by assumption. auto.
Qed.

(** Threads that share a caching signer generate no keys and request no certificates, and nothing
    is signed, time-stamped or submitted unless the certificate had not expired when the thread began. *)
Theorem C84_one_certificate : forall libs out tok ctx h0 h s,
  make_signer libs out tok ctx true h0 = (h, Ok s) ->
  exists c, sg_cert s = Some c /\
  forall os sched, exists l, th_hist (threads libs out s os sched h) = h ++ l /\
  (forall ev, In ev l -> match ev with EvKey _ | EvCsr _ _ => False | _ => True end) /\
  forall a ev b, l = a ++ ev :: b -> uses_certificate ev -> exists t, In (EvClock t) a /\ (t <= c_not_after c)%Z.
Proof.
  intros libs out tok ctx h0 h s Mk. apply make_signer_cached in Mk. destruct Mk as (c & _ & _ & Ky & Ce & _).
  exists c. split; [assumption|]. intros os sched. destruct (threads_so_far libs out s os h sched) as (all & sts & H & L & Sh & Lp & Th).
  exists all. split; [assumption|].
  assert (T : forall i own, nth_error (map (map snd) sts) i = Some own ->
    own = nil \/ exists g own', own = EvClock (o_clock out g) :: own' /\ Forall uses_certificate own' /\ (own' <> nil -> (o_clock out g <= c_not_after c)%Z)).
  { intros i own W. apply nth_error_map_inv in W. destruct W as (st & St & ->).
    destruct (nth_error os i) as [o|] eqn:O; [|apply nth_error_None in O; apply nth_error_lt in St; lia].
    destruct (Th i o O) as (st' & p & St' & _ & Pa & _). assert (st' = st) by congruence. subst st'.
    destruct (timely_did _ _ _ _ _ _ (cached_op libs out s c _ o Ce Ky) Pa) as [->|(g & st' & -> & U & V)]; [left; reflexivity|right].
    exists g, (map snd st'). split; [reflexivity|]. split; [assumption|]. intros N. apply V. intros ->. apply N. reflexivity. }
  split.
  - intros ev I. apply in_split in I. destruct I as (a & b & E). destruct (shuffle_in _ _ _ Sh a ev b E) as (i & own & l1 & l2 & W & Eo & _).
    destruct (T i own W) as [->|(g & own' & -> & U & _)]; [destruct l1; discriminate|].
    assert (In ev (EvClock (o_clock out g) :: own')) as [<-|I] by (rewrite Eo; apply in_elt); [exact Logic.I|].
    rewrite Forall_forall in U. apply U in I. destruct ev; auto.
  - intros a ev b E U. destruct (shuffle_in _ _ _ Sh a ev b E) as (i & own & l1 & l2 & W & Eo & Il).
    destruct (T i own W) as [->|(g & own' & -> & _ & V)]; [destruct l1; discriminate|].
    destruct l1 as [|e1 l1]; cbn [app] in Eo; [assert (ev = EvClock (o_clock out g)) by congruence; subst ev; destruct U|].
    exists (o_clock out g). split; [apply Il; left; congruence|]. apply V. assert (own' = l1 ++ ev :: l2) by congruence. subst own'. destruct l1; discriminate.
Qed.

(** *** threads return *)

Inductive within {A} : nat -> prog A -> Prop :=
| Within_done : forall n r, within n (P_done r)
| Within_next : forall n ev k, (forall h, within n (k h)) -> within (S n) (P_next ev k).
Lemma within_more : forall A (p : prog A) n m, within n p -> n <= m -> within m p.
Proof.
  intros A p n m H. revert m. induction H as [n r|n ev k _ IH]; intros m L; [constructor|].
  destruct m as [|m]; [lia|]. constructor. intros h. apply IH. lia.
Qed.
Lemma within_bind : forall A B n m (p : prog A) (f : A -> prog B), within n p -> (forall a, within m (f a)) -> within (n + m) (pbind p f).
Proof.
  intros A B n m p f H F. induction H as [n [a|e]|n ev k _ IH]; cbn [pbind].
  - eapply within_more; [apply F|lia].
  - constructor.
  - cbn [Nat.add]. constructor. assumption.
Qed.
Lemma within_step : forall A ev (r : history -> res A), within 1 (pstep ev r).
Proof. intros A ev r. constructor. intros h. constructor. Qed.
Lemma within_done : forall A n m (r : res A) B (f : A -> prog B), (forall a, within m (f a)) -> m <= n -> within n (pbind (P_done r) f).
Proof. intros A n m r B f F L. apply (within_more _ _ (0 + m)); [|assumption]. apply within_bind; [constructor|assumption]. Qed.

Lemma within_private_key : forall out s, within 1 (p_private_key out s).
Proof. intros out s. unfold p_private_key. destruct (sg_key s); [constructor|apply within_step]. Qed.
Lemma within_cert : forall libs out s, within 4 (p_signer_cert libs out s).
Proof.
  intros libs out s. unfold p_signer_cert. destruct (sg_cert s) as [c|].
  - apply (within_bind _ _ 1 3); [apply within_step|]. intros a. destruct (c_not_after c <? a)%Z; constructor.
  - apply (within_bind _ _ 1 3); [apply within_step|]. intros a. apply (within_done _ _ 3); [|lia]. intros ok. destruct (negb ok); [constructor|].
    apply (within_bind _ _ 1 2); [apply within_private_key|]. intros k. apply (within_bind _ _ 1 1); [apply within_step|]. intros cc.
    apply (within_bind _ _ 1 0); [apply within_step|]. intros t. apply (within_done _ _ 0); [|lia]. intros kr. apply (within_done _ _ 0); [|lia]. constructor.
Qed.
Lemma within_finalize : forall libs out s cert c req, within (length (cp_tsas (sg_ctx s)) + 1) (p_finalize libs out s cert c req).
Proof.
  intros libs out s cert c req. unfold p_finalize. apply within_bind.
  - generalize (content_signature c) as sg, (@nil TSR) as acc. induction (cp_tsas (sg_ctx s)) as [|u us IH]; intros sg acc; cbn [p_tsa_loop length]; [constructor|].
    constructor. intros h. destruct (request_timestamp _ _ _ _ _) as [t|e]; [apply IH|]. destruct (exn_eqb e ETimestamp); [apply IH|constructor].
  - intros ts. apply (within_bind _ _ 1 0); [apply within_step|]. intros e. constructor.
Qed.
Lemma within_op : forall libs out s o, within (7 + length (cp_tsas (sg_ctx s))) (p_op libs out s o).
Proof.
  intros libs out s o. set (n := length (cp_tsas (sg_ctx s))).
  assert (Fn : forall cert c req, within (n + 1) (p_finalize libs out s cert c req)) by (intros; apply within_finalize).
  destruct o as [i|st]; cbn [p_op].
  - apply (within_bind _ _ 4 (3 + n)); [apply within_cert|]. intros cert. apply (within_bind _ _ 1 (2 + n)); [apply within_private_key|]. intros k.
    apply (within_done _ _ (1 + (n + 1))); [|lia]. intros _. apply within_bind. { unfold p_sign_prehashed. destruct (Nat.eqb _ 32); [apply within_step|constructor]. }
    intros sg. apply (within_done _ _ (n + 1)); [|lia]. intros d. apply (within_done _ _ (n + 1)); [|lia]. intros sg'.
    apply (within_done _ _ (n + 1)); [|lia]. intros req. apply Fn.
  - apply (within_bind _ _ 4 (3 + n)); [apply within_cert|]. intros cert. apply (within_bind _ _ 1 (2 + n)); [apply within_private_key|]. intros k.
    apply (within_more _ _ (1 + (n + 1))); [|lia]. apply within_bind; [apply within_step|]. intros e.
    apply (within_done _ _ (n + 1)); [|lia]. intros req. apply Fn.
Qed.

(** A thread that is given enough turns_of returns, whatever the others do. *)
Theorem C84_threads_return : forall libs out s os sched h0 i o,
  nth_error os i = Some o -> 7 + length (cp_tsas (sg_ctx s)) <= turns_of sched i ->
  exists r, returned (threads libs out s os sched h0) i = Some r.
Proof.
  intros libs out s os sched h0 i o O T. unfold threads.
  assert (Go : forall sched y n p, nth_error (th_progs y) i = Some p -> within n p -> n <= turns_of sched i ->
    exists r, returned (fold_left thread_step sched y) i = Some r).
  { clear. induction sched as [|j sched IH]; intros y n p P W T; cbn [fold_left].
    - unfold turns_of in T. cbn in T. assert (n = 0) by lia. subst n. inversion W; subst. exists r. unfold returned. rewrite P. reflexivity.
    - unfold turns_of in T. cbn [count_occ] in T. destruct (Nat.eq_dec j i) as [->|N].
      + destruct p as [r|ev k].
        * apply (IH _ 0 (P_done r)); [|constructor|lia]. unfold thread_step. rewrite P. assumption.
        * inversion W; subst. apply (IH _ n0 (k (th_hist y))); [|apply H1|unfold turns_of; lia].
          unfold thread_step. rewrite P. cbn [th_progs]. apply replace_nth_same. eapply nth_error_lt. eassumption.
      + apply (IH _ n p); [|assumption|exact T]. unfold thread_step.
        destruct (nth_error (th_progs y) j) as [[r|ev k]|]; try assumption. cbn [th_progs]. rewrite replace_nth_other; assumption. }
  eapply Go; [|apply within_op|exact T]. cbn [th_progs]. apply map_nth_error. exact O.
Qed.

(** ** Cases *)

(** C39 says that the latest reading of the clock is within the certificate's validity.  Expected:
    also in threads.  Refuted: a thread goes on with a certificate after another one has found that
    it has expired. *)
Definition tx_signer : Signer := mkSigner sy_token sy_ctx1 (Some (mkPriv 0 sy_key)) (Some (sy_cert (sy_start + 4000000)%Z nil)).
Definition tx_hist : history := fst (make_signer (sy_libs (sy_start + 4000000)%Z) (sy_out (sy_start + 4000000)%Z) sy_token sy_ctx1 true nil).
Theorem C84_latest_reading_refuted :
  exists libs out tok ctx h s c os sched,
    make_signer libs out tok ctx true nil = (h, Ok s) /\ sg_cert s = Some c /\
    let y := threads libs out s os sched h in
    returned y 1 = Some (Raise EExpiredCertificate) /\ (exists b, returned y 0 = Some (Ok b)) /\
    exists a ev z t, th_hist y = h ++ a ++ ev :: z /\ uses_certificate ev /\ last_clock a = Some t /\ (c_not_after c < t)%Z.
Proof.
  exists (sy_libs (sy_start + 4000000)%Z), (sy_out (sy_start + 4000000)%Z), sy_token, sy_ctx1, tx_hist, tx_signer, (sy_cert (sy_start + 4000000)%Z nil),
    [sy_hello; sy_hello], [0; 1; 0; 0].
  split; [vm_compute; reflexivity|]. split; [reflexivity|]. cbv zeta.
  split; [vm_compute; reflexivity|]. split; [eexists; vm_compute; reflexivity|].
  exists [EvClock (sy_start + 4000000)%Z; EvClock (sy_start + 5000000)%Z], (EvSign (mkPriv 0 sy_key) (ECDSA_prehashed SHA256)).
  eexists; eexists. split; [vm_compute; reflexivity|]. split; [exact I|]. split; [reflexivity|]. reflexivity.
Qed.

(** Two threads take turns_of: both return what they would have returned one after the other *)
Definition tx_signer2 : Signer := mkSigner sy_token sy_ctx2 (Some (mkPriv 0 sy_key)) (Some (sy_cert sy_far nil)).
Definition tx_hist2 : history := fst (make_signer (sy_libs sy_far) (sy_out sy_far) sy_token sy_ctx2 true nil).
Definition tx_threads (sched : list nat) : Threads := threads (sy_libs sy_far) (sy_out sy_far) tx_signer2 [sy_hello; sy_dsse] sched tx_hist2.
Example ex_C84_signer : make_signer (sy_libs sy_far) (sy_out sy_far) sy_token sy_ctx2 true nil = (tx_hist2, Ok tx_signer2).
Proof. vm_compute. reflexivity. Qed.
Example ex_C84_alternate : exists b0 b1,
  let y := tx_threads [0; 1; 0; 1; 1; 0; 1; 0; 0; 1] in
  returned y 0 = Some (Ok b0) /\ returned y 1 = Some (Ok b1) /\ length (th_hist y) = length tx_hist2 + 10 /\
  snd (session (sy_libs sy_far) (sy_out sy_far) sy_token sy_ctx2 true [sy_hello; sy_dsse] nil) = [Ok b0; Ok b1].
Proof.
  eexists; eexists. cbv zeta. split; [vm_compute; reflexivity|]. split; [vm_compute; reflexivity|]. split; vm_compute; reflexivity.
Qed.
Example ex_C84_verifies : forall sched b,
  returned (tx_threads sched) 0 = Some (Ok b) -> NoDup (vm_timestamps (bm_vm (b_inner b))) ->
  verify_artifact (sy_env sy_far) (sy_parsers sy_far) vx_now vx_verifier (In_bytes vx_input) b vx_policy = Ok tt.
Proof.
  intros sched b R Nd.
  apply (C84_signed_in_threads_verifies (sy_libs sy_far) (sy_out sy_far) sy_token sy_ctx2 (sy_parsers sy_far) vx_now vx_verifier vx_policy nil
    tx_hist2 tx_signer2 (sy_cert sy_far nil)) with (os := [sy_hello; sy_dsse]) (sched := sched) (i := 0) (o := sy_hello); auto.
  - apply sy_honest_ca.
  - apply sy_honest_log2.
  - apply sy_honest_tsas. unfold sy_far. lia.
  - apply sy_sound.
  - cbn. lia.
Qed.
(** ... and so whoever is first *)
Example ex_C84_returns : forall sched, 9 <= turns_of sched 0 -> 9 <= turns_of sched 1 -> forall i, i < 2 -> exists r, returned (tx_threads sched) i = Some r.
Proof.
  intros sched T0 T1 i Li. destruct i as [|[|i]]; [| |lia];
    (eapply C84_threads_return; [reflexivity|]); unfold tx_signer2; cbn [sg_ctx]; [exact T0|exact T1].
Qed.

Print Assumptions C84_as_if_alone.
Print Assumptions C84_own_artifact.
Print Assumptions C84_own_envelope.
Print Assumptions C84_signed_in_threads_verifies.
Print Assumptions C84_one_certificate.
Print Assumptions C84_threads_return.
Print Assumptions C84_latest_reading_refuted.
