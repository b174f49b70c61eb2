(** C101: threads that share the clients of a signing context do not share HTTP sessions. *)
From Verif Require Import Base Sessions.
From Coq Require Import Lia.

(** ** Specification *)

(** What thread [t] was answered by client [c], in order *)
Fixpoint answers (t : nat) (c : client) (l : list traffic) : list bytes :=
  match l with
  | nil => nil
  | Got t' c' a :: r => if Nat.eqb t' t && client_eqb c' c then a :: answers t c r else answers t c r
  | Sent _ _ _ :: r => answers t c r
  end.

(** How often a thread gets a turn *)
Definition turns_of (schedule : list nat) (t : nat) : nat := count_occ Nat.eq_dec schedule t.

(** How many answers a thread has seen *)
Fixpoint answered (v : list seen) : nat :=
  match v with nil => 0 | SawGot _ _ :: r => S (answered r) | SawSent _ :: r => answered r end.

(** What a service has to find in the header of every request *)
Definition required (user_agent : str) (c : client) (k : str) : option str :=
  match c with
  | Rekor => if str_eqb k (s2l "Content-Type") || str_eqb k (s2l "Accept") then Some (s2l "application/json")
             else if str_eqb k (s2l "User-Agent") then Some user_agent else None
  | Tsa _ => if str_eqb k (s2l "Content-Type") then Some (s2l "application/timestamp-query")
             else if str_eqb k (s2l "User-Agent") then Some user_agent else None
  | Fulcio => if str_eqb k (s2l "User-Agent") then Some user_agent else None
  end.

(** ** Proofs *)

Lemma client_eqb_spec : forall a b, client_eqb a b = true <-> a = b.
Proof.
  intros [| |n] [| |m]; cbn; try rewrite Nat.eqb_eq; split; intro H; try congruence; try reflexivity.
Qed.
Lemma client_eqb_refl : forall a, client_eqb a a = true.
Proof. intro a. now apply client_eqb_spec. Qed.
Lemma client_eqb_neq : forall a b, a <> b -> client_eqb a b = false.
Proof. intros a b H. destruct (client_eqb a b) eqn:E; [apply client_eqb_spec in E; contradiction|reflexivity]. Qed.
Lemma client_dec : forall a b : client, a = b \/ a <> b.
Proof. intros a b. destruct (client_eqb a b) eqn:E; [left; now apply client_eqb_spec|right; intros ->; rewrite client_eqb_refl in E; discriminate]. Qed.

Lemma view_app : forall t a b, view t (a ++ b) = view t a ++ view t b.
Proof. intros t a b. induction a as [|[t' s r|t' c x] a IH]; cbn; [reflexivity| |]; destruct (Nat.eqb t' t); cbn; now rewrite IH. Qed.
Lemma answers_app : forall t c a b, answers t c (a ++ b) = answers t c a ++ answers t c b.
Proof.
  intros t c a b. induction a as [|[t' s r|t' c' x] a IH]; cbn; [reflexivity|exact IH|].
  destruct (Nat.eqb t' t && client_eqb c' c); cbn; now rewrite IH.
Qed.

Lemma set_session_length : forall l i s, length (set_session l i s) = length l.
Proof. induction l as [|x l IH]; intros [|i] s; cbn; auto. Qed.
Lemma set_session_same : forall l i s d, i < length l -> nth i (set_session l i s) d = s.
Proof. induction l as [|x l IH]; intros [|i] s d H; cbn in *; try lia; auto. apply IH. lia. Qed.
Lemma set_session_other : forall l i j s d, i <> j -> nth j (set_session l i s) d = nth j l d.
Proof. induction l as [|x l IH]; intros [|i] [|j] s d H; cbn; auto; try congruence. Qed.

Lemma set_place_same : forall f t p, set_place f t p t = p.
Proof. intros. unfold set_place. now rewrite Nat.eqb_refl. Qed.
Lemma set_place_other : forall f t t' p, t' <> t -> set_place f t p t' = f t'.
Proof. intros f t t' p H. unfold set_place. apply Nat.eqb_neq in H. now rewrite H. Qed.
Lemma set_local_same : forall f c t s, set_local f c t s c t = Some s.
Proof. intros. unfold set_local. now rewrite client_eqb_refl, Nat.eqb_refl. Qed.
Lemma set_local_other : forall f c t s c' t', c' <> c \/ t' <> t -> set_local f c t s c' t' = f c' t'.
Proof.
  intros f c t s c' t' H. unfold set_local.
  destruct (client_eqb c' c) eqn:E; [|reflexivity]. destruct (Nat.eqb t' t) eqn:F; [|reflexivity].
  apply client_eqb_spec in E. apply Nat.eqb_eq in F. destruct H; contradiction.
Qed.

Section Proofs.
Variable dh : headers.
Variable ua : str.
Variable next : nat -> list seen -> option (client * bytes).
Variable answer : nat -> list seen -> bytes.
Notation turn := (turn dh ua next answer).
Notation run := (run dh ua next answer).
Notation full c := (update dh (client_headers ua c)).
Notation session_of y s := (the_session dh y s).

(** a session belongs to the client and thread that made it *)
Definition owns (y : threads_state) (c : client) (t s : nat) : Prop :=
  ts_local y c t = Some s \/ exists p, ts_place y t = AtUpdate c p s \/ ts_place y t = AtStore c p s.

Definition place_ok (y : threads_state) (t : nat) : Prop :=
  match ts_place y t with
  | Idle => True
  | AtNew c _ => c <> Fulcio /\ ts_local y c t = None
  | AtUpdate c _ s => c <> Fulcio /\ ts_local y c t = None /\ session_of y s = new_session dh
  | AtStore c _ s => c <> Fulcio /\ ts_local y c t = None /\ session_of y s = mkSession (full c) nil
  | AtRead c _ => c <> Fulcio /\ ts_local y c t <> None
  | AtSend c _ s => (c = Fulcio /\ s = 0) \/ ts_local y c t = Some s
  | AtWait c s => ((c = Fulcio /\ s = 0) \/ ts_local y c t = Some s) /\ exists r, In (SawSent r) (view t (ts_traffic y)) /\ rq_client r = c
  end.

Definition uses_now (y : threads_state) (c : client) (t : nat) : Prop :=
  match ts_place y t with AtRead c' _ | AtSend c' _ _ | AtWait c' _ => c' = c | _ => False end.

Record inv (y : threads_state) : Prop := mkInv {
  i_len : 1 <= length (ts_sessions y);
  i_own : forall c t s, owns y c t s -> 0 < s < length (ts_sessions y) /\ c <> Fulcio;
  i_uniq : forall c t c' t' s, owns y c t s -> owns y c' t' s -> c = c' /\ t = t';
  i_place : forall t, place_ok y t;
  i_local : forall c t s, ts_local y c t = Some s -> session_of y s = mkSession (full c) (answers t c (ts_traffic y));
  i_nothing : forall c t, ts_local y c t = None -> c <> Fulcio ->
    answers t c (ts_traffic y) = nil /\ forall r, In (SawSent r) (view t (ts_traffic y)) -> rq_client r <> c;
  i_sent : forall t s r, In (Sent t s r) (ts_traffic y) -> (rq_client r = Fulcio /\ s = 0) \/ ts_local y (rq_client r) t = Some s;
  i_past : forall a t s r b, ts_traffic y = a ++ Sent t s r :: b -> rq_client r <> Fulcio ->
    rq_headers r = full (rq_client r) /\ rq_memory r = answers t (rq_client r) a;
  i_called : forall c t s, ts_local y c t = Some s -> uses_now y c t \/ exists r, In (SawSent r) (view t (ts_traffic y)) /\ rq_client r = c;
  i_fulcio : exists m, session_of y 0 = mkSession (full Fulcio) m;
  i_fulcio_past : forall t s r, In (Sent t s r) (ts_traffic y) -> rq_client r = Fulcio -> rq_headers r = full Fulcio
}.

Lemma start_inv : inv (start dh ua).
Proof.
  constructor; cbn.
  - lia.
  - intros c t s [H|(p & [H|H])]; discriminate.
  - intros c t c' t' s [H|(p & [H|H])]; discriminate.
  - intro t. exact I.
  - discriminate.
  - intros c t _ _. split; [reflexivity|intros r []].
  - intros t s r [].
  - intros a t s r b E. destruct a; discriminate.
  - discriminate.
  - exists nil. reflexivity.
  - intros t s r [].
Qed.

(** only the place of one thread changes *)
Lemma at_place_inv : forall y t p, inv y ->
  place_ok (at_place y t p) t -> (forall c s, owns (at_place y t p) c t s -> owns y c t s) ->
  (forall c, uses_now y c t -> uses_now (at_place y t p) c t) ->
  inv (at_place y t p).
Proof.
  intros y t p [A B C D E F G H K L L'] P O U.
  assert (O' : forall c t' s, owns (at_place y t p) c t' s -> owns y c t' s).
  { intros c t' s W. destruct (Nat.eq_dec t' t) as [->|N]; [now apply O|].
    destruct W as [W|(q & W)]; [now left|]. cbn in W. rewrite set_place_other in W by exact N. right. eauto. }
  constructor; cbn; auto.
  - intros c t' s W. apply B with (1 := O' _ _ _ W).
  - intros c t1 c' t2 s W W'. eapply C; eauto.
  - intro t'. destruct (Nat.eq_dec t' t) as [->|N]; [exact P|].
    specialize (D t'). unfold place_ok in *. cbn. rewrite set_place_other by exact N. exact D.
  - intros c t' s W. destruct (K c t' s W) as [X|X]; [|now right]. left.
    destruct (Nat.eq_dec t' t) as [->|N]; [now apply U|].
    unfold uses_now in *. cbn. rewrite set_place_other by exact N. exact X.
Qed.

Lemma nth_snoc_lt : forall (l : list Session) i x d, i < length l -> nth i (l ++ [x]) d = nth i l d.
Proof. intros. now apply app_nth1. Qed.

(** other threads: what their place says about a session *)
Lemma snoc_inv : forall (A : Type) (l a b : list A) x y, l ++ [x] = a ++ y :: b -> (b = nil /\ a = l /\ y = x) \/ exists b', b = b' ++ [x] /\ l = a ++ y :: b'.
Proof.
  intros A l a b x y E. destruct b as [|b0 b] using rev_ind.
  - apply app_inj_tail in E. destruct E as [-> ->]. now left.
  - rewrite app_comm_cons, app_assoc in E. apply app_inj_tail in E. destruct E as [-> ->]. right. eauto.
Qed.

Lemma turn_inv : forall y t, inv y -> inv (turn y t).
Proof.
  intros y t I. pose proof I as [A B C D E F G H K L L']. pose proof (D t) as P. unfold place_ok in P.
  unfold Sessions.turn. destruct (ts_place y t) as [|c p|c p s|c p s|c p|c p s|c s] eqn:Z.
  - (* Idle *)
    assert (U : forall c, uses_now y c t -> False) by (intros c W; unfold uses_now in W; rewrite Z in W; exact W).
    assert (O : forall c s q, (forall c' p' s', q <> AtUpdate c' p' s' /\ q <> AtStore c' p' s') -> owns (at_place y t q) c t s -> owns y c t s).
    { intros c s q N [W|(p' & W)]; [now left|]. cbn in W. rewrite set_place_same in W. destruct (N c p' s) as [N1 N2]. destruct W; contradiction. }
    destruct (next t (view t (ts_traffic y))) as [[c p]|]; [|exact I].
    assert (X : c <> Fulcio -> inv (match ts_local y c t with Some _ => at_place y t (AtRead c p) | None => at_place y t (AtNew c p) end)).
    { intro N. destruct (ts_local y c t) as [s|] eqn:T; apply at_place_inv; auto.
      - unfold place_ok. cbn. rewrite set_place_same. rewrite T. split; [exact N|discriminate].
      - intros c' s'. apply O. intros; split; discriminate.
      - intros c' W. destruct (U c' W).
      - unfold place_ok. cbn. rewrite set_place_same. auto.
      - intros c' s'. apply O. intros; split; discriminate.
      - intros c' W. destruct (U c' W). }
    destruct c as [| |n]; [|apply X; discriminate|apply X; discriminate].
    apply at_place_inv; auto.
    + unfold place_ok. cbn. rewrite set_place_same. now left.
    + intros c' s'. apply O. intros; split; discriminate.
    + intros c' W. destruct (U c' W).
  - (* AtNew *)
    destruct P as [P1 P2].
    set (n := length (ts_sessions y)).
    assert (O : forall c' t' s', owns (mkTS (ts_sessions y ++ [new_session dh]) (ts_local y) (set_place (ts_place y) t (AtUpdate c p n)) (ts_traffic y)) c' t' s' ->
                (c' = c /\ t' = t /\ s' = n) \/ (owns y c' t' s' /\ s' < n)).
    { intros c' t' s' W. destruct (Nat.eq_dec t' t) as [->|N].
      - destruct W as [W|(q & W)]; [right; split; [now left|apply (B c' t s'); now left]|]. cbn in W. rewrite set_place_same in W.
        destruct W as [W|W]; [injection W as -> -> ->; now left|discriminate].
      - right. assert (V : owns y c' t' s') by (destruct W as [W|(q & W)]; [now left|cbn in W; rewrite set_place_other in W by exact N; right; eauto]).
        split; [exact V|apply (B _ _ _ V)]. }
    constructor; cbn [ts_sessions ts_local ts_place ts_traffic].
    + rewrite app_length. cbn. lia.
    + intros c' t' s' W. rewrite app_length. cbn. destruct (O _ _ _ W) as [(-> & -> & ->)|[V _]]; [split; [unfold n; lia|exact P1]|].
      destruct (B _ _ _ V). split; [lia|assumption].
    + intros c1 t1 c2 t2 s' W1 W2. destruct (O _ _ _ W1) as [(-> & -> & ->)|[V1 J1]]; destruct (O _ _ _ W2) as [(-> & -> & J)|[V2 J2]];
        try (subst; lia); [split; reflexivity|eapply C; eauto].
    + intro t'. unfold place_ok. cbn [ts_sessions ts_local ts_place ts_traffic]. destruct (Nat.eq_dec t' t) as [->|N].
      * rewrite set_place_same. split; [exact P1|]. split; [exact P2|]. unfold the_session. cbn. unfold n. rewrite app_nth2 by lia. now rewrite Nat.sub_diag.
      * rewrite set_place_other by exact N. specialize (D t'). unfold place_ok in D.
        destruct (ts_place y t') eqn:Z'; try exact D.
        -- destruct D as (D1 & D2 & D3). repeat split; auto. unfold the_session in *. cbn. rewrite nth_snoc_lt; [exact D3|]. apply (B c0 t' s). right. exists p0. now left.
        -- destruct D as (D1 & D2 & D3). repeat split; auto. unfold the_session in *. cbn. rewrite nth_snoc_lt; [exact D3|]. apply (B c0 t' s). right. exists p0. now right.
    + intros c' t' s' W. unfold the_session in *. cbn. rewrite nth_snoc_lt; [now apply E|]. apply (B c' t' s'). now left.
    + exact F.
    + exact G.
    + exact H.
    + intros c' t' s' W. destruct (K c' t' s' W) as [V|V]; [|now right]. left. unfold uses_now in *. cbn.
      destruct (Nat.eq_dec t' t) as [->|N]; [rewrite Z in V; destruct V|rewrite set_place_other by exact N; exact V].
    + destruct L as [m L]. exists m. unfold the_session in *. cbn. rewrite nth_snoc_lt by lia. exact L.
    + exact L'.
  - (* AtUpdate *)
    destruct P as (P1 & P2 & P3).
    assert (Own : owns y c t s) by (right; exists p; now left).
    destruct (B _ _ _ Own) as [Bs _].
    assert (O : forall c' t' s', owns (mkTS (set_session (ts_sessions y) s (mkSession (update (ss_headers (session_of y s)) (client_headers ua c)) (ss_memory (session_of y s))))
                 (ts_local y) (set_place (ts_place y) t (AtStore c p s)) (ts_traffic y)) c' t' s' -> owns y c' t' s').
    { intros c' t' s' W. destruct (Nat.eq_dec t' t) as [->|N].
      - destruct W as [W|(q & W)]; [now left|]. cbn in W. rewrite set_place_same in W.
        destruct W as [W|W]; [discriminate|injection W as -> -> ->; exact Own].
      - destruct W as [W|(q & W)]; [now left|cbn in W; rewrite set_place_other in W by exact N; right; eauto]. }
    constructor; cbn [ts_sessions ts_local ts_place ts_traffic].
    + rewrite set_session_length. exact A.
    + intros c' t' s' W. rewrite set_session_length. apply B with (t := t'). now apply O.
    + intros c1 t1 c2 t2 s' W1 W2. eapply C; eauto.
    + intro t'. unfold place_ok. cbn [ts_sessions ts_local ts_place ts_traffic]. destruct (Nat.eq_dec t' t) as [->|N].
      * rewrite set_place_same. split; [exact P1|]. split; [exact P2|]. unfold the_session at 1. cbn [ts_sessions].
        rewrite set_session_same by lia. rewrite P3. reflexivity.
      * rewrite set_place_other by exact N. specialize (D t'). unfold place_ok in D.
        destruct (ts_place y t') as [| |c0 p0 s0|c0 p0 s0| | |] eqn:Z'; try exact D.
        -- destruct D as (D1 & D2 & D3). repeat split; auto. unfold the_session at 1. cbn [ts_sessions]. rewrite set_session_other; [exact D3|].
           intros ->. destruct (C c t c0 t' s0 Own) as [_ J]; [right; exists p0; now left|]. congruence.
        -- destruct D as (D1 & D2 & D3). repeat split; auto. unfold the_session at 1. cbn [ts_sessions]. rewrite set_session_other; [exact D3|].
           intros ->. destruct (C c t c0 t' s0 Own) as [_ J]; [right; exists p0; now right|]. congruence.
    + intros c' t' s' W. unfold the_session at 1. cbn [ts_sessions]. rewrite set_session_other; [now apply E|].
      intros ->. destruct (C c t c' t' s' Own) as [-> ->]; [now left|]. congruence.
    + exact F.
    + exact G.
    + exact H.
    + intros c' t' s' W. destruct (K c' t' s' W) as [V|V]; [|now right]. left. unfold uses_now in *. cbn.
      destruct (Nat.eq_dec t' t) as [->|N]; [rewrite Z in V; destruct V|rewrite set_place_other by exact N; exact V].
    + destruct L as [m L]. exists m. unfold the_session at 1. cbn [ts_sessions]. rewrite set_session_other by lia. exact L.
    + exact L'.
  - (* AtStore *)
    destruct P as (P1 & P2 & P3).
    assert (Own : owns y c t s) by (right; exists p; now right).
    assert (O : forall c' t' s', owns (mkTS (ts_sessions y) (set_local (ts_local y) c t s) (set_place (ts_place y) t (AtRead c p)) (ts_traffic y)) c' t' s' -> owns y c' t' s').
    { intros c' t' s' [W|(q & W)]; cbn in W.
      - unfold set_local in W. destruct (client_eqb c' c && Nat.eqb t' t) eqn:J; [|now left].
        apply andb_prop in J as [J1 J2]. apply client_eqb_spec in J1. apply Nat.eqb_eq in J2. injection W as <-. subst. exact Own.
      - destruct (Nat.eq_dec t' t) as [->|N]; [rewrite set_place_same in W; destruct W; discriminate|rewrite set_place_other in W by exact N; right; eauto]. }
    assert (M : forall c' t' s', ts_local y c' t' = Some s' -> set_local (ts_local y) c t s c' t' = Some s').
    { intros c' t' s' W. rewrite set_local_other; [exact W|]. destruct (client_dec c' c) as [->|N1]; [|now left].
      right. intros ->. congruence. }
    assert (NN : forall c' t', set_local (ts_local y) c t s c' t' = None -> ts_local y c' t' = None).
    { intros c' t' W. destruct (ts_local y c' t') as [x|] eqn:J; [|reflexivity]. apply M in J. congruence. }
    constructor; cbn [ts_sessions ts_local ts_place ts_traffic].
    + exact A.
    + intros c' t' s' W. apply B with (t := t'). now apply O.
    + intros c1 t1 c2 t2 s' W1 W2. eapply C; eauto.
    + intro t'. unfold place_ok. cbn [ts_sessions ts_local ts_place ts_traffic]. destruct (Nat.eq_dec t' t) as [->|N].
      * rewrite set_place_same. split; [exact P1|]. rewrite set_local_same. discriminate.
      * rewrite set_place_other by exact N. specialize (D t'). unfold place_ok in D.
        destruct (ts_place y t') eqn:Z'; try exact D; rewrite set_local_other by (now right); exact D.
    + intros c' t' s' W. unfold set_local in W. destruct (client_eqb c' c && Nat.eqb t' t) eqn:J; [|now apply E].
      apply andb_prop in J as [J1 J2]. apply client_eqb_spec in J1. apply Nat.eqb_eq in J2. injection W as <-. subst.
      destruct (F _ _ P2 P1) as [F1 _]. rewrite F1. exact P3.
    + intros c' t' W. apply F. now apply NN.
    + intros t' s' r W. destruct (G _ _ _ W) as [V|V]; [now left|right; now apply M].
    + exact H.
    + intros c' t' s' W. unfold set_local in W. destruct (client_eqb c' c && Nat.eqb t' t) eqn:J.
      * apply andb_prop in J as [J1 J2]. apply client_eqb_spec in J1. apply Nat.eqb_eq in J2. subst. left. unfold uses_now. cbn. now rewrite set_place_same.
      * destruct (K c' t' s' W) as [V|V]; [|now right]. left. unfold uses_now in *. cbn.
        destruct (Nat.eq_dec t' t) as [->|N]; [rewrite Z in V; destruct V|rewrite set_place_other by exact N; exact V].
    + exact L.
    + exact L'.
  - (* AtRead *)
    destruct P as [P1 P2]. destruct (ts_local y c t) as [s|] eqn:T; [|exact I].
    apply at_place_inv; auto.
    + unfold place_ok. cbn. rewrite set_place_same. now right.
    + intros c' s' [W|(q & W)]; [now left|]. cbn in W. rewrite set_place_same in W. destruct W; discriminate.
    + intros c' W. unfold uses_now in *. cbn. rewrite set_place_same. now rewrite Z in W.
  - (* AtSend *)
    set (r := mkRequest c (ss_headers (session_of y s)) (ss_memory (session_of y s)) p).
    assert (O : forall c' t' s', owns (mkTS (ts_sessions y) (ts_local y) (set_place (ts_place y) t (AtWait c s)) (ts_traffic y ++ [Sent t s r])) c' t' s' -> owns y c' t' s').
    { intros c' t' s' [W|(q & W)]; [now left|]. cbn in W.
      destruct (Nat.eq_dec t' t) as [->|N]; [rewrite set_place_same in W; destruct W; discriminate|rewrite set_place_other in W by exact N; right; eauto]. }
    assert (An : forall t' c', answers t' c' (ts_traffic y ++ [Sent t s r]) = answers t' c' (ts_traffic y)).
    { intros. rewrite answers_app. cbn. apply app_nil_r. }
    assert (V1 : forall t' x, In (SawSent x) (view t' (ts_traffic y)) -> In (SawSent x) (view t' (ts_traffic y ++ [Sent t s r]))).
    { intros t' x W. rewrite view_app. apply in_or_app. now left. }
    constructor; cbn [ts_sessions ts_local ts_place ts_traffic].
    + exact A.
    + intros c' t' s' W. apply B with (t := t'). now apply O.
    + intros c1 t1 c2 t2 s' W1 W2. eapply C; eauto.
    + intro t'. unfold place_ok. cbn [ts_sessions ts_local ts_place ts_traffic]. destruct (Nat.eq_dec t' t) as [->|N].
      * rewrite set_place_same. split; [exact P|]. exists r. split; [|reflexivity]. rewrite view_app. apply in_or_app. right. cbn. rewrite Nat.eqb_refl. now left.
      * rewrite set_place_other by exact N. specialize (D t'). unfold place_ok in D.
        destruct (ts_place y t') eqn:Z'; try exact D. destruct D as [D1 (x & D2 & D3)]. split; [exact D1|]. exists x. split; [now apply V1|exact D3].
    + intros c' t' s' W. rewrite An. now apply E.
    + intros c' t' W N. destruct (F _ _ W N) as [F1 F2]. rewrite An. split; [exact F1|]. intros x J. rewrite view_app in J. apply in_app_or in J as [J|J]; [now apply F2|].
      cbn in J. destruct (Nat.eqb t t') eqn:Q; [|destruct J]. apply Nat.eqb_eq in Q. subst t'. destruct J as [J|[]]. injection J as <-. cbn. intros ->.
      destruct P as [[P _]|P]; [contradiction|congruence].
    + intros t' s' x W. apply in_app_or in W as [W|[W|[]]]; [now apply G|]. injection W as <- <- <-. cbn. exact P.
    + intros a t' s' x b W N. destruct (snoc_inv _ _ _ _ _ _ W) as [(-> & -> & J)|(b' & -> & J)]; [|eapply H; eauto].
      injection J as -> -> ->. cbn in *. destruct P as [[P _]|P]; [contradiction|]. rewrite (E _ _ _ P). now split.
    + intros c' t' s' W. destruct (K c' t' s' W) as [V|(x & V & V')]; [|right; exists x; split; [now apply V1|exact V']]. left. unfold uses_now in *. cbn.
      destruct (Nat.eq_dec t' t) as [->|N]; [rewrite set_place_same; now rewrite Z in V|rewrite set_place_other by exact N; exact V].
    + exact L.
    + intros t' s' x W N. apply in_app_or in W as [W|[W|[]]]; [eapply L'; eauto|]. injection W as <- <- <-. cbn in *. subst c.
      destruct P as [[_ ->]|P]; [destruct L as [m L]; now rewrite L|]. destruct (B Fulcio t s) as [_ J]; [now left|contradiction].
  - (* AtWait *)
    destruct P as [P (r0 & P4 & P5)].
    set (a := answer t (view t (ts_traffic y))).
    assert (Ls : s < length (ts_sessions y)) by (destruct P as [[_ ->]|P]; [lia|apply (B c t s); now left]).
    assert (O : forall c' t' s', owns (mkTS (set_session (ts_sessions y) s (mkSession (ss_headers (session_of y s)) (ss_memory (session_of y s) ++ [a])))
                 (ts_local y) (set_place (ts_place y) t Idle) (ts_traffic y ++ [Got t c a])) c' t' s' -> owns y c' t' s').
    { intros c' t' s' [W|(q & W)]; [now left|]. cbn in W.
      destruct (Nat.eq_dec t' t) as [->|N]; [rewrite set_place_same in W; destruct W; discriminate|rewrite set_place_other in W by exact N; right; eauto]. }
    (* a session owned by someone else is not [s] *)
    assert (Ne : forall c' t' s', owns y c' t' s' -> (c', t') <> (c, t) -> s' <> s).
    { intros c' t' s' W N ->. destruct P as [[_ ->]|P]; [destruct (B _ _ _ W); lia|]. destruct (C c' t' c t s W) as [-> ->]; [now left|]. now apply N. }
    assert (V1 : forall t', view t' (ts_traffic y ++ [Got t c a]) = view t' (ts_traffic y) ++ (if Nat.eqb t t' then [SawGot c a] else nil)).
    { intro t'. rewrite view_app. cbn. now destruct (Nat.eqb t t'). }
    assert (V2 : forall t' x, In (SawSent x) (view t' (ts_traffic y ++ [Got t c a])) <-> In (SawSent x) (view t' (ts_traffic y))).
    { intros t' x. rewrite V1. rewrite in_app_iff. destruct (Nat.eqb t t'); cbn; intuition discriminate. }
    assert (An : forall t' c', (c', t') <> (c, t) -> answers t' c' (ts_traffic y ++ [Got t c a]) = answers t' c' (ts_traffic y)).
    { intros t' c' N. rewrite answers_app. cbn. destruct (Nat.eqb t t' && client_eqb c c') eqn:J; [|apply app_nil_r].
      apply andb_prop in J as [J1 J2]. apply Nat.eqb_eq in J1. apply client_eqb_spec in J2. subst. now destruct N. }
    assert (dec : forall c' t', (c', t') = (c, t) \/ (c', t') <> (c, t)).
    { intros c' t'. destruct (client_dec c' c) as [->|N]; [|right; congruence]. destruct (Nat.eq_dec t' t) as [->|N]; [now left|right; congruence]. }
    constructor; cbn [ts_sessions ts_local ts_place ts_traffic].
    + rewrite set_session_length. exact A.
    + intros c' t' s' W. rewrite set_session_length. apply B with (t := t'). now apply O.
    + intros c1 t1 c2 t2 s' W1 W2. eapply C; eauto.
    + intro t'. unfold place_ok. cbn [ts_sessions ts_local ts_place ts_traffic]. destruct (Nat.eq_dec t' t) as [->|N].
      * rewrite set_place_same. exact Logic.I.
      * rewrite set_place_other by exact N. specialize (D t'). unfold place_ok in D.
        destruct (ts_place y t') as [| |c0 p0 s0|c0 p0 s0| | |c0 s0] eqn:Z'; try exact D.
        -- destruct D as (D1 & D2 & D3). repeat split; auto. unfold the_session at 1. cbn [ts_sessions]. rewrite set_session_other; [exact D3|].
           apply not_eq_sym. apply (Ne c0 t'); [right; exists p0; now left|congruence].
        -- destruct D as (D1 & D2 & D3). repeat split; auto. unfold the_session at 1. cbn [ts_sessions]. rewrite set_session_other; [exact D3|].
           apply not_eq_sym. apply (Ne c0 t'); [right; exists p0; now right|congruence].
        -- destruct D as [D1 (x & D2 & D3)]. split; [exact D1|]. exists x. split; [now apply V2|exact D3].
    + intros c' t' s' W. unfold the_session at 1. cbn [ts_sessions]. destruct (dec c' t') as [J|J].
      * injection J as -> ->. assert (s' = s) as -> by (destruct P as [[-> _]|P]; [destruct (B Fulcio t s') as [_ X]; [now left|contradiction]|congruence]).
        rewrite set_session_same by exact Ls. rewrite (E _ _ _ W). cbn. rewrite answers_app. cbn. now rewrite Nat.eqb_refl, client_eqb_refl.
      * rewrite set_session_other by (apply not_eq_sym; apply (Ne c' t'); [now left|exact J]). rewrite An by exact J. now apply E.
    + intros c' t' W N. destruct (F _ _ W N) as [F1 F2]. rewrite An; [|intro J; injection J as -> ->; destruct P as [[P _]|P]; [contradiction|congruence]].
      split; [exact F1|]. intros x J. apply V2 in J. now apply F2.
    + intros t' s' x W. apply in_app_or in W as [W|[W|[]]]; [now apply G|discriminate].
    + intros a' t' s' x b W N. destruct (snoc_inv _ _ _ _ _ _ W) as [(_ & _ & J)|(b' & -> & J)]; [discriminate|eapply H; eauto].
    + intros c' t' s' W. destruct (K c' t' s' W) as [V|(x & V & V')]; [|right; exists x; split; [now apply V2|exact V']].
      unfold uses_now in *. cbn. destruct (Nat.eq_dec t' t) as [->|N].
      * rewrite Z in V. right. exists r0. split; [now apply V2|congruence].
      * left. rewrite set_place_other by exact N. exact V.
    + destruct L as [m L]. unfold the_session in *. cbn [ts_sessions]. destruct (Nat.eq_dec s 0) as [->|N].
      * rewrite set_session_same by exact Ls. rewrite L. cbn. eauto.
      * rewrite set_session_other by exact N. eauto.
    + intros t' s' x W. apply in_app_or in W as [W|[W|[]]]; [eapply L'; eauto|discriminate].
Qed.

Lemma run_inv : forall sched, inv (run sched).
Proof.
  intro sched. unfold Sessions.run. assert (X : forall y, inv y -> inv (fold_left turn sched y)).
  { induction sched as [|t l IH]; intros y I; [exact I|]. cbn. apply IH. now apply turn_inv. }
  apply X, start_inv.
Qed.

(** *** A thread by itself *)

Definition wants (p : place) : option (client * bytes) :=
  match p with
  | AtNew c p | AtUpdate c p _ | AtStore c p _ | AtRead c p | AtSend c p _ => Some (c, p)
  | _ => None
  end.

Lemma view_snoc_other : forall t t' l s r, t' <> t -> view t' (l ++ [Sent t s r]) = view t' l.
Proof. intros t t' l s r N. rewrite view_app. cbn. apply not_eq_sym, Nat.eqb_neq in N. rewrite N. apply app_nil_r. Qed.
Lemma view_got_other : forall t t' l c a, t' <> t -> view t' (l ++ [Got t c a]) = view t' l.
Proof. intros t t' l s r N. rewrite view_app. cbn. apply not_eq_sym, Nat.eqb_neq in N. rewrite N. apply app_nil_r. Qed.
Lemma view_snoc_same : forall t l s r, view t (l ++ [Sent t s r]) = view t l ++ [SawSent r].
Proof. intros. rewrite view_app. cbn. now rewrite Nat.eqb_refl. Qed.
Lemma view_got_same : forall t l c a, view t (l ++ [Got t c a]) = view t l ++ [SawGot c a].
Proof. intros. rewrite view_app. cbn. now rewrite Nat.eqb_refl. Qed.

Lemma turn_other : forall y t t', t' <> t ->
  ts_place (turn y t) t' = ts_place y t' /\ view t' (ts_traffic (turn y t)) = view t' (ts_traffic y).
Proof.
  intros y t t' N. unfold Sessions.turn.
  destruct (ts_place y t) as [|c p|c p s|c p s|c p|c p s|c s];
    [destruct (next t (view t (ts_traffic y))) as [[[| |n] p]|]; [|destruct (ts_local y Rekor t)|destruct (ts_local y (Tsa n) t)|] | | | |destruct (ts_local y c t)| |];
    cbn; rewrite ?set_place_other, ?view_snoc_other, ?view_got_other by exact N; now split.
Qed.

Definition wants_ok (y : threads_state) : Prop := forall t,
  (forall w, wants (ts_place y t) = Some w -> next t (view t (ts_traffic y)) = Some w) /\
  (forall a r b, view t (ts_traffic y) = a ++ SawSent r :: b -> next t a = Some (rq_client r, rq_payload r)).

Lemma turn_wants : forall y t, wants_ok y -> wants_ok (turn y t).
Proof.
  intros y t W t'. destruct (Nat.eq_dec t' t) as [->|N]; [|destruct (turn_other y t t' N) as [-> ->]; apply W].
  destruct (W t) as [W1 W2]. unfold Sessions.turn.
  destruct (ts_place y t) as [|c p|c p s|c p s|c p|c p s|c s] eqn:Z; cbn in W1.
  - destruct (next t (view t (ts_traffic y))) as [[c p]|] eqn:X; [|cbn; rewrite Z; split; [discriminate|exact W2]].
    destruct c as [| |n]; [|destruct (ts_local y Rekor t)|destruct (ts_local y (Tsa n) t)]; cbn; rewrite set_place_same; cbn;
      (split; [intros w E; congruence|exact W2]).
  - cbn. rewrite set_place_same. cbn. now split.
  - cbn. rewrite set_place_same. cbn. now split.
  - cbn. rewrite set_place_same. cbn. now split.
  - destruct (ts_local y c t); cbn; [rewrite set_place_same; cbn; now split|rewrite Z; cbn; now split].
  - cbn. rewrite set_place_same, view_snoc_same. cbn. split; [discriminate|].
    intros a r b E. destruct (snoc_inv _ _ _ _ _ _ E) as [(-> & -> & J)|(b' & -> & J)]; [|eapply W2; eauto].
    injection J as ->. cbn. now apply W1.
  - cbn. rewrite set_place_same, view_got_same. cbn. split; [discriminate|].
    intros a r b E. destruct (snoc_inv _ _ _ _ _ _ E) as [(-> & -> & J)|(b' & -> & J)]; [discriminate|eapply W2; eauto].
Qed.

Lemma run_wants : forall sched, wants_ok (run sched).
Proof.
  intro sched. unfold Sessions.run. assert (X : forall y, wants_ok y -> wants_ok (fold_left turn sched y)).
  { induction sched as [|t l IH]; intros y I; [exact I|]. cbn. apply IH. now apply turn_wants. }
  apply X. intro t. split; [discriminate|]. intros [|x a] r b E; discriminate.
Qed.

(** *** Progress *)

Definition reached (p : place) : nat :=
  match p with Idle => 0 | AtNew _ _ => 1 | AtUpdate _ _ _ => 2 | AtStore _ _ _ => 3 | AtRead _ _ => 4 | AtSend _ _ _ => 5 | AtWait _ _ => 6 end.

Lemma answered_app : forall a b, answered (a ++ b) = answered a + answered b.
Proof. induction a as [|[r|c x] a IH]; intro b; cbn; auto. Qed.

Definition moved_on (y : threads_state) (t n : nat) : Prop :=
  n <= 7 * answered (view t (ts_traffic y)) + reached (ts_place y t) \/
  (ts_place y t = Idle /\ next t (view t (ts_traffic y)) = None).

Lemma turn_moves : forall y t n, inv y -> moved_on y t n -> moved_on (turn y t) t (S n).
Proof.
  intros y t n I M. pose proof (i_place _ I t) as P. unfold place_ok in P. unfold moved_on, Sessions.turn in *.
  destruct (ts_place y t) as [|c p|c p s|c p s|c p|c p s|c s] eqn:Z; cbn in M.
  - destruct M as [M|[_ M]]; [|rewrite M; right; rewrite Z; auto].
    destruct (next t (view t (ts_traffic y))) as [[c p]|] eqn:X; [|right; rewrite Z; auto].
    left. destruct c as [| |k]; [|destruct (ts_local y Rekor t)|destruct (ts_local y (Tsa k) t)]; cbn; rewrite set_place_same; cbn; lia.
  - destruct M as [M|[M _]]; [|discriminate]. left. cbn. rewrite set_place_same. cbn. lia.
  - destruct M as [M|[M _]]; [|discriminate]. left. cbn. rewrite set_place_same. cbn. lia.
  - destruct M as [M|[M _]]; [|discriminate]. left. cbn. rewrite set_place_same. cbn. lia.
  - destruct M as [M|[M _]]; [|discriminate]. left. destruct P as [_ P]. destruct (ts_local y c t); [|now destruct P].
    cbn. rewrite set_place_same. cbn. lia.
  - destruct M as [M|[M _]]; [|discriminate]. left. cbn. rewrite set_place_same, view_snoc_same, answered_app. cbn. lia.
  - destruct M as [M|[M _]]; [|discriminate]. left. cbn. rewrite set_place_same, view_got_same, answered_app. cbn. lia.
Qed.

Lemma run_moves : forall sched t, moved_on (run sched) t (turns_of sched t).
Proof.
  intros sched t. unfold Sessions.run, turns_of.
  assert (X : forall y n, inv y -> moved_on y t n -> moved_on (fold_left turn sched y) t (n + count_occ Nat.eq_dec sched t)).
  { induction sched as [|t' l IH]; intros y n I M; cbn; [now rewrite Nat.add_0_r|].
    destruct (Nat.eq_dec t' t) as [->|N].
    - rewrite Nat.add_succ_r. apply (IH _ (S n)); [now apply turn_inv|now apply turn_moves].
    - apply IH; [now apply turn_inv|]. unfold moved_on in *.
      destruct (turn_other y t' t (not_eq_sym N)) as [-> ->]. exact M. }
  apply (X _ 0); [apply start_inv|left; lia].
Qed.
End Proofs.

(** *** Isolation *)

Fixpoint answers_in (c : client) (v : list seen) : list bytes :=
  match v with
  | nil => nil
  | SawGot c' a :: r => if client_eqb c' c then a :: answers_in c r else answers_in c r
  | SawSent _ :: r => answers_in c r
  end.
Definition called (c : client) (v : list seen) : bool :=
  existsb (fun x => match x with SawSent r => client_eqb (rq_client r) c | _ => false end) v.
Lemma answers_view : forall t c l, answers t c l = answers_in c (view t l).
Proof.
  intros t c l. induction l as [|[t' s r|t' c' a] l IH]; cbn; [reflexivity| |]; destruct (Nat.eqb t' t); cbn; rewrite ?IH; try reflexivity.
Qed.
Lemma called_spec : forall c v, called c v = true <-> exists r, In (SawSent r) v /\ rq_client r = c.
Proof.
  intros c v. unfold called. rewrite existsb_exists. split.
  - intros ([r|c' a] & I & E); [|discriminate]. apply client_eqb_spec in E. eauto.
  - intros (r & I & <-). exists (SawSent r). split; [exact I|apply client_eqb_refl].
Qed.

(** what a thread does if it is alone and every session is its own *)
Section Alone.
Variable dh : headers.
Variable ua : str.
Variable nx : list seen -> option (client * bytes).
Variable an : list seen -> bytes.
Definition lturn (x : place * list seen) : place * list seen :=
  let '(p, v) := x in
  match p with
  | Idle => match nx v with None => (Idle, v) | Some (c, p) => if called c v then (AtRead c p, v) else (AtNew c p, v) end
  | AtNew c p => (AtUpdate c p 0, v)
  | AtUpdate c p _ => (AtStore c p 0, v)
  | AtStore c p _ => (AtRead c p, v)
  | AtRead c p => (AtSend c p 0, v)
  | AtSend c p _ => (AtWait c 0, v ++ [SawSent (mkRequest c (update dh (client_headers ua c)) (answers_in c v) p)])
  | AtWait c _ => (Idle, v ++ [SawGot c (an v)])
  end.
Fixpoint lrun (n : nat) : place * list seen := match n with 0 => (Idle, nil) | S m => lturn (lrun m) end.
Lemma lturn_grows : forall x, exists more, snd (lturn x) = snd x ++ more.
Proof.
  intros [[|c p|c p s|c p s|c p|c p s|c s] v]; cbn; try (exists nil; now rewrite app_nil_r); try (eexists; reflexivity).
  exists nil. rewrite app_nil_r. destruct (nx v) as [[c p]|]; [destruct (called c v)|]; reflexivity.
Qed.
Lemma lrun_grows : forall n m, n <= m -> exists more, snd (lrun m) = snd (lrun n) ++ more.
Proof.
  intros n m H. induction H as [|m H [more IH]]; [exists nil; now rewrite app_nil_r|].
  cbn. destruct (lturn_grows (lrun m)) as [more' E]. exists (more ++ more'). now rewrite E, IH, app_assoc.
Qed.
End Alone.

Lemma lrun_ext : forall dh ua nx nx' an an', (forall v, nx v = nx' v) -> (forall v, an v = an' v) ->
  forall n, lrun dh ua nx an n = lrun dh ua nx' an' n.
Proof.
  intros dh ua nx nx' an an' N A n. induction n as [|n IH]; [reflexivity|]. cbn. rewrite IH.
  destruct (lrun dh ua nx' an' n) as [p v]. unfold lturn. now rewrite N, A.
Qed.

Definition strip (p : place) : place :=
  match p with
  | AtUpdate c p _ => AtUpdate c p 0
  | AtStore c p _ => AtStore c p 0
  | AtSend c p _ => AtSend c p 0
  | AtWait c _ => AtWait c 0
  | q => q
  end.

Section Isolation.
Variable dh : headers.
Variable ua : str.
Variable next : nat -> list seen -> option (client * bytes).
Variable answer : nat -> list seen -> bytes.
Variable t : nat.
Hypothesis no_fulcio : forall v p, next t v <> Some (Fulcio, p).
Notation turn := (turn dh ua next answer).
Notation run := (run dh ua next answer).

Definition local_view (y : threads_state) : place * list seen := (strip (ts_place y t), view t (ts_traffic y)).
Definition no_f (p : place) : Prop :=
  match p with Idle => True | AtNew c _ | AtUpdate c _ _ | AtStore c _ _ | AtRead c _ | AtSend c _ _ | AtWait c _ => c <> Fulcio end.

Lemma turn_local : forall y, inv dh ua y -> no_f (ts_place y t) ->
  local_view (turn y t) = lturn dh ua (next t) (answer t) (local_view y) /\ no_f (ts_place (turn y t) t).
Proof.
  intros y I NF. pose proof (i_place _ _ _ I t) as P. unfold place_ok in P. unfold local_view, Sessions.turn.
  destruct (ts_place y t) as [|c p|c p s|c p s|c p|c p s|c s] eqn:Z; cbn in NF.
  - cbn [strip lturn]. destruct (next t (view t (ts_traffic y))) as [[c p]|] eqn:X; [|rewrite Z; cbn; auto].
    assert (N : c <> Fulcio) by (intros ->; exact (no_fulcio _ _ X)).
    assert (L : called c (view t (ts_traffic y)) = match ts_local y c t with Some _ => true | None => false end).
    { destruct (ts_local y c t) as [s|] eqn:T.
      - apply called_spec. destruct (i_called _ _ _ I _ _ _ T) as [U|U]; [unfold uses_now in U; rewrite Z in U; destruct U|exact U].
      - destruct (called c (view t (ts_traffic y))) eqn:J; [|reflexivity]. apply called_spec in J as (r & J1 & J2).
        destruct (i_nothing _ _ _ I _ _ T N) as [_ F]. now destruct (F r J1). }
    rewrite L. destruct c as [| |n]; [now destruct N| |]; destruct (ts_local y _ t); cbn; rewrite set_place_same; cbn; auto.
  - cbn. rewrite set_place_same. cbn. auto.
  - cbn. rewrite set_place_same. cbn. auto.
  - cbn. rewrite set_place_same. cbn. auto.
  - destruct P as [_ P]. destruct (ts_local y c t); [|now destruct P]. cbn. rewrite set_place_same. cbn. auto.
  - cbn. rewrite set_place_same, view_snoc_same. cbn. destruct P as [[P _]|P]; [contradiction|].
    rewrite (i_local _ _ _ I _ _ _ P). cbn. rewrite <- answers_view. auto.
  - cbn. rewrite set_place_same, view_got_same. cbn. auto.
Qed.

Lemma run_local : forall sched, local_view (run sched) = lrun dh ua (next t) (answer t) (turns_of sched t).
Proof.
  intro sched. unfold Sessions.run, turns_of.
  assert (X : forall y n, inv dh ua y -> no_f (ts_place y t) -> local_view y = lrun dh ua (next t) (answer t) n ->
    local_view (fold_left turn sched y) = lrun dh ua (next t) (answer t) (count_occ Nat.eq_dec sched t + n)).
  { induction sched as [|t' l IH]; intros y n I NF E; cbn [fold_left]; [exact E|].
    cbn [count_occ]. destruct (Nat.eq_dec t' t) as [->|N].
    - destruct (turn_local y I NF) as [E' NF']. rewrite (IH _ (S n)); [f_equal; lia|now apply turn_inv|exact NF'|]. rewrite E', E. reflexivity.
    - destruct (turn_other dh ua next answer y t' t (not_eq_sym N)) as [E1 E2]. apply IH; [now apply turn_inv|now rewrite E1|].
      unfold local_view. rewrite E1, E2. exact E. }
  rewrite (X _ 0); [now rewrite Nat.add_0_r|apply start_inv|exact Logic.I|reflexivity].
Qed.
End Isolation.

(** *** Headers *)

Lemma header_set : forall h k v k', header (set_header h (k, v)) k' = if str_eqb k k' then Some v else header h k'.
Proof.
  intros h k v k'. unfold set_header. cbn. destruct (str_eqb k k') eqn:E; [reflexivity|].
  induction h as [|[k0 v0] h IH]; [reflexivity|]. cbn. destruct (str_eqb k0 k) eqn:F; cbn.
  - rewrite IH. apply str_eqb_spec in F. subst. now rewrite E.
  - now rewrite IH.
Qed.
Lemma header_update : forall new h k, header (update h new) k = match header (rev new) k with Some v => Some v | None => header h k end.
Proof.
  unfold update. induction new as [|[k0 v0] new IH]; intros h k; cbn; [reflexivity|].
  rewrite IH, header_set. assert (A : header (rev new ++ [(k0, v0)]) k = match header (rev new) k with Some v => Some v | None => if str_eqb k0 k then Some v0 else None end).
  { clear IH. induction (rev new) as [|[k1 v1] r IH]; cbn; [reflexivity|]. now destruct (str_eqb k1 k). }
  rewrite A. destruct (header (rev new) k); [reflexivity|]. now destruct (str_eqb k0 k).
Qed.
Lemma str_eqb_sym : forall a b, str_eqb a b = str_eqb b a.
Proof.
  intros a b. destruct (str_eqb a b) eqn:E.
  - apply str_eqb_spec in E. subst. symmetry. apply str_eqb_refl.
  - symmetry. apply str_eqb_false. apply str_eqb_false in E. congruence.
Qed.
Lemma required_headers : forall dh ua c k,
  header (update dh (client_headers ua c)) k = match required ua c k with Some v => Some v | None => header dh k end.
Proof.
  intros dh ua c k. rewrite header_update. destruct c as [| |n]; cbn [client_headers rev app header required];
    rewrite ?(str_eqb_sym (s2l "Content-Type")), ?(str_eqb_sym (s2l "Accept")), ?(str_eqb_sym (s2l "User-Agent")).
  - destruct (str_eqb k (s2l "User-Agent")); reflexivity.
  - destruct (str_eqb k (s2l "Content-Type")) eqn:A, (str_eqb k (s2l "Accept")) eqn:B, (str_eqb k (s2l "User-Agent")) eqn:C; try reflexivity;
      exfalso; apply str_eqb_spec in C; subst k; vm_compute in A, B; discriminate.
  - destruct (str_eqb k (s2l "Content-Type")) eqn:A, (str_eqb k (s2l "User-Agent")) eqn:C; try reflexivity;
      exfalso; apply str_eqb_spec in C; subst k; vm_compute in A; discriminate.
Qed.

(** ** Theorems *)

Section Theorems.
Variable dh : headers.
Variable ua : str.
Variable next : nat -> list seen -> option (client * bytes).
Variable answer : nat -> list seen -> bytes.
Variable schedule : list nat.
Notation sent := (ts_traffic (run dh ua next answer schedule)).

(** A session is used for one client only, and by one thread only unless that client is the
    certificate authority *)
Theorem C101_private_sessions : forall t t' s r r',
  In (Sent t s r) sent -> In (Sent t' s r') sent ->
  rq_client r = rq_client r' /\ (t = t' \/ rq_client r = Fulcio).
Proof.
  intros t t' s r r' H H'. pose proof (run_inv dh ua next answer schedule) as I.
  destruct (i_sent _ _ _ I _ _ _ H) as [[E E0]|E], (i_sent _ _ _ I _ _ _ H') as [[F F0]|F].
  - split; [congruence|now right].
  - destruct (i_own _ _ _ I (rq_client r') t' s) as [J _]; [now left|lia].
  - destruct (i_own _ _ _ I (rq_client r) t s) as [J _]; [now left|lia].
  - destruct (i_uniq _ _ _ I (rq_client r) t (rq_client r') t' s) as [J1 J2]; [now left|now left|]. auto.
Qed.

(** A thread uses one session per client: its later requests reuse the connection *)
Theorem C101_one_session : forall t s s' r r',
  In (Sent t s r) sent -> In (Sent t s' r') sent -> rq_client r = rq_client r' -> s = s'.
Proof.
  intros t s s' r r' H H' E. pose proof (run_inv dh ua next answer schedule) as I.
  destruct (i_sent _ _ _ I _ _ _ H) as [[F ->]|F], (i_sent _ _ _ I _ _ _ H') as [[G ->]|G]; try reflexivity.
  - rewrite <- E, F in G. destruct (i_own _ _ _ I Fulcio t s') as [_ J]; [now left|contradiction].
  - rewrite E, G in F. destruct (i_own _ _ _ I Fulcio t s) as [_ J]; [now left|contradiction].
  - rewrite E in F. congruence.
Qed.

(** A request to a log or timestamp authority carries what that service answered to the same
    thread before, and nothing that anyone answered to another thread *)
Theorem C101_own_memory : forall before t s r after,
  sent = before ++ Sent t s r :: after -> rq_client r <> Fulcio -> rq_memory r = answers t (rq_client r) before.
Proof. intros before t s r after E N. apply (i_past _ _ _ (run_inv dh ua next answer schedule) _ _ _ _ _ E N). Qed.

(** Every request carries the client's headers, the first of a new session included *)
Theorem C101_headers : forall t s r, In (Sent t s r) sent ->
  forall k, header (rq_headers r) k = match required ua (rq_client r) k with Some v => Some v | None => header dh k end.
Proof.
  intros t s r H k. pose proof (run_inv dh ua next answer schedule) as I. rewrite <- required_headers.
  destruct (client_dec (rq_client r) Fulcio) as [E|E]; [rewrite E; now rewrite (i_fulcio_past _ _ _ I _ _ _ H E)|].
  apply in_split in H as (a & b & H). now rewrite (proj1 (i_past _ _ _ I _ _ _ _ _ H E)).
Qed.

(** A thread sends what it wants to send next, in order, and a thread that is given enough turns
    gets its answers, whatever the others do *)
Theorem C101_calls : forall t before r after,
  view t sent = before ++ SawSent r :: after -> next t before = Some (rq_client r, rq_payload r).
Proof. intros t before r after E. apply (proj2 (run_wants dh ua next answer schedule t) _ _ _ E). Qed.

Theorem C101_progress : forall t n, 7 * n <= turns_of schedule t -> n <= answered (view t sent) \/ next t (view t sent) = None.
Proof.
  intros t n H. destruct (run_moves dh ua next answer schedule t) as [M|[_ M]]; [|now right]. left.
  assert (reached (ts_place (run dh ua next answer schedule) t) <= 6) by (destruct (ts_place _ _); cbn; lia). lia.
Qed.
End Theorems.

(** What a thread that does not ask for certificates sends and receives depends on how far it has
    come, and on nothing that other threads do, send or receive *)
Theorem C101_isolated : forall dh ua t next next' answer answer' schedule schedule',
  (forall v, next t v = next' t v) -> (forall v, answer t v = answer' t v) ->
  (forall v p, next t v <> Some (Fulcio, p)) ->
  turns_of schedule t <= turns_of schedule' t ->
  exists more, view t (ts_traffic (run dh ua next' answer' schedule')) = view t (ts_traffic (run dh ua next answer schedule)) ++ more /\
    (turns_of schedule t = turns_of schedule' t -> more = nil).
Proof.
  intros dh ua t next next' answer answer' sc sc' N A F H.
  assert (F' : forall v p, next' t v <> Some (Fulcio, p)) by (intros v p; rewrite <- N; apply F).
  pose proof (run_local dh ua next answer t F sc) as E. pose proof (run_local dh ua next' answer' t F' sc') as E'.
  rewrite <- (lrun_ext dh ua _ _ _ _ N A) in E'.
  apply (f_equal snd) in E. apply (f_equal snd) in E'. cbn in E, E'.
  destruct (lrun_grows dh ua (next t) (answer t) _ _ H) as [more G]. exists more. rewrite E, E', G. split; [reflexivity|].
  intro Q. rewrite Q in G. apply (f_equal (@length _)) in G. rewrite app_length in G. destruct more; [reflexivity|cbn in G; lia].
Qed.

(** ** The certificate authority's client has one session for all threads *)

Definition hx_mine (t : nat) : bytes := match t with 0 => s2b "zero" | _ => s2b "one" end.
Definition hx_ca_next (t : nat) (v : list seen) : option (client * bytes) := match v with nil => Some (Fulcio, hx_mine t) | _ => None end.
Definition hx_answer (t : nat) (v : list seen) : bytes := s2b "to " ++ hx_mine t.
Definition hx_ca : list traffic := ts_traffic (run nil (s2l "agent") hx_ca_next hx_answer [0; 0; 0; 1; 1]).

(** What is said of logs and timestamp authorities above fails for it: two threads that ask for
    certificates use one session, and what the authority told one thread goes into what the
    other sends *)
Theorem C101_fulcio_shared_refuted :
  exists dh ua next answer schedule t t' s r r' a before after,
    ts_traffic (run dh ua next answer schedule) = before ++ Sent t s r :: after /\ In (Sent t' s r') before /\
    t <> t' /\ rq_client r = Fulcio /\ In a (answers t' Fulcio before) /\ answers t Fulcio before = nil /\ In a (rq_memory r).
Proof.
  exists nil, (s2l "agent"), hx_ca_next, hx_answer, [0; 0; 0; 1; 1], 1, 0, 0.
  exists (mkRequest Fulcio (client_headers (s2l "agent") Fulcio) [hx_answer 0 nil] (hx_mine 1)).
  exists (mkRequest Fulcio (client_headers (s2l "agent") Fulcio) nil (hx_mine 0)), (hx_answer 0 nil), (firstn 2 hx_ca), nil.
  split; [vm_compute; reflexivity|]. split; [vm_compute; left; reflexivity|]. split; [discriminate|]. split; [reflexivity|].
  split; [vm_compute; left; reflexivity|]. split; [reflexivity|]. vm_compute. left. reflexivity.
Qed.

(** ** Two threads that sign *)

(** each has its signature timestamped, submits an entry, and does the same again *)
Definition hx_next (t : nat) (v : list seen) : option (client * bytes) :=
  match answered v with
  | 0 | 2 => Some (Tsa 0, hx_mine t)
  | 1 | 3 => Some (Rekor, hx_mine t)
  | _ => None
  end.
Definition hx_schedule : list nat := concat (repeat [0; 1; 1; 0; 0; 1] 10).
Definition hx_traffic : list traffic := ts_traffic (run [(s2l "Accept", s2l "*/*"); (s2l "User-Agent", s2l "python-requests")] (s2l "agent") hx_next hx_answer hx_schedule).
Example ex_two_threads :
  map (fun e => match e with Sent t s r => Some (t, s, rq_client r, length (rq_memory r)) | Got _ _ _ => None end) hx_traffic =
  [Some (0, 2, Tsa 0, 0); Some (1, 1, Tsa 0, 0); None; None; Some (0, 3, Rekor, 0); Some (1, 4, Rekor, 0); None; None;
   Some (1, 1, Tsa 0, 1); Some (0, 2, Tsa 0, 1); None; None; Some (0, 3, Rekor, 1); Some (1, 4, Rekor, 1); None; None].
Proof. vm_compute. reflexivity. Qed.
Example ex_two_threads_headers :
  map (fun e => match e with Sent t s r => Some (header (rq_headers r) (s2l "Accept"), header (rq_headers r) (s2l "User-Agent")) | Got _ _ _ => None end) (firstn 5 hx_traffic) =
  [Some (Some (s2l "*/*"), Some (s2l "agent")); Some (Some (s2l "*/*"), Some (s2l "agent")); None; None; Some (Some (s2l "application/json"), Some (s2l "agent"))].
Proof. vm_compute. reflexivity. Qed.
Example ex_isolated : (forall v p, hx_next 0 v <> Some (Fulcio, p)) /\
  view 0 hx_traffic = view 0 (ts_traffic (run [(s2l "Accept", s2l "*/*"); (s2l "User-Agent", s2l "python-requests")] (s2l "agent") hx_next hx_answer (repeat 0 30))) /\
  answered (view 0 hx_traffic) = 4 /\ turns_of hx_schedule 0 = 30.
Proof.
  split; [|vm_compute; repeat split; reflexivity].
  intros v p. unfold hx_next. destruct (answered v) as [|[|[|[|n]]]]; discriminate.
Qed.

(** ** Signers *)
From Verif Require Import Messages Oidc SigningConfig Clients Sign SignSteps PropsSignThreads.

(** the event is a request to the certificate authority *)
Definition calls_fulcio (ev : event) : Prop := match ev with EvCsr _ _ => True | _ => False end.

(** Threads that share a caching signer never call the certificate authority, so that all sessions
    they use are their own *)
Theorem C101_caching_signer : forall libs out tok ctx h0 h s,
  make_signer libs out tok ctx true h0 = (h, Ok s) ->
  forall os sched, exists l, th_hist (threads libs out s os sched h) = h ++ l /\ forall ev, In ev l -> ~ calls_fulcio ev.
Proof.
  intros libs out tok ctx h0 h s M os sched. destruct (C84_one_certificate _ _ _ _ _ _ _ M) as (c & _ & X).
  destruct (X os sched) as (l & E & K & _). exists l. split; [exact E|]. intros ev I. specialize (K ev I). now destruct ev.
Qed.

Print Assumptions C101_private_sessions.
Print Assumptions C101_one_session.
Print Assumptions C101_own_memory.
Print Assumptions C101_headers.
Print Assumptions C101_calls.
Print Assumptions C101_progress.
Print Assumptions C101_isolated.
Print Assumptions C101_fulcio_shared_refuted.
Print Assumptions C101_caching_signer.
