(** Properties C51, C52, C69, C70: the interactive OAuth flow.

    [wrun] ranges over all interleavings of the two threads with any number of HTTP requests,
    by any local process, at any time. *)
From Verif Require Import Base Messages Env Codec PyText Json Oidc Http PropsRekorClient PropsOidc ToyEnv Oauth.
From Verif Require Url UrlProofs.

(** ** Specification *)

(** the field [f] of a query gives the key [k] the (non-empty) value [v] *)
Definition gives (ul : Url.UrlLib) (f k v : str) : Prop :=
  exists a b, f = a ++ 61%N :: b /\ ~ In 61%N a /\ b <> nil /\
    k = Url.form_decode ul a /\ v = Url.form_decode ul b.
(** the first value of a key in a query *)
Definition first_value (ul : Url.UrlLib) (q k v : str) : Prop :=
  exists l1 f l2, split_on 38%N q = l1 ++ f :: l2 /\ gives ul f k v /\ forall f' v', In f' l1 -> ~ gives ul f' k v'.
Definition absent (ul : Url.UrlLib) (q k : str) : Prop :=
  forall f v, In f (split_on 38%N q) -> ~ gives ul f k v.

(** the callback that decides, the only one to be answered with success *)
Definition only_callback (log : list oevent) (path : str) : Prop :=
  exists l1 l2, log = l1 ++ O_callback path :: l2 /\ forall p, ~ In (O_callback p) (l1 ++ l2).

Fixpoint redirects (l : list oevent) : nat :=
  match l with nil => 0 | O_redirect _ :: l' => S (redirects l') | _ :: l' => redirects l' end.
Fixpoint shown (l : list oevent) : nat :=
  match l with nil => 0 | O_shown _ :: l' => S (shown l') | _ :: l' => shown l' end.
(** an authorization URL that left the process *)
Definition issued (l : list oevent) (url : str) : Prop := In (O_redirect url) l \/ In (O_shown url) l.

(** a URL made of an endpoint and a query, the fields of which decode to these names and values in this order *)
Definition names (ul : Url.UrlLib) (kv : str * str) (f : str) : Prop :=
  exists a b, f = a ++ 61%N :: b /\ ~ In 61%N a /\ fst kv = Url.form_decode ul a /\ snd kv = Url.form_decode ul b.
Definition asks (ul : Url.UrlLib) (url endpoint : str) (params : list (str * str)) : Prop :=
  exists q, url = endpoint ++ 63%N :: q /\ Forall2 (names ul) params (split_on 38%N q).
Definition param (ul : Url.UrlLib) (url endpoint : str) (k : String.string) (v : str) : Prop :=
  exists params, asks ul url endpoint params /\ assoc str_eqb (s2l k) params = Some v.

(** text without lone surrogates *)
Definition encodable (s : str) : Prop := exists b, utf8_encode s = Some b.
(** a session for which a URL can be written at all, and sent in an HTTP header *)
Definition writable (se : Session) : Prop := encodable (s_client_id se) /\ encodable (s_client_secret se) /\ encodable (s_state se).
Definition sendable (se : Session) : Prop := writable se /\ forall c, In c (s_auth_endpoint se) -> (c < 256)%N.

(** ** Query strings *)

Lemma add_value_assoc : forall k v d k', assoc str_eqb k' (Url.add_value k v d) =
  if str_eqb k' k then Some (match assoc str_eqb k d with Some vs => vs ++ [v] | None => [v] end) else assoc str_eqb k' d.
Proof.
  intros k v d k'. induction d as [|[x vs] d IH]; cbn [Url.add_value assoc].
  - destruct (str_eqb k' k); reflexivity.
  - destruct (str_eqb k x) eqn:E1; cbn [assoc].
    + apply str_eqb_spec in E1. subst x. destruct (str_eqb k' k) eqn:E2; reflexivity.
    + destruct (str_eqb k' x) eqn:E2.
      * apply str_eqb_spec in E2. subst x. destruct (str_eqb k' k) eqn:E3; [|reflexivity].
        apply str_eqb_spec in E3. subst k'. rewrite str_eqb_refl in E1. discriminate.
      * rewrite IH. reflexivity.
Qed.

Section Query.
Variable ul : Url.UrlLib.

(** what the query parser does with a field *)
Definition add_field (d : list (str * list str)) (f : str) : list (str * list str) :=
  match Url.cut 61%N f with
  | Some (k, v) => match v with nil => d | _ => Url.add_value (Url.form_decode ul k) (Url.form_decode ul v) d end
  | None => d
  end.

Lemma gives_dec : forall f k, (exists v, gives ul f k v) \/ (forall v, ~ gives ul f k v).
Proof.
  intros f k. destruct (Url.cut 61%N f) as [[a b]|] eqn:E.
  - apply UrlProofs.cut_spec in E. destruct E as [E N].
    assert (U : forall a' b', f = a' ++ 61%N :: b' -> ~ In 61%N a' -> a' = a /\ b' = b).
    { intros a' b' E' N'. assert (X : Some (a', b') = Some (a, b)).
      { transitivity (Url.cut 61%N f); [symmetry|]; apply UrlProofs.cut_spec; auto. } inversion X. auto. }
    destruct b as [|c b]; [right; intros v (a' & b' & E' & N' & B & _); destruct (U _ _ E' N'); congruence|].
    destruct (list_eq_dec N.eq_dec k (Url.form_decode ul a)) as [->|Ne].
    + left. eexists. exists a, (c :: b). repeat split; auto. discriminate.
    + right. intros v (a' & b' & E' & N' & _ & K & _). destruct (U _ _ E' N') as [-> _]. contradiction.
  - right. intros v (a & b & E' & N & _). assert (X : Url.cut 61%N f = Some (a, b)) by (apply UrlProofs.cut_spec; auto). congruence.
Qed.

Lemma add_field_assoc : forall d f k,
  (forall v, gives ul f k v -> assoc str_eqb k (add_field d f) = Some (match assoc str_eqb k d with Some vs => vs ++ [v] | None => [v] end)) /\
  ((forall v, ~ gives ul f k v) -> assoc str_eqb k (add_field d f) = assoc str_eqb k d).
Proof.
  intros d f k. unfold add_field. split.
  - intros v (a & b & E & N & B & -> & ->). assert (X : Url.cut 61%N f = Some (a, b)) by (apply UrlProofs.cut_spec; auto). rewrite X.
    destruct b as [|c b]; [congruence|]. rewrite add_value_assoc, str_eqb_refl. reflexivity.
  - intros H. destruct (Url.cut 61%N f) as [[a b]|] eqn:E; [|reflexivity]. apply UrlProofs.cut_spec in E. destruct E as [E N].
    destruct b as [|c b]; [reflexivity|]. rewrite add_value_assoc. destruct (str_eqb k _) eqn:K; [|reflexivity].
    apply str_eqb_spec in K. subst k. exfalso. eapply H. exists a, (c :: b). repeat split; eauto. discriminate.
Qed.

Lemma fold_assoc : forall l d k vs, assoc str_eqb k d = Some vs -> exists ws, assoc str_eqb k (fold_left add_field l d) = Some (vs ++ ws).
Proof.
  induction l as [|f l IH]; intros d k vs H; cbn [fold_left]; [exists nil; rewrite app_nil_r; assumption|].
  destruct (add_field_assoc d f k) as [A B]. destruct (gives_dec f k) as [(v & G)|N].
  - specialize (A v G). rewrite H in A. destruct (IH _ _ _ A) as (ws & W). exists (v :: ws). rewrite W, <- app_assoc. reflexivity.
  - specialize (B N). rewrite H in B. apply IH. assumption.
Qed.

Lemma parse_qs_first : forall q k,
  (forall v, first_value ul q k v -> exists vs, assoc str_eqb k (Url.parse_qs ul q) = Some (v :: vs)) /\
  (absent ul q k -> assoc str_eqb k (Url.parse_qs ul q) = None) /\
  ((exists v, first_value ul q k v) \/ absent ul q k).
Proof.
  intros q k. unfold Url.parse_qs, first_value, absent. change (fun d f => _) with add_field.
  assert (G : forall l d, assoc str_eqb k d = None ->
    (forall v, (exists l1 f l2, l = l1 ++ f :: l2 /\ gives ul f k v /\ forall f' v', In f' l1 -> ~ gives ul f' k v') ->
       exists vs, assoc str_eqb k (fold_left add_field l d) = Some (v :: vs)) /\
    ((forall f v, In f l -> ~ gives ul f k v) -> assoc str_eqb k (fold_left add_field l d) = None) /\
    ((exists v l1 f l2, l = l1 ++ f :: l2 /\ gives ul f k v /\ forall f' v', In f' l1 -> ~ gives ul f' k v') \/
     (forall f v, In f l -> ~ gives ul f k v))).
  { induction l as [|f l IH]; intros d H; cbn [fold_left].
    - split; [intros v (l1 & f & l2 & E & _); destruct l1; discriminate|]. split; [auto|]. right. intros f v [].
    - destruct (add_field_assoc d f k) as [A B]. destruct (gives_dec f k) as [(v0 & G)|N].
      + specialize (A v0 G). rewrite H in A. destruct (fold_assoc l _ _ _ A) as (ws & W). split; [|split].
        * intros v (l1 & f1 & l2 & E & G1 & N1). destruct l1 as [|x l1]; cbn in E; inversion E; subst.
          -- exists ws. rewrite W. cbn. destruct G as (a & b & E1 & X1 & _ & _ & ->). destruct G1 as (a' & b' & E2 & X2 & _ & _ & ->).
             assert (Y : Some (a', b') = Some (a, b)) by (transitivity (Url.cut 61%N f1); [symmetry|]; apply UrlProofs.cut_spec; auto). inversion Y. reflexivity.
          -- exfalso. apply (N1 x v0); [left; reflexivity|assumption].
        * intros N. exfalso. apply (N f v0); [left; reflexivity|assumption].
        * left. exists v0, nil, f, l. split; [reflexivity|]. split; [assumption|]. intros f' v' [].
      + specialize (B N). rewrite H in B. destruct (IH _ B) as (I1 & I2 & I3). split; [|split].
        * intros v (l1 & f1 & l2 & E & G1 & N1). destruct l1 as [|x l1]; cbn in E; inversion E; subst; [exfalso; eapply N; eassumption|].
          apply I1. exists l1, f1, l2. split; [reflexivity|]. split; [assumption|]. intros f' v' I. apply N1. right. assumption.
        * intros N'. apply I2. intros f' v' I. apply N'. right. assumption.
        * destruct I3 as [(v & l1 & f1 & l2 & E & G1 & N1)|I3].
          -- left. exists v, (f :: l1), f1, l2. split; [cbn; congruence|]. split; [assumption|]. intros f' v' [<-|I]; [apply N|apply N1; assumption].
          -- right. intros f' v' [<-|I]; [apply N|apply I3; assumption]. }
  apply G. reflexivity.
Qed.
End Query.

Lemma first_value_fun : forall ul q k v v', first_value ul q k v -> first_value ul q k v' -> v = v'.
Proof.
  intros ul q k v v' H H'. destruct (parse_qs_first ul q k) as (A & _ & _).
  destruct (A _ H) as (vs & E). destruct (A _ H') as (vs' & E'). congruence.
Qed.
Lemma absent_or : forall ul q k v, absent ul q k -> ~ first_value ul q k v.
Proof. intros ul q k v A (l1 & f & l2 & E & G & _). eapply A; [|exact G]. rewrite E. apply in_or_app. right. left. reflexivity. Qed.

(** ** The invariant *)

Lemma redirects_app : forall l l', redirects (l ++ l') = redirects l + redirects l'.
Proof. induction l as [|[] l IH]; intros l'; cbn; auto. Qed.
Lemma shown_app : forall l l', shown (l ++ l') = shown l + shown l'.
Proof. induction l as [|[] l IH]; intros l'; cbn; auto. Qed.
Lemma redirects_in : forall l, redirects l = 0 -> forall u, ~ In (O_redirect u) l.
Proof. induction l as [|e l IH]; intros H u I; [exact I|]. destruct I as [->|I]; [discriminate|]. destruct e; try discriminate; eapply IH; eassumption. Qed.
Lemma shown_in : forall l, shown l = 0 -> forall u, ~ In (O_shown u) l.
Proof. induction l as [|e l IH]; intros H u I; [exact I|]. destruct I as [->|I]; [discriminate|]. destruct e; try discriminate; eapply IH; eassumption. Qed.

Section Invariant.
Variables (env : Env) (ul : Url.UrlLib) (se : Session) (force : bool).

(** a redirect URI, the local one as long as the out-of-band flow is off *)
Definition good_uri (oob : bool) (uri : str) : Prop := uri = redirect_uri se false \/ (oob = true /\ uri = OOB_REDIRECT_URI).

Record inv (w : world) : Prop := {
  i_response : match w_response w with
    | None => forall p, ~ In (O_callback p) (w_log w)
    | Some r => exists path q, only_callback (w_log w) path /\ split_path ul path = Some (redirect_path, q) /\ r = Url.parse_qs ul q
    end;
  i_poison : w_poison w = false -> redirects (w_log w) = 0 /\ shown (w_log w) = 0;
  i_server : match w_server w with S_set uri => redirects (w_log w) = 0 /\ good_uri (w_oob w) uri | S_check uri => good_uri (w_oob w) uri | S_idle => True end;
  i_redirects : redirects (w_log w) <= 1;
  i_main : match w_main w with
    | M_open | M_enable | M_wait => w_oob w = false /\ shown (w_log w) = 0 /\ (forall c, ~ In (O_entered c) (w_log w))
    | M_check | M_set => w_oob w = true /\ shown (w_log w) = 0 /\ (forall c, ~ In (O_entered c) (w_log w))
    | M_input => w_oob w = true /\ shown (w_log w) = 1 /\ (forall c, ~ In (O_entered c) (w_log w))
    | M_done r =>
        (w_oob w = false /\ shown (w_log w) = 0 /\ (forall c, ~ In (O_entered c) (w_log w)) /\ exists x, w_response w = Some x /\ r = judge se x) \/
        (w_oob w = true /\ shown (w_log w) = 0 /\ (forall c, ~ In (O_entered c) (w_log w)) /\
           (r = Raise EIdIdentity \/ exists e, r = Raise e /\ auth_url env se OOB_REDIRECT_URI = Raise e)) \/
        (w_oob w = true /\ shown (w_log w) = 1 /\ exists c, r = Ok c /\ forall c', In (O_entered c') (w_log w) <-> c' = c)
    end;
  i_force : w_main w = M_wait -> force = false;
  i_urls : forall u, issued (w_log w) u -> exists uri, auth_url env se uri = Ok u /\ good_uri (w_oob w) uri;
  i_shown : forall u, In (O_shown u) (w_log w) -> auth_url env se OOB_REDIRECT_URI = Ok u
}.

Lemma good_uri_now : forall o, good_uri o (redirect_uri se o).
Proof. intros [|]; [right; split; reflexivity|left; reflexivity]. Qed.
Lemma good_uri_mono : forall o uri, good_uri o uri -> good_uri true uri.
Proof. intros o uri [H|[_ H]]; [left|right]; auto. Qed.

Lemma only_callback_app : forall l e path, only_callback l path -> (forall p, e <> O_callback p) -> only_callback (l ++ [e]) path.
Proof.
  intros l e path (l1 & l2 & -> & N) Ne. exists l1, (l2 ++ [e]). split; [rewrite <- app_assoc; reflexivity|].
  intros p I. rewrite app_assoc in I. apply in_app_or in I. destruct I as [I|[I|[]]]; [eapply N; eassumption|eapply Ne; eassumption].
Qed.

Ltac log_in := repeat match goal with
  | H : In _ (_ ++ [_]) |- _ => apply in_app_or in H; destruct H as [H|[H|[]]]
  end.

Ltac wcbn := cbn [w_poison w_oob w_response w_server w_main w_log] in *.
Lemma inv_init : inv w_init.
Proof. constructor; cbn; auto; try discriminate; try tauto. intros u [[]|[]]. Qed.

(** an event that is neither a URL nor a callback nor an answer of the user does not matter *)
Definition neutral (e : oevent) : Prop := match e with O_not_found _ | O_dropped => True | _ => False end.
Lemma inv_neutral : forall p o r s m l e, inv (mkWorld p o r s m l) -> neutral e -> inv (mkWorld p o r s m (l ++ [e])).
Proof.
  intros p o r s m l e [I1 I2 I3 I4 I5 I6 I7 I8] Ne. cbn in *.
  assert (R : redirects (l ++ [e]) = redirects l) by (rewrite redirects_app; destruct e; cbn in *; try contradiction; lia).
  assert (S : shown (l ++ [e]) = shown l) by (rewrite shown_app; destruct e; cbn in *; try contradiction; lia).
  assert (IN : forall x, In x (l ++ [e]) <-> In x l \/ x = e) by (intros x; rewrite in_app_iff; cbn; intuition congruence).
  assert (IE : forall c, In (O_entered c) (l ++ [e]) <-> In (O_entered c) l) by (intros c; rewrite IN; split; [intros [H|H]; [auto|subst e; destruct Ne]|auto]).
  constructor; wcbn; rewrite ?R, ?S; auto.
  - destruct r as [r|].
    + destruct I1 as (path & q & H & ? & ?). exists path, q. split; [|auto]. apply only_callback_app; [assumption|]. intros p0 ->. destruct Ne.
    + intros p0 H. apply IN in H. destruct H as [H| <-]; [eapply I1; eassumption|destruct Ne].
  - destruct m; try (destruct I5 as (A & B & C); repeat split; auto; intros c; rewrite IE; apply C).
    destruct I5 as [(A & B & C & D)|[(A & B & C & D)|(A & B & c & D & E)]].
    + left. repeat split; auto. intros c; rewrite IE; apply C.
    + right. left. repeat split; auto. intros c; rewrite IE; apply C.
    + right. right. split; [auto|]. split; [auto|]. exists c. split; [auto|]. intros c'. rewrite IE. apply E.
  - intros u H. apply I7. destruct H as [H|H]; apply IN in H; destruct H as [H| <-]; try (destruct Ne; fail); [left|right]; assumption.
  - intros u H. apply IN in H. destruct H as [H| <-]; [auto|destruct Ne].
Qed.

Lemma inv_step : forall w w', inv w -> wstep env ul se force w w' -> inv w'.
Proof.
  intros w w' H st. inversion st; subst; clear st; try (apply inv_neutral; [exact H|exact I]).
  - (* callback *)
    destruct H as [I1 I2 I3 I4 I5 I6 I7 I8]. wcbn.
    assert (R : redirects (l ++ [O_callback path]) = redirects l) by (rewrite redirects_app; cbn; lia).
    assert (S : shown (l ++ [O_callback path]) = shown l) by (rewrite shown_app; cbn; lia).
    assert (IE : forall c, In (O_entered c) (l ++ [O_callback path]) <-> In (O_entered c) l).
    { intros c. rewrite in_app_iff. cbn. split; [intros [X|[X|[]]]; [auto|discriminate]|auto]. }
    constructor; wcbn; rewrite ?R, ?S; auto.
    + exists path, q. split; [|auto]. exists l, nil. split; [reflexivity|]. rewrite app_nil_r. assumption.
    + destruct m; try (destruct I5 as (A & B & C); repeat split; auto; intros c; rewrite IE; apply C).
      destruct I5 as [(A & B & C & x & D & _)|[(A & B & C & D)|(A & B & c & D & E)]].
      * discriminate.
      * right. left. repeat split; auto. intros c; rewrite IE; apply C.
      * right. right. split; [auto|]. split; [auto|]. exists c. split; [auto|]. intros c'. rewrite IE. apply E.
    + intros u X. apply I7. destruct X as [X|X]; log_in; try discriminate; [left|right]; assumption.
    + intros u X. log_in; [auto|discriminate].
  - (* start *)
    destruct H as [I1 I2 I3 I4 I5 I6 I7 I8]. wcbn. constructor; wcbn; auto using good_uri_now.
  - (* bad check *)
    assert (inv (mkWorld true o r S_idle m l)).
    { destruct H as [I1 I2 I3 I4 I5 I6 I7 I8]. wcbn. constructor; wcbn; auto. }
    apply inv_neutral; [assumption|exact I].
  - (* good check *)
    destruct H as [I1 I2 I3 I4 I5 I6 I7 I8]. wcbn. constructor; wcbn; auto. split; [apply I2; reflexivity|assumption].
  - (* set *)
    destruct H as [I1 I2 I3 I4 I5 I6 I7 I8]. wcbn. destruct I3 as [Z G].
    assert (R : redirects (l ++ [O_redirect url]) = 1) by (rewrite redirects_app; cbn; lia).
    assert (S : shown (l ++ [O_redirect url]) = shown l) by (rewrite shown_app; cbn; lia).
    assert (IE : forall c, In (O_entered c) (l ++ [O_redirect url]) <-> In (O_entered c) l).
    { intros c. rewrite in_app_iff. cbn. split; [intros [X|[X|[]]]; [auto|discriminate]|auto]. }
    constructor; wcbn; rewrite ?R, ?S; auto; try discriminate.
    + destruct r as [r|].
      * destruct I1 as (path & q & X & ? & ?). exists path, q. split; [|auto]. apply only_callback_app; [assumption|discriminate].
      * intros p0 X. log_in; [eapply I1; eassumption|discriminate].
    + destruct m; try (destruct I5 as (A & B & C); repeat split; auto; intros c; rewrite IE; apply C).
      destruct I5 as [(A & B & C & D)|[(A & B & C & D)|(A & B & c & D & E)]].
      * left. repeat split; auto. intros c; rewrite IE; apply C.
      * right. left. repeat split; auto. intros c; rewrite IE; apply C.
      * right. right. split; [auto|]. split; [auto|]. exists c. split; [auto|]. intros c'. rewrite IE. apply E.
    + intros u X. destruct X as [X|X]; log_in; try discriminate; [apply I7; left; assumption| |apply I7; right; assumption].
      exists uri. split; [congruence|assumption].
    + intros u X. log_in; [auto|discriminate].
  - (* set, bad *)
    assert (inv (mkWorld true o r S_idle m l)).
    { destruct H as [I1 I2 I3 I4 I5 I6 I7 I8]. wcbn. constructor; wcbn; auto; discriminate. }
    apply inv_neutral; [assumption|exact I].
  - destruct H as [I1 I2 I3 I4 I5 I6 I7 I8]. wcbn. constructor; wcbn; auto.
  - destruct H as [I1 I2 I3 I4 I5 I6 I7 I8]. wcbn. constructor; wcbn; auto; discriminate.
  - (* enable *)
    destruct H as [I1 I2 I3 I4 I5 I6 I7 I8]. wcbn. constructor; wcbn; auto; try discriminate.
    + destruct s; auto; [eapply good_uri_mono; eassumption|]. destruct I3. split; [auto|eapply good_uri_mono; eassumption].
    + destruct I5 as (A & B & C). auto.
    + intros u X. destruct (I7 u X) as (uri & E & G). exists uri. split; [auto|eapply good_uri_mono; eassumption].
  - (* main check, bad *)
    destruct H as [I1 I2 I3 I4 I5 I6 I7 I8]. wcbn. constructor; wcbn; auto; try discriminate.
    destruct I5 as (A & B & C). right. left. auto.
  - destruct H as [I1 I2 I3 I4 I5 I6 I7 I8]. wcbn. constructor; wcbn; auto; try discriminate.
  - (* main set *)
    destruct H as [I1 I2 I3 I4 I5 I6 I7 I8]. wcbn. destruct I5 as (-> & B & C).
    match goal with X : auth_url env se _ = Ok url |- _ => change (redirect_uri se true) with OOB_REDIRECT_URI in X; rename X into AU end.
    assert (R : redirects (l ++ [O_shown url]) = redirects l) by (rewrite redirects_app; cbn; lia).
    assert (S : shown (l ++ [O_shown url]) = 1) by (rewrite shown_app; cbn; lia).
    constructor; wcbn; rewrite ?R, ?S; auto; try discriminate.
    + destruct r as [r|].
      * destruct I1 as (path & q & X & ? & ?). exists path, q. split; [|auto]. apply only_callback_app; [assumption|discriminate].
      * intros p0 X. log_in; [eapply I1; eassumption|discriminate].
    + repeat split; auto. intros c X. log_in; [eapply C; eassumption|discriminate].
    + intros u X. destruct X as [X|X]; log_in; try discriminate; [apply I7; left; assumption|apply I7; right; assumption|].
      exists OOB_REDIRECT_URI. split; [congruence|right; auto].
    + intros u X. log_in; [auto|congruence].
  - (* main set, bad *)
    destruct H as [I1 I2 I3 I4 I5 I6 I7 I8]. wcbn. destruct I5 as (-> & B & C). constructor; wcbn; auto; try discriminate.
    right. left. repeat split; auto. right. exists e. auto.
  - (* input *)
    destruct H as [I1 I2 I3 I4 I5 I6 I7 I8]. wcbn. destruct I5 as (-> & B & C).
    assert (R : redirects (l ++ [O_entered code]) = redirects l) by (rewrite redirects_app; cbn; lia).
    assert (S : shown (l ++ [O_entered code]) = shown l) by (rewrite shown_app; cbn; lia).
    constructor; wcbn; rewrite ?R, ?S; auto; try discriminate.
    + destruct r as [r|].
      * destruct I1 as (path & q & X & ? & ?). exists path, q. split; [|auto]. apply only_callback_app; [assumption|discriminate].
      * intros p0 X. log_in; [eapply I1; eassumption|discriminate].
    + right. right. split; [auto|]. split; [auto|]. exists code. split; [reflexivity|]. intros c'. split.
      * intros X. log_in; [destruct (C _ X)|congruence].
      * intros ->. apply in_or_app. right. left. reflexivity.
    + intros u X. apply I7. destruct X as [X|X]; log_in; try discriminate; [left|right]; assumption.
    + intros u X. log_in; [auto|discriminate].
  - (* poll *)
    destruct H as [I1 I2 I3 I4 I5 I6 I7 I8]. wcbn. constructor; wcbn; auto; try discriminate.
    destruct I5 as (A & B & C). left. repeat split; auto. exists r. auto.
Qed.

Lemma inv_run : forall w, wrun env ul se force w -> inv w.
Proof. intros w R. induction R; [apply inv_init|eapply inv_step; eassumption]. Qed.
End Invariant.

(** ** Authorization URLs *)

Lemma dec_Z_ascii : forall z, is_ascii (dec_Z z) = true.
Proof.
  assert (D : forall n, is_ascii (dec n) = true).
  { intros n. pose proof (dec_digits n) as H. unfold is_ascii. apply forallb_forall. intros c I. rewrite forallb_forall in H. specialize (H c I).
    unfold is_digit in H. apply andb_true_iff in H as [_ H]. apply N.leb_le in H. apply N.ltb_lt. lia. }
  intros [|p|p]; cbn [dec_Z]; [apply D|apply D|]. unfold is_ascii in *. cbn [forallb]. rewrite D. reflexivity.
Qed.
Lemma challenge_ascii : forall env se, is_ascii (code_challenge env se) = true.
Proof.
  intros env se. unfold code_challenge, urlsafe_nopad. pose proof (b64encode_ascii (e_hash env SHA256 (ascii_bytes (s_verifier se)))) as A.
  unfold is_ascii in *. rewrite forallb_forall in A. apply forallb_forall. intros c I. apply in_map_iff in I. destruct I as (d & <- & I).
  apply filter_In in I as [I _]. specialize (A d I). destruct (N.eqb d 43); [reflexivity|]. destruct (N.eqb d 47); [reflexivity|exact A].
Qed.
Lemma ascii_encodable : forall s, is_ascii s = true -> encodable s.
Proof. intros s H. exists (map n2b s). apply utf8_encode_ascii, H. Qed.
Lemma redirect_ascii : forall se o, is_ascii (redirect_uri se o) = true.
Proof. intros se [|]; [reflexivity|]. unfold redirect_uri, base_uri. rewrite !is_ascii_app, dec_Z_ascii. reflexivity. Qed.

Lemma auth_url_ok : forall env se uri, writable se -> encodable uri -> exists url, auth_url env se uri = Ok url.
Proof.
  intros env se uri (A & B & C) U. unfold auth_url, Url.authorization_url, Url.urlencode.
  destruct (UrlProofs.encode_fields_ok (auth_params env se uri)) as [fs F]; [|rewrite F; eexists; reflexivity].
  intros k v I. assert (K : forall t, is_ascii t = true -> exists b, utf8_encode t = Some b) by (intros t H; apply ascii_encodable, H).
  repeat (destruct I as [I|I]; [injection I as <- <-; split; try (apply K; reflexivity); try assumption|]); [apply K, challenge_ascii|destruct I].
Qed.
Lemma auth_url_raise : forall env se uri e, auth_url env se uri = Raise e -> e = EUnicodeEncode.
Proof.
  intros env se uri e H. unfold auth_url, Url.authorization_url, Url.urlencode in H.
  destruct (Url.encode_fields _) eqn:E; cbn [bind] in H; [discriminate|]. apply UrlProofs.encode_fields_raise in E. congruence.
Qed.
Lemma auth_url_latin1 : forall env se uri url, sendable se -> auth_url env se uri = Ok url -> latin1 url = true.
Proof.
  intros env se uri url [_ L] H. unfold auth_url, Url.authorization_url in H. destruct (Url.urlencode _) as [q|] eqn:Q; cbn [bind] in H; [|discriminate].
  injection H as <-. apply forallb_forall. intros c I. apply N.ltb_lt. apply in_app_or in I. destruct I as [I|[<-|I]]; [apply L, I|reflexivity|].
  pose proof (UrlProofs.urlencode_ascii _ _ _ Q I). lia.
Qed.
Lemma field_names : forall ul kv f, UrlProofs.field_of kv f -> names ul kv f.
Proof.
  intros ul kv f (a & b & A & B & ->). exists a, b. split; [reflexivity|]. split; [eapply UrlProofs.form_not; [exact A|reflexivity|lia|lia]|].
  split; symmetry; apply UrlProofs.form_roundtrip; assumption.
Qed.
Lemma auth_url_asks : forall env ul se uri url, auth_url env se uri = Ok url -> asks ul url (s_auth_endpoint se) (auth_params env se uri).
Proof.
  intros env ul se uri url H. unfold auth_url, Url.authorization_url in H. destruct (Url.urlencode _) as [q|] eqn:Q; cbn [bind] in H; [|discriminate].
  injection H as <-. exists q. split; [reflexivity|]. apply UrlProofs.urlencode_split in Q; [|discriminate]. destruct Q as (fs & F & _ & ->).
  induction F; constructor; [apply field_names; assumption|assumption].
Qed.
Lemma auth_param : forall env ul se uri url k v, auth_url env se uri = Ok url -> assoc str_eqb (s2l k) (auth_params env se uri) = Some v -> param ul url (s_auth_endpoint se) k v.
Proof. intros env ul se uri url k v H A. exists (auth_params env se uri). split; [eapply auth_url_asks; exact H|exact A]. Qed.

(** ** C51: which code is exchanged *)

Lemma s2l_ne : forall ul q k v vs, assoc str_eqb k (Url.parse_qs ul q) = Some (v :: vs) -> first_value ul q k v.
Proof.
  intros ul q k v vs H. destruct (parse_qs_first ul q k) as (A & B & [(v' & C)|C]).
  - destruct (A _ C) as (ws & E). assert (v' = v) by congruence. subst. assumption.
  - rewrite (B C) in H. discriminate.
Qed.

Ltac contra := match goal with A : absent ?p ?q ?k, F : first_value ?p ?q ?k ?v |- _ => exfalso; exact (absent_or _ _ _ _ A F) end.

(** In the browser flow exactly one callback decides, and the code in it is used if and only if
    the callback has no error and its state is that of the session. *)
Theorem C51_in_band : forall env ul se force w r,
  wrun env ul se force w -> w_main w = M_done r -> w_oob w = false ->
  exists path q, only_callback (w_log w) path /\ split_path ul path = Some (s2l "/auth/callback", q) /\
    (forall code, r = Ok code <->
       absent ul q (s2l "error") /\ first_value ul q (s2l "state") (s_state se) /\ first_value ul q (s2l "code") code) /\
    (r = Raise EIdentity <->
       (exists v, first_value ul q (s2l "error") v) \/
       exists v, first_value ul q (s2l "state") v /\ v <> s_state se) /\
    (forall e, r = Raise e -> e = EIdentity \/ e = EKey /\ (absent ul q (s2l "state") \/ absent ul q (s2l "code"))).
Proof.
  intros env ul se force w r R M O. pose proof (inv_run _ _ _ _ _ R) as I.
  pose proof (i_main _ _ _ _ _ I) as IM. pose proof (i_response _ _ _ _ _ I) as IR. rewrite M in IM. rewrite O in IM.
  destruct IM as [(_ & _ & _ & x & Rx & ->)|[(X & _)|(X & _)]]; try discriminate. rewrite Rx in IR.
  destruct IR as (path & q & OC & US & ->). exists path, q. split; [assumption|]. split; [assumption|].
  unfold judge.
  destruct (parse_qs_first ul q (s2l "error")) as (A1 & B1 & D1).
  destruct (parse_qs_first ul q (s2l "state")) as (A2 & B2 & D2).
  destruct (parse_qs_first ul q (s2l "code")) as (A3 & B3 & D3).
  destruct D1 as [(v1 & D1)|D1].
  { destruct (A1 _ D1) as (vs & E). rewrite E. split; [|split].
    - intros code. split; [discriminate|]. intros (X & _). contra.
    - split; [intros _; left; eauto|reflexivity].
    - intros e X. left. congruence. }
  rewrite (B1 D1). destruct D2 as [(v2 & D2)|D2].
  2: { rewrite (B2 D2). split; [|split].
    - intros code. split; [discriminate|]. intros (_ & X & _). contra.
    - split; [discriminate|]. intros [(v & X)|(v & X & _)]; contra.
    - intros e X. right. split; [congruence|left; assumption]. }
  destruct (A2 _ D2) as (vs & E). rewrite E. cbn [index_list nth_error bind].
  destruct (str_eqb v2 (s_state se)) eqn:Es; cbn [negb].
  2: { assert (Ne : v2 <> s_state se) by (intros ->; rewrite str_eqb_refl in Es; discriminate). split; [|split].
    - intros code. split; [discriminate|]. intros (_ & X & _). exfalso. apply Ne. eapply first_value_fun; eassumption.
    - split; [intros _; right; eauto|reflexivity].
    - intros e X. left. congruence. }
  apply str_eqb_spec in Es. subst v2. destruct D3 as [(v3 & D3)|D3].
  - destruct (A3 _ D3) as (ws & E3). rewrite E3. cbn [index_list nth_error]. split; [|split].
    + intros code. split; [intros X; inversion X; subst; auto|]. intros (_ & _ & X). f_equal. eapply first_value_fun; eassumption.
    + split; [discriminate|]. intros [(v & X)|(v & X & Ne)]; [contra|exfalso; apply Ne; eapply first_value_fun; [exact X|eassumption]].
    + discriminate.
  - rewrite (B3 D3). split; [|split].
    + intros code. split; [discriminate|]. intros (_ & _ & X). contra.
    + split; [discriminate|]. intros [(v & X)|(v & X & Ne)]; [contra|exfalso; apply Ne; eapply first_value_fun; [exact X|eassumption]].
    + intros e X. right. split; [congruence|right; assumption].
Qed.

(** In the out-of-band flow the code is what the user typed, once, after the URL was printed; HTTP
    requests have no influence on it. *)
Theorem C51_out_of_band : forall env ul se force w r,
  wrun env ul se force w -> w_main w = M_done r -> w_oob w = true ->
  (exists code, r = Ok code /\ shown (w_log w) = 1 /\ forall c, In (O_entered c) (w_log w) <-> c = code) \/
  ((r = Raise EIdIdentity \/ (r = Raise EUnicodeEncode /\ ~ writable se)) /\ shown (w_log w) = 0 /\ forall c, ~ In (O_entered c) (w_log w)).
Proof.
  intros env ul se force w r R M O. pose proof (inv_run _ _ _ _ _ R) as I.
  pose proof (i_main _ _ _ _ _ I) as IM. rewrite M in IM. rewrite O in IM.
  destruct IM as [(X & _)|[(_ & A & B & C)|(_ & A & c & B & C)]]; [discriminate|right|left; eauto].
  split; [|auto]. destruct C as [C|(e & -> & C)]; [left; exact C|right]. pose proof (auth_url_raise _ _ _ _ C) as ->. split; [reflexivity|].
  intros W. destruct (auth_url_ok env se OOB_REDIRECT_URI W (ascii_encodable OOB_REDIRECT_URI eq_refl)) as [url U]. congruence.
Qed.

(** [force_oob] is respected: no callback can decide. *)
Lemma force_not_waiting : forall env ul se w, wrun env ul se true w -> w_main w <> M_wait.
Proof. intros env ul se w R M. pose proof (i_force _ _ _ _ _ (inv_run _ _ _ _ _ R) M). discriminate. Qed.
Theorem C51_forced_out_of_band : forall env ul se w r,
  wrun env ul se true w -> w_main w = M_done r -> w_oob w = true.
Proof.
  intros env ul se w r R. revert r. induction R as [|w w' R IH st]; intros r M; [discriminate|].
  pose proof (force_not_waiting _ _ _ _ R) as NW. pose proof (inv_run _ _ _ _ _ R) as I. pose proof (i_main _ _ _ _ _ I) as IM.
  inversion st; subst; cbn [w_main w_oob] in *; try (eapply IH; eassumption); try discriminate; try congruence; apply IM.
Qed.

(** Once a callback was answered, nothing that happens later changes the result. *)
Theorem C51_first_callback_final : forall env ul se force w w' r,
  wrun env ul se force w -> w_response w = Some r -> wstep env ul se force w w' ->
  w_response w' = Some r /\ forall path, In (O_callback path) (w_log w') -> In (O_callback path) (w_log w).
Proof.
  intros env ul se force w w' r R H st. inversion st; subst; cbn [w_response w_log] in *; try discriminate; (split; [assumption|]); intros p0 I; try assumption;
  apply in_app_or in I; destruct I as [I|[I|[]]]; try assumption; discriminate.
Qed.

(** A callback by anybody with a wrong state, an error or no state ends the flow with an
    exception, at any time before the genuine one. *)
Theorem C51_anyone_can_abort : forall env ul se force w path q,
  wrun env ul se force w -> w_main w = M_wait -> w_response w = None -> w_server w = S_idle ->
  split_path ul path = Some (s2l "/auth/callback", q) -> ~ first_value ul q (s2l "state") (s_state se) ->
  exists w' e, wrun env ul se force w' /\ w_log w' = w_log w ++ [O_callback path] /\ w_main w' = M_done (Raise e).
Proof.
  intros env ul se force [p o r s m l] path q R M Rs Sv U N. cbn [w_main w_response w_server w_log] in *. subst.
  pose proof (wr_step _ _ _ _ _ _ R (ws_callback _ _ _ _ _ _ _ _ _ _ U)) as R1.
  pose proof (wr_step _ _ _ _ _ _ R1 (ws_poll _ _ _ _ _ _ _ _ _)) as R2.
  pose proof (inv_run _ _ _ _ _ R) as I. pose proof (i_main _ _ _ _ _ I) as (O & _). cbn [w_oob] in O. subst o.
  destruct (C51_in_band _ _ _ _ _ _ R2 eq_refl eq_refl) as (path' & q' & (l1 & l2 & E & NC) & U' & Ok_iff & _ & _).
  assert (path' = path).
  { cbn [w_log] in E. assert (X : In (O_callback path) (l1 ++ O_callback path' :: l2)) by (rewrite <- E; apply in_or_app; right; left; reflexivity).
    apply in_app_or in X. destruct X as [X|[X|X]]; [|congruence|]; exfalso; eapply NC; apply in_or_app; [left|right]; eassumption. }
  subst path'. assert (q' = q) by congruence. subst q'.
  destruct (judge se (Url.parse_qs ul q)) as [code|e] eqn:J.
  - exfalso. apply N. apply (proj1 (Ok_iff code) eq_refl).
  - eexists; exists e. split; [exact R2|]. cbn [w_log w_main]. auto.
Qed.

(** ** The refuted part of C51: the state is not a secret *)

(** what a process on the same machine can make of the redirect it is given: its last field, with a code *)
Definition forged (code url : str) : str := s2l "/auth/callback?code=" ++ code ++ 38%N :: last (split_on 38%N url) nil.

Lemma gives_field : forall ul a b, ~ In 61%N a -> b <> nil -> gives ul (a ++ 61%N :: b) (Url.form_decode ul a) (Url.form_decode ul b).
Proof. intros ul a b N Ne. exists a, b. auto. Qed.
Lemma gives_unique : forall ul a b k v, ~ In 61%N a -> gives ul (a ++ 61%N :: b) k v -> k = Url.form_decode ul a /\ v = Url.form_decode ul b.
Proof.
  intros ul a b k v N (a' & b' & E & N' & _ & -> & ->).
  assert (X : Some (a', b') = Some (a, b)).
  { transitivity (Url.cut 61%N (a' ++ 61%N :: b')); [symmetry; apply UrlProofs.cut_spec; auto|]. rewrite <- E. apply UrlProofs.cut_spec. auto. }
  inversion X; subst. auto.
Qed.
Lemma encoded_nonempty : forall s t, Url.quote_plus s = Ok t -> s <> nil -> t <> nil.
Proof.
  intros s t Q N ->. apply N. unfold Url.quote_plus in Q. destruct (utf8_encode s) as [[|x b]|] eqn:E; [|cbn [flat_map] in Q|discriminate].
  - apply utf8_decode_encode in E. injection E as <-. reflexivity.
  - injection Q as Q. destruct (N.eqb (b2n x) 32); [discriminate|]. unfold Tuf.quote_byte in Q. cbv zeta in Q. destruct (Tuf.quote_safe _); discriminate.
Qed.
Lemma forged_query : forall ul code st c t, Url.quote_plus code = Ok c -> Url.quote_plus st = Ok t -> code <> nil -> st <> nil ->
  let q := s2l "code" ++ 61%N :: c ++ 38%N :: s2l "state" ++ 61%N :: t in
  absent ul q (s2l "error") /\ first_value ul q (s2l "state") st /\ first_value ul q (s2l "code") code.
Proof.
  intros ul code st c t Qc Qt Nc Ns q.
  assert (N1 : ~ In 61%N (s2l "code")) by (cbn; intuition discriminate). assert (N2 : ~ In 61%N (s2l "state")) by (cbn; intuition discriminate).
  assert (M1 : ~ In 38%N (s2l "code" ++ 61%N :: c)).
  { intros I. apply in_app_or in I. destruct I as [I|[I|I]]; [cbn in I; intuition discriminate|discriminate|]. revert I. eapply UrlProofs.form_not; [exact Qc|reflexivity|lia|lia]. }
  assert (M2 : ~ In 38%N (s2l "state" ++ 61%N :: t)).
  { intros I. apply in_app_or in I. destruct I as [I|[I|I]]; [cbn in I; intuition discriminate|discriminate|]. revert I. eapply UrlProofs.form_not; [exact Qt|reflexivity|lia|lia]. }
  assert (D1 : Url.form_decode ul (s2l "code") = s2l "code") by reflexivity. assert (D2 : Url.form_decode ul (s2l "state") = s2l "state") by reflexivity.
  assert (D3 : Url.form_decode ul c = code) by (apply UrlProofs.form_roundtrip; exact Qc).
  assert (D4 : Url.form_decode ul t = st) by (apply UrlProofs.form_roundtrip; exact Qt).
  assert (E : split_on 38%N q = [s2l "code" ++ 61%N :: c; s2l "state" ++ 61%N :: t]).
  { unfold q. replace (s2l "code" ++ 61%N :: c ++ 38%N :: s2l "state" ++ 61%N :: t)
      with ((s2l "code" ++ 61%N :: c) ++ 38%N :: (s2l "state" ++ 61%N :: t)) by (rewrite <- app_assoc; reflexivity).
    rewrite UrlProofs.split_first by exact M1. rewrite UrlProofs.split_one by exact M2. reflexivity. }
  assert (G1 : gives ul (s2l "code" ++ 61%N :: c) (s2l "code") code).
  { pose proof (gives_field ul (s2l "code") c N1 (encoded_nonempty _ _ Qc Nc)) as G. rewrite D1, D3 in G. exact G. }
  assert (G2 : gives ul (s2l "state" ++ 61%N :: t) (s2l "state") st).
  { pose proof (gives_field ul (s2l "state") t N2 (encoded_nonempty _ _ Qt Ns)) as G. rewrite D2, D4 in G. exact G. }
  split; [|split].
  - intros f v I G. rewrite E in I. destruct I as [<-|[<-|[]]]; apply gives_unique in G; auto; destruct G as [G _]; [rewrite D1 in G|rewrite D2 in G]; discriminate.
  - exists [s2l "code" ++ 61%N :: c], (s2l "state" ++ 61%N :: t), nil. split; [exact E|]. split; [exact G2|].
    intros f' v' [<-|[]] G. apply gives_unique in G; auto. rewrite D1 in G. destruct G as [G _]. discriminate.
  - exists nil, (s2l "code" ++ 61%N :: c), [s2l "state" ++ 61%N :: t]. split; [exact E|]. split; [exact G1|]. intros f' v' [].
Qed.

(** the last field of an authorization URL is the state *)
Lemma auth_url_state : forall env se uri url, auth_url env se uri = Ok url ->
  exists t, Url.quote_plus (s_state se) = Ok t /\ last (split_on 38%N url) nil = s2l "state" ++ 61%N :: t.
Proof.
  intros env se uri url H. unfold auth_url, Url.authorization_url in H. destruct (Url.urlencode _) as [q|] eqn:Q; cbn [bind] in H; [|discriminate].
  injection H as <-. apply UrlProofs.urlencode_split in Q; [|discriminate]. destruct Q as (fs & F & -> & _). unfold auth_params in F.
  assert (C : forall x l fs, Forall2 UrlProofs.field_of (x :: l) fs -> exists f r, fs = f :: r /\ UrlProofs.field_of x f /\ Forall2 UrlProofs.field_of l r).
  { intros x l gs G. inversion G; subst. eauto. }
  apply C in F as (f1 & fs1 & -> & _ & F). apply C in F as (f2 & fs2 & -> & _ & F). apply C in F as (f3 & fs3 & -> & _ & F).
  apply C in F as (f4 & fs4 & -> & _ & F). apply C in F as (f5 & fs5 & -> & _ & F). apply C in F as (f6 & fs6 & -> & _ & F).
  apply C in F as (f7 & fs7 & -> & _ & F). apply C in F as (y & fs8 & -> & S & F). inversion F; subst. clear F C.
  assert (N : ~ In 38%N y) by (eapply UrlProofs.field_no; [exact S|reflexivity|lia|lia|lia]).
  destruct S as (a & t & A & T & Ey). cbn [fst snd] in A, T. assert (a = s2l "state") by (vm_compute in A; injection A as <-; reflexivity). subst a.
  exists t. split; [exact T|]. rewrite <- Ey. clear Ey. cbn [join_on].
  match goal with |- last (split_on _ ?u) nil = y => assert (X : u =
    (s_auth_endpoint se ++ 63%N :: f1 ++ 38%N :: f2 ++ 38%N :: f3 ++ 38%N :: f4 ++ 38%N :: f5 ++ 38%N :: f6 ++ 38%N :: f7) ++ 38%N :: y) end.
  { repeat (rewrite <- app_assoc; cbn [app]). reflexivity. }
  rewrite X. apply UrlProofs.last_after, N.
Qed.

Lemma split_callback : forall ul q, (forall c, In c q -> Tuf.quote_safe c = true \/ In c [37%N; 38%N; 43%N; 61%N]) ->
  split_path ul (s2l "/auth/callback" ++ 63%N :: q) = Some (s2l "/auth/callback", q).
Proof.
  intros ul q H. unfold split_path. change (s2l "/auth/callback" ++ 63%N :: q) with (47%N :: s2l "auth/callback" ++ 63%N :: q).
  rewrite UrlProofs.urlsplit_local; [reflexivity| | |].
  - intros c I. assert (F : forallb (fun c => negb (Url.unsafe c) && negb (N.eqb c 35) && negb (N.eqb c 63)) (s2l "auth/callback") = true) by reflexivity.
    rewrite forallb_forall in F. specialize (F c I). apply andb_true_iff in F as [F F3]. apply andb_true_iff in F as [F1 F2].
    apply negb_true_iff in F1, F2, F3. apply N.eqb_neq in F2, F3. auto.
  - intros c I. destruct (H c I) as [S|S].
    + split; [apply UrlProofs.safe_not_unsafe, S|]. apply UrlProofs.safe_range in S. lia.
    + destruct S as [<-|[<-|[<-|[<-|[]]]]]; split; try reflexivity; discriminate.
  - discriminate.
Qed.
Lemma split_root : forall ul, split_path ul (s2l "/") = Some (s2l "/", nil).
Proof. reflexivity. Qed.
Lemma first_callback : forall l path path' l1 l2, l ++ [O_callback path] = l1 ++ O_callback path' :: l2 -> (forall p, ~ In (O_callback p) (l1 ++ l2)) -> path' = path.
Proof.
  intros l path path' l1 l2 E NC. assert (X : In (O_callback path) (l1 ++ O_callback path' :: l2)) by (rewrite <- E; apply in_or_app; right; left; reflexivity).
  apply in_app_or in X. destruct X as [X|[X|X]]; [|congruence|]; exfalso; eapply NC; apply in_or_app; [left|right]; eassumption.
Qed.

Lemma callback_query : forall ul code st c t, Url.quote_plus code = Ok c -> Url.quote_plus st = Ok t ->
  split_path ul (s2l "/auth/callback?code=" ++ c ++ s2l "&state=" ++ t) =
    Some (redirect_path, s2l "code" ++ 61%N :: c ++ 38%N :: s2l "state" ++ 61%N :: t).
Proof.
  intros ul code st c t C T. set (q := s2l "code" ++ 61%N :: c ++ 38%N :: s2l "state" ++ 61%N :: t).
  assert (F : s2l "/auth/callback?code=" ++ c ++ s2l "&state=" ++ t = s2l "/auth/callback" ++ 63%N :: q).
  { unfold q. change (s2l "/auth/callback?code=") with (s2l "/auth/callback" ++ 63%N :: s2l "code" ++ [61%N]).
    change (s2l "&state=") with (38%N :: s2l "state" ++ [61%N]).
    repeat (rewrite <- app_assoc || cbn [app]). reflexivity. }
  rewrite F. apply split_callback. intros x I. unfold q in I.
  assert (K : forall s r y, Url.quote_plus s = Ok r -> In y r -> Tuf.quote_safe y = true \/ In y [37%N; 38%N; 43%N; 61%N]).
  { intros s r y Q Iy. destruct (UrlProofs.form_chars _ _ _ Q Iy) as [Z|[Z|Z]]; [left; exact Z|right; rewrite Z; cbn; auto 6|right; rewrite Z; cbn; auto 6]. }
  apply in_app_or in I. destruct I as [I|[<-|I]]; [left; apply (proj1 (forallb_forall Tuf.quote_safe (s2l "code")) eq_refl x I)|right; cbn; auto 6|].
  apply in_app_or in I. destruct I as [I|[<-|I]]; [exact (K _ _ _ C I)|right; cbn; auto 6|].
  apply in_app_or in I. destruct I as [I|[<-|I]]; [left; apply (proj1 (forallb_forall Tuf.quote_safe (s2l "state")) eq_refl x I)|right; cbn; auto 6|exact (K _ _ _ T I)].
Qed.

(** What a provider sends back decides: when the browser comes back with a code and a state, both written the
    way a form field is, the flow ends with exactly that code if the state is the one the session sent out, and
    with an identity error if it is not. *)
Theorem C51_provider_answer : forall env ul se force w r code st c t,
  wrun env ul se force w -> w_main w = M_done r -> w_oob w = false ->
  code <> nil -> st <> nil -> Url.quote_plus code = Ok c -> Url.quote_plus st = Ok t ->
  In (O_callback (s2l "/auth/callback?code=" ++ c ++ s2l "&state=" ++ t)) (w_log w) ->
  (st = s_state se -> r = Ok code) /\ (st <> s_state se -> r = Raise EIdentity).
Proof.
  intros env ul se force w r code st c t R M O Nc Ns C T I.
  destruct (C51_in_band _ _ _ _ _ _ R M O) as (path & q & (l1 & l2 & E & NC) & U & Ok_iff & Id_iff & _).
  assert (P : path = s2l "/auth/callback?code=" ++ c ++ s2l "&state=" ++ t).
  { rewrite E in I. apply in_app_or in I. destruct I as [I|[I|I]]; [|injection I as ->; reflexivity|]; exfalso; eapply NC; apply in_or_app; [left|right]; exact I. }
  pose proof (callback_query ul code st c t C T) as Q. rewrite <- P, U in Q. injection Q as ->.
  destruct (forged_query ul code st c t C T Nc Ns) as (A & F & G). split.
  - intros ->. apply Ok_iff. auto.
  - intros Ne. apply Id_iff. right. exists st. auto.
Qed.

(** The expectation "the code that is exchanged comes from the browser of the user, who was sent
    to the provider" fails: a process on the same machine that asks first is given the state and
    can have any code exchanged.  For every session and every code. *)
Theorem C51_forged_callback_refuted : forall env ul se code,
  sendable se -> s_state se <> nil -> encodable code -> code <> nil ->
  exists w url c, wrun env ul se false w /\ Url.quote_plus code = Ok c /\
    w_log w = [O_redirect url; O_callback (forged c url)] /\ w_main w = M_done (Ok code).
Proof.
  intros env ul se code Sd Ns [cb Ec] Nc.
  destruct (auth_url_ok env se (redirect_uri se false) (proj1 Sd) (ascii_encodable _ (redirect_ascii se false))) as [url U].
  pose proof (auth_url_latin1 _ _ _ _ Sd U) as L. destruct (auth_url_state _ _ _ _ U) as (t & T & La).
  destruct (UrlProofs.quote_plus_ok _ _ Ec) as [c C]. set (q := s2l "code" ++ 61%N :: c ++ 38%N :: s2l "state" ++ 61%N :: t).
  assert (F : forged c url = s2l "/auth/callback" ++ 63%N :: q).
  { unfold forged, q. rewrite La. change (s2l "/auth/callback?code=") with (s2l "/auth/callback" ++ 63%N :: s2l "code" ++ [61%N]).
    rewrite <- !app_assoc. cbn [app]. rewrite <- !app_assoc. reflexivity. }
  assert (UF : split_path ul (forged c url) = Some (redirect_path, q)).
  { rewrite F. apply split_callback. intros x I. unfold q in I.
    assert (K : forall s r y, Url.quote_plus s = Ok r -> In y r -> Tuf.quote_safe y = true \/ In y [37%N; 38%N; 43%N; 61%N]).
    { intros s r y Q Iy. destruct (UrlProofs.form_chars _ _ _ Q Iy) as [Z|[Z|Z]]; [left; exact Z|right; rewrite Z; cbn; auto 6|right; rewrite Z; cbn; auto 6]. }
    apply in_app_or in I. destruct I as [I|[<-|I]]; [left; apply (proj1 (forallb_forall Tuf.quote_safe (s2l "code")) eq_refl x I)|right; cbn; auto 6|].
    apply in_app_or in I. destruct I as [I|[<-|I]]; [exact (K _ _ _ C I)|right; cbn; auto 6|].
    apply in_app_or in I. destruct I as [I|[<-|I]]; [left; apply (proj1 (forallb_forall Tuf.quote_safe (s2l "state")) eq_refl x I)|right; cbn; auto 6|exact (K _ _ _ T I)]. }
  pose proof (wr_init env ul se false) as R0. unfold w_init in R0.
  pose proof (wr_step _ _ _ _ _ _ R0 (ws_opened _ _ _ _ _ _ _ _ _ eq_refl)) as R1.
  pose proof (wr_step _ _ _ _ _ _ R1 (ws_start _ _ _ _ _ _ _ _ _ _ (split_root ul))) as R2.
  pose proof (wr_step _ _ _ _ _ _ R2 (ws_check_good _ _ _ _ _ _ _ _ _)) as R3.
  pose proof (wr_step _ _ _ _ _ _ R3 (ws_set _ _ _ _ _ _ _ _ _ _ _ U L)) as R4.
  pose proof (wr_step _ _ _ _ _ _ R4 (ws_callback _ _ _ _ _ _ _ _ _ _ UF)) as R5.
  pose proof (wr_step _ _ _ _ _ _ R5 (ws_poll _ _ _ _ _ _ _ _ _)) as R6.
  assert (J : judge se (Url.parse_qs ul q) = Ok code).
  { destruct (C51_in_band _ _ _ _ _ _ R6 eq_refl eq_refl) as (path' & q' & (l1 & l2 & E & NC) & U' & Ok_iff & _ & _).
    assert (path' = forged c url) by (eapply first_callback; [cbn [w_log] in E; exact E|exact NC]).
    subst path'. assert (q' = q) by congruence. subst q'. apply Ok_iff. eapply forged_query; eassumption. }
  rewrite J in R6. eexists; exists url, c. split; [exact R6|]. split; [exact C|]. split; reflexivity.
Qed.

(** A callback without a state is not an authentication error but a KeyError. *)
Theorem C51_missing_parameters_refuted : forall env ul se path,
  split_path ul path = Some (s2l "/auth/callback", nil) ->
  exists w, wrun env ul se false w /\ w_main w = M_done (Raise EKey) /\ is_sigstore_error EKey = false.
Proof.
  intros env ul se path U.
  pose proof (wr_init env ul se false) as R0. unfold w_init in R0.
  pose proof (wr_step _ _ _ _ _ _ R0 (ws_opened _ _ _ _ _ _ _ _ _ eq_refl)) as R1.
  pose proof (wr_step _ _ _ _ _ _ R1 (ws_callback _ _ _ _ _ _ _ _ _ _ U)) as R2.
  pose proof (wr_step _ _ _ _ _ _ R2 (ws_poll _ _ _ _ _ _ _ _ _)) as R3.
  eexists. split; [exact R3|]. split; reflexivity.
Qed.

(** ** C52: authorization URLs and PKCE *)

(** text of the URL-safe alphabet without padding *)
Definition urlsafe_alphabet (c : N) : Prop := c <> 43%N /\ c <> 47%N /\ c <> 61%N.
(** back to the standard alphabet *)
Definition to_standard (s : str) : str := map (fun c => if N.eqb c 45 then 43%N else if N.eqb c 95 then 47%N else c) s.
(** [c] is the unpadded base64url encoding of [b] *)
Definition unpadded_base64url (c : str) (b : bytes) : Prop :=
  (forall x, In x c -> urlsafe_alphabet x) /\ exists pad, pad <= 2 /\ b64decode (to_standard c ++ repeat 61%N pad) = Ok b.

Lemma b64_char_std : forall n, (n < 64)%N -> b64_char n <> 45%N /\ b64_char n <> 95%N /\ b64_char n <> 61%N.
Proof. intros n H. unfold b64_char. destruct (N.ltb_spec n 26); [lia|]. destruct (N.ltb_spec n 52); [lia|]. destruct (N.ltb_spec n 62); [lia|]. destruct (N.eqb n 62); lia. Qed.
Definition std_char (c : N) : Prop := c <> 45%N /\ c <> 95%N /\ c <> 61%N.
Lemma b64_shape : forall b, exists s pad, b64encode b = s ++ repeat 61%N pad /\ pad <= 2 /\ Forall std_char s.
Proof.
  assert (L : forall x : byte, (b2n x < 256)%N) by exact b2n_lt.
  apply list3_ind.
  - exists nil, 0. repeat split; auto.
  - intros x. specialize (L x). eexists [_; _], 2. split; [reflexivity|]. split; [lia|].
    repeat constructor; apply b64_char_std; try apply N.div_lt_upper_bound; try lia. all: pose proof (N.mod_lt (b2n x) 4); lia.
  - intros x y. pose proof (L x). pose proof (L y). eexists [_; _; _], 1. split; [reflexivity|]. split; [lia|].
    repeat constructor; apply b64_char_std; try (apply N.div_lt_upper_bound; lia); pose proof (N.mod_lt (b2n x) 4); pose proof (N.mod_lt (b2n y) 16);
      pose proof (N.div_lt_upper_bound (b2n y) 16 16); lia.
  - intros x y z r (s & pad & E & P & F). pose proof (L x). pose proof (L y). pose proof (L z).
    eexists (_ :: _ :: _ :: _ :: s), pad. split; [cbn [b64encode app]; rewrite E; reflexivity|]. split; [assumption|].
    constructor; [apply b64_char_std; apply N.div_lt_upper_bound; lia|].
    constructor; [apply b64_char_std; pose proof (N.mod_lt (b2n x) 4); pose proof (N.div_lt_upper_bound (b2n y) 16 16); lia|].
    constructor; [apply b64_char_std; pose proof (N.mod_lt (b2n y) 16); pose proof (N.div_lt_upper_bound (b2n z) 64 4); lia|].
    constructor; [apply b64_char_std; pose proof (N.mod_lt (b2n z) 64); lia|assumption].
Qed.
Lemma filter_std : forall s, Forall std_char s -> filter (fun c => negb (N.eqb c 61)) s = s.
Proof. induction s as [|c s IH]; intros F; [reflexivity|]. inversion F as [|? ? (_ & _ & H) F']; subst. cbn. destruct (N.eqb_spec c 61); [contradiction|]. cbn. f_equal. auto. Qed.
Lemma filter_pad : forall n, filter (fun c => negb (N.eqb c 61)) (repeat 61%N n) = nil.
Proof. induction n; [reflexivity|]. cbn. assumption. Qed.
Lemma urlsafe_nopad_spec : forall b, unpadded_base64url (urlsafe_nopad b) b.
Proof.
  intros b. destruct (b64_shape b) as (s & pad & E & P & F). unfold urlsafe_nopad. rewrite E, filter_app, filter_std, filter_pad, app_nil_r by assumption. split.
  - intros x I. apply in_map_iff in I. destruct I as (c & <- & I). rewrite Forall_forall in F. destruct (F c I) as (A & B & C). unfold urlsafe_alphabet.
    destruct (N.eqb_spec c 43); [lia|]. destruct (N.eqb_spec c 47); lia.
  - exists pad. split; [assumption|]. rewrite <- (b64decode_b64encode b), E. f_equal. f_equal. unfold to_standard. rewrite map_map.
    rewrite <- (map_id s) at 2. apply map_ext_in. intros c I. rewrite Forall_forall in F. destruct (F c I) as (A & B & C).
    destruct (N.eqb_spec c 43) as [->|]; [reflexivity|]. destruct (N.eqb_spec c 47) as [->|]; [reflexivity|].
    destruct (N.eqb_spec c 45); [contradiction|]. destruct (N.eqb_spec c 95); [contradiction|]. reflexivity.
Qed.

(** At most one URL is given to HTTP clients and at most one is printed.  Each is the endpoint with a query that
    decodes to exactly these fields, among them the state of the session and a PKCE challenge for its verifier. *)
Theorem C52_urls : forall env ul se force w,
  wrun env ul se force w ->
  redirects (w_log w) <= 1 /\ shown (w_log w) <= 1 /\
  forall url, issued (w_log w) url ->
    exists challenge uri,
      asks ul url (s_auth_endpoint se)
        [ (s2l "response_type", s2l "code"); (s2l "client_id", s_client_id se); (s2l "client_secret", s_client_secret se);
          (s2l "scope", s2l "openid email"); (s2l "redirect_uri", uri); (s2l "code_challenge", challenge);
          (s2l "code_challenge_method", s2l "S256"); (s2l "state", s_state se) ] /\
      unpadded_base64url challenge (e_hash env SHA256 (ascii_bytes (s_verifier se))) /\
      (uri = s2l "http://localhost:" ++ dec_Z (s_port se) ++ s2l "/auth/callback" \/ (w_oob w = true /\ uri = s2l "urn:ietf:wg:oauth:2.0:oob")).
Proof.
  intros env ul se force w R. pose proof (inv_run _ _ _ _ _ R) as I. split; [apply I|]. split.
  { pose proof (i_main _ _ _ _ _ I) as IM. destruct (w_main w); try (destruct IM as (_ & -> & _); lia).
    destruct IM as [(_ & -> & _)|[(_ & -> & _)|(_ & -> & _)]]; lia. }
  intros url H. destruct (i_urls _ _ _ _ _ I _ H) as (uri & U & G).
  exists (code_challenge env se), uri. split; [apply (auth_url_asks env ul se uri url U)|]. split; [apply urlsafe_nopad_spec|].
  destruct G as [->|[O ->]]; [left|right; auto]. unfold redirect_uri, base_uri. rewrite <- app_assoc. reflexivity.
Qed.

(** As long as the out-of-band flow is off, one URL in total. *)
Theorem C52_one_url_in_band : forall env ul se force w,
  wrun env ul se force w -> w_oob w = false -> redirects (w_log w) + shown (w_log w) <= 1.
Proof.
  intros env ul se force w R O. pose proof (inv_run _ _ _ _ _ R) as I. pose proof (i_redirects _ _ _ _ _ I).
  pose proof (i_main _ _ _ _ _ I) as IM. rewrite O in IM. assert (shown (w_log w) = 0); [|lia].
  destruct (w_main w); try (destruct IM as (A & B & _); congruence). destruct IM as [(_ & A & _)|[(A & _)|(A & _)]]; congruence.
Qed.

(** The expectation "at most one URL" fails: the flag is tested and set without a lock by two
    threads, and the out-of-band URL and a redirect can both be issued, with the same state. *)
Theorem C52_one_url_refuted : forall env ul se, sendable se ->
  exists w u1 u2, wrun env ul se true w /\ w_log w = [O_redirect u1; O_shown u2] /\
    param ul u1 (s_auth_endpoint se) "state" (s_state se) /\ param ul u2 (s_auth_endpoint se) "state" (s_state se).
Proof.
  intros env ul se Sd.
  destruct (auth_url_ok env se (redirect_uri se true) (proj1 Sd) (ascii_encodable _ (redirect_ascii se true))) as [url U].
  pose proof (auth_url_latin1 _ _ _ _ Sd U) as L.
  pose proof (wr_init env ul se true) as R0. unfold w_init in R0.
  pose proof (wr_step _ _ _ _ _ _ R0 (ws_not_opened _ _ _ _ _ _ _ _ _)) as R1.
  pose proof (wr_step _ _ _ _ _ _ R1 (ws_enable _ _ _ _ _ _ _ _ _)) as R2.
  pose proof (wr_step _ _ _ _ _ _ R2 (ws_start _ _ _ _ _ _ _ _ _ _ (split_root ul))) as R3.
  pose proof (wr_step _ _ _ _ _ _ R3 (ws_check_good _ _ _ _ _ _ _ _ _)) as R4.
  pose proof (wr_step _ _ _ _ _ _ R4 (ws_main_check_good _ _ _ _ _ _ _ _)) as R5.
  pose proof (wr_step _ _ _ _ _ _ R5 (ws_set _ _ _ _ _ _ _ _ _ _ _ U L)) as R6.
  pose proof (wr_step _ _ _ _ _ _ R6 (ws_main_set _ _ _ _ _ _ _ _ _ _ U)) as R7.
  eexists; exists url, url. split; [exact R7|]. split; [reflexivity|]. split; (eapply auth_param; [exact U|reflexivity]).
Qed.

(** The token request sends the verifier of the challenge and, apart from that race, the redirect
    URI that was in the URL. *)
Theorem C52_pkce : forall env ul se force w code url,
  wrun env ul se force w -> w_main w = M_done (Ok code) -> issued (w_log w) url ->
  let rq := token_request se (w_oob w) code in
  tq_code rq = code /\
  (exists challenge, param ul url (s_auth_endpoint se) "code_challenge" challenge /\
     unpadded_base64url challenge (e_hash env SHA256 (ascii_bytes (tq_code_verifier rq)))) /\
  (w_oob w = false \/ In (O_shown url) (w_log w) -> param ul url (s_auth_endpoint se) "redirect_uri" (tq_redirect_uri rq)).
Proof.
  intros env ul se force w code url R M H rq. pose proof (inv_run _ _ _ _ _ R) as I.
  destruct (i_urls _ _ _ _ _ I _ H) as (uri & U & G). split; [reflexivity|]. split.
  - exists (code_challenge env se). split; [eapply auth_param; [exact U|reflexivity]|apply urlsafe_nopad_spec].
  - intros [O|Sh].
    + destruct G as [->|[O' _]]; [|congruence]. unfold rq. rewrite O. eapply auth_param; [exact U|reflexivity].
    + pose proof (i_main _ _ _ _ _ I) as IM. rewrite M in IM.
      destruct IM as [(_ & Z & _)|[(_ & Z & _)|(O & _)]]; try (exfalso; eapply shown_in; eassumption).
      apply (i_shown _ _ _ _ _ I) in Sh. unfold rq. rewrite O. eapply auth_param; [exact Sh|reflexivity].
Qed.

(** What is read from such a URL is determined by it: the provider cannot see other parameters. *)
Theorem C52_url_read_once : forall ul url endpoint ps ps', asks ul url endpoint ps -> asks ul url endpoint ps' -> ps = ps'.
Proof.
  intros ul url endpoint ps ps' (q & E & F) (q' & E' & F'). subst url. apply app_inv_head in E'. injection E' as <-.
  revert ps' F'. induction F as [|[k v] f ps fs (a & b & -> & N & K & V) F IH]; intros ps' F'; inversion F' as [|[k' v'] ? ps2 ? (a' & b' & E & N' & K' & V') F2]; subst; [reflexivity|].
  assert (X : Some (a', b') = Some (a, b)).
  { transitivity (Url.cut 61%N (a' ++ 61%N :: b')); [symmetry; apply UrlProofs.cut_spec; auto|]. rewrite <- E. apply UrlProofs.cut_spec. auto. }
  inversion X; subst. cbn [fst snd] in *. f_equal; [congruence|]. apply IH, F2.
Qed.

(** Any local process that asks first makes the out-of-band flow fail, with an exception of another
    library. *)
Theorem C52_out_of_band_blocked_refuted : forall env ul se, sendable se ->
  exists w, wrun env ul se true w /\ w_main w = M_done (Raise EIdIdentity) /\ is_sigstore_error EIdIdentity = false.
Proof.
  intros env ul se Sd.
  destruct (auth_url_ok env se (redirect_uri se false) (proj1 Sd) (ascii_encodable _ (redirect_ascii se false))) as [url U].
  pose proof (auth_url_latin1 _ _ _ _ Sd U) as L.
  pose proof (wr_init env ul se true) as R0. unfold w_init in R0.
  pose proof (wr_step _ _ _ _ _ _ R0 (ws_start _ _ _ _ _ _ _ _ _ _ (split_root ul))) as R3.
  pose proof (wr_step _ _ _ _ _ _ R3 (ws_check_good _ _ _ _ _ _ _ _ _)) as R4.
  pose proof (wr_step _ _ _ _ _ _ R4 (ws_set _ _ _ _ _ _ _ _ _ _ _ U L)) as R6.
  pose proof (wr_step _ _ _ _ _ _ R6 (ws_not_opened _ _ _ _ _ _ _ _ _)) as R1.
  pose proof (wr_step _ _ _ _ _ _ R1 (ws_enable _ _ _ _ _ _ _ _ _)) as R2.
  pose proof (wr_step _ _ _ _ _ _ R2 (ws_main_check_bad _ _ _ _ _ _ _ _)) as R7.
  eexists. split; [exact R7|]. split; reflexivity.
Qed.

(** A client identifier that cannot be encoded makes every URL fail, and every later request be refused. *)
Theorem C52_unwritable_refuted : forall env ul se, ~ encodable (s_client_id se) ->
  exists w, wrun env ul se true w /\ w_main w = M_done (Raise EUnicodeEncode) /\ is_sigstore_error EUnicodeEncode = false.
Proof.
  intros env ul se N.
  assert (U : auth_url env se (redirect_uri se true) = Raise EUnicodeEncode).
  { destruct (auth_url env se (redirect_uri se true)) as [url|e] eqn:U; [|f_equal; eapply auth_url_raise; exact U]. exfalso. apply N.
    unfold auth_url, Url.authorization_url, Url.urlencode in U. destruct (Url.encode_fields _) as [fs|] eqn:E; cbn [bind] in U; [|discriminate].
    apply UrlProofs.encode_fields_spec in E. unfold auth_params in E. inversion E as [|? ? ? ? _ E2]; subst. inversion E2 as [|? ? ? ? (a & b & _ & B & _) _]; subst.
    cbn [snd] in B. unfold Url.quote_plus in B. destruct (utf8_encode (s_client_id se)) as [x|] eqn:X; [exists x; exact X|discriminate]. }
  pose proof (wr_init env ul se true) as R0. unfold w_init in R0.
  pose proof (wr_step _ _ _ _ _ _ R0 (ws_not_opened _ _ _ _ _ _ _ _ _)) as R1.
  pose proof (wr_step _ _ _ _ _ _ R1 (ws_enable _ _ _ _ _ _ _ _ _)) as R2.
  pose proof (wr_step _ _ _ _ _ _ R2 (ws_main_check_good _ _ _ _ _ _ _ _)) as R3.
  pose proof (wr_step _ _ _ _ _ _ R3 (ws_main_set_bad _ _ _ _ _ _ _ _ _ _ U)) as R4.
  eexists. split; [exact R4|]. split; reflexivity.
Qed.

(** ** C69: the token exchange *)

Lemma exchange_stages : forall env se je url http oob code t1 t2,
  exchange env se je url http oob code t1 t2 =
  match http (POST url (token_request se oob code)) with
  | Raise e => if exn_eqb EConnection e then Raise ENetwork else Raise e
  | Ok resp =>
    if resp_ok resp then
      match r_json resp with
      | None => Raise EValue
      | Some (JObj d) =>
        match get_claim (s2l "error") d with
        | Some _ => Raise EIdentity
        | None =>
          match assoc str_eqb (s2l "access_token") d with
          | None => Raise EKey
          | Some (JStr t) => make_identity_token env je t (s_client_id se) t1 t2
          | Some _ => Raise EIdentity
          end
        end
      | Some _ => Raise EAttribute
      end
    else Raise EIdentity
  end.
Proof.
  intros. unfold exchange. destruct (http _) as [resp|e]; cbn [try_except bind].
  2: { destruct (exn_eqb EConnection e); reflexivity. }
  unfold raise_for_status, resp_json. destruct (resp_ok resp); cbn [negb raise_if try_except bind]; [|reflexivity].
  destruct (r_json resp) as [j|]; cbn [bind]; [|reflexivity]. destruct j; reflexivity.
Qed.
Lemma resp_ok_iff : forall r, resp_ok r = true <-> succeeded r.
Proof. intros r. unfold resp_ok, succeeded. rewrite negb_true_iff, andb_false_iff, Z.leb_gt, Z.ltb_ge. lia. Qed.

Definition no_error (d : list (str * json)) : Prop := assoc str_eqb (s2l "error") d = None \/ field d "error" JNull.
Lemma no_error_iff : forall d, get_claim (s2l "error") d = None <-> no_error d.
Proof. intros d. unfold get_claim, no_error, field. destruct (assoc str_eqb (s2l "error") d) as [[]|]; split; intros H; auto; try discriminate; destruct H; discriminate. Qed.

(** A token is returned exactly when the token endpoint answers the request for this code with
    success and a JSON object without an error whose access token is acceptable (C49). *)
Theorem C69_exchange_iff : forall env se je url http oob code t1 t2 t,
  exchange env se je url http oob code t1 t2 = Ok t <->
  exists resp d raw, http (POST url (token_request se oob code)) = Ok resp /\ succeeded resp /\ r_json resp = Some (JObj d) /\
    no_error d /\ field d "access_token" (JStr raw) /\ make_identity_token env je raw (s_client_id se) t1 t2 = Ok t.
Proof.
  intros env se je url http oob code t1 t2 t. rewrite exchange_stages. split.
  - destruct (http _) as [resp|e] eqn:Hh; [|destruct (exn_eqb EConnection e); discriminate].
    destruct (resp_ok resp) eqn:Ok_; [|discriminate]. destruct (r_json resp) as [j|] eqn:Ej; [|discriminate].
    destruct j as [| | | | | | |d]; try discriminate. destruct (get_claim (s2l "error") d) eqn:Ee; [discriminate|].
    destruct (assoc str_eqb (s2l "access_token") d) as [v|] eqn:Ea; [|discriminate]. destruct v as [| | | | |raw| |]; try discriminate. intros H.
    exists resp, d, raw. rewrite <- resp_ok_iff, <- no_error_iff. auto 10.
  - intros (resp & d & raw & -> & S & -> & N & F & M). apply resp_ok_iff in S. rewrite S. apply no_error_iff in N. rewrite N. unfold field in F. rewrite F. assumption.
Qed.

(** Everything that can be raised, and why. *)
Theorem C69_exchange_exceptions : forall env se je url http oob code t1 t2 e,
  exchange env se je url http oob code t1 t2 = Raise e ->
  (exists e', http (POST url (token_request se oob code)) = Raise e' /\ (e' = EConnection /\ e = ENetwork \/ e' <> EConnection /\ e = e')) \/
  (exists resp, http (POST url (token_request se oob code)) = Ok resp /\
    (e = EIdentity \/
     (e = EValue /\ succeeded resp /\ r_json resp = None) \/
     (e = EAttribute /\ succeeded resp /\ exists j, r_json resp = Some j /\ forall d, j <> JObj d) \/
     (e = EKey /\ succeeded resp /\ exists d, r_json resp = Some (JObj d) /\ no_error d /\ assoc str_eqb (s2l "access_token") d = None) \/
     (e = EType /\ succeeded resp /\ exists d raw, r_json resp = Some (JObj d) /\ field d "access_token" (JStr raw) /\
        make_identity_token env je raw (s_client_id se) t1 t2 = Raise EType))).
Proof.
  intros env se je url http oob code t1 t2 e. rewrite exchange_stages.
  destruct (http _) as [resp|e'] eqn:Hh.
  2: { intros H. left. exists e'. split; [reflexivity|]. destruct (exn_eqb EConnection e') eqn:E.
    - apply exn_eqb_spec in E. left. split; congruence.
    - right. split; [intros ->; discriminate|congruence]. }
  intros H. right. exists resp. split; [reflexivity|]. destruct (resp_ok resp) eqn:S; [apply resp_ok_iff in S|left; congruence].
  destruct (r_json resp) as [j|] eqn:Ej; [|right; left; repeat split; auto; congruence].
  destruct j as [| | | | | | |d]; try (right; right; left; split; [congruence|]; split; [assumption|]; eexists; split; [reflexivity|discriminate]).
  destruct (get_claim (s2l "error") d) eqn:Ee; [left; congruence|]. apply no_error_iff in Ee.
  destruct (assoc str_eqb (s2l "access_token") d) as [v|] eqn:Ea.
  2: { right. right. right. left. split; [congruence|]. split; [assumption|]. exists d. auto. }
  destruct v as [| | | | |raw| |]; try (left; congruence).
  destruct (C49_exceptions _ _ _ _ _ _ _ H) as [->|[-> _]]; [left; reflexivity|].
  right. right. right. right. split; [reflexivity|]. split; [assumption|]. exists d, raw. auto.
Qed.

(** The code that left the flow is in the request, and the request goes to the token endpoint only:
    together with C51, no other code is ever sent. *)
Theorem C69_request : forall env se je url http http' oob code t1 t2,
  http (POST url (token_request se oob code)) = http' (POST url (token_request se oob code)) ->
  exchange env se je url http oob code t1 t2 = exchange env se je url http' oob code t1 t2.
Proof. intros env se je url http http' oob code t1 t2 H. rewrite !exchange_stages, H. reflexivity. Qed.

(** The expectation "failures are sigstore errors" fails for malformed answers. *)
Theorem C69_errors_are_sigstore_errors_refuted : forall env se je url oob code t1 t2 j,
  (forall d, j <> JObj d) ->
  exchange env se je url (fun _ => Ok (mkResp 200 nil None nil)) oob code t1 t2 = Raise EValue /\
  exchange env se je url (fun _ => Ok (mkResp 200 nil (Some j) nil)) oob code t1 t2 = Raise EAttribute /\
  exchange env se je url (fun _ => Ok (mkResp 200 nil (Some (JObj nil)) nil)) oob code t1 t2 = Raise EKey.
Proof. intros env se je url oob code t1 t2 j H. rewrite !exchange_stages. cbn [resp_ok r_status r_json]. repeat split; try reflexivity. destruct j; try reflexivity. exfalso. eapply H. reflexivity. Qed.

(** ** C70: discovery of the issuer *)

Lemma make_issuer_stages : forall ul http base,
  make_issuer ul http base =
  match Url.urljoin ul (base ++ s2l "/") (s2l ".well-known/openid-configuration") with Raise e => Raise e | Ok u =>
  match http (GET u nil) with
  | Raise e => if exn_eqb EConnection e then Raise ENetwork else Raise e
  | Ok resp =>
    if resp_ok resp then
      match r_json resp with
      | Some (JObj d) =>
        match assoc str_eqb (s2l "authorization_endpoint") d, assoc str_eqb (s2l "token_endpoint") d with
        | Some (JStr a), Some (JStr t) => Ok (mkOpenID a t)
        | _, _ => Raise EIssuer
        end
      | _ => Raise EIssuer
      end
    else Raise EIssuer
  end end.
Proof.
  intros. unfold make_issuer. destruct (Url.urljoin _ _ _) as [u|e]; cbn [bind]; [|reflexivity]. destruct (http _) as [resp|e]; cbn [try_except bind].
  2: { destruct (exn_eqb EConnection e); reflexivity. }
  unfold raise_for_status, resp_json. destruct (resp_ok resp); cbn [negb raise_if try_except bind]; [|reflexivity].
  destruct (r_json resp) as [j|]; cbn [bind]; [|reflexivity]. destruct j as [| | | | | | |d]; try reflexivity. unfold validate_openid.
  destruct (assoc str_eqb (s2l "authorization_endpoint") d) as [[]|]; try reflexivity; destruct (assoc str_eqb (s2l "token_endpoint") d) as [[]|]; reflexivity.
Qed.

(** The endpoints are those in the discovery document, both texts; nothing else is required. *)
Theorem C70_discovery_iff : forall ul http base c,
  make_issuer ul http base = Ok c <->
  exists u resp d, Url.urljoin ul (base ++ s2l "/") (s2l ".well-known/openid-configuration") = Ok u /\ http (GET u nil) = Ok resp /\ succeeded resp /\
    r_json resp = Some (JObj d) /\ field d "authorization_endpoint" (JStr (oc_authorization_endpoint c)) /\ field d "token_endpoint" (JStr (oc_token_endpoint c)).
Proof.
  intros ul http base c. rewrite make_issuer_stages. split.
  - destruct (Url.urljoin _ _ _) as [u|e] eqn:U; [|discriminate]. destruct (http _) as [resp|e] eqn:Hh; [|destruct (exn_eqb EConnection e); discriminate].
    destruct (resp_ok resp) eqn:S; [apply resp_ok_iff in S|discriminate]. destruct (r_json resp) as [j|] eqn:Ej; [|discriminate].
    destruct j as [| | | | | | |d]; try discriminate.
    destruct (assoc str_eqb (s2l "authorization_endpoint") d) as [[]|] eqn:Ea; try discriminate.
    destruct (assoc str_eqb (s2l "token_endpoint") d) as [[]|] eqn:Et; try discriminate. intros H. inversion H; subst.
    exists u, resp, d. repeat split; auto.
  - intros (u & resp & d & -> & -> & S & -> & Fa & Ft). apply resp_ok_iff in S. rewrite S. unfold field in *. rewrite Fa, Ft. destruct c. reflexivity.
Qed.

(** A connection failure is a NetworkError; any bad answer is an IssuerError, which is not a
    sigstore Error. *)
Theorem C70_discovery_exceptions : forall ul http base e,
  make_issuer ul http base = Raise e ->
  Url.urljoin ul (base ++ s2l "/") (s2l ".well-known/openid-configuration") = Raise e \/
  exists u, Url.urljoin ul (base ++ s2l "/") (s2l ".well-known/openid-configuration") = Ok u /\
  ((exists e', http (GET u nil) = Raise e' /\
     (e' = EConnection /\ e = ENetwork \/ e' <> EConnection /\ e = e')) \/
  (exists resp, http (GET u nil) = Ok resp /\ e = EIssuer)).
Proof.
  intros ul http base e. rewrite make_issuer_stages. destruct (Url.urljoin _ _ _) as [u|e0] eqn:U; [|intros H; left; congruence].
  intros H. right. exists u. split; [reflexivity|]. destruct (http _) as [resp|e'] eqn:Hh.
  - right. exists resp. split; [reflexivity|]. destruct (resp_ok resp); [|congruence]. destruct (r_json resp) as [j|]; [|congruence].
    destruct j as [| | | | | | |d]; try congruence. destruct (assoc str_eqb (s2l "authorization_endpoint") d) as [[]|]; try congruence;
    destruct (assoc str_eqb (s2l "token_endpoint") d) as [[]|]; congruence.
  - left. exists e'. split; [reflexivity|]. destruct (exn_eqb EConnection e') eqn:E.
    + apply exn_eqb_spec in E. left. split; congruence.
    + right. split; [intros ->; discriminate|congruence].
Qed.
Theorem C70_issuer_error_not_sigstore_error_refuted : forall ul base u,
  Url.urljoin ul (base ++ s2l "/") (s2l ".well-known/openid-configuration") = Ok u ->
  make_issuer ul (fun _ => Ok (mkResp 500 nil None nil)) base = Raise EIssuer /\ is_sigstore_error EIssuer = false.
Proof. intros ul base u H. rewrite make_issuer_stages, H. split; reflexivity. Qed.

(** Expected: an issuer that cannot be used is a NetworkError or an IssuerError.  Refuted: a redirect
    loop or an unusable URL is raised as it is, in discovery and in the exchange. *)
Theorem C70_other_failures_refuted : forall env ul base u se je url oob code t1 t2,
  Url.urljoin ul (base ++ s2l "/") (s2l ".well-known/openid-configuration") = Ok u ->
  make_issuer ul (fun _ => Raise ERequest) base = Raise ERequest /\
  exchange env se je url (fun _ => Raise ERequest) oob code t1 t2 = Raise ERequest /\ is_sigstore_error ERequest = false.
Proof. intros env ul base u se je url oob code t1 t2 H. rewrite make_issuer_stages, H. repeat split; reflexivity. Qed.

(** Ambient credentials: failures of the detection are IdentityErrors, results are unchanged. *)
Theorem C70_ambient_credentials : forall detect client,
  match detect client with
  | Ok c => detect_credential detect client = Ok c
  | Raise e => if exn_eqb e EIdIdentity then detect_credential detect client = Raise EIdentity else detect_credential detect client = Raise e
  end.
Proof.
  intros detect client. unfold detect_credential. destruct (detect client) as [c|e]; [reflexivity|]. cbn [try_except].
  destruct (exn_eqb e EIdIdentity) eqn:E.
  - apply exn_eqb_spec in E. subst. reflexivity.
  - destruct (exn_eqb EIdIdentity e) eqn:E2; [|reflexivity]. apply exn_eqb_spec in E2. subst. discriminate.
Qed.

(** ** Examples *)
Definition oa_url : Url.UrlLib := Url.mkUL (fun _ => true) (fun _ => nil).
Definition oa_se : Session := mkSession (s2l "sigstore") nil (s2l "https://idp/auth") (s2l "st-1") (s2l "verifier") 4321.
Definition oa_run (w : world) : Prop := wrun ox_env oa_url oa_se false w.
(** the URL of the browser flow, and the one that is shown *)
Definition oa_start (uri : String.string) : str :=
  s2l "https://idp/auth?response_type=code&client_id=sigstore&client_secret=&scope=openid+email&redirect_uri=" ++ s2l uri ++
  s2l "&code_challenge=" ++ code_challenge ox_env oa_se ++ s2l "&code_challenge_method=S256&state=st-1".
Lemma oa_in_band : auth_url ox_env oa_se (redirect_uri oa_se false) = Ok (oa_start "http%3A%2F%2Flocalhost%3A4321%2Fauth%2Fcallback").
Proof. vm_compute. reflexivity. Qed.
Lemma oa_oob : auth_url ox_env oa_se (redirect_uri oa_se true) = Ok (oa_start "urn%3Aietf%3Awg%3Aoauth%3A2.0%3Aoob").
Proof. vm_compute. reflexivity. Qed.
Example ex_sendable : sendable oa_se.
Proof.
  split; [repeat split; apply ascii_encodable; reflexivity|]. intros c I. apply N.ltb_lt.
  apply (proj1 (forallb_forall (fun c => N.ltb c 256) (s2l "https://idp/auth")) eq_refl c I).
Qed.

(** a browser is opened, fetches the start page, and comes back with the code; then somebody else
    tries another code *)
Example ex_in_band : exists w, oa_run w /\
  w_log w = [O_redirect (oa_start "http%3A%2F%2Flocalhost%3A4321%2Fauth%2Fcallback"); O_not_found (s2l "/favicon.ico");
             O_callback (s2l "/auth/callback?state=st%2d1&code=a+b%C3%A9#frag"); O_not_found (s2l "/auth/callback?state=st-1&code=evil")] /\
  w_main w = M_done (Ok (s2l "a b" ++ [233%N])).
Proof.
  pose proof (wr_init ox_env oa_url oa_se false) as R0. unfold w_init in R0.
  pose proof (wr_step _ _ _ _ _ _ R0 (ws_opened _ _ _ _ _ _ _ _ _ eq_refl)) as R1.
  pose proof (wr_step _ _ _ _ _ _ R1 (ws_start _ _ _ _ _ _ _ _ (s2l "/") nil eq_refl)) as R2.
  pose proof (wr_step _ _ _ _ _ _ R2 (ws_check_good _ _ _ _ _ _ _ _ _)) as R3.
  pose proof (wr_step _ _ _ _ _ _ R3 (ws_set _ _ _ _ _ _ _ _ _ _ _ oa_in_band (auth_url_latin1 _ _ _ _ ex_sendable oa_in_band))) as R4.
  assert (N1 : s2l "/favicon.ico" <> redirect_path) by discriminate. assert (N2 : s2l "/favicon.ico" <> auth_request_path) by discriminate.
  pose proof (wr_step _ _ _ _ _ _ R4 (ws_other _ _ _ _ _ _ _ _ (s2l "/favicon.ico") _ nil eq_refl N1 N2)) as R5.
  pose proof (wr_step _ _ _ _ _ _ R5 (ws_callback _ _ _ _ _ _ _ _ (s2l "/auth/callback?state=st%2d1&code=a+b%C3%A9#frag") (s2l "state=st%2d1&code=a+b%C3%A9") eq_refl)) as R6.
  pose proof (wr_step _ _ _ _ _ _ R6 (ws_teardown _ _ _ _ _ _ _ _ _ (s2l "/auth/callback?state=st-1&code=evil"))) as R7.
  pose proof (wr_step _ _ _ _ _ _ R7 (ws_poll _ _ _ _ _ _ _ _ _)) as R8.
  eexists. split; [exact R8|]. split; [reflexivity|vm_compute; reflexivity].
Qed.
Example ex_forged : exists w, oa_run w /\
  w_log w = [O_redirect (oa_start "http%3A%2F%2Flocalhost%3A4321%2Fauth%2Fcallback"); O_callback (s2l "/auth/callback?code=EVIL&state=st-1")] /\
  w_main w = M_done (Ok (s2l "EVIL")).
Proof.
  pose proof (wr_init ox_env oa_url oa_se false) as R0. unfold w_init in R0.
  pose proof (wr_step _ _ _ _ _ _ R0 (ws_opened _ _ _ _ _ _ _ _ _ eq_refl)) as R1.
  pose proof (wr_step _ _ _ _ _ _ R1 (ws_start _ _ _ _ _ _ _ _ (s2l "/") nil eq_refl)) as R2.
  pose proof (wr_step _ _ _ _ _ _ R2 (ws_check_good _ _ _ _ _ _ _ _ _)) as R3.
  pose proof (wr_step _ _ _ _ _ _ R3 (ws_set _ _ _ _ _ _ _ _ _ _ _ oa_in_band (auth_url_latin1 _ _ _ _ ex_sendable oa_in_band))) as R4.
  pose proof (wr_step _ _ _ _ _ _ R4 (ws_callback _ _ _ _ _ _ _ _ (s2l "/auth/callback?code=EVIL&state=st-1") (s2l "code=EVIL&state=st-1") eq_refl)) as R5.
  pose proof (wr_step _ _ _ _ _ _ R5 (ws_poll _ _ _ _ _ _ _ _ _)) as R6.
  eexists. split; [exact R6|]. split; [reflexivity|vm_compute; reflexivity].
Qed.
(** the run of [ex_forged] is also one to which [C51_provider_answer] applies *)
Example ex_provider_answer : exists w r, oa_run w /\ w_main w = M_done r /\ r = Ok (s2l "EVIL").
Proof.
  destruct ex_forged as (w & R & L & M). exists w, (Ok (s2l "EVIL")). split; [exact R|]. split; [exact M|].
  destruct (C51_provider_answer _ _ _ _ _ _ (s2l "EVIL") (s_state oa_se) (s2l "EVIL") (s2l "st-1") R M) as [A _];
    try reflexivity; try discriminate.
  - pose proof (inv_run _ _ _ _ _ R) as I. pose proof (i_main _ _ _ _ _ I) as IM. rewrite M in IM. destruct (w_oob w) eqn:O; [|reflexivity].
    exfalso. destruct IM as [(X & _)|[(_ & _ & _ & [X|(e & X & _)])|(_ & X & _)]]; try discriminate X. rewrite L in X. discriminate X.
  - rewrite L. right. left. reflexivity.
Qed.
Example ex_forged_text : forged (s2l "EVIL") (oa_start "x") = s2l "/auth/callback?code=EVIL&state=st-1".
Proof. vm_compute. reflexivity. Qed.
Example ex_out_of_band : exists w, wrun ox_env oa_url oa_se true w /\
  w_log w = [O_shown (oa_start "urn%3Aietf%3Awg%3Aoauth%3A2.0%3Aoob"); O_entered (s2l "4711")] /\ w_main w = M_done (Ok (s2l "4711")).
Proof.
  pose proof (wr_init ox_env oa_url oa_se true) as R0. unfold w_init in R0.
  pose proof (wr_step _ _ _ _ _ _ R0 (ws_not_opened _ _ _ _ _ _ _ _ _)) as R1.
  pose proof (wr_step _ _ _ _ _ _ R1 (ws_enable _ _ _ _ _ _ _ _ _)) as R2.
  pose proof (wr_step _ _ _ _ _ _ R2 (ws_main_check_good _ _ _ _ _ _ _ _)) as R5.
  pose proof (wr_step _ _ _ _ _ _ R5 (ws_main_set _ _ _ _ _ _ _ _ _ _ oa_oob)) as R7.
  pose proof (wr_step _ _ _ _ _ _ R7 (ws_input _ _ _ _ _ _ _ _ _ (s2l "4711"))) as R8.
  eexists. split; [exact R8|]. split; reflexivity.
Qed.
Example ex_exchange :
  let claims := ox_claims "https://x" [(s2l "exp", JInt 1600)] in
  let http := fun rq : http_request TokenRequest =>
    match rq with
    | POST url b => if str_eqb url (s2l "https://idp/token") && str_eqb (tq_code b) (s2l "a b") && str_eqb (tq_code_verifier b) (s2l "verifier")
                    then Ok (mkResp 200 nil (Some (JObj [(s2l "access_token", JStr (s2l "t"))])) nil) else Ok (mkResp 400 nil None nil)
    | GET _ _ => Raise EConnection
    end in
  match exchange ox_env oa_se (ox_je claims) (s2l "https://idp/token") http false (s2l "a b") 996000000%Z 1001000000%Z with
  | Ok t => it_raw t = s2l "t" | Raise _ => False end /\
  exchange ox_env oa_se (ox_je claims) (s2l "https://idp/token") http false (s2l "other") 996000000%Z 1001000000%Z = Raise EIdentity.
Proof. split; vm_compute; reflexivity. Qed.
Example ex_discovery :
  let http := fun rq : http_request unit =>
    match rq with
    | GET url _ => if str_eqb url (s2l "https://idp/.well-known/openid-configuration")
        then Ok (mkResp 200 nil (Some (JObj [(s2l "token_endpoint", JStr (s2l "https://idp/token")); (s2l "issuer", JStr nil);
                                             (s2l "authorization_endpoint", JStr (s2l "https://idp/auth"))])) nil)
        else Ok (mkResp 404 nil None nil)
    | POST _ _ => Raise EConnection
    end in
  make_issuer oa_url http (s2l "https://idp") = Ok (mkOpenID (s2l "https://idp/auth") (s2l "https://idp/token")) /\
  make_issuer oa_url http (s2l "https://other") = Raise EIssuer.
Proof. split; vm_compute; reflexivity. Qed.

Print Assumptions C51_in_band.
Print Assumptions C51_out_of_band.
Print Assumptions C51_forced_out_of_band.
Print Assumptions C51_first_callback_final.
Print Assumptions C51_anyone_can_abort.
Print Assumptions C51_provider_answer.
Print Assumptions C51_forged_callback_refuted.
Print Assumptions C51_missing_parameters_refuted.
Print Assumptions C52_urls.
Print Assumptions C52_one_url_in_band.
Print Assumptions C52_one_url_refuted.
Print Assumptions C52_pkce.
Print Assumptions C52_url_read_once.
Print Assumptions C52_unwritable_refuted.
Print Assumptions C52_out_of_band_blocked_refuted.
Print Assumptions C69_exchange_iff.
Print Assumptions C69_exchange_exceptions.
Print Assumptions C69_request.
Print Assumptions C69_errors_are_sigstore_errors_refuted.
Print Assumptions C70_discovery_iff.
Print Assumptions C70_discovery_exceptions.
Print Assumptions C70_issuer_error_not_sigstore_error_refuted.
Print Assumptions C70_other_failures_refuted.
Print Assumptions C70_ambient_credentials.
