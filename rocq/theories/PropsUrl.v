(** Property C106: which hosts are asked, and what the URLs that are made say. *)
From Verif Require Import Base Codec Messages Env Json PyText Oidc Http SigningConfig RekorClient Clients Oauth Sign PropsClients PropsDisclosure PropsRekorClient PropsOidc ToyEnv ToyBundles ToySign PropsOauth.
From Verif Require Url UrlProofs.

(** ** Specification *)

Definition letter (c : N) : Prop := (65 <= c <= 90 \/ 97 <= c <= 122)%N.
Definition proper_scheme (s : str) : Prop :=
  exists c r, s = c :: r /\ letter c /\ forall x, In x s -> letter x \/ (48 <= x <= 57)%N \/ In x [43%N; 45%N; 46%N].
(** [u] is a URL of this host: the host ends where the path, the query or the fragment begins *)
Definition address (u scheme host rest : str) : Prop :=
  u = scheme ++ s2l "://" ++ host ++ rest /\ proper_scheme scheme /\ (forall c, In c host -> ~ In c [47%N; 63%N; 35%N]) /\
  (rest = nil \/ exists c r, rest = c :: r /\ In c [47%N; 63%N; 35%N]).
(** HTTP or HTTPS in any case *)
Definition web (scheme : str) : Prop := Url.lower scheme = s2l "http" \/ Url.lower scheme = s2l "https".
(** no tabs and line breaks, which the library drops *)
Definition one_line (u : str) : Prop := forall c, In c u -> ~ In c [9%N; 10%N; 13%N].
(** a host of ASCII characters without brackets *)
Definition plain_host (h : str) : Prop := forall c, In c h -> (c < 128)%N /\ c <> 91%N /\ c <> 93%N.

Definition served_by (hosts : list (str * str)) (u : str) : Prop := exists s h r, address u s h r /\ In (s, h) hosts.
(** the services of a signing context are at these hosts *)
Definition services_at (ctx : ContextParts) (hosts : list (str * str)) : Prop :=
  (exists s h r, address (cp_fulcio ctx) s h r /\ web s /\ one_line (cp_fulcio ctx) /\ In (Url.lower s, h) hosts) /\
  (forall u, In u (cp_tsas ctx) -> served_by hosts u) /\
  match cp_rekor ctx with Rekor_v1 u | Rekor_v2 u => served_by hosts u end.
(** two worlds in which these hosts answer alike; all others may answer differently *)
Definition same_at (hosts : list (str * str)) (out1 out2 : Outside) : Prop := forall h,
  o_clock out1 h = o_clock out2 h /\ o_pub out1 h = o_pub out2 h /\ (forall k s d, o_sign out1 h k s d = o_sign out2 h k s d) /\
  (forall b, o_tsa_query out1 h b = o_tsa_query out2 h b) /\
  forall u, served_by hosts u ->
    (forall r, o_fulcio out1 h (POST u r) = o_fulcio out2 h (POST u r)) /\
    (forall b, o_tsa out1 h (POST u b) = o_tsa out2 h (POST u b)) /\
    (forall r, o_log out1 h (POST u r) = o_log out2 h (POST u r)).

(** a path of ordinary segments *)
Definition segment (s : str) : Prop := s <> nil /\ s <> s2l "." /\ s <> s2l ".." /\ forall c, In c s -> ~ In c [47%N; 63%N; 35%N].
Definition path_of (segs : list str) : str := concat (map (cons 47%N) segs).

(** ** Proofs *)

Lemma letter_iff : forall c, Url.is_letter c = true <-> letter c.
Proof. intros c. unfold Url.is_letter, Url.is_upper, letter. rewrite orb_true_iff, !andb_true_iff, !N.leb_le. tauto. Qed.
Lemma scheme_char_iff : forall c, Url.scheme_char c = true <-> letter c \/ (48 <= c <= 57)%N \/ In c [43%N; 45%N; 46%N].
Proof.
  intros c. unfold Url.scheme_char, is_digit. rewrite !orb_true_iff, letter_iff, andb_true_iff, !N.leb_le, !N.eqb_eq. cbn [In]. intuition auto.
Qed.
Lemma scheme_iff : forall s, UrlProofs.url_scheme s <-> proper_scheme s.
Proof.
  intros s. split; intros (c & r & E & L & F); exists c, r; (split; [exact E|]); rewrite letter_iff in *; (split; [exact L|]); intros x I; apply scheme_char_iff, F, I.
Qed.
Lemma ends_iff : forall c, Url.ends_netloc c = true <-> In c [47%N; 63%N; 35%N].
Proof. intros c. unfold Url.ends_netloc. rewrite !orb_true_iff, !N.eqb_eq. cbn [In]. unfold Url.SLASH, Url.QUESTION, Url.HASH. intuition auto. Qed.
Lemma host_iff : forall h, UrlProofs.host_text h <-> forall c, In c h -> ~ In c [47%N; 63%N; 35%N].
Proof.
  intros h. split; intros H c I.
  - rewrite <- ends_iff, (H c I). discriminate.
  - destruct (Url.ends_netloc c) eqn:E; [|reflexivity]. apply ends_iff in E. destruct (H c I E).
Qed.
Lemma after_iff : forall r, UrlProofs.after_host r <-> (r = nil \/ exists c t, r = c :: t /\ In c [47%N; 63%N; 35%N]).
Proof. intros r. split; (intros [->|(c & t & -> & E)]; [left; reflexivity|right]); exists c, t; (split; [reflexivity|]); apply ends_iff, E. Qed.
Lemma one_line_safe : forall u, one_line u -> forall c, In c u -> Url.unsafe c = false.
Proof.
  intros u H c I. specialize (H c I). unfold Url.unsafe. rewrite !orb_false_iff, !N.eqb_neq. cbn [In] in H. intuition auto.
Qed.
Lemma web_relative : forall s, web s -> Url.mem_str (Url.lower s) Url.USES_RELATIVE = true /\ Url.mem_str (Url.lower s) Url.USES_NETLOC = true /\ Url.lower s <> nil.
Proof. intros s [-> | ->]; (split; [reflexivity|split; [reflexivity|discriminate]]). Qed.

(** The parts of a URL are determined by its text. *)
Theorem C106_address_unique : forall u s h r s' h' r', address u s h r -> address u s' h' r' -> s = s' /\ h = h' /\ r = r'.
Proof.
  intros u s h r s' h' r' (E & S & H & R) (E' & S' & H' & R'). apply scheme_iff in S, S'. apply host_iff in H, H'. apply after_iff in R, R'.
  subst u. change (s2l "://") with [58%N; 47%N; 47%N] in E'. cbn [app] in E'.
  assert (N : forall t, UrlProofs.url_scheme t -> ~ In 58%N t) by (intros t (_ & _ & _ & _ & F) I; apply F in I; apply UrlProofs.scheme_no_colon in I; congruence).
  pose proof (UrlProofs.cut_app 58%N s (47%N :: 47%N :: h ++ r) (N _ S)) as C. pose proof (UrlProofs.cut_app 58%N s' (47%N :: 47%N :: h' ++ r') (N _ S')) as C'.
  rewrite <- E', C in C'. injection C' as -> C'. split; [reflexivity|].
  pose proof (UrlProofs.span_host h r H R) as X. pose proof (UrlProofs.span_host h' r' H' R') as X'. rewrite C', X' in X. injection X as -> ->. auto.
Qed.

Theorem C106_plain_hosts_accepted : forall ul h, plain_host h -> Url.netloc_ok ul h = true.
Proof.
  intros ul h H. unfold Url.netloc_ok. assert (N : forall k, k = 91%N \/ k = 93%N -> Url.has k h = false).
  { intros k K. unfold Url.has. destruct (existsb (N.eqb k) h) eqn:E; [|reflexivity]. apply existsb_exists in E as (c & I & E). apply N.eqb_eq in E. subst c.
    destruct (H k I) as (_ & A & B). destruct K; contradiction. }
  rewrite !N by auto. cbn [xorb negb andb]. assert (A : forallb (fun c => (c <? 128)%N) h = true) by (apply forallb_forall; intros c I; apply N.ltb_lt, H, I).
  rewrite A. reflexivity.
Qed.

(** the path of a reference [p] without host, query and fragment, seen from the path [b] *)
Definition merged (b p : str) : str :=
  let parts := split_on 47%N b in
  let parts := if str_eqb (Url.last_seg parts) nil then parts else removelast parts in
  let joined := join_on 47%N (Url.resolve (match p with
    | c :: _ => if (c =? 47)%N then split_on 47%N p else Url.filter_middle (parts ++ split_on 47%N p)
    | nil => Url.filter_middle (parts ++ split_on 47%N p) end)) in
  match joined with nil => [47%N] | _ => joined end.
Definition path_part (s r : str) : str := let '(p, _, _) := UrlProofs.parts r in fst (Url.split_params (Url.lower s) p).

Lemma unparse_web : forall s h p, web s -> p <> nil ->
  Url.urlunparse (Url.lower s) h p nil nil nil = Url.lower s ++ s2l "://" ++ h ++ match p with c :: _ => if (c =? 47)%N then p else 47%N :: p | nil => nil end.
Proof.
  intros s h p W N. destruct (web_relative s W) as (_ & M2 & Ne). unfold Url.urlunparse. cbv zeta. rewrite M2. assert (Z : str_eqb (Url.lower s) nil = false).
  { destruct (str_eqb (Url.lower s) nil) eqn:Z; [|reflexivity]. apply str_eqb_spec in Z. contradiction. }
  rewrite Z. cbn [negb andb]. rewrite orb_true_r. cbn [orb].
  destruct (Url.lower s) as [|l0 l1] eqn:El; [contradiction|]. destruct p as [|c p]; [contradiction|]. reflexivity.
Qed.
Lemma merged_not_nil : forall b p, merged b p <> nil.
Proof. intros b p. unfold merged. cbv zeta. set (j := join_on _ _). destruct j; discriminate. Qed.

Lemma join_web : forall ul u s h r p, address u s h r -> web s -> one_line u -> p <> nil ->
  (forall d, Url.urlsplit ul d p = Ok (Url.mkSplit d nil p nil nil)) -> Url.split_params (Url.lower s) p = (p, nil) ->
  Url.urljoin ul u p = if Url.netloc_ok ul h
    then Ok (Url.lower s ++ s2l "://" ++ h ++ match merged (path_part s r) p with c :: _ => if (c =? 47)%N then merged (path_part s r) p else 47%N :: merged (path_part s r) p | nil => nil end)
    else Raise EValue.
Proof.
  intros ul u s h r p (-> & S & H & R) W O Np Sp Pa. apply scheme_iff in S. apply host_iff in H. apply after_iff in R.
  pose proof (UrlProofs.urlsplit_abs ul nil s h r S H R (one_line_safe _ O)) as U. destruct (web_relative s W) as (M1 & M2 & Ne).
  destruct S as (c & s' & Es & _). set (u := s ++ s2l "://" ++ h ++ r) in *.
  assert (Eu : exists v, u = c :: v) by (unfold u; rewrite Es; eexists; reflexivity). destruct Eu as (v & Eu).
  destruct p as [|x p]; [contradiction|]. unfold Url.urljoin. rewrite Eu. cbv iota. rewrite <- Eu. rewrite U. unfold path_part.
  destruct (Url.netloc_ok ul h); [|reflexivity]. destruct (UrlProofs.parts r) as [[bp bq] bf]. cbn [bind Url.sp_scheme Url.sp_path Url.sp_netloc].
  destruct (Url.split_params (Url.lower s) bp) as [bpath bparams]. cbn [fst]. rewrite Sp. cbn [bind Url.sp_scheme Url.sp_path Url.sp_netloc Url.sp_query Url.sp_fragment]. rewrite Pa.
  rewrite str_eqb_refl, M1, M2. cbn [negb orb andb]. change (str_eqb nil nil) with true. cbn [negb].
  f_equal. exact (unparse_web s h (merged bpath (x :: p)) W (merged_not_nil _ _)).
Qed.

(** a URL of this host that is joined with an absolute path *)
Lemma join_root : forall ul u s h r p, address u s h r -> web s -> one_line u ->
  (exists t, p = 47%N :: t) ->
  (forall d, Url.urlsplit ul d p = Ok (Url.mkSplit d nil p nil nil)) -> Url.split_params (Url.lower s) p = (p, nil) ->
  join_on 47%N (Url.resolve (split_on 47%N p)) = p ->
  Url.urljoin ul u p = if Url.netloc_ok ul h then Ok (Url.lower s ++ s2l "://" ++ h ++ p) else Raise EValue.
Proof.
  intros ul u s h r p A W O (t & Ep) Sp Pa Jo. rewrite (join_web ul u s h r p A W O); [|rewrite Ep; discriminate|exact Sp|exact Pa].
  destruct (Url.netloc_ok ul h); [|reflexivity]. do 4 f_equal.
  assert (M : merged (path_part s r) p = p).
  { unfold merged. cbv zeta. subst p. change (47 =? 47)%N with true. cbv iota. rewrite Jo. reflexivity. }
  rewrite M, Ep. reflexivity.
Qed.

(** A certificate is requested from the host of the certificate authority, at exactly this path. *)
Theorem C106_certificate_url : forall ul u s h r, address u s h r -> web s -> one_line u ->
  Url.urljoin ul u (s2l "/api/v2/signingCert") = (if Url.netloc_ok ul h then Ok (Url.lower s ++ s2l "://" ++ h ++ s2l "/api/v2/signingCert") else Raise EValue) /\
  Url.urljoin ul u (s2l "/api/v2/trustBundle") = (if Url.netloc_ok ul h then Ok (Url.lower s ++ s2l "://" ++ h ++ s2l "/api/v2/trustBundle") else Raise EValue).
Proof.
  intros ul u s h r A W O. split; eapply join_root; try eassumption; try reflexivity.
  - eexists; reflexivity.
  - destruct W as [-> | ->]; reflexivity.
  - eexists; reflexivity.
  - destruct W as [-> | ->]; reflexivity.
Qed.

(** So the client asks this URL, with the request and the token, and nothing else; and a certificate is one that was
    answered there. *)
Theorem C106_certificate_request : forall ul lp u s h r csr token, address u s h r -> web s -> one_line u -> Url.netloc_ok ul h = true ->
  let target := Url.lower s ++ s2l "://" ++ h ++ s2l "/api/v2/signingCert" in
  (forall http1 http2, http1 (POST target (mkFulcioRequest csr token)) = http2 (POST target (mkFulcioRequest csr token)) ->
    fulcio_post ul lp http1 u csr token = fulcio_post ul lp http2 u csr token) /\
  (forall http c chain, fulcio_post ul lp http u csr token = Ok (c, chain) ->
    exists resp, http (POST target (mkFulcioRequest csr token)) = Ok resp /\ succeeded resp).
Proof.
  intros ul lp u s h r csr token A W O K target. pose proof (proj1 (C106_certificate_url ul u s h r A W O)) as E. rewrite K in E. fold target in E. split.
  - intros http1 http2 H. unfold fulcio_post. fold SIGNING_CERT_ENDPOINT in E. rewrite E. cbn [bind]. rewrite H. reflexivity.
  - intros http c chain H. apply C65_accepts_iff in H as (u' & resp & j & v & x & xs & U & Hr & S & _). rewrite E in U. injection U as <-. exists resp. auto.
Qed.
Theorem C106_trust_bundle_request : forall ul lp u s h r, address u s h r -> web s -> one_line u -> Url.netloc_ok ul h = true ->
  let target := Url.lower s ++ s2l "://" ++ h ++ s2l "/api/v2/trustBundle" in
  (forall http1 http2, http1 (GET target nil) = http2 (GET target nil) -> trust_bundle_get ul lp http1 u = trust_bundle_get ul lp http2 u) /\
  (forall http chains, trust_bundle_get ul lp http u = Ok chains -> exists resp, http (GET target nil) = Ok resp /\ succeeded resp).
Proof.
  intros ul lp u s h r A W O K target. pose proof (proj2 (C106_certificate_url ul u s h r A W O)) as E. rewrite K in E. fold target in E. split.
  - intros http1 http2 H. unfold trust_bundle_get. fold TRUST_BUNDLE_ENDPOINT in E. rewrite E. cbn [bind]. rewrite H. reflexivity.
  - intros http chains H. apply C65_trust_bundle in H as (u' & resp & f & v & l & U & Hr & S & _). rewrite E in U. injection U as <-. exists resp. auto.
Qed.

(** Expected: with the CA URL https://corp.example/fulcio, https://corp.example/fulcio/api/v2/signingCert is asked.
    Refuted: the path plays no role. *)
Theorem C106_base_path_refuted : forall ul lp http csr token u s h r u' r', address u s h r -> address u' s h r' -> web s -> one_line u -> one_line u' ->
  fulcio_post ul lp http u csr token = fulcio_post ul lp http u' csr token.
Proof.
  intros ul lp http csr token u s h r u' r' A A' W O O'. unfold fulcio_post. unfold SIGNING_CERT_ENDPOINT.
  rewrite (proj1 (C106_certificate_url ul _ _ _ _ A W O)), (proj1 (C106_certificate_url ul _ _ _ _ A' W O')). reflexivity.
Qed.

(** ** Discovery *)

Lemma address_more : forall u s h r p, address u s h r -> address (u ++ 47%N :: p) s h (r ++ 47%N :: p).
Proof.
  intros u s h r p (-> & S & H & R). split; [rewrite <- !app_assoc; reflexivity|]. split; [exact S|]. split; [exact H|]. right.
  destruct R as [->|(c & t & -> & E)]; [exists 47%N, p; split; [reflexivity|left; reflexivity]|exists c, (t ++ 47%N :: p); auto].
Qed.
Lemma one_line_app : forall a b, one_line a -> one_line b -> one_line (a ++ b).
Proof. intros a b A B c I. apply in_app_or in I as [I|I]; auto. Qed.
Lemma one_line_const : forall a, forallb (fun c => negb ((c =? 9) || (c =? 10) || (c =? 13))%N) a = true -> one_line a.
Proof.
  intros a F c I J. pose proof (proj1 (forallb_forall _ a) F c I) as X. cbv beta in X. rewrite negb_true_iff, !orb_false_iff, !N.eqb_neq in X. cbn [In] in J. intuition congruence.
Qed.

(** The discovery document is asked for at the host of the issuer. *)
Theorem C106_discovery_host : forall ul u s h r, address u s h r -> web s -> one_line u ->
  if Url.netloc_ok ul h
  then exists p, Url.urljoin ul (u ++ s2l "/") (s2l ".well-known/openid-configuration") = Ok (Url.lower s ++ s2l "://" ++ h ++ 47%N :: p)
  else Url.urljoin ul (u ++ s2l "/") (s2l ".well-known/openid-configuration") = Raise EValue.
Proof.
  intros ul u s h r A W O.
  rewrite (join_web ul (u ++ s2l "/") s h (r ++ s2l "/")); [|apply (address_more u s h r nil A)|exact W|apply one_line_app; [exact O|apply one_line_const; reflexivity]|discriminate|reflexivity|destruct W as [-> | ->]; reflexivity].
  destruct (Url.netloc_ok ul h); [|reflexivity]. pose proof (merged_not_nil (path_part s (r ++ s2l "/")) (s2l ".well-known/openid-configuration")) as N.
  destruct (merged (path_part s (r ++ s2l "/")) (s2l ".well-known/openid-configuration")) as [|c p]; [contradiction|].
  destruct (N.eqb_spec c 47) as [->|_]; eexists; reflexivity.
Qed.

Lemma path_join : forall l, join_on 47%N (nil :: l) = path_of l.
Proof.
  induction l as [|x l IH]; [reflexivity|]. change (join_on 47%N (nil :: x :: l)) with (47%N :: join_on 47%N (x :: l)).
  destruct l as [|y l]; [cbn; rewrite app_nil_r; reflexivity|].
  change (join_on 47%N (nil :: y :: l)) with (47%N :: join_on 47%N (y :: l)) in IH.
  change (join_on 47%N (x :: y :: l)) with (x ++ 47%N :: join_on 47%N (y :: l)). rewrite IH. reflexivity.
Qed.
Lemma path_app : forall a b, path_of (a ++ b) = path_of a ++ path_of b.
Proof. intros a b. unfold path_of. rewrite map_app, concat_app. reflexivity. Qed.
Lemma path_slashes : forall n, path_of (repeat nil n) = repeat 47%N n.
Proof. induction n as [|n IH]; [reflexivity|]. cbn. f_equal. exact IH. Qed.
Lemma split_path_of : forall l, (forall x, In x l -> ~ In 47%N x) -> split_on 47%N (path_of l) = nil :: l.
Proof. intros l H. rewrite <- path_join. apply UrlProofs.split_join; [discriminate|]. intros x [<-|I]; [intros []|apply H, I]. Qed.
Lemma path_chars : forall l c, In c (path_of l) -> c = 47%N \/ exists x, In x l /\ In c x.
Proof.
  intros l c. unfold path_of. induction l as [|x l IH]; [intros []|]. cbn [map concat]. intros [E|I]; [auto|]. apply in_app_or in I as [I|I].
  - right. exists x. split; [left; reflexivity|exact I].
  - destruct (IH I) as [E|(y & Y & J)]; [auto|right; exists y; split; [right; exact Y|exact J]].
Qed.
Lemma after_slash_end : forall x, Url.after_slash (x ++ [47%N]) = (x ++ [47%N], nil).
Proof. induction x as [|c x IH]; [reflexivity|]. cbn [app Url.after_slash]. rewrite IH. destruct (x ++ [47%N]) eqn:E; [destruct x; discriminate|reflexivity]. Qed.
Lemma resolve_plain : forall l, (forall x, In x l -> Url.dot x = false /\ Url.dotdot x = false) -> l <> nil -> Url.resolve l = l.
Proof.
  intros l H Ne. unfold Url.resolve. assert (L : In (Url.last_seg l) l).
  { unfold Url.last_seg. destruct (exists_last Ne) as (a & x & ->). rewrite last_last. apply in_or_app. right. left. reflexivity. }
  destruct (H _ L) as [-> ->]. cbn [orb]. rewrite app_nil_r. clear L Ne.
  assert (G : forall acc, fold_left (fun acc s => if Url.dotdot s then removelast acc else if Url.dot s then acc else acc ++ [s]) l acc = acc ++ l).
  { induction l as [|x l IH]; intros acc; [symmetry; apply app_nil_r|]. cbn [fold_left]. destruct (H x (or_introl eq_refl)) as [-> ->].
    rewrite IH by (intros y I; apply H; right; exact I). rewrite <- app_assoc. reflexivity. }
  exact (G nil).
Qed.
Lemma filter_segments : forall l n, (forall x, In x l -> x <> nil) -> filter (fun s => negb (str_eqb s nil)) (l ++ repeat nil n) = l.
Proof.
  intros l n H. rewrite filter_app. replace (filter _ (repeat nil n)) with (@nil str) by (induction n as [|n IH]; [reflexivity|exact IH]).
  rewrite app_nil_r. induction l as [|x l IH]; [reflexivity|]. cbn [filter]. assert (E : str_eqb x nil = false).
  { destruct (str_eqb x nil) eqn:E; [|reflexivity]. apply str_eqb_spec in E. exfalso. apply (H x); [left; reflexivity|exact E]. }
  rewrite E. cbn [negb]. f_equal. apply IH. intros y I. apply H. right. exact I.
Qed.

Lemma middle : forall (l : list str) (a b : str), Url.filter_middle ((nil :: l) ++ [a; b]) = nil :: filter (fun s => negb (str_eqb s nil)) (l ++ [a]) ++ [b].
Proof.
  unfold str. intros l a b. assert (X : (nil :: l) ++ [a; b] = nil :: (l ++ [a]) ++ [b]) by (cbn [app]; rewrite <- app_assoc; reflexivity). rewrite X.
  assert (G : forall m : list (list N), m <> nil -> Url.filter_middle (nil :: m) = nil :: filter (fun s => negb (str_eqb s nil)) (removelast m) ++ [Url.last_seg m]) by (intros [|y m] N; [contradiction|reflexivity]).
  rewrite G by (destruct (l ++ [a]); discriminate). unfold Url.last_seg. rewrite removelast_last, last_last. reflexivity.
Qed.

Lemma merged_rel : forall b p, p <> nil -> (forall t, p <> 47%N :: t) -> merged b p =
  let j := join_on 47%N (Url.resolve (Url.filter_middle ((if str_eqb (Url.last_seg (split_on 47%N b)) nil then split_on 47%N b else removelast (split_on 47%N b)) ++ split_on 47%N p))) in
  match j with nil => [47%N] | _ => j end.
Proof.
  intros b [|c t] N H; [contradiction|]. unfold merged. cbv zeta iota. destruct (N.eqb_spec c 47) as [->|_]; [destruct (H t eq_refl)|reflexivity].
Qed.

(** With an ordinary path, and any number of slashes after it, the document is asked for below this path. *)
Theorem C106_discovery_url : forall ul s h segs n, let u := s ++ s2l "://" ++ h ++ path_of segs ++ repeat 47%N n in
  address u s h (path_of segs ++ repeat 47%N n) -> web s -> one_line u -> Forall segment segs -> Url.netloc_ok ul h = true ->
  Url.urljoin ul (u ++ s2l "/") (s2l ".well-known/openid-configuration") =
  Ok (Url.lower s ++ s2l "://" ++ h ++ path_of segs ++ s2l "/.well-known/openid-configuration").
Proof.
  intros ul s h segs n u A W O F K. rewrite Forall_forall in F.
  rewrite (join_web ul (u ++ s2l "/") s h ((path_of segs ++ repeat 47%N n) ++ s2l "/")); [|apply (address_more u s h _ nil A)|exact W|apply one_line_app; [exact O|apply one_line_const; reflexivity]|discriminate|reflexivity|destruct W as [-> | ->]; reflexivity].
  rewrite K. do 4 f_equal. clear A O u K.
  assert (B : path_part s ((path_of segs ++ repeat 47%N n) ++ s2l "/") = path_of (segs ++ repeat nil (n + 1))).
  { assert (E : (path_of segs ++ repeat 47%N n) ++ s2l "/" = path_of (segs ++ repeat nil (n + 1))).
    { rewrite path_app, path_slashes, repeat_app, app_assoc. reflexivity. }
    unfold path_part, UrlProofs.parts. unfold Url.cut_or.
    assert (N : forall k, In k [35%N; 63%N] -> ~ In k (path_of (segs ++ repeat nil (n + 1)))).
    { intros k K I. apply path_chars in I as [->|(x & X & I)]; [cbn in K; intuition discriminate|]. apply in_app_or in X as [X|X].
      - apply (proj2 (proj2 (proj2 (F x X))) k I). right. cbn in *. tauto.
      - apply repeat_spec in X. subst x. destruct I. }
    rewrite E. rewrite UrlProofs.cut_none by (apply N; left; reflexivity). rewrite UrlProofs.cut_none by (apply N; right; left; reflexivity).
    rewrite <- E. unfold Url.split_params. change (s2l "/") with [47%N]. rewrite after_slash_end. destruct (Url.mem_str (Url.lower s) Url.USES_PARAMS); [|reflexivity]. change (Url.cut_or Url.SEMICOLON nil) with (@nil BinNums.N, @nil BinNums.N). cbv iota. rewrite app_nil_r. reflexivity. }
  rewrite B. rewrite merged_rel by discriminate. rewrite split_path_of.
  2: { intros x X I. apply in_app_or in X as [X|X]; [|apply repeat_spec in X; subst x; destruct I]. apply (proj2 (proj2 (proj2 (F x X))) _ I). left. reflexivity. }
  change (split_on 47%N (s2l ".well-known/openid-configuration")) with [s2l ".well-known"; s2l "openid-configuration"].
  replace (Url.last_seg (nil :: segs ++ repeat nil (n + 1))) with (@nil BinNums.N).
  2: { unfold Url.last_seg. rewrite repeat_app, app_assoc, app_comm_cons. cbn [repeat]. rewrite last_last. reflexivity. }
  change (str_eqb nil nil) with true. cbv iota.
  assert (M : Url.filter_middle ((nil :: segs ++ repeat nil (n + 1)) ++ [s2l ".well-known"; s2l "openid-configuration"]) = nil :: (segs ++ [s2l ".well-known"]) ++ [s2l "openid-configuration"]).
  { rewrite middle, filter_app, filter_segments by (intros x X; apply (F x X)). reflexivity. }
  unfold str in *. rewrite M. rewrite resolve_plain; [|intros x X|discriminate].
  - rewrite path_join, !path_app. change (path_of [s2l ".well-known"]) with (s2l "/.well-known"). change (path_of [s2l "openid-configuration"]) with (s2l "/openid-configuration").
    rewrite <- app_assoc. change (s2l "/.well-known" ++ s2l "/openid-configuration") with (s2l "/.well-known/openid-configuration").
    destruct segs as [|x segs]; reflexivity.
  - destruct X as [<-|X]; [split; reflexivity|]. apply in_app_or in X as [X|[<-|[]]]; [|split; reflexivity]. apply in_app_or in X as [X|[<-|[]]]; [|split; reflexivity].
    destruct (F x X) as (_ & D & DD & _). unfold Url.dot, Url.dotdot. split.
    + destruct (str_eqb x (s2l ".")) eqn:E; [apply str_eqb_spec in E; contradiction|reflexivity].
    + destruct (str_eqb x (s2l "..")) eqn:E; [apply str_eqb_spec in E; contradiction|reflexivity].
Qed.

Lemma lower_proper : forall s, web s -> proper_scheme (Url.lower s).
Proof. intros s [-> | ->]; apply scheme_iff; (eexists; eexists; split; [reflexivity|split; [reflexivity|]]); intros x I; [apply (proj1 (forallb_forall Url.scheme_char (s2l "http")) eq_refl x I)|apply (proj1 (forallb_forall Url.scheme_char (s2l "https")) eq_refl x I)]. Qed.
Lemma served_lower : forall s h p, web s -> (forall c, In c h -> ~ In c [47%N; 63%N; 35%N]) -> address (Url.lower s ++ s2l "://" ++ h ++ 47%N :: p) (Url.lower s) h (47%N :: p).
Proof. intros s h p W H. split; [reflexivity|]. split; [apply lower_proper, W|]. split; [exact H|]. right. exists 47%N, p. split; [reflexivity|left; reflexivity]. Qed.

(** So this is what is asked. *)
Theorem C106_discovery_request : forall ul s h segs n, let u := s ++ s2l "://" ++ h ++ path_of segs ++ repeat 47%N n in
  address u s h (path_of segs ++ repeat 47%N n) -> web s -> one_line u -> Forall segment segs -> Url.netloc_ok ul h = true ->
  let target := Url.lower s ++ s2l "://" ++ h ++ path_of segs ++ s2l "/.well-known/openid-configuration" in
  (forall http1 http2, http1 (GET target nil) = http2 (GET target nil) -> make_issuer ul http1 u = make_issuer ul http2 u) /\
  (forall http c, make_issuer ul http u = Ok c -> exists resp, http (GET target nil) = Ok resp /\ succeeded resp).
Proof.
  intros ul s h segs n u A W O F K target. pose proof (C106_discovery_url ul s h segs n A W O F K) as E. fold u target in E. split.
  - intros http1 http2 H. unfold make_issuer. rewrite E. cbn [bind]. rewrite H. reflexivity.
  - intros http c H. apply C70_discovery_iff in H as (u' & resp & d & U & Hr & S & _). rewrite E in U. injection U as <-. exists resp. auto.
Qed.

(** What an issuer is depends on the answers of its own host only. *)
Theorem C106_issuer_host : forall ul u s h r http1 http2, address u s h r -> web s -> one_line u ->
  (forall v, served_by [(Url.lower s, h)] v -> http1 (GET v nil) = http2 (GET v nil)) ->
  make_issuer ul http1 u = make_issuer ul http2 u.
Proof.
  intros ul u s h r http1 http2 A W O H. pose proof (C106_discovery_host ul u s h r A W O) as D. unfold make_issuer. destruct (Url.netloc_ok ul h).
  - destruct D as (p & ->). cbn [bind]. rewrite H; [reflexivity|]. exists (Url.lower s), h, (47%N :: p). split; [|left; reflexivity]. apply served_lower; [exact W|apply A].
  - rewrite D. reflexivity.
Qed.
(** But the document may name any endpoints: expected is that they belong to the issuer. *)
Theorem C106_endpoints_anywhere_refuted : forall ul u s h r a t, address u s h r -> web s -> one_line u -> Url.netloc_ok ul h = true ->
  make_issuer ul (fun _ => Ok (mkResp 200 nil (Some (JObj [(s2l "authorization_endpoint", JStr a); (s2l "token_endpoint", JStr t)])) nil)) u = Ok (mkOpenID a t).
Proof.
  intros ul u s h r a t A W O K. pose proof (C106_discovery_host ul u s h r A W O) as D. rewrite K in D. destruct D as (p & D). unfold make_issuer. rewrite D. reflexivity.
Qed.

(** ** Signing *)

(** A signing session depends on the answers of the hosts of its services only: no other host is asked. *)
Theorem C106_session_hosts : forall libs ctx hosts out1 out2 token cache os h,
  services_at ctx hosts -> same_at hosts out1 out2 ->
  session libs out1 token ctx cache os h = session libs out2 token ctx cache os h.
Proof.
  intros libs ctx hosts out1 out2 token cache os h ((s & hf & r & A & W & O & I) & T & K) E. apply C89_configured_services. intros h0.
  destruct (E h0) as (E1 & E2 & E3 & E4 & E5). repeat (split; [assumption|]). split; [|split].
  - intros u q U. rewrite (proj1 (C106_certificate_url (l_url libs) _ _ _ _ A W O)) in U. destruct (Url.netloc_ok (l_url libs) hf); [|discriminate]. injection U as <-.
    apply E5. exists (Url.lower s), hf, (s2l "/api/v2/signingCert"). split; [|exact I]. apply served_lower; [exact W|apply A].
  - intros u b Iu. apply E5, T, Iu.
  - destruct (cp_rekor ctx) as [u|u]; intros q; apply E5; destruct K as (s' & h' & r' & A' & I'); exists s', h'.
    + exists (r' ++ s2l "/api/v1/log/entries"). split; [|exact I']. apply (address_more u s' h' r' (s2l "api/v1/log/entries") A').
    + exists (r' ++ s2l "/api/v2/log/entries"). split; [|exact I']. apply (address_more u s' h' r' (s2l "api/v2/log/entries") A').
Qed.

(** A log URL with a final slash is not the same as one without: expected is that both work. *)
Theorem C106_log_slash_refuted : forall rp u (good : response) req,
  create_entry_v2 rp (fun q => match q with POST v _ => if str_eqb v (u ++ s2l "/api/v2/log/entries") then Ok good else Ok (mkResp 404 nil None nil) | GET _ _ => Ok good end)
    (u ++ s2l "/") req = Raise ERekorClient.
Proof.
  intros rp u good req. unfold create_entry_v2. assert (E : str_eqb ((u ++ s2l "/") ++ s2l "/api/v2" ++ s2l "/log/entries") (u ++ s2l "/api/v2/log/entries") = false).
  { destruct (str_eqb _ _) eqn:E; [|reflexivity]. apply str_eqb_spec in E. apply (f_equal (@length _)) in E. rewrite !app_length in E. cbn in E. lia. }
  rewrite E. reflexivity.
Qed.

(** ** Authorization *)

(** the reader of a URL takes as query what is between the first ? and the first # *)
Definition reads (url s h path q : str) : Prop :=
  address url s h (path ++ 63%N :: q) /\ (forall c, In c path -> c <> 63%N /\ c <> 35%N) /\ ~ In 35%N q.

Lemma issued_query : forall env ul se force w url, wrun env ul se force w -> issued (w_log w) url ->
  exists uri q, Url.urlencode (auth_params env se uri) = Ok q /\ url = s_auth_endpoint se ++ 63%N :: q.
Proof.
  intros env ul se force w url R H. destruct (i_urls _ _ _ _ _ (inv_run _ _ _ _ _ R) _ H) as (uri & U & _). unfold auth_url, Url.authorization_url in U.
  destruct (Url.urlencode (auth_params env se uri)) as [q|] eqn:E; cbn [bind] in U; [|discriminate]. injection U as <-. exists uri, q. split; [exact E|reflexivity].
Qed.

(** With an endpoint without query and fragment, every URL that is issued is one of the same host, its path is that of
    the endpoint, and its query is that of [C52_urls]. *)
Theorem C106_authorization : forall env ul se force w url s h path params,
  wrun env ul se force w -> issued (w_log w) url ->
  address (s_auth_endpoint se) s h path -> (forall c, In c path -> c <> 63%N /\ c <> 35%N) ->
  asks ul url (s_auth_endpoint se) params ->
  exists q, reads url s h path q /\ Forall2 (names ul) params (split_on 38%N q).
Proof.
  intros env ul se force w url s h path params R H (Ee & S & Hh & Rr) N (q & E & F). destruct (issued_query _ _ _ _ _ _ R H) as (uri & q' & U & E').
  assert (q' = q) by (rewrite E in E'; apply app_inv_head in E'; congruence). subst q'. exists q. split; [|exact F]. split; [|split; [exact N|]].
  - split; [rewrite E, Ee, <- !app_assoc; reflexivity|]. split; [exact S|]. split; [exact Hh|]. right. destruct Rr as [->|(c & t & -> & I)]; [exists 63%N, q; split; [reflexivity|right; left; reflexivity]|exists c, (t ++ 63%N :: q); auto].
  - eapply UrlProofs.urlencode_no; [exact U|reflexivity|discriminate..].
Qed.

Lemma Forall2_head : forall {A B} (P : A -> B -> Prop) x y l m, Forall2 P (x :: l) (y :: m) -> P x y.
Proof. intros A B P x y l m F. inversion F. assumption. Qed.
Lemma Forall2_tail : forall {A B} (P : A -> B -> Prop) x y l m, Forall2 P (x :: l) (y :: m) -> Forall2 P l m.
Proof. intros A B P x y l m F. inversion F. assumption. Qed.

(** RFC 6749 lets an endpoint have a query, to which the parameters are added.  Here the first of them is lost: the
    response type is not given, as it is part of the last value of the endpoint. *)
Theorem C106_endpoint_query_refuted : forall env ul se force w url s h path k v,
  wrun env ul se force w -> issued (w_log w) url ->
  address (s_auth_endpoint se) s h (path ++ 63%N :: k ++ 61%N :: v) -> (forall c, In c path -> c <> 63%N /\ c <> 35%N) ->
  (forall c, In c (k ++ v) -> ~ In c [35%N; 37%N; 38%N; 43%N; 61%N]) -> k <> s2l "response_type" ->
  exists q, reads url s h path q /\ forall f x, In f (split_on 38%N q) -> ~ names ul (s2l "response_type", x) f.
Proof.
  intros env ul se force w url s h path k v R H (Ee & S & Hh & Rr) N C K. destruct (issued_query _ _ _ _ _ _ R H) as (uri & q & U & E).
  assert (Nv : forall z, In z [35%N; 37%N; 38%N; 43%N; 61%N] -> ~ In z k /\ ~ In z v) by (intros z Z; split; intros I; apply (C z); auto; apply in_or_app; auto).
  exists (k ++ 61%N :: v ++ 63%N :: q). split.
  - split; [|split; [exact N|]].
    + split; [rewrite E, Ee, <- !app_assoc; cbn [app]; rewrite <- !app_assoc; reflexivity|]. split; [exact S|]. split; [exact Hh|]. right.
      destruct path as [|c t]; [eexists; eexists; split; [reflexivity|right; left; reflexivity]|]. destruct Rr as [X|(c' & t' & X & I)]; [discriminate|]. injection X as <- _.
      exists c, (t ++ 63%N :: k ++ 61%N :: v ++ 63%N :: q). split; [reflexivity|exact I].
    + intros I. destruct (Nv 35%N) as [A B]; [left; reflexivity|]. apply in_app_or in I as [I|[I|I]]; [exact (A I)|discriminate|]. apply in_app_or in I as [I|[I|I]]; [exact (B I)|discriminate|].
      revert I. eapply UrlProofs.urlencode_no; [exact U|reflexivity|discriminate..].
  - destruct (UrlProofs.urlencode_split (auth_params env se uri) q) as (fs & F & Eq & Sp); [discriminate|exact U|].
    assert (D : Forall2 (names ul) (auth_params env se uri) fs).
    { destruct (auth_url_asks env ul se uri url) as (q' & E' & F'); [unfold auth_url, Url.authorization_url; rewrite U; cbn [bind]; f_equal; symmetry; exact E|].
      rewrite E in E'. apply app_inv_head in E'. injection E' as <-. rewrite Sp in F'. exact F'. }
    unfold auth_params in D. destruct fs as [|f1 fs1]; [inversion D|]. assert (D1 := Forall2_head _ _ _ _ _ D). assert (D2 := Forall2_tail _ _ _ _ _ D). clear D F.
    assert (X : split_on 38%N (k ++ 61%N :: v ++ 63%N :: q) = (k ++ 61%N :: v ++ 63%N :: f1) :: fs1).
    { destruct fs1 as [|f2 fs2]; [inversion D2|]. rewrite Eq. change (join_on 38%N (f1 :: f2 :: fs2)) with (f1 ++ 38%N :: join_on 38%N (f2 :: fs2)).
      replace (k ++ 61%N :: v ++ 63%N :: f1 ++ 38%N :: join_on 38%N (f2 :: fs2)) with ((k ++ 61%N :: v ++ 63%N :: f1) ++ 38%N :: join_on 38%N (f2 :: fs2)) by (rewrite <- !app_assoc; cbn [app]; rewrite <- !app_assoc; reflexivity).
      rewrite Eq in Sp. change (join_on 38%N (f1 :: f2 :: fs2)) with (f1 ++ 38%N :: join_on 38%N (f2 :: fs2)) in Sp.
      assert (N1 : ~ In 38%N f1).
      { intros I.
        assert (G : forall sep s, Forall (fun p => ~ In sep p) (split_on sep s)).
        { clear. intros sep s. induction s as [|c s IH]; cbn [split_on]; [constructor; [intros []|constructor]|]. destruct (N.eqb_spec c sep) as [->|Ne]; [constructor; [intros []|exact IH]|].
          destruct (split_on sep s) as [|p ps]; [constructor; [intros [->|[]]; contradiction|constructor]|]. inversion IH; subst. constructor; [intros [->|J]; contradiction|assumption]. }
        pose proof (G 38%N (f1 ++ 38%N :: join_on 38%N (f2 :: fs2))) as G1. rewrite Sp in G1. inversion G1; subst. contradiction. }
      rewrite UrlProofs.split_first.
      - f_equal. rewrite UrlProofs.split_first in Sp by exact N1. injection Sp as Sp. exact Sp.
      - destruct (Nv 38%N) as [A B]; [right; right; left; reflexivity|]. intros I. apply in_app_or in I as [I|[I|I]]; [exact (A I)|discriminate|]. apply in_app_or in I as [I|[I|I]]; [exact (B I)|discriminate|exact (N1 I)]. }
    rewrite X. intros f x [<-|I] (a & b & Ef & Na & Kk & _); cbn [fst] in Kk.
    + assert (Some (a, b) = Some (k, v ++ 63%N :: f1)).
      { transitivity (Url.cut 61%N (k ++ 61%N :: v ++ 63%N :: f1)); [rewrite Ef; symmetry; apply UrlProofs.cut_spec; auto|apply UrlProofs.cut_spec]. split; [reflexivity|]. apply Nv. right. right. right. right. left. reflexivity. }
      injection H0 as -> ->. rewrite UrlProofs.form_plain in Kk; [congruence| |]; apply Nv; cbn; auto.
    + assert (Q : exists kv, In kv [(s2l "client_id", s_client_id se); (s2l "client_secret", s_client_secret se);
          (s2l "scope", s2l "openid email"); (s2l "redirect_uri", uri); (s2l "code_challenge", code_challenge env se);
          (s2l "code_challenge_method", s2l "S256"); (s2l "state", s_state se)] /\ names ul kv f).
      { clear -D2 I. induction D2 as [|kv g ps gs Hg D2 IH]; [destruct I|]. destruct I as [<-|I]; [exists kv; split; [left; reflexivity|exact Hg]|].
        destruct (IH I) as (kv' & J & G). exists kv'. split; [right; exact J|exact G]. }
      destruct Q as ([k' v'] & J & (a' & b' & Ef' & Na' & Kk' & _)). cbn [fst] in Kk'.
      assert (Some (a, b) = Some (a', b')) by (rewrite Ef in Ef'; transitivity (Url.cut 61%N (a ++ 61%N :: b)); [symmetry; apply UrlProofs.cut_spec; auto|rewrite Ef'; apply UrlProofs.cut_spec; auto]).
      injection H0 as -> ->. rewrite <- Kk in Kk'. cbn [In] in J. repeat (destruct J as [J|J]; [injection J as <- _; discriminate Kk'|]). exact J.
Qed.

(** ** Examples *)
Lemma address_const : forall s h r, UrlProofs.url_scheme s -> forallb (fun c => negb (Url.ends_netloc c)) h = true ->
  match r with nil => true | c :: _ => Url.ends_netloc c end = true -> address (s ++ s2l "://" ++ h ++ r) s h r.
Proof.
  intros s h r S H R. split; [reflexivity|]. split; [apply scheme_iff, S|]. split.
  - apply host_iff. intros c I. apply negb_true_iff. exact (proj1 (forallb_forall _ h) H c I).
  - apply after_iff. destruct r as [|c t]; [left; reflexivity|right; exists c, t; auto].
Qed.
Lemma scheme_const : forall c t, Url.is_letter c = true -> forallb Url.scheme_char (c :: t) = true -> UrlProofs.url_scheme (c :: t).
Proof. intros c t L F. exists c, t. split; [reflexivity|]. split; [exact L|]. apply forallb_forall, F. Qed.

Definition ux_ca : str := s2l "HTTPS://ca.example:8443/fulcio?x=1#y".
Lemma ux_address : address ux_ca (s2l "HTTPS") (s2l "ca.example:8443") (s2l "/fulcio?x=1#y").
Proof. apply (address_const (s2l "HTTPS") (s2l "ca.example:8443") (s2l "/fulcio?x=1#y")); [apply scheme_const; reflexivity|reflexivity|reflexivity]. Qed.
Example ex_certificate_url : Url.urljoin sy_url ux_ca (s2l "/api/v2/signingCert") = Ok (s2l "https://ca.example:8443/api/v2/signingCert").
Proof. rewrite (proj1 (C106_certificate_url sy_url _ _ _ _ ux_address (or_intror eq_refl) (one_line_const ux_ca eq_refl))). reflexivity. Qed.
Example ex_discovery_url : Url.urljoin sy_url (s2l "https://idp.example/realms/a.b///" ++ s2l "/") (s2l ".well-known/openid-configuration") =
  Ok (s2l "https://idp.example/realms/a.b/.well-known/openid-configuration").
Proof.
  refine (C106_discovery_url sy_url (s2l "https") (s2l "idp.example") [s2l "realms"; s2l "a.b"] 3 _ (or_intror eq_refl) _ _ eq_refl).
  - apply address_const; [apply scheme_const; reflexivity|reflexivity|reflexivity].
  - apply one_line_const. reflexivity.
  - assert (G : forall x, x <> nil -> x <> s2l "." -> x <> s2l ".." -> forallb (fun c => negb (Url.ends_netloc c)) x = true -> segment x).
    { intros x A B C F. split; [exact A|]. split; [exact B|]. split; [exact C|]. apply host_iff. intros c I. apply negb_true_iff. exact (proj1 (forallb_forall _ x) F c I). }
    repeat constructor; apply G; solve [discriminate|reflexivity].
Qed.

(** the services of the toy context, and a world in which another host is hostile *)
Definition ux_hosts : list (str * str) := [(s2l "https", s2l "ca.example"); (s2l "https", s2l "tsa.example"); (s2l "https", s2l "down.example"); (s2l "https", s2l "rekor2.example")].
Lemma ux_services : services_at sy_ctx2 ux_hosts.
Proof.
  assert (G : forall h r, forallb (fun c => negb (Url.ends_netloc c)) h = true -> match r with nil => true | c :: _ => Url.ends_netloc c end = true -> address (s2l "https" ++ s2l "://" ++ h ++ r) (s2l "https") h r)
    by (intros h r; apply address_const, scheme_const; reflexivity).
  split; [|split].
  - exists (s2l "https"), (s2l "ca.example"), nil. split; [apply (G (s2l "ca.example") nil); reflexivity|]. split; [right; reflexivity|]. split; [apply one_line_const; reflexivity|left; reflexivity].
  - intros u [<-|[<-|[]]].
    + exists (s2l "https"), (s2l "down.example"), nil. split; [apply (G (s2l "down.example") nil); reflexivity|right; right; left; reflexivity].
    + exists (s2l "https"), (s2l "tsa.example"), nil. split; [apply (G (s2l "tsa.example") nil); reflexivity|right; left; reflexivity].
  - exists (s2l "https"), (s2l "rekor2.example"), nil. split; [apply (G (s2l "rekor2.example") nil); reflexivity|right; right; right; left; reflexivity].
Qed.
Definition ux_evil : str := s2l "https://ca.example.evil.org/api/v2/signingCert".
Definition ux_hostile {A} (f : http_request A -> res response) (q : http_request A) : res response :=
  match q with POST u _ => if str_eqb u ux_evil then Raise EValue else f q | GET _ _ => f q end.
Definition ux_out : Outside :=
  mkOutside (o_clock (sy_out sy_far)) (o_pub (sy_out sy_far)) (o_sign (sy_out sy_far)) (fun h => ux_hostile (o_fulcio (sy_out sy_far) h))
    (o_tsa_query (sy_out sy_far)) (fun h => ux_hostile (o_tsa (sy_out sy_far) h)) (fun h => ux_hostile (o_log (sy_out sy_far) h)).
Lemma ux_same : same_at ux_hosts (sy_out sy_far) ux_out.
Proof.
  intros h. split; [reflexivity|]. split; [reflexivity|]. split; [reflexivity|]. split; [reflexivity|]. intros u (s & hh & r & A & I).
  assert (E : str_eqb u ux_evil = false).
  { destruct (str_eqb u ux_evil) eqn:E; [|reflexivity]. apply str_eqb_spec in E. subst u. exfalso.
    assert (B : address ux_evil (s2l "https") (s2l "ca.example.evil.org") (s2l "/api/v2/signingCert")) by (apply (address_const (s2l "https") (s2l "ca.example.evil.org") (s2l "/api/v2/signingCert")); [apply scheme_const; reflexivity|reflexivity|reflexivity]).
    destruct (C106_address_unique _ _ _ _ _ _ _ A B) as (-> & -> & _). cbn [In ux_hosts] in I.
    repeat (destruct I as [I|I]; [discriminate (f_equal (fun p => length (snd p)) I)|]). exact I. }
  repeat split; intros; cbn [o_fulcio o_tsa o_log ux_out]; unfold ux_hostile; rewrite E; reflexivity.
Qed.
Example ex_session_hosts : session (sy_libs sy_far) ux_out sy_token sy_ctx2 true [sy_hello; sy_dsse] nil =
  session (sy_libs sy_far) (sy_out sy_far) sy_token sy_ctx2 true [sy_hello; sy_dsse] nil.
Proof. symmetry. apply (C106_session_hosts _ _ ux_hosts); [exact ux_services|exact ux_same]. Qed.

(** the browser is sent to an ordinary endpoint, and to one with a query *)
Definition ux_se (endpoint : String.string) : Session := Oauth.mkSession (s2l "sigstore") nil (s2l endpoint) (s2l "st-1") (s2l "verifier") 4321.
Lemma ux_run : forall endpoint, (forall c, In c (s2l endpoint) -> (c < 256)%N) -> exists w url, wrun ox_env oa_url (ux_se endpoint) false w /\ issued (w_log w) url.
Proof.
  intros endpoint B. assert (Sd : sendable (ux_se endpoint)) by (split; [repeat split; apply ascii_encodable; reflexivity|exact B]).
  destruct (auth_url_ok ox_env (ux_se endpoint) (redirect_uri (ux_se endpoint) false) (proj1 Sd)) as (url & U); [apply ascii_encodable; reflexivity|].
  pose proof (wr_init ox_env oa_url (ux_se endpoint) false) as R0. unfold w_init in R0.
  pose proof (wr_step _ _ _ _ _ _ R0 (ws_opened _ _ _ _ _ _ _ _ _ eq_refl)) as R1.
  pose proof (wr_step _ _ _ _ _ _ R1 (ws_start _ _ _ _ _ _ _ _ (s2l "/") nil eq_refl)) as R2.
  pose proof (wr_step _ _ _ _ _ _ R2 (ws_check_good _ _ _ _ _ _ _ _ _)) as R3.
  pose proof (wr_step _ _ _ _ _ _ R3 (ws_set _ _ _ _ _ _ _ _ _ _ _ U (auth_url_latin1 _ _ _ _ Sd U))) as R4.
  eexists. exists url. split; [exact R4|]. left. left. reflexivity.
Qed.
Lemma ux_small : forall s, forallb (fun c => N.ltb c 256) s = true -> forall c, In c s -> (c < 256)%N.
Proof. intros s F c I. apply N.ltb_lt. exact (proj1 (forallb_forall _ s) F c I). Qed.
Lemma ux_path : forall c, In c (s2l "/auth") -> c <> 63%N /\ c <> 35%N.
Proof. intros c I. cbn in I. repeat (destruct I as [<-|I]; [split; discriminate|]). destruct I. Qed.
Example ex_authorization : exists w url q, wrun ox_env oa_url (ux_se "https://idp/auth") false w /\ issued (w_log w) url /\ reads url (s2l "https") (s2l "idp") (s2l "/auth") q.
Proof.
  destruct (ux_run "https://idp/auth" (ux_small (s2l "https://idp/auth") eq_refl)) as (w & url & R & I). destruct (C52_urls _ _ _ _ _ R) as (_ & _ & A). destruct (A url I) as (ch & uri & Q & _).
  assert (B : address (s2l "https://idp/auth") (s2l "https") (s2l "idp") (s2l "/auth")) by (apply (address_const (s2l "https") (s2l "idp") (s2l "/auth")); [apply scheme_const; reflexivity|reflexivity|reflexivity]).
  destruct (C106_authorization _ _ _ _ _ _ _ _ _ _ R I B ux_path Q) as (q & G & _). exists w, url, q. auto.
Qed.
Example ex_endpoint_query : exists w url q, wrun ox_env oa_url (ux_se "https://idp/auth?tenant=1") false w /\ issued (w_log w) url /\
  reads url (s2l "https") (s2l "idp") (s2l "/auth") q /\ forall f x, In f (split_on 38%N q) -> ~ names oa_url (s2l "response_type", x) f.
Proof.
  destruct (ux_run "https://idp/auth?tenant=1" (ux_small (s2l "https://idp/auth?tenant=1") eq_refl)) as (w & url & R & I).
  destruct (C106_endpoint_query_refuted _ _ _ _ _ _ (s2l "https") (s2l "idp") (s2l "/auth") (s2l "tenant") (s2l "1") R I) as (q & G & H); [|apply ux_path| |discriminate|exists w, url, q; auto].
  - apply (address_const (s2l "https") (s2l "idp") (s2l "/auth?tenant=1")); [apply scheme_const; reflexivity|reflexivity|reflexivity].
  - intros c J. cbn in J. repeat (destruct J as [<-|J]; [cbn; intuition discriminate|]). destruct J.
Qed.

Print Assumptions C106_address_unique.
Print Assumptions C106_plain_hosts_accepted.
Print Assumptions C106_certificate_url.
Print Assumptions C106_certificate_request.
Print Assumptions C106_trust_bundle_request.
Print Assumptions C106_base_path_refuted.
Print Assumptions C106_discovery_host.
Print Assumptions C106_discovery_url.
Print Assumptions C106_discovery_request.
Print Assumptions C106_issuer_host.
Print Assumptions C106_endpoints_anywhere_refuted.
Print Assumptions C106_session_hosts.
Print Assumptions C106_log_slash_refuted.
Print Assumptions C106_authorization.
Print Assumptions C106_endpoint_query_refuted.
