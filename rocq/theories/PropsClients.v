(** Properties C65 and C66: the CA client and the timestamp authority client. *)
From Verif Require Import Base Codec Messages Env Json Http Clients RekorClient PropsRekorClient CheckpointProofs ToyEnv.
From Verif Require Url.

(** ** Specification *)

(** the elements of a JSON array (or the characters of a text, which Python treats alike) *)
Definition elements (v : json) (l : list json) : Prop :=
  v = JList l \/ exists s, v = JStr s /\ l = map (fun c => JStr [c]) s.

(** [v] is the text of the PEM certificate [c] *)
Definition pem_text (load_pem : bytes -> res Cert) (v : json) (c : Cert) : Prop :=
  exists s b, v = JStr s /\ utf8_encode s = Some b /\ load_pem b = Ok c.

(** the value at signedCertificateEmbeddedSct.chain.certificates *)
Definition answer_certificates (j v : json) : Prop :=
  exists f1 f2 f3, j = JObj f1 /\ field f1 "signedCertificateEmbeddedSct" (JObj f2) /\
    field f2 "chain" (JObj f3) /\ field f3 "certificates" v.

(** one of the three levels has no such field *)
Definition lacks_certificates (j : json) : Prop :=
  exists f1, j = JObj f1 /\
    (assoc str_eqb (s2l "signedCertificateEmbeddedSct") f1 = None \/
     exists f2, field f1 "signedCertificateEmbeddedSct" (JObj f2) /\
       (assoc str_eqb (s2l "chain") f2 = None \/
        exists f3, field f2 "chain" (JObj f3) /\ assoc str_eqb (s2l "certificates") f3 = None)).

(** ** Proofs *)

Lemma raise_for_status_ok : forall r, succeeded r -> raise_for_status r = Ok tt.
Proof. intros r H. apply resp_ok_iff in H. unfold raise_for_status. rewrite H. reflexivity. Qed.
Lemma raise_for_status_failed : forall r, failed r -> raise_for_status r = Raise EHTTPError.
Proof. intros r H. apply resp_failed in H. unfold raise_for_status. rewrite H. reflexivity. Qed.
Lemma succeeded_or_failed : forall r, succeeded r \/ failed r.
Proof. intros r. unfold succeeded, failed. lia. Qed.

Lemma load_text_ok : forall lp v c, load_text lp v = Ok c <-> pem_text lp v c.
Proof.
  intros lp v c. unfold load_text, pem_text. split.
  - intros H. inv H b Hb. destruct v; try discriminate. cbn in Hb. destruct (utf8_encode s) eqn:E; [|discriminate].
    assert (b = b0) by congruence. subst. eauto.
  - intros (s & b & -> & E & L). cbn. rewrite E. exact L.
Qed.

Lemma map_load_text : forall lp l cs, map_res (load_text lp) l = Ok cs <-> Forall2 (pem_text lp) l cs.
Proof.
  intros lp. induction l as [|v l IH]; intros cs; cbn [map_res].
  - split; [intros H; assert (cs = nil) by congruence; subst; constructor|intros H; inversion H; reflexivity].
  - split.
    + intros H. inv H c Hc. inv H t Ht. assert (cs = c :: t) by congruence. subst.
      constructor; [apply load_text_ok; assumption|apply IH; assumption].
    + intros H. inversion H as [|v' c l' t Hc Ht]; subst. apply load_text_ok in Hc. rewrite Hc. cbn [bind].
      apply IH in Ht. rewrite Ht. reflexivity.
Qed.

Lemma load_text_raise : forall lp v e, load_text lp v = Raise e ->
  e = EAttribute \/ e = EUnicodeEncode \/ exists t b, v = JStr t /\ utf8_encode t = Some b /\ lp b = Raise e.
Proof.
  intros lp v e H. unfold load_text in H. apply bind_raise_inv in H. destruct H as [H|(b & Hb & H)].
  - destruct v; cbn in H; try (left; congruence). destruct (utf8_encode s); [discriminate|]. right. left. congruence.
  - destruct v; cbn in Hb; try discriminate. destruct (utf8_encode s) as [b'|] eqn:U; [|discriminate].
    injection Hb as <-. right. right. eauto.
Qed.

Lemma path_ok : forall j v,
  (let* a := py_item j (s2l "signedCertificateEmbeddedSct") in
   let* b := py_item a (s2l "chain") in py_item b (s2l "certificates")) = Ok v <-> answer_certificates j v.
Proof.
  intros j v. unfold answer_certificates, field. split.
  - intros H. inv H a Ha. inv H b Hb. apply py_item_ok in Ha. destruct Ha as (f1 & -> & A1).
    apply py_item_ok in Hb. destruct Hb as (f2 & -> & A2). apply py_item_ok in H. destruct H as (f3 & -> & A3).
    exists f1, f2, f3. auto.
  - intros (f1 & f2 & f3 & -> & A1 & A2 & A3). cbn [py_item]. rewrite A1. cbn [bind py_item]. rewrite A2. cbn [bind py_item].
    rewrite A3. reflexivity.
Qed.

Lemma path_key : forall j,
  (let* a := py_item j (s2l "signedCertificateEmbeddedSct") in
   let* b := py_item a (s2l "chain") in py_item b (s2l "certificates")) = Raise EKey <-> lacks_certificates j.
Proof.
  intros j. unfold lacks_certificates, field. split.
  - intros H. destruct j as [| | | | | | |f1]; try discriminate. exists f1. split; [reflexivity|].
    cbn [py_item] in H. destruct (assoc str_eqb (s2l "signedCertificateEmbeddedSct") f1) as [a|] eqn:A1; [|left; reflexivity].
    cbn [bind] in H. destruct a as [| | | | | | |f2]; try discriminate. right. exists f2. split; [reflexivity|].
    cbn [py_item] in H. destruct (assoc str_eqb (s2l "chain") f2) as [b|] eqn:A2; [|left; reflexivity].
    cbn [bind] in H. destruct b as [| | | | | | |f3]; try discriminate. right. exists f3. split; [reflexivity|].
    cbn [py_item] in H. destruct (assoc str_eqb (s2l "certificates") f3); [discriminate|reflexivity].
  - intros (f1 & -> & [A1|(f2 & A1 & [A2|(f3 & A2 & A3)])]); cbn [py_item]; rewrite A1; cbn [bind py_item]; [reflexivity| |];
      rewrite A2; cbn [bind py_item]; [reflexivity|]. rewrite A3. reflexivity.
Qed.

Lemma path_raise : forall j e,
  (let* a := py_item j (s2l "signedCertificateEmbeddedSct") in
   let* b := py_item a (s2l "chain") in py_item b (s2l "certificates")) = Raise e -> e = EKey \/ e = EType.
Proof.
  assert (P : forall v k e, py_item v k = Raise e -> e = EKey \/ e = EType).
  { intros v k e H. destruct v; cbn in H; try (right; congruence). destruct (assoc str_eqb k l); [discriminate|left; congruence]. }
  intros j e H. apply bind_raise_inv in H. destruct H as [H|(a & _ & H)]; [eauto|].
  apply bind_raise_inv in H. destruct H as [H|(b & _ & H)]; eauto.
Qed.

Lemma elements_iter : forall v l, elements v l -> py_iter v = Ok l /\
  forall y ys, l = y :: ys -> py_nth v 0 = Ok y /\ exists w, py_tail v 1 = Ok w /\ py_iter w = Ok ys.
Proof.
  intros v l [->|(s & -> & ->)].
  - split; [reflexivity|]. intros y ys ->. split; [reflexivity|]. exists (JList ys). split; reflexivity.
  - split; [reflexivity|]. intros y ys H. destruct s as [|c s]; [discriminate|]. cbn [map] in H.
    assert (y = JStr [c]) by congruence. assert (ys = map (fun c => JStr [c]) s) by congruence. subst.
    split; [reflexivity|]. exists (JStr s). split; reflexivity.
Qed.

(** ** C65 *)

(** A certificate is returned exactly when the CA answers the request for this key and token
    with success and a JSON document with at least two PEM certificates; the first is the
    certificate, the others its chain. *)
Theorem C65_accepts_iff : forall ul lp http url csr token c chain,
  fulcio_post ul lp http url csr token = Ok (c, chain) <->
  exists u r j v x xs,
    Url.urljoin ul url (s2l "/api/v2/signingCert") = Ok u /\ http (POST u (mkFulcioRequest csr token)) = Ok r /\
    succeeded r /\ r_json r = Some j /\ answer_certificates j v /\ elements v (x :: xs) /\ xs <> nil /\
    pem_text lp x c /\ Forall2 (pem_text lp) xs chain.
Proof.
  intros ul lp http url csr token c chain. unfold fulcio_post. fold SIGNING_CERT_ENDPOINT. split.
  - intros H. inv H uu Huu. inv H r Hr. destruct (succeeded_or_failed r) as [S|F].
    2:{ rewrite (raise_for_status_failed _ F) in H. inv H m Hm. discriminate. }
    rewrite (raise_for_status_ok _ S) in H. inv H v Hv. inv H n Hn. inv H u Hu. apply raise_if_ok, Nat.ltb_ge in Hu.
    inv H x Hx. inv H c' Hc'. inv H w Hw. inv H xs Hxs. inv H ch Hch.
    assert (c' = c) by congruence. assert (ch = chain) by congruence. subst c' ch. clear H.
    unfold resp_json in Hv. destruct (r_json r) as [j|] eqn:J; [|discriminate]. cbn [bind] in Hv.
    assert (P : (let* a := py_item j (s2l "signedCertificateEmbeddedSct") in
                 let* b := py_item a (s2l "chain") in py_item b (s2l "certificates")) = Ok v).
    { destruct (let* a := py_item j (s2l "signedCertificateEmbeddedSct") in
                 let* b := py_item a (s2l "chain") in py_item b (s2l "certificates")) as [v'|e] eqn:E; cbn [try_except] in Hv.
      - congruence.
      - destruct (exn_eqb EKey e); discriminate. }
    apply path_ok in P. unfold py_len in Hn. inv Hn l Hl. assert (n = length l) by congruence. subst n.
    assert (Q : elements v l).
    { destruct v; try discriminate; [right|left]; cbn in Hl; [exists s; split|f_equal]; congruence. }
    destruct (elements_iter _ _ Q) as [_ Ht]. destruct l as [|y ys]; [cbn in Hu; lia|].
    destruct (Ht y ys eq_refl) as (N0 & w' & Tw & Iw). assert (x = y) by congruence. assert (w = w') by congruence. subst.
    assert (xs = ys) by congruence. subst. exists uu, r, j, v, y, ys.
    repeat split; auto; [destruct ys; [cbn in Hu; lia|discriminate]|apply load_text_ok; assumption|apply map_load_text; assumption].
  - intros (uu & r & j & v & x & xs & Huu & Hr & S & J & P & El & N & Px & Pxs). fold SIGNING_CERT_ENDPOINT in Huu. rewrite Huu. cbn [bind]. rewrite Hr. cbn [bind].
    rewrite (raise_for_status_ok _ S). unfold resp_json. rewrite J. cbn [bind]. apply path_ok in P. rewrite P. cbn [try_except bind].
    destruct (elements_iter _ _ El) as [It Ht]. destruct (Ht x xs eq_refl) as (N0 & w & Tw & Iw).
    unfold py_len. rewrite It. cbn [bind]. destruct xs as [|x2 xs]; [congruence|]. cbn [length Nat.ltb Nat.leb raise_if bind].
    rewrite N0. cbn [bind]. apply load_text_ok in Px. rewrite Px. cbn [bind]. rewrite Tw. cbn [bind]. rewrite Iw. cbn [bind].
    apply map_load_text in Pxs. rewrite Pxs. reflexivity.
Qed.

Theorem C65_certificate_has_chain : forall ul lp http url csr token c chain,
  fulcio_post ul lp http url csr token = Ok (c, chain) -> chain <> nil.
Proof.
  intros ul lp http url csr token c chain H. apply C65_accepts_iff in H.
  destruct H as (_ & _ & _ & _ & _ & xs & _ & _ & _ & _ & _ & _ & N & _ & F). inversion F; subst; congruence.
Qed.

(** An error status, a missing field and a short chain are reported as FulcioClientError. *)
Theorem C65_bad_answers : forall ul lp http url u csr token r,
  Url.urljoin ul url (s2l "/api/v2/signingCert") = Ok u -> http (POST u (mkFulcioRequest csr token)) = Ok r ->
  (failed r \/
   exists j, succeeded r /\ r_json r = Some j /\
     (lacks_certificates j \/ exists v l, answer_certificates j v /\ elements v l /\ length l < 2)) ->
  fulcio_post ul lp http url csr token = Raise EFulcioClient.
Proof.
  intros ul lp http url u csr token r Hu Hr H. unfold fulcio_post. fold SIGNING_CERT_ENDPOINT in Hu. rewrite Hu. cbn [bind]. rewrite Hr. cbn [bind].
  destruct H as [F|(j & S & J & H)].
  - rewrite (raise_for_status_failed _ F). unfold fulcio_error_message, resp_truthy. rewrite (resp_failed _ F). reflexivity.
  - rewrite (raise_for_status_ok _ S). unfold resp_json. rewrite J. cbn [bind]. destruct H as [L|(v & l & P & El & N)].
    + apply path_key in L. rewrite L. reflexivity.
    + apply path_ok in P. rewrite P. cbn [try_except bind]. unfold py_len. rewrite (proj1 (elements_iter _ _ El)). cbn [bind].
      apply Nat.ltb_lt in N. rewrite N. reflexivity.
Qed.

(** Expected: the message in the CA's error answer becomes part of the exception.  Refuted: an
    error answer counts as false, so the message is never looked at. *)
Theorem C65_error_message_refuted : forall r, failed r -> fulcio_error_message r = Ok None.
Proof. intros r F. unfold fulcio_error_message, resp_truthy. rewrite (resp_failed _ F). reflexivity. Qed.

(** Everything that can be raised *)
Theorem C65_exceptions : forall ul lp http url csr token e,
  fulcio_post ul lp http url csr token = Raise e ->
  e = EFulcioClient \/ Url.urljoin ul url (s2l "/api/v2/signingCert") = Raise e \/
  exists u, Url.urljoin ul url (s2l "/api/v2/signingCert") = Ok u /\
  (http (POST u (mkFulcioRequest csr token)) = Raise e \/
  exists r, http (POST u (mkFulcioRequest csr token)) = Ok r /\ succeeded r /\
    ((r_json r = None /\ e = EValue) \/
     exists j, r_json r = Some j /\
       (e = EType \/ e = EAttribute \/ e = EUnicodeEncode \/ (exists f, answer_certificates j (JObj f) /\ e = EKey) \/
        exists v l t b, answer_certificates j v /\ elements v l /\ In (JStr t) l /\ utf8_encode t = Some b /\ lp b = Raise e))).
Proof.
  intros ul lp http url csr token e H. unfold fulcio_post in H. fold SIGNING_CERT_ENDPOINT.
  apply bind_raise_inv in H. destruct H as [H|(uu & Huu & H)]; [auto|].
  cut (e = EFulcioClient \/ (http (POST uu (mkFulcioRequest csr token)) = Raise e \/
    exists r, http (POST uu (mkFulcioRequest csr token)) = Ok r /\ succeeded r /\
    ((r_json r = None /\ e = EValue) \/
     exists j, r_json r = Some j /\
       (e = EType \/ e = EAttribute \/ e = EUnicodeEncode \/ (exists f, answer_certificates j (JObj f) /\ e = EKey) \/
        exists v l t b, answer_certificates j v /\ elements v l /\ In (JStr t) l /\ utf8_encode t = Some b /\ lp b = Raise e)))).
  { intros [C|C]; [left; exact C|]. right. right. exists uu. split; [exact Huu|exact C]. }
  apply bind_raise_inv in H. destruct H as [H|(r & Hr & H)]; [auto|].
  destruct (succeeded_or_failed r) as [S|F].
  2:{ rewrite (raise_for_status_failed _ F) in H. unfold fulcio_error_message, resp_truthy in H. rewrite (resp_failed _ F) in H. left.
      cbn in H. congruence. }
  rewrite (raise_for_status_ok _ S) in H.
  apply bind_raise_inv in H. destruct H as [H|(v & Hv & H)].
  { unfold resp_json in H. destruct (r_json r) as [j|] eqn:J; cbn [bind] in H.
    - destruct (let* a := py_item j (s2l "signedCertificateEmbeddedSct") in
                 let* b := py_item a (s2l "chain") in py_item b (s2l "certificates")) as [v'|e'] eqn:E; cbn [try_except] in H; [discriminate|].
      destruct (path_raise _ _ E) as [->| ->]; cbn in H; [left; congruence|]. right. right. exists r. split; [assumption|]. split; [assumption|].
      right. exists j. split; [assumption|]. left. congruence.
    - cbn in H. right. right. exists r. split; [assumption|]. split; [assumption|]. left. split; [assumption|]. congruence. }
  unfold resp_json in Hv. destruct (r_json r) as [j|] eqn:J; [|discriminate]. cbn [bind] in Hv.
  assert (P : answer_certificates j v).
  { apply path_ok. destruct (let* a := py_item j (s2l "signedCertificateEmbeddedSct") in
                 let* b := py_item a (s2l "chain") in py_item b (s2l "certificates")) as [v'|e'] eqn:E; cbn [try_except] in Hv; [congruence|].
    destruct (exn_eqb EKey e'); discriminate. }
  apply bind_raise_inv in H. destruct H as [H|(n & Hn & H)].
  { right. right. exists r. split; [assumption|]. split; [assumption|]. right. exists j. split; [assumption|]. left.
    unfold py_len in H. destruct v; cbn in H; congruence. }
  apply bind_raise_inv in H. destruct H as [H|(u & Hu & H)]; [apply raise_if_raise in H; left; tauto|].
  apply raise_if_ok, Nat.ltb_ge in Hu. clear u.
  right. right. exists r. split; [assumption|]. split; [assumption|]. right. exists j. split; [assumption|].
  apply bind_raise_inv in H. destruct H as [H|(x & Hx & H)].
  { destruct v; try discriminate; cbn in H.
    - destruct s; cbn in *; [assert (n = 0) by (unfold py_len in Hn; cbn in Hn; congruence); lia|discriminate].
    - destruct l; cbn in *; [assert (n = 0) by (unfold py_len in Hn; cbn in Hn; congruence); lia|discriminate].
    - right. right. right. left. exists l. split; [assumption|]. congruence. }
  assert (El : exists ll', elements v (x :: ll')).
  { destruct v; try discriminate; cbn in Hx.
    - destruct s as [|ch s]; [discriminate|]. unfold index_list in Hx. cbn in Hx. exists (map (fun c => JStr [c]) s). right. exists (ch :: s). split; [reflexivity|].
      cbn [map]. f_equal. congruence.
    - destruct l as [|y l]; [discriminate|]. unfold index_list in Hx. cbn in Hx. exists l. left. congruence. }
  destruct El as [ll' El]. set (ll := x :: ll') in *.
  apply bind_raise_inv in H. destruct H as [H|(c & Hc & H)].
  { apply load_text_raise in H. destruct H as [H|[H|(t & b & -> & U & L)]]; [tauto|tauto|]. do 4 right. exists v, ll, t, b. assert (I : In (JStr t) ll) by (left; reflexivity). auto. }
  apply bind_raise_inv in H. destruct H as [H|(w & Hw & H)]; [destruct v; try discriminate; cbn in H; left; congruence|].
  apply bind_raise_inv in H. destruct H as [H|(xs & Hxs & H)]; [destruct w; try discriminate; cbn in H; left; congruence|].
  apply bind_raise_inv in H. destruct H as [H|(ch & Hch & H)]; [|discriminate].
  apply map_res_raise in H. destruct H as (y & Iy & H). apply load_text_raise in H.
  destruct H as [H|[H|(t & b & -> & U & L)]]; [tauto|tauto|]. do 4 right. exists v, ll, t, b.
  assert (I : In (JStr t) ll); [|auto]. destruct (elements_iter _ _ El) as [_ Ht]. destruct (Ht x ll' eq_refl) as (_ & w' & Tw & Iw).
  assert (w = w') by congruence. subst w'. assert (xs = ll') by congruence. subst. right. assumption.
Qed.

(** Expected: every malformed answer is a FulcioClientError.  Refuted: an answer that is not JSON, a
    list where an object is expected, and a certificate that is not a text all leak. *)
Definition fx_http (j : option json) : http_request FulcioRequest -> res response := fun _ => Ok (mkResp 201 nil j nil).
Definition fx_answer (certs : list json) : json :=
  JObj [(s2l "signedCertificateEmbeddedSct", JObj [(s2l "chain", JObj [(s2l "certificates", JList certs)])])].
Theorem C65_malformed_answers_refuted : forall ul lp url u csr token, Url.urljoin ul url (s2l "/api/v2/signingCert") = Ok u ->
  fulcio_post ul lp (fx_http None) url csr token = Raise EValue /\
  fulcio_post ul lp (fx_http (Some (JList nil))) url csr token = Raise EType /\
  fulcio_post ul lp (fx_http (Some (fx_answer [JInt 1; JInt 2]))) url csr token = Raise EAttribute.
Proof. intros ul lp url u csr token H. unfold fulcio_post. fold SIGNING_CERT_ENDPOINT in H. rewrite H. repeat split; reflexivity. Qed.

Definition bundle_chain (lp : bytes -> res Cert) (v : json) (cs : list Cert) : Prop :=
  exists f w l, v = JObj f /\ field f "certificates" w /\ iterated w l /\ Forall2 (pem_text lp) l cs.

(** The CA's trust bundle: exactly the chains of a successful answer, in order. *)
Theorem C65_trust_bundle : forall ul lp http url chains,
  trust_bundle_get ul lp http url = Ok chains <->
  exists u r f v l, Url.urljoin ul url (s2l "/api/v2/trustBundle") = Ok u /\ http (GET u nil) = Ok r /\ succeeded r /\
    r_json r = Some (JObj f) /\ field f "chains" v /\ iterated v l /\ Forall2 (bundle_chain lp) l chains.
Proof.
  intros ul lp http url chains. unfold trust_bundle_get. fold TRUST_BUNDLE_ENDPOINT.
  assert (M : forall l cs, map_res (fun ch => let* certs := py_item ch (s2l "certificates") in
     let* certs0 := py_iter certs in map_res (load_text lp) certs0) l = Ok cs <-> Forall2 (bundle_chain lp) l cs).
  { induction l as [|v l IH]; intros cs; cbn [map_res].
    - split; [intros H; assert (cs = nil) by congruence; subst; constructor|intros H; inversion H; reflexivity].
    - split.
      + intros H. inv H c Hc. inv H t Ht. assert (cs = c :: t) by congruence. subst.
        constructor; [|apply IH; assumption]. inv Hc w Hw. inv Hc l0 Hl0. apply py_item_ok in Hw. destruct Hw as (f & -> & A).
        apply map_load_text in Hc. apply iterated_iff in Hl0. exists f, w, l0. auto.
      + intros H. inversion H as [|v' c l' t (f & w & l0 & -> & A & I & Fc) Ht]; subst. unfold field in A. cbn [py_item]. rewrite A. cbn [bind].
        apply iterated_iff in I. rewrite I. cbn [bind]. apply map_load_text in Fc. rewrite Fc. cbn [bind]. apply IH in Ht. rewrite Ht. reflexivity. }
  split.
  - intros H. inv H uu Huu. inv H r Hr. inv H u Hu. inv H j Hj. inv H v Hv. inv H l Hl.
    unfold resp_json in Hj. destruct (r_json r) as [j'|] eqn:J; [|discriminate]. assert (j' = j) by congruence. subst.
    apply py_item_ok in Hv. destruct Hv as (f & -> & A). apply M in H. apply iterated_iff in Hl. exists uu, r, f, v, l.
    repeat split; auto. destruct (succeeded_or_failed r) as [S|F]; [assumption|].
    rewrite (raise_for_status_failed _ F) in Hu. discriminate.
  - intros (uu & r & f & v & l & Huu & Hr & S & J & A & I & Fl). fold TRUST_BUNDLE_ENDPOINT in Huu. rewrite Huu. cbn [bind]. rewrite Hr. cbn [bind]. rewrite (raise_for_status_ok _ S). cbn [try_except bind].
    unfold resp_json. rewrite J. cbn [bind py_item]. unfold field in A. rewrite A. cbn [bind]. apply iterated_iff in I. rewrite I. cbn [bind]. apply M. assumption.
Qed.

(** A certificate and a chain of two are accepted, one certificate is not enough. *)
Definition fx_cert (b : byte) : Cert := mkCert [b] true (Raise EValue) (Raise EValue) (Raise EValue) 0%Z 0%Z (Ok false).
Definition fx_pem (b : bytes) : res Cert := match b with [x] => Ok (fx_cert x) | _ => Raise EValue end.
Definition fx_url : Url.UrlLib := Url.mkUL (fun _ => true) (fun _ => nil).
Example ex_fulcio : fulcio_post fx_url fx_pem (fx_http (Some (fx_answer [JStr (s2l "A"); JStr (s2l "B"); JStr (s2l "C")])))
    (s2l "https://fulcio") (mkCsr (mkPub (KEc P256) nil)) (s2l "token") = Ok (fx_cert x41, [fx_cert x42; fx_cert x43]).
Proof. reflexivity. Qed.
Example ex_fulcio_short : fulcio_post fx_url fx_pem (fx_http (Some (fx_answer [JStr (s2l "A")])))
    (s2l "https://fulcio") (mkCsr (mkPub (KEc P256) nil)) (s2l "token") = Raise EFulcioClient.
Proof. reflexivity. Qed.

(** ** C66 *)

(** A timestamp is returned exactly when it was decoded from a successful answer to a request
    built for the signature. *)
Theorem C66_timestamp_iff : forall env build http url sg t,
  request_timestamp env build http url sg = Ok t <->
  exists q r, build sg = Ok q /\ http (POST url q) = Ok r /\ succeeded r /\ e_decode_tsr env (r_content r) = Ok t.
Proof.
  intros env build http url sg t. unfold request_timestamp. split.
  - intros H. inv H q Hq. inv H r Hr.
    assert (B : build sg = Ok q) by (destruct (build sg) as [|e]; cbn in Hq; [assumption|destruct (is_value_error e); discriminate]).
    destruct (http (POST url q)) as [r'|e] eqn:Hp; cbn [bind] in Hr; [|cbn in Hr; destruct (is_request_exception e); discriminate].
    destruct (succeeded_or_failed r') as [S|F].
    + rewrite (raise_for_status_ok _ S) in Hr. cbn in Hr. assert (r' = r) by congruence. subst. exists q, r. repeat split; auto.
      destruct (e_decode_tsr env (r_content r)) as [|e]; cbn in H; [assumption|destruct (is_value_error e); discriminate].
    + rewrite (raise_for_status_failed _ F) in Hr. discriminate.
  - intros (q & r & -> & Hp & S & D). cbn [try_except bind]. rewrite Hp. cbn [bind]. rewrite (raise_for_status_ok _ S). cbn [try_except bind].
    rewrite D. reflexivity.
Qed.

(** What the network library raises when a request fails *)
Definition request_failure (e : exn) : Prop := e = EConnection \/ e = EHTTPError \/ e = ERequest.

(** Failures of the request, error statuses, values that cannot be requested and undecodable answers
    are all TimestampErrors. *)
Theorem C66_failures : forall env build http url sg,
  ((exists e, build sg = Raise e /\ is_value_error e = true) \/
   exists q, build sg = Ok q /\
     ((exists e, request_failure e /\ http (POST url q) = Raise e) \/
      exists r, http (POST url q) = Ok r /\
        (failed r \/ exists e, succeeded r /\ e_decode_tsr env (r_content r) = Raise e /\ is_value_error e = true))) ->
  request_timestamp env build http url sg = Raise ETimestamp.
Proof.
  intros env build http url sg H. unfold request_timestamp. destruct H as [(e & -> & V)|(q & -> & H)].
  - cbn [try_except]. rewrite V. reflexivity.
  - cbn [try_except bind]. destruct H as [(e & RF & ->)|(r & -> & [F|(e & S & D & V)])]; [destruct RF as [->|[->| ->]]; reflexivity| |].
    + cbn [bind]. rewrite (raise_for_status_failed _ F). reflexivity.
    + cbn [bind]. rewrite (raise_for_status_ok _ S). cbn [try_except bind]. rewrite D. cbn [try_except]. rewrite V. reflexivity.
Qed.

(** Nothing else is raised, unless a library raises something undocumented. *)
Theorem C66_exceptions : forall env build http url sg e,
  request_timestamp env build http url sg = Raise e ->
  e = ETimestamp \/
  (build sg = Raise e /\ is_value_error e = false) \/
  (exists q, build sg = Ok q /\ http (POST url q) = Raise e /\ ~ request_failure e) \/
  (exists q r, build sg = Ok q /\ http (POST url q) = Ok r /\ succeeded r /\ e_decode_tsr env (r_content r) = Raise e /\ is_value_error e = false).
Proof.
  intros env build http url sg e H. unfold request_timestamp in H.
  apply bind_raise_inv in H. destruct H as [H|(q & Hq & H)].
  { destruct (build sg) as [|e'] eqn:B; cbn in H; [discriminate|]. destruct (is_value_error e') eqn:V; [left; congruence|].
    right. left. assert (e' = e) by congruence. subst. auto. }
  assert (Q : build sg = Ok q) by (destruct (build sg) as [|e'] eqn:B; cbn in Hq; [congruence|destruct (is_value_error e'); discriminate]).
  apply bind_raise_inv in H. destruct H as [H|(r & Hr & H)].
  { destruct (http (POST url q)) as [r|e'] eqn:Hp; cbn [bind] in H.
    - destruct (succeeded_or_failed r) as [S|F].
      + rewrite (raise_for_status_ok _ S) in H. discriminate.
      + rewrite (raise_for_status_failed _ F) in H. cbn in H. left. congruence.
    - cbn [try_except] in H. destruct (is_request_exception e') eqn:R; [left; congruence|].
      right. right. left. assert (e' = e) by congruence. subst. exists q. split; [assumption|]. split; [assumption|].
      intros [->|[->| ->]]; vm_compute in R; discriminate. }
  destruct (e_decode_tsr env (r_content r)) as [|e'] eqn:D; cbn in H; [discriminate|]. destruct (is_value_error e') eqn:V; [left; congruence|].
  right. right. right. assert (e' = e) by congruence. subst. exists q, r.
  destruct (http (POST url q)) as [r'|e'] eqn:Hp; cbn [bind try_except] in Hr; [|destruct (is_request_exception e'); discriminate].
  destruct (succeeded_or_failed r') as [S|F].
  - rewrite (raise_for_status_ok _ S) in Hr. cbn [bind try_except] in Hr. assert (r' = r) by congruence. subst. auto.
  - rewrite (raise_for_status_failed _ F) in Hr. discriminate.
Qed.

(** Expected: the timestamp returned is for the signature.  Refuted: the answer is decoded but not
    checked, here an authority answers every request with a timestamp of the signature "A". *)
Definition tx_http : http_request bytes -> res response := fun _ => Ok (mkResp 200 nil None [x30; x05; x41]).
Theorem C66_timestamp_covers_signature_refuted :
  exists t, request_timestamp (toy_env nil) Ok tx_http (s2l "https://tsa") [x42] = Ok t /\
    (forall cas, e_tsa_verify (toy_env nil) cas t [x41] = Ok tt) /\
    (forall cas, e_tsa_verify (toy_env nil) cas t [x42] = Raise ERfc3161).
Proof. exists (mkTSR [x30; x05; x41] 5000000%Z). repeat split; reflexivity. Qed.

(** An answer, and four failures *)
Example ex_timestamp :
  request_timestamp (toy_env nil) Ok tx_http (s2l "https://tsa") [x41] = Ok (mkTSR [x30; x05; x41] 5000000%Z) /\
  request_timestamp (toy_env nil) (fun _ => Raise EValue) tx_http (s2l "https://tsa") [x41] = Raise ETimestamp /\
  request_timestamp (toy_env nil) Ok (fun _ => Raise EConnection) (s2l "https://tsa") [x41] = Raise ETimestamp /\
  request_timestamp (toy_env nil) Ok (fun _ => Ok (mkResp 503 nil None [x30; x05; x41])) (s2l "https://tsa") [x41] = Raise ETimestamp /\
  request_timestamp (toy_env nil) Ok (fun _ => Ok (mkResp 200 nil None nil)) (s2l "https://tsa") [x41] = Raise ETimestamp.
Proof. vm_compute. repeat split. Qed.
(** two chains of a trust bundle *)
Example ex_trust_bundle :
  let chain l := JObj [(s2l "certificates", JList (map (fun x => JStr (s2l x)) l))] in
  trust_bundle_get fx_url fx_pem (fun _ => Ok (mkResp 200 nil (Some (JObj [(s2l "chains", JList [chain ["A"; "B"]; chain ["C"]]%string)])) nil)) (s2l "https://fulcio") =
  Ok [[fx_cert x41; fx_cert x42]; [fx_cert x43]].
Proof. reflexivity. Qed.

Print Assumptions C65_accepts_iff.
Print Assumptions C65_certificate_has_chain.
Print Assumptions C65_bad_answers.
Print Assumptions C65_error_message_refuted.
Print Assumptions C65_exceptions.
Print Assumptions C65_malformed_answers_refuted.
Print Assumptions C65_trust_bundle.
Print Assumptions C66_timestamp_iff.
Print Assumptions C66_failures.
Print Assumptions C66_exceptions.
Print Assumptions C66_timestamp_covers_signature_refuted.
