(** Properties C45-C48 and C90: the log clients. *)
From Verif Require Import Base Codec Messages Env Keyring Json Oidc Http LogEntry PropsLogEntry Dsse Bundle Verifier RekorClient CheckpointProofs.

(** ** Specification *)

(** An answer that says the request succeeded / failed *)
Definition succeeded (r : response) : Prop := ~ (400 <= r_status r < 600)%Z.
Definition failed (r : response) : Prop := (400 <= r_status r < 600)%Z.

(** field [k] of a JSON object *)
Definition field (f : list (str * json)) (k : String.string) (v : json) : Prop := assoc str_eqb (s2l k) f = Some v.

(** [v] is the log's description of entry [e] *)
Definition describes (rp : RekorParsers) (v : json) (e : LogEntry) : Prop :=
  exists uuid f ver ip proof,
    v = JObj [(uuid, JObj f)] /\ field f "verification" (JObj ver) /\ field ver "inclusionProof" (JObj ip) /\
    le_proof e = Some proof /\
    (exists s, field f "body" (JStr s) /\ b64decode s = Ok (le_body e)) /\
    (exists s, field f "logID" (JStr s) /\ fromhex s = Some (le_log_id e)) /\
    (exists x, field f "logIndex" x /\ rp_u64 rp (rk_str rp x) = Some (le_log_index e)) /\
    (exists x t, field f "integratedTime" x /\ rp_u64 rp (rk_str rp x) = Some t /\ le_integrated_time e = Some t) /\
    (exists s p, field ver "signedEntryTimestamp" (JStr s) /\ b64decode s = Ok p /\ le_promise e = Some p) /\
    (exists x, field ip "logIndex" x /\ rp_u64 rp (rk_str rp x) = Some (ip_log_index proof)) /\
    (exists s, field ip "rootHash" (JStr s) /\ fromhex s = Some (ip_root_hash proof)) /\
    (exists x, field ip "treeSize" x /\ rp_u64 rp (rk_str rp x) = Some (ip_tree_size proof)) /\
    (exists x l, field ip "hashes" x /\ py_iter x = Ok l /\
       Forall2 (fun y h => exists s, y = JStr s /\ fromhex s = Some h) l (ip_hashes proof)) /\
    (exists s, field ip "checkpoint" (JStr s) /\ ip_checkpoint proof = Some s).

(** [e] is the first of the oldest entries of the list *)
Definition age_le (a b : LogEntry) : Prop :=
  exists ta tb, le_integrated_time a = Some ta /\ le_integrated_time b = Some tb /\ (ta <= tb)%Z.
Definition age_lt (a b : LogEntry) : Prop :=
  exists ta tb, le_integrated_time a = Some ta /\ le_integrated_time b = Some tb /\ (ta < tb)%Z.
Definition oldest_of (e : LogEntry) (l : list LogEntry) : Prop :=
  exists l1 l2, l = l1 ++ e :: l2 /\ Forall (age_lt e) l1 /\ Forall (age_le e) l2.

(** how a log writes an entry in an answer *)
Definition render (uuid : str) (index time ipindex size : Z) (id root set : bytes) (hashes : list bytes) (checkpoint : str) (body : bytes) : json :=
  JObj [(uuid, JObj
    [(s2l "body", JStr (b64encode body)); (s2l "integratedTime", JInt time); (s2l "logID", JStr (hex id)); (s2l "logIndex", JInt index);
     (s2l "verification", JObj
       [(s2l "inclusionProof", JObj
          [(s2l "checkpoint", JStr checkpoint); (s2l "hashes", JList (map (fun h => JStr (hex h)) hashes));
           (s2l "logIndex", JInt ipindex); (s2l "rootHash", JStr (hex root)); (s2l "treeSize", JInt size)]);
        (s2l "signedEntryTimestamp", JStr (b64encode set))])])].

(** where the endpoints are, from the address of the log *)
Definition entries_at (url : str) : str := url ++ s2l "/api/v1/log/entries".
Definition entries2_at (url : str) : str := url ++ s2l "/api/v2/log/entries".
Definition search_at (url : str) : str := url ++ s2l "/api/v1/log/entries/retrieve/".
Definition info_at (url : str) : str := url ++ s2l "/api/v1/log".

(** ** Proofs *)

Lemma resp_ok_iff : forall r, resp_ok r = true <-> succeeded r.
Proof.
  intros r. unfold resp_ok, succeeded. rewrite negb_true_iff, andb_false_iff, Z.leb_gt, Z.ltb_ge. lia.
Qed.
Lemma resp_failed : forall r, failed r -> resp_ok r = false.
Proof.
  intros r H. unfold resp_ok. apply negb_false_iff, andb_true_iff. unfold failed in H. rewrite Z.leb_le, Z.ltb_lt. lia.
Qed.

Lemma check_status_ok : forall r, succeeded r -> check_status r = Ok tt.
Proof. intros r H. apply resp_ok_iff in H. unfold check_status, raise_for_status. rewrite H. reflexivity. Qed.
Lemma check_status_failed : forall r, failed r -> check_status r = Raise ERekorClient.
Proof. intros r H. apply resp_failed in H. unfold check_status, raise_for_status. rewrite H. reflexivity. Qed.

Lemma py_item_ok : forall v k x, py_item v k = Ok x -> exists f, v = JObj f /\ assoc str_eqb k f = Some x.
Proof.
  intros v k x H. destruct v; try discriminate. cbn in H. destruct (assoc str_eqb k l) as [y|] eqn:E; [|discriminate].
  exists l. split; [reflexivity|]. congruence.
Qed.
Lemma py_fromhex_ok : forall v b, py_fromhex v = Ok b -> exists s, v = JStr s /\ fromhex s = Some b.
Proof.
  intros v b H. destruct v; try discriminate. cbn in H. destruct (fromhex s) eqn:E; [|discriminate]. exists s. split; congruence.
Qed.
Lemma py_b64_ok : forall v b, py_b64decode v = Ok b -> exists s, v = JStr s /\ b64decode s = Ok b.
Proof. intros v b H. destruct v; try discriminate. exists s. split; [reflexivity|exact H]. Qed.
Lemma field_b64_ok : forall v b, field_b64 v = Ok b <-> exists s, v = JStr s /\ b64decode s = Ok b.
Proof.
  intros v b. split.
  - intros H. destruct v; try discriminate. cbn in H. exists s. split; [reflexivity|]. destruct (b64decode s); cbn in H; [assumption|discriminate].
  - intros (s & -> & H). cbn. rewrite H. reflexivity.
Qed.
Lemma field_u64_ok : forall rp s n, field_u64 rp s = Ok n <-> rp_u64 rp s = Some n.
Proof. intros rp s n. unfold field_u64. destruct (rp_u64 rp s); split; congruence. Qed.
Lemma field_str_ok : forall v s, field_str v = Ok s <-> v = JStr s.
Proof. intros v s. split; [destruct v; try discriminate; cbn; congruence|intros ->; reflexivity]. Qed.

Lemma map_res_roundtrip : forall l, map_res (fun h => b64decode (b64encode h)) l = Ok l.
Proof. induction l as [|h l IH]; [reflexivity|]. cbn [map_res]. rewrite b64decode_b64encode. cbn [bind]. rewrite IH. reflexivity. Qed.

Lemma map_fromhex : forall l hs, map_res py_fromhex l = Ok hs <-> Forall2 (fun y h => exists s, y = JStr s /\ fromhex s = Some h) l hs.
Proof.
  induction l as [|y l IH]; intros hs.
  - cbn. split; [intros H; inversion H; constructor|intros H; inversion H; reflexivity].
  - cbn [map_res]. split.
    + intros H. apply bind_ok_inv in H. destruct H as (h & Hh & H). apply bind_ok_inv in H. destruct H as (t & Ht & H).
      assert (hs = h :: t) by congruence. subst hs. constructor; [apply py_fromhex_ok; assumption|apply IH; assumption].
    + intros H. inversion H as [|y' h l' t (s & -> & Hs) Ht]; subst. cbn [py_fromhex]. rewrite Hs. cbn [bind].
      apply IH in Ht. rewrite Ht. reflexivity.
Qed.

Ltac inv H x Hx := apply bind_ok_inv in H; destruct H as (x & Hx & H).

Lemma entries_url : forall url, v1_entries_url url = entries_at url.
Proof. intros url. unfold v1_entries_url, v1_log_url, entries_at. rewrite <- !app_assoc. reflexivity. Qed.
Lemma search_url : forall url, v1_retrieve_url url = search_at url.
Proof. intros url. unfold v1_retrieve_url, search_at. rewrite entries_url. unfold entries_at. rewrite <- app_assoc. reflexivity. Qed.

(** ** C48 *)

(** The parser succeeds exactly on descriptions of one entry, and returns that entry. *)
Theorem C48_parses_iff : forall rp v e,
  from_v1_response rp v = Ok e <->
  describes rp v e /\ rp_proposed rp (le_body e) = Ok (Some (le_kind e, le_version e)).
Proof.
  intros rp v e. unfold from_v1_response. split.
  - intros H. inv H entries He. destruct v as [| | | | | | |d]; try discriminate. cbn in He.
    assert (entries = d) by congruence. subst entries. clear He.
    inv H u Hl. apply raise_if_ok, negb_false_iff, Nat.eqb_eq in Hl.
    destruct d as [|[uuid entry] [|]]; try discriminate. cbn [index_list nth_error bind] in H.
    inv H body Hb. inv H raw Hr. inv H prop Hp. destruct prop as [[kind version]|]; [|discriminate].
    inv H ver Hv. inv H ip Hip. inv H idx Hidx. inv H lid Hlid. inv H key Hkey. inv H key' Hkey'.
    rewrite b64decode_b64encode in Hkey'. assert (key' = key) by congruence. subst key'. clear Hkey'.
    inv H it Hit. inv H ver' Hver'. inv H set Hset. inv H set' Hset'. inv H ipx Hipx. inv H root Hroot. inv H root' Hroot'.
    inv H size Hsize. inv H hs Hhs. inv H hl Hhl. inv H hb Hhb. inv H cp Hcp. inv H envl Henvl.
    inv H n1 Hn1. inv H root2 Hroot2. rewrite b64decode_b64encode in Hroot2. assert (root2 = root') by congruence. subst root2. clear Hroot2.
    inv H n2 Hn2. inv H hb2 Hhb2. rewrite map_res_roundtrip in Hhb2. assert (hb2 = hb) by congruence. subst hb2. clear Hhb2.
    inv H n3 Hn3. inv H n4 Hn4. inv H can Hcan.
    unfold make_entry in H. cbn [entry_validate le_proof ip_checkpoint bind] in H.
    apply py_item_ok in Hb. destruct Hb as (f & -> & Hb). cbn [py_item] in *.
    apply py_b64_ok in Hr. destruct Hr as (bs & -> & Hr).
    apply field_b64_ok in Hcan. destruct Hcan as (bs' & Eb & Hcan). assert (bs' = bs) by congruence. subst bs'. clear Eb.
    assert (can = raw) by congruence. subst can.
    destruct (assoc str_eqb (s2l "verification") f) as [ver0|] eqn:Av; [|discriminate].
    assert (ver0 = ver) by congruence. assert (ver' = ver) by congruence. subst ver0 ver'.
    apply py_item_ok in Hip. destruct Hip as (verf & -> & Hip).
    apply py_item_ok in Hset. destruct Hset as (verf' & Ev & Hset). assert (verf' = verf) by congruence. subst verf'. clear Ev.
    apply py_item_ok in Hipx. destruct Hipx as (ipf & -> & Hipx). cbn [py_item] in *.
    assert (He : mkEntry n3 key kind version (Some n4) (Some set') (Some (mkIP n1 root' n2 hb (Some envl))) raw = e) by congruence.
    clear H. subst e. cbn [le_body le_kind le_version]. split; [|assumption].
    assert (Q : forall k x, match assoc str_eqb k f with Some y => Ok y | None => Raise EKey end = Ok x -> assoc str_eqb k f = Some x)
      by (intros k x; destruct (assoc str_eqb k f); congruence).
    assert (Q2 : forall k x, match assoc str_eqb k ipf with Some y => Ok y | None => Raise EKey end = Ok x -> assoc str_eqb k ipf = Some x)
      by (intros k x; destruct (assoc str_eqb k ipf); congruence).
    apply Q in Hidx. apply Q in Hlid. apply Q in Hit. apply Q2 in Hroot. apply Q2 in Hsize. apply Q2 in Hhs. apply Q2 in Hcp.
    apply py_fromhex_ok in Hkey. destruct Hkey as (ks & -> & Hkey). apply py_fromhex_ok in Hroot'. destruct Hroot' as (rs & -> & Hroot').
    apply field_b64_ok in Hset'. destruct Hset' as (ss & -> & Hset'). apply field_str_ok in Henvl. subst cp.
    apply field_u64_ok in Hn1. apply field_u64_ok in Hn2. apply field_u64_ok in Hn3. apply field_u64_ok in Hn4.
    apply map_fromhex in Hhb.
    exists uuid, f, verf, ipf, (mkIP n1 root' n2 hb (Some envl)). unfold field.
    split; [reflexivity|]. split; [assumption|]. split; [assumption|]. split; [reflexivity|].
    cbn [le_body le_log_id le_log_index le_integrated_time le_promise ip_log_index ip_root_hash ip_tree_size ip_hashes ip_checkpoint].
    split; [eauto|]. split; [eauto|]. split; [eauto|]. split; [eauto|]. split; [eauto|]. split; [eauto|]. split; [eauto|]. split; [eauto|].
    split; [eauto|]. eauto.
  - intros ((uuid & f & ver & ip & proof & -> & Fv & Fip & Ep & (bs & Fb & Hb) & (ks & Fk & Hk) & (ix & Fx & Hx) & (tx & t & Ft & Ht & Et) &
       (ss & p & Fs & Hs & Es) & (jx & Fj & Hj) & (rs & Fr & Hr) & (zx & Fz & Hz) & (hx & hl & Fh & Hh & Fa) & (cs & Fc & Ec)) & Hp).
    unfold field in *. cbn [py_items length Nat.eqb negb raise_if bind index_list nth_error py_item].
    rewrite Fb. cbn [bind py_b64decode]. rewrite Hb. cbn [bind]. rewrite Hp. cbn [bind]. rewrite Fv. cbn [bind py_item].
    rewrite Fip. cbn [bind]. rewrite Fx. cbn [bind]. rewrite Fk. cbn [bind py_fromhex]. rewrite Hk. cbn [bind].
    rewrite b64decode_b64encode. cbn [bind]. rewrite Ft. cbn [bind]. rewrite Fs. cbn [bind]. rewrite (proj2 (field_b64_ok (JStr ss) p)) by eauto.
    cbn [bind py_item]. rewrite Fj. cbn [bind]. rewrite Fr. cbn [bind py_fromhex]. rewrite Hr. cbn [bind]. rewrite Fz. cbn [bind].
    rewrite Fh. cbn [bind]. rewrite Hh. cbn [bind]. apply map_fromhex in Fa. rewrite Fa. cbn [bind]. rewrite Fc. cbn [bind field_str].
    rewrite (proj2 (field_u64_ok _ _ _) Hj). cbn [bind]. rewrite b64decode_b64encode. cbn [bind]. rewrite (proj2 (field_u64_ok _ _ _) Hz). cbn [bind].
    rewrite map_res_roundtrip. cbn [bind]. rewrite (proj2 (field_u64_ok _ _ _) Hx). cbn [bind]. rewrite (proj2 (field_u64_ok _ _ _) Ht). cbn [bind].
    rewrite (proj2 (field_b64_ok (JStr bs) (le_body e))) by eauto. cbn [bind]. unfold make_entry. cbn [entry_validate le_proof ip_checkpoint bind].
    f_equal. destruct e as [a1 a2 a3 a4 a5 a6 a7 a8], proof as [q1 q2 q3 q4 q5]. cbn in *. subst. reflexivity.
Qed.

(** Zero or several entries are refused. *)
Theorem C48_one_entry_only : forall rp l, length l <> 1 -> from_v1_response rp (JObj l) = Raise EValue.
Proof.
  intros rp l H. unfold from_v1_response. cbn [py_items bind]. apply Nat.eqb_neq in H. rewrite H. reflexivity.
Qed.

(** What a log writes is read back unchanged. *)
Theorem C48_roundtrip : forall rp uuid index time ipindex size id root set hashes checkpoint body kind version,
  (forall n, In n [index; time; ipindex; size] -> rp_u64 rp (dec_Z n) = Some n) ->
  rp_proposed rp body = Ok (Some (kind, version)) ->
  from_v1_response rp (render uuid index time ipindex size id root set hashes checkpoint body) =
  Ok (mkEntry index id kind version (Some time) (Some set) (Some (mkIP ipindex root size hashes (Some checkpoint))) body).
Proof.
  intros rp uuid index time ipindex size id root set hashes checkpoint body kind version N P.
  apply C48_parses_iff. split; [|exact P]. unfold describes, render, field.
  eexists _, _, _, _, _. split; [reflexivity|]. split; [reflexivity|]. split; [reflexivity|]. split; [reflexivity|].
  cbn [le_body le_log_id le_log_index le_integrated_time le_promise ip_log_index ip_root_hash ip_tree_size ip_hashes ip_checkpoint].
  split; [eexists; split; [reflexivity|apply b64decode_b64encode]|].
  split; [eexists; split; [reflexivity|apply fromhex_hex]|].
  split; [eexists; split; [reflexivity|apply N; cbn; auto]|].
  split; [eexists _, _; split; [reflexivity|split; [apply N; cbn; auto|reflexivity]]|].
  split; [eexists _, _; split; [reflexivity|split; [apply b64decode_b64encode|reflexivity]]|].
  split; [eexists; split; [reflexivity|apply N; cbn; auto]|].
  split; [eexists; split; [reflexivity|apply fromhex_hex]|].
  split; [eexists; split; [reflexivity|apply N; cbn; auto]|].
  split; [|eexists; split; reflexivity].
  eexists _, _. split; [reflexivity|]. split; [reflexivity|]. clear. induction hashes as [|h l IH]; cbn; constructor; [|assumption].
  exists (hex h). split; [reflexivity|apply fromhex_hex].
Qed.

(** What the inclusion promise is checked over is what the log sent. *)
Theorem C48_promise_covers_the_answer : forall rp uuid index time ipindex size id root set hashes checkpoint body e,
  (forall n, In n [index; time; ipindex; size] -> rp_u64 rp (dec_Z n) = Some n) ->
  (Z.abs time <= 9007199254740991)%Z -> (Z.abs index <= 9007199254740991)%Z ->
  from_v1_response rp (render uuid index time ipindex size id root set hashes checkpoint body) = Ok e ->
  encode_canonical e = Ok (ascii_bytes (set_text body time id index)).
Proof.
  intros rp uuid index time ipindex size id root set hashes checkpoint body e N T I H.
  pose proof (proj1 (C48_parses_iff _ _ _) H) as (_ & P).
  assert (B : le_body e = body).
  { apply C48_parses_iff in H. destruct H as ((u & f & ver & ip & proof & E & _ & _ & _ & (s & Fb & Hb) & _) & _).
    unfold render in E. apply (f_equal (fun j => match j with JObj [(_, JObj f)] => f | _ => nil end)) in E. cbn beta iota in E. subst f.
    unfold field in Fb. cbn in Fb. assert (s = b64encode body) by congruence. subst s. rewrite b64decode_b64encode in Hb. congruence. }
  rewrite B in P. rewrite (C48_roundtrip rp uuid index time ipindex size id root set hashes checkpoint body _ _ N P) in H.
  assert (E : e = mkEntry index id (le_kind e) (le_version e) (Some time) (Some set) (Some (mkIP ipindex root size hashes (Some checkpoint))) body) by congruence.
  rewrite E. unfold encode_canonical. cbn [le_integrated_time le_log_index le_body le_log_id]. unfold LogEntry.json_int.
  assert (R : forall z, (Z.abs z <= 9007199254740991)%Z -> ((-9007199254740991 <=? z) && (z <=? 9007199254740991))%Z = true)
    by (intros z Hz; apply andb_true_iff; split; apply Z.leb_le; lia).
  rewrite (R _ T), (R _ I). cbn [bind]. f_equal. f_equal. unfold set_text, json_plain. cbn [s2l app]. rewrite <- !app_assoc. reflexivity.
Qed.

(** ** C45 and C46: searching *)

Lemma oldest_loop_spec : forall rp rs old r,
  (forall o, old = Some o -> le_integrated_time o <> None) ->
  (oldest_loop rp rs old = Ok r <->
   exists es, Forall2 (fun j e => from_v1_response rp j = Ok e) rs es /\
     match old with
     | None => match r with None => es = nil | Some e => oldest_of e es end
     | Some o => exists e, r = Some e /\ oldest_of e (o :: es)
     end).
Proof.
  induction rs as [|j rs IH]; intros old r HO.
  - cbn. split.
    + intros H. exists nil. split; [constructor|]. assert (old = r) by congruence. subst r. destruct old as [o|]; [|reflexivity].
      exists o. split; [reflexivity|]. exists nil, nil. repeat constructor.
    + intros (es & F & H). inversion F; subst. destruct old as [o|].
      * destruct H as (e & -> & l1 & l2 & E & _). destruct l1 as [|x l1]; [inversion E; reflexivity|]. destruct l1; inversion E.
      * destruct r as [e|]; [|reflexivity]. destruct H as (l1 & l2 & E & _). destruct l1; discriminate.
  - cbn [oldest_loop]. split.
    + intros H. inv H e He. pose proof He as He0. apply C48_parses_iff in He0. destruct He0 as (D & _).
      destruct D as (_ & _ & _ & _ & _ & _ & _ & _ & _ & _ & _ & _ & (_ & t & _ & _ & Et) & _). rewrite Et in H.
      inv H rep Hrep. destruct old as [o|].
      * destruct (le_integrated_time o) as [t'|] eqn:Eo; [|destruct (HO o eq_refl Eo)].
        assert (rep = (t <? t')%Z) by congruence. subst rep. destruct (t <? t')%Z eqn:L.
        -- apply IH in H; [|intros o' Q; inversion Q; subst; congruence]. destruct H as (es & F & e' & -> & l1 & l2 & E & A & B).
           exists (e :: es). split; [constructor; assumption|]. exists e'. split; [reflexivity|]. apply Z.ltb_lt in L.
           exists (o :: l1), l2. split; [cbn; rewrite <- E; reflexivity|]. split; [|assumption]. constructor; [|assumption].
           destruct l1 as [|x l1]; cbn in E; inversion E; subst.
           ++ exists t, t'. auto.
           ++ inversion A as [|? ? (ta & tb & E1 & E2 & L') ?]; subst. exists ta, t'. split; [assumption|]. split; [assumption|].
              assert (tb = t) by congruence. subst tb. lia.
        -- apply IH in H; [|intros o' Q; inversion Q; subst; congruence]. destruct H as (es & F & e' & -> & l1 & l2 & E & A & B).
           exists (e :: es). split; [constructor; assumption|]. exists e'. split; [reflexivity|]. apply Z.ltb_ge in L.
           destruct l1 as [|x l1]; cbn in E; inversion E; subst.
           ++ exists nil, (e :: l2). split; [reflexivity|]. split; [constructor|]. constructor; [|assumption]. exists t', t. auto.
           ++ exists (x :: e :: l1), l2. split; [reflexivity|]. split; [|assumption]. inversion A as [|? ? (ta & tb & E1 & E2 & L') A']; subst.
              constructor; [exists ta, tb; auto|]. constructor; [|assumption]. exists ta, t. split; [assumption|]. split; [assumption|].
              assert (tb = t') by congruence. subst. lia.
      * assert (rep = true) by congruence. subst rep. apply IH in H; [|intros o' Q; inversion Q; subst; congruence].
        destruct H as (es & F & e' & -> & O). exists (e :: es). split; [constructor; assumption|assumption].
    + intros (es & F & H). inversion F as [|? e ? es' He F']; subst. rewrite He. cbn [bind].
      pose proof He as He0. apply C48_parses_iff in He0. destruct He0 as (D & _).
      destruct D as (_ & _ & _ & _ & _ & _ & _ & _ & _ & _ & _ & _ & (_ & t & _ & _ & Et) & _). rewrite Et.
      destruct old as [o|].
      * destruct (le_integrated_time o) as [t'|] eqn:Eo; [|destruct (HO o eq_refl Eo)]. cbn [bind].
        destruct H as (e' & -> & l1 & l2 & E & A & B). destruct (t <? t')%Z eqn:L.
        -- apply Z.ltb_lt in L. apply IH; [intros o' Q; inversion Q; subst; congruence|]. exists es'. split; [assumption|]. exists e'. split; [reflexivity|].
           destruct l1 as [|x l1]; cbn in E; inversion E; subst.
           ++ inversion B as [|? ? (ta & tb & E1 & E2 & L') ?]; subst. assert (ta = t') by congruence. assert (tb = t) by congruence. subst. lia.
           ++ inversion A; subst. exists l1, l2. auto.
        -- apply Z.ltb_ge in L. apply IH; [intros o' Q; inversion Q; subst; congruence|]. exists es'. split; [assumption|]. exists e'. split; [reflexivity|].
           destruct l1 as [|x l1]; cbn in E; inversion E; subst.
           ++ inversion B; subst. exists nil, es'. auto.
           ++ destruct l1 as [|y l1]; cbn in H1; inversion H1; subst.
              ** inversion A as [|? ? (ta & tb & E1 & E2 & L') ?]; subst. assert (ta = t) by congruence. assert (tb = t') by congruence. subst. lia.
              ** inversion A as [|? ? A1 A2]; subst. inversion A2; subst. exists (x :: l1), l2. split; [reflexivity|]. split; [constructor; assumption|assumption].
      * cbn [bind]. apply IH; [intros o' Q; inversion Q; subst; congruence|]. exists es'. split; [assumption|].
        destruct r as [e'|]; [|discriminate]. exists e'. auto.
Qed.

(** The answer of a successful search is the first of the oldest entries, all of which could be read. *)
Theorem C45_oldest_entry : forall rp http url req resp rs e,
  http (POST (search_at url) req) = Ok resp -> succeeded resp -> r_json resp = Some (JList rs) ->
  (retrieve_post rp http url req = Ok (Some e) <->
   exists es, Forall2 (describes rp) rs es /\
     Forall (fun e => rp_proposed rp (le_body e) = Ok (Some (le_kind e, le_version e))) es /\ oldest_of e es).
Proof.
  intros rp http url req resp rs e H S J. unfold retrieve_post. rewrite search_url. rewrite H. cbn [bind]. unfold raise_for_status.
  rewrite (proj2 (resp_ok_iff _) S). cbn [negb raise_if]. unfold resp_json. rewrite J. cbn [bind py_iter].
  rewrite oldest_loop_spec by discriminate.
  assert (Q : forall es, Forall2 (fun j e => from_v1_response rp j = Ok e) rs es <->
    Forall2 (describes rp) rs es /\ Forall (fun e => rp_proposed rp (le_body e) = Ok (Some (le_kind e, le_version e))) es).
  { clear. induction rs as [|j rs IH]; intros es.
    - split; [intros F; inversion F; split; constructor|intros [F _]; inversion F; constructor].
    - split.
      + intros F. inversion F as [|? e' ? es' E F']; subst. apply C48_parses_iff in E. apply IH in F'. destruct E, F'. split; constructor; assumption.
      + intros [F G]. inversion F as [|? e' ? es' E F']; subst. inversion G; subst. constructor; [apply C48_parses_iff; auto|apply IH; auto]. }
  split.
  - intros (es & F & O). apply Q in F. destruct F. eauto.
  - intros (es & F & G & O). exists es. split; [apply Q; auto|assumption].
Qed.

(** What a loop over a JSON value visits: the elements of an array, the characters of a text, the names of an object. *)
Inductive iterated : json -> list json -> Prop :=
| it_array : forall l, iterated (JList l) l
| it_text : forall t, iterated (JStr t) (map (fun c => JStr [c]) t)
| it_object : forall d, iterated (JObj d) (map (fun kv => JStr (fst kv)) d).
Lemma iterated_iff : forall v l, iterated v l <-> py_iter v = Ok l.
Proof.
  intros v l. split; [intros [k|t|d]; reflexivity|]. intro H. destruct v; cbn [py_iter] in H; try discriminate; injection H as <-; constructor.
Qed.

(** [None] is returned exactly for a successful answer without entries ... *)
Theorem C46_none_iff : forall rp http url req,
  retrieve_post rp http url req = Ok None <->
  exists resp j, http (POST (search_at url) req) = Ok resp /\ succeeded resp /\ r_json resp = Some j /\ iterated j nil.
Proof.
  intros rp http url req. unfold retrieve_post. rewrite search_url. split.
  - intros H. inv H resp R. unfold raise_for_status in H. destruct (resp_ok resp) eqn:Ok_.
    + cbn [negb raise_if] in H. inv H j J. inv H rs Rs. apply oldest_loop_spec in H; [|discriminate]. destruct H as (es & F & ->).
      inversion F; subst. exists resp, j. split; [assumption|]. split; [apply resp_ok_iff; assumption|].
      unfold resp_json in J. destruct (r_json resp); [|discriminate]. split; [congruence|apply iterated_iff; assumption].
    + cbn [negb raise_if] in H. unfold resp_truthy in H. rewrite Ok_ in H. discriminate.
  - intros (resp & j & R & S & J & I). apply iterated_iff in I. rewrite R. cbn [bind]. unfold raise_for_status. rewrite (proj2 (resp_ok_iff _) S). cbn [negb raise_if].
    unfold resp_json. rewrite J. cbn [bind]. rewrite I. reflexivity.
Qed.

(** ... and never for an error answer: all of them, 404 included, raise. *)
Theorem C46_error_answers_raise : forall rp http url req resp,
  http (POST (search_at url) req) = Ok resp -> failed resp -> retrieve_post rp http url req = Raise ERekorClient.
Proof.
  intros rp http url req resp R F. unfold retrieve_post. rewrite search_url. rewrite R. cbn [bind]. unfold raise_for_status, resp_truthy. rewrite (resp_failed _ F). reflexivity.
Qed.

Definition not_found : response := mkResp 404 (s2l "{}") (Some (JObj nil)) nil.
Theorem C46_not_found_is_none_refuted : forall rp url req,
  exists http, http (POST (search_at url) req) = Ok not_found /\ r_status not_found = 404%Z /\
    retrieve_post rp http url req = Raise ERekorClient.
Proof. intros rp url req. exists (fun _ => Ok not_found). repeat split. Qed.

(** ** C47: lookup *)

(** Exactly one selector: one request to its endpoint, and the answer decides. *)
Theorem C47_by_uuid : forall rp http url u,
  u <> nil ->
  entries_get rp http url (Some u) None =
  (let* resp := http (GET (entries_at url ++ s2l "/" ++ u) nil) in
   if (400 <=? r_status resp)%Z && (r_status resp <? 600)%Z then Raise ERekorClient
   else match r_json resp with Some j => from_v1_response rp j | None => Raise EValue end).
Proof.
  intros rp http url u N. unfold entries_get. rewrite ?entries_url. destruct u as [|c u]; [contradiction|]. cbn [xorb negb raise_if bind].
  destruct (http _) as [resp|x]; [|reflexivity]. cbn [bind]. unfold check_status, raise_for_status, resp_ok, resp_json.
  destruct (_ && _)%bool; cbn; [reflexivity|]. destruct (r_json resp); reflexivity.
Qed.

Theorem C47_by_index : forall rp http url n,
  n <> 0%Z ->
  entries_get rp http url None (Some n) =
  (let* resp := http (GET (entries_at url) [(s2l "logIndex", dec_Z n)]) in
   if (400 <=? r_status resp)%Z && (r_status resp <? 600)%Z then Raise ERekorClient
   else match r_json resp with Some j => from_v1_response rp j | None => Raise EValue end).
Proof.
  intros rp http url n N. unfold entries_get. rewrite ?entries_url. apply Z.eqb_neq in N. rewrite N. cbn [xorb negb raise_if bind].
  destruct (http _) as [resp|x]; [|reflexivity]. cbn [bind]. unfold check_status, raise_for_status, resp_ok, resp_json.
  destruct (_ && _)%bool; cbn; [reflexivity|]. destruct (r_json resp); reflexivity.
Qed.

(** Both or none: a ValueError, whatever the network does, so nothing is sent. *)
Theorem C47_both_or_none : forall rp http url,
  entries_get rp http url None None = Raise EValue /\
  (forall u n, u <> nil -> n <> 0%Z -> entries_get rp http url (Some u) (Some n) = Raise EValue).
Proof.
  intros rp http url. split; [reflexivity|]. intros u n Nu Nn. unfold entries_get. rewrite ?entries_url. destruct u; [contradiction|].
  apply Z.eqb_neq in Nn. rewrite Nn. reflexivity.
Qed.

(** The first entry of a log cannot be looked up by its index ... *)
Theorem C47_every_index_refuted : forall rp http url, entries_get rp http url None (Some 0%Z) = Raise EValue.
Proof. reflexivity. Qed.

(** ... and an empty uuid hides the index: the request goes to the collection. *)
Theorem C47_empty_uuid_refuted : forall rp http url n,
  n <> 0%Z ->
  (forall resp, http (GET (entries_at url ++ s2l "/") nil) = Ok resp -> failed resp -> entries_get rp http url (Some nil) (Some n) = Raise ERekorClient) /\
  (forall http', http' (GET (entries_at url ++ s2l "/") nil) = http (GET (entries_at url ++ s2l "/") nil) ->
     entries_get rp http' url (Some nil) (Some n) = entries_get rp http url (Some nil) (Some n)).
Proof.
  intros rp http url n N. apply Z.eqb_neq in N. split.
  - intros resp R F. unfold entries_get. rewrite ?entries_url. rewrite N. cbn [xorb negb raise_if bind]. rewrite app_nil_r, R. cbn [bind].
    rewrite check_status_failed by assumption. reflexivity.
  - intros http' E. unfold entries_get. rewrite ?entries_url. rewrite N. cbn [xorb negb raise_if bind]. rewrite app_nil_r, E. reflexivity.
Qed.

(** ** C90: submitting an entry *)

(** The entry returned is the one that the log described in a successful answer to one request at its endpoint ... *)
Theorem C90_v1_iff : forall rp http url req e,
  create_entry_v1 rp http url req = Ok e <->
  exists resp j, http (POST (entries_at url) req) = Ok resp /\ succeeded resp /\ r_json resp = Some j /\
    describes rp j e /\ rp_proposed rp (le_body e) = Ok (Some (le_kind e, le_version e)).
Proof.
  intros rp http url req e. unfold create_entry_v1. rewrite entries_url. split.
  - intros H. inv H resp R. inv H u C. inv H j J. apply C48_parses_iff in H. exists resp, j. split; [exact R|].
    unfold check_status, raise_for_status in C. destruct (resp_ok resp) eqn:O; [|discriminate C]. split; [apply resp_ok_iff, O|].
    unfold resp_json in J. destruct (r_json resp); [|discriminate]. split; [congruence|exact H].
  - intros (resp & j & R & S & J & D). rewrite R. cbn [bind]. rewrite check_status_ok by exact S. cbn [bind]. unfold resp_json. rewrite J. cbn [bind].
    apply C48_parses_iff, D.
Qed.
(** ... and has an inclusion proof with a checkpoint. *)
Theorem C90_v2_iff : forall rp http url req e,
  create_entry_v2 rp http url req = Ok e <->
  exists resp j ip cp, http (POST (entries2_at url) req) = Ok resp /\ succeeded resp /\ r_json resp = Some j /\
    rp_entry rp j = Ok e /\ le_proof e = Some ip /\ ip_checkpoint ip = Some cp.
Proof.
  intros rp http url req e. unfold create_entry_v2. change (url ++ s2l "/api/v2" ++ s2l "/log/entries") with (entries2_at url). split.
  - intros H. inv H resp R. inv H u C. inv H j J. inv H e' P. apply C09_entry_has_proof_and_checkpoint in H. destruct H as (-> & ip & cp & H1 & H2).
    exists resp, j, ip, cp. split; [exact R|].
    unfold check_status, raise_for_status in C. destruct (resp_ok resp) eqn:O; [|discriminate C]. split; [apply resp_ok_iff, O|].
    unfold resp_json in J. destruct (r_json resp); [|discriminate]. split; [congruence|auto].
  - intros (resp & j & ip & cp & R & S & J & P & H1 & H2). rewrite R. cbn [bind]. rewrite check_status_ok by exact S. cbn [bind]. unfold resp_json. rewrite J. cbn [bind].
    rewrite P. cbn [bind]. apply C09_entry_has_proof_and_checkpoint. eauto.
Qed.
Theorem C90_v1_proof : forall rp http url req e, create_entry_v1 rp http url req = Ok e ->
  exists ip cp, le_proof e = Some ip /\ ip_checkpoint ip = Some cp.
Proof.
  intros rp http url req e H. apply C90_v1_iff in H. destruct H as (resp & j & _ & _ & _ & (u & f & v & ip & proof & _ & _ & _ & Pf & H) & _).
  destruct H as (_ & _ & _ & _ & _ & _ & _ & _ & _ & cp & _ & Hc). eauto.
Qed.
(** An error answer is a RekorClientError. *)
Theorem C90_error : forall rp http url req resp, failed resp ->
  (http (POST (entries_at url) req) = Ok resp -> create_entry_v1 rp http url req = Raise ERekorClient) /\
  (http (POST (entries2_at url) req) = Ok resp -> create_entry_v2 rp http url req = Raise ERekorClient).
Proof.
  intros rp http url req resp F. split; intros R.
  - unfold create_entry_v1. rewrite entries_url, R. cbn [bind]. rewrite check_status_failed by exact F. reflexivity.
  - unfold create_entry_v2. change (url ++ s2l "/api/v2" ++ s2l "/log/entries") with (entries2_at url). rewrite R. cbn [bind].
    rewrite check_status_failed by exact F. reflexivity.
Qed.
(** That failures are errors of the documented hierarchy is false: a log that cannot be reached raises the network
    library's exception, and RekorClientError is no sigstore error. *)
Theorem C90_sigstore_error_refuted : forall rp url req,
  is_sigstore_error ERekorClient = false /\
  exists http, create_entry_v1 rp http url req = Raise EConnection /\ create_entry_v2 rp http url req = Raise EConnection /\ is_sigstore_error EConnection = false.
Proof. intros rp url req. split; [reflexivity|]. exists (fun _ => Raise EConnection). repeat split. Qed.

(** The state of the log is what the answer says. *)
Theorem C90_log_info_iff : forall http url i,
  log_get http url = Ok i <->
  exists resp f, http (GET (info_at url) nil) = Ok resp /\ succeeded resp /\ r_json resp = Some (JObj f) /\
    field f "rootHash" (li_root_hash i) /\ field f "treeSize" (li_tree_size i) /\ field f "signedTreeHead" (li_signed_tree_head i) /\
    field f "treeID" (li_tree_id i) /\ li_raw i = JObj f.
Proof.
  intros http url i. unfold log_get. change (v1_log_url url) with (url ++ s2l "/api/v1" ++ s2l "/log").
  change (url ++ s2l "/api/v1" ++ s2l "/log") with (info_at url). split.
  - intros H. inv H resp R. inv H u C. inv H j J. unfold log_info in H. inv H r Hr. inv H z Hz. inv H st Ht. inv H tid Hi.
    apply py_item_ok in Hr, Hz, Ht, Hi. destruct Hr as (f & -> & Hr). destruct Hz as (f' & Q & Hz). injection Q as <-.
    destruct Ht as (f' & Q & Ht). injection Q as <-. destruct Hi as (f' & Q & Hi). injection Q as <-. injection H as <-.
    exists resp, f. split; [exact R|]. unfold check_status, raise_for_status in C. destruct (resp_ok resp) eqn:O; [|discriminate C].
    split; [apply resp_ok_iff, O|]. unfold resp_json in J. destruct (r_json resp); [|discriminate]. split; [congruence|].
    cbn [li_root_hash li_tree_size li_signed_tree_head li_tree_id li_raw]. unfold field. auto.
  - intros (resp & f & R & S & J & Hr & Hz & Ht & Hi & Hf). rewrite R. cbn [bind]. rewrite check_status_ok by exact S. cbn [bind].
    unfold resp_json. rewrite J. cbn [bind]. unfold log_info, py_item. unfold field in *. rewrite Hr. cbn [bind]. rewrite Hz. cbn [bind]. rewrite Ht. cbn [bind].
    rewrite Hi. cbn [bind]. rewrite <- Hf. destruct i. reflexivity.
Qed.

(** ** Examples *)
Definition rkx_rp : RekorParsers :=
  mkRP (fun s => PyText.py_int (fun _ => None) s) (fun b => Ok (Some (s2l "hashedrekord", s2l "0.0.1"))) (fun _ => Raise EPydantic) (fun _ => nil).
Definition rkx_entry (uuid : String.string) (t : Z) : json :=
  render (s2l uuid) 7 t 3 9 [x01; xab] [x02] [x03; x04] [[x05]; [x06]] (s2l "cp") [x07; x08].
Definition rkx_http (j : json) : http_request EntryRequest -> res response := fun _ => Ok (mkResp 200 nil (Some j) nil).
Example ex_parse : from_v1_response rkx_rp (rkx_entry "u" 1700000000) =
  Ok (mkEntry 7 [x01; xab] (s2l "hashedrekord") (s2l "0.0.1") (Some 1700000000%Z) (Some [x03; x04])
        (Some (mkIP 3 [x02] 9 [[x05]; [x06]] (Some (s2l "cp")))) [x07; x08]).
Proof. vm_compute. reflexivity. Qed.
Example ex_oldest : exists e, retrieve_post rkx_rp (rkx_http (JList [rkx_entry "a" 30; rkx_entry "b" 10; rkx_entry "c" 20]))
    (s2l "https://rekor") (Req_v2 nil nil (V2_x509 nil PKIX_ED25519)) = Ok (Some e) /\ le_integrated_time e = Some 10%Z.
Proof. eexists. split; [vm_compute; reflexivity|]. vm_compute. reflexivity. Qed.
Example ex_empty : retrieve_post rkx_rp (rkx_http (JList nil)) (s2l "https://rekor") (Req_v2 nil nil (V2_x509 nil PKIX_ED25519)) = Ok None.
Proof. vm_compute. reflexivity. Qed.

Example ex_submitted : exists e, create_entry_v1 rkx_rp (rkx_http (rkx_entry "a" 30)) (s2l "https://rekor") (Req_v2 nil nil (V2_x509 nil PKIX_ED25519)) = Ok e.
Proof. eexists. vm_compute. reflexivity. Qed.
Definition rkx_rp2 (p : option InclusionProof) : RekorParsers :=
  mkRP (rp_u64 rkx_rp) (rp_proposed rkx_rp) (fun _ => Ok (mkEntry 0 nil (s2l "dsse") (s2l "0.0.2") None None p nil)) (fun _ => nil).
Example ex_submitted2 : exists e, create_entry_v2 (rkx_rp2 (Some (mkIP 0 nil 1 nil (Some (s2l "cp"))))) (rkx_http (JObj nil)) (s2l "https://rekor")
  (Req_v2 nil nil (V2_x509 nil PKIX_ED25519)) = Ok e.
Proof. eexists. vm_compute. reflexivity. Qed.
Example ex_submitted2_no_proof : exists x, create_entry_v2 (rkx_rp2 None) (rkx_http (JObj nil)) (s2l "https://rekor")
  (Req_v2 nil nil (V2_x509 nil PKIX_ED25519)) = Raise x.
Proof. eexists. vm_compute. reflexivity. Qed.
Example ex_log_info : log_get (rkx_http (JObj [(s2l "rootHash", JStr (s2l "00")); (s2l "treeSize", JInt 5); (s2l "signedTreeHead", JStr nil); (s2l "treeID", JStr (s2l "7"))]))
  (s2l "https://rekor") = Ok (mkLogInfo (JStr (s2l "00")) (JInt 5) (JStr nil) (JStr (s2l "7"))
    (JObj [(s2l "rootHash", JStr (s2l "00")); (s2l "treeSize", JInt 5); (s2l "signedTreeHead", JStr nil); (s2l "treeID", JStr (s2l "7"))])).
Proof. vm_compute. reflexivity. Qed.

Print Assumptions C90_v1_iff.
Print Assumptions C90_v2_iff.
Print Assumptions C90_v1_proof.
Print Assumptions C90_error.
Print Assumptions C90_sigstore_error_refuted.
Print Assumptions C90_log_info_iff.
Print Assumptions C45_oldest_entry.
Print Assumptions C46_none_iff.
Print Assumptions C46_error_answers_raise.
Print Assumptions C46_not_found_is_none_refuted.
Print Assumptions C47_by_uuid.
Print Assumptions C47_by_index.
Print Assumptions C47_both_or_none.
Print Assumptions C47_every_index_refuted.
Print Assumptions C47_empty_uuid_refuted.
Print Assumptions C48_parses_iff.
Print Assumptions C48_one_entry_only.
Print Assumptions C48_roundtrip.
Print Assumptions C48_promise_covers_the_answer.
