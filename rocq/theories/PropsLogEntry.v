(** Properties C08, C09: the signed entry timestamp payload and log entry verification. *)
From Verif Require Import Base Codec PyText Messages Env Keyring KeyringProofs ToyHash
  MerkleSpec Merkle MerkleProofs Checkpoint CheckpointProofs LogEntry ToyEnv PropsCheckpoint.
Local Open Scope N_scope.

(** ** Specification *)

(** RFC 8785 JSON text of the four fields, as a reader would write it. *)
Definition set_text (body : bytes) (time : Z) (log_id : bytes) (index : Z) : str :=
  s2l "{""body"":""" ++ b64encode body ++ s2l """,""integratedTime"":" ++ dec_Z time ++
  s2l ",""logID"":""" ++ hex log_id ++ s2l """,""logIndex"":" ++ dec_Z index ++ s2l "}".

(** Integers that RFC 8785 (I-JSON) can represent. *)
Definition json_safe (z : Z) : Prop := (Z.abs z < 2 ^ 53)%Z.

(** ** Proofs *)

Lemma json_int_spec : forall z,
  (json_safe z /\ json_int z = Ok (dec_Z z)) \/ (~ json_safe z /\ json_int z = Raise EValue).
Proof.
  intros z. unfold json_safe, json_int. change (2 ^ 53)%Z with 9007199254740992%Z.
  destruct ((-9007199254740991 <=? z) && (z <=? 9007199254740991))%Z eqn:E; [left|right];
    (split; [|reflexivity]); lia.
Qed.

Lemma encode_canonical_spec : forall e d, encode_canonical e = Ok d <->
  exists t, le_integrated_time e = Some t /\ json_safe t /\ json_safe (le_log_index e) /\
    d = ascii_bytes (set_text (le_body e) t (le_log_id e) (le_log_index e)).
Proof.
  intros e d. unfold encode_canonical. destruct (le_integrated_time e) as [t|].
  - destruct (json_int_spec t) as [[A ->]|[A ->]];
    destruct (json_int_spec (le_log_index e)) as [[B ->]|[B ->]]; cbn [bind].
    + split.
      * intros H. inversion H; subst. exists t. split; [reflexivity|]. split; [assumption|].
        split; [assumption|]. f_equal. unfold set_text, json_plain. cbn [s2l app].
        rewrite <- !app_assoc. reflexivity.
      * intros (t' & E & _ & _ & ->). inversion E; subst t'. f_equal. f_equal.
        unfold set_text, json_plain. cbn [s2l app]. rewrite <- !app_assoc. reflexivity.
    + split; [discriminate|]. intros (t' & E & _ & Q & _). contradiction.
    + split; [discriminate|]. intros (t' & E & Q & _). congruence.
    + split; [discriminate|]. intros (t' & E & Q & _). congruence.
  - split; [discriminate|]. intros (t' & E & _). discriminate.
Qed.

Lemma b64_no_quote : forall b, forallb (fun c => negb (c =? 34)) (b64encode b) = true.
Proof.
  assert (Hc : forall n, n < 64 -> negb (b64_char n =? 34) = true).
  { intros n Hn. unfold b64_char.
    destruct (n <? 26) eqn:E1; [lia|]. destruct (n <? 52) eqn:E2; [lia|].
    destruct (n <? 62) eqn:E3; [lia|]. destruct (n =? 62); reflexivity. }
  intros b. induction b as [| |x y|x y z r IH] using list3_ind.
  - reflexivity.
  - pose proof (b2n_lt x). cbn [b64encode forallb]. rewrite !Hc by lia. reflexivity.
  - pose proof (b2n_lt x). pose proof (b2n_lt y). cbn [b64encode forallb]. rewrite !Hc by lia. reflexivity.
  - pose proof (b2n_lt x). pose proof (b2n_lt y). pose proof (b2n_lt z).
    cbn [b64encode forallb]. rewrite !Hc by lia. exact IH.
Qed.

Lemma hex_no_quote : forall b, forallb (fun c => negb (c =? 34)) (hex b) = true.
Proof.
  induction b as [|x b IH]; [reflexivity|]. cbn [hex forallb]. rewrite IH.
  pose proof (b2n_lt x).
  assert (forall n, negb (hex_digit n =? 34) = true) as Q.
  { intros n. unfold hex_digit. destruct (n <? 10); lia. }
  rewrite !Q. reflexivity.
Qed.

Lemma hex_ascii : forall b, is_ascii (hex b) = true.
Proof.
  unfold is_ascii. induction b as [|x b IH]; [reflexivity|]. cbn [hex forallb]. rewrite IH.
  pose proof (b2n_lt x) as Hx.
  assert (forall n, n < 16 -> hex_digit n <? 128 = true) as Q.
  { intros n Hn. unfold hex_digit. destruct (n <? 10) eqn:E; lia. }
  assert (b2n x / 16 < 16) by (apply N.div_lt_upper_bound; lia).
  assert (b2n x mod 16 < 16) by (apply N.mod_lt; lia).
  rewrite !Q by assumption. reflexivity.
Qed.

Lemma dec_Z_ascii : forall z, is_ascii (dec_Z z) = true.
Proof.
  intros z. pose proof (dec_Z_chars z) as H. unfold is_ascii. rewrite forallb_forall in *.
  intros c Hc. specialize (H c Hc). unfold is_int_char, is_digit in H. lia.
Qed.

Lemma set_text_ascii : forall b t l i, is_ascii (set_text b t l i) = true.
Proof.
  intros. unfold set_text. rewrite !is_ascii_app, b64encode_ascii, hex_ascii, !dec_Z_ascii. reflexivity.
Qed.

Lemma set_text_inj : forall b t l i b' t' l' i',
  set_text b t l i = set_text b' t' l' i' -> b = b' /\ t = t' /\ l = l' /\ i = i'.
Proof.
  intros b t l i b' t' l' i' H. unfold set_text in H.
  apply app_inv_head in H. cbn [s2l app] in H.
  apply app_sep_inj with (P := fun c => negb (c =? 34)) in H;
    [|apply b64_no_quote|apply b64_no_quote|reflexivity|reflexivity].
  destruct H as (Hb & _ & H). apply b64encode_inj in Hb.
  do 18 (apply (f_equal (@tl N)) in H; cbn [tl] in H).
  apply app_sep_inj with (P := is_int_char) in H;
    [|apply dec_Z_chars|apply dec_Z_chars|reflexivity|reflexivity].
  destruct H as (Ht & _ & H). apply dec_Z_inj in Ht.
  do 9 (apply (f_equal (@tl N)) in H; cbn [tl] in H).
  apply app_sep_inj with (P := fun c => negb (c =? 34)) in H;
    [|apply hex_no_quote|apply hex_no_quote|reflexivity|reflexivity].
  destruct H as (Hl & _ & H). apply hex_inj in Hl.
  do 12 (apply (f_equal (@tl N)) in H; cbn [tl] in H).
  apply app_sep_inj with (P := is_int_char) in H;
    [|apply dec_Z_chars|apply dec_Z_chars|reflexivity|reflexivity].
  destruct H as (Hi & _ & _). apply dec_Z_inj in Hi. auto.
Qed.

(** ** C08 *)

(** The payload is the RFC 8785 text of exactly these four fields; it exists iff there
    is an integrated time and both integers are representable, and otherwise the only
    exception is a ValueError. *)
Theorem C08_payload_text :
  forall e, encode_canonical e =
  match le_integrated_time e with
  | Some t => if ((Z.abs t <? 2 ^ 53) && (Z.abs (le_log_index e) <? 2 ^ 53))%Z
              then Ok (ascii_bytes (set_text (le_body e) t (le_log_id e) (le_log_index e)))
              else Raise EValue
  | None => Raise EValue
  end.
Proof.
  intros e. destruct (le_integrated_time e) as [t|] eqn:E.
  - destruct ((Z.abs t <? 2 ^ 53) && (Z.abs (le_log_index e) <? 2 ^ 53))%Z eqn:Q.
    + apply encode_canonical_spec. exists t. unfold json_safe.
      apply andb_true_iff in Q. rewrite !Z.ltb_lt in Q. tauto.
    + unfold encode_canonical. rewrite E.
      destruct (json_int_spec t) as [[A ->]|[A ->]]; [|reflexivity].
      destruct (json_int_spec (le_log_index e)) as [[B ->]|[B ->]]; [|reflexivity].
      unfold json_safe in *. lia.
  - unfold encode_canonical. rewrite E. reflexivity.
Qed.

Theorem C08_payload_injective :
  forall e e' d, encode_canonical e = Ok d -> encode_canonical e' = Ok d ->
  le_body e = le_body e' /\ le_integrated_time e = le_integrated_time e' /\
  le_log_id e = le_log_id e' /\ le_log_index e = le_log_index e'.
Proof.
  intros e e' d H H'. apply encode_canonical_spec in H, H'.
  destruct H as (t & Et & _ & _ & Ed), H' as (t' & Et' & _ & _ & Ed').
  rewrite Ed in Ed'. apply ascii_bytes_inj in Ed'; [|apply set_text_ascii|apply set_text_ascii].
  apply set_text_inj in Ed'. destruct Ed' as (A & B & C & D).
  rewrite Et, Et'. subst t'. auto.
Qed.

(** No replay: if one SET value is accepted for two entries of the same log by a backend
    in which, under one key and scheme, that signature verifies only one message, the
    entries agree. *)
Theorem C08_set_not_replayable :
  forall env ms kr e e' set,
  make_keyring env ms = Ok kr ->
  le_promise e = Some set -> le_promise e' = Some set ->
  le_log_id e = le_log_id e' ->
  (exists k s, registered env ms k s /\ msg_id env k = le_log_id e /\
     forall d d', e_sig_verify env s k set d = Ok tt -> e_sig_verify env s k set d' = Ok tt -> d = d') ->
  verify_set env kr e = Ok tt -> verify_set env kr e' = Ok tt ->
  le_body e = le_body e' /\ le_integrated_time e = le_integrated_time e' /\
  le_log_index e = le_log_index e'.
Proof.
  intros env ms kr e e' set Hk Hp Hp' Hid (k & s & Hr & Hm & Huniq) H H'.
  assert (Q : forall x, le_promise x = Some set -> le_log_id x = le_log_id e ->
            verify_set env kr x = Ok tt ->
            exists d, encode_canonical x = Ok d /\ e_sig_verify env s k set d = Ok tt).
  { intros x Hx Hlx Hv. unfold verify_set in Hv. rewrite Hx in Hv. unfold try_except in Hv.
    destruct (encode_canonical x) as [d|ex]; cbn [bind] in Hv.
    - exists d. split; [reflexivity|]. rewrite Hlx, <- Hm in Hv.
      rewrite (keyring_known_id env ms kr k s set d Hk Hr) in Hv.
      destruct (e_sig_verify env s k set d) as [[]|y]; [reflexivity|].
      destruct (exn_eqb y EInvalidSignature); [discriminate|].
      destruct (is_verification_error y); discriminate.
    - destruct (is_verification_error ex); discriminate. }
  destruct (Q e Hp eq_refl H) as (d & E1 & V1). destruct (Q e' Hp' (eq_sym Hid) H') as (d' & E2 & V2).
  assert (d = d') by (eapply Huniq; eassumption). subst d'.
  destruct (C08_payload_injective _ _ _ E1 E2) as (A & B & _ & D). auto.
Qed.

(** ** C09 *)

(** Entries that can exist. *)
Theorem C09_entry_has_proof_and_checkpoint :
  forall inner e, make_entry inner = Ok e <->
  e = inner /\ exists ip text, le_proof inner = Some ip /\ ip_checkpoint ip = Some text.
Proof.
  intros inner e. unfold make_entry, entry_validate.
  destruct (le_proof inner) as [ip|]; [destruct (ip_checkpoint ip) as [t|] eqn:C|]; simpl.
  - split; [intros H; inversion H; split; [reflexivity|exists ip, t; auto]|intros [-> _]; reflexivity].
  - split; [discriminate|intros (_ & ip' & t & H & H'); inversion H; congruence].
  - split; [discriminate|intros (_ & ip' & t & H & H'); discriminate].
Qed.

Theorem C09_entry_verification_complete :
  forall env kr e,
  entry_verify env kr e = Ok tt <->
  verify_merkle_inclusion (e_hash env SHA256) e = Ok tt /\
  verify_checkpoint env kr e = Ok tt /\
  (forall set t, le_promise e = Some set -> le_integrated_time e = Some t -> t <> 0%Z ->
     (Z.abs t < 2 ^ 53)%Z /\ (Z.abs (le_log_index e) < 2 ^ 53)%Z /\
     keyring_verify env kr (le_log_id e) set
       (ascii_bytes (set_text (le_body e) t (le_log_id e) (le_log_index e))) = Ok tt).
Proof.
  intros env kr e. unfold entry_verify. split.
  - intros H. inv_bind H. inv_bind H. destruct a, a0. split; [assumption|]. split; [assumption|].
    intros set t Hp Ht Hz. unfold has_set in H. rewrite Hp, Ht in H.
    assert ((t =? 0)%Z = false) as Hf by lia. rewrite Hf in H. cbn [negb] in H.
    unfold verify_set in H. rewrite Hp in H. unfold try_except in H.
    destruct (encode_canonical e) as [d|x] eqn:E; cbn [bind] in H.
    + apply encode_canonical_spec in E. destruct E as (t' & Et & A & B & ->).
      rewrite Ht in Et. inversion Et; subst t'. unfold json_safe in *.
      split; [assumption|]. split; [assumption|].
      destruct (keyring_verify _ _ _ _ _) as [[]|x]; [reflexivity|].
      destruct (is_verification_error x); discriminate.
    + destruct (is_verification_error x); discriminate.
  - intros (A & B & C). rewrite A. cbn [bind]. rewrite B. cbn [bind].
    unfold has_set. destruct (le_promise e) as [set|] eqn:Hp; [|reflexivity].
    destruct (le_integrated_time e) as [t|] eqn:Ht; [|reflexivity].
    destruct (t =? 0)%Z eqn:Z0; [reflexivity|]. cbn [negb].
    destruct (C set t eq_refl eq_refl ltac:(lia)) as (S1 & S2 & V).
    unfold verify_set. rewrite Hp, C08_payload_text, Ht.
    assert (((Z.abs t <? 2 ^ 53) && (Z.abs (le_log_index e) <? 2 ^ 53))%Z = true) as -> by lia.
    cbn [bind]. rewrite V. reflexivity.
Qed.

(** The top-level log index and integrated time are authenticated by the SET only: an
    entry without promise verifies with any index and any integrated time. *)
Definition with_index_time (e : LogEntry) (i : Z) (t : option Z) : LogEntry :=
  mkEntry i (le_log_id e) (le_kind e) (le_version e) t (le_promise e) (le_proof e) (le_body e).

Theorem C09_index_without_promise_is_not_authenticated :
  forall env kr e i t, le_promise e = None ->
  entry_verify env kr (with_index_time e i t) = entry_verify env kr e.
Proof.
  intros env kr e i t H. unfold entry_verify, has_set. cbn [with_index_time le_promise].
  rewrite H. reflexivity.
Qed.

(** Everything that can be raised. *)
Theorem C09_exceptions :
  forall env ms kr e x ip, make_keyring env ms = Ok kr -> le_proof e = Some ip ->
  entry_verify env kr e = Raise x ->
  x = EVerification \/ verify_checkpoint env kr e = Raise x \/
  (x = EValue /\ le_promise e <> None /\ exists t, le_integrated_time e = Some t /\
     ((2 ^ 53 <= Z.abs t)%Z \/ (2 ^ 53 <= Z.abs (le_log_index e))%Z)) \/
  (exists k s sg d, registered env ms k s /\ e_sig_verify env s k sg d = Raise x /\ x <> EInvalidSignature).
Proof.
  intros env ms kr e x ip Hk Hip H. unfold entry_verify in H.
  apply bind_raise_inv in H. destruct H as [H|(u & _ & H)].
  { left. eapply inclusion_exceptions; eassumption. }
  apply bind_raise_inv in H. destruct H as [H|(v & _ & H)]; [right; left; assumption|].
  unfold has_set in H. destruct (le_promise e) as [set|] eqn:Hp; [|discriminate].
  destruct (le_integrated_time e) as [t|] eqn:Ht; [|discriminate].
  destruct (negb (t =? 0)%Z); [|discriminate].
  unfold verify_set in H. rewrite Hp, C08_payload_text, Ht in H.
  destruct ((Z.abs t <? 2 ^ 53) && (Z.abs (le_log_index e) <? 2 ^ 53))%Z eqn:Q; cbn [bind] in H.
  - unfold try_except in H. destruct (keyring_verify _ _ _ _ _) as [w|y] eqn:V; [discriminate|].
    destruct (is_verification_error y); inversion H; subst; [left; reflexivity|].
    destruct (keyring_exceptions env ms kr _ _ _ _ Hk V) as [->|(k & s & A & B)]; [left; reflexivity|].
    do 3 right. exists k, s, set. eexists. split; [exact A|exact B].
  - cbn in H. inversion H; subst. right; right; left. split; [reflexivity|]. split; [congruence|]. exists t. split; [reflexivity|]. lia.
Qed.

(** ** Concrete cases *)

(** A complete entry (three-entry log, toy hash, signed checkpoint, SET). *)
Definition lx_log : list bytes := [[x61]; [x62]; [x63]].
Definition lx_body_text : str :=
  lines_text (body_lines (s2l "rekor.example") 3 (MTH toy_hash lx_log) nil).
Definition lx_checkpoint : str := signed_note_text lx_body_text (cx_sigs lx_body_text).
Definition lx_set (idx : Z) : bytes :=
  toy_sign (ECDSA SHA256) cx_pub (ascii_bytes (set_text [x62] 1700000000 cx_id idx)).
Definition lx_entry (idx : Z) (set : option bytes) : LogEntry :=
  mkEntry idx cx_id (s2l "hashedrekord") (s2l "0.0.1") (Some 1700000000%Z) set
    (Some (mkIP 1 (MTH toy_hash lx_log) 3 (PATH toy_hash 1 lx_log) (Some lx_checkpoint))) [x62].
Definition lx_verify (e : LogEntry) : res unit :=
  let* kr := make_keyring cx_env cx_ms in entry_verify cx_env kr e.

Example ex_entry_accepted : lx_verify (lx_entry 1 (Some (lx_set 1))) = Ok tt.
Proof. vm_compute. reflexivity. Qed.
Example ex_entry_wrong_set : lx_verify (lx_entry 2 (Some (lx_set 1))) = Raise EVerification.
Proof. vm_compute. reflexivity. Qed.
Example ex_set_payload :
  encode_canonical (lx_entry 5 None) =
  Ok (s2b "{""body"":""Yg=="",""integratedTime"":1700000000,""logID"":""" ++
      ascii_bytes (hex cx_id) ++ s2b """,""logIndex"":5}").
Proof. vm_compute. reflexivity. Qed.

(** The index expectation fails for an entry without promise: index 99 of a 3-entry log. *)
Theorem C09_log_index_is_authenticated_refuted :
  exists e ip, le_proof e = Some ip /\ (le_log_index e <> ip_log_index ip)%Z /\
    (ip_tree_size ip <= le_log_index e)%Z /\ lx_verify e = Ok tt.
Proof.
  exists (lx_entry 99 None). eexists. split; [reflexivity|].
  split; [vm_compute; congruence|]. split; [vm_compute; congruence|]. vm_compute. reflexivity.
Qed.

(** A ValueError leaks for an index of 2^53. *)
Theorem C09_only_verification_error_refuted :
  exists e, lx_verify e = Raise EValue /\ (0 <= le_log_index e < 2 ^ 64)%Z.
Proof.
  exists (lx_entry (2 ^ 53) (Some (lx_set 1))). split; [vm_compute; reflexivity|].
  vm_compute. split; congruence.
Qed.

Print Assumptions C08_payload_text.
Print Assumptions C08_payload_injective.
Print Assumptions C08_set_not_replayable.
Print Assumptions C09_entry_has_proof_and_checkpoint.
Print Assumptions C09_entry_verification_complete.
Print Assumptions C09_index_without_promise_is_not_authenticated.
Print Assumptions C09_exceptions.
Print Assumptions C09_log_index_is_authenticated_refuted.
Print Assumptions C09_only_verification_error_refuted.
