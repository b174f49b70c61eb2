(** Properties C15, C16, C17, C19: signed certificate timestamps. *)
From Verif Require Import Base Codec Messages Env Keyring KeyringProofs Cert PropsCert
  FloatMs FloatMsProofs Sct ToyEnv ToyHash.
From Coq Require Import ZifyBool ZifyNat ZifyN.

(** ** Specification: an RFC 6962 section 3.2 decoder

    [struct { Version sct_version; SignatureType signature_type; uint64 timestamp;
     LogEntryType entry_type; select (entry_type) { ASN.1Cert; PreCert } signed_entry;
     CtExtensions extensions }], written from the RFC alone. *)

Inductive ct_entry : Set :=
| CT_x509 (asn1cert : bytes)
| CT_precert (issuer_key_hash tbs : bytes).

Record CtSigned := mkCt {
  ct_version : N; ct_sigtype : N; ct_timestamp : N; ct_entry_of : ct_entry; ct_exts : bytes }.

(** The first [n] bytes and the rest. *)
Fixpoint take (n : nat) (b : bytes) : option (bytes * bytes) :=
  match n, b with
  | O, _ => Some (nil, b)
  | S n', x :: b' => match take n' b' with Some (h, t) => Some (x :: h, t) | None => None end
  | S _, nil => None
  end.

Definition get_uint (w : nat) (b : bytes) : option (N * bytes) :=
  match take w b with Some (h, t) => Some (unbe h, t) | None => None end.

(** [opaque x<0..2^(8w)-1>] *)
Definition get_opaque (w : nat) (b : bytes) : option (bytes * bytes) :=
  match get_uint w b with Some (n, t) => take (N.to_nat n) t | None => None end.

Definition decode_ct (b : bytes) : option CtSigned :=
  match get_uint 1 b with None => None | Some (v, b) =>
  match get_uint 1 b with None => None | Some (st, b) =>
  match get_uint 8 b with None => None | Some (ts, b) =>
  match get_uint 2 b with None => None | Some (et, b) =>
  let fin e b := match get_opaque 2 b with
                 | Some (x, nil) => Some (mkCt v st ts e x)
                 | _ => None end in
  match et with
  | 0%N => match get_opaque 3 b with Some (c, b) => fin (CT_x509 c) b | None => None end
  | 1%N => match take 32 b with
           | Some (k, b) => match get_opaque 3 b with
                            | Some (t, b) => fin (CT_precert k t) b | None => None end
           | None => None end
  | _ => None
  end end end end end.

(** ** Proofs *)

Lemma take_app : forall h t, take (length h) (h ++ t) = Some (h, t).
Proof. induction h as [|x h IH]; intros t; [reflexivity|]. cbn [length app take]. rewrite IH. reflexivity. Qed.

Lemma take_len : forall n h t, length h = n -> take n (h ++ t) = Some (h, t).
Proof. intros n h t <-. apply take_app. Qed.

Lemma get_uint_be : forall w n t, (n < 256 ^ N.of_nat w)%N -> get_uint w (be w n ++ t) = Some (n, t).
Proof.
  intros w n t H. unfold get_uint. rewrite take_len by apply be_length. rewrite unbe_be by assumption. reflexivity.
Qed.

Lemma get_opaque_be : forall w x t, (N.of_nat (length x) < 256 ^ N.of_nat w)%N ->
  get_opaque w (be w (N.of_nat (length x)) ++ x ++ t) = Some (x, t).
Proof.
  intros w x t H. unfold get_opaque. rewrite get_uint_be by assumption.
  rewrite Nat2N.id. apply take_app.
Qed.

Lemma ZnatN : forall n, Z.to_N (Z.of_nat n) = N.of_nat n.
Proof. intros. lia. Qed.

Lemma pack_uint_ok : forall w z b, pack_uint w z = Ok b ->
  (0 <= z)%Z /\ (Z.to_N z < 256 ^ N.of_nat w)%N /\ b = be w (Z.to_N z).
Proof.
  intros w z b H. unfold pack_uint in H.
  destruct ((0 <=? z) && (z <? 256 ^ Z.of_nat w))%Z eqn:E; [|discriminate].
  inversion H; subst. apply andb_true_iff in E. destruct E as [E1 E2].
  apply Z.leb_le in E1. apply Z.ltb_lt in E2. split; [assumption|]. split; [|reflexivity].
  apply N2Z.inj_lt. rewrite Z2N.id by assumption. rewrite N2Z.inj_pow, nat_N_Z. exact E2.
Qed.

Lemma be_succ : forall w n, be (S w) n = be w (n / 256) ++ [n2b n].
Proof. reflexivity. Qed.

Lemma be_4_split : forall n, be 4 n = n2b (n / 16777216) :: be 3 n.
Proof.
  intros n. cbn [be app]. rewrite !N.div_div by lia. reflexivity.
Qed.

Lemma pack_u24_ok : forall len b, pack_u24 len = Ok b ->
  (0 <= len < 2 ^ 24)%Z /\ b = be 3 (Z.to_N len).
Proof.
  intros len b H. unfold pack_u24 in H. inv_bind H. apply pack_uint_ok in Ha.
  destruct Ha as (L & U & ->). rewrite be_4_split in H. inv_bind H. inversion H; subst.
  apply raise_if_ok in Ha. apply negb_false_iff, byte_eqb_spec in Ha.
  split; [|reflexivity]. split; [assumption|].
  apply (f_equal b2n) in Ha. change (b2n x00) with 0%N in Ha.
  change (256 ^ N.of_nat 4)%N with 4294967296%N in U.
  rewrite b2n_n2b in Ha by (apply N.div_lt_upper_bound; lia).
  apply N.div_small_iff in Ha; [|lia]. change (2 ^ 24)%Z with 16777216%Z. lia.
Qed.

Lemma pack_u24_large : forall len, (2 ^ 24 <= len)%Z ->
  pack_u24 len = Raise EVerification \/ (pack_u24 len = Raise EStruct /\ (2 ^ 32 <= len)%Z).
Proof.
  intros len H. destruct (pack_u24 len) as [b|e] eqn:E.
  - apply pack_u24_ok in E. lia.
  - unfold pack_u24 in E. apply bind_raise_inv in E. destruct E as [E|(a & Ha & E)].
    + unfold pack_uint in E. change (256 ^ Z.of_nat 4)%Z with 4294967296%Z in E.
      destruct ((0 <=? len) && (len <? 4294967296))%Z eqn:Q; [discriminate|].
      inversion E; subst. right. split; [reflexivity|]. 
      change (2 ^ 24)%Z with 16777216%Z in H. change (2 ^ 32)%Z with 4294967296%Z. lia.
    + destruct a as [|x r].
      * apply pack_uint_ok in Ha. destruct Ha as (_ & _ & Ha). rewrite be_4_split in Ha. discriminate.
      * apply bind_raise_inv in E. destruct E as [E|(u & _ & E)]; [|discriminate].
        apply raise_if_raise in E. left. destruct E as [_ ->]. reflexivity.
Qed.

(** What the certificate contributes to the payload. *)
Definition entry_of (s : SCT) (c : Cert) (ik : option bytes) (e : ct_entry) : Prop :=
  match sct_entry_type s with
  | X509_CERTIFICATE => e = CT_x509 (c_der c)
  | PRE_CERTIFICATE => exists k tbs, ik = Some k /\ c_tbs_precert c = Ok tbs /\ e = CT_precert k tbs
  | OTHER_ENTRY _ => False
  end.

Lemma pack_entry_ok : forall s c ik b, pack_signed_entry s c ik = Ok b ->
  (sct_entry_type s = X509_CERTIFICATE /\ (Z.of_nat (length (c_der c)) < 2 ^ 24)%Z /\
   b = be 3 (N.of_nat (length (c_der c))) ++ c_der c) \/
  (sct_entry_type s = PRE_CERTIFICATE /\ exists k tbs, ik = Some k /\ length k = 32 /\
   c_tbs_precert c = Ok tbs /\ (Z.of_nat (length tbs) < 2 ^ 24)%Z /\
   b = k ++ be 3 (N.of_nat (length tbs)) ++ tbs).
Proof.
  intros s c ik b H. unfold pack_signed_entry in H. inv_bind H. destruct a as [pre der].
  inv_bind H. inversion H; subst. apply pack_u24_ok in Ha0. destruct Ha0 as [L ->].
  rewrite ZnatN.
  destruct (sct_entry_type s).
  - inversion Ha; subst. left. split; [reflexivity|]. split; [lia|reflexivity].
  - right. split; [reflexivity|]. destruct ik as [k|]; [|discriminate].
    inv_bind Ha. inv_bind Ha. inversion Ha; subst. apply raise_if_ok in Ha0.
    apply negb_false_iff, Nat.eqb_eq in Ha0. exists pre, der. repeat split; auto. lia.
  - discriminate.
Qed.

Lemma pack_ok : forall s c ik d, pack_digitally_signed s c ik = Ok d ->
  exists se, pack_signed_entry s c ik = Ok se /\
    (0 <= float_ms (sct_timestamp s))%Z /\
    (sct_version s < 256)%N /\ (Z.to_N (float_ms (sct_timestamp s)) < 256 ^ 8)%N /\
    (N.of_nat (length (sct_extensions s)) < 256 ^ 2)%N /\
    d = be 1 (sct_version s) ++ be 1 0 ++ be 8 (Z.to_N (float_ms (sct_timestamp s))) ++
        be 2 (entry_type_value (sct_entry_type s)) ++ se ++
        be 2 (N.of_nat (length (sct_extensions s))) ++ sct_extensions s.
Proof.
  intros s c ik d H. unfold pack_digitally_signed in H.
  inv_bind H. exists a. split; [assumption|]. inv_bind H. inv_bind H. inv_bind H. inv_bind H. inv_bind H.
  inversion H; subst. apply pack_uint_ok in Ha0, Ha1, Ha2, Ha3, Ha4.
  destruct Ha0 as (_ & V & ->), Ha1 as (_ & _ & ->), Ha2 as (T0 & T & ->), Ha3 as (_ & E & ->), Ha4 as (_ & X & ->).
  rewrite ?N2Z.id, ?ZnatN in *.
  split; [assumption|]. split; [exact V|]. split; [exact T|]. split; [exact X|]. reflexivity.
Qed.

(** ** C15 *)
Theorem C15_payload_decodes : forall s c ik d, pack_digitally_signed s c ik = Ok d ->
  exists e, entry_of s c ik e /\
  decode_ct d = Some (mkCt (sct_version s) 0 (Z.to_N (float_ms (sct_timestamp s))) e (sct_extensions s)).
Proof.
  intros s c ik d H. apply pack_ok in H. destruct H as (se & Hs & _ & V & T & X & ->).
  apply pack_entry_ok in Hs.
  assert (F : forall e, match get_opaque 2 (be 2 (N.of_nat (length (sct_extensions s))) ++ sct_extensions s) with
                 | Some (x, nil) => Some (mkCt (sct_version s) 0 (Z.to_N (float_ms (sct_timestamp s))) e x)
                 | _ => None end =
              Some (mkCt (sct_version s) 0 (Z.to_N (float_ms (sct_timestamp s))) e (sct_extensions s))).
  { intros e. rewrite <- (app_nil_r (sct_extensions s)) at 2. rewrite get_opaque_be by exact X. reflexivity. }
  destruct Hs as [(Et & L & ->)|(Et & k & tbs & Ek & Lk & Etbs & L & ->)].
  - exists (CT_x509 (c_der c)). split; [unfold entry_of; rewrite Et; reflexivity|].
    unfold decode_ct. rewrite get_uint_be by exact V. rewrite get_uint_be by reflexivity.
    rewrite get_uint_be by exact T. rewrite Et. cbn [entry_type_value].
    rewrite get_uint_be by reflexivity. rewrite <- app_assoc.
    rewrite get_opaque_be by (change (256 ^ N.of_nat 3)%N with 16777216%N; change (2^24)%Z with 16777216%Z in L; lia).
    apply F.
  - exists (CT_precert k tbs). split; [unfold entry_of; rewrite Et; exists k, tbs; auto|].
    unfold decode_ct. rewrite get_uint_be by exact V. rewrite get_uint_be by reflexivity.
    rewrite get_uint_be by exact T. rewrite Et. cbn [entry_type_value].
    rewrite get_uint_be by reflexivity. rewrite <- !app_assoc.
    rewrite take_len by exact Lk.
    rewrite get_opaque_be by (change (256 ^ N.of_nat 3)%N with 16777216%N; change (2^24)%Z with 16777216%Z in L; lia).
    apply F.
Qed.

Theorem C15_payload_unambiguous : forall s c ik s' c' ik' d,
  pack_digitally_signed s c ik = Ok d -> pack_digitally_signed s' c' ik' = Ok d ->
  sct_version s = sct_version s' /\
  float_ms (sct_timestamp s) = float_ms (sct_timestamp s') /\
  sct_extensions s = sct_extensions s' /\
  sct_entry_type s = sct_entry_type s' /\
  exists e, entry_of s c ik e /\ entry_of s' c' ik' e.
Proof.
  intros s c ik s' c' ik' d H H'.
  destruct (C15_payload_decodes _ _ _ _ H) as (e & E1 & D1).
  destruct (C15_payload_decodes _ _ _ _ H') as (e' & E2 & D2).
  rewrite D1 in D2. inversion D2. subst e'.
  apply pack_ok in H, H'. destruct H as (_ & _ & T & _), H' as (_ & _ & T' & _).
  split; [reflexivity|]. split; [lia|]. split; [reflexivity|]. split; [|exists e; auto].
  unfold entry_of in *. destruct (sct_entry_type s), (sct_entry_type s'); try contradiction; try reflexivity.
  - destruct E2 as (? & ? & _ & _ & E2). congruence.
  - destruct E1 as (? & ? & _ & _ & E1). congruence.
Qed.

Theorem C15_oversized_certificate_refused : forall s c ik,
  (match sct_entry_type s with
   | PRE_CERTIFICATE => exists tbs, c_tbs_precert c = Ok tbs /\ (2 ^ 24 <= Z.of_nat (length tbs))%Z
   | _ => (2 ^ 24 <= Z.of_nat (length (c_der c)))%Z end) ->
  pack_digitally_signed s c ik = Raise EVerification \/
  (pack_digitally_signed s c ik = Raise EStruct /\
   exists n, (2 ^ 32 <= Z.of_nat n)%Z /\ (n = length (c_der c) \/ exists tbs, c_tbs_precert c = Ok tbs /\ n = length tbs)).
Proof.
  intros s c ik H. unfold pack_digitally_signed, pack_signed_entry.
  destruct (sct_entry_type s) eqn:Et.
  - cbn [bind]. destruct (pack_u24_large _ H) as [->|[-> L]]; cbn [bind]; [left; reflexivity|].
    right. split; [reflexivity|]. eauto.
  - destruct ik as [k|]; [|left; reflexivity].
    destruct (Nat.eqb (length k) 32); cbn [negb raise_if bind]; [|left; reflexivity].
    destruct H as (tbs & -> & L). cbn [bind].
    destruct (pack_u24_large _ L) as [->|[-> L']]; cbn [bind]; [left; reflexivity|].
    right. split; [reflexivity|]. exists (length tbs). eauto.
  - left. reflexivity.
Qed.

(** ** C16 *)

(** The issuer RFC 6962 prescribes: the first chain certificate, or the one after it if
    the first has the Certificate Transparency EKU. *)
Definition ct_issuer (chain : list Cert) (issuer : Cert) : Prop :=
  exists c0 rest x, chain = c0 :: rest /\ c_exts c0 = Ok x /\
    ((issuer = c0 /\ (forall ekus, x_eku x = Some ekus -> ~ In OID_CT ekus)) \/
     (exists ekus rest', x_eku x = Some ekus /\ In OID_CT ekus /\ rest = issuer :: rest')).

Lemma get_issuer_ok : forall chain i, get_issuer_cert chain = Ok i <-> ct_issuer chain i.
Proof.
  intros chain i. unfold get_issuer_cert, ct_issuer, index_list, is_preissuer.
  destruct chain as [|c0 rest]; simpl.
  { split; [discriminate|]. intros (? & ? & ? & H & _). discriminate. }
  destruct (c_exts c0) as [x|e] eqn:X; simpl.
  2:{ split; [discriminate|]. intros (c & r & x & H & H1 & _). inversion H; subst. congruence. }
  split.
  - intros H. exists c0, rest, x. split; [reflexivity|]. split; [assumption|].
    destruct (x_eku x) as [ekus|]; simpl in H.
    + destruct (oid_in OID_CT ekus) eqn:O.
      * right. apply oid_in_spec in O. destruct rest as [|c1 rest']; simpl in H; [discriminate|].
        inversion H; subst. exists ekus, rest'. auto.
      * left. inversion H; subst. split; [reflexivity|]. intros ek E. inversion E; subst.
        rewrite <- oid_in_spec. congruence.
    + left. inversion H; subst. split; [reflexivity|]. discriminate.
  - intros (c & r & x' & H & H1 & C). inversion H; subst. rewrite X in H1. inversion H1; subst x'.
    destruct C as [[-> N]|(ekus & rest' & E & I & ->)].
    + destruct (x_eku x) as [ekus|]; simpl; [|reflexivity].
      destruct (oid_in OID_CT ekus) eqn:O; [|reflexivity].
      apply oid_in_spec in O. exfalso. eapply N; eauto.
    + rewrite E. simpl. apply oid_in_spec in I. rewrite I. reflexivity.
Qed.

(** [verify_sct] succeeds exactly under these conditions. *)
Theorem C16_accepted_iff : forall env c chain kr,
  verify_sct env c chain kr = Ok tt <->
  exists x s ik d,
    c_exts c = Ok x /\ x_scts x = Some [s] /\
    sct_hash s = Some SHA256 /\
    (sct_entry_type s <> PRE_CERTIFICATE -> ik = None) /\
    (sct_entry_type s = PRE_CERTIFICATE ->
       exists issuer pk b, ct_issuer chain issuer /\ c_pubkey issuer = Ok pk /\
         cert_is_ca issuer = Ok b /\
         match pk_kind pk with KRsa _ | KEc _ => True | _ => False end /\
         ik = Some (e_hash env SHA256 (pk_spki pk))) /\
    pack_digitally_signed s c ik = Ok d /\
    keyring_verify env kr (sct_log_id s) (sct_signature s) d = Ok tt.
Proof.
  intros env c chain kr. unfold verify_sct, get_sct. split.
  - intros H. inv_bind H. inv_bind Ha. destruct (x_scts a0) as [[|s [|? ?]]|] eqn:S; try discriminate.
    inversion Ha; subst a. clear Ha. inv_bind H. inv_bind H. inv_bind H.
    apply raise_if_ok in Ha2. apply negb_false_iff in Ha2.
    exists a0, s, a, a1. split; [assumption|]. split; [assumption|].
    split. { destruct (sct_hash s) as [[| |]|]; simpl in Ha2; congruence. }
    destruct (is_precert (sct_entry_type s)) eqn:P.
    + inv_bind Ha. inv_bind Ha. inv_bind Ha. inv_bind Ha. inv_bind Ha. inversion Ha; subst a. clear Ha.
      split. { intros N. destruct (sct_entry_type s); simpl in P; congruence. }
      split.
      { intros _. exists a3, a4. apply get_issuer_ok in Ha3. apply raise_if_ok in Ha6.
        apply raise_if_ok in Ha7. apply negb_false_iff in Ha6, Ha7. subst a5.
        unfold sct_cert_is_ca, try_except in Ha5.
        destruct (cert_is_ca a3) as [b|e] eqn:CA; simpl in Ha5.
        - exists b. split; [assumption|]. split; [assumption|]. split; [reflexivity|].
          split; [|reflexivity]. unfold is_rsa_or_ec in Ha7. destruct (pk_kind a4); try discriminate; exact I.
        - destruct (is_verification_error e); discriminate. }
      split; [assumption|]. unfold try_except in H.
      destruct (keyring_verify _ _ _ _ _) as [[]|e]; [reflexivity|].
      destruct (is_verification_error e); discriminate.
    + inversion Ha; subst a. split; [reflexivity|].
      split. { intros Q. rewrite Q in P. discriminate. }
      split; [assumption|]. unfold try_except in H.
      destruct (keyring_verify _ _ _ _ _) as [[]|e]; [reflexivity|].
      destruct (is_verification_error e); discriminate.
  - intros (x & s & ik & d & X & S & Hh & N & P & D & V).
    rewrite X. cbn [bind]. rewrite S. cbn [bind].
    destruct (is_precert (sct_entry_type s)) eqn:Q.
    + assert (Et : sct_entry_type s = PRE_CERTIFICATE) by (destruct (sct_entry_type s); simpl in Q; congruence).
      destruct (P Et) as (i & pk & b & Hi & Hp & Hc & Hk & ->).
      apply get_issuer_ok in Hi. rewrite Hi. cbn [bind]. rewrite Hp. cbn [bind].
      unfold sct_cert_is_ca. rewrite Hc. cbn [bind try_except negb raise_if].
      assert (is_rsa_or_ec pk = true) as -> by (unfold is_rsa_or_ec; destruct (pk_kind pk); try contradiction; reflexivity).
      cbn [negb raise_if bind]. unfold key_id. rewrite D. cbn [bind]. rewrite Hh. cbn [is_sha256 negb raise_if bind].
      rewrite V. reflexivity.
    + assert (Et : sct_entry_type s <> PRE_CERTIFICATE) by (intros E; rewrite E in Q; discriminate).
      rewrite (N Et) in D. cbn [bind]. rewrite D. cbn [bind]. rewrite Hh. cbn [is_sha256 negb raise_if bind].
      rewrite V. reflexivity.
Qed.

(** The signature is one by a trusted CT key over the RFC 6962 structure of this very
    certificate (and, for precertificates, its issuer's key). *)
Theorem C16_accepted_sct_is_signed : forall env ms c chain kr,
  make_keyring env ms = Ok kr ->
  verify_sct env c chain kr = Ok tt ->
  exists x s d k sc e,
    c_exts c = Ok x /\ x_scts x = Some [s] /\
    registered env ms k sc /\ e_sig_verify env sc k (sct_signature s) d = Ok tt /\
    ((exists k' s', registered env ms k' s' /\ msg_id env k' = sct_log_id s) -> msg_id env k = sct_log_id s) /\
    decode_ct d = Some (mkCt (sct_version s) 0 (Z.to_N (float_ms (sct_timestamp s))) e (sct_extensions s)) /\
    match sct_entry_type s with
    | X509_CERTIFICATE => e = CT_x509 (c_der c)
    | PRE_CERTIFICATE => exists issuer pk tbs, ct_issuer chain issuer /\ c_pubkey issuer = Ok pk /\
        c_tbs_precert c = Ok tbs /\ e = CT_precert (e_hash env SHA256 (pk_spki pk)) tbs
    | OTHER_ENTRY _ => False
    end.
Proof.
  intros env ms c chain kr Hk H. apply C16_accepted_iff in H.
  destruct H as (x & s & ik & d & X & S & Hh & N & P & D & V).
  destruct (keyring_sound env ms kr _ _ _ _ Hk V) as (k & sc & R & Vk & Id).
  destruct (C15_payload_decodes _ _ _ _ D) as (e & He & Dec).
  exists x, s, d, k, sc, e. split; [assumption|]. split; [assumption|]. split; [assumption|].
  split; [assumption|]. split; [assumption|]. split; [assumption|].
  unfold entry_of in He. destruct (sct_entry_type s) eqn:Et; [assumption| |contradiction].
  destruct He as (k0 & tbs & Ek & Et' & ->). destruct (P eq_refl) as (i & pk & b & Hi & Hp & Hc & _ & Eik).
  exists i, pk, tbs. split; [assumption|]. split; [assumption|]. split; [assumption|]. congruence.
Qed.

(** Everything that can be raised. *)
(** some field does not fit the fixed-size integers of the payload *)
Definition unpackable (s : SCT) (c : Cert) : Prop :=
  (255 < sct_version s)%N \/ (float_ms (sct_timestamp s) < 0)%Z \/ (2 ^ 64 <= float_ms (sct_timestamp s))%Z \/
  (2 ^ 16 <= Z.of_nat (length (sct_extensions s)))%Z \/
  (sct_entry_type s = X509_CERTIFICATE /\ 2 ^ 32 <= Z.of_nat (length (c_der c)))%Z \/
  (exists tbs, sct_entry_type s = PRE_CERTIFICATE /\ c_tbs_precert c = Ok tbs /\ (2 ^ 32 <= Z.of_nat (length tbs))%Z).

Theorem C16_exceptions : forall env ms c chain kr e,
  make_keyring env ms = Ok kr ->
  verify_sct env c chain kr = Raise e ->
  e = EVerification \/
  (e = EStruct /\ exists x s, c_exts c = Ok x /\ x_scts x = Some [s] /\ unpackable s c) \/ c_exts c = Raise e \/ c_tbs_precert c = Raise e \/
  (e = EIndex /\ (chain = nil \/ exists c0 x ekus, chain = [c0] /\ c_exts c0 = Ok x /\ x_eku x = Some ekus /\ In OID_CT ekus)) \/
  (exists i, In i chain /\ (c_exts i = Raise e \/ c_pubkey i = Raise e)) \/
  (exists k s sg d, registered env ms k s /\ e_sig_verify env s k sg d = Raise e /\ e <> EInvalidSignature).
Proof.
  intros env ms c chain kr e Hk H. unfold verify_sct in H.
  apply bind_raise_inv in H. destruct H as [H|(s & Hs & H)].
  { unfold get_sct in H. apply bind_raise_inv in H. destruct H as [H|(x & _ & H)]; [tauto|].
    destruct (x_scts x) as [[|? [|? ?]]|]; left; congruence. }
  apply bind_raise_inv in H. destruct H as [H|(ik & Hik & H)].
  { destruct (is_precert (sct_entry_type s)); [|discriminate].
    apply bind_raise_inv in H. destruct H as [H|(i & Hi & H)].
    { unfold get_issuer_cert in H. apply bind_raise_inv in H. destruct H as [H|(i & Hi & H)].
      - unfold index_list in H. destruct chain; simpl in H; [|discriminate].
        do 4 right; left. inversion H. auto.
      - unfold index_list in Hi. destruct chain as [|c0 chain]; simpl in Hi; [discriminate|]. inversion Hi; subst i.
        apply bind_raise_inv in H. destruct H as [H|(p & Hp & H)].
        + unfold is_preissuer in H. apply bind_raise_inv in H. destruct H as [H|(x & _ & H)].
          * do 5 right; left. exists c0. split; [left; reflexivity|]. auto.
          * destruct (x_eku x); discriminate.
        + destruct p; [|discriminate]. unfold index_list in H. destruct chain; simpl in H; [|discriminate].
          do 4 right; left. inversion H. split; [reflexivity|]. right.
          unfold is_preissuer in Hp. apply bind_ok_inv in Hp. destruct Hp as (x & Hx & Hp).
          destruct (x_eku x) as [ekus|] eqn:Ek; [|discriminate]. inversion Hp as [Hp']. apply oid_in_spec in Hp'. exists c0, x, ekus. auto. }
    assert (Hin : In i chain).
    { apply get_issuer_ok in Hi. destruct Hi as (c0 & rest & x & -> & _ & [[-> _]|(ekus & r & _ & _ & ->)]); simpl; auto. }
    apply bind_raise_inv in H. destruct H as [H|(pk & _ & H)]; [do 5 right; left; eauto|].
    apply bind_raise_inv in H. destruct H as [H|(b & _ & H)].
    { unfold sct_cert_is_ca, try_except in H. destruct (cert_is_ca i) as [?|x] eqn:CA; simpl in H; [discriminate|].
      destruct (is_verification_error x) eqn:VX; [discriminate|]. inversion H; subst x.
      do 5 right; left. exists i. split; [assumption|]. left.
      unfold cert_is_ca in CA. apply bind_raise_inv in CA. destruct CA as [CA|(u & _ & CA)].
      { apply raise_if_raise in CA. destruct CA as [_ ->]. discriminate. }
      apply bind_raise_inv in CA. destruct CA as [CA|(x & _ & CA)]; [assumption|].
      exfalso. destruct (x_bc x) as [[[|] ca]|]; simpl in CA; try discriminate.
      - destruct (x_ku x) as [[? kc]|]; [destruct ca, kc; simpl in CA|]; try discriminate; inversion CA; subst; discriminate.
      - inversion CA; subst; discriminate. }
    apply bind_raise_inv in H. destruct H as [H|(u & _ & H)]; [apply raise_if_raise in H; tauto|].
    apply bind_raise_inv in H. destruct H as [H|(u' & _ & H)]; [apply raise_if_raise in H; tauto|discriminate]. }
  apply bind_raise_inv in H. destruct H as [H|(d & _ & H)].
  { assert (PU : forall w z y, pack_uint w z = Raise y -> y = EStruct /\ ((z < 0)%Z \/ (256 ^ Z.of_nat w <= z)%Z)).
    { intros w z y. unfold pack_uint. destruct ((0 <=? z)%Z && (z <? 256 ^ Z.of_nat w)%Z) eqn:Q; [discriminate|].
      intros E. inversion E. split; [reflexivity|]. apply andb_false_iff in Q. rewrite Z.leb_gt, Z.ltb_ge in Q. lia. }
    assert (Sx : exists x, c_exts c = Ok x /\ x_scts x = Some [s]).
    { unfold get_sct in Hs. inv_bind Hs. exists a. destruct (x_scts a) as [[|? [|? ?]]|]; try discriminate. inversion Hs. auto. }
    destruct Sx as (x & Xc & Xs).
    assert (SU : unpackable s c -> e = EStruct -> e = EStruct /\ exists x s, c_exts c = Ok x /\ x_scts x = Some [s] /\ unpackable s c).
    { intros U E. split; [assumption|]. exists x, s. auto. }
    unfold pack_digitally_signed in H. apply bind_raise_inv in H. destruct H as [H|(se & Se & H)].
    - unfold pack_signed_entry in H. apply bind_raise_inv in H. destruct H as [H|([pre der] & Pd & H)].
      + destruct (sct_entry_type s); [discriminate| |left; congruence].
        destruct ik as [k|]; [|left; congruence].
        apply bind_raise_inv in H. destruct H as [H|(u & _ & H)]; [apply raise_if_raise in H; tauto|].
        apply bind_raise_inv in H. destruct H as [H|(t & _ & H)]; [tauto|discriminate].
      + apply bind_raise_inv in H. destruct H as [H|(l & _ & H)]; [|discriminate].
        unfold pack_u24 in H. apply bind_raise_inv in H. destruct H as [H|(l & Pl & H)].
        * apply PU in H. destruct H as [-> R]. right. left. apply SU; [|reflexivity].
          change (256 ^ Z.of_nat 4)%Z with (2 ^ 32)%Z in R. do 4 right.
          destruct (sct_entry_type s) eqn:Et.
          -- inversion Pd; subst. left. split; [reflexivity|]. lia.
          -- destruct ik as [k|]; [|discriminate]. inv_bind Pd. inv_bind Pd. inversion Pd; subst. right.
             exists der. split; [reflexivity|]. split; [assumption|]. lia.
          -- discriminate.
        * destruct l as [|l0 l]; [exfalso; unfold pack_uint in Pl; destruct (_ && _)%bool; [|discriminate]; inversion Pl|].
          apply bind_raise_inv in H. destruct H as [H|(u & _ & H)]; [apply raise_if_raise in H; tauto|discriminate].
    - right. left.
      apply bind_raise_inv in H; destruct H as [H|(? & _ & H)].
      { apply PU in H. destruct H as [-> R]. apply SU; [|reflexivity]. change (256 ^ Z.of_nat 1)%Z with 256%Z in R. left. lia. }
      apply bind_raise_inv in H; destruct H as [H|(? & _ & H)]; [discriminate|].
      apply bind_raise_inv in H; destruct H as [H|(? & _ & H)].
      { apply PU in H. destruct H as [-> R]. apply SU; [|reflexivity]. change (256 ^ Z.of_nat 8)%Z with (2 ^ 64)%Z in R.
        destruct R; [right; left|right; right; left]; assumption. }
      apply bind_raise_inv in H; destruct H as [H|(? & _ & H)].
      { exfalso. apply PU in H. destruct H as [_ R]. unfold pack_signed_entry in Se.
        destruct (sct_entry_type s); cbn in R; [lia|lia|discriminate]. }
      apply bind_raise_inv in H; destruct H as [H|(? & _ & H)]; [|discriminate].
      apply PU in H. destruct H as [-> R]. apply SU; [|reflexivity]. change (256 ^ Z.of_nat 2)%Z with (2 ^ 16)%Z in R.
      do 3 right. left. lia. }
  apply bind_raise_inv in H. destruct H as [H|(u & _ & H)]; [apply raise_if_raise in H; tauto|].
  unfold try_except in H. destruct (keyring_verify _ _ _ _ _) as [w|y] eqn:V; [discriminate|].
  destruct (is_verification_error y); inversion H; subst; [left; reflexivity|].
  destruct (keyring_exceptions env ms kr _ _ _ _ Hk V) as [->|(k & sc & A & B)]; [left; reflexivity|].
  do 6 right. eauto 8.
Qed.

(** ** C17.  A genuine SCT's timestamp is a whole number of milliseconds. *)
Theorem C17_timestamp_exact : forall ms, (2 ^ 40 <= ms < 1000 * 2 ^ 31)%Z ->
  float_ms (1000 * ms) = ms.
Proof. exact float_ms_exact. Qed.

Theorem C17_timestamp_error_at_most_one : forall ms, (0 <= ms < 2 ^ 48)%Z ->
  float_ms (1000 * ms) = ms \/ float_ms (1000 * ms) = (ms - 1)%Z.
Proof. exact float_ms_bound. Qed.

(** A time before 1970 does not become one after it, whatever the rounding: two milliseconds before
    the epoch, or more, the value is negative and no payload can be made (cf. [C16_exceptions]). *)
Theorem C17_before_1970 : forall ms, (1 < ms < 2 ^ 48)%Z ->
  (float_ms (- (1000 * ms)) < 0)%Z /\ (float_ms (- (1000 * ms)) = - ms \/ float_ms (- (1000 * ms)) = 1 - ms)%Z.
Proof.
  intros ms H. pose proof (C17_timestamp_error_at_most_one ms ltac:(lia)) as B. unfold float_ms in *.
  destruct (Z.eqb_spec (1000 * ms) 0); [lia|]. destruct (Z.ltb_spec (1000 * ms) 0); [lia|].
  destruct (Z.eqb_spec (- (1000 * ms)) 0); [lia|]. destruct (Z.ltb_spec (- (1000 * ms)) 0); [|lia].
  rewrite Z.opp_involutive. lia.
Qed.
Example ex_before_1970 : float_ms (- (1000 * 5000)) = (-5000)%Z.
Proof. vm_compute. reflexivity. Qed.

(** Outside the range the signed payload can be off by one, in 2038 and in 1970. *)
Theorem C17_always_exact_refuted :
  float_ms (1000 * 2154180296069) = 2154180296068%Z /\ float_ms (1000 * 1001) = 1000%Z.
Proof. vm_compute. split; reflexivity. Qed.

(** ** C19 and concrete cases *)

Definition sx_ct_key : bytes := [x02; x09; x09].
Definition sx_ms := [mkPKM (Some sx_ct_key) PKIX_ECDSA_P256_SHA_256].
Definition sx_ct_pub := mkPub (KEc P256) sx_ct_key.
Definition sx_issuer (bc : option (bool * bool)) : Cert :=
  mkCert [x30; x01] true (Ok (mkExt bc (Some (false, match bc with Some (_, true) => true | _ => false end)) None None None nil))
    (Ok (mkPub (KEc P384) [x03; x07])) (Ok [x31]) 0%Z 100%Z (Ok false).
Definition sx_ms_time : Z := 1700000000123%Z.
Definition sx_payload (issuer : Cert) : bytes :=
  be 1 0 ++ be 1 0 ++ be 8 1700000000123 ++ be 2 1 ++
  toy_hash [x03; x07] ++ be 3 2 ++ [x55; x66] ++ be 2 0.
Definition sx_sct (issuer : Cert) : SCT :=
  mkSCT 0 (toy_hash sx_ct_key) (1000 * sx_ms_time)%Z PRE_CERTIFICATE (Some SHA256)
    (toy_sign (ECDSA SHA256) sx_ct_pub (sx_payload issuer)) nil.
Definition sx_leaf (issuer : Cert) : Cert :=
  mkCert [x30; x02] true (Ok (mkExt None (Some (true, false)) (Some [OID_CODE_SIGNING]) None (Some [sx_sct issuer]) nil))
    (Ok (mkPub (KEc P256) [x02; x05])) (Ok [x55; x66]) 0%Z 100%Z (Ok false).
Definition sx_verify (issuer : Cert) : res unit :=
  let* kr := make_keyring (toy_env nil) sx_ms in
  verify_sct (toy_env nil) (sx_leaf issuer) [issuer] kr.

(** A precertificate SCT by a trusted CT key, issued by a CA, is accepted. *)
Example ex_sct_accepted : sx_verify (sx_issuer (Some (true, true))) = Ok tt.
Proof. vm_compute. reflexivity. Qed.

(** What is signed, for a precertificate and for a final certificate; each is one of the entries above. *)
Definition sx_ca : Cert := sx_issuer (Some (true, true)).
Definition sx_final : SCT := mkSCT 0 (toy_hash sx_ct_key) (1000 * sx_ms_time)%Z X509_CERTIFICATE (Some SHA256) [x01] [x0a; x0b].
Example ex_payloads :
  pack_digitally_signed (sx_sct sx_ca) (sx_leaf sx_ca) (Some (toy_hash [x03; x07])) = Ok (sx_payload sx_ca) /\
  entry_of (sx_sct sx_ca) (sx_leaf sx_ca) (Some (toy_hash [x03; x07])) (CT_precert (toy_hash [x03; x07]) [x55; x66]) /\
  pack_digitally_signed sx_final (sx_leaf sx_ca) None = Ok (be 1 0 ++ be 1 0 ++ be 8 1700000000123 ++ be 2 0 ++ be 3 2 ++ [x30; x02] ++ be 2 2 ++ [x0a; x0b]) /\
  entry_of sx_final (sx_leaf sx_ca) None (CT_x509 [x30; x02]).
Proof.
  split; [vm_compute; reflexivity|]. split; [|split; [vm_compute; reflexivity|reflexivity]].
  exists (toy_hash [x03; x07]), [x55; x66]. vm_compute. repeat split.
Qed.
(** times of today are in the range of C17 *)
Example ex_timestamp : (2 ^ 40 <= sx_ms_time < 1000 * 2 ^ 31)%Z /\ float_ms (1000 * sx_ms_time) = sx_ms_time.
Proof. split; [vm_compute; split; congruence|]. apply C17_timestamp_exact. vm_compute. split; congruence. Qed.
(** refused: no SCT, two SCTs, no issuer, a certificate of 2^24 bytes *)
Definition sx_with (l : option (list SCT)) : Cert :=
  mkCert [x30; x02] true (Ok (mkExt None (Some (true, false)) (Some [OID_CODE_SIGNING]) None l nil))
    (Ok (mkPub (KEc P256) [x02; x05])) (Ok [x55; x66]) 0%Z 100%Z (Ok false).
Definition sx_verify_with (l : option (list SCT)) (chain : list Cert) : res unit :=
  let* kr := make_keyring (toy_env nil) sx_ms in verify_sct (toy_env nil) (sx_with l) chain kr.
Example ex_sct_refused :
  sx_verify_with (Some [sx_sct sx_ca]) [sx_ca] = Ok tt /\
  sx_verify_with None [sx_ca] = Raise EVerification /\
  sx_verify_with (Some [sx_sct sx_ca; sx_sct sx_ca]) [sx_ca] = Raise EVerification /\
  sx_verify_with (Some [sx_final]) [sx_ca] = Raise EVerification.
Proof. vm_compute. repeat split. Qed.
Example ex_oversized : exists c, Z.of_nat (length (c_der c)) = (2 ^ 24)%Z /\ pack_digitally_signed sx_final c None = Raise EVerification.
Proof.
  assert (G : exists n, Z.of_nat n = (2 ^ 24)%Z) by (exists (Z.to_nat (2 ^ 24)); apply Z2Nat.id; lia). destruct G as (n & En).
  exists (mkCert (repeat x00 n) true (Raise EValue) (Raise EValue) (Raise EValue) 0%Z 100%Z (Ok false)).
  assert (L : Z.of_nat (length (repeat x00 n)) = (2 ^ 24)%Z) by (rewrite repeat_length; exact En). split; [exact L|].
  unfold pack_digitally_signed, pack_signed_entry. cbn [sct_entry_type sx_final bind c_der].
  destruct (pack_u24_large (Z.of_nat (length (repeat x00 n)))) as [P|[_ P]]; [lia|rewrite P; reflexivity|lia].
Qed.

(** C19, what holds: classification of the issuer did not raise (it may say "not a CA"). *)
Theorem C19_issuer_classified : forall env c chain kr x s,
  verify_sct env c chain kr = Ok tt -> c_exts c = Ok x -> x_scts x = Some [s] ->
  sct_entry_type s = PRE_CERTIFICATE ->
  exists issuer, ct_issuer chain issuer /\ (spec_ca issuer \/ spec_not_ca issuer).
Proof.
  intros env c chain kr x s H X S Et. apply C16_accepted_iff in H.
  destruct H as (x' & s' & ik & d & X' & S' & _ & _ & P & _). rewrite X in X'. inversion X'; subst x'.
  rewrite S in S'. inversion S'; subst s'. destruct (P Et) as (i & pk & b & Hi & _ & Hc & _).
  exists i. split; [assumption|]. destruct b; [left; apply C18_is_ca_iff|right; apply C18_not_ca_iff]; assumption.
Qed.

(** C19, the full expectation is false: an issuer that is classified as not a CA passes. *)
Theorem C19_issuer_must_be_ca_refuted :
  exists issuer, cert_is_ca issuer = Ok false /\ ct_issuer [issuer] issuer /\ sx_verify issuer = Ok tt.
Proof.
  exists (sx_issuer None). split; [reflexivity|]. split; [|vm_compute; reflexivity].
  apply get_issuer_ok. reflexivity.
Qed.

Print Assumptions C15_payload_decodes.
Print Assumptions C15_payload_unambiguous.
Print Assumptions C15_oversized_certificate_refused.
Print Assumptions C16_accepted_iff.
Print Assumptions C16_accepted_sct_is_signed.
Print Assumptions C16_exceptions.
Print Assumptions C17_timestamp_exact.
Print Assumptions C17_timestamp_error_at_most_one.
Print Assumptions C17_before_1970.
Print Assumptions C17_always_exact_refuted.
Print Assumptions C19_issuer_classified.
Print Assumptions C19_issuer_must_be_ca_refuted.
