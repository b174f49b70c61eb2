(** Property C110: the text of a log entry names the artifact, the signature and the certificate; and what is submitted
    is read back from it. *)
From Verif Require Import Base Codec CodecMore Messages Env Keyring Cert Dsse KeyDetails Policy TrustedRoot SigningConfig Hashing Json Http
  Oidc Oauth LogEntry Bundle Verifier RekorClient Clients Tuf PyText CliVerify Sign SignSteps VerifierSpec
  PropsDsse PropsPolicy PropsBundle PropsVerifier SignProofs PropsSign PropsRekorClient ToyHash ToyEnv ToyBundles ToySign.
From Verif Require Import JsonText PropsJsonText StatementJson PropsStatement BundleJson PropsBundleJson TrustJson PropsTrustJson EntryJson.

(** ** Specification *)

(** a value inside of a JSON value; each step names a member and its other spelling *)
Inductive found : json -> list (String.string * String.string) -> json -> Prop :=
| Found_here : forall j, found j nil j
| Found_in : forall o k k' j path x, given o k k' j -> found j path x -> found (JObj o) ((k, k') :: path) x.
Definition step (k : String.string) : String.string * String.string := (k, k).
Definition text_at (j : json) (path : list (String.string * String.string)) (s : str) : Prop := found j path (JStr s).
(** bytes in base64 *)
Definition bytes_at (j : json) (path : list (String.string * String.string)) (b : bytes) : Prop := exists s, text_at j path s /\ b64decode s = Ok b.

(** a text, as bytes, of a JSON value *)
Definition text_of (lib : EntryLib) (raw : bytes) (j : json) : Prop :=
  exists text, utf8_encode text = Some raw /\ json_text (bl_json (el_bundle lib)) j text.

(** the parts of a hashedrekord entry, versions 0.0.1 and 0.0.2 *)
Definition spec_ := step "spec".
Definition rekord_texts (j : json) (digest : bytes) (sg : bytes) (der : bytes) : Prop :=
  text_at j [spec_; step "data"; step "hash"; step "algorithm"] (s2l "sha256") /\
  text_at j [spec_; step "data"; step "hash"; step "value"] (hex digest) /\
  text_at j [spec_; step "signature"; step "content"] (b64encode sg) /\
  text_at j [spec_; step "signature"; ("publicKey", "public_key")%string; step "content"] (b64encode (ascii_bytes (pem_of_der der))).
Definition v2_step : String.string * String.string := ("hashedRekordV002", "hashed_rekord_v002")%string.
Definition v2_texts (j : json) (algorithm : str) (digest : bytes) (sg : bytes) (der : bytes) (details : str) : Prop :=
  text_at j [step "kind"] (s2l "hashedrekord") /\ text_at j [("apiVersion", "api_version")%string] (s2l "0.0.2") /\
  text_at j [spec_; v2_step; step "data"; step "algorithm"] algorithm /\
  bytes_at j [spec_; v2_step; step "data"; step "digest"] digest /\
  bytes_at j [spec_; v2_step; step "signature"; step "content"] sg /\
  bytes_at j [spec_; v2_step; step "signature"; step "verifier"; ("x509Certificate", "x509_certificate")%string; ("rawBytes", "raw_bytes")%string] der /\
  text_at j [spec_; v2_step; step "signature"; step "verifier"; ("keyDetails", "key_details")%string] details.
(** those of a dsse entry; it has one signature *)
Definition dsse_texts (j : json) (payload_hash : bytes) (sg : bytes) (der : bytes) : Prop :=
  text_at j [spec_; ("payloadHash", "payload_hash")%string; step "algorithm"] (s2l "sha256") /\
  text_at j [spec_; ("payloadHash", "payload_hash")%string; step "value"] (hex payload_hash) /\
  exists s, found j [spec_; step "signatures"] (JList [s]) /\
    text_at s [step "signature"] (b64encode sg) /\ text_at s [step "verifier"] (b64encode (ascii_bytes (pem_of_der der))).
(** what is posted to a log of version 2, and to one of version 1 for an envelope: its text *)
Definition v2_request_step : String.string * String.string := step "hashedRekordRequestV002".
Definition v2_request_texts (j : json) (digest : bytes) (sg : bytes) (der : bytes) (details : str) : Prop :=
  bytes_at j [v2_request_step; step "digest"] digest /\ bytes_at j [v2_request_step; step "signature"; step "content"] sg /\
  bytes_at j [v2_request_step; step "signature"; step "verifier"; step "x509Certificate"; step "rawBytes"] der /\
  text_at j [v2_request_step; step "signature"; step "verifier"; step "keyDetails"] details.
Definition dsse_request_texts (lib : BundleLib) (j : json) (m : EnvelopeMsg) (der : bytes) : Prop :=
  text_at j [step "kind"] (s2l "dsse") /\ text_at j [step "apiVersion"] (s2l "0.0.1") /\
  found j [spec_; step "proposedContent"; step "verifiers"] (JList [JStr (b64encode (ascii_bytes (pem_of_der der)))]) /\
  exists text jm, text_at j [spec_; step "proposedContent"; step "envelope"] text /\ json_text (bl_json lib) jm text /\ envelope_of lib jm m.
(** a kind or version that may be left out *)
Definition text_or_none (j : json) (k k' : String.string) (s : str) : Prop :=
  text_at j [(k, k')] s \/ exists o, j = JObj o /\ ~ In (s2l k) (map fst o) /\ ~ In (s2l k') (map fst o).

(** *** The entries that are read *)

Definition by_default (o : list (str * json)) (k k' : String.string) (d s : str) : Prop :=
  has in_text o k k' s \/ ~ In (s2l k) (map fst o) /\ ~ In (s2l k') (map fst o) /\ s = d.
Definition hash_name (a : hash_alg) : option str :=
  match a with SHA256 => Some (s2l "sha256") | SHA384 => Some (s2l "sha384") | SHA512 => Some (s2l "sha512") end.
Definition rekord_hash_of (j : json) (av : hash_alg * str) : Prop := exists o, j = JObj o /\
  has (by_name hash_name) o "algorithm" "algorithm" (fst av) /\ has in_text o "value" "value" (snd av).
Definition rekord_data_of (j : json) (h : option (hash_alg * str)) : Prop := exists o, j = JObj o /\ may_have rekord_hash_of o "hash" "hash" h.
Definition rekord_key_of (j : json) (k : option str) : Prop := exists o, j = JObj o /\ may_have in_text o "content" "content" k.
Definition rekord_signature_of (j : json) (sk : option str * option str) : Prop := exists o k, j = JObj o /\
  may_have in_text o "content" "content" (fst sk) /\ may_have rekord_key_of o "publicKey" "public_key" k /\
  snd sk = match k with Some k => k | None => None end.
Definition rekord_spec_of (j : json) (x : option str * option str * option (hash_alg * str)) : Prop := exists o, j = JObj o /\
  has rekord_signature_of o "signature" "signature" (fst x) /\ has rekord_data_of o "data" "data" (snd x).
Definition dsse_signature_of (j : json) (sv : str * str) : Prop := exists o, j = JObj o /\
  has in_text o "signature" "signature" (fst sv) /\ has in_text o "verifier" "verifier" (snd sv).
Definition list_of {A} (P : json -> A -> Prop) (j : json) (l : list A) : Prop := exists js, j = JList js /\ Forall2 P js l.

Section Entries.
Variable lib : EntryLib.
Definition rekord_of (j : json) (h : Hashedrekord1) : Prop := exists o, j = JObj o /\
  by_default o "kind" "kind" (s2l "hashedrekord") (s2l "hashedrekord") /\
  by_default o "apiVersion" "api_version" (s2l "0.0.1") (h1_api_version h) /\
  has rekord_spec_of o "spec" "spec" (h1_sig h, h1_pk h, h1_hash h) /\ el_rest lib "hashedrekord" o = Some (h1_rest h).
Definition dsse_algorithm_of (j : json) (is_sha256 : bool) : Prop := exists s, j = JStr s /\
  if is_sha256 then s = s2l "sha256" else s <> s2l "sha256" /\ In s (el_hashes lib).
Definition dsse_hash_of (j : json) (av : bool * str) : Prop := exists o, j = JObj o /\
  has dsse_algorithm_of o "algorithm" "algorithm" (fst av) /\ has in_text o "value" "value" (snd av).
Definition dsse_spec_of (j : json) (d : Dsse1) : Prop := exists o, j = JObj o /\
  may_have dsse_hash_of o "payloadHash" "payload_hash" (d1_payload_hash d) /\
  may_have (list_of dsse_signature_of) o "signatures" "signatures" (d1_signatures d).
Definition dsse_of (j : json) (vd : str * Dsse1) : Prop := exists o, j = JObj o /\
  by_default o "kind" "kind" (s2l "dsse") (s2l "dsse") /\ by_default o "apiVersion" "api_version" (s2l "0.0.1") (fst vd) /\
  has dsse_spec_of o "spec" "spec" (snd vd) /\ exists n, el_rest lib "dsse" o = Some n.
(** a choice; [None] if no alternative or both are given *)
Inductive chosen {A B C} (x : option A) (y : option B) (f : A -> C) (g : B -> C) (n : C) : C -> Prop :=
| Ch_left : forall a, x = Some a -> y = None -> chosen x y f g n (f a)
| Ch_right : forall b, x = None -> y = Some b -> chosen x y f g n (g b)
| Ch_none : el_choice lib = true -> (x = None <-> y = None) -> chosen x y f g n n.
Definition verifier_of (j : json) (v : option V2Verifier) : Prop := exists o c k d, j = JObj o /\
  may_have certificate_of o "x509Certificate" "x509_certificate" c /\
  may_have (wrapped in_base64 "rawBytes" "raw_bytes") o "publicKey" "public_key" k /\
  has (by_name details_name) o "keyDetails" "key_details" d /\
  chosen c k (fun der => Some (V2_x509 der d)) (fun raw => Some (V2_public_key raw d)) None v.
Definition v2_signature_of (j : json) (sv : bytes * option V2Verifier) : Prop := exists o, j = JObj o /\
  has in_base64 o "content" "content" (fst sv) /\ has verifier_of o "verifier" "verifier" (snd sv).
Definition v2_rekord_of (j : json) (x : hash_algorithm * bytes * (bytes * option V2Verifier)) : Prop := exists o, j = JObj o /\
  has digest_of o "data" "data" (fst x) /\ has v2_signature_of o "signature" "signature" (snd x).
Definition v2_value (x : hash_algorithm * bytes * (bytes * option V2Verifier)) : V2Spec :=
  match x with (a, digest, (s, Some v)) => V2_hashedrekord a digest s v | _ => V2_other 0 end.
Definition v2_spec_of (j : json) (s : V2Spec) : Prop := exists o r d, j = JObj o /\
  may_have v2_rekord_of o "hashedRekordV002" "hashed_rekord_v002" r /\ may_have (fun j x => j = x) o "dsseV002" "dsse_v002" d /\
  chosen r d v2_value (fun _ => V2_other 1) (V2_other 2) s.
Definition v2_of (j : json) (e : V2Entry) : Prop := exists o, j = JObj o /\
  has in_text o "kind" "kind" (v2_kind e) /\ has in_text o "apiVersion" "api_version" (v2_api_version e) /\
  has v2_spec_of o "spec" "spec" (v2_spec e) /\ exists n, el_rest lib "v2" o = Some n.
End Entries.

(** *** Logs *)

(** the entry is a text of what was submitted *)
Definition recorded (env : Env) (lib : EntryLib) (req : EntryRequest) (e : LogEntry) : Prop :=
  exists j, text_of lib (le_body e) j /\
  match req with
  | Req_h1 h => le_kind e = s2l "hashedrekord" /\ le_version e = s2l "0.0.1" /\ rekord_of lib j h
  | Req_d1 m vs => le_kind e = s2l "dsse" /\ le_version e = s2l "0.0.1" /\
      exists v, dsse_of lib j (v, mkD1 (Some (true, hex (e_hash env SHA256 (em_payload m)))) (Some (combine (map b64encode (em_sigs m)) vs)))
  | Req_v2 digest sg v => le_kind e = s2l "hashedrekord" /\ le_version e = s2l "0.0.2" /\ le_promise e = None /\
      forall der d, v = V2_x509 der d -> exists alg hsh, get_prehash d = Ok (alg, hsh) /\
        v2_of lib j (mkV2 (s2l "hashedrekord") (s2l "0.0.2") (V2_hashedrekord alg digest sg v))
  end.
(** as [honest_log] of PropsSign.v, but in terms of the texts of the entries *)
Definition honest_text_log (libs : SignLibs) (out : Outside) (ctx : ContextParts) (lib : EntryLib) (now : time) (v : Verifier) (valid : time -> Prop) : Prop :=
  exists rk, rekor_keyring (l_env libs) now (vf_root v) VERIFY = Ok rk /\
  forall h req e, log_answer libs out ctx h req = Ok e ->
    recorded (l_env libs) lib req e /\ entry_verify (l_env libs) rk e = Ok tt /\
    forall set, le_promise e = Some set -> exists t, le_integrated_time e = Some t /\ t <> 0%Z /\
      (-62135596800 <= t <= 253402300799)%Z /\ valid (t * 1000000)%Z.

(** ** Proofs: which texts are read *)

Section Proofs.
Variable lib : EntryLib.

Lemma default_iff : forall o, dicts (JObj o) -> forall k k' d s, defaulted text_value k k' d o = Some s <-> by_default o k k' d s.
Proof.
  intros o D k k' d s. unfold defaulted, by_default. pose proof (required_iff _ _ o D txt_iff k k' s) as R. unfold required in R.
  pose proof (missing_iff o k k') as M. destruct (by_alias_or_name (s2l k) (s2l k') o) as [j|] eqn:E.
  - rewrite R. split; [auto|]. intros [H|(N1 & N2 & _)]; [exact H|]. pose proof (proj2 M (conj N1 N2)); discriminate.
  - destruct (proj1 M eq_refl) as [N1 N2]. split; [intros [= <-]; right; auto|]. intros [H|(_ & _ & ->)]; [apply R in H; discriminate|reflexivity].
Qed.
Lemma exactly_iff : forall o, dicts (JObj o) -> forall k k' d, (exists u, defaulted (exactly d) k k' tt o = Some u) <-> by_default o k k' (s2l d) (s2l d).
Proof.
  intros o D k k' d. rewrite <- (default_iff o D). unfold defaulted. destruct (by_alias_or_name (s2l k) (s2l k') o) as [j|].
  - unfold exactly, text_value. destruct j; try (split; [intros [u H]; discriminate|discriminate]). destruct (str_eqb s (s2l d)) eqn:E.
    + apply str_eqb_spec in E. subst s. split; [reflexivity|]. intros _. eexists. reflexivity.
    + split; [intros [u H]; discriminate|]. intros [= ->]. rewrite str_eqb_refl in E. discriminate.
  - split; [reflexivity|]. intros _. eexists. reflexivity.
Qed.
Lemma hashes_iff : forall j, dicts j -> forall a, named REKORD_HASHES j = Some a <-> by_name hash_name j a.
Proof.
  apply name_iff; [apply distinct_nodup; vm_compute; reflexivity|]. intros s a. split.
  - intros H. assert (A : Forall (fun p => hash_name (snd p) = Some (fst p)) REKORD_HASHES) by (unfold REKORD_HASHES; repeat constructor).
    rewrite Forall_forall in A. exact (A _ H).
  - destruct a; intros [= <-]; apply assoc_in; vm_compute; reflexivity.
Qed.
Lemma rekord_hash_iff : forall j, dicts j -> forall av, read_rekord_hash j = Some av <-> rekord_hash_of j av.
Proof.
  apply object_iff. intros o D av. rewrite <- (required_iff _ _ o D hashes_iff), <- (required_iff _ _ o D txt_iff). split.
  - do 2 member_some. intros [= <-]. auto.
  - intros (-> & ->). destruct av; reflexivity.
Qed.
Lemma rekord_data_iff : forall j, dicts j -> forall h, read_rekord_data j = Some h <-> rekord_data_of j h.
Proof. apply object_iff. intros o D h. apply (optional_iff _ _ o D rekord_hash_iff). Qed.
Lemma rekord_key_iff : forall j, dicts j -> forall k, read_rekord_key j = Some k <-> rekord_key_of j k.
Proof. apply object_iff. intros o D h. apply (optional_iff _ _ o D txt_iff). Qed.
Lemma rekord_signature_iff : forall j, dicts j -> forall sk, read_rekord_signature j = Some sk <-> rekord_signature_of j sk.
Proof.
  intros j Dj sk. unfold read_rekord_signature. rewrite (object_iff _ _ (fun o sk => exists k, may_have in_text o "content" "content" (fst sk) /\
    may_have rekord_key_of o "publicKey" "public_key" k /\ snd sk = match k with Some k => k | None => None end)).
  - unfold rekord_signature_of. split; [intros (o & E & k & H); exists o, k; auto|intros (o & k & E & H); exists o; split; [exact E|exists k; exact H]].
  - clear. intros o D sk. setoid_rewrite <- (optional_iff _ _ o D txt_iff). setoid_rewrite <- (optional_iff _ _ o D rekord_key_iff). split.
    + do 2 member_some. intros [= <-]. eexists. split; [reflexivity|]. split; reflexivity.
    + intros (k & -> & -> & E). destruct sk as [s k']. cbn [fst snd] in *. rewrite <- E. reflexivity.
  - exact Dj.
Qed.
Lemma rekord_spec_iff : forall j, dicts j -> forall x, read_rekord_spec j = Some x <-> rekord_spec_of j x.
Proof.
  apply object_iff. intros o D x. rewrite <- (required_iff _ _ o D rekord_signature_iff), <- (required_iff _ _ o D rekord_data_iff). split.
  - do 2 member_some. intros [= <-]. auto.
  - intros (-> & ->). destruct x; reflexivity.
Qed.
Lemma rekord_iff : forall j, dicts j -> forall h, read_rekord lib j = Some h <-> rekord_of lib j h.
Proof.
  apply object_iff. intros o D h. rewrite <- (exactly_iff o D), <- (default_iff o D), <- (required_iff _ _ o D rekord_spec_iff). unfold read_version. split.
  - do 2 member_some. destruct (required read_rekord_spec "spec" "spec" o) as [[[sg k] x]|] eqn:E1; [|discriminate]. member_some. intros [= <-]. eauto.
  - intros ((u & ->) & -> & -> & ->). destruct h; reflexivity.
Qed.
Lemma dsse_algorithm_iff : forall j, dicts j -> forall b, read_dsse_algorithm lib j = Some b <-> dsse_algorithm_of lib j b.
Proof.
  intros j _ b. unfold dsse_algorithm_of. split.
  - destruct j; try discriminate. cbn [read_dsse_algorithm]. destruct (str_eqb s (s2l "sha256")) eqn:E.
    + intros [= <-]. exists s. split; [reflexivity|]. apply str_eqb_spec, E.
    + destruct (existsb (str_eqb s) (el_hashes lib)) eqn:X; [|discriminate]. intros [= <-]. exists s. split; [reflexivity|].
      split; [intros ->; rewrite str_eqb_refl in E; discriminate|]. apply existsb_exists in X. destruct X as (y & I & Q). apply str_eqb_spec in Q. subst y. exact I.
  - intros (s & -> & H). cbn [read_dsse_algorithm]. destruct b.
    + subst s. rewrite str_eqb_refl. reflexivity.
    + destruct H as [N I]. destruct (str_eqb s (s2l "sha256")) eqn:E; [apply str_eqb_spec in E; contradiction|].
      assert (X : existsb (str_eqb s) (el_hashes lib) = true) by (apply existsb_exists; exists s; split; [exact I|apply str_eqb_refl]). rewrite X. reflexivity.
Qed.
Lemma dsse_hash_iff : forall j, dicts j -> forall av, read_dsse_hash lib j = Some av <-> dsse_hash_of lib j av.
Proof.
  apply object_iff. intros o D av. rewrite <- (required_iff _ _ o D dsse_algorithm_iff), <- (required_iff _ _ o D txt_iff). split.
  - do 2 member_some. intros [= <-]. auto.
  - intros (-> & ->). destruct av; reflexivity.
Qed.
Lemma dsse_signature_iff : forall j, dicts j -> forall sv, read_dsse_signature j = Some sv <-> dsse_signature_of j sv.
Proof.
  apply object_iff. intros o D sv. rewrite <- !(required_iff _ _ o D txt_iff). split.
  - do 2 member_some. intros [= <-]. auto.
  - intros (-> & ->). destruct sv; reflexivity.
Qed.
Lemma list_value_iff : forall A (d : json -> option A) P, (forall j, dicts j -> forall x, d j = Some x <-> P j x) ->
  forall j, dicts j -> forall l, list_value d j = Some l <-> list_of P j l.
Proof.
  intros A d P H j D l. unfold list_of. destruct j as [| | | | | |js|]; try (split; [discriminate|intros (x & E & _); discriminate]). cbn [list_value].
  assert (F : Forall dicts js) by (inversion D; assumption). rewrite (all_of_iff _ _ H js F). split; [eauto|]. intros (x & [= <-] & X). exact X.
Qed.
Lemma dsse_spec_iff : forall j, dicts j -> forall d, read_dsse_spec lib j = Some d <-> dsse_spec_of lib j d.
Proof.
  apply object_iff. intros o D d. rewrite <- (optional_iff _ _ o D dsse_hash_iff), <- (optional_iff _ _ o D (list_value_iff _ _ _ dsse_signature_iff)). split.
  - do 2 member_some. intros [= <-]. auto.
  - intros (-> & ->). destruct d; reflexivity.
Qed.
Lemma dsse_iff : forall j, dicts j -> forall vd, read_dsse_entry lib j = Some vd <-> dsse_of lib j vd.
Proof.
  apply object_iff. intros o D vd. rewrite <- (exactly_iff o D), <- (default_iff o D), <- (required_iff _ _ o D dsse_spec_iff). unfold read_version. split.
  - do 4 member_some. intros [= <-]. eauto 6.
  - intros ((u & ->) & -> & -> & n & ->). destruct vd; reflexivity.
Qed.
Lemma choose_iff : forall A B C (x : option A) (y : option B) (f : A -> C) (g : B -> C) n c,
  match choose lib x y with Some (Left a) => Some (f a) | Some (Right b) => Some (g b) | Some Neither_or_both => Some n | None => None end = Some c <->
  chosen lib x y f g n c.
Proof.
  intros A B C x y f g n c. unfold choose. destruct x as [a|], y as [b|].
  - split; [destruct (el_choice lib) eqn:E; [|discriminate]; intros [= <-]; apply Ch_none; [exact E|split; discriminate]|].
    intros H. destruct H as [a' [= <-] N|b' N _|H _]; try discriminate. rewrite H. reflexivity.
  - split; [intros [= <-]; apply Ch_left; reflexivity|]. intros H. destruct H as [a' [= <-] _|b' N _|H [_ N]]; try discriminate; [reflexivity|].
    discriminate (N eq_refl).
  - split; [intros [= <-]; apply Ch_right; reflexivity|]. intros H. destruct H as [a' N _|b' _ [= <-]|H [N _]]; try discriminate; [reflexivity|].
    discriminate (N eq_refl).
  - split; [destruct (el_choice lib) eqn:E; [|discriminate]; intros [= <-]; apply Ch_none; [exact E|split; reflexivity]|].
    intros H. destruct H as [a' N _|b' _ N|H _]; try discriminate. rewrite H. reflexivity.
Qed.
Lemma verifier_iff : forall j, dicts j -> forall v, read_verifier lib j = Some v <-> verifier_of lib j v.
Proof.
  intros j Dj v. unfold read_verifier. rewrite (object_iff _ _ (fun o v => exists c k d,
    may_have certificate_of o "x509Certificate" "x509_certificate" c /\
    may_have (wrapped in_base64 "rawBytes" "raw_bytes") o "publicKey" "public_key" k /\
    has (by_name details_name) o "keyDetails" "key_details" d /\
    chosen lib c k (fun der => Some (V2_x509 der d)) (fun raw => Some (V2_public_key raw d)) None v)); [|clear j Dj v|exact Dj].
  - unfold verifier_of. split; [intros (o & E & c & k & d & H); exists o, c, k, d; auto|].
    intros (o & c & k & d & E & H); exists o; split; [exact E|exists c, k, d; exact H].
  - intros o D v. setoid_rewrite <- choose_iff. split.
    + destruct (optional read_certificate _ _ o) as [c|] eqn:Ec; [|discriminate]. destruct (optional (one_bytes _ _) _ _ o) as [k|] eqn:Ek; [|discriminate].
      destruct (required (named DETAILS) _ _ o) as [d|] eqn:Ed; [|discriminate]. intros H. exists c, k, d.
      split; [apply (optional_iff _ _ o D certificate_iff), Ec|]. split; [apply (optional_iff _ _ o D (one_bytes_iff _ _)), Ek|].
      split; [apply (required_iff _ _ o D details_iff), Ed|exact H].
    + intros (c & k & d & Ec & Ek & Ed & H). apply (optional_iff _ _ o D certificate_iff) in Ec. apply (optional_iff _ _ o D (one_bytes_iff _ _)) in Ek.
      apply (required_iff _ _ o D details_iff) in Ed. rewrite Ec, Ek, Ed. exact H.
Qed.
Lemma v2_signature_iff : forall j, dicts j -> forall sv, read_v2_signature lib j = Some sv <-> v2_signature_of lib j sv.
Proof.
  apply object_iff. intros o D sv. rewrite <- (required_iff _ _ o D b64_iff), <- (required_iff _ _ o D verifier_iff). split.
  - do 2 member_some. intros [= <-]. auto.
  - intros (-> & ->). destruct sv; reflexivity.
Qed.
Lemma v2_rekord_iff : forall j, dicts j -> forall x, read_v2_rekord lib j = Some x <-> v2_rekord_of lib j x.
Proof.
  apply object_iff. intros o D sv. rewrite <- (required_iff _ _ o D digest_iff), <- (required_iff _ _ o D v2_signature_iff). split.
  - do 2 member_some. intros [= <-]. auto.
  - intros (-> & ->). destruct sv; reflexivity.
Qed.
Lemma any_iff : forall j, dicts j -> forall x, Some j = Some x <-> j = x.
Proof. intros j _ x. split; [intros [= ->]; reflexivity|intros ->; reflexivity]. Qed.
Lemma v2_spec_iff : forall j, dicts j -> forall s, read_v2_spec lib j = Some s <-> v2_spec_of lib j s.
Proof.
  intros j Dj s. unfold read_v2_spec. rewrite (object_iff _ _ (fun o s => exists r d,
    may_have (v2_rekord_of lib) o "hashedRekordV002" "hashed_rekord_v002" r /\ may_have (fun j x => j = x) o "dsseV002" "dsse_v002" d /\
    chosen lib r d v2_value (fun _ => V2_other 1) (V2_other 2) s)); [|clear j Dj s|exact Dj].
  - unfold v2_spec_of. split; [intros (o & E & r & d & H); exists o, r, d; auto|].
    intros (o & r & d & E & H); exists o; split; [exact E|exists r, d; exact H].
  - intros o D s. setoid_rewrite <- (optional_iff _ _ o D v2_rekord_iff). setoid_rewrite <- (optional_iff _ _ o D any_iff).
    setoid_rewrite <- choose_iff. split.
    + destruct (optional (read_v2_rekord lib) _ _ o) as [r|]; [|discriminate]. destruct (optional _ _ _ o) as [d|]; [|discriminate].
      intros H. exists r, d. split; [reflexivity|]. split; [reflexivity|].
      destruct (choose lib r d) as [[[[a dg] [sg [v|]]]|b|]|]; exact H.
    + intros (r & d & -> & -> & H). destruct (choose lib r d) as [[[[a dg] [sg [v|]]]|b|]|]; exact H.
Qed.
Lemma v2_iff : forall j, dicts j -> forall e, read_v2_entry lib j = Some e <-> v2_of lib j e.
Proof.
  apply object_iff. intros o D e. rewrite <- !(required_iff _ _ o D txt_iff), <- (required_iff _ _ o D v2_spec_iff). split.
  - do 4 member_some. intros [= <-]. eauto 6.
  - intros (-> & -> & -> & n & ->). destruct e; reflexivity.
Qed.
End Proofs.

Lemma validated_entry : forall lib A (rd : json -> option A) (P : json -> A -> Prop), (forall j, dicts j -> forall x, rd j = Some x <-> P j x) ->
  forall raw x, validated (and_then (read_bytes (bl_json (el_bundle lib)) raw) rd) = Ok x <-> exists j, text_of lib raw j /\ P j x.
Proof.
  intros lib A rd P H raw x. unfold read_bytes, text_of, validated, and_then. split.
  - destruct (utf8_decode raw) as [text|] eqn:U; [|discriminate]. destruct (read (bl_json (el_bundle lib)) text) as [j|] eqn:R; [|discriminate].
    destruct (rd j) as [y|] eqn:B; [|discriminate]. intros [= ->]. apply read_iff in R. exists j.
    split; [exists text; split; [apply utf8_encode_decode, U|exact R]|]. apply H; [eapply json_dicts; exact R|exact B].
  - intros (j & (text & U & R) & C). apply utf8_decode_encode in U. rewrite U. pose proof R as R'. apply read_iff in R'. rewrite R'.
    apply H in C; [|eapply json_dicts; exact R]. rewrite C. reflexivity.
Qed.
(** the bytes are a text of one value *)
Lemma text_of_unique : forall lib raw j j', text_of lib raw j -> text_of lib raw j' -> j = j'.
Proof.
  intros lib raw j j' (t & U & R) (t' & U' & R'). apply utf8_decode_encode in U, U'. assert (t = t') by congruence. subst t'.
  apply read_iff in R, R'. congruence.
Qed.
Lemma text_dicts : forall lib raw j, text_of lib raw j -> dicts j.
Proof. intros lib raw j (t & _ & R). eapply json_dicts; exact R. Qed.

(** *** Theorems *)

Theorem C110_rekord_accepts : forall lib raw h, p_hashedrekord (entry_parsers lib) raw = Ok h <-> exists j, text_of lib raw j /\ rekord_of lib j h.
Proof. intros lib. apply validated_entry, rekord_iff. Qed.
Theorem C110_dsse_accepts : forall lib raw d, p_dsse (entry_parsers lib) raw = Ok d <-> exists j v, text_of lib raw j /\ dsse_of lib j (v, d).
Proof.
  intros lib raw d. cbn [entry_parsers p_dsse]. pose proof (validated_entry lib _ _ _ (dsse_iff lib) raw) as V.
  destruct (validated (and_then (read_bytes (bl_json (el_bundle lib)) raw) (read_dsse_entry lib))) as [[v d']|e].
  - split.
    + intros [= <-]. destruct (proj1 (V (v, d')) eq_refl) as (j & T & X). exists j, v. auto.
    + intros (j & v' & T & X). assert (E : @Ok _ (v, d') = Ok (v', d)) by (apply V; exists j; auto). injection E as _ ->. reflexivity.
  - split; [discriminate|]. intros (j & v & T & X). assert (E : @Raise (str * Dsse1) e = Ok (v, d)) by (apply V; exists j; auto). discriminate.
Qed.
Theorem C110_v2_accepts : forall lib raw e, p_v2 (entry_parsers lib) raw = Ok e <-> exists j, text_of lib raw j /\ v2_of lib j e.
Proof. intros lib. apply validated_entry, v2_iff. Qed.

(** what the entries name *)
Lemma has_text : forall o k k' s j path x, given o k k' j -> found j path x -> s = (k, k') -> found (JObj o) (s :: path) x.
Proof. intros o k k' s j path x G F ->. eapply Found_in; eassumption. Qed.
Lemma may_some : forall A (P : json -> A -> Prop) o k k' x, may_have P o k k' (Some x) -> exists j, given o k k' j /\ P j x.
Proof. intros A P o k k' x H. inversion H; subst. eauto. Qed.
Lemma rekord_names : forall lib j v s k a x n, rekord_of lib j (mkH1 v (Some s) (Some k) (Some (a, x)) n) ->
  (exists an, hash_name a = Some an /\ text_at j [spec_; step "data"; step "hash"; step "algorithm"] an) /\
  text_at j [spec_; step "data"; step "hash"; step "value"] x /\ text_at j [spec_; step "signature"; step "content"] s /\
  text_at j [spec_; step "signature"; ("publicKey", "public_key")%string; step "content"] k.
Proof.
  intros lib j v s k a x n (o & -> & _ & _ & (js & Gs & (os & -> & (jg & Gg & (og & kk & -> & Hs & Hk & Ek)) & (jd & Gd & (od & -> & Hh)))) & _).
  cbn [fst snd h1_sig h1_pk h1_hash] in *. apply may_some in Hs, Hh. destruct Hs as (jc & Gc & ->), Hh as (jh & Gh & (oh & -> & (ja & Ga & (an & -> & En)) & (jv & Gv & ->))).
  cbn [fst snd] in *. destruct kk as [kk|]; [|discriminate]. subst kk. apply may_some in Hk. destruct Hk as (jk & Gk & (ok & -> & Hc)). apply may_some in Hc. destruct Hc as (jp & Gp & ->).
  unfold text_at, spec_, step. split; [exists an; split; [exact En|]|]; repeat split; repeat (eapply Found_in; [eassumption|]); apply Found_here.
Qed.
Lemma by_default_text : forall o k k' d s, by_default o k k' d s -> text_or_none (JObj o) k k' s.
Proof. intros o k k' d s [(j & G & ->)|(N1 & N2 & _)]; [left; eapply Found_in; [exact G|apply Found_here]|right; eauto]. Qed.
Lemma rekord_header : forall lib j h, rekord_of lib j h -> text_or_none j "kind" "kind" (s2l "hashedrekord") /\ text_or_none j "apiVersion" "api_version" (h1_api_version h).
Proof. intros lib j h (o & -> & K & V & _). split; eapply by_default_text; eassumption. Qed.
Lemma dsse_header : forall lib j v d, dsse_of lib j (v, d) -> text_or_none j "kind" "kind" (s2l "dsse") /\ text_or_none j "apiVersion" "api_version" v.
Proof. intros lib j v d (o & -> & K & V & _). split; eapply by_default_text; eassumption. Qed.
Lemma v2_names : forall lib j k v a digest s der d, v2_of lib j (mkV2 k v (V2_hashedrekord a digest s (V2_x509 der d))) ->
  exists an details, algorithm_name a = Some an /\ details_name d = Some details /\
  text_at j [step "kind"] k /\ text_at j [("apiVersion", "api_version")%string] v /\
  text_at j [spec_; v2_step; step "data"; step "algorithm"] an /\
  bytes_at j [spec_; v2_step; step "data"; step "digest"] digest /\
  bytes_at j [spec_; v2_step; step "signature"; step "content"] s /\
  bytes_at j [spec_; v2_step; step "signature"; step "verifier"; ("x509Certificate", "x509_certificate")%string; ("rawBytes", "raw_bytes")%string] der /\
  text_at j [spec_; v2_step; step "signature"; step "verifier"; ("keyDetails", "key_details")%string] details.
Proof.
  intros lib j k v a digest s der d (o & -> & (jk & Gk & ->) & (jv & Gv & ->) & (js & Gs & (os & r & dd & -> & Hr & _ & C)) & _).
  cbn [v2_kind v2_api_version v2_spec] in *. inversion C as [x Ex Ey Ec|x Ex Ey Ec|Ex Ey Ec]; subst; try discriminate; clear C.
  destruct x as [[a' dg'] [s' [v'|]]]; cbn [v2_value] in Ec; [|discriminate]. injection Ec as -> -> -> ->.
  apply may_some in Hr. destruct Hr as (jr & Gr & (orr & -> & (jd & Gd & (od & -> & (ja & Ga & (an & -> & En)) & (jx & Gx & (bx & -> & Bx))))
    & (jg & Gg & (og & -> & (jc & Gc & (bc & -> & Bc)) & (jw & Gw & (ow & c & kk & dt & -> & Hc & _ & (jt & Gt & (details & -> & Dn)) & Cv)))))).
  cbn [fst snd] in *. inversion Cv as [x Ex Ey Ec|x Ex Ey Ec|Ex Ey Ec]; subst; try discriminate; clear Cv; try (injection Ec as -> ->).
  apply may_some in Hc. destruct Hc as (jz & Gz & (oz & -> & (jy & Gy & (by_ & -> & By)))).
  exists an, details. split; [exact En|]. split; [exact Dn|]. unfold bytes_at, text_at, spec_, v2_step, step.
  repeat split; try (eexists; split; [|eassumption]); repeat (eapply Found_in; [eassumption|]); apply Found_here.
Qed.
Lemma dsse_names : forall lib j v x s k, dsse_of lib j (v, mkD1 (Some (true, x)) (Some [(s, k)])) ->
  text_at j [spec_; ("payloadHash", "payload_hash")%string; step "algorithm"] (s2l "sha256") /\
  text_at j [spec_; ("payloadHash", "payload_hash")%string; step "value"] x /\
  exists e, found j [spec_; step "signatures"] (JList [e]) /\ text_at e [step "signature"] s /\ text_at e [step "verifier"] k.
Proof.
  intros lib j v x s k (o & -> & _ & _ & (js & Gs & (os & -> & Hh & Hs)) & _). cbn [fst snd d1_payload_hash d1_signatures] in *. apply may_some in Hh, Hs.
  destruct Hh as (jh & Gh & (oh & -> & (ja & Ga & (an & -> & En)) & (jv & Gv & ->))), Hs as (jl & Gl & (jl' & -> & F)). cbn [fst snd] in *. subst an.
  inversion F as [|e ? es ? He Hes]; subst. inversion Hes; subst. destruct He as (oe & -> & (j1 & G1 & ->) & (j2 & G2 & ->)). cbn [fst snd] in *.
  unfold text_at, spec_, step. repeat split; [| |exists (JObj oe); repeat split]; repeat (eapply Found_in; [eassumption|]); apply Found_here.
Qed.

(** An artifact that is accepted is the one that the text of the entry names, with its signature and certificate. *)
Theorem C110_artifact : forall env lib now v i b p, verify_artifact env (entry_parsers lib) now v i b p = Ok tt ->
  exists j digest sg, text_of lib (le_body (b_entry b)) j /\ h_digest (sha256_digest env i) = digest /\
    (exists ms, bm_msig (b_inner b) = Some ms /\ ms_signature ms = sg) /\ le_kind (b_entry b) = s2l "hashedrekord" /\
    (le_version (b_entry b) = s2l "0.0.1" /\ rekord_texts j digest sg (c_der (b_cert b)) /\
       text_or_none j "kind" "kind" (s2l "hashedrekord") /\ text_or_none j "apiVersion" "api_version" (s2l "0.0.1") \/
     le_version (b_entry b) = s2l "0.0.2" /\ exists d details, get_key_details (b_cert b) = Ok d /\ details_name d = Some details /\
       v2_texts j (s2l "SHA2_256") digest sg (c_der (b_cert b)) details).
Proof.
  intros env lib now v i b p H. apply artifact_accepted_iff in H. destruct H as (_ & ms & key & d & Ms & Hd & _ & _ & _ & Kd & R).
  destruct R as [[V P]|(V & kd & K & P)].
  - apply C110_rekord_accepts in P. destruct P as (j & T & Rj). exists j, d, (ms_signature ms).
    split; [exact T|]. split; [rewrite Hd; reflexivity|]. split; [eauto|]. split; [exact Kd|]. left. split; [exact V|].
    destruct (rekord_names _ _ _ _ _ _ _ _ Rj) as ((an & [= <-] & A) & X & S & C). split; [repeat split; assumption|]. exact (rekord_header _ _ _ Rj).
  - apply C110_v2_accepts in P. destruct P as (j & T & Rj). exists j, d, (ms_signature ms).
    split; [exact T|]. split; [rewrite Hd; reflexivity|]. split; [eauto|]. split; [exact Kd|]. right. split; [exact V|].
    destruct (v2_names _ _ _ _ _ _ _ _ _ Rj) as (an & details & [= <-] & Dn & X). exists kd, details. split; [exact K|]. split; [exact Dn|exact X].
Qed.
(** likewise for envelopes *)
Theorem C110_envelope : forall env lib now v b p t pl, verify_dsse env (entry_parsers lib) now v b p = Ok (t, pl) ->
  exists j sg, text_of lib (le_body (b_entry b)) j /\ (exists m, bm_env (b_inner b) = Some m /\ em_sigs m = [sg]) /\
    (le_kind (b_entry b) = s2l "dsse" /\ le_version (b_entry b) = s2l "0.0.1" /\
       dsse_texts j (e_hash env SHA256 pl) sg (c_der (b_cert b)) /\ text_or_none j "kind" "kind" (s2l "dsse") \/
     le_kind (b_entry b) = s2l "hashedrekord" /\ le_version (b_entry b) = s2l "0.0.2" /\
       exists d alg h x an details, get_key_details (b_cert b) = Ok d /\ get_prehash d = Ok (alg, h) /\ pae t pl = Ok x /\
       algorithm_name alg = Some an /\ details_name d = Some details /\ v2_texts j an (e_hash env h x) sg (c_der (b_cert b)) details).
Proof.
  intros env lib now v b p t pl H. apply dsse_accepted_iff in H.
  destruct H as (_ & m & sg & key & x & Em & Et & Ep & Es & Ns & Key & Px & Sv & R).
  destruct R as [(K & V & P)|(K & V & d & al & h & y & Kd & Ph & Py & P)].
  - apply C110_dsse_accepts in P. destruct P as (j & v' & T & Rj). exists j, sg. split; [exact T|]. split; [eauto|]. left. split; [exact K|]. split; [exact V|].
    split; [exact (dsse_names _ _ _ _ _ _ Rj)|]. exact (proj1 (dsse_header _ _ _ _ Rj)).
  - apply C110_v2_accepts in P. destruct P as (j & T & Rj). exists j, sg. split; [exact T|]. split; [eauto|]. right. split; [exact K|]. split; [exact V|].
    destruct (v2_names _ _ _ _ _ _ _ _ _ Rj) as (an & details & An & Dn & X). exists d, al, h, y, an, details. repeat (split; [assumption|]). exact X.
Qed.

(** The same body is accepted for one artifact only, whatever version the entry claims (C26 leaves open whether the two
    readers of the body agree on its version). *)
Lemma versions_agree_text : forall lib, versions_agree (entry_parsers lib).
Proof.
  intros lib body h w H W. apply C110_rekord_accepts in H. apply C110_v2_accepts in W. destruct H as (j & T & H), W as (j' & T' & W).
  rewrite (text_of_unique _ _ _ _ T T') in *. pose proof (text_dicts _ _ _ T') as D. destruct H as (o & -> & _ & V & _), W as (o' & [= <-] & _ & V' & _).
  apply (default_iff o D) in V. apply (required_iff _ _ o D txt_iff) in V'. unfold defaulted, required in *.
  destruct (by_alias_or_name _ _ o); [congruence|discriminate].
Qed.
Theorem C110_one_artifact : forall env lib now v i b p now' v' i' b' p',
  verify_artifact env (entry_parsers lib) now v i b p = Ok tt -> verify_artifact env (entry_parsers lib) now' v' i' b' p' = Ok tt ->
  le_body (b_entry b) = le_body (b_entry b') ->
  sha256_digest env i = sha256_digest env i' /\ c_der (b_cert b) = c_der (b_cert b') /\
  (exists ms ms', bm_msig (b_inner b) = Some ms /\ bm_msig (b_inner b') = Some ms' /\ ms_signature ms = ms_signature ms') /\
  forall a a', i = In_bytes a -> i' = In_bytes a' -> a = a' \/ (a <> a' /\ e_hash env SHA256 a = e_hash env SHA256 a').
Proof.
  intros env lib now v i b p now' v' i' b' p' H H' B.
  destruct (C26_one_artifact_per_entry _ _ _ _ _ _ _ _ _ _ _ _ H H' B (or_introl (versions_agree_text lib))) as (X & Y & Z). split; [exact X|]. split; [exact Y|]. split; [exact Z|].
  intros a a' -> ->. exact (C26_one_artifact_per_entry_bytes _ _ _ _ _ _ _ _ _ _ _ _ H H' B (or_introl (versions_agree_text lib))).
Qed.

(** *** Requests *)

Ltac member := left; cbn [In app]; repeat (first [left; reflexivity|right]).
Ltac path := unfold text_at, spec_, v2_request_step, step, field; cbn [app]; repeat (eapply Found_in; [member|]); apply Found_here.

Lemma details_named : forall c d, get_key_details c = Ok d -> details_name d = Some (details_text d).
Proof.
  intros c d H. unfold get_key_details in H. destruct (c_pubkey c) as [pk|]; [|discriminate]. cbn [bind] in H. destruct (c_sig_pkcs1 c) as [b|]; [|discriminate].
  cbn [bind] in H. destruct (pk_kind pk) as [n|[| | |]| |]; try discriminate; try (injection H as <-; vm_compute; reflexivity).
  repeat match type of H with (if ?c then _ else _) = _ => destruct c end; try discriminate; injection H as <-; vm_compute; reflexivity.
Qed.
Lemma rekord_request : forall jl digest sg cert, let j := request_json jl (Req_h1 (mkH1 (s2l "0.0.1") (Some (b64encode sg)) (Some (pem_b64 cert)) (Some (SHA256, hex digest)) 0)) in
  rekord_texts j digest sg (c_der cert) /\ text_at j [step "kind"] (s2l "hashedrekord") /\ text_at j [step "apiVersion"] (s2l "0.0.1").
Proof.
  intros jl digest sg cert j. unfold j, rekord_texts, request_json, rekord_json, or_null, pem_b64. cbn [h1_api_version h1_sig h1_pk h1_hash fst snd rekord_hash_text]. clear j.
  generalize (hex digest) (b64encode sg) (b64encode (ascii_bytes (pem_of_der (c_der cert)))). intros x y z. repeat split; path.
Qed.
Lemma v2_request : forall jl digest sg cert d, get_key_details cert = Ok d ->
  v2_request_texts (request_json jl (Req_v2 digest sg (V2_x509 (c_der cert) d))) digest sg (c_der cert) (details_text d).
Proof.
  intros jl digest sg cert d K. unfold v2_request_texts, bytes_at, request_json, v2_request_json, verifier_json, one_bytes_json, bytes_json.
  generalize (details_text d). intros dt. generalize (c_der cert). intros der. clear K.
  repeat split; try (eexists; split; [|apply b64decode_b64encode]); path.
Qed.
Lemma envelope_value : forall lib m, 5 <= jl_depth (bl_json lib) ->
  value_text (bl_json lib) (jl_depth (bl_json lib)) (envelope_json m) (write (bl_json lib) (envelope_json m)).
Proof.
  intros lib m L. destruct (plain_facts _ (bl_json lib) _ _ (plain_envelope (fun _ => True) (fun _ _ => Logic.I) m Logic.I)) as [W D].
  apply write_value; [exact W|lia].
Qed.
Lemma dsse_request : forall lib m cert, 5 <= jl_depth (bl_json lib) -> dsse_request_texts lib (request_json (bl_json lib) (Req_d1 m [pem_b64 cert])) m (c_der cert).
Proof.
  intros lib m cert L. unfold dsse_request_texts, request_json, dsse_json, pem_b64. cbn [map].
  generalize (b64encode (ascii_bytes (pem_of_der (c_der cert)))). intros z. repeat split; [path|path|path|].
  pose proof (envelope_value lib m L) as V. exists (write (bl_json lib) (envelope_json m)), (envelope_json m). split; [path|]. split.
  - exists nil, (write (bl_json lib) (envelope_json m)), nil. split; [rewrite app_nil_r; reflexivity|]. split; [constructor|]. split; [constructor|exact V].
  - apply envelope_iff; [exact (proj1 (read_dicts (bl_json lib)) _ _ _ V)|apply envelope_read].
Qed.

(** What is posted for an artifact names the digest of the input and the signature and the certificate of the bundle. *)
Theorem C110_posted_artifact : forall jl libs out s i h h' b, sign_artifact libs out s i h = (h', Ok b) ->
  exists before req digest sg der, h' = h ++ before ++ [EvLog req] /\ (forall r, ~ In (EvLog r) before) /\
    sha256_digest (l_env libs) i = mkHashed HA_SHA2_256 digest /\
    bm_msig (b_inner b) = Some (mkMsgSig (Some (HA_SHA2_256, digest)) sg) /\ vm_cert (bm_vm (b_inner b)) = Some der /\
    match cp_rekor (sg_ctx s) with
    | Rekor_v1 _ => rekord_texts (request_json jl req) digest sg der /\
        text_at (request_json jl req) [step "kind"] (s2l "hashedrekord") /\ text_at (request_json jl req) [step "apiVersion"] (s2l "0.0.1")
    | Rekor_v2 _ => exists cert d details, c_der cert = der /\ get_key_details cert = Ok d /\ details_name d = Some details /\
        v2_request_texts (request_json jl req) digest sg der details
    end.
Proof.
  intros jl libs out s i h h' b H. apply C40_artifact in H. destruct H as (l & req & cert & digest & sg & Eh & Nl & Sub & Dg & _ & Ms & _ & Vc & _).
  exists l, req, digest, sg, (c_der cert). repeat (split; [assumption|]). unfold submits_artifact in Sub. destruct (cp_rekor (sg_ctx s)) as [u|u].
  - subst req. apply rekord_request.
  - destruct Sub as (d & K & ->). exists cert, d, (details_text d). split; [reflexivity|]. split; [exact K|]. split; [eapply details_named, K|apply v2_request, K].
Qed.
(** What is posted for a statement: to a log of version 1 a text of the envelope that ends up in the bundle, to one of version 2
    the digest of its PAE *)
Theorem C110_posted_envelope : forall lib libs out s st h h' b, 5 <= jl_depth (bl_json lib) -> sign_dsse libs out s st h = (h', Ok b) ->
  exists before req m sg der, h' = h ++ before ++ [EvLog req] /\ (forall r, ~ In (EvLog r) before) /\
    bm_env (b_inner b) = Some m /\ em_payload m = st_contents st /\ em_type m = s2l "application/vnd.in-toto+json" /\ em_sigs m = [sg] /\
    vm_cert (bm_vm (b_inner b)) = Some der /\
    match cp_rekor (sg_ctx s) with
    | Rekor_v1 _ => dsse_request_texts lib (request_json (bl_json lib) req) m der
    | Rekor_v2 _ => exists cert d details alg hsh p, c_der cert = der /\ get_key_details cert = Ok d /\ details_name d = Some details /\
        get_prehash d = Ok (alg, hsh) /\ pae (em_type m) (em_payload m) = Ok p /\
        v2_request_texts (request_json (bl_json lib) req) (e_hash (l_env libs) hsh p) sg der details
    end.
Proof.
  intros lib libs out s st h h' b L H. apply C40_dsse in H. destruct H as (l & req & cert & sg & m & Eh & Nl & Em & Sub & Bm & _ & Vc & _).
  exists l, req, m, sg, (c_der cert). split; [exact Eh|]. split; [exact Nl|]. split; [exact Bm|]. split; [rewrite Em; reflexivity|]. split; [rewrite Em; reflexivity|].
  split; [rewrite Em; reflexivity|]. split; [exact Vc|]. unfold submits_envelope in Sub. destruct (cp_rekor (sg_ctx s)) as [u|u].
  - subst req. apply dsse_request, L.
  - destruct Sub as (d & alg & hsh & p & K & Ph & Pa & ->). exists cert, d, (details_text d), alg, hsh, p. split; [reflexivity|]. split; [exact K|].
    split; [eapply details_named, K|]. split; [exact Ph|]. split; [exact Pa|]. apply v2_request, K.
Qed.

Lemma rekord_read : forall lib h o, rekord_json h = JObj o -> el_rest lib "hashedrekord" o = Some (h1_rest h) -> read_rekord lib (rekord_json h) = Some h.
Proof.
  intros lib [v s k x n] o E Er. rewrite E. unfold read_rekord, object_fields. rewrite Er. clear Er.
  assert (Eo : o = match rekord_json (mkH1 v s k x n) with JObj o => o | _ => nil end) by (rewrite E; reflexivity). rewrite Eo. clear E Eo. unfold rekord_json. cbn iota.
  cbn [h1_api_version h1_sig h1_pk h1_hash h1_rest].
  unfold read_version, defaulted. find_members. change (exactly "hashedrekord" (JStr (s2l "hashedrekord"))) with (Some tt). cbn iota. cbn [text_value].
  assert (S : read_rekord_signature (JObj [(s2l "content", or_null JStr s); (s2l "publicKey", JObj [(s2l "content", or_null JStr k)])]) = Some (s, k)).
  { unfold read_rekord_signature, object_fields. find_members. assert (T : forall y, null_or text_value (Some (or_null JStr y)) = Some y) by (intros [y|]; reflexivity).
    rewrite T, (null_or_some _ _ _ k); [reflexivity|discriminate|]. unfold read_rekord_key, object_fields. find_members. apply T. }
  assert (D : read_rekord_data (JObj [(s2l "hash", or_null (fun av => JObj (field "algorithm" (JStr (rekord_hash_text (fst av))) ++ field "value" (JStr (snd av)))) x)]) = Some x).
  { unfold read_rekord_data, object_fields. find_members. destruct x as [[a y]|]; [|reflexivity]. cbn [or_null fst snd]. apply null_or_some; [discriminate|].
    unfold read_rekord_hash, object_fields. find_members. cbn [text_value]. destruct a; reflexivity. }
  unfold read_rekord_spec, object_fields. find_members. unfold field in D. cbn [app] in D. rewrite S, D. reflexivity.
Qed.

Ltac entry_keys := vm_compute; repeat constructor; cbn [In]; intuition discriminate.
Ltac entry_obj := apply PL_obj; [entry_keys|repeat (apply Forall_cons; [split; [exact Logic.I|cbn [snd]]|]); [..|apply Forall_nil]].
Lemma rekord_plain : forall v s k a x n, plain (fun _ => True) 4 (rekord_json (mkH1 v (Some s) (Some k) (Some (a, x)) n)).
Proof.
  intros v s k a x n. unfold rekord_json, or_null, field. cbn [h1_api_version h1_sig h1_pk h1_hash app fst snd].
  repeat (first [apply PL_str; exact Logic.I|entry_obj]).
Qed.
(** Were the log to keep the text that is posted for an artifact, it would be read as what was submitted. *)
Theorem C110_request_kept : forall lib v s k a x n o b, 4 <= jl_depth (bl_json (el_bundle lib)) ->
  let h := mkH1 v (Some s) (Some k) (Some (a, x)) n in
  request_json (bl_json (el_bundle lib)) (Req_h1 h) = JObj o -> el_rest lib "hashedrekord" o = Some n ->
  utf8_encode (write (bl_json (el_bundle lib)) (JObj o)) = Some b -> p_hashedrekord (entry_parsers lib) b = Ok h.
Proof.
  intros lib v s k a x n o b L h E Er U. rewrite <- E in U. cbn [request_json] in E, U. apply C110_rekord_accepts. exists (rekord_json h).
  destruct (plain_facts _ (bl_json (el_bundle lib)) _ _ (rekord_plain v s k a x n)) as [W D].
  assert (V' : value_text (bl_json (el_bundle lib)) (jl_depth (bl_json (el_bundle lib))) (rekord_json h) (write (bl_json (el_bundle lib)) (rekord_json h)))
    by (apply write_value; [exact W|]; fold h in D; lia).
  split.
  - exists (write (bl_json (el_bundle lib)) (rekord_json h)). split; [exact U|]. exists nil, (write (bl_json (el_bundle lib)) (rekord_json h)), nil.
    split; [rewrite app_nil_r; reflexivity|]. split; [constructor|]. split; [constructor|exact V'].
  - apply rekord_iff; [exact (proj1 (read_dicts (bl_json (el_bundle lib))) _ _ _ V')|]. eapply rekord_read; [exact E|exact Er].
Qed.

(** *** Logs *)

Theorem C110_logged : forall env lib req e, recorded env lib req e -> logged env (entry_parsers lib) req e.
Proof.
  intros env lib req e (j & T & R). destruct req as [h|m vs|digest sg v].
  - destruct R as (K & V & R). split; [exact K|]. split; [exact V|]. apply C110_rekord_accepts. eauto.
  - destruct R as (K & V & v' & R). split; [exact K|]. split; [exact V|]. apply C110_dsse_accepts. eauto.
  - destruct R as (K & V & P & R). split; [exact K|]. split; [exact V|]. split; [exact P|]. intros der d E. destruct (R der d E) as (alg & hsh & Ph & X).
    exists alg, hsh. split; [exact Ph|]. apply C110_v2_accepts. eauto.
Qed.
Lemma honest_text : forall libs out ctx lib now v valid, honest_text_log libs out ctx lib now v valid -> honest_log libs out ctx (entry_parsers lib) now v valid.
Proof.
  intros libs out ctx lib now v valid (rk & K & H). exists rk. split; [exact K|]. intros h req e A. destruct (H h req e A) as (R & V & P).
  split; [apply C110_logged, R|]. split; [exact V|exact P].
Qed.
(** With a log whose entries are texts of what was submitted, what is signed verifies (C37). *)
Theorem C110_signed_artifact : forall libs out tok ctx lib now v p h0 h1 s c,
  make_signer libs out tok ctx true h0 = (h1, Ok s) -> sg_cert s = Some c ->
  honest_ca libs out ctx (it_raw tok) now v p -> honest_text_log libs out ctx lib now v (in_validity c) -> honest_tsas libs out ctx now v (in_validity c) ->
  sound_keys (l_env libs) out -> length (cp_tsas ctx) <= 32 ->
  forall i h h' b, sign_artifact libs out s i h = (h', Ok b) -> NoDup (vm_timestamps (bm_vm (b_inner b))) ->
  verify_artifact (l_env libs) (entry_parsers lib) now v i b p = Ok tt.
Proof. intros libs out tok ctx lib now v p h0 h1 s c Mk Sc Ca Hl. apply honest_text in Hl. eapply C37_artifact; eassumption. Qed.
Theorem C110_signed_statement : forall libs out tok ctx lib now v p h0 h1 s c,
  make_signer libs out tok ctx true h0 = (h1, Ok s) -> sg_cert s = Some c ->
  honest_ca libs out ctx (it_raw tok) now v p -> honest_text_log libs out ctx lib now v (in_validity c) -> honest_tsas libs out ctx now v (in_validity c) ->
  sound_keys (l_env libs) out -> length (cp_tsas ctx) <= 32 ->
  forall st h h' b, sign_dsse libs out s st h = (h', Ok b) -> NoDup (vm_timestamps (bm_vm (b_inner b))) ->
  verify_dsse (l_env libs) (entry_parsers lib) now v b p = Ok (s2l "application/vnd.in-toto+json", st_contents st).
Proof. intros libs out tok ctx lib now v p h0 h1 s c Mk Sc Ca Hl. apply honest_text in Hl. eapply C37_dsse; eassumption. Qed.

(** *** Answers *)

Lemma proposed_says : forall lib raw repr k v, rp_proposed (answer_parsers lib repr) raw = Ok (Some (k, v)) ->
  exists j, text_of lib raw j /\ text_at j [step "kind"] k /\ text_or_none j "apiVersion" "api_version" v /\
    (k = s2l "hashedrekord" /\ (exists h, rekord_of lib j h /\ h1_api_version h = v) \/ k = s2l "dsse" /\ exists d, dsse_of lib j (v, d)).
Proof.
  intros lib raw repr k v H. cbn [answer_parsers rp_proposed] in H.
  assert (R : exists j, text_of lib raw j /\ read_proposed lib j = Some (Some (k, v))).
  { unfold validated, and_then, read_bytes in H. destruct (utf8_decode raw) as [text|] eqn:U; [|discriminate].
    destruct (read (bl_json (el_bundle lib)) text) as [j|] eqn:R; [|discriminate]. exists j. apply read_iff in R.
    split; [exists text; split; [apply utf8_encode_decode, U|exact R]|]. destruct (read_proposed lib j); congruence. }
  destruct R as (j & T & R). exists j. split; [exact T|]. pose proof (text_dicts _ _ _ T) as D.
  destruct j as [| | | | | | |o]; try discriminate. cbn [read_proposed object_fields] in R. unfold read_proposed, object_fields in R.
  destruct (required text_value "kind" "kind" o) as [k'|] eqn:Ek; [|discriminate]. apply (required_iff _ _ o D txt_iff) in Ek. destruct Ek as (jk & Gk & ->).
  assert (P : text_at (JObj o) [step "kind"] k') by (eapply Found_in; [exact Gk|apply Found_here]).
  destruct (str_eqb k' (s2l "hashedrekord")) eqn:E1.
  - apply str_eqb_spec in E1. destruct (read_rekord lib (JObj o)) as [h|] eqn:Rh; [|discriminate]. injection R as <- <-. apply rekord_iff in Rh; [|exact D].
    split; [exact P|]. split; [exact (proj2 (rekord_header _ _ _ Rh))|]. left. eauto.
  - destruct (str_eqb k' (s2l "dsse")) eqn:E2.
    + apply str_eqb_spec in E2. destruct (read_dsse_entry lib (JObj o)) as [[v' d]|] eqn:Rh; [|discriminate]. injection R as <- <-. apply dsse_iff in Rh; [|exact D].
      split; [exact P|]. split; [exact (proj2 (dsse_header _ _ _ _ Rh))|]. right. eauto.
    + destruct (el_rest lib "other" o); discriminate.
Qed.
(** An entry that a log of version 1 answers has the kind and version that the text of its body gives. *)
Theorem C110_answer_v1 : forall lib repr v e, from_v1_response (answer_parsers lib repr) v = Ok e ->
  exists j, text_of lib (le_body e) j /\ text_at j [step "kind"] (le_kind e) /\ text_or_none j "apiVersion" "api_version" (le_version e) /\
    (le_kind e = s2l "hashedrekord" /\ (exists h, rekord_of lib j h /\ h1_api_version h = le_version e) \/
     le_kind e = s2l "dsse" /\ exists d, dsse_of lib j (le_version e, d)).
Proof. intros lib repr v e H. apply C48_parses_iff in H. destruct H as [_ H]. exact (proposed_says _ _ _ _ _ H). Qed.
(** The entry of a log of version 2 is the one that its answer describes. *)
Theorem C110_answer_v2 : forall lib repr http url req e, create_entry_v2 (answer_parsers lib repr) http url req = Ok e ->
  exists resp j, http (POST (url ++ s2l "/api/v2/log/entries") req) = Ok resp /\ r_json resp = Some j /\
    (dicts j -> entry_of (el_bundle lib) j e).
Proof.
  intros lib repr http url req e H. unfold create_entry_v2 in H. change (s2l "/api/v2" ++ s2l "/log/entries") with (s2l "/api/v2/log/entries") in H.
  apply bind_ok_inv in H. destruct H as (resp & Hh & H). exists resp. apply bind_ok_inv in H. destruct H as (u & _ & H). apply bind_ok_inv in H. destruct H as (j & Hj & H).
  exists j. split; [exact Hh|]. split; [unfold resp_json in Hj; destruct (r_json resp); congruence|]. intros D.
  apply bind_ok_inv in H. destruct H as (e' & He & H). unfold make_entry in H. apply bind_ok_inv in H. destruct H as (u' & _ & [= <-]).
  cbn [answer_parsers rp_entry] in He. apply entry_iff; [exact D|]. unfold validated in He. destruct (read_entry (el_bundle lib) j); congruence.
Qed.

(** ** Concrete cases *)

Definition ejx : EntryLib := mkEL bjx_lib (fun _ _ => Some 0) nil true.
Definition ejx_text (j : json) : bytes := match utf8_encode (write (bl_json bjx_lib) j) with Some b => b | None => nil end.
(** a log that keeps texts of what is submitted *)
Definition ejx_dsse (na : time) : json := JObj
  (field "apiVersion" (JStr (s2l "0.0.1")) ++ field "kind" (JStr (s2l "dsse")) ++ field "spec" (JObj (
    field "payloadHash" (JObj (field "algorithm" (JStr (s2l "sha256")) ++ field "value" (JStr (hex (toy_hash vx_payload))))) ++
    field "signatures" (JList [JObj (field "signature" (JStr (b64encode sy_dsig)) ++ field "verifier" (JStr (sy_pem64 na)))])))).
Definition ejx_v2 (na : time) (digest sg : bytes) : json := JObj
  (field "apiVersion" (JStr (s2l "0.0.2")) ++ field "kind" (JStr (s2l "hashedrekord")) ++ field "spec" (JObj (field "hashedRekordV002" (JObj (
    field "data" (JObj (field "algorithm" (JStr (s2l "SHA2_256")) ++ field "digest" (bytes_json digest))) ++
    field "signature" (JObj (field "content" (bytes_json sg) ++ field "verifier" (verifier_json (sy_v na))))))))).
Definition ejx_b1 : bytes := ejx_text (rekord_json (sy_h1 sy_far)).
Definition ejx_b2 : bytes := ejx_text (ejx_v2 sy_far sy_digest sy_sig).
Definition ejx_b3 : bytes := ejx_text (ejx_v2 sy_far (toy_hash vx_pae) sy_dsig).
Definition ejx_b4 : bytes := ejx_text (ejx_dsse sy_far).
Definition ejx_e1 : LogEntry := vx_entry "hashedrekord" "0.0.1" (Some 1700000000%Z) true ejx_b1.
Definition ejx_e2 : LogEntry := vx_entry "hashedrekord" "0.0.2" None false ejx_b2.
Definition ejx_e3 : LogEntry := vx_entry "hashedrekord" "0.0.2" None false ejx_b3.
Definition ejx_e4 : LogEntry := vx_entry "dsse" "0.0.1" (Some 1700000000%Z) true ejx_b4.
Definition ejx_known : list (EntryRequest * json) :=
  [(Req_h1 (sy_h1 sy_far), sy_render ejx_e1); (Req_d1 sy_m [sy_pem64 sy_far], sy_render ejx_e4);
   (Req_v2 sy_digest sy_sig (sy_v sy_far), entry_json ejx_e2); (Req_v2 (toy_hash vx_pae) sy_dsig (sy_v sy_far), entry_json ejx_e3)].
Definition ejx_log (rq : http_request EntryRequest) : res response :=
  match rq with
  | POST _ r => match sy_find ejx_known r with Some j => Ok (mkResp 201 nil (Some j) nil) | None => Ok (mkResp 400 nil None nil) end
  | GET _ _ => Ok (mkResp 404 nil None nil)
  end.
Definition ejx_out : Outside :=
  mkOutside (fun h => sy_start + 1000000 * Z.of_nat (length h))%Z sy_pub (fun _ k s d => toy_sign s (sk_pub k) d)
    (fun _ => sy_fulcio) (fun _ sg => Ok sg) (fun _ => sy_tsa) (fun _ => ejx_log).
Definition ejx_libs : SignLibs := mkLibs (sy_env sy_far) sy_url (sy_pem sy_far) (answer_parsers ejx (fun _ => nil)).

(** such a text *)
Example ex_body1 : ejx_b1 = s2b ("{""apiVersion"":""0.0.1"",""kind"":""hashedrekord"",""spec"":{""signature"":{""content"":" ++
  """EQIAAAAAAAAAAAAAAAAAAAAAAAAAAAAAAAAAAAAxD6TZ3g=="",""publicKey"":{""content"":" ++
  """LS0tLS1CRUdJTiBDRVJUSUZJQ0FURS0tLS0tCk1BSUMKLS0tLS1FTkQgQ0VSVElGSUNBVEUtLS0tLQo=""}},""data"":{""hash"":{""algorithm"":""sha256""," ++
  """value"":""000000000000000000000000000000000000000000000000000000310fa4d9de""}}}}")%string.
Proof. vm_compute. reflexivity. Qed.
Lemma ejx_reads1 : p_hashedrekord (entry_parsers ejx) ejx_b1 = Ok (sy_h1 sy_far).
Proof. vm_compute. reflexivity. Qed.
Lemma ejx_reads4 : p_dsse (entry_parsers ejx) ejx_b4 = Ok (mkD1 (Some (true, hex (toy_hash vx_payload))) (Some [(b64encode sy_dsig, sy_pem64 sy_far)])).
Proof. vm_compute. reflexivity. Qed.
Lemma ejx_reads2 : p_v2 (entry_parsers ejx) ejx_b2 = Ok (mkV2 (s2l "hashedrekord") (s2l "0.0.2") (V2_hashedrekord HA_SHA2_256 sy_digest sy_sig (sy_v sy_far))).
Proof. vm_compute. reflexivity. Qed.
Lemma ejx_reads3 : p_v2 (entry_parsers ejx) ejx_b3 = Ok (mkV2 (s2l "hashedrekord") (s2l "0.0.2") (V2_hashedrekord HA_SHA2_256 (toy_hash vx_pae) sy_dsig (sy_v sy_far))).
Proof. vm_compute. reflexivity. Qed.

Lemma ejx_honest1 : honest_text_log ejx_libs ejx_out sy_ctx1 ejx vx_now vx_verifier (in_validity (sy_cert sy_far nil)).
Proof.
  eexists. split; [vm_compute; reflexivity|].
  intros h req e H. unfold log_answer, create_entry, create_entry_v1 in H. cbn [sy_ctx1 cp_rekor ejx_out o_log ejx_log bind] in H.
  destruct (sy_find ejx_known req) as [j|] eqn:F; [|cbn in H; discriminate].
  apply sy_find_in in F. cbn [bind] in H.
  destruct F as [F|[F|[F|[F|[]]]]]; apply pair_equal_spec in F; destruct F as [<- <-].
  - assert (Q : Ok ejx_e1 = Ok e) by (rewrite <- H; vm_compute; reflexivity). assert (e = ejx_e1) by congruence. subst e. clear Q H.
    split; [|split; [vm_compute; reflexivity|]].
    + pose proof ejx_reads1 as R. apply C110_rekord_accepts in R. destruct R as (j & T & R). exists j. split; [exact T|]. split; [reflexivity|]. split; [reflexivity|exact R].
    + intros set _. exists 1700000000%Z. split; [reflexivity|]. split; [lia|]. split; [lia|]. split; vm_compute; discriminate.
  - assert (Q : Ok ejx_e4 = Ok e) by (rewrite <- H; vm_compute; reflexivity). assert (e = ejx_e4) by congruence. subst e. clear Q H.
    split; [|split; [vm_compute; reflexivity|]].
    + pose proof ejx_reads4 as R. apply C110_dsse_accepts in R. destruct R as (j & v & T & R). exists j. split; [exact T|]. split; [reflexivity|]. split; [reflexivity|].
      exists v. exact R.
    + intros set _. exists 1700000000%Z. split; [reflexivity|]. split; [lia|]. split; [lia|]. split; vm_compute; discriminate.
  - exfalso. vm_compute in H. discriminate.
  - exfalso. vm_compute in H. discriminate.
Qed.
Lemma ejx_honest2 : honest_text_log ejx_libs ejx_out sy_ctx2 ejx vx_now vx_verifier (in_validity (sy_cert sy_far nil)).
Proof.
  eexists. split; [vm_compute; reflexivity|].
  intros h req e H. unfold log_answer, create_entry, create_entry_v2 in H. cbn [sy_ctx2 cp_rekor ejx_out o_log ejx_log bind] in H.
  destruct (sy_find ejx_known req) as [j|] eqn:F; [|cbn in H; discriminate].
  apply sy_find_in in F. cbn [bind] in H.
  destruct F as [F|[F|[F|[F|[]]]]]; apply pair_equal_spec in F; destruct F as [<- <-].
  - exfalso. vm_compute in H. discriminate.
  - exfalso. vm_compute in H. discriminate.
  - assert (Q : Ok ejx_e2 = Ok e) by (rewrite <- H; vm_compute; reflexivity). assert (e = ejx_e2) by congruence. subst e. clear Q H.
    split; [|split; [vm_compute; reflexivity|intros set Q'; discriminate]].
    pose proof ejx_reads2 as R. apply C110_v2_accepts in R. destruct R as (j & T & R). exists j. split; [exact T|]. split; [reflexivity|]. split; [reflexivity|]. split; [reflexivity|].
    intros der d Q'. exists HA_SHA2_256, SHA256. split; [injection Q' as _ <-; reflexivity|exact R].
  - assert (Q : Ok ejx_e3 = Ok e) by (rewrite <- H; vm_compute; reflexivity). assert (e = ejx_e3) by congruence. subst e. clear Q H.
    split; [|split; [vm_compute; reflexivity|intros set Q'; discriminate]].
    pose proof ejx_reads3 as R. apply C110_v2_accepts in R. destruct R as (j & T & R). exists j. split; [exact T|]. split; [reflexivity|]. split; [reflexivity|]. split; [reflexivity|].
    intros der d Q'. exists HA_SHA2_256, SHA256. split; [injection Q' as _ <-; reflexivity|exact R].
Qed.

(** sessions with both kinds of log meet the hypotheses *)
Example ex_C110_artifact : forall ctx, ctx = sy_ctx1 \/ ctx = sy_ctx2 ->
  exists h1 s h' b, make_signer ejx_libs ejx_out sy_token ctx true nil = (h1, Ok s) /\
    sign_artifact ejx_libs ejx_out s (In_bytes vx_input) h1 = (h', Ok b) /\
    verify_artifact (sy_env sy_far) (entry_parsers ejx) vx_now vx_verifier (In_bytes vx_input) b vx_policy = Ok tt.
Proof.
  intros ctx Hc.
  assert (Mk : exists h1 s h' b, make_signer ejx_libs ejx_out sy_token ctx true nil = (h1, Ok s) /\
    sg_cert s = Some (sy_cert sy_far nil) /\
    sign_artifact ejx_libs ejx_out s (In_bytes vx_input) h1 = (h', Ok b) /\ length (vm_timestamps (bm_vm (b_inner b))) <= 1).
  { destruct Hc as [->| ->]; eexists; eexists; eexists; eexists; (split; [vm_compute; reflexivity|]); (split; [reflexivity|]);
      (split; [vm_compute; reflexivity|]); cbn; lia. }
  destruct Mk as (h1 & s & h' & b & Mk & Sc & Sg & Nd). exists h1, s, h', b. split; [assumption|]. split; [assumption|].
  eapply (C110_signed_artifact ejx_libs ejx_out sy_token ctx ejx vx_now vx_verifier vx_policy nil h1 s (sy_cert sy_far nil)).
  - exact Mk.
  - exact Sc.
  - apply (sy_honest_ca sy_far ctx).
  - destruct Hc as [->| ->]; [exact ejx_honest1|exact ejx_honest2].
  - apply (sy_honest_tsas sy_far ctx). unfold sy_far. lia.
  - apply (sy_sound sy_far).
  - destruct Hc as [->| ->]; cbn; lia.
  - exact Sg.
  - destruct (vm_timestamps (bm_vm (b_inner b))) as [|x [|y l]]; [constructor|constructor; [intros []|constructor]|cbn in Nd; lia].
Qed.
Example ex_C110_statement : forall ctx, ctx = sy_ctx1 \/ ctx = sy_ctx2 ->
  exists h1 s h' b, make_signer ejx_libs ejx_out sy_token ctx true nil = (h1, Ok s) /\
    sign_dsse ejx_libs ejx_out s sy_statement h1 = (h', Ok b) /\
    verify_dsse (sy_env sy_far) (entry_parsers ejx) vx_now vx_verifier b vx_policy = Ok (s2l "application/vnd.in-toto+json", st_contents sy_statement).
Proof.
  intros ctx Hc.
  assert (Mk : exists h1 s h' b, make_signer ejx_libs ejx_out sy_token ctx true nil = (h1, Ok s) /\
    sg_cert s = Some (sy_cert sy_far nil) /\
    sign_dsse ejx_libs ejx_out s sy_statement h1 = (h', Ok b) /\ length (vm_timestamps (bm_vm (b_inner b))) <= 1).
  { destruct Hc as [->| ->]; eexists; eexists; eexists; eexists; (split; [vm_compute; reflexivity|]); (split; [reflexivity|]);
      (split; [vm_compute; reflexivity|]); cbn; lia. }
  destruct Mk as (h1 & s & h' & b & Mk & Sc & Sg & Nd). exists h1, s, h', b. split; [assumption|]. split; [assumption|].
  eapply (C110_signed_statement ejx_libs ejx_out sy_token ctx ejx vx_now vx_verifier vx_policy nil h1 s (sy_cert sy_far nil)).
  - exact Mk.
  - exact Sc.
  - apply (sy_honest_ca sy_far ctx).
  - destruct Hc as [->| ->]; [exact ejx_honest1|exact ejx_honest2].
  - apply (sy_honest_tsas sy_far ctx). unfold sy_far. lia.
  - apply (sy_sound sy_far).
  - destruct Hc as [->| ->]; cbn; lia.
  - exact Sg.
  - destruct (vm_timestamps (bm_vm (b_inner b))) as [|x [|y l]]; [constructor|constructor; [intros []|constructor]|cbn in Nd; lia].
Qed.

(** what is refused and what is not *)
Definition ejx_head : String.string := """spec"":{""signature"":{""content"":""EQ=="",""publicKey"":{""content"":""LQ==""}},""data"":{""hash"":{""algorithm"":""sha256"",""value"":""00""}}}}".
Definition ejx_h : Hashedrekord1 := mkH1 (s2l "0.0.1") (Some (s2l "EQ==")) (Some (s2l "LQ==")) (Some (SHA256, s2l "00")) 0.
Example ex_defaults : (* neither kind nor version is required, null does not count as missing *)
  p_hashedrekord (entry_parsers ejx) (s2b ("{" ++ ejx_head)%string) = Ok ejx_h /\
  p_hashedrekord (entry_parsers ejx) (s2b ("{""kind"":null," ++ ejx_head)%string) = Raise EPydantic /\
  p_hashedrekord (entry_parsers ejx) (s2b ("{""kind"":""dsse""," ++ ejx_head)%string) = Raise EPydantic /\
  p_hashedrekord (entry_parsers ejx) (s2b ("{ ""api_version"" : ""0.0.2"", " ++ ejx_head)%string) = Ok (mkH1 (s2l "0.0.2") (h1_sig ejx_h) (h1_pk ejx_h) (h1_hash ejx_h) 0) /\
  (* the last of two members of the same name counts *)
  p_hashedrekord (entry_parsers ejx) (s2b ("{""kind"":""dsse"",""kind"":""hashedrekord""," ++ ejx_head)%string) = Ok ejx_h.
Proof. repeat split; vm_compute; reflexivity. Qed.

Print Assumptions C110_rekord_accepts.
Print Assumptions C110_dsse_accepts.
Print Assumptions C110_v2_accepts.
Print Assumptions C110_artifact.
Print Assumptions C110_envelope.
Print Assumptions C110_one_artifact.
Print Assumptions C110_posted_artifact.
Print Assumptions C110_posted_envelope.
Print Assumptions C110_request_kept.
Print Assumptions C110_logged.
Print Assumptions C110_signed_artifact.
Print Assumptions C110_signed_statement.
Print Assumptions C110_answer_v1.
Print Assumptions C110_answer_v2.
