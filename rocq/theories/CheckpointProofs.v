From Verif Require Import Base Codec PyText Messages Env Keyring KeyringProofs Checkpoint.
Local Open Scope N_scope.

(** ** Specification: the signed-note syntax *)

(** One signature line: em dash, space, name, space, base64, newline. *)
Definition sig_line (name b64 : str) : str := EM_DASH :: SP :: name ++ SP :: b64 ++ [NL].

(** Every line followed by a newline. *)
Definition lines_text (ls : list str) : str := concat (map (fun l => l ++ [NL]) ls).

(** Body of a checkpoint: origin, size, base64 root hash, extension lines. *)
Definition body_lines (origin : str) (size : N) (root : bytes) (exts : list str) : list str :=
  origin :: dec size :: b64encode root :: exts.

(** A signed note: body, empty line, one line per signature (name, hint, signature). *)
Definition signed_note_text (body : str) (sigs : list (str * bytes * bytes)) : str :=
  body ++ [NL] ++ concat (map (fun '(n, h, s) => sig_line n (b64encode (h ++ s))) sigs).

Definition no_nl (l : str) : bool := forallb (fun c => negb (c =? NL)) l.
Definition no_space (l : str) : bool := forallb (fun c => negb (is_space c)) l.

(** ** Separators *)

Definition sep_occurrence (t a b : str) : Prop := t = a ++ [NL; NL] ++ b.

Lemma count_sep_cons2 : forall c c' r, count_sep (c :: c' :: r) =
  if (c =? NL) && (c' =? NL) then S (count_sep r) else count_sep (c' :: r).
Proof. reflexivity. Qed.

Lemma split_sep_cons2 : forall c c' r, split_sep (c :: c' :: r) =
  if (c =? NL) && (c' =? NL) then Some ([c], r)
  else match split_sep (c' :: r) with Some (h, d) => Some (c :: h, d) | None => None end.
Proof. reflexivity. Qed.

Lemma occ_cons : forall c t a b, sep_occurrence (c :: t) a b ->
  (a = nil /\ c = NL /\ exists r, t = NL :: r /\ b = r) \/
  (exists a', a = c :: a' /\ sep_occurrence t a' b).
Proof.
  intros c t a b H. unfold sep_occurrence in H. destruct a as [|x a]; simpl in H; inversion H; subst.
  - left. split; [reflexivity|]. split; [reflexivity|]. exists b. auto.
  - right. exists a. split; reflexivity.
Qed.

Lemma count_zero_no_occ : forall n t, (length t <= n)%nat -> count_sep t = 0%nat ->
  forall a b, ~ sep_occurrence t a b.
Proof.
  induction n as [|n IH]; intros t L H a b O.
  - destruct t; [|simpl in L; lia]. unfold sep_occurrence in O. destruct a; discriminate.
  - destruct t as [|c [|c' r]].
    + unfold sep_occurrence in O. destruct a; discriminate.
    + unfold sep_occurrence in O. destruct a as [|x [|]]; discriminate.
    + rewrite count_sep_cons2 in H. destruct ((c =? NL) && (c' =? NL)) eqn:E; [discriminate|].
      apply occ_cons in O. destruct O as [(-> & -> & r' & Q & _)|(a' & -> & O)].
      * inversion Q; subst. discriminate E.
      * eapply IH; [| exact H | exact O]. simpl in *. lia.
Qed.

Lemma split_sep_sound : forall t h d, split_sep t = Some (h, d) ->
  exists p, h = p ++ [NL] /\ t = p ++ [NL; NL] ++ d /\
    (count_sep t = S (count_sep d)) /\
    (forall a b, sep_occurrence t a b -> (length p <= length a)%nat).
Proof.
  induction t as [|c t IH]; intros h d H; [discriminate|].
  destruct t as [|c' r]; [discriminate|].
  rewrite split_sep_cons2 in H. rewrite count_sep_cons2.
  destruct ((c =? NL) && (c' =? NL)) eqn:E.
  - inversion H; subst. apply andb_true_iff in E. destruct E as [E1 E2].
    apply N.eqb_eq in E1, E2. subst. exists nil. repeat split. intros; simpl; lia.
  - destruct (split_sep (c' :: r)) as [[h' d']|] eqn:S'; [|discriminate]. inversion H; subst.
    destruct (IH _ _ eq_refl) as (p & -> & Q & C & F). exists (c :: p).
    split; [reflexivity|]. split; [simpl; f_equal; exact Q|]. split; [exact C|].
    intros a b O. apply occ_cons in O. destruct O as [(-> & -> & r' & Q' & _)|(a' & -> & O)].
    + inversion Q'; subst. discriminate E.
    + simpl. apply le_n_S. eapply F. exact O.
Qed.

Lemma split_sep_complete : forall t, count_sep t <> 0%nat -> split_sep t <> None.
Proof.
  induction t as [|c t IH]; intros H; [simpl in H; congruence|].
  destruct t as [|c' r]; [simpl in H; congruence|].
  rewrite split_sep_cons2. rewrite count_sep_cons2 in H.
  destruct ((c =? NL) && (c' =? NL)); [discriminate|].
  specialize (IH H). destruct (split_sep (c' :: r)) as [[? ?]|]; [discriminate|contradiction].
Qed.

(** The blank line is unique (three newlines in a row give two overlapping
    positions but count as one, as in Python). *)
Lemma one_separator : forall t h d, count_sep t = 1%nat -> split_sep t = Some (h, d) ->
  exists p, h = p ++ [NL] /\ t = p ++ [NL; NL] ++ d /\
    forall a b, sep_occurrence t a b -> a = p \/ a = p ++ [NL].
Proof.
  intros t h d C S0. destruct (split_sep_sound _ _ _ S0) as (p & Hh & Ht & Hc & Hf).
  exists p. split; [assumption|]. split; [assumption|]. intros a b O.
  pose proof (Hf _ _ O) as L. unfold sep_occurrence in O. rewrite Ht in O.
  assert (exists q, a = p ++ q) as [q ->].
  { clear - O L. revert a O L. induction p as [|x p IH]; intros a O L; [exists a; reflexivity|].
    destruct a as [|y a]; [simpl in L; lia|]. simpl in O. inversion O; subst.
    destruct (IH a H1) as [q ->]; [simpl in L; lia|]. exists q. reflexivity. }
  rewrite <- app_assoc in O. apply app_inv_head in O.
  destruct q as [|x [|y q]].
  - left. apply app_nil_r.
  - right. simpl in O. inversion O; subst. reflexivity.
  - exfalso. simpl in O. inversion O; subst.
    apply (count_zero_no_occ (length (q ++ NL :: NL :: b)) (q ++ NL :: NL :: b)) with (a := q) (b := b); auto.
    rewrite C in Hc. injection Hc as Hc. auto.
    reflexivity.
Qed.

(** ** Signature lines *)

Lemma span_nonspace_spec : forall t a b, span_nonspace t = (a, b) ->
  t = a ++ b /\ no_space a = true /\ (match b with nil => True | c :: _ => is_space c = true end).
Proof.
  induction t as [|c t IH]; intros a b H; simpl in H.
  - inversion H; subst. auto.
  - destruct (is_space c) eqn:E.
    + inversion H; subst. auto.
    + destruct (span_nonspace t) as [a' b'] eqn:Q. inversion H; subst.
      destruct (IH _ _ eq_refl) as (A & B & C). subst t. repeat split; auto.
      unfold no_space. simpl. rewrite E. exact B.
Qed.

Lemma span_nonspace_app : forall a b, no_space a = true ->
  (match b with nil => True | c :: _ => is_space c = true end) ->
  span_nonspace (a ++ b) = (a, b).
Proof.
  induction a as [|c a IH]; intros b Ha Hb; simpl.
  - destruct b as [|c b]; [reflexivity|]. simpl. rewrite Hb. reflexivity.
  - unfold no_space in Ha. simpl in Ha. apply andb_true_iff in Ha. destruct Ha as [Hc Ha].
    apply negb_true_iff in Hc. rewrite Hc. rewrite IH by assumption. reflexivity.
Qed.

Lemma match_sig_sound : forall t n s len, match_sig t = Some (n, s, len) ->
  exists rest, t = sig_line n s ++ rest /\ len = length (sig_line n s) /\
    n <> nil /\ s <> nil /\ no_space n = true /\ no_space s = true.
Proof.
  intros t n s len H. unfold match_sig in H.
  destruct t as [|d [|sp r]]; try discriminate.
  destruct ((d =? EM_DASH) && (sp =? SP)) eqn:E; [|discriminate].
  apply andb_true_iff in E. destruct E as [E1 E2]. apply N.eqb_eq in E1, E2. subst.
  destruct (span_nonspace r) as [a b] eqn:S1. destruct a as [|n0 name]; [discriminate|].
  destruct b as [|s' r2]; [discriminate|]. destruct (s' =? SP) eqn:E3; [|discriminate].
  apply N.eqb_eq in E3. subst.
  destruct (span_nonspace r2) as [g b2] eqn:S2. destruct g as [|g0 sig]; [discriminate|].
  destruct b2 as [|nl rest]; [discriminate|]. destruct (nl =? NL) eqn:E4; [|discriminate].
  apply N.eqb_eq in E4. subst. inversion H; subst.
  apply span_nonspace_spec in S1, S2. destruct S1 as (-> & N1 & _), S2 as (-> & N2 & _).
  exists rest. split; [|split].
  - unfold sig_line. simpl. rewrite <- !app_assoc. simpl. rewrite <- app_assoc. reflexivity.
  - unfold sig_line. cbn [length]. rewrite !app_length. cbn [length]. rewrite !app_length. cbn [length]. lia.
  - repeat split; auto; discriminate.
Qed.

Lemma match_sig_complete : forall n s rest, n <> nil -> s <> nil ->
  no_space n = true -> no_space s = true ->
  match_sig (sig_line n s ++ rest) = Some (n, s, length (sig_line n s)).
Proof.
  intros n s rest Hn Hs Nn Ns. unfold sig_line.
  replace ((EM_DASH :: SP :: n ++ SP :: s ++ [NL]) ++ rest)
    with (EM_DASH :: SP :: n ++ (SP :: s ++ NL :: rest))
    by (simpl; rewrite <- !app_assoc; simpl; rewrite <- app_assoc; reflexivity).
  unfold match_sig. cbn [andb]. rewrite !N.eqb_refl. cbn [andb].
  rewrite span_nonspace_app by (auto; reflexivity).
  destruct n as [|n0 n]; [contradiction|]. rewrite N.eqb_refl.
  rewrite span_nonspace_app by (auto; reflexivity).
  destruct s as [|s0 s]; [contradiction|]. rewrite N.eqb_refl. repeat f_equal.
  cbn [length]. rewrite !app_length. cbn [length]. rewrite !app_length. cbn [length]. lia.
Qed.

Lemma findall_skip : forall a t, findall_sigs (length a) (a ++ t) = findall_sigs 0 t.
Proof. induction a as [|c a IH]; intros t; [reflexivity|]. simpl. apply IH. Qed.

Lemma findall_sound : forall t k n s, In (n, s) (findall_sigs k t) ->
  exists pre post, t = pre ++ sig_line n s ++ post /\ n <> nil /\ s <> nil /\
    no_space n = true /\ no_space s = true.
Proof.
  induction t as [|c t IH]; intros k n s H; [destruct H|]. cbn [findall_sigs] in H.
  destruct k as [|k].
  - destruct (match_sig (c :: t)) as [[[n' s'] len]|] eqn:M.
    + destruct H as [Q|H].
      * inversion Q; subst. apply match_sig_sound in M.
        destruct M as (rest & E & _ & A & B & C & D). exists nil, rest. auto.
      * destruct (IH _ _ _ H) as (pre & post & -> & R). exists (c :: pre), post. auto.
    + destruct (IH _ _ _ H) as (pre & post & -> & R). exists (c :: pre), post. auto.
  - destruct (IH _ _ _ H) as (pre & post & -> & R). exists (c :: pre), post. auto.
Qed.

Lemma findall_lines : forall sigs,
  (forall n s, In (n, s) sigs -> n <> nil /\ s <> nil /\ no_space n = true /\ no_space s = true) ->
  findall_sigs 0 (concat (map (fun '(n, s) => sig_line n s) sigs)) = sigs.
Proof.
  induction sigs as [|[n s] sigs IH]; intros H; [reflexivity|]. cbn [map concat].
  destruct (H n s (or_introl eq_refl)) as (A & B & C & D).
  pose proof (match_sig_complete n s (concat (map (fun '(n, s) => sig_line n s) sigs)) A B C D) as M.
  assert (exists c l, sig_line n s = c :: l) as (c & l & El) by (unfold sig_line; eauto).
  rewrite El in M |- *. cbn [app] in M |- *. cbn [findall_sigs]. rewrite M.
  cbn [length]. rewrite Nat.sub_succ, Nat.sub_0_r. f_equal.
  rewrite findall_skip. apply IH. intros; apply H; right; assumption.
Qed.

(** ** Shape of successful parses *)

Lemma note_from_text_ok : forall text n, note_from_text text = Ok n ->
  exists p data, sn_note n = p ++ [NL] /\ text = p ++ [NL; NL] ++ data /\
    (forall a b, sep_occurrence text a b -> a = p \/ a = p ++ [NL]) /\
    map_res parse_signature (findall_sigs 0 data) = Ok (sn_signatures n).
Proof.
  intros text n H. unfold note_from_text in H. inv_bind H.
  apply raise_if_ok in Ha. apply negb_false_iff, Nat.eqb_eq in Ha.
  destruct (split_sep text) as [[h d]|] eqn:S; [|discriminate].
  inv_bind H. inv_bind H. inv_bind H. inversion H; subst. simpl.
  destruct (one_separator _ _ _ Ha S) as (p & -> & -> & U). exists p, d. auto.
Qed.

Lemma parse_signature_ok : forall p r, parse_signature p = Ok r ->
  exists sb, b64decode (snd p) = Ok sb /\ (5 <= length sb)%nat /\
    rs_name r = fst p /\ rs_hash r = firstn 4 sb /\ rs_signature r = b64encode (skipn 4 sb).
Proof.
  intros [n s] r H. unfold parse_signature in H. inv_bind H. inv_bind H.
  apply raise_if_ok in Ha0. apply Nat.ltb_ge in Ha0. inversion H; subst. exists a. auto.
Qed.

Lemma Forall2_in_r : forall (A B : Type) (R : A -> B -> Prop) la lb b,
  Forall2 R la lb -> In b lb -> exists a, In a la /\ R a b.
Proof.
  intros A B R la lb b F. induction F as [|x y la lb Hxy F IH]; intros Hin; [destruct Hin|].
  destruct Hin as [->|Hin]; [exists x; split; [left; reflexivity|assumption]|].
  destruct (IH Hin) as (a & Ha & Hr). exists a. split; [right; assumption|assumption].
Qed.

Section E.
Variable env : Env.

Lemma verify_sigs_ok : forall kr kid note sigs u, verify_sigs env kr kid note sigs = Ok u ->
  exists s, In s sigs /\ rs_hash s = firstn 4 kid /\
    exists raw, b64decode (rs_signature s) = Ok raw /\ keyring_verify env kr kid raw note = Ok tt.
Proof.
  induction sigs as [|s sigs IH]; intros u H; cbn [verify_sigs] in H; [discriminate|].
  destruct (bytes_eqb (rs_hash s) (firstn 4 kid)) eqn:E.
  - apply bytes_eqb_spec in E. exists s. split; [left; reflexivity|]. split; [assumption|].
    unfold try_except in H.
    destruct (let* raw := b64decode (rs_signature s) in keyring_verify env kr kid raw note) as [x|x] eqn:Q.
    + inv_bind Q. exists a. destruct x. auto.
    + destruct (is_verification_error x); discriminate.
  - destruct (IH _ H) as (s' & A & B). exists s'. split; [right; assumption|assumption].
Qed.

Lemma checkpoint_from_text_ok : forall text cp, checkpoint_from_text env text = Ok cp ->
  exists origin size hash other root z, split_on NL (strip text) = origin :: size :: hash :: other /\
    origin <> nil /\ py_int (e_udecimal env) size = Some z /\ b64decode hash = Ok root /\
    cp = mkLC origin z (hex root) other.
Proof.
  intros text cp H. unfold checkpoint_from_text in H.
  destruct (split_on NL (strip text)) as [|origin [|size [|hash other]]]; try discriminate.
  inv_bind H. apply raise_if_ok in Ha. apply Nat.eqb_neq in Ha.
  destruct (py_int (e_udecimal env) size) as [z|] eqn:Ez; [|discriminate].
  inv_bind H. inv_bind H. inv_bind H. inversion H; subst.
  exists origin, size, hash, other, a0, z. repeat split; auto.
  - destruct origin; [simpl in Ha; congruence|discriminate].
  - unfold try_except in Ha0. destruct (b64decode hash) as [r|x]; [congruence|].
    destruct (exn_eqb x EBinascii); discriminate.
Qed.

Theorem checkpoint_accepted : forall ms kr e ip u,
  make_keyring env ms = Ok kr -> le_proof e = Some ip ->
  verify_checkpoint env kr e = Ok u ->
  exists text p data, ip_checkpoint ip = Some text /\
    text = p ++ [NL; NL] ++ data /\
    (forall a b, text = a ++ [NL; NL] ++ b -> a = p \/ a = p ++ [NL]) /\
    (exists pre name b64 post hint sg noteb k s,
       data = pre ++ sig_line name b64 ++ post /\
       name <> nil /\ no_space name = true /\ no_space b64 = true /\
       b64decode b64 = Ok (hint ++ sg) /\ length hint = 4%nat /\ sg <> nil /\
       hint = firstn 4 (le_log_id e) /\
       utf8_encode (p ++ [NL]) = Some noteb /\
       registered env ms k s /\ e_sig_verify env s k sg noteb = Ok tt /\
       ((exists k' s', registered env ms k' s' /\ msg_id env k' = le_log_id e) ->
        msg_id env k = le_log_id e)) /\
    (exists origin size hash other,
       split_on NL (strip (p ++ [NL])) = origin :: size :: hash :: other /\
       origin <> nil /\ py_int (e_udecimal env) size <> None /\
       b64decode hash = Ok (ip_root_hash ip)).
Proof.
  intros ms kr e ip u Hk Hip H. unfold verify_checkpoint in H. rewrite Hip in H.
  destruct (ip_checkpoint ip) as [text|]; [|discriminate].
  inv_bind H. destruct a as [note cp]. inv_bind H.
  apply raise_if_ok in H. apply negb_false_iff, str_eqb_spec in H.
  unfold signed_checkpoint_from_text in Ha. inv_bind Ha. inv_bind Ha. inversion Ha; subst a0 a1.
  clear Ha. rename Ha1 into Hn, Ha2 into Hc.
  destruct (note_from_text_ok _ _ Hn) as (p & data & En & Et & U & Hs).
  exists text, p, data. split; [reflexivity|]. split; [assumption|]. split; [exact U|]. split.
  - unfold note_verify in Ha0. destruct (utf8_encode (sn_note note)) as [noteb|] eqn:Eu; [|discriminate].
    apply verify_sigs_ok in Ha0. destruct Ha0 as (s & Hin & Hh & raw & Hb & Hv).
    apply map_res_ok in Hs. destruct (Forall2_in_r _ _ _ _ _ _ Hs Hin) as ([n0 s0] & Hin0 & Hp).
    apply parse_signature_ok in Hp. destruct Hp as (sb & Hd & L & R1 & R2 & R3). cbn [fst snd] in *.
    apply findall_sound in Hin0. destruct Hin0 as (pre & post & Ed & Nz & _ & Nn & Nb).
    rewrite R3, b64decode_b64encode in Hb. inversion Hb; subst raw.
    destruct (keyring_sound env ms kr _ _ _ _ Hk Hv) as (k & sc & A & B & C).
    exists pre, n0, s0, post, (firstn 4 sb), (skipn 4 sb), noteb, k, sc.
    rewrite firstn_skipn. rewrite <- En.
    repeat split; auto.
    + rewrite firstn_length. lia.
    + intros Q. apply (f_equal (@length byte)) in Q. rewrite skipn_length in Q. simpl in Q. lia.
    + congruence.
  - destruct (checkpoint_from_text_ok _ _ Hc) as (o & sz & h & oth & root & z & A & B & C & D & ->).
    simpl in H. apply hex_inj in H. subst root. exists o, sz, h, oth.
    rewrite <- En. repeat split; auto. congruence.
Qed.

(** ** Exceptions *)

Lemma b64decode_raise : forall s e, b64decode s = Raise e ->
  (e = EValue /\ is_ascii s = false) \/ (e = EBinascii /\ is_ascii s = true).
Proof.
  intros s e. unfold b64decode. destruct (is_ascii s); [|intros H; inversion H; auto].
  destruct (a2b s 0 0 0); intros H; inversion H; auto.
Qed.

Lemma map_res_raise : forall (A B : Type) (f : A -> res B) l e, map_res f l = Raise e ->
  exists x, In x l /\ f x = Raise e.
Proof.
  induction l as [|x l IH]; intros e H; simpl in H; [discriminate|].
  apply bind_raise_inv in H. destruct H as [H|(y & Hy & H)].
  - exists x. simpl; auto.
  - apply bind_raise_inv in H. destruct H as [H|(ys & Hys & H)]; [|discriminate].
    destruct (IH _ H) as (z & Hz & Hf). exists z. simpl; auto.
Qed.

Lemma for_each_raise : forall (A : Type) (f : A -> res unit) l e, for_each f l = Raise e ->
  exists x, In x l /\ f x = Raise e.
Proof.
  induction l as [|x l IH]; intros e H; simpl in H; [discriminate|].
  apply bind_raise_inv in H. destruct H as [H|(y & Hy & H)].
  - exists x. simpl; auto.
  - destruct (IH _ H) as (z & Hz & Hf). exists z. simpl; auto.
Qed.

Lemma note_from_text_raise : forall text e, note_from_text text = Raise e ->
  e = EVerification \/
  exists a name b64 c, text = a ++ sig_line name b64 ++ c /\ b64decode b64 = Raise e /\
    ((e = EValue /\ is_ascii b64 = false) \/ (e = EBinascii /\ is_ascii b64 = true)).
Proof.
  intros text e H. unfold note_from_text in H.
  apply bind_raise_inv in H. destruct H as [H|(x & Hx & H)]; [apply raise_if_raise in H; tauto|].
  apply raise_if_ok in Hx. apply negb_false_iff, Nat.eqb_eq in Hx.
  destruct (split_sep text) as [[h d]|] eqn:S.
  - apply bind_raise_inv in H. destruct H as [H|(y & Hy & H)]; [apply raise_if_raise in H; tauto|].
    apply bind_raise_inv in H. destruct H as [H|(z & Hz & H)]; [apply raise_if_raise in H; tauto|].
    apply bind_raise_inv in H. destruct H as [H|(w & Hw & H)]; [|discriminate].
    apply map_res_raise in H. destruct H as ([n s] & Hin & Hp).
    unfold parse_signature in Hp. apply bind_raise_inv in Hp.
    destruct Hp as [Hp|(sb & Hsb & Hp)].
    + right. apply findall_sound in Hin. destruct Hin as (pre & post & -> & _).
      destruct (split_sep_sound _ _ _ S) as (p & _ & -> & _).
      exists (p ++ [NL; NL] ++ pre), n, s, post.
      split; [rewrite <- !app_assoc; reflexivity|]. split; [assumption|]. apply b64decode_raise. assumption.
    + left. apply bind_raise_inv in Hp. destruct Hp as [Hp|(u & _ & Hp)]; [|discriminate].
      apply raise_if_raise in Hp. tauto.
  - exfalso. apply (split_sep_complete text); [lia|assumption].
Qed.

Lemma checkpoint_from_text_raise : forall text e, checkpoint_from_text env text = Raise e ->
  e = EVerification \/
  (e = EValue /\ exists origin size hash other,
     split_on NL (strip text) = origin :: size :: hash :: other /\ is_ascii hash = false) \/
  (e = EPydantic /\ forallb is_scalar text = false).
Proof.
  intros text e H. unfold checkpoint_from_text in H.
  destruct (split_on NL (strip text)) as [|origin [|size [|hash other]]] eqn:Sp;
    try (left; congruence).
  assert (Hscal : forall l, In l (origin :: size :: hash :: other) ->
                  forallb is_scalar l = false -> forallb is_scalar text = false).
  { intros l Hl Hf. apply not_true_iff_false. intros Ht. apply not_true_iff_false in Hf. apply Hf.
    rewrite <- Sp in Hl. destruct (strip_split text) as (w1 & w2 & Et & _ & _).
    rewrite Et, !forallb_app in Ht. apply andb_true_iff in Ht. destruct Ht as [_ Ht].
    apply andb_true_iff in Ht. destruct Ht as [Ht _].
    rewrite <- (join_split NL (strip text)) in Ht. clear - Hl Ht.
    induction (split_on NL (strip text)) as [|q qs IH]; [destruct Hl|].
    destruct qs as [|q2 qs].
    - destruct Hl as [<-|[]]. exact Ht.
    - cbn [join_on] in Ht. rewrite forallb_app in Ht. apply andb_true_iff in Ht. destruct Ht as [H1 H2].
      destruct Hl as [<-|Hl]; [assumption|]. apply IH; [assumption|].
      cbn [forallb] in H2. apply andb_true_iff in H2. tauto. }
  apply bind_raise_inv in H. destruct H as [H|(x & Hx & H)]; [apply raise_if_raise in H; tauto|].
  destruct (py_int (e_udecimal env) size) as [z|]; [|left; congruence].
  apply bind_raise_inv in H. destruct H as [H|(y & Hy & H)].
  - unfold try_except in H. destruct (b64decode hash) as [r|x'] eqn:B; [discriminate|].
    apply b64decode_raise in B. destruct B as [[-> B]|[-> B]]; simpl in H; inversion H; subst.
    + right; left. split; [reflexivity|]. exists origin, size, hash, other. auto.
    + left; reflexivity.
  - apply bind_raise_inv in H. destruct H as [H|(v & Hv & H)].
    + apply raise_if_raise in H. destruct H as [H ->]. apply negb_true_iff in H.
      right; right. split; [reflexivity|]. eapply Hscal; [|exact H]. left; reflexivity.
    + apply bind_raise_inv in H. destruct H as [H|(w & Hw & H)]; [|discriminate].
      apply for_each_raise in H. destruct H as (l & Hin & H).
      apply raise_if_raise in H. destruct H as [H ->]. apply negb_true_iff in H.
      right; right. split; [reflexivity|]. eapply Hscal; [|exact H]. do 3 right; assumption.
Qed.

Lemma utf8_encode_none : forall s, utf8_encode s = None -> forallb is_scalar s = false.
Proof.
  induction s as [|c s IH]; intros H; simpl in *; [discriminate|].
  destruct (is_scalar c); [|reflexivity]. simpl.
  destruct (utf8_encode s); [discriminate|]. auto.
Qed.

Lemma verify_sigs_raise : forall kr kid note sigs e,
  (forall s, In s sigs -> exists b, rs_signature s = b64encode b) ->
  verify_sigs env kr kid note sigs = Raise e ->
  e = EVerification \/ exists s b, In s sigs /\ rs_signature s = b64encode b /\ keyring_verify env kr kid b note = Raise e.
Proof.
  induction sigs as [|s sigs IH]; intros e Hs H; cbn [verify_sigs] in H; [left; congruence|].
  destruct (bytes_eqb (rs_hash s) (firstn 4 kid)).
  - destruct (Hs s (or_introl eq_refl)) as (b & Eb). rewrite Eb, b64decode_b64encode in H.
    simpl in H. unfold try_except in H. destruct (keyring_verify env kr kid b note) as [x|x] eqn:K; [discriminate|].
    destruct (is_verification_error x); inversion H; subst; [auto|].
    right. exists s, b. split; [left; reflexivity|]. auto.
  - destruct (IH e) as [?|(s' & b & A & B & C)]; auto.
    + intros; apply Hs; right; assumption.
    + right. exists s', b. split; [right; assumption|auto].
Qed.

Theorem checkpoint_exceptions : forall ms kr e ip x,
  make_keyring env ms = Ok kr -> le_proof e = Some ip ->
  verify_checkpoint env kr e = Raise x ->
  x = EVerification \/
  (exists text, ip_checkpoint ip = Some text /\
    ((exists a name b64 c, text = a ++ sig_line name b64 ++ c /\ b64decode b64 = Raise x /\
       ((x = EValue /\ is_ascii b64 = false) \/ (x = EBinascii /\ is_ascii b64 = true)))
     \/ (x = EValue /\ exists p data origin size hash other, text = p ++ [NL; NL] ++ data /\
           split_on NL (strip (p ++ [NL])) = origin :: size :: hash :: other /\ is_ascii hash = false)
     \/ ((x = EPydantic \/ x = EUnicodeEncode) /\ forallb is_scalar text = false)
     \/ (exists k s sg d, registered env ms k s /\ e_sig_verify env s k sg d = Raise x /\ x <> EInvalidSignature))).
Proof.
  intros ms kr e ip x Hk Hip H. unfold verify_checkpoint in H. rewrite Hip in H.
  destruct (ip_checkpoint ip) as [text|]; [|left; congruence].
  apply bind_raise_inv in H. destruct H as [H|([note cp] & Hsc & H)].
  - unfold signed_checkpoint_from_text in H. apply bind_raise_inv in H.
    destruct H as [H|(note & Hn & H)].
    + apply note_from_text_raise in H. destruct H as [->|H]; [left; reflexivity|].
      right. exists text. split; [reflexivity|]. left. exact H.
    + apply bind_raise_inv in H. destruct H as [H|(cp & _ & H)]; [|discriminate].
      destruct (note_from_text_ok _ _ Hn) as (p & data & En & Et & _ & _).
      apply checkpoint_from_text_raise in H.
      destruct H as [->|[[-> (o & sz & h & oth & A & B)]|[-> Hf]]]; [left; reflexivity| |].
      * right. exists text. split; [reflexivity|]. right; left. split; [reflexivity|].
        exists p, data, o, sz, h, oth. rewrite <- En. auto.
      * right. exists text. split; [reflexivity|]. right; right; left. split; [auto|].
        rewrite Et. rewrite En in Hf. rewrite forallb_app in Hf.
        rewrite !forallb_app. simpl in *. destruct (forallb is_scalar p); [discriminate|reflexivity].
  - unfold signed_checkpoint_from_text in Hsc. inv_bind Hsc. inv_bind Hsc. inversion Hsc; subst a a0.
    destruct (note_from_text_ok _ _ Ha) as (p & data & En & Et & _ & Hs).
    apply bind_raise_inv in H. destruct H as [H|(u & _ & H)].
    + unfold note_verify in H. destruct (utf8_encode (sn_note note)) as [nb|] eqn:Eu.
      * apply verify_sigs_raise in H.
        -- destruct H as [->|(s & b & Hin & _ & Hv)]; [left; reflexivity|].
           destruct (keyring_exceptions env ms kr _ _ _ _ Hk Hv) as [->|(k & sc & A & B)]; [left; reflexivity|].
           right. exists text. split; [reflexivity|]. do 3 right. exists k, sc, b, nb. auto.
        -- intros s Hin. apply map_res_ok in Hs.
           destruct (Forall2_in_r _ _ _ _ _ _ Hs Hin) as (q & _ & Hq).
           apply parse_signature_ok in Hq. destruct Hq as (sb & _ & _ & _ & _ & R). eauto.
      * inversion H; subst. apply utf8_encode_none in Eu.
        right. exists (p ++ [NL; NL] ++ data). split; [reflexivity|]. right; right; left. split; [auto|].
        rewrite En in Eu. rewrite forallb_app in Eu. rewrite !forallb_app. simpl in *.
        destruct (forallb is_scalar p); [discriminate|reflexivity].
    + left. apply raise_if_raise in H. tauto.
Qed.

(** ** Well-formed notes *)

Lemma count_sep_nonl : forall l t, no_nl l = true -> count_sep (l ++ t) = count_sep t.
Proof.
  induction l as [|c l IH]; intros t H; [reflexivity|]. unfold no_nl in H. simpl in H.
  apply andb_true_iff in H. destruct H as [Hc Hl]. apply negb_true_iff in Hc.
  rewrite <- (IH t Hl). cbn [app]. destruct (l ++ t) as [|c' r]; [reflexivity|].
  rewrite count_sep_cons2, Hc. reflexivity.
Qed.

Lemma split_sep_nonl : forall l t, no_nl l = true ->
  split_sep (l ++ t) = match split_sep t with Some (h, d) => Some (l ++ h, d) | None => None end.
Proof.
  induction l as [|c l IH]; intros t H.
  - simpl. destruct (split_sep t) as [[? ?]|]; reflexivity.
  - unfold no_nl in H. simpl in H. apply andb_true_iff in H. destruct H as [Hc Hl].
    apply negb_true_iff in Hc. specialize (IH t Hl). cbn [app].
    destruct (l ++ t) as [|c' r] eqn:Q.
    + destruct l; [|discriminate]. simpl in Q. subst t. reflexivity.
    + rewrite split_sep_cons2, Hc. cbn [andb]. rewrite IH.
      destruct (split_sep t) as [[? ?]|]; reflexivity.
Qed.

Definition good_line (l : str) : bool := match l with nil => false | _ => no_nl l end.

Lemma count_sep_nl_line : forall l t, good_line l = true ->
  count_sep (NL :: l ++ t) = count_sep (l ++ t).
Proof.
  intros [|c l] t H; [discriminate|]. cbn [app]. rewrite count_sep_cons2.
  unfold good_line, no_nl in H. simpl in H. apply andb_true_iff in H. destruct H as [Hc _].
  apply negb_true_iff in Hc. rewrite Hc. rewrite andb_false_r. reflexivity.
Qed.

Lemma split_sep_nl_line : forall l t, good_line l = true ->
  split_sep (NL :: l ++ t) =
  match split_sep (l ++ t) with Some (h, d) => Some (NL :: h, d) | None => None end.
Proof.
  intros [|c l] t H; [discriminate|]. cbn [app]. rewrite split_sep_cons2.
  unfold good_line, no_nl in H. simpl in H. apply andb_true_iff in H. destruct H as [Hc _].
  apply negb_true_iff in Hc. rewrite Hc. rewrite andb_false_r. reflexivity.
Qed.

Lemma good_no_nl : forall l, good_line l = true -> no_nl l = true.
Proof. intros [|c l]; [discriminate|auto]. Qed.

Lemma count_sep_lines : forall ls t, ls <> nil -> forallb good_line ls = true ->
  count_sep (lines_text ls ++ t) = count_sep (NL :: t).
Proof.
  induction ls as [|l ls IH]; intros t NE H; [contradiction|]. clear NE.
  cbn [forallb] in H. apply andb_true_iff in H. destruct H as [Hl Hls].
  unfold lines_text in *. cbn [map concat]. rewrite <- !app_assoc. cbn [app].
  rewrite count_sep_nonl by (apply good_no_nl; assumption).
  destruct ls as [|l2 ls].
  - reflexivity.
  - rewrite <- (IH t) by (auto; discriminate).
    cbn [map concat]. rewrite <- !app_assoc. apply count_sep_nl_line.
    cbn [forallb] in Hls. apply andb_true_iff in Hls. tauto.
Qed.

Lemma split_sep_lines : forall ls d, ls <> nil -> forallb good_line ls = true ->
  split_sep (lines_text ls ++ NL :: d) = Some (lines_text ls, d).
Proof.
  induction ls as [|l ls IH]; intros d NE H; [contradiction|]. clear NE.
  cbn [forallb] in H. apply andb_true_iff in H. destruct H as [Hl Hls].
  unfold lines_text in *. cbn [map concat]. rewrite <- !app_assoc. cbn [app].
  rewrite split_sep_nonl by (apply good_no_nl; assumption).
  destruct ls as [|l2 ls].
  - reflexivity.
  - assert (Hg2 : good_line l2 = true) by (cbn [forallb] in Hls; apply andb_true_iff in Hls; tauto).
    specialize (IH d ltac:(discriminate) Hls). cbn [map concat] in *.
    rewrite <- !app_assoc in IH |- *. rewrite split_sep_nl_line by assumption.
    rewrite IH. reflexivity.
Qed.

Lemma lines_text_join : forall ls, ls <> nil -> lines_text ls = join_on NL ls ++ [NL].
Proof.
  induction ls as [|l ls IH]; intros NE; [contradiction|].
  unfold lines_text in *. cbn [map concat]. destruct ls as [|l2 ls].
  - simpl. rewrite app_nil_r. reflexivity.
  - rewrite IH by discriminate. cbn [join_on]. rewrite <- !app_assoc. reflexivity.
Qed.

Lemma split_join : forall ls, ls <> nil -> forallb no_nl ls = true -> split_on NL (join_on NL ls) = ls.
Proof.
  induction ls as [|l ls IH]; intros NE H; [contradiction|].
  cbn [forallb] in H. apply andb_true_iff in H. destruct H as [Hl Hls].
  destruct ls as [|l2 ls].
  - apply split_on_no_sep. exact Hl.
  - cbn [join_on]. rewrite split_on_app by exact Hl. f_equal. apply IH; [discriminate|assumption].
Qed.

(** What the C2SP syntax asks of each part. *)
Definition starts_nonspace (l : str) : bool := match l with c :: _ => negb (is_space c) | nil => false end.
Definition ends_nonspace (l : str) : bool := starts_nonspace (rev l).

Record good_body (origin : str) (size : N) (root : bytes) (exts : list str) : Prop := {
  gb_origin : starts_nonspace origin = true;
  gb_origin_nl : no_nl origin = true;
  gb_scalar : forallb is_scalar origin = true /\ forallb (forallb is_scalar) exts = true;
  gb_size : N.of_nat (length (dec size)) <= max_str_digits;
  gb_root : root <> nil;
  gb_exts : forallb good_line exts = true;
  gb_last : ends_nonspace (last exts [65]) = true
}.

Definition good_sig (x : str * bytes * bytes) : Prop :=
  let '(n, h, s) := x in n <> nil /\ no_space n = true /\ length h = 4%nat /\ s <> nil.

Lemma b64_nospace : forall b, no_space (b64encode b) = true.
Proof.
  assert (Hc : forall n, n < 64 -> negb (is_space (b64_char n)) = true).
  { intros n Hn. unfold b64_char, is_space.
    destruct (n <? 26) eqn:E1; [lia|]. destruct (n <? 52) eqn:E2; [lia|].
    destruct (n <? 62) eqn:E3; [lia|]. destruct (n =? 62); reflexivity. }
  intros b. unfold no_space. induction b as [| |x y|x y z r IH] using list3_ind.
  - reflexivity.
  - pose proof (b2n_lt x). cbn [b64encode forallb]. rewrite !Hc by lia. reflexivity.
  - pose proof (b2n_lt x). pose proof (b2n_lt y). cbn [b64encode forallb]. rewrite !Hc by lia. reflexivity.
  - pose proof (b2n_lt x). pose proof (b2n_lt y). pose proof (b2n_lt z).
    cbn [b64encode forallb]. rewrite !Hc by lia. exact IH.
Qed.

Lemma b64_nonempty : forall b, b <> nil -> b64encode b <> nil.
Proof. intros [|x [|y [|z r]]] H; [contradiction| | | ]; discriminate. Qed.

Lemma nospace_nonl : forall l, no_space l = true -> no_nl l = true.
Proof.
  intros l H. unfold no_nl, no_space in *. rewrite forallb_forall in *. intros c Hc.
  specialize (H c Hc). apply negb_true_iff in H. apply negb_true_iff.
  apply N.eqb_neq. intros ->. discriminate H.
Qed.

Lemma digits_nospace : forall l, forallb is_digit l = true -> no_space l = true.
Proof.
  intros l H. unfold no_space. rewrite forallb_forall in *. intros c Hc. specialize (H c Hc).
  unfold is_digit in H. unfold is_space. lia.
Qed.

Lemma last_cons_app : forall (A : Type) (l : list A) x d, last (x :: l) d = last l x.
Proof.
  induction l as [|y l IH]; intros x d; [reflexivity|].
  change (last (x :: y :: l) d) with (last (y :: l) d). rewrite !IH. reflexivity.
Qed.

Lemma body_lines_good : forall o sz root exts, good_body o sz root exts ->
  forallb good_line (body_lines o sz root exts) = true.
Proof.
  intros o sz root exts G. destruct G. unfold body_lines. cbn [forallb].
  assert (good_line o = true) as ->.
  { destruct o; [discriminate|]. exact gb_origin_nl0. }
  assert (good_line (dec sz) = true) as ->.
  { pose proof (dec_nonempty sz). pose proof (nospace_nonl _ (digits_nospace _ (dec_digits sz))).
    destruct (dec sz); [contradiction|]. assumption. }
  assert (good_line (b64encode root) = true) as ->.
  { pose proof (b64_nonempty root gb_root0). pose proof (nospace_nonl _ (b64_nospace root)).
    destruct (b64encode root); [contradiction|]. assumption. }
  exact gb_exts0.
Qed.

Lemma ends_nonspace_inv : forall l, ends_nonspace l = true -> exists l' c, l = l' ++ [c] /\ is_space c = false.
Proof.
  intros l H. unfold ends_nonspace in H. destruct (rev l) as [|c r] eqn:E; [discriminate|].
  exists (rev r), c. split.
  - rewrite <- (rev_involutive l), E. reflexivity.
  - simpl in H. apply negb_true_iff. assumption.
Qed.

Lemma nospace_ends : forall l, l <> nil -> no_space l = true -> ends_nonspace l = true.
Proof.
  intros l Hn H. unfold ends_nonspace. unfold no_space in H. rewrite <- forallb_rev in H.
  destruct (rev l) as [|c r] eqn:E.
  - exfalso. apply Hn. rewrite <- (rev_involutive l), E. reflexivity.
  - simpl in *. apply andb_true_iff in H. tauto.
Qed.

Lemma join_ends : forall ls d, ls <> nil -> ends_nonspace (last ls d) = true ->
  exists l' c, join_on NL ls = l' ++ [c] /\ is_space c = false.
Proof.
  induction ls as [|l ls IH]; intros d NE H; [contradiction|].
  destruct ls as [|l2 ls].
  - simpl in *. apply ends_nonspace_inv. assumption.
  - destruct (IH d ltac:(discriminate) H) as (l' & c & E & Hc).
    change (join_on NL (l :: l2 :: ls)) with (l ++ NL :: join_on NL (l2 :: ls)).
    rewrite E. exists (l ++ NL :: l'), c. split; [rewrite <- app_assoc; reflexivity|assumption].
Qed.

Lemma strip_body : forall o sz root exts, good_body o sz root exts ->
  strip (lines_text (body_lines o sz root exts)) = join_on NL (body_lines o sz root exts).
Proof.
  intros o sz root exts G. rewrite lines_text_join by discriminate.
  assert (E : exists l' c, join_on NL (body_lines o sz root exts) = l' ++ [c] /\ is_space c = false).
  { apply join_ends with (d := nil); [discriminate|]. destruct G.
    unfold body_lines. rewrite !last_cons_app.
    destruct exts as [|x exts]; [|rewrite last_cons_app in *; exact gb_last0].
    simpl. apply nospace_ends; [apply b64_nonempty; assumption|apply b64_nospace]. }
  destruct E as (l' & c & E & Hc).
  unfold strip.
  assert (lstrip (join_on NL (body_lines o sz root exts) ++ [NL]) =
          join_on NL (body_lines o sz root exts) ++ [NL]) as ->.
  { destruct G. destruct o as [|c0 o]; [discriminate|]. simpl in gb_origin0.
    apply negb_true_iff in gb_origin0.
    unfold body_lines. cbn [join_on app]. apply lstrip_id. assumption. }
  rewrite E, <- app_assoc. cbn [app]. rewrite rstrip_ws by (auto; reflexivity). reflexivity.
Qed.

Theorem body_roundtrip : forall o sz root exts, good_body o sz root exts ->
  checkpoint_from_text env (lines_text (body_lines o sz root exts))
  = Ok (mkLC o (Z.of_N sz) (hex root) exts).
Proof.
  intros o sz root exts G. unfold checkpoint_from_text. rewrite (strip_body _ _ _ _ G).
  rewrite split_join.
  - unfold body_lines. destruct G.
    destruct o as [|c0 o]; [discriminate|]. cbn [length Nat.eqb raise_if bind].
    rewrite py_int_dec by assumption. rewrite b64decode_b64encode. cbn [try_except bind].
    unfold pydantic_str. destruct gb_scalar0 as [S1 S2]. rewrite S1. cbn [negb raise_if bind].
    assert (for_each pydantic_str exts = Ok tt) as Hf.
    { apply for_each_ok. intros x Hx. unfold pydantic_str.
      rewrite forallb_forall in S2. rewrite (S2 _ Hx). reflexivity. }
    unfold pydantic_str in Hf. rewrite Hf. reflexivity.
  - discriminate.
  - apply forallb_forall. intros l Hl. apply good_no_nl.
    pose proof (body_lines_good _ _ _ _ G) as B. rewrite forallb_forall in B. auto.
Qed.

Lemma sig_line_good : forall n b, no_space n = true -> no_space b = true ->
  exists l, sig_line n b = l ++ [NL] /\ good_line l = true.
Proof.
  intros n b Hn Hb. exists (EM_DASH :: SP :: n ++ SP :: b). split.
  - unfold sig_line. simpl. rewrite <- !app_assoc. reflexivity.
  - unfold good_line, no_nl. cbn [forallb]. rewrite forallb_app. cbn [forallb].
    apply nospace_nonl in Hn, Hb. unfold no_nl in *. rewrite Hn, Hb. reflexivity.
Qed.

Lemma sig_lines_text : forall sigs, Forall good_sig sigs ->
  exists ls, concat (map (fun '(n, h, s) => sig_line n (b64encode (h ++ s))) sigs) = lines_text ls /\
    forallb good_line ls = true /\ length ls = length sigs.
Proof.
  induction sigs as [|[[n h] s] sigs IH]; intros F.
  - exists nil. auto.
  - inversion F; subst. destruct H1 as (A & B & C & D).
    destruct (IH H2) as (ls & E & G & L).
    destruct (sig_line_good n (b64encode (h ++ s)) B (b64_nospace _)) as (l & El & Gl).
    exists (l :: ls). cbn [map concat forallb length]. rewrite E, El, Gl, G, L. auto.
Qed.

Theorem note_roundtrip : forall ls sigs,
  ls <> nil -> forallb good_line ls = true -> sigs <> nil -> Forall good_sig sigs ->
  note_from_text (signed_note_text (lines_text ls) sigs) =
  Ok (mkNote (lines_text ls) (map (fun '(n, h, s) => mkRS n h (b64encode s)) sigs)).
Proof.
  intros ls sigs NE G NEs F. unfold note_from_text, signed_note_text.
  destruct (sig_lines_text sigs F) as (sl & Es & Gs & Ls).
  set (data := concat (map (fun '(n, h, s) => sig_line n (b64encode (h ++ s))) sigs)) in *.
  assert (NEsl : sl <> nil) by (destruct sl, sigs; simpl in Ls; congruence).
  cbn [app].
  rewrite count_sep_lines by assumption.
  assert (count_sep (NL :: NL :: data) = 1%nat) as ->.
  { rewrite count_sep_cons2, N.eqb_refl. cbn [andb]. f_equal. rewrite Es.
    rewrite <- (app_nil_r (lines_text sl)). rewrite count_sep_lines by assumption. reflexivity. }
  cbn [Nat.eqb negb raise_if bind].
  rewrite split_sep_lines by assumption.
  assert (Hlast : exists d', data = d' ++ [NL]).
  { rewrite Es. exists (join_on NL sl). apply lines_text_join. assumption. }
  destruct Hlast as (d' & Ed).
  assert (Nat.eqb (length data) 0 = false) as ->.
  { apply Nat.eqb_neq. rewrite Ed, app_length. simpl. lia. }
  assert (ends_with_nl data = true) as ->.
  { unfold ends_with_nl. rewrite Ed, last_last. reflexivity. }
  cbn [negb raise_if bind].
  assert (Hfind : findall_sigs 0 data = map (fun '(n, h, s) => (n, b64encode (h ++ s))) sigs).
  { rewrite <- (findall_lines (map (fun '(n, h, s) => (n, b64encode (h ++ s))) sigs)).
    - f_equal. unfold data. f_equal. rewrite map_map. apply map_ext. intros [[? ?] ?]. reflexivity.
    - intros n s Hin. apply in_map_iff in Hin. destruct Hin as ([[n' h'] s'] & Q & Hin).
      inversion Q; subst. rewrite Forall_forall in F. specialize (F _ Hin). destruct F as (A & B & C & D).
      repeat split; auto.
      + apply b64_nonempty. destruct h'; [simpl in C; discriminate|discriminate].
      + apply b64_nospace. }
  rewrite Hfind.
  assert (Hmap : map_res parse_signature (map (fun '(n, h, s) => (n, b64encode (h ++ s))) sigs)
    = Ok (map (fun '(n, h, s) => mkRS n h (b64encode s)) sigs)).
  { clear - F. induction F as [|[[n h] s] sigs (A & B & C & D) F IH]; [reflexivity|].
    cbn [map map_res]. unfold parse_signature at 1. rewrite b64decode_b64encode. cbn [bind].
    assert (Nat.ltb (length (h ++ s)) 5 = false) as ->.
    { apply Nat.ltb_ge. rewrite app_length. destruct s; [contradiction|]. simpl. lia. }
    cbn [raise_if bind]. rewrite IH. cbn [bind].
    assert (firstn 4 (h ++ s) = h) as ->.
    { rewrite firstn_app, C. cbn [Nat.sub]. rewrite firstn_O, app_nil_r. rewrite <- C. apply firstn_all. }
    assert (skipn 4 (h ++ s) = s) as ->.
    { rewrite skipn_app, C. cbn [Nat.sub]. rewrite <- C. rewrite skipn_all. reflexivity. }
    reflexivity. }
  rewrite Hmap. reflexivity.
Qed.

(** The first signature line whose hint matches the log id decides. *)
Definition deciding_sig (kid : bytes) (sigs : list (str * bytes * bytes)) : option bytes :=
  match find (fun '(_, h, _) => bytes_eqb h (firstn 4 kid)) sigs with
  | Some (_, _, s) => Some s
  | None => None
  end.

Lemma verify_sigs_find : forall kr kid note sigs,
  verify_sigs env kr kid note (map (fun '(n, h, s) => mkRS n h (b64encode s)) sigs) =
  match deciding_sig kid sigs with
  | None => Raise EVerification
  | Some sg => match keyring_verify env kr kid sg note with
               | Ok u => Ok u
               | Raise e => if is_verification_error e then Raise EVerification else Raise e
               end
  end.
Proof.
  intros kr kid note. unfold deciding_sig. induction sigs as [|[[n h] s] sigs IH]; [reflexivity|].
  cbn [map verify_sigs find rs_hash rs_signature].
  destruct (bytes_eqb h (firstn 4 kid)).
  - rewrite b64decode_b64encode. reflexivity.
  - exact IH.
Qed.

Theorem checkpoint_complete : forall kr e ip o sz root exts sigs noteb,
  le_proof e = Some ip ->
  good_body o sz root exts -> sigs <> nil -> Forall good_sig sigs ->
  ip_checkpoint ip = Some (signed_note_text (lines_text (body_lines o sz root exts)) sigs) ->
  utf8_encode (lines_text (body_lines o sz root exts)) = Some noteb ->
  verify_checkpoint env kr e =
  match deciding_sig (le_log_id e) sigs with
  | None => Raise EVerification
  | Some sg =>
    match keyring_verify env kr (le_log_id e) sg noteb with
    | Ok _ => if bytes_eqb root (ip_root_hash ip) then Ok tt else Raise EVerification
    | Raise x => if is_verification_error x then Raise EVerification else Raise x
    end
  end.
Proof.
  intros kr e ip o sz root exts sigs noteb Hip G NEs F Hc Hu.
  unfold verify_checkpoint. rewrite Hip, Hc. unfold signed_checkpoint_from_text.
  rewrite note_roundtrip; [|discriminate|apply body_lines_good; assumption|assumption|assumption].
  cbn [bind sn_note]. rewrite (body_roundtrip _ _ _ _ G). cbn [bind].
  unfold note_verify. cbn [sn_note sn_signatures]. rewrite Hu, verify_sigs_find.
  destruct (deciding_sig (le_log_id e) sigs) as [sg|]; [|reflexivity].
  destruct (keyring_verify env kr (le_log_id e) sg noteb) as [u|x]; cbn [bind].
  - cbn [lc_hash]. destruct (bytes_eqb root (ip_root_hash ip)) eqn:B.
    + apply bytes_eqb_spec in B. subst. rewrite str_eqb_refl. reflexivity.
    + assert (str_eqb (hex root) (hex (ip_root_hash ip)) = false) as ->.
      { apply str_eqb_false. intros Q. apply hex_inj in Q. apply bytes_eqb_false in B. contradiction. }
      reflexivity.
  - destruct (is_verification_error x); reflexivity.
Qed.

Lemma utf8_body_defined : forall o sz root exts, good_body o sz root exts ->
  exists b, utf8_encode (lines_text (body_lines o sz root exts)) = Some b.
Proof.
  intros o sz root exts G.
  destruct (utf8_encode (lines_text (body_lines o sz root exts))) as [b|] eqn:E; [eauto|].
  exfalso. apply utf8_encode_none in E. apply not_true_iff_false in E. apply E. clear E.
  destruct G. destruct gb_scalar0 as [S1 S2].
  assert (Q : forall l, is_ascii l = true -> forallb is_scalar l = true).
  { intros l H. unfold is_ascii in H. rewrite forallb_forall in *. intros c Hc. specialize (H c Hc).
    unfold is_scalar. lia. }
  unfold lines_text, body_lines. cbn [map concat]. rewrite !forallb_app. rewrite S1.
  rewrite (Q (dec sz)) by (apply digits_ascii, dec_digits).
  rewrite (Q (b64encode root)) by apply b64encode_ascii. cbn [andb forallb].
  change (is_scalar NL) with true. cbn [andb].
  clear - S2. induction exts as [|x exts IH]; [reflexivity|]. cbn [map concat forallb] in *.
  apply andb_true_iff in S2. destruct S2 as [A B]. rewrite !forallb_app, A. cbn [andb forallb].
  change (is_scalar NL) with true. cbn [andb]. auto.
Qed.
End E.
