(** The beginning of the text of a JSON object is not the text of a JSON value, unless only white space is
    missing.  Used by PropsCrash.v. *)
From Verif Require Import Base Codec CodecMore Json PyText JsonText PropsJsonText.
Local Open Scope N_scope.

Lemma object_starts : forall lib d o t, value_text lib d (JObj o) t -> exists t', t = 123 :: t'.
Proof. intros lib d o t V. inversion V; subst; eexists; reflexivity. Qed.

(** an object is read whatever comes after it *)
Lemma object_complete : forall lib d o t, value_text lib d (JObj o) t -> forall r n, (2 * length t <= n)%nat ->
  value lib n d (t ++ r) = Some (JObj o, r).
Proof.
  intros lib d o t V r n L. inversion V as [| | | | | | | | | | | |d' w B|d' l o' w t' B E Do]; subst.
  - destruct n as [|n]; [cbn in L; lia|]. change (s2l "{") with [123]. change (s2l "}") with [125]. cbn [app]. rewrite value_S.
    change (123 =? QUOTE) with false. change (123 =? 91) with false. change (123 =? 123) with true. cbv iota.
    rewrite <- app_assoc. rewrite skip_blank by (assumption || reflexivity). reflexivity.
  - apply dict_of_det in Do. subst o. change (s2l "{") with [123] in *. change (s2l "}") with [125] in *. cbn [app length] in L. rewrite ?app_length in L. cbn [length] in L.
    destruct n as [|n]; [lia|]. cbn [app]. rewrite value_S. change (123 =? QUOTE) with false. change (123 =? 91) with false. change (123 =? 123) with true. cbv iota.
    destruct (members_head _ _ _ _ E) as (t0 & Et). rewrite <- !app_assoc. cbn [app].
    rewrite skip_blank; [|assumption|subst t'; reflexivity].
    assert (Q : members lib n d' (t' ++ 125 :: r) = Some (l, r)) by (apply (proj2 (proj2 (complete lib))); [exact E|lia]).
    subst t'. cbn [app] in *. change (34 =? 125) with false. cbv iota. rewrite Q. reflexivity.
Qed.

Lemma brace_object : forall lib d j t, value_text lib d j (123 :: t) -> exists o, j = JObj o.
Proof.
  intros lib d j t V. pose proof (proj1 (complete lib) _ _ _ V nil (S (2 * length (123 :: t))) Logic.I ltac:(lia)) as C.
  rewrite app_nil_r, value_S in C. change (123 =? QUOTE) with false in C. change (123 =? 91) with false in C. change (123 =? 123) with true in C. cbv iota in C.
  destruct d as [|d]; [discriminate|]. destruct (skip_ws t) as [|c r]; [discriminate|]. destruct (c =? 125); [inversion C; eauto|].
  destruct (members lib _ d (c :: r)) as [[l r']|]; [inversion C; eauto|discriminate].
Qed.

Theorem object_prefix : forall lib o t blanks p q j, value_text lib (jl_depth lib) (JObj o) t -> blank blanks ->
  p ++ q = t ++ blanks -> json_text lib j p -> j = JObj o /\ exists w, p = t ++ w /\ w ++ q = blanks.
Proof.
  intros lib o t blanks p q j V Bl E (w & t' & w' & -> & Bw & Bw' & V'). destruct (object_starts _ _ _ _ V) as (t0 & Et).
  assert (w = nil) as ->.
  { destruct w as [|c w]; [reflexivity|]. exfalso. subst t. injection E as Ec _. inversion Bw as [|? ? H]; subst. cbn in H. lia. }
  cbn [app] in *. rewrite <- app_assoc in E. destruct (value_head _ _ _ _ V') as (c & r & Et' & _).
  assert (c = 123) as -> by (subst t t'; injection E as -> _; reflexivity).
  assert (exists o', j = JObj o') as [o' ->] by (subst t'; eapply brace_object; exact V').
  pose proof (object_complete _ _ _ _ V' (w' ++ q) (2 * (length t + length t')) ltac:(lia)) as C'.
  pose proof (object_complete _ _ _ _ V blanks (2 * (length t + length t')) ltac:(lia)) as C.
  rewrite E, C in C'. injection C' as Eo Ew. subst o'. split; [reflexivity|]. exists w'. split; [|symmetry; exact Ew].
  f_equal. apply (app_inv_tail (w' ++ q)). rewrite E, Ew. reflexivity.
Qed.

(** the same for bytes in UTF-8 *)
Lemma decode_app : forall s b q, utf8_encode s = Some b -> utf8_decode (b ++ q) = match utf8_decode q with Some r => Some (s ++ r) | None => None end.
Proof.
  induction s as [|c s IH]; intros b q H; cbn [utf8_encode] in H.
  - injection H as <-. cbn [app]. destruct (utf8_decode q); reflexivity.
  - destruct (is_scalar c) eqn:Sc; [|discriminate]. destruct (utf8_encode s) as [b'|] eqn:E; [|discriminate]. injection H as <-.
    rewrite <- app_assoc, utf8_decode_char by exact Sc. rewrite (IH b' q eq_refl). destruct (utf8_decode q); reflexivity.
Qed.
Lemma encode_app : forall s b s' b', utf8_encode s = Some b -> utf8_encode s' = Some b' -> utf8_encode (s ++ s') = Some (b ++ b').
Proof.
  intros s b s' b' H H'. apply utf8_encode_decode. rewrite (decode_app s b b' H). apply utf8_decode_encode in H'. rewrite H'. reflexivity.
Qed.

Lemma encode_split : forall s s' b, utf8_encode (s ++ s') = Some b -> exists x y, utf8_encode s = Some x /\ utf8_encode s' = Some y /\ b = x ++ y.
Proof.
  induction s as [|c s IH]; intros s' b H; cbn [app utf8_encode] in *; [exists nil, b; auto|].
  destruct (is_scalar c); [|discriminate]. destruct (utf8_encode (s ++ s')) as [b'|] eqn:E; [|discriminate]. injection H as <-.
  destruct (IH _ _ E) as (x & y & -> & -> & ->). exists (utf8_char c ++ x), y. rewrite <- app_assoc. auto.
Qed.

Theorem encoded_prefix : forall lib o t b blanks bb p q s j, value_text lib (jl_depth lib) (JObj o) t -> utf8_encode t = Some b ->
  blank blanks -> utf8_encode blanks = Some bb -> p ++ q = b ++ bb -> utf8_decode p = Some s -> json_text lib j s ->
  j = JObj o /\ exists w, p = b ++ w /\ w ++ q = bb.
Proof.
  intros lib o t b blanks bb p q s j V Eb Bl Ebb E D J. pose proof (utf8_encode_decode _ _ D) as Ep.
  pose proof (encode_app _ _ _ _ Eb Ebb) as Ef. apply utf8_decode_encode in Ef. rewrite <- E, (decode_app _ _ q Ep) in Ef.
  destruct (utf8_decode q) as [sq|] eqn:Dq; [|discriminate]. injection Ef as Ef.
  destruct (object_prefix lib o t blanks s sq j V Bl Ef J) as (-> & w & -> & Ew). split; [reflexivity|].
  destruct (encode_split _ _ _ Ep) as (x & y & Ex & Ey & ->). rewrite Eb in Ex. injection Ex as <-. exists y. split; [reflexivity|].
  rewrite <- app_assoc in E. apply app_inv_head in E. exact E.
Qed.
