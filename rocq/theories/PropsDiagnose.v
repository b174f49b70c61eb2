(** C119: what the explanations of errors tell. *)
From Coq Require Import List NArith Bool String Lia.
Import ListNotations.
From Verif Require Import Base PyText Tuf Diagnose.
Open Scope N_scope.

(** * Specification *)

(** [part] is written somewhere in [whole], character by character. *)
Definition holds (part whole : str) : Prop := exists p q, whole = p ++ part ++ q.

(** The lines of a text. *)
Inductive lines_of : str -> list str -> Prop :=
| one_line : forall l, ~ In 10 l -> lines_of l [l]
| more_lines : forall l s ls, ~ In 10 l -> lines_of s ls -> lines_of (l ++ 10 :: s) (l :: ls).

(** A space or a tabulator. *)
Definition blank (c : N) : Prop := c = 32 \/ c = 9.

(** [b] is the line [a] with less indentation. *)
Definition less_indented (a b : str) : Prop := exists w, Forall blank w /\ a = w ++ b.

(** Every line of [text] is written in [whole], one after the other, up to indentation. *)
Definition reads (text whole : str) : Prop :=
  exists ls kept k p q, lines_of text ls /\ Forall2 less_indented ls kept /\ lines_of k kept /\ whole = p ++ k ++ q.

(** What went wrong, in the words of the code that noticed: what a network error was raised from; for an
    identity error raised because GitHub refused the credential, the words of that refusal; for the other errors,
    their own words.  Errors about the root of trust have no words of their own. *)
Inductive reason : pyexc -> str -> Prop :=
| network_reason : forall t c x, reason (Exc ENetwork t (Some c) x) (text_of c)
| github_reason : forall t c x, cls_of c = EGitHubPermission -> reason (Exc EIdentity t (Some c) x) (text_of c)
| identity_reason : forall t c x, (forall d, c = Some d -> cls_of d <> EGitHubPermission) -> reason (Exc EIdentity t c x) t
| own_reason : forall k t c x, k <> ENetwork -> k <> EIdentity -> k <> ERoot -> reason (Exc k t c x) t.

(** Errors about the bundle. *)
Definition about_bundle (e : pyexc) : Prop := cls_of e = EInvalidBundle \/ cls_of e = EIncompatibleEntry.

(** [whole] begins with [part], blanks and empty lines aside. *)
Definition opens_with (part whole : str) : Prop :=
  exists w q, Forall (fun c => blank c \/ c = 10) w /\ whole = w ++ part ++ q.

(** [whole] ends with the line [part]. *)
Definition last_line (part whole : str) : Prop := exists p, whole = p ++ 10 :: part.

Definition verbose_advice : str := s2l "For detailed error information, run sigstore with the `--verbose` flag.".
Definition raised_again : str := s2l "Raising original exception:".
Definition network_advice : str := s2l "Check your internet connection and try again.".
Definition instance_advice : str := s2l "Please check any Sigstore instance related arguments and consider reporting the issue at <https://github.com/sigstore/sigstore-python/issues/new>.".
Definition upgrade_advice : str := s2l "The provided bundle contains a transparency log entry that is incompatible with this version of sigstore-python. Please upgrade your verifying client.".
Definition malformed_bundle : str := s2l "An issue occurred while parsing the Sigstore bundle.".
Definition ambient : str := s2l "An issue occurred with ambient credential detection.".

(** What the tuf library raises when a server answers with an error status: [DownloadHTTPError], a class derived
    from [DownloadError]. *)
Definition EDownloadHTTP : exn := EBackend 42.

(** * Proofs *)

Lemma blank_iff : forall c, is_blank c = true <-> blank c.
Proof. intro c. unfold is_blank, blank. rewrite orb_true_iff, !N.eqb_eq. reflexivity. Qed.

Lemma blanks_iff : forall l, forallb is_blank l = true <-> Forall blank l.
Proof.
  intro l. rewrite forallb_forall, Forall_forall. split; intros H x I; apply blank_iff; auto.
Qed.

Lemma no_newline : forall l, forallb (fun c => negb (c =? 10)) l = true <-> ~ In 10 l.
Proof.
  intro l. rewrite forallb_forall. split.
  - intros H I. specialize (H _ I). discriminate H.
  - intros H x I. apply negb_true_iff, N.eqb_neq. intros ->. exact (H I).
Qed.

Lemma lines_of_split : forall s, lines_of s (split_on 10 s).
Proof.
  induction s as [|c s IH]; cbn [split_on].
  - constructor. intros [].
  - destruct (c =? 10) eqn:Q.
    + apply N.eqb_eq in Q. subst. apply (more_lines nil); [intros []|exact IH].
    + apply N.eqb_neq in Q. revert IH. generalize (split_on 10 s). intros ll IH. inversion IH as [l F EQ EL|l s' ls F R EQ EL]; subst.
      * constructor. intros [D|D]; [subst; congruence|exact (F D)].
      * apply (more_lines (c :: l)); [|exact R]. intros [D|D]; [congruence|exact (F D)].
Qed.

Lemma lines_of_join : forall ls, ls <> nil -> Forall (fun l => ~ In 10 l) ls -> lines_of (join_on 10 ls) ls.
Proof.
  induction ls as [|l ls IH]; intros NE F; [contradiction|]. inversion F; subst. destruct ls as [|l2 ls].
  - cbn. constructor. assumption.
  - change (lines_of (l ++ 10 :: join_on 10 (l2 :: ls)) (l :: l2 :: ls)). constructor; [assumption|]. apply IH; [discriminate|assumption].
Qed.

Lemma split_nl : forall a b, split_on 10 (a ++ 10 :: b) = split_on 10 a ++ split_on 10 b.
Proof.
  induction a as [|c a IH]; intro b; cbn [app split_on]; [reflexivity|].
  destruct (c =? 10); [cbn [app]; rewrite IH; reflexivity|]. rewrite IH.
  destruct (split_on 10 a) as [|p ps] eqn:Q; [destruct (split_on_nonempty 10 a Q)|]. reflexivity.
Qed.

Lemma split_prefix : forall w s, ~ In 10 w ->
  exists h t, split_on 10 s = h :: t /\ split_on 10 (w ++ s) = (w ++ h) :: t.
Proof.
  induction w as [|c w IH]; intros s F.
  - cbn [app]. pose proof (split_on_nonempty 10 s) as NE. destruct (split_on 10 s) as [|h t]; [contradiction|]. eauto.
  - destruct (IH s) as [h [t [E1 E2]]]; [intro D; apply F; right; exact D|]. exists h, t. split; [exact E1|].
    cbn [app split_on]. replace (c =? 10) with false; [rewrite E2; reflexivity|].
    symmetry. apply N.eqb_neq. intros ->. apply F. left. reflexivity.
Qed.

Definition begins (a b : str) : Prop := exists r, b = a ++ r.

Lemma begins_trans : forall a b c, begins a b -> begins b c -> begins a c.
Proof. intros a b c [r ->] [s ->]. exists (r ++ s). rewrite app_assoc. reflexivity. Qed.

Lemma common_begins : forall a b, begins (common a b) a /\ begins (common a b) b.
Proof.
  induction a as [|x a IH]; intros [|y b]; cbn [common]; try (split; eexists; reflexivity).
  destruct (x =? y) eqn:Q; [|split; eexists; reflexivity]. apply N.eqb_eq in Q. subst.
  destruct (IH b) as [[r Hr] [s Hs]]. split; [exists r|exists s]; cbn [app]; congruence.
Qed.

Lemma fold_common : forall l i, begins (fold_left common l i) i /\ forall x, In x l -> begins (fold_left common l i) x.
Proof.
  induction l as [|y l IH]; intro i; cbn [fold_left].
  - split; [exists nil; rewrite app_nil_r; reflexivity|intros x []].
  - destruct (IH (common i y)) as [H1 H2]. destruct (common_begins i y) as [C1 C2]. split.
    + eapply begins_trans; eassumption.
    + intros x [->|I]; [eapply begins_trans; eassumption|exact (H2 x I)].
Qed.

Lemma margin_begins : forall ls l, In l ls -> l <> nil -> begins (margin ls) (leading l).
Proof.
  intros ls l I NE. unfold margin.
  assert (J : In (leading l) (map leading (filter some_text ls))).
  { apply in_map, filter_In. split; [exact I|]. destruct l; [contradiction|reflexivity]. }
  destruct (map leading (filter some_text ls)) as [|i r]; [destruct J|].
  destruct (fold_common r i) as [H1 H2]. destruct J as [->|J]; [exact H1|exact (H2 _ J)].
Qed.

Lemma leading_split : forall l, exists r, l = leading l ++ r /\ Forall blank (leading l).
Proof.
  induction l as [|c l [r [E F]]]; cbn [leading]; [exists nil; split; [reflexivity|constructor]|].
  destruct (is_blank c) eqn:Q; [|exists (c :: l); split; [reflexivity|constructor]].
  exists r. split; [cbn [app]; congruence|]. constructor; [apply blank_iff; exact Q|exact F].
Qed.

Lemma skipn_indented : forall ls l, In (without_blanks l) ls ->
  less_indented l (skipn (length (margin ls)) (without_blanks l)).
Proof.
  intros ls l I. unfold without_blanks in *. destruct (forallb is_blank l) eqn:Q.
  - exists l. split; [apply blanks_iff; exact Q|]. rewrite skipn_nil, app_nil_r. reflexivity.
  - destruct l as [|c l]; [discriminate Q|].
    destruct (margin_begins ls (c :: l) I) as [r R]; [discriminate|].
    destruct (leading_split (c :: l)) as [s [E F]]. rewrite R in E, F. exists (margin ls). split.
    + apply Forall_app in F. exact (proj1 F).
    + rewrite <- app_assoc in E. rewrite E. rewrite skipn_app, skipn_all, Nat.sub_diag. reflexivity.
Qed.

Lemma without_blanks_no_newline : forall m l, ~ In 10 l -> ~ In 10 (skipn m (without_blanks l)).
Proof.
  intros m l F I. apply F. unfold without_blanks in I. destruct (forallb is_blank l); [rewrite skipn_nil in I; destruct I|].
  rewrite <- (firstn_skipn m l). apply in_or_app. right. exact I.
Qed.

Lemma split_no_newline : forall s, Forall (fun l => ~ In 10 l) (split_on 10 s).
Proof. intro s. apply Forall_forall. intros l I. apply no_newline. exact (split_on_pieces _ _ _ I). Qed.

Lemma join_app : forall a b, a <> nil -> b <> nil -> join_on 10 (a ++ b) = join_on 10 a ++ 10 :: join_on 10 b.
Proof.
  induction a as [|x a IH]; intros b NA NB; [contradiction|]. destruct a as [|y a].
  - destruct b as [|z b]; [contradiction|]. reflexivity.
  - change (x ++ 10 :: join_on 10 ((y :: a) ++ b) = (x ++ 10 :: join_on 10 (y :: a)) ++ 10 :: join_on 10 b).
    rewrite IH; [|discriminate|assumption]. rewrite <- app_assoc. reflexivity.
Qed.

Definition sp8 : str := s2l "        ".

(** The general form of the two explanations about bundles: headings, then the text. *)
Lemma dedent_reads : forall hd l0 text,
  In (sp8 ++ l0) (split_on 10 hd) -> l0 <> nil -> (forall c r, l0 = c :: r -> is_blank c = false) ->
  reads text (dedent (hd ++ 10 :: sp8 ++ text ++ 10 :: sp8)).
Proof.
  intros hd l0 text I0 NE0 NB0.
  unfold dedent. rewrite split_nl.
  replace (sp8 ++ text ++ 10 :: sp8) with ((sp8 ++ text) ++ 10 :: sp8) by (rewrite <- app_assoc; reflexivity).
  rewrite split_nl. destruct (split_prefix sp8 text) as [h [t [E1 E2]]].
  { vm_compute. intuition discriminate. }
  rewrite E2. rewrite !map_app. cbn [map].
  set (ls := map without_blanks (split_on 10 hd) ++ (without_blanks (sp8 ++ h) :: map without_blanks t) ++ map without_blanks (split_on 10 sp8)).
  set (m := length (margin ls)).
  assert (M : exists sp, sp8 = margin ls ++ sp).
  { assert (J : In (sp8 ++ l0) ls).
    { apply in_or_app. left. apply in_map_iff. exists (sp8 ++ l0). split; [|exact I0]. unfold without_blanks.
      destruct l0 as [|c r]; [contradiction|]. rewrite forallb_app. cbn [forallb]. rewrite (NB0 c r eq_refl). cbn. reflexivity. }
    destruct (margin_begins ls _ J) as [r R]; [destruct l0; [contradiction|discriminate]|].
    destruct l0 as [|c l0]; [contradiction|]. specialize (NB0 c l0 eq_refl).
    exists r. rewrite <- R. clear - NB0. cbn -[is_blank]. rewrite NB0. reflexivity. }
  destruct M as [sp M].
  assert (K : exists k0, less_indented h k0 /\ exists w, skipn m (without_blanks (sp8 ++ h)) = w ++ k0).
  { unfold without_blanks. destruct (forallb is_blank (sp8 ++ h)) eqn:Q.
    - exists nil. split; [exists h; split; [|rewrite app_nil_r; reflexivity]|exists nil; rewrite skipn_nil; reflexivity].
      rewrite forallb_app in Q. apply andb_true_iff in Q. apply blanks_iff. exact (proj2 Q).
    - exists h. split; [exists nil; split; [constructor|reflexivity]|]. exists sp. rewrite M. rewrite <- app_assoc.
      unfold m. rewrite skipn_app, skipn_all, Nat.sub_diag. reflexivity. }
  destruct K as [k0 [K0 [w KW]]].
  set (kt := map (skipn m) (map without_blanks t)).
  pose proof (split_no_newline text) as NT. rewrite E1 in NT. inversion NT as [|? ? Nh Nt]; subst.
  assert (Nk : ~ In 10 k0).
  { destruct K0 as [v [_ ->]]. intro D. apply Nh. apply in_or_app. right. exact D. }
  exists (h :: t), (k0 :: kt), (join_on 10 (k0 :: kt)).
  exists (join_on 10 (map (skipn m) (map without_blanks (split_on 10 hd))) ++ 10 :: w).
  exists (10 :: join_on 10 (map (skipn m) (map without_blanks (split_on 10 sp8)))).
  split; [rewrite <- E1; apply lines_of_split|]. split; [|split].
  - constructor; [exact K0|]. unfold kt. rewrite map_map.
    assert (G : forall x, In x t -> less_indented x (skipn m (without_blanks x))).
    { intros x I. apply skipn_indented. apply in_or_app. right. apply in_or_app. left. right. apply in_map. exact I. }
    clearbody m. clear - G. induction t as [|x t IH]; cbn [map]; constructor; [apply G; left; reflexivity|].
    apply IH. intros y J. apply G. right. exact J.
  - apply lines_of_join; [discriminate|]. constructor; [exact Nk|]. unfold kt. rewrite map_map. apply Forall_forall.
    intros x I. apply in_map_iff in I. destruct I as [y [<- I]]. apply without_blanks_no_newline.
    exact (proj1 (Forall_forall _ _) Nt y I).
  - fold kt. rewrite KW.
    rewrite join_app; [|destruct (split_on 10 hd) eqn:Q; [destruct (split_on_nonempty 10 hd Q)|discriminate]|discriminate].
    rewrite join_app; [|discriminate|vm_compute; discriminate].
    assert (J : join_on 10 ((w ++ k0) :: kt) = w ++ join_on 10 (k0 :: kt)).
    { destruct kt; cbn [join_on]; [reflexivity|rewrite <- app_assoc; reflexivity]. }
    change (map (skipn m) (map without_blanks t)) with kt. rewrite J. rewrite <- !app_assoc. cbn [app]. rewrite <- ?app_assoc. reflexivity.
Qed.

Lemma holds_reads : forall t w, holds t w -> reads t w.
Proof.
  intros t w [p [q ->]]. exists (split_on 10 t), (split_on 10 t), t, p, q.
  repeat split; try apply lines_of_split. generalize (split_on 10 t). intro l. induction l; constructor; [|assumption].
  exists nil. split; [constructor|reflexivity].
Qed.

Lemma holds_mid : forall p t q, holds t (p ++ t ++ q).
Proof. intros. exists p, q. reflexivity. Qed.

Lemma holds_end : forall t q, holds t (t ++ q).
Proof. intros. exists nil, q. reflexivity. Qed.

Lemma holds_self : forall t, holds t t.
Proof. intro. exists nil, nil. rewrite app_nil_r. reflexivity. Qed.

Definition invalid_heading : str := s2l "        An issue occurred while parsing the Sigstore bundle.

        The provided bundle is malformed and may have been modified maliciously.

        Additional context:
".
Definition incompatible_heading : str := s2l "        The provided bundle contains a transparency log entry that is incompatible with this version of sigstore-python. Please upgrade your verifying client.

        Additional context:
".

Lemma invalid_form : forall t, invalid_bundle_diagnostics t = dedent (invalid_heading ++ 10 :: sp8 ++ t ++ 10 :: sp8).
Proof. reflexivity. Qed.
Lemma incompatible_form : forall t, incompatible_diagnostics t = dedent (incompatible_heading ++ 10 :: sp8 ++ t ++ 10 :: sp8).
Proof. reflexivity. Qed.

Lemma invalid_reads : forall t, reads t (invalid_bundle_diagnostics t).
Proof.
  intro t. rewrite invalid_form. apply (dedent_reads _ (s2l "Additional context:")).
  - apply nth_error_In with (n := 4%nat). vm_compute. reflexivity.
  - discriminate.
  - intros c r Q. vm_compute in Q. injection Q as <- _. reflexivity.
Qed.

Lemma incompatible_reads : forall t, reads t (incompatible_diagnostics t).
Proof.
  intro t. rewrite incompatible_form. apply (dedent_reads _ (s2l "Additional context:")).
  - apply nth_error_In with (n := 2%nat). vm_compute. reflexivity.
  - discriminate.
  - intros c r Q. vm_compute in Q. injection Q as <- _. reflexivity.
Qed.

Lemma exn_eqb_refl : forall e, exn_eqb e e = true.
Proof. intro e. apply exn_eqb_spec. reflexivity. Qed.

Theorem C119_verbatim : forall e r, reason e r -> ~ about_bundle e -> holds r (diagnostics e).
Proof.
  intros e r R NB. destruct R as [t c x|t c x Q|t c x Q|k t c x N1 N2 N3]; unfold diagnostics; cbn [cls_of text_of cause_of context_of option_map].
  - unfold network_diagnostics. eexists (_ ++ _), _. rewrite <- app_assoc. reflexivity.
  - unfold identity_diagnostics. rewrite Q, exn_eqb_refl. apply holds_mid.
  - unfold identity_diagnostics. destruct c as [c|]; cbn [option_map]; [|apply holds_mid].
    destruct (exn_eqb EGitHubPermission (cls_of c)) eqn:D; [|apply holds_mid].
    apply exn_eqb_spec in D. destruct (Q c eq_refl). symmetry. exact D.
  - unfold about_bundle in NB. cbn [cls_of] in NB. destruct k; try congruence; try apply holds_self; try (destruct NB; tauto).
    + unfold tuf_diagnostics. apply holds_mid.
    + apply holds_end.
Qed.

Theorem C119_reason : forall e r, reason e r -> reads r (diagnostics e).
Proof.
  intros e r R. assert (D : about_bundle e \/ ~ about_bundle e).
  { unfold about_bundle. destruct (cls_of e); auto; right; intros [H|H]; discriminate H. }
  destruct D as [D|D]; [|apply holds_reads, C119_verbatim; assumption].
  destruct R as [t c x|t c x Q|t c x Q|k t c x N1 N2 N3]; try (destruct D as [D|D]; discriminate D).
  unfold diagnostics. destruct D as [D|D]; cbn [cls_of] in D; subst k; cbn [cls_of text_of]; [apply invalid_reads|apply incompatible_reads].
Qed.

Theorem C119_logged : forall e again,
  (forall r, reason e r -> reads r (explanation e again)) /\
  last_line (if again then raised_again else verbose_advice) (explanation e again).
Proof.
  intros e again. split.
  - intros r R. destruct (C119_reason e r R) as [ls [kept [k [p [q [H1 [H2 [H3 H4]]]]]]]].
    unfold explanation. rewrite H4. exists ls, kept, k, p. eexists. split; [exact H1|]. split; [exact H2|]. split; [exact H3|].
    rewrite <- !app_assoc. reflexivity.
  - exists (diagnostics e). destruct again; reflexivity.
Qed.

(** An explanation about a bundle whose text is one line. *)
Lemma skip8 : forall t, skipn 8 (sp8 ++ t) = t.
Proof. reflexivity. Qed.

Lemma leading8 : forall t, leading (sp8 ++ t) = sp8 ++ leading t.
Proof. reflexivity. Qed.

Lemma common8 : forall t, common sp8 (sp8 ++ t) = sp8.
Proof. destruct t; reflexivity. Qed.

Theorem C119_bundle_exact : forall e, ~ In 10 (text_of e) -> ~ Forall blank (text_of e) ->
  (cls_of e = EInvalidBundle ->
   diagnostics e = malformed_bundle ++ s2l "

The provided bundle is malformed and may have been modified maliciously.

Additional context:

" ++ text_of e ++ s2l "
") /\
  (cls_of e = EIncompatibleEntry ->
   diagnostics e = upgrade_advice ++ s2l "

Additional context:

" ++ text_of e ++ s2l "
").
Proof.
  intros [k t c x] NL NB. unfold diagnostics. cbn [cls_of text_of] in *.
  assert (B : forallb is_blank t = false).
  { destruct (forallb is_blank t) eqn:Q; [|reflexivity]. destruct NB. apply blanks_iff. exact Q. }
  assert (S1 : split_on 10 (sp8 ++ t ++ 10 :: sp8) = [sp8 ++ t; sp8]).
  { rewrite app_assoc, split_nl, split_on_no_sep; [reflexivity|]. apply no_newline. intro D. apply in_app_or in D.
    destruct D as [D|D]; [|exact (NL D)]. vm_compute in D. intuition discriminate. }
  assert (W : without_blanks (sp8 ++ t) = sp8 ++ t).
  { unfold without_blanks. rewrite forallb_app, B. reflexivity. }
  split; intros ->.
  - rewrite invalid_form. unfold dedent. rewrite split_nl, S1, map_app. cbn [map]. rewrite W.
    match goal with |- context [margin ?l] => assert (M : margin l = sp8) end.
    { unfold margin. rewrite filter_app, map_app. cbn [filter]. change (some_text (sp8 ++ t)) with true. cbn [map app].
      rewrite leading8. change (without_blanks sp8) with (@nil N). cbn [some_text map].
      set (h := map leading (filter some_text (map without_blanks (split_on 10 invalid_heading)))). vm_compute in h. subst h.
      cbn [app fold_left]. change (s2l "        ") with sp8. match goal with |- common ?a _ = _ => replace a with sp8 by reflexivity end. apply common8. }
    rewrite M. rewrite map_app. cbn [map]. change (length sp8) with 8%nat. rewrite skip8.
    rewrite join_app; [|vm_compute; discriminate|discriminate].
    change (without_blanks sp8) with (@nil N). cbn [skipn join_on].
    match goal with |- ?a ++ _ = _ => let v := eval vm_compute in a in replace a with v by (vm_compute; reflexivity) end.
    reflexivity.
  - rewrite incompatible_form. unfold dedent. rewrite split_nl, S1, map_app. cbn [map]. rewrite W.
    match goal with |- context [margin ?l] => assert (M : margin l = sp8) end.
    { unfold margin. rewrite filter_app, map_app. cbn [filter]. change (some_text (sp8 ++ t)) with true. cbn [map app].
      rewrite leading8. change (without_blanks sp8) with (@nil N). cbn [some_text map].
      set (h := map leading (filter some_text (map without_blanks (split_on 10 incompatible_heading)))). vm_compute in h. subst h.
      cbn [app fold_left]. match goal with |- common ?a _ = _ => replace a with sp8 by reflexivity end. apply common8. }
    rewrite M. rewrite map_app. cbn [map]. change (length sp8) with 8%nat. rewrite skip8.
    rewrite join_app; [|vm_compute; discriminate|discriminate].
    change (without_blanks sp8) with (@nil N). cbn [skipn join_on].
    match goal with |- ?a ++ _ = _ => let v := eval vm_compute in a in replace a with v by (vm_compute; reflexivity) end.
    reflexivity.
Qed.

Lemma dedent_opens : forall l0 rest, ~ In 10 l0 -> (exists c r, l0 = c :: r /\ is_blank c = false) ->
  opens_with l0 (dedent (sp8 ++ l0 ++ 10 :: rest)).
Proof.
  intros l0 rest NL [c [r [-> NB]]]. unfold dedent. rewrite app_assoc, split_on_app.
  2:{ apply no_newline. intro D. apply in_app_or in D. destruct D as [D|D]; [vm_compute in D; intuition discriminate|exact (NL D)]. }
  cbn [map].
  assert (W : without_blanks (sp8 ++ c :: r) = sp8 ++ c :: r).
  { unfold without_blanks. rewrite forallb_app. cbn [forallb]. rewrite NB. reflexivity. }
  rewrite W. set (ls := (sp8 ++ c :: r) :: map without_blanks (split_on 10 rest)).
  destruct (margin_begins ls (sp8 ++ c :: r)) as [u U]; [left; reflexivity|discriminate|].
  rewrite leading8 in U. cbn [leading] in U. rewrite NB, app_nil_r in U.
  change (margin ((sp8 ++ c :: r) :: map without_blanks (split_on 10 rest))) with (margin ls). generalize dependent (margin ls). intros m U.
  pose proof (split_on_nonempty 10 rest) as NE. clear ls. destruct (split_on 10 rest) as [|a b] eqn:Q; [contradiction|].
  cbn [map]. cbn [join_on]. exists u. eexists. split.
  - assert (F : Forall blank sp8) by (apply blanks_iff; reflexivity). rewrite U in F. apply Forall_app in F.
    destruct F as [_ F]. eapply Forall_impl; [|exact F]. intros; left; assumption.
  - rewrite U at 1. rewrite <- app_assoc, skipn_app, skipn_all, Nat.sub_diag. cbn [skipn app]. rewrite <- !app_assoc. reflexivity.
Qed.

Lemma opens_twice : forall a b c d w, opens_with (a :: b) w -> opens_with (c :: d) w ->
  ~ blank a -> a <> 10 -> ~ blank c -> c <> 10 -> a = c.
Proof.
  intros a b c d w [u [p [F ->]]] [v [q [G E]]] A1 A2 C1 C2. revert v G E. induction F as [|x u X F IH]; intros v G E.
  - destruct v as [|y v]; cbn in E; [congruence|]. injection E as E1 _. inversion G; subst. tauto.
  - destruct v as [|y v]; cbn in E; injection E as E1 E2; [subst; tauto|]. inversion G; subst. eapply IH; eassumption.
Qed.

(** The two kinds of trouble with a bundle are told apart: only a bundle that is too new is met with the advice to
    upgrade, whatever the bundle makes the text of the error say. *)
Theorem C119_upgrade : forall e, about_bundle e ->
  (cls_of e = EIncompatibleEntry <-> opens_with upgrade_advice (diagnostics e)) /\
  (cls_of e = EInvalidBundle <-> opens_with malformed_bundle (diagnostics e)).
Proof.
  intros [k t c x] D. unfold about_bundle in D. cbn [cls_of] in *.
  assert (I : opens_with malformed_bundle (invalid_bundle_diagnostics t)).
  { apply (dedent_opens malformed_bundle (s2l "
        The provided bundle is malformed and may have been modified maliciously.

        Additional context:

        " ++ t ++ s2l "
        ")); [vm_compute; intuition discriminate|eexists _, _; split; reflexivity]. }
  assert (J : opens_with upgrade_advice (incompatible_diagnostics t)).
  { apply (dedent_opens upgrade_advice (s2l "
        Additional context:

        " ++ t ++ s2l "
        ")); [apply no_newline; vm_compute; reflexivity|eexists _, _; split; reflexivity]. }
  assert (A : forall w, opens_with upgrade_advice w -> opens_with malformed_bundle w -> False).
  { intros w H1 H2. assert (Q : 84 = 65); [|discriminate Q].
    eapply opens_twice; [exact H1|exact H2|..]; unfold blank; intuition discriminate. }
  destruct D as [->| ->]; unfold diagnostics; cbn [cls_of text_of]; repeat split; intro H; try discriminate; try assumption; try reflexivity.
  - destruct (A _ H I).
  - destruct (A _ J H).
Qed.

(** The advice about a failed download is given exactly when the download failed in the one way the table names. *)
Theorem C119_tuf : forall t c x,
  ((exists d, x = Some d /\ cls_of d = EDownload) ->
   holds network_advice (diagnostics (Exc ETUF t c x)) /\ last_line (s2l "        ") (diagnostics (Exc ETUF t c x))) /\
  (~ (exists d, x = Some d /\ cls_of d = EDownload) -> diagnostics (Exc ETUF t c x) = s2l "        " ++ t ++ s2l ".

        " ++ instance_advice ++ s2l "
        ").
Proof.
  intros t c x. unfold diagnostics. cbn [cls_of text_of context_of]. unfold tuf_diagnostics, tuf_details. split.
  - intros [d [-> Q]]. cbn [option_map]. rewrite Q, exn_eqb_refl. split.
    + unfold network_diagnostics. rewrite app_nil_r.
      exists (s2l "        " ++ t ++ s2l ".

                A network issue occurred.

        "), (s2l "
        
        "). rewrite <- !app_assoc. reflexivity.
    + eexists (s2l "        " ++ t ++ s2l ".

        " ++ network_diagnostics None). rewrite <- !app_assoc. reflexivity.
  - intro NX. destruct x as [d|]; cbn [option_map]; [|reflexivity]. destruct (exn_eqb EDownload (cls_of d)) eqn:Q; [|reflexivity].
    apply exn_eqb_spec in Q. destruct NX. exists d. auto.
Qed.

(** Why the metadata could not be refreshed is not told. *)
Theorem C119_tuf_reason_refuted :
  ~ (forall exc, reads (text_of exc) (diagnostics (raise_from ETUF (s2l "Failed to refresh TUF metadata") exc))).
Proof.
  intro H. specialize (H (Exc ERepository (s2l "#") None None)). destruct H as [ls [kept [k [p [q [H1 [H2 [H3 H4]]]]]]]].
  assert (D : In 35 (diagnostics (raise_from ETUF (s2l "Failed to refresh TUF metadata") (Exc ERepository (s2l "#") None None)))).
  { rewrite H4. apply in_or_app. right. apply in_or_app. left. cbn [text_of] in H1.
    inversion H1 as [l F E1 E2|l s ls' F R E1 E2]; subst.
    - inversion H2 as [|? ? ? ? HA HB]; subst. inversion HB; subst. inversion H3; subst; [|match goal with X : lines_of _ nil |- _ => inversion X end].
      destruct HA as [w [W E]]. destruct w as [|a w]; [cbn in E; subst; left; reflexivity|]. injection E as E0 _. subst.
      inversion W as [|? ? B ?]; subst. destruct B as [B|B]; vm_compute in B; discriminate B.
    - destruct l as [|a l]; [discriminate E1|]. destruct l; discriminate E1. }
  vm_compute in D. repeat (destruct D as [D|D]; [discriminate D|]). exact D.
Qed.

Lemma holds_somewhere : forall part whole, holds part whole ->
  existsb (fun n => str_eqb (firstn (length part) (skipn n whole)) part) (seq 0 (S (length whole))) = true.
Proof.
  intros part whole [p [q ->]]. apply existsb_exists. exists (length p). split.
  - apply in_seq. rewrite app_length. lia.
  - rewrite skipn_app, skipn_all, Nat.sub_diag. cbn [skipn app]. rewrite firstn_app, firstn_all, Nat.sub_diag.
    cbn [firstn]. rewrite app_nil_r. apply str_eqb_refl.
Qed.

(** A server that answers with an error status is a failed download too, but the user is not told to check the connection. *)
Theorem C119_network_refuted : exists exc, cls_of exc = EDownloadHTTP /\
  ~ holds network_advice (diagnostics (raise_from ETUF (s2l "Failed to refresh TUF metadata") exc)).
Proof.
  exists (Exc EDownloadHTTP (s2l "503 Server Error") None None). split; [reflexivity|]. intro H.
  apply holds_somewhere in H. vm_compute in H. discriminate H.
Qed.

Lemma spacing : forall w, forallb (fun c => is_blank c || (c =? 10)) w = true -> Forall (fun c => blank c \/ c = 10) w.
Proof.
  intros w H. rewrite forallb_forall in H. apply Forall_forall. intros c I. specialize (H c I). apply orb_true_iff in H.
  rewrite N.eqb_eq in H. destruct H as [H|H]; [left; apply blank_iff; exact H|right; exact H].
Qed.

(** A token that the user gave with [--identity-token] and that is malformed is explained as a problem of ambient credentials. *)
Theorem C119_ambient_refuted : forall exc, cls_of exc <> EGitHubPermission ->
  opens_with ambient (diagnostics (raise_from EIdentity (s2l "Identity token is malformed or missing claims") exc)).
Proof.
  intros exc Q. unfold raise_from, diagnostics. cbn [cls_of cause_of option_map]. unfold identity_diagnostics.
  replace (exn_eqb EGitHubPermission (cls_of exc)) with false.
  - exists (s2l "
                "), (s2l "

                Additional context:

                Identity token is malformed or missing claims
            "). split; [apply spacing; vm_compute; reflexivity|vm_compute; reflexivity].
  - destruct (exn_eqb EGitHubPermission (cls_of exc)) eqn:D; [|reflexivity]. apply exn_eqb_spec in D. congruence.
Qed.

(** * Concrete cases *)

(** A text of two lines whose second line is indented by two: two blanks are removed from every line. *)
Example ex_two_lines :
  let e := Exc EInvalidBundle (s2l "1 validation error
  Field required") None None in
  about_bundle e /\ reason e (text_of e) /\
  diagnostics e = s2l "      An issue occurred while parsing the Sigstore bundle.

      The provided bundle is malformed and may have been modified maliciously.

      Additional context:

      1 validation error
Field required
".
Proof. split; [left; reflexivity|]. split; [apply own_reason; discriminate|]. vm_compute. reflexivity. Qed.

Example ex_github :
  let exc := Exc EGitHubPermission (s2l "missing id-token") None None in
  reason (raise_from_id exc) (s2l "missing id-token") /\ ~ about_bundle (raise_from_id exc).
Proof. split; [apply (github_reason _ (Exc EGitHubPermission (s2l "missing id-token") None None)); reflexivity|intros [H|H]; discriminate H]. Qed.

Example ex_network :
  let exc := Exc (EBackend 20) (s2l "Connection refused") None None in
  reason (raise_from ENetwork nil exc) (s2l "Connection refused") /\
  explanation (raise_from ENetwork nil exc) false = s2l "        A network issue occurred.

        Check your internet connection and try again.
        
        Additional context:

        Connection refused
        
For detailed error information, run sigstore with the `--verbose` flag.".
Proof. split; [apply (network_reason _ (Exc (EBackend 20) (s2l "Connection refused") None None))|vm_compute; reflexivity]. Qed.

Example ex_one_line : let e := Exc EIncompatibleEntry (s2l "Expected entry version 0.0.1, got 0.0.2") None None in
  ~ In 10 (text_of e) /\ ~ Forall blank (text_of e) /\ about_bundle e.
Proof.
  split; [apply no_newline; vm_compute; reflexivity|]. split; [|right; reflexivity].
  intro F. inversion F as [|? ? B]; subst. destruct B; discriminate.
Qed.

Print Assumptions C119_verbatim.
Print Assumptions C119_reason.
Print Assumptions C119_logged.
Print Assumptions C119_bundle_exact.
Print Assumptions C119_upgrade.
Print Assumptions C119_tuf.
Print Assumptions C119_tuf_reason_refuted.
Print Assumptions C119_network_refuted.
Print Assumptions C119_ambient_refuted.
