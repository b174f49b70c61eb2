(** Property C63: boolean environment variables. *)
From Verif Require Import Base CliEnv.
Local Open Scope N_scope.

(** ** Specification *)

(** the same word, with some letters possibly in upper case *)
Definition spells (v : str) (w : String.string) : Prop := Forall2 (fun c d => c = d \/ (65 <= c <= 90 /\ d = c + 32)) v (s2l w).
Definition says_yes (v : str) : Prop :=
  spells v "y" \/ spells v "yes" \/ spells v "true" \/ spells v "t" \/ spells v "on" \/ spells v "1".
Definition says_no (v : str) : Prop :=
  spells v "n" \/ spells v "no" \/ spells v "false" \/ spells v "f" \/ spells v "off" \/ spells v "0".
(** A fact of Unicode: the only character outside ASCII whose lower case is inside is the Kelvin
    sign, whose lower case is the letter k. *)
Definition unicode_lower (lo : N -> str) : Prop := forall c, 128 <= c -> lo c = s2l "k" \/ exists d, In d (lo c) /\ 128 <= d.

(** the documented variable of each yes/no option *)
Definition documented_variable (f : flag) : str :=
  match f with
  | F_staging => s2l "SIGSTORE_STAGING"
  | F_overwrite => s2l "SIGSTORE_OVERWRITE"
  | F_disable_ambient => s2l "SIGSTORE_OIDC_DISABLE_AMBIENT_PROVIDERS"
  | F_force_oob => s2l "SIGSTORE_OAUTH_FORCE_OOB"
  | F_no_default_files => s2l "SIGSTORE_NO_DEFAULT_FILES"
  | F_offline => s2l "SIGSTORE_OFFLINE"
  end.

(** ** Proofs *)

Lemma documented : forall f, variable_of f = documented_variable f.
Proof. intros []; reflexivity. Qed.

Definition wordy (w : str) : Prop := forall c, In c w -> c < 128 /\ c <> 107 /\ ~ (65 <= c <= 90).
Lemma lower_spells : forall lo, unicode_lower lo -> forall w v, wordy w ->
  py_lower lo v = w <-> Forall2 (fun c d => c = d \/ (65 <= c <= 90 /\ d = c + 32)) v w.
Proof.
  intros lo U w v. revert w. induction v as [|c v IH]; intros w W.
  - split; intros H; [cbn in H; subst w; constructor|]. inversion H. reflexivity.
  - unfold py_lower. cbn [flat_map]. change (flat_map (lower_char lo) v) with (py_lower lo v).
    unfold lower_char. destruct ((65 <=? c) && (c <=? 90)) eqn:E1; [|destruct (c <? 128) eqn:E2].
    + apply andb_true_iff in E1. destruct E1 as [A B]. apply N.leb_le in A. apply N.leb_le in B. cbn [app].
      split; intros H.
      * subst w. constructor; [right; auto|]. apply IH; [|reflexivity]. intros d I. apply W. right. assumption.
      * inversion H as [|x y l l' R F]; subst. f_equal.
        -- destruct R as [->|[_ R]]; [|auto]. exfalso. destruct (W y (or_introl eq_refl)) as (_ & _ & Nu). apply Nu. lia.
        -- apply IH; [|assumption]. intros d I. apply W. right. assumption.
    + cbn [app]. apply andb_false_iff in E1. assert (Nu : ~ (65 <= c <= 90)) by (destruct E1 as [E|E]; apply N.leb_gt in E; lia).
      split; intros H.
      * subst w. constructor; [left; reflexivity|]. apply IH; [|reflexivity]. intros d I. apply W. right. assumption.
      * inversion H as [|x y l l' R F]; subst. f_equal; [destruct R as [R|[R _]]; [assumption|contradiction]|].
        apply IH; [|assumption]. intros d I. apply W. right. assumption.
    + apply N.ltb_ge in E2. split; intros H; exfalso.
      * destruct (U c E2) as [K|(d & I & L)].
        -- rewrite K in H. destruct (W 107) as (_ & Nk & _); [rewrite <- H; left; reflexivity|]. apply Nk. reflexivity.
        -- destruct (W d) as (L' & _); [rewrite <- H; apply in_or_app; left; assumption|]. lia.
      * inversion H as [|x y l l' R F]; subst. destruct (W y (or_introl eq_refl)) as (L & _). destruct R as [R|[R _]]; lia.
Qed.

Lemma wordyb : forall w, forallb (fun c => (c <? 128) && negb (c =? 107) && negb ((65 <=? c) && (c <=? 90))) w = true -> wordy w.
Proof.
  intros w H c I. rewrite forallb_forall in H. apply H in I. apply andb_true_iff in I. destruct I as [I J]. apply andb_true_iff in I. destruct I as [I K].
  apply N.ltb_lt in I. split; [assumption|]. split.
  - intros ->. discriminate.
  - intros [A B]. apply N.leb_le in A. apply N.leb_le in B. rewrite A, B in J. discriminate.
Qed.
Lemma word_in : forall lo, unicode_lower lo -> forall v w, wordy (s2l w) -> str_eqb (py_lower lo v) (s2l w) = true <-> spells v w.
Proof. intros lo U v w W. rewrite str_eqb_spec. apply lower_spells; assumption. Qed.

Lemma yes_words : forall lo, unicode_lower lo -> forall v, existsb (str_eqb (py_lower lo v)) TRUE_WORDS = true <-> says_yes v.
Proof.
  intros lo U v. unfold TRUE_WORDS, says_yes. cbn [existsb]. rewrite !orb_true_iff.
  rewrite !(word_in lo U) by (apply wordyb; vm_compute; reflexivity). intuition discriminate.
Qed.
Lemma no_words : forall lo, unicode_lower lo -> forall v, existsb (str_eqb (py_lower lo v)) FALSE_WORDS = true <-> says_no v.
Proof.
  intros lo U v. unfold FALSE_WORDS, says_no. cbn [existsb]. rewrite !orb_true_iff.
  rewrite !(word_in lo U) by (apply wordyb; vm_compute; reflexivity). intuition discriminate.
Qed.
Lemma spells_fun : forall v w w', wordy (s2l w) -> wordy (s2l w') -> spells v w -> spells v w' -> s2l w = s2l w'.
Proof.
  intros v w w' W W' H H'. unfold spells in *. set (a := s2l w) in *. set (b := s2l w') in *. clearbody a b.
  revert b W' H'. induction H as [|c d v a R F IH]; intros b W' H'; inversion H' as [|x y l l' R' F']; subst; [reflexivity|].
  f_equal; [|apply IH; [intros z I; apply W; right; assumption|intros z I; apply W'; right; assumption|assumption]].
  destruct (W d (or_introl eq_refl)) as (_ & _ & Nd). destruct (W' y (or_introl eq_refl)) as (_ & _ & Ny).
  destruct R as [R|[R R1]]; destruct R' as [R'|[R' R1']]; subst; try reflexivity; exfalso; [apply Nd|apply Ny]; assumption.
Qed.

(** ** Property C63 *)

Theorem C63_true_iff : forall lo, unicode_lower lo -> forall val, boolify_env lo val = Ok true <-> exists v, val = Some v /\ says_yes v.
Proof.
  intros lo U [v|]; unfold boolify_env; [|split; [discriminate|intros (v & Q & _); discriminate]].
  destruct (existsb (str_eqb (py_lower lo v)) TRUE_WORDS) eqn:E.
  - apply yes_words in E; [|assumption]. split; [intros _; exists v; auto|reflexivity].
  - split.
    + destruct (existsb _ FALSE_WORDS); discriminate.
    + intros (v' & Q & Y). assert (v' = v) by congruence. subst v'. apply (yes_words lo U) in Y. congruence.
Qed.

Theorem C63_false_iff : forall lo, unicode_lower lo -> forall val,
  boolify_env lo val = Ok false <-> val = None \/ exists v, val = Some v /\ says_no v.
Proof.
  intros lo U [v|]; unfold boolify_env; [|split; [left|]; reflexivity].
  destruct (existsb (str_eqb (py_lower lo v)) TRUE_WORDS) eqn:E.
  - split; [discriminate|]. intros [Q|(v' & Q & Y)]; [discriminate|]. assert (v' = v) by congruence. subst v'.
    exfalso. apply (yes_words lo U) in E.
    assert (D : forall a b : String.string, spells v a -> spells v b -> wordy (s2l a) -> wordy (s2l b) -> s2l a <> s2l b -> False).
    { intros a b A B Wa Wb Nq. apply Nq. eapply spells_fun; eassumption. }
    unfold says_yes in E. unfold says_no in Y.
    repeat match goal with H : _ \/ _ |- _ => destruct H as [H|H] end;
      (eapply D; [exact E|exact Y|apply wordyb; vm_compute; reflexivity|apply wordyb; vm_compute; reflexivity|discriminate]).
  - destruct (existsb (str_eqb (py_lower lo v)) FALSE_WORDS) eqn:F.
    + apply no_words in F; [|assumption]. split; [intros _; right; exists v; auto|reflexivity].
    + split; [discriminate|]. intros [Q|(v' & Q & Y)]; [discriminate|]. assert (v' = v) by congruence. subst v'.
      apply (no_words lo U) in Y. congruence.
Qed.

(** Everything else is refused. *)
Theorem C63_otherwise : forall lo, unicode_lower lo -> forall v, ~ says_yes v -> ~ says_no v -> boolify_env lo (Some v) = Raise EValue.
Proof.
  intros lo U v Y No. unfold boolify_env.
  destruct (existsb (str_eqb (py_lower lo v)) TRUE_WORDS) eqn:E; [apply (yes_words lo U) in E; contradiction|].
  destruct (existsb (str_eqb (py_lower lo v)) FALSE_WORDS) eqn:F; [apply (no_words lo U) in F; contradiction|]. reflexivity.
Qed.

(** ** The options *)

Lemma flag_eqb_spec : forall a b, flag_eqb a b = true <-> a = b.
Proof. intros a b. destruct a, b; split; intros H; try reflexivity; discriminate. Qed.
Lemma flag_assoc_set : forall (acc : list (flag * bool)) f b g,
  assoc flag_eqb g (dict_set flag_eqb f b acc) = if flag_eqb g f then Some b else assoc flag_eqb g acc.
Proof.
  induction acc as [|[k v] acc IH]; intros f b g; cbn [dict_set assoc]; [reflexivity|].
  destruct (flag_eqb f k) eqn:E; cbn [assoc].
  - apply flag_eqb_spec in E. subst k. destruct (flag_eqb g f); reflexivity.
  - rewrite IH. destruct (flag_eqb g k) eqn:E2; [|reflexivity]. apply flag_eqb_spec in E2. subst k.
    destruct (flag_eqb g f) eqn:E3; [|reflexivity]. apply flag_eqb_spec in E3. subst g. destruct f; discriminate.
Qed.
Lemma read_defaults_spec : forall lo environ fs acc,
  match read_defaults lo environ fs acc with
  | Ok d => forall f, (In f fs -> exists b, boolify_env lo (environ (variable_of f)) = Ok b /\ assoc flag_eqb f d = Some b) /\
                      (~ In f fs -> assoc flag_eqb f d = assoc flag_eqb f acc)
  | Raise e => exists f, In f fs /\ boolify_env lo (environ (variable_of f)) = Raise e
  end.
Proof.
  intros lo environ. induction fs as [|f fs IH]; intros acc; cbn [read_defaults].
  - intros f. split; [intros []|reflexivity].
  - destruct (boolify_env lo (environ (variable_of f))) as [b|e] eqn:B; cbn [bind]; [|exists f; split; [left; reflexivity|assumption]].
    specialize (IH (dict_set flag_eqb f b acc)). destruct (read_defaults lo environ fs (dict_set flag_eqb f b acc)) as [d|e].
    + intros g. destruct (IH g) as [I1 I2]. split.
      * intros [<-|I]; [|auto]. assert (D : In f fs \/ ~ In f fs) by (destruct (existsb (flag_eqb f) fs) eqn:Q;
          [left; apply existsb_exists in Q; destruct Q as (x & I & Q); apply flag_eqb_spec in Q; subst; assumption
          |right; intros I; assert (Q' : existsb (flag_eqb f) fs = true) by (apply existsb_exists; exists f; split; [assumption|apply flag_eqb_spec; reflexivity]); congruence]).
        destruct D as [D|D]; [auto|]. exists b. split; [assumption|]. rewrite (I2 D), flag_assoc_set.
        assert (flag_eqb f f = true) as -> by (apply flag_eqb_spec; reflexivity). reflexivity.
      * intros Nq. rewrite I2 by (intros I; apply Nq; right; assumption). rewrite flag_assoc_set.
        destruct (flag_eqb g f) eqn:Q; [|reflexivity]. apply flag_eqb_spec in Q. subst. exfalso. apply Nq. left. reflexivity.
    + destruct IH as (g & I & R). exists g. split; [right; assumption|assumption].
Qed.

(** An option is on exactly if it is given or its variable says yes. *)
Theorem C63_options : forall lo, unicode_lower lo -> forall environ given flags, parse_flags lo environ given = Ok flags ->
  forall f, flags f = true <-> In f given \/ exists v, environ (documented_variable f) = Some v /\ says_yes v.
Proof.
  intros lo U environ given flags H f. rewrite <- documented. unfold parse_flags in H.
  pose proof (read_defaults_spec lo environ flags_read nil) as D. destruct (read_defaults lo environ flags_read nil) as [d|e]; [|discriminate].
  cbn [bind] in H. injection H as <-. destruct (D f) as [D1 _].
  destruct D1 as (b & B & A). { destruct f; cbn; auto 12. }
  rewrite A. rewrite orb_true_iff. rewrite <- (C63_true_iff lo U).
  split; (intros [H|H]; [left|right]).
  - apply existsb_exists in H. destruct H as (x & I & Q). apply flag_eqb_spec in Q. subst. assumption.
  - subst b. assumption.
  - apply existsb_exists. exists f. split; [assumption|]. apply flag_eqb_spec. reflexivity.
  - congruence.
Qed.
(** Every command fails if one of the six variables has another value, even if the command has no
    such option and even if the option is given; otherwise none does. *)
Theorem C63_bad_value_iff : forall lo, unicode_lower lo -> forall environ given,
  (exists e, parse_flags lo environ given = Raise e) <->
  exists f v, environ (documented_variable f) = Some v /\ ~ says_yes v /\ ~ says_no v.
Proof.
  intros lo U environ given. unfold parse_flags.
  pose proof (read_defaults_spec lo environ flags_read nil) as D. destruct (read_defaults lo environ flags_read nil) as [d|e]; cbn [bind].
  - split; [intros (e & Q); discriminate|]. intros (f & v & E & Y & No). exfalso. rewrite <- documented in E. destruct (D f) as [D1 _].
    destruct D1 as (b & B & _). { destruct f; cbn; auto 12. }
    rewrite E, (C63_otherwise lo U v Y No) in B. discriminate.
  - split; [|intros _; eexists; reflexivity]. intros _. destruct D as (f & _ & R).
    destruct (environ (variable_of f)) as [v|] eqn:E; [|discriminate]. exists f, v. split; [rewrite <- documented; assumption|]. split; intros Q.
    + assert (T : boolify_env lo (Some v) = Ok true) by (apply C63_true_iff; [assumption|exists v; auto]). congruence.
    + assert (T : boolify_env lo (Some v) = Ok false) by (apply C63_false_iff; [assumption|right; exists v; auto]). congruence.
Qed.

(** ** Examples *)
Definition env_ascii (c : N) : str := if c =? 8490 then [107] else [c].
Example ex_unicode_lower : unicode_lower env_ascii.
Proof.
  intros c L. unfold env_ascii. destruct (c =? 8490) eqn:E; [left; reflexivity|]. right. exists c. split; [left; reflexivity|assumption].
Qed.
Example ex_bools : boolify_env env_ascii (Some (s2l "YeS")) = Ok true /\ boolify_env env_ascii (Some (s2l "oFF")) = Ok false /\
  boolify_env env_ascii (Some (s2l "enabled")) = Raise EValue /\ boolify_env env_ascii (Some (s2l " yes")) = Raise EValue.
Proof. repeat split. Qed.
(** Expected, but not so: an empty variable is the same as none. *)
Theorem C63_empty_refuted : exists lo, unicode_lower lo /\ boolify_env lo (Some nil) <> boolify_env lo None.
Proof. exists env_ascii. split; [exact ex_unicode_lower|discriminate]. Qed.

Print Assumptions C63_true_iff.
Print Assumptions C63_false_iff.
Print Assumptions C63_otherwise.
Print Assumptions C63_options.
Print Assumptions C63_bad_value_iff.
