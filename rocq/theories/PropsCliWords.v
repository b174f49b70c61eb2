(** Property C115: from the words of a command line to what a command does. *)
From Verif Require Import Base Codec Messages Env Keyring Cert Dsse KeyDetails Policy TrustedRoot SigningConfig Hashing Json Http
  Oidc Oauth LogEntry Bundle Verifier RekorClient Clients Tuf PyText CliVerify CliTrust Sign SignSteps Predicate CliSign CliEnv CliMain CliWords Calm Outcomes
  VerifierSpec PropsDsse PropsBundle PropsPolicy PropsTuf PropsCliVerify PropsCliEnv PropsCliTrust SignProofs PropsSign PropsRekorClient PropsCliSign PropsPredicate PropsSignVerify PropsCliMain CliWordsSpec CliWordsProofs ToyEnv ToyBundles ToySign.

(** The specification is in CliWordsSpec.v. *)

(** ** The command line *)
Definition line_of (c : command) (above as_ : list (action * str)) (ps : list str) : Line :=
  mkLine c (flat_map (fun x => match fst x with A_value o => [(o, snd x)] | _ => nil end) (above ++ as_))
    (flat_map (fun x => match fst x with A_flag f => [f] | _ => nil end) (above ++ as_))
    (Nat.ltb 0 (length (filter (fun x => if action_eq_dec (fst x) A_upgrade then true else false) as_)))
    (Nat.ltb 0 (length (filter (fun x => if action_eq_dec (fst x) A_in_place then true else false) as_)))
    (length (filter (fun x => if action_eq_dec (fst x) A_verbose then true else false) above))
    (length (filter (fun x => if action_eq_dec (fst x) A_verbose then true else false) as_)) ps.
Lemma occurs_iff : forall a (as_ : list (action * str)),
  Nat.ltb 0 (length (filter (fun x => if action_eq_dec (fst x) a then true else false) as_)) = true <-> exists v, In (a, v) as_.
Proof.
  intros a as_. rewrite Nat.ltb_lt. split.
  - intros H. destruct (filter _ as_) as [|[b v] l] eqn:E; [cbn in H; lia|]. assert (I : In (b, v) (filter (fun x => if action_eq_dec (fst x) a then true else false) as_)) by (rewrite E; left; reflexivity).
    apply filter_In in I. destruct I as [I Q]. cbn in Q. destruct (action_eq_dec b a) as [->|]; [exists v; assumption|discriminate].
  - intros (v & I). assert (J : In (a, v) (filter (fun x => if action_eq_dec (fst x) a then true else false) as_)).
    { apply filter_In. split; [assumption|]. cbn. destruct (action_eq_dec a a); congruence. }
    destruct (filter _ as_); [contradiction|cbn; lia].
Qed.
Lemma bool_iff : forall a b : bool, (a = true <-> b = true) -> a = b.
Proof. intros [|] [|] H; try reflexivity; [symmetry; apply H; reflexivity|apply H; reflexivity]. Qed.
Section Words.
Variable digit : N -> bool.
Lemma says_line : forall ws l, says digit ws l <-> exists c above as_ ps, commands digit P_main ws c above as_ ps /\ l = line_of c above as_ ps.
Proof.
  intros ws l. split.
  - intros (above & as_ & C & O & F & U & I & B & V). exists (ln_command l), above, as_, (ln_positional l). split; [assumption|]. unfold how_often in *.
    destruct l as [c o f u i b v ps]. cbn in *. subst. unfold line_of. f_equal; apply bool_iff; rewrite occurs_iff; assumption.
  - intros (c & above & as_ & ps & C & ->). exists above, as_. split; [assumption|]. split; [reflexivity|]. split; [reflexivity|]. split; [apply occurs_iff|]. split; [apply occurs_iff|]. split; reflexivity.
Qed.
Lemma finish_ok : forall c before f l, finish c before f = Ok l <-> (forall g, In g (before ++ [f]) -> fd_extra g = false) /\ l = line_of c (flat_map fd_actions before) (fd_actions f) (fd_words f).
Proof.
  intros c before f l. unfold finish. destruct (existsb fd_extra before || fd_extra f) eqn:X.
  - split; [discriminate|]. intros (H & _). exfalso. apply orb_prop in X. destruct X as [X|X].
    + apply existsb_exists in X. destruct X as (g & I & X). rewrite (H g) in X by (rewrite in_app_iff; auto). discriminate.
    + rewrite (H f) in X by (rewrite in_app_iff; right; left; reflexivity). discriminate.
  - apply orb_false_iff in X. destruct X as [X1 X2]. cbn [raise_if bind].
    assert (E : mkLine c (flat_map values_of before ++ values_of f) (flat_map flags_in before ++ flags_in f) (Nat.ltb 0 (count_of A_upgrade f)) (Nat.ltb 0 (count_of A_in_place f))
        (list_sum (map (count_of A_verbose) before)) (count_of A_verbose f) (fd_words f) = line_of c (flat_map fd_actions before) (fd_actions f) (fd_words f)).
    { unfold line_of. f_equal.
      - rewrite flat_map_app. f_equal. induction before as [|g b IH]; [reflexivity|]. cbn. rewrite flat_map_app. f_equal. apply IH. cbn in X1. apply orb_false_iff in X1. tauto.
      - rewrite flat_map_app. f_equal. induction before as [|g b IH]; [reflexivity|]. cbn. rewrite flat_map_app. f_equal. apply IH. cbn in X1. apply orb_false_iff in X1. tauto.
      - induction before as [|g b IH]; [reflexivity|]. cbn. rewrite filter_app, app_length. f_equal. apply IH. cbn in X1. apply orb_false_iff in X1. tauto. }
    split.
    + intros Q. injection Q as <-. split; [|exact E]. intros g I. apply in_app_iff in I. destruct I as [I|[<-|[]]]; [|assumption].
      destruct (fd_extra g) eqn:Y; [|reflexivity]. rewrite <- X1. symmetry. apply existsb_exists. exists g. auto.
    + intros (_ & ->). f_equal. exact E.
Qed.
Lemma enter_ok : forall p f q r, enter p f = Ok (q, r) <-> exists x n, fd_rest f = Some (x :: r) /\ x = s2l n /\ leads p n q.
Proof.
  intros p f q r. unfold enter. destruct (fd_rest f) as [[|x r']|].
  - split; [discriminate|intros (x & n & E & _); discriminate].
  - pose proof (leads_iff p x) as L. destruct (assoc str_eqb x (subcommands p)) as [q'|] eqn:A.
    + split.
      * intros E. injection E as -> ->. destruct (proj1 (L q) eq_refl) as (n & -> & Ln). exists (s2l n), n. auto.
      * intros (y & n & E & -> & Ln). injection E as -> ->. assert (Q : Some q' = Some q) by (apply L; exists n; auto). congruence.
    + split; [discriminate|]. intros (y & n & E & -> & Ln). injection E as -> ->. assert (Q : None = Some q) by (apply L; exists n; auto). discriminate.
  - split; [discriminate|intros (x & n & E & _); discriminate].
Qed.

(** A command line is accepted exactly if it follows the grammar of the specification, and then it means what the
    specification says. *)
Theorem C115_accepted_iff : forall ws l, split_words digit ws = Ok l <-> says digit ws l.
Proof.
  intros ws l. rewrite says_line. unfold split_words. split.
  - intros H. inv_bind H. rename a into f0, Ha into L0. inv_bind H. destruct a as [p1 ws1]. apply enter_ok in Ha. destruct Ha as (x & n & R0 & -> & Ld). inv_bind H. rename a into f1, Ha into L1.
    assert (D : (exists c, p1 = P_command c) \/ (p1 = P_verify \/ p1 = P_plumbing)) by (inversion Ld; subst; eauto).
    destruct D as [(c & ->)|D].
    + apply finish_ok in H. destruct H as (X & ->). destruct (proj1 (node_iff digit P_main ws f0 ltac:(discriminate))) as (i & a & x & rest & -> & -> & It & P & A); [split; [assumption|apply X; left; reflexivity]|].
      cbn in R0. injection R0 as -> ->. destruct (proj1 (leaf_iff digit c ws1 f1)) as (as_ & ps & -> & Ar); [split; [assumption|apply X; right; left; reflexivity]|].
      cbn [flat_map fd_actions fd_words]. exists c, (a ++ nil), as_, ps. split; [|reflexivity]. eapply Commands_below; try eassumption. constructor. assumption.
    + assert (H' : exists p2 ws2 c f2, enter p1 f1 = Ok (p2, ws2) /\ level digit p2 ws2 = Ok f2 /\ p2 = P_command c /\ finish c [f0; f1] f2 = Ok l).
      { destruct D as [-> | ->]; inv_bind H; destruct a as [p2 ws2]; inv_bind H; (destruct p2 as [| | |c]; try discriminate); exists (P_command c), ws2, c, a; auto. }
      destruct H' as (p2 & ws2 & c & f2 & E2 & L2 & -> & Fi). apply enter_ok in E2. destruct E2 as (y & m & R1 & -> & Lm). apply finish_ok in Fi. destruct Fi as (X & ->).
      destruct (proj1 (node_iff digit P_main ws f0 ltac:(discriminate))) as (i & a & x & rest & -> & -> & It & P & A); [split; [assumption|apply X; left; reflexivity]|].
      cbn in R0. injection R0 as -> ->.
      destruct (proj1 (node_iff digit p1 ws1 f1 ltac:(intros c'; destruct D as [-> | ->]; discriminate))) as (i1 & a1 & x & rest & -> & -> & It1 & P1 & A1); [split; [assumption|apply X; right; left; reflexivity]|].
      cbn in R1. injection R1 as -> ->. destruct (proj1 (leaf_iff digit c ws2 f2)) as (as_ & ps & -> & Ar); [split; [assumption|apply X; right; right; left; reflexivity]|].
      cbn [flat_map fd_actions fd_words]. exists c, (a ++ a1 ++ nil), as_, ps. split; [|reflexivity]. eapply Commands_below; try eassumption. eapply Commands_below; try eassumption. constructor. assumption.
  - intros (c & above & as_ & ps & C & ->). inversion C as [|p n q i a rest c' above' as' ps' It Ld Cq A]; subst.
    assert (N0 : level digit P_main (i ++ s2l n :: rest) = Ok (mkFound a nil false (Some (s2l n :: rest))) /\ false = false).
    { apply (node_iff digit P_main _ (mkFound a nil false (Some (s2l n :: rest))) ltac:(discriminate)). exists i, a, (s2l n), rest. repeat (split; [first [reflexivity|assumption]|]). split; [eapply leads_plain; eassumption|assumption]. }
    destruct N0 as [N0 _]. rewrite N0. cbn [bind]. assert (En : enter P_main (mkFound a nil false (Some (s2l n :: rest))) = Ok (q, rest)) by (apply enter_ok; exists (s2l n), n; auto).
    rewrite En. cbn [bind]. inversion Cq as [c1 ws1 as1 ps1 Ar|p1 n1 q1 i1 a1 rest1 c1 above1 as1 ps1 It1 Ld1 Cq1 A1]; subst.
    + assert (L1 : level digit (P_command c) rest = Ok (mkFound as_ ps false None) /\ false = false) by (apply (leaf_iff digit c rest (mkFound as_ ps false None)); exists as_, ps; auto).
      destruct L1 as [L1 _]. rewrite L1. cbn [bind]. apply finish_ok. split; [|reflexivity]. intros g [<-|[<-|[]]]; reflexivity.
    + assert (Q : q = P_verify \/ q = P_plumbing) by (inversion Ld; subst; auto; inversion Ld1).
      assert (N1 : level digit q (i1 ++ s2l n1 :: rest1) = Ok (mkFound a1 nil false (Some (s2l n1 :: rest1))) /\ false = false).
      { apply (node_iff digit q _ (mkFound a1 nil false (Some (s2l n1 :: rest1))) ltac:(intros c'; destruct Q as [-> | ->]; discriminate)). exists i1, a1, (s2l n1), rest1.
        repeat (split; [first [reflexivity|assumption]|]). split; [eapply leads_plain; eassumption|assumption]. }
      destruct N1 as [N1 _]. rewrite N1. cbn [bind]. assert (En1 : enter q (mkFound a1 nil false (Some (s2l n1 :: rest1))) = Ok (q1, rest1)) by (apply enter_ok; exists (s2l n1), n1; auto).
      assert (Qc : exists c2, q1 = P_command c2) by (destruct Q as [-> | ->]; inversion Ld1; eauto). destruct Qc as (c2 & ->).
      inversion Cq1 as [c3 ws3 as3 ps3 Ar|? ? ? ? ? ? ? ? ? ? ? Ld3]; subst; [|inversion Ld3].
      assert (L1 : level digit (P_command c) rest1 = Ok (mkFound as_ ps false None) /\ false = false) by (apply (leaf_iff digit c rest1 (mkFound as_ ps false None)); exists as_, ps; auto).
      destruct L1 as [L1 _]. assert (Fi : finish c [mkFound a nil false (Some (s2l n :: i1 ++ s2l n1 :: rest1)); mkFound a1 nil false (Some (s2l n1 :: rest1))] (mkFound as_ ps false None) = Ok (line_of c (a ++ a1 ++ nil) as_ ps)).
      { apply finish_ok. split; [|reflexivity]. intros g [<-|[<-|[<-|[]]]]; reflexivity. }
      destruct Q as [-> | ->]; rewrite En1; cbn [bind]; rewrite L1; cbn [bind]; exact Fi.
Qed.

(** ** No word is lost *)
Definition command_word (w : str) : Prop := exists p n q, leads p n q /\ w = s2l n.
Lemma items_word : forall p i a w, items digit p i a -> In w i -> (forall r, w <> 45%N :: r) -> exists o, In (A_value o, w) a.
Proof.
  intros p i a w H I P. induction H as [|iw ia i a H1 H IH]; [contradiction|]. apply in_app_iff in I. destruct I as [I|I].
  - assert (G : exists o, In (A_value o, w) ia).
    { destruct H1 as [x b M E _ _ _|n|x v o M E Pv|n v o M E].
      - destruct I as [->|[]]. destruct (means_two _ _ _ M) as (c & r & Q). destruct (P _ Q).
      - destruct I as [<-|[]]. destruct (P _ eq_refl).
      - destruct I as [->|[->|[]]]; [destruct (means_two _ _ _ M) as (c & r & Q); destruct (P _ Q)|]. exists o. left. reflexivity.
      - destruct I as [<-|[]]. destruct (means_two _ _ _ M) as (c & r & ->). destruct (P _ eq_refl). }
    destruct G as (o & G). exists o. apply in_app_iff. auto.
  - destruct (IH I) as (o & G). exists o. apply in_app_iff. auto.
Qed.
Lemma commands_word : forall p ws c above as_ ps w, commands digit p ws c above as_ ps -> In w ws -> (forall r, w <> 45%N :: r) ->
  command_word w \/ In w ps \/ exists o, In (A_value o, w) (above ++ as_).
Proof.
  intros p ws c above as_ ps w H. induction H as [c ws as_ ps Ar|p n q i a rest c above as_ ps It Ld H IH A]; intros I P.
  - right. destruct Ar as [i1 a1 b d ps i2 a2 I1 Ib I2 D Tk]. apply in_app_iff in I. destruct I as [I|I]; [right; destruct (items_word _ _ _ _ I1 I P) as (o & G); exists o; cbn [app]; apply in_app_iff; left; exact G|].
    apply in_app_iff in I. destruct I as [I|I]; [left|right; destruct (items_word _ _ _ _ I2 I P) as (o & G); exists o; cbn [app]; apply in_app_iff; right; exact G].
    destruct Ib as [ws F|ws more F]; [assumption|]. apply in_app_iff in I. apply in_app_iff. destruct I as [I|[<-|I]]; [auto|destruct (P _ eq_refl)|auto].
  - apply in_app_iff in I. destruct I as [I|[<-|I]].
    + right. right. destruct (items_word _ _ _ _ It I P) as (o & G). exists o. rewrite <- app_assoc. apply in_app_iff. auto.
    + left. exists p, n, q. auto.
    + destruct (IH I P) as [G|[G|(o & G)]]; [auto|auto|]. right. right. exists o. rewrite <- app_assoc. apply in_app_iff. auto.
Qed.
(** Every word that does not begin with a minus sign is the name of a command, an input, or the value of an option. *)
Theorem C115_nothing_lost : forall ws l w, split_words digit ws = Ok l -> In w ws -> (forall r, w <> 45%N :: r) ->
  command_word w \/ In w (ln_positional l) \/ exists o, In (o, w) (ln_options l).
Proof.
  intros ws l w H I P. apply C115_accepted_iff, says_line in H. destruct H as (c & above & as_ & ps & C & ->).
  destruct (commands_word _ _ _ _ _ _ _ C I P) as [G|[G|(o & G)]]; [auto|auto|]. right. right. exists o. cbn [line_of ln_options]. apply in_flat_map. exists (A_value o, w). split; [assumption|]. left. reflexivity.
Qed.
Lemma no_dashes_items : forall p i a, items digit p i a -> ~ In (s2l "--") i.
Proof.
  intros p i a H I. induction H as [|iw ia i a H1 H IH]; [contradiction|]. apply in_app_iff in I. destruct I as [I|I]; [|auto].
  destruct H1 as [w b M E _ _ _|n|w v o M E P|n v o M E].
  - destruct I as [Q|[]]. exact (means_not_dashes _ _ _ M Q).
  - destruct I as [Q|[]]. discriminate.
  - destruct I as [Q|[Q|[]]]; [exact (means_not_dashes _ _ _ M Q)|exact (plain_not_dashes _ _ _ P Q)].
  - destruct I as [Q|[]]. assert (I61 : In 61%N (s2l "--")) by (rewrite <- Q; rewrite in_app_iff; right; left; reflexivity). cbn in I61. intuition discriminate.
Qed.
Lemma first_split : forall (d : str) xs ys a b, xs ++ ys = a ++ d :: b -> ~ In d xs -> exists a', a = xs ++ a' /\ ys = a' ++ d :: b.
Proof.
  intros d. induction xs as [|x xs IH]; intros ys a b E Nx; [exists a; auto|]. destruct a as [|y a]; injection E as -> E; [destruct Nx; left; reflexivity|].
  destruct (IH _ _ _ E) as (a' & -> & ->); [intros I; apply Nx; right; assumption|]. exists a'. auto.
Qed.
Lemma commands_dashes : forall p ws c above as_ ps, commands digit p ws c above as_ ps -> forall a b, ws = a ++ s2l "--" :: b -> ~ In (s2l "--") a -> exists pre, ps = pre ++ b.
Proof.
  intros p ws c above as_ ps H. induction H as [c ws as_ ps Ar|p n q i a0 rest c above as_ ps It Ld H IH A]; intros a b E Na.
  - destruct Ar as [i1 a1 bl d ps i2 a2 I1 Ib I2 D Tk]. destruct (first_split _ _ _ _ _ E (no_dashes_items _ _ _ I1)) as (a' & -> & E'). assert (Na' : ~ In (s2l "--") a') by (intros I; apply Na; apply in_app_iff; auto).
    destruct Ib as [ws F|ws more F].
    + exfalso. destruct (first_split _ _ _ _ _ E') as (a3 & _ & E3).
      * intros I. rewrite Forall_forall in F. exact (plain_not_dashes _ _ _ (F _ I) eq_refl).
      * apply (no_dashes_items _ _ _ I2). rewrite E3. apply in_app_iff. right. left. reflexivity.
    + rewrite (D eq_refl), app_nil_r in E'. destruct (first_split _ _ _ _ _ E') as (a3 & -> & E3).
      * intros I. rewrite Forall_forall in F. exact (plain_not_dashes _ _ _ (F _ I) eq_refl).
      * exists ws. destruct a3 as [|y a3]; [apply (f_equal (skipn 1)) in E3; cbn [app skipn] in E3; rewrite E3; reflexivity|]. apply (f_equal (firstn 1)) in E3. cbn [app firstn] in E3. exfalso. apply Na'. apply in_app_iff. right. left. congruence.
  - destruct (first_split _ _ _ _ _ E (no_dashes_items _ _ _ It)) as (a' & -> & E'). destruct a' as [|y a']; injection E' as E' E''.
    + exfalso. exact (plain_not_dashes _ _ _ (leads_plain digit _ _ _ Ld) E').
    + apply (IH a' b E''). intros I. apply Na. apply in_app_iff. right. right. assumption.
Qed.
(** Every word after the first [--] is an input, whatever it looks like. *)
Theorem C115_after_dashes : forall a b l, split_words digit (a ++ s2l "--" :: b) = Ok l -> ~ In (s2l "--") a -> exists pre, ln_positional l = pre ++ b.
Proof.
  intros a b l H Na. apply C115_accepted_iff, says_line in H. destruct H as (c & above & as_ & ps & C & ->). exact (commands_dashes _ _ _ _ _ _ C a b eq_refl Na).
Qed.

(** ** A form in which every text has its meaning *)
Definition spell (x : opt * str) : str := s2l (value_name (fst x)) ++ 61%N :: snd x.
Definition command_words (c : command) : list str :=
  map s2l match c with
  | C_sign => ["sign"] | C_attest => ["attest"] | C_verify_identity => ["verify"; "identity"] | C_verify_github => ["verify"; "github"]
  | C_get_identity_token => ["get-identity-token"] | C_trust_instance => ["trust-instance"] | C_fix_bundle => ["plumbing"; "fix-bundle"]
  | C_update_trust_root => ["plumbing"; "update-trust-root"]
  end%string.
Lemma value_no_equals : forall o, ~ In 61%N (s2l (value_name o)).
Proof. intros o I. apply existsb_N in I. destruct o; discriminate I. Qed.
Lemma spell_clear : forall p o v, (forall c, p <> P_command c) -> ~ ambiguous p (spell (o, v)).
Proof.
  intros p o v Np (n & Sn & _ & _ & m & m' & a & b & F & F' & B & B' & Ne). apply stem_spec in Sn. unfold spell, stem_of in Sn. cbn [fst snd] in Sn. rewrite split_eq_app in Sn by apply value_no_equals. subst n.
  assert (L : length (matching p (s2l (value_name o))) <= 1) by (destruct p as [| | |c]; [| | |destruct (Np c); reflexivity]; destruct o; apply Nat.leb_le; vm_compute; reflexivity).
  pose proof (proj2 (matching_in p _ m a) (conj F B)) as I. pose proof (proj2 (matching_in p _ m' b) (conj F' B')) as I'.
  destruct (matching p (s2l (value_name o))) as [|x [|y l]]; [contradiction| |cbn in L; lia]. destruct I as [I|[]], I' as [I'|[]]. congruence.
Qed.
Lemma flag_clear : forall p f, (forall c, p <> P_command c) -> ~ ambiguous p (s2l (flag_name f)).
Proof.
  intros p f Np (n & Sn & _ & _ & m & m' & a & b & F & F' & B & B' & Ne). apply stem_spec in Sn. unfold stem_of in Sn. rewrite split_eq_none in Sn by (intros I; apply existsb_N in I; destruct f; discriminate I). subst n.
  assert (L : length (matching p (s2l (flag_name f))) <= 1) by (destruct p as [| | |c]; [| | |destruct (Np c); reflexivity]; destruct f; apply Nat.leb_le; vm_compute; reflexivity).
  pose proof (proj2 (matching_in p _ m a) (conj F B)) as I. pose proof (proj2 (matching_in p _ m' b) (conj F' B')) as I'.
  destruct (matching p (s2l (flag_name f))) as [|x [|y l]]; [contradiction| |cbn in L; lia]. destruct I as [I|[]], I' as [I'|[]]. congruence.
Qed.
Lemma word_clear : forall p w, (forall r, w <> 45%N :: r) -> ~ ambiguous p w.
Proof.
  intros p w P (n & Sn & Bn & _). apply stem_spec in Sn. subst n. apply (proj2 (stem_long w)) in Bn. destruct Bn as (r & ->). destruct (P (45%N :: r) eq_refl).
Qed.
Lemma before_prefix : forall xs ys w, before_dashes (xs ++ s2l "--" :: ys) w -> In w xs.
Proof.
  induction xs as [|x xs IH]; intros ys w (a & b & E & Nd).
  - exfalso. apply Nd. destruct a; injection E as <- _; left; reflexivity.
  - destruct a as [|y a]; injection E as -> E; [left; reflexivity|]. right. apply (IH ys). exists a, b. split; [assumption|]. intros I. apply Nd. right. assumption.
Qed.
Definition value_action (x : opt * str) : action * str := (A_value (fst x), snd x).
Lemma spelled_items : forall p opts, (forall o v, In (o, v) opts -> called p (A_value o) (value_name o)) -> items digit p (map spell opts) (map value_action opts).
Proof.
  intros p opts H. induction opts as [|[o v] l IH]; [constructor|]. change (items digit p ([spell (o, v)] ++ map spell l) ([value_action (o, v)] ++ map value_action l)).
  constructor; [|apply IH; intros o' v' I; apply (H o' v'); right; assumption]. apply Item_equals; [|apply value_no_equals]. left. exists (value_name o). split; [apply (H o v); left; reflexivity|reflexivity].
Qed.
Lemma spelled_flags : forall p flags, (forall f, In f flags -> called p (A_flag f) (flag_name f)) -> items digit p (map (fun f => s2l (flag_name f)) flags) (map (fun f => (A_flag f, nil)) flags).
Proof.
  intros p flags H. induction flags as [|f l IH]; [constructor|].
  change (items digit p ([s2l (flag_name f)] ++ map (fun f => s2l (flag_name f)) l) ([(A_flag f, nil)] ++ map (fun f => (A_flag f, nil)) l)).
  constructor; [|apply IH; intros f' I; apply (H f'); right; assumption]. apply Item_switch; try discriminate.
  - left. exists (flag_name f). split; [apply (H f); left; reflexivity|reflexivity].
  - intros I. apply existsb_N in I. destruct f; discriminate I.
Qed.
Lemma values_back : forall l, flat_map (fun x : action * str => match fst x with A_value o => [(o, snd x)] | _ => nil end) (map value_action l) = l.
Proof. induction l as [|[o v] l IH]; [reflexivity|]. cbn. rewrite IH. reflexivity. Qed.
Lemma values_flags : forall l, flat_map (fun x : action * str => match fst x with A_value o => [(o, snd x)] | _ => nil end) (map (fun f => (A_flag f, nil)) l) = nil.
Proof. induction l as [|f l IH]; [reflexivity|assumption]. Qed.
Lemma flags_values : forall l, flat_map (fun x : action * str => match fst x with A_flag f => [f] | _ => nil end) (map value_action l) = nil.
Proof. induction l as [|f l IH]; [reflexivity|assumption]. Qed.
Lemma flags_back : forall l, flat_map (fun x : action * str => match fst x with A_flag f => [f] | _ => nil end) (map (fun f => (A_flag f, nil)) l) = l.
Proof. induction l as [|f l IH]; [reflexivity|]. cbn. rewrite IH. reflexivity. Qed.
Lemma filter_values : forall a l, (forall o, a <> A_value o) -> filter (fun x => if action_eq_dec (fst x) a then true else false) (map value_action l) = nil.
Proof. intros a l H. induction l as [|[o v] l IH]; [reflexivity|]. cbn [map filter value_action fst]. destruct (action_eq_dec (A_value o) a) as [E|_]; [destruct (H o (eq_sym E))|assumption]. Qed.
Lemma filter_flags : forall a l, (forall f, a <> A_flag f) -> filter (fun x : action * str => if action_eq_dec (fst x) a then true else false) (map (fun f => (A_flag f, nil)) l) = nil.
Proof. intros a l H. induction l as [|f l IH]; [reflexivity|]. cbn [map filter fst]. destruct (action_eq_dec (A_flag f) a) as [E|_]; [destruct (H f (eq_sym E))|assumption]. Qed.

(** With values after an equals sign and inputs after [--], every text is taken as it is. *)
Theorem C115_safe_form : forall c pre opts flags fs, In c [C_sign; C_attest; C_verify_identity; C_verify_github] ->
  (forall o v, In (o, v) pre -> In o [O_instance; O_trust_config]) ->
  (forall o v, In (o, v) opts -> options_of c o /\ ~ In o [O_instance; O_trust_config]) ->
  (forall f, In f flags -> flags_of c f /\ f <> F_staging) -> fs <> nil ->
  split_words digit (map spell pre ++ command_words c ++ map spell opts ++ map (fun f => s2l (flag_name f)) flags ++ s2l "--" :: fs) =
  Ok (mkLine c (pre ++ opts) flags false false 0 0 fs).
Proof.
  intros c pre opts flags fs Ic Hp Ho Hf N0. apply C115_accepted_iff, says_line.
  exists c, (map value_action pre ++ nil), (map value_action opts ++ map (fun f => (A_flag f, nil)) flags), fs. split.
  2: { unfold line_of. rewrite app_nil_r, !flat_map_app, !values_back, values_flags, !flags_values, flags_back, !filter_app. rewrite !filter_values, !filter_flags by discriminate. rewrite app_nil_r. reflexivity. }
  assert (Ar : arguments digit c (map spell opts ++ map (fun f => s2l (flag_name f)) flags ++ s2l "--" :: fs) (map value_action opts ++ map (fun f => (A_flag f, nil)) flags) fs).
  { pose proof (items_app digit (P_command c) _ _ _ _ (spelled_items (P_command c) opts (fun o v I => Called_value c o (proj1 (Ho o v I)) (proj2 (Ho o v I)))) (spelled_flags (P_command c) flags (fun f I => Called_flag c f (proj1 (Hf f I)) (proj2 (Hf f I))))) as It.
    pose proof (Arguments digit c _ _ _ _ _ nil nil It (Inputs_dashes digit (P_command c) nil fs (Forall_nil _)) (Items_nil _ _) (fun _ => eq_refl)) as G. rewrite !app_nil_r in G. cbn [app] in G. rewrite <- app_assoc in G. apply G.
    destruct Ic as [<-|[<-|[<-|[<-|[]]]]]; exact N0. }
  assert (Pre : items digit P_main (map spell pre) (map value_action pre)) by (apply spelled_items; intros o v I; apply Called_instance; exact (Hp o v I)).
  assert (Cl : forall p w, (forall c, p <> P_command c) -> before_dashes (map spell opts ++ map (fun f => s2l (flag_name f)) flags ++ s2l "--" :: fs) w -> ~ ambiguous p w).
  { intros p w Np B. rewrite app_assoc in B. apply before_prefix in B. apply in_app_iff in B. destruct B as [B|B]; apply in_map_iff in B; destruct B as (x & <- & _); [destruct x; apply spell_clear|apply flag_clear]; assumption. }
  assert (Cl1 : forall p n w, (forall c, p <> P_command c) -> (forall r, s2l n <> 45%N :: r) -> before_dashes (s2l n :: map spell opts ++ map (fun f => s2l (flag_name f)) flags ++ s2l "--" :: fs) w -> ~ ambiguous p w).
  { intros p n w Np Pn (a & b & E & Nd). destruct a as [|y a]; injection E as E1 E; [subst w; apply word_clear; exact Pn|]. apply Cl; [assumption|]. exists a, b. split; [assumption|]. intros I. apply Nd. right. assumption. }
  destruct Ic as [<-|[<-|[<-|[<-|[]]]]]; cbn [command_words map app].
  - eapply Commands_below; [exact Pre|exact Leads_sign|constructor; exact Ar|intros w; apply Cl; discriminate].
  - eapply Commands_below; [exact Pre|exact Leads_attest|constructor; exact Ar|intros w; apply Cl; discriminate].
  - eapply Commands_below; [exact Pre|exact Leads_verify| |intros w; apply (Cl1 P_main "identity"%string w); discriminate].
    change (commands digit P_verify (nil ++ s2l "identity" :: map spell opts ++ map (fun f => s2l (flag_name f)) flags ++ s2l "--" :: fs) C_verify_identity (nil ++ nil) (map value_action opts ++ map (fun f => (A_flag f, nil)) flags) fs).
    eapply Commands_below; [constructor|exact Leads_identity|constructor; exact Ar|intros w; apply Cl; discriminate].
  - eapply Commands_below; [exact Pre|exact Leads_verify| |intros w; apply (Cl1 P_main "github"%string w); discriminate].
    change (commands digit P_verify (nil ++ s2l "github" :: map spell opts ++ map (fun f => s2l (flag_name f)) flags ++ s2l "--" :: fs) C_verify_github (nil ++ nil) (map value_action opts ++ map (fun f => (A_flag f, nil)) flags) fs).
    eapply Commands_below; [constructor|exact Leads_github|constructor; exact Ar|intros w; apply Cl; discriminate].
Qed.

(** ** Exit status 0 *)
Lemma before_cons : forall x ws w, x <> s2l "--" -> before_dashes ws w -> before_dashes (x :: ws) w.
Proof. intros x ws w Nx (a & b & -> & Nd). exists (x :: a), b. split; [reflexivity|]. intros [Q|I]; [exact (Nx Q)|exact (Nd I)]. Qed.
Lemma before_here : forall x ws, x <> s2l "--" -> before_dashes (x :: ws) x.
Proof. intros x ws Nx. exists nil, ws. split; [reflexivity|]. intros [Q|[]]. exact (Nx Q). Qed.
Lemma before_app : forall xs ws w, ~ In (s2l "--") xs -> before_dashes ws w -> before_dashes (xs ++ ws) w.
Proof. induction xs as [|x xs IH]; intros ws w N0 B; [assumption|]. cbn [app]. apply before_cons; [intros ->; apply N0; left; reflexivity|]. apply IH; [intros I; apply N0; right; assumption|assumption]. Qed.
Lemma kinds_raise : forall p ws e, kinds digit (names p) ws = Raise e -> e = ESystemExit 2.
Proof.
  intros p. induction ws as [|x ws IH]; intros e H; [discriminate|]. cbn [kinds] in H. destruct (str_eqb x DASHES); [discriminate|].
  pose proof (classify_shape digit p x) as Sh. destruct (classify digit (names p) x) as [k|y]; cbn [bind] in H; [|injection H as <-; apply Sh].
  destruct (kinds digit (names p) ws) as [ks|y]; [discriminate|]. injection H as <-. apply IH. reflexivity.
Qed.
Lemma words_raise : forall p w ws pl e, walk (names p) w pl (word_kinds ws) = Raise e -> e = ESystemExit 2.
Proof.
  intros p w. induction ws as [|x ws IH]; intros pl e H.
  - destruct w, pl; cbn [word_kinds map walk] in H; congruence.
  - cbn [word_kinds map walk] in H. change (map (fun x => (x, K_word)) ws) with (word_kinds ws) in H.
    destruct w, pl; try discriminate; (apply bind_raise_inv in H; destruct H as [H|(f & _ & H)]; [eapply IH; eassumption|discriminate]).
Qed.
Lemma walk_zero : forall p n ws ks w pl, length ws <= n -> kinds digit (names p) ws = Ok ks -> walk (names p) w pl ks = Raise (ESystemExit 0) ->
  exists x, before_dashes ws x /\ asks_information x.
Proof.
  intros p. induction n as [|n IH]; intros [|x ws] ks w pl L K R; cbn [length] in L; try lia; try (injection K as <-; destruct w, pl; discriminate R).
  destruct (kinds_inv _ _ _ _ _ K) as [(-> & ->)|(Nx & k & r & Ck & Kr & ->)].
  { exfalso. assert (Q : ESystemExit 0 = ESystemExit 2); [|discriminate]. cbn [walk] in R.
    destruct w, pl; try discriminate R; first [eapply words_raise; exact R|apply bind_raise_inv in R; destruct R as [R|(f & _ & R)]; [eapply words_raise; exact R|discriminate]]. }
  assert (Next : forall w pl, walk (names p) w pl r = Raise (ESystemExit 0) -> exists y, before_dashes (x :: ws) y /\ asks_information y).
  { intros w' pl' R'. destruct (IH ws r w' pl' ltac:(lia) Kr R') as (y & B & A). exists y. split; [apply before_cons; assumption|assumption]. }
  pose proof (classify_shape digit p x) as Sh. rewrite Ck in Sh. destruct Sh as [Sh _]. destruct k as [| |[a|] long ex]; cbn [walk] in R.
  - destruct w, pl; try discriminate; (apply bind_raise_inv in R; destruct R as [R|(f & _ & R)]; [eapply Next; eassumption|discriminate]).
  - destruct Sh.
  - destruct ex as [[eq e]|].
    + destruct (takes_value a) eqn:Ta; [apply bind_raise_inv in R; destruct R as [R|(f & _ & R)]; [eapply Next; eassumption|discriminate]|].
      destruct (long || eq || match e with nil => true | _ => false end) eqn:G; [discriminate|]. apply orb_false_iff in G. destruct G as [G _]. apply orb_false_iff in G. destruct G as [-> ->].
      destruct Sh as (c & -> & Nc & F & _ & Ne). apply bind_raise_inv in R. destruct R as [R|([more u] & Lt & R)]; [apply letters_raise in R; discriminate|].
      destruct (existsb ends_process (a :: more)) eqn:Ep.
      * exists (45%N :: c :: e). split; [apply before_here; assumption|]. right. destruct (short_unique _ _ _ F Nc) as (_ & [(_ & Q)|(-> & ->)]); [exists 0, c, e; auto|].
        destruct (proj2 (letters_inv _ _ _ _ Lt) Ep) as (m & d & r' & -> & Q). exists (S m), d, r'. auto.
      * cbn [raise_if bind] in R. apply bind_raise_inv in R. destruct R as [R|(f & _ & R)]; [eapply Next; eassumption|discriminate].
    + destruct Sh as (M & E). destruct (takes_value a) eqn:Ta.
      * destruct r as [|[v [| |]] r']; try discriminate. apply bind_raise_inv in R. destruct R as [R|(f & _ & R)]; [|discriminate]. destruct ws as [|v' ws]; [discriminate|].
        destruct (kinds_inv _ _ _ _ _ Kr) as [(-> & Q)|(Nv & k & ks' & Cv & Kv & Q)]; [discriminate|]. injection Q as -> <- ->. cbn [length] in L.
        destruct (IH ws ks' w (leave pl) ltac:(lia) Kv R) as (y & B & A). exists y. split; [|assumption]. apply before_cons; [assumption|]. apply before_cons; assumption.
      * destruct (ends_process a) eqn:Ep; [|apply bind_raise_inv in R; destruct R as [R|(f & _ & R)]; [eapply Next; eassumption|discriminate]].
        exists x. split; [apply before_here; assumption|]. left. exists p. destruct a; try discriminate; auto.
  - apply bind_raise_inv in R. destruct R as [R|(f & _ & R)]; [eapply Next; eassumption|discriminate].
Qed.
Lemma level_zero : forall p ws, level digit p ws = Raise (ESystemExit 0) -> exists x, before_dashes ws x /\ asks_information x.
Proof.
  intros p ws H. unfold level in H. apply bind_raise_inv in H. destruct H as [H|(ks & K & H)]; [apply kinds_raise in H; discriminate|]. exact (walk_zero _ (length ws) _ _ _ _ (le_n _) K H).
Qed.
Lemma walk_rest : forall p n ws ks f x r, length ws <= n -> kinds digit (names p) ws = Ok ks -> walk (names p) W_command Before ks = Ok f -> fd_rest f = Some (x :: r) ->
  exists i, ws = i ++ r /\ ~ In (s2l "--") i.
Proof.
  intros p. induction n as [|n IH]; intros [|y ws] ks f x r L K R E; cbn [length] in L; try lia; try (injection K as <-; discriminate R).
  destruct (kinds_inv _ _ _ _ _ K) as [(-> & ->)|(Ny & k & ks' & Ck & Kr & ->)]; [discriminate R|].
  assert (Next : forall g, walk (names p) W_command Before ks' = Ok g -> fd_rest g = Some (x :: r) -> exists i, y :: ws = i ++ r /\ ~ In (s2l "--") i).
  { intros g R' E'. destruct (IH ws ks' g x r ltac:(lia) Kr R' E') as (i & -> & Ni). exists (y :: i). split; [reflexivity|]. intros [Q|I]; [exact (Ny Q)|exact (Ni I)]. }
  destruct k as [| |[a|] long ex]; cbn [walk leave] in R.
  - injection R as <-. cbn in E. injection E as -> <-. exists [x]. rewrite (kinds_fst _ _ _ _ Kr). split; [reflexivity|]. intros [Q|[]]. exact (Ny Q).
  - discriminate.
  - destruct ex as [[eq e]|].
    + destruct (takes_value a); [inv_bind R; injection R as <-; eapply Next; eassumption|]. destruct (_ || _ || _); [discriminate|]. inv_bind R. destruct a0 as [more u].
      destruct (existsb ends_process (a :: more)); [discriminate|]. cbn [raise_if bind] in R. inv_bind R. injection R as <-. eapply Next; [eassumption|].
      clear - E. cbn [fold_right] in E. cbn in E. induction more as [|z m IHm]; [destruct u; exact E|exact (IHm E)].
    + destruct (takes_value a).
      * destruct ks' as [|[v [| |]] r']; try discriminate. inv_bind R. injection R as <-. destruct ws as [|v' ws]; [discriminate|].
        destruct (kinds_inv _ _ _ _ _ Kr) as [(-> & Q)|(Nv & k & ks' & Cv & Kv & Q)]; [discriminate|]. injection Q as -> <- ->. cbn [length] in L.
        destruct (IH ws ks' a0 x r ltac:(lia) Kv Ha E) as (i & -> & Ni). exists (y :: v' :: i). split; [reflexivity|]. intros [Q|[Q|I]]; [exact (Ny Q)|exact (Nv Q)|exact (Ni I)].
      * destruct (ends_process a); [discriminate|]. inv_bind R. injection R as <-. eapply Next; eassumption.
  - inv_bind R. injection R as <-. eapply Next; eassumption.
Qed.
Lemma enter_zero : forall p f, enter p f <> Raise (ESystemExit 0).
Proof. intros p f. unfold enter. destruct (fd_rest f) as [[|w r]|]; [discriminate| |discriminate]. destruct (assoc str_eqb w (subcommands p)); discriminate. Qed.
Lemma level_rest : forall p ws f q r, level digit p ws = Ok f -> (forall c, p <> P_command c) -> enter p f = Ok (q, r) -> exists i, ws = i ++ r /\ ~ In (s2l "--") i.
Proof.
  intros p ws f q r L Np E. unfold level in L. replace (expects p) with W_command in L by (destruct p; try reflexivity; destruct (Np c); reflexivity). inv_bind L.
  apply enter_ok in E. destruct E as (x & n & Rr & _). exact (walk_rest _ (length ws) _ _ _ _ _ (le_n _) Ha L Rr).
Qed.
Lemma split_zero : forall ws, split_words digit ws = Raise (ESystemExit 0) -> exists w, before_dashes ws w /\ asks_information w.
Proof.
  intros ws H. unfold split_words in H. apply bind_raise_inv in H. destruct H as [H|(f0 & L0 & H)]; [eapply level_zero; eassumption|].
  apply bind_raise_inv in H. destruct H as [H|([p1 ws1] & E0 & H)]; [destruct (enter_zero _ _ H)|].
  destruct (level_rest _ _ _ _ _ L0 ltac:(discriminate) E0) as (i & -> & Ni). apply bind_raise_inv in H.
  destruct H as [H|(f1 & L1 & H)]; [destruct (level_zero _ _ H) as (w & B & A); exists w; split; [apply before_app; assumption|assumption]|].
  assert (Deep : (forall c, p1 <> P_command c) -> (let* '(p2, ws2) := enter p1 f1 in let* f2 := level digit p2 ws2 in match p2 with P_command c => finish c [f0; f1] f2 | _ => Raise (ESystemExit 2) end) = Raise (ESystemExit 0) ->
    exists w, before_dashes (i ++ ws1) w /\ asks_information w).
  { intros Np G. apply bind_raise_inv in G. destruct G as [G|([p2 ws2] & E1 & G)]; [destruct (enter_zero _ _ G)|].
    destruct (level_rest _ _ _ _ _ L1 Np E1) as (j & -> & Nj). apply bind_raise_inv in G. destruct G as [G|(f2 & L2 & G)].
    - destruct (level_zero _ _ G) as (w & B & A). exists w. split; [apply before_app; [assumption|apply before_app; assumption]|assumption].
    - exfalso. destruct p2; try discriminate. unfold finish in G. destruct (_ || _); discriminate. }
  destruct p1 as [| | |c]; try (apply Deep; [discriminate|exact H]). exfalso. unfold finish in H. destruct (_ || _); discriminate.
Qed.
(** Exit status 0 means that the command of the line has ended with status 0 (for [verify identity]: C115_verify_identity), or
    that a word before [--] asks for help or the version; then nothing has been done. *)
Theorem C115_status_zero : forall mc environ ws t0 h0 sched t h out r, main_words digit mc environ ws t0 h0 sched t h out r -> exit_status r = 0 ->
  (exists l, says digit ws l /\ main mc environ l t0 h0 sched t h out r) \/
  ((exists w, before_dashes ws w /\ asks_information w) /\ t = t0 /\ h = h0 /\ sched = nil /\ out = nil).
Proof.
  intros mc environ ws t0 h0 sched t h out r M X. destruct M as [e P|d n P S|d P S|l sched t h out r S M].
  - exfalso. revert P. unfold parse_flags. destruct (read_defaults (mc_lower mc) environ flags_read nil) as [d|x] eqn:R; [discriminate|]. cbn [bind]. intros Q. injection Q as <-.
    assert (Q : x = EValue); [|subst x; discriminate X]. clear X. revert R. generalize (@nil (flag * bool)). induction flags_read as [|f fs IH]; intros acc R; [discriminate|]. cbn [read_defaults] in R.
    apply bind_raise_inv in R. destruct R as [R|(b & _ & R)]; [|eapply IH; eassumption].
    unfold boolify_env in R. destruct (environ (variable_of f)); [|discriminate]. destruct (existsb _ TRUE_WORDS); [discriminate|]. destruct (existsb _ FALSE_WORDS); congruence.
  - right. cbn in X. subst n. split; [exact (split_zero _ S)|auto].
  - discriminate X.
  - left. exists l. split; [apply C115_accepted_iff; assumption|assumption].
Qed.

(** [verify identity] from the words: exit status 0 exactly if all the inputs were verified for the identity and the issuer
    that were given, whatever these texts and the names of the inputs are. *)
Theorem C115_verify_identity : forall mc environ identity issuer fs t0 h0 sched t h out r,
  main_words digit mc environ ([s2l "verify"; s2l "identity"; s2l "--cert-identity=" ++ identity; s2l "--cert-oidc-issuer=" ++ issuer; s2l "--"] ++ fs) t0 h0 sched t h out r ->
  fs <> nil -> unicode_lower (mc_lower mc) -> calm_machine mc ->
  (exit_status r = 0 <->
   readable_variables environ /\
   exists a, says_verify environ (mkLine C_verify_identity [(O_cert_identity, identity); (O_cert_issuer, issuer)] nil false false 0 0 fs) a /\ va_inputs a = fs /\
     every_input_verified (mc_env mc) (mc_ps mc) (world_at (mc_tools mc) t0) a show_decoded (P_identity identity (Some issuer))) /\
  t = t0 /\ h = h0.
Proof.
  intros mc environ identity issuer fs t0 h0 sched t h out r M N0 U Cm. set (l := mkLine C_verify_identity [(O_cert_identity, identity); (O_cert_issuer, issuer)] nil false false 0 0 fs).
  assert (Sp : split_words digit ([s2l "verify"; s2l "identity"; s2l "--cert-identity=" ++ identity; s2l "--cert-oidc-issuer=" ++ issuer; s2l "--"] ++ fs) = Ok l).
  { apply (C115_safe_form C_verify_identity nil [(O_cert_identity, identity); (O_cert_issuer, issuer)] nil fs); [cbn; auto|intros ? ? []| |intros ? []|assumption].
    intros o v [E|[E|[]]]; injection E as <- <-; (split; [cbn; auto|cbn; intuition discriminate]). }
  assert (Wf : well_formed (mc_int mc) l).
  { unfold well_formed. cbn [ln_options ln_flags ln_command ln_positional ln_upgrade_version ln_in_place l]. unfold mentioned. cbn [ln_options l].
    split; [intros o s [E|[E|[]]]; injection E as <- <-; cbn; auto|]. split; [intros f []|]. split; [intros [Q|Q]; discriminate|].
    split; [intros o [<-|[<-|[]]]; [exists identity; left; reflexivity|exists issuer; right; left; reflexivity]|].
    split; [intros ([] & _)|]. split; [intros ([] & _)|]. split; [intros ((s & [Q|[Q|[]]]) & _); discriminate|]. split; [assumption|].
    split; intros s [Q|[Q|[]]]; discriminate. }
  assert (Li : last_given l O_cert_identity identity) by (exists nil, [(O_cert_issuer, issuer)]; split; [reflexivity|intros s [Q|[]]; discriminate]).
  assert (Lx : last_given l O_cert_issuer issuer) by (exists [(O_cert_identity, identity)], nil; split; [reflexivity|intros s []]).
  destruct M as [e P|d n P S|d P S|l' sched t h out r S M]; try congruence.
  - split; [|auto]. assert (Nr : ~ readable_variables environ).
    { intros Rv. assert (X : exists e, parse_flags (mc_lower mc) environ nil = Raise e) by eauto. apply (C63_bad_value_iff _ U) in X. destruct X as (f & v & E & Y & No). destruct (Rv f v E); contradiction. }
    split; [|tauto]. intros X. exfalso. apply Nr. assert (Pl : parse_line (mc_lower mc) (mc_int mc) environ l = Raise e) by (unfold parse_line; change (ln_flags l) with (@nil flag); rewrite P; reflexivity).
    pose proof (C85_verify_identity _ _ _ t0 h0 nil t0 h0 nil (Raise e) (Main_usage mc environ l t0 h0 e Pl) eq_refl U Cm) as (H & _). apply H. assumption.
  - assert (l' = l) by congruence. subst l'. destruct (C85_verify_identity _ _ _ _ _ _ _ _ _ _ M eq_refl U Cm) as (H & Ht). split; [|assumption]. rewrite H. split.
    + intros (Rv & _ & a & i & x & Sa & Li' & Lx' & V). split; [assumption|]. exists a. split; [assumption|]. split; [apply Sa|]. rewrite (last_given_unique _ _ _ _ Li Li'), (last_given_unique _ _ _ _ Lx Lx'). assumption.
    + intros (Rv & a & Sa & _ & V). split; [assumption|]. split; [assumption|]. exists a, identity, issuer. auto.
Qed.
End Words.

(** the digits, for the examples *)
Definition wx_digit (c : N) : bool := ((48 <=? c) && (c <=? 57))%N.
(** ** What a user may not expect *)

(** An input that is called [-h]: without [--] the exit status is 0 although nothing has been verified. *)
Theorem C115_input_like_help_refuted : forall mc environ d t0 h0, parse_flags (mc_lower mc) environ nil = Ok d ->
  main_words wx_digit mc environ (map s2l ["verify"; "identity"; "--cert-identity"; "a@b.c"; "--cert-oidc-issuer"; "https://issuer.example"; "a.txt"; "-h"]%string) t0 h0 nil t0 h0 nil (Raise (ESystemExit 0)) /\
  exit_status (Raise (ESystemExit 0)) = 0.
Proof. intros mc environ d t0 h0 P. split; [|reflexivity]. eapply Words_refused; [exact P|reflexivity]. Qed.
(** A value that begins with a minus sign is refused unless it follows an equals sign; the inputs must stand together; an abbreviation is
    refused if it could also be one of an option of the main parser. *)
Theorem C115_equivalent_spellings_refuted :
  split_words wx_digit (map s2l ["verify"; "identity"; "--cert-identity"; "-a@b.c"; "--cert-oidc-issuer"; "x"; "a.txt"]%string) = Raise (ESystemExit 2) /\
  (exists l, split_words wx_digit (map s2l ["verify"; "identity"; "--cert-identity=-a@b.c"; "--cert-oidc-issuer"; "x"; "a.txt"]%string) = Ok l) /\
  split_words wx_digit (map s2l ["verify"; "github"; "a.txt"; "--offline"; "b.txt"]%string) = Raise (ESystemExit 2) /\
  (exists l, split_words wx_digit (map s2l ["verify"; "github"; "a.txt"; "b.txt"; "--offline"]%string) = Ok l) /\
  split_words wx_digit (map s2l ["sign"; "--ver"; "a.txt"]%string) = Raise (ESystemExit 2) /\
  (exists l, split_words wx_digit (map s2l ["sign"; "--verb"; "a.txt"]%string) = Ok l).
Proof. repeat split; try reflexivity; eexists; reflexivity. Qed.

(** ** Examples *)
(** abbreviations, values in both forms, repeated switches, inputs after [--] *)
Example ex_words : says wx_digit (map s2l ["-v"; "--inst=https://x.example"; "verify"; "-vv"; "identity"; "--cert-id"; "a@b.c"; "-vvv"; "--cert-o=https://issuer.example"; "--off"; "a.txt"; "-1.5"; "--"; "-h"; "--"]%string)
  (mkLine C_verify_identity [(O_instance, s2l "https://x.example"); (O_cert_identity, s2l "a@b.c"); (O_cert_issuer, s2l "https://issuer.example")] [F_offline] false false 3 3 (map s2l ["a.txt"; "-1.5"; "-h"; "--"]%string)).
Proof. apply C115_accepted_iff. vm_compute. reflexivity. Qed.
(** a run from the words, on what [sign] has written in ex_main_sign_verify *)
Example ex_words_run : exists t h out out1, main mx mx_unset mx_sign csx_tree nil svx_sched t h out (Ok tt) /\
  main_words wx_digit mx mx_unset (map s2l ["verify"; "identity"; "--cert-identity"; "x@y.z"; "a.txt"; "--cert-oidc-issuer=https://issuer.example"; "--cert-identity=a@b.c"]%string)
    t nil nil t nil out1 (Ok tt).
Proof.
  destruct ex_main_sign_verify as (t & h & out & out1 & out2 & r & S & _ & V & _). exists t, h, out, out1. split; [exact S|]. eapply Words_run; [|exact V]. vm_compute. reflexivity.
Qed.
(** the hypotheses of C115_safe_form and C115_verify_identity, with texts that look like options *)
Example ex_safe_form : split_words wx_digit (map spell [(O_instance, s2l "--")] ++ command_words C_verify_identity ++
    map spell [(O_cert_identity, s2l "--help"); (O_cert_issuer, s2l "=x")] ++ map (fun f => s2l (flag_name f)) [F_offline] ++ s2l "--" :: map s2l ["-h"; "--"]%string) =
  Ok (mkLine C_verify_identity [(O_instance, s2l "--"); (O_cert_identity, s2l "--help"); (O_cert_issuer, s2l "=x")] [F_offline] false false 0 0 (map s2l ["-h"; "--"]%string)).
Proof.
  apply (C115_safe_form wx_digit C_verify_identity [(O_instance, s2l "--")] [(O_cert_identity, s2l "--help"); (O_cert_issuer, s2l "=x")] [F_offline]); [cbn; auto| | | |discriminate].
  - intros o v [E|[]]. injection E as <- _. cbn. auto.
  - intros o v [E|[E|[]]]; injection E as <- _; (split; [cbn; auto|cbn; intuition discriminate]).
  - intros f [<-|[]]. split; [cbn; auto|discriminate].
Qed.

Print Assumptions C115_accepted_iff.
Print Assumptions C115_nothing_lost.
Print Assumptions C115_after_dashes.
Print Assumptions C115_safe_form.
Print Assumptions C115_status_zero.
Print Assumptions C115_verify_identity.
Print Assumptions C115_input_like_help_refuted.
Print Assumptions C115_equivalent_spellings_refuted.
