(** Lemmas for property C115: the names of options, what one word is, and what one parser accepts. *)
From Verif Require Import Base Codec Messages Env Keyring Cert Dsse KeyDetails Policy TrustedRoot SigningConfig Hashing Json Http
  Oidc Oauth LogEntry Bundle Verifier RekorClient Clients Tuf PyText CliVerify CliTrust Sign SignSteps Predicate CliSign CliEnv CliMain CliWords Calm Outcomes
  VerifierSpec PropsDsse PropsBundle PropsPolicy PropsTuf PropsCliVerify PropsCliEnv PropsCliTrust SignProofs PropsSign PropsRekorClient PropsCliSign PropsPredicate PropsSignVerify PropsCliMain CliWordsSpec ToyEnv ToyBundles ToySign.

(** ** Names *)

Lemma assoc_listed : forall (ns : list (str * action)) n a, assoc str_eqb n ns = Some a -> In (n, a) ns.
Proof.
  induction ns as [|[m b] l IH]; cbn; intros n a; [discriminate|]. destruct (str_eqb n m) eqn:E; [|auto].
  apply str_eqb_spec in E. subst. intros [= ->]. auto.
Qed.
Ltac in_list := apply assoc_listed; vm_compute; reflexivity.
Lemma full_names : forall p n a, full p n a <-> In (n, a) (names p).
Proof.
  intros p n a. split.
  - intros (m & C & ->). destruct C as [p m I|p m I|m I| |o I|c o I J|c f I J| | |c I| |];
      try (destruct I as [<-|[<-|[]]]; [destruct p as [| | |[]]|destruct p as [| | |[]]]; in_list; fail);
      try (destruct I as [<-|[<-|[]]]; in_list; fail);
      try (in_list; fail).
    + destruct o; cbn in I, J; try tauto; destruct c; repeat (destruct I as [I|I]); try discriminate I; try contradiction; in_list.
    + destruct f; cbn in I; try tauto; destruct c; repeat (destruct I as [I|I]); try discriminate I; try contradiction; in_list.
  - unfold names, full. rewrite in_app_iff. intros [I|I].
    + destruct I as [E|[E|[E|[E|[]]]]]; injection E as <- <-.
      * exists "-h"%string. split; [apply Called_help; cbn; auto|reflexivity].
      * exists "--help"%string. split; [apply Called_help; cbn; auto|reflexivity].
      * exists "-v"%string. split; [apply Called_verbose; cbn; auto|reflexivity].
      * exists "--verbose"%string. split; [apply Called_verbose; cbn; auto|reflexivity].
    + destruct p as [| | |c]; try contradiction.
      * destruct I as [E|[E|[E|[E|[E|[]]]]]]; injection E as <- <-.
        1: exists "-V"%string; split; [apply Called_version; cbn; auto|reflexivity].
        1: exists "--version"%string; split; [apply Called_version; cbn; auto|reflexivity].
        1: exists (flag_name F_staging); split; [constructor|reflexivity].
        1: exists (value_name O_instance); split; [constructor; cbn; tauto|reflexivity].
        1: exists (value_name O_trust_config); split; [constructor; cbn; tauto|reflexivity].
      * destruct c; cbn [app oidc_names verify_names In] in I;
          repeat (destruct I as [E|I]; [injection E as <- <-;
            first [ exists "--output-signature"%string; split; [constructor|reflexivity]
                  | exists "--output-certificate"%string; split; [constructor|reflexivity]
                  | exists "--cert"%string; split; [constructor; cbn; tauto|reflexivity]
                  | exists "--upgrade-version"%string; split; [constructor|reflexivity]
                  | exists "--in-place"%string; split; [constructor|reflexivity]
                  | match goal with |- exists m, called _ (A_value ?o) _ /\ _ => exists (value_name o) | |- exists m, called _ (A_flag ?f) _ /\ _ => exists (flag_name f) end;
                    split; [constructor; first [discriminate | cbn; tauto | cbn; intuition discriminate]|reflexivity] ] |]);
          contradiction.
Qed.
(** what the names look like *)
Definition good_name (x : str * action) : bool :=
  match fst x with
  | a :: b :: r =>
    (a =? 45)%N && negb (existsb (N.eqb 61) (fst x)) &&
    (if (b =? 45)%N then match r with nil => false | _ => true end
     else match r with nil => negb (takes_value (snd x)) && (ends_process (snd x) && ((b =? 104)%N || (b =? 86)%N) || (b =? 118)%N && (if action_eq_dec (snd x) A_verbose then true else false)) | _ => false end)
  | _ => false
  end.
Fixpoint distinct (l : list str) : bool := match l with nil => true | x :: r => negb (existsb (str_eqb x) r) && distinct r end.
Lemma distinct_spec : forall l, distinct l = true -> NoDup l.
Proof.
  induction l as [|x r IH]; cbn; intros H; constructor.
  - apply andb_prop in H. destruct H as [H _]. apply negb_true_iff in H. intros I.
    rewrite <- not_true_iff_false in H. apply H. apply existsb_exists. exists x. split; [assumption|apply str_eqb_refl].
  - apply IH. apply andb_prop in H. tauto.
Qed.
Lemma names_good : forall p, forallb good_name (names p) = true.
Proof. destruct p as [| | |[]]; vm_compute; reflexivity. Qed.
Lemma names_distinct : forall p, NoDup (map fst (names p)).
Proof. intros p. apply distinct_spec. destruct p as [| | |[]]; vm_compute; reflexivity. Qed.
(** at least two options can be meant by two minus signs *)
Lemma two_names : forall p, full p (s2l "--help") A_help /\ full p (s2l "--verbose") A_verbose.
Proof.
  intros p. split; [exists "--help"%string|exists "--verbose"%string]; (split; [|reflexivity]); [apply Called_help|apply Called_verbose]; cbn; auto.
Qed.

Lemma existsb_N : forall c w, existsb (N.eqb c) w = true <-> In c w.
Proof.
  intros c w. rewrite existsb_exists. split.
  - intros (x & I & E). apply N.eqb_eq in E. subst. assumption.
  - intros I. exists c. split; [assumption|apply N.eqb_refl].
Qed.
Lemma good_full : forall p n a, full p n a ->
  ~ In 61%N n /\
  ((exists r, r <> nil /\ n = 45%N :: 45%N :: r) \/
   (exists c, n = [45%N; c] /\ c <> 45%N /\ takes_value a = false /\ ((ends_process a = true /\ (c = 104%N \/ c = 86%N)) \/ (c = 118%N /\ a = A_verbose)))).
Proof.
  intros p n a F. apply full_names in F. pose proof (proj1 (forallb_forall _ _) (names_good p) _ F) as G. unfold good_name in G. cbn [fst snd] in G.
  destruct n as [|x [|y r]]; try discriminate. apply andb_prop in G. destruct G as [G G3]. apply andb_prop in G. destruct G as [G1 G2].
  apply N.eqb_eq in G1. subst x. apply negb_true_iff in G2. split.
  { intros I. apply existsb_N in I. unfold str in *. rewrite I in G2. discriminate. }
  destruct (N.eqb_spec y 45) as [->|Ny].
  - left. exists r. split; [destruct r; discriminate|reflexivity].
  - right. destruct r; [|discriminate]. exists y. split; [reflexivity|]. split; [assumption|].
    apply andb_prop in G3. destruct G3 as [G3 G4]. apply negb_true_iff in G3. split; [assumption|].
    apply orb_prop in G4. destruct G4 as [G4|G4]; apply andb_prop in G4; destruct G4 as [G4 G5].
    + left. split; [assumption|]. apply orb_prop in G5. rewrite !N.eqb_eq in G5. assumption.
    + right. apply N.eqb_eq in G4. split; [assumption|]. destruct (action_eq_dec a A_verbose); [assumption|discriminate].
Qed.
Lemma full_unique : forall p n a b, full p n a -> full p n b -> a = b.
Proof.
  intros p n a b A B. apply full_names in A. apply full_names in B. pose proof (names_distinct p) as D.
  induction (names p) as [|[m c] l IH]; [contradiction|]. cbn in D. inversion D as [|? ? N1 D']; subst.
  destruct A as [A|A], B as [B|B]; try congruence.
  - injection A as <- <-. destruct N1. apply in_map_iff. exists (m, b). auto.
  - injection B as <- <-. destruct N1. apply in_map_iff. exists (m, a). auto.
  - auto.
Qed.
Lemma assoc_full : forall p n, match assoc str_eqb n (names p) with Some a => full p n a | None => forall a, ~ full p n a end.
Proof.
  intros p n. assert (H : match assoc str_eqb n (names p) with Some a => In (n, a) (names p) | None => forall a, ~ In (n, a) (names p) end).
  { induction (names p) as [|[m c] l IH]; cbn; [auto|]. destruct (str_eqb n m) eqn:E.
    - apply str_eqb_spec in E. subst. auto.
    - apply str_eqb_false in E. destruct (assoc str_eqb n l); [auto|]. intros a [I|I]; [congruence|exact (IH a I)]. }
  destruct (assoc str_eqb n (names p)); [apply full_names; assumption|]. intros a F. apply full_names in F. exact (H a F).
Qed.
Lemma full_assoc : forall p n a, full p n a -> assoc str_eqb n (names p) = Some a.
Proof.
  intros p n a F. pose proof (assoc_full p n) as H. destruct (assoc str_eqb n (names p)) as [b|]; [rewrite (full_unique _ _ _ _ F H); reflexivity|].
  destruct (H a F).
Qed.
Lemma not_full_assoc : forall p n, (forall a, ~ full p n a) -> assoc str_eqb n (names p) = None.
Proof. intros p n F. pose proof (assoc_full p n) as H. destruct (assoc str_eqb n (names p)) as [b|]; [destruct (F b H)|reflexivity]. Qed.

(** ** Words *)

Lemma prefixb_begins : forall x w, prefixb x w = true <-> begins x w.
Proof.
  intros x. induction x as [|c x IH]; intros [|d w]; cbn.
  - split; [exists nil|]; reflexivity.
  - split; [exists (d :: w)|]; reflexivity.
  - split; [discriminate|intros (y & E); discriminate].
  - rewrite andb_true_iff, N.eqb_eq, IH. split.
    + intros (-> & y & ->). exists y. reflexivity.
    + intros (y & E). injection E as -> ->. split; [reflexivity|exists y; reflexivity].
Qed.
Lemma split_eq_spec : forall w, match split_eq w with Some (n, e) => w = n ++ 61%N :: e /\ ~ In 61%N n | None => ~ In 61%N w end.
Proof.
  induction w as [|c r IH]; cbn; [tauto|]. destruct (N.eqb_spec c 61) as [->|N1]; [split; [reflexivity|intros []]|].
  destruct (split_eq r) as [[n e]|].
  - destruct IH as (-> & H). split; [reflexivity|]. intros [->|I]; [apply N1; reflexivity|exact (H I)].
  - intros [->|I]; [apply N1; reflexivity|exact (IH I)].
Qed.
Lemma split_eq_app : forall n e, ~ In 61%N n -> split_eq (n ++ 61%N :: e) = Some (n, e).
Proof.
  induction n as [|c r IH]; intros e H; [reflexivity|]. cbn [split_eq app]. destruct (N.eqb_spec c 61) as [->|_]; [destruct H; left; reflexivity|].
  rewrite IH by (intros I; apply H; right; assumption). reflexivity.
Qed.
Lemma split_eq_none : forall w, ~ In 61%N w -> split_eq w = None.
Proof. intros w H. pose proof (split_eq_spec w) as S. destruct (split_eq w) as [[n e]|]; [|reflexivity]. destruct S as (-> & _). destruct H. rewrite in_app_iff. right. left. reflexivity. Qed.
Definition stem_of (w : str) : str := match split_eq w with Some (n, _) => n | None => w end.
Lemma stem_spec : forall w n, stem w n <-> n = stem_of w.
Proof.
  intros w n. unfold stem, stem_of. split.
  - intros (H & [->|(e & ->)]); [rewrite split_eq_none by assumption|rewrite split_eq_app by assumption]; reflexivity.
  - pose proof (split_eq_spec w) as S. destruct (split_eq w) as [[m e]|]; intros ->.
    + destruct S as (-> & S). split; [assumption|]. right. exists e. reflexivity.
    + split; [assumption|]. left. reflexivity.
Qed.
Section Facts.
Variable digit : N -> bool.
Lemma all_digits_spec : forall s, all_digits digit s = true <-> digits digit s.
Proof.
  intros s. unfold digits. destruct s as [|c r]; cbn [all_digits]; [split; [discriminate|intros (H & _); destruct H; reflexivity]|].
  rewrite forallb_forall. split; [intros H; split; [discriminate|exact H]|intros (_ & H); exact H].
Qed.
Lemma point_digits_spec : forall s, point_digits digit s = true <->
  exists a b, s = a ++ 46%N :: b /\ (forall c, In c a -> digit c = true /\ c <> 46%N) /\ digits digit b.
Proof.
  induction s as [|c r IH]; cbn [point_digits].
  - split; [discriminate|intros ([|] & b & E & _); discriminate].
  - destruct (N.eqb_spec c 46) as [->|N1].
    + rewrite all_digits_spec. split.
      * intros H. exists nil, r. split; [reflexivity|]. split; [intros ? []|assumption].
      * intros ([|x a] & b & E & A & B); [injection E as ->; assumption|]. injection E as Ex _. destruct (A x (or_introl eq_refl)) as (_ & F). destruct (F (eq_sym Ex)).
    + rewrite andb_true_iff, IH. split.
      * intros (D & a & b & -> & A & B). exists (c :: a), b. split; [reflexivity|]. split; [intros x [<-|I]; [split; assumption|exact (A x I)]|assumption].
      * intros ([|x a] & b & E & A & B); [injection E as -> _; destruct N1; reflexivity|]. injection E as <- ->. split; [exact (proj1 (A c (or_introl eq_refl)))|].
        exists a, b. split; [reflexivity|]. split; [intros y I; apply A; right; assumption|assumption].
Qed.
Lemma number_spec : forall s, number digit s = true <-> is_number digit s.
Proof. intros s. unfold number, is_number. rewrite orb_true_iff, all_digits_spec, point_digits_spec. reflexivity. Qed.
Lemma negative_spec : forall w, negative_number digit w = true <-> negative digit w.
Proof.
  intros w. unfold negative_number, negative. destruct w as [|c r]; [split; [discriminate|intros (s & _ & [E|E]); discriminate]|].
  rewrite andb_true_iff, N.eqb_eq, orb_true_iff, number_spec. split.
  - intros (-> & [H|H]); [exists r; auto|]. destruct (rev r) as [|d r'] eqn:E; [discriminate|]. apply andb_prop in H. destruct H as [D H].
    apply N.eqb_eq in D. subst d. apply number_spec in H. exists (rev r'). split; [assumption|]. right. f_equal. rewrite <- (rev_involutive r), E. reflexivity.
  - intros (s & S & [E|E]); injection E as -> ->; (split; [reflexivity|]); [left; assumption|]. right. rewrite rev_app_distr. cbn. rewrite rev_involutive. apply number_spec. assumption.
Qed.
End Facts.

(** ** What a word is to a parser *)
Definition matching (p : parser) (n : str) : list (str * action) := filter (fun x => prefixb n (fst x)) (names p).
Lemma matching_in : forall p n m a, In (m, a) (matching p n) <-> full p m a /\ begins n m.
Proof. intros p n m a. unfold matching. rewrite filter_In, full_names. cbn [fst]. rewrite prefixb_begins. reflexivity. Qed.
Lemma filter_distinct : forall (f : str * action -> bool) l, NoDup (map fst l) -> NoDup (map fst (filter f l)).
Proof.
  intros f l. induction l as [|x l IH]; cbn; intros D; [constructor|]. inversion D as [|? ? N1 D']; subst.
  destruct (f x); cbn; [|auto]. constructor; [|auto]. intros I. apply N1. apply in_map_iff in I. destruct I as (y & E & I). apply filter_In in I.
  apply in_map_iff. exists y. tauto.
Qed.
Lemma matching_cases : forall p n,
  match matching p n with
  | nil => forall m a, full p m a -> ~ begins n m
  | [x] => full p (fst x) (snd x) /\ begins n (fst x) /\ forall m' b, full p m' b -> begins n m' -> m' = fst x
  | x :: y :: _ => full p (fst x) (snd x) /\ full p (fst y) (snd y) /\ begins n (fst x) /\ begins n (fst y) /\ fst x <> fst y
  end.
Proof.
  intros p n. pose proof (matching_in p n) as M. pose proof (filter_distinct (fun x => prefixb n (fst x)) _ (names_distinct p)) as D. fold (matching p n) in D.
  destruct (matching p n) as [|[x a] [|[y b] r]].
  - intros m a F B. exact (proj2 (M m a) (conj F B)).
  - cbn [fst snd]. destruct (proj1 (M x a) (or_introl eq_refl)) as (F & B). split; [assumption|]. split; [assumption|].
    intros m' b F' B'. destruct (proj2 (M m' b) (conj F' B')) as [E|[]]. congruence.
  - cbn [fst snd]. destruct (proj1 (M x a) (or_introl eq_refl)) as (F & B). destruct (proj1 (M y b) (or_intror (or_introl eq_refl))) as (F' & B').
    repeat (split; [assumption|]). cbn in D. inversion D as [|? ? N1 _]; subst. intros E. apply N1. left. symmetry. assumption.
Qed.
Lemma matching_one : forall p n m a, full p m a -> begins n m -> (forall m' b, full p m' b -> begins n m' -> m' = m) -> matching p n = [(m, a)].
Proof.
  intros p n m a F B U. pose proof (matching_cases p n) as M. destruct (matching p n) as [|[x c] [|[y b] r]]; cbn [fst snd] in M.
  - destruct (M m a F B).
  - destruct M as (Fx & Bx & _). pose proof (U x c Fx Bx) as E. subst. rewrite (full_unique _ _ _ _ Fx F). reflexivity.
  - destruct M as (Fx & Fy & Bx & By & Ne). destruct Ne. rewrite (U x c Fx Bx), (U y b Fy By). reflexivity.
Qed.
Lemma long_begins : forall w, begins (s2l "--") w <-> exists r, w = 45%N :: 45%N :: r.
Proof. intros w. split; intros (r & ->); exists r; reflexivity. Qed.
Lemma stem_long : forall w, begins (s2l "--") w <-> begins (s2l "--") (stem_of w).
Proof.
  intros w. pose proof (split_eq_spec w) as S. unfold stem_of. destruct (split_eq w) as [[n e]|]; [|tauto]. destruct S as (-> & S). rewrite !long_begins. split.
  - intros (r & E). destruct n as [|a [|b n]]; try discriminate E. injection E as -> -> _. exists n. reflexivity.
  - intros (r & ->). exists (r ++ 61%N :: e). reflexivity.
Qed.
Lemma full_two : forall p n a, full p n a -> exists c r, n = 45%N :: c :: r.
Proof. intros p n a F. destruct (good_full _ _ _ F) as (_ & [(r & _ & ->)|(c & -> & _)]); [exists 45%N, r|exists c, nil]; reflexivity. Qed.
Lemma means_two : forall p n a, means p n a -> exists c r, n = 45%N :: c :: r.
Proof. intros p n a [F|(B & _)]; [eapply full_two; eassumption|]. apply (proj1 (long_begins _)) in B. destruct B as (r & ->). exists 45%N, r. reflexivity. Qed.
Lemma equals_not_full : forall p n e a, ~ full p (n ++ 61%N :: e) a.
Proof. intros p n e a F. apply (proj1 (good_full _ _ _ F)). rewrite in_app_iff. right. left. reflexivity. Qed.

Section Classify.
Variables (digit : N -> bool) (p : parser).
Notation cl w := (classify digit (names p) w).
Lemma candidates_long : forall r, candidates (names p) (45%N :: 45%N :: r) =
  map (fun x => K_option (Some (snd x)) (is_long (fst x)) (match split_eq (45%N :: 45%N :: r) with Some (_, e) => Some (true, e) | None => None end)) (matching p (stem_of (45%N :: 45%N :: r))).
Proof. intros r. unfold candidates, stem_of. cbn [is_long]. destruct (split_eq (45%N :: 45%N :: r)) as [[n e]|]; reflexivity. Qed.
Lemma candidates_short : forall c r, c <> 45%N -> (forall a, ~ full p (45%N :: c :: r) a) ->
  candidates (names p) (45%N :: c :: r) = match assoc str_eqb [45%N; c] (names p) with Some a => [K_option (Some a) false (Some (false, r))] | None => nil end.
Proof.
  intros c r Nc Nf. unfold candidates. cbn [is_long]. destruct (N.eqb_spec c 45) as [E|_]; [destruct (Nc E)|]. cbn [firstn skipn].
  assert (Nf' : forall a, ~ In (45%N :: c :: r, a) (names p)) by (intros a I; apply full_names in I; exact (Nf a I)).
  assert (G : forall x, In x (names p) -> prefixb (45%N :: c :: r) (fst x) = false \/ str_eqb (fst x) [45%N; c] = true).
  { intros [m a] I. cbn [fst]. destruct (prefixb (45%N :: c :: r) m) eqn:E; [|auto]. right. apply prefixb_begins in E. destruct E as (y & ->).
    apply full_names in I. destruct (good_full _ _ _ I) as (_ & [(z & _ & E)|(d & E & _)]); [injection E as E _; destruct (Nc E)|]. injection E as _ E'. apply str_eqb_spec. unfold str in *. cbn [app]. rewrite E'. reflexivity. }
  clear Nf Nf'. pose proof (names_distinct p) as D. induction (names p) as [|[m a] l IH]; [reflexivity|]. cbn [flat_map assoc map fst snd] in *. inversion D as [|? ? N1 D']; subst.
  rewrite IH; [|intros x I; apply G; right; assumption|assumption]. replace (str_eqb [45%N; c] m) with (str_eqb m [45%N; c]) by (destruct (str_eqb m [45%N; c]) eqn:E;
    [apply str_eqb_spec in E; subst; symmetry; apply str_eqb_refl|symmetry; apply str_eqb_false; apply str_eqb_false in E; congruence]).
  destruct (str_eqb m [45%N; c]) eqn:E.
  - apply str_eqb_spec in E. subst m. replace (assoc str_eqb [45%N; c] l) with (@None action).
    + cbn [is_long]. destruct (N.eqb_spec c 45) as [E|_]; [destruct (Nc E)|]. reflexivity.
    + symmetry. destruct (assoc str_eqb [45%N; c] l) as [b|] eqn:A; [|reflexivity]. apply assoc_listed in A. destruct N1. apply in_map_iff. exists ([45%N; c], b). auto.
  - destruct (G (m, a) (or_introl eq_refl)) as [H|H]; cbn [fst] in H; [rewrite H|congruence]. reflexivity.
Qed.

Lemma classify_full : forall w a, full p w a -> cl w = Ok (K_option (Some a) (is_long w) None).
Proof. intros w a F. destruct (full_two _ _ _ F) as (c & r & ->). unfold classify. rewrite (full_assoc _ _ _ F). reflexivity. Qed.
(** the general case *)
Lemma classify_else : forall c r, (forall a, ~ full p (45%N :: c :: r) a) ->
  cl (45%N :: c :: r) =
  match match split_eq (45%N :: c :: r) with Some (n, e) => match assoc str_eqb n (names p) with Some a => Some (K_option (Some a) (is_long n) (Some (true, e))) | None => None end | None => None end with
  | Some k => Ok k
  | None =>
    match candidates (names p) (45%N :: c :: r) with
    | _ :: _ :: _ => Raise (ESystemExit 2)
    | [k] => Ok k
    | nil => if negative_number digit (45%N :: c :: r) || existsb (N.eqb 32) (45%N :: c :: r) then Ok K_word else Ok (K_option None true None)
    end
  end.
Proof. intros c r F. unfold classify. rewrite (not_full_assoc _ _ F). reflexivity. Qed.
Lemma classify_switch : forall w a, means p w a -> ~ In 61%N w -> exists b, cl w = Ok (K_option (Some a) b None).
Proof.
  intros w a [F|(B & F & m & Fm & Bm & U)] E; [exists (is_long w); apply classify_full; assumption|]. exists (is_long m).
  apply (proj1 (long_begins _)) in B. destruct B as (r & ->). rewrite classify_else by assumption. rewrite candidates_long. unfold stem_of. rewrite split_eq_none by assumption.
  rewrite (matching_one _ _ _ _ Fm Bm U). reflexivity.
Qed.
Lemma classify_equals : forall n e a, means p n a -> ~ In 61%N n -> exists b, cl (n ++ 61%N :: e) = Ok (K_option (Some a) b (Some (true, e))).
Proof.
  intros n e a M E. destruct (means_two _ _ _ M) as (c & r & Q). pose proof (equals_not_full p n e) as F. pose proof (split_eq_app n e E) as Sp.
  assert (Q' : n ++ 61%N :: e = 45%N :: c :: r ++ 61%N :: e) by (rewrite Q; reflexivity). rewrite Q' in F, Sp |- *.
  rewrite classify_else by assumption. rewrite Sp. destruct M as [Fn|(B & Fn & m & Fm & Bm & U)].
  - rewrite (full_assoc _ _ _ Fn). exists (is_long n). reflexivity.
  - rewrite (not_full_assoc _ _ Fn). apply (proj1 (long_begins _)) in B. destruct B as (r' & ->). injection Q as <- <-. rewrite candidates_long. unfold stem_of. rewrite Sp.
    rewrite (matching_one _ _ _ _ Fm Bm U). exists (is_long m). reflexivity.
Qed.
Lemma classify_cluster : forall c a r, full p [45%N; c] a -> c <> 45%N -> r <> nil -> ~ In 61%N (c :: r) -> cl (45%N :: c :: r) = Ok (K_option (Some a) false (Some (false, r))).
Proof.
  intros c a r F Nc Nr E. assert (G : forall b, ~ full p (45%N :: c :: r) b).
  { intros b G. destruct (good_full _ _ _ G) as (_ & [(r' & _ & Q)|(c' & Q & _)]); [injection Q as Q _; destruct (Nc Q)|injection Q as _ Q; destruct (Nr Q)]. }
  rewrite classify_else by assumption. rewrite split_eq_none by (intros [Q|I]; [discriminate|exact (E I)]).
  rewrite candidates_short by assumption. rewrite (full_assoc _ _ _ F). reflexivity.
Qed.
Lemma resembles_stem : forall r, (exists m a, full p m a /\ begins (stem_of (45%N :: 45%N :: r)) m) -> resembles_option p (45%N :: 45%N :: r).
Proof.
  intros r (m & a & F & B). exists m, a. split; [assumption|]. right. split; [exists r; reflexivity|]. exists (stem_of (45%N :: 45%N :: r)). split; [apply stem_spec; reflexivity|assumption].
Qed.
Lemma resembles_short : forall c r a, full p [45%N; c] a -> resembles_option p (45%N :: c :: r).
Proof. intros c r a F. exists [45%N; c], a. split; [assumption|]. left. split; [reflexivity|exists r; reflexivity]. Qed.
Lemma full_resembles : forall w a, full p w a -> resembles_option p w.
Proof.
  intros w a F. destruct (good_full _ _ _ F) as (E & [(r & _ & Q)|(c & -> & _)]); [|eapply resembles_short; eassumption]. exists w, a. split; [assumption|]. right.
  split; [exists r; assumption|]. exists w. split; [split; [assumption|left; reflexivity]|exists nil; symmetry; apply app_nil_r].
Qed.
Lemma classify_word : forall w, plain_word digit p w -> cl w = Ok K_word.
Proof.
  intros w P. destruct w as [|c r]; [reflexivity|]. destruct (N.eqb_spec c 45) as [->|Nc]; [|unfold classify; rewrite (proj2 (N.eqb_neq c 45) Nc); reflexivity].
  destruct P as [P|[P|(T & Re)]]; [destruct (P r eq_refl)| |].
  - injection P as ->. unfold classify. rewrite not_full_assoc; [reflexivity|]. intros a F. destruct (full_two _ _ _ F) as (c & r' & Q). discriminate.
  - destruct r as [|d r]; [unfold classify; rewrite not_full_assoc; [reflexivity|]; intros a F; destruct (full_two _ _ _ F) as (c & r' & Q); discriminate|].
    rewrite classify_else by (intros a F; apply Re; eapply full_resembles; eassumption).
    assert (Sp : match split_eq (45%N :: d :: r) with Some (n, e) => match assoc str_eqb n (names p) with Some a => Some (K_option (Some a) (is_long n) (Some (true, e))) | None => None end | None => None end = None).
    { pose proof (split_eq_spec (45%N :: d :: r)) as S. destruct (split_eq (45%N :: d :: r)) as [[n e]|] eqn:Q; [|reflexivity]. rewrite not_full_assoc; [reflexivity|].
      intros a F. apply Re. destruct S as (S & Ne). destruct (good_full _ _ _ F) as (_ & [(x & _ & En)|(x & En & _)]); rewrite En in S.
      - injection S as -> ->. apply resembles_stem. exists n, a. split; [assumption|]. unfold stem_of. rewrite Q. exists nil. symmetry. apply app_nil_r.
      - injection S as -> ->. eapply resembles_short. rewrite <- En. eassumption. }
    rewrite Sp.
    assert (C : candidates (names p) (45%N :: d :: r) = nil).
    { destruct (N.eqb_spec d 45) as [->|Nd].
      - rewrite candidates_long. pose proof (matching_cases p (stem_of (45%N :: 45%N :: r))) as M. destruct (matching p (stem_of (45%N :: 45%N :: r))) as [|[x a] l]; [reflexivity|].
        exfalso. apply Re. apply resembles_stem. exists x, a. destruct l; cbn [fst snd] in M; tauto.
      - rewrite candidates_short; [|assumption|intros a F; apply Re; eapply full_resembles; eassumption].
        pose proof (assoc_full p [45%N; d]) as A. destruct (assoc str_eqb [45%N; d] (names p)) as [a|]; [|reflexivity]. exfalso. apply Re. eapply resembles_short. eassumption. }
    rewrite C. replace (negative_number digit (45%N :: d :: r) || existsb (N.eqb 32) (45%N :: d :: r)) with true; [reflexivity|]. symmetry. apply orb_true_iff.
    destruct T as [T|T]; [left; apply negative_spec; assumption|right; apply existsb_N; assumption].
Qed.

Definition shape (w : str) (k : kind) : Prop :=
  match k with
  | K_word => plain_word digit p w
  | K_dashes => False
  | K_option None _ _ => True
  | K_option (Some a) _ None => means p w a /\ ~ In 61%N w
  | K_option (Some a) _ (Some (true, e)) => exists n, w = n ++ 61%N :: e /\ ~ In 61%N n /\ means p n a
  | K_option (Some a) long (Some (false, e)) => exists c, w = 45%N :: c :: e /\ c <> 45%N /\ full p [45%N; c] a /\ long = false /\ e <> nil
  end.
Lemma classify_shape : forall w, match cl w with Ok k => shape w k /\ ~ ambiguous p w | Raise e => e = ESystemExit 2 /\ ambiguous p w end.
Proof.
  intros w.
  assert (Am : forall w, (exists a, full p w a) \/ (exists n e a, w = n ++ 61%N :: e /\ ~ In 61%N n /\ full p n a) \/ ~ begins (s2l "--") w -> ~ ambiguous p w).
  { intros v H (n & Sn & Bn & Fn & _). apply stem_spec in Sn. subst n. destruct H as [(a & F)|[(n & e & a & -> & E & F)|B]].
    - unfold stem_of in Fn. rewrite split_eq_none in Fn by apply (good_full _ _ _ F). exact (Fn a F).
    - unfold stem_of in Fn. rewrite split_eq_app in Fn by assumption. exact (Fn a F).
    - apply B. apply stem_long. assumption. }
  destruct w as [|c r]; [split; [left; discriminate|apply Am; right; right; intros (x & E); discriminate]|].
  destruct (N.eqb_spec c 45) as [->|Nc].
  2: { unfold classify. rewrite (proj2 (N.eqb_neq c 45) Nc). cbn [negb]. split; [left; intros r' E; injection E as E _; exact (Nc E)|].
       apply Am. right. right. intros (x & E). injection E as E _. exact (Nc E). }
  destruct r as [|d r].
  { unfold classify. rewrite not_full_assoc; [|intros a F; destruct (full_two _ _ _ F) as (c & r' & Q); discriminate]. cbn [negb N.eqb Pos.eqb].
    split; [right; left; reflexivity|]. apply Am. right. right. intros (x & E). discriminate. }
  pose proof (assoc_full p (45%N :: d :: r)) as A. destruct (assoc str_eqb (45%N :: d :: r) (names p)) as [a|] eqn:Ea.
  { rewrite (classify_full _ _ A). split; [split; [left; assumption|apply (good_full _ _ _ A)]|]. apply Am. left. exists a. assumption. }
  rewrite classify_else by assumption.
  pose proof (split_eq_spec (45%N :: d :: r)) as S. destruct (match split_eq (45%N :: d :: r) with Some (n, e) => match assoc str_eqb n (names p) with Some a => Some (K_option (Some a) (is_long n) (Some (true, e))) | None => None end | None => None end) as [k|] eqn:K.
  { destruct (split_eq (45%N :: d :: r)) as [[n e]|]; [|discriminate]. pose proof (assoc_full p n) as B. destruct (assoc str_eqb n (names p)) as [a|]; [|discriminate]. injection K as <-.
    destruct S as (S & E). split; [exists n; split; [assumption|]; split; [assumption|left; assumption]|]. apply Am. right. left. exists n, e, a. auto. }
  destruct (N.eqb_spec d 45) as [->|Nd].
  - rewrite candidates_long. pose proof (matching_cases p (stem_of (45%N :: 45%N :: r))) as M.
    assert (Fn : forall b, ~ full p (stem_of (45%N :: 45%N :: r)) b).
    { unfold stem_of. destruct (split_eq (45%N :: 45%N :: r)) as [[n e]|]; [|assumption]. pose proof (assoc_full p n) as B. destruct (assoc str_eqb n (names p)); [discriminate|assumption]. }
    assert (L : begins (s2l "--") (stem_of (45%N :: 45%N :: r))) by (apply (proj1 (stem_long _)); exists r; reflexivity).
    destruct (matching p (stem_of (45%N :: 45%N :: r))) as [|[m a] [|[m' b] l]]; cbn [map fst snd] in *.
    + assert (Na : ~ ambiguous p (45%N :: 45%N :: r)) by (intros (n & Sn & _ & _ & m & m' & a & b & F & _ & B & _); apply stem_spec in Sn; subst n; exact (M m a F B)).
      destruct (negative_number digit (45%N :: 45%N :: r) || existsb (N.eqb 32) (45%N :: 45%N :: r)) eqn:T; (split; [|assumption]); [|exact I].
      right. right. split; [apply orb_prop in T; destruct T as [T|T]; [left; apply negative_spec; assumption|right; apply existsb_N; assumption]|].
      intros (m & a & F & [(Lm & (y & E))|(_ & n & Sn & B)]); [|apply stem_spec in Sn; subst n; exact (M m a F B)].
      destruct (good_full _ _ _ F) as (_ & [(z & Nz & Em)|(z & Em & Nz & _)]); subst m; [destruct z; [destruct Nz; reflexivity|discriminate Lm]|injection E as E _; exact (Nz (eq_sym E))].
    + destruct M as (F & B & U). split.
      * assert (Mn : means p (stem_of (45%N :: 45%N :: r)) a) by (right; split; [assumption|]; split; [assumption|]; exists m; auto).
        unfold stem_of in Mn. destruct (split_eq (45%N :: 45%N :: r)) as [[n e]|]; cbn [shape]; [exists n; destruct S; auto|auto].
      * intros (n & Sn & _ & _ & m1 & m2 & a1 & a2 & F1 & F2 & B1 & B2 & Ne). apply stem_spec in Sn. subst n. apply Ne. rewrite (U _ _ F1 B1), (U _ _ F2 B2). reflexivity.
    + split; [reflexivity|]. destruct M as (F1 & F2 & B1 & B2 & Ne). exists (stem_of (45%N :: 45%N :: r)). split; [apply stem_spec; reflexivity|]. split; [assumption|]. split; [assumption|].
      exists m, m', a, b. auto.
  - assert (Na : ~ ambiguous p (45%N :: d :: r)) by (apply Am; right; right; intros (x & E); injection E as E _; exact (Nd E)).
    rewrite candidates_short by assumption. pose proof (assoc_full p [45%N; d]) as B. destruct (assoc str_eqb [45%N; d] (names p)) as [a|].
    + split; [|assumption]. exists d. repeat (split; [auto|]). intros ->. exact (A a B).
    + destruct (negative_number digit (45%N :: d :: r) || existsb (N.eqb 32) (45%N :: d :: r)) eqn:T; (split; [|assumption]); [|exact I].
      right. right. split; [apply orb_prop in T; destruct T as [T|T]; [left; apply negative_spec; assumption|right; apply existsb_N; assumption]|].
      intros (m & a & F & [(Lm & (y & E))|((y & E) & _)]); [|injection E as E _; exact (Nd E)].
      destruct (full_two _ _ _ F) as (c & z & ->). destruct z; [|discriminate Lm]. injection E as <- _. exact (B a F).
Qed.
Lemma plain_not_dashes : forall w, plain_word digit p w -> w <> s2l "--".
Proof.
  intros w P ->. apply classify_word in P. pose proof (classify_shape (s2l "--")) as H. rewrite P in H. destruct H as (_ & H). apply H.
  exists (s2l "--"). split; [split; [cbn; intuition discriminate|left; reflexivity]|]. split; [exists nil; reflexivity|]. split.
  - intros b F. destruct (good_full _ _ _ F) as (_ & [(r & Nr & E)|(c & E & Nc & _)]); [injection E as <-; apply Nr; reflexivity|injection E as <-; apply Nc; reflexivity].
  - destruct (two_names p) as (F1 & F2). exists (s2l "--help"), (s2l "--verbose"), A_help, A_verbose. split; [assumption|]. split; [assumption|].
    split; [eexists; reflexivity|]. split; [eexists; reflexivity|discriminate].
Qed.
End Classify.

(** ** One parser *)
Definition prepend (as_ : list (action * str)) (f : Found) : Found := mkFound (as_ ++ fd_actions f) (fd_words f) (fd_extra f) (fd_rest f).
Definition prepend_words (ws : list str) (f : Found) : Found := mkFound (fd_actions f) (ws ++ fd_words f) (fd_extra f) (fd_rest f).
Definition word_kinds (ws : list str) : list (str * kind) := map (fun x => (x, K_word)) ws.
Lemma prepend_app : forall a b f, prepend (a ++ b) f = prepend a (prepend b f).
Proof. intros a b f. unfold prepend. cbn. rewrite app_assoc. reflexivity. Qed.

Section Walk.
Variables (digit : N -> bool) (p : parser).
Notation ks_of ws := (kinds digit (names p) ws).
Notation run w pl ks := (walk (names p) w pl ks).

Lemma kinds_cons : forall w k ws ks, w <> s2l "--" -> classify digit (names p) w = Ok k -> ks_of ws = Ok ks -> ks_of (w :: ws) = Ok ((w, k) :: ks).
Proof. intros w k ws ks N0 C K. cbn [kinds]. replace (str_eqb w DASHES) with false by (symmetry; apply str_eqb_false; assumption). unfold bind. rewrite C, K. reflexivity. Qed.
Lemma kinds_words : forall ws ws' ks, Forall (plain_word digit p) ws -> ks_of ws' = Ok ks -> ks_of (ws ++ ws') = Ok (word_kinds ws ++ ks).
Proof.
  intros ws ws' ks F K. induction F as [|w ws P F IH]; [assumption|]. cbn [app word_kinds map]. apply kinds_cons; [eapply plain_not_dashes; eassumption|apply classify_word; assumption|exact IH].
Qed.
Lemma kinds_dashes : forall ws, ks_of (s2l "--" :: ws) = Ok ((s2l "--", K_dashes) :: word_kinds ws).
Proof. reflexivity. Qed.
Lemma kinds_inv : forall w ws ks, ks_of (w :: ws) = Ok ks ->
  (w = s2l "--" /\ ks = (w, K_dashes) :: word_kinds ws) \/
  (w <> s2l "--" /\ exists k ks', classify digit (names p) w = Ok k /\ ks_of ws = Ok ks' /\ ks = (w, k) :: ks').
Proof.
  intros w ws ks H. cbn [kinds] in H. destruct (str_eqb w DASHES) eqn:E.
  - apply str_eqb_spec in E. left. split; [exact E|]. injection H as <-. reflexivity.
  - apply str_eqb_false in E. right. split; [exact E|]. inv_bind H. inv_bind H. exists a, a0. split; [assumption|]. split; [assumption|congruence].
Qed.
Lemma means_not_dashes : forall n a, means p n a -> n <> s2l "--".
Proof.
  intros n a M ->. destruct M as [F|(_ & _ & m & _ & _ & U)].
  - destruct (good_full _ _ _ F) as (_ & [(r & Nr & E)|(c & E & Nc & _)]); [injection E as <-; apply Nr; reflexivity|injection E as <-; apply Nc; reflexivity].
  - destruct (two_names p) as (F1 & F2). pose proof (U _ _ F1 (ex_intro _ (s2l "help") eq_refl)) as E1. pose proof (U _ _ F2 (ex_intro _ (s2l "verbose") eq_refl)) as E2.
    rewrite <- E2 in E1. discriminate.
Qed.
Lemma verbose_full : full p [45%N; 118%N] A_verbose.
Proof. exists "-v"%string. split; [apply Called_verbose; cbn; auto|reflexivity]. Qed.
Lemma letters_verbose : forall n, letters (names p) (repeat 118%N (S n)) = Ok (repeat A_verbose (S n), false).
Proof.
  assert (St : forall q d r, q = d :: r -> (d =? 61)%N = false -> letters (names p) (118%N :: q) = let* '(l, x) := letters (names p) q in Ok (A_verbose :: l, x)).
  { intros q d r Q D. cbn [letters N.eqb Pos.eqb]. rewrite (full_assoc _ _ _ verbose_full). cbn [takes_value]. destruct q; [discriminate|]. injection Q as -> ->. rewrite D. reflexivity. }
  induction n as [|n IH].
  - cbn [letters repeat N.eqb Pos.eqb]. rewrite (full_assoc _ _ _ verbose_full). reflexivity.
  - change (repeat 118%N (S (S n))) with (118%N :: repeat 118%N (S n)). rewrite (St _ 118%N (repeat 118%N n)) by reflexivity. rewrite IH. reflexivity.
Qed.
Lemma add_verbose : forall n f, fold_right (fun a f => add_action a nil f) f (repeat A_verbose n) = prepend (repeat (A_verbose, nil) n) f.
Proof.
  induction n as [|n IH]; intros f; cbn [repeat fold_right]; [destruct f; reflexivity|]. rewrite IH. reflexivity.
Qed.
Lemma not_ending : existsb ends_process (repeat A_verbose 0) = false /\ forall n, existsb ends_process (repeat A_verbose n) = false.
Proof. split; [reflexivity|]. induction n; [reflexivity|]. exact IHn. Qed.

(** an option and its value *)
Lemma item_walk : forall iw ia ws ks, item digit p iw ia -> ks_of ws = Ok ks ->
  exists ks', ks_of (iw ++ ws) = Ok ks' /\ forall w pl, run w pl ks' = (let* f := run w (leave pl) ks in Ok (prepend ia f)).
Proof.
  intros iw ia ws ks H K. destruct H as [w a M E V H1 H2|n|w v o M E P|n v o M E].
  - destruct (classify_switch digit p w a M E) as (b & C). eexists. split; [apply kinds_cons; [eapply means_not_dashes; eassumption|eassumption|eassumption]|].
    intros wt pl. cbn [walk]. replace (takes_value a) with false by (destruct a; try reflexivity; destruct (V o); reflexivity).
    replace (ends_process a) with false by (destruct a; try reflexivity; congruence). reflexivity.
  - assert (C : classify digit (names p) (45%N :: repeat 118%N (2 + n)) = Ok (K_option (Some A_verbose) false (Some (false, repeat 118%N (S n))))).
    { apply classify_cluster; [exact verbose_full|discriminate|discriminate|]. intros I. change (118%N :: repeat 118%N (S n)) with (repeat 118%N (2 + n)) in I. apply repeat_spec in I. discriminate. }
    eexists. split; [apply kinds_cons; [discriminate|exact C|eassumption]|]. intros wt pl. cbn [walk takes_value]. rewrite letters_verbose.
    change (match repeat 118%N (S n) with nil => true | _ => false end) with false. cbn [orb bind]. replace (existsb ends_process (A_verbose :: repeat A_verbose (S n))) with false by (symmetry; exact (proj2 not_ending (2 + n))).
    cbn [raise_if bind]. destruct (run wt (leave pl) ks); [|reflexivity]. cbn [bind]. f_equal. exact (add_verbose (2 + n) a).
  - destruct (classify_switch digit p w _ M E) as (b & C). eexists. split.
    + cbn [app]. apply kinds_cons; [eapply means_not_dashes; eassumption|eassumption|]. apply kinds_cons; [eapply plain_not_dashes; eassumption|apply classify_word; assumption|eassumption].
    + intros wt pl. reflexivity.
  - destruct (classify_equals digit p n v _ M E) as (b & C). eexists. split.
    + cbn [app]. apply kinds_cons; [|eassumption|eassumption]. intros Q. assert (I : In 61%N (s2l "--")) by (rewrite <- Q; rewrite in_app_iff; right; left; reflexivity).
      cbn in I. intuition discriminate.
    + intros wt pl. reflexivity.
Qed.
Lemma items_walk : forall i a ws ks, items digit p i a -> ks_of ws = Ok ks ->
  exists ks', ks_of (i ++ ws) = Ok ks' /\ forall w pl, pl <> Inside -> run w pl ks' = (let* f := run w pl ks in Ok (prepend a f)).
Proof.
  intros i a ws ks H. revert ws ks. induction H as [|iw ia i a H1 H IH]; intros ws ks K.
  - exists ks. split; [assumption|]. intros w pl _. destruct (run w pl ks) as [[]|]; reflexivity.
  - destruct (IH ws ks K) as (k1 & K1 & R1). destruct (item_walk _ _ _ _ H1 K1) as (k2 & K2 & R2). exists k2. rewrite <- app_assoc. split; [assumption|].
    intros w pl Np. rewrite R2. replace (leave pl) with pl by (destruct pl; [reflexivity|destruct Np; reflexivity|reflexivity]). rewrite R1 by assumption. destruct (run w pl ks); [|reflexivity]. cbn. f_equal. symmetry. apply prepend_app.
Qed.
Lemma items_end : forall i a, items digit p i a -> exists ks, ks_of i = Ok ks /\ forall w pl, pl <> Before \/ w = W_none -> run w pl ks = Ok (mkFound a nil false None).
Proof.
  intros i a H. induction H as [|iw ia i a H1 H IH].
  - exists nil. split; [reflexivity|]. intros w pl [Np| ->]; [destruct w, pl; try reflexivity; congruence|destruct pl; reflexivity].
  - destruct IH as (k1 & K1 & R1). destruct (item_walk _ _ _ _ H1 K1) as (k2 & K2 & R2). exists k2. split; [assumption|].
    intros w pl Np. rewrite R2, R1; [reflexivity|]. destruct Np as [Np|Np]; [left; destruct pl; cbn; congruence|auto].
Qed.
Lemma run_words_inside : forall ws ks, run W_many Inside (word_kinds ws ++ ks) = (let* f := run W_many Inside ks in Ok (prepend_words ws f)).
Proof.
  intros ws ks. induction ws as [|x ws IH]; cbn [word_kinds map app walk]; [destruct (run W_many Inside ks) as [[]|]; reflexivity|].
  change (map (fun x => (x, K_word)) ws) with (word_kinds ws). rewrite IH. destruct (run W_many Inside ks); reflexivity.
Qed.
Lemma run_words : forall ws ks pl, pl <> After -> ws <> nil -> run W_many pl (word_kinds ws ++ ks) = (let* f := run W_many Inside ks in Ok (prepend_words ws f)).
Proof.
  intros ws ks pl Np Nw. rewrite <- run_words_inside. destruct ws as [|x ws]; [congruence|]. cbn [word_kinds map app walk]. destruct pl; [reflexivity|reflexivity|congruence].
Qed.

(** conversely: what an accepted option was *)
Lemma letters_inv : forall e more x, letters (names p) e = Ok (more, x) ->
  (existsb ends_process more = false -> x = false -> e = repeat 118%N (length e) /\ more = repeat A_verbose (length e)) /\
  (existsb ends_process more = true -> exists n c r, e = repeat 118%N n ++ c :: r /\ (c = 104%N \/ c = 86%N)).
Proof.
  induction e as [|c r IH]; cbn [letters]; intros more x H.
  - injection H as <- <-. split; [auto|discriminate].
  - destruct (c =? 45)%N; [discriminate|]. pose proof (assoc_full p [45%N; c]) as F. destruct (assoc str_eqb [45%N; c] (names p)) as [a|].
    + destruct (takes_value a) eqn:Ta; [discriminate|].
      assert (Ha : (ends_process a = true /\ (c = 104%N \/ c = 86%N)) \/ (c = 118%N /\ a = A_verbose)).
      { destruct (good_full _ _ _ F) as (_ & [(z & _ & E)|(d & E & _ & _ & G)]); [injection E as -> E|injection E as ->; exact G].
        exfalso. destruct (good_full _ _ _ F) as (_ & [(z' & Nz & E')|(d & E' & Nd & _)]); injection E' as E'; congruence. }
      assert (G : exists l, more = a :: l /\ letters (names p) r = Ok (l, x)).
      { destruct r as [|d r]; [injection H as <- <-; exists nil; auto|]. destruct (d =? 61)%N; [discriminate|]. inv_bind H. destruct a0 as [l y]. injection H as <- <-. exists l. auto. }
      destruct G as (l & -> & L). destruct (IH _ _ L) as (I1 & I2). split.
      * cbn [existsb]. intros E Ex. apply orb_false_iff in E. destruct E as [E1 E2]. destruct Ha as [(Q & _)|(-> & ->)]; [congruence|].
        destruct (I1 E2 Ex) as (J1 & J2). cbn [length repeat]. split; congruence.
      * cbn [existsb]. destruct Ha as [(_ & Q)|(-> & ->)]; [exists 0, c, r; auto|]. cbn [ends_process orb]. intros E. destruct (I2 E) as (n & c & r' & -> & Q). exists (S n), c, r'. auto.
    + injection H as <- <-. split; discriminate.
Qed.
Lemma letters_raise : forall e x, letters (names p) e = Raise x -> x = ESystemExit 2.
Proof.
  induction e as [|c r IH]; cbn [letters]; intros x H; [discriminate|]. destruct (c =? 45)%N; [congruence|].
  destruct (assoc str_eqb [45%N; c] (names p)) as [a|]; [|discriminate]. destruct (takes_value a); [congruence|]. destruct r as [|d r]; [discriminate|].
  destruct (d =? 61)%N; [congruence|]. destruct (letters (names p) (d :: r)) as [[l y]|y]; [discriminate|]. cbn in H. injection H as <-. apply IH. reflexivity.
Qed.
Lemma short_unique : forall c a, full p [45%N; c] a -> c <> 45%N -> takes_value a = false /\ ((ends_process a = true /\ (c = 104%N \/ c = 86%N)) \/ (c = 118%N /\ a = A_verbose)).
Proof.
  intros c a F Nc. destruct (good_full _ _ _ F) as (_ & [(z & _ & E)|(d & E & _ & T & G)]); [injection E as E _; congruence|]. injection E as ->. auto.
Qed.
Lemma option_inv : forall x o long ex r w pl ws f, x <> s2l "--" -> classify digit (names p) x = Ok (K_option o long ex) -> ks_of ws = Ok r ->
  run w pl ((x, K_option o long ex) :: r) = Ok f -> fd_extra f = false ->
  exists iw ia ws' r' f', x :: ws = iw ++ ws' /\ length ws' <= length ws /\ item digit p iw ia /\ ks_of ws' = Ok r' /\ run w (leave pl) r' = Ok f' /\ f = prepend ia f'.
Proof.
  intros x o long ex r w pl ws f Nd C K R X. pose proof (classify_shape digit p x) as Sh. rewrite C in Sh. destruct Sh as [Sh _]. cbn [walk] in R.
  destruct o as [a|]; [|exfalso; inv_bind R; injection R as <-; discriminate X].
  destruct ex as [[eq e]|].
  - destruct (takes_value a) eqn:Ta.
    + inv_bind R. injection R as <-. destruct eq.
      * destruct Sh as (n & -> & E & M). destruct a as [o| | | | | |]; try discriminate. exists [n ++ 61%N :: e], [(A_value o, e)], ws, r, a0. repeat (split; [first [reflexivity|assumption|lia]|]).
        split; [constructor; assumption|]. auto.
      * exfalso. destruct Sh as (c & _ & Nc & F & _). destruct (short_unique _ _ F Nc). congruence.
    + destruct (long || eq || match e with nil => true | _ => false end) eqn:G; [discriminate|]. apply orb_false_iff in G. destruct G as [G _]. apply orb_false_iff in G. destruct G as [-> ->].
      destruct Sh as (c & -> & Nc & F & _ & Ne). inv_bind R. destruct a0 as [more u]. destruct (existsb ends_process (a :: more)) eqn:Ep; [discriminate|]. cbn [raise_if bind] in R.
      inv_bind R. injection R as <-. cbn [existsb] in Ep. apply orb_false_iff in Ep. destruct Ep as [E1 E2].
      assert (Hu : u = false). { destruct u; [|reflexivity]. exfalso. clear - X. cbn [fold_right] in X. cbn in X. induction more as [|y m IHm]; [discriminate X|exact (IHm X)]. } subst u.
      destruct (proj1 (letters_inv _ _ _ Ha) E2 eq_refl) as (He & Hm). destruct (short_unique _ _ F Nc) as (_ & [(Q & _)|(-> & ->)]); [congruence|].
      destruct e as [|y e]; [congruence|]. cbn [length] in He, Hm.
      exists [45%N :: 118%N :: y :: e], (repeat (A_verbose, nil) (2 + length e)), ws, r, a0. split; [reflexivity|]. split; [lia|]. split.
      { unfold str in *. rewrite He. exact (Item_repeated digit p (length e)). }
      split; [assumption|]. split; [assumption|]. rewrite Hm. exact (add_verbose (2 + length e) a0).
  - destruct Sh as (M & E). destruct (takes_value a) eqn:Ta.
    + destruct r as [|[v [| |]] r']; try discriminate. inv_bind R. injection R as <-. destruct a as [o| | | | | |]; try discriminate. destruct ws as [|v' ws]; [discriminate|].
      destruct (kinds_inv _ _ _ K) as [(-> & Q)|(Nv & k & ks' & Ck & Kk & Q)]; [discriminate|]. injection Q as -> <- ->.
      pose proof (classify_shape digit p v') as Sv. rewrite Ck in Sv.
      exists [x; v'], [(A_value o, v')], ws, ks', a0. split; [reflexivity|]. split; [cbn; lia|]. split; [constructor; try assumption; apply Sv|]. auto.
    + destruct (ends_process a) eqn:Ep; [discriminate|]. inv_bind R. injection R as <-. exists [x], [(a, nil)], ws, r, a0. split; [reflexivity|]. split; [lia|]. split.
      { constructor; try assumption; intros; destruct a; discriminate. }
      auto.
Qed.
End Walk.

(** ** The arguments of a command *)
Section Levels.
Variable digit : N -> bool.
Section One.
Variable p : parser.
Notation ks_of ws := (kinds digit (names p) ws).
Notation run w pl ks := (walk (names p) w pl ks).

Lemma items_app : forall i a j b, items digit p i a -> items digit p j b -> items digit p (i ++ j) (a ++ b).
Proof. intros i a j b H J. induction H as [|iw ia i a H1 H IH]; [assumption|]. rewrite <- !app_assoc. constructor; assumption. Qed.
Lemma extra_false : forall (m : res Found) f, (let* g := m in Ok (extra g)) = Ok f -> fd_extra f = false -> False.
Proof. intros m f H X. inv_bind H. injection H as <-. discriminate. Qed.
Lemma after_inv : forall n ws ks w pl f, length ws <= n -> ks_of ws = Ok ks -> run w pl ks = Ok f -> fd_extra f = false -> pl = After \/ w = W_none ->
  items digit p ws (fd_actions f) /\ fd_words f = nil /\ fd_rest f = None.
Proof.
  induction n as [|n IH]; intros [|x ws] ks w pl f L K R X C; cbn [length] in L; try lia.
  - injection K as <-. assert (E : f = mkFound nil nil false None) by (destruct C as [-> | ->]; [destruct w|destruct pl]; cbn [walk] in R; congruence). subst f. repeat split. constructor.
  - injection K as <-. assert (E : f = mkFound nil nil false None) by (destruct C as [-> | ->]; [destruct w|destruct pl]; cbn [walk] in R; congruence). subst f. repeat split. constructor.
  - destruct (kinds_inv _ _ _ _ _ K) as [(-> & ->)|(Nx & k & r & Ck & Kr & ->)].
    { exfalso. cbn [walk] in R. destruct C as [-> | ->]; [destruct w|destruct pl]; eapply extra_false; eassumption. }
    destruct k as [| |o long ex].
    + exfalso. cbn [walk] in R. destruct C as [-> | ->]; [destruct w|destruct pl]; eapply extra_false; eassumption.
    + pose proof (classify_shape digit p x) as Sh. rewrite Ck in Sh. destruct Sh as [[] _].
    + destruct (option_inv digit p _ _ _ _ _ _ _ _ _ Nx Ck Kr R X) as (iw & ia & ws' & r' & f' & E & L' & It & K' & R' & ->).
      destruct (IH ws' r' w (leave pl) f') as (I1 & I2 & I3); [lia|assumption|assumption|exact X|destruct C as [-> |C]; auto|].
      rewrite E. split; [constructor; assumption|]. auto.
Qed.
Lemma inputs_cons : forall x b d ps, plain_word digit p x -> inputs digit p b d ps -> inputs digit p (x :: b) d (x :: ps).
Proof.
  intros x b d ps P H. destruct H as [ws F|ws more F].
  - apply Inputs_plain. constructor; assumption.
  - rewrite !app_comm_cons. apply Inputs_dashes. constructor; assumption.
Qed.
Lemma run_after_dashes : forall ws, run W_many Inside (word_kinds ws) = Ok (mkFound nil ws false None).
Proof. intros ws. rewrite <- (app_nil_r (word_kinds ws)). rewrite run_words_inside. cbn [walk bind]. unfold prepend_words. cbn. rewrite app_nil_r. reflexivity. Qed.
Definition block_found (ws : list str) (f : Found) : Prop :=
  exists block d i2, ws = block ++ i2 /\ inputs digit p block d (fd_words f) /\ items digit p i2 (fd_actions f) /\ (d = true -> i2 = nil) /\ fd_rest f = None.
Lemma inside_inv : forall ws ks f, ks_of ws = Ok ks -> run W_many Inside ks = Ok f -> fd_extra f = false -> block_found ws f.
Proof.
  induction ws as [|x ws IH]; intros ks f K R X.
  - injection K as <-. cbn [walk] in R. injection R as <-. exists nil, false, nil. split; [reflexivity|]. split; [apply Inputs_plain; constructor|]. split; [constructor|]. auto.
  - pose proof K as K0. destruct (kinds_inv _ _ _ _ _ K) as [(-> & ->)|(Nx & k & r & Ck & Kr & ->)].
    { cbn [walk] in R. rewrite run_after_dashes in R. injection R as <-. exists (s2l "--" :: ws), true, nil. rewrite app_nil_r. split; [reflexivity|].
      split; [exact (Inputs_dashes digit p nil ws (Forall_nil _))|]. split; [constructor|]. auto. }
    pose proof (classify_shape digit p x) as Sh. rewrite Ck in Sh. destruct k as [| |o long ex].
    + cbn [walk] in R. inv_bind R. injection R as <-. destruct (IH _ _ Kr Ha X) as (b & d & i2 & E & Ib & It & D & Rr). exists (x :: b), d, i2. split; [cbn; congruence|].
      split; [apply inputs_cons; [apply Sh|assumption]|exact (conj It (conj D Rr))].
    + destruct Sh as [[] _].
    + destruct (option_inv digit p _ _ _ _ _ _ _ _ _ Nx Ck Kr R X) as (iw & ia & ws' & r' & f' & E & L' & It & K' & R' & ->). cbn [leave] in R'.
      destruct (after_inv (length ws') ws' r' W_many After f') as (I1 & I2 & I3); [lia|assumption|assumption|exact X|auto|].
      exists nil, false, (x :: ws). split; [reflexivity|]. unfold prepend. cbn [fd_words fd_actions fd_rest]. rewrite I2. split; [apply Inputs_plain; constructor|].
      split; [rewrite E; constructor; assumption|]. split; [discriminate|exact I3].
Qed.
Definition args_found (ws : list str) (f : Found) : Prop :=
  exists i1 a1 block d i2 a2, ws = i1 ++ block ++ i2 /\ items digit p i1 a1 /\ inputs digit p block d (fd_words f) /\ items digit p i2 a2 /\
    fd_actions f = a1 ++ a2 /\ (d = true -> i2 = nil) /\ fd_rest f = None.
Lemma args_item : forall iw ia ws f, item digit p iw ia -> args_found ws f -> args_found (iw ++ ws) (prepend ia f).
Proof.
  intros iw ia ws f It (i1 & a1 & b & d & i2 & a2 & -> & I1 & Ib & I2 & A & D & R). exists (iw ++ i1), (ia ++ a1), b, d, i2, a2. rewrite !app_assoc. split; [reflexivity|].
  split; [constructor; assumption|]. repeat (split; [assumption|]). split; [cbn; rewrite A, app_assoc; reflexivity|]. auto.
Qed.
Lemma args_block : forall ws f, block_found ws f -> args_found ws f.
Proof. intros ws f (b & d & i2 & -> & Ib & It & D & R). exists nil, nil, b, d, i2, (fd_actions f). split; [reflexivity|]. split; [constructor|]. auto 6. Qed.
Lemma before_inv : forall n ws ks f, length ws <= n -> ks_of ws = Ok ks -> run W_many Before ks = Ok f -> fd_extra f = false -> args_found ws f /\ fd_words f <> nil.
Proof.
  induction n as [|n IH]; intros [|x ws] ks f L K R X; cbn [length] in L; try lia; try (injection K as <-; discriminate R).
  destruct (kinds_inv _ _ _ _ _ K) as [(-> & ->)|(Nx & k & r & Ck & Kr & ->)].
  { cbn [walk] in R. destruct ws as [|y ws]; [discriminate R|]. cbn [word_kinds map walk] in R. change (map (fun x => (x, K_word)) ws) with (word_kinds ws) in R. rewrite run_after_dashes in R. injection R as <-.
    split; [|discriminate]. exists nil, nil, (s2l "--" :: y :: ws), true, nil, nil. rewrite app_nil_r. split; [reflexivity|]. split; [constructor|].
    split; [exact (Inputs_dashes digit p nil (y :: ws) (Forall_nil _))|]. split; [constructor|]. auto. }
  pose proof (classify_shape digit p x) as Sh. rewrite Ck in Sh. destruct k as [| |o long ex].
  - cbn [walk] in R. inv_bind R. injection R as <-. split; [|discriminate]. apply args_block. destruct (inside_inv _ _ _ Kr Ha X) as (b & d & i2 & -> & Ib & It & D & Rr).
    exists (x :: b), d, i2. split; [reflexivity|]. split; [apply inputs_cons; [apply Sh|assumption]|exact (conj It (conj D Rr))].
  - destruct Sh as [[] _].
  - destruct (option_inv digit p _ _ _ _ _ _ _ _ _ Nx Ck Kr R X) as (iw & ia & ws' & r' & f' & E & L' & It & K' & R' & ->). cbn [leave] in R'.
    destruct (IH ws' r' f') as (I1 & I2); [lia|assumption|assumption|exact X|]. rewrite E. split; [apply args_item; assumption|exact I2].
Qed.
Lemma words_extra : forall ws w f, ws <> nil -> run w After (word_kinds ws) = Ok f -> fd_extra f = true.
Proof.
  intros [|x ws] w f N0 R; [congruence|]. cbn [word_kinds map walk] in R. destruct w; inv_bind R; injection R as <-; reflexivity.
Qed.
Lemma one_extra : forall ws f, ws <> nil -> run W_one Inside (word_kinds ws) = Ok f -> fd_extra f = true.
Proof. intros [|x ws] f N0 R; [congruence|]. cbn [word_kinds map walk] in R. inv_bind R. injection R as <-. reflexivity. Qed.
Lemma one_inside : forall ws ks f, ks_of ws = Ok ks -> run W_one Inside ks = Ok f -> fd_extra f = false ->
  fd_words f = nil /\ fd_rest f = None /\ (items digit p ws (fd_actions f) \/ ws = [s2l "--"] /\ fd_actions f = nil).
Proof.
  intros [|x ws] ks f K R X; [injection K as <-; cbn [walk] in R; injection R as <-; repeat split; left; constructor|].
  destruct (kinds_inv _ _ _ _ _ K) as [(-> & ->)|(Nx & k & r & Ck & Kr & ->)].
  { cbn [walk] in R. destruct ws as [|y ws]; [cbn [word_kinds map walk] in R; injection R as <-; repeat split; auto|]. exfalso. pose proof (words_extra (y :: ws) _ _ ltac:(discriminate) R). congruence. }
  pose proof (classify_shape digit p x) as Sh. rewrite Ck in Sh. destruct k as [| |o long ex].
  - exfalso. cbn [walk] in R. eapply extra_false; eassumption.
  - destruct Sh as [[] _].
  - destruct (option_inv digit p _ _ _ _ _ _ _ _ _ Nx Ck Kr R X) as (iw & ia & ws' & r' & f' & E & L' & It & K' & R' & ->). cbn [leave] in R'.
    destruct (after_inv (length ws') ws' r' W_one After f') as (I1 & I2 & I3); [lia|assumption|assumption|exact X|auto|].
    split; [exact I2|]. split; [exact I3|]. left. rewrite E. constructor; assumption.
Qed.
Lemma one_inv : forall n ws ks f, length ws <= n -> ks_of ws = Ok ks -> run W_one Before ks = Ok f -> fd_extra f = false -> args_found ws f /\ exists x, fd_words f = [x].
Proof.
  induction n as [|n IH]; intros [|x ws] ks f L K R X; cbn [length] in L; try lia; try (injection K as <-; discriminate R).
  destruct (kinds_inv _ _ _ _ _ K) as [(-> & ->)|(Nx & k & r & Ck & Kr & ->)].
  { cbn [walk] in R. destruct ws as [|y ws]; [discriminate R|]. cbn [word_kinds map walk] in R. change (map (fun x => (x, K_word)) ws) with (word_kinds ws) in R. inv_bind R. injection R as <-.
    destruct ws as [|z ws]; [|exfalso; pose proof (one_extra (z :: ws) _ ltac:(discriminate) Ha) as Q; unfold add_word in X; cbn [fd_extra] in X; congruence].
    cbn [word_kinds map walk] in Ha. injection Ha as <-.
    split; [|exists y; reflexivity]. exists nil, nil, [s2l "--"; y], true, nil, nil. split; [reflexivity|]. split; [constructor|].
    split; [exact (Inputs_dashes digit p nil [y] (Forall_nil _))|]. split; [constructor|]. auto. }
  pose proof (classify_shape digit p x) as Sh. rewrite Ck in Sh. destruct k as [| |o long ex].
  - cbn [walk] in R. inv_bind R. injection R as <-. destruct (one_inside _ _ _ Kr Ha X) as (W0 & Rr & It). unfold add_word in *. cbn [fd_words fd_actions fd_rest] in *. rewrite W0. split; [|exists x; reflexivity].
    destruct Sh as [Sh _]. change (plain_word digit p x) in Sh. apply args_block. destruct It as [It|(-> & A)].
    + exists [x], false, ws. split; [reflexivity|]. cbn [fd_words fd_actions fd_rest]. split; [exact (Inputs_plain digit p [x] (Forall_cons _ Sh (Forall_nil _)))|]. split; [assumption|]. split; [discriminate|assumption].
    + exists [x; s2l "--"], true, nil. split; [reflexivity|]. cbn [fd_words fd_actions fd_rest]. split; [exact (Inputs_dashes digit p [x] nil (Forall_cons _ Sh (Forall_nil _)))|]. rewrite A. split; [constructor|]. auto.
  - destruct Sh as [[] _].
  - destruct (option_inv digit p _ _ _ _ _ _ _ _ _ Nx Ck Kr R X) as (iw & ia & ws' & r' & f' & E & L' & It & K' & R' & ->). cbn [leave] in R'.
    destruct (IH ws' r' f') as (I1 & I2); [lia|assumption|assumption|exact X|]. rewrite E. split; [apply args_item; assumption|exact I2].
Qed.
Lemma kinds_fst : forall ws ks, ks_of ws = Ok ks -> map fst ks = ws.
Proof.
  induction ws as [|x ws IH]; intros ks K; [injection K as <-; reflexivity|]. destruct (kinds_inv _ _ _ _ _ K) as [(_ & ->)|(_ & k & r & _ & Kr & ->)]; cbn; [|rewrite (IH _ Kr); reflexivity].
  unfold word_kinds. rewrite map_map, map_id. reflexivity.
Qed.
Lemma command_inv : forall n ws ks f, length ws <= n -> ks_of ws = Ok ks -> run W_command Before ks = Ok f -> fd_extra f = false ->
  exists i x rest, ws = i ++ x :: rest /\ items digit p i (fd_actions f) /\ plain_word digit p x /\ fd_words f = nil /\ fd_rest f = Some (x :: rest).
Proof.
  induction n as [|n IH]; intros [|x ws] ks f L K R X; cbn [length] in L; try lia; try (injection K as <-; discriminate R).
  destruct (kinds_inv _ _ _ _ _ K) as [(-> & ->)|(Nx & k & r & Ck & Kr & ->)]; [discriminate R|].
  pose proof (classify_shape digit p x) as Sh. rewrite Ck in Sh. destruct k as [| |o long ex].
  - cbn [walk] in R. injection R as <-. exists nil, x, ws. split; [reflexivity|]. split; [constructor|]. split; [apply Sh|]. cbn. rewrite (kinds_fst _ _ Kr). auto.
  - destruct Sh as [[] _].
  - destruct (option_inv digit p _ _ _ _ _ _ _ _ _ Nx Ck Kr R X) as (iw & ia & ws' & r' & f' & E & L' & It & K' & R' & ->). cbn [leave] in R'.
    destruct (IH ws' r' f') as (i & y & rest & -> & I1 & P & I2 & I3); [lia|assumption|assumption|exact X|]. exists (iw ++ i), y, rest. rewrite E, app_assoc. split; [reflexivity|].
    split; [constructor; assumption|]. auto.
Qed.
Lemma kinds_ok : forall ws, (exists ks, ks_of ws = Ok ks) <-> forall w, before_dashes ws w -> ~ ambiguous p w.
Proof.
  induction ws as [|x ws IH].
  - split; [intros _ w ([|a b] & c & E & _); discriminate|exists nil; reflexivity].
  - split.
    + intros (ks & K) w (a & b & E & Nd). destruct (kinds_inv _ _ _ _ _ K) as [(-> & _)|(Nx & k & r & Ck & Kr & _)].
      * exfalso. apply Nd. destruct a; injection E as <- E; [left; reflexivity|left; reflexivity].
      * destruct a as [|y a]; injection E as <- ->.
        -- pose proof (classify_shape digit p x) as Sh. rewrite Ck in Sh. apply Sh.
        -- apply (proj1 IH (ex_intro _ _ Kr)). exists a, b. split; [reflexivity|]. intros I. apply Nd. right. assumption.
    + intros H. cbn [kinds]. destruct (str_eqb x DASHES) eqn:E; [eexists; reflexivity|]. apply str_eqb_false in E.
      pose proof (classify_shape digit p x) as Sh. destruct (classify digit (names p) x) as [k|e].
      * destruct (proj2 IH) as (ks & K); [|cbn [bind]; rewrite K; eexists; reflexivity]. intros w (a & b & -> & Nd). apply H. exists (x :: a), b. split; [reflexivity|]. intros [Q|I]; [exact (E Q)|exact (Nd I)].
      * exfalso. destruct Sh as (_ & Sh). apply (H x); [|assumption]. exists nil, ws. split; [reflexivity|]. intros [Q|[]]. exact (E Q).
Qed.

(** ** Conversely *)
Lemma run_inputs : forall block d ps i2 a2 w, inputs digit p block d ps -> items digit p i2 a2 -> (d = true -> i2 = nil) ->
  (w = W_many /\ ps <> nil) \/ (w = W_one /\ exists x, ps = [x]) ->
  exists ks, ks_of (block ++ i2) = Ok ks /\ run w Before ks = Ok (mkFound a2 ps false None).
Proof.
  intros block d ps i2 a2 w Ib It D C. destruct (items_end digit p _ _ It) as (k2 & K2 & R2). destruct Ib as [ws F|ws more F].
  - exists (word_kinds ws ++ k2). split; [apply kinds_words; assumption|]. destruct C as [(-> & N0)|(-> & x & ->)].
    + rewrite run_words by (try assumption; discriminate). rewrite R2 by (left; discriminate). cbn [bind]. unfold prepend_words. cbn. rewrite app_nil_r. reflexivity.
    + cbn [word_kinds map app walk]. rewrite R2 by (left; discriminate). reflexivity.
  - specialize (D eq_refl). subst i2. rewrite app_nil_r. assert (E : a2 = nil).
    { injection K2 as <-. specialize (R2 W_none Before (or_intror eq_refl)). cbn [walk] in R2. injection R2 as <-. reflexivity. } subst a2.
    exists (word_kinds ws ++ (s2l "--", K_dashes) :: word_kinds more). split; [apply kinds_words; [assumption|reflexivity]|]. destruct C as [(-> & N0)|(-> & x & E)].
    + destruct ws as [|y ws].
      * cbn [app word_kinds map walk]. change (map (fun x => (x, K_word)) more) with (word_kinds more). rewrite <- (app_nil_r (word_kinds more)). rewrite run_words by (try assumption; discriminate).
        cbn [walk bind]. unfold prepend_words. cbn. rewrite app_nil_r. reflexivity.
      * rewrite run_words by discriminate. cbn [walk]. rewrite run_after_dashes. reflexivity.
    + destruct ws as [|y [|z ws]]; [|injection E as -> ->|discriminate].
      * cbn in E. subst more. cbn [app word_kinds map walk bind]. reflexivity.
      * cbn [app word_kinds map walk bind]. reflexivity.
Qed.
End One.

Lemma leaf_iff : forall c ws f, level digit (P_command c) ws = Ok f /\ fd_extra f = false <-> exists as_ ps, f = mkFound as_ ps false None /\ arguments digit c ws as_ ps.
Proof.
  intros c ws f. unfold level. split.
  - intros (L & X). inv_bind L.
    assert (G : forall as_ ps, fd_actions f = as_ -> fd_words f = ps -> fd_rest f = None -> f = mkFound as_ ps false None) by (intros as_ ps <- <- Rr; destruct f; cbn in *; congruence).
    assert (Many : expects (P_command c) = W_many -> exists as_ ps, f = mkFound as_ ps false None /\ arguments digit c ws as_ ps).
    { intros Q. rewrite Q in L. destruct (before_inv (P_command c) (length ws) ws a f) as ((i1 & a1 & b & d & i2 & a2 & -> & I1 & Ib & I2 & A & D & Rr) & Nw); [lia|assumption|assumption|assumption|].
      exists (a1 ++ a2), (fd_words f). split; [apply G; auto|]. econstructor; try eassumption. destruct c; try discriminate Q; exact Nw. }
    assert (None_ : expects (P_command c) = W_none -> (forall ps b, takes_inputs c ps b = (b = nil)) -> exists as_ ps, f = mkFound as_ ps false None /\ arguments digit c ws as_ ps).
    { intros Q Tk. rewrite Q in L. destruct (after_inv (P_command c) (length ws) ws a W_none Before f) as (I1 & I2 & I3); [lia|assumption|assumption|assumption|auto|].
      exists (fd_actions f), nil. split; [apply G; auto|]. pose proof (Arguments digit c ws (fd_actions f) nil false nil nil nil I1 (Inputs_plain _ _ _ (Forall_nil _)) (Items_nil _ _)) as H.
      rewrite !app_nil_r in H. apply H; [discriminate|]. rewrite Tk. reflexivity. }
    destruct c; try (apply Many; reflexivity); try (apply None_; [reflexivity|intros; reflexivity]).
    cbn [expects] in L. destruct (one_inv (P_command C_trust_instance) (length ws) ws a f) as ((i1 & a1 & b & d & i2 & a2 & -> & I1 & Ib & I2 & A & D & Rr) & Nw); [lia|assumption|assumption|assumption|].
    exists (a1 ++ a2), (fd_words f). split; [apply G; auto|]. econstructor; try eassumption.
  - intros (as_ & ps & -> & Ar). split; [|reflexivity]. destruct Ar as [i1 a1 b d ps i2 a2 I1 Ib I2 D Tk].
    assert (Y : (exists w, expects (P_command c) = w /\ ((w = W_many /\ ps <> nil) \/ (w = W_one /\ exists x, ps = [x]))) \/ (expects (P_command c) = W_none /\ b = nil)).
    { destruct c; cbn [takes_inputs] in Tk; [left; exists W_many|left; exists W_many|left; exists W_many|left; exists W_many|right|left; exists W_one|right|right]; auto. }
    destruct Y as [(w & Ew & Y)|(Ew & ->)]; rewrite Ew.
    + destruct (run_inputs _ _ _ _ _ _ _ Ib I2 D Y) as (k & K & R). destruct (items_walk _ _ _ _ _ _ I1 K) as (k1 & K1 & R1). rewrite K1. cbn [bind]. rewrite R1 by discriminate. rewrite R. reflexivity.
    + inversion Ib as [ws F|ws more F E]; subst; [|destruct ws; discriminate]. cbn [app]. destruct (items_end _ _ _ _ (items_app _ _ _ _ _ I1 I2)) as (k & K & R). rewrite K. cbn [bind]. apply R. auto.
Qed.
Lemma node_iff : forall p ws f, (forall c, p <> P_command c) ->
  (level digit p ws = Ok f /\ fd_extra f = false <->
   exists i a x rest, f = mkFound a nil false (Some (x :: rest)) /\ ws = i ++ x :: rest /\ items digit p i a /\ plain_word digit p x /\ forall w, before_dashes rest w -> ~ ambiguous p w).
Proof.
  intros p ws f Np. unfold level. replace (expects p) with W_command by (destruct p; try reflexivity; destruct (Np c); reflexivity). split.
  - intros (L & X). inv_bind L. destruct (command_inv p (length ws) ws a f) as (i & x & rest & -> & It & P & W0 & Rr); [lia|assumption|assumption|assumption|].
    exists i, (fd_actions f), x, rest. split; [destruct f; cbn in *; congruence|]. split; [reflexivity|]. split; [assumption|]. split; [assumption|].
    intros w (u & v & -> & Nd). apply (proj1 (kinds_ok p _) (ex_intro _ _ Ha)). exists (i ++ x :: u), v. split; [rewrite <- app_assoc; reflexivity|].
    rewrite <- app_assoc. intros I. apply in_app_iff in I. destruct I as [I|[I|I]]; [| |exact (Nd I)].
    + clear - It I. induction It as [|iw ia i a H1 H IH]; [contradiction|]. apply in_app_iff in I. destruct I as [I|I]; [|auto].
      destruct H1 as [w a1 M E _ _ _|n|w v o M E P|n v o M E].
      * destruct I as [Q|[]]. exact (means_not_dashes _ _ _ M Q).
      * destruct I as [Q|[]]. discriminate.
      * destruct I as [Q|[Q|[]]]; [exact (means_not_dashes _ _ _ M Q)|exact (plain_not_dashes _ _ _ P Q)].
      * destruct I as [Q|[]]. assert (I61 : In 61%N (s2l "--")) by (rewrite <- Q; rewrite in_app_iff; right; left; reflexivity). cbn in I61. intuition discriminate.
    + eapply plain_not_dashes; [eassumption|assumption].
  - intros (i & a & x & rest & -> & -> & It & P & A). split; [|reflexivity]. destruct (proj2 (kinds_ok p rest) A) as (k & K).
    assert (K' : kinds digit (names p) (x :: rest) = Ok ((x, K_word) :: k)) by (apply kinds_cons; [eapply plain_not_dashes; eassumption|apply classify_word; assumption|assumption]).
    destruct (items_walk _ _ _ _ _ _ It K') as (k1 & K1 & R1). rewrite K1. cbn [bind]. rewrite R1 by discriminate. cbn [walk bind]. unfold prepend. cbn. rewrite (kinds_fst _ _ _ K), app_nil_r. reflexivity.
Qed.
Lemma leads_iff : forall p x q, assoc str_eqb x (subcommands p) = Some q <-> exists n, x = s2l n /\ leads p n q.
Proof.
  intros p x q. split.
  - assert (I : forall (l : list (str * parser)), assoc str_eqb x l = Some q -> In (x, q) l).
    { induction l as [|[m b] l IH]; cbn; [discriminate|]. destruct (str_eqb x m) eqn:E; [|auto]. apply str_eqb_spec in E. subst. intros [= ->]. auto. }
    intros A. apply I in A. destruct p as [| | |c]; cbn [subcommands In] in A; repeat (destruct A as [A|A]; [injection A as <- <-|]); try contradiction;
      [exists "attest"%string|exists "sign"%string|exists "verify"%string|exists "get-identity-token"%string|exists "trust-instance"%string|exists "plumbing"%string
      |exists "identity"%string|exists "github"%string|exists "fix-bundle"%string|exists "update-trust-root"%string]; (split; [reflexivity|constructor]).
  - intros (n & -> & L). destruct L; vm_compute; reflexivity.
Qed.
Lemma leads_plain : forall p n q, leads p n q -> plain_word digit p (s2l n).
Proof. intros p n q L. left. destruct L; discriminate. Qed.
End Levels.
