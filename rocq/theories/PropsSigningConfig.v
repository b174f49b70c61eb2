(** Properties C42 and C43: service selection and signing configurations. *)
From Verif Require Import Base Messages Env Keyring KeyringProofs PropsKeyring TrustedRoot PropsTrustedRoot SigningConfig.

(** ** Specification *)

(** the client supports the service's API version and the service is in force *)
Definition eligible (now : time) (supported : list Z) (s : Service) : Prop :=
  In (sv_version s) supported /\ in_force SIGN now (sv_valid_for s).

(** [s] is the service used for its operator: an eligible one with the highest version,
    the last listed of those *)
Definition used_for_operator (now : time) (supported : list Z) (services : list Service) (s : Service) : Prop :=
  exists l1 l2, services = l1 ++ s :: l2 /\ eligible now supported s /\
    (forall s', In s' l1 -> eligible now supported s' -> sv_operator s' = sv_operator s -> (sv_version s' <= sv_version s)%Z) /\
    (forall s', In s' l2 -> eligible now supported s' -> sv_operator s' = sv_operator s -> (sv_version s' < sv_version s)%Z).

(** [ops] lists the operators of [l] without repetition in order of first appearance *)
Inductive operators : list Service -> list str -> Prop :=
| ops_nil : operators nil nil
| ops_new : forall l s ops, operators l ops -> ~ In (sv_operator s) ops -> operators (l ++ [s]) (ops ++ [sv_operator s])
| ops_old : forall l s ops, operators l ops -> In (sv_operator s) ops -> operators (l ++ [s]) ops.

(** one service per operator, in the order in which the operators first appear among the eligible services *)
Definition one_per_operator (now : time) (supported : list Z) (services result : list Service) : Prop :=
  (exists el, selected (eligible now supported) services el /\ operators el (map sv_operator result)) /\
  Forall (used_for_operator now supported services) result.

(** what the selector makes of the list *)
Definition pruned (config : option ServiceConfig) (all : list Service) (r : res (list Service)) : Prop :=
  match config with
  | None => r = Ok all
  | Some c =>
    match scf_selector c with
    | SEL_ALL => r = Ok all
    | SEL_ANY | SEL_UNDEFINED => r = Ok (firstn 1 all)
    | SEL_EXACT =>
      let n := Nat.max 1 (scf_count c) in
      (n <= length all /\ r = Ok (firstn n all)) \/ (length all < n /\ r = Raise EValue)
    end
  end.

(** ** Proofs *)

Lemma existsb_Z : forall v l, existsb (Z.eqb v) l = true <-> In v l.
Proof.
  intros v l. rewrite existsb_exists. split.
  - intros (x & I & E). apply Z.eqb_eq in E. subst. assumption.
  - intros I. exists v. split; [assumption|apply Z.eqb_refl].
Qed.

Lemma eligible_selected : forall now supported services, exists el,
  selected (eligible now supported) services el /\
  forall d, services_by_operator now services supported d = fold_left (fun d s => dict_append (sv_operator s) s d) el d.
Proof.
  intros now supported services. induction services as [|s r (el & S & E)]; [exists nil; split; [constructor|reflexivity]|].
  cbn [services_by_operator].
  destruct (existsb (Z.eqb (sv_version s)) supported) eqn:V; cbn [negb].
  - destruct (is_timerange_valid now (sv_valid_for s) false) eqn:W; cbn [negb].
    + exists (s :: el). split; [|intros d; apply E]. apply sel_take; [|assumption].
      split; [apply existsb_Z; assumption|apply (proj1 (window_iff now (sv_valid_for s) SIGN)); assumption].
    + exists el. split; [|assumption]. apply sel_skip; [|assumption]. intros [_ F].
      apply (proj2 (window_iff now (sv_valid_for s) SIGN)) in F. congruence.
  - exists el. split; [|assumption]. apply sel_skip; [|assumption]. intros [F _]. apply existsb_Z in F. congruence.
Qed.

(** the dictionary after a list of appends *)
Definition grouped (el : list Service) (d : list (str * list Service)) : Prop :=
  operators el (map fst d) /\
  forall k l, In (k, l) d -> l = filter (fun s => str_eqb (sv_operator s) k) el /\ l <> nil.

Lemma operators_nodup : forall l ops, operators l ops -> NoDup ops.
Proof.
  intros l ops H. induction H; [constructor| |assumption].
  assert (Q : NoDup (sv_operator s :: ops)) by (constructor; assumption).
  apply (NoDup_Add (a := sv_operator s) (l := ops)); [|split; assumption].
  replace ops with (ops ++ nil) at 1 by apply app_nil_r. apply Add_app.
Qed.

Lemma dict_append_in : forall k s d k' l, NoDup (map fst d) ->
  In (k', l) (dict_append k s d) <->
  (k' <> k /\ In (k', l) d) \/ (k' = k /\ ((~ In k (map fst d) /\ l = [s]) \/ exists l0, In (k, l0) d /\ l = l0 ++ [s])).
Proof.
  intros k s d k' l. induction d as [|[k0 l0] d IH]; intros N; cbn [dict_append map fst].
  - cbn. split.
    + intros [H|[]]. inversion H; subst. right. split; [reflexivity|]. left. split; [tauto|reflexivity].
    + intros [[_ []]|[-> [[_ ->]|(l0 & [] & _)]]]. left. reflexivity.
  - inversion N as [|? ? Nk N']; subst. destruct (str_eqb k k0) eqn:E.
    + apply str_eqb_spec in E. subst k0. cbn [In]. split.
      * intros [H|H].
        -- inversion H; subst. right. split; [reflexivity|]. right. exists l0. split; [left; reflexivity|reflexivity].
        -- left. split; [|right; assumption]. intros ->. apply Nk. apply in_map_iff. exists (k, l). split; [reflexivity|assumption].
      * intros [[H1 [H2|H2]]|[-> [[H1 _]|(l1 & [H1|H1] & ->)]]].
        -- inversion H2; subst. contradiction.
        -- right. assumption.
        -- exfalso. apply H1. left. reflexivity.
        -- inversion H1; subst. left. reflexivity.
        -- exfalso. apply Nk. apply in_map_iff. exists (k, l1). split; [reflexivity|assumption].
    + apply str_eqb_false in E. cbn [In]. rewrite (IH N'). split.
      * intros [H|[[H1 H2]|[-> [[H1 H2]|(l1 & H1 & H2)]]]].
        -- inversion H; subst. left. split; [congruence|left; reflexivity].
        -- left. split; [assumption|right; assumption].
        -- right. split; [reflexivity|]. left. split; [|assumption]. intros [Q|Q]; [congruence|contradiction].
        -- right. split; [reflexivity|]. right. exists l1. split; [right; assumption|assumption].
      * intros [[H1 [H2|H2]]|[-> [[H1 H2]|(l1 & [H1|H1] & H2)]]].
        -- left. assumption.
        -- right. left. split; assumption.
        -- right. right. split; [reflexivity|]. left. split; [tauto|assumption].
        -- inversion H1; subst. congruence.
        -- right. right. split; [reflexivity|]. right. exists l1. split; assumption.
Qed.

Lemma dict_append_keys : forall k s d,
  map fst (dict_append k s d) = if existsb (str_eqb k) (map fst d) then map fst d else map fst d ++ [k].
Proof.
  intros k s d. induction d as [|[k0 l0] d IH]; [reflexivity|]. cbn [dict_append map fst existsb].
  destruct (str_eqb k k0) eqn:E; cbn [orb map fst]; [reflexivity|]. rewrite IH. destruct (existsb _ _); reflexivity.
Qed.

Lemma existsb_str : forall k l, existsb (str_eqb k) l = true <-> In k l.
Proof.
  intros v l. rewrite existsb_exists. split.
  - intros (x & I & E). apply str_eqb_spec in E. subst. assumption.
  - intros I. exists v. split; [assumption|apply str_eqb_refl].
Qed.

Lemma operators_in : forall l ops, operators l ops -> forall k, In k ops <-> exists s, In s l /\ sv_operator s = k.
Proof.
  intros l ops H. induction H as [|l s ops H IH N|l s ops H IH N]; intros k.
  - split; [intros []|intros (s & [] & _)].
  - rewrite in_app_iff, IH. cbn. split.
    + intros [(s' & I & E)|[E|[]]]; [exists s'; split; [apply in_or_app; auto|assumption]|exists s; split; [apply in_or_app; right; left; reflexivity|assumption]].
    + intros (s' & I & E). apply in_app_iff in I. destruct I as [I|[->|[]]]; [left; eauto|right; left; assumption].
  - rewrite IH. split.
    + intros (s' & I & E). exists s'. split; [apply in_or_app; auto|assumption].
    + intros (s' & I & E). apply in_app_iff in I. destruct I as [I|[->|[]]]; [eauto|]. subst k. apply IH. assumption.
Qed.

Lemma grouped_fold : forall el, grouped el (fold_left (fun d s => dict_append (sv_operator s) s d) el nil).
Proof.
  intros el. induction el as [|s el (O & G)] using rev_ind.
  - split; [constructor|intros k l []].
  - rewrite fold_left_app. cbn [fold_left]. set (d := fold_left _ el nil) in *.
    pose proof (operators_nodup _ _ O) as N. split.
    + rewrite dict_append_keys. destruct (existsb _ _) eqn:E.
      * apply existsb_str in E. apply ops_old; assumption.
      * apply ops_new; [assumption|]. intros I. apply existsb_str in I. congruence.
    + intros k l I. apply (dict_append_in _ _ _ _ _ N) in I. rewrite filter_app. cbn [filter].
      destruct I as [[Nk I]|[-> [[Nk ->]|(l0 & I & ->)]]].
      * destruct (str_eqb (sv_operator s) k) eqn:E; [apply str_eqb_spec in E; congruence|]. rewrite app_nil_r. apply G. assumption.
      * rewrite str_eqb_refl. split; [|discriminate]. replace (filter _ el) with (@nil Service); [reflexivity|].
        symmetry. destruct (filter _ el) as [|x f] eqn:F; [reflexivity|]. exfalso. apply Nk.
        assert (I : In x (filter (fun s0 => str_eqb (sv_operator s0) (sv_operator s)) el)) by (rewrite F; left; reflexivity).
        apply filter_In in I. destruct I as [I E]. apply str_eqb_spec in E.
        apply (operators_in _ _ O). eauto.
      * rewrite str_eqb_refl. destruct (G _ _ I) as [-> _]. split; [reflexivity|]. destruct (filter _ el); discriminate.
Qed.

(** the last element of the stable sort *)
Inductive sorted_v : list Service -> Prop :=
| sv_nil : sorted_v nil
| sv_cons : forall s l, (forall t, In t l -> (sv_version s <= sv_version t)%Z) -> sorted_v l -> sorted_v (s :: l).

Lemma insert_in : forall s l t, In t (insert_by_version s l) <-> t = s \/ In t l.
Proof.
  intros s l t. induction l as [|u l IH]; cbn [insert_by_version].
  - cbn. intuition.
  - destruct (_ <=? _)%Z; cbn [In]; [intuition|]. rewrite IH. intuition.
Qed.

Lemma insert_sorted : forall s l, sorted_v l -> sorted_v (insert_by_version s l).
Proof.
  intros s l H. induction H as [|u l B H IH]; cbn [insert_by_version]; [repeat constructor; intros t []|].
  destruct (_ <=? _)%Z eqn:E.
  - apply Z.leb_le in E. constructor; [|constructor; assumption]. intros t [->|I]; [assumption|]. specialize (B _ I). lia.
  - apply Z.leb_gt in E. constructor; [|assumption]. intros t I. apply insert_in in I. destruct I as [->|I]; [lia|auto].
Qed.

Lemma sort_sorted : forall l, sorted_v (sort_by_version l).
Proof. induction l as [|s l IH]; [constructor|apply insert_sorted; assumption]. Qed.

Lemma sort_in : forall l t, In t (sort_by_version l) <-> In t l.
Proof.
  intros l t. induction l as [|s l IH]; [reflexivity|]. cbn [sort_by_version]. rewrite insert_in, IH. cbn. intuition.
Qed.

Lemma insert_last : forall s l x, sorted_v l -> forall l1, insert_by_version s l = l1 ++ [x] ->
  (x = s /\ forall t, In t l -> (sv_version t < sv_version s)%Z) \/
  (exists l0, l = l0 ++ [x] /\ (sv_version s <= sv_version x)%Z).
Proof.
  intros s l x H. induction H as [|u l B H IH]; cbn [insert_by_version]; intros l1.
  - destruct l1 as [|? [|? ?]]; intros E; inversion E. left. split; [reflexivity|intros t []].
  - destruct (sv_version s <=? sv_version u)%Z eqn:E.
    + apply Z.leb_le in E. intros Q. right.
      destruct l1 as [|w l1]; inversion Q as [[Qw Q']]. exists l1. split; [assumption|].
      assert (I : In x (u :: l)) by (rewrite Q'; apply in_or_app; right; left; reflexivity).
      subst w. destruct I as [Eu|I]; [subst; exact E|]. specialize (B _ I). lia.
    + apply Z.leb_gt in E. intros Q.
      destruct l1 as [|w l1]; inversion Q as [[Qw Q']].
      { exfalso. destruct l as [|w l']; cbn in Q'; [discriminate|destruct (_ <=? _)%Z; discriminate]. }
      destruct (IH _ Q') as [[-> F]|(l0 & -> & F)].
      * left. split; [reflexivity|]. intros t [Et|I]; [subst; lia|auto].
      * right. exists (w :: l0). subst. split; [reflexivity|assumption].
Qed.

Lemma rev_last : forall (l : list Service) x y, rev l = x :: y -> l = rev y ++ [x].
Proof. intros l x y H. rewrite <- (rev_involutive l), H. reflexivity. Qed.

Lemma sort_last : forall l x y, rev (sort_by_version l) = x :: y ->
  exists l1 l2, l = l1 ++ x :: l2 /\ (forall t, In t l1 -> (sv_version t <= sv_version x)%Z) /\
    (forall t, In t l2 -> (sv_version t < sv_version x)%Z).
Proof.
  induction l as [|s l IH]; intros x y H; [discriminate|]. cbn [sort_by_version] in H. apply rev_last in H.
  destruct (insert_last _ _ _ (sort_sorted l) _ H) as [[-> F]|(l0 & E & F)].
  - exists nil, l. split; [reflexivity|]. split; [intros t []|]. intros t I. apply F, sort_in. assumption.
  - assert (R : rev (sort_by_version l) = x :: rev l0) by (rewrite E, rev_app_distr; reflexivity).
    destruct (IH _ _ R) as (l1 & l2 & -> & A & B). exists (s :: l1), l2. split; [reflexivity|]. split; [|assumption].
    intros t [->|I]; [assumption|auto].
Qed.

Lemma last_item_sorted : forall l, l <> nil -> exists x, last_item (sort_by_version l) = Ok x /\
  exists l1 l2, l = l1 ++ x :: l2 /\ (forall t, In t l1 -> (sv_version t <= sv_version x)%Z) /\
    (forall t, In t l2 -> (sv_version t < sv_version x)%Z).
Proof.
  intros l N. unfold last_item. destruct (rev (sort_by_version l)) as [|x y] eqn:R.
  - exfalso. destruct l as [|s l]; [congruence|].
    assert (I : In s (sort_by_version (s :: l))) by (apply sort_in; left; reflexivity).
    apply in_rev in I. rewrite R in I. destruct I.
  - exists x. split; [reflexivity|]. eapply sort_last; eassumption.
Qed.

(** lifting a position in a filtered list to the original list *)
Lemma filter_split : forall (P : Service -> bool) l a x b, filter P l = a ++ x :: b ->
  exists l1 l2, l = l1 ++ x :: l2 /\ filter P l1 = a /\ filter P l2 = b.
Proof.
  intros P l. induction l as [|y l IH]; intros a x b H; cbn [filter] in H; [destruct a; discriminate|].
  destruct (P y) eqn:E.
  - destruct a as [|z a]; inversion H; subst.
    + exists nil, l. auto.
    + destruct (IH _ _ _ H2) as (l1 & l2 & -> & A & B). exists (z :: l1), l2. cbn [filter app]. rewrite E, A. auto.
  - destruct (IH _ _ _ H) as (l1 & l2 & -> & A & B). exists (y :: l1), l2. cbn [filter app]. rewrite E. auto.
Qed.

Lemma selected_split : forall (P : Service -> Prop) l el a x b, selected P l el -> el = a ++ x :: b ->
  exists l1 l2, l = l1 ++ x :: l2 /\ selected P l1 a /\ selected P l2 b.
Proof.
  intros P l el a x b S. revert a. induction S as [|y l l' Py S IH|y l l' Py S IH]; intros a E.
  - destruct a; discriminate.
  - destruct a as [|z a]; inversion E; subst.
    + exists nil, l. split; [reflexivity|]. split; [constructor|assumption].
    + destruct (IH a eq_refl) as (l1 & l2 & -> & A & B). exists (z :: l1), l2. split; [reflexivity|]. split; [constructor; assumption|assumption].
  - destruct (IH a E) as (l1 & l2 & -> & A & B). exists (y :: l1), l2. split; [reflexivity|]. split; [apply sel_skip; assumption|assumption].
Qed.

Theorem valid_services_all : forall now services supported, exists all,
  one_per_operator now supported services all /\
  map_res (fun kl => last_item (sort_by_version (snd kl))) (services_by_operator now services supported nil) = Ok all.
Proof.
  intros now services supported. destruct (eligible_selected now supported services) as (el & S & E).
  rewrite E. destruct (grouped_fold el) as (O & G). set (d := fold_left _ el nil) in *.
  assert (Q : exists all, map_res (fun kl => last_item (sort_by_version (snd kl))) d = Ok all /\
            map sv_operator all = map fst d /\ Forall (used_for_operator now supported services) all).
  { clearbody d. clear O E. induction d as [|[k l] d IH]; [exists nil; repeat split; constructor|].
    destruct IH as (all & M & Ops & F); [intros k' l' I; apply G; right; assumption|].
    destruct (G k l (or_introl eq_refl)) as [El Nl].
    destruct (last_item_sorted l Nl) as (x & Lx & l1 & l2 & Sp & A & B).
    exists (x :: all). cbn [map_res snd]. rewrite Lx, M. split; [reflexivity|].
    rewrite Sp in El. symmetry in El. destruct (filter_split _ _ _ _ _ El) as (e1 & e2 & Ee & F1 & F2).
    assert (Ix : In x (filter (fun s => str_eqb (sv_operator s) k) el)) by (rewrite El; apply in_or_app; right; left; reflexivity).
    apply filter_In in Ix. destruct Ix as [Ix Kx]. apply str_eqb_spec in Kx.
    split; [cbn; rewrite Ops; congruence|]. constructor; [|assumption].
    destruct (selected_split _ _ _ _ _ _ S Ee) as (s1 & s2 & Es & S1 & S2).
    exists s1, s2. split; [assumption|]. split.
    { apply (proj1 (selected_in _ _ _ _ S x)). assumption. }
    split; intros s' I' L' O'.
    - apply A. rewrite <- F1. apply filter_In. split; [apply (selected_in _ _ _ _ S1); auto|]. apply str_eqb_spec. congruence.
    - apply B. rewrite <- F2. apply filter_In. split; [apply (selected_in _ _ _ _ S2); auto|]. apply str_eqb_spec. congruence. }
  destruct Q as (all & M & Ops & F). exists all. split; [|assumption]. split; [|assumption].
  exists el. split; [assumption|]. rewrite Ops. assumption.
Qed.

(** ** C42 *)

Theorem C42_service_selection : forall now services supported config, exists all,
  one_per_operator now supported services all /\
  pruned config all (get_valid_services now services supported config).
Proof.
  intros now services supported config. destruct (valid_services_all now services supported) as (all & O & M).
  exists all. split; [assumption|]. unfold get_valid_services. rewrite M. cbn [bind]. unfold pruned.
  destruct config as [[sel n]|]; [|reflexivity]. cbn [scf_selector scf_count].
  destruct sel; cbn [andb raise_if bind]; try reflexivity.
  destruct n as [|n]; cbn [Nat.eqb negb].
  - change (Nat.max 1 0) with 1. destruct (Nat.ltb (length all) 1) eqn:L; cbn [raise_if bind].
    + apply Nat.ltb_lt in L. right. auto.
    + apply Nat.ltb_ge in L. left. auto.
  - rewrite Nat.max_r by lia. destruct (Nat.ltb (length all) (S n)) eqn:L; cbn [raise_if bind].
    + apply Nat.ltb_lt in L. right. auto.
    + apply Nat.ltb_ge in L. left. auto.
Qed.

(** The specification determines the answer. *)
Lemma operators_unique : forall l a, operators l a -> forall b, operators l b -> a = b.
Proof.
  intros l a H. induction H as [|l s ops H IH N|l s ops H IH N]; intros b Hb; inversion Hb as [Eb|l' s' ops' H' N' El Eo|l' s' ops' H' N' El Eo].
  - reflexivity.
  - destruct l'; discriminate.
  - destruct l'; discriminate.
  - destruct l; discriminate.
  - apply app_inj_tail in El. destruct El as [-> ->]. rewrite (IH _ H'). reflexivity.
  - apply app_inj_tail in El. destruct El as [-> ->]. rewrite <- (IH _ H') in N'. contradiction.
  - destruct l; discriminate.
  - apply app_inj_tail in El. destruct El as [-> ->]. rewrite <- (IH _ H') in N'. contradiction.
  - apply app_inj_tail in El. destruct El as [-> ->]. apply IH. subst. assumption.
Qed.

Lemma used_unique : forall now supported l s t, used_for_operator now supported l s -> used_for_operator now supported l t ->
  sv_operator s = sv_operator t -> s = t.
Proof.
  intros now supported l s t (a1 & a2 & Ea & La & A1 & A2) (b1 & b2 & Eb & Lb & B1 & B2) O.
  assert (Q : forall (x1 : list Service) x x2 y1 y y2, x1 ++ x :: x2 = y1 ++ y :: y2 -> In x y1 \/ In y x1 \/ x = y).
  { clear. intros x1. induction x1 as [|z x1 IH]; intros x x2 y1 y y2 H.
    - destruct y1 as [|w y1]; inversion H; subst; [auto|left; left; reflexivity].
    - destruct y1 as [|w y1]; inversion H; subst; [right; left; left; reflexivity|].
      destruct (IH _ _ _ _ _ H2) as [I|[I|I]]; [left; right; assumption|right; left; right; assumption|auto]. }
  assert (Q2 : forall (x1 : list Service) x x2 y1 y y2, x1 ++ x :: x2 = y1 ++ y :: y2 -> x = y \/ (In x y1 /\ In y x2) \/ (In y x1 /\ In x y2)).
  { clear. intros x1. induction x1 as [|z x1 IH]; intros x x2 y1 y y2 H.
    - destruct y1 as [|w y1]; inversion H; subst; [auto|]. right. left. split; [left; reflexivity|apply in_or_app; right; left; reflexivity].
    - destruct y1 as [|w y1]; inversion H; subst.
      + right. right. split; [left; reflexivity|apply in_or_app; right; left; reflexivity].
      + destruct (IH _ _ _ _ _ H2) as [I|[[I J]|[I J]]]; [auto|right; left; split; [right; assumption|assumption]|right; right; split; [right; assumption|assumption]]. }
  rewrite Ea in Eb. destruct (Q2 _ _ _ _ _ _ Eb) as [E|[[I J]|[I J]]]; [assumption| |].
  - specialize (B1 s I La O). specialize (A2 t J Lb (eq_sym O)). lia.
  - specialize (A1 t I Lb (eq_sym O)). specialize (B2 s J La O). lia.
Qed.

Theorem C42_selection_is_determined : forall now supported services a b,
  one_per_operator now supported services a -> one_per_operator now supported services b -> a = b.
Proof.
  intros now supported services a b ((ea & Sa & Oa) & Fa) ((eb & Sb & Ob) & Fb).
  pose proof (selected_unique _ _ _ _ _ Sa Sb) as <-. pose proof (operators_unique _ _ Oa _ Ob) as E.
  clear - Fa Fb E. revert b Fb E. induction Fa as [|x a Hx Fa IH]; intros b Fb E; destruct b as [|y b]; try discriminate; [reflexivity|].
  cbn in E. inversion E. inversion Fb; subst. f_equal; [eapply used_unique; eassumption|auto].
Qed.

(** Every selected service can be used, and no operator is used twice. *)
Theorem C42_selected_services_usable : forall now services supported config r,
  get_valid_services now services supported config = Ok r ->
  NoDup (map sv_operator r) /\
  forall s, In s r -> In s services /\ eligible now supported s /\
    forall s', In s' services -> eligible now supported s' -> sv_operator s' = sv_operator s -> (sv_version s' <= sv_version s)%Z.
Proof.
  intros now services supported config r H.
  destruct (C42_service_selection now services supported config) as (all & ((el & Sel & Ops) & F) & P).
  rewrite H in P.
  assert (Q : exists n, r = firstn n all).
  { unfold pruned in P. destruct config as [c|].
    - destruct (scf_selector c).
      + injection P as ->. exists 1; reflexivity.
      + injection P as ->. exists (length all). symmetry. apply firstn_all.
      + injection P as ->. exists 1; reflexivity.
      + destruct P as [[_ P]|[_ P]]; [injection P as ->; eexists; reflexivity|discriminate].
    - injection P as ->. exists (length all). symmetry. apply firstn_all. }
  destruct Q as (n & ->). split.
  - apply operators_nodup in Ops. rewrite <- (firstn_skipn n all), map_app in Ops.
    clear - Ops. induction (map sv_operator (firstn n all)) as [|x l IH]; [constructor|].
    cbn in Ops. inversion Ops; subst. constructor; [|auto]. intros I. apply H1. apply in_or_app. auto.
  - intros s I. assert (I' : In s all) by (rewrite <- (firstn_skipn n all); apply in_or_app; auto).
    rewrite Forall_forall in F. destruct (F _ I') as (l1 & l2 & -> & L & A & B).
    split; [apply in_or_app; right; left; reflexivity|]. split; [assumption|].
    intros s' Is' L' O'. apply in_app_iff in Is'. destruct Is' as [Is'|[->|Is']]; [auto|lia|].
    specialize (B _ Is' L' O'). lia.
Qed.

(** ** C43 *)

Lemma empty_iff : forall A (l : list A), is_empty l = false <-> l <> nil.
Proof. intros A [|x l]; cbn; split; congruence. Qed.

Theorem C43_loads_iff : forall now m force sc,
  make_signing_config now m force = Ok sc <->
  scm_media m = SIGNING_CONFIG_0_2 /\
  get_valid_services now (scm_tlogs m) (match force with None => [1; 2]%Z | Some v => [v] end) (scm_tlog_config m) = Ok (sc_tlogs sc) /\
  get_valid_services now (scm_tsas m) [1%Z] (scm_tsa_config m) = Ok (sc_tsas sc) /\
  get_valid_services now (scm_cas m) [1%Z] None = Ok (sc_fulcios sc) /\
  get_valid_services now (scm_oidcs m) [1%Z] None = Ok (sc_oidcs sc) /\
  sc_tlogs sc <> nil /\ sc_fulcios sc <> nil.
Proof.
  intros now m force sc. unfold make_signing_config. split.
  - intros H. apply bind_ok_inv in H. destruct H as (u & M & H). apply raise_if_ok in M. apply negb_false_iff, str_eqb_spec in M.
    apply bind_ok_inv in H. destruct H as (tl & T & H).
    apply bind_ok_inv in H. destruct H as (u1 & N1 & H). apply raise_if_ok, empty_iff in N1.
    apply bind_ok_inv in H. destruct H as (ts & Ts & H).
    apply bind_ok_inv in H. destruct H as (fu & Fu & H).
    apply bind_ok_inv in H. destruct H as (u2 & N2 & H). apply raise_if_ok, empty_iff in N2.
    apply bind_ok_inv in H. destruct H as (oi & Oi & H). inversion H; subst sc. cbn. auto 10.
  - intros (M & T & Ts & Fu & Oi & N1 & N2). rewrite M, str_eqb_refl. cbn [negb raise_if bind].
    unfold REKOR_VERSIONS, TSA_VERSIONS, FULCIO_VERSIONS, OIDC_VERSIONS. rewrite T. cbn [bind].
    apply empty_iff in N1. apply empty_iff in N2. rewrite N1, Ts. cbn [raise_if bind]. rewrite Fu. cbn [bind]. rewrite N2, Oi.
    cbn. destruct sc; reflexivity.
Qed.

(** the API client matches the version of the service *)
Definition client_for (s : Service) (c : rekor_client) : Prop :=
  (sv_version s = 1%Z /\ c = Rekor_v1 (sv_url s)) \/ (sv_version s = 2%Z /\ c = Rekor_v2 (sv_url s)).

(** A loaded configuration has a log client for every chosen log, and a CA. *)
Theorem C43_endpoints : forall now m force sc,
  make_signing_config now m force = Ok sc ->
  (forall v, force = Some v -> v = 1%Z \/ v = 2%Z) ->
  (exists c cs, get_tlogs sc = Ok (c :: cs) /\ Forall2 client_for (sc_tlogs sc) (c :: cs)) /\
  (exists s, In s (scm_cas m) /\ eligible now [1%Z] s /\ get_fulcio sc = Ok (sv_url s)).
Proof.
  intros now m force sc H V. apply C43_loads_iff in H. destruct H as (_ & T & _ & Fu & _ & N1 & N2). split.
  - assert (Q : forall s, In s (sc_tlogs sc) -> sv_version s = 1%Z \/ sv_version s = 2%Z).
    { intros s I. apply C42_selected_services_usable in T. destruct T as [_ T]. destruct (T _ I) as (_ & (L & _) & _).
      destruct force as [v|]; [destruct L as [L|[]]; destruct (V v eq_refl); subst; auto|destruct L as [L|[L|[]]]; auto]. }
    unfold get_tlogs. destruct (sc_tlogs sc) as [|s0 l]; [congruence|].
    assert (R : forall l, (forall s, In s l -> sv_version s = 1%Z \/ sv_version s = 2%Z) ->
      exists cs, map_res (fun t => if (sv_version t =? 1)%Z then Ok (Rekor_v1 (sv_url t))
                    else if (sv_version t =? 2)%Z then Ok (Rekor_v2 (sv_url t))
                    else Raise EAssertion) l = Ok cs /\ Forall2 client_for l cs).
    { clear. induction l as [|s l IH]; intros Q; [exists nil; split; [reflexivity|constructor]|].
      destruct IH as (cs & E & F); [intros t I; apply Q; right; assumption|]. cbn [map_res].
      destruct (Q s (or_introl eq_refl)) as [V|V]; rewrite V, E; cbn.
      - exists (Rekor_v1 (sv_url s) :: cs). split; [reflexivity|]. constructor; [left; auto|assumption].
      - exists (Rekor_v2 (sv_url s) :: cs). split; [reflexivity|]. constructor; [right; auto|assumption]. }
    destruct (R _ Q) as (cs & E & F). destruct cs as [|c cs]; [inversion F|]. eauto.
  - unfold get_fulcio. apply C42_selected_services_usable in Fu. destruct Fu as [_ Fu].
    destruct (sc_fulcios sc) as [|s l] eqn:El; [congruence|]. exists s.
    destruct (Fu s (or_introl eq_refl)) as (I & L & _). auto.
Qed.

(** Forcing a log version restricts the choice to it. *)
Theorem C43_forced_version : forall now m v sc s,
  make_signing_config now m (Some v) = Ok sc -> In s (sc_tlogs sc) -> sv_version s = v.
Proof.
  intros now m v sc s H I. apply C43_loads_iff in H. destruct H as (_ & T & _).
  apply C42_selected_services_usable in T. destruct T as [_ T]. destruct (T _ I) as (_ & ([L|[]] & _) & _). auto.
Qed.

(** The OIDC URL: an eligible provider's, or the documented error if there is none. *)
Theorem C43_oidc_url : forall now m force sc,
  make_signing_config now m force = Ok sc ->
  (exists s, In s (scm_oidcs m) /\ eligible now [1%Z] s /\ get_oidc_url sc = Ok (sv_url s)) \/
  ((forall s, In s (scm_oidcs m) -> ~ eligible now [1%Z] s) /\ get_oidc_url sc = Raise EError).
Proof.
  intros now m force sc H. apply C43_loads_iff in H. destruct H as (_ & _ & _ & _ & Oi & _).
  unfold get_oidc_url. destruct (sc_oidcs sc) as [|s l] eqn:El; cbn [is_empty raise_if bind].
  - right. split; [|reflexivity]. intros s I L.
    destruct (C42_service_selection now (scm_oidcs m) [1%Z] None) as (all & ((el & Sel & Ops) & F) & P).
    rewrite Oi in P. cbn in P. inversion P; subst all.
    assert (Q : In (sv_operator s) (map sv_operator (@nil Service))).
    { apply (operators_in _ _ Ops). exists s. split; [|reflexivity]. apply (selected_in _ _ _ _ Sel). auto. }
    destruct Q.
  - left. exists s. apply C42_selected_services_usable in Oi. destruct Oi as [_ Oi].
    destruct (Oi s (or_introl eq_refl)) as (I & L & _). auto.
Qed.

(** Loading fails only with [Error], or with [ValueError] when fewer services are available than
    the configuration requires. *)
Theorem C43_load_exceptions : forall now m force e,
  make_signing_config now m force = Raise e ->
  e = EError \/
  (e = EValue /\ exists c, (scm_tlog_config m = Some c \/ scm_tsa_config m = Some c) /\ scf_selector c = SEL_EXACT).
Proof.
  intros now m force e H. unfold make_signing_config in H.
  assert (G : forall l v c x, get_valid_services now l v c = Raise x -> x = EValue /\ exists c', c = Some c' /\ scf_selector c' = SEL_EXACT).
  { intros l v c x Q. destruct (C42_service_selection now l v c) as (all & _ & P). rewrite Q in P. unfold pruned in P.
    destruct c as [c|]; [|discriminate]. destruct (scf_selector c) eqn:Sc; try discriminate.
    destruct P as [[_ P]|[_ P]]; inversion P. eauto. }
  apply bind_raise_inv in H. destruct H as [H|(u & _ & H)]; [apply raise_if_raise in H; tauto|].
  apply bind_raise_inv in H. destruct H as [H|(tl & _ & H)]; [apply G in H; destruct H as (-> & c & E & S); right; eauto|].
  apply bind_raise_inv in H. destruct H as [H|(u1 & _ & H)]; [apply raise_if_raise in H; tauto|].
  apply bind_raise_inv in H. destruct H as [H|(ts & _ & H)]; [apply G in H; destruct H as (-> & c & E & S); right; eauto|].
  apply bind_raise_inv in H. destruct H as [H|(fu & _ & H)]; [apply G in H; destruct H as (_ & c & E & _); discriminate|].
  apply bind_raise_inv in H. destruct H as [H|(u2 & _ & H)]; [apply raise_if_raise in H; tauto|].
  apply bind_raise_inv in H. destruct H as [H|(oi & _ & H)]; [apply G in H; destruct H as (_ & c & E & _); discriminate|].
  discriminate.
Qed.

(** A signing context uses the first chosen log and CA, and every chosen timestamp authority. *)
Theorem C43_context : forall now c, (forall v, ctc_force c = Some v -> v = 1%Z \/ v = 2%Z) ->
  forall sc, make_signing_config now (ctc_signing c) (ctc_force c) = Ok sc ->
  tr_media_type (ctc_root c) = TRUSTED_ROOT_0_1 ->
  exists log ca client, hd_error (sc_tlogs sc) = Some log /\ hd_error (sc_fulcios sc) = Some ca /\ client_for log client /\
    context_from_trust_config now c = Ok (mkParts (sv_url ca) client (ctc_root c) (map sv_url (sc_tsas sc))).
Proof.
  intros now c V sc H M. pose proof (C43_endpoints _ _ _ _ H V) as [(cl & cs & T & F) (ca & _ & _ & Fu)].
  unfold context_from_trust_config. rewrite H. cbn [bind]. rewrite Fu, T. cbn [bind index_list nth_error].
  unfold make_trusted_root. rewrite M, str_eqb_refl. cbn [bind].
  inversion F as [|log c0 logs cs0 Fc Fr Elog]; subst. unfold get_fulcio in Fu.
  destruct (sc_fulcios sc) as [|ca' fl]; cbn in Fu; [discriminate|]. inversion Fu.
  exists log, ca', cl. cbn. split; [reflexivity|]. split; [reflexivity|]. split; [assumption|]. unfold get_tsas. congruence.
Qed.

(** ** What does not hold *)

(** Forcing a version the client does not implement is not refused when loading. *)
Definition sc_svc (v : Z) (op : String.string) : Service := mkService (s2l "https://x") v None (s2l op).
Definition sc_msg (tlogs : list Service) (c : option ServiceConfig) : SigningConfigMsg :=
  mkSCM SIGNING_CONFIG_0_2 tlogs c [sc_svc 1 "t"] None [sc_svc 1 "f"] nil.
Theorem C43_unsupported_forced_version_refuted : exists now m v sc,
  make_signing_config now m (Some v) = Ok sc /\ get_tlogs sc = Raise EAssertion.
Proof. exists 0%Z, (sc_msg [sc_svc 3 "a"] None), 3%Z. eexists. split; reflexivity. Qed.

(** A configuration with usable logs can fail to load with an exception that is not sigstore's [Error]. *)
Theorem C43_load_errors_are_sigstore_errors_refuted : exists now m,
  make_signing_config now m None = Raise EValue /\ is_sigstore_error EValue = false.
Proof. exists 0%Z, (sc_msg [sc_svc 1 "a"] (Some (mkSvcConf SEL_EXACT 2))). split; reflexivity. Qed.

(** ** Examples *)
Definition sc_logs : list Service :=
  [mkService (s2l "u1") 1 None (s2l "a"); mkService (s2l "u2") 2 None (s2l "b");
   mkService (s2l "u3") 2 (Some (mkTimeRange 0%Z (Some 10%Z))) (s2l "a"); mkService (s2l "u4") 2 None (s2l "a");
   mkService (s2l "u5") 2 (Some (mkTimeRange 11%Z None)) (s2l "b"); mkService (s2l "u6") 3 None (s2l "c")].
Example ex_select_all : get_valid_services 10%Z sc_logs REKOR_VERSIONS None =
  Ok [mkService (s2l "u4") 2 None (s2l "a"); mkService (s2l "u2") 2 None (s2l "b")].
Proof. reflexivity. Qed.
Example ex_select_exact : get_valid_services 10%Z sc_logs REKOR_VERSIONS (Some (mkSvcConf SEL_EXACT 3)) = Raise EValue.
Proof. reflexivity. Qed.
Example ex_select_any : get_valid_services 10%Z sc_logs [1%Z] (Some (mkSvcConf SEL_ANY 5)) = Ok [mkService (s2l "u1") 1 None (s2l "a")].
Proof. reflexivity. Qed.
Example ex_loads : exists sc, make_signing_config 10%Z (sc_msg sc_logs None) (Some 2%Z) = Ok sc /\
  get_tlogs sc = Ok [Rekor_v2 (s2l "u2"); Rekor_v2 (s2l "u4")] /\ get_oidc_url sc = Raise EError.
Proof. eexists. split; [reflexivity|]. split; reflexivity. Qed.

Print Assumptions C42_service_selection.
Print Assumptions C42_selection_is_determined.
Print Assumptions C42_selected_services_usable.
Print Assumptions C43_loads_iff.
Print Assumptions C43_endpoints.
Print Assumptions C43_forced_version.
Print Assumptions C43_oidc_url.
Print Assumptions C43_load_exceptions.
Print Assumptions C43_context.
Print Assumptions C43_unsupported_forced_version_refuted.
Print Assumptions C43_load_errors_are_sigstore_errors_refuted.
