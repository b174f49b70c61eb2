(** Proofs relating [Merkle.v] (the code) to [MerkleSpec.v] (RFC 6962). *)
From Verif Require Import Base Messages MerkleSpec Merkle.
From Coq Require Import ZifyNat ZifyBool.
Ltac Zify.zify_post_hook ::= Z.div_mod_to_equations.

(** ** Arithmetic of the split point *)

Lemma split_point_bounds : forall n, (2 <= n)%nat ->
  (1 <= split_point n < n)%nat /\ (n <= 2 * split_point n)%nat.
Proof.
  intros n Hn. unfold split_point.
  pose proof (Nat.log2_spec (n - 1) ltac:(lia)) as [A B].
  rewrite Nat.pow_succ_r' in B.
  assert (1 <= 2 ^ Nat.log2 (n - 1))%nat.
  { apply Nat.neq_0_lt_0. apply Nat.pow_nonzero. lia. }
  lia.
Qed.

(** ** Bits *)

Local Open Scope Z_scope.

Fixpoint inner_sides (i : Z) (n : nat) (idx : Z) : list bool :=
  match n with
  | O => nil
  | S n' => Z.testbit idx i :: inner_sides (i + 1) n' idx
  end.

Definition code_sides (m n : Z) : list bool :=
  let '(inner, border) := decomp_inclusion_proof m n in
  inner_sides 0 (Z.to_nat inner) m ++ repeat true (Z.to_nat border).

Lemma inner_sides_length : forall n i idx, length (inner_sides i n idx) = n.
Proof. induction n; intros; simpl; congruence. Qed.

Lemma inner_sides_app : forall a b i idx,
  inner_sides i (a + b) idx = inner_sides i a idx ++ inner_sides (i + Z.of_nat a) b idx.
Proof.
  induction a as [|a IH]; intros b i idx.
  - simpl. rewrite Z.add_0_r. reflexivity.
  - cbn [Nat.add inner_sides app]. rewrite IH. do 3 f_equal. lia.
Qed.

Lemma inner_sides_ext : forall n i a b,
  (forall j, i <= j < i + Z.of_nat n -> Z.testbit a j = Z.testbit b j) ->
  inner_sides i n a = inner_sides i n b.
Proof.
  induction n as [|n IH]; intros i a b E; [reflexivity|].
  cbn [inner_sides]. rewrite (E i) by lia. f_equal. apply IH. intros j Hj. apply E. lia.
Qed.

Lemma land1_testbit : forall x i, 0 <= i ->
  (Z.land (Z.shiftr x i) 1 =? 0) = negb (Z.testbit x i).
Proof.
  intros x i Hi.
  replace (Z.land (Z.shiftr x i) 1) with (Z.b2z (Z.testbit x i)).
  - destruct (Z.testbit x i); reflexivity.
  - change 1 with (Z.ones 1) at 1. rewrite Z.land_ones by lia. change (2 ^ 1) with 2.
    rewrite <- Z.bit0_mod. rewrite Z.shiftr_spec by lia. rewrite Z.add_0_l. reflexivity.
Qed.

Lemma bit_length_nonneg : forall x, 0 <= bit_length x.
Proof.
  intros x. unfold bit_length. destruct (x =? 0); [lia|].
  pose proof (Z.log2_nonneg (Z.abs x)). lia.
Qed.

Lemma bit_length_bound : forall x l, 0 <= l -> 0 <= x < 2 ^ l -> bit_length x <= l.
Proof.
  intros x l Hl Hx. unfold bit_length. destruct (x =? 0) eqn:E; [lia|].
  rewrite Z.abs_eq by lia. assert (Z.log2 x < l) by (apply Z.log2_lt_pow2; lia). lia.
Qed.

Lemma bit_length_exact : forall x l, 0 <= l -> 2 ^ l <= x < 2 ^ (l + 1) -> bit_length x = l + 1.
Proof.
  intros x l Hl Hx. unfold bit_length.
  assert (0 < 2 ^ l) by (apply Z.pow_pos_nonneg; lia).
  destruct (x =? 0) eqn:E; [lia|].
  rewrite Z.abs_eq by lia. rewrite (Z.log2_unique x l); lia.
Qed.

Lemma count_ones_double : forall z, 0 <= z -> count_ones (2 * z) = count_ones z.
Proof. intros [|p|p] Hz; simpl; lia. Qed.
Lemma count_ones_succ_double : forall z, 0 <= z -> count_ones (2 * z + 1) = 1 + count_ones z.
Proof. intros [|p|p] Hz; simpl; lia. Qed.

Lemma count_ones_nonneg : forall z, 0 <= count_ones z.
Proof.
  assert (forall p, 0 <= pos_ones p) by (induction p; cbn [pos_ones]; lia).
  intros [|p|p]; unfold count_ones; auto; lia.
Qed.

Lemma count_ones_add_pow : forall j y, 0 <= y < 2 ^ Z.of_nat j ->
  count_ones (2 ^ Z.of_nat j + y) = 1 + count_ones y.
Proof.
  induction j as [|j IH]; intros y Hy.
  - change (2 ^ Z.of_nat 0) with 1 in *. assert (y = 0) by lia. subst. reflexivity.
  - rewrite Nat2Z.inj_succ, Z.pow_succ_r in Hy |- * by lia.
    assert (Hp : 0 < 2 ^ Z.of_nat j) by (apply Z.pow_pos_nonneg; lia).
    assert (Hd : 0 <= y / 2 < 2 ^ Z.of_nat j) by lia.
    specialize (IH _ Hd).
    assert (Hb : y = 2 * (y / 2) \/ y = 2 * (y / 2) + 1) by lia.
    destruct Hb as [E|E].
    + rewrite E. replace (2 * 2 ^ Z.of_nat j + 2 * (y / 2)) with (2 * (2 ^ Z.of_nat j + y / 2)) by lia.
      rewrite !count_ones_double by lia. exact IH.
    + rewrite E.
      replace (2 * 2 ^ Z.of_nat j + (2 * (y / 2) + 1)) with (2 * (2 ^ Z.of_nat j + y / 2) + 1) by lia.
      rewrite !count_ones_succ_double by lia. lia.
Qed.

Lemma pow2_add_lxor : forall l x, 0 <= l -> 0 <= x < 2 ^ l -> 2 ^ l + x = Z.lxor (2 ^ l) x.
Proof.
  intros l x Hl Hx. apply Z.add_nocarry_lxor.
  apply Z.bits_inj'. intros j Hj. rewrite Z.land_spec, Z.bits_0.
  destruct (Z.eq_dec j l) as [->|Hne].
  - replace (Z.testbit x l) with false; [apply andb_false_r|].
    symmetry. destruct (Z.eq_dec x 0) as [->|Hx0]; [apply Z.bits_0|].
    apply Z.bits_above_log2; [lia|]. apply Z.log2_lt_pow2; lia.
  - rewrite Z.pow2_bits_false by lia. reflexivity.
Qed.

Lemma testbit_small : forall l x, 0 <= l -> 0 <= x < 2 ^ l -> Z.testbit x l = false.
Proof.
  intros l x Hl Hx. destruct (Z.eq_dec x 0) as [->|Hx0]; [apply Z.bits_0|].
  apply Z.bits_above_log2; [lia|]. apply Z.log2_lt_pow2; lia.
Qed.

Lemma testbit_pow2_add_low : forall l x j, 0 <= l -> 0 <= x < 2 ^ l -> 0 <= j < l ->
  Z.testbit (2 ^ l + x) j = Z.testbit x j.
Proof.
  intros l x j Hl Hx Hj. rewrite pow2_add_lxor, Z.lxor_spec by assumption.
  rewrite Z.pow2_bits_false by lia. apply xorb_false_l.
Qed.

Lemma testbit_pow2_add_top : forall l x, 0 <= l -> 0 <= x < 2 ^ l ->
  Z.testbit (2 ^ l + x) l = true.
Proof.
  intros l x Hl Hx. rewrite pow2_add_lxor, Z.lxor_spec by assumption.
  rewrite Z.pow2_bits_true, testbit_small by lia. reflexivity.
Qed.

Lemma lxor_range : forall l a b, 0 <= l -> 0 <= a < 2 ^ l -> 0 <= b < 2 ^ l ->
  0 <= Z.lxor a b < 2 ^ l.
Proof.
  intros l a b Hl Ha Hb. split.
  - apply Z.lxor_nonneg. lia.
  - destruct (Z.eq_dec (Z.lxor a b) 0) as [->|Hne]; [lia|].
    assert (0 < Z.lxor a b).
    { assert (0 <= Z.lxor a b) by (apply Z.lxor_nonneg; lia). lia. }
    apply Z.log2_lt_pow2; [assumption|].
    pose proof (Z.log2_lxor a b ltac:(lia) ltac:(lia)) as L.
    assert (forall x, 0 <= x < 2 ^ l -> Z.log2 x < l \/ l = 0) as Q.
    { intros x Hx. destruct (Z.eq_dec x 0) as [->|Hx0].
      - simpl. destruct (Z.eq_dec l 0); [right; assumption|left; change (Z.log2 0) with 0; lia].
      - left. apply Z.log2_lt_pow2; lia. }
    destruct (Q a Ha) as [Qa|Qa]; [|subst l; simpl in *; assert (a = 0) by lia; assert (b = 0) by lia; subst; exfalso; apply Hne; reflexivity].
    destruct (Q b Hb) as [Qb|Qb]; [|subst l; simpl in *; assert (a = 0) by lia; assert (b = 0) by lia; subst; exfalso; apply Hne; reflexivity].
    lia.
Qed.

Lemma lxor_pow2_cancel : forall l a b, 0 <= l -> 0 <= a < 2 ^ l -> 0 <= b < 2 ^ l ->
  Z.lxor (2 ^ l + a) (2 ^ l + b) = Z.lxor a b.
Proof.
  intros l a b Hl Ha Hb. rewrite !pow2_add_lxor by assumption.
  rewrite (Z.lxor_comm (2 ^ l) a). rewrite Z.lxor_assoc.
  rewrite <- (Z.lxor_assoc (2 ^ l) (2 ^ l) b). rewrite Z.lxor_nilpotent, Z.lxor_0_l. reflexivity.
Qed.

(** Both indices on the right of the split: the top bit disappears. *)
Lemma code_sides_right : forall l a r, 0 <= l -> 0 <= a < 2 ^ l -> 0 <= r < 2 ^ l ->
  code_sides (2 ^ l + a) (2 ^ l + r + 1) = code_sides a (r + 1) ++ [true].
Proof.
  intros l a r Hl Ha Hr. unfold code_sides, decomp_inclusion_proof.
  replace (2 ^ l + r + 1 - 1) with (2 ^ l + r) by lia.
  replace (r + 1 - 1) with r by lia.
  rewrite lxor_pow2_cancel by assumption.
  set (i := bit_length (Z.lxor a r)).
  assert (Hi : 0 <= i <= l).
  { split; [apply bit_length_nonneg|]. apply bit_length_bound; [lia|].
    apply lxor_range; assumption. }
  assert (Hs : Z.shiftr (2 ^ l + a) i = 2 ^ (l - i) + Z.shiftr a i).
  { rewrite !Z.shiftr_div_pow2 by lia.
    replace (2 ^ l) with (2 ^ (l - i) * 2 ^ i) by (rewrite <- Z.pow_add_r by lia; f_equal; lia).
    rewrite Z.div_add_l; [reflexivity|]. apply Z.pow_nonzero; lia. }
  assert (Hr' : 0 <= Z.shiftr a i < 2 ^ (l - i)).
  { rewrite Z.shiftr_div_pow2 by lia. assert (0 < 2 ^ i) by (apply Z.pow_pos_nonneg; lia).
    split; [apply Z.div_pos; lia|]. apply Z.div_lt_upper_bound; [lia|].
    rewrite <- Z.pow_add_r by lia. replace (i + (l - i)) with l by lia. lia. }
  rewrite Hs. rewrite <- (Z2Nat.id (l - i)) by lia.
  rewrite count_ones_add_pow by (rewrite Z2Nat.id by lia; assumption).
  rewrite (inner_sides_ext _ _ (2 ^ l + a) a).
  - rewrite <- app_assoc. f_equal.
    pose proof (count_ones_nonneg (Z.shiftr a i)).
    rewrite Z2Nat.inj_add by lia. change (Z.to_nat 1) with 1%nat.
    rewrite Nat.add_comm, repeat_app. reflexivity.
  - intros j Hj. apply testbit_pow2_add_low; lia.
Qed.

(** The index on the left of the split. *)
Lemma code_sides_left : forall l a n, 0 <= l -> 0 <= a < 2 ^ l -> 2 ^ l <= n - 1 < 2 ^ (l + 1) ->
  code_sides a n = inner_sides 0 (Z.to_nat (l + 1)) a.
Proof.
  intros l a n Hl Ha Hn. unfold code_sides, decomp_inclusion_proof.
  assert (E : bit_length (Z.lxor a (n - 1)) = l + 1).
  { apply bit_length_exact; [assumption|].
    set (r := n - 1 - 2 ^ l).
    rewrite Z.pow_add_r in Hn by lia. change (2 ^ 1) with 2 in Hn.
    assert (Hr : 0 <= r < 2 ^ l) by (unfold r; lia).
    replace (n - 1) with (2 ^ l + r) by (unfold r; lia).
    assert (HX : Z.lxor a (2 ^ l + r) = 2 ^ l + Z.lxor a r).
    { rewrite (pow2_add_lxor l r) by assumption.
      rewrite (pow2_add_lxor l (Z.lxor a r)) by (auto using lxor_range).
      rewrite <- !Z.lxor_assoc. f_equal. apply Z.lxor_comm. }
    rewrite HX. pose proof (lxor_range l a r Hl Ha Hr).
    rewrite Z.pow_add_r by lia. change (2 ^ 1) with 2. lia. }
  rewrite E. replace (Z.shiftr a (l + 1)) with 0.
  - simpl. apply app_nil_r.
  - symmetry. rewrite Z.shiftr_div_pow2 by lia. apply Z.div_small.
    rewrite Z.pow_add_r by lia. change (2 ^ 1) with 2. lia.
Qed.

Lemma code_sides_perfect : forall l a, 0 <= a < 2 ^ Z.of_nat l ->
  code_sides a (2 ^ Z.of_nat l) = inner_sides 0 l a.
Proof.
  induction l as [|l IH]; intros a Ha.
  - change (2 ^ Z.of_nat 0) with 1 in *. assert (a = 0) by lia. subst. reflexivity.
  - assert (HP : 2 ^ Z.of_nat (S l) = 2 * 2 ^ Z.of_nat l)
      by (rewrite Nat2Z.inj_succ, Z.pow_succ_r by lia; reflexivity).
    assert (0 < 2 ^ Z.of_nat l) by (apply Z.pow_pos_nonneg; lia).
    destruct (Z_lt_le_dec a (2 ^ Z.of_nat l)) as [Hlt|Hge].
    + rewrite (code_sides_left (Z.of_nat l)); [f_equal; lia|lia|lia|].
      { rewrite Z.pow_add_r by lia. change (2 ^ 1) with 2. lia. }
    + set (b := a - 2 ^ Z.of_nat l).
      assert (Hb : 0 <= b < 2 ^ Z.of_nat l) by (unfold b; lia).
      replace a with (2 ^ Z.of_nat l + b) at 1 by (unfold b; lia).
      rewrite HP.
      replace (2 * 2 ^ Z.of_nat l) with (2 ^ Z.of_nat l + (2 ^ Z.of_nat l - 1) + 1) by lia.
      rewrite code_sides_right by lia.
      replace (2 ^ Z.of_nat l - 1 + 1) with (2 ^ Z.of_nat l) by lia.
      rewrite IH by assumption.
      replace (S l) with (l + 1)%nat by lia. rewrite inner_sides_app. f_equal.
      * apply inner_sides_ext. intros j Hj. symmetry.
        replace a with (2 ^ Z.of_nat l + b) by (unfold b; lia).
        apply testbit_pow2_add_low; lia.
      * simpl. replace a with (2 ^ Z.of_nat l + b) by (unfold b; lia).
        rewrite testbit_pow2_add_top by lia. reflexivity.
Qed.

Local Close Scope Z_scope.

(** Sides of RFC 6962's audit path, leaf to root. *)
Fixpoint rfc_sides (fuel m n : nat) : list bool :=
  match fuel with
  | O => nil
  | S f => if n <=? 1 then nil
           else let k := split_point n in
                if m <? k then rfc_sides f m k ++ [false]
                else rfc_sides f (m - k) (n - k) ++ [true]
  end.

Theorem code_sides_rfc : forall fuel m n, n <= fuel -> m < n ->
  code_sides (Z.of_nat m) (Z.of_nat n) = rfc_sides fuel m n.
Proof.
  induction fuel as [|f IH]; intros m n Hf Hm; [lia|].
  cbn [rfc_sides]. destruct (n <=? 1) eqn:E1.
  - assert (n = 1) by lia. assert (m = 0) by lia. subst. reflexivity.
  - assert (Hn2 : 2 <= n) by lia.
    destruct (split_point_bounds n Hn2) as [[B1 B2] B3].
    set (l := Nat.log2 (n - 1)) in *.
    assert (Hk : Z.of_nat (split_point n) = (2 ^ Z.of_nat l)%Z).
    { unfold split_point. rewrite Nat2Z.inj_pow. reflexivity. }
    assert (HB : (2 ^ Z.of_nat l <= Z.of_nat n - 1 < 2 ^ (Z.of_nat l + 1))%Z).
    { pose proof (Nat.log2_spec (n - 1) ltac:(lia)) as [A B].
      fold l in A, B.
      apply Nat2Z.inj_le in A. apply Nat2Z.inj_lt in B. rewrite Nat2Z.inj_pow in A, B.
      change (Z.of_nat 2) with 2%Z in A, B. rewrite Nat2Z.inj_succ in B.
      replace (Z.of_nat l + 1)%Z with (Z.succ (Z.of_nat l)) by lia. lia. }
    destruct (m <? split_point n) eqn:E2.
    + rewrite (code_sides_left (Z.of_nat l)); [| lia | lia | assumption].
      replace (Z.to_nat (Z.of_nat l + 1)) with (l + 1) by lia.
      rewrite inner_sides_app. f_equal.
      * rewrite <- code_sides_perfect by lia. rewrite <- Hk. apply IH; lia.
      * simpl. rewrite testbit_small by lia. reflexivity.
    + rewrite <- (IH (m - split_point n) (n - split_point n)) by lia.
      replace (Z.of_nat m) with (2 ^ Z.of_nat l + Z.of_nat (m - split_point n))%Z by lia.
      replace (Z.of_nat n) with (2 ^ Z.of_nat l + (Z.of_nat (n - split_point n) - 1) + 1)%Z by lia.
      rewrite code_sides_right; [| lia | | ].
      * do 2 f_equal. lia.
      * rewrite Z.pow_add_r in HB by lia. change (2 ^ 1)%Z with 2%Z in HB. lia.
      * rewrite Z.pow_add_r in HB by lia. change (2 ^ 1)%Z with 2%Z in HB. lia.
Qed.

(** ** The code is a climb *)

Section Proofs.
Variable H : bytes -> bytes.
(** SHA-256 digests have 32 bytes; a premise of the lemmas that need it. *)
Definition hash_32 := forall x, length (H x) = 32.

Lemma climb_app : forall p q v, climb H v (p ++ q) = climb H (climb H v p) q.
Proof. induction p as [|[[|] h] p IH]; intros q v; simpl; auto. Qed.

Lemma chain_inner_from_climb : forall hs i seed idx, (0 <= i)%Z ->
  chain_inner_from H i seed hs idx =
  climb H seed (combine (inner_sides i (length hs) idx) hs).
Proof.
  induction hs as [|h hs IH]; intros i seed idx Hi; [reflexivity|].
  cbn [chain_inner_from length inner_sides combine climb].
  rewrite land1_testbit by assumption. rewrite IH by lia.
  destruct (Z.testbit idx i); reflexivity.
Qed.

Lemma chain_border_climb : forall hs seed,
  chain_border_right H seed hs = climb H seed (combine (repeat true (length hs)) hs).
Proof. induction hs as [|h hs IH]; intros seed; [reflexivity|]. simpl. apply IH. Qed.

Lemma combine_app : forall (A B : Type) (a1 a2 : list A) (b1 b2 : list B),
  length a1 = length b1 -> combine (a1 ++ a2) (b1 ++ b2) = combine a1 b1 ++ combine a2 b2.
Proof.
  induction a1 as [|x a1 IH]; intros a2 [|y b1] b2 L; simpl in *; try discriminate; auto.
  injection L as L. rewrite IH by assumption. reflexivity.
Qed.

(** What acceptance means, for every index and size. *)
Lemma verify_ok_iff : forall e ip, le_proof e = Some ip ->
  (verify_merkle_inclusion H e = Ok tt <->
   length (ip_hashes ip) = length (code_sides (ip_log_index ip) (ip_tree_size ip)) /\
   climb H (H (leaf_string (le_body e)))
     (combine (code_sides (ip_log_index ip) (ip_tree_size ip)) (ip_hashes ip)) = ip_root_hash ip).
Proof.
  intros e ip Hip. unfold verify_merkle_inclusion, code_sides. rewrite Hip.
  destruct (decomp_inclusion_proof (ip_log_index ip) (ip_tree_size ip)) as [inner border] eqn:D.
  assert (Hin : (0 <= inner)%Z) by (unfold decomp_inclusion_proof in D; inversion D; apply bit_length_nonneg).
  assert (Hbo : (0 <= border)%Z) by (unfold decomp_inclusion_proof in D; inversion D; apply count_ones_nonneg).
  rewrite app_length, inner_sides_length, repeat_length.
  destruct (Z.of_nat (length (ip_hashes ip)) =? inner + border)%Z eqn:E.
  - assert (L : length (ip_hashes ip) = Z.to_nat inner + Z.to_nat border) by lia.
    cbn [negb raise_if bind].
    set (hs := ip_hashes ip) in *.
    assert (Hc : chain_border_right H
        (chain_inner H (hash_leaf H (le_body e)) (firstn (Z.to_nat inner) hs) (ip_log_index ip))
        (skipn (Z.to_nat inner) hs)
      = climb H (H (leaf_string (le_body e)))
          (combine (inner_sides 0 (Z.to_nat inner) (ip_log_index ip) ++ repeat true (Z.to_nat border)) hs)).
    { rewrite <- (firstn_skipn (Z.to_nat inner) hs) at 3.
      rewrite combine_app by (rewrite inner_sides_length, firstn_length; lia).
      rewrite climb_app. unfold chain_inner.
      rewrite chain_inner_from_climb by lia. rewrite chain_border_climb.
      rewrite firstn_length, skipn_length.
      replace (Nat.min (Z.to_nat inner) (length hs)) with (Z.to_nat inner) by lia.
      replace (length hs - Z.to_nat inner) with (Z.to_nat border) by lia.
      reflexivity. }
    rewrite Hc.
    set (c := climb _ _ _).
    destruct (bytes_eqb c (ip_root_hash ip)) eqn:B.
    + apply bytes_eqb_spec in B. simpl. split; auto.
    + apply bytes_eqb_false in B. simpl. split; [discriminate|intros [_ ?]; contradiction].
  - simpl. split; [discriminate|]. intros [L _]. lia.
Qed.

(** ** RFC equations for the specification (fuel is irrelevant) *)

Lemma mth_fuel_S : forall f D, 2 <= length D ->
  mth_fuel H (S f) D = H (node_string (mth_fuel H f (firstn (split_point (length D)) D))
                                      (mth_fuel H f (skipn (split_point (length D)) D))).
Proof. intros f D L. destruct D as [|d [|d' D]]; simpl in L; try lia. reflexivity. Qed.

Lemma path_fuel_S : forall f m D, 2 <= length D ->
  path_fuel H (S f) m D =
  if m <? split_point (length D)
  then path_fuel H f m (firstn (split_point (length D)) D) ++ [MTH H (skipn (split_point (length D)) D)]
  else path_fuel H f (m - split_point (length D)) (skipn (split_point (length D)) D)
       ++ [MTH H (firstn (split_point (length D)) D)].
Proof. intros f m D L. destruct D as [|d [|d' D]]; simpl in L; try lia. reflexivity. Qed.

Lemma tree_strings_fuel_S : forall f D, 2 <= length D ->
  tree_strings_fuel H (S f) D =
  node_string (MTH H (firstn (split_point (length D)) D)) (MTH H (skipn (split_point (length D)) D))
  :: tree_strings_fuel H f (firstn (split_point (length D)) D)
  ++ tree_strings_fuel H f (skipn (split_point (length D)) D).
Proof. intros f D L. destruct D as [|d [|d' D]]; simpl in L; try lia. reflexivity. Qed.

Lemma mth_fuel_enough : forall f1 f2 D, length D <= f1 -> length D <= f2 ->
  mth_fuel H f1 D = mth_fuel H f2 D.
Proof.
  induction f1 as [|f1 IH]; intros f2 D L1 L2.
  - destruct D; [|simpl in L1; lia]. destruct f2; reflexivity.
  - destruct D as [|d [|d' D]]; [destruct f2; reflexivity|destruct f2; reflexivity|].
    destruct f2 as [|f2]; [simpl in L2; lia|].
    cbn [mth_fuel]. set (DD := d :: d' :: D) in *.
    assert (2 <= length DD) by (unfold DD; simpl; lia).
    destruct (split_point_bounds (length DD)) as [[B1 B2] B3]; [lia|].
    rewrite (IH f2 (firstn _ DD)), (IH f2 (skipn _ DD)); try reflexivity;
      rewrite ?firstn_length, ?skipn_length; lia.
Qed.

Lemma MTH_one : forall d, MTH H [d] = H (leaf_string d).
Proof. reflexivity. Qed.

Lemma MTH_empty : MTH H nil = H nil.
Proof. reflexivity. Qed.

Lemma MTH_many : forall D, 2 <= length D ->
  MTH H D = H (node_string (MTH H (firstn (split_point (length D)) D))
                           (MTH H (skipn (split_point (length D)) D))).
Proof.
  intros D L.
  destruct (split_point_bounds (length D) L) as [[B1 B2] B3].
  assert (E : length D = S (length D - 1)) by lia.
  unfold MTH at 1. rewrite E at 1. rewrite mth_fuel_S by assumption.
  f_equal. f_equal; apply mth_fuel_enough; rewrite ?firstn_length, ?skipn_length; lia.
Qed.

Lemma path_fuel_enough : forall f1 f2 m D, length D <= f1 -> length D <= f2 ->
  path_fuel H f1 m D = path_fuel H f2 m D.
Proof.
  induction f1 as [|f1 IH]; intros f2 m D L1 L2.
  - destruct D; [|simpl in L1; lia]. destruct f2; reflexivity.
  - destruct D as [|d [|d' D]]; [destruct f2; reflexivity|destruct f2; reflexivity|].
    destruct f2 as [|f2]; [simpl in L2; lia|].
    cbn [path_fuel]. set (DD := d :: d' :: D) in *.
    assert (2 <= length DD) by (unfold DD; simpl; lia).
    destruct (split_point_bounds (length DD)) as [[B1 B2] B3]; [lia|].
    destruct (m <? split_point (length DD)); f_equal; apply IH;
      rewrite ?firstn_length, ?skipn_length; lia.
Qed.

Lemma PATH_one : forall m d, PATH H m [d] = nil.
Proof. reflexivity. Qed.

Lemma PATH_left : forall m D, 2 <= length D -> m < split_point (length D) ->
  PATH H m D = PATH H m (firstn (split_point (length D)) D)
               ++ [MTH H (skipn (split_point (length D)) D)].
Proof.
  intros m D L Hm.
  destruct (split_point_bounds (length D) L) as [[B1 B2] B3].
  assert (E : length D = S (length D - 1)) by lia.
  unfold PATH at 1. rewrite E at 1. rewrite path_fuel_S by assumption.
  apply Nat.ltb_lt in Hm. rewrite Hm. f_equal.
  apply path_fuel_enough; rewrite ?firstn_length, ?skipn_length; lia.
Qed.

Lemma PATH_right : forall m D, 2 <= length D -> split_point (length D) <= m ->
  PATH H m D = PATH H (m - split_point (length D)) (skipn (split_point (length D)) D)
               ++ [MTH H (firstn (split_point (length D)) D)].
Proof.
  intros m D L Hm.
  destruct (split_point_bounds (length D) L) as [[B1 B2] B3].
  assert (E : length D = S (length D - 1)) by lia.
  unfold PATH at 1. rewrite E at 1. rewrite path_fuel_S by assumption.
  apply Nat.ltb_ge in Hm. rewrite Hm. f_equal.
  apply path_fuel_enough; rewrite ?firstn_length, ?skipn_length; lia.
Qed.

Lemma strings_fuel_enough : forall f1 f2 D, length D <= f1 -> length D <= f2 ->
  tree_strings_fuel H f1 D = tree_strings_fuel H f2 D.
Proof.
  induction f1 as [|f1 IH]; intros f2 D L1 L2.
  - destruct D; [|simpl in L1; lia]. destruct f2; reflexivity.
  - destruct D as [|d [|d' D]]; [destruct f2; reflexivity|destruct f2; reflexivity|].
    destruct f2 as [|f2]; [simpl in L2; lia|].
    cbn [tree_strings_fuel]. set (DD := d :: d' :: D) in *.
    assert (2 <= length DD) by (unfold DD; simpl; lia).
    destruct (split_point_bounds (length DD)) as [[B1 B2] B3]; [lia|].
    rewrite (IH f2 (firstn _ DD)), (IH f2 (skipn _ DD)); try reflexivity;
      rewrite ?firstn_length, ?skipn_length; lia.
Qed.

Lemma tree_strings_many : forall D, 2 <= length D ->
  tree_strings H D =
  node_string (MTH H (firstn (split_point (length D)) D)) (MTH H (skipn (split_point (length D)) D))
  :: tree_strings H (firstn (split_point (length D)) D)
  ++ tree_strings H (skipn (split_point (length D)) D).
Proof.
  intros D L.
  destruct (split_point_bounds (length D) L) as [[B1 B2] B3].
  assert (E : length D = S (length D - 1)) by lia.
  unfold tree_strings at 1. rewrite E at 1. rewrite tree_strings_fuel_S by assumption.
  f_equal. f_equal; apply strings_fuel_enough; rewrite ?firstn_length, ?skipn_length; lia.
Qed.

Lemma MTH_length : hash_32 -> forall D, length (MTH H D) = 32.
Proof. intros H_len.
  intros D. destruct D as [|d [|d' D]]; [apply H_len|apply H_len|].
  rewrite MTH_many by (simpl; lia). apply H_len.
Qed.

Lemma climb_length : hash_32 -> forall p v, length v = 32 -> length (climb H v p) = 32.
Proof. intros H_len. induction p as [|[[|] h] p IH]; intros v L; simpl; auto. Qed.

Lemma climb_strings_app : forall p q v,
  climb_strings H v (p ++ q) = climb_strings H v p ++ climb_strings H (climb H v p) q.
Proof.
  induction p as [|[[|] h] p IH]; intros q v; simpl; auto; rewrite IH; reflexivity.
Qed.

Lemma proof_strings_prefix : forall body p q x,
  In x (proof_strings H body p) -> In x (proof_strings H body (p ++ q)).
Proof.
  intros body p q x [Hx|Hx]; [left; exact Hx|right].
  rewrite climb_strings_app. apply in_or_app. left. assumption.
Qed.

Lemma proof_strings_last_true : forall body p h,
  In (node_string h (climb H (H (leaf_string body)) p)) (proof_strings H body (p ++ [(true, h)])).
Proof.
  intros. right. rewrite climb_strings_app. apply in_or_app. right. left. reflexivity.
Qed.
Lemma proof_strings_last_false : forall body p h,
  In (node_string (climb H (H (leaf_string body)) p) h) (proof_strings H body (p ++ [(false, h)])).
Proof.
  intros. right. rewrite climb_strings_app. apply in_or_app. right. left. reflexivity.
Qed.

(** ** Membership: any accepted climb ends at a leaf of the tree *)

Lemma collision_mono : forall A A' B B',
  (forall x, In x A -> In x A') -> (forall x, In x B -> In x B') ->
  collision_between H A B -> collision_between H A' B'.
Proof.
  intros A A' B B' HA HB (x & y & Hx & Hy & Hne & E).
  exists x, y. repeat split; auto.
Qed.

Lemma climb_member : hash_32 -> forall p D body,
  climb H (H (leaf_string body)) p = MTH H D ->
  In body D \/ collision_between H (tree_strings H D) (proof_strings H body p).
Proof. intros H_len.
  induction p as [|[b h] p IH] using rev_ind; intros D body E.
  - simpl in E. destruct D as [|d [|d' D]].
    + right. exists nil, (leaf_string body). repeat split.
      * left; reflexivity. * left; reflexivity. * discriminate. * symmetry; exact E.
    + destruct (bytes_eq_dec (leaf_string d) (leaf_string body)) as [Q|Q].
      * left. left. unfold leaf_string in Q. congruence.
      * right. exists (leaf_string d), (leaf_string body). repeat split; auto.
        -- left; reflexivity. -- left; reflexivity.
    + right. rewrite MTH_many in E by (simpl; lia).
      do 2 eexists. split; [rewrite tree_strings_many by (simpl; lia); left; reflexivity|].
      split; [left; reflexivity|]. split; [discriminate|symmetry; exact E].
  - rewrite climb_app in E.
    destruct D as [|d [|d' D]].
    + right. destruct b; simpl in E.
      * exists nil, (node_string h (climb H (H (leaf_string body)) p)). repeat split; auto.
        -- left; reflexivity. -- apply proof_strings_last_true. -- discriminate.
      * exists nil, (node_string (climb H (H (leaf_string body)) p) h). repeat split; auto.
        -- left; reflexivity. -- apply proof_strings_last_false. -- discriminate.
    + right. destruct b; simpl in E.
      * exists (leaf_string d), (node_string h (climb H (H (leaf_string body)) p)). repeat split; auto.
        -- left; reflexivity. -- apply proof_strings_last_true. -- discriminate.
      * exists (leaf_string d), (node_string (climb H (H (leaf_string body)) p) h). repeat split; auto.
        -- left; reflexivity. -- apply proof_strings_last_false. -- discriminate.
    + set (DD := d :: d' :: D) in *.
      assert (L : 2 <= length DD) by (unfold DD; simpl; lia).
      set (k := split_point (length DD)).
      rewrite (MTH_many DD L) in E. fold k in E.
      pose proof (tree_strings_many DD L) as TS. fold k in TS.
      assert (Lv : length (climb H (H (leaf_string body)) p) = 32) by (apply climb_length; [exact H_len|apply H_len]).
      destruct b; simpl in E.
      * destruct (bytes_eq_dec (node_string (MTH H (firstn k DD)) (MTH H (skipn k DD)))
                               (node_string h (climb H (H (leaf_string body)) p))) as [Q|Q].
        -- unfold node_string in Q. injection Q as Q.
           apply app_inj_length_r in Q; [|rewrite MTH_length, Lv by exact H_len; reflexivity].
           destruct Q as [_ Q]. symmetry in Q. destruct (IH _ _ Q) as [Hin|Hc].
           ++ left. rewrite <- (firstn_skipn k DD). apply in_or_app. right. assumption.
           ++ right. eapply collision_mono; [| |exact Hc].
              ** intros x Hx. rewrite TS. right. apply in_or_app. right. assumption.
              ** intros x Hx. apply proof_strings_prefix. assumption.
        -- right. do 2 eexists. split; [rewrite TS; left; reflexivity|].
           split; [apply proof_strings_last_true|]. split; [exact Q|]. symmetry; exact E.
      * destruct (bytes_eq_dec (node_string (MTH H (firstn k DD)) (MTH H (skipn k DD)))
                               (node_string (climb H (H (leaf_string body)) p) h)) as [Q|Q].
        -- unfold node_string in Q. injection Q as Q.
           apply app_inj_length in Q; [|rewrite MTH_length, Lv by exact H_len; reflexivity].
           destruct Q as [Q _]. symmetry in Q. destruct (IH _ _ Q) as [Hin|Hc].
           ++ left. rewrite <- (firstn_skipn k DD). apply in_or_app. left. assumption.
           ++ right. eapply collision_mono; [| |exact Hc].
              ** intros x Hx. rewrite TS. right. apply in_or_app. left. assumption.
              ** intros x Hx. apply proof_strings_prefix. assumption.
        -- right. do 2 eexists. split; [rewrite TS; left; reflexivity|].
           split; [apply proof_strings_last_false|]. split; [exact Q|]. symmetry; exact E.
Qed.

(** ** Position: with the RFC's sides, the leaf is the one at the index, and the
    sibling hashes are the honest audit path *)

Lemma rfc_sides_length : forall f m D, length D <= f -> m < length D ->
  length (rfc_sides f m (length D)) = length (PATH H m D).
Proof.
  induction f as [|f IH]; intros m D Hf Hm; [lia|].
  cbn [rfc_sides]. destruct (length D <=? 1) eqn:E1.
  - destruct D as [|d [|]]; simpl in *; try lia.
  - assert (L : 2 <= length D) by lia.
    destruct (split_point_bounds (length D) L) as [[B1 B2] B3].
    destruct (m <? split_point (length D)) eqn:E2.
    + rewrite PATH_left by lia. rewrite !app_length. f_equal.
      rewrite <- IH; rewrite ?firstn_length; try lia. do 2 f_equal; lia.
    + rewrite PATH_right by lia. rewrite !app_length. f_equal.
      rewrite <- IH; rewrite ?skipn_length; try lia.
Qed.

Lemma nth_error_firstn_lt : forall (A : Type) (l : list A) k i, i < k ->
  nth_error (firstn k l) i = nth_error l i.
Proof.
  induction l as [|x l IH]; intros [|k] [|i] Hi; simpl; try lia; auto.
  apply IH; lia.
Qed.

Lemma nth_error_skipn_ge : forall (A : Type) (l : list A) k i, k <= i ->
  nth_error (skipn k l) (i - k) = nth_error l i.
Proof.
  induction l as [|x l IH]; intros [|k] i Hi; cbn [skipn].
  - rewrite Nat.sub_0_r; reflexivity.
  - destruct (i - S k), i; reflexivity.
  - rewrite Nat.sub_0_r; reflexivity.
  - destruct i as [|i]; [lia|]. simpl. apply IH; lia.
Qed.

Lemma snoc_of_length : forall (A : Type) (l : list A) n, length l = n + 1 ->
  exists l' x, l = l' ++ [x] /\ length l' = n.
Proof.
  intros A l n L. destruct l as [|y l0 _] using rev_ind; [simpl in L; lia|].
  exists l0, y. rewrite app_length in L. simpl in L. split; [reflexivity|lia].
Qed.

Lemma climb_position : hash_32 -> forall f D m hs body, length D <= f -> m < length D ->
  length hs = length (rfc_sides f m (length D)) ->
  climb H (H (leaf_string body)) (combine (rfc_sides f m (length D)) hs) = MTH H D ->
  (nth_error D m = Some body /\ hs = PATH H m D)
  \/ collision_between H (tree_strings H D)
       (proof_strings H body (combine (rfc_sides f m (length D)) hs)).
Proof. intros H_len.
  induction f as [|f IH]; intros D m hs body Hf Hm Lh E; [lia|].
  cbn [rfc_sides] in *. destruct (length D <=? 1) eqn:E1.
  - destruct D as [|d [|]]; simpl in Hm, E1; try lia.
    assert (m = 0) by lia. subst m. destruct hs; [|simpl in Lh; lia].
    simpl in E. destruct (bytes_eq_dec (leaf_string d) (leaf_string body)) as [Q|Q].
    + left. unfold leaf_string in Q. split; [simpl; congruence|reflexivity].
    + right. exists (leaf_string d), (leaf_string body). repeat split; auto; left; reflexivity.
  - assert (L : 2 <= length D) by lia.
    destruct (split_point_bounds (length D) L) as [[B1 B2] B3].
    set (k := split_point (length D)) in *.
    pose proof (tree_strings_many D L) as TS. fold k in TS.
    rewrite (MTH_many D L) in E. fold k in E.
    destruct (m <? k) eqn:E2.
    + rewrite app_length in Lh. simpl in Lh.
      destruct (snoc_of_length _ _ _ Lh) as (hs' & h & -> & Lh').
      rewrite combine_app in E |- * by auto.
      rewrite climb_app in E. simpl in E.
      set (p := combine (rfc_sides f m k) hs') in *.
      assert (Lv : length (climb H (H (leaf_string body)) p) = 32) by (apply climb_length; [exact H_len|apply H_len]).
      destruct (bytes_eq_dec (node_string (MTH H (firstn k D)) (MTH H (skipn k D)))
                             (node_string (climb H (H (leaf_string body)) p) h)) as [Q|Q].
      * unfold node_string in Q. injection Q as Q.
        apply app_inj_length in Q; [|rewrite MTH_length, Lv by exact H_len; reflexivity].
        destruct Q as [Q1 Q2]. symmetry in Q1.
        assert (Lk : length (firstn k D) = k) by (rewrite firstn_length; lia).
        specialize (IH (firstn k D) m hs' body). rewrite Lk in IH.
        destruct IH as [[Hn Hp]|Hc]; auto; try lia.
        -- left. rewrite nth_error_firstn_lt in Hn by lia. split; [assumption|].
           rewrite PATH_left by (fold k; lia). fold k. rewrite <- Hp, <- Q2. reflexivity.
        -- right. eapply collision_mono; [| |exact Hc].
           ++ intros x Hx. rewrite TS. right. apply in_or_app. left. assumption.
           ++ intros x Hx. apply proof_strings_prefix. assumption.
      * right. do 2 eexists. split; [rewrite TS; left; reflexivity|].
        split; [apply proof_strings_last_false|]. split; [exact Q|]. symmetry; exact E.
    + rewrite app_length in Lh. simpl in Lh.
      destruct (snoc_of_length _ _ _ Lh) as (hs' & h & -> & Lh').
      rewrite combine_app in E |- * by auto.
      rewrite climb_app in E. simpl in E.
      set (p := combine (rfc_sides f (m - k) (length D - k)) hs') in *.
      assert (Lv : length (climb H (H (leaf_string body)) p) = 32) by (apply climb_length; [exact H_len|apply H_len]).
      destruct (bytes_eq_dec (node_string (MTH H (firstn k D)) (MTH H (skipn k D)))
                             (node_string h (climb H (H (leaf_string body)) p))) as [Q|Q].
      * unfold node_string in Q. injection Q as Q.
        apply app_inj_length_r in Q; [|rewrite MTH_length, Lv by exact H_len; reflexivity].
        destruct Q as [Q1 Q2]. symmetry in Q2.
        assert (Lk : length (skipn k D) = length D - k) by apply skipn_length.
        specialize (IH (skipn k D) (m - k) hs' body). rewrite Lk in IH.
        destruct IH as [[Hn Hp]|Hc]; auto; try lia.
        -- left. rewrite nth_error_skipn_ge in Hn by lia. split; [assumption|].
           rewrite PATH_right by (fold k; lia). fold k. rewrite <- Hp, <- Q1. reflexivity.
        -- right. eapply collision_mono; [| |exact Hc].
           ++ intros x Hx. rewrite TS. right. apply in_or_app. right. assumption.
           ++ intros x Hx. apply proof_strings_prefix. assumption.
      * right. do 2 eexists. split; [rewrite TS; left; reflexivity|].
        split; [apply proof_strings_last_true|]. split; [exact Q|]. symmetry; exact E.
Qed.

(** ** Honest proofs climb to the root *)

Lemma climb_honest : forall f D m d, length D <= f -> nth_error D m = Some d ->
  climb H (H (leaf_string d)) (combine (rfc_sides f m (length D)) (PATH H m D)) = MTH H D.
Proof.
  induction f as [|f IH]; intros D m d Hf Hn.
  - assert (m < length D) by (apply nth_error_Some; congruence). lia.
  - assert (Hm : m < length D) by (apply nth_error_Some; congruence).
    cbn [rfc_sides]. destruct (length D <=? 1) eqn:E1.
    + destruct D as [|x [|]]; simpl in Hm, E1; try lia.
      assert (m = 0) by lia. subst m. simpl in Hn. injection Hn as ->. reflexivity.
    + assert (L : 2 <= length D) by lia.
      destruct (split_point_bounds (length D) L) as [[B1 B2] B3].
      rewrite (MTH_many D L).
      set (k := split_point (length D)) in *.
      destruct (m <? k) eqn:E2.
      * rewrite PATH_left by (fold k; lia). fold k.
        assert (Lk : length (firstn k D) = k) by (rewrite firstn_length; lia).
        assert (Hn' : nth_error (firstn k D) m = Some d) by (rewrite nth_error_firstn_lt by lia; assumption).
        specialize (IH (firstn k D) m d). rewrite Lk in IH. specialize (IH ltac:(lia) Hn').
        rewrite combine_app.
        -- rewrite climb_app, IH. reflexivity.
        -- rewrite <- (rfc_sides_length f m (firstn k D)) by lia. rewrite Lk. reflexivity.
      * rewrite PATH_right by (fold k; lia). fold k.
        assert (Lk : length (skipn k D) = length D - k) by apply skipn_length.
        assert (Hn' : nth_error (skipn k D) (m - k) = Some d) by (rewrite nth_error_skipn_ge by lia; assumption).
        specialize (IH (skipn k D) (m - k) d). rewrite Lk in IH. specialize (IH ltac:(lia) Hn').
        rewrite combine_app.
        -- rewrite climb_app, IH. reflexivity.
        -- rewrite <- (rfc_sides_length f (m - k) (skipn k D)) by lia. rewrite Lk. reflexivity.
Qed.

(** ** Main lemmas, in terms of the API *)

Lemma combine_sides_existential : forall (s : list bool) (hs : list bytes),
  length hs = length s -> map snd (combine s hs) = hs.
Proof.
  induction s as [|b s IH]; intros [|h hs] L; simpl in *; try discriminate; auto.
  f_equal; apply IH; lia.
Qed.

Theorem inclusion_position : hash_32 -> forall e ip D i,
  le_proof e = Some ip ->
  ip_root_hash ip = MTH H D ->
  ip_tree_size ip = Z.of_nat (length D) ->
  ip_log_index ip = Z.of_nat i -> i < length D ->
  verify_merkle_inclusion H e = Ok tt ->
  (nth_error D i = Some (le_body e) /\ ip_hashes ip = PATH H i D)
  \/ exists path, map snd path = ip_hashes ip /\
       climb H (H (leaf_string (le_body e))) path = ip_root_hash ip /\
       collision_between H (tree_strings H D) (proof_strings H (le_body e) path).
Proof.
  intros H_len e ip D i Hip Hr Hs Hi Hlt Hv.
  apply (verify_ok_iff e ip Hip) in Hv. destruct Hv as [Lh Hc].
  rewrite Hs, Hi, Hr in *. rewrite (code_sides_rfc (length D)) in Lh, Hc by lia.
  destruct (climb_position H_len (length D) D i (ip_hashes ip) (le_body e)) as [?|Hcol]; auto.
  right. eexists. split; [|split; [|exact Hcol]].
  - apply combine_sides_existential. assumption.
  - congruence.
Qed.

Theorem inclusion_member : hash_32 -> forall e ip D,
  le_proof e = Some ip ->
  ip_root_hash ip = MTH H D ->
  verify_merkle_inclusion H e = Ok tt ->
  In (le_body e) D
  \/ exists path, map snd path = ip_hashes ip /\
       climb H (H (leaf_string (le_body e))) path = ip_root_hash ip /\
       collision_between H (tree_strings H D) (proof_strings H (le_body e) path).
Proof.
  intros H_len e ip D Hip Hr Hv.
  apply (verify_ok_iff e ip Hip) in Hv. destruct Hv as [Lh Hc]. rewrite Hr in Hc.
  destruct (climb_member H_len _ _ _ Hc) as [?|Hcol]; auto.
  right. eexists. split; [|split; [|exact Hcol]].
  - apply combine_sides_existential. assumption.
  - congruence.
Qed.

Theorem inclusion_complete : forall e ip D i,
  le_proof e = Some ip ->
  nth_error D i = Some (le_body e) ->
  ip_root_hash ip = MTH H D ->
  ip_tree_size ip = Z.of_nat (length D) ->
  ip_log_index ip = Z.of_nat i ->
  ip_hashes ip = PATH H i D ->
  verify_merkle_inclusion H e = Ok tt.
Proof.
  intros e ip D i Hip Hn Hr Hs Hi Hh.
  assert (Hlt : i < length D) by (apply nth_error_Some; congruence).
  apply (verify_ok_iff e ip Hip).
  rewrite Hs, Hi, Hh, Hr. rewrite (code_sides_rfc (length D)) by lia. split.
  - symmetry. apply rfc_sides_length; lia.
  - apply climb_honest; auto.
Qed.

Theorem inclusion_length : forall e ip D i,
  le_proof e = Some ip ->
  ip_tree_size ip = Z.of_nat (length D) ->
  ip_log_index ip = Z.of_nat i -> i < length D ->
  verify_merkle_inclusion H e = Ok tt ->
  length (ip_hashes ip) = length (PATH H i D).
Proof.
  intros e ip D i Hip Hs Hi Hlt Hv.
  apply (verify_ok_iff e ip Hip) in Hv. destruct Hv as [Lh _].
  rewrite Hs, Hi in Lh. rewrite (code_sides_rfc (length D)) in Lh by lia.
  rewrite Lh. apply rfc_sides_length; lia.
Qed.

Theorem inclusion_exceptions : forall e ip x,
  le_proof e = Some ip -> verify_merkle_inclusion H e = Raise x -> x = EVerification.
Proof.
  intros e ip x Hip. unfold verify_merkle_inclusion. rewrite Hip.
  destruct (decomp_inclusion_proof _ _) as [inner border].
  destruct (negb _); simpl; [congruence|].
  destruct (negb _); simpl; congruence.
Qed.
End Proofs.
