(** Further facts about the codecs of Codec.v. *)
From Verif Require Import Base Codec.
From Coq Require Import ZifyBool ZifyNat ZifyN.
Local Open Scope N_scope.

Ltac Zify.zify_post_hook ::= Z.to_euclidean_division_equations.

Lemma n2b_to : forall x n, n = b2n x -> n2b n = x.
Proof. intros x n ->. apply n2b_b2n. Qed.

Theorem utf8_encode_decode : forall b s, utf8_decode b = Some s -> utf8_encode s = Some b.
Proof.
  enough (G : forall n b s, (length b <= n)%nat -> utf8_decode b = Some s -> utf8_encode s = Some b).
  { intros b s. apply (G (length b)). lia. }
  induction n as [|n IH]; intros b s L H.
  { destruct b; [|cbn in L; lia]. inversion H; reflexivity. }
  destruct b as [|x0 r0]; [inversion H; reflexivity|]. cbn [utf8_decode] in H. cbn [length] in L.
  pose proof (b2n_lt x0) as B0.
  destruct (b2n x0 <? 128) eqn:C0.
  { destruct (utf8_decode r0) as [t|] eqn:E; [|discriminate]. inversion H; subst.
    cbn [utf8_encode]. rewrite (IH r0 t) by (assumption || lia).
    replace (is_scalar (b2n x0)) with true by (unfold is_scalar; lia).
    unfold utf8_char. rewrite C0. rewrite n2b_b2n. reflexivity. }
  destruct (b2n x0 <? 194) eqn:C1; [discriminate|].
  destruct r0 as [|x1 r1]; [discriminate|]. cbn [length] in L. pose proof (b2n_lt x1) as B1.
  destruct (is_cont x1) eqn:K1; cbn [negb] in H; [|discriminate].
  unfold is_cont in K1.
  destruct (b2n x0 <? 224) eqn:C2.
  { destruct (utf8_decode r1) as [t|] eqn:E; [|discriminate]. inversion H; subst. clear H.
    cbn [utf8_encode]. rewrite (IH r1 t) by (assumption || lia).
    set (c := (b2n x0 - 192) * 64 + (b2n x1 - 128)).
    assert (Hc : 128 <= c < 2048) by (unfold c; lia).
    replace (is_scalar c) with true by (unfold is_scalar; lia).
    unfold utf8_char. replace (c <? 128) with false by lia. replace (c <? 2048) with true by lia.
    rewrite (n2b_to x0) by (unfold c; lia). rewrite (n2b_to x1) by (unfold c; lia). reflexivity. }
  destruct r1 as [|x2 r2]; [discriminate|]. cbn [length] in L. pose proof (b2n_lt x2) as B2.
  destruct (is_cont x2) eqn:K2; cbn [negb] in H; [|discriminate]. unfold is_cont in K2.
  destruct (b2n x0 <? 240) eqn:C3.
  { cbv zeta in H. set (c := (b2n x0 - 224) * 4096 + (b2n x1 - 128) * 64 + (b2n x2 - 128)) in *.
    destruct ((2048 <=? c) && is_scalar c)%bool eqn:Q; [|discriminate].
    apply andb_true_iff in Q. destruct Q as [Q1 Q2].
    destruct (utf8_decode r2) as [t|] eqn:E; [|discriminate]. inversion H; subst s. clear H.
    cbn [utf8_encode]. rewrite (IH r2 t) by (assumption || lia). rewrite Q2.
    assert (Hc : c < 65536) by (unfold c; lia).
    unfold utf8_char. replace (c <? 128) with false by lia. replace (c <? 2048) with false by lia.
    replace (c <? 65536) with true by lia.
    rewrite (n2b_to x0) by (unfold c; lia). rewrite (n2b_to x1) by (unfold c; lia).
    rewrite (n2b_to x2) by (unfold c; lia). reflexivity. }
  destruct r2 as [|x3 r3]; [discriminate|]. cbn [length] in L. pose proof (b2n_lt x3) as B3.
  destruct (is_cont x3) eqn:K3; cbn [negb] in H; [|discriminate]. unfold is_cont in K3.
  cbv zeta in H. set (c := (b2n x0 - 240) * 262144 + (b2n x1 - 128) * 4096 + (b2n x2 - 128) * 64 + (b2n x3 - 128)) in *.
  destruct ((65536 <=? c) && is_scalar c)%bool eqn:Q; [|discriminate].
  apply andb_true_iff in Q. destruct Q as [Q1 Q2].
  destruct (utf8_decode r3) as [t|] eqn:E; [|discriminate]. inversion H; subst s. clear H.
  cbn [utf8_encode]. rewrite (IH r3 t) by (assumption || lia). rewrite Q2.
  unfold utf8_char. replace (c <? 128) with false by lia. replace (c <? 2048) with false by lia.
  replace (c <? 65536) with false by lia.
  rewrite (n2b_to x0) by (unfold c; lia). rewrite (n2b_to x1) by (unfold c; lia).
  rewrite (n2b_to x2) by (unfold c; lia). rewrite (n2b_to x3) by (unfold c; lia). reflexivity.
Qed.

Corollary utf8_decode_iff : forall b s, utf8_decode b = Some s <-> utf8_encode s = Some b.
Proof. intros b s. split; [apply utf8_encode_decode|apply utf8_decode_encode]. Qed.

Lemma unbe_snoc : forall b x, unbe (b ++ [x]) = 256 * unbe b + b2n x.
Proof. intros b x. unfold unbe. rewrite fold_left_app. reflexivity. Qed.

Lemma unbe_lt : forall b, unbe b < 256 ^ N.of_nat (length b).
Proof.
  induction b as [|x b IH] using rev_ind; [reflexivity|].
  rewrite unbe_snoc, app_length, Nat.add_comm. cbn [length Nat.add].
  rewrite Nat2N.inj_succ, N.pow_succ_r'. pose proof (b2n_lt x). lia.
Qed.

Lemma be_unbe : forall b, be (length b) (unbe b) = b.
Proof.
  induction b as [|x b IH] using rev_ind; [reflexivity|].
  rewrite unbe_snoc, app_length, Nat.add_comm. cbn [length Nat.add be].
  pose proof (b2n_lt x).
  replace ((256 * unbe b + b2n x) / 256) with (unbe b) by lia. rewrite IH. f_equal. f_equal.
  apply b2n_inj. rewrite b2n_n2b_mod. lia.
Qed.
