From Coq Require Import ZArith Bool Lia ZifyBool.
From Verif Require Import FloatMs.
Local Open Scope Z_scope.

Lemma rne_div_err : forall a b, 0 < b -> 2 * Z.abs (rne_div a b * b - a) <= b.
Proof.
  intros a b Hb. unfold rne_div. pose proof (Z.div_mod a b ltac:(lia)) as E.
  pose proof (Z.mod_pos_bound a b Hb) as R.
  set (q := a / b) in *. set (r := a mod b) in *.
  destruct (2 * r <? b) eqn:A; [|destruct (b <? 2 * r) eqn:B; [|destruct (Z.even q)]]; nia.
Qed.

(** Rounding something closer than one half to an integer gives that integer. *)
Lemma rne_div_near : forall a b k, 0 < b -> 2 * Z.abs (k * b - a) < b -> rne_div a b = k.
Proof.
  intros a b k Hb H. pose proof (rne_div_err a b Hb).
  assert (Z.abs (rne_div a b * b - k * b) < b) by lia.
  assert (Q : rne_div a b * b - k * b = (rne_div a b - k) * b) by ring.
  rewrite Q in H1. assert (rne_div a b - k = 0) by nia. lia.
Qed.

Lemma up_pos : forall u, 0 < up u.
Proof. intros; unfold up; apply Z.pow_pos_nonneg; lia. Qed.
Lemma dn_pos : forall u, 0 < dn u.
Proof. intros; unfold dn; apply Z.pow_pos_nonneg; lia. Qed.

Lemma up_dn_succ : forall u, up (u + 1) * dn u = 2 * (up u * dn (u + 1)).
Proof.
  intros u. unfold up, dn. destruct (Z.le_gt_cases 0 u).
  - replace (Z.max 0 (u + 1)) with (Z.succ u) by lia. replace (Z.max 0 u) with u by lia.
    replace (Z.max 0 (- u)) with 0 by lia. replace (Z.max 0 (- (u + 1))) with 0 by lia.
    rewrite Z.pow_succ_r by lia. lia.
  - replace (Z.max 0 (u + 1)) with 0 by lia. replace (Z.max 0 u) with 0 by lia.
    replace (Z.max 0 (- u)) with (Z.succ (- (u + 1))) by lia.
    replace (Z.max 0 (- (u + 1))) with (- (u + 1)) by lia.
    rewrite Z.pow_succ_r by lia. lia.
Qed.

Lemma up_dn_add : forall u k, 0 <= k -> up (u + k) * dn u = 2 ^ k * (up u * dn (u + k)).
Proof.
  intros u k Hk. revert u. pattern k. apply natlike_ind; [| |assumption].
  - intros u. rewrite Z.add_0_r. change (2 ^ 0) with 1. lia.
  - intros x Hx IH u. rewrite Z.pow_succ_r by assumption.
    replace (u + Z.succ x) with ((u + x) + 1) by lia.
    pose proof (up_dn_succ (u + x)) as S. specialize (IH u).
    pose proof (up_pos (u+x)). pose proof (dn_pos (u+x)).
    pose proof (up_pos u). pose proof (dn_pos u).
    pose proof (up_pos (u+x+1)). pose proof (dn_pos (u+x+1)).
    apply (Z.mul_reg_r _ _ (dn (u + x))); [lia|].
    transitivity (up (u + x + 1) * dn (u + x) * dn u); [ring|]. rewrite S.
    transitivity (2 * (dn (u + x + 1) * (up (u + x) * dn u))); [ring|]. rewrite IH. ring.
Qed.

(** [2^e <= n/d < 2^(e+1)] *)
Lemma ilog2_spec : forall n d, 0 < n -> 0 < d ->
  d * up (ilog2 n d) <= n * dn (ilog2 n d) /\ n * dn (ilog2 n d) < 2 * (d * up (ilog2 n d)).
Proof.
  intros n d Hn Hd. unfold ilog2.
  pose proof (Z.log2_spec n Hn) as [N1 N2]. pose proof (Z.log2_spec d Hd) as [D1 D2].
  pose proof (Z.log2_nonneg n). pose proof (Z.log2_nonneg d).
  set (a := Z.log2 n) in *. set (b := Z.log2 d) in *. set (e := a - b).
  rewrite Z.pow_succ_r in N2, D2 by assumption.
  assert (Q : 2 ^ b * up e = 2 ^ a * dn e).
  { unfold up, dn, e. destruct (Z.le_gt_cases b a).
    - replace (Z.max 0 (a - b)) with (a - b) by lia. replace (Z.max 0 (- (a - b))) with 0 by lia.
      change (2 ^ 0) with 1. rewrite <- Z.pow_add_r by lia. rewrite Z.mul_1_r. f_equal. lia.
    - replace (Z.max 0 (a - b)) with 0 by lia. replace (Z.max 0 (- (a - b))) with (b - a) by lia.
      change (2 ^ 0) with 1. rewrite <- Z.pow_add_r by lia. rewrite Z.mul_1_r. f_equal. lia. }
  pose proof (up_pos e). pose proof (dn_pos e).
  assert (L1 : n * dn e < 2 * (d * up e)) by nia.
  assert (L2 : d * up e < 2 * (n * dn e)) by nia.
  destruct (n * dn e <? d * up e) eqn:T.
  - apply Z.ltb_lt in T. pose proof (up_dn_succ (e - 1)) as S.
    replace (e - 1 + 1) with e in S by lia.
    pose proof (up_pos (e-1)). pose proof (dn_pos (e-1)).
    assert (d * up (e - 1) * dn e * 2 = d * up e * dn (e - 1)) by nia.
    split.
    + apply (Z.mul_le_mono_pos_r _ _ (2 * dn e)); [lia|]. nia.
    + apply (Z.mul_lt_mono_pos_r (2 * dn e)); [lia|]. nia.
  - apply Z.ltb_ge in T. split; lia.
Qed.

(** The rounded value is within relative error [2^-53]. *)
Lemma round53_err : forall n d m u, 0 < n -> 0 < d -> round53 n d = (m, u) ->
  2 ^ 53 * Z.abs (m * (d * up u) - n * dn u) <= n * dn u /\ 2 ^ 52 <= m.
Proof.
  intros n d m u Hn Hd H. unfold round53 in H. injection H as Hm Hu.
  pose proof (ilog2_spec n d Hn Hd) as [A B].
  set (e := ilog2 n d) in *. rewrite Hu in Hm.
  assert (e = u + 52) by lia. pose proof (up_dn_add u 52 ltac:(lia)) as S.
  rewrite <- H in S.
  pose proof (up_pos u) as U1. pose proof (dn_pos u) as U2.
  pose proof (up_pos e) as U3. pose proof (dn_pos e) as U4.
  assert (L : 2 ^ 52 * (d * up u) <= n * dn u).
  { apply (Z.mul_le_mono_pos_r _ _ (dn e)); [lia|]. 
    transitivity (d * (up e * dn u)); [rewrite S; lia|].
    transitivity ((d * up e) * dn u); [lia|]. 
    transitivity ((n * dn e) * dn u); [|lia]. apply Z.mul_le_mono_pos_r; lia. }
  pose proof (rne_div_err (n * dn u) (d * up u) ltac:(nia)) as R. rewrite Hm in R.
  change (2 ^ 53) with (2 * 2 ^ 52). split; [nia|].
  assert (2 ^ 52 * (d * up u) - (d * up u) < m * (d * up u)) by nia.
  assert (0 < d * up u) by nia. nia.
Qed.

Lemma ilog2_is : forall n d e, 0 < d -> 0 <= e -> d * 2 ^ e <= n < d * 2 ^ (e + 1) -> ilog2 n d = e.
Proof.
  intros n d e Hd He [A B].
  assert (Hn : 0 < n). { assert (0 < 2 ^ e) by (apply Z.pow_pos_nonneg; lia). nia. }
  pose proof (Z.log2_spec n Hn) as [N1 N2]. pose proof (Z.log2_spec d Hd) as [D1 D2].
  pose proof (Z.log2_nonneg n). pose proof (Z.log2_nonneg d).
  assert (P : 0 < 2 ^ e) by (apply Z.pow_pos_nonneg; lia).
  assert (Q1 : Z.log2 d + e < Z.succ (Z.log2 n)).
  { apply (Z.pow_lt_mono_r_iff 2); [lia|lia|]. rewrite Z.pow_add_r by lia. nia. }
  assert (Q2 : Z.log2 n < Z.log2 d + e + 2).
  { apply (Z.pow_lt_mono_r_iff 2); [lia|lia|].
    replace (Z.log2 d + e + 2) with (Z.succ (Z.log2 d) + (e + 1)) by lia.
    rewrite Z.pow_add_r by lia.
    assert (0 < 2 ^ (e + 1)) by (apply Z.pow_pos_nonneg; lia). nia. }
  unfold ilog2. assert (C : Z.log2 n - Z.log2 d = e \/ Z.log2 n - Z.log2 d = e + 1) by lia.
  destruct C as [->| ->]; unfold up, dn.
  - replace (Z.max 0 (- e)) with 0 by lia. replace (Z.max 0 e) with e by lia.
    change (2 ^ 0) with 1. destruct (n * 1 <? d * 2 ^ e) eqn:T; lia.
  - replace (Z.max 0 (- (e + 1))) with 0 by lia. replace (Z.max 0 (e + 1)) with (e + 1) by lia.
    change (2 ^ 0) with 1. destruct (n * 1 <? d * 2 ^ (e + 1)) eqn:T; lia.
Qed.

Theorem float_ms_exact : forall ms, 2 ^ 40 <= ms < 1000 * 2 ^ 31 -> float_ms (1000 * ms) = ms.
Proof.
  intros ms H. change (2 ^ 40) with 1099511627776 in H. change (1000 * 2 ^ 31) with 2147483648000 in H.
  assert (ms = 1099511627776 \/ 1099511627777 <= ms) as [->|H1] by lia; [vm_compute; reflexivity|].
  unfold float_ms. replace (1000 * ms =? 0) with false by lia. replace (1000 * ms <? 0) with false by lia.
  unfold float_ms_pos, round53.
  rewrite (ilog2_is (1000 * ms) 1000000 30)
    by (try change (2 ^ 30) with 1073741824; try change (2 ^ (30 + 1)) with 2147483648; lia).
  change (30 - 52) with (-22). change (dn (-22)) with 4194304. change (up (-22)) with 1.
  pose proof (rne_div_err (1000 * ms * 4194304) (1000000 * 1) ltac:(lia)) as R.
  remember (rne_div (1000 * ms * 4194304) (1000000 * 1)) as m eqn:Em. clear Em.
  rewrite (ilog2_is (1000 * m * 1) 4194304 40)
    by (try change (2 ^ 40) with 1099511627776; try change (2 ^ (40 + 1)) with 2199023255552; lia).
  change (40 - 52) with (-12). change (dn (-12)) with 4096. change (up (-12)) with 1.
  rewrite (rne_div_near (1000 * m * 1 * 4096) (4194304 * 1) (4096 * ms)) by lia.
  replace (4096 * ms * 1) with (ms * 4096) by ring. apply Z.div_mul. lia.
Qed.

(** Never more than one millisecond too small, for every representable datetime. *)
Theorem float_ms_bound : forall ms, 0 <= ms < 2 ^ 48 ->
  float_ms (1000 * ms) = ms \/ float_ms (1000 * ms) = ms - 1.
Proof.
  intros x H. unfold float_ms. destruct (1000 * x =? 0) eqn:Z0; [left; lia|].
  replace (1000 * x <? 0) with false by lia. unfold float_ms_pos.
  destruct (round53 (1000 * x) 1000000) as [m u] eqn:R1.
  destruct (round53_err (1000 * x) 1000000 m u ltac:(lia) ltac:(lia) R1) as [E1 M1].
  pose proof (up_pos u) as U1. pose proof (dn_pos u) as U2.
  destruct (round53 (1000 * m * up u) (dn u)) as [m' u'] eqn:R2.
  assert (0 < m) by (change (2 ^ 52) with 4503599627370496 in M1; lia).
  destruct (round53_err (1000 * m * up u) (dn u) m' u' ltac:(nia) ltac:(assumption) R2) as [E2 M2].
  pose proof (up_pos u') as U3. pose proof (dn_pos u') as U4.
  set (A := dn u) in *. set (A2 := dn u') in *. set (B := up u) in *. set (B2 := up u') in *.
  set (P := 1000 * m * B) in *. set (V := m' * B2) in *.
  assert (F1 : 2 ^ 53 * Z.abs (P - x * A) <= x * A).
  { assert (m * (1000000 * B) - 1000 * x * A = 1000 * (P - x * A)) as Q by (unfold P; ring).
    rewrite Q in E1. rewrite Z.abs_mul in E1. change (Z.abs 1000) with 1000 in E1. lia. }
  assert (F2 : 2 ^ 53 * Z.abs (V * A - P * A2) <= P * A2).
  { replace (V * A - P * A2) with (m' * (A * B2) - P * A2) by (unfold V; ring). exact E2. }
  assert (HP : P <= 2 * (x * A)).
  { change (2 ^ 53) with 9007199254740992 in F1. lia. }
  clearbody A A2 B B2 P V. clear E1 E2 R1 R2 M1 M2.
  change (2 ^ 53) with 9007199254740992 in *. change (2 ^ 48) with 281474976710656 in *.
  assert (F3 : 9007199254740992 * Z.abs (V * A - x * A * A2) <= 3 * (x * A * A2)).
  { assert (9007199254740992 * Z.abs ((P - x * A) * A2) <= x * A * A2).
    { rewrite Z.abs_mul, (Z.abs_eq A2) by lia. rewrite Z.mul_assoc.
      apply Z.mul_le_mono_nonneg_r; [lia|exact F1]. }
    assert (P * A2 <= 2 * (x * A) * A2) by (apply Z.mul_le_mono_nonneg_r; lia).
    assert ((P - x * A) * A2 = P * A2 - x * A * A2) by ring. lia. }
  assert (F4 : Z.abs (V - x * A2) < A2).
  { assert (V * A - x * A * A2 = (V - x * A2) * A) as Q by ring. rewrite Q in F3.
    rewrite Z.abs_mul, (Z.abs_eq A) in F3 by lia.
    apply (Z.mul_lt_mono_pos_r A); [lia|].
    assert (X : x * (A2 * A) < 281474976710656 * (A2 * A)).
    { apply Z.mul_lt_mono_pos_r; [apply Z.mul_pos_pos; lia|lia]. }
    replace (x * A * A2) with (x * (A2 * A)) in F3 by ring.
    assert (0 < A2 * A) by (apply Z.mul_pos_pos; lia). lia. }
  assert (V / A2 = x \/ V / A2 = x - 1).
  { destruct (Z.le_gt_cases (x * A2) V).
    - left. symmetry. apply Z.div_unique with (r := V - x * A2); lia.
    - right. symmetry. apply Z.div_unique with (r := V - (x - 1) * A2); lia. }
  exact H1.
Qed.
