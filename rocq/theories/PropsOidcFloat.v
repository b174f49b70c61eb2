(** Property C117: the clock of identity tokens is a binary64 number in the code. *)
From Coq Require Import ZArith Lia.
From Verif Require Import Base Messages Env Codec PyText IntText Json Oidc FloatMs FloatMsProofs OidcFloat ToyEnv PropsOidc.
Local Open Scope Z_scope.

(** ** Specification *)

(** between ten seconds after the start of 1970 and February 2106, in microseconds *)
Definition ordinary_clock (now : time) : Prop := 10 * 1000000 <= now < 2 ^ 32 * 1000000.
(** a number claim without a fraction, or no number at all *)
Definition no_fraction (v : json) : Prop := match v with JFloat n d => exists k, n = k * Zpos d | _ => True end.

(** ** Proofs *)

Lemma nearest_err : forall n d p q, 0 < n -> 0 < d -> nearest n d = (p, q) -> 0 < q /\ 2 ^ 53 * Z.abs (p * d - n * q) <= n * q.
Proof.
  intros n d p q Hn Hd H. unfold nearest in H. replace (n =? 0) with false in H by lia. replace (n <? 0) with false in H by lia.
  unfold nearest_pos in H. destruct (round53 n d) as [m u] eqn:E. injection H as <- <-. split; [apply dn_pos|].
  destruct (round53_err n d m u Hn Hd E) as [B _]. replace (m * up u * d) with (m * (d * up u)) by ring. exact B.
Qed.

Lemma nearest_whole : forall n d p q, 0 < n < 2 ^ 52 -> 0 < d -> nearest (n * d) d = (p, q) -> p = n * q.
Proof.
  intros n d p q Hn Hd H. assert (Hnd : 0 < n * d) by nia. unfold nearest in H. replace (n * d =? 0) with false in H by lia. replace (n * d <? 0) with false in H by lia.
  unfold nearest_pos, round53 in H. injection H as Hp Hq.
  pose proof (ilog2_spec (n * d) d Hnd Hd) as [A B]. set (e := ilog2 (n * d) d) in *.
  assert (e <= 51).
  { destruct (Z.le_gt_cases e 51); [assumption|]. exfalso. unfold up, dn in A. replace (Z.max 0 e) with e in A by lia. replace (Z.max 0 (- e)) with 0 in A by lia.
    assert (2 ^ 52 <= 2 ^ e) by (apply Z.pow_le_mono_r; lia). change (2 ^ 0) with 1 in A. nia. }
  assert (U : up (e - 52) = 1) by (unfold up; replace (Z.max 0 (e - 52)) with 0 by lia; reflexivity).
  rewrite U, !Z.mul_1_r in Hp. rewrite (rne_div_near (n * d * dn (e - 52)) d (n * dn (e - 52)) Hd) in Hp; [subst; reflexivity|].
  replace (n * dn (e - 52) * d - n * d * dn (e - 52)) with 0 by ring. cbn. lia.
Qed.

Lemma clock_err : forall us p q, us < 2 ^ 32 * 1000000 -> 0 < q -> 2 ^ 53 * Z.abs (p * 1000000 - us * q) <= us * q -> 2097152 * Z.abs (p * 1000000 - us * q) < 1000000 * q.
Proof.
  intros us p q Hu Q E. assert (L : us * q < 2 ^ 32 * 1000000 * q) by (apply Z.mul_lt_mono_pos_r; assumption).
  change (2 ^ 53) with 9007199254740992 in E. change (2 ^ 32) with 4294967296 in L. set (a := us * q) in *. lia.
Qed.

(** the clock against whole seconds *)
Lemma timestamp_order : forall us n p q, 0 < us < 2 ^ 32 * 1000000 -> timestamp us = (p, q) ->
  0 < q /\ (n * 1000000 < us -> n * q < p) /\ (us < n * 1000000 -> p < n * q) /\ (us = n * 1000000 -> p = n * q).
Proof.
  intros us n p q Hu H. unfold timestamp in H. destruct (nearest_err us 1000000 p q ltac:(lia) ltac:(lia) H) as [Q E]. split; [exact Q|].
  assert (B : 2097152 * Z.abs (p * 1000000 - us * q) < 1000000 * q) by (apply (clock_err us); [lia|assumption|assumption]).
  split; [|split].
  - intros L. assert ((n * 1000000 + 1) * q <= us * q) by (apply Z.mul_le_mono_nonneg_r; lia).
    replace ((n * 1000000 + 1) * q) with (1000000 * (n * q) + q) in * by ring. set (a := n * q) in *. set (b := us * q) in *. lia.
  - intros L. assert ((us + 1) * q <= n * 1000000 * q) by (apply Z.mul_le_mono_nonneg_r; lia).
    replace ((us + 1) * q) with (us * q + q) in * by ring. replace (n * 1000000 * q) with (1000000 * (n * q)) in * by ring. set (a := n * q) in *. set (b := us * q) in *. lia.
  - intros ->. apply (nearest_whole n 1000000 p q); [lia|lia|exact H].
Qed.

(** the clock with the leeway against whole seconds *)
Lemma leeway_order : forall us k n p q, (k = 5 \/ k = -5) -> ordinary_clock us -> plus_seconds (timestamp us) k = (p, q) ->
  0 < q /\ (n * 1000000 < us + k * 1000000 -> n * q < p) /\ (us + k * 1000000 < n * 1000000 -> p < n * q) /\ (us + k * 1000000 = n * 1000000 -> p = n * q).
Proof.
  intros us k n p' q' Hk [Hl Hu] H. destruct (timestamp us) as [p q] eqn:T. unfold plus_seconds in H. cbn [fst snd] in H.
  destruct (timestamp_order us (n - k) p q ltac:(lia) T) as (Q & _ & _ & W).
  unfold timestamp in T. destruct (nearest_err us 1000000 p q ltac:(lia) ltac:(lia) T) as [_ E].
  assert (B : 2097152 * Z.abs (p * 1000000 - us * q) < 1000000 * q) by (apply (clock_err us); [lia|assumption|assumption]).
  assert (L1 : 10 * 1000000 * q <= us * q) by (apply Z.mul_le_mono_nonneg_r; lia).
  assert (L2 : us * q < 2 ^ 32 * 1000000 * q) by (apply Z.mul_lt_mono_pos_r; assumption).
  assert (S0 : 0 < p + k * q) by (set (b := us * q) in *; destruct Hk as [->| ->]; lia).
  assert (S1 : p + k * q < (2 ^ 32 + 6) * q) by (change (2 ^ 32) with 4294967296 in *; set (b := us * q) in *; destruct Hk as [->| ->]; lia).
  destruct (nearest_err _ _ _ _ S0 Q H) as [Q' E']. split; [exact Q'|].
  set (s := p + k * q) in *. set (X := q * q').
  assert (HX : 0 < X) by (unfold X; nia).
  assert (F : 2 ^ 53 * Z.abs (p' * q - s * q') < (2 ^ 32 + 6) * X).
  { eapply Z.le_lt_trans; [exact E'|]. unfold X. rewrite Z.mul_assoc. apply Z.mul_lt_mono_pos_r; assumption. }
  assert (B1 : 2097152 * (p * 1000000 - us * q) < 1000000 * q) by (set (b := us * q) in *; lia).
  assert (B2 : 2097152 * (us * q - p * 1000000) < 1000000 * q) by (set (b := us * q) in *; lia).
  assert (D1 : 2097152 * ((p * 1000000 - us * q) * q') < 1000000 * X) by (unfold X; rewrite !Z.mul_assoc; apply Z.mul_lt_mono_pos_r; assumption).
  assert (D2 : 2097152 * ((us * q - p * 1000000) * q') < 1000000 * X) by (unfold X; rewrite !Z.mul_assoc; apply Z.mul_lt_mono_pos_r; assumption).
  assert (Sq : s * 1000000 * q' = (p * 1000000 - us * q) * q' + (us + k * 1000000) * X) by (unfold s, X; ring).
  split; [|split].
  - intros L. destruct (Z.lt_ge_cases (n * q') p') as [?|G]; [assumption|exfalso].
    assert (p' * q <= n * X) by (unfold X; replace (n * (q * q')) with (n * q' * q) by ring; apply Z.mul_le_mono_nonneg_r; lia).
    assert ((n * 1000000 + 1) * X <= (us + k * 1000000) * X) by (apply Z.mul_le_mono_nonneg_r; lia).
    replace ((n * 1000000 + 1) * X) with (1000000 * (n * X) + X) in * by ring. set (y := (us + k * 1000000) * X) in *. set (z := n * X) in *.
    change (2 ^ 53) with 9007199254740992 in F. change (2 ^ 32) with 4294967296 in F.
    set (a := (p * 1000000 - us * q) * q') in *. set (b := s * q') in *. set (c := p' * q) in *. clearbody X.
    assert (s * 1000000 * q' = 1000000 * b) by (unfold b; ring).
    assert ((us * q - p * 1000000) * q' = - a) by (unfold a; ring). lia.
  - intros L. destruct (Z.lt_ge_cases p' (n * q')) as [?|G]; [assumption|exfalso].
    assert (n * X <= p' * q) by (unfold X; replace (n * (q * q')) with (n * q' * q) by ring; apply Z.mul_le_mono_nonneg_r; lia).
    assert ((us + k * 1000000 + 1) * X <= n * 1000000 * X) by (apply Z.mul_le_mono_nonneg_r; lia).
    replace ((us + k * 1000000 + 1) * X) with ((us + k * 1000000) * X + X) in * by ring. replace (n * 1000000 * X) with (1000000 * (n * X)) in * by ring.
    set (y := (us + k * 1000000) * X) in *. set (z := n * X) in *.
    change (2 ^ 53) with 9007199254740992 in F. change (2 ^ 32) with 4294967296 in F.
    set (a := (p * 1000000 - us * q) * q') in *. set (b := s * q') in *. set (c := p' * q) in *. clearbody X.
    assert (s * 1000000 * q' = 1000000 * b) by (unfold b; ring).
    assert ((us * q - p * 1000000) * q' = - a) by (unfold a; ring). lia.
  - intros L. assert (W' : p = (n - k) * q) by (apply W; lia). apply (nearest_whole n q p' q'); [|exact Q|].
    + split; [lia|]. change (2 ^ 32) with 4294967296 in Hu. change (2 ^ 52) with 4503599627370496. lia.
    + rewrite <- H. f_equal. unfold s. rewrite W'. ring.
Qed.

Lemma compare_of : forall a b c d : Z, (a < b -> c < d) -> (b < a -> d < c) -> (a = b -> c = d) -> Z.compare c d = Z.compare a b.
Proof.
  intros a b c d L G E. destruct (Z.compare_spec a b) as [H|H|H]; [apply Z.compare_eq_iff|apply Z.compare_lt_iff|apply Z.compare_gt_iff]; auto.
Qed.
Lemma compare_scaled : forall a b d, Z.compare (a * Zpos d) (b * Zpos d) = Z.compare a b.
Proof. intros a b d. apply compare_of; intros H; [apply Z.mul_lt_mono_pos_r; [reflexivity|exact H]..|subst; reflexivity]. Qed.

Lemma cmp_same : forall v now, ordinary_clock now -> no_fraction v -> cmp_double v (timestamp now) = cmp_now v now.
Proof.
  intros v now [Hl Hu] F. destruct (timestamp now) as [p q] eqn:T.
  assert (C : forall n, Z.compare (n * q) p = Z.compare (sec n) now).
  { intros n. destruct (timestamp_order now n p q ltac:(lia) T) as (_ & L & G & E). unfold sec. apply compare_of; intros H; [apply L, H|apply G, H|symmetry; apply E; congruence]. }
  destruct v as [|b|n|n d|k|s|l|l]; try reflexivity; cbn [cmp_double cmp_now fst snd].
  - replace (if b then q else 0) with ((if b then 1 else 0) * q) by (destruct b; lia). rewrite C. destruct b; reflexivity.
  - rewrite C. reflexivity.
  - destruct F as (k & ->). replace (k * Zpos d * q) with (k * q * Zpos d) by ring. replace (sec (k * Zpos d)) with (sec k * Zpos d) by (unfold sec; ring).
    rewrite !compare_scaled, C. reflexivity.
Qed.

Lemma period_same : forall nbf exp now, ordinary_clock now -> (forall v, nbf = Some v -> no_fraction v) -> no_fraction exp ->
  in_validity_period_f nbf exp now = in_validity_period nbf exp now.
Proof.
  intros nbf exp now O F Fe. unfold in_validity_period_f, in_validity_period, claim_le_double, double_lt_claim, claim_le_now, now_lt_claim. cbv zeta.
  rewrite (cmp_same exp now O Fe). destruct nbf as [v|]; [|reflexivity]. rewrite (cmp_same v now O (F v eq_refl)). reflexivity.
Qed.

(** The checks of a token give the same result as with an exact clock. *)
Theorem C117_token_period : forall t now, ordinary_clock now -> (forall v, it_nbf t = Some v -> no_fraction v) -> no_fraction (it_exp t) ->
  token_in_validity_period_f t now = token_in_validity_period t now.
Proof. intros t now O F Fe. apply period_same; assumption. Qed.

Lemma decode_same : forall env je raw client now, ordinary_clock now -> jwt_decode_f env je raw client now = jwt_decode env je raw client now.
Proof.
  intros env je raw client now O. unfold jwt_decode_f, jwt_decode. destruct (j_payload je raw) as [c|e]; [|reflexivity]. cbn [bind].
  assert (I : jwt_iat_ok_f env c now = jwt_iat_ok env c now).
  { unfold jwt_iat_ok_f, jwt_iat_ok. destruct (assoc str_eqb (s2l "iat") c) as [v|]; [|reflexivity]. destruct (json_int env v) as [n|]; [|reflexivity].
    destruct (plus_seconds (timestamp now) 5) as [p q] eqn:T. destruct (leeway_order now 5 n p q (or_introl eq_refl) O T) as (_ & L & G & E). cbv zeta. cbn [fst snd].
    unfold sec. destruct (Z.lt_trichotomy (n * 1000000) (now + 5 * 1000000)) as [H|[H|H]].
    - rewrite (proj2 (Z.leb_le _ _) (Z.lt_le_incl _ _ (L H))). symmetry. apply Z.leb_le. lia.
    - symmetry in H. rewrite (E H). rewrite Z.leb_refl. symmetry. apply Z.leb_le. lia.
    - rewrite (proj2 (Z.leb_gt _ _) (G H)). symmetry. apply Z.leb_gt. exact H. }
  assert (X : jwt_exp_ok_f env c now = jwt_exp_ok env c now).
  { unfold jwt_exp_ok_f, jwt_exp_ok. destruct (assoc str_eqb (s2l "exp") c) as [v|]; [|reflexivity]. destruct (json_int env v) as [n|]; [|reflexivity].
    destruct (plus_seconds (timestamp now) (-5)) as [p q] eqn:T. destruct (leeway_order now (-5) n p q (or_intror eq_refl) O T) as (_ & L & G & E). cbv zeta. cbn [fst snd].
    unfold sec. destruct (Z.lt_trichotomy (n * 1000000) (now + -5 * 1000000)) as [H|[H|H]].
    - rewrite (proj2 (Z.ltb_ge _ _) (Z.lt_le_incl _ _ (L H))). symmetry. apply Z.ltb_ge. lia.
    - symmetry in H. rewrite (E H). rewrite Z.ltb_irrefl. symmetry. apply Z.ltb_ge. lia.
    - rewrite (proj2 (Z.ltb_lt _ _) (G H)). symmetry. apply Z.ltb_lt. lia. }
  rewrite I, X. reflexivity.
Qed.

Theorem C117_same_token : forall env je raw client now1 now2, ordinary_clock now1 -> ordinary_clock now2 ->
  (forall c v, j_payload je raw = Ok c -> claim c "nbf" = Some v \/ claim c "exp" = Some v -> no_fraction v) ->
  make_identity_token_f env je raw client now1 now2 = make_identity_token env je raw client now1 now2.
Proof.
  intros env je raw client now1 now2 O1 O2 F. unfold make_identity_token_f, make_identity_token. rewrite (decode_same env je raw client now1 O1).
  destruct (jwt_decode env je raw client now1) as [c|e] eqn:J; [|reflexivity]. cbn [try_except bind].
  destruct (get_item (s2l "iss") c) as [iss|e]; [|reflexivity]. cbn [bind]. destruct (get_item (s2l "exp") c) as [exp|e] eqn:X; [|reflexivity]. cbn [bind].
  assert (P : j_payload je raw = Ok c).
  { unfold jwt_decode in J. destruct (j_payload je raw) as [c'|]; [|discriminate]. cbn [bind] in J. destruct (raise_if _ _); [|discriminate]. cbn [bind] in J. congruence. }
  rewrite (period_same (get_claim (s2l "nbf") c) exp now2 O2); [reflexivity| |].
  - intros v G. apply get_claim_iff in G. apply (F c v P). left. apply G.
  - apply (F c exp P). right. unfold get_item in X. unfold claim. destruct (assoc str_eqb (s2l "exp") c); congruence.
Qed.

(** Claims with a fraction are compared with an error of less than a microsecond ... *)
Lemma fraction_near : forall v now, ordinary_clock now ->
  (claim_le_double v (timestamp now) = Ok true -> not_after v (now + 1)) /\ (not_after v (now - 1) -> claim_le_double v (timestamp now) = Ok true) /\
  (double_lt_claim v (timestamp now) = Ok true -> after v (now - 1)) /\ (after v (now + 1) -> double_lt_claim v (timestamp now) = Ok true).
Proof.
  intros v now [Hl Hu]. destruct (timestamp now) as [p q] eqn:T. pose proof T as T'.
  destruct (nearest_err now 1000000 p q ltac:(lia) ltac:(lia) T) as [Q E]. pose proof (clock_err now p q ltac:(lia) Q E) as B. clear E.
  assert (C : forall n d, (n * q <= p * Zpos d -> n * 1000000 <= (now + 1) * Zpos d) /\ (n * 1000000 <= (now - 1) * Zpos d -> n * q <= p * Zpos d) /\
    (p * Zpos d < n * q -> (now - 1) * Zpos d < n * 1000000) /\ ((now + 1) * Zpos d < n * 1000000 -> p * Zpos d < n * q)).
  { intros n d. set (e := Zpos d). assert (He : 0 < e) by reflexivity.
    assert (B1 : p * 1000000 < now * q + q) by (set (b := now * q) in *; lia). assert (B2 : now * q - q < p * 1000000) by (set (b := now * q) in *; lia).
    assert (B1' : p * 1000000 * e < (now * q + q) * e) by (apply Z.mul_lt_mono_pos_r; assumption).
    assert (B2' : (now * q - q) * e < p * 1000000 * e) by (apply Z.mul_lt_mono_pos_r; assumption).
    replace (p * 1000000 * e) with (1000000 * (p * e)) in * by ring. replace ((now * q + q) * e) with ((now + 1) * e * q) in * by ring.
    replace ((now * q - q) * e) with ((now - 1) * e * q) in * by ring. clearbody e.
    repeat split; intros H.
    - apply (Z.mul_le_mono_pos_r _ _ q Q). replace (n * 1000000 * q) with (1000000 * (n * q)) by ring. lia.
    - apply (Z.mul_le_mono_pos_r _ _ q Q) in H. replace (n * 1000000 * q) with (1000000 * (n * q)) in H by ring. lia.
    - apply (Z.mul_lt_mono_pos_r q); [exact Q|]. replace (n * 1000000 * q) with (1000000 * (n * q)) by ring. lia.
    - apply (Z.mul_lt_mono_pos_r q _ _ Q) in H. replace (n * 1000000 * q) with (1000000 * (n * q)) in H by ring. lia. }
  unfold claim_le_double, double_lt_claim.
  assert (R : forall a b, (match of_comparison (Z.compare a b) with Lt' | Eq' => true | _ => false end = true <-> a <= b) /\ (match of_comparison (Z.compare a b) with Gt' => true | _ => false end = true <-> b < a)).
  { intros a b. destruct (Z.compare_spec a b); cbn; split; split; intros; try reflexivity; try discriminate; lia. }
  assert (D : forall n d a b, a = n * q -> b = p * Zpos d ->
    (Ok (match of_comparison (Z.compare a b) with Lt' | Eq' => true | _ => false end) = Ok true -> n * 1000000 <= (now + 1) * Zpos d) /\
    (n * 1000000 <= (now - 1) * Zpos d -> Ok (match of_comparison (Z.compare a b) with Lt' | Eq' => true | _ => false end) = Ok true) /\
    (Ok (match of_comparison (Z.compare a b) with Gt' => true | _ => false end) = Ok true -> (now - 1) * Zpos d < n * 1000000) /\
    ((now + 1) * Zpos d < n * 1000000 -> Ok (match of_comparison (Z.compare a b) with Gt' => true | _ => false end) = Ok true)).
  { intros n d a b -> ->. destruct (C n d) as (C1 & C2 & C3 & C4). destruct (R (n * q) (p * Zpos d)) as [R1 R2]. repeat split; intros H.
    - injection H as H. apply C1, R1, H.
    - f_equal. apply R1, C2, H.
    - injection H as H. apply C3, R2, H.
    - f_equal. apply R2, C4, H. }
  destruct v as [|b|n|n d|k|s|l|l]; cbn [cmp_double not_after after fst snd]; try (repeat split; (discriminate || intros []); fail).
  - destruct (D (if b then 1 else 0) 1%positive (if b then q else 0) p) as (D1 & D2 & D3 & D4); [destruct b; lia|lia|]. destruct b; repeat split; intros H.
    all: try (apply D1 in H; lia). all: try (apply D3 in H; lia). all: try (apply D2; lia). all: apply D4; lia.
  - destruct (D n 1%positive (n * q) p) as (D1 & D2 & D3 & D4); [reflexivity|lia|]. repeat split; intros H.
    + apply D1 in H. lia.
    + apply D2. lia.
    + apply D3 in H. lia.
    + apply D4. lia.
  - apply (D n d); reflexivity.
  - destruct k as [|[|k]]; cbn; repeat split; try discriminate; try (intros []; fail); auto.
Qed.
Theorem C117_within_a_microsecond : forall t now, ordinary_clock now ->
  (token_in_validity_period_f t now = Ok true -> (forall v, it_nbf t = Some v -> not_after v (now + 1)) /\ after (it_exp t) (now - 1)) /\
  ((forall v, it_nbf t = Some v -> not_after v (now - 1)) /\ after (it_exp t) (now + 1) -> token_in_validity_period_f t now = Ok true).
Proof.
  intros t now O. unfold token_in_validity_period_f, in_validity_period_f. cbv zeta. destruct (fraction_near (it_exp t) now O) as (_ & _ & X1 & X2). destruct (it_nbf t) as [n|].
  - destruct (fraction_near n now O) as (N1 & N2 & _). split.
    + intros H. destruct (claim_le_double n (timestamp now)) as [[]|e]; cbn [bind] in H; [|discriminate..]. split; [|exact (X1 H)]. intros v E. injection E as <-. apply N1. reflexivity.
    + intros [F A]. rewrite (N2 (F n eq_refl)). cbn [bind]. exact (X2 A).
  - split; [intros H; split; [discriminate|exact (X1 H)]|]. intros [_ A]. exact (X2 A).
Qed.

(** ... and then the result can differ from the exact one. *)
Theorem C117_fractions_exact_refuted : exists n d now, ordinary_clock now /\
  in_validity_period_f (Some (JFloat n d)) (JInt 1800000000) now = Ok true /\ in_validity_period (Some (JFloat n d)) (JInt 1800000000) now = Ok false.
Proof.
  exists 7130316800000013, 4194304%positive, 1700000000000003. split; [unfold ordinary_clock; cbn; lia|]. split; vm_compute; reflexivity.
Qed.

(** ** Examples *)
(** issued now, valid from a second ago, for ten minutes; one second before the end, at the end and five seconds before its issue *)
Definition tfx (now : Z) : res IdentityToken :=
  make_identity_token_f ox_env (ox_je [(s2l "iss", JStr (s2l "https://x")); (s2l "aud", JStr (s2l "sigstore")); (s2l "sub", JStr (s2l "me"));
    (s2l "iat", JInt 1700000000); (s2l "exp", JFloat 3400001200 2); (s2l "nbf", JInt 1699999999)]) (s2l "t") DEFAULT_CLIENT_ID now now.
Example ex_float_token : (exists t, tfx 1700000599999999 = Ok t) /\ tfx 1700000600000000 = Raise EIdentity /\ tfx 1699999994999999 = Raise EIdentity.
Proof. split; [eexists|split]; vm_compute; reflexivity. Qed.
Example ex_float_clock : ordinary_clock 1700000599999999 /\ no_fraction (JFloat 3400001200 2).
Proof. split; [unfold ordinary_clock; cbn; lia|exists 1700000600; reflexivity]. Qed.

Print Assumptions C117_same_token.
Print Assumptions C117_token_period.
Print Assumptions C117_within_a_microsecond.
Print Assumptions C117_fractions_exact_refuted.
