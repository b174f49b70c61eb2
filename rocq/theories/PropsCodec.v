(** Property C67: the text encodings whose outputs are compared. *)
From Verif Require Import Base Codec.
From Coq Require Import ZifyN ZifyNat ZifyBool.
Ltac Zify.zify_post_hook ::= Z.div_mod_to_equations.

(** ** Specification *)

(** the [n] lowest bits of a number, highest first *)
Fixpoint bits (n : nat) (v : N) : list bool :=
  match n with O => nil | S k => N.testbit v (N.of_nat k) :: bits k v end.
Definition bits_of_bytes (b : bytes) : list bool := flat_map (fun x => bits 8 (b2n x)) b.

(** RFC 4648, section 4: the bits, filled up with zeros and read in groups of six, as letters of the
    alphabet; then [=] to a multiple of four *)
Definition ALPHABET : str := s2l "ABCDEFGHIJKLMNOPQRSTUVWXYZabcdefghijklmnopqrstuvwxyz0123456789+/".
Definition letter (v : N) : N := nth (N.to_nat v) ALPHABET 0%N.
Definition base64 (b : bytes) (s : str) : Prop :=
  exists groups zeros pads,
    flat_map (bits 6) groups = bits_of_bytes b ++ repeat false zeros /\ zeros < 6 /\ (forall v, In v groups -> (v < 64)%N) /\
    s = map letter groups ++ repeat 61%N pads /\ pads < 4 /\ exists k, length s = 4 * k.
(** section 8, in lower case *)
Definition digit (v : N) : N := nth (N.to_nat v) (s2l "0123456789abcdef") 0%N.
Definition base16 (b : bytes) (s : str) : Prop := s = flat_map (fun x => [digit (b2n x / 16); digit (b2n x mod 16)]) b.
(** RFC 3629: the characters of Unicode that are not surrogates, in one to four bytes with the bits of the character; the
    number of bytes is the least possible *)
Definition utf8_bytes (c : N) (p : bytes) : Prop :=
  (c < 0xD800 \/ 0xE000 <= c <= 0x10FFFF)%N /\
  (((c < 0x80)%N /\ bits_of_bytes p = [false] ++ bits 7 c) \/
   ((0x80 <= c < 0x800)%N /\ bits_of_bytes p = [true; true; false] ++ bits 5 (c / 64) ++ [true; false] ++ bits 6 c) \/
   ((0x800 <= c < 0x10000)%N /\ bits_of_bytes p = [true; true; true; false] ++ bits 4 (c / 4096) ++ [true; false] ++ bits 6 (c / 64) ++ [true; false] ++ bits 6 c) \/
   ((0x10000 <= c)%N /\ bits_of_bytes p = [true; true; true; true; false] ++ bits 3 (c / 262144) ++ [true; false] ++ bits 6 (c / 4096) ++
      [true; false] ++ bits 6 (c / 64) ++ [true; false] ++ bits 6 c)).
Definition utf8_text (s : str) (b : bytes) : Prop := exists parts, Forall2 utf8_bytes s parts /\ b = concat parts.
(** RFC 7468: the base64 text in lines of 64 characters, the last may be shorter *)
Definition certificate_text (der : bytes) (s : str) : Prop :=
  exists lines last text, base64 der text /\ text = concat lines ++ last /\ (forall l, In l lines -> length l = 64) /\ length last < 64 /\
    s = s2l "-----BEGIN CERTIFICATE-----" ++ [10%N] ++ flat_map (fun l => l ++ [10%N]) lines ++
        (match last with nil => nil | _ => last ++ [10%N] end) ++ s2l "-----END CERTIFICATE-----" ++ [10%N].

(** ** Bits *)

Lemma bits_length : forall n v, length (bits n v) = n.
Proof. induction n; intros v; cbn; [reflexivity|]. rewrite IHn. reflexivity. Qed.
Lemma bits_low : forall n m v, n <= m -> bits n (v mod 2 ^ N.of_nat m) = bits n v.
Proof.
  induction n as [|n IH]; intros m v L; [reflexivity|]. cbn [bits]. rewrite IH by lia. f_equal. apply N.mod_pow2_bits_low. lia.
Qed.
Lemma bits_app : forall m n v, bits (m + n) v = bits m (v / 2 ^ N.of_nat n) ++ bits n v.
Proof.
  induction m as [|m IH]; intros n v; [reflexivity|]. cbn [bits plus app]. rewrite IH. f_equal. rewrite N.div_pow2_bits. f_equal. lia.
Qed.
Lemma bits_inj : forall n u v, (u < 2 ^ N.of_nat n)%N -> (v < 2 ^ N.of_nat n)%N -> bits n u = bits n v -> u = v.
Proof.
  induction n as [|n IH]; intros u v Hu Hv E; [cbn in *; lia|]. cbn [bits] in E. injection E as Eb El.
  rewrite Nat2N.inj_succ, N.pow_succ_r' in Hu, Hv. set (p := (2 ^ N.of_nat n)%N) in *. assert (P0 : (p <> 0)%N) by (apply N.pow_nonzero; lia).
  assert (M : (u mod p = v mod p)%N). { apply IH; try (apply N.mod_lt; assumption). unfold p. rewrite !bits_low by lia. assumption. }
  assert (T : forall x, (x < 2 * p)%N -> N.testbit x (N.of_nat n) = (p <=? x)%N).
  { intros x Hx. rewrite N.testbit_eqb. fold p. destruct (p <=? x)%N eqn:Q.
    - apply N.leb_le in Q. assert (D : (x / p = 1)%N) by (symmetry; apply (N.div_unique x p 1 (x - p)); lia). rewrite D. reflexivity.
    - apply N.leb_gt in Q. rewrite N.div_small by assumption. reflexivity. }
  rewrite (T u Hu), (T v Hv) in Eb. rewrite (N.div_mod u p P0), (N.div_mod v p P0), M. f_equal. f_equal.
  destruct (p <=? u)%N eqn:Q.
  - symmetry in Eb. apply N.leb_le in Q, Eb. transitivity 1%N; [symmetry|]; [apply (N.div_unique u p 1 (u - p)); lia|apply (N.div_unique v p 1 (v - p)); lia].
  - symmetry in Eb. apply N.leb_gt in Q, Eb. rewrite !N.div_small by assumption. reflexivity.
Qed.
Lemma flat_bits_length : forall A (f : A -> N) n l, length (flat_map (fun x => bits n (f x)) l) = n * length l.
Proof. induction l as [|x l IH]; cbn [flat_map length]; [lia|]. rewrite app_length, bits_length, IH. lia. Qed.
Lemma app_eq_length : forall A (a b c d : list A), length a = length b -> a ++ c = b ++ d -> a = b /\ c = d.
Proof.
  induction a as [|x a IH]; intros [|y b] c d L E; try discriminate; [auto|]. cbn in E, L. injection E as -> E. destruct (IH b c d) as [-> ->]; auto.
Qed.
Lemma flat_bits_inj : forall A (f : A -> N) n, (forall x y, f x = f y -> x = y) -> forall l m,
  length l = length m -> (forall x, In x l -> f x < 2 ^ N.of_nat n)%N -> (forall x, In x m -> f x < 2 ^ N.of_nat n)%N ->
  flat_map (fun x => bits n (f x)) l = flat_map (fun x => bits n (f x)) m -> l = m.
Proof.
  intros A f n Inj. induction l as [|x l IH]; intros [|y m] L Bl Bm E; try discriminate; [reflexivity|]. cbn [flat_map] in E.
  apply app_eq_length in E; [|rewrite !bits_length; reflexivity]. destruct E as [E1 E2]. f_equal.
  - apply Inj. apply (bits_inj n); [apply Bl; left; reflexivity|apply Bm; left; reflexivity|assumption].
  - apply IH; [cbn in L; lia|intros; apply Bl; right; assumption|intros; apply Bm; right; assumption|assumption].
Qed.

(** ** Base64 *)

Lemma letter_char : forall n, (n < 64)%N -> letter n = b64_char n.
Proof.
  intros n H. assert (A : forallb (fun k => (letter (N.of_nat k) =? b64_char (N.of_nat k))%N) (seq 0 64) = true) by (vm_compute; reflexivity).
  rewrite forallb_forall in A. specialize (A (N.to_nat n)). rewrite N2Nat.id in A. apply N.eqb_eq, A, in_seq. lia.
Qed.
Lemma split_bits : forall m n h l, (l < 2 ^ N.of_nat n)%N -> bits (m + n) (h * 2 ^ N.of_nat n + l) = bits m h ++ bits n l.
Proof.
  intros m n h l H. rewrite bits_app. set (p := (2 ^ N.of_nat n)%N) in *. assert (P0 : (p <> 0)%N) by (apply N.pow_nonzero; lia).
  assert (D : ((h * p + l) / p = h)%N) by (symmetry; apply (N.div_unique _ p h l); lia).
  assert (M : ((h * p + l) mod p = l)%N) by (symmetry; apply (N.mod_unique _ p h l); lia).
  rewrite D. f_equal. rewrite <- (bits_low n n (h * p + l)) by lia. fold p. rewrite M. reflexivity.
Qed.
Lemma bits6_2_4 : forall h l, (h < 4)%N -> (l < 16)%N -> bits 6 (h * 16 + l) = bits 2 h ++ bits 4 l.
Proof. intros h l _ L. exact (split_bits 2 4 h l L). Qed.
Lemma bits6_4_2 : forall h l, (l < 4)%N -> bits 6 (h * 4 + l) = bits 4 h ++ bits 2 l.
Proof. intros h l L. exact (split_bits 4 2 h l L). Qed.
Lemma bits8_6_2 : forall a, bits 8 a = bits 6 (a / 4) ++ bits 2 (a mod 4).
Proof. intros a. change 8 with (6 + 2). rewrite (bits_app 6 2 a). f_equal. symmetry. exact (bits_low 2 2 a (le_n 2)). Qed.
Lemma bits8_4_4 : forall a, bits 8 a = bits 4 (a / 16) ++ bits 4 (a mod 16).
Proof. intros a. change 8 with (4 + 4). rewrite (bits_app 4 4 a). f_equal. symmetry. exact (bits_low 4 4 a (le_n 4)). Qed.
Lemma bits8_2_6 : forall a, bits 8 a = bits 2 (a / 64) ++ bits 6 (a mod 64).
Proof. intros a. change 8 with (2 + 6). rewrite (bits_app 2 6 a). f_equal. symmetry. exact (bits_low 6 6 a (le_n 6)). Qed.

Lemma b64encode_is_base64 : forall b, base64 b (b64encode b).
Proof.
  apply list3_ind.
  - exists nil, 0, 0. split; [reflexivity|]. split; [lia|]. split; [intros v []|]. split; [reflexivity|]. split; [lia|]. exists 0. reflexivity.
  - intros x. pose proof (b2n_lt x) as X. set (a := b2n x) in *.
    exists [(a / 4)%N; (a mod 4 * 16 + 0)%N], 4, 2. split; [|split; [lia|split; [|split; [|split; [lia|exists 1; reflexivity]]]]].
    + cbn [flat_map]. unfold bits_of_bytes. cbn [flat_map]. rewrite !app_nil_r. fold a. rewrite bits6_2_4 by lia. rewrite (bits8_6_2 a).
      change (bits 4 0) with (repeat false 4). rewrite <- app_assoc. reflexivity.
    + intros v [<-|[<-|[]]]; lia.
    + cbn [b64encode map repeat app]. fold a. rewrite !letter_char by lia. rewrite N.add_0_r. reflexivity.
  - intros x y. pose proof (b2n_lt x) as X. pose proof (b2n_lt y) as Y. set (a := b2n x) in *. set (c := b2n y) in *.
    exists [(a / 4)%N; (a mod 4 * 16 + c / 16)%N; (c mod 16 * 4 + 0)%N], 2, 1. split; [|split; [lia|split; [|split; [|split; [lia|exists 1; reflexivity]]]]].
    + cbn [flat_map]. unfold bits_of_bytes. cbn [flat_map]. rewrite !app_nil_r. fold a c.
      rewrite bits6_2_4, bits6_4_2 by lia. rewrite (bits8_6_2 a), (bits8_4_4 c). change (bits 2 0) with (repeat false 2). rewrite <- !app_assoc. reflexivity.
    + intros v [<-|[<-|[<-|[]]]]; lia.
    + cbn [b64encode map repeat app]. fold a c. rewrite !letter_char by lia. rewrite N.add_0_r. reflexivity.
  - intros x y z r (g & zeros & pads & E & Z6 & B & T & P4 & k & L). pose proof (b2n_lt x) as X. pose proof (b2n_lt y) as Y. pose proof (b2n_lt z) as Zl.
    set (a := b2n x) in *. set (c := b2n y) in *. set (d := b2n z) in *.
    exists ([(a / 4)%N; (a mod 4 * 16 + c / 16)%N; (c mod 16 * 4 + d / 64)%N; (d mod 64)%N] ++ g), zeros, pads.
    split; [|split; [lia|split; [|split; [|split; [lia|]]]]].
    + rewrite flat_map_app. rewrite E. cbn [flat_map]. unfold bits_of_bytes. cbn [flat_map]. rewrite !app_nil_r. fold a c d.
      rewrite bits6_2_4, bits6_4_2 by lia. rewrite (bits8_6_2 a), (bits8_4_4 c), (bits8_2_6 d). rewrite <- !app_assoc. reflexivity.
    + intros v I. apply in_app_or in I. destruct I as [[<-|[<-|[<-|[<-|[]]]]]|I]; [lia|lia|lia|lia|auto].
    + cbn [b64encode map app]. fold a c d. rewrite !letter_char by lia. rewrite T. reflexivity.
    + exists (S k). cbn [b64encode length]. rewrite L. lia.
Qed.
Lemma bits_of_bytes_length : forall b, length (bits_of_bytes b) = 8 * length b.
Proof. intros b. apply (flat_bits_length _ b2n 8). Qed.
Lemma letter_not_pad : forall v, (v < 64)%N -> letter v <> 61%N.
Proof. intros v H. rewrite letter_char by assumption. apply N.eqb_neq, b64_char_not_pad. assumption. Qed.
Lemma letter_inj : forall u v, (u < 64)%N -> (v < 64)%N -> letter u = letter v -> u = v.
Proof.
  intros u v U V E. rewrite !letter_char in E by assumption. apply (f_equal b64_value) in E. rewrite !b64_char_value in E by assumption. congruence.
Qed.
Lemma group_length : forall g b zeros, flat_map (bits 6) g = bits_of_bytes b ++ repeat false zeros -> 6 * length g = 8 * length b + zeros.
Proof.
  intros g b zeros E. apply (f_equal (@List.length bool)) in E. rewrite app_length, bits_of_bytes_length, repeat_length in E.
  pose proof (flat_bits_length _ (fun x => x) 6 g) as Q. change (length (flat_map (bits 6) g) = 6 * length g) in Q. congruence.
Qed.
Lemma base64_unique : forall b s t, base64 b s -> base64 b t -> s = t.
Proof.
  intros b s t (g & z & p & E & Z6 & B & T & P4 & k & L) (g' & z' & p' & E' & Z6' & B' & T' & P4' & k' & L').
  pose proof (group_length _ _ _ E) as G. pose proof (group_length _ _ _ E') as G'.
  assert (z = z') by lia. subst z'. assert (Gl : length g = length g') by lia.
  assert (g = g'). { apply (flat_bits_inj _ (fun x => x) 6); auto. change (flat_map (bits 6) g = flat_map (bits 6) g'). congruence. }
  subst g'. assert (p = p'). { rewrite T, app_length, map_length, repeat_length in L. rewrite T', app_length, map_length, repeat_length in L'. lia. }
  congruence.
Qed.
Lemma split_pads : forall l m p q, (forall x, In x l -> x <> 61%N) -> (forall x, In x m -> x <> 61%N) ->
  l ++ repeat 61%N p = m ++ repeat 61%N q -> l = m.
Proof.
  induction l as [|x l IH]; intros [|y m] p q Nl Nm E; [reflexivity| | |].
  - destruct p; [discriminate|]. cbn in E. injection E as <- _. exfalso. apply (Nm 61%N); [left; reflexivity|reflexivity].
  - destruct q; [discriminate|]. cbn in E. injection E as -> _. exfalso. apply (Nl 61%N); [left; reflexivity|reflexivity].
  - cbn in E. injection E as -> E. f_equal. eapply IH; [| |exact E]; intros; [apply Nl|apply Nm]; right; assumption.
Qed.
Lemma map_letter_inj : forall g h, (forall v, In v g -> v < 64)%N -> (forall v, In v h -> v < 64)%N -> map letter g = map letter h -> g = h.
Proof.
  induction g as [|x g IH]; intros [|y h] Bg Bh E; try discriminate; [reflexivity|]. cbn in E. injection E as E1 E2. f_equal.
  - apply letter_inj; [apply Bg; left; reflexivity|apply Bh; left; reflexivity|assumption].
  - apply IH; [intros; apply Bg; right; assumption|intros; apply Bh; right; assumption|assumption].
Qed.
Lemma base64_lossless : forall b c s, base64 b s -> base64 c s -> b = c.
Proof.
  intros b c s (g & z & p & E & Z6 & B & T & P4 & k & L) (g' & z' & p' & E' & Z6' & B' & T' & P4' & k' & L').
  assert (g = g').
  { apply map_letter_inj; auto. eapply split_pads; [| |rewrite <- T, <- T'; reflexivity];
      intros x I; apply in_map_iff in I; destruct I as (v & <- & I); apply letter_not_pad; auto. }
  subst g'. pose proof (group_length _ _ _ E) as G. pose proof (group_length _ _ _ E') as G'.
  assert (Lb : length b = length c) by lia. apply (flat_bits_inj _ b2n 8); auto using b2n_inj.
  - intros x _. apply b2n_lt.
  - intros x _. apply b2n_lt.
  - assert (Q : bits_of_bytes b ++ repeat false z = bits_of_bytes c ++ repeat false z') by congruence.
    apply app_eq_length in Q; [|rewrite !bits_of_bytes_length; lia]. destruct Q as [Q _]. exact Q.
Qed.

(** What the code writes as base64 is that and is read back; the encoding loses nothing. *)
Theorem C67_base64 : forall b,
  (forall s, s = b64encode b <-> base64 b s) /\ b64decode (b64encode b) = Ok b /\
  forall c, b64encode c = b64encode b -> c = b.
Proof.
  intros b. split; [|split; [apply b64decode_b64encode|intros c; apply b64encode_inj]].
  intros s. split; [intros ->; apply b64encode_is_base64|]. intros H. eapply base64_unique; [exact H|apply b64encode_is_base64].
Qed.
(** Any reader of base64 that follows the RFC gives the same bytes. *)
Theorem C67_base64_read : forall s b, base64 b s -> b64decode s = Ok b.
Proof.
  intros s b H. assert (s = b64encode b) by (eapply base64_unique; [exact H|apply b64encode_is_base64]). subst. apply b64decode_b64encode.
Qed.

(** ** Hexadecimal *)

Lemma hex_is_base16 : forall b, base16 b (hex b).
Proof.
  assert (D : forall n, (n < 16)%N -> digit n = hex_digit n).
  { intros n H. assert (A : forallb (fun k => (digit (N.of_nat k) =? hex_digit (N.of_nat k))%N) (seq 0 16) = true) by (vm_compute; reflexivity).
    rewrite forallb_forall in A. specialize (A (N.to_nat n)). rewrite N2Nat.id in A. apply N.eqb_eq, A, in_seq. lia. }
  unfold base16. induction b as [|x b IH]; [reflexivity|]. cbn [hex flat_map app]. pose proof (b2n_lt x). rewrite !D by lia. rewrite <- IH. reflexivity.
Qed.
Theorem C67_hex : forall b,
  (forall s, s = hex b <-> base16 b s) /\ fromhex (hex b) = Some b /\ forall c, hex c = hex b -> c = b.
Proof.
  intros b. split; [|split; [apply fromhex_hex|intros c; apply hex_inj]]. intros s. rewrite (hex_is_base16 b). reflexivity.
Qed.

(** ** PEM *)

Lemma wrap_step : forall s col, col < 64 -> length s + col < 64 -> s <> nil -> wrap col s = s ++ [10%N].
Proof.
  induction s as [|c s IH]; intros col L B Ns; [contradiction|]. cbn [length] in B.
  assert (W : wrap col (c :: s) = c :: wrap (S col) s).
  { cbn [wrap]. do 63 (destruct col as [|col]; [reflexivity|]). exfalso. lia. }
  rewrite W. destruct s as [|d s]; [cbn [wrap app]; reflexivity|]. cbn [app]. f_equal. apply IH; cbn [length] in *; try lia. discriminate.
Qed.
Lemma wrap_line : forall l s col, col < 64 -> length l + col = 64 -> wrap col (l ++ s) = l ++ [10%N] ++ wrap 0 s.
Proof.
  induction l as [|c l IH]; intros s col L B; [cbn [length] in B; lia|]. cbn [length app] in *. destruct (Nat.eq_dec col 63) as [->|Nc].
  - assert (l = nil) by (destruct l; [reflexivity|cbn in B; lia]). subst l. reflexivity.
  - assert (W : wrap col (c :: l ++ s) = c :: wrap (S col) (l ++ s)).
    { cbn [wrap]. do 63 (destruct col as [|col]; [reflexivity|]). exfalso. lia. }
    rewrite W. f_equal. apply IH; lia.
Qed.
Lemma wrap_lines : forall lines last, (forall l, In l lines -> length l = 64) -> length last < 64 ->
  wrap 0 (concat lines ++ last) = flat_map (fun l => l ++ [10%N]) lines ++ match last with nil => nil | _ => last ++ [10%N] end.
Proof.
  induction lines as [|l lines IH]; intros last L B.
  - cbn [concat flat_map app]. destruct last as [|c r]; [reflexivity|]. apply wrap_step; [lia|lia|discriminate].
  - cbn [concat flat_map]. rewrite <- !app_assoc. rewrite wrap_line; [|lia|rewrite (L l) by (left; reflexivity); lia].
    cbn [app]. rewrite IH; [reflexivity|intros; apply L; right; assumption|assumption].
Qed.
Lemma in_lines : forall n (s : str), length s <= n -> exists lines last, s = concat lines ++ last /\ (forall l, In l lines -> length l = 64) /\ length last < 64.
Proof.
  induction n as [|n IH]; intros s L.
  - exists nil, s. split; [reflexivity|]. split; [intros ? []|lia].
  - destruct (Nat.lt_ge_cases (length s) 64) as [B|B]; [exists nil, s; split; [reflexivity|split; [intros ? []|assumption]]|].
    destruct (IH (skipn 64 s)) as (lines & last & E & A & B'); [rewrite skipn_length; lia|].
    exists (firstn 64 s :: lines), last. split; [cbn [concat]; rewrite <- app_assoc, <- E; symmetry; apply firstn_skipn|].
    split; [|assumption]. intros l [<-|I]; [rewrite firstn_length; lia|auto].
Qed.

Theorem C67_pem : forall der,
  (forall s, s = pem_of_der der <-> certificate_text der s) /\ forall der', pem_of_der der' = pem_of_der der -> der' = der.
Proof.
  intros der. split; [|intros der'; apply pem_of_der_inj]. intros s. unfold certificate_text, pem_of_der, pem_head, pem_tail. split.
  - intros ->. destruct (in_lines _ (b64encode der) (le_n _)) as (lines & last & E & A & B).
    exists lines, last, (b64encode der). split; [apply b64encode_is_base64|]. split; [assumption|]. split; [assumption|]. split; [assumption|].
    rewrite E, wrap_lines by assumption. rewrite <- !app_assoc. reflexivity.
  - intros (lines & last & text & Bt & E & A & B & ->). assert (T : text = b64encode der) by (apply C67_base64; assumption).
    rewrite <- T, E, wrap_lines by assumption. rewrite <- !app_assoc. reflexivity.
Qed.

(** the text of a certificate in a log entry: base64 of the PEM (_utils.py:120-127 [base64_encode_pem_cert]) *)
Theorem C67_certificate_in_entry : forall der der',
  b64decode (b64encode (ascii_bytes (pem_of_der der))) = Ok (ascii_bytes (pem_of_der der)) /\
  (b64encode (ascii_bytes (pem_of_der der)) = b64encode (ascii_bytes (pem_of_der der')) -> der = der').
Proof.
  intros der der'. split; [apply b64decode_b64encode|]. intros H. apply b64encode_inj in H. apply ascii_bytes_inj in H; [|apply pem_ascii|apply pem_ascii].
  apply pem_of_der_inj. assumption.
Qed.

(** ** Text *)

Lemma bits_of_bytes_inj : forall p q, bits_of_bytes p = bits_of_bytes q -> p = q.
Proof.
  intros p q E. assert (L : length p = length q) by (pose proof (bits_of_bytes_length p); pose proof (bits_of_bytes_length q); rewrite E in *; lia).
  apply (flat_bits_inj byte b2n 8); try assumption; [|intros x _; apply b2n_lt|intros x _; apply b2n_lt].
  intros x y Q. rewrite <- (n2b_b2n x), <- (n2b_b2n y), Q. reflexivity.
Qed.
Lemma bits_mod6 : forall v, bits 6 (v mod 64) = bits 6 v.
Proof. intros v. exact (bits_low 6 6 v (le_n 6)). Qed.
Lemma utf8_char_bits : forall c, is_scalar c = true -> utf8_bytes c (utf8_char c).
Proof.
  intros c S. assert (Sc : (c < 0xD800 \/ 0xE000 <= c <= 0x10FFFF)%N) by (unfold is_scalar in S; lia). split; [exact Sc|]. unfold utf8_char.
  assert (C8 : forall v, (v < 64)%N -> bits 8 (128 + v) = [true; false] ++ bits 6 v) by (intros v V; exact (split_bits 2 6 2 v V)).
  destruct (c <? 128)%N eqn:E1; [|destruct (c <? 2048)%N eqn:E2; [|destruct (c <? 65536)%N eqn:E3]].
  - left. split; [lia|]. cbn [bits_of_bytes flat_map]. rewrite b2n_n2b by lia. rewrite app_nil_r. assert (V : (c < 2 ^ N.of_nat 7)%N) by (change (2 ^ N.of_nat 7)%N with 128%N; lia). exact (split_bits 1 7 0 c V).
  - right. left. split; [lia|]. cbn [bits_of_bytes flat_map]. rewrite !b2n_n2b by lia. rewrite app_nil_r, C8, bits_mod6 by lia.
    assert (V : (c / 64 < 2 ^ N.of_nat 5)%N) by (change (2 ^ N.of_nat 5)%N with 32%N; lia). rewrite (split_bits 3 5 6 _ V : bits 8 (192 + c / 64) = _). reflexivity.
  - right. right. left. split; [lia|]. cbn [bits_of_bytes flat_map]. rewrite !b2n_n2b by lia. rewrite app_nil_r, !C8, !bits_mod6 by lia.
    assert (V : (c / 4096 < 2 ^ N.of_nat 4)%N) by (change (2 ^ N.of_nat 4)%N with 16%N; lia). rewrite (split_bits 4 4 14 _ V : bits 8 (224 + c / 4096) = _). reflexivity.
  - right. right. right. split; [lia|]. cbn [bits_of_bytes flat_map]. rewrite !b2n_n2b by lia. rewrite app_nil_r, !C8, !bits_mod6 by lia.
    assert (V : (c / 262144 < 2 ^ N.of_nat 3)%N) by (change (2 ^ N.of_nat 3)%N with 8%N; lia). rewrite (split_bits 5 3 30 _ V : bits 8 (240 + c / 262144) = _). reflexivity.
Qed.
Lemma utf8_bytes_unique : forall c p q, utf8_bytes c p -> utf8_bytes c q -> p = q.
Proof.
  intros c p q [_ P] [_ Q]. apply bits_of_bytes_inj.
  destruct P as [[B ->]|[[B ->]|[[B ->]|[B ->]]]]; destruct Q as [[B' ->]|[[B' ->]|[[B' ->]|[B' ->]]]]; first [reflexivity|lia].
Qed.
Lemma utf8_scalar : forall c p, utf8_bytes c p -> is_scalar c = true.
Proof. intros c p [S _]. unfold is_scalar. lia. Qed.
Lemma utf8_encode_text : forall s b, utf8_encode s = Some b <-> utf8_text s b.
Proof.
  induction s as [|c s IH]; intros b; cbn [utf8_encode].
  - split; [intros [= <-]; exists nil; split; [constructor|reflexivity]|intros (parts & F & ->); inversion F; reflexivity].
  - split.
    + destruct (is_scalar c) eqn:S; [|discriminate]. destruct (utf8_encode s) as [t|] eqn:E; [|discriminate]. intros [= <-].
      destruct (proj1 (IH t) eq_refl) as (parts & F & ->). exists (utf8_char c :: parts). split; [constructor; [apply utf8_char_bits, S|exact F]|reflexivity].
    + intros (parts & F & ->). inversion F as [|x p xs ps Hp Hps]; subst. rewrite (utf8_scalar _ _ Hp).
      rewrite (proj2 (IH (concat ps))); [|exists ps; split; [exact Hps|reflexivity]]. cbn [concat]. f_equal. f_equal.
      eapply utf8_bytes_unique; [apply utf8_char_bits, (utf8_scalar _ _ Hp)|exact Hp].
Qed.
Lemma utf8_decode_only : forall n b s, length b <= n -> utf8_decode b = Some s -> utf8_encode s = Some b.
Proof.
  assert (Cont : forall x, is_cont x = true -> n2b (128 + (b2n x - 128)) = x /\ (128 <= b2n x < 192)%N).
  { intros x X. unfold is_cont in X. split; [|lia]. replace (128 + (b2n x - 128))%N with (b2n x) by lia. apply n2b_b2n. }
  assert (Mk : forall c s b t, is_scalar c = true -> utf8_encode s = Some b -> utf8_char c ++ b = t -> utf8_encode (c :: s) = Some t).
  { intros c s b t S E <-. cbn [utf8_encode]. rewrite S, E. reflexivity. }
  induction n as [|n IH]; intros b s L D.
  - destruct b; [|cbn in L; lia]. injection D as <-. reflexivity.
  - destruct b as [|x0 r0]; [injection D as <-; reflexivity|]. cbn [length] in L. cbn [utf8_decode] in D. pose proof (b2n_lt x0) as B0.
    destruct (b2n x0 <? 128)%N eqn:E0.
    { destruct (utf8_decode r0) as [t|] eqn:D0; [|discriminate]. injection D as <-. apply (Mk _ _ r0); [unfold is_scalar; lia|apply IH; [lia|exact D0]|].
      unfold utf8_char. rewrite E0, n2b_b2n. reflexivity. }
    destruct (b2n x0 <? 194)%N eqn:E1; [discriminate|]. destruct r0 as [|x1 r1]; [discriminate|]. cbn [length] in L.
    destruct (is_cont x1) eqn:C1; [|discriminate]. cbn [negb] in D. destruct (Cont _ C1) as [K1 B1].
    destruct (b2n x0 <? 224)%N eqn:E2.
    { destruct (utf8_decode r1) as [t|] eqn:D1; [|discriminate]. injection D as <-. apply (Mk _ _ r1); [unfold is_scalar; lia|apply IH; [lia|exact D1]|].
      set (c := ((b2n x0 - 192) * 64 + (b2n x1 - 128))%N). assert (R : (128 <= c < 2048)%N) by (unfold c; lia). unfold utf8_char.
      replace (c <? 128)%N with false by lia. replace (c <? 2048)%N with true by lia.
      replace (192 + c / 64)%N with (b2n x0) by (unfold c; lia). replace (c mod 64)%N with (b2n x1 - 128)%N by (unfold c; lia). rewrite n2b_b2n, K1. reflexivity. }
    destruct r1 as [|x2 r2]; [discriminate|]. cbn [length] in L. destruct (is_cont x2) eqn:C2; [|discriminate]. cbn [negb] in D. destruct (Cont _ C2) as [K2 B2].
    destruct (b2n x0 <? 240)%N eqn:E3.
    { cbv zeta in D. set (c := ((b2n x0 - 224) * 4096 + (b2n x1 - 128) * 64 + (b2n x2 - 128))%N) in *. destruct ((2048 <=? c)%N && is_scalar c) eqn:S; [|discriminate].
      apply andb_true_iff in S. destruct S as [S1 S2].
      destruct (utf8_decode r2) as [t|] eqn:D2; [|discriminate]. injection D as <-. apply (Mk _ _ r2); [exact S2|apply IH; [lia|exact D2]|].
      assert (R : (2048 <= c < 65536)%N) by (unfold c in *; lia). unfold utf8_char.
      replace (c <? 128)%N with false by lia. replace (c <? 2048)%N with false by lia. replace (c <? 65536)%N with true by lia.
      replace (224 + c / 4096)%N with (b2n x0) by (unfold c; lia). replace ((c / 64) mod 64)%N with (b2n x1 - 128)%N by (unfold c; lia).
      replace (c mod 64)%N with (b2n x2 - 128)%N by (unfold c; lia). rewrite n2b_b2n, K1, K2. reflexivity. }
    destruct r2 as [|x3 r3]; [discriminate|]. cbn [length] in L. destruct (is_cont x3) eqn:C3; [|discriminate]. cbn [negb] in D. destruct (Cont _ C3) as [K3 B3].
    cbv zeta in D. set (c := ((b2n x0 - 240) * 262144 + (b2n x1 - 128) * 4096 + (b2n x2 - 128) * 64 + (b2n x3 - 128))%N) in *. destruct ((65536 <=? c)%N && is_scalar c) eqn:S; [|discriminate].
    apply andb_true_iff in S. destruct S as [S1 S2].
    destruct (utf8_decode r3) as [t|] eqn:D3; [|discriminate]. injection D as <-. apply (Mk _ _ r3); [exact S2|apply IH; [lia|exact D3]|].
    assert (R : (65536 <= c < 1114112)%N) by (unfold is_scalar in S2; lia). unfold utf8_char.
    replace (c <? 128)%N with false by lia. replace (c <? 2048)%N with false by lia. replace (c <? 65536)%N with false by lia.
    replace (240 + c / 262144)%N with (b2n x0) by (unfold c; lia). replace ((c / 4096) mod 64)%N with (b2n x1 - 128)%N by (unfold c; lia).
    replace ((c / 64) mod 64)%N with (b2n x2 - 128)%N by (unfold c; lia). replace (c mod 64)%N with (b2n x3 - 128)%N by (unfold c; lia). rewrite n2b_b2n, K1, K2, K3. reflexivity.
Qed.
(** What is written and read as UTF-8 is that of the RFC, nothing else is read, and it loses nothing. *)
Theorem C67_utf8 : forall s b, (utf8_encode s = Some b <-> utf8_text s b) /\ (utf8_decode b = Some s <-> utf8_text s b) /\
  (forall t, utf8_text s b -> utf8_text t b -> t = s).
Proof.
  intros s b. split; [apply utf8_encode_text|]. split.
  - split; [intros D; apply utf8_encode_text, (utf8_decode_only _ _ _ (le_n _) D)|intros T; apply utf8_decode_encode, utf8_encode_text, T].
  - intros t S T. apply utf8_encode_text, utf8_decode_encode in S. apply utf8_encode_text, utf8_decode_encode in T. congruence.
Qed.

(** ** Examples, and what does not hold *)

Example ex_base64 : b64encode (s2b "Man") = s2l "TWFu" /\ b64encode (s2b "Ma") = s2l "TWE=" /\ b64encode (s2b "M") = s2l "TQ==" /\
  base64 (s2b "Ma") (s2l "TWE=") /\ ~ base64 (s2b "Ma") (s2l "TWF=").
Proof.
  split; [reflexivity|]. split; [reflexivity|]. split; [reflexivity|]. rewrite <- !(proj1 (C67_base64 _)). split; [reflexivity|]. vm_compute. discriminate.
Qed.
Example ex_hex : hex [xff; x0a] = s2l "ff0a" /\ fromhex (s2l "FF 0a") = Some [xff; x0a].
Proof. split; reflexivity. Qed.
Example ex_pem : exists s, certificate_text (repeat x00 50) s /\ length s = 27 + 1 + 64 + 1 + 4 + 1 + 25 + 1.
Proof. exists (pem_of_der (repeat x00 50)). split; [apply C67_pem; reflexivity|vm_compute; reflexivity]. Qed.

(** Expected, but not so: a text that is read without error is the encoding of what is read.  The
    readers skip what is not in the alphabet, ignore what follows the padding and the bits left over. *)
Theorem C67_base64_canonical_refuted : exists b s t u,
  b64decode s = Ok b /\ b64decode t = Ok b /\ b64decode u = Ok b /\ s <> t /\ t <> u /\ s <> u /\ ~ base64 b t /\ ~ base64 b u.
Proof.
  exists (s2b "M"), (s2l "TQ=="), (s2l "T-Q==TWFu"), (s2l "TR=="). rewrite <- !(proj1 (C67_base64 _)).
  repeat split; try reflexivity; vm_compute; discriminate.
Qed.
Theorem C67_hex_canonical_refuted : exists b s t, fromhex s = Some b /\ fromhex t = Some b /\ s <> t /\ ~ base16 b t.
Proof.
  exists [xab], (s2l "ab"), (s2l " AB "). rewrite <- (proj1 (C67_hex _)). repeat split; try reflexivity; vm_compute; discriminate.
Qed.

(** *** What is not read: characters beyond ASCII, and texts of letters whose padding is missing. *)
Lemma a2b_letters : forall k g, length g <= k -> (forall v, In v g -> (v < 64)%N) ->
  (forall b, a2b (map b64_char g) 0 0 0 = Some b <-> map b64_char g = b64encode b).
Proof.
  induction k as [|k IH]; intros g L B b.
  - destruct g; [|cbn in L; lia]. cbn. split; [intros [= <-]; reflexivity|]. destruct b as [|x [|y [|z r]]]; intros E; apply (f_equal (@length N)) in E; first [reflexivity|discriminate E].
  - destruct g as [|v1 [|v2 [|v3 [|v4 g]]]].
    + cbn. split; [intros [= <-]; reflexivity|]. destruct b as [|x [|y [|z r]]]; intros E; apply (f_equal (@length N)) in E; first [reflexivity|discriminate E].
    + cbn [map]. rewrite a2b_step0 by (apply B; cbn; tauto). cbn. split; [discriminate|]. destruct b as [|x [|y [|z r]]]; intros E; apply (f_equal (@length N)) in E; first [reflexivity|discriminate E].
    + cbn [map]. rewrite a2b_step0, a2b_step1 by (apply B; cbn; tauto). cbn. split; [discriminate|]. destruct b as [|x [|y [|z r]]]; intros E; apply (f_equal (@length N)) in E; first [reflexivity|discriminate E].
    + cbn [map]. rewrite a2b_step0, a2b_step1, a2b_step2 by (apply B; cbn; tauto). cbn. split; [discriminate|]. destruct b as [|x [|y [|z r]]]; intros E; apply (f_equal (@length N)) in E; first [reflexivity|discriminate E].
    + assert (B1 : (v1 < 64)%N) by (apply B; cbn; tauto). assert (B2 : (v2 < 64)%N) by (apply B; cbn; tauto).
      assert (B3 : (v3 < 64)%N) by (apply B; cbn; tauto). assert (B4 : (v4 < 64)%N) by (apply B; cbn; tauto).
      cbn [map]. rewrite a2b_step0, a2b_step1, a2b_step2, a2b_step3 by assumption. cbn [length] in L.
      specialize (IH g ltac:(lia) ltac:(intros; apply B; cbn; tauto)).
      assert (P : forall r, b64encode (n2b (v1 * 4 + v2 / 16) :: n2b (v2 mod 16 * 16 + v3 / 4) :: n2b (v3 mod 4 * 64 + v4) :: r) =
        b64_char v1 :: b64_char v2 :: b64_char v3 :: b64_char v4 :: b64encode r).
      { intros r. cbn [b64encode]. rewrite !b2n_n2b by lia.
        replace ((v1 * 4 + v2 / 16) / 4)%N with v1 by lia. replace ((v1 * 4 + v2 / 16) mod 4 * 16 + (v2 mod 16 * 16 + v3 / 4) / 16)%N with v2 by lia.
        replace ((v2 mod 16 * 16 + v3 / 4) mod 16 * 4 + (v3 mod 4 * 64 + v4) / 64)%N with v3 by lia. replace ((v3 mod 4 * 64 + v4) mod 64)%N with v4 by lia. reflexivity. }
      split.
      * destruct (a2b (map b64_char g) 0 0 0) as [o|] eqn:A; [|discriminate]. intros [= <-]. rewrite P. rewrite (proj1 (IH o) eq_refl). reflexivity.
      * intros E. assert (A : exists r, map b64_char g = b64encode r).
        { destruct b as [|x [|y [|z r]]]; [discriminate E| | |].
          - exfalso. cbn in E. injection E as _ _ E _. assert (Q := b64_char_not_pad v3 B3). rewrite E in Q. discriminate.
          - exfalso. cbn in E. injection E as _ _ _ E _. assert (Q := b64_char_not_pad v4 B4). rewrite E in Q. discriminate.
          - cbn [b64encode] in E. injection E as _ _ _ _ E. exists r. exact E. }
        destruct A as (r & A). rewrite (proj2 (IH r) A). f_equal. apply C67_base64. rewrite P, <- E, A. reflexivity.
Qed.
Theorem C67_base64_refused : forall s b, b64decode s = Ok b ->
  (forall c, In c s -> (c < 128)%N) /\ ((forall c, In c s -> In c ALPHABET) -> base64 b s).
Proof.
  intros s b E. unfold b64decode in E. destruct (is_ascii s) eqn:As; [|discriminate]. split.
  - intros c Hc. unfold is_ascii in As. rewrite forallb_forall in As. apply N.ltb_lt, As, Hc.
  - intros Al. assert (G : exists g, s = map b64_char g /\ forall v, In v g -> (v < 64)%N).
    { clear E As. induction s as [|c s IH]; [exists nil; split; [reflexivity|intros v []]|]. destruct IH as (g & -> & B); [intros; apply Al; right; assumption|].
      assert (Hc : In c ALPHABET) by (apply Al; left; reflexivity). apply (In_nth _ _ 0%N) in Hc. destruct Hc as (n & Ln & Hn). change (length ALPHABET) with 64 in Ln.
      exists (N.of_nat n :: g). assert (Q : (N.of_nat n < 64)%N) by lia. split; [|intros v [<-|Hv]; [exact Q|apply B, Hv]].
      cbn [map]. f_equal. rewrite <- letter_char by exact Q. unfold letter. rewrite Nat2N.id. symmetry. exact Hn. }
    destruct G as (g & -> & B). destruct (a2b (map b64_char g) 0 0 0) as [o|] eqn:A; [|discriminate]. injection E as <-.
    apply C67_base64. apply (proj1 (a2b_letters _ g (le_n _) B o)). exact A.
Qed.
(** one to four bytes; refused: an overlong form, a surrogate, a character beyond the last, a missing byte *)
Example ex_utf8 : utf8_encode [0x61; 0xe9; 0x20ac; 0x1f600]%N = Some [x61; xc3; xa9; xe2; x82; xac; xf0; x9f; x98; x80] /\
  utf8_decode [x61; xc3; xa9; xe2; x82; xac; xf0; x9f; x98; x80] = Some [0x61; 0xe9; 0x20ac; 0x1f600]%N /\
  utf8_decode [xc0; xaf] = None /\ utf8_decode [xf0; x80; x80; xaf] = None /\ utf8_decode [xed; xa0; x80] = None /\ utf8_decode [xf4; x90; x80; x80] = None /\
  utf8_decode [xe2; x82] = None /\ utf8_encode [0xd800]%N = None.
Proof. vm_compute. repeat split. Qed.
Example ex_refused : b64decode (s2l "TQ") = Raise EBinascii /\ b64decode (s2l "TWE") = Raise EBinascii /\ b64decode (s2l "TWFuT") = Raise EBinascii /\
  b64decode (s2l "TWFu") = Ok (s2b "Man") /\ b64decode [233%N] = Raise EValue.
Proof. vm_compute. repeat split. Qed.

Print Assumptions C67_base64_refused.
Print Assumptions C67_base64.
Print Assumptions C67_base64_read.
Print Assumptions C67_hex.
Print Assumptions C67_pem.
Print Assumptions C67_certificate_in_entry.
Print Assumptions C67_utf8.
Print Assumptions C67_base64_canonical_refuted.
Print Assumptions C67_hex_canonical_refuted.
