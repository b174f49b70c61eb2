(** Text and byte codecs of the Python standard library (and the PEM writer of
    [cryptography]) used by sigstore-python: hex, base64, decimal integers,
    UTF-8, PEM, big-endian integers.  These are third-party functions; they are
    modelled concretely because verification compares their outputs. *)
From Verif Require Import Base.
From Coq Require Import ZifyN ZifyNat ZifyBool.
Ltac Zify.zify_post_hook ::= Z.div_mod_to_equations.
Local Open Scope N_scope.

(** [bytes.decode("ascii")] of bytes known to be ASCII: code points = byte values. *)
Definition latin1 (b : bytes) : str := map b2n b.

Lemma latin1_inj : forall a b, latin1 a = latin1 b -> a = b.
Proof.
  induction a as [|x a IH]; intros [|y b] H; simpl in H; try discriminate; auto.
  injection H as H1 H2. apply b2n_inj in H1. f_equal; auto.
Qed.

(** [str.encode("ascii")] *)
Fixpoint ascii_encode (s : str) : option bytes :=
  match s with
  | nil => Some nil
  | c :: r => if c <? 128
              then match ascii_encode r with Some b => Some (n2b c :: b) | None => None end
              else None
  end.

Definition is_ascii (s : str) : bool := forallb (fun c => c <? 128) s.

Lemma ascii_encode_some : forall s, is_ascii s = true <-> exists b, ascii_encode s = Some b.
Proof.
  induction s as [|c r IH]; simpl.
  - split; [exists nil; auto | auto].
  - unfold is_ascii in *. simpl. destruct (c <? 128) eqn:E; simpl.
    + rewrite IH. split; intros [b Hb].
      * rewrite Hb; eauto.
      * destruct (ascii_encode r); [eauto|discriminate].
    + split; [discriminate | intros [b Hb]; discriminate].
Qed.

(** ** Hexadecimal: [bytes.hex], [bytes.fromhex] *)

Definition hex_digit (n : N) : N := if n <? 10 then 48 + n else 87 + n.

Fixpoint hex (b : bytes) : str :=
  match b with
  | nil => nil
  | x :: r => hex_digit (b2n x / 16) :: hex_digit (b2n x mod 16) :: hex r
  end.

Definition hex_value (c : N) : option N :=
  if (48 <=? c) && (c <=? 57) then Some (c - 48)
  else if (97 <=? c) && (c <=? 102) then Some (c - 87)
  else if (65 <=? c) && (c <=? 70) then Some (c - 55)
  else None.

(** ASCII whitespace skipped by [bytes.fromhex] *)
Definition ascii_space (c : N) : bool :=
  (c =? 32) || ((9 <=? c) && (c <=? 13)).

(** [bytes.fromhex(s)]; [None] is ValueError.  Whitespace is skipped between
    bytes but not inside one. *)
Fixpoint fromhex (s : str) : option bytes :=
  match s with
  | nil => Some nil
  | c :: r =>
      if ascii_space c then fromhex r
      else match r with
           | nil => None
           | d :: r' =>
               match hex_value c, hex_value d with
               | Some hi, Some lo =>
                   match fromhex r' with
                   | Some b => Some (n2b (hi * 16 + lo) :: b)
                   | None => None
                   end
               | _, _ => None
               end
           end
  end.

Lemma hex_digit_inj : forall a b, a < 16 -> b < 16 -> hex_digit a = hex_digit b -> a = b.
Proof. unfold hex_digit; intros a b Ha Hb. destruct (a <? 10) eqn:E1, (b <? 10) eqn:E2; lia. Qed.

Lemma hex_value_digit : forall a, a < 16 -> hex_value (hex_digit a) = Some a.
Proof.
  intros a Ha. unfold hex_value, hex_digit. destruct (a <? 10) eqn:E.
  - replace ((48 <=? 48 + a) && (48 + a <=? 57)) with true by lia. f_equal; lia.
  - replace ((48 <=? 87 + a) && (87 + a <=? 57)) with false by lia.
    replace ((97 <=? 87 + a) && (87 + a <=? 102)) with true by lia. f_equal; lia.
Qed.

Lemma hex_digit_not_space : forall a, a < 16 -> ascii_space (hex_digit a) = false.
Proof. intros a Ha; unfold ascii_space, hex_digit. destruct (a <? 10) eqn:E; lia. Qed.

Lemma fromhex_hex : forall b, fromhex (hex b) = Some b.
Proof.
  induction b as [|x r IH]; [reflexivity|].
  pose proof (b2n_lt x) as Hx.
  assert (Hh : b2n x / 16 < 16) by lia.
  assert (Hl : b2n x mod 16 < 16) by lia.
  cbn [hex fromhex].
  rewrite hex_digit_not_space, !hex_value_digit, IH by assumption.
  repeat f_equal. rewrite <- (n2b_b2n x) at 3. f_equal. lia.
Qed.

Lemma hex_inj : forall a b, hex a = hex b -> a = b.
Proof.
  intros a b H. apply (f_equal fromhex) in H. rewrite !fromhex_hex in H. congruence.
Qed.

Lemma hex_length : forall b, length (hex b) = (2 * length b)%nat.
Proof. induction b; simpl; lia. Qed.

(** ** Base64: [base64.b64encode], [base64.b64decode] *)

Definition b64_char (n : N) : N :=
  if n <? 26 then 65 + n
  else if n <? 52 then 71 + n
  else if n <? 62 then n - 4
  else if n =? 62 then 43 else 47.

Definition b64_value (c : N) : option N :=
  if (65 <=? c) && (c <=? 90) then Some (c - 65)
  else if (97 <=? c) && (c <=? 122) then Some (c - 71)
  else if (48 <=? c) && (c <=? 57) then Some (c + 4)
  else if c =? 43 then Some 62
  else if c =? 47 then Some 63
  else None.

(** [base64.b64encode(b).decode()] *)
Fixpoint b64encode (b : bytes) : str :=
  match b with
  | nil => nil
  | x :: nil =>
      let a := b2n x in
      [b64_char (a / 4); b64_char ((a mod 4) * 16); 61; 61]
  | x :: y :: nil =>
      let a := b2n x in let c := b2n y in
      [b64_char (a / 4); b64_char ((a mod 4) * 16 + c / 16);
       b64_char ((c mod 16) * 4); 61]
  | x :: y :: z :: r =>
      let a := b2n x in let c := b2n y in let d := b2n z in
      b64_char (a / 4) :: b64_char ((a mod 4) * 16 + c / 16)
      :: b64_char ((c mod 16) * 4 + d / 64) :: b64_char (d mod 64)
      :: b64encode r
  end.

(** CPython's [binascii.a2b_base64] in its default non-strict mode: a state
    machine over quad position [q], left-over bits [lc] and pad count [pads].
    Non-alphabet characters are skipped; [None] is [binascii.Error]. *)
Fixpoint a2b (s : str) (q lc pads : N) : option bytes :=
  match s with
  | nil => if q =? 0 then Some nil else None
  | c :: r =>
      if c =? 61 then
        if (2 <=? q) then
          if 4 <=? q + (pads + 1) then Some nil else a2b r q lc (pads + 1)
        else a2b r q lc pads
      else
        match b64_value c with
        | None => a2b r q lc pads
        | Some v =>
            if q =? 0 then a2b r 1 v 0
            else if q =? 1 then
              match a2b r 2 (v mod 16) 0 with
              | Some o => Some (n2b (lc * 4 + v / 16) :: o) | None => None end
            else if q =? 2 then
              match a2b r 3 (v mod 4) 0 with
              | Some o => Some (n2b (lc * 16 + v / 4) :: o) | None => None end
            else
              match a2b r 0 0 0 with
              | Some o => Some (n2b (lc * 64 + v) :: o) | None => None end
        end
  end.

(** [base64.b64decode(s)] for a [str]: ValueError for non-ASCII text,
    [binascii.Error] for a bad length. *)
Definition b64decode (s : str) : res bytes :=
  if is_ascii s then
    match a2b s 0 0 0 with Some b => Ok b | None => Raise EBinascii end
  else Raise EValue.

Lemma b64_char_value : forall n, n < 64 -> b64_value (b64_char n) = Some n.
Proof.
  intros n Hn. unfold b64_char, b64_value.
  destruct (n <? 26) eqn:E1; [|destruct (n <? 52) eqn:E2; [|destruct (n <? 62) eqn:E3;
    [|destruct (n =? 62) eqn:E4]]].
  - replace ((65 <=? 65 + n) && (65 + n <=? 90)) with true by lia. f_equal; lia.
  - replace ((65 <=? 71 + n) && (71 + n <=? 90)) with false by lia.
    replace ((97 <=? 71 + n) && (71 + n <=? 122)) with true by lia. f_equal; lia.
  - replace ((65 <=? n - 4) && (n - 4 <=? 90)) with false by lia.
    replace ((97 <=? n - 4) && (n - 4 <=? 122)) with false by lia.
    replace ((48 <=? n - 4) && (n - 4 <=? 57)) with true by lia. f_equal; lia.
  - simpl. f_equal; lia.
  - simpl. f_equal; lia.
Qed.

Lemma b64_char_not_pad : forall n, n < 64 -> b64_char n =? 61 = false.
Proof.
  intros n Hn. unfold b64_char.
  destruct (n <? 26) eqn:E1; [|destruct (n <? 52) eqn:E2; [|destruct (n <? 62) eqn:E3;
    [|destruct (n =? 62) eqn:E4]]]; lia.
Qed.

Lemma b64_char_ascii : forall n, n < 64 -> b64_char n <? 128 = true.
Proof.
  intros n Hn. unfold b64_char.
  destruct (n <? 26) eqn:E1; [|destruct (n <? 52) eqn:E2; [|destruct (n <? 62) eqn:E3;
    [|destruct (n =? 62) eqn:E4]]]; lia.
Qed.

Lemma a2b_step0 : forall n r, n < 64 -> a2b (b64_char n :: r) 0 0 0 = a2b r 1 n 0.
Proof. intros n r H. cbn [a2b]. rewrite b64_char_not_pad, b64_char_value by assumption. reflexivity. Qed.
Lemma a2b_step1 : forall n lc r, n < 64 -> a2b (b64_char n :: r) 1 lc 0 =
  match a2b r 2 (n mod 16) 0 with Some o => Some (n2b (lc * 4 + n / 16) :: o) | None => None end.
Proof. intros n lc r H. cbn [a2b]. rewrite b64_char_not_pad, b64_char_value by assumption. reflexivity. Qed.
Lemma a2b_step2 : forall n lc r, n < 64 -> a2b (b64_char n :: r) 2 lc 0 =
  match a2b r 3 (n mod 4) 0 with Some o => Some (n2b (lc * 16 + n / 4) :: o) | None => None end.
Proof. intros n lc r H. cbn [a2b]. rewrite b64_char_not_pad, b64_char_value by assumption. reflexivity. Qed.
Lemma a2b_step3 : forall n lc r, n < 64 -> a2b (b64_char n :: r) 3 lc 0 =
  match a2b r 0 0 0 with Some o => Some (n2b (lc * 64 + n) :: o) | None => None end.
Proof. intros n lc r H. cbn [a2b]. rewrite b64_char_not_pad, b64_char_value by assumption. reflexivity. Qed.

Lemma list3_ind : forall (P : bytes -> Prop),
  P nil -> (forall x, P [x]) -> (forall x y, P [x; y]) ->
  (forall x y z r, P r -> P (x :: y :: z :: r)) -> forall l, P l.
Proof.
  intros P H0 H1 H2 H3.
  assert (forall l, P l /\ (forall x, P (x :: l)) /\ (forall x y, P (x :: y :: l))) as H.
  { induction l as [|a l [IH1 [IH2 IH3]]]; repeat split; auto. }
  intro l; apply H.
Qed.

Lemma n2b_eq : forall n x, n = b2n x -> n2b n = x.
Proof. intros n x ->. apply n2b_b2n. Qed.

Lemma a2b_b64encode : forall b, a2b (b64encode b) 0 0 0 = Some b.
Proof.
  apply list3_ind.
  - reflexivity.
  - intros x. pose proof (b2n_lt x). cbn [b64encode].
    rewrite a2b_step0, a2b_step1 by lia. cbn [a2b].
    change (61 =? 61) with true. change (2 <=? 2) with true. cbn.
    repeat f_equal. apply n2b_eq. lia.
  - intros x y. pose proof (b2n_lt x). pose proof (b2n_lt y). cbn [b64encode].
    rewrite a2b_step0, a2b_step1, a2b_step2 by lia. cbn [a2b].
    change (61 =? 61) with true. cbn.
    f_equal. f_equal; [|f_equal]; apply n2b_eq; lia.
  - intros x y z r IH. pose proof (b2n_lt x). pose proof (b2n_lt y). pose proof (b2n_lt z).
    cbn [b64encode].
    rewrite a2b_step0, a2b_step1, a2b_step2, a2b_step3, IH by lia.
    f_equal. f_equal; [|f_equal; [|f_equal]]; apply n2b_eq; lia.
Qed.

Lemma b64encode_ascii : forall b, is_ascii (b64encode b) = true.
Proof.
  unfold is_ascii. apply list3_ind.
  - reflexivity.
  - intros x. pose proof (b2n_lt x). cbn [b64encode forallb].
    rewrite !b64_char_ascii by lia. reflexivity.
  - intros x y. pose proof (b2n_lt x). pose proof (b2n_lt y). cbn [b64encode forallb].
    rewrite !b64_char_ascii by lia. reflexivity.
  - intros x y z r IH. pose proof (b2n_lt x). pose proof (b2n_lt y). pose proof (b2n_lt z).
    cbn [b64encode forallb]. rewrite !b64_char_ascii, IH by lia. reflexivity.
Qed.

Theorem b64decode_b64encode : forall b, b64decode (b64encode b) = Ok b.
Proof. intros b. unfold b64decode. rewrite b64encode_ascii, a2b_b64encode. reflexivity. Qed.

Theorem b64encode_inj : forall a b, b64encode a = b64encode b -> a = b.
Proof.
  intros a b H. apply (f_equal b64decode) in H. rewrite !b64decode_b64encode in H. congruence.
Qed.

(** ** Decimal integers: [str(n)] *)

Fixpoint dec_aux (fuel : nat) (n : N) (acc : str) : str :=
  match fuel with
  | O => acc
  | S f => let acc' := (48 + n mod 10) :: acc in
           if n <? 10 then acc' else dec_aux f (n / 10) acc'
  end.

(** [str(n)] for [n >= 0] *)
Definition dec (n : N) : str := dec_aux (S (N.to_nat (N.log2 n))) n nil.

(** [str(z)] *)
Definition dec_Z (z : Z) : str :=
  match z with
  | Z0 => dec 0
  | Zpos p => dec (Npos p)
  | Zneg p => 45 :: dec (Npos p)
  end.

Definition dval (a c : N) : N := 10 * a + (c - 48).
Definition undec (s : str) : N := fold_left dval s 0.

Lemma dec_aux_val : forall fuel n acc, n < 2 ^ N.of_nat fuel ->
  fold_left dval (dec_aux fuel n acc) 0 = fold_left dval acc n.
Proof.
  induction fuel as [|f IH]; intros n acc Hn.
  - simpl in Hn. assert (n = 0) by lia. subst. reflexivity.
  - cbn [dec_aux]. destruct (n <? 10) eqn:E.
    + cbn [fold_left]. unfold dval at 2.
      f_equal. rewrite N.mod_small by lia. lia.
    + rewrite IH.
      * cbn [fold_left]. f_equal. unfold dval. lia.
      * rewrite Nat2N.inj_succ, N.pow_succ_r' in Hn. lia.
Qed.

Lemma undec_dec : forall n, undec (dec n) = n.
Proof.
  intros n. unfold undec, dec. rewrite dec_aux_val; [reflexivity|].
  rewrite Nat2N.inj_succ, N2Nat.id.
  destruct n as [|p]; [reflexivity|].
  apply N.log2_spec. lia.
Qed.

Lemma dec_inj : forall a b, dec a = dec b -> a = b.
Proof. intros a b H. rewrite <- (undec_dec a), <- (undec_dec b), H. reflexivity. Qed.

Definition is_digit (c : N) : bool := (48 <=? c) && (c <=? 57).

Lemma dec_aux_digits : forall fuel n acc,
  forallb is_digit acc = true -> forallb is_digit (dec_aux fuel n acc) = true.
Proof.
  induction fuel as [|f IH]; intros n acc H; [assumption|].
  cbn [dec_aux].
  assert (D : is_digit (48 + n mod 10) = true) by (unfold is_digit; lia).
  destruct (n <? 10); [|apply IH]; cbn [forallb]; rewrite D, H; reflexivity.
Qed.

Lemma dec_digits : forall n, forallb is_digit (dec n) = true.
Proof. intros; apply dec_aux_digits; reflexivity. Qed.

Lemma dec_aux_nonempty : forall fuel n acc, acc <> nil -> dec_aux fuel n acc <> nil.
Proof.
  induction fuel as [|f IH]; intros n acc H; [assumption|].
  cbn [dec_aux]. destruct (n <? 10); [discriminate|apply IH; discriminate].
Qed.

Lemma dec_nonempty : forall n, dec n <> nil.
Proof.
  intros n. unfold dec. cbn [dec_aux]. destruct (n <? 10); [discriminate|].
  apply dec_aux_nonempty; discriminate.
Qed.

Lemma dec_Z_inj : forall a b, dec_Z a = dec_Z b -> a = b.
Proof.
  assert (forall n r, dec n <> 45 :: r) as Hm.
  { intros n r H. pose proof (dec_digits n) as D. rewrite H in D. simpl in D. discriminate. }
  intros [|p|p] [|q|q] H; simpl in H; try reflexivity;
    try (apply dec_inj in H; congruence); try (exfalso; eapply Hm; eauto; fail);
    try (exfalso; symmetry in H; eapply Hm; eauto; fail).
  injection H as H. apply dec_inj in H. congruence.
Qed.

Definition is_int_char (c : N) : bool := is_digit c || (c =? 45).

Lemma dec_Z_chars : forall z, forallb is_int_char (dec_Z z) = true.
Proof.
  assert (forall n, forallb is_int_char (dec n) = true) as H.
  { intros n. pose proof (dec_digits n) as D. rewrite forallb_forall in *.
    intros c Hc. unfold is_int_char. rewrite (D c Hc). reflexivity. }
  intros [|p|p]; simpl; auto.
Qed.

(** Text followed by a terminator that cannot occur in it is unambiguous. *)
Lemma app_sep_inj : forall (A : Type) (P : A -> bool) (a b c d : list A) (s t : A),
  forallb P a = true -> forallb P c = true -> P s = false -> P t = false ->
  a ++ s :: b = c ++ t :: d -> a = c /\ s = t /\ b = d.
Proof.
  intros A P a. induction a as [|x a IH]; intros b [|y c] d s t Ha Hc Hs Ht H; simpl in *.
  - inversion H; auto.
  - inversion H; subst. apply andb_true_iff in Hc. destruct Hc; congruence.
  - inversion H; subst. apply andb_true_iff in Ha. destruct Ha; congruence.
  - apply andb_true_iff in Ha. apply andb_true_iff in Hc. destruct Ha, Hc.
    inversion H; subst. destruct (IH b c d s t) as [-> [-> ->]]; auto.
Qed.

(** ** UTF-8: [str.encode()], [bytes.decode()] *)

(** Unicode scalar value (encodable code point). *)
Definition is_scalar (c : N) : bool :=
  (c <? 55296) || ((57344 <=? c) && (c <? 1114112)).

Definition utf8_char (c : N) : bytes :=
  if c <? 128 then [n2b c]
  else if c <? 2048 then [n2b (192 + c / 64); n2b (128 + c mod 64)]
  else if c <? 65536 then
    [n2b (224 + c / 4096); n2b (128 + (c / 64) mod 64); n2b (128 + c mod 64)]
  else
    [n2b (240 + c / 262144); n2b (128 + (c / 4096) mod 64);
     n2b (128 + (c / 64) mod 64); n2b (128 + c mod 64)].

(** [s.encode()]; [None] is UnicodeEncodeError (lone surrogate). *)
Fixpoint utf8_encode (s : str) : option bytes :=
  match s with
  | nil => Some nil
  | c :: r => if is_scalar c then
                match utf8_encode r with
                | Some b => Some (utf8_char c ++ b)
                | None => None
                end
              else None
  end.

Definition is_cont (b : byte) : bool := (128 <=? b2n b) && (b2n b <? 192).

(** [b.decode()]; [None] is UnicodeDecodeError.  Strict: no overlong forms, no
    surrogates, nothing above U+10FFFF. *)
Fixpoint utf8_decode (b : bytes) : option str :=
  match b with
  | nil => Some nil
  | x0 :: r0 =>
      let n0 := b2n x0 in
      if n0 <? 128 then
        match utf8_decode r0 with Some s => Some (n0 :: s) | None => None end
      else if n0 <? 194 then None
      else match r0 with
           | nil => None
           | x1 :: r1 =>
               if negb (is_cont x1) then None else
               if n0 <? 224 then
                 match utf8_decode r1 with
                 | Some s => Some ((n0 - 192) * 64 + (b2n x1 - 128) :: s) | None => None end
               else match r1 with
                    | nil => None
                    | x2 :: r2 =>
                        if negb (is_cont x2) then None else
                        if n0 <? 240 then
                          let c := (n0 - 224) * 4096 + (b2n x1 - 128) * 64 + (b2n x2 - 128) in
                          if (2048 <=? c) && is_scalar c then
                            match utf8_decode r2 with
                            | Some s => Some (c :: s) | None => None end
                          else None
                        else match r2 with
                             | nil => None
                             | x3 :: r3 =>
                                 if negb (is_cont x3) then None else
                                 let c := (n0 - 240) * 262144 + (b2n x1 - 128) * 4096
                                          + (b2n x2 - 128) * 64 + (b2n x3 - 128) in
                                 if (65536 <=? c) && is_scalar c then
                                   match utf8_decode r3 with
                                   | Some s => Some (c :: s) | None => None end
                                 else None
                             end
                    end
           end
  end.

Lemma is_cont_n2b : forall n, n < 64 -> is_cont (n2b (128 + n)) = true.
Proof. intros n H. unfold is_cont. rewrite b2n_n2b by lia. lia. Qed.

Lemma utf8_decode_char : forall c t, is_scalar c = true ->
  utf8_decode (utf8_char c ++ t) =
  match utf8_decode t with Some s => Some (c :: s) | None => None end.
Proof.
  intros c t Hc. unfold utf8_char.
  assert (Hc' : c < 1114112) by (unfold is_scalar in Hc; lia).
  destruct (c <? 128) eqn:E1; [|destruct (c <? 2048) eqn:E2; [|destruct (c <? 65536) eqn:E3]].
  - cbn [app utf8_decode]. rewrite b2n_n2b by lia. rewrite E1. reflexivity.
  - cbn [app utf8_decode]. rewrite is_cont_n2b by lia. rewrite !b2n_n2b by lia.
    replace (192 + c / 64 <? 128) with false by lia.
    replace (192 + c / 64 <? 194) with false by lia.
    replace (192 + c / 64 <? 224) with true by lia.
    cbn [negb].
    replace ((192 + c / 64 - 192) * 64 + (128 + c mod 64 - 128)) with c by lia.
    reflexivity.
  - cbn [app utf8_decode]. rewrite !is_cont_n2b by lia. rewrite !b2n_n2b by lia.
    replace (224 + c / 4096 <? 128) with false by lia.
    replace (224 + c / 4096 <? 194) with false by lia.
    replace (224 + c / 4096 <? 224) with false by lia.
    replace (224 + c / 4096 <? 240) with true by lia.
    cbn [negb]. cbv zeta.
    replace ((224 + c / 4096 - 224) * 4096 + (128 + (c / 64) mod 64 - 128) * 64
             + (128 + c mod 64 - 128)) with c by lia.
    replace (2048 <=? c) with true by lia. rewrite Hc. reflexivity.
  - cbn [app utf8_decode]. rewrite !is_cont_n2b by lia. rewrite !b2n_n2b by lia.
    replace (240 + c / 262144 <? 128) with false by lia.
    replace (240 + c / 262144 <? 194) with false by lia.
    replace (240 + c / 262144 <? 224) with false by lia.
    replace (240 + c / 262144 <? 240) with false by lia.
    cbn [negb]. cbv zeta.
    replace ((240 + c / 262144 - 240) * 262144 + (128 + (c / 4096) mod 64 - 128) * 4096
             + (128 + (c / 64) mod 64 - 128) * 64 + (128 + c mod 64 - 128)) with c by lia.
    replace (65536 <=? c) with true by lia. rewrite Hc. reflexivity.
Qed.

Theorem utf8_decode_encode : forall s b, utf8_encode s = Some b -> utf8_decode b = Some s.
Proof.
  induction s as [|c r IH]; intros b H; simpl in H.
  - inversion H; reflexivity.
  - destruct (is_scalar c) eqn:E; [|discriminate].
    destruct (utf8_encode r) as [b'|] eqn:Er; [|discriminate].
    inversion H; subst. rewrite utf8_decode_char by assumption.
    rewrite (IH _ eq_refl). reflexivity.
Qed.

Theorem utf8_encode_inj : forall s t b,
  utf8_encode s = Some b -> utf8_encode t = Some b -> s = t.
Proof.
  intros s t b Hs Ht. apply utf8_decode_encode in Hs. apply utf8_decode_encode in Ht. congruence.
Qed.

Lemma utf8_char_length : forall c,
  length (utf8_char c) =
  if c <? 128 then 1%nat else if c <? 2048 then 2%nat else if c <? 65536 then 3%nat else 4%nat.
Proof.
  intros c. unfold utf8_char.
  destruct (c <? 128); [reflexivity|destruct (c <? 2048); [reflexivity|destruct (c <? 65536); reflexivity]].
Qed.

(** One character's encoding is a prefix code. *)
Lemma utf8_char_prefix_free : forall c d t u,
  is_scalar c = true -> is_scalar d = true ->
  utf8_char c ++ t = utf8_char d ++ u -> c = d /\ t = u.
Proof.
  intros c d t u Hc Hd H.
  assert (Hc' : c < 1114112) by (unfold is_scalar in Hc; lia).
  assert (Hd' : d < 1114112) by (unfold is_scalar in Hd; lia).
  assert (L : length (utf8_char c) = length (utf8_char d)).
  { rewrite !utf8_char_length.
    assert (F : b2n (hd x00 (utf8_char c)) = b2n (hd x00 (utf8_char d))).
    { assert (hd x00 (utf8_char c ++ t) = hd x00 (utf8_char d ++ u)) as HH by (rewrite H; reflexivity).
      assert (forall z v, hd x00 (utf8_char z ++ v) = hd x00 (utf8_char z)) as HX.
      { intros z v. unfold utf8_char. destruct (z <? 128); [reflexivity|].
        destruct (z <? 2048); [reflexivity|]. destruct (z <? 65536); reflexivity. }
      rewrite !HX in HH. rewrite HH; reflexivity. }
    unfold utf8_char in F.
    destruct (c <? 128) eqn:C1, (d <? 128) eqn:D1;
    try destruct (c <? 2048) eqn:C2; try destruct (d <? 2048) eqn:D2;
    try destruct (c <? 65536) eqn:C3; try destruct (d <? 65536) eqn:D3;
    cbn [hd] in F; try reflexivity; exfalso; rewrite !b2n_n2b in F by lia; lia. }
  destruct (app_inj_length _ _ _ _ L H) as [E ->]. split; [|reflexivity].
  assert (utf8_decode (utf8_char c ++ nil) = utf8_decode (utf8_char d ++ nil)) as Q by (rewrite E; reflexivity).
  rewrite !utf8_decode_char in Q by assumption. simpl in Q. congruence.
Qed.

(** Encodings of texts with the same number of characters form a prefix code. *)
Lemma utf8_prefix_free : forall s t a b u v,
  utf8_encode s = Some a -> utf8_encode t = Some b -> length s = length t ->
  a ++ u = b ++ v -> s = t /\ u = v.
Proof.
  induction s as [|c s IH]; intros [|d t] a b u v Hs Ht L H; simpl in *; try discriminate.
  - inversion Hs; inversion Ht; subst. auto.
  - destruct (is_scalar c) eqn:Ec; [|discriminate].
    destruct (is_scalar d) eqn:Ed; [|discriminate].
    destruct (utf8_encode s) as [a'|] eqn:Es; [|discriminate].
    destruct (utf8_encode t) as [b'|] eqn:Et; [|discriminate].
    inversion Hs; inversion Ht; subst. rewrite <- !app_assoc in H.
    destruct (utf8_char_prefix_free c d _ _ Ec Ed H) as [-> H'].
    injection L as L.
    destruct (IH t a' b' u v eq_refl Et L H') as [-> ->]. auto.
Qed.

Lemma utf8_encode_app : forall s t,
  utf8_encode (s ++ t) =
  match utf8_encode s, utf8_encode t with
  | Some a, Some b => Some (a ++ b)
  | _, _ => None
  end.
Proof.
  induction s as [|c s IH]; intros t; simpl.
  - destruct (utf8_encode t); reflexivity.
  - destruct (is_scalar c); [|reflexivity]. rewrite IH.
    destruct (utf8_encode s); [|reflexivity].
    destruct (utf8_encode t); [|reflexivity]. rewrite app_assoc. reflexivity.
Qed.

Lemma utf8_encode_ascii : forall s, is_ascii s = true -> utf8_encode s = Some (map n2b s).
Proof.
  induction s as [|c s IH]; simpl; intros H; [reflexivity|].
  apply andb_true_iff in H. destruct H as [Hc Hs].
  assert (is_scalar c = true) as -> by (unfold is_scalar; lia).
  rewrite (IH Hs). unfold utf8_char. rewrite Hc. reflexivity.
Qed.

(** Byte length equals character count exactly for ASCII text. *)
Lemma utf8_encode_length : forall s b, utf8_encode s = Some b -> (length s <= length b)%nat.
Proof.
  induction s as [|c s IH]; intros b H; simpl in H; [inversion H; simpl; lia|].
  destruct (is_scalar c); [|discriminate]. destruct (utf8_encode s) as [b'|]; [|discriminate].
  inversion H; subst. rewrite app_length, utf8_char_length. specialize (IH _ eq_refl). simpl.
  destruct (c <? 128); [lia|destruct (c <? 2048); [lia|destruct (c <? 65536); lia]].
Qed.

Lemma utf8_length_ascii : forall s b, utf8_encode s = Some b ->
  (length b = length s <-> is_ascii s = true).
Proof.
  induction s as [|c s IH]; intros b H; simpl in H.
  - inversion H; simpl; split; reflexivity.
  - destruct (is_scalar c) eqn:Ec; [|discriminate].
    destruct (utf8_encode s) as [b'|] eqn:Es; [|discriminate].
    inversion H; subst. rewrite app_length, utf8_char_length.
    pose proof (utf8_encode_length _ _ Es) as HL. specialize (IH _ eq_refl).
    unfold is_ascii in *. simpl. destruct (c <? 128) eqn:E1; simpl.
    + rewrite <- IH. lia.
    + split; [|discriminate]. destruct (c <? 2048); [lia|destruct (c <? 65536); lia].
Qed.

(** ** Big-endian unsigned integers ([struct.pack("!..")]) *)

Fixpoint be (width : nat) (n : N) : bytes :=
  match width with
  | O => nil
  | S w => be w (n / 256) ++ [n2b n]
  end.

Definition unbe (b : bytes) : N := fold_left (fun a x => 256 * a + b2n x) b 0.

Lemma be_length : forall w n, length (be w n) = w.
Proof. induction w; intros n; simpl; [reflexivity|]. rewrite app_length, IHw. simpl. lia. Qed.

Lemma unbe_be : forall w n, n < 256 ^ N.of_nat w -> unbe (be w n) = n.
Proof.
  induction w as [|w IH]; intros n Hn.
  - simpl in *. unfold unbe; simpl. lia.
  - unfold unbe in *. cbn [be]. rewrite fold_left_app. rewrite IH.
    + cbn [fold_left]. rewrite b2n_n2b_mod. clear. lia.
    + rewrite Nat2N.inj_succ, N.pow_succ_r' in Hn. lia.
Qed.

Lemma be_inj : forall w a b, a < 256 ^ N.of_nat w -> b < 256 ^ N.of_nat w ->
  be w a = be w b -> a = b.
Proof. intros w a b Ha Hb H. rewrite <- (unbe_be w a), <- (unbe_be w b), H; auto. Qed.

(** ** PEM writer ([Certificate.public_bytes(Encoding.PEM)] of [cryptography]) *)

(** Text cut into lines of 64 characters, each terminated by a newline. *)
Fixpoint wrap (col : nat) (s : str) : str :=
  match s with
  | nil => match col with O => nil | _ => [10] end
  | c :: r => match col with
              | 63%nat => c :: 10 :: wrap 0 r
              | _ => c :: wrap (S col) r
              end
  end.

From Coq Require Import Strings.String.
Definition pem_head : str := s2l "-----BEGIN CERTIFICATE-----"%string ++ [10].
Definition pem_tail : str := s2l "-----END CERTIFICATE-----"%string ++ [10].

Definition pem_of_der (der : bytes) : str :=
  (pem_head ++ wrap 0 (b64encode der) ++ pem_tail)%list.

Definition not_nl (c : N) : bool := negb (c =? 10).

Lemma wrap_filter : forall s col, forallb not_nl s = true -> filter not_nl (wrap col s) = s.
Proof.
  induction s as [|c s IH]; intros col H.
  - destruct col; reflexivity.
  - simpl in H. apply andb_true_iff in H. destruct H as [Hc Hs].
    cbn [wrap].
    assert (HH : forall k, filter not_nl (c :: wrap k s) = c :: s).
    { intros k. cbn [filter]. rewrite Hc, IH by assumption. reflexivity. }
    assert (HZ : filter not_nl (c :: 10 :: wrap 0 s) = c :: s).
    { cbn [filter]. rewrite Hc. change (not_nl 10) with false. cbn iota. rewrite IH by assumption. reflexivity. }
    do 63 (destruct col as [|col]; [apply HH|]).
    destruct col; [apply HZ | apply HH].
Qed.

Lemma b64_char_not_nl : forall n, n < 64 -> not_nl (b64_char n) = true.
Proof.
  intros n Hn. unfold b64_char, not_nl.
  destruct (n <? 26) eqn:E1; [|destruct (n <? 52) eqn:E2; [|destruct (n <? 62) eqn:E3;
    [|destruct (n =? 62) eqn:E4]]]; lia.
Qed.

Lemma b64encode_not_nl : forall b, forallb not_nl (b64encode b) = true.
Proof.
  apply list3_ind.
  - reflexivity.
  - intros x. pose proof (b2n_lt x). cbn [b64encode forallb].
    rewrite !b64_char_not_nl by lia. reflexivity.
  - intros x y. pose proof (b2n_lt x). pose proof (b2n_lt y). cbn [b64encode forallb].
    rewrite !b64_char_not_nl by lia. reflexivity.
  - intros x y z r IH. pose proof (b2n_lt x). pose proof (b2n_lt y). pose proof (b2n_lt z).
    cbn [b64encode forallb]. rewrite !b64_char_not_nl, IH by lia. reflexivity.
Qed.

Theorem pem_of_der_inj : forall a b, pem_of_der a = pem_of_der b -> a = b.
Proof.
  intros a b H. unfold pem_of_der in H.
  apply app_inv_head in H. apply app_inv_tail in H.
  apply (f_equal (filter not_nl)) in H.
  rewrite !wrap_filter in H by apply b64encode_not_nl.
  apply b64encode_inj; assumption.
Qed.

Lemma wrap_ascii : forall s col, is_ascii s = true -> is_ascii (wrap col s) = true.
Proof.
  unfold is_ascii. induction s as [|c s IH]; intros col H.
  - destruct col; reflexivity.
  - cbn [forallb] in H. apply andb_true_iff in H. destruct H as [Hc Hs].
    cbn [wrap].
    assert (HH : forall k, forallb (fun c => c <? 128) (c :: wrap k s) = true).
    { intros k. cbn [forallb]. rewrite Hc, IH by assumption. reflexivity. }
    assert (HZ : forallb (fun c => c <? 128) (c :: 10 :: wrap 0 s) = true).
    { cbn [forallb]. rewrite Hc, IH by assumption. reflexivity. }
    do 63 (destruct col as [|col]; [apply HH|]).
    destruct col; [apply HZ | apply HH].
Qed.

Lemma is_ascii_app : forall a b, is_ascii (a ++ b) = is_ascii a && is_ascii b.
Proof. intros; apply forallb_app. Qed.

Lemma pem_ascii : forall d, is_ascii (pem_of_der d) = true.
Proof.
  intros d. unfold pem_of_der. rewrite !is_ascii_app, wrap_ascii by apply b64encode_ascii.
  reflexivity.
Qed.

(** Text known to be ASCII, as bytes. *)
Definition ascii_bytes (s : str) : bytes := map n2b s.

Lemma ascii_bytes_inj : forall a b, is_ascii a = true -> is_ascii b = true ->
  ascii_bytes a = ascii_bytes b -> a = b.
Proof.
  unfold is_ascii, ascii_bytes.
  induction a as [|x a IH]; intros [|y b] Ha Hb H; cbn [map forallb] in *; try discriminate; auto.
  apply andb_true_iff in Ha, Hb. destruct Ha as [Ha1 Ha2], Hb as [Hb1 Hb2]. injection H as H1 H2.
  f_equal; auto. apply (f_equal b2n) in H1. rewrite !b2n_n2b in H1 by lia. assumption.
Qed.
