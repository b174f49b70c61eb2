(** What Python's [int] reads from a text, as a grammar, and that [PyText.py_int] reads exactly that. *)
From Verif Require Import Base Codec PyText.
Open Scope N_scope.

(** ** Specification *)
Section Spec.
Variable ud : N -> option N.      (* the value of a decimal digit of another script *)

Definition digit_char (c d : N) : Prop := (48 <= c <= 57 /\ d = c - 48) \/ (128 <= c /\ is_space c = false /\ ud c = Some d /\ d < 10).
(** tab, line feed, vertical tab, form feed, carriage return, space, and the spaces outside ASCII *)
Definition blank_char (c : N) : Prop := 9 <= c <= 13 \/ c = 32 \/ (128 <= c /\ is_space c = true).
(** one digit or more, with at most one underscore between two of them *)
Inductive digit_text : str -> list N -> Prop :=
| D_one : forall c d, digit_char c d -> digit_text [c] [d]
| D_next : forall c d s ds, digit_char c d -> digit_text s ds -> digit_text (c :: s) (d :: ds)
| D_under : forall c d s ds, digit_char c d -> digit_text s ds -> digit_text (c :: 95 :: s) (d :: ds).
Definition decimal_value (ds : list N) : N := fold_left (fun a d => 10 * a + d) ds 0.
(** [s] is an integer in text form, with value [z]: blanks around it, a sign if any, at most 4300 digits *)
Definition integer_text (s : str) (z : Z) : Prop :=
  exists a sign x ds b, s = a ++ sign ++ x ++ b /\ Forall blank_char a /\ Forall blank_char b /\ digit_text x ds /\
    N.of_nat (length ds) <= 4300 /\
    ((sign = nil \/ sign = [43]) /\ z = Z.of_N (decimal_value ds) \/ sign = [45] /\ z = (- Z.of_N (decimal_value ds))%Z).
End Spec.

(** ** Proof *)

Definition no_ud : N -> option N := fun _ => None.
Lemma no_ud_digit : forall c d, digit_char no_ud c d <-> is_digit c = true /\ d = c - 48.
Proof. intros c d. unfold digit_char, no_ud, is_digit. split; [intros [H|(_ & _ & H & _)]; [lia|discriminate]|intros H; left; lia]. Qed.

(** in a text after the translation: only ASCII blanks *)
Definition aspace (c : N) : Prop := c_space c = true.
Lemma aspace_iff : forall c, aspace c <-> 9 <= c <= 13 \/ c = 32.
Proof. intros c. unfold aspace, c_space. lia. Qed.
Definition aint (s : str) (z : Z) : Prop :=
  exists a sign x ds b, s = a ++ sign ++ x ++ b /\ Forall aspace a /\ Forall aspace b /\ digit_text no_ud x ds /\
    N.of_nat (length ds) <= 4300 /\
    ((sign = nil \/ sign = [43]) /\ z = Z.of_N (decimal_value ds) \/ sign = [45] /\ z = (- Z.of_N (decimal_value ds))%Z).

Definition stops (rest : str) : Prop := match rest with nil => True | c :: _ => is_digit c = false /\ c <> 95 end.
Lemma scan_iff : forall s c acc n us v m rest, is_digit c = true ->
  (scan_digits (c :: s) acc n us = Some (v, m, rest) <->
   exists x ds, c :: s = x ++ rest /\ digit_text no_ud x ds /\ v = fold_left (fun a d => 10 * a + d) ds acc /\ m = (n + length ds)%nat /\ stops rest).
Proof.
  intros s. remember (length s) as k eqn:K. revert s K. induction k as [k IH] using lt_wf_ind. intros s -> c acc n us v m rest Hc.
  cbn [scan_digits]. rewrite Hc.
  assert (D : digit_char no_ud c (c - 48)) by (apply no_ud_digit; auto).
  destruct s as [|e s].
  - cbn [scan_digits]. split.
    + intros H. injection H as <- <- <-. exists [c], [c - 48]. split; [reflexivity|]. split; [constructor; exact D|]. split; [reflexivity|]. split; [cbn; lia|exact I].
    + intros (x & ds & E & G & -> & -> & _). inversion G as [c1 d1 D1|c1 d1 x1 ds1 D1 G1|c1 d1 x1 ds1 D1 G1]; subst; cbn in E; injection E as -> E.
      * destruct rest; [|discriminate]. apply no_ud_digit in D1 as [_ ->]. cbn. do 3 f_equal. lia.
      * destruct x1; [inversion G1|discriminate].
      * discriminate.
  - destruct (is_digit e) eqn:He.
    + assert (L : (length s < length (e :: s))%nat) by (cbn; lia). rewrite (IH _ L s eq_refl e _ _ _ v m rest He). split.
      * intros (x & ds & E & G & -> & -> & S). exists (c :: x), ((c - 48) :: ds). split; [cbn; congruence|]. split; [constructor; assumption|]. cbn. split; [reflexivity|]. split; [lia|exact S].
      * intros (x & ds & E & G & -> & -> & S). inversion G as [c1 d1 D1|c1 d1 x1 ds1 D1 G1|c1 d1 x1 ds1 D1 G1]; subst; cbn in E; injection E as -> E.
        -- subst rest. cbn in S. destruct S. congruence.
        -- apply no_ud_digit in D1 as [_ ->]. exists x1, ds1. split; [exact E|]. split; [exact G1|]. cbn. split; [reflexivity|]. split; [lia|exact S].
        -- subst e. discriminate He.
    + cbn [scan_digits]. rewrite He. destruct (N.eqb_spec e 95) as [->|Ne].
      * destruct s as [|f s].
        { cbn [scan_digits]. split; [discriminate|]. intros (x & ds & E & G & _ & _ & S).
          inversion G as [c1 d1 D1|c1 d1 x1 ds1 D1 G1|c1 d1 x1 ds1 D1 G1]; subst; cbn in E; injection E as -> E.
          - subst rest. cbn in S. destruct S. congruence.
          - inversion G1 as [c2 d2 D2|c2 d2 x2 ds2 D2 G2|c2 d2 x2 ds2 D2 G2]; subst; cbn in E; apply no_ud_digit in D2 as [D2 _]; injection E; intros; subst; first [discriminate D2|congruence].
          - destruct x1; [inversion G1|discriminate]. }
        destruct (is_digit f) eqn:Hf.
        { assert (L : (length s < length (95%N :: f :: s))%nat) by (cbn; lia). rewrite (IH _ L s eq_refl f _ _ _ v m rest Hf). split.
          - intros (x & ds & E & G & -> & -> & S). exists (c :: 95 :: x), ((c - 48) :: ds). split; [cbn; congruence|]. split; [constructor; assumption|]. cbn. split; [reflexivity|]. split; [lia|exact S].
          - intros (x & ds & E & G & -> & -> & S). inversion G as [c1 d1 D1|c1 d1 x1 ds1 D1 G1|c1 d1 x1 ds1 D1 G1]; subst; cbn in E; injection E as -> E.
            + subst rest. cbn in S. destruct S. congruence.
            + exfalso. inversion G1 as [c2 d2 D2|c2 d2 x2 ds2 D2 G2|c2 d2 x2 ds2 D2 G2]; subst; cbn in E; apply no_ud_digit in D2 as [D2 _]; injection E; intros; subst; first [discriminate D2|congruence].
            + apply no_ud_digit in D1 as [_ ->]. exists x1, ds1. split; [exact E|]. split; [exact G1|]. cbn. split; [reflexivity|]. split; [lia|exact S]. }
        cbn [scan_digits]. rewrite Hf. split; [destruct (f =? 95); discriminate|].
        intros (x & ds & E & G & _ & _ & S). exfalso. inversion G as [c1 d1 D1|c1 d1 x1 ds1 D1 G1|c1 d1 x1 ds1 D1 G1]; subst; cbn in E; injection E as -> E.
        -- subst rest. cbn in S. destruct S. congruence.
        -- inversion G1 as [c2 d2 D2|c2 d2 x2 ds2 D2 G2|c2 d2 x2 ds2 D2 G2]; subst; cbn in E; apply no_ud_digit in D2 as [D2 _]; injection E; intros; subst; first [discriminate D2|congruence].
        -- inversion G1 as [c2 d2 D2|c2 d2 x2 ds2 D2 G2|c2 d2 x2 ds2 D2 G2]; subst; cbn in E; apply no_ud_digit in D2 as [D2 _]; injection E; intros; subst; first [discriminate D2|congruence].
      * split.
        { intros H. injection H as <- <- <-. exists [c], [c - 48]. split; [reflexivity|]. split; [constructor; exact D|]. split; [reflexivity|]. split; [cbn; lia|split; assumption]. }
        intros (x & ds & E & G & -> & -> & S). inversion G as [c1 d1 D1|c1 d1 x1 ds1 D1 G1|c1 d1 x1 ds1 D1 G1]; subst; cbn in E; injection E as -> E.
        -- subst rest. apply no_ud_digit in D1 as [_ ->]. cbn. do 3 f_equal. lia.
        -- exfalso. inversion G1 as [c2 d2 D2|c2 d2 x2 ds2 D2 G2|c2 d2 x2 ds2 D2 G2]; subst; cbn in E; apply no_ud_digit in D2 as [D2 _]; injection E; intros; subst; first [discriminate D2|congruence].
        -- exfalso. congruence.
Qed.

Lemma skip_spec : forall s, exists a, s = a ++ skip_c_space s /\ Forall aspace a.
Proof.
  induction s as [|c s (a & E & F)]; [exists nil; auto|]. cbn [skip_c_space]. destruct (c_space c) eqn:C; [|exists nil; auto].
  exists (c :: a). split; [cbn; congruence|constructor; assumption].
Qed.
Lemma skip_app : forall a r, Forall aspace a -> skip_c_space (a ++ r) = skip_c_space r.
Proof. induction a as [|c a IH]; intros r F; [reflexivity|]. inversion F; subst. cbn [app skip_c_space]. unfold aspace in *. rewrite H1. auto. Qed.
Lemma skip_all : forall b, skip_c_space b = nil <-> Forall aspace b.
Proof.
  intros b. split; intros H.
  - destruct (skip_spec b) as (a & E & F). rewrite H, app_nil_r in E. subst. exact F.
  - rewrite <- (app_nil_r b). rewrite skip_app by exact H. reflexivity.
Qed.
Lemma digit_text_head : forall x ds, digit_text no_ud x ds -> exists c r, x = c :: r /\ is_digit c = true.
Proof. intros x ds G. destruct G as [c d D|c d s ds D G|c d s ds D G]; apply no_ud_digit in D as [D _]; eauto. Qed.

(** what is done after the translation *)
Definition core (s : str) : option Z :=
  let s := skip_c_space s in
  let '(neg, s) :=
    match s with
    | c :: r => if c =? 43 then (false, r) else if c =? 45 then (true, r) else (false, s)
    | nil => (false, s)
    end in
  match s with
  | c :: _ =>
    if is_digit c then
      match scan_digits s 0 0%nat false with
      | Some (v, n, rest) =>
        match skip_c_space rest with
        | nil => if max_str_digits <? N.of_nat n then None
                 else Some (if neg then (- Z.of_N v)%Z else Z.of_N v)
        | _ => None
        end
      | None => None
      end
    else None
  | nil => None
  end.
Definition tail_part (neg : bool) (s : str) (z : Z) : Prop :=
  exists x ds b, s = x ++ b /\ Forall aspace b /\ digit_text no_ud x ds /\ N.of_nat (length ds) <= 4300 /\
    z = if neg then (- Z.of_N (decimal_value ds))%Z else Z.of_N (decimal_value ds).
Lemma tail_iff : forall (neg : bool) (s : str) (z : Z),
  match s with
  | c :: _ =>
    if is_digit c then
      match scan_digits s 0 0%nat false with
      | Some (v, n, rest) =>
        match skip_c_space rest with
        | nil => if max_str_digits <? N.of_nat n then None
                 else Some (if neg then (- Z.of_N v)%Z else Z.of_N v)
        | _ => None
        end
      | None => None
      end
    else None
  | nil => None
  end = Some z <-> tail_part neg s z.
Proof.
  intros neg s z. destruct s as [|c s].
  { split; [discriminate|]. intros (x & ds & b & E & _ & G & _). destruct (digit_text_head _ _ G) as (c & r & -> & _). discriminate. }
  destruct (is_digit c) eqn:C.
  2: { split; [discriminate|]. intros (x & ds & b & E & _ & G & _). destruct (digit_text_head _ _ G) as (c' & r & -> & D). injection E as -> _. congruence. }
  split.
  - destruct (scan_digits (c :: s) 0 0 false) as [[[v n] rest]|] eqn:Q; [|discriminate]. apply (scan_iff s c) in Q; [|exact C].
    destruct Q as (x & ds & E & G & -> & -> & _). destruct (skip_c_space rest) eqn:K; [|discriminate]. apply skip_all in K.
    unfold max_str_digits. destruct (N.ltb_spec 4300 (N.of_nat (0 + length ds))) as [L|L]; [discriminate|]. intros H. injection H as <-.
    exists x, ds, rest. split; [exact E|]. split; [exact K|]. split; [exact G|]. split; [exact L|reflexivity].
  - intros (x & ds & b & E & F & G & L & ->).
    assert (Q : scan_digits (c :: s) 0 0 false = Some (fold_left (fun a d => 10 * a + d) ds 0, (0 + length ds)%nat, b)).
    { apply (scan_iff s c); [exact C|]. exists x, ds. split; [exact E|]. split; [exact G|]. split; [reflexivity|]. split; [reflexivity|].
      destruct b as [|e b]; [exact I|]. inversion F; subst. apply aspace_iff in H1. unfold stops, is_digit. lia. }
    rewrite Q. apply skip_all in F. rewrite F. unfold max_str_digits. destruct (N.ltb_spec 4300 (N.of_nat (0 + length ds))) as [L'|_]; [exfalso; cbn in L'; lia|]. reflexivity.
Qed.
Lemma core_iff : forall s z, core s = Some z <-> aint s z.
Proof.
  intros s z. unfold core. split.
  - intros H. destruct (skip_spec s) as (a & E & F). destruct (skip_c_space s) as [|c r] eqn:K; [discriminate|].
    destruct (N.eqb_spec c 43) as [->|N1]; [apply (tail_iff false) in H|destruct (N.eqb_spec c 45) as [->|N2]; [apply (tail_iff true) in H|apply (proj1 (tail_iff false (c :: r) z)) in H]]; destruct H as (x & ds & b & E' & Fb & G & L & ->).
    + exists a, [43], x, ds, b. subst s r. split; [reflexivity|]. auto 10.
    + exists a, [45], x, ds, b. subst s r. split; [reflexivity|]. auto 10.
    + exists a, nil, x, ds, b. rewrite E' in E. subst s. split; [reflexivity|]. auto 10.
  - intros (a & sign & x & ds & b & -> & Fa & Fb & G & L & Z). rewrite skip_app by exact Fa. destruct (digit_text_head _ _ G) as (c & r & X & D).
    destruct Z as [[[->| ->] ->]|[-> ->]]; cbn [app].
    + rewrite X. cbn [app skip_c_space]. assert (S : c_space c = false) by (unfold c_space, is_digit in *; lia). rewrite S.
      assert (N1 : c =? 43 = false) by (unfold is_digit in D; lia). assert (N2 : c =? 45 = false) by (unfold is_digit in D; lia). rewrite N1, N2.
      apply (proj2 (tail_iff false (c :: r ++ b) _)). exists x, ds, b. rewrite X in *. auto.
    + cbn [skip_c_space]. change (c_space 43) with false. change (43 =? 43) with true. cbv iota. apply (tail_iff false). exists x, ds, b. auto.
    + cbn [skip_c_space]. change (c_space 45) with false. change (45 =? 43) with false. change (45 =? 45) with true. cbv iota. apply (tail_iff true). exists x, ds, b. auto.
Qed.

(** *** The translation *)
Section Translate.
Variable ud : N -> option N.

Definition norm (c : N) : N :=
  if c <? 127 then c else if is_space c then 32 else match decimal_of ud c with Some d => 48 + d | None => 63 end.
Lemma translate_map : forall s, ~ In 63 (to_ascii_decimal ud s) -> to_ascii_decimal ud s = map norm s.
Proof.
  induction s as [|c s IH]; intros H; [reflexivity|]. cbn [to_ascii_decimal map] in *. unfold norm at 1.
  destruct (c <? 127); [|destruct (is_space c); [|destruct (decimal_of ud c)]]; try (rewrite IH; [reflexivity|intros X; apply H; right; exact X]).
  exfalso. apply H. left. reflexivity.
Qed.
Lemma map_translate : forall s, ~ In 63 (map norm s) -> to_ascii_decimal ud s = map norm s.
Proof.
  induction s as [|c s IH]; intros H; [reflexivity|]. cbn [to_ascii_decimal map] in *. unfold norm at 1. unfold norm at 1 in H.
  destruct (c <? 127); [|destruct (is_space c); [|destruct (decimal_of ud c)]]; try (rewrite IH; [reflexivity|intros X; apply H; right; exact X]).
  exfalso. apply H. left. reflexivity.
Qed.
Lemma decimal_of_some : forall c d, decimal_of ud c = Some d <-> 128 <= c /\ ud c = Some d /\ d < 10.
Proof.
  intros c d. unfold decimal_of. destruct (N.ltb_spec c 128); [split; [discriminate|lia]|]. destruct (ud c) as [e|]; [|split; [discriminate|intros (_ & X & _); discriminate]].
  destruct (N.ltb_spec e 10); split; try discriminate; intros X; [injection X as <-; auto|destruct X as (_ & X & _); exact X|destruct X as (_ & X & Y); injection X as ->; lia].
Qed.
Lemma norm_digit : forall c d, digit_char no_ud (norm c) d <-> digit_char ud c d.
Proof.
  intros c d. rewrite no_ud_digit. unfold norm, is_digit, digit_char. destruct (N.ltb_spec c 127) as [A|A].
  - split; intros H; [left; lia|]. destruct H as [H|H]; lia.
  - destruct (is_space c) eqn:S.
    + split; intros H; [exfalso; lia|]. destruct H as [H|(_ & H & _)]; [exfalso; lia|discriminate].
    + destruct (decimal_of ud c) as [e|] eqn:D.
      * apply decimal_of_some in D as (D1 & D2 & D3). split; intros H.
        -- right. split; [exact D1|]. split; [reflexivity|]. assert (d = e) by lia. subst. auto.
        -- destruct H as [H|(_ & _ & H & _)]; [exfalso; lia|]. assert (d = e) by congruence. lia.
      * split; intros H; [exfalso; lia|]. destruct H as [H|(H1 & _ & H2 & H3)]; [exfalso; lia|]. assert (X : decimal_of ud c = Some d) by (apply decimal_of_some; auto). congruence.
Qed.
Lemma norm_space : forall c, aspace (norm c) <-> blank_char c.
Proof.
  intros c. rewrite aspace_iff. unfold norm, blank_char. destruct (N.ltb_spec c 127) as [A|A]; [lia|]. destruct (is_space c) eqn:S.
  - split; [|lia]. intros _. right. right. split; [|reflexivity]. unfold is_space in S. lia.
  - split; [|intros [H|[H|[_ H]]]; [lia|lia|discriminate]]. destruct (decimal_of ud c) as [e|] eqn:D; [apply decimal_of_some in D|]; lia.
Qed.
Lemma norm_plain : forall c k, k < 48 -> k <> 32 -> norm c = k -> c = k.
Proof. intros c k L K H. unfold norm in H. destruct (c <? 127); [exact H|]. destruct (is_space c); [lia|]. destruct (decimal_of ud c); lia. Qed.
Lemma norm_under : forall c, norm c = 95 <-> c = 95.
Proof.
  intros c. unfold norm. split; intros H; [|subst; reflexivity]. destruct (c <? 127); [exact H|]. destruct (is_space c); [lia|].
  destruct (decimal_of ud c) eqn:D; [apply decimal_of_some in D|]; lia.
Qed.
Lemma norm_digits : forall x ds, digit_text no_ud (map norm x) ds <-> digit_text ud x ds.
Proof.
  intros x. split.
  - intros G. remember (map norm x) as y eqn:Y. revert x Y. induction G as [c d D|c d s ds D G IH|c d s ds D G IH]; intros x Y.
    + destruct x as [|c' [|? ?]]; try discriminate. injection Y as ->. apply norm_digit in D. constructor; exact D.
    + destruct x as [|c' x]; [discriminate|]. injection Y as -> ->. apply norm_digit in D. apply D_next; auto.
    + destruct x as [|c' [|u x]]; try discriminate. injection Y as -> Yu ->. apply norm_digit in D. symmetry in Yu. apply (proj1 (norm_under u)) in Yu. subst u. apply D_under; auto.
  - intros G. induction G as [c d D|c d s ds D G IH|c d s ds D G IH]; cbn [map].
    + constructor. apply norm_digit, D.
    + apply D_next; [apply norm_digit, D|exact IH].
    + change (norm 95) with 95. apply D_under; [apply norm_digit, D|exact IH].
Qed.
Lemma norm_spaces : forall a, Forall aspace (map norm a) <-> Forall blank_char a.
Proof. intros a. rewrite Forall_map. split; apply Forall_impl; intros c; apply norm_space. Qed.
Lemma aint_norm : forall s z, aint (map norm s) z <-> integer_text ud s z.
Proof.
  intros s z. split.
  - intros (a & sign & x & ds & b & E & Fa & Fb & G & L & Z). apply map_eq_app in E as (a' & r & -> & <- & E).
    apply map_eq_app in E as (sign' & r' & -> & Es & E). apply map_eq_app in E as (x' & b' & -> & <- & <-).
    exists a', sign', x', ds, b'. split; [reflexivity|]. split; [apply norm_spaces, Fa|]. split; [apply norm_spaces, Fb|]. split; [apply norm_digits, G|]. split; [exact L|].
    destruct Z as [[[->| ->] Z]|[-> Z]].
    + destruct sign'; [|discriminate]. left. auto.
    + destruct sign' as [|k [|? ?]]; try discriminate. injection Es as Es. apply norm_plain in Es; [|lia|lia]. subst. left. auto.
    + destruct sign' as [|k [|? ?]]; try discriminate. injection Es as Es. apply norm_plain in Es; [|lia|lia]. subst. right. auto.
  - intros (a & sign & x & ds & b & -> & Fa & Fb & G & L & Z). exists (map norm a), sign, (map norm x), ds, (map norm b).
    split; [rewrite !map_app; destruct Z as [[[->| ->] _]|[-> _]]; reflexivity|]. split; [apply norm_spaces, Fa|]. split; [apply norm_spaces, Fb|]. split; [apply norm_digits, G|]. auto.
Qed.
Lemma digits_no : forall x ds k, digit_text no_ud x ds -> In k x -> is_digit k = true \/ k = 95.
Proof.
  intros x ds k G. induction G as [c d D|c d s ds D G IH|c d s ds D G IH]; intros I; apply no_ud_digit in D as [D _].
  - destruct I as [<-|[]]. auto.
  - destruct I as [<-|I]; auto.
  - destruct I as [<-|[<-|I]]; auto.
Qed.
Lemma aint_no : forall t z k, aint t z -> In k t -> k <> 63 /\ k <> 127.
Proof.
  intros t z k (a & sign & x & ds & b & -> & Fa & Fb & G & _ & Z) I. rewrite Forall_forall in Fa, Fb.
  apply in_app_or in I as [I|I]; [apply Fa, aspace_iff in I; lia|]. apply in_app_or in I as [I|I].
  - destruct Z as [[[->| ->] _]|[-> _]]; cbn in I; intuition (subst; discriminate).
  - apply in_app_or in I as [I|I]; [|apply Fb, aspace_iff in I; lia]. apply (digits_no _ _ _ G) in I as [I|I]; [unfold is_digit in I|]; lia.
Qed.
Lemma ascii_norm : forall s, is_ascii s = true -> ~ In 127 s -> map norm s = s.
Proof.
  induction s as [|c s IH]; intros A H; [reflexivity|]. unfold is_ascii in *. cbn [forallb] in A. apply andb_true_iff in A as [A1 A2]. cbn [map].
  rewrite (IH A2) by (intros X; apply H; right; exact X). f_equal. unfold norm. assert (c <> 127) by (intros ->; apply H; left; reflexivity).
  destruct (N.ltb_spec c 127); [reflexivity|lia].
Qed.

(** [int(s)] succeeds for integers in text form, and gives their value *)
Theorem py_int_iff : forall s z, py_int ud s = Some z <-> integer_text ud s z.
Proof.
  intros s z. change (py_int ud s) with (core (if is_ascii s then s else to_ascii_decimal ud s)). rewrite core_iff, <- aint_norm.
  destruct (is_ascii s) eqn:A.
  - split; intros H.
    + rewrite ascii_norm; [exact H|exact A|]. intros I. destruct (aint_no _ _ _ H I). congruence.
    + rewrite <- (ascii_norm s A); [exact H|]. intros I. apply (in_map norm) in I. destruct (aint_no _ _ _ H I) as [X _]. apply X. reflexivity.
  - split; intros H.
    + rewrite <- translate_map; [exact H|]. intros I. destruct (aint_no _ _ _ H I). congruence.
    + rewrite map_translate; [exact H|]. intros I. destruct (aint_no _ _ _ H I). congruence.
Qed.
End Translate.

Print Assumptions py_int_iff.
